(** The frame layout. *)
From Coq Require Import ZArith List Bool Lia.
From Verif Require Import CBase CBaseProofs MemModel QpModel UtilModel UtilSpec UtilProofs FrmModel FrmSpec.
Import ListNotations.
Open Scope Z_scope.

Lemma int32_done z : -2147483648 <= z <= 2147483647 -> int32 z = Done z.
Proof. intros H. unfold int32. destruct (Z.leb_spec (-2147483648) z), (Z.leb_spec z 2147483647); try lia. reflexivity. Qed.

Lemma low_mask x : Z.land x (Z.lnot 31) = x / 32 * 32.
Proof.
  rewrite <- Z.ldiff_land. change 31 with (Z.ones 5). rewrite Z.ldiff_ones_r by lia.
  rewrite Z.shiftr_div_pow2, Z.shiftl_mul_pow2 by lia. reflexivity.
Qed.
Lemma align_ptr_spec e p : 1 <= e -> align_ptr e p mod 32 = 0 /\ p + 31 * e - 31 <= align_ptr e p <= p + 31 * e.
Proof.
  intros He. unfold align_ptr. rewrite low_mask. split; [apply Z.mod_mul; lia|].
  Z.div_mod_to_equations. lia.
Qed.

Lemma align_stride_ok x : 0 <= x <= 100000 -> exists s, align_stride x = Done s /\ s mod 32 = 0 /\ x <= s <= x + 63.
Proof.
  intros H. unfold align_stride. rewrite int32_done by lia. cbn [bindo]. rewrite low_mask.
  destruct (_ =? 0).
  - exists ((x + 31) / 32 * 32 + 32). rewrite int32_done by (Z.div_mod_to_equations; lia). split; [reflexivity|].
    split; [|Z.div_mod_to_equations; lia]. replace ((x + 31) / 32 * 32 + 32) with (((x + 31) / 32 + 1) * 32) by ring. apply Z.mod_mul. lia.
  - exists ((x + 31) / 32 * 32). split; [reflexivity|]. split; [apply Z.mod_mul; lia|Z.div_mod_to_equations; lia].
Qed.
Lemma plane_size_ok x : 0 <= x <= 2000000000 -> x mod 32 = 0 -> exists s, align_plane_size x = Done s /\ s mod 32 = 0 /\ x <= s <= x + 128.
Proof.
  intros H M. unfold align_plane_size. destruct (_ =? 0).
  - exists (x + 128). rewrite int32_done by lia. split; [reflexivity|]. split; [Z.div_mod_to_equations; lia|lia].
  - exists x. split; [reflexivity|]. lia.
Qed.

Lemma shr1 a k : 0 <= k -> Z.shiftr a k = a / 2 ^ k.
Proof. apply Z.shiftr_div_pow2. Qed.

Record geo_fact (w h fmt : Z) (extra : bool) (g : fgeo) : Prop := GF {
  gf_sl : w + 160 <= g_sl g <= w + 223; gf_sc : w / 2 + 80 <= g_sc g <= w / 2 + 143;
  gf_ml : g_sl g mod 32 = 0; gf_mc : g_sc g mod 32 = 0;
  gf_nl : g_sl g * (h + 160) + 32 <= g_nl g <= g_sl g * (h + 160) + 160;
  gf_nc : g_sc g * (chroma_lines h fmt + 80) + 32 <= g_nc g <= g_sc g * (chroma_lines h fmt + 80) + 160;
  gf_mnl : g_nl g mod 32 = 0; gf_mnc : g_nc g mod 32 = 0;
  gf_tot : g_tot g = g_nl g + 2 * g_nc g;
  gf_spu : g_spu g = if extra then (w / 4) * (h / 4) else 0;
  gf_rows : g_rows g = (h + 15) / 16;
  gf_big : 0 <= g_nl g <= 280000000 /\ 0 <= g_nc g <= 140000000 /\ 0 <= g_spu g <= 16777216 }.

Lemma mul_bound a b A B : 0 <= a <= A -> 0 <= b <= B -> 0 <= a * b <= A * B.
Proof. nia. Qed.
Lemma mod32_mul a b : a mod 32 = 0 -> (a * b) mod 32 = 0.
Proof. intros H. rewrite Z.mul_mod by lia. rewrite H. reflexivity. Qed.
Lemma mod32_add a b : a mod 32 = 0 -> b mod 32 = 0 -> (a + b) mod 32 = 0.
Proof. intros. Z.div_mod_to_equations. lia. Qed.

Lemma geo_ok w h fmt extra : frame_size_ok w h fmt -> exists g, frame_geo w h fmt extra = Done g /\ geo_fact w h fmt extra g.
Proof.
  intros (W & Hh & Wm & Hm & F). unfold frame_geo. rewrite int32_done by lia. cbn [bindo].
  assert (SP : 0 <= (w / 4) * (h / 4) <= 4096 * 4096) by (apply mul_bound; Z.div_mod_to_equations; lia).
  assert (E0 : (if extra then int32 (Z.shiftr w 2 * Z.shiftr h 2) else Done 0) = Done (if extra then (w / 4) * (h / 4) else 0)).
  { destruct extra; [|reflexivity]. rewrite !shr1 by lia. change (2 ^ 2) with 4. apply int32_done. lia. }
  rewrite E0. cbn [bindo]. clear E0.
  rewrite int32_done by lia. cbn [bindo].
  destruct (align_stride_ok (w + 160)) as (sl & -> & M1 & S1); [lia|]. cbn [bindo].
  rewrite (shr1 w 1) by lia. change (2 ^ 1) with 2.
  assert (W2 : 8 <= w / 2 <= 8192) by (Z.div_mod_to_equations; lia).
  rewrite int32_done by lia. cbn [bindo].
  destruct (align_stride_ok (w / 2 + 80)) as (sc & -> & M2 & S2); [lia|]. cbn [bindo].
  assert (HC : Z.shiftr h (if fmt =? 1 then 1 else 0) = chroma_lines h fmt).
  { unfold chroma_lines. destruct (fmt =? 1); rewrite shr1 by lia; [reflexivity|]. change (2 ^ 0) with 1. apply Z.div_1_r. }
  rewrite HC. assert (HB : 8 <= chroma_lines h fmt <= 16384).
  { unfold chroma_lines. destruct (fmt =? 1); Z.div_mod_to_equations; lia. }
  assert (P1 : 0 <= sl * (h + 160) <= 16607 * 16544) by (apply mul_bound; lia).
  assert (P2 : 0 <= sc * (chroma_lines h fmt + 80) <= 8335 * 16464) by (apply mul_bound; lia).
  rewrite int32_done by lia. cbn [bindo]. rewrite int32_done by lia. cbn [bindo].
  destruct (plane_size_ok (sl * (h + 160) + 32)) as (nl & -> & M3 & S3); [lia|apply mod32_add; [apply mod32_mul; exact M1|reflexivity]|]. cbn [bindo].
  rewrite int32_done by lia. cbn [bindo]. rewrite int32_done by lia. cbn [bindo].
  destruct (plane_size_ok (sc * (chroma_lines h fmt + 80) + 32)) as (nc & -> & M4 & S4); [lia|apply mod32_add; [apply mod32_mul; exact M2|reflexivity]|]. cbn [bindo].
  rewrite int32_done by lia. cbn [bindo]. rewrite int32_done by lia. cbn [bindo].
  eexists. split; [reflexivity|].
  constructor; cbn [g_wc g_hc g_sl g_sc g_nl g_nc g_tot g_spu g_rows]; try lia; try assumption.
  - rewrite shr1 by lia. change (2 ^ 4) with 16. f_equal. lia.
  - destruct extra; lia.
Qed.

(** Pieces in increasing order. *)
Fixpoint chain (lo : Z) (l : list area) (hi : Z) : Prop :=
  match l with
  | [] => lo <= hi
  | a :: r => lo <= fst a /\ 0 <= snd a /\ chain (fst a + snd a) r hi
  end.
Lemma chain_le l : forall lo hi, chain lo l hi -> lo <= hi.
Proof. induction l as [|a r IH]; intros lo hi H; cbn in H; [exact H|]. destruct H as (A & B & C). apply IH in C. lia. Qed.
Lemma chain_inside l : forall lo hi lo', lo' <= lo -> chain lo l hi -> Forall (fun a => lo' <= fst a /\ 0 <= snd a /\ fst a + snd a <= hi) l.
Proof.
  induction l as [|a r IH]; intros lo hi lo' L H; [constructor|]. cbn in H. destruct H as (A & B & C). constructor.
  - apply chain_le in C. lia.
  - eapply IH; [|exact C]. lia.
Qed.
Lemma chain_carved l : forall lo hi, chain lo l hi -> carved lo hi l.
Proof.
  intros lo hi H. split.
  - revert lo H. induction l as [|a r IH]; intros lo H; [constructor|]. cbn in H. destruct H as (A & B & C). constructor.
    + pose proof (chain_inside r _ _ _ (Z.le_refl _) C) as G. eapply Forall_impl; [|exact G]. cbv beta. intros b (G1 & G2 & G3). left. lia.
    + eapply IH. exact C.
  - pose proof (chain_inside l _ _ _ (Z.le_refl _) H) as G. eapply Forall_impl; [|exact G]. cbv beta. unfold inside. intros b. lia.
Qed.
Lemma chain_app l1 : forall lo mid l2 hi, chain lo l1 mid -> chain mid l2 hi -> chain lo (l1 ++ l2) hi.
Proof.
  induction l1 as [|a r IH]; intros lo mid l2 hi H1 H2.
  - cbn in *. destruct l2 as [|b s]; cbn in *; [lia|]. destruct H2 as (A & B & C). repeat split; try lia. exact C.
  - cbn in *. destruct H1 as (A & B & C). repeat split; try assumption. eapply IH; eassumption.
Qed.
Lemma chain_weaken l : forall lo hi lo' hi', lo' <= lo -> hi <= hi' -> chain lo l hi -> chain lo' l hi'.
Proof.
  induction l as [|a r IH]; intros lo hi lo' hi' H1 H2 H; cbn in *; [lia|]. destruct H as (A & B & C). repeat split; try lia.
  eapply IH; [apply Z.le_refl|exact H2|exact C].
Qed.

Lemma frame_new_ok P base w h fmt extra : plat_ok P -> frame_size_ok w h fmt ->
  exists l s, frame_new P base w h fmt extra = Done l /\ frame_get_size P w h fmt extra = Done s /\
    chain base (frame_areas P w h fmt extra l) (l_end l) /\ l_end l <= base + s - 37 /\ l_end l mod 32 = 0 /\ frame_aligned P w l.
Proof.
  intros (PB & PF & PC & _) S. destruct (geo_ok w h fmt extra S) as (g & E & GFs).
  unfold frame_new, frame_get_size. rewrite E. cbn [bindo]. cbv zeta.
  destruct GFs as [G1 G2 G3 G4 G5 G6 G7 G8 G9 G10 G11 (B1 & B2 & B3)].
  assert (RB : 1 <= g_rows g <= 1024) by (rewrite G11; destruct S as (_ & Hh & _); Z.div_mod_to_equations; lia).
  assert (CB : 0 <= sz_cond P * g_rows g <= 65536 * 1024) by (apply mul_bound; lia).
  assert (FB : 0 <= frame_bytes P g + 32 * 8 <= 2147483647).
  { unfold frame_bytes. destruct PB as [-> | ->]; lia. }
  rewrite int32_done by lia. cbn [bindo].
  pose proof (align_ptr_spec 1 (base + sz_frame P) ltac:(lia)) as [A1 A2]. set (q := align_ptr 1 (base + sz_frame P)) in *.
  pose proof (align_ptr_spec (sz_pel P) (q + sz_pel P * (g_sl g * 80 + 80)) ltac:(lia)) as [Y1 Y2].
  set (py := align_ptr (sz_pel P) (q + sz_pel P * (g_sl g * 80 + 80))) in *.
  pose proof (align_ptr_spec (sz_pel P) (q + sz_pel P * g_nl g + sz_pel P * (g_sc g * 40 + 40)) ltac:(lia)) as [U1 U2].
  set (pu := align_ptr (sz_pel P) (q + sz_pel P * g_nl g + sz_pel P * (g_sc g * 40 + 40))) in *.
  pose proof (align_ptr_spec (sz_pel P) (q + sz_pel P * g_nl g + sz_pel P * g_nc g + sz_pel P * (g_sc g * 40 + 40)) ltac:(lia)) as [V1 V2].
  set (pv := align_ptr (sz_pel P) (q + sz_pel P * g_nl g + sz_pel P * g_nc g + sz_pel P * (g_sc g * 40 + 40))) in *.
  set (pr := q + sz_pel P * g_tot g) in *.
  assert (PR : pr mod 32 = 0).
  { unfold pr. rewrite G9. apply mod32_add; [exact A1|]. rewrite Z.mul_comm. apply mod32_mul. apply mod32_add; [exact G7|]. rewrite Z.mul_comm. apply mod32_mul. exact G8. }
  pose proof (align_ptr_spec 1 (pr + g_spu g) ltac:(lia)) as [M1 M2]. set (pm := align_ptr 1 (pr + g_spu g)) in *.
  pose proof (align_ptr_spec 1 (pm + 4 * g_spu g) ltac:(lia)) as [C1 C2]. set (pe := align_ptr 1 (pm + 4 * g_spu g)) in *.
  set (pc := if extra then pe else pr) in *.
  assert (PC1 : pc mod 32 = 0) by (unfold pc; destruct extra; assumption).
  assert (PC2 : pr + 5 * g_spu g <= pc <= pr + 5 * g_spu g + 62) by (unfold pc; destruct extra; [lia|rewrite G10; lia]).
  pose proof (align_ptr_spec 1 (pc + sz_cond P * g_rows g) ltac:(lia)) as [N1 N2]. set (pn := align_ptr 1 (pc + sz_cond P * g_rows g)) in *.
  pose proof (align_ptr_spec 1 (pn + 4 * g_rows g) ltac:(lia)) as [Z1 Z2]. set (pz := align_ptr 1 (pn + 4 * g_rows g)) in *.
  assert (TOT : pz - base <= frame_bytes P g + 155) by (unfold frame_bytes; unfold pr in PC2; lia).
  replace (pz - base <=? frame_bytes P g + 32 * 8) with true by (symmetry; apply Z.leb_le; lia).
  exists (Flay base py pu pv (if extra then pr else 0) (if extra then pm else 0) pc pn pz g), (frame_bytes P g + 32 * 6).
  split; [reflexivity|]. split; [reflexivity|].
  assert (MS : forall a, a mod 32 = 0 -> (sz_pel P * a) mod 32 = 0) by (intros a Ha; rewrite Z.mul_comm; apply mod32_mul; exact Ha).
  split; [|split; [|split; [|unfold frame_aligned; cbn [l_geo l_y l_u l_v l_mvs l_cond l_cnt]; repeat split]]].
  - unfold frame_areas. cbn [l_hdr l_y l_u l_v l_refs l_mvs l_cond l_cnt l_end l_geo].
    rewrite <- G11. set (hc := chroma_lines h fmt) in *.
    assert (E1 : g_sl g * (h + 2 * 80) = g_sl g * (h + 160)) by ring.
    assert (E2 : g_sc g * (hc + 2 * 40) = g_sc g * (hc + 80)) by ring.
    assert (D : chain base [(base, sz_frame P); plane_area (sz_pel P) py (g_sl g) h 80;
                plane_area (sz_pel P) pu (g_sc g) hc 40; plane_area (sz_pel P) pv (g_sc g) hc 40] pr).
    { unfold plane_area. rewrite E1, E2. cbn [chain fst snd].
      set (PLx := g_sl g * (h + 160)) in *. set (PCx := g_sc g * (hc + 80)) in *. unfold pr. rewrite G9.
      assert (0 <= PLx) by (unfold PLx; destruct S as (? & ? & _); apply Z.mul_nonneg_nonneg; lia).
      assert (0 <= PCx).
      { unfold PCx, hc, chroma_lines. destruct S as (? & ? & _). apply Z.mul_nonneg_nonneg; [Z.div_mod_to_equations; lia|].
        destruct (fmt =? 1); Z.div_mod_to_equations; lia. }
      clear - PF G5 G6 Y2 U2 V2 A2 PB H H0. destruct PB as [E | E]; rewrite E in *; lia. }
    eapply chain_app; [exact D|].
    assert (D2 : chain pr (if extra then [(pr, w / 4 * (h / 4)); (pm, 4 * (w / 4 * (h / 4)))] else []) pc).
    { unfold pc. destruct extra; cbn [chain fst snd]; [rewrite <- G10; clear - M2 C2 B3; lia|lia]. }
    destruct extra; (eapply chain_app; [exact D2|]; cbn [chain fst snd]; clear - N2 Z2 CB RB; lia).
  - cbn [l_end]. lia.
  - cbn [l_end]. exact Z1.
  - lia.
  - lia.
  - apply MS; exact G3.
  - apply MS; exact G4.
  - exact Y1.
  - exact U1.
  - exact V1.
  - destruct extra; [exact M1|reflexivity].
  - exact PC1.
  - exact N1.
Qed.

Lemma align_fix p : p mod 32 = 0 -> align_ptr 1 p = p.
Proof. intros H. unfold align_ptr. rewrite low_mask. Z.div_mod_to_equations. lia. Qed.

Lemma frames_new_ok P w h fmt extra s : plat_ok P -> frame_size_ok w h fmt -> frame_get_size P w h fmt extra = Done s ->
  forall k p, exists r, frames_new P k p w h fmt extra = Done r /\ length (fst r) = k /\
    chain p (flat_map (frame_areas P w h fmt extra) (fst r)) (snd r) /\ snd r <= p + Z.of_nat k * s /\
    Forall (frame_aligned P w) (fst r).
Proof.
  intros HP HS Es. induction k as [|k IH]; intros p.
  - exists ([], p). cbn. repeat split; try lia. constructor.
  - destruct (frame_new_ok P p w h fmt extra HP HS) as (l & s' & E & E' & C & L & M & A).
    rewrite Es in E'. assert (s' = s) by congruence. subst s'.
    cbn [frames_new]. rewrite E. cbn [bindo]. rewrite align_fix by exact M.
    destruct (IH (l_end l)) as (r & Er & Ln & Cr & Lr & Ar). rewrite Er. cbn [bindo].
    exists (l :: fst r, snd r). cbn [fst snd flat_map length]. split; [reflexivity|]. split; [congruence|]. split; [|split].
    + eapply chain_app; eassumption.
    + replace (Z.of_nat (S k)) with (Z.of_nat k + 1) by lia. lia.
    + constructor; assumption.
Qed.

Lemma create_dpb_ok P base n w h fmt : plat_ok P -> frame_size_ok w h fmt ->
  exists size fs, create_dpb P base n w h fmt = Done (size, fs) /\ length fs = n /\
    carved base (base + size) ((base, Z.of_nat n * sz_ptr P) :: flat_map (frame_areas P w h fmt true) fs) /\
    Forall (frame_aligned P w) fs.
Proof.
  intros HP HS. unfold create_dpb.
  destruct (frame_new_ok P base w h fmt true HP HS) as (_ & s1 & _ & E1 & _).
  destruct (frame_new_ok P base w h fmt false HP HS) as (l0 & s0 & _ & E0 & C0 & L0 & _).
  rewrite E1, E0. cbn [bindo]. cbv zeta.
  destruct (frames_new_ok P w h fmt true s1 HP HS E1 n (align_ptr 1 (base + Z.of_nat n * sz_ptr P))) as (r & Er & Ln & Cr & Lr & Ar).
  rewrite Er. cbn [bindo]. eexists _, _. split; [reflexivity|]. split; [exact Ln|]. split; [|exact Ar].
  pose proof (align_ptr_spec 1 (base + Z.of_nat n * sz_ptr P) ltac:(lia)) as [_ A2].
  apply chain_le in C0. apply chain_carved. cbn [chain fst snd].
  split; [lia|]. split; [destruct HP as (_ & _ & _ & _ & _ & _ & HP); apply Z.mul_nonneg_nonneg; lia|].
  eapply chain_weaken; [| |exact Cr]; lia.
Qed.

Lemma carve_ok l : forall p, Forall (fun n => 0 <= n) l ->
  chain p (fst (carve p l)) (snd (carve p l)) /\ map snd (fst (carve p l)) = l /\
  snd (carve p l) <= p + fold_right mem_add 0 l + 31 * Z.of_nat (length l).
Proof.
  induction l as [|n l IH]; intros p H.
  - cbn. repeat split; lia.
  - apply Forall_cons_iff in H. destruct H as [Hn H]. cbn [carve].
    destruct (IH (align_ptr 1 (p + n)) H) as (I1 & I2 & I3).
    destruct (carve (align_ptr 1 (p + n)) l) as [a q]. cbn [fst snd chain map fold_right length] in *.
    pose proof (align_ptr_spec 1 (p + n) ltac:(lia)) as [_ A2].
    split; [|split].
    + split; [lia|]. split; [exact Hn|]. eapply chain_weaken; [| |exact I1]; lia.
    + congruence.
    + unfold mem_add at 1. lia.
Qed.

Lemma extra_bytes_nonneg P ab w h lv fmt : plat_ok P -> frame_size_ok w h fmt -> 0 <= ab -> 0 <= lv -> Forall (fun n => 0 <= n) (extra_bytes P ab w h lv).
Proof.
  intros (PB & PF & PC & PR & PL & PU & _) (W & H & _) A L. unfold extra_bytes.
  assert (0 < 2 ^ lv) by (apply Z.pow_pos_nonneg; lia).
  assert (Q : forall a b, 0 <= a -> 0 < b -> 0 <= a / b) by (intros; apply Z.div_pos; lia).
  repeat constructor; try exact A; repeat (apply Z.mul_nonneg_nonneg); try lia; try (apply Z.add_nonneg_nonneg; try lia); try (apply Q; lia).
Qed.

Lemma alloc_extra_ok P base ab w h fmt lv alf sao s1 s0 : plat_ok P -> frame_size_ok w h fmt -> 0 <= ab -> 0 <= lv ->
  frame_get_size P w h fmt true = Done s1 -> frame_get_size P w h fmt false = Done s0 ->
  let size := extra_size P ab w h lv s1 s0 alf sao in
  exists arrays fs1 fs2,
    (size <= 2147483647 -> alloc_extra P base ab w h fmt lv alf sao = Done (size, arrays, fs1 ++ fs2)) /\
    (forall r, alloc_extra P base ab w h fmt lv alf sao = Done r -> r = (size, arrays, fs1 ++ fs2)) /\
    map snd arrays = extra_bytes P ab w h lv /\ length fs1 = 2%nat /\
    length fs2 = ((if alf then 1 else 0) + (if sao then 1 else 0))%nat /\
    carved base (base + size) (arrays ++ flat_map (frame_areas P w h fmt true) fs1 ++ flat_map (frame_areas P w h fmt false) fs2).
Proof.
  intros HP HS HA HL E1 E0. unfold alloc_extra. cbv zeta. rewrite !shr1 by lia. change (2 ^ 2) with 4. change (2 ^ 3) with 8.
  fold (extra_bytes P ab w h lv).
  destruct (frame_new_ok P base w h fmt true HP HS) as (l1 & s1' & _ & E1' & C1 & L1 & _).
  destruct (frame_new_ok P base w h fmt false HP HS) as (l0 & s0' & _ & E0' & C0 & L0 & _).
  rewrite E1 in E1'. rewrite E0 in E0'. apply Done_inj in E1'. apply Done_inj in E0'. subst s1' s0'.
  apply chain_le in C1. apply chain_le in C0.
  rewrite E1, E0. cbn [bindo].
  pose proof (extra_bytes_nonneg P ab w h lv fmt HP HS HA HL) as NN.
  destruct (carve_ok (extra_bytes P ab w h lv) base NN) as (K1 & K2 & K3).
  destruct (carve base (extra_bytes P ab w h lv)) as [a p] eqn:EC. cbn [fst snd] in *.
  set (b2 := (if alf then 1 else 0) + (if sao then 1 else 0)).
  assert (Nb : Z.to_nat b2 = ((if alf then 1 else 0) + (if sao then 1 else 0))%nat) by (unfold b2; destruct alf, sao; reflexivity).
  assert (Zb : Z.of_nat (Z.to_nat b2) = b2) by (unfold b2; destruct alf, sao; reflexivity).
  destruct (frames_new_ok P w h fmt true s1 HP HS E1 2 p) as (r1 & Er1 & Ln1 & Cr1 & Lr1 & Ar1).
  destruct (frames_new_ok P w h fmt false s0 HP HS E0 (Z.to_nat b2) (snd r1)) as (r2 & Er2 & Ln2 & Cr2 & Lr2 & Ar2).
  rewrite Er1. cbn [bindo]. rewrite Er2. cbn [bindo].
  set (size := fold_right mem_add 0 (extra_bytes P ab w h lv) + (2 * s1 + b2 * s0) + 32 * 20).
  assert (SZ : extra_size P ab w h lv s1 s0 alf sao = size).
  { unfold extra_size, size, b2. change mem_add with Z.add. destruct alf, sao; ring. }
  rewrite SZ. exists a, (fst r1), (fst r2).
  assert (LEN : Z.of_nat (length (extra_bytes P ab w h lv)) = 12) by reflexivity.
  assert (Hend : snd r2 <= base + size - 268) by (unfold size; lia).
  assert (Hpos : base <= snd r2) by (apply chain_le in K1; apply chain_le in Cr1; apply chain_le in Cr2; lia).
  split; [|split; [|split; [|split; [|split]]]].
  - intros Le. replace (to_i32 size) with size by (unfold to_i32; rewrite Z.mod_small by lia; lia).
    replace (size <? snd r2 - base) with false by (symmetry; apply Z.ltb_ge; lia). reflexivity.
  - intros r Hr. destruct (to_i32 size <? snd r2 - base); congruence.
  - exact K2.
  - exact Ln1.
  - congruence.
  - apply chain_carved. eapply chain_app; [exact K1|]. eapply chain_app; [exact Cr1|]. eapply chain_weaken; [| |exact Cr2]; lia.
Qed.
