(** Lemmas about the 4x4 transform in assembly, and the reconstruction. *)
From Coq Require Import ZArith List Bool Lia.
From Verif Require Import CBase HdrModel MemModel MemProofs UtilModel UtilProofs SynModel SynSpec VxModelBase VdModel ViModel VjModel TrModel AlfSpec McSpec TrSpec TrProofs TrProofsB
  VtModel VtModelG VtSpec VtProofs VtProofsB VtProofsG XaModel XaSpec XaProofs.
Import ListNotations.
Open Scope Z_scope.

(** ** The transform. *)
Definition plainform (w : wsym) (id : Z) : bool := match w with V a => a =? id | _ => false end.
Definition plain_check (bh bv : nat) (p : list ins) : bool :=
  match srun (recog (Z.of_nat bh) (basis_rows bv bv) (basis_rows bh bh)) p with
  | Some log => chk_log false (Z.of_nat bh) (Z.of_nat bv) (fun w x y => plainform w (8192 + y * 64 + x)) log && chk_cover false (Z.of_nat bh) (Z.of_nat bv) log
  | None => false end.
Lemma plain_ok bh bv p : plain_check bh bv p = true -> (0 < bh <= 64)%nat -> (0 < bv <= 64)%nat -> (bh * bv <= 4096 - 64)%nat ->
  forall d src dst stride regs ints m, mc_depth d -> Z.of_nat bh <= stride ->
  (forall u v, 0 <= u < Z.of_nat bh -> 0 <= v < Z.of_nat bv -> -32768 <= m (src + v * Z.of_nat bh + u) <= 32767) ->
  (forall x y, 0 <= x < Z.of_nat bh -> 0 <= y < Z.of_nat bv ->
     run p (kernel_params d 0) src dst stride regs ints m (dst + y * stride + x) =
     lim 16 (rshift (zsum bh (fun u => basis (Z.of_nat bh) u x * col_pass bv (fun u v => m (src + v * Z.of_nat bh + u)) u y)) (20 - d))) /\
  (forall q, ~ in_block bh bv dst stride q -> run p (kernel_params d 0) src dst stride regs ints m q = m q).
Proof.
  intros Hc Bh Bv Sz d src dst stride regs ints m Hd Hs C16. unfold plain_check in Hc.
  destruct (srun _ p) as [log|] eqn:E1; [|discriminate]. apply andb_true_iff in Hc. destruct Hc as [H1 H2].
  assert (Hf : 0 <= 0 <= 1) by lia. pose proof (params_vals d 0 Hd Hf) as PV.
  assert (SR : forall q, run p (kernel_params d 0) src dst stride regs ints m q = log_mem (val bh bv bh bv d 0 src m) dst stride m log q).
  { refine (srun_ok _ (val bh bv bh bv d 0 src m) (kernel_params d 0) src dst stride m _ _ _ _ _ _ p log regs ints E1).
    - apply val_16; assumption.
    - reflexivity.
    - apply val_par.
    - intros id Hi. unfold val. destruct (Z.ltb_spec id 4096); [reflexivity|lia].
    - lia.
    - apply recog_ok; try assumption; apply le_n. }
  destruct (log_spec false (Z.of_nat bh) (Z.of_nat bv) _ ltac:(lia) (val bh bv bh bv d 0 src m) dst stride m Hs log H1 H2) as [L1 L2]. split.
  - intros x y Hx Hy. rewrite SR. destruct (L1 x y Hx Hy) as (w & G & ->).
    destruct w as [|a| | | |]; cbn [plainform] in G; try discriminate. apply Z.eqb_eq in G. subst a. cbn [weval]. rewrite val_res by lia.
    destruct PV as (A1 & A2 & _). unfold vres. rewrite A1, A2. rewrite Z.sub_0_r. unfold mc_depth in Hd. rewrite Z.shiftr_div_pow2 by lia.
    rewrite (zsum_ext bh _ (fun u => basis (Z.of_nat bh) u x * col_pass bv (fun u v => m (src + v * Z.of_nat bh + u)) u y)).
    + unfold lim, clamp, rshift. destruct (Z.eqb_spec (20 - d) 0); [lia|]. unfold sat_i16. reflexivity.
    + intros u Hu. f_equal. apply vcol_spec with (kh := bh); try assumption; try apply le_n. intros u' v' Hu' Hv' Hb. lia.
  - intros q Nq. rewrite SR. apply L2. intros (x & y & Hx & Hy & ->). apply Nq. exists x, y. auto.
Qed.
Lemma asm_checked : plain_check 4 4 idct_4x4_asm = true.
Proof. vm_compute. reflexivity. Qed.
Lemma asm_raw d src dst stride regs ints m : mc_depth d -> 4 <= stride ->
  (forall u v, 0 <= u < 4 -> 0 <= v < 4 -> -32768 <= m (src + v * 4 + u) <= 32767) ->
  (forall x y, 0 <= x < 4 -> 0 <= y < 4 ->
     run idct_4x4_asm (kernel_params d 0) src dst stride regs ints m (dst + y * stride + x) = residual16 d (fun u v => m (src + v * 4 + u)) x y) /\
  (forall q, ~ in_block 4 4 dst stride q -> run idct_4x4_asm (kernel_params d 0) src dst stride regs ints m q = m q).
Proof. intros Hd Hs C16. exact (plain_ok 4 4 _ asm_checked ltac:(lia) ltac:(lia) ltac:(lia) d src dst stride regs ints m Hd Hs C16). Qed.
Lemma col_range bv c u y : -32768 <= col_pass bv c u y <= 32767.
Proof. unfold col_pass, lim, clamp. change (2 ^ (16 - 1)) with 32768. lia. Qed.
Lemma raw_range c x y : 0 <= x < 4 -> -1024 <= residual16 8 c x y <= 1024.
Proof.
  intros Hx. unfold residual16. set (f := fun u => basis 4 u x * col_pass 4 c u y).
  pose proof (col_range 4 c 0 y) as R0. pose proof (col_range 4 c 1 y) as R1. pose proof (col_range 4 c 2 y) as R2. pose proof (col_range 4 c 3 y) as R3.
  assert (B : -4128768 <= zsum 4 f <= 4128768).
  { cbn [zsum]. unfold f. cbn [Z.of_nat Pos.of_succ_nat Pos.succ]. set (a0 := col_pass 4 c 0 y) in *. set (a1 := col_pass 4 c 1 y) in *. set (a2 := col_pass 4 c 2 y) in *. set (a3 := col_pass 4 c 3 y) in *.
    clearbody a0 a1 a2 a3. clear f. assert (E : x = 0 \/ x = 1 \/ x = 2 \/ x = 3) by lia. destruct E as [->|[->|[->| ->]]].
    - change (basis 4 0 0) with 32. change (basis 4 1 0) with 42. change (basis 4 2 0) with 32. change (basis 4 3 0) with 17. lia.
    - change (basis 4 0 1) with 32. change (basis 4 1 1) with 17. change (basis 4 2 1) with (-32). change (basis 4 3 1) with (-42). lia.
    - change (basis 4 0 2) with 32. change (basis 4 1 2) with (-17). change (basis 4 2 2) with (-32). change (basis 4 3 2) with 42. lia.
    - change (basis 4 0 3) with 32. change (basis 4 1 3) with (-42). change (basis 4 2 3) with 32. change (basis 4 3 3) with (-17). lia. }
  unfold lim, clamp, rshift. change (20 - 8) with 12. cbn [Z.eqb]. change (2 ^ (12 - 1)) with 2048. change (2 ^ 12) with 4096. change (2 ^ (16 - 1)) with 32768.
  generalize dependent (zsum 4 f). intros z B. pose proof (Z.div_le_mono (-4128768) (z + 2048) 4096 ltac:(lia) ltac:(lia)). pose proof (Z.div_le_mono (z + 2048) 4130816 4096 ltac:(lia) ltac:(lia)).
  change (-4128768 / 4096) with (-1008) in *. change (4130816 / 4096) with 1008 in *. lia.
Qed.
Lemma raw_residual d c x y : mc_depth d -> residual 4 4 0 d c x y = Z.max (- 2 ^ d) (Z.min (2 ^ d - 1) (residual16 d c x y)).
Proof.
  intros Hd. unfold mc_depth in Hd. unfold residual, residual16. rewrite Z.sub_0_r. change (Z.of_nat 4) with 4. set (z := rshift _ _). unfold lim, clamp. change (2 ^ (16 - 1)) with 32768. replace (d + 1 + 0 - 1) with d by lia.
  assert (2 ^ d <= 2 ^ 12) by (apply Z.pow_le_mono_r; lia). change (2 ^ 12) with 4096 in *. assert (0 < 2 ^ d) by (apply Z.pow_pos_nonneg; lia). lia.
Qed.

(** ** The addition, for a whole block. *)
Lemma sat_clip v : sat_u8 v = clip1 8 v.
Proof. rewrite clip1_eq by lia. unfold sat_u8. change (2 ^ 8) with 256. lia. Qed.
Lemma put_block s st r p rs w h (m : mem) : 0 < w <= st -> 0 <= h ->
  forall a, put s st r p rs 0 h 0 w m a = add_ps 8 (Z.to_nat w) (Z.to_nat h) s st r p rs m a.
Proof.
  intros Hw Hh a. destruct (add_ps_spec 8 (Z.to_nat w) (Z.to_nat h) s st r p rs m ltac:(lia)) as [A B]. cbv zeta in A, B.
  unfold put, area. destruct (split_a s st w Hw a) as [E R].
  destruct (Z.leb_spec 0 (Y s st a)); [destruct (Z.ltb_spec (Y s st a) (0 + h)); [destruct (Z.leb_spec 0 (X s st a)); [destruct (Z.ltb_spec (X s st a) (0 + w))|]|]|]; cbn [andb]; try lia;
  [rewrite E at 3; unfold bpos in A; rewrite A by lia; rewrite <- E; unfold F; apply sat_clip|..].
  all: symmetry; apply B; intros (x & y & Hx & Hy & Ea); unfold bpos in Ea; destruct (at_yx s st w Hw y x ltac:(lia)) as [Ey Ex]; rewrite <- Ea in Ey, Ex; lia.
Qed.

Definition asm_width (w : Z) : Prop := w = 4 \/ w = 8 \/ w = 16 \/ w = 32 \/ w = 64.
Lemma add_asm_ok avx2 w h s st r p rs (m : mem) : asm_width w -> 0 <= h -> h mod 4 = 0 -> w <= st -> bytes m ->
  (forall x y, 0 <= x < w -> 0 <= y < h -> -32768 <= r (p + y * rs + x) <= 32512) ->
  exists m1, add_ps_asm s st r p rs avx2 w h m = Some m1 /\ forall a, m1 a = add_ps 8 (Z.to_nat w) (Z.to_nat h) s st r p rs m a.
Proof.
  intros W Hh H4 Hs Hm Hr. assert (Hw : 0 < w <= st) by (destruct W as [->|[->|[->|[->| ->]]]]; lia).
  pose proof (put_block s st r p rs w h m Hw Hh) as P.
  assert (E4 : 4 * (h / 4) = h) by (pose proof (Z.div_mod h 4); lia). assert (E2 : 2 * (2 * (h / 4)) = h) by lia.
  assert (E2' : 2 * (h / 2) = h).
  { replace h with (h / 4 * 2 * 2) at 1 by lia. rewrite Z.div_mul by lia. lia. }
  assert (T : forall k f n, turn_ok s st r p rs w h k f -> 0 < k -> k * n = h -> forall a, turns k n f m a = add_ps 8 (Z.to_nat w) (Z.to_nat h) s st r p rs m a).
  { intros k f n T Hk En a. rewrite (turns_ok s st r p rs w h Hw k f n m T Hk ltac:(nia) ltac:(lia) Hm). rewrite En. apply P. }
  unfold add_ps_asm. destruct W as [->|[->|[->|[->| ->]]]]; cbn [Z.eqb Pos.eqb orb]; eexists; (split; [reflexivity|]).
  - apply T; [apply (narrow_ok s st r p rs 4 h Hw Hr); lia|lia|lia].
  - apply T; [apply (narrow_ok s st r p rs 8 h Hw Hr); lia|lia|lia].
  - destruct avx2; apply T; [apply (avx16_ok s st r p rs 16 h Hw Hr); lia|lia|lia|apply (sse16_ok s st r p rs 16 h Hw Hr); lia|lia|lia].
  - destruct avx2; apply T; [apply (avx32_ok s st r p rs 32 h Hw Hr); lia|lia|lia|apply (sse32_ok s st r p rs 32 h Hw Hr); lia|lia|lia].
  - destruct avx2; apply T; [apply (avx64_ok s st r p rs 64 h Hw Hr); lia|lia|lia|apply (sse64_ok s st r p rs 64 h Hw Hr); lia|lia|lia].
Qed.

(** ** The reconstruction of a 4x4 block. *)
Lemma recon_4x4 avx2 s st p rs regs ints t0 c m : 4 <= st -> 4 <= rs -> bytes m ->
  (forall u v, 0 <= u < 4 -> 0 <= v < 4 -> -32768 <= c (p + v * 4 + u) <= 32767) ->
  exists m1, add_ps_asm s st (run idct_4x4_asm (kernel_params 8 0) p p rs regs ints c) p rs avx2 4 4 m = Some m1 /\
    forall a, m1 a = add_ps 8 4 4 s st (idct_4x4 8 p rs t0 c) p rs m a.
Proof.
  intros Hs Hrs Hm C16. assert (Hd : mc_depth 8) by (unfold mc_depth; lia).
  destruct (asm_raw 8 p p rs regs ints c Hd Hrs C16) as [R1 _]. set (r1 := run _ _ _ _ _ _ _ c) in *.
  destruct (idct_hv_spec 4 4 0 8 p rs t0 c ltac:(unfold points; auto) ltac:(unfold points; auto) ltac:(lia) Hd ltac:(lia)) as [C1 _].
  destruct (add_asm_ok avx2 4 4 s st r1 p rs m) as (m1 & E & A); [unfold asm_width; lia|lia|reflexivity|exact Hs|exact Hm| |].
  { intros x y Hx Hy. rewrite R1 by lia. pose proof (raw_range (fun u v => c (p + v * 4 + u)) x y Hx). lia. }
  exists m1. split; [exact E|]. intros a. rewrite A. change (Z.to_nat 4) with 4%nat.
  destruct (add_ps_spec 8 4 4 s st r1 p rs m ltac:(lia)) as [A1 A2]. destruct (add_ps_spec 8 4 4 s st (idct_4x4 8 p rs t0 c) p rs m ltac:(lia)) as [B1 B2]. cbv zeta in *.
  destruct (in_block_dec 4 4 s st a ltac:(lia)) as [(x & y & Hx & Hy & ->)|N]; [|rewrite A2, B2 by exact N; reflexivity].
  rewrite A1, B1 by assumption. unfold bpos, idct_4x4. rewrite R1, C1 by lia. rewrite raw_residual by exact Hd. change (Z.of_nat 4) with 4.
  set (v := residual16 _ _ _ _). pose proof (Hm (s + y * st + x)). change (2 ^ 8) with 256. rewrite !clip1_eq by lia. change (2 ^ 8) with 256. lia.
Qed.

(** ** Any block, with the vector functions of C98. *)
Lemma block_size_asm w h : In (w, h) block_sizes -> asm_width w /\ 0 <= h /\ h mod 4 = 0 /\ 0 < w.
Proof. intros H. unfold block_sizes in H. cbn [In] in H. unfold asm_width. repeat (destruct H as [H|H]; [injection H as <- <-; split; [lia|split; [lia|split; [reflexivity|lia]]]|]). destruct H. Qed.
Lemma recon_block avx2 s st p w h pat sec intra luma mode b_top b_left t0 l1 l2 c m :
  In (w, h) block_sizes -> 0 <= pat <= 2 -> w <= st -> bytes m ->
  let cw := coeff_width w h in let ch := coeff_height w h in
  coeffs16 cw ch p c -> zero_beyond (fst (region cw ch pat)) (snd (region cw ch pat)) cw ch p c ->
  exists c1 c2 m1, inv_transform_v avx2 8 p cw w h pat sec intra luma mode b_top b_left l1 l2 c = Done c1 /\
    inv_transform 8 p cw w h sec intra luma mode b_top b_left t0 c = Done c2 /\
    add_ps_asm s st c1 p w avx2 w h m = Some m1 /\
    forall a, m1 a = add_ps 8 (Z.to_nat w) (Z.to_nat h) s st c2 p w m a.
Proof.
  intros HS Hp Hs Hm cw ch H16 H0. assert (Hd : mc_depth 8) by (unfold mc_depth; lia). destruct (block_size_asm w h HS) as (W & Hh & H4 & Hw).
  destruct (inv_transform_v_eq avx2 8 p w h pat sec intra luma mode b_top b_left t0 l1 l2 c HS Hp Hd H16 H0) as (c1 & c2 & A & B & E).
  assert (R : forall x y, 0 <= x < w -> 0 <= y < h -> -256 <= c2 (p + y * w + x) <= 255).
  { assert (D : exists hor ver : bool, (hor = true <-> sec_hor mode /\ b_left = true) /\ (ver = true <-> sec_ver mode /\ b_top = true)).
    { assert (DH : sec_hor mode \/ ~ sec_hor mode) by (unfold sec_hor; lia). assert (DV : sec_ver mode \/ ~ sec_ver mode) by (unfold sec_ver; lia).
      assert (GH : exists hor : bool, hor = true <-> sec_hor mode /\ b_left = true) by (destruct DH, b_left; [exists true|exists false|exists false|exists false]; intuition discriminate).
      assert (GV : exists ver : bool, ver = true <-> sec_ver mode /\ b_top = true) by (destruct DV, b_top; [exists true|exists false|exists false|exists false]; intuition discriminate).
      destruct GH as [hor GH], GV as [ver GV]. exists hor, ver. auto. }
    destruct D as (hor & ver & EH & EV).
    destruct (inv_transform_spec 8 p w h sec intra luma mode b_top b_left t0 c hor ver HS Hd EH EV) as (c3 & C & D1 & _). fold cw in A, B, C. rewrite C in B. injection B as ->.
    intros x y Hx Hy. rewrite D1 by assumption. pose proof (block_residual_range w h 8 (sec && intra && luma) hor ver (coeffs_at c p (coeff_width w h)) x y Hd) as BR. change (2 ^ 8) with 256 in BR. lia. }
  destruct (add_asm_ok avx2 w h s st c1 p w m W Hh H4 Hs Hm) as (m1 & M1 & M2).
  { intros x y Hx Hy. rewrite E. specialize (R x y Hx Hy). lia. }
  exists c1, c2, m1. split; [exact A|]. split; [exact B|]. split; [exact M1|]. intros a. rewrite M2.
  destruct (add_ps_spec 8 (Z.to_nat w) (Z.to_nat h) s st c1 p w m ltac:(lia)) as [A1 A2]. destruct (add_ps_spec 8 (Z.to_nat w) (Z.to_nat h) s st c2 p w m ltac:(lia)) as [B1 B2]. cbv zeta in *.
  destruct (in_block_dec (Z.to_nat w) (Z.to_nat h) s st a ltac:(lia)) as [(x & y & Hx & Hy & ->)|N]; [|rewrite A2, B2 by exact N; reflexivity].
  rewrite A1, B1 by assumption. now rewrite E.
Qed.
