(** The adaptive loop filter on blocks, block average and plane copy. *)
From Coq Require Import ZArith List Bool Lia.
From Verif Require Import CBase MemModel MemProofs HdrModel SaoModel SaoSpec SaoProofs AlfModel AlfSpec VxSpec McModel McProofs McProofsB VxModelBase VxModel VxProofs VxProofsB VxProofsC VxProofsD VxProofsE.
Import ListNotations.
Open Scope Z_scope.
Local Opaque Z.mul Z.add Z.sub Z.div Z.modulo.

(** A loop that never breaks. *)
Lemma vloop_inv (Q : Z -> mem -> Prop) step ex body fuel : 0 < step -> forall x m, (Z.to_nat (ex - x) <= fuel)%nat -> Q x m ->
  (forall x' m', x <= x' < ex -> (x' - x) mod step = 0 -> Q x' m' -> exists m'', body x' m' = (m'', true) /\ Q (x' + step) m'') ->
  exists x', (x' - x) mod step = 0 /\ ex <= x' /\ x <= x' /\ (x' < ex + step \/ x' = x) /\ Q x' (vloop fuel x ex step body m).
Proof.
  intros Hs. induction fuel as [|n IH]; intros x m Hf Hq Hb; cbn [vloop].
  - exists x. rewrite Z.sub_diag, Z.mod_0_l by lia. repeat split; auto; lia.
  - destruct (Z.ltb_spec x ex) as [L|L].
    2:{ exists x. rewrite Z.sub_diag, Z.mod_0_l by lia. repeat split; auto; lia. }
    destruct (Hb x m) as (m'' & E & Q'); [lia|rewrite Z.sub_diag; apply Z.mod_0_l; lia|exact Hq|]. rewrite E.
    destruct (IH (x + step) m'') as (x' & A1 & A2 & A3 & A4 & A5); [lia|exact Q'| |].
    { intros x1 m1 R M. apply Hb; [lia|]. rewrite <- (Z_mod_plus_full (x1 - (x + step)) 1 step) in M. rewrite <- M. f_equal. lia. }
    exists x'. split; [|repeat split; auto; lia].
    rewrite <- (Z_mod_plus_full (x' - (x + step)) 1 step) in A1. rewrite <- A1. f_equal. lia.
Qed.
Lemma up16_is w x : x mod 16 = 0 -> w <= x < w + 16 -> x = up16 w.
Proof. unfold up16. intros. Z.div_mod_to_equations. lia. Qed.
Lemma up16_range w : w <= up16 w < w + 16.
Proof. unfold up16. Z.div_mod_to_equations. lia. Qed.
Lemma up16_mult w : w mod 16 = 0 -> up16 w = w.
Proof. unfold up16. intros. Z.div_mod_to_equations. lia. Qed.

Lemma rows_dec p0 stride w r q : 0 <= r ->
  (exists y, 0 <= y < r /\ 0 <= q - (p0 + y * stride) < w) \/ ~ (exists y, 0 <= y < r /\ 0 <= q - (p0 + y * stride) < w).
Proof.
  intros Hr.
  assert (Hn : forall n : nat, (exists y, 0 <= y < Z.of_nat n /\ 0 <= q - (p0 + y * stride) < w) \/ ~ (exists y, 0 <= y < Z.of_nat n /\ 0 <= q - (p0 + y * stride) < w)).
  { induction n as [|n IH]; [right; intros (y & ? & _); lia|]. destruct IH as [(y & ? & ?)|IH]; [left; exists y; split; lia|].
    destruct (Z_le_dec 0 (q - (p0 + Z.of_nat n * stride))); [destruct (Z_lt_dec (q - (p0 + Z.of_nat n * stride)) w)|].
    - left. exists (Z.of_nat n). split; lia.
    - right. intros (y & ? & ?). destruct (Z.eq_dec y (Z.of_nat n)); [subst y; lia|apply IH; exists y; split; lia].
    - right. intros (y & ? & ?). destruct (Z.eq_dec y (Z.of_nat n)); [subst y; lia|apply IH; exists y; split; lia]. }
  specialize (Hn (Z.to_nat r)). rewrite Z2Nat.id in Hn by lia. exact Hn.
Qed.
Lemma wr_det w r pd ds m0 val m m' : 0 <= r -> wr w r pd ds m0 val (fun _ _ => true) m -> wr w r pd ds m0 val (fun _ _ => true) m' -> forall q, m q = m' q.
Proof.
  intros Hr [S1 S2] [C1 C2] q. destruct (rows_dec pd ds w r q Hr) as [(y & Hy & Hx)|N].
  - replace q with (pd + y * ds + (q - (pd + y * ds))) by lia. rewrite S1, C1 by lia. reflexivity.
  - rewrite S2, C2; [reflexivity| |]; intros x y X Y E'; apply N; exists y; split; lia.
Qed.

Section AlfBlock.
  Variables (src : mem) (base stride px py w h : Z) (co : list Z) (top down : bool) (junk : reg) (dst : mem).
  Let st := alf_start top py.
  Let rows := alf_end down py h - st.
  Let p0 := base + (st * stride + px).
  Definition alf_val (src : mem) (p0 stride rows : Z) (co : list Z) (x y : Z) : Z :=
    let hh := rows - 1 in
    let p := p0 + y * stride in
    let img d := p + (clip3 0 hh (y + d) - y) * stride in
    clip_to 8 (Z.shiftr (alf_taps src p (img 1) (img (-1)) (img 2) (img (-2)) (img 3) (img (-3)) x co + 32) 6).
  Notation val := (alf_val src p0 stride rows co).

  Lemma clip3_in lo hi v : lo <= v <= hi -> clip3 lo hi v = v.
  Proof. unfold clip3. intros. destruct (Z.ltb_spec v lo); [lia|]. destruct (Z.ltb_spec hi v); lia. Qed.
  Lemma block1_wr : 0 <= w <= stride -> 0 <= rows -> wr w rows p0 stride dst val (fun _ _ => true) (alf_block1 src base stride px py w h 8 co top down dst).
  Proof.
    intros Hw Hr. unfold alf_block1. fold st. cbv zeta. fold rows. fold p0.
    replace (rows - 1 + 1) with rows by lia.
    apply (wr_ext w rows p0 stride dst val (fun x y => y <? rows)).
    { intros x y X Y. apply Z.ltb_lt. lia. }
    apply (floop_inv (fun Y m => wr w rows p0 stride dst val (fun x y => y <? Y) m)); [lia|..].
    { eapply wr_ext; [|apply wr_none]. intros x y X Y. symmetry. apply Z.ltb_ge. lia. }
    intros Y m HY Hm.
    apply (wr_ext w rows p0 stride dst val (rowP (fun x y => y <? Y) Y 0 w)).
    { intros x y X Y0. unfold rowP. destruct (Z.ltb_spec y Y), (Z.eqb_spec y Y), (Z.leb_spec 0 x), (Z.ltb_spec x w), (Z.ltb_spec y (Y + 1)); cbn; try reflexivity; lia. }
    apply (floop_inv (fun X m => wr w rows p0 stride dst val (rowP (fun x y => y <? Y) Y 0 X) m)); [lia|..].
    { apply wr_row_start; assumption. }
    intros X m' HX Hm'. apply wr_row_step; try assumption; try lia.
    rewrite !(clip3_in (-3)) by lia. unfold alf_val. cbv zeta. change (Z.shiftl 1 5) with 32.
    reflexivity.
  Qed.

  Hypotheses (B : forall q, byte (src q)) (F : fits8 co) (F16 : fits16 co).
  Definition end_sse : Z := if px =? 0 then w else up16 w.
  Lemma sse_wr : 0 <= w -> up16 w <= stride -> 0 <= rows -> px = 0 \/ w <= px ->
    wr end_sse rows p0 stride dst val (fun _ _ => true) (alf_block_sse src base stride px py w h 8 co top down junk dst).
  Proof.
    intros Hw Hs Hr Hp. pose proof (up16_range w) as U. unfold alf_block_sse. fold st. cbv zeta. fold p0.
    fold rows. replace (rows - 1 + 1) with rows by lia.
    assert (En : w <= end_sse <= stride) by (unfold end_sse; destruct (px =? 0); lia).
    apply (wr_ext end_sse rows p0 stride dst val (fun x y => y <? rows)).
    { intros x y X Y. apply Z.ltb_lt. lia. }
    apply (floop_inv (fun Y m => wr end_sse rows p0 stride dst val (fun x y => y <? Y) m)); [lia|..].
    { eapply wr_ext; [|apply wr_none]. intros x y X Y. symmetry. apply Z.ltb_ge. lia. }
    intros Y m HY Hm. set (p := p0 + Y * stride).
    eapply wr_same with (m := fill p 0 end_sse (fun x => val x Y) m).
    2:{ eapply wr_ext; [|apply wr_fill; [lia|exact Hm|lia|apply Z.le_refl|exact HY|reflexivity]].
        intros x y X Y0. unfold rowP. destruct (Z.ltb_spec y Y), (Z.eqb_spec y Y), (Z.leb_spec 0 x), (Z.ltb_spec x end_sse), (Z.ltb_spec y (Y + 1)); cbn; try reflexivity; lia. }
    intros j. change (Z.land w 15) with (Z.land w (2 ^ 4 - 1)). rewrite low_bits by lia. change (2 ^ 4) with 16.
    assert (V : forall x k, 0 <= k < 16 ->
      alf_vec src p (p + (clip3 0 (rows - 1) (Y + 1) - Y) * stride) (p + (clip3 0 (rows - 1) (Y - 1) - Y) * stride) (p + (clip3 0 (rows - 1) (Y + 2) - Y) * stride)
        (p + (clip3 0 (rows - 1) (Y - 2) - Y) * stride) (p + (clip3 0 (rows - 1) (Y + 3) - Y) * stride) (p + (clip3 0 (rows - 1) (Y - 3) - Y) * stride) x 8 co k = val (x + k) Y).
    { intros x k K. rewrite alf_lane by (assumption || lia). reflexivity. }
    destruct (Z.eq_dec px 0) as [P0|P0].
    - unfold end_sse. rewrite (proj2 (Z.eqb_eq px 0) P0). rewrite P0. replace (0 + w - w mod 16) with (w - w mod 16) by lia.
      apply vfor_fill; [lia|lia|]. intros x m1 Hx M. rewrite Z.sub_0_r in M.
      destruct (last_piece 0 w x 16 (w mod 16) ltac:(lia) Hx ltac:(rewrite Z.sub_0_r; exact M) ltac:(rewrite Z.sub_0_r; reflexivity)) as [[E R]|[N R]].
      + rewrite <- E, Z.eqb_refl. cbn [negb]. eexists _, _. split; [reflexivity|]. split; [|right; lia].
        intros i. rewrite (mask_fill junk (w mod 16 - 1) m1 p x _ (fun x => val x Y)); [|lia|intros; apply V; lia].
        replace (x + (w mod 16 - 1) + 1) with (Z.min w (x + 16)) by lia. reflexivity.
      + apply Z.eqb_neq in N. rewrite N. cbn [negb]. eexists _, _. split; [reflexivity|]. split; [|left; reflexivity].
        intros i. unfold store16. rewrite (store_fill 16 m1 p x _ (fun x => val x Y)); [|intros; apply V; lia]. rewrite Z.min_r by lia. reflexivity.
    - unfold end_sse. rewrite (proj2 (Z.eqb_neq px 0) P0).
      destruct (vloop_inv (fun X m1 => forall j, m1 j = fill p 0 X (fun x => val x Y) m j) 16 w
        (fun x dst => let s := alf_vec src p (p + (clip3 0 (rows - 1) (Y + 1) - Y) * stride) (p + (clip3 0 (rows - 1) (Y - 1) - Y) * stride) (p + (clip3 0 (rows - 1) (Y + 2) - Y) * stride)
          (p + (clip3 0 (rows - 1) (Y - 2) - Y) * stride) (p + (clip3 0 (rows - 1) (Y + 3) - Y) * stride) (p + (clip3 0 (rows - 1) (Y - 3) - Y) * stride) x 8 co in
          if negb (x =? px + w - w mod 16) then (store16 dst (p + x) s, true) else (maskmoveu dst (p + x) s (mask_row junk (w mod 16 - 1)), false))
        (Z.to_nat (w - 0)) ltac:(lia) 0 m) as (X & M & A1 & A2 & A3 & A4); [lia|intros; rewrite fill_none by lia; reflexivity| |].
      + intros x m1 Hx M Q. cbv zeta. pose proof (Z.mod_pos_bound w 16 ltac:(lia)).
        pose proof (Z.mod_le w 16 Hw ltac:(lia)).
        destruct (Z.eqb_spec x (px + w - w mod 16)) as [E|N]; [exfalso; lia|cbn [negb]].
        eexists. split; [reflexivity|]. intros i. unfold store16. rewrite (store_fill 16 m1 p x _ (fun x => val x Y)) by (intros; apply V; lia).
        rewrite (fill_ext p x (x + 16) _ m1 _ Q). apply fill_fill. lia.
      + unfold vfor. rewrite A4. f_equal. rewrite Z.sub_0_r in M. destruct (Z.lt_ge_cases X (w + 16)); [apply up16_is; lia|].
        exfalso. lia.
  Qed.

  Lemma alf_block_agrees : 0 <= w -> up16 w <= stride -> 0 <= rows -> px = 0 \/ w <= px ->
    let new := alf_block_sse src base stride px py w h 8 co top down junk dst in
    let ref := alf_block1 src base stride px py w h 8 co top down dst in
    (forall x y, 0 <= x < w -> 0 <= y < rows -> new (p0 + y * stride + x) = ref (p0 + y * stride + x)) /\
    (forall q, (forall x y, 0 <= x < up16 w -> 0 <= y < rows -> q <> p0 + y * stride + x) -> new q = dst q) /\
    (px = 0 \/ w mod 16 = 0 -> forall q, new q = ref q).
  Proof.
    intros Hw Hs Hr Hp. cbv zeta. pose proof (up16_range w) as U.
    destruct (sse_wr Hw Hs Hr Hp) as [S1 S2]. destruct (block1_wr ltac:(lia) Hr) as [C1 C2].
    assert (En : w <= end_sse <= up16 w) by (unfold end_sse; destruct (px =? 0); lia).
    split; [|split].
    - intros x y X Y. rewrite S1, C1 by lia. reflexivity.
    - intros q Hq. apply S2. intros x y X Y. apply Hq; lia.
    - intros D q. assert (E : end_sse = w).
      { unfold end_sse. destruct (Z.eqb_spec px 0); [reflexivity|]. destruct D as [D|D]; [contradiction|apply up16_mult; exact D]. }
      rewrite E in *.
      exact (wr_det w rows p0 stride dst val _ _ Hr (conj S1 S2) (conj C1 C2) q).
  Qed.
End AlfBlock.

(** Block average. *)
Lemma avg_fill m0 m q s1 p X : (forall j, m j = fill q 0 X (fun x => (m0 (q + x) + s1 (p + x) + 1) / 2) m0 j) -> 0 <= X ->
  forall k, 0 <= k -> avg_epu8 (load m (q + X)) (load s1 (p + X)) k = (m0 (q + (X + k)) + s1 (p + (X + k)) + 1) / 2.
Proof.
  intros Q H k K. unfold avg_epu8, load. rewrite Q. unfold fill.
  destruct (Z.ltb_spec (q + X + k) (q + X)); [lia|]. rewrite andb_false_r. do 2 f_equal. rewrite !Z.add_assoc. reflexivity.
Qed.
Lemma average_row q p src1 w junk m : 0 <= w ->
  let F := fun x => (m (q + x) + src1 (p + x) + 1) / 2 in
  (w mod 16 <> 0 -> forall j,
     (let m' := vfor 0 (w - 15) 16 (fun j m => (store16 m (q + j) (avg_epu8 (load m (q + j)) (load src1 (p + j))), true)) m in
      let i := 16 * ((Z.max 0 (w - 15) + 15) / 16) in
      maskmoveu m' (q + i) (avg_epu8 (load m' (q + i)) (load src1 (p + i))) (mask_row junk (w mod 16 - 1))) j = fill q 0 w F m j) /\
  (w mod 16 = 0 -> forall j,
     vfor 0 w 16 (fun j m => (store16 m (q + j) (avg_epu8 (load m (q + j)) (load src1 (p + j))), true)) m j = fill q 0 w F m j).
Proof.
  intros Hw F.
  assert (G : forall ex, exists X, X mod 16 = 0 /\ ex <= X /\ 0 <= X /\ (X < ex + 16 \/ X = 0) /\
    forall j, vfor 0 ex 16 (fun j m => (store16 m (q + j) (avg_epu8 (load m (q + j)) (load src1 (p + j))), true)) m j = fill q 0 X F m j).
  { intros ex. destruct (vloop_inv (fun X m1 => forall j, m1 j = fill q 0 X F m j) 16 ex
      (fun j m => (store16 m (q + j) (avg_epu8 (load m (q + j)) (load src1 (p + j))), true)) (Z.to_nat (ex - 0)) ltac:(lia) 0 m) as (X & M & A1 & A2 & A3 & A4);
      [lia|intros; rewrite fill_none by lia; reflexivity| |].
    - intros x m1 Hx M Q. eexists. split; [reflexivity|]. intros i. unfold store16.
      rewrite (store_fill 16 m1 q x _ F) by (intros; apply (avg_fill m m1 q src1 p x Q); lia).
      rewrite (fill_ext q x (x + 16) _ m1 _ Q). apply fill_fill. lia.
    - rewrite Z.sub_0_r in M. exists X. repeat split; auto. }
  split; intros D j.
  - destruct (G (w - 15)) as (X & M & A1 & A2 & A3 & A4). cbv zeta. set (m' := vfor _ _ _ _ _) in *.
    assert (EX : X = w - w mod 16) by (Z.div_mod_to_equations; lia).
    replace (16 * ((Z.max 0 (w - 15) + 15) / 16)) with X by (rewrite EX; Z.div_mod_to_equations; lia).
    pose proof (Z.mod_pos_bound w 16 ltac:(lia)).
    rewrite (mask_fill junk (w mod 16 - 1) m' q X _ F); [|lia|intros; apply (avg_fill m m' q src1 p X A4); lia].
    rewrite (fill_ext q X _ _ m' _ A4). replace (X + (w mod 16 - 1) + 1) with w by lia. apply fill_fill. lia.
  - destruct (G w) as (X & M & A1 & A2 & A3 & A4). rewrite A4. f_equal. Z.div_mod_to_equations. lia.
Qed.
Lemma rows_wr (f : Z -> mem -> mem) (val : Z -> Z -> mem -> Z) w h pd ds dst : 0 <= w <= ds -> 0 <= h ->
  (forall Y m, 0 <= Y < h -> (forall j, f Y m j = fill (pd + Y * ds) 0 w (fun x => val x Y m) m j)) ->
  (forall x Y m m', 0 <= x < w -> 0 <= Y < h -> (forall x, 0 <= x < w -> m (pd + Y * ds + x) = m' (pd + Y * ds + x)) -> val x Y m = val x Y m') ->
  wr w h pd ds dst (fun x y => val x y dst) (fun _ _ => true) (floop 0 h f dst).
Proof.
  intros Hw Hh F E. set (v := fun x y => val x y dst).
  apply (wr_ext w h pd ds dst v (fun x y => y <? h)).
  { intros x y X Y. apply Z.ltb_lt. lia. }
  apply (floop_inv (fun Y m => wr w h pd ds dst v (fun x y => y <? Y) m)); [lia|..].
  { eapply wr_ext; [|apply wr_none]. intros x y X Y. symmetry. apply Z.ltb_ge. lia. }
  intros Y m HY Hm. eapply wr_same; [apply F; exact HY|].
  eapply wr_ext; [|apply wr_fill; [lia|exact Hm|lia|apply Z.le_refl|exact HY|]].
  - intros x y X Y0. unfold rowP. destruct (Z.ltb_spec y Y), (Z.eqb_spec y Y), (Z.leb_spec 0 x), (Z.ltb_spec x w), (Z.ltb_spec y (Y + 1)); cbn; try reflexivity; lia.
  - intros x Hx. unfold v. apply E; [exact Hx|exact HY|]. intros x' Hx'. destruct Hm as [Hm _]. rewrite Hm by assumption.
    destruct (Z.ltb_spec Y Y); [lia|reflexivity].
Qed.
Lemma average_agrees dst i_dst src1 p1 i_src1 (w h : nat) junk m : Z.of_nat w <= i_dst ->
  forall q, average_sse dst i_dst src1 p1 i_src1 (Z.of_nat w) (Z.of_nat h) junk m q = pixel_average dst i_dst src1 p1 i_src1 w h m q.
Proof.
  intros Hw. set (val := fun x y (m : mem) => (m (dst + y * i_dst + x) + src1 (p1 + y * i_src1 + x) + 1) / 2).
  assert (A : wr (Z.of_nat w) (Z.of_nat h) dst i_dst m (fun x y => val x y m) (fun _ _ => true) (average_sse dst i_dst src1 p1 i_src1 (Z.of_nat w) (Z.of_nat h) junk m)).
  { unfold average_sse. change (Z.land (Z.of_nat w) 15) with (Z.land (Z.of_nat w) (2 ^ 4 - 1)). rewrite low_bits by lia. change (2 ^ 4) with 16.
    destruct (Z.eqb_spec (Z.of_nat w mod 16) 0) as [E|E]; cbn [negb]; apply rows_wr; try lia.
    - intros Y m' HY j. cbv zeta. rewrite (proj2 (average_row _ _ src1 (Z.of_nat w) junk m' ltac:(lia)) E). reflexivity.
    - intros x Y m1 m2 Hx HY H. unfold val. rewrite H by exact Hx. reflexivity.
    - intros Y m' HY j. apply (proj1 (average_row _ _ src1 (Z.of_nat w) junk m' ltac:(lia)) E).
    - intros x Y m1 m2 Hx HY H. unfold val. rewrite H by exact Hx. reflexivity. }
  destruct (average_spec dst i_dst src1 p1 i_src1 w h m Hw) as [B1 B2].
  apply (wr_det (Z.of_nat w) (Z.of_nat h) dst i_dst m (fun x y => val x y m)); [lia|exact A|]. split.
  - intros x y X Y. apply B1; assumption.
  - intros q Hq. apply B2. intros (x & y & X & Y & E). exact (Hq x y X Y E).
Qed.

(** Plane copy. *)
Lemma plane_copy_agrees dst i_dst src p i_src (w h : nat) m : Z.of_nat w <= i_dst ->
  forall q, plane_copy_sse2 dst i_dst src p i_src (Z.of_nat w) (Z.of_nat h) m q = mc_block_copy dst i_dst src p i_src w h m q.
Proof.
  intros Hw. set (val := fun x y (m : mem) => src (p + y * i_src + x)).
  apply (wr_det (Z.of_nat w) (Z.of_nat h) dst i_dst m (fun x y => val x y m)); [lia| |].
  - unfold plane_copy_sse2. apply rows_wr; [lia|lia| |reflexivity].
    intros Y m' HY j. cbv zeta. rewrite !Z.shiftl_mul_pow2, !Z.shiftr_div_pow2 by lia. change (2 ^ 4) with 16.
    set (W := Z.of_nat w) in *. set (q := dst + Y * i_dst). set (s := p + Y * i_src). set (F := fun x => val x Y m').
    assert (H16 : 0 <= W / 16) by (apply Z.div_pos; lia).
    assert (A : forall j, floop 0 (W / 16) (fun n m => store16 m (q + 16 * n) (load src (s + 16 * n))) m' j = fill q 0 (16 * (W / 16)) F m' j).
    { apply (floop_inv (fun n m1 => forall j, m1 j = fill q 0 (16 * n) F m' j)); [lia|intros; rewrite fill_none by lia; reflexivity|].
      intros n m1 Hn Q i. unfold store16. rewrite (store_fill 16 m1 q (16 * n) _ F).
      - rewrite (fill_ext q _ _ _ m1 _ Q). rewrite fill_fill by lia. f_equal. lia.
      - intros k K. unfold load, F, val. f_equal. lia. }
    set (m1 := floop 0 (W / 16) _ m') in *. clearbody m1.
    destruct (Z.eqb_spec (W - W / 16 * 16) 0) as [E|E]; cbn [negb].
    + rewrite A. f_equal. lia.
    + assert (L : 0 < W - W / 16 * 16) by (Z.div_mod_to_equations; lia).
      refine (eq_trans (floop_inv (fun k m2 => forall j, m2 j = fill q 0 (16 * (W / 16) + k) F m' j) 0 (W - W / 16 * 16) _ m1 _ _ _ j) _); [lia| | |f_equal; lia].
      * intros i. rewrite A. f_equal. lia.
      * intros k m2 Hk Q i. unfold upd. rewrite Q. unfold fill.
        destruct (Z.eqb_spec i (q + W / 16 * 16 + k)) as [->|N].
        -- destruct (Z.leb_spec (q + 0) (q + W / 16 * 16 + k)), (Z.ltb_spec (q + W / 16 * 16 + k) (q + (16 * (W / 16) + (k + 1)))); try lia. cbn [andb]. unfold F, val. f_equal. unfold s. lia.
        -- destruct (Z.leb_spec (q + 0) i), (Z.ltb_spec i (q + (16 * (W / 16) + k))), (Z.ltb_spec i (q + (16 * (W / 16) + (k + 1)))); cbn [andb]; try reflexivity; lia.
  - destruct (bw_spec w h dst i_dst (fun x y => src (p + y * i_src + x)) m Hw) as [B1 B2]. unfold mc_block_copy. split.
    + intros x y X Y. apply B1; assumption.
    + intros q Hq. apply B2. intros (x & y & X & Y & E). exact (Hq x y X Y E).
Qed.

(** Conforming coefficients for which the vector kernel is not exact: a plane of equal samples,
    which the filter must leave alone. *)
Lemma byte_saturation junk dst : let c := [0; 0; 0; -32; 0; 0; 0; -32; 0] in
  conforming c /\ alf_block1 (fun _ => 100) 0 64 0 0 16 8 8 (alf_recon c) false false dst 0 = 100 /\
  alf_block_sse (fun _ => 100) 0 64 0 0 16 8 8 (alf_recon c) false false junk dst 0 = 0.
Proof.
  cbv zeta. split; [|split; vm_compute; reflexivity]. split; [reflexivity|]. split; [|vm_compute; split; intros X; discriminate X].
  apply case8; vm_compute; split; intros X; discriminate X.
Qed.
Lemma word_saturation junk dst : let c := [0; 0; 0; -48; 0; 0; 0; 20; 0] in
  conforming c /\ fits8 (alf_recon c) /\ alf_block1 (fun _ => 255) 0 64 0 0 16 8 8 (alf_recon c) false false dst 0 = 255 /\
  alf_block_sse (fun _ => 255) 0 64 0 0 16 8 8 (alf_recon c) false false junk dst 0 = 129.
Proof.
  cbv zeta. split; [|split; [|split; vm_compute; reflexivity]].
  - split; [reflexivity|]. split; [|vm_compute; split; intros X; discriminate X].
    apply case8; vm_compute; split; intros X; discriminate X.
  - intros i Hi. destruct (Z.eq_dec i 8) as [->|N]; [vm_compute; split; intros X; discriminate X|].
    assert (H : 0 <= i < 8) by lia. revert i H N Hi. refine (case8 _ _ _ _ _ _ _ _ _); intros; vm_compute; split; intros X; discriminate X.
Qed.
Lemma overshoot junk : let c := [0; 0; 0; 0; 0; 0; 0; 0; 0] in
  fits8 (alf_recon c) /\ fits16 (alf_recon c) /\
  alf_block_sse (fun _ => 100) 0 96 32 0 24 8 8 (alf_recon c) false false junk (fun _ => 7) 56 = 100 /\
  alf_block1 (fun _ => 100) 0 96 32 0 24 8 8 (alf_recon c) false false (fun _ => 7) 56 = 7.
Proof.
  cbv zeta. split; [|split; [vm_compute; intros X; discriminate X|split; vm_compute; reflexivity]].
  intros i Hi. destruct (Z.eq_dec i 8) as [->|N]; [vm_compute; split; intros X; discriminate X|].
  assert (H : 0 <= i < 8) by lia. revert i H N Hi. refine (case8 _ _ _ _ _ _ _ _ _); intros; vm_compute; split; intros X; discriminate X.
Qed.
