(** Prediction of the blocks of coding units, in the decoding order. *)
From Coq Require Import ZArith List Bool Lia.
From Verif Require Import CBase MemModel MemProofs SaoModel SaoProofs NbModel NbSpec NbProofs IprModel IprSpec IprProofs IprProofsE IprProofsH EgModel EgSpec EgProofs EgProofsB EgProofsC.
Import ListNotations.
Open Scope Z_scope.

Lemma div_in s a b x : 0 < s -> s * a <= x < s * b -> a <= x / s < b.
Proof. intros P H. split; [apply Z.div_le_lower_bound; lia|apply Z.div_lt_upper_bound; lia]. Qed.
Lemma div_exact s a r : 0 < s -> 0 <= r < s -> (s * a + r) / s = a.
Proof. intros P H. rewrite Z.mul_comm, Z.div_add_l, Z.div_small by lia. lia. Qed.

Section Scale.
  Variables (s : Z) (ready : Z -> Z -> Prop) (a : nbs) (x y w h : Z).
  Hypothesis Hs : 0 < s.
  Hypothesis Hw : 0 < w.
  Hypothesis Hh : 0 < h.
  Hypothesis A1 : n_left a = true <-> forall i, 0 <= i < h -> ready (x - 1) (y + i).
  Hypothesis A2 : n_top a = true <-> forall i, 0 <= i < w -> ready (x + i) (y - 1).
  Hypothesis A3 : n_top_left a = true <-> ready (x - 1) (y - 1).
  Hypothesis A4 : n_left_down a = true <-> forall i, 0 <= i < h -> ready (x - 1) (y + h + i).
  Hypothesis A5 : n_top_right a = true <-> forall i, 0 <= i < w -> ready (x + w + i) (y - 1).
  Definition per_sample (X Y : Z) : Prop := ready (X / s) (Y / s).
  Lemma last_in z : (s * z - 1) / s = z - 1.
  Proof. replace (s * z - 1) with (s * (z - 1) + (s - 1)) by ring. apply div_exact; lia. Qed.
  Lemma range_iff p n (Q : Z -> Prop) : 0 < n -> (forall i, 0 <= i < n -> Q (p + i)) <-> (forall X, s * p <= X < s * p + s * n -> Q (X / s)).
  Proof.
    intros Hn. split; intros H.
    - intros X HX. pose proof (div_in s p (p + n) X Hs ltac:(lia)) as D. replace (X / s) with (p + (X / s - p)) by lia. apply H. lia.
    - intros i Hi. rewrite <- (div_exact s (p + i) 0) by lia. apply H.
      assert (s * 0 <= s * i) by (apply Z.mul_le_mono_nonneg_l; lia). assert (s * i <= s * (n - 1)) by (apply Z.mul_le_mono_nonneg_l; lia). lia.
  Qed.
  Lemma bits_say_samples : bits_say a per_sample (s * x) (s * y) (s * w) (s * h).
  Proof.
    unfold bits_say, per_sample. rewrite !last_in. split; [|split; [|split; [|split]]].
    - rewrite A2. exact (range_iff x w (fun u => ready u (y - 1)) Hw).
    - rewrite A5. rewrite (range_iff (x + w) w (fun u => ready u (y - 1)) Hw). replace (s * (x + w)) with (s * x + s * w) by ring.
      replace (s * x + s * w + s * w) with (s * x + 2 * (s * w)) by ring. reflexivity.
    - rewrite A1. exact (range_iff y h (fun u => ready (x - 1) u) Hh).
    - rewrite A4. rewrite (range_iff (y + h) h (fun u => ready (x - 1) u) Hh). replace (s * (y + h)) with (s * y + s * h) by ring.
      replace (s * y + s * h + s * h) with (s * y + 2 * (s * h)) by ring. reflexivity.
    - exact A3.
  Qed.
  Lemma uses_ready X Y : uses a (s * x) (s * y) (s * w) (s * h) X Y -> per_sample X Y.
  Proof.
    destruct bits_say_samples as (B1 & B2 & B3 & B4 & B5).
    intros [(E & -> & H)|[(E & -> & H)|[(E & -> & H)|[(E & -> & H)|(E & -> & ->)]]]].
    - apply B1; assumption.
    - apply B2; assumption.
    - apply B3; assumption.
    - apply B4; assumption.
    - apply B5; assumption.
  Qed.
End Scale.

(** Where a used sample is kept. *)
Lemma uses_kept pic fd st lcu rt ox oy n R ready a x0 y0 w h :
  held pic fd st lcu rt ox oy n R ready ->
  ox <= x0 -> oy <= y0 -> 0 < w -> 0 < h -> x0 + w <= ox + n -> y0 + h <= oy + n ->
  (forall x y, uses a x0 y0 w h x y -> ready x y) ->
  (forall x y, uses a x0 y0 w h x y -> y < oy \/ y < oy + n /\ x < ox + n) ->
  forall x y, uses a x0 y0 w h x y -> kept pic fd st lcu rt ox oy R x y.
Proof.
  intros (H1 & H2 & H3 & H4) Hx Hy Hw Hh Bx By Rd Q x y U.
  pose proof (Rd x y U) as Rxy. pose proof (Q x y U) as Qxy.
  assert (G : x0 - 1 <= x < x0 + 2 * w /\ y0 - 1 <= y) by (destruct U as [U|[U|[U|[U|U]]]]; lia).
  unfold kept. destruct (Z.le_gt_cases oy y) as [Y|Y], (Z.le_gt_cases ox x) as [X|X].
  - left. split; [exact X|]. split; [exact Y|]. apply H1; [lia|lia|exact Rxy].
  - right. right. left. assert (x = ox - 1) by lia. subst x. split; [reflexivity|]. split; [exact Y|]. apply H3; [lia|exact Rxy].
  - right. left. assert (y = oy - 1) by lia. subst y. split; [exact X|]. split; [reflexivity|]. apply H2; [lia|exact Rxy].
  - right. right. right. assert (x = ox - 1) by lia. assert (y = oy - 1) by lia. subst x y. split; [reflexivity|]. split; [reflexivity|]. apply H4. exact Rxy.
Qed.

(** Scale: a unit is [s] samples, an LCU [s * N]. *)
Lemma uses_row s N ox oy x y : 0 < s -> 0 < N ->
  (y / s / N < oy \/ y / s / N = oy /\ x / s / N <= ox) ->
  y < s * (N * oy) \/ y < s * (N * oy) + s * N /\ x < s * (N * ox) + s * N.
Proof.
  intros Ps PN H. rewrite !Z.div_div in H by lia.
  assert (M : 0 < s * N) by (apply Z.mul_pos_pos; lia).
  replace (s * (N * oy)) with (s * N * oy) by ring. replace (s * (N * ox)) with (s * N * ox) by ring.
  set (D := s * N) in *. clearbody D. destruct H as [H|[H1 H2]].
  - left. assert (y / D <= oy - 1) by lia. pose proof (Z.mul_succ_div_gt y D M). assert (D * Z.succ (y / D) <= D * oy) by (apply Z.mul_le_mono_nonneg_l; lia). lia.
  - right. pose proof (Z.mul_succ_div_gt y D M). pose proof (Z.mul_succ_div_gt x D M).
    assert (D * Z.succ (x / D) <= D * Z.succ ox) by (apply Z.mul_le_mono_nonneg_l; lia). rewrite H1 in *. lia.
Qed.

Section Order.
  Variables (lv level split cx cy : Z) (k : nat) (bx by_ w h : Z).
  Hypothesis U : unit_at lv level split cx cy k bx by_ w h.
  Variables (wu hu wscu : Z) (sl : mem) (cur : Z).
  Hypothesis RS : row_slices lv wu hu wscu sl.
  Hypothesis Pic : in_pic wu hu (cx + 2 ^ (level - 2) - 1) (cy + 2 ^ (level - 2) - 1).
  Definition ready_unit (u v : Z) : Prop :=
    in_pic wu hu u v /\ slice_of wscu sl u v = cur /\ decoded_before (Z.to_nat (lv - 2)) split (2 ^ (level - 2)) cx cy k u v = true.
  Variables (s : Z).
  Hypothesis Hs : 0 < s.
  Let N := 2 ^ (lv - 2).
  Let x0 := s * (cx + bx).
  Let y0 := s * (cy + by_).
  Let ox := s * (N * (cx / N)).
  Let oy := s * (N * (cy / N)).
  Lemma order_facts a : intra_neighbors lv wu hu wscu sl (cx + bx) (cy + by_) (4 * w) (4 * h) cur = Done a ->
    bits_say a (per_sample s ready_unit) x0 y0 (s * w) (s * h) /\
    ox <= x0 /\ oy <= y0 /\ 0 < s * w /\ 0 < s * h /\ x0 + s * w <= ox + s * N /\ y0 + s * h <= oy + s * N /\
    (forall x y, uses a x0 y0 (s * w) (s * h) x y -> per_sample s ready_unit x y) /\
    (forall x y, uses a x0 y0 (s * w) (s * h) x y -> y < oy \/ y < oy + s * N /\ x < ox + s * N).
  Proof.
    intros E. pose proof (neighbour_ranges _ _ _ _ _ _ _ _ _ _ U wu hu wscu sl cur a RS) as NR. cbv zeta in NR. specialize (NR Pic E).
    destruct NR as (A1 & A2 & A3 & A4 & A5).
    pose proof (block_facts _ _ _ _ _ _ _ _ _ _ U) as F. cbv zeta in F. fold N in F. destruct F as (B0 & B1 & B2 & B3 & B4 & B5 & B6 & B7 & _).
    pose proof (ua_lv _ _ _ _ _ _ _ _ _ _ U) as Hv.
    assert (PN : 0 < N) by (apply Z.pow_pos_nonneg; lia).
    pose proof (Z.div_mod cx N ltac:(lia)) as Dx. pose proof (Z.div_mod cy N ltac:(lia)) as Dy.
    assert (S1 : bits_say a (per_sample s ready_unit) x0 y0 (s * w) (s * h)) by (apply bits_say_samples; assumption).
    assert (S2 : forall x y, uses a x0 y0 (s * w) (s * h) x y -> per_sample s ready_unit x y) by (apply uses_ready; assumption).
    split; [exact S1|].
    assert (M : forall u v, u <= v -> s * u <= s * v) by (intros u v L; apply Z.mul_le_mono_nonneg_l; lia).
    pose proof (Z.mod_pos_bound cx N PN) as Qx. pose proof (Z.mod_pos_bound cy N PN) as Qy.
    split; [apply M; lia|]. split; [apply M; lia|]. split; [apply Z.mul_pos_pos; lia|]. split; [apply Z.mul_pos_pos; lia|].
    split; [unfold x0, ox; rewrite <- !Z.mul_add_distr_l; apply M; lia|]. split; [unfold y0, oy; rewrite <- !Z.mul_add_distr_l; apply M; lia|].
    split; [exact S2|]. intros x y Us. destruct (S2 x y Us) as (_ & _ & D).
    apply (uses_row s N (cx / N) (cy / N) x y Hs PN). exact (before_lcu _ _ _ _ _ _ _ _ _ _ _ _ U D).
  Qed.
End Order.

(** A luma block. *)
Lemma luma_block bits depth junk R lcu rt fd st lv level split cx cy k bx by_ w h wu hu wscu sl cur mode buf pic :
  1 <= depth <= bits -> bits = 8 \/ bits = 16 -> 0 <= mode <= 32 ->
  unit_at lv level split cx cy k bx by_ w h -> row_slices lv wu hu wscu sl ->
  in_pic wu hu (cx + 2 ^ (level - 2) - 1) (cy + 2 ^ (level - 2) - 1) -> 4 * w <= st ->
  let N := 2 ^ (lv - 2) in
  let lx := cx / N in let ly := cy / N in
  let ox := 4 * (N * lx) in let oy := 4 * (N * ly) in
  let x0 := 4 * (cx + bx) in let y0 := 4 * (cy + by_) in
  let ready := per_sample 4 (ready_unit lv level split cx cy k wu hu wscu sl cur) in
  held pic fd st lcu rt ox oy (4 * N) R ready ->
  (forall x y, ready x y -> 0 <= R x y <= 2 ^ depth - 1) ->
  exists a buf' pic',
    get_intra_pred bits depth junk (Ctx lv wu hu wscu sl (N * lx) (N * ly)) cur mode (x0 - ox) (y0 - oy) (4 * w) (4 * h) lcu rt fd st buf pic = Done (a, buf', pic') /\
    bits_say a ready x0 y0 (4 * w) (4 * h) /\
    predicts (4 * w) (4 * h) (fd + (y0 - oy) * st + (x0 - ox)) st pic pic'
      (rule depth (border_of (2 ^ (depth - 1)) a R x0 y0 (4 * w) (4 * h)) mode (4 * w) (4 * h) (n_top a) (n_left a)).
Proof.
  intros Hd Hb Hm U RS Pic W N lx ly ox oy x0 y0 ready H Rng.
  destruct (neighbours_ok _ _ _ _ _ _ _ _ _ _ U wu hu wscu sl cur) as (a & E & _). cbv zeta in E.
  destruct (order_facts _ _ _ _ _ _ _ _ _ _ U wu hu wscu sl cur RS Pic 4 ltac:(lia) a E) as (S1 & X & Y & Pw & Ph & X' & Y' & S2 & S3).
  fold N lx ly in X, Y, X', Y', S1, S2, S3. fold ox oy x0 y0 in X, Y, X', Y', S1, S2, S3. fold ready in S1, S2.
  assert (Ex : ox + (x0 - ox) = x0) by lia. assert (Ey : oy + (y0 - oy) = y0) by lia.
  destruct (pred_block bits depth junk R lcu rt fd st ox oy Hd Hb (Ctx lv wu hu wscu sl (N * lx) (N * ly)) cur mode (x0 - ox) (y0 - oy) (4 * w) (4 * h) buf pic a)
    as (buf' & pic' & G & _ & _ & P).
  - exact Hm.
  - exact (block_shape _ _ _ _ _ _ _ _ _ _ U).
  - exact W.
  - lia.
  - lia.
  - cbn [k_lv k_wu k_hu k_wscu k_sl k_ux k_uy]. rewrite !Z.shiftr_div_pow2 by lia. change (2 ^ 2) with 4.
    assert (D1 : (x0 - ox) / 4 = cx + bx - N * lx) by (unfold x0, ox; rewrite <- Z.mul_sub_distr_l, Z.mul_comm; apply Z.div_mul; lia).
    assert (D2 : (y0 - oy) / 4 = cy + by_ - N * ly) by (unfold y0, oy; rewrite <- Z.mul_sub_distr_l, Z.mul_comm; apply Z.div_mul; lia).
    rewrite D1, D2. replace (cx + bx - N * lx + N * lx) with (cx + bx) by lia. replace (cy + by_ - N * ly + N * ly) with (cy + by_) by lia. exact E.
  - rewrite Ex, Ey. intros x y Us. split; [|apply Rng, S2, Us]. apply (uses_kept pic fd st lcu rt ox oy (4 * N) R ready a x0 y0 (4 * w) (4 * h)); assumption.
  - exists a, buf', pic'. rewrite Ex, Ey in P. split; [exact G|]. split; [exact S1|exact P].
Qed.

(** The two chroma blocks of a coding unit. *)
Lemma chroma_blocks bits depth junk R1 R2 lcu1 lcu2 rt fd1 fd2 st lv level cx cy wu hu wscu sl cur luma c_mode mode buf pic1 pic2 :
  1 <= depth <= bits -> bits = 8 \/ bits = 16 ->
  real_mode luma c_mode = Done mode -> 0 <= mode <= 32 ->
  let w := 2 ^ (level - 2) in
  unit_at lv level 0 cx cy 0 0 0 w w -> row_slices lv wu hu wscu sl ->
  in_pic wu hu (cx + w - 1) (cy + w - 1) -> 2 * w <= st ->
  let N := 2 ^ (lv - 2) in
  let lx := cx / N in let ly := cy / N in
  let ox := 2 * (N * lx) in let oy := 2 * (N * ly) in
  let x0 := 2 * cx in let y0 := 2 * cy in
  let ready := per_sample 2 (ready_unit lv level 0 cx cy 0 wu hu wscu sl cur) in
  held pic1 fd1 st lcu1 rt ox oy (2 * N) R1 ready -> held pic2 fd2 st lcu2 rt ox oy (2 * N) R2 ready ->
  (forall x y, ready x y -> 0 <= R1 x y <= 2 ^ depth - 1 /\ 0 <= R2 x y <= 2 ^ depth - 1) ->
  exists a buf' pic1' pic2',
    get_intra_pred_chroma bits depth junk (Ctx lv wu hu wscu sl (N * lx) (N * ly)) cur level luma c_mode (x0 - ox) (y0 - oy) lcu1 lcu2 rt fd1 fd2 st buf pic1 pic2
      = Done (a, buf', (pic1', pic2')) /\
    bits_say a ready x0 y0 (2 * w) (2 * w) /\
    predicts (2 * w) (2 * w) (fd1 + (y0 - oy) * st + (x0 - ox)) st pic1 pic1'
      (rule depth (border_of (2 ^ (depth - 1)) a R1 x0 y0 (2 * w) (2 * w)) mode (2 * w) (2 * w) (n_top a) (n_left a)) /\
    predicts (2 * w) (2 * w) (fd2 + (y0 - oy) * st + (x0 - ox)) st pic2 pic2'
      (rule depth (border_of (2 ^ (depth - 1)) a R2 x0 y0 (2 * w) (2 * w)) mode (2 * w) (2 * w) (n_top a) (n_left a)).
Proof.
  intros Hd Hb RM Hm w U RS Pic W N lx ly ox oy x0 y0 ready H1 H2 Rng.
  destruct (neighbours_ok _ _ _ _ _ _ _ _ _ _ U wu hu wscu sl cur) as (a & E & _). cbv zeta in E.
  destruct (order_facts _ _ _ _ _ _ _ _ _ _ U wu hu wscu sl cur RS Pic 2 ltac:(lia) a E) as (S1 & X & Y & Pw & Ph & X' & Y' & S2 & S3).
  fold N lx ly in X, Y, X', Y', S1, S2, S3. rewrite !Z.add_0_r in *. fold ox oy x0 y0 in X, Y, X', Y', S1, S2, S3. fold ready in S1, S2.
  assert (Ex : ox + (x0 - ox) = x0) by lia. assert (Ey : oy + (y0 - oy) = y0) by lia.
  pose proof (ua_lv _ _ _ _ _ _ _ _ _ _ U) as Hv. pose proof (ua_level _ _ _ _ _ _ _ _ _ _ U) as Hl.
  assert (En : 2 ^ (level - 1) = 2 * w) by (unfold w; rewrite <- Z.pow_succ_r by lia; f_equal; lia).
  pose proof (pred_chroma bits depth junk R1 R2 lcu1 lcu2 rt fd1 fd2 st ox oy (Ctx lv wu hu wscu sl (N * lx) (N * ly)) cur level luma c_mode mode (x0 - ox) (y0 - oy)
    buf pic1 pic2 a Hd Hb RM Hm ltac:(lia)) as G. cbv zeta in G. rewrite En in G.
  destruct G as (buf' & p1 & p2 & G & P1 & P2 & _).
  - exact W.
  - lia.
  - lia.
  - cbn [k_lv k_wu k_hu k_wscu k_sl k_ux k_uy].
    assert (D1 : 2 * (x0 - ox) / 4 = cx - N * lx) by (replace (2 * (x0 - ox)) with ((cx - N * lx) * 4) by (unfold x0, ox; ring); apply Z.div_mul; lia).
    assert (D2 : 2 * (y0 - oy) / 4 = cy - N * ly) by (replace (2 * (y0 - oy)) with ((cy - N * ly) * 4) by (unfold y0, oy; ring); apply Z.div_mul; lia).
    rewrite D1, D2. replace (cx - N * lx + N * lx) with cx by lia. replace (cy - N * ly + N * ly) with cy by lia.
    replace (2 * (2 * w)) with (4 * w) by ring. exact E.
  - rewrite Ex, Ey. intros x y Us. split; [|split; [|apply Rng, S2, Us]].
    + apply (uses_kept pic1 fd1 st lcu1 rt ox oy (2 * N) R1 ready a x0 y0 (2 * w) (2 * w)); assumption.
    + apply (uses_kept pic2 fd2 st lcu2 rt ox oy (2 * N) R2 ready a x0 y0 (2 * w) (2 * w)); assumption.
  - exists a, buf', p1, p2. rewrite Ex, Ey in P1, P2. split; [exact G|]. split; [exact S1|]. split; [exact P1|exact P2].
Qed.
