(** The dispatching function. *)
From Coq Require Import ZArith List Bool Lia.
From Verif Require Import CBase UtilModel MemModel MemProofs LfModel LfProofs SaoModel SaoProofs HdrModel AlfSpec McSpec McProofs IprModel IprSpec IprProofs IprProofsB IprProofsC IprProofsD IprProofsE IprProofsF IprProofsG.
Import ListNotations.
Open Scope Z_scope.

Lemma intra_mode_cases mode : 0 <= mode <= 32 -> mode = 0 \/ mode = 1 \/ mode = 2 \/ mode = 12 \/ mode = 24 \/ is_angular mode.
Proof. unfold is_angular, up_right, up_left, down_left. lia. Qed.
Lemma angular_dispatch mode e x y depth w h top left : is_angular mode -> rule depth e mode w h top left x y = direct e mode x y.
Proof.
  unfold is_angular, up_right, up_left, down_left. intros H. unfold rule.
  repeat match goal with |- context [mode =? ?k] => destruct (Z.eqb_spec mode k); [exfalso; lia|] end. reflexivity.
Qed.
Lemma legal_near depth e w h : legal depth e w h -> 0 <= w -> 0 <= h -> forall k, - h <= k <= w -> 0 <= e k <= 2 ^ depth - 1.
Proof. intros L Hw Hh k Hk. apply L. pose proof (reach_ge w h). pose proof (reach_ge h w). lia. Qed.
Lemma intra_pred_ok bits depth junk src s d st mode w h top left dst :
  1 <= depth <= bits -> bits = 8 \/ bits = 16 -> 0 <= mode <= 32 -> intra_shape w h -> w <= st ->
  legal depth (fun k => src (s + k)) w h -> repeats (fun k => src (s + k)) w h (reach w h) (reach h w) ->
  predicts w h d st dst (intra_pred bits depth junk src s d st mode w h top left dst)
    (rule depth (fun k => src (s + k)) mode w h top left).
Proof.
  intros Hd Hb Hm Sh W L R. pose proof (shape_pos w h Sh) as B. pose proof (legal_near _ _ _ _ L ltac:(lia) ltac:(lia)) as N.
  unfold intra_pred. cbv zeta.
  destruct (intra_mode_cases mode Hm) as [->|[->|[->|[->|[->|A]]]]].
  - exact (dc_ok bits depth src s d st dst Hd w h top left ltac:(lia) ltac:(lia) ltac:(lia) N).
  - exact (plane_ok bits depth src s d st dst Hd w h Sh W).
  - exact (bilinear_ok bits depth junk src s d st dst Hd Hb w h Sh W N).
  - exact (ver_ok depth src s d st dst w h ltac:(lia) ltac:(lia)).
  - exact (hor_ok depth src s d st dst w h ltac:(lia) ltac:(lia)).
  - pose proof A as A'. unfold is_angular, up_right, up_left, down_left in A'.
    repeat match goal with |- context [mode =? ?k] => destruct (Z.eqb_spec mode k); [exfalso; lia|] end.
    eapply predicts_ext; [apply (angular_exact bits depth); [lia|exact A|exact Sh|exact W|exact L|exact R]|].
    intros x y _ _. symmetry. apply angular_dispatch. exact A.
Qed.
Lemma rule_range depth e mode w h top left x y : 1 <= depth -> 0 <= mode <= 32 -> intra_shape w h -> 0 <= x < w -> 0 <= y < h ->
  legal depth e w h -> 0 <= rule depth e mode w h top left x y <= 2 ^ depth - 1.
Proof.
  intros Hd Hm Sh Hx Hy L. pose proof (shape_pos w h Sh) as B. pose proof (legal_near _ _ _ _ L ltac:(lia) ltac:(lia)) as N.
  assert (MP : 0 <= 2 ^ depth - 1) by (assert (0 < 2 ^ depth) by (apply Z.pow_pos_nonneg; lia); lia).
  destruct (intra_mode_cases mode Hm) as [->|[->|[->|[->|[->|A]]]]].
  - pose proof (dc_range depth depth e 0 ltac:(lia) w h top left ltac:(lia) ltac:(lia) ltac:(lia) N) as G. exact G.
  - apply clamp_range. exact MP.
  - apply clamp_range. exact MP.
  - apply N. lia.
  - apply N. lia.
  - rewrite angular_dispatch by exact A. apply (direct_range depth e mode w h); [exact A|lia|lia|exact Hx|exact Hy|exact L].
Qed.
(** ** Specialised against general *)
Definition general (mode bits : Z) (src : mem) (s d st w h : Z) (dst : mem) : mem :=
  if mode <? 12 then ang_x bits src s d st mode w h dst
  else if mode <? 24 then ang_xy bits src s d st mode w h dst
  else ang_y bits src s d st mode w h dst.
Lemma general_direct bits src s d st mode w h dst : is_angular mode -> 0 < w <= st -> 0 < h ->
  predicts w h d st dst (general mode bits src s d st w h dst) (fun x y => to_pel bits (direct (fun k => src (s + k)) mode x y)).
Proof.
  intros M Hw Hh. unfold general. destruct M as [M|[M|M]]; unfold up_right, up_left, down_left in M.
  - destruct (Z.ltb_spec mode 12); [|lia]. eapply predicts_ext; [apply ang_x_ok; assumption|].
    intros x y _ _. cbn beta. f_equal. symmetry. apply direct_right. exact M.
  - destruct (Z.ltb_spec mode 12); [lia|]. destruct (Z.ltb_spec mode 24); [|lia]. eapply predicts_ext; [apply ang_xy_ok; assumption|].
    intros x y _ _. cbn beta. f_equal. symmetry. apply direct_corner. exact M.
  - destruct (Z.ltb_spec mode 12); [lia|]. destruct (Z.ltb_spec mode 24); [lia|]. eapply predicts_ext; [apply ang_y_ok; assumption|].
    intros x y _ _. cbn beta. f_equal. symmetry. apply direct_left. exact M.
Qed.
Lemma predicts_same w h d st old a b v : predicts w h d st old a v -> predicts w h d st old b v ->
  (forall x y, 0 <= x < w -> 0 <= y < h -> a (d + y * st + x) = b (d + y * st + x)) /\
  (forall q, (forall x y, 0 <= x < w -> 0 <= y < h -> q <> d + y * st + x) -> a q = b q).
Proof. intros [A1 A2] [B1 B2]. split; intros; [rewrite A1, B1 by assumption|rewrite A2, B2 by assumption]; reflexivity. Qed.
Lemma in_block_dec w h d st q : 0 < st -> w <= st -> (exists x y, 0 <= x < w /\ 0 <= y < h /\ q = d + y * st + x) \/ (forall x y, 0 <= x < w -> 0 <= y < h -> q <> d + y * st + x).
Proof.
  intros Hs Hw. pose proof (Z.div_mod (q - d) st ltac:(lia)) as D. pose proof (Z.mod_pos_bound (q - d) st Hs) as R.
  set (y := (q - d) / st) in *. set (x := (q - d) mod st) in *. clearbody x y.
  destruct (Z_lt_le_dec x w) as [X|X]; [destruct (Z_lt_le_dec y h) as [Y|Y]; [destruct (Z_lt_le_dec y 0) as [Y0|Y0]|]|].
  - right. intros x' y' Hx Hy E. nia.
  - left. exists x, y. lia.
  - right. intros x' y' Hx Hy E. nia.
  - right. intros x' y' Hx Hy E. assert (y = y') by nia. nia.
Qed.
Lemma predicts_same_all w h d st old a b v : 0 < st -> w <= st -> predicts w h d st old a v -> predicts w h d st old b v -> forall q, a q = b q.
Proof.
  intros Hs Hw A B q. destruct (predicts_same _ _ _ _ _ _ _ _ A B) as [P1 P2].
  destruct (in_block_dec w h d st q Hs Hw) as [(x & y & Hx & Hy & ->)|N]; [apply P1; assumption|apply P2; exact N].
Qed.
Lemma angular_general bits junk src s d st mode w h dst :
  is_angular mode -> intra_shape w h -> w <= st ->
  (mode = 5 -> (forall k, 2 * w <= k <= reach w h -> src (s + k) = src (s + 2 * w)) /\ 0 <= src (s + 2 * w) < 2 ^ bits) ->
  (mode = 31 -> (forall k, 2 * h <= k <= reach h w -> src (s - k) = src (s - 2 * h)) /\ 0 <= src (s - 2 * h) < 2 ^ bits) ->
  forall q, angular mode bits junk src s d st w h dst q = general mode bits src s d st w h dst q.
Proof.
  intros M Sh W H5 H31. pose proof (shape_pos w h Sh) as B.
  pose proof (reach_ge8 w h ltac:(lia)) as Rw. pose proof (reach_ge8 h w ltac:(lia)) as Rh.
  apply (predicts_same_all w h d st dst _ _ (fun x y => to_pel bits (direct (fun k => src (s + k)) mode x y))); [lia|exact W| |apply general_direct; [exact M|lia|lia]].
  destruct (Z.eq_dec mode 5) as [E|N5]; [|destruct (Z.eq_dec mode 31) as [E|N31]].
  - destruct (H5 E) as [R P]. rewrite E in *. eapply predicts_ext.
    + apply x5_ok; [exact Sh|exact W|intros k Hk; apply R; lia|]. unfold to_pel. apply Z.mod_small. exact P.
    + intros x y _ _. cbn beta. rewrite direct_right by lia. reflexivity.
  - destruct (H31 E) as [R P]. rewrite E in *. eapply predicts_ext.
    + apply y31_ok; [exact Sh|exact W|intros k Hk; apply R; lia|]. unfold to_pel. apply Z.mod_small. exact P.
    + intros x y _ _. cbn beta. rewrite direct_left by lia. reflexivity.
  - apply angular_direct_free; assumption.
Qed.
(** ** Dependence on the border *)
Lemma sumz_ext n f g : (forall i, 0 <= i < Z.of_nat n -> f i = g i) -> sumz n f = sumz n g.
Proof. induction n; intros H; [reflexivity|]. cbn [sumz]. rewrite IHn by (intros; apply H; lia). f_equal. apply H. lia. Qed.
Lemma direct_border e e' mode w h x y : is_angular mode -> 4 <= w -> 4 <= h -> 0 <= x < w -> 0 <= y < h ->
  (forall k, - reach h w <= k <= reach w h -> e k = e' k) -> direct e mode x y = direct e' mode x y.
Proof.
  intros A Hw Hh Hx Hy H. destruct (direct_looks mode w h x y A Hw Hh Hx Hy) as (p & P1 & P2 & _ & P3).
  apply P3. intros q Hq. apply H. lia.
Qed.
Lemma rule_border depth e e' mode w h top left x y : 0 <= mode <= 32 -> intra_shape w h -> 0 <= x < w -> 0 <= y < h ->
  (forall k, - reach h w <= k <= reach w h -> e k = e' k) -> rule depth e mode w h top left x y = rule depth e' mode w h top left x y.
Proof.
  intros Hm Sh Hx Hy H. pose proof (shape_pos w h Sh) as B. pose proof (reach_ge w h). pose proof (reach_ge h w).
  assert (N : forall k, - h <= k <= w -> e k = e' k).
  { intros k Hk. apply H. lia. }
  destruct (intra_mode_cases mode Hm) as [->|[->|[->|[->|[->|A]]]]].
  - unfold rule, dc_rule. cbn [Z.eqb].
    rewrite (sum_ext w (fun x => e (x + 1)) (fun x => e' (x + 1))) by (intros; apply N; lia).
    rewrite (sum_ext h (fun y => e (- (y + 1))) (fun y => e' (- (y + 1)))) by (intros; apply N; lia). reflexivity.
  - unfold rule, plane_rule. cbn [Z.eqb Pos.eqb]. cbv zeta.
    assert (G : forall n m k f g, (forall i, 0 <= i <= n -> f i = g i) -> gradient n m k f = gradient n m k g).
    { intros n m k f g E. unfold gradient. f_equal. f_equal. f_equal. apply sum_ext. intros i Hi.
      assert (2 * (n / 2) <= n) by (apply Z.mul_div_le; lia). rewrite !E by lia. reflexivity. }
    rewrite (G w _ _ e e') by (intros; apply N; lia). rewrite (G h _ _ (fun k => e (- k)) (fun k => e' (- k))) by (intros; apply N; lia).
    rewrite (N w), (N (- h)) by lia. reflexivity.
  - unfold rule, bilinear_rule. cbn [Z.eqb Pos.eqb]. cbv zeta.
    rewrite (N w), (N (- h)), (N (- (y + 1))), (N (x + 1)) by lia. reflexivity.
  - apply N. lia.
  - apply N. lia.
  - rewrite !angular_dispatch by exact A. apply (direct_border e e' mode w h); [exact A|lia|lia|exact Hx|exact Hy|exact H].
Qed.
Lemma intra_pred_border bits depth junk junk' src src' s s' d st mode w h top left dst :
  1 <= depth <= bits -> bits = 8 \/ bits = 16 -> 0 <= mode <= 32 -> intra_shape w h -> w <= st ->
  legal depth (fun k => src (s + k)) w h -> repeats (fun k => src (s + k)) w h (reach w h) (reach h w) ->
  (forall k, - reach h w <= k <= reach w h -> src (s + k) = src' (s' + k)) ->
  forall q, intra_pred bits depth junk src s d st mode w h top left dst q = intra_pred bits depth junk' src' s' d st mode w h top left dst q.
Proof.
  intros Hd Hb Hm Sh W L R H. pose proof (shape_pos w h Sh) as B. pose proof (reach_ge w h). pose proof (reach_ge h w).
  assert (L' : legal depth (fun k => src' (s' + k)) w h) by (intros k Hk; cbn beta; rewrite <- H by exact Hk; apply L; exact Hk).
  assert (R' : repeats (fun k => src' (s' + k)) w h (reach w h) (reach h w)).
  { destruct R as [R1 R2]. split; intros k Hk; rewrite <- !H by lia; [apply R1|apply R2]; exact Hk. }
  apply (predicts_same_all w h d st dst _ _ (rule depth (fun k => src (s + k)) mode w h top left)); [lia|exact W|apply intra_pred_ok; assumption|].
  eapply predicts_ext; [apply intra_pred_ok; assumption|]. intros x y Hx Hy. symmetry. apply rule_border; [exact Hm|exact Sh|exact Hx|exact Hy|exact H].
Qed.
