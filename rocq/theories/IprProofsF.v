(** All directional predictors against the rule, and the range of their results. *)
From Coq Require Import ZArith List Bool Lia.
From Verif Require Import CBase UtilModel MemModel MemProofs LfModel LfProofs SaoModel SaoProofs McSpec IprModel IprSpec IprProofs IprProofsB IprProofsC IprProofsD IprProofsE.
Import ListNotations.
Open Scope Z_scope.

Lemma angular_direct_free bits junk src s d st mode w h dst :
  is_angular mode -> intra_shape w h -> w <= st -> mode <> 5 -> mode <> 31 ->
  predicts w h d st dst (angular mode bits junk src s d st w h dst) (fun x y => to_pel bits (direct (fun k => src (s + k)) mode x y)).
Proof.
  intros M Sh W N5 N31. pose proof (shape_pos w h Sh) as B.
  assert (Bw : 0 < w <= st) by lia. assert (Bh : 0 < h) by lia.
  destruct M as [M|[M|M]]; unfold up_right, up_left, down_left in M.
  - cut (predicts w h d st dst (angular mode bits junk src s d st w h dst) (fun x y => to_pel bits (right_rule src s (across mode) x y))).
    { intros G. eapply predicts_ext; [exact G|]. intros x y _ _. cbn beta. f_equal. symmetry. apply direct_right. exact M. }
    modes M; unfold angular.
    + exact (x3_ok bits junk src s d st dst w h Sh W).
    + exact (x4_ok bits junk src s d st dst w h Sh W).
    + contradiction.
    + exact (x6_ok bits junk src s d st dst w h Sh W).
    + exact (x7_ok bits src s d st dst w h Sh W).
    + exact (x8_ok bits junk src s d st dst w h Sh W).
    + exact (x9_ok bits src s d st dst w h Sh W).
    + exact (x10_ok bits junk src s d st dst w h Sh W).
    + exact (x11_ok bits junk src s d st dst w h Sh W).
  - cut (predicts w h d st dst (angular mode bits junk src s d st w h dst) (fun x y => to_pel bits (corner_rule src s (across mode) (down mode) x y))).
    { intros G. eapply predicts_ext; [exact G|]. intros x y _ _. cbn beta. f_equal. symmetry. apply direct_corner. exact M. }
    modes M; unfold angular.
    + exact (xy13_ok bits junk src s d st dst w h Sh W).
    + exact (xy14_ok bits junk src s d st dst w h Sh W).
    + exact (ang_xy_ok bits src s d st 15 w h dst ltac:(lia) Bw Bh).
    + exact (xy16_ok bits junk src s d st dst w h Sh W).
    + exact (ang_xy_ok bits src s d st 17 w h dst ltac:(lia) Bw Bh).
    + exact (xy18_ok bits junk src s d st dst w h Sh W).
    + exact (ang_xy_ok bits src s d st 19 w h dst ltac:(lia) Bw Bh).
    + exact (xy20_ok bits junk src s d st dst w h Sh W).
    + exact (ang_xy_ok bits src s d st 21 w h dst ltac:(lia) Bw Bh).
    + exact (xy22_ok bits junk src s d st dst w h Sh W).
    + exact (xy23_ok bits junk src s d st dst w h Sh W).
  - cut (predicts w h d st dst (angular mode bits junk src s d st w h dst) (fun x y => to_pel bits (left_rule src s (down mode) x y))).
    { intros G. eapply predicts_ext; [exact G|]. intros x y _ _. cbn beta. f_equal. symmetry. apply direct_left. exact M. }
    modes M; unfold angular.
    + exact (y25_ok bits junk src s d st dst w h Sh W).
    + exact (y26_ok bits junk src s d st dst w h Sh W).
    + exact (y27_ok bits src s d st dst w h Sh W).
    + exact (y28_ok bits junk src s d st dst w h Sh W).
    + exact (y29_ok bits src s d st dst w h Sh W).
    + exact (y30_ok bits junk src s d st dst w h Sh W).
    + contradiction.
    + exact (y32_ok bits junk src s d st dst w h Sh W).
Qed.
Lemma angular_direct bits junk src s d st mode w h dst :
  is_angular mode -> intra_shape w h -> w <= st ->
  repeats (fun k => src (s + k)) w h (w + h * 11 / 8 + 2) (h + w * 11 / 8 + 2) ->
  to_pel bits (src (s + 2 * w)) = src (s + 2 * w) -> to_pel bits (src (s - 2 * h)) = src (s - 2 * h) ->
  predicts w h d st dst (angular mode bits junk src s d st w h dst) (fun x y => to_pel bits (direct (fun k => src (s + k)) mode x y)).
Proof.
  intros M Sh W [R1 R2] P1 P2.
  destruct (Z.eq_dec mode 5) as [->|N5]; [|destruct (Z.eq_dec mode 31) as [->|N31]].
  - eapply predicts_ext; [exact (x5_ok bits junk src s d st dst w h Sh W R1 P1)|].
    intros x y _ _. cbn beta. rewrite direct_right by lia. reflexivity.
  - eapply predicts_ext; [exact (y31_ok bits junk src s d st dst w h Sh W R2 P2)|].
    intros x y _ _. cbn beta. rewrite direct_left by lia. reflexivity.
  - apply angular_direct_free; assumption.
Qed.
(** ** Where the rule looks, and between what its value lies *)
Lemma interp_between e p dir f lo hi : (dir = 1 \/ dir = -1) -> 0 <= f <= 32 ->
  (forall q, p - 1 + Z.min 0 dir <= q <= p + 1 + Z.max 0 dir -> lo <= e q <= hi) -> lo <= interp e p dir f <= hi.
Proof.
  intros D F H. unfold interp.
  assert (S : forall a, (a = p \/ a = p + dir) -> 4 * lo <= smooth e a <= 4 * hi).
  { intros a Ha. unfold smooth. pose proof (H (a - 1) ltac:(destruct D; subst dir; lia)). pose proof (H a ltac:(destruct D; subst dir; lia)).
    pose proof (H (a + 1) ltac:(destruct D; subst dir; lia)). lia. }
  pose proof (S p ltac:(auto)) as S1. pose proof (S (p + dir) ltac:(auto)) as S2.
  set (A := smooth e p) in *. set (B := smooth e (p + dir)) in *. clearbody A B. clear - F S1 S2.
  assert ((32 - f) * (4 * lo) <= (32 - f) * A <= (32 - f) * (4 * hi)) by (split; apply Z.mul_le_mono_nonneg_l; lia).
  assert (f * (4 * lo) <= f * B <= f * (4 * hi)) by (split; apply Z.mul_le_mono_nonneg_l; lia).
  split; [apply Z.div_le_lower_bound; lia|]. assert (((32 - f) * A + f * B + 64) / 128 < hi + 1); [apply Z.div_lt_upper_bound; lia|lia].
Qed.
Lemma frac_bound sl t : 0 <= frac sl t <= 32.
Proof. pose proof (frac_range sl t). lia. Qed.
(** A value that is determined by four neighbouring border samples and lies between them. *)
Definition looks (v : (Z -> Z) -> Z) (a b : Z) : Prop :=
  exists p, a <= p /\ p + 3 <= b /\
    (forall e lo hi, (forall q, p <= q <= p + 3 -> lo <= e q <= hi) -> lo <= v e <= hi) /\
    (forall e e', (forall q, p <= q <= p + 3 -> e q = e' q) -> v e = v e').
Lemma interp_looks p dir f a b : (dir = 1 \/ dir = -1) -> 0 <= f <= 32 -> a <= p - 1 + Z.min 0 dir -> p + 1 + Z.max 0 dir <= b -> looks (fun e => interp e p dir f) a b.
Proof.
  intros D F A B. exists (p - 1 + Z.min 0 dir). split; [exact A|]. split; [destruct D; subst dir; lia|]. split.
  - intros e lo hi H. apply interp_between; [exact D|exact F|]. intros q Hq. apply H. destruct D; subst dir; lia.
  - intros e e' H. apply interp_range; [exact D|]. intros q Hq. apply H. destruct D; subst dir; lia.
Qed.
Lemma slopes mode : is_angular mode -> 0 <= across mode <= 2048 /\ 0 <= down mode <= 2048 /\
  (up_right mode -> across mode <= 704) /\ (down_left mode -> down mode <= 704) /\ across mode * down mode <= 65536.
Proof.
  unfold is_angular, up_right, up_left, down_left.
  intros [M|[M|M]]; modes M; (split; [split; discriminate|split; [split; discriminate|split; [intros; first [lia|discriminate]|split; [intros; first [lia|discriminate]|discriminate]]]]).
Qed.
Lemma reach_ge w h : w + h * 11 / 4 + 4 <= reach w h /\ 2 * w <= reach w h.
Proof. unfold reach. lia. Qed.
Lemma walk_704 sl t n : 0 <= sl <= 704 -> 0 <= t <= n -> 0 <= walk sl t <= n * 11 / 4.
Proof.
  intros Hs Ht. unfold walk. split; [apply Z.div_pos; [apply Z.mul_nonneg_nonneg|]; lia|].
  replace (n * 11 / 4) with (n * 11 * 64 / (4 * 64)) by (apply Z.div_mul_cancel_r; lia).
  change (4 * 64) with 256. apply Z.div_le_mono; [lia|]. replace (n * 11 * 64) with (n * 704) by ring.
  apply Z.mul_le_mono_nonneg; lia.
Qed.
Lemma direct_looks mode w h x y : is_angular mode -> 4 <= w -> 4 <= h -> 0 <= x < w -> 0 <= y < h ->
  looks (fun e => direct e mode x y) (- reach h w) (reach w h).
Proof.
  intros M Hw Hh Hx Hy. pose proof (slopes mode M) as (Sa & Sd & Sr & Sl & Sp).
  pose proof (reach_ge w h). pose proof (reach_ge h w).
  unfold across, down in Sa, Sd, Sr, Sl, Sp. unfold direct. destruct (direction mode) as [dx dy]. cbn [fst snd] in *.
  set (A := slope dx dy) in *. set (D := slope dy dx) in *. clearbody A D.
  assert (HH : 0 <= h * 11 / 4 /\ 0 <= w * 11 / 4) by (split; apply Z.div_pos; lia).
  destruct M as [M|[M|M]]; unfold up_right, up_left, down_left in M.
  - destruct (Z.ltb_spec mode 12); [|lia]. specialize (Sr M).
    pose proof (walk_704 A (y + 1) h ltac:(lia) ltac:(lia)).
    apply interp_looks; [auto|apply frac_bound|lia|lia].
  - destruct (Z.ltb_spec mode 12); [lia|]. destruct (Z.ltb_spec mode 24); [|lia].
    assert (0 <= walk A (y + 1)) by (apply Z.div_pos; [apply Z.mul_nonneg_nonneg|]; lia).
    assert (0 <= walk D (x + 1)) by (apply Z.div_pos; [apply Z.mul_nonneg_nonneg|]; lia).
    destruct (Z.ltb_spec y (walk D (x + 1))) as [L|L].
    + assert (walk A (y + 1) <= x + 1).
      { unfold walk. apply Z.div_le_upper_bound; [lia|].
        assert ((y + 1) * 256 <= (x + 1) * D). { etransitivity; [apply Z.mul_le_mono_nonneg_r; [lia|]|rewrite Z.mul_comm; apply (Z.mul_div_le ((x + 1) * D) 256); lia]. unfold walk in L. lia. }
        assert ((y + 1) * 256 * A <= (x + 1) * D * A) by (apply Z.mul_le_mono_nonneg_r; lia).
        assert ((x + 1) * (A * D) <= (x + 1) * 65536) by (apply Z.mul_le_mono_nonneg_l; lia). lia. }
      apply interp_looks; [auto|apply frac_bound|lia|lia].
    + apply interp_looks; [auto|apply frac_bound|lia|lia].
  - destruct (Z.ltb_spec mode 12); [lia|]. destruct (Z.ltb_spec mode 24); [lia|]. specialize (Sl M).
    pose proof (walk_704 D (x + 1) w ltac:(lia) ltac:(lia)).
    apply interp_looks; [auto|apply frac_bound|lia|lia].
Qed.
Lemma to_pel_id bits depth v : 0 <= depth <= bits -> 0 <= v <= 2 ^ depth - 1 -> to_pel bits v = v.
Proof.
  intros D V. unfold to_pel. apply Z.mod_small. assert (2 ^ depth <= 2 ^ bits) by (apply Z.pow_le_mono_r; lia). lia.
Qed.
Lemma direct_range depth e mode w h x y : is_angular mode -> 4 <= w -> 4 <= h -> 0 <= x < w -> 0 <= y < h -> legal depth e w h ->
  0 <= direct e mode x y <= 2 ^ depth - 1.
Proof.
  intros M Hw Hh Hx Hy L. destruct (direct_looks mode w h x y M Hw Hh Hx Hy) as (p & A & B & C & _). apply C. intros q Hq. apply L. lia.
Qed.
Lemma reach_ge8 w h : 0 <= h -> w + h * 11 / 8 + 2 <= reach w h.
Proof. intros. pose proof (reach_ge w h). assert (h * 11 / 8 <= h * 11 / 4) by (Z.div_mod_to_equations; lia). lia. Qed.
Lemma angular_exact bits depth junk src s d st mode w h dst : 0 <= depth <= bits ->
  is_angular mode -> intra_shape w h -> w <= st -> legal depth (fun k => src (s + k)) w h ->
  repeats (fun k => src (s + k)) w h (reach w h) (reach h w) ->
  predicts w h d st dst (angular mode bits junk src s d st w h dst) (direct (fun k => src (s + k)) mode).
Proof.
  intros Db M Sh W L [R1 R2]. pose proof (shape_pos w h Sh) as B.
  pose proof (reach_ge w h). pose proof (reach_ge h w). pose proof (reach_ge8 w h ltac:(lia)). pose proof (reach_ge8 h w ltac:(lia)).
  eapply predicts_ext.
  - apply angular_direct; [exact M|exact Sh|exact W| | |].
    + split; intros k Hk; [apply R1|apply R2]; lia.
    + apply (to_pel_id bits depth _ Db). apply (L (2 * w)). lia.
    + apply (to_pel_id bits depth _ Db). apply (L (- (2 * h))). lia.
  - intros x y Hx Hy. cbn beta. apply (to_pel_id bits depth _ Db). apply (direct_range depth _ mode w h); [exact M|lia|lia|exact Hx|exact Hy|exact L].
Qed.
