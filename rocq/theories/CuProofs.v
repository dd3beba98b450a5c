(** Lemmas about units and residuals. *)
From Coq Require Import ZArith List Bool Lia.
From Verif Require Import CBase CBaseProofs MemModel MemProofs UtilModel UtilProofs AlfSpec SynModel SynSpec McModel McSpec McProofs McProofsB TrModel TrSpec TrProofs TrProofsB CuModel CuSpec.
Import ListNotations.
Open Scope Z_scope.

(** Shapes. *)
Definition cb_eqb (a b : cb) : bool := (cx a =? cx b) && (cy a =? cy b) && (cw a =? cw b) && (ch a =? ch b).
Lemma cb_eqb_eq : forall a b, cb_eqb a b = true -> a = b.
Proof. intros [a b c d] [a' b' c' d'] H. unfold cb_eqb in H. cbn in H. rewrite !andb_true_iff, !Z.eqb_eq in H. destruct H as [[[-> ->] ->] ->]. reflexivity. Qed.
Definition skip_four (slice ds level : Z) : bool :=
  (3 <? level) && ((slice =? P_SLICE) || ((slice =? F_SLICE) && (ds =? 0)) || ((slice =? B_SLICE) && (ds =? 0))).
Lemma modes12 : forall (Q : Z -> Prop), Q 0 -> Q 1 -> Q 2 -> Q 3 -> Q 4 -> Q 5 -> Q 6 -> Q 7 -> Q 8 -> Q 9 -> Q 10 -> Q 11 -> forall m, 0 <= m <= 11 -> Q m.
Proof.
  intros Q q0 q1 q2 q3 q4 q5 q6 q7 q8 q9 q10 q11 m H.
  assert (E: m = 0 \/ m = 1 \/ m = 2 \/ m = 3 \/ m = 4 \/ m = 5 \/ m = 6 \/ m = 7 \/ m = 8 \/ m = 9 \/ m = 10 \/ m = 11) by lia.
  repeat (destruct E as [-> | E]; [assumption|]). subst. assumption.
Qed.
Lemma levels4 : forall (Q : Z -> Prop), Q 3 -> Q 4 -> Q 5 -> Q 6 -> forall l, 3 <= l <= 6 -> Q l.
Proof. intros Q a b c e l H. assert (E: l = 3 \/ l = 4 \/ l = 5 \/ l = 6) by lia. repeat (destruct E as [-> | E]; [assumption|]). subst. assumption. Qed.
Lemma pu_shape : forall slice ds mode level, 0 <= mode <= 11 -> 3 <= level <= 6 ->
  prediction_units slice ds mode level = quarters (2 ^ (level - 2)) (partition (skip_four slice ds level) mode).
Proof.
  intros slice ds mode level Hm Hl. unfold prediction_units. cbv zeta. fold (skip_four slice ds level).
  set (b := skip_four slice ds level). clearbody b. revert level Hl. revert mode Hm.
  apply (modes12 (fun mode => forall level, 3 <= level <= 6 -> _ = _)); apply levels4; destruct b; vm_compute; reflexivity.
Qed.
Lemma tu_shape : forall split level, 0 <= split <= 3 -> 3 <= level <= 6 ->
  firstn (tu_count split) (transform_units split level) = quarters (2 ^ (level - 2)) (tu_partition split).
Proof.
  intros split level Hs Hl. assert (E: split = 0 \/ split = 1 \/ split = 2 \/ split = 3) by lia. revert level Hl.
  repeat (destruct E as [-> | E]; [apply levels4; vm_compute; reflexivity|]). subst split. apply levels4; vm_compute; reflexivity.
Qed.

(** Tiling in quarters, checked on sixteen cells, gives tiling at every size. *)
Definition in_q (u : Z * Z * Z * Z) (x y : Z) : bool := let '(a, b, w, h) := u in (a <=? x) && (x <? a + w) && (b <=? y) && (y <? b + h).
Definition cells : list Z := [0; 1; 2; 3].
Definition ok_q (l : list (Z * Z * Z * Z)) : bool :=
  forallb (fun '(a, b, w, h) => (0 <=? a) && (0 <=? b) && (0 <? w) && (0 <? h) && (a + w <=? 4) && (b + h <=? 4)) l &&
  forallb (fun x => forallb (fun y => Nat.eqb (length (filter (fun u => in_q u x y) l)) 1) cells) cells.
Lemma filter_one : forall (A : Type) (p : A -> bool) l, length (filter p l) = 1%nat ->
  exists i u, nth_error l i = Some u /\ p u = true /\ forall j v, nth_error l j = Some v -> p v = true -> j = i.
Proof.
  intros A p l. induction l as [|a l IH]; intros H; [discriminate|]. cbn [filter] in H. destruct (p a) eqn:E.
  - cbn [length] in H. injection H as H. exists O, a. split; [reflexivity|]. split; [exact E|]. intros j v Hj Hv.
    destruct j as [|j]; [reflexivity|]. cbn [nth_error] in Hj. apply nth_error_In in Hj.
    assert (F: In v (filter p l)) by (apply filter_In; split; assumption). destruct (filter p l); [contradiction|discriminate].
  - destruct (IH H) as [i [u [Hi [Hu U]]]]. exists (S i), u. split; [exact Hi|]. split; [exact Hu|]. intros j v Hj Hv.
    destruct j as [|j]; [cbn [nth_error] in Hj; congruence|]. f_equal. apply (U j v); assumption.
Qed.
Lemma in_cells : forall x, 0 <= x < 4 -> In x cells.
Proof. intros x H. unfold cells. cbn [In]. lia. Qed.
Definition scale (q : Z) (u : Z * Z * Z * Z) : cb := let '(x, y, w, h) := u in {| cx := x * q; cy := y * q; cw := w * q; ch := h * q |}.
Lemma quarters_map : forall q l, quarters q l = map (scale q) l.
Proof. reflexivity. Qed.
Lemma scaled_range : forall q a w x, 0 < q -> a * q <= x < a * q + w * q <-> a <= x / q < a + w.
Proof.
  intros q a w x Hq. rewrite <- Z.mul_add_distr_r. assert (E := Z.div_mod x q ltac:(lia)). assert (M := Z.mod_pos_bound x q Hq).
  set (t := x / q) in *. set (r := x mod q) in *. clearbody t r. subst x. split; intros [H1 H2]; split; nia.
Qed.
Lemma inside_scale : forall q u x y, 0 < q -> inside (scale q u) x y <-> in_q u (x / q) (y / q) = true.
Proof.
  intros q [[[a b] w] h] x y Hq. unfold inside, scale, in_q. cbn [cx cy cw ch]. rewrite !andb_true_iff, !Z.leb_le, !Z.ltb_lt.
  rewrite !scaled_range by exact Hq. lia.
Qed.
Lemma nth_map : forall (A C : Type) (f : A -> C) l i v, nth_error (map f l) i = Some v -> exists u, nth_error l i = Some u /\ v = f u.
Proof.
  intros A C f l. induction l as [|a l IH]; intros [|i] v H; try discriminate.
  - cbn in H. injection H as <-. exists a. split; reflexivity.
  - cbn [map nth_error] in H |- *. apply IH. exact H.
Qed.
Lemma tiled_quarters : forall q l, 0 < q -> ok_q l = true -> tiled (4 * q) (quarters q l).
Proof.
  intros q l Hq H. rewrite quarters_map. apply andb_true_iff in H. destruct H as [H1 H2]. rewrite forallb_forall in H1. split.
  - intros u Hu. apply in_map_iff in Hu. destruct Hu as [[[[a b] w] h] [<- Hu]]. specialize (H1 _ Hu). cbn beta iota in H1.
    rewrite !andb_true_iff, !Z.leb_le, !Z.ltb_lt in H1. cbn [scale cx cy cw ch]. nia.
  - intros x y Hx Hy. rewrite forallb_forall in H2.
    assert (Cx: 0 <= x / q < 4) by (split; [apply Z.div_pos; lia|apply Z.div_lt_upper_bound; lia]).
    assert (Cy: 0 <= y / q < 4) by (split; [apply Z.div_pos; lia|apply Z.div_lt_upper_bound; lia]).
    specialize (H2 _ (in_cells _ Cx)). cbv beta in H2. rewrite forallb_forall in H2. specialize (H2 _ (in_cells _ Cy)). cbv beta in H2.
    apply Nat.eqb_eq in H2. destruct (filter_one _ _ _ H2) as [i [u [Hi [Hu U]]]]. exists i, (scale q u).
    split; [apply map_nth_error; exact Hi|]. split; [apply inside_scale; assumption|]. intros j v Hj Hv.
    destruct (nth_map _ _ _ _ _ _ Hj) as [v' [Hj' ->]]. apply (U j v' Hj'). apply inside_scale in Hv; assumption.
Qed.
Lemma parts_ok : forall four mode, 0 <= mode <= 11 -> ok_q (partition four mode) = true.
Proof. intros four. apply modes12; destruct four; vm_compute; reflexivity. Qed.
Lemma tu_parts_ok : forall split, 0 <= split <= 3 -> ok_q (tu_partition split) = true.
Proof. intros split H. assert (E: split = 0 \/ split = 1 \/ split = 2 \/ split = 3) by lia. repeat (destruct E as [-> | E]; [vm_compute; reflexivity|]). subst. vm_compute. reflexivity. Qed.
Lemma four_q : forall level, 3 <= level -> 4 * 2 ^ (level - 2) = 2 ^ level.
Proof. intros level H. change 4 with (2 ^ 2). rewrite <- Z.pow_add_r by lia. f_equal. lia. Qed.
Lemma pu_tiled : forall slice ds mode level, 0 <= mode <= 11 -> 3 <= level <= 6 -> tiled (2 ^ level) (prediction_units slice ds mode level).
Proof.
  intros slice ds mode level Hm Hl. rewrite pu_shape by assumption. rewrite <- four_q by lia.
  apply tiled_quarters; [apply Z.pow_pos_nonneg; lia|apply parts_ok; exact Hm].
Qed.
Lemma tu_tiled : forall split level, 0 <= split <= 3 -> 3 <= level <= 6 -> tiled (2 ^ level) (firstn (tu_count split) (transform_units split level)).
Proof.
  intros split level Hm Hl. rewrite tu_shape by assumption. rewrite <- four_q by lia.
  apply tiled_quarters; [apply Z.pow_pos_nonneg; lia|apply tu_parts_ok; exact Hm].
Qed.
Lemma tu_sizes : forall split level u, 3 <= level <= 6 -> split_ok level split ->
  In u (firstn (tu_count split) (transform_units split level)) -> In (cw u, ch u) block_sizes.
Proof.
  intros split level u Hl [Hs H3] Hu. rewrite tu_shape in Hu by assumption. rewrite quarters_map in Hu. apply in_map_iff in Hu.
  destruct Hu as [v [<- Hv]]. unfold NON, CROSS in H3.
  assert (E: level = 3 \/ level = 4 \/ level = 5 \/ level = 6) by lia.
  assert (F: split = 0 \/ split = 1 \/ split = 2 \/ split = 3) by lia.
  destruct F as [-> | [-> | [-> | ->]]]; cbn in Hv;
    repeat (destruct Hv as [<- | Hv]; [destruct E as [-> | [-> | [-> | ->]]]; try (exfalso; lia); vm_compute; tauto|]); contradiction.
Qed.
Lemma pu_aligned : forall slice ds mode level u, 0 <= mode <= 11 -> 3 <= level <= 6 -> (level = 3 -> mode <= 3 \/ mode = 8 \/ mode = 9) ->
  In u (prediction_units slice ds mode level) -> cx u mod 4 = 0 /\ cy u mod 4 = 0 /\ cw u mod 4 = 0 /\ ch u mod 4 = 0.
Proof.
  intros slice ds mode level u Hm Hl H3 Hu. rewrite pu_shape in Hu by assumption. rewrite quarters_map in Hu. apply in_map_iff in Hu.
  destruct Hu as [[[[a b] w] h] [<- Hv]]. cbn [scale cx cy cw ch].
  destruct (Z.eq_dec level 3) as [-> | N].
  - change (2 ^ (3 - 2)) with 2. specialize (H3 eq_refl). unfold partition in Hv. destruct (skip_four slice ds 3);
    (assert (F: mode = 0 \/ mode = 1 \/ mode = 2 \/ mode = 3 \/ mode = 8 \/ mode = 9) by lia;
     repeat (destruct F as [-> | F]; [cbn in Hv; repeat (destruct Hv as [Hv | Hv]; [injection Hv as <- <- <- <-; repeat split; reflexivity|]); contradiction|]);
     subst mode; cbn in Hv; repeat (destruct Hv as [Hv | Hv]; [injection Hv as <- <- <- <-; repeat split; reflexivity|]); contradiction).
  - assert (D: (4 | 2 ^ (level - 2))) by (exists (2 ^ (level - 4)); change 4 with (2 ^ 2); rewrite <- Z.pow_add_r by lia; f_equal; lia).
    repeat split; apply Z.mod_divide; try lia; apply Z.divide_mul_r; exact D.
Qed.
