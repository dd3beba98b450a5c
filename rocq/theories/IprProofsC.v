(** The specialised angular predictors are the rule. *)
From Coq Require Import ZArith List Bool Lia.
From Verif Require Import CBase MemModel MemProofs MemProofsB SaoModel SaoProofs LfModel IprModel IprSpec IprProofs IprProofsB.
Import ListNotations.
Open Scope Z_scope.

Lemma interp_0 e p a b : interp e p a 0 = interp e p b 0.
Proof. unfold interp. rewrite !Z.mul_0_l. reflexivity. Qed.
Lemma codes_prefix a b P F dir : forall k, codes (a ++ b) k P F dir -> codes a k P F dir.
Proof. induction a as [|E a IH]; intros k H; [exact I|]. destruct H as [H1 H2]. split; [exact H1|apply IH; exact H2]. Qed.

Lemma quot_range K t k nr : 0 <= K * t + k < nr * K -> 0 <= k < K -> 0 <= t < nr.
Proof.
  intros H B. split.
  - apply Z.lt_succ_r. apply Z.nle_gt. intros Q. assert (K * t <= K * (-1)) by (apply Z.mul_le_mono_nonneg_l; lia). lia.
  - apply Z.nle_gt. intros Q. assert (K * nr <= K * t) by (apply Z.mul_le_mono_nonneg_l; lia). lia.
Qed.

Section Families.
Variables (bits : Z) (src : mem) (s d st bsx bsy : Z) (dst : mem).
Let e (k : Z) : Z := src (s + k).

Definition right_rule (sl x y : Z) : Z := interp e (x + 1 + walk sl (y + 1)) 1 (frac sl (y + 1)).
Definition left_rule (sl x y : Z) : Z := interp e (- (y + 1 + walk sl (x + 1))) (-1) (frac sl (x + 1)).
Definition corner_rule (across down x y : Z) : Z :=
  if y <? walk down (x + 1) then interp e (x + 1 - walk across (y + 1)) (-1) (frac across (y + 1))
  else interp e (- (y + 1 - walk down (x + 1))) 1 (frac down (x + 1)).

Lemma code_at es P F dir b k : codes es 0 P F dir -> 0 <= k < Z.of_nat (length es) ->
  nth (Z.to_nat k) es (fun _ => 0) (fun q => src (s + b + q)) = interp e (b + P k) dir (F k).
Proof.
  intros H Hk. rewrite (codes_nth _ _ _ _ _ H) by exact Hk. rewrite Z.add_0_l.
  rewrite <- (interp_shift e). apply interp_at; [|reflexivity|reflexivity]. intros q. unfold e. rewrite Z.add_assoc. reflexivity.
Qed.

(** Rightward line buffers. *)
Lemma right_lines es sl o K M nr n base off fl :
  codes es 0 (pos_x sl o) (fr sl) 1 -> Z.of_nat (length es) = K -> 0 < K -> K * sl = M * 256 -> 0 <= M -> 0 < nr -> bsy = nr * K -> 0 < bsx <= st ->
  M * (nr - 1) + bsx <= n ->
  (forall k i, 0 <= k < K -> 0 <= i < n -> fl (base k + i) = to_pel bits (nth (Z.to_nat k) es (fun _ => 0) (fun q => src (s + (o + i) + q)))) ->
  (forall k t, off k t = base k + M * t) ->
  predicts bsx bsy d st dst (rows_copy nr K bsx d st fl off dst) (fun x y => to_pel bits (right_rule sl x y)).
Proof.
  intros C L HK P HM Hnr Hy Hw Hn Hfl Hoff. subst bsy.
  eapply predicts_ext; [apply rows_spec; lia|]. cbn beta. intros x y Hx Hy.
  pose proof (Z.mod_pos_bound y K HK) as B. pose proof (Z.div_mod y K ltac:(lia)) as D.
  set (t := y / K) in *. set (k := y mod K) in *. clearbody t k. subst y.
  pose proof (quot_range K t k nr Hy B).
  assert (M * t <= M * (nr - 1)) by (apply Z.mul_le_mono_nonneg_l; lia).
  assert (0 <= M * t) by (apply Z.mul_nonneg_nonneg; lia).
  rewrite Hoff. rewrite <- Z.add_assoc, Hfl by lia. f_equal.
  rewrite (code_at _ _ _ _ _ _ C) by lia. unfold right_rule, pos_x, fr.
  replace (K * t + k + 1) with (K * t + (k + 1)) by lia. rewrite (walk_period _ _ M), (frac_period _ _ M) by exact P. f_equal. lia.
Qed.
Lemma right_direct es sl : codes es 0 (pos_x sl 0) (fr sl) 1 -> Z.of_nat (length es) = bsy -> 0 <= bsx <= st ->
  predicts bsx bsy d st dst (direct_rows bits src s d st es bsx dst) (fun x y => to_pel bits (right_rule sl x y)).
Proof.
  intros C L Hw. rewrite <- L. eapply predicts_ext; [apply direct_rows_spec; exact Hw|]. cbn beta. intros x y Hx Hy.
  f_equal. rewrite (code_at _ _ _ _ _ _ C) by lia. unfold right_rule, pos_x, fr. f_equal. lia.
Qed.
(** Leftward: one line buffer with [K] entries per border sample. *)
Lemma left_lines es sl o K n off fl :
  codes es 0 (pos_y sl o) (fr sl) (-1) -> Z.of_nat (length es) = K -> 0 < K -> K * sl = 256 -> 0 < bsx <= st -> 0 <= bsy ->
  K * (bsy - 1) + bsx <= n ->
  (forall i, 0 <= i < n -> fl i = to_pel bits (nth (Z.to_nat (i mod K)) es (fun _ => 0) (fun q => src (s + (- o - i / K) + q)))) ->
  (forall t, off 0 t = K * t) ->
  predicts bsx bsy d st dst (rows_copy bsy 1 bsx d st fl off dst) (fun x y => to_pel bits (left_rule sl x y)).
Proof.
  intros C L HK P Hw Hh Hn Hfl Hoff.
  eapply predicts_dims; [|reflexivity|apply Z.mul_1_r].
  eapply predicts_ext; [apply rows_spec; lia|]. cbn beta. intros x y Hx Hy.
  rewrite Z.mod_1_r, Z.div_1_r, Hoff.
  assert (0 <= K * y) by (apply Z.mul_nonneg_nonneg; lia).
  assert (K * y <= K * (bsy - 1)) by (apply Z.mul_le_mono_nonneg_l; lia).
  rewrite Hfl by lia. f_equal.
  pose proof (Z.mod_pos_bound x K HK) as B. pose proof (Z.div_mod x K ltac:(lia)) as D.
  replace (K * y + x) with (x + y * K) by lia. rewrite Z.div_add, Z.mod_add by lia.
  set (t := x / K) in *. set (k := x mod K) in *. clearbody t k. subst x.
  rewrite (code_at _ _ _ _ _ _ C) by lia. unfold left_rule, pos_y, fr.
  replace (K * t + k + 1) with (K * t + (k + 1)) by lia. rewrite (walk_period _ _ 1), (frac_period _ _ 1) by lia. f_equal. lia.
Qed.
Lemma left_direct es sl : codes es 0 (pos_y sl 0) (fr sl) (-1) -> Z.of_nat (length es) = bsx -> bsx <= st ->
  predicts bsx bsy d st dst (direct_cols bits src s d st bsy es dst) (fun x y => to_pel bits (left_rule sl x y)).
Proof.
  intros C L Hw. rewrite <- L. eapply predicts_ext; [apply direct_cols_spec; lia|]. cbn beta. intros x y Hx Hy.
  f_equal. rewrite <- Z.add_opp_r, (code_at _ _ _ _ _ _ C) by lia. unfold left_rule, pos_y, fr. f_equal. lia.
Qed.
(** Up and left, [K] rows per column of the border. *)
Lemma corner_planar el et K nr base off fl :
  codes el 0 (fun k => K - 1 - k) (fun _ => 0) 1 -> codes et 0 (pos_l (256 / K)) (fr (256 / K)) (-1) ->
  Z.of_nat (length el) = K -> Z.of_nat (length et) = K -> 0 < K -> K * (256 / K) = 256 -> 0 < nr -> bsy = nr * K -> 0 < bsx <= st ->
  (forall k i, 0 <= k < K -> 0 <= i < nr - 1 -> fl (base k + i) = to_pel bits (nth (Z.to_nat k) el (fun _ => 0) (fun q => src (s + (- (bsy - K) + K * i) + q)))) ->
  (forall k i, 0 <= k < K -> nr - 1 <= i < nr - 1 + bsx -> fl (base k + i) = to_pel bits (nth (Z.to_nat k) et (fun _ => 0) (fun q => src (s + (i - (nr - 1)) + q)))) ->
  (forall k t, off k t = base k + (nr - 1 - t)) ->
  predicts bsx bsy d st dst (rows_copy nr K bsx d st fl off dst) (fun x y => to_pel bits (corner_rule (256 / K) (K * 256) x y)).
Proof.
  intros Cl Ct Ll Lt HK P Hnr Hy Hw Fl Ft Hoff. rewrite Hy in Fl |- *. clear Hy.
  eapply predicts_ext; [apply rows_spec; lia|]. cbn beta. intros x y Hx Hy.
  pose proof (Z.mod_pos_bound y K HK) as B. pose proof (Z.div_mod y K ltac:(lia)) as D.
  set (t := y / K) in *. set (k := y mod K) in *. clearbody t k. subst y.
  pose proof (quot_range K t k nr Hy B).
  set (sl := 256 / K) in *. clearbody sl.
  assert (W : walk (K * 256) (x + 1) = K * (x + 1)). { unfold walk. replace ((x + 1) * (K * 256)) with (K * (x + 1) * 256) by lia. apply Z.div_mul. lia. }
  assert (F : frac (K * 256) (x + 1) = 0). { unfold frac. replace ((x + 1) * (K * 256)) with (K * (x + 1) * 32 * 8) by lia. rewrite Z.div_mul by lia. apply Z.mod_mul. lia. }
  rewrite Hoff. rewrite <- Z.add_assoc. unfold corner_rule. rewrite W, F.
  destruct (Z.lt_ge_cases x t) as [X|X].
  - rewrite Fl by lia. f_equal. rewrite (code_at _ _ _ _ _ _ Cl) by lia.
    destruct (Z.ltb_spec (K * t + k) (K * (x + 1))) as [Q|Q].
    + exfalso. assert (K * (x + 1) <= K * t) by (apply Z.mul_le_mono_nonneg_l; lia). lia.
    + f_equal. nia.
  - rewrite Ft by lia. f_equal. rewrite (code_at _ _ _ _ _ _ Ct) by lia. unfold pos_l, fr.
    destruct (Z.ltb_spec (K * t + k) (K * (x + 1))) as [Q|Q].
    + replace (K * t + k + 1) with (K * t + (k + 1)) by lia. rewrite (walk_period _ _ 1), (frac_period _ _ 1) by lia. f_equal. lia.
    + exfalso. assert (K * (t + 1) <= K * (x + 1)) by (apply Z.mul_le_mono_nonneg_l; lia). lia.
Qed.
Lemma corner_rows et K : codes et 0 (pos_l (256 / K)) (fr (256 / K)) (-1) -> Z.of_nat (length et) = bsy -> 0 < bsy <= K -> 0 <= bsx <= st ->
  predicts bsx bsy d st dst (direct_rows bits src s d st et bsx dst) (fun x y => to_pel bits (corner_rule (256 / K) (K * 256) x y)).
Proof.
  intros C L Hh Hw. rewrite <- L. eapply predicts_ext; [apply direct_rows_spec; exact Hw|]. cbn beta. intros x y Hx Hy.
  f_equal. rewrite (code_at _ _ _ _ _ _ C) by lia. unfold corner_rule, pos_l, fr.
  assert (W : walk (K * 256) (x + 1) = K * (x + 1)). { unfold walk. replace ((x + 1) * (K * 256)) with (K * (x + 1) * 256) by lia. apply Z.div_mul. lia. }
  rewrite W. destruct (Z.ltb_spec y (K * (x + 1))) as [Q|Q]; [|nia]. f_equal. lia.
Qed.
(** Up and left, one line buffer with [K] entries per border sample on the left. *)
Lemma corner_strided el et K off fl :
  codes el 0 (fun k => walk (256 / K) (k + 1)) (fr (256 / K)) 1 -> codes [et] 0 (fun _ => 0) (fun _ => 0) (-1) ->
  Z.of_nat (length el) = K -> 0 < K -> K * (256 / K) = 256 -> 0 < bsx <= st -> 0 < bsy ->
  (forall i, 0 <= i < K * bsy - 1 -> fl i = to_pel bits (nth (Z.to_nat (i mod K)) el (fun _ => 0) (fun q => src (s + (- bsy + i / K) + q)))) ->
  (forall i, K * bsy - 1 <= i < K * (bsy - 1) + bsx -> fl i = to_pel bits (et (fun q => src (s + (i - (K * bsy - 1)) + q)))) ->
  (forall t, off 0 t = K * (bsy - 1 - t)) ->
  predicts bsx bsy d st dst (rows_copy bsy 1 bsx d st fl off dst) (fun x y => to_pel bits (corner_rule (K * 256) (256 / K) x y)).
Proof.
  intros Cl Ct Ll HK P Hw Hh Fl Ft Hoff.
  eapply predicts_dims; [|reflexivity|apply Z.mul_1_r].
  eapply predicts_ext; [apply rows_spec; lia|]. cbn beta. intros x y Hx Hy.
  rewrite Z.mod_1_r, Z.div_1_r, Hoff. unfold corner_rule.
  assert (0 <= K * (bsy - 1 - y)) by (apply Z.mul_nonneg_nonneg; lia).
  assert (K * (bsy - 1 - y) <= K * (bsy - 1)) by (apply Z.mul_le_mono_nonneg_l; lia).
  set (sl := 256 / K) in *. clearbody sl.
  assert (W : walk (K * 256) (y + 1) = K * (y + 1)). { unfold walk. replace ((y + 1) * (K * 256)) with (K * (y + 1) * 256) by lia. apply Z.div_mul. lia. }
  assert (F : frac (K * 256) (y + 1) = 0). { unfold frac. replace ((y + 1) * (K * 256)) with (K * (y + 1) * 32 * 8) by lia. rewrite Z.div_mul by lia. apply Z.mod_mul. lia. }
  assert (V : walk sl (x + 1) = (x + 1) / K).
  { unfold walk. rewrite <- P. rewrite (Z.mul_comm K sl). rewrite (Z.mul_comm (x + 1) sl). apply Z.div_mul_cancel_l; lia. }
  rewrite W, F.
  destruct (Z.ltb_spec y (walk sl (x + 1))) as [Q|Q].
  - rewrite V in Q. assert (K * (y + 1) <= x + 1). { apply Z.le_trans with (K * ((x + 1) / K)); [apply Z.mul_le_mono_nonneg_l; lia|apply Z.mul_div_le; lia]. }
    rewrite Ft by lia. f_equal. change et with (nth (Z.to_nat 0) [et] (fun _ => 0)). rewrite (code_at _ _ _ _ _ _ Ct) by (cbn [length]; lia). f_equal. lia.
  - assert (x + 1 < K * (y + 1)). { rewrite V in Q. apply Z.nle_gt. intros R. assert (y + 1 <= (x + 1) / K) by (apply Z.div_le_lower_bound; lia). lia. }
    rewrite Fl by lia. f_equal.
    pose proof (Z.mod_pos_bound x K HK) as B. pose proof (Z.div_mod x K ltac:(lia)) as D.
    replace (K * (bsy - 1 - y) + x) with (x + (bsy - 1 - y) * K) by lia. rewrite Z.div_add, Z.mod_add by lia.
    clear V Q. set (t := x / K) in *. set (k := x mod K) in *. clearbody t k. subst x.
    rewrite (code_at _ _ _ _ _ _ Cl) by lia. unfold fr.
    replace (K * t + k + 1) with (K * t + (k + 1)) by lia. rewrite (walk_period _ _ 1), (frac_period _ _ 1) by lia. f_equal. lia.
Qed.
Lemma corner_cols el K : codes el 0 (pos_u (256 / K)) (fr (256 / K)) 1 -> Z.of_nat (length el) = bsx -> 0 < bsx <= K -> K * (256 / K) = 256 -> bsx <= st ->
  predicts bsx bsy d st dst (direct_cols bits src s d st bsy el dst) (fun x y => to_pel bits (corner_rule (K * 256) (256 / K) x y)).
Proof.
  intros C L Hh P Hw. rewrite <- L. eapply predicts_ext; [apply direct_cols_spec; lia|]. cbn beta. intros x y Hx Hy.
  f_equal. rewrite <- Z.add_opp_r, (code_at _ _ _ _ _ _ C) by lia. unfold corner_rule, pos_u, fr.
  set (sl := 256 / K) in *. clearbody sl.
  assert (W : walk (K * 256) (y + 1) = K * (y + 1)). { unfold walk. replace ((y + 1) * (K * 256)) with (K * (y + 1) * 256) by lia. apply Z.div_mul. lia. }
  assert (F : frac (K * 256) (y + 1) = 0). { unfold frac. replace ((y + 1) * (K * 256)) with (K * (y + 1) * 32 * 8) by lia. rewrite Z.div_mul by lia. apply Z.mod_mul. lia. }
  assert (V : walk sl (x + 1) = (x + 1) / K).
  { unfold walk. rewrite <- P. rewrite (Z.mul_comm K sl). rewrite (Z.mul_comm (x + 1) sl). apply Z.div_mul_cancel_l; lia. }
  rewrite W, F. destruct (Z.ltb_spec y (walk sl (x + 1))) as [Q|Q].
  - rewrite V in Q. assert (K * (y + 1) <= x + 1). { apply Z.le_trans with (K * ((x + 1) / K)); [apply Z.mul_le_mono_nonneg_l; lia|apply Z.mul_div_le; lia]. }
    assert (y = 0) by nia. assert (x + 1 = K) by nia. subst y.
    assert (F1 : frac sl (x + 1) = 0). { unfold frac. replace ((x + 1) * sl) with 256 by nia. reflexivity. }
    assert (W1 : walk sl (x + 1) = 1). { unfold walk. replace ((x + 1) * sl) with 256 by nia. reflexivity. }
    rewrite F1, W1, (interp_0 _ _ 1 (-1)). f_equal. lia.
  - f_equal. lia.
Qed.
End Families.
