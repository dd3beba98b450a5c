(** Line buffers, row copies and the stores of the angular predictors. *)
From Coq Require Import ZArith List Bool Lia.
From Verif Require Import CBase MemModel MemProofs MemProofsB SaoModel SaoProofs LfModel IprModel IprSpec.
Import ListNotations.
Open Scope Z_scope.

(** ** Loops *)
Lemma put_other bits es addr r : forall k m q,
  (forall j, 0 <= j < Z.of_nat (length es) -> addr (k + j) <> q) -> line_put bits es addr r k m q = m q.
Proof.
  induction es as [|E es IH]; intros k m q H; [reflexivity|]. cbn [line_put length] in *.
  rewrite IH.
  - apply upd_other. specialize (H 0 ltac:(lia)). rewrite Z.add_0_r in H. congruence.
  - intros j Hj. replace (k + 1 + j) with (k + (1 + j)) by lia. apply H. lia.
Qed.
Lemma put_read bits es addr r : forall k m n E,
  (forall i j, 0 <= i < Z.of_nat (length es) -> 0 <= j < Z.of_nat (length es) -> addr (k + i) = addr (k + j) -> i = j) ->
  nth_error es n = Some E -> line_put bits es addr r k m (addr (k + Z.of_nat n)) = to_pel bits (E r).
Proof.
  induction es as [|F es IH]; intros k m n E Inj H.
  - destruct n; discriminate.
  - cbn [line_put length] in *. destruct n as [|n].
    + cbn [nth_error] in H. inversion H; subst F. replace (k + Z.of_nat 0) with k by lia. rewrite put_other.
      * apply upd_same.
      * intros j Hj Q. specialize (Inj (1 + j) 0 ltac:(lia) ltac:(lia)). replace (k + (1 + j)) with (k + 1 + j) in Inj by lia.
        rewrite Z.add_0_r in Inj. specialize (Inj Q). lia.
    + cbn [nth_error] in H. replace (k + Z.of_nat (S n)) with (k + 1 + Z.of_nat n) by lia. apply IH; [|exact H].
      intros i j Hi Hj Q. specialize (Inj (1 + i) (1 + j) ltac:(lia) ltac:(lia)).
      replace (k + (1 + i)) with (k + 1 + i) in Inj by lia. replace (k + (1 + j)) with (k + 1 + j) in Inj by lia. specialize (Inj Q). lia.
Qed.
Lemma fill_other bits es addr src pos a b m q :
  (forall k i, 0 <= k < Z.of_nat (length es) -> a <= i < b -> addr k i <> q) -> line_fill bits es addr src pos a b m q = m q.
Proof.
  intros H. unfold line_fill. destruct (Z.le_gt_cases a b) as [L|L].
  2: { rewrite floop_none by lia. reflexivity. }
  apply (floop_inv (fun _ (t : mem) => t q = m q) a b); [exact L|reflexivity|].
  intros i t Hi Ht. rewrite put_other; [exact Ht|]. intros j Hj. apply H; lia.
Qed.
Lemma fill_read bits es addr src pos a b m :
  (forall k i k' i', 0 <= k < Z.of_nat (length es) -> a <= i < b -> 0 <= k' < Z.of_nat (length es) -> a <= i' < b ->
     addr k i = addr k' i' -> k = k' /\ i = i') ->
  forall k i E, a <= i < b -> nth_error es k = Some E ->
  line_fill bits es addr src pos a b m (addr (Z.of_nat k) i) = to_pel bits (E (fun q => src (pos i + q))).
Proof.
  intros Inj k i E Hi HE. unfold line_fill.
  assert (Hk : 0 <= Z.of_nat k < Z.of_nat (length es)). { assert (nth_error es k <> None) by congruence. apply nth_error_Some in H. lia. }
  assert (G : forall n (t : mem), n <= b ->
    floop a n (fun i m => line_put bits es (fun k => addr k i) (fun q => src (pos i + q)) 0 m) m = t ->
    i < n -> t (addr (Z.of_nat k) i) = to_pel bits (E (fun q => src (pos i + q)))).
  2: { eapply G; [apply Z.le_refl|reflexivity|lia]. }
  intros n t Hn <- Hin.
  apply (floop_inv (fun n (t : mem) => i < n -> t (addr (Z.of_nat k) i) = to_pel bits (E (fun q => src (pos i + q)))) a n); [lia|lia| |exact Hin].
  intros j u Hj Hu Hij. destruct (Z.eq_dec i j) as [<-|N].
  - pose proof (put_read bits es (fun k => addr k i) (fun q => src (pos i + q)) 0 u k E) as P.
    apply P; [|exact HE]. intros x y Hx Hy Q. rewrite !Z.add_0_l in Q. destruct (Inj x i y i) as [? _]; auto; lia.
  - rewrite put_other; [apply Hu; lia|]. intros x Hx Q. rewrite Z.add_0_l in Q. destruct (Inj x j (Z.of_nat k) i); auto; try lia.
Qed.
(** Row copies. *)
Lemma rows_spec n K w d st fl off dst : 0 <= n -> 0 < K -> 0 <= w <= st ->
  predicts w (n * K) d st dst (rows_copy n K w d st fl off dst) (fun x y => fl (off (y mod K) (y / K) + x)).
Proof.
  intros Hn HK Hw.
  destruct (Z.eq_dec w 0) as [->|Hw0].
  { assert (Z1 : forall q, rows_copy n K 0 d st fl off dst q = dst q).
    { intros q. unfold rows_copy. apply (floop_inv (fun _ (t : mem) => t q = dst q) 0 n); [lia|reflexivity|].
      intros t u _ Hu. apply (floop_inv (fun _ (t : mem) => t q = dst q) 0 K); [lia|exact Hu|].
      intros k v _ Hv. rewrite floop_none by lia. exact Hv. }
    split; intros; [lia|apply Z1]. }
  assert (P : paints (rows_copy n K w d st fl off)
    (fun q => existsb (fun t => existsb (fun k => (d + (K * t + k) * st + 0 <=? q) && (q <? d + (K * t + k) * st + w)) (zrange 0 K)) (zrange 0 n))
    (fun q => let r := (q - d) / st in fl (off (r mod K) (r / K) + (q - d) mod st))).
  { apply paints_floop. intros t Ht. apply paints_floop. intros k Hk.
    apply paints_line. intros x Hx.
    refine (paints_upd (d + (K * t + k) * st + x) _ (fun q => let r := (q - d) / st in fl (off (r mod K) (r / K) + (q - d) mod st)) _).
    cbn beta zeta. replace (d + (K * t + k) * st + x - d) with (x + (K * t + k) * st) by lia.
    rewrite Z.div_add, Z.mod_add, (Z.div_small x), (Z.mod_small x) by lia.
    rewrite Z.add_0_l. replace (K * t + k) with (k + t * K) by lia. rewrite Z.div_add, Z.mod_add, (Z.div_small k), (Z.mod_small k) by lia.
    reflexivity. }
  split.
  - intros x y Hx Hy. rewrite P.
    replace (existsb _ (zrange 0 n)) with true.
    + cbn zeta. replace (d + y * st + x - d) with (x + y * st) by lia.
      rewrite Z.div_add, Z.mod_add, (Z.div_small x), (Z.mod_small x) by lia. reflexivity.
    + symmetry. apply existsb_zrange. exists (y / K). split.
      * split; [apply Z.div_pos; lia|apply Z.div_lt_upper_bound; lia].
      * apply existsb_zrange. exists (y mod K). split; [apply Z.mod_pos_bound; lia|].
        rewrite <- Z.div_mod by lia. apply andb_true_intro. rewrite Z.leb_le, Z.ltb_lt. lia.
  - intros q Hq. rewrite P. destruct (existsb _ (zrange 0 n)) eqn:X; [|reflexivity]. exfalso.
    apply existsb_zrange in X. destruct X as (t & Ht & X). apply existsb_zrange in X. destruct X as (k & Hk & X).
    apply andb_true_iff in X. rewrite Z.leb_le, Z.ltb_lt in X.
    apply (Hq (q - (d + (K * t + k) * st)) (K * t + k)); [lia| |lia].
    assert (K * t + k < K * (t + 1)) by lia. assert (K * (t + 1) <= K * n) by (apply Z.mul_le_mono_nonneg_l; lia).
    assert (0 <= K * t) by (apply Z.mul_nonneg_nonneg; lia). lia.
Qed.
Lemma predicts_ext w h d st o n v v' : predicts w h d st o n v ->
  (forall x y, 0 <= x < w -> 0 <= y < h -> v x y = v' x y) -> predicts w h d st o n v'.
Proof. intros [A B] H. split; [|exact B]. intros x y Hx Hy. rewrite A by assumption. apply H; assumption. Qed.
Lemma predicts_dims w w' h h' d st o n v : predicts w h d st o n v -> w = w' -> h = h' -> predicts w' h' d st o n v.
Proof. intros H -> ->. exact H. Qed.
Lemma direct_rows_spec bits src s d st es w dst : 0 <= w <= st ->
  predicts w (Z.of_nat (length es)) d st dst (direct_rows bits src s d st es w dst)
    (fun x y => to_pel bits (nth (Z.to_nat y) es (fun _ => 0) (fun q => src (s + x + q)))).
Proof.
  intros Hw. unfold direct_rows. split.
  - intros x y Hx Hy. replace y with (Z.of_nat (Z.to_nat y)) at 1 by lia.
    apply (fill_read bits es (fun k i => d + k * st + i) src (fun i => s + i) 0 w dst).
    + intros k i k' i' Hk Hi Hk' Hi' Q.
      assert (k = k'). { assert ((d + k * st + i - d) / st = (d + k' * st + i' - d) / st) as D by congruence.
        replace (d + k * st + i - d) with (i + k * st) in D by lia. replace (d + k' * st + i' - d) with (i' + k' * st) in D by lia.
        rewrite !Z.div_add, !Z.div_small in D by lia. lia. }
      subst k'. lia.
    + lia.
    + apply nth_error_nth'. lia.
  - intros q Hq. apply fill_other. intros k i Hk Hi Q. apply (Hq i k); lia.
Qed.
Lemma direct_cols_spec bits src s d st h es dst : Z.of_nat (length es) <= st ->
  predicts (Z.of_nat (length es)) h d st dst (direct_cols bits src s d st h es dst)
    (fun x y => to_pel bits (nth (Z.to_nat x) es (fun _ => 0) (fun q => src (s - y + q)))).
Proof.
  intros Hw. unfold direct_cols. split.
  - intros x y Hx Hy. replace x with (Z.of_nat (Z.to_nat x)) at 1 by lia.
    apply (fill_read bits es (fun k i => d + i * st + k) src (fun i => s - i) 0 h dst).
    + intros k i k' i' Hk Hi Hk' Hi' Q.
      assert (i = i'). { assert ((d + i * st + k - d) / st = (d + i' * st + k' - d) / st) as D by congruence.
        replace (d + i * st + k - d) with (k + i * st) in D by lia. replace (d + i' * st + k' - d) with (k' + i' * st) in D by lia.
        rewrite !Z.div_add, !Z.div_small in D by lia. lia. }
      subst i'. lia.
    + lia.
    + apply nth_error_nth'. lia.
  - intros q Hq. apply fill_other. intros k i Hk Hi Q. apply (Hq k i); lia.
Qed.
(** Line buffers side by side, and interleaved. *)
Lemma planar_read bits es al src pos a b m k i : 0 <= a -> b <= al -> a <= i < b -> 0 <= k < Z.of_nat (length es) ->
  line_fill bits es (fun k i => k * al + i) src pos a b m (k * al + i) = to_pel bits (nth (Z.to_nat k) es (fun _ => 0) (fun q => src (pos i + q))).
Proof.
  intros Ha Hb Hi Hk. replace k with (Z.of_nat (Z.to_nat k)) at 1 by lia.
  apply (fill_read bits es (fun k i => k * al + i)).
  - intros k1 i1 k2 i2 H1 H2 H3 H4 Q.
    assert (k1 = k2). { assert ((k1 * al + i1) / al = (k2 * al + i2) / al) as D by congruence.
      rewrite !Z.div_add_l, !Z.div_small in D by lia. lia. }
    subst k2. lia.
  - exact Hi.
  - apply nth_error_nth'. lia.
Qed.
Lemma planar_left bits es al src pos a b m k i : 0 <= a -> b <= al -> 0 <= i < a -> 0 <= k ->
  line_fill bits es (fun k i => k * al + i) src pos a b m (k * al + i) = m (k * al + i).
Proof.
  intros Ha Hb Hi Hk. apply fill_other. intros k1 i1 H1 H2 Q.
  assert (k1 = k). { assert ((k1 * al + i1) / al = (k * al + i) / al) as D by congruence.
    rewrite !Z.div_add_l, !Z.div_small in D by lia. lia. }
  subst k1. lia.
Qed.
Lemma strided_read bits es K src pos n m i : Z.of_nat (length es) = K -> 0 < K -> 0 <= i < K * n ->
  line_fill bits es (fun k t => k + K * t) src pos 0 n m i = to_pel bits (nth (Z.to_nat (i mod K)) es (fun _ => 0) (fun q => src (pos (i / K) + q))).
Proof.
  intros HK Hp Hi. pose proof (Z.mod_pos_bound i K Hp). pose proof (Z.div_mod i K ltac:(lia)).
  replace i with (Z.of_nat (Z.to_nat (i mod K)) + K * (i / K)) at 1 by lia.
  apply (fill_read bits es (fun k t => k + K * t)).
  - intros k1 i1 k2 i2 H1 H2 H3 H4 Q.
    assert (i1 = i2). { assert ((k1 + K * i1) / K = (k2 + K * i2) / K) as D by congruence.
      rewrite !(Z.mul_comm K), !Z.div_add, !Z.div_small in D by lia. lia. }
    subst i2. lia.
  - split; [apply Z.div_pos; lia|apply Z.div_lt_upper_bound; lia].
  - apply nth_error_nth'. lia.
Qed.
Lemma single_read bits E src pos a b m i : a <= i < b ->
  line_fill bits [E] (fun _ i => i) src pos a b m i = to_pel bits (E (fun q => src (pos i + q))).
Proof.
  intros Hi. apply (fill_read bits [E] (fun _ i => i) src pos a b m) with (k := 0%nat); [|exact Hi|reflexivity].
  intros k i1 k' i2. cbn [length]. lia.
Qed.
Lemma single_other bits E src pos a b m i : i < a \/ b <= i ->
  line_fill bits [E] (fun _ i => i) src pos a b m i = m i.
Proof. intros Hi. apply fill_other. intros. lia. Qed.

(** ** Directions *)
Lemma walk_period sl K M t k : K * sl = M * 256 -> walk sl (K * t + k) = M * t + walk sl k.
Proof.
  intros H. unfold walk. replace ((K * t + k) * sl) with (k * sl + (M * t) * 256) by nia. rewrite Z.div_add by lia. lia.
Qed.
Lemma frac_period sl K M t k : K * sl = M * 256 -> frac sl (K * t + k) = frac sl k.
Proof.
  intros H. unfold frac. replace ((K * t + k) * sl) with (k * sl + (32 * (M * t)) * 8) by nia. rewrite Z.div_add by lia.
  rewrite (Z.mul_comm 32). apply Z.mod_add. lia.
Qed.
Lemma frac_range sl t : 0 <= frac sl t < 32.
Proof. apply Z.mod_pos_bound. lia. Qed.
Lemma interp_shift e b p dir f : interp (fun q => e (b + q)) p dir f = interp e (b + p) dir f.
Proof.
  unfold interp, smooth. rewrite !Z.add_assoc, !Z.add_sub_assoc, !Z.add_assoc. reflexivity.
Qed.
Lemma interp_at e e' p p' dir f f' : (forall q, e q = e' q) -> p = p' -> f = f' -> interp e p dir f = interp e' p' dir f'.
Proof. intros E -> ->. unfold interp, smooth. rewrite !E. reflexivity. Qed.
(** The [k]-th store is the rule at displacement [k + 1]. *)
Fixpoint codes (es : list tapf) (k : Z) (P : Z -> Z) (F : Z -> Z) (dir : Z) : Prop :=
  match es with
  | [] => True
  | E :: r => (forall s, E s = interp s (P k) dir (F k)) /\ codes r (k + 1) P F dir
  end.
Lemma codes_nth es P F dir : forall k0, codes es k0 P F dir -> forall k s, 0 <= k < Z.of_nat (length es) ->
  nth (Z.to_nat k) es (fun _ => 0) s = interp s (P (k0 + k)) dir (F (k0 + k)).
Proof.
  induction es as [|E es IH]; intros k0 H k s Hk; cbn [length] in Hk; [lia|].
  destruct H as [H1 H2]. destruct (Z.eq_dec k 0) as [->|N].
  - cbn [Z.to_nat nth]. rewrite Z.add_0_r. apply H1.
  - replace (Z.to_nat k) with (S (Z.to_nat (k - 1))) by lia. cbn [nth]. rewrite (IH _ H2 (k - 1)) by lia.
    replace (k0 + 1 + (k - 1)) with (k0 + k) by lia. reflexivity.
Qed.
Lemma shr_eq A B k j : 0 <= k -> 0 <= j -> k + j = 7 -> B = A * 2 ^ j -> Z.shiftr A k = B / 128.
Proof.
  intros Hk Hj E ->. rewrite Z.shiftr_div_pow2 by lia. change 128 with (2 ^ 7). rewrite <- E, Z.pow_add_r by lia.
  symmetry. apply Z.div_mul_cancel_r; apply Z.pow_nonzero; lia.
Qed.
Ltac code1 :=
  let s := fresh "s" in
  intros s;
  unfold interp, smooth;
  repeat match goal with
    | |- context [s (?a + ?b)] => let c := eval vm_compute in (a + b) in change (a + b) with c
    | |- context [s (?a - ?b)] => let c := eval vm_compute in (a - b) in change (a - b) with c
    end;
  rewrite ?Z.shiftl_mul_pow2 by (compute; discriminate); change (2 ^ 1) with 2;
  match goal with |- Z.shiftr ?A ?k = ?B / 128 =>
    let j := eval vm_compute in (7 - k) in
    let p := eval vm_compute in (2 ^ j) in
    apply (shr_eq A B k j); [compute; discriminate|compute; discriminate|reflexivity|change (2 ^ j) with p; ring]
  end.
Ltac codes_tac :=
  cbv beta iota delta [codes app];
  repeat (match goal with |- context [interp _ ?p _ ?f] =>
     let p' := eval vm_compute in p in
     let f' := eval vm_compute in f in
     progress (change p with p'; change f with f') end);
  repeat (split; [code1|]); exact I.
