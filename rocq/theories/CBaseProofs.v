(** Lemmas about the shared vocabulary. *)
From Coq Require Import ZArith List Bool Lia ZifyBool.
From Verif Require Import CBase.
Import ListNotations.
Open Scope Z_scope.

Lemma bits_of_length : forall l, length (bits_of l) = (8 * length l)%nat.
Proof. induction l; cbn [bits_of flat_map length]; auto.
  rewrite app_length. fold (bits_of l). rewrite IHl. cbn [byte_bits length]. lia. Qed.

Lemma bits_of_app : forall a b, bits_of (a ++ b) = bits_of a ++ bits_of b.
Proof. intros. unfold bits_of. apply flat_map_app. Qed.

Lemma byte_bits_nth : forall b k, (k < 8)%nat ->
  nth_error (byte_bits b) k = Some (Z.testbit b (7 - Z.of_nat k)).
Proof.
  intros b k H. do 8 (destruct k as [|k]; [reflexivity|]). lia.
Qed.

Lemma get_some_lt : forall A (l : list A) i v, get l i = Some v -> 0 <= i < Z.of_nat (length l).
Proof.
  unfold get; intros. destruct (i <? 0) eqn:E; [discriminate|].
  assert (nth_error l (Z.to_nat i) <> None) by congruence.
  apply nth_error_Some in H0. lia.
Qed.

Lemma get_in : forall A (l : list A) i, 0 <= i < Z.of_nat (length l) -> exists v, get l i = Some v.
Proof.
  unfold get; intros. destruct (i <? 0) eqn:E; [lia|].
  destruct (nth_error l (Z.to_nat i)) eqn:N; eauto.
  apply nth_error_None in N. lia.
Qed.

Lemma get_none : forall A (l : list A) i, ~ (0 <= i < Z.of_nat (length l)) -> get l i = None.
Proof.
  unfold get; intros. destruct (i <? 0) eqn:E; [reflexivity|].
  apply nth_error_None. lia.
Qed.

Lemma bits_of_nth : forall l p, 0 <= p ->
  get (bits_of l) p = match get l (p / 8) with
                      | Some b => Some (Z.testbit b (7 - p mod 8))
                      | None => None end.
Proof.
  induction l as [|a l IH]; intros p Hp.
  - assert (0 <= p / 8) by (apply Z.div_pos; lia).
    rewrite !get_none; auto; cbn [length bits_of flat_map]; lia.
  - cbn [bits_of flat_map]. fold (bits_of l).
    destruct (Z.lt_ge_cases p 8) as [H|H].
    + rewrite Z.div_small, Z.mod_small by lia.
      unfold get. replace (p <? 0) with false by lia. change (0 <? 0) with false. cbv iota.
      change (Z.to_nat 0) with O. cbn [nth_error].
      rewrite nth_error_app1 by (cbn; lia).
      rewrite byte_bits_nth by lia. do 2 f_equal. lia.
    + assert (E1: p / 8 = (p - 8) / 8 + 1) by (Z.div_mod_to_equations; lia).
      assert (E2: p mod 8 = (p - 8) mod 8) by (Z.div_mod_to_equations; lia).
      rewrite E1, E2.
      assert (0 <= (p-8)/8) by (apply Z.div_pos; lia).
      specialize (IH (p - 8) ltac:(lia)).
      unfold get in IH |- *.
      replace (p <? 0) with false by lia.
      replace (p - 8 <? 0) with false in IH by lia.
      replace ((p - 8) / 8 <? 0) with false in IH by lia.
      replace ((p - 8) / 8 + 1 <? 0) with false by lia. cbv iota in *.
      replace (Z.to_nat ((p - 8) / 8 + 1)) with (S (Z.to_nat ((p-8)/8))) by lia.
      cbn [nth_error]. rewrite <- IH.
      rewrite nth_error_app2 by (cbn; lia).
      f_equal. cbn [byte_bits length]. lia.
Qed.

Lemma be_val_snoc : forall l b, be_val (l ++ [b]) = 2 * be_val l + Z.b2z b.
Proof. intros. unfold be_val. rewrite fold_left_app. reflexivity. Qed.

Lemma be_val_bound : forall l, 0 <= be_val l < 2 ^ Z.of_nat (length l).
Proof.
  induction l using rev_ind; [cbn; lia|].
  rewrite be_val_snoc, app_length. cbn [length].
  replace (Z.of_nat (length l + 1)) with (Z.succ (Z.of_nat (length l))) by lia.
  rewrite Z.pow_succ_r by lia. destruct x; cbn [Z.b2z]; lia.
Qed.

Lemma fold_be_acc : forall l a,
  fold_left (fun a b => 2 * a + Z.b2z b) l a = a * 2 ^ Z.of_nat (length l) + be_val l.
Proof.
  induction l using rev_ind; intros; [cbn; lia|].
  unfold be_val. rewrite !fold_left_app, app_length. cbn [fold_left length].
  rewrite IHl. fold (be_val l).
  replace (Z.of_nat (length l + 1)) with (Z.succ (Z.of_nat (length l))) by lia.
  rewrite Z.pow_succ_r by lia. unfold be_val. lia.
Qed.

Lemma be_val_app : forall a b, be_val (a ++ b) = be_val a * 2 ^ Z.of_nat (length b) + be_val b.
Proof. intros. unfold be_val at 1. rewrite fold_left_app. apply fold_be_acc. Qed.

(** [(b & (1 << o)) >> o] is bit [o]. *)
Lemma land_bit : forall b o, 0 <= o -> Z.shiftr (Z.land b (Z.shiftl 1 o)) o = Z.b2z (Z.testbit b o).
Proof.
  intros b o Ho. rewrite Z.shiftr_land, Z.shiftr_shiftl_l, Z.sub_diag by lia.
  change (Z.shiftl 1 0) with 1. change 1 with (Z.ones 1). rewrite Z.land_ones by lia.
  change (2^1) with 2. rewrite <- Z.bit0_mod. rewrite Z.shiftr_spec by lia. f_equal.
Qed.

Lemma land_bit_zero : forall b o, 0 <= o ->
  (Z.land b (Z.shiftl 1 o) =? 0) = negb (Z.testbit b o).
Proof.
  intros b o Ho. destruct (Z.testbit b o) eqn:E; cbn.
  - apply Z.eqb_neq. intro H.
    assert (Z.testbit (Z.land b (Z.shiftl 1 o)) o = false) by (rewrite H; apply Z.bits_0).
    rewrite Z.land_spec, E, Z.shiftl_spec, Z.sub_diag in H0 by lia. discriminate.
  - apply Z.eqb_eq. apply Z.bits_inj'. intros k Hk. rewrite Z.land_spec, Z.bits_0.
    destruct (Z.eq_dec k o) as [->|N]; [rewrite E; auto|].
    rewrite Z.shiftl_spec by lia.
    replace (Z.testbit 1 (k - o)) with false; [apply andb_false_r|].
    symmetry. destruct (Z.lt_ge_cases k o).
    + apply Z.testbit_neg_r; lia.
    + change 1 with (Z.ones 1). apply Z.ones_spec_high. lia.
Qed.

Lemma be_val_byte_bits : forall b, 0 <= b <= 255 -> be_val (byte_bits b) = b.
Proof.
  intros b Hb.
  assert (A: forallb (fun n => be_val (byte_bits (Z.of_nat n)) =? Z.of_nat n) (seq 0 256) = true)
    by (vm_compute; reflexivity).
  rewrite forallb_forall in A.
  specialize (A (Z.to_nat b)). rewrite in_seq in A.
  specialize (A ltac:(lia)). rewrite Z2Nat.id in A by lia. lia.
Qed.

Lemma byte_ext : forall a b, 0 <= a <= 255 -> 0 <= b <= 255 -> byte_bits a = byte_bits b -> a = b.
Proof. intros. rewrite <- (be_val_byte_bits a), <- (be_val_byte_bits b) by assumption. congruence. Qed.

Lemma byte_bits_be_val : forall a b c d e f g h,
  byte_bits (be_val [a;b;c;d;e;f;g;h]) = [a;b;c;d;e;f;g;h].
Proof. intros [] [] [] [] [] [] [] []; reflexivity. Qed.

Lemma bytes_of_bits_of : forall l, bytes_ok l -> bytes_of (bits_of l) = l.
Proof.
  induction l; intros H; [reflexivity|]. inversion H; subst.
  cbn [bits_of flat_map byte_bits app bytes_of]. fold (bits_of l).
  f_equal; [apply (be_val_byte_bits a); lia|auto].
Qed.

Lemma bits_of_inj : forall a b, bytes_ok a -> bytes_ok b -> bits_of a = bits_of b -> a = b.
Proof. intros. rewrite <- (bytes_of_bits_of a), <- (bytes_of_bits_of b); auto. congruence. Qed.

Lemma list8_ind : forall (P : list bool -> Prop),
  (forall l, (length l < 8)%nat -> P l) ->
  (forall a b c d e f g h t, P t -> P (a::b::c::d::e::f::g::h::t)) ->
  forall l, P l.
Proof.
  intros P Hs Hstep l. remember (length l) as n. revert l Heqn.
  induction n as [n IH] using (well_founded_induction lt_wf). intros l Hl.
  destruct (Compare_dec.lt_dec (length l) 8) as [H|H]; [auto|].
  do 8 (destruct l as [|? l]; [cbn in H; lia|]).
  apply Hstep. apply (IH (length l)); cbn in *; lia.
Qed.

Lemma bits_of_bytes_of : forall l, bits_of (bytes_of l) = firstn (8 * (length l / 8)) l.
Proof.
  apply list8_ind.
  - intros l H. rewrite Nat.div_small by lia. cbn [Nat.mul firstn].
    do 8 (destruct l as [|? l]; [reflexivity|]). cbn in H; lia.
  - intros. cbn [bytes_of]. change (bits_of (?x :: ?y)) with (byte_bits x ++ bits_of y).
    rewrite byte_bits_be_val, H. cbn [length].
    replace (S (S (S (S (S (S (S (S (length t)))))))))%nat with (length t + 1 * 8)%nat by lia.
    rewrite Nat.div_add by lia.
    replace (8 * (length t / 8 + 1))%nat with (8 + 8 * (length t / 8))%nat by lia.
    reflexivity.
Qed.

Lemma bytes_of_ok : forall l, bytes_ok (bytes_of l).
Proof.
  apply list8_ind.
  - intros l H. do 8 (destruct l as [|? l]; [constructor|]). cbn in H; lia.
  - intros. cbn [bytes_of]. constructor; auto.
    pose proof (be_val_bound [a;b;c;d;e;f;g;h]). cbn [length] in H0.
    change (2 ^ Z.of_nat 8) with 256 in H0. lia.
Qed.

Lemma bytes_of_length : forall l, length (bytes_of l) = (length l / 8)%nat.
Proof.
  apply list8_ind.
  - intros l H. rewrite Nat.div_small by lia.
    do 8 (destruct l as [|? l]; [reflexivity|]). cbn in H; lia.
  - intros. cbn [bytes_of length]. rewrite H.
    replace (S (S (S (S (S (S (S (S (length t)))))))))%nat with (length t + 1 * 8)%nat by lia.
    rewrite Nat.div_add by lia. lia.
Qed.

Lemma bytes_of_app8 : forall a b, (length a mod 8 = 0)%nat -> bytes_of (a ++ b) = bytes_of a ++ bytes_of b.
Proof.
  intros a b. revert a. apply (list8_ind (fun a => (length a mod 8 = 0)%nat -> bytes_of (a ++ b) = bytes_of a ++ bytes_of b)).
  - intros l H H0. rewrite Nat.mod_small in H0 by lia. destruct l; [reflexivity|cbn in H0; lia].
  - intros. cbn [app bytes_of]. f_equal. apply H.
    cbn [length] in H0.
    replace (S (S (S (S (S (S (S (S (length t)))))))))%nat with (length t + 1 * 8)%nat in H0 by lia.
    rewrite Nat.mod_add in H0 by lia. auto.
Qed.

Lemma upd_nat_length : forall A (l : list A) n v, length (upd_nat l n v) = length l.
Proof. induction l; destruct n; cbn; intros; auto. Qed.

Lemma upd_nat_same : forall A (l : list A) n v, (n < length l)%nat -> nth_error (upd_nat l n v) n = Some v.
Proof. induction l; destruct n; cbn; intros; try lia; auto. apply IHl. lia. Qed.

Lemma upd_nat_other : forall A (l : list A) n m v, n <> m -> nth_error (upd_nat l n v) m = nth_error l m.
Proof. induction l; destruct n, m; cbn; intros; auto; try lia. Qed.

Lemma set_some : forall A (l : list A) i v, 0 <= i < Z.of_nat (length l) ->
  set l i v = Some (upd_nat l (Z.to_nat i) v).
Proof. intros. unfold set. replace (i <? 0) with false by lia.
  replace (Z.of_nat (length l) <=? i) with false by lia. reflexivity. Qed.

Lemma get_set_same : forall A (l l' : list A) i v, set l i v = Some l' -> get l' i = Some v.
Proof.
  unfold set, get; intros. destruct ((i <? 0) || (Z.of_nat (length l) <=? i)) eqn:E; [discriminate|].
  inversion H; subst. replace (i <? 0) with false by lia. apply upd_nat_same. lia.
Qed.

Lemma get_set_other : forall A (l l' : list A) i j v, set l i v = Some l' -> i <> j -> get l' j = get l j.
Proof.
  unfold set, get; intros. destruct ((i <? 0) || (Z.of_nat (length l) <=? i)) eqn:E; [discriminate|].
  inversion H; subst. destruct (j <? 0) eqn:F; auto. apply upd_nat_other. lia.
Qed.

Lemma set_length : forall A (l l' : list A) i v, set l i v = Some l' -> length l' = length l.
Proof.
  unfold set; intros. destruct ((i <? 0) || (Z.of_nat (length l) <=? i)) eqn:E; [discriminate|].
  inversion H; subst. apply upd_nat_length.
Qed.

Lemma Some_inj : forall A (a b : A), Some a = Some b -> a = b.
Proof. congruence. Qed.
Lemma Done_inj : forall A (a b : A), Done a = Done b -> a = b.
Proof. congruence. Qed.

Lemma skipn_nth : forall A (l : list A) n x, nth_error l n = Some x -> skipn n l = x :: skipn (S n) l.
Proof. induction l; destruct n; cbn; intros; try discriminate; [congruence|]. apply IHl; auto. Qed.

Lemma skipn_get : forall A (l : list A) p b, get l p = Some b ->
  skipn (Z.to_nat p) l = b :: skipn (Z.to_nat (p + 1)) l.
Proof.
  intros. pose proof (get_some_lt _ _ _ _ H). unfold get in H.
  replace (p <? 0) with false in H by lia.
  rewrite (skipn_nth _ _ _ _ H). do 2 f_equal. lia.
Qed.

Lemma skipn_skipn : forall A (x y : nat) (l : list A), skipn x (skipn y l) = skipn (x + y) l.
Proof.
  intros A x y. revert x. induction y; intros x l.
  - rewrite Nat.add_0_r. reflexivity.
  - destruct l; [rewrite !skipn_nil; reflexivity|].
    rewrite Nat.add_succ_r. cbn [skipn]. apply IHy.
Qed.

(** [lia] without the boolean hypotheses (which can make it very slow). *)
Ltac blia := repeat match goal with H : @eq bool _ _ |- _ => clear H end; lia.

Lemma NoDup_app_remove_l : forall (A : Type) (l l' : list A), NoDup (l ++ l') -> NoDup l'.
Proof. induction l; cbn; intros; auto. inversion H; subst. auto. Qed.
Lemma NoDup_app_remove_r : forall (A : Type) (l l' : list A), NoDup (l ++ l') -> NoDup l.
Proof.
  induction l; cbn; intros; [constructor|]. inversion H; subst. constructor; eauto.
  intros Q. apply H2. apply in_app_iff; auto.
Qed.
