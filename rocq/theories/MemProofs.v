(** Lemmas about loops and block stores. *)
From Coq Require Import ZArith List Bool Lia.
From Verif Require Import MemModel.
Import ListNotations.
Open Scope Z_scope.

Lemma upd_same : forall m i v, upd m i v i = v.
Proof. intros. unfold upd. rewrite Z.eqb_refl. reflexivity. Qed.
Lemma upd_other : forall m i v j, j <> i -> upd m i v j = m j.
Proof. intros. unfold upd. replace (j =? i) with false by lia. reflexivity. Qed.

(** Loop rule. *)
Lemma loop_inv : forall (S : Type) (Inv : Z -> S -> Prop) n f (s : S),
  Inv 0 s ->
  (forall i s, 0 <= i < Z.of_nat n -> Inv i s -> Inv (i + 1) (f i s)) ->
  Inv (Z.of_nat n) (loop n f s).
Proof.
  intros S Inv n f s H0 Hs. induction n as [|n IH]; [exact H0|].
  cbn [loop]. replace (Z.of_nat (Datatypes.S n)) with (Z.of_nat n + 1) by lia.
  apply Hs; [lia|]. apply IH. intros i t Hi. apply Hs. lia.
Qed.

(** Position written by step (x, y). *)
Definition bpos (dst stride x y : Z) : Z := dst + y * stride + x.
Definition in_block (w h : nat) (dst stride p : Z) : Prop :=
  exists x y, 0 <= x < Z.of_nat w /\ 0 <= y < Z.of_nat h /\ p = bpos dst stride x y.

Lemma bpos_inj : forall w dst stride x y x' y', Z.of_nat w <= stride ->
  0 <= x < Z.of_nat w -> 0 <= x' < Z.of_nat w ->
  bpos dst stride x y = bpos dst stride x' y' -> x = x' /\ y = y'.
Proof.
  unfold bpos. intros w dst stride x y x' y' Hs Hx Hx' E.
  assert (y = y') by nia. split; [nia|assumption].
Qed.

(** The stored value of every step may depend only on positions that no earlier step
    has written. *)
Lemma block_write_spec : forall w h dst stride val m, Z.of_nat w <= stride ->
  (forall x y m', 0 <= x < Z.of_nat w -> 0 <= y < Z.of_nat h ->
     (forall p, (~ in_block w h dst stride p) \/ bpos dst stride x y <= p -> m' p = m p) ->
     val x y m' = val x y m) ->
  let m' := block_write w h dst stride val m in
  (forall x y, 0 <= x < Z.of_nat w -> 0 <= y < Z.of_nat h -> m' (bpos dst stride x y) = val x y m) /\
  (forall p, ~ in_block w h dst stride p -> m' p = m p).
Proof.
  intros w h dst stride val m Hw Hval. cbv zeta. unfold block_write.
  set (Inv := fun (Y : Z) (m1 : mem) =>
    (forall x y, 0 <= x < Z.of_nat w -> 0 <= y < Y -> m1 (bpos dst stride x y) = val x y m) /\
    (forall p, (forall x y, 0 <= x < Z.of_nat w -> 0 <= y < Y -> p <> bpos dst stride x y) -> m1 p = m p)).
  assert (G: Inv (Z.of_nat h) (loop h (fun y m0 => loop w (fun x m1 => upd m1 (dst + y * stride + x) (val x y m1)) m0) m)).
  { apply loop_inv.
    - split; [intros; lia|reflexivity].
    - intros Y m1 HY [I1 I2].
      set (Inv2 := fun (X : Z) (m2 : mem) =>
        (forall x y, 0 <= x < Z.of_nat w -> (0 <= y < Y \/ (y = Y /\ x < X)) -> m2 (bpos dst stride x y) = val x y m) /\
        (forall p, (forall x y, 0 <= x < Z.of_nat w -> (0 <= y < Y \/ (y = Y /\ x < X)) -> p <> bpos dst stride x y) -> m2 p = m p)).
      assert (G2: Inv2 (Z.of_nat w) (loop w (fun x m2 => upd m2 (dst + Y * stride + x) (val x Y m2)) m1)).
      { apply loop_inv.
        - split.
          + intros x y Hx [Hy|Hy]; [apply I1; lia|lia].
          + intros p Hp. apply I2. intros x y Hx Hy. apply Hp; [exact Hx|left; exact Hy].
        - intros X m2 HX [J1 J2]. fold (bpos dst stride X Y).
          assert (V: val X Y m2 = val X Y m).
          { apply Hval; try lia. intros p [Hp|Hp].
            - apply J2. intros x y Hx Hy E. apply Hp. exists x, y. split; [exact Hx|]. split; [lia|exact E].
            - apply J2. intros x y Hx Hy E. subst p. unfold bpos in Hp. destruct Hy as [Hy|[-> Hy]]; nia. }
          rewrite V. split.
          + intros x y Hx Hy. destruct (Z.eq_dec (bpos dst stride x y) (bpos dst stride X Y)) as [E|E].
            * apply (bpos_inj w) in E; try lia. destruct E as [-> ->]. apply upd_same.
            * rewrite upd_other by exact E. apply J1; [exact Hx|].
              destruct Hy as [Hy|[-> Hy]]; [left; exact Hy|right]. split; [reflexivity|].
              assert (x <> X) by (intros ->; apply E; reflexivity). lia.
          + intros p Hp. rewrite upd_other.
            * apply J2. intros x y Hx Hy. apply Hp; [exact Hx|lia].
            * apply Hp; lia. }
      destruct G2 as [G1 G2]. split.
      + intros x y Hx Hy. apply G1; [exact Hx|lia].
      + intros p Hp. apply G2. intros x y Hx Hy. apply Hp; lia. }
  destruct G as [G1 G2]. split.
  - exact G1.
  - intros p Hp. apply G2. intros x y Hx Hy E. apply Hp. exists x, y. auto.
Qed.
