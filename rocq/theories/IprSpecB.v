(** Specification of the use of the arrays local to a predictor. *)
From Coq Require Import ZArith.
From Verif Require Import MemModel.
Open Scope Z_scope.

(** [f junk src s] is what a local array holds after it has been filled from the border around [src + s], [junk] what it held before. It has
    [size] entries: nothing is stored outside. The border is looked at from [lo] to [hi] only, even for entries nobody uses. *)
Definition local_array (size lo hi : Z) (f : mem -> mem -> Z -> mem) : Prop :=
  (forall junk src s a, ~ 0 <= a < size -> f junk src s a = junk a) /\
  (forall junk src src' s a, (forall k, lo <= k <= hi -> src (s + k) = src' (s + k)) -> f junk src s a = f junk src' s a).
