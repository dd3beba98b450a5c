(** What [memcpy], [memset] and their like do to the memory. *)
From Coq Require Import ZArith.
From Verif Require Import MemModel.
Open Scope Z_scope.

(** [r] is [m] with the [n] bytes at [s] written to the [n] bytes at [d], nothing else changed. *)
Definition copied (d s n : Z) (m r : mem) : Prop :=
  forall a, (d <= a < d + n -> r a = m (s + (a - d))) /\ (~ d <= a < d + n -> r a = m a).
(** [r] is [m] with the [n] bytes at [d] set to [v], nothing else changed. *)
Definition filled (d n v : Z) (m r : mem) : Prop :=
  forall a, (d <= a < d + n -> r a = v) /\ (~ d <= a < d + n -> r a = m a).
(** The two areas do not meet. *)
Definition apart (d s n : Z) : Prop := d + n <= s \/ s + n <= d.
