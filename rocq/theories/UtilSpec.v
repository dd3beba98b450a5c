(** Specification of the helpers: nearest value in range, middle value, sign, next
    multiple. *)
From Coq Require Import ZArith.
Open Scope Z_scope.

(** [r] is the element of [lo..hi] nearest to [v]. *)
Definition nearest (lo hi v r : Z) : Prop :=
  lo <= r <= hi /\ forall q, lo <= q <= hi -> Z.abs (v - r) <= Z.abs (v - q).
(** [r] is one of the three, with one of them on either side. *)
Definition middle (a b c r : Z) : Prop :=
  (r = a /\ (b <= a <= c \/ c <= a <= b)) \/
  (r = b /\ (a <= b <= c \/ c <= b <= a)) \/
  (r = c /\ (a <= c <= b \/ b <= c <= a)).
Definition next_multiple (x m r : Z) : Prop := (exists k, r = m * k) /\ x <= r < x + m.
Definition depth_range (d : Z) : Prop := 8 <= d <= 16.
