(** The coefficients in memory. *)
From Coq Require Import ZArith List.
From Verif Require Import CBase MemModel.
Import ListNotations.
Open Scope Z_scope.

(** The [n] 16-bit numbers at [p], low byte first. *)
Definition coeffs (m : mem) (p : Z) (n : nat) : list Z :=
  map (fun k => to_i16 (m (p + 2 * Z.of_nat k) + 256 * m (p + 2 * Z.of_nat k + 1))) (seq 0 n).
(** Nothing but the [n] bytes at [p] changed. *)
Definition only (p n : Z) (m r : mem) : Prop := forall a, ~ p <= a < p + n -> r a = m a.
