(** Specification side for C12, C36, C41. *)
From Coq Require Import ZArith List Bool.
From Verif Require Import CBase.
Import ListNotations.
Open Scope Z_scope.

Definition depth_ok (d : Z) : Prop := d = 8 \/ d = 10 \/ d = 12.

(** Rounded quotient: nearest integer, halves upwards. *)
Definition rounds (num den r : Z) : Prop := 2 * den * r <= 2 * num + den < 2 * den * r + 2 * den.

(** Saturation to 16 bits of [v]. *)
Definition sat16 (v r : Z) : Prop :=
  (v < -32768 /\ r = -32768) \/ (-32768 <= v <= 32767 /\ r = v) \/ (32767 < v /\ r = 32767).

(** Running sums of signalled QP differences. *)
Fixpoint sums (q : Z) (l : list Z) : list Z :=
  match l with [] => [] | d :: t => (q + d) :: sums (q + d) t end.
