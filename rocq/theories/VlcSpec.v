(** Independent specification of the syntax-element codes (AVS2 standard, 9.1):
    what an encoder writes. *)
From Coq Require Import ZArith List Bool.
From Verif Require Import CBase.
Import ListNotations.
Open Scope Z_scope.

(** The [n] low bits of [v], most significant first. *)
Fixpoint low_bits (n : nat) (v : Z) : list bool :=
  match n with
  | O => []
  | S m => Z.testbit v (Z.of_nat m) :: low_bits m v
  end.

(** ue(v): with k = floor(log2(v+1)), k zeros, then v+1 in binary (k+1 bits). *)
Definition ue_code (v : Z) : list bool :=
  let k := Z.to_nat (Z.log2 (v + 1)) in
  repeat false k ++ low_bits (S k) (v + 1).

(** se(v): 0, 1, -1, 2, -2, ... mapped to 0, 1, 2, 3, 4, ... *)
Definition se_index (v : Z) : Z := if 0 <? v then 2 * v - 1 else - (2 * v).
Definition se_code (v : Z) : list bool := ue_code (se_index v).
