(** The value of the 8x8 transform before its last limit. *)
From Coq Require Import ZArith.
From Verif Require Import AlfSpec McSpec TrSpec.
Open Scope Z_scope.

(** The second pass limited to 16 bits only; [residual 8 8 0 d] is this limited to [d + 1] bits. *)
Definition residual16_8 (d : Z) (c : Z -> Z -> Z) (x y : Z) : Z :=
  lim 16 (rshift (zsum 8 (fun u => basis 8 u x * col_pass 8 c u y)) (20 - d)).
