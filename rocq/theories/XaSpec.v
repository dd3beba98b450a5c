(** What the assembly functions are compared with: the sum of prediction and residual limited to a byte, and the
    value of the 4x4 transform before its last limit. *)
From Coq Require Import ZArith List Bool.
From Verif Require Import AlfSpec McSpec TrSpec.
Import ListNotations.
Open Scope Z_scope.

(** The second pass limited to 16 bits only; [residual 4 4 0 d] is this limited to [d + 1] bits. *)
Definition residual16 (d : Z) (c : Z -> Z -> Z) (x y : Z) : Z :=
  lim 16 (rshift (zsum 4 (fun u => basis 4 u x * col_pass 4 c u y)) (20 - d)).

(** The block sizes with an assembly function. *)
Definition add_sizes : list (Z * Z) :=
  [(4, 4); (4, 8); (4, 16); (8, 8); (8, 16); (8, 32); (16, 4); (16, 8); (16, 12); (16, 16); (16, 64);
   (32, 8); (32, 16); (32, 24); (32, 32); (32, 64); (64, 16); (64, 32); (64, 48); (64, 64)].
