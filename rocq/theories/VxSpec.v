(** Under what conditions the vector kernel of the adaptive loop filter is exact. *)
From Coq Require Import ZArith List.
From Verif Require Import AlfModel.
Open Scope Z_scope.

(** Coefficients that are bytes ... *)
Definition fits8 (co : list Z) : Prop := forall i, 0 <= i <= 8 -> -128 <= cf co i <= 127.
(** ... and whose sums of products with 8-bit samples stay in 16 bits. *)
Definition fits16 (co : list Z) : Prop :=
  255 * (2 * (Z.abs (cf co 0) + Z.abs (cf co 1) + Z.abs (cf co 2) + Z.abs (cf co 3) + Z.abs (cf co 4) + Z.abs (cf co 5) + Z.abs (cf co 6) + Z.abs (cf co 7))
         + Z.abs (cf co 8)) + 32 <= 32767.
(** The multiple of 16 at or above [w]. *)
Definition up16 (w : Z) : Z := 16 * ((w + 15) / 16).
