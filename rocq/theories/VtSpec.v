(** Vocabulary for the vector transforms: what a block of coefficients may hold. *)
From Coq Require Import ZArith List Bool.
From Verif Require Import MemModel TrSpec.
Open Scope Z_scope.

(** The lines of coefficients of a block (blocks with a side of 64 have half as many). *)
Definition coeff_height (w h : Z) : Z := if is_doubled w h then h / 2 else h.
(** Coefficients [cw] in a line from address [p] are 16-bit values. *)
Definition coeffs16 (cw ch p : Z) (m : mem) : Prop := forall u v, 0 <= u < cw -> 0 <= v < ch -> -32768 <= m (p + v * cw + u) <= 32767.
(** Those right of column [kh] or below line [kv] are zero. *)
Definition zero_beyond (kh kv cw ch p : Z) (m : mem) : Prop := forall u v, 0 <= u < cw -> 0 <= v < ch -> kh <= u \/ kv <= v -> m (p + v * cw + u) = 0.
(** The 4x4 corner of a block with [ic] coefficients in a line holds 16-bit values. *)
Definition corner16 (p ic : Z) (m : mem) : Prop := forall x y, 0 <= x < 4 -> 0 <= y < 4 -> -32768 <= m (p + y * ic + x) <= 32767.
