(** Specification of motion-vector arithmetic. *)
From Coq Require Import ZArith.
Open Scope Z_scope.

Definition is_i16 (v : Z) : Prop := -32768 <= v <= 32767.
Definition sat16 (v : Z) : Z := Z.max (-32768) (Z.min 32767 v).
(** Division by 2^14 rounding half away from zero. *)
Definition round14 (p : Z) : Z := Z.sgn p * ((Z.abs p + 8192) / 16384).
(** Average of two integers, rounding towards zero. *)
Definition avg0 (u v : Z) : Z := Z.sgn (u + v) * (Z.abs (u + v) / 2).
Definition opposite (u v : Z) : Prop := (u < 0 < v) \/ (v < 0 < u).
(** [u] is opposed by both others. *)
Definition outvoted (u v w : Z) : Prop := opposite u v /\ opposite u w.
(** No other pair is closer together. *)
Definition closest (u v w : Z) : Prop := Z.abs (u - v) <= Z.abs (v - w) /\ Z.abs (u - v) <= Z.abs (w - u).
(** The position the window is centred on: the predictor rounded down to half sample. *)
Definition half_base (p : Z) : Z := 2 * (p / 2).
