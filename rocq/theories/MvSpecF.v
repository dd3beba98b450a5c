(** Specification of vertical displacements between fields. *)
From Coq Require Import ZArith Bool.
Open Scope Z_scope.

(** Vertical place of line 0 of a field, in quarter lines of a field: the bottom field
    lies half a line lower. *)
Definition field_offset (top : bool) : Z := if top then 0 else 2.
(** The displacement on the screen of a vector [v] from a field of parity [cur] to one
    of parity [ref]. *)
Definition displacement (cur ref : bool) (v : Z) : Z := v + field_offset ref - field_offset cur.
(** The parity of the field [n] fields away. *)
Definition parity_at (top : bool) (n : Z) : bool := if Z.odd n then negb top else top.
