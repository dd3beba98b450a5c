(** Blocks that the AVX2 predictors treat amiss (C101). *)
From Coq Require Import ZArith.
Open Scope Z_scope.

(** Mode 13 on blocks of 32 and more columns and mode 16 on blocks of 4 rows leave their tables and
    arrays; modes 8 and 32 write below blocks of 4 rows. *)
Definition strays (mode w h : Z) : Prop := mode = 13 /\ 32 <= w \/ mode = 16 /\ h = 4 \/ (mode = 8 \/ mode = 32) /\ h = 4.
