(** What the threads of a picture owe each other. *)
From Coq Require Import ZArith List Bool.
From Verif Require Import CBase WvModel.
Import ListNotations.
Open Scope Z_scope.

(** LCUs whose samples an LCU at column [x] of row [y] uses: the left one and, in the row above,
    the left, the upper and the right one. *)
Definition needs (x y : Z) : list (Z * Z) := [(x - 1, y); (x - 1, y - 1); (x, y - 1); (x + 1, y - 1)].
Definition in_picture (c : cfg) (a b : Z) : Prop := 0 <= a < c_w c /\ 0 <= b < c_h c.
(** Its reconstruction has ended. *)
Definition rebuilt (s : st) (a b : Z) : Prop := a < s_rec s b.
(** A run that nothing can prolong. *)
Definition complete_run (c : cfg) (n : nat) (s : st) : Prop := steps c n init s /\ stuck c s.

(** Row [y] of [w] LCUs meets no bad slice header. *)
Definition good (w : Z) (bad : Z -> option Z) (y : Z) : Prop := match bad y with Some x => w <= x | None => True end.
(** The [k]-th LCU in raster order. *)
Definition raster_at (w : Z) (k : nat) : Z * Z := (Z.of_nat k mod w, Z.of_nat k / w).
