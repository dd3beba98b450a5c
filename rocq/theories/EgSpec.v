(** The border an intra block is predicted from, as a rule.  [R x y] is the reconstructed
    sample before any filter, at column [x] and line [y]. *)
From Coq Require Import ZArith List Bool.
From Verif Require Import MemModel NbModel.
Import ListNotations.
Open Scope Z_scope.

(** One side of the border, from 1: [n] samples next to the block and [n] beyond them.  What is
    not available is the middle grey next to the block, the last sample beyond it; after [2 * n]
    samples the last one is repeated. *)
Definition side (n : Z) (near far : bool) (s : Z -> Z) (grey k : Z) : Z :=
  if k <=? n then (if near then s k else grey)
  else if far then s (Z.min k (2 * n))
  else if near then s n else grey.
(** The border of the block of [w] by [h] samples at [(x0, y0)], in the numbering of IprSpec. *)
Definition border_of (grey : Z) (a : nbs) (R : Z -> Z -> Z) (x0 y0 w h k : Z) : Z :=
  if 0 <? k then side w (n_top a) (n_top_right a) (fun j => R (x0 + j - 1) (y0 - 1)) grey k
  else if k <? 0 then side h (n_left a) (n_left_down a) (fun j => R (x0 - 1) (y0 + j - 1)) grey (- k)
  else if n_top_left a then R (x0 - 1) (y0 - 1)
  else if n_top a then R x0 (y0 - 1)
  else if n_left a then R (x0 - 1) y0
  else grey.

(** The samples the border is made of. *)
Definition uses (a : nbs) (x0 y0 w h x y : Z) : Prop :=
  (n_top a = true /\ y = y0 - 1 /\ x0 <= x < x0 + w) \/
  (n_top_right a = true /\ y = y0 - 1 /\ x0 + w <= x < x0 + 2 * w) \/
  (n_left a = true /\ x = x0 - 1 /\ y0 <= y < y0 + h) \/
  (n_left_down a = true /\ x = x0 - 1 /\ y0 + h <= y < y0 + 2 * h) \/
  (n_top_left a = true /\ x = x0 - 1 /\ y = y0 - 1).

(** Where the samples are kept while an LCU at [(ox, oy)] is decoded: those of the LCU itself in
    the plane, the line above and the column to the left in the cached border [lcu], whose entry
    [rt] is the corner. *)
Definition kept (pic : mem) (fd st : Z) (lcu : mem) (rt ox oy : Z) (R : Z -> Z -> Z) (x y : Z) : Prop :=
  (ox <= x /\ oy <= y /\ pic (fd + (y - oy) * st + (x - ox)) = R x y) \/
  (ox <= x /\ y = oy - 1 /\ lcu (rt + 1 + (x - ox)) = R x y) \/
  (x = ox - 1 /\ oy <= y /\ lcu (rt - 1 - (y - oy)) = R x y) \/
  (x = ox - 1 /\ y = oy - 1 /\ lcu rt = R x y).
(** The same for all samples that are ready, in an LCU of [n] by [n] samples. *)
Definition held (pic : mem) (fd st : Z) (lcu : mem) (rt ox oy n : Z) (R : Z -> Z -> Z) (ready : Z -> Z -> Prop) : Prop :=
  (forall x y, ox <= x < ox + n -> oy <= y < oy + n -> ready x y -> pic (fd + (y - oy) * st + (x - ox)) = R x y) /\
  (forall x, ox <= x < ox + 2 * n -> ready x (oy - 1) -> lcu (rt + 1 + (x - ox)) = R x (oy - 1)) /\
  (forall y, oy <= y < oy + n -> ready (ox - 1) y -> lcu (rt - 1 - (y - oy)) = R (ox - 1) y) /\
  (ready (ox - 1) (oy - 1) -> lcu rt = R (ox - 1) (oy - 1)).
(** The bits say which of the five parts of the border are ready in full. *)
Definition bits_say (a : nbs) (ready : Z -> Z -> Prop) (x0 y0 w h : Z) : Prop :=
  (n_top a = true <-> forall x, x0 <= x < x0 + w -> ready x (y0 - 1)) /\
  (n_top_right a = true <-> forall x, x0 + w <= x < x0 + 2 * w -> ready x (y0 - 1)) /\
  (n_left a = true <-> forall y, y0 <= y < y0 + h -> ready (x0 - 1) y) /\
  (n_left_down a = true <-> forall y, y0 + h <= y < y0 + 2 * h -> ready (x0 - 1) y) /\
  (n_top_left a = true <-> ready (x0 - 1) (y0 - 1)).
