(** Decoding order of 4x4 units, independent of the availability tables. *)
From Coq Require Import ZArith List Bool.
From Verif Require Import MemModel.
Import ListNotations.
Open Scope Z_scope.

(** Inside an LCU of [2^l] units a side: quadrants in reading order, recursively. *)
Fixpoint quad_before (l : nat) (ax ay bx by_ : Z) : bool :=
  match l with
  | O => false
  | S k =>
    let quadrant x y := 2 * (y / 2 ^ Z.of_nat k mod 2) + x / 2 ^ Z.of_nat k mod 2 in
    if quadrant ax ay =? quadrant bx by_ then quad_before k ax ay bx by_ else quadrant ax ay <? quadrant bx by_
  end.
(** In the picture: LCUs in reading order. *)
Definition unit_before (l : nat) (ax ay bx by_ : Z) : bool :=
  let n := 2 ^ Z.of_nat l in
  if (ay / n =? by_ / n) && (ax / n =? bx / n) then quad_before l ax ay bx by_
  else (ay / n <? by_ / n) || (ay / n =? by_ / n) && (ax / n <? bx / n).

(** The blocks an intra coding unit of [n] by [n] units is divided into, in decoding order:
    one square, four bands, four columns or four squares. *)
Definition blocks (split n : Z) : list (Z * Z * Z * Z) :=
  if split =? 0 then [(0, 0, n, n)]
  else if split =? 1 then map (fun k => (0, k * (n / 4), n, n / 4)) [0; 1; 2; 3]
  else if split =? 2 then map (fun k => (k * (n / 4), 0, n / 4, n)) [0; 1; 2; 3]
  else [(0, 0, n / 2, n / 2); (n / 2, 0, n / 2, n / 2); (0, n / 2, n / 2, n / 2); (n / 2, n / 2, n / 2, n / 2)].
(** Four bands and four columns occur for units of 16 and 32 samples only. *)
Definition intra_split (level split : Z) : Prop := split = 0 \/ split = 3 \/ (level = 4 \/ level = 5) /\ (split = 1 \/ split = 2).
Definition in_block (p : Z * Z * Z * Z) (x y : Z) : bool :=
  let '(bx, by_, w, h) := p in (bx <=? x) && (x <? bx + w) && (by_ <=? y) && (y <? by_ + h).
(** Unit [(x, y)] is decoded before block [k] of the coding unit at [(cx, cy)]: it is in an
    earlier block of it, or outside of it and earlier in the order. *)
Definition decoded_before (l : nat) (split n cx cy : Z) (k : nat) (x y : Z) : bool :=
  if in_block (cx, cy, n, n) x y then existsb (fun b => in_block b (x - cx) (y - cy)) (firstn k (blocks split n))
  else unit_before l x y cx cy.
Definition in_pic (wu hu x y : Z) : Prop := 0 <= x < wu /\ 0 <= y < hu.
(** The slice number stored for the 8x8 block of a unit. *)
Definition slice_of (wscu : Z) (sl : mem) (x y : Z) : Z := sl (y / 2 * wscu + x / 2).
