(** Specification of deblocking: strength classes, weighted means, and their use across an
    edge. Sample [j] of a line counts from the edge: -3, -2, -1 to the left, 0, 1, 2 to
    the right. *)
From Coq Require Import ZArith List Bool.
Import ListNotations.
Open Scope Z_scope.

(** Strength of luma filtering. *)
Definition strength (beta : Z) (s : Z -> Z) : Z :=
  let flat i j := Z.abs (s i - s j) <? beta in
  let innerL := flat (-2) (-1) in let outerL := flat (-3) (-1) in
  let innerR := flat 1 0 in let outerR := flat 2 0 in
  let level := (s (-2) =? s (-1)) && (s 1 =? s 0) in
  if innerL && innerR then
    if outerL && outerR then (if level then 4 else 3)
    else if outerL || outerR then (if level then 3 else 2)
    else 2
  else if innerL || innerR then
    if outerL && outerR then 1
    else if outerL || outerR then (if flat (-2) 1 then 1 else 0)
    else 0
  else 0.
(** Chroma uses the next weaker filter. *)
Definition strength_of (chroma : bool) (beta : Z) (s : Z -> Z) : Z :=
  if chroma then Z.max 0 (strength beta s - 1) else strength beta s.

(** Weights for samples -3..2 of the left half of the filters. *)
Definition weights_left (fs j : Z) : option (list Z) :=
  match fs, j with
  | 4, -1 => Some [9; 0; 9; 8; 0; 6]
  | 4, -2 => Some [6; 0; 7; 3; 0; 0]
  | 4, -3 => Some [3; 0; 4; 1; 0; 0]
  | 3, -1 => Some [1; 4; 6; 4; 1; 0]
  | 3, -2 => Some [3; 8; 4; 1; 0; 0]
  | 2, -1 => Some [0; 3; 10; 3; 0; 0]
  | 1, -1 => Some [0; 0; 3; 1; 0; 0]
  | _, _ => None
  end.
(** The right half is the mirror image. *)
Definition weights (fs j : Z) : option (list Z) :=
  if j <? 0 then weights_left fs j else option_map (@rev Z) (weights_left fs (-1 - j)).

Definition dot (w : list Z) (s : Z -> Z) : Z :=
  fold_right Z.add 0 (map (fun p => fst p * s (snd p)) (combine w [-3; -2; -1; 0; 1; 2])).
Definition total (w : list Z) : Z := fold_right Z.add 0 w.
(** Weighted mean rounded to the nearest integer, halves up. *)
Definition wmean (w : list Z) (s : Z -> Z) : Z := (2 * dot w s + total w) / (2 * total w).

(** What deblocking makes of sample [j] of a line. *)
Definition filtered (chroma : bool) (alpha beta : Z) (flag : bool) (s : Z -> Z) (j : Z) : Z :=
  let d := Z.abs (s 0 - s (-1)) in
  if flag && (d <? alpha) && (1 <? d) then
    match weights (strength_of chroma beta s) j with Some w => wmean w s | None => s j end
  else s j.

(** Steps along and across an edge: one is 1, the other the picture stride. *)
Definition layout (ptr inc : Z) : Prop := (ptr = 1 /\ 8 <= inc) \/ (inc = 1 /\ 6 <= ptr).
(** An edge is eight luma or four chroma lines long; each flag covers half of it. *)
Definition lines (c : bool) : Z := if c then 4 else 8.
Definition line_flag (c : bool) (f0 f1 : bool) (k : Z) : bool := if 2 * k <? lines c then f0 else f1.
