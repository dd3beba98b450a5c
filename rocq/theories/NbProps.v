(** Properties of the availability of intra neighbours. *)
From Coq Require Import ZArith List Bool Lia.
From Verif Require Import CBase MemModel NbModel NbSpec NbProofs.
Import ListNotations.
Open Scope Z_scope.

(** C51: for every block of every intra coding unit, the five bits are what the recursive
    decoding order says; below left and above right are judged by the last unit of the range
    being in the picture and in the slice. *)
Theorem C51_neighbours : forall lv level split cx cy k bx by_ w h, unit_at lv level split cx cy k bx by_ w h ->
  forall wu hu wscu sl cur,
  let before := decoded_before (Z.to_nat (lv - 2)) split (2 ^ (level - 2)) cx cy k in
  let x := cx + bx in let y := cy + by_ in
  let usable u v := in_pic wu hu u v /\ slice_of wscu sl u v = cur in
  exists nb, intra_neighbors lv wu hu wscu sl x y (4 * w) (4 * h) cur = Done nb /\
    (n_left nb = true <-> usable (x - 1) y) /\
    (n_top nb = true <-> usable x (y - 1)) /\
    (n_top_left nb = true <-> usable (x - 1) (y - 1)) /\
    (n_left_down nb = true <-> usable (x - 1) (y + 2 * h - 1) /\ forall i, 0 <= i < h -> before (x - 1) (y + h + i) = true) /\
    (n_top_right nb = true <-> usable (x + 2 * w - 1) (y - 1) /\ forall i, 0 <= i < w -> before (x + w + i) (y - 1) = true).
Proof. exact neighbours_ok. Qed.
Print Assumptions C51_neighbours.
(** C51: when slices are whole LCU rows (as the decoder starts them), each bit says exactly
    that every unit of its range is in the picture, in the slice and already decoded. *)
Theorem C51_ranges : forall lv level split cx cy k bx by_ w h, unit_at lv level split cx cy k bx by_ w h ->
  forall wu hu wscu sl cur nb, row_slices lv wu hu wscu sl ->
  let before := decoded_before (Z.to_nat (lv - 2)) split (2 ^ (level - 2)) cx cy k in
  let x := cx + bx in let y := cy + by_ in
  let ready u v := in_pic wu hu u v /\ slice_of wscu sl u v = cur /\ before u v = true in
  in_pic wu hu (cx + 2 ^ (level - 2) - 1) (cy + 2 ^ (level - 2) - 1) ->
  intra_neighbors lv wu hu wscu sl x y (4 * w) (4 * h) cur = Done nb ->
    (n_left nb = true <-> forall i, 0 <= i < h -> ready (x - 1) (y + i)) /\
    (n_top nb = true <-> forall i, 0 <= i < w -> ready (x + i) (y - 1)) /\
    (n_top_left nb = true <-> ready (x - 1) (y - 1)) /\
    (n_left_down nb = true <-> forall i, 0 <= i < h -> ready (x - 1) (y + h + i)) /\
    (n_top_right nb = true <-> forall i, 0 <= i < w -> ready (x + w + i) (y - 1)).
Proof. exact neighbour_ranges. Qed.
Print Assumptions C51_ranges.

(** The third band of the 16x16 unit at (48, 16) in an LCU of 64, picture of 200x120 samples:
    the unit to the left is complete, so below left is available, above right is not. The 32x32
    unit at (32, 64): above right is available, below left is not. *)
Example C51_case_unit : unit_at 6 4 1 12 4 2 0 2 4 1.
Proof. constructor; cbn; try lia; try reflexivity. unfold intra_split. lia. Qed.
Example C51_case : intra_neighbors 6 50 30 25 (fun _ => 0) 12 6 16 4 0 =
  Done {| n_left := true; n_top := true; n_left_down := true; n_top_right := false; n_top_left := true |} /\
  intra_neighbors 6 50 30 25 (fun _ => 0) 8 16 32 32 0 =
  Done {| n_left := true; n_top := true; n_left_down := false; n_top_right := true; n_top_left := true |} /\
  decoded_before 4 0 8 8 16 0 16 15 = true /\ row_slices 6 50 30 25 (fun _ => 0).
Proof. repeat split; vm_compute; reflexivity. Qed.
