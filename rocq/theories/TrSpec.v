(** Specification of the inverse transforms by matrices, independent of the butterflies, the
    tables of the program and the in-place computation. *)
From Coq Require Import ZArith List Bool.
From Verif Require Import AlfSpec McSpec.
Import ListNotations.
Open Scope Z_scope.

(** A quarter wave: 45.25 cos (pi n / 64), as the standard rounds it, for n = 0 .. 32 (the entry for
    n = 0 is not used). *)
Definition quarter : list Z :=
  [0; 45; 45; 45; 44; 44; 43; 43; 42; 41; 40; 39; 38; 36; 35; 34; 32; 30; 29; 27; 25; 23; 21; 19; 17; 15; 13; 11; 9; 7; 4; 2; 0].
(** The wave continued with period 128. *)
Definition wave (n : Z) : Z :=
  let m := n mod 128 in let m := if 64 <? m then 128 - m else m in
  if m <=? 32 then nth (Z.to_nat m) quarter 0 else - nth (Z.to_nat (64 - m)) quarter 0.
(** The transform matrix of [n] points: basis function [i] at position [k]. *)
Definition basis (n i k : Z) : Z := if i =? 0 then 32 else wave ((2 * k + 1) * i * (32 / n)).

Fixpoint zsum (n : nat) (f : Z -> Z) : Z := match n with O => 0 | S k => zsum k f + f (Z.of_nat k) end.
(** The nearest value of [b] bits with sign. *)
Definition lim (b v : Z) : Z := clamp (- 2 ^ (b - 1)) (2 ^ (b - 1) - 1) v.
(** The residual of a block of [bh] columns and [bv] lines of coefficients [c u v] (column, line):
    columns first, rounded by 5 bits and limited to 16 bits, then lines. [w] is 1 if an
    interpolation step follows, which takes one more bit. *)
Definition col_pass (bv : nat) (c : Z -> Z -> Z) (u y : Z) : Z :=
  lim 16 (rshift (zsum bv (fun v => basis (Z.of_nat bv) v y * c u v)) 5).
Definition residual (bh bv : nat) (w d : Z) (c : Z -> Z -> Z) (x y : Z) : Z :=
  lim (d + 1 + w) (rshift (zsum bh (fun u => basis (Z.of_nat bh) u x * col_pass bv c u y)) (20 - d - w)).

(** Doubling by interpolation: even positions are the (halved) samples, odd positions the mean of
    the two neighbours, where the last sample is its own right neighbour. *)
Definition between (n : Z) (f : Z -> Z) (t : Z) : Z :=
  if t mod 2 =? 0 then f (t / 2) else (f (t / 2) + f (Z.min (t / 2 + 1) (n / 2 - 1))) / 2.
Definition doubled (n0 n1 : Z) (b : Z -> Z -> Z) (x y : Z) : Z :=
  between n0 (fun x => between n1 (fun y => b x y / 2) y) x.

(** The sizes with a transform of their own. *)
Definition tr_size (bh bv : nat) : Prop :=
  In (bh, bv) [(4, 4); (8, 8); (16, 16); (32, 32); (16, 4); (4, 16); (32, 8); (8, 32)]%nat.

(** Products with a 4x4 matrix given by lines: of the columns and of the lines of a 4x4 corner. *)
Definition mat4 (t : list Z) (k i : Z) : Z := nth (Z.to_nat (k * 4 + i)) t 0.
Definition ver4 (t : list Z) (sh : Z) (c : Z -> Z -> Z) (x y : Z) : Z :=
  lim 16 (rshift (zsum 4 (fun k => mat4 t k y * c x k)) sh).
Definition hor4 (t : list Z) (sh b : Z) (c : Z -> Z -> Z) (x y : Z) : Z :=
  lim b (rshift (zsum 4 (fun k => mat4 t k x * c k y)) sh).
(** The two matrices of the secondary transform. *)
Definition sec_other : list Z := [123; -35; -8; -3;  -32; -120; 30; 10;  14; 25; 123; -22;  8; 13; 19; 126].
Definition sec_4x4 : list Z := [34; 58; 72; 81;  77; 69; -7; -75;  79; -33; -75; 58;  55; -84; 73; -28].
(** Only the corner of a block is changed. *)
Definition corner (f c : Z -> Z -> Z) (x y : Z) : Z := if (x <? 4) && (y <? 4) then f x y else c x y.

(** The secondary transform of the low-frequency corner of intra luma blocks other than 4x4: along
    the lines for the directions with a horizontal component if the left block exists, then along
    the columns for those with a vertical component if the upper block exists. Modes 0 .. 2 (no
    direction) count as both. *)
Definition sec_hor (mode : Z) : Prop := 0 <= mode <= 2 \/ 13 <= mode <= 32.
Definition sec_ver (mode : Z) : Prop := 0 <= mode <= 23.
Definition secondary (hor ver : bool) (c : Z -> Z -> Z) : Z -> Z -> Z :=
  let c1 := if hor then corner (hor4 sec_other 7 16 c) c else c in
  if ver then corner (ver4 sec_other 7 c1) c1 else c1.
(** The residual of 4x4 blocks with the secondary transform, which replaces the other one. *)
Definition residual_4x4_sec (d : Z) (c : Z -> Z -> Z) (x y : Z) : Z :=
  hor4 sec_4x4 (22 - d) (d + 1) (ver4 sec_4x4 5 c) x y.
(** The residual of a block of any size; blocks with a side of 64 have a quarter of the coefficients. *)
Definition is_doubled (w h : Z) : bool := (w =? 64) || (h =? 64).
Definition block_residual (w h d : Z) (sec hor ver : bool) (c : Z -> Z -> Z) (x y : Z) : Z :=
  if sec && (w =? 4) && (h =? 4) then residual_4x4_sec d c x y
  else
    let c := if sec then secondary hor ver c else c in
    if is_doubled w h then doubled w h (residual (Z.to_nat (w / 2)) (Z.to_nat (h / 2)) 1 d c) x y
    else residual (Z.to_nat w) (Z.to_nat h) 0 d c x y.
Definition block_sizes : list (Z * Z) :=
  [(4, 4); (8, 8); (16, 16); (32, 32); (64, 64); (16, 4); (4, 16); (32, 8); (8, 32); (64, 16); (16, 64)].
(** Coefficients stored line after line from address [p]; blocks with a side of 64 have half as
    many coefficients in a line. *)
Definition coeffs_at (m : Z -> Z) (p w : Z) (u v : Z) : Z := m (p + v * w + u).
Definition coeff_width (w h : Z) : Z := if is_doubled w h then w / 2 else w.
