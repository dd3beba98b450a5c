(** Specification of units, residuals and inter prediction of a coding unit. *)
From Coq Require Import ZArith List Bool.
From Verif Require Import AlfSpec McSpec TrSpec CuModel.
Import ListNotations.
Open Scope Z_scope.

(** A unit (column, line, width, height) contains a position of the coding unit. *)
Definition inside (u : cb) (x y : Z) : Prop := cx u <= x < cx u + cw u /\ cy u <= y < cy u + ch u.
(** Units cut a square of side [n] into disjoint rectangles: every position is in exactly one, and
    none sticks out. *)
Definition tiled (n : Z) (us : list cb) : Prop :=
  (forall u, In u us -> 0 <= cx u /\ 0 <= cy u /\ 0 < cw u /\ 0 < ch u /\ cx u + cw u <= n /\ cy u + ch u <= n) /\
  (forall x y, 0 <= x < n -> 0 <= y < n ->
     exists i u, nth_error us i = Some u /\ inside u x y /\ forall j v, nth_error us j = Some v -> inside v x y -> j = i).
(** The shapes by name, in quarters of the side. *)
Definition quarters (q : Z) (l : list (Z * Z * Z * Z)) : list cb :=
  map (fun '(x, y, w, h) => {| cx := x * q; cy := y * q; cw := w * q; ch := h * q |}) l.
Definition whole := [(0, 0, 4, 4)].
Definition two_lines (h : Z) := [(0, 0, 4, h); (0, h, 4, 4 - h)].
Definition two_columns (w : Z) := [(0, 0, w, 4); (w, 0, 4 - w, 4)].
Definition four_squares := [(0, 0, 2, 2); (2, 0, 2, 2); (0, 2, 2, 2); (2, 2, 2, 2)].
Definition four_lines := [(0, 0, 4, 1); (0, 1, 4, 1); (0, 2, 4, 1); (0, 3, 4, 1)].
Definition four_columns := [(0, 0, 1, 4); (1, 0, 1, 4); (2, 0, 1, 4); (3, 0, 1, 4)].
(** Partition by type (0 .. 11, common.h): skip, 2Nx2N, 2NxN, Nx2N, 2NxnU, 2NxnD, nLx2N, nRx2N and the
    intra types 2Nx2N, NxN, 2Nxn, nx2N. [four] says whether a skipped unit is cut in four. *)
Definition partition (four : bool) (mode : Z) : list (Z * Z * Z * Z) :=
  nth (Z.to_nat mode) [if four then four_squares else whole; whole; two_lines 2; two_columns 2; two_lines 1; two_lines 3;
    two_columns 1; two_columns 3; whole; four_squares; four_lines; four_columns] [].
(** Transform units by split (0 none, 1 lines, 2 columns, 3 squares). *)
Definition tu_partition (split : Z) : list (Z * Z * Z * Z) := nth (Z.to_nat split) [whole; four_lines; four_columns; four_squares] [].

(** Where the coefficients of a coding unit are kept: [z] is the number in z-order of its first 8x8
    block in the LCU, 64 places each (16 in the chroma buffers); the luma blocks of a unit of side
    2^level follow each other, a quarter of the unit apart. *)
Definition luma_place (z level k : Z) : Z := 64 * z + k * 4 ^ (level - 1).
Definition chroma_place (z : Z) : Z := 16 * z.
(** The residual a coded unit adds at a position: its block starts at [off] in the buffer. *)
Definition unit_residual (d : Z) (sec hor ver : bool) (c : Z -> Z) (off : Z) (u : cb) (x y : Z) : Z :=
  block_residual (cw u) (ch u) d sec hor ver (coeffs_at c off (coeff_width (cw u) (ch u))) (x - cx u) (y - cy u).

(** Which units of a coding unit have coefficients: bits 0 .. 3 of the pattern by unit, any of them if
    the unit is not split; bits 4 and 5 are the chroma blocks. *)
Definition coded (cbp split k : Z) : bool := if split =? 0 then existsb (Z.testbit cbp) [0; 1; 2; 3] else Z.testbit cbp k.

(** Motion of a prediction unit: one or two (vector, reference index). References of B pictures are
    1 (forward) and 0 (backward). *)
Definition offset_of (dmh : Z) : Z * Z :=
  nth (Z.to_nat (dmh - 1)) [(1, 0); (0, 1); (1, -1); (1, 1); (2, 0); (0, 2); (2, -2); (2, 2)] (0, 0).
Definition shifted (v o : Z * Z) (s : Z) : Z * Z := (fst v + s * fst o, snd v + s * snd o).
Inductive motion (b_slice : bool) (dmh : Z) (u : pum) : list ((Z * Z) * Z) -> Prop :=
| Backward : u_dir u = 1 -> motion b_slice dmh u [(u_mv1 u, 0)]
| Both : u_dir u = 2 \/ u_dir u = 3 -> motion b_slice dmh u [(u_mv0 u, 1); (u_mv1 u, 0)]
| Forward_b : u_dir u = 0 -> b_slice = true -> motion b_slice dmh u [(u_mv0 u, 1)]
| Dual : u_dir u = 4 -> b_slice = false -> motion b_slice dmh u [(u_mv0 u, u_ref0 u); (u_mv1 u, u_ref1 u)]
| Forward : u_dir u = 0 -> b_slice = false -> dmh = 0 -> motion b_slice dmh u [(u_mv0 u, u_ref0 u)]
| Multi : u_dir u = 0 -> b_slice = false -> 1 <= dmh <= 8 ->
    motion b_slice dmh u [(shifted (u_mv0 u) (offset_of dmh) (-1), u_ref0 u); (shifted (u_mv0 u) (offset_of dmh) 1, u_ref0 u)].
(** The predicted sample at a picture position from one or two reference pictures. *)
Definition predicted (f : Z -> (Z * Z) -> Z) (l : list ((Z * Z) * Z)) : Z :=
  match l with
  | [(v, r)] => f r v
  | [(v1, r1); (v2, r2)] => (f r1 v1 + f r2 v2 + 1) / 2
  | _ => 0
  end.
Definition luma_ref (d W H stride : Z) (fref : refs) (X Y r : Z) (v : Z * Z) : Z :=
  match fref r with
  | Some (s, p) => interp_luma d (endless W H (plane s p stride)) (4 * X + fst v) (4 * Y + snd v)
  | None => 0 end.
Definition chroma_ref (d W H stride : Z) (fref : refs) (X Y r : Z) (v : Z * Z) : Z :=
  match fref r with
  | Some (s, p) => interp_chroma d (endless (W / 2) (H / 2) (plane s p stride)) (8 * X + fst v) (8 * Y + snd v)
  | None => 0 end.
(** All references of a unit exist, hold samples of the depth and are padded beyond the border as the
    decoder does for finished rows; vector components are those of the bitstream (16 bits). *)
Definition refs_ready (n d W H stride : Z) (fref : refs) (l : list ((Z * Z) * Z)) : Prop :=
  forall v r, In (v, r) l -> 0 <= r < 4 /\ mv_ok (fst v) /\ mv_ok (snd v) /\
    exists s p, fref r = Some (s, p) /\ (forall a, 0 <= s a < 2 ^ d) /\ padded n W H (plane s p stride).
(** A coding unit of side 2^level at (X, Y), a multiple of 8 samples, inside the picture. *)
Definition unit_in_picture (W H level X Y : Z) : Prop :=
  W mod 8 = 0 /\ H mod 8 = 0 /\ W <= 8184 /\ H <= 8184 /\ X mod 8 = 0 /\ Y mod 8 = 0 /\ 0 <= X /\ 0 <= Y /\
  3 <= level <= 6 /\ X + 2 ^ level <= W /\ Y + 2 ^ level <= H.
