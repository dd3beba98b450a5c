(** Intra prediction of one block from its border: source/common/intra.cc:57-2213, the C
    versions, with [BUGFIX_PREDICTION_INTRA] = 1 (defines.h) as built.

    The border array EP and the picture are two memories; [s] is the index of EP[0] in the
    border memory [src], [d] the index of the block's first sample in the picture, [i_dst]
    the stride.  Arrays local to a predictor are memories that start with arbitrary contents
    [junk].  Loops whose pointers advance are written with the pointer as a function of the
    loop counter.  Intermediate values are integers: the sums of the angular predictors are
    at most 128 * max + 64, so they fit an [int].  The SIMD
    versions are not modelled. *)
From Coq Require Import ZArith List Bool.
From Verif Require Import CBase MemModel SaoModel LfModel HdrModel.
Import ListNotations.
Open Scope Z_scope.

(** intra.cc:99-118 [tab_auc_dir_dxdy]: (imult, ishift) for dx/dy and dy/dx. *)
Definition dir_dxdy : list (Z * Z) :=
  [(0, 0); (0, 0); (0, 0); (11, 2); (2, 0);
   (11, 3); (1, 0); (93, 7); (1, 1); (93, 8);
   (1, 2); (1, 3); (0, 0); (1, 3); (1, 2);
   (93, 8); (1, 1); (93, 7); (1, 0); (11, 3);
   (2, 0); (11, 2); (4, 0); (8, 0); (0, 0);
   (8, 0); (4, 0); (11, 2); (2, 0); (11, 3);
   (1, 0); (93, 7); (1, 1)].
Definition dir_dydx : list (Z * Z) :=
  [(0, 0); (0, 0); (0, 0); (93, 8); (1, 1);
   (93, 7); (1, 0); (11, 3); (2, 0); (11, 2);
   (4, 0); (8, 0); (0, 0); (8, 0); (4, 0);
   (11, 2); (2, 0); (11, 3); (1, 0); (93, 7);
   (1, 1); (93, 8); (1, 2); (1, 3); (0, 0);
   (1, 3); (1, 2); (93, 8); (1, 1); (93, 7);
   (1, 0); (11, 3); (2, 0)].
(** intra.cc:122-132 [tab_log2size]; only the sizes that occur. *)
Definition tab_log2size (v : Z) : Z :=
  if v =? 4 then 2 else if v =? 8 then 3 else if v =? 16 then 4 else if v =? 32 then 5 else if v =? 64 then 6 else -1.
(** intra.cc:525-534 [get_context_pixel]: the whole and the fractional displacement. *)
Definition context_pixel (mode : Z) (dydx : bool) (D : Z) : Z * Z :=
  let '(imult, ishift) := nth (Z.to_nat mode) (if dydx then dir_dydx else dir_dxdy) (0, 0) in
  let Dn := Z.shiftr (D * imult) ishift in
  (Dn, Z.shiftr (D * imult * 32) ishift - Dn * 32).

(** One store of a line buffer or of the picture, as a function of the border around [src]. *)
Definition tapf := (Z -> Z) -> Z.
Fixpoint line_put (bits : Z) (es : list tapf) (addr : Z -> Z) (r : Z -> Z) (k : Z) (m : mem) : mem :=
  match es with
  | [] => m
  | E :: es' => line_put bits es' addr r (k + 1) (upd m (addr k) (to_pel bits (E r)))
  end.
(** [for (i = a; i < b; i++)]: the stores [es] of one round, the [k]-th at [addr k i], reading
    around [src] + [pos i]. *)
Definition line_fill (bits : Z) (es : list tapf) (addr : Z -> Z -> Z) (src : mem) (pos : Z -> Z) (a b : Z) (m : mem) : mem :=
  floop a b (fun i m => line_put bits es (fun k => addr k i) (fun q => src (pos i + q)) 0 m) m.
(** Copies of rows out of line buffers, [K] rows in each of [n] rounds. *)
Definition rows_copy (n K w d i_dst : Z) (fl : mem) (off : Z -> Z -> Z) (dst : mem) : mem :=
  floop 0 n (fun t => floop 0 K (fun k => floop 0 w (fun x m => upd m (d + (K * t + k) * i_dst + x) (fl (off k t + x))))) dst.
(** [((line_size + 15) >> 4) << 4] *)
Definition aligned (v : Z) : Z := Z.shiftl (Z.shiftr (v + 15) 4) 4.

(** The stores of the angular predictors. *)
Definition e_x3 : list tapf :=
  [fun s => Z.shiftr (s 2 + 5 * s 3 + 7 * s 4 + 3 * s 5 + 8) 4;
   fun s => Z.shiftr (s 5 + 3 * s 6 + 3 * s 7 + s 8 + 4) 3;
   fun s => Z.shiftr (3 * s 8 + 7 * s 9 + 5 * s 10 + s 11 + 8) 4;
   fun s => Z.shiftr (s 11 + 2 * s 12 + s 13 + 0 * s 14 + 2) 2].
Definition e_x4 : list tapf := [fun s => Z.shiftr (s (-1) + s 0 * 2 + s 1 + 2) 2].
Definition e_x5a : list tapf :=
  [fun s => Z.shiftr (5 * s 1 + 13 * s 2 + 11 * s 3 + 3 * s 4 + 16) 5;
   fun s => Z.shiftr (s 2 + 5 * s 3 + 7 * s 4 + 3 * s 5 + 8) 4;
   fun s => Z.shiftr (7 * s 4 + 15 * s 5 + 9 * s 6 + s 7 + 16) 5;
   fun s => Z.shiftr (s 5 + 3 * s 6 + 3 * s 7 + s 8 + 4) 3].
Definition e_x5 : list tapf := e_x5a ++
  [fun s => Z.shiftr (s 6 + 9 * s 7 + 15 * s 8 + 7 * s 9 + 16) 5;
   fun s => Z.shiftr (3 * s 8 + 7 * s 9 + 5 * s 10 + s 11 + 8) 4;
   fun s => Z.shiftr (3 * s 9 + 11 * s 10 + 13 * s 11 + 5 * s 12 + 16) 5;
   fun s => Z.shiftr (s 11 + 2 * s 12 + s 13 + 2) 2].
Definition e_x6 : list tapf := [fun s => Z.shiftr (s 1 + Z.shiftl (s 2) 1 + s 3 + 2) 2].
Definition e_x7a : list tapf :=
  [fun s => Z.shiftr (s 0 * 9 + s 1 * 41 + s 2 * 55 + s 3 * 23 + 64) 7;
   fun s => Z.shiftr (s 1 * 9 + s 2 * 25 + s 3 * 23 + s 4 * 7 + 32) 6;
   fun s => Z.shiftr (s 2 * 27 + s 3 * 59 + s 4 * 37 + s 5 * 5 + 64) 7;
   fun s => Z.shiftr (s 2 * 3 + s 3 * 35 + s 4 * 61 + s 5 * 29 + 64) 7].
Definition e_x7 : list tapf := e_x7a ++
  [fun s => Z.shiftr (s 3 * 3 + s 4 * 11 + s 5 * 13 + s 6 * 5 + 16) 5;
   fun s => Z.shiftr (s 4 * 21 + s 5 * 53 + s 6 * 43 + s 7 * 11 + 64) 7;
   fun s => Z.shiftr (s 5 * 15 + s 6 * 31 + s 7 * 17 + s 8 + 32) 6;
   fun s => Z.shiftr (s 5 * 3 + s 6 * 19 + s 7 * 29 + s 8 * 13 + 32) 6].
Definition e_x8 : list tapf :=
  [fun s => Z.shiftr (s 0 + (s 1 + s 2) * 3 + s 3 + 4) 3;
   fun s => Z.shiftr (s 1 + Z.shiftl (s 2) 1 + s 3 + 2) 2].
Definition e_x9a : list tapf :=
  [fun s => Z.shiftr (21 * s 0 + 53 * s 1 + 43 * s 2 + 11 * s 3 + 64) 7;
   fun s => Z.shiftr (9 * s 0 + 41 * s 1 + 55 * s 2 + 23 * s 3 + 64) 7;
   fun s => Z.shiftr (15 * s 1 + 31 * s 2 + 17 * s 3 + s 4 + 32) 6;
   fun s => Z.shiftr (9 * s 1 + 25 * s 2 + 23 * s 3 + 7 * s 4 + 32) 6].
Definition e_x9 : list tapf := e_x9a ++
  [fun s => Z.shiftr (3 * s 1 + 19 * s 2 + 29 * s 3 + 13 * s 4 + 32) 6;
   fun s => Z.shiftr (27 * s 2 + 59 * s 3 + 37 * s 4 + 5 * s 5 + 64) 7;
   fun s => Z.shiftr (15 * s 2 + 47 * s 3 + 49 * s 4 + 17 * s 5 + 64) 7;
   fun s => Z.shiftr (3 * s 2 + 35 * s 3 + 61 * s 4 + 29 * s 5 + 64) 7].
Definition e_x10 : list tapf :=
  [fun s => Z.shiftr (s 0 * 3 + s 1 * 7 + s 2 * 5 + s 3 + 8) 4;
   fun s => Z.shiftr (s 0 + (s 1 + s 2) * 3 + s 3 + 4) 3;
   fun s => Z.shiftr (s 0 + s 1 * 5 + s 2 * 7 + s 3 * 3 + 8) 4;
   fun s => Z.shiftr (s 1 + s 2 * 2 + s 3 + 2) 2].
Definition e_x11a : list tapf :=
  [fun s => Z.shiftr (7 * s 0 + 15 * s 1 + 9 * s 2 + s 3 + 16) 5;
   fun s => Z.shiftr (3 * s 0 + 7 * s 1 + 5 * s 2 + s 3 + 8) 4;
   fun s => Z.shiftr (5 * s 0 + 13 * s 1 + 11 * s 2 + 3 * s 3 + 16) 5;
   fun s => Z.shiftr (s 0 + 3 * s 1 + 3 * s 2 + s 3 + 4) 3].
Definition e_x11 : list tapf := e_x11a ++
  [fun s => Z.shiftr (3 * s 0 + 11 * s 1 + 13 * s 2 + 5 * s 3 + 16) 5;
   fun s => Z.shiftr (s 0 + 5 * s 1 + 7 * s 2 + 3 * s 3 + 8) 4;
   fun s => Z.shiftr (s 0 + 9 * s 1 + 15 * s 2 + 7 * s 3 + 16) 5;
   fun s => Z.shiftr (s 1 + 2 * s 2 + s 3 + 0 * s 4 + 2) 2].
Definition e_y25a : list tapf :=
  [fun s => Z.shiftr (s 0 * 7 + s (-1) * 15 + s (-2) * 9 + s (-3) * 1 + 16) 5;
   fun s => Z.shiftr (s 0 * 3 + s (-1) * 7 + s (-2) * 5 + s (-3) * 1 + 8) 4;
   fun s => Z.shiftr (s 0 * 5 + s (-1) * 13 + s (-2) * 11 + s (-3) * 3 + 16) 5;
   fun s => Z.shiftr (s 0 * 1 + s (-1) * 3 + s (-2) * 3 + s (-3) * 1 + 4) 3].
Definition e_y25 : list tapf := e_y25a ++
  [fun s => Z.shiftr (s 0 * 3 + s (-1) * 11 + s (-2) * 13 + s (-3) * 5 + 16) 5;
   fun s => Z.shiftr (s 0 * 1 + s (-1) * 5 + s (-2) * 7 + s (-3) * 3 + 8) 4;
   fun s => Z.shiftr (s 0 * 1 + s (-1) * 9 + s (-2) * 15 + s (-3) * 7 + 16) 5;
   fun s => Z.shiftr (s (-1) * 1 + s (-2) * 2 + s (-3) * 1 + 2) 2].
Definition e_y26 : list tapf :=
  [fun s => Z.shiftr (s 0 * 3 + s (-1) * 7 + s (-2) * 5 + s (-3) + 8) 4;
   fun s => Z.shiftr (s 0 + (s (-1) + s (-2)) * 3 + s (-3) + 4) 3;
   fun s => Z.shiftr (s 0 + s (-1) * 5 + s (-2) * 7 + s (-3) * 3 + 8) 4;
   fun s => Z.shiftr (s (-1) + s (-2) * 2 + s (-3) + 2) 2].
Definition e_y27a : list tapf :=
  [fun s => Z.shiftr (21 * s 0 + 53 * s (-1) + 43 * s (-2) + 11 * s (-3) + 64) 7;
   fun s => Z.shiftr (9 * s 0 + 41 * s (-1) + 55 * s (-2) + 23 * s (-3) + 64) 7;
   fun s => Z.shiftr (15 * s (-1) + 31 * s (-2) + 17 * s (-3) + 1 * s (-4) + 32) 6;
   fun s => Z.shiftr (9 * s (-1) + 25 * s (-2) + 23 * s (-3) + 7 * s (-4) + 32) 6].
Definition e_y27 : list tapf := e_y27a ++
  [fun s => Z.shiftr (3 * s (-1) + 19 * s (-2) + 29 * s (-3) + 13 * s (-4) + 32) 6;
   fun s => Z.shiftr (27 * s (-2) + 59 * s (-3) + 37 * s (-4) + 5 * s (-5) + 64) 7;
   fun s => Z.shiftr (15 * s (-2) + 47 * s (-3) + 49 * s (-4) + 17 * s (-5) + 64) 7;
   fun s => Z.shiftr (3 * s (-2) + 35 * s (-3) + 61 * s (-4) + 29 * s (-5) + 64) 7].
Definition e_y28 : list tapf :=
  [fun s => Z.shiftr (s 0 + (s (-1) + s (-2)) * 3 + s (-3) + 4) 3;
   fun s => Z.shiftr (s (-1) + Z.shiftl (s (-2)) 1 + s (-3) + 2) 2].
Definition e_y29a : list tapf :=
  [fun s => Z.shiftr (s 0 * 9 + s (-1) * 41 + s (-2) * 55 + s (-3) * 23 + 64) 7;
   fun s => Z.shiftr (s (-1) * 9 + s (-2) * 25 + s (-3) * 23 + s (-4) * 7 + 32) 6;
   fun s => Z.shiftr (s (-2) * 27 + s (-3) * 59 + s (-4) * 37 + s (-5) * 5 + 64) 7;
   fun s => Z.shiftr (s (-2) * 3 + s (-3) * 35 + s (-4) * 61 + s (-5) * 29 + 64) 7].
Definition e_y29 : list tapf := e_y29a ++
  [fun s => Z.shiftr (s (-3) * 3 + s (-4) * 11 + s (-5) * 13 + s (-6) * 5 + 16) 5;
   fun s => Z.shiftr (s (-4) * 21 + s (-5) * 53 + s (-6) * 43 + s (-7) * 11 + 64) 7;
   fun s => Z.shiftr (s (-5) * 15 + s (-6) * 31 + s (-7) * 17 + s (-8) + 32) 6;
   fun s => Z.shiftr (s (-5) * 3 + s (-6) * 19 + s (-7) * 29 + s (-8) * 13 + 32) 6].
Definition e_y30 : list tapf := [fun s => Z.shiftr (s (-1) + Z.shiftl (s 0) 1 + s 1 + 2) 2].
Definition e_y31a : list tapf :=
  [fun s => Z.shiftr (5 * s (-1) + 13 * s (-2) + 11 * s (-3) + 3 * s (-4) + 16) 5;
   fun s => Z.shiftr (1 * s (-2) + 5 * s (-3) + 7 * s (-4) + 3 * s (-5) + 8) 4;
   fun s => Z.shiftr (7 * s (-4) + 15 * s (-5) + 9 * s (-6) + 1 * s (-7) + 16) 5;
   fun s => Z.shiftr (1 * s (-5) + 3 * s (-6) + 3 * s (-7) + 1 * s (-8) + 4) 3].
Definition e_y31 : list tapf := e_y31a ++
  [fun s => Z.shiftr (1 * s (-6) + 9 * s (-7) + 15 * s (-8) + 7 * s (-9) + 16) 5;
   fun s => Z.shiftr (3 * s (-8) + 7 * s (-9) + 5 * s (-10) + 1 * s (-11) + 8) 4;
   fun s => Z.shiftr (3 * s (-9) + 11 * s (-10) + 13 * s (-11) + 5 * s (-12) + 16) 5;
   fun s => Z.shiftr (1 * s (-11) + 2 * s (-12) + 1 * s (-13) + 0 * s (-14) + 2) 2].
Definition e_y32 : list tapf :=
  [fun s => Z.shiftr (s 1 + Z.shiftl (s 0) 1 + s (-1) + 2) 2;
   fun s => Z.shiftr (s 0 + Z.shiftl (s (-1)) 1 + s (-2) + 2) 2].
Definition e_xy13l : list tapf :=
  [fun s => Z.shiftr (s 6 + Z.shiftl (s 7) 1 + s 8 + 2) 2;
   fun s => Z.shiftr (s 5 + Z.shiftl (s 6) 1 + s 7 + 2) 2;
   fun s => Z.shiftr (s 4 + Z.shiftl (s 5) 1 + s 6 + 2) 2;
   fun s => Z.shiftr (s 3 + Z.shiftl (s 4) 1 + s 5 + 2) 2;
   fun s => Z.shiftr (s 2 + Z.shiftl (s 3) 1 + s 4 + 2) 2;
   fun s => Z.shiftr (s 1 + Z.shiftl (s 2) 1 + s 3 + 2) 2;
   fun s => Z.shiftr (s 0 + Z.shiftl (s 1) 1 + s 2 + 2) 2;
   fun s => Z.shiftr (s (-1) + Z.shiftl (s 0) 1 + s 1 + 2) 2].
Definition e_xy13a : list tapf :=
  [fun s => Z.shiftr (7 * s 2 + 15 * s 1 + 9 * s 0 + s (-1) + 16) 5;
   fun s => Z.shiftr (3 * s 2 + 7 * s 1 + 5 * s 0 + s (-1) + 8) 4;
   fun s => Z.shiftr (5 * s 2 + 13 * s 1 + 11 * s 0 + 3 * s (-1) + 16) 5;
   fun s => Z.shiftr (s 2 + 3 * s 1 + 3 * s 0 + s (-1) + 4) 3].
Definition e_xy13 : list tapf := e_xy13a ++
  [fun s => Z.shiftr (3 * s 2 + 11 * s 1 + 13 * s 0 + 5 * s (-1) + 16) 5;
   fun s => Z.shiftr (s 2 + 5 * s 1 + 7 * s 0 + 3 * s (-1) + 8) 4;
   fun s => Z.shiftr (s 2 + 9 * s 1 + 15 * s 0 + 7 * s (-1) + 16) 5;
   fun s => Z.shiftr (s 1 + 2 * s 0 + s (-1) + 2) 2].
Definition e_xy14l : list tapf :=
  [fun s => Z.shiftr (s 2 + Z.shiftl (s 3) 1 + s 4 + 2) 2;
   fun s => Z.shiftr (s 1 + Z.shiftl (s 2) 1 + s 3 + 2) 2;
   fun s => Z.shiftr (s 0 + Z.shiftl (s 1) 1 + s 2 + 2) 2;
   fun s => Z.shiftr (s (-1) + Z.shiftl (s 0) 1 + s 1 + 2) 2].
Definition e_xy14 : list tapf :=
  [fun s => Z.shiftr (s (-1) + s 0 * 5 + s 1 * 7 + s 2 * 3 + 8) 4;
   fun s => Z.shiftr (s (-1) + (s 0 + s 1) * 3 + s 2 + 4) 3;
   fun s => Z.shiftr (s (-1) * 3 + s 0 * 7 + s 1 * 5 + s 2 + 8) 4;
   fun s => Z.shiftr (s (-1) + s 0 * 2 + s 1 + 2) 2].
Definition e_xy16l : list tapf :=
  [fun s => Z.shiftr (s 0 + Z.shiftl (s 1) 1 + s 2 + 2) 2;
   fun s => Z.shiftr (s (-1) + Z.shiftl (s 0) 1 + s 1 + 2) 2].
Definition e_xy16 : list tapf :=
  [fun s => Z.shiftr (s (-1) + (s 0 + s 1) * 3 + s 2 + 4) 3;
   fun s => Z.shiftr (s (-1) + Z.shiftl (s 0) 1 + s 1 + 2) 2].
Definition e_mid : list tapf := [fun s => Z.shiftr (s (-1) + Z.shiftl (s 0) 1 + s 1 + 2) 2].
Definition e_xy20l : list tapf :=
  [fun s => Z.shiftr (s (-1) + (s 0 + s 1) * 3 + s 2 + 4) 3;
   fun s => Z.shiftr (s 0 + Z.shiftl (s 1) 1 + s 2 + 2) 2].
Definition e_xy22l : list tapf :=
  [fun s => Z.shiftr (s (-1) * 3 + s 0 * 7 + s 1 * 5 + s 2 + 8) 4;
   fun s => Z.shiftr (s (-1) + (s 0 + s 1) * 3 + s 2 + 4) 3;
   fun s => Z.shiftr (s (-1) + s 0 * 5 + s 1 * 7 + s 2 * 3 + 8) 4;
   fun s => Z.shiftr (s 0 + s 1 * 2 + s 2 + 2) 2].
Definition e_xy22s : list tapf :=
  [fun s => Z.shiftr (s (-2) * 3 + s (-1) * 7 + s 0 * 5 + s 1 + 8) 4;
   fun s => Z.shiftr (s (-2) + (s (-1) + s 0) * 3 + s 1 + 4) 3;
   fun s => Z.shiftr (s (-2) + s (-1) * 5 + s 0 * 7 + s 1 * 3 + 8) 4;
   fun s => Z.shiftr (s (-1) + s 0 * 2 + s 1 + 2) 2].
Definition e_xy23l : list tapf :=
  [fun s => Z.shiftr (7 * s (-1) + 15 * s 0 + 9 * s 1 + s 2 + 16) 5;
   fun s => Z.shiftr (3 * s (-1) + 7 * s 0 + 5 * s 1 + s 2 + 8) 4;
   fun s => Z.shiftr (5 * s (-1) + 13 * s 0 + 11 * s 1 + 3 * s 2 + 16) 5;
   fun s => Z.shiftr (s (-1) + 3 * s 0 + 3 * s 1 + s 2 + 4) 3;
   fun s => Z.shiftr (3 * s (-1) + 11 * s 0 + 13 * s 1 + 5 * s 2 + 16) 5;
   fun s => Z.shiftr (s (-1) + 5 * s 0 + 7 * s 1 + 3 * s 2 + 8) 4;
   fun s => Z.shiftr (s (-1) + 9 * s 0 + 15 * s 1 + 7 * s 2 + 16) 5;
   fun s => Z.shiftr (s 0 + 2 * s 1 + s 2 + 0 * s 3 + 2) 2].
Definition e_xy23t : list tapf := [fun s => Z.shiftr (s 1 + Z.shiftl (s 0) 1 + s (-1) + 2) 2].
Definition e_xy23a : list tapf :=
  [fun s => Z.shiftr (7 * s (-2) + 15 * s (-1) + 9 * s 0 + s 1 + 16) 5;
   fun s => Z.shiftr (3 * s (-2) + 7 * s (-1) + 5 * s 0 + s 1 + 8) 4;
   fun s => Z.shiftr (5 * s (-2) + 13 * s (-1) + 11 * s 0 + 3 * s 1 + 16) 5;
   fun s => Z.shiftr (s (-2) + 3 * s (-1) + 3 * s 0 + s 1 + 4) 3].
Definition e_xy23 : list tapf := e_xy23a ++
  [fun s => Z.shiftr (3 * s (-2) + 11 * s (-1) + 13 * s 0 + 5 * s 1 + 16) 5;
   fun s => Z.shiftr (s (-2) + 5 * s (-1) + 7 * s 0 + 3 * s 1 + 8) 4;
   fun s => Z.shiftr (s (-2) + 9 * s (-1) + 15 * s 0 + 7 * s 1 + 16) 5;
   fun s => Z.shiftr (s (-1) + 2 * s 0 + s 1 + 0 * s 2 + 2) 2].

Section Predictors.
Variables (bits depth : Z) (junk src : mem) (s d i_dst mode bsx bsy : Z).

(** intra.cc:327-338 *)
Definition pred_ver (dst : mem) : mem :=
  block_write (Z.to_nat bsx) (Z.to_nat bsy) d i_dst (fun x _ _ => src (s + 1 + x)) dst.
(** intra.cc:342-355 *)
Definition pred_hor (dst : mem) : mem :=
  block_write (Z.to_nat bsx) (Z.to_nat bsy) d i_dst (fun _ y _ => src (s - 1 - y)) dst.
(** intra.cc:359-408; [mode] is (top available) << 8 | (left available). *)
Definition dc_value : Z :=
  let b_top := negb (Z.shiftr mode 8 =? 0) in
  let b_left := negb (Z.land mode 255 =? 0) in
  if b_left then
    let v := floop 0 bsy (fun y v => v + src (s - 1 - y)) 0 in
    if b_top then
      let v := floop 0 bsx (fun x v => v + src (s + 1 + x)) v in
      let v := v + Z.shiftr (bsx + bsy) 1 in
      Z.shiftr (v * (512 / (bsx + bsy))) 9
    else (v + bsy / 2) / bsy
  else
    if b_top then (floop 0 bsx (fun x v => v + src (s + 1 + x)) 0 + bsx / 2) / bsx
    else Z.shiftl 1 (depth - 1).
Definition pred_dc (dst : mem) : mem :=
  let v := clip3 0 (2 ^ depth - 1) dc_value in
  block_write (Z.to_nat bsx) (Z.to_nat bsy) d i_dst (fun _ _ _ => to_pel bits v) dst.

(** intra.cc:412-460.  The table index is [log2size - 2]. *)
Definition ib_mult (v : Z) : Z := nth (Z.to_nat (tab_log2size v - 2)) [13; 17; 5; 11; 23] 0.
Definition ib_shift (v : Z) : Z := nth (Z.to_nat (tab_log2size v - 2)) [7; 10; 11; 15; 19] 0.
Definition plane_h : Z :=
  let p := s + 1 + (Z.shiftr bsx 1 - 1) in
  floop 1 (Z.shiftr bsx 1 + 1) (fun x v => v + x * (src (p + x) - src (p - x))) 0.
Definition plane_v : Z :=
  let p := s - 1 - (Z.shiftr bsy 1 - 1) in
  floop 1 (Z.shiftr bsy 1 + 1) (fun y v => v + y * (src (p - y) - src (p + y))) 0.
Definition plane_slope (size i : Z) : Z :=
  Z.shiftr (Z.shiftl i 5 * ib_mult size + Z.shiftl 1 (ib_shift size - 1)) (ib_shift size).
Definition pred_plane (dst : mem) : mem :=
  let iA := Z.shiftl (src (s - 1 - (bsy - 1)) + src (s + (1 + bsx - 1))) 4 in
  let iB := plane_slope bsx plane_h in
  let iC := plane_slope bsy plane_v in
  let iTmp := iA - (Z.shiftr bsy 1 - 1) * iC - (Z.shiftr bsx 1 - 1) * iB + 16 in
  fst (floop 0 bsy (fun y (st : mem * Z) =>
         let '(dst, t) := st in
         (fst (floop 0 bsx (fun x (st : mem * Z) =>
                 let '(dst, t2) := st in
                 (upd dst (d + y * i_dst + x) (to_pel bits (clip3 0 (2 ^ depth - 1) (Z.shiftr t2 5))), t2 + iB)) (dst, t)),
          t + iC)) (dst, iTmp)).

(** intra.cc:464-521; [itr_t] is 16 bits wide when [pel_t] is 8 bits wide, else 32
    (defines.h).  [pTop] is the array that the rows accumulate into; the other arrays do not
    change after they have been filled. *)
Definition itr (v : Z) : Z := if bits =? 8 then to_i16 v else to_i32 v.
Definition bi_a : Z := itr (src (s + 1 + (bsx - 1))).
Definition bi_b : Z := itr (src (s - 1 - (bsy - 1))).
Definition bi_c : Z :=
  let sx := tab_log2size bsx in
  let sy := tab_log2size bsy in
  let sh := Z.min sx sy in
  if bsx =? bsy then Z.shiftr (bi_a + bi_b + 1) 1
  else Z.shiftr ((Z.shiftl bi_a sx + Z.shiftl bi_b sy) * 13 + Z.shiftl 1 (sh + 5)) (sh + 6).
Definition pred_bilinear (dst : mem) : mem :=
  let sx := tab_log2size bsx in
  let sy := tab_log2size bsy in
  let offset := Z.shiftl 1 (sx + sy) in
  let a := bi_a in
  let b := bi_b in
  let w := Z.shiftl bi_c 1 - a - b in
  let pT x := itr (b - itr (src (s + 1 + x))) in
  let pTop := floop 0 bsx (fun x m => upd m x (itr (Z.shiftl (itr (src (s + 1 + x))) sy))) junk in
  let pL y := itr (a - itr (src (s - 1 - y))) in
  let pLeft y := itr (Z.shiftl (itr (src (s - 1 - y))) sx) in
  let wy y := itr (y * w) in
  snd (floop 0 bsy (fun y (st : mem * mem) =>
         let '(pTop, dst) := st in
         let '(pTop, dst, _, _) :=
           floop 0 bsx (fun x (st : mem * mem * Z * Z) =>
             let '(pTop, dst, predx, wxy) := st in
             let predx := predx + pL y in
             let wxy := wxy + wy y in
             let pTop := upd pTop x (itr (pTop x + pT x)) in
             let v := Z.shiftr (Z.shiftl predx sy + Z.shiftl (pTop x) sx + wxy + offset) (sx + sy + 1) in
             (pTop, upd dst (d + y * i_dst + x) (to_pel bits (clip3 0 (2 ^ depth - 1) v)), predx, wxy))
             (pTop, dst, pLeft y, - wy y) in
         (pTop, dst)) (pTop, dst)).

(** intra.cc:538-584 [intra_pred_ang_x_c] *)
Definition ang_x (dst : mem) : mem :=
  block_write (Z.to_nat bsx) (Z.to_nat bsy) d i_dst (fun i j _ =>
    let '(iX, c4) := context_pixel mode false (j + 1) in
    let c1 := 32 - c4 in
    let c2 := 64 - c4 in
    let c3 := 32 + c4 in
    let p := s + iX + i in
    to_pel bits (Z.shiftr (src p * c1 + src (p + 1) * c2 + src (p + 2) * c3 + src (p + 3) * c4 + 64) 7)) dst.
(** intra.cc:589-631 [intra_pred_ang_y_c] *)
Definition ang_y (dst : mem) : mem :=
  block_write (Z.to_nat bsx) (Z.to_nat bsy) d i_dst (fun i j _ =>
    let '(step, off) := context_pixel mode true (i + 1) in
    let p := s - (j + step) in
    to_pel bits (Z.shiftr (src p * (32 - off) + src (p - 1) * (64 - off) + src (p - 2) * (32 + off) + src (p - 3) * off + 64) 7)) dst.
(** intra.cc:636-675 [intra_pred_ang_xy_c] *)
Definition ang_xy (dst : mem) : mem :=
  block_write (Z.to_nat bsx) (Z.to_nat bsy) d i_dst (fun i j _ =>
    let '(step, offy) := context_pixel mode true (i + 1) in
    let '(nX, offx) := context_pixel mode false (j + 1) in
    let iXx := - nX + i in
    let iYy := j - step in
    if iYy <=? -1 then
      let p := s + iXx in
      to_pel bits (Z.shiftr (src (p + 2) * (32 - offx) + src (p + 1) * (64 - offx) + src p * (32 + offx) + src (p - 1) * offx + 64) 7)
    else
      let p := s - iYy in
      to_pel bits (Z.shiftr (src (p - 2) * (32 - offy) + src (p - 1) * (64 - offy) + src p * (32 + offy) + src (p + 1) * offy + 64) 7)) dst.

(** Stores straight into the picture: down a column pointer each ([dst1[i]], [dst2[i]], ...),
    reading rightwards; or along a row ([dst[0]], [dst[1]], ...), reading leftwards. *)
Definition direct_rows (es : list tapf) (w : Z) (dst : mem) : mem :=
  line_fill bits es (fun k i => d + k * i_dst + i) src (fun i => s + i) 0 w dst.
Definition direct_cols (es : list tapf) (dst : mem) : mem :=
  line_fill bits es (fun k i => d + i * i_dst + k) src (fun i => s - i) 0 bsy dst.

(** intra.cc:679-760 *)
Definition lines_x3 : mem :=
  line_fill bits e_x3 (fun k i => k * 240 + i) src (fun i => s + i) 0 (bsx + Z.shiftr bsy 2 * 11 - 1) junk.
Definition ang_x_3 (dst : mem) : mem :=
  rows_copy (Z.shiftr bsy 2) 4 bsx d i_dst lines_x3 (fun k t => k * 240 + t * 11) dst.
(** intra.cc:764-794 *)
Definition lines_x4 : mem :=
  line_fill bits e_x4 (fun _ i => i) src (fun i => s + 3 + i) 0 (bsx + Z.shiftl (bsy - 1) 1) junk.
Definition ang_x_4 (dst : mem) : mem := rows_copy bsy 1 bsx d i_dst lines_x4 (fun _ t => 2 * t) dst.
(** intra.cc:798-1147 *)
Definition lines_x5 : mem :=
  let line_size := bsx + Z.shiftr ((bsy - 8) * 11) 3 in
  line_fill bits e_x5 (fun k i => k * aligned line_size + i) src (fun i => s + i) 0 line_size junk.
Definition pad_rows (v w a b : Z) (dst : mem) : mem :=
  floop a b (fun j => floop 0 w (fun i m => upd m (d + j * i_dst + i) v)) dst.
Definition put (a v : Z) (m : mem) : mem := upd m a (to_pel bits v).
Definition ang_x_5 (dst : mem) : mem :=
  if (4 <? bsy) && (8 <? bsx) then
    let line_size := bsx + Z.shiftr ((bsy - 8) * 11) 3 in
    rows_copy (Z.shiftr bsy 3) 8 bsx d i_dst lines_x5 (fun k t => k * aligned line_size + t * 11) dst
  else if bsx =? 16 then direct_rows e_x5a bsx dst
  else if bsx =? 8 then
    let dst := direct_rows e_x5 8 dst in
    if bsy =? 32 then
      let dst := pad_rows (src (s + 8 + 8)) 8 8 32 dst in
      let d1 := d + 8 * i_dst in
      let d2 := d + 9 * i_dst in
      let d3 := d + 10 * i_dst in
      let r q := src (s + 8 + 4 + q) in
      let dst := put (d1 + 0) (Z.shiftr (5 * r 0 + 13 * r 1 + 11 * r 2 + 3 * r 3 + 16) 5) dst in
      let dst := put (d1 + 1) (Z.shiftr (5 * r 1 + 13 * r 2 + 11 * r 3 + 3 * r 4 + 16) 5) dst in
      let dst := put (d1 + 2) (Z.shiftr (5 * r 2 + 13 * r 3 + 11 * r 4 + 3 * r 5 + 16) 5) dst in
      let dst := put (d1 + 3) (Z.shiftr (5 * r 3 + 13 * r 4 + 11 * r 5 + 3 * r 6 + 16) 5) dst in
      let dst := put (d2 + 0) (Z.shiftr (r 1 + 5 * r 2 + 7 * r 3 + 3 * r 4 + 8) 4) dst in
      let dst := put (d2 + 1) (Z.shiftr (r 2 + 5 * r 3 + 7 * r 4 + 3 * r 5 + 8) 4) dst in
      let dst := put (d2 + 2) (Z.shiftr (r 3 + 5 * r 4 + 7 * r 5 + 3 * r 6 + 8) 4) dst in
      put (d3 + 0) (Z.shiftr (7 * r 3 + 15 * r 4 + 9 * r 5 + r 6 + 16) 5) dst
    else dst
  else
    let dst := direct_rows e_x5a 4 dst in
    if bsy =? 16 then
      let dst := pad_rows (src (s + 4 + 4 + 0)) 4 4 16 dst in
      let d5 := d + 4 * i_dst in
      let r q := src (s + 4 + 4 + q) in
      let dst := put (d5 + 0) (Z.shiftr (r (-2) + 9 * r (-1) + 15 * r 0 + 7 * r 1 + 16) 5) dst in
      put (d5 + 1) (Z.shiftr (r (-1) + 9 * r 0 + 15 * r 1 + 7 * r 2 + 16) 5) dst
    else dst.
(** intra.cc:1151-1183 *)
Definition lines_x6 : mem :=
  line_fill bits e_x6 (fun _ i => i) src (fun i => s + i) 0 (bsx + bsy - 1) junk.
Definition ang_x_6 (dst : mem) : mem := rows_copy bsy 1 bsx d i_dst lines_x6 (fun _ t => t) dst.
(** intra.cc:1187-1219 *)
Definition ang_x_7 (dst : mem) : mem :=
  if bsy =? 4 then direct_rows e_x7a bsx dst
  else if bsy =? 8 then direct_rows e_x7 bsx dst
  else ang_x dst.
(** intra.cc:1223-1269 *)
Definition lines_x8 : mem :=
  let line_size := bsx + Z.shiftr bsy 1 - 1 in
  line_fill bits e_x8 (fun k i => k * aligned line_size + i) src (fun i => s + i) 0 line_size junk.
Definition ang_x_8 (dst : mem) : mem :=
  let line_size := bsx + Z.shiftr bsy 1 - 1 in
  rows_copy (Z.shiftr bsy 1) 2 bsx d i_dst lines_x8 (fun k t => k * aligned line_size + t) dst.
(** intra.cc:1273-1416; the commented-out code is left out. *)
Definition ang_x_9 (dst : mem) : mem :=
  if 8 <? bsy then ang_x dst
  else if bsy =? 8 then direct_rows e_x9 bsx dst
  else direct_rows e_x9a bsx dst.
(** intra.cc:1420-1466 *)
Definition lines_x10 : mem :=
  let line_size := bsx + bsy / 4 - 1 in
  line_fill bits e_x10 (fun k i => k * aligned line_size + i) src (fun i => s + i) 0 line_size junk.
Definition ang_x_10 (dst : mem) : mem :=
  if negb (bsy =? 4) then
    let line_size := bsx + bsy / 4 - 1 in
    rows_copy (Z.shiftr bsy 2) 4 bsx d i_dst lines_x10 (fun k t => k * aligned line_size + t) dst
  else direct_rows e_x10 bsx dst.
(** intra.cc:1470-1544 *)
Definition lines_x11 : mem :=
  let line_size := bsx + Z.shiftr bsy 3 - 1 in
  line_fill bits e_x11 (fun k i => k * aligned line_size + i) src (fun i => s + i) 0 line_size junk.
Definition ang_x_11 (dst : mem) : mem :=
  if 8 <? bsy then
    let line_size := bsx + Z.shiftr bsy 3 - 1 in
    rows_copy (Z.shiftr bsy 3) 8 bsx d i_dst lines_x11 (fun k t => k * aligned line_size + t) dst
  else if bsy =? 8 then direct_rows e_x11 bsx dst
  else direct_rows e_x11a bsx dst.

(** [for (i = 0; i < n; i += step)] as a loop over [i / step]. *)
Definition rounds (n step : Z) : Z := (n + step - 1) / step.
(** intra.cc:1549-1594 *)
Definition lines_y25 : mem :=
  line_fill bits e_y25 (fun k t => k + 8 * t) src (fun t => s - t) 0 (rounds (bsx + Z.shiftl (bsy - 1) 3) 8) junk.
Definition ang_y_25 (dst : mem) : mem :=
  if 8 <? bsx then rows_copy bsy 1 bsx d i_dst lines_y25 (fun _ t => 8 * t) dst
  else if bsx =? 8 then direct_cols e_y25 dst
  else direct_cols e_y25a dst.
(** intra.cc:1598-1627 *)
Definition lines_y26 : mem :=
  line_fill bits e_y26 (fun k t => k + 4 * t) src (fun t => s - t) 0 (rounds (bsx + Z.shiftl (bsy - 1) 2) 4) junk.
Definition ang_y_26 (dst : mem) : mem :=
  if negb (bsx =? 4) then rows_copy bsy 1 bsx d i_dst lines_y26 (fun _ t => 4 * t) dst
  else direct_cols e_y26 dst.
(** intra.cc:1631-1658 *)
Definition ang_y_27 (dst : mem) : mem :=
  if 8 <? bsx then ang_y dst
  else if bsx =? 8 then direct_cols e_y27 dst
  else direct_cols e_y27a dst.
(** intra.cc:1662-1702 *)
Definition lines_y28 : mem :=
  line_fill bits e_y28 (fun k t => k + 2 * t) src (fun t => s - t) 0 (rounds (bsx + Z.shiftl (bsy - 1) 1) 2) junk.
Definition ang_y_28 (dst : mem) : mem := rows_copy bsy 1 bsx d i_dst lines_y28 (fun _ t => 2 * t) dst.
(** intra.cc:1706-1733 *)
Definition ang_y_29 (dst : mem) : mem :=
  if 8 <? bsx then ang_y dst
  else if bsx =? 8 then direct_cols e_y29 dst
  else direct_cols e_y29a dst.
(** intra.cc:1737-1770 *)
Definition lines_y30 : mem :=
  line_fill bits e_y30 (fun _ i => i) src (fun i => s - 2 - i) 0 (bsx + bsy - 1) junk.
Definition ang_y_30 (dst : mem) : mem := rows_copy bsy 1 bsx d i_dst lines_y30 (fun _ t => t) dst.
(** intra.cc:1821-1864 *)
Definition lines_y32 : mem :=
  let line_size := Z.shiftr bsy 1 + bsx - 1 in
  line_fill bits e_y32 (fun k i => k * aligned line_size + i) src (fun i => s - 3 - 2 * i) 0 line_size junk.
Definition ang_y_32 (dst : mem) : mem :=
  let line_size := Z.shiftr bsy 1 + bsx - 1 in
  rows_copy (Z.shiftr bsy 1) 2 bsx d i_dst lines_y32 (fun k t => k * aligned line_size + t) dst.

(** intra.cc:1868-1964 *)
Definition lines_xy13 : mem :=
  let line_size := bsx + Z.shiftr bsy 3 - 1 in
  let left_size := line_size - bsx in
  let m := line_fill bits e_xy13l (fun k i => k * aligned line_size + i) src (fun i => s - (bsy - 8) + 8 * i) 0 left_size junk in
  line_fill bits e_xy13 (fun k i => k * aligned line_size + i) src (fun i => s - (bsy - 8) + 8 * left_size + (i - left_size)) left_size line_size m.
Definition ang_xy_13 (dst : mem) : mem :=
  if 8 <? bsy then
    let line_size := bsx + Z.shiftr bsy 3 - 1 in
    let left_size := line_size - bsx in
    rows_copy (Z.shiftr bsy 3) 8 bsx d i_dst lines_xy13 (fun k t => k * aligned line_size + left_size - t) dst
  else if bsy =? 8 then direct_rows e_xy13 bsx dst
  else direct_rows e_xy13a bsx dst.
(** intra.cc:1965-2025 *)
Definition lines_xy14 : mem :=
  let line_size := bsx + Z.shiftr bsy 2 - 1 in
  let left_size := line_size - bsx in
  let m := line_fill bits e_xy14l (fun k i => k * aligned line_size + i) src (fun i => s - (bsy - 4) + 4 * i) 0 left_size junk in
  line_fill bits e_xy14 (fun k i => k * aligned line_size + i) src (fun i => s - (bsy - 4) + 4 * left_size + (i - left_size)) left_size line_size m.
Definition ang_xy_14 (dst : mem) : mem :=
  if negb (bsy =? 4) then
    let line_size := bsx + Z.shiftr bsy 2 - 1 in
    let left_size := line_size - bsx in
    rows_copy (Z.shiftr bsy 2) 4 bsx d i_dst lines_xy14 (fun k t => k * aligned line_size + left_size - t) dst
  else direct_rows e_xy14 bsx dst.
(** intra.cc:2029-2062 *)
Definition lines_xy16 : mem :=
  let line_size := bsx + Z.shiftr bsy 1 - 1 in
  let left_size := line_size - bsx in
  let m := line_fill bits e_xy16l (fun k i => k * aligned line_size + i) src (fun i => s - (bsy - 2) + 2 * i) 0 left_size junk in
  line_fill bits e_xy16 (fun k i => k * aligned line_size + i) src (fun i => s - (bsy - 2) + 2 * left_size + (i - left_size)) left_size line_size m.
Definition ang_xy_16 (dst : mem) : mem :=
  let line_size := bsx + Z.shiftr bsy 1 - 1 in
  let left_size := line_size - bsx in
  rows_copy (Z.shiftr bsy 1) 2 bsx d i_dst lines_xy16 (fun k t => k * aligned line_size + left_size - t) dst.
(** intra.cc:2066-2083 *)
Definition lines_xy18 : mem :=
  line_fill bits e_mid (fun _ i => i) src (fun i => s - (bsy - 1) + i) 0 (bsx + bsy - 1) junk.
Definition ang_xy_18 (dst : mem) : mem := rows_copy bsy 1 bsx d i_dst lines_xy18 (fun _ t => bsy - 1 - t) dst.
(** intra.cc:2087-2112.  The second loop starts one entry before the first stopped
    ([i--]), with [src] where the first left it. *)
Definition lines_xy20 : mem :=
  let left_size := Z.shiftl (bsy - 1) 1 + 1 in
  let line_size := left_size + (bsx - 1) in
  let n := rounds left_size 2 in
  let m := line_fill bits e_xy20l (fun k t => k + 2 * t) src (fun t => s - bsy + t) 0 n junk in
  line_fill bits e_mid (fun _ i => i) src (fun i => s - bsy + n + (i - (2 * n - 1))) (2 * n - 1) line_size m.
Definition ang_xy_20 (dst : mem) : mem :=
  let left_size := Z.shiftl (bsy - 1) 1 + 1 in
  rows_copy bsy 1 bsx d i_dst lines_xy20 (fun _ t => left_size - 1 - 2 * t) dst.
(** intra.cc:2116-2155 *)
Definition lines_xy22 : mem :=
  let left_size := Z.shiftl (bsy - 1) 2 + 3 in
  let line_size := left_size + (bsx - 3) in
  let n := rounds left_size 4 in
  let m := line_fill bits e_xy22l (fun k t => k + 4 * t) src (fun t => s - bsy + t) 0 n junk in
  line_fill bits e_mid (fun _ i => i) src (fun i => s - bsy + n + (i - (4 * n - 1))) (4 * n - 1) line_size m.
Definition ang_xy_22 (dst : mem) : mem :=
  if negb (bsx =? 4) then
    let left_size := Z.shiftl (bsy - 1) 2 + 3 in
    rows_copy bsy 1 bsx d i_dst lines_xy22 (fun _ t => left_size - 3 - 4 * t) dst
  else direct_cols e_xy22s dst.
(** intra.cc:2159-2216 *)
Definition lines_xy23 : mem :=
  let left_size := Z.shiftl bsy 3 - 1 in
  let line_size := left_size + (bsx - 7) in
  let n := rounds left_size 8 in
  let m := line_fill bits e_xy23l (fun k t => k + 8 * t) src (fun t => s - bsy + t) 0 n junk in
  line_fill bits e_xy23t (fun _ i => i) src (fun i => s - bsy + n + (i - (8 * n - 1))) (8 * n - 1) line_size m.
Definition ang_xy_23 (dst : mem) : mem :=
  if 8 <? bsx then
    let left_size := Z.shiftl bsy 3 - 1 in
    rows_copy bsy 1 bsx d i_dst lines_xy23 (fun _ t => left_size - 7 - 8 * t) dst
  else if bsx =? 8 then direct_cols e_xy23 dst
  else direct_cols e_xy23a dst.
End Predictors.

(** intra.cc:1774-1817: for blocks at least as wide as high the transposed block is predicted
    with mode 5 into a local array.  Both local arrays start with [junk]. *)
Definition src_tran (junk src : mem) (s bsx bsy : Z) : mem :=
  floop 0 (bsy + bsx * 11 / 8 + 3) (fun i m => upd m i (src (s - i))) junk.
Definition ang_y_31 (bits : Z) (junk src : mem) (s d i_dst bsx bsy : Z) (dst : mem) : mem :=
  if bsy <=? bsx then
    let tran := ang_x_5 bits junk (src_tran junk src s bsx bsy) 0 0 bsy bsy bsx junk in
    floop 0 bsy (fun i => floop 0 bsx (fun j m => upd m (d + (j + i_dst * i)) (tran (i + bsy * j)))) dst
  else if bsx =? 8 then direct_cols bits src s d i_dst bsy e_y31 dst
  else direct_cols bits src s d i_dst bsy e_y31a dst.

(** intra.cc:2577-2632 [davs2_intra_pred_init]: the table of predictors; modes 15, 17, 19 and
    21 keep the general one. *)
Definition angular (mode bits : Z) (junk src : mem) (s d i_dst bsx bsy : Z) (dst : mem) : mem :=
  match mode with
  | 3 => ang_x_3 bits junk src s d i_dst bsx bsy dst
  | 4 => ang_x_4 bits junk src s d i_dst bsx bsy dst
  | 5 => ang_x_5 bits junk src s d i_dst bsx bsy dst
  | 6 => ang_x_6 bits junk src s d i_dst bsx bsy dst
  | 7 => ang_x_7 bits src s d i_dst mode bsx bsy dst
  | 8 => ang_x_8 bits junk src s d i_dst bsx bsy dst
  | 9 => ang_x_9 bits src s d i_dst mode bsx bsy dst
  | 10 => ang_x_10 bits junk src s d i_dst bsx bsy dst
  | 11 => ang_x_11 bits junk src s d i_dst bsx bsy dst
  | 13 => ang_xy_13 bits junk src s d i_dst bsx bsy dst
  | 14 => ang_xy_14 bits junk src s d i_dst bsx bsy dst
  | 16 => ang_xy_16 bits junk src s d i_dst bsx bsy dst
  | 18 => ang_xy_18 bits junk src s d i_dst bsx bsy dst
  | 20 => ang_xy_20 bits junk src s d i_dst bsx bsy dst
  | 22 => ang_xy_22 bits junk src s d i_dst bsx bsy dst
  | 23 => ang_xy_23 bits junk src s d i_dst bsx bsy dst
  | 25 => ang_y_25 bits junk src s d i_dst bsx bsy dst
  | 26 => ang_y_26 bits junk src s d i_dst bsx bsy dst
  | 27 => ang_y_27 bits src s d i_dst mode bsx bsy dst
  | 28 => ang_y_28 bits junk src s d i_dst bsx bsy dst
  | 29 => ang_y_29 bits src s d i_dst mode bsx bsy dst
  | 30 => ang_y_30 bits junk src s d i_dst bsx bsy dst
  | 31 => ang_y_31 bits junk src s d i_dst bsx bsy dst
  | 32 => ang_y_32 bits junk src s d i_dst bsx bsy dst
  | _ =>
      if (3 <=? mode) && (mode <? 12) then ang_x bits src s d i_dst mode bsx bsy dst
      else if (13 <=? mode) && (mode <? 24) then ang_xy bits src s d i_dst mode bsx bsy dst
      else if (25 <=? mode) && (mode <? 33) then ang_y bits src s d i_dst mode bsx bsy dst
      else dst
  end.
(** intra.h:41-53 [intra_pred] through the table. *)
Definition intra_pred (bits depth : Z) (junk src : mem) (s d i_dst mode bsx bsy : Z) (top left : bool) (dst : mem) : mem :=
  if mode =? 0 then
    let mode_ex := Z.shiftl (if top then 1 else 0) 8 + (if left then 1 else 0) in
    pred_dc bits depth src s d i_dst mode_ex bsx bsy dst
  else if mode =? 1 then pred_plane bits depth src s d i_dst bsx bsy dst
  else if mode =? 2 then pred_bilinear bits depth junk src s d i_dst bsx bsy dst
  else if mode =? 12 then pred_ver src s d i_dst bsx bsy dst
  else if mode =? 24 then pred_hor src s d i_dst bsx bsy dst
  else angular mode bits junk src s d i_dst bsx bsy dst.
