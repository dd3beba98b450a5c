(** Intra prediction modes: real chroma mode, prediction units of an intra coding unit and
    the grid of stored luma modes. Definitions only; the readers of the mode symbols are in
    SynModel. *)
From Coq Require Import ZArith List Bool.
From Verif Require Import MemModel SaoModel SynModel.
Import ListNotations.
Open Scope Z_scope.

(** intra.cc:2539-2541 and 2550 [davs2_get_intra_pred_chroma]: the mode used for chroma;
    DM_PRED_C is 0, DC_PRED 0, BI_PRED 2, VERT_PRED 12, HOR_PRED 24 (defines.h:135-178). *)
Definition chroma_to_real : list Z := [0; 0; 24; 12; 2].
Definition real_chroma (luma c : Z) : Z := if c =? 0 then luma else nth (Z.to_nat c) chroma_to_real 0.

(** cu.cc:366-380 [cu_read_intrapred_mode_luma]: size of a prediction unit in 4x4 units;
    [split] is [i_trans_size]: 0 NON, 1 HOR, 2 VER, 3 CROSS (the TU_SPLIT constants of common.h). *)
Definition unit_size (level split : Z) : Z * Z :=
  let n := Z.shiftl (Z.shiftl 1 (level - 3)) 1 in
  if split =? 1 then (n, Z.shiftr n 2)
  else if split =? 2 then (Z.shiftr n 2, n)
  else if split =? 3 then (Z.shiftr n 1, Z.shiftr n 1)
  else (n, n).
(** cu.cc:760-800 [cu_read_header]: the places [(x_4x4, y_4x4)] the modes are read for, in
    order; the intra types and [split] correspond one to one (aec.cc:1465-1513). The shift by
    a negative amount for level 3 ([size_16x16]) is computed by the C code but used only for
    the two long shapes. *)
Definition unit_places (level split x y : Z) : list (Z * Z) :=
  let s8 := Z.shiftl 1 (level - 3) in
  let s16 := Z.shiftl 1 (level - 4) in
  if split =? 1 then [(x, y); (x, y + 1 * s16); (x, y + 2 * s16); (x, y + 3 * s16)]
  else if split =? 2 then [(x, y); (x + 1 * s16, y); (x + 2 * s16, y); (x + 3 * s16, y)]
  else if split =? 3 then [(x, y); (x + s8, y + 0); (x + 0, y + s8); (x + s8, y + s8)]
  else [(x, y)].

(** cu.cc:382-388: the mode of the unit at [(x, y)] of [w] by [h] is stored in its last
    column and its last row; [st] is [i_ipredmode], the grid starts at [p_ipredmode]. *)
Definition store_mode (st x y w h md : Z) (g : mem) : mem :=
  floop 0 h (fun j g =>
    floop (if j =? h - 1 then 0 else w - 1) w (fun i g => upd g (y * st + x + j * st + i) md) g) g.
(** decoder.cc:367-368 [check_slice_header]: at the first LCU row of a slice the row of units
    above is set to DC; [lcu_y] in LCUs, [lv] is [i_lcu_level]. *)
Definition slice_modes (st lv lcu_y : Z) (g : mem) : mem :=
  let y := Z.shiftl lcu_y (lv - 2) in
  floop 0 st (fun i g => upd g ((y - 1) * st - 16 + i) 0) g.
(** decoder.cc:79 [init_frame]: the whole grid with its border row and column is set to DC;
    [hu] is [i_height_in_spu]. *)
Definition init_modes (st hu : Z) (g : mem) : mem :=
  floop 0 (st * (hu + 1)) (fun i g => upd g (- st - 16 + i) 0) g.
(** What happens to the grid while a picture is parsed. *)
Inductive mode_op := Slice (lcu_y : Z) | Unit (x y w h md : Z).
Definition mode_step (st lv : Z) (g : mem) (o : mode_op) : mem :=
  match o with
  | Slice r => slice_modes st lv r g
  | Unit x y w h md => store_mode st x y w h md g
  end.
Definition mode_grid (st lv hu : Z) (ops : list mode_op) (g : mem) : mem :=
  fold_left (mode_step st lv) ops (init_modes st hu g).
(** cu.cc:328-329: the neighbouring modes of the unit at [(x, y)]. *)
Definition mode_top (st x y : Z) (g : mem) : Z := g (y * st + x - st).
Definition mode_left (st x y : Z) (g : mem) : Z := g (y * st + x - 1).
