(** Availability of the neighbours of an intra block. Definitions only. *)
From Coq Require Import ZArith List Bool.
From Verif Require Import CBase MemModel.
Import ListNotations.
Open Scope Z_scope.

(** intra.cc:138-236: the tables, by kind and LCU size. *)
Definition tab_DL_64 : list Z := [
   1; 0; 1; 0; 1; 0; 1; 0; 1; 0; 1; 0; 1; 0; 1; 0;
   1; 0; 0; 0; 1; 0; 0; 0; 1; 0; 0; 0; 1; 0; 0; 0;
   1; 0; 1; 0; 1; 0; 1; 0; 1; 0; 1; 0; 1; 0; 1; 0;
   1; 0; 0; 0; 0; 0; 0; 0; 1; 0; 0; 0; 0; 0; 0; 0;
   1; 0; 1; 0; 1; 0; 1; 0; 1; 0; 1; 0; 1; 0; 1; 0;
   1; 0; 0; 0; 1; 0; 0; 0; 1; 0; 0; 0; 1; 0; 0; 0;
   1; 0; 1; 0; 1; 0; 1; 0; 1; 0; 1; 0; 1; 0; 1; 0;
   1; 0; 0; 0; 0; 0; 0; 0; 0; 0; 0; 0; 0; 0; 0; 0;
   1; 0; 1; 0; 1; 0; 1; 0; 1; 0; 1; 0; 1; 0; 1; 0;
   1; 0; 0; 0; 1; 0; 0; 0; 1; 0; 0; 0; 1; 0; 0; 0;
   1; 0; 1; 0; 1; 0; 1; 0; 1; 0; 1; 0; 1; 0; 1; 0;
   1; 0; 0; 0; 0; 0; 0; 0; 1; 0; 0; 0; 0; 0; 0; 0;
   1; 0; 1; 0; 1; 0; 1; 0; 1; 0; 1; 0; 1; 0; 1; 0;
   1; 0; 0; 0; 1; 0; 0; 0; 1; 0; 0; 0; 1; 0; 0; 0;
   1; 0; 1; 0; 1; 0; 1; 0; 1; 0; 1; 0; 1; 0; 1; 0;
   0; 0; 0; 0; 0; 0; 0; 0; 0; 0; 0; 0; 0; 0; 0; 0].
Definition tab_DL_32 : list Z := [
   1; 0; 1; 0; 1; 0; 1; 0;
   1; 0; 0; 0; 1; 0; 0; 0;
   1; 0; 1; 0; 1; 0; 1; 0;
   1; 0; 0; 0; 0; 0; 0; 0;
   1; 0; 1; 0; 1; 0; 1; 0;
   1; 0; 0; 0; 1; 0; 0; 0;
   1; 0; 1; 0; 1; 0; 1; 0;
   0; 0; 0; 0; 0; 0; 0; 0].
Definition tab_DL_16 : list Z := [
   1; 0; 1; 0;
   1; 0; 0; 0;
   1; 0; 1; 0;
   0; 0; 0; 0].
Definition tab_DL_8 : list Z := [
   1; 0;
   0; 0].
Definition tab_TR_64 : list Z := [
   1; 1; 1; 1; 1; 1; 1; 1; 1; 1; 1; 1; 1; 1; 1; 1;
   1; 0; 1; 0; 1; 0; 1; 0; 1; 0; 1; 0; 1; 0; 1; 0;
   1; 1; 1; 0; 1; 1; 1; 0; 1; 1; 1; 0; 1; 1; 1; 0;
   1; 0; 1; 0; 1; 0; 1; 0; 1; 0; 1; 0; 1; 0; 1; 0;
   1; 1; 1; 1; 1; 1; 1; 0; 1; 1; 1; 1; 1; 1; 1; 0;
   1; 0; 1; 0; 1; 0; 1; 0; 1; 0; 1; 0; 1; 0; 1; 0;
   1; 1; 1; 0; 1; 1; 1; 0; 1; 1; 1; 0; 1; 1; 1; 0;
   1; 0; 1; 0; 1; 0; 1; 0; 1; 0; 1; 0; 1; 0; 1; 0;
   1; 1; 1; 1; 1; 1; 1; 1; 1; 1; 1; 1; 1; 1; 1; 0;
   1; 0; 1; 0; 1; 0; 1; 0; 1; 0; 1; 0; 1; 0; 1; 0;
   1; 1; 1; 0; 1; 1; 1; 0; 1; 1; 1; 0; 1; 1; 1; 0;
   1; 0; 1; 0; 1; 0; 1; 0; 1; 0; 1; 0; 1; 0; 1; 0;
   1; 1; 1; 1; 1; 1; 1; 0; 1; 1; 1; 1; 1; 1; 1; 0;
   1; 0; 1; 0; 1; 0; 1; 0; 1; 0; 1; 0; 1; 0; 1; 0;
   1; 1; 1; 0; 1; 1; 1; 0; 1; 1; 1; 0; 1; 1; 1; 0;
   1; 0; 1; 0; 1; 0; 1; 0; 1; 0; 1; 0; 1; 0; 1; 0].
Definition tab_TR_32 : list Z := [
   1; 1; 1; 1; 1; 1; 1; 1;
   1; 0; 1; 0; 1; 0; 1; 0;
   1; 1; 1; 0; 1; 1; 1; 0;
   1; 0; 1; 0; 1; 0; 1; 0;
   1; 1; 1; 1; 1; 1; 1; 0;
   1; 0; 1; 0; 1; 0; 1; 0;
   1; 1; 1; 0; 1; 1; 1; 0;
   1; 0; 1; 0; 1; 0; 1; 0].
Definition tab_TR_16 : list Z := [
   1; 1; 1; 1;
   1; 0; 1; 0;
   1; 1; 1; 0;
   1; 0; 1; 0].
Definition tab_TR_8 : list Z := [
   1; 1;
   1; 0].
(** intra.cc:239-249 [tab_DL_Avails], [tab_TR_Avails], chosen by header.cc:1051-1052; the null
    pointers of the levels below 3 are empty lists. *)
Definition tab_DL (lv : Z) : list Z := nth (Z.to_nat lv) [[]; []; []; tab_DL_8; tab_DL_16; tab_DL_32; tab_DL_64] [].
Definition tab_TR (lv : Z) : list Z := nth (Z.to_nat lv) [[]; []; []; tab_TR_8; tab_TR_16; tab_TR_32; tab_TR_64] [].

(** The five bits of the result (common.h:353-360), bit MD_I_.. as a field. *)
Record nbs := Nbs { n_left : bool; n_top : bool; n_left_down : bool; n_top_right : bool; n_top_left : bool }.

(** intra.cc:263-273 [is_block_available]; [wu], [hu] are [i_width_in_spu], [i_height_in_spu],
    [wscu] is [i_width_in_scu], [sl] holds [i_slice_nr] of the 8x8 units. *)
Definition block_available (wu hu wscu : Z) (sl : mem) (x y dx dy cur : Z) : bool :=
  let x2 := x + dx in
  let y2 := y + dy in
  if (x2 <? 0) || (y2 <? 0) || (wu <=? x2) || (hu <=? y2) then false
  else cur =? sl (Z.shiftr y2 1 * wscu + Z.shiftr x2 1).

(** intra.cc:276-305 [get_intra_neighbors]; [x], [y] in 4x4 units, [bsx], [bsy] in samples,
    [lv] is [i_lcu_level]. A table access outside the table is [Undef]. *)
Definition intra_neighbors (lv wu hu wscu : Z) (sl : mem) (x y bsx bsy cur : Z) : outcome nbs :=
  let b_left := block_available wu hu wscu sl x y (-1) 0 cur in
  let b_top := block_available wu hu wscu sl x y 0 (-1) cur in
  let b_top_left := block_available wu hu wscu sl x y (-1) (-1) cur in
  let b_left_down := block_available wu hu wscu sl x y (-1) (Z.shiftr bsy 1 - 1) cur in
  let b_top_right := block_available wu hu wscu sl x y (Z.shiftr bsx 1 - 1) (-1) cur in
  let ls := lv - 2 in
  let mask := Z.shiftl 1 ls - 1 in
  let x := Z.land x mask in
  let y := Z.land y mask in
  match get (tab_DL lv) (Z.shiftl (y + Z.shiftr bsy 2 - 1) ls + x), get (tab_TR lv) (Z.shiftl y ls + (x + Z.shiftr bsx 2 - 1)) with
  | Some leftdown, Some upright =>
    Done {| n_left := b_left; n_top := b_top; n_left_down := b_left_down && negb (leftdown =? 0);
            n_top_right := b_top_right && negb (upright =? 0); n_top_left := b_top_left |}
  | _, _ => Undef
  end.
