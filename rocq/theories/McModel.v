(** Model of sub-sample motion compensation: the interpolation kernels and their dispatch
    (mc.cc), the placement of a prediction block in the reference (cu.cc) and the rows a worker
    waits for. The reference plane and the destination are different memories: a picture is never
    its own reference. Definitions only. *)
From Coq Require Import ZArith List Bool.
From Verif Require Import CBase UtilModel MemModel.
Import ListNotations.
Open Scope Z_scope.

(** mc.cc:60-65 [INTPL_FILTERS]. *)
Definition intpl_filters : list (list Z) :=
  [[0; 0; 0; 64; 0; 0; 0; 0]; [-1; 4; -10; 57; 19; -7; 3; -1];
   [-1; 4; -11; 40; 40; -11; 4; -1]; [-1; 3; -7; 19; 57; -10; 4; -1]].
(** mc.cc:69-78 [INTPL_FILTERS_C]. *)
Definition intpl_filters_c : list (list Z) :=
  [[0; 64; 0; 0]; [-4; 62; 6; 0]; [-6; 56; 15; -1]; [-5; 47; 25; -3];
   [-4; 36; 36; -4]; [-3; 25; 47; -5]; [-1; 15; 56; -6]; [0; 6; 62; -4]].
Definition coef (c : list Z) (k : nat) : Z := nth k c 0.

(** mc.cc:89-109 [FLT_8TAP_HOR] ([step] = 1) and [FLT_8TAP_VER] ([step] = stride). *)
Definition flt_8tap (src : mem) (i step : Z) (c : list Z) : Z :=
  src (i - 3 * step) * coef c 0 + src (i - 2 * step) * coef c 1 + src (i - step) * coef c 2 + src i * coef c 3 +
  src (i + step) * coef c 4 + src (i + 2 * step) * coef c 5 + src (i + 3 * step) * coef c 6 + src (i + 4 * step) * coef c 7.
(** mc.cc:113-125 [FLT_4TAP_HOR] and [FLT_4TAP_VER]. *)
Definition flt_4tap (src : mem) (i step : Z) (c : list Z) : Z :=
  src (i - step) * coef c 0 + src i * coef c 1 + src (i + step) * coef c 2 + src (i + 2 * step) * coef c 3.

(** mc.cc:136-144 [mc_block_copy_c], and the [copy_pp] functions of the same effect. *)
Definition mc_block_copy (dst i_dst : Z) (src : mem) (p i_src : Z) (w h : nat) (m : mem) : mem :=
  block_write w h dst i_dst (fun x y _ => src (p + y * i_src + x)) m.
(** mc.cc:172-186 [intpl_chroma_block_hor_c]. *)
Definition intpl_chroma_block_hor (d dst i_dst : Z) (src : mem) (p i_src : Z) (w h : nat) (c : list Z) (m : mem) : mem :=
  block_write w h dst i_dst (fun x y _ => clip1 d (Z.shiftr (flt_4tap src (p + y * i_src + x) 1 c + 32) 6)) m.
(** mc.cc:190-204 [intpl_chroma_block_ver_c]. *)
Definition intpl_chroma_block_ver (d dst i_dst : Z) (src : mem) (p i_src : Z) (w h : nat) (c : list Z) (m : mem) : mem :=
  block_write w h dst i_dst (fun x y _ => clip1 d (Z.shiftr (flt_4tap src (p + y * i_src + x) i_src c + 32) 6)) m.
(** mc.cc:208-238 [intpl_chroma_block_ext_c]; the local array [tmp_res] starts with arbitrary
    contents [t0]. *)
Definition intpl_chroma_block_ext (d dst i_dst : Z) (src : mem) (p i_src : Z) (w h : nat) (ch cv : list Z) (t0 m : mem) : mem :=
  let shift1 := d - 8 in let add1 := Z.shiftr (Z.shiftl 1 shift1) 1 in
  let shift2 := 20 - d in let add2 := Z.shiftl 1 (shift2 - 1) in
  let tmp := block_write w (h + 3) 0 32
    (fun x y _ => Z.shiftr (flt_4tap src (p - i_src + y * i_src + x) 1 ch + add1) shift1) t0 in
  block_write w h dst i_dst (fun x y _ => clip1 d (Z.shiftr (flt_4tap tmp (32 + y * 32 + x) 32 cv + add2) shift2)) m.
(** mc.cc:242-256 [intpl_luma_block_hor_c]. *)
Definition intpl_luma_block_hor (d dst i_dst : Z) (src : mem) (p i_src : Z) (w h : nat) (c : list Z) (m : mem) : mem :=
  block_write w h dst i_dst (fun x y _ => clip1 d (Z.shiftr (flt_8tap src (p + y * i_src + x) 1 c + 32) 6)) m.
(** mc.cc:260-274 [intpl_luma_block_ver_c]. *)
Definition intpl_luma_block_ver (d dst i_dst : Z) (src : mem) (p i_src : Z) (w h : nat) (c : list Z) (m : mem) : mem :=
  block_write w h dst i_dst (fun x y _ => clip1 d (Z.shiftr (flt_8tap src (p + y * i_src + x) i_src c + 32) 6)) m.
(** mc.cc:278-314 [intpl_luma_block_ext_c]; the intermediate array holds [mct_t], 16 bits
    (common.h:73). *)
Definition intpl_luma_block_ext (d dst i_dst : Z) (src : mem) (p i_src : Z) (w h : nat) (ch cv : list Z) (t0 m : mem) : mem :=
  let shift1 := d - 8 in let add1 := Z.shiftr (Z.shiftl 1 shift1) 1 in
  let shift2 := 20 - d in let add2 := Z.shiftl 1 (shift2 - 1) in
  let tmp := block_write w (h + 7) 0 64
    (fun x y _ => to_i16 (Z.shiftr (flt_8tap src (p - 3 * i_src + y * i_src + x) 1 ch + add1) shift1)) t0 in
  block_write w h dst i_dst (fun x y _ => clip1 d (Z.shiftr (flt_8tap tmp (3 * 64 + y * 64 + x) 64 cv + add2) shift2)) m.

(** mc.cc:502-533 [mc_luma]. The per-size tables all hold the C kernels above when no assembly is
    selected. *)
Definition mc_luma (d dst i_dst posx posy : Z) (w h : nat) (src : mem) (p_fref i_fref : Z) (t0 m : mem) : mem :=
  let dx := Z.land posx 3 in let dy := Z.land posy 3 in
  let p := p_fref + Z.shiftr posy 2 * i_fref + Z.shiftr posx 2 in
  let f k := nth (Z.to_nat k) intpl_filters [] in
  if (dx =? 0) && (dy =? 0) then mc_block_copy dst i_dst src p i_fref w h m
  else if dx =? 0 then intpl_luma_block_ver d dst i_dst src p i_fref w h (f dy) m
  else if dy =? 0 then intpl_luma_block_hor d dst i_dst src p i_fref w h (f dx) m
  else intpl_luma_block_ext d dst i_dst src p i_fref w h (f dx) (f dy) t0 m.
(** mc.cc:537-562 [mc_chroma]; both copying branches have the same effect. *)
Definition mc_chroma (d dst i_dst posx posy : Z) (w h : nat) (src : mem) (p_fref i_fref : Z) (t0 m : mem) : mem :=
  let dx := Z.land posx 7 in let dy := Z.land posy 7 in
  let p := p_fref + Z.shiftr posy 3 * i_fref + Z.shiftr posx 3 in
  let f k := nth (Z.to_nat k) intpl_filters_c [] in
  if (dx =? 0) && (dy =? 0) then mc_block_copy dst i_dst src p i_fref w h m
  else if dx =? 0 then intpl_chroma_block_ver d dst i_dst src p i_fref w h (f dy) m
  else if dy =? 0 then intpl_chroma_block_hor d dst i_dst src p i_fref w h (f dx) m
  else intpl_chroma_block_ext d dst i_dst src p i_fref w h (f dx) (f dy) t0 m.

(** mc.cc:573-585 [davs2_pixel_average_c] as cu.cc calls it: the first source is the destination,
    the second a separate block. *)
Definition pixel_average (dst i_dst : Z) (src1 : mem) (p1 i_src1 : Z) (w h : nat) (m : mem) : mem :=
  block_write w h dst i_dst (fun x y m => Z.shiftr (m (dst + y * i_dst + x) + src1 (p1 + y * i_src1 + x) + 1) 1) m.

(** cu.cc:919-932 [cu_get_mc_pos]. *)
Definition cu_get_mc_pos (img blk pos mv : Z) : Z :=
  let imv := Z.shiftr mv 2 in let fmv := Z.land mv 7 in
  if pos + imv <? - blk - 8 then (- blk - 8) * 4 + fmv
  else if img + 4 <? pos + imv then (img + 4) * 4 + fmv
  else pos * 4 + mv.
(** cu.cc:937-942 [cu_get_mc_pos_mv]: the result is stored in a 16-bit vector component. *)
Definition cu_get_mc_pos_mv (img blk pos mv : Z) : Z := to_i16 (cu_get_mc_pos img blk pos mv).

(** cu.cc:947-1101 [davs2_get_inter_pred], the luma part for one reference (1014-1038): the position
    is computed, rows are waited for (modelled by [wait_row] below) and the block is interpolated.
    [pic] are the width and height of the picture, [bx], [by_], [w], [h] the block in it. *)
Definition pred_luma (d : Z) (pic : Z * Z) (dst i_dst bx by_ : Z) (w h : nat) (mv : Z * Z)
  (src : mem) (p_fref i_fref : Z) (t0 m : mem) : mem :=
  mc_luma d dst i_dst (cu_get_mc_pos_mv (fst pic) (Z.of_nat w) bx (fst mv))
    (cu_get_mc_pos_mv (snd pic) (Z.of_nat h) by_ (snd mv)) w h src p_fref i_fref t0 m.
(** cu.cc:1014-1020 and 1055-1073, the chroma part: same position, half the block. *)
Definition pred_chroma (d : Z) (pic : Z * Z) (dst i_dst bx by_ : Z) (w h : nat) (mv : Z * Z)
  (src : mem) (p_fref i_fref : Z) (t0 m : mem) : mem :=
  mc_chroma d dst i_dst (cu_get_mc_pos_mv (fst pic) (Z.of_nat w) bx (fst mv))
    (cu_get_mc_pos_mv (snd pic) (Z.of_nat h) by_ (snd mv)) (Nat.div2 w) (Nat.div2 h) src p_fref i_fref t0 m.
(** cu.cc:1040-1048: the second reference goes to a block of its own with lines of [LCU_STRIDE]
    samples (common.h:119), here memory [tb]; both are averaged. *)
Definition bipred_luma (d : Z) (pic : Z * Z) (dst i_dst bx by_ : Z) (w h : nat) (mv1 mv2 : Z * Z)
  (src1 : mem) (p1 : Z) (src2 : mem) (p2 i_fref : Z) (t0 tb m : mem) : mem :=
  let m1 := pred_luma d pic dst i_dst bx by_ w h mv1 src1 p1 i_fref t0 m in
  let tmp := pred_luma d pic 0 64 bx by_ w h mv2 src2 p2 i_fref t0 tb in
  pixel_average dst i_dst tmp 0 64 w h m1.
(** cu.cc:1074-1096, one chroma plane. *)
Definition bipred_chroma (d : Z) (pic : Z * Z) (dst i_dst bx by_ : Z) (w h : nat) (mv1 mv2 : Z * Z)
  (src1 : mem) (p1 : Z) (src2 : mem) (p2 i_fref : Z) (t0 tb m : mem) : mem :=
  let m1 := pred_chroma d pic dst i_dst bx by_ w h mv1 src1 p1 i_fref t0 m in
  let tmp := pred_chroma d pic 0 32 bx by_ w h mv2 src2 p2 i_fref t0 tb in
  pixel_average dst i_dst tmp 0 32 (Nat.div2 w) (Nat.div2 h) m1.

(** cu.cc:905-911 and 887-890: the LCU row [decoder_wait_row] waits for, as called at cu.cc:1036
    with the vertical position [vec_y] of a block of height [h]. *)
Definition wait_row (lcu_level height_in_lcu vec_y h : Z) : Z :=
  Z.min (Z.max (Z.shiftr (Z.shiftr vec_y 2 + h + 8 + 4 + 8) lcu_level) 0) (height_in_lcu - 1).
