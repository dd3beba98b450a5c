(** Reference borders of intra blocks and the buffers they are taken from. Definitions only. *)
From Coq Require Import ZArith List Bool.
From Verif Require Import CBase MemModel SaoModel NbModel IprModel.
Import ListNotations.
Open Scope Z_scope.

(** intra.cc:308-313 [mem_repeat_p]; also the [memcpy]s, with [f i] the i-th source sample. *)
Definition repeat_p (m : mem) (a v n : Z) : mem := floop 0 n (fun i m => upd m (a + i) v) m.
Definition copy_p (m : mem) (a n : Z) (f : Z -> Z) : mem := floop 0 n (fun i m => upd m (a + i) (f i)) m.

(** intra.cc:2223-2502: the four fill functions have the same text but for the places they
    copy from.  [top k] is what goes to [EP[k]], [left k] what goes to [EP[-k]]; [c1], [c2], [c3]
    the three sources of the corner.  [m] holds [EP] with [EP[0]] at [ep]; [dc] is [g_dc_value]
    (header.cc:1062).  The left column is copied upwards (memcpy) or downwards (loop), which
    cannot be seen in the result. *)
Definition fill_ref (dc : Z) (top left : Z -> Z) (c1 c2 c3 : Z) (ep : Z) (a : nbs) (bsx bsy : Z) (m : mem) : mem :=
  let m := repeat_p m (ep - 2 * bsy) dc (2 * (bsy + bsx) + 1) in
  let m := if n_top a then copy_p m (ep + 1) bsx (fun i => top (1 + i)) else m in
  let m := if n_top_right a then copy_p m (ep + bsx + 1) bsx (fun i => top (bsx + 1 + i))
           else repeat_p m (ep + bsx + 1) (m (ep + bsx)) bsx in
  let pad := Z.quot (bsy * 11) 4 - bsx + 4 in
  let m := if 0 <? pad then repeat_p m (ep + 2 * bsx + 1) (m (ep + 2 * bsx)) pad else m in
  let m := if n_left a then copy_p m (ep - bsy) bsy (fun i => left (bsy - i)) else m in
  let m := if n_left_down a then copy_p m (ep - 2 * bsy) bsy (fun i => left (2 * bsy - i))
           else repeat_p m (ep - 2 * bsy) (m (ep - bsy)) bsy in
  let m := if n_top_left a then upd m ep c1 else if n_top a then upd m ep c2 else if n_left a then upd m ep c3 else m in
  let pad := Z.quot (bsx * 11) 4 - bsy + 4 in
  if 0 <? pad then repeat_p m (ep - 2 * bsy - pad) (m (ep - 2 * bsy)) pad else m.

(** intra.cc:2223-2288, 2289-2365, 2366-2430, 2433-2502.  [pic] and [ptl]: the picture and the
    index of the sample above and left of the block, [i_tl] its stride; [lcu] and [pl]: the cached
    border of the LCU and the index of [pLcuEP[0]]. *)
Definition fill_0 (dc : Z) (pic : mem) (ptl i_tl : Z) (lcu : mem) (pl ep : Z) (a : nbs) (bsx bsy : Z) (m : mem) : mem :=
  fill_ref dc (fun k => lcu (pl + k)) (fun k => lcu (pl - k)) (lcu pl) (lcu (pl + 1)) (lcu (pl - 1)) ep a bsx bsy m.
Definition fill_x (dc : Z) (pic : mem) (ptl i_tl : Z) (lcu : mem) (pl ep : Z) (a : nbs) (bsx bsy : Z) (m : mem) : mem :=
  fill_ref dc (fun k => lcu (pl + k)) (fun k => pic (ptl + i_tl + (k - 1) * i_tl)) (lcu pl) (lcu (pl + 1)) (pic (ptl + i_tl)) ep a bsx bsy m.
Definition fill_y (dc : Z) (pic : mem) (ptl i_tl : Z) (lcu : mem) (pl ep : Z) (a : nbs) (bsx bsy : Z) (m : mem) : mem :=
  fill_ref dc (fun k => pic (ptl + 1 + (k - 1))) (fun k => lcu (pl - k)) (lcu pl) (pic (ptl + 1)) (lcu (pl - 1)) ep a bsx bsy m.
Definition fill_xy (dc : Z) (pic : mem) (ptl i_tl : Z) (lcu : mem) (pl ep : Z) (a : nbs) (bsx bsy : Z) (m : mem) : mem :=
  fill_ref dc (fun k => pic (ptl + 1 + (k - 1))) (fun k => pic (ptl + i_tl + (k - 1) * i_tl)) (pic ptl) (pic (ptl + 1)) (pic (ptl + i_tl)) ep a bsx bsy m.
(** The table [fill_edge_f] (intra.cc:2585-2588) indexed by ((y != 0) << 1) + (x != 0). *)
Definition fill_edge (ctu_x ctu_y : Z) :=
  let xy := Z.shiftl (if ctu_y =? 0 then 0 else 1) 1 + (if ctu_x =? 0 then 0 else 1) in
  if xy =? 0 then fill_0 else if xy =? 1 then fill_x else if xy =? 2 then fill_y else fill_xy.

(** What the prediction of a block needs to know about the picture: [i_lcu_level], size in 4x4
    units, width in 8x8 units, slice numbers, and the place of the LCU in units. *)
Record ctx := Ctx { k_lv : Z; k_wu : Z; k_hu : Z; k_wscu : Z; k_sl : mem; k_ux : Z; k_uy : Z }.

(** intra.cc:2507-2531 [davs2_get_intra_pred].  [rt] is the index of [rec_top[0]] in [lcu],
    [fd], [st] place and stride of the LCU in the plane [pic], [buf] is [buf_edge_pixels]; the result
    is the buffer and the plane. *)
Definition get_intra_pred (bits depth : Z) (junk : mem) (c : ctx) (cur mode ctu_x ctu_y bsx bsy : Z) (lcu : mem) (rt : Z)
  (fd st : Z) (buf pic : mem) : outcome (nbs * mem * mem) :=
  let ep := Z.shiftl 64 2 - 1 in
  let bx := Z.shiftr ctu_x 2 + k_ux c in
  let by_ := Z.shiftr ctu_y 2 + k_uy c in
  let p := fd + ctu_y * st + ctu_x in
  bindo (intra_neighbors (k_lv c) (k_wu c) (k_hu c) (k_wscu c) (k_sl c) bx by_ bsx bsy cur) (fun a =>
  let ptl := p - st - 1 in
  let buf := fill_edge ctu_x ctu_y (2 ^ (depth - 1)) pic ptl st lcu (rt + ctu_x - ctu_y) ep a bsx bsy buf in
  Done (a, buf, intra_pred bits depth junk buf ep p st mode bsx bsy (n_top a) (n_left a) pic)).

(** intra.cc:2537-2572 [davs2_get_intra_pred_chroma]; [lcu1], [lcu2], [pic1], [pic2] for the two
    chroma components. *)
Definition chroma_modes : list Z := [0; 0; 24; 12; 2].
Definition real_mode (luma c_mode : Z) : outcome Z :=
  if c_mode =? 0 then Done luma else match get chroma_modes c_mode with Some v => Done v | None => Undef end.
Definition get_intra_pred_chroma (bits depth : Z) (junk : mem) (c : ctx) (cur level luma c_mode cx cy : Z) (lcu1 lcu2 : mem) (rt : Z)
  (fd1 fd2 st : Z) (buf pic1 pic2 : mem) : outcome (nbs * mem * (mem * mem)) :=
  let ep1 := Z.shiftl 64 1 - 1 in
  let ep2 := ep1 + Z.shiftl 64 2 in
  let n := Z.shiftl 1 (level - 1) in
  let bx := Z.shiftr (Z.shiftl cx 1) 2 + k_ux c in
  let by_ := Z.shiftr (Z.shiftl cy 1) 2 + k_uy c in
  bindo (real_mode luma c_mode) (fun mode =>
  let p1 := fd1 + cy * st + cx in
  let p2 := fd2 + cy * st + cx in
  bindo (intra_neighbors (k_lv c) (k_wu c) (k_hu c) (k_wscu c) (k_sl c) bx by_ (Z.shiftl n 1) (Z.shiftl n 1) cur) (fun a =>
  let buf := fill_edge cx cy (2 ^ (depth - 1)) pic1 (p1 - st - 1) st lcu1 (rt + cx - cy) ep1 a n n buf in
  let buf := fill_edge cx cy (2 ^ (depth - 1)) pic2 (p2 - st - 1) st lcu2 (rt + cx - cy) ep2 a n n buf in
  let pic1 := intra_pred bits depth junk buf ep1 p1 st mode n n (n_top a) (n_left a) pic1 in
  let pic2 := intra_pred bits depth junk buf ep2 p2 st mode n n (n_top a) (n_left a) pic2 in
  Done (a, buf, (pic1, pic2)))).

(** decoder.cc:124-137 [davs2_cache_lcu_border]: [dst] holds [rec_top] with [rec_top[0]] at index 0. *)
Definition cache_border (dst : mem) (border : mem) (p_top : Z) (plane : mem) (p_left i_left w h : Z) : mem :=
  let dst := copy_p dst 0 (2 * w + 1) (fun i => border (p_top + i)) in
  floop 1 (h + 1) (fun i (m : mem) => upd m (- i) (plane (p_left + (i - 1) * i_left))) dst.

(** One plane of an LCU in decoder.cc:440-470 (and 622-660, the same text): [recon] stands for
    [decode_lcu_recon] on this plane, reading the cached border, and [deblock] for
    [davs2_lcu_deblock].  The state: [intra_border], [rec_top], the plane.  [pw], [ph]: plane
    size, [n]: LCU size in the plane, [org], [st]: origin and stride, [rows]: [i_height_in_lcu].
    For chroma the sizes are those of the chroma plane ([i_ctu_w] samples are copied where
    luma copies twice as many: decoder.cc:442-443). *)
Record rstate := RS { r_border : mem; r_top : mem; r_plane : mem }.
Definition lcu_size (whole n p : Z) : Z := Z.min (whole - p) n.
Definition before_recon (pw n x : Z) (s : rstate) : rstate :=
  if x =? 0 then RS (r_border s) (copy_p (r_top s) 1 (lcu_size pw n (x * n) * 2) (fun i => r_border s i)) (r_plane s) else s.
Definition after_recon (pw ph n org st rows x y : Z) (plane : mem) (s : rstate) : rstate :=
  let w := lcu_size pw n (x * n) in
  let h := lcu_size ph n (y * n) in
  let p := org + y * n * st + x * n in
  let rt := cache_border (r_top s) (r_border s) (x * n + w - 1) plane (p + w - 1) st w h in
  let border := if y <? rows - 1 then copy_p (r_border s) (x * n) w (fun i => plane (p + (h - 1) * st + i)) else r_border s in
  RS border rt plane.
Definition lcu_step (pw ph n org st rows : Z) (recon : Z -> Z -> mem -> mem -> mem) (deblock : Z -> Z -> mem -> mem) (x y : Z) (s : rstate) : rstate :=
  let s := before_recon pw n x s in
  let plane := recon x y (r_top s) (r_plane s) in
  let s := after_recon pw ph n org st rows x y plane s in
  RS (r_border s) (r_top s) (deblock x y (r_plane s)).
(** The LCUs of the picture in raster order: the state before LCU number [k]. *)
Definition lcu_run (pw ph n org st cols rows : Z) recon deblock (k : nat) (s : rstate) : rstate :=
  loop k (fun i s => lcu_step pw ph n org st rows recon deblock (i mod cols) (i / cols) s) s.
