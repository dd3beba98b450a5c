(** Deblocking of a picture with the vector kernels: DbModel with the kernels of deblock.cc:567-570 (chosen when the
    processor has SSE4; the table set at 555-566 and those of 575-578 are not used then).  8-bit build.  Definitions only. *)
From Coq Require Import ZArith List Bool.
From Verif Require Import CBase MemModel UtilModel QpModel LfModel SaoModel DbModel VdModel.
Import ListNotations.
Open Scope Z_scope.

(** deblock.cc:413-481 [lf_scu_deblock] without HDR_CHROMA_DELTA_QP (defines.h:325). *)
Definition scu_deblock_sse (p : pict) (a : lay) (f : flags) (dir x y : Z) (s : planes) : outcome planes :=
  let xy := y * p_ws p + x in
  let Q := p_units p xy in
  let ec := (if dir =? 0 then f_ver f else f_hor f) xy in
  if ec =? 0 then Done s
  else
    let P := if dir =? 0 then p_units p (xy - 1) else p_units p (xy - p_ws p) in
    let f0 := need_filter p P Q dir (Z.shiftl x 1) (Z.shiftl y 1) in
    let f1 := need_filter p P Q dir (Z.shiftl x 1 + dir) (Z.shiftl y 1 + (1 - dir)) in
    if negb f0 && negb f1 then Done s
    else
      let qp := Z.shiftr (u_qp P + u_qp Q + 1) 1 in
      bindo (lf_threshold ALPHA_TABLE (p_depth p) qp (p_offa p)) (fun alpha =>
      bindo (lf_threshold BETA_TABLE (p_depth p) qp (p_offb p)) (fun beta =>
      let src := l_by a + Z.shiftl y 3 * l_st a + Z.shiftl x 3 in
      let s := Planes ((if dir =? 0 then edge_ver_sse else edge_hor_sse) (l_st a) alpha beta f0 f1 src (pl_y s)) (pl_u s) (pl_v s) in
      if (ec =? 2) && negb (p_c400 p) && ((Z.land y 1 =? 0) && negb (dir =? 0) || (Z.land x 1 =? 0) && (dir =? 0)) then
        let off := Z.shiftl y 2 * l_stc a + Z.shiftl x 2 in
        bindo (lf_threshold_c (p_hbd p) ALPHA_TABLE (p_depth p) qp (p_delta p) (p_offa p)) (fun alpha =>
        bindo (lf_threshold_c (p_hbd p) BETA_TABLE (p_depth p) qp (p_delta p) (p_offb p)) (fun beta =>
        let '(u, v) := (if dir =? 0 then edge_ver_c_sse else edge_hor_c_sse) (l_stc a) alpha beta f0 f1 (l_bu a + off) (l_bv a + off) (pl_u s) (pl_v s) in
        Done (Planes (pl_y s) u v)))
      else Done s)).

(** deblock.cc:492-549 [davs2_lcu_deblock]. *)
Definition lcu_deblock_sse (p : pict) (a : lay) (lx ly : Z) (t : flags * planes) : outcome (flags * planes) :=
  let num := Z.shiftl 1 (p_lv p - 3) in
  let x := Z.shiftl lx (p_lv p - 3) in
  let y := Z.shiftl ly (p_lv p - 3) in
  let nh := Z.min (p_ws p - x) num in
  let nv := Z.min (p_hs p - y) num in
  let f := set_edges (Z.to_nat (p_lv p - 3)) p (p_lv p) x y (fst t) in
  bindo (oloop (Z.to_nat nv) (fun j s => oloop (Z.to_nat nh) (fun i s => scu_deblock_sse p a f 0 (x + i) (y + j) s) s) (snd t)) (fun s =>
  let nh' := if x =? 0 then nh - 1 else if x + nh =? p_ws p then nh + 1 else nh in
  let x' := if x =? 0 then x else x - 1 in
  bindo (oloop (Z.to_nat nv) (fun j s => oloop (Z.to_nat nh') (fun i s => scu_deblock_sse p a f 1 (x' + i) (y + j) s) s) s) (fun s =>
  Done (f, s))).

(** decoder.cc:410-475, as [DbModel.picture]. *)
Definition lcu_step_sse (p : pict) (a : lay) (ry ru rv : Z -> Z -> Z) (lx ly : Z) (t : flags * planes) : outcome (flags * planes) :=
  let s := snd t in
  lcu_deblock_sse p a lx ly (fst t, Planes (store_lcu p (l_by a) (l_st a) 0 lx ly ry (pl_y s))
    (if p_c400 p then pl_u s else store_lcu p (l_bu a) (l_stc a) 1 lx ly ru (pl_u s))
    (if p_c400 p then pl_v s else store_lcu p (l_bv a) (l_stc a) 1 lx ly rv (pl_v s))).
Definition picture_sse (p : pict) (a : lay) (ry ru rv : Z -> Z -> Z) (wl hl : Z) (s : planes) : outcome (flags * planes) :=
  oloop (Z.to_nat hl) (fun ly t => oloop (Z.to_nat wl) (fun lx t => lcu_step_sse p a ry ru rv lx ly t) t) (Flags (fun _ => 0) (fun _ => 0), s).
