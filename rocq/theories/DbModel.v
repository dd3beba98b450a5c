(** Deblocking of LCUs: edge flags, thresholds, order of the edges. Definitions only; the edge filter itself
    is in LfModel, the threshold tables in QpModel. *)
From Coq Require Import ZArith List Bool.
From Verif Require Import CBase MemModel UtilModel QpModel LfModel SaoModel.
Import ListNotations.
Open Scope Z_scope.

(** The fields of [cu_t] (common.h:1150-1190) used here, one per 8x8 unit: level, prediction type, transform
    split, pattern, QP, slice number. *)
Record unit8 := Unit8 { u_level : Z; u_type : Z; u_split : Z; u_cbp : Z; u_qp : Z; u_slice : Z }.
(** The fields of [davs2_t] used here.  [p_units]: [scu_data]; [p_ref], [p_mvx], [p_mvy]: first reference and
    vector of the 4x4 units; [p_inter]: P or F picture; [p_offa], [p_offb]: [i_alpha_offset], [i_beta_offset];
    [p_delta]: chroma QP delta; [p_c400]: no chroma. *)
Record pict := Pict { p_ws : Z; p_hs : Z; p_lv : Z; p_cross : bool; p_nsqt : bool; p_units : Z -> unit8;
  p_inter : bool; p_ref : Z -> Z; p_mvx : Z -> Z; p_mvy : Z -> Z;
  p_hbd : bool; p_depth : Z; p_offa : Z; p_offb : Z; p_delta : Z; p_c400 : bool }.
(** [p_deblock_flag], vertical and horizontal edges. *)
Record flags := Flags { f_ver : mem; f_hor : mem }.

(** deblock.cc:110-117 and 131-138: set [n] flags from index [i] on, [step] apart, up to the first one
    already set. *)
Fixpoint set_run (n : nat) (i step et : Z) (m : mem) : mem :=
  match n with
  | O => m
  | S k => if m i =? 0 then set_run k (i + step) step et (upd m i et) else m
  end.
(** deblock.cc:88-142 [lf_set_edge_filter_param]; [dir] 0: vertical. *)
Definition set_param (p : pict) (l x y dir et : Z) (f : flags) : flags :=
  let n := Z.to_nat (Z.shiftl 1 (l - 3)) in
  let xy := y * p_ws p + x in
  if dir =? 0 then
    if x =? 0 then f
    else if negb (p_cross p) && negb (u_slice (p_units p xy) =? u_slice (p_units p (xy - 1))) then f
    else Flags (set_run n (y * p_ws p + x) (p_ws p) et (f_ver f)) (f_hor f)
  else
    if y =? 0 then f
    else if negb (p_cross p) && negb (u_slice (p_units p xy) =? u_slice (p_units p (xy - p_ws p))) then f
    else Flags (f_ver f) (set_run n (y * p_ws p + x) 1 et (f_hor f)).
(** common.h:88-89, 237-238 [IS_HOR_PU_PART], [IS_VER_PU_PART]. *)
Definition hor_part (t : Z) : bool := negb (Z.land (Z.shiftl 1 t) 1076 =? 0).
Definition ver_part (t : Z) : bool := negb (Z.land (Z.shiftl 1 t) 2248 =? 0).
(** deblock.cc:167-263: the edges of one coding unit; prediction types as in common.h:217-229. *)
Definition cu_edges (p : pict) (l x y : Z) (u : unit8) (f : flags) : flags :=
  let ver dx et f := set_param p l (x + dx) y 0 et f in
  let hor dy et f := set_param p l x (y + dy) 1 et f in
  let f := ver 0 2 f in
  let f := hor 0 2 f in
  if 3 <? u_level u then
    let i := l - 4 in
    let half := Z.shiftl 1 i in
    let quarter := Z.shiftl 1 (i - 1) in
    let t := u_type u in
    let f :=
      if t =? 2 then hor half 2 f
      else if t =? 3 then ver half 2 f
      else if t =? 9 then hor half 2 (ver half 2 f)
      else if t =? 10 then (if 0 <? i then hor (quarter * 3) 1 (hor (quarter * 2) 1 (hor quarter 1 f)) else hor half 1 f)
      else if t =? 11 then (if 0 <? i then ver (quarter * 3) 1 (ver (quarter * 2) 1 (ver quarter 1 f)) else ver half 1 f)
      else if t =? 4 then (if 0 <? i then hor quarter 2 f else f)
      else if t =? 5 then (if 0 <? i then hor (quarter * 3) 2 f else f)
      else if t =? 6 then (if 0 <? i then ver quarter 2 f else f)
      else if t =? 7 then (if 0 <? i then ver (quarter * 3) 2 f else f)
      else f in
    if negb (t =? 9) && negb (u_split u =? 0) && negb (u_cbp u =? 0) then
      if p_nsqt p && hor_part t then
        (if u_level u =? 4 then hor half 1 f else hor (half + quarter) 1 (hor half 1 (hor quarter 1 f)))
      else if p_nsqt p && ver_part t then
        (if u_level u =? 4 then ver half 1 f else ver (half + quarter) 1 (ver half 1 (ver quarter 1 f)))
      else hor half 1 (ver half 1 f)
    else f
  else f.
(** deblock.cc:145-264 [lf_lcu_set_edge_filter]; [n] counts the levels left, the C code has no unit below
    level 3. *)
Fixpoint set_edges (n : nat) (p : pict) (l x y : Z) (f : flags) : flags :=
  let u := p_units p (y * p_ws p + x) in
  match n with
  | O => cu_edges p l x y u f
  | S k =>
    if u_level u <? l then
      let half := Z.shiftl 1 (l - 4) in
      let sub dx dy f := if (p_ws p <=? x + dx) || (p_hs p <=? y + dy) then f else set_edges k p (l - 1) (x + dx) (y + dy) f in
      sub half half (sub 0 half (sub half 0 (sub 0 0 f)))
    else cu_edges p l x y u f
  end.

(** deblock.cc:257-280 [lf_skip_filter] (which returns 1 when the edge is to be filtered); [bx], [by] in 4x4
    units, [i_width_in_spu] is [2 * p_ws]. *)
Definition need_filter (p : pict) (P Q : unit8) (dir bx by_ : Z) : bool :=
  if p_inter p then
    let pos1 := by_ * (2 * p_ws p) + bx in
    let pos2 := (by_ - dir) * (2 * p_ws p) + (bx - (1 - dir)) in
    negb ((u_cbp P =? 0) && (u_cbp Q =? 0) && (c_abs (p_mvx p pos1 - p_mvx p pos2) <? 4) && (c_abs (p_mvy p pos1 - p_mvy p pos2) <? 4)
          && (negb (p_ref p pos1 =? -1) && (p_ref p pos1 =? p_ref p pos2)))
  else true.
(** The planes of the frame; they do not overlap (C28), so each has a memory of its own. *)
Record planes := Planes { pl_y : mem; pl_u : mem; pl_v : mem }.
(** Plane layouts: bits of a sample, base and stride of luma, of both chroma planes. *)
Record lay := Lay { l_bits : Z; l_by : Z; l_bu : Z; l_bv : Z; l_st : Z; l_stc : Z }.
(** deblock.cc:413-481 [lf_scu_deblock] without HDR_CHROMA_DELTA_QP (defines.h:325). *)
Definition scu_deblock (p : pict) (a : lay) (f : flags) (dir x y : Z) (s : planes) : outcome planes :=
  let xy := y * p_ws p + x in
  let Q := p_units p xy in
  let ec := (if dir =? 0 then f_ver f else f_hor f) xy in
  if ec =? 0 then Done s
  else
    let P := if dir =? 0 then p_units p (xy - 1) else p_units p (xy - p_ws p) in
    let f0 := need_filter p P Q dir (Z.shiftl x 1) (Z.shiftl y 1) in
    let f1 := need_filter p P Q dir (Z.shiftl x 1 + dir) (Z.shiftl y 1 + (1 - dir)) in
    if negb f0 && negb f1 then Done s
    else
      let qp := Z.shiftr (u_qp P + u_qp Q + 1) 1 in
      let go (chroma : bool) (st : Z) := if dir =? 0 then edge_ver (l_bits a) chroma st else edge_hor (l_bits a) chroma st in
      bindo (lf_threshold ALPHA_TABLE (p_depth p) qp (p_offa p)) (fun alpha =>
      bindo (lf_threshold BETA_TABLE (p_depth p) qp (p_offb p)) (fun beta =>
      let s := Planes (go false (l_st a) alpha beta f0 f1 (l_by a + Z.shiftl y 3 * l_st a + Z.shiftl x 3) (pl_y s)) (pl_u s) (pl_v s) in
      if (ec =? 2) && negb (p_c400 p) && ((Z.land y 1 =? 0) && negb (dir =? 0) || (Z.land x 1 =? 0) && (dir =? 0)) then
        let off := Z.shiftl y 2 * l_stc a + Z.shiftl x 2 in
        bindo (lf_threshold_c (p_hbd p) ALPHA_TABLE (p_depth p) qp (p_delta p) (p_offa p)) (fun alpha =>
        bindo (lf_threshold_c (p_hbd p) BETA_TABLE (p_depth p) qp (p_delta p) (p_offb p)) (fun beta =>
        Done (Planes (pl_y s) (go true (l_stc a) alpha beta f0 f1 (l_bu a + off) (pl_u s)) (go true (l_stc a) alpha beta f0 f1 (l_bv a + off) (pl_v s)))))
      else Done s)).

(** [for (i = 0; i < n; i++)] with a body that may fail. *)
Fixpoint oloop {S : Type} (n : nat) (f : Z -> S -> outcome S) (s : S) : outcome S :=
  match n with O => Done s | Datatypes.S k => bindo (oloop k f s) (f (Z.of_nat k)) end.
(** deblock.cc:492-549 [davs2_lcu_deblock]. *)
Definition lcu_deblock (p : pict) (a : lay) (lx ly : Z) (t : flags * planes) : outcome (flags * planes) :=
  let num := Z.shiftl 1 (p_lv p - 3) in
  let x := Z.shiftl lx (p_lv p - 3) in
  let y := Z.shiftl ly (p_lv p - 3) in
  let nh := Z.min (p_ws p - x) num in
  let nv := Z.min (p_hs p - y) num in
  let f := set_edges (Z.to_nat (p_lv p - 3)) p (p_lv p) x y (fst t) in
  bindo (oloop (Z.to_nat nv) (fun j s => oloop (Z.to_nat nh) (fun i s => scu_deblock p a f 0 (x + i) (y + j) s) s) (snd t)) (fun s =>
  let nh' := if x =? 0 then nh - 1 else if x + nh =? p_ws p then nh + 1 else nh in
  let x' := if x =? 0 then x else x - 1 in
  bindo (oloop (Z.to_nat nv) (fun j s => oloop (Z.to_nat nh') (fun i s => scu_deblock p a f 1 (x' + i) (y + j) s) s) s) (fun s =>
  Done (f, s))).

(** decoder.cc:410-475 with respect to the planes: an LCU is reconstructed ([ry], [ru], [rv]: the values, which do
    not depend on deblocked samples, C70), then deblocked.  4:2:0 or luma only. *)
Definition store_lcu (p : pict) (base st sh : Z) (lx ly : Z) (r : Z -> Z -> Z) (m : mem) : mem :=
  let lv := p_lv p - sh in
  let x0 := Z.shiftl lx lv in
  let y0 := Z.shiftl ly lv in
  let w := Z.min (Z.shiftl 1 lv) (Z.shiftl (p_ws p) (3 - sh) - x0) in
  let h := Z.min (Z.shiftl 1 lv) (Z.shiftl (p_hs p) (3 - sh) - y0) in
  block_write (Z.to_nat w) (Z.to_nat h) (base + y0 * st + x0) st (fun i j _ => r (x0 + i) (y0 + j)) m.
Definition lcu_step (p : pict) (a : lay) (ry ru rv : Z -> Z -> Z) (lx ly : Z) (t : flags * planes) : outcome (flags * planes) :=
  let s := snd t in
  lcu_deblock p a lx ly (fst t, Planes (store_lcu p (l_by a) (l_st a) 0 lx ly ry (pl_y s))
    (if p_c400 p then pl_u s else store_lcu p (l_bu a) (l_stc a) 1 lx ly ru (pl_u s))
    (if p_c400 p then pl_v s else store_lcu p (l_bv a) (l_stc a) 1 lx ly rv (pl_v s))).
Definition row_step (p : pict) (a : lay) (ry ru rv : Z -> Z -> Z) (wl ly : Z) (t : flags * planes) : outcome (flags * planes) :=
  oloop (Z.to_nat wl) (fun lx t => lcu_step p a ry ru rv lx ly t) t.
(** decoder.cc:111: the flags are cleared first. *)
Definition picture (p : pict) (a : lay) (ry ru rv : Z -> Z -> Z) (wl hl : Z) (s : planes) : outcome (flags * planes) :=
  oloop (Z.to_nat hl) (fun ly t => row_step p a ry ru rv wl ly t) (Flags (fun _ => 0) (fun _ => 0), s).
