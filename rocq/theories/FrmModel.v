(** Frame buffers: the memory layout of one frame, of the decoded-picture buffer and of the
    decoder's extra buffer; padding of reference planes; writing a picture for output.
    Addresses are integers (bytes). [size_t] arithmetic is unbounded here (64-bit hosts);
    [int] arithmetic is checked. *)
From Coq Require Import ZArith List Bool.
From Verif Require Import CBase MemModel QpModel UtilModel SaoModel AlfModel.
Import ListNotations.
Open Scope Z_scope.

(** Sizes the compiler chooses: [pel_t] (1 or 2), [davs2_frame_t], [davs2_thread_cond_t],
    [ref_idx_t], [lcu_info_t], [cu_t], a pointer. *)
Record plat := Plat { sz_pel : Z; sz_frame : Z; sz_cond : Z; sz_ref : Z; sz_lcu : Z; sz_cu : Z; sz_ptr : Z }.

(** osdep.h:181 [ALIGN_POINTER]: [31] is added before the cast, so it counts elements of
    the pointed-to type; [1] for [uint8_t *], [sz_pel] for [pel_t *]. *)
Definition align_ptr (elem p : Z) : Z := Z.land (p + elem * 31) (Z.lnot 31).

(** frame.cc:151-159 [align_stride] with align 32, disalign 2^16. *)
Definition align_stride (x : Z) : outcome Z :=
  bindo (int32 (x + 31)) (fun y =>
  let x := Z.land y (Z.lnot 31) in
  if Z.land x 65535 =? 0 then int32 (x + 32) else Done x).
(** frame.cc:164-171 [align_plane_size]. *)
Definition align_plane_size (x : Z) : outcome Z :=
  if Z.land x 65535 =? 0 then int32 (x + 128) else Done x.

(** frame.cc:175-199 and 219-245: strides and plane sizes in samples, number of 4x4 units
    (0 without the extra buffers), rows of 16x16 LCUs. *)
Record fgeo := Fgeo { g_wc : Z; g_hc : Z; g_sl : Z; g_sc : Z; g_nl : Z; g_nc : Z; g_tot : Z; g_spu : Z; g_rows : Z }.
Definition frame_geo (w h fmt : Z) (extra : bool) : outcome fgeo :=
  let wc := Z.shiftr w 1 in
  let hc := Z.shiftr h (if fmt =? 1 then 1 else 0) in
  bindo (int32 (h + 16)) (fun _ =>
  bindo (if extra then int32 (Z.shiftr w 2 * Z.shiftr h 2) else Done 0) (fun spu =>
  bindo (int32 (w + 160)) (fun a =>
  bindo (align_stride a) (fun sl =>
  bindo (int32 (wc + 80)) (fun b =>
  bindo (align_stride b) (fun sc =>
  bindo (int32 (sl * (h + 160))) (fun pl =>
  bindo (int32 (pl + 32)) (fun pl =>
  bindo (align_plane_size pl) (fun nl =>
  bindo (int32 (sc * (hc + 80))) (fun pc =>
  bindo (int32 (pc + 32)) (fun pc =>
  bindo (align_plane_size pc) (fun nc =>
  bindo (int32 (nc * 2)) (fun nc2 =>
  bindo (int32 (nl + nc2)) (fun tot =>
  Done (Fgeo wc hc sl sc nl nc tot spu (Z.shiftr (h + 16 - 1) 4)))))))))))))))).

(** frame.cc:201-210: the sum shared by both functions, without the slack. *)
Definition frame_bytes (P : plat) (g : fgeo) : Z :=
  sz_frame P + sz_pel P * g_tot g + g_spu g + 4 * g_spu g + sz_cond P * g_rows g + 4 * g_rows g.
(** frame.cc:175-213 [davs2_frame_get_size]. *)
Definition frame_get_size (P : plat) (w h fmt : Z) (extra : bool) : outcome Z :=
  bindo (frame_geo w h fmt extra) (fun g => Done (frame_bytes P g + 32 * 6)).

(** The pointers stored into a [davs2_frame_t]. *)
Record flay := Flay { l_hdr : Z; l_y : Z; l_u : Z; l_v : Z; l_refs : Z; l_mvs : Z; l_cond : Z; l_cnt : Z; l_end : Z; l_geo : fgeo }.
(** frame.cc:216-351 [davs2_frame_new] placing a frame at [base] ([mem_base] given).
    [Undef] stands for the failing [assert] of line 317 and for a size that is not an
    [int]. *)
Definition frame_new (P : plat) (base w h fmt : Z) (extra : bool) : outcome flay :=
  bindo (frame_geo w h fmt extra) (fun g =>
  let p := align_ptr 1 (base + sz_frame P) in
  let py := p in
  let pu := py + sz_pel P * g_nl g in
  let pv := pu + sz_pel P * g_nc g in
  let p := p + sz_pel P * g_tot g in
  let py := align_ptr (sz_pel P) (py + sz_pel P * (g_sl g * 80 + 80)) in
  let pu := align_ptr (sz_pel P) (pu + sz_pel P * (g_sc g * 40 + 40)) in
  let pv := align_ptr (sz_pel P) (pv + sz_pel P * (g_sc g * 40 + 40)) in
  let pr := p in
  let pm := align_ptr 1 (p + g_spu g) in
  let p := if extra then align_ptr 1 (pm + 4 * g_spu g) else p in
  let pc := p in
  let pn := align_ptr 1 (pc + sz_cond P * g_rows g) in
  let p := align_ptr 1 (pn + 4 * g_rows g) in
  bindo (int32 (frame_bytes P g + 32 * 8)) (fun mem_size =>
  if p - base <=? mem_size
  then Done (Flay base py pu pv (if extra then pr else 0) (if extra then pm else 0) pc pn p g)
  else Undef)).

(** header.cc:925-934: the frames of the decoded-picture buffer, one behind the other. *)
Fixpoint frames_new (P : plat) (k : nat) (p w h fmt : Z) (extra : bool) : outcome (list flay * Z) :=
  match k with
  | O => Done ([], p)
  | S k => bindo (frame_new P p w h fmt extra) (fun l =>
           bindo (frames_new P k (align_ptr 1 (l_end l)) w h fmt extra) (fun r =>
           Done (l :: fst r, snd r)))
  end.
(** header.cc:903-938 [create_dpb] with [n] frames in a block allocated at [base]: size of
    the block, and the frames. *)
Definition create_dpb (P : plat) (base : Z) (n : nat) (w h fmt : Z) : outcome (Z * list flay) :=
  let N := Z.of_nat n in
  bindo (frame_get_size P w h fmt true) (fun s1 =>
  bindo (frame_get_size P w h fmt false) (fun s0 =>
  let size := N * sz_ptr P + s1 * N + s0 + 32 * (N + 2) in
  bindo (frames_new P n (align_ptr 1 (base + N * sz_ptr P)) w h fmt true) (fun r =>
  Done (size, fst r)))).

(** The simple arrays of the extra buffer, decoder.cc:842-899, as (start, bytes). *)
Fixpoint carve (p : Z) (l : list Z) : list (Z * Z) * Z :=
  match l with
  | [] => ([], p)
  | n :: r => let '(a, q) := carve (align_ptr 1 (p + n)) r in ((p, n) :: a, q)
  end.
Definition mem_add (a b : Z) : Z := a + b.
(** decoder.cc:804-935 [decoder_alloc_extra_buffer]: block size, arrays, frames; [Fail] is
    the check at its end, which compares the size as an [int]. The two flag arrays
    (decoder.cc:869-872) lie in one piece of [2 * scu] bytes. *)
Definition alloc_extra (P : plat) (base alf_bytes w h fmt lv : Z) (alf sao : bool) : outcome (Z * list (Z * Z) * list flay) :=
  let ws := Z.shiftr w 2 in let hs := Z.shiftr h 2 in
  let spu := ws * hs in
  let scu := Z.shiftr w 3 * Z.shiftr h 3 in
  let lcu := Z.shiftr (w + (2 ^ lv - 1)) lv * Z.shiftr (h + (2 ^ lv - 1)) lv in
  let b2 := (if alf then 1 else 0) + (if sao then 1 else 0) in
  bindo (frame_get_size P w h fmt true) (fun s1 =>
  bindo (frame_get_size P w h fmt false) (fun s0 =>
  let arrays := [(ws + 16) * (hs + 1); spu; sz_ref P * spu; 4 * spu; 4 * spu; 2 * scu; sz_lcu P * lcu;
                 sz_cu P * scu; w * sz_pel P; w * sz_pel P; w * sz_pel P; alf_bytes] in
  let size := fold_right mem_add 0 arrays + (2 * s1 + b2 * s0) + 32 * 20 in
  let '(a, p) := carve base arrays in
  bindo (frames_new P 2 p w h fmt true) (fun r1 =>
  bindo (frames_new P (Z.to_nat b2) (snd r1) w h fmt false) (fun r2 =>
  if to_i32 size <? snd r2 - base then Fail
  else Done (size, a, fst r1 ++ fst r2))))).

(** frame.cc:93-141 [pad_line_lcu], one plane; [nl] LCU rows. [base] is the index of
    sample (0, 0). *)
Definition pad_rows (chroma : bool) (lv ly nl : Z) : Z * Z :=
  let sh := if chroma then 1 else 0 in
  let st := Z.shiftr (Z.shiftl (ly + 0) lv) sh in
  let en := Z.shiftr (Z.shiftl (ly + 1) lv) sh in
  (if 0 <? ly then st - 4 else st, if ly <? nl - 1 then en - 4 else en).
Definition copy_line (dst src n : Z) (m : mem) : mem :=
  floop 0 n (fun i m => upd m (dst + i) (m (src + i))) m.
Definition pad_line_lcu (chroma : bool) (base stride w lines lv nl ly : Z) (m : mem) : mem :=
  let n := Z.shiftr 80 (if chroma then 1 else 0) in
  let m := floop (fst (pad_rows chroma lv ly nl)) (snd (pad_rows chroma lv ly nl))
             (fun j m => pad_line (base + j * stride) w n m) m in
  let m := if ly =? 0
           then floop 0 n (fun j m => copy_line (base - n - j * stride - stride) (base - n - j * stride) stride m) m
           else m in
  if ly =? nl - 1
  then floop 0 n (fun j m => let pix := base + (lines - 1) * stride - n + j * stride in
                             copy_line (pix + stride) pix stride m) m
  else m.

(** decoder.cc:940-1065 [davs2_write_a_frame]. A plane pointer names a buffer: the
    picture's own memory or a decoded frame; the three planes of a buffer are separate
    memories of elements ([uint8_t] or [pel_t]). *)
Inductive buffer := Own | Frame (k : Z).
Record frm := Frm { f_id : Z; f_fmt : Z; f_out : Z; f_depth : Z; f_err : Z; f_type : Z; f_qp : Z; f_pts : Z; f_dts : Z; f_poc : Z;
                    f_stride : Z -> Z; f_org : Z -> Z }.
Record opic := Opic { o_planes : Z; o_bytes : Z; o_depth : Z; o_err : Z; o_dec : option Z; o_buf : buffer; o_stride : Z -> Z; o_org : Z -> Z;
                      o_type : Z; o_qp : Z; o_pts : Z; o_dts : Z; o_poc : Z; o_w : Z -> Z; o_h : Z -> Z }.
Definition store := buffer -> Z -> mem.

(** One of the three copies of a branch: [v] converts a sample. *)
Definition out_plane (st : store) (b : buffer) (pl : Z) (dst dstr : Z) (src : mem) (p pstr w h : Z) (v : Z -> Z) : store :=
  let m := floop 0 h (fun j m => floop 0 w (fun k m => upd m (dst + j * dstr + k) (v (src (p + j * pstr + k)))) m) (st b pl) in
  fun b' pl' => if (match b, b' with Own, Own => true | Frame k, Frame k' => k =? k' | _, _ => false end) && (pl' =? pl) then m else st b' pl'.
(** decoder.cc:1022: the rounded value, clipped to the range of the coded depth
    ([max_pel_value]), cast to [uint8_t]. *)
Definition to_out (depth shift1 v : Z) : Z := to_u8 (clip1 depth (Z.shiftr (v + Z.shiftl 1 (shift1 - 1)) shift1)).

(** [pelb] is [sizeof(pel_t)]. A source frame that is at the same time the destination
    buffer is read before the copy (the real loop reads it sample by sample). *)
Definition write_frame (pelb : Z) (p : opic) (f : frm) (st : store) : opic * store :=
  let nb := if f_out f =? 8 then 1 else 2 in
  let shift1 := f_depth f - f_out f in
  let np := if f_fmt f =? 0 then 1 else 3 in
  let w := o_w p 0 in let h := o_h p 0 in
  let wc := Z.quot w 2 in let hc := Z.quot h (if f_fmt f =? 1 then 2 else 1) in
  let copy v :=
    let dstr i := o_w p i * nb in
    let src i := st (Frame (f_id f)) i in
    let st := out_plane st (o_buf p) 0 (o_org p 0) (dstr 0) (src 0) (f_org f 0) (f_stride f 0) w h v in
    if np =? 3
    then let st := out_plane st (o_buf p) 1 (o_org p 1) (dstr 1) (src 1) (f_org f 1) (f_stride f 1) wc hc v in
         out_plane st (o_buf p) 2 (o_org p 2) (dstr 2) (src 2) (f_org f 2) (f_stride f 2) wc hc v
    else st in
  let direct := (shift1 =? 0) && (pelb =? nb) in
  let st' := if direct then st
             else if (shift1 =? 0) && (f_out f =? 8) then copy to_u8
             else if negb (shift1 =? 0) && (f_out f =? 8) then copy (to_out (f_depth f) shift1)
             else st in
  (Opic np nb (f_out f) (f_err f) (if direct then Some (f_id f) else None)
        (if direct then Frame (f_id f) else o_buf p)
        (if direct then fun i => f_stride f i * nb else fun i => o_w p i * nb)
        (if direct then f_org f else o_org p)
        (f_type f) (f_qp f) (f_pts f) (f_dts f) (f_poc f) (o_w p) (o_h p), st').
