(** Sample adaptive offset: the block kernels and the region of one LCU (sao.cc).
    Source and destination are different frames, each a memory of samples; pointers are
    element indices and [p += stride] after every row is written as [p + y * stride].
    The cast of a stored value to [pel_t] is left out: the value was clipped to
    0 .. 2^depth - 1 and the depth is at most the width of [pel_t]. *)
From Coq Require Import ZArith List Bool.
From Verif Require Import CBase MemModel HdrModel.
Open Scope Z_scope.

(** [for (x = a; x < b; x++)]. *)
Definition floop {S : Type} (a b : Z) (f : Z -> S -> S) (s : S) : S :=
  loop (Z.to_nat (b - a)) (fun i => f (a + i)) s.

(** sao.cc:60-72 [lcu_neighbor_e]: availability of the eight neighbours. *)
Record avail := Avail { a_T : bool; a_D : bool; a_L : bool; a_R : bool; a_TL : bool; a_TR : bool; a_DL : bool; a_DR : bool }.

(** [d > 0 ? 1 : (d < 0 ? -1 : 0)]. *)
Definition psign (d : Z) : Z := if 0 <? d then 1 else if d <? 0 then -1 else 0.
Definition clip_to (depth v : Z) : Z := clip3 0 (Z.shiftl 1 depth - 1) v.

(** sao.cc:123-150 [sao_block_eo_0_c]. *)
Definition eo_0 (src : mem) (pd ds ps ss w h depth : Z) (av : avail) (off : Z -> Z) (dst : mem) : mem :=
  let sx := if a_L av then 0 else 1 in
  let ex := if a_R av then w else w - 1 in
  floop 0 h (fun y dst =>
    let p := ps + y * ss in
    let q := pd + y * ds in
    fst (floop sx ex (fun x (st : mem * Z) =>
           let '(dst, left_sign) := st in
           let right_sign := psign (src (p + x) - src (p + x + 1)) in
           let edge := left_sign + right_sign + 2 in
           (upd dst (q + x) (clip_to depth (src (p + x) + off edge)), - right_sign))
         (dst, psign (src (p + sx) - src (p + sx - 1))))) dst.

(** sao.cc:154-177 [sao_block_eo_90_c]. *)
Definition eo_90 (src : mem) (pd ds ps ss w h depth : Z) (av : avail) (off : Z -> Z) (dst : mem) : mem :=
  let sy := if a_T av then 0 else 1 in
  let ey := if a_D av then h else h - 1 in
  floop 0 w (fun x dst =>
    fst (floop sy ey (fun y (st : mem * Z) =>
           let '(dst, top_sign) := st in
           let down_sign := psign (src (ps + y * ss + x) - src (ps + (y + 1) * ss + x)) in
           let edge := down_sign + top_sign + 2 in
           (upd dst (pd + y * ds + x) (clip_to depth (src (ps + y * ss + x) + off edge)), - down_sign))
         (dst, psign (src (ps + sy * ss + x) - src (ps + (sy - 1) * ss + x))))) dst.

(** sao.cc:181-253 [sao_block_eo_135_c]. [up] is [UPROW_S]; its first content is
    whatever was on the stack. *)
Definition eo_135 (src : mem) (pd ds ps ss w h depth : Z) (av : avail) (off : Z -> Z) (up : mem) (dst : mem) : mem :=
  let sx := if a_L av then 0 else 1 in
  let ex := if a_R av then w else w - 1 in
  let up := floop sx ex (fun x up => upd up (x + 1) (psign (src (ps + ss + x + 1) - src (ps + x)))) up in
  let sx_0 := if a_TL av then 0 else 1 in
  let ex_0 := if a_T av then (if a_R av then w else w - 1) else 1 in
  let dst := floop sx_0 ex_0 (fun x dst =>
    let top_sign := psign (src (ps + x) - src (ps - ss + x - 1)) in
    let edge := top_sign - up (x + 1) + 2 in
    upd dst (pd + x) (clip_to depth (src (ps + x) + off edge))) dst in
  let '(dst, up, _) :=
    floop 1 (h - 1) (fun y (st : mem * mem * Z) =>
      let p := ps + y * ss in
      let q := pd + y * ds in
      floop sx ex (fun x (st : mem * mem * Z) =>
        let '(dst, up, reg) := st in
        let up := if x =? sx then upd up x (psign (src (p + x) - src (p - ss + x - 1))) else up in
        let down_sign := psign (src (p + x) - src (p + ss + x + 1)) in
        let edge := down_sign + up x + 2 in
        (upd dst (q + x) (clip_to depth (src (p + x) + off edge)), upd up x reg, - down_sign)) st)
      (dst, up, 0) in
  let sx_n := if a_D av then (if a_L av then 0 else 1) else w - 1 in
  let ex_n := if a_DR av then w else w - 1 in
  let y := Z.max 0 (h - 2) + 1 in
  let p := ps + y * ss in
  let q := pd + y * ds in
  fst (floop sx_n ex_n (fun x (st : mem * mem) =>
         let '(dst, up) := st in
         let up := if x =? sx then upd up x (psign (src (p + x) - src (p - ss + x - 1))) else up in
         let down_sign := psign (src (p + x) - src (p + ss + x + 1)) in
         let edge := down_sign + up x + 2 in
         (upd dst (q + x) (clip_to depth (src (p + x) + off edge)), up)) (dst, up)).

(** sao.cc:257-327 [sao_block_eo_45_c]. *)
Definition eo_45 (src : mem) (pd ds ps ss w h depth : Z) (av : avail) (off : Z -> Z) (up : mem) (dst : mem) : mem :=
  let sx := if a_L av then 0 else 1 in
  let ex := if a_R av then w else w - 1 in
  let up := floop sx ex (fun x up => upd up (x - 1) (psign (src (ps + ss + x - 1) - src (ps + x)))) up in
  let sx_0 := if a_T av then (if a_L av then 0 else 1) else w - 1 in
  let ex_0 := if a_TR av then w else w - 1 in
  let dst := floop sx_0 ex_0 (fun x dst =>
    let top_sign := psign (src (ps + x) - src (ps - ss + x + 1)) in
    let edge := top_sign - up (x - 1) + 2 in
    upd dst (pd + x) (clip_to depth (src (ps + x) + off edge))) dst in
  let '(dst, up) :=
    floop 1 (h - 1) (fun y (st : mem * mem) =>
      let p := ps + y * ss in
      let q := pd + y * ds in
      floop sx ex (fun x (st : mem * mem) =>
        let '(dst, up) := st in
        let up := if x =? ex - 1 then upd up x (psign (src (p + x) - src (p - ss + x + 1))) else up in
        let down_sign := psign (src (p + x) - src (p + ss + x - 1)) in
        let edge := down_sign + up x + 2 in
        (upd dst (q + x) (clip_to depth (src (p + x) + off edge)), upd up (x - 1) (- down_sign))) st)
      (dst, up) in
  let sx_n := if a_DL av then 0 else 1 in
  let ex_n := if a_D av then (if a_R av then w else w - 1) else 1 in
  let y := Z.max 0 (h - 2) + 1 in
  let p := ps + y * ss in
  let q := pd + y * ds in
  fst (floop sx_n ex_n (fun x (st : mem * mem) =>
         let '(dst, up) := st in
         let up := if x =? ex - 1 then upd up x (psign (src (p + x) - src (p - ss + x + 1))) else up in
         let down_sign := psign (src (p + x) - src (p + ss + x - 1)) in
         let edge := down_sign + up x + 2 in
         (upd dst (q + x) (clip_to depth (src (p + x) + off edge)), up)) (dst, up)).

(** sao.cc:331-350 [sao_block_bo_c]; [gdepth] is the global [g_bit_depth]. *)
Definition bo_block (src : mem) (pd ds ps ss w h gdepth depth : Z) (off : Z -> Z) (dst : mem) : mem :=
  floop 0 h (fun y dst =>
    let p := ps + y * ss in
    let q := pd + y * ds in
    floop 0 w (fun x dst =>
      upd dst (q + x) (clip_to depth (src (p + x) + off (Z.shiftr (src (p + x)) (gdepth - 5))))) dst) dst.

(** sao.cc:453-535 [sao_get_neighbor_avail]. [lv] is the LCU level, [pw], [ph] the coded
    picture size, [wl], [hl] the picture size in LCUs, [sl] the slice number of the 8x8
    unit in column x and row y, [c420] the chroma format, [cross] the flag that lets the filter cross slices. *)
Definition SHIFT_PIX : Z := 4.
Record region := Region { g_x : Z; g_y : Z; g_w : Z; g_h : Z; c_x : Z; c_y : Z; c_w : Z; c_h : Z; g_av : avail }.
Definition sao_region (lv pw ph wl hl : Z) (c420 cross : bool) (sl : Z -> Z -> Z) (lx ly : Z) : region :=
  let px := Z.shiftl lx lv in
  let py := Z.shiftl ly lv in
  let width := Z.min (Z.shiftl 1 lv) (pw - px) in
  let height := Z.min (Z.shiftl 1 lv) (ph - py) in
  let pxc := Z.shiftr px 1 in
  let pyc := Z.shiftr py (if c420 then 1 else 0) in
  let wc := Z.shiftr width 1 in
  let hc := Z.shiftr height 1 in
  let left := negb (lx =? 0) in
  let top := negb (ly =? 0) in
  let right := lx <? wl - 1 in
  let down := ly <? hl - 1 in
  let sx := Z.shiftl lx (lv - 3) in
  let sy := Z.shiftl ly (lv - 3) in
  let top := if cross then top else if top then sl sx sy =? sl sx (sy - 1) else false in
  let down := if cross then down
              else if down then let sy := sy + Z.shiftl 1 (lv - 3) in sl sx sy =? sl sx (sy - 1) else false in
  let width := if right then width else width + SHIFT_PIX in
  let wc := if right then wc else wc + SHIFT_PIX in
  let height := if down then height else height + SHIFT_PIX in
  let hc := if down then hc else hc + SHIFT_PIX in
  let '(px, pxc, width, wc) := if left then (px - SHIFT_PIX, pxc - SHIFT_PIX, width, wc) else (px, pxc, width - SHIFT_PIX, wc - SHIFT_PIX) in
  let '(py, pyc, height, hc) := if top then (py - SHIFT_PIX, pyc - SHIFT_PIX, height, hc) else (py, pyc, height - SHIFT_PIX, hc - SHIFT_PIX) in
  let width := Z.min width (pw - px) in
  let wc := Z.min wc (Z.shiftr pw 1 - pxc) in
  let height := Z.min height (ph - py) in
  let hc := Z.min hc (Z.shiftr ph 1 - pyc) in
  Region px py width height pxc pyc wc hc
    (Avail top down left right (top && left) (top && right) (down && left) (down && right)).

(** The choice of the kernel, sao.cc:606-631 and the table of davs2_sao_init
    (sao.cc:641-645): types 0, 1, 2, 3 are the edge classes 0, 90, 135 and 45 degrees, 4 is
    band offset. *)
Definition sao_block (ty : Z) (src : mem) (p stride w h gdepth depth : Z) (av : avail) (off : Z -> Z) (up dst : mem) : mem :=
  if ty =? 4 then bo_block src p stride p stride w h gdepth depth off dst
  else if ty =? 0 then eo_0 src p stride p stride w h depth av off dst
  else if ty =? 1 then eo_90 src p stride p stride w h depth av off dst
  else if ty =? 2 then eo_135 src p stride p stride w h depth av off up dst
  else eo_45 src p stride p stride w h depth av off up dst.

(** frame.cc:455-515 [davs2_frame_copy_lcurow], one plane, no padding: the lines from
    [y0] to [y1 - 1]. *)
Definition copy_lines (src : mem) (base stride w y0 y1 : Z) (dst : mem) : mem :=
  floop y0 y1 (fun y dst => floop 0 w (fun x dst => upd dst (base + y * stride + x) (src (base + y * stride + x))) dst) dst.

(** sao.cc:587-634 [sao_lcurow], one plane of a 4:2:0 picture. [par lx ly] is the type and the
    offsets of an LCU, nothing if the filter is off for it. [luma] selects the plane's own
    fields of the region. The state is the temporary frame and the decoded frame. [up] is
    what is on the stack. *)
Record geom := Geom { q_luma : bool; q_lv : Z; q_pw : Z; q_ph : Z; q_wl : Z; q_hl : Z; q_cross : bool; q_sl : Z -> Z -> Z;
                      q_base : Z; q_stride : Z; q_gdepth : Z; q_depth : Z }.
Definition lcu_lines (g : geom) : Z := if q_luma g then Z.shiftl 1 (q_lv g) else Z.shiftl 1 (q_lv g - 1).
Definition plane_w (g : geom) : Z := if q_luma g then q_pw g else Z.shiftr (q_pw g) 1.
Definition plane_h (g : geom) : Z := if q_luma g then q_ph g else Z.shiftr (q_ph g) 1.
Definition sao_lcurow (g : geom) (par : Z -> Z -> option (Z * (Z -> Z))) (up : mem) (ly : Z) (st : mem * mem) : mem * mem :=
  let '(tmp, dec) := st in
  let y0 := Z.shiftl ly (if q_luma g then q_lv g else q_lv g - 1) + -4 in
  let n := Z.min (plane_h g) (Z.shiftl (ly + 1) (if q_luma g then q_lv g else q_lv g - 1)) - y0 in
  let tmp := copy_lines dec (q_base g) (q_stride g) (plane_w g) y0 (y0 + n) tmp in
  (tmp,
   floop 0 (q_wl g) (fun lx dec =>
     match par lx ly with
     | None => dec
     | Some (ty, off) =>
         let r := sao_region (q_lv g) (q_pw g) (q_ph g) (q_wl g) (q_hl g) true (q_cross g) (q_sl g) lx ly in
         let '(x, y, w, h) := if q_luma g then (g_x r, g_y r, g_w r, g_h r) else (c_x r, c_y r, c_w r, c_h r) in
         sao_block ty tmp (q_base g + (y * q_stride g + x)) (q_stride g) w h (q_gdepth g) (q_depth g) (g_av r) off up dec
     end) dec).

(** The order of work on one plane. [rec ly] is the reconstruction and deblocking of one
    LCU row. decoder.cc:395-531 [decode_one_lcu_row], called for every row
    (decoder.cc:1180-1186): each row is filtered as soon as it is deblocked. Offset on in
    the picture header, no decoding error. *)
Definition rows_serial (g : geom) (par : Z -> Z -> option (Z * (Z -> Z))) (up : mem) (rec : Z -> mem -> mem) (st : mem * mem) : mem * mem :=
  floop 0 (q_hl g) (fun ly st => sao_lcurow g par up ly (fst st, rec ly (snd st))) st.
(** decoder.cc:584-705 [decode_lcu_row_recon]: the row above is filtered after the row is
    deblocked, the last row right after it. *)
Definition rows_delayed (g : geom) (par : Z -> Z -> option (Z * (Z -> Z))) (up : mem) (rec : Z -> mem -> mem) (st : mem * mem) : mem * mem :=
  floop 0 (q_hl g) (fun ly st =>
    let st := (fst st, rec ly (snd st)) in
    if negb (ly =? 0) then
      let st := sao_lcurow g par up (ly - 1) st in
      if ly =? q_hl g - 1 then sao_lcurow g par up ly st else st
    else st) st.

(** What the row filter sees of the slice numbers when rows are decoded one after the
    other: the numbers of this picture up to the current LCU row, below it those the table
    still holds (decoder.cc:90, the reset is commented out). *)
Definition seen (old new : Z -> Z -> Z) (lv ly : Z) : Z -> Z -> Z :=
  fun x y => if y <? Z.shiftl (ly + 1) (lv - 3) then new x y else old x y.
