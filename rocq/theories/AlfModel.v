(** Adaptive loop filter (alf.cc): parameter syntax, coefficient and region tables, the block
    kernels, and the filtering of a plane row by row. Pointers are element indices; the cast
    of a clipped value to [pel_t] is left out. *)
From Coq Require Import ZArith List Bool.
From Verif Require Import CBase VlcModel HdrModel MemModel SaoModel.
Import ListNotations.
Open Scope Z_scope.
Open Scope parser_scope.

(** common.h:556-562 [alf_param_t] without [num_coeff], which is always 9: the number of
    filters, [filterPattern] (16 entries), [coeffmulti] (16 rows of 9). *)
Record alf_param := AlfParam { al_n : Z; al_pat : list Z; al_co : list (list Z) }.
Definition ALF_NUM_VARS : Z := 16.

Definition store {A : Type} (l : list A) (i : Z) (v : A) : P (list A) :=
  match set l i v with Some m => retp m | None => undefp end.

(** alf.cc:374-391, the loop over the filters of the luma component; [k] filters are left.
    The 9 coefficients of a filter are stored as one row. *)
Fixpoint alf_filters (k : nat) (f n pre : Z) (pat : list Z) (co : list (list Z)) : P (list Z * list (list Z)) :=
  match k with
  | O => retp (pat, co)
  | S k =>
      r <- (if 0 <? f then
                        symbol <- (if negb (n =? 16) then ue_v else retp 1) ;;
                        pat <- store pat (symbol + pre) 1 ;;
                        retp (pat, pre + symbol)
                      else retp (pat, pre)) ;;
      let '(pat, pre) := r in
      c <- repp 9 se_v ;;
      co <- store co f c ;;
      alf_filters k (f + 1) n pre pat co
  end.
(** alf.cc:357-398 [vlc_read_alf_coeff], luma and chroma. *)
Definition alf_read_luma (a : alf_param) : P alf_param :=
  v <- ue_v ;;
  let n := v + 1 in
  r <- alf_filters (Z.to_nat n) 0 n 0 (repeat 0 16) (al_co a) ;;
  let '(pat, co) := r in
  retp (AlfParam n pat co).
Definition alf_read_chroma (a : alf_param) : P alf_param :=
  c <- repp 9 se_v ;;
  co <- store (al_co a) 0 c ;;
  retp (AlfParam (al_n a) (al_pat a) co).
(** alf.cc:402-420 [alf_read_param] with ALF enabled in the sequence. *)
Definition alf_read_param (y u v : alf_param) : P (list Z * alf_param * alf_param * alf_param) :=
  fy <- flag ;;
  fu <- flag ;;
  fv <- flag ;;
  y <- (if negb (fy =? 0) then alf_read_luma y else retp y) ;;
  u <- (if negb (fu =? 0) then alf_read_chroma u else retp u) ;;
  v <- (if negb (fv =? 0) then alf_read_chroma v else retp v) ;;
  retp ([fy; fu; fv], y, u, v).

(** alf.cc:52-68 [alf_recon_coefficients], one filter. *)
Definition alf_recon (c : list Z) : list Z :=
  firstn 8 c ++ [(Z.shiftl 1 6 - fold_left (fun s v => s + 2 * v) (firstn 8 c) 0) + nth 8 c 0].

(** alf.cc:71-84 [alf_init_var_table]: the entries [1 ..] from the one before. *)
Fixpoint var_steps (prev : Z) (pat : list Z) : list Z :=
  match pat with
  | [] => []
  | b :: t => let v := if negb (b =? 0) then prev + 1 else prev in v :: var_steps v t
  end.
Definition alf_var_table (a : alf_param) : list Z :=
  if 1 <? al_n a then 0 :: var_steps 0 (tl (al_pat a)) else repeat 0 16.

(** alf.cc:326-345: the region of an LCU. *)
Definition regionTable : list Z := [0; 1; 4; 5; 15; 2; 3; 6; 14; 11; 10; 7; 13; 12; 9; 8].
Definition alf_region (wl hl lx ly : Z) : Z :=
  let qw := Z.shiftr (wl + 1) 2 in
  let qh := Z.shiftr (hl + 1) 2 in
  let ry := if qh =? 0 then 3 else Z.min (ly / qh) 3 in
  let rx := if qw =? 0 then 3 else Z.min (lx / qw) 3 in
  nth (Z.to_nat (ry * 4 + rx)) regionTable 0.

(** alf.cc:88-155 [alf_filter_block1]. [co] holds the nine coefficients. *)
Definition cf (co : list Z) (i : Z) : Z := nth (Z.to_nat i) co 0.
Definition alf_start (top : bool) (py : Z) : Z := if top then py - 4 else py.
Definition alf_end (down : bool) (py h : Z) : Z := if down then py + h - 4 else py + h.
Definition alf_block1 (src : mem) (base stride px py w h depth : Z) (co : list Z) (top down : bool) (dst : mem) : mem :=
  let min_x := -3 in
  let max_x := w - 1 + 3 in
  let st := alf_start top py in
  let en := alf_end down py h in
  let p0 := base + (st * stride + px) in
  let hh := en - st - 1 in
  floop 0 (hh + 1) (fun y dst =>
    let p := p0 + y * stride in
    let img1 := p + (clip3 0 hh (y + 1) - y) * stride in
    let img2 := p + (clip3 0 hh (y - 1) - y) * stride in
    let img3 := p + (clip3 0 hh (y + 2) - y) * stride in
    let img4 := p + (clip3 0 hh (y - 2) - y) * stride in
    let img5 := p + (clip3 0 hh (y + 3) - y) * stride in
    let img6 := p + (clip3 0 hh (y - 3) - y) * stride in
    floop 0 w (fun x dst =>
      let v := cf co 0 * (src (img5 + x) + src (img6 + x)) in
      let v := v + cf co 1 * (src (img3 + x) + src (img4 + x)) in
      let xl := clip3 min_x max_x (x - 1) in
      let xr := clip3 min_x max_x (x + 1) in
      let v := v + cf co 2 * (src (img1 + xr) + src (img2 + xl)) in
      let v := v + cf co 3 * (src (img1 + x) + src (img2 + x)) in
      let v := v + cf co 4 * (src (img1 + xl) + src (img2 + xr)) in
      let v := v + cf co 7 * (src (p + xr) + src (p + xl)) in
      let xl := clip3 min_x max_x (x - 2) in
      let xr := clip3 min_x max_x (x + 2) in
      let v := v + cf co 6 * (src (p + xr) + src (p + xl)) in
      let xl := clip3 min_x max_x (x - 3) in
      let xr := clip3 min_x max_x (x + 3) in
      let v := v + cf co 5 * (src (p + xr) + src (p + xl)) in
      let v := v + cf co 8 * src (p + x) in
      upd dst (p + x) (clip_to depth (Z.shiftr (v + Z.shiftl 1 5) 6))) dst) dst.

(** alf.cc:182-190 and its three copies: the filter at [p] with the rows at [p1] .. [p6] and the
    columns [a], [b], [c], [d] of the diagonal taps. *)
Definition alf_corner (src : mem) (p p1 p2 p3 p4 p5 p6 a b c d depth : Z) (co : list Z) : Z :=
  let v := cf co 0 * (src p5 + src p6) in
  let v := v + cf co 1 * (src p3 + src p4) in
  let v := v + cf co 2 * (src (p1 + a) + src (p2 + b)) in
  let v := v + cf co 3 * (src p1 + src p2) in
  let v := v + cf co 4 * (src (p1 + c) + src (p2 + d)) in
  let v := v + cf co 7 * (src (p + 1) + src (p - 1)) in
  let v := v + cf co 6 * (src (p + 2) + src (p - 2)) in
  let v := v + cf co 5 * (src (p + 3) + src (p - 3)) in
  let v := v + cf co 8 * src p in
  clip_to depth (Z.shiftr (v + 32) 6).
(** alf.cc:159-272 [alf_filter_block2]. *)
Definition alf_block2 (src : mem) (base stride px py w h depth : Z) (co : list Z) (top down : bool) (dst : mem) : mem :=
  let st := alf_start top py in
  let en := alf_end down py h in
  let p := base + (st * stride + px) in
  let dst := if negb (src p =? src (p - 1))
             then upd dst p (alf_corner src p (p + 1 * stride) p (p + 2 * stride) p (p + 3 * stride) p 1 0 (-1) 1 depth co) else dst in
  let p := p + (w - 1) in
  let dst := if negb (src p =? src (p + 1))
             then upd dst p (alf_corner src p (p + 1 * stride) p (p + 2 * stride) p (p + 3 * stride) p 1 (-1) (-1) 0 depth co) else dst in
  let p := p - (w - 1) in
  let p := p + (en - st - 1) * stride in
  let dst := if negb (src p =? src (p - 1))
             then upd dst p (alf_corner src p p (p - 1 * stride) p (p - 2 * stride) p (p - 3 * stride) 1 (-1) 0 1 depth co) else dst in
  let p := p + (w - 1) in
  if negb (src p =? src (p + 1))
  then upd dst p (alf_corner src p p (p - 1 * stride) p (p - 2 * stride) p (p - 3 * stride) 0 (-1) (-1) 1 depth co) else dst.

(** alf.cc:276-295 [deriveBoundaryAvail]. *)
Definition alf_avail (lv wl hl : Z) (cross : bool) (sl : Z -> Z -> Z) (lx ly : Z) : bool * bool :=
  let top := 1 <=? ly in
  let down := ly <? hl - 1 in
  let top := if cross then top
             else let sx := Z.shiftl lx (lv - 3) in let sy := Z.shiftl ly (lv - 3) in
                  sl sx sy =? (if top then sl sx (sy - 1) else -1) in
  (top, down).

(** frame.cc:47-88 [pad_line_pixel]; the groups of four or eight samples are stored one by
    one. *)
Definition pad_line (pix w n : Z) (m : mem) : mem :=
  let l := m pix in
  let r := m (pix + (w - 1)) in
  floop 0 n (fun i m => upd (upd m (pix - n + i) l) (pix + w + i) r) m.
(** frame.cc:455-515 [davs2_frame_copy_lcurow] with padding, one plane. *)
Definition copy_lines_pad (src : mem) (base stride w n y0 y1 : Z) (dst : mem) : mem :=
  floop y0 y1 (fun y dst =>
    pad_line (base + y * stride) w n
      (floop 0 w (fun x dst => upd dst (base + y * stride + x) (src (base + y * stride + x))) dst)) dst.

(** alf.cc:424-494 [alf_lcu_block] and alf.cc:498-511 [alf_lcurow], one plane of a 4:2:0 picture.
    [par lx ly] is the coefficient row chosen for an LCU, nothing if the filter is off for
    it. *)
Definition alf_lcurow (g : geom) (par : Z -> Z -> option (list Z)) (ly : Z) (st : mem * mem) : mem * mem :=
  let '(tmp, dec) := st in
  let sh := if q_luma g then q_lv g else q_lv g - 1 in
  let y0 := Z.shiftl ly sh + -4 in
  let n := Z.min (plane_h g) (Z.shiftl (ly + 1) sh) - y0 in
  let tmp := copy_lines_pad dec (q_base g) (q_stride g) (plane_w g) 8 y0 (y0 + n) tmp in
  (tmp,
   floop 0 (q_wl g) (fun lx dec =>
     match par lx ly with
     | None => dec
     | Some co =>
         let '(top, down) := alf_avail (q_lv g) (q_wl g) (q_hl g) (q_cross g) (q_sl g) lx ly in
         let size := Z.shiftl 1 (q_lv g) in
         let px := Z.shiftl lx (q_lv g) in
         let py := Z.shiftl ly (q_lv g) in
         let w := if q_pw g <? px + size then q_pw g - px else size in
         let h := if q_ph g <? py + size then q_ph g - py else size in
         let '(px, py, w, h) := if q_luma g then (px, py, w, h) else (Z.shiftr px 1, Z.shiftr py 1, Z.shiftr w 1, Z.shiftr h 1) in
         alf_block2 tmp (q_base g) (q_stride g) px py w h (q_depth g) co top down
           (alf_block1 tmp (q_base g) (q_stride g) px py w h (q_depth g) co top down dec)
     end) dec).

(** The whole chain on one plane in the two orders of [rows_serial] and [rows_delayed]
    (decoder.cc:481-490, 661-677), offset and ALF both on. The state is offset's temporary frame, ALF's
    temporary frame and the decoded frame. *)
Definition chain := (mem * mem * mem)%type.
Definition do_rec (rec : Z -> mem -> mem) (ly : Z) (st : chain) : chain := let '(a, b, d) := st in (a, b, rec ly d).
Definition do_sao (g : geom) (par : Z -> Z -> option (Z * (Z -> Z))) (up : mem) (ly : Z) (st : chain) : chain :=
  let '(a, b, d) := st in let '(a, d) := sao_lcurow g par up ly (a, d) in (a, b, d).
Definition do_alf (g : geom) (par : Z -> Z -> option (list Z)) (ly : Z) (st : chain) : chain :=
  let '(a, b, d) := st in let '(b, d) := alf_lcurow g par ly (b, d) in (a, b, d).
Definition chain_serial (g : geom) (sp : Z -> Z -> option (Z * (Z -> Z))) (ap : Z -> Z -> option (list Z)) (up : mem)
    (rec : Z -> mem -> mem) (st : chain) : chain :=
  floop 0 (q_hl g) (fun ly st => do_alf g ap ly (do_sao g sp up ly (do_rec rec ly st))) st.
Definition chain_delayed (g : geom) (sp : Z -> Z -> option (Z * (Z -> Z))) (ap : Z -> Z -> option (list Z)) (up : mem)
    (rec : Z -> mem -> mem) (st : chain) : chain :=
  floop 0 (q_hl g) (fun ly st =>
    let st := do_rec rec ly st in
    if negb (ly =? 0) then
      let st := do_sao g sp up (ly - 1) st in
      let st := if ly =? q_hl g - 1 then do_sao g sp up ly st else st in
      let st := do_alf g ap (ly - 1) st in
      if ly =? q_hl g - 1 then do_alf g ap ly st else st
    else st) st.
