(** Model of the sequence and picture header parsers, source/common/header.cc.
    A parser is a function on the bit reader; [Fail] is "return -1", [Undef] is an
    access outside an array (or one of the undefined reads of VlcModel.v). *)
From Coq Require Import ZArith List Bool.
From Verif Require Import CBase VlcModel.
Import ListNotations.
Open Scope Z_scope.

Definition P (A : Type) := bs -> outcome (A * bs).
Definition retp {A : Type} (a : A) : P A := fun s => Done (a, s).
Definition failp {A : Type} : P A := fun _ => Fail.
Definition undefp {A : Type} : P A := fun _ => Undef.
Definition bindp {A B : Type} (p : P A) (f : A -> P B) : P B := fun s =>
  match p s with
  | Done (a, s1) => f a s1
  | Fail => Fail
  | Undef => Undef
  | Hang => Hang
  end.
Declare Scope parser_scope.
Notation "x <- p ;; q" := (bindp p (fun x => q)) (at level 61, p at next level, right associativity) : parser_scope.
Notation "p ;;; q" := (bindp p (fun _ => q)) (at level 61, right associativity) : parser_scope.
Open Scope parser_scope.

Definition u_v (n : nat) : P Z := fun s => vlc_u_v s n.
Definition ue_v : P Z := vlc_ue_v.
Definition se_v : P Z := vlc_se_v.
(** vlc.h:231: the value converted to [bool_t] (uint8_t, common.h:74): 0, 1 or 255. *)
Definition flag : P Z := bindp (u_v 1) (fun v => retp (to_u8 v)).
(** [bs->i_bit_pos += n]. *)
Definition skip (n : Z) : P unit := fun s => Done (tt, bs_move s n).
(** [u_v(bs, 32, ..)] with unused result (header.cc:332, 582): reads the same bytes as
    two reads of 16 bits and moves only if both succeed. The shift of a 31-bit value in
    [read_bits] overflows [int]; its value is not used and the overflow is not
    modelled here. *)
Definition u_v32 : P unit := fun s =>
  match read_bits (bs_mem s) (bs_len s) (bs_pos s) 16 with
  | Done _ =>
      match read_bits (bs_mem s) (bs_len s) (bs_pos s + 16) 16 with
      | Done _ => Done (tt, bs_move s 32)
      | Fail => Done (tt, s)
      | Undef => Undef
      | Hang => Hang
      end
  | Fail => Done (tt, s)
  | Undef => Undef
  | Hang => Hang
  end.
(** bitstream.cc:63-66 [bs_align]. *)
Definition bs_align (s : bs) : bs :=
  Bs (bs_mem s) (bs_len s) (Z.shiftl (Z.shiftr (bs_pos s + 7) 3) 3).

Fixpoint repp {A : Type} (n : nat) (p : P A) : P (list A) :=
  match n with
  | O => retp []
  | S n => x <- p ;; r <- repp n p ;; retp (x :: r)
  end.

(** common.h:645-652 [rps_t]: [ref_pic] has 4, [remove_pic] 8 entries. *)
Record rps := Rps { r_refd : Z; r_nref : Z; r_ref : list Z; r_nrem : Z; r_rem : list Z }.
Definition AVS2_MAX_REFS : Z := 4.
Definition RPS_MAX_REMOVE : Z := 8.

(** The loops [for (j = 0; j < n; j++) tab[j] = u_v(bs, 6, ..)] into a table of [cap]
    entries; a store behind the table is undefined. *)
Definition read_tab (cap n : Z) : P (list Z) :=
  if cap <? n then undefp else repp (Z.to_nat n) (u_v 6).

(** header.cc:245-264, one sequence-level RPS. *)
Definition parse_seq_rps : P rps :=
  refd <- u_v 1 ;;
  nref <- u_v 3 ;;
  refs <- read_tab AVS2_MAX_REFS nref ;;
  nrem <- u_v 3 ;;
  rems <- read_tab RPS_MAX_REMOVE nrem ;;
  u_v 1 ;;;
  retp (Rps refd nref refs nrem rems).

(** common.h:657-690 [davs2_seq_t] with the fields of [davs2_seq_info_t]; [frame_rate]
    is represented by its table index. *)
Record seqh := Seqh {
  q_profile : Z; q_level : Z; q_progressive : Z; q_field : Z;
  q_width : Z; q_height : Z; q_chroma : Z;
  q_sample_prec : Z; q_enc_prec : Z; q_internal_depth : Z; q_output_depth : Z; q_bytes : Z;
  q_aspect : Z; q_frame_rate_id : Z; q_bitrate : Z; q_low_delay : Z; q_temporal : Z;
  q_log2_lcu : Z; q_wq : Z; q_wq4 : list Z; q_wq8 : list Z;
  q_tools : list Z;    (* background (inverted), mhp, dhp, wsm, amp, nsqt, sdip, 2nd transform, sao, alf, pmvr *)
  q_nrps : Z; q_rps : list rps; q_reorder : Z; q_cross : Z;
  q_enc_w : Z; q_enc_h : Z
}.

(** defines.h *)
Definition MAIN10_PROFILE : Z := 34.
Definition AVS2_GOP_NUM : Z := 32.
Definition MAX_FRAME_RATE_CODE : Z := 13.

Definition clip3 (lo hi v : Z) : Z := if v <? lo then lo else if hi <? v then hi else v.

(** header.cc:283-284: rounding up to whole 8x8 units. *)
Definition enc_size (w : Z) : Z := Z.shiftl (Z.shiftr (w + 8 - 1) 3) 3.

(** quant.cc: the two default weighting matrices, [wq_get_default_matrix]. *)
Definition wq_default4 : list Z :=
  [64; 64; 64; 68; 64; 64; 68; 72; 64; 68; 76; 80; 72; 76; 84; 96].
Definition wq_default8 : list Z :=
  [64; 64; 64; 64; 68; 68; 72; 76; 64; 64; 64; 68; 72; 76; 84; 92;
   64; 64; 68; 72; 76; 80; 88; 100; 64; 68; 72; 80; 84; 92; 100; 28;
   68; 72; 80; 84; 92; 104; 112; 128; 76; 80; 84; 92; 104; 116; 132; 152;
   96; 100; 104; 116; 124; 140; 164; 188; 104; 108; 116; 128; 152; 172; 192; 216].

(** header.cc:203-224: sequence-level weighting matrices. *)
Definition parse_wq (wq : Z) : P (list Z * list Z) :=
  if wq =? 0 then retp (repeat 0 16, repeat 0 64)
  else load <- flag ;;
       if load =? 1 then
         a <- repp 16 ue_v ;; b <- repp 64 ue_v ;; retp (map to_i16 a, map to_i16 b)
       else if load =? 0 then retp (wq_default4, wq_default8)
       else retp (repeat 0 16, repeat 0 64).

(** header.cc:126-287 [parse_sequence_header] without the final alignment. Fields not
    used by the decoder (marker and reserved bits, bbv buffer size) are read and
    dropped. The product at line 279 is an [int]. *)
Definition parse_seq_body : P seqh :=
  skip 32 ;;;
  profile <- u_v 8 ;;
  level <- u_v 8 ;;
  progressive <- u_v 1 ;;
  field <- flag ;;
  width <- u_v 14 ;;
  height <- u_v 14 ;;
  if (width <? 16) || (height <? 16) then failp else
  chroma <- u_v 2 ;;
  if negb (chroma =? 1) && negb (chroma =? 0) then failp else
  sprec <- u_v 3 ;;
  eprec <- (if profile =? MAIN10_PROFILE then u_v 3 else retp 1) ;;
  if (sprec <? 1) || (3 <? sprec) || (eprec <? 1) || (3 <? eprec) then failp else
  aspect <- u_v 4 ;;
  rate_id <- u_v 4 ;;
  br_lo <- u_v 18 ;;
  u_v 1 ;;;
  br_up <- u_v 12 ;;
  low_delay <- u_v 1 ;;
  u_v 1 ;;;
  temporal <- flag ;;
  u_v 18 ;;;
  lcu <- u_v 3 ;;
  if (lcu <? 4) || (6 <? lcu) then failp else
  wq <- flag ;;
  wqm <- parse_wq wq ;;
  bg <- flag ;;
  tools <- repp 10 flag ;;
  u_v 1 ;;;
  nrps <- u_v 6 ;;
  if AVS2_GOP_NUM <? nrps then failp else
  rpss <- repp (Z.to_nat nrps) parse_seq_rps ;;
  reorder <- (if low_delay =? 0 then u_v 5 else retp 0) ;;
  cross <- flag ;;
  u_v 2 ;;;
  let rate_id := if (rate_id <? 1) || (MAX_FRAME_RATE_CODE <? rate_id)
                 then clip3 1 MAX_FRAME_RATE_CODE rate_id else rate_id in
  let rate := Z.shiftl br_up 18 + br_lo in
  if 2147483647 <? rate * 400 then undefp else
  retp (Seqh profile level progressive field width height chroma
             sprec eprec (6 + Z.shiftl eprec 1) (6 + Z.shiftl eprec 1)
             (if 8 <? 6 + Z.shiftl eprec 1 then 2 else 1)
             aspect rate_id (rate * 400) low_delay temporal lcu wq (fst wqm) (snd wqm)
             (to_u8 (Z.lxor bg 1) :: tools) nrps rpss reorder cross
             (enc_size width) (enc_size height)).

Definition parse_sequence_header : P seqh := fun s =>
  match parse_seq_body s with
  | Done (q, s) => Done (q, bs_align s)
  | Fail => Fail
  | Undef => Undef
  | Hang => Hang
  end.

(** Slice types, defines.h / common.h. *)
Inductive ftype := I_SLICE | P_SLICE | B_SLICE | G_SLICE | F_SLICE | S_SLICE | GB_SLICE.

(** Fields of [davs2_t] set by the picture header that are used in this model. *)
Record pich := Pich {
  c_type : ftype; c_bgref : Z; c_coi : Z; c_delay : Z; c_rps : rps;
  c_frame : bool;          (* i_pic_coding_type == FRAME *)
  c_fixed_qp : Z; c_qp : Z; c_lf : Z; c_alpha : Z; c_beta : Z;
  c_delta_u : Z; c_delta_v : Z
}.

(** header.cc:364-391 and 626-651: the RPS of the picture. [intra] selects the bound
    check that only the intra header has (line 374). *)
Definition parse_pic_rps (q : seqh) (intra : bool) : P rps :=
  predict <- u_v 1 ;;
  if negb (predict =? 0) then
    index <- u_v 5 ;;
    if q_nrps q <=? index then failp
    else match get (q_rps q) index with
         | Some r => retp r
         | None => undefp
         end
  else
    refd <- u_v 1 ;;
    nref <- u_v 3 ;;
    if intra && (AVS2_MAX_REFS <? nref) then failp else
    refs <- read_tab AVS2_MAX_REFS nref ;;
    nrem <- u_v 3 ;;
    rems <- read_tab RPS_MAX_REMOVE nrem ;;
    u_v 1 ;;;
    retp (Rps refd nref refs nrem rems).

(** header.cc:353-362 / 613-623: coding-order index, temporal id, output delay.
    [old] is the value of [i_display_delay] kept when low_delay is set. *)
Definition parse_order (q : seqh) (old : Z) : P (Z * Z) :=
  coi <- u_v 8 ;;
  (if q_temporal q =? 1 then (u_v 3 ;;; retp tt) else retp tt) ;;;
  if q_low_delay q =? 0 then
    d <- ue_v ;;
    if 64 <=? d then failp else retp (coi, d)
  else retp (coi, old).

(** header.cc:393-416 / 653-675: low-delay buffer check, picture structure, field flags,
    fixed QP flag and QP. *)
Definition parse_struct_qp (q : seqh) : P (bool * Z * Z) :=
  (if q_low_delay q =? 0 then retp 0 else ue_v) ;;;
  progressive <- u_v 1 ;;
  structure <- (if progressive =? 0 then x <- u_v 1 ;; retp (to_i8 x) else retp 1) ;;
  flag ;;; flag ;;;
  (if q_field q =? 0 then retp 0 else (flag ;;; u_v 1)) ;;;
  fixed <- flag ;;
  qp <- u_v 7 ;;
  retp (structure =? 1, fixed, qp).

(** header.cc:418-443 / 683-708: loop filter and chroma QP parameters; [old] are the
    previous deblocking offsets, kept when the loop filter is off. *)
Definition parse_lf_chroma (old : Z * Z) : P (Z * Z * Z * Z * Z) :=
  dis <- u_v 1 ;;
  let lf := to_u8 (Z.lxor dis 1) in
  ab <- (if lf =? 0 then retp old
         else pf <- u_v 1 ;;
              if pf =? 0 then retp (0, 0)
              else a <- se_v ;; b <- se_v ;; retp (a, b)) ;;
  cdis <- flag ;;
  uv <- (if cdis =? 0 then u <- se_v ;; v <- se_v ;; retp (u, v) else retp (0, 0)) ;;
  retp (lf, fst ab, snd ab, fst uv, snd uv).

(** header.cc:316-492 [parse_picture_header_intra] up to (not including)
    [alf_read_param]; the weighted-quantisation part (446-484) is dead code because line
    446 clears its flag. [bkgnd] is [h->b_bkgnd_picture]. *)
Definition parse_intra (q : seqh) (bkgnd : bool) (old_delay : Z) (old_ab : Z * Z) : P pich :=
  skip 32 ;;;
  u_v32 ;;;
  tc <- u_v 1 ;;
  (if tc =? 0 then retp 0 else u_v 24) ;;;
  ft <- (if bkgnd then
           bgf <- u_v 1 ;;
           if bgf =? 0 then retp I_SLICE
           else out <- u_v 1 ;; retp (if out =? 0 then GB_SLICE else G_SLICE)
         else retp I_SLICE) ;;
  od <- parse_order q old_delay ;;
  r <- parse_pic_rps q true ;;
  st <- parse_struct_qp q ;;
  lc <- parse_lf_chroma old_ab ;;
  let '(fr, fixed, qp) := st in
  let '(lf, a, b, u, v) := lc in
  retp (Pich ft 0 (fst od) (snd od) r fr fixed qp lf a b u v).

(** header.cc:566-748 [parse_picture_header_inter], same scope. *)
Definition parse_inter (q : seqh) (bkgnd : bool) (old_delay : Z) (old_ab : Z * Z) : P pich :=
  skip 32 ;;;
  u_v32 ;;;
  ps <- u_v 2 ;;
  bg <- (if bkgnd && ((ps =? 1) || (ps =? 3)) then
           pred <- (if ps =? 1 then u_v 1 else retp 0) ;;
           ref <- (if pred =? 0 then flag else retp 0) ;;
           retp (pred, ref)
         else retp (0, 0)) ;;
  let ft := if (ps =? 1) && negb (fst bg =? 0) then S_SLICE
            else if ps =? 1 then P_SLICE else if ps =? 3 then F_SLICE else B_SLICE in
  od <- parse_order q old_delay ;;
  r <- parse_pic_rps q false ;;
  st <- parse_struct_qp q ;;
  let '(fr, fixed, qp) := st in
  (if (ps =? 2) && fr then retp 0 else u_v 1) ;;;
  flag ;;;
  lc <- parse_lf_chroma old_ab ;;
  let '(lf, a, b, u, v) := lc in
  retp (Pich ft (snd bg) (fst od) (snd od) r fr fixed qp lf a b u v).

(** Part of [davs2_mgr_t] used by the picture header: [i_tr_wrap_cnt], [i_prev_coi],
    [outpics.output]. *)
Record pmgr := Pmgr { g_wrap : Z; g_prev : Z; g_output : Z }.

(** header.cc:730-737: unwrapping of the coding-order index. [int] overflow of the
    product (after 2^31 pictures) is not modelled. *)
Definition coi_update (g : pmgr) (coi : Z) : pmgr * Z :=
  let wrap := if coi <? g_prev g then g_wrap g + 1 else g_wrap g in
  (Pmgr wrap coi (g_output g), coi + wrap * 256).

(** header.cc:739-743: display index. *)
Definition poc_of (q : seqh) (coi delay : Z) : Z :=
  if q_low_delay q =? 0 then coi + delay - q_reorder q else coi.

(** header.cc:696-758 [parse_picture_header] after the kind-specific part; returns the
    manager, the unwrapped coding-order index and the display index. *)
Definition picture_order (g : pmgr) (q : seqh) (intra : bool) (p : pich) : option (pmgr * Z * Z) :=
  if negb (c_frame p) then None
  else
    let '(g1, coi) := coi_update g (c_coi p) in
    let poc := poc_of q coi (c_delay p) in
    let g2 := if (g_output g1 =? -1) && intra then Pmgr (g_wrap g1) (g_prev g1) poc else g1 in
    Some (g2, coi, poc).

(** header.cc:1100-1102: a new resolution restarts the counter. *)
Definition new_sequence (g : pmgr) : pmgr := Pmgr 0 (-1) (g_output g).

(** header.cc:1046-1068 (in [task_decoder_update]): the depths used for decoding and
    output, and the build check. [hbd] is HIGH_BIT_DEPTH; without it [g_bit_depth] is 8.
    [None] is the error return: the picture is not decoded. *)
Definition update_depth (hbd : bool) (q : seqh) : option (Z * Z) :=
  let '(out, smp) := if q_profile q =? MAIN10_PROFILE
                     then (6 + Z.shiftl (q_sample_prec q) 1, 6 + Z.shiftl (q_enc_prec q) 1)
                     else (8, 8) in
  if negb hbd && negb (8 =? smp) then None else Some (out, smp).
