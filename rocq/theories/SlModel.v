(** The walk over the slices of a picture: search of the slice start codes, slice headers and
    the order in which the LCUs are decoded (decoder.cc, header.cc, bitstream.cc). What one LCU
    does with the entropy decoder and with the rest of the decoder state is a parameter. *)
From Coq Require Import ZArith List Bool.
From Verif Require Import CBase VlcModel HdrModel AecModel.
Import ListNotations.
Open Scope Z_scope.

(** common.h:201-210. *)
Definition SC_SLICE_CODE_MAX : Z := 143.
Definition SC_USER_DATA : Z := 178.

(** What header.cc:769-817 reads of [davs2_t]: the picture height, the width, the LCU size,
    [b_fixed_picture_qp], [i_picture_qp] and [b_sao]. *)
Record pic := Pic { p_height : Z; p_width : Z; p_lcu : Z; p_fixed : bool; p_qp : Z; p_sao : bool }.

(** What it writes: [i_slice_qp] (also copied to [i_qp]), [b_DQP], [b_fixed_slice_qp] and [slice_sao_on]. The
    locals [mb_row] (787-791), [slice_horizontal_positon] and the extensions are read but used by nothing. *)
Record shdr := Shdr { h_qp : Z; h_dqp : bool; h_fixed : Z; h_sao : Z * Z * Z }.

(** header.cc:769-817 [parse_slice_header]; [old] is the state of the fields before. The message of 808-810
    about an invalid quantiser is not modelled, there is no other reaction to it. *)
Definition parse_slice_header (g : pic) (old : shdr) : P shdr :=
  skip 24 ;;;
  u_v 8 ;;;
  (if 144 * p_lcu g <? p_height g then u_v 3 else retp 0) ;;;
  u_v 8 ;;;
  (if 255 * p_lcu g <? p_width g then u_v 2 else retp 0) ;;;
  q <- (if p_fixed g then retp (p_qp g, false, h_fixed old)
        else f <- flag ;; s <- u_v 7 ;; retp (s, f =? 0, f)) ;;
  sao <- (if p_sao g then a <- flag ;; b <- flag ;; c <- flag ;; retp (a, b, c) else retp (h_sao old)) ;;
  let '(qp, dqp, fx) := q in
  retp (Shdr qp dqp fx sao).

(** bitstream.cc:88-90: the four bytes at [p] read as a little-endian word are 00 00 01 xx with xx at most
    the last slice code. [None]: a read outside the memory object. *)
Definition slice_code_at (mem : list Z) (p : Z) : option bool :=
  match get mem p, get mem (p + 1), get mem (p + 2), get mem (p + 3) with
  | Some a, Some b, Some c, Some d => Some ((a =? 0) && (b =? 0) && (c =? 1) && (d <=? SC_SLICE_CODE_MAX))
  | _, _, _, _ => None
  end.

(** bitstream.cc:83-96 [found_slice_header]: [k] is [num_bytes]. The read position is not compared with the
    length of the unit. *)
Fixpoint found_loop (k : nat) (b : bs) : outcome (bool * bs) :=
  match k with
  | O => Done (false, b)
  | S j => match slice_code_at (bs_mem b) (Z.shiftr (bs_pos b + 7) 3) with
           | None => Undef
           | Some true => Done (true, b)
           | Some false => found_loop j (bs_move b 8)
           end
  end.
Definition found_slice_header (b : bs) : outcome (bool * bs) := found_loop 4 b.

(** decoder.cc:737-762 [decode_user_data]: the search from [pos] with [left] bytes to go; [Some p] is the
    position of the slice start code at which the loop breaks. Every pass takes one or four bytes. *)
Fixpoint user_loop (fuel : nat) (mem : list Z) (pos left : Z) : outcome (option Z) :=
  if 4 <=? left then
    match fuel with
    | O => Hang
    | S f =>
        match get mem pos, get mem (pos + 1), get mem (pos + 2), get mem (pos + 3) with
        | Some a, Some b, Some c, Some d =>
            if (a =? 0) && (b =? 0) && (c =? 1) then
              if d =? SC_USER_DATA then user_loop f mem (pos + 4) (left - 4)
              else if d <=? SC_SLICE_CODE_MAX then Done (Some pos)
              else user_loop f mem (pos + 4) (left - 4)
            else user_loop f mem (pos + 1) (left - 1)
        | _, _, _, _ => Undef
        end
    end
  else Done None.

(** decoder.cc:735-763. The flag is [b_slice_checked]. *)
Definition decode_user_data (b : bs) : outcome (bool * bs) :=
  let bytes := Z.shiftr (bs_pos b) 3 in
  bindo (user_loop (Z.to_nat (bs_len b)) (bs_mem b) bytes (bs_len b - bytes)) (fun r =>
  match r with
  | Some p => Done (true, Bs (bs_mem b) (bs_len b) (Z.shiftl p 3))
  | None => Done (false, b)
  end).

(** aec.cc:383-386 [aec_bits_read]. *)
Definition aec_bits_read (a : aec) : Z := Z.shiftl (byte_pos a) 3 - btg a.

Section Walk.
(** The rest of the decoder state (contexts, prediction modes, samples, ...). *)
Variable T : Type.
(** decoder.cc:361-362: [aec_init_contexts] and [aec_new_slice]. *)
Variable new_slice : T -> T.
(** decoder.cc:366-368: the reset of the prediction modes above an LCU row. *)
Variable reset_row : Z -> T -> T.
(** decoder.cc:417-462: everything done for one LCU (raster number, slice number as stored in cu.cc:1228,
    slice header) up to the end-of-slice flag; the flag is [decoding_error] afterwards. *)
Variable lcu : Z -> Z -> shdr -> T -> aec -> outcome (T * aec * bool).

(** common.h:1085-1088 and the bit stream, the entropy decoder and [decoding_error]; [s_log] is a ghost: the LCUs decoded
    so far, each with the slice number. *)
Record st := St { s_bs : bs; s_chk : bool; s_idx : Z; s_hdr : shdr; s_aec : aec; s_err : bool; s_t : T; s_log : list (Z * Z) }.

(** decoder.cc:350-373 [check_slice_header]; the flag: returned -1, the error flag then being reset (aec.h:117-122). *)
Definition check_slice_header (g : pic) (y : Z) (s : st) : outcome (st * bool) :=
  if s_chk s then
    bindo (found_slice_header (s_bs s)) (fun r =>
    let '(f, b) := r in
    if f then
      bindo (parse_slice_header g (s_hdr s) (bs_align b)) (fun q =>
      let '(hd, b) := q in
      bindo (start_decoding (bs_mem b) (Z.quot (bs_pos b + 7) 8) (bs_len b) (bound (s_aec s)) (byte_buf (s_aec s))) (fun a =>
      if err a then Done (St b (s_chk s) (s_idx s + 1) hd (set_err a false) (s_err s) (new_slice (s_t s)) (s_log s), true)
      else Done (St b (s_chk s) (s_idx s + 1) hd a (s_err s) (reset_row y (new_slice (s_t s))) (s_log s), false)))
    else Done (St b (s_chk s) (s_idx s) (s_hdr s) (s_aec s) (s_err s) (s_t s) (s_log s), false))
  else Done (s, false).

(** decoder.cc:414-467: one LCU and the end-of-slice flag behind it (aec.cc:2192-2210). *)
Definition one_lcu (k : Z) (s : st) : outcome st :=
  bindo (lcu k (to_i8 (s_idx s)) (s_hdr s) (s_t s) (s_aec s)) (fun r =>
  let '(t, a, e) := r in
  bindo (decode_final a) (fun q =>
  let '(a, f) := q in
  Done (St (Bs (bs_mem (s_bs s)) (bs_len (s_bs s)) (aec_bits_read a)) (negb (f =? 0)) (s_idx s) (s_hdr s) a e t
           (s_log s ++ [(k, s_idx s)])))).

(** decoder.cc:409-474: the LCUs of a row, [n] of them to go, the next one at column [x]; the flag: returned -1 at 411. *)
Fixpoint row_loop (n : nat) (g : pic) (w y x : Z) (s : st) : outcome (st * bool) :=
  match n with
  | O => Done (s, false)
  | S m =>
      if s_err s then Done (s, false)
      else bindo (check_slice_header g y s) (fun r =>
           let '(s, e) := r in
           if e then Done (s, true)
           else bindo (one_lcu (y * w + x) s) (fun s => row_loop m g w y (x + 1) s))
  end.

(** decoder.cc:1159-1166: the rows; the result of a row is ignored. The filters and signals behind a row (476-527) are
    modelled elsewhere. *)
Fixpoint rows (n : nat) (g : pic) (w y : Z) (s : st) : outcome st :=
  match n with
  | O => Done s
  | S m => bindo (row_loop (Z.to_nat w) g w y 0 s) (fun r => rows m g w (y + 1) (fst r))
  end.

(** decoder.cc:1108-1190 [decoder_decode_picture_data] with the sequential branch; decoder.cc:73-76 for the initial values.
    [hd0], [a0], [t0]: what the previous picture left. The result is [None] if there is no slice (1168-1187). *)
Definition decode_picture (g : pic) (w h : Z) (b : bs) (hd0 : shdr) (a0 : aec) (t0 : T) : outcome (option st) :=
  bindo (decode_user_data b) (fun r =>
  let '(c, b) := r in
  if c then bindo (rows (Z.to_nat h) g w 0 (St b true (-1) hd0 a0 false t0 [])) (fun s => Done (Some s))
  else Done None).
End Walk.
Arguments St {T}.
Arguments s_bs {T}.
Arguments s_chk {T}.
Arguments s_idx {T}.
Arguments s_hdr {T}.
Arguments s_aec {T}.
Arguments s_err {T}.
Arguments s_t {T}.
Arguments s_log {T}.
