(** Prediction and transform units of a coding unit, adding the residual, and reconstruction of
    inter coding units. *)
From Coq Require Import ZArith List Bool.
From Verif Require Import CBase MemModel UtilModel SynModel McModel TrModel.
Import ListNotations.
Open Scope Z_scope.

(** common.h:595-603 [cb_t]: four signed bytes and the same four bytes as one 32-bit number (first
    member in the lowest byte: little endian). *)
Record cb := { cx : Z; cy : Z; cw : Z; ch : Z }.
Definition pack (c : cb) : Z := to_u8 (cx c) + 256 * to_u8 (cy c) + 65536 * to_u8 (cw c) + 16777216 * to_u8 (ch c).
Definition unpack (v : Z) : cb :=
  {| cx := to_i8 (v mod 256); cy := to_i8 (v / 256 mod 256); cw := to_i8 (v / 65536 mod 256); ch := to_i8 (v / 16777216 mod 256) |}.
Definition cb_shl (s : Z) (c : cb) : cb := unpack (to_u32 (Z.shiftl (pack c) s)).
Definition cb_shr (s : Z) (c : cb) : cb := unpack (Z.shiftr (pack c) s).
Definition B (x y w h : Z) : cb := {| cx := x; cy := y; cw := w; ch := h |}.
Definition B0 : cb := B 0 0 0 0.

(** cu.cc:148-161 and 163-178. *)
Definition num_prediction_unit : list nat := [1; 1; 2; 2; 2; 2; 2; 2; 1; 4; 4; 4]%nat.
Definition coding_block_info : list (list cb) :=
  [[B 0 0 8 8; B0; B0; B0]; [B 0 0 8 8; B0; B0; B0];
   [B 0 0 8 4; B 0 4 8 4; B0; B0]; [B 0 0 4 8; B 4 0 4 8; B0; B0];
   [B 0 0 8 2; B 0 2 8 6; B0; B0]; [B 0 0 8 6; B 0 6 8 2; B0; B0];
   [B 0 0 2 8; B 2 0 6 8; B0; B0]; [B 0 0 6 8; B 6 0 2 8; B0; B0];
   [B 0 0 8 8; B0; B0; B0]; [B 0 0 4 4; B 4 0 4 4; B 0 4 4 4; B 4 4 4 4];
   [B 0 0 8 2; B 0 2 8 2; B 0 4 8 2; B 0 6 8 2]; [B 0 0 2 8; B 2 0 2 8; B 4 0 2 8; B 6 0 2 8];
   [B 0 0 4 4; B 4 0 4 4; B 0 4 4 4; B 4 4 4 4]].
(** cu.cc:180-212 [cu_init_prediction_units]: the units in use ([num_pu] is their number). *)
Definition prediction_units (slice ds mode level : Z) : list cb :=
  let s := level - 3 in
  if mode =? 0 then
    if (3 <? level) && ((slice =? P_SLICE) || ((slice =? F_SLICE) && (ds =? 0)) || ((slice =? B_SLICE) && (ds =? 0)))
    then map (cb_shl s) (nth 12 coding_block_info [])
    else map (cb_shl s) (firstn 1 (nth 0 coding_block_info []))
  else map (cb_shl s) (firstn (nth (Z.to_nat mode) num_prediction_unit O) (nth (Z.to_nat mode) coding_block_info [])).
(** cu.cc:217-236 [cu_init_transform_units]. *)
Definition tu_split_info : list (list cb) :=
  [[B 0 0 8 8; B0; B0; B0]; [B 0 0 8 2; B 0 2 8 2; B 0 4 8 2; B 0 6 8 2];
   [B 0 0 2 8; B 2 0 2 8; B 4 0 2 8; B 6 0 2 8]; [B 0 0 4 4; B 4 0 4 4; B 0 4 4 4; B 4 4 4 4]].
Definition transform_units (split level : Z) : list cb := map (cb_shl (level - 3)) (nth (Z.to_nat split) tu_split_info []).
(** The loops of cu.cc:1120-1135 and 1146-1156: one block if there is no split, else four. *)
Definition tu_count (split : Z) : nat := if split =? NON then 1%nat else 4%nat.

(** What [davs2_get_recons] needs to know of the coding unit and of its surroundings: level, split,
    flags of the sequence and type, intra mode per block, availability, place of the coefficients. *)
Record rcu := { r_level : Z; r_split : Z; r_sec : bool; r_intra : bool; r_mode : Z -> Z; r_top : bool; r_left : bool; r_zscan : Z }.
(** transform.cc:868-884 [get_quanted_coeffs]: offset in the buffer of luma or of the chroma plane. *)
Definition coeff_offset (r : rcu) (blockidx : Z) : Z :=
  if blockidx <? 4 then Z.shiftl (r_zscan r) 6 + Z.shiftl blockidx (Z.shiftl (r_level r - 1) 1) else Z.shiftl (r_zscan r) 4.
Definition is_wavelet (r : rcu) (blockidx : Z) : bool := (blockidx <? 4) && (r_level r =? 6) && negb (r_split r =? CROSS).
(** transform.cc:889-930 [davs2_get_recons]. [cbuf] is the coefficient buffer, [fdec] the plane with
    the LCU at [p_fdec]; the pattern index of the transform selects between equal functions
    (transform.cc:943). Returns the unit (halved in place by the wavelet case) and both memories. *)
Definition get_recons (d : Z) (r : rcu) (blockidx : Z) (tu : cb) (ctu_x ctu_y p_fdec i_fdec : Z) (t0 cbuf fdec : mem) : outcome (cb * mem * mem) :=
  let wav := if is_wavelet r blockidx then 1 else 0 in
  let tu1 := cb_shr wav tu in
  let i_coeff := cw tu1 in
  let p_coeff := coeff_offset r blockidx in
  bindo (inv_transform d p_coeff i_coeff (cw tu) (ch tu) (r_sec r) (r_intra r) (blockidx <? 4) (r_mode r blockidx) (r_top r) (r_left r) t0 cbuf)
    (fun cbuf1 =>
      let i_coeff := Z.shiftl i_coeff wav in
      let dst := if blockidx <? 4 then p_fdec + (cy tu + ctu_y) * i_fdec + (cx tu + ctu_x)
                 else p_fdec + Z.shiftr ctu_y 1 * i_fdec + Z.shiftr ctu_x 1 in
      Done (tu1, cbuf1, add_ps d (Z.to_nat (cw tu)) (Z.to_nat (ch tu)) dst i_fdec cbuf1 p_coeff i_coeff fdec)).
(** The residual part of [cu_recon] for luma (cu.cc:1145-1156). *)
Fixpoint recons_loop (d : Z) (r : rcu) (cbp : Z) (tus : list cb) (i : Z) (ctu_x ctu_y p_fdec i_fdec : Z) (t0 cbuf fdec : mem) : outcome (mem * mem) :=
  match tus with
  | [] => Done (cbuf, fdec)
  | tu :: rest =>
      if Z.testbit cbp i
      then bindo (get_recons d r i tu ctu_x ctu_y p_fdec i_fdec t0 cbuf fdec)
             (fun '(_, c, f) => recons_loop d r cbp rest (i + 1) ctu_x ctu_y p_fdec i_fdec t0 c f)
      else recons_loop d r cbp rest (i + 1) ctu_x ctu_y p_fdec i_fdec t0 cbuf fdec
  end.
Definition recons_luma (d : Z) (r : rcu) (cbp : Z) (ctu_x ctu_y p_fdec i_fdec : Z) (t0 cbuf fdec : mem) : outcome (mem * mem) :=
  if r_split r =? NON then
    if Z.land cbp 15 =? 0 then Done (cbuf, fdec)
    else bindo (get_recons d r 0 (nth 0 (transform_units (r_split r) (r_level r)) B0) ctu_x ctu_y p_fdec i_fdec t0 cbuf fdec)
           (fun '(_, c, f) => Done (c, f))
  else recons_loop d r cbp (transform_units (r_split r) (r_level r)) 0 ctu_x ctu_y p_fdec i_fdec t0 cbuf fdec.
(** cu.cc:1160-1174 for one chroma plane ([k] = 4 or 5). *)
Definition chroma_cb (level k : Z) : cb :=
  let c := B 0 (to_i8 (Z.shiftl 1 level)) (to_i8 (Z.shiftl 1 (level - 1))) (to_i8 (Z.shiftl 1 (level - 1))) in
  if k =? 4 then c else B (to_i8 (ch c)) (cy c) (cw c) (ch c).
Definition recons_chroma (d : Z) (r : rcu) (cbp k : Z) (ctu_x ctu_y p_fdec i_fdec : Z) (t0 cbuf fdec : mem) : outcome (mem * mem) :=
  if Z.testbit cbp k
  then bindo (get_recons d r k (chroma_cb (r_level r) k) ctu_x ctu_y p_fdec i_fdec t0 cbuf fdec) (fun '(_, c, f) => Done (c, f))
  else Done (cbuf, fdec).

(** cu.cc:77-89 [dmh_pos]: first and second offset (x, y) of a mode. *)
Definition dmh_pos : list ((Z * Z) * (Z * Z)) :=
  [((0, 0), (0, 0)); ((-1, 0), (1, 0)); ((0, -1), (0, 1)); ((-1, 1), (1, -1)); ((-1, -1), (1, 1));
   ((-2, 0), (2, 0)); ((0, -2), (0, 2)); ((-2, 2), (2, -2)); ((-2, -2), (2, 2))].
(** A prediction unit with its motion: direction, vectors and reference indices. *)
Record pum := { u_cb : cb; u_dir : Z; u_mv0 : Z * Z; u_mv1 : Z * Z; u_ref0 : Z; u_ref1 : Z }.
(** cu.cc:964-1012: vectors and reference indices of the first and the second prediction; index 0 is
    [B_BWD], 1 [B_FWD] (common.h:310-311); directions 0 FWD, 1 BWD, 2 SYM, 3 BID, 4 DUAL. *)
Definition pu_motion (slice dmh : Z) (u : pum) : (Z * Z * Z) * option (Z * Z * Z) :=
  let d := u_dir u in
  if d =? 1 then ((fst (u_mv1 u), snd (u_mv1 u), 0), None)
  else if (d =? 2) || (d =? 3) then ((fst (u_mv0 u), snd (u_mv0 u), 1), Some (fst (u_mv1 u), snd (u_mv1 u), 0))
  else if slice =? B_SLICE then ((fst (u_mv0 u), snd (u_mv0 u), 1), None)
  else if d =? 4 then ((fst (u_mv0 u), snd (u_mv0 u), u_ref0 u), Some (fst (u_mv1 u), snd (u_mv1 u), u_ref1 u))
  else if negb (dmh =? 0) then
    let '((x0, y0), (x1, y1)) := nth (Z.to_nat dmh) dmh_pos ((0, 0), (0, 0)) in
    ((to_i16 (fst (u_mv0 u) + x0), to_i16 (snd (u_mv0 u) + y0), u_ref0 u),
     Some (to_i16 (fst (u_mv0 u) + x1), to_i16 (snd (u_mv0 u) + y1), u_ref0 u))
  else ((fst (u_mv0 u), snd (u_mv0 u), u_ref0 u), None).
(** The reference array [h->fref] (common.h:1097): null entries, and a plane with its first sample
    for the others; the line length is the one of all frames. Indices outside are undefined. *)
Definition refs := Z -> option (mem * Z).
Definition get_ref (fref : refs) (i : Z) : outcome (option (mem * Z)) := if (0 <=? i) && (i <? 4) then Done (fref i) else Undef.
(** cu.cc:952-1048 [davs2_get_inter_pred], luma of one unit: waiting for rows is not part of it (see
    [wait_row]); [fref 0] null is a null dereference (1027). A missing first reference returns -1,
    a missing second one leaves the first prediction. [chroma] selects the code of 1055-1101. *)
Definition pu_pred (chroma : bool) (d : Z) (pic : Z * Z) (slice dmh : Z) (fref : refs) (i_fref : Z) (lx ly ctu_x ctu_y : Z)
  (p_fdec i_fdec : Z) (t0 tb : mem) (u : pum) (m : mem) : outcome mem :=
  let '((mx1, my1, r1), second) := pu_motion slice dmh u in
  let px := ctu_x + cx (u_cb u) in let py := ctu_y + cy (u_cb u) in
  let w := Z.to_nat (cw (u_cb u)) in let h := Z.to_nat (ch (u_cb u)) in
  let dst := if chroma then p_fdec + Z.shiftr py 1 * i_fdec + Z.shiftr px 1 else p_fdec + py * i_fdec + px in
  let one := if chroma then pred_chroma else pred_luma in
  let two := if chroma then bipred_chroma else bipred_luma in
  bindo (get_ref fref r1) (fun f1 =>
  bindo (match second with None => Done None | Some (_, _, r2) => get_ref fref r2 end) (fun f2 =>
  match f1 with
  | None => Fail
  | Some (s1, p1) =>
    match fref 0 with None => Undef | Some _ =>
    match second, f2 with
    | Some (mx2, my2, _), Some (s2, p2) =>
        Done (two d pic dst i_fdec (px + lx) (py + ly) w h (mx1, my1) (mx2, my2) s1 p1 s2 p2 i_fref t0 tb m)
    | _, _ => Done (one d pic dst i_fdec (px + lx) (py + ly) w h (mx1, my1) s1 p1 i_fref t0 m)
    end end
  end)).
Fixpoint inter_pred (chroma : bool) (d : Z) (pic : Z * Z) (slice dmh : Z) (fref : refs) (i_fref : Z) (lx ly ctu_x ctu_y : Z)
  (p_fdec i_fdec : Z) (t0 tb : mem) (us : list pum) (m : mem) : outcome mem :=
  match us with
  | [] => Done m
  | u :: rest => bindo (pu_pred chroma d pic slice dmh fref i_fref lx ly ctu_x ctu_y p_fdec i_fdec t0 tb u m)
                   (inter_pred chroma d pic slice dmh fref i_fref lx ly ctu_x ctu_y p_fdec i_fdec t0 tb rest)
  end.
(** cu.cc:1108-1174 [cu_recon], inter branch, one plane: prediction of all units, then the residual.
    The planes are separate memories and the code treats them one after the other. *)
Definition recon_inter_luma (d : Z) (pic : Z * Z) (slice dmh : Z) (fref : refs) (i_fref : Z) (lx ly ctu_x ctu_y : Z)
  (p_fdec i_fdec : Z) (us : list pum) (r : rcu) (cbp : Z) (t0 tb cbuf fdec : mem) : outcome (mem * mem) :=
  bindo (inter_pred false d pic slice dmh fref i_fref lx ly ctu_x ctu_y p_fdec i_fdec t0 tb us fdec)
    (recons_luma d r cbp ctu_x ctu_y p_fdec i_fdec t0 cbuf).
Definition recon_inter_chroma (d : Z) (pic : Z * Z) (slice dmh : Z) (fref : refs) (i_fref : Z) (lx ly ctu_x ctu_y : Z)
  (p_fdec i_fdec : Z) (us : list pum) (r : rcu) (cbp k : Z) (t0 tb cbuf fdec : mem) : outcome (mem * mem) :=
  bindo (inter_pred true d pic slice dmh fref i_fref lx ly ctu_x ctu_y p_fdec i_fdec t0 tb us fdec)
    (recons_chroma d r cbp k ctu_x ctu_y p_fdec i_fdec t0 cbuf).
