(** Motion-vector arithmetic of predict.h and predict.cc. *)
From Coq Require Import ZArith List Bool.
From Verif Require Import CBase HdrModel QpModel UtilModel.
Import ListNotations.
Open Scope Z_scope.

Definition MULTI : Z := 16384.        (* defines.h *)
Definition HALF_MULTI : Z := 8192.

(** predict.h:41 [AVS2_DISTANCE_INDEX]; header.cc:956-981: the distance to a reference
    and its reciprocal, from the difference of the POCs. *)
Definition distance_index (d : Z) : Z := Z.land (d + 512) 511.
Definition dist_ref (dpoc : Z) : Z :=
  let d := distance_index (2 * dpoc) in if d <=? 0 then 1 else d.
Definition dist_scale (d : Z) : Z := Z.quot MULTI d.

(** [(|mv| * a) * b] in [int] arithmetic, left to right. *)
Definition mul3 (a b c : Z) : outcome Z := bindo (int32 (a * b)) (fun p => int32 (p * c)).

(** predict.h:122-128 [scale_mv_default]. *)
Definition scale_mv_default (mv dst src : Z) : outcome Z :=
  bindo (sign3 mv) (fun s =>
  bindo (mul3 (c_abs mv) dst src) (fun p =>
  bindo (int32 (p + HALF_MULTI)) (fun q =>
  bindo (int32 (s * Z.shiftr q 14)) (fun r => Done (to_i16 (clip3 (-32768) 32767 r)))))).

(** predict.h:152-157 [scale_mv_skip]: the cast comes before the saturation. *)
Definition scale_mv_skip (mv dst src : Z) : outcome Z :=
  bindo (mul3 mv dst src) (fun p =>
  bindo (int32 (p + HALF_MULTI)) (fun q =>
  Done (to_i16 (clip3 (-32768) 32767 (to_i16 (Z.shiftr q 14)))))).

(** predict.h:178-183 [scale_mv_biskip]. *)
Definition scale_mv_biskip (mv dst src : Z) : outcome Z :=
  bindo (sign3 mv) (fun s =>
  bindo (int32 (c_abs mv * dst)) (fun p =>
  bindo (int32 (1 + p)) (fun p1 =>
  bindo (int32 (src * p1)) (fun q =>
  bindo (int32 (s * Z.shiftr (q - 1) 14)) (fun r => Done (to_i16 (clip3 (-32768) 32767 (to_i16 r)))))))).

(** predict.cc:139-168 [derive_median_mv]; the arguments are [int16_t] vectors, so no
    [int] operation can overflow. *)
Definition derive_median_mv (a b c : Z) : Z :=
  to_i16
  (if ((a <? 0) && (0 <? b) && (0 <? c)) || ((0 <? a) && (b <? 0) && (c <? 0)) then Z.quot (b + c) 2
   else if ((b <? 0) && (0 <? a) && (0 <? c)) || ((0 <? b) && (a <? 0) && (c <? 0)) then Z.quot (c + a) 2
   else if ((c <? 0) && (0 <? a) && (0 <? b)) || ((0 <? c) && (a <? 0) && (b <? 0)) then Z.quot (a + b) 2
   else
     let dAB := c_abs (a - b) in
     let dBC := c_abs (b - c) in
     let dCA := c_abs (c - a) in
     let mn := c_min dAB (c_min dBC dCA) in
     if mn =? dAB then Z.quot (a + b) 2
     else if mn =? dBC then Z.quot (b + c) 2
     else Z.quot (c + a) 2).

(** predict.h:205-233 [pmvr_mv_derivation] on one vector; all inputs are [int16_t], so
    the [int] operations cannot overflow; [<< 1] is taken as doubling. *)
Definition THRESHOLD_PMVR : Z := 2.
Definition pmvr_ctr (p : Z) : Z := 2 * Z.shiftr p 1 - p.
Definition pmvr (enable : bool) (mvd mvp : Z * Z) : Z * Z :=
  let '(dx, dy) := mvd in
  let '(px, py) := mvp in
  let cx := pmvr_ctr px in
  let cy := pmvr_ctr py in
  let '(mx, my) :=
    if enable then
      if THRESHOLD_PMVR <? c_abs (dx - cx) then
        (px + 2 * dx - cx - sign2 (dx - cx) * THRESHOLD_PMVR, py + 2 * dy + cy)
      else if THRESHOLD_PMVR <? c_abs (dy - cy) then
        (px + 2 * dx + cx, py + 2 * dy - cy - sign2 (dy - cy) * THRESHOLD_PMVR)
      else (dx + px, dy + py)
    else (dx + px, dy + py) in
  (to_i16 (clip3 (-32768) 32767 mx), to_i16 (clip3 (-32768) 32767 my)).
