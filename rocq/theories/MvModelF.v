(** Vertical motion-vector scaling in field-coded sequences, predict.h. *)
From Coq Require Import ZArith Bool.
From Verif Require Import CBase HdrModel QpModel UtilModel MvModel.
Open Scope Z_scope.

(** What the scaling reads of the decoder: [fdec->i_poc], [b_top_field],
    [i_pic_coding_type == FRAME] (always so in a picture that is decoded, header.cc:719),
    and whether the build keeps assertions (the GNU branch
    of build/linux/configure does not define NDEBUG, lines 1156-1167). *)
Record field := Field { f_poc : Z; f_top : bool; f_frame : bool; f_asserts : bool }.

(** predict.h:76-117 [getDeltas], called with [b_field_coding] set; returns
    [(delt, delt2)].  A failing assertion, which ends the process, is [Fail]. *)
Definition getDeltas (F : field) (ori oriref scaled scaledref : Z) : outcome (Z * Z) :=
  if f_asserts F && negb (f_frame F) then Fail else
  let o := distance_index ori in
  let r := distance_index oriref in
  let s := distance_index scaled in
  let q := distance_index scaledref in
  if f_asserts F && negb (Z.rem o 2 + Z.rem r 2 + Z.rem s 2 + Z.rem q 2 =? 0) then Fail else
  let o := Z.quot o 2 in
  let r := Z.quot r 2 in
  let s := Z.quot s 2 in
  let q := Z.quot q 2 in
  let ne a b := negb (Z.rem a 2 =? Z.rem b 2) in
  if f_top F then
    let delt2 := if ne q s then 2 else 0 in
    let delt := if negb (ne s o) then (if ne r o then 2 else 0) else (if ne r o then -2 else 0) in
    Done (delt, delt2)
  else
    let delt2 := if ne q s then -2 else 0 in
    let delt := if negb (ne s o) then (if ne r o then -2 else 0) else (if ne r o then 2 else 0) in
    Done (delt, delt2).

(** predict.h:131-149, 159-174, 185-201 [scale_mv_default_y], [scale_mv_skip_y],
    [scale_mv_biskip_y]: the three bodies differ only in the function they scale with.
    [fld] is [Some] when [b_field_coding] is set.  The POCs are below 2^31 - 512, so the
    differences do not overflow. *)
Definition scale_y (scale : Z -> Z -> Z -> outcome Z) (fld : option field) (mvy dst src src_mul : Z) : outcome Z :=
  match fld with
  | Some F =>
      let ori := f_poc F in
      let scaled := f_poc F in
      bindo (getDeltas F ori (ori - src) scaled (scaled - dst)) (fun '(delta, delta2) =>
      bindo (scale (mvy + delta) dst src_mul) (fun v => Done (to_i16 (v - delta2))))
  | None => scale mvy dst src_mul
  end.
Definition scale_mv_default_y := scale_y scale_mv_default.
Definition scale_mv_skip_y := scale_y scale_mv_skip.
Definition scale_mv_biskip_y := scale_y scale_mv_biskip.
