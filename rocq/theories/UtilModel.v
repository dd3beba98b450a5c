(** Sample and integer helpers of common.h, and the reconstruction kernel of pixel.cc. *)
From Coq Require Import ZArith List Bool.
From Verif Require Import CBase HdrModel QpModel MemModel.
Import ListNotations.
Open Scope Z_scope.

(** common.h:100-107 and 108. *)
Definition c_max (a b : Z) : Z := if b <? a then a else b.
Definition c_min (a b : Z) : Z := if a <? b then a else b.
Definition c_abs (a : Z) : Z := if a <? 0 then - a else a.

(** common.h:1202 / header.cc:1061: [max_pel_value]. *)
Definition max_pel (depth : Z) : Z := Z.shiftl 1 depth - 1.

(** common.h:109 [DAVS2_CLIP1]; the cast to [pel_t] is applied to a value in range. *)
Definition clip1 (depth a : Z) : Z :=
  if max_pel depth <? a then max_pel depth else if a <? 0 then 0 else a.

(** common.h:1351-1354 [davs2_clip_pixel]. The shift of a negative value right is
    arithmetic; [-x] of the smallest [int] overflows. *)
Definition clip_pixel (depth x : Z) : outcome Z :=
  if negb (Z.land x (Z.lnot (max_pel depth)) =? 0)
  then bindo (int32 (- x)) (fun nx => Done (Z.land (Z.shiftr nx 31) (max_pel depth)))
  else Done x.

(** common.h:1356-1359 [davs2_clip3]. *)
Definition davs2_clip3 (v lo hi : Z) : Z := if v <? lo then lo else if hi <? v then hi else v.

(** common.h:1361-1371 [davs2_median]; every difference is an [int]. *)
Definition neg_part (d : Z) : Z := Z.land d (Z.shiftr d 31).
Definition median (a b c : Z) : outcome Z :=
  bindo (int32 (a - b)) (fun d =>
  let t := neg_part d in
  let a := a - t in
  let b := b + t in
  bindo (int32 (b - c)) (fun d2 =>
  let b := b - neg_part d2 in
  bindo (int32 (a - b)) (fun d3 => Done (b + neg_part d3)))).

(** common.h:1374-1377 [davs2_sign2]; [(-1) << 1] is taken as -2. *)
Definition sign2 (v : Z) : Z := Z.shiftl (Z.shiftr v 31) 1 + 1.
(** common.h:1380-1383 [davs2_sign3]. *)
Definition sign3 (v : Z) : outcome Z :=
  bindo (int32 (- v)) (fun nv => Done (Z.lor (Z.shiftr v 31) (Z.shiftr (to_u32 nv) 31))).

(** common.h:117 [DAVS2_ALIGN] with a power of two 2^k. *)
Definition align (x k : Z) : Z := Z.land (x + (2 ^ k - 1)) (Z.lnot (2 ^ k - 1)).

(** common.h:1326-1348: portable [davs2_clz] and [davs2_ctz], unsigned 32-bit
    arithmetic. *)
Definition clz_lut : list Z := [4; 3; 2; 2; 1; 1; 1; 1; 0; 0; 0; 0; 0; 0; 0; 0].
Definition ctz_lut : list Z := [4; 0; 1; 0; 2; 0; 1; 0; 3; 0; 1; 0; 2; 0; 1; 0].
Definition clz (x : Z) : outcome Z :=
  let z := Z.land (Z.shiftr (to_u32 (Z.shiftr x 16 - 1)) 27) 16 in
  let x := Z.shiftr x (Z.lxor z 16) in
  let y := Z.land (Z.shiftr (to_u32 (x - 256)) 28) 8 in
  let z := z + y in
  let x := Z.shiftr x (Z.lxor y 8) in
  let y := Z.land (Z.shiftr (to_u32 (x - 16)) 29) 4 in
  let z := z + y in
  let x := Z.shiftr x (Z.lxor y 4) in
  bindo (lut clz_lut x) (fun v => Done (z + v)).
Definition ctz (x : Z) : outcome Z :=
  let z := Z.land (Z.shiftr (to_u32 (Z.land x 65535 - 1)) 27) 16 in
  let x := Z.shiftr x z in
  let y := Z.land (Z.shiftr (to_u32 (Z.land x 255 - 1)) 28) 8 in
  let z := z + y in
  let x := Z.shiftr x y in
  let y := Z.land (Z.shiftr (to_u32 (Z.land x 15 - 1)) 29) 4 in
  let z := z + y in
  let x := Z.shiftr x y in
  bindo (lut ctz_lut (Z.land x 15)) (fun v => Done (z + v)).

(** pixel.cc:70-82 [PIXEL_ADD_PS_C] as called at transform.cc:927: prediction and
    destination are the same block, [res] is the residual buffer. *)
Definition add_ps (depth : Z) (w h : nat) (dst dstride : Z) (res : mem) (rbase rstride : Z) (m : mem) : mem :=
  block_write w h dst dstride
    (fun x y m => clip1 depth (m (dst + y * dstride + x) + res (rbase + y * rstride + x))) m.
(** The same kernel with a separate prediction buffer. *)
Definition add_ps2 (depth : Z) (w h : nat) (dst dstride : Z) (pred : mem) (pbase pstride : Z)
                   (res : mem) (rbase rstride : Z) (m : mem) : mem :=
  block_write w h dst dstride
    (fun x y _ => clip1 depth (pred (pbase + y * pstride + x) + res (rbase + y * rstride + x))) m.
(** pixel.cc:84-96 [BLOCKCOPY_PP_C] (and [_SS_C]). *)
Definition blockcopy (w h : nat) (dst dstride : Z) (src : mem) (sbase sstride : Z) (m : mem) : mem :=
  block_write w h dst dstride (fun x y _ => src (sbase + y * sstride + x)) m.
