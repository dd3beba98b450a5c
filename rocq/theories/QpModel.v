(** Model of QP handling: deblocking thresholds, chroma QP, dequantisation parameters,
    dequantisation, and accumulation of QP differences. *)
From Coq Require Import ZArith List Bool.
From Verif Require Import CBase HdrModel.
Import ListNotations.
Open Scope Z_scope.

(** deblock.cc:43-52 = header.cc:66-75. *)
Definition ALPHA_TABLE : list Z :=
  [ 0;  0;  0;  0;  0;  0;  1;  1;
    1;  1;  1;  2;  2;  2;  3;  3;
    4;  4;  5;  5;  6;  7;  8;  9;
   10; 11; 12; 13; 15; 16; 18; 20;
   22; 24; 26; 28; 30; 33; 33; 35;
   35; 36; 37; 37; 39; 39; 42; 44;
   46; 48; 50; 52; 53; 54; 55; 56;
   57; 58; 59; 60; 61; 62; 63; 64].
(** deblock.cc:56-65 = header.cc:77-86. *)
Definition BETA_TABLE : list Z :=
  [ 0;  0;  0;  0;  0;  0;  1;  1;
    1;  1;  1;  1;  1;  2;  2;  2;
    2;  2;  3;  3;  3;  3;  4;  4;
    4;  4;  5;  5;  5;  5;  6;  6;
    6;  7;  7;  7;  8;  8;  8;  9;
    9; 10; 10; 11; 11; 12; 13; 14;
   15; 16; 17; 18; 19; 20; 21; 22;
   23; 23; 24; 24; 25; 25; 26; 27].
(** cu.cc:65-73. *)
Definition QP_SCALE_CR : list Z :=
  [0;  1;  2;  3;  4;  5;  6;  7;  8;  9;
   10; 11; 12; 13; 14; 15; 16; 17; 18; 19;
   20; 21; 22; 23; 24; 25; 26; 27; 28; 29;
   30; 31; 32; 33; 34; 35; 36; 37; 38; 39;
   40; 41; 42; 42; 43; 43; 44; 44; 45; 45;
   46; 46; 47; 47; 48; 48; 48; 49; 49; 49;
   50; 50; 50; 51].
(** cu.cc:91-102. *)
Definition IQ_SHIFT : list Z :=
  [15; 15; 15; 15; 15; 15; 15; 15;
   14; 14; 14; 14; 14; 14; 14; 14;
   14; 13; 13; 13; 13; 13; 13; 13;
   12; 12; 12; 12; 12; 12; 12; 12;
   12; 11; 11; 11; 11; 11; 11; 11;
   11; 10; 10; 10; 10; 10; 10; 10;
   10;  9;  9;  9;  9;  9;  9;  9;
    8;  8;  8;  8;  8;  8;  8;  8;
    7;  7;  7;  7;  7;  7;  7;  7;
    6;  6;  6;  6;  6;  6;  6;  6].
(** cu.cc:106-117. *)
Definition IQ_TAB : list Z :=
  [32768; 36061; 38968; 42495; 46341; 50535; 55437; 60424;
   32932; 35734; 38968; 42495; 46177; 50535; 55109; 59933;
   65535; 35734; 38968; 42577; 46341; 50617; 55027; 60097;
   32809; 35734; 38968; 42454; 46382; 50576; 55109; 60056;
   65535; 35734; 38968; 42495; 46320; 50515; 55109; 60076;
   65535; 35744; 38968; 42495; 46341; 50535; 55099; 60087;
   65535; 35734; 38973; 42500; 46341; 50535; 55109; 60097;
   32771; 35734; 38965; 42497; 46341; 50535; 55109; 60099;
   32768; 36061; 38968; 42495; 46341; 50535; 55437; 60424;
   32932; 35734; 38968; 42495; 46177; 50535; 55109; 59933].

(** Table access; outside the table is undefined. *)
Definition lut (t : list Z) (i : Z) : outcome Z :=
  match get t i with Some v => Done v | None => Undef end.

(** An [int] result: overflow is undefined. *)
Definition int32 (z : Z) : outcome Z :=
  if (-2147483648 <=? z) && (z <=? 2147483647) then Done z else Undef.

(** deblock.cc:441-442 (luma) and header.cc:299-304 with [qp] the luma QP; [off] is
    [i_alpha_offset] or [i_beta_offset]. *)
Definition lf_threshold (t : list Z) (depth qp off : Z) : outcome Z :=
  let shift := depth - 8 in
  bindo (int32 (qp - Z.shiftl shift 3 + off)) (fun i =>
  bindo (lut t (clip3 0 63 i)) (fun v => Done (Z.shiftl v shift))).

(** quant.h:86-104 [cu_get_chroma_qp], 8-bit build. *)
Definition chroma_qp8 (luma_qp delta : Z) : outcome Z :=
  bindo (int32 (luma_qp + delta)) (fun qp => lut QP_SCALE_CR (clip3 0 63 qp)).
(** quant.h:86-104, HIGH_BIT_DEPTH build. *)
Definition chroma_qp_hbd (depth luma_qp delta : Z) : outcome Z :=
  let off := Z.shiftl (depth - 8) 3 in
  bindo (int32 (luma_qp + delta)) (fun qp =>
  let qp := qp - off in
  bindo (if qp <? 0 then Done qp else lut QP_SCALE_CR qp) (fun qp =>
  Done (clip3 0 (63 + off) (qp + off)))).
Definition chroma_qp (hbd : bool) (depth luma_qp delta : Z) : outcome Z :=
  if hbd then chroma_qp_hbd depth luma_qp delta else chroma_qp8 luma_qp delta.

(** deblock.cc:453-477: chroma threshold. *)
Definition lf_threshold_c (hbd : bool) (t : list Z) (depth qp delta off : Z) : outcome Z :=
  bindo (chroma_qp hbd depth qp delta) (fun qc => lf_threshold t depth qc off).

(** quant.h:110-117 [cu_get_quant_params]: (shift, scale); LIMIT_BIT is 16. *)
Definition quant_params (depth qp bit_size : Z) : outcome (Z * Z) :=
  bindo (lut IQ_SHIFT qp) (fun s =>
  bindo (lut IQ_TAB qp) (fun c => Done (s + (depth + 1) + bit_size - 16, c))).

(** quant.cc:260-270, one coefficient of [dequant_c]; also aec.cc:2138-2139 (without
    the test for zero, which is covered by a theorem). A shift count that is not in
    1..31 is undefined. *)
Definition dequant1 (scale shift c : Z) : outcome Z :=
  if (shift <? 1) || (31 <? shift) then Undef
  else let add := Z.shiftl 1 (shift - 1) in
       bindo (int32 (c * scale)) (fun p =>
       bindo (int32 (p + add)) (fun p => Done (clip3 (-32768) 32767 (Z.shiftr p shift)))).
Fixpoint dequant_c (scale shift : Z) (l : list Z) : outcome (list Z) :=
  match l with
  | [] => Done []
  | c :: t =>
      bindo (if c =? 0 then Done c else dequant1 scale shift c) (fun c' =>
      bindo (dequant_c scale shift t) (fun t' => Done (c' :: t')))
  end.

(** aec.cc:1664-1683: QP of one coding unit with QP differences enabled. [d] is the value
    read from the stream (int8_t conversion at line 1671), [left] the QP of the left
    coding unit (int8_t, common.h:1169); a unit without coefficients reads no
    difference. *)
Definition cu_qp (depth left : Z) (cbp : bool) (d : Z) : Z :=
  let m := 32 + 4 * (depth - 8) in
  let d := if cbp then clip3 (-m) m (to_i8 d) else 0 in
  to_i8 (to_i8 d + left).

(** The QPs of successive coding units of a row, each the left neighbour of the next
    (cu.cc:283-291, 863: the first takes the slice QP as int8_t, skipped units copy the left QP). *)
Fixpoint row_qps (depth left : Z) (l : list (bool * Z)) : list Z :=
  match l with
  | [] => []
  | (cbp, d) :: t => let q := cu_qp depth left cbp d in q :: row_qps depth q t
  end.
