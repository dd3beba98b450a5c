(** The vector predictors for the modes without a direction (DC, plane, bilinear) of 8-bit builds:
    source/common/vec/intrinsic_intra-pred.cc:179-539 and intrinsic_intra-pred_avx2.cc:136-515.
    Definitions only.  The border array and the picture are two memories of bytes, as in IprModel: [s] is
    the index of EP[0] in [src], [d] the index of the block's first sample, [st] the stride.  Local
    arrays of [itr_t] (16 bits, defines.h) are memories of words, local arrays of registers are functions; array
    number [k] of a function starts with the contents [junk k].  Their alignment is not modelled.
    [int] values stay far below 2^31, so they are integers. *)
From Coq Require Import ZArith List Bool.
From Verif Require Import CBase MemModel SaoModel IprModel VxModelBase VxModel VdModel ViModel VjModel VpModelA.
Import ListNotations.
Open Scope Z_scope.

(** [for (x = 0; x < b; x += step)]. *)
Definition sloop {S : Type} (b step : Z) (f : Z -> S -> S) (t : S) : S := floop 0 ((b + step - 1) / step) (fun k => f (step * k)) t.

(** More instructions: products and left shifts of double words, packing of double words to unsigned
    words, sign extension of the lower words, four words from memory with the rest cleared, the store of
    the quad words whose mask has bit 63 set. *)
Definition mullo_epi32 (a b : reg) : reg := mk32 (fun i => i32_of a i * i32_of b i).
Definition slli_epi32 (a : reg) (n : Z) : reg := mk32 (fun i => Z.shiftl (i32_of a i) n).
Definition packus_epi32 (a b : reg) : reg :=
  mk16 (fun i => let h := 4 * (i / 8) in let j := i mod 8 in
                 if j <? 4 then sat_u16 (i32_of a (h + j)) else sat_u16 (i32_of b (h + j - 4))).
Definition cvtepi16_epi32 (a : reg) : reg := mk32 (fun i => i16_of a i).
Definition loadlw (m : mem) (p : Z) : reg := fun k => if k <? 8 then loadw m p k else 0.
Definition maskstore_epi64 (m : mem) (p : Z) (r mask : reg) : mem :=
  fun q => if (p <=? q) && (q <? p + 32) && Z.testbit (mask (8 * ((q - p) / 8) + 7)) 7 then r (q - p) else m q.
(** A row of [intrinsic_mask_256_8bit] (vec/intrinsic.cc:82-100). *)
Definition mask256 (i : Z) : reg := setr_epi8 (nth (Z.to_nat i) intrinsic_mask_256_8bit []).
(** Arrays of registers. *)
Definition rput (t : Z -> reg) (i : Z) (r : reg) : Z -> reg := fun j => if j =? i then r else t j.

Section Kernels.
Variables (src : mem) (s d st w h : Z).

(** The sum of four words. *)
Definition four (p : reg) : Z := u16_of p 0 + u16_of p 1 + u16_of p 2 + u16_of p 3.
(** intrinsic_intra-pred.cc:195-217 and 219-240: the sum of [n] samples at [p]. *)
Definition side_sum (p n : Z) : Z :=
  if n =? 4 then src p + src (p + 1) + src (p + 2) + src (p + 3)
  else if n =? 8 then
    let p00 := unpacklo_epi8 (load src p) setzero in
    let p10 := srli_si128 p00 8 in
    four (add_epi16 p00 p10)
  else
    let p30 := sloop (n - 8) 16 (fun y p30 =>
      let S0 := load src (p + y) in
      let p00 := unpacklo_epi8 S0 setzero in
      let p10 := unpackhi_epi8 S0 setzero in
      add_epi16 p30 (add_epi16 p00 p10)) setzero in
    four (add_epi16 p30 (srli_si128 p30 8)).
(** intrinsic_intra-pred.cc:179-268 [intra_pred_dc_sse128]; [dc] is [g_dc_value], [mode_ex] carries the
    availability. *)
Definition dc_sse (dc mode_ex : Z) (dst : mem) : mem :=
  let above := negb (Z.shiftr mode_ex 8 =? 0) in
  let left := negb (Z.land mode_ex 255 =? 0) in
  let sum_left := side_sum (s - h) h in
  let sum_above := side_sum (s + 1) w in
  let v :=
    if left && above then Z.shiftr ((sum_above + sum_left + Z.shiftr (w + h) 1) * (512 / (w + h))) 9
    else if left then Z.shiftr (sum_left + Z.shiftr h 1) (tab_log2size h)
    else if above then Z.shiftr (sum_above + Z.shiftr w 1) (tab_log2size w)
    else dc in
  let p00 := set1_epi8 v in
  floop 0 h (fun y m =>
    let q := d + y * st in
    if w =? 8 then store8 m q p00
    else if w =? 4 then store4 m q p00
    else sloop (w - 8) 16 (fun x m => store16 m (q + x) p00) m) dst.

(** intrinsic_intra-pred_avx2.cc:136-217 [intra_pred_dc_avx]; [junk] is what lies beside the table of
    masks. *)
Definition dc_avx (junk : reg) (dc mode_ex : Z) (dst : mem) : mem :=
  if (w <=? 8) && (h <=? 8) then dc_sse dc mode_ex dst
  else
  let above := negb (Z.shiftr mode_ex 8 =? 0) in
  let left := negb (Z.land mode_ex 255 =? 0) in
  let v :=
    if left then
      let v := floop 0 h (fun y v => v + src (s - 1 - y)) 0 in
      if above then
        let v := floop 0 w (fun x v => v + src (s + 1 + x)) v in
        let v := v + Z.shiftr (w + h) 1 in
        Z.shiftr (v * (512 / (w + h))) 9
      else (v + h / 2) / h
    else if above then (floop 0 w (fun x v => v + src (s + 1 + x)) 0 + w / 2) / w
    else dc in
  let S1 := set1_epi8 v in
  floop 0 h (fun i m =>
    let q := d + i * st in
    if 32 <=? w then
      let m := store32 m q S1 in
      if 32 <? w then store32 m (q + 32) S1 else m
    else if negb (Z.land w 15 =? 0) then
      let m := sloop (w - 15) 16 (fun j m => store16 m (q + j) S1) m in
      let j := 16 * ((Z.max 0 (w - 15) + 15) / 16) in
      maskmoveu m (q + j) S1 (mask_row junk (Z.land w 15 - 1))
    else store16 m q S1) dst.

(** The scalar part of both plane predictors, intrinsic_intra-pred.cc:274-311 and
    intrinsic_intra-pred_avx2.cc:223-260: iB, iC and iTmp. *)
Definition grad_h : Z :=
  let p := s + Z.shiftr w 1 in
  floop 1 (Z.shiftr w 1 + 1) (fun x v => v + x * (src (p + x) - src (p - x))) 0.
Definition grad_v : Z :=
  let p := s - Z.shiftr h 1 in
  floop 1 (Z.shiftr h 1 + 1) (fun y v => v + y * (src (p - y) - src (p + y))) 0.
Definition slopes : Z * Z * Z :=
  let iA := Z.shiftl (src (s - 1 - (h - 1)) + src (s + 1 + w - 1)) 4 in
  let iB := plane_slope w grad_h in
  let iC := plane_slope h grad_v in
  (iB, iC, iA - (Z.shiftr h 1 - 1) * iC - (Z.shiftr w 1 - 1) * iB + 16).
(** intrinsic_intra-pred.cc:272-352 [intra_pred_plane_sse128]. *)
Definition plane_sse (dst : mem) : mem :=
  let '(iB, iC, iTmp) := slopes in
  let TA := set1_epi16 iTmp in
  let TB := set1_epi16 iB in
  let TC := set1_epi16 iC in
  let T_Start := add_epi16 (mullo_epi16 TB (setr_epi16 [0; 1; 2; 3; 4; 5; 6; 7])) TA in
  let TB := mullo_epi16 TB (set1_epi16 8) in
  snd (floop 0 h (fun y (t : reg * mem) =>
    let '(T_Start, m) := t in
    let q := d + y * st in
    (add_epi16 T_Start TC,
     if w =? 4 then
       let D := srai_epi16 T_Start 5 in
       store4 m q (packus_epi16 D D)
     else if w =? 8 then
       let D := srai_epi16 T_Start 5 in
       store8 m q (packus_epi16 D D)
     else
       snd (sloop w 16 (fun x (t : reg * mem) =>
         let '(T, m) := t in
         let D := srai_epi16 T 5 in
         let T := add_epi16 T TB in
         let D1 := srai_epi16 T 5 in
         let T := add_epi16 T TB in
         (T, store16 m (q + x) (packus_epi16 D D1))) (T_Start, m)))) (T_Start, dst)).
(** intrinsic_intra-pred_avx2.cc:221-317 [intra_pred_plane_avx]. *)
Definition plane_avx (dst : mem) : mem :=
  let '(iB, iC, iTmp) := slopes in
  let TA := set1_epi16 iTmp in
  let TB := set1_epi16 iB in
  let TC := set1_epi16 iC in
  let T_Start := add_epi16 (mullo_epi16 TB (setr_epi16 [0; 1; 2; 3; 4; 5; 6; 7; 8; 9; 10; 11; 12; 13; 14; 15])) TA in
  let TB := mullo_epi16 TB (set1_epi16 16) in
  snd (floop 0 h (fun y (t : reg * mem) =>
    let '(T_Start, m) := t in
    let q := d + y * st in
    (add_epi16 T_Start TC,
     if w =? 4 then
       let D := srai_epi16 T_Start 5 in
       maskstore_epi32 m q (packus_epi16 D D) (mask256 3)
     else if w =? 8 then
       let D := srai_epi16 T_Start 5 in
       maskstore_epi64 m q (packus_epi16 D D) (mask256 7)
     else if w =? 16 then
       let D := srai_epi16 T_Start 5 in
       maskstore_epi64 m q (permute4x64 (packus_epi16 D D) 8) (mask256 15)
     else
       snd (sloop w 32 (fun x (t : reg * mem) =>
         let '(T, m) := t in
         let D := srai_epi16 T 5 in
         let T := add_epi16 T TB in
         let D1 := srai_epi16 T 5 in
         let D := permute4x64 (packus_epi16 D D1) 216 in
         (add_epi16 T TB, store32 m (q + x) D)) (T_Start, m)))) (T_Start, dst)).

(** The scalars [a], [b] and [w] (or [t]) of both bilinear predictors, intrinsic_intra-pred.cc:390-399
    and intrinsic_intra-pred_avx2.cc:370-379. *)
Definition twist (a b : Z) : Z :=
  let sx := tab_log2size w in
  let sy := tab_log2size h in
  let sh := Z.min sx sy in
  let c := if w =? h then Z.shiftr (a + b + 1) 1
           else Z.shiftr ((Z.shiftl a sx + Z.shiftl b sy) * 13 + Z.shiftl 1 (sh + 5)) (sh + 6) in
  Z.shiftl c 1 - a - b.
(** pTop, pT, pLeft, pL, wy as they are when the rows are predicted, and the loops of both versions:
    [n] words in a register. *)
Record lines := { l_top : mem; l_T : mem; l_left : mem; l_L : mem; l_wy : mem }.
Definition differences (n b sh : Z) (top T0 : mem) (len : Z) : mem * mem :=
  sloop len n (fun x (t : mem * mem) =>
    let '(top, pT) := t in
    let T1 := loadw top x in
    let T2 := sub_epi16 (set1_epi16 b) T1 in
    let T1 := slli_epi16 T1 sh in
    (storew n top x T1, storew n pT x T2)) (top, T0).
Definition multiples (n c : Z) (iota : list Z) (wy0 : mem) : mem :=
  snd (sloop h n (fun y (t : reg * mem) =>
         let '(T, wy) := t in (add_epi16 T (set1_epi16 (n * c)), storew n wy y T))
       (mullo_epi16 (set1_epi16 c) (setr_epi16 iota), wy0)).
Definition make_lines (n : Z) (iota : list Z) (top0 left0 : mem) (junk : Z -> mem) : lines :=
  let a := top0 (w - 1) in
  let b := left0 (h - 1) in
  let c := twist a b in
  let '(top1, T) := differences n b (tab_log2size h) top0 (junk 2) w in
  let '(left1, L) := differences n a (tab_log2size w) left0 (junk 3) h in
  {| l_top := top1; l_T := T; l_left := left1; l_L := L; l_wy := multiples n c iota (junk 4) |}.
Definition left_column (a0 : mem) : mem := floop 0 h (fun y m => upd m y (src (s - 1 - y))) a0.
(** [add] and [val] of a row. *)
Definition row_add (l : lines) (y : Z) : Z := Z.shiftl (l_L l y) (tab_log2size h) + l_wy l y.
Definition row_val (l : lines) (y : Z) : Z :=
  Z.shiftl (l_left l y) (tab_log2size h) + Z.shiftl 1 (tab_log2size w + tab_log2size h) + Z.shiftl (l_L l y) (tab_log2size h).
Definition sxy : Z := tab_log2size w + tab_log2size h + 1.

(** intrinsic_intra-pred.cc:376-424. *)
Definition lines_sse (junk : Z -> mem) : lines :=
  let top := sloop w 16 (fun x m =>
    let T := load src (s + 1 + x) in
    let T1 := unpacklo_epi8 T setzero in
    let T2 := unpackhi_epi8 T setzero in
    storew 8 (storew 8 m x T1) (x + 8) T2) (junk 0) in
  make_lines 8 [0; 1; 2; 3; 4; 5; 6; 7] top (left_column (junk 1)) junk.
(** The body of the innermost loops, intrinsic_intra-pred.cc:480-490 and 517-531. *)
Definition two_quads (A B ADD T3 : reg) : reg * reg :=
  let T1 := slli_epi32 A (tab_log2size w) in
  let T2 := slli_epi32 B (tab_log2size w) in
  let T1 := srai_epi32 (add_epi32 T1 ADD) sxy in
  let ADD := add_epi32 ADD T3 in
  let T2 := srai_epi32 (add_epi32 T2 ADD) sxy in
  let ADD := add_epi32 ADD T3 in
  let T1 := packus_epi32 T1 T2 in
  (packus_epi16 T1 T1, ADD).
(** intrinsic_intra-pred.cc:356-539 [intra_pred_bilinear_sse128]. *)
Definition bilinear_sse (junk : Z -> mem) (dst : mem) : mem :=
  let l := lines_sse junk in
  let C1 := setr_epi32 [0; 1; 2; 3] in
  let C2 := set1_epi32 4 in
  if w =? 4 then
    let pTT := loadlw (l_T l) 0 in
    snd (floop 0 h (fun y (t : reg * mem) =>
      let '(T, m) := t in
      let ADD := mullo_epi32 C1 (set1_epi32 (row_add l y)) in
      let ADD := add_epi32 ADD (set1_epi32 (row_val l y)) in
      let T := add_epi16 T pTT in
      let T1 := slli_epi32 (cvtepi16_epi32 T) (tab_log2size w) in
      let T1 := srai_epi32 (add_epi32 T1 ADD) sxy in
      let T1 := packus_epi32 T1 T1 in
      (T, store4 m (d + y * st) (packus_epi16 T1 T1))) (loadlw (l_top l) 0, dst))
  else if w =? 8 then
    let pTT := loadw (l_T l) 0 in
    snd (floop 0 h (fun y (t : reg * mem) =>
      let '(T, m) := t in
      let ADD := set1_epi32 (row_add l y) in
      let T3 := mullo_epi32 C2 ADD in
      let ADD := mullo_epi32 C1 ADD in
      let ADD := add_epi32 ADD (set1_epi32 (row_val l y)) in
      let T := add_epi16 T pTT in
      let '(T1, ADD) := two_quads (cvtepi16_epi32 T) (cvtepi16_epi32 (srli_si128 T 8)) ADD T3 in
      (T, store8 m (d + y * st) T1)) (loadw (l_top l) 0, dst))
  else
    let '(TT, PTT) := sloop w 8 (fun x (t : (Z -> reg) * (Z -> reg)) =>
      let '(TT, PTT) := t in
      let idx := Z.shiftr x 2 in
      let M0 := loadw (l_top l) x in
      let M1 := loadw (l_T l) x in
      (rput (rput TT idx (unpacklo_epi16 M0 setzero)) (idx + 1) (unpackhi_epi16 M0 setzero),
       rput (rput PTT idx (cvtepi16_epi32 M1)) (idx + 1) (cvtepi16_epi32 (srli_si128 M1 8))))
      (fun k => junk (5 + k), fun k => junk (21 + k)) in
    snd (floop 0 h (fun y (t : (Z -> reg) * mem) =>
      let '(TT, m) := t in
      let ADD := set1_epi32 (row_add l y) in
      let T3 := mullo_epi32 C2 ADD in
      let ADD := mullo_epi32 C1 ADD in
      let ADD := add_epi32 ADD (set1_epi32 (row_val l y)) in
      let '(_, TT, m) := sloop w 8 (fun x (t : reg * (Z -> reg) * mem) =>
        let '(ADD, TT, m) := t in
        let idx := Z.shiftr x 2 in
        let TT := rput TT idx (add_epi32 (TT idx) (PTT idx)) in
        let TT := rput TT (idx + 1) (add_epi32 (TT (idx + 1)) (PTT (idx + 1))) in
        let '(T1, ADD) := two_quads (TT idx) (TT (idx + 1)) ADD T3 in
        (ADD, TT, store8 m (d + y * st + x) T1)) (ADD, TT, m) in
      (TT, m)) (TT, dst)).

(** intrinsic_intra-pred_avx2.cc:343-402. *)
Definition lines_avx (junk : Z -> mem) : lines :=
  let top := sloop w 32 (fun x m =>
    let T := load src (s + 1 + x) in
    let T1 := unpacklo_epi8 T setzero in
    let T2 := unpackhi_epi8 T setzero in
    storew 16 (storew 16 m x (permute2x128 T1 T2 32)) (x + 16) (permute2x128 T1 T2 49)) (junk 0) in
  make_lines 16 [0; 1; 2; 3; 4; 5; 6; 7; 8; 9; 10; 11; 12; 13; 14; 15] top (left_column (junk 1)) junk.
(** intrinsic_intra-pred_avx2.cc:319-515 [intra_pred_bilinear_avx]. *)
Definition bilinear_avx (junk : Z -> mem) (dst : mem) : mem :=
  let l := lines_avx junk in
  let C1 := setr_epi32 [0; 1; 2; 3; 4; 5; 6; 7] in
  let C2 := set1_epi32 8 in
  if w =? 4 then
    let pTT := loadw (l_T l) 0 in
    snd (floop 0 h (fun y (t : reg * mem) =>
      let '(T, m) := t in
      let ADD := mullo_epi32 C1 (set1_epi32 (row_add l y)) in
      let ADD := add_epi32 ADD (set1_epi32 (row_val l y)) in
      let T := add_epi16 T pTT in
      let T1 := slli_epi32 (cvtepi16_epi32 (castsi256_si128 T)) (tab_log2size w) in
      let T1 := srai_epi32 (add_epi32 T1 ADD) sxy in
      let T1 := packus_epi32 T1 T1 in
      (T, maskstore_epi32 m (d + y * st) (packus_epi16 T1 T1) (mask256 3))) (loadw (l_top l) 0, dst))
  else if w =? 8 then
    let pTT := loadw (l_T l) 0 in
    snd (floop 0 h (fun y (t : reg * mem) =>
      let '(T, m) := t in
      let ADD := mullo_epi32 C1 (set1_epi32 (row_add l y)) in
      let ADD := add_epi32 ADD (set1_epi32 (row_val l y)) in
      let T := add_epi16 T pTT in
      let T1 := slli_epi32 (cvtepi16_epi32 (castsi256_si128 T)) (tab_log2size w) in
      let T1 := srai_epi32 (add_epi32 T1 ADD) sxy in
      let T1 := permute4x64 (packus_epi32 T1 T1) 8 in
      (T, maskstore_epi64 m (d + y * st) (packus_epi16 T1 T1) (mask256 7))) (loadw (l_top l) 0, dst))
  else
    let '(TT, PTT) := sloop w 16 (fun x (t : (Z -> reg) * (Z -> reg)) =>
      let '(TT, PTT) := t in
      let idx := Z.shiftr x 3 in
      let M0 := loadw (l_top l) x in
      let M1 := loadw (l_T l) x in
      let temp1 := unpacklo_epi16 M0 setzero in
      let temp2 := unpackhi_epi16 M0 setzero in
      (rput (rput TT idx (permute2x128 temp1 temp2 32)) (idx + 1) (permute2x128 temp1 temp2 49),
       rput (rput PTT idx (cvtepi16_epi32 (castsi256_si128 M1))) (idx + 1) (cvtepi16_epi32 (extracti128_1 M1))))
      (fun k => junk (5 + k), fun k => junk (13 + k)) in
    snd (floop 0 h (fun y (t : (Z -> reg) * mem) =>
      let '(TT, m) := t in
      let ADD := set1_epi32 (row_add l y) in
      let T3 := mullo_epi32 C2 ADD in
      let ADD := mullo_epi32 C1 ADD in
      let ADD := add_epi32 ADD (set1_epi32 (row_val l y)) in
      let '(_, TT, m) := sloop w 16 (fun x (t : reg * (Z -> reg) * mem) =>
        let '(ADD, TT, m) := t in
        let idx := Z.shiftr x 3 in
        let TT := rput TT idx (add_epi32 (TT idx) (PTT idx)) in
        let TT := rput TT (idx + 1) (add_epi32 (TT (idx + 1)) (PTT (idx + 1))) in
        let '(T1, ADD) := two_quads (TT idx) (TT (idx + 1)) ADD T3 in
        let T1 := permutevar8x32 T1 (setr_epi32 [0; 4; 1; 5; 0; 1; 2; 3]) in
        (ADD, TT, maskstore_epi64 m (d + y * st + x) T1 (mask256 15))) (ADD, TT, m) in
      (TT, m)) (TT, dst)).
End Kernels.

(** intra.h:41-53 through the table with the entries of intra.cc:2637-2639 and 2680-2685, modes 0, 1, 2. *)
Definition mode_ex (top left : bool) : Z := Z.shiftl (if top then 1 else 0) 8 + (if left then 1 else 0).
Definition pred_sse (junk : Z -> mem) (src : mem) (s d st mode w h : Z) (top left : bool) (dst : mem) : mem :=
  if mode =? 0 then dc_sse src s d st w h 128 (mode_ex top left) dst
  else if mode =? 1 then plane_sse src s d st w h dst
  else bilinear_sse src s d st w h junk dst.
Definition pred_avx (junk : Z -> mem) (src : mem) (s d st mode w h : Z) (top left : bool) (dst : mem) : mem :=
  if mode =? 0 then dc_avx src s d st w h (junk 0) 128 (mode_ex top left) dst
  else if mode =? 1 then plane_avx src s d st w h dst
  else bilinear_avx src s d st w h junk dst.
