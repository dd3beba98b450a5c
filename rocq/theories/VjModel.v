(** The AVX2 kernels of sub-sample interpolation, source/common/vec/intrinsic_inter_pred_avx2.cc,
    8-bit build (mc.cc:740-759 selects them for blocks wider than 8 samples, primitives.h:48), and
    the two SSE kernels they fall back to that ViModel does not have. Definitions only. *)
From Coq Require Import ZArith List Bool.
From Verif Require Import CBase MemModel SaoModel McModel VxModelBase VxModel VdModel ViModel.
Import ListNotations.
Open Scope Z_scope.

(** More instructions. The eight bytes at [p] in every quad word ([_mm256_set1_epi64x] of a load; the
    load and permutation of the 32-bit build give the same); constants from words and double words;
    double words permuted by a register of numbers; one half each from [a] and [b] by an immediate;
    the halves stored at two places. *)
Definition set1_quad (m : mem) (p : Z) : reg := fun k => m (p + k mod 8).
Definition setr_epi16 (l : list Z) : reg := mk16 (fun i => nth (Z.to_nat i) l 0).
Definition setr_epi32 (l : list Z) : reg := mk32 (fun i => nth (Z.to_nat i) l 0).
Definition permutevar8x32 (a idx : reg) : reg := fun k => a (4 * Z.land (i32_of idx (k / 4)) 7 + k mod 4).
Definition permute2x128 (a b : reg) (imm : Z) : reg :=
  fun k => let s := Z.land (Z.shiftr imm (4 * (k / 16))) 15 in
           if Z.testbit s 3 then 0 else (if Z.testbit s 1 then b else a) (16 * Z.land s 1 + k mod 16).
Definition storeu2 (m : mem) (hiaddr loaddr : Z) (r : reg) : mem :=
  store16 (store16 m loaddr (castsi256_si128 r)) hiaddr (extracti128_1 r).

(** The masks: the lower 16 bytes and the lower 24 bytes, as constants in each kernel that needs them. *)
Definition mask16 : reg := setr_epi32 [-1; -1; -1; -1; 0; 0; 0; 0].
Definition mask24 : reg := setr_epi16 [-1; -1; -1; -1; -1; -1; -1; -1; -1; -1; -1; -1; 0; 0; 0; 0].

(** The switches of taps along a line: [k] samples for each of the positions [f], [f+1], .. in
    a half. *)
Definition sw8 (f : Z) : list Z := [f; f + 1; f + 2; f + 3; f + 4; f + 5; f + 6; f + 7; f + 1; f + 2; f + 3; f + 4; f + 5; f + 6; f + 7; f + 8].
Definition sw4 (f : Z) : list Z := [f; f + 1; f + 2; f + 3; f + 1; f + 2; f + 3; f + 4; f + 2; f + 3; f + 4; f + 5; f + 3; f + 4; f + 5; f + 6].
Definition switch (lo hi : list Z) : reg := setr_epi8 (lo ++ hi).

(** Eight taps along a line in both halves (in 49-97, 100-155, 789-890, 894-1094). *)
Definition taps8_avx2 (s mCoef : reg) : reg :=
  let t f := maddubs_epi16 (shuffle_epi8 s (switch (sw8 f) (sw8 f))) mCoef in
  hadd_epi16 (hadd_epi16 (t 0) (t 2)) (hadd_epi16 (t 4) (t 6)).
(** Four taps (in 1098-1130, 1133-1169, 1385-1482, 1485-1613). *)
Definition taps4_avx2 (s mCoef : reg) : reg :=
  let t f := maddubs_epi16 (shuffle_epi8 s (switch (sw4 f) (sw4 f))) mCoef in
  hadd_epi16 (t 0) (t 4).
Definition round6w (v : reg) : reg := srai_epi16 (add_epi16 v (set1_epi16 32)) 6.

(** 49-97 [intpl_luma_block_hor_w16_avx2], 1098-1130 [intpl_chroma_block_hor_w16_avx2]; [taps] is the
    part that differs, with the register of coefficients, and [back] the samples to the left. *)
Definition hor_w16 (taps : reg -> reg) (back dst i_dst : Z) (src : mem) (p i_src w h : Z) (m : mem) : mem :=
  floop 0 h (fun row m =>
    vfor 0 w 16 (fun col m =>
      let S0 := permute4x64 (load src (p - back + row * i_src + col)) 148 in
      let sum := round6w (taps S0) in
      let sum := permute4x64 (packus_epi16 sum sum) 216 in
      (maskstore_epi32 m (dst + row * i_dst + col) sum mask16, true)) m) m.
Definition luma_hor_w16 dst i_dst src p i_src w h c m :=
  hor_w16 (fun s => taps8_avx2 s (set1_quad (cbytes c) 0)) 3 dst i_dst src p i_src w h m.
Definition chroma_hor_w16 dst i_dst src p i_src w h c m :=
  hor_w16 (fun s => taps4_avx2 s (set1_epi32 (load_i32 (cbytes c) 0))) 1 dst i_dst src p i_src w h m.

(** 100-155 [intpl_luma_block_hor_w24_avx2]. *)
Definition luma_hor_w24 (dst i_dst : Z) (src : mem) (p i_src h : Z) (c : Z -> Z) (m : mem) : mem :=
  let mCoef := set1_quad (cbytes c) 0 in
  floop 0 h (fun row m =>
    let S0 := load src (p - 3 + row * i_src) in
    let S1 := permute4x64 S0 153 in
    let T0 := maddubs_epi16 (shuffle_epi8 S1 (switch (sw8 0) (sw8 2))) mCoef in
    let T1 := maddubs_epi16 (shuffle_epi8 S1 (switch (sw8 4) (sw8 6))) mCoef in
    let T0 := hadd_epi16 T0 T1 in
    let sum1 := round6w (taps8_avx2 S0 mCoef) in
    let sum2 := round6w (hadd_epi16 T0 T0) in
    let sum2 := permutevar8x32 sum2 (setr_epi32 [0; 4; 1; 5; 2; 6; 3; 7]) in
    maskstore_epi32 m (dst + row * i_dst) (packus_epi16 sum1 sum2) mask24) m.
(** 1133-1169 [intpl_chroma_block_hor_w24_avx2]. *)
Definition chroma_hor_w24 (dst i_dst : Z) (src : mem) (p i_src h : Z) (c : Z -> Z) (m : mem) : mem :=
  let mCoef := set1_epi32 (load_i32 (cbytes c) 0) in
  floop 0 h (fun row m =>
    let S := load src (p - 1 + row * i_src) in
    let S0 := permute4x64 S 153 in
    let T2 := maddubs_epi16 (shuffle_epi8 S0 (switch (sw4 0) (sw4 4))) mCoef in
    let sum1 := round6w (taps4_avx2 S mCoef) in
    let sum2 := round6w (hadd_epi16 T2 T2) in
    let v := permutevar8x32 (packus_epi16 sum1 sum2) (setr_epi32 [0; 1; 2; 6; 4; 5; 3; 7]) in
    maskstore_epi32 m (dst + row * i_dst) v mask24) m.

(** The taps down a column, in 158-254 and its copies for the other widths (the order of the
    additions is the same in all), and in 3625-3905 of intrinsic_inter_pred.cc for [unpacklo_epi8]
    alone. [ho] takes the lower or the upper eight columns of each half. *)
Definition vsum8 (ho : reg -> reg -> reg) (c : Z -> Z) (S : Z -> reg) : reg :=
  let pair k := set1_epi16 (load_i16 (cbytes c) k) in
  let T a b C := maddubs_epi16 (ho (S a) (S b)) C in
  if c 1 =? c 6 then
    add_epi16 (add_epi16 (T 0 7 (set1_epi8 (c 0))) (T 1 6 (set1_epi8 (c 1)))) (add_epi16 (T 2 5 (set1_epi8 (c 2))) (T 3 4 (set1_epi8 (c 3))))
  else
    add_epi16 (add_epi16 (T 0 1 (pair 0)) (T 2 3 (pair 2))) (add_epi16 (T 4 5 (pair 4)) (T 6 7 (pair 6))).
(** Likewise for chroma, in 1172-1234 and its copies; 3222-3621 of intrinsic_inter_pred.cc. *)
Definition vsum4 (ho : reg -> reg -> reg) (c : Z -> Z) (S : Z -> reg) : reg :=
  let pair k := set1_epi16 (load_i16 (cbytes c) k) in
  let T a b C := maddubs_epi16 (ho (S a) (S b)) C in
  if c 1 =? c 2 then add_epi16 (T 0 3 (set1_epi8 (c 0))) (T 1 2 (set1_epi8 (c 1)))
  else add_epi16 (T 0 1 (pair 0)) (T 2 3 (pair 2)).
Definition vbytes (vsum : (reg -> reg -> reg) -> reg) : reg :=
  packus_epi16 (round6w (vsum unpacklo_epi8)) (round6w (vsum unpackhi_epi8)).

(** One line of 158-254 [intpl_luma_block_ver_w32_avx2], 257-410 [.._w64_..], 534-630 [.._w24_..],
    633-786 [.._w48_..] and of 1172-1234 [intpl_chroma_block_ver_w32_avx2], 1237-1299 [.._w24_..]:
    [V q] is the register of the 32 columns from [q] on. *)
Definition put_w32 (V : Z -> reg) (m : mem) (q col : Z) : mem := store32 m (q + col) (V col).
Definition put_w24 (V : Z -> reg) (m : mem) (q col : Z) : mem := maskstore_epi32 m (q + col) (V col) mask24.
Definition put_w16 (V : Z -> reg) (m : mem) (q col : Z) : mem := maskstore_epi32 m (q + col) (V col) mask16.
Definition ver_lines (put : (Z -> reg) -> mem -> Z -> mem) (vsum : (reg -> reg -> reg) -> (Z -> Z) -> (Z -> reg) -> reg) (up : Z)
    (dst i_dst : Z) (src : mem) (p i_src h : Z) (c : Z -> Z) (m : mem) : mem :=
  floop 0 h (fun row m =>
    let V col := vbytes (fun ho => vsum ho c (fun j => load src (p - up * i_src + row * i_src + col + j * i_src))) in
    put V m (dst + row * i_dst)) m.
Definition luma_ver_w32 := ver_lines (fun V m q => put_w32 V m q 0) vsum8 3.
Definition luma_ver_w64 := ver_lines (fun V m q => put_w32 V (put_w32 V m q 0) q 32) vsum8 3.
Definition luma_ver_w24 := ver_lines (fun V m q => put_w24 V m q 0) vsum8 3.
Definition luma_ver_w48 := ver_lines (fun V m q => put_w16 V (put_w32 V m q 0) q 32) vsum8 3.
Definition chroma_ver_w32 := ver_lines (fun V m q => put_w32 V m q 0) vsum4 1.
Definition chroma_ver_w24 := ver_lines (fun V m q => put_w24 V m q 0) vsum4 1.
(** 413-531 [intpl_luma_block_ver_w16_avx2], 1302-1382 [intpl_chroma_block_ver_w16_avx2]: two lines at a
    time, the first in the upper halves. *)
Definition ver_w16 (vsum : (reg -> reg -> reg) -> (Z -> Z) -> (Z -> reg) -> reg) (up : Z)
    (dst i_dst : Z) (src : mem) (p i_src h : Z) (c : Z -> Z) (m : mem) : mem :=
  vfor 0 h 2 (fun row m =>
    let S j := load src (p - up * i_src + row * i_src + j * i_src) in
    let R j := set_halves (S (j + 1)) (S j) in
    (storeu2 m (dst + row * i_dst) (dst + row * i_dst + i_dst) (vbytes (fun ho => vsum ho c R)), true)) m.
Definition luma_ver_w16 := ver_w16 vsum8 3.
Definition chroma_ver_w16 := ver_w16 vsum4 1.

(** 789-890 [intpl_luma_block_ext_w16_avx2] and 1385-1482 [intpl_chroma_block_ext_w16_avx2]. The first
    pass: [n] lines of [st] words from [up] lines above and [back] samples to the left. *)
Definition ext_pass1_w16 (taps : reg -> reg) (up back st n : Z) (src : mem) (p i_src w : Z) (t0 : mem) : mem :=
  floop 0 n (fun row t =>
    vfor 0 w 16 (fun col t =>
      let S0 := permute4x64 (load src (p - up * i_src - back + row * i_src + col)) 148 in
      (storew 16 t (row * st + col) (taps S0), true)) t) t0.
(** The second pass: the words of [lo] and [hi] rounded. *)
Definition round12w (lo hi : reg) : reg :=
  let lo := srai_epi32 (add_epi32 lo (set1_epi32 2048)) 12 in
  let hi := srai_epi32 (add_epi32 hi (set1_epi32 2048)) 12 in packs_epi32 lo hi.
(** [t j] is line [j] of the array from the current column on. *)
Definition second8 (sym : bool) (cy : Z -> Z) (t : Z -> reg) : reg :=
  let C k := cvtepi8_epi16 (set1_epi16 (load_i16 (cbytes cy) k)) in
  let s ho := if sym then pairs8 ho (set1_epi16 (cy 0)) (set1_epi16 (cy 1)) (set1_epi16 (cy 2)) (set1_epi16 (cy 3)) (t 0) (t 7) (t 1) (t 6) (t 2) (t 5) (t 3) (t 4)
              else pairs8 ho (C 0) (C 2) (C 4) (C 6) (t 0) (t 1) (t 2) (t 3) (t 4) (t 5) (t 6) (t 7) in
  round12w (s unpacklo_epi16) (s unpackhi_epi16).
Definition second4 (sym : bool) (cy : Z -> Z) (t : Z -> reg) : reg :=
  let C k := cvtepi8_epi16 (set1_epi16 (load_i16 (cbytes cy) k)) in
  let s ho := if sym then pairs4 ho (set1_epi16 (cy 0)) (set1_epi16 (cy 1)) (t 0) (t 3) (t 1) (t 2)
              else pairs4 ho (C 0) (C 2) (t 0) (t 1) (t 2) (t 3) in
  round12w (s unpacklo_epi16) (s unpackhi_epi16).
(** The second passes; only the lower half of the result is stored. *)
Definition ext_pass2_w16 (second : (Z -> reg) -> reg) (st : Z) (tmp : mem) (dst i_dst w h : Z) (m : mem) : mem :=
  floop 0 h (fun row m =>
    vfor 0 w 16 (fun col m =>
      let v := second (fun j => loadw tmp (row * st + col + j * st)) in
      (store16 m (dst + row * i_dst + col) (permute4x64 (packus_epi16 v v) 216), true)) m) m.
Definition luma_ext_w16 (dst i_dst : Z) (src : mem) (p i_src w h : Z) (cx cy : Z -> Z) (t0 m : mem) : mem :=
  let tmp := ext_pass1_w16 (fun s => taps8_avx2 s (set1_quad (cbytes cx) 0)) 3 3 64 (h + 7) src p i_src w t0 in
  ext_pass2_w16 (second8 false cy) 64 tmp dst i_dst w h m.
Definition chroma_ext_w16 (dst i_dst : Z) (src : mem) (p i_src w h : Z) (cx cy : Z -> Z) (t0 m : mem) : mem :=
  let tmp := ext_pass1_w16 (fun s => taps4_avx2 s (set1_epi32 (load_i32 (cbytes cx) 0))) 1 1 32 (h + 3) src p i_src w t0 in
  ext_pass2_w16 (second4 (cy 1 =? cy 6) cy) 32 tmp dst i_dst w h m.

(** 894-1094 [intpl_luma_block_ext_w24_avx2] (lines of 32 words here) and 1485-1613
    [intpl_chroma_block_ext_w24_avx2]. *)
Definition ext_pass1_w24 (sums : reg -> reg * reg) (up back n : Z) (src : mem) (p i_src : Z) (t0 : mem) : mem :=
  floop 0 n (fun row t =>
    let '(sum1, sum2) := sums (load src (p - up * i_src - back + row * i_src)) in
    let sum2 := permute4x64 sum2 216 in
    let sum2 := permute2x128 sum1 sum2 19 in
    storew 16 (storew 8 t (row * 32) (castsi256_si128 sum1)) (row * 32 + 8) sum2) t0.
Definition luma_sums (mCoef S0 : reg) : reg * reg :=
  let S1 := permute4x64 S0 153 in
  let T0 := maddubs_epi16 (shuffle_epi8 S1 (switch (sw8 0) (sw8 4))) mCoef in
  let T1 := maddubs_epi16 (shuffle_epi8 S1 (switch (sw8 2) (sw8 6))) mCoef in
  let T0 := hadd_epi16 T0 T1 in
  (taps8_avx2 S0 mCoef, hadd_epi16 T0 T0).
Definition chroma_sums (mCoef S : reg) : reg * reg :=
  let S0 := permute4x64 S 153 in
  let T2 := maddubs_epi16 (shuffle_epi8 S0 (switch (sw4 0) (sw4 4))) mCoef in
  (taps4_avx2 S mCoef, hadd_epi16 T2 T2).
Definition ext_pass2_w24 (second : (Z -> reg) -> reg) (tmp : mem) (dst i_dst h : Z) (m : mem) : mem :=
  floop 0 h (fun row m =>
    let v col := second (fun j => loadw tmp (row * 32 + col + j * 32)) in
    maskstore_epi32 m (dst + row * i_dst) (permute4x64 (packus_epi16 (v 0) (v 16)) 216) mask24) m.
Definition luma_ext_w24 (dst i_dst : Z) (src : mem) (p i_src h : Z) (cx cy : Z -> Z) (t0 m : mem) : mem :=
  let tmp := ext_pass1_w24 (luma_sums (set1_quad (cbytes cx) 0)) 3 3 (h + 7) src p i_src t0 in
  ext_pass2_w24 (second8 (cy 1 =? cy 6) cy) tmp dst i_dst h m.
Definition chroma_ext_w24 (dst i_dst : Z) (src : mem) (p i_src h : Z) (cx cy : Z -> Z) (t0 m : mem) : mem :=
  let tmp := ext_pass1_w24 (chroma_sums (set1_epi32 (load_i32 (cbytes cx) 0))) 1 1 (h + 3) src p i_src t0 in
  ext_pass2_w24 (second4 (cy 1 =? cy 6) cy) tmp dst i_dst h m.

(** intrinsic_inter_pred.cc:3625-3905 [intpl_luma_block_ver_sse128]: four lines at a time. *)
Definition luma_ver_gen_sse (dst i_dst : Z) (src : mem) (p i_src w h : Z) (c : Z -> Z) (junk : reg) (m : mem) : mem :=
  vfor 0 (h - 3) 4 (fun row m =>
    let val := fun k col => round6 (vsum8 unpacklo_epi8 c (fun j => load src (p - 3 * i_src + row * i_src + col + (k + j) * i_src))) in
    (strip8 4 w junk (dst + row * i_dst) i_dst val val m, true)) m.
(** intrinsic_inter_pred.cc:3222-3621 [intpl_chroma_block_ver_sse128]: four lines at a time, then the
    remaining ones singly. *)
Definition chroma_ver_gen_sse (dst i_dst : Z) (src : mem) (p i_src w h : Z) (c : Z -> Z) (junk : reg) (m : mem) : mem :=
  let val := fun row k col => round6 (vsum4 unpacklo_epi8 c (fun j => load src (p - i_src + row * i_src + col + (k + j) * i_src))) in
  let m := vfor 0 (h - 3) 4 (fun row m => (strip8 4 w junk (dst + row * i_dst) i_dst (val row) (val row) m, true)) m in
  let row := 4 * ((Z.max 0 (h - 3) + 3) / 4) in
  floop row h (fun row m => strip8 1 w junk (dst + row * i_dst) i_dst (val row) (val row) m) m.

(** 1616-1806: the kernels by width (1635-1732 has the vertical luma kernel four times). *)
Definition luma_hor_avx2 dst i_dst src p i_src w h c junk m :=
  let k := w / 4 - 1 in
  if (k =? 3) || (k =? 7) || (k =? 11) || (k =? 15) then luma_hor_w16 dst i_dst src p i_src w h c m
  else if k =? 5 then luma_hor_w24 dst i_dst src p i_src h c m
  else luma_hor_sse dst i_dst src p i_src w h c junk m.
Definition luma_ver_avx2 dst i_dst src p i_src w h c junk m :=
  let k := w / 4 - 1 in
  if k =? 3 then luma_ver_w16 dst i_dst src p i_src h c m
  else if k =? 5 then luma_ver_w24 dst i_dst src p i_src h c m
  else if k =? 7 then luma_ver_w32 dst i_dst src p i_src h c m
  else if k =? 11 then luma_ver_w48 dst i_dst src p i_src h c m
  else if k =? 15 then luma_ver_w64 dst i_dst src p i_src h c m
  else luma_ver_gen_sse dst i_dst src p i_src w h c junk m.
Definition luma_ext_avx2 dst i_dst src p i_src w h cx cy junk t0 m :=
  let k := w / 4 - 1 in
  if (k =? 3) || (k =? 7) || (k =? 11) || (k =? 15) then luma_ext_w16 dst i_dst src p i_src w h cx cy t0 m
  else if k =? 5 then luma_ext_w24 dst i_dst src p i_src h cx cy t0 m
  else luma_ext_sse dst i_dst src p i_src w h cx cy junk t0 m.
Definition chroma_hor_avx2 dst i_dst src p i_src w h c junk m :=
  let k := w / 2 - 1 in
  if (k =? 7) || (k =? 15) then chroma_hor_w16 dst i_dst src p i_src w h c m
  else if k =? 11 then chroma_hor_w24 dst i_dst src p i_src h c m
  else chroma_hor_sse dst i_dst src p i_src w h c junk m.
Definition chroma_ver_avx2 dst i_dst src p i_src w h c junk m :=
  let k := w / 2 - 1 in
  if k =? 7 then chroma_ver_w16 dst i_dst src p i_src h c m
  else if k =? 11 then chroma_ver_w24 dst i_dst src p i_src h c m
  else if k =? 15 then chroma_ver_w32 dst i_dst src p i_src h c m
  else chroma_ver_gen_sse dst i_dst src p i_src w h c junk m.
Definition chroma_ext_avx2 dst i_dst src p i_src w h cx cy junk t0 m :=
  let k := w / 2 - 1 in
  if (k =? 7) || (k =? 15) then chroma_ext_w16 dst i_dst src p i_src w h cx cy t0 m
  else if k =? 11 then chroma_ext_w24 dst i_dst src p i_src h cx cy t0 m
  else chroma_ext_sse dst i_dst src p i_src w h cx cy junk t0 m.

(** mc.cc:502-562 on a processor with AVX2: [gf_davs2] has the SSE kernels at index 0 and these at
    index 1 of [mc_part_index]. *)
Definition mc_luma_avx2 (dst i_dst posx posy : Z) (w h : nat) (src : mem) (p_fref i_fref : Z) (junk : reg) (t0 m : mem) : mem :=
  let dx := Z.land posx 3 in let dy := Z.land posy 3 in
  let p := p_fref + Z.shiftr posy 2 * i_fref + Z.shiftr posx 2 in
  let W := Z.of_nat w in let H := Z.of_nat h in
  if negb (8 <? W) then mc_luma_sse dst i_dst posx posy w h src p_fref i_fref junk t0 m
  else if (dx =? 0) && (dy =? 0) then mc_block_copy dst i_dst src p i_fref w h m
  else if dx =? 0 then luma_ver_avx2 dst i_dst src p i_fref W H (row_l dy) junk m
  else if dy =? 0 then luma_hor_avx2 dst i_dst src p i_fref W H (row_l dx) junk m
  else luma_ext_avx2 dst i_dst src p i_fref W H (row_l dx) (row_l dy) junk t0 m.
Definition mc_chroma_avx2 (beyond : Z -> Z) (dst i_dst posx posy : Z) (w h : nat) (src : mem) (p_fref i_fref : Z) (junk : reg) (t0 m : mem) : mem :=
  let dx := Z.land posx 7 in let dy := Z.land posy 7 in
  let p := p_fref + Z.shiftr posy 3 * i_fref + Z.shiftr posx 3 in
  let W := Z.of_nat w in let H := Z.of_nat h in
  if negb (8 <? W) then mc_chroma_sse beyond dst i_dst posx posy w h src p_fref i_fref junk t0 m
  else if (dx =? 0) && (dy =? 0) then mc_block_copy dst i_dst src p i_fref w h m
  else if dx =? 0 then chroma_ver_avx2 dst i_dst src p i_fref W H (row_c beyond dy) junk m
  else if dy =? 0 then chroma_hor_avx2 dst i_dst src p i_fref W H (row_c beyond dx) junk m
  else chroma_ext_avx2 dst i_dst src p i_fref W H (row_c beyond dx) (row_c beyond dy) junk t0 m.
