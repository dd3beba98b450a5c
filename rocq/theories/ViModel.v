(** The SSE kernels of sub-sample interpolation, source/common/vec/intrinsic_inter_pred.cc, 8-bit
    build (mc.cc:692-732 selects them; the chroma kernel for vertical positions stays the C one).
    Definitions only. The registers and most instructions are those of VxModelBase and VdModel. *)
From Coq Require Import ZArith List Bool.
From Verif Require Import CBase MemModel SaoModel McModel VxModelBase VxModel VdModel.
Import ListNotations.
Open Scope Z_scope.

(** More instructions: sums of neighbouring words without saturation, products of words with
    neighbours added, double-word arithmetic, interleaving of quad words. *)
Definition hadd_epi16 (a b : reg) : reg :=
  mk16 (fun i => let h := 8 * (i / 8) in let j := i mod 8 in
                 if j <? 4 then i16_of a (h + 2 * j) + i16_of a (h + 2 * j + 1)
                 else i16_of b (h + 2 * (j - 4)) + i16_of b (h + 2 * (j - 4) + 1)).
Definition madd_epi16 (a b : reg) : reg :=
  mk32 (fun i => i16_of a (2 * i) * i16_of b (2 * i) + i16_of a (2 * i + 1) * i16_of b (2 * i + 1)).
Definition add_epi32 (a b : reg) : reg := mk32 (fun i => i32_of a i + i32_of b i).
Definition srai_epi32 (a : reg) (n : Z) : reg := mk32 (fun i => Z.shiftr (i32_of a i) n).
Definition set1_epi32 (v : Z) : reg := mk32 (fun _ => v).
Definition unpacklo_epi64 (a b : reg) : reg := fun k => let j := half k + k mod 8 in if (k mod 16) <? 8 then a j else b j.

(** A local array of [int16_t] is a memory of words: loads of eight words and stores of [n]. *)
Definition loadw (m : mem) (p : Z) : reg := mk16 (fun i => m (p + i)).
Definition storew (n : Z) (m : mem) (p : Z) (r : reg) : mem :=
  fun q => if (p <=? q) && (q <? p + n) then i16_of r (q - p) else m q.

(** The coefficients a kernel is given: [c k] is the [int8_t] [coeff[k]]. As the memory of bytes it
    is read from with wider loads, and an [int16_t] there. *)
Definition cbytes (c : Z -> Z) : mem := fun k => to_u8 (c k).
Definition load_i16 (m : mem) (p : Z) : Z := to_i16 (m p + 256 * m (p + 1)).

(** The columns of [n] lines, eight at a time; the last [w mod 8] by masked stores. The vector of
    line [k] at column [col] is [val k col], in the last part [tail k col]. All the kernels have this
    loop (61-85, 116-144, 3926-3973, 4003-4049, 4081-4127, 4197-4273, 4286-4362, 4425-4688,
    4704-4958); [col] after the loop is the multiple of 8 reached. *)
Definition strip8 (n w : Z) (junk : reg) (q ds : Z) (val tail : Z -> Z -> reg) (m : mem) : mem :=
  let m := vfor 0 (w - 7) 8 (fun col m => (floop 0 n (fun k m => store8 m (q + k * ds + col) (val k col)) m, true)) m in
  let col := 8 * ((Z.max 0 (w - 7) + 7) / 8) in
  if col <? w then
    floop 0 n (fun k m => maskmoveu m (q + k * ds + col) (tail k col) (mask_row junk (Z.land w 7 - 1))) m
  else m.
(** Rounding and packing of one line (68-69 and its copies). *)
Definition round6 (v : reg) : reg :=
  let v := srai_epi16 (add_epi16 v (set1_epi16 32)) 6 in packus_epi16 v v.

(** 51-53, 64-67 and 4150-4153, 4165-4168: four taps along a line. *)
Definition switch4_1 : reg := setr_epi8 [0; 1; 2; 3; 1; 2; 3; 4; 2; 3; 4; 5; 3; 4; 5; 6].
Definition switch4_2 : reg := setr_epi8 [4; 5; 6; 7; 5; 6; 7; 8; 6; 7; 8; 9; 7; 8; 9; 10].
Definition taps4 (s : reg) (c : Z -> Z) : reg :=
  let mCoef := set1_epi32 (load_i32 (cbytes c) 0) in
  hadd_epi16 (maddubs_epi16 (shuffle_epi8 s switch4_1) mCoef) (maddubs_epi16 (shuffle_epi8 s switch4_2) mCoef).
(** 102-110, 119-124 and 4385-4393, 4401-4405: eight taps along a line. *)
Definition switch8_1 : reg := setr_epi8 [0; 1; 2; 3; 4; 5; 6; 7; 1; 2; 3; 4; 5; 6; 7; 8].
Definition switch8_2 : reg := setr_epi8 [2; 3; 4; 5; 6; 7; 8; 9; 3; 4; 5; 6; 7; 8; 9; 10].
Definition switch8_3 : reg := setr_epi8 [4; 5; 6; 7; 8; 9; 10; 11; 5; 6; 7; 8; 9; 10; 11; 12].
Definition switch8_4 : reg := setr_epi8 [6; 7; 8; 9; 10; 11; 12; 13; 7; 8; 9; 10; 11; 12; 13; 14].
Definition taps8 (s : reg) (c : Z -> Z) : reg :=
  let l := loadl (cbytes c) 0 in let mCoef := unpacklo_epi64 l l in
  let t0 := maddubs_epi16 (shuffle_epi8 s switch8_1) mCoef in
  let t1 := maddubs_epi16 (shuffle_epi8 s switch8_2) mCoef in
  let t2 := maddubs_epi16 (shuffle_epi8 s switch8_3) mCoef in
  let t3 := maddubs_epi16 (shuffle_epi8 s switch8_4) mCoef in
  hadd_epi16 (hadd_epi16 t0 t1) (hadd_epi16 t2 t3).

(** 45-92 [intpl_chroma_block_hor_sse128]. *)
Definition chroma_hor_sse (dst i_dst : Z) (src : mem) (p i_src w h : Z) (c : Z -> Z) (junk : reg) (m : mem) : mem :=
  floop 0 h (fun row m =>
    let val := fun (_ col : Z) => round6 (taps4 (load src (p - 1 + row * i_src + col)) c) in
    strip8 1 w junk (dst + row * i_dst) i_dst val val m) m.
(** 94-151 [intpl_luma_block_hor_sse128]. *)
Definition luma_hor_sse (dst i_dst : Z) (src : mem) (p i_src w h : Z) (c : Z -> Z) (junk : reg) (m : mem) : mem :=
  floop 0 h (fun row m =>
    let val := fun (_ col : Z) => round6 (taps8 (load src (p - 3 + row * i_src + col)) c) in
    strip8 1 w junk (dst + row * i_dst) i_dst val val m) m.

(** 3907-3981, 3983-4057, 4059-4135 [intpl_luma_block_ver0_sse128], [ver1], [ver2]: the taps down a
    column, for the quarter position [dy] each is written for. *)
Definition vtaps (dy : Z) (T : Z -> reg) (c : Z -> Z) : reg :=
  let T00 := adds_epi16 (cvtepu8_epi16 (T 0)) (cvtepu8_epi16 (T 7)) in
  let T16 := adds_epi16 (cvtepu8_epi16 (T 1)) (cvtepu8_epi16 (T 6)) in
  let pair k := set1_epi16 (load_i16 (cbytes c) k) in
  if dy =? 1 then
    let T10 := subs_epi16 (slli_epi16 T16 2) (cvtepu8_epi16 (T 6)) in
    add_epi16 (sub_epi16 T10 T00)
      (add_epi16 (maddubs_epi16 (unpacklo_epi8 (T 2) (T 3)) (pair 2)) (maddubs_epi16 (unpacklo_epi8 (T 4) (T 5)) (pair 4)))
  else if dy =? 2 then
    let T10 := slli_epi16 T16 2 in
    add_epi16 (sub_epi16 T10 T00)
      (add_epi16 (maddubs_epi16 (unpacklo_epi8 (T 2) (T 5)) (set1_epi8 (c 2))) (maddubs_epi16 (unpacklo_epi8 (T 3) (T 4)) (set1_epi8 (c 3))))
  else
    let T10 := subs_epi16 (slli_epi16 T16 2) (cvtepu8_epi16 (T 1)) in
    add_epi16 (sub_epi16 T10 T00)
      (add_epi16 (maddubs_epi16 (unpacklo_epi8 (T 2) (T 3)) (pair 2)) (maddubs_epi16 (unpacklo_epi8 (T 4) (T 5)) (pair 4))).
Definition luma_ver_sse (dy dst i_dst : Z) (src : mem) (p i_src w h : Z) (c : Z -> Z) (junk : reg) (m : mem) : mem :=
  floop 0 h (fun row m =>
    let val := fun (_ col : Z) => round6 (vtaps dy (fun j => load src (p - 3 * i_src + row * i_src + col + j * i_src)) c) in
    strip8 1 w junk (dst + row * i_dst) i_dst val val m) m.

(** The second pass, over the words of the first: pairs of lines times pairs of coefficients, in the
    lower and the upper four columns (4206-4229 and its copies for chroma, 4438-4464 and its copies
    for luma), rounded by 12 bits and packed. *)
Definition pairs4 (half_of : reg -> reg -> reg) (C0 C1 a0 b0 a1 b1 : reg) : reg :=
  add_epi32 (madd_epi16 (half_of a0 b0) C0) (madd_epi16 (half_of a1 b1) C1).
Definition pairs8 (half_of : reg -> reg -> reg) (C0 C1 C2 C3 a0 b0 a1 b1 a2 b2 a3 b3 : reg) : reg :=
  add_epi32 (add_epi32 (madd_epi16 (half_of a0 b0) C0) (madd_epi16 (half_of a1 b1) C1))
            (add_epi32 (madd_epi16 (half_of a2 b2) C2) (madd_epi16 (half_of a3 b3) C3)).
Definition round12 (lo hi : reg) : reg :=
  let lo := srai_epi32 (add_epi32 lo (set1_epi32 2048)) 12 in
  let hi := srai_epi32 (add_epi32 hi (set1_epi32 2048)) 12 in
  let v := packs_epi32 lo hi in packus_epi16 v v.

(** 4137-4370 [intpl_chroma_block_ext_sse128]; the local array starts with arbitrary contents [t0].
    [bsymy] reads [coef_y[6]], although chroma filters have four taps (4146). In the symmetric
    branch the masked part of the second line stores the first line's vector (4272). *)
Definition chroma_ext_pass1 (src : mem) (p i_src w h : Z) (cx : Z -> Z) (t0 : mem) : mem :=
  floop 0 (h + 3) (fun row t =>
    let s := p - i_src - 1 + row * i_src in let q := row * 32 in
    if 4 <? w then vfor 0 w 8 (fun col t => (storew 8 t (q + col) (taps4 (load src (s + col)) cx), true)) t
    else
      let mT0 := maddubs_epi16 (shuffle_epi8 (load src s) switch4_1) (set1_epi32 (load_i32 (cbytes cx) 0)) in
      storew 4 t q (hadd_epi16 mT0 mT0)) t0.
Definition chroma_ext_sse (dst i_dst : Z) (src : mem) (p i_src w h : Z) (cx cy : Z -> Z) (junk : reg) (t0 m : mem) : mem :=
  let tmp := chroma_ext_pass1 src p i_src w h cx t0 in
  let T row col j := loadw tmp (row * 32 + col + j * 32) in
  if cy 1 =? cy 6 then
    let C0 := set1_epi16 (cy 0) in let C1 := set1_epi16 (cy 1) in
    vfor 0 h 2 (fun row m =>
      let val := fun k col => let t j := T row col (k + j) in
        round12 (pairs4 unpacklo_epi16 C0 C1 (t 0) (t 3) (t 1) (t 2)) (pairs4 unpackhi_epi16 C0 C1 (t 0) (t 3) (t 1) (t 2)) in
      (strip8 2 w junk (dst + row * i_dst) i_dst val (fun _ col => val 0 col) m, true)) m
  else
    let C0 := cvtepi8_epi16 (set1_epi16 (load_i16 (cbytes cy) 0)) in
    let C1 := cvtepi8_epi16 (set1_epi16 (load_i16 (cbytes cy) 2)) in
    vfor 0 h 2 (fun row m =>
      let val := fun k col => let t j := T row col (k + j) in
        round12 (pairs4 unpacklo_epi16 C0 C1 (t 0) (t 1) (t 2) (t 3)) (pairs4 unpackhi_epi16 C0 C1 (t 0) (t 1) (t 2) (t 3)) in
      (strip8 2 w junk (dst + row * i_dst) i_dst val val m, true)) m.

(** 4372-4964 [intpl_luma_block_ext_sse128]. *)
Definition luma_ext_pass1 (src : mem) (p i_src w h : Z) (cx : Z -> Z) (t0 : mem) : mem :=
  floop 0 (h + 7) (fun row t =>
    let s := p - (3 * i_src + 3) + row * i_src in let q := row * 64 in
    vfor 0 w 8 (fun col t => (storew 8 t (q + col) (taps8 (load src (s + col)) cx), true)) t) t0.
Definition luma_ext_sse (dst i_dst : Z) (src : mem) (p i_src w h : Z) (cx cy : Z -> Z) (junk : reg) (t0 m : mem) : mem :=
  let tmp := luma_ext_pass1 src p i_src w h cx t0 in
  let T row col j := loadw tmp (row * 64 + col + j * 64) in
  if cy 1 =? cy 6 then
    let C0 := set1_epi16 (cy 0) in let C1 := set1_epi16 (cy 1) in
    let C2 := set1_epi16 (cy 2) in let C3 := set1_epi16 (cy 3) in
    vfor 0 (h - 3) 4 (fun row m =>
      let val := fun k col => let t j := T row col (k + j) in
        round12 (pairs8 unpacklo_epi16 C0 C1 C2 C3 (t 0) (t 7) (t 1) (t 6) (t 2) (t 5) (t 3) (t 4))
                (pairs8 unpackhi_epi16 C0 C1 C2 C3 (t 0) (t 7) (t 1) (t 6) (t 2) (t 5) (t 3) (t 4)) in
      (strip8 4 w junk (dst + row * i_dst) i_dst val val m, true)) m
  else
    let C k := cvtepi8_epi16 (set1_epi16 (load_i16 (cbytes cy) k)) in
    vfor 0 (h - 3) 4 (fun row m =>
      let val := fun k col => let t j := T row col (k + j) in
        round12 (pairs8 unpacklo_epi16 (C 0) (C 2) (C 4) (C 6) (t 0) (t 1) (t 2) (t 3) (t 4) (t 5) (t 6) (t 7))
                (pairs8 unpackhi_epi16 (C 0) (C 2) (C 4) (C 6) (t 0) (t 1) (t 2) (t 3) (t 4) (t 5) (t 6) (t 7)) in
      (strip8 4 w junk (dst + row * i_dst) i_dst val val m, true)) m.

(** The rows of the coefficient tables as the kernels are given them; a read past the end of
    [INTPL_FILTERS_C] finds [beyond] there. *)
Definition row_l (f : Z) (k : Z) : Z := nth (Z.to_nat (8 * f + k)) (concat intpl_filters) 0.
Definition row_c (beyond : Z -> Z) (f : Z) (k : Z) : Z :=
  if 4 * f + k <? 32 then nth (Z.to_nat (4 * f + k)) (concat intpl_filters_c) 0 else beyond (4 * f + k).

(** mc.cc:502-533 [mc_luma] and 537-562 [mc_chroma] with these kernels. *)
Definition mc_luma_sse (dst i_dst posx posy : Z) (w h : nat) (src : mem) (p_fref i_fref : Z) (junk : reg) (t0 m : mem) : mem :=
  let dx := Z.land posx 3 in let dy := Z.land posy 3 in
  let p := p_fref + Z.shiftr posy 2 * i_fref + Z.shiftr posx 2 in
  let W := Z.of_nat w in let H := Z.of_nat h in
  if (dx =? 0) && (dy =? 0) then mc_block_copy dst i_dst src p i_fref w h m
  else if dx =? 0 then luma_ver_sse dy dst i_dst src p i_fref W H (row_l dy) junk m
  else if dy =? 0 then luma_hor_sse dst i_dst src p i_fref W H (row_l dx) junk m
  else luma_ext_sse dst i_dst src p i_fref W H (row_l dx) (row_l dy) junk t0 m.
Definition mc_chroma_sse (beyond : Z -> Z) (dst i_dst posx posy : Z) (w h : nat) (src : mem) (p_fref i_fref : Z) (junk : reg) (t0 m : mem) : mem :=
  let dx := Z.land posx 7 in let dy := Z.land posy 7 in
  let p := p_fref + Z.shiftr posy 3 * i_fref + Z.shiftr posx 3 in
  let W := Z.of_nat w in let H := Z.of_nat h in
  if (dx =? 0) && (dy =? 0) then mc_block_copy dst i_dst src p i_fref w h m
  else if dx =? 0 then intpl_chroma_block_ver 8 dst i_dst src p i_fref w h (nth (Z.to_nat dy) intpl_filters_c []) m
  else if dy =? 0 then chroma_hor_sse dst i_dst src p i_fref W H (row_c beyond dx) junk m
  else chroma_ext_sse dst i_dst src p i_fref W H (row_c beyond dx) (row_c beyond dy) junk t0 m.
