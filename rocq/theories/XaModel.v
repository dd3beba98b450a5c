(** Assembly of the 8-bit build: the inverse transform of a 4x4 block and the addition of the residual.
    Definitions only. The instructions are those of VxModelBase, ViModel and VtModel. *)
From Coq Require Import ZArith List Bool.
From Verif Require Import CBase MemModel VxModelBase VdModel ViModel VjModel VtModel.
Import ListNotations.
Open Scope Z_scope.

(** x86/dct8.asm:38-41 [tab_dct4], its four lines of 16 bytes. *)
Definition tab_dct4 (k : Z) : ex :=
  if k =? 0 then Cst [32; 32; 32; 32; 32; 32; 32; 32] else if k =? 1 then Cst [42; 17; 42; 17; 42; 17; 42; 17]
  else if k =? 2 then Cst [32; -32; 32; -32; 32; -32; 32; -32] else Cst [17; -42; 17; -42; 17; -42; 17; -42].

(** x86/dct8.asm:193-281 [idct_4x4_sse2]: the instructions in order, registers by their numbers. [pd_16],
    [pd_512], [pd_2048] are four equal double words (x86/const-a.asm); the second shift and offset are
    chosen by the bit depth, 12 and 2048 or 10 and 512 ([SH2] and [RND2] of [kernel_params]). The stride
    in bytes is [2 * i_dst]; the address of the third line is kept in a register by the code. *)
Definition idct_4x4_asm : list ins :=
  let m0 := 0 in let m1 := 1 in let m2 := 2 in let m3 := 3 in let m4 := 4 in let m5 := 5 in let m6 := 6 in
  [Set_ m6 (S32 8 (I 16));
   Set_ m0 (Ld 8 0);
   Set_ m1 (Ld 8 8);
   Set_ m2 (lo16 (R m0) (R m1));
   Set_ m3 (madd (R m2) (tab_dct4 0));
   Set_ m3 (add32 (R m3) (R m6));
   Set_ m2 (madd (R m2) (tab_dct4 2));
   Set_ m2 (add32 (R m2) (R m6));
   Set_ m0 (hi16 (R m0) (R m1));
   Set_ m1 (madd (R m0) (tab_dct4 1));
   Set_ m0 (madd (R m0) (tab_dct4 3));
   Set_ m4 (add32 (R m3) (R m1));
   Set_ m4 (Sra32 (R m4) (I 5));
   Set_ m5 (add32 (R m2) (R m0));
   Set_ m5 (Sra32 (R m5) (I 5));
   Set_ m4 (packs32 (R m4) (R m5));
   Set_ m2 (sub32 (R m2) (R m0));
   Set_ m2 (Sra32 (R m2) (I 5));
   Set_ m3 (sub32 (R m3) (R m1));
   Set_ m3 (Sra32 (R m3) (I 5));
   Set_ m2 (packs32 (R m2) (R m3));
   Set_ m1 (lo16 (R m4) (R m2));
   Set_ m4 (hi16 (R m4) (R m2));
   Set_ m0 (lo16 (R m1) (R m4));
   Set_ m1 (hi16 (R m1) (R m4));
   Set_ m6 (S32 8 (Q RND2));
   Set_ m2 (lo16 (R m0) (R m1));
   Set_ m3 (madd (R m2) (tab_dct4 0));
   Set_ m3 (add32 (R m3) (R m6));
   Set_ m2 (madd (R m2) (tab_dct4 2));
   Set_ m2 (add32 (R m2) (R m6));
   Set_ m0 (hi16 (R m0) (R m1));
   Set_ m1 (madd (R m0) (tab_dct4 1));
   Set_ m0 (madd (R m0) (tab_dct4 3));
   Set_ m4 (add32 (R m3) (R m1));
   Set_ m4 (Sra32 (R m4) (Q SH2));
   Set_ m5 (add32 (R m2) (R m0));
   Set_ m5 (Sra32 (R m5) (Q SH2));
   Set_ m4 (packs32 (R m4) (R m5));
   Set_ m2 (sub32 (R m2) (R m0));
   Set_ m2 (Sra32 (R m2) (Q SH2));
   Set_ m3 (sub32 (R m3) (R m1));
   Set_ m3 (Sra32 (R m3) (Q SH2));
   Set_ m2 (packs32 (R m2) (R m3));
   Set_ m1 (lo16 (R m4) (R m2));
   Set_ m4 (hi16 (R m4) (R m2));
   Set_ m0 (lo16 (R m1) (R m4));
   St 4 0 0 0 (R m0);
   St 4 4 1 0 (R m0);
   Set_ m1 (hi16 (R m1) (R m4));
   St 4 0 2 0 (R m1);
   St 4 4 3 0 (R m1)].

(** x86/pixeladd8.asm, the functions for 8-bit samples. [s] is the destination and the prediction (both
    are the same block, transform.cc:927), [st] its stride; [r] is the memory of residual words, [p] and
    [rs] place and stride in it. A load of the residual into a 4-sample function reads 8 bytes only;
    the words above them do not reach a stored byte and are taken from memory here. *)
Section Add.
  Variables (s st : Z) (r : mem) (p rs : Z).
  (** [pmovzxbw] of line [y] from column [c], [movu] of the residual, [paddw]. *)
  Definition psum (m : mem) (y c : Z) : reg := add_epi16 (cvtepu8_epi16 (load m (s + y * st + c))) (loadw r (p + y * rs + c)).
  (** pixeladd8.asm:70-98 [4x4_sse4] and :145-180 [4x%2_sse4], one turn of the loop: four lines; :238-274 [8x%2_sse4]. *)
  Definition add_narrow (w : Z) (y : Z) (m : mem) : mem :=
    let m0 := psum m y 0 in let m2 := psum m (y + 1) 0 in let m4 := psum m (y + 2) 0 in let m6 := psum m (y + 3) 0 in
    let m0 := packus_epi16 m0 m0 in let m2 := packus_epi16 m2 m2 in let m4 := packus_epi16 m4 m4 in let m6 := packus_epi16 m6 m6 in
    let m := store_n w m (s + y * st) m0 in
    let m := store_n w m (s + (y + 1) * st) m2 in
    let m := store_n w m (s + (y + 2) * st) m4 in
    store_n w m (s + (y + 3) * st) m6.
  (** pixeladd8.asm:355-407 [16x%2_sse4], half a turn: two lines. *)
  Definition add_16_sse4 (y : Z) (m : mem) : mem :=
    let m0 := psum m y 0 in let m1 := psum m y 8 in let m4 := psum m (y + 1) 0 in let m5 := psum m (y + 1) 8 in
    let m0 := packus_epi16 m0 m1 in let m4 := packus_epi16 m4 m5 in
    let m := store16 m (s + y * st) m0 in
    store16 m (s + (y + 1) * st) m4.
  (** pixeladd8.asm:467-510 [16x%1_avx2], one turn: four lines. *)
  Definition add_16_avx2 (y : Z) (m : mem) : mem :=
    let m0 := psum m y 0 in let m1 := psum m (y + 1) 0 in let m0 := packus_epi16 m0 m1 in
    let m2 := psum m (y + 2) 0 in let m3 := psum m (y + 3) 0 in let m2 := packus_epi16 m2 m3 in
    let m0 := permute4x64 m0 216 in
    let m := store16 m (s + y * st) m0 in
    let m := store16 m (s + (y + 1) * st) (extracti128_1 m0) in
    let m2 := permute4x64 m2 216 in
    let m := store16 m (s + (y + 2) * st) m2 in
    store16 m (s + (y + 3) * st) (extracti128_1 m2).
  (** pixeladd8.asm:590-640 [32x%2_sse4] and :908-977 [64x%2_sse4]: 32 samples of one line from column [c]. *)
  Definition add_32_part (c : Z) (y : Z) (m : mem) : mem :=
    let m0 := psum m y c in let m1 := psum m y (c + 8) in let m2 := psum m y (c + 16) in let m3 := psum m y (c + 24) in
    let m0 := packus_epi16 m0 m1 in let m2 := packus_epi16 m2 m3 in
    let m := store16 m (s + y * st + c) m0 in
    store16 m (s + y * st + (c + 16)) m2.
  Definition add_32_sse4 (y : Z) (m : mem) : mem := add_32_part 0 (y + 1) (add_32_part 0 y m).
  Definition add_64_sse4 (y : Z) (m : mem) : mem :=
    add_32_part 32 (y + 1) (add_32_part 0 (y + 1) (add_32_part 32 y (add_32_part 0 y m))).
  (** pixeladd8.asm:721-778 [32x%1_avx2], a line of a turn of four lines. *)
  Definition add_32_line (y : Z) (m : mem) : mem :=
    let m0 := psum m y 0 in let m1 := psum m y 16 in
    let m0 := permute4x64 (packus_epi16 m0 m1) 216 in
    store32 m (s + y * st) m0.
  Definition add_32_avx2 (y : Z) (m : mem) : mem := add_32_line (y + 3) (add_32_line (y + 2) (add_32_line (y + 1) (add_32_line y m))).
  (** pixeladd8.asm:1117-1176 [64x%1_avx2], a line of a turn of two lines. *)
  Definition add_64_line (y : Z) (m : mem) : mem :=
    let m0 := psum m y 0 in let m1 := psum m y 16 in let m2 := psum m y 32 in let m3 := psum m y 48 in
    let m0 := packus_epi16 m0 m1 in let m2 := packus_epi16 m2 m3 in
    let m := store32 m (s + y * st) (permute4x64 m0 216) in
    store32 m (s + y * st + 32) (permute4x64 m2 216).
  Definition add_64_avx2 (y : Z) (m : mem) : mem := add_64_line (y + 1) (add_64_line y m).

  (** A function runs [n] turns of [k] lines. *)
  Definition turns (k n : Z) (f : Z -> mem -> mem) (m : mem) : mem := MemModel.loop (Z.to_nat n) (fun i m => f (k * i) m) m.
  (** The functions by width, height and whether AVX2 is chosen (pixel.cc:262-281, 362-377): AVX2 has
      none for the widths 4 and 8. Half a turn of 16x%2_sse4 is a turn here. *)
  Definition add_ps_asm (avx2 : bool) (w h : Z) (m : mem) : option mem :=
    if (w =? 4) || (w =? 8) then Some (turns 4 (h / 4) (add_narrow w) m)
    else if w =? 16 then Some (if avx2 then turns 4 (h / 4) add_16_avx2 m else turns 2 (2 * (h / 4)) add_16_sse4 m)
    else if w =? 32 then Some (if avx2 then turns 4 (h / 4) add_32_avx2 m else turns 2 (h / 2) add_32_sse4 m)
    else if w =? 64 then Some (if avx2 then turns 2 (h / 2) add_64_avx2 m else turns 2 (h / 2) add_64_sse4 m)
    else None.
End Add.
