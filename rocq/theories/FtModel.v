(** The table of functions and how it is filled.  Definitions only.

    Configuration modelled: HAVE_MMX and ARCH_X86_64 set, HIGH_BIT_DEPTH, USE_NEW_INTPL, HDR_CHROMA_DELTA_QP and _MSC_VER not set. *)
From Coq Require Import ZArith List Bool.
From Verif Require Import CBase CpModel.
Import ListNotations.
Open Scope Z_scope.

(** common.h:259-273, the numbers of the block shapes *)
Definition PART_4x4 := 0.  Definition PART_8x8 := 1.  Definition PART_16x16 := 2.  Definition PART_32x32 := 3.  Definition PART_64x64 := 4.
Definition PART_8x4 := 5.  Definition PART_4x8 := 6.  Definition PART_16x8 := 7.  Definition PART_8x16 := 8.
Definition PART_32x16 := 9.  Definition PART_16x32 := 10.  Definition PART_64x32 := 11.  Definition PART_32x64 := 12.
Definition PART_16x12 := 13.  Definition PART_12x16 := 14.  Definition PART_16x4 := 15.  Definition PART_4x16 := 16.
Definition PART_32x24 := 17.  Definition PART_24x32 := 18.  Definition PART_32x8 := 19.  Definition PART_8x32 := 20.
Definition PART_64x48 := 21.  Definition PART_48x64 := 22.  Definition PART_64x16 := 23.  Definition PART_16x64 := 24.
(** common.h:278-284 *)
Definition DCT_DEAULT := 0.  Definition DCT_HALF := 1.  Definition DCT_QUAD := 2.  Definition DCT_PATTERN_NUM := 3%nat.

(** pixel.cc:49-67 *)
Definition partition_map : list Z :=
 [PART_4x4;  PART_4x8;  255;        PART_4x16;  255; 255;        255; 255;        255; 255; 255; 255;        255; 255; 255; 255;
  PART_8x4;  PART_8x8;  255;        PART_8x16;  255; 255;        255; PART_8x32;  255; 255; 255; 255;        255; 255; 255; 255;
  255;       255;       255;        PART_12x16; 255; 255;        255; 255;        255; 255; 255; 255;        255; 255; 255; 255;
  PART_16x4; PART_16x8; PART_16x12; PART_16x16; 255; 255;        255; PART_16x32; 255; 255; 255; 255;        255; 255; 255; PART_16x64;
  255;       255;       255;        255;        255; 255;        255; 255;        255; 255; 255; 255;        255; 255; 255; 255;
  255;       255;       255;        255;        255; 255;        255; PART_24x32; 255; 255; 255; 255;        255; 255; 255; 255;
  255;       255;       255;        255;        255; 255;        255; 255;        255; 255; 255; 255;        255; 255; 255; 255;
  255;       PART_32x8; 255;        PART_32x16; 255; PART_32x24; 255; PART_32x32; 255; 255; 255; 255;        255; 255; 255; PART_32x64;
  255;       255;       255;        255;        255; 255;        255; 255;        255; 255; 255; 255;        255; 255; 255; 255;
  255;       255;       255;        255;        255; 255;        255; 255;        255; 255; 255; 255;        255; 255; 255; 255;
  255;       255;       255;        255;        255; 255;        255; 255;        255; 255; 255; 255;        255; 255; 255; 255;
  255;       255;       255;        255;        255; 255;        255; 255;        255; 255; 255; 255;        255; 255; 255; PART_48x64;
  255;       255;       255;        255;        255; 255;        255; 255;        255; 255; 255; 255;        255; 255; 255; 255;
  255;       255;       255;        255;        255; 255;        255; 255;        255; 255; 255; 255;        255; 255; 255; 255;
  255;       255;       255;        255;        255; 255;        255; 255;        255; 255; 255; 255;        255; 255; 255; 255;
  255;       255;       255;        PART_64x16; 255; 255;        255; PART_64x32; 255; 255; 255; PART_64x48; 255; 255; 255; PART_64x64].
(** common.h:843; an index outside the table is undefined, and so is the use of entry 255 of a table of 25 functions. *)
Definition part_index (w h : Z) : outcome Z :=
  let i := Z.shiftl (Z.shiftr w 2 - 1) 4 + Z.shiftr h 2 - 1 in
  if (i <? 0) || (256 <=? i) then Undef
  else let p := nth (Z.to_nat i) partition_map 255 in if p <? 25 then Done p else Undef.

(** The end of a function name: which version it is. *)
Inductive version := v_c | v_mmx | v_sse2 | v_sse128 | v_ssse3 | v_sse4 | v_avx | v_avx2.
(** The rest of a function name.  [f_fill k]: fill_reference_samples_ and fill_edge_samples_ with 0, x, y, xy for k = 0..3;
    [f_ang_x], [f_ang_xy], [f_ang_y]: the functions for all angles, with a number those for one angle;
    [f_idct w h p]: idct_wxh, with p = 1 _half and p = 2 _quad; [f_alf2] is alf_filter_block2, [f_alf1] the other two. *)
Inductive fname :=
| f_memcpy | f_fast_memcpy | f_memcpy_aligned | f_memset | f_fast_memset | f_memzero_aligned | f_fast_memzero
| f_fill (k : Z) | f_dc | f_plane | f_bilinear | f_ver | f_hor | f_ang_x | f_ang_xy | f_ang_y
| f_ang_x_n (m : Z) | f_ang_xy_n (m : Z) | f_ang_y_n (m : Z)
| f_add_ps (w h : Z) | f_copy_pp (w h : Z) | f_copy_ss (w h : Z)
| f_plane_copy | f_block_copy | f_block_copy_sc | f_average
| f_luma_hor | f_luma_ver | f_luma_ver_n (k : Z) | f_luma_ext | f_chroma_hor | f_chroma_ver | f_chroma_ext
| f_dequant | f_inv_4x4_2nd | f_inv_2nd | f_idct (w h p : Z)
| f_edge_ver | f_edge_hor | f_edge_ver_c | f_edge_hor_c | f_sao_bo | f_sao_eo (a : Z) | f_alf1 | f_alf2.
Definition func : Type := fname * version.
(** primitives.h:94-170, the members of the table ([set_deblock_const] stays NULL and header.cc:307 asks for that). *)
Inductive slot :=
| s_fast_memcpy | s_fast_memset | s_memcpy_aligned | s_fast_memzero | s_memzero_aligned
| s_fill (k : Z) | s_intra (m : Z) | s_add_ps (p : Z) | s_copy_pp (p : Z) | s_copy_ss (p : Z)
| s_plane_copy | s_block_copy | s_block_coeff_copy | s_block_avg
| s_luma_ver (i k : Z) | s_luma_hor (i k : Z) | s_luma_ext (i : Z) | s_chroma_ver (i : Z) | s_chroma_hor (i : Z) | s_chroma_ext (i : Z)
| s_dequant | s_inv_4x4_2nd | s_inv_2nd | s_idct (p i : Z)
| s_deblock_luma (d : Z) | s_deblock_chroma (d : Z) | s_sao_bo | s_sao_eo (a : Z) | s_alf (i : Z).

(** One assignment [fh->slot = f] under [if (cpuid & guard)]; guard 0 stands for no condition. *)
Record assign := Asg { guard : Z; target : slot; value : func }.
Definition under (g : Z) (l : list (slot * func)) : list assign := map (fun a => Asg g (fst a) (snd a)) l.
Definition upto (a b : nat) : list Z := map Z.of_nat (seq a (b - a)).

(** memory.cc:49-83 *)
Definition memory_init : list assign :=
  under 0 [(s_fast_memcpy, (f_memcpy, v_c)); (s_fast_memset, (f_memset, v_c)); (s_memcpy_aligned, (f_memcpy, v_c));
           (s_fast_memzero, (f_memzero_aligned, v_c)); (s_memzero_aligned, (f_memzero_aligned, v_c))] ++
  under F_MMX [(s_fast_memcpy, (f_fast_memcpy, v_mmx)); (s_memcpy_aligned, (f_memcpy_aligned, v_mmx)); (s_fast_memset, (f_fast_memset, v_mmx));
               (s_fast_memzero, (f_fast_memzero, v_mmx)); (s_memzero_aligned, (f_fast_memzero, v_mmx))] ++
  under F_SSE2 [(s_memzero_aligned, (f_memzero_aligned, v_sse2))] ++
  under F_AVX2 [(s_memzero_aligned, (f_memzero_aligned, v_avx))].

(** intra.cc:2577-2704; by defines.h:140-165 DC_PRED 0, PLANE_PRED 1, BI_PRED 2, VERT_PRED 12, HOR_PRED 24, NUM_INTRA_MODE 33, INTRA_ANG_x_n = n. *)
Definition intra_init : list assign :=
  under 0
   ([(s_fill 0, (f_fill 0, v_c)); (s_fill 1, (f_fill 1, v_c)); (s_fill 2, (f_fill 2, v_c)); (s_fill 3, (f_fill 3, v_c));
     (s_intra 0, (f_dc, v_c)); (s_intra 1, (f_plane, v_c)); (s_intra 2, (f_bilinear, v_c))] ++
    map (fun i => (s_intra i, (f_ang_x, v_c))) (upto 3 12) ++ [(s_intra 12, (f_ver, v_c))] ++
    map (fun i => (s_intra i, (f_ang_xy, v_c))) (upto 13 24) ++ [(s_intra 24, (f_hor, v_c))] ++
    map (fun i => (s_intra i, (f_ang_y, v_c))) (upto 25 33) ++
    map (fun i => (s_intra i, (f_ang_x_n i, v_c))) [3; 4; 5; 6; 7; 8; 9; 10; 11] ++
    map (fun i => (s_intra i, (f_ang_xy_n i, v_c))) [13; 14; 16; 18; 20; 22; 23] ++
    map (fun i => (s_intra i, (f_ang_y_n i, v_c))) [25; 26; 27; 28; 29; 30; 31; 32]) ++
  under F_SSE4
   ([(s_intra 0, (f_dc, v_sse128)); (s_intra 1, (f_plane, v_sse128)); (s_intra 2, (f_bilinear, v_sse128));
     (s_intra 24, (f_hor, v_sse128)); (s_intra 12, (f_ver, v_sse128))] ++
    map (fun i => (s_intra i, (f_ang_x_n i, v_sse128))) [3; 4; 6; 8; 10] ++
    map (fun i => (s_intra i, (f_ang_xy_n i, v_sse128))) [14; 16; 18; 20] ++
    [(s_intra 5, (f_ang_x_n 5, v_sse128))] ++
    map (fun i => (s_intra i, (f_ang_xy_n i, v_sse128))) [13; 22; 23] ++
    map (fun i => (s_intra i, (f_ang_y_n i, v_sse128))) [25; 26; 28; 30; 31; 32] ++
    [(s_fill 0, (f_fill 0, v_sse128)); (s_fill 1, (f_fill 1, v_sse128)); (s_fill 2, (f_fill 2, v_sse128)); (s_fill 3, (f_fill 3, v_sse128))]) ++
  under F_AVX2
   ([(s_intra 0, (f_dc, v_avx)); (s_intra 24, (f_hor, v_avx)); (s_intra 12, (f_ver, v_avx)); (s_intra 1, (f_plane, v_avx)); (s_intra 2, (f_bilinear, v_avx))] ++
    map (fun i => (s_intra i, (f_ang_x_n i, v_avx))) [3; 4; 5; 6; 8; 10] ++
    map (fun i => (s_intra i, (f_ang_xy_n i, v_avx))) [13; 14; 16; 18; 20; 23] ++
    map (fun i => (s_intra i, (f_ang_y_n i, v_avx))) [25; 26; 28; 30; 31; 32]).

(** pixel.cc:160-186, ALL_LUMA_PU: the shapes in its order *)
Definition all_luma_pu (s : Z -> slot) (f : Z -> Z -> fname) (v : version) : list (slot * func) :=
 [(s PART_64x64, (f 64 64, v)); (s PART_64x32, (f 64 32, v)); (s PART_32x64, (f 32 64, v)); (s PART_64x16, (f 64 16, v)); (s PART_64x48, (f 64 48, v));
  (s PART_16x64, (f 16 64, v)); (s PART_48x64, (f 48 64, v)); (s PART_32x32, (f 32 32, v)); (s PART_32x16, (f 32 16, v)); (s PART_16x32, (f 16 32, v));
  (s PART_32x8, (f 32 8, v)); (s PART_32x24, (f 32 24, v)); (s PART_8x32, (f 8 32, v)); (s PART_24x32, (f 24 32, v)); (s PART_16x16, (f 16 16, v));
  (s PART_16x8, (f 16 8, v)); (s PART_8x16, (f 8 16, v)); (s PART_16x4, (f 16 4, v)); (s PART_16x12, (f 16 12, v)); (s PART_4x16, (f 4 16, v));
  (s PART_12x16, (f 12 16, v)); (s PART_8x8, (f 8 8, v)); (s PART_8x4, (f 8 4, v)); (s PART_4x8, (f 4 8, v)); (s PART_4x4, (f 4 4, v))].
(** pixel.cc:188-413 *)
Definition pixel_init : list assign :=
  under 0 (all_luma_pu s_add_ps f_add_ps v_c ++ all_luma_pu s_copy_pp f_copy_pp v_c ++ all_luma_pu s_copy_ss f_copy_ss v_c) ++
  under F_SSE2 (all_luma_pu s_copy_pp f_copy_pp v_sse2 ++ all_luma_pu s_copy_ss f_copy_ss v_sse2) ++
  under F_SSE4
   [(s_add_ps PART_4x4, (f_add_ps 4 4, v_sse4)); (s_add_ps PART_4x8, (f_add_ps 4 8, v_sse4)); (s_add_ps PART_4x16, (f_add_ps 4 16, v_sse4));
    (s_add_ps PART_8x8, (f_add_ps 8 8, v_sse4)); (s_add_ps PART_8x16, (f_add_ps 8 16, v_sse4)); (s_add_ps PART_8x32, (f_add_ps 8 32, v_sse4));
    (s_add_ps PART_16x4, (f_add_ps 16 4, v_sse4)); (s_add_ps PART_16x8, (f_add_ps 16 8, v_sse4)); (s_add_ps PART_16x12, (f_add_ps 16 12, v_sse4));
    (s_add_ps PART_16x16, (f_add_ps 16 16, v_sse4)); (s_add_ps PART_16x64, (f_add_ps 16 64, v_sse4)); (s_add_ps PART_32x8, (f_add_ps 32 8, v_sse4));
    (s_add_ps PART_32x16, (f_add_ps 32 16, v_sse4)); (s_add_ps PART_32x24, (f_add_ps 32 24, v_sse4)); (s_add_ps PART_32x32, (f_add_ps 32 32, v_sse4));
    (s_add_ps PART_32x64, (f_add_ps 32 64, v_sse4)); (s_add_ps PART_64x16, (f_add_ps 64 16, v_sse4)); (s_add_ps PART_64x32, (f_add_ps 64 32, v_sse4));
    (s_add_ps PART_64x48, (f_add_ps 64 48, v_sse4)); (s_add_ps PART_64x64, (f_add_ps 64 64, v_sse4))] ++
  under F_AVX
   [(s_copy_pp PART_64x64, (f_copy_pp 64 64, v_avx)); (s_copy_pp PART_64x32, (f_copy_pp 64 32, v_avx)); (s_copy_pp PART_32x64, (f_copy_pp 32 64, v_avx));
    (s_copy_pp PART_64x16, (f_copy_pp 64 16, v_avx)); (s_copy_pp PART_64x48, (f_copy_pp 64 48, v_avx)); (s_copy_pp PART_48x64, (f_copy_pp 48 64, v_avx));
    (s_copy_pp PART_32x32, (f_copy_pp 32 32, v_avx)); (s_copy_pp PART_32x16, (f_copy_pp 32 16, v_avx)); (s_copy_pp PART_32x8, (f_copy_pp 32 8, v_avx));
    (s_copy_pp PART_32x24, (f_copy_pp 32 24, v_avx));
    (s_copy_ss PART_64x64, (f_copy_ss 64 64, v_avx)); (s_copy_ss PART_64x32, (f_copy_ss 64 32, v_avx)); (s_copy_ss PART_32x64, (f_copy_ss 32 64, v_avx));
    (s_copy_ss PART_64x16, (f_copy_ss 64 16, v_avx)); (s_copy_ss PART_64x48, (f_copy_ss 64 48, v_avx)); (s_copy_ss PART_16x64, (f_copy_ss 16 64, v_avx));
    (s_copy_ss PART_48x64, (f_copy_ss 48 64, v_avx)); (s_copy_ss PART_32x32, (f_copy_ss 32 32, v_avx)); (s_copy_ss PART_32x16, (f_copy_ss 32 16, v_avx));
    (s_copy_ss PART_16x32, (f_copy_ss 16 32, v_avx)); (s_copy_ss PART_32x8, (f_copy_ss 32 8, v_avx)); (s_copy_ss PART_32x24, (f_copy_ss 32 24, v_avx));
    (s_copy_ss PART_24x32, (f_copy_ss 24 32, v_avx)); (s_copy_ss PART_16x16, (f_copy_ss 16 16, v_avx)); (s_copy_ss PART_16x8, (f_copy_ss 16 8, v_avx));
    (s_copy_ss PART_16x4, (f_copy_ss 16 4, v_avx)); (s_copy_ss PART_16x12, (f_copy_ss 16 12, v_avx))] ++
  under F_AVX2
   [(s_add_ps PART_16x4, (f_add_ps 16 4, v_avx2)); (s_add_ps PART_16x8, (f_add_ps 16 8, v_avx2)); (s_add_ps PART_16x12, (f_add_ps 16 12, v_avx2));
    (s_add_ps PART_16x16, (f_add_ps 16 16, v_avx2)); (s_add_ps PART_16x64, (f_add_ps 16 64, v_avx2)); (s_add_ps PART_32x8, (f_add_ps 32 8, v_avx2));
    (s_add_ps PART_32x16, (f_add_ps 32 16, v_avx2)); (s_add_ps PART_32x24, (f_add_ps 32 24, v_avx2)); (s_add_ps PART_32x32, (f_add_ps 32 32, v_avx2));
    (s_add_ps PART_32x64, (f_add_ps 32 64, v_avx2)); (s_add_ps PART_64x16, (f_add_ps 64 16, v_avx2)); (s_add_ps PART_64x32, (f_add_ps 64 32, v_avx2));
    (s_add_ps PART_64x48, (f_add_ps 64 48, v_avx2)); (s_add_ps PART_64x64, (f_add_ps 64 64, v_avx2))].

(** mc.cc:632-765 *)
Definition mc_init : list assign :=
  under 0
   ([(s_plane_copy, (f_plane_copy, v_c)); (s_block_copy, (f_block_copy, v_c)); (s_block_coeff_copy, (f_block_copy_sc, v_c)); (s_block_avg, (f_average, v_c))] ++
    flat_map (fun i =>
     [(s_luma_ver i 0, (f_luma_ver, v_c)); (s_luma_ver i 1, (f_luma_ver, v_c)); (s_luma_ver i 2, (f_luma_ver, v_c));
      (s_luma_hor i 0, (f_luma_hor, v_c)); (s_luma_hor i 1, (f_luma_hor, v_c)); (s_luma_hor i 2, (f_luma_hor, v_c)); (s_luma_ext i, (f_luma_ext, v_c));
      (s_chroma_ver i, (f_chroma_ver, v_c)); (s_chroma_hor i, (f_chroma_hor, v_c)); (s_chroma_ext i, (f_chroma_ext, v_c))]) [0; 1]) ++
  under F_SSE2 [(s_plane_copy, (f_plane_copy, v_sse2))] ++
  under F_SSE4
   ([(s_block_avg, (f_average, v_sse128))] ++
    flat_map (fun i =>
     [(s_luma_hor i 0, (f_luma_hor, v_sse128)); (s_luma_hor i 1, (f_luma_hor, v_sse128)); (s_luma_hor i 2, (f_luma_hor, v_sse128));
      (s_luma_ext i, (f_luma_ext, v_sse128)); (s_chroma_hor i, (f_chroma_hor, v_sse128)); (s_chroma_ext i, (f_chroma_ext, v_sse128))]) [0; 1] ++
    flat_map (fun i =>
     [(s_luma_ver i 0, (f_luma_ver, v_sse128)); (s_luma_ver i 1, (f_luma_ver, v_sse128)); (s_luma_ver i 2, (f_luma_ver, v_sse128))]) [0; 1] ++
    flat_map (fun i =>
     [(s_luma_ver i 0, (f_luma_ver_n 0, v_sse128)); (s_luma_ver i 1, (f_luma_ver_n 1, v_sse128)); (s_luma_ver i 2, (f_luma_ver_n 2, v_sse128))]) [0; 1]) ++
  under F_AVX2
   [(s_luma_hor 1 0, (f_luma_hor, v_avx2)); (s_luma_hor 1 1, (f_luma_hor, v_avx2)); (s_luma_hor 1 2, (f_luma_hor, v_avx2)); (s_luma_ext 1, (f_luma_ext, v_avx2));
    (s_chroma_ver 1, (f_chroma_ver, v_avx2)); (s_chroma_hor 1, (f_chroma_hor, v_avx2)); (s_chroma_ext 1, (f_chroma_ext, v_avx2));
    (s_luma_ver 1 0, (f_luma_ver, v_avx2)); (s_luma_ver 1 1, (f_luma_ver, v_avx2)); (s_luma_ver 1 2, (f_luma_ver, v_avx2));
    (s_luma_ver 1 0, (f_luma_ver_n 0, v_avx2)); (s_luma_ver 1 1, (f_luma_ver_n 1, v_avx2)); (s_luma_ver 1 2, (f_luma_ver_n 2, v_avx2))].

(** quant.cc:309-320 *)
Definition quant_init : list assign := under 0 [(s_dequant, (f_dequant, v_c))] ++ under F_SSE4 [(s_dequant, (f_dequant, v_sse4))].

(** transform.cc:941-954 and 963-975: one turn of the loops *)
Definition idct_full (v : version) (i : Z) : list (slot * func) :=
 [(s_idct PART_4x4 i, (f_idct 4 4 0, v)); (s_idct PART_8x8 i, (f_idct 8 8 0, v)); (s_idct PART_16x16 i, (f_idct 16 16 0, v));
  (s_idct PART_32x32 i, (f_idct 32 32 0, v)); (s_idct PART_64x64 i, (f_idct 64 64 0, v)); (s_idct PART_4x16 i, (f_idct 4 16 0, v));
  (s_idct PART_8x32 i, (f_idct 8 32 0, v)); (s_idct PART_16x4 i, (f_idct 16 4 0, v)); (s_idct PART_32x8 i, (f_idct 32 8 0, v));
  (s_idct PART_64x16 i, (f_idct 64 16 0, v)); (s_idct PART_16x64 i, (f_idct 16 64 0, v))].
(** transform.cc:932-1057 *)
Definition dct_init : list assign :=
  under 0 ([(s_inv_4x4_2nd, (f_inv_4x4_2nd, v_c)); (s_inv_2nd, (f_inv_2nd, v_c))] ++ flat_map (idct_full v_c) (upto 0 DCT_PATTERN_NUM)) ++
  under F_SSE2
   ([(s_inv_4x4_2nd, (f_inv_4x4_2nd, v_sse128)); (s_inv_2nd, (f_inv_2nd, v_sse128))] ++
    flat_map (fun i => idct_full v_sse128 i ++ [(s_idct PART_4x4 i, (f_idct 4 4 0, v_sse2)); (s_idct PART_8x8 i, (f_idct 8 8 0, v_sse2))]) (upto 0 DCT_PATTERN_NUM)) ++
  under F_SSSE3 (map (fun i => (s_idct PART_8x8 i, (f_idct 8 8 0, v_ssse3))) (upto 0 DCT_PATTERN_NUM)) ++
  under F_SSE2
   [(s_idct PART_8x8 DCT_HALF, (f_idct 8 8 1, v_sse128)); (s_idct PART_8x8 DCT_QUAD, (f_idct 8 8 2, v_sse128));
    (s_idct PART_16x16 DCT_HALF, (f_idct 16 16 1, v_sse128)); (s_idct PART_16x16 DCT_QUAD, (f_idct 16 16 2, v_sse128));
    (s_idct PART_32x32 DCT_HALF, (f_idct 32 32 1, v_sse128)); (s_idct PART_32x32 DCT_QUAD, (f_idct 32 32 2, v_sse128));
    (s_idct PART_64x64 DCT_HALF, (f_idct 64 64 1, v_sse128)); (s_idct PART_64x64 DCT_QUAD, (f_idct 64 64 2, v_sse128));
    (s_idct PART_4x16 DCT_HALF, (f_idct 4 16 1, v_sse128)); (s_idct PART_4x16 DCT_QUAD, (f_idct 4 16 2, v_sse128));
    (s_idct PART_16x4 DCT_HALF, (f_idct 16 4 1, v_sse128)); (s_idct PART_16x4 DCT_QUAD, (f_idct 16 4 2, v_sse128));
    (s_idct PART_8x32 DCT_QUAD, (f_idct 8 32 2, v_sse128)); (s_idct PART_8x32 DCT_HALF, (f_idct 8 32 1, v_sse128));
    (s_idct PART_32x8 DCT_HALF, (f_idct 32 8 1, v_sse128)); (s_idct PART_32x8 DCT_QUAD, (f_idct 32 8 2, v_sse128));
    (s_idct PART_16x64 DCT_HALF, (f_idct 16 64 1, v_sse128)); (s_idct PART_16x64 DCT_QUAD, (f_idct 16 64 2, v_sse128));
    (s_idct PART_64x16 DCT_HALF, (f_idct 64 16 1, v_sse128)); (s_idct PART_64x16 DCT_QUAD, (f_idct 64 16 2, v_sse128))] ++
  under F_AVX2
   [(s_idct PART_8x8 DCT_DEAULT, (f_idct 8 8 0, v_avx2)); (s_idct PART_16x16 DCT_DEAULT, (f_idct 16 16 0, v_avx2));
    (s_idct PART_64x64 DCT_DEAULT, (f_idct 64 64 0, v_avx2)); (s_idct PART_64x16 DCT_DEAULT, (f_idct 64 16 0, v_avx2));
    (s_idct PART_16x64 DCT_DEAULT, (f_idct 16 64 0, v_avx2)); (s_idct PART_32x32 DCT_DEAULT, (f_idct 32 32 0, v_avx2))].

(** deblock.cc:552-584; [d] is the direction, 0 for vertical edges *)
Definition deblock_init : list assign :=
  flat_map (fun gv => under (fst gv)
    [(s_deblock_luma 0, (f_edge_ver, snd gv)); (s_deblock_luma 1, (f_edge_hor, snd gv));
     (s_deblock_chroma 0, (f_edge_ver_c, snd gv)); (s_deblock_chroma 1, (f_edge_hor_c, snd gv))]) [(0, v_c); (F_SSE4, v_sse128)].
(** sao.cc:638-664; SAO_TYPE_EO_0, _90, _135, _45 are 0, 1, 2, 3 (common.h:385-388) and the functions are named by the angle. *)
Definition sao_init : list assign :=
  flat_map (fun gv => under (fst gv)
    [(s_sao_bo, (f_sao_bo, snd gv)); (s_sao_eo 0, (f_sao_eo 0, snd gv)); (s_sao_eo 3, (f_sao_eo 45, snd gv));
     (s_sao_eo 1, (f_sao_eo 90, snd gv)); (s_sao_eo 2, (f_sao_eo 135, snd gv))]) [(0, v_c); (F_SSE4, v_sse128); (F_AVX2, v_avx2)].
(** alf.cc:507-524 *)
Definition alf_init : list assign :=
  under 0 [(s_alf 0, (f_alf1, v_c)); (s_alf 1, (f_alf2, v_c))] ++ under F_SSE4 [(s_alf 0, (f_alf1, v_sse128))].

(** primitives.cc:62-71 *)
Definition all_inits : list assign :=
  memory_init ++ intra_init ++ pixel_init ++ mc_init ++ quant_init ++ dct_init ++ deblock_init ++ sao_init ++ alf_init.

Definition slot_eq (a b : slot) : {a = b} + {a <> b}.
Proof. decide equality; apply Z.eq_dec. Defined.
(** The table: what a member holds, [None] for NULL.  gf_davs2 starts as zeros (primitives.cc:46). *)
Definition table : Type := slot -> option func.
Definition assign_one (cpuid : Z) (t : table) (a : assign) : table :=
  if (guard a =? 0) || any cpuid (guard a) then fun s => if slot_eq s (target a) then Some (value a) else t s else t.
Definition fill_table (cpuid : Z) (t : table) : table := fold_left (assign_one cpuid) all_inits t.

(** gf_davs2: the counter, an unsigned of 32 bits, and the functions. *)
Record prims := Prims { count : Z; funcs : table }.
Definition prims0 : prims := Prims 0 (fun _ => None).
(** primitives.cc:51-72 *)
Definition init_all (cpuid : Z) (g : prims) : prims :=
  if count g =? 0 then Prims 1 (fill_table cpuid (funcs g)) else Prims ((count g + 1) mod 2 ^ 32) (funcs g).
(** davs2.cc:468-474: opening a decoder, one call after the other *)
Definition open_one (detected : Z) (g : prims) (disable_avx : bool) : prims := init_all (chosen disable_avx detected) g.
Definition opens (detected : Z) (params : list bool) : prims := fold_left (open_one detected) params prims0.

(** The calls through the table and the member each of them uses: mc.cc:502-562 (with MC_PART_INDEX of primitives.h:48), transform.cc:845-858, 927,
    intra.h:45, 51, intra.cc:2528, 2566, 2567, quant.cc:303, deblock.cc:446-477, sao.cc:578-628, alf.cc:450-483, cu.cc:1047-1095 and others for the plain members.
    [c_luma w h dx dy], [c_chroma w h dx dy]: a block of the reference is copied or interpolated, with dx, dy the fractions. *)
Inductive call :=
| c_luma (w h dx dy : Z) | c_chroma (w h dx dy : Z) | c_idct (w h p : Z) | c_add (w h : Z) | c_second_4x4 | c_second
| c_intra (m : Z) | c_fill (k : Z) | c_dequant | c_deblock_luma (d : Z) | c_deblock_chroma (d : Z) | c_sao_bo | c_sao_eo (a : Z) | c_alf (i : Z)
| c_average | c_plane_copy | c_fast_memcpy | c_memcpy_aligned | c_fast_memzero.
Definition mc_part_index (w : Z) : Z := if 8 <? w then 1 else 0.
Definition called (c : call) : outcome slot :=
  match c with
  | c_luma w h dx dy =>
    if (dx =? 0) && (dy =? 0) then bindo (part_index w h) (fun p => Done (s_copy_pp p))
    else if dx =? 0 then Done (s_luma_ver (mc_part_index w) (dy - 1))
    else if dy =? 0 then Done (s_luma_hor (mc_part_index w) (dx - 1)) else Done (s_luma_ext (mc_part_index w))
  | c_chroma w h dx dy =>
    if (dx =? 0) && (dy =? 0) then
      if negb (w =? 2) && negb (w =? 6) && negb (h =? 2) && negb (h =? 6) then bindo (part_index w h) (fun p => Done (s_copy_pp p)) else Done s_block_copy
    else if dx =? 0 then Done (s_chroma_ver (mc_part_index w))
    else if dy =? 0 then Done (s_chroma_hor (mc_part_index w)) else Done (s_chroma_ext (mc_part_index w))
  | c_idct w h p => bindo (part_index w h) (fun q => Done (s_idct q p))
  | c_add w h => bindo (part_index w h) (fun q => Done (s_add_ps q))
  | c_second_4x4 => Done s_inv_4x4_2nd | c_second => Done s_inv_2nd
  | c_intra m => Done (s_intra m) | c_fill k => Done (s_fill k) | c_dequant => Done s_dequant
  | c_deblock_luma d => Done (s_deblock_luma d) | c_deblock_chroma d => Done (s_deblock_chroma d)
  | c_sao_bo => Done s_sao_bo | c_sao_eo a => Done (s_sao_eo a) | c_alf i => Done (s_alf i)
  | c_average => Done s_block_avg | c_plane_copy => Done s_plane_copy
  | c_fast_memcpy => Done s_fast_memcpy | c_memcpy_aligned => Done s_memcpy_aligned | c_fast_memzero => Done s_fast_memzero
  end.
