(** Which calls are made, what each of them must reach, and what each function needs of the processor. *)
From Coq Require Import ZArith List Bool.
From Verif Require Import CpModel CpSpec FtModel.
Import ListNotations.
Open Scope Z_scope.

Definition inb (x : Z * Z) (l : list (Z * Z)) : bool := existsb (fun y => (fst x =? fst y) && (snd x =? snd y)) l.
(** Prediction blocks of the standard: a coding unit of 8 .. 64 whole, in halves, and from 16 on in a quarter and three quarters. *)
Definition pu_shapes : list (Z * Z) :=
  flat_map (fun s => [(s, s); (s, s / 2); (s / 2, s)]) [8; 16; 32; 64] ++
  flat_map (fun s => [(s, s / 4); (s, 3 * s / 4); (s / 4, s); (3 * s / 4, s)]) [16; 32; 64].
(** Their chroma blocks in 4:2:0. *)
Definition chroma_shapes : list (Z * Z) := map (fun s => (fst s / 2, snd s / 2)) pu_shapes.
(** Transform blocks: squares of 4 .. 64, and four times as wide as high or the other way round. *)
Definition tu_shapes : list (Z * Z) := map (fun s => (s, s)) [4; 8; 16; 32; 64] ++ flat_map (fun s => [(s, s / 4); (s / 4, s)]) [16; 32; 64].

Definition between (a x b : Z) : bool := (a <=? x) && (x <=? b).
Definition made (c : call) : bool :=
  match c with
  | c_luma w h dx dy => inb (w, h) pu_shapes && between 0 dx 3 && between 0 dy 3
  | c_chroma w h dx dy => inb (w, h) chroma_shapes && between 0 dx 7 && between 0 dy 7
  | c_idct w h p => inb (w, h) tu_shapes && between 0 p 2
  | c_add w h => inb (w, h) tu_shapes
  | c_intra m => between 0 m 32
  | c_fill k => between 0 k 3
  | c_sao_eo a => between 0 a 3
  | c_deblock_luma d | c_deblock_chroma d | c_alf d => between 0 d 1
  | _ => true
  end.

(** The work of a function, by its name, is the work asked for.  The transforms without _half and _quad serve every pattern of coefficients. *)
Definition right (c : call) (f : fname) : bool :=
  match c, f with
  | c_luma w h dx dy, f_copy_pp a b => (dx =? 0) && (dy =? 0) && (w =? a) && (h =? b)
  | c_luma w h dx dy, f_luma_ver => (dx =? 0) && negb (dy =? 0)
  | c_luma w h dx dy, f_luma_ver_n k => (dx =? 0) && (dy =? k + 1)
  | c_luma w h dx dy, f_luma_hor => negb (dx =? 0) && (dy =? 0)
  | c_luma w h dx dy, f_luma_ext => negb (dx =? 0) && negb (dy =? 0)
  | c_chroma w h dx dy, f_copy_pp a b => (dx =? 0) && (dy =? 0) && (w =? a) && (h =? b)
  | c_chroma w h dx dy, f_block_copy => (dx =? 0) && (dy =? 0)
  | c_chroma w h dx dy, f_chroma_ver => (dx =? 0) && negb (dy =? 0)
  | c_chroma w h dx dy, f_chroma_hor => negb (dx =? 0) && (dy =? 0)
  | c_chroma w h dx dy, f_chroma_ext => negb (dx =? 0) && negb (dy =? 0)
  | c_idct w h p, f_idct a b q => (w =? a) && (h =? b) && ((q =? 0) || (q =? p))
  | c_add w h, f_add_ps a b => (w =? a) && (h =? b)
  | c_second_4x4, f_inv_4x4_2nd | c_second, f_inv_2nd | c_dequant, f_dequant | c_average, f_average | c_plane_copy, f_plane_copy => true
  | c_intra m, f_dc => m =? 0
  | c_intra m, f_plane => m =? 1
  | c_intra m, f_bilinear => m =? 2
  | c_intra m, f_ver => m =? 12
  | c_intra m, f_hor => m =? 24
  | c_intra m, f_ang_x => between 3 m 11
  | c_intra m, f_ang_xy => between 13 m 23
  | c_intra m, f_ang_y => between 25 m 32
  | c_intra m, f_ang_x_n k => between 3 m 11 && (m =? k)
  | c_intra m, f_ang_xy_n k => between 13 m 23 && (m =? k)
  | c_intra m, f_ang_y_n k => between 25 m 32 && (m =? k)
  | c_fill k, f_fill j => k =? j
  | c_deblock_luma d, f_edge_ver | c_deblock_chroma d, f_edge_ver_c => d =? 0
  | c_deblock_luma d, f_edge_hor | c_deblock_chroma d, f_edge_hor_c => d =? 1
  | c_sao_bo, f_sao_bo => true
  | c_sao_eo a, f_sao_eo g => g =? nth (Z.to_nat a) [0; 90; 135; 45] (-1)
  | c_alf i, f_alf1 => i =? 0
  | c_alf i, f_alf2 => i =? 1
  | c_fast_memcpy, f_memcpy | c_fast_memcpy, f_fast_memcpy | c_memcpy_aligned, f_memcpy | c_memcpy_aligned, f_memcpy_aligned
  | c_fast_memzero, f_memzero_aligned | c_fast_memzero, f_fast_memzero => true
  | _, _ => false
  end.

(** Instruction sets, and when a machine can execute them: named by the processor, and for AVX and AVX2 saved by the operating system. *)
Inductive iset := MMX | SSE2 | SSSE3 | SSE41 | AVX | AVX2.
Definition usable (cpu : Z -> regs) (xcr0 : Z) (i : iset) : bool :=
  match i with
  | MMX => Z.testbit (edx (cpu 1)) 23
  | SSE2 => Z.testbit (edx (cpu 1)) 26
  | SSSE3 => Z.testbit (ecx (cpu 1)) 9
  | SSE41 => Z.testbit (ecx (cpu 1)) 19
  | AVX => avx_usable cpu xcr0
  | AVX2 => avx_usable cpu xcr0 && avx2_named cpu
  end.
(** Every x86 processor that has a set has the smaller ones. *)
Definition regular (cpu : Z -> regs) : Prop :=
  (Z.testbit (ecx (cpu 1)) 28 = true -> Z.testbit (ecx (cpu 1)) 19 = true) /\
  (Z.testbit (ecx (cpu 1)) 19 = true -> Z.testbit (ecx (cpu 1)) 9 = true) /\
  (Z.testbit (ecx (cpu 1)) 9 = true -> Z.testbit (edx (cpu 1)) 26 = true).
(** The instructions in the functions, read off the intrinsics in source/common/vec and the INIT_ lines in source/common/x86.  C functions are taken
    to need nothing (see DESIGN.md on the flags of the build). *)
Definition needs (f : func) : list iset :=
  match f with
  | (_, v_c) => []
  | (_, v_mmx) => [MMX]
  | (_, v_sse2) => [SSE2]
  | (_, v_ssse3) => [SSE2; SSSE3]
  | (_, v_sse4) => [SSE2; SSSE3; SSE41]
  | (f_idct _ _ _, v_sse128) | (f_inv_2nd, v_sse128) | (f_average, v_sse128) | (f_fill _, v_sse128)
  | (f_dc, v_sse128) | (f_hor, v_sse128) | (f_ver, v_sse128) => [SSE2]
  | (f_inv_4x4_2nd, v_sse128) | (f_plane, v_sse128) | (f_bilinear, v_sse128) | (f_sao_bo, v_sse128) | (f_sao_eo _, v_sse128) => [SSE2; SSE41]
  | (f_ang_x_n _, v_sse128) | (f_ang_xy_n _, v_sse128) | (f_ang_y_n _, v_sse128)
  | (f_luma_hor, v_sse128) | (f_chroma_hor, v_sse128) | (f_luma_ver, v_sse128) | (f_alf1, v_sse128) => [SSE2; SSSE3]
  | (_, v_sse128) => [SSE2; SSSE3; SSE41]
  | (f_memzero_aligned, v_avx) | (f_copy_pp _ _, v_avx) | (f_copy_ss _ _, v_avx) | (f_dc, v_avx) | (f_hor, v_avx) | (f_ver, v_avx) => [SSE2; AVX]
  | (_, v_avx) | (_, v_avx2) => [SSE2; SSSE3; SSE41; AVX; AVX2]
  end.
