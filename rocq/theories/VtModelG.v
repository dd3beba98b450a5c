(** The vector functions of the inverse transforms as the decoder calls them: the table of
    transform.cc:957-1046, the doubled sizes and the secondary transforms of
    source/common/vec/intrinsic_idct.cc. Definitions only. *)
From Coq Require Import ZArith List Bool.
From Verif Require Import CBase MemModel SaoModel VxModelBase VdModel ViModel VjModel SynModel TrModel VtModel VtModelA VtModelB VtModelC VtModelD VtModelE VtModelF.
Import ListNotations.
Open Scope Z_scope.

(** The local variables of a function before it starts: anything. A function that calls two kernels
    gets two of them. *)
Definition locals : Type := ((Z -> reg) * (Z -> Z))%type.
Definition vidct : Type := Z -> Z -> Z -> locals -> locals -> mem -> mem.
(** A kernel called with source and destination [p]; the ones for 32 points take the lowest bit of
    [i_dst] as a flag and remove it (intrinsic_idct.cc:2449, 2644, 3241, 3346, 4279, 4342, 5221-5226,
    6253-6262, intrinsic_idct_avx2.cc:686-687). *)
Definition plain (k : list ins) (d p i_dst : Z) (l : locals) (m : mem) : mem :=
  run k (kernel_params d 0) p p i_dst (fst l) (snd l) m.
Definition flagged (k : list ins) (d p i_dst : Z) (l : locals) (m : mem) : mem :=
  run k (kernel_params d (Z.land i_dst 1)) p p (Z.land i_dst 254) (fst l) (snd l) m.
Definition one (f : Z -> Z -> Z -> locals -> mem -> mem) : vidct := fun d p i_dst l1 _ m => f d p i_dst l1 m.
(** The functions with two ways to store (intrinsic_idct.cc:145, 431). *)
Definition by_stride (k k4 : list ins) (d p i_dst : Z) (l : locals) (m : mem) : mem :=
  if i_dst =? 4 then plain k4 d p i_dst l m else plain k d p i_dst l m.
(** intrinsic_idct.cc:7809-7886, intrinsic_idct_avx2.cc:2144-2167: a kernel with a fixed stride and
    the flag, then the doubling. The stride given is not used. *)
Definition then_double (k w : list ins) (i_dst : Z) : vidct := fun d p _ l1 l2 m =>
  run w (fun _ => 0) p p 0 (fst l2) (snd l2) (flagged k d p i_dst l1 m).

(** transform.cc:957-1046 [davs2_dct_init]: the entry for a size and a pattern with SSE2, or with
    AVX2 as well. The functions named half and quad of 8x8, 4x16, 16x4, 8x32 and 32x8 only call the
    function for the whole block (intrinsic_idct.cc:462-477, 747-762, 1034-1049, 6051-6066,
    6899-6914). In builds for 8-bit samples 4x4, and 8x8 without a pattern and without AVX2, are
    assembly functions, which are not modelled; here these entries are those of other builds.
    Outside 0 .. 2 the table has no pattern. *)
Definition vidct_of (avx2 : bool) (w h pat : Z) : option vidct :=
  let half := pat =? DCT_HALF in let quad := pat =? DCT_QUAD in
  let deflt := pat =? DCT_DEFAULT in
  if (pat <? 0) || (2 <? pat) then None
  else if w =? 4 then
    if h =? 4 then Some (one (by_stride idct_4x4_sse128 idct_4x4_sse128_flat))
    else if h =? 16 then Some (one (by_stride idct_4x16_sse128 idct_4x16_sse128_flat)) else None
  else if w =? 8 then
    if h =? 8 then Some (one (plain (if deflt && avx2 then idct_8x8_avx2 else idct_8x8_sse128)))
    else if h =? 32 then Some (one (flagged idct_8x32_sse128)) else None
  else if w =? 16 then
    if h =? 16 then Some (one (plain (if half then idct_16x16_half_sse128 else if quad then idct_16x16_quad_sse128 else if avx2 then idct_16x16_avx2 else idct_16x16_sse128)))
    else if h =? 4 then Some (one (plain idct_16x4_sse128))
    else if h =? 64 then Some (then_double idct_8x32_sse128 (if deflt && avx2 then inv_wavelet_16x64_avx2 else inv_wavelet_16x64_sse128) (Z.lor 8 1)) else None
  else if w =? 32 then
    if h =? 32 then Some (one (flagged (if half then idct_32x32_half_sse128 else if quad then idct_32x32_quad_sse128 else if avx2 then idct_32x32_avx2 else idct_32x32_sse128)))
    else if h =? 8 then Some (one (flagged idct_32x8_sse128)) else None
  else if w =? 64 then
    if h =? 64 then Some (then_double
        (if half then idct_32x32_half_sse128 else if quad then idct_32x32_quad_sse128 else if avx2 then idct_32x32_avx2 else idct_32x32_sse128)
        (if deflt && avx2 then inv_wavelet_64x64_avx2 else inv_wavelet_64x64_sse128) (Z.lor 32 1))
    else if h =? 16 then Some (then_double idct_32x8_sse128 (if deflt && avx2 then inv_wavelet_64x16_avx2 else inv_wavelet_64x16_sse128) (Z.lor 32 1)) else None
  else None.

(** ** Secondary transforms. *)
Definition min_epi32 (a b : reg) : reg := mk32 (fun i => Z.min (i32_of a i) (i32_of b i)).
Definition max_epi32 (a b : reg) : reg := mk32 (fun i => Z.max (i32_of a i) (i32_of b i)).
(** The sum of four products, rounded (6942-6951, 6981-6989 and the copies 7035-7043, 7062-7070). *)
Definition sec_sum (a0 b0 a1 b1 a2 b2 a3 b3 factor : reg) (sh : Z) : reg :=
  let s := add_epi32 (add_epi32 (madd_epi16 a0 b0) (madd_epi16 a1 b1)) (add_epi32 (madd_epi16 a2 b2) (madd_epi16 a3 b3)) in
  srai_epi32 (add_epi32 s factor) sh.
(** Two lines of a matrix of 4x4 words, loaded at once (6930-6931). *)
Definition load_tc (tc : list Z) (k : Z) : reg := loadw (fun i => at_l tc i) k.
(** intrinsic_idct.cc:6919-6957 [inv_2nd_trans_hor_sse128]; with [lim] the limits of 7071-7072 are
    applied before packing. Registers of 16 bytes: [storel] stores the first four words. *)
Definition sec_hor_v (tc : list Z) (sh : Z) (lim : reg -> reg) (p ic : Z) (m : mem) : mem :=
  let factor := set1_epi32 (Z.shiftl 1 (sh - 1)) in
  let c0 := unpacklo_epi16 (load_tc tc 0) setzero in let c1 := unpackhi_epi16 (load_tc tc 0) setzero in
  let c2 := unpacklo_epi16 (load_tc tc 8) setzero in let c3 := unpackhi_epi16 (load_tc tc 8) setzero in
  floop 0 4 (fun j m =>
    let q := p + j * ic in
    let v := sec_sum c0 (set1_epi32 (m q)) c1 (set1_epi32 (m (q + 1))) c2 (set1_epi32 (m (q + 2))) c3 (set1_epi32 (m (q + 3))) factor sh in
    storew 4 m q (packs_epi32 (lim v) setzero)) m.
(** intrinsic_idct.cc:6961-6997 [inv_2nd_trans_ver_sse128]. *)
Definition sec_ver_v (tc : list Z) (sh : Z) (p ic : Z) (m : mem) : mem :=
  let factor := set1_epi32 (Z.shiftl 1 (sh - 1)) in
  let s0 := unpacklo_epi16 (loadw m p) setzero in let s1 := unpacklo_epi16 (loadw m (p + 1 * ic)) setzero in
  let s2 := unpacklo_epi16 (loadw m (p + 2 * ic)) setzero in let s3 := unpacklo_epi16 (loadw m (p + 3 * ic)) setzero in
  floop 0 4 (fun i m =>
    let v := sec_sum (set1_epi32 (at_l tc (0 * 4 + i))) s0 (set1_epi32 (at_l tc (1 * 4 + i))) s1
                     (set1_epi32 (at_l tc (2 * 4 + i))) s2 (set1_epi32 (at_l tc (3 * 4 + i))) s3 factor sh in
    storew 4 m (p + i * ic) (packs_epi32 v setzero)) m.
(** intrinsic_idct.cc:7001-7012 [inv_transform_2nd_sse128]. *)
Definition inv_2nd_v (p ic mode : Z) (b_top b_left : bool) (m : mem) : mem :=
  let vt := (0 <=? mode) && (mode <=? 23) in
  let ht := ((13 <=? mode) && (mode <=? 32)) || ((0 <=? mode) && (mode <=? 2)) in
  let m := if ht && b_left then sec_hor_v g_2T 7 (fun v => v) p ic m else m in
  if vt && b_top then sec_ver_v g_2T 7 p ic m else m.
(** intrinsic_idct.cc:7016-7077 [inv_transform_4x4_2nd_sse128]; its vertical part is the same text
    as [inv_2nd_trans_ver_sse128]. *)
Definition inv_4x4_2nd_v (d p ic : Z) (m : mem) : mem :=
  let cd := d + 1 in
  let hi := set1_epi32 (Z.shiftl 1 (cd - 1) - 1) in let lo := set1_epi32 (- Z.shiftl 1 (cd - 1)) in
  sec_hor_v g_2T_C (20 - d + 2) (fun v => max_epi32 (min_epi32 v hi) lo) p ic (sec_ver_v g_2T_C 5 p ic m).

(** transform.cc:842-863 [inv_transform] with these functions; [pat] is the pattern stored with the block. *)
Definition inv_transform_v (avx2 : bool) (d p ic bsx bsy pat : Z) (sec intra luma : bool) (mode : Z) (b_top b_left : bool) (l1 l2 : locals) (m : mem) : outcome mem :=
  let secT := sec && intra && luma in
  match vidct_of avx2 bsx bsy pat with
  | None => Undef
  | Some f =>
      if (bsx =? 4) && (bsy =? 4)
      then Done (if secT then inv_4x4_2nd_v d p ic m else f d p ic l1 l2 m)
      else Done (f d p ic l1 l2 (if secT then inv_2nd_v p ic mode b_top b_left m else m))
  end.
