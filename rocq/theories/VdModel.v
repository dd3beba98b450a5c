(** The vector kernels of deblocking, source/common/vec/intrinsic_deblock.cc, 8-bit build.
    Definitions only. The registers and most instructions are those of VxModelBase. *)
From Coq Require Import ZArith List Bool.
From Verif Require Import CBase MemModel VxModelBase.
Import ListNotations.
Open Scope Z_scope.

(** More instructions: interleaving of words and double words, selection by the top bit of each byte
    of the mask, four double words (the last argument is the lowest), a load of eight bytes (the
    upper half is cleared), the test that no bit of [a] is set in [b]. *)
Definition unpacklo_epi16 (a b : reg) : reg :=
  fun k => let j := half k + 2 * ((k mod 16) / 4) + k mod 2 in if Z.even (k / 2) then a j else b j.
Definition unpackhi_epi16 (a b : reg) : reg :=
  fun k => let j := half k + 8 + 2 * ((k mod 16) / 4) + k mod 2 in if Z.even (k / 2) then a j else b j.
Definition unpacklo_epi32 (a b : reg) : reg :=
  fun k => let j := half k + 4 * ((k mod 16) / 8) + k mod 4 in if Z.even (k / 4) then a j else b j.
Definition unpackhi_epi32 (a b : reg) : reg :=
  fun k => let j := half k + 8 + 4 * ((k mod 16) / 8) + k mod 4 in if Z.even (k / 4) then a j else b j.
Definition blendv_epi8 (a b m : reg) : reg := fun k => if Z.testbit (m k) 7 then b k else a k.
Definition set_epi32 (v3 v2 v1 v0 : Z) : reg := mk32 (fun i => if i =? 0 then v0 else if i =? 1 then v1 else if i =? 2 then v2 else v3).
Definition loadl (m : mem) (p : Z) : reg := fun k => if k <? 8 then m (p + k) else 0.
Definition testz (a b : reg) : bool := forallb (fun k => Z.land (a (Z.of_nat k)) (b (Z.of_nat k)) =? 0) (seq 0 16).

(** An [int32_t] at [p], for [_mm_set_epi32] (the bytes in memory order). *)
Definition load_i32 (m : mem) (p : Z) : Z := to_i32 (m p + 256 * m (p + 1) + 65536 * m (p + 2) + 16777216 * m (p + 3)).

(** intrinsic_deblock.cc:46-47: a flag as a mask. *)
Definition flag_mask (f : bool) : Z := if f then -1 else 0.
(** The macro [_mm_subabs_epu16] (102, 353, 521, 726). *)
Definition subabs (a b : reg) : reg := abs_epi16 (subs_epi16 a b).
Definition c_ (v : Z) : reg := set1_epi16 v.

(** Lines 104-122 of [deblock_edge_ver_sse128]; 355-372 of [.._ver_c_..]; 523-540 of [.._hor_..];
    728-746 of [.._hor_c_..]: the masks and the flatness of both sides. [m0]: the flags. *)
Definition flatness (ALPHA BETA m0 TL2 TL1 TL0 TR0 TR1 TR2 : reg) : reg * reg * reg :=
  let T0 := subabs TL0 TR0 in
  let T1 := cmpgt_epi16 T0 (c_ 1) in
  let T2 := cmpgt_epi16 ALPHA T0 in
  let M0 := and_si m0 (and_si T1 T2) in
  let T0 := subabs TL1 TL0 in
  let T1 := subabs TR1 TR0 in
  let FLT_L := and_si (cmpgt_epi16 BETA T0) (c_ 2) in
  let FLT_R := and_si (cmpgt_epi16 BETA T1) (c_ 2) in
  let T0 := subabs TL2 TL0 in
  let T1 := subabs TR2 TR0 in
  let M1 := cmpgt_epi16 BETA T0 in
  let M2 := cmpgt_epi16 BETA T1 in
  let FLT_L := add_epi16 (and_si M1 (c_ 1)) FLT_L in
  let FLT_R := add_epi16 (and_si M2 (c_ 1)) FLT_R in
  (M0, FLT_L, add_epi16 FLT_L FLT_R).
(** Lines 124-137 and 542-555: strength for luma; [minus] is [_mm_sub_epi16] in the first, [_mm_subs_epi16] in
    the second function. *)
Definition strength_luma (minus : reg -> reg -> reg) (ALPHA BETA m0 TL2 TL1 TL0 TR0 TR1 TR2 : reg) : reg :=
  let '(M0, FLT_L, FLT) := flatness ALPHA BETA m0 TL2 TL1 TL0 TR0 TR1 TR2 in
  let M1 := and_si (cmpeq_epi16 TR0 TR1) (cmpeq_epi16 TL0 TL1) in
  let T0 := minus FLT (c_ 2) in
  let T1 := minus FLT (c_ 3) in
  let T2 := subabs TL1 TR1 in
  let FS56 := blendv_epi8 T1 T0 M1 in
  let FS4 := blendv_epi8 (c_ 1) (c_ 2) (cmpeq_epi16 FLT_L (c_ 2)) in
  let FS3 := blendv_epi8 (c_ 0) (c_ 1) (cmpgt_epi16 BETA T2) in
  let FS := blendv_epi8 (c_ 0) FS56 (cmpgt_epi16 FLT (c_ 4)) in
  let FS := blendv_epi8 FS FS4 (cmpeq_epi16 FLT (c_ 4)) in
  let FS := blendv_epi8 FS FS3 (cmpeq_epi16 FLT (c_ 3)) in
  and_si FS M0.
(** Lines 374-385 and 748-758: strength for chroma. *)
Definition strength_chroma (minus : reg -> reg -> reg) (ALPHA BETA m0 TL2 TL1 TL0 TR0 TR1 TR2 : reg) : reg :=
  let '(M0, FLT_L, FLT) := flatness ALPHA BETA m0 TL2 TL1 TL0 TR0 TR1 TR2 in
  let M1 := and_si (cmpeq_epi16 TR0 TR1) (cmpeq_epi16 TL0 TL1) in
  let T0 := minus FLT (c_ 3) in
  let T1 := minus FLT (c_ 4) in
  let FS56 := blendv_epi8 T1 T0 M1 in
  let FS4 := blendv_epi8 (c_ 0) (c_ 1) (cmpeq_epi16 FLT_L (c_ 2)) in
  let FS := blendv_epi8 (c_ 0) FS56 (cmpgt_epi16 FLT (c_ 4)) in
  let FS := blendv_epi8 FS FS4 (cmpeq_epi16 FLT (c_ 4)) in
  and_si FS M0.

(** Lines 141-206, 389-445, 559-621, 762-811: strengths 1 to 3, the same in the four functions up to the names of
    variables (the shifts of T3, which is not used, are left out). The result: TL1, TL0, TR0, TR1. *)
Definition weak (FS TL2 TL1 TL0 TR0 TR1 TR2 : reg) : reg * reg * reg * reg :=
  let T2 := add_epi16 (add_epi16 TL0 TR0) (c_ 2) in
  let V0 := srli_epi16 (add_epi16 (slli_epi16 TL0 1) T2) 2 in
  let V1 := srli_epi16 (add_epi16 (slli_epi16 TR0 1) T2) 2 in
  let L0 := blendv_epi8 TL0 V0 (cmpeq_epi16 FS (c_ 1)) in
  let R0 := blendv_epi8 TR0 V1 (cmpeq_epi16 FS (c_ 1)) in
  let T2 := slli_epi16 T2 1 in
  let T0 := add_epi16 (slli_epi16 TL1 1) (add_epi16 TL1 TR0) in
  let T0 := add_epi16 (slli_epi16 TL0 3) (add_epi16 T0 T2) in
  let V0 := srli_epi16 (add_epi16 T0 (c_ 4)) 4 in
  let T0 := add_epi16 (slli_epi16 TR1 1) (add_epi16 TR1 TL0) in
  let T0 := add_epi16 (slli_epi16 TR0 3) (add_epi16 T0 T2) in
  let V1 := srli_epi16 (add_epi16 T0 (c_ 4)) 4 in
  let L0 := blendv_epi8 L0 V0 (cmpeq_epi16 FS (c_ 2)) in
  let R0 := blendv_epi8 R0 V1 (cmpeq_epi16 FS (c_ 2)) in
  let T2 := slli_epi16 T2 1 in
  let T0 := add_epi16 (slli_epi16 TL1 2) (add_epi16 TL2 TR1) in
  let T0 := add_epi16 (slli_epi16 TL0 1) (add_epi16 T0 T2) in
  let V0 := srli_epi16 T0 4 in
  let T0 := add_epi16 (slli_epi16 TR1 2) (add_epi16 TR2 TL1) in
  let T0 := add_epi16 (slli_epi16 TR0 1) (add_epi16 T0 T2) in
  let V1 := srli_epi16 T0 4 in
  let L0 := blendv_epi8 L0 V0 (cmpeq_epi16 FS (c_ 3)) in
  let R0 := blendv_epi8 R0 V1 (cmpeq_epi16 FS (c_ 3)) in
  let T0 := add_epi16 (add_epi16 TL2 TR0) (slli_epi16 TL2 1) in
  let T0 := add_epi16 T0 (slli_epi16 TL1 3) in
  let T0 := add_epi16 T0 (slli_epi16 TL0 2) in
  let V2 := srli_epi16 (add_epi16 T0 (c_ 8)) 4 in
  let T0 := add_epi16 (add_epi16 TR2 TL0) (slli_epi16 TR2 1) in
  let T0 := add_epi16 T0 (slli_epi16 TR1 3) in
  let T0 := add_epi16 T0 (slli_epi16 TR0 2) in
  let V3 := srli_epi16 (add_epi16 T0 (c_ 8)) 4 in
  let L1 := blendv_epi8 TL1 V2 (cmpeq_epi16 FS (c_ 3)) in
  let R1 := blendv_epi8 TR1 V3 (cmpeq_epi16 FS (c_ 3)) in
  (L1, L0, R0, R1).

(** Lines 210-250 and 625-665: strength 4; [FS] the mask of the lines that have it, [L1], [L0], [R0], [R1] the
    results so far. The result: TL2, TL1, TL0, TR0, TR1, TR2. *)
Definition strong (FS TL2 TL0 TR0 TR2 L1 L0 R0 R1 : reg) : reg * reg * reg * reg * reg * reg :=
  let T0 := slli_epi16 (add_epi16 (add_epi16 TL0 TL2) TR0) 3 in
  let T0 := add_epi16 (add_epi16 T0 (c_ 16)) (add_epi16 TL0 TL2) in
  let T2 := add_epi16 (slli_epi16 TR2 1) (slli_epi16 TR2 2) in
  let V0 := srli_epi16 (add_epi16 T0 T2) 5 in
  let T0 := slli_epi16 (add_epi16 (add_epi16 TR0 TR2) TL0) 3 in
  let T0 := add_epi16 (add_epi16 T0 (c_ 16)) (add_epi16 TR0 TR2) in
  let T2 := add_epi16 (slli_epi16 TL2 1) (slli_epi16 TL2 2) in
  let V1 := srli_epi16 (add_epi16 T0 T2) 5 in
  let L0 := blendv_epi8 L0 V0 FS in
  let R0 := blendv_epi8 R0 V1 FS in
  let T0 := slli_epi16 (add_epi16 TL2 TR0) 1 in
  let T0 := add_epi16 T0 (sub_epi16 (slli_epi16 TL0 3) TL0) in
  let T2 := add_epi16 (slli_epi16 TL2 2) (add_epi16 TR0 (c_ 8)) in
  let V2 := srli_epi16 (add_epi16 T0 T2) 4 in
  let T0 := slli_epi16 (add_epi16 TR2 TL0) 1 in
  let T0 := add_epi16 T0 (sub_epi16 (slli_epi16 TR0 3) TR0) in
  let T2 := add_epi16 (slli_epi16 TR2 2) (add_epi16 TL0 (c_ 8)) in
  let V3 := srli_epi16 (add_epi16 T0 T2) 4 in
  let L1 := blendv_epi8 L1 V2 FS in
  let R1 := blendv_epi8 R1 V3 FS in
  let T0 := add_epi16 (slli_epi16 TL2 1) TL2 in
  let T2 := add_epi16 (slli_epi16 TL0 2) TR0 in
  let V4 := srli_epi16 (add_epi16 T0 (add_epi16 T2 (c_ 4))) 3 in
  let T0 := add_epi16 (slli_epi16 TR2 1) TR2 in
  let T2 := add_epi16 (slli_epi16 TR0 2) TL0 in
  let V5 := srli_epi16 (add_epi16 T0 (add_epi16 T2 (c_ 4))) 3 in
  (blendv_epi8 TL2 V4 FS, L1, L0, R0, R1, blendv_epi8 TR2 V5 FS).

(** Lines 77-100 and 328-351: eight rows of eight bytes to eight columns of words; the names are those of
    the columns, from TL3 to TR3. *)
Definition columns (T0 T1 T2 T3 T4 T5 T6 T7 : reg) : reg * reg * reg * reg * reg * reg * reg * reg :=
  let P0 := unpacklo_epi8 T0 T1 in
  let P1 := unpacklo_epi8 T2 T3 in
  let P2 := unpacklo_epi8 T4 T5 in
  let P3 := unpacklo_epi8 T6 T7 in
  let P4 := unpacklo_epi16 P0 P1 in
  let P5 := unpacklo_epi16 P2 P3 in
  let P6 := unpackhi_epi16 P0 P1 in
  let P7 := unpackhi_epi16 P2 P3 in
  let T0 := unpacklo_epi32 P4 P5 in
  let T1 := unpackhi_epi32 P4 P5 in
  let T2 := unpacklo_epi32 P6 P7 in
  let T3 := unpackhi_epi32 P6 P7 in
  (unpacklo_epi8 T0 (c_ 0), unpackhi_epi8 T0 (c_ 0), unpacklo_epi8 T1 (c_ 0), unpackhi_epi8 T1 (c_ 0),
   unpacklo_epi8 T2 (c_ 0), unpackhi_epi8 T2 (c_ 0), unpacklo_epi8 T3 (c_ 0), unpackhi_epi8 T3 (c_ 0)).
(** Lines 252-271 and 446-464: back to rows, two in a register. *)
Definition rows2 (TL3 TL2 TL1 TL0 TR0 TR1 TR2 TR3 : reg) : reg * reg * reg * reg :=
  let T0 := packus_epi16 TL3 TR0 in
  let T1 := packus_epi16 TL2 TR1 in
  let T2 := packus_epi16 TL1 TR2 in
  let T3 := packus_epi16 TL0 TR3 in
  let T4 := unpacklo_epi8 T0 T1 in
  let T5 := unpacklo_epi8 T2 T3 in
  let T6 := unpackhi_epi8 T0 T1 in
  let T7 := unpackhi_epi8 T2 T3 in
  let V0 := unpacklo_epi16 T4 T5 in
  let V1 := unpacklo_epi16 T6 T7 in
  let V2 := unpackhi_epi16 T4 T5 in
  let V3 := unpackhi_epi16 T6 T7 in
  (unpacklo_epi32 V0 V1, unpackhi_epi32 V0 V1, unpacklo_epi32 V2 V3, unpackhi_epi32 V2 V3).

(** intrinsic_deblock.cc:43-289 [deblock_edge_ver_sse128]. *)
Definition edge_ver_sse (stride alpha beta : Z) (f0 f1 : bool) (src : Z) (m : mem) : mem :=
  let p := src - 4 in
  let flag0 := flag_mask f0 in
  let flag1 := flag_mask f1 in
  let ALPHA := set1_epi16 (to_u8 alpha) in
  let BETA := set1_epi16 (to_u8 beta) in
  let '(TL3, TL2, TL1, TL0, TR0, TR1, TR2, TR3) :=
    columns (loadl m p) (loadl m (p + stride)) (loadl m (p + stride * 2)) (loadl m (p + stride * 3))
            (loadl m (p + stride * 4)) (loadl m (p + stride * 5)) (loadl m (p + stride * 6)) (loadl m (p + stride * 7)) in
  let FS := strength_luma sub_epi16 ALPHA BETA (set_epi32 flag1 flag1 flag0 flag0) TL2 TL1 TL0 TR0 TR1 TR2 in
  let '(L1, L0, R0, R1) := weak FS TL2 TL1 TL0 TR0 TR1 TR2 in
  let FS := cmpeq_epi16 FS (c_ 4) in
  let '(L2, L1, L0, R0, R1, R2) :=
    if negb (testz FS (c_ (-1))) then strong FS TL2 TL0 TR0 TR2 L1 L0 R0 R1 else (TL2, L1, L0, R0, R1, TR2) in
  let '(T0, T1, T2, T3) := rows2 TL3 L2 L1 L0 R0 R1 R2 TR3 in
  let m := store8 m p T0 in
  let p := p + stride in
  let m := store8 m p (srli_si128 T0 8) in
  let p := p + stride in
  let m := store8 m p T1 in
  let p := p + stride in
  let m := store8 m p (srli_si128 T1 8) in
  let p := p + stride in
  let m := store8 m p T2 in
  let p := p + stride in
  let m := store8 m p (srli_si128 T2 8) in
  let p := p + stride in
  let m := store8 m p T3 in
  let p := p + stride in
  store8 m p (srli_si128 T3 8).

(** intrinsic_deblock.cc:291-478 [deblock_edge_ver_c_sse128]. The two planes do not overlap (C28): each has a
    memory of its own. *)
Definition edge_ver_c_sse (stride alpha beta : Z) (f0 f1 : bool) (srcu srcv : Z) (mu mv : mem) : mem * mem :=
  let flag0 := flag_mask f0 in
  let flag1 := flag_mask f1 in
  let ALPHA := set1_epi16 (to_u8 alpha) in
  let BETA := set1_epi16 (to_u8 beta) in
  let p := srcu - 4 in
  let q := srcv - 4 in
  let '(TL3, TL2, TL1, TL0, TR0, TR1, TR2, TR3) :=
    columns (loadl mu p) (loadl mu (p + stride)) (loadl mu (p + stride * 2)) (loadl mu (p + stride * 3))
            (loadl mv q) (loadl mv (q + stride)) (loadl mv (q + stride * 2)) (loadl mv (q + stride * 3)) in
  let FS := strength_chroma sub_epi16 ALPHA BETA (set_epi32 flag1 flag0 flag1 flag0) TL2 TL1 TL0 TR0 TR1 TR2 in
  let '(L1, L0, R0, R1) := weak FS TL2 TL1 TL0 TR0 TR1 TR2 in
  let '(T0, T1, T2, T3) := rows2 TL3 TL2 L1 L0 R0 R1 TR2 TR3 in
  let mu := store8 mu p T0 in
  let mu := store8 mu (p + stride) (srli_si128 T0 8) in
  let mu := store8 mu (p + Z.shiftl stride 1) T1 in
  let mu := store8 mu (p + stride * 3) (srli_si128 T1 8) in
  let mv := store8 mv q T2 in
  let mv := store8 mv (q + stride) (srli_si128 T2 8) in
  let mv := store8 mv (q + Z.shiftl stride 1) T3 in
  let mv := store8 mv (q + stride * 3) (srli_si128 T3 8) in
  (mu, mv).

(** intrinsic_deblock.cc:480-684 [deblock_edge_hor_sse128]. *)
Definition edge_hor_sse (stride alpha beta : Z) (f0 f1 : bool) (src : Z) (m : mem) : mem :=
  let inc := stride in
  let inc2 := Z.shiftl inc 1 in
  let inc3 := inc + inc2 in
  let flag0 := flag_mask f0 in
  let flag1 := flag_mask f1 in
  let ALPHA := set1_epi16 (to_i16 alpha) in
  let BETA := set1_epi16 (to_i16 beta) in
  let TL2 := unpacklo_epi8 (loadl m (src - inc3)) (c_ 0) in
  let TL1 := unpacklo_epi8 (loadl m (src - inc2)) (c_ 0) in
  let TL0 := unpacklo_epi8 (loadl m (src - inc)) (c_ 0) in
  let TR0 := unpacklo_epi8 (loadl m (src + 0)) (c_ 0) in
  let TR1 := unpacklo_epi8 (loadl m (src + inc)) (c_ 0) in
  let TR2 := unpacklo_epi8 (loadl m (src + inc2)) (c_ 0) in
  let FS := strength_luma subs_epi16 ALPHA BETA (set_epi32 flag1 flag1 flag0 flag0) TL2 TL1 TL0 TR0 TR1 TR2 in
  let '(L1, L0, R0, R1) := weak FS TL2 TL1 TL0 TR0 TR1 TR2 in
  let FS := cmpeq_epi16 FS (c_ 4) in
  if negb (testz FS (c_ (-1))) then
    let '(L2, L1, L0, R0, R1, R2) := strong FS TL2 TL0 TR0 TR2 L1 L0 R0 R1 in
    let m := store8 m (src - inc) (packus_epi16 L0 (c_ 0)) in
    let m := store8 m (src - 0) (packus_epi16 R0 (c_ 0)) in
    let m := store8 m (src - inc2) (packus_epi16 L1 (c_ 0)) in
    let m := store8 m (src + inc) (packus_epi16 R1 (c_ 0)) in
    let m := store8 m (src - inc3) (packus_epi16 L2 (c_ 0)) in
    store8 m (src + inc2) (packus_epi16 R2 (c_ 0))
  else
    let m := store8 m (src - inc) (packus_epi16 L0 (c_ 0)) in
    let m := store8 m (src - 0) (packus_epi16 R0 (c_ 0)) in
    let m := store8 m (src - inc2) (packus_epi16 L1 (c_ 0)) in
    store8 m (src + inc) (packus_epi16 R1 (c_ 0)).

(** intrinsic_deblock.cc:686-826 [deblock_edge_hor_c_sse128]; planes as in [edge_ver_c_sse]. The stores of
    [M128_I32(.., 1)] are the second double word. *)
Definition edge_hor_c_sse (stride alpha beta : Z) (f0 f1 : bool) (srcu srcv : Z) (mu mv : mem) : mem * mem :=
  let inc := stride in
  let inc2 := Z.shiftl inc 1 in
  let inc3 := inc + inc2 in
  let flag0 := flag_mask f0 in
  let flag1 := flag_mask f1 in
  let ALPHA := set1_epi16 (to_u8 alpha) in
  let BETA := set1_epi16 (to_u8 beta) in
  let both d := set_epi32 0 0 (load_i32 mv (srcv + d)) (load_i32 mu (srcu + d)) in
  let TL0 := unpacklo_epi8 (both (- inc)) (c_ 0) in
  let TL1 := unpacklo_epi8 (both (- inc2)) (c_ 0) in
  let TL2 := unpacklo_epi8 (both (- inc3)) (c_ 0) in
  let TR0 := unpacklo_epi8 (both 0) (c_ 0) in
  let TR1 := unpacklo_epi8 (both inc) (c_ 0) in
  let TR2 := unpacklo_epi8 (both inc2) (c_ 0) in
  let FS := strength_chroma subs_epi16 ALPHA BETA (set_epi32 flag1 flag0 flag1 flag0) TL2 TL1 TL0 TR0 TR1 TR2 in
  let '(L1, L0, R0, R1) := weak FS TL2 TL1 TL0 TR0 TR1 TR2 in
  let L0 := packus_epi16 L0 (c_ 0) in
  let L1 := packus_epi16 L1 (c_ 0) in
  let R0 := packus_epi16 R0 (c_ 0) in
  let R1 := packus_epi16 R1 (c_ 0) in
  let second r := srli_si128 r 4 in
  let mu := store4 mu (srcu - inc) L0 in
  let mu := store4 mu srcu R0 in
  let mu := store4 mu (srcu - inc2) L1 in
  let mu := store4 mu (srcu + inc) R1 in
  let mv := store4 mv (srcv - inc) (second L0) in
  let mv := store4 mv srcv (second R0) in
  let mv := store4 mv (srcv - inc2) (second L1) in
  let mv := store4 mv (srcv + inc) (second R1) in
  (mu, mv).
