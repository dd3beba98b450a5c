(** The vector kernels of sample adaptive offset, the adaptive loop filter, block average and
    plane copy (source/common/vec), in the 8-bit build. Source and destination are memories of
    bytes, pointers element indices; [p += stride] after every row is written as
    [p + y * stride]. Loads beyond the block are loads from the same memory; whether they stay
    in the allocated frame is not modelled. *)
From Coq Require Import ZArith List Bool.
From Verif Require Import CBase MemModel HdrModel SaoModel AlfModel VxModelBase.
Import ListNotations.
Open Scope Z_scope.

(** [for (x = a; x < b; x += step) { body }]; the body also says whether to go on ([false] is
    [break]). [b - a] is fuel enough for any positive step. *)
Fixpoint vloop (fuel : nat) (x ex step : Z) (body : Z -> mem -> mem * bool) (m : mem) : mem :=
  match fuel with
  | O => m
  | S n => if x <? ex then let '(m, go) := body x m in if go then vloop n (x + step) ex step body m else m else m
  end.
Definition vfor (a b step : Z) (body : Z -> mem -> mem * bool) (m : mem) : mem := vloop (Z.to_nat (b - a)) a b step body m.

(** ---- Sample adaptive offset ---- *)

(** intrinsic_sao.cc:98-108 and its seven copies (196-206, 284-294, 346-356, 406-416, 494-504,
    554-564, 614-624); intrinsic_sao_avx2.cc:97-107 and its copies: the sum of the two signs. *)
Definition eo_type (s0 s1 s2 : reg) : reg :=
  let t3 := min_epu8 s0 s1 in
  let t1 := cmpeq_epi8 t3 s0 in
  let t2 := cmpeq_epi8 t3 s1 in
  let t0 := subs_epi8 t2 t1 in
  let t3 := min_epu8 s1 s2 in
  let t1 := cmpeq_epi8 t3 s1 in
  let t2 := cmpeq_epi8 t3 s2 in
  let t3 := subs_epi8 t1 t2 in
  adds_epi8 t0 t3.
(** intrinsic_sao.cc:129-138 and its copies, also of [SAO_on_block_bo_sse128] (714-722): the
    offsets [t0] added to the samples [s1]. *)
Definition add_offsets_sse (t0 s1 : reg) : reg :=
  let t1 := cvtepi8_epi16 t0 in
  let t0 := srli_si128 t0 8 in
  let t2 := cvtepi8_epi16 t0 in
  let t3 := unpacklo_epi8 s1 setzero in
  let t4 := unpackhi_epi8 s1 setzero in
  let t1 := adds_epi16 t1 t3 in
  let t2 := adds_epi16 t2 t4 in
  packus_epi16 t1 t2.
(** intrinsic_sao.cc:98-138 and its copies: sixteen samples [s1] with neighbours [s0], [s2]. *)
Definition eo_sse (off : Z -> Z) (s0 s1 s2 : reg) : reg :=
  let etype := eo_type s0 s1 s2 in
  let t0 := cmpeq_epi8 etype (set1_epi8 (-2)) in
  let t1 := cmpeq_epi8 etype (set1_epi8 (-1)) in
  let t2 := cmpeq_epi8 etype (set1_epi8 0) in
  let t3 := cmpeq_epi8 etype (set1_epi8 1) in
  let t4 := cmpeq_epi8 etype (set1_epi8 2) in
  let t0 := and_si t0 (set1_epi8 (off 0)) in
  let t1 := and_si t1 (set1_epi8 (off 1)) in
  let t2 := and_si t2 (set1_epi8 (off 2)) in
  let t3 := and_si t3 (set1_epi8 (off 3)) in
  let t4 := and_si t4 (set1_epi8 (off 4)) in
  let t0 := adds_epi8 t0 t1 in
  let t2 := adds_epi8 t2 t3 in
  let t0 := adds_epi8 t0 t4 in
  let t0 := adds_epi8 t0 t2 in
  add_offsets_sse t0 s1.
(** One row of an edge kernel: the neighbours are [d] elements in front of and behind a sample
    (intrinsic_sao.cc:93-148, 279-332, 340-394, 401-454, 489-541, 549-601, 609-661). *)
Definition eo_row_sse (src : mem) (p q d sx ex : Z) (off : Z -> Z) (junk : reg) (dst : mem) : mem :=
  let ex16 := ex - Z.land (ex - sx) 15 in
  vfor sx ex 16 (fun x dst =>
    let s0 := load src (p + x - d) in
    let s1 := load src (p + x) in
    let s2 := load src (p + x + d) in
    let t0 := eo_sse off s0 s1 s2 in
    if negb (x =? ex16) then (store16 dst (q + x) t0, true)
    else (maskmoveu dst (q + x) t0 (mask_row junk (ex - ex16 - 1)), false)) dst.
(** intrinsic_sao.cc:63-152 [SAO_on_block_eo_0_sse128]. *)
Definition eo_0_sse (src : mem) (pd ds ps ss w h : Z) (av : avail) (off : Z -> Z) (junk : reg) (dst : mem) : mem :=
  let sx := if a_L av then 0 else 1 in
  let ex := if a_R av then w else w - 1 in
  floop 0 h (fun y dst => eo_row_sse src (ps + y * ss) (pd + y * ds) 1 sx ex off junk dst) dst.
(** intrinsic_sao.cc:156-246 [SAO_on_block_eo_90_sse128]. *)
Definition eo_90_sse (src : mem) (pd ds ps ss w h : Z) (av : avail) (off : Z -> Z) (junk : reg) (dst : mem) : mem :=
  let ex16 := w - 15 in
  let sy := if a_T av then 0 else 1 in
  let ey := if a_D av then h else h - 1 in
  floop sy ey (fun y dst =>
    let p := ps + y * ss in
    let q := pd + y * ds in
    vfor 0 w 16 (fun x dst =>
      let s0 := load src (p + x - ss) in
      let s1 := load src (p + x) in
      let s2 := load src (p + x + ss) in
      let t0 := eo_sse off s0 s1 s2 in
      if x <? ex16 then (store16 dst (q + x) t0, true)
      else (maskmoveu dst (q + x) t0 (mask_row junk (Z.land w 15 - 1)), false)) dst) dst.
(** intrinsic_sao.cc:250-456 [SAO_on_block_eo_135_sse128]; the last row is at the pointer left
    by the loop over the middle rows. *)
Definition eo_135_sse (src : mem) (pd ds ps ss w h : Z) (av : avail) (off : Z -> Z) (junk : reg) (dst : mem) : mem :=
  let sx_0 := if a_TL av then 0 else 1 in
  let ex_0 := if a_T av then (if a_R av then w else w - 1) else 1 in
  let dst := eo_row_sse src ps pd (ss + 1) sx_0 ex_0 off junk dst in
  let sx := if a_L av then 0 else 1 in
  let ex := if a_R av then w else w - 1 in
  let dst := floop 1 (h - 1) (fun y dst => eo_row_sse src (ps + y * ss) (pd + y * ds) (ss + 1) sx ex off junk dst) dst in
  let sx_n := if a_D av then (if a_L av then 0 else 1) else w - 1 in
  let ex_n := if a_DR av then w else w - 1 in
  let y := Z.max 0 (h - 2) + 1 in
  eo_row_sse src (ps + y * ss) (pd + y * ds) (ss + 1) sx_n ex_n off junk dst.
(** intrinsic_sao.cc:460-663 [SAO_on_block_eo_45_sse128]. *)
Definition eo_45_sse (src : mem) (pd ds ps ss w h : Z) (av : avail) (off : Z -> Z) (junk : reg) (dst : mem) : mem :=
  let sx_0 := if a_T av then (if a_L av then 0 else 1) else w - 1 in
  let ex_0 := if a_TR av then w else w - 1 in
  let dst := eo_row_sse src ps pd (ss - 1) sx_0 ex_0 off junk dst in
  let sx := if a_L av then 0 else 1 in
  let ex := if a_R av then w else w - 1 in
  let dst := floop 1 (h - 1) (fun y dst => eo_row_sse src (ps + y * ss) (pd + y * ds) (ss - 1) sx ex off junk dst) dst in
  let sx_n := if a_DL av then 0 else 1 in
  let ex_n := if a_D av then (if a_R av then w else w - 1) else 1 in
  let y := Z.max 0 (h - 2) + 1 in
  eo_row_sse src (ps + y * ss) (pd + y * ds) (ss - 1) sx_n ex_n off junk dst.
(** intrinsic_sao.cc:667-735 [SAO_on_block_bo_sse128]; [b1], [b2] are [startBand], [startBand2].
    After a masked store the loop goes on. *)
Definition bo_type (r : Z -> reg) (off : Z -> reg) (src1 : reg) : reg :=
  let t0 := and_si (cmpeq_epi8 src1 (r 0)) (off 0) in
  let t1 := and_si (cmpeq_epi8 src1 (r 1)) (off 1) in
  let t2 := and_si (cmpeq_epi8 src1 (r 2)) (off 2) in
  let t3 := and_si (cmpeq_epi8 src1 (r 3)) (off 3) in
  let t0 := or_si t0 t1 in
  let t2 := or_si t2 t3 in
  or_si t0 t2.
Definition bo_band (b1 b2 : Z) (k : Z) : Z :=
  if k =? 0 then b1 else if k =? 1 then Z.land (b1 + 1) 31 else if k =? 2 then b2 else Z.land (b2 + 1) 31.
Definition bo_sse (src : mem) (pd ds ps ss w h gdepth : Z) (b1 b2 : Z) (off : Z -> Z) (junk : reg) (dst : mem) : mem :=
  let shift_bo := gdepth - 5 in
  let ex16 := w - 15 in
  let r := fun k => set1_epi8 (bo_band b1 b2 k) in
  let o := fun k => set1_epi8 (off (bo_band b1 b2 k)) in
  floop 0 h (fun y dst =>
    let p := ps + y * ss in
    let q := pd + y * ds in
    vfor 0 w 16 (fun x dst =>
      let src0 := load src (p + x) in
      let src1 := and_si (srai_epi16 src0 shift_bo) (set1_epi8 31) in
      let t0 := bo_type r o src1 in
      let src0 := add_offsets_sse t0 src0 in
      if x <? ex16 then (store16 dst (q + x) src0, true)
      else (maskmoveu dst (q + x) src0 (mask_row junk (Z.land w 15 - 1)), true)) dst) dst.

(** intrinsic_sao_avx2.cc:113-122 and its copies; [add] is the addition of words, saturating
    for the edge kernels. *)
Definition add_offsets_avx2 (add : reg -> reg -> reg) (t0 s1 : reg) : reg :=
  let t1 := cvtepi8_epi16 (castsi256_si128 t0) in
  let t2 := cvtepi8_epi16 (extracti128_1 t0) in
  let t3 := cvtepu8_epi16 (castsi256_si128 s1) in
  let t4 := cvtepu8_epi16 (extracti128_1 s1) in
  let t1 := add t1 t3 in
  let t2 := add t2 t4 in
  let t0 := packus_epi16 t1 t2 in
  permute4x64 t0 216.
(** intrinsic_sao_avx2.cc:81-86 and its copies: the table of offsets in both halves. *)
Definition eo_table_avx2 (off : Z -> Z) : reg :=
  let offtmp := mk32 off in
  let offtmp := packs_epi32 offtmp (mk32 (fun i => if i =? 0 then off 4 else 0)) in
  let offtmp := packs_epi16 offtmp setzero in
  set_halves offtmp offtmp.
(** intrinsic_sao_avx2.cc:97-122 and its copies: 32 samples. *)
Definition eo_avx2 (off : Z -> Z) (s0 s1 s2 : reg) : reg :=
  let etype := eo_type s0 s1 s2 in
  let etype := adds_epi8 etype (set1_epi8 2) in
  let t0 := shuffle_epi8 (eo_table_avx2 off) etype in
  add_offsets_avx2 adds_epi16 t0 s1.
(** intrinsic_sao_avx2.cc:127-139 and its copies: the store of the last, incomplete 32. *)
Definition store_tail_avx2 (dst : mem) (q x ex ex32 : Z) (t0 : reg) (junk : reg) : mem :=
  if 16 <=? ex - x then
    let dst := store16 dst (q + x) (castsi256_si128 t0) in
    if 16 <? ex - x then maskmoveu dst (q + x + 16) (extracti128_1 t0) (mask_row junk (ex - ex32 - 17)) else dst
  else maskmoveu dst (q + x) (castsi256_si128 t0) (mask_row junk (ex - ex32 - 1)).
(** One row (intrinsic_sao_avx2.cc:91-141, 183-233, 259-303, 313-359, 368-414, 448-494, 504-550,
    560-606). *)
Definition eo_row_avx2 (src : mem) (p q d sx ex : Z) (off : Z -> Z) (junk : reg) (dst : mem) : mem :=
  let ex32 := ex - Z.land (ex - sx) 31 in
  vfor sx ex 32 (fun x dst =>
    let s0 := load src (p + x - d) in
    let s1 := load src (p + x) in
    let s2 := load src (p + x + d) in
    let t0 := eo_avx2 off s0 s1 s2 in
    if negb (x =? ex32) then (store32 dst (q + x) t0, true)
    else (store_tail_avx2 dst q x ex ex32 t0 junk, false)) dst.
(** intrinsic_sao_avx2.cc:63-147 [SAO_on_block_eo_0_avx2]. *)
Definition eo_0_avx2 (src : mem) (pd ds ps ss w h : Z) (av : avail) (off : Z -> Z) (junk : reg) (dst : mem) : mem :=
  let sx := if a_L av then 0 else 1 in
  let ex := if a_R av then w else w - 1 in
  floop 0 h (fun y dst => eo_row_avx2 src (ps + y * ss) (pd + y * ds) 1 sx ex off junk dst) dst.
(** intrinsic_sao_avx2.cc:151-237 [SAO_on_block_eo_90_avx2]. *)
Definition eo_90_avx2 (src : mem) (pd ds ps ss w h : Z) (av : avail) (off : Z -> Z) (junk : reg) (dst : mem) : mem :=
  let sy := if a_T av then 0 else 1 in
  let ey := if a_D av then h else h - 1 in
  floop sy ey (fun y dst => eo_row_avx2 src (ps + y * ss) (pd + y * ds) ss 0 w off junk dst) dst.
(** intrinsic_sao_avx2.cc:241-415 [SAO_on_block_eo_135_avx2]. *)
Definition eo_135_avx2 (src : mem) (pd ds ps ss w h : Z) (av : avail) (off : Z -> Z) (junk : reg) (dst : mem) : mem :=
  let sx_0 := if a_TL av then 0 else 1 in
  let ex_0 := if a_T av then (if a_R av then w else w - 1) else 1 in
  let dst := eo_row_avx2 src ps pd (ss + 1) sx_0 ex_0 off junk dst in
  let sx := if a_L av then 0 else 1 in
  let ex := if a_R av then w else w - 1 in
  let dst := floop 1 (h - 1) (fun y dst => eo_row_avx2 src (ps + y * ss) (pd + y * ds) (ss + 1) sx ex off junk dst) dst in
  let sx_n := if a_D av then (if a_L av then 0 else 1) else w - 1 in
  let ex_n := if a_DR av then w else w - 1 in
  let y := Z.max 0 (h - 2) + 1 in
  eo_row_avx2 src (ps + y * ss) (pd + y * ds) (ss + 1) sx_n ex_n off junk dst.
(** intrinsic_sao_avx2.cc:419-607 [SAO_on_block_eo_45_avx2]. *)
Definition eo_45_avx2 (src : mem) (pd ds ps ss w h : Z) (av : avail) (off : Z -> Z) (junk : reg) (dst : mem) : mem :=
  let sx_0 := if a_T av then (if a_L av then 0 else 1) else w - 1 in
  let ex_0 := if a_TR av then w else w - 1 in
  let dst := eo_row_avx2 src ps pd (ss - 1) sx_0 ex_0 off junk dst in
  let sx := if a_L av then 0 else 1 in
  let ex := if a_R av then w else w - 1 in
  let dst := floop 1 (h - 1) (fun y dst => eo_row_avx2 src (ps + y * ss) (pd + y * ds) (ss - 1) sx ex off junk dst) dst in
  let sx_n := if a_DL av then 0 else 1 in
  let ex_n := if a_D av then (if a_R av then w else w - 1) else 1 in
  let y := Z.max 0 (h - 2) + 1 in
  eo_row_avx2 src (ps + y * ss) (pd + y * ds) (ss - 1) sx_n ex_n off junk dst.
(** intrinsic_sao_avx2.cc:611-687 [SAO_on_block_bo_avx2]; the depth is the argument. *)
Definition bo_avx2 (src : mem) (pd ds ps ss w h depth : Z) (b1 b2 : Z) (off : Z -> Z) (junk : reg) (dst : mem) : mem :=
  let shift_bo := depth - 5 in
  let ex32 := w - Z.land (w - 0) 31 in
  let r := fun k => set1_epi8 (bo_band b1 b2 k) in
  let o := fun k => set1_epi8 (off (bo_band b1 b2 k)) in
  floop 0 h (fun y dst =>
    let p := ps + y * ss in
    let q := pd + y * ds in
    vfor 0 w 32 (fun x dst =>
      let src0 := load src (p + x) in
      let src1 := srli_epi16 src0 shift_bo in
      let src1 := and_si src1 (set1_epi8 31) in
      let t0 := bo_type r o src1 in
      let t0 := add_offsets_avx2 add_epi16 t0 src0 in
      if x <? ex32 then (store32 dst (q + x) t0, true)
      else (store_tail_avx2 dst q x w ex32 t0 junk, false)) dst) dst.

(** ---- Adaptive loop filter ---- *)

(** intrinsic_alf.cc:107-187: sixteen filtered samples. [img1] .. [img6] are the rows, [p] the
    current row, [x] the column; [co] the nine coefficients, [depth] the global depth. *)
Definition alf_vec (src : mem) (p img1 img2 img3 img4 img5 img6 x depth : Z) (co : list Z) : reg :=
  let c0 := set1_epi8 (cf co 0) in
  let c1 := set1_epi8 (cf co 1) in
  let c2 := set1_epi8 (cf co 2) in
  let c3 := set1_epi8 (cf co 3) in
  let c4 := set1_epi8 (cf co 4) in
  let mswitch1 := setr_epi8 [0; 1; 2; 3; 2; 1; 0; 3; 0; 1; 2; 3; 2; 1; 0; 3] in
  let c30 := mk32 (fun i => cf co (5 + i)) in
  let c31 := packs_epi32 c30 c30 in
  let c32 := packs_epi16 c31 c31 in
  let c33 := shuffle_epi8 c32 mswitch1 in
  let mswitch2 := setr_epi8 [0; 1; 2; 3; 4; 5; 6; -1; 1; 2; 3; 4; 5; 6; 7; -1] in
  let mswitch3 := setr_epi8 [2; 3; 4; 5; 6; 7; 8; -1; 3; 4; 5; 6; 7; 8; 9; -1] in
  let mswitch4 := setr_epi8 [4; 5; 6; 7; 8; 9; 10; -1; 5; 6; 7; 8; 9; 10; 11; -1] in
  let mswitch5 := setr_epi8 [6; 7; 8; 9; 10; 11; 12; -1; 7; 8; 9; 10; 11; 12; 13; -1] in
  let maddoffset := set1_epi16 32 in
  let mzero := set1_epi16 0 in
  let mmax := set1_epi16 (Z.shiftl 1 depth - 1) in
  let t00 := load src (img6 + x) in
  let t01 := load src (img5 + x) in
  let s00 := maddubs_epi16 (unpacklo_epi8 t00 t01) c0 in
  let s01 := maddubs_epi16 (unpackhi_epi8 t00 t01) c0 in
  let t10 := load src (img4 + x) in
  let t11 := load src (img3 + x) in
  let s10 := maddubs_epi16 (unpacklo_epi8 t10 t11) c1 in
  let s11 := maddubs_epi16 (unpackhi_epi8 t10 t11) c1 in
  let t20 := load src (img2 + x - 1) in
  let t21 := load src (img1 + x + 1) in
  let s20 := maddubs_epi16 (unpacklo_epi8 t20 t21) c2 in
  let s21 := maddubs_epi16 (unpackhi_epi8 t20 t21) c2 in
  let t30 := load src (img2 + x) in
  let t31 := load src (img1 + x) in
  let s30 := maddubs_epi16 (unpacklo_epi8 t30 t31) c3 in
  let s31 := maddubs_epi16 (unpackhi_epi8 t30 t31) c3 in
  let t40 := load src (img2 + x + 1) in
  let t41 := load src (img1 + x - 1) in
  let s40 := maddubs_epi16 (unpacklo_epi8 t40 t41) c4 in
  let s41 := maddubs_epi16 (unpackhi_epi8 t40 t41) c4 in
  let t50 := load src (p + x - 3) in
  let t51 := load src (p + x + 5) in
  let t1 := shuffle_epi8 t50 mswitch2 in
  let t2 := shuffle_epi8 t50 mswitch3 in
  let t3 := shuffle_epi8 t50 mswitch4 in
  let t4 := shuffle_epi8 t50 mswitch5 in
  let t5 := shuffle_epi8 t51 mswitch2 in
  let t6 := shuffle_epi8 t51 mswitch3 in
  let t7 := shuffle_epi8 t51 mswitch4 in
  let t8 := shuffle_epi8 t51 mswitch5 in
  let s5 := maddubs_epi16 t1 c33 in
  let s6 := maddubs_epi16 t2 c33 in
  let s7 := maddubs_epi16 t3 c33 in
  let s8 := maddubs_epi16 t4 c33 in
  let s50 := hadds_epi16 s5 s6 in
  let s51 := hadds_epi16 s7 s8 in
  let s5 := hadds_epi16 s50 s51 in
  let s4 := maddubs_epi16 t5 c33 in
  let s6 := maddubs_epi16 t6 c33 in
  let s7 := maddubs_epi16 t7 c33 in
  let s8 := maddubs_epi16 t8 c33 in
  let s60 := hadds_epi16 s4 s6 in
  let s61 := hadds_epi16 s7 s8 in
  let s6 := hadds_epi16 s60 s61 in
  let s0 := adds_epi16 s00 s10 in
  let s1 := adds_epi16 s30 s20 in
  let s2 := adds_epi16 s40 s5 in
  let s3 := adds_epi16 s1 s0 in
  let ss1 := adds_epi16 s2 s3 in
  let s0 := adds_epi16 s01 s11 in
  let s1 := adds_epi16 s31 s21 in
  let s2 := adds_epi16 s41 s6 in
  let s3 := adds_epi16 s1 s0 in
  let ss2 := adds_epi16 s2 s3 in
  let ss1 := adds_epi16 ss1 maddoffset in
  let ss1 := srai_epi16 ss1 6 in
  let ss1 := min_epi16 ss1 mmax in
  let ss1 := max_epi16 ss1 mzero in
  let ss2 := adds_epi16 ss2 maddoffset in
  let ss2 := srai_epi16 ss2 6 in
  let ss2 := min_epi16 ss2 mmax in
  let ss2 := max_epi16 ss2 mzero in
  packus_epi16 ss1 ss2.
(** intrinsic_alf.cc:43-208 [alf_filter_block_sse128], arguments as for [alf_block1]. The end
    [xPosEnd16] at which the masked store happens is a column of the picture although [x]
    counts from the block. *)
Definition alf_block_sse (src : mem) (base stride px py w h depth : Z) (co : list Z) (top down : bool) (junk : reg) (dst : mem) : mem :=
  let st := alf_start top py in
  let en := alf_end down py h in
  let xend := px + w in
  let xend16 := xend - Z.land w 15 in
  let mask := mask_row junk (Z.land w 15 - 1) in
  let p0 := base + (st * stride + px) in
  let hh := en - st - 1 in
  floop 0 (hh + 1) (fun y dst =>
    let p := p0 + y * stride in
    let img1 := p + (clip3 0 hh (y + 1) - y) * stride in
    let img2 := p + (clip3 0 hh (y - 1) - y) * stride in
    let img3 := p + (clip3 0 hh (y + 2) - y) * stride in
    let img4 := p + (clip3 0 hh (y - 2) - y) * stride in
    let img5 := p + (clip3 0 hh (y + 3) - y) * stride in
    let img6 := p + (clip3 0 hh (y - 3) - y) * stride in
    vfor 0 w 16 (fun x dst =>
      let s := alf_vec src p img1 img2 img3 img4 img5 img6 x depth co in
      if negb (x =? xend16) then (store16 dst (p + x) s, true)
      else (maskmoveu dst (p + x) s mask, false)) dst) dst.

(** ---- Block average and plane copy ---- *)

(** intrinsic_pixel.cc:80-120 [avs_pixel_average_sse128], first source and destination the same
    block as for [pixel_average]. [for (j = 0; j < width - 15; j += 16)] ends at the multiple of
    16 below the width, where the masked part is. *)
Definition average_sse (dst i_dst : Z) (src1 : mem) (p1 i_src1 w h : Z) (junk : reg) (m : mem) : mem :=
  if negb (Z.land w 15 =? 0) then
    let mask := mask_row junk (Z.land w 15 - 1) in
    floop 0 h (fun y m =>
      let q := dst + y * i_dst in
      let p := p1 + y * i_src1 in
      let m := vfor 0 (w - 15) 16 (fun j m => (store16 m (q + j) (avg_epu8 (load m (q + j)) (load src1 (p + j))), true)) m in
      let j := 16 * ((Z.max 0 (w - 15) + 15) / 16) in
      maskmoveu m (q + j) (avg_epu8 (load m (q + j)) (load src1 (p + j))) mask) m
  else
    floop 0 h (fun y m =>
      let q := dst + y * i_dst in
      let p := p1 + y * i_src1 in
      vfor 0 w 16 (fun j m => (store16 m (q + j) (avg_epu8 (load m (q + j)) (load src1 (p + j))), true)) m) m.
(** intrinsic_pixel.cc:156-196 [plane_copy_c_sse2]; [memcpy] of the rest is a loop over bytes. *)
Definition plane_copy_sse2 (dst i_dst : Z) (src : mem) (p i_src w h : Z) (m : mem) : mem :=
  let n128 := Z.shiftr w 4 in
  let left := w - Z.shiftl n128 4 in
  floop 0 h (fun y m =>
    let q := dst + y * i_dst in
    let s := p + y * i_src in
    let m := floop 0 n128 (fun n m => store16 m (q + 16 * n) (load src (s + 16 * n))) m in
    if negb (left =? 0) then
      let o := Z.shiftl n128 4 in
      floop 0 left (fun k m => upd m (q + o + k) (src (s + o + k))) m
    else m) m.
