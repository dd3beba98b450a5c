(** Property theorems: vector kernels. *)
From Coq Require Import ZArith List Bool Lia.
From Verif Require Import CBase MemModel SynModel SynSpec SaoModel SaoSpec SaoProofsC AlfModel AlfSpec McModel VxSpec VxModelBase VxModel VxProofs VxProofsB VxProofsC VxProofsF.
Import ListNotations.
Open Scope Z_scope.

(** C89: every vector kernel of sample adaptive offset does to a block what C54 and C56 say of
    the C kernels, whatever lies behind the table of masks. *)
Definition eight_bit (src : mem) : Prop := forall q, 0 <= src q <= 255.
Definition small_offsets (off : Z -> Z) : Prop := forall e, 0 <= e <= 4 -> -128 <= off e <= 127.
Theorem C89_edge_0 : forall src pd ds ps ss w h av off junk dst,
  eight_bit src -> small_offsets off -> 1 <= w <= ds -> 1 <= h ->
  block_becomes w h pd ds dst (eo_0_sse src pd ds ps ss w h av off junk dst) (edge_result src ps ss w h 8 av off 1 0) /\
  block_becomes w h pd ds dst (eo_0_avx2 src pd ds ps ss w h av off junk dst) (edge_result src ps ss w h 8 av off 1 0).
Proof. intros. split; [apply eo_0_sse_correct|apply eo_0_avx2_correct]; auto; lia. Qed.
Print Assumptions C89_edge_0.
Theorem C89_edge_90 : forall src pd ds ps ss w h av off junk dst,
  eight_bit src -> small_offsets off -> 1 <= w <= ds -> 1 <= h ->
  block_becomes w h pd ds dst (eo_90_sse src pd ds ps ss w h av off junk dst) (edge_result src ps ss w h 8 av off 0 1) /\
  block_becomes w h pd ds dst (eo_90_avx2 src pd ds ps ss w h av off junk dst) (edge_result src ps ss w h 8 av off 0 1).
Proof. intros. split; [apply eo_90_sse_correct|apply eo_90_avx2_correct]; auto; lia. Qed.
Print Assumptions C89_edge_90.
Theorem C89_edge_135 : forall src pd ds ps ss w h av off junk dst,
  eight_bit src -> small_offsets off -> 1 <= w <= ds -> 2 <= h -> corners av ->
  block_becomes w h pd ds dst (eo_135_sse src pd ds ps ss w h av off junk dst) (edge_result src ps ss w h 8 av off (-1) (-1)) /\
  block_becomes w h pd ds dst (eo_135_avx2 src pd ds ps ss w h av off junk dst) (edge_result src ps ss w h 8 av off (-1) (-1)).
Proof. intros. split; [apply eo_135_sse_correct|apply eo_135_avx2_correct]; auto; lia. Qed.
Print Assumptions C89_edge_135.
Theorem C89_edge_45 : forall src pd ds ps ss w h av off junk dst,
  eight_bit src -> small_offsets off -> 1 <= w <= ds -> 2 <= h -> corners av ->
  block_becomes w h pd ds dst (eo_45_sse src pd ds ps ss w h av off junk dst) (edge_result src ps ss w h 8 av off 1 (-1)) /\
  block_becomes w h pd ds dst (eo_45_avx2 src pd ds ps ss w h av off junk dst) (edge_result src ps ss w h 8 av off 1 (-1)).
Proof. intros. split; [apply eo_45_sse_correct|apply eo_45_avx2_correct]; auto; lia. Qed.
Print Assumptions C89_edge_45.
Theorem C89_band : forall p src pd ds ps ss w h junk dst,
  eight_bit src -> band_ok p -> 0 <= w <= ds -> 0 <= h ->
  block_becomes w h pd ds dst (bo_sse src pd ds ps ss w h 8 (s_band p) (s_band2 p) (off_at p) junk dst) (band_result src ps ss 8 8 (off_at p)) /\
  block_becomes w h pd ds dst (bo_avx2 src pd ds ps ss w h 8 (s_band p) (s_band2 p) (off_at p) junk dst) (band_result src ps ss 8 8 (off_at p)).
Proof.
  intros p src pd ds ps ss w h junk dst E (_ & B1 & B2 & _ & O & Z0) W H. split; [apply bo_sse_correct|apply bo_avx2_correct]; auto;
    intros e He; [pose proof (O e ltac:(lia)); lia|intros N; apply Z0; [lia|exact N]|pose proof (O e ltac:(lia)); lia|intros N; apply Z0; [lia|exact N]].
Qed.
Print Assumptions C89_band.
(** Offsets the parser produces (C38) are small enough. *)
Theorem C89_offsets : forall p, edge_ok p -> small_offsets (off_at p).
Proof.
  intros p (_ & O0 & O1 & O2 & O3 & O4) e He.
  assert (e = 0 \/ e = 1 \/ e = 2 \/ e = 3 \/ e = 4) as C by lia. destruct C as [-> | [-> | [-> | [-> | ->]]]]; lia.
Qed.
Print Assumptions C89_offsets.
Example C89_nonvacuous :
  let src := fun q => nth (Z.to_nat q) [10; 20; 10; 30; 5; 5; 40; 40; 40] 0 in
  let off := fun e => nth (Z.to_nat e) [4; 1; 0; -1; -4] 0 in
  let av := Avail true true false false false false false false in
  map (eo_0_sse src 0 3 0 3 3 3 av off setzero src) [0; 1; 2; 3; 4; 5] = [10; 16; 10; 30; 6; 5] /\
  map (eo_0_avx2 src 0 3 0 3 3 3 av off setzero src) [0; 1; 2; 3; 4; 5] = [10; 16; 10; 30; 6; 5] /\
  let p := Build_sao_param 2 4 12 20 (repeat 0 12 ++ [3; -2] ++ repeat 0 6 ++ [1; 1] ++ repeat 0 10) in
  map (bo_sse (fun q => 90 + 6 * q) 0 4 0 4 4 1 8 12 20 (off_at p) setzero (fun _ => 0)) [0; 1; 2; 3; 4] = [90; 99; 105; 106; 0] /\
  map (bo_avx2 (fun q => 90 + 6 * q) 0 4 0 4 4 1 8 12 20 (off_at p) setzero (fun _ => 0)) [0; 1; 2; 3; 4] = [90; 99; 105; 106; 0].
Proof. vm_compute. repeat split. Qed.

(** C90: the vector kernel of the adaptive loop filter agrees with the C kernel on the block if
    the coefficients are small; it may also write up to 15 samples on the right of the block.
    Missing: agreement for all conforming coefficients, which is refuted below. [px] and [w] are
    those of an LCU of a row: the first, or not wider than the columns before it. *)
Theorem C90_alf_partial : forall src base stride px py w h co top down junk dst,
  eight_bit src -> fits8 co -> fits16 co -> 0 <= w -> up16 w <= stride -> alf_start top py <= alf_end down py h -> px = 0 \/ w <= px ->
  let rows := alf_end down py h - alf_start top py in
  let p0 := base + (alf_start top py * stride + px) in
  let new := alf_block_sse src base stride px py w h 8 co top down junk dst in
  let ref := alf_block1 src base stride px py w h 8 co top down dst in
  (forall x y, 0 <= x < w -> 0 <= y < rows -> new (p0 + y * stride + x) = ref (p0 + y * stride + x)) /\
  (forall q, (forall x y, 0 <= x < up16 w -> 0 <= y < rows -> q <> p0 + y * stride + x) -> new q = dst q) /\
  (px = 0 \/ w mod 16 = 0 -> forall q, new q = ref q).
Proof. intros. apply alf_block_agrees; auto; lia. Qed.
Print Assumptions C90_alf_partial.
(** A plane of equal samples, which the filter must leave alone, with transmitted
    coefficients in the ranges of the standard. The first has a centre coefficient of 192 after
    reconstruction, which the parser accepts; in the second all of them fit in a byte. *)
Theorem C90_byte_saturation_refuted : forall junk dst, exists c v, conforming c /\ 0 <= v <= 255 /\
  alf_block1 (fun _ => v) 0 64 0 0 16 8 8 (alf_recon c) false false dst 0 = v /\
  alf_block_sse (fun _ => v) 0 64 0 0 16 8 8 (alf_recon c) false false junk dst 0 = 0 /\ v <> 0.
Proof. intros junk dst. exists [0; 0; 0; -32; 0; 0; 0; -32; 0], 100. destruct (byte_saturation junk dst) as (A & B & C). split; [exact A|]. split; [lia|]. split; [exact B|]. split; [exact C|lia]. Qed.
Print Assumptions C90_byte_saturation_refuted.
Theorem C90_word_saturation_refuted : forall junk dst, exists c v, conforming c /\ fits8 (alf_recon c) /\ 0 <= v <= 255 /\
  alf_block1 (fun _ => v) 0 64 0 0 16 8 8 (alf_recon c) false false dst 0 = v /\
  alf_block_sse (fun _ => v) 0 64 0 0 16 8 8 (alf_recon c) false false junk dst 0 <> v.
Proof. intros junk dst. exists [0; 0; 0; -48; 0; 0; 0; 20; 0], 255. destruct (word_saturation junk dst) as (A & B & C & D). split; [exact A|]. split; [exact B|]. split; [lia|]. split; [exact C|]. rewrite D. lia. Qed.
Print Assumptions C90_word_saturation_refuted.
(** With small coefficients, samples on the right of the block. *)
Theorem C90_overshoot_refuted : forall junk, exists src px w stride co dst q, eight_bit src /\ fits8 co /\ fits16 co /\ 0 < w <= px /\ up16 w <= stride /\
  alf_block_sse src 0 stride px 0 w 8 8 co false false junk dst q <> alf_block1 src 0 stride px 0 w 8 8 co false false dst q.
Proof.
  intros junk. exists (fun _ => 100), 32, 24, 96, (alf_recon [0; 0; 0; 0; 0; 0; 0; 0; 0]), (fun _ => 7), 56. destruct (overshoot junk) as (A & B & C & D).
  split; [intros q; lia|]. split; [exact A|]. split; [exact B|]. split; [lia|]. split; [vm_compute; intros X; discriminate X|]. rewrite C, D. lia.
Qed.
Print Assumptions C90_overshoot_refuted.
(** The row of the table of masks that is loaded for a block as wide as an LCU is not in the
    table. *)
Theorem C90_mask_index_refuted : forall w, w = 16 \/ w = 32 \/ w = 64 -> ~ (0 <= Z.land w 15 - 1 < Z.of_nat (length intrinsic_mask)).
Proof. intros w [-> | [-> | ->]]; vm_compute; intros [A B]; apply A; reflexivity. Qed.
Print Assumptions C90_mask_index_refuted.
Example C90_nonvacuous : let co := alf_recon [1; -1; 2; -2; 3; -3; 4; -4; 0] in
  fits8 co /\ fits16 co /\
  alf_block_sse (fun q => (q * q) mod 251) 0 96 0 0 20 8 8 co false false setzero (fun _ => 7) 105 =
  alf_block1 (fun q => (q * q) mod 251) 0 96 0 0 20 8 8 co false false (fun _ => 7) 105.
Proof.
  cbv zeta. split; [|split; [vm_compute; intros X; discriminate X|vm_compute; reflexivity]].
  intros i Hi. assert (i = 0 \/ i = 1 \/ i = 2 \/ i = 3 \/ i = 4 \/ i = 5 \/ i = 6 \/ i = 7 \/ i = 8) as C by lia.
  decompose [or] C; subst i; vm_compute; split; intros X; discriminate X.
Qed.

(** C91: block average and plane copy are the same as in C, to the last byte of memory. *)
Theorem C91_average : forall dst i_dst src1 p1 i_src1 (w h : nat) junk m, Z.of_nat w <= i_dst ->
  forall q, average_sse dst i_dst src1 p1 i_src1 (Z.of_nat w) (Z.of_nat h) junk m q = pixel_average dst i_dst src1 p1 i_src1 w h m q.
Proof. exact average_agrees. Qed.
Print Assumptions C91_average.
Theorem C91_plane_copy : forall dst i_dst src p i_src (w h : nat) m, Z.of_nat w <= i_dst ->
  forall q, plane_copy_sse2 dst i_dst src p i_src (Z.of_nat w) (Z.of_nat h) m q = mc_block_copy dst i_dst src p i_src w h m q.
Proof. exact plane_copy_agrees. Qed.
Print Assumptions C91_plane_copy.
Example C91_nonvacuous :
  map (average_sse 0 24 (fun q => 2 * q) 0 20 20 2 setzero (fun q => q)) [0; 1; 17; 19; 20; 24; 43; 44] = [0; 2; 26; 29; 20; 32; 61; 44] /\
  map (plane_copy_sse2 0 24 (fun q => 100 + q) 0 20 20 2 (fun q => q)) [0; 17; 19; 20; 24; 43; 44] = [100; 117; 119; 20; 120; 139; 44].
Proof. split; reflexivity. Qed.
