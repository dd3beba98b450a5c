(** Properties of the vector functions of the inverse transforms. *)
From Coq Require Import ZArith List Bool Lia.
From Verif Require Import CBase MemModel MemProofs VxModelBase SynModel SynSpec TrModel AlfSpec McSpec TrSpec TrProofs TrProofsB
  VtModel VtModelA VtModelB VtModelC VtModelD VtModelE VtModelF VtModelG VtSpec VtProofs VtProofsB VtProofsC VtProofsD VtProofsE VtProofsF VtProofsG.
Import ListNotations.
Open Scope Z_scope.

(** C98: with the SSE2 functions, or with the AVX2 ones as well, the inverse transform of a block
    leaves exactly the memory the C functions leave: for every size, every pattern the parser may have
    stored with the block (its coefficients lie in the corner the pattern stands for, C61), every bit depth, all
    coefficients of 16 bits and all contents of local variables. *)
Theorem C98_block : forall avx2 d p w h pat sec intra luma mode b_top b_left t0 l1 l2 m,
  In (w, h) block_sizes -> 0 <= pat <= 2 -> mc_depth d ->
  let cw := coeff_width w h in let ch := coeff_height w h in
  coeffs16 cw ch p m -> zero_beyond (fst (region cw ch pat)) (snd (region cw ch pat)) cw ch p m ->
  exists m1 m2, inv_transform_v avx2 d p cw w h pat sec intra luma mode b_top b_left l1 l2 m = Done m1 /\
    inv_transform d p cw w h sec intra luma mode b_top b_left t0 m = Done m2 /\ forall q, m1 q = m2 q.
Proof. exact inv_transform_v_eq. Qed.
Print Assumptions C98_block.
(** Hence the residual of the standard. *)
Theorem C98_residual : forall avx2 d p w h pat sec intra luma mode b_top b_left l1 l2 m (hor ver : bool),
  In (w, h) block_sizes -> 0 <= pat <= 2 -> mc_depth d ->
  let cw := coeff_width w h in let ch := coeff_height w h in
  coeffs16 cw ch p m -> zero_beyond (fst (region cw ch pat)) (snd (region cw ch pat)) cw ch p m ->
  (hor = true <-> sec_hor mode /\ b_left = true) -> (ver = true <-> sec_ver mode /\ b_top = true) ->
  exists m1, inv_transform_v avx2 d p cw w h pat sec intra luma mode b_top b_left l1 l2 m = Done m1 /\
    (forall x y, 0 <= x < w -> 0 <= y < h -> m1 (p + y * w + x) = block_residual w h d (sec && intra && luma) hor ver (coeffs_at m p cw) x y) /\
    (forall q, q < p \/ p + w * h <= q -> m1 q = m q).
Proof.
  intros avx2 d p w h pat sec intra luma mode b_top b_left l1 l2 m hor ver HS Hp Hd cw ch H16 H0 EH EV.
  destruct (inv_transform_v_eq avx2 d p w h pat sec intra luma mode b_top b_left (fun _ => 0) l1 l2 m HS Hp Hd H16 H0) as (m1 & m2 & A & B & E).
  destruct (inv_transform_spec d p w h sec intra luma mode b_top b_left (fun _ => 0) m hor ver HS Hd EH EV) as (m3 & C & D1 & D2).
  fold cw in A, B, C, D1. rewrite C in B. injection B as ->. exists m1. split; [exact A|]. split.
  - intros x y Hx Hy. rewrite E. apply D1; assumption.
  - intros q Hq. rewrite E. apply D2, Hq.
Qed.
Print Assumptions C98_residual.
(** The same for the kernels that take a stride, at any stride not below the width. *)
Definition strided : list (list ins * nat * nat * nat * nat) :=
  [(idct_4x4_sse128, 4, 4, 4, 4); (idct_4x16_sse128, 4, 16, 4, 16); (idct_16x4_sse128, 16, 4, 16, 4); (idct_8x8_sse128, 8, 8, 8, 8);
   (idct_16x16_sse128, 16, 16, 16, 16); (idct_16x16_half_sse128, 16, 16, 8, 8); (idct_16x16_quad_sse128, 16, 16, 4, 4);
   (idct_32x8_sse128, 32, 8, 32, 8); (idct_32x32_sse128, 32, 32, 32, 32); (idct_32x32_half_sse128, 32, 32, 16, 16); (idct_32x32_quad_sse128, 32, 32, 8, 8)]%nat.
Theorem C98_strides : forall k bh bv kh kv d flag p stride l t0 m, In (k, bh, bv, kh, kv) strided ->
  mc_depth d -> 0 <= flag <= 1 -> Z.of_nat bh <= stride ->
  coeffs16 (Z.of_nat bh) (Z.of_nat bv) p m -> zero_beyond (Z.of_nat kh) (Z.of_nat kv) (Z.of_nat bh) (Z.of_nat bv) p m ->
  forall q, run k (kernel_params d flag) p p stride (fst l) (snd l) m q = idct_hv bh bv flag d p stride t0 m q.
Proof.
  intros k bh bv kh kv d flag p stride l t0 m HI. unfold strided in HI. cbn [In] in HI.
  assert (P4: points 4) by (unfold points; lia). assert (P8: points 8) by (unfold points; lia).
  assert (P16: points 16) by (unfold points; lia). assert (P32: points 32) by (unfold points; lia).
  destruct HI as [E|[E|[E|[E|[E|[E|[E|[E|[E|[E|[E|[]]]]]]]]]]]]; injection E as <- <- <- <- <-.
  - apply (kernel_eq false 4 4 4 4); [exact chk_4x4|unfold small_size; lia|assumption..].
  - apply (kernel_eq false 4 16 4 16); [exact chk_4x16|unfold small_size; lia|assumption..].
  - apply (kernel_eq false 16 4 16 4); [exact chk_16x4|unfold small_size; lia|assumption..].
  - apply (kernel_eq false 8 8 8 8); [exact chk_8x8|unfold small_size; lia|assumption..].
  - apply (kernel_eq false 16 16 16 16); [exact chk_16x16|unfold small_size; lia|assumption..].
  - apply (kernel_eq false 16 16 8 8); [exact chk_16x16_half|unfold small_size; lia|assumption..].
  - apply (kernel_eq false 16 16 4 4); [exact chk_16x16_quad|unfold small_size; lia|assumption..].
  - apply (kernel_eq false 32 8 32 8); [exact chk_32x8|unfold small_size; lia|assumption..].
  - apply (kernel_eq false 32 32 32 32); [exact chk_32x32|unfold small_size; lia|assumption..].
  - apply (kernel_eq false 32 32 16 16); [exact chk_32x32_half|unfold small_size; lia|assumption..].
  - apply (kernel_eq false 32 32 8 8); [exact chk_32x32_quad|unfold small_size; lia|assumption..].
Qed.
Print Assumptions C98_strides.
(** At other strides the AVX2 functions are not the C functions: they store the block at its own
    width whatever the stride. *)
Theorem C98_avx2_stride_refuted : exists m q l, coeffs16 8 8 0 m /\
  plain idct_8x8_avx2 8 0 16 l m q <> idct_8x8 8 0 16 (fun _ => 0) m q.
Proof.
  exists (fun a => if a =? 0 then 640 else 0), 8, (fun _ _ => 0, fun _ => 0). set (m := fun a => if a =? 0 then 640 else 0).
  assert (H16 : coeffs16 8 8 0 m) by (intros u v Hu Hv; unfold m; destruct (_ =? 0); lia). split; [exact H16|].
  destruct (idct_check0_ok 8 8 8 8 idct_8x8_avx2 chk_8x8_avx2 ltac:(lia) ltac:(lia) ltac:(lia) ltac:(lia) ltac:(lia) 8 0 0 0 16 (fun _ _ => 0) (fun _ => 0) m ltac:(unfold mc_depth; lia) ltac:(lia) H16 ltac:(lia)) as [A _].
  specialize (A 0 1 ltac:(lia) ltac:(lia)). change (0 + 1 * Z.of_nat 8 + 0) with 8 in A. unfold plain. cbn [fst snd]. rewrite A.
  destruct (idct_hv_spec 8 8 0 8 0 16 (fun _ => 0) m ltac:(unfold points; lia) ltac:(unfold points; lia) ltac:(lia) ltac:(unfold mc_depth; lia) ltac:(lia)) as [_ B].
  unfold idct_8x8. rewrite B by (intros (x & y & Hx & Hy & E); unfold bpos in E; lia). vm_compute. discriminate.
Qed.
Print Assumptions C98_avx2_stride_refuted.
(** The conditions of C98 met, and needed: a block of 16x16 with the pattern for its first 4x4
    coefficients, all of them used; and the function for this pattern on a block with a coefficient outside. *)
Definition C98_mem : mem := fun a => if (0 <=? a) && (a <? 64) && (a mod 16 <? 4) then 100 * a - 3000 else 0.
Example C98_case : coeffs16 16 16 0 C98_mem /\ zero_beyond (fst (region 16 16 DCT_QUAD)) (snd (region 16 16 DCT_QUAD)) 16 16 0 C98_mem /\ C98_mem 51 = 2100 /\
  match inv_transform 8 0 16 16 16 true true true 0 true true (fun _ => 0) C98_mem with Done r => map r [0; 5; 100; 255; 256] | _ => [] end = [85; -66; 46; -162; 0].
Proof.
  split; [|split; [|split; [reflexivity|vm_compute; reflexivity]]].
  - intros u v Hu Hv. unfold C98_mem. destruct (_ && _) eqn:E; lia.
  - intros u v Hu Hv Hk. unfold C98_mem. change (fst (region 16 16 DCT_QUAD)) with 4 in Hk. change (snd (region 16 16 DCT_QUAD)) with 4 in Hk.
    assert (M : (0 + v * 16 + u) mod 16 = u) by (rewrite Z.add_comm, Z.add_0_l, Z.mod_add by lia; apply Z.mod_small; lia).
    rewrite M. destruct ((0 <=? 0 + v * 16 + u) && (0 + v * 16 + u <? 64) && (u <? 4)) eqn:E; lia.
Qed.

(** C99: the vector versions of the secondary transforms leave the memory the C versions leave, at any pitch. *)
Theorem C99_secondary : forall p ic mode b_top b_left m, 4 <= ic -> corner16 p ic m ->
  forall q, inv_2nd_v p ic mode b_top b_left m q = inv_2nd p ic mode b_top b_left m q.
Proof. exact inv_2nd_v_eq. Qed.
Print Assumptions C99_secondary.
Theorem C99_4x4 : forall d p ic m, mc_depth d -> 4 <= ic -> corner16 p ic m ->
  forall q, inv_4x4_2nd_v d p ic m q = inv_4x4_2nd d p ic m q.
Proof. exact inv_4x4_v_eq. Qed.
Print Assumptions C99_4x4.
Example C99_case : let m := fun a => if a <? 4 then 900 - 500 * a else if a <? 20 then 30 * a else -7 in
  corner16 0 4 m /\ map (inv_2nd 0 4 1 true true m) [0; 1; 2; 3; 4; 15; 16] = [704; -691; -124; -531; -225; 365; 480] /\
  map (inv_4x4_2nd 8 0 4 m) [0; 1; 2; 3; 4; 15; 16] = [29; 7; 8; 6; -13; 8; 480].
Proof.
  cbv zeta. split; [|split; vm_compute; reflexivity]. intros x y Hx Hy. cbv beta. destruct (_ <? 4) eqn:A; [lia|]. destruct (_ <? 20) eqn:B; lia.
Qed.
(** The vector versions of the doubling: any 16-bit values, in place, whatever the local variables hold. *)
Definition doublings : list (list ins * Z * Z) :=
  [(inv_wavelet_64x64_sse128, 32, 32); (inv_wavelet_64x16_sse128, 32, 8); (inv_wavelet_16x64_sse128, 8, 32);
   (inv_wavelet_64x64_avx2, 32, 32); (inv_wavelet_64x16_avx2, 32, 8); (inv_wavelet_16x64_avx2, 8, 32)].
Theorem C99_doubling : forall k h0 h1 p l m, In (k, h0, h1) doublings -> coeffs16 h0 h1 p m ->
  (forall x y, 0 <= x < 2 * h0 -> 0 <= y < 2 * h1 ->
     run k (fun _ => 0) p p 0 (fst l) (snd l) m (p + y * (2 * h0) + x) = doubled (2 * h0) (2 * h1) (coeffs_at m p h0) x y) /\
  (forall q, q < p \/ p + 2 * h0 * (2 * h1) <= q -> run k (fun _ => 0) p p 0 (fst l) (snd l) m q = m q).
Proof.
  intros k h0 h1 p l m HI H16. assert (W : wavelet_check h0 h1 k = true /\ 0 < h0 /\ 0 < h1 /\ h0 * h1 <= 4096).
  { unfold doublings in HI. cbn [In] in HI. destruct HI as [E|[E|[E|[E|[E|[E|[]]]]]]]; injection E as <- <- <-.
    - split; [exact chk_w64x64|lia].
    - split; [exact chk_w64x16|lia].
    - split; [exact chk_w16x64|lia].
    - split; [exact chk_w64x64_avx2|lia].
    - split; [exact chk_w64x16_avx2|lia].
    - split; [exact chk_w16x64_avx2|lia]. }
  destruct W as (W & P0 & P1 & Sz). destruct (wavelet_check_ok h0 h1 k W P0 P1 Sz p p 0 (fst l) (snd l) m H16) as [A B]. split; [exact A|].
  intros q Hq. apply B. intros (x & y & Hx & Hy & ->). nia.
Qed.
Print Assumptions C99_doubling.
