(** C97: motion compensation with the AVX2 kernels of interpolation. *)
From Coq Require Import ZArith List Bool Lia.
From Verif Require Import CBase MemModel MemProofs SaoModel McModel McSpec McProofs VxModelBase VxModel VdModel ViModel VjModel VjProofsE.
Import ListNotations.
Open Scope Z_scope.

(** A luma block predicted with them is the block of the C kernels: all of memory is the same, whatever lies behind the
    table of masks and whatever the local arrays held. The widths are those of prediction units: a multiple of four. *)
Theorem C97_luma : forall dst i_dst posx posy w h src pf stride junk t0 t0' m,
  (forall q, 0 <= src q <= 255) -> Z.of_nat w <= i_dst -> (w <= 64)%nat -> (w mod 4 = 0)%nat -> (h mod 4 = 0)%nat ->
  forall q, mc_luma_avx2 dst i_dst posx posy w h src pf stride junk t0 m q = mc_luma 8 dst i_dst posx posy w h src pf stride t0' m q.
Proof. exact mc_luma_avx2_agrees. Qed.
Print Assumptions C97_luma.
(** Hence C43 with them: every sample is the one of the standard, and nothing else is written. *)
Theorem C97_luma_samples : forall dst i_dst posx posy w h src pf stride junk t0 m,
  (forall q, 0 <= src q <= 255) -> Z.of_nat w <= i_dst -> (w <= 64)%nat -> (w mod 4 = 0)%nat -> (h mod 4 = 0)%nat ->
  (forall x y, 0 <= x < Z.of_nat w -> 0 <= y < Z.of_nat h ->
     mc_luma_avx2 dst i_dst posx posy w h src pf stride junk t0 m (dst + y * i_dst + x) =
     interp_luma 8 (plane src pf stride) (posx + 4 * x) (posy + 4 * y)) /\
  (forall p, ~ in_block w h dst i_dst p -> mc_luma_avx2 dst i_dst posx posy w h src pf stride junk t0 m p = m p).
Proof.
  intros dst i_dst posx posy w h src pf stride junk t0 m Hs Hw W W4 H.
  assert (mc_depth 8) as D by (split; discriminate).
  assert (forall a, 0 <= src a < 2 ^ 8) as B by (intros a; specialize (Hs a); change (2 ^ 8) with 256; lia).
  destruct (mc_luma_spec 8 dst i_dst posx posy w h src pf stride t0 m D W Hw B) as [K L].
  split; intros; rewrite (C97_luma _ _ _ _ _ _ _ _ _ _ _ t0 _ Hs Hw W W4 H); [apply K|apply L]; assumption.
Qed.
Print Assumptions C97_luma_samples.

(** Chroma likewise, with the reservation of C93: the kernels for positions between columns and between lines choose
    the formula of symmetric taps with [coef_y[6]], beyond the four taps. What is missing is the line position 7/8
    when a 6 follows the table, refuted below. *)
Theorem C97_chroma_partial : forall beyond dst i_dst posx posy w h src pf stride junk t0 t0' m,
  (forall q, 0 <= src q <= 255) -> Z.of_nat w <= i_dst -> (w <= 32)%nat -> (w mod 2 = 0)%nat -> (h mod 2 = 0)%nat ->
  (posx mod 8 = 0 \/ posy mod 8 <> 7 \/ beyond 34 <> 6) ->
  forall q, mc_chroma_avx2 beyond dst i_dst posx posy w h src pf stride junk t0 m q = mc_chroma 8 dst i_dst posx posy w h src pf stride t0' m q.
Proof. exact mc_chroma_avx2_agrees. Qed.
Print Assumptions C97_chroma_partial.
Theorem C97_chroma_samples_partial : forall beyond dst i_dst posx posy w h src pf stride junk t0 m,
  (forall q, 0 <= src q <= 255) -> Z.of_nat w <= i_dst -> (w <= 32)%nat -> (w mod 2 = 0)%nat -> (h mod 2 = 0)%nat ->
  (posx mod 8 = 0 \/ posy mod 8 <> 7 \/ beyond 34 <> 6) ->
  (forall x y, 0 <= x < Z.of_nat w -> 0 <= y < Z.of_nat h ->
     mc_chroma_avx2 beyond dst i_dst posx posy w h src pf stride junk t0 m (dst + y * i_dst + x) =
     interp_chroma 8 (plane src pf stride) (posx + 8 * x) (posy + 8 * y)) /\
  (forall p, ~ in_block w h dst i_dst p -> mc_chroma_avx2 beyond dst i_dst posx posy w h src pf stride junk t0 m p = m p).
Proof.
  intros beyond dst i_dst posx posy w h src pf stride junk t0 m Hs Hw W W2 H B.
  assert (mc_depth 8) as D by (split; discriminate).
  destruct (mc_chroma_spec 8 dst i_dst posx posy w h src pf stride t0 m D W Hw) as [K L].
  split; intros; rewrite (C97_chroma_partial _ _ _ _ _ _ _ _ _ _ _ _ t0 _ Hs Hw W W2 H B); [apply K|apply L]; assumption.
Qed.
Print Assumptions C97_chroma_samples_partial.
(** F74 again, on blocks of 16 columns. *)
Theorem C97_chroma_refuted : exists beyond dst i_dst posx posy w h src pf stride junk t0 m q,
  (forall q, 0 <= src q <= 255) /\ Z.of_nat w <= i_dst /\ (w <= 32)%nat /\ (8 < w)%nat /\ (w mod 2 = 0)%nat /\ (h mod 2 = 0)%nat /\
  mc_chroma_avx2 beyond dst i_dst posx posy w h src pf stride junk t0 m q <> mc_chroma 8 dst i_dst posx posy w h src pf stride t0 m q.
Proof.
  exists (fun _ => 6), 0, 16, 1, 7, 16%nat, 2%nat, (fun a => a mod 256), 4096, 16, (fun _ => 0), (fun _ => 0), (fun _ => 0), 0.
  split; [intros q; pose proof (Z.mod_pos_bound q 256 eq_refl); lia|]. split; [discriminate|]. split; [lia|]. split; [lia|]. split; [reflexivity|]. split; [reflexivity|].
  vm_compute. discriminate.
Qed.
Print Assumptions C97_chroma_refuted.

(** Blocks of 24x4 samples between columns, and of 16x4 between lines; the sample behind a line stays. *)
Example C97_case : let src := fun a => (a * a) mod 256 in
  let h := mc_luma_avx2 0 32 5 8 24 4 src 4096 40 (fun _ => 0) (fun _ => 0) (fun _ => 7) in
  let v := mc_luma_avx2 0 20 4 6 16 4 src 4096 40 (fun _ => 0) (fun _ => 0) (fun _ => 7) in
  (h 0, h 23, h 24, h 119, h 120) = (mc_luma 8 0 32 5 8 24 4 src 4096 40 (fun _ => 0) (fun _ => 7) 0, h 23, 7, h 119, 7) /\ h 0 <> h 23 /\ v 0 <> v 11 /\ v 16 = 7 /\ v 20 <> 7.
Proof. vm_compute. repeat split; discriminate. Qed.
