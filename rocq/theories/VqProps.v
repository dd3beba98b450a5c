(** C102: the vector predictors of the modes without a direction. *)
From Coq Require Import ZArith List Bool Lia.
From Verif Require Import CBase UtilModel MemModel IprModel IprSpec IprProofsE IprProofsG IprProofsH IprProps VqModel VqProofsE.
Import ListNotations.
Open Scope Z_scope.

(** The SSE functions compute the mean, the plane and the bilinear surface of the rule. *)
Theorem C102_sse junk src s d st mode w h top left dst : 0 <= mode <= 2 -> intra_shape w h -> w <= st -> legal 8 (border src s) w h ->
  predicts w h d st dst (pred_sse junk src s d st mode w h top left dst) (rule 8 (border src s) mode w h top left).
Proof. exact (pred_sse_ok junk src s d st mode w h top left dst). Qed.
Print Assumptions C102_sse.
(** So do the AVX2 functions. *)
Theorem C102_avx2 junk src s d st mode w h top left dst : 0 <= mode <= 2 -> intra_shape w h -> w <= st -> legal 8 (border src s) w h ->
  predicts w h d st dst (pred_avx junk src s d st mode w h top left dst) (rule 8 (border src s) mode w h top left).
Proof. exact (pred_avx_ok junk src s d st mode w h top left dst). Qed.
Print Assumptions C102_avx2.
Example C102_case : intra_shape 16 4 /\ legal 8 (border (ramp 16 4) 0) 16 4 /\
  rule 8 (border (ramp 16 4) 0) 0 16 4 true true 0 0 = 17 /\ rule 8 (border (ramp 16 4) 0) 1 16 4 true true 15 3 = 30 /\
  rule 8 (border (ramp 16 4) 0) 2 16 4 true true 15 3 = 23.
Proof. split; [unfold intra_shape; cbn [In]; auto 10|]. split; [apply ramp_legal; lia|]. vm_compute. repeat split. Qed.
(** The C functions leave the same picture. *)
Theorem C102_equal_c cjunk junk src s d st mode w h top left dst : 0 <= mode <= 2 -> intra_shape w h -> w <= st -> legal 8 (border src s) w h ->
  forall q, pred_sse junk src s d st mode w h top left dst q = intra_pred 8 8 cjunk src s d st mode w h top left dst q /\
            pred_avx junk src s d st mode w h top left dst q = intra_pred 8 8 cjunk src s d st mode w h top left dst q.
Proof.
  intros Hm Sh W L q. pose proof (shape_pos w h Sh) as B.
  assert (N : forall k, - h <= k <= w -> 0 <= border src s k <= 2 ^ 8 - 1) by (intros k Hk; apply L; unfold reach; lia).
  assert (C : predicts w h d st dst (intra_pred 8 8 cjunk src s d st mode w h top left dst) (rule 8 (border src s) mode w h top left)).
  { unfold intra_pred, rule. destruct (Z.eqb_spec mode 0); [apply dc_ok; [lia|lia|lia|lia|exact N]|].
    destruct (Z.eqb_spec mode 1); [apply plane_ok; [lia|exact Sh|exact W]|].
    destruct (Z.eqb_spec mode 2); [|lia]. apply bilinear_ok; [lia|lia|exact Sh|exact W|exact N]. }
  split; [apply (predicts_same_all w h d st dst _ _ _ ltac:(lia) W (C102_sse junk src s d st mode w h top left dst Hm Sh W L) C)|
          apply (predicts_same_all w h d st dst _ _ _ ltac:(lia) W (C102_avx2 junk src s d st mode w h top left dst Hm Sh W L) C)].
Qed.
Print Assumptions C102_equal_c.

(** The loads reach beyond the samples of the rule; what they find there, and what the local arrays
    held, makes no difference. *)
Theorem C102_rest_unused junk junk' src src' s d st mode w h top left dst : 0 <= mode <= 2 -> intra_shape w h -> w <= st ->
  (forall k, - h <= k <= w -> 0 <= border src s k <= 255 /\ border src' s k = border src s k) ->
  forall q, pred_sse junk src s d st mode w h top left dst q = pred_sse junk' src' s d st mode w h top left dst q /\
            pred_avx junk src s d st mode w h top left dst q = pred_avx junk' src' s d st mode w h top left dst q.
Proof. exact (pred_unused junk junk' src src' s d st mode w h top left dst). Qed.
Print Assumptions C102_rest_unused.
Example C102_unused_case : forall k, -4 <= k <= 16 -> 0 <= border (ramp 16 4) 0 k <= 255 /\ border (upd (ramp 16 4) 17 999) 0 k = border (ramp 16 4) 0 k.
Proof.
  intros k Hk. split.
  - pose proof (ramp_legal 16 4 ltac:(lia) ltac:(lia) k) as L. apply L. unfold reach. change (Z.max 0 (4 * 11 / 4 - 16 + 4)) with 0. change (Z.max 0 (16 * 11 / 4 - 4 + 4)) with 44. lia.
  - unfold border, upd. destruct (Z.eqb_spec (0 + k) 17); [lia|reflexivity].
Qed.
