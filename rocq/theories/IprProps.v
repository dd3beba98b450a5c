(** C48, C49, C68: intra prediction. *)
From Coq Require Import ZArith List Bool Lia.
From Verif Require Import CBase UtilModel MemModel LfModel IprModel IprSpec IprProofs IprProofsF IprProofsH IprSpecB IprProofsI.
Import ListNotations.
Open Scope Z_scope.

(** The border around a sample buffer position. *)
Definition border (src : mem) (s : Z) : Z -> Z := fun k => src (s + k).

(** A border that rises along the top, falls along the left side and is padded as the filling
    functions do. *)
Definition ramp (w h : Z) : mem := fun k => if 0 <=? k then 10 + Z.min k (2 * w) else 10 + 1 * Z.min (- k) (2 * h).
Lemma ramp_legal w h : 0 <= w <= 64 -> 0 <= h <= 64 -> legal 8 (border (ramp w h) 0) w h.
Proof.
  intros Hw Hh k _. unfold border, ramp. rewrite Z.add_0_l. change (2 ^ 8 - 1) with 255. destruct (Z.leb_spec 0 k); lia.
Qed.
Lemma ramp_repeats w h n m : 0 < w -> 0 < h -> repeats (border (ramp w h) 0) w h n m.
Proof.
  intros Hw Hh. unfold border, ramp. split; intros k Hk; rewrite !Z.add_0_l.
  - destruct (Z.leb_spec 0 k), (Z.leb_spec 0 (2 * w)); lia.
  - destruct (Z.leb_spec 0 (- k)), (Z.leb_spec 0 (- (2 * h))); lia.
Qed.

(** C48.  Every mode on every block shape writes only samples of the picture's bit depth, and
    only inside the block; whatever the local arrays held before. *)
Theorem C48_predicted_samples_are_legal bits depth junk src s d st mode w h top left dst :
  1 <= depth <= bits -> bits = 8 \/ bits = 16 -> 0 <= mode <= 32 -> intra_shape w h -> w <= st ->
  legal depth (border src s) w h -> repeats (border src s) w h (reach w h) (reach h w) ->
  let new := intra_pred bits depth junk src s d st mode w h top left dst in
  (forall x y, 0 <= x < w -> 0 <= y < h -> 0 <= new (d + y * st + x) <= 2 ^ depth - 1) /\
  (forall q, (forall x y, 0 <= x < w -> 0 <= y < h -> q <> d + y * st + x) -> new q = dst q).
Proof.
  intros Hd Hb Hm Sh W L R new.
  destruct (intra_pred_ok bits depth junk src s d st mode w h top left dst Hd Hb Hm Sh W L R) as [A B].
  split; [|exact B]. intros x y Hx Hy. unfold new. rewrite A by assumption. apply rule_range; [lia|exact Hm|exact Sh|exact Hx|exact Hy|exact L].
Qed.
Print Assumptions C48_predicted_samples_are_legal.
Example C48_legal_case : intra_shape 16 4 /\ 1 <= 8 <= 8 /\ legal 8 (border (ramp 16 4) 0) 16 4 /\
  repeats (border (ramp 16 4) 0) 16 4 (reach 16 4) (reach 4 16).
Proof.
  split; [unfold intra_shape; cbn [In]; auto 10|]. split; [lia|]. split; [apply ramp_legal; lia|apply ramp_repeats; lia].
Qed.

(** A directional prediction lies between the smallest and the largest of four neighbouring
    border samples, which lie in the part of the border that is filled. *)
Theorem C48_directional_between_four_samples bits depth junk src s d st mode w h dst x y :
  0 <= depth <= bits -> is_angular mode -> intra_shape w h -> w <= st ->
  legal depth (border src s) w h -> repeats (border src s) w h (reach w h) (reach h w) ->
  0 <= x < w -> 0 <= y < h ->
  exists p, - reach h w <= p /\ p + 3 <= reach w h /\
    forall lo hi, (forall q, p <= q <= p + 3 -> lo <= border src s q <= hi) ->
      lo <= angular mode bits junk src s d st w h dst (d + y * st + x) <= hi.
Proof.
  intros Hd A Sh W L R Hx Hy. pose proof (IprProofsE.shape_pos w h Sh) as B.
  destruct (angular_exact bits depth junk src s d st mode w h dst Hd A Sh W L R) as [V _]. rewrite V by assumption.
  destruct (direct_looks mode w h x y A ltac:(lia) ltac:(lia) Hx Hy) as (p & P1 & P2 & P3 & _).
  exists p. split; [exact P1|]. split; [exact P2|]. exact (P3 (border src s)).
Qed.
Print Assumptions C48_directional_between_four_samples.
(** The filled part of the border stays inside the buffer of 512 samples with the corner at
    index 255 (intra.h, [buf_edge_pixels]), for every block shape. *)
Theorem C48_border_inside_buffer w h : intra_shape w h -> 0 <= 255 - reach h w /\ 255 + reach w h <= 511.
Proof. intros Sh. IprProofsD.shapes Sh; unfold reach; cbn; lia. Qed.
Print Assumptions C48_border_inside_buffer.
Example C48_widest : reach 64 64 = 244 /\ reach 8 32 = 100 /\ reach 32 8 = 64.
Proof. repeat split. Qed.

(** The arrays local to the predictors are large enough, and filling them, entries that are not used included, looks at the border only where
    the buffer is (512 samples, corner at 255); the sizes are those of the declarations in intra.cc. *)
Theorem C48_local_arrays bits w h : intra_shape w h ->
  local_array ((64 + 176) * 4) 0 256 (fun j src s => lines_x3 bits j src s w h) /\
  local_array (64 + 128) 0 256 (fun j src s => lines_x4 bits j src s w h) /\
  (4 < h -> 8 < w -> local_array ((64 + 80) * 8) 0 256 (fun j src s => lines_x5 bits j src s w h)) /\
  local_array (64 + 64) 0 256 (fun j src s => lines_x6 bits j src s w h) /\
  local_array (2 * (64 + 32)) 0 256 (fun j src s => lines_x8 bits j src s w h) /\
  (h <> 4 -> local_array (4 * (64 + 16)) 0 256 (fun j src s => lines_x10 bits j src s w h)) /\
  (8 < h -> local_array ((64 + 16) * 8) 0 256 (fun j src s => lines_x11 bits j src s w h)) /\
  (8 < h -> local_array ((64 + 16) * 8) (-255) 256 (fun j src s => lines_xy13 bits j src s w h)) /\
  (h <> 4 -> local_array (4 * (64 + 16)) (-255) 256 (fun j src s => lines_xy14 bits j src s w h)) /\
  local_array (2 * (64 + 32)) (-255) 256 (fun j src s => lines_xy16 bits j src s w h) /\
  local_array (64 + 64) (-255) 256 (fun j src s => lines_xy18 bits j src s w h) /\
  local_array (64 + 128) (-255) 256 (fun j src s => lines_xy20 bits j src s w h) /\
  (w <> 4 -> local_array (64 + 256) (-255) 256 (fun j src s => lines_xy22 bits j src s w h)) /\
  (8 < w -> local_array (64 + 512) (-255) 256 (fun j src s => lines_xy23 bits j src s w h)) /\
  (8 < w -> local_array (64 + 64 * 8) (-255) 0 (fun j src s => lines_y25 bits j src s w h)) /\
  (w <> 4 -> local_array (64 + 256) (-255) 0 (fun j src s => lines_y26 bits j src s w h)) /\
  local_array (64 + 128) (-255) 0 (fun j src s => lines_y28 bits j src s w h) /\
  local_array (64 + 64) (-255) 0 (fun j src s => lines_y30 bits j src s w h) /\
  local_array (2 * (32 + 64)) (-255) 0 (fun j src s => lines_y32 bits j src s w h) /\
  local_array (64 * 8) (-255) 0 (fun j src s => src_tran j src s w h) /\
  (h <= w -> forall j src a, ~ 0 <= a < 64 * 64 -> ang_x_5 bits j src 0 0 h h w j a = j a).
Proof.
  intros Sh. split; [exact (x3_ok bits w h Sh)|]. split; [exact (x4_ok bits w h Sh)|]. split; [exact (x5_ok bits w h Sh)|]. split; [exact (x6_ok bits w h Sh)|]. split; [exact (x8_ok bits w h Sh)|].
  split; [exact (x10_ok bits w h Sh)|]. split; [exact (x11_ok bits w h Sh)|]. split; [exact (xy13_ok bits w h Sh)|]. split; [exact (xy14_ok bits w h Sh)|]. split; [exact (xy16_ok bits w h Sh)|].
  split; [exact (xy18_ok bits w h Sh)|]. split; [exact (xy20_ok bits w h Sh)|]. split; [exact (xy22_ok bits w h Sh)|]. split; [exact (xy23_ok bits w h Sh)|]. split; [exact (y25_ok bits w h Sh)|].
  split; [exact (y26_ok bits w h Sh)|]. split; [exact (y28_ok bits w h Sh)|]. split; [exact (y30_ok bits w h Sh)|]. split; [exact (y32_ok bits w h Sh)|]. split; [exact (tran_src w h Sh)|].
  intros Hw j src a. exact (tran_dst bits j src w h a Sh Hw).
Qed.
Print Assumptions C48_local_arrays.
(** The array of mode 5 is used to its last line: 141 entries in the eighth of eight lines of 144. *)
Example C48_array_case : lines_x5 8 (fun _ => 0) (fun k => if k =? 153 then 100 else 0) 0 64 64 (7 * 144 + 140) = 25 /\ lines_x5 8 (fun _ => 0) (fun _ => 100) 0 64 64 (7 * 144 + 141) = 0.
Proof. vm_compute. split; reflexivity. Qed.

(** The result depends on nothing but the filled part of the border. *)
Theorem C48_depends_only_on_border bits depth junk junk' src src' s s' d st mode w h top left dst :
  1 <= depth <= bits -> bits = 8 \/ bits = 16 -> 0 <= mode <= 32 -> intra_shape w h -> w <= st ->
  legal depth (border src s) w h -> repeats (border src s) w h (reach w h) (reach h w) ->
  (forall k, - reach h w <= k <= reach w h -> border src s k = border src' s' k) ->
  forall q, intra_pred bits depth junk src s d st mode w h top left dst q = intra_pred bits depth junk' src' s' d st mode w h top left dst q.
Proof. exact (intra_pred_border bits depth junk junk' src src' s s' d st mode w h top left dst). Qed.
Print Assumptions C48_depends_only_on_border.

(** C49.  Each specialised predictor gives the block of the general one, for every border;
    modes 5 and 31 need the border to be padded as the filling functions pad it. *)
Theorem C49_specialised_equals_general bits junk src s d st mode w h dst :
  is_angular mode -> intra_shape w h -> w <= st ->
  (mode = 5 -> (forall k, 2 * w <= k <= reach w h -> src (s + k) = src (s + 2 * w)) /\ 0 <= src (s + 2 * w) < 2 ^ bits) ->
  (mode = 31 -> (forall k, 2 * h <= k <= reach h w -> src (s - k) = src (s - 2 * h)) /\ 0 <= src (s - 2 * h) < 2 ^ bits) ->
  forall q, angular mode bits junk src s d st w h dst q =
    (if mode <? 12 then ang_x bits src s d st mode w h dst
     else if mode <? 24 then ang_xy bits src s d st mode w h dst
     else ang_y bits src s d st mode w h dst) q.
Proof. exact (angular_general bits junk src s d st mode w h dst). Qed.
Print Assumptions C49_specialised_equals_general.
Example C49_case : angular 23 8 (fun _ => 0) (ramp 32 8) 0 0 32 32 8 (fun _ => 0) (7 * 32 + 31) = 14.
Proof. vm_compute. reflexivity. Qed.
(** Without the padding mode 5 differs on blocks of 8x32. *)
Theorem C49_mode5_needs_padding_refuted :
  exists src, angular 5 8 (fun _ => 0) src 0 0 8 8 32 (fun _ => 0) (31 * 8 + 7) <> ang_x 8 src 0 0 8 5 8 32 (fun _ => 0) (31 * 8 + 7).
Proof. exists (fun k => if k <? 20 then 0 else 100). vm_compute. discriminate. Qed.
Print Assumptions C49_mode5_needs_padding_refuted.
(** Both give the rule: the direction followed to the border, and linear interpolation there
    between smoothed samples. *)
Theorem C49_directional_rule bits depth junk src s d st mode w h dst :
  0 <= depth <= bits -> is_angular mode -> intra_shape w h -> w <= st ->
  legal depth (border src s) w h -> repeats (border src s) w h (reach w h) (reach h w) ->
  predicts w h d st dst (angular mode bits junk src s d st w h dst) (direct (border src s) mode).
Proof. exact (angular_exact bits depth junk src s d st mode w h dst). Qed.
Print Assumptions C49_directional_rule.
Example C49_rule_case : direct (border (ramp 8 8) 0) 7 3 2 = 16 /\ direct (border (ramp 8 8) 0) 21 1 6 = 16.
Proof. split; reflexivity. Qed.

(** C68.  All 33 modes compute the rule of IprSpec: mean, plane, bilinear surface, copies of the
    row above or the column to the left, and the directions. *)
Theorem C68_all_modes_follow_the_rule bits depth junk src s d st mode w h top left dst :
  1 <= depth <= bits -> bits = 8 \/ bits = 16 -> 0 <= mode <= 32 -> intra_shape w h -> w <= st ->
  legal depth (border src s) w h -> repeats (border src s) w h (reach w h) (reach h w) ->
  predicts w h d st dst (intra_pred bits depth junk src s d st mode w h top left dst) (rule depth (border src s) mode w h top left).
Proof. exact (intra_pred_ok bits depth junk src s d st mode w h top left dst). Qed.
Print Assumptions C68_all_modes_follow_the_rule.
Example C68_cases : rule 8 (border (ramp 16 4) 0) 0 16 4 true true 0 0 = 17 /\ rule 8 (border (ramp 16 4) 0) 1 16 4 true true 15 3 = 30 /\
  rule 8 (border (ramp 16 4) 0) 2 16 4 true true 15 3 = 23.
Proof. repeat split. Qed.
