(** Properties C43, C44 and C65: interpolation, references inside the padding, rows waited for. *)
From Coq Require Import ZArith List Bool Lia.
From Verif Require Import CBase UtilModel MemModel MemProofs AlfSpec FrmSpec McModel McSpec McProofs McProofsB.
Import ListNotations.
Open Scope Z_scope.

(** C43: the luma kernels compute the interpolated samples for every position and content, and
    write nothing else; the contents of their local array do not matter. *)
Theorem C43_luma : forall d dst i_dst posx posy w h src pf stride t0 m,
  mc_depth d -> (w <= 64)%nat -> Z.of_nat w <= i_dst -> (forall a, 0 <= src a < 2 ^ d) ->
  (forall x y, 0 <= x < Z.of_nat w -> 0 <= y < Z.of_nat h ->
     mc_luma d dst i_dst posx posy w h src pf stride t0 m (dst + y * i_dst + x) =
     interp_luma d (plane src pf stride) (posx + 4 * x) (posy + 4 * y)) /\
  (forall p, ~ in_block w h dst i_dst p -> mc_luma d dst i_dst posx posy w h src pf stride t0 m p = m p).
Proof. exact mc_luma_spec. Qed.
Print Assumptions C43_luma.
Theorem C43_chroma : forall d dst i_dst posx posy w h src pf stride t0 m,
  mc_depth d -> (w <= 32)%nat -> Z.of_nat w <= i_dst ->
  (forall x y, 0 <= x < Z.of_nat w -> 0 <= y < Z.of_nat h ->
     mc_chroma d dst i_dst posx posy w h src pf stride t0 m (dst + y * i_dst + x) =
     interp_chroma d (plane src pf stride) (posx + 8 * x) (posy + 8 * y)) /\
  (forall p, ~ in_block w h dst i_dst p -> mc_chroma d dst i_dst posx posy w h src pf stride t0 m p = m p).
Proof. exact mc_chroma_spec. Qed.
Print Assumptions C43_chroma.
(** A picture with a slope: the half sample between 100 and 110 columns is their mean. *)
Example C43_case : let src := fun a => 10 * (a mod 16) in
  mc_luma 8 0 8 (4 * 6 + 2) 0 4 4 src 0 16 (fun _ => 0) (fun _ => 7) 0 = 65 /\
  mc_luma 8 0 8 (4 * 6 + 2) 3 4 4 src 0 16 (fun _ => 0) (fun _ => 7) 9 = 75 /\
  mc_luma 8 0 8 (4 * 6 + 2) 3 4 4 src 0 16 (fun _ => 0) (fun _ => 7) 4 = 7 /\
  mc_chroma 8 0 8 (8 * 6 + 3) 5 4 4 src 0 16 (fun _ => 0) (fun _ => 7) 0 = 64.
Proof. vm_compute. repeat split; reflexivity. Qed.

(** C43: interpolated samples are samples; full positions copy; constant areas are reproduced. *)
Theorem C43_range : forall d r X Y, mc_depth d -> samples_ok d r ->
  0 <= interp_luma d r X Y < 2 ^ d /\ 0 <= interp_chroma d r X Y < 2 ^ d.
Proof. intros d r X Y Hd Hr. split; apply interp_range; assumption. Qed.
Print Assumptions C43_range.
Theorem C43_copy : forall d r x y, interp_luma d r (4 * x) (4 * y) = r x y /\ interp_chroma d r (8 * x) (8 * y) = r x y.
Proof.
  intros d r x y. unfold interp_luma, interp_chroma, interp. cbv zeta.
  rewrite !(Z.mul_comm 4), !(Z.mul_comm 8), !Z.div_mul, !Z.mod_mul by lia. split; reflexivity.
Qed.
Print Assumptions C43_copy.
Theorem C43_constant : forall d r X Y v, mc_depth d -> 0 <= v < 2 ^ d ->
  ((forall x y, X / 4 - 3 <= x <= X / 4 + 4 -> Y / 4 - 3 <= y <= Y / 4 + 4 -> r x y = v) -> interp_luma d r X Y = v) /\
  ((forall x y, X / 8 - 1 <= x <= X / 8 + 2 -> Y / 8 - 1 <= y <= Y / 8 + 2 -> r x y = v) -> interp_chroma d r X Y = v).
Proof. intros d r X Y v Hd Hv. split; [apply luma_const; assumption|apply chroma_const; assumption]. Qed.
Print Assumptions C43_constant.
Example C43_constant_case : interp_luma 10 (fun x _ => if x <? 20 then 1023 else 0) (4 * 10 + 1) 7 = 1023 /\
  interp_luma 10 (fun x _ => if x <? 20 then 1023 else 0) (4 * 19 + 2) 7 = 512.
Proof. vm_compute. split; reflexivity. Qed.
(** C43: every sum of a pass fits an int, and what the first pass stores fits the 16-bit array. *)
Theorem C43_storage : forall d src t i step f, mc_depth d ->
  (forall a, 0 <= src a < 2 ^ d) -> (forall a, -32768 <= t a <= 32767) ->
  (0 < f < 4 -> (- 2147483648 <= flt_8tap src i step (luma_taps f) + 2 ^ 11 <= 2147483647 /\
                 -32768 <= rshift (flt_8tap src i step (luma_taps f)) (d - 8) <= 32767) /\
                - 2147483648 <= flt_8tap t i step (luma_taps f) + 2 ^ (19 - d) <= 2147483647) /\
  (0 < f < 8 -> (- 2147483648 <= flt_4tap src i step (chroma_taps f) + 2 ^ 11 <= 2147483647 /\
                 -32768 <= rshift (flt_4tap src i step (chroma_taps f)) (d - 8) <= 32767) /\
                - 2147483648 <= flt_4tap t i step (chroma_taps f) + 2 ^ (19 - d) <= 2147483647).
Proof.
  intros d src t i step f Hd HS HT. split; intros Hf.
  - split; [apply luma_pass1|apply luma_pass2]; assumption.
  - split; [apply chroma_pass1|apply chroma_pass2]; assumption.
Qed.
Print Assumptions C43_storage.
(** C43: two predictions are averaged, rounding half up, for any contents. *)
Theorem C43_average : forall dst i_dst src1 p1 i1 w h m, Z.of_nat w <= i_dst ->
  (forall x y, 0 <= x < Z.of_nat w -> 0 <= y < Z.of_nat h ->
    pixel_average dst i_dst src1 p1 i1 w h m (dst + y * i_dst + x) =
    (m (dst + y * i_dst + x) + src1 (p1 + y * i1 + x) + 1) / 2) /\
  (forall p, ~ in_block w h dst i_dst p -> pixel_average dst i_dst src1 p1 i1 w h m p = m p).
Proof. exact average_spec. Qed.
Print Assumptions C43_average.

(** C44: all taps of a block, whatever its vector, lie in the padded planes: columns (and, with the
    height, lines) from -80 to img + 79 for luma, from -40 to img / 2 + 39 for chroma. *)
Theorem C44_inside : forall img blk pos mv k, blk_ok img pos blk -> mv_ok mv -> img <= 8184 ->
  (-3 <= k < blk + 4 -> -80 <= cu_get_mc_pos_mv img blk pos mv / 4 + k < img + 80) /\
  (-1 <= k < blk / 2 + 2 -> -40 <= cu_get_mc_pos_mv img blk pos mv / 8 + k < img / 2 + 40).
Proof.
  intros img blk pos mv k HB HM HI. split; intros Hk.
  - apply (proj2 (luma_taps_in img blk pos mv HB HM HI) k Hk).
  - apply (proj2 (chroma_taps_in img blk pos mv HB HM HI) k Hk).
Qed.
Print Assumptions C44_inside.
(** C44: a luma block predicted from a padded reference is the interpolation of the picture
    continued without end at the true position of the vector: limiting the position changes
    nothing, and no sample outside the padding has influence. *)
Theorem C44_luma : forall d W H dst i_dst bx by_ w h mv src pf stride t0 m,
  mc_depth d -> pic_ok W H bx by_ w h mv -> Z.of_nat w <= i_dst -> (forall a, 0 <= src a < 2 ^ d) ->
  padded 80 W H (plane src pf stride) ->
  (forall x y, 0 <= x < Z.of_nat w -> 0 <= y < Z.of_nat h ->
    pred_luma d (W, H) dst i_dst bx by_ w h mv src pf stride t0 m (dst + y * i_dst + x) =
    interp_luma d (endless W H (plane src pf stride)) (4 * (bx + x) + fst mv) (4 * (by_ + y) + snd mv)) /\
  (forall p, ~ in_block w h dst i_dst p -> pred_luma d (W, H) dst i_dst bx by_ w h mv src pf stride t0 m p = m p).
Proof. exact pred_luma_endless. Qed.
Print Assumptions C44_luma.
Theorem C44_chroma : forall d W H dst i_dst bx by_ w h mv src pf stride t0 m,
  mc_depth d -> pic_ok W H bx by_ w h mv -> Z.of_nat w / 2 <= i_dst ->
  padded 40 (W / 2) (H / 2) (plane src pf stride) ->
  (forall x y, 0 <= x < Z.of_nat w / 2 -> 0 <= y < Z.of_nat h / 2 ->
    pred_chroma d (W, H) dst i_dst bx by_ w h mv src pf stride t0 m (dst + y * i_dst + x) =
    interp_chroma d (endless (W / 2) (H / 2) (plane src pf stride)) (8 * (bx / 2 + x) + fst mv) (8 * (by_ / 2 + y) + snd mv)) /\
  (forall p, ~ in_block (Nat.div2 w) (Nat.div2 h) dst i_dst p -> pred_chroma d (W, H) dst i_dst bx by_ w h mv src pf stride t0 m p = m p).
Proof. exact pred_chroma_endless. Qed.
Print Assumptions C44_chroma.
(** C44: the same for blocks with two vectors, which are averaged. *)
Theorem C44_bipred : forall d W H dst i_dst bx by_ w h mv1 mv2 src1 p1 src2 p2 stride t0 tb m,
  mc_depth d -> pic_ok W H bx by_ w h mv1 -> pic_ok W H bx by_ w h mv2 -> Z.of_nat w <= i_dst ->
  (forall a, 0 <= src1 a < 2 ^ d) -> (forall a, 0 <= src2 a < 2 ^ d) ->
  padded 80 W H (plane src1 p1 stride) -> padded 80 W H (plane src2 p2 stride) ->
  (forall x y, 0 <= x < Z.of_nat w -> 0 <= y < Z.of_nat h ->
    bipred_luma d (W, H) dst i_dst bx by_ w h mv1 mv2 src1 p1 src2 p2 stride t0 tb m (dst + y * i_dst + x) =
    (interp_luma d (endless W H (plane src1 p1 stride)) (4 * (bx + x) + fst mv1) (4 * (by_ + y) + snd mv1) +
     interp_luma d (endless W H (plane src2 p2 stride)) (4 * (bx + x) + fst mv2) (4 * (by_ + y) + snd mv2) + 1) / 2) /\
  (forall p, ~ in_block w h dst i_dst p -> bipred_luma d (W, H) dst i_dst bx by_ w h mv1 mv2 src1 p1 src2 p2 stride t0 tb m p = m p).
Proof. exact bipred_luma_spec. Qed.
Print Assumptions C44_bipred.
Theorem C44_bipred_chroma : forall d W H dst i_dst bx by_ w h mv1 mv2 src1 p1 src2 p2 stride t0 tb m,
  mc_depth d -> pic_ok W H bx by_ w h mv1 -> pic_ok W H bx by_ w h mv2 -> Z.of_nat w / 2 <= i_dst ->
  padded 40 (W / 2) (H / 2) (plane src1 p1 stride) -> padded 40 (W / 2) (H / 2) (plane src2 p2 stride) ->
  (forall x y, 0 <= x < Z.of_nat w / 2 -> 0 <= y < Z.of_nat h / 2 ->
    bipred_chroma d (W, H) dst i_dst bx by_ w h mv1 mv2 src1 p1 src2 p2 stride t0 tb m (dst + y * i_dst + x) =
    (interp_chroma d (endless (W / 2) (H / 2) (plane src1 p1 stride)) (8 * (bx / 2 + x) + fst mv1) (8 * (by_ / 2 + y) + snd mv1) +
     interp_chroma d (endless (W / 2) (H / 2) (plane src2 p2 stride)) (8 * (bx / 2 + x) + fst mv2) (8 * (by_ / 2 + y) + snd mv2) + 1) / 2) /\
  (forall p, ~ in_block (Nat.div2 w) (Nat.div2 h) dst i_dst p ->
    bipred_chroma d (W, H) dst i_dst bx by_ w h mv1 mv2 src1 p1 src2 p2 stride t0 tb m p = m p).
Proof. exact bipred_chroma_spec. Qed.
Print Assumptions C44_bipred_chroma.
(** A block far outside to the top left and one across the right border meet the hypotheses; the
    padding of C29 is what is required of the reference. *)
Example C44_case : pic_ok 176 144 64 32 16 8 (-3001, -2503) /\ pic_ok 8184 64 8176 0 8 8 (77, 0) /\
  cu_get_mc_pos_mv 176 16 64 (-3001) = -89 /\ cu_get_mc_pos_mv 8184 8 8176 77 = 32757.
Proof. unfold pic_ok, blk_ok, mv_ok. cbn [fst snd]. repeat split; vm_compute; congruence. Qed.
Example C44_padding : forall base stride w lines n m, extended base stride w lines n m -> padded n w lines (plane m base stride).
Proof. intros base stride w lines n m H x y Hx Hy. exact (H x y Hx Hy). Qed.
(** C44 is false for wider or higher pictures: the position is stored in 16 bits. With 8192 columns
    a vector leads 8188 columns to the left of the picture; with 8256 columns the block at column
    8192 is taken from column -8192 even without motion. *)
Theorem C44_wide_refuted :
  (exists img blk pos mv, blk_ok img pos blk /\ mv_ok mv /\ img = 8192 /\ cu_get_mc_pos_mv img blk pos mv / 4 = -8188) /\
  (exists img blk pos, blk_ok img pos blk /\ img = 8256 /\ pos = 8192 /\ cu_get_mc_pos_mv img blk pos 0 / 4 = -8192).
Proof.
  split.
  - exists 8192, 64, 8128, 272. unfold blk_ok, mv_ok. repeat split; vm_compute; congruence.
  - exists 8256, 64, 8192. unfold blk_ok. repeat split; vm_compute; congruence.
Qed.
Print Assumptions C44_wide_refuted.

(** C65: the reference lines a block reads are final once the row waited for has been signalled:
    either that was the last row, or every line read lies above the lines the next row still
    changes. *)
Theorem C65_luma : forall lv H vec_y h y, 4 <= lv <= 6 -> 1 <= H -> 0 <= h ->
  vec_y / 4 - 3 <= y < vec_y / 4 + h + 4 ->
  let rows := (H + 2 ^ lv - 1) / 2 ^ lv in let k := wait_row lv rows vec_y h in
  0 <= k < rows /\ (k = rows - 1 \/ clamp 0 (H - 1) y < first_line false lv (k + 1)).
Proof. exact wait_luma. Qed.
Print Assumptions C65_luma.
Theorem C65_chroma : forall lv H vec_y h y, 4 <= lv <= 6 -> 2 <= H -> H mod 2 = 0 -> 0 <= h -> h mod 2 = 0 ->
  vec_y / 8 - 1 <= y < vec_y / 8 + h / 2 + 2 ->
  let rows := (H + 2 ^ lv - 1) / 2 ^ lv in let k := wait_row lv rows vec_y h in
  0 <= k < rows /\ (k = rows - 1 \/ clamp 0 (H / 2 - 1) y < first_line true lv (k + 1)).
Proof. exact wait_chroma. Qed.
Print Assumptions C65_chroma.
Example C65_case : wait_row 6 17 (4 * 100 + 1) 16 = 2 /\ first_line false 6 3 = 188 /\
  wait_row 6 17 (4 * 1070) 16 = 16 /\ wait_row 6 17 (- 300) 8 = 0.
Proof. vm_compute. repeat split; reflexivity. Qed.
