(** Properties C42 and C59: sample reconstruction and helper functions. *)
From Coq Require Import ZArith List Bool Lia.
From Verif Require Import CBase HdrModel QpModel MemModel MemProofs UtilModel UtilSpec UtilProofs.
Import ListNotations.
Open Scope Z_scope.

(** C42: adding a residual in place (as the decoder does) makes every sample of the block
    the value nearest to prediction plus residual, and changes nothing else. *)
Theorem C42_reconstruct : forall depth w h dst stride res rbase rstride m,
  depth_range depth -> Z.of_nat w <= stride ->
  let m' := add_ps depth w h dst stride res rbase rstride m in
  (forall x y, 0 <= x < Z.of_nat w -> 0 <= y < Z.of_nat h ->
     nearest 0 (2 ^ depth - 1) (m (dst + y * stride + x) + res (rbase + y * rstride + x))
             (m' (dst + y * stride + x))) /\
  (forall p, (forall x y, 0 <= x < Z.of_nat w -> 0 <= y < Z.of_nat h -> p <> dst + y * stride + x) -> m' p = m p).
Proof. exact add_ps_nearest. Qed.
Print Assumptions C42_reconstruct.

Example C42_reconstruct_nonvacuous :
  let m := fun p => p mod 256 in let res := fun p => 300 * (p mod 3) - 300 in
  let m' := add_ps 8 4 4 1000 64 res 0 4 m in
  depth_range 8 /\ m' 1000 = 0 /\ m' 1001 = 233 /\ m' 1002 = 255 /\ m' 1004 = 236 /\ m' 1064 = 40.
Proof. cbv zeta. split; [unfold depth_range; lia|]. repeat split. Qed.

(** C42: the same with the prediction in another buffer. *)
Theorem C42_reconstruct_separate : forall depth w h dst stride pred pbase pstride res rbase rstride m,
  depth_range depth -> Z.of_nat w <= stride ->
  let m' := add_ps2 depth w h dst stride pred pbase pstride res rbase rstride m in
  (forall x y, 0 <= x < Z.of_nat w -> 0 <= y < Z.of_nat h ->
     nearest 0 (2 ^ depth - 1) (pred (pbase + y * pstride + x) + res (rbase + y * rstride + x))
             (m' (dst + y * stride + x))) /\
  (forall p, (forall x y, 0 <= x < Z.of_nat w -> 0 <= y < Z.of_nat h -> p <> dst + y * stride + x) -> m' p = m p).
Proof. exact add_ps2_nearest. Qed.
Print Assumptions C42_reconstruct_separate.

(** C42: a zero residual leaves the picture as it is. *)
Theorem C42_zero_residual : forall depth w h dst stride res rbase rstride m,
  depth_range depth -> Z.of_nat w <= stride -> (forall p, 0 <= m p < 2 ^ depth) -> (forall p, res p = 0) ->
  forall p, add_ps depth w h dst stride res rbase rstride m p = m p.
Proof. exact add_ps_zero. Qed.
Print Assumptions C42_zero_residual.

Example C42_zero_residual_nonvacuous : forall p, 0 <= (fun q : Z => q mod 256) p < 2 ^ 8.
Proof. intro p. apply Z.mod_pos_bound. reflexivity. Qed.

(** C59: the branch-free sample saturation. *)
Theorem C59_clip_pixel : forall depth x, depth_range depth -> -2147483647 <= x <= 2147483647 ->
  exists r, clip_pixel depth x = Done r /\ nearest 0 (2 ^ depth - 1) x r.
Proof. exact clip_pixel_nearest. Qed.
Print Assumptions C59_clip_pixel.

Example C59_clip_pixel_nonvacuous :
  clip_pixel 8 (-5) = Done 0 /\ clip_pixel 8 300 = Done 255 /\ clip_pixel 10 300 = Done 300.
Proof. repeat split. Qed.

(** C59: saturation by comparison, at the sample range and at any range. *)
Theorem C59_clip : (forall depth x, depth_range depth -> nearest 0 (2 ^ depth - 1) x (clip1 depth x)) /\
  (forall v lo hi, lo <= hi -> nearest lo hi v (davs2_clip3 v lo hi)) /\
  (forall v lo hi, lo <= hi -> nearest lo hi v (clip3 lo hi v)).
Proof. exact clips_nearest. Qed.
Print Assumptions C59_clip.

(** C59: the branch-free median, for arguments whose differences are [int]s. *)
Theorem C59_median : forall a b c, in_i32 (a - b) -> in_i32 (b - c) -> in_i32 (a - c) ->
  exists r, median a b c = Done r /\ middle a b c r.
Proof. exact median_ok. Qed.
Print Assumptions C59_median.

Example C59_median_nonvacuous : in_i32 (7 - -3) /\ median 7 (-3) 5 = Done 5 /\ median (-3) 5 7 = Done 5.
Proof. repeat split; unfold in_i32; lia. Qed.

(** C59 fails for the median over the full range of [int]: the difference overflows. *)
Theorem C59_median_refuted : exists a b c, in_i32 a /\ in_i32 b /\ in_i32 c /\ median a b c = Undef.
Proof. exists 2000000000, (-2000000000), 0. repeat split; unfold in_i32; lia. Qed.
Print Assumptions C59_median_refuted.

(** C59: signs. *)
Theorem C59_sign : (forall v, in_i32 v -> sign2 v = if v <? 0 then -1 else 1) /\
  (forall v, -2147483647 <= v <= 2147483647 -> sign3 v = Done (Z.sgn v)).
Proof. split; [exact sign2_ok|exact sign3_ok]. Qed.
Print Assumptions C59_sign.

Example C59_sign_nonvacuous : sign3 (-17) = Done (-1) /\ sign3 0 = Done 0 /\ sign3 9 = Done 1 /\ sign2 0 = 1.
Proof. repeat split. Qed.

(** C59: alignment returns the next multiple, also for negative sizes. *)
Theorem C59_align : forall x k, 0 <= k -> next_multiple x (2 ^ k) (align x k).
Proof. exact align_ok. Qed.
Print Assumptions C59_align.

Example C59_align_nonvacuous : align 1921 4 = 1936 /\ align 1920 4 = 1920.
Proof. split; reflexivity. Qed.

(** C59: the portable bit scans give the position of the highest and of the lowest set
    bit. *)
Theorem C59_bit_scan : forall x, 1 <= x <= 4294967295 ->
  (exists z, clz x = Done z /\ 0 <= z <= 31 /\ 2 ^ (31 - z) <= x < 2 ^ (32 - z)) /\
  (exists z, ctz x = Done z /\ 0 <= z <= 31 /\ exists q, x = 2 ^ z * (2 * q + 1)).
Proof. intros x H. split; [exact (clz_ok x H)|exact (ctz_ok x H)]. Qed.
Print Assumptions C59_bit_scan.

Example C59_bit_scan_nonvacuous : clz 40960 = Done 16 /\ ctz 40960 = Done 13 /\ clz 1 = Done 31.
Proof. repeat split. Qed.
