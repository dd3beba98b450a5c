(** Properties C39 and C40: the inverse transforms. *)
From Coq Require Import ZArith List Bool Lia.
From Verif Require Import CBase MemModel McSpec TrModel TrSpec TrProofs TrProofsB.
Import ListNotations.
Open Scope Z_scope.

(** C39: for every content, depth and block size [inv_transform] replaces the coefficients by the
    residual of the matrix definition and changes nothing else; the contents of its local arrays
    do not matter. *)
Theorem C39_block : forall d p w h sec intra luma mode b_top b_left t0 m (hor ver : bool),
  In (w, h) block_sizes -> mc_depth d ->
  (hor = true <-> sec_hor mode /\ b_left = true) -> (ver = true <-> sec_ver mode /\ b_top = true) ->
  exists m', inv_transform d p (coeff_width w h) w h sec intra luma mode b_top b_left t0 m = Done m' /\
    (forall x y, 0 <= x < w -> 0 <= y < h ->
       m' (p + y * w + x) = block_residual w h d (sec && intra && luma) hor ver (coeffs_at m p (coeff_width w h)) x y) /\
    (forall q, q < p \/ p + w * h <= q -> m' q = m q).
Proof. exact inv_transform_spec. Qed.
Print Assumptions C39_block.
(** The eight transforms with their own matrices, at any destination stride (for the 32-point sizes
    even and below 256, as they read a flag from its lowest bit). *)
Theorem C39_matrix : forall bh bv flag d p stride t0 m, points bh -> points bv -> 0 <= flag <= 1 -> mc_depth d ->
  Z.of_nat bh <= stride ->
  (forall x y, 0 <= x < Z.of_nat bh -> 0 <= y < Z.of_nat bv ->
     idct_hv bh bv flag d p stride t0 m (p + y * stride + x) =
     residual bh bv flag d (fun u v => m (p + v * Z.of_nat bh + u)) x y) /\
  (forall q, ~ MemProofs.in_block bh bv p stride q -> idct_hv bh bv flag d p stride t0 m q = m q).
Proof. exact idct_hv_spec. Qed.
Print Assumptions C39_matrix.
(** No intermediate value of a butterfly leaves 32 bits, before and after adding the rounding term. *)
Theorem C39_no_overflow : forall n s v r, points n -> (forall i, i16 (s i)) ->
  In v (fst (bf n s) ++ snd (bf n s)) -> 0 <= r <= 2 ^ 14 -> in_i32 v /\ in_i32 (v + r).
Proof. exact bf_int32. Qed.
Print Assumptions C39_no_overflow.
(** The residual has one bit more than the samples. *)
Theorem C39_range : forall w h d sec hor ver c x y, mc_depth d ->
  - 2 ^ d <= block_residual w h d sec hor ver c x y <= 2 ^ d - 1.
Proof. exact block_residual_range. Qed.
Print Assumptions C39_range.
(** Exactly these sizes have a transform. *)
Theorem C39_sizes : forall w h, idct_of w h <> None <-> In (w, h) block_sizes.
Proof. exact idct_of_sizes. Qed.
Print Assumptions C39_sizes.
(** A single DC coefficient gives a flat block, a single horizontal one a wave with both signs. *)
Example C39_case : let m := fun a => if a =? 100 then 640 else 0 in let n := fun a => if a =? 101 then 640 else 0 in
  match inv_transform 8 100 8 8 8 true false true 0 true true (fun _ => 77) m,
        inv_transform 8 100 8 8 8 true false true 0 true true (fun _ => 77) n,
        inv_transform 8 100 4 4 4 true true true 0 true true (fun _ => 77) n with
  | Done r, Done s, Done t => (map r [99; 100; 107; 163; 164], map s [100; 103; 104; 107], map t [100; 101; 102; 103; 108])
  | _, _, _ => ([], [], []) end = ([0; 5; 5; 5; 0], [7; 1; -1; -7], [3; 3; 0; -3; 7]).
Proof. vm_compute. reflexivity. Qed.
Example C39_wrong_size : inv_transform 8 0 8 8 2 false false true 0 true true (fun _ => 0) (fun _ => 0) = Undef.
Proof. reflexivity. Qed.

(** C40: the blocks with a side of 64, computed in place with two line lengths, are the doubled
    residual of the smaller transform. *)
Theorem C40_doubled : forall d p w h t0 m, In (w, h) [(64, 64); (64, 16); (16, 64)] -> mc_depth d ->
  exists f, idct_of w h = Some f /\
    (forall x y, 0 <= x < w -> 0 <= y < h -> f d p (w / 2) t0 m (p + y * w + x) =
       doubled w h (residual (Z.to_nat (w / 2)) (Z.to_nat (h / 2)) 1 d (coeffs_at m p (w / 2))) x y) /\
    (forall q, q < p \/ p + w * h <= q -> f d p (w / 2) t0 m q = m q).
Proof. exact idct_doubled. Qed.
Print Assumptions C40_doubled.
(** The doubling on its own, for any even size and any 16-bit values. *)
Theorem C40_in_place : forall p h0 h1, 0 < h0 -> 0 < h1 -> forall b : Z -> Z -> Z,
  (forall x y, 0 <= x < h0 -> 0 <= y < h1 -> i16 (b x y)) ->
  forall cols pe (dst : mem), h0 <= cols <= 2 * h0 ->
  (forall x y, 0 <= x < h0 -> 0 <= y < h1 -> dst (p + y * h0 + x) = b x y) ->
  (forall x y, 0 <= x < 2 * h0 -> 0 <= y < 2 * h1 ->
     wavelet cols p (2 * h0) (2 * h1) pe dst (p + y * (2 * h0) + x) = doubled (2 * h0) (2 * h1) b x y) /\
  (forall q, q < p \/ p + 2 * h0 * (2 * h1) <= q -> wavelet cols p (2 * h0) (2 * h1) pe dst q = dst q).
Proof. exact wavelet_spec. Qed.
Print Assumptions C40_in_place.
(** What doubling means. *)
Theorem C40_positions : forall n0 n1 b x y, 0 < n0 -> 0 < n1 -> 0 <= x < n0 -> 0 <= y < n1 ->
  doubled (2 * n0) (2 * n1) b (2 * x) (2 * y) = b x y / 2 /\
  doubled (2 * n0) (2 * n1) b (2 * x + 1) (2 * y) = (b x y / 2 + b (Z.min (x + 1) (n0 - 1)) y / 2) / 2 /\
  doubled (2 * n0) (2 * n1) b (2 * x) (2 * y + 1) = (b x y / 2 + b x (Z.min (y + 1) (n1 - 1)) / 2) / 2.
Proof. exact doubled_positions. Qed.
Print Assumptions C40_positions.
Example C40_case : let m := fun a => if a =? 100 then 3200 else 0 in
  match inv_transform 8 100 32 64 16 false false true 0 true true (fun _ => 77) m with
  | Done r => map r [99; 100; 163; 164; 1123; 1124]
  | _ => [] end = [0; 25; 25; 25; 25; 0].
Proof. vm_compute. reflexivity. Qed.
