(** Properties C45, C46, C60: motion-vector arithmetic. *)
From Coq Require Import ZArith List Bool Lia.
From Verif Require Import CBase HdrModel QpModel UtilModel MvModel MvSpec MvProofs.
Import ListNotations.
Open Scope Z_scope.

(** C45: scaling for ordinary prediction, whenever the product fits [int]: the rounded,
    saturated product; zero for zero; the vector itself for reciprocal factors; odd up
    to the asymmetry of the 16-bit range. *)
Theorem C45_default_partial : forall mv dst src, is_i16 mv -> 0 <= dst -> 1 <= src ->
  Z.abs mv * dst * src + 8192 <= 2147483647 ->
  exists r, scale_mv_default mv dst src = Done r /\ is_i16 r /\
    r = sat16 (round14 (mv * dst * src)) /\
    (mv = 0 -> r = 0) /\ (dst * src = 16384 -> r = mv) /\
    (is_i16 (- mv) -> is_i16 (- r) -> r <> 32767 -> scale_mv_default (- mv) dst src = Done (- r)).
Proof. exact default_all. Qed.
Print Assumptions C45_default_partial.

Example C45_default_nonvacuous :
  scale_mv_default (-37) 6 (dist_scale 4) = Done (-56) /\ scale_mv_default 37 6 (dist_scale 4) = Done 56 /\
  scale_mv_default 2000 64 (dist_scale 4) = Done 32000 /\ scale_mv_default 7000 18 (dist_scale 2) = Done 32767.
Proof. repeat split. Qed.

(** C45: monotone. *)
Theorem C45_default_monotone_partial : forall mv mv' dst src r r', is_i16 mv -> is_i16 mv' -> 0 <= dst -> 1 <= src ->
  Z.abs mv * dst * src + 8192 <= 2147483647 -> Z.abs mv' * dst * src + 8192 <= 2147483647 ->
  mv <= mv' -> scale_mv_default mv dst src = Done r -> scale_mv_default mv' dst src = Done r' -> r <= r'.
Proof. exact default_mono. Qed.
Print Assumptions C45_default_monotone_partial.

(** C45: with the distances the decoder stores, an unsaturated result differs from
    [mv * dst / d] by at most one half plus [|mv| * dst / 16384]. *)
Theorem C45_accuracy_partial : forall mv dpoc dpoc', is_i16 mv ->
  let dst := dist_ref dpoc in let d := dist_ref dpoc' in
  Z.abs mv * dst * dist_scale d + 8192 <= 2147483647 ->
  exists r, scale_mv_default mv dst (dist_scale d) = Done r /\
    (-32768 < r < 32767 -> Z.abs (d * r - mv * dst) * 16384 <= d * (8192 + Z.abs mv * dst)).
Proof. exact default_accuracy. Qed.
Print Assumptions C45_accuracy_partial.

Example C45_accuracy_nonvacuous :
  dist_ref 3 = 6 /\ dist_ref 7 = 14 /\ dist_scale 14 = 1170 /\ scale_mv_default 1001 6 1170 = Done 429.
Proof. repeat split. Qed.

(** C45: stored distances are twice the POC difference for references in the past. *)
Theorem C45_distance : (forall dpoc, 1 <= dist_ref dpoc <= 511) /\ (forall dpoc, 1 <= dpoc <= 255 -> dist_ref dpoc = 2 * dpoc).
Proof. split; [exact dist_ref_range|exact dist_ref_exact]. Qed.
Print Assumptions C45_distance.

(** C45: scaling for skip and dual-hypothesis prediction, whenever the result fits 16
    bits: the product rounded to the nearest, zero for zero, monotone, and opposite
    vectors give results that differ from opposite by at most one. *)
Theorem C45_skip_partial : forall mv dst src, is_i16 mv -> 0 <= dst -> 1 <= src ->
  Z.abs mv * dst * src <= 16384 * 32767 ->
  exists r, scale_mv_skip mv dst src = Done r /\ is_i16 r /\
    -8192 <= 16384 * r - mv * dst * src <= 8192 /\
    (mv = 0 -> r = 0) /\ (dst * src = 16384 -> r = mv) /\
    (forall mv' r', is_i16 mv' -> mv' <= mv -> Z.abs mv' * dst * src <= 16384 * 32767 ->
       scale_mv_skip mv' dst src = Done r' -> r' <= r) /\
    (forall r', scale_mv_skip (- mv) dst src = Done r' -> is_i16 (- mv) -> 0 <= r + r' <= 1).
Proof. exact skip_all. Qed.
Print Assumptions C45_skip_partial.

Example C45_skip_nonvacuous : scale_mv_skip (-37) 6 (dist_scale 4) = Done (-55) /\ scale_mv_skip 37 6 (dist_scale 4) = Done 56.
Proof. split; reflexivity. Qed.

(** C45: scaling for bidirectional skip, in the same range. *)
Theorem C45_biskip_partial : forall mv dst src, is_i16 mv -> 0 <= dst -> 1 <= src ->
  src * (1 + Z.abs mv * dst) <= 16384 * 32767 ->
  exists r, scale_mv_biskip mv dst src = Done r /\ is_i16 r /\ (mv = 0 -> r = 0) /\
    (is_i16 (- mv) -> scale_mv_biskip (- mv) dst src = Done (- r)) /\
    (forall mv' r', is_i16 mv' -> mv' <= mv -> src * (1 + Z.abs mv' * dst) <= 16384 * 32767 ->
       scale_mv_biskip mv' dst src = Done r' -> r' <= r).
Proof. exact biskip_all. Qed.
Print Assumptions C45_biskip_partial.

Example C45_biskip_nonvacuous : scale_mv_biskip (-37) 6 (dist_scale 4) = Done (-55) /\ scale_mv_biskip 37 6 (dist_scale 4) = Done 55.
Proof. split; reflexivity. Qed.

(** C45 fails in general: with stored distances of references 32 and 1 pictures away and
    a vector of 2048 samples the product overflows [int], in all three functions. *)
Theorem C45_overflow_refuted : exists mv dpoc dpoc', is_i16 mv /\ 1 <= dpoc <= 127 /\ 1 <= dpoc' <= 127 /\
  scale_mv_default mv (dist_ref dpoc) (dist_scale (dist_ref dpoc')) = Undef /\
  scale_mv_skip mv (dist_ref dpoc) (dist_scale (dist_ref dpoc')) = Undef /\
  scale_mv_biskip mv (dist_ref dpoc) (dist_scale (dist_ref dpoc')) = Undef.
Proof. exists 8192, 32, 1. unfold is_i16. repeat split; lia. Qed.
Print Assumptions C45_overflow_refuted.

(** C45 fails for skip: rounding is not symmetric. *)
Theorem C45_skip_symmetry_refuted : exists mv dpoc dpoc' r r', is_i16 mv /\ 1 <= dpoc <= 127 /\ 1 <= dpoc' <= 127 /\
  scale_mv_skip mv (dist_ref dpoc) (dist_scale (dist_ref dpoc')) = Done r /\
  scale_mv_skip (- mv) (dist_ref dpoc) (dist_scale (dist_ref dpoc')) = Done r' /\ r' <> - r.
Proof. exists 1, 1, 2, 1, 0. unfold is_i16. repeat split; lia. Qed.
Print Assumptions C45_skip_symmetry_refuted.

(** C45 fails for skip and bidirectional skip: the result is cut to 16 bits before it is
    saturated, so a long positive vector turns negative. *)
Theorem C45_saturation_refuted : exists mv dpoc dpoc' r r', is_i16 mv /\ 0 < mv /\ 1 <= dpoc <= 127 /\ 1 <= dpoc' <= 127 /\
  scale_mv_skip mv (dist_ref dpoc) (dist_scale (dist_ref dpoc')) = Done r /\ r < 0 /\
  scale_mv_biskip mv (dist_ref dpoc) (dist_scale (dist_ref dpoc')) = Done r' /\ r' < 0.
Proof. exists 20000, 2, 1, (-25536), (-25536). unfold is_i16. repeat split; lia. Qed.
Print Assumptions C45_saturation_refuted.

(** C46: the predictor lies between the smallest and the largest candidate. *)
Theorem C46_between : forall a b c, is_i16 a -> is_i16 b -> is_i16 c ->
  Z.min a (Z.min b c) <= derive_median_mv a b c <= Z.max a (Z.max b c) /\
  (a = b -> b = c -> derive_median_mv a b c = a).
Proof. exact median_between. Qed.
Print Assumptions C46_between.

(** C46: which candidates are averaged: a candidate pointing against both others is
    dropped, otherwise the closest pair counts (first pair on ties). *)
Theorem C46_choice : forall a b c, is_i16 a -> is_i16 b -> is_i16 c ->
  let r := derive_median_mv a b c in
  (outvoted a b c -> r = avg0 b c) /\ (outvoted b a c -> r = avg0 c a) /\ (outvoted c a b -> r = avg0 a b) /\
  (~ outvoted a b c -> ~ outvoted b a c -> ~ outvoted c a b ->
     (closest a b c -> r = avg0 a b) /\
     (~ closest a b c -> closest b c a -> r = avg0 b c) /\
     (~ closest a b c -> ~ closest b c a -> closest c a b /\ r = avg0 c a)).
Proof. exact median_mv_ok. Qed.
Print Assumptions C46_choice.

Example C46_nonvacuous :
  derive_median_mv (-4) 100 7 = 53 /\ outvoted (-4) 100 7 /\
  derive_median_mv 4 100 8 = 6 /\ closest 8 4 100 /\ derive_median_mv (-3) (-8) 0 = -1.
Proof. unfold outvoted, opposite, closest. repeat split; try lia. Qed.

(** C60: without PMVR the vector is predictor plus difference, saturated. *)
Theorem C60_plain : forall d p, is_i16 (fst d) -> is_i16 (snd d) -> is_i16 (fst p) -> is_i16 (snd p) ->
  pmvr false d p = (sat16 (fst d + fst p), sat16 (snd d + snd p)).
Proof. exact pmvr_off. Qed.
Print Assumptions C60_plain.

(** C60: with PMVR the vector is predictor plus difference inside the window of two
    quarter samples around the predictor rounded down to half sample; outside it both
    components are at half-sample positions. The result is saturated. *)
Theorem C60_window : forall dx dy px py, is_i16 dx -> is_i16 dy -> is_i16 px -> is_i16 py ->
  exists mx my, pmvr true (dx, dy) (px, py) = (sat16 mx, sat16 my) /\
    ((Z.abs (mx - half_base px) <= 2 /\ Z.abs (my - half_base py) <= 2 /\ mx = px + dx /\ my = py + dy) \/
     (Z.even mx = true /\ Z.even my = true /\
      (2 < Z.abs (px + dx - half_base px) \/ 2 < Z.abs (py + dy - half_base py)))).
Proof. exact pmvr_on. Qed.
Print Assumptions C60_window.

Example C60_window_nonvacuous : pmvr true (1, -1) (9, 20) = (10, 19) /\ pmvr true (7, 1) (9, 20) = (22, 22) /\
  pmvr true (1, -5) (9, 20) = (10, 12).
Proof. repeat split. Qed.

(** C60: the representation is not unique: two different differences give the same
    vector. *)
Theorem C60_unique_refuted : exists d d' p, d <> d' /\ pmvr true d p = pmvr true d' p.
Proof. exists (3, 2), (2, 3), (0, 0). split; [congruence|reflexivity]. Qed.
Print Assumptions C60_unique_refuted.
