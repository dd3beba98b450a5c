(** Properties C12, C36, C41: thresholds, QP range, dequantisation. *)
From Coq Require Import ZArith List Bool Lia.
From Verif Require Import CBase HdrModel QpModel QpSpec QpProofs.
Import ListNotations.
Open Scope Z_scope.

(** C12: the luma thresholds are found for every QP and every offset the header can carry
    (se(v) values), lie between 0 and 64 scaled to the bit depth, and are zero for the six
    lowest effective QPs. *)
Theorem C12_luma_range : forall t depth qp off, (t = ALPHA_TABLE \/ t = BETA_TABLE) -> depth_ok depth ->
  -1000 <= qp <= 1000 -> -1073741824 <= off <= 1073741824 ->
  exists v, lf_threshold t depth qp off = Done v /\ 0 <= v <= 64 * 2 ^ (depth - 8) /\
    (qp - 8 * (depth - 8) + off <= 5 -> v = 0).
Proof. exact threshold_range. Qed.
Print Assumptions C12_luma_range.

Example C12_luma_range_nonvacuous :
  depth_ok 10 /\ lf_threshold ALPHA_TABLE 10 56 (-3) = Done 132 /\ lf_threshold BETA_TABLE 8 9 (-4) = Done 0.
Proof. split; [right; left; reflexivity|split; reflexivity]. Qed.

(** C12: a larger QP never weakens the filter. *)
Theorem C12_luma_monotone : forall t depth qp qp' off v v', (t = ALPHA_TABLE \/ t = BETA_TABLE) -> depth_ok depth ->
  -1000 <= qp -> qp <= qp' -> qp' <= 1000 -> -1073741824 <= off <= 1073741824 ->
  lf_threshold t depth qp off = Done v -> lf_threshold t depth qp' off = Done v' -> v <= v'.
Proof. exact threshold_mono. Qed.
Print Assumptions C12_luma_monotone.

Example C12_luma_monotone_nonvacuous :
  lf_threshold ALPHA_TABLE 8 30 1 = Done 20 /\ lf_threshold ALPHA_TABLE 8 40 1 = Done 36.
Proof. split; reflexivity. Qed.

(** C12: chroma thresholds. In the 8-bit build they are found for every QP, delta and
    offset; in the high-bit-depth build under the condition that QP plus delta does not
    exceed the largest QP of the depth. *)
Theorem C12_chroma_range_partial : forall (hbd : bool) t depth qp delta off, (t = ALPHA_TABLE \/ t = BETA_TABLE) ->
  depth_ok depth -> (hbd = false -> depth = 8) ->
  -128 <= qp <= 127 -> -1073741824 <= delta <= 1073741824 -> -1073741824 <= off <= 1073741824 ->
  (hbd = true -> qp + delta <= 63 + 8 * (depth - 8)) ->
  exists v, lf_threshold_c hbd t depth qp delta off = Done v /\ 0 <= v <= 64 * 2 ^ (depth - 8).
Proof. exact chroma_threshold. Qed.
Print Assumptions C12_chroma_range_partial.

Example C12_chroma_range_nonvacuous :
  lf_threshold_c false ALPHA_TABLE 8 63 900 0 = Done 52 /\ lf_threshold_c true BETA_TABLE 10 60 (-2) 1 = Done 44.
Proof. split; reflexivity. Qed.

(** C12 fails for chroma in the high-bit-depth build: with the legal QP 79 at 10 bit and
    the smallest positive chroma delta the scale table is read behind its end. *)
Theorem C12_chroma_hbd_refuted : exists depth qp delta, depth_ok depth /\ 0 <= qp <= 63 + 8 * (depth - 8) /\
  -16 <= delta <= 16 /\ lf_threshold_c true ALPHA_TABLE depth qp delta 0 = Undef.
Proof. exists 10, 79, 1. repeat split; try lia. right; left; reflexivity. Qed.
Print Assumptions C12_chroma_hbd_refuted.

(** C36: as long as the signalled sums are QPs, every unit has its signalled QP and finds
    its quantiser. *)
Theorem C36_legal_sums_partial : forall depth ds q, depth_ok depth ->
  Forall (fun d => - (32 + 4 * (depth - 8)) <= d <= 32 + 4 * (depth - 8)) ds ->
  0 <= q <= 79 -> Forall (fun s => 0 <= s <= 79) (sums q ds) ->
  row_qps depth q (map (fun d => (true, d)) ds) = sums q ds.
Proof. exact row_qps_ok. Qed.
Print Assumptions C36_legal_sums_partial.
Theorem C36_tables_partial : forall depth qp bits, 0 <= qp <= 79 -> exists p, quant_params depth qp bits = Done p.
Proof. exact qp_tables_ok. Qed.
Print Assumptions C36_tables_partial.

Example C36_nonvacuous : row_qps 8 32 [(true, 31); (true, -32); (true, -10); (true, 4)] = [63; 31; 21; 25].
Proof. reflexivity. Qed.

(** C36 is false: differences inside the permitted range accumulate to a QP outside the
    tables (upwards and below zero), because only the difference is clipped. *)
Theorem C36_accumulation_refuted : exists depth q ds qp, depth_ok depth /\ 0 <= q <= 63 /\
  Forall (fun d => -32 <= d <= 32) ds /\ In qp (row_qps depth q (map (fun d => (true, d)) ds)) /\
  quant_params depth qp 3 = Undef.
Proof.
  exists 8, 30, [30; 30], 90. split; [left; reflexivity|]. split; [lia|].
  split; [repeat constructor; lia|]. split; [right; left; reflexivity|reflexivity].
Qed.
Print Assumptions C36_accumulation_refuted.
Theorem C36_negative_refuted : exists depth q d, depth_ok depth /\ 0 <= q <= 63 /\ -32 <= d <= 32 /\
  quant_params depth (cu_qp depth q true d) 3 = Undef.
Proof. exists 8, 5, (-6). split; [left; reflexivity|]. split; [lia|]. split; [lia|reflexivity]. Qed.
Print Assumptions C36_negative_refuted.

(** C36: at 12 bit already the QPs the decoder calls valid (header.cc:109-112, up to
    63 + 8 * (depth - 8) = 95) leave the 80-entry tables. *)
Theorem C36_depth12_refuted : exists qp, 0 <= qp <= 63 + 8 * (12 - 8) /\ quant_params 12 qp 3 = Undef.
Proof. exists 80. split; [lia|reflexivity]. Qed.
Print Assumptions C36_depth12_refuted.

(** C41: for every level, QP, depth and block size dequantisation is defined, the result
    is the saturated rounded product, zero stays zero and the sign never flips. *)
Theorem C41_dequant : forall depth qp bits c,
  depth_ok depth -> 0 <= qp <= 79 -> 2 <= bits <= 6 -> in_i16 c ->
  exists shift scale r, quant_params depth qp bits = Done (shift, scale) /\ dequant1 scale shift c = Done r /\
    in_i16 r /\ (c = 0 -> r = 0) /\ (0 <= c -> 0 <= r) /\ (c <= 0 -> r <= 0) /\
    exists v, rounds (c * scale) (2 ^ shift) v /\ sat16 v r.
Proof. exact dequant_spec. Qed.
Print Assumptions C41_dequant.

Theorem C41_monotone : forall depth qp bits shift scale c c' r r',
  depth_ok depth -> 0 <= qp <= 79 -> 2 <= bits <= 6 -> in_i16 c -> in_i16 c' -> c <= c' ->
  quant_params depth qp bits = Done (shift, scale) ->
  dequant1 scale shift c = Done r -> dequant1 scale shift c' = Done r' -> r <= r'.
Proof. exact dequant_mono. Qed.
Print Assumptions C41_monotone.

(** C41: the block loop applies exactly this to every coefficient. *)
Theorem C41_block : forall depth qp bits l,
  depth_ok depth -> 0 <= qp <= 79 -> 2 <= bits <= 6 -> Forall in_i16 l ->
  exists shift scale r, quant_params depth qp bits = Done (shift, scale) /\ dequant_c scale shift l = Done r /\
    Forall2 (fun c d => dequant1 scale shift c = Done d) l r.
Proof. exact dequant_block. Qed.
Print Assumptions C41_block.

Example C41_nonvacuous : quant_params 8 40 3 = Done (7, 65535) /\
  dequant_c 65535 7 [3; 0; -5; 32767; -32768] = Done [1536; 0; -2560; 32767; -32768].
Proof. split; reflexivity. Qed.
