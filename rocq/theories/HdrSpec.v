(** Specification of the sequence header: what an encoder writes (AVS2 standard,
    sequence_header()) and what a decoder must report for it. *)
From Coq Require Import ZArith List Bool.
From Verif Require Import CBase VlcSpec HdrModel.
Import ListNotations.
Open Scope Z_scope.

Record rps_syn := RpsSyn { rs_refd : Z; rs_ref : list Z; rs_rem : list Z; rs_marker : Z }.

Record syn := Syn {
  y_start : Z; y_profile : Z; y_level : Z; y_progressive : Z; y_field : Z;
  y_width : Z; y_height : Z; y_chroma : Z; y_sprec : Z; y_eprec : Z;
  y_aspect : Z; y_rate_id : Z; y_br_lo : Z; y_br_up : Z; y_low_delay : Z; y_temporal : Z;
  y_bbv : Z; y_lcu : Z;
  y_wq : option (option (list Z * list Z));  (* weighted quantisation off / default / loaded *)
  y_bg_disable : Z; y_tools : list Z;
  y_rps : list rps_syn; y_reorder : Z; y_cross : Z
}.

Definition u (n : nat) (v : Z) : list bool := low_bits n v.
Definition zlen {A} (l : list A) : Z := Z.of_nat (length l).

Definition rps_bits (r : rps_syn) : list bool :=
  u 1 (rs_refd r) ++ u 3 (zlen (rs_ref r)) ++ flat_map (u 6) (rs_ref r) ++
  u 3 (zlen (rs_rem r)) ++ flat_map (u 6) (rs_rem r) ++ u 1 (rs_marker r).

Definition wq_bits (w : option (option (list Z * list Z))) : list bool :=
  match w with
  | None => u 1 0
  | Some None => u 1 1 ++ u 1 0
  | Some (Some (a, b)) => u 1 1 ++ u 1 1 ++ flat_map ue_code a ++ flat_map ue_code b
  end.

(** The syntax table, in order. *)
Definition syn_bits (y : syn) : list bool :=
  u 32 (y_start y) ++ u 8 (y_profile y) ++ u 8 (y_level y) ++ u 1 (y_progressive y) ++
  u 1 (y_field y) ++ u 14 (y_width y) ++ u 14 (y_height y) ++ u 2 (y_chroma y) ++
  u 3 (y_sprec y) ++ (if y_profile y =? 34 then u 3 (y_eprec y) else []) ++
  u 4 (y_aspect y) ++ u 4 (y_rate_id y) ++ u 18 (y_br_lo y) ++ u 1 1 ++ u 12 (y_br_up y) ++
  u 1 (y_low_delay y) ++ u 1 1 ++ u 1 (y_temporal y) ++ u 18 (y_bbv y) ++ u 3 (y_lcu y) ++
  wq_bits (y_wq y) ++ u 1 (y_bg_disable y) ++ flat_map (u 1) (y_tools y) ++ u 1 1 ++
  u 6 (zlen (y_rps y)) ++ flat_map rps_bits (y_rps y) ++
  (if y_low_delay y =? 0 then u 5 (y_reorder y) else []) ++ u 1 (y_cross y) ++ u 2 0.

Definition fits (n : Z) (v : Z) : Prop := 0 <= v < 2 ^ n.

Definition rps_fits (r : rps_syn) : Prop :=
  fits 1 (rs_refd r) /\ fits 1 (rs_marker r) /\
  Forall (fits 6) (rs_ref r) /\ Forall (fits 6) (rs_rem r) /\
  zlen (rs_ref r) <= 4 /\ zlen (rs_rem r) <= 7.

(** All fields fit the number of bits they are written with; at most four references
    per RPS entry (see the refutation of C11) and a bit rate below 2^31 bits/s. *)
Definition syn_fits (y : syn) : Prop :=
  fits 8 (y_profile y) /\ fits 8 (y_level y) /\ fits 1 (y_progressive y) /\ fits 1 (y_field y) /\
  fits 14 (y_width y) /\ fits 14 (y_height y) /\ fits 2 (y_chroma y) /\ fits 3 (y_sprec y) /\
  fits 3 (y_eprec y) /\ fits 4 (y_aspect y) /\ fits 4 (y_rate_id y) /\ fits 18 (y_br_lo y) /\
  fits 12 (y_br_up y) /\ fits 1 (y_low_delay y) /\ fits 1 (y_temporal y) /\ fits 18 (y_bbv y) /\
  fits 3 (y_lcu y) /\
  match y_wq y with
  | Some (Some (a, b)) => length a = 16%nat /\ length b = 64%nat /\
                          Forall (fits 15) a /\ Forall (fits 15) b
  | _ => True
  end /\
  fits 1 (y_bg_disable y) /\ length (y_tools y) = 10%nat /\ Forall (fits 1) (y_tools y) /\
  Forall rps_fits (y_rps y) /\ zlen (y_rps y) <= 63 /\ fits 5 (y_reorder y) /\ fits 1 (y_cross y) /\
  400 * (262144 * y_br_up y + y_br_lo y) <= 2147483647.

(** Encoding precision: signalled only in the main-10 profile. *)
Definition eff_eprec (y : syn) : Z := if y_profile y =? 34 then y_eprec y else 1.

(** The headers a decoder must accept. *)
Definition legal (y : syn) : Prop :=
  16 <= y_width y /\ 16 <= y_height y /\ (y_chroma y = 0 \/ y_chroma y = 1) /\
  1 <= y_sprec y <= 3 /\ 1 <= eff_eprec y <= 3 /\ 4 <= y_lcu y <= 6 /\ zlen (y_rps y) <= 32.

(** What is reported. *)
Definition rps_meaning (r : rps_syn) : rps :=
  Rps (rs_refd r) (zlen (rs_ref r)) (rs_ref r) (zlen (rs_rem r)) (rs_rem r).

Definition meaning (y : syn) (q : seqh) : Prop :=
  q_profile q = y_profile y /\ q_level q = y_level y /\ q_width q = y_width y /\ q_height q = y_height y /\
  q_chroma q = y_chroma y /\ q_internal_depth q = 6 + 2 * eff_eprec y /\
  q_output_depth q = 6 + 2 * eff_eprec y /\
  q_bytes q = (if 8 <? 6 + 2 * eff_eprec y then 2 else 1) /\
  q_aspect q = y_aspect y /\ q_progressive q = y_progressive y /\ q_low_delay q = y_low_delay y /\
  q_frame_rate_id q = Z.max 1 (Z.min 13 (y_rate_id y)) /\
  q_bitrate q = 400 * (262144 * y_br_up y + y_br_lo y) /\
  q_log2_lcu q = y_lcu y /\ q_temporal q = y_temporal y /\ q_field q = y_field y /\
  q_tools q = (1 - y_bg_disable y) :: y_tools y /\
  q_nrps q = zlen (y_rps y) /\ q_rps q = map rps_meaning (y_rps y) /\
  q_reorder q = (if y_low_delay y =? 0 then y_reorder y else 0) /\ q_cross q = y_cross y /\
  (forall a b, y_wq y = Some (Some (a, b)) -> q_wq4 q = a /\ q_wq8 q = b).

(** Rounding up to whole units. *)
Definition round_up8 (w e : Z) : Prop := (exists k, e = 8 * k) /\ w <= e < w + 8.

(** *** Pictures. An encoder numbers pictures in coding order and transmits the number
    modulo 256; [coi_seq g l] is the list of numbers the decoder assigns to transmitted
    values [l]. *)
Fixpoint coi_seq (g : pmgr) (l : list Z) : list Z :=
  match l with
  | [] => []
  | c :: t => let '(g1, v) := coi_update g c in v :: coi_seq g1 t
  end.

(** Consecutive pictures are 1 to 255 apart. *)
Fixpoint gaps_ok (c : Z) (l : list Z) : Prop :=
  match l with
  | [] => True
  | d :: t => 1 <= d - c <= 255 /\ gaps_ok d t
  end.
