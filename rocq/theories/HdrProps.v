(** Properties C09, C10, C11: sequence header, picture order, reference picture sets. *)
From Coq Require Import ZArith List Bool Lia.
From Verif Require Import CBase CBaseProofs VlcModel VlcSpec VlcProofs HdrModel HdrSpec HdrProofs.
Import ListNotations.
Open Scope Z_scope.

(** C09: whatever the stream contains (also when it ends inside the header), an accepted
    header describes a geometry in the supported range. *)
Theorem C09_accepted_geometry : forall s q s', parse_sequence_header s = Done (q, s') ->
  16 <= q_width q < 16384 /\ 16 <= q_height q < 16384 /\
  round_up8 (q_width q) (q_enc_w q) /\ round_up8 (q_height q) (q_enc_h q) /\
  (q_chroma q = 0 \/ q_chroma q = 1) /\
  (q_internal_depth q = 8 \/ q_internal_depth q = 10 \/ q_internal_depth q = 12) /\
  (q_log2_lcu q = 4 \/ q_log2_lcu q = 5 \/ q_log2_lcu q = 6) /\
  zlen (q_rps q) <= 32 /\ q_nrps q <= 32 /\ 1 <= q_frame_rate_id q <= 13 /\
  0 <= q_reorder q + 1 <= 32.
Proof. exact seq_accepted. Qed.
Print Assumptions C09_accepted_geometry.

(** C09: a written header is accepted exactly when its geometry is legal, and then every
    reported field is the written one; an illegal one is refused. *)
Theorem C09_roundtrip : forall y mem pre post, syn_fits y -> bits_of mem = pre ++ syn_bits y ++ post ->
  let s := Bs mem (Z.of_nat (length mem)) (Z.of_nat (length pre)) in
  (legal y -> exists q s', parse_sequence_header s = Done (q, s') /\ meaning y q) /\
  (~ legal y -> parse_sequence_header s = Fail).
Proof. exact seq_roundtrip. Qed.
Print Assumptions C09_roundtrip.

Definition ex_syn : syn :=
  Syn 432 32 34 1 0 1918 1078 1 1 1 1 5 1000 3 0 0 77 6 (Some (Some (repeat 64 16, repeat 65 64)))
      1 [1;1;1;1;0;1;0;1;1;0] [RpsSyn 1 [1;3] [2] 1; RpsSyn 0 [] [] 1] 2 1.
Definition pad8 (l : list bool) : list bool := l ++ repeat true (8 - length l mod 8).
Definition ex_mem : list Z := bytes_of (pad8 (syn_bits ex_syn)).
Example C09_nonvacuous :
  syn_fits ex_syn /\ legal ex_syn /\
  bits_of ex_mem = [] ++ syn_bits ex_syn ++ skipn (length (syn_bits ex_syn)) (bits_of ex_mem) /\
  (exists q s', parse_sequence_header (Bs ex_mem (Z.of_nat (length ex_mem)) 0) = Done (q, s') /\
                q_width q = 1918 /\ q_enc_w q = 1920).
Proof.
  split; [|split; [|split]].
  - unfold syn_fits, fits, zlen, rps_fits, fits, zlen; cbn.
    repeat match goal with |- _ /\ _ => split end; try lia; repeat constructor; cbn; lia.
  - unfold legal, zlen, eff_eprec; cbn. lia.
  - vm_compute. reflexivity.
  - destruct (parse_sequence_header (Bs ex_mem (Z.of_nat (length ex_mem)) 0)) as [[q s']| | |] eqn:E;
      vm_compute in E; try discriminate.
    exists q, s'. split; [reflexivity|]. apply Done_inj, pair_equal_spec in E. destruct E as [<- _]. split; reflexivity.
Qed.

(** C09: a picture of an accepted header is decoded with the announced depth, and a build
    without high-bit-depth support refuses every other depth than 8. *)
Theorem C09_build_depth : forall s q s' hbd, parse_sequence_header s = Done (q, s') ->
  (hbd = false -> q_internal_depth q <> 8 -> update_depth hbd q = None) /\
  (hbd = true \/ q_internal_depth q = 8 ->
     exists out, update_depth hbd q = Some (out, q_internal_depth q) /\ (out = 8 \/ out = 10 \/ out = 12)).
Proof. exact build_depth. Qed.
Print Assumptions C09_build_depth.

(** C09: the announced output depth is not the one pictures are written with: the header
    takes it from encoding_precision, the picture from sample_precision. *)
Definition ex_syn10 : syn :=
  Syn 432 34 34 1 0 1918 1078 1 1 2 1 5 1000 3 0 0 77 6 None
      1 [1;1;1;1;0;1;0;1;1;0] [] 2 1.
Theorem C09_output_depth_refuted : exists y q,
  syn_fits y /\ legal y /\ meaning y q /\ q_output_depth q = 10 /\ update_depth true q = Some (8, 10).
Proof.
  assert (F: syn_fits ex_syn10).
  { unfold syn_fits, fits, zlen; cbn.
    repeat match goal with |- _ /\ _ => split end; try lia; repeat constructor; cbn; lia. }
  assert (L: legal ex_syn10) by (unfold legal, zlen, eff_eprec; cbn; lia).
  exists ex_syn10, (built ex_syn10). split; [exact F|]. split; [exact L|].
  split; [apply built_meaning; assumption|]. split; reflexivity.
Qed.
Print Assumptions C09_output_depth_refuted.

(** C10: however often the transmitted counter wraps, the decoder's numbers differ from
    the encoder's numbers by one constant multiple of 256: so their order, their
    differences and their low 8 bits are right. *)
Theorem C10_unwrap : forall c l w o, 0 <= c -> gaps_ok c l ->
  exists k, coi_seq (Pmgr w (-1) o) (map (fun x => x mod 256) (c :: l)) = map (fun x => x + 256 * k) (c :: l).
Proof. exact coi_unwrap. Qed.
Print Assumptions C10_unwrap.

Example C10_unwrap_nonvacuous :
  gaps_ok 250 [255; 260; 400; 655; 656] /\
  coi_seq (Pmgr 0 (-1) (-1)) [250; 255; 4; 144; 143; 144] = [250; 255; 260; 400; 655; 656].
Proof. split; [cbn; lia|reflexivity]. Qed.

(** C10: the picture header gives the pictures these numbers, and the display index is
    the number plus the transmitted delay minus the reorder delay. *)
Theorem C10_display_index : forall g q intra p g' coi poc, picture_order g q intra p = Some (g', coi, poc) ->
  coi = snd (coi_update g (c_coi p)) /\
  poc = coi + (if q_low_delay q =? 0 then c_delay p - q_reorder q else 0) /\
  (forall t, coi_seq g' t = coi_seq (fst (coi_update g (c_coi p))) t).
Proof. exact picture_order_spec. Qed.
Print Assumptions C10_display_index.

(** C10: a jump of exactly 256 is the first one that is lost: two different pictures get
    the same number. *)
Theorem C10_gap_256_refuted : exists l, map (fun x => x mod 256) [7; 263] = l /\
  coi_seq (Pmgr 0 (-1) (-1)) l = [7; 7].
Proof. exists [7; 7]. split; reflexivity. Qed.
Print Assumptions C10_gap_256_refuted.

(** C11: every set the parser delivers fits its tables. *)
Theorem C11_accepted_fits : forall s q s', parse_sequence_header s = Done (q, s') ->
  forall r, In r (q_rps q) ->
  r_nref r <= 4 /\ r_nrem r <= 8 /\ zlen (r_ref r) = Z.max 0 (r_nref r) /\ zlen (r_rem r) = Z.max 0 (r_nrem r).
Proof. exact seq_rpss_ok. Qed.
Print Assumptions C11_accepted_fits.

Theorem C11_picture_fits : forall s0 q s0' intra s r s', parse_sequence_header s0 = Done (q, s0') ->
  parse_pic_rps q intra s = Done (r, s') ->
  r_nref r <= 4 /\ r_nrem r <= 8 /\ zlen (r_ref r) = Z.max 0 (r_nref r) /\ zlen (r_rem r) = Z.max 0 (r_nrem r).
Proof. exact pic_rpss_ok. Qed.
Print Assumptions C11_picture_fits.

(** C11 is false as stated: there are sequence headers and inter picture headers for
    which the parser stores outside the table, because only the intra picture header
    checks the three-bit count. *)
Theorem C11_sequence_overflow_refuted : exists s, u_v_safe_state s /\ parse_seq_rps s = Undef.
Proof. exists (Bs [208; 0] 1 0). split; [unfold u_v_safe_state; cbn; lia|reflexivity]. Qed.
Print Assumptions C11_sequence_overflow_refuted.

Theorem C11_inter_overflow_refuted : exists q s, u_v_safe_state s /\ parse_pic_rps q false s = Undef /\
  parse_pic_rps q true s = Fail.
Proof.
  exists (built ex_syn), (Bs [104; 0] 1 0).
  split; [unfold u_v_safe_state; cbn; lia|split; reflexivity].
Qed.
Print Assumptions C11_inter_overflow_refuted.

(** C11: a picture header that ends inside the RPS index makes the index -1, which passes
    the check and addresses the entry before the table. *)
Theorem C11_truncated_index_refuted : exists q s, u_v_safe_state s /\ parse_pic_rps q true s = Undef.
Proof.
  exists (built ex_syn), (Bs [255; 255; 0] 1 13).
  split; [unfold u_v_safe_state; cbn; lia|reflexivity].
Qed.
Print Assumptions C11_truncated_index_refuted.

(** C11: in the intra picture header nothing is stored outside, unless the index is
    truncated. *)
Theorem C11_intra_safe_partial : forall q s, u_v_safe_state s ->
  (forall i, 0 <= i < q_nrps q -> exists r, get (q_rps q) i = Some r) ->
  bs_pos s + 6 < 8 * (bs_len s + 1) ->
  parse_pic_rps q true s <> Undef.
Proof. exact intra_rps_defined. Qed.
Print Assumptions C11_intra_safe_partial.

Example C11_intra_nonvacuous :
  let s := Bs [96; 0; 0; 0; 0; 0] 5 0 in
  u_v_safe_state s /\ bs_pos s + 6 < 8 * (bs_len s + 1) /\
  (forall i, 0 <= i < q_nrps (built ex_syn) -> exists r, get (q_rps (built ex_syn)) i = Some r) /\
  exists s', parse_pic_rps (built ex_syn) true s = Done (Rps 1 4 [0;0;0;0] 0 [], s').
Proof.
  cbv zeta. split; [unfold u_v_safe_state; cbn; lia|]. split; [cbn; lia|]. split.
  - intros i Hi. cbn in Hi. assert (C: i = 0 \/ i = 1) by lia. destruct C as [-> | ->]; eexists; reflexivity.
  - eexists. reflexivity.
Qed.
