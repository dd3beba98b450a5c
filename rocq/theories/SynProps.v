(** Properties of the syntax elements read from slice data. *)
From Coq Require Import ZArith List Bool Lia.
From Verif Require Import CBase AecModel AecSpec SynModel SynSpec SynProofsA SynProofsD SynProofsE SynProofsF SynProofsG.
Import ListNotations.
Open Scope Z_scope.

(** The reader at the start of a slice, contexts as initialised. *)
Definition from_start {A : Type} (data : list Z) (m : syn A) : outcome (option A) :=
  match start_decoding data 0 (Z.of_nat (length data)) false 0 with
  | Done a => match m a (fun _ => ctx_init) with Done (_, _, x) => Done x | Fail => Fail | Undef => Undef | Hang => Hang end
  | _ => Fail
  end.

(** C35: the coefficients of every block land inside it, group by group, at places that are
    all different, with values of the buffer's type. Partial: the escape-coded level is read
    by any reader that yields a value between 1 and 2^30 (see C37 for the reader in use). *)
Theorem C35_block_partial : forall esc p, level_reader esc -> block_in_use p ->
  safe (run_level_gen esc p) (fun r => block_ok (b_w p) (b_h p) (snd r)).
Proof. exact coeffs_safe. Qed.
Print Assumptions C35_block_partial.

(** C35: with the reader in use, whenever reading the block ends. *)
Theorem C35_block : forall p a cs a1 cs1 r, block_in_use p -> legal cs -> run_level p a cs = Done (a1, cs1, Some r) ->
  legal cs1 /\ block_ok (b_w p) (b_h p) (snd r).
Proof. exact coeffs_done. Qed.
Print Assumptions C35_block.
Theorem C35_no_hang : forall p a cs, block_in_use p -> legal cs -> run_level p a cs <> Hang.
Proof. exact coeffs_no_hang. Qed.
Print Assumptions C35_no_hang.

(** The hypotheses can be met, and coefficients do come out. *)
Definition C35_blk : option blk := luma_blk 3 NON false false 32768 14.
Example C35_in_use : exists p, C35_blk = Some p /\ block_in_use p /\
  from_start [220; 17; 85] (run_level p) = Done (Some (1, [(0, 0, [(0, 4); (1, 12); (8, -2)])])).
Proof.
  eexists. split; [reflexivity|]. split; [|vm_compute; reflexivity].
  exists 3, NON. split; [lia|]. split; [unfold split_ok, NON; lia|]. split; [unfold quant_ok; cbn; lia|].
  left. exists false, false. split; [reflexivity|discriminate].
Qed.
Example C35_reader : level_reader (capped 1).
Proof. exact capped_level. Qed.

(** C37: what the escape code reads is an exponential-Golomb code, and its value is that of
    the code. *)
Theorem C37_value : forall start a cs a1 cs1 v, esc_code start a cs = Done (a1, cs1, Some v) ->
  exists bits, v = start + eg0 bits /\ draw (length (eg0_code bits)) a cs = Done (a1, cs1, Some (eg0_code bits)).
Proof. exact esc_exact. Qed.
Print Assumptions C37_value.

(** C37: codes with at most 28 leading zeros are defined, in levels ... *)
Theorem C37_level_partial : forall start, 0 <= start <= 1 -> safe (capped start) (fun v => start <= v <= start + 536870910).
Proof. exact capped_safe. Qed.
Print Assumptions C37_level_partial.
(** ... and in motion vector differences. *)
Theorem C37_mvd_partial : forall i, 0 <= i <= 1 -> safe (read_mvd_gen (capped 0) i) (fun v => -1073741825 < v < 1073741825).
Proof. exact mvd_safe. Qed.
Print Assumptions C37_mvd_partial.

(** C37 fails in general: slice data with a long run of zeros make the decoder shift past
    the width of an [int]. *)
Theorem C37_mvd_refuted : exists data, bytes_ok data /\ from_start data (read_mvd 0) = Undef.
Proof.
  exists [223; 192; 0; 0; 0; 0; 0; 0; 0; 0; 0; 0]. split; [repeat (constructor; [lia|]); constructor|]. vm_compute. reflexivity.
Qed.
Print Assumptions C37_mvd_refuted.
Example C37_short : from_start [223; 224; 33; 17; 0; 0; 0; 0] (read_mvd 0) = from_start [223; 224; 33; 17; 0; 0; 0; 0] (read_mvd_gen (capped 0) 0) /\
  exists v, from_start [223; 224; 33; 17; 0; 0; 0; 0] (read_mvd 0) = Done (Some v) /\ 3 < Z.abs v.
Proof. split; [vm_compute; reflexivity|]. eexists. split; vm_compute; reflexivity. Qed.

(** C38: the parameters of all blocks of a picture, whatever the data, the merge candidates
    and what the structures held before. *)
Theorem C38_params : forall w on av infos i, 0 < w -> 0 <= i -> i + Z.of_nat (length av) <= Z.of_nat (length infos) -> avail_ok w i av -> Forall sao3_ok infos ->
  safe (sao_read_lcus w on infos i av) (fun r => length r = length infos /\ Forall sao3_ok r).
Proof. exact (lcus_safe False). Qed.
Print Assumptions C38_params.

(** C38: bands coincide only if the data end inside the code of their distance. *)
Theorem C38_bands : forall a cs a1 cs1 v, legal cs -> read_sao_type true a cs = Done (a1, cs1, Some v) -> v / 32 = 1 ->
  exists a' cs' b, sao_fixed 5 0 0 a cs = Done (a', cs', Some b) /\ sao_delta a' cs' = Done (a1, cs1, None).
Proof. exact dist_one. Qed.
Print Assumptions C38_bands.

(** C38 fails on truncated data: two of the four bands are the same. *)
Theorem C38_bands_refuted : exists data p, bytes_ok data /\ from_start data (sao_read_plane sao_off_param) = Done (Some p) /\
  s_mode p = 2 /\ s_type p = 4 /\ ~ NoDup (bands p).
Proof.
  exists [64; 7; 7]. eexists. split; [repeat (constructor; [lia|]); constructor|]. split; [vm_compute; reflexivity|].
  split; [reflexivity|]. split; [reflexivity|]. intros N. vm_compute in N.
  apply NoDup_cons_iff in N. destruct N as [_ N]. apply NoDup_cons_iff in N. destruct N as [N _]. apply N. left. reflexivity.
Qed.
Print Assumptions C38_bands_refuted.
Example C38_hyps : avail_ok 2 0 [(false, false); (true, false); (false, true); (true, true)] /\
  Forall sao3_ok (repeat (sao_off_param, sao_off_param, sao_off_param) 4) /\
  exists r, from_start [90; 7; 155; 77; 201; 66; 5; 17; 90; 200; 44; 1; 77; 9; 201; 12; 33; 45; 200; 77] (sao_read_lcus 2 (true, true, false) (repeat (sao_off_param, sao_off_param, sao_off_param) 4) 0
    [(false, false); (true, false); (false, true); (true, true)]) = Done (Some r).
Proof.
  split; [cbn; repeat split; discriminate || lia|]. split.
  - assert (O : sao_ok sao_off_param) by (split; [reflexivity|left; reflexivity]).
    assert (O3 : sao3_ok (sao_off_param, sao_off_param, sao_off_param)) by (cbn; auto).
    repeat (constructor; [exact O3|]). constructor.
  - eexists. vm_compute. reflexivity.
Qed.

(** C61: the pattern stored with a block never hides a coefficient from the transform. *)
Theorem C61_covers : forall p a cs a1 cs1 pat gs, block_in_use p -> legal cs -> run_level p a cs = Done (a1, cs1, Some (pat, gs)) -> pat <> -1 ->
  0 <= pat <= 2 /\ gs <> [] /\ Forall (within (b_w p) (b_h p) pat) gs.
Proof. exact pattern_covers. Qed.
Print Assumptions C61_covers.
(** C61 fails when the data end inside the block: the unit is accepted with pattern -1, the
    index of no transform. *)
Definition C61_cu : cu_coef :=
  {| c_level := 3; c_split := 0; c_cbp := 1; c_dc := fun _ => false; c_swap := fun _ => false; c_400 := true; c_scale := 32768; c_shift := 14;
     c_cscale := fun _ => 32768; c_cshift := fun _ => 14 |}.
Theorem C61_pattern_refuted : exists data pat gs, bytes_ok data /\ from_start data (read_all_coeffs C61_cu) = Done (Some (true, [(0, pat, gs)])) /\ idct_entry pat = Undef.
Proof.
  exists [0; 128], (-1), []. split; [repeat (constructor; [lia|]); constructor|]. split; vm_compute; reflexivity.
Qed.
Print Assumptions C61_pattern_refuted.

(** C62: prediction type and skip modes. *)
Theorem C62_cu_type : forall level slice amp mhp wsm nref, 3 <= level <= 6 -> nref <= 4 ->
  safe (read_cu_type level slice amp mhp wsm nref) (fun r => -1 <= fst r <= 7 \/ fst r = 9).
Proof. exact (cu_type_safe False). Qed.
Print Assumptions C62_cu_type.
Theorem C62_skip_modes : forall level slice amp mhp wsm nref, 3 <= level <= 6 -> nref <= 4 ->
  safe (read_cu_type level slice amp mhp wsm nref)
    (fun r => match snd r with Some (w, d) => 0 <= w <= 3 /\ w <= Z.max 0 (nref - 1) /\ 0 <= d <= 4 /\ (w = 0 \/ d = 0) | None => 1 <= fst r end).
Proof. exact (cu_type_modes False). Qed.
Print Assumptions C62_skip_modes.
(** C62: intra types come with a transform split the block shapes know. *)
Theorem C62_intra_type : forall sdip nsqt level, 3 <= level <= 6 ->
  safe (read_intra_cu_type sdip nsqt level) (fun r => intra_type (fst r) /\ split_ok level (snd r)).
Proof. exact (intra_type_safe False). Qed.
Print Assumptions C62_intra_type.
(** C62: coded block pattern, and the transform split of inter units. *)
Theorem C62_cbp : forall ty level c400 sdip nsqt nb, 0 <= ty <= 11 -> 3 <= level <= 6 -> flags_ok nb ->
  safe (read_cbp ty level c400 sdip nsqt nb)
    (fun r => 0 <= fst r <= 63 /\ (c400 = true -> fst r <= 15) /\ (ty <= 7 -> exists sp, snd r = Some sp /\ split_ok level sp) /\ (8 <= ty -> snd r = None)).
Proof. exact (cbp_safe False). Qed.
Print Assumptions C62_cbp.
(** C62: prediction directions and the reference indices they use. *)
Theorem C62_b_direction : forall ty level, 1 <= ty <= 7 -> safe (read_b_pdir ty level) (fun v => 0 <= v <= 15 /\ (ty = 1 -> v <= 3)).
Proof. exact (b_pdir_safe False). Qed.
Print Assumptions C62_b_direction.
Theorem C62_b_refs : forall ty dskip pdir, 0 <= ty <= 7 -> (ty = 0 -> 0 <= dskip <= 4) -> (ty <> 0 -> 0 <= pdir <= 15 /\ (ty = 1 -> pdir <= 3)) ->
  safe (set_pdir_b ty dskip pdir) (fun r => directions (fst r) /\ Forall2 refs_for (fst r) (snd r)).
Proof. exact (pdir_b_safe False). Qed.
Print Assumptions C62_b_refs.
Theorem C62_f_direction : forall ty, safe (read_pdir_dhp ty) (fun v => 0 <= v <= 3 /\ (ty = 1 -> v <= 1)).
Proof. exact (dhp_safe False). Qed.
Print Assumptions C62_f_direction.
Theorem C62_f_directions : forall ty pdir, 1 <= ty <= 7 -> 0 <= pdir <= 3 -> safe (set_pdir_pf ty pdir) (fun l => directions l /\ Forall (fun d => d = 0 \/ d = 4) l).
Proof. exact (pdir_pf_safe False). Qed.
Print Assumptions C62_f_directions.
Theorem C62_reference : forall nref d, 1 <= nref <= 4 -> (d = 4 -> nref = 2) -> safe (read_reference nref d)
  (fun r => 0 <= fst r <= nref - 1 /\ (snd r = -1 \/ (d = 4 /\ 0 <= snd r <= nref - 1 /\ snd r <> fst r))).
Proof. exact (reference_safe False). Qed.
Print Assumptions C62_reference.
Theorem C62_dmh : forall level, 3 <= level <= 6 -> safe (read_dmh_mode level) (fun v => 0 <= v <= 8).
Proof. exact (dmh_safe False). Qed.
Print Assumptions C62_dmh.
(** C62: intra prediction modes. *)
Theorem C62_luma_mode : forall top lf, 0 <= top <= 32 -> 0 <= lf <= 32 -> safe (read_luma_mode top lf) (fun v => 0 <= v <= 32).
Proof. exact (read_luma_safe False). Qed.
Print Assumptions C62_luma_mode.
(** C62: every luma mode has exactly one code, whatever the neighbours' modes. *)
Theorem C62_luma_mode_onto : forall top lf m, 0 <= top <= 32 -> 0 <= lf <= 32 -> 0 <= m <= 32 -> exists code, -2 <= code <= 30 /\ luma_mode top lf code = m.
Proof. exact luma_surj. Qed.
Print Assumptions C62_luma_mode_onto.
Theorem C62_luma_mode_unique : forall top lf c d, 0 <= top <= 32 -> 0 <= lf <= 32 -> -2 <= c <= 30 -> -2 <= d <= 30 ->
  luma_mode top lf c = luma_mode top lf d -> c = d.
Proof. exact luma_inj. Qed.
Print Assumptions C62_luma_mode_unique.
Theorem C62_chroma_mode : forall ctx lm, 0 <= ctx <= 1 -> 0 <= lm <= 32 -> safe (read_intra_pmode_c ctx lm) (fun v => 0 <= v <= 4).
Proof. exact (chroma_mode_safe False). Qed.
Print Assumptions C62_chroma_mode.
(** C62: the change of the quantiser. *)
Theorem C62_delta_qp : forall depth last, 8 <= depth <= 10 -> safe (delta_qp depth last) (fun v => - (32 + 4 * (depth - 8)) <= v <= 32 + 4 * (depth - 8)).
Proof. exact (dqp_safe False). Qed.
Print Assumptions C62_delta_qp.

(** The context arrays are as at the start of a slice, and values other than the smallest do occur. *)
Example C62_start_legal : legal (fun _ => ctx_init).
Proof. intros j. unfold legal_ctx, ctx_init. cbn. lia. Qed.
Example C62_values : from_start [90; 17; 85; 3] (read_luma_mode 5 9) = Done (Some 24) /\ from_start [40; 17; 85; 3] (read_b_pdir 4 5) = Done (Some 2).
Proof. split; vm_compute; reflexivity. Qed.
