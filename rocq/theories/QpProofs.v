(** Proofs for QP handling. *)
From Coq Require Import ZArith List Bool Lia.
From Verif Require Import CBase CBaseProofs HdrModel QpModel QpSpec.
Import ListNotations.
Open Scope Z_scope.

Lemma int32_ok : forall z, in_i32 z -> int32 z = Done z.
Proof. intros z H. unfold in_i32 in H. unfold int32. replace ((-2147483648 <=? z) && (z <=? 2147483647)) with true by lia. reflexivity. Qed.

Lemma clip3_range : forall a b v, a <= b -> a <= clip3 a b v <= b.
Proof. intros. unfold clip3. destruct (v <? a) eqn:?, (b <? v) eqn:?; lia. Qed.
Lemma clip3_mono : forall a b v w, a <= b -> v <= w -> clip3 a b v <= clip3 a b w.
Proof. intros. unfold clip3. destruct (v <? a) eqn:?, (b <? v) eqn:?, (w <? a) eqn:?, (b <? w) eqn:?; lia. Qed.

(** A table of 64 non-decreasing entries starting with six zeros. *)
Fixpoint sorted_b (l : list Z) : bool :=
  match l with
  | a :: (b :: _) as t => (a <=? b) && sorted_b t
  | _ => true
  end.
Lemma sorted_nth : forall l i j a b, sorted_b l = true -> (i <= j)%nat ->
  nth_error l i = Some a -> nth_error l j = Some b -> a <= b.
Proof.
  induction l as [|x l IH]; intros i j a b Hs Hij Hi Hj; [destruct i; discriminate|].
  assert (Hs': sorted_b l = true) by (destruct l; [reflexivity|cbn [sorted_b] in Hs; apply andb_prop in Hs; tauto]).
  destruct i, j; cbn [nth_error] in Hi, Hj.
  - assert (a = b) by congruence. lia.
  - apply Some_inj in Hi. subst x. destruct l as [|y l]; [destruct j; discriminate|].
    cbn [sorted_b] in Hs. apply andb_prop in Hs. destruct Hs as [H1 _].
    assert (y <= b) by (apply (IH 0%nat j y b Hs'); [lia|reflexivity|exact Hj]). lia.
  - lia.
  - apply (IH i j a b Hs'); [lia|exact Hi|exact Hj].
Qed.
Lemma sorted_get : forall l i j a b, sorted_b l = true -> i <= j ->
  get l i = Some a -> get l j = Some b -> a <= b.
Proof.
  intros l i j a b Hs Hij Hi Hj. unfold get in *.
  destruct (i <? 0) eqn:E1; [discriminate|]. destruct (j <? 0) eqn:E2; [discriminate|].
  eapply (sorted_nth l (Z.to_nat i) (Z.to_nat j)); eauto. lia.
Qed.

Definition thr_table (t : list Z) : Prop :=
  length t = 64%nat /\ sorted_b t = true /\ get t 5 = Some 0 /\ get t 0 = Some 0 /\ exists m, get t 63 = Some m /\ m <= 64.
Lemma alpha_table : thr_table ALPHA_TABLE.
Proof. repeat split. exists 64. split; [reflexivity|lia]. Qed.
Lemma beta_table : thr_table BETA_TABLE.
Proof. repeat split. exists 27. split; [reflexivity|lia]. Qed.

Lemma threshold_val : forall t depth qp off, thr_table t -> depth_ok depth ->
  -1000 <= qp <= 1000 -> -1073741824 <= off <= 1073741824 ->
  exists v, get t (clip3 0 63 (qp - 8 * (depth - 8) + off)) = Some v /\ 0 <= v <= 64 /\
    lf_threshold t depth qp off = Done (v * 2 ^ (depth - 8)).
Proof.
  intros t depth qp off (Hl & Hs & H5 & H0 & m & Hm & Hmb) Hd Hq Ho.
  set (i := clip3 0 63 (qp - 8 * (depth - 8) + off)).
  assert (Hi: 0 <= i <= 63) by (apply clip3_range; lia).
  destruct (get_in _ t i ltac:(rewrite Hl; lia)) as [v Hv]. exists v. split; [exact Hv|]. split.
  - split.
    + apply (sorted_get t 0 i 0 v Hs); [lia|exact H0|exact Hv].
    + assert (v <= m) by (apply (sorted_get t i 63 v m Hs); [lia|exact Hv|exact Hm]). lia.
  - unfold lf_threshold. assert (E: Z.shiftl (depth - 8) 3 = 8 * (depth - 8)).
    { rewrite Z.shiftl_mul_pow2 by lia. change (2 ^ 3) with 8. lia. }
    rewrite E, int32_ok by (unfold in_i32, depth_ok in *; lia). cbn [bindo]. unfold lut. fold i. rewrite Hv.
    cbn [bindo]. rewrite Z.shiftl_mul_pow2 by (unfold depth_ok in Hd; lia). reflexivity.
Qed.

Lemma threshold_range : forall t depth qp off, (t = ALPHA_TABLE \/ t = BETA_TABLE) -> depth_ok depth ->
  -1000 <= qp <= 1000 -> -1073741824 <= off <= 1073741824 ->
  exists v, lf_threshold t depth qp off = Done v /\ 0 <= v <= 64 * 2 ^ (depth - 8) /\
    (qp - 8 * (depth - 8) + off <= 5 -> v = 0).
Proof.
  intros t depth qp off Ht Hd Hq Ho.
  assert (T: thr_table t) by (destruct Ht as [-> | ->]; [apply alpha_table|apply beta_table]).
  destruct (threshold_val t depth qp off T Hd Hq Ho) as (v & Hv & Hb & E).
  assert (P: 0 < 2 ^ (depth - 8)) by (apply Z.pow_pos_nonneg; unfold depth_ok in Hd; lia).
  exists (v * 2 ^ (depth - 8)). split; [exact E|]. split; [nia|].
  intros H5. destruct T as (Hl & Hs & T5 & _).
  assert (v <= 0). { eapply (sorted_get t _ 5 v 0 Hs); [|exact Hv|exact T5].
    unfold clip3. destruct (_ <? 0) eqn:?; [lia|]. destruct (63 <? _) eqn:?; lia. }
  replace v with 0 by lia. lia.
Qed.

Lemma threshold_mono : forall t depth qp qp' off v v', (t = ALPHA_TABLE \/ t = BETA_TABLE) -> depth_ok depth ->
  -1000 <= qp -> qp <= qp' -> qp' <= 1000 -> -1073741824 <= off <= 1073741824 ->
  lf_threshold t depth qp off = Done v -> lf_threshold t depth qp' off = Done v' -> v <= v'.
Proof.
  intros t depth qp qp' off v v' Ht Hd H1 H2 H3 Ho E E'.
  assert (T: thr_table t) by (destruct Ht as [-> | ->]; [apply alpha_table|apply beta_table]).
  destruct (threshold_val t depth qp off T Hd ltac:(lia) Ho) as (a & Ha & _ & Ea).
  destruct (threshold_val t depth qp' off T Hd ltac:(lia) Ho) as (b & Hb & _ & Eb).
  rewrite Ea in E. rewrite Eb in E'. apply Done_inj in E. apply Done_inj in E'. subst v v'.
  assert (P: 0 < 2 ^ (depth - 8)) by (apply Z.pow_pos_nonneg; unfold depth_ok in Hd; lia).
  assert (a <= b).
  { eapply (sorted_get t _ _ a b); [apply T| |exact Ha|exact Hb]. apply clip3_mono; lia. }
  nia.
Qed.

Lemma qp_scale_sorted : sorted_b QP_SCALE_CR = true. Proof. reflexivity. Qed.
Lemma scale_cr_range : forall i v, get QP_SCALE_CR i = Some v -> 0 <= v <= 51.
Proof.
  intros i v H. pose proof (get_some_lt _ _ _ _ H) as L. change (Z.of_nat (length QP_SCALE_CR)) with 64 in L. split.
  - apply (sorted_get QP_SCALE_CR 0 i 0 v qp_scale_sorted); [lia|reflexivity|exact H].
  - apply (sorted_get QP_SCALE_CR i 63 v 51 qp_scale_sorted); [lia|exact H|reflexivity].
Qed.

Lemma chroma8_range : forall qp delta, -128 <= qp <= 127 -> -1073741824 <= delta <= 1073741824 ->
  exists v, chroma_qp8 qp delta = Done v /\ 0 <= v <= 51.
Proof.
  intros qp delta Hq Hd. unfold chroma_qp8. rewrite int32_ok by (unfold in_i32; lia). cbn [bindo]. unfold lut.
  pose proof (clip3_range 0 63 (qp + delta) ltac:(lia)) as R.
  destruct (get_in _ QP_SCALE_CR (clip3 0 63 (qp + delta))) as [v Hv]; [change (Z.of_nat (length QP_SCALE_CR)) with 64; lia|].
  rewrite Hv. exists v. split; [reflexivity|]. eapply scale_cr_range. exact Hv.
Qed.

Lemma chroma_hbd_range : forall depth qp delta, depth_ok depth -> -128 <= qp <= 127 ->
  -1073741824 <= delta <= 1073741824 -> qp + delta <= 63 + 8 * (depth - 8) ->
  exists v, chroma_qp_hbd depth qp delta = Done v /\ 0 <= v <= 51 + 8 * (depth - 8).
Proof.
  intros depth qp delta Hd Hq Hdl Hs. unfold chroma_qp_hbd.
  assert (E: Z.shiftl (depth - 8) 3 = 8 * (depth - 8)).
  { rewrite Z.shiftl_mul_pow2 by lia. change (2 ^ 3) with 8. lia. }
  rewrite E, int32_ok by (unfold in_i32, depth_ok in *; lia). cbn [bindo].
  assert (Hd': 0 <= depth - 8 <= 4) by (unfold depth_ok in Hd; lia). clear E Hd.
  destruct (qp + delta - 8 * (depth - 8) <? 0) eqn:N.
  - cbn [bindo]. eexists. split; [reflexivity|]. unfold clip3.
    destruct (qp + delta - 8 * (depth - 8) + 8 * (depth - 8) <? 0) eqn:?; [lia|].
    destruct (63 + _ <? _) eqn:?; lia.
  - unfold lut. destruct (get_in _ QP_SCALE_CR (qp + delta - 8 * (depth - 8))) as [v Hv].
    { change (Z.of_nat (length QP_SCALE_CR)) with 64. lia. }
    rewrite Hv. cbn [bindo]. apply scale_cr_range in Hv. eexists. split; [reflexivity|].
    unfold clip3. destruct (v + 8 * (depth - 8) <? 0) eqn:?; [lia|]. destruct (63 + _ <? _) eqn:?; lia.
Qed.

Lemma chroma_threshold : forall (hbd : bool) t depth qp delta off, (t = ALPHA_TABLE \/ t = BETA_TABLE) ->
  depth_ok depth -> (hbd = false -> depth = 8) ->
  -128 <= qp <= 127 -> -1073741824 <= delta <= 1073741824 -> -1073741824 <= off <= 1073741824 ->
  (hbd = true -> qp + delta <= 63 + 8 * (depth - 8)) ->
  exists v, lf_threshold_c hbd t depth qp delta off = Done v /\ 0 <= v <= 64 * 2 ^ (depth - 8).
Proof.
  intros hbd t depth qp delta off Ht Hd Hb Hq Hdl Ho Hs. unfold lf_threshold_c, chroma_qp.
  assert (C: exists qc, (if hbd then chroma_qp_hbd depth qp delta else chroma_qp8 qp delta) = Done qc /\ 0 <= qc <= 1000).
  { destruct hbd.
    - destruct (chroma_hbd_range depth qp delta Hd Hq Hdl (Hs eq_refl)) as (v & E & R). exists v.
      split; [exact E|]. unfold depth_ok in Hd. lia.
    - destruct (chroma8_range qp delta Hq Hdl) as (v & E & R). exists v. split; [exact E|]. lia. }
  destruct C as (qc & E & R). rewrite E. cbn [bindo].
  destruct (threshold_range t depth qc off Ht Hd ltac:(lia) Ho) as (v & Ev & Rv & _). exists v. auto.
Qed.

(** *** Dequantisation. *)
Definition qp_row_ok (i : nat) : bool :=
  match nth_error IQ_SHIFT i, nth_error IQ_TAB i with
  | Some s, Some c => (6 <=? s) && (s <=? 15) && (32768 <=? c) && (c <=? 65535)
                      && ((c <=? 60424) || (s <=? 14))
  | _, _ => false
  end.
Lemma qp_rows : forallb qp_row_ok (seq 0 80) = true. Proof. reflexivity. Qed.

Lemma quant_params_ok : forall depth qp bits, 0 <= qp <= 79 ->
  exists s c, quant_params depth qp bits = Done (s + (depth + 1) + bits - 16, c) /\
    6 <= s <= 15 /\ 32768 <= c <= 65535 /\ (c <= 60424 \/ s <= 14).
Proof.
  intros depth qp bits Hq. pose proof qp_rows as R. rewrite forallb_forall in R.
  specialize (R (Z.to_nat qp) ltac:(apply in_seq; lia)). unfold qp_row_ok in R.
  destruct (nth_error IQ_SHIFT (Z.to_nat qp)) as [s|] eqn:E1; [|discriminate].
  destruct (nth_error IQ_TAB (Z.to_nat qp)) as [c|] eqn:E2; [|discriminate].
  exists s, c. unfold quant_params, lut, get. replace (qp <? 0) with false by lia. rewrite E1, E2.
  split; [reflexivity|]. clear - R. rewrite !andb_true_iff, orb_true_iff in R. lia.
Qed.

Lemma dequant1_ok : forall scale shift c, 1 <= shift <= 18 -> 32768 <= scale <= 65535 ->
  (scale <= 60424 \/ shift <= 17) -> in_i16 c ->
  dequant1 scale shift c = Done (clip3 (-32768) 32767 ((c * scale + 2 ^ (shift - 1)) / 2 ^ shift)).
Proof.
  intros scale shift c Hs Hc Hsc Hi. unfold dequant1, in_i16 in *.
  replace ((shift <? 1) || (31 <? shift)) with false by lia.
  rewrite Z.shiftl_mul_pow2, Z.mul_1_l by lia.
  assert (B: 1 <= 2 ^ (shift - 1) <= 131072).
  { change 1 with (2 ^ 0) at 1. change 131072 with (2 ^ 17). split; apply Z.pow_le_mono_r; lia. }
  assert (B2: shift <= 17 -> 2 ^ (shift - 1) <= 65536).
  { intros. change 65536 with (2 ^ 16). apply Z.pow_le_mono_r; lia. }
  rewrite int32_ok by (unfold in_i32; nia). cbn [bindo].
  assert (P: -2147450880 <= c * scale <= 32767 * scale) by nia.
  rewrite int32_ok. 2:{ unfold in_i32. destruct Hsc; [nia|]. specialize (B2 H). lia. }
  cbn [bindo]. rewrite Z.shiftr_div_pow2 by lia. reflexivity.
Qed.

Lemma dequant_spec : forall depth qp bits c,
  depth_ok depth -> 0 <= qp <= 79 -> 2 <= bits <= 6 -> in_i16 c ->
  exists shift scale r, quant_params depth qp bits = Done (shift, scale) /\ dequant1 scale shift c = Done r /\
    in_i16 r /\ (c = 0 -> r = 0) /\ (0 <= c -> 0 <= r) /\ (c <= 0 -> r <= 0) /\
    exists v, rounds (c * scale) (2 ^ shift) v /\ sat16 v r.
Proof.
  intros depth qp bits c Hd Hq Hb Hc. destruct (quant_params_ok depth qp bits Hq) as (s & k & E & Hs & Hk & Hsk).
  assert (Hd': depth = 8 \/ depth = 10 \/ depth = 12) by exact Hd.
  set (sh := s + (depth + 1) + bits - 16) in *.
  assert (Hsh: 1 <= sh <= 18) by (unfold sh; lia).
  assert (Hsc: k <= 60424 \/ sh <= 17) by (unfold sh; lia).
  exists sh, k. rewrite (dequant1_ok k sh c Hsh Hk Hsc Hc).
  eexists. split; [exact E|]. split; [reflexivity|].
  assert (P: 2 ^ sh = 2 * 2 ^ (sh - 1)).
  { replace sh with (1 + (sh - 1)) at 1 by lia. rewrite Z.pow_add_r by lia. reflexivity. }
  assert (Q: 0 < 2 ^ (sh - 1)) by (apply Z.pow_pos_nonneg; lia).
  set (h := 2 ^ (sh - 1)) in *. set (v := (c * k + h) / 2 ^ sh) in *.
  assert (V: 2 ^ sh * v <= c * k + h < 2 ^ sh * v + 2 ^ sh).
  { unfold v. pose proof (Z.div_mod (c * k + h) (2 ^ sh) ltac:(lia)).
    pose proof (Z.mod_pos_bound (c * k + h) (2 ^ sh) ltac:(lia)). lia. }
  rewrite P in V.
  assert (V1: 0 <= c -> 0 <= v) by (intros; unfold v; apply Z.div_pos; nia).
  assert (V2: c <= 0 -> v <= 0).
  { intros. destruct (Z_le_gt_dec v 0); [lia|]. exfalso. nia. }
  split; [unfold in_i16; apply clip3_range; lia|].
  split. { intros Z0. assert (v = 0) by lia. replace v with 0 by lia. reflexivity. }
  split. { intros. unfold clip3. destruct (v <? -32768) eqn:?, (32767 <? v) eqn:?; lia. }
  split. { intros. unfold clip3. destruct (v <? -32768) eqn:?, (32767 <? v) eqn:?; lia. }
  exists v. split.
  - unfold rounds. rewrite P. nia.
  - unfold sat16, clip3. destruct (v <? -32768) eqn:?, (32767 <? v) eqn:?; lia.
Qed.

Lemma dequant_mono : forall depth qp bits shift scale c c' r r',
  depth_ok depth -> 0 <= qp <= 79 -> 2 <= bits <= 6 -> in_i16 c -> in_i16 c' -> c <= c' ->
  quant_params depth qp bits = Done (shift, scale) ->
  dequant1 scale shift c = Done r -> dequant1 scale shift c' = Done r' -> r <= r'.
Proof.
  intros depth qp bits shift scale c c' r r' Hd Hq Hb Hc Hc' Hle E E1 E2.
  destruct (quant_params_ok depth qp bits Hq) as (s & k & E' & Hs & Hk & Hsk).
  rewrite E' in E. apply Done_inj, pair_equal_spec in E. destruct E as [<- <-].
  assert (Hd': depth = 8 \/ depth = 10 \/ depth = 12) by exact Hd.
  set (sh := s + (depth + 1) + bits - 16) in *.
  rewrite dequant1_ok in E1 by (unfold sh; auto; lia). rewrite dequant1_ok in E2 by (unfold sh; auto; lia).
  apply Done_inj in E1. apply Done_inj in E2. subst r r'. apply clip3_mono; [lia|].
  apply Z.div_le_mono; [apply Z.pow_pos_nonneg; unfold sh; lia|]. nia.
Qed.

Lemma dequant_block : forall depth qp bits l,
  depth_ok depth -> 0 <= qp <= 79 -> 2 <= bits <= 6 -> Forall in_i16 l ->
  exists shift scale r, quant_params depth qp bits = Done (shift, scale) /\ dequant_c scale shift l = Done r /\
    Forall2 (fun c d => dequant1 scale shift c = Done d) l r.
Proof.
  intros depth qp bits l Hd Hq Hb Hl.
  destruct (dequant_spec depth qp bits 0 Hd Hq Hb ltac:(unfold in_i16; lia)) as (shift & scale & r0 & E & _).
  exists shift, scale. induction l as [|c l IH].
  - exists []. split; [exact E|]. split; [reflexivity|constructor].
  - inversion Hl as [|? ? Hc Hl']; subst. destruct (IH Hl') as (r & _ & E2 & F).
    destruct (dequant_spec depth qp bits c Hd Hq Hb Hc) as (sh' & sc' & d & E' & D & _ & Z0 & _).
    rewrite E in E'. apply Done_inj, pair_equal_spec in E'. destruct E' as [<- <-].
    exists (d :: r). split; [exact E|]. split; [|constructor; assumption].
    cbn [dequant_c]. destruct (c =? 0) eqn:C0.
    + cbn [bindo]. rewrite E2. cbn [bindo]. replace d with c; [reflexivity|].
      assert (c = 0) by lia. rewrite (Z0 H). exact H.
    + rewrite D. cbn [bindo]. rewrite E2. reflexivity.
Qed.

(** *** QP accumulation. *)
Lemma to_i8_id : forall z, -128 <= z <= 127 -> to_i8 z = z.
Proof. intros. unfold to_i8. rewrite Z.mod_small; lia. Qed.

Lemma row_qps_ok : forall depth ds q, depth_ok depth ->
  Forall (fun d => - (32 + 4 * (depth - 8)) <= d <= 32 + 4 * (depth - 8)) ds ->
  0 <= q <= 79 -> Forall (fun s => 0 <= s <= 79) (sums q ds) ->
  row_qps depth q (map (fun d => (true, d)) ds) = sums q ds.
Proof.
  intros depth ds. induction ds as [|d ds IH]; intros q Hd Hf Hq Hs; [reflexivity|].
  inversion Hf; subst. cbn [sums] in *. inversion Hs; subst. cbn [map row_qps].
  assert (E: cu_qp depth q true d = q + d).
  { unfold depth_ok in Hd. unfold cu_qp. rewrite (to_i8_id d) by lia.
    cbv zeta. set (m := 32 + 4 * (depth - 8)) in *.
    replace (clip3 (- m) m d) with d by (unfold clip3; destruct (d <? - m) eqn:?, (m <? d) eqn:?; lia).
    rewrite !to_i8_id by (rewrite ?to_i8_id; lia). lia. }
  rewrite E. f_equal. apply IH; assumption.
Qed.

Lemma qp_tables_ok : forall depth qp bits, 0 <= qp <= 79 -> exists p, quant_params depth qp bits = Done p.
Proof. intros depth qp bits H. destruct (quant_params_ok depth qp bits H) as (s & c & E & _). eauto. Qed.
