(** Deblocking kernels: horizontal edges. *)
From Coq Require Import ZArith List Bool Lia.
From Verif Require Import CBase MemModel VxModelBase VdModel LfModel LfSpec LfProofs VxProofs VdProofs VdProofsB VdSpec VdProofsC VdProofsD.
Import ListNotations.
Open Scope Z_scope.

Lemma lane_widen r i : 0 <= i < 8 -> byte (r i) -> lane (unpacklo_epi8 r (c_ 0)) i (r i).
Proof. intros Hi HB. apply lane_byte; [exact HB|apply unlo_even, Hi|]. rewrite unlo_odd by exact Hi. apply c0_zero. Qed.
Lemma lane_load m p q i : 0 <= i < 8 -> (forall q, 0 <= m q <= 255) -> q = p + i -> lane (unpacklo_epi8 (loadl m p) (c_ 0)) i (m q).
Proof.
  intros Hi Hm ->. assert (loadl m p i = m (p + i)) as E by (unfold loadl; destruct (Z.ltb_spec i 8); [reflexivity|lia]).
  rewrite <- E. apply lane_widen; [exact Hi|]. rewrite E. apply Hm.
Qed.
Lemma lane_unique r i v w : lane r i v -> lane r i w -> v = w.
Proof. intros A B. rewrite <- (lane_i16 _ _ _ A). apply lane_i16, B. Qed.
Lemma set1_lane16 v i : 0 <= v <= 32767 -> lane (set1_epi16 (to_i16 v)) i v.
Proof. intros H. rewrite to_i16_id by lia. apply lane_c. lia. Qed.
Lemma pack_at r z k v : 0 <= k < 8 -> lane r k v -> 0 <= v <= 255 -> packus_epi16 r z k = v.
Proof. intros Hk A H. rewrite packus_lo by exact Hk. apply lane_pack; assumption. Qed.

(** From rows to samples: rows [st] apart, the first three above the edge. *)
Lemma rows_filtered_hor c st alpha beta f0 f1 src m m' : 8 <= st ->
  (forall k j, 0 <= k < lines c -> -3 <= j <= 2 -> m' (src + j * st + k) = filtered c alpha beta (line_flag c f0 f1 k) (fun i => m (src + i * st + k)) j) ->
  (forall q, (forall j, -3 <= j <= 2 -> q < src + j * st \/ src + j * st + lines c <= q) -> m' q = m q) ->
  edge_filtered c 1 st alpha beta f0 f1 src m m'.
Proof.
  intros Hs A B. split.
  - intros k j Hk Hj. replace (src + k * 1 + j * st) with (src + j * st + k) by lia. rewrite A by assumption.
    apply filtered_ext; [exact Hj|]. intros i Hi. f_equal. lia.
  - intros q H. apply B. intros j Hj. destruct (Z_lt_dec q (src + j * st)) as [|L]; [left; assumption|].
    destruct (Z_le_dec (src + j * st + lines c) q) as [|G]; [right; assumption|]. exfalso. apply (H (q - src - j * st) j); lia.
Qed.

Section Hor.
  Local Opaque weak strong strength_luma strength_chroma store_n loadl set_epi32 set1_epi16 cmpeq_epi16 testz c_ packus_epi16 unpacklo_epi8.
  Lemma hor_luma stride alpha beta f0 f1 src m : 8 <= stride -> 0 <= alpha <= 255 -> 0 <= beta <= 255 -> (forall q, 0 <= m q <= 255) ->
    edge_filtered false 1 stride alpha beta f0 f1 src m (edge_hor_sse stride alpha beta f0 f1 src m).
  Proof.
    intros Hst Ha Hb Hm. unfold edge_hor_sse. cbv zeta. rewrite shl1.
    set (s := fun k j => m (src + j * stride + k)).
    assert (forall k j, 0 <= s k j <= 255) as Hs by (intros; apply Hm).
    set (fl := fun k => filtered false alpha beta (line_flag false f0 f1 k) (s k)).
    assert (forall k j, -3 <= j <= 2 -> 0 <= fl k j <= 255) as Hf by (intros k j Hj; apply filtered_range; [exact Hj|]; intros; apply Hs).
    remember (unpacklo_epi8 (loadl m (src - (stride + 2 * stride))) (c_ 0)) as TL2 eqn:E2.
    remember (unpacklo_epi8 (loadl m (src - 2 * stride)) (c_ 0)) as TL1 eqn:E1.
    remember (unpacklo_epi8 (loadl m (src - stride)) (c_ 0)) as TL0 eqn:E0.
    remember (unpacklo_epi8 (loadl m (src + 0)) (c_ 0)) as TR0 eqn:F0.
    remember (unpacklo_epi8 (loadl m (src + stride)) (c_ 0)) as TR1 eqn:F1.
    remember (unpacklo_epi8 (loadl m (src + 2 * stride)) (c_ 0)) as TR2 eqn:F2.
    assert (forall k, 0 <= k < 8 -> facts (set1_epi16 (to_i16 alpha)) (set1_epi16 (to_i16 beta)) (set_epi32 (flag_mask f1) (flag_mask f1) (flag_mask f0) (flag_mask f0))
       TL2 TL1 TL0 TR0 TR1 TR2 k alpha beta (line_flag false f0 f1 k) (s k)) as FA.
    { intros k Hk. unfold facts, s. subst TL2 TL1 TL0 TR0 TR1 TR2.
      split; [apply set1_lane16; lia|]. split; [apply set1_lane16; lia|].
      split. { unfold line_flag, lines. replace (2 * k <? 8) with (k <? 4) by (destruct (Z.ltb_spec k 4), (Z.ltb_spec (2 * k) 8); lia). apply flags_luma, Hk. }
      split; [apply lane_load; auto; lia|]. split; [apply lane_load; auto; lia|]. split; [apply lane_load; auto; lia|].
      split; [apply lane_load; auto; lia|]. split; [apply lane_load; auto; lia|]. split; [apply lane_load; auto; lia|]. intros; apply Hm. }
    clear E2 E1 E0 F0 F1 F2.
    pose proof (fun k Hk => luma_result subs_epi16 lane_subs _ _ _ TL2 TL1 TL0 TR0 TR1 TR2 k alpha beta (line_flag false f0 f1 k) (s k) Hk (FA k Hk)) as L.
    unfold luma_regs in L. cbv zeta in L.
    remember (strength_luma subs_epi16 (set1_epi16 (to_i16 alpha)) (set1_epi16 (to_i16 beta)) (set_epi32 (flag_mask f1) (flag_mask f1) (flag_mask f0) (flag_mask f0)) TL2 TL1 TL0 TR0 TR1 TR2) as FS.
    destruct (weak FS TL2 TL1 TL0 TR0 TR1 TR2) as [[[L1 L0] R0] R1].
    destruct (testz (cmpeq_epi16 FS (c_ 4)) (c_ (-1))); cbn [negb] in *.
    - apply rows_filtered_hor; [exact Hst| |].
      + intros k j Hk Hj. cbn [lines] in Hk. fold (s k). fold (fl k). specialize (L k Hk). fold (fl k) in L. destruct L as (Y2 & Y1 & Y0 & W0 & W1 & W2). specialize (FA k Hk).
        destruct FA as (_ & _ & _ & X2 & _ & _ & _ & _ & X3 & _). pose proof (lane_unique _ _ _ _ X2 Y2) as U2. pose proof (lane_unique _ _ _ _ X3 W2) as U3.
        pose proof (Hf k) as R. unfold store8. apply six in Hj.
        destruct Hj as [-> | [-> | [-> | [-> | [-> | ->]]]]].
        * rewrite !store_out by (clear - Hk Hst; lia). exact U2.
        * repeat rewrite store_out by (clear - Hk Hst; lia). rewrite (store_in _ _ _ _ k) by (clear - Hk Hst; lia). apply pack_at; auto; apply R; lia.
        * repeat rewrite store_out by (clear - Hk Hst; lia). rewrite (store_in _ _ _ _ k) by (clear - Hk Hst; lia). apply pack_at; auto; apply R; lia.
        * repeat rewrite store_out by (clear - Hk Hst; lia). rewrite (store_in _ _ _ _ k) by (clear - Hk Hst; lia). apply pack_at; auto; apply R; lia.
        * repeat rewrite store_out by (clear - Hk Hst; lia). rewrite (store_in _ _ _ _ k) by (clear - Hk Hst; lia). apply pack_at; auto; apply R; lia.
        * rewrite !store_out by (clear - Hk Hst; lia). exact U3.
      + intros q H. cbn [lines] in H. unfold store8. pose proof (H (-2) ltac:(lia)). pose proof (H (-1) ltac:(lia)). pose proof (H 0 ltac:(lia)). pose proof (H 1 ltac:(lia)).
        clear - H0 H1 H2 H3. rewrite !store_out by lia. reflexivity.
    - destruct (strong (cmpeq_epi16 FS (c_ 4)) TL2 TL0 TR0 TR2 L1 L0 R0 R1) as [[[[[L2' L1'] L0'] R0'] R1'] R2'].
      apply rows_filtered_hor; [exact Hst| |].
      + intros k j Hk Hj. cbn [lines] in Hk. fold (s k). fold (fl k). specialize (L k Hk). fold (fl k) in L. destruct L as (Y2 & Y1 & Y0 & W0 & W1 & W2).
        pose proof (Hf k) as R. unfold store8. apply six in Hj.
        destruct Hj as [-> | [-> | [-> | [-> | [-> | ->]]]]];
          (repeat rewrite store_out by (clear - Hk Hst; lia); rewrite (store_in _ _ _ _ k) by (clear - Hk Hst; lia); apply pack_at; auto; apply R; lia).
      + intros q H. cbn [lines] in H. unfold store8. pose proof (H (-2) ltac:(lia)). pose proof (H (-1) ltac:(lia)). pose proof (H 0 ltac:(lia)). pose proof (H 1 ltac:(lia)).
        pose proof (H (-3) ltac:(lia)). pose proof (H 2 ltac:(lia)).
        clear - H0 H1 H2 H3 H4 H5. rewrite !store_out by lia. reflexivity.
  Qed.
End Hor.

(** Four samples of each plane in one register. *)
Lemma u8_i32 v j : 0 <= j < 4 -> to_u8 (to_i32 v / 256 ^ j) = to_u8 (v / 256 ^ j).
Proof.
  intros Hj. unfold to_i32, to_u8.
  assert (exists t, (v + 2147483648) mod 4294967296 - 2147483648 = v + t * 4294967296) as [t ->].
  { exists (- ((v + 2147483648) / 4294967296)). pose proof (Z_div_mod_eq_full (v + 2147483648) 4294967296). lia. }
  four_cases Hj.
  - change (256 ^ 0) with 1. rewrite !Z.div_1_r. replace (t * 4294967296) with (t * 16777216 * 256) by lia. apply Z_mod_plus_full.
  - change (256 ^ 1) with 256. replace (t * 4294967296) with (t * 16777216 * 256) by lia. rewrite Z.div_add by lia.
    replace (t * 16777216) with (t * 65536 * 256) by lia. apply Z_mod_plus_full.
  - change (256 ^ 2) with 65536. replace (t * 4294967296) with (t * 65536 * 65536) by lia. rewrite Z.div_add by lia.
    replace (t * 65536) with (t * 256 * 256) by lia. apply Z_mod_plus_full.
  - change (256 ^ 3) with 16777216. replace (t * 4294967296) with (t * 256 * 16777216) by lia. rewrite Z.div_add by lia. apply Z_mod_plus_full.
Qed.
Lemma load_i32_byte m p j : (forall q, 0 <= m q <= 255) -> 0 <= j < 4 -> to_u8 (load_i32 m p / 256 ^ j) = m (p + j).
Proof.
  intros Hm Hj. unfold load_i32. rewrite u8_i32 by exact Hj.
  pose proof (Hm p). pose proof (Hm (p + 1)). pose proof (Hm (p + 2)). pose proof (Hm (p + 3)). unfold to_u8. symmetry.
  four_cases Hj.
  - change (256 ^ 0) with 1. rewrite Z.div_1_r, Z.add_0_r.
    apply Z.mod_unique with (m (p + 1) + 256 * m (p + 2) + 65536 * m (p + 3)); lia.
  - change (256 ^ 1) with 256. replace ((m p + 256 * m (p + 1) + 65536 * m (p + 2) + 16777216 * m (p + 3)) / 256) with (m (p + 1) + 256 * m (p + 2) + 65536 * m (p + 3)).
    + apply Z.mod_unique with (m (p + 2) + 256 * m (p + 3)); lia.
    + apply Z.div_unique with (m p); lia.
  - change (256 ^ 2) with 65536. replace ((m p + 256 * m (p + 1) + 65536 * m (p + 2) + 16777216 * m (p + 3)) / 65536) with (m (p + 2) + 256 * m (p + 3)).
    + apply Z.mod_unique with (m (p + 3)); lia.
    + apply Z.div_unique with (m p + 256 * m (p + 1)); lia.
  - change (256 ^ 3) with 16777216. replace ((m p + 256 * m (p + 1) + 65536 * m (p + 2) + 16777216 * m (p + 3)) / 16777216) with (m (p + 3)).
    + symmetry. apply Z.mod_small. lia.
    + apply Z.div_unique with (m p + 256 * m (p + 1) + 65536 * m (p + 2)); lia.
Qed.
Lemma set_both mu mv pu pv k : (forall q, 0 <= mu q <= 255) -> (forall q, 0 <= mv q <= 255) -> 0 <= k < 8 ->
  set_epi32 0 0 (load_i32 mv pv) (load_i32 mu pu) k = if k <? 4 then mu (pu + k) else mv (pv + (k - 4)).
Proof.
  intros Hu Hv Hk. unfold set_epi32. destruct (Z.ltb_spec k 4).
  - replace k with (4 * 0 + k) at 1 by lia. rewrite mk32_at by lia. cbn [Z.eqb]. apply load_i32_byte; [exact Hu|lia].
  - replace k with (4 * 1 + (k - 4)) at 1 by lia. rewrite mk32_at by lia. cbn [Z.eqb Pos.eqb]. apply load_i32_byte; [exact Hv|lia].
Qed.
Lemma lane_both mu mv pu pv k v : (forall q, 0 <= mu q <= 255) -> (forall q, 0 <= mv q <= 255) -> 0 <= k < 8 ->
  v = (if k <? 4 then mu (pu + k) else mv (pv + (k - 4))) -> lane (unpacklo_epi8 (set_epi32 0 0 (load_i32 mv pv) (load_i32 mu pu)) (c_ 0)) k v.
Proof.
  intros Hu Hv Hk ->. rewrite <- (set_both mu mv pu pv k) by assumption. apply lane_widen; [exact Hk|].
  rewrite set_both by assumption. destruct (k <? 4); [apply Hu|apply Hv].
Qed.
Lemma srl4 r k : 0 <= k < 4 -> srli_si128 r 4 k = r (k + 4).
Proof. intros H. unfold srli_si128. destruct (Z.ltb_spec (k + 4) 16); [reflexivity|lia]. Qed.

Section HorC.
  Local Opaque weak strong strength_luma strength_chroma store_n loadl set_epi32 set1_epi16 cmpeq_epi16 testz c_ packus_epi16 unpacklo_epi8 srli_si128.
  Lemma hor_chroma stride alpha beta f0 f1 srcu srcv mu mv : 8 <= stride -> 0 <= alpha <= 255 -> 0 <= beta <= 255 ->
    (forall q, 0 <= mu q <= 255) -> (forall q, 0 <= mv q <= 255) ->
    let r := edge_hor_c_sse stride alpha beta f0 f1 srcu srcv mu mv in
    edge_filtered true 1 stride alpha beta f0 f1 srcu mu (fst r) /\ edge_filtered true 1 stride alpha beta f0 f1 srcv mv (snd r).
  Proof.
    intros Hst Ha Hb Hu Hv. unfold edge_hor_c_sse. cbv zeta. rewrite shl1.
    set (s := fun k j => if k <? 4 then mu (srcu + j * stride + k) else mv (srcv + j * stride + (k - 4))).
    assert (forall k j, 0 <= s k j <= 255) as Hs by (intros k j; unfold s; destruct (k <? 4); auto).
    set (fl := fun k => filtered true alpha beta (line_flag true f0 f1 (k mod 4)) (s k)).
    assert (forall k j, -3 <= j <= 2 -> 0 <= fl k j <= 255) as Hf by (intros k j Hj; apply filtered_range; [exact Hj|]; intros; apply Hs).
    remember (unpacklo_epi8 (set_epi32 0 0 (load_i32 mv (srcv + - (stride + 2 * stride))) (load_i32 mu (srcu + - (stride + 2 * stride)))) (c_ 0)) as TL2 eqn:E2.
    remember (unpacklo_epi8 (set_epi32 0 0 (load_i32 mv (srcv + - (2 * stride))) (load_i32 mu (srcu + - (2 * stride)))) (c_ 0)) as TL1 eqn:E1.
    remember (unpacklo_epi8 (set_epi32 0 0 (load_i32 mv (srcv + - stride)) (load_i32 mu (srcu + - stride))) (c_ 0)) as TL0 eqn:E0.
    remember (unpacklo_epi8 (set_epi32 0 0 (load_i32 mv (srcv + 0)) (load_i32 mu (srcu + 0))) (c_ 0)) as TR0 eqn:F0.
    remember (unpacklo_epi8 (set_epi32 0 0 (load_i32 mv (srcv + stride)) (load_i32 mu (srcu + stride))) (c_ 0)) as TR1 eqn:F1.
    remember (unpacklo_epi8 (set_epi32 0 0 (load_i32 mv (srcv + 2 * stride)) (load_i32 mu (srcu + 2 * stride))) (c_ 0)) as TR2 eqn:F2.
    assert (forall k, 0 <= k < 8 -> facts (set1_epi16 (to_u8 alpha)) (set1_epi16 (to_u8 beta)) (set_epi32 (flag_mask f1) (flag_mask f0) (flag_mask f1) (flag_mask f0))
       TL2 TL1 TL0 TR0 TR1 TR2 k alpha beta (line_flag true f0 f1 (k mod 4)) (s k)) as FA.
    { intros k Hk. unfold facts, s. subst TL2 TL1 TL0 TR0 TR1 TR2.
      split; [apply set1_lane; lia|]. split; [apply set1_lane; lia|]. split; [apply chroma_flag, Hk|].
      split; [apply lane_both; auto; destruct (k <? 4); f_equal; lia|]. split; [apply lane_both; auto; destruct (k <? 4); f_equal; lia|].
      split; [apply lane_both; auto; destruct (k <? 4); f_equal; lia|]. split; [apply lane_both; auto; destruct (k <? 4); f_equal; lia|].
      split; [apply lane_both; auto; destruct (k <? 4); f_equal; lia|]. split; [apply lane_both; auto; destruct (k <? 4); f_equal; lia|].
      intros j _. apply (Hs k j). }
    clear E2 E1 E0 F0 F1 F2.
    pose proof (fun k Hk => chroma_result subs_epi16 lane_subs _ _ _ TL2 TL1 TL0 TR0 TR1 TR2 k alpha beta (line_flag true f0 f1 (k mod 4)) (s k) (FA k Hk)) as L.
    destruct (weak _ TL2 TL1 TL0 TR0 TR1 TR2) as [[[L1 L0] R0] R1]. cbn [fst snd].
    split.
    - apply rows_filtered_hor; [exact Hst| |].
      + intros k j Hk Hj. cbn [lines] in Hk. specialize (L k ltac:(lia)). fold (fl k) in L. destruct L as (Y1 & Y0 & W0 & W1).
        assert (filtered true alpha beta (line_flag true f0 f1 k) (fun i => mu (srcu + i * stride + k)) j = fl k j) as ->.
        { unfold fl, s. rewrite Z.mod_small by lia. destruct (Z.ltb_spec k 4); [reflexivity|lia]. }
        destruct (chroma_ends alpha beta (line_flag true f0 f1 (k mod 4)) (s k)) as [U2 U3]. fold (fl k) in U2, U3.
        pose proof (Hf k) as R. unfold store4. apply six in Hj.
        assert (forall i, s k i = mu (srcu + i * stride + k)) as Ek by (intros i; unfold s; destruct (Z.ltb_spec k 4); [reflexivity|lia]).
        destruct Hj as [-> | [-> | [-> | [-> | [-> | ->]]]]].
        * rewrite !store_out by (clear - Hk Hst; lia). rewrite U2. symmetry. apply Ek.
        * repeat rewrite store_out by (clear - Hk Hst; lia). rewrite (store_in _ _ _ _ k) by (clear - Hk Hst; lia). apply pack_at; auto; [lia|apply R; lia].
        * repeat rewrite store_out by (clear - Hk Hst; lia). rewrite (store_in _ _ _ _ k) by (clear - Hk Hst; lia). apply pack_at; auto; [lia|apply R; lia].
        * repeat rewrite store_out by (clear - Hk Hst; lia). rewrite (store_in _ _ _ _ k) by (clear - Hk Hst; lia). apply pack_at; auto; [lia|apply R; lia].
        * repeat rewrite store_out by (clear - Hk Hst; lia). rewrite (store_in _ _ _ _ k) by (clear - Hk Hst; lia). apply pack_at; auto; [lia|apply R; lia].
        * rewrite !store_out by (clear - Hk Hst; lia). rewrite U3. symmetry. apply Ek.
      + intros q H. cbn [lines] in H. unfold store4. pose proof (H (-2) ltac:(lia)). pose proof (H (-1) ltac:(lia)). pose proof (H 0 ltac:(lia)). pose proof (H 1 ltac:(lia)).
        clear - H0 H1 H2 H3. rewrite !store_out by lia. reflexivity.
    - apply rows_filtered_hor; [exact Hst| |].
      + intros k j Hk Hj. cbn [lines] in Hk. specialize (L (k + 4) ltac:(lia)). fold (fl (k + 4)) in L. destruct L as (Y1 & Y0 & W0 & W1).
        assert (forall i, s (k + 4) i = mv (srcv + i * stride + k)) as Ek.
        { intros i; unfold s; destruct (Z.ltb_spec (k + 4) 4); [lia|]. f_equal. lia. }
        assert (filtered true alpha beta (line_flag true f0 f1 k) (fun i => mv (srcv + i * stride + k)) j = fl (k + 4) j) as ->.
        { unfold fl. replace ((k + 4) mod 4) with k by (apply Z.mod_unique with 1; lia). apply filtered_ext; [exact Hj|]. intros i _. symmetry. apply Ek. }
        destruct (chroma_ends alpha beta (line_flag true f0 f1 ((k + 4) mod 4)) (s (k + 4))) as [U2 U3]. fold (fl (k + 4)) in U2, U3.
        pose proof (Hf (k + 4)) as R. unfold store4. apply six in Hj.
        destruct Hj as [-> | [-> | [-> | [-> | [-> | ->]]]]].
        * rewrite !store_out by (clear - Hk Hst; lia). rewrite U2. symmetry. apply Ek.
        * repeat rewrite store_out by (clear - Hk Hst; lia). rewrite (store_in _ _ _ _ k) by (clear - Hk Hst; lia). rewrite srl4 by exact Hk. apply pack_at; auto; [lia|apply R; lia].
        * repeat rewrite store_out by (clear - Hk Hst; lia). rewrite (store_in _ _ _ _ k) by (clear - Hk Hst; lia). rewrite srl4 by exact Hk. apply pack_at; auto; [lia|apply R; lia].
        * repeat rewrite store_out by (clear - Hk Hst; lia). rewrite (store_in _ _ _ _ k) by (clear - Hk Hst; lia). rewrite srl4 by exact Hk. apply pack_at; auto; [lia|apply R; lia].
        * repeat rewrite store_out by (clear - Hk Hst; lia). rewrite (store_in _ _ _ _ k) by (clear - Hk Hst; lia). rewrite srl4 by exact Hk. apply pack_at; auto; [lia|apply R; lia].
        * rewrite !store_out by (clear - Hk Hst; lia). rewrite U3. symmetry. apply Ek.
      + intros q H. cbn [lines] in H. unfold store4. pose proof (H (-2) ltac:(lia)). pose proof (H (-1) ltac:(lia)). pose proof (H 0 ltac:(lia)). pose proof (H 1 ltac:(lia)).
        clear - H0 H1 H2 H3. rewrite !store_out by lia. reflexivity.
  Qed.
End HorC.
