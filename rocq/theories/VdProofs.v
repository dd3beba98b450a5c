(** Lanes of the deblocking kernels: what each 16-bit lane holds. *)
From Coq Require Import ZArith List Bool Lia.
From Verif Require Import CBase MemModel VxModelBase VdModel LfSpec LfProofs VxProofs.
Import ListNotations.
Open Scope Z_scope.

(** Word [i] of [r] is [v]; it is the mask [c]. *)
Definition lane (r : reg) (i v : Z) : Prop := r (2 * i) = to_u8 v /\ r (2 * i + 1) = to_u8 (v / 256) /\ -32768 <= v <= 32767.
Definition maskl (r : reg) (i : Z) (c : bool) : Prop := r (2 * i) = (if c then 255 else 0) /\ r (2 * i + 1) = (if c then 255 else 0).

Lemma lane_mk16 f i v : f i = v -> -32768 <= v <= 32767 -> lane (mk16 f) i v.
Proof. intros <- H. split; [apply mk16_lo|]. split; [apply mk16_hi|exact H]. Qed.
Lemma lane_u16 r i v : lane r i v -> u16_of r i = v mod 65536.
Proof. intros (A & B & C). unfold u16_of. rewrite A, B. unfold to_u8. change 65536 with (256 * 256). rewrite Z.rem_mul_r by lia. reflexivity. Qed.
Lemma lane_i16 r i v : lane r i v -> i16_of r i = v.
Proof. intros H. unfold i16_of. rewrite (lane_u16 _ _ _ H), to_i16_u16. apply to_i16_id. apply H. Qed.
Lemma lane_c v i : -32768 <= v <= 32767 -> lane (c_ v) i v.
Proof. intros H. apply lane_mk16; auto. Qed.
Lemma lane_add a b i x y : lane a i x -> lane b i y -> -32768 <= x + y <= 32767 -> lane (add_epi16 a b) i (x + y).
Proof. intros A B H. apply lane_mk16; [|exact H]. rewrite (lane_i16 _ _ _ A), (lane_i16 _ _ _ B). reflexivity. Qed.
Lemma lane_sub a b i x y : lane a i x -> lane b i y -> -32768 <= x - y <= 32767 -> lane (sub_epi16 a b) i (x - y).
Proof. intros A B H. apply lane_mk16; [|exact H]. rewrite (lane_i16 _ _ _ A), (lane_i16 _ _ _ B). reflexivity. Qed.
Lemma lane_subs a b i x y : lane a i x -> lane b i y -> -32768 <= x - y <= 32767 -> lane (subs_epi16 a b) i (x - y).
Proof. intros A B H. apply lane_mk16; [|exact H]. rewrite (lane_i16 _ _ _ A), (lane_i16 _ _ _ B). apply sat_i16_id, H. Qed.
Lemma lane_subabs a b i x y : lane a i x -> lane b i y -> -32767 <= x - y <= 32767 -> lane (subabs a b) i (Z.abs (x - y)).
Proof. intros A B H. unfold subabs. apply lane_mk16; [|lia]. rewrite (lane_i16 _ _ (x - y)); [reflexivity|]. apply lane_subs; auto. lia. Qed.
Lemma lane_sl n a i x : lane a i x -> 0 <= x -> 0 <= n -> x * 2 ^ n <= 32767 -> lane (slli_epi16 a n) i (x * 2 ^ n).
Proof.
  intros A H Hn K. apply lane_mk16. 2: assert (0 < 2 ^ n) by (apply Z.pow_pos_nonneg; lia); nia.
  rewrite (lane_u16 _ _ _ A). destruct A as (_ & _ & A). rewrite Z.mod_small by lia. apply Z.shiftl_mul_pow2. exact Hn.
Qed.
Lemma lane_sl1 a i x : lane a i x -> 0 <= x -> x * 2 <= 32767 -> lane (slli_epi16 a 1) i (x * 2).
Proof. intros. apply (lane_sl 1); auto; lia. Qed.
Lemma lane_sl2 a i x : lane a i x -> 0 <= x -> x * 4 <= 32767 -> lane (slli_epi16 a 2) i (x * 4).
Proof. intros. apply (lane_sl 2); auto; lia. Qed.
Lemma lane_sl3 a i x : lane a i x -> 0 <= x -> x * 8 <= 32767 -> lane (slli_epi16 a 3) i (x * 8).
Proof. intros. apply (lane_sl 3); auto; lia. Qed.
Lemma lane_sr n a i x : lane a i x -> 0 <= x -> 0 <= n -> lane (srli_epi16 a n) i (Z.shiftr x n).
Proof.
  intros A H Hn. pose proof A as (_ & _ & R). apply lane_mk16.
  - rewrite (lane_u16 _ _ _ A), Z.mod_small by lia. reflexivity.
  - rewrite Z.shiftr_div_pow2 by lia. assert (0 < 2 ^ n) by (apply Z.pow_pos_nonneg; lia).
    split; [assert (0 <= x / 2 ^ n) by (apply Z.div_pos; lia); lia|].
    assert (x / 2 ^ n <= x); [|lia]. apply Z.div_le_upper_bound; nia.
Qed.

Lemma mask_mk16 (f : Z -> Z) (i : Z) (c : bool) : f i = (if c then -1 else 0) -> maskl (mk16 f) i c.
Proof. intros E. split; [rewrite mk16_lo | rewrite mk16_hi]; rewrite E; destruct c; reflexivity. Qed.
Lemma mask_gt a b i x y : lane a i x -> lane b i y -> maskl (cmpgt_epi16 a b) i (y <? x).
Proof. intros A B. apply mask_mk16. rewrite (lane_i16 _ _ _ A), (lane_i16 _ _ _ B). reflexivity. Qed.
Lemma mask_eq a b i x y : lane a i x -> lane b i y -> maskl (cmpeq_epi16 a b) i (x =? y).
Proof.
  intros A B. apply mask_mk16. rewrite (lane_u16 _ _ _ A), (lane_u16 _ _ _ B). destruct A as (_ & _ & A), B as (_ & _ & B).
  destruct (Z.eqb_spec x y) as [->|N]; [rewrite Z.eqb_refl; reflexivity|].
  destruct (Z.eqb_spec (x mod 65536) (y mod 65536)) as [E|E]; [|reflexivity]. exfalso. apply N.
  rewrite <- (to_i16_id x), <- (to_i16_id y) by assumption. rewrite <- (to_i16_u16 x), <- (to_i16_u16 y), E. reflexivity.
Qed.
Lemma mask_and a b i c d : maskl a i c -> maskl b i d -> maskl (and_si a b) i (c && d).
Proof. intros [A A'] [B B']. unfold maskl, and_si. rewrite A, A', B, B'. destruct c, d; split; reflexivity. Qed.
Lemma land_255 v : Z.land 255 (to_u8 v) = to_u8 v.
Proof. unfold to_u8. change 256 with (2 ^ 8). change 255 with (Z.ones 8). rewrite Z.land_comm, Z.land_ones, Z.mod_mod; [reflexivity|lia|lia]. Qed.
Lemma lane_mask a b i c x : maskl a i c -> lane b i x -> lane (and_si a b) i (if c then x else 0).
Proof.
  intros [A A'] (B & B' & H). unfold lane, and_si. rewrite A, A', B, B'.
  destruct c; [rewrite !land_255; auto|]. repeat split; lia.
Qed.
Lemma lane_masked a b i c x : lane a i x -> maskl b i c -> lane (and_si a b) i (if c then x else 0).
Proof.
  intros A B. destruct (lane_mask b a i c x B A) as (C & D & E). unfold lane, and_si in *. rewrite Z.land_comm, C, Z.land_comm, D. auto.
Qed.
Lemma lane_blend a b m i c x y : maskl m i c -> lane a i x -> lane b i y -> lane (blendv_epi8 a b m) i (if c then y else x).
Proof. intros [A A'] B C. unfold lane, blendv_epi8. rewrite A, A'. destruct c; [exact C|exact B]. Qed.

Lemma flags_luma f0 f1 i : 0 <= i < 8 ->
  maskl (set_epi32 (flag_mask f1) (flag_mask f1) (flag_mask f0) (flag_mask f0)) i (if i <? 4 then f0 else f1).
Proof.
  intros H. assert (i = 0 \/ i = 1 \/ i = 2 \/ i = 3 \/ i = 4 \/ i = 5 \/ i = 6 \/ i = 7) as E by lia.
  destruct E as [-> | [-> | [-> | [-> | [-> | [-> | [-> | ->]]]]]]]; destruct f0, f1; split; reflexivity.
Qed.
Lemma flags_chroma f0 f1 i : 0 <= i < 8 ->
  maskl (set_epi32 (flag_mask f1) (flag_mask f0) (flag_mask f1) (flag_mask f0)) i (if i mod 4 <? 2 then f0 else f1).
Proof.
  intros H. assert (i = 0 \/ i = 1 \/ i = 2 \/ i = 3 \/ i = 4 \/ i = 5 \/ i = 6 \/ i = 7) as E by lia.
  destruct E as [-> | [-> | [-> | [-> | [-> | [-> | [-> | ->]]]]]]]; destruct f0, f1; split; reflexivity.
Qed.

(** Solving a lane by its expression. *)
Ltac lane := first
  [ eassumption
  | eapply lane_add; [lane | lane | lia]
  | eapply lane_sub; [lane | lane | lia]
  | eapply lane_subs; [lane | lane | lia]
  | eapply lane_subabs; [lane | lane | lia]
  | eapply lane_sl1; [lane | lia | lia]
  | eapply lane_sl2; [lane | lia | lia]
  | eapply lane_sl3; [lane | lia | lia]
  | eapply lane_sr; [lane | lia | lia]
  | apply lane_c; lia ].

Section Line.
  Context (ALPHA BETA m0 TL2 TL1 TL0 TR0 TR1 TR2 : reg) (i alpha beta : Z) (flag : bool) (s : Z -> Z).
  Hypothesis (HA : lane ALPHA i alpha) (HB : lane BETA i beta) (HF : maskl m0 i flag).
  Hypothesis (L2 : lane TL2 i (s (-3))) (L1 : lane TL1 i (s (-2))) (L0 : lane TL0 i (s (-1))).
  Hypothesis (R0 : lane TR0 i (s 0)) (R1 : lane TR1 i (s 1)) (R2 : lane TR2 i (s 2)).
  Hypothesis (Hs : forall j, -3 <= j <= 2 -> 0 <= s j <= 255).

  Ltac ranges := pose proof (Hs (-3) ltac:(lia)); pose proof (Hs (-2) ltac:(lia)); pose proof (Hs (-1) ltac:(lia));
    pose proof (Hs 0 ltac:(lia)); pose proof (Hs 1 ltac:(lia)); pose proof (Hs 2 ltac:(lia)).
  Definition on := flag && (Z.abs (s 0 - s (-1)) <? alpha) && (1 <? Z.abs (s 0 - s (-1))).

  Lemma mask_on : maskl (and_si m0 (and_si (cmpgt_epi16 (subabs TL0 TR0) (c_ 1)) (cmpgt_epi16 ALPHA (subabs TL0 TR0)))) i on.
  Proof.
    ranges. assert (lane (subabs TL0 TR0) i (Z.abs (s (-1) - s 0))) as D by lane.
    assert (lane (c_ 1) i 1) as O by lane.
    replace on with (flag && ((1 <? Z.abs (s (-1) - s 0)) && (Z.abs (s (-1) - s 0) <? alpha))).
    - apply mask_and; [exact HF|]. apply mask_and; apply mask_gt; assumption.
    - unfold on. replace (Z.abs (s 0 - s (-1))) with (Z.abs (s (-1) - s 0)) by lia.
      destruct flag, (1 <? _), (_ <? alpha); reflexivity.
  Qed.

  Definition near (a b : Z) : bool := Z.abs (s a - s b) <? beta.
  Definition flat_l : Z := (if near (-3) (-1) then 1 else 0) + (if near (-2) (-1) then 2 else 0).
  Definition flat_r : Z := (if near 2 0 then 1 else 0) + (if near 1 0 then 2 else 0).
  Lemma flatness_lane : let '(M0, FL, FLT) := flatness ALPHA BETA m0 TL2 TL1 TL0 TR0 TR1 TR2 in
    maskl M0 i on /\ lane FL i flat_l /\ lane FLT i (flat_l + flat_r).
  Proof.
    unfold flatness. cbv zeta. split; [apply mask_on|].
    assert (forall X Y Z1 Z2 a b n, lane X i (s a) -> lane Y i (s b) -> -3 <= a <= 2 -> -3 <= b <= 2 -> Z1 = cmpgt_epi16 BETA (subabs X Y) -> Z2 = n -> 0 <= n <= 2 ->
      lane (and_si Z1 (c_ Z2)) i (if near a b then n else 0)) as G.
    { intros X Y Z1 Z2 a b n HX HY Ha Hb -> -> Hn. apply lane_mask; [|apply lane_c; lia].
      pose proof (Hs a Ha). pose proof (Hs b Hb). apply mask_gt; [exact HB|]. lane. }
    assert (lane (add_epi16 (and_si (cmpgt_epi16 BETA (subabs TL2 TL0)) (c_ 1)) (and_si (cmpgt_epi16 BETA (subabs TL1 TL0)) (c_ 2))) i flat_l) as A.
    { apply lane_add; [eapply G; eauto; lia|eapply G; eauto; lia|]. destruct (near (-3) (-1)), (near (-2) (-1)); lia. }
    assert (lane (add_epi16 (and_si (cmpgt_epi16 BETA (subabs TR2 TR0)) (c_ 1)) (and_si (cmpgt_epi16 BETA (subabs TR1 TR0)) (c_ 2))) i flat_r) as B.
    { apply lane_add; [eapply G; eauto; lia|eapply G; eauto; lia|]. destruct (near 2 0), (near 1 0); lia. }
    split; [exact A|]. apply lane_add; [exact A|exact B|].
    unfold flat_l, flat_r. destruct (near (-3) (-1)), (near (-2) (-1)), (near 2 0), (near 1 0); lia.
  Qed.

  Context (minus : reg -> reg -> reg).
  Hypothesis Hminus : forall a b x y, lane a i x -> lane b i y -> -32768 <= x - y <= 32767 -> lane (minus a b) i (x - y).

  Lemma strength_luma_lane : lane (strength_luma minus ALPHA BETA m0 TL2 TL1 TL0 TR0 TR1 TR2) i (if on then strength_of false beta s else 0).
  Proof.
    unfold strength_luma. pose proof flatness_lane as F. destruct (flatness _ _ _ _ _ _ _ _ _) as [[M0 FL] FLT]. destruct F as (HM & HL & HT).
    cbv zeta. apply lane_masked; [|exact HM]. clear HM.
    assert (maskl (and_si (cmpeq_epi16 TR0 TR1) (cmpeq_epi16 TL0 TL1)) i ((s 0 =? s 1) && (s (-1) =? s (-2)))) as HE.
    { apply mask_and; apply mask_eq; assumption. }
    assert (0 <= flat_l <= 3 /\ 0 <= flat_r <= 3) as HR.
    { unfold flat_l, flat_r. destruct (near (-3) (-1)), (near (-2) (-1)), (near 2 0), (near 1 0); lia. }
    assert (maskl (cmpgt_epi16 BETA (subabs TL1 TR1)) i (near (-2) 1)) as HN.
    { ranges. apply mask_gt; [exact HB|]. lane. }
    pose proof (lane_c 0 i ltac:(lia)) as C0. pose proof (lane_c 1 i ltac:(lia)) as C1. pose proof (lane_c 2 i ltac:(lia)) as C2.
    pose proof (lane_c 3 i ltac:(lia)) as C3. pose proof (lane_c 4 i ltac:(lia)) as C4.
    pose proof (lane_blend _ _ _ _ _ _ _ HE (Hminus _ _ _ _ HT C3 ltac:(lia)) (Hminus _ _ _ _ HT C2 ltac:(lia))) as H56.
    pose proof (lane_blend _ _ _ _ _ _ _ (mask_eq _ _ _ _ _ HL C2) C1 C2) as H4.
    pose proof (lane_blend _ _ _ _ _ _ _ HN C0 C1) as H3.
    pose proof (lane_blend _ _ _ _ _ _ _ (mask_gt _ _ _ _ _ HT C4) C0 H56) as F1.
    pose proof (lane_blend _ _ _ _ _ _ _ (mask_eq _ _ _ _ _ HT C4) F1 H4) as F2.
    pose proof (lane_blend _ _ _ _ _ _ _ (mask_eq _ _ _ _ _ HT C3) F2 H3) as F3.
    match goal with |- lane ?r i ?w => match type of F3 with lane _ i ?v => replace w with v; [exact F3|] end end.
    clear. unfold strength_of, strength. cbv zeta. fold (near (-2) (-1)) (near (-3) (-1)) (near 1 0) (near 2 0) (near (-2) 1).
    rewrite (Z.eqb_sym (s (-2))), (Z.eqb_sym (s 1)). unfold flat_l, flat_r.
    destruct (near (-2) (-1)), (near (-3) (-1)), (near 1 0), (near 2 0), (near (-2) 1), (s (-1) =? s (-2)), (s 0 =? s 1); reflexivity.
  Qed.
  Lemma strength_chroma_lane : lane (strength_chroma minus ALPHA BETA m0 TL2 TL1 TL0 TR0 TR1 TR2) i (if on then strength_of true beta s else 0).
  Proof.
    unfold strength_chroma. pose proof flatness_lane as F. destruct (flatness _ _ _ _ _ _ _ _ _) as [[M0 FL] FLT]. destruct F as (HM & HL & HT).
    cbv zeta. apply lane_masked; [|exact HM]. clear HM.
    assert (maskl (and_si (cmpeq_epi16 TR0 TR1) (cmpeq_epi16 TL0 TL1)) i ((s 0 =? s 1) && (s (-1) =? s (-2)))) as HE.
    { apply mask_and; apply mask_eq; assumption. }
    assert (0 <= flat_l <= 3 /\ 0 <= flat_r <= 3) as HR.
    { unfold flat_l, flat_r. destruct (near (-3) (-1)), (near (-2) (-1)), (near 2 0), (near 1 0); lia. }
    pose proof (lane_c 0 i ltac:(lia)) as C0. pose proof (lane_c 1 i ltac:(lia)) as C1. pose proof (lane_c 2 i ltac:(lia)) as C2.
    pose proof (lane_c 3 i ltac:(lia)) as C3. pose proof (lane_c 4 i ltac:(lia)) as C4.
    pose proof (lane_blend _ _ _ _ _ _ _ HE (Hminus _ _ _ _ HT C4 ltac:(lia)) (Hminus _ _ _ _ HT C3 ltac:(lia))) as H56.
    pose proof (lane_blend _ _ _ _ _ _ _ (mask_eq _ _ _ _ _ HL C2) C0 C1) as H4.
    pose proof (lane_blend _ _ _ _ _ _ _ (mask_gt _ _ _ _ _ HT C4) C0 H56) as F1.
    pose proof (lane_blend _ _ _ _ _ _ _ (mask_eq _ _ _ _ _ HT C4) F1 H4) as F2.
    match goal with |- lane ?r i ?w => match type of F2 with lane _ i ?v => replace w with v; [exact F2|] end end.
    clear. unfold strength_of, strength. cbv zeta. fold (near (-2) (-1)) (near (-3) (-1)) (near 1 0) (near 2 0) (near (-2) 1).
    rewrite (Z.eqb_sym (s (-2))), (Z.eqb_sym (s 1)). unfold flat_l, flat_r.
    destruct (near (-2) (-1)), (near (-3) (-1)), (near 1 0), (near 2 0), (near (-2) 1), (s (-1) =? s (-2)), (s 0 =? s 1); reflexivity.
  Qed.

  (** Strengths 1 to 3, from the lane of the strength; [after fs j] what strength [fs] makes of sample [j]. *)
  Definition after (fs j : Z) : Z := match weights fs j with Some w => wmean w s | None => s j end.
  Context (FS : reg) (fs : Z).
  Hypothesis (HFS : lane FS i fs) (Hfs : 0 <= fs <= 4).
  Definition upto3 (j : Z) : Z := if fs =? 4 then s j else after fs j.

  Ltac five_cases := apply five in Hfs; destruct Hfs as [-> | [-> | [-> | [-> | ->]]]].
  Ltac wsolve := cbn [weights weights_left Z.ltb Z.eqb Z.compare Z.sub Z.add Z.opp Pos.eqb Pos.compare Pos.compare_cont Z.pos_sub Pos.add Pos.pred_double option_map rev app]; try reflexivity;
    first [rewrite (wmean_shift _ s 4 8) by (reflexivity || lia) | rewrite (wmean_shift _ s 2 2) by (reflexivity || lia)
          | rewrite (wmean_shift _ s 5 16) by (reflexivity || lia) | rewrite (wmean_shift _ s 3 4) by (reflexivity || lia)];
    unfold dot; cbn [combine map fst snd fold_right]; f_equal; lia.
  Lemma weak_lane : let '(A1, A0, B0, B1) := weak FS TL2 TL1 TL0 TR0 TR1 TR2 in
    lane A1 i (upto3 (-2)) /\ lane A0 i (upto3 (-1)) /\ lane B0 i (upto3 0) /\ lane B1 i (upto3 1).
  Proof.
    unfold weak. cbv zeta. ranges.
    pose proof (lane_c 0 i ltac:(lia)) as C0. pose proof (lane_c 1 i ltac:(lia)) as C1. pose proof (lane_c 2 i ltac:(lia)) as C2.
    pose proof (lane_c 3 i ltac:(lia)) as C3. pose proof (lane_c 4 i ltac:(lia)) as C4. pose proof (lane_c 8 i ltac:(lia)) as C8.
    pose proof (mask_eq _ _ _ _ _ HFS C1) as M1. pose proof (mask_eq _ _ _ _ _ HFS C2) as M2. pose proof (mask_eq _ _ _ _ _ HFS C3) as M3.
    assert (forall r v w, lane r i v -> v = w -> lane r i w) as Eq by (intros; subst; assumption).
    split; [|split; [|split]].
    - eapply Eq; [eapply lane_blend; [exact M3|lane|lane]|]. clear - Hfs. unfold upto3, after. five_cases; wsolve.
    - eapply Eq; [eapply lane_blend; [exact M3|eapply lane_blend; [exact M2|eapply lane_blend; [exact M1|lane|lane]|lane]|lane]|].
      clear - Hfs. unfold upto3, after. five_cases; wsolve.
    - eapply Eq; [eapply lane_blend; [exact M3|eapply lane_blend; [exact M2|eapply lane_blend; [exact M1|lane|lane]|lane]|lane]|].
      clear - Hfs. unfold upto3, after. five_cases; wsolve.
    - eapply Eq; [eapply lane_blend; [exact M3|lane|lane]|]. clear - Hfs. unfold upto3, after. five_cases; wsolve.
  Qed.

  (** Strength 4 on top. *)
  Context (FSM A1 A0 B0 B1 : reg).
  Hypothesis (HM4 : maskl FSM i (fs =? 4)) (HA1 : lane A1 i (upto3 (-2))) (HA0 : lane A0 i (upto3 (-1))) (HB0 : lane B0 i (upto3 0)) (HB1 : lane B1 i (upto3 1)).
  Lemma strong_lane : let '(Y2, Y1, Y0, W0, W1, W2) := strong FSM TL2 TL0 TR0 TR2 A1 A0 B0 B1 in
    lane Y2 i (after fs (-3)) /\ lane Y1 i (after fs (-2)) /\ lane Y0 i (after fs (-1)) /\
    lane W0 i (after fs 0) /\ lane W1 i (after fs 1) /\ lane W2 i (after fs 2).
  Proof.
    unfold strong. cbv zeta. ranges.
    pose proof (lane_c 4 i ltac:(lia)) as C4. pose proof (lane_c 8 i ltac:(lia)) as C8. pose proof (lane_c 16 i ltac:(lia)) as C16.
    assert (forall r v w, lane r i v -> v = w -> lane r i w) as Eq by (intros; subst; assumption).
    split; [|split; [|split; [|split; [|split]]]];
      (eapply Eq; [eapply lane_blend; [exact HM4|lane|lane]|]; clear - Hfs; unfold upto3, after; five_cases; wsolve).
  Qed.
  (** Without a line of strength 4. *)
  Lemma no_strong : fs <> 4 -> lane TL2 i (after fs (-3)) /\ lane A1 i (after fs (-2)) /\ lane A0 i (after fs (-1)) /\
    lane B0 i (after fs 0) /\ lane B1 i (after fs 1) /\ lane TR2 i (after fs 2).
  Proof.
    intros N. unfold upto3 in *. destruct (Z.eqb_spec fs 4); [contradiction|].
    assert (after fs (-3) = s (-3) /\ after fs 2 = s 2) as [-> ->].
    { clear - Hfs n. unfold after. five_cases; try (split; reflexivity). congruence. }
    auto 10.
  Qed.
End Line.
