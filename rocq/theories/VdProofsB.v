(** The four kernels of deblocking as a whole. *)
From Coq Require Import ZArith List Bool Lia.
From Verif Require Import CBase MemModel VxModelBase VdModel LfModel LfSpec LfProofs VxProofs VdProofs.
Import ListNotations.
Open Scope Z_scope.

Lemma eight i : 0 <= i < 8 -> i = 0 \/ i = 1 \/ i = 2 \/ i = 3 \/ i = 4 \/ i = 5 \/ i = 6 \/ i = 7.
Proof. lia. Qed.

Lemma testz_no FSM i c : testz FSM (c_ (-1)) = true -> 0 <= i < 8 -> maskl FSM i c -> c = false.
Proof.
  intros E Hi [A _]. destruct c; [|reflexivity]. exfalso. unfold testz in E. rewrite forallb_forall in E.
  specialize (E (Z.to_nat (2 * i)) ltac:(apply in_seq; lia)). rewrite Z2Nat.id in E by lia. rewrite A in E.
  replace (c_ (-1) (2 * i)) with 255 in E by (symmetry; apply (mk16_lo (fun _ => -1))). discriminate E.
Qed.
Lemma filtered_after c alpha beta flag s j :
  filtered c alpha beta flag s j = after s (if on alpha flag s then strength_of c beta s else 0) j.
Proof.
  unfold filtered. cbv zeta. unfold on. destruct (flag && _ && _); [reflexivity|].
  unfold after, weights. destruct (j <? 0); [destruct j as [|p|[[p|p|]|[p|p|]|]]; reflexivity|].
  destruct (-1 - j) as [|p|[[p|p|]|[p|p|]|]]; reflexivity.
Qed.

Section Result.
  Context (minus : reg -> reg -> reg).
  Hypothesis Hminus : forall a b i x y, lane a i x -> lane b i y -> -32768 <= x - y <= 32767 -> lane (minus a b) i (x - y).
  Context (ALPHA BETA m0 TL2 TL1 TL0 TR0 TR1 TR2 : reg).
  Definition facts (i alpha beta : Z) (flag : bool) (s : Z -> Z) : Prop :=
    lane ALPHA i alpha /\ lane BETA i beta /\ maskl m0 i flag /\ lane TL2 i (s (-3)) /\ lane TL1 i (s (-2)) /\ lane TL0 i (s (-1)) /\
    lane TR0 i (s 0) /\ lane TR1 i (s 1) /\ lane TR2 i (s 2) /\ (forall j, -3 <= j <= 2 -> 0 <= s j <= 255).

  Lemma chroma_result i alpha beta flag s : facts i alpha beta flag s ->
    let '(A1, A0, B0, B1) := weak (strength_chroma minus ALPHA BETA m0 TL2 TL1 TL0 TR0 TR1 TR2) TL2 TL1 TL0 TR0 TR1 TR2 in
    lane A1 i (filtered true alpha beta flag s (-2)) /\ lane A0 i (filtered true alpha beta flag s (-1)) /\
    lane B0 i (filtered true alpha beta flag s 0) /\ lane B1 i (filtered true alpha beta flag s 1).
  Proof.
    intros (HA & HB & HF & L2 & L1 & L0 & R0 & R1 & R2 & Hs).
    pose proof (strength_chroma_lane ALPHA BETA m0 TL2 TL1 TL0 TR0 TR1 TR2 i alpha beta flag s HA HB HF L2 L1 L0 R0 R1 R2 Hs minus (fun a b => Hminus a b i)) as S1.
    rewrite !filtered_after. remember (if on alpha flag s then strength_of true beta s else 0) as fs eqn:E.
    assert (0 <= fs <= 3) as Hfs by (subst fs; pose proof (strength_of_range true beta s) as [X Y]; specialize (Y eq_refl); destruct (on alpha flag s); lia).
    pose proof (weak_lane TL2 TL1 TL0 TR0 TR1 TR2 i s L2 L1 L0 R0 R1 R2 Hs _ fs S1 ltac:(lia)) as W.
    destruct (weak _ _ _ _ _ _ _) as [[[A1 A0] B0] B1]. unfold upto3 in W. destruct (Z.eqb_spec fs 4); [lia|exact W].
  Qed.

  Definition luma_regs : reg * reg * reg * reg * reg * reg :=
    let FS := strength_luma minus ALPHA BETA m0 TL2 TL1 TL0 TR0 TR1 TR2 in
    let '(L1, L0, R0, R1) := weak FS TL2 TL1 TL0 TR0 TR1 TR2 in
    let FS := cmpeq_epi16 FS (c_ 4) in
    if negb (testz FS (c_ (-1))) then strong FS TL2 TL0 TR0 TR2 L1 L0 R0 R1 else (TL2, L1, L0, R0, R1, TR2).
  Lemma luma_result i alpha beta flag s : 0 <= i < 8 -> facts i alpha beta flag s ->
    let '(Y2, Y1, Y0, W0, W1, W2) := luma_regs in
    lane Y2 i (filtered false alpha beta flag s (-3)) /\ lane Y1 i (filtered false alpha beta flag s (-2)) /\ lane Y0 i (filtered false alpha beta flag s (-1)) /\
    lane W0 i (filtered false alpha beta flag s 0) /\ lane W1 i (filtered false alpha beta flag s 1) /\ lane W2 i (filtered false alpha beta flag s 2).
  Proof.
    intros Hi (HA & HB & HF & L2 & L1 & L0 & R0 & R1 & R2 & Hs).
    pose proof (strength_luma_lane ALPHA BETA m0 TL2 TL1 TL0 TR0 TR1 TR2 i alpha beta flag s HA HB HF L2 L1 L0 R0 R1 R2 Hs minus (fun a b => Hminus a b i)) as S1.
    rewrite !filtered_after. remember (if on alpha flag s then strength_of false beta s else 0) as fs eqn:E.
    assert (0 <= fs <= 4) as Hfs by (subst fs; pose proof (strength_of_range false beta s) as [X Y]; destruct (on alpha flag s); lia).
    pose proof (weak_lane TL2 TL1 TL0 TR0 TR1 TR2 i s L2 L1 L0 R0 R1 R2 Hs _ fs S1 Hfs) as W.
    unfold luma_regs. cbv zeta.
    destruct (weak _ _ _ _ _ _ _) as [[[A1 A0] B0] B1]. destruct W as (HA1 & HA0 & HB0 & HB1).
    pose proof (mask_eq _ _ _ _ _ S1 (lane_c 4 i ltac:(lia))) as HM.
    remember (cmpeq_epi16 (strength_luma minus ALPHA BETA m0 TL2 TL1 TL0 TR0 TR1 TR2) (c_ 4)) as FSM.
    destruct (testz FSM (c_ (-1))) eqn:T; cbn [negb].
    - pose proof (testz_no _ _ _ T Hi HM) as N. apply Z.eqb_neq in N. eapply no_strong; eassumption.
    - pose proof (strong_lane TL2 TL0 TR0 TR2 i s L2 L0 R0 R2 Hs fs Hfs FSM A1 A0 B0 B1 HM HA1 HA0 HB0 HB1) as Q. exact Q.
  Qed.
End Result.

(** Transposition. *)
Lemma c0_zero k : c_ 0 k = 0.
Proof. unfold c_, set1_epi16, mk16. destruct (Z.even k); reflexivity. Qed.
Lemma lane_byte r i v : byte v -> r (2 * i) = v -> r (2 * i + 1) = 0 -> lane r i v.
Proof.
  unfold byte. intros H A B. unfold lane. rewrite A, B. rewrite to_u8_id by exact H. rewrite Z.div_small by lia. repeat split; lia.
Qed.
Definition sel8 {A} (x0 x1 x2 x3 x4 x5 x6 x7 : A) (i : Z) : A :=
  if i =? 0 then x0 else if i =? 1 then x1 else if i =? 2 then x2 else if i =? 3 then x3 else
  if i =? 4 then x4 else if i =? 5 then x5 else if i =? 6 then x6 else x7.
Lemma columns_lane T0 T1 T2 T3 T4 T5 T6 T7 i : 0 <= i < 8 ->
  (forall k, 0 <= k < 8 -> byte (sel8 T0 T1 T2 T3 T4 T5 T6 T7 i k)) ->
  let '(C0, C1, C2, C3, C4, C5, C6, C7) := columns T0 T1 T2 T3 T4 T5 T6 T7 in
  let row := sel8 T0 T1 T2 T3 T4 T5 T6 T7 i in
  lane C0 i (row 0) /\ lane C1 i (row 1) /\ lane C2 i (row 2) /\ lane C3 i (row 3) /\
  lane C4 i (row 4) /\ lane C5 i (row 5) /\ lane C6 i (row 6) /\ lane C7 i (row 7).
Proof.
  intros Hi HB. unfold columns. cbv zeta. apply eight in Hi.
  destruct Hi as [-> | [-> | [-> | [-> | [-> | [-> | [-> | ->]]]]]]];
    (repeat match goal with |- _ /\ _ => split end; (apply lane_byte; [apply HB; lia|reflexivity|apply c0_zero])).
Qed.
Lemma lane_pack r i v : lane r i v -> 0 <= v <= 255 -> sat_u8 (i16_of r i) = v.
Proof. intros A H. rewrite (lane_i16 _ _ _ A). unfold sat_u8. lia. Qed.
Lemma rows2_byte C0 C1 C2 C3 C4 C5 C6 C7 i (v : Z -> Z) : 0 <= i < 8 -> (forall k, 0 <= k < 8 -> 0 <= v k <= 255) ->
  lane C0 i (v 0) -> lane C1 i (v 1) -> lane C2 i (v 2) -> lane C3 i (v 3) -> lane C4 i (v 4) -> lane C5 i (v 5) -> lane C6 i (v 6) -> lane C7 i (v 7) ->
  let '(T0, T1, T2, T3) := rows2 C0 C1 C2 C3 C4 C5 C6 C7 in
  forall k, 0 <= k < 8 -> sel8 T0 (srli_si128 T0 8) T1 (srli_si128 T1 8) T2 (srli_si128 T2 8) T3 (srli_si128 T3 8) i k = v k.
Proof.
  intros Hi Hv A0 A1 A2 A3 A4 A5 A6 A7. unfold rows2. cbv zeta. intros k Hk.
  apply (fun H => lane_pack _ _ _ H (Hv 0 ltac:(lia))) in A0. apply (fun H => lane_pack _ _ _ H (Hv 1 ltac:(lia))) in A1.
  apply (fun H => lane_pack _ _ _ H (Hv 2 ltac:(lia))) in A2. apply (fun H => lane_pack _ _ _ H (Hv 3 ltac:(lia))) in A3.
  apply (fun H => lane_pack _ _ _ H (Hv 4 ltac:(lia))) in A4. apply (fun H => lane_pack _ _ _ H (Hv 5 ltac:(lia))) in A5.
  apply (fun H => lane_pack _ _ _ H (Hv 6 ltac:(lia))) in A6. apply (fun H => lane_pack _ _ _ H (Hv 7 ltac:(lia))) in A7.
  apply eight in Hk. apply eight in Hi. clear Hv.
  destruct Hk as [-> | [-> | [-> | [-> | [-> | [-> | [-> | ->]]]]]]];
    [rewrite <- A0|rewrite <- A1|rewrite <- A2|rewrite <- A3|rewrite <- A4|rewrite <- A5|rewrite <- A6|rewrite <- A7]; clear A0 A1 A2 A3 A4 A5 A6 A7;
    (destruct Hi as [-> | [-> | [-> | [-> | [-> | [-> | [-> | ->]]]]]]]; reflexivity).
Qed.
