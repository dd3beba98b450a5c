(** Sample adaptive offset parameters. *)
From Coq Require Import ZArith List Bool Lia.
From Verif Require Import CBase CBaseProofs AecModel AecSpec SynModel SynSpec SynProofsA SynProofsE.
Import ListNotations.
Open Scope Z_scope.

Lemma upd_nat_nth : forall (l : list Z) n v k, (n < length l)%nat -> nth k (upd_nat l n v) 0 = if Nat.eqb k n then v else nth k l 0.
Proof.
  induction l as [|a l IH]; intros n v k H; cbn [length] in H; [lia|]. destruct n as [|n], k as [|k]; cbn [upd_nat nth Nat.eqb]; try reflexivity.
  apply IH. lia.
Qed.
Lemma upd_nat_len : forall A (l : list A) n v, length (upd_nat l n v) = length l.
Proof. induction l as [|a l IH]; intros [|n] v; cbn; try reflexivity. now rewrite IH. Qed.

Definition at_off (l : list Z) (i : Z) : Z := nth (Z.to_nat i) l 0.
Lemma put_safe : forall u l i v (Q : list Z -> Prop), 0 <= i < Z.of_nat (length l) ->
  (forall m, length m = length l -> (forall k, 0 <= k -> at_off m k = if k =? i then v else at_off l k) -> Q m) -> safe_or u (put l i v) Q.
Proof.
  intros u l i v Q Hi H. unfold put, set. assert (E : (i <? 0) || (Z.of_nat (length l) <=? i) = false) by (apply orb_false_intro; [apply Z.ltb_ge|apply Z.leb_gt]; lia).
  rewrite E. apply safe_ret. apply H; [apply upd_nat_len|]. intros k Hk. unfold at_off. rewrite upd_nat_nth by lia.
  destruct (k =? i) eqn:E1; [apply Z.eqb_eq in E1; subst; now rewrite Nat.eqb_refl|]. apply Z.eqb_neq in E1.
  destruct (Nat.eqb_spec (Z.to_nat k) (Z.to_nat i)); [lia|reflexivity].
Qed.

Lemma bit_byp : forall u, safe_or u byp bit.
Proof. intros u. apply safe_byp; [left; reflexivity|right; reflexivity]. Qed.
Lemma bit_sym : forall u r i, 0 <= i < a_size r -> safe_or u (sym r i) bit.
Proof. intros u r i H. apply safe_sym; [exact H|left; reflexivity|right; reflexivity]. Qed.

Lemma merge_safe : forall u lf top, safe_or u (read_sao_mergeflag lf top) (fun m => m = 0 \/ (m = 2 /\ lf = true) \/ (m = 1 /\ top = true)).
Proof.
  intros u lf top. unfold read_sao_mergeflag.
  apply safe_bind with (P := fun i => (lf = false -> top = false -> i = 0) /\ 0 <= i <= 2 /\ (i = 2 -> lf = true)).
  - destruct lf, top.
    + eapply safe_bind; [apply bit_sym; cbn; lia|]. intros b Bb. apply safe_if; intros E.
      * apply Z.eqb_eq in E. subst b. apply safe_ret. repeat split; try lia; discriminate.
      * eapply safe_bind; [apply bit_sym; cbn; lia|]. intros c Bc. apply safe_ret. rewrite Z.shiftl_mul_pow2 by lia.
        apply Z.eqb_neq in E. destruct Bb as [-> | ->]; [|lia]. destruct Bc as [-> | ->]; repeat split; try lia; try discriminate; reflexivity.
    + eapply safe_weaken; [apply bit_sym; cbn; lia|]. intros b [-> | ->]; repeat split; try lia; discriminate.
    + eapply safe_weaken; [apply bit_sym; cbn; lia|]. intros b [-> | ->]; repeat split; try lia; discriminate.
    + apply safe_ret. repeat split; lia.
  - intros i (H1 & H2 & H3). cbv zeta. apply safe_ret.
    assert (E : i = 0 \/ i = 1 \/ i = 2) by lia. destruct lf, top; try (rewrite (H1 eq_refl eq_refl)); destruct E as [-> | [-> | ->]]; cbn; auto;
      try (specialize (H3 eq_refl); discriminate).
Qed.

Lemma mode_safe : forall u, safe_or u read_sao_mode (fun m => m = 0 \/ m = 1 \/ m = 3).
Proof.
  intros u. unfold read_sao_mode. eapply safe_bind; [apply bit_sym; cbn; lia|]. intros b _. apply safe_if; intros _; [|apply safe_ret; auto].
  eapply safe_bind; [apply bit_byp|]. intros c [-> | ->]; apply safe_ret; cbn; auto.
Qed.

Lemma unary_safe : forall u f s cnt max, 0 <= cnt -> (s = true -> cnt < max) -> cnt <= max -> max - cnt <= Z.of_nat f ->
  safe_or u (sao_unary f s cnt max) (fun v => cnt <= v <= max).
Proof.
  intros u. induction f as [|f IH]; intros s cnt max Hc Hs Hm Hf; cbn [sao_unary].
  - apply safe_if; intros E; [|apply safe_ret; lia]. specialize (Hs E). lia.
  - apply safe_if; intros E; [|apply safe_ret; lia]. specialize (Hs E). cbv zeta.
    apply safe_if; intros E1; [apply Z.eqb_eq in E1; apply safe_ret; lia|]. apply Z.eqb_neq in E1.
    eapply safe_bind; [apply bit_byp|]. intros b _. eapply safe_weaken; [apply IH; lia|]. cbv beta. intros v Hv. lia.
Qed.

Definition cls_range (cls v : Z) : Prop :=
  (cls = 0 -> -1 <= v <= 6) /\ (cls = 1 -> 0 <= v <= 1) /\ (cls = 3 -> -1 <= v <= 0) /\ (cls = 4 -> -6 <= v <= 1) /\ (cls = 5 -> -7 <= v <= 7).
Lemma inv_map : forall i v, get eo_offset_inv_map i = Some v -> -1 <= v <= 6.
Proof.
  intros i v H. assert (F : Forall (fun x => -1 <= x <= 6) eo_offset_inv_map) by (repeat (constructor; [lia|]); constructor).
  rewrite Forall_forall in F. apply F. unfold get in H. destruct (i <? 0); [discriminate|]. eapply nth_error_In. exact H.
Qed.
Lemma offset_safe : forall u cls, In cls [0; 1; 3; 4; 5] -> safe_or u (read_sao_offset cls) (cls_range cls).
Proof.
  intros u cls Hc. unfold read_sao_offset, BO.
  apply safe_bind with (P := fun m => get saoclip_max cls = Some m).
  { apply safe_lookup; [|auto]. change (Z.of_nat (length saoclip_max)) with 6. cbn in Hc. lia. }
  intros max Hmax. apply safe_bind with (P := bit).
  { apply safe_if; intros _; [apply bit_sym; cbn; lia|apply bit_byp]. }
  intros s _. assert (M : (cls = 0 /\ max = 7) \/ (cls = 1 /\ max = 1) \/ (cls = 3 /\ max = 1) \/ (cls = 4 /\ max = 7) \/ (cls = 5 /\ max = 7)).
  { cbn in Hc. destruct Hc as [<- | [<- | [<- | [<- | [<- | []]]]]]; cbn in Hmax; apply Some_inj in Hmax; subst max; auto 6. }
  eapply safe_bind; [apply (unary_safe u 8 (s =? 0) 0 max); [lia|lia|lia|change (Z.of_nat 8) with 8; lia]|]. intros cnt Hcnt. cbv beta in Hcnt.
  destruct M as [[-> ->] | [[-> ->] | [[-> ->] | [[-> ->] | [-> ->]]]]]; cbn [Z.eqb Pos.eqb andb].
  - apply safe_bind with (P := fun v => -1 <= v <= 6); [apply safe_lookup; [change (Z.of_nat (length eo_offset_inv_map)) with 8; lia|apply inv_map]|].
    intros v Hv. apply safe_ret. unfold cls_range. lia.
  - apply safe_bind with (P := fun v => 0 <= v <= 1); [apply safe_ret; lia|]. intros v Hv. apply safe_ret. unfold cls_range. lia.
  - apply safe_bind with (P := fun v => -1 <= v <= 0); [apply safe_ret; lia|]. intros v Hv. apply safe_ret. unfold cls_range. lia.
  - apply safe_bind with (P := fun v => -6 <= v <= 1).
    + apply safe_bind with (P := fun v => -1 <= v <= 6); [apply safe_lookup; [change (Z.of_nat (length eo_offset_inv_map)) with 8; lia|apply inv_map]|].
      intros v Hv. apply safe_ret. lia.
    + intros v Hv. apply safe_ret. unfold cls_range. lia.
  - apply safe_bind with (P := fun v => 0 <= v <= 7); [apply safe_ret; lia|]. intros v Hv. apply safe_if; intros _.
    + eapply safe_bind; [apply bit_byp|]. intros b _. apply safe_if; intros _; apply safe_ret; unfold cls_range; lia.
    + apply safe_ret. unfold cls_range. lia.
Qed.

Lemma fixed_safe : forall u n i acc, 0 <= i -> 0 <= acc -> safe_or u (sao_fixed n i acc) (fun v => acc <= v <= acc + 2 ^ (i + Z.of_nat n) - 2 ^ i).
Proof.
  intros u. induction n as [|n IH]; intros i acc Hi Ha; cbn [sao_fixed].
  - apply safe_ret. change (Z.of_nat 0) with 0. rewrite Z.add_0_r. lia.
  - eapply safe_bind; [apply bit_byp|]. intros b Bb. assert (P : 0 < 2 ^ i) by (apply Z.pow_pos_nonneg; lia). rewrite Z.shiftl_mul_pow2 by lia.
    eapply safe_weaken; [apply (IH (i + 1)); [lia|destruct Bb as [-> | ->]; lia]|]. cbv beta. intros v Hv.
    replace (i + Z.of_nat (S n)) with (i + 1 + Z.of_nat n) by lia. rewrite (Z.pow_add_r 2 i 1) in Hv by lia. change (2 ^ 1) with 2 in Hv.
    destruct Bb as [-> | ->]; lia.
Qed.

Lemma delta_prefix_safe : forall u f g acc, 1 <= g <= 3 -> acc = 2 ^ g - 2 -> 4 - g <= Z.of_nat f ->
  safe_or u (sao_delta_prefix f acc g) (fun r => (fst r = 14 /\ snd r = 0) \/ (1 <= snd r <= 3 /\ fst r = 2 ^ snd r - 2)).
Proof.
  intros u. induction f as [|f IH]; intros g acc Hg Ha Hf; [lia|]. cbn [sao_delta_prefix].
  eapply safe_bind; [apply bit_byp|]. intros t Bt. apply safe_bind with (P := fun _ => True); [apply safe_check; auto|]. intros _ _.
  assert (E : g = 1 \/ g = 2 \/ g = 3) by lia.
  destruct Bt as [-> | ->]; cbn [Z.eqb Pos.eqb].
  - destruct E as [-> | [-> | ->]]; cbn [Z.add Pos.add Z.eqb Pos.eqb Pos.succ].
    + apply IH; [lia|subst acc; reflexivity|lia].
    + apply IH; [lia|subst acc; reflexivity|lia].
    + subst acc. apply safe_ret. left. cbn. auto.
  - destruct E as [-> | [-> | ->]]; cbn [Z.eqb Pos.eqb]; subst acc; apply safe_ret; right; cbn; lia.
Qed.
Lemma delta_safe : forall u, safe_or u sao_delta (fun d => 0 <= d <= 14).
Proof.
  intros u. unfold sao_delta. eapply safe_bind; [apply delta_prefix_safe; [lia|reflexivity|lia]|]. intros [acc g] H. cbn [fst snd] in H.
  eapply safe_bind.
  - apply (esc_suffix_small u (Z.to_nat g) 0 (2 ^ g)); [lia|apply Z.mod_0_l; apply Z.pow_nonzero; lia|]. rewrite Z2Nat.id by lia. lia.
  - intros r Hr. cbv beta in Hr. apply safe_ret. destruct H as [[-> ->]|[H ->]]; [change (2 ^ 0) with 1 in Hr; lia|].
    assert (E : g = 1 \/ g = 2 \/ g = 3) by lia.
    assert (P : 2 ^ g = 2 \/ 2 ^ g = 4 \/ 2 ^ g = 8) by (destruct E as [-> | [-> | ->]]; auto). lia.
Qed.
Lemma type_bo_safe : forall u, safe_or u (read_sao_type true) (fun v => exists b d, v = b + 32 * d /\ 0 <= b <= 31 /\ 1 <= d <= 16).
Proof.
  intros u. cbn [read_sao_type]. eapply safe_bind; [apply (fixed_safe u 5 0 0); lia|]. intros b Hb. cbv beta in Hb. change (2 ^ (0 + Z.of_nat 5)) with 32 in Hb. change (2 ^ 0) with 1 in Hb.
  apply safe_bind with (P := fun d => -1 <= d <= 14); [apply safe_catch; [eapply safe_weaken; [apply delta_safe|]; cbv beta; intros; lia|lia]|].
  intros d Hd. apply safe_ret. exists b, (d + 2). rewrite Z.shiftl_mul_pow2 by lia. change (2 ^ 5) with 32. lia.
Qed.
Lemma type_eo_safe : forall u, safe_or u (read_sao_type false) (fun v => 0 <= v <= 3).
Proof.
  intros u. cbn [read_sao_type]. eapply safe_weaken; [apply (fixed_safe u 2 0 0); lia|]. cbv beta. change (2 ^ (0 + Z.of_nat 2)) with 4. change (2 ^ 0) with 1. intros; lia.
Qed.

Lemma mod32 : forall v, 0 <= v <= 95 -> (v <= 31 /\ v mod 32 = v) \/ (32 <= v <= 63 /\ v mod 32 = v - 32) \/ (64 <= v /\ v mod 32 = v - 64).
Proof.
  intros v Hv. pose proof (Z.div_mod v 32 ltac:(lia)) as D. pose proof (Z.mod_pos_bound v 32 ltac:(lia)) as M. lia.
Qed.

Lemma offsets_safe : forall u bo, safe_or u (read_sao_offsets bo) (fun r => let '(a, b, c, d) := r in
  if bo then -7 <= a <= 7 /\ -7 <= b <= 7 /\ -7 <= c <= 7 /\ -7 <= d <= 7 else -1 <= a <= 6 /\ 0 <= b <= 1 /\ -1 <= c <= 0 /\ -6 <= d <= 1).
Proof.
  intros u bo. unfold read_sao_offsets, BO.
  eapply safe_bind; [apply offset_safe; destruct bo; cbn; tauto|]. intros a (A0 & A1 & A3 & A4 & A5).
  eapply safe_bind; [apply offset_safe; destruct bo; cbn; tauto|]. intros b (B0 & B1 & B3 & B4 & B5).
  eapply safe_bind; [apply offset_safe; destruct bo; cbn; tauto|]. intros c (C0 & C1 & C3 & C4 & C5).
  eapply safe_bind; [apply offset_safe; destruct bo; cbn; tauto|]. intros d (D0 & D1 & D3 & D4 & D5).
  apply safe_ret. destruct bo; lia.
Qed.

Lemma band_list_ok : forall b0 b1 o0 o1 o2 o3 l1 l2 l3 l4, 0 <= b0 <= 31 -> 0 <= b1 <= 31 ->
  -7 <= o0 <= 7 -> -7 <= o1 <= 7 -> -7 <= o2 <= 7 -> -7 <= o3 <= 7 ->
  (forall k, 0 <= k -> at_off l1 k = if k =? b0 then o0 else at_off (repeat 0 32) k) ->
  (forall k, 0 <= k -> at_off l2 k = if k =? (b0 + 1) mod 32 then o1 else at_off l1 k) ->
  (forall k, 0 <= k -> at_off l3 k = if k =? b1 then o2 else at_off l2 k) ->
  (forall k, 0 <= k -> at_off l4 k = if k =? (b1 + 1) mod 32 then o3 else at_off l3 k) ->
  (forall i, 0 <= i < 32 -> -7 <= at_off l4 i <= 7) /\ (forall i, 0 <= i < 32 -> ~ In i [b0; (b0 + 1) mod 32; b1; (b1 + 1) mod 32] -> at_off l4 i = 0).
Proof.
  intros b0 b1 o0 o1 o2 o3 l1 l2 l3 l4 H0 H1 R0 R1 R2 R3 E1 E2 E3 E4.
  assert (Z0 : forall k, at_off (repeat 0 32) k = 0) by (intros k; unfold at_off; apply nth_repeat).
  split; intros i Hi.
  - rewrite E4, E3, E2, E1, Z0 by lia. destruct (i =? (b1 + 1) mod 32); [lia|]. destruct (i =? b1); [lia|]. destruct (i =? (b0 + 1) mod 32); [lia|]. destruct (i =? b0); lia.
  - intros N. rewrite E4, E3, E2, E1, Z0 by lia. cbn [In] in N.
    destruct (Z.eqb_spec i ((b1 + 1) mod 32)); [exfalso; apply N; auto|]. destruct (Z.eqb_spec i b1); [exfalso; apply N; auto|].
    destruct (Z.eqb_spec i ((b0 + 1) mod 32)); [exfalso; apply N; auto|]. destruct (Z.eqb_spec i b0); [exfalso; apply N; auto|]. reflexivity.
Qed.

Lemma plane_safe : forall u old, length (s_off old) = 32%nat -> safe_or u (sao_read_plane old) sao_ok.
Proof.
  intros u old HL. unfold sao_read_plane. eapply safe_bind; [apply mode_safe|]. intros mode Hm. cbv beta in Hm.
  apply safe_if; intros E0; [apply safe_ret; split; [exact HL|left; reflexivity]|]. apply Z.eqb_neq in E0. cbv zeta.
  eapply safe_bind; [apply offsets_safe|]. intros [[[o0 o1] o2] o3] Ho.
  destruct (mode =? 1) eqn:E1.
  - eapply safe_bind; [apply type_bo_safe|]. intros ty (b & d & -> & Hb & Hd). rewrite Z.shiftr_div_pow2 by lia. change (2 ^ 5) with 32.
    assert (Q : (b + 32 * d) / 32 = d) by (symmetry; apply (Z.div_unique (b + 32 * d) 32 d b); lia). rewrite Q.
    rewrite Z.shiftl_mul_pow2 by lia. change (2 ^ 5) with 32. replace (b + 32 * d - d * 32) with b by lia.
    rewrite (Z.rem_mod_nonneg (b + d) 32), (Z.rem_mod_nonneg (b + 1) 32) by lia.
    pose proof (Z.mod_pos_bound (b + d) 32 ltac:(lia)) as B1. pose proof (Z.mod_pos_bound (b + 1) 32 ltac:(lia)) as B2.
    set (b1 := (b + d) mod 32) in *. pose proof (Z.mod_pos_bound (b1 + 1) 32 ltac:(lia)) as B3.
    rewrite (Z.rem_mod_nonneg (b1 + 1) 32) by lia.
    eapply safe_bind; [apply put_safe; [rewrite repeat_length; lia|]; intros m Lm Em; exact (conj Lm Em)|]. intros l1 [L1 F1]. rewrite repeat_length in L1.
    eapply safe_bind; [apply put_safe; [rewrite L1; lia|]; intros m Lm Em; exact (conj Lm Em)|]. intros l2 [L2 F2]. rewrite L1 in L2.
    eapply safe_bind; [apply put_safe; [rewrite L2; lia|]; intros m Lm Em; exact (conj Lm Em)|]. intros l3 [L3 F3]. rewrite L2 in L3.
    eapply safe_bind; [apply put_safe; [rewrite L3; lia|]; intros m Lm Em; exact (conj Lm Em)|]. intros l4 [L4 F4]. rewrite L3 in L4.
    apply safe_ret. split; [exact L4|]. right. split; [reflexivity|]. right.
    destruct (band_list_ok b b1 o0 o1 o2 o3 l1 l2 l3 l4 ltac:(lia) ltac:(lia) ltac:(tauto) ltac:(tauto) ltac:(tauto) ltac:(tauto) F1 F2 F3 F4) as [K1 K2].
    unfold band_ok, bands. cbn [s_type s_band s_band2 s_off]. split; [reflexivity|]. split; [exact Hb|]. split; [lia|]. split; [|split; [exact K1|exact K2]].
    destruct (Z.eq_dec d 1) as [->|Nd]; [right; reflexivity|left].
    destruct (mod32 (b + 1) ltac:(lia)) as [[X1 X2] | [[X1 X2] | [X1 X2]]]; destruct (mod32 (b + d) ltac:(lia)) as [[Y1 Y2] | [[Y1 Y2] | [Y1 Y2]]];
      fold b1 in Y2; destruct (mod32 (b1 + 1) ltac:(lia)) as [[W1 W2] | [[W1 W2] | [W1 W2]]]; rewrite X2, W2; clear - X1 Y1 W1 Y2 Hb Hd Nd;
      repeat (constructor; [cbn [In]; lia|]); constructor.
  - eapply safe_bind; [apply type_eo_safe|]. intros ty Hty. cbv beta in Hty.
    eapply safe_bind; [apply put_safe; [lia|]; intros m Lm Em; exact (conj Lm Em)|]. intros l1 [L1 F1]. rewrite HL in L1.
    eapply safe_bind; [apply put_safe; [rewrite L1; lia|]; intros m Lm Em; exact (conj Lm Em)|]. intros l2 [L2 F2]. rewrite L1 in L2.
    eapply safe_bind; [apply put_safe; [rewrite L2; lia|]; intros m Lm Em; exact (conj Lm Em)|]. intros l3 [L3 F3]. rewrite L2 in L3.
    eapply safe_bind; [apply put_safe; [rewrite L3; lia|]; intros m Lm Em; exact (conj Lm Em)|]. intros l4 [L4 F4]. rewrite L3 in L4.
    eapply safe_bind; [apply put_safe; [rewrite L4; lia|]; intros m Lm Em; exact (conj Lm Em)|]. intros l5 [L5 F5]. rewrite L4 in L5.
    apply safe_ret. split; [exact L5|]. right. split; [reflexivity|]. left. unfold edge_ok, off_at. cbn [s_type s_off].
    change (nth (Z.to_nat 0) l5 0) with (at_off l5 0). change (nth (Z.to_nat 1) l5 0) with (at_off l5 1). change (nth (Z.to_nat 2) l5 0) with (at_off l5 2).
    change (nth (Z.to_nat 3) l5 0) with (at_off l5 3). change (nth (Z.to_nat 4) l5 0) with (at_off l5 4).
    rewrite !F5, !F4, !F3, !F2, !F1 by lia. cbn [Z.eqb Pos.eqb]. lia.
Qed.
Lemma sao_plane_safe : forall u on old, length (s_off old) = 32%nat -> safe_or u (sao_plane on old) sao_ok.
Proof.
  intros u on old HL. unfold sao_plane. apply safe_if; intros _; [apply plane_safe; exact HL|]. apply safe_ret. split; [exact HL|left; reflexivity].
Qed.

Lemma in_get : forall A (l : list A) i v, get l i = Some v -> In v l.
Proof. intros A l i v H. unfold get in H. destruct (i <? 0); [discriminate|]. eapply nth_error_In; exact H. Qed.
Lemma lcu_safe : forall u w on infos i lf top, 0 <= i < Z.of_nat (length infos) -> 0 < w -> (lf = true -> i mod w <> 0) -> (top = true -> w <= i) ->
  Forall sao3_ok infos -> safe_or u (sao_read_lcu w on infos i lf top) sao3_ok.
Proof.
  intros u w [[e0 e1] e2] infos i lf top Hi Hw Hl Ht F. rewrite Forall_forall in F. unfold sao_read_lcu.
  assert (OFF : sao_ok sao_off_param) by (split; [reflexivity|left; reflexivity]).
  apply safe_if; intros _; [|apply safe_ret; cbn; auto].
  eapply safe_bind; [apply merge_safe|]. intros m Hm. cbv beta in Hm. apply safe_if; intros E.
  - apply safe_if; intros E2.
    + apply Z.eqb_eq in E2. subst m. assert (lf = true) by (destruct Hm as [Hm|[Hm|Hm]]; [lia|tauto|lia]).
      assert (i <> 0) by (intros ->; apply (Hl H); apply Z.mod_0_l; lia).
      apply safe_lookup; [lia|]. intros v G. apply F. eapply in_get; exact G.
    + apply Z.eqb_neq in E2. destruct (m =? 0) eqn:E3; [discriminate|]. apply Z.eqb_neq in E3.
      assert (top = true) by (destruct Hm as [Hm|[Hm|Hm]]; [lia|lia|tauto]). specialize (Ht H).
      apply safe_lookup; [lia|]. intros v G. apply F. eapply in_get; exact G.
  - apply safe_bind with (P := sao3_ok); [apply safe_lookup; [lia|]; intros v G; apply F; eapply in_get; exact G|].
    intros [[p0 p1] p2] ((A & _) & (B & _) & (C & _)).
    eapply safe_bind; [apply sao_plane_safe; exact A|]. intros q0 Q0. eapply safe_bind; [apply sao_plane_safe; exact B|]. intros q1 Q1.
    eapply safe_bind; [apply sao_plane_safe; exact C|]. intros q2 Q2. apply safe_ret. cbn. auto.
Qed.

Lemma upd_nat_forall : forall A (P : A -> Prop) l n v, Forall P l -> P v -> Forall P (upd_nat l n v).
Proof. intros A P. induction l as [|a l IH]; intros [|n] v F H; cbn; try exact F; inversion_clear F; constructor; auto. Qed.
Lemma lcus_safe : forall u w on av infos i, 0 < w -> 0 <= i -> i + Z.of_nat (length av) <= Z.of_nat (length infos) -> avail_ok w i av -> Forall sao3_ok infos ->
  safe_or u (sao_read_lcus w on infos i av) (fun r => length r = length infos /\ Forall sao3_ok r).
Proof.
  intros u w on. induction av as [|[lf top] t IH]; intros infos i Hw Hi HL AV F; cbn [sao_read_lcus avail_ok length] in *.
  - apply safe_ret. auto.
  - destruct AV as (A1 & A2 & A3). eapply safe_bind; [apply lcu_safe; [lia|exact Hw|exact A1|exact A2|exact F]|]. intros p Hp.
    unfold set. assert (E : (i <? 0) || (Z.of_nat (length infos) <=? i) = false) by (apply orb_false_intro; [apply Z.ltb_ge|apply Z.leb_gt]; lia). rewrite E.
    eapply safe_weaken; [apply IH; [exact Hw|lia|rewrite upd_nat_len; lia|exact A3|apply upd_nat_forall; [exact F|exact Hp]]|].
    cbv beta. intros r [R1 R2]. rewrite upd_nat_len in R1. auto.
Qed.

(** A band distance of one only where the data end. *)
Lemma dist_one : forall a cs a1 cs1 v, legal cs -> read_sao_type true a cs = Done (a1, cs1, Some v) -> v / 32 = 1 ->
  exists a' cs' b, sao_fixed 5 0 0 a cs = Done (a', cs', Some b) /\ sao_delta a' cs' = Done (a1, cs1, None).
Proof.
  intros a cs a1 cs1 v L H D. cbn [read_sao_type] in H. unfold bind in H at 1. pose proof (fixed_safe False 5 0 0 ltac:(lia) ltac:(lia) a cs L) as FX.
  destruct (sao_fixed 5 0 0 a cs) as [[[a' cs'] [b|]]| | |] eqn:E; try discriminate. destruct FX as [L' Hb].
  change (2 ^ (0 + Z.of_nat 5)) with 32 in Hb. change (2 ^ 0) with 1 in Hb.
  exists a', cs', b. split; [reflexivity|]. unfold bind, catch in H. pose proof (delta_safe False a' cs' L') as DS.
  destruct (sao_delta a' cs') as [[[a2 cs2] [d|]]| | |]; try discriminate.
  - exfalso. unfold ret in H. apply Done_inj in H. apply pair_equal_spec in H. destruct H as [_ H]. apply Some_inj in H. destruct DS as [_ DS].
    rewrite Z.shiftl_mul_pow2 in H by lia. change (2 ^ 5) with 32 in H. subst v.
    assert (Q : (b + (d + 2) * 32) / 32 = d + 2) by (symmetry; apply (Z.div_unique (b + (d + 2) * 32) 32 (d + 2) b); lia). lia.
  - unfold ret in H. apply Done_inj in H. apply pair_equal_spec in H. destruct H as [H _]. rewrite H. reflexivity.
Qed.
