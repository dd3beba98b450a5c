(** Ranges of the coding-unit elements. *)
From Coq Require Import ZArith List Bool Lia.
From Verif Require Import CBase CBaseProofs AecModel AecSpec SynModel SynSpec SynProofsA SynProofsD SynProofsE SynProofsF.
Import ListNotations.
Open Scope Z_scope.

Local Ltac bsym := eapply safe_bind; [apply bit_sym; unfold a_size, A_CUTYPE, A_AMP, A_PUTYPE, A_PUTYPE_MIN, A_IPRED, A_IPRED_C, A_REF, A_CBP, A_TUSPLIT, A_INTRA_PU, A_SUBTYPE, A_DQP in *; lia|].
Local Ltac bbyp := eapply safe_bind; [apply bit_byp|].

Lemma look_safe : forall u A (t : list A) i (Q : A -> Prop), 0 <= i < Z.of_nat (length t) -> Forall Q t -> safe_or u (lookup t i) Q.
Proof. intros u A t i Q Hi F. apply safe_lookup; [exact Hi|]. intros v G. rewrite Forall_forall in F. apply F. eapply in_get; exact G. Qed.
Lemma unary_bin_safe : forall u r i off max, 0 <= i < a_size r -> 0 <= i + off < a_size r -> 2 <= max -> safe_or u (unary_bin_max r i off max) (fun v => 0 <= v <= max).
Proof.
  intros u r i off max H1 H2 Hm. unfold unary_bin_max. eapply safe_bind; [apply bit_sym; exact H1|]. intros b Bb.
  apply safe_if; intros _; [apply safe_ret; lia|]. apply safe_if; intros E; [apply Z.eqb_eq in E; lia|].
  apply safe_bind with (P := fun v => 0 <= v <= max - 1); [apply safe_cont0; [exact H2|lia|auto]|]. intros v Hv. apply safe_ret. lia.
Qed.

Lemma dmh_safe : forall u level, 3 <= level <= 6 -> safe_or u (read_dmh_mode level) (fun v => 0 <= v <= 8).
Proof.
  intros u level Hl. unfold read_dmh_mode. cbv zeta. bsym. intros b _. apply safe_if; intros _; [apply safe_ret; lia|].
  bsym. intros b1 _. apply safe_if; intros _; [bbyp; intros c [-> | ->]; apply safe_ret; lia|].
  bsym. intros b2 _. apply safe_if; intros _; [bbyp; intros c [-> | ->]; apply safe_ret; lia|].
  bbyp. intros b3 B3. bbyp. intros b4 B4. apply safe_ret. destruct B3 as [-> | ->], B4 as [-> | ->]; cbn; lia.
Qed.

Lemma wpm_safe : forall u nref, 2 <= nref -> safe_or u (read_wpm nref) (fun v => 0 <= v <= nref - 1).
Proof.
  intros u nref H. unfold read_wpm. apply safe_ext; [lia| |lia|auto]. cbn [a_size A_WSKIP]. lia.
Qed.
Lemma dskip_safe : forall u, safe_or u read_dir_skip_mode (fun v => 0 <= v <= 4).
Proof.
  intros u. unfold read_dir_skip_mode. apply safe_bind with (P := fun v => 0 <= v <= 3); [apply safe_ext; [lia| |lia|auto]; cbn; lia|].
  intros v Hv. apply safe_if; intros _; [|apply safe_ret; lia]. bsym. intros b [-> | ->]; apply safe_ret; cbn; lia.
Qed.

Lemma split_safe : forall u sdip nsqt ty level flag, 0 <= ty <= 11 -> 3 <= level <= 6 ->
  (flag = true -> (ty = 8 -> (sdip = false \/ level = 3)) /\ (ty = 10 \/ ty = 11 -> sdip = true /\ 3 < level)) ->
  safe_or u (set_tu_split sdip nsqt ty level flag) (fun s => split_ok level s).
Proof.
  intros u sdip nsqt ty level flag Ht Hl Hf. unfold set_tu_split. cbv zeta. apply safe_if; intros E.
  - destruct (Hf E) as [F1 F2].
    apply safe_bind with (P := fun v => nth_error tu_split_type (Z.to_nat ty) = Some v).
    { apply safe_lookup; [change (Z.of_nat (length tu_split_type)) with 12; lia|]. intros v G. unfold get in G. destruct (ty <? 0); [discriminate|exact G]. }
    intros [a b] G. apply safe_ret. unfold split_ok, NON, CROSS, HOR, VER in *.
    assert (T : ty = 0 \/ ty = 1 \/ ty = 2 \/ ty = 3 \/ ty = 4 \/ ty = 5 \/ ty = 6 \/ ty = 7 \/ ty = 8 \/ ty = 9 \/ ty = 10 \/ ty = 11) by lia.
    assert (LV : (3 <? level) = false <-> level = 3) by (rewrite Z.ltb_ge; lia).
    destruct (3 <? level) eqn:EL; [apply Z.ltb_lt in EL|].
    + repeat (destruct T as [-> | T]); try subst ty; cbn in G; apply Some_inj, pair_equal_spec in G; destruct G as [<- <-]; destruct sdip, nsqt; cbn [is_intra_mode Z.leb Z.compare Pos.compare Pos.compare_cont andb]; unfold NON, CROSS, HOR, VER; try lia;
        try (destruct (F2 ltac:(lia)); discriminate); try (destruct (F1 ltac:(lia)); [discriminate|lia]).
    + assert (level = 3) by (apply LV; reflexivity). subst level. rewrite andb_false_r.
      repeat (destruct T as [-> | T]); try subst ty; cbn in G; apply Some_inj, pair_equal_spec in G; destruct G as [<- <-]; unfold NON, CROSS, HOR, VER; try lia; destruct (F2 ltac:(lia)); lia.
  - apply safe_ret. unfold split_ok, NON. lia.
Qed.

Lemma intra_type_safe : forall u sdip nsqt level, 3 <= level <= 6 ->
  safe_or u (read_intra_cu_type sdip nsqt level) (fun r => intra_type (fst r) /\ split_ok level (snd r)).
Proof.
  intros u sdip nsqt level Hl. unfold read_intra_cu_type. cbv zeta. remember (((level =? 5) || (level =? 4)) && sdip) as sd eqn:Esd.
  assert (SD : sd = true -> sdip = true /\ 3 < level).
  { intros ->. symmetry in Esd. apply andb_prop in Esd. destruct Esd as [E1 E2]. split; [exact E2|]. apply orb_prop in E1. destruct E1 as [E1|E1]; apply Z.eqb_eq in E1; lia. }
  clear Esd.
  apply safe_bind with (P := bit).
  { apply safe_if; intros _; [|apply safe_ret; left; reflexivity]. apply bit_sym. destruct sd; cbn; lia. }
  intros split Bs.
  apply safe_bind with (P := fun ty => intra_type ty /\ (split <> 0 -> (ty = 9 /\ sd = false) \/ ((ty = 10 \/ ty = 11) /\ sd = true))).
  { unfold intra_type. apply safe_if; intros E; [apply Z.eqb_eq in E; apply safe_ret; split; [lia|intros; contradiction]|].
    destruct sd.
    - eapply safe_bind; [apply bit_sym; cbn; lia|]. intros b [-> | ->]; apply safe_ret; cbn; split; try lia; intros _; right; auto.
    - apply safe_ret. split; [lia|auto]. }
  intros ty [Hty Ht2]. eapply safe_bind; [apply split_safe; [unfold intra_type in Hty; lia|exact Hl|]|].
  - intros E. apply negb_true_iff, Z.eqb_neq in E. destruct (Ht2 E) as [[-> _]|[T S2]]; split; try lia; intros _; apply SD; exact S2.
  - intros sp Hsp. apply safe_ret. auto.
Qed.

Lemma type_bins_safe : forall u f level bin ctx s max, 0 <= ctx <= 5 -> 0 <= s <= max -> max - s <= Z.of_nat f -> safe_or u (cu_type_bins f level bin ctx s max) (fun v => 0 <= v <= max).
Proof.
  intros u. induction f as [|f IH]; intros level bin ctx s max Hc Hs Hf; cbn [cu_type_bins].
  - apply safe_if; intros E; [apply Z.ltb_lt in E; lia|apply safe_ret; lia].
  - apply safe_if; intros E; [|apply safe_ret; lia]. apply Z.ltb_lt in E.
    apply safe_bind with (P := bit); [apply safe_if; intros _; [apply safe_fin; [left; reflexivity|right; reflexivity]|apply bit_sym; cbn; lia]|].
    intros b _. apply safe_bind with (P := fun _ => True); [apply safe_check; auto|]. intros _ _.
    apply safe_if; intros _; [apply IH; lia|apply safe_ret; lia].
Qed.
Lemma to_i8_small : forall v, 0 <= v <= 4 -> to_i8 v = v.
Proof. intros v H. unfold to_i8. rewrite Z.mod_small by lia. lia. Qed.
Lemma cu_type_safe : forall u level slice amp mhp wsm nref, 3 <= level <= 6 -> nref <= 4 ->
  safe_or u (read_cu_type level slice amp mhp wsm nref)
    (fun r => -1 <= fst r <= 7 \/ fst r = 9) .
Proof.
  intros u level slice amp mhp wsm nref Hl Hn. unfold read_cu_type.
  apply safe_bind with (P := fun ty => -1 <= ty <= 7 \/ ty = 9).
  - apply safe_if; intros _; [|apply safe_ret; lia].
    eapply safe_bind; [apply (type_bins_safe u 7 level 0 0 0); [lia|destruct (level =? 3); lia|destruct (level =? 3); lia]|]. intros s Hs. cbv beta in Hs.
    apply safe_bind with (P := fun ty => -1 <= ty <= 3 \/ ty = 9).
    { destruct (level =? 3); (apply look_safe; [cbn [length]; lia|]; repeat (constructor; [lia|]); constructor). }
    intros ty Hty. apply safe_if; intros E; [|apply safe_ret; lia].
    apply andb_prop in E. destruct E as [_ E]. apply orb_prop in E.
    bsym. intros b _. apply safe_if; intros _; [|apply safe_ret; lia]. bsym. intros c _. apply safe_ret.
    destruct E as [E|E]; apply Z.eqb_eq in E; subst ty; destruct (c =? 0); lia.
  - intros ty Hty. apply safe_if; intros _; [|apply safe_ret; cbn; lia].
    apply safe_bind with (P := fun _ => True).
    { apply safe_if; intros E; [|apply safe_ret; auto]. apply andb_prop in E. destruct E as [_ E]. apply Z.ltb_lt in E.
      eapply safe_weaken; [apply wpm_safe; lia|auto]. }
    intros w _. apply safe_bind with (P := fun _ => True).
    { apply safe_if; intros _; [eapply safe_weaken; [apply dskip_safe|auto]|apply safe_ret; auto]. }
    intros d _. apply safe_ret. cbn. lia.
Qed.
Lemma cu_type_modes : forall u level slice amp mhp wsm nref, 3 <= level <= 6 -> nref <= 4 ->
  safe_or u (read_cu_type level slice amp mhp wsm nref)
    (fun r => match snd r with Some (w, d) => 0 <= w <= 3 /\ w <= Z.max 0 (nref - 1) /\ 0 <= d <= 4 /\ (w = 0 \/ d = 0) | None => 1 <= fst r end).
Proof.
  intros u level slice amp mhp wsm nref Hl Hn. unfold read_cu_type.
  apply safe_bind with (P := fun ty => True).
  - apply safe_if; intros _; [|apply safe_ret; auto].
    eapply safe_bind; [apply (type_bins_safe u 7 level 0 0 0); [lia|destruct (level =? 3); lia|destruct (level =? 3); lia]|]. intros s Hs. cbv beta in Hs.
    apply safe_bind with (P := fun ty => True).
    { destruct (level =? 3); (apply look_safe; [cbn [length]; lia|]; repeat (constructor; [auto|]); constructor). }
    intros ty Hty. apply safe_if; intros E; [|apply safe_ret; auto].
    bsym. intros b _. apply safe_if; intros _; [|apply safe_ret; auto]. bsym. intros c _. apply safe_ret. auto.
  - intros ty _. apply safe_if; intros Et; [|apply Z.leb_gt in Et; apply safe_ret; cbn; lia].
    apply safe_bind with (P := fun w => 0 <= w <= 3 /\ w <= Z.max 0 (nref - 1)).
    { apply safe_if; intros E; [|apply safe_ret; lia]. apply andb_prop in E. destruct E as [_ E]. apply Z.ltb_lt in E.
      eapply safe_weaken; [apply wpm_safe; lia|]. cbv beta. intros; lia. }
    intros w Hw. apply safe_bind with (P := fun d => 0 <= d <= 4 /\ (w = 0 \/ d = 0)).
    { apply safe_if; intros E; [|apply safe_ret; lia]. apply andb_prop in E. destruct E as [E _]. apply Z.eqb_eq in E.
      eapply safe_weaken; [apply dskip_safe|]. cbv beta. intros; lia. }
    intros d Hd. apply safe_ret. cbn [snd]. rewrite !to_i8_small by lia. lia.
Qed.

Lemma row_safe : forall u (t : list (list Z)) i j lo hi, 0 <= i < Z.of_nat (length t) -> 0 <= j -> Forall (fun row => j < Z.of_nat (length row) /\ Forall (fun v => lo <= v <= hi) row) t ->
  safe_or u (look2 t i j) (fun v => lo <= v <= hi).
Proof.
  intros u t i j lo hi Hi Hj F. unfold look2. eapply safe_bind; [apply look_safe; [exact Hi|exact F]|]. intros row [H1 H2]. apply look_safe; [lia|exact H2].
Qed.
Local Ltac rows := repeat (constructor; [split; [cbn [length]; lia|repeat (constructor; [lia|]); constructor]|]); constructor.

Lemma b_pdir_safe : forall u ty level, 1 <= ty <= 7 -> safe_or u (read_b_pdir ty level) (fun v => 0 <= v <= 15 /\ (ty = 1 -> v <= 3)).
Proof.
  intros u ty level Ht. unfold read_b_pdir. apply safe_if; intros E.
  - apply safe_bind with (P := fun v => 0 <= v <= 2); [apply safe_ext; [lia| |lia|auto]; cbn; lia|]. intros v Hv.
    apply safe_if; intros _; [|apply safe_ret; lia]. bsym. intros b [-> | ->]; apply safe_ret; cbn; lia.
  - apply Z.eqb_neq in E. apply safe_if; intros _.
    + bsym. intros b Bb. cbv zeta. bsym. intros c Bc.
      eapply safe_weaken; [apply (row_safe u dir2offset _ _ 0 15)|cbv beta; lia]; unfold dir2offset; destruct Bb as [-> | ->], Bc as [-> | ->]; cbn [Z.eqb]; try (cbn [length]; lia); try lia; rows.
    + apply safe_bind with (P := fun v => 0 <= v <= 2); [apply safe_ext; [lia| |lia|auto]; cbn; lia|]. intros v Hv.
      apply safe_bind with (P := fun d => 0 <= d <= 3).
      { apply safe_if; intros _; [|apply safe_ret; lia]. bsym. intros b [-> | ->]; apply safe_ret; cbn; lia. }
      intros d0 Hd. bsym. intros same _. apply safe_bind with (P := fun d => 0 <= d <= 3).
      { apply safe_if; intros _; [apply safe_ret; lia|]. bsym. intros b _. apply safe_if; intros _; [apply safe_ret; destruct (d0 =? 0); lia|].
        bsym. intros c _. apply safe_ret. destruct (negb (c =? 0)), (d0 <=? 1), (d0 =? 3); lia. }
      intros d1 Hd1. apply safe_bind with (P := fun e => 0 <= e <= 3); [apply look_safe; [cbn [length]; lia|]; repeat (constructor; [lia|]); constructor|]. intros e0 H0.
      apply safe_bind with (P := fun e => 0 <= e <= 3); [apply look_safe; [cbn [length]; lia|]; repeat (constructor; [lia|]); constructor|]. intros e1 H1.
      eapply safe_weaken; [apply (row_safe u dir2offset _ _ 0 15); [unfold dir2offset; cbn [length]; lia|lia|unfold dir2offset; rows]|cbv beta; lia].
Qed.
Lemma dhp_safe : forall u ty, safe_or u (read_pdir_dhp ty) (fun v => 0 <= v <= 3 /\ (ty = 1 -> v <= 1)).
Proof.
  intros u ty. unfold read_pdir_dhp. apply safe_if; intros E.
  - eapply safe_weaken; [apply bit_sym; cbn; lia|]. intros v [-> | ->]; lia.
  - apply Z.eqb_neq in E. bsym. intros d Bd. bsym. intros s Bs.
    eapply safe_weaken; [apply (row_safe u [[0; 1]; [2; 3]] _ _ 0 3)|cbv beta; lia]; destruct Bd as [-> | ->], Bs as [-> | ->]; cbn [Z.eqb]; try (cbn [length]; lia); try lia; rows.
Qed.
Lemma pdir_pf_safe : forall u ty pdir, 1 <= ty <= 7 -> 0 <= pdir <= 3 -> safe_or u (set_pdir_pf ty pdir) (fun l => directions l /\ Forall (fun d => d = 0 \/ d = 4) l).
Proof.
  intros u ty pdir Ht Hp. unfold set_pdir_pf. apply safe_if; intros E.
  - apply safe_ret. destruct (pdir =? 0); (split; [split; [reflexivity|]|]); repeat (constructor; [lia|]); constructor.
  - assert (X : (2 <=? ty) && (ty <=? 7) = true) by (apply Z.eqb_neq in E; apply andb_true_intro; split; apply Z.leb_le; lia). rewrite X.
    apply safe_bind with (P := fun d => d = 0 \/ d = 4); [apply look_safe; [cbn [length]; lia|]; repeat (constructor; [lia|]); constructor|]. intros a Ha.
    apply safe_bind with (P := fun d => d = 0 \/ d = 4); [apply look_safe; [cbn [length]; lia|]; repeat (constructor; [lia|]); constructor|]. intros b Hb.
    apply safe_ret. split; [split; [reflexivity|]|]; repeat (constructor; [lia|]); constructor.
Qed.
Lemma pdir_b_safe : forall u ty dskip pdir, 0 <= ty <= 7 -> (ty = 0 -> 0 <= dskip <= 4) -> (ty <> 0 -> 0 <= pdir <= 15 /\ (ty = 1 -> pdir <= 3)) ->
  safe_or u (set_pdir_b ty dskip pdir) (fun r => directions (fst r) /\ Forall2 refs_for (fst r) (snd r)).
Proof.
  intros u ty dskip pdir Ht H0 H1. unfold set_pdir_b.
  apply safe_bind with (P := fun l => length l = 4%nat /\ Forall (fun d => 0 <= d <= 3) l).
  - apply safe_if; intros E0.
    + apply Z.eqb_eq in E0. specialize (H0 E0).
      apply safe_bind with (P := fun d => 0 <= d <= 3); [apply look_safe; [cbn [length]; lia|]; repeat (constructor; [lia|]); constructor|]. intros d Hd.
      apply safe_ret. split; [reflexivity|]. repeat (constructor; [lia|]); constructor.
    + apply Z.eqb_neq in E0. destruct (H1 E0) as [H2 H3]. apply safe_if; intros E1.
      * apply Z.eqb_eq in E1. specialize (H3 E1). apply safe_ret. split; [reflexivity|]. repeat (constructor; [lia|]); constructor.
      * apply Z.eqb_neq in E1. assert (X : (2 <=? ty) && (ty <=? 7) = true) by (apply andb_true_intro; split; apply Z.leb_le; lia). rewrite X.
        apply safe_bind with (P := fun d => 0 <= d <= 3); [apply look_safe; [unfold b_pdir0; cbn [length]; lia|]; repeat (constructor; [lia|]); constructor|]. intros a Ha.
        apply safe_bind with (P := fun d => 0 <= d <= 3); [apply look_safe; [unfold b_pdir1; cbn [length]; lia|]; repeat (constructor; [lia|]); constructor|]. intros b Hb.
        apply safe_ret. split; [reflexivity|]. repeat (constructor; [lia|]); constructor.
  - intros l [L4 F]. apply safe_bind with (P := fun r => Forall2 refs_for l r).
    + clear L4. induction F as [|d t Hd F IH]; [apply safe_ret; constructor|].
      apply safe_bind with (P := refs_for d).
      * apply safe_lookup; [cbn [length]; lia|]. intros v G. unfold refs_for.
        assert (T : d = 0 \/ d = 1 \/ d = 2 \/ d = 3) by lia. destruct T as [-> | [-> | [-> | ->]]]; cbn in G; apply Some_inj in G; subst v; cbn; (repeat split; try lia; intros [X|X]; lia).
      * intros x Hx. eapply safe_bind; [exact IH|]. intros y Hy. apply safe_ret. constructor; assumption.
    + intros r Hr. apply safe_ret. cbn [fst snd]. split; [|exact Hr]. split; [exact L4|]. eapply Forall_impl; [|exact F]. cbv beta. intros; lia.
Qed.

Lemma ref_loop_safe : forall u f s ctx nref, 0 <= ctx <= 2 -> 1 <= s <= nref - 1 -> nref - 1 - s <= Z.of_nat f -> safe_or u (ref_loop f s ctx nref) (fun v => 0 <= v <= nref - 1).
Proof.
  intros u. induction f as [|f IH]; intros s ctx nref Hc Hs Hf; cbn [ref_loop].
  - apply safe_if; intros E; [apply safe_ret; lia|]. apply Z.eqb_neq in E. lia.
  - apply safe_if; intros E; [apply safe_ret; lia|]. apply Z.eqb_neq in E. bsym. intros b _.
    apply safe_if; intros _; [apply safe_ret; lia|]. apply IH; lia.
Qed.
Lemma reference_safe : forall u nref d, 1 <= nref <= 4 -> (d = 4 -> nref = 2) -> safe_or u (read_reference nref d)
  (fun r => 0 <= fst r <= nref - 1 /\ (snd r = -1 \/ (d = 4 /\ 0 <= snd r <= nref - 1 /\ snd r <> fst r))).
Proof.
  intros u nref d Hn Hd. unfold read_reference. apply safe_bind with (P := fun v => 0 <= v <= nref - 1).
  - apply safe_if; intros E; [|apply safe_ret; lia]. apply Z.ltb_lt in E.
    apply safe_bind with (P := fun v => 0 <= v <= nref - 1).
    + unfold read_ref_frame. bsym. intros b _. apply safe_if; intros _; [apply safe_ret; lia|]. apply ref_loop_safe; lia.
    + intros v Hv. apply safe_bind with (P := fun _ => True); [apply safe_check; auto|]. intros _ _. apply safe_ret. rewrite to_i8_small by lia. lia.
  - intros r Hr. apply safe_ret. cbn [fst snd]. split; [exact Hr|]. destruct (d =? 4) eqn:E; [|auto]. apply Z.eqb_eq in E. right. split; [exact E|]. specialize (Hd E). subst nref.
    destruct (r =? 0) eqn:E1; [apply Z.eqb_eq in E1|apply Z.eqb_neq in E1]; lia.
Qed.

Lemma pmode_safe : forall u, safe_or u read_intra_pmode (fun v => -2 <= v <= 31).
Proof.
  intros u. unfold read_intra_pmode. bsym. intros b _. apply safe_if; intros _; [bsym; intros c [-> | ->]; apply safe_ret; lia|].
  bsym. intros b4 B4. bsym. intros b3 B3. bsym. intros b2 B2. bsym. intros b1 B1. bsym. intros b0 B0. apply safe_ret.
  rewrite !Z.shiftl_mul_pow2 by lia. change (2 ^ 4) with 16. change (2 ^ 3) with 8. change (2 ^ 2) with 4. change (2 ^ 1) with 2.
  unfold bit in *. lia.
Qed.
Lemma luma_mode_range : forall top lf code, 0 <= top <= 32 -> 0 <= lf <= 32 -> -2 <= code <= 31 -> 0 <= luma_mode top lf code <= 32.
Proof.
  intros top lf code Ht Hl Hc. unfold luma_mode. cbv zeta.
  assert (TI : forall v, 0 <= v <= 35 -> to_i8 v = v) by (intros v Hv; unfold to_i8; rewrite Z.mod_small by lia; lia).
  destruct (Z.min top lf =? Z.max top lf) eqn:E.
  - set (m1 := if Z.max top lf =? 0 then 2 else Z.max top lf) in *. assert (1 <= m1 <= 32) by (subst m1; destruct (Z.max top lf =? 0) eqn:E0; [lia|apply Z.eqb_neq in E0; lia]).
    set (v := if code <? 0 then if code + 2 =? 0 then 0 else m1 else code + (if 0 <=? code then 1 else 0) + (if m1 <=? code + 1 then 1 else 0)).
    assert (0 <= v <= 35) by (subst v; destruct (code <? 0) eqn:Q; [destruct (code + 2 =? 0); lia|apply Z.ltb_ge in Q; destruct (0 <=? code), (m1 <=? code + 1); lia]).
    rewrite (TI v) by lia. destruct ((v <? 0) || (33 <=? v)) eqn:E2.
    + destruct (v <? 0) eqn:Q1; [rewrite TI; lia|]. destruct (32 <? v) eqn:Q2; [rewrite TI; lia|]. apply Z.ltb_ge in Q2. rewrite TI; lia.
    + apply orb_false_elim in E2. destruct E2 as [A B]. apply Z.leb_gt in B. lia.
  - apply Z.eqb_neq in E. set (m0 := Z.min top lf) in *. set (m1 := Z.max top lf) in *.
    set (v := if code <? 0 then if code + 2 =? 0 then m0 else m1 else code + (if m0 <=? code then 1 else 0) + (if m1 <=? code + 1 then 1 else 0)).
    assert (0 <= v <= 35) by (subst v m0 m1; destruct (code <? 0) eqn:Q; [destruct (code + 2 =? 0); lia|apply Z.ltb_ge in Q; destruct (Z.min top lf <=? code), (Z.max top lf <=? code + 1); lia]).
    rewrite (TI v) by lia. destruct ((v <? 0) || (33 <=? v)) eqn:E2.
    + destruct (v <? 0) eqn:Q1; [rewrite TI; lia|]. destruct (32 <? v) eqn:Q2; [rewrite TI; lia|]. apply Z.ltb_ge in Q2. rewrite TI; lia.
    + apply orb_false_elim in E2. destruct E2 as [A B]. apply Z.leb_gt in B. lia.
Qed.
Lemma read_luma_safe : forall u top lf, 0 <= top <= 32 -> 0 <= lf <= 32 -> safe_or u (read_luma_mode top lf) (fun v => 0 <= v <= 32).
Proof.
  intros u top lf Ht Hl. unfold read_luma_mode. eapply safe_bind; [apply pmode_safe|]. intros code Hc.
  apply safe_bind with (P := fun _ => True); [apply safe_check; auto|]. intros _ _. apply safe_ret. apply luma_mode_range; assumption.
Qed.
(** Every mode has exactly one code. *)
Definition luma_all (top lf : Z) : bool :=
  let codes := map (fun i => Z.of_nat i - 2) (seq 0 33) in
  let modes := map (luma_mode top lf) codes in
  forallb (fun m => existsb (Z.eqb (Z.of_nat m)) modes) (seq 0 33).
Lemma luma_surj : forall top lf m, 0 <= top <= 32 -> 0 <= lf <= 32 -> 0 <= m <= 32 -> exists code, -2 <= code <= 30 /\ luma_mode top lf code = m.
Proof.
  assert (A : forallb (fun t => forallb (fun l => luma_all (Z.of_nat t) (Z.of_nat l)) (seq 0 33)) (seq 0 33) = true) by (vm_compute; reflexivity).
  intros top lf m Ht Hl Hm. rewrite forallb_forall in A. specialize (A (Z.to_nat top)). rewrite in_seq in A. specialize (A ltac:(lia)).
  rewrite forallb_forall in A. specialize (A (Z.to_nat lf)). rewrite in_seq in A. specialize (A ltac:(lia)).
  rewrite !Z2Nat.id in A by lia. unfold luma_all in A. rewrite forallb_forall in A. specialize (A (Z.to_nat m)). rewrite in_seq in A. specialize (A ltac:(lia)).
  rewrite Z2Nat.id in A by lia. apply existsb_exists in A. destruct A as (x & Ix & Ex). apply Z.eqb_eq in Ex. subst x.
  rewrite map_map in Ix. apply in_map_iff in Ix. destruct Ix as (i & E & Ii). apply in_seq in Ii. exists (Z.of_nat i - 2). split; [lia|exact E].
Qed.
Lemma luma_inj : forall top lf c d, 0 <= top <= 32 -> 0 <= lf <= 32 -> -2 <= c <= 30 -> -2 <= d <= 30 -> luma_mode top lf c = luma_mode top lf d -> c = d.
Proof.
  assert (A : forallb (fun t => forallb (fun l => forallb (fun c => forallb (fun d => negb (luma_mode (Z.of_nat t) (Z.of_nat l) (Z.of_nat c - 2) =? luma_mode (Z.of_nat t) (Z.of_nat l) (Z.of_nat d - 2)) || Nat.eqb c d) (seq 0 33)) (seq 0 33)) (seq 0 33)) (seq 0 33) = true) by (vm_compute; reflexivity).
  intros top lf c d Ht Hl Hc Hd E. rewrite forallb_forall in A. specialize (A (Z.to_nat top)). rewrite in_seq in A. specialize (A ltac:(lia)).
  rewrite forallb_forall in A. specialize (A (Z.to_nat lf)). rewrite in_seq in A. specialize (A ltac:(lia)).
  rewrite forallb_forall in A. specialize (A (Z.to_nat (c + 2))). rewrite in_seq in A. specialize (A ltac:(lia)).
  rewrite forallb_forall in A. specialize (A (Z.to_nat (d + 2))). rewrite in_seq in A. specialize (A ltac:(lia)).
  rewrite !Z2Nat.id in A by lia. replace (c + 2 - 2) with c in A by lia. replace (d + 2 - 2) with d in A by lia.
  rewrite E, Z.eqb_refl in A. cbn [negb orb] in A. apply Nat.eqb_eq in A. lia.
Qed.

Lemma chroma_mode_safe : forall u ctx lm, 0 <= ctx <= 1 -> 0 <= lm <= 32 -> safe_or u (read_intra_pmode_c ctx lm) (fun v => 0 <= v <= 4).
Proof.
  intros u ctx lm Hc Hl. unfold read_intra_pmode_c.
  apply safe_bind with (P := fun _ => True); [apply safe_lookup; [change (Z.of_nat (length luma2chroma)) with 33; lia|auto]|]. intros v _.
  bsym. intros b _. apply safe_if; intros _; [apply safe_ret; lia|].
  eapply safe_bind; [apply unary_bin_safe; [cbn; lia|cbn; lia|lia]|]. intros s Hs. cbv beta in Hs. apply safe_ret. unfold chroma_mode.
  destruct ((0 <=? v) && (v <=? s + 1)); [|lia]. destruct (Z.eqb_spec (s + 1) 4); lia.
Qed.

Lemma dqp_safe : forall u depth last, 8 <= depth <= 10 -> safe_or u (delta_qp depth last) (fun v => - (32 + 4 * (depth - 8)) <= v <= 32 + 4 * (depth - 8)).
Proof.
  intros u depth last Hd. unfold delta_qp. apply safe_bind with (P := fun _ => True).
  - unfold read_cu_delta_qp. eapply safe_bind; [apply bit_sym; destruct (last =? 0); cbn; lia|]. intros b _.
    apply safe_bind with (P := fun _ => True).
    + apply safe_if; intros _; [apply safe_ret; auto|]. eapply safe_bind; [apply unary_bin_safe; cbn; lia|]. intros v _. apply safe_ret. auto.
    + intros s _. apply safe_ret. auto.
  - intros d _. cbv zeta. apply safe_ret. destruct (to_i8 d <? - (32 + 4 * (depth - 8))) eqn:A; [lia|]. destruct (32 + 4 * (depth - 8) <? to_i8 d) eqn:B; [lia|]. apply Z.ltb_ge in A, B. lia.
Qed.

Definition flags_ok (nb : Z -> Z -> Z * Z) : Prop := forall k cbp, bit (fst (nb k cbp)) /\ bit (snd (nb k cbp)).
Lemma ctp_safe : forall u nb k cbp, flags_ok nb -> safe_or u (read_ctp_y (fst (nb k cbp)) (snd (nb k cbp))) bit.
Proof. intros u nb k cbp F. destruct (F k cbp) as [A B]. unfold read_ctp_y. apply bit_sym. unfold bit in *. cbn [a_size A_CBP]. lia. Qed.
Lemma ctp4_safe : forall u nb cbp, flags_ok nb -> safe_or u (read_ctp_4 nb cbp) (fun v => cbp <= v <= cbp + 15).
Proof.
  intros u nb cbp F. unfold read_ctp_4. eapply safe_bind; [apply ctp_safe; exact F|]. intros b0 B0. cbv zeta.
  eapply safe_bind; [apply ctp_safe; exact F|]. intros b1 B1. eapply safe_bind; [apply ctp_safe; exact F|]. intros b2 B2.
  eapply safe_bind; [apply ctp_safe; exact F|]. intros b3 B3. apply safe_ret. rewrite !Z.shiftl_mul_pow2 by lia.
  change (2 ^ 3) with 8. change (2 ^ 2) with 4. change (2 ^ 1) with 2. unfold bit in *. lia.
Qed.
Lemma cbp_safe : forall u ty level c400 sdip nsqt nb, 0 <= ty <= 11 -> 3 <= level <= 6 -> flags_ok nb ->
  safe_or u (read_cbp ty level c400 sdip nsqt nb)
    (fun r => 0 <= fst r <= 63 /\ (c400 = true -> fst r <= 15) /\ (ty <= 7 -> exists sp, snd r = Some sp /\ split_ok level sp) /\ (8 <= ty -> snd r = None)).
Proof.
  intros u ty level c400 sdip nsqt nb Ht Hl F. unfold read_cbp. apply safe_if; intros E.
  - unfold is_intra_mode in E. apply negb_true_iff, Z.leb_gt in E.
    assert (SP : forall flag, safe_or u (set_tu_split sdip nsqt ty level flag) (fun s => split_ok level s)) by (intros flag; apply split_safe; [lia|exact Hl|intros _; lia]).
    apply safe_bind with (P := fun _ => True); [apply safe_if; intros _; [eapply safe_weaken; [apply bit_sym; cbn; lia|auto]|apply safe_ret; auto]|]. intros z _.
    apply safe_if; intros _.
    + bsym. intros sf _. eapply safe_bind; [apply SP|]. intros sp Hsp.
      apply safe_bind with (P := fun c => (c = 0 \/ c = 16 \/ c = 32 \/ c = 48) /\ (c400 = true -> c = 0)).
      { apply safe_if; intros E4; [apply safe_ret; auto|]. bsym. intros b _. apply safe_if; intros _; [apply safe_ret; auto|].
        bsym. intros b1 _. apply safe_if; intros _; [apply safe_ret; split; [auto|congruence]|]. bsym. intros b2 _. apply safe_ret. destruct (b2 =? 1); (split; [auto|congruence]). }
      intros c [Hc H4]. apply safe_bind with (P := fun v => c <= v <= c + 15).
      { apply safe_if; intros _; [|apply ctp4_safe; exact F]. apply safe_if; intros E0; [apply Z.eqb_eq in E0; apply safe_ret; lia|].
        eapply safe_bind; [apply ctp_safe; exact F|]. intros b Bb. apply safe_ret. unfold bit in Bb. lia. }
      intros v Hv. apply safe_ret. cbn [fst snd]. split; [lia|]. split; [intros X; specialize (H4 X); lia|]. split; [intros _; exists sp; auto|lia].
    + eapply safe_bind; [apply SP|]. intros sp Hsp. apply safe_ret. cbn [fst snd]. split; [lia|]. split; [lia|]. split; [intros _; exists sp; auto|lia].
  - unfold is_intra_mode in E. apply negb_false_iff, Z.leb_le in E.
    apply safe_bind with (P := fun v => 0 <= v <= 15).
    { apply safe_if; intros _; [|apply ctp4_safe; exact F]. eapply safe_weaken; [apply ctp_safe; exact F|]. intros b Bb. unfold bit in Bb. lia. }
    intros v Hv. apply safe_bind with (P := fun c => (c = 0 \/ c = 16 \/ c = 32 \/ c = 48) /\ (c400 = true -> c = 0)).
    { apply safe_if; intros E4; [apply safe_ret; auto|]. bsym. intros b _. apply safe_if; intros _; [apply safe_ret; auto|].
      bsym. intros b1 _. apply safe_if; intros _; [apply safe_ret; split; [auto|congruence]|]. bsym. intros b2 Bb. apply safe_ret. destruct Bb as [-> | ->]; cbn; (split; [auto|congruence]). }
    intros c [Hc H4]. apply safe_ret. cbn [fst snd]. split; [lia|]. split; [intros X; specialize (H4 X); lia|]. split; [lia|auto].
Qed.
Lemma split_flag_safe : forall u level, 4 <= level <= 6 -> safe_or u (read_split_flag level) bit.
Proof. intros u level H. apply bit_sym. cbn; lia. Qed.
