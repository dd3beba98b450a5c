(** Escape codes and motion vector differences. *)
From Coq Require Import ZArith List Bool Lia.
From Verif Require Import CBase CBaseProofs AecModel AecSpec AecProofsA SynModel SynSpec SynProofsA SynProofsD.
Import ListNotations.
Open Scope Z_scope.

Lemma byp_cases : forall a cs a1 cs1 o, byp a cs = Done (a1, cs1, o) -> cs1 = cs /\ exists b, o = Some b /\ bit b.
Proof.
  intros a cs a1 cs1 o H. unfold byp in H. pose proof (eq_prob_bit a) as B. destruct (decode_eq_prob a) as [[a2 b]| | |]; try discriminate.
  cbn in B. apply Done_inj in H. apply pair_equal_spec in H. destruct H as [H H1]. apply pair_equal_spec in H. destruct H as [_ H].
  split; [congruence|]. exists b. split; [congruence|exact B].
Qed.

Lemma byp_undef : forall a cs, byp a cs <> Undef /\ byp a cs <> Hang.
Proof. intros a cs. unfold byp. destruct (decode_eq_prob a) as [[a2 b]| | |]; split; discriminate. Qed.

(** Drawing in two parts. *)
Lemma draw_app : forall n m a cs a1 cs1 x a2 cs2 y, draw n a cs = Done (a1, cs1, Some x) -> draw m a1 cs1 = Done (a2, cs2, Some y) ->
  draw (n + m) a cs = Done (a2, cs2, Some (x ++ y)).
Proof.
  induction n as [|n IH]; intros m a cs a1 cs1 x a2 cs2 y H1 H2.
  - cbn in H1. apply Done_inj in H1. apply pair_equal_spec in H1. destruct H1 as [H1 Hx]. apply pair_equal_spec in H1. destruct H1 as [<- <-].
    apply Some_inj in Hx. subst x. exact H2.
  - cbn [draw Nat.add] in *. unfold bind in *. destruct (byp a cs) as [[[b1 c1] [b|]]| | |] eqn:E; try discriminate.
    destruct (draw n b1 c1) as [[[b2 c2] [t|]]| | |] eqn:E2; try discriminate. cbn [ret] in H1. unfold ret in H1.
    apply Done_inj in H1. apply pair_equal_spec in H1. destruct H1 as [H1 Hx]. apply pair_equal_spec in H1. destruct H1 as [<- <-].
    apply Some_inj in Hx. subst x. rewrite (IH m b1 c1 b2 c2 t a2 cs2 y E2 H2). reflexivity.
Qed.

Lemma check_cases : forall a cs a1 cs1 x, check a cs = Done (a1, cs1, Some x) -> a1 = a /\ cs1 = cs.
Proof. intros a cs a1 cs1 x H. unfold check in H. destruct (err a); [discriminate|]. split; congruence. Qed.

Lemma esc_prefix_draw : forall f acc g a cs a1 cs1 acc1 g1, 0 <= g -> esc_prefix f acc g a cs = Done (a1, cs1, Some (acc1, g1)) ->
  exists k, g1 = g + Z.of_nat k /\ acc1 = acc + 2 ^ g1 - 2 ^ g /\ draw (k + 1) a cs = Done (a1, cs1, Some (repeat false k ++ [true])).
Proof.
  induction f as [|f IH]; intros acc g a cs a1 cs1 acc1 g1 Hg H; cbn [esc_prefix] in H; [discriminate|].
  unfold bind in H at 1. destruct (byp a cs) as [[[b1 c1] [l|]]| | |] eqn:E; try discriminate.
  destruct (byp_cases _ _ _ _ _ E) as [-> (l' & El & Bl)]. apply Some_inj in El. subst l'.
  unfold bind in H at 1. destruct (check b1 cs) as [[[b2 c2] [x|]]| | |] eqn:E2; try discriminate.
  destruct (check_cases _ _ _ _ _ E2) as [-> ->]. destruct (l =? 0) eqn:L0.
  - destruct (31 <=? g); [discriminate|]. unfold bind in H at 1. unfold chk in H.
    destruct ((-2147483648 <=? acc + Z.shiftl 1 g) && (acc + Z.shiftl 1 g <=? 2147483647)); [|discriminate]. unfold ret in H.
    destruct (IH (acc + Z.shiftl 1 g) (g + 1) b1 cs a1 cs1 acc1 g1 ltac:(lia) H) as (k & K1 & K2 & K3). exists (S k).
    split; [lia|]. rewrite Z.shiftl_mul_pow2 in K2 by lia. rewrite Z.pow_add_r in K2 by lia. split; [lia|].
    cbn [Nat.add draw repeat app]. unfold bind. rewrite E, K3. rewrite L0. reflexivity.
  - unfold ret in H. apply Done_inj in H. apply pair_equal_spec in H. destruct H as [H Hx]. apply pair_equal_spec in H. destruct H as [<- <-].
    apply Some_inj in Hx. apply pair_equal_spec in Hx. destruct Hx as [<- <-]. exists 0%nat. split; [lia|]. split; [lia|].
    cbn [Nat.add draw repeat app]. unfold bind, ret. rewrite E, L0. reflexivity.
Qed.

Lemma lor_pow : forall bin k b, 0 <= k -> 0 <= bin -> bin mod 2 ^ (k + 1) = 0 -> bit b -> Z.lor bin (Z.shiftl b k) = bin + b * 2 ^ k.
Proof.
  intros bin k b Hk Hb Hm Bb. rewrite Z.shiftl_mul_pow2 by lia. rewrite <- Z.lxor_lor, <- Z.add_nocarry_lxor; try reflexivity.
  - apply Z.bits_inj'. intros i Hi. rewrite Z.land_spec, Z.bits_0. destruct (Z.ltb_spec i (k + 1)).
    + rewrite <- (Z.mod_pow2_bits_low bin (k + 1) i) by lia. rewrite Hm, Z.bits_0. reflexivity.
    + replace (Z.testbit (b * 2 ^ k) i) with false; [apply andb_false_r|]. symmetry.
      destruct Bb as [-> | ->]; [rewrite Z.mul_0_l; apply Z.bits_0|]. rewrite Z.mul_1_l. apply Z.pow2_bits_false. lia.
  - apply Z.bits_inj'. intros i Hi. rewrite Z.land_spec, Z.bits_0. destruct (Z.ltb_spec i (k + 1)).
    + rewrite <- (Z.mod_pow2_bits_low bin (k + 1) i) by lia. rewrite Hm, Z.bits_0. reflexivity.
    + replace (Z.testbit (b * 2 ^ k) i) with false; [apply andb_false_r|]. symmetry.
      destruct Bb as [-> | ->]; [rewrite Z.mul_0_l; apply Z.bits_0|]. rewrite Z.mul_1_l. apply Z.pow2_bits_false. lia.
Qed.

Lemma esc_suffix_draw : forall n bin a cs a1 cs1 v, 0 <= bin -> bin mod 2 ^ Z.of_nat n = 0 -> esc_suffix n bin a cs = Done (a1, cs1, Some v) ->
  exists bits, length bits = n /\ v = bin + be_val bits /\ draw n a cs = Done (a1, cs1, Some bits).
Proof.
  induction n as [|k IH]; intros bin a cs a1 cs1 v Hb Hm H; cbn [esc_suffix] in H.
  - unfold ret in H. apply Done_inj in H. apply pair_equal_spec in H. destruct H as [H Hx]. apply pair_equal_spec in H. destruct H as [<- <-].
    apply Some_inj in Hx. subst v. exists []. split; [reflexivity|]. split; [cbn; lia|reflexivity].
  - unfold bind in H. destruct (byp a cs) as [[[b1 c1] [l|]]| | |] eqn:E; try discriminate.
    destruct (byp_cases _ _ _ _ _ E) as [-> (l' & El & Bl)]. apply Some_inj in El. subst l'.
    rewrite lor_pow in H; [|lia|lia|replace (Z.of_nat k + 1) with (Z.of_nat (S k)) by lia; exact Hm|exact Bl].
    assert (P : 0 < 2 ^ Z.of_nat k) by (apply Z.pow_pos_nonneg; lia).
    assert (M : (bin + l * 2 ^ Z.of_nat k) mod 2 ^ Z.of_nat k = 0).
    { rewrite Z.mod_add by lia. replace (Z.of_nat (S k)) with (Z.of_nat k + 1) in Hm by lia. rewrite Z.pow_add_r in Hm by lia. change (2 ^ 1) with 2 in Hm.
      apply Z.mod_divide in Hm; [|lia]. apply Z.mod_divide; [lia|]. destruct Hm as [q Hq]. exists (q * 2). lia. }
    destruct (IH (bin + l * 2 ^ Z.of_nat k) b1 cs a1 cs1 v ltac:(destruct Bl as [-> | ->]; lia) M H) as (bits & L1 & L2 & L3).
    exists (negb (l =? 0) :: bits). split; [cbn [length]; lia|]. split.
    + rewrite L2, be_val_cons, L1. destruct Bl as [-> | ->]; cbn [Z.eqb negb Z.b2z]; lia.
    + cbn [draw]. unfold bind. rewrite E, L3. reflexivity.
Qed.

Lemma esc_exact : forall start a cs a1 cs1 v, esc_code start a cs = Done (a1, cs1, Some v) ->
  exists bits, v = start + eg0 bits /\ draw (length (eg0_code bits)) a cs = Done (a1, cs1, Some (eg0_code bits)).
Proof.
  intros start a cs a1 cs1 v H. unfold esc_code in H. unfold bind in H at 1.
  destruct (esc_prefix 40 start 0 a cs) as [[[a2 cs2] [[acc g]|]]| | |] eqn:E; try discriminate.
  destruct (esc_prefix_draw _ _ _ _ _ _ _ _ _ (Z.le_refl 0) E) as (k & K1 & K2 & K3). rewrite Z.add_0_l in K1. subst g.
  rewrite Nat2Z.id in H. unfold bind in H. destruct (esc_suffix k 0 a2 cs2) as [[[a3 cs3] [w|]]| | |] eqn:E2; try discriminate.
  assert (M0 : 0 mod 2 ^ Z.of_nat k = 0) by (apply Z.mod_0_l; apply Z.pow_nonzero; lia).
  destruct (esc_suffix_draw k 0 a2 cs2 a3 cs3 w (Z.le_refl 0) M0 E2) as (bits & L1 & L2 & L3).
  unfold chk in H. destruct ((-2147483648 <=? acc + w) && (acc + w <=? 2147483647)); [|discriminate]. unfold ret in H.
  apply Done_inj in H. apply pair_equal_spec in H. destruct H as [H Hx]. apply pair_equal_spec in H. destruct H as [<- <-]. apply Some_inj in Hx.
  exists bits. split.
  - unfold eg0. rewrite L1. change (2 ^ 0) with 1 in K2. lia.
  - unfold eg0_code. rewrite L1. replace (length (repeat false k ++ [true] ++ bits)) with ((k + 1) + k)%nat.
    + rewrite app_assoc. eapply draw_app; [exact K3|exact L3].
    + rewrite !app_length, repeat_length. cbn [length]. lia.
Qed.

(** Definedness when the prefix is short. *)
Lemma esc_prefix_short : forall start, 0 <= start <= 1 -> forall k f g a cs a1 cs1 bs, draw k a cs = Done (a1, cs1, Some bs) -> existsb (fun b => b) bs = true ->
  0 <= g -> g + Z.of_nat k <= 29 -> (k <= f)%nat ->
  match esc_prefix f (start + 2 ^ g - 1) g a cs with
  | Done (_, cs2, o) => cs2 = cs /\ match o with Some (acc, g1) => 0 <= g1 < g + Z.of_nat k /\ acc = start + 2 ^ g1 - 1 | None => True end
  | Fail => True | _ => False end.
Proof.
  intros start Hst. induction k as [|k IH]; intros f g a cs a1 cs1 bs D X Hg Hk Hf.
  - cbn in D. apply Done_inj in D. apply pair_equal_spec in D. destruct D as [_ D]. apply Some_inj in D. subst bs. discriminate.
  - destruct f as [|f]; [lia|]. cbn [esc_prefix draw] in *. unfold bind in D. unfold bind at 1.
    destruct (byp_undef a cs) as [U1 U2]. destruct (byp a cs) as [[[b1 c1] [l|]]| | |] eqn:E; try exact Logic.I; try contradiction.
    2:{ discriminate. }
    destruct (byp_cases _ _ _ _ _ E) as [-> (l' & El & Bl)]. apply Some_inj in El. subst l'.
    unfold bind at 1. unfold check. destruct (err b1); [split; [reflexivity|exact Logic.I]|].
    destruct (draw k b1 cs) as [[[b2 c2] [t|]]| | |] eqn:E2; try discriminate. unfold ret in D.
    apply Done_inj in D. apply pair_equal_spec in D. destruct D as [_ D]. apply Some_inj in D. subst bs.
    destruct (l =? 0) eqn:L0.
    + cbn [existsb negb orb] in X. assert (G : (31 <=? g) = false) by (apply Z.leb_gt; lia). rewrite G.
      assert (P : 2 ^ (g + 1) <= 2 ^ 29) by (apply Z.pow_le_mono_r; lia). change (2 ^ 29) with 536870912 in P.
      assert (Q : start + 2 ^ g - 1 + Z.shiftl 1 g = start + 2 ^ (g + 1) - 1).
      { rewrite Z.shiftl_mul_pow2, Z.pow_add_r by lia. change (2 ^ 1) with 2. lia. }
      assert (P0 : 0 < 2 ^ (g + 1)) by (apply Z.pow_pos_nonneg; lia).
      unfold bind at 1. rewrite Q. unfold chk.
      assert (C : (-2147483648 <=? start + 2 ^ (g + 1) - 1) && (start + 2 ^ (g + 1) - 1 <=? 2147483647) = true) by (apply andb_true_intro; split; apply Z.leb_le; lia).
      rewrite C. unfold ret at 1. specialize (IH f (g + 1) b1 cs b2 c2 t E2 X ltac:(lia) ltac:(lia) ltac:(lia)).
      destruct (esc_prefix f (start + 2 ^ (g + 1) - 1) (g + 1) b1 cs) as [[[b3 c3] [[acc g1]|]]| | |]; try exact IH.
      destruct IH as (I1 & I2 & I3). split; [exact I1|]. split; [lia|exact I3].
    + unfold ret. split; [reflexivity|]. split; [lia|lia].
Qed.
Lemma esc_suffix_small : forall u g bin B, 0 <= bin -> bin mod 2 ^ Z.of_nat g = 0 -> bin + 2 ^ Z.of_nat g <= B -> safe_or u (esc_suffix g bin) (fun v => 0 <= v < B).
Proof.
  intros u. induction g as [|k IH]; intros bin B Hb Hm HB; cbn [esc_suffix].
  - apply safe_ret. change (2 ^ Z.of_nat 0) with 1 in HB. lia.
  - assert (P : 0 < 2 ^ Z.of_nat k) by (apply Z.pow_pos_nonneg; lia).
    replace (Z.of_nat (S k)) with (Z.of_nat k + 1) in * by lia. pose proof Hm as Hm0. rewrite Z.pow_add_r in HB, Hm by lia. change (2 ^ 1) with 2 in *.
    apply safe_bind with (P := bit); [apply safe_byp; [left; reflexivity|right; reflexivity]|]. intros b Bb.
    rewrite lor_pow; [|lia|lia|exact Hm0|exact Bb]. apply IH.
    + destruct Bb as [-> | ->]; lia.
    + rewrite Z.mod_add by lia. apply Z.mod_divide in Hm; [|lia]. apply Z.mod_divide; [lia|]. destruct Hm as [q Hq]. exists (q * 2). lia.
    + destruct Bb as [-> | ->]; lia.
Qed.

Lemma capped_safe : forall start, 0 <= start <= 1 -> safe (capped start) (fun v => start <= v <= start + 536870910).
Proof.
  intros start Hst a cs L. unfold capped.
  destruct (draw 29 a cs) as [[[a1 cs1] [bs|]]| | |] eqn:D; auto. destruct (existsb (fun b => b) bs) eqn:X; [|exact Logic.I].
  unfold esc_code. unfold bind at 1.
  pose proof (esc_prefix_short start Hst 29 40 0 a cs a1 cs1 bs D X (Z.le_refl 0) ltac:(lia) ltac:(lia)) as PX.
  replace (start + 2 ^ 0 - 1) with start in PX by (change (2 ^ 0) with 1; lia).
  destruct (esc_prefix 40 start 0 a cs) as [[[a2 cs2] [[acc g]|]]| | |]; auto.
  - destruct PX as (-> & Hg & Hacc).
    assert (P : 2 ^ g <= 268435456) by (change 268435456 with (2 ^ 28); apply Z.pow_le_mono_r; lia).
    assert (P0 : 0 < 2 ^ g) by (apply Z.pow_pos_nonneg; lia).
    assert (SB : safe_or False (bind (esc_suffix (Z.to_nat g) 0) (fun bin => chk (acc + bin))) (fun v => start <= v <= start + 536870910)).
    { eapply safe_bind.
      - apply (esc_suffix_small False (Z.to_nat g) 0 (2 ^ g)); [lia|apply Z.mod_0_l; apply Z.pow_nonzero; lia|]. rewrite Z2Nat.id by lia. lia.
      - intros b Hb. cbv beta in Hb. apply safe_chk; lia. }
    exact (SB a2 cs L).
  - destruct PX as (-> & _). split; [exact L|exact Logic.I].
Qed.
Lemma capped_level : level_reader (capped 1).
Proof.
  unfold level_reader, level_reader_or. eapply safe_weaken; [apply capped_safe; lia|]. cbv beta. intros v Hv. split; [lia|right; lia].
Qed.

Lemma mvd_safe : forall i, 0 <= i <= 1 -> safe (read_mvd_gen (capped 0) i) (fun v => -1073741825 < v < 1073741825).
Proof.
  intros i Hi. unfold read_mvd_gen. apply safe_catch; [|lia].
  apply safe_bind with (P := bit); [apply safe_sym; [cbn; lia|left; reflexivity|right; reflexivity]|]. intros b0 B0.
  apply safe_bind with (P := fun v => 0 <= v < 1073741825).
  - apply safe_if; intros _; [apply safe_ret; lia|].
    apply safe_bind with (P := bit); [apply safe_sym; [cbn; lia|left; reflexivity|right; reflexivity]|]. intros b1 B1.
    apply safe_if; intros _; [apply safe_ret; lia|].
    apply safe_bind with (P := bit); [apply safe_sym; [cbn; lia|left; reflexivity|right; reflexivity]|]. intros b2 B2.
    apply safe_if; intros _; [apply safe_ret; lia|].
    apply safe_bind with (P := bit); [apply safe_byp; [left; reflexivity|right; reflexivity]|]. intros add Ba.
    eapply safe_bind; [apply (capped_safe 0); lia|]. intros act Ha. cbv beta in Ha.
    rewrite Z.shiftl_mul_pow2 by lia. change (2 ^ 1) with 2.
    apply safe_bind with (P := fun d => d = act * 2); [apply safe_chk; lia|]. intros d ->.
    apply safe_bind with (P := fun d => d = act * 2 + 3); [apply safe_chk; lia|]. intros d ->.
    destruct Ba as [-> | ->]; apply safe_chk; lia.
  - intros v Hv. apply safe_if; intros _; [apply safe_ret; lia|].
    apply safe_bind with (P := bit); [apply safe_byp; [left; reflexivity|right; reflexivity]|]. intros s _.
    apply safe_if; intros _; [apply safe_ret; lia|apply safe_chk; lia].
Qed.
