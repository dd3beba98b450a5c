From Coq Require Import ZArith Znumtheory List Bool Lia.
From Verif Require Import CBase CBaseProofs MemModel AecModel AecSpec.
Import ListNotations.
Open Scope Z_scope.

Fixpoint low_bits (w : Z) (n : nat) : list bool :=
  match n with O => [] | S k => Z.testbit w (Z.of_nat k) :: low_bits w k end.

Lemma low_bits_length : forall n w, length (low_bits w n) = n.
Proof. induction n; intros; cbn; auto. Qed.

Lemma low_bits_S : forall w n, low_bits w (S n) = Z.testbit w (Z.of_nat n) :: low_bits w n.
Proof. reflexivity. Qed.
Lemma cons_inj : forall (A : Type) (x y : A) l m, x :: l = y :: m -> x = y /\ l = m.
Proof. intros A x y l m H. injection H. auto. Qed.

Lemma low_bits_ext : forall n w w', (forall i, 0 <= i < Z.of_nat n -> Z.testbit w i = Z.testbit w' i) -> low_bits w n = low_bits w' n.
Proof. induction n as [|n IH]; intros w w' H; [reflexivity|]. cbn [low_bits]. rewrite H by lia. f_equal. apply IH. intros. apply H. lia. Qed.

Lemma be_val_cons : forall b t, be_val (b :: t) = Z.b2z b * 2 ^ Z.of_nat (length t) + be_val t.
Proof. intros. change (b :: t) with ([b] ++ t). rewrite be_val_app. destruct b; reflexivity. Qed.

Lemma low_bits_be_val : forall l, low_bits (be_val l) (length l) = l.
Proof.
  induction l as [|b t IH]; [reflexivity|]. cbn [length low_bits]. rewrite be_val_cons.
  set (n := Z.of_nat (length t)) in *. pose proof (be_val_bound t) as B. fold n in B.
  assert (M: (Z.b2z b * 2 ^ n + be_val t) mod 2 ^ n = be_val t).
  { rewrite Z.add_comm, Z_mod_plus_full. apply Z.mod_small. exact B. }
  f_equal.
  - rewrite Z.testbit_eqb by lia.
    replace ((Z.b2z b * 2 ^ n + be_val t) / 2 ^ n) with (Z.b2z b).
    + destruct b; reflexivity.
    + symmetry. rewrite Z.add_comm, Z_div_plus_full by lia. rewrite Z.div_small by exact B. lia.
  - transitivity (low_bits (be_val t) (length t)); [|exact IH]. apply low_bits_ext. intros i Hi. rewrite <- M at 2. rewrite Z.mod_pow2_bits_low by (unfold n; lia). reflexivity.
Qed.

Lemma lor_add8 : forall x b, 0 <= b <= 255 -> Z.lor (Z.shiftl x 8) b = x * 256 + b.
Proof.
  intros x b Hb. rewrite Z.shiftl_mul_pow2 by lia. change (2 ^ 8) with 256.
  rewrite <- Z.lxor_lor, <- Z.add_nocarry_lxor; [reflexivity| |]; apply Z.bits_inj'; intros n Hn; rewrite Z.land_spec, Z.bits_0;
    (destruct (Z_lt_dec n 8) as [L|L];
     [change 256 with (2 ^ 8); rewrite Z.mul_pow2_bits_low by lia; reflexivity|
      rewrite (Z.bits_above_log2 b n); [apply andb_false_r|lia|
        destruct (Z.eq_dec b 0) as [->|]; [cbn; lia|apply Z.log2_lt_pow2; [lia|]; apply Z.lt_le_trans with (2 ^ 8); [cbn; lia|apply Z.pow_le_mono_r; lia]]]]).
Qed.

Lemma be_bytes_ok : forall n l p acc, bytes_ok l -> 0 <= p -> p + Z.of_nat n <= Z.of_nat (length l) ->
  0 <= acc -> acc * 2 ^ (8 * Z.of_nat n) < 2 ^ 64 -> (n <= 8)%nat -> acc < 2 ^ (64 - 8 * Z.of_nat n) ->
  be_bytes l p n acc = Some (acc * 2 ^ (8 * Z.of_nat n) + be_val (bits_of (firstn n (skipn (Z.to_nat p) l)))).
Proof.
  induction n as [|n IH]; intros l p acc HB Hp Hl Ha Hb Hn Hc.
  - cbn [be_bytes firstn]. rewrite Z.mul_1_r. cbn. f_equal. lia.
  - cbn [be_bytes]. destruct (get_in _ l p ltac:(lia)) as [b Eb]. rewrite Eb.
    assert (B255: 0 <= b <= 255).
    { unfold bytes_ok in HB. rewrite Forall_forall in HB. apply HB. unfold get in Eb. destruct (p <? 0); [discriminate|]. eapply nth_error_In; eauto. }
    assert (A: acc * 256 < 2 ^ (64 - 8 * Z.of_nat n)).
    { replace (64 - 8 * Z.of_nat n) with ((64 - 8 * Z.of_nat (S n)) + 8) by lia. rewrite Z.pow_add_r by lia. change (2 ^ 8) with 256.
      apply Z.mul_lt_mono_pos_r; lia. }
    assert (A2: acc * 256 + b < 2 ^ (64 - 8 * Z.of_nat n)).
    { replace (64 - 8 * Z.of_nat n) with ((64 - 8 * Z.of_nat (S n)) + 8) by lia. rewrite Z.pow_add_r by lia. change (2 ^ 8) with 256. lia. }
    assert (P: 2 ^ (64 - 8 * Z.of_nat n) * 2 ^ (8 * Z.of_nat n) = 2 ^ 64) by (rewrite <- Z.pow_add_r by lia; f_equal; lia).
    assert (PP: 0 < 2 ^ (8 * Z.of_nat n)) by (apply Z.pow_pos_nonneg; lia).
    assert (P1: 2 ^ (64 - 8 * Z.of_nat n) <= 2 ^ 64) by (apply Z.pow_le_mono_r; lia).
    replace (to_u64 (Z.shiftl acc 8)) with (Z.shiftl acc 8).
    2:{ unfold to_u64. rewrite Z.shiftl_mul_pow2 by lia. change (2 ^ 8) with 256. change 18446744073709551616 with (2 ^ 64).
        symmetry. apply Z.mod_small. lia. }
    rewrite lor_add8 by lia. rewrite IH; auto; try lia.
    + f_equal. replace (Z.to_nat (p + 1)) with (S (Z.to_nat p)) by lia.
      rewrite (skipn_get _ l p b Eb). replace (Z.to_nat (p + 1)) with (S (Z.to_nat p)) by lia.
      cbn [firstn].
      change (bits_of (b :: firstn n (skipn (S (Z.to_nat p)) l))) with (byte_bits b ++ bits_of (firstn n (skipn (S (Z.to_nat p)) l))).
      rewrite be_val_app, bits_of_length, be_val_byte_bits by lia.
      rewrite firstn_length, skipn_length. replace (Nat.min n (length l - S (Z.to_nat p))) with n by lia.
      replace (8 * Z.of_nat (S n)) with (8 + 8 * Z.of_nat n) by lia. rewrite Z.pow_add_r by lia. change (2 ^ 8) with 256.
      replace (Z.of_nat (8 * n)) with (8 * Z.of_nat n) by lia. lia.
    + rewrite <- P. apply Z.mul_lt_mono_pos_r; lia.
Qed.

(** *** Single bit requests. *)
Definition avail (a : aec) : list bool :=
  low_bits (byte_buf a) (Z.to_nat (btg a)) ++ bits_of (slice (buf a) (byte_pos a) (nbytes a)).
Record rd_ok (a : aec) : Prop := {
  rk_bytes : bytes_ok (buf a);
  rk_pos : 0 <= byte_pos a <= nbytes a;
  rk_len : nbytes a <= Z.of_nat (length (buf a));
  rk_btg : 0 <= btg a <= 63
}.

Lemma land1 : forall w g, 0 <= g -> Z.land (Z.shiftr w g) 1 = Z.b2z (Z.testbit w g).
Proof.
  intros w g H. change 1 with (Z.ones 1). rewrite Z.land_ones by lia. change (2 ^ 1) with 2.
  rewrite Z.testbit_spec' by lia. rewrite Z.shiftr_div_pow2 by lia. reflexivity.
Qed.
Lemma shl1 : forall v, to_u32 (Z.shiftl v 1) = 2 * (v mod 2147483648).
Proof.
  intros v. unfold to_u32. rewrite Z.shiftl_mul_pow2 by lia. change (2 ^ 1) with 2. change 4294967296 with (2147483648 * 2).
  rewrite Zmult_mod_distr_r. lia.
Qed.
Lemma lor_even : forall x b, Z.lor (2 * x) (Z.b2z b) = 2 * x + Z.b2z b.
Proof. intros x [|]; cbn [Z.b2z]; destruct x as [|[]|[]]; reflexivity. Qed.

Definition push_bit (v : Z) (b : bool) : Z := 2 * (v mod 2147483648) + Z.b2z b.
Lemma push_bit_odd : forall v b, Z.odd (push_bit v b) = b.
Proof. intros v b. unfold push_bit. rewrite Z.odd_add, Z.odd_mul. destruct b; reflexivity. Qed.
Lemma push_bit_range : forall v b, 0 <= push_bit v b < 4294967296.
Proof. intros v b. unfold push_bit. pose proof (Z.mod_pos_bound v 2147483648 ltac:(lia)). destruct b; cbn [Z.b2z]; lia. Qed.
Lemma push_bit_small : forall v b, 0 <= v < 2147483648 -> push_bit v b = 2 * v + Z.b2z b.
Proof. intros v b H. unfold push_bit. rewrite Z.mod_small by lia. reflexivity. Qed.

Lemma take_bit_ok : forall a, 0 <= btg a <= 63 -> take_bit a = Done (set_vt a (push_bit (vt a) (Z.testbit (byte_buf a) (btg a))), false).
Proof.
  intros a H. unfold take_bit. replace ((btg a <? 0) || (64 <=? btg a)) with false by lia.
  rewrite land1, shl1, lor_even by lia. reflexivity.
Qed.

Lemma slice_split : forall l p n k, 0 <= p -> 0 <= k -> p + k <= n -> slice l p n = firstn (Z.to_nat k) (skipn (Z.to_nat p) l) ++ slice l (p + k) n.
Proof.
  intros l p n k Hp Hk Hn. unfold slice. replace (Z.to_nat (p + k)) with (Z.to_nat k + Z.to_nat p)%nat by lia.
  rewrite <- skipn_skipn. replace (Z.to_nat (n - p)) with (Z.to_nat k + Z.to_nat (n - (p + k)))%nat by lia.
  remember (skipn (Z.to_nat p) l) as m. clear. rewrite <- (firstn_skipn (Z.to_nat k) m) at 1.
  destruct (le_lt_dec (Z.to_nat k) (length m)) as [G|G].
  - rewrite firstn_app, firstn_firstn, firstn_length. rewrite Nat.min_r by lia. f_equal. f_equal. lia.
  - rewrite (skipn_all2 m) by lia. rewrite firstn_nil, !app_nil_r. apply firstn_all2. rewrite firstn_length. lia.
Qed.

Lemma get_next_bit_some : forall a b t, rd_ok a -> avail a = b :: t ->
  exists w p g, get_next_bit a = Done (set_vt (set_rd a w p g) (push_bit (vt a) b), false) /\
    rd_ok (set_rd a w p g) /\ avail (set_rd a w p g) = t.
Proof.
  intros a b t [HB HP HL HG] HA. unfold get_next_bit, avail in *.
  destruct (Z.eq_dec (btg a) 0) as [G0|G0].
  - rewrite G0 in HA. cbn [Z.to_nat low_bits app] in HA.
    replace (to_i8 (btg a - 1)) with (-1) by (rewrite G0; reflexivity). cbn [Z.ltb Z.compare].
    assert (R: forall d, 0 < d <= 8 -> byte_pos a + d <= nbytes a ->
      let w := be_val (bits_of (firstn (Z.to_nat d) (skipn (Z.to_nat (byte_pos a)) (buf a)))) in
      be_bytes (buf a) (byte_pos a) (Z.to_nat d) 0 = Some w /\
      low_bits w (Z.to_nat (8 * d)) = bits_of (firstn (Z.to_nat d) (skipn (Z.to_nat (byte_pos a)) (buf a)))).
    { intros d Hd Hn w. split.
      - rewrite be_bytes_ok; auto; try lia.
      - set (l := bits_of (firstn (Z.to_nat d) (skipn (Z.to_nat (byte_pos a)) (buf a)))) in *.
        replace (Z.to_nat (8 * d)) with (length l); [apply low_bits_be_val|]. unfold l. rewrite bits_of_length, firstn_length, skipn_length. lia. }
    destruct (7 <? nbytes a - byte_pos a) eqn:D7.
    + destruct (R 8 ltac:(lia) ltac:(lia)) as [E L]. change (Z.to_nat 8) with 8%nat in E, L. rewrite E. clear R.
      rewrite take_bit_ok by (cbn; lia). set (w := be_val _) in *.
      rewrite (slice_split _ _ _ 8) in HA by lia. rewrite bits_of_app in HA. change (Z.to_nat 8) with 8%nat in HA. rewrite <- L in HA.
      change (Z.to_nat (8 * 8)) with (S 63) in HA. rewrite low_bits_S in HA. rewrite <- app_comm_cons in HA. apply cons_inj in HA. destruct HA as [Hb Ht].
      exists w, (byte_pos a + 8), 63. split; [|split].
      * cbn [set_rd vt byte_buf btg]. rewrite <- Hb. reflexivity.
      * constructor; cbn [set_rd buf byte_pos nbytes btg]; auto; lia.
      * cbn [set_rd buf byte_pos nbytes btg byte_buf]. exact Ht.
    + destruct (0 <? nbytes a - byte_pos a) eqn:D0.
      * set (d := nbytes a - byte_pos a) in *. destruct (R d ltac:(lia) ltac:(lia)) as [E L]. clear R.
        assert (G': to_i8 (-1 + to_i8 (Z.shiftl d 3)) = 8 * d - 1).
        { rewrite Z.shiftl_mul_pow2 by lia. change (2 ^ 3) with 8. unfold to_i8. rewrite (Z.mod_small (d * 8 + 128)) by lia. rewrite Z.mod_small by lia. lia. }
        rewrite G'. replace (8 * d - 1 + 1) with (d * 8) by lia. rewrite Z.shiftr_div_pow2 by lia. change (2 ^ 3) with 8. rewrite Z.div_mul by lia.
        rewrite E. rewrite take_bit_ok by (cbn [set_rd btg]; lia). set (w := be_val _) in *.
        rewrite (slice_split _ _ _ d) in HA by lia. rewrite bits_of_app in HA. rewrite <- L in HA.
        replace (Z.to_nat (8 * d)) with (S (Z.to_nat (8 * d - 1))) in HA by lia. rewrite low_bits_S in HA. rewrite <- app_comm_cons in HA. apply cons_inj in HA. destruct HA as [Hb Ht].
        exists w, (byte_pos a + d), (8 * d - 1). split; [|split].
        -- cbn [set_rd vt byte_buf btg]. rewrite <- Hb, Z2Nat.id by lia. reflexivity.
        -- constructor; cbn [set_rd buf byte_pos nbytes btg]; auto; lia.
        -- cbn [set_rd buf byte_pos nbytes btg byte_buf]. exact Ht.
      * exfalso. unfold slice in HA. replace (Z.to_nat (nbytes a - byte_pos a)) with 0%nat in HA by lia. discriminate.
  - replace (to_i8 (btg a - 1)) with (btg a - 1) by (unfold to_i8; rewrite Z.mod_small by lia; lia).
    replace (btg a - 1 <? 0) with false by lia. rewrite take_bit_ok by (cbn [set_rd btg]; lia).
    replace (Z.to_nat (btg a)) with (S (Z.to_nat (btg a - 1))) in HA by lia. rewrite low_bits_S in HA. rewrite <- app_comm_cons in HA. apply cons_inj in HA. destruct HA as [Hb Ht].
    exists (byte_buf a), (byte_pos a), (btg a - 1). split; [|split].
    + cbn [set_rd vt byte_buf btg]. rewrite <- Hb, Z2Nat.id by lia. reflexivity.
    + constructor; cbn [set_rd buf byte_pos nbytes btg]; auto; lia.
    + cbn [set_rd buf byte_pos nbytes btg byte_buf]. exact Ht.
Qed.

Lemma avail_nil : forall a, rd_ok a -> avail a = [] -> btg a = 0 /\ byte_pos a = nbytes a.
Proof.
  intros a [HB HP HL HG] H. unfold avail in H. apply app_eq_nil in H. destruct H as [H1 H2].
  apply (f_equal (@length bool)) in H1, H2. rewrite low_bits_length in H1. rewrite bits_of_length in H2. unfold slice in H2.
  rewrite firstn_length, skipn_length in H2. cbn [length] in *. lia.
Qed.

(** Nothing left: the flag is raised and only [i_bits_to_go] changes. *)
Lemma get_next_bit_none : forall a, byte_pos a = nbytes a -> -128 < btg a <= 0 ->
  get_next_bit a = Done (set_err (set_rd a (byte_buf a) (byte_pos a) (btg a - 1)) true, true).
Proof.
  intros a HP HG. unfold get_next_bit. replace (to_i8 (btg a - 1)) with (btg a - 1) by (unfold to_i8; rewrite Z.mod_small by lia; lia).
  replace (btg a - 1 <? 0) with true by lia. replace (7 <? nbytes a - byte_pos a) with false by lia.
  replace (0 <? nbytes a - byte_pos a) with false by lia. reflexivity.
Qed.
Lemma get_next_bit_wrap : forall a, btg a = -128 -> get_next_bit a = Undef.
Proof. intros a H. unfold get_next_bit. rewrite H. reflexivity. Qed.

(** What a successful or failed request can change. *)
Lemma get_next_bit_inv : forall a a' e, get_next_bit a = Done (a', e) ->
  (e = false /\ exists w p g b, a' = set_vt (set_rd a w p g) (push_bit (vt a) b)) \/
  (e = true /\ exists g, a' = set_err (set_rd a (byte_buf a) (byte_pos a) g) true).
Proof.
  intros a a' e H. unfold get_next_bit in H.
  assert (T: forall w p g, take_bit (set_rd a w p g) = Done (a', e) -> (e = false /\ exists w p g b, a' = set_vt (set_rd a w p g) (push_bit (vt a) b))).
  { intros w p g T. unfold take_bit in T. cbn [set_rd btg] in T. destruct ((g <? 0) || (64 <=? g)) eqn:G; [discriminate|].
    apply Done_inj in T. apply pair_equal_spec in T. destruct T as [<- <-]. split; [reflexivity|]. exists w, p, g, (Z.testbit w g).
    cbn [byte_buf vt set_rd]. rewrite land1, shl1, lor_even by lia. reflexivity. }
  destruct (to_i8 (btg a - 1) <? 0).
  - destruct (7 <? nbytes a - byte_pos a).
    + destruct (be_bytes _ _ _ _); [|discriminate]. left. eapply T; eauto.
    + destruct (0 <? nbytes a - byte_pos a).
      * cbv zeta in H. destruct (be_bytes _ _ _ _); [|discriminate]. left. eapply T; eauto.
      * apply Done_inj in H. apply pair_equal_spec in H. destruct H as [<- <-]. right. split; [reflexivity|]. eexists; reflexivity.
  - left. eapply T; eauto.
Qed.

(** *** Runs of requests. *)
Lemma requests_exhausted : forall k a, byte_pos a = nbytes a -> -128 <= btg a <= 0 -> (Z.of_nat k <= 128 + btg a) ->
  exists a', requests k a = Done (repeat None k, a') /\ err a' = (err a || (0 <? k)%nat) /\ (btg a' = btg a - Z.of_nat k) /\ byte_pos a' = nbytes a'.
Proof.
  induction k as [|k IH]; intros a HP HG HK.
  - exists a. cbn. rewrite orb_false_r. repeat split; auto; lia.
  - cbn [requests]. rewrite get_next_bit_none by lia. cbn [bindo fst snd].
    destruct (IH (set_err (set_rd a (byte_buf a) (byte_pos a) (btg a - 1)) true)) as (a' & E & F & G & H); cbn [set_err set_rd btg byte_pos nbytes] in *; try lia.
    rewrite E. cbn [bindo fst snd repeat]. exists a'. split; [reflexivity|]. cbn [err] in F. rewrite F. cbn [orb].
    replace (0 <? S k)%nat with true by reflexivity. rewrite orb_true_r. repeat split; auto. lia.
Qed.

Lemma requests_ok : forall k a, rd_ok a -> (k <= length (avail a) + 128)%nat ->
  exists a', requests k a = Done (firstn k (map Some (avail a) ++ repeat None 128), a') /\
    err a' = (err a || (length (avail a) <? k)%nat) /\
    ((length (avail a) <= k)%nat -> btg a' = Z.of_nat (length (avail a)) - Z.of_nat k).
Proof.
  induction k as [|k IH]; intros a R HK.
  - exists a. cbn [requests firstn]. split; [reflexivity|]. replace (length (avail a) <? 0)%nat with false by (symmetry; apply Nat.ltb_ge; lia).
    rewrite orb_false_r. split; [reflexivity|]. intros G. destruct (avail a) eqn:E; [|cbn in G; lia].
    destruct (avail_nil a R E). cbn. lia.
  - destruct (avail a) as [|b t] eqn:E.
    + destruct (avail_nil a R E) as [G P]. destruct (requests_exhausted (S k) a P ltac:(lia) ltac:(cbn [length] in HK; lia)) as (a' & E1 & E2 & E3 & _).
      exists a'. rewrite E1. cbn [map app length] in *. split; [|split].
      * f_equal. f_equal. clear - HK. replace 128%nat with (S k + (128 - S k))%nat by lia. rewrite repeat_app, firstn_app, repeat_length, Nat.sub_diag.
        rewrite firstn_all2 by (rewrite repeat_length; lia). rewrite firstn_O, app_nil_r. reflexivity.
      * rewrite E2. reflexivity.
      * intros _. rewrite E3, G. lia.
    + destruct (get_next_bit_some a b t R E) as (w & p & g & Eg & Rg & Ag).
      cbn [requests]. rewrite Eg. cbn [bindo fst snd].
      assert (Av: forall v, avail (set_vt (set_rd a w p g) v) = t) by (intros; exact Ag).
      destruct (IH (set_vt (set_rd a w p g) (push_bit (vt a) b))) as (a' & E1 & E2 & E3).
      * destruct Rg. constructor; assumption.
      * rewrite Av. cbn [length] in HK. lia.
      * rewrite Av in *. rewrite E1. cbn [bindo fst snd map app firstn set_vt vt]. rewrite push_bit_odd. exists a'. split; [reflexivity|].
        split; [rewrite E2; reflexivity|]. intros Hl. cbn [length] in *. rewrite E3 by lia. lia.
Qed.

Lemma requests_app : forall j k a l a', requests j a = Done (l, a') -> requests (j + k) a = bindo (requests k a') (fun q => Done (l ++ fst q, snd q)).
Proof.
  induction j as [|j IH]; intros k a l a' H.
  - apply Done_inj in H. apply pair_equal_spec in H. destruct H as [<- <-]. cbn [Nat.add]. destruct (requests k a) as [[]| | |]; reflexivity.
  - cbn [requests Nat.add] in *. destruct (get_next_bit a) as [r| | |]; try discriminate. cbn [bindo] in *.
    destruct (requests j (fst r)) as [q| | |] eqn:E; try discriminate. cbn [bindo] in H. apply Done_inj in H. apply pair_equal_spec in H. destruct H as [<- <-].
    destruct q as [l1 a1]. rewrite (IH k _ _ _ E). cbn [fst snd]. destruct (requests k a1) as [[]| | |]; reflexivity.
Qed.

Lemma requests_wrap : forall a, rd_ok a -> requests (length (avail a) + 129) a = Undef.
Proof.
  intros a R. destruct (requests_ok (length (avail a) + 128) a R ltac:(lia)) as (a' & E & _ & G).
  replace (length (avail a) + 129)%nat with (length (avail a) + 128 + 1)%nat by lia.
  rewrite (requests_app _ 1 _ _ _ E). cbn [requests]. rewrite get_next_bit_wrap; [reflexivity|]. rewrite G by lia. lia.
Qed.

Definition pushes (v : Z) (l : list bool) : Z := fold_left push_bit l v.

Definition reg_same (a a' : aec) : Prop :=
  buf a' = buf a /\ nbytes a' = nbytes a /\ bound a' = bound a /\ domain a' = domain a /\ s1 a' = s1 a /\ t1 a' = t1 a /\ vs a' = vs a.

Lemma reg_same_refl : forall a, reg_same a a.
Proof. intros. unfold reg_same. tauto. Qed.
Lemma reg_same_trans : forall a b c, reg_same a b -> reg_same b c -> reg_same a c.
Proof. unfold reg_same. intros a b c H K. intuition congruence. Qed.

Lemma next_bits_exhausted : forall n a, byte_pos a = nbytes a -> -128 <= btg a <= 0 -> Z.of_nat n <= 128 + btg a ->
  exists a', next_bits n a = Done a' /\ reg_same a a' /\ vt a' = vt a /\ err a' = (err a || (0 <? n)%nat).
Proof.
  induction n as [|n IH]; intros a HP HG HK.
  - exists a. cbn. rewrite orb_false_r. split; [reflexivity|]. split; [apply reg_same_refl|]. auto.
  - cbn [next_bits]. rewrite get_next_bit_none by lia. cbn [bindo fst].
    destruct (IH (set_err (set_rd a (byte_buf a) (byte_pos a) (btg a - 1)) true)) as (a' & E & F & G & H); cbn [set_err set_rd btg byte_pos nbytes] in *; try lia.
    exists a'. split; [exact E|]. split; [exact F|]. split; [exact G|]. rewrite H. cbn. rewrite orb_true_r. reflexivity.
Qed.

Lemma next_bits_ok : forall n a, rd_ok a -> (n <= length (avail a))%nat ->
  exists w p g, next_bits n a = Done (set_vt (set_rd a w p g) (pushes (vt a) (firstn n (avail a)))) /\
    rd_ok (set_rd a w p g) /\ avail (set_rd a w p g) = skipn n (avail a).
Proof.
  induction n as [|n IH]; intros a R HK.
  - exists (byte_buf a), (byte_pos a), (btg a). cbn [next_bits firstn skipn pushes fold_left]. destruct a; split; [reflexivity|]. split; [destruct R; constructor; assumption|reflexivity].
  - destruct (avail a) as [|b t] eqn:E; [cbn in HK; lia|].
    destruct (get_next_bit_some a b t R E) as (w & p & g & Eg & Rg & Ag). cbn [next_bits]. rewrite Eg. cbn [bindo fst].
    destruct (IH (set_vt (set_rd a w p g) (push_bit (vt a) b))) as (w' & p' & g' & E1 & R1 & A1).
    + destruct Rg. constructor; assumption.
    + change (avail (set_vt (set_rd a w p g) (push_bit (vt a) b))) with (avail (set_rd a w p g)). rewrite Ag. cbn in HK. lia.
    + change (avail (set_vt (set_rd a w p g) (push_bit (vt a) b))) with (avail (set_rd a w p g)) in *. rewrite Ag in *.
      exists w', p', g'. split; [|split].
      * rewrite E1. reflexivity.
      * destruct R1. constructor; assumption.
      * exact A1.
Qed.

Lemma next_bits_app : forall j k a a', next_bits j a = Done a' -> next_bits (j + k) a = next_bits k a'.
Proof.
  induction j as [|j IH]; intros k a a' H; [apply Done_inj in H; now subst|]. cbn [next_bits Nat.add] in *.
  destruct (get_next_bit a) as [r| | |]; try discriminate. cbn [bindo] in *. now apply IH.
Qed.

Lemma next_bits_short : forall n a, rd_ok a -> (length (avail a) < n)%nat -> (n <= length (avail a) + 128)%nat ->
  exists a', next_bits n a = Done a' /\ reg_same a a' /\ err a' = true /\ vt a' = pushes (vt a) (avail a).
Proof.
  intros n a R HL HK. destruct (next_bits_ok (length (avail a)) a R ltac:(lia)) as (w & p & g & E & R1 & A1).
  rewrite firstn_all in E. rewrite skipn_all in A1. destruct (avail_nil _ R1 A1) as [G P]. cbn [set_rd btg byte_pos nbytes] in G, P. subst g p.
  replace n with (length (avail a) + (n - length (avail a)))%nat by lia. rewrite (next_bits_app _ _ _ _ E).
  destruct (next_bits_exhausted (n - length (avail a)) (set_vt (set_rd a w (nbytes a) 0) (pushes (vt a) (avail a)))) as (a' & E2 & S2 & V2 & R2);
    [reflexivity|cbn; lia|cbn [set_vt set_rd btg]; lia|].
  exists a'. split; [exact E2|]. split; [exact S2|]. split; [|exact V2]. rewrite R2.
  replace (0 <? n - length (avail a))%nat with true by (symmetry; apply Nat.ltb_lt; lia). apply orb_true_r.
Qed.

Lemma Zmod_mod_2 : forall x, (x mod (2147483648 * 2)) mod 2147483648 = x mod 2147483648.
Proof.
  intros x. symmetry. apply Zmod_div_mod; try lia. exists 2. reflexivity.
Qed.

Lemma pushes_val : forall l v, Z.of_nat (length l) <= 32 -> pushes v l = to_u32 (v * 2 ^ Z.of_nat (length l)) + be_val l \/ l = [].
Proof.
  intros l. induction l as [|b t IH] using rev_ind; intros v H; [now right|left]. unfold pushes. rewrite fold_left_app. cbn [fold_left].
  fold (pushes v t). rewrite app_length in *. cbn [length] in *. rewrite be_val_snoc. unfold push_bit, to_u32 in *.
  replace (Z.of_nat (length t + 1)) with (Z.of_nat (length t) + 1) by lia. rewrite Z.pow_add_r by lia. change (2 ^ 1) with 2. rewrite Z.mul_assoc.
  change 4294967296 with (2147483648 * 2) in *. rewrite Zmult_mod_distr_r.
  pose proof (be_val_bound t) as B. set (n := Z.of_nat (length t)) in *.
  assert (M: pushes v t mod 2147483648 = (v * 2 ^ n) mod 2147483648 + be_val t).
  { destruct (IH v ltac:(lia)) as [E|E].
    - rewrite E. assert (Q: 2147483648 = 2 ^ n * 2 ^ (31 - n)) by (rewrite <- Z.pow_add_r by lia; replace (n + (31 - n)) with 31 by lia; reflexivity).
      assert (P1: 0 < 2 ^ n) by (apply Z.pow_pos_nonneg; lia). assert (P2: 0 < 2 ^ (31 - n)) by (apply Z.pow_pos_nonneg; lia).
      assert (F: forall x, (x * 2 ^ n) mod 2147483648 = (x mod 2 ^ (31 - n)) * 2 ^ n).
      { intros x. rewrite Q, (Z.mul_comm (2 ^ n)). apply Zmult_mod_distr_r. }
      rewrite Zplus_mod. rewrite (Zmod_mod_2 (v * 2 ^ n)). rewrite F.
      rewrite (Z.mod_small (be_val t)) by (rewrite Q; nia). pose proof (Z.mod_pos_bound v (2 ^ (31 - n)) P2).
      apply Z.mod_small. rewrite Q. nia.
    - subst t. cbn. rewrite Z.mul_1_r, Z.add_0_r. reflexivity. }
  rewrite M. lia.
Qed.

Lemma low_bits_shift : forall n w g, low_bits w (n + g) = low_bits (Z.shiftr w (Z.of_nat g)) n ++ low_bits w g.
Proof.
  induction n as [|n IH]; intros; [reflexivity|]. cbn [Nat.add low_bits app]. rewrite IH. f_equal.
  rewrite Z.shiftr_spec by lia. f_equal. lia.
Qed.
Lemma be_val_low_bits : forall n w, be_val (low_bits w n) = w mod 2 ^ Z.of_nat n.
Proof.
  induction n as [|n IH]; intros w; [cbn; symmetry; apply Z.mod_1_r|]. cbn [low_bits]. rewrite be_val_cons, low_bits_length, IH.
  rewrite Nat2Z.inj_succ, Z.pow_succ_r by lia. rewrite Z.mul_comm with (n := 2). rewrite Z.rem_mul_r by (try apply Z.pow_nonzero; lia).
  rewrite Z.testbit_spec' by lia. lia.
Qed.
Lemma low_bits_mod_ext : forall n w, low_bits (w mod 2 ^ Z.of_nat n) n = low_bits w n.
Proof. intros. apply low_bits_ext. intros. apply Z.mod_pow2_bits_low. lia. Qed.

Lemma next_bits_fast : forall n a, Z.of_nat n <= btg a <= 63 ->
  next_bits n a = Done (set_vt (set_rd a (byte_buf a) (byte_pos a) (btg a - Z.of_nat n))
     (pushes (vt a) (low_bits (Z.shiftr (byte_buf a) (btg a - Z.of_nat n)) n))).
Proof.
  induction n as [|n IH]; intros a H.
  - cbn. rewrite Z.sub_0_r. destruct a; reflexivity.
  - cbn [next_bits]. unfold get_next_bit.
    replace (to_i8 (btg a - 1)) with (btg a - 1) by (unfold to_i8; rewrite Z.mod_small by lia; lia).
    replace (btg a - 1 <? 0) with false by lia. rewrite take_bit_ok by (cbn [set_rd btg]; lia). cbn [bindo fst].
    rewrite IH by (cbn [set_vt set_rd btg]; lia). cbn [set_vt set_rd btg byte_buf byte_pos vt].
    replace (btg a - 1 - Z.of_nat n) with (btg a - Z.of_nat (S n)) by lia. cbn [low_bits pushes fold_left].
    rewrite Z.shiftr_spec by lia. replace (Z.of_nat n + (btg a - Z.of_nat (S n))) with (btg a - 1) by lia. reflexivity.
Qed.

Lemma lor_shift : forall x y n, 0 <= n -> 0 <= y < 2 ^ n -> Z.lor (x * 2 ^ n) y = x * 2 ^ n + y.
Proof.
  intros x y n Hn Hy. rewrite <- Z.lxor_lor, <- Z.add_nocarry_lxor; [reflexivity| |]; apply Z.bits_inj'; intros i Hi; rewrite Z.land_spec, Z.bits_0;
    (destruct (Z_lt_dec i n) as [L|L];
     [rewrite Z.mul_pow2_bits_low by lia; reflexivity|
      rewrite <- (Z.mod_small y (2 ^ n)) by lia; rewrite Z.mod_pow2_bits_high by lia; apply andb_false_r]).
Qed.

Lemma n_bit_single : forall a n, rd_ok a -> 0 < n <= 32 -> err a = false ->
  get_next_n_bit a n = bindo (next_bits (Z.to_nat n) a) (fun a => Done (a, err a)).
Proof.
  intros a n [HB HP HL HG] Hn HE. unfold get_next_n_bit. destruct (n <=? btg a) eqn:F; [|reflexivity].
  rewrite next_bits_fast by lia. cbn [bindo]. rewrite Z2Nat.id by lia.
  replace (to_i8 (btg a - n)) with (btg a - n) by (unfold to_i8; rewrite Z.mod_small by lia; lia).
  replace ((btg a - n <? 0) || (64 <=? btg a - n)) with false by lia. cbn [set_vt set_rd err]. rewrite HE. do 3 f_equal.
  assert (NN: low_bits (Z.shiftr (byte_buf a) (btg a - n)) (Z.to_nat n) <> []).
  { intro K. apply (f_equal (@length bool)) in K. rewrite low_bits_length in K. cbn in K. lia. }
  destruct (pushes_val (low_bits (Z.shiftr (byte_buf a) (btg a - n)) (Z.to_nat n)) (vt a)) as [E|E]; [rewrite low_bits_length; lia| |contradiction].
  rewrite E, low_bits_length, be_val_low_bits, Z2Nat.id by lia. clear E NN.
  rewrite Z.shiftl_1_l. replace (2 ^ n - 1) with (Z.ones n) by (rewrite Z.ones_equiv; lia). rewrite Z.land_ones by lia.
  rewrite Z.shiftl_mul_pow2 by lia. unfold to_u32.
  assert (Q: 4294967296 = 2 ^ (32 - n) * 2 ^ n) by (rewrite <- Z.pow_add_r by lia; replace (32 - n + n) with 32 by lia; reflexivity).
  rewrite Q, Zmult_mod_distr_r. apply lor_shift; [lia|]. apply Z.mod_pos_bound. apply Z.pow_pos_nonneg; lia.
Qed.

(** Requests of several bits, complete or cut short by the end of the data. *)
Lemma n_bit_ok : forall a n, rd_ok a -> 0 < n <= 32 -> err a = false -> (Z.to_nat n <= length (avail a))%nat ->
  exists w p g, get_next_n_bit a n = Done (set_vt (set_rd a w p g) (pushes (vt a) (firstn (Z.to_nat n) (avail a))), false) /\
    rd_ok (set_rd a w p g) /\ avail (set_rd a w p g) = skipn (Z.to_nat n) (avail a).
Proof.
  intros a n R Hn HE HK. rewrite n_bit_single by assumption. destruct (next_bits_ok _ a R HK) as (w & p & g & E & R1 & A1).
  exists w, p, g. rewrite E. cbn [bindo set_vt set_rd err]. rewrite HE. auto.
Qed.
Lemma n_bit_short : forall a n, rd_ok a -> 0 < n <= 32 -> err a = false -> (length (avail a) < Z.to_nat n)%nat ->
  exists a', get_next_n_bit a n = Done (a', true) /\ reg_same a a' /\ err a' = true /\ vt a' = pushes (vt a) (avail a).
Proof.
  intros a n R Hn HE HK. rewrite n_bit_single by assumption. destruct (next_bits_short (Z.to_nat n) a R HK ltac:(lia)) as (a' & E & S1 & R1 & V1).
  exists a'. rewrite E. cbn [bindo]. rewrite R1. auto.
Qed.

Lemma start_ok : forall data pos n ob w, bytes_ok data -> 0 <= pos <= n -> n <= Z.of_nat (length data) ->
  (9 <= 8 * Z.to_nat (n - pos))%nat ->
  exists a, start_decoding data pos n ob w = Done a /\ rd_ok a /\ err a = false /\ domain a = true /\ s1 a = 0 /\ t1 a = 255 /\ vs a = 0 /\
    vt a = be_val (firstn 9 (bits_of (slice data pos n))) /\ avail a = skipn 9 (bits_of (slice data pos n)).
Proof.
  intros data pos n ob w HB HP HL HN. unfold start_decoding. set (a0 := {| buf := data |}).
  assert (R0: rd_ok a0) by (constructor; cbn; auto; lia).
  assert (A0: avail a0 = bits_of (slice data pos n)) by reflexivity.
  assert (L0: length (avail a0) = (8 * Z.to_nat (n - pos))%nat).
  { rewrite A0, bits_of_length. unfold slice. rewrite firstn_length, skipn_length. f_equal. lia. }
  destruct (n_bit_ok a0 9 R0 ltac:(lia) eq_refl ltac:(rewrite L0; lia)) as (w' & p & g & E & R1 & A1).
  rewrite E. cbn [bindo fst]. eexists. split; [reflexivity|]. cbn [set_vt set_rd err domain s1 t1 vs vt].
  split; [destruct R1; constructor; assumption|]. repeat (split; [reflexivity|]). split.
  - change (Z.to_nat 9) with 9%nat. rewrite A0 in *. cbn [vt].
    destruct (pushes_val (firstn 9 (bits_of (slice data pos n))) 0) as [V|V].
    + rewrite firstn_length, L0. lia.
    + change (vt a0) with 0. rewrite V. cbn [Z.mul]. reflexivity.
    + apply (f_equal (@length bool)) in V. rewrite firstn_length, L0 in V. cbn [length] in V. lia.
  - rewrite A0 in A1. exact A1.
Qed.
