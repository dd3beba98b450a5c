From Coq Require Import ZArith List Bool Lia ZifyBool.
From Verif Require Import CBase CBaseProofs VlcModel VlcSpec.
Import ListNotations.
Open Scope Z_scope.

Lemma shiftr3 : forall p, Z.shiftr p 3 = p / 8.
Proof. intros. rewrite Z.shiftr_div_pow2 by lia. reflexivity. Qed.
Lemma land7 : forall p, Z.land p 7 = p mod 8.
Proof. intros. change 7 with (Z.ones 3). rewrite Z.land_ones by lia. reflexivity. Qed.

Lemma lor_b2z : forall a b, Z.lor (Z.shiftl a 1) (Z.b2z b) = 2 * a + Z.b2z b.
Proof.
  intros. rewrite Z.shiftl_mul_pow2 by lia. change (2^1) with 2. rewrite Z.mul_comm.
  destruct b; cbn [Z.b2z].
  - destruct a as [|[]|[]]; cbn; auto.
  - rewrite Z.lor_0_r. lia.
Qed.

(** One step of position bookkeeping. *)
Lemma pos_step : forall p, 0 <= p ->
  (if 7 - p mod 8 - 1 <? 0 then (p / 8 + 1, 7 - p mod 8 - 1 + 8) else (p / 8, 7 - p mod 8 - 1))
  = ((p + 1) / 8, 7 - (p + 1) mod 8).
Proof.
  intros p Hp. destruct (7 - p mod 8 - 1 <? 0) eqn:E; f_equal; Z.div_mod_to_equations; lia.
Qed.

(** Specification of the loop: position [p], [n] further bits. *)
Lemma read_bits_loop_ok : forall n mem i_buf p inf l,
  0 <= p -> 0 <= inf < 2 ^ Z.of_nat (31 - n) -> (n <= 31)%nat ->
  firstn n (skipn (Z.to_nat p) (bits_of mem)) = l -> length l = n ->
  p + Z.of_nat n < 8 * (i_buf + 1) ->
  read_bits_loop mem i_buf n (p / 8) (7 - p mod 8) inf
  = Done (inf * 2 ^ Z.of_nat n + be_val l).
Proof.
  induction n as [|n IH]; intros mem i_buf p inf l Hp Hinf Hn Hl Hlen Hend.
  - cbn in *. subst l. cbn. f_equal. unfold be_val; cbn. lia.
  - cbn [read_bits_loop].
    assert (Hsmall: inf <= 1073741823).
    { assert (2 ^ Z.of_nat (31 - S n) <= 2 ^ 30) by (apply Z.pow_le_mono_r; lia). 
      change (2^30) with 1073741824 in *. lia. }
    unfold dbl_ok. replace (inf <=? 1073741823) with true by lia. cbn [negb].
    assert (Hb: exists b, get (bits_of mem) p = Some b).
    { apply get_in. rewrite <- Hl in Hlen. rewrite firstn_length, skipn_length in Hlen. lia. }
    destruct Hb as [b Hb].
    assert (Hl': l = b :: firstn n (skipn (Z.to_nat (p+1)) (bits_of mem))).
    { rewrite <- Hl, (skipn_get _ _ _ _ Hb). reflexivity. }
    rewrite bits_of_nth in Hb by lia.
    destruct (get mem (p / 8)) as [y|] eqn:G; [|discriminate].
    apply Some_inj in Hb.
    rewrite land_bit by (Z.div_mod_to_equations; lia). rewrite Hb, lor_b2z.
    set (l' := firstn n (skipn (Z.to_nat (p+1)) (bits_of mem))) in *.
    assert (Hlen': length l' = n) by (rewrite Hl' in Hlen; cbn in Hlen; lia).
    assert (Hinf': 0 <= 2 * inf + Z.b2z b < 2 ^ Z.of_nat (31 - n)).
    { replace (Z.of_nat (31 - n)) with (Z.succ (Z.of_nat (31 - S n))) by lia.
      rewrite Z.pow_succ_r by lia. destruct b; cbn [Z.b2z]; lia. }
    specialize (IH mem i_buf (p+1) (2 * inf + Z.b2z b) l' ltac:(lia) Hinf' ltac:(lia) eq_refl Hlen' ltac:(lia)).
    assert (V: (2 * inf + Z.b2z b) * 2 ^ Z.of_nat n + be_val l' = inf * 2 ^ Z.of_nat (S n) + be_val l).
    { rewrite Hl'. change (b :: l') with ([b] ++ l'). rewrite be_val_app, Hlen'.
      replace (Z.of_nat (S n)) with (Z.succ (Z.of_nat n)) by lia. rewrite Z.pow_succ_r by lia.
      unfold be_val at 2; cbn [fold_left]. destruct b; cbn [Z.b2z]; lia. }
    rewrite V in IH.
    pose proof (pos_step p Hp) as PS.
    destruct (7 - p mod 8 - 1 <? 0) eqn:E; apply pair_equal_spec in PS; destruct PS as [P1 P2].
    + replace (i_buf <? p / 8 + 1) with false
        by (symmetry; apply Z.ltb_ge; Z.div_mod_to_equations; lia).
      rewrite P1, P2. apply IH.
    + rewrite P1, P2. apply IH.
Qed.

Lemma read_bits_ok : forall mem i_buf p n l,
  0 <= p -> (n <= 31)%nat ->
  firstn n (skipn (Z.to_nat p) (bits_of mem)) = l -> length l = n ->
  p + Z.of_nat n < 8 * (i_buf + 1) ->
  read_bits mem i_buf p n = Done (be_val l).
Proof.
  intros. unfold read_bits. rewrite shiftr3, land7.
  rewrite (read_bits_loop_ok n mem i_buf p 0 l); auto; try lia.
Qed.

(** Failure: as soon as the field reaches beyond byte [i_buf]. *)
Lemma read_bits_loop_fail : forall n mem i_buf p inf,
  0 <= p < 8 * (i_buf + 1) -> 0 <= inf < 2 ^ Z.of_nat (31 - n) -> (n <= 31)%nat ->
  i_buf < Z.of_nat (length mem) ->
  8 * (i_buf + 1) <= p + Z.of_nat n ->
  read_bits_loop mem i_buf n (p / 8) (7 - p mod 8) inf = Fail.
Proof.
  induction n as [|n IH]; intros mem i_buf p inf Hp Hinf Hn Hm Hend; [lia|].
  cbn [read_bits_loop].
  assert (Hsmall: inf <= 1073741823).
  { assert (2 ^ Z.of_nat (31 - S n) <= 2 ^ 30) by (apply Z.pow_le_mono_r; lia).
    change (2^30) with 1073741824 in *. lia. }
  unfold dbl_ok. replace (inf <=? 1073741823) with true by lia. cbn [negb].
  destruct (get_in _ mem (p / 8)) as [y G]; [Z.div_mod_to_equations; lia|].
  rewrite G. rewrite land_bit by (Z.div_mod_to_equations; lia). rewrite lor_b2z.
  set (b := Z.testbit y (7 - p mod 8)).
  assert (Hinf': 0 <= 2 * inf + Z.b2z b < 2 ^ Z.of_nat (31 - n)).
  { replace (Z.of_nat (31 - n)) with (Z.succ (Z.of_nat (31 - S n))) by lia.
    rewrite Z.pow_succ_r by lia. destruct b; cbn [Z.b2z]; lia. }
  pose proof (pos_step p ltac:(lia)) as PS.
  destruct (7 - p mod 8 - 1 <? 0) eqn:E; apply pair_equal_spec in PS; destruct PS as [P1 P2].
  - destruct (i_buf <? p / 8 + 1) eqn:F; [reflexivity|].
    rewrite P1, P2. apply IH; auto; try lia; Z.div_mod_to_equations; lia.
  - rewrite P1, P2. apply IH; auto; try lia; Z.div_mod_to_equations; lia.
Qed.

Lemma read_bits_fail : forall mem i_buf p n,
  0 <= p < 8 * (i_buf + 1) -> (n <= 31)%nat -> i_buf < Z.of_nat (length mem) ->
  8 * (i_buf + 1) <= p + Z.of_nat n ->
  read_bits mem i_buf p n = Fail.
Proof.
  intros. unfold read_bits. rewrite shiftr3, land7.
  apply read_bits_loop_fail; auto; try lia.
Qed.

(** Leading zeros. *)
Lemma vlc_zeros_ok : forall k fuel mem p len cnt rest,
  0 <= p -> (k < fuel)%nat ->
  skipn (Z.to_nat p) (bits_of mem) = repeat false k ++ true :: rest ->
  vlc_zeros fuel mem len cnt (p / 8) (7 - p mod 8)
  = Done (len + Z.of_nat k, cnt + Z.of_nat k,
          (p + Z.of_nat k) / 8, 7 - (p + Z.of_nat k) mod 8).
Proof.
  induction k as [|k IH]; intros fuel mem p len cnt rest Hp Hf Hs.
  - destruct fuel as [|fuel]; [lia|]. cbn [vlc_zeros].
    assert (Hb: get (bits_of mem) p = Some true).
    { unfold get. replace (p <? 0) with false by lia.
      rewrite <- (firstn_skipn (Z.to_nat p) (bits_of mem)), Hs.
      assert (length (skipn (Z.to_nat p) (bits_of mem)) = S (length rest)) by (rewrite Hs; reflexivity).
      rewrite skipn_length in H.
      rewrite nth_error_app2; rewrite firstn_length; [|lia].
      rewrite Nat.min_l, Nat.sub_diag by lia. reflexivity. }
    rewrite bits_of_nth in Hb by lia.
    destruct (get mem (p / 8)) as [y|]; [|discriminate]. apply Some_inj in Hb.
    rewrite land_bit_zero by (Z.div_mod_to_equations; lia). rewrite Hb. cbn [negb].
    replace (len + Z.of_nat 0) with len by lia. replace (cnt + Z.of_nat 0) with cnt by lia.
    replace (p + Z.of_nat 0) with p by lia. reflexivity.
  - destruct fuel as [|fuel]; [lia|]. cbn [vlc_zeros].
    assert (Hb: get (bits_of mem) p = Some false).
    { unfold get. replace (p <? 0) with false by lia.
      rewrite <- (firstn_skipn (Z.to_nat p) (bits_of mem)), Hs.
      assert (length (skipn (Z.to_nat p) (bits_of mem)) = (S k + S (length rest))%nat).
      { rewrite Hs, app_length, repeat_length. reflexivity. }
      rewrite skipn_length in H.
      rewrite nth_error_app2; rewrite firstn_length; [|lia].
      rewrite Nat.min_l, Nat.sub_diag by lia. reflexivity. }
    assert (Hs': skipn (Z.to_nat (p+1)) (bits_of mem) = repeat false k ++ true :: rest).
    { pose proof (skipn_get _ _ _ _ Hb) as Q. rewrite Hs in Q. cbn in Q. congruence. }
    rewrite bits_of_nth in Hb by lia.
    destruct (get mem (p / 8)) as [y|]; [|discriminate]. apply Some_inj in Hb.
    rewrite land_bit_zero by (Z.div_mod_to_equations; lia). rewrite Hb. cbn [negb].
    specialize (IH fuel mem (p+1) (len+1) (cnt+1) rest ltac:(lia) ltac:(lia) Hs').
    replace (len + Z.of_nat (S k)) with (len + 1 + Z.of_nat k) by lia.
    replace (cnt + Z.of_nat (S k)) with (cnt + 1 + Z.of_nat k) by lia.
    replace (p + Z.of_nat (S k)) with (p + 1 + Z.of_nat k) by lia.
    pose proof (pos_step p ltac:(lia)) as PS.
    destruct (7 - p mod 8 - 1 <? 0) eqn:E; apply pair_equal_spec in PS; destruct PS as [P1 P2];
      rewrite P1, P2; exact IH.
Qed.

(** Info word: [p] is the position before the increment. *)
Lemma vlc_info_ok : forall n mem i_buf inf cnt p l,
  0 <= p -> (n <= 31)%nat -> 0 <= inf < 2 ^ Z.of_nat (31 - n) ->
  firstn n (skipn (Z.to_nat (p + 1)) (bits_of mem)) = l -> length l = n ->
  p + Z.of_nat n < 8 * (i_buf + 1) ->
  vlc_info n mem i_buf inf cnt (p / 8) (7 - p mod 8)
  = Done (inf * 2 ^ Z.of_nat n + be_val l, cnt + Z.of_nat n).
Proof.
  induction n as [|n IH]; intros mem i_buf inf cnt p l Hp Hn Hinf Hl Hlen Hend.
  - cbn in *. subst l. unfold be_val; cbn. f_equal. f_equal; lia.
  - cbn [vlc_info]. rewrite (pos_step p Hp).
    replace (i_buf <? (p + 1) / 8) with false
      by (symmetry; apply Z.ltb_ge; Z.div_mod_to_equations; lia).
    assert (Hsmall: inf <= 1073741823).
    { assert (2 ^ Z.of_nat (31 - S n) <= 2 ^ 30) by (apply Z.pow_le_mono_r; lia).
      change (2^30) with 1073741824 in *. lia. }
    unfold dbl_ok. replace (inf <=? 1073741823) with true by lia. cbn [negb].
    assert (Hb: exists b, get (bits_of mem) (p+1) = Some b).
    { apply get_in. rewrite <- Hl in Hlen. rewrite firstn_length, skipn_length in Hlen. lia. }
    destruct Hb as [b Hb].
    assert (Hl': l = b :: firstn n (skipn (Z.to_nat (p+1+1)) (bits_of mem))).
    { rewrite <- Hl, (skipn_get _ _ _ _ Hb). reflexivity. }
    rewrite bits_of_nth in Hb by lia.
    destruct (get mem ((p+1) / 8)) as [y|] eqn:G; [|discriminate]. apply Some_inj in Hb.
    rewrite land_bit_zero by (Z.div_mod_to_equations; lia). rewrite Hb.
    replace (if negb b then Z.shiftl inf 1 else Z.lor (Z.shiftl inf 1) 1) with (2 * inf + Z.b2z b).
    2:{ rewrite <- lor_b2z. destruct b; cbn [negb Z.b2z]; auto. rewrite Z.lor_0_r. auto. }
    set (l' := firstn n (skipn (Z.to_nat (p+1+1)) (bits_of mem))) in *.
    assert (Hlen': length l' = n) by (rewrite Hl' in Hlen; cbn in Hlen; lia).
    assert (Hinf': 0 <= 2 * inf + Z.b2z b < 2 ^ Z.of_nat (31 - n)).
    { replace (Z.of_nat (31 - n)) with (Z.succ (Z.of_nat (31 - S n))) by lia.
      rewrite Z.pow_succ_r by lia. destruct b; cbn [Z.b2z]; lia. }
    rewrite (IH mem i_buf _ (cnt+1) (p+1) l' ltac:(lia) ltac:(lia) Hinf' eq_refl Hlen' ltac:(lia)).
    f_equal. f_equal; [|lia].
    rewrite Hl'. change (b :: l') with ([b] ++ l'). rewrite be_val_app, Hlen'.
    replace (Z.of_nat (S n)) with (Z.succ (Z.of_nat n)) by lia. rewrite Z.pow_succ_r by lia.
    unfold be_val at 2; cbn [fold_left]. destruct b; cbn [Z.b2z]; lia.
Qed.

Lemma get_vlc_symbol_ok : forall mem i_buf p k info rest,
  0 <= p -> (k <= 31)%nat -> length info = k ->
  skipn (Z.to_nat p) (bits_of mem) = repeat false k ++ true :: info ++ rest ->
  p + 2 * Z.of_nat k < 8 * (i_buf + 1) ->
  get_vlc_symbol mem p i_buf = Done (2 * Z.of_nat k + 1, be_val info).
Proof.
  intros mem i_buf p k info rest Hp Hk Hi Hs Hend.
  unfold get_vlc_symbol. rewrite shiftr3, land7.
  assert (Hfuel: (k < S (8 * length mem))%nat).
  { assert (H: length (skipn (Z.to_nat p) (bits_of mem)) = (k + S (length (info ++ rest)))%nat).
    { rewrite Hs, app_length, repeat_length. reflexivity. }
    rewrite skipn_length, bits_of_length in H. lia. }
  rewrite (vlc_zeros_ok k _ mem p 1 1 (info ++ rest) Hp Hfuel Hs). cbn [bindo].
  replace (Z.to_nat (1 + Z.of_nat k - 1)) with k by lia.
  assert (Hsk: skipn (Z.to_nat (p + Z.of_nat k + 1)) (bits_of mem) = info ++ rest).
  { replace (Z.to_nat (p + Z.of_nat k + 1)) with ((k + 1) + Z.to_nat p)%nat by lia.
    rewrite <- skipn_skipn, Hs.
    rewrite skipn_app, repeat_length, skipn_all2 by (rewrite repeat_length; lia).
    replace (k + 1 - k)%nat with 1%nat by lia. reflexivity. }
  rewrite (vlc_info_ok k mem i_buf 0 _ (p + Z.of_nat k) info); try lia.
  - cbn [bindo]. f_equal. f_equal; lia.
  - rewrite Hsk, <- Hi, firstn_app, Nat.sub_diag, firstn_all, firstn_O, app_nil_r. reflexivity.
Qed.

(** The specification encoder. *)
Lemma low_bits_length : forall n v, length (low_bits n v) = n.
Proof. induction n; cbn; intros; auto. Qed.

Lemma be_val_low_bits : forall n v, 0 <= v -> be_val (low_bits n v) = v mod 2 ^ Z.of_nat n.
Proof.
  induction n as [|n IH]; intros v Hv.
  - cbn. unfold be_val; cbn. rewrite Z.mod_1_r. reflexivity.
  - cbn [low_bits]. change (?a :: ?l) with ([a] ++ l). rewrite be_val_app, IH, low_bits_length by lia.
    unfold be_val; cbn [fold_left].
    replace (Z.of_nat (S n)) with (Z.of_nat n + 1) by lia.
    rewrite Z.pow_add_r by lia. change (2 ^ 1) with 2.
    rewrite Z.rem_mul_r by (try lia; apply Z.pow_nonzero; lia).
    rewrite Z.testbit_spec' by lia. lia.
Qed.

Lemma ue_code_shape : forall v, 0 <= v ->
  let k := Z.to_nat (Z.log2 (v + 1)) in
  ue_code v = repeat false k ++ true :: low_bits k (v + 1).
Proof.
  intros v Hv k. unfold ue_code. fold k. f_equal. cbn [low_bits]. f_equal.
  unfold k. rewrite Z2Nat.id by apply Z.log2_nonneg. apply Z.bit_log2. lia.
Qed.

Lemma ue_code_length : forall v, 0 <= v -> Z.of_nat (length (ue_code v)) = 2 * Z.log2 (v+1) + 1.
Proof.
  intros. unfold ue_code. rewrite app_length, repeat_length, low_bits_length.
  pose proof (Z.log2_nonneg (v+1)). lia.
Qed.

Lemma pow_log2_low : forall v, 0 <= v ->
  2 ^ Z.log2 (v+1) + (v + 1) mod 2 ^ Z.log2 (v+1) - 1 = v.
Proof.
  intros v Hv. pose proof (Z.log2_spec (v+1) ltac:(lia)) as [L U].
  pose proof (Z.log2_nonneg (v+1)).
  rewrite Z.pow_succ_r in U by lia.
  assert (E: (v+1) mod 2 ^ Z.log2 (v+1) = v + 1 - 2 ^ Z.log2 (v+1)).
  { symmetry. apply Z.mod_unique with 1; lia. }
  lia.
Qed.

(** Common part of the two round trips. *)
Lemma symbol_roundtrip : forall mem len pre post v,
  0 <= v <= 2147483646 ->
  bits_of mem = pre ++ ue_code v ++ post ->
  len = Z.of_nat (length mem) ->
  get_vlc_symbol mem (Z.of_nat (length pre)) len
  = Done (Z.of_nat (length (ue_code v)), (v + 1) mod 2 ^ Z.log2 (v + 1)).
Proof.
  intros mem len pre post v Hv Hb Hl.
  pose proof (Z.log2_nonneg (v+1)) as Hn.
  assert (Hlog: Z.log2 (v + 1) < 31) by (apply Z.log2_lt_pow2; [lia|change (2^31) with 2147483648; lia]).
  assert (Htot: (8 * length mem = length pre + (length (ue_code v) + length post))%nat).
  { rewrite <- bits_of_length, Hb, !app_length. reflexivity. }
  pose proof (ue_code_length v ltac:(lia)) as HL.
  rewrite (get_vlc_symbol_ok mem len (Z.of_nat (length pre)) (Z.to_nat (Z.log2 (v+1)))
             (low_bits (Z.to_nat (Z.log2 (v+1))) (v+1)) post).
  - f_equal. rewrite be_val_low_bits, Z2Nat.id by lia. f_equal. lia.
  - lia.
  - lia.
  - apply low_bits_length.
  - rewrite Nat2Z.id, Hb, skipn_app, skipn_all, Nat.sub_diag. cbn [skipn app].
    rewrite ue_code_shape by lia. rewrite <- app_assoc. reflexivity.
  - lia.
Qed.

Lemma shl1_ok : forall k, 0 <= k <= 30 -> shl1 k = Done (2 ^ k).
Proof. intros. unfold shl1. replace (k <? 0) with false by lia. replace (30 <? k) with false by lia.
  cbn. rewrite Z.shiftl_1_l. reflexivity. Qed.

Lemma ue_roundtrip : forall mem pre post v,
  0 <= v <= 2147483646 ->
  bits_of mem = pre ++ ue_code v ++ post ->
  vlc_ue_v (Bs mem (Z.of_nat (length mem)) (Z.of_nat (length pre)))
  = Done (v, Bs mem (Z.of_nat (length mem)) (Z.of_nat (length (pre ++ ue_code v)))).
Proof.
  intros mem pre post v Hv Hb.
  pose proof (Z.log2_nonneg (v+1)) as Hn.
  assert (Hlog: Z.log2 (v + 1) < 31) by (apply Z.log2_lt_pow2; [lia|change (2^31) with 2147483648; lia]).
  unfold vlc_ue_v; cbn [bs_mem bs_len bs_pos].
  rewrite (symbol_roundtrip mem _ pre post v Hv Hb eq_refl).
  rewrite ue_code_length by lia. rewrite Z.shiftr_div_pow2 by lia. change (2^1) with 2.
  replace ((2 * Z.log2 (v+1) + 1) / 2) with (Z.log2 (v+1)) by (Z.div_mod_to_equations; lia).
  rewrite shl1_ok by lia. cbn [bindo]. unfold bs_move; cbn [bs_mem bs_len bs_pos].
  rewrite pow_log2_low by lia. rewrite app_length, Nat2Z.inj_add, ue_code_length by lia. reflexivity.
Qed.

Lemma se_roundtrip : forall mem pre post v,
  -1073741823 <= v <= 1073741823 ->
  bits_of mem = pre ++ se_code v ++ post ->
  vlc_se_v (Bs mem (Z.of_nat (length mem)) (Z.of_nat (length pre)))
  = Done (v, Bs mem (Z.of_nat (length mem)) (Z.of_nat (length (pre ++ se_code v)))).
Proof.
  intros mem pre post v Hv Hb. unfold se_code in *.
  set (n := se_index v) in *.
  assert (Hn': 0 <= n <= 2147483646) by (unfold n, se_index; destruct (0 <? v) eqn:E; lia).
  pose proof (Z.log2_nonneg (n+1)) as Hn.
  assert (Hlog: Z.log2 (n + 1) < 31) by (apply Z.log2_lt_pow2; [lia|change (2^31) with 2147483648; lia]).
  unfold vlc_se_v; cbn [bs_mem bs_len bs_pos].
  rewrite (symbol_roundtrip mem _ pre post n Hn' Hb eq_refl).
  rewrite ue_code_length by lia. rewrite Z.shiftr_div_pow2 by lia. change (2^1) with 2.
  replace ((2 * Z.log2 (n+1) + 1) / 2) with (Z.log2 (n+1)) by (Z.div_mod_to_equations; lia).
  rewrite shl1_ok by lia. cbn [bindo]. unfold bs_move; cbn [bs_mem bs_len bs_pos].
  rewrite pow_log2_low by lia. rewrite app_length, Nat2Z.inj_add, ue_code_length by lia.
  f_equal. f_equal.
  change 1 with (Z.ones 1) at 1. rewrite Z.land_ones by lia. change (2^1) with 2.
  rewrite Z.shiftr_div_pow2 by lia. change (2^1) with 2.
  unfold n, se_index. destruct (0 <? v) eqn:E.
  - replace ((2 * v - 1) mod 2 =? 0) with false by (symmetry; apply Z.eqb_neq; Z.div_mod_to_equations; lia).
    Z.div_mod_to_equations; lia.
  - replace (- (2 * v) mod 2 =? 0) with true by (symmetry; apply Z.eqb_eq; Z.div_mod_to_equations; lia).
    Z.div_mod_to_equations; lia.
Qed.

Lemma u_v_value : forall mem pre f post,
  (length f <= 31)%nat ->
  bits_of mem = pre ++ f ++ post ->
  vlc_u_v (Bs mem (Z.of_nat (length mem)) (Z.of_nat (length pre))) (length f)
  = Done (be_val f, Bs mem (Z.of_nat (length mem)) (Z.of_nat (length (pre ++ f)))).
Proof.
  intros mem pre f post Hf Hb. unfold vlc_u_v; cbn [bs_mem bs_len bs_pos].
  assert (Htot: (8 * length mem = length pre + (length f + length post))%nat).
  { rewrite <- bits_of_length, Hb, !app_length. reflexivity. }
  rewrite (read_bits_ok mem _ _ (length f) f); try lia.
  - unfold bs_move; cbn [bs_mem bs_len bs_pos]. rewrite app_length, Nat2Z.inj_add. reflexivity.
  - rewrite Nat2Z.id, Hb, skipn_app, skipn_all, Nat.sub_diag. cbn [skipn app].
    rewrite firstn_app, Nat.sub_diag, firstn_all, firstn_O, app_nil_r. reflexivity.
Qed.

Lemma u_v_fail : forall s n,
  0 <= bs_pos s < 8 * (bs_len s + 1) -> (n <= 31)%nat -> bs_len s < Z.of_nat (length (bs_mem s)) ->
  8 * (bs_len s + 1) <= bs_pos s + Z.of_nat n ->
  vlc_u_v s n = Done (-1, s).
Proof. intros. unfold vlc_u_v. rewrite read_bits_fail; auto. Qed.

(** With one byte of slack behind the declared data, u(v) is always defined and keeps
    the position in the range where the next u(v) is defined too. *)
Definition u_v_safe_state (s : bs) : Prop :=
  0 <= bs_pos s < 8 * (bs_len s + 1) /\ bs_len s < Z.of_nat (length (bs_mem s)).

Lemma u_v_safe : forall s n, u_v_safe_state s -> (n <= 31)%nat ->
  exists v s', vlc_u_v s n = Done (v, s') /\ u_v_safe_state s' /\ bs_mem s' = bs_mem s /\ bs_len s' = bs_len s /\ -1 <= v < 2 ^ Z.of_nat n.
Proof.
  intros s n [Hp Hm] Hn.
  destruct (Z.lt_ge_cases (bs_pos s + Z.of_nat n) (8 * (bs_len s + 1))) as [H|H].
  - set (l := firstn n (skipn (Z.to_nat (bs_pos s)) (bits_of (bs_mem s)))).
    assert (Hl: length l = n).
    { unfold l. rewrite firstn_length, skipn_length, bits_of_length. lia. }
    exists (be_val l), (bs_move s (Z.of_nat n)).
    unfold vlc_u_v. rewrite (read_bits_ok _ _ _ n l); try lia; auto.
    pose proof (be_val_bound l). rewrite Hl in *.
    repeat split; unfold bs_move; cbn [bs_mem bs_len bs_pos]; try lia.
  - exists (-1), s. rewrite u_v_fail by (auto; lia). repeat split; auto; try lia.
Qed.

(** ue(v) is defined when a one bit comes within 30 bits and the slack byte exists. *)
Lemma vlc_info_total : forall n mem i_buf inf cnt p,
  0 <= p -> (n <= 31)%nat -> 0 <= inf < 2 ^ Z.of_nat (31 - n) ->
  i_buf < Z.of_nat (length mem) ->
  vlc_info n mem i_buf inf cnt (p / 8) (7 - p mod 8) = Fail \/
  exists v, 0 <= v < 2 ^ Z.of_nat 31 /\
 vlc_info n mem i_buf inf cnt (p / 8) (7 - p mod 8) = Done (v, cnt + Z.of_nat n) /\ v < (inf + 1) * 2 ^ Z.of_nat n.
Proof.
  induction n as [|n IH]; intros mem i_buf inf cnt p Hp Hn Hinf Hm.
  - right. exists inf. cbn [vlc_info]. replace (31 - 0)%nat with 31%nat in Hinf by lia.
    repeat split; auto; try lia. f_equal. f_equal. lia.
  - cbn [vlc_info]. rewrite (pos_step p Hp).
    destruct (i_buf <? (p + 1) / 8) eqn:F; [left; reflexivity|].
    assert (Hsmall: inf <= 1073741823).
    { assert (2 ^ Z.of_nat (31 - S n) <= 2 ^ 30) by (apply Z.pow_le_mono_r; lia).
      change (2^30) with 1073741824 in *. lia. }
    unfold dbl_ok. replace (inf <=? 1073741823) with true by lia. cbn [negb].
    destruct (get_in _ mem ((p+1)/8)) as [y G]; [Z.div_mod_to_equations; lia|].
    rewrite G. rewrite land_bit_zero by (Z.div_mod_to_equations; lia).
    set (b := Z.testbit y (7 - (p + 1) mod 8)).
    replace (if negb b then Z.shiftl inf 1 else Z.lor (Z.shiftl inf 1) 1) with (2 * inf + Z.b2z b).
    2:{ rewrite <- lor_b2z. destruct b; cbn [negb Z.b2z]; auto. rewrite Z.lor_0_r. auto. }
    assert (Hinf': 0 <= 2 * inf + Z.b2z b < 2 ^ Z.of_nat (31 - n)).
    { replace (Z.of_nat (31 - n)) with (Z.succ (Z.of_nat (31 - S n))) by lia.
      rewrite Z.pow_succ_r by lia. destruct b; cbn [Z.b2z]; lia. }
    destruct (IH mem i_buf (2 * inf + Z.b2z b) (cnt + 1) (p + 1)) as [Q|(v & V1 & V2 & V3)]; auto; try lia.
    right. exists v. repeat split; auto; try lia.
    + rewrite V2. f_equal. f_equal. lia.
    + replace (Z.of_nat (S n)) with (Z.succ (Z.of_nat n)) by lia. rewrite Z.pow_succ_r by lia.
      assert (0 < 2 ^ Z.of_nat n) by (apply Z.pow_pos_nonneg; lia).
      destruct b; cbn [Z.b2z] in *; nia.
Qed.

Lemma ue_safe : forall s k rest, 0 <= bs_pos s -> bs_len s < Z.of_nat (length (bs_mem s)) ->
  (k <= 30)%nat ->
  skipn (Z.to_nat (bs_pos s)) (bits_of (bs_mem s)) = repeat false k ++ true :: rest ->
  exists v s', vlc_ue_v s = Done (v, s') /\ -1 <= v <= 2147483646 /\ bs_mem s' = bs_mem s /\ bs_len s' = bs_len s /\ (v = -1 /\ s' = s \/ 0 <= v /\ bs_pos s' = bs_pos s + 2 * Z.of_nat k + 1).
Proof.
  intros s k rest Hp Hm Hk Hs. unfold vlc_ue_v, get_vlc_symbol. rewrite shiftr3, land7.
  assert (Hfuel: (k < S (8 * length (bs_mem s)))%nat).
  { assert (H: length (skipn (Z.to_nat (bs_pos s)) (bits_of (bs_mem s))) = (k + S (length rest))%nat).
    { rewrite Hs, app_length, repeat_length. reflexivity. }
    rewrite skipn_length, bits_of_length in H. lia. }
  rewrite (vlc_zeros_ok k _ (bs_mem s) (bs_pos s) 1 1 rest Hp Hfuel Hs). cbn [bindo].
  replace (Z.to_nat (1 + Z.of_nat k - 1)) with k by lia.
  destruct (vlc_info_total k (bs_mem s) (bs_len s) 0 (1 + Z.of_nat k) (bs_pos s + Z.of_nat k))
    as [Q|(v & V1 & V2 & V3)]; auto; try lia.
  - rewrite Q. cbn [bindo]. exists (-1), s. repeat split; auto; lia.
  - rewrite V2. cbn [bindo].
    rewrite Z.shiftr_div_pow2 by lia. change (2^1) with 2.
    replace ((1 + Z.of_nat k + Z.of_nat k) / 2) with (Z.of_nat k) by (Z.div_mod_to_equations; lia).
    rewrite shl1_ok by lia. cbn [bindo].
    assert (2 ^ Z.of_nat k <= 2 ^ 30) by (apply Z.pow_le_mono_r; lia).
    assert (0 < 2 ^ Z.of_nat k) by (apply Z.pow_pos_nonneg; lia).
    change (2^30) with 1073741824 in *.
    eexists _, _. split; [reflexivity|]. unfold bs_move; cbn [bs_mem bs_len bs_pos].
    repeat split; try lia.
Qed.

(** All-zero memory: the scan runs off its end. *)
Lemma vlc_zeros_off : forall fuel m p len cnt, 0 <= p <= 8 * Z.of_nat m ->
  (8 * m < fuel + Z.to_nat p)%nat ->
  vlc_zeros fuel (repeat 0 m) len cnt (p / 8) (7 - p mod 8) = Undef.
Proof.
  induction fuel as [|fuel IH]; intros m p len cnt Hp Hf.
  - cbn in Hf. lia.
  - cbn [vlc_zeros].
    destruct (get (repeat 0 m) (p / 8)) as [y|] eqn:G; [|reflexivity].
    pose proof (get_some_lt _ _ _ _ G) as GL. rewrite repeat_length in GL.
    assert (y = 0).
    { unfold get in G. destruct (p / 8 <? 0); [discriminate|]. apply nth_error_In in G. apply repeat_spec in G. auto. }
    subst y. rewrite Z.land_0_l. cbn [Z.eqb].
    pose proof (pos_step p ltac:(lia)) as PS.
    destruct (7 - p mod 8 - 1 <? 0) eqn:E; apply pair_equal_spec in PS; destruct PS as [P1 P2];
      rewrite P1, P2; apply IH; try lia; Z.div_mod_to_equations; lia.
Qed.

Lemma ue_unbounded : forall slack : nat,
    exists (mem : list Z),
      bytes_ok mem /\
      vlc_ue_v (Bs (mem ++ repeat 0 slack) (Z.of_nat (length mem)) 0) = Undef.
Proof.
  intros slack. exists [0]. split; [repeat constructor; discriminate|].
  change ([0] ++ repeat 0 slack) with (repeat 0 (S slack)).
  unfold vlc_ue_v, get_vlc_symbol; cbn [bs_mem bs_pos bs_len]. rewrite shiftr3, land7.
  rewrite vlc_zeros_off; [reflexivity|lia|]. rewrite repeat_length. lia.
Qed.
