From Coq Require Import ZArith List Bool Lia ZifyBool.
From Verif Require Import CBase CBaseProofs BsModel BsSpec.
Import ListNotations.
Open Scope Z_scope.

(** *** Bit-level facts about the merge. *)
Lemma bits8_bound : forall x, (forall i, 8 <= i -> Z.testbit x i = false) -> 0 <= x <= 255.
Proof.
  intros x H.
  assert (E: x = x mod 2 ^ 8).
  { apply Z.bits_inj'. intros n Hn. destruct (Z.lt_ge_cases n 8).
    - rewrite Z.mod_pow2_bits_low by lia. reflexivity.
    - rewrite Z.mod_pow2_bits_high by lia. apply H; lia. }
  rewrite E. change (2^8) with 256. pose proof (Z.mod_pos_bound x 256). lia.
Qed.

Lemma mask_high : forall m i, 0 <= m < 256 -> 8 <= i -> Z.testbit m i = false.
Proof.
  intros. destruct (Z.eq_dec m 0) as [->|]; [apply Z.bits_0|].
  apply Z.bits_above_log2; [lia|]. apply Z.log2_lt_pow2; [lia|].
  apply Z.lt_le_trans with (2^8); [change (2^8) with 256; lia|]. apply Z.pow_le_mono_r; lia.
Qed.

Lemma byte_high : forall m i, 0 <= m <= 255 -> 8 <= i -> Z.testbit m i = false.
Proof. intros. apply mask_high; lia. Qed.

Definition cnt_ok (k : Z) : Prop := k = 2 \/ k = 4 \/ k = 6.

Lemma merge_bound : forall last k curr, cnt_ok k -> 0 <= last <= 255 -> 0 <= curr <= 255 ->
  0 <= pc_merge last k curr <= 255.
Proof.
  intros last k curr Hk Hl Hc. apply bits8_bound. intros i Hi. unfold pc_merge.
  rewrite Z.lor_spec, Z.land_spec, Z.shiftr_spec, Z.land_spec by lia.
  rewrite (byte_high last i), (byte_high curr (i + k)); auto; unfold cnt_ok in Hk; lia.
Qed.

Ltac testbits :=
  repeat first [ rewrite Z.lor_spec | rewrite Z.land_spec | rewrite Z.shiftr_spec by lia
               | rewrite Z.shiftl_spec by lia ].

Lemma merge_bits : forall last k curr, cnt_ok k -> 0 <= curr <= 255 ->
  byte_bits (pc_merge last k curr)
  = firstn (Z.to_nat k) (byte_bits last) ++ firstn (8 - Z.to_nat k) (byte_bits curr).
Proof.
  intros last k curr Hk Hc. unfold cnt_ok in Hk.
  destruct Hk as [-> | [-> | ->]]; unfold pc_merge, BITMASK, byte_bits; cbn [Z.eqb Z.to_nat];
  [change (Pos.to_nat 2) with 2%nat|change (Pos.to_nat 4) with 4%nat|change (Pos.to_nat 6) with 6%nat];
  cbn [firstn app Nat.sub]; change (8-2) with 6; change (8 - 4) with 4; change (8 - 6) with 2;
  cbn [Z.eqb Pos.eqb];
  testbits; cbn [Z.add Pos.add Pos.succ];
  repeat match goal with |- context [Z.testbit (Zpos ?a) ?b] =>
     let v := eval vm_compute in (Z.testbit (Zpos a) b) in change (Z.testbit (Zpos a) b) with v end;
  rewrite ?andb_true_r, ?andb_false_r, ?orb_false_r, ?orb_false_l;
  rewrite ?(byte_high curr) by lia; rewrite ?orb_false_r; cbn [orb]; try reflexivity.
Qed.

Lemma carry_bits : forall k curr, cnt_ok k -> 0 <= curr <= 255 ->
  byte_bits (Z.land (Z.shiftl curr (8 - k)) (BITMASK k))
  = skipn (8 - Z.to_nat k) (byte_bits curr) ++ repeat false (8 - Z.to_nat k).
Proof.
  intros k curr Hk Hc. unfold cnt_ok in Hk.
  destruct Hk as [-> | [-> | ->]]; unfold BITMASK, byte_bits; cbn [Z.eqb Pos.eqb Z.to_nat];
  [change (Pos.to_nat 2) with 2%nat|change (Pos.to_nat 4) with 4%nat|change (Pos.to_nat 6) with 6%nat];
  cbn [skipn app Nat.sub repeat]; change (8-2) with 6; change (8 - 4) with 4; change (8 - 6) with 2;
  testbits; cbn [Z.sub Z.opp Z.add Z.pos_sub Pos.pred_double Z.succ_double Z.pred_double Z.double];
  repeat match goal with |- context [Z.testbit (Zpos ?a) ?b] =>
     let v := eval vm_compute in (Z.testbit (Zpos a) b) in change (Z.testbit (Zpos a) b) with v end;
  rewrite ?andb_true_r, ?andb_false_r; reflexivity.
Qed.

Lemma carry_bound : forall k curr m, 0 <= m < 256 ->
  0 <= Z.land (Z.shiftl curr (8 - k)) m <= 255.
Proof.
  intros. apply bits8_bound. intros i Hi. rewrite Z.land_spec, (mask_high m i) by lia.
  apply andb_false_r.
Qed.

(** Carry after an emulation byte: [k - 2] zero bits. *)
Lemma carry2_zero : forall k, cnt_ok k -> Z.land (Z.shiftl 2 (8 - k)) (BITMASK (k - 2)) = 0.
Proof. intros k [-> | [-> | ->]]; reflexivity. Qed.

(** *** Abstraction of the flags. *)
Fixpoint czeros (rp : list Z) : nat :=
  match rp with 0 :: r => S (czeros r) | _ => O end.
Definition found_of (rp : list Z) : bool :=
  match rp with 1 :: 0 :: 0 :: _ => true | _ => false end.

Lemma czeros_two : forall rp, (2 <=? Z.of_nat (czeros rp)) = two_zeros rp.
Proof.
  intros [|[| |] [|[| |] r]]; try reflexivity. cbn [czeros two_zeros]. lia.
Qed.
Lemma czeros_exact : forall rp, (Z.of_nat (czeros rp) =? 2) = exactly_two_zeros rp.
Proof.
  intros [|[| |] [|[| |] [|[| |] r]]]; try reflexivity. cbn [czeros exactly_two_zeros Z.eqb negb]. lia.
Qed.
Lemma czeros_nz : forall b rp, b <> 0 -> czeros (b :: rp) = O.
Proof. intros [| |]; cbn; congruence. Qed.

Lemma last_type_cons : forall t r, last_type (t :: r) = if found_of r then Some t else last_type r.
Proof.
  intros. cbn [last_type]. unfold found_of.
  destruct r as [|[|[]|] [|[| |] [|[| |] r]]]; reflexivity.
Qed.

Lemma protected_cons : forall t r, protected (t :: r) =
  if found_of r then negb ((t =? 176) || (t =? 178) || (t =? 181)) else protected r.
Proof. intros. unfold protected. rewrite last_type_cons. destruct (found_of r); reflexivity. Qed.

Lemma found_of_inv : forall r, found_of r = true -> exists q, r = 1 :: 0 :: 0 :: q.
Proof.
  intros r H. unfold found_of in H.
  destruct r as [|[|[]|] [|[| |] [|[| |] r]]]; try discriminate. eauto.
Qed.

Lemma found_of_cons : forall b r, found_of (b :: r) = is_start r b.
Proof.
  intros. unfold found_of, is_start, two_zeros.
  destruct b as [|[]|]; cbn [Z.eqb Pos.eqb andb]; try reflexivity.
Qed.

(** *** The simulation invariant. *)
Record inv (rp : list Z) (out : list bool) (s : pcs) (dst : list Z) : Prop := {
  i_zeros : pc_zeros s = Z.of_nat (czeros rp);
  i_found : pc_found s = found_of rp;
  i_disp  : pc_disp s = protected rp;
  i_cnt   : pc_cnt s = 0 \/ cnt_ok (pc_cnt s);
  i_out   : out = bits_of dst ++ firstn (Z.to_nat (pc_cnt s)) (byte_bits (pc_last s));
  i_bytes : bytes_ok dst;
  i_last  : 0 <= pc_last s <= 255;
  i_zero  : (exists r, rp = 0 :: r) -> pc_cnt s <> 0 -> pc_last s = 0;
  i_tail  : match rp with b :: r => is_pseudo r b | [] => false end = false ->
            pc_cnt s <> 0 ->
            skipn (Z.to_nat (pc_cnt s)) (byte_bits (pc_last s)) = repeat false (8 - Z.to_nat (pc_cnt s))
}.

Lemma bytes_ok_app : forall a b, bytes_ok a -> bytes_ok b -> bytes_ok (a ++ b).
Proof. intros. apply Forall_app; auto. Qed.
Lemma bytes_ok_snoc : forall a b, bytes_ok a -> 0 <= b <= 255 -> bytes_ok (a ++ [b]).
Proof. intros. apply bytes_ok_app; auto. repeat constructor; lia. Qed.

Lemma inv_init : inv [] [] pcs_init [].
Proof. constructor; cbn; auto; try lia; try congruence. constructor. Qed.

Lemma out_mod8 : forall dst p, (length p < 8)%nat -> (length (bits_of dst ++ p) mod 8 = length p)%nat.
Proof.
  intros. rewrite app_length, bits_of_length, Nat.add_comm, Nat.mul_comm, Nat.mod_add by lia.
  apply Nat.mod_small; lia.
Qed.

Lemma zero_bits : forall k, firstn k (byte_bits 0) = repeat false (Nat.min k 8).
Proof. intros. do 9 (destruct k as [|k]; [reflexivity|]). reflexivity. Qed.

(** Effect of a kept byte on the pending bits. *)
Lemma keep_step : forall s curr dst, 0 <= curr <= 255 -> (pc_cnt s = 0 \/ cnt_ok (pc_cnt s)) ->
  let last' := if pc_cnt s =? 0 then pc_last s
               else Z.land (Z.shiftl curr (8 - pc_cnt s)) (BITMASK (pc_cnt s)) in
  let w := if pc_cnt s =? 0 then curr else pc_merge (pc_last s) (pc_cnt s) curr in
  (bits_of dst ++ firstn (Z.to_nat (pc_cnt s)) (byte_bits (pc_last s))) ++ byte_bits curr
  = bits_of (dst ++ [w]) ++ firstn (Z.to_nat (pc_cnt s)) (byte_bits last').
Proof.
  intros s curr dst Hc Hk. destruct Hk as [->|Hk].
  - cbn [Z.eqb Z.to_nat firstn]. cbv zeta. rewrite !app_nil_r, bits_of_app. cbn [bits_of flat_map].
    rewrite app_nil_r. reflexivity.
  - assert (E: pc_cnt s =? 0 = false) by (unfold cnt_ok in Hk; lia). rewrite E. cbv zeta.
    rewrite bits_of_app. cbn [bits_of flat_map]. rewrite app_nil_r, merge_bits, carry_bits by auto.
    rewrite <- !app_assoc. f_equal. f_equal.
    destruct Hk as [Q | [Q | Q]]; rewrite Q; reflexivity.
Qed.

Lemma keep_tail : forall k curr, cnt_ok k -> 0 <= curr <= 255 ->
  skipn (Z.to_nat k) (byte_bits (Z.land (Z.shiftl curr (8 - k)) (BITMASK k)))
  = repeat false (8 - Z.to_nat k).
Proof.
  intros. rewrite carry_bits by auto. rewrite skipn_app, skipn_all2.
  - rewrite skipn_length. change (length (byte_bits curr)) with 8%nat.
    replace (Z.to_nat k - (8 - (8 - Z.to_nat k)))%nat with O by (unfold cnt_ok in H; lia). reflexivity.
  - rewrite skipn_length. change (length (byte_bits curr)) with 8%nat. unfold cnt_ok in H. lia.
Qed.

(** The effect of [pc_step] described by cases. *)
Definition st_keep (s : pcs) (curr : Z) (found : bool) (zeros : Z) (disp : bool) : pcs :=
  Pcs found zeros (pc_cnt s) disp
      (if pc_cnt s =? 0 then pc_last s
       else Z.land (Z.shiftl curr (8 - pc_cnt s)) (BITMASK (pc_cnt s))).
Definition w_keep (s : pcs) (curr : Z) : Z :=
  if pc_cnt s =? 0 then curr else pc_merge (pc_last s) (pc_cnt s) curr.

Lemma pc_step_keep : forall s curr,
  ~ (curr = 1 /\ 2 <= pc_zeros s /\ pc_cnt s <> 0) ->
  ~ (curr = 2 /\ pc_disp s = true /\ pc_zeros s = 2) ->
  pc_step s curr =
  (st_keep s curr
     (if curr =? 0 then false else if curr =? 1 then (2 <=? pc_zeros s) || pc_found s
      else if curr =? 2 then pc_found s else false)
     (if curr =? 0 then pc_zeros s + 1 else 0)
     (if curr =? 0 then pc_found s || pc_disp s
      else if curr =? 1 then pc_disp s else if curr =? 2 then pc_disp s
      else if pc_found s then negb ((curr =? 176) || (curr =? 178) || (curr =? 181)) else pc_disp s),
   [w_keep s curr]).
Proof.
  intros [f z k d l] curr H1 H2. cbn [pc_zeros pc_cnt pc_disp] in *.
  unfold pc_step, pc_switch, st_keep, w_keep.
  cbn [pc_found pc_zeros pc_cnt pc_disp pc_last].
  destruct (curr =? 0) eqn:C0.
  { destruct f; cbn [pc_found pc_zeros pc_cnt pc_disp pc_last Z.eqb Pos.eqb app orb];
    destruct (k =? 0) eqn:K; try reflexivity. }
  destruct (curr =? 1) eqn:C1.
  { destruct (2 <=? z) eqn:Z2.
    - destruct (k =? 0) eqn:K; cbn [negb pc_found pc_zeros pc_cnt pc_disp pc_last Z.eqb Pos.eqb app orb].
      + rewrite K. reflexivity.
      + exfalso. apply H1. lia.
    - cbn [pc_found pc_zeros pc_cnt pc_disp pc_last Z.eqb Pos.eqb app orb].
      destruct (k =? 0) eqn:K; reflexivity. }
  destruct (curr =? 2) eqn:C2.
  { replace (d && (z =? 2)) with false.
    2:{ destruct d; auto. cbn. symmetry. apply Z.eqb_neq. intro. apply H2. repeat split; auto; lia. }
    cbn [pc_found pc_zeros pc_cnt pc_disp pc_last Z.eqb Pos.eqb app orb].
    destruct (k =? 0) eqn:K; reflexivity. }
  unfold SC_SEQUENCE_HEADER, SC_USER_DATA, SC_EXTENSION.
  destruct f; cbn [pc_found pc_zeros pc_cnt pc_disp pc_last Z.eqb Pos.eqb app orb].
  - destruct ((curr =? 176) || (curr =? 178) || (curr =? 181));
    cbn [pc_found pc_zeros pc_cnt pc_disp pc_last Z.eqb Pos.eqb app orb negb];
    destruct (k =? 0) eqn:K; reflexivity.
  - destruct (k =? 0) eqn:K; reflexivity.
Qed.

Lemma pc_step_break : forall s, 2 <= pc_zeros s -> pc_cnt s <> 0 ->
  pc_step s 1 = (Pcs true 0 0 (pc_disp s) (pc_last s), [0; 1]).
Proof.
  intros [f z k d l] H1 H2. cbn [pc_zeros pc_cnt] in *.
  unfold pc_step, pc_switch. cbn [pc_found pc_zeros pc_cnt pc_disp pc_last Z.eqb Pos.eqb].
  replace (2 <=? z) with true by lia. replace (k =? 0) with false by lia. reflexivity.
Qed.

Lemma pc_step_pseudo : forall s, pc_disp s = true -> pc_zeros s = 2 ->
  pc_step s 2 =
  if pc_cnt s =? 0 then (Pcs (pc_found s) 0 6 true 2, [])
  else (Pcs (pc_found s) 0 (pc_cnt s - 2) true
            (Z.land (Z.shiftl 2 (8 - pc_cnt s)) (BITMASK (pc_cnt s - 2))),
        [pc_merge (pc_last s) (pc_cnt s) 2]).
Proof.
  intros [f z k d l] H1 H2. cbn [pc_zeros pc_disp] in *. subst.
  unfold pc_step, pc_switch. cbn [pc_found pc_zeros pc_cnt pc_disp pc_last Z.eqb Pos.eqb andb app].
  destruct (k =? 0); reflexivity.
Qed.

Lemma is_start_true : forall rp b, is_start rp b = true -> b = 1 /\ two_zeros rp = true.
Proof. unfold is_start. intros. apply andb_prop in H. split; [lia|tauto]. Qed.

Lemma step_inv : forall rp out s dst b,
  0 <= b <= 255 ->
  (found_of rp = true -> b <> 1 /\ b <> 2) ->
  inv rp out s dst ->
  inv (b :: rp)
      ((if is_start rp b then pad8 out else out) ++
       (if is_pseudo rp b then firstn 6 (byte_bits b) else byte_bits b))
      (fst (pc_step s b)) (dst ++ snd (pc_step s b)).
Proof.
  intros rp out s dst b Hb Hsmall [Hz Hf Hd Hk Ho Hby Hl Hzero Htail].
  assert (Z2: (2 <=? pc_zeros s) = two_zeros rp) by (rewrite Hz; apply czeros_two).
  assert (Zx: (pc_zeros s =? 2) = exactly_two_zeros rp) by (rewrite Hz; apply czeros_exact).
  destruct (is_pseudo rp b) eqn:HP.
  { (* emulation byte *)
    unfold is_pseudo in HP. apply andb_prop in HP as [HP HP3]. apply andb_prop in HP as [HP1 HP2].
    assert (b = 2) by lia. subst b.
    replace (is_start rp 2) with false by reflexivity.
    rewrite pc_step_pseudo by (rewrite ?Hd; auto; lia).
    assert (NF: found_of rp = false).
    { destruct (found_of rp) eqn:F; auto. destruct (Hsmall eq_refl). lia. }
    assert (PT: protected (2 :: rp) = true) by (rewrite protected_cons, NF; exact HP3).
    assert (FO: found_of (2 :: rp) = false) by reflexivity.
    destruct (pc_cnt s =? 0) eqn:K; cbn [fst snd].
    - assert (K0: pc_cnt s = 0) by lia. rewrite K0 in Ho. cbn [Z.to_nat firstn] in Ho. rewrite app_nil_r in Ho.
      constructor; cbn [pc_found pc_zeros pc_cnt pc_disp pc_last]; auto; try lia.
      + unfold cnt_ok; lia.
      + rewrite app_nil_r, Ho. reflexivity.
      + rewrite app_nil_r; auto.
      + intros [r E]. discriminate.
      + intros HT. exfalso. unfold is_pseudo in HT. rewrite HP2, HP3 in HT. discriminate.
    - assert (HK: cnt_ok (pc_cnt s)) by (destruct Hk; [lia|auto]).
      rewrite carry2_zero by auto.
      constructor; cbn [pc_found pc_zeros pc_cnt pc_disp pc_last]; auto; try lia.
      + unfold cnt_ok in *; lia.
      + rewrite Ho, bits_of_app. cbn [bits_of flat_map]. rewrite app_nil_r, merge_bits by (auto; lia).
        rewrite <- !app_assoc. f_equal. f_equal.
        destruct HK as [-> | [-> | ->]]; reflexivity.
      + apply bytes_ok_snoc; auto. apply merge_bound; auto; lia.
      + intros HT. exfalso. unfold is_pseudo in HT. rewrite HP2, HP3 in HT. discriminate. }
  destruct (is_start rp b && negb (pc_cnt s =? 0)) eqn:HB.
  { (* start code with pending bits *)
    apply andb_prop in HB as [HS HK]. rewrite HS. apply is_start_true in HS as [-> HS].
    rewrite pc_step_break by lia. cbn [fst snd].
    assert (R: exists r, rp = 0 :: r).
    { destruct rp as [|[| |] r]; try discriminate. eauto. }
    assert (L0: pc_last s = 0) by (apply Hzero; auto; lia).
    assert (HKo: cnt_ok (pc_cnt s)) by (destruct Hk; [lia|auto]).
    constructor; cbn [pc_found pc_zeros pc_cnt pc_disp pc_last].
    - reflexivity.
    - rewrite found_of_cons. unfold is_start. rewrite HS. reflexivity.
    - rewrite protected_cons. destruct R as [r ->]. exact Hd.
    - left; reflexivity.
    - rewrite Ho, L0. unfold pad8. rewrite out_mod8.
      2:{ rewrite firstn_length. change (length (byte_bits 0)) with 8%nat. unfold cnt_ok in HKo. lia. }
      rewrite bits_of_app, firstn_length. change (length (byte_bits 0)) with 8%nat.
      rewrite zero_bits. cbn [Z.to_nat firstn]. rewrite app_nil_r, <- !app_assoc. f_equal.
      destruct HKo as [-> | [-> | ->]]; reflexivity.
    - apply (bytes_ok_app dst [0;1]); auto. repeat constructor; lia.
    - exact Hl.
    - intros [r E]. discriminate.
    - lia. }
  (* kept byte *)
  assert (OUT: (if is_start rp b then pad8 out else out) = out).
  { destruct (is_start rp b) eqn:HS; auto. cbn in HB.
    assert (K0: pc_cnt s = 0) by lia.
    unfold pad8. rewrite Ho, K0. cbn [Z.to_nat firstn].
    rewrite out_mod8 by (cbn; lia). cbn. rewrite !app_nil_r. reflexivity. }
  rewrite OUT. rewrite pc_step_keep.
  2:{ intros (-> & H2 & H3). unfold is_start in HB. rewrite <- Z2 in HB. lia. }
  2:{ intros (-> & H2 & H3). unfold is_pseudo in HP. rewrite <- Zx, <- Hd, H2, H3 in HP. discriminate. }
  cbn [fst snd]. unfold st_keep, w_keep.
  constructor; cbn [pc_found pc_zeros pc_cnt pc_disp pc_last].
  - rewrite Hz. destruct (b =? 0) eqn:B0.
    + assert (b = 0) by lia. subst. cbn [czeros]. lia.
    + rewrite czeros_nz by lia. reflexivity.
  - rewrite found_of_cons. unfold is_start. rewrite Z2, Hf.
    destruct (b =? 0) eqn:B0.
    + assert (b = 0) by lia; subst; reflexivity.
    + destruct (b =? 1) eqn:B1; cbn [andb].
      * destruct (found_of rp) eqn:F; [|apply orb_false_r].
        destruct (Hsmall eq_refl); lia.
      * destruct (b =? 2) eqn:B2; auto. destruct (found_of rp) eqn:F; auto.
        destruct (Hsmall eq_refl); lia.
  - rewrite protected_cons, Hf, Hd.
    destruct (found_of rp) eqn:F.
    + destruct (Hsmall eq_refl) as [N1 N2].
      destruct (b =? 0) eqn:B0; [assert (b=0) by lia; subst; reflexivity|].
      destruct (b =? 1) eqn:B1; [lia|]. destruct (b =? 2) eqn:B2; [lia|]. reflexivity.
    + destruct (b =? 0); [reflexivity|]. destruct (b =? 1); [reflexivity|].
      destruct (b =? 2); reflexivity.
  - exact Hk.
  - rewrite Ho. apply keep_step; auto.
  - apply bytes_ok_snoc; auto. destruct (pc_cnt s =? 0) eqn:K; auto. apply merge_bound; auto. destruct Hk; [lia|auto].
  - destruct (pc_cnt s =? 0); auto. apply carry_bound.
    unfold BITMASK. repeat match goal with |- context [if ?c then _ else _] => destruct c end; lia.
  - intros [r E] Hk0. injection E as -> ->. replace (pc_cnt s =? 0) with false by lia.
    rewrite Z.shiftl_0_l. apply Z.land_0_l.
  - intros _ Hk0. replace (pc_cnt s =? 0) with false by lia.
    apply keep_tail; auto. destruct Hk; [lia|auto].
Qed.

Lemma pc_run_app : forall l s, pc_run s l = (fst (pc_run s l), snd (pc_run s l)).
Proof. intros. destruct (pc_run s l); reflexivity. Qed.

Lemma run_inv : forall l rp out s dst,
  bytes_ok l -> no_small_type (rev rp ++ l) -> inv rp out s dst ->
  inv (rev l ++ rp) (clean_bits rp out l) (fst (pc_run s l)) (dst ++ snd (pc_run s l)).
Proof.
  induction l as [|b l IH]; intros rp out s dst Hb Hns Hi.
  - cbn. rewrite app_nil_r. exact Hi.
  - inversion Hb; subst. cbn [pc_run clean_bits rev].
    assert (Hsm: found_of rp = true -> b <> 1 /\ b <> 2).
    { intros F. apply found_of_inv in F as [q ->]. cbn [rev] in Hns.
      rewrite <- !app_assoc in Hns. cbn [app] in Hns.
      apply (Hns (rev q) l b). reflexivity. }
    pose proof (step_inv rp out s dst b H1 Hsm Hi) as H.
    destruct (pc_step s b) as [s1 w] eqn:E. cbn [fst snd] in H.
    assert (Hns': no_small_type (rev (b :: rp) ++ l)).
    { cbn [rev]. rewrite <- app_assoc. exact Hns. }
    pose proof (IH (b :: rp) _ s1 (dst ++ w) H2 Hns' H) as Q.
    destruct (pc_run s1 l) as [s2 w2]. cbn [fst snd] in *.
    rewrite <- app_assoc in Q |- *. exact Q.
Qed.

Lemma existsb_repeat_false : forall n, existsb (fun b : bool => b) (repeat false n) = false.
Proof. induction n; cbn; auto. Qed.

Lemma existsb_false_repeat : forall l, existsb (fun b : bool => b) l = false -> l = repeat false (length l).
Proof. induction l; cbn; intros; auto. destruct a; [discriminate|]. f_equal. auto. Qed.

Lemma dispose_clean : forall l, bytes_ok l -> no_small_type l -> ends_pseudo l = false ->
  dispose l = clean l.
Proof.
  intros l Hb Hns He.
  pose proof (run_inv l [] [] pcs_init [] Hb Hns inv_init) as H.
  unfold dispose, clean. destruct (pc_run pcs_init l) as [s w]. cbn [fst snd app] in H.
  rewrite app_nil_r in H. destruct H as [Hz Hf Hd Hk Ho Hby Hl Hzero Htail].
  set (out := clean_bits [] [] l) in *. unfold pc_tail, pack.
  assert (He': match rev l with b :: r => is_pseudo r b | [] => false end = false) by exact He.
  specialize (Htail He').
  set (p := firstn (Z.to_nat (pc_cnt s)) (byte_bits (pc_last s))) in *.
  assert (Hp: length p = Z.to_nat (pc_cnt s)).
  { unfold p. rewrite firstn_length. change (length (byte_bits (pc_last s))) with 8%nat.
    unfold cnt_ok in Hk. lia. }
  assert (Hp8: (length p < 8)%nat) by (unfold cnt_ok in Hk; lia).
  assert (Hdiv: (length out / 8 = length w)%nat).
  { rewrite Ho, app_length, bits_of_length, Nat.add_comm, Nat.mul_comm, Nat.div_add by lia.
    rewrite Nat.div_small; lia. }
  assert (Hfull: bytes_of out = w).
  { rewrite Ho, bytes_of_app8.
    - rewrite bytes_of_bits_of by auto.
      replace (bytes_of p) with (@nil Z); [apply app_nil_r|].
      symmetry. apply length_zero_iff_nil. rewrite bytes_of_length. apply Nat.div_small. lia.
    - rewrite bits_of_length, Nat.mul_comm. apply Nat.mod_mul. lia. }
  rewrite Hfull, Hdiv. f_equal.
  replace (skipn (8 * length w) out) with p.
  2:{ rewrite Ho. rewrite <- bits_of_length, skipn_app, skipn_all, Nat.sub_diag. reflexivity. }
  destruct (Z.eq_dec (pc_cnt s) 0) as [K0|K0].
  - rewrite K0. cbn [Z.eqb negb andb]. rewrite K0 in Hp. destruct p; [reflexivity|discriminate].
  - replace (pc_cnt s =? 0) with false by lia. cbn [negb andb].
    specialize (Htail K0).
    assert (Hsplit: byte_bits (pc_last s) = p ++ repeat false (8 - Z.to_nat (pc_cnt s))).
    { rewrite <- Htail. unfold p. symmetry. apply firstn_skipn. }
    assert (HK: cnt_ok (pc_cnt s)) by (destruct Hk; [lia|auto]).
    destruct (existsb (fun b => b) p) eqn:E.
    + replace (pc_last s =? 0) with false.
      * cbn [negb]. unfold pad8. rewrite Hp.
        replace ((8 - Z.to_nat (pc_cnt s) mod 8) mod 8)%nat with (8 - Z.to_nat (pc_cnt s))%nat
          by (destruct HK as [-> | [-> | ->]]; reflexivity).
        rewrite <- Hsplit.
        assert (B: bits_of [pc_last s] = byte_bits (pc_last s)) by (cbn [bits_of flat_map]; apply app_nil_r).
        rewrite <- B. symmetry. apply bytes_of_bits_of. repeat constructor; lia.
      * symmetry. apply Z.eqb_neq. intro L0. rewrite L0 in Hsplit.
        unfold p in E. rewrite L0, zero_bits, existsb_repeat_false in E. discriminate.
    + replace (pc_last s =? 0) with true; [reflexivity|].
      symmetry. apply Z.eqb_eq. apply byte_ext; try lia.
      rewrite Hsplit, (existsb_false_repeat _ E), Hp.
      destruct HK as [-> | [-> | ->]]; reflexivity.
Qed.
