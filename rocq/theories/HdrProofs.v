(** Proofs about the header parsers. *)
From Coq Require Import ZArith List Bool Lia.
From Verif Require Import CBase CBaseProofs VlcModel VlcSpec VlcProofs HdrModel HdrSpec.
Import ListNotations.
Open Scope Z_scope.

(** [reads p l a]: wherever the bits [l] stand in a stream, [p] consumes exactly them
    and returns [a]. *)
Definition at_pos (mem : list Z) (pre : list bool) : bs :=
  Bs mem (Z.of_nat (length mem)) (Z.of_nat (length pre)).
Definition reads {A} (p : P A) (l : list bool) (a : A) : Prop :=
  forall mem pre post, bits_of mem = pre ++ l ++ post ->
    p (at_pos mem pre) = Done (a, at_pos mem (pre ++ l)).
Definition rejects {A} (p : P A) (l : list bool) : Prop :=
  forall mem pre post, bits_of mem = pre ++ l ++ post -> p (at_pos mem pre) = Fail.

Lemma reads_ret : forall A (a : A), reads (retp a) [] a.
Proof. intros A a mem pre post H. rewrite app_nil_r. reflexivity. Qed.

Lemma reads_bind : forall A B (p : P A) (f : A -> P B) l1 l2 a b,
  reads p l1 a -> reads (f a) l2 b -> reads (bindp p f) (l1 ++ l2) b.
Proof.
  intros A B p f l1 l2 a b H1 H2 mem pre post H. unfold bindp.
  rewrite <- app_assoc in H. rewrite (H1 mem pre (l2 ++ post) H).
  rewrite (H2 mem (pre ++ l1) post) by now rewrite <- app_assoc.
  now rewrite <- app_assoc.
Qed.

Lemma reads_bind0 : forall A B (p : P A) (f : A -> P B) l a b,
  reads p [] a -> reads (f a) l b -> reads (bindp p f) l b.
Proof. intros. change l with ([] ++ l). eapply reads_bind; eauto. Qed.

Lemma rejects_bind_r : forall A B (p : P A) (f : A -> P B) l1 l2 a,
  reads p l1 a -> rejects (f a) l2 -> rejects (bindp p f) (l1 ++ l2).
Proof.
  intros A B p f l1 l2 a H1 H2 mem pre post H. unfold bindp.
  rewrite <- app_assoc in H. rewrite (H1 mem pre (l2 ++ post) H).
  rewrite (H2 mem (pre ++ l1) post); [reflexivity|]. now rewrite <- app_assoc.
Qed.
Lemma rejects_bind0 : forall A B (p : P A) (f : A -> P B) l a,
  reads p [] a -> rejects (f a) l -> rejects (bindp p f) l.
Proof. intros. change l with ([] ++ l). eapply rejects_bind_r; eauto. Qed.
Lemma rejects_fail : forall A l, rejects (@failp A) l.
Proof. intros A l mem pre post H. reflexivity. Qed.

Lemma reads_u : forall n v, (n <= 31)%nat -> fits (Z.of_nat n) v -> reads (u_v n) (u n v) v.
Proof.
  intros n v Hn Hv mem pre post H. unfold u_v, at_pos, u in *.
  rewrite <- (low_bits_length n v) at 1.
  rewrite (u_v_value mem pre (low_bits n v) post) by (rewrite ?low_bits_length; auto).
  unfold fits in Hv. rewrite be_val_low_bits, Z.mod_small by lia. reflexivity.
Qed.

Lemma reads_flag : forall v, fits 1 v -> reads flag (u 1 v) v.
Proof.
  intros v Hv. unfold flag. rewrite <- (app_nil_r (u 1 v)).
  eapply reads_bind; [apply (reads_u 1 v); [lia|exact Hv]|].
  unfold fits in Hv. change (2 ^ 1) with 2 in Hv.
  unfold to_u8. rewrite Z.mod_small by lia. apply reads_ret.
Qed.

Lemma reads_ue : forall v, fits 15 v -> reads ue_v (ue_code v) v.
Proof.
  intros v Hv mem pre post H. unfold ue_v, at_pos.
  unfold fits in Hv. change (2 ^ 15) with 32768 in Hv.
  apply (ue_roundtrip mem pre post v); [lia|exact H].
Qed.

Lemma reads_skip : forall l, reads (skip (Z.of_nat (length l))) l tt.
Proof.
  intros l mem pre post H. unfold skip, bs_move, at_pos. cbn. rewrite app_length, Nat2Z.inj_add. reflexivity.
Qed.
Lemma reads_skip32 : forall v, reads (skip 32) (u 32 v) tt.
Proof. intros v. pose proof (reads_skip (u 32 v)) as H. unfold u in *. rewrite low_bits_length in H. exact H. Qed.

Lemma reads_repp : forall A (p : P A) (enc : A -> list bool) l,
  Forall (fun x => reads p (enc x) x) l -> reads (repp (length l) p) (flat_map enc l) l.
Proof.
  induction l as [|x l IH]; intros H; cbn [repp length flat_map].
  - apply reads_ret.
  - inversion H; subst. eapply reads_bind; [eassumption|].
    rewrite <- (app_nil_r (flat_map enc l)). eapply reads_bind; [apply IH; assumption|]. apply reads_ret.
Qed.

Lemma reads_tab : forall cap l, zlen l <= cap -> Forall (fits 6) l ->
  reads (read_tab cap (zlen l)) (flat_map (u 6) l) l.
Proof.
  intros cap l Hl Hf. unfold read_tab. replace (cap <? zlen l) with false by lia.
  unfold zlen. rewrite Nat2Z.id. apply reads_repp.
  eapply Forall_impl; [|exact Hf]. intros x Hx. apply (reads_u 6); [lia|exact Hx].
Qed.

Lemma fits_len : forall n k, 0 <= k < 2 ^ n -> fits n k.
Proof. intros. exact H. Qed.

Lemma reads_rps : forall r, rps_fits r -> reads parse_seq_rps (rps_bits r) (rps_meaning r).
Proof.
  intros r (H1 & H2 & H3 & H4 & H5 & H6). unfold parse_seq_rps, rps_bits.
  unfold zlen in H5, H6.
  eapply reads_bind; [apply (reads_u 1); [lia|exact H1]|].
  eapply reads_bind; [apply (reads_u 3); [lia|]|].
  { unfold fits, zlen. change (2 ^ Z.of_nat 3) with 8. lia. }
  eapply reads_bind; [apply reads_tab; [unfold AVS2_MAX_REFS, zlen; lia|exact H3]|].
  eapply reads_bind; [apply (reads_u 3); [lia|]|].
  { unfold fits, zlen. change (2 ^ Z.of_nat 3) with 8. lia. }
  eapply reads_bind; [apply reads_tab; [unfold RPS_MAX_REMOVE, zlen; lia|exact H4]|].
  rewrite <- (app_nil_r (u 1 (rs_marker r))).
  eapply reads_bind; [apply (reads_u 1); [lia|exact H2]|]. apply reads_ret.
Qed.

Lemma reads_rpss : forall l, Forall rps_fits l ->
  reads (repp (length l) parse_seq_rps) (flat_map rps_bits l) (map rps_meaning l).
Proof.
  induction l as [|r l IH]; intros H; cbn [repp length flat_map map].
  - apply reads_ret.
  - inversion H; subst. eapply reads_bind; [apply reads_rps; assumption|].
    rewrite <- (app_nil_r (flat_map rps_bits l)). eapply reads_bind; [apply IH; assumption|]. apply reads_ret.
Qed.

Lemma to_i16_fits : forall l, Forall (fits 15) l -> map to_i16 l = l.
Proof.
  induction l as [|x l IH]; intros H; [reflexivity|]. inversion H; subst. cbn. rewrite IH by assumption.
  f_equal. unfold fits in H2. change (2 ^ 15) with 32768 in H2. unfold to_i16. rewrite Z.mod_small; lia.
Qed.

Definition wq_val (w : option (option (list Z * list Z))) : list Z * list Z :=
  match w with
  | None => (repeat 0 16, repeat 0 64)
  | Some None => (wq_default4, wq_default8)
  | Some (Some ab) => ab
  end.

Definition wq_tail (w : option (option (list Z * list Z))) : list bool :=
  match w with
  | None => []
  | Some None => u 1 0
  | Some (Some (a, b)) => u 1 1 ++ flat_map ue_code a ++ flat_map ue_code b
  end.
Definition wq_flag (w : option (option (list Z * list Z))) : Z := match w with None => 0 | Some _ => 1 end.
Lemma wq_bits_eq : forall w, wq_bits w = u 1 (wq_flag w) ++ wq_tail w.
Proof. intros [[[a b]|]|]; cbn [wq_bits wq_flag wq_tail]; rewrite ?app_nil_r; reflexivity. Qed.

Lemma reads_wq : forall w,
  match w with
  | Some (Some (a, b)) => length a = 16%nat /\ length b = 64%nat /\ Forall (fits 15) a /\ Forall (fits 15) b
  | _ => True
  end -> reads (parse_wq (wq_flag w)) (wq_tail w) (wq_val w).
Proof.
  intros [[[a b]|]|] H; unfold parse_wq; cbn [wq_flag wq_tail wq_val Z.eqb].
  - destruct H as (H1 & H2 & H3 & H4).
    eapply reads_bind; [apply reads_flag; unfold fits; cbn; lia|]. cbn [Z.eqb Pos.eqb].
    eapply reads_bind.
    { rewrite <- H1. apply (reads_repp _ ue_v ue_code).
      eapply Forall_impl; [|exact H3]. intros x Hx. apply reads_ue. exact Hx. }
    rewrite <- (app_nil_r (flat_map ue_code b)). eapply reads_bind.
    { rewrite <- H2. apply (reads_repp _ ue_v ue_code).
      eapply Forall_impl; [|exact H4]. intros x Hx. apply reads_ue. exact Hx. }
    rewrite !to_i16_fits by assumption. apply reads_ret.
  - rewrite <- (app_nil_r (u 1 0)). eapply reads_bind; [apply reads_flag; unfold fits; cbn; lia|].
    cbn [Z.eqb Pos.eqb]. apply reads_ret.
  - apply reads_ret.
Qed.

(** The value built by the parser for a legal header. *)
Definition built (y : syn) : seqh :=
  Seqh (y_profile y) (y_level y) (y_progressive y) (y_field y) (y_width y) (y_height y) (y_chroma y)
       (y_sprec y) (eff_eprec y) (6 + Z.shiftl (eff_eprec y) 1) (6 + Z.shiftl (eff_eprec y) 1)
       (if 8 <? 6 + Z.shiftl (eff_eprec y) 1 then 2 else 1)
       (y_aspect y)
       (if (y_rate_id y <? 1) || (MAX_FRAME_RATE_CODE <? y_rate_id y)
        then clip3 1 MAX_FRAME_RATE_CODE (y_rate_id y) else y_rate_id y)
       ((Z.shiftl (y_br_up y) 18 + y_br_lo y) * 400)
       (y_low_delay y) (y_temporal y) (y_lcu y) (wq_flag (y_wq y)) (fst (wq_val (y_wq y))) (snd (wq_val (y_wq y)))
       (to_u8 (Z.lxor (y_bg_disable y) 1) :: y_tools y) (zlen (y_rps y)) (map rps_meaning (y_rps y))
       (if y_low_delay y =? 0 then y_reorder y else 0) (y_cross y)
       (enc_size (y_width y)) (enc_size (y_height y)).

Ltac ru := (* one field *)
  first [ eapply reads_bind; [first [apply reads_skip32
                                    | apply (reads_u 1); [lia|first [assumption|unfold fits; cbn; lia]]
                                    | apply (reads_u _); [lia|first [assumption|unfold fits; cbn; lia]] ]|] ].

Lemma parse_built : forall y, syn_fits y -> legal y -> reads parse_seq_body (syn_bits y) (built y).
Proof.
  intros y Hf Hl. unfold syn_fits in Hf.
  destruct Hf as (F1 & F2 & F3 & F4 & F5 & F6 & F7 & F8 & F9 & F10 & F11 & F12 & F13 & F14 & F15 & F16 & F17 &
                  F18 & F19 & F20 & F21 & F22 & F23 & F24 & F25 & F26).
  destruct Hl as (L1 & L2 & L3 & L4 & L5 & L6 & L7).
  unfold parse_seq_body, syn_bits.
  eapply reads_bind; [apply reads_skip32|].
  eapply reads_bind; [apply (reads_u 8); [lia|exact F1]|].
  eapply reads_bind; [apply (reads_u 8); [lia|exact F2]|].
  eapply reads_bind; [apply (reads_u 1); [lia|exact F3]|].
  eapply reads_bind; [apply reads_flag; exact F4|].
  eapply reads_bind; [apply (reads_u 14); [lia|exact F5]|].
  eapply reads_bind; [apply (reads_u 14); [lia|exact F6]|].
  replace ((y_width y <? 16) || (y_height y <? 16)) with false by (clear - L1 L2; lia).
  eapply reads_bind; [apply (reads_u 2); [lia|exact F7]|].
  replace (negb (y_chroma y =? 1) && negb (y_chroma y =? 0)) with false by (clear - L3; lia).
  eapply reads_bind; [apply (reads_u 3); [lia|exact F8]|].
  apply (reads_bind _ _ _ _ (if y_profile y =? 34 then u 3 (y_eprec y) else []) _ (eff_eprec y)).
  { unfold eff_eprec, MAIN10_PROFILE. destruct (y_profile y =? 34).
    - apply (reads_u 3); [lia|exact F9].
    - apply reads_ret. }
  replace ((y_sprec y <? 1) || (3 <? y_sprec y) || (eff_eprec y <? 1) || (3 <? eff_eprec y)) with false
    by (clear - L4 L5; lia).
  eapply reads_bind; [apply (reads_u 4); [lia|exact F10]|].
  eapply reads_bind; [apply (reads_u 4); [lia|exact F11]|].
  eapply reads_bind; [apply (reads_u 18); [lia|exact F12]|].
  eapply reads_bind; [apply (reads_u 1); [lia|unfold fits; cbn; lia]|].
  eapply reads_bind; [apply (reads_u 12); [lia|exact F13]|].
  eapply reads_bind; [apply (reads_u 1); [lia|exact F14]|].
  eapply reads_bind; [apply (reads_u 1); [lia|unfold fits; cbn; lia]|].
  eapply reads_bind; [apply reads_flag; exact F15|].
  eapply reads_bind; [apply (reads_u 18); [lia|exact F16]|].
  eapply reads_bind; [apply (reads_u 3); [lia|exact F17]|].
  replace ((y_lcu y <? 4) || (6 <? y_lcu y)) with false by (clear - L6; lia).
  rewrite wq_bits_eq, <- app_assoc.
  eapply reads_bind; [apply reads_flag; destruct (y_wq y); unfold fits; cbn; lia|].
  eapply reads_bind; [apply reads_wq; exact F18|].
  eapply reads_bind; [apply reads_flag; exact F19|].
  eapply reads_bind.
  { rewrite <- F20. apply (reads_repp _ flag (u 1)). eapply Forall_impl; [|exact F21].
    intros x Hx. apply reads_flag. exact Hx. }
  eapply reads_bind; [apply (reads_u 1); [lia|unfold fits; cbn; lia]|].
  eapply reads_bind; [apply (reads_u 6); [lia|unfold fits, zlen in *; change (2 ^ Z.of_nat 6) with 64; lia]|].
  replace (AVS2_GOP_NUM <? zlen (y_rps y)) with false by (unfold AVS2_GOP_NUM; clear - L7; lia).
  eapply reads_bind.
  { unfold zlen. rewrite Nat2Z.id. apply reads_rpss. exact F22. }
  apply (reads_bind _ _ _ _ (if y_low_delay y =? 0 then u 5 (y_reorder y) else []) _
           (if y_low_delay y =? 0 then y_reorder y else 0)).
  { destruct (y_low_delay y =? 0).
    - apply (reads_u 5); [lia|exact F24].
    - apply reads_ret. }
  eapply reads_bind; [apply reads_flag; exact F25|].
  rewrite <- (app_nil_r (u 2 0)).
  eapply reads_bind; [apply (reads_u 2); [lia|unfold fits; cbn; lia]|].
  cbv zeta.
  replace (2147483647 <? (Z.shiftl (y_br_up y) 18 + y_br_lo y) * 400) with false.
  2:{ rewrite Z.shiftl_mul_pow2 by lia. change (2 ^ 18) with 262144. clear - F26. lia. }
  apply reads_ret.
Qed.

Lemma built_meaning : forall y, syn_fits y -> legal y -> meaning y (built y).
Proof.
  intros y Hf Hl. unfold syn_fits in Hf.
  destruct Hf as (F1 & F2 & F3 & F4 & F5 & F6 & F7 & F8 & F9 & F10 & F11 & F12 & F13 & F14 & F15 & F16 & F17 &
                  F18 & F19 & F20 & F21 & F22 & F23 & F24 & F25 & F26).
  unfold meaning, built. cbn [q_profile q_level q_width q_height q_chroma q_internal_depth q_output_depth q_bytes
    q_aspect q_progressive q_low_delay q_frame_rate_id q_bitrate q_log2_lcu q_temporal q_field q_tools q_nrps q_rps
    q_reorder q_cross q_wq4 q_wq8].
  assert (E: 6 + Z.shiftl (eff_eprec y) 1 = 6 + 2 * eff_eprec y).
  { rewrite Z.shiftl_mul_pow2 by lia. change (2 ^ 1) with 2. lia. }
  rewrite E. repeat (split; [reflexivity|]).
  split. { unfold clip3, MAX_FRAME_RATE_CODE. destruct (y_rate_id y <? 1) eqn:A, (13 <? y_rate_id y) eqn:B; cbn [orb]; lia. }
  split. { rewrite Z.shiftl_mul_pow2 by lia. change (2 ^ 18) with 262144. lia. }
  split; [reflexivity|]. split; [reflexivity|]. split; [reflexivity|].
  split. { unfold fits in F19. change (2 ^ 1) with 2 in F19. f_equal.
           assert (C: y_bg_disable y = 0 \/ y_bg_disable y = 1) by lia.
           destruct C as [-> | ->]; reflexivity. }
  repeat (split; [reflexivity|]).
  intros a b Hw. rewrite Hw. cbn. auto.
Qed.

(** Illegal headers are refused. *)
Lemma parse_illegal : forall y, syn_fits y -> ~ legal y -> rejects parse_seq_body (syn_bits y).
Proof.
  intros y Hf Hl. unfold syn_fits in Hf.
  destruct Hf as (F1 & F2 & F3 & F4 & F5 & F6 & F7 & F8 & F9 & F10 & F11 & F12 & F13 & F14 & F15 & F16 & F17 &
                  F18 & F19 & F20 & F21 & F22 & F23 & F24 & F25 & F26).
  unfold parse_seq_body, syn_bits.
  eapply rejects_bind_r; [apply reads_skip32|].
  eapply rejects_bind_r; [apply (reads_u 8); [lia|exact F1]|].
  eapply rejects_bind_r; [apply (reads_u 8); [lia|exact F2]|].
  eapply rejects_bind_r; [apply (reads_u 1); [lia|exact F3]|].
  eapply rejects_bind_r; [apply reads_flag; exact F4|].
  eapply rejects_bind_r; [apply (reads_u 14); [lia|exact F5]|].
  eapply rejects_bind_r; [apply (reads_u 14); [lia|exact F6]|].
  destruct ((y_width y <? 16) || (y_height y <? 16)) eqn:E1; [apply rejects_fail|].
  eapply rejects_bind_r; [apply (reads_u 2); [lia|exact F7]|].
  destruct (negb (y_chroma y =? 1) && negb (y_chroma y =? 0)) eqn:E2; [apply rejects_fail|].
  eapply rejects_bind_r; [apply (reads_u 3); [lia|exact F8]|].
  apply (rejects_bind_r _ _ _ _ (if y_profile y =? 34 then u 3 (y_eprec y) else []) _ (eff_eprec y)).
  { unfold eff_eprec, MAIN10_PROFILE. destruct (y_profile y =? 34).
    - apply (reads_u 3); [lia|exact F9].
    - apply reads_ret. }
  destruct ((y_sprec y <? 1) || (3 <? y_sprec y) || (eff_eprec y <? 1) || (3 <? eff_eprec y)) eqn:E3; [apply rejects_fail|].
  eapply rejects_bind_r; [apply (reads_u 4); [lia|exact F10]|].
  eapply rejects_bind_r; [apply (reads_u 4); [lia|exact F11]|].
  eapply rejects_bind_r; [apply (reads_u 18); [lia|exact F12]|].
  eapply rejects_bind_r; [apply (reads_u 1); [lia|unfold fits; cbn; lia]|].
  eapply rejects_bind_r; [apply (reads_u 12); [lia|exact F13]|].
  eapply rejects_bind_r; [apply (reads_u 1); [lia|exact F14]|].
  eapply rejects_bind_r; [apply (reads_u 1); [lia|unfold fits; cbn; lia]|].
  eapply rejects_bind_r; [apply reads_flag; exact F15|].
  eapply rejects_bind_r; [apply (reads_u 18); [lia|exact F16]|].
  eapply rejects_bind_r; [apply (reads_u 3); [lia|exact F17]|].
  destruct ((y_lcu y <? 4) || (6 <? y_lcu y)) eqn:E4; [apply rejects_fail|].
  rewrite wq_bits_eq, <- app_assoc.
  eapply rejects_bind_r; [apply reads_flag; destruct (y_wq y); unfold fits; cbn; lia|].
  eapply rejects_bind_r; [apply reads_wq; exact F18|].
  eapply rejects_bind_r; [apply reads_flag; exact F19|].
  eapply rejects_bind_r.
  { rewrite <- F20. apply (reads_repp _ flag (u 1)). eapply Forall_impl; [|exact F21].
    intros x Hx. apply reads_flag. exact Hx. }
  eapply rejects_bind_r; [apply (reads_u 1); [lia|unfold fits; cbn; lia]|].
  eapply rejects_bind_r; [apply (reads_u 6); [lia|unfold fits, zlen in *; change (2 ^ Z.of_nat 6) with 64; lia]|].
  destruct (AVS2_GOP_NUM <? zlen (y_rps y)) eqn:E5; [apply rejects_fail|].
  exfalso. apply Hl. unfold legal. unfold AVS2_GOP_NUM in E5.
  rewrite !orb_false_iff in E1, E3, E4. rewrite andb_false_iff, !negb_false_iff in E2.
  clear - E1 E2 E3 E4 E5. lia.
Qed.

(** *** Any accepted header, whatever the stream (also truncated ones). *)
Lemma read_bits_loop_bound : forall n mem i_buf byo bio inf v,
  0 <= inf -> read_bits_loop mem i_buf n byo bio inf = Done v ->
  0 <= v < (inf + 1) * 2 ^ Z.of_nat n.
Proof.
  induction n as [|n IH]; intros mem i_buf byo bio inf v Hi H; cbn [read_bits_loop] in H.
  - apply Done_inj in H. subst v. cbn. lia.
  - destruct (negb (dbl_ok inf)); [discriminate|].
    destruct (get mem byo) as [b|]; [|discriminate].
    set (bit := Z.shiftr (Z.land b (Z.shiftl 1 bio)) bio) in *.
    assert (B: 0 <= bit <= 1 \/ True) by auto.
    assert (Hb: Z.lor (Z.shiftl inf 1) bit = 2 * inf \/ Z.lor (Z.shiftl inf 1) bit = 2 * inf + 1).
    { unfold bit. destruct (Z_le_gt_dec 0 bio) as [L|L].
      - rewrite land_bit by lia. rewrite lor_b2z. destruct (Z.testbit b bio); cbn; lia.
      - replace (Z.shiftl 1 bio) with 0.
        + rewrite Z.land_0_r, Z.shiftr_0_l, Z.lor_0_r, Z.shiftl_mul_pow2 by lia. change (2^1) with 2. lia.
        + replace bio with (- (- bio)) by lia. rewrite Z.shiftl_opp_r.
          rewrite Z.shiftr_div_pow2 by lia. symmetry. apply Z.div_small.
          split; [lia|]. apply Z.pow_gt_1; lia. }
    assert (G: 0 <= v < (Z.lor (Z.shiftl inf 1) bit + 1) * 2 ^ Z.of_nat n).
    { destruct (bio - 1 <? 0).
      - destruct (i_buf <? byo + 1); [discriminate|]. eapply IH; [|exact H]. lia.
      - eapply IH; [|exact H]. lia. }
    replace (Z.of_nat (S n)) with (Z.of_nat n + 1) by lia. rewrite Z.pow_add_r by lia. change (2 ^ 1) with 2.
    assert (0 < 2 ^ Z.of_nat n) by lia. nia.
Qed.

Lemma u_v_bound : forall n s v s', u_v n s = Done (v, s') -> -1 <= v < 2 ^ Z.of_nat n.
Proof.
  intros n s v s' H. unfold u_v, vlc_u_v in H.
  destruct (read_bits (bs_mem s) (bs_len s) (bs_pos s) n) as [w| | |] eqn:E; try discriminate.
  - apply Done_inj, pair_equal_spec in H. destruct H as [<- _].
    apply read_bits_loop_bound in E; lia.
  - apply Done_inj, pair_equal_spec in H. destruct H as [<- _].
    assert (0 < 2 ^ Z.of_nat n) by lia. lia.
Qed.

Lemma bindp_done : forall A B (p : P A) (f : A -> P B) s r,
  bindp p f s = Done r -> exists a s1, p s = Done (a, s1) /\ f a s1 = Done r.
Proof.
  intros A B p f s r H. unfold bindp in H. destruct (p s) as [[a s1]| | |]; try discriminate. eauto.
Qed.

Lemma enc_size_spec : forall w, round_up8 w (enc_size w).
Proof.
  intros w. unfold enc_size, round_up8. rewrite Z.shiftl_mul_pow2, Z.shiftr_div_pow2 by lia.
  change (2 ^ 3) with 8. split.
  - exists ((w + 8 - 1) / 8). lia.
  - Z.div_mod_to_equations. lia.
Qed.

Ltac st H a s1 E := apply bindp_done in H; destruct H as (a & s1 & E & H).

Lemma seq_accepted : forall s q s', parse_sequence_header s = Done (q, s') ->
  16 <= q_width q < 16384 /\ 16 <= q_height q < 16384 /\
  round_up8 (q_width q) (q_enc_w q) /\ round_up8 (q_height q) (q_enc_h q) /\
  (q_chroma q = 0 \/ q_chroma q = 1) /\
  (q_internal_depth q = 8 \/ q_internal_depth q = 10 \/ q_internal_depth q = 12) /\
  (q_log2_lcu q = 4 \/ q_log2_lcu q = 5 \/ q_log2_lcu q = 6) /\
  zlen (q_rps q) <= 32 /\ q_nrps q <= 32 /\ 1 <= q_frame_rate_id q <= 13 /\
  0 <= q_reorder q + 1 <= 32.
Proof.
  intros s q s' H. unfold parse_sequence_header in H.
  destruct (parse_seq_body s) as [[q0 s0]| | |] eqn:B; try discriminate.
  apply Done_inj, pair_equal_spec in H. destruct H as [-> _]. unfold parse_seq_body in B.
  st B a0 s1 E0. st B profile s2 E1. st B level s3 E2. st B progressive s4 E3. st B field s5 E4.
  st B width s6 E5. st B height s7 E6.
  destruct ((width <? 16) || (height <? 16)) eqn:C1; [discriminate|].
  st B chroma s8 E7. destruct (negb (chroma =? 1) && negb (chroma =? 0)) eqn:C2; [discriminate|].
  st B sprec s9 E8. st B eprec s10 E9.
  destruct ((sprec <? 1) || (3 <? sprec) || (eprec <? 1) || (3 <? eprec)) eqn:C3; [discriminate|].
  st B aspect s11 E10. st B rate s12 E11. st B brlo s13 E12. st B m1 s14 E13. st B brup s15 E14.
  st B ld s16 E15. st B m2 s17 E16. st B temporal s18 E17. st B bbv s19 E18. st B lcu s20 E19.
  destruct ((lcu <? 4) || (6 <? lcu)) eqn:C4; [discriminate|].
  st B wq s21 E20. st B wqm s22 E21. st B bg s23 E22. st B tools s24 E23. st B m3 s25 E24. st B nrps s26 E25.
  destruct (AVS2_GOP_NUM <? nrps) eqn:C5; [discriminate|].
  st B rpss s27 E26. st B reorder s28 E27. st B cross s29 E28. st B res s30 E29. cbv zeta in B.
  destruct (2147483647 <? (Z.shiftl brup 18 + brlo) * 400); [discriminate|].
  apply Done_inj, pair_equal_spec in B. destruct B as [<- _].
  cbn [q_width q_height q_enc_w q_enc_h q_chroma q_internal_depth q_log2_lcu q_rps q_nrps q_frame_rate_id q_reorder].
  apply u_v_bound in E5. apply u_v_bound in E6. change (2 ^ Z.of_nat 14) with 16384 in *.
  rewrite !orb_false_iff in C1, C3, C4. rewrite andb_false_iff, !negb_false_iff in C2.
  unfold AVS2_GOP_NUM in C5.
  assert (L: length rpss = Z.to_nat nrps).
  { clear - E26. revert s26 s27 rpss E26. generalize (Z.to_nat nrps) as n.
    induction n as [|n IH]; intros s26 s27 rpss E; cbn [repp] in E.
    - apply Done_inj, pair_equal_spec in E. destruct E as [<- _]. reflexivity.
    - st E x s1 X1. st E r s2 X2. apply Done_inj, pair_equal_spec in E. destruct E as [<- _].
      cbn. f_equal. eapply IH; eassumption. }
  assert (R: -1 <= reorder < 32).
  { destruct (ld =? 0).
    - apply u_v_bound in E27. exact E27.
    - apply Done_inj, pair_equal_spec in E27. destruct E27 as [<- _]. lia. }
  split; [clear - C1 E5; lia|]. split; [clear - C1 E6; lia|].
  split; [apply enc_size_spec|]. split; [apply enc_size_spec|].
  split; [clear - C2; lia|].
  split. { rewrite Z.shiftl_mul_pow2 by lia. change (2 ^ 1) with 2. clear - C3. lia. }
  split; [clear - C4; lia|].
  split. { unfold zlen. rewrite L. clear - C5. lia. }
  split; [clear - C5; lia|].
  split; [|clear - R; lia].
  unfold clip3, MAX_FRAME_RATE_CODE. destruct (rate <? 1) eqn:A1, (13 <? rate) eqn:A2; cbn [orb]; clear - A1 A2; lia.
Qed.

Lemma seq_roundtrip : forall y mem pre post, syn_fits y -> bits_of mem = pre ++ syn_bits y ++ post ->
  (legal y -> exists q s', parse_sequence_header (at_pos mem pre) = Done (q, s') /\ meaning y q) /\
  (~ legal y -> parse_sequence_header (at_pos mem pre) = Fail).
Proof.
  intros y mem pre post Hf Hb. unfold parse_sequence_header. split.
  - intros Hl. rewrite (parse_built y Hf Hl mem pre post Hb). eexists. eexists. split; [reflexivity|].
    apply built_meaning; assumption.
  - intros Hl. rewrite (parse_illegal y Hf Hl mem pre post Hb). reflexivity.
Qed.

(** *** RPS tables. *)
Lemma repp_length : forall A (p : P A) n s l s', repp n p s = Done (l, s') -> length l = n.
Proof.
  induction n as [|n IH]; intros s l s' E; cbn [repp] in E.
  - apply Done_inj, pair_equal_spec in E. destruct E as [<- _]. reflexivity.
  - st E x s1 X1. st E r s2 X2. apply Done_inj, pair_equal_spec in E. destruct E as [<- _].
    cbn. f_equal. eapply IH; eassumption.
Qed.

Definition rps_ok (r : rps) : Prop :=
  r_nref r <= 4 /\ r_nrem r <= 8 /\ zlen (r_ref r) = Z.max 0 (r_nref r) /\ zlen (r_rem r) = Z.max 0 (r_nrem r).

Lemma read_tab_ok : forall cap n s l s', read_tab cap n s = Done (l, s') -> n <= cap /\ zlen l = Z.max 0 n.
Proof.
  intros cap n s l s' H. unfold read_tab in H. destruct (cap <? n) eqn:E; [discriminate|].
  apply repp_length in H. unfold zlen. lia.
Qed.

Lemma seq_rps_ok : forall s r s', parse_seq_rps s = Done (r, s') -> rps_ok r.
Proof.
  intros s r s' H. unfold parse_seq_rps in H.
  st H refd s1 E1. st H nref s2 E2. st H refs s3 E3. st H nrem s4 E4. st H rems s5 E5. st H m s6 E6.
  apply Done_inj, pair_equal_spec in H. destruct H as [<- _].
  apply read_tab_ok in E3. apply read_tab_ok in E5. unfold rps_ok, AVS2_MAX_REFS, RPS_MAX_REMOVE in *.
  cbn. lia.
Qed.

Lemma pic_rps_ok : forall q intra s r s', Forall rps_ok (q_rps q) -> parse_pic_rps q intra s = Done (r, s') -> rps_ok r.
Proof.
  intros q intra s r s' Hq H. unfold parse_pic_rps in H.
  st H predict s1 E1. destruct (negb (predict =? 0)).
  - st H index s2 E2. destruct (q_nrps q <=? index); [discriminate|].
    destruct (get (q_rps q) index) as [r0|] eqn:G; [|discriminate].
    apply Done_inj, pair_equal_spec in H. destruct H as [<- _].
    rewrite Forall_forall in Hq. apply Hq. unfold get in G. destruct (index <? 0); [discriminate|].
    eapply nth_error_In. exact G.
  - st H refd s2 E2. st H nref s3 E3.
    destruct (intra && (AVS2_MAX_REFS <? nref)); [discriminate|].
    st H refs s4 E4. st H nrem s5 E5. st H rems s6 E6. st H m s7 E7.
    apply Done_inj, pair_equal_spec in H. destruct H as [<- _].
    apply read_tab_ok in E4. apply read_tab_ok in E6. unfold rps_ok, AVS2_MAX_REFS, RPS_MAX_REMOVE in *.
    cbn. lia.
Qed.

(** With one byte behind the data (as in C08) the explicit RPS of an intra picture is
    always defined: the three-bit counts cannot exceed the tables once the check passed. *)
Lemma u_v_defined : forall s n, u_v_safe_state s -> (n <= 31)%nat ->
  exists v s', u_v n s = Done (v, s') /\ u_v_safe_state s' /\ -1 <= v < 2 ^ Z.of_nat n.
Proof.
  intros s n Hs Hn. destruct (u_v_safe s n Hs Hn) as (v & s' & H1 & H2 & _ & _ & H3).
  exists v, s'. auto.
Qed.

Lemma repp_defined : forall n s, u_v_safe_state s ->
  exists l s', repp n (u_v 6) s = Done (l, s') /\ u_v_safe_state s'.
Proof.
  induction n as [|n IH]; intros s Hs; cbn [repp].
  - exists [], s. auto.
  - destruct (u_v_defined s 6 Hs ltac:(lia)) as (v & s1 & E1 & S1 & _).
    destruct (IH s1 S1) as (l & s2 & E2 & S2). exists (v :: l), s2. split; [|exact S2].
    unfold bindp at 1. rewrite E1. unfold bindp. rewrite E2. reflexivity.
Qed.

Lemma intra_rps_defined : forall q s, u_v_safe_state s ->
  (forall i, 0 <= i < q_nrps q -> exists r, get (q_rps q) i = Some r) ->
  (* the index read fails only behind the end of the data *)
  bs_pos s + 6 < 8 * (bs_len s + 1) ->
  parse_pic_rps q true s <> Undef.
Proof.
  intros q s Hs Hq Hp. unfold parse_pic_rps.
  destruct (u_v_defined s 1 Hs ltac:(lia)) as (p & s1 & E1 & S1 & B1).
  unfold bindp at 1. rewrite E1.
  destruct (negb (p =? 0)) eqn:Ep.
  - destruct (u_v_defined s1 5 S1 ltac:(lia)) as (i & s2 & E2 & S2 & B2). unfold bindp. rewrite E2.
    destruct (q_nrps q <=? i) eqn:Ei; [discriminate|].
    assert (Hi: 0 <= i).
    { (* the read cannot have failed *)
      unfold u_v, vlc_u_v in E1, E2.
      destruct (read_bits (bs_mem s1) (bs_len s1) (bs_pos s1) 5) as [w| | |] eqn:R; try discriminate.
      - apply Done_inj, pair_equal_spec in E2. destruct E2 as [<- _].
        apply read_bits_loop_bound in R; lia.
      - exfalso. unfold u_v_safe_state in *.
        assert (P1: bs_pos s1 <= bs_pos s + 1 /\ bs_len s1 = bs_len s /\ bs_mem s1 = bs_mem s).
        { destruct (read_bits (bs_mem s) (bs_len s) (bs_pos s) 1); try discriminate;
            apply Done_inj, pair_equal_spec in E1; destruct E1 as [_ <-]; unfold bs_move; cbn [bs_pos bs_len bs_mem]; (split; [lia|split; reflexivity]). }
        destruct P1 as (P1 & P2 & P3).
        assert (X: exists w, read_bits (bs_mem s1) (bs_len s1) (bs_pos s1) 5 = Done w).
        { eexists. apply (read_bits_ok _ _ _ 5 (firstn 5 (skipn (Z.to_nat (bs_pos s1)) (bits_of (bs_mem s1))))); try lia; [reflexivity|].
          rewrite firstn_length, skipn_length, bits_of_length. lia. }
        destruct X as [w X]. congruence. }
    destruct (Hq i ltac:(lia)) as [r G]. rewrite G. discriminate.
  - destruct (u_v_defined s1 1 S1 ltac:(lia)) as (refd & s2 & E2 & S2 & _).
    unfold bindp at 1. rewrite E2.
    destruct (u_v_defined s2 3 S2 ltac:(lia)) as (nref & s3 & E3 & S3 & B3).
    unfold bindp at 1. rewrite E3. cbn [andb].
    destruct (AVS2_MAX_REFS <? nref) eqn:En; [discriminate|].
    unfold read_tab at 1. rewrite En.
    destruct (repp_defined (Z.to_nat nref) s3 S3) as (l & s4 & E4 & S4).
    unfold bindp at 1. rewrite E4.
    destruct (u_v_defined s4 3 S4 ltac:(lia)) as (nrem & s5 & E5 & S5 & B5).
    unfold bindp at 1. rewrite E5. unfold read_tab.
    change (2 ^ Z.of_nat 3) with 8 in B5. replace (RPS_MAX_REMOVE <? nrem) with false by (unfold RPS_MAX_REMOVE; lia).
    destruct (repp_defined (Z.to_nat nrem) s5 S5) as (l2 & s6 & E6 & S6).
    unfold bindp at 1. rewrite E6.
    destruct (u_v_defined s6 1 S6 ltac:(lia)) as (m & s7 & E7 & S7 & _).
    unfold bindp at 1. rewrite E7. discriminate.
Qed.

(** *** Coding-order index. *)
Lemma coi_seq_gen : forall l g c, 0 <= c -> g_prev g = c mod 256 ->
  gaps_ok c l ->
  coi_seq g (map (fun x => x mod 256) l) =
  map (fun x => x - c + (c mod 256 + g_wrap g * 256)) l.
Proof.
  induction l as [|d l IH]; intros g c Hc Hg Hok; [reflexivity|].
  cbn [gaps_ok] in Hok. destruct Hok as [Hd Hok]. cbn [map coi_seq].
  unfold coi_update. rewrite Hg. cbn [g_output].
  set (w := if d mod 256 <? c mod 256 then g_wrap g + 1 else g_wrap g).
  assert (E: d mod 256 + w * 256 = d - c + (c mod 256 + g_wrap g * 256)).
  { unfold w. destruct (d mod 256 <? c mod 256) eqn:El; Z.div_mod_to_equations; lia. }
  rewrite E. f_equal. rewrite (IH _ d); [| lia | reflexivity | exact Hok].
  apply map_ext. intros x. cbn [g_wrap]. lia.
Qed.

Lemma coi_unwrap : forall c l w o, 0 <= c -> gaps_ok c l ->
  exists k, coi_seq (Pmgr w (-1) o) (map (fun x => x mod 256) (c :: l)) = map (fun x => x + 256 * k) (c :: l).
Proof.
  intros c l w o Hc Hok. exists (w - c / 256). cbn [map coi_seq]. unfold coi_update. cbn [g_prev g_wrap g_output].
  replace (c mod 256 <? -1) with false by (Z.div_mod_to_equations; lia).
  rewrite (coi_seq_gen l _ c Hc); [| reflexivity | exact Hok]. cbn [g_wrap]. f_equal.
  - Z.div_mod_to_equations; lia.
  - apply map_ext. intros x. Z.div_mod_to_equations; lia.
Qed.

Lemma picture_order_spec : forall g q intra p g' coi poc, picture_order g q intra p = Some (g', coi, poc) ->
  coi = snd (coi_update g (c_coi p)) /\
  poc = coi + (if q_low_delay q =? 0 then c_delay p - q_reorder q else 0) /\
  (forall t, coi_seq g' t = coi_seq (fst (coi_update g (c_coi p))) t).
Proof.
  intros g q intra p g' coi poc H. unfold picture_order in H.
  destruct (negb (c_frame p)); [discriminate|].
  destruct (coi_update g (c_coi p)) as [g1 c] eqn:E.
  apply Some_inj in H. apply pair_equal_spec in H. destruct H as [H <-].
  apply pair_equal_spec in H. destruct H as [<- <-]. cbn [fst snd].
  split; [reflexivity|]. split.
  - unfold poc_of. destruct (q_low_delay q =? 0); lia.
  - assert (X: forall t g o, coi_seq (Pmgr (g_wrap g) (g_prev g) o) t = coi_seq g t).
    { induction t as [|x t IH]; intros g0 o; [reflexivity|]. cbn [coi_seq]. unfold coi_update. cbn [g_wrap g_prev g_output].
      f_equal. set (w := if x <? g_prev g0 then _ else _).
      rewrite <- (IH (Pmgr w x o) (g_output g0)). reflexivity. }
    intros t. destruct ((g_output g1 =? -1) && intra); [apply X|reflexivity].
Qed.

Lemma repp_forall : forall A (p : P A) (Q : A -> Prop), (forall s a s', p s = Done (a, s') -> Q a) ->
  forall n s l s', repp n p s = Done (l, s') -> Forall Q l.
Proof.
  intros A p Q HQ. induction n as [|n IH]; intros s l s' E; cbn [repp] in E.
  - apply Done_inj, pair_equal_spec in E. destruct E as [<- _]. constructor.
  - st E x s1 X1. st E r s2 X2. apply Done_inj, pair_equal_spec in E. destruct E as [<- _].
    constructor; [eapply HQ; exact X1|eapply IH; exact X2].
Qed.

Lemma seq_rps_all : forall s q s', parse_sequence_header s = Done (q, s') -> Forall rps_ok (q_rps q).
Proof.
  intros s q s' H. unfold parse_sequence_header in H.
  destruct (parse_seq_body s) as [[q0 s0]| | |] eqn:B; try discriminate.
  apply Done_inj, pair_equal_spec in H. destruct H as [-> _]. unfold parse_seq_body in B.
  st B a0 s1 E0. st B profile s2 E1. st B level s3 E2. st B progressive s4 E3. st B field s5 E4.
  st B width s6 E5. st B height s7 E6.
  destruct ((width <? 16) || (height <? 16)) eqn:C1; [discriminate|].
  st B chroma s8 E7. destruct (negb (chroma =? 1) && negb (chroma =? 0)) eqn:C2; [discriminate|].
  st B sprec s9 E8. st B eprec s10 E9.
  destruct ((sprec <? 1) || (3 <? sprec) || (eprec <? 1) || (3 <? eprec)) eqn:C3; [discriminate|].
  st B aspect s11 E10. st B rate s12 E11. st B brlo s13 E12. st B m1 s14 E13. st B brup s15 E14.
  st B ld s16 E15. st B m2 s17 E16. st B temporal s18 E17. st B bbv s19 E18. st B lcu s20 E19.
  destruct ((lcu <? 4) || (6 <? lcu)) eqn:C4; [discriminate|].
  st B wq s21 E20. st B wqm s22 E21. st B bg s23 E22. st B tools s24 E23. st B m3 s25 E24. st B nrps s26 E25.
  destruct (AVS2_GOP_NUM <? nrps) eqn:C5; [discriminate|].
  st B rpss s27 E26. st B reorder s28 E27. st B cross s29 E28. st B res s30 E29. cbv zeta in B.
  destruct (2147483647 <? (Z.shiftl brup 18 + brlo) * 400); [discriminate|].
  apply Done_inj, pair_equal_spec in B. destruct B as [<- _]. cbn [q_rps].
  eapply repp_forall; [|exact E26]. intros x r x' Hx. eapply seq_rps_ok. exact Hx.
Qed.

Lemma seq_rpss_ok : forall s q s', parse_sequence_header s = Done (q, s') ->
  forall r, In r (q_rps q) ->
  r_nref r <= 4 /\ r_nrem r <= 8 /\ zlen (r_ref r) = Z.max 0 (r_nref r) /\ zlen (r_rem r) = Z.max 0 (r_nrem r).
Proof.
  intros s q s' H r Hr. apply seq_rps_all in H. rewrite Forall_forall in H. exact (H r Hr).
Qed.

Lemma pic_rpss_ok : forall s0 q s0' intra s r s', parse_sequence_header s0 = Done (q, s0') ->
  parse_pic_rps q intra s = Done (r, s') ->
  r_nref r <= 4 /\ r_nrem r <= 8 /\ zlen (r_ref r) = Z.max 0 (r_nref r) /\ zlen (r_rem r) = Z.max 0 (r_nrem r).
Proof. intros s0 q s0' intra s r s' H1 H2. apply seq_rps_all in H1. exact (pic_rps_ok _ _ _ _ _ H1 H2). Qed.

Lemma seq_depths : forall s q s', parse_sequence_header s = Done (q, s') ->
  1 <= q_sample_prec q <= 3 /\ 1 <= q_enc_prec q <= 3 /\ q_internal_depth q = 6 + 2 * q_enc_prec q /\
  q_output_depth q = q_internal_depth q /\ (q_profile q <> 34 -> q_enc_prec q = 1).
Proof.
  intros s q s' H. unfold parse_sequence_header in H.
  destruct (parse_seq_body s) as [[q0 s0]| | |] eqn:B; try discriminate.
  apply Done_inj, pair_equal_spec in H. destruct H as [-> _]. unfold parse_seq_body in B.
  st B a0 s1 E0. st B profile s2 E1. st B level s3 E2. st B progressive s4 E3. st B field s5 E4.
  st B width s6 E5. st B height s7 E6.
  destruct ((width <? 16) || (height <? 16)) eqn:C1; [discriminate|].
  st B chroma s8 E7. destruct (negb (chroma =? 1) && negb (chroma =? 0)) eqn:C2; [discriminate|].
  st B sprec s9 E8. st B eprec s10 E9.
  destruct ((sprec <? 1) || (3 <? sprec) || (eprec <? 1) || (3 <? eprec)) eqn:C3; [discriminate|].
  st B aspect s11 E10. st B rate s12 E11. st B brlo s13 E12. st B m1 s14 E13. st B brup s15 E14.
  st B ld s16 E15. st B m2 s17 E16. st B temporal s18 E17. st B bbv s19 E18. st B lcu s20 E19.
  destruct ((lcu <? 4) || (6 <? lcu)) eqn:C4; [discriminate|].
  st B wq s21 E20. st B wqm s22 E21. st B bg s23 E22. st B tools s24 E23. st B m3 s25 E24. st B nrps s26 E25.
  destruct (AVS2_GOP_NUM <? nrps) eqn:C5; [discriminate|].
  st B rpss s27 E26. st B reorder s28 E27. st B cross s29 E28. st B res s30 E29. cbv zeta in B.
  destruct (2147483647 <? (Z.shiftl brup 18 + brlo) * 400); [discriminate|].
  apply Done_inj, pair_equal_spec in B. destruct B as [<- _].
  cbn [q_sample_prec q_enc_prec q_internal_depth q_output_depth q_profile].
  rewrite !orb_false_iff in C3. rewrite Z.shiftl_mul_pow2 by lia. change (2 ^ 1) with 2.
  split; [clear - C3; lia|]. split; [clear - C3; lia|]. split; [lia|]. split; [reflexivity|].
  intros Hp. unfold MAIN10_PROFILE in E9. replace (profile =? 34) with false in E9 by lia.
  apply Done_inj, pair_equal_spec in E9. destruct E9 as [<- _]. reflexivity.
Qed.

Lemma build_depth : forall s q s' hbd, parse_sequence_header s = Done (q, s') ->
  (hbd = false -> q_internal_depth q <> 8 -> update_depth hbd q = None) /\
  (hbd = true \/ q_internal_depth q = 8 ->
     exists out, update_depth hbd q = Some (out, q_internal_depth q) /\ (out = 8 \/ out = 10 \/ out = 12)).
Proof.
  intros s q s' hbd H. apply seq_depths in H. destruct H as (H1 & H2 & H3 & _ & H4).
  unfold update_depth, MAIN10_PROFILE. rewrite !Z.shiftl_mul_pow2 by lia. change (2 ^ 1) with 2.
  destruct (q_profile q =? 34) eqn:E.
  - split.
    + intros -> Hd. replace (8 =? 6 + q_enc_prec q * 2) with false by lia. reflexivity.
    + intros Hd. exists (6 + q_sample_prec q * 2). split; [|lia].
      replace (negb hbd && negb (8 =? 6 + q_enc_prec q * 2)) with false by (destruct hbd, Hd; subst; lia).
      f_equal. f_equal. lia.
  - assert (q_enc_prec q = 1) by lia. split.
    + intros _ Hd. lia.
    + intros _. exists 8. split; [|auto]. rewrite andb_false_r. f_equal. f_equal. lia.
Qed.
