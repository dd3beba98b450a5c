From Coq Require Import ZArith List Bool Lia.
From Verif Require Import CBase CBaseProofs MemModel AecModel AecSpec AecProofsA AecProofsB AecProofsC AecProofsD AecProofsE AecProofsF.
Import ListNotations.
Open Scope Z_scope.

Lemma decode_spec : forall r a cs, inv a -> (forall j, legal_ctx (cs j)) ->
  exists a1 cs1 b, decode r a cs = Done (a1, cs1, b) /\ (forall j, legal_ctx (cs1 j)) /\ bit01 b /\
  (err a1 = false -> inv a1 /\ nav a - 263 <= nav a1 <= nav a /\ nbytes a1 = nbytes a /\
     (offset_below a -> r <> Bypass \/ ~ saturated a -> offset_below a1)).
Proof.
  intros r a cs H L. destruct r as [k| |]; cbn [decode].
  - destruct (symbol_spec a (cs k) H (L k)) as (a1 & c1 & b & E & L1 & B & F). rewrite E. cbn [bindo].
    exists a1, (fun j => if j =? k then c1 else cs j), b. split; [reflexivity|]. split; [intros j; destruct (j =? k); auto|]. split; [exact B|].
    intros He. destruct (F He) as (F1 & F2 & F3 & _ & F4). repeat split; auto; try apply F1; lia.
  - destruct (bypass_spec a H) as (a1 & b & E & B & F). rewrite E. cbn [bindo fst snd]. exists a1, cs, b. split; [reflexivity|]. split; [exact L|]. split; [exact B|].
    intros He. destruct (F He) as (F1 & F2 & F3 & F4). split; [exact F1|]. split; [lia|]. split; [exact F3|]. intros O [C|C]; [congruence|auto].
  - destruct (final_spec a H) as (a1 & b & E & B & F). rewrite E. cbn [bindo fst snd]. exists a1, cs, b. split; [reflexivity|]. split; [exact L|]. split; [exact B|].
    intros He. destruct (F He) as (F1 & F2 & F3 & F4). split; [exact F1|]. split; [lia|]. split; [exact F3|]. auto.
Qed.

Lemma decodes_spec : forall rs a cs, inv a -> (forall j, legal_ctx (cs j)) ->
  exists a1 cs1 bs, decodes rs a cs = Done (a1, cs1, bs) /\ (forall j, legal_ctx (cs1 j)) /\ Forall bit01 bs /\ (length bs <= length rs)%nat /\
  (err a1 = false -> inv a1 /\ length bs = length rs /\ nav a - 263 * Z.of_nat (length rs) <= nav a1 <= nav a /\ nbytes a1 = nbytes a).
Proof.
  induction rs as [|r t IH]; intros a cs H L; cbn [decodes].
  - exists a, cs, []. split; [reflexivity|]. split; [exact L|]. split; [constructor|]. split; [cbn [length]; lia|]. intros _. split; [exact H|]. split; [reflexivity|]. split; [cbn [length]; lia|reflexivity].
  - destruct (decode_spec r a cs H L) as (a1 & cs1 & b & E & L1 & B & F). rewrite E. cbn [bindo]. destruct (err a1) eqn:Er.
    + exists a1, cs1, [b]. split; [reflexivity|]. split; [exact L1|]. split; [constructor; auto|]. split; [cbn; lia|]. rewrite Er. discriminate.
    + destruct (F eq_refl) as (F1 & F2 & F3 & _). destruct (IH a1 cs1 F1 L1) as (a2 & cs2 & bs & E2 & L2 & B2 & N2 & G2). rewrite E2. cbn [bindo].
      exists a2, cs2, (b :: bs). split; [reflexivity|]. split; [exact L2|]. split; [constructor; auto|]. split; [cbn; lia|].
      intros He. destruct (G2 He) as (G3 & G4 & G5 & G6). split; [exact G3|]. split; [cbn; lia|]. split; [cbn [length]; lia|]. congruence.
Qed.
Lemma decodes_sym_below : forall rs a cs, inv a -> (forall j, legal_ctx (cs j)) -> ~ In Bypass rs -> offset_below a ->
  forall a1 cs1 bs, decodes rs a cs = Done (a1, cs1, bs) -> err a1 = false -> offset_below a1.
Proof.
  induction rs as [|r t IH]; intros a cs H L NB O a1 cs1 bs E He; cbn [decodes] in E.
  - apply Done_inj in E. apply pair_equal_spec in E. destruct E as [E _]. apply pair_equal_spec in E. destruct E as [<- _]. exact O.
  - destruct (decode_spec r a cs H L) as (a2 & cs2 & b & E2 & L2 & B & F). rewrite E2 in E. cbn [bindo] in E. destruct (err a2) eqn:Er.
    + apply Done_inj in E. apply pair_equal_spec in E. destruct E as [E _]. apply pair_equal_spec in E. destruct E as [<- _]. congruence.
    + destruct (F eq_refl) as (F1 & F2 & F3 & F4).
      assert (O2: offset_below a2). { apply F4; auto. left. intros ->. apply NB. left. reflexivity. }
      destruct (decodes t a2 cs2) as [[[a3 cs3] bs3]| | |] eqn:D; try discriminate. cbn [bindo] in E.
      apply Done_inj in E. apply pair_equal_spec in E. destruct E as [E _]. apply pair_equal_spec in E. destruct E as [<- _].
      apply (IH a2 cs2 F1 L2) with (cs1 := cs3) (bs := bs3); auto. intros Q. apply NB. right. exact Q.
Qed.

Lemma start_inv : forall data pos n ob w, bytes_ok data -> 0 <= pos -> pos + 2 <= n -> n <= Z.of_nat (length data) ->
  exists a, start_decoding data pos n ob w = Done a /\ inv a /\ nav a = 8 * (n - pos) - 9 /\ nbytes a = n /\
    vt a = be_val (firstn 9 (bits_of (slice data pos n))) /\ domain a = true /\ t1 a = 255 /\ avail a = skipn 9 (bits_of (slice data pos n)).
Proof.
  intros data pos n ob w HB HP HN HL.
  assert (LS: length (bits_of (slice data pos n)) = (8 * Z.to_nat (n - pos))%nat).
  { rewrite bits_of_length. unfold slice. rewrite firstn_length, skipn_length. lia. }
  destruct (start_ok data pos n ob w HB ltac:(lia) HL ltac:(lia)) as (a & E & R & Er & D & S1 & T & VS & VT & A).
  exists a. split; [exact E|]. pose proof (be_val_bound (firstn 9 (bits_of (slice data pos n)))) as B. rewrite firstn_length, LS in B.
  replace (Z.of_nat (Nat.min 9 (8 * Z.to_nat (n - pos)))) with 9 in B by lia. change (2 ^ 9) with 512 in B.
  split. { constructor; auto. constructor; try lia; rewrite D; discriminate. }
  split. { unfold nav. rewrite A, skipn_length, LS. lia. }
  split. { unfold start_decoding in E. set (a0 := {| buf := data |}) in E.
    assert (R0: rd_ok a0) by (constructor; cbn; auto; lia).
    destruct (nbits_live a0 9 R0 eq_refl ltac:(lia)) as [(w2 & p & g & l & E1 & _)|(a' & E1 & X2 & X3 & _)]; rewrite E1 in E; cbn [bindo fst] in E; apply Done_inj in E.
    - rewrite <- E. reflexivity.
    - congruence. }
  auto.
Qed.

(** ** Runs of symbols decoded in one loop. *)
Definition agree {C} (x y : outcome (aec * C * Z)) (k : Z) : Prop :=
  exists a1 c1 m1 a2 c2 m2, x = Done (a1, c1, m1) /\ y = Done (a2, c2, m2) /\ err a1 = err a2 /\
    (err a1 = false -> a1 = a2 /\ c1 = c2 /\ m1 = k + m2) /\ (err a1 = true -> m1 = 0 /\ m2 = 0).

Lemma continue0_agree : forall k a c v i, inv (set_vs a v) -> legal_ctx c ->
  agree (continue0_loop k a c v 0 i) (repeat_symbol k (set_vs a v) c) i.
Proof.
  induction k as [|k IH]; intros a c v i H L.
  - cbn [continue0_loop repeat_symbol]. exists (set_vs a v), c, (i - 0), (set_vs a v), c, 0. split; [reflexivity|]. split; [reflexivity|].
    split; [reflexivity|]. split; [repeat split; lia|]. rewrite (iv_err _ H). discriminate.
  - pose proof H as [R E G]. cbn [set_vs err vs] in E, G. apply rd_of_vs in R. apply regs_of_vs in G.
    destruct (norm1_spec a v R E G) as (b1 & w1 & e0 & E0 & _ & V0 & _).
    rewrite continue0_body by (intros a1 v1 e Q; rewrite E0 in Q; apply Done_inj in Q; apply pair_equal_spec in Q; destruct Q as [Q _]; apply pair_equal_spec in Q; lia).
    cbn [repeat_symbol]. rewrite decode_symbol_body by (cbn [set_vs vs]; apply G). change (vs (set_vs a v)) with v. rewrite body_vs.
    destruct (body_spec a c v R E G (legal_lg c L)) as (a1 & c1 & v1 & b & e & E1 & T1 & V1 & F1). rewrite E1. cbn [bindo]. destruct e.
    + cbn [bindo]. destruct (T1 eq_refl) as (Er & _). change (err (set_vs a1 v)) with (err a1). rewrite Er.
      exists a1, c, 0, (set_vs a1 v), c, 0. repeat split; auto; try congruence.
    + cbn [bindo]. destruct (F1 eq_refl) as (Er & R1 & G1 & C1 & N1 & NB & _).
      change (set_vs (set_vs a1 v) v1) with (set_vs a1 v1). change (err (set_vs a1 v1)) with (err a1). rewrite Er.
      assert (L1: legal_ctx c1) by (destruct C1 as [[_ ->]|[_ ->]]; [now apply legal_mps|now apply legal_lps]).
      assert (B: b = 0 \/ b = 1) by (destruct L as (_ & L2 & _); destruct C1 as [[-> _]|[-> _]]; lia).
      destruct B as [-> | ->].
      * change (0 =? 1) with false. cbv iota.
        destruct (IH a1 c1 v1 (i + 1)) as (x1 & y1 & m1 & x2 & y2 & m2 & P1 & P2 & P3 & P4 & P5); [constructor; [now apply rd_vs|exact Er|exact (regs_vs _ _ G1)]|exact L1|].
        rewrite P1, P2. cbn [bindo]. destruct (err x2) eqn:Q.
        -- exists x1, y1, m1, x2, y2, 0. split; [reflexivity|]. split; [reflexivity|]. split; [congruence|]. split; [congruence|]. intros Z1. destruct (P5 Z1). auto.
        -- exists x1, y1, m1, x2, y2, (m2 + 1). split; [reflexivity|]. split; [reflexivity|]. split; [congruence|]. split.
           ++ intros Z1. destruct (P4 Z1) as (A1 & A2 & A3). repeat split; auto; lia.
           ++ intros Z1. congruence.
      * change (1 =? 1) with true. cbv iota. replace (continue0_loop k a1 c1 v1 1 (i + 1)) with (@Done (aec * ctx * Z) (set_vs a1 v1, c1, i + 1 - 1)) by (destruct k; reflexivity).
        exists (set_vs a1 v1), c1, (i + 1 - 1), (set_vs a1 v1), c1, 0. split; [reflexivity|]. split; [reflexivity|]. split; [reflexivity|]. split; [intros _; split; [reflexivity|]; split; [reflexivity|lia]|]. intros Z1. change (err a1 = true) in Z1. congruence.
Qed.

(** One bit per doubling, against all the bits at once. *)
Lemma read_loop_eq : forall f a t n0 t' n1, rd_ok a -> err a = false -> rlps_loop f t n0 = Done (t', n1) ->
  n0 <= n1 /\
  ((Z.to_nat (n1 - n0) <= length (avail a))%nat -> rlps_read_loop f a t = bindo (next_bits (Z.to_nat (n1 - n0)) a) (fun a => Done (a, t', false))) /\
  ((length (avail a) < Z.to_nat (n1 - n0))%nat -> exists a' x, rlps_read_loop f a t = Done (a', x, true) /\ err a' = true).
Proof.
  induction f as [|f IH]; intros a t n0 t' n1 R E H; cbn [rlps_loop rlps_read_loop] in *; destruct (t <? QUARTER).
  - discriminate.
  - apply Done_inj in H. apply pair_equal_spec in H. destruct H as [<- <-]. rewrite Z.sub_diag. split; [lia|]. split; [reflexivity|]. intros Q. exfalso. cbn in Q. lia.
  - assert (LE1: n0 + 1 <= n1). { destruct (IH a _ _ _ _ R E H) as [Q _]. exact Q. }
    split; [lia|]. replace (Z.to_nat (n1 - n0)) with (S (Z.to_nat (n1 - (n0 + 1)))) by lia. destruct (avail a) as [|b l] eqn:A.
    + destruct (avail_nil a R A) as [G0 P0]. split; [cbn; lia|]. intros _. rewrite get_next_bit_none by lia. cbn [bindo fst snd]. eexists _, t. split; reflexivity.
    + destruct (get_next_bit_some a b l R A) as (w & p & g & E1 & R1 & A1). cbn [next_bits]. rewrite E1. cbn [bindo fst snd].
      set (a2 := set_vt (set_rd a w p g) (push_bit (vt a) b)). assert (R2: rd_ok a2) by (destruct R1; constructor; assumption).
      destruct (IH a2 _ _ _ _ R2 E H) as (_ & I1 & I2). change (avail a2) with (avail (set_rd a w p g)) in *. rewrite A1 in *. split.
      * intros Q. apply I1. cbn [length] in Q. lia.
      * intros Q. apply I2. cbn [length] in Q. lia.
  - apply Done_inj in H. apply pair_equal_spec in H. destruct H as [<- <-]. rewrite Z.sub_diag. split; [lia|]. split; [reflexivity|]. intros Q. exfalso. cbn in Q. lia.
Qed.

Definition read_scale (a : aec) (t : Z) : outcome (aec * bool) :=
  bindo (rlps_read_loop 10 a t) (fun r => let '(a, t, e) := r in if e then Done (a, true) else Done (set_t1 (set_s1 a 0) (Z.land t 255), false)).
Lemma read_scale_eq : forall a t, rd_ok a -> err a = false -> 1 <= t <= 511 ->
  (exists a1, lps_scale a t = Done (a1, false) /\ read_scale a t = Done (a1, false)) \/
  (exists a1 a2, lps_scale a t = Done (a1, true) /\ read_scale a t = Done (a2, true) /\ err a2 = true).
Proof.
  intros a t R E Ht. destruct (rlps_spec t Ht) as (n & E1 & Hn & _). destruct (read_loop_eq 10 a t 0 _ _ R E E1) as (_ & I1 & I2). rewrite Z.sub_0_r in *.
  unfold lps_scale, read_scale. rewrite E1. cbn [bindo]. destruct (n =? 0) eqn:N0.
  - assert (n = 0) by lia. subst n. rewrite I1 by (cbn; lia). left. eexists. split; reflexivity.
  - destruct (le_lt_dec (Z.to_nat n) (length (avail a))) as [C|C].
    + rewrite (I1 C). rewrite n_bit_single by (auto; lia). destruct (next_bits_ok _ a R C) as (w & p & g & E2 & _). rewrite E2. cbn [bindo]. left.
      cbn [fst snd set_vt set_rd err]. rewrite E. eexists. split; reflexivity.
    + destruct (I2 C) as (a' & x & E2 & Er). rewrite E2. cbn [bindo]. destruct (n_bit_short a n R ltac:(lia) E C) as (a2 & E3 & _). rewrite E3. cbn [bindo fst snd].
      right. exists a2, a'. auto.
Qed.

Lemma ext_step : forall k a cs inc i, inv a -> (forall j, legal_ctx (cs j)) ->
  (exists a1 c1 v b, body a (cs (Z.min i inc)) (vs a) = Done (a1, c1, v, b, false) /\
     continue0_ext_loop (S k) a cs inc 0 i = continue0_ext_loop k (set_vs a1 v) (fun x => if x =? Z.min i inc then c1 else cs x) inc b (i + 1)) \/
  (exists a1 c1 v b a2, body a (cs (Z.min i inc)) (vs a) = Done (a1, c1, v, b, true) /\
     continue0_ext_loop (S k) a cs inc 0 i = Done (a2, cs, 0) /\ err a2 = true).
Proof.
  intros k a cs inc i H L. pose proof H as [R E G]. set (c := cs (Z.min i inc)). cbn [continue0_ext_loop Z.eqb]. fold c. cbv zeta.
  pose proof (legal_lg c (L _)) as LG. unfold lg_ok in LG. rewrite norm_m_eq, bindo_assoc. unfold body.
  destruct (norm1_spec a (vs a) R E G) as (a2 & v2 & e2 & E2 & T2 & V2 & F2). rewrite E2. cbn [bindo fst snd].
  destruct e2. { right. exists a2, c, v2, 0, (set_vs a2 v2). split; [reflexivity|]. split; [reflexivity|]. apply T2. reflexivity. }
  destruct (F2 eq_refl) as (Er2 & R2 & Et & S2 & X2 & N2 & NB2 & LE2 & BD2 & _). pose proof (rg_t1 _ _ G) as GT. rewrite <- Et in GT.
  set (lgp := Z.shiftr (lg c) 2) in *. change (t1 (set_vs a2 v2)) with (t1 a2). change (s1 (set_vs a2 v2)) with (s1 a2). change (vs (set_vs a2 v2)) with v2.
  change (vt (set_vs a2 v2)) with (vt a2). change (bound (set_vs a2 v2)) with (bound a2).
  unfold BOUND at 1 2. replace (254 <? v2) with false by lia.
  fold (flag_of a2 lgp). fold (s2_of a2 lgp). fold (t2_of a2 lgp). fold (lps_of a2 lgp v2).
  assert (ST: lgst a2 v2) by (constructor; auto; lia).
  destruct (lps_of a2 lgp v2) eqn:P.
  - change (set_domain (set_vs a2 v2) true) with (set_vs (set_domain a2 true) v2). change (vs (set_vs (set_domain a2 true) v2)) with v2.
    change (t1 (set_vs (set_domain a2 true) v2)) with (t1 a2). fold (rlps_of a2 lgp).
    assert (LV0: (if s2_of a2 lgp =? v2 then Done (set_vt (set_vs (set_domain a2 true) v2) (to_u32 (vt (set_vs (set_domain a2 true) v2) - t2_of a2 lgp)), false)
      else bindo (get_next_bit (set_vs (set_domain a2 true) v2)) (fun r : aec * bool => if snd r then Done r else Done (set_vt (fst r) (to_u32 (vt (fst r) + 256 - t2_of a2 lgp)), false)))
      = bindo (lps_value a2 lgp v2) (lift v2)) by (rewrite <- lps_value_vs; reflexivity).
    rewrite LV0. clear LV0.
    destruct (lps_value_spec a2 lgp v2 ST LG P) as (a3 & e3 & E3 & T3 & F3). rewrite E3. cbn [bindo lift fst snd]. destruct e3.
    { right. exists a3, c, v2, 0, (set_vs a3 v2). split; [reflexivity|]. split; [reflexivity|]. apply T3. reflexivity. }
    destruct (F3 eq_refl) as (Er3 & R3 & X3 & D3 & _).
    assert (RL: 1 <= rlps_of a2 lgp <= 511) by (destruct (arith_of a2 lgp GT S2 LG) as [(_ & A & _ & _ & ->)|(_ & A & _ & _ & ->)]; lia).
    assert (RS: forall (g : aec * Z * bool -> outcome (aec * (Z -> ctx) * Z)) (h : aec * bool -> outcome (aec * (Z -> ctx) * Z)),
       (forall a t, g (a, t, true) = h (a, true)) -> (forall a t, g (a, t, false) = h (set_t1 (set_s1 a 0) (Z.land t 255), false)) ->
       bindo (rlps_read_loop 10 (set_vs a3 v2) (rlps_of a2 lgp)) g = bindo (read_scale (set_vs a3 v2) (rlps_of a2 lgp)) h).
    { intros g h Q1 Q2. unfold read_scale. rewrite bindo_assoc. destruct (rlps_read_loop 10 (set_vs a3 v2) (rlps_of a2 lgp)) as [[[x y] z]| | |]; try reflexivity.
      cbn [bindo]. destruct z; cbn [bindo]; auto. }
    assert (R3v: rd_ok (set_vs a3 v2)) by (now apply rd_vs). assert (E3v: err (set_vs a3 v2) = false) by exact Er3.
    rewrite RS with (h := fun r : aec * bool => if snd r then Done (fst r, cs, 0) else continue0_ext_loop k (fst r) (fun x => if x =? Z.min i inc then update_ctx_lps c else cs x) inc (1 - mps c) (i + 1));
      [|reflexivity|reflexivity].
    destruct (read_scale_eq (set_vs a3 v2) (rlps_of a2 lgp) R3v E3v RL) as [(a4 & Q1 & Q2)|(a4 & a5 & Q1 & Q2 & Q3)]; rewrite lps_scale_vs in Q1;
      destruct (lps_scale a3 (rlps_of a2 lgp)) as [[a6 e6]| | |] eqn:Q6; try discriminate; cbn [bindo] in Q1; unfold lift in Q1; apply Done_inj in Q1; apply pair_equal_spec in Q1; destruct Q1 as [Q1 Q7]; cbn [fst snd] in Q1, Q7; subst e6;
      rewrite Q2; cbn [bindo fst snd].
    + left. exists a6, (update_ctx_lps c), v2, (1 - mps c). split; [reflexivity|]. rewrite <- Q1. reflexivity.
    + right. exists a6, c, v2, 0, a5. auto.
  - left. eexists _, _, v2, _. split; reflexivity.
Qed.

Lemma ext_agree : forall k a cs inc i, inv a -> (forall j, legal_ctx (cs j)) ->
  agree (continue0_ext_loop k a cs inc 0 i) (repeat_symbol_ext k a cs inc i) i.
Proof.
  induction k as [|k IH]; intros a cs inc i H L.
  - cbn [continue0_ext_loop repeat_symbol_ext]. exists a, cs, (i - 0), a, cs, 0. split; [reflexivity|]. split; [reflexivity|].
    split; [reflexivity|]. split; [repeat split; lia|]. rewrite (iv_err _ H). discriminate.
  - pose proof H as [R E G]. cbn [repeat_symbol_ext decode]. rewrite decode_symbol_body by (apply G). set (j := Z.min i inc) in *.
    destruct (body_spec a (cs j) (vs a) R E G (legal_lg _ (L j))) as (a1 & c1 & v1 & b & e & E1 & T1 & V1 & F1). rewrite E1. cbn [bindo].
    destruct (ext_step k a cs inc i H L) as [(b1 & d1 & w & y & X1 & X2)|(b1 & d1 & w & y & z & X1 & X2 & X3)]; fold j in X1, X2; rewrite E1 in X1; apply Done_inj in X1;
      apply pair_equal_spec in X1; destruct X1 as [X1 ->]; apply pair_equal_spec in X1; destruct X1 as [X1 <-]; apply pair_equal_spec in X1; destruct X1 as [X1 <-];
      apply pair_equal_spec in X1; destruct X1 as [<- <-]; rewrite X2.
    + cbn [bindo]. destruct (F1 eq_refl) as (Er & R1 & G1 & C1 & N1 & NB & _). change (err (set_vs a1 v1)) with (err a1). rewrite Er.
      assert (L1: legal_ctx c1) by (destruct C1 as [[_ ->]|[_ ->]]; [apply legal_mps, L|apply legal_lps, L]).
      assert (B: b = 0 \/ b = 1) by (destruct (L j) as (_ & L2 & _); destruct C1 as [[-> _]|[-> _]]; lia).
      destruct B as [-> | ->].
      * change (0 =? 1) with false. cbv iota.
        destruct (IH (set_vs a1 v1) (fun x => if x =? j then c1 else cs x) inc (i + 1)) as (x1 & y1 & m1 & x2 & y2 & m2 & P1 & P2 & P3 & P4 & P5);
          [constructor; [now apply rd_vs|exact Er|exact (regs_vs _ _ G1)]|intros x; destruct (x =? j); auto|].
        rewrite P1, P2. cbn [bindo]. destruct (err x2) eqn:Q.
        -- exists x1, y1, m1, x2, y2, 0. split; [reflexivity|]. split; [reflexivity|]. split; [congruence|]. split; [congruence|]. intros Z1. destruct (P5 Z1). auto.
        -- exists x1, y1, m1, x2, y2, (m2 + 1). split; [reflexivity|]. split; [reflexivity|]. split; [congruence|]. split.
           ++ intros Z1. destruct (P4 Z1) as (A1 & A2 & A3). repeat split; auto; lia.
           ++ intros Z1. congruence.
      * change (1 =? 1) with true. cbv iota.
        replace (continue0_ext_loop k (set_vs a1 v1) (fun x => if x =? j then c1 else cs x) inc 1 (i + 1)) with (@Done (aec * (Z -> ctx) * Z) (set_vs a1 v1, (fun x => if x =? j then c1 else cs x), i + 1 - 1)) by (destruct k; reflexivity).
        exists (set_vs a1 v1), (fun x => if x =? j then c1 else cs x), (i + 1 - 1), (set_vs a1 v1), (fun x => if x =? j then c1 else cs x), 0. split; [reflexivity|]. split; [reflexivity|]. split; [reflexivity|]. split; [intros _; split; [reflexivity|]; split; [reflexivity|lia]|]. intros Z1. change (err a1 = true) in Z1. congruence.
    + cbn [bindo]. destruct (T1 eq_refl) as (Er & _). rewrite Er. exists z, cs, 0, a1, (fun x => if x =? j then cs j else cs x), 0. repeat split; auto; try congruence.
Qed.
