From Coq Require Import ZArith List Bool Lia.
From Verif Require Import CBase CBaseProofs MemModel AecModel AecSpec AecProofsA AecProofsB AecProofsC AecProofsD.
Import ListNotations.
Open Scope Z_scope.

Definition lg_ok (c : ctx) : Prop := 1 <= Z.shiftr (lg c) 2 <= 255.
Lemma legal_lg : forall c, legal_ctx c -> lg_ok c.
Proof.
  intros c [H _]. unfold lg_ok. rewrite Z.shiftr_div_pow2 by lia. change (2 ^ 2) with 4.
  assert (1 <= lg c / 4) by (apply Z.div_le_lower_bound; lia). assert (lg c / 4 < 256) by (apply Z.div_lt_upper_bound; lia). lia.
Qed.

Lemma u32_id : forall x, 0 <= x < 4294967296 -> to_u32 x = x.
Proof. intros. unfold to_u32. apply Z.mod_small. lia. Qed.
Lemma u32_range : forall x, 0 <= to_u32 x < 4294967296.
Proof. intros. unfold to_u32. apply Z.mod_pos_bound. lia. Qed.

Lemma arith_of : forall a lgp, 0 <= t1 a <= 255 -> 0 <= s1 a <= 254 -> 1 <= lgp <= 255 ->
  (flag_of a lgp = 0 /\ lgp <= t1 a /\ s2_of a lgp = s1 a /\ t2_of a lgp = t1 a - lgp /\ rlps_of a lgp = lgp) \/
  (flag_of a lgp = 1 /\ t1 a < lgp /\ s2_of a lgp = s1 a + 1 /\ t2_of a lgp = t1 a - lgp + 256 /\ rlps_of a lgp = t1 a + lgp).
Proof.
  intros a lgp T S1 L. unfold s2_of, t2_of, rlps_of, flag_of, less. destruct (t1 a <? lgp) eqn:F.
  - right. split; [reflexivity|]. split; [lia|]. change (Z.shiftl 1 8) with 256. rewrite !u32_id by lia. change (1 =? 0) with false. repeat split; lia.
  - left. split; [reflexivity|]. split; [lia|]. change (Z.shiftl 0 8) with 0. rewrite !u32_id by lia. change (0 =? 0) with true. repeat split; lia.
Qed.

(** State after the normalisation. *)
Record lgst (a : aec) (v : Z) : Prop := {
  lg_rd : rd_ok a; lg_err : err a = false; lg_t1 : 0 <= t1 a <= 255; lg_s1 : 0 <= s1 a <= 254; lg_v : 0 <= v <= 254;
  lg_vt : 0 <= vt a < 4294967296; lg_le : bound a = false -> s1 a <= v; lg_bd : bound a = true -> s1 a < 254
}.
Definition lgbelow (a : aec) (v : Z) : Prop :=
  vt a <= 255 /\ (if bound a then v = 254 else s1 a < v \/ (s1 a = v /\ vt a < t1 a)).

Lemma nav_domain : forall a d, nav (set_domain a d) = nav a.
Proof. reflexivity. Qed.

Lemma lps_value_spec : forall a lgp v, lgst a v -> 1 <= lgp <= 255 -> lps_of a lgp v = true ->
  exists a1 e, lps_value a lgp v = Done (a1, e) /\ (e = true -> err a1 = true) /\
  (e = false -> err a1 = false /\ rd_ok a1 /\ 0 <= vt a1 < 4294967296 /\ domain a1 = true /\ nav a - 1 <= nav a1 <= nav a /\ nbytes a1 = nbytes a /\
     (lgbelow a v -> vt a1 < rlps_of a lgp)).
Proof.
  intros a lgp v [R E T S1 V X LE BD] L P. unfold lps_of in P. apply andb_true_iff in P. destruct P as [P NB].
  assert (B: bound a = false) by (destruct (bound a); auto; discriminate). specialize (LE B). unfold lps_value, lgbelow. rewrite B.
  destruct (arith_of a lgp T S1 L) as [(F & A1 & Z1 & Z2 & Z3)|(F & A1 & Z1 & Z2 & Z3)]; rewrite Z1, Z2 in *; rewrite Z3.
  - assert (Q: s1 a =? v = true) by lia. rewrite Q in *. eexists. exists false. split; [reflexivity|]. split; [discriminate|]. intros _.
    cbn [set_vt set_domain err vt domain]. rewrite u32_id by lia. split; [exact E|]. split; [destruct R; constructor; assumption|].
    split; [lia|]. split; [reflexivity|]. split; [change (nav (set_vt (set_domain a true) (vt a - (t1 a - lgp)))) with (nav a); lia|]. split; [reflexivity|]. lia.
  - destruct (s1 a + 1 =? v) eqn:Q.
    + eexists. exists false. split; [reflexivity|]. split; [discriminate|]. intros _.
      cbn [set_vt set_domain err vt domain]. rewrite u32_id by lia. split; [exact E|]. split; [destruct R; constructor; assumption|].
      split; [lia|]. split; [reflexivity|]. split; [change (nav (set_vt (set_domain a true) (vt a - (t1 a - lgp + 256)))) with (nav a); lia|]. split; [reflexivity|]. lia.
    + assert (Rd: rd_ok (set_domain a true)) by (destruct R; constructor; assumption).
      destruct (bit_live _ Rd E) as [(w & p & g & b & E1 & R1 & N1 & _)|(g & E1 & _)]; rewrite E1; cbn [bindo fst snd].
      * eexists. exists false. split; [reflexivity|]. split; [discriminate|]. intros _. cbn [set_vt set_rd set_domain err vt domain].
        split; [exact E|]. split; [destruct R1; constructor; assumption|]. split; [apply u32_range|]. split; [reflexivity|].
        split. { match goal with |- _ <= nav ?y <= _ => change (nav y) with (nav (set_rd (set_domain a true) w p g)) end. rewrite N1, nav_domain. lia. }
        split; [reflexivity|]. intros [Y1 Y2]. rewrite push_bit_small by lia. rewrite u32_id; destruct b; cbn [Z.b2z]; lia.
      * eexists. exists true. split; [reflexivity|]. split; [reflexivity|]. discriminate.
Qed.

Lemma body_spec : forall a c v, rd_ok a -> err a = false -> regs a v -> lg_ok c ->
  exists a1 c1 v1 b e, body a c v = Done (a1, c1, v1, b, e) /\ (e = true -> err a1 = true /\ c1 = c /\ b = 0) /\ 0 <= v1 <= 254 /\
  (e = false -> err a1 = false /\ rd_ok a1 /\ regs a1 v1 /\ ((b = mps c /\ c1 = update_ctx_mps c) \/ (b = 1 - mps c /\ c1 = update_ctx_lps c)) /\
     nav a - 263 <= nav a1 <= nav a /\ nbytes a1 = nbytes a /\ (below a v -> below a1 v1)).
Proof.
  intros a c v R E G L. unfold lg_ok in L. unfold body. destruct (norm1_spec a v R E G) as (a1 & v1 & e & E1 & T1 & V1 & F1). rewrite E1. cbn [bindo].
  destruct e. { exists a1, c, v1, 0, true. split; [reflexivity|]. split; [auto|]. split; [exact V1|]. discriminate. }
  destruct (F1 eq_refl) as (Er1 & R1 & Et & S1 & X1 & N1 & NB & LE & BD & BL). clear F1.
  pose proof (rg_t1 _ _ G) as GT. rewrite <- Et in GT. set (lgp := Z.shiftr (lg c) 2) in *. cbv zeta.
  assert (ST: lgst a1 v1) by (constructor; auto; lia).
  destruct (lps_of a1 lgp v1) eqn:P.
  - destruct (lps_value_spec a1 lgp v1 ST L P) as (a2 & e2 & E2 & T2 & F2). rewrite E2. cbn [bindo fst snd]. destruct e2.
    { exists a2, c, v1, 0, true. split; [reflexivity|]. split; [auto|]. split; [exact V1|]. discriminate. }
    destruct (F2 eq_refl) as (Er2 & R2 & X2 & D2 & N2 & NB2 & B2).
    assert (RL: 1 <= rlps_of a1 lgp <= 511) by (destruct (arith_of a1 lgp GT S1 L) as [(_ & A & _ & _ & ->)|(_ & A & _ & _ & ->)]; lia).
    destruct (lps_scale_spec a2 (rlps_of a1 lgp) R2 Er2 RL X2) as (a3 & e3 & E3 & T3 & F3). rewrite E3. cbn [bindo fst snd]. destruct e3.
    { exists a3, c, v1, 0, true. split; [reflexivity|]. split; [auto|]. split; [exact V1|]. discriminate. }
    destruct (F3 eq_refl) as (Er3 & R3 & S3 & T3' & X3 & D3 & N3 & NB3 & B3).
    exists a3, (update_ctx_lps c), v1, (1 - mps c), false. split; [reflexivity|]. split; [discriminate|]. split; [exact V1|]. intros _.
    split; [exact Er3|]. split; [exact R3|]. split; [constructor; auto; try lia; rewrite D3, D2; discriminate|]. split; [right; auto|].
    split; [lia|]. split; [congruence|]. intros Hb. unfold below. rewrite D3, D2. apply B3, B2. apply BL, Hb.
  - exists (set_t1 (set_s1 (set_domain a1 false) (s2_of a1 lgp)) (t2_of a1 lgp)), (update_ctx_mps c), v1, (mps c), false. split; [reflexivity|].
    split; [discriminate|]. split; [exact V1|]. intros _. cbn [set_t1 set_s1 set_domain err]. split; [exact Er1|]. split; [destruct R1; constructor; assumption|].
    unfold lps_of in P.
    assert (Q: bound a1 = false -> s2_of a1 lgp < v1 \/ (s2_of a1 lgp = v1 /\ vt a1 < t2_of a1 lgp)) by (intros Q; rewrite Q in P; cbn [negb] in P; lia).
    assert (Q2: 0 <= s2_of a1 lgp <= 254 /\ 0 <= t2_of a1 lgp <= 255).
    { destruct (arith_of a1 lgp GT S1 L) as [(_ & A & A2 & -> & _)|(_ & A & A2 & -> & _)]; rewrite A2 in *; (destruct (bound a1); [specialize (BD eq_refl)|specialize (Q eq_refl)]; lia). }
    split. { constructor; cbn [set_t1 set_s1 set_domain t1 s1 vt domain bound]; try lia. }
    split; [left; auto|]. split; [change (nav (set_t1 (set_s1 (set_domain a1 false) (s2_of a1 lgp)) (t2_of a1 lgp))) with (nav a1); lia|]. split; [exact NB|].
    intros Hb. destruct (BL Hb) as [Y1 Y2]. unfold below. cbn [set_t1 set_s1 set_domain t1 s1 vt domain bound]. split; [exact Y1|].
    destruct (bound a1); [exact Y2|apply Q; reflexivity].
Qed.
