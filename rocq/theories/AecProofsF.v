From Coq Require Import ZArith List Bool Lia.
From Verif Require Import CBase CBaseProofs MemModel AecModel AecSpec AecProofsA AecProofsB AecProofsC AecProofsD AecProofsE.
Import ListNotations.
Open Scope Z_scope.

Lemma bindo_assoc : forall (A B C : Type) (x : outcome A) (f : A -> outcome B) (g : B -> outcome C),
  bindo (bindo x f) g = bindo x (fun a => bindo (f a) g).
Proof. intros A B C [a| | |] f g; reflexivity. Qed.

(** The body does not look at the stored shift. *)
Lemma lps_value_vs : forall a lgp v w, lps_value (set_vs a w) lgp v = bindo (lps_value a lgp v) (lift w).
Proof.
  intros a lgp v w. unfold lps_value. change (s2_of (set_vs a w) lgp) with (s2_of a lgp). change (t2_of (set_vs a w) lgp) with (t2_of a lgp).
  destruct (s2_of a lgp =? v); [reflexivity|]. change (set_domain (set_vs a w) true) with (set_vs (set_domain a true) w). rewrite get_next_bit_vs.
  destruct (get_next_bit (set_domain a true)) as [[a1 e]| | |]; try reflexivity. cbn [bindo lift fst snd]. destruct e; reflexivity.
Qed.
Lemma lps_scale_vs : forall a t w, lps_scale (set_vs a w) t = bindo (lps_scale a t) (lift w).
Proof.
  intros a t w. unfold lps_scale. destruct (rlps_loop 10 t 0) as [[t' n]| | |]; try reflexivity. cbn [bindo].
  destruct (n =? 0); [reflexivity|]. rewrite n_bit_vs. destruct (get_next_n_bit a n) as [[a1 e]| | |]; try reflexivity. cbn [bindo lift fst snd]. destruct e; reflexivity.
Qed.
Lemma body_vs : forall a c v w, body (set_vs a w) c v = bindo (body a c v) (fun r => let '(a', c', v', b, e) := r in Done (set_vs a' w, c', v', b, e)).
Proof.
  intros a c v w. unfold body. rewrite norm1_vs. destruct (norm1 a v) as [[[a1 v1] e]| | |]; try reflexivity. cbn [bindo fst snd]. destruct e; [reflexivity|].
  set (lgp := Z.shiftr (lg c) 2). change (lps_of (set_vs a1 w) lgp v1) with (lps_of a1 lgp v1). destruct (lps_of a1 lgp v1); [|reflexivity].
  rewrite lps_value_vs. destruct (lps_value a1 lgp v1) as [[a2 e2]| | |]; try reflexivity. cbn [bindo lift fst snd]. destruct e2; [reflexivity|].
  change (rlps_of (set_vs a1 w) lgp) with (rlps_of a1 lgp). rewrite lps_scale_vs. destruct (lps_scale a2 (rlps_of a1 lgp)) as [[a3 e3]| | |]; try reflexivity. cbn [bindo lift fst snd]. destruct e3; reflexivity.
Qed.

(** The state between two decode requests. *)
Record inv (a : aec) : Prop := { iv_rd : rd_ok a; iv_err : err a = false; iv_regs : regs a (vs a) }.

Lemma regs_vs : forall a v, regs a v -> regs (set_vs a v) v.
Proof. intros a v [A B C D E]. constructor; assumption. Qed.
Lemma rd_vs : forall a v, rd_ok a -> rd_ok (set_vs a v).
Proof. intros a v [A B C D]. constructor; assumption. Qed.
Lemma rd_of_vs : forall a v, rd_ok (set_vs a v) -> rd_ok a.
Proof. intros a v [A B C D]. constructor; assumption. Qed.
Lemma regs_of_vs : forall a w v, regs (set_vs a w) v -> regs a v.
Proof. intros a w v [A B C D E]. constructor; assumption. Qed.

Definition bit01 (b : Z) : Prop := b = 0 \/ b = 1.

(** What one context-coded symbol does. *)
Lemma symbol_spec : forall a c, inv a -> legal_ctx c ->
  exists a1 c1 b, decode_symbol a c = Done (a1, c1, b) /\ legal_ctx c1 /\ bit01 b /\
  (err a1 = false -> inv a1 /\ nav a - 263 <= nav a1 <= nav a /\ nbytes a1 = nbytes a /\
     ((b = mps c /\ c1 = update_ctx_mps c) \/ (b = 1 - mps c /\ c1 = update_ctx_lps c)) /\ (offset_below a -> offset_below a1)).
Proof.
  intros a c [R E G] L. rewrite decode_symbol_body by (apply G).
  destruct (body_spec a c (vs a) R E G (legal_lg c L)) as (a1 & c1 & v1 & b & e & E1 & T1 & V1 & F1). rewrite E1. cbn [bindo]. destruct e.
  - exists a1, c, 0. split; [reflexivity|]. split; [exact L|]. split; [left; reflexivity|]. intros H. rewrite (proj1 (T1 eq_refl)) in H. discriminate.
  - destruct (F1 eq_refl) as (Er & R1 & G1 & C1 & N1 & NB & B1). exists (set_vs a1 v1), c1, b. split; [reflexivity|].
    assert (L1: legal_ctx c1) by (destruct C1 as [[_ ->]|[_ ->]]; [now apply legal_mps|now apply legal_lps]).
    split; [exact L1|]. split. { destruct L as (_ & L2 & _). unfold bit01. destruct C1 as [[-> _]|[-> _]]; lia. }
    intros _. split; [constructor; [now apply rd_vs|exact Er|exact (regs_vs _ _ G1)]|]. split; [exact N1|]. split; [exact NB|]. split; [exact C1|]. exact B1.
Qed.

Definition ctx_final : ctx := {| lg := 4; mps := 0; cyc := 0 |}.
Lemma final_body : forall a, inv a ->
  (exists a1 c1 v b, body a ctx_final (vs a) = Done (a1, c1, v, b, false) /\ decode_final a = Done (set_vs a1 v, b)) \/
  (exists a1 c1 v b a2, body a ctx_final (vs a) = Done (a1, c1, v, b, true) /\ decode_final a = Done (a2, 0) /\ err a2 = true).
Proof.
  intros a [R E G]. unfold decode_final. rewrite norm_m_eq. rewrite bindo_assoc.
  assert (LF: lg_ok ctx_final) by (unfold lg_ok, ctx_final; cbn; lia).
  destruct (body_spec a ctx_final (vs a) R E G LF) as (a1 & c1 & v1 & b & e & E1 & T1 & V1 & _). unfold body in *.
  destruct (norm1_spec a (vs a) R E G) as (a2 & v2 & e2 & E2 & T2 & V2 & F2). rewrite E2 in *. cbn [bindo fst snd] in *.
  destruct e2. { right. exists a2, ctx_final, v2, 0, (set_vs a2 v2). split; [reflexivity|]. split; [reflexivity|]. apply T2. reflexivity. }
  destruct (F2 eq_refl) as (_ & _ & Et & _). pose proof (rg_t1 _ _ G) as GT. rewrite <- Et in GT.
  change (Z.shiftr (lg ctx_final) 2) with 1 in *. change (mps ctx_final) with 0 in *.
  cbn [set_vs t1 s1 vs vt bound]. fold (flag_of a2 1). fold (s2_of a2 1). fold (t2_of a2 1). fold (lps_of a2 1 v2).
  assert (RL: rlps_of a2 1 = 1). { unfold rlps_of, flag_of, less. destruct (t1 a2 <? 1) eqn:Q; [|reflexivity]. change (1 =? 0) with false. cbv iota. rewrite u32_id by lia. lia. }
  rewrite RL in *. destruct (lps_of a2 1 v2) eqn:P.
  - change (set_domain (set_vs a2 v2) true) with (set_vs (set_domain a2 true) v2) in *. change (vs (set_vs (set_domain a2 true) v2)) with v2.
    assert (LV0: (if s2_of a2 1 =? v2 then Done (set_vt (set_vs (set_domain a2 true) v2) (to_u32 (vt (set_vs (set_domain a2 true) v2) - t2_of a2 1)), false)
      else bindo (get_next_bit (set_vs (set_domain a2 true) v2)) (fun r : aec * bool => if snd r then Done r else Done (set_vt (fst r) (to_u32 (vt (fst r) + 256 - t2_of a2 1)), false)))
      = bindo (lps_value a2 1 v2) (lift v2)) by (rewrite <- lps_value_vs; reflexivity).
    rewrite LV0. clear LV0.
    destruct (lps_value a2 1 v2) as [[a3 e3]| | |] eqn:LV; try discriminate. cbn [bindo lift fst snd] in *. destruct e3.
    + right. exists a3, ctx_final, v2, 0, (set_vs a3 v2). split; [reflexivity|]. split; [reflexivity|].
      apply Done_inj in E1. apply pair_equal_spec in E1. destruct E1 as [E1 <-]. do 3 (apply pair_equal_spec in E1; destruct E1 as [E1 _]). subst a1. apply T1. reflexivity.
    + unfold lps_scale in *. change (rlps_loop 10 1 0) with (Done (256, 8)) in *. cbn [bindo fst snd] in *. change (8 =? 0) with false in *. cbv iota in *.
      rewrite n_bit_vs. destruct (get_next_n_bit a3 8) as [[a4 e4]| | |] eqn:NB; try discriminate. cbn [bindo lift fst snd] in *. destruct e4.
      * right. cbn [bindo fst snd] in *. exists a4, ctx_final, v2, 0, (set_vs a4 v2). split; [reflexivity|]. split; [reflexivity|].
        apply Done_inj in E1. apply pair_equal_spec in E1. destruct E1 as [E1 <-]. do 3 (apply pair_equal_spec in E1; destruct E1 as [E1 _]). subst a1. apply T1. reflexivity.
      * left. cbn [bindo fst snd] in *. eexists _, _, v2, _. split; reflexivity.
  - left. eexists _, _, v2, _. split; reflexivity.
Qed.
Lemma final_spec : forall a, inv a -> exists a1 b, decode_final a = Done (a1, b) /\ bit01 b /\
  (err a1 = false -> inv a1 /\ nav a - 263 <= nav a1 <= nav a /\ nbytes a1 = nbytes a /\ (offset_below a -> offset_below a1)).
Proof.
  intros a H. pose proof H as [R E G]. assert (LF: lg_ok ctx_final) by (unfold lg_ok, ctx_final; cbn; lia).
  destruct (body_spec a ctx_final (vs a) R E G LF) as (a1 & c1 & v1 & b & e & E1 & T1 & V1 & F1).
  destruct (final_body a H) as [(b1 & d1 & w & y & X1 & X2)|(b1 & d1 & w & y & z & X1 & X2 & X3)].
  - rewrite X1 in E1. apply Done_inj in E1. apply pair_equal_spec in E1. destruct E1 as [E1 <-]. apply pair_equal_spec in E1. destruct E1 as [E1 ->].
    apply pair_equal_spec in E1. destruct E1 as [E1 ->]. apply pair_equal_spec in E1. destruct E1 as [-> _].
    destruct (F1 eq_refl) as (Er & R1 & G1 & C1 & N1 & NB & B1). exists (set_vs a1 v1), b. split; [exact X2|].
    split. { unfold bit01. cbn [ctx_final mps] in C1. destruct C1 as [[-> _]|[-> _]]; lia. }
    intros _. split; [constructor; [now apply rd_vs|exact Er|exact (regs_vs _ _ G1)]|]. split; [exact N1|]. split; [exact NB|]. exact B1.
  - exists z, 0. split; [exact X2|]. split; [left; reflexivity|]. rewrite X3. discriminate.
Qed.

Definition saturated (a : aec) : Prop := domain a = false /\ s1 a = 254 /\ bound a = true.
Lemma bypass_spec : forall a, inv a -> exists a1 b, decode_eq_prob a = Done (a1, b) /\ bit01 b /\
  (err a1 = false -> inv a1 /\ nav a - 1 <= nav a1 <= nav a /\ nbytes a1 = nbytes a /\ (offset_below a -> ~ saturated a -> offset_below a1)).
Proof.
  intros a [R E [T S1 V X LE]]. unfold decode_eq_prob. destruct (in_r_domain a) eqn:D.
  - assert (Rd: rd_ok (set_s1 a 0)) by (destruct R; constructor; assumption).
    destruct (bit_live _ Rd E) as [(w & p & g & b & E1 & R1 & N1 & _)|(g & E1 & _)]; rewrite E1; cbn [bindo fst snd].
    + change (nav (set_s1 a 0)) with (nav a) in N1. cbn [set_vt set_rd set_s1 vt t1]. rewrite (u32_id (256 + t1 a)) by lia. pose proof (push_bit_range (vt a) b) as PR.
      unfold in_r_domain, BOUND in D.
      destruct (256 + t1 a <=? push_bit (vt a) b) eqn:C.
      * rewrite u32_id by lia. eexists _, 1. split; [reflexivity|]. split; [right; reflexivity|]. intros _.
        split. { constructor; [destruct R1; constructor; assumption|exact E|]. constructor; cbn [set_vt set_rd set_s1 t1 s1 vs vt domain bound]; try lia. }
        match goal with |- _ <= nav ?y <= _ /\ _ => change (nav y) with (nav (set_rd (set_s1 a 0) w p g)) end. split; [lia|]. split; [reflexivity|].
        intros Ob NS. unfold offset_below, saturated in *. cbn [set_vt set_rd set_s1 t1 s1 vs vt domain bound]. destruct (domain a).
        -- rewrite push_bit_small by lia. destruct b; cbn [Z.b2z]; lia.
        -- exfalso. apply NS. cbn [orb] in D. destruct (bound a); [|rewrite andb_false_r in D; discriminate]. repeat split; auto. lia.
      * eexists _, 0. split; [reflexivity|]. split; [left; reflexivity|]. intros _.
        split. { constructor; [destruct R1; constructor; assumption|exact E|]. constructor; cbn [set_vt set_rd set_s1 t1 s1 vs vt domain bound]; try lia. }
        match goal with |- _ <= nav ?y <= _ /\ _ => change (nav y) with (nav (set_rd (set_s1 a 0) w p g)) end. split; [lia|]. split; [reflexivity|].
        intros Ob NS. unfold offset_below, saturated in *. cbn [set_vt set_rd set_s1 t1 s1 vs vt domain bound]. destruct (domain a).
        -- lia.
        -- exfalso. apply NS. cbn [orb] in D. destruct (bound a); [|rewrite andb_false_r in D; discriminate]. repeat split; auto. lia.
    + eexists _, 0. split; [reflexivity|]. split; [left; reflexivity|]. discriminate.
  - unfold in_r_domain, BOUND in D. apply orb_false_elim in D. destruct D as [D1 D2]. specialize (LE D1).
    rewrite (u32_id (s1 a + 1)) by lia. cbv zeta. set (l := (vs a <? s1 a + 1) || ((s1 a + 1 =? vs a) && (t1 a <=? vt a)) && negb (bound a)).
    destruct l eqn:P; subst l.
    + change (vs (set_domain a true)) with (vs a). destruct (s1 a + 1 =? vs a) eqn:Q.
      * assert (BF: bound a = false /\ t1 a <= vt a). { destruct (bound a); cbn [negb] in P; lia. } destruct BF as [BF HT].
        cbn [set_domain vt]. rewrite u32_id by lia. eexists _, 1. split; [reflexivity|]. split; [right; reflexivity|]. intros _.
        split. { constructor; [destruct R; constructor; assumption|exact E|]. constructor; cbn [set_vt set_domain t1 s1 vs vt domain bound]; try lia. }
        match goal with |- _ <= nav ?y <= _ /\ _ => change (nav y) with (nav a) end. split; [lia|]. split; [reflexivity|].
        intros Ob _. unfold offset_below in *. cbn [set_vt set_domain t1 s1 vs vt domain bound]. rewrite D1 in Ob. lia.
      * assert (Rd: rd_ok (set_domain a true)) by (destruct R; constructor; assumption).
        destruct (bit_live _ Rd E) as [(w & p & g & b & E1 & R1 & N1 & _)|(g & E1 & _)]; rewrite E1; cbn [bindo fst snd].
        -- change (nav (set_domain a true)) with (nav a) in N1. cbn [set_vt set_rd set_domain vt t1]. eexists _, 1. split; [reflexivity|]. split; [right; reflexivity|]. intros _.
           split. { constructor; [destruct R1; constructor; assumption|exact E|]. constructor; cbn [set_vt set_rd set_domain t1 s1 vs vt domain bound]; try lia; try discriminate; try apply u32_range. }
           match goal with |- _ <= nav ?y <= _ /\ _ => change (nav y) with (nav (set_rd (set_domain a true) w p g)) end. split; [lia|]. split; [reflexivity|].
           intros Ob _. unfold offset_below in *. cbn [set_vt set_rd set_domain t1 s1 vs vt domain bound]. rewrite D1 in Ob. cbn [andb orb] in P. rewrite orb_false_r in P.
           assert (Y: vt a < t1 a). { destruct (bound a); [|specialize (LE eq_refl); lia]. rewrite andb_true_r in D2. lia. }
           rewrite push_bit_small by lia. rewrite u32_id; destruct b; cbn [Z.b2z]; lia.
        -- eexists _, 0. split; [reflexivity|]. split; [left; reflexivity|]. discriminate.
    + eexists _, 0. split; [reflexivity|]. split; [left; reflexivity|]. intros _. apply orb_false_elim in P. destruct P as [P1 P2].
      split. { constructor; [destruct R; constructor; assumption|exact E|]. constructor; cbn [set_t1 set_s1 set_domain t1 s1 vs vt domain bound]; try lia. }
      match goal with |- _ <= nav ?y <= _ /\ _ => change (nav y) with (nav a) end. split; [lia|]. split; [reflexivity|].
      intros Ob _. unfold offset_below in *. cbn [set_t1 set_s1 set_domain t1 s1 vs vt domain bound]. rewrite D1 in Ob. destruct Ob as [O1 O2]. split; [exact O1|].
      destruct (bound a); [exact O2|]. cbn [negb] in P2. rewrite andb_true_r in P2. lia.
Qed.
