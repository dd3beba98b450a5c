From Coq Require Import ZArith List Bool Lia.
From Verif Require Import CBase CBaseProofs MemModel AecModel AecSpec AecProofsA AecProofsB AecProofsC AecProofsD AecProofsE AecProofsF AecProofsG CodSpec CodProofs.
Import ListNotations.
Open Scope Z_scope.

(** ** The interval and the string. *)
Lemma xval_split : forall X k d, 0 <= k -> 0 <= d -> k + d <= len X ->
  xval X k * 2 ^ d <= xval X (k + d) < (xval X k + 1) * 2 ^ d.
Proof.
  intros X k d Hk Hd HL. unfold len in HL.
  destruct (xval_next X k (firstn (Z.to_nat d) (skipn (Z.to_nat k) X)) (skipn (Z.to_nat d) (skipn (Z.to_nat k) X)) Hk) as [E _].
  { symmetry. apply firstn_skipn. }
  assert (L: Z.of_nat (length (firstn (Z.to_nat d) (skipn (Z.to_nat k) X))) = d) by (rewrite firstn_length, skipn_length; lia).
  pose proof (be_val_bound (firstn (Z.to_nat d) (skipn (Z.to_nat k) X))) as B. rewrite L in *. lia.
Qed.
Definition within (X : list bool) (lo rg k : Z) : Prop := k <= len X /\ lo <= xval X k < lo + rg.
Lemma within_out : forall X lo rg k lo' rg' d, 0 <= k -> 0 <= d -> lo * 2 ^ d <= lo' -> lo' + rg' <= (lo + rg) * 2 ^ d ->
  within X lo' rg' (k + d) -> within X lo rg k.
Proof.
  intros X lo rg k lo' rg' d Hk Hd H1 H2 [H3 H4]. pose proof (xval_split X k d Hk Hd H3) as B. assert (0 < 2 ^ d) by (apply Z.pow_pos_nonneg; lia).
  split; [lia|]. split.
  - assert (lo * 2 ^ d < (xval X k + 1) * 2 ^ d) by lia. assert (lo < xval X k + 1) by nia. lia.
  - assert (xval X k * 2 ^ d < (lo + rg) * 2 ^ d) by lia. nia.
Qed.
Lemma inside_within : forall s X, inside s X <-> within X (c_low s) (c_range s) (c_prec s).
Proof. intros. unfold inside, within, xval, len. tauto. Qed.

Lemma rel_within : forall X a v lo rg k run, rel X a v lo rg k run -> within X lo rg k /\ 0 <= k.
Proof.
  intros X a v lo rg k run (Hv & Hr & H).
  destruct H as [[D [A1 A2 A3 A4 A5 A6 A7 A0]]|[D (c & [A1 A2 A3 A4 A5 A6 A7 A8 A9 A10 A11] & S1)]].
  - destruct A5. split; [|lia]. split; lia.
  - destruct A6 as [A6 _]. split; [|exact A8].
    assert (G: 0 <= c - k). { destruct (bound a); [destruct (A11 eq_refl)|destruct (A10 eq_refl)]; lia. }
    pose proof (xval_split X k (c - k) A8 G ltac:(lia)) as B. replace (k + (c - k)) with c in B by lia.
    assert (0 < 2 ^ (c - k)) by (apply Z.pow_pos_nonneg; lia).
    set (w := 2 ^ (c - k)) in *. split; [lia|].
    assert (L: lo <= xval X k). { assert (lo * w < (xval X k + 1) * w) by (destruct (bound a); [destruct (A11 eq_refl)|destruct (A10 eq_refl)]; lia). nia. }
    split; [exact L|]. destruct (bound a) eqn:Bd.
    + destruct (A11 eq_refl) as [_ Y]. assert ((xval X k - lo) * w <= 255) by lia. nia.
    + destruct (A10 eq_refl) as [Y1 Y2]. destruct (Z.eq_dec c k) as [->|N].
      * unfold w in *. rewrite Z.sub_diag in *. change (2 ^ 0) with 1 in *. lia.
      * assert (2 <= w). { unfold w. replace (c - k) with (1 + (c - k - 1)) by lia. rewrite Z.pow_add_r by lia. change (2 ^ 1) with 2. assert (0 < 2 ^ (c - k - 1)) by (apply Z.pow_pos_nonneg; lia). lia. }
        assert ((xval X k - lo) * w <= 511) by lia. nia.
Qed.

(** ** The parts. *)
Record cwf (s : coder) : Prop := {
  cw_low : 0 <= c_low s; cw_range : 256 <= c_range s <= 511; cw_prec : 9 <= c_prec s; cw_top : c_low s + c_range s <= 2 ^ c_prec s;
  cw_run : 0 <= c_run s; cw_ctx : forall j, legal_ctx (c_ctx s j)
}.
Lemma legal_after_mps : forall c, legal_ctx c -> legal_ctx (after_mps c) /\ update_ctx_mps c = after_mps c.
Proof. intros c L. assert (E: update_ctx_mps c = after_mps c) by (apply update_mps_rule; destruct L as (A & B & C); auto; lia). split; [|exact E]. rewrite <- E. now apply legal_mps. Qed.
Lemma legal_after_lps : forall c, legal_ctx c -> legal_ctx (after_lps c) /\ update_ctx_lps c = after_lps c.
Proof. intros c L. assert (E: update_ctx_lps c = after_lps c) by (apply update_lps_rule; destruct L as (A & B & C); auto; lia). split; [|exact E]. rewrite <- E. now apply legal_lps. Qed.
Lemma legal_with : forall r s f, (forall j, legal_ctx (c_ctx s j)) -> (forall c, legal_ctx c -> legal_ctx (f c)) -> forall j, legal_ctx (with_ctx r s f j).
Proof. intros [k| |] s f H G j; cbn [with_ctx]; auto. destruct (j =? k); auto. Qed.

Lemma split_ok : forall rg p, 256 <= rg <= 511 -> 1 <= p <= 255 -> let q := split rg p in
  256 <= lower q <= 511 /\ 1 <= upper q <= 511 /\ (doubled q = 0 \/ doubled q = 1) /\ lower q + upper q = rg * 2 ^ doubled q.
Proof.
  intros rg p H1 H2. unfold split. destruct (p <=? rg - 256) eqn:E; cbn [lower upper doubled].
  - change (2 ^ 0) with 1. lia.
  - change (2 ^ 1) with 2. lia.
Qed.
Lemma legal_quarter : forall c, legal_ctx c -> 1 <= lg c / 4 <= 255 /\ Z.shiftr (lg c) 2 = lg c / 4.
Proof. intros c L. pose proof (legal_lg c L) as H. unfold lg_ok in H. rewrite Z.shiftr_div_pow2 in * by lia. change (2 ^ 2) with 4 in *. auto. Qed.
Lemma parts_ok : forall r s, cwf s -> let q := parts_of r s in
  256 <= lower q <= 511 /\ 1 <= upper q <= 511 /\ (doubled q = 0 \/ doubled q = 1) /\ lower q + upper q = c_range s * 2 ^ doubled q.
Proof.
  intros [k| |] s [A B C D E F]; cbn [parts_of].
  - apply split_ok; auto. apply (legal_quarter _ (F k)).
  - cbn [lower upper doubled]. change (2 ^ 1) with 2. lia.
  - apply split_ok; auto. lia.
Qed.
Lemma scale_range : forall u, 1 <= u <= 511 -> 0 <= 8 - Z.log2 u <= 8 /\ 256 <= u * 2 ^ (8 - Z.log2 u) <= 511.
Proof. intros u H. destruct (rlps_spec u H) as (n & _ & Hn & Hr). rewrite <- (log2_scale u n) by lia. lia. Qed.

Lemma lower_ok : forall r s, cwf s -> cwf (take_lower r s).
Proof.
  intros r s W. pose proof (parts_ok r s W) as Q. cbv zeta in Q. destruct Q as (Q1 & Q2 & Q3 & Q4). destruct W as [A B C D E F].
  unfold take_lower. cbv zeta. remember (parts_of r s) as q. constructor; cbn [c_low c_range c_prec c_run c_ctx]; try lia.
  - rewrite Z.pow_add_r by lia. assert (0 < 2 ^ doubled q) by (apply Z.pow_pos_nonneg; lia).
    assert ((c_low s + c_range s) * 2 ^ doubled q <= 2 ^ c_prec s * 2 ^ doubled q) by (apply Z.mul_le_mono_nonneg_r; lia). lia.
  - apply legal_with; auto. intros. now apply legal_after_mps.
Qed.
Lemma upper_ok : forall r s, cwf s -> cwf (take_upper r s).
Proof.
  intros r s W. pose proof (parts_ok r s W) as Q. cbv zeta in Q. destruct Q as (Q1 & Q2 & Q3 & Q4). destruct W as [A B C D E F].
  unfold take_upper. cbv zeta. remember (parts_of r s) as q. destruct (scale_range (upper q) Q2) as [N1 N2]. remember (8 - Z.log2 (upper q)) as n.
  assert (P1: 0 < 2 ^ doubled q) by (apply Z.pow_pos_nonneg; lia). assert (P2: 0 < 2 ^ n) by (apply Z.pow_pos_nonneg; lia).
  constructor; cbn [c_low c_range c_prec c_run c_ctx]; try lia.
  - rewrite !Z.pow_add_r by lia. rewrite <- Z.mul_add_distr_r. apply Z.mul_le_mono_nonneg_r; [lia|].
    assert ((c_low s + c_range s) * 2 ^ doubled q <= 2 ^ c_prec s * 2 ^ doubled q) by (apply Z.mul_le_mono_nonneg_r; lia). lia.
  - apply legal_with; auto. intros. now apply legal_after_lps.
Qed.
Lemma code1_ok : forall r b s, cwf s -> cwf (code1 r b s).
Proof. intros r b s W. unfold code1. destruct (b =? likely r s); [now apply lower_ok|now apply upper_ok]. Qed.
Lemma cwf0 : cwf coder0.
Proof. constructor; cbn; try lia. intros _. exact legal_init. Qed.

Lemma lower_within : forall r s X, cwf s -> inside (take_lower r s) X ->
  within X (c_low s * 2 ^ doubled (parts_of r s)) (lower (parts_of r s)) (c_prec s + doubled (parts_of r s)).
Proof. intros r s X W H. apply (proj1 (inside_within _ _)) in H. exact H. Qed.
Lemma upper_within : forall r s X, cwf s -> inside (take_upper r s) X ->
  within X (c_low s * 2 ^ doubled (parts_of r s) + lower (parts_of r s)) (upper (parts_of r s)) (c_prec s + doubled (parts_of r s)).
Proof.
  intros r s X W H. apply (proj1 (inside_within _ _)) in H. pose proof (parts_ok r s W) as Q. cbv zeta in Q. destruct Q as (Q1 & Q2 & Q3 & Q4).
  unfold take_upper in H. cbv zeta in H. remember (parts_of r s) as q. destruct (scale_range (upper q) Q2) as [N1 N2]. remember (8 - Z.log2 (upper q)) as n.
  cbn [c_low c_range c_prec] in H. destruct W. refine (within_out _ _ _ _ _ _ n _ _ _ _ H); lia.
Qed.
Lemma code1_inside : forall r b s X, cwf s -> inside (code1 r b s) X -> inside s X.
Proof.
  intros r b s X W H. apply inside_within. pose proof (parts_ok r s W) as Q. cbv zeta in Q. destruct Q as (Q1 & Q2 & Q3 & Q4).
  unfold code1 in H. destruct (b =? likely r s); [apply lower_within in H|apply upper_within in H]; auto; remember (parts_of r s) as q; destruct W;
    (refine (within_out _ _ _ _ _ _ (doubled q) _ _ _ _ H); lia).
Qed.
Lemma code1_prec : forall r b s, cwf s -> c_prec s <= c_prec (code1 r b s).
Proof.
  intros r b s W. pose proof (parts_ok r s W) as Q. cbv zeta in Q. destruct Q as (Q1 & Q2 & Q3 & Q4). destruct (scale_range _ Q2) as [N1 _].
  unfold code1, take_lower, take_upper. cbv zeta. destruct (b =? likely r s); cbn [c_prec]; lia.
Qed.
Lemma likely01 : forall r s, cwf s -> likely r s = 0 \/ likely r s = 1.
Proof. intros [k| |] s W; cbn [likely]; auto. destruct W as [_ _ _ _ _ F]. destruct (F k) as (_ & H & _). exact H. Qed.
Lemma code1_disjoint : forall r b b' s X, cwf s -> (b = 0 \/ b = 1) -> (b' = 0 \/ b' = 1) -> inside (code1 r b s) X -> inside (code1 r b' s) X -> b = b'.
Proof.
  intros r b b' s X W Hb Hb' H H'. unfold code1 in *. pose proof (likely01 r s W) as L.
  destruct (b =? likely r s) eqn:E; destruct (b' =? likely r s) eqn:E'; try lia; exfalso.
  - apply lower_within in H; auto. apply upper_within in H'; auto. destruct H as [_ H], H' as [_ H']. lia.
  - apply upper_within in H; auto. apply lower_within in H'; auto. destruct H as [_ H], H' as [_ H']. lia.
Qed.

Lemma code_inv : forall r rs b bs s s', code (r :: rs) (b :: bs) s = Some s' -> (b = 0 \/ b = 1) /\ code rs bs (code1 r b s) = Some s'.
Proof. intros r rs b bs s s' H. cbn [code] in H. destruct ((b =? 0) || (b =? 1)) eqn:E; [|discriminate]. split; [lia|exact H]. Qed.
Lemma code_facts : forall rs bs s s', cwf s -> code rs bs s = Some s' -> cwf s' /\ c_prec s <= c_prec s' /\ (forall X, inside s' X -> inside s X) /\ length bs = length rs.
Proof.
  induction rs as [|r rs IH]; intros [|b bs] s s' W H; try discriminate.
  - cbn [code] in H. injection H as <-. split; [exact W|]. split; [lia|]. split; auto.
  - apply code_inv in H. destruct H as [_ H]. destruct (IH bs (code1 r b s) s' (code1_ok r b s W) H) as (A & B & C & D). split; [exact A|].
    pose proof (code1_prec r b s W). split; [lia|]. split; [|cbn; lia]. intros X HX. apply (code1_inside r b s X W). apply C, HX.
Qed.
Lemma code_disjoint : forall rs bs bs' s s1 s2 X, cwf s -> code rs bs s = Some s1 -> code rs bs' s = Some s2 -> inside s1 X -> inside s2 X -> bs = bs'.
Proof.
  induction rs as [|r rs IH]; intros [|b bs] [|b' bs'] s s1 s2 X W H1 H2 I1 I2; try discriminate; [reflexivity|].
  apply code_inv in H1, H2. destruct H1 as [B1 H1], H2 as [B2 H2].
  destruct (code_facts _ _ _ _ (code1_ok r b s W) H1) as (_ & _ & N1 & _). destruct (code_facts _ _ _ _ (code1_ok r b' s W) H2) as (_ & _ & N2 & _).
  assert (b = b') by (eapply code1_disjoint; eauto). subst b'. f_equal. eapply IH; [apply (code1_ok r b s W)| | | |]; eauto.
Qed.

(** ** The decoder. *)
Record related (X : list bool) (a : aec) (cs : Z -> ctx) (s : coder) : Prop := {
  rd_rel : rel X a (vs a) (c_low s) (c_range s) (c_prec s) (c_run s); rd_ctx : forall j, cs j = c_ctx s j; rd_wf : cwf s
}.
Lemma rel_vs : forall X a v lo rg k run, rel X a v lo rg k run -> rel X (set_vs a v) (vs (set_vs a v)) lo rg k run.
Proof.
  intros X a v lo rg k run (A & B & H). split; [exact A|]. split; [exact B|]. destruct H as [[D [A1 A2 A3 A4 A5 A6 A7 A0]]|[D (c & [A1 A2 A3 A4 A5 A6 A7 A8 A9 A10 A11] & S1)]]; [left|right]; (split; [exact D|]).
  - constructor; auto. now apply rd_vs.
  - exists c. split; [|exact S1]. constructor; auto. now apply rd_vs.
Qed.
Lemma rel_inv : forall X a lo rg k run, rel X a (vs a) lo rg k run -> rd_ok a /\ err a = false /\ vs a <= 254.
Proof. intros X a lo rg k run (A & B & H). destruct H as [[D [A1 A2 A3 A4 A5 A6 A7 A0]]|[D (c & [A1 A2 A3 A4 A5 A6 A7 A8 A9 A10 A11] & S1)]]; repeat split; auto; try apply A1; lia. Qed.

Lemma decode_at : forall X r a cs s, related X a cs s -> (r = Bypass -> c_run s < 254) ->
  (exists a1 cs1 b, decode r a cs = Done (a1, cs1, b) /\ err a1 = true /\ len X < c_prec s + 263) \/
  (exists a1 cs1 b, decode r a cs = Done (a1, cs1, b) /\ (b = 0 \/ b = 1) /\ related X a1 cs1 (code1 r b s)).
Proof.
  intros X r a cs s [R C W] G. destruct r as [k| |]; cbn [decode].
  - pose proof (cw_ctx s W k) as L. destruct (legal_quarter _ L) as [L1 L2]. rewrite decode_symbol_body by (apply (rel_inv _ _ _ _ _ _ R)). rewrite C.
    assert (P: split (c_range s) (Z.shiftr (lg (c_ctx s k)) 2) = parts_of (Sym k) s) by (cbn [parts_of]; rewrite L2; reflexivity).
    pose proof (body_at X a (c_ctx s k) (vs a) _ _ _ _ R (legal_lg _ L)) as B. cbv zeta in B. rewrite P in B.
    destruct B as [(a1 & c1 & v1 & b & E & E1 & E2)|[(a1 & v1 & E & E1)|(a1 & v1 & E & E1)]]; rewrite E; cbn [bindo].
    + left. eexists _, _, _. split; [reflexivity|]. split; [exact E1|]. exact E2.
    + right. eexists _, _, _. split; [reflexivity|]. split; [apply (likely01 (Sym k) s W)|].
      pose proof (code1_ok (Sym k) (mps (c_ctx s k)) s W) as W1. unfold code1 in *. cbn [likely] in *. rewrite Z.eqb_refl in *.
      split; [exact (rel_vs _ _ _ _ _ _ _ E1)| |exact W1]. intros j. cbn [take_lower c_ctx with_ctx]. rewrite C. destruct (j =? k); [|reflexivity]. apply legal_after_mps. exact L.
    + right. eexists _, _, _. split; [reflexivity|]. pose proof (likely01 (Sym k) s W) as LK. cbn [likely] in LK. split; [lia|].
      pose proof (code1_ok (Sym k) (1 - mps (c_ctx s k)) s W) as W1. unfold code1 in *. cbn [likely] in *. replace (1 - mps (c_ctx s k) =? mps (c_ctx s k)) with false in * by lia.
      split; [exact (rel_vs _ _ _ _ _ _ _ E1)| |exact W1]. intros j. cbn [take_upper c_ctx with_ctx]. rewrite C. destruct (j =? k); [|reflexivity]. apply legal_after_lps. exact L.
  - specialize (G eq_refl). destruct (bypass_at X a _ _ _ _ R G) as [(a1 & E & E1 & E2)|[(a1 & E & E1)|(a1 & E & E1)]]; rewrite E; cbn [bindo fst snd].
    + left. eexists _, _, _. split; [reflexivity|]. split; [exact E1|]. lia.
    + right. eexists _, _, _. split; [reflexivity|]. split; [auto|]. pose proof (code1_ok Bypass 0 s W) as W1. change (code1 Bypass 0 s) with (take_lower Bypass s) in *.
      split; [|intros j; cbn; apply C|exact W1]. unfold take_lower. cbv zeta. cbn [parts_of lower upper doubled c_low c_range c_prec c_run]. exact E1.
    + right. eexists _, _, _. split; [reflexivity|]. split; [auto|]. pose proof (code1_ok Bypass 1 s W) as W1. change (code1 Bypass 1 s) with (take_upper Bypass s) in *.
      split; [|intros j; cbn; apply C|exact W1]. unfold take_upper. cbv zeta. cbn [parts_of lower upper doubled c_low c_range c_prec c_run].
      rewrite <- (log2_scale (c_range s) 0) by (destruct W; lia). rewrite Z.pow_0_r, !Z.mul_1_r, Z.add_0_r. exact E1.
  - pose proof (body_at X a ctx_final (vs a) _ _ _ _ R) as B. cbv zeta in B. change (Z.shiftr (lg ctx_final) 2) with 1 in B.
    assert (LF: lg_ok ctx_final) by (unfold lg_ok, ctx_final; cbn; lia). specialize (B LF). change (split (c_range s) 1) with (parts_of Final s) in B. clear LF.
    assert (HI: forall a1 c1 v b e, body a ctx_final (vs a) = Done (a1, c1, v, b, e) -> exists a2, decode_final a = Done (if e then a2 else set_vs a1 v, if e then 0 else b) /\ (e = true -> err a2 = true)).
    { intros a1 c1 v b e E. destruct (rel_inv _ _ _ _ _ _ R) as (I1 & I2 & I3).
      assert (I: inv a).
      { constructor; auto. destruct R as (Hv & Hr & R). destruct R as [[D [A1 A2 A3 A4 A5 A6 A7 A0]]|[D (c & [A1 A2 A3 A4 A5 A6 A7 A8 A9 A10 A11] & S1)]]; constructor; auto; try lia; try congruence. }
      destruct (final_body a I) as [(b1 & d1 & w & y & X1 & X2)|(b1 & d1 & w & y & z & X1 & X2 & X3)]; rewrite X1 in E; apply Done_inj in E; do 4 (apply pair_equal_spec in E; destruct E as [E ?]); subst.
      - exists a. split; [exact X2|discriminate].
      - exists z. split; [exact X2|auto]. }
    destruct B as [(a1 & c1 & v1 & b & E & E1 & E2)|[(a1 & v1 & E & E1)|(a1 & v1 & E & E1)]]; destruct (HI _ _ _ _ _ E) as (a2 & -> & H2); cbn [bindo fst snd].
    + left. eexists _, _, _. split; [reflexivity|]. split; [exact (H2 eq_refl)|]. exact E2.
    + right. eexists _, _, _. split; [reflexivity|]. split; [auto|]. pose proof (code1_ok Final 0 s W) as W1. change (code1 Final 0 s) with (take_lower Final s) in *.
      split; [exact (rel_vs _ _ _ _ _ _ _ E1)|intros j; cbn; apply C|exact W1].
    + right. eexists _, _, _. split; [reflexivity|]. split; [auto|]. pose proof (code1_ok Final 1 s W) as W1. change (code1 Final 1 s) with (take_upper Final s) in *.
      split; [exact (rel_vs _ _ _ _ _ _ _ E1)|intros j; cbn; apply C|exact W1].
Qed.

Lemma decodes_at : forall X rs a cs s a1 cs1 bs, related X a cs s -> decodes rs a cs = Done (a1, cs1, bs) -> err a1 = false -> gentle rs bs s ->
  exists s', code rs bs s = Some s' /\ related X a1 cs1 s'.
Proof.
  intros X. induction rs as [|r rs IH]; intros a cs s a1 cs1 bs R E Er G; cbn [decodes] in E.
  - apply Done_inj in E. do 2 (apply pair_equal_spec in E; destruct E as [E ?]). subst. exists s. split; [reflexivity|exact R].
  - destruct bs as [|b bs].
    { exfalso. destruct (decode r a cs) as [[[a2 cs2] b2]| | |]; try discriminate. cbn [bindo] in E. destruct (err a2); [discriminate|].
      destruct (decodes rs a2 cs2) as [[[a3 cs3] b3]| | |]; discriminate. }
    destruct G as [G1 G2]. destruct (decode_at X r a cs s R G1) as [(a2 & cs2 & b2 & E2 & E3 & _)|(a2 & cs2 & b2 & E2 & B2 & R2)]; rewrite E2 in E; cbn [bindo] in E.
    + rewrite E3 in E. apply Done_inj in E. do 2 (apply pair_equal_spec in E; destruct E as [E ?]). congruence.
    + rewrite (proj1 (proj2 (rel_inv _ _ _ _ _ _ (rd_rel _ _ _ _ R2)))) in E. destruct (decodes rs a2 cs2) as [[[a3 cs3] b3]| | |] eqn:D; try discriminate. cbn [bindo] in E.
      apply Done_inj in E. apply pair_equal_spec in E. destruct E as [E Eb]. apply pair_equal_spec in E. destruct E as [-> ->]. apply cons_inj in Eb. destruct Eb as [-> ->].
      destruct (IH a2 cs2 (code1 r b s) a1 cs1 bs R2 D Er G2) as (s' & C & R'). exists s'. split; [|exact R']. cbn [code]. replace ((b =? 0) || (b =? 1)) with true by lia. exact C.
Qed.
Lemma decodes_back : forall X rs a cs s bs s', related X a cs s -> code rs bs s = Some s' -> gentle rs bs s -> inside s' X -> c_prec s' + 263 <= len X ->
  exists a1 cs1, decodes rs a cs = Done (a1, cs1, bs) /\ err a1 = false /\ related X a1 cs1 s'.
Proof.
  intros X. induction rs as [|r rs IH]; intros a cs s bs s' R C G I L; cbn [decodes].
  - destruct bs; [|discriminate]. cbn [code] in C. injection C as <-. exists a, cs. split; [reflexivity|]. split; [apply (rel_inv _ _ _ _ _ _ (rd_rel _ _ _ _ R))|exact R].
  - destruct bs as [|b bs]; [discriminate|]. destruct G as [G1 G2]. apply code_inv in C. destruct C as [B C]. pose proof (rd_wf _ _ _ _ R) as W.
    destruct (code_facts _ _ _ _ (code1_ok r b s W) C) as (_ & P & N & _). pose proof (code1_prec r b s W) as P1.
    destruct (decode_at X r a cs s R G1) as [(a2 & cs2 & b2 & E2 & E3 & E4)|(a2 & cs2 & b2 & E2 & B2 & R2)]; [lia|].
    assert (b2 = b).
    { apply (code1_disjoint r b2 b s X W B2 B); [|apply N, I]. apply (proj2 (inside_within _ _)). exact (proj1 (rel_within _ _ _ _ _ _ _ (rd_rel _ _ _ _ R2))). }
    subst b2. rewrite E2. cbn [bindo]. rewrite (proj1 (proj2 (rel_inv _ _ _ _ _ _ (rd_rel _ _ _ _ R2)))).
    destruct (IH a2 cs2 (code1 r b s) bs s' R2 C G2 I L) as (a1 & cs1 & D & Er & R1). rewrite D. cbn [bindo]. exists a1, cs1. auto.
Qed.

Lemma start_related : forall data pos n ob w, bytes_ok data -> 0 <= pos -> pos + 2 <= n -> n <= Z.of_nat (length data) ->
  inside coder0 (bits_of (slice data pos n)) -> exists a, start_decoding data pos n ob w = Done a /\ related (bits_of (slice data pos n)) a (fun _ => ctx_init) coder0.
Proof.
  intros data pos n ob w HB HP HN HL HI. destruct (start_ok data pos n ob w HB ltac:(lia) HL ltac:(lia)) as (a & E & R & Er & D & S1 & T & VS & VT & A).
  exists a. split; [exact E|]. destruct HI as [I1 I2]. cbn [coder0 c_prec c_low c_range] in I1, I2. change (Z.to_nat 9) with 9%nat in I2.
  split; [|reflexivity|exact cwf0]. cbn [coder0 c_prec c_low c_range c_run]. split; [lia|]. split; [lia|]. left. split; [exact D|].
  constructor; auto; try lia.
  - split; [unfold len; lia|exact A].
  - rewrite VT. unfold xval. change (Z.to_nat 9) with 9%nat. lia.
Qed.

Lemma nine_ones : forall data pos n, 0 <= pos -> pos + 2 <= n -> n <= Z.of_nat (length data) ->
  firstn 9 (bits_of (slice data pos n)) <> repeat true 9 -> inside coder0 (bits_of (slice data pos n)).
Proof.
  intros data pos n HP HN HL H.
  assert (LS: length (bits_of (slice data pos n)) = (8 * Z.to_nat (n - pos))%nat) by (rewrite bits_of_length; unfold slice; rewrite firstn_length, skipn_length; lia).
  unfold inside. cbn [coder0 c_prec c_low c_range]. change (Z.to_nat 9) with 9%nat. rewrite LS. split; [lia|].
  remember (firstn 9 (bits_of (slice data pos n))) as l. assert (L9: length l = 9%nat) by (subst l; rewrite firstn_length, LS; lia).
  pose proof (be_val_bound l) as B. rewrite L9 in B. change (2 ^ Z.of_nat 9) with 512 in B.
  destruct (Z.eq_dec (be_val l) 511) as [Q|Q]; [exfalso|lia]. apply H. rewrite <- (low_bits_be_val l), L9, Q. reflexivity.
Qed.

Lemma decoded : forall data pos n ob w a0 rs a cs bs, bytes_ok data -> 0 <= pos -> pos + 2 <= n -> n <= Z.of_nat (length data) ->
  firstn 9 (bits_of (slice data pos n)) <> repeat true 9 ->
  start_decoding data pos n ob w = Done a0 -> decodes rs a0 (fun _ => ctx_init) = Done (a, cs, bs) -> err a = false -> gentle rs bs coder0 ->
  exists s, code rs bs coder0 = Some s /\ inside s (bits_of (slice data pos n)) /\ (forall j, cs j = c_ctx s j).
Proof.
  intros data pos n ob w a0 rs a cs bs HB HP HN HL H9 E0 E Er G.
  destruct (start_related data pos n ob w HB HP HN HL (nine_ones data pos n HP HN HL H9)) as (a' & E0' & R0). rewrite E0 in E0'. apply Done_inj in E0'. subst a'.
  destruct (decodes_at _ rs a0 _ coder0 a cs bs R0 E Er G) as (s & C & R). exists s. split; [exact C|]. split; [|apply R].
  apply (proj2 (inside_within _ _)). exact (proj1 (rel_within _ _ _ _ _ _ _ (rd_rel _ _ _ _ R))).
Qed.
Lemma decoded_back : forall data pos n ob w rs bs s, bytes_ok data -> 0 <= pos <= n -> n <= Z.of_nat (length data) ->
  code rs bs coder0 = Some s -> gentle rs bs coder0 -> inside s (bits_of (slice data pos n)) -> c_prec s + 263 <= 8 * (n - pos) ->
  exists a0 a cs, start_decoding data pos n ob w = Done a0 /\ decodes rs a0 (fun _ => ctx_init) = Done (a, cs, bs) /\ err a = false /\ (forall j, cs j = c_ctx s j).
Proof.
  intros data pos n ob w rs bs s HB HP HL C G I L.
  assert (LS: length (bits_of (slice data pos n)) = (8 * Z.to_nat (n - pos))%nat) by (rewrite bits_of_length; unfold slice; rewrite firstn_length, skipn_length; lia).
  destruct (code_facts _ _ _ _ cwf0 C) as (W & P & N & _). cbn [coder0 c_prec] in P.
  destruct (start_related data pos n ob w HB ltac:(lia) ltac:(lia) HL (N _ I)) as (a0 & E0 & R0).
  destruct (decodes_back _ rs a0 _ coder0 bs s R0 C G I) as (a & cs & E & Er & R); [unfold len; rewrite LS; lia|].
  exists a0, a, cs. split; [exact E0|]. split; [exact E|]. split; [exact Er|]. apply R.
Qed.

Lemma code_some : forall rs bs s, length bs = length rs -> Forall (fun b => b = 0 \/ b = 1) bs -> exists s', code rs bs s = Some s'.
Proof.
  induction rs as [|r rs IH]; intros [|b bs] s L F; try discriminate; [exists s; reflexivity|]. inversion F; subst. cbn [code].
  replace ((b =? 0) || (b =? 1)) with true by lia. apply IH; auto.
Qed.
Lemma slice_all : forall l, slice l 0 (Z.of_nat (length l)) = l.
Proof. intros. unfold slice. cbn [Z.to_nat skipn]. rewrite Z.sub_0_r, Nat2Z.id. apply firstn_all. Qed.
Lemma encodable : forall rs bs, length bs = length rs -> Forall (fun b => b = 0 \/ b = 1) bs -> gentle rs bs coder0 ->
  exists data, bytes_ok data /\ 2 <= Z.of_nat (length data) /\ forall ob w, exists a0 a cs, start_decoding data 0 (Z.of_nat (length data)) ob w = Done a0 /\
    decodes rs a0 (fun _ => ctx_init) = Done (a, cs, bs) /\ err a = false.
Proof.
  intros rs bs HL HF G. destruct (code_some rs bs coder0 HL HF) as (s & C). destruct (code_facts _ _ _ _ cwf0 C) as (W & _).
  set (p := Z.to_nat (c_prec s)). set (m := (8 * ((p + 263) / 8 + 1))%nat).
  assert (M: (p + 263 <= m)%nat). { unfold m. pose proof (Nat.div_mod (p + 263) 8 ltac:(lia)). pose proof (Nat.mod_upper_bound (p + 263) 8 ltac:(lia)). lia. }
  set (X := low_bits (c_low s) p ++ repeat false (m - p)). assert (LX: length X = m) by (unfold X; rewrite app_length, low_bits_length, repeat_length; lia).
  assert (BX: bits_of (bytes_of X) = X).
  { rewrite bits_of_bytes_of, LX. assert (Q: (m / 8 = (p + 263) / 8 + 1)%nat) by (unfold m; rewrite Nat.mul_comm; apply Nat.div_mul; lia).
    rewrite Q. fold m. rewrite <- LX. apply firstn_all. }
  assert (LB: (8 * length (bytes_of X) = m)%nat) by (rewrite <- bits_of_length, BX; exact LX).
  exists (bytes_of X). split; [apply bytes_of_ok|]. split; [lia|]. intros ob w.
  assert (I: inside s X).
  { split; [lia|]. fold p. unfold X. rewrite firstn_app, low_bits_length, Nat.sub_diag. cbn [firstn]. rewrite app_nil_r.
    rewrite firstn_all2 by (rewrite low_bits_length; lia). rewrite be_val_low_bits. replace (Z.of_nat p) with (c_prec s) by (destruct W; lia).
    destruct W. rewrite Z.mod_small by lia. lia. }
  destruct (decoded_back (bytes_of X) 0 (Z.of_nat (length (bytes_of X))) ob w rs bs s) as (a0 & a & cs & E0 & E & Er & _); auto; try lia.
  - apply bytes_of_ok.
  - rewrite slice_all, BX. exact I.
  - exists a0, a, cs. auto.
Qed.
