From Coq Require Import ZArith List Bool Lia.
From Verif Require Import CBase CBaseProofs MemModel AecModel AecSpec AecProofsA AecProofsB AecProofsC AecProofsD AecProofsE AecProofsF AecProofsG CodSpec.
Import ListNotations.
Open Scope Z_scope.

(** ** The position of the reader in the string of bits. *)
Definition xval (X : list bool) (c : Z) : Z := be_val (firstn (Z.to_nat c) X).
Definition len (X : list bool) : Z := Z.of_nat (length X).
Definition pos_in (X : list bool) (a : aec) (c : Z) : Prop := 0 <= c <= len X /\ avail a = skipn (Z.to_nat c) X.

Lemma xval_next : forall X c l t, 0 <= c -> skipn (Z.to_nat c) X = l ++ t ->
  xval X (c + Z.of_nat (length l)) = xval X c * 2 ^ Z.of_nat (length l) + be_val l /\ skipn (Z.to_nat (c + Z.of_nat (length l))) X = t.
Proof.
  intros X c l t Hc H. unfold xval. replace (Z.to_nat (c + Z.of_nat (length l))) with (length l + Z.to_nat c)%nat by lia.
  rewrite <- skipn_skipn, H. rewrite skipn_app, skipn_all, Nat.sub_diag. split; [|reflexivity].
  rewrite Nat.add_comm. rewrite <- be_val_app. f_equal. rewrite <- (firstn_skipn (Z.to_nat c) X) at 1. rewrite H.
  destruct (le_lt_dec (Z.to_nat c) (length X)) as [G|G].
  - rewrite firstn_app, firstn_length. rewrite firstn_all2 by (rewrite firstn_length; lia). f_equal.
    replace (Z.to_nat c + length l - Nat.min (Z.to_nat c) (length X))%nat with (length l) by lia. rewrite firstn_app, Nat.sub_diag, firstn_all. apply app_nil_r.
  - rewrite skipn_all2 in H by lia. symmetry in H. apply app_eq_nil in H. destruct H as [-> ->]. rewrite !app_nil_r. cbn [length]. rewrite Nat.add_0_r.
    apply firstn_all2. rewrite firstn_length. lia.
Qed.

Lemma bit_at : forall X a c, rd_ok a -> err a = false -> pos_in X a c ->
  (exists w p g b, get_next_bit a = Done (set_vt (set_rd a w p g) (push_bit (vt a) b), false) /\ rd_ok (set_rd a w p g) /\
     pos_in X (set_rd a w p g) (c + 1) /\ xval X (c + 1) = 2 * xval X c + Z.b2z b) \/
  (exists g, get_next_bit a = Done (set_err (set_rd a (byte_buf a) (byte_pos a) g) true, true) /\ c = len X).
Proof.
  intros X a c R E [Hc A]. destruct (skipn (Z.to_nat c) X) as [|b t] eqn:K.
  - right. destruct (avail_nil a R A) as [G P]. rewrite get_next_bit_none by lia. exists (btg a - 1). split; [reflexivity|].
    apply (f_equal (@length bool)) in K. rewrite skipn_length in K. cbn [length] in K. unfold len in *. lia.
  - left. destruct (get_next_bit_some a b t R A) as (w & p & g & E1 & R1 & A1). exists w, p, g, b. split; [exact E1|]. split; [exact R1|].
    destruct (xval_next X c [b] t) as [X1 X2]; [lia|rewrite K; reflexivity|]. cbn [length] in X1, X2. change (Z.of_nat 1) with 1 in *.
    assert (L: (0 < length (skipn (Z.to_nat c) X))%nat) by (rewrite K; cbn; lia). rewrite skipn_length in L. unfold len in *.
    split; [split; [unfold len; lia|congruence]|]. rewrite X1. unfold be_val. cbn [fold_left]. change (2 ^ 1) with 2. destruct b; cbn [Z.b2z]; lia.
Qed.

Lemma nbits_at : forall X a c n, rd_ok a -> err a = false -> pos_in X a c -> 0 < n <= 9 ->
  (exists w p g l, get_next_n_bit a n = Done (set_vt (set_rd a w p g) (pushes (vt a) l), false) /\ Z.of_nat (length l) = n /\ rd_ok (set_rd a w p g) /\
     pos_in X (set_rd a w p g) (c + n) /\ xval X (c + n) = xval X c * 2 ^ n + be_val l) \/
  (exists a', get_next_n_bit a n = Done (a', true) /\ err a' = true /\ len X < c + n).
Proof.
  intros X a c n R E [Hc A] Hn. assert (LA: Z.of_nat (length (avail a)) = len X - c) by (rewrite A, skipn_length; unfold len in *; lia).
  destruct (le_lt_dec (Z.to_nat n) (length (avail a))) as [G|G].
  - left. destruct (n_bit_ok a n R ltac:(lia) E G) as (w & p & g & E1 & R1 & A1). exists w, p, g, (firstn (Z.to_nat n) (avail a)).
    assert (LL: Z.of_nat (length (firstn (Z.to_nat n) (avail a))) = n) by (rewrite firstn_length; lia).
    split; [exact E1|]. split; [exact LL|]. split; [exact R1|].
    destruct (xval_next X c (firstn (Z.to_nat n) (avail a)) (skipn (Z.to_nat n) (avail a))) as [X1 X2]; [lia|rewrite firstn_skipn; auto|]. rewrite LL in *.
    split; [split; [lia|congruence]|exact X1].
  - right. destruct (n_bit_short a n R ltac:(lia) E G) as (a' & E1 & S1 & R1 & _). exists a'. split; [exact E1|]. split; [exact R1|]. lia.
Qed.

(** The normalising loop: [y] is what the offset is measured from, at the scale of [c] bits. *)
Lemma norm_loop_at : forall X f a v c, rd_ok a -> err a = false -> pos_in X a c -> 0 <= v <= 254 -> 254 - v <= Z.of_nat f -> 0 <= vt a < 512 ->
  (exists a1 v1, norm_loop f a v = Done (a1, v1, true) /\ err a1 = true /\ len X < c + (254 - v)) \/
  (exists w p g x v1, norm_loop f a v = Done (set_vt (set_rd a w p g) x, v1, false) /\ rd_ok (set_rd a w p g) /\ pos_in X (set_rd a w p g) (c + (v1 - v)) /\
     v <= v1 <= 254 /\ 0 <= x < 512 /\ (x < 256 -> v1 = 254) /\ (v1 = v -> x = vt a) /\ (v < v1 -> vt a < 256) /\
     xval X (c + (v1 - v)) - x = (xval X c - vt a) * 2 ^ (v1 - v)).
Proof.
  intros X. induction f as [|f IH]; intros a v c R E P Hv Hf Hx; cbn [norm_loop]; unfold QUARTER, BOUND in *.
  - replace ((vt a <? 256) && (v <? 254)) with false by lia. right. exists (byte_buf a), (byte_pos a), (btg a), (vt a), v.
    split; [destruct a; reflexivity|]. split; [destruct R; constructor; assumption|]. rewrite Z.sub_diag, Z.add_0_r. split; [exact P|].
    change (2 ^ 0) with 1. repeat split; lia.
  - destruct ((vt a <? 256) && (v <? 254)) eqn:C.
    + destruct (bit_at X a c R E P) as [(w & p & g & b & E1 & R1 & P1 & N1)|(g & E1 & N1)].
      * rewrite E1. cbn [bindo fst snd]. set (a2 := set_vt (set_rd a w p g) (push_bit (vt a) b)).
        assert (R2: rd_ok a2) by (destruct R1; constructor; assumption).
        assert (V2: vt a2 = 2 * vt a + Z.b2z b) by (unfold a2; cbn [set_vt vt]; apply push_bit_small; lia).
        assert (B2: 0 <= vt a2 < 512) by (rewrite V2; destruct b; cbn [Z.b2z]; lia).
        destruct (IH a2 (v + 1) (c + 1) R2 E P1) as [(a1 & v1 & Q1 & Q2 & Q3)|(w3 & p3 & g3 & x & v1 & Q1 & Q2 & Q3 & Q4 & Q5 & Q6 & Q7 & Q8 & Q9)]; try lia.
        -- left. exists a1, v1. split; [exact Q1|]. split; [exact Q2|]. lia.
        -- right. exists w3, p3, g3, x, v1. split; [exact Q1|]. split; [destruct Q2; constructor; assumption|].
           replace (c + (v1 - v)) with (c + 1 + (v1 - (v + 1))) by lia. split; [exact Q3|]. split; [lia|]. split; [lia|]. split; [exact Q6|]. split; [lia|]. split; [lia|].
           rewrite Q9, V2, N1. replace (v1 - v) with ((v1 - (v + 1)) + 1) by lia. rewrite Z.pow_add_r by lia. change (2 ^ 1) with 2. ring.
      * rewrite E1. cbn [bindo fst snd]. left. eexists. exists v. split; [reflexivity|]. split; [reflexivity|]. unfold len in *. lia.
    + right. exists (byte_buf a), (byte_pos a), (btg a), (vt a), v.
      split; [destruct a; reflexivity|]. split; [destruct R; constructor; assumption|]. rewrite Z.sub_diag, Z.add_0_r. split; [exact P|].
      change (2 ^ 0) with 1. repeat split; lia.
Qed.

(** ** How the registers represent the interval. *)
Record rel_r (X : list bool) (a : aec) (lo rg k : Z) : Prop := {
  rr_rd : rd_ok a; rr_err : err a = false; rr_t1 : 0 <= t1 a <= 255; rr_rg : rg = 256 + t1 a;
  rr_pos : pos_in X a k; rr_vt : vt a = xval X k - lo; rr_in : 0 <= vt a < rg; rr_s1 : 0 <= s1 a <= 254
}.
Record rel_lg (X : list bool) (a : aec) (v lo rg k c : Z) : Prop := {
  rl_rd : rd_ok a; rl_err : err a = false; rl_t1 : 0 <= t1 a <= 255; rl_rg : rg = 256 + t1 a; rl_s1 : 0 <= s1 a <= 254;
  rl_pos : pos_in X a c; rl_k : k = c - v + s1 a; rl_k0 : 0 <= k; rl_vt : 0 <= vt a <= 255;
  rl_f : bound a = false -> (s1 a < v \/ (s1 a = v /\ vt a < t1 a)) /\ xval X c - lo * 2 ^ (c - k) = 256 + vt a;
  rl_b : bound a = true -> v = 254 /\ xval X c - lo * 2 ^ (c - k) = vt a
}.
Definition rel (X : list bool) (a : aec) (v lo rg k run : Z) : Prop :=
  0 <= v <= 254 /\ 0 <= run /\
  ((domain a = true /\ rel_r X a lo rg k) \/ (domain a = false /\ exists c, rel_lg X a v lo rg k c /\ s1 a <= run)).

Lemma norm1_at : forall X a v lo rg k run, rel X a v lo rg k run ->
  (exists a1 v1, norm1 a v = Done (a1, v1, true) /\ err a1 = true /\ len X < k + 254) \/
  (exists a1 v1 c, norm1 a v = Done (a1, v1, false) /\ 0 <= v1 <= 254 /\ rel_lg X a1 v1 lo rg k c /\ s1 a1 <= run /\ (bound a1 = true -> s1 a1 < 254)).
Proof.
  intros X a v lo rg k run (Hv & Hr & H). unfold norm1.
  assert (D: in_r_domain a = true -> rd_ok a /\ err a = false /\ 0 <= t1 a <= 255 /\ rg = 256 + t1 a /\ pos_in X a k /\ vt a = xval X k - lo /\ 0 <= vt a < rg).
  { unfold in_r_domain, BOUND. destruct H as [[-> [A1 A2 A3 A4 A5 A6 A7 A0]]|[-> (c & [A1 A2 A3 A4 A5 A6 A7 A8 A9 A10 A11] & _)]]; [auto 10|].
    cbn [orb]. intros Q. apply andb_true_iff in Q. destruct Q as [Q1 Q2]. destruct (A11 Q2) as [-> Y]. assert (c = k) by lia. subst c.
    rewrite Z.sub_diag in Y. change (2 ^ 0) with 1 in Y. repeat split; auto; try apply A1; try apply A6; lia. }
  destruct (in_r_domain a) eqn:Q.
  - destruct (D eq_refl) as (A1 & A2 & A3 & A4 & A5 & A6 & A7). clear D.
    destruct (norm_loop_at X 300 (set_s1 a 0) 0 k) as [(a1 & v1 & E & E1 & E2)|(w & p & g & x & v1 & E & R & P & V & Bx & Q1 & Q2 & Q3 & Q4)]; auto; try lia.
    + destruct A1; constructor; assumption.
    + cbn [set_s1 vt]. lia.
    + left. rewrite E. cbn [bindo]. exists a1, v1. split; [reflexivity|]. split; [exact E1|]. lia.
    + right. rewrite E. cbn [bindo]. eexists _, v1, (k + (v1 - 0)). split; [reflexivity|]. split; [lia|].
      cbn [set_s1 vt] in Q2, Q3, Q4. unfold QUARTER.
      assert (M: Z.land x 255 = if x <? 256 then x else x - 256).
      { rewrite land255. destruct (x <? 256) eqn:B; [apply Z.mod_small; lia|symmetry; apply Z.mod_unique with 1; lia]. }
      cbn [set_vt set_bound set_rd set_s1 vt]. rewrite M.
      split; [|split; [cbn [set_vt set_bound set_rd set_s1 s1]; lia|cbn [set_vt set_bound set_rd set_s1 s1]; lia]].
      replace (xval X k - vt a) with lo in Q4 by lia. rewrite Z.sub_0_r in *.
      constructor; cbn [set_vt set_bound set_rd set_s1 t1 s1 vt bound err]; auto; try lia.
      * destruct R; constructor; assumption.
      * destruct A5; lia.
      * destruct (x <? 256) eqn:B; lia.
      * intros B. rewrite B. replace (k + v1 - k) with v1 by lia. split; [|lia].
        destruct (Z.eq_dec v1 0) as [Z0|Z0]; [right|left]; [|lia]. split; [lia|]. rewrite (Q2 Z0) in *. lia.
      * intros B. rewrite B. replace (k + v1 - k) with v1 by lia. split; [apply Q1; lia|lia].
  - right. exists a, v. unfold in_r_domain, BOUND in Q. apply orb_false_elim in Q. destruct Q as [Q1 Q2].
    destruct H as [[H _]|[_ (c & L & S1)]]; [congruence|]. exists c. split; [reflexivity|]. split; [exact Hv|]. split; [exact L|]. split; [exact S1|].
    intros B. rewrite B, andb_true_r in Q2. destruct L. lia.
Qed.

Lemma log2_scale : forall u n, 0 <= n -> 256 <= u * 2 ^ n <= 511 -> n = 8 - Z.log2 u.
Proof.
  intros u n Hn H. assert (0 < 2 ^ n) by (apply Z.pow_pos_nonneg; lia). assert (Hu: 0 < u) by nia.
  assert (L: Z.log2 (u * 2 ^ n) = 8) by (apply Z.log2_unique; [lia|]; change (2 ^ 8) with 256; change (2 ^ Z.succ 8) with 512; lia).
  rewrite Z.log2_mul_pow2 in L by lia. lia.
Qed.

(** Scaling after the upper part was chosen. *)
Lemma scale_at : forall X a u lo k, rd_ok a -> err a = false -> domain a = true -> 1 <= u <= 511 -> pos_in X a k -> vt a = xval X k - lo -> 0 <= vt a < u ->
  let n := 8 - Z.log2 u in
  (exists a1, lps_scale a u = Done (a1, true) /\ err a1 = true /\ len X < k + 9) \/
  (exists a1, lps_scale a u = Done (a1, false) /\ domain a1 = true /\ rel_r X a1 (lo * 2 ^ n) (u * 2 ^ n) (k + n)).
Proof.
  intros X a u lo k R E D Hu P HV HB n0. unfold lps_scale. destruct (rlps_spec u Hu) as (n & E1 & Hn & Hr). rewrite E1. cbn [bindo].
  assert (n0 = n) by (symmetry; apply log2_scale; lia). subst n0. clear E1. rewrite H. clear H.
  assert (T: Z.land (u * 2 ^ n) 255 = u * 2 ^ n - 256) by (rewrite land255; symmetry; apply Z.mod_unique with 1; lia). rewrite T.
  destruct (n =? 0) eqn:N0.
  - right. cbn [bindo fst snd]. eexists. split; [reflexivity|]. split; [exact D|]. assert (n = 0) by lia. subst n. change (2 ^ 0) with 1 in *. rewrite !Z.mul_1_r, Z.add_0_r in *.
    constructor; cbn [set_t1 set_s1 t1 s1 vt err]; auto; try lia. destruct R; constructor; assumption.
  - destruct (nbits_at X a k n R E P ltac:(lia)) as [(w & p & g & l & E2 & L2 & R2 & P2 & V2)|(a' & E2 & R2 & N2)].
    + right. rewrite E2. cbn [bindo fst snd]. eexists. split; [reflexivity|]. split; [exact D|].
      pose proof (be_val_bound l) as B. rewrite L2 in B.
      assert (W: pushes (vt a) l = vt a * 2 ^ n + be_val l) by (rewrite <- L2; apply pushes_small; lia).
      constructor; cbn [set_t1 set_s1 set_vt set_rd t1 s1 vt err]; auto; try lia.
      * destruct R2; constructor; assumption.
      * rewrite W. split; [nia|]. assert (vt a + 1 <= u) by lia. nia.
    + left. rewrite E2. cbn [bindo fst snd]. exists a'. split; [reflexivity|]. split; [exact R2|]. lia.
Qed.

(** A bin with a probability: the body of the decoders. *)
Lemma body_at : forall X a c v lo rg k run, rel X a v lo rg k run -> lg_ok c ->
  let q := split rg (Z.shiftr (lg c) 2) in let n := 8 - Z.log2 (upper q) in
  (exists a1 c1 v1 b, body a c v = Done (a1, c1, v1, b, true) /\ err a1 = true /\ len X < k + 263) \/
  (exists a1 v1, body a c v = Done (a1, update_ctx_mps c, v1, mps c, false) /\ rel X a1 v1 (lo * 2 ^ doubled q) (lower q) (k + doubled q) (run + doubled q)) \/
  (exists a1 v1, body a c v = Done (a1, update_ctx_lps c, v1, 1 - mps c, false) /\
     rel X a1 v1 ((lo * 2 ^ doubled q + lower q) * 2 ^ n) (upper q * 2 ^ n) (k + doubled q + n) 0).
Proof.
  intros X a c v lo rg k run H L q n. unfold body. unfold lg_ok in L.
  destruct (norm1_at X a v lo rg k run H) as [(a1 & v1 & E & E1 & E2)|(a1 & v1 & d & E & V & [A1 A2 A3 A4 A5 A6 A7 A8 A9 A10 A11] & S1 & BD)]; rewrite E; cbn [bindo].
  { left. exists a1, c, v1, 0. split; [reflexivity|]. split; [exact E1|]. lia. }
  cbv zeta. set (p := Z.shiftr (lg c) 2) in *.
  assert (F: doubled q = flag_of a1 p /\ s2_of a1 p = s1 a1 + doubled q /\ t2_of a1 p = lower q - 256 /\ rlps_of a1 p = upper q /\ (doubled q = 0 \/ doubled q = 1) /\
             256 <= lower q <= 511 /\ 1 <= upper q <= 511 /\ (doubled q = 0 -> lower q <= rg)).
  { unfold q, split. destruct (arith_of a1 p A3 A5 L) as [(F & G & Z1 & Z2 & Z3)|(F & G & Z1 & Z2 & Z3)]; rewrite F, Z1, Z2, Z3.
    - replace (p <=? rg - 256) with true by lia. cbn [lower upper doubled]. lia.
    - replace (p <=? rg - 256) with false by lia. cbn [lower upper doubled]. lia. }
  destruct F as (F1 & F2 & F3 & F4 & F5 & F6 & F7 & F8). destruct H as (Hv & Hr & _).
  destruct (lps_of a1 p v1) eqn:P.
  - unfold lps_of in P. rewrite F2, F3 in P. apply andb_true_iff in P. destruct P as [P NB]. assert (B: bound a1 = false) by (destruct (bound a1); auto; discriminate).
    destruct (A10 B) as [A10a A10b]. clear A10 A11 BD NB.
    assert (LV: (exists a2, lps_value a1 p v1 = Done (a2, true) /\ err a2 = true /\ len X < k + 1) \/
                (exists a2, lps_value a1 p v1 = Done (a2, false) /\ rd_ok a2 /\ err a2 = false /\ domain a2 = true /\ pos_in X a2 (k + doubled q) /\
                   vt a2 = xval X (k + doubled q) - (lo * 2 ^ doubled q + lower q) /\ 0 <= vt a2 < upper q)).
    { unfold lps_value. rewrite F2, F3. destruct (s1 a1 + doubled q =? v1) eqn:Q.
      - right. eexists. split; [reflexivity|]. cbn [set_vt set_domain vt err domain]. assert (KD: k + doubled q = d) by lia. rewrite KD.
        assert (HX: vt a1 - (lower q - 256) = xval X d - (lo * 2 ^ doubled q + lower q)). { replace (d - k) with (doubled q) in A10b by lia. lia. }
        split; [destruct A1; constructor; assumption|]. split; [exact A2|]. split; [reflexivity|]. split; [exact A6|].
        rewrite u32_id by lia. split; [exact HX|]. split; [lia|].
        clear - F1 F2 F3 F4 F5 F6 F7 A4 A10a Q A9 A3 L A5 P. unfold q, split in *. destruct (p <=? rg - 256) eqn:G; cbn [lower upper doubled] in *; lia.
      - assert (Z1: doubled q = 1 /\ s1 a1 = v1) by lia. destruct Z1 as [Z1 Z2]. assert (KD: k = d) by lia. subst d.
        assert (Rd: rd_ok (set_domain a1 true)) by (destruct A1; constructor; assumption).
        destruct (bit_at X (set_domain a1 true) k Rd A2 A6) as [(w & pp & g & b & E1 & R1 & P1 & N1)|(g & E1 & N1)]; rewrite E1; cbn [bindo fst snd].
        + right. eexists. split; [reflexivity|]. cbn [set_vt set_rd set_domain vt err domain]. rewrite Z1. change (2 ^ 1) with 2.
          rewrite Z.sub_diag in A10b. change (2 ^ 0) with 1 in A10b.
          rewrite push_bit_small by lia. assert (Bb: 0 <= Z.b2z b <= 1) by (destruct b; cbn [Z.b2z]; lia).
          assert (LQ: lower q - 256 = t1 a1 - p + 256 /\ upper q = t1 a1 + p).
          { clear - F1 Z1 A4. unfold q, split in *. destruct (p <=? rg - 256) eqn:G; cbn [lower upper doubled] in *; lia. }
          rewrite u32_id by lia. split; [destruct R1; constructor; assumption|]. split; [exact A2|]. split; [reflexivity|]. split; [exact P1|]. split; lia.
        + left. eexists. split; [reflexivity|]. split; [reflexivity|]. lia. }
    destruct LV as [(a2 & E2 & E3 & E4)|(a2 & E2 & R2 & Er2 & D2 & P2 & X2 & B2)]; rewrite E2; cbn [bindo fst snd].
    { left. exists a2, c, v1, 0. split; [reflexivity|]. split; [exact E3|]. lia. }
    rewrite F4. destruct (scale_at X a2 (upper q) (lo * 2 ^ doubled q + lower q) (k + doubled q) R2 Er2 D2 F7 P2 X2 B2) as [(a3 & E3 & E4 & E5)|(a3 & E3 & D3 & R3)]; rewrite E3; cbn [bindo fst snd].
    { left. exists a3, c, v1, 0. split; [reflexivity|]. split; [exact E4|]. lia. }
    right. right. exists a3, v1. split; [reflexivity|]. split; [exact V|]. split; [lia|]. left. split; [exact D3|]. exact R3.
  - right. left. eexists _, v1. split; [reflexivity|]. split; [exact V|]. split; [lia|]. right. split; [reflexivity|].
    exists d. cbn [set_t1 set_s1 set_domain s1]. unfold lps_of in P. rewrite F2, F3 in *. split; [|lia].
    assert (PW: xval X d - lo * 2 ^ doubled q * 2 ^ (d - (k + doubled q)) = xval X d - lo * 2 ^ (d - k)).
    { assert (d - (k + doubled q) >= 0).
      { destruct (bound a1) eqn:B; [destruct (A11 eq_refl); specialize (BD eq_refl); lia|]. cbn [negb] in P. destruct (A10 eq_refl). lia. }
      rewrite <- Z.mul_assoc, <- Z.pow_add_r by lia. do 3 f_equal. lia. }
    constructor; cbn [set_t1 set_s1 set_domain s1 t1 vt bound err]; auto; try lia.
    + destruct A1; constructor; assumption.
Qed.

(** An equiprobable bin. *)
Lemma bypass_at : forall X a lo rg k run, rel X a (vs a) lo rg k run -> run < 254 ->
  (exists a1, decode_eq_prob a = Done (a1, 0) /\ err a1 = true /\ len X < k + 1) \/
  (exists a1, decode_eq_prob a = Done (a1, 0) /\ rel X a1 (vs a1) (lo * 2) rg (k + 1) (run + 1)) \/
  (exists a1, decode_eq_prob a = Done (a1, 1) /\ rel X a1 (vs a1) (lo * 2 + rg) rg (k + 1) 0).
Proof.
  intros X a lo rg k run (Hv & Hr & H) HR. unfold decode_eq_prob.
  destruct H as [[D [A1 A2 A3 A4 A5 A6 A7 A0]]|[D (d & [A1 A2 A3 A4 A5 A6 A7 A8 A9 A10 A11] & S1)]]; unfold in_r_domain; rewrite D; cbn [orb].
  - assert (Rd: rd_ok (set_s1 a 0)) by (destruct A1; constructor; assumption).
    destruct (bit_at X (set_s1 a 0) k Rd A2 A5) as [(w & p & g & b & E1 & R1 & P1 & N1)|(g & E1 & N1)]; rewrite E1; cbn [bindo fst snd].
    + right. cbn [set_vt set_rd set_s1 vt t1]. rewrite (u32_id (256 + t1 a)) by lia. rewrite push_bit_small by lia. assert (Bb: 0 <= Z.b2z b <= 1) by (destruct b; cbn [Z.b2z]; lia).
      destruct (256 + t1 a <=? 2 * vt a + Z.b2z b) eqn:C.
      * right. rewrite u32_id by lia. eexists. split; [reflexivity|]. split; [exact Hv|]. split; [lia|]. left. split; [exact D|].
        constructor; cbn [set_vt set_rd set_s1 vt t1 s1 err]; auto; try lia. destruct R1; constructor; assumption.
      * left. eexists. split; [reflexivity|]. split; [exact Hv|]. split; [lia|]. left. split; [exact D|].
        constructor; cbn [set_vt set_rd set_s1 vt t1 s1 err]; auto; try lia. destruct R1; constructor; assumption.
    + left. eexists. split; [reflexivity|]. split; [reflexivity|]. lia.
  - unfold BOUND. replace (s1 a =? 254) with false by lia. cbn [andb]. rewrite (u32_id (s1 a + 1)) by lia. cbv zeta.
    change (vs (set_domain a ?x)) with (vs a).
    set (l := (vs a <? s1 a + 1) || ((s1 a + 1 =? vs a) && (t1 a <=? vt a)) && negb (bound a)). destruct l eqn:P; subst l.
    + assert (B: bound a = false). { destruct (bound a) eqn:B; auto. destruct (A11 eq_refl). cbn [negb] in P. lia. }
      destruct (A10 B) as [Y1 Y2]. rewrite B in P. cbn [negb] in P. destruct (s1 a + 1 =? vs a) eqn:Q.
      * right. right. cbn [set_domain vt]. rewrite u32_id by lia. eexists. split; [reflexivity|]. split; [exact Hv|]. split; [lia|]. left. split; [reflexivity|].
        assert (KD: k + 1 = d) by lia. rewrite KD. replace (d - k) with 1 in Y2 by lia. change (2 ^ 1) with 2 in Y2.
        constructor; cbn [set_vt set_domain vt t1 s1 err]; auto; try lia. destruct A1; constructor; assumption.
      * assert (KD: k = d) by lia. subst d. rewrite Z.sub_diag in Y2. change (2 ^ 0) with 1 in Y2.
        assert (Rd: rd_ok (set_domain a true)) by (destruct A1; constructor; assumption).
        destruct (bit_at X (set_domain a true) k Rd A2 A6) as [(w & p & g & b & E1 & R1 & P1 & N1)|(g & E1 & N1)]; rewrite E1; cbn [bindo fst snd].
        -- right. right. cbn [set_vt set_rd set_domain vt t1]. rewrite push_bit_small by lia. assert (Bb: 0 <= Z.b2z b <= 1) by (destruct b; cbn [Z.b2z]; lia).
           rewrite u32_id by lia. eexists. split; [reflexivity|]. split; [exact Hv|]. split; [lia|]. left. split; [reflexivity|].
           constructor; cbn [set_vt set_rd set_domain vt t1 s1 err]; auto; try lia. destruct R1; constructor; assumption.
        -- left. eexists. split; [reflexivity|]. split; [reflexivity|]. lia.
    + right. left. eexists. split; [reflexivity|]. split; [exact Hv|]. split; [lia|]. right. split; [reflexivity|].
      exists d. cbn [set_t1 set_s1 set_domain s1 vs]. split; [|lia].
      assert (PW: d - (k + 1) >= 0 -> xval X d - lo * 2 * 2 ^ (d - (k + 1)) = xval X d - lo * 2 ^ (d - k)).
      { intros G. change (lo * 2) with (lo * 2 ^ 1). rewrite <- Z.mul_assoc, <- Z.pow_add_r by lia. do 3 f_equal. lia. }
      apply orb_false_elim in P. destruct P as [P1 P2].
      constructor; cbn [set_t1 set_s1 set_domain s1 t1 vt bound err vs]; auto; try lia.
      * destruct A1; constructor; assumption.
Qed.
