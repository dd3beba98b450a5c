From Coq Require Import ZArith List Bool Lia.
From Verif Require Import CBase CBaseProofs HdrModel QpModel QpProofs MemModel MemProofs UtilModel UtilSpec.
Import ListNotations.
Open Scope Z_scope.

Lemma max_pel_eq : forall d, 0 <= d -> max_pel d = 2 ^ d - 1.
Proof. intros. unfold max_pel. rewrite Z.shiftl_mul_pow2 by lia. lia. Qed.
Lemma max_pel_ones : forall d, 0 <= d -> max_pel d = Z.ones d.
Proof. intros. rewrite max_pel_eq, Z.ones_equiv by lia. lia. Qed.
Lemma pow_ge_256 : forall d, 8 <= d -> 256 <= 2 ^ d.
Proof. intros. change 256 with (2 ^ 8). apply Z.pow_le_mono_r; lia. Qed.
Lemma pow_le_65536 : forall d, d <= 16 -> 2 ^ d <= 65536.
Proof. intros. change 65536 with (2 ^ 16). apply Z.pow_le_mono_r; lia. Qed.

Lemma clip1_eq : forall d a, 0 <= d -> clip1 d a = Z.max 0 (Z.min (2 ^ d - 1) a).
Proof.
  intros d a Hd. unfold clip1. rewrite max_pel_eq by lia.
  assert (0 < 2 ^ d) by (apply Z.pow_pos_nonneg; lia).
  destruct (2 ^ d - 1 <? a) eqn:?; [lia|]. destruct (a <? 0) eqn:?; lia.
Qed.

Lemma clip1_nearest : forall d a, depth_range d -> nearest 0 (2 ^ d - 1) a (clip1 d a).
Proof.
  intros d a [H1 H2]. rewrite clip1_eq by lia. pose proof (pow_ge_256 d H1). unfold nearest. split; [lia|].
  intros q Hq. lia.
Qed.

Lemma shiftr31_neg : forall x, -2147483648 <= x < 0 -> Z.shiftr x 31 = -1.
Proof. intros. rewrite Z.shiftr_div_pow2 by lia. change (2 ^ 31) with 2147483648. Z.div_mod_to_equations. lia. Qed.
Lemma shiftr31_pos : forall x, 0 <= x <= 2147483647 -> Z.shiftr x 31 = 0.
Proof. intros. rewrite Z.shiftr_div_pow2 by lia. change (2 ^ 31) with 2147483648. apply Z.div_small. lia. Qed.

Lemma land_not_ones : forall x d, 0 <= d -> (Z.land x (Z.lnot (Z.ones d)) = 0 <-> 0 <= x < 2 ^ d).
Proof.
  intros x d Hd. rewrite <- Z.ldiff_land, Z.ldiff_ones_r by lia.
  rewrite Z.shiftl_mul_pow2, Z.shiftr_div_pow2 by lia.
  assert (0 < 2 ^ d) by (apply Z.pow_pos_nonneg; lia). split.
  - intros H0. assert (x / 2 ^ d = 0) by nia. apply Z.div_small_iff in H1; lia.
  - intros H0. rewrite Z.div_small by lia. reflexivity.
Qed.

Lemma clip_pixel_ok : forall d x, depth_range d -> -2147483647 <= x <= 2147483647 ->
  clip_pixel d x = Done (clip1 d x).
Proof.
  intros d x [H1 H2] Hx. unfold clip_pixel. rewrite clip1_eq, max_pel_ones by lia.
  pose proof (pow_ge_256 d H1). pose proof (pow_le_65536 d H2).
  destruct (Z.land x (Z.lnot (Z.ones d)) =? 0) eqn:E; cbn [negb].
  - apply Z.eqb_eq in E. apply land_not_ones in E; [|lia]. f_equal. lia.
  - apply Z.eqb_neq in E. assert (N: ~ (0 <= x < 2 ^ d)) by (rewrite <- land_not_ones by lia; exact E).
    rewrite int32_ok by (unfold in_i32; lia). cbn [bindo]. f_equal.
    destruct (Z_lt_ge_dec x 0).
    + rewrite shiftr31_pos by lia. rewrite Z.land_0_l. lia.
    + rewrite shiftr31_neg by lia. rewrite Z.land_m1_l, Z.ones_equiv. lia.
Qed.

Lemma clip3_nearest : forall v lo hi, lo <= hi -> nearest lo hi v (davs2_clip3 v lo hi).
Proof.
  intros v lo hi H. unfold nearest, davs2_clip3. destruct (v <? lo) eqn:?; [split; [lia|intros; lia]|].
  destruct (hi <? v) eqn:?; split; intros; lia.
Qed.

Lemma neg_part_eq : forall d, in_i32 d -> neg_part d = Z.min 0 d.
Proof.
  intros d Hd. unfold in_i32 in Hd. unfold neg_part. destruct (Z_lt_ge_dec d 0).
  - rewrite shiftr31_neg, Z.land_m1_r by lia. lia.
  - rewrite shiftr31_pos, Z.land_0_r by lia. lia.
Qed.

Lemma median_ok : forall a b c, in_i32 (a - b) -> in_i32 (b - c) -> in_i32 (a - c) ->
  exists r, median a b c = Done r /\ middle a b c r.
Proof.
  intros a b c H1 H2 H3. unfold median. rewrite int32_ok by exact H1. cbn [bindo]. cbv zeta.
  rewrite (neg_part_eq (a - b) H1). set (t := Z.min 0 (a - b)).
  assert (Hb: b + t = Z.min a b) by lia. assert (Ha: a - t = Z.max a b) by lia. rewrite Ha, Hb.
  assert (B: in_i32 (Z.min a b - c)) by (unfold in_i32 in *; lia).
  rewrite int32_ok by exact B. cbn [bindo]. rewrite (neg_part_eq _ B).
  replace (Z.min a b - Z.min 0 (Z.min a b - c)) with (Z.max (Z.min a b) c) by lia.
  assert (C: in_i32 (Z.max a b - Z.max (Z.min a b) c)) by (unfold in_i32 in *; lia).
  rewrite int32_ok by exact C. cbn [bindo]. rewrite (neg_part_eq _ C).
  eexists. split; [reflexivity|]. unfold middle. lia.
Qed.

Lemma sign2_ok : forall v, in_i32 v -> sign2 v = (if v <? 0 then -1 else 1).
Proof.
  intros v H. unfold in_i32 in H. unfold sign2. destruct (v <? 0) eqn:E.
  - rewrite shiftr31_neg by lia. reflexivity.
  - rewrite shiftr31_pos by lia. reflexivity.
Qed.
Lemma sign3_ok : forall v, -2147483647 <= v <= 2147483647 -> sign3 v = Done (Z.sgn v).
Proof.
  intros v H. unfold sign3. rewrite int32_ok by (unfold in_i32; lia). cbn [bindo]. f_equal.
  destruct (Z.lt_trichotomy v 0) as [N|[N|N]].
  - rewrite shiftr31_neg by lia. rewrite Z.lor_m1_l. lia.
  - subst v. reflexivity.
  - rewrite shiftr31_pos by lia. rewrite Z.lor_0_l. unfold to_u32.
    replace (- v) with ((4294967296 - v) + (-1) * 4294967296) by lia. rewrite Z.mod_add, Z.mod_small by lia.
    rewrite Z.shiftr_div_pow2 by lia. change (2 ^ 31) with 2147483648. Z.div_mod_to_equations. lia.
Qed.

Lemma align_ok : forall x k, 0 <= k -> next_multiple x (2 ^ k) (align x k).
Proof.
  intros x k Hk. unfold align, next_multiple.
  replace (2 ^ k - 1) with (Z.ones k) by (rewrite Z.ones_equiv; lia).
  rewrite <- Z.ldiff_land, Z.ldiff_ones_r, Z.ones_equiv by lia.
  rewrite Z.shiftl_mul_pow2, Z.shiftr_div_pow2 by lia.
  assert (P: 0 < 2 ^ k) by (apply Z.pow_pos_nonneg; lia). set (m := 2 ^ k) in *. clearbody m. split.
  - exists ((x + Z.pred m) / m). lia.
  - pose proof (Z.div_mod (x + Z.pred m) m ltac:(lia)). pose proof (Z.mod_pos_bound (x + Z.pred m) m P). lia.
Qed.

(** *** Leading and trailing zeros. *)
Lemma land_pow2_cases : forall y k, 0 <= k -> Z.land y (2 ^ k) = if Z.testbit y k then 2 ^ k else 0.
Proof.
  intros y k Hk. apply Z.bits_inj'. intros n Hn. rewrite Z.land_spec, Z.pow2_bits_eqb by lia.
  destruct (Z.testbit y k) eqn:E.
  - rewrite Z.pow2_bits_eqb by lia. destruct (k =? n) eqn:K; [|now rewrite andb_false_r].
    apply Z.eqb_eq in K. subst. now rewrite E.
  - rewrite Z.bits_0. destruct (k =? n) eqn:K; [|now rewrite andb_false_r].
    apply Z.eqb_eq in K. subst. now rewrite E.
Qed.

(** [((v - b) >> s) & 2^j] with 32-bit wrap-around is 2^j exactly when v < b. *)
Lemma wrap_bit : forall v b s j, 0 <= v -> 1 <= b -> 0 <= s -> 0 <= j -> s + j = 31 ->
  v - b < 2147483648 -> b <= 2147483648 ->
  Z.land (Z.shiftr (to_u32 (v - b)) s) (2 ^ j) = if v <? b then 2 ^ j else 0.
Proof.
  intros v b s j Hv Hb Hs Hj Hsj Hv2 Hb2. rewrite land_pow2_cases by lia. rewrite Z.shiftr_spec by lia.
  replace (j + s) with 31 by lia.
  assert (T: Z.testbit (to_u32 (v - b)) 31 = (v <? b)).
  { unfold to_u32. rewrite Z.testbit_eqb by lia. change (2 ^ 31) with 2147483648.
    destruct (v <? b) eqn:E.
    - replace ((v - b) mod 4294967296) with (v - b + 4294967296).
      2:{ replace (v - b) with ((v - b + 4294967296) + (-1) * 4294967296) at 2 by lia.
          rewrite Z.mod_add, Z.mod_small by lia. reflexivity. }
      replace ((v - b + 4294967296) / 2147483648) with 1; [reflexivity|].
      Z.div_mod_to_equations. lia.
    - rewrite (Z.mod_small (v - b)) by lia. rewrite Z.div_small by lia. reflexivity. }
  rewrite T. reflexivity.
Qed.

Lemma wrap16 : forall v, 0 <= v < 2147483648 ->
  Z.land (Z.shiftr (to_u32 (v - 1)) 27) 16 = if v <? 1 then 16 else 0.
Proof. intros. apply (wrap_bit v 1 27 4); lia. Qed.
Lemma wrap8 : forall v b, 0 <= v < 2147483648 -> 1 <= b <= 256 ->
  Z.land (Z.shiftr (to_u32 (v - b)) 28) 8 = if v <? b then 8 else 0.
Proof. intros. apply (wrap_bit v b 28 3); lia. Qed.
Lemma wrap4 : forall v b, 0 <= v < 2147483648 -> 1 <= b <= 256 ->
  Z.land (Z.shiftr (to_u32 (v - b)) 29) 4 = if v <? b then 4 else 0.
Proof. intros. apply (wrap_bit v b 29 2); lia. Qed.

Lemma clz_lut_ok : forall x, 1 <= x <= 15 -> exists v, lut clz_lut x = Done v /\ 0 <= v <= 3 /\ 2 ^ (3 - v) <= x < 2 ^ (4 - v).
Proof.
  intros x H. assert (C: x = 1 \/ x = 2 \/ x = 3 \/ x = 4 \/ x = 5 \/ x = 6 \/ x = 7 \/ x = 8 \/ x = 9 \/ x = 10 \/ x = 11 \/ x = 12 \/ x = 13 \/ x = 14 \/ x = 15) by lia.
  repeat (destruct C as [-> | C]; [eexists; split; [reflexivity|]; cbn; lia|]). subst x.
  eexists; split; [reflexivity|]. cbn. lia.
Qed.

Lemma clz_ok : forall x, 1 <= x <= 4294967295 ->
  exists z, clz x = Done z /\ 0 <= z <= 31 /\ 2 ^ (31 - z) <= x < 2 ^ (32 - z).
Proof.
  intros x Hx. unfold clz. cbv zeta.
  assert (D16: 0 <= Z.shiftr x 16 < 65536).
  { rewrite Z.shiftr_div_pow2 by lia. change (2 ^ 16) with 65536. Z.div_mod_to_equations. lia. }
  rewrite (wrap16 (Z.shiftr x 16)) by lia.
  set (z1 := if Z.shiftr x 16 <? 1 then 16 else 0).
  set (x1 := Z.shiftr x (Z.lxor z1 16)).
  assert (A1: (z1 = 16 /\ x1 = x /\ x < 65536) \/ (z1 = 0 /\ x1 = x / 65536 /\ 65536 <= x)).
  { unfold x1, z1. destruct (Z.shiftr x 16 <? 1) eqn:E.
    - left. split; [reflexivity|]. change (Z.lxor 16 16) with 0. rewrite Z.shiftr_0_r. split; [reflexivity|].
      rewrite Z.shiftr_div_pow2 in E by lia. change (2 ^ 16) with 65536 in E. Z.div_mod_to_equations. lia.
    - right. split; [reflexivity|]. change (Z.lxor 0 16) with 16. rewrite Z.shiftr_div_pow2 by lia.
      change (2 ^ 16) with 65536. split; [reflexivity|].
      rewrite Z.shiftr_div_pow2 in E by lia. change (2 ^ 16) with 65536 in E. Z.div_mod_to_equations. lia. }
  assert (B1: 1 <= x1 < 65536) by (destruct A1 as [(_ & -> & H)|(_ & -> & H)]; Z.div_mod_to_equations; lia).
  clearbody x1 z1.
  rewrite (wrap8 x1 256) by lia.
  set (y2 := if x1 <? 256 then 8 else 0).
  set (x2 := Z.shiftr x1 (Z.lxor y2 8)).
  assert (A2: (y2 = 8 /\ x2 = x1 /\ x1 < 256) \/ (y2 = 0 /\ x2 = x1 / 256 /\ 256 <= x1)).
  { unfold x2, y2. destruct (x1 <? 256) eqn:E.
    - left. split; [reflexivity|]. change (Z.lxor 8 8) with 0. rewrite Z.shiftr_0_r. split; [reflexivity|lia].
    - right. split; [reflexivity|]. change (Z.lxor 0 8) with 8. rewrite Z.shiftr_div_pow2 by lia.
      change (2 ^ 8) with 256. split; [reflexivity|lia]. }
  assert (B2: 1 <= x2 < 256) by (destruct A2 as [(_ & -> & H)|(_ & -> & H)]; Z.div_mod_to_equations; lia).
  clearbody x2 y2.
  rewrite (wrap4 x2 16) by lia.
  set (y3 := if x2 <? 16 then 4 else 0).
  set (x3 := Z.shiftr x2 (Z.lxor y3 4)).
  assert (A3: (y3 = 4 /\ x3 = x2 /\ x2 < 16) \/ (y3 = 0 /\ x3 = x2 / 16 /\ 16 <= x2)).
  { unfold x3, y3. destruct (x2 <? 16) eqn:E.
    - left. split; [reflexivity|]. change (Z.lxor 4 4) with 0. rewrite Z.shiftr_0_r. split; [reflexivity|lia].
    - right. split; [reflexivity|]. change (Z.lxor 0 4) with 4. rewrite Z.shiftr_div_pow2 by lia.
      change (2 ^ 4) with 16. split; [reflexivity|lia]. }
  assert (B3: 1 <= x3 < 16) by (destruct A3 as [(_ & -> & H)|(_ & -> & H)]; Z.div_mod_to_equations; lia).
  clearbody x3 y3.
  destruct (clz_lut_ok x3 ltac:(lia)) as (v & Ev & Hv & Rv). rewrite Ev. cbn [bindo].
  eexists. split; [reflexivity|]. 
  (* collect: x3 = x / 2^(28 - z1 - y2 - y3) *)
  set (e := 28 - (z1 + y2 + y3)).
  assert (He: 0 <= e <= 28 /\ x3 = x / 2 ^ e).
  { unfold e. destruct A1 as [(-> & -> & _)|(-> & -> & _)];
      destruct A2 as [(-> & -> & _)|(-> & -> & _)];
      destruct A3 as [(-> & -> & _)|(-> & -> & _)];
      (split; [lia|]); cbn [Z.sub Z.add Z.opp Z.pow Z.pow_pos Pos.iter Pos.add Z.mul Pos.mul];
      rewrite ?Zdiv_1_r, ?Zdiv_Zdiv by lia; try reflexivity; rewrite ?Z.div_1_r; reflexivity. }
  destruct He as [He Ex].
  split; [lia|].
  assert (Q: x3 * 2 ^ e <= x < (x3 + 1) * 2 ^ e).
  { assert (0 < 2 ^ e) by (apply Z.pow_pos_nonneg; lia). rewrite Ex.
    pose proof (Z.div_mod x (2 ^ e) ltac:(lia)). pose proof (Z.mod_pos_bound x (2 ^ e) ltac:(lia)). lia. }
  assert (P1: 2 ^ (31 - (z1 + y2 + y3 + v)) = 2 ^ (3 - v) * 2 ^ e).
  { rewrite <- Z.pow_add_r by lia. f_equal. unfold e. lia. }
  assert (P2: 2 ^ (32 - (z1 + y2 + y3 + v)) = 2 ^ (4 - v) * 2 ^ e).
  { rewrite <- Z.pow_add_r by lia. f_equal. unfold e. lia. }
  rewrite P1, P2. assert (0 < 2 ^ e) by (apply Z.pow_pos_nonneg; lia). nia.
Qed.

Lemma ctz_lut_ok : forall x, 1 <= x <= 15 ->
  exists v, lut ctz_lut x = Done v /\ 0 <= v <= 3 /\ exists q, x = 2 ^ v * (2 * q + 1).
Proof.
  intros x H. assert (C: x = 1 \/ x = 2 \/ x = 3 \/ x = 4 \/ x = 5 \/ x = 6 \/ x = 7 \/ x = 8 \/ x = 9 \/ x = 10 \/ x = 11 \/ x = 12 \/ x = 13 \/ x = 14 \/ x = 15) by lia.
  assert (W: forall n v q, lut ctz_lut n = Done v -> 0 <= v <= 3 -> n = 2 ^ v * (2 * q + 1) ->
    exists v, lut ctz_lut n = Done v /\ 0 <= v <= 3 /\ exists q, n = 2 ^ v * (2 * q + 1)).
  { intros n v q A B D. exists v. split; [exact A|]. split; [exact B|]. now exists q. }
  destruct C as [-> | C]; [now apply (W 1 0 0)|]. destruct C as [-> | C]; [now apply (W 2 1 0)|].
  destruct C as [-> | C]; [now apply (W 3 0 1)|]. destruct C as [-> | C]; [now apply (W 4 2 0)|].
  destruct C as [-> | C]; [now apply (W 5 0 2)|]. destruct C as [-> | C]; [now apply (W 6 1 1)|].
  destruct C as [-> | C]; [now apply (W 7 0 3)|]. destruct C as [-> | C]; [now apply (W 8 3 0)|].
  destruct C as [-> | C]; [now apply (W 9 0 4)|]. destruct C as [-> | C]; [now apply (W 10 1 2)|].
  destruct C as [-> | C]; [now apply (W 11 0 5)|]. destruct C as [-> | C]; [now apply (W 12 2 1)|].
  destruct C as [-> | C]; [now apply (W 13 0 6)|]. destruct C as [-> | ->]; [now apply (W 14 1 3)|now apply (W 15 0 7)].
Qed.

(** One halving step: the low half is skipped when it is all zero. *)
Lemma ctz_stage : forall x k, 0 <= k -> 0 < x -> x mod 2 ^ (2 * k) <> 0 ->
  let z := if x mod 2 ^ k <? 1 then k else 0 in
  let x' := Z.shiftr x z in
  x = x' * 2 ^ z /\ 0 < x' /\ x' mod 2 ^ k <> 0 /\ 0 <= z.
Proof.
  intros x k Hk Hx N. cbv zeta. assert (P: 0 < 2 ^ k) by (apply Z.pow_pos_nonneg; lia).
  rewrite (Z.shiftr_div_pow2 x (if x mod 2 ^ k <? 1 then k else 0)) by (destruct (x mod 2 ^ k <? 1); lia).
  pose proof (Z.mod_pos_bound x (2 ^ k) P) as B.
  destruct (x mod 2 ^ k <? 1) eqn:E.
  - assert (Z0: x mod 2 ^ k = 0) by lia. pose proof (Z.div_mod x (2 ^ k) ltac:(lia)) as D.
    split; [lia|]. split; [nia|]. split; [|lia]. intro F. apply N.
    replace (2 * k) with (k + k) by lia. rewrite Z.pow_add_r by lia.
    pose proof (Z.div_mod (x / 2 ^ k) (2 ^ k) ltac:(lia)) as D2.
    apply Z.mod_divide; [nia|]. exists (x / 2 ^ k / 2 ^ k). nia.
  - change (2 ^ 0) with 1. rewrite Z.div_1_r. repeat split; lia.
Qed.

Lemma land_ones_mod : forall x k, 0 <= k -> Z.land x (2 ^ k - 1) = x mod 2 ^ k.
Proof. intros. replace (2 ^ k - 1) with (Z.ones k) by (rewrite Z.ones_equiv; lia). now apply Z.land_ones. Qed.

Lemma ctz_ok : forall x, 1 <= x <= 4294967295 ->
  exists z, ctz x = Done z /\ 0 <= z <= 31 /\ exists q, x = 2 ^ z * (2 * q + 1).
Proof.
  intros x Hx. unfold ctz. cbv zeta.
  change 65535 with (2 ^ 16 - 1). change 255 with (2 ^ 8 - 1). change 15 with (2 ^ 4 - 1).
  rewrite !land_ones_mod by lia.
  pose proof (Z.mod_pos_bound x (2 ^ 16) ltac:(reflexivity)) as B1. assert (W1: 2 ^ 16 = 65536) by reflexivity.
  rewrite (wrap16 (x mod 2 ^ 16)) by lia.
  assert (S1 := ctz_stage x 16 ltac:(lia) ltac:(lia)). change (2 * 16) with 32 in S1.
  assert (N1: x mod 2 ^ 32 <> 0) by (rewrite Z.mod_small; [lia|change (2 ^ 32) with 4294967296; lia]).
  specialize (S1 N1). cbv zeta in S1. set (z1 := if x mod 2 ^ 16 <? 1 then 16 else 0) in *.
  assert (Z1: z1 <= 16) by (unfold z1; destruct (x mod 2 ^ 16 <? 1); lia).
  destruct S1 as (E1 & P1 & M1 & Q1). set (x1 := Z.shiftr x z1) in *.
  pose proof (Z.mod_pos_bound x1 (2 ^ 8) ltac:(reflexivity)) as B2. assert (W2: 2 ^ 8 = 256) by reflexivity.
  rewrite (wrap8 (x1 mod 2 ^ 8) 1) by lia.
  assert (S2 := ctz_stage x1 8 ltac:(lia) P1 M1). cbv zeta in S2.
  set (z2 := if x1 mod 2 ^ 8 <? 1 then 8 else 0) in *.
  assert (Z2: z2 <= 8) by (unfold z2; destruct (x1 mod 2 ^ 8 <? 1); lia).
  destruct S2 as (E2 & P2 & M2 & Q2). set (x2 := Z.shiftr x1 z2) in *.
  pose proof (Z.mod_pos_bound x2 (2 ^ 4) ltac:(reflexivity)) as B3. assert (W3: 2 ^ 4 = 16) by reflexivity.
  rewrite (wrap4 (x2 mod 2 ^ 4) 1) by lia.
  assert (S3 := ctz_stage x2 4 ltac:(lia) P2 M2). cbv zeta in S3.
  set (z3 := if x2 mod 2 ^ 4 <? 1 then 4 else 0) in *.
  assert (Z3: z3 <= 4) by (unfold z3; destruct (x2 mod 2 ^ 4 <? 1); lia).
  destruct S3 as (E3 & P3 & M3 & Q3). set (x3 := Z.shiftr x2 z3) in *.
  clearbody x1 x2 x3 z1 z2 z3. change (2 ^ 4) with 16 in *.
  pose proof (Z.mod_pos_bound x3 16 ltac:(lia)) as B4.
  destruct (ctz_lut_ok (x3 mod 16) ltac:(lia)) as (v & Ev & Hv & q & Hq). rewrite Ev. cbn [bindo].
  eexists. split; [reflexivity|]. split; [lia|].
  exists (x3 / 16 * 2 ^ (3 - v) + q).
  replace (z1 + z2 + z3 + v) with (v + (z3 + (z2 + z1))) by lia.
  rewrite !Z.pow_add_r by lia.
  pose proof (Z.div_mod x3 16 ltac:(lia)) as D.
  assert (P: 16 = 2 ^ v * 2 ^ (3 - v) * 2) by (rewrite <- Z.pow_add_r by lia; replace (v + (3 - v)) with 3 by lia; reflexivity).
  assert (X3: x3 = 2 ^ v * (2 * (x3 / 16 * 2 ^ (3 - v) + q) + 1)) by (rewrite D at 1; rewrite Hq, P at 1; ring).
  rewrite E1, E2, E3. rewrite X3 at 1. ring.
Qed.

(** *** Reconstruction. *)
Lemma add_ps_spec : forall depth w h dst stride res rbase rstride m, Z.of_nat w <= stride ->
  let m' := add_ps depth w h dst stride res rbase rstride m in
  (forall x y, 0 <= x < Z.of_nat w -> 0 <= y < Z.of_nat h ->
     m' (bpos dst stride x y) = clip1 depth (m (bpos dst stride x y) + res (bpos rbase rstride x y))) /\
  (forall p, ~ in_block w h dst stride p -> m' p = m p).
Proof.
  intros depth w h dst stride res rbase rstride m Hw. unfold add_ps.
  apply block_write_spec; [exact Hw|]. intros x y m' Hx Hy Hm. f_equal. f_equal. apply Hm.
  right. unfold bpos. lia.
Qed.
Lemma add_ps2_spec : forall depth w h dst stride pred pbase pstride res rbase rstride m, Z.of_nat w <= stride ->
  let m' := add_ps2 depth w h dst stride pred pbase pstride res rbase rstride m in
  (forall x y, 0 <= x < Z.of_nat w -> 0 <= y < Z.of_nat h ->
     m' (bpos dst stride x y) = clip1 depth (pred (bpos pbase pstride x y) + res (bpos rbase rstride x y))) /\
  (forall p, ~ in_block w h dst stride p -> m' p = m p).
Proof.
  intros depth w h dst stride pred pbase pstride res rbase rstride m Hw. unfold add_ps2.
  apply block_write_spec; [exact Hw|]. intros x y m' Hx Hy Hm. reflexivity.
Qed.
Lemma blockcopy_spec : forall w h dst stride src sbase sstride m, Z.of_nat w <= stride ->
  let m' := blockcopy w h dst stride src sbase sstride m in
  (forall x y, 0 <= x < Z.of_nat w -> 0 <= y < Z.of_nat h ->
     m' (bpos dst stride x y) = src (bpos sbase sstride x y)) /\
  (forall p, ~ in_block w h dst stride p -> m' p = m p).
Proof.
  intros w h dst stride src sbase sstride m Hw. unfold blockcopy.
  apply block_write_spec; [exact Hw|]. intros x y m' Hx Hy Hm. reflexivity.
Qed.

Lemma not_in_block : forall w h dst stride p,
  (forall x y, 0 <= x < Z.of_nat w -> 0 <= y < Z.of_nat h -> p <> dst + y * stride + x) -> ~ in_block w h dst stride p.
Proof. intros w h dst stride p H (x & y & Hx & Hy & E). exact (H x y Hx Hy E). Qed.

Lemma add_ps_nearest : forall depth w h dst stride res rbase rstride m,
  depth_range depth -> Z.of_nat w <= stride ->
  let m' := add_ps depth w h dst stride res rbase rstride m in
  (forall x y, 0 <= x < Z.of_nat w -> 0 <= y < Z.of_nat h ->
     nearest 0 (2 ^ depth - 1) (m (dst + y * stride + x) + res (rbase + y * rstride + x))
             (m' (dst + y * stride + x))) /\
  (forall p, (forall x y, 0 <= x < Z.of_nat w -> 0 <= y < Z.of_nat h -> p <> dst + y * stride + x) -> m' p = m p).
Proof.
  intros depth w h dst stride res rbase rstride m Hd Hw.
  destruct (add_ps_spec depth w h dst stride res rbase rstride m Hw) as [A B]. cbv zeta in *. split.
  - intros x y Hx Hy. specialize (A x y Hx Hy). unfold bpos in A. rewrite A. now apply clip1_nearest.
  - intros p Hp. apply B, not_in_block, Hp.
Qed.
Lemma add_ps2_nearest : forall depth w h dst stride pred pbase pstride res rbase rstride m,
  depth_range depth -> Z.of_nat w <= stride ->
  let m' := add_ps2 depth w h dst stride pred pbase pstride res rbase rstride m in
  (forall x y, 0 <= x < Z.of_nat w -> 0 <= y < Z.of_nat h ->
     nearest 0 (2 ^ depth - 1) (pred (pbase + y * pstride + x) + res (rbase + y * rstride + x))
             (m' (dst + y * stride + x))) /\
  (forall p, (forall x y, 0 <= x < Z.of_nat w -> 0 <= y < Z.of_nat h -> p <> dst + y * stride + x) -> m' p = m p).
Proof.
  intros depth w h dst stride pred pbase pstride res rbase rstride m Hd Hw.
  destruct (add_ps2_spec depth w h dst stride pred pbase pstride res rbase rstride m Hw) as [A B]. cbv zeta in *. split.
  - intros x y Hx Hy. specialize (A x y Hx Hy). unfold bpos in A. rewrite A. now apply clip1_nearest.
  - intros p Hp. apply B, not_in_block, Hp.
Qed.

Lemma in_block_dec : forall w h dst stride p, Z.of_nat w <= stride -> in_block w h dst stride p \/ ~ in_block w h dst stride p.
Proof.
  intros w h dst stride p Hw. destruct (Z_lt_le_dec 0 stride) as [Hs|Hs].
  - set (y := (p - dst) / stride). set (x := (p - dst) mod stride).
    pose proof (Z.div_mod (p - dst) stride ltac:(lia)). pose proof (Z.mod_pos_bound (p - dst) stride Hs).
    fold x y in H, H0.
    destruct (Z_lt_le_dec x (Z.of_nat w)); [|right].
    + destruct (Z_lt_le_dec y (Z.of_nat h)) as [Hy|Hy]; [|right].
      * destruct (Z_le_gt_dec 0 y) as [Hy0|Hy0]; [left; exists x, y; unfold bpos; lia|right].
        intros (x' & y' & Hx' & Hy' & E). unfold bpos in E. assert (y = y') by nia. lia.
      * intros (x' & y' & Hx' & Hy' & E). unfold bpos in E. assert (y = y') by nia. lia.
    + intros (x' & y' & Hx' & Hy' & E). unfold bpos in E. assert (y = y') by nia. subst y'. lia.
  - right. intros (x' & y' & Hx' & Hy' & E). lia.
Qed.

Lemma add_ps_zero : forall depth w h dst stride res rbase rstride m,
  depth_range depth -> Z.of_nat w <= stride -> (forall p, 0 <= m p < 2 ^ depth) -> (forall p, res p = 0) ->
  forall p, add_ps depth w h dst stride res rbase rstride m p = m p.
Proof.
  intros depth w h dst stride res rbase rstride m [Hd1 Hd2] Hw Hm Hr p.
  destruct (add_ps_spec depth w h dst stride res rbase rstride m Hw) as [A B]. cbv zeta in *.
  destruct (in_block_dec w h dst stride p Hw) as [(x & y & Hx & Hy & ->)|N]; [|now apply B].
  rewrite (A x y Hx Hy), Hr, clip1_eq by lia. specialize (Hm (bpos dst stride x y)). lia.
Qed.

Lemma clip_pixel_nearest : forall depth x, depth_range depth -> -2147483647 <= x <= 2147483647 ->
  exists r, clip_pixel depth x = Done r /\ nearest 0 (2 ^ depth - 1) x r.
Proof. intros d x Hd Hx. exists (clip1 d x). split; [now apply clip_pixel_ok|now apply clip1_nearest]. Qed.

Lemma clips_nearest : (forall depth x, depth_range depth -> nearest 0 (2 ^ depth - 1) x (clip1 depth x)) /\
  (forall v lo hi, lo <= hi -> nearest lo hi v (davs2_clip3 v lo hi)) /\
  (forall v lo hi, lo <= hi -> nearest lo hi v (clip3 lo hi v)).
Proof.
  split; [exact clip1_nearest|]. split; [exact clip3_nearest|]. intros v lo hi H. exact (clip3_nearest v lo hi H).
Qed.
