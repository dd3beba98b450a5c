(** The assembly dequantisation computes what the C function computes. *)
From Coq Require Import ZArith List Bool Lia.
From Verif Require Import CBase MemModel MemProofs HdrModel UtilModel QpModel QpSpec QpProofs VxModelBase VxProofs DqModel DqSpec.
Import ListNotations.
Open Scope Z_scope.

Lemma q_movq v : 0 <= v < 18446744073709551616 -> q_of (movq v) = v.
Proof.
  intros B. unfold q_of, movq. cbn [fold_right Z.ltb Z.compare Pos.compare Pos.compare_cont]. unfold to_u8.
  change (256 ^ 0) with 1. change (256 ^ 1) with 256. change (256 ^ 2) with (256 * 256). change (256 ^ 3) with (256 * 256 * 256).
  change (256 ^ 4) with (256 * 256 * 256 * 256). change (256 ^ 5) with (256 * 256 * 256 * 256 * 256).
  change (256 ^ 6) with (256 * 256 * 256 * 256 * 256 * 256). change (256 ^ 7) with (256 * 256 * 256 * 256 * 256 * 256 * 256).
  rewrite <- !Z.div_div by lia. rewrite Z.div_1_r.
  set (a := v / 256). set (b := a / 256). set (c := b / 256). set (d := c / 256). set (e := d / 256). set (f := e / 256). set (g := f / 256).
  pose proof (Z.div_mod v 256 ltac:(lia)). pose proof (Z.div_mod a 256 ltac:(lia)). pose proof (Z.div_mod b 256 ltac:(lia)).
  pose proof (Z.div_mod c 256 ltac:(lia)). pose proof (Z.div_mod d 256 ltac:(lia)). pose proof (Z.div_mod e 256 ltac:(lia)).
  pose proof (Z.div_mod f 256 ltac:(lia)). fold a in H. fold b in H0. fold c in H1. fold d in H2. fold e in H3. fold f in H4. fold g in H5.
  assert (G : 0 <= g < 256).
  { unfold g, f, e, d, c, b, a. rewrite !Z.div_div by lia. split; [apply Z.div_pos; lia|]. apply Z.div_lt_upper_bound; lia. }
  rewrite (Z.mod_small g 256) by exact G. lia.
Qed.
Lemma i32_movq v : i32_of (movq v) 0 = to_i32 v.
Proof.
  unfold i32_of, movq. change (4 * 0) with 0. cbn [Z.add Z.ltb Z.compare Pos.compare Pos.compare_cont Pos.add]. unfold to_u8.
  change (256 ^ 0) with 1. change (256 ^ 1) with 256. change (256 ^ 2) with (256 * 256). change (256 ^ 3) with (256 * 256 * 256).
  rewrite <- !Z.div_div by lia. rewrite Z.div_1_r.
  set (a := v / 256). set (b := a / 256). set (c := b / 256).
  pose proof (Z.div_mod v 256 ltac:(lia)). pose proof (Z.div_mod a 256 ltac:(lia)). pose proof (Z.div_mod b 256 ltac:(lia)).
  pose proof (Z.div_mod c 256 ltac:(lia)). fold a in H. fold b in H0. fold c in H1.
  replace (v mod 256 + 256 * (a mod 256) + 65536 * (b mod 256) + 16777216 * (c mod 256)) with (v + (- (c / 256)) * 4294967296) by lia.
  unfold to_i32. rewrite <- (Z.mod_add (v + 2147483648) (- (c / 256))) by lia. f_equal. f_equal. lia.
Qed.

(** What happens to one coefficient. *)
Definition deq (scale add cnt c : Z) : Z := sat_i16 (Z.shiftr (to_i32 (to_i32 (c * scale) + add)) cnt).

Lemma to_i32_range v : -2147483648 <= to_i32 v <= 2147483647.
Proof. unfold to_i32. pose proof (Z.mod_pos_bound (v + 2147483648) 4294967296 ltac:(lia)). lia. Qed.
Lemma to_i32_small v : -2147483648 <= v <= 2147483647 -> to_i32 v = v.
Proof. intros. unfold to_i32. rewrite Z.mod_small; lia. Qed.
Lemma shiftr_range v k : -2147483648 <= v <= 2147483647 -> 0 <= k -> -2147483648 <= Z.shiftr v k <= 2147483647.
Proof.
  intros B K. rewrite Z.shiftr_div_pow2 by exact K. assert (1 <= 2 ^ k) by (pose proof (Z.pow_pos_nonneg 2 k ltac:(lia) K); lia). split.
  - apply Z.div_le_lower_bound; [lia|]. nia.
  - apply Z.div_le_upper_bound; [lia|]. nia.
Qed.

Section Turn.
Variables (scale add cnt : Z) (m4 m5 m6 : reg).
Hypothesis M4 : forall i, i32_of m4 i = scale.
Hypothesis M5 : forall i, i32_of m5 i = add.
Hypothesis M6 : Z.min 31 (q_of m6) = cnt.
Hypothesis C0 : 0 <= cnt.

Lemma lane m p i : i32_of (psrad (paddd (pmulld (pmovsxwd m p) m4) m5) m6) i =
  Z.shiftr (to_i32 (to_i32 (i16_of (load m p) i * scale) + add)) cnt.
Proof.
  unfold psrad, paddd, pmulld, pmovsxwd. rewrite !i32_mk32. rewrite M4, M5, M6.
  rewrite (to_i32_small (i16_of _ _)) by (pose proof (i16_range (load m p) i); lia).
  apply to_i32_small, shiftr_range; [apply to_i32_range|exact C0].
Qed.
Lemma word_shift m p k i : i16_of (load m (p + 2 * k)) i = i16_of (load m p) (k + i).
Proof. unfold i16_of, u16_of, load. f_equal. f_equal; [|f_equal]; f_equal; lia. Qed.
Lemma packed m p i : 0 <= i < 8 ->
  sat_i16 (if i <? 4 then i32_of (psrad (paddd (pmulld (pmovsxwd m p) m4) m5) m6) i
           else i32_of (psrad (paddd (pmulld (pmovsxwd m (p + 8)) m4) m5) m6) (i - 4)) = deq scale add cnt (i16_of (load m p) i).
Proof.
  intros I. destruct (Z.ltb_spec i 4) as [L|L]; rewrite lane; unfold deq; [reflexivity|].
  replace (p + 8) with (p + 2 * 4) by lia. rewrite word_shift. replace (4 + (i - 4)) with i by lia. reflexivity.
Qed.
Lemma packs8 (a b : reg) k : 0 <= k < 16 ->
  packs_epi32 a b k = mk16 (fun i => sat_i16 (if i <? 4 then i32_of a i else i32_of b (i - 4))) k.
Proof.
  intros K. unfold packs_epi32, mk16.
  assert (B : 0 <= k / 2 < 8) by (split; [apply Z.div_pos; lia|apply Z.div_lt_upper_bound; lia]).
  cbv beta zeta. rewrite (Z.div_small (k / 2) 8) by lia. rewrite (Z.mod_small (k / 2) 8) by lia. change (4 * 0) with 0.
  rewrite !Z.add_0_l. destruct (k / 2 <? 4); reflexivity.
Qed.
Lemma half_byte m p k : 0 <= k < 16 ->
  packs_epi32 (psrad (paddd (pmulld (pmovsxwd m p) m4) m5) m6) (psrad (paddd (pmulld (pmovsxwd m (p + 8)) m4) m5) m6) k =
  mk16 (fun i => deq scale add cnt (i16_of (load m p) i)) k.
Proof.
  intros K. rewrite packs8 by exact K. unfold mk16.
  assert (B : 0 <= k / 2 < 8) by (split; [apply Z.div_pos; lia|apply Z.div_lt_upper_bound; lia]).
  cbv beta. rewrite packed by exact B. reflexivity.
Qed.
Lemma mk16_shift (f : Z -> Z) j k : mk16 f (2 * j + k) = mk16 (fun i => f (j + i)) k.
Proof.
  unfold mk16. rewrite Z.even_add, Z.even_mul. cbn [Z.even orb]. cbv beta.
  rewrite (Z.mul_comm 2 j), Z.div_add_l by lia.
  destruct (Z.even k); reflexivity.
Qed.

Definition W (m0 : mem) (p : Z) : reg := mk16 (fun j => deq scale add cnt (i16_of (load m0 p) j)).
Lemma mk16_ext f g k : f (k / 2) = g (k / 2) -> mk16 f k = mk16 g k.
Proof. intros E. unfold mk16. rewrite E. reflexivity. Qed.

(** One turn on memory whose 32 bytes at [q] are those of [m0]. *)
Lemma turn_ok m0 m p i : 0 <= i -> (forall a, m a = store_n (32 * i) m0 p (W m0 p) a) ->
  forall a, dequant_turn m4 m5 m6 (p + 32 * i) m a = store_n (32 * (i + 1)) m0 p (W m0 p) a.
Proof.
  intros I H a. set (q := p + 32 * i). unfold dequant_turn. cbv zeta.
  assert (L : forall k, 0 <= k < 32 -> m (q + k) = m0 (q + k)).
  { intros k K. rewrite H. unfold store_n, q.
    replace ((p <=? p + 32 * i + k) && (p + 32 * i + k <? p + 32 * i)) with false by lia. reflexivity. }
  assert (LW : forall j, 0 <= j < 16 -> i16_of (load m q) j = i16_of (load m0 p) (16 * i + j)).
  { intros j J. unfold i16_of, u16_of, load. rewrite !L by lia. unfold q. f_equal. f_equal; [|f_equal]; f_equal; lia. }
  replace (q + 24) with (q + 16 + 8) by lia. unfold store16, store_n.
  destruct ((q + 16 <=? a) && (a <? q + 16 + 16)) eqn:E1.
  { apply andb_true_iff in E1. destruct E1 as [A1%Z.leb_le A2%Z.ltb_lt].
    replace ((p <=? a) && (a <? p + 32 * (i + 1))) with true by (unfold q in *; lia).
    rewrite half_byte by lia. unfold W. replace (a - p) with (2 * (16 * i + 8) + (a - (q + 16))) by (unfold q; lia).
    rewrite mk16_shift. apply mk16_ext.
    assert (B : 0 <= (a - (q + 16)) / 2 < 8) by (split; [apply Z.div_pos; lia|apply Z.div_lt_upper_bound; lia]).
    replace (q + 16) with (q + 2 * 8) at 1 by lia. rewrite word_shift, LW by lia. f_equal. f_equal. lia. }
  destruct ((q <=? a) && (a <? q + 16)) eqn:E2.
  { apply andb_true_iff in E2. destruct E2 as [A1%Z.leb_le A2%Z.ltb_lt].
    replace ((p <=? a) && (a <? p + 32 * (i + 1))) with true by (unfold q in *; lia).
    rewrite half_byte by lia. unfold W. replace (a - p) with (2 * (16 * i) + (a - q)) by (unfold q; lia).
    rewrite mk16_shift. apply mk16_ext.
    assert (B : 0 <= (a - q) / 2 < 8) by (split; [apply Z.div_pos; lia|apply Z.div_lt_upper_bound; lia]).
    rewrite LW by lia. reflexivity. }
  rewrite H. unfold store_n. apply andb_false_iff in E1, E2. rewrite Z.leb_gt, Z.ltb_ge in E1, E2. unfold q in *.
  destruct ((p <=? a) && (a <? p + 32 * i)) eqn:E3, ((p <=? a) && (a <? p + 32 * (i + 1))) eqn:E4; try reflexivity; exfalso; lia.
Qed.
Lemma turns_ok m0 p n : forall a, loop n (fun i m => dequant_turn m4 m5 m6 (p + 32 * i) m) m0 a = store_n (32 * Z.of_nat n) m0 p (W m0 p) a.
Proof.
  apply (loop_inv mem (fun i m => forall a, m a = store_n (32 * i) m0 p (W m0 p) a)).
  - intros a. unfold store_n. destruct ((p <=? a) && (a <? p + 32 * 0)) eqn:E; [lia|reflexivity].
  - intros i m B H. apply turn_ok; [lia|exact H].
Qed.
End Turn.

Definition turns_of (r1 : Z) : Z := if r1 / 16 =? 0 then 18446744073709551616 else r1 / 16.
Lemma sse4_ok r0 r1 r2 r3 m : r0 mod 16 = 0 -> 0 <= r3 < 18446744073709551616 -> 0 <= r1 ->
  exists r, dequant_sse4 r0 r1 r2 r3 m = Done r /\
  forall a, r a = store_n (32 * turns_of r1) m r0 (W (to_i32 r2) (to_i32 (2 ^ (to_u64 (r3 - 1) mod 64))) (Z.min 31 r3) m r0) a.
Proof.
  intros A B N. unfold dequant_sse4. rewrite A. cbv zeta. change (negb (0 =? 0)) with false. cbv iota.
  rewrite Z.shiftr_div_pow2 by lia. change (2 ^ 4) with 16. fold (turns_of r1).
  eexists. split; [reflexivity|]. intros a.
  assert (T : 0 <= turns_of r1).
  { unfold turns_of. destruct (r1 / 16 =? 0); [lia|apply Z.div_pos; lia]. }
  rewrite (turns_ok (to_i32 r2) (to_i32 (2 ^ (to_u64 (r3 - 1) mod 64))) (Z.min 31 r3)); [rewrite Z2Nat.id by exact T; reflexivity|..].
  - intros i. unfold pshufd0. rewrite i32_mk32, i32_movq. apply to_i32_small, to_i32_range.
  - intros i. unfold pshufd0. rewrite i32_mk32, i32_movq. apply to_i32_small, to_i32_range.
  - rewrite q_movq by exact B. reflexivity.
  - lia.
Qed.

(** The C function on one coefficient and on a list. *)
Lemma dequant1_deq scale shift c r : (if c =? 0 then Done c else dequant1 scale shift c) = Done r -> 1 <= shift <= 31 ->
  deq scale (2 ^ (shift - 1)) shift c = r.
Proof.
  intros E S. assert (P : 1 <= 2 ^ (shift - 1) <= 2 ^ 30).
  { split; [pose proof (Z.pow_pos_nonneg 2 (shift - 1)); lia|apply Z.pow_le_mono_r; lia]. }
  change (2 ^ 30) with 1073741824 in P. unfold deq.
  destruct (Z.eqb_spec c 0) as [->|N].
  - injection E as <-. rewrite Z.mul_0_l. change (to_i32 0) with 0. rewrite Z.add_0_l, to_i32_small by lia.
    rewrite Z.shiftr_div_pow2 by lia. rewrite Z.div_small; [reflexivity|].
    split; [lia|]. apply Z.pow_lt_mono_r; lia.
  - unfold dequant1 in E. replace ((shift <? 1) || (31 <? shift)) with false in E by lia. unfold int32 in E.
    destruct ((-2147483648 <=? c * scale) && (c * scale <=? 2147483647)) eqn:E1; [|discriminate]. cbn [bindo] in E.
    rewrite Z.shiftl_1_l in E.
    destruct ((-2147483648 <=? c * scale + 2 ^ (shift - 1)) && (c * scale + 2 ^ (shift - 1) <=? 2147483647)) eqn:E2; [|discriminate].
    cbn [bindo] in E. apply andb_true_iff in E1, E2. destruct E1 as [A1%Z.leb_le A2%Z.leb_le], E2 as [B1%Z.leb_le B2%Z.leb_le].
    rewrite (to_i32_small (c * scale)) by lia. rewrite to_i32_small by lia.
    injection E as <-. unfold sat_i16, clip3. repeat match goal with |- context [?a <? ?b] => destruct (Z.ltb_spec a b) end; lia.
Qed.
Lemma dequant_c_map scale shift l : forall r, 1 <= shift <= 31 -> dequant_c scale shift l = Done r ->
  map (deq scale (2 ^ (shift - 1)) shift) l = r.
Proof.
  induction l as [|c l IH]; intros r S E; cbn [dequant_c map] in *; [injection E as <-; reflexivity|].
  destruct (if c =? 0 then Done c else dequant1 scale shift c) as [c'| | |] eqn:E1; cbn [bindo] in E; try discriminate.
  destruct (dequant_c scale shift l) as [l'| | |] eqn:E2; cbn [bindo] in E; try discriminate.
  injection E as <-. f_equal; [apply dequant1_deq; assumption|apply IH; [exact S|reflexivity]].
Qed.

Lemma coeffs_word m p n : coeffs m p n = map (fun k => i16_of (load m p) (Z.of_nat k)) (seq 0 n).
Proof. apply map_ext. intros k. unfold i16_of, u16_of, load. f_equal. f_equal. f_equal. f_equal. lia. Qed.

Lemma dequant_sse4_c p n scale shift u m l : p mod 16 = 0 -> 16 <= Z.of_nat n <= 2147483647 -> (Z.of_nat n) mod 16 = 0 ->
  -2147483648 <= scale <= 2147483647 -> to_i32 u = scale -> 1 <= shift <= 31 ->
  dequant_c scale shift (coeffs m p n) = Done l ->
  exists r, dequant_sse4 p (Z.of_nat n) u shift m = Done r /\ coeffs r p n = l /\ only p (2 * Z.of_nat n) m r.
Proof.
  intros A N M SC U S E. destruct (sse4_ok p (Z.of_nat n) u shift m A ltac:(lia) ltac:(lia)) as (r & R & H).
  exists r. split; [exact R|].
  assert (T : 32 * turns_of (Z.of_nat n) = 2 * Z.of_nat n).
  { unfold turns_of. pose proof (Z.div_mod (Z.of_nat n) 16 ltac:(lia)). destruct (Z.eqb_spec (Z.of_nat n / 16) 0); lia. }
  rewrite T in H. replace (to_u64 (shift - 1) mod 64) with (shift - 1) in H by (unfold to_u64; rewrite (Z.mod_small (shift - 1)) by lia; rewrite Z.mod_small; lia).
  assert (P : 0 <= 2 ^ (shift - 1) <= 2 ^ 30).
  { split; [apply Z.pow_nonneg; lia|apply Z.pow_le_mono_r; lia]. }
  change (2 ^ 30) with 1073741824 in P. rewrite (to_i32_small (2 ^ (shift - 1))) in H by lia.
  rewrite U, Z.min_r in H by lia.
  split.
  - rewrite <- (dequant_c_map _ _ _ _ S E). rewrite !coeffs_word, map_map. apply map_ext_in. intros k K. apply in_seq in K.
    unfold i16_of at 1, u16_of, load. rewrite !H. unfold store_n.
    replace ((p <=? p + 2 * Z.of_nat k) && (p + 2 * Z.of_nat k <? p + 2 * Z.of_nat n)) with true by lia.
    replace ((p <=? p + (2 * Z.of_nat k + 1)) && (p + (2 * Z.of_nat k + 1) <? p + 2 * Z.of_nat n)) with true by lia.
    replace (p + 2 * Z.of_nat k - p) with (2 * Z.of_nat k) by lia. replace (p + (2 * Z.of_nat k + 1) - p) with (2 * Z.of_nat k + 1) by lia.
    match goal with |- to_i16 (?w ?x + _) = _ => change (i16_of w (Z.of_nat k) = deq scale (2 ^ (shift - 1)) shift (i16_of (load m p) (Z.of_nat k))) end.
    unfold W. rewrite i16_mk16. apply to_i16_id. unfold deq. apply sat_i16_range.
  - intros a O. rewrite H. unfold store_n. replace ((p <=? a) && (a <? p + 2 * Z.of_nat n)) with false by lia. reflexivity.
Qed.

Lemma dequant_levels depth qp bits p n m : depth_ok depth -> 0 <= qp <= 79 -> 2 <= bits <= 6 ->
  p mod 16 = 0 -> 16 <= Z.of_nat n <= 2147483647 -> (Z.of_nat n) mod 16 = 0 ->
  exists shift scale l r, quant_params depth qp bits = Done (shift, scale) /\ dequant_c scale shift (coeffs m p n) = Done l /\
    dequant_sse4 p (Z.of_nat n) scale shift m = Done r /\ coeffs r p n = l /\ only p (2 * Z.of_nat n) m r.
Proof.
  intros D Q B P N M.
  assert (I : Forall in_i16 (coeffs m p n)).
  { apply Forall_forall. intros c C. apply in_map_iff in C. destruct C as (k & <- & _). apply to_i16_range. }
  destruct (dequant_block depth qp bits (coeffs m p n) D Q B I) as (shift & scale & l & E & L & _).
  destruct (dequant_spec depth qp bits 1 D Q B ltac:(unfold in_i16; lia)) as (shift' & scale' & c & E' & G & _).
  rewrite E in E'. injection E' as <- <-.
  unfold dequant1 in G. destruct ((shift <? 1) || (31 <? shift)) eqn:S; [discriminate|]. apply orb_false_iff in S.
  destruct S as [S1%Z.ltb_ge S2%Z.ltb_ge]. unfold int32 in G.
  destruct ((-2147483648 <=? 1 * scale) && (1 * scale <=? 2147483647)) eqn:S3; [|discriminate].
  apply andb_true_iff in S3. destruct S3 as [S3%Z.leb_le S4%Z.leb_le].
  destruct (dequant_sse4_c p n scale shift scale m l P N M ltac:(lia) (to_i32_small scale ltac:(lia)) ltac:(lia) L) as (r & R).
  exists shift, scale, l, r. tauto.
Qed.
