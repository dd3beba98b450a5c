(** Secondary transforms and the table of vector transforms. *)
From Coq Require Import ZArith List Bool Lia.
From Verif Require Import CBase MemModel MemProofs SaoModel SaoProofs VxModelBase VdModel ViModel VjModel SynModel SynSpec TrModel VxProofs ViProofs AlfSpec McSpec TrSpec TrProofs TrProofsB
  VtModel VtModelA VtModelB VtModelC VtModelD VtModelE VtModelF VtModelG VtSpec VtProofs VtProofsB VtProofsC VtProofsD VtProofsE.
Import ListNotations.
Open Scope Z_scope.

(** ** Secondary transforms. *)
Lemma i32_min a b i : i32_of (min_epi32 a b) i = Z.min (i32_of a i) (i32_of b i).
Proof. unfold min_epi32. rewrite i32_mk32. apply to_i32_id. pose proof (i32_range a i). pose proof (i32_range b i). lia. Qed.
Lemma i32_max a b i : i32_of (max_epi32 a b) i = Z.max (i32_of a i) (i32_of b i).
Proof. unfold max_epi32. rewrite i32_mk32. apply to_i32_id. pose proof (i32_range a i). pose proof (i32_range b i). lia. Qed.
Lemma prod_at a b x A B : i16_of a (2 * x) = A -> i16_of b (2 * x) = B -> (i16_of a (2 * x + 1) = 0 \/ i16_of b (2 * x + 1) = 0) -> Z.abs (A * B) <= 4194304 ->
  i32_of (madd_epi16 a b) x = A * B.
Proof.
  intros EA EB EZ R0. rewrite i32_madd, EA, EB. replace (i16_of a (2 * x + 1) * i16_of b (2 * x + 1)) with 0 by (destruct EZ as [->| ->]; lia).
  rewrite Z.add_0_r. apply to_i32_id. lia.
Qed.
Lemma sum_at a0 b0 a1 b1 a2 b2 a3 b3 f sh x p0 p1 p2 p3 r : 0 <= sh -> 0 <= r <= 65536 -> i32_of f x = r ->
  i32_of (madd_epi16 a0 b0) x = p0 -> i32_of (madd_epi16 a1 b1) x = p1 -> i32_of (madd_epi16 a2 b2) x = p2 -> i32_of (madd_epi16 a3 b3) x = p3 ->
  Z.abs p0 <= 4194304 -> Z.abs p1 <= 4194304 -> Z.abs p2 <= 4194304 -> Z.abs p3 <= 4194304 ->
  i32_of (sec_sum a0 b0 a1 b1 a2 b2 a3 b3 f sh) x = Z.shiftr (p0 + p1 + p2 + p3 + r) sh.
Proof.
  intros Hs Hr Ef E0 E1 E2 E3 B0 B1 B2 B3. unfold sec_sum. rewrite i32_srai by exact Hs. rewrite !i32_add, E0, E1, E2, E3, Ef.
  rewrite (to_i32_id (p0 + p1)), (to_i32_id (p2 + p3)) by lia. rewrite (to_i32_id (p0 + p1 + (p2 + p3))) by lia. rewrite to_i32_id by lia. f_equal. lia.
Qed.
Lemma i16_dword z x : -32768 <= z <= 32767 -> i16_of (set1_epi32 z) (2 * x) = z.
Proof. intros Hz. rewrite i16_set1_32. rewrite Z.even_mul. cbn [Z.even orb]. apply to_i16_id, Hz. Qed.
Lemma small_tc tc k : (forall i, -128 <= at_l tc i <= 127) -> -32768 <= at_l tc k <= 32767.
Proof. intros Ht. specialize (Ht k). lia. Qed.
Lemma zero_word i : i16_of setzero i = 0.
Proof. reflexivity. Qed.
Lemma tc_lo tc k x : (forall i, -128 <= at_l tc i <= 127) -> 0 <= x < 4 ->
  i16_of (unpacklo_epi16 (load_tc tc k) setzero) (2 * x) = at_l tc (k + x) /\ i16_of (unpacklo_epi16 (load_tc tc k) setzero) (2 * x + 1) = 0.
Proof.
  intros Ht Hx. destruct (i16_unlo16 (load_tc tc k) setzero x Hx) as [-> ->]. split; [|apply zero_word]. unfold load_tc. apply i16_loadw. apply small_tc, Ht.
Qed.
Lemma tc_hi tc k x : (forall i, -128 <= at_l tc i <= 127) -> 0 <= x < 4 ->
  i16_of (unpackhi_epi16 (load_tc tc k) setzero) (2 * x) = at_l tc (k + (4 + x)) /\ i16_of (unpackhi_epi16 (load_tc tc k) setzero) (2 * x + 1) = 0.
Proof.
  intros Ht Hx. destruct (i16_unhi16 (load_tc tc k) setzero x Hx) as [-> ->]. split; [|apply zero_word]. unfold load_tc. apply i16_loadw. apply small_tc, Ht.
Qed.
Lemma prod_small a b : -128 <= a <= 127 -> -32768 <= b <= 32767 -> Z.abs (a * b) <= 4194304.
Proof. intros Ha Hb. rewrite Z.abs_mul. change 4194304 with (128 * 32768). apply Z.mul_le_mono_nonneg; lia. Qed.
Lemma rnd_small sh : 1 <= sh <= 16 -> 0 <= Z.shiftl 1 (sh - 1) <= 65536.
Proof. intros Hs. rewrite Z.shiftl_1_l. split; [apply Z.pow_nonneg; lia|]. apply Z.le_trans with (2 ^ 15); [apply Z.pow_le_mono_r; lia|lia]. Qed.

(** Four lines, each replaced by values of the memory before. *)
Lemma lines4 p ic (F : Z -> Z -> Z) (step : Z -> mem -> mem) (m : mem) : 4 <= ic ->
  (forall j mm, 0 <= j < 4 -> (forall x, 0 <= x < 4 -> mm (p + j * ic + x) = m (p + j * ic + x)) ->
     forall q, step j mm q = if (p + j * ic <=? q) && (q <? p + j * ic + 4) then F (q - (p + j * ic)) j else mm q) ->
  (forall x y, 0 <= x < 4 -> 0 <= y < 4 -> floop 0 4 step m (p + y * ic + x) = F x y) /\
  (forall q, ~ in_block 4 4 p ic q -> floop 0 4 step m q = m q).
Proof.
  intros Hi Hs.
  assert (P : (forall x y, 0 <= x < 4 -> 0 <= y < 4 -> floop 0 4 step m (p + y * ic + x) = F x y) /\
    (forall q, (forall x y, 0 <= x < 4 -> 0 <= y < 4 -> q <> p + y * ic + x) -> floop 0 4 step m q = m q)).
  { apply (floop_inv (fun j (mm : mem) => (forall x y, 0 <= x < 4 -> 0 <= y < j -> mm (p + y * ic + x) = F x y) /\
      (forall q, (forall x y, 0 <= x < 4 -> 0 <= y < j -> q <> p + y * ic + x) -> mm q = m q))); [lia|split; [intros; lia|reflexivity]|].
    intros j mm Hj [A B].
    assert (S1 := Hs j mm Hj). specialize (S1 ltac:(intros x Hx; apply B; intros x' y' Hx' Hy' E; nia)). split.
    - intros x y Hx Hy. rewrite S1. destruct ((p + j * ic <=? p + y * ic + x) && (p + y * ic + x <? p + j * ic + 4)) eqn:C.
      + assert (y = j) by nia. subst y. f_equal. lia.
      + apply A; [exact Hx|]. assert (y <> j) by (intros ->; lia). lia.
    - intros q Nq. rewrite S1. destruct ((p + j * ic <=? q) && (q <? p + j * ic + 4)) eqn:C.
      + exfalso. apply (Nq (q - (p + j * ic)) j); lia.
      + apply B. intros x y Hx Hy. apply Nq; lia. }
  destruct P as [P1 P2]. split; [exact P1|]. intros q Nq. apply P2. intros x y Hx Hy E. apply Nq. exists x, y. unfold bpos. split; [exact Hx|]. split; [exact Hy|exact E].
Qed.
Lemma storew4 m a r q : storew 4 m a r q = if (a <=? q) && (q <? a + 4) then i16_of r (q - a) else m q.
Proof. reflexivity. Qed.
Lemma pack_lo v x : 0 <= x < 4 -> i16_of (packs_epi32 v setzero) x = sat_i16 (i32_of v x).
Proof. apply i16_packs32_lo. Qed.

Definition limits (lm : reg -> reg) (b : Z) : Prop := forall v x, 0 <= x < 4 -> sat_i16 (i32_of (lm v) x) = TrSpec.lim b (i32_of v x).
Lemma limits_16 : limits (fun v => v) 16.
Proof. intros v x _. reflexivity. Qed.
Lemma limits_b d : mc_depth d -> limits (fun v => max_epi32 (min_epi32 v (set1_epi32 (Z.shiftl 1 (d + 1 - 1) - 1))) (set1_epi32 (- Z.shiftl 1 (d + 1 - 1)))) (d + 1).
Proof.
  intros Hd v x Hx. unfold mc_depth in Hd. rewrite i32_max, i32_min. rewrite !Z.shiftl_1_l. replace (d + 1 - 1) with d by lia.
  assert (2 ^ 8 <= 2 ^ d <= 2 ^ 12) by (split; apply Z.pow_le_mono_r; lia). change (2 ^ 8) with 256 in *. change (2 ^ 12) with 4096 in *.
  rewrite !i32_set1 by lia. unfold lim, clamp. replace (d + 1 - 1) with d by lia. unfold sat_i16. lia.
Qed.
Lemma hor_v tc sh lm b p ic m : (forall i, -128 <= at_l tc i <= 127) -> 1 <= sh <= 16 -> limits lm b -> 4 <= ic -> corner16 p ic m ->
  (forall x y, 0 <= x < 4 -> 0 <= y < 4 -> sec_hor_v tc sh lm p ic m (p + y * ic + x) = hor4 tc sh b (coeffs_at m p ic) x y) /\
  (forall q, ~ in_block 4 4 p ic q -> sec_hor_v tc sh lm p ic m q = m q).
Proof.
  intros Ht Hs Hl Hi H16. unfold sec_hor_v. cbv zeta. apply lines4; [exact Hi|]. intros j mm Hj Hm q. rewrite storew4.
  destruct ((p + j * ic <=? q) && (q <? p + j * ic + 4)) eqn:C; [|reflexivity]. set (x := q - (p + j * ic)). assert (Hx : 0 <= x < 4) by lia. clearbody x. clear C q.
  assert (M : forall k, 0 <= k < 4 -> mm (p + j * ic + k) = m (p + j * ic + k) /\ -32768 <= mm (p + j * ic + k) <= 32767) by (intros k Hk; rewrite (Hm k Hk); split; [reflexivity|apply H16; assumption]).
  pose proof (M 0 ltac:(lia)) as [M0 R0]. pose proof (M 1 ltac:(lia)) as [M1 R1]. pose proof (M 2 ltac:(lia)) as [M2 R2]. pose proof (M 3 ltac:(lia)) as [M3 R3]. rewrite Z.add_0_r in M0, R0.
  destruct (tc_lo tc 0 x Ht Hx) as [A0 Z0]. destruct (tc_hi tc 0 x Ht Hx) as [A1 Z1]. destruct (tc_lo tc 8 x Ht Hx) as [A2 Z2]. destruct (tc_hi tc 8 x Ht Hx) as [A3 Z3].
  rewrite pack_lo by exact Hx. rewrite Hl by exact Hx. pose proof (rnd_small sh Hs) as RS.
  assert (S : i32_of (sec_sum (unpacklo_epi16 (load_tc tc 0) setzero) (set1_epi32 (mm (p + j * ic))) (unpackhi_epi16 (load_tc tc 0) setzero) (set1_epi32 (mm (p + j * ic + 1)))
      (unpacklo_epi16 (load_tc tc 8) setzero) (set1_epi32 (mm (p + j * ic + 2))) (unpackhi_epi16 (load_tc tc 8) setzero) (set1_epi32 (mm (p + j * ic + 3))) (set1_epi32 (Z.shiftl 1 (sh - 1))) sh) x
    = Z.shiftr (at_l tc (0 + x) * mm (p + j * ic) + at_l tc (0 + (4 + x)) * mm (p + j * ic + 1) + at_l tc (8 + x) * mm (p + j * ic + 2) + at_l tc (8 + (4 + x)) * mm (p + j * ic + 3) + Z.shiftl 1 (sh - 1)) sh).
  { apply sum_at; try (apply prod_small; [apply Ht|assumption]); try (apply prod_at; [eassumption|apply i16_dword; assumption|left; assumption|apply prod_small; [apply Ht|assumption]]).
    - lia.
    - exact RS.
    - apply i32_set1. lia. }
  rewrite S, M0, M1, M2, M3. rewrite Z.add_comm, shift_rshift_l by lia. unfold hor4. rewrite zsum4. unfold mat4, coeffs_at, at_l.
  replace (0 * 4 + x) with (0 + x) by lia. replace (1 * 4 + x) with (0 + (4 + x)) by lia. replace (2 * 4 + x) with (8 + x) by lia. replace (3 * 4 + x) with (8 + (4 + x)) by lia.
  rewrite (Z.add_0_r (p + j * ic)). reflexivity.
Qed.
Lemma ver_v tc sh p ic m : (forall i, -128 <= at_l tc i <= 127) -> 1 <= sh <= 16 -> 4 <= ic -> corner16 p ic m ->
  (forall x y, 0 <= x < 4 -> 0 <= y < 4 -> sec_ver_v tc sh p ic m (p + y * ic + x) = ver4 tc sh (coeffs_at m p ic) x y) /\
  (forall q, ~ in_block 4 4 p ic q -> sec_ver_v tc sh p ic m q = m q).
Proof.
  intros Ht Hs Hi H16. unfold sec_ver_v. cbv zeta. apply lines4; [exact Hi|]. intros j mm Hj Hm q. rewrite storew4.
  destruct ((p + j * ic <=? q) && (q <? p + j * ic + 4)) eqn:C; [|reflexivity]. set (x := q - (p + j * ic)). assert (Hx : 0 <= x < 4) by lia. clearbody x. clear C q Hm mm.
  assert (L : forall k, 0 <= k < 4 -> i16_of (unpacklo_epi16 (loadw m (p + k * ic)) setzero) (2 * x) = m (p + k * ic + x) /\ i16_of (unpacklo_epi16 (loadw m (p + k * ic)) setzero) (2 * x + 1) = 0 /\ -32768 <= m (p + k * ic + x) <= 32767).
  { intros k Hk. destruct (i16_unlo16 (loadw m (p + k * ic)) setzero x Hx) as [-> ->]. pose proof (H16 x k Hx Hk). split; [apply i16_loadw; assumption|]. split; [apply zero_word|assumption]. }
  pose proof (L 0 ltac:(lia)) as (A0 & Z0 & R0). pose proof (L 1 ltac:(lia)) as (A1 & Z1 & R1). pose proof (L 2 ltac:(lia)) as (A2 & Z2 & R2). pose proof (L 3 ltac:(lia)) as (A3 & Z3 & R3).
  replace (p + 0 * ic) with p in A0, Z0, R0 by lia.
  rewrite pack_lo by exact Hx. pose proof (rnd_small sh Hs) as RS.
  assert (S : i32_of (sec_sum (set1_epi32 (at_l tc (0 * 4 + j))) (unpacklo_epi16 (loadw m p) setzero) (set1_epi32 (at_l tc (1 * 4 + j))) (unpacklo_epi16 (loadw m (p + 1 * ic)) setzero)
      (set1_epi32 (at_l tc (2 * 4 + j))) (unpacklo_epi16 (loadw m (p + 2 * ic)) setzero) (set1_epi32 (at_l tc (3 * 4 + j))) (unpacklo_epi16 (loadw m (p + 3 * ic)) setzero) (set1_epi32 (Z.shiftl 1 (sh - 1))) sh) x
    = Z.shiftr (at_l tc (0 * 4 + j) * m (p + x) + at_l tc (1 * 4 + j) * m (p + 1 * ic + x) + at_l tc (2 * 4 + j) * m (p + 2 * ic + x) + at_l tc (3 * 4 + j) * m (p + 3 * ic + x) + Z.shiftl 1 (sh - 1)) sh).
  { apply sum_at; try (apply prod_small; [apply Ht|assumption]); try (apply prod_at; [apply i16_dword, small_tc, Ht|eassumption|right; assumption|apply prod_small; [apply Ht|assumption]]).
    - lia.
    - exact RS.
    - apply i32_set1. lia. }
  rewrite S. rewrite Z.add_comm, shift_rshift_l by lia. change sat_i16 with (lim 16). unfold ver4. rewrite zsum4. unfold mat4, coeffs_at, at_l.
  replace (p + 0 * ic) with p by lia. reflexivity.
Qed.

Lemma g2T_small i : -128 <= at_l g_2T i <= 127.
Proof. unfold at_l. generalize (Z.to_nat i). intros n. do 16 (destruct n as [|n]; [cbn; lia|]). destruct n; cbn; lia. Qed.
Lemma g2TC_small i : -128 <= at_l g_2T_C i <= 127.
Proof. unfold at_l. generalize (Z.to_nat i). intros n. do 16 (destruct n as [|n]; [cbn; lia|]). destruct n; cbn; lia. Qed.
Lemma in_block_dec w h p ic q : 0 < ic -> in_block w h p ic q \/ ~ in_block w h p ic q.
Proof.
  intros Hi. unfold in_block, bpos.
  assert (D : forall n : nat, (exists y, 0 <= y < Z.of_nat n /\ exists x, 0 <= x < Z.of_nat w /\ q = p + y * ic + x) \/ ~ (exists y, 0 <= y < Z.of_nat n /\ exists x, 0 <= x < Z.of_nat w /\ q = p + y * ic + x)).
  { induction n as [|n [A|A]].
    - right. intros (y & Hy & _). lia.
    - left. destruct A as (y & Hy & A). exists y. split; [lia|exact A].
    - destruct (Z_lt_dec (q - (p + Z.of_nat n * ic)) 0) as [L1|L1]; [|destruct (Z_lt_dec (q - (p + Z.of_nat n * ic)) (Z.of_nat w)) as [L2|L2]].
      + right. intros (y & Hy & x & Hx & E). destruct (Z.eq_dec y (Z.of_nat n)) as [->|]; [lia|]. apply A. exists y. split; [lia|]. exists x. auto.
      + left. exists (Z.of_nat n). split; [lia|]. exists (q - (p + Z.of_nat n * ic)). lia.
      + right. intros (y & Hy & x & Hx & E). destruct (Z.eq_dec y (Z.of_nat n)) as [->|]; [lia|]. apply A. exists y. split; [lia|]. exists x. auto. }
  destruct (D h) as [(y & Hy & x & Hx & E)|N]; [left; exists x, y; auto|right; intros (x & y & Hx & Hy & E); apply N; exists y; split; [exact Hy|exists x; auto]].
Qed.
(** The same memory as the C functions. *)
Lemma hor_v_eq tc sh lm b p ic m : (forall i, -128 <= at_l tc i <= 127) -> 1 <= sh <= 16 -> 1 <= b <= 16 -> limits lm b -> 4 <= ic -> corner16 p ic m ->
  forall q, sec_hor_v tc sh lm p ic m q = tr2nd_hor tc sh b p ic m q.
Proof.
  intros Ht Hs Hb Hl Hi H16 q. destruct (hor_v tc sh lm b p ic m Ht Hs Hl Hi H16) as [A B]. destruct (hor_spec tc sh b p ic m ltac:(lia) Hb Hi) as [A' B'].
  destruct (in_block_dec 4 4 p ic q ltac:(lia)) as [(x & y & Hx & Hy & ->)|N]; [unfold bpos; rewrite A, A' by assumption; reflexivity|rewrite B, B' by exact N; reflexivity].
Qed.
Lemma ver_v_eq tc sh p ic m : (forall i, -128 <= at_l tc i <= 127) -> 1 <= sh <= 16 -> 4 <= ic -> corner16 p ic m ->
  forall q, sec_ver_v tc sh p ic m q = tr2nd_ver tc sh p ic m q.
Proof.
  intros Ht Hs Hi H16 q. destruct (ver_v tc sh p ic m Ht Hs Hi H16) as [A B]. destruct (ver_spec tc sh p ic m ltac:(lia) Hi) as [A' B'].
  destruct (in_block_dec 4 4 p ic q ltac:(lia)) as [(x & y & Hx & Hy & ->)|N]; [unfold bpos; rewrite A, A' by assumption; reflexivity|rewrite B, B' by exact N; reflexivity].
Qed.
Lemma lim16_range v : -32768 <= lim 16 v <= 32767.
Proof. unfold lim, clamp. change (2 ^ (16 - 1)) with 32768. lia. Qed.
Lemma tr2nd_ver_ext tc sh p ic m m' : 0 < sh -> 4 <= ic -> (forall q, m q = m' q) -> forall q, tr2nd_ver tc sh p ic m q = tr2nd_ver tc sh p ic m' q.
Proof.
  intros Hs Hi E q. destruct (ver_spec tc sh p ic m Hs Hi) as [A B]. destruct (ver_spec tc sh p ic m' Hs Hi) as [A' B'].
  destruct (in_block_dec 4 4 p ic q ltac:(lia)) as [(x & y & Hx & Hy & ->)|N]; [|rewrite B, B' by exact N; apply E].
  unfold bpos. rewrite A, A' by assumption. apply ver4_ext. intros. apply E.
Qed.
Lemma tr2nd_hor_ext tc sh b p ic m m' : 0 < sh -> 1 <= b <= 16 -> 4 <= ic -> (forall q, m q = m' q) -> forall q, tr2nd_hor tc sh b p ic m q = tr2nd_hor tc sh b p ic m' q.
Proof.
  intros Hs Hb Hi E q. destruct (hor_spec tc sh b p ic m Hs Hb Hi) as [A B]. destruct (hor_spec tc sh b p ic m' Hs Hb Hi) as [A' B'].
  destruct (in_block_dec 4 4 p ic q ltac:(lia)) as [(x & y & Hx & Hy & ->)|N]; [|rewrite B, B' by exact N; apply E].
  unfold bpos. rewrite A, A' by assumption. apply hor4_ext. intros. apply E.
Qed.
Lemma inv_2nd_v_eq p ic mode b_top b_left m : 4 <= ic -> corner16 p ic m -> forall q, inv_2nd_v p ic mode b_top b_left m q = inv_2nd p ic mode b_top b_left m q.
Proof.
  intros Hi H16. unfold inv_2nd_v, inv_2nd. cbv zeta. set (hb := _ && b_left). set (vb := _ && b_top).
  assert (E1 : forall q, (if hb then sec_hor_v g_2T 7 (fun v => v) p ic m else m) q = (if hb then tr2nd_hor g_2T 7 16 p ic m else m) q).
  { intros q. destruct hb; [|reflexivity]. apply hor_v_eq; try assumption; try lia; [apply g2T_small|apply limits_16]. }
  assert (C1 : corner16 p ic (if hb then sec_hor_v g_2T 7 (fun v => v) p ic m else m)).
  { destruct hb; [|exact H16]. intros x y Hx Hy. rewrite (proj1 (hor_v g_2T 7 (fun v => v) 16 p ic m g2T_small ltac:(lia) limits_16 Hi H16)) by assumption. apply lim16_range. }
  intros q. destruct vb; [|apply E1]. rewrite ver_v_eq by (try assumption; try lia; apply g2T_small). apply tr2nd_ver_ext; [lia|exact Hi|exact E1].
Qed.
Lemma inv_4x4_v_eq d p ic m : mc_depth d -> 4 <= ic -> corner16 p ic m -> forall q, inv_4x4_2nd_v d p ic m q = inv_4x4_2nd d p ic m q.
Proof.
  intros Hd Hi H16 q. unfold inv_4x4_2nd_v, inv_4x4_2nd. cbv zeta. pose proof Hd as Hd'. unfold mc_depth in Hd'.
  assert (C1 : corner16 p ic (sec_ver_v g_2T_C 5 p ic m)).
  { intros x y Hx Hy. rewrite (proj1 (ver_v g_2T_C 5 p ic m g2TC_small ltac:(lia) Hi H16)) by assumption. apply lim16_range. }
  rewrite (hor_v_eq g_2T_C (20 - d + 2) _ (d + 1)); [|apply g2TC_small|lia|lia|apply limits_b, Hd|exact Hi|exact C1].
  apply tr2nd_hor_ext; [lia|lia|exact Hi|]. intros q'. apply ver_v_eq; try assumption; try lia. apply g2TC_small.
Qed.

(** ** The table. *)
Definition vgood (w h kh kv : Z) (f : vidct) : Prop := forall d p l1 l2 m, mc_depth d ->
  coeffs16 (coeff_width w h) (coeff_height w h) p m -> zero_beyond kh kv (coeff_width w h) (coeff_height w h) p m ->
  (forall x y, 0 <= x < w -> 0 <= y < h -> f d p (coeff_width w h) l1 l2 m (p + y * w + x) = primary w h d (coeffs_at m p (coeff_width w h)) x y) /\
  (forall q, q < p \/ p + w * h <= q -> f d p (coeff_width w h) l1 l2 m q = m q).
Definition small_size (bh bv kh kv : nat) : Prop := (0 < bh <= 64)%nat /\ (0 < bv <= 64)%nat /\ (kh <= bh)%nat /\ (kv <= bv)%nat /\ (bh * bv <= 4096 - 64)%nat.
(** What the checks give: the residual with flag [fl] at pitch [bh]. *)
Definition hv_ok (bh bv kh kv : nat) (fl : Z) (f : Z -> Z -> locals -> mem -> mem) : Prop := forall d p l m, mc_depth d ->
  coeffs16 (Z.of_nat bh) (Z.of_nat bv) p m -> zero_beyond (Z.of_nat kh) (Z.of_nat kv) (Z.of_nat bh) (Z.of_nat bv) p m ->
  (forall x y, 0 <= x < Z.of_nat bh -> 0 <= y < Z.of_nat bv -> f d p l m (p + y * Z.of_nat bh + x) = residual bh bv fl d (coeffs_at m p (Z.of_nat bh)) x y) /\
  (forall q, ~ in_block bh bv p (Z.of_nat bh) q -> f d p l m q = m q).
Lemma run_ok flat bh bv kh kv k fl : idct_check flat bh bv kh kv k = true -> small_size bh bv kh kv -> 0 <= fl <= 1 ->
  hv_ok bh bv kh kv fl (fun d p l m => run k (kernel_params d fl) p p (Z.of_nat bh) (fst l) (snd l) m).
Proof.
  intros Hc (S1 & S2 & S3 & S4 & S5) Hf d p l m Hd H16 H0.
  refine (idct_check_ok flat bh bv kh kv k Hc S1 S2 S3 S4 S5 d fl p p (Z.of_nat bh) (fst l) (snd l) m Hd Hf _ H16 H0). destruct flat; lia.
Qed.
Lemma run0_ok bh bv kh kv k fl st : idct_check0 bh bv kh kv k = true -> small_size bh bv kh kv -> 0 <= fl <= 1 ->
  hv_ok bh bv kh kv fl (fun d p l m => run k (kernel_params d fl) p p st (fst l) (snd l) m).
Proof.
  intros Hc (S1 & S2 & S3 & S4 & S5) Hf d p l m Hd H16 H0.
  exact (idct_check0_ok bh bv kh kv k Hc S1 S2 S3 S4 S5 d fl p p st (fst l) (snd l) m Hd Hf H16 H0).
Qed.
Lemma hv_vgood bh bv kh kv f : hv_ok bh bv kh kv 0 f -> is_doubled (Z.of_nat bh) (Z.of_nat bv) = false ->
  vgood (Z.of_nat bh) (Z.of_nat bv) (Z.of_nat kh) (Z.of_nat kv) (fun d p _ l1 _ m => f d p l1 m).
Proof.
  intros Hf ND d p l1 l2 m Hd. unfold coeff_width, coeff_height. rewrite ND. intros H16 H0. destruct (Hf d p l1 m Hd H16 H0) as [A B]. split.
  - intros x y Hx Hy. rewrite A by assumption. unfold primary. rewrite ND, !Nat2Z.id. reflexivity.
  - intros q Hq. apply B, out_block; [lia|exact Hq].
Qed.
Lemma i16_of_residual bh bv d c x y : mc_depth d -> -32768 <= residual bh bv 1 d c x y <= 32767.
Proof.
  intros Hd. pose proof (residual_range bh bv 1 d c x y ltac:(lia) Hd). unfold mc_depth in Hd. assert (2 ^ (d + 1) <= 2 ^ 13) by (apply Z.pow_le_mono_r; lia). change (2 ^ 13) with 8192 in *. lia.
Qed.
Lemma double_vgood bh bv kh kv f k : hv_ok bh bv kh kv 1 f -> wavelet_check (Z.of_nat bh) (Z.of_nat bv) k = true -> is_doubled (2 * Z.of_nat bh) (2 * Z.of_nat bv) = true ->
  (0 < bh)%nat -> (0 < bv)%nat -> Z.of_nat bh * Z.of_nat bv <= 4096 ->
  vgood (2 * Z.of_nat bh) (2 * Z.of_nat bv) (Z.of_nat kh) (Z.of_nat kv) (fun d p _ l1 l2 m => run k (fun _ => 0) p p 0 (fst l2) (snd l2) (f d p l1 m)).
Proof.
  intros Hf Hw ID B1 B2 Sz d p l1 l2 m Hd. unfold coeff_width, coeff_height. rewrite ID, !TrProofsB.two_half. intros H16 H0. destruct (Hf d p l1 m Hd H16 H0) as [A B].
  destruct (wavelet_check_ok (Z.of_nat bh) (Z.of_nat bv) k Hw ltac:(lia) ltac:(lia) Sz p p 0 (fst l2) (snd l2) (f d p l1 m)) as [C D].
  { intros x y Hx Hy. rewrite A by assumption. apply i16_of_residual, Hd. }
  split.
  - intros x y Hx Hy. rewrite C by assumption. unfold primary. rewrite ID, !TrProofsB.two_half, !Nat2Z.id.
    apply doubled_ext; [assumption|assumption|apply TrProofsB.two_mod|apply TrProofsB.two_mod|]. rewrite !TrProofsB.two_half. intros u v Hu Hv. apply A; assumption.
  - intros q Hq. rewrite D by (intros (x & y & Hx & Hy & ->); nia). apply B. apply out_block; [lia|]. nia.
Qed.
Lemma vgood_eq w h kh kv f g : (forall d p l1 l2 m, f d p (coeff_width w h) l1 l2 m = g d p (coeff_width w h) l1 l2 m) -> vgood w h kh kv g -> vgood w h kh kv f.
Proof. intros E G d p l1 l2 m Hd H16 H0. rewrite E. exact (G d p l1 l2 m Hd H16 H0). Qed.
Lemma vgood_all w h kh kv f : vgood w h (coeff_width w h) (coeff_height w h) f -> vgood w h kh kv f.
Proof. intros G d p l1 l2 m Hd H16 _. apply (G d p l1 l2 m Hd H16). intros u v Hu Hv [L1|L1]; lia. Qed.
Local Opaque run idct_4x4_sse128_flat idct_4x4_sse128 idct_4x16_sse128_flat idct_4x16_sse128 idct_16x4_sse128 idct_8x8_sse128 idct_16x16_sse128 idct_16x16_half_sse128 idct_16x16_quad_sse128 idct_32x8_sse128 idct_8x32_sse128 idct_32x32_sse128 idct_32x32_half_sse128 idct_32x32_quad_sse128 idct_8x8_avx2 idct_16x16_avx2 idct_32x32_avx2 inv_wavelet_64x16_sse128 inv_wavelet_16x64_sse128 inv_wavelet_64x64_sse128 inv_wavelet_64x16_avx2 inv_wavelet_16x64_avx2 inv_wavelet_64x64_avx2 idct_check idct_check0 wavelet_check primary.
Ltac sz := unfold small_size; lia.
Ltac entry h := eexists; split; [reflexivity|]; eapply vgood_eq; [|h]; intros; reflexivity.
Lemma table_good avx2 w h pat : In (w, h) block_sizes -> 0 <= pat <= 2 ->
  exists f, vidct_of avx2 w h pat = Some f /\ vgood w h (Z.max 4 (fst (region (coeff_width w h) (coeff_height w h) pat))) (Z.max 4 (snd (region (coeff_width w h) (coeff_height w h) pat))) f.
Proof.
  intros HS Hp. assert (Ep : pat = 0 \/ pat = 1 \/ pat = 2) by lia. clear Hp.
  unfold block_sizes in HS. cbn [In] in HS.
  repeat (destruct HS as [HS | HS]; [apply pair_equal_spec in HS; destruct HS as [<- <-]|]); try contradiction.
  - destruct Ep as [->|[->| ->]]; entry ltac:(apply vgood_all; exact (hv_vgood 4 4 4 4 _ (run_ok true 4 4 4 4 _ 0 chk_4x4_flat ltac:(sz) ltac:(lia)) eq_refl)).
  - destruct Ep as [->|[->| ->]].
    + destruct avx2; [entry ltac:(apply vgood_all; exact (hv_vgood 8 8 8 8 _ (run0_ok 8 8 8 8 _ 0 8 chk_8x8_avx2 ltac:(sz) ltac:(lia)) eq_refl))
                     |entry ltac:(apply vgood_all; exact (hv_vgood 8 8 8 8 _ (run_ok false 8 8 8 8 _ 0 chk_8x8 ltac:(sz) ltac:(lia)) eq_refl))].
    + entry ltac:(apply vgood_all; exact (hv_vgood 8 8 8 8 _ (run_ok false 8 8 8 8 _ 0 chk_8x8 ltac:(sz) ltac:(lia)) eq_refl)).
    + entry ltac:(apply vgood_all; exact (hv_vgood 8 8 8 8 _ (run_ok false 8 8 8 8 _ 0 chk_8x8 ltac:(sz) ltac:(lia)) eq_refl)).
  - destruct Ep as [->|[->| ->]].
    + destruct avx2; [entry ltac:(exact (hv_vgood 16 16 16 16 _ (run0_ok 16 16 16 16 _ 0 16 chk_16x16_avx2 ltac:(sz) ltac:(lia)) eq_refl))
                     |entry ltac:(exact (hv_vgood 16 16 16 16 _ (run_ok false 16 16 16 16 _ 0 chk_16x16 ltac:(sz) ltac:(lia)) eq_refl))].
    + entry ltac:(exact (hv_vgood 16 16 8 8 _ (run_ok false 16 16 8 8 _ 0 chk_16x16_half ltac:(sz) ltac:(lia)) eq_refl)).
    + entry ltac:(exact (hv_vgood 16 16 4 4 _ (run_ok false 16 16 4 4 _ 0 chk_16x16_quad ltac:(sz) ltac:(lia)) eq_refl)).
  - destruct Ep as [->|[->| ->]].
    + destruct avx2; [entry ltac:(exact (hv_vgood 32 32 32 32 _ (run0_ok 32 32 32 32 _ 0 32 chk_32x32_avx2 ltac:(sz) ltac:(lia)) eq_refl))
                     |entry ltac:(exact (hv_vgood 32 32 32 32 _ (run_ok false 32 32 32 32 _ 0 chk_32x32 ltac:(sz) ltac:(lia)) eq_refl))].
    + entry ltac:(exact (hv_vgood 32 32 16 16 _ (run_ok false 32 32 16 16 _ 0 chk_32x32_half ltac:(sz) ltac:(lia)) eq_refl)).
    + entry ltac:(exact (hv_vgood 32 32 8 8 _ (run_ok false 32 32 8 8 _ 0 chk_32x32_quad ltac:(sz) ltac:(lia)) eq_refl)).
  - destruct Ep as [->|[->| ->]].
    + destruct avx2; [entry ltac:(exact (double_vgood 32 32 32 32 _ _ (run0_ok 32 32 32 32 _ 1 32 chk_32x32_avx2 ltac:(sz) ltac:(lia)) chk_w64x64_avx2 eq_refl ltac:(lia) ltac:(lia) ltac:(lia)))
                     |entry ltac:(exact (double_vgood 32 32 32 32 _ _ (run_ok false 32 32 32 32 _ 1 chk_32x32 ltac:(sz) ltac:(lia)) chk_w64x64 eq_refl ltac:(lia) ltac:(lia) ltac:(lia)))].
    + entry ltac:(exact (double_vgood 32 32 16 16 _ _ (run_ok false 32 32 16 16 _ 1 chk_32x32_half ltac:(sz) ltac:(lia)) chk_w64x64 eq_refl ltac:(lia) ltac:(lia) ltac:(lia))).
    + entry ltac:(exact (double_vgood 32 32 8 8 _ _ (run_ok false 32 32 8 8 _ 1 chk_32x32_quad ltac:(sz) ltac:(lia)) chk_w64x64 eq_refl ltac:(lia) ltac:(lia) ltac:(lia))).
  - destruct Ep as [->|[->| ->]]; entry ltac:(apply vgood_all; exact (hv_vgood 16 4 16 4 _ (run_ok false 16 4 16 4 _ 0 chk_16x4 ltac:(sz) ltac:(lia)) eq_refl)).
  - destruct Ep as [->|[->| ->]]; entry ltac:(apply vgood_all; exact (hv_vgood 4 16 4 16 _ (run_ok true 4 16 4 16 _ 0 chk_4x16_flat ltac:(sz) ltac:(lia)) eq_refl)).
  - destruct Ep as [->|[->| ->]]; entry ltac:(apply vgood_all; exact (hv_vgood 32 8 32 8 _ (run_ok false 32 8 32 8 _ 0 chk_32x8 ltac:(sz) ltac:(lia)) eq_refl)).
  - destruct Ep as [->|[->| ->]]; entry ltac:(apply vgood_all; exact (hv_vgood 8 32 8 32 _ (run_ok true 8 32 8 32 _ 0 chk_8x32 ltac:(sz) ltac:(lia)) eq_refl)).
  - destruct Ep as [->|[->| ->]].
    + destruct avx2; [entry ltac:(apply vgood_all; exact (double_vgood 32 8 32 8 _ _ (run_ok false 32 8 32 8 _ 1 chk_32x8 ltac:(sz) ltac:(lia)) chk_w64x16_avx2 eq_refl ltac:(lia) ltac:(lia) ltac:(lia)))
                     |entry ltac:(apply vgood_all; exact (double_vgood 32 8 32 8 _ _ (run_ok false 32 8 32 8 _ 1 chk_32x8 ltac:(sz) ltac:(lia)) chk_w64x16 eq_refl ltac:(lia) ltac:(lia) ltac:(lia)))].
    + entry ltac:(apply vgood_all; exact (double_vgood 32 8 32 8 _ _ (run_ok false 32 8 32 8 _ 1 chk_32x8 ltac:(sz) ltac:(lia)) chk_w64x16 eq_refl ltac:(lia) ltac:(lia) ltac:(lia))).
    + entry ltac:(apply vgood_all; exact (double_vgood 32 8 32 8 _ _ (run_ok false 32 8 32 8 _ 1 chk_32x8 ltac:(sz) ltac:(lia)) chk_w64x16 eq_refl ltac:(lia) ltac:(lia) ltac:(lia))).
  - destruct Ep as [->|[->| ->]].
    + destruct avx2; [entry ltac:(apply vgood_all; exact (double_vgood 8 32 8 32 _ _ (run_ok true 8 32 8 32 _ 1 chk_8x32 ltac:(sz) ltac:(lia)) chk_w16x64_avx2 eq_refl ltac:(lia) ltac:(lia) ltac:(lia)))
                     |entry ltac:(apply vgood_all; exact (double_vgood 8 32 8 32 _ _ (run_ok true 8 32 8 32 _ 1 chk_8x32 ltac:(sz) ltac:(lia)) chk_w16x64 eq_refl ltac:(lia) ltac:(lia) ltac:(lia)))].
    + entry ltac:(apply vgood_all; exact (double_vgood 8 32 8 32 _ _ (run_ok true 8 32 8 32 _ 1 chk_8x32 ltac:(sz) ltac:(lia)) chk_w16x64 eq_refl ltac:(lia) ltac:(lia) ltac:(lia))).
    + entry ltac:(apply vgood_all; exact (double_vgood 8 32 8 32 _ _ (run_ok true 8 32 8 32 _ 1 chk_8x32 ltac:(sz) ltac:(lia)) chk_w16x64 eq_refl ltac:(lia) ltac:(lia) ltac:(lia))).
Qed.
