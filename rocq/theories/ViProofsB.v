(** The interpolation kernels, vector by vector: each byte stored is the sample of the C kernel. *)
From Coq Require Import ZArith List Bool Lia.
From Verif Require Import CBase UtilModel MemModel MemProofs SaoModel SaoProofs McModel McProofs VxModelBase VxModel VxProofs VxProofsB VxProofsF VdModel ViModel ViProofs.
Import ListNotations.
Open Scope Z_scope.

Lemma cases8 (P : Z -> Prop) : P 0 -> P 1 -> P 2 -> P 3 -> P 4 -> P 5 -> P 6 -> P 7 -> forall i, 0 <= i < 8 -> P i.
Proof.
  intros. assert (E : i = 0 \/ i = 1 \/ i = 2 \/ i = 3 \/ i = 4 \/ i = 5 \/ i = 6 \/ i = 7) by lia.
  destruct E as [-> | [-> | [-> | [-> | [-> | [-> | [-> | ->]]]]]]]; assumption.
Qed.
Lemma cases2 (P : Z -> Prop) : P 0 -> P 1 -> forall i, 0 <= i < 2 -> P i.
Proof. intros A B i H. assert (E : i = 0 \/ i = 1) by lia. destruct E as [-> | ->]; assumption. Qed.
Lemma halves (P : Z -> Prop) : (forall i, 0 <= i < 4 -> P i) -> (forall i, 0 <= i < 4 -> P (4 + i)) -> forall i, 0 <= i < 8 -> P i.
Proof. intros A B i H. destruct (Z.lt_ge_cases i 4); [apply A; lia|]. replace i with (4 + (i - 4)) by lia. apply B. lia. Qed.

(** A byte times a coefficient. *)
Lemma term_bound s c : byte s -> - (255 * Z.abs c) <= s * c <= 255 * Z.abs c.
Proof. unfold byte. intros H. nia. Qed.
(** Coefficients whose sums stay in 16 bits. *)
Definition fit (n : Z) (c : Z -> Z) : Prop :=
  (forall k, 0 <= k < n -> -128 <= c k <= 127) /\
  (if n =? 4 then Z.abs (c 0) + Z.abs (c 1) + Z.abs (c 2) + Z.abs (c 3) <= 120
   else Z.abs (c 0) + Z.abs (c 1) + Z.abs (c 2) + Z.abs (c 3) + Z.abs (c 4) + Z.abs (c 5) + Z.abs (c 6) + Z.abs (c 7) <= 120).

Lemma sat_clip v : sat_u8 v = clip1 8 v.
Proof.
  unfold sat_u8, clip1. change (max_pel 8) with 255.
  destruct (Z.ltb_spec v 0), (Z.ltb_spec 255 v); lia.
Qed.
Lemma round6_lane v i : 0 <= i < 8 -> -32000 <= i16_of v i <= 32000 -> round6 v i = clip1 8 (Z.shiftr (i16_of v i + 32) 6).
Proof.
  intros Hi Hv. unfold round6. cbv zeta. rewrite packus_lo by exact Hi. rewrite i16_srai, i16_add, i16_set1 by lia.
  rewrite to_i16_id by lia. apply sat_clip.
Qed.

Ltac lits :=
  change (2 * 0) with 0 in *; change (2 * 1) with 2 in *; change (2 * 2) with 4 in *; change (2 * 3) with 6 in *;
  change (4 * 0) with 0 in *; change (4 * 1) with 4 in *;
  change (0 + 1) with 1 in *; change (0 + 2) with 2 in *; change (0 + 3) with 3 in *; change (2 + 1) with 3 in *;
  change (4 + 1) with 5 in *; change (4 + 2) with 6 in *; change (4 + 3) with 7 in *; change (6 + 1) with 7 in *.
Section Horizontal.
  Variables (s : reg) (c : Z -> Z).
  Hypothesis Hs : bytes s.
  Lemma shuf4_1 i j : 0 <= i < 4 -> 0 <= j < 4 -> shuffle_epi8 s switch4_1 (4 * i + j) = s (i + j).
  Proof. intros Hi. revert j. revert i Hi. refine (case4 _ _ _ _ _); refine (case4 _ _ _ _ _); reflexivity. Qed.
  Lemma shuf4_2 i j : 0 <= i < 4 -> 0 <= j < 4 -> shuffle_epi8 s switch4_2 (4 * i + j) = s (4 + i + j).
  Proof. intros Hi. revert j. revert i Hi. refine (case4 _ _ _ _ _); refine (case4 _ _ _ _ _); reflexivity. Qed.
  Lemma i8_set1_i32 i j : 0 <= j < 4 -> -128 <= c j <= 127 -> i8_of (set1_epi32 (load_i32 (cbytes c) 0)) (4 * i + j) = c j.
  Proof. intros J C. unfold i8_of. rewrite set1_i32_byte by exact J. rewrite Z.add_0_l. apply cbytes_i8, C. Qed.

  Lemma madd4 sh f i j : fit 4 c -> 0 <= i < 4 -> 0 <= j < 2 -> (forall j, 0 <= j < 4 -> sh (4 * i + j) = s (f + i + j)) ->
    i16_of (maddubs_epi16 sh (set1_epi32 (load_i32 (cbytes c) 0))) (2 * i + j) = s (f + i + 2 * j) * c (2 * j) + s (f + i + (2 * j + 1)) * c (2 * j + 1).
  Proof.
    intros [C1 C2] Hi Hj Sh. cbn [Z.eqb Pos.eqb] in C2. rewrite i16_maddubs.
    replace (2 * (2 * i + j)) with (4 * i + 2 * j) by lia. replace (4 * i + 2 * j + 1) with (4 * i + (2 * j + 1)) by lia.
    rewrite !Sh by lia. rewrite !i8_set1_i32 by (try apply C1; lia). apply sat_i16_id.
    pose proof (term_bound _ (c (2 * j)) (Hs (f + i + 2 * j))). pose proof (term_bound _ (c (2 * j + 1)) (Hs (f + i + (2 * j + 1)))).
    assert (j = 0 \/ j = 1) as [-> | ->] by lia; change (2 * 0) with 0 in *; change (0 + 1) with 1 in *; change (2 * 1) with 2 in *; change (2 + 1) with 3 in *; lia.
  Qed.
  Lemma taps4_lane i : fit 4 c -> 0 <= i < 8 ->
    i16_of (taps4 s c) i = s i * c 0 + s (i + 1) * c 1 + s (i + 2) * c 2 + s (i + 3) * c 3 /\ -32000 <= i16_of (taps4 s c) i <= 32000.
  Proof.
    intros C Hi.
    pose proof (term_bound _ (c 0) (Hs i)). pose proof (term_bound _ (c 1) (Hs (i + 1))). pose proof (term_bound _ (c 2) (Hs (i + 2))). pose proof (term_bound _ (c 3) (Hs (i + 3))).
    assert (B : Z.abs (c 0) + Z.abs (c 1) + Z.abs (c 2) + Z.abs (c 3) <= 120) by apply C.
    assert (E : i16_of (taps4 s c) i = s i * c 0 + s (i + 1) * c 1 + s (i + 2) * c 2 + s (i + 3) * c 3); [|rewrite E; split; [reflexivity|lia]].
    unfold taps4. cbv zeta. destruct (Z.lt_ge_cases i 4) as [L|L].
    - rewrite i16_hadd_lo by lia. replace (2 * i) with (2 * i + 0) at 1 by lia.
      rewrite !(madd4 (shuffle_epi8 s switch4_1) 0) by (try exact C; try lia; intros; rewrite shuf4_1 by lia; f_equal; lia).
      change (2 * 0) with 0. change (0 + 1) with 1. change (2 * 1) with 2. change (2 + 1) with 3.
      replace (0 + i + 0) with i by lia. replace (0 + i) with i by lia. rewrite to_i16_id by lia. lia.
    - replace i with (4 + (i - 4)) at 1 by lia. rewrite i16_hadd_hi by lia. replace (2 * (i - 4)) with (2 * (i - 4) + 0) at 1 by lia.
      rewrite !(madd4 (shuffle_epi8 s switch4_2) 4) by (try exact C; try lia; intros; rewrite shuf4_2 by lia; f_equal; lia).
      change (2 * 0) with 0. change (0 + 1) with 1. change (2 * 1) with 2. change (2 + 1) with 3.
      replace (4 + (i - 4)) with i by lia. rewrite Z.add_0_r. rewrite to_i16_id by lia. lia.
  Qed.
  (** The form for narrow blocks, of the first four columns. *)
  Lemma taps4_narrow i : fit 4 c -> 0 <= i < 4 ->
    let mT0 := maddubs_epi16 (shuffle_epi8 s switch4_1) (set1_epi32 (load_i32 (cbytes c) 0)) in
    i16_of (hadd_epi16 mT0 mT0) i = i16_of (taps4 s c) i.
  Proof. intros C Hi. cbv zeta. unfold taps4. cbv zeta. rewrite !i16_hadd_lo by lia. reflexivity. Qed.

  Lemma shuf8_1 i j : 0 <= i < 2 -> 0 <= j < 8 -> shuffle_epi8 s switch8_1 (8 * i + j) = s (0 + i + j).
  Proof. intros Hi. revert j. revert i Hi. refine (cases2 _ _ _); refine (cases8 _ _ _ _ _ _ _ _ _); reflexivity. Qed.
  Lemma shuf8_2 i j : 0 <= i < 2 -> 0 <= j < 8 -> shuffle_epi8 s switch8_2 (8 * i + j) = s (2 + i + j).
  Proof. intros Hi. revert j. revert i Hi. refine (cases2 _ _ _); refine (cases8 _ _ _ _ _ _ _ _ _); reflexivity. Qed.
  Lemma shuf8_3 i j : 0 <= i < 2 -> 0 <= j < 8 -> shuffle_epi8 s switch8_3 (8 * i + j) = s (4 + i + j).
  Proof. intros Hi. revert j. revert i Hi. refine (cases2 _ _ _); refine (cases8 _ _ _ _ _ _ _ _ _); reflexivity. Qed.
  Lemma shuf8_4 i j : 0 <= i < 2 -> 0 <= j < 8 -> shuffle_epi8 s switch8_4 (8 * i + j) = s (6 + i + j).
  Proof. intros Hi. revert j. revert i Hi. refine (cases2 _ _ _); refine (cases8 _ _ _ _ _ _ _ _ _); reflexivity. Qed.
  Local Notation C8 := (unpacklo_epi64 (loadl (cbytes c) 0) (loadl (cbytes c) 0)).
  Lemma coef8 i j : 0 <= i < 2 -> 0 <= j < 8 -> C8 (8 * i + j) = cbytes c j.
  Proof. intros Hi. revert j. revert i Hi. refine (cases2 _ _ _); refine (cases8 _ _ _ _ _ _ _ _ _); reflexivity. Qed.
  Lemma madd8 sh f i j : fit 8 c -> 0 <= i < 2 -> 0 <= j < 4 -> (forall j, 0 <= j < 8 -> sh (8 * i + j) = s (f + i + j)) ->
    i16_of (maddubs_epi16 sh C8) (4 * i + j) = s (f + i + 2 * j) * c (2 * j) + s (f + i + (2 * j + 1)) * c (2 * j + 1).
  Proof.
    intros [C1 C2] Hi Hj Sh. cbn [Z.eqb Pos.eqb] in C2. rewrite i16_maddubs.
    replace (2 * (4 * i + j)) with (8 * i + 2 * j) by lia. replace (8 * i + 2 * j + 1) with (8 * i + (2 * j + 1)) by lia.
    rewrite !Sh by lia. unfold i8_of. rewrite !coef8 by lia. rewrite !cbytes_i8 by (apply C1; lia). apply sat_i16_id.
    pose proof (term_bound _ (c (2 * j)) (Hs (f + i + 2 * j))). pose proof (term_bound _ (c (2 * j + 1)) (Hs (f + i + (2 * j + 1)))).
    assert (j = 0 \/ j = 1 \/ j = 2 \/ j = 3) as [-> | [-> | [-> | ->]]] by lia;
      lits; lia.
  Qed.
  Lemma hadd8_lo sh sh' f i j : fit 8 c -> 0 <= i < 2 -> 0 <= j < 2 -> (forall j, 0 <= j < 8 -> sh (8 * i + j) = s (f + i + j)) ->
    i16_of (hadd_epi16 (maddubs_epi16 sh C8) sh') (2 * i + j) =
    s (f + i + 4 * j) * c (4 * j) + s (f + i + (4 * j + 1)) * c (4 * j + 1) + s (f + i + (4 * j + 2)) * c (4 * j + 2) + s (f + i + (4 * j + 3)) * c (4 * j + 3).
  Proof.
    intros C Hi Hj Sh. rewrite i16_hadd_lo by lia.
    replace (2 * (2 * i + j)) with (4 * i + 2 * j) by lia. replace (4 * i + 2 * j + 1) with (4 * i + (2 * j + 1)) by lia.
    rewrite !(madd8 sh f) by (try exact C; try exact Sh; lia).
    replace (2 * (2 * j)) with (4 * j) by lia. replace (2 * (2 * j + 1)) with (4 * j + 2) by lia. replace (4 * j + 2 + 1) with (4 * j + 3) by lia.
    pose proof (term_bound _ (c (4 * j)) (Hs (f + i + 4 * j))). pose proof (term_bound _ (c (4 * j + 1)) (Hs (f + i + (4 * j + 1)))).
    pose proof (term_bound _ (c (4 * j + 2)) (Hs (f + i + (4 * j + 2)))). pose proof (term_bound _ (c (4 * j + 3)) (Hs (f + i + (4 * j + 3)))).
    assert (B := proj2 C). cbn [Z.eqb Pos.eqb] in B.
    rewrite to_i16_id; [lia|]. clear - B H H0 H1 H2 Hj.
    assert (j = 0 \/ j = 1) as [-> | ->] by lia; lits; lia.
  Qed.
  Lemma hadd8_hi sh sh' f i j : fit 8 c -> 0 <= i < 2 -> 0 <= j < 2 -> (forall j, 0 <= j < 8 -> sh (8 * i + j) = s (f + i + j)) ->
    i16_of (hadd_epi16 sh' (maddubs_epi16 sh C8)) (4 + (2 * i + j)) =
    s (f + i + 4 * j) * c (4 * j) + s (f + i + (4 * j + 1)) * c (4 * j + 1) + s (f + i + (4 * j + 2)) * c (4 * j + 2) + s (f + i + (4 * j + 3)) * c (4 * j + 3).
  Proof.
    intros C Hi Hj Sh. rewrite i16_hadd_hi by lia. rewrite <- (i16_hadd_lo (maddubs_epi16 sh C8) sh') by lia. apply hadd8_lo; assumption.
  Qed.
  Lemma taps8_lane i : fit 8 c -> 0 <= i < 8 ->
    i16_of (taps8 s c) i = s i * c 0 + s (i + 1) * c 1 + s (i + 2) * c 2 + s (i + 3) * c 3 + s (i + 4) * c 4 + s (i + 5) * c 5 + s (i + 6) * c 6 + s (i + 7) * c 7
    /\ -32000 <= i16_of (taps8 s c) i <= 32000.
  Proof.
    intros C Hi.
    pose proof (term_bound _ (c 0) (Hs i)). pose proof (term_bound _ (c 1) (Hs (i + 1))). pose proof (term_bound _ (c 2) (Hs (i + 2))). pose proof (term_bound _ (c 3) (Hs (i + 3))).
    pose proof (term_bound _ (c 4) (Hs (i + 4))). pose proof (term_bound _ (c 5) (Hs (i + 5))). pose proof (term_bound _ (c 6) (Hs (i + 6))). pose proof (term_bound _ (c 7) (Hs (i + 7))).
    assert (B := proj2 C). cbn [Z.eqb Pos.eqb] in B.
    match goal with |- ?l = ?r /\ _ => assert (E : l = r); [|rewrite E; split; [reflexivity|lia]] end.
    unfold taps8. cbv zeta.
    assert (Q : forall f j v0 v1, i = f + j ->
      v0 = s (f + j + 4 * 0) * c (4 * 0) + s (f + j + (4 * 0 + 1)) * c (4 * 0 + 1) + s (f + j + (4 * 0 + 2)) * c (4 * 0 + 2) + s (f + j + (4 * 0 + 3)) * c (4 * 0 + 3) ->
      v1 = s (f + j + 4 * 1) * c (4 * 1) + s (f + j + (4 * 1 + 1)) * c (4 * 1 + 1) + s (f + j + (4 * 1 + 2)) * c (4 * 1 + 2) + s (f + j + (4 * 1 + 3)) * c (4 * 1 + 3) ->
      to_i16 (v0 + v1) =
      s i * c 0 + s (i + 1) * c 1 + s (i + 2) * c 2 + s (i + 3) * c 3 + s (i + 4) * c 4 + s (i + 5) * c 5 + s (i + 6) * c 6 + s (i + 7) * c 7).
    { intros f j v0 v1 Ei E1 E2. rewrite E1, E2. rewrite <- Ei. change (4 * 0) with 0. change (4 * 1) with 4.
      change (0 + 1) with 1. change (0 + 2) with 2. change (0 + 3) with 3. change (4 + 1) with 5. change (4 + 2) with 6. change (4 + 3) with 7. rewrite Z.add_0_r.
      rewrite to_i16_id; lia. }
    assert (D : (i = 0 + i /\ i < 2) \/ (i = 2 + (i - 2) /\ 2 <= i < 4) \/ (i = 4 + (i - 4) /\ 4 <= i < 6) \/ (i = 6 + (i - 6) /\ 6 <= i)) by lia.
    destruct D as [[Ei D] | [[Ei D] | [[Ei D] | [Ei D]]]].
    - rewrite i16_hadd_lo by lia. apply (Q 0 i); [exact Ei| |].
      + replace (2 * i) with (2 * i + 0) by lia. apply hadd8_lo; [exact C|lia|lia|intros; apply shuf8_1; lia].
      + apply hadd8_lo; [exact C|lia|lia|intros; apply shuf8_1; lia].
    - rewrite i16_hadd_lo by lia. apply (Q 2 (i - 2)); [exact Ei| |].
      + replace (2 * i) with (4 + (2 * (i - 2) + 0)) by lia. apply hadd8_hi; [exact C|lia|lia|intros; apply shuf8_2; lia].
      + replace (2 * i + 1) with (4 + (2 * (i - 2) + 1)) by lia. apply hadd8_hi; [exact C|lia|lia|intros; apply shuf8_2; lia].
    - rewrite Ei at 1. rewrite i16_hadd_hi by lia. apply (Q 4 (i - 4)); [exact Ei| |].
      + replace (2 * (i - 4)) with (2 * (i - 4) + 0) by lia. apply hadd8_lo; [exact C|lia|lia|intros; apply shuf8_3; lia].
      + apply hadd8_lo; [exact C|lia|lia|intros; apply shuf8_3; lia].
    - replace i with (4 + (i - 4)) at 1 by lia. rewrite i16_hadd_hi by lia. apply (Q 6 (i - 6)); [exact Ei| |].
      + replace (2 * (i - 4)) with (4 + (2 * (i - 6) + 0)) by lia. apply hadd8_hi; [exact C|lia|lia|intros; apply shuf8_4; lia].
      + replace (2 * (i - 4) + 1) with (4 + (2 * (i - 6) + 1)) by lia. apply hadd8_hi; [exact C|lia|lia|intros; apply shuf8_4; lia].
  Qed.
End Horizontal.

(** Down a column. *)
Lemma i16_slli a n i : 0 <= n -> i16_of (slli_epi16 a n) i = to_i16 (i16_of a i * 2 ^ n).
Proof.
  intros H. unfold slli_epi16. rewrite i16_mk16, Z.shiftl_mul_pow2 by exact H. unfold i16_of, to_i16. f_equal.
  rewrite Z.mul_sub_distr_r.
  set (u := u16_of a i).
  replace (u * 2 ^ n + 32768) with ((u + 32768) mod 65536 * 2 ^ n - 32768 * 2 ^ n + 32768 + ((u + 32768) / 65536 * 2 ^ n) * 65536).
  - apply Z.mod_add. lia.
  - pose proof (Z.div_mod (u + 32768) 65536 ltac:(lia)) as E. set (q := (u + 32768) / 65536) in *. set (r := (u + 32768) mod 65536) in *.
    replace u with (65536 * q + r - 32768) by lia. ring.
Qed.
Lemma i8_pair c p i : -128 <= c p <= 127 -> -128 <= c (p + 1) <= 127 ->
  i8_of (set1_epi16 (load_i16 (cbytes c) p)) (2 * i) = c p /\ i8_of (set1_epi16 (load_i16 (cbytes c) p)) (2 * i + 1) = c (p + 1).
Proof. intros A B. unfold i8_of. rewrite set1_i16_lo, set1_i16_hi. split; apply cbytes_i8; assumption. Qed.

Section Column.
  Variables (T : Z -> reg).
  Hypothesis HT : forall j, bytes (T j).
  Definition col8 (c : Z -> Z) (i : Z) : Z :=
    T 0 i * c 0 + T 1 i * c 1 + T 2 i * c 2 + T 3 i * c 3 + T 4 i * c 4 + T 5 i * c 5 + T 6 i * c 6 + T 7 i * c 7.
  Lemma row_bytes f k : 0 < f < 4 -> 0 <= k < 8 -> -128 <= row_l f k <= 127.
  Proof.
    intros F. assert (E : f = 1 \/ f = 2 \/ f = 3) by lia.
    destruct E as [-> | [-> | ->]]; revert k; refine (cases8 _ _ _ _ _ _ _ _ _); vm_compute; split; intros X; discriminate X.
  Qed.
  Lemma vtaps_lane dy i : 0 < dy < 4 -> 0 <= i < 8 ->
    i16_of (vtaps dy T (row_l dy)) i = col8 (row_l dy) i /\ -32000 <= i16_of (vtaps dy T (row_l dy)) i <= 32000.
  Proof.
    intros D Hi.
    pose proof (HT 0 i) as B0. pose proof (HT 1 i) as B1. pose proof (HT 2 i) as B2. pose proof (HT 3 i) as B3.
    pose proof (HT 4 i) as B4. pose proof (HT 5 i) as B5. pose proof (HT 6 i) as B6. pose proof (HT 7 i) as B7.
    assert (E : dy = 1 \/ dy = 2 \/ dy = 3) by lia.
    assert (P : forall k, 0 <= k < 8 -> -128 <= row_l dy k <= 127) by (intros; apply row_bytes; assumption).
    unfold vtaps, col8. cbv zeta.
    set (T00 := adds_epi16 (cvtepu8_epi16 (T 0)) (cvtepu8_epi16 (T 7))). set (T16 := adds_epi16 (cvtepu8_epi16 (T 1)) (cvtepu8_epi16 (T 6))).
    assert (E00 : i16_of T00 i = T 0 i + T 7 i).
    { unfold T00. rewrite i16_adds, !i16_cvtu8 by assumption. unfold byte in *. apply sat_i16_id. lia. }
    assert (E16 : i16_of (slli_epi16 T16 2) i = 4 * (T 1 i + T 6 i)).
    { unfold T16. rewrite i16_slli, i16_adds, !i16_cvtu8 by (assumption || lia). unfold byte in *. rewrite sat_i16_id by lia. change (2 ^ 2) with 4. rewrite to_i16_id; lia. }
    clearbody T00 T16. set (S16 := slli_epi16 T16 2) in *. clearbody S16.
    assert (M : forall a b C c0 c1, i8_of C (2 * i) = c0 -> i8_of C (2 * i + 1) = c1 -> byte (a i) -> byte (b i) -> -64 <= c0 <= 64 -> -64 <= c1 <= 64 ->
      i16_of (maddubs_epi16 (unpacklo_epi8 a b) C) i = a i * c0 + b i * c1).
    { intros a b C c0 c1 <- <- Ba Bb R0 R1. rewrite i16_maddubs, unlo_even, unlo_odd by exact Hi.
      pose proof (term_bound _ (i8_of C (2 * i)) Ba). pose proof (term_bound _ (i8_of C (2 * i + 1)) Bb). apply sat_i16_id. lia. }
    destruct E as [-> | [-> | ->]]; cbn [Z.eqb Pos.eqb].
    - destruct (i8_pair (row_l 1) 2 i (P 2 ltac:(lia)) (P (2 + 1) ltac:(lia))) as [C2 C3].
      destruct (i8_pair (row_l 1) 4 i (P 4 ltac:(lia)) (P (4 + 1) ltac:(lia))) as [C4 C5].
      rewrite !i16_add, i16_sub, i16_subs, i16_cvtu8, E00, E16 by assumption.
      rewrite (M (T 2) (T 3) _ _ _ C2 C3 B2 B3), (M (T 4) (T 5) _ _ _ C4 C5 B4 B5) by (vm_compute; split; intros X; discriminate X).
      change (row_l 1 0) with (-1). change (row_l 1 1) with 4. change (row_l 1 2) with (-10). change (row_l 1 (2 + 1)) with 57. change (row_l 1 3) with 57. change (row_l 1 4) with 19. change (row_l 1 (4 + 1)) with (-7). change (row_l 1 5) with (-7). change (row_l 1 6) with 3. change (row_l 1 7) with (-1).
      unfold byte in *. clear P M. rewrite sat_i16_id by lia.
      rewrite (to_i16_id (_ - _)), (to_i16_id (_ * _ + _ + (_ + _))) by lia. rewrite to_i16_id by lia. lia.
    - assert (C2 : forall k, i8_of (set1_epi8 (row_l 2 2)) k = row_l 2 2) by (intros; apply i8_set1, P; lia).
      assert (C3 : forall k, i8_of (set1_epi8 (row_l 2 3)) k = row_l 2 3) by (intros; apply i8_set1, P; lia).
      rewrite !i16_add, i16_sub, E00, E16.
      rewrite (M (T 2) (T 5) _ _ _ (C2 _) (C2 _) B2 B5), (M (T 3) (T 4) _ _ _ (C3 _) (C3 _) B3 B4) by (vm_compute; split; intros X; discriminate X).
      change (row_l 2 0) with (-1). change (row_l 2 1) with 4. change (row_l 2 2) with (-11). change (row_l 2 (2 + 1)) with 40. change (row_l 2 3) with 40. change (row_l 2 4) with 40. change (row_l 2 (4 + 1)) with (-11). change (row_l 2 5) with (-11). change (row_l 2 6) with 4. change (row_l 2 7) with (-1).
      unfold byte in *. clear P M.
      rewrite (to_i16_id (_ - _)), (to_i16_id (_ * _ + _ + (_ + _))) by lia. rewrite to_i16_id by lia. lia.
    - destruct (i8_pair (row_l 3) 2 i (P 2 ltac:(lia)) (P (2 + 1) ltac:(lia))) as [C2 C3].
      destruct (i8_pair (row_l 3) 4 i (P 4 ltac:(lia)) (P (4 + 1) ltac:(lia))) as [C4 C5].
      rewrite !i16_add, i16_sub, i16_subs, i16_cvtu8, E00, E16 by assumption.
      rewrite (M (T 2) (T 3) _ _ _ C2 C3 B2 B3), (M (T 4) (T 5) _ _ _ C4 C5 B4 B5) by (vm_compute; split; intros X; discriminate X).
      change (row_l 3 0) with (-1). change (row_l 3 1) with 3. change (row_l 3 2) with (-7). change (row_l 3 (2 + 1)) with 19. change (row_l 3 3) with 19. change (row_l 3 4) with 57. change (row_l 3 (4 + 1)) with (-10). change (row_l 3 5) with (-10). change (row_l 3 6) with 4. change (row_l 3 7) with (-1).
      unfold byte in *. clear P M. rewrite sat_i16_id by lia.
      rewrite (to_i16_id (_ - _)), (to_i16_id (_ * _ + _ + (_ + _))) by lia. rewrite to_i16_id by lia. lia.
  Qed.
End Column.
