(** The vectors of the AVX2 interpolation kernels: 24 chroma samples along a line, taps down a column,
    the second pass. *)
From Coq Require Import ZArith List Bool Lia.
From Verif Require Import CBase UtilModel MemModel MemProofs SaoModel SaoProofs McModel McProofs VxModelBase VxModel VxProofs VxProofsB VxProofsF VdModel ViModel ViProofs ViProofsB ViProofsC VjModel VjProofs VjProofsB.
Import ListNotations.
Open Scope Z_scope.

Section Wide4.
  Variables (src : mem) (q : Z) (c : Z -> Z).
  Hypotheses (B : forall a, byte (src a)) (C : fit 4 c).
  Local Notation S0 := (load src q).
  Local Notation S1 := (permute4x64 S0 153).
  Local Notation mC := (set1_epi32 (load_i32 (cbytes c) 0)).
  Local Notation T := (maddubs_epi16 (shuffle_epi8 S1 (switch (sw4 0) (sw4 4))) mC).
  Lemma one_words L i : L = 0 \/ L = 1 -> 0 <= i < 4 ->
    i16_of (hadd_epi16 T T) (8 * L + i) = dot4 c src (q + 8 + (4 * L + i)) /\ i16_of (hadd_epi16 T T) (8 * L + (4 + i)) = dot4 c src (q + 8 + (4 * L + i)).
  Proof.
    intros HL Hi.
    assert (LT : lane L T (maddubs_epi16 (shuffle_epi8 (fun k => S1 (16 * L + k)) (setr_epi8 (sw4 (4 * L)))) mC)).
    { apply lane_maddubs; [|apply lane_dword]. apply lane_shuffle; [apply lane_of|]. pose proof (lane_case L HL (sw4 0) (sw4 4) eq_refl) as Q.
      destruct HL as [-> | ->]; exact Q. }
    pose proof (lane_hadd L _ _ _ _ LT LT) as LH. rewrite !(lane_i16 L _ _ _ LH) by lia.
    destruct (one4 (fun k => S1 (16 * L + k)) c (4 * L) i) as [E1 E2]; [intros k; apply B|exact C|lia|lia|]. rewrite E1, E2.
    assert (E : dot4 c (fun k => S1 (16 * L + k)) (4 * L + i) = dot4 c src (q + 8 + (4 * L + i))).
    { apply dot4_ext. intros j Hj. rewrite permute_153 by lia. unfold load. f_equal. lia. }
    split; exact E.
  Qed.
  Lemma chroma24_byte k : 0 <= k < 24 ->
    permutevar8x32 (packus_epi16 (round6w (taps4_avx2 S0 mC)) (round6w (hadd_epi16 T T))) (setr_epi32 [0; 1; 2; 6; 4; 5; 3; 7]) k = r6 (dot4 c src (q + k)).
  Proof.
    intros Hk. assert (BS : bytes S0) by (intros j; apply B). assert (BB : bytes src) by (intros j; apply B).
    pose proof (packus_at (round6w (taps4_avx2 S0 mC)) (round6w (hadd_epi16 T T))) as PA.
    set (R := packus_epi16 (round6w (taps4_avx2 S0 mC)) (round6w (hadd_epi16 T T))) in *.
    assert (R0 : forall L k, L = 0 \/ L = 1 -> 0 <= k < 8 -> R (16 * L + k) = r6 (dot4 c src (q + (16 * L + k)))).
    { intros L j HL Hj. rewrite (proj1 (PA L j Hj)). rewrite (round_at _ _ _ (taps4_word S0 c L j BS C HL Hj) (dot4_range _ _ _ BS C)). f_equal. apply dot4_ext. intros i Hi. unfold load. f_equal. lia. }
    assert (R1 : forall L k, L = 0 \/ L = 1 -> 0 <= k < 4 -> R (16 * L + (8 + k)) = r6 (dot4 c src (q + 8 + (4 * L + k)))).
    { intros L j HL Hj. rewrite (proj2 (PA L j ltac:(lia))). rewrite (round_at _ _ _ (proj1 (one_words L j HL Hj)) (dot4_range _ _ _ BB C)). reflexivity. }
    clearbody R. clear PA.
    assert (D : exists e j, k = 4 * e + j /\ 0 <= j < 4 /\ (e = 0 \/ e = 1 \/ e = 2 \/ e = 3 \/ e = 4 \/ e = 5)) by (exists (k / 4), (k mod 4); Z.div_mod_to_equations; lia).
    destruct D as (e & j & -> & Hj & D). unfold permutevar8x32.
    replace ((4 * e + j) / 4) with e by (Z.div_mod_to_equations; lia). replace ((4 * e + j) mod 4) with j by (Z.div_mod_to_equations; lia).
    destruct D as [-> | [-> | [-> | [-> | [-> | ->]]]]];
      match goal with |- context [Z.land (i32_of ?s ?x) 7] => let v := eval vm_compute in (Z.land (i32_of s x) 7) in replace (Z.land (i32_of s x) 7) with v by (vm_compute; reflexivity) end.
    - replace (4 * 0 + j) with (16 * 0 + j) by lia. rewrite (R0 0 j (or_introl eq_refl)) by lia. reflexivity.
    - replace (4 * 1 + j) with (16 * 0 + (4 + j)) by lia. rewrite (R0 0 (4 + j) (or_introl eq_refl)) by lia. reflexivity.
    - replace (4 * 2 + j) with (16 * 0 + (8 + j)) at 1 by lia. rewrite (R1 0 j (or_introl eq_refl)) by lia. do 2 f_equal. lia.
    - replace (4 * 6 + j) with (16 * 1 + (8 + j)) by lia. rewrite (R1 1 j (or_intror eq_refl)) by lia. do 2 f_equal. lia.
    - replace (4 * 4 + j) with (16 * 1 + j) by lia. rewrite (R0 1 j (or_intror eq_refl)) by lia. reflexivity.
    - replace (4 * 5 + j) with (16 * 1 + (4 + j)) by lia. rewrite (R0 1 (4 + j) (or_intror eq_refl)) by lia. reflexivity.
  Qed.
  Lemma chroma_sums_words : let '(sum1, sum2) := chroma_sums mC S0 in
    (forall i, 0 <= i < 8 -> i16_of (castsi256_si128 sum1) i = dot4 c src (q + i)) /\
    (forall i, 0 <= i < 16 -> i16_of (permute2x128 sum1 (permute4x64 sum2 216) 19) i = dot4 c src (q + 8 + i)).
  Proof.
    unfold chroma_sums. cbv zeta. assert (BS : bytes S0) by (intros j; apply B). split.
    - intros i Hi. unfold castsi256_si128. pose proof (taps4_word S0 c 0 i BS C (or_introl eq_refl) Hi) as E. change (8 * 0 + i) with i in E. rewrite E. apply dot4_ext. intros j Hj. unfold load. f_equal. lia.
    - intros i Hi. rewrite permute2_19 by exact Hi. destruct (Z.ltb_spec i 8).
      + rewrite permute216_word by lia. destruct (Z.ltb_spec i 4).
        * pose proof (proj2 (one_words 0 i (or_introl eq_refl) ltac:(lia))) as A. change (8 * 0 + (4 + i)) with (4 + i) in A. rewrite A. f_equal.
        * pose proof (proj2 (one_words 1 (i - 4) (or_intror eq_refl) ltac:(lia))) as A. replace (8 * 1 + (4 + (i - 4))) with (8 + i) in A by lia. rewrite A. f_equal. lia.
      + pose proof (taps4_word S0 c 1 (i - 8) BS C (or_intror eq_refl) ltac:(lia)) as E. replace (8 * 1 + (i - 8)) with i in E by lia. rewrite E. apply dot4_ext. intros j Hj. unfold load. f_equal. lia.
  Qed.
End Wide4.

(** Down a column: word [n] of the sum is about byte [x] of the lines. *)
Definition picks8 (ho : reg -> reg -> reg) (n x : Z) : Prop := forall a b, ho a b (2 * n) = a x /\ ho a b (2 * n + 1) = b x.
Lemma picks_unlo L j : 0 <= j < 8 -> picks8 unpacklo_epi8 (8 * L + j) (16 * L + j).
Proof.
  intros Hj a b. unfold unpacklo_epi8, half. cbv zeta. replace (2 * (8 * L + j)) with (16 * L + 2 * j) by lia. replace (16 * L + 2 * j + 1) with (16 * L + (2 * j + 1)) by lia.
  rewrite !lane_div, !lane_mod by lia. rewrite !Z.even_add, !Z.even_mul. change (Z.even 16) with true. change (Z.even 2) with true. cbn [orb eqb Z.even].
  split; f_equal; Z.div_mod_to_equations; lia.
Qed.
Lemma picks_unhi L j : 0 <= j < 8 -> picks8 unpackhi_epi8 (8 * L + j) (16 * L + (8 + j)).
Proof.
  intros Hj a b. unfold unpackhi_epi8, half. cbv zeta. replace (2 * (8 * L + j)) with (16 * L + 2 * j) by lia. replace (16 * L + 2 * j + 1) with (16 * L + (2 * j + 1)) by lia.
  rewrite !lane_div, !lane_mod by lia. rewrite !Z.even_add, !Z.even_mul. change (Z.even 16) with true. change (Z.even 2) with true. cbn [orb eqb Z.even].
  split; f_equal; Z.div_mod_to_equations; lia.
Qed.
Lemma madd_col ho n x (a b C : reg) c0 c1 : picks8 ho n x -> i8_of C (2 * n) = c0 -> i8_of C (2 * n + 1) = c1 -> byte (a x) -> byte (b x) -> Z.abs c0 + Z.abs c1 <= 120 ->
  i16_of (maddubs_epi16 (ho a b) C) n = a x * c0 + b x * c1.
Proof.
  intros P <- <- Ba Bb R. rewrite i16_maddubs. destruct (P a b) as [-> ->].
  pose proof (term_bound _ (i8_of C (2 * n)) Ba). pose proof (term_bound _ (i8_of C (2 * n + 1)) Bb). apply sat_i16_id. lia.
Qed.
Definition colsum8 (c : Z -> Z) (t : Z -> Z) : Z := t 0 * c 0 + t 1 * c 1 + t 2 * c 2 + t 3 * c 3 + t 4 * c 4 + t 5 * c 5 + t 6 * c 6 + t 7 * c 7.
Definition colsum4 (c : Z -> Z) (t : Z -> Z) : Z := t 0 * c 0 + t 1 * c 1 + t 2 * c 2 + t 3 * c 3.
Lemma colsum8_range c t : (forall j, 0 <= j < 8 -> byte (t j)) -> fit 8 c -> -32000 <= colsum8 c t <= 32000.
Proof.
  intros B [_ F]. cbn [Z.eqb Pos.eqb] in F. unfold colsum8.
  pose proof (term_bound _ (c 0) (B 0 ltac:(lia))). pose proof (term_bound _ (c 1) (B 1 ltac:(lia))). pose proof (term_bound _ (c 2) (B 2 ltac:(lia))). pose proof (term_bound _ (c 3) (B 3 ltac:(lia))).
  pose proof (term_bound _ (c 4) (B 4 ltac:(lia))). pose proof (term_bound _ (c 5) (B 5 ltac:(lia))). pose proof (term_bound _ (c 6) (B 6 ltac:(lia))). pose proof (term_bound _ (c 7) (B 7 ltac:(lia))). lia.
Qed.
Lemma colsum4_range c t : (forall j, 0 <= j < 4 -> byte (t j)) -> fit 4 c -> -32000 <= colsum4 c t <= 32000.
Proof.
  intros B [_ F]. cbn [Z.eqb Pos.eqb] in F. unfold colsum4.
  pose proof (term_bound _ (c 0) (B 0 ltac:(lia))). pose proof (term_bound _ (c 1) (B 1 ltac:(lia))). pose proof (term_bound _ (c 2) (B 2 ltac:(lia))). pose proof (term_bound _ (c 3) (B 3 ltac:(lia))). lia.
Qed.
Definition sym8 (c : Z -> Z) : Prop := c 1 = c 6 -> c 7 = c 0 /\ c 5 = c 2 /\ c 4 = c 3.
Definition sym4 (c : Z -> Z) : Prop := c 1 = c 2 -> c 3 = c 0.
Lemma vsum8_at ho c S n x : picks8 ho n x -> fit 8 c -> sym8 c -> (forall j, 0 <= j < 8 -> byte (S j x)) ->
  i16_of (vsum8 ho c S) n = colsum8 c (fun j => S j x).
Proof.
  intros P F Sy B. pose proof (colsum8_range c (fun j => S j x) B F) as R. destruct F as [P8 F]. cbn [Z.eqb Pos.eqb] in F.
  pose proof (B 0 ltac:(lia)) as B0. pose proof (B 1 ltac:(lia)) as B1. pose proof (B 2 ltac:(lia)) as B2. pose proof (B 3 ltac:(lia)) as B3.
  pose proof (B 4 ltac:(lia)) as B4. pose proof (B 5 ltac:(lia)) as B5. pose proof (B 6 ltac:(lia)) as B6. pose proof (B 7 ltac:(lia)) as B7.
  unfold vsum8. cbv zeta. unfold colsum8 in *. destruct (Z.eqb_spec (c 1) (c 6)) as [E|E].
  - destruct (Sy E) as (E7 & E5 & E4). rewrite !i16_add.
    assert (I : forall k m, 0 <= k < 8 -> i8_of (set1_epi8 (c k)) m = c k) by (intros; apply i8_set1, P8; lia).
    rewrite (madd_col ho n x (S 0) (S 7) _ _ _ P (I 0 _ ltac:(lia)) (I 0 _ ltac:(lia)) B0 B7) by lia.
    rewrite (madd_col ho n x (S 1) (S 6) _ _ _ P (I 1 _ ltac:(lia)) (I 1 _ ltac:(lia)) B1 B6) by lia.
    rewrite (madd_col ho n x (S 2) (S 5) _ _ _ P (I 2 _ ltac:(lia)) (I 2 _ ltac:(lia)) B2 B5) by lia.
    rewrite (madd_col ho n x (S 3) (S 4) _ _ _ P (I 3 _ ltac:(lia)) (I 3 _ ltac:(lia)) B3 B4) by lia.
    rewrite E7, E5, E4, <- E in *. clear I P8 B Sy P E7 E5 E4 E.
    pose proof (term_bound _ (c 0) B0). pose proof (term_bound _ (c 1) B1). pose proof (term_bound _ (c 2) B2). pose proof (term_bound _ (c 3) B3).
    pose proof (term_bound _ (c 3) B4). pose proof (term_bound _ (c 2) B5). pose proof (term_bound _ (c 1) B6). pose proof (term_bound _ (c 0) B7).
    rewrite (to_i16_id (_ * c 0 + _ + _)), (to_i16_id (_ * c 2 + _ + _)) by lia. rewrite to_i16_id by lia. lia.
  - rewrite !i16_add.
    destruct (i8_pair c 0 n (P8 0 ltac:(lia)) (P8 (0 + 1) ltac:(lia))) as [I0 I1]. destruct (i8_pair c 2 n (P8 2 ltac:(lia)) (P8 (2 + 1) ltac:(lia))) as [I2 I3].
    destruct (i8_pair c 4 n (P8 4 ltac:(lia)) (P8 (4 + 1) ltac:(lia))) as [I4 I5]. destruct (i8_pair c 6 n (P8 6 ltac:(lia)) (P8 (6 + 1) ltac:(lia))) as [I6 I7].
    change (0 + 1) with 1 in *. change (2 + 1) with 3 in *. change (4 + 1) with 5 in *. change (6 + 1) with 7 in *.
    rewrite (madd_col ho n x (S 0) (S 1) _ _ _ P I0 I1 B0 B1), (madd_col ho n x (S 2) (S 3) _ _ _ P I2 I3 B2 B3), (madd_col ho n x (S 4) (S 5) _ _ _ P I4 I5 B4 B5), (madd_col ho n x (S 6) (S 7) _ _ _ P I6 I7 B6 B7) by lia.
    clear P8 B Sy P E I0 I1 I2 I3 I4 I5 I6 I7.
    pose proof (term_bound _ (c 0) B0). pose proof (term_bound _ (c 1) B1). pose proof (term_bound _ (c 2) B2). pose proof (term_bound _ (c 3) B3).
    pose proof (term_bound _ (c 4) B4). pose proof (term_bound _ (c 5) B5). pose proof (term_bound _ (c 6) B6). pose proof (term_bound _ (c 7) B7).
    rewrite (to_i16_id (_ * c 0 + _ + _)), (to_i16_id (_ * c 4 + _ + _)) by lia. rewrite to_i16_id by lia. lia.
Qed.
Lemma vsum4_at ho c S n x : picks8 ho n x -> fit 4 c -> sym4 c -> (forall j, 0 <= j < 4 -> byte (S j x)) ->
  i16_of (vsum4 ho c S) n = colsum4 c (fun j => S j x).
Proof.
  intros P F Sy B. pose proof (colsum4_range c (fun j => S j x) B F) as R. destruct F as [P4 F]. cbn [Z.eqb Pos.eqb] in F.
  pose proof (B 0 ltac:(lia)) as B0. pose proof (B 1 ltac:(lia)) as B1. pose proof (B 2 ltac:(lia)) as B2. pose proof (B 3 ltac:(lia)) as B3.
  unfold vsum4. cbv zeta. unfold colsum4 in *. destruct (Z.eqb_spec (c 1) (c 2)) as [E|E].
  - pose proof (Sy E) as E3. rewrite !i16_add.
    assert (I : forall k m, 0 <= k < 4 -> i8_of (set1_epi8 (c k)) m = c k) by (intros; apply i8_set1, P4; lia).
    rewrite (madd_col ho n x (S 0) (S 3) _ _ _ P (I 0 _ ltac:(lia)) (I 0 _ ltac:(lia)) B0 B3) by lia.
    rewrite (madd_col ho n x (S 1) (S 2) _ _ _ P (I 1 _ ltac:(lia)) (I 1 _ ltac:(lia)) B1 B2) by lia.
    rewrite E3, <- E in *. rewrite to_i16_id by lia. lia.
  - rewrite !i16_add.
    destruct (i8_pair c 0 n (P4 0 ltac:(lia)) (P4 (0 + 1) ltac:(lia))) as [I0 I1]. destruct (i8_pair c 2 n (P4 2 ltac:(lia)) (P4 (2 + 1) ltac:(lia))) as [I2 I3].
    change (0 + 1) with 1 in *. change (2 + 1) with 3 in *.
    rewrite (madd_col ho n x (S 0) (S 1) _ _ _ P I0 I1 B0 B1), (madd_col ho n x (S 2) (S 3) _ _ _ P I2 I3 B2 B3) by lia.
    rewrite to_i16_id by lia. lia.
Qed.
(** Every byte of the packed sums is the sample of that column. *)
Lemma vbytes_at (vs : (reg -> reg -> reg) -> reg) (W : Z -> Z) k :
  (forall ho n x, picks8 ho n x -> x = k -> i16_of (vs ho) n = W x) -> -32000 <= W k <= 32000 -> vbytes vs k = r6 (W k).
Proof.
  intros HV R. unfold vbytes. set (L := k / 16). set (j := k mod 16).
  assert (E : k = 16 * L + j /\ 0 <= j < 16) by (unfold L, j; Z.div_mod_to_equations; lia). clearbody L j. destruct E as [E Hj].
  destruct (Z.lt_ge_cases j 8).
  - pose proof (proj1 (packus_at (round6w (vs unpacklo_epi8)) (round6w (vs unpackhi_epi8)) L j ltac:(lia))) as Q. rewrite <- E in Q. rewrite Q.
    apply round_at; [|exact R]. rewrite (HV unpacklo_epi8 (8 * L + j) (16 * L + j)); [rewrite E; reflexivity|apply picks_unlo; lia|lia].
  - pose proof (proj2 (packus_at (round6w (vs unpacklo_epi8)) (round6w (vs unpackhi_epi8)) L (j - 8) ltac:(lia))) as Q. replace (16 * L + (8 + (j - 8))) with k in Q by lia. rewrite Q.
    apply round_at; [|exact R]. rewrite (HV unpackhi_epi8 (8 * L + (j - 8)) (16 * L + (8 + (j - 8)))); [f_equal; lia|apply picks_unhi; lia|lia].
Qed.

(** The second pass. *)
Definition wpicks (hof : reg -> reg -> reg) (n x : Z) : Prop :=
  forall a b, i16_of (hof a b) (2 * n) = i16_of a x /\ i16_of (hof a b) (2 * n + 1) = i16_of b x.
Definition wpair (C : reg) (e o : Z) : Prop := (-128 <= e <= 128 /\ -128 <= o <= 128) /\ forall i, i16_of C (2 * i) = e /\ i16_of C (2 * i + 1) = o.
Lemma wpair_same v : -128 <= v <= 127 -> wpair (set1_epi16 v) v v.
Proof. intros H. split; [lia|]. intros i. rewrite !i16_set1 by lia. split; reflexivity. Qed.
Lemma wpair_two c p : -128 <= c p <= 127 -> -128 <= c (p + 1) <= 127 -> wpair (cvtepi8_epi16 (set1_epi16 (load_i16 (cbytes c) p))) (c p) (c (p + 1)).
Proof. intros A B. split; [lia|]. intros i. rewrite !i16_cvt8. apply i8_pair; assumption. Qed.
Lemma wmadd hof n x C e o a b : wpicks hof n x -> wpair C e o ->
  i32_of (madd_epi16 (hof a b) C) n = i16_of a x * e + i16_of b x * o /\ -8388608 <= i16_of a x * e + i16_of b x * o <= 8388608.
Proof.
  intros Hp [[Be Bo] HC]. rewrite i32_madd. destruct (Hp a b) as [-> ->]. destruct (HC n) as [-> ->].
  pose proof (word_bound _ _ (i16_range a x) Be). pose proof (word_bound _ _ (i16_range b x) Bo). rewrite to_i32_id; lia.
Qed.
Lemma wpairs4 hof n x C0 C1 e0 o0 e1 o1 a0 b0 a1 b1 : wpicks hof n x -> wpair C0 e0 o0 -> wpair C1 e1 o1 ->
  i32_of (pairs4 hof C0 C1 a0 b0 a1 b1) n = i16_of a0 x * e0 + i16_of b0 x * o0 + (i16_of a1 x * e1 + i16_of b1 x * o1) /\
  -100000000 <= i16_of a0 x * e0 + i16_of b0 x * o0 + (i16_of a1 x * e1 + i16_of b1 x * o1) <= 100000000.
Proof.
  intros Hp H0 H1. unfold pairs4. rewrite i32_add.
  destruct (wmadd hof n x C0 e0 o0 a0 b0 Hp H0) as [-> R0]. destruct (wmadd hof n x C1 e1 o1 a1 b1 Hp H1) as [-> R1].
  rewrite to_i32_id by lia. split; [reflexivity|lia].
Qed.
Lemma wpairs8 hof n x C0 C1 C2 C3 e0 o0 e1 o1 e2 o2 e3 o3 a0 b0 a1 b1 a2 b2 a3 b3 : wpicks hof n x ->
  wpair C0 e0 o0 -> wpair C1 e1 o1 -> wpair C2 e2 o2 -> wpair C3 e3 o3 ->
  let v := i16_of a0 x * e0 + i16_of b0 x * o0 + (i16_of a1 x * e1 + i16_of b1 x * o1) + (i16_of a2 x * e2 + i16_of b2 x * o2 + (i16_of a3 x * e3 + i16_of b3 x * o3)) in
  i32_of (pairs8 hof C0 C1 C2 C3 a0 b0 a1 b1 a2 b2 a3 b3) n = v /\ -100000000 <= v <= 100000000.
Proof.
  intros Hp H0 H1 H2 H3. cbv zeta. unfold pairs8. rewrite !i32_add.
  destruct (wmadd hof n x C0 e0 o0 a0 b0 Hp H0) as [-> R0]. destruct (wmadd hof n x C1 e1 o1 a1 b1 Hp H1) as [-> R1].
  destruct (wmadd hof n x C2 e2 o2 a2 b2 Hp H2) as [-> R2]. destruct (wmadd hof n x C3 e3 o3 a3 b3 Hp H3) as [-> R3].
  rewrite (to_i32_id (_ * e0 + _ + _)) by lia. rewrite (to_i32_id (_ * e2 + _ + _)) by lia. rewrite to_i32_id by lia. split; [reflexivity|lia].
Qed.
Lemma un16_idx L i p r : 0 <= i < 4 -> 0 <= p < 2 -> 0 <= r < 2 -> let k := 16 * L + (4 * i + 2 * p + r) in
  half k = 16 * L /\ (k mod 16) / 4 = i /\ k mod 2 = r /\ Z.even (k / 2) = (p =? 0).
Proof.
  intros Hi Hp Hr k. unfold half, k. rewrite lane_div, lane_mod by lia. split; [reflexivity|]. split; [Z.div_mod_to_equations; lia|]. split; [Z.div_mod_to_equations; lia|].
  replace ((16 * L + (4 * i + 2 * p + r)) / 2) with (2 * (4 * L + i) + p) by (Z.div_mod_to_equations; lia).
  rewrite Z.even_add, Z.even_mul. change (Z.even 2) with true. cbn [orb].
  assert (D : p = 0 \/ p = 1) by lia. destruct D as [-> | ->]; reflexivity.
Qed.
Lemma unlo16_at a b L i p r : 0 <= i < 4 -> 0 <= p < 2 -> 0 <= r < 2 -> unpacklo_epi16 a b (16 * L + (4 * i + 2 * p + r)) = (if p =? 0 then a else b) (16 * L + 2 * i + r).
Proof.
  intros Hi Hp Hr. destruct (un16_idx L i p r Hi Hp Hr) as (E1 & E2 & E3 & E4). unfold unpacklo_epi16. cbv zeta. rewrite E1, E2, E3, E4. destruct (p =? 0); reflexivity.
Qed.
Lemma unhi16_at a b L i p r : 0 <= i < 4 -> 0 <= p < 2 -> 0 <= r < 2 -> unpackhi_epi16 a b (16 * L + (4 * i + 2 * p + r)) = (if p =? 0 then a else b) (16 * L + 8 + 2 * i + r).
Proof.
  intros Hi Hp Hr. destruct (un16_idx L i p r Hi Hp Hr) as (E1 & E2 & E3 & E4). unfold unpackhi_epi16. cbv zeta. rewrite E1, E2, E3, E4. destruct (p =? 0); reflexivity.
Qed.
Lemma wpicks_lo L i : 0 <= i < 4 -> wpicks unpacklo_epi16 (4 * L + i) (8 * L + i).
Proof.
  intros Hi a b. split; apply word_eq.
  - replace (2 * (2 * (4 * L + i))) with (16 * L + (4 * i + 2 * 0 + 0)) by lia. rewrite unlo16_at by lia. cbn [Z.eqb]. f_equal. lia.
  - replace (2 * (2 * (4 * L + i)) + 1) with (16 * L + (4 * i + 2 * 0 + 1)) by lia. rewrite unlo16_at by lia. cbn [Z.eqb]. f_equal. lia.
  - replace (2 * (2 * (4 * L + i) + 1)) with (16 * L + (4 * i + 2 * 1 + 0)) by lia. rewrite unlo16_at by lia. cbn [Z.eqb]. f_equal. lia.
  - replace (2 * (2 * (4 * L + i) + 1) + 1) with (16 * L + (4 * i + 2 * 1 + 1)) by lia. rewrite unlo16_at by lia. cbn [Z.eqb]. f_equal. lia.
Qed.
Lemma wpicks_hi L i : 0 <= i < 4 -> wpicks unpackhi_epi16 (4 * L + i) (8 * L + (4 + i)).
Proof.
  intros Hi a b. split; apply word_eq.
  - replace (2 * (2 * (4 * L + i))) with (16 * L + (4 * i + 2 * 0 + 0)) by lia. rewrite unhi16_at by lia. cbn [Z.eqb]. f_equal. lia.
  - replace (2 * (2 * (4 * L + i)) + 1) with (16 * L + (4 * i + 2 * 0 + 1)) by lia. rewrite unhi16_at by lia. cbn [Z.eqb]. f_equal. lia.
  - replace (2 * (2 * (4 * L + i) + 1)) with (16 * L + (4 * i + 2 * 1 + 0)) by lia. rewrite unhi16_at by lia. cbn [Z.eqb]. f_equal. lia.
  - replace (2 * (2 * (4 * L + i) + 1) + 1) with (16 * L + (4 * i + 2 * 1 + 1)) by lia. rewrite unhi16_at by lia. cbn [Z.eqb]. f_equal. lia.
Qed.
Definition r12 (v : Z) : Z := clip1 8 (Z.shiftr (v + 2048) 12).
(** Every word of the second pass is the rounded sum over that column. *)
Lemma round12w_at (s : (reg -> reg -> reg) -> reg) (W : Z -> Z) n :
  (forall hof m x, wpicks hof m x -> x = n -> i32_of (s hof) m = W x /\ -100000000 <= W x <= 100000000) ->
  sat_u8 (i16_of (round12w (s unpacklo_epi16) (s unpackhi_epi16)) n) = r12 (W n).
Proof.
  intros HV. set (L := n / 8). set (j := n mod 8). assert (E : n = 8 * L + j /\ 0 <= j < 8) by (unfold L, j; Z.div_mod_to_equations; lia). clearbody L j. destruct E as [E Hj].
  unfold round12w. cbv zeta. unfold packs_epi32. rewrite i16_mk16. cbv zeta. rewrite E. rewrite lane_div8, lane_mod8 by exact Hj.
  rewrite to_i16_id by (destruct (j <? 4); apply sat_i16_range).
  destruct (Z.ltb_spec j 4).
  - destruct (HV unpacklo_epi16 (4 * L + j) (8 * L + j) (wpicks_lo L j ltac:(lia)) ltac:(lia)) as [Q R].
    rewrite i32_srai, i32_add, i32_set1 by lia. rewrite to_i32_id by lia. rewrite Q. apply sat2.
  - destruct (HV unpackhi_epi16 (4 * L + (j - 4)) (8 * L + (4 + (j - 4))) (wpicks_hi L (j - 4) ltac:(lia)) ltac:(lia)) as [Q R].
    replace (4 * L + j - 4) with (4 * L + (j - 4)) by lia. rewrite i32_srai, i32_add, i32_set1 by lia. rewrite to_i32_id by lia. rewrite Q.
    replace (8 * L + (4 + (j - 4))) with (8 * L + j) by lia. apply sat2.
Qed.
Lemma second8_at sym c t n : (forall k, 0 <= k < 8 -> -128 <= c k <= 127) -> (sym = true -> c 6 = c 1 /\ c 7 = c 0 /\ c 5 = c 2 /\ c 4 = c 3) ->
  sat_u8 (i16_of (second8 sym c t) n) = r12 (colsum8 c (fun j => i16_of (t j) n)).
Proof.
  intros C Sy. unfold second8. cbv zeta. destruct sym.
  - destruct (Sy eq_refl) as (E6 & E7 & E5 & E4).
    apply (round12w_at (fun ho => pairs8 ho (set1_epi16 (c 0)) (set1_epi16 (c 1)) (set1_epi16 (c 2)) (set1_epi16 (c 3)) (t 0) (t 7) (t 1) (t 6) (t 2) (t 5) (t 3) (t 4)) (fun n => colsum8 c (fun j => i16_of (t j) n))).
    intros hof m x P _.
    destruct (wpairs8 hof m x (set1_epi16 (c 0)) (set1_epi16 (c 1)) (set1_epi16 (c 2)) (set1_epi16 (c 3)) (c 0) (c 0) (c 1) (c 1) (c 2) (c 2) (c 3) (c 3) (t 0) (t 7) (t 1) (t 6) (t 2) (t 5) (t 3) (t 4) P) as [Q R];
      try (apply wpair_same, C; lia). rewrite Q. unfold colsum8. rewrite E7, E6, E5, E4. clear - R. split; lia.
  - set (CC := fun k => cvtepi8_epi16 (set1_epi16 (load_i16 (cbytes c) k))).
    apply (round12w_at (fun ho => pairs8 ho (CC 0) (CC 2) (CC 4) (CC 6) (t 0) (t 1) (t 2) (t 3) (t 4) (t 5) (t 6) (t 7)) (fun n => colsum8 c (fun j => i16_of (t j) n))).
    intros hof m x P _.
    destruct (wpairs8 hof m x (CC 0) (CC 2) (CC 4) (CC 6) (c 0) (c (0 + 1)) (c 2) (c (2 + 1)) (c 4) (c (4 + 1)) (c 6) (c (6 + 1)) (t 0) (t 1) (t 2) (t 3) (t 4) (t 5) (t 6) (t 7) P) as [Q R];
      try (apply wpair_two; apply C; lia). rewrite Q. change (0 + 1) with 1 in *. change (2 + 1) with 3 in *. change (4 + 1) with 5 in *. change (6 + 1) with 7 in *. unfold colsum8. clear - R. split; lia.
Qed.
Lemma second4_at c t n : (forall k, 0 <= k < 4 -> -128 <= c k <= 127) -> sat_u8 (i16_of (second4 false c t) n) = r12 (colsum4 c (fun j => i16_of (t j) n)).
Proof.
  intros C. unfold second4. cbv zeta. set (CC := fun k => cvtepi8_epi16 (set1_epi16 (load_i16 (cbytes c) k))).
  apply (round12w_at (fun ho => pairs4 ho (CC 0) (CC 2) (t 0) (t 1) (t 2) (t 3)) (fun n => colsum4 c (fun j => i16_of (t j) n))).
  intros hof m x P _.
  destruct (wpairs4 hof m x (CC 0) (CC 2) (c 0) (c (0 + 1)) (c 2) (c (2 + 1)) (t 0) (t 1) (t 2) (t 3) P) as [Q R]; try (apply wpair_two; apply C; lia).
  rewrite Q. change (0 + 1) with 1 in *. change (2 + 1) with 3 in *. unfold colsum4. clear - R. split; lia.
Qed.
