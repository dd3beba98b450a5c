(** The vectors of the AVX2 interpolation kernels, byte by byte and word by word. *)
From Coq Require Import ZArith List Bool Lia.
From Verif Require Import CBase UtilModel MemModel MemProofs SaoModel SaoProofs McModel McProofs VxModelBase VxModel VxProofs VxProofsB VxProofsF VdModel ViModel ViProofs ViProofsB ViProofsC VjModel VjProofs.
Import ListNotations.
Open Scope Z_scope.

Lemma word_eq (a b : reg) i j : a (2 * i) = b (2 * j) -> a (2 * i + 1) = b (2 * j + 1) -> i16_of a i = i16_of b j.
Proof. intros E1 E2. unfold i16_of, u16_of. rewrite E1, E2. reflexivity. Qed.
Lemma permute2_at a b k : 0 <= k < 32 -> permute2x128 a b 19 k = if k <? 16 then b (16 + k) else a k.
Proof.
  intros Hk. unfold permute2x128. cbv zeta. destruct (Z.ltb_spec k 16).
  - rewrite (Z.div_small k), (Z.mod_small k) by lia. change (Z.land (Z.shiftr 19 (4 * 0)) 15) with 3. reflexivity.
  - replace (k / 16) with 1 by (Z.div_mod_to_equations; lia). change (Z.land (Z.shiftr 19 (4 * 1)) 15) with 1. change (Z.testbit 1 3) with false. change (Z.testbit 1 1) with false. change (Z.land 1 1) with 1. cbv iota.
    f_equal. Z.div_mod_to_equations; lia.
Qed.
Lemma permute2_19 a b i : 0 <= i < 16 -> i16_of (permute2x128 a b 19) i = if i <? 8 then i16_of b (8 + i) else i16_of a i.
Proof.
  intros Hi. destruct (Z.ltb_spec i 8); apply word_eq; rewrite permute2_at by lia.
  - destruct (Z.ltb_spec (2 * i) 16); [|lia]. f_equal. lia.
  - destruct (Z.ltb_spec (2 * i + 1) 16); [|lia]. f_equal. lia.
  - destruct (Z.ltb_spec (2 * i) 16); [lia|]. f_equal.
  - destruct (Z.ltb_spec (2 * i + 1) 16); [lia|]. f_equal.
Qed.
Lemma permute216_word a i : 0 <= i < 8 -> i16_of (permute4x64 a 216) (8 + i) = i16_of a (if i <? 4 then 4 + i else 8 + i).
Proof.
  intros Hi. apply word_eq; rewrite permute_216 by lia; f_equal.
  - destruct (Z.ltb_spec (2 * (8 + i)) 8), (Z.ltb_spec (2 * (8 + i)) 16), (Z.ltb_spec (2 * (8 + i)) 24), (Z.ltb_spec i 4); lia.
  - destruct (Z.ltb_spec (2 * (8 + i) + 1) 8), (Z.ltb_spec (2 * (8 + i) + 1) 16), (Z.ltb_spec (2 * (8 + i) + 1) 24), (Z.ltb_spec i 4); lia.
Qed.

(** 24 samples along a line, luma. The two sums in words. *)
Lemma lane_two8 L S c lo hi lo2 hi2 : L = 0 \/ L = 1 -> length lo = 16%nat -> length lo2 = 16%nat ->
  lane L (hadd_epi16 (maddubs_epi16 (shuffle_epi8 S (switch lo hi)) (set1_quad (cbytes c) 0)) (maddubs_epi16 (shuffle_epi8 S (switch lo2 hi2)) (set1_quad (cbytes c) 0)))
    (hadd_epi16 (maddubs_epi16 (shuffle_epi8 (fun k => S (16 * L + k)) (setr_epi8 (if L =? 0 then lo else hi))) (C8 c))
                (maddubs_epi16 (shuffle_epi8 (fun k => S (16 * L + k)) (setr_epi8 (if L =? 0 then lo2 else hi2))) (C8 c))).
Proof.
  intros HL N N2. apply lane_hadd; (apply lane_maddubs; [|apply lane_quad]); (apply lane_shuffle; [apply lane_of|]); apply lane_case; assumption.
Qed.
Section Wide8.
  Variables (src : mem) (q : Z) (c : Z -> Z).
  Hypotheses (B : forall a, byte (src a)) (C : fit 8 c).
  Local Notation S0 := (load src q).
  Local Notation S1 := (permute4x64 S0 153).
  Local Notation mC := (set1_quad (cbytes c) 0).
  Lemma S1_at L x j : L = 0 \/ L = 1 -> 0 <= x -> 0 <= j < 8 -> x + j < 16 -> S1 (16 * L + (x + j)) = src (q + 8 + x + j).
  Proof. intros HL Hx Hj H. rewrite permute_153 by lia. unfold load. f_equal. lia. Qed.
  Lemma S1_dot L x : L = 0 \/ L = 1 -> 0 <= x <= 8 -> dot8 c (fun k => S1 (16 * L + k)) x = dot8 c src (q + 8 + x).
  Proof. intros HL Hx. apply dot8_ext. intros j Hj. apply S1_at; lia. Qed.
  Lemma bS1 L : bytes (fun k => S1 (16 * L + k)).
  Proof. intros k. apply B. Qed.
  (** Word [8 * L + i] and [8 * L + 4 + i] of the second sum, with first switches [f] and [g] in half [L]. *)
  Lemma two_words L f f1 g g1 i : L = 0 \/ L = 1 -> 0 <= i < 2 ->
    let F := if L =? 0 then f else f1 in let G := if L =? 0 then g else g1 in
    F = 0 \/ F = 2 \/ F = 4 \/ F = 6 -> G = 0 \/ G = 2 \/ G = 4 \/ G = 6 ->
    let T := hadd_epi16 (maddubs_epi16 (shuffle_epi8 S1 (switch (sw8 f) (sw8 f1))) mC) (maddubs_epi16 (shuffle_epi8 S1 (switch (sw8 g) (sw8 g1))) mC) in
    (i16_of (hadd_epi16 T T) (8 * L + i) = dot8 c src (q + 8 + (F + i)) /\ i16_of (hadd_epi16 T T) (8 * L + (4 + i)) = dot8 c src (q + 8 + (F + i))) /\
    (i16_of (hadd_epi16 T T) (8 * L + (2 + i)) = dot8 c src (q + 8 + (G + i)) /\ i16_of (hadd_epi16 T T) (8 * L + (4 + (2 + i))) = dot8 c src (q + 8 + (G + i))).
  Proof.
    intros HL Hi F G HF HG. cbv zeta.
    pose proof (lane_two8 L S1 c (sw8 f) (sw8 f1) (sw8 g) (sw8 g1) HL eq_refl eq_refl) as LT.
    assert (EF : (if L =? 0 then sw8 f else sw8 f1) = sw8 F) by (unfold F; destruct (L =? 0); reflexivity).
    assert (EG : (if L =? 0 then sw8 g else sw8 g1) = sw8 G) by (unfold G; destruct (L =? 0); reflexivity).
    rewrite EF, EG in LT. pose proof (lane_hadd L _ _ _ _ LT LT) as LH.
    rewrite !(lane_i16 L _ _ _ LH) by lia.
    rewrite <- !(S1_dot L) by lia. exact (two8 (fun k => S1 (16 * L + k)) c F G i (bS1 L) C HF HG Hi).
  Qed.
  (** 100-155. *)
  Lemma luma24_byte k : 0 <= k < 24 ->
    packus_epi16 (round6w (taps8_avx2 S0 mC))
      (permutevar8x32 (round6w (hadd_epi16 (hadd_epi16 (maddubs_epi16 (shuffle_epi8 S1 (switch (sw8 0) (sw8 2))) mC) (maddubs_epi16 (shuffle_epi8 S1 (switch (sw8 4) (sw8 6))) mC))
                                           (hadd_epi16 (maddubs_epi16 (shuffle_epi8 S1 (switch (sw8 0) (sw8 2))) mC) (maddubs_epi16 (shuffle_epi8 S1 (switch (sw8 4) (sw8 6))) mC))))
         (setr_epi32 [0; 4; 1; 5; 2; 6; 3; 7])) k = r6 (dot8 c src (q + k)).
  Proof.
    intros Hk. assert (BS : bytes S0) by (intros j; apply B).
    set (T := hadd_epi16 (maddubs_epi16 (shuffle_epi8 S1 (switch (sw8 0) (sw8 2))) mC) (maddubs_epi16 (shuffle_epi8 S1 (switch (sw8 4) (sw8 6))) mC)).
    assert (D : k < 8 \/ 8 <= k < 16 \/ 16 <= k) by lia. destruct D as [D|[D|D]].
    - pose proof (proj1 (packus_at (round6w (taps8_avx2 S0 mC)) (permutevar8x32 (round6w (hadd_epi16 T T)) (setr_epi32 [0; 4; 1; 5; 2; 6; 3; 7])) 0 k ltac:(lia))) as E.
      change (16 * 0 + k) with k in E. rewrite E. clear E.
      rewrite (round_at _ _ _ (taps8_word S0 c 0 k BS C (or_introl eq_refl) ltac:(lia)) (dot8_range _ _ _ BS C)). f_equal. apply dot8_ext. intros j Hj. unfold load. f_equal. lia.
    - pose proof (proj2 (packus_at (round6w (taps8_avx2 S0 mC)) (permutevar8x32 (round6w (hadd_epi16 T T)) (setr_epi32 [0; 4; 1; 5; 2; 6; 3; 7])) 0 (k - 8) ltac:(lia))) as E.
      replace (16 * 0 + (8 + (k - 8))) with k in E by lia. rewrite E. clear E. change (8 * 0 + (k - 8)) with (k - 8).
      set (i := k - 8). replace (q + k) with (q + 8 + i) by (unfold i; lia). assert (Hi : 0 <= i < 8) by (unfold i; lia). clearbody i.
      assert (PV : forall e d i, 0 <= i < 2 -> i32_of (setr_epi32 [0; 4; 1; 5; 2; 6; 3; 7]) e = d -> 0 <= e -> 0 <= d < 8 -> 
        i16_of (permutevar8x32 (round6w (hadd_epi16 T T)) (setr_epi32 [0; 4; 1; 5; 2; 6; 3; 7])) (2 * e + i) = i16_of (round6w (hadd_epi16 T T)) (2 * d + i)).
      { clear. intros e d i Hi Hd He HD. set (R := round6w (hadd_epi16 T T)). clearbody R. unfold i16_of, u16_of, permutevar8x32.
        replace ((2 * (2 * e + i)) / 4) with e by (Z.div_mod_to_equations; lia). replace ((2 * (2 * e + i) + 1) / 4) with e by (Z.div_mod_to_equations; lia). rewrite Hd.
        change 7 with (Z.ones 3). rewrite Z.land_ones by lia. change (2 ^ 3) with 8. rewrite (Z.mod_small d 8) by lia.
        replace ((2 * (2 * e + i)) mod 4) with (2 * i) by (Z.div_mod_to_equations; lia). replace ((2 * (2 * e + i) + 1) mod 4) with (2 * i + 1) by (Z.div_mod_to_equations; lia).
        replace (4 * d + 2 * i) with (2 * (2 * d + i)) by lia. replace (4 * d + (2 * i + 1)) with (2 * (2 * d + i) + 1) by lia. reflexivity. }
      assert (Q : forall i, 0 <= i < 2 ->
        (i16_of (hadd_epi16 T T) (2 * 0 + i) = dot8 c src (q + 8 + (0 + i)) /\ i16_of (hadd_epi16 T T) (2 * 4 + i) = dot8 c src (q + 8 + (2 + i))) /\
        (i16_of (hadd_epi16 T T) (2 * 1 + i) = dot8 c src (q + 8 + (4 + i)) /\ i16_of (hadd_epi16 T T) (2 * 5 + i) = dot8 c src (q + 8 + (6 + i)))).
      { intros j Hj. pose proof (two_words 0 0 2 4 6 j (or_introl eq_refl) Hj ltac:(cbn; lia) ltac:(cbn; lia)) as [[A1 _] [A2 _]].
        pose proof (two_words 1 0 2 4 6 j (or_intror eq_refl) Hj ltac:(cbn; lia) ltac:(cbn; lia)) as [[A3 _] [A4 _]]. fold T in A1, A2, A3, A4.
        replace (8 * 0 + j) with (2 * 0 + j) in A1 by lia. replace (8 * 0 + (2 + j)) with (2 * 1 + j) in A2 by lia.
        replace (8 * 1 + j) with (2 * 4 + j) in A3 by lia. replace (8 * 1 + (2 + j)) with (2 * 5 + j) in A4 by lia.
        split; split; assumption. }
      assert (BB : bytes src) by (intros a; apply B).
      assert (D2 : exists e j, i = 2 * e + j /\ 0 <= j < 2 /\ (e = 0 \/ e = 1 \/ e = 2 \/ e = 3)) by (exists (i / 2), (i mod 2); Z.div_mod_to_equations; lia).
      destruct D2 as (e & j & -> & Hj & D2). destruct (Q j Hj) as [[Q0 Q1] [Q2 Q3]]. clearbody T. clear Q.
      destruct D2 as [-> | [-> | [-> | ->]]].
      + rewrite (PV 0 0) by first [lia | vm_compute; reflexivity]. rewrite (round_at _ _ _ Q0 (dot8_range _ _ _ BB C)). do 2 f_equal; lia.
      + rewrite (PV 1 4) by first [lia | vm_compute; reflexivity]. rewrite (round_at _ _ _ Q1 (dot8_range _ _ _ BB C)). do 2 f_equal; lia.
      + rewrite (PV 2 1) by first [lia | vm_compute; reflexivity]. rewrite (round_at _ _ _ Q2 (dot8_range _ _ _ BB C)). do 2 f_equal; lia.
      + rewrite (PV 3 5) by first [lia | vm_compute; reflexivity]. rewrite (round_at _ _ _ Q3 (dot8_range _ _ _ BB C)). do 2 f_equal; lia.
    - pose proof (proj1 (packus_at (round6w (taps8_avx2 S0 mC)) (permutevar8x32 (round6w (hadd_epi16 T T)) (setr_epi32 [0; 4; 1; 5; 2; 6; 3; 7])) 1 (k - 16) ltac:(lia))) as E.
      replace (16 * 1 + (k - 16)) with k in E by lia. rewrite E. clear E.
      rewrite (round_at _ _ _ (taps8_word S0 c 1 (k - 16) BS C (or_intror eq_refl) ltac:(lia)) (dot8_range _ _ _ BS C)). f_equal. apply dot8_ext. intros j Hj. unfold load. f_equal. lia.
  Qed.
  (** 894-1094, first pass: the words stored. *)
  Lemma luma_sums_words : let '(sum1, sum2) := luma_sums mC S0 in
    (forall i, 0 <= i < 8 -> i16_of (castsi256_si128 sum1) i = dot8 c src (q + i)) /\
    (forall i, 0 <= i < 16 -> i16_of (permute2x128 sum1 (permute4x64 sum2 216) 19) i = dot8 c src (q + 8 + i)).
  Proof.
    unfold luma_sums. cbv zeta. assert (BS : bytes S0) by (intros j; apply B).
    set (T := hadd_epi16 (maddubs_epi16 (shuffle_epi8 S1 (switch (sw8 0) (sw8 4))) mC) (maddubs_epi16 (shuffle_epi8 S1 (switch (sw8 2) (sw8 6))) mC)).
    split.
    - intros i Hi. unfold castsi256_si128. pose proof (taps8_word S0 c 0 i BS C (or_introl eq_refl) Hi) as E. change (8 * 0 + i) with i in E. rewrite E. apply dot8_ext. intros j Hj. unfold load. f_equal. lia.
    - intros i Hi.
      rewrite permute2_19 by exact Hi. destruct (Z.ltb_spec i 8).
      + rewrite permute216_word by lia. destruct (Z.ltb_spec i 4).
        * assert (D : i = 0 + (i - 0) /\ i < 2 \/ i = 2 + (i - 2) /\ 2 <= i) by lia. destruct D as [[E D]|[E D]].
          -- pose proof (two_words 0 0 4 2 6 (i - 0) (or_introl eq_refl) ltac:(lia) ltac:(cbn; lia) ltac:(cbn; lia)) as [[_ A] _]. fold T in A. cbn [Z.eqb] in A.
             replace (8 * 0 + (4 + (i - 0))) with (4 + i) in A by lia. rewrite A. f_equal. lia.
          -- pose proof (two_words 0 0 4 2 6 (i - 2) (or_introl eq_refl) ltac:(lia) ltac:(cbn; lia) ltac:(cbn; lia)) as [_ [_ A]]. fold T in A. cbn [Z.eqb] in A.
             replace (8 * 0 + (4 + (2 + (i - 2)))) with (4 + i) in A by lia. rewrite A. f_equal. lia.
        * assert (D : i = 4 + (i - 4) /\ i < 6 \/ i = 6 + (i - 6) /\ 6 <= i) by lia. destruct D as [[E D]|[E D]].
          -- pose proof (two_words 1 0 4 2 6 (i - 4) (or_intror eq_refl) ltac:(lia) ltac:(cbn; lia) ltac:(cbn; lia)) as [[_ A] _]. fold T in A. cbn [Z.eqb] in A.
             replace (8 * 1 + (4 + (i - 4))) with (8 + i) in A by lia. rewrite A. f_equal. lia.
          -- pose proof (two_words 1 0 4 2 6 (i - 6) (or_intror eq_refl) ltac:(lia) ltac:(cbn; lia) ltac:(cbn; lia)) as [_ [_ A]]. fold T in A. cbn [Z.eqb] in A.
             replace (8 * 1 + (4 + (2 + (i - 6)))) with (8 + i) in A by lia. rewrite A. f_equal. lia.
      + pose proof (taps8_word S0 c 1 (i - 8) BS C (or_intror eq_refl) ltac:(lia)) as E. replace (8 * 1 + (i - 8)) with i in E by lia. rewrite E. apply dot8_ext. intros j Hj. unfold load. f_equal. lia.
  Qed.
End Wide8.
