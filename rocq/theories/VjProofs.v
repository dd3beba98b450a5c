(** The registers of the AVX2 interpolation kernels. *)
From Coq Require Import ZArith List Bool Lia.
From Verif Require Import CBase UtilModel MemModel MemProofs SaoModel SaoProofs McModel McProofs VxModelBase VxModel VxProofs VxProofsB VxProofsF VdModel ViModel ViProofs ViProofsB ViProofsC VjModel.
Import ListNotations.
Open Scope Z_scope.

(** Half [L] of a register is the register [s]. *)
Definition lane (L : Z) (r s : reg) : Prop := forall k, 0 <= k < 16 -> r (16 * L + k) = s k.
Lemma lane_u16 L r s i : lane L r s -> 0 <= i < 8 -> u16_of r (8 * L + i) = u16_of s i.
Proof.
  intros E Hi. unfold u16_of. replace (2 * (8 * L + i)) with (16 * L + 2 * i) by lia. replace (16 * L + 2 * i + 1) with (16 * L + (2 * i + 1)) by lia.
  rewrite !E by lia. reflexivity.
Qed.
Lemma lane_i16 L r s i : lane L r s -> 0 <= i < 8 -> i16_of r (8 * L + i) = i16_of s i.
Proof. intros E Hi. unfold i16_of. rewrite (lane_u16 L r s i E Hi). reflexivity. Qed.
Lemma lane_mk16 L f g : (forall i, 0 <= i < 8 -> f (8 * L + i) = g i) -> lane L (mk16 f) (mk16 g).
Proof.
  intros E k Hk. unfold mk16. replace (Z.even (16 * L + k)) with (Z.even k).
  2:{ rewrite Z.even_add, Z.even_mul. cbn [Z.even orb]. destruct (Z.even k); reflexivity. }
  replace ((16 * L + k) / 2) with (8 * L + k / 2) by (Z.div_mod_to_equations; lia).
  rewrite E by (Z.div_mod_to_equations; lia). reflexivity.
Qed.
Lemma lane_div L k : 0 <= k < 16 -> (16 * L + k) / 16 = L.
Proof. intros. Z.div_mod_to_equations. lia. Qed.
Lemma lane_mod L k : 0 <= k < 16 -> (16 * L + k) mod 16 = k.
Proof. intros. Z.div_mod_to_equations. lia. Qed.
Lemma lane_div8 L i : 0 <= i < 8 -> (8 * L + i) / 8 = L.
Proof. intros. Z.div_mod_to_equations. lia. Qed.
Lemma lane_mod8 L i : 0 <= i < 8 -> (8 * L + i) mod 8 = i.
Proof. intros. Z.div_mod_to_equations. lia. Qed.
Lemma lane_maddubs L a a' b b' : lane L a a' -> lane L b b' -> lane L (maddubs_epi16 a b) (maddubs_epi16 a' b').
Proof.
  intros A B. apply lane_mk16. intros i Hi. unfold i8_of.
  replace (2 * (8 * L + i)) with (16 * L + 2 * i) by lia. replace (16 * L + 2 * i + 1) with (16 * L + (2 * i + 1)) by lia.
  rewrite !A, !B by lia. reflexivity.
Qed.
Lemma lane_shuffle L a a' b b' : lane L a a' -> lane L b b' -> lane L (shuffle_epi8 a b) (shuffle_epi8 a' b').
Proof.
  intros A B k Hk. unfold shuffle_epi8, half. rewrite B by exact Hk. rewrite lane_div by exact Hk. rewrite (Z.div_small k 16) by exact Hk.
  destruct (Z.testbit (b' k) 7); [reflexivity|]. change (16 * 0) with 0. rewrite Z.add_0_l. apply A.
  change 15 with (Z.ones 4). rewrite Z.land_ones by lia. apply Z.mod_pos_bound. reflexivity.
Qed.
Lemma lane_hadd L a a' b b' : lane L a a' -> lane L b b' -> lane L (hadd_epi16 a b) (hadd_epi16 a' b').
Proof.
  intros A B. apply lane_mk16. intros i Hi. cbv zeta. rewrite lane_div8, lane_mod8 by exact Hi. rewrite (Z.div_small i 8), (Z.mod_small i 8) by exact Hi.
  destruct (Z.ltb_spec i 4).
  - replace (8 * L + 2 * i + 1) with (8 * L + (2 * i + 1)) by lia. rewrite !(lane_i16 L a a') by (assumption || lia). f_equal; f_equal; lia.
  - replace (8 * L + 2 * (i - 4) + 1) with (8 * L + (2 * (i - 4) + 1)) by lia. rewrite !(lane_i16 L b b') by (assumption || lia). f_equal; f_equal; lia.
Qed.
Lemma lane_switch0 lo hi : length lo = 16%nat -> lane 0 (switch lo hi) (setr_epi8 lo).
Proof. intros N k Hk. unfold switch, setr_epi8. rewrite app_nth1 by lia. do 2 f_equal. Qed.
Lemma lane_switch1 lo hi : length lo = 16%nat -> lane 1 (switch lo hi) (setr_epi8 hi).
Proof. intros N k Hk. unfold switch, setr_epi8. rewrite app_nth2 by lia. do 2 f_equal. lia. Qed.
Lemma lane_case L : L = 0 \/ L = 1 -> forall lo hi, length lo = 16%nat -> lane L (switch lo hi) (setr_epi8 (if L =? 0 then lo else hi)).
Proof. intros [-> | ->] lo hi N; [apply lane_switch0|apply lane_switch1]; exact N. Qed.
(** The coefficients. *)
Definition C8 (c : Z -> Z) : reg := unpacklo_epi64 (loadl (cbytes c) 0) (loadl (cbytes c) 0).
Lemma lane_quad L c : lane L (set1_quad (cbytes c) 0) (C8 c).
Proof.
  intros k Hk. unfold set1_quad. replace ((16 * L + k) mod 8) with (k mod 8).
  2:{ replace (16 * L + k) with (k + 2 * L * 8) by lia. rewrite Z.mod_add by lia. reflexivity. }
  rewrite Z.add_0_l. replace k with (8 * (k / 8) + k mod 8) at 2 by (Z.div_mod_to_equations; lia).
  symmetry. apply coef8; Z.div_mod_to_equations; lia.
Qed.
Lemma lane_dword L v : lane L (set1_epi32 v) (set1_epi32 v).
Proof.
  intros k Hk. unfold set1_epi32, mk32. replace ((16 * L + k) mod 4) with (k mod 4); [reflexivity|].
  replace (16 * L + k) with (k + 4 * L * 4) by lia. rewrite Z.mod_add by lia. reflexivity.
Qed.

(** Taps along a line. *)
Lemma lane_taps8 L s s' c : L = 0 \/ L = 1 -> lane L s s' -> lane L (taps8_avx2 s (set1_quad (cbytes c) 0)) (taps8 s' c).
Proof.
  intros HL Hs. unfold taps8_avx2, taps8. cbv zeta.
  assert (T : forall f, lane L (maddubs_epi16 (shuffle_epi8 s (switch (sw8 f) (sw8 f))) (set1_quad (cbytes c) 0)) (maddubs_epi16 (shuffle_epi8 s' (setr_epi8 (sw8 f))) (C8 c))).
  { intros f. apply lane_maddubs; [|apply lane_quad]. apply lane_shuffle; [exact Hs|].
    pose proof (lane_case L HL (sw8 f) (sw8 f) eq_refl) as Q. destruct (L =? 0); exact Q. }
  apply lane_hadd; apply lane_hadd; [exact (T 0)|exact (T 2)|exact (T 4)|exact (T 6)].
Qed.
Lemma lane_taps4 L s s' c : L = 0 \/ L = 1 -> lane L s s' -> lane L (taps4_avx2 s (set1_epi32 (load_i32 (cbytes c) 0))) (taps4 s' c).
Proof.
  intros HL Hs. unfold taps4_avx2, taps4. cbv zeta.
  assert (T : forall f, lane L (maddubs_epi16 (shuffle_epi8 s (switch (sw4 f) (sw4 f))) (set1_epi32 (load_i32 (cbytes c) 0))) (maddubs_epi16 (shuffle_epi8 s' (setr_epi8 (sw4 f))) (set1_epi32 (load_i32 (cbytes c) 0)))).
  { intros f. apply lane_maddubs; [|apply lane_dword]. apply lane_shuffle; [exact Hs|].
    pose proof (lane_case L HL (sw4 f) (sw4 f) eq_refl) as Q. destruct (L =? 0); exact Q. }
  apply lane_hadd; [exact (T 0)|exact (T 4)].
Qed.
Definition dot8 (c s : Z -> Z) (x : Z) : Z :=
  s x * c 0 + s (x + 1) * c 1 + s (x + 2) * c 2 + s (x + 3) * c 3 + s (x + 4) * c 4 + s (x + 5) * c 5 + s (x + 6) * c 6 + s (x + 7) * c 7.
Definition dot4 (c s : Z -> Z) (x : Z) : Z := s x * c 0 + s (x + 1) * c 1 + s (x + 2) * c 2 + s (x + 3) * c 3.
Lemma dot8_ext c s s' x y : (forall j, 0 <= j < 8 -> s (x + j) = s' (y + j)) -> dot8 c s x = dot8 c s' y.
Proof. intros E. unfold dot8. pose proof (E 0 ltac:(lia)) as E0. rewrite !Z.add_0_r in E0. rewrite E0, !E by lia. reflexivity. Qed.
Lemma dot4_ext c s s' x y : (forall j, 0 <= j < 4 -> s (x + j) = s' (y + j)) -> dot4 c s x = dot4 c s' y.
Proof. intros E. unfold dot4. pose proof (E 0 ltac:(lia)) as E0. rewrite !Z.add_0_r in E0. rewrite E0, !E by lia. reflexivity. Qed.
Lemma dot8_range c s x : bytes s -> fit 8 c -> -32000 <= dot8 c s x <= 32000.
Proof.
  intros Hs [_ B]. cbn [Z.eqb Pos.eqb] in B. unfold dot8.
  pose proof (term_bound _ (c 0) (Hs x)). pose proof (term_bound _ (c 1) (Hs (x + 1))). pose proof (term_bound _ (c 2) (Hs (x + 2))). pose proof (term_bound _ (c 3) (Hs (x + 3))).
  pose proof (term_bound _ (c 4) (Hs (x + 4))). pose proof (term_bound _ (c 5) (Hs (x + 5))). pose proof (term_bound _ (c 6) (Hs (x + 6))). pose proof (term_bound _ (c 7) (Hs (x + 7))). lia.
Qed.
Lemma dot4_range c s x : bytes s -> fit 4 c -> -32000 <= dot4 c s x <= 32000.
Proof.
  intros Hs [_ B]. cbn [Z.eqb Pos.eqb] in B. unfold dot4.
  pose proof (term_bound _ (c 0) (Hs x)). pose proof (term_bound _ (c 1) (Hs (x + 1))). pose proof (term_bound _ (c 2) (Hs (x + 2))). pose proof (term_bound _ (c 3) (Hs (x + 3))). lia.
Qed.
Lemma lane_of L r : lane L r (fun k => r (16 * L + k)).
Proof. intros k Hk. reflexivity. Qed.
Lemma bytes_at r o : bytes r -> bytes (fun k => r (o + k)).
Proof. intros B k. apply B. Qed.
Lemma taps8_word s c L i : bytes s -> fit 8 c -> L = 0 \/ L = 1 -> 0 <= i < 8 -> i16_of (taps8_avx2 s (set1_quad (cbytes c) 0)) (8 * L + i) = dot8 c s (16 * L + i).
Proof.
  intros B C HL Hi. rewrite (lane_i16 L _ _ i (lane_taps8 L s _ c HL (lane_of L s)) Hi).
  destruct (taps8_lane (fun k => s (16 * L + k)) c (bytes_at s _ B) i C Hi) as [-> _]. apply (dot8_ext c (fun k => s (16 * L + k)) s i). intros; f_equal; lia.
Qed.
Lemma taps4_word s c L i : bytes s -> fit 4 c -> L = 0 \/ L = 1 -> 0 <= i < 8 -> i16_of (taps4_avx2 s (set1_epi32 (load_i32 (cbytes c) 0))) (8 * L + i) = dot4 c s (16 * L + i).
Proof.
  intros B C HL Hi. rewrite (lane_i16 L _ _ i (lane_taps4 L s _ c HL (lane_of L s)) Hi).
  destruct (taps4_lane (fun k => s (16 * L + k)) c (bytes_at s _ B) i C Hi) as [-> _]. apply (dot4_ext c (fun k => s (16 * L + k)) s i). intros; f_equal; lia.
Qed.

(** Four taps out of each half: the switches of 100-155 and 894-1094, and of 1133-1169 and 1485-1613. *)
Lemma shuf8 s f i j : f = 0 \/ f = 2 \/ f = 4 \/ f = 6 -> 0 <= i < 2 -> 0 <= j < 8 -> shuffle_epi8 s (setr_epi8 (sw8 f)) (8 * i + j) = s (f + i + j).
Proof. intros [-> | [-> | [-> | ->]]]; [apply (shuf8_1 s)|apply (shuf8_2 s)|apply (shuf8_3 s)|apply (shuf8_4 s)]. Qed.
Lemma two8 s c f g i : bytes s -> fit 8 c -> f = 0 \/ f = 2 \/ f = 4 \/ f = 6 -> g = 0 \/ g = 2 \/ g = 4 \/ g = 6 -> 0 <= i < 2 ->
  let T := hadd_epi16 (maddubs_epi16 (shuffle_epi8 s (setr_epi8 (sw8 f))) (C8 c)) (maddubs_epi16 (shuffle_epi8 s (setr_epi8 (sw8 g))) (C8 c)) in
  (i16_of (hadd_epi16 T T) i = dot8 c s (f + i) /\ i16_of (hadd_epi16 T T) (4 + i) = dot8 c s (f + i)) /\
  (i16_of (hadd_epi16 T T) (2 + i) = dot8 c s (g + i) /\ i16_of (hadd_epi16 T T) (4 + (2 + i)) = dot8 c s (g + i)).
Proof.
  intros B C Hf Hg Hi. cbv zeta. set (sh := shuffle_epi8 s (setr_epi8 (sw8 f))). set (sh' := shuffle_epi8 s (setr_epi8 (sw8 g))).
  assert (Sh : forall j, 0 <= j < 8 -> sh (8 * i + j) = s (f + i + j)) by (intros; apply shuf8; lia).
  assert (Sh' : forall j, 0 <= j < 8 -> sh' (8 * i + j) = s (g + i + j)) by (intros; apply shuf8; lia). clearbody sh sh'.
  pose proof (hadd8_lo s c B sh (maddubs_epi16 sh' (C8 c)) f i 0 C Hi ltac:(lia) Sh) as L0. pose proof (hadd8_lo s c B sh (maddubs_epi16 sh' (C8 c)) f i 1 C Hi ltac:(lia) Sh) as L1.
  pose proof (hadd8_hi s c B sh' (maddubs_epi16 sh (C8 c)) g i 0 C Hi ltac:(lia) Sh') as H0. pose proof (hadd8_hi s c B sh' (maddubs_epi16 sh (C8 c)) g i 1 C Hi ltac:(lia) Sh') as H1.
  rewrite Z.add_0_r in L0, H0. fold (C8 c) in L0, L1, H0, H1. set (T := hadd_epi16 (maddubs_epi16 sh (C8 c)) (maddubs_epi16 sh' (C8 c))) in *. clearbody T.
  rewrite !i16_hadd_hi, (i16_hadd_lo T T i), (i16_hadd_lo T T (2 + i)) by lia.
  replace (2 * (2 + i)) with (4 + 2 * i) by lia. replace (4 + 2 * i + 1) with (4 + (2 * i + 1)) by lia. rewrite L0, L1, H0, H1.
  pose proof (dot8_range c s (f + i) B C) as R. pose proof (dot8_range c s (g + i) B C) as R'.
  lits. rewrite !Z.add_0_r.
  assert (E : forall x, s x * c 0 + s (x + 1) * c 1 + s (x + 2) * c 2 + s (x + 3) * c 3 + (s (x + 4) * c 4 + s (x + 5) * c 5 + s (x + 6) * c 6 + s (x + 7) * c 7) = dot8 c s x) by (intros; unfold dot8; ring).
  rewrite !E. rewrite !to_i16_id by lia. repeat split.
Qed.
Lemma shuf4 s f i j : f = 0 \/ f = 4 -> 0 <= i < 4 -> 0 <= j < 4 -> shuffle_epi8 s (setr_epi8 (sw4 f)) (4 * i + j) = s (f + i + j).
Proof. intros [-> | ->]; [apply (shuf4_1 s)|apply (shuf4_2 s)]. Qed.
Lemma one4 s c f i : bytes s -> fit 4 c -> f = 0 \/ f = 4 -> 0 <= i < 4 ->
  let T := maddubs_epi16 (shuffle_epi8 s (setr_epi8 (sw4 f))) (set1_epi32 (load_i32 (cbytes c) 0)) in
  i16_of (hadd_epi16 T T) i = dot4 c s (f + i) /\ i16_of (hadd_epi16 T T) (4 + i) = dot4 c s (f + i).
Proof.
  intros B C Hf Hi. cbv zeta. rewrite i16_hadd_lo, i16_hadd_hi by lia. set (sh := shuffle_epi8 s (setr_epi8 (sw4 f))).
  assert (Sh : forall j, 0 <= j < 4 -> sh (4 * i + j) = s (f + i + j)) by (intros; apply shuf4; lia). clearbody sh.
  pose proof (madd4 s c B sh f i 0 C Hi ltac:(lia) Sh) as L0. pose proof (madd4 s c B sh f i 1 C Hi ltac:(lia) Sh) as L1.
  rewrite Z.add_0_r in L0. rewrite L0, L1. pose proof (dot4_range c s (f + i) B C) as R.
  lits. rewrite !Z.add_0_r.
  assert (E : forall x, s x * c 0 + s (x + 1) * c 1 + (s (x + 2) * c 2 + s (x + 3) * c 3) = dot4 c s x) by (intros; unfold dot4; ring).
  rewrite !E. rewrite !to_i16_id by lia. split; reflexivity.
Qed.

(** Permutations, byte by byte. *)
Lemma quad_case k : 0 <= k < 32 -> exists e r, k = 8 * e + r /\ 0 <= r < 8 /\ (e = 0 \/ e = 1 \/ e = 2 \/ e = 3) /\ k / 8 = e /\ k mod 8 = r.
Proof. intros H. exists (k / 8), (k mod 8). split; [|split; [|split]]; try (split; reflexivity); Z.div_mod_to_equations; lia. Qed.
Lemma permute_148 a k : 0 <= k < 32 -> permute4x64 a 148 k = a (if k <? 16 then k else k - 8).
Proof.
  intros H. unfold permute4x64. destruct (quad_case k H) as (e & r & E & R & D & Q1 & Q2). rewrite Q1, Q2. f_equal.
  destruct (Z.ltb_spec k 16); destruct D as [-> | [-> | [-> | ->]]]; try lia.
  - change (Z.land (Z.shiftr 148 (2 * 0)) 3) with 0. lia.
  - change (Z.land (Z.shiftr 148 (2 * 1)) 3) with 1. lia.
  - change (Z.land (Z.shiftr 148 (2 * 2)) 3) with 1. lia.
  - change (Z.land (Z.shiftr 148 (2 * 3)) 3) with 2. lia.
Qed.
Lemma permute_153 a L k : L = 0 \/ L = 1 -> 0 <= k < 16 -> permute4x64 a 153 (16 * L + k) = a (8 + k).
Proof.
  intros HL H. unfold permute4x64. destruct (quad_case (16 * L + k) ltac:(lia)) as (e & r & E & R & D & Q1 & Q2). rewrite Q1, Q2. f_equal.
  destruct HL as [-> | ->]; destruct D as [-> | [-> | [-> | ->]]]; try lia.
  - change (Z.land (Z.shiftr 153 (2 * 0)) 3) with 1. lia.
  - change (Z.land (Z.shiftr 153 (2 * 1)) 3) with 2. lia.
  - change (Z.land (Z.shiftr 153 (2 * 2)) 3) with 1. lia.
  - change (Z.land (Z.shiftr 153 (2 * 3)) 3) with 2. lia.
Qed.
Lemma packus_at a b L j : 0 <= j < 8 -> packus_epi16 a b (16 * L + j) = sat_u8 (i16_of a (8 * L + j)) /\ packus_epi16 a b (16 * L + (8 + j)) = sat_u8 (i16_of b (8 * L + j)).
Proof.
  intros H. unfold packus_epi16. cbv zeta. rewrite !lane_div, !lane_mod by lia.
  destruct (Z.ltb_spec j 8), (Z.ltb_spec (8 + j) 8); try lia. split; [reflexivity|]. do 2 f_equal. lia.
Qed.
Lemma i16_round v n : -32000 <= i16_of v n <= 32000 -> sat_u8 (i16_of (round6w v) n) = clip1 8 (Z.shiftr (i16_of v n + 32) 6).
Proof. intros H. unfold round6w. rewrite i16_srai, i16_add, i16_set1 by lia. rewrite to_i16_id by lia. apply sat_clip. Qed.
Definition r6 (v : Z) : Z := clip1 8 (Z.shiftr (v + 32) 6).
Lemma round_at v n x : i16_of v n = x -> -32000 <= x <= 32000 -> sat_u8 (i16_of (round6w v) n) = r6 x.
Proof. intros <- R. apply i16_round, R. Qed.

(** The masks. *)
Lemma octet (P : Z -> Prop) : P 0 -> P 1 -> P 2 -> P 3 -> P 4 -> P 5 -> P 6 -> P 7 -> forall d, 0 <= d < 32 -> P (d / 4).
Proof. intros. apply cases8; try assumption. Z.div_mod_to_equations; lia. Qed.
Lemma mask16_bit d : 0 <= d < 32 -> Z.testbit (mask16 (4 * (d / 4) + 3)) 7 = (d <? 16).
Proof.
  intros H. assert (E : (d <? 16) = (d / 4 <? 4)) by (destruct (Z.ltb_spec d 16), (Z.ltb_spec (d / 4) 4); try reflexivity; Z.div_mod_to_equations; lia).
  rewrite E. revert d H E. intros d H _. apply (octet (fun e => Z.testbit (mask16 (4 * e + 3)) 7 = (e <? 4))); try exact H; vm_compute; reflexivity.
Qed.
Lemma mask24_bit d : 0 <= d < 32 -> Z.testbit (mask24 (4 * (d / 4) + 3)) 7 = (d <? 24).
Proof.
  intros H. assert (E : (d <? 24) = (d / 4 <? 6)) by (destruct (Z.ltb_spec d 24), (Z.ltb_spec (d / 4) 6); try reflexivity; Z.div_mod_to_equations; lia).
  rewrite E. revert d H E. intros d H _. apply (octet (fun e => Z.testbit (mask24 (4 * e + 3)) 7 = (e <? 6))); try exact H; vm_compute; reflexivity.
Qed.
Lemma maskstore_fill n mask m q x (r : reg) F : 0 <= n <= 32 -> (forall d, 0 <= d < 32 -> Z.testbit (mask (4 * (d / 4) + 3)) 7 = (d <? n)) ->
  (forall k, 0 <= k < n -> r k = F (x + k)) -> forall j, maskstore_epi32 m (q + x) r mask j = fill q x (x + n) F m j.
Proof.
  intros Hn Hm E j. unfold maskstore_epi32, fill.
  destruct (Z.leb_spec (q + x) j), (Z.ltb_spec j (q + x + 32)), (Z.ltb_spec j (q + (x + n))); cbn [andb]; try reflexivity; try lia.
  - rewrite Hm by lia. destruct (Z.ltb_spec (j - (q + x)) n); [|lia]. rewrite E by lia. f_equal. lia.
  - rewrite Hm by lia. destruct (Z.ltb_spec (j - (q + x)) n); [lia|]. reflexivity.
Qed.

(** Lines of eight or sixteen columns along the line. *)
Lemma hor16_byte (taps : reg -> reg) (D : (Z -> Z) -> Z -> Z) src q k : (forall a, byte (src a)) -> 0 <= k < 16 ->
  (forall s L i, bytes s -> L = 0 \/ L = 1 -> 0 <= i < 8 -> i16_of (taps s) (8 * L + i) = D s (16 * L + i)) ->
  (forall s x, bytes s -> -32000 <= D s x <= 32000) ->
  (forall i, 0 <= i < 8 -> D (permute4x64 (load src q) 148) i = D src (q + i) /\ D (permute4x64 (load src q) 148) (16 + i) = D src (q + 8 + i)) ->
  let sum := round6w (taps (permute4x64 (load src q) 148)) in
  permute4x64 (packus_epi16 sum sum) 216 k = r6 (D src (q + k)).
Proof.
  intros B Hk HT HR HD. cbv zeta. set (s := permute4x64 (load src q) 148) in *.
  assert (Bs : bytes s) by (intros j; apply B). rewrite packus_avx by lia. destruct (Z.ltb_spec k 16); [|lia].
  destruct (Z.lt_ge_cases k 8) as [L|L].
  - pose proof (HT s 0 k Bs (or_introl eq_refl) ltac:(lia)) as E. change (8 * 0 + k) with k in E. change (16 * 0 + k) with k in E.
    rewrite (round_at _ k _ E (HR _ _ Bs)). f_equal. apply HD. lia.
  - pose proof (HT s 1 (k - 8) Bs (or_intror eq_refl) ltac:(lia)) as E. change (8 * 1) with 8 in E. change (16 * 1) with 16 in E. replace (8 + (k - 8)) with k in E by lia.
    rewrite (round_at _ k _ E (HR _ _ Bs)). f_equal. rewrite (proj2 (HD (k - 8) ltac:(lia))). f_equal. lia.
Qed.
Lemma dot8_148 c src q i : 0 <= i < 8 -> dot8 c (permute4x64 (load src q) 148) i = dot8 c src (q + i) /\ dot8 c (permute4x64 (load src q) 148) (16 + i) = dot8 c src (q + 8 + i).
Proof.
  intros Hi. split; apply dot8_ext; intros j Hj; rewrite permute_148 by lia; unfold load; f_equal.
  - destruct (Z.ltb_spec (i + j) 16); lia.
  - destruct (Z.ltb_spec (16 + i + j) 16); lia.
Qed.
Lemma dot4_148 c src q i : 0 <= i < 8 -> dot4 c (permute4x64 (load src q) 148) i = dot4 c src (q + i) /\ dot4 c (permute4x64 (load src q) 148) (16 + i) = dot4 c src (q + 8 + i).
Proof.
  intros Hi. split; apply dot4_ext; intros j Hj; rewrite permute_148 by lia; unfold load; f_equal.
  - destruct (Z.ltb_spec (i + j) 16); lia.
  - destruct (Z.ltb_spec (16 + i + j) 16); lia.
Qed.
