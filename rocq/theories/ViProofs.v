(** The strip loop of the interpolation kernels, and the elements of their registers. *)
From Coq Require Import ZArith List Bool Lia.
From Verif Require Import CBase UtilModel MemModel MemProofs SaoModel SaoProofs McModel McProofs VxModelBase VxModel VxProofs VxProofsB VxProofsF VdModel ViModel.
Import ListNotations.
Open Scope Z_scope.

(** Vectors stored next to each other on [n] lines. *)
Section Strip.
  Variables (w h pd ds : Z) (m0 : mem) (V : Z -> Z -> Z).
  Hypothesis Hds : w <= ds.
  Local Notation wr := (wr w h pd ds m0 V).

  Lemma lines_wr P n Y a b (put : Z -> mem -> mem) m : 0 <= n -> 0 <= Y -> Y + n <= h -> 0 <= a <= b -> b <= w ->
    (forall k m, 0 <= k < n -> exists F, (forall j, put k m j = fill (pd + (Y + k) * ds) a b F m j) /\ forall x, a <= x < b -> F x = V x (Y + k)) ->
    wr P m -> wr (fun x y => P x y || ((Y <=? y) && (y <? Y + n) && (a <=? x) && (x <? b))) (floop 0 n put m).
  Proof.
    intros Hn HY Hh Ha Hb Hp Hm.
    apply (floop_inv (fun k m => wr (fun x y => P x y || ((Y <=? y) && (y <? Y + k) && (a <=? x) && (x <? b))) m)); [exact Hn| |].
    { eapply wr_ext; [|exact Hm]. intros x y Hx Hy. destruct (P x y); [reflexivity|].
      destruct (Z.leb_spec Y y), (Z.ltb_spec y (Y + 0)); cbn [andb orb]; try reflexivity; lia. }
    intros k m1 Hk H1. destruct (Hp k m1 Hk) as (F & E & HF). eapply wr_same; [exact E|].
    eapply wr_ext; [|apply wr_fill; [exact Hds|exact H1|lia|lia|lia|exact HF]].
    intros x y Hx Hy. unfold rowP. destruct (P x y); [reflexivity|]. cbn [orb].
    destruct (Z.leb_spec Y y), (Z.ltb_spec y (Y + k)), (Z.ltb_spec y (Y + (k + 1))), (Z.eqb_spec y (Y + k)), (Z.leb_spec a x), (Z.ltb_spec x b);
      cbn [andb orb]; try reflexivity; lia.
  Qed.

  Lemma land7 : 0 <= w -> Z.land w 7 = w mod 8.
  Proof. intros. change 7 with (2 ^ 3 - 1). rewrite low_bits by lia. reflexivity. Qed.

  Lemma strip8_wr n Y junk val tail m : 0 <= w -> 0 <= n -> 0 <= Y -> Y + n <= h ->
    (forall k col i, 0 <= k < n -> 0 <= col -> col + 8 <= w -> 0 <= i < 8 -> val k col i = V (col + i) (Y + k)) ->
    (forall k col i, 0 <= k < n -> 0 <= col -> col + i < w -> 0 <= i < 7 -> tail k col i = V (col + i) (Y + k)) ->
    wr (fun x y => y <? Y) m -> wr (fun x y => y <? Y + n) (strip8 n w junk (pd + Y * ds) ds val tail m).
  Proof.
    intros Hw Hn HY Hh Hv Ht Hm. unfold strip8.
    set (body := fun col m => (floop 0 n (fun k m => store8 m (pd + Y * ds + k * ds + col) (val k col)) m, true)).
    destruct (vloop_inv (fun X m1 => wr (fun x y => (y <? Y) || ((Y <=? y) && (y <? Y + n) && (0 <=? x) && (x <? X))) m1) 8 (w - 7) body (Z.to_nat (w - 7 - 0)) ltac:(lia) 0 m)
      as (X & M & A1 & A2 & A3 & A4); [lia| | |].
    { eapply wr_ext; [|exact Hm]. intros x y Hx Hy. cbv beta. destruct (y <? Y); [reflexivity|]. cbn [orb].
      destruct (Z.ltb_spec x 0); [lia|]. rewrite andb_false_r. reflexivity. }
    { intros col m1 Hc _ H1. eexists. split; [reflexivity|].
      eapply wr_ext; [|eapply (lines_wr _ n Y col (col + 8) (fun k m => store8 m (pd + Y * ds + k * ds + col) (val k col)) m1); [exact Hn|exact HY|exact Hh|lia|lia| |exact H1]].
      - intros x y Hx Hy. cbv beta.
        destruct (Z.ltb_spec y Y), (Z.leb_spec Y y), (Z.ltb_spec y (Y + n)), (Z.leb_spec 0 x), (Z.ltb_spec x col), (Z.ltb_spec x (col + 8)), (Z.leb_spec col x);
          cbn [andb orb]; try reflexivity; lia.
      - intros k m2 Hk. exists (fun x => val k col (x - col)). split.
        + intros j. unfold store8. replace (pd + Y * ds + k * ds + col) with (pd + (Y + k) * ds + col) by ring. apply store_fill. intros i Hi. f_equal. lia.
        + intros x Hx. rewrite Hv by lia. f_equal. lia. }
    rewrite Z.sub_0_r in M. fold (vfor 0 (w - 7) 8 body m) in A4. set (m1 := vfor 0 (w - 7) 8 body m) in *. clearbody m1.
    assert (EX : X = w - w mod 8) by (Z.div_mod_to_equations; lia).
    replace (8 * ((Z.max 0 (w - 7) + 7) / 8)) with X by (rewrite EX; Z.div_mod_to_equations; lia).
    pose proof (Z.mod_pos_bound w 8 ltac:(lia)) as MB. rewrite land7 by exact Hw.
    destruct (Z.ltb_spec X w) as [L|L].
    - eapply wr_ext; [|eapply (lines_wr _ n Y X w (fun k m => maskmoveu m (pd + Y * ds + k * ds + X) (tail k X) (mask_row junk (w mod 8 - 1))) m1); [exact Hn|exact HY|exact Hh|lia|lia| |exact A4]].
      + intros x y Hx Hy. cbv beta.
        destruct (Z.ltb_spec y Y), (Z.leb_spec Y y), (Z.ltb_spec y (Y + n)), (Z.leb_spec 0 x), (Z.ltb_spec x X), (Z.ltb_spec x w), (Z.leb_spec X x);
          cbn [andb orb]; try reflexivity; lia.
      + intros k m2 Hk. exists (fun x => tail k X (x - X)). split.
        * intros j. replace (pd + Y * ds + k * ds + X) with (pd + (Y + k) * ds + X) by ring.
          rewrite (mask_fill junk (w mod 8 - 1) m2 (pd + (Y + k) * ds) X (tail k X) (fun x => tail k X (x - X))); [|lia|intros i Hi; f_equal; lia].
          f_equal. lia.
        * intros x Hx. rewrite Ht by lia. f_equal. lia.
    - eapply wr_ext; [|exact A4]. intros x y Hx Hy. cbv beta.
      destruct (Z.ltb_spec y Y), (Z.leb_spec Y y), (Z.ltb_spec y (Y + n)), (Z.leb_spec 0 x), (Z.ltb_spec x X);
          cbn [andb orb]; try reflexivity; lia.
  Qed.

  (** All the lines, [n] at a time. *)
  Lemma lines1_wr junk (val : Z -> Z -> reg) m : 0 <= w -> 0 <= h -> m = m0 ->
    (forall row col i, 0 <= row < h -> 0 <= col -> col + i < w -> 0 <= i < 8 -> val row col i = V (col + i) row) ->
    wr (fun _ _ => true) (floop 0 h (fun row m => strip8 1 w junk (pd + row * ds) ds (fun _ col => val row col) (fun _ col => val row col) m) m).
  Proof.
    intros Hw Hh -> Hv. apply (wr_ext w h pd ds m0 V (fun x y => y <? h)). { intros x y Hx Hy. apply Z.ltb_lt. lia. }
    apply (floop_inv (fun Y m => wr (fun x y => y <? Y) m)); [exact Hh| |].
    { eapply wr_ext; [|apply wr_none]. intros x y Hx Hy. symmetry. apply Z.ltb_ge. lia. }
    intros Y m HY Hm. apply strip8_wr; try lia; [..|exact Hm]; intros k col i Hk Hc H1 H2; rewrite Hv by lia; f_equal; lia.
  Qed.
  Lemma linesn_wr n stop junk (val tail : Z -> Z -> Z -> reg) m : 0 < n -> 0 <= w -> 0 <= h -> h mod n = 0 -> m = m0 -> h - n < stop <= h ->
    (forall row k col i, 0 <= row -> row + n <= h -> 0 <= k < n -> 0 <= col -> col + 8 <= w -> 0 <= i < 8 -> val row k col i = V (col + i) (row + k)) ->
    (forall row k col i, 0 <= row -> row + n <= h -> 0 <= k < n -> 0 <= col -> col + i < w -> 0 <= i < 7 -> tail row k col i = V (col + i) (row + k)) ->
    wr (fun _ _ => true) (vfor 0 stop n (fun row m => (strip8 n w junk (pd + row * ds) ds (val row) (tail row) m, true)) m).
  Proof.
    intros Hn Hw Hh Hmod -> Hstop Hv Ht. unfold vfor.
    destruct (vloop_inv (fun Y m => wr (fun x y => y <? Y) m) n stop (fun row m => (strip8 n w junk (pd + row * ds) ds (val row) (tail row) m, true))
      (Z.to_nat (stop - 0)) Hn 0 m0) as (Y & M & A1 & A2 & A3 & A4); [lia| | |].
    { eapply wr_ext; [|apply wr_none]. intros x y Hx Hy. symmetry. apply Z.ltb_ge. lia. }
    { intros Y m1 HY HM Hm1. rewrite Z.sub_0_r in HM.
      assert (L : Y + n <= h).
      { apply Z.mod_divide in HM, Hmod; [|lia|lia]. destruct HM as [a Ea], Hmod as [b Eb].
        assert (a < b) by (apply (Z.mul_lt_mono_pos_r n); lia). assert ((a + 1) * n <= b * n) by (apply Z.mul_le_mono_nonneg_r; lia). lia. }
      eexists. split; [reflexivity|]. apply strip8_wr; try lia; [..|exact Hm1]; intros; [apply Hv|apply Ht]; lia. }
    rewrite Z.sub_0_r in M. apply (wr_ext w h pd ds m0 V (fun x y => y <? Y)); [|exact A4].
    intros x y Hx Hy. apply Z.ltb_lt.
    assert (L : h <= Y); [|lia].
    { apply Z.mod_divide in M, Hmod; [|lia|lia]. destruct M as [a Ea], Hmod as [b Eb].
      assert (b - 1 < a) by (apply (Z.mul_lt_mono_pos_r n); lia). assert (b * n <= a * n) by (apply Z.mul_le_mono_nonneg_r; lia). lia. }
  Qed.
End Strip.

(** What [block_write] does, as such a state. *)
Lemma bw_wr (w h : nat) dst stride v m : Z.of_nat w <= stride ->
  wr (Z.of_nat w) (Z.of_nat h) dst stride m v (fun _ _ => true) (block_write w h dst stride (fun x y _ => v x y) m).
Proof.
  intros H. destruct (bw_spec w h dst stride v m H) as [A B]. split; [exact A|].
  intros q Hq. apply B. intros (x & y & X & Y & E). exact (Hq x y X Y E).
Qed.

(** Coefficients read with wide loads. *)
Lemma u8_split k b rest : byte b -> 0 <= k -> to_u8 ((b + 256 * rest) / 256 ^ (k + 1)) = to_u8 (rest / 256 ^ k).
Proof.
  intros B K. rewrite Z.pow_add_r by lia. rewrite (Z.mul_comm (256 ^ k)). change (256 ^ 1) with 256.
  assert (0 < 256 ^ k) by (apply Z.pow_pos_nonneg; lia). rewrite <- Z.div_div by lia. do 2 f_equal.
  unfold byte in B. replace (b + 256 * rest) with (b + rest * 256) by ring. rewrite Z.div_add, Z.div_small by lia. lia.
Qed.
Lemma u8_wrap n v k : 0 <= k < n -> to_u8 ((v mod 256 ^ n) / 256 ^ k) = to_u8 (v / 256 ^ k).
Proof.
  intros K. unfold to_u8. replace n with (k + (1 + (n - k - 1))) by lia. rewrite !Z.pow_add_r by lia.
  assert (0 < 256 ^ k) by (apply Z.pow_pos_nonneg; lia). assert (0 < 256 ^ (n - k - 1)) by (apply Z.pow_pos_nonneg; lia).
  change (256 ^ 1) with 256. rewrite Z.rem_mul_r by lia.
  rewrite (Z.mul_comm (256 ^ k) ((v / 256 ^ k) mod _)), Z.div_add by lia. rewrite Z.div_small by (apply Z.mod_pos_bound; lia). rewrite Z.add_0_l.
  rewrite Z.rem_mul_r by lia. rewrite (Z.mul_comm 256), Z.mod_add, Z.mod_mod by lia. reflexivity.
Qed.
Lemma u8_i32 v j : 0 <= j < 4 -> to_u8 (to_i32 v / 256 ^ j) = to_u8 (v / 256 ^ j).
Proof.
  intros J. rewrite <- (u8_wrap 4 (to_i32 v)), <- (u8_wrap 4 v) by lia. do 2 f_equal.
  unfold to_i32. change (256 ^ 4) with 4294967296. rewrite Zminus_mod_idemp_l. f_equal. lia.
Qed.
Lemma u8_i16 v j : 0 <= j < 2 -> to_u8 (to_i16 v / 256 ^ j) = to_u8 (v / 256 ^ j).
Proof.
  intros J. rewrite <- (u8_wrap 2 (to_i16 v)), <- (u8_wrap 2 v) by lia. do 2 f_equal.
  unfold to_i16. change (256 ^ 2) with 65536. rewrite Zminus_mod_idemp_l. f_equal. lia.
Qed.
Lemma case4 (P : Z -> Prop) : P 0 -> P 1 -> P 2 -> P 3 -> forall i, 0 <= i < 4 -> P i.
Proof. intros A B C D i H. assert (E : i = 0 \/ i = 1 \/ i = 2 \/ i = 3) by lia. destruct E as [-> | [-> | [-> | ->]]]; assumption. Qed.
Lemma cbytes_byte c k : byte (cbytes c k).
Proof. apply to_u8_byte. Qed.
Lemma set1_i32_byte c p i j : 0 <= j < 4 -> set1_epi32 (load_i32 (cbytes c) p) (4 * i + j) = cbytes c (p + j).
Proof.
  intros J. unfold set1_epi32. rewrite mk32_at by exact J. unfold load_i32. rewrite u8_i32 by exact J.
  pose proof (cbytes_byte c p) as B0. pose proof (cbytes_byte c (p + 1)) as B1. pose proof (cbytes_byte c (p + 2)) as B2. pose proof (cbytes_byte c (p + 3)) as B3.
  replace (cbytes c p + 256 * cbytes c (p + 1) + 65536 * cbytes c (p + 2) + 16777216 * cbytes c (p + 3))
    with (cbytes c p + 256 * (cbytes c (p + 1) + 256 * (cbytes c (p + 2) + 256 * (cbytes c (p + 3) + 256 * 0)))) by lia.
  revert j J. refine (case4 _ _ _ _ _).
  - change (256 ^ 0) with 1. rewrite Z.div_1_r. unfold to_u8. rewrite (Z.mul_comm 256), Z.mod_add by lia. rewrite Z.add_0_r. apply to_u8_id, B0.
  - change (256 ^ 1) with (256 ^ (0 + 1)). rewrite u8_split by (assumption || lia). change (256 ^ 0) with 1. rewrite Z.div_1_r. unfold to_u8. rewrite (Z.mul_comm 256), Z.mod_add by lia. apply to_u8_id, B1.
  - change (256 ^ 2) with (256 ^ (0 + 1 + 1)). rewrite !u8_split by (assumption || lia). change (256 ^ 0) with 1. rewrite Z.div_1_r. unfold to_u8. rewrite (Z.mul_comm 256), Z.mod_add by lia. apply to_u8_id, B2.
  - change (256 ^ 3) with (256 ^ (0 + 1 + 1 + 1)). rewrite !u8_split by (assumption || lia). change (256 ^ 0) with 1. rewrite Z.div_1_r. unfold to_u8. rewrite (Z.mul_comm 256), Z.mod_add by lia. apply to_u8_id, B3.
Qed.
Lemma set1_i16_lo c p i : set1_epi16 (load_i16 (cbytes c) p) (2 * i) = cbytes c p.
Proof.
  unfold set1_epi16. rewrite mk16_lo. unfold load_i16. pose proof (u8_i16 (cbytes c p + 256 * cbytes c (p + 1)) 0 ltac:(lia)) as E.
  change (256 ^ 0) with 1 in E. rewrite !Z.div_1_r in E. rewrite E. unfold to_u8. rewrite (Z.mul_comm 256), Z.mod_add by lia. apply to_u8_id, cbytes_byte.
Qed.
Lemma set1_i16_hi c p i : set1_epi16 (load_i16 (cbytes c) p) (2 * i + 1) = cbytes c (p + 1).
Proof.
  unfold set1_epi16. rewrite mk16_hi. unfold load_i16. pose proof (u8_i16 (cbytes c p + 256 * cbytes c (p + 1)) 1 ltac:(lia)) as E.
  change (256 ^ 1) with 256 in E. rewrite E. pose proof (cbytes_byte c p) as B. unfold byte in B. rewrite (Z.mul_comm 256), Z.div_add, Z.div_small by lia. apply to_u8_id, cbytes_byte.
Qed.
Lemma cbytes_i8 c k : -128 <= c k <= 127 -> to_i8 (cbytes c k) = c k.
Proof. intros H. unfold cbytes. rewrite to_i8_u8. apply to_i8_id, H. Qed.

(** More elements. *)
Lemma i32_range r i : -2147483648 <= i32_of r i <= 2147483647.
Proof. unfold i32_of, to_i32. match goal with |- context [?v mod 4294967296] => pose proof (Z.mod_pos_bound v 4294967296) end. lia. Qed.
Lemma i32_add a b i : i32_of (add_epi32 a b) i = to_i32 (i32_of a i + i32_of b i).
Proof. unfold add_epi32. rewrite i32_mk32. reflexivity. Qed.
Lemma i32_madd a b i : i32_of (madd_epi16 a b) i = to_i32 (i16_of a (2 * i) * i16_of b (2 * i) + i16_of a (2 * i + 1) * i16_of b (2 * i + 1)).
Proof. unfold madd_epi16. rewrite i32_mk32. reflexivity. Qed.
Lemma i32_srai a n i : 0 <= n -> i32_of (srai_epi32 a n) i = Z.shiftr (i32_of a i) n.
Proof.
  intros H. unfold srai_epi32. rewrite i32_mk32. apply to_i32_id. pose proof (i32_range a i).
  rewrite Z.shiftr_div_pow2 by lia. assert (0 < 2 ^ n) by (apply Z.pow_pos_nonneg; lia).
  split; [apply Z.div_le_lower_bound; nia|]. apply Z.lt_succ_r, Z.div_lt_upper_bound; nia.
Qed.
Lemma i32_set1 v i : -2147483648 <= v <= 2147483647 -> i32_of (set1_epi32 v) i = v.
Proof. intros H. unfold set1_epi32. rewrite i32_mk32. apply to_i32_id, H. Qed.
Lemma i16_loadw m p i : -32768 <= m (p + i) <= 32767 -> i16_of (loadw m p) i = m (p + i).
Proof. intros H. unfold loadw. rewrite i16_mk16. apply to_i16_id, H. Qed.
Lemma i16_hadd_lo a b i : 0 <= i < 4 -> i16_of (hadd_epi16 a b) i = to_i16 (i16_of a (2 * i) + i16_of a (2 * i + 1)).
Proof.
  intros H. unfold hadd_epi16. rewrite i16_mk16. cbv zeta. rewrite Z.div_small, Z.mod_small by lia.
  destruct (Z.ltb_spec i 4); [|lia]. reflexivity.
Qed.
Lemma i16_hadd_hi a b i : 0 <= i < 4 -> i16_of (hadd_epi16 a b) (4 + i) = to_i16 (i16_of b (2 * i) + i16_of b (2 * i + 1)).
Proof.
  intros H. unfold hadd_epi16. rewrite i16_mk16. cbv zeta. rewrite Z.div_small, Z.mod_small by lia.
  destruct (Z.ltb_spec (4 + i) 4); [lia|]. replace (4 + i - 4) with i by lia. reflexivity.
Qed.
Lemma i16_unlo16 a b i : 0 <= i < 4 -> i16_of (unpacklo_epi16 a b) (2 * i) = i16_of a i /\ i16_of (unpacklo_epi16 a b) (2 * i + 1) = i16_of b i.
Proof. revert i. refine (case4 _ _ _ _ _); split; reflexivity. Qed.
Lemma i16_unhi16 a b i : 0 <= i < 4 -> i16_of (unpackhi_epi16 a b) (2 * i) = i16_of a (4 + i) /\ i16_of (unpackhi_epi16 a b) (2 * i + 1) = i16_of b (4 + i).
Proof. revert i. refine (case4 _ _ _ _ _); split; reflexivity. Qed.
Lemma i16_packs32_lo a b i : 0 <= i < 4 -> i16_of (packs_epi32 a b) i = sat_i16 (i32_of a i).
Proof.
  intros H. unfold packs_epi32. rewrite i16_mk16. cbv zeta. rewrite Z.div_small, Z.mod_small by lia.
  destruct (Z.ltb_spec i 4); [|lia]. apply to_i16_id, sat_i16_range.
Qed.
Lemma i16_packs32_hi a b i : 0 <= i < 4 -> i16_of (packs_epi32 a b) (4 + i) = sat_i16 (i32_of b i).
Proof.
  intros H. unfold packs_epi32. rewrite i16_mk16. cbv zeta. rewrite Z.div_small, Z.mod_small by lia.
  destruct (Z.ltb_spec (4 + i) 4); [lia|]. replace (4 * 0 + (4 + i) - 4) with i by lia. apply to_i16_id, sat_i16_range.
Qed.
