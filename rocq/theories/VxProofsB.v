(** The vector kernels of sample adaptive offset compute what the C kernels do. *)
From Coq Require Import ZArith List Bool Lia.
From Verif Require Import CBase MemModel MemProofs HdrModel SaoModel SaoSpec SaoProofs SaoProofsB SaoProofsC AlfModel VxModelBase VxModel VxProofs.
Import ListNotations.
Open Scope Z_scope.
Local Opaque Z.mul Z.add Z.sub Z.div Z.modulo.

Lemma fill_none q a b F m j : b <= a -> fill q a b F m j = m j.
Proof. intros H. unfold fill. destruct (Z.leb_spec (q + a) j), (Z.ltb_spec j (q + b)); cbn [andb]; try reflexivity; lia. Qed.
Lemma wr_same w h pd ds m0 val P m m' : (forall j, m' j = m j) -> wr w h pd ds m0 val P m -> wr w h pd ds m0 val P m'.
Proof. intros E [H1 H2]. split; intros; rewrite E; auto. Qed.
Lemma wr_fill w h pd ds m0 val P m Y a b F : w <= ds -> wr w h pd ds m0 val P m -> 0 <= a -> b <= w -> 0 <= Y < h ->
  (forall x, a <= x < b -> F x = val x Y) -> wr w h pd ds m0 val (rowP P Y a b) (fill (pd + Y * ds) a b F m).
Proof.
  intros D [H1 H2] A B HY E. split.
  - intros x y Hx Hy. unfold fill, rowP. destruct (Z.eq_dec y Y) as [->|N].
    + rewrite Z.eqb_refl. cbn [andb].
      destruct (Z.leb_spec a x), (Z.ltb_spec x b), (Z.leb_spec (pd + Y * ds + a) (pd + Y * ds + x)), (Z.ltb_spec (pd + Y * ds + x) (pd + Y * ds + b)); try lia; cbn [andb].
      * rewrite orb_true_r. rewrite <- E by lia. f_equal. lia.
      * rewrite orb_false_r. apply H1; assumption.
      * rewrite orb_false_r. apply H1; assumption.
      * rewrite orb_false_r. apply H1; assumption.
    + replace (y =? Y) with false by (symmetry; apply Z.eqb_neq; exact N). cbn [andb]. rewrite orb_false_r.
      destruct (Z.leb_spec (pd + Y * ds + a) (pd + y * ds + x)), (Z.ltb_spec (pd + y * ds + x) (pd + Y * ds + b)); cbn [andb]; try (apply H1; assumption).
      exfalso. destruct (Z.lt_ge_cases y Y).
      * assert (y * ds + ds <= Y * ds) by (replace (y * ds + ds) with ((y + 1) * ds) by ring; apply Z.mul_le_mono_nonneg_r; lia). lia.
      * assert (Y * ds + ds <= y * ds) by (replace (Y * ds + ds) with ((Y + 1) * ds) by ring; apply Z.mul_le_mono_nonneg_r; lia). lia.
  - intros q Hq. unfold fill. destruct (Z.leb_spec (pd + Y * ds + a) q), (Z.ltb_spec q (pd + Y * ds + b)); cbn [andb]; try (apply H2; exact Hq).
    exfalso. apply (Hq (q - (pd + Y * ds)) Y); lia.
Qed.

(** The sum of the signs. *)
Lemma type_value s0 s1 s2 k : byte (s0 k) -> byte (s1 k) -> byte (s2 k) ->
  i8_of (eo_type s0 s1 s2) k = psign (s1 k - s0 k) + psign (s1 k - s2 k).
Proof.
  intros B0 B1 B2. unfold eo_type. rewrite i8_adds, !i8_subs, !i8_cmpeq. unfold min_epu8, psign.
  destruct (Z.ltb_spec 0 (s1 k - s0 k)), (Z.ltb_spec (s1 k - s0 k) 0), (Z.ltb_spec 0 (s1 k - s2 k)), (Z.ltb_spec (s1 k - s2 k) 0); try lia;
    destruct (Z.eqb_spec (Z.min (s0 k) (s1 k)) (s0 k)), (Z.eqb_spec (Z.min (s0 k) (s1 k)) (s1 k)),
      (Z.eqb_spec (Z.min (s1 k) (s2 k)) (s1 k)), (Z.eqb_spec (Z.min (s1 k) (s2 k)) (s2 k)); try lia; reflexivity.
Qed.
Lemma type_range s0 s1 s2 k : byte (s0 k) -> byte (s1 k) -> byte (s2 k) -> -2 <= i8_of (eo_type s0 s1 s2) k <= 2.
Proof.
  intros B0 B1 B2. rewrite type_value by assumption. unfold psign.
  destruct (0 <? s1 k - s0 k), (s1 k - s0 k <? 0), (0 <? s1 k - s2 k), (s1 k - s2 k <? 0); lia.
Qed.
Lemma type_byte s0 s1 s2 k : byte (eo_type s0 s1 s2 k).
Proof. unfold eo_type, adds_epi8, mk8. apply to_u8_byte. Qed.

Lemma i8_and_mask a b v k : i8_of (and_si (cmpeq_epi8 a b) (set1_epi8 v)) k = if a k =? b k then to_i8 v else 0.
Proof.
  unfold i8_of, and_si, cmpeq_epi8, set1_epi8, mk8. destruct (a k =? b k).
  - replace (Z.land 255 (to_u8 v)) with (to_u8 v); [apply to_i8_u8|]. rewrite Z.land_comm. change 255 with (Z.ones 8). rewrite Z.land_ones by lia.
    unfold to_u8. rewrite Z.mod_mod by lia. reflexivity.
  - reflexivity.
Qed.

(** Adding offsets to samples. *)
Lemma add_offsets_value t0 s1 k : bytes s1 -> 0 <= k < 16 -> add_offsets_sse t0 s1 k = sat_u8 (s1 k + i8_of t0 k).
Proof.
  intros B K. unfold add_offsets_sse. destruct (Z.lt_ge_cases k 8) as [L|L].
  - rewrite packus_lo, i16_adds, i16_cvt8, i16_lo by (lia || apply B). pose proof (i8_range t0 k). pose proof (B k). unfold byte in *.
    rewrite sat_i16_id by lia. f_equal. lia.
  - replace k with (8 + (k - 8)) by lia. set (i := k - 8) in *. assert (0 <= i < 8) by (unfold i; lia). clearbody i.
    rewrite packus_hi, i16_adds, i16_cvt8, i16_hi by (lia || apply B). pose proof (i8_range t0 (8 + i)). pose proof (B (8 + i)). unfold byte in *.
    assert (E : i8_of (srli_si128 t0 8) i = i8_of t0 (8 + i)).
    { unfold i8_of, srli_si128. destruct (Z.ltb_spec (i + 8) 16); [|lia]. do 2 f_equal. lia. }
    rewrite E. rewrite sat_i16_id by lia. f_equal. lia.
Qed.
Lemma sat8 v : sat_u8 v = saturate 8 v.
Proof. reflexivity. Qed.
Definition off_i8 (off : Z -> Z) : Prop := forall e, 0 <= e <= 4 -> -128 <= off e <= 127.

Lemma eo_sse_value off s0 s1 s2 k : off_i8 off -> bytes s0 -> bytes s1 -> bytes s2 -> 0 <= k < 16 ->
  eo_sse off s0 s1 s2 k = saturate 8 (s1 k + off (edge_class (s1 k) (s0 k) (s2 k))).
Proof.
  intros O B0 B1 B2 K. unfold eo_sse. rewrite add_offsets_value by assumption. rewrite sat8. do 2 f_equal.
  rewrite !i8_adds, !i8_and_mask. rewrite class_sum. rewrite <- type_value by auto.
  pose proof (type_range s0 s1 s2 k (B0 k) (B1 k) (B2 k)) as R. set (e := i8_of (eo_type s0 s1 s2) k) in *.
  assert (T : forall c, -128 <= c <= 127 -> (eo_type s0 s1 s2 k =? set1_epi8 c k) = (e =? c)).
  { intros c Hc. rewrite i8_eqb; [rewrite i8_set1 by lia; reflexivity|apply type_byte|apply to_u8_byte]. }
  rewrite !T by lia. clearbody e. clear T.
  pose proof (O 0 ltac:(lia)). pose proof (O 1 ltac:(lia)). pose proof (O 2 ltac:(lia)). pose proof (O 3 ltac:(lia)). pose proof (O 4 ltac:(lia)).
  rewrite !(to_i8_id (off _)) by lia.
  assert (e = -2 \/ e = -1 \/ e = 0 \/ e = 1 \/ e = 2) as E by lia.
  unfold sat_i8.
  destruct E as [-> | [-> | [-> | [-> | ->]]]]; cbn [Z.eqb Pos.eqb].
  - change (-2 + 2) with 0. lia.
  - change (-1 + 2) with 1. lia.
  - change (0 + 2) with 2. lia.
  - change (1 + 2) with 3. lia.
  - change (2 + 2) with 4. lia.
Qed.

(** 32 samples. *)
Lemma permute_216 a k : 0 <= k < 32 -> permute4x64 a 216 k = a (if k <? 8 then k else if k <? 16 then k + 8 else if k <? 24 then k - 8 else k).
Proof.
  intros H. unfold permute4x64. f_equal.
  destruct (Z.ltb_spec k 8).
  { rewrite (Z.div_small k 8), (Z.mod_small k 8) by lia. change (Z.land (Z.shiftr 216 (2 * 0)) 3) with 0. lia. }
  destruct (Z.ltb_spec k 16).
  { replace (k / 8) with 1 by (apply Z.div_unique with (k - 8); lia). replace (k mod 8) with (k - 8) by (apply Z.mod_unique with 1; lia).
    change (Z.land (Z.shiftr 216 (2 * 1)) 3) with 2. lia. }
  destruct (Z.ltb_spec k 24).
  { replace (k / 8) with 2 by (apply Z.div_unique with (k - 16); lia). replace (k mod 8) with (k - 16) by (apply Z.mod_unique with 2; lia).
    change (Z.land (Z.shiftr 216 (2 * 2)) 3) with 1. lia. }
  replace (k / 8) with 3 by (apply Z.div_unique with (k - 24); lia). replace (k mod 8) with (k - 24) by (apply Z.mod_unique with 3; lia).
  change (Z.land (Z.shiftr 216 (2 * 3)) 3) with 3. lia.
Qed.
Lemma packus_avx a b k : 0 <= k < 32 ->
  permute4x64 (packus_epi16 a b) 216 k = if k <? 16 then sat_u8 (i16_of a k) else sat_u8 (i16_of b (k - 16)).
Proof.
  intros H. rewrite permute_216 by lia. unfold packus_epi16.
  destruct (Z.ltb_spec k 8).
  { rewrite Z.div_small, Z.mod_small by lia. destruct (Z.ltb_spec k 8), (Z.ltb_spec k 16); try lia. f_equal. }
  destruct (Z.ltb_spec k 16).
  { replace ((k + 8) / 16) with 1 by (apply Z.div_unique with (k - 8); lia). replace ((k + 8) mod 16) with (k - 8) by (apply Z.mod_unique with 1; lia).
    destruct (Z.ltb_spec (k - 8) 8); try lia. do 2 f_equal. lia. }
  destruct (Z.ltb_spec k 24).
  { rewrite Z.div_small, Z.mod_small by lia. destruct (Z.ltb_spec (k - 8) 8); try lia. do 2 f_equal. lia. }
  replace (k / 16) with 1 by (apply Z.div_unique with (k - 16); lia). replace (k mod 16) with (k - 16) by (apply Z.mod_unique with 1; lia).
  destruct (Z.ltb_spec (k - 16) 8); try lia. do 2 f_equal. lia.
Qed.
Lemma add_offsets_avx_value (add : reg -> reg -> reg) t0 s1 k :
  (forall a b i, -512 <= i16_of a i + i16_of b i <= 512 -> i16_of (add a b) i = i16_of a i + i16_of b i) ->
  bytes s1 -> 0 <= k < 32 -> add_offsets_avx2 add t0 s1 k = sat_u8 (s1 k + i8_of t0 k).
Proof.
  intros A B K. unfold add_offsets_avx2, castsi256_si128. rewrite packus_avx by lia. pose proof (i8_range t0 k). pose proof (B k). unfold byte in *.
  assert (X : bytes (extracti128_1 s1)) by (intros j; apply B).
  destruct (Z.ltb_spec k 16).
  - rewrite A; rewrite i16_cvt8, i16_cvtu8 by apply B; [f_equal; lia|lia].
  - assert (E : i8_of (extracti128_1 t0) (k - 16) = i8_of t0 k) by (unfold i8_of, extracti128_1; do 2 f_equal; lia).
    assert (F : extracti128_1 s1 (k - 16) = s1 k) by (unfold extracti128_1; f_equal; lia).
    rewrite A; rewrite i16_cvt8, i16_cvtu8, E, F by apply X; [f_equal; lia|lia].
Qed.
Lemma adds_small a b i : -512 <= i16_of a i + i16_of b i <= 512 -> i16_of (adds_epi16 a b) i = i16_of a i + i16_of b i.
Proof. intros H. rewrite i16_adds. apply sat_i16_id. lia. Qed.
Lemma add_small a b i : -512 <= i16_of a i + i16_of b i <= 512 -> i16_of (add_epi16 a b) i = i16_of a i + i16_of b i.
Proof. intros H. rewrite i16_add. apply to_i16_id. lia. Qed.

Lemma table_value off e h : off_i8 off -> 0 <= e <= 4 -> h = 0 \/ h = 16 -> i8_of (eo_table_avx2 off) (h + e) = off e.
Proof.
  intros O E H. unfold eo_table_avx2. cbv zeta. set (tmp := packs_epi16 _ setzero).
  assert (T : i8_of tmp e = off e).
  { unfold tmp, packs_epi16. rewrite i8_mk8, to_i8_id by (rewrite Z.mod_small, Z.div_small by lia; destruct (e <? 8); apply sat_i8_range).
    rewrite Z.mod_small, Z.div_small by lia. destruct (Z.ltb_spec e 8); [|lia].
    unfold packs_epi32. replace (8 * 0 + e) with e by lia. rewrite i16_mk16. rewrite Z.mod_small, Z.div_small by lia. pose proof (O e E).
    destruct (Z.ltb_spec e 4).
    - rewrite i32_mk32. replace (4 * 0 + e) with e by lia. rewrite to_i32_id by lia. rewrite sat_i16_id, to_i16_id, sat_i8_id by lia. reflexivity.
    - rewrite i32_mk32. assert (e = 4) as -> by lia. change (4 * 0 + 4 - 4 =? 0) with true. cbv iota. rewrite to_i32_id by lia.
      rewrite sat_i16_id, to_i16_id, sat_i8_id by lia. reflexivity. }
  unfold i8_of, set_halves. destruct H as [-> | ->].
  - destruct (Z.ltb_spec (0 + e) 16); [|lia]. replace (0 + e) with e by lia. exact T.
  - destruct (Z.ltb_spec (16 + e) 16); [lia|]. replace (16 + e - 16) with e by lia. exact T.
Qed.
Lemma eo_avx2_value off s0 s1 s2 k : off_i8 off -> bytes s0 -> bytes s1 -> bytes s2 -> 0 <= k < 32 ->
  eo_avx2 off s0 s1 s2 k = saturate 8 (s1 k + off (edge_class (s1 k) (s0 k) (s2 k))).
Proof.
  intros O B0 B1 B2 K. unfold eo_avx2. cbv zeta. rewrite add_offsets_avx_value; [|apply adds_small|exact B1|exact K]. rewrite sat8. do 2 f_equal.
  pose proof (type_range s0 s1 s2 k (B0 k) (B1 k) (B2 k)) as R.
  assert (E : adds_epi8 (eo_type s0 s1 s2) (set1_epi8 2) k = i8_of (eo_type s0 s1 s2) k + 2).
  { unfold adds_epi8, mk8. rewrite i8_set1 by lia. rewrite sat_i8_id by lia. apply to_u8_id. unfold byte. lia. }
  assert (S' : shuffle_epi8 (eo_table_avx2 off) (adds_epi8 (eo_type s0 s1 s2) (set1_epi8 2)) k
              = eo_table_avx2 off (half k + (i8_of (eo_type s0 s1 s2) k + 2))).
  { unfold shuffle_epi8. rewrite E. set (e := i8_of (eo_type s0 s1 s2) k + 2) in *.
    assert (e = 0 \/ e = 1 \/ e = 2 \/ e = 3 \/ e = 4) as C by (unfold e; lia). clearbody e.
    destruct C as [-> | [-> | [-> | [-> | ->]]]]; reflexivity. }
  unfold i8_of at 1. rewrite S'. rewrite class_sum, <- type_value by auto.
  apply (table_value off _ (half k) O); [lia|]. unfold half.
  destruct (Z.lt_ge_cases k 16); [left; rewrite Z.div_small by lia; lia|right]. replace (k / 16) with 1 by (apply Z.div_unique with (k - 16); lia). lia.
Qed.

(** Rows. *)
Lemma low_bits v n : 0 <= n -> Z.land v (2 ^ n - 1) = v mod 2 ^ n.
Proof. intros H. rewrite <- Z.land_ones by exact H. rewrite Z.ones_equiv. f_equal. Qed.
Definition at_ (src : mem) (p d : Z) (off : Z -> Z) (x : Z) : Z :=
  saturate 8 (src (p + x) + off (edge_class (src (p + x)) (src (p + x - d)) (src (p + x + d)))).
(** The last, incomplete piece begins at the multiple of the step below the end. *)
Lemma last_piece sx ex x step r : 0 < step -> sx <= x < ex -> (x - sx) mod step = 0 -> r = (ex - sx) mod step ->
  (x = ex - r /\ 0 < r < step) \/ (x <> ex - r /\ x + step <= ex).
Proof.
  intros Hs Hx M ->. pose proof (Z.div_mod (x - sx) step ltac:(lia)) as D1. pose proof (Z.div_mod (ex - sx) step ltac:(lia)) as D2.
  pose proof (Z.mod_pos_bound (ex - sx) step Hs) as R. rewrite M in D1. set (u := (x - sx) / step) in *. set (v := (ex - sx) / step) in *. set (r := (ex - sx) mod step) in *.
  assert (u <= v).
  { destruct (Z.le_gt_cases u v); [assumption|]. exfalso. assert (step * (v + 1) <= step * u) by (apply Z.mul_le_mono_nonneg_l; lia). lia. }
  destruct (Z.eq_dec u v) as [->|N]; [left; lia|right].
  assert (step * (u + 1) <= step * v) by (apply Z.mul_le_mono_nonneg_l; lia). lia.
Qed.
Lemma load_bytes src p : (forall q, byte (src q)) -> bytes (load src p).
Proof. intros H k. apply H. Qed.
Lemma row_sse src p q d sx ex off junk dst : (forall q, byte (src q)) -> off_i8 off ->
  forall j, eo_row_sse src p q d sx ex off junk dst j = fill q sx ex (at_ src p d off) dst j.
Proof.
  intros B O j. unfold eo_row_sse. destruct (Z.le_gt_cases ex sx) as [L|L].
  - rewrite vfor_empty by lia. rewrite fill_none by lia. reflexivity.
  - cbv zeta. change 15 with (2 ^ 4 - 1). rewrite low_bits by lia. change (2 ^ 4) with 16.
    apply vfor_fill; [lia|lia|]. intros x m Hx M.
    assert (V : forall k, 0 <= k < 16 -> eo_sse off (load src (p + x - d)) (load src (p + x)) (load src (p + x + d)) k = at_ src p d off (x + k)).
    { intros k K. rewrite eo_sse_value by (auto using load_bytes; lia). unfold at_, load.
      replace (p + (x + k)) with (p + x + k) by lia. replace (p + x + k - d) with (p + x - d + k) by lia. replace (p + x + k + d) with (p + x + d + k) by lia. reflexivity. }
    destruct (last_piece sx ex x 16 ((ex - sx) mod 16) ltac:(lia) Hx M eq_refl) as [[E R]|[N R]].
    + rewrite <- E, Z.eqb_refl. cbn [negb]. eexists _, _. split; [reflexivity|]. split; [|right; lia].
      intros i. rewrite (mask_fill junk (ex - x - 1) m q x _ (at_ src p d off)); [|lia|intros; apply V; lia]. replace (x + (ex - x - 1) + 1) with (Z.min ex (x + 16)) by lia. reflexivity.
    + apply Z.eqb_neq in N. rewrite N. cbn [negb]. eexists _, _. split; [reflexivity|]. split; [|left; reflexivity].
      intros i. unfold store16. rewrite (store_fill 16 m q x _ (at_ src p d off) V). rewrite Z.min_r by lia. reflexivity.
Qed.
Lemma tail_avx2 dst q x ex ex32 t0 junk F : ex32 = x -> 0 < ex - x < 32 -> (forall k, 0 <= k < 32 -> t0 k = F (x + k)) ->
  forall j, store_tail_avx2 dst q x ex ex32 t0 junk j = fill q x ex F dst j.
Proof.
  intros E R V j. unfold store_tail_avx2, castsi256_si128. destruct (Z.leb_spec 16 (ex - x)).
  - destruct (Z.ltb_spec 16 (ex - x)).
    + replace (q + x + 16) with (q + (x + 16)) by lia.
      rewrite (mask_fill junk (ex - ex32 - 17) _ q (x + 16) _ F); [|lia|].
      2:{ intros k K. unfold extracti128_1. rewrite V by lia. f_equal. lia. }
      rewrite (fill_ext q _ _ F _ (fill q x (x + 16) F dst)).
      2:{ intros i. unfold store16. apply store_fill. intros k K. apply V. lia. }
      replace (x + 16 + (ex - ex32 - 17) + 1) with ex by lia. apply fill_fill. lia.
    + unfold store16. rewrite (store_fill 16 dst q x _ F); [|intros; apply V; lia]. f_equal. lia.
  - rewrite (mask_fill junk (ex - ex32 - 1) _ q x _ F); [|lia|intros; apply V; lia]. f_equal. lia.
Qed.
Lemma row_avx2 src p q d sx ex off junk dst : (forall q, byte (src q)) -> off_i8 off ->
  forall j, eo_row_avx2 src p q d sx ex off junk dst j = fill q sx ex (at_ src p d off) dst j.
Proof.
  intros B O j. unfold eo_row_avx2. destruct (Z.le_gt_cases ex sx) as [L|L].
  - rewrite vfor_empty by lia. rewrite fill_none by lia. reflexivity.
  - cbv zeta. change 31 with (2 ^ 5 - 1). rewrite low_bits by lia. change (2 ^ 5) with 32.
    apply vfor_fill; [lia|lia|]. intros x m Hx M.
    assert (V : forall k, 0 <= k < 32 -> eo_avx2 off (load src (p + x - d)) (load src (p + x)) (load src (p + x + d)) k = at_ src p d off (x + k)).
    { intros k K. rewrite eo_avx2_value by (auto using load_bytes; lia). unfold at_, load.
      replace (p + (x + k)) with (p + x + k) by lia. replace (p + x + k - d) with (p + x - d + k) by lia. replace (p + x + k + d) with (p + x + d + k) by lia. reflexivity. }
    destruct (last_piece sx ex x 32 ((ex - sx) mod 32) ltac:(lia) Hx M eq_refl) as [[E R]|[N R]].
    + rewrite <- E, Z.eqb_refl. cbn [negb]. eexists _, _. split; [reflexivity|]. split; [|right; lia].
      intros i. rewrite (tail_avx2 m q x ex x _ junk (at_ src p d off)); [|reflexivity|lia|exact V]. rewrite Z.min_l by lia. reflexivity.
    + apply Z.eqb_neq in N. rewrite N. cbn [negb]. eexists _, _. split; [reflexivity|]. split; [|left; reflexivity].
      intros i. unfold store32. rewrite (store_fill 32 m q x _ (at_ src p d off) V). rewrite Z.min_r by lia. reflexivity.
Qed.
