(** Laws of the register operations and of the strip loops. *)
From Coq Require Import ZArith List Bool Lia.
From Verif Require Import CBase MemModel HdrModel SaoModel AlfModel VxModelBase VxModel.
Import ListNotations.
Open Scope Z_scope.
Local Opaque Z.mul Z.add Z.sub Z.div Z.modulo.

Definition byte (v : Z) : Prop := 0 <= v <= 255.
Definition bytes (r : reg) : Prop := forall k, byte (r k).

Lemma to_u8_byte v : byte (to_u8 v).
Proof. unfold byte, to_u8. pose proof (Z.mod_pos_bound v 256). lia. Qed.
Lemma to_u8_id v : byte v -> to_u8 v = v.
Proof. intros H. unfold byte in H. apply Z.mod_small. lia. Qed.
Lemma to_i16_id v : -32768 <= v <= 32767 -> to_i16 v = v.
Proof. intros H. unfold to_i16. rewrite Z.mod_small; lia. Qed.
Lemma to_i16_range v : -32768 <= to_i16 v <= 32767.
Proof. unfold to_i16. pose proof (Z.mod_pos_bound (v + 32768) 65536). lia. Qed.
Lemma to_i8_id v : -128 <= v <= 127 -> to_i8 v = v.
Proof. intros H. unfold to_i8. rewrite Z.mod_small; lia. Qed.
Lemma to_i8_range v : -128 <= to_i8 v <= 127.
Proof. unfold to_i8. pose proof (Z.mod_pos_bound (v + 128) 256). lia. Qed.
Lemma to_i32_id v : -2147483648 <= v <= 2147483647 -> to_i32 v = v.
Proof. intros H. unfold to_i32. rewrite Z.mod_small; lia. Qed.
Lemma to_i8_u8 v : to_i8 (to_u8 v) = to_i8 v.
Proof. unfold to_i8, to_u8. f_equal. rewrite Zplus_mod_idemp_l. reflexivity. Qed.
Lemma to_i16_u16 v : to_i16 (v mod 65536) = to_i16 v.
Proof. unfold to_i16. f_equal. rewrite Zplus_mod_idemp_l. reflexivity. Qed.
Lemma to_i32_u32 v : to_i32 (v mod 4294967296) = to_i32 v.
Proof. unfold to_i32. f_equal. rewrite Zplus_mod_idemp_l. reflexivity. Qed.
Lemma sat_i16_range v : -32768 <= sat_i16 v <= 32767.
Proof. unfold sat_i16. lia. Qed.
Lemma sat_i16_id v : -32768 <= v <= 32767 -> sat_i16 v = v.
Proof. unfold sat_i16. lia. Qed.
Lemma sat_i8_range v : -128 <= sat_i8 v <= 127.
Proof. unfold sat_i8. lia. Qed.
Lemma sat_i8_id v : -128 <= v <= 127 -> sat_i8 v = v.
Proof. unfold sat_i8. lia. Qed.
Lemma sat_u8_byte v : byte (sat_u8 v).
Proof. unfold sat_u8, byte. lia. Qed.

(** Elements of a register made from elements. *)
Lemma mk16_lo f i : mk16 f (2 * i) = to_u8 (f i).
Proof.
  unfold mk16. rewrite Z.even_mul. cbn [Z.even orb]. rewrite Z.mul_comm, Z.div_mul by lia. reflexivity.
Qed.
Lemma mk16_hi f i : mk16 f (2 * i + 1) = to_u8 (f i / 256).
Proof.
  unfold mk16. rewrite Z.even_add, Z.even_mul. cbn [Z.even orb Bool.eqb].
  replace ((2 * i + 1) / 2) with i; [reflexivity|]. apply Z.div_unique with 1; lia.
Qed.
Lemma u16_mk16 f i : u16_of (mk16 f) i = f i mod 65536.
Proof. unfold u16_of. rewrite mk16_lo, mk16_hi. unfold to_u8. change 65536 with (256 * 256). rewrite Z.rem_mul_r by lia. reflexivity. Qed.
Lemma i16_mk16 f i : i16_of (mk16 f) i = to_i16 (f i).
Proof. unfold i16_of. rewrite u16_mk16. apply to_i16_u16. Qed.
Lemma i8_mk8 f i : i8_of (mk8 f) i = to_i8 (f i).
Proof. unfold i8_of, mk8. apply to_i8_u8. Qed.
Lemma mk32_at f i j : 0 <= j < 4 -> mk32 f (4 * i + j) = to_u8 (f i / 256 ^ j).
Proof.
  intros H. unfold mk32. replace ((4 * i + j) / 4) with i by (apply Z.div_unique with j; lia).
  replace ((4 * i + j) mod 4) with j by (apply Z.mod_unique with i; lia). reflexivity.
Qed.
Lemma i32_mk32 f i : i32_of (mk32 f) i = to_i32 (f i).
Proof.
  unfold i32_of. replace (4 * i) with (4 * i + 0) at 1 by lia. rewrite !mk32_at by lia.
  change (256 ^ 0) with 1. change (256 ^ 1) with 256. change (256 ^ 2) with (256 * 256). change (256 ^ 3) with (256 * (256 * 256)).
  rewrite Z.div_1_r, <- !Z.div_div by lia. rewrite <- (to_i32_u32 (f i)). f_equal.
  unfold to_u8. change 4294967296 with (256 * (256 * (256 * 256))). rewrite !Z.rem_mul_r by lia. lia.
Qed.
Lemma i16_range r i : -32768 <= i16_of r i <= 32767.
Proof. apply to_i16_range. Qed.
Lemma i8_range r i : -128 <= i8_of r i <= 127.
Proof. apply to_i8_range. Qed.
Lemma mk8_bytes f : bytes (mk8 f).
Proof. intros k. apply to_u8_byte. Qed.
Lemma mk16_bytes f : bytes (mk16 f).
Proof. intros k. unfold mk16. destruct (Z.even k); apply to_u8_byte. Qed.

(** The word operations, element by element. *)
Lemma i16_adds a b i : i16_of (adds_epi16 a b) i = sat_i16 (i16_of a i + i16_of b i).
Proof. unfold adds_epi16. rewrite i16_mk16. apply to_i16_id, sat_i16_range. Qed.
Lemma i16_subs a b i : i16_of (subs_epi16 a b) i = sat_i16 (i16_of a i - i16_of b i).
Proof. unfold subs_epi16. rewrite i16_mk16. apply to_i16_id, sat_i16_range. Qed.
Lemma i16_add a b i : i16_of (add_epi16 a b) i = to_i16 (i16_of a i + i16_of b i).
Proof. unfold add_epi16. rewrite i16_mk16. reflexivity. Qed.
Lemma i16_sub a b i : i16_of (sub_epi16 a b) i = to_i16 (i16_of a i - i16_of b i).
Proof. unfold sub_epi16. rewrite i16_mk16. reflexivity. Qed.
Lemma i16_min a b i : i16_of (min_epi16 a b) i = Z.min (i16_of a i) (i16_of b i).
Proof. unfold min_epi16. rewrite i16_mk16. apply to_i16_id. pose proof (i16_range a i). pose proof (i16_range b i). lia. Qed.
Lemma i16_max a b i : i16_of (max_epi16 a b) i = Z.max (i16_of a i) (i16_of b i).
Proof. unfold max_epi16. rewrite i16_mk16. apply to_i16_id. pose proof (i16_range a i). pose proof (i16_range b i). lia. Qed.
Lemma i16_srai a n i : 0 <= n -> i16_of (srai_epi16 a n) i = Z.shiftr (i16_of a i) n.
Proof.
  intros H. unfold srai_epi16. rewrite i16_mk16. apply to_i16_id. pose proof (i16_range a i).
  rewrite Z.shiftr_div_pow2 by lia. assert (0 < 2 ^ n) by (apply Z.pow_pos_nonneg; lia).
  split; [apply Z.div_le_lower_bound; nia|]. apply Z.lt_succ_r, Z.div_lt_upper_bound; nia.
Qed.
Lemma i16_maddubs a b i :
  i16_of (maddubs_epi16 a b) i = sat_i16 (a (2 * i) * i8_of b (2 * i) + a (2 * i + 1) * i8_of b (2 * i + 1)).
Proof. unfold maddubs_epi16. rewrite i16_mk16. apply to_i16_id, sat_i16_range. Qed.
Lemma i16_set1 v i : -32768 <= v <= 32767 -> i16_of (set1_epi16 v) i = v.
Proof. intros H. unfold set1_epi16. rewrite i16_mk16. apply to_i16_id, H. Qed.
Lemma i8_set1 v i : -128 <= v <= 127 -> i8_of (set1_epi8 v) i = v.
Proof. intros H. unfold set1_epi8. rewrite i8_mk8. apply to_i8_id, H. Qed.
Lemma i16_cvt8 a i : i16_of (cvtepi8_epi16 a) i = i8_of a i.
Proof. unfold cvtepi8_epi16. rewrite i16_mk16. apply to_i16_id. pose proof (i8_range a i). lia. Qed.
Lemma i16_cvtu8 a i : byte (a i) -> i16_of (cvtepu8_epi16 a) i = a i.
Proof. intros H. unfold cvtepu8_epi16. rewrite i16_mk16. apply to_i16_id. unfold byte in H. lia. Qed.
Lemma i8_adds a b i : i8_of (adds_epi8 a b) i = sat_i8 (i8_of a i + i8_of b i).
Proof. unfold adds_epi8. rewrite i8_mk8. apply to_i8_id, sat_i8_range. Qed.
Lemma i8_subs a b i : i8_of (subs_epi8 a b) i = sat_i8 (i8_of a i - i8_of b i).
Proof. unfold subs_epi8. rewrite i8_mk8. apply to_i8_id, sat_i8_range. Qed.
Lemma i8_cmpeq a b i : i8_of (cmpeq_epi8 a b) i = if a i =? b i then -1 else 0.
Proof. unfold i8_of, cmpeq_epi8. destruct (a i =? b i); reflexivity. Qed.
(** A byte and its signed value determine each other. *)
Lemma i8_val v : byte v -> to_i8 v = if v <? 128 then v else v - 256.
Proof.
  unfold byte. intros H. unfold to_i8. destruct (Z.ltb_spec v 128); [rewrite Z.mod_small; lia|].
  replace (v + 128) with (v - 128 + 1 * 256) by lia. rewrite Z_mod_plus_full, Z.mod_small; lia.
Qed.
Lemma i8_eqb a b i : byte (a i) -> byte (b i) -> (a i =? b i) = (i8_of a i =? i8_of b i).
Proof.
  intros A B. unfold i8_of. rewrite !i8_val by assumption. unfold byte in *.
  destruct (Z.ltb_spec (a i) 128), (Z.ltb_spec (b i) 128), (Z.eqb_spec (a i) (b i));
    try reflexivity; symmetry; first [apply Z.eqb_eq; lia | apply Z.eqb_neq; lia].
Qed.
(** Unpacking with the zero register in the first half. *)
Lemma u16_lo a i : 0 <= i < 8 -> u16_of (unpacklo_epi8 a setzero) i = a i.
Proof.
  intros H. unfold u16_of, unpacklo_epi8, half, setzero. rewrite Z.even_mul, Z.even_add, Z.even_mul. cbn [Z.even orb Bool.eqb].
  rewrite (Z.div_small (2 * i) 16), (Z.mod_small (2 * i) 16) by lia.
  rewrite (Z.mul_comm 2 i), Z.div_mul by lia. replace (16 * 0 + i) with i by lia. lia.
Qed.
Lemma u16_hi a i : 0 <= i < 8 -> u16_of (unpackhi_epi8 a setzero) i = a (8 + i).
Proof.
  intros H. unfold u16_of, unpackhi_epi8, half, setzero. rewrite Z.even_mul, Z.even_add, Z.even_mul. cbn [Z.even orb Bool.eqb].
  rewrite (Z.div_small (2 * i) 16), (Z.mod_small (2 * i) 16) by lia.
  rewrite (Z.mul_comm 2 i), Z.div_mul by lia. replace (16 * 0 + 8 + i) with (8 + i) by lia. lia.
Qed.
Lemma i16_lo a i : 0 <= i < 8 -> byte (a i) -> i16_of (unpacklo_epi8 a setzero) i = a i.
Proof. intros H B. unfold i16_of. rewrite u16_lo by lia. unfold byte in B. apply to_i16_id. lia. Qed.
Lemma i16_hi a i : 0 <= i < 8 -> byte (a (8 + i)) -> i16_of (unpackhi_epi8 a setzero) i = a (8 + i).
Proof. intros H B. unfold i16_of. rewrite u16_hi by lia. unfold byte in B. apply to_i16_id. lia. Qed.
(** Interleaving two registers. *)
Lemma unlo_even a b i : 0 <= i < 8 -> unpacklo_epi8 a b (2 * i) = a i.
Proof.
  intros H. unfold unpacklo_epi8, half. rewrite Z.even_mul. cbn [Z.even orb].
  rewrite (Z.div_small (2 * i) 16), (Z.mod_small (2 * i) 16) by lia. rewrite (Z.mul_comm 2 i), Z.div_mul by lia. f_equal; lia.
Qed.
Lemma unlo_odd a b i : 0 <= i < 8 -> unpacklo_epi8 a b (2 * i + 1) = b i.
Proof.
  intros H. unfold unpacklo_epi8, half. rewrite Z.even_add, Z.even_mul. cbn [Z.even orb Bool.eqb].
  rewrite (Z.div_small (2 * i + 1) 16), (Z.mod_small (2 * i + 1) 16) by lia.
  replace ((2 * i + 1) / 2) with i by (apply Z.div_unique with 1; lia). f_equal; lia.
Qed.
Lemma unhi_even a b i : 0 <= i < 8 -> unpackhi_epi8 a b (2 * i) = a (8 + i).
Proof.
  intros H. unfold unpackhi_epi8, half. rewrite Z.even_mul. cbn [Z.even orb].
  rewrite (Z.div_small (2 * i) 16), (Z.mod_small (2 * i) 16) by lia. rewrite (Z.mul_comm 2 i), Z.div_mul by lia. f_equal; lia.
Qed.
Lemma unhi_odd a b i : 0 <= i < 8 -> unpackhi_epi8 a b (2 * i + 1) = b (8 + i).
Proof.
  intros H. unfold unpackhi_epi8, half. rewrite Z.even_add, Z.even_mul. cbn [Z.even orb Bool.eqb].
  rewrite (Z.div_small (2 * i + 1) 16), (Z.mod_small (2 * i + 1) 16) by lia.
  replace ((2 * i + 1) / 2) with i by (apply Z.div_unique with 1; lia). f_equal; lia.
Qed.
Lemma packus_lo a b k : 0 <= k < 8 -> packus_epi16 a b k = sat_u8 (i16_of a k).
Proof. intros H. unfold packus_epi16. rewrite Z.div_small, Z.mod_small by lia. destruct (Z.ltb_spec k 8); [|lia]. f_equal. Qed.
Lemma packus_hi a b k : 0 <= k < 8 -> packus_epi16 a b (8 + k) = sat_u8 (i16_of b k).
Proof.
  intros H. unfold packus_epi16. rewrite Z.div_small, Z.mod_small by lia. destruct (Z.ltb_spec (8 + k) 8); [lia|].
  f_equal. f_equal. lia.
Qed.

(** The rows of the mask table: the first [i + 1] bytes. *)
Lemma mask_bit junk i k : 0 <= i < 15 -> 0 <= k < 16 -> Z.testbit (mask_row junk i k) 7 = (k <=? i).
Proof.
  intros Hi Hk.
  assert (i = 0 \/ i = 1 \/ i = 2 \/ i = 3 \/ i = 4 \/ i = 5 \/ i = 6 \/ i = 7 \/ i = 8 \/ i = 9 \/ i = 10 \/ i = 11 \/ i = 12 \/ i = 13 \/ i = 14) as E by lia.
  assert (k = 0 \/ k = 1 \/ k = 2 \/ k = 3 \/ k = 4 \/ k = 5 \/ k = 6 \/ k = 7 \/ k = 8 \/ k = 9 \/ k = 10 \/ k = 11 \/ k = 12 \/ k = 13 \/ k = 14 \/ k = 15) as F by lia.
  clear Hi Hk.
  repeat (destruct E as [-> | E]; [repeat (destruct F as [-> | F]; [reflexivity|]); subst k; reflexivity|]).
  subst i. repeat (destruct F as [-> | F]; [reflexivity|]). subst k. reflexivity.
Qed.

(** Filling a strip of memory: from column [a] to column [b - 1] of the row at [q]. *)
Definition fill (q a b : Z) (F : Z -> Z) (m : mem) : mem := fun j => if (q + a <=? j) && (j <? q + b) then F (j - q) else m j.
Lemma store_fill n m q x (r : reg) F : (forall k, 0 <= k < n -> r k = F (x + k)) ->
  forall j, store_n n m (q + x) r j = fill q x (x + n) F m j.
Proof.
  intros E j. unfold store_n, fill. replace (q + (x + n)) with (q + x + n) by lia.
  destruct ((q + x <=? j) && (j <? q + x + n)) eqn:B; [|reflexivity].
  apply andb_prop in B. destruct B as [B1 B2]. apply Z.leb_le in B1. apply Z.ltb_lt in B2.
  rewrite E by lia. f_equal. lia.
Qed.
Lemma mask_fill junk i m q x (r : reg) F : 0 <= i < 15 -> (forall k, 0 <= k <= i -> r k = F (x + k)) ->
  forall j, maskmoveu m (q + x) r (mask_row junk i) j = fill q x (x + i + 1) F m j.
Proof.
  intros Hi E j. unfold maskmoveu, fill.
  destruct (Z.leb_spec (q + x) j); cbn [andb]; [|reflexivity].
  destruct (Z.ltb_spec j (q + x + 16)); cbn [andb].
  - rewrite mask_bit by lia. destruct (Z.leb_spec (j - (q + x)) i); destruct (Z.ltb_spec j (q + (x + i + 1))); try lia.
    rewrite E by lia. f_equal. lia.
  - destruct (Z.ltb_spec j (q + (x + i + 1))); [lia|reflexivity].
Qed.
Lemma fill_fill q a b c F m : a <= b <= c -> forall j, fill q b c F (fill q a b F m) j = fill q a c F m j.
Proof.
  intros H j. unfold fill.
  destruct (Z.leb_spec (q + b) j), (Z.ltb_spec j (q + c)), (Z.leb_spec (q + a) j), (Z.ltb_spec j (q + b)); cbn [andb]; try reflexivity; lia.
Qed.
Lemma fill_ext q a b F m m' : (forall j, m j = m' j) -> forall j, fill q a b F m j = fill q a b F m' j.
Proof. intros E j. unfold fill. rewrite E. reflexivity. Qed.

(** A loop each of whose iterations fills the next piece of the strip, up to the end. *)
Lemma vloop_fill q F step ex body fuel : 0 < step -> forall x m, (Z.to_nat (ex - x) <= fuel)%nat -> x <= ex ->
  (forall x' m', x <= x' < ex -> (x' - x) mod step = 0 ->
     exists m'' go, body x' m' = (m'', go) /\ (forall j, m'' j = fill q x' (Z.min ex (x' + step)) F m' j) /\ (go = true \/ ex <= x' + step)) ->
  forall j, vloop fuel x ex step body m j = fill q x ex F m j.
Proof.
  intros Hs. induction fuel as [|n IH]; intros x m Hf Hx Hb j; cbn [vloop].
  - assert (x = ex) as -> by lia. unfold fill. destruct (Z.leb_spec (q + ex) j), (Z.ltb_spec j (q + ex)); cbn [andb]; try reflexivity; lia.
  - destruct (Z.ltb_spec x ex) as [L|L].
    2:{ assert (x = ex) as -> by lia. unfold fill. destruct (Z.leb_spec (q + ex) j), (Z.ltb_spec j (q + ex)); cbn [andb]; try reflexivity; lia. }
    destruct (Hb x m) as (m'' & go & E & Fm & G); [lia|rewrite Z.sub_diag; apply Z.mod_0_l; lia|]. rewrite E.
    destruct (Z_le_gt_dec ex (x + step)) as [C|C].
    + rewrite Z.min_l in Fm by lia. destruct go; [|apply Fm]. destruct n as [|n]; cbn [vloop]; [apply Fm|].
      destruct (Z.ltb_spec (x + step) ex); [lia|]. apply Fm.
    + rewrite Z.min_r in Fm by lia. destruct G as [-> | G]; [|lia].
      assert (forall x' m', x + step <= x' < ex -> (x' - (x + step)) mod step = 0 ->
        exists m0 go, body x' m' = (m0, go) /\ (forall j, m0 j = fill q x' (Z.min ex (x' + step)) F m' j) /\ (go = true \/ ex <= x' + step)) as Hb'.
      { intros x' m' R M. apply Hb; [lia|]. rewrite <- (Z_mod_plus_full (x' - (x + step)) 1 step) in M. rewrite <- M. f_equal. lia. }
      rewrite (IH (x + step) m'' ltac:(lia) ltac:(lia) Hb' j).
      rewrite (fill_ext q (x + step) ex F m'' _ Fm j). apply fill_fill. lia.
Qed.
Lemma vfor_fill q F step a b body m : 0 < step -> a <= b ->
  (forall x' m', a <= x' < b -> (x' - a) mod step = 0 ->
     exists m'' go, body x' m' = (m'', go) /\ (forall j, m'' j = fill q x' (Z.min b (x' + step)) F m' j) /\ (go = true \/ b <= x' + step)) ->
  forall j, vfor a b step body m j = fill q a b F m j.
Proof. intros. unfold vfor. apply vloop_fill; auto. Qed.
Lemma vfor_empty a b step body m : b <= a -> vfor a b step body m = m.
Proof. intros H. unfold vfor. replace (Z.to_nat (b - a)) with 0%nat by lia. reflexivity. Qed.
