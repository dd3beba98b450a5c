(** The second pass of the interpolation kernels, and the kernels against the C kernels. *)
From Coq Require Import ZArith List Bool Lia.
From Verif Require Import CBase UtilModel MemModel MemProofs SaoModel SaoProofs McModel McSpec McProofs VxModelBase VxModel VxProofs VxProofsB VxProofsF VdModel ViModel ViProofs ViProofsB.
Import ListNotations.
Open Scope Z_scope.

Lemma word_bound v c : -32768 <= v <= 32767 -> -128 <= c <= 128 -> -4194304 <= v * c <= 4194304.
Proof. intros. nia. Qed.
(** The two coefficients of every double word. *)
Definition pair_is (C : reg) (e o : Z) : Prop :=
  (-128 <= e <= 128 /\ -128 <= o <= 128) /\ forall i, 0 <= i < 4 -> i16_of C (2 * i) = e /\ i16_of C (2 * i + 1) = o.
Lemma pair_same v : -128 <= v <= 127 -> pair_is (set1_epi16 v) v v.
Proof. intros H. split; [lia|]. intros i Hi. rewrite !i16_set1 by lia. split; reflexivity. Qed.
Lemma pair_two c p : -128 <= c p <= 127 -> -128 <= c (p + 1) <= 127 -> pair_is (cvtepi8_epi16 (set1_epi16 (load_i16 (cbytes c) p))) (c p) (c (p + 1)).
Proof.
  intros A B. split; [lia|]. intros i Hi. rewrite !i16_cvt8. apply i8_pair; assumption.
Qed.
Definition picks (half_of : reg -> reg -> reg) (off : Z) : Prop :=
  forall a b i, 0 <= i < 4 -> i16_of (half_of a b) (2 * i) = i16_of a (off + i) /\ i16_of (half_of a b) (2 * i + 1) = i16_of b (off + i).
Lemma picks_lo : picks unpacklo_epi16 0.
Proof. intros a b i Hi. rewrite Z.add_0_l. apply i16_unlo16, Hi. Qed.
Lemma picks_hi : picks unpackhi_epi16 4.
Proof. intros a b i Hi. apply i16_unhi16, Hi. Qed.
Lemma madd_pair hof off C e o a b i : picks hof off -> pair_is C e o -> 0 <= i < 4 ->
  i32_of (madd_epi16 (hof a b) C) i = i16_of a (off + i) * e + i16_of b (off + i) * o /\
  -8388608 <= i16_of a (off + i) * e + i16_of b (off + i) * o <= 8388608.
Proof.
  intros Hp [[Be Bo] HC] Hi. rewrite i32_madd. destruct (Hp a b i Hi) as [-> ->]. destruct (HC i Hi) as [-> ->].
  pose proof (word_bound _ _ (i16_range a (off + i)) Be). pose proof (word_bound _ _ (i16_range b (off + i)) Bo).
  rewrite to_i32_id; lia.
Qed.
Lemma pairs4_lane hof off C0 C1 e0 o0 e1 o1 a0 b0 a1 b1 i : picks hof off -> pair_is C0 e0 o0 -> pair_is C1 e1 o1 -> 0 <= i < 4 ->
  i32_of (pairs4 hof C0 C1 a0 b0 a1 b1) i = i16_of a0 (off + i) * e0 + i16_of b0 (off + i) * o0 + (i16_of a1 (off + i) * e1 + i16_of b1 (off + i) * o1) /\
  -100000000 <= i32_of (pairs4 hof C0 C1 a0 b0 a1 b1) i <= 100000000.
Proof.
  intros Hp H0 H1 Hi. unfold pairs4. rewrite i32_add.
  destruct (madd_pair hof off C0 e0 o0 a0 b0 i Hp H0 Hi) as [-> R0]. destruct (madd_pair hof off C1 e1 o1 a1 b1 i Hp H1 Hi) as [-> R1].
  rewrite to_i32_id by lia. split; [reflexivity|lia].
Qed.
Lemma pairs8_lane hof off C0 C1 C2 C3 e0 o0 e1 o1 e2 o2 e3 o3 a0 b0 a1 b1 a2 b2 a3 b3 i : picks hof off ->
  pair_is C0 e0 o0 -> pair_is C1 e1 o1 -> pair_is C2 e2 o2 -> pair_is C3 e3 o3 -> 0 <= i < 4 ->
  i32_of (pairs8 hof C0 C1 C2 C3 a0 b0 a1 b1 a2 b2 a3 b3) i =
    i16_of a0 (off + i) * e0 + i16_of b0 (off + i) * o0 + (i16_of a1 (off + i) * e1 + i16_of b1 (off + i) * o1) +
    (i16_of a2 (off + i) * e2 + i16_of b2 (off + i) * o2 + (i16_of a3 (off + i) * e3 + i16_of b3 (off + i) * o3)) /\
  -100000000 <= i32_of (pairs8 hof C0 C1 C2 C3 a0 b0 a1 b1 a2 b2 a3 b3) i <= 100000000.
Proof.
  intros Hp H0 H1 H2 H3 Hi. unfold pairs8. rewrite !i32_add.
  destruct (madd_pair hof off C0 e0 o0 a0 b0 i Hp H0 Hi) as [-> R0]. destruct (madd_pair hof off C1 e1 o1 a1 b1 i Hp H1 Hi) as [-> R1].
  destruct (madd_pair hof off C2 e2 o2 a2 b2 i Hp H2 Hi) as [-> R2]. destruct (madd_pair hof off C3 e3 o3 a3 b3 i Hp H3 Hi) as [-> R3].
  rewrite (to_i32_id (_ * e0 + _ + _)) by lia. rewrite (to_i32_id (_ * e2 + _ + _)) by lia. rewrite to_i32_id by lia. split; [reflexivity|lia].
Qed.
Lemma sat2 v : sat_u8 (sat_i16 v) = clip1 8 v.
Proof. rewrite <- sat_clip. unfold sat_u8, sat_i16. lia. Qed.
Lemma round12_lane lo hi i (W : Z -> Z) : 0 <= i < 8 ->
  (forall i, 0 <= i < 4 -> i32_of lo i = W (0 + i) /\ -100000000 <= i32_of lo i <= 100000000) ->
  (forall i, 0 <= i < 4 -> i32_of hi i = W (4 + i) /\ -100000000 <= i32_of hi i <= 100000000) ->
  round12 lo hi i = clip1 8 (Z.shiftr (W i + 2048) 12).
Proof.
  intros Hi HL HH. unfold round12. cbv zeta. rewrite packus_lo by exact Hi. revert i Hi.
  apply halves; intros i Hi.
  - rewrite i16_packs32_lo by exact Hi. destruct (HL i Hi) as [E R].
    rewrite i32_srai, i32_add, i32_set1 by lia. rewrite to_i32_id by lia. rewrite E, Z.add_0_l. apply sat2.
  - rewrite i16_packs32_hi by exact Hi. destruct (HH i Hi) as [E R].
    rewrite i32_srai, i32_add, i32_set1 by lia. rewrite to_i32_id by lia. rewrite E. apply sat2.
Qed.
Lemma vert4 C0 C1 e0 o0 e1 o1 a0 b0 a1 b1 i : pair_is C0 e0 o0 -> pair_is C1 e1 o1 -> 0 <= i < 8 ->
  round12 (pairs4 unpacklo_epi16 C0 C1 a0 b0 a1 b1) (pairs4 unpackhi_epi16 C0 C1 a0 b0 a1 b1) i =
  clip1 8 (Z.shiftr (i16_of a0 i * e0 + i16_of b0 i * o0 + (i16_of a1 i * e1 + i16_of b1 i * o1) + 2048) 12).
Proof.
  intros H0 H1 Hi. apply (round12_lane _ _ i (fun i => i16_of a0 i * e0 + i16_of b0 i * o0 + (i16_of a1 i * e1 + i16_of b1 i * o1)) Hi); intros j Hj.
  - apply (pairs4_lane unpacklo_epi16 0); [exact picks_lo|assumption..].
  - apply (pairs4_lane unpackhi_epi16 4); [exact picks_hi|assumption..].
Qed.
Lemma vert8 C0 C1 C2 C3 e0 o0 e1 o1 e2 o2 e3 o3 a0 b0 a1 b1 a2 b2 a3 b3 i : pair_is C0 e0 o0 -> pair_is C1 e1 o1 -> pair_is C2 e2 o2 -> pair_is C3 e3 o3 -> 0 <= i < 8 ->
  round12 (pairs8 unpacklo_epi16 C0 C1 C2 C3 a0 b0 a1 b1 a2 b2 a3 b3) (pairs8 unpackhi_epi16 C0 C1 C2 C3 a0 b0 a1 b1 a2 b2 a3 b3) i =
  clip1 8 (Z.shiftr (i16_of a0 i * e0 + i16_of b0 i * o0 + (i16_of a1 i * e1 + i16_of b1 i * o1) + (i16_of a2 i * e2 + i16_of b2 i * o2 + (i16_of a3 i * e3 + i16_of b3 i * o3)) + 2048) 12).
Proof.
  intros H0 H1 H2 H3 Hi.
  apply (round12_lane _ _ i (fun i => i16_of a0 i * e0 + i16_of b0 i * o0 + (i16_of a1 i * e1 + i16_of b1 i * o1) + (i16_of a2 i * e2 + i16_of b2 i * o2 + (i16_of a3 i * e3 + i16_of b3 i * o3))) Hi); intros j Hj.
  - apply (pairs8_lane unpacklo_epi16 0); [exact picks_lo|assumption..].
  - apply (pairs8_lane unpackhi_epi16 4); [exact picks_hi|assumption..].
Qed.

(** The first pass fills the array. *)
Lemma storew_fill n m q x (r : reg) F : (forall k, 0 <= k < n -> i16_of r k = F (x + k)) ->
  forall j, storew n m (q + x) r j = fill q x (x + n) F m j.
Proof.
  intros E j. unfold storew, fill. replace (q + (x + n)) with (q + x + n) by lia.
  destruct ((q + x <=? j) && (j <? q + x + n)) eqn:B; [|reflexivity].
  apply andb_true_iff in B. destruct B as [B1 B2]. apply Z.leb_le in B1. apply Z.ltb_lt in B2. rewrite E by lia. f_equal. lia.
Qed.
(** Columns up to the multiple of eight at or above [w]. *)
Definition up8 (w : Z) : Z := 8 * ((w + 7) / 8).
Lemma up8_range w : w <= up8 w < w + 8.
Proof. unfold up8. Z.div_mod_to_equations. lia. Qed.
Lemma up8_is w x : x mod 8 = 0 -> w <= x < w + 8 -> x = up8 w.
Proof. unfold up8. intros. Z.div_mod_to_equations. lia. Qed.
Lemma words_row q F w (val : Z -> reg) t : 0 <= w -> (forall col i, 0 <= col -> 0 <= i < 8 -> i16_of (val col) i = F (col + i)) ->
  forall j, vfor 0 w 8 (fun col t => (storew 8 t (q + col) (val col), true)) t j = fill q 0 (up8 w) F t j.
Proof.
  intros Hw Hv. destruct (vloop_inv (fun X t1 => forall j, t1 j = fill q 0 X F t j) 8 w (fun col t => (storew 8 t (q + col) (val col), true))
    (Z.to_nat (w - 0)) ltac:(lia) 0 t) as (X & M & A1 & A2 & A3 & A4); [lia|intros; rewrite fill_none by lia; reflexivity| |].
  - intros x t1 Hx M Q. eexists. split; [reflexivity|]. intros i.
    rewrite (storew_fill 8 t1 q x _ F) by (intros; apply Hv; lia). rewrite (fill_ext q x (x + 8) _ t1 _ Q). apply fill_fill. lia.
  - intros j. unfold vfor. rewrite A4. f_equal. rewrite Z.sub_0_r in M. apply up8_is; [exact M|]. lia.
Qed.
Lemma rows_array st n W (f : Z -> mem -> mem) (val : Z -> Z -> Z) t0 : 0 <= W <= st -> 0 <= n ->
  (forall y t, 0 <= y < n -> exists W', W <= W' <= st /\ forall j, f y t j = fill (y * st) 0 W' (fun x => val x y) t j) ->
  forall x y, 0 <= x < W -> 0 <= y < n -> floop 0 n f t0 (y * st + x) = val x y.
Proof.
  intros HW Hn Hf.
  apply (floop_inv (fun Y t => forall x y, 0 <= x < W -> 0 <= y < Y -> t (y * st + x) = val x y)); [exact Hn|intros; lia|].
  intros Y t HY H x y Hx Hy. destruct (Hf Y t HY) as (W' & RW & E). rewrite E. unfold fill.
  destruct (Z.eq_dec y Y) as [->|N].
  - destruct (Z.leb_spec (Y * st + 0) (Y * st + x)), (Z.ltb_spec (Y * st + x) (Y * st + W')); cbn [andb]; try lia. f_equal. lia.
  - assert ((y + 1) * st <= Y * st) by (apply Z.mul_le_mono_nonneg_r; lia).
    destruct (Z.leb_spec (Y * st + 0) (y * st + x)); [lia|]. cbn [andb]. apply H; lia.
Qed.
