(** Butterflies and two-dimensional transforms. *)
From Coq Require Import ZArith List Bool Lia.
From Verif Require Import CBase HdrModel MemModel MemProofs SaoModel SaoProofs AlfSpec McSpec McProofs TrModel TrSpec.
Import ListNotations.
Open Scope Z_scope.

Lemma zsum_ext : forall n f g, (forall i, 0 <= i < Z.of_nat n -> f i = g i) -> zsum n f = zsum n g.
Proof.
  induction n as [|n IH]; intros f g H; [reflexivity|]. cbn [zsum]. rewrite (IH f g), (H (Z.of_nat n)); [reflexivity|lia|].
  intros i Hi. apply H. lia.
Qed.

(** The tables are the waves. *)
Definition range (n : nat) : list Z := map Z.of_nat (seq 0 n).
Lemma in_range : forall n k, 0 <= k < Z.of_nat n -> In k (range n).
Proof.
  intros n k H. unfold range. rewrite in_map_iff. exists (Z.to_nat k). split; [apply Z2Nat.id; lia|].
  apply in_seq. lia.
Qed.
Definition table_is (n : nat) (T : list (list Z)) : bool :=
  forallb (fun i => forallb (fun k => tab T i k =? basis (Z.of_nat n) i k) (range n)) (range n).
Lemma table_eq : forall n T, table_is n T = true -> forall i k, 0 <= i < Z.of_nat n -> 0 <= k < Z.of_nat n -> tab T i k = basis (Z.of_nat n) i k.
Proof.
  intros n T H i k Hi Hk. unfold table_is in H. rewrite forallb_forall in H. specialize (H i (in_range n i Hi)).
  cbv beta in H. rewrite forallb_forall in H. apply Z.eqb_eq. exact (H k (in_range n k Hk)).
Qed.
Lemma tab4 : table_is 4 g_T4 = true. Proof. vm_compute. reflexivity. Qed.
Lemma tab8 : table_is 8 g_T8 = true. Proof. vm_compute. reflexivity. Qed.
Lemma tab16 : table_is 16 g_T16 = true. Proof. vm_compute. reflexivity. Qed.
Lemma tab32 : table_is 32 g_T32 = true. Proof. vm_compute. reflexivity. Qed.

Lemma join2 : forall a b c d, join k2 [a; b] [c; d] = [a + c; b + d; b - d; a - c].
Proof. reflexivity. Qed.
Lemma join4 : forall a0 a1 a2 a3 b0 b1 b2 b3, join k4 [a0; a1; a2; a3] [b0; b1; b2; b3] =
  [a0 + b0; a1 + b1; a2 + b2; a3 + b3; a3 - b3; a2 - b2; a1 - b1; a0 - b0].
Proof. reflexivity. Qed.
Lemma join8 : forall a0 a1 a2 a3 a4 a5 a6 a7 b0 b1 b2 b3 b4 b5 b6 b7,
  join k8 [a0; a1; a2; a3; a4; a5; a6; a7] [b0; b1; b2; b3; b4; b5; b6; b7] =
  [a0 + b0; a1 + b1; a2 + b2; a3 + b3; a4 + b4; a5 + b5; a6 + b6; a7 + b7;
   a7 - b7; a6 - b6; a5 - b5; a4 - b4; a3 - b3; a2 - b2; a1 - b1; a0 - b0].
Proof. reflexivity. Qed.
Lemma join16 : forall a0 a1 a2 a3 a4 a5 a6 a7 a8 a9 a10 a11 a12 a13 a14 a15 b0 b1 b2 b3 b4 b5 b6 b7 b8 b9 b10 b11 b12 b13 b14 b15,
  join k16 [a0; a1; a2; a3; a4; a5; a6; a7; a8; a9; a10; a11; a12; a13; a14; a15]
    [b0; b1; b2; b3; b4; b5; b6; b7; b8; b9; b10; b11; b12; b13; b14; b15] =
  [a0 + b0; a1 + b1; a2 + b2; a3 + b3; a4 + b4; a5 + b5; a6 + b6; a7 + b7;
   a8 + b8; a9 + b9; a10 + b10; a11 + b11; a12 + b12; a13 + b13; a14 + b14; a15 + b15;
   a15 - b15; a14 - b14; a13 - b13; a12 - b12; a11 - b11; a10 - b10; a9 - b9; a8 - b8;
   a7 - b7; a6 - b6; a5 - b5; a4 - b4; a3 - b3; a2 - b2; a1 - b1; a0 - b0].
Proof. reflexivity. Qed.

(** All columns of the matrix product at once. *)
Definition prods (T : list (list Z)) (n : nat) (s : Z -> Z) : list Z :=
  map (fun k => zsum n (fun i => tab T i k * s i)) (range n).
Ltac lin := cbv [map range seq k2 k4 k8 k16 dot fold_right zsum Z.of_nat Pos.of_succ_nat Pos.succ].
Lemma bf4_prods : forall s, snd (bf4 s) = prods g_T4 4 s.
Proof.
  intros s. unfold bf4, prods. cbn [snd].
  replace (map (dot g_T4 [0; 2] s) k2) with [dot g_T4 [0; 2] s 0; dot g_T4 [0; 2] s 1] by reflexivity.
  replace (map (dot g_T4 [1; 3] s) k2) with [dot g_T4 [1; 3] s 0; dot g_T4 [1; 3] s 1] by reflexivity.
  rewrite join2. lin.
  cbv [tab g_T4 nth Z.to_nat Pos.to_nat Pos.iter_op Nat.add]. repeat (apply (f_equal2 cons); [ring|]). reflexivity.
Qed.
Lemma bf8_prods : forall s, snd (bf8 s) = prods g_T8 8 s.
Proof.
  intros s. unfold bf8, prods. cbn [snd].
  cbn [map k2 k4]. rewrite join2, join4. lin.
  cbv [tab g_T8 nth Z.to_nat Pos.to_nat Pos.iter_op Nat.add]. repeat (apply (f_equal2 cons); [ring|]). reflexivity.
Qed.
Lemma bf16_prods : forall s, snd (bf16 s) = prods g_T16 16 s.
Proof.
  intros s. unfold bf16, prods. cbn [snd].
  cbn [map k2 k4 k8]. rewrite join2, join4, join8. lin.
  cbv [tab g_T16 nth Z.to_nat Pos.to_nat Pos.iter_op Nat.add]. repeat (apply (f_equal2 cons); [ring|]). reflexivity.
Qed.
Lemma bf32_prods : forall s, snd (bf32 s) = prods g_T32 32 s.
Proof.
  intros s. unfold bf32, prods. cbn [snd].
  cbn [map k2 k4 k8 k16]. rewrite join2, join4, join8, join16. lin.
  cbv [tab g_T32 nth Z.to_nat Pos.to_nat Pos.iter_op Nat.add]. repeat (apply (f_equal2 cons); [ring|]). reflexivity.
Qed.

Lemma prods_at : forall T n s k, 0 <= k < Z.of_nat n -> at_l (prods T n s) k = zsum n (fun i => tab T i k * s i).
Proof.
  intros T n s k H. unfold at_l, prods, range. rewrite map_map.
  rewrite (nth_indep _ 0 (zsum n (fun i => tab T i (Z.of_nat 0) * s i))) by (rewrite map_length, seq_length; lia).
  rewrite (map_nth (fun j => zsum n (fun i => tab T i (Z.of_nat j) * s i))). rewrite seq_nth by lia.
  replace (Z.of_nat (0 + Z.to_nat k)) with k by lia. reflexivity.
Qed.
Definition points (n : nat) : Prop := n = 4%nat \/ n = 8%nat \/ n = 16%nat \/ n = 32%nat.
Lemma bf_matrix : forall n s k, points n -> 0 <= k < Z.of_nat n ->
  at_l (snd (bf n s)) k = zsum n (fun i => basis (Z.of_nat n) i k * s i).
Proof.
  intros n s k P Hk.
  assert (G: forall T, snd (bf n s) = prods T n s -> table_is n T = true ->
     at_l (snd (bf n s)) k = zsum n (fun i => basis (Z.of_nat n) i k * s i)).
  { intros T E TI. rewrite E, prods_at by exact Hk. apply zsum_ext. intros i Hi. now rewrite (table_eq n T TI i k Hi Hk). }
  destruct P as [-> | [-> | [-> | ->]]].
  - exact (G g_T4 (bf4_prods s) tab4).
  - exact (G g_T8 (bf8_prods s) tab8).
  - exact (G g_T16 (bf16_prods s) tab16).
  - exact (G g_T32 (bf32_prods s) tab32).
Qed.

(** Bounds of everything computed. *)
Definition small (B : Z) (l : list Z) : Prop := Forall (fun v => - B <= v <= B) l.
Lemma small_at : forall B l k, 0 <= B -> small B l -> - B <= at_l l k <= B.
Proof.
  intros B l k HB H. unfold at_l. destruct (Nat.lt_ge_cases (Z.to_nat k) (length l)) as [L|L].
  - unfold small in H. rewrite Forall_forall in H. apply H. apply nth_In. exact L.
  - rewrite nth_overflow by exact L. lia.
Qed.
Lemma small_le : forall A B l, A <= B -> small A l -> small B l.
Proof. intros A B l L H. unfold small in *. eapply Forall_impl; [|exact H]. cbv beta. intros; lia. Qed.
Lemma small_join : forall A B ks E O, 0 <= A -> 0 <= B -> small A E -> small B O -> small (A + B) (join ks E O).
Proof.
  intros A B ks E O HA HB HE HO. unfold join, small. cbv zeta. apply Forall_app. split; apply Forall_forall; intros v Hv;
    apply in_map_iff in Hv; destruct Hv as [k [<- _]].
  - generalize (small_at A E k HA HE) (small_at B O k HB HO). lia.
  - generalize (small_at A E (Z.of_nat (length ks) - 1 - k) HA HE) (small_at B O (Z.of_nat (length ks) - 1 - k) HB HO). lia.
Qed.
Definition entries_ok (T : list (list Z)) : bool := forallb (forallb (fun v => (-45 <=? v) && (v <=? 45))) T.
Lemma tab_bound : forall T i k, entries_ok T = true -> -45 <= tab T i k <= 45.
Proof.
  intros T i k H. unfold tab. unfold entries_ok in H. rewrite forallb_forall in H.
  destruct (Nat.lt_ge_cases (Z.to_nat i) (length T)) as [L|L].
  - specialize (H _ (nth_In T [] L)). rewrite forallb_forall in H.
    destruct (Nat.lt_ge_cases (Z.to_nat k) (length (nth (Z.to_nat i) T []))) as [L2|L2].
    + specialize (H _ (nth_In _ 0 L2)). cbv beta in H. apply andb_true_iff in H. destruct H as [H1 H2].
      apply Z.leb_le in H1. apply Z.leb_le in H2. split; assumption.
    + rewrite (nth_overflow _ 0 L2). lia.
  - rewrite (nth_overflow T [] L). destruct (Z.to_nat k); cbn [nth]; lia.
Qed.
Lemma dot_bound : forall T rows s k, entries_ok T = true -> (forall i, -32768 <= s i <= 32767) ->
  - (1474560 * Z.of_nat (length rows)) <= dot T rows s k <= 1474560 * Z.of_nat (length rows).
Proof.
  intros T rows s k HT HS. induction rows as [|i rows IH]; cbn [dot fold_right length]; [lia|].
  fold (dot T rows s k).
  assert (A := tab_bound T i k HT). assert (B := HS i).
  assert (M: Z.abs (tab T i k * s i) <= 45 * 32768) by (rewrite Z.abs_mul; apply Z.mul_le_mono_nonneg; lia).
  assert (- 1474560 <= tab T i k * s i <= 1474560) by lia. lia.
Qed.
Lemma small_dots : forall T rows s ks B, entries_ok T = true -> (forall i, -32768 <= s i <= 32767) ->
  1474560 * Z.of_nat (length rows) <= B -> small B (map (dot T rows s) ks).
Proof.
  intros T rows s ks B HT HS HB. apply Forall_forall. intros v Hv. apply in_map_iff in Hv. destruct Hv as [k [<- _]].
  generalize (dot_bound T rows s k HT HS). lia.
Qed.
Lemma small_app : forall B l l', small B l -> small B l' -> small B (l ++ l').
Proof. intros B l l' H H'. apply Forall_app. split; assumption. Qed.
Lemma ok4 : entries_ok g_T4 = true. Proof. vm_compute. reflexivity. Qed.
Lemma ok8 : entries_ok g_T8 = true. Proof. vm_compute. reflexivity. Qed.
Lemma ok16 : entries_ok g_T16 = true. Proof. vm_compute. reflexivity. Qed.
Lemma ok32 : entries_ok g_T32 = true. Proof. vm_compute. reflexivity. Qed.
Definition U : Z := 1474560.
Lemma bf_small : forall n s, points n -> (forall i, -32768 <= s i <= 32767) ->
  small (32 * U) (fst (bf n s)) /\ small (32 * U) (snd (bf n s)).
Proof.
  intros n s P HS.
  assert (D: forall T rows ks m, entries_ok T = true -> Z.of_nat (length rows) <= m -> small (m * U) (map (dot T rows s) ks)).
  { intros T rows ks m HT Hm. apply small_dots; [exact HT|exact HS|]. unfold U. lia. }
  assert (J: forall a b ks E O, 0 <= a -> 0 <= b -> small (a * U) E -> small (b * U) O -> small ((a + b) * U) (join ks E O)).
  { intros a b ks E O Ha Hb HE HO. rewrite Z.mul_add_distr_r. apply small_join; [unfold U; lia|unfold U; lia|exact HE|exact HO]. }
  assert (L: forall a l, a <= 32 -> small (a * U) l -> small (32 * U) l).
  { intros a l Ha. apply small_le. unfold U. lia. }
  destruct P as [-> | [-> | [-> | ->]]]; cbn [bf].
  - unfold bf4. cbv zeta. cbn [fst snd].
    assert (HO := D g_T4 [1; 3] k2 2 ok4 ltac:(cbn; lia)). assert (HE := D g_T4 [0; 2] k2 2 ok4 ltac:(cbn; lia)).
    split; [repeat first [eapply L; [|eassumption]; lia | apply small_app]|].
    eapply (L (2 + 2)); [lia|]. apply J; [lia|lia|exact HE|exact HO].
  - unfold bf8. cbv zeta. cbn [fst snd].
    assert (HO := D g_T8 [1; 3; 5; 7] k4 4 ok8 ltac:(cbn; lia)). assert (HEO := D g_T8 [2; 6] k2 2 ok8 ltac:(cbn; lia)).
    assert (HEE := D g_T8 [0; 4] k2 2 ok8 ltac:(cbn; lia)).
    assert (HE := J 2 2 k2 _ _ ltac:(lia) ltac:(lia) HEE HEO).
    split; [repeat first [eapply L; [|eassumption]; lia | apply small_app]|].
    eapply (L (2 + 2 + 4)); [lia|]. apply J; [lia|lia|exact HE|exact HO].
  - unfold bf16. cbv zeta. cbn [fst snd].
    assert (HO := D g_T16 [1; 3; 5; 7; 9; 11; 13; 15] k8 8 ok16 ltac:(cbn; lia)). assert (HEO := D g_T16 [2; 6; 10; 14] k4 4 ok16 ltac:(cbn; lia)).
    assert (HEEO := D g_T16 [4; 12] k2 2 ok16 ltac:(cbn; lia)). assert (HEEE := D g_T16 [0; 8] k2 2 ok16 ltac:(cbn; lia)).
    assert (HEE := J 2 2 k2 _ _ ltac:(lia) ltac:(lia) HEEE HEEO).
    assert (HE := J (2 + 2) 4 k4 _ _ ltac:(lia) ltac:(lia) HEE HEO).
    split; [repeat first [eapply L; [|eassumption]; lia | apply small_app]|].
    eapply (L (2 + 2 + 4 + 8)); [lia|]. apply J; [lia|lia|exact HE|exact HO].
  - unfold bf32. cbv zeta. cbn [fst snd].
    assert (HO := D g_T32 [1; 3; 5; 7; 9; 11; 13; 15; 17; 19; 21; 23; 25; 27; 29; 31] k16 16 ok32 ltac:(cbn; lia)).
    assert (HEO := D g_T32 [2; 6; 10; 14; 18; 22; 26; 30] k8 8 ok32 ltac:(cbn; lia)).
    assert (HEEO := D g_T32 [4; 12; 20; 28] k4 4 ok32 ltac:(cbn; lia)).
    assert (HEEEO := D g_T32 [8; 24] k2 2 ok32 ltac:(cbn; lia)). assert (HEEEE := D g_T32 [0; 16] k2 2 ok32 ltac:(cbn; lia)).
    assert (HEEE := J 2 2 k2 _ _ ltac:(lia) ltac:(lia) HEEEE HEEEO).
    assert (HEE := J (2 + 2) 4 k4 _ _ ltac:(lia) ltac:(lia) HEEE HEEO).
    assert (HE := J (2 + 2 + 4) 8 k8 _ _ ltac:(lia) ltac:(lia) HEE HEO).
    split; [repeat first [eapply L; [|eassumption]; lia | apply small_app]|].
    eapply (L (2 + 2 + 4 + 8 + 16)); [lia|]. apply J; [lia|lia|exact HE|exact HO].
Qed.

(** Limits. *)
Lemma lim_range : forall b v, 1 <= b -> - 2 ^ (b - 1) <= lim b v <= 2 ^ (b - 1) - 1.
Proof.
  intros b v H. assert (0 < 2 ^ (b - 1)) by (apply Z.pow_pos_nonneg; lia). unfold lim, clamp. lia.
Qed.
Lemma clip3_lim : forall b v, 1 <= b <= 16 ->
  to_i16 (clip3 (- (Z.shiftl 1 (b - 1) - 1) - 1) (Z.shiftl 1 (b - 1) - 1) v) = lim b v.
Proof.
  intros b v H. rewrite Z.shiftl_mul_pow2, Z.mul_1_l by lia.
  assert (P0: 0 < 2 ^ (b - 1)) by (apply Z.pow_pos_nonneg; lia).
  assert (P1: 2 ^ (b - 1) <= 2 ^ 15) by (apply Z.pow_le_mono_r; lia). change (2 ^ 15) with 32768 in P1.
  unfold lim, clamp, clip3. replace (- (2 ^ (b - 1) - 1) - 1) with (- 2 ^ (b - 1)) by lia.
  destruct (Z.ltb_spec v (- 2 ^ (b - 1))) as [A|A]; [rewrite to_i16_id by lia; lia|].
  destruct (Z.ltb_spec (2 ^ (b - 1) - 1) v) as [B|B]; rewrite to_i16_id by lia; lia.
Qed.

Lemma pbi_at : forall n line src ps shift b t0 k j, points n -> 1 <= b <= 16 -> 0 < shift ->
  0 <= k < Z.of_nat n -> 0 <= j < Z.of_nat line ->
  pbi n line src ps shift b t0 (j * Z.of_nat n + k) =
  lim b (rshift (zsum n (fun i => basis (Z.of_nat n) i k * src (ps + j + i * Z.of_nat line))) shift).
Proof.
  intros n line src ps shift b t0 k j P Hb Hs Hk Hj. unfold pbi. cbv zeta.
  edestruct (bw_spec n line 0 (Z.of_nat n)) as [A _]; [lia|].
  specialize (A k j Hk Hj). rewrite Z.add_0_l in A. rewrite A. rewrite clip3_lim by exact Hb.
  rewrite shift_rshift' by exact Hs. rewrite bf_matrix by assumption. reflexivity.
Qed.

Lemma idct_hv_spec : forall bh bv flag d p stride t0 m, points bh -> points bv -> 0 <= flag <= 1 -> mc_depth d ->
  Z.of_nat bh <= stride ->
  (forall x y, 0 <= x < Z.of_nat bh -> 0 <= y < Z.of_nat bv ->
     idct_hv bh bv flag d p stride t0 m (p + y * stride + x) =
     residual bh bv flag d (fun u v => m (p + v * Z.of_nat bh + u)) x y) /\
  (forall q, ~ in_block bh bv p stride q -> idct_hv bh bv flag d p stride t0 m q = m q).
Proof.
  intros bh bv flag d p stride t0 m PH PV HF Hd HS. unfold idct_hv. cbv zeta. unfold mc_depth in Hd.
  edestruct (bw_spec bh bv p stride) as [A B]; [exact HS|]. split; [|exact B].
  intros x y Hx Hy. rewrite A by assumption. rewrite pbi_at by (assumption || lia).
  unfold residual. do 2 f_equal. apply zsum_ext. intros u Hu. f_equal. unfold col_pass.
  rewrite Z.add_0_l. replace (y + u * Z.of_nat bv) with (u * Z.of_nat bv + y) by lia.
  rewrite pbi_at by (assumption || lia). do 2 f_equal. apply zsum_ext. intros v Hv. do 2 f_equal. lia.
Qed.
Lemma residual_range : forall bh bv w d c x y, 0 <= w <= 1 -> mc_depth d -> - 2 ^ (d + w) <= residual bh bv w d c x y <= 2 ^ (d + w) - 1.
Proof.
  intros bh bv w d c x y Hw Hd. unfold mc_depth in Hd. unfold residual.
  generalize (lim_range (d + 1 + w) (rshift (zsum bh (fun u => basis (Z.of_nat bh) u x * col_pass bv c u y)) (20 - d - w)) ltac:(lia)).
  replace (d + 1 + w - 1) with (d + w) by lia. auto.
Qed.
