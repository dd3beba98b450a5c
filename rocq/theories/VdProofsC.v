(** Deblocking kernels: the memory they leave. *)
From Coq Require Import ZArith List Bool Lia.
From Verif Require Import CBase MemModel VxModelBase VdModel LfModel LfSpec LfProofs VxProofs VdProofs VdProofsB VdSpec.
Import ListNotations.
Open Scope Z_scope.

Ltac eight_cases H := apply eight in H; destruct H as [-> | [-> | [-> | [-> | [-> | [-> | [-> | ->]]]]]]].
Lemma four i : 0 <= i < 4 -> i = 0 \/ i = 1 \/ i = 2 \/ i = 3.
Proof. lia. Qed.
Ltac four_cases H := apply four in H; destruct H as [-> | [-> | [-> | ->]]].

Lemma store_in n m p r k q : q = p + k -> 0 <= k < n -> store_n n m p r q = r k.
Proof. intros -> H. unfold store_n. destruct (Z.leb_spec p (p + k)); [|lia]. destruct (Z.ltb_spec (p + k) (p + n)); [|lia]. cbn [andb]. f_equal. lia. Qed.
Lemma store_out n m p r q : q < p \/ p + n <= q -> store_n n m p r q = m q.
Proof. intros H. unfold store_n. destruct (Z.leb_spec p q); [|reflexivity]. destruct (Z.ltb_spec q (p + n)); [lia|reflexivity]. Qed.
Lemma stores8 st : 8 <= st -> forall m p0 p1 p2 p3 p4 p5 p6 p7 p r0 r1 r2 r3 r4 r5 r6 r7,
  p0 = p -> p1 = p + st -> p2 = p + 2 * st -> p3 = p + 3 * st -> p4 = p + 4 * st -> p5 = p + 5 * st -> p6 = p + 6 * st -> p7 = p + 7 * st ->
  let m' := store8 (store8 (store8 (store8 (store8 (store8 (store8 (store8 m p0 r0) p1 r1) p2 r2) p3 r3) p4 r4) p5 r5) p6 r6) p7 r7 in
  (forall i k, 0 <= i < 8 -> 0 <= k < 8 -> m' (p + i * st + k) = sel8 r0 r1 r2 r3 r4 r5 r6 r7 i k) /\
  (forall q, (forall i k, 0 <= i < 8 -> 0 <= k < 8 -> q <> p + i * st + k) -> m' q = m q).
Proof.
  intros Hs m p0 p1 p2 p3 p4 p5 p6 p7 p r0 r1 r2 r3 r4 r5 r6 r7 -> -> -> -> -> -> -> -> m'. split.
  - intros i k Hi Hk. unfold m', store8. eight_cases Hi; unfold sel8; cbn [Z.eqb Pos.eqb];
      repeat (rewrite store_out by lia); rewrite (store_in _ _ _ _ k) by lia; reflexivity.
  - intros q H. unfold m', store8.
    assert (forall i, 0 <= i < 8 -> q < p + i * st \/ p + i * st + 8 <= q) as G.
    { intros i Hi. specialize (H i (q - p - i * st) Hi). clear - H. lia. }
    pose proof (G 0 ltac:(lia)). pose proof (G 1 ltac:(lia)). pose proof (G 2 ltac:(lia)). pose proof (G 3 ltac:(lia)).
    pose proof (G 4 ltac:(lia)). pose proof (G 5 ltac:(lia)). pose proof (G 6 ltac:(lia)). pose proof (G 7 ltac:(lia)). clear G H m'.
    rewrite !store_out by (first [assumption|lia]). reflexivity.
Qed.
Lemma stores4 n st : 0 < n <= st -> forall m p0 p1 p2 p3 p r0 r1 r2 r3,
  p0 = p -> p1 = p + st -> p2 = p + 2 * st -> p3 = p + 3 * st ->
  let m' := store_n n (store_n n (store_n n (store_n n m p0 r0) p1 r1) p2 r2) p3 r3 in
  (forall i k, 0 <= i < 4 -> 0 <= k < n -> m' (p + i * st + k) = sel8 r0 r1 r2 r3 r0 r0 r0 r0 i k) /\
  (forall q, (forall i k, 0 <= i < 4 -> 0 <= k < n -> q <> p + i * st + k) -> m' q = m q).
Proof.
  intros Hs m p0 p1 p2 p3 p r0 r1 r2 r3 -> -> -> -> m'. split.
  - intros i k Hi Hk. unfold m'. four_cases Hi; unfold sel8; cbn [Z.eqb Pos.eqb];
      repeat (rewrite store_out by lia); rewrite (store_in _ _ _ _ k) by lia; reflexivity.
  - intros q H. unfold m'.
    assert (forall i, 0 <= i < 4 -> q < p + i * st \/ p + i * st + n <= q) as G.
    { intros i Hi. specialize (H i (q - p - i * st) Hi). clear - H. lia. }
    pose proof (G 0 ltac:(lia)). pose proof (G 1 ltac:(lia)). pose proof (G 2 ltac:(lia)). pose proof (G 3 ltac:(lia)). clear G H m'.
    rewrite !store_out by (first [assumption|lia]). reflexivity.
Qed.
Lemma set1_lane v i : 0 <= v <= 255 -> lane (set1_epi16 (to_u8 v)) i v.
Proof. intros H. rewrite to_u8_id by exact H. apply lane_c. lia. Qed.

(** Rows of eight bytes around a vertical edge become the filtered ones. *)
Definition row_after (c : bool) (alpha beta : Z) (flag : bool) (s : Z -> Z) (k : Z) : Z :=
  if (k =? 0) || (k =? 7) then s (k - 4) else filtered c alpha beta flag s (k - 4).
Lemma row_after_range c alpha beta flag s k : (forall j, 0 <= s j <= 255) -> 0 <= k < 8 -> 0 <= row_after c alpha beta flag s k <= 255.
Proof.
  intros H Hk. unfold row_after. destruct ((k =? 0) || (k =? 7)) eqn:E; [apply H|].
  apply orb_false_elim in E. destruct E as [A B]. apply Z.eqb_neq in A. apply Z.eqb_neq in B. apply filtered_range; [lia|]. intros; apply H.
Qed.
(** From rows to samples. *)
Lemma rows_filtered c st alpha beta f0 f1 src m m' : 8 <= st ->
  (forall i k, 0 <= i < lines c -> 0 <= k < 8 ->
     m' (src - 4 + i * st + k) = row_after c alpha beta (line_flag c f0 f1 i) (fun j => m (src + i * st + j)) k) ->
  (forall q, (forall i k, 0 <= i < lines c -> 0 <= k < 8 -> q <> src - 4 + i * st + k) -> m' q = m q) ->
  edge_filtered c st 1 alpha beta f0 f1 src m m'.
Proof.
  intros Hs A B. split.
  - intros k j Hk Hj. specialize (A k (j + 4) Hk ltac:(lia)).
    replace (src + k * st + j * 1) with (src - 4 + k * st + (j + 4)) by lia. rewrite A. unfold row_after.
    destruct (Z.eqb_spec (j + 4) 0); [lia|]. destruct (Z.eqb_spec (j + 4) 7); [lia|]. cbn [orb].
    replace (j + 4 - 4) with j by lia. apply filtered_ext; [exact Hj|]. intros i Hi. f_equal. lia.
  - intros q H.
    assert ((exists i k, 0 <= i < lines c /\ 0 <= k < 8 /\ q = src - 4 + i * st + k) \/ (forall i k, 0 <= i < lines c -> 0 <= k < 8 -> q <> src - 4 + i * st + k)) as [(i & k & Hi & Hk & ->)|N].
    { set (d := q - (src - 4)). destruct (Z_le_dec 0 d) as [D|D]; [|right; intros i k Hi Hk E; apply D; unfold d; assert (0 <= i * st) by nia; lia].
      pose proof (Z_div_mod_eq_full d st) as Q. pose proof (Z.mod_pos_bound d st ltac:(lia)) as M. pose proof (Z.div_pos d st D ltac:(lia)) as P.
      destruct (Z_lt_dec (d / st) (lines c)) as [L|L]; [destruct (Z_lt_dec (d mod st) 8) as [K|K]|].
      - left. exists (d / st), (d mod st). split; [lia|]. split; [lia|]. unfold d in *. lia.
      - right. intros i k Hi Hk E. apply K. assert (d = i * st + k) as E' by (unfold d; lia). rewrite E'. rewrite Z.add_comm, Z_mod_plus_full, Z.mod_small; lia.
      - right. intros i k Hi Hk E. apply L. assert (d = i * st + k) as E' by (unfold d; lia). rewrite E'. rewrite Z.div_add_l, Z.div_small; lia. }
    + rewrite A by assumption. unfold row_after.
      destruct ((k =? 0) || (k =? 7)) eqn:E; [f_equal; lia|]. apply orb_false_elim in E. destruct E as [E1 E2]. apply Z.eqb_neq in E1. apply Z.eqb_neq in E2.
      exfalso. apply (H i (k - 4) Hi ltac:(lia)). lia.
    + apply B, N.
Qed.

Lemma load_rows m stride src i k : 0 <= i < 8 -> 0 <= k < 8 ->
    sel8 (loadl m (src - 4)) (loadl m (src - 4 + stride)) (loadl m (src - 4 + stride * 2)) (loadl m (src - 4 + stride * 3)) (loadl m (src - 4 + stride * 4))
         (loadl m (src - 4 + stride * 5)) (loadl m (src - 4 + stride * 6)) (loadl m (src - 4 + stride * 7)) i k = m (src + i * stride + (k - 4)).
Proof. intros Hi Hk. eight_cases Hi; unfold sel8, loadl; cbn [Z.eqb Pos.eqb]; destruct (Z.ltb_spec k 8); try lia; f_equal; lia. Qed.
Lemma load_rows4 m m1 stride src src1 i k : 0 <= i < 8 -> 0 <= k < 8 ->
    sel8 (loadl m (src - 4)) (loadl m (src - 4 + stride)) (loadl m (src - 4 + stride * 2)) (loadl m (src - 4 + stride * 3))
         (loadl m1 (src1 - 4)) (loadl m1 (src1 - 4 + stride)) (loadl m1 (src1 - 4 + stride * 2)) (loadl m1 (src1 - 4 + stride * 3)) i k =
    if i <? 4 then m (src + i * stride + (k - 4)) else m1 (src1 + (i - 4) * stride + (k - 4)).
Proof. intros Hi Hk. eight_cases Hi; unfold sel8, loadl; cbn [Z.eqb Pos.eqb Z.ltb Z.compare Pos.compare Pos.compare_cont]; destruct (Z.ltb_spec k 8); try lia; f_equal; lia. Qed.

Local Opaque columns weak strong strength_luma strength_chroma rows2 srli_si128 store_n loadl set_epi32 set1_epi16 cmpeq_epi16 testz c_.
Theorem ver_luma stride alpha beta f0 f1 src m : 8 <= stride -> 0 <= alpha <= 255 -> 0 <= beta <= 255 -> (forall q, 0 <= m q <= 255) ->
  edge_filtered false stride 1 alpha beta f0 f1 src m (edge_ver_sse stride alpha beta f0 f1 src m).
Proof.
  intros Hst Ha Hb Hm. unfold edge_ver_sse. cbv zeta.
  assert (forall i, 0 <= i < 8 -> forall k, 0 <= k < 8 ->
    sel8 (loadl m (src - 4)) (loadl m (src - 4 + stride)) (loadl m (src - 4 + stride * 2)) (loadl m (src - 4 + stride * 3)) (loadl m (src - 4 + stride * 4))
         (loadl m (src - 4 + stride * 5)) (loadl m (src - 4 + stride * 6)) (loadl m (src - 4 + stride * 7)) i k = m (src + i * stride + (k - 4))) as Row.
  { intros i Hi k Hk. apply load_rows; assumption. }
  assert (forall i, 0 <= i < 8 -> let s := fun j => m (src + i * stride + j) in
    let '(T0, T1, T2, T3) := let '(TL3, TL2, TL1, TL0, TR0, TR1, TR2, TR3) := columns (loadl m (src - 4)) (loadl m (src - 4 + stride)) (loadl m (src - 4 + stride * 2)) (loadl m (src - 4 + stride * 3)) (loadl m (src - 4 + stride * 4))
         (loadl m (src - 4 + stride * 5)) (loadl m (src - 4 + stride * 6)) (loadl m (src - 4 + stride * 7)) in
       let '(L2, L1, L0, R0, R1, R2) := luma_regs sub_epi16 (set1_epi16 (to_u8 alpha)) (set1_epi16 (to_u8 beta)) (set_epi32 (flag_mask f1) (flag_mask f1) (flag_mask f0) (flag_mask f0)) TL2 TL1 TL0 TR0 TR1 TR2 in
       rows2 TL3 L2 L1 L0 R0 R1 R2 TR3 in
    forall k, 0 <= k < 8 -> sel8 T0 (srli_si128 T0 8) T1 (srli_si128 T1 8) T2 (srli_si128 T2 8) T3 (srli_si128 T3 8) i k = row_after false alpha beta (line_flag false f0 f1 i) s k) as Main.
  { intros i Hi s.
    pose proof (columns_lane (loadl m (src - 4)) (loadl m (src - 4 + stride)) (loadl m (src - 4 + stride * 2)) (loadl m (src - 4 + stride * 3)) (loadl m (src - 4 + stride * 4))
         (loadl m (src - 4 + stride * 5)) (loadl m (src - 4 + stride * 6)) (loadl m (src - 4 + stride * 7)) i Hi) as C.
    specialize (C ltac:(intros k Hk; rewrite Row by assumption; apply Hm)). specialize (Row i Hi).
    destruct (columns _ _ _ _ _ _ _ _) as [[[[[[[TL3 TL2] TL1] TL0] TR0] TR1] TR2] TR3]. cbv zeta in C. rewrite !Row in C by lia.
    destruct C as (C3 & C2 & C1 & C0 & D0 & D1 & D2 & D3).
    pose proof (luma_result sub_epi16 lane_sub (set1_epi16 (to_u8 alpha)) (set1_epi16 (to_u8 beta)) (set_epi32 (flag_mask f1) (flag_mask f1) (flag_mask f0) (flag_mask f0))
      TL2 TL1 TL0 TR0 TR1 TR2 i alpha beta (line_flag false f0 f1 i) s Hi) as L.
    assert (maskl (set_epi32 (flag_mask f1) (flag_mask f1) (flag_mask f0) (flag_mask f0)) i (line_flag false f0 f1 i)) as HF.
    { unfold line_flag, lines. replace (2 * i <? 8) with (i <? 4) by (destruct (Z.ltb_spec i 4), (Z.ltb_spec (2 * i) 8); lia). apply flags_luma, Hi. }
    specialize (L (conj (set1_lane _ i Ha) (conj (set1_lane _ i Hb) (conj HF (conj C2 (conj C1 (conj C0 (conj D0 (conj D1 (conj D2 (fun j _ => Hm _))))))))))).
    destruct (luma_regs _ _ _ _ _ _ _ _ _ _) as [[[[[L2 L1] L0] R0] R1] R2]. destruct L as (E2 & E1 & E0 & G0 & G1 & G2).
    pose proof (rows2_byte TL3 L2 L1 L0 R0 R1 R2 TR3 i (row_after false alpha beta (line_flag false f0 f1 i) s) Hi) as W.
    specialize (W (fun k Hk => row_after_range _ _ _ _ _ _ (fun j => Hm _) Hk) C3 E2 E1 E0 G0 G1 G2 D3). exact W. }
  destruct (columns _ _ _ _ _ _ _ _) as [[[[[[[TL3 TL2] TL1] TL0] TR0] TR1] TR2] TR3].
  unfold luma_regs in Main. cbv zeta in Main. destruct (weak _ _ _ _ _ _ _) as [[[A1 A0] B0] B1].
  destruct (if negb _ then _ else _) as [[[[[L2 L1] L0] R0] R1] R2].
  destruct (rows2 _ _ _ _ _ _ _ _) as [[[T0 T1] T2] T3].
  destruct (stores8 stride Hst m (src - 4) (src - 4 + stride) (src - 4 + stride + stride) (src - 4 + stride + stride + stride) (src - 4 + stride + stride + stride + stride)
    (src - 4 + stride + stride + stride + stride + stride) (src - 4 + stride + stride + stride + stride + stride + stride) (src - 4 + stride + stride + stride + stride + stride + stride + stride)
    (src - 4) T0 (srli_si128 T0 8) T1 (srli_si128 T1 8) T2 (srli_si128 T2 8) T3 (srli_si128 T3 8)) as [P Q]; try lia.
  apply rows_filtered; [exact Hst| |exact Q].
  intros i k Hi Hk. cbn [lines] in Hi. rewrite P by assumption. apply Main; assumption.
Qed.
