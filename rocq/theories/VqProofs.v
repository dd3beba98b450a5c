(** The vector DC predictors; and what the three files on these predictors share. *)
From Coq Require Import ZArith List Bool Lia.
From Verif Require Import CBase MemModel SaoModel SaoProofs IprModel IprSpec IprProofs IprProofsD IprProofsE IprProofsG VxModelBase VxModel VdModel ViModel VjModel VpModelA
  VxProofs VxProofsB ViProofs ViProofsB ViProofsC VjProofs VjProofsB VqModel.
Import ListNotations.
Open Scope Z_scope.

(** ** Loops *)
Lemma sloop_inv {S : Type} (P : Z -> S -> Prop) b step f (t : S) : 0 < step -> 0 <= b -> P 0 t ->
  (forall k u, 0 <= k -> step * k < b -> P (step * k) u -> P (step * k + step) (f (step * k) u)) ->
  P (step * ((b + step - 1) / step)) (sloop b step f t).
Proof.
  intros Hs Hb H0 Hk. unfold sloop.
  apply (floop_inv (fun k u => P (step * k) u)).
  - apply Z.div_pos; lia.
  - rewrite Z.mul_0_r. exact H0.
  - intros k u Hk' HP. replace (step * (k + 1)) with (step * k + step) by lia. apply Hk; [lia| |exact HP].
    assert (step * ((b + step - 1) / step) <= b + step - 1) by (apply Z.mul_div_le; lia).
    assert (step * (k + 1) <= step * ((b + step - 1) / step)) by (apply Z.mul_le_mono_nonneg_l; lia). lia.
Qed.
(** Each iteration fills the next [step] columns of a row. *)
Lemma sloop_fill b step q F f (m : mem) : 0 < step -> 0 <= b ->
  (forall x u, 0 <= x < b -> forall j, f x u j = fill q x (x + step) F u j) ->
  forall j, sloop b step f m j = fill q 0 (step * ((b + step - 1) / step)) F m j.
Proof.
  intros Hs Hb Hf. apply (sloop_inv (fun X u => forall j, u j = fill q 0 X F m j)); [exact Hs|exact Hb| |].
  - intros j. rewrite fill_none by lia. reflexivity.
  - intros k u Hk Hx H j. assert (0 <= step * k) by (apply Z.mul_nonneg_nonneg; lia). rewrite Hf by lia. rewrite (fill_ext _ _ _ _ u _ H). apply fill_fill. lia.
Qed.
(** Each iteration fills a row. *)
Definition rows_done (w h d st Y : Z) (old : mem) (v : Z -> Z -> Z) (m : mem) : Prop :=
  (forall x y, 0 <= x < w -> 0 <= y < Y -> m (d + y * st + x) = v x y) /\
  (forall q, (forall x y, 0 <= x < w -> 0 <= y < h -> q <> d + y * st + x) -> m q = old q).
Lemma row_done w h d st Y old v m m' : 0 < w <= st -> 0 <= Y < h -> rows_done w h d st Y old v m ->
  (forall j, m' j = fill (d + Y * st) 0 w (fun x => v x Y) m j) -> rows_done w h d st (Y + 1) old v m'.
Proof.
  intros Hw HY [A B] E. split.
  - intros x y Hx Hy. rewrite E. unfold fill. destruct (Z.eq_dec y Y) as [->|N].
    + destruct (Z.leb_spec (d + Y * st + 0) (d + Y * st + x)), (Z.ltb_spec (d + Y * st + x) (d + Y * st + w)); cbn [andb]; try lia. f_equal. lia.
    + assert ((y + 1) * st <= Y * st) by (apply Z.mul_le_mono_nonneg_r; lia).
      destruct (Z.leb_spec (d + Y * st + 0) (d + y * st + x)); [lia|]. cbn [andb]. apply A; lia.
  - intros q Hq. rewrite E. unfold fill.
    destruct (Z.leb_spec (d + Y * st + 0) q), (Z.ltb_spec q (d + Y * st + w)); cbn [andb]; try (apply B; exact Hq).
    exfalso. apply (Hq (q - (d + Y * st)) Y); lia.
Qed.
Lemma rows_start w h d st old v : rows_done w h d st 0 old v old.
Proof. split; [intros; lia|reflexivity]. Qed.
Lemma rows_predict {S : Type} (Inv : Z -> S -> Prop) w h d st v (f : Z -> S * mem -> S * mem) s0 dst : 0 < w <= st -> 0 <= h -> Inv 0 s0 ->
  (forall y t m, 0 <= y < h -> Inv y t -> Inv (y + 1) (fst (f y (t, m))) /\ forall j, snd (f y (t, m)) j = fill (d + y * st) 0 w (fun x => v x y) m j) ->
  predicts w h d st dst (snd (floop 0 h f (s0, dst))) v.
Proof.
  intros Hw Hh H0 Hf.
  assert (R : Inv h (fst (floop 0 h f (s0, dst))) /\ rows_done w h d st h dst v (snd (floop 0 h f (s0, dst)))).
  { apply (floop_inv (fun Y (t : S * mem) => Inv Y (fst t) /\ rows_done w h d st Y dst v (snd t))); [exact Hh|split; [exact H0|apply rows_start]|].
    intros y [t m] Hy [I1 I2]. cbn [fst snd] in *. destruct (Hf y t m Hy I1) as [F1 F2]. split; [exact F1|]. exact (row_done _ _ _ _ _ _ _ m _ Hw Hy I2 F2). }
  destruct R as [_ [A B]]. split; assumption.
Qed.
Lemma rows_predict0 w h d st v (f : Z -> mem -> mem) dst : 0 < w <= st -> 0 <= h ->
  (forall y m, 0 <= y < h -> forall j, f y m j = fill (d + y * st) 0 w (fun x => v x y) m j) ->
  predicts w h d st dst (floop 0 h f dst) v.
Proof.
  intros Hw Hh Hf.
  assert (R : rows_done w h d st h dst v (floop 0 h f dst)).
  { apply (floop_inv (fun Y m => rows_done w h d st Y dst v m)); [exact Hh|apply rows_start|].
    intros y m Hy I. exact (row_done _ _ _ _ _ _ _ m _ Hw Hy I (Hf y m Hy)). }
  destruct R as [A B]. split; assumption.
Qed.

(** ** Stores *)
Lemma store_row n m q (r : reg) F : (forall k, 0 <= k < n -> r k = F k) -> forall j, store_n n m q r j = fill q 0 n F m j.
Proof. intros E j. rewrite <- (Z.add_0_r q) at 1. rewrite (store_fill n m q 0 r F); [reflexivity|]. intros k Hk. rewrite E by exact Hk. reflexivity. Qed.
Lemma store_row_w n w m q (r : reg) F : w = n -> (forall k, 0 <= k < n -> r k = F k) -> forall j, store_n n m q r j = fill q 0 w F m j.
Proof. intros ->. apply store_row. Qed.
Lemma cases32 (P : Z -> Prop) : (forall k, (k < 32)%nat -> P (Z.of_nat k)) -> forall i, 0 <= i < 32 -> P i.
Proof. intros H i Hi. rewrite <- (Z2Nat.id i) by lia. apply H. lia. Qed.
Lemma mask256_bit r : In r [3; 7; 15] -> forall k, 0 <= k < 32 -> Z.testbit (mask256 r k) 7 = (k <=? r).
Proof.
  intros Hr. apply cases32. intros k Hk. cbn [In] in Hr.
  destruct Hr as [<-|[<-|[<-|[]]]]; do 32 (destruct k as [|k]; [reflexivity|]); lia.
Qed.
Lemma mask32_store m p (r : reg) j : maskstore_epi32 m p r (mask256 3) j = store_n 4 m p r j.
Proof.
  unfold maskstore_epi32, store_n. destruct (Z.leb_spec p j); cbn [andb]; [|reflexivity].
  destruct (Z.ltb_spec j (p + 32)); cbn [andb].
  - rewrite mask256_bit; [|cbn [In]; auto|Z.div_mod_to_equations; lia].
    destruct (Z.leb_spec (4 * ((j - p) / 4) + 3) 3), (Z.ltb_spec j (p + 4)); try reflexivity; Z.div_mod_to_equations; lia.
  - destruct (Z.ltb_spec j (p + 4)); [lia|reflexivity].
Qed.
Lemma mask64_store n m p (r : reg) j : n = 8 \/ n = 16 -> maskstore_epi64 m p r (mask256 (n - 1)) j = store_n n m p r j.
Proof.
  intros Hn. unfold maskstore_epi64, store_n. destruct (Z.leb_spec p j); cbn [andb]; [|reflexivity].
  destruct (Z.ltb_spec j (p + 32)); cbn [andb].
  - rewrite mask256_bit; [|cbn [In]; lia|Z.div_mod_to_equations; lia].
    destruct (Z.leb_spec (8 * ((j - p) / 8) + 7) (n - 1)), (Z.ltb_spec j (p + n)); try reflexivity; Z.div_mod_to_equations; lia.
  - destruct (Z.ltb_spec j (p + n)); [lia|reflexivity].
Qed.

(** ** DC *)
Lemma u16_i16 r i : 0 <= u16_of r i <= 65535 -> u16_of r i = i16_of r i mod 65536.
Proof. intros H. unfold i16_of, to_i16. rewrite Zminus_mod_idemp_l. replace (u16_of r i + 32768 - 32768) with (u16_of r i) by lia. rewrite Z.mod_small; lia. Qed.
Lemma i16_mod r i : i16_of r i mod 65536 = u16_of r i mod 65536.
Proof. unfold i16_of, to_i16. rewrite Zminus_mod_idemp_l. f_equal. lia. Qed.
Lemma u16_add a b i : 0 <= u16_of a i + u16_of b i <= 65535 -> u16_of (add_epi16 a b) i = u16_of a i + u16_of b i.
Proof.
  intros H. unfold add_epi16. rewrite u16_mk16. rewrite Zplus_mod, !i16_mod, <- Zplus_mod. apply Z.mod_small. lia.
Qed.
Lemma u16_srli8 a i : 0 <= i < 4 -> u16_of (srli_si128 a 8) i = u16_of a (4 + i).
Proof.
  intros H. unfold u16_of, srli_si128. destruct (Z.ltb_spec (2 * i + 8) 16), (Z.ltb_spec (2 * i + 1 + 8) 16); try lia.
  f_equal; [f_equal; lia|]. do 2 f_equal. lia.
Qed.
Lemma four_fold a (f : Z -> Z) M : 0 <= M <= 32767 -> (forall i, 0 <= i < 8 -> u16_of a i = f i) -> (forall i, 0 <= i < 8 -> 0 <= f i <= M) ->
  four (add_epi16 a (srli_si128 a 8)) = f 0 + f 1 + f 2 + f 3 + f 4 + f 5 + f 6 + f 7.
Proof.
  intros HM E B. unfold four.
  assert (G : forall i, 0 <= i < 4 -> u16_of (add_epi16 a (srli_si128 a 8)) i = f i + f (4 + i)).
  { intros i Hi. pose proof (B i ltac:(lia)). pose proof (B (4 + i) ltac:(lia)). rewrite u16_add; rewrite u16_srli8, !E by lia; [reflexivity|lia]. }
  rewrite !G by lia. change (4 + 0) with 4. change (4 + 1) with 5. change (4 + 2) with 6. change (4 + 3) with 7. lia.
Qed.
Lemma four_ext a b : (forall i, 0 <= i < 4 -> u16_of a i = u16_of b i) -> four a = four b.
Proof. intros H. unfold four. rewrite !H by lia. reflexivity. Qed.

Definition sum16 (f : Z -> Z) (j : Z) : Z :=
  f (16 * j + 0) + f (16 * j + 1) + f (16 * j + 2) + f (16 * j + 3) + f (16 * j + 4) + f (16 * j + 5) + f (16 * j + 6) + f (16 * j + 7) +
  (f (16 * j + 8) + f (16 * j + 9) + f (16 * j + 10) + f (16 * j + 11) + f (16 * j + 12) + f (16 * j + 13) + f (16 * j + 14) + f (16 * j + 15)).
Lemma sum_by16 f K : 0 <= K -> sum_over (16 * K) f = sum_over K (sum16 f).
Proof.
  intros HK. pattern K. apply natlike_ind; [reflexivity| |exact HK]. clear K HK. intros K HK IH.
  rewrite <- Z.add_1_r, sum_snoc by lia. rewrite <- IH.
  replace (16 * (K + 1)) with (16 * K + 1 + 1 + 1 + 1 + 1 + 1 + 1 + 1 + 1 + 1 + 1 + 1 + 1 + 1 + 1 + 1) by lia. rewrite !sum_snoc by lia.
  unfold sum16. rewrite <- !Z.add_assoc, Z.add_0_r. reflexivity.
Qed.
Lemma side_sum_ok src p n : In n [4; 8; 16; 32; 64] -> (forall k, 0 <= k < n -> 0 <= src (p + k) <= 255) ->
  side_sum src p n = sum_over n (fun k => src (p + k)).
Proof.
  intros Hn B. unfold side_sum.
  destruct (Z.eqb_spec n 4) as [->|N4].
  { change (sum_over 4 (fun k => src (p + k))) with (0 + src (p + 0) + src (p + 1) + src (p + 2) + src (p + 3)). rewrite Z.add_0_r. lia. }
  destruct (Z.eqb_spec n 8) as [->|N8].
  { cbv zeta. rewrite (four_fold _ (fun i => src (p + i)) 255); [|lia| |].
    - change (sum_over 8 (fun k => src (p + k))) with (0 + src (p + 0) + src (p + 1) + src (p + 2) + src (p + 3) + src (p + 4) + src (p + 5) + src (p + 6) + src (p + 7)). lia.
    - intros i Hi. rewrite u16_lo by lia. reflexivity.
    - intros i Hi. apply B. lia. }
  cbv zeta.
  set (K := (n - 8 + 16 - 1) / 16).
  assert (HK : n = 16 * K /\ 0 <= K <= 4).
  { cbn [In] in Hn. unfold K. destruct Hn as [<-|[<-|[<-|[<-|[<-|[]]]]]]; try congruence; (split; [reflexivity|split; discriminate]). }
  set (g := fun i j => src (p + 16 * j + i) + src (p + 16 * j + (8 + i))).
  assert (GB : forall i j, 0 <= i < 8 -> 0 <= j < K -> 0 <= g i j <= 510).
  { intros i j Hi Hj. unfold g. pose proof (B (16 * j + i) ltac:(lia)). pose proof (B (16 * j + (8 + i)) ltac:(lia)). rewrite <- !Z.add_assoc. lia. }
  assert (SB : forall i X, 0 <= i < 8 -> 0 <= X <= K -> 0 <= sum_over X (g i) <= X * 510).
  { intros i X Hi HX. apply sum_between; [lia|]. intros j Hj. apply GB; lia. }
  set (P30 := sloop (n - 8) 16 _ setzero).
  assert (E : forall i, 0 <= i < 8 -> u16_of P30 i = sum_over K (g i)).
  { unfold P30, sloop. fold K.
    apply (floop_inv (fun X (r : reg) => forall i, 0 <= i < 8 -> u16_of r i = sum_over X (g i))); [lia|intros; reflexivity|].
    intros X r HX H i Hi. rewrite sum_snoc by lia. pose proof (SB i X Hi ltac:(lia)). pose proof (GB i X Hi HX) as G.
    assert (L : u16_of (add_epi16 (unpacklo_epi8 (load src (p + 16 * X)) setzero) (unpackhi_epi8 (load src (p + 16 * X)) setzero)) i = g i X).
    { rewrite u16_add; rewrite u16_lo, u16_hi by lia; [reflexivity|]. unfold g in G. unfold load. lia. }
    rewrite u16_add; rewrite L, (H i Hi); lia. }
  rewrite (four_fold P30 (fun i => sum_over K (g i)) 2040); [|lia|exact E|].
  2:{ intros i Hi. pose proof (SB i K Hi ltac:(lia)). lia. }
  destruct HK as [E16 HK]. rewrite E16, sum_by16 by lia. clear. unfold g. cbv beta.
  assert (S8 : forall X (f1 f2 : Z -> Z), sum_over X (fun j => f1 j + f2 j) = sum_over X f1 + sum_over X f2).
  { intros X f1 f2. unfold sum_over. induction (Z.to_nat X) as [|k IH]; [reflexivity|]. cbn [sumz]. rewrite IH. lia. }
  rewrite !S8.
  assert (SH : forall i, sum_over K (fun j => src (p + 16 * j + i)) = sum_over K (fun j => src (p + (16 * j + i)))) by (intros i; apply sum_ext; intros; f_equal; lia).
  rewrite !SH. unfold sum16. rewrite !S8.
  change (8 + 0) with 8. change (8 + 1) with 9. change (8 + 2) with 10. change (8 + 3) with 11. change (8 + 4) with 12. change (8 + 5) with 13. change (8 + 6) with 14. change (8 + 7) with 15. lia.
Qed.

Section DC.
Variables (src : mem) (s d st : Z) (dst : mem).
Let e (k : Z) : Z := src (s + k).
Lemma byte_row n m q x v F : 0 <= v <= 255 -> (forall k, F k = v) -> forall j, store_n n m (q + x) (set1_epi8 v) j = fill q x (x + n) F m j.
Proof. intros Hv HF. apply store_fill. intros k Hk. rewrite HF. unfold set1_epi8, mk8. apply to_u8_id. unfold byte. lia. Qed.
Lemma byte_row0 n m q v F : 0 <= v <= 255 -> (forall k, F k = v) -> forall j, store_n n m q (set1_epi8 v) j = fill q 0 n F m j.
Proof. intros Hv HF. apply store_row. intros k Hk. rewrite HF. unfold set1_epi8, mk8. apply to_u8_id. unfold byte. lia. Qed.
Lemma side_left h : 0 <= h -> sum_over h (fun k => src (s - h + k)) = sum_over h (fun y => e (- (y + 1))).
Proof.
  intros Hh. unfold e.
  assert (G : forall n, 0 <= n -> n <= h -> sum_over n (fun k => src (s - h + k)) + sum_over (h - n) (fun y => src (s + - (y + 1))) = sum_over h (fun y => src (s + - (y + 1)))).
  { intros n Hn. pattern n. apply natlike_ind; [intros _; rewrite Z.sub_0_r; cbn; lia| |exact Hn]. clear n Hn. intros n Hn IH L.
    rewrite <- Z.add_1_r, sum_snoc by lia. rewrite <- (IH ltac:(lia)). replace (h - n) with (h - (n + 1) + 1) by lia. rewrite sum_snoc by lia.
    replace (s + - (h - (n + 1) + 1)) with (s - h + n) by lia. lia. }
  pose proof (G h Hh ltac:(lia)) as E. rewrite Z.sub_diag in E. change (sum_over 0 _) with 0 in E. lia.
Qed.
Lemma dc_sse_ok w h top left : intra_shape w h -> w <= st -> (forall k, - h <= k <= w -> 0 <= e k <= 255) ->
  predicts w h d st dst (dc_sse src s d st w h 128 (mode_ex top left) dst) (fun x y => dc_rule 8 e w h top left).
Proof.
  intros Sh W L. pose proof (shape_pos w h Sh) as B. destruct (shape_sides w h Sh) as [Iw Ih].
  unfold dc_sse. cbv zeta.
  rewrite (side_sum_ok src (s + 1) w Iw) by (intros k Hk; replace (s + 1 + k) with (s + (k + 1)) by lia; apply L; lia).
  rewrite (side_sum_ok src (s - h) h Ih) by (intros k Hk; replace (s - h + k) with (s + (k - h)) by lia; apply L; lia).
  rewrite side_left by lia.
  assert (T : sum_over w (fun k => src (s + 1 + k)) = sum_over w (fun x => e (x + 1))) by (apply sum_ext; intros; unfold e; f_equal; lia). rewrite T.
  set (v := if _ && _ then _ else _).
  assert (Ev : v = dc_rule 8 e w h top left).
  { unfold v, mode_ex. destruct (flags top left) as [Ft Fl]. rewrite Ft, Fl. unfold dc_rule. cbv zeta.
    destruct (log_size w Iw) as [Pw Lw]. destruct (log_size h Ih) as [Ph Lh].
    destruct top, left; cbn [andb]; rewrite ?Z.shiftr_div_pow2 by lia; change (2 ^ 1) with 2; change (2 ^ 9) with 512; rewrite ?Pw, ?Ph; reflexivity. }
  clearbody v. subst v.
  assert (R : 0 <= dc_rule 8 e w h top left <= 255).
  { apply (dc_range 8 8 src s ltac:(lia) w h top left); [lia|lia|shapes Sh; lia|exact L]. }
  set (v := dc_rule 8 e w h top left) in *. clearbody v.
  apply rows_predict0; [lia|lia|]. intros y m Hy.
  destruct (Z.eqb_spec w 8) as [->|N8]; [apply byte_row0; [exact R|reflexivity]|].
  destruct (Z.eqb_spec w 4) as [->|N4]; [apply byte_row0; [exact R|reflexivity]|].
  intros j. rewrite (sloop_fill (w - 8) 16 (d + y * st) (fun x => v)); [|lia|cbn [In] in Iw; lia|intros x u Hx; apply byte_row; [exact R|reflexivity]].
  f_equal. cbn [In] in Iw. destruct Iw as [<-|[<-|[<-|[<-|[<-|[]]]]]]; try reflexivity; congruence.
Qed.
Lemma dc_avx_ok junk w h top left : intra_shape w h -> w <= st -> (forall k, - h <= k <= w -> 0 <= e k <= 255) ->
  predicts w h d st dst (dc_avx src s d st w h junk 128 (mode_ex top left) dst) (fun x y => dc_rule 8 e w h top left).
Proof.
  intros Sh W L. pose proof (shape_pos w h Sh) as B. destruct (shape_sides w h Sh) as [Iw Ih].
  unfold dc_avx. destruct ((w <=? 8) && (h <=? 8)); [apply dc_sse_ok; assumption|]. cbv zeta.
  pose proof (dc_value_eq 8 8 src s ltac:(lia) w h top left ltac:(lia) ltac:(lia)) as Ev. unfold dc_value in Ev. cbv zeta in Ev.
  change (Z.shiftl 1 (8 - 1)) with 128 in Ev. unfold mode_ex. rewrite Ev. clear Ev.
  fold e.
  assert (R : 0 <= dc_rule 8 e w h top left <= 255).
  { apply (dc_range 8 8 src s ltac:(lia) w h top left); [lia|lia|shapes Sh; lia|exact L]. }
  set (v := dc_rule 8 e w h top left) in *. clearbody v.
  apply rows_predict0; [lia|lia|]. intros y m Hy j.
  destruct (Z.leb_spec 32 w) as [G32|G32].
  - destruct (Z.ltb_spec 32 w) as [G|G].
    + assert (w = 64) as -> by (cbn [In] in Iw; lia).
      unfold store32. rewrite (byte_row 32 _ _ 32 v (fun x => v)) by (exact R || reflexivity).
      rewrite (fill_ext _ _ _ _ _ _ (byte_row0 32 m (d + y * st) v (fun x => v) R ltac:(reflexivity))). apply fill_fill. lia.
    + assert (w = 32) as -> by lia. apply byte_row0; [exact R|reflexivity].
  - assert (C : w = 4 \/ w = 8 \/ w = 16) by (cbn [In] in Iw; lia).
    destruct C as [->|[->| ->]]; cbn [Z.land Pos.land Z.of_N Pos.Nsucc_double Pos.Ndouble negb Z.eqb].
    + change (sloop (4 - 15) 16 (fun j m0 => store16 m0 (d + y * st + j) (set1_epi8 v)) m) with m. change (16 * ((Z.max 0 (4 - 15) + 15) / 16)) with 0.
      apply (mask_fill junk 3 m (d + y * st) 0 (set1_epi8 v) (fun x => v)); [lia|]. intros k Hk. unfold set1_epi8, mk8. apply to_u8_id. unfold byte. lia.
    + change (sloop (8 - 15) 16 (fun j m0 => store16 m0 (d + y * st + j) (set1_epi8 v)) m) with m. change (16 * ((Z.max 0 (8 - 15) + 15) / 16)) with 0.
      apply (mask_fill junk 7 m (d + y * st) 0 (set1_epi8 v) (fun x => v)); [lia|]. intros k Hk. unfold set1_epi8, mk8. apply to_u8_id. unfold byte. lia.
    + apply byte_row0; [exact R|reflexivity].
Qed.
End DC.
