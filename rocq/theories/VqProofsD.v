(** The vector bilinear predictors: the rows. *)
From Coq Require Import ZArith List Bool Lia.
From Verif Require Import CBase MemModel MemProofs SaoModel SaoProofs AlfSpec McSpec IprModel IprSpec IprProofs IprProofsD IprProofsE IprProofsG VxModelBase VxModel VdModel ViModel VjModel VpModelA
  VxProofs VxProofsB ViProofs ViProofsB ViProofsC VjProofs VjProofsB VqModel VqProofs VqProofsB VqProofsC.
Import ListNotations.
Open Scope Z_scope.

(** ** Double words modulo 2^32 *)
Lemma to_i32_cong a k : to_i32 (a + k * 4294967296) = to_i32 a.
Proof. unfold to_i32. f_equal. replace (a + k * 4294967296 + 2147483648) with (a + 2147483648 + k * 4294967296) by lia. apply Z_mod_plus_full. Qed.
Lemma to_i32_form a : exists k, to_i32 a = a + k * 4294967296.
Proof. exists (- ((a + 2147483648) / 4294967296)). unfold to_i32. rewrite Z.mod_eq by lia. lia. Qed.
Lemma to_i32_add a b : to_i32 (to_i32 a + to_i32 b) = to_i32 (a + b).
Proof. destruct (to_i32_form a) as [k ->]. destruct (to_i32_form b) as [l ->]. replace (a + k * 4294967296 + (b + l * 4294967296)) with (a + b + (k + l) * 4294967296) by ring. apply to_i32_cong. Qed.
Lemma to_i32_mul a b : to_i32 (to_i32 a * to_i32 b) = to_i32 (a * b).
Proof.
  destruct (to_i32_form a) as [k ->]. destruct (to_i32_form b) as [l ->].
  replace ((a + k * 4294967296) * (b + l * 4294967296)) with (a * b + (a * l + k * b + k * l * 4294967296) * 4294967296) by ring. apply to_i32_cong.
Qed.
Lemma i32_set v i : i32_of (set1_epi32 v) i = to_i32 v.
Proof. unfold set1_epi32. rewrite i32_mk32. reflexivity. Qed.
Lemma i32_mullo a b i : i32_of (mullo_epi32 a b) i = to_i32 (i32_of a i * i32_of b i).
Proof. unfold mullo_epi32. rewrite i32_mk32. reflexivity. Qed.
Lemma i32_slli a n i : 0 <= n -> i32_of (slli_epi32 a n) i = to_i32 (i32_of a i * 2 ^ n).
Proof. intros H. unfold slli_epi32. rewrite i32_mk32, Z.shiftl_mul_pow2 by exact H. reflexivity. Qed.
Lemma i32_cvt a i : i32_of (cvtepi16_epi32 a) i = i16_of a i.
Proof. unfold cvtepi16_epi32. rewrite i32_mk32. apply to_i32_id. pose proof (i16_range a i). lia. Qed.
Lemma iota4 i : 0 <= i < 4 -> nth (Z.to_nat i) [0; 1; 2; 3] 0 = i.
Proof. intros H. assert (i = 0 \/ i = 1 \/ i = 2 \/ i = 3) as E by lia. repeat (destruct E as [->|E]; [reflexivity|]). subst i. reflexivity. Qed.
Lemma i16_srli8 a i : 0 <= i < 4 -> i16_of (srli_si128 a 8) i = i16_of a (4 + i).
Proof. intros H. unfold i16_of. rewrite u16_srli8 by exact H. reflexivity. Qed.
Lemma i16_extract a i : i16_of (extracti128_1 a) i = i16_of a (8 + i).
Proof. apply word_eq; unfold extracti128_1; f_equal; lia. Qed.
Lemma i32_words r i : i32_of r i = to_i32 (u16_of r (2 * i) + 65536 * u16_of r (2 * i + 1)).
Proof.
  unfold i32_of, u16_of. f_equal. replace (2 * (2 * i)) with (4 * i) by lia. replace (2 * (2 * i + 1)) with (4 * i + 2) by lia.
  replace (4 * i + 2 + 1) with (4 * i + 3) by lia. lia.
Qed.
Lemma wide_eq (r M : reg) i j : u16_of r (2 * i) = u16_of M j -> u16_of r (2 * i + 1) = 0 -> 0 <= u16_of M j <= 65535 -> i32_of r i = u16_of M j.
Proof. intros E1 E2 B. rewrite i32_words, E1, E2. rewrite Z.mul_0_r, Z.add_0_r. apply to_i32_id. lia. Qed.
Ltac words := match goal with |- u16_of ?r ?a = u16_of ?M ?b => change (M (2 * b) + 256 * M (2 * b + 1) = M (2 * b) + 256 * M (2 * b + 1)); reflexivity | |- u16_of _ _ = 0 => reflexivity end.
Lemma cases_upto n (P : Z -> Prop) : (forall k, (k < n)%nat -> P (Z.of_nat k)) -> forall i, 0 <= i < Z.of_nat n -> P i.
Proof. intros H i Hi. rewrite <- (Z2Nat.id i) by lia. apply H. lia. Qed.
Lemma unlo_wide M i : 0 <= i < 4 -> 0 <= u16_of M i <= 65535 -> i32_of (unpacklo_epi16 M setzero) i = u16_of M i.
Proof.
  intros Hi B. apply wide_eq; [| |exact B]; clear B; revert i Hi.
  - apply (cases_upto 4). intros k Hk. do 4 (destruct k as [|k]; [reflexivity|]). lia.
  - apply (cases_upto 4). intros k Hk. do 4 (destruct k as [|k]; [reflexivity|]). lia.
Qed.
Lemma unhi_wide M i : 0 <= i < 4 -> 0 <= u16_of M (4 + i) <= 65535 -> i32_of (unpackhi_epi16 M setzero) i = u16_of M (4 + i).
Proof.
  intros Hi B. apply wide_eq; [| |exact B]; clear B; revert i Hi.
  - apply (cases_upto 4). intros k Hk. do 4 (destruct k as [|k]; [reflexivity|]). lia.
  - apply (cases_upto 4). intros k Hk. do 4 (destruct k as [|k]; [reflexivity|]). lia.
Qed.
Lemma perm_lo_wide M i : 0 <= i < 8 -> 0 <= u16_of M i <= 65535 -> i32_of (permute2x128 (unpacklo_epi16 M setzero) (unpackhi_epi16 M setzero) 32) i = u16_of M i.
Proof.
  intros Hi B. apply wide_eq; [| |exact B]; clear B; revert i Hi.
  - apply (cases_upto 8). intros k Hk. do 8 (destruct k as [|k]; [reflexivity|]). lia.
  - apply (cases_upto 8). intros k Hk. do 8 (destruct k as [|k]; [reflexivity|]). lia.
Qed.
Lemma perm_hi_wide M i : 0 <= i < 8 -> 0 <= u16_of M (8 + i) <= 65535 -> i32_of (permute2x128 (unpacklo_epi16 M setzero) (unpackhi_epi16 M setzero) 49) i = u16_of M (8 + i).
Proof.
  intros Hi B. apply wide_eq; [| |exact B]; clear B; revert i Hi.
  - apply (cases_upto 8). intros k Hk. do 8 (destruct k as [|k]; [reflexivity|]). lia.
  - apply (cases_upto 8). intros k Hk. do 8 (destruct k as [|k]; [reflexivity|]). lia.
Qed.
Lemma u16_loadw m p i : 0 <= m (p + i) <= 65535 -> u16_of (loadw m p) i = m (p + i).
Proof. intros H. unfold loadw. rewrite u16_mk16. apply Z.mod_small. lia. Qed.
(** Packing twice. *)
Lemma pack_twice a b Z0 Ln j : 0 <= j < 8 -> packus_epi16 (packus_epi32 a b) Z0 (16 * Ln + j) =
  sat_u8 (to_i16 (sat_u16 (if j <? 4 then i32_of a (4 * Ln + j) else i32_of b (4 * Ln + (j - 4))))).
Proof.
  intros H. destruct (packus_at (packus_epi32 a b) Z0 Ln j H) as [-> _]. f_equal. unfold packus_epi32. rewrite i16_mk16. f_equal. cbv zeta.
  rewrite lane_div8, lane_mod8 by lia. destruct (j <? 4); [reflexivity|]. do 2 f_equal. lia.
Qed.
Lemma sat_twice v : -32768 <= v <= 32767 -> sat_u8 (to_i16 (sat_u16 v)) = clamp 0 255 v.
Proof. intros H. rewrite to_i16_id; unfold sat_u8, sat_u16, clamp; lia. Qed.
(** Where [two_quads] leaves its bytes. *)
Definition layout (P : Z) (R : reg) (F : Z -> Z) : Prop :=
  forall Ln j, 0 <= Ln -> 0 <= j < 4 -> 4 * Ln + j < P -> R (16 * Ln + j) = F (4 * Ln + j) /\ R (16 * Ln + (4 + j)) = F (P + (4 * Ln + j)).
Definition arr (P : Z) (t : Z -> reg) (a b : Z) (f : Z -> Z) : Prop := forall x, a <= x < b -> i32_of (t (x / P)) (x mod P) = f x.
Lemma arr_at P t a b f i k : 0 < P -> arr P t a b f -> 0 <= k < P -> a <= P * i + k < b -> i32_of (t i) k = f (P * i + k).
Proof.
  intros HP H Hk Hi. specialize (H (P * i + k) Hi).
  replace ((P * i + k) / P) with i in H by (apply Z.div_unique with k; lia). replace ((P * i + k) mod P) with k in H by (apply Z.mod_unique with i; lia). exact H.
Qed.
Lemma arr_step P K t r1 r2 f : 0 < P -> 0 <= K -> arr P t 0 (2 * P * K) f -> (forall k, 0 <= k < P -> i32_of r1 k = f (2 * P * K + k)) ->
  (forall k, 0 <= k < P -> i32_of r2 k = f (2 * P * K + P + k)) -> arr P (rput (rput t (2 * K) r1) (2 * K + 1) r2) 0 (2 * P * K + 2 * P) f.
Proof.
  intros HP HK H H1 H2 x Hx. pose proof (Z.div_mod x P ltac:(lia)) as D. pose proof (Z.mod_pos_bound x P HP) as M. unfold rput.
  destruct (Z.eqb_spec (x / P) (2 * K + 1)) as [E|N]; [rewrite H2 by exact M; f_equal; rewrite E in D; lia|].
  destruct (Z.eqb_spec (x / P) (2 * K)) as [E|N']; [rewrite H1 by exact M; f_equal; rewrite E in D; lia|].
  apply H. split; [lia|]. assert (x / P < 2 * K + 2) by (apply Z.div_lt_upper_bound; lia). assert (P * (x / P) <= P * (2 * K - 1)) by (apply Z.mul_le_mono_nonneg_l; lia). lia.
Qed.
Lemma arr_rest P K t r1 r2 f b : 0 < P -> arr P t (2 * P * K) b f -> arr P (rput (rput t (2 * K) r1) (2 * K + 1) r2) (2 * P * K + 2 * P) b f.
Proof.
  intros HP H x Hx. unfold rput. assert (2 * K + 2 <= x / P) by (apply Z.div_le_lower_bound; lia).
  destruct (Z.eqb_spec (x / P) (2 * K + 1)); [lia|]. destruct (Z.eqb_spec (x / P) (2 * K)); [lia|]. apply H. lia.
Qed.

Section Rows.
Variables (src : mem) (s d st : Z) (dst : mem) (w h : Z).
Let e (k : Z) : Z := src (s + k).
Hypothesis Sh : intra_shape w h.
Hypothesis W : w <= st.
Hypothesis Le : forall k, - h <= k <= w -> 0 <= e k <= 255.
Variable l : lines.
Hypothesis Hl : lines_hold src s w h l.
Notation colv := (col src s h).
Notation numv := (num src s w h).
Notation rulev := (bilinear_rule 8 e w h).

Definition sums (P X y : Z) (r : reg) : Prop := forall k, 0 <= k < P -> i32_of r k = to_i32 ((X + k) * row_add h l y + row_val w h l y).
Lemma sums_start P iota y : 0 <= P -> (forall i, 0 <= i < P -> nth (Z.to_nat i) iota 0 = i) ->
  sums P 0 y (add_epi32 (mullo_epi32 (setr_epi32 iota) (set1_epi32 (row_add h l y))) (set1_epi32 (row_val w h l y))).
Proof.
  intros HP Hi k Hk. rewrite i32_add, i32_mullo, !i32_set. unfold setr_epi32. rewrite i32_mk32, Hi by exact Hk. rewrite to_i32_mul, to_i32_add. reflexivity.
Qed.
Lemma sums_next P X y r : sums P X y r -> sums P (X + P) y (add_epi32 r (mullo_epi32 (set1_epi32 P) (set1_epi32 (row_add h l y)))).
Proof. intros H k Hk. rewrite i32_add, i32_mullo, !i32_set, H, to_i32_mul, to_i32_add by exact Hk. f_equal. ring. Qed.
Lemma lane_out P X y A r k : sums P X y r -> 0 <= k < P -> 0 <= X + k < w -> 0 <= y < h -> i32_of A k = colv (X + k) (y + 1) ->
  i32_of (srai_epi32 (add_epi32 (slli_epi32 A (tab_log2size w)) r) (sxy w h)) k = Z.shiftr (numv (X + k) y) (sxy w h).
Proof.
  intros H Hk HX Hy HA. destruct (shape_sides w h Sh) as [Iw Ih]. destruct (log_size w Iw) as [Pw Lw]. destruct (log_size h Ih) as [Ph Lh].
  rewrite i32_srai by (unfold sxy; lia). f_equal. rewrite i32_add, i32_slli by lia. rewrite H, HA, Pw, to_i32_add by exact Hk.
  rewrite (row_split src s w h Sh l (X + k) y Hl Hy). rewrite to_i32_id; [ring|].
  replace (colv (X + k) (y + 1) * w) with (w * colv (X + k) (y + 1)) by ring. rewrite <- (row_split src s w h Sh l (X + k) y Hl Hy).
  apply (num_small src s w h Sh Le (X + k) y HX Hy).
Qed.
Lemma out_rule x y : 0 <= x < w -> 0 <= y < h -> sat_u8 (to_i16 (sat_u16 (Z.shiftr (numv x y) (sxy w h)))) = rulev x y.
Proof.
  intros Hx Hy. pose proof (num_small src s w h Sh Le x y Hx Hy) as [_ B]. rewrite sat_twice by lia. apply (num_rule src s w h Sh x y Hx Hy).
Qed.
Lemma quads_ok P X y A B r : P = 4 \/ P = 8 -> sums P X y r -> 0 <= X -> X + 2 * P <= w -> 0 <= y < h ->
  (forall k, 0 <= k < P -> i32_of A k = colv (X + k) (y + 1)) -> (forall k, 0 <= k < P -> i32_of B k = colv (X + P + k) (y + 1)) ->
  let R := two_quads w h A B r (mullo_epi32 (set1_epi32 P) (set1_epi32 (row_add h l y))) in
  layout P (fst R) (fun k => rulev (X + k) y) /\ sums P (X + 2 * P) y (snd R).
Proof.
  intros HP H HX Hw Hy HA HB. unfold two_quads. cbv zeta. cbn [fst snd].
  pose proof (sums_next P X y r H) as H'. split.
  - intros Ln j HL Hj Hb. rewrite !pack_twice by lia. destruct (Z.ltb_spec j 4), (Z.ltb_spec (4 + j) 4); try lia. replace (4 + j - 4) with j by lia. split.
    + rewrite (lane_out P X y A r (4 * Ln + j) H) by (first [lia|apply HA; lia]). apply out_rule; lia.
    + rewrite (lane_out P (X + P) y B _ (4 * Ln + j) H') by (first [lia|apply HB; lia]). rewrite out_rule by lia. f_equal. lia.
  - replace (X + 2 * P) with (X + P + P) by lia. apply sums_next. exact H'.
Qed.

(** Widths 4 and 8: the sums of the columns are words of one register. *)
Definition cols (y : Z) (r : reg) : Prop := forall k, 0 <= k < w -> i16_of r k = colv k y.
Lemma cols_next y r pT : 0 <= y < h -> cols y r -> (forall k, 0 <= k < w -> i16_of pT k = l_T l k) -> cols (y + 1) (add_epi16 r pT).
Proof.
  intros Hy H HT k Hk. rewrite i16_add, H, HT, (lh_T _ _ _ _ _ Hl) by exact Hk.
  replace (colv k y + (src (s + - h) - src (s + (k + 1)))) with (colv k (y + 1)) by (unfold col; ring).
  apply to_i16_id. apply (col_small src s w h Sh Le); lia.
Qed.
Lemma T_range k : 0 <= k < w -> -32768 <= l_T l k <= 32767.
Proof. intros Hk. rewrite (lh_T _ _ _ _ _ Hl) by exact Hk. fold e. pose proof (shape_pos w h Sh). pose proof (Le (- h) ltac:(lia)). pose proof (Le (k + 1) ltac:(lia)). unfold e in *. lia. Qed.
Lemma top_range k : 0 <= k < w -> 0 <= l_top l k <= 32767.
Proof.
  intros Hk. rewrite (lh_top _ _ _ _ _ Hl) by exact Hk. fold e. pose proof (shape_pos w h Sh). pose proof (Le (k + 1) ltac:(lia)) as B. unfold e in B.
  split; [apply Z.mul_nonneg_nonneg; lia|]. assert (h * src (s + (k + 1)) <= 64 * 255) by (apply Z.mul_le_mono_nonneg; lia). lia.
Qed.
Lemma load_T k : 0 <= k < w -> i16_of (loadw (l_T l) 0) k = l_T l k.
Proof. intros Hk. pose proof (T_range k Hk). rewrite i16_loadw; rewrite Z.add_0_l; [reflexivity|assumption]. Qed.
Lemma cols_start : cols 0 (loadw (l_top l) 0).
Proof.
  intros k Hk. pose proof (top_range k Hk). rewrite i16_loadw; rewrite Z.add_0_l; [|lia]. rewrite (lh_top _ _ _ _ _ Hl) by exact Hk. unfold col. lia.
Qed.
Lemma loadlw_i16 m k : 0 <= k < 4 -> i16_of (loadlw m 0) k = i16_of (loadw m 0) k.
Proof. intros H. apply word_eq; unfold loadlw; match goal with |- (if ?b then _ else _) = _ => destruct b eqn:E; [reflexivity|apply Z.ltb_ge in E; lia] end. Qed.

Lemma narrow_out y T k : 0 <= y < h -> cols (y + 1) T -> 0 <= k < w -> forall P r, sums P 0 y r -> k < P ->
  i32_of (srai_epi32 (add_epi32 (slli_epi32 (cvtepi16_epi32 T) (tab_log2size w)) r) (sxy w h)) k = Z.shiftr (numv k y) (sxy w h).
Proof.
  intros Hy HT Hk P r H HP. pose proof (lane_out P 0 y (cvtepi16_epi32 T) r k H ltac:(lia) ltac:(lia) Hy) as G. rewrite Z.add_0_l in G. apply G.
  rewrite i32_cvt. apply HT. exact Hk.
Qed.
End Rows.

Section Results.
Variables (src : mem) (s d st : Z) (dst : mem) (w h : Z).
Let e (k : Z) : Z := src (s + k).
Hypothesis Sh : intra_shape w h.
Hypothesis W : w <= st.
Hypothesis Le : forall k, - h <= k <= w -> 0 <= e k <= 255.
Notation colv := (col src s h).
Notation numv := (num src s w h).
Notation rulev := (bilinear_rule 8 e w h).

(** Widths from 16: generic in the number [P] of double words in a register. *)
Lemma wide_rows P lp iota l TT PTT (emit : mem -> Z -> reg -> mem) : (P = 4 /\ lp = 2 \/ P = 8 /\ lp = 3) -> lines_hold src s w h l ->
  (forall i, 0 <= i < P -> nth (Z.to_nat i) iota 0 = i) -> 16 <= w ->
  arr P TT 0 w (fun x => colv x 0) -> arr P PTT 0 w (fun x => src (s + - h) - src (s + (x + 1))) ->
  (forall m q x R F, layout P R (fun k => F (x + k)) -> forall j, emit m (q + x) R j = fill q x (x + 2 * P) F m j) ->
  predicts w h d st dst (snd (floop 0 h (fun y (t : (Z -> reg) * mem) =>
      let '(TT, m) := t in
      let ADD := set1_epi32 (row_add h l y) in
      let T3 := mullo_epi32 (set1_epi32 P) ADD in
      let ADD := mullo_epi32 (setr_epi32 iota) ADD in
      let ADD := add_epi32 ADD (set1_epi32 (row_val w h l y)) in
      let '(_, TT, m) := sloop w (2 * P) (fun x (t : reg * (Z -> reg) * mem) =>
        let '(ADD, TT, m) := t in
        let idx := Z.shiftr x lp in
        let TT := rput TT idx (add_epi32 (TT idx) (PTT idx)) in
        let TT := rput TT (idx + 1) (add_epi32 (TT (idx + 1)) (PTT (idx + 1))) in
        let '(T1, ADD) := two_quads w h (TT idx) (TT (idx + 1)) ADD T3 in
        (ADD, TT, emit m (d + y * st + x) T1)) (ADD, TT, m) in
      (TT, m)) (TT, dst))) rulev.
Proof.
  intros HP Hl Hi W16 H0 HPT Hem. pose proof (shape_pos w h Sh) as B. destruct (shape_sides w h Sh) as [Iw Ih].
  assert (P0 : 0 < P) by lia. assert (P48 : P = 4 \/ P = 8) by lia.
  assert (MW : 2 * P * ((w + 2 * P - 1) / (2 * P)) = w).
  { clear - Iw HP W16. cbn [In] in Iw. destruct HP as [[-> _]|[-> _]]; destruct Iw as [<-|[<-|[<-|[<-|[<-|[]]]]]]; try reflexivity; lia. }
  apply (rows_predict (fun y (t : Z -> reg) => arr P t 0 w (fun x => colv x y))); [lia|lia|exact H0|].
  intros y TT0 m Hy HT. cbv zeta beta iota.
  match goal with |- context [sloop w (2 * P) ?f ?t0] =>
    pose proof (sloop_inv (fun X (t : reg * (Z -> reg) * mem) => sums w h l P X y (fst (fst t)) /\ arr P (snd (fst t)) 0 X (fun x => colv x (y + 1)) /\ arr P (snd (fst t)) X w (fun x => colv x y) /\
       forall j, snd t j = fill (d + y * st) 0 X (fun x => rulev x y) m j) w (2 * P) f t0) as I;
    destruct (sloop w (2 * P) f t0) as [[AD1 TT1] m1] end.
  cbn [fst snd] in I |- *. rewrite MW in I.
  destruct I as (_ & I1 & _ & I2); [lia|lia| | |split; [exact I1|exact I2]].
  - split; [apply sums_start; [lia|exact Hi]|]. split; [intros x Hx; lia|]. split; [exact HT|]. intros j. rewrite fill_none by lia. reflexivity.
  - intros K [[AD T] u] HK Hx (J1 & J2 & J3 & J4). cbn [fst snd] in *.
    assert (XW : 2 * P * K + 2 * P <= w).
    { clear - MW Hx P0 HK. set (n := (w + 2 * P - 1) / (2 * P)) in *. assert (K < n) by (apply Z.mul_lt_mono_pos_l with (2 * P); lia).
      assert (2 * P * (K + 1) <= 2 * P * n) by (apply Z.mul_le_mono_nonneg_l; lia). lia. }
    assert (Ix : Z.shiftr (2 * P * K) lp = 2 * K).
    { rewrite Z.shiftr_div_pow2 by lia. destruct HP as [[-> ->]|[-> ->]]; [change (2 ^ 2) with 4; replace (2 * 4 * K) with (2 * K * 4) by ring|change (2 ^ 3) with 8; replace (2 * 8 * K) with (2 * K * 8) by ring]; apply Z.div_mul; lia. }
    rewrite Ix.
    assert (E1 : rput T (2 * K) (add_epi32 (T (2 * K)) (PTT (2 * K))) (2 * K + 1) = T (2 * K + 1)) by (unfold rput; destruct (Z.eqb_spec (2 * K + 1) (2 * K)); [lia|reflexivity]).
    rewrite E1.
    set (r1 := add_epi32 (T (2 * K)) (PTT (2 * K))). set (r2 := add_epi32 (T (2 * K + 1)) (PTT (2 * K + 1))).
    assert (Q1 : rput (rput T (2 * K) r1) (2 * K + 1) r2 (2 * K) = r1).
    { unfold rput. destruct (Z.eqb_spec (2 * K) (2 * K + 1)); [lia|]. rewrite Z.eqb_refl. reflexivity. }
    assert (Q2 : rput (rput T (2 * K) r1) (2 * K + 1) r2 (2 * K + 1) = r2) by (unfold rput; rewrite Z.eqb_refl; reflexivity).
    rewrite Q1, Q2.
    assert (step : forall i k, 0 <= k < P -> 2 * P * K <= P * i + k < w -> i32_of (add_epi32 (T i) (PTT i)) k = colv (P * i + k) (y + 1)).
    { intros i k Hk HX. assert (0 <= 2 * P * K) by (apply Z.mul_nonneg_nonneg; lia). rewrite i32_add. rewrite (arr_at P T (2 * P * K) w _ i k P0 J3 Hk HX). rewrite (arr_at P PTT 0 w _ i k P0 HPT Hk ltac:(lia)).
      pose proof (col_small src s w h Sh Le (P * i + k) (y + 1) ltac:(lia) ltac:(lia)) as C.
      replace (colv (P * i + k) y + (src (s + - h) - src (s + (P * i + k + 1)))) with (colv (P * i + k) (y + 1)) by (unfold col; ring). apply to_i32_id. lia. }
    assert (R1 : forall k, 0 <= k < P -> i32_of r1 k = colv (2 * P * K + k) (y + 1)).
    { intros k Hk. unfold r1. rewrite step by lia. f_equal. ring. }
    assert (R2 : forall k, 0 <= k < P -> i32_of r2 k = colv (2 * P * K + P + k) (y + 1)).
    { intros k Hk. unfold r2. rewrite step by lia. f_equal. ring. }
    assert (K0 : 0 <= 2 * P * K) by (apply Z.mul_nonneg_nonneg; lia).
    pose proof (quads_ok src s w h Sh Le l Hl P (2 * P * K) y r1 r2 AD P48 J1 K0 XW Hy R1 R2) as G. cbv zeta in G.
    destruct (two_quads w h r1 r2 AD (mullo_epi32 (set1_epi32 P) (set1_epi32 (row_add h l y)))) as [T1 AD2]. cbn [fst snd] in *. destruct G as [G1 G2].
    split; [exact G2|]. split; [apply arr_step; assumption|]. split; [apply arr_rest; assumption|].
    intros j. rewrite (Hem u (d + y * st) (2 * P * K) T1 (fun x => rulev x y)) by exact G1. rewrite (fill_ext _ _ _ _ u _ J4). apply fill_fill. lia.
Qed.
Lemma wide_start P (A1 A2 B1 B2 : Z -> reg) lp t0 p0 : (P = 4 /\ lp = 2 \/ P = 8 /\ lp = 3) -> 16 <= w -> forall f g,
  (forall x k, 0 <= x -> x + 2 * P <= w -> 0 <= k < P -> i32_of (A1 x) k = f (x + k) /\ i32_of (A2 x) k = f (x + P + k) /\ i32_of (B1 x) k = g (x + k) /\ i32_of (B2 x) k = g (x + P + k)) ->
  let r := sloop w (2 * P) (fun x (t : (Z -> reg) * (Z -> reg)) => let '(TT, PTT) := t in
    let idx := Z.shiftr x lp in (rput (rput TT idx (A1 x)) (idx + 1) (A2 x), rput (rput PTT idx (B1 x)) (idx + 1) (B2 x))) (t0, p0) in
  arr P (fst r) 0 w f /\ arr P (snd r) 0 w g.
Proof.
  intros HP W16 f g H. destruct (shape_sides w h Sh) as [Iw Ih].
  assert (P0 : 0 < P) by lia.
  assert (MW : 2 * P * ((w + 2 * P - 1) / (2 * P)) = w).
  { clear - Iw HP W16. cbn [In] in Iw. destruct HP as [[-> _]|[-> _]]; destruct Iw as [<-|[<-|[<-|[<-|[<-|[]]]]]]; try reflexivity; lia. }
  cbv zeta.
  match goal with |- context [sloop w (2 * P) ?F ?T] => pose proof (sloop_inv (fun X (t : (Z -> reg) * (Z -> reg)) => arr P (fst t) 0 X f /\ arr P (snd t) 0 X g) w (2 * P) F T) as I end.
  rewrite MW in I. apply I; [lia|lia|split; intros x Hx; lia|]. clear I.
  intros K [T U] HK Hx [J1 J2]. cbn [fst snd] in *.
  assert (XW : 2 * P * K + 2 * P <= w).
  { clear - MW Hx P0 HK. set (n := (w + 2 * P - 1) / (2 * P)) in *. assert (K < n) by (apply Z.mul_lt_mono_pos_l with (2 * P); lia).
    assert (2 * P * (K + 1) <= 2 * P * n) by (apply Z.mul_le_mono_nonneg_l; lia). lia. }
  assert (Ix : Z.shiftr (2 * P * K) lp = 2 * K).
  { rewrite Z.shiftr_div_pow2 by lia. destruct HP as [[-> ->]|[-> ->]]; [change (2 ^ 2) with 4; replace (2 * 4 * K) with (2 * K * 4) by ring|change (2 ^ 3) with 8; replace (2 * 8 * K) with (2 * K * 8) by ring]; apply Z.div_mul; lia. }
  rewrite Ix. assert (K0 : 0 <= 2 * P * K) by (apply Z.mul_nonneg_nonneg; lia).
  split; (apply arr_step; [exact P0|exact HK|assumption| |]); intros k Hk; apply (H (2 * P * K) k K0 XW Hk).
Qed.
End Results.
