(** The vector bilinear predictors: the five lines they prepare. *)
From Coq Require Import ZArith List Bool Lia.
From Verif Require Import CBase MemModel MemProofs SaoModel SaoProofs AlfSpec McSpec IprModel IprSpec IprProofs IprProofsD IprProofsE IprProofsG VxModelBase VxModel VdModel ViModel VjModel VpModelA
  VxProofs VxProofsB ViProofs ViProofsB ViProofsC VjProofs VjProofsB VqModel VqProofs VqProofsB.
Import ListNotations.
Open Scope Z_scope.

Lemma storew_at n m p r q : storew n m p r q = if (p <=? q) && (q <? p + n) then i16_of r (q - p) else m q.
Proof. reflexivity. Qed.
Lemma ceil_ge b step : 0 < step -> b <= step * ((b + step - 1) / step).
Proof. intros H. pose proof (Z.mul_div_le (b + step - 1) step H). pose proof (Z.mod_pos_bound (b + step - 1) step H). pose proof (Z.div_mod (b + step - 1) step ltac:(lia)). lia. Qed.

Lemma differences_ok n b sh top T0 len : 0 < n -> 0 <= len -> 0 <= b <= 255 -> 0 <= sh <= 6 -> (forall x, 0 <= x < len -> 0 <= top x <= 255) ->
  forall x, 0 <= x < len -> fst (differences n b sh top T0 len) x = top x * 2 ^ sh /\ snd (differences n b sh top T0 len) x = b - top x.
Proof.
  intros Hn Hl Hb Hsh Ht.
  assert (P : 2 ^ sh <= 64) by (change 64 with (2 ^ 6); apply Z.pow_le_mono_r; lia).
  assert (P0 : 0 < 2 ^ sh) by (apply Z.pow_pos_nonneg; lia).
  pose proof (ceil_ge len n Hn) as C. unfold differences.
  match goal with |- context [sloop len n ?f (top, T0)] =>
    pose proof (sloop_inv (fun X (t : mem * mem) => forall x, 0 <= x < len ->
      (x < X -> fst t x = top x * 2 ^ sh /\ snd t x = b - top x) /\ (X <= x -> fst t x = top x)) len n f (top, T0) Hn Hl) as I end.
  cbv beta in I. cut (forall x, 0 <= x < len -> x < n * ((len + n - 1) / n) -> fst (sloop len n (fun x t => let '(top0, pT) := t in (storew n top0 x (slli_epi16 (loadw top0 x) sh), storew n pT x (sub_epi16 (set1_epi16 b) (loadw top0 x)))) (top, T0)) x = top x * 2 ^ sh /\ snd (sloop len n (fun x t => let '(top0, pT) := t in (storew n top0 x (slli_epi16 (loadw top0 x) sh), storew n pT x (sub_epi16 (set1_epi16 b) (loadw top0 x)))) (top, T0)) x = b - top x).
  { intros G x Hx. apply G; [exact Hx|lia]. }
  intros x Hx Hx2. apply I; [| |exact Hx|exact Hx2].
  - intros x' Hx'. cbn [fst snd]. split; [lia|reflexivity].
  - clear x Hx Hx2 I. intros k [u v] Hk Hkl H x Hx. destruct (H x Hx) as [H1 H2]. cbn [fst snd] in *. cbv zeta. cbn [fst snd].
    rewrite !storew_at. pose proof (Ht x Hx) as Bx.
    destruct (Z.leb_spec (n * k) x), (Z.ltb_spec x (n * k + n)); cbn [andb].
    + specialize (H2 ltac:(lia)). split; [intros _|lia].
      assert (Lw : i16_of (loadw u (n * k)) (x - n * k) = top x).
      { rewrite i16_loadw; replace (n * k + (x - n * k)) with x by lia; rewrite H2; [reflexivity|lia]. }
      split.
      * rewrite i16_slli by lia. rewrite Lw. apply to_i16_id. split; [assert (0 <= top x * 2 ^ sh) by (apply Z.mul_nonneg_nonneg; lia); lia|].
        assert (top x * 2 ^ sh <= 255 * 64) by (apply Z.mul_le_mono_nonneg; lia). lia.
      * rewrite i16_sub, Lw, i16_set1 by lia. apply to_i16_id. lia.
    + split; [lia|intros _; apply H2; lia].
    + split; [intros _; apply H1; lia|lia].
    + split; lia.
Qed.
Lemma multiples_ok n h c iota wy0 : 0 < n <= 16 -> 0 <= h -> (forall i, 0 <= i < n -> nth (Z.to_nat i) iota 0 = i) ->
  (forall y, 0 <= y < h -> -32768 <= y * c <= 32767) -> forall y, 0 <= y < h -> multiples h n c iota wy0 y = y * c.
Proof.
  intros Hn Hh Hi Hc. pose proof (ceil_ge h n ltac:(lia)) as C. unfold multiples.
  match goal with |- context [sloop h n ?f ?t0] =>
    pose proof (sloop_inv (fun X (t : reg * mem) => (forall i, 0 <= i < n -> i16_of (fst t) i = to_i16 ((X + i) * c)) /\
      forall y, 0 <= y < h -> y < X -> snd t y = y * c) h n f t0 ltac:(lia) Hh) as I end.
  cbv beta in I. destruct I as [_ I].
  - cbn [fst snd]. split; [|lia]. intros i H. rewrite i16_mullo, i16_set. unfold setr_epi16. rewrite i16_mk16, Hi by exact H. rewrite to_i16_mul. f_equal. ring.
  - intros k [T u] Hk Hkl [H1 H2]. cbn [fst snd] in *. split.
    + intros i H. rewrite i16_add, i16_set, H1, to_i16_add by exact H. f_equal. ring.
    + intros y Hy HX. rewrite storew_at. destruct (Z.leb_spec (n * k) y), (Z.ltb_spec y (n * k + n)); cbn [andb]; try lia.
      * rewrite H1 by lia. replace (n * k + (y - n * k)) with y by lia. apply to_i16_id, Hc, Hy.
      * apply H2; lia.
  - intros y Hy. apply I; [exact Hy|lia].
Qed.
Lemma left_column_ok src s h a0 : 0 <= h -> forall y, 0 <= y < h -> left_column src s h a0 y = src (s - 1 - y).
Proof.
  intros Hh. unfold left_column.
  apply (floop_inv (fun Y m => forall y, 0 <= y < Y -> m y = src (s - 1 - y))); [exact Hh|intros; lia|].
  intros Y m HY H y Hy. destruct (Z.eq_dec y Y) as [->|N]; [apply upd_same|]. rewrite upd_other by lia. apply H. lia.
Qed.
(** The samples above, widened. *)
Lemma cases16 (P : Z -> Prop) : (forall k, (k < 16)%nat -> P (Z.of_nat k)) -> forall i, 0 <= i < 16 -> P i.
Proof. intros H i Hi. rewrite <- (Z2Nat.id i) by lia. apply H. lia. Qed.
Lemma widen_lo (X : reg) i : 0 <= i < 16 -> u16_of (permute2x128 (unpacklo_epi8 X setzero) (unpackhi_epi8 X setzero) 32) i = X i.
Proof.
  revert i. apply cases16. intros k Hk. unfold u16_of.
  do 16 (destruct k as [|k]; [match goal with |- ?a + 256 * ?b = ?c => change b with 0; change a with c end; lia|]). lia.
Qed.
Lemma widen_hi (X : reg) i : 0 <= i < 16 -> u16_of (permute2x128 (unpacklo_epi8 X setzero) (unpackhi_epi8 X setzero) 49) i = X (16 + i).
Proof.
  revert i. apply cases16. intros k Hk. unfold u16_of.
  do 16 (destruct k as [|k]; [match goal with |- ?a + 256 * ?b = ?c => change b with 0; change a with c end; lia|]). lia.
Qed.
(** Two registers of [n] words at a time. *)
Lemma tops_ok n src p w m0 (A B : mem -> Z -> reg) : 0 < n -> 0 <= w -> (forall k, 0 <= k < w -> 0 <= src (p + k) <= 255) ->
  (forall x i, 0 <= i < n -> u16_of (A src x) i = src (p + x + i)) -> (forall x i, 0 <= i < n -> u16_of (B src x) i = src (p + x + n + i)) ->
  forall x, 0 <= x < w -> sloop w (2 * n) (fun x m => storew n (storew n m x (A src x)) (x + n) (B src x)) m0 x = src (p + x).
Proof.
  intros Hn Hw Bs HA HB. pose proof (ceil_ge w (2 * n) ltac:(lia)) as C.
  cut (forall x, 0 <= x < w -> x < 2 * n * ((w + 2 * n - 1) / (2 * n)) -> sloop w (2 * n) (fun x m => storew n (storew n m x (A src x)) (x + n) (B src x)) m0 x = src (p + x)).
  { intros G x Hx. apply G; [exact Hx|lia]. }
  apply (sloop_inv (fun X m => forall x, 0 <= x < w -> x < X -> m x = src (p + x))); [lia|exact Hw|intros; lia|].
  intros k u Hk Hkl H x Hx HX. rewrite !storew_at. pose proof (Bs x Hx).
  destruct (Z.leb_spec (2 * n * k + n) x), (Z.ltb_spec x (2 * n * k + n + n)); cbn [andb]; try lia.
  - unfold i16_of. rewrite HB by lia. replace (p + 2 * n * k + n + (x - (2 * n * k + n))) with (p + x) by lia. apply to_i16_id. lia.
  - destruct (Z.leb_spec (2 * n * k) x), (Z.ltb_spec x (2 * n * k + n)); cbn [andb]; try lia.
    + unfold i16_of. rewrite HA by lia. replace (p + 2 * n * k + (x - 2 * n * k)) with (p + x) by lia. apply to_i16_id. lia.
    + apply H; lia.
Qed.

Lemma corner_range w h a b : intra_shape w h -> 0 <= a <= 255 -> 0 <= b <= 255 -> -510 <= 2 * corner w h a b - a - b <= 1020.
Proof.
  intros Sh La Lb.
  shapes Sh; unfold corner; cbn [Z.eqb Pos.eqb]; try (Z.div_mod_to_equations; lia);
    match goal with |- context [Z.min ?p ?q] => let r := eval vm_compute in (Z.min p q) in change (Z.min p q) with r end;
    match goal with |- context [64 * Zpos ?p] => let r := eval vm_compute in (64 * Zpos p) in change (64 * Zpos p) with r end;
    match goal with |- context [32 * Zpos ?p] => let r := eval vm_compute in (32 * Zpos p) in change (32 * Zpos p) with r end;
    match goal with |- context [?A / ?B] =>
      assert (0 <= A / B) by (apply Z.div_pos; lia); assert (A / B < 511) by (apply Z.div_lt_upper_bound; lia) end; lia.
Qed.

Section Lines.
Variables (src : mem) (s w h : Z).
Let e (k : Z) : Z := src (s + k).
Hypothesis Sh : intra_shape w h.
Hypothesis L : forall k, - h <= k <= w -> 0 <= e k <= 255.
Let c := 2 * corner w h (e w) (e (- h)) - e w - e (- h).
Record lines_hold (l : lines) : Prop := {
  lh_top : forall x, 0 <= x < w -> l_top l x = h * e (x + 1);
  lh_T : forall x, 0 <= x < w -> l_T l x = e (- h) - e (x + 1);
  lh_left : forall y, 0 <= y < h -> l_left l y = w * e (- (y + 1));
  lh_L : forall y, 0 <= y < h -> l_L l y = e w - e (- (y + 1));
  lh_wy : forall y, 0 <= y < h -> l_wy l y = y * c }.
Lemma twist_ok : twist w h (e w) (e (- h)) = c.
Proof.
  destruct (shape_sides w h Sh) as [Iw Ih]. unfold twist. cbv zeta.
  rewrite (corner_eq 8 8 ltac:(lia) w h _ _ Iw Ih). rewrite Z.shiftl_mul_pow2 by lia. change (2 ^ 1) with 2. unfold c. lia.
Qed.
Lemma make_ok n iota top left junk : 0 < n <= 16 -> (forall i, 0 <= i < n -> nth (Z.to_nat i) iota 0 = i) ->
  (forall x, 0 <= x < w -> top x = e (x + 1)) -> (forall y, 0 <= y < h -> left y = e (- (y + 1))) ->
  lines_hold (make_lines w h n iota top left junk).
Proof.
  intros Hn Hi Ht Hl. pose proof (shape_pos w h Sh) as B. destruct (shape_sides w h Sh) as [Iw Ih].
  destruct (log_size w Iw) as [Pw Lw]. destruct (log_size h Ih) as [Ph Lh].
  assert (Ea : top (w - 1) = e w) by (rewrite Ht by lia; f_equal; lia).
  assert (Eb : left (h - 1) = e (- h)) by (rewrite Hl by lia; f_equal; lia).
  unfold make_lines. cbv zeta. rewrite Ea, Eb, twist_ok.
  pose proof (L w ltac:(lia)) as La. pose proof (L (- h) ltac:(lia)) as Lb.
  pose proof (differences_ok n (e (- h)) (tab_log2size h) top (junk 2) w ltac:(lia) ltac:(lia) Lb ltac:(lia) ltac:(intros x Hx; rewrite Ht by exact Hx; apply L; lia)) as D1.
  pose proof (differences_ok n (e w) (tab_log2size w) left (junk 3) h ltac:(lia) ltac:(lia) La ltac:(lia) ltac:(intros x Hx; rewrite Hl by exact Hx; apply L; lia)) as D2.
  destruct (differences n (e (- h)) (tab_log2size h) top (junk 2) w) as [t1 T]. destruct (differences n (e w) (tab_log2size w) left (junk 3) h) as [l1 LL].
  cbn [fst snd] in *. constructor; cbn [l_top l_T l_left l_L l_wy].
  - intros x Hx. destruct (D1 x Hx) as [-> _]. rewrite Ht, Ph by exact Hx. ring.
  - intros x Hx. destruct (D1 x Hx) as [_ ->]. rewrite Ht by exact Hx. ring.
  - intros x Hx. destruct (D2 x Hx) as [-> _]. rewrite Hl, Pw by exact Hx. ring.
  - intros x Hx. destruct (D2 x Hx) as [_ ->]. rewrite Hl by exact Hx. ring.
  - apply multiples_ok; [exact Hn|lia|exact Hi|]. intros y Hy.
    pose proof (twist_bound 8 8 src s ltac:(lia) w h (e w) (e (- h)) 255 Sh La Lb y Hy) as G. fold c in G. lia.
Qed.
Lemma lines_sse_ok junk : lines_hold (lines_sse src s w h junk).
Proof.
  pose proof (shape_pos w h Sh) as B. unfold lines_sse. cbv zeta. apply make_ok; [lia|exact iota8| |].
  - intros x Hx. rewrite (tops_ok 8 src (s + 1) w (junk 0) (fun src x => unpacklo_epi8 (load src (s + 1 + x)) setzero) (fun src x => unpackhi_epi8 (load src (s + 1 + x)) setzero)); [unfold e; f_equal; lia|lia|lia| | | |exact Hx].
    + intros k Hk. replace (s + 1 + k) with (s + (k + 1)) by lia. apply L. lia.
    + intros X i H. rewrite u16_lo by lia. reflexivity.
    + intros X i H. rewrite u16_hi by lia. unfold load. f_equal. lia.
  - intros y Hy. rewrite left_column_ok by lia. unfold e. f_equal. lia.
Qed.
Lemma lines_avx_ok junk : lines_hold (lines_avx src s w h junk).
Proof.
  pose proof (shape_pos w h Sh) as B. unfold lines_avx. cbv zeta. apply make_ok; [lia|exact iota16| |].
  - intros x Hx. rewrite (tops_ok 16 src (s + 1) w (junk 0) (fun src x => permute2x128 (unpacklo_epi8 (load src (s + 1 + x)) setzero) (unpackhi_epi8 (load src (s + 1 + x)) setzero) 32)
      (fun src x => permute2x128 (unpacklo_epi8 (load src (s + 1 + x)) setzero) (unpackhi_epi8 (load src (s + 1 + x)) setzero) 49)); [unfold e; f_equal; lia|lia|lia| | | |exact Hx].
    + intros k Hk. replace (s + 1 + k) with (s + (k + 1)) by lia. apply L. lia.
    + intros X i H. rewrite widen_lo by lia. reflexivity.
    + intros X i H. rewrite widen_hi by lia. unfold load. f_equal. lia.
  - intros y Hy. rewrite left_column_ok by lia. unfold e. f_equal. lia.
Qed.

(** ** Values *)
Definition num (x y : Z) : Z :=
  h * (w * e (- (y + 1)) + (x + 1) * (e w - e (- (y + 1)))) + w * (h * e (x + 1) + (y + 1) * (e (- h) - e (x + 1))) + x * y * c + w * h.
Definition col (x y : Z) : Z := h * e (x + 1) + y * (e (- h) - e (x + 1)).
Lemma twist_range : -510 <= c <= 1020.
Proof. pose proof (shape_pos w h Sh) as B. apply corner_range; [exact Sh|apply L; lia|apply L; lia]. Qed.
Lemma num_range x y : 0 <= x < w -> 0 <= y < h -> - (510 * (w * h)) <= num x y <= 1531 * (w * h).
Proof.
  intros Hx Hy. pose proof (L w ltac:(lia)) as La. pose proof (L (- h) ltac:(lia)) as Lb. pose proof (L (- (y + 1)) ltac:(lia)) as Ll. pose proof (L (x + 1) ltac:(lia)) as Lt.
  pose proof twist_range as C. unfold num.
  set (a := e w) in *. set (b := e (- h)) in *. set (p := e (- (y + 1))) in *. set (q := e (x + 1)) in *. set (cc := c) in *. clearbody a b p q cc. clear - Hx Hy La Lb Ll Lt C.
  assert (R1 : 0 <= w * p + (x + 1) * (a - p) <= w * 255).
  { replace (w * p + (x + 1) * (a - p)) with ((w - x - 1) * p + (x + 1) * a) by ring.
    assert (0 <= (w - x - 1) * p <= (w - x - 1) * 255) by (split; [apply Z.mul_nonneg_nonneg; lia|apply Z.mul_le_mono_nonneg_l; lia]).
    assert (0 <= (x + 1) * a <= (x + 1) * 255) by (split; [apply Z.mul_nonneg_nonneg; lia|apply Z.mul_le_mono_nonneg_l; lia]). lia. }
  assert (R2 : 0 <= h * q + (y + 1) * (b - q) <= h * 255).
  { replace (h * q + (y + 1) * (b - q)) with ((h - y - 1) * q + (y + 1) * b) by ring.
    assert (0 <= (h - y - 1) * q <= (h - y - 1) * 255) by (split; [apply Z.mul_nonneg_nonneg; lia|apply Z.mul_le_mono_nonneg_l; lia]).
    assert (0 <= (y + 1) * b <= (y + 1) * 255) by (split; [apply Z.mul_nonneg_nonneg; lia|apply Z.mul_le_mono_nonneg_l; lia]). lia. }
  assert (R3 : 0 <= x * y <= w * h) by (split; [apply Z.mul_nonneg_nonneg; lia|apply Z.mul_le_mono_nonneg; lia]).
  set (R := w * p + (x + 1) * (a - p)) in *. set (Q := h * q + (y + 1) * (b - q)) in *. set (xy := x * y) in *. clearbody R Q xy.
  assert (0 <= h * R <= h * (w * 255)) by (split; [apply Z.mul_nonneg_nonneg; lia|apply Z.mul_le_mono_nonneg_l; lia]).
  assert (0 <= w * Q <= w * (h * 255)) by (split; [apply Z.mul_nonneg_nonneg; lia|apply Z.mul_le_mono_nonneg_l; lia]).
  replace (h * (w * 255)) with (255 * (w * h)) in * by ring. replace (w * (h * 255)) with (255 * (w * h)) in * by ring.
  set (wh := w * h) in *. assert (- (510 * wh) <= xy * cc <= 1020 * wh) by (clear - R3 C; nia). lia.
Qed.
Lemma num_rule x y : 0 <= x < w -> 0 <= y < h -> clamp 0 255 (Z.shiftr (num x y) (sxy w h)) = bilinear_rule 8 e w h x y.
Proof.
  intros Hx Hy. destruct (shape_sides w h Sh) as [Iw Ih]. destruct (log_size w Iw) as [Pw Lw]. destruct (log_size h Ih) as [Ph Lh].
  unfold bilinear_rule. cbv zeta. change (2 ^ 8 - 1) with 255. f_equal. unfold sxy. rewrite Z.shiftr_div_pow2 by lia.
  rewrite !Z.pow_add_r by lia. rewrite Pw, Ph. change (2 ^ 1) with 2. unfold num. f_equal; fold c; ring.
Qed.
Lemma num_small x y : 0 <= x < w -> 0 <= y < h -> -2147483648 <= num x y <= 2147483647 /\ -256 <= Z.shiftr (num x y) (sxy w h) <= 766.
Proof.
  intros Hx Hy. pose proof (num_range x y Hx Hy) as R. pose proof (shape_pos w h Sh) as B. destruct (shape_sides w h Sh) as [Iw Ih]. destruct (log_size w Iw) as [Pw Lw]. destruct (log_size h Ih) as [Ph Lh].
  assert (0 < w * h <= 64 * 64) by (split; [apply Z.mul_pos_pos; lia|apply Z.mul_le_mono_nonneg; lia]).
  split; [lia|]. unfold sxy. rewrite Z.shiftr_div_pow2 by lia. rewrite !Z.pow_add_r by lia. rewrite Pw, Ph. change (2 ^ 1) with 2.
  set (wh := w * h) in *. clearbody wh. set (v := num x y) in *. clearbody v. clear - R H. split; [apply Z.div_le_lower_bound; lia|]. apply Z.lt_succ_r. apply Z.div_lt_upper_bound; lia.
Qed.
Lemma col_small x y : 0 <= x < w -> 0 <= y <= h -> -32768 <= col x y <= 32767.
Proof.
  intros Hx Hy. pose proof (shape_pos w h Sh) as B. unfold col.
  pose proof (blend_bound 8 8 ltac:(lia) h (e (x + 1)) (e (- h)) y 255 Hy ltac:(lia) ltac:(apply L; lia) ltac:(apply L; lia)). lia.
Qed.
Lemma row_split l x y : lines_hold l -> 0 <= y < h -> num x y = w * col x (y + 1) + (x * row_add h l y + row_val w h l y).
Proof.
  intros H Hy. destruct (shape_sides w h Sh) as [Iw Ih]. destruct (log_size w Iw) as [Pw Lw]. destruct (log_size h Ih) as [Ph Lh].
  unfold row_add, row_val. rewrite !Z.shiftl_mul_pow2 by lia. rewrite !Z.pow_add_r by lia. rewrite Pw, Ph.
  rewrite (lh_L l H), (lh_wy l H), (lh_left l H) by exact Hy. unfold num, col. ring.
Qed.
End Lines.
