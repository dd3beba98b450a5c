(** The modes without a direction. *)
From Coq Require Import ZArith List Bool Lia.
From Verif Require Import CBase UtilModel MemModel MemProofs LfModel LfProofs SaoModel SaoProofs HdrModel AlfSpec McSpec McProofs IprModel IprSpec IprProofs IprProofsB IprProofsC IprProofsD IprProofsE IprProofsF.
Import ListNotations.
Open Scope Z_scope.

(** ** Blocks written sample by sample, row by row *)
Definition raster (w h d st : Z) (old : mem) (v : Z -> Z -> Z) (n j : Z) (m : mem) : Prop :=
  (forall x y, 0 <= x < w -> 0 <= y < h -> (y < n \/ (y = n /\ x < j)) -> m (d + y * st + x) = v x y) /\
  (forall q, (forall x y, 0 <= x < w -> 0 <= y < h -> q <> d + y * st + x) -> m q = old q).
Lemma raster_start w h d st old v : raster w h d st old v 0 0 old.
Proof. split; [intros x y Hx Hy [H|H]; lia|reflexivity]. Qed.
Lemma raster_step w h d st old v n j m z : w <= st -> 0 <= n < h -> 0 <= j < w -> raster w h d st old v n j m -> z = v j n ->
  raster w h d st old v n (j + 1) (upd m (d + n * st + j) z).
Proof.
  intros W Hn Hj [A B] ->. split.
  - intros x y Hx Hy H. destruct (Z.eq_dec y n) as [->|N].
    + destruct (Z.eq_dec x j) as [->|]; [apply upd_same|]. rewrite upd_other by lia. apply A; [exact Hx|exact Hy|lia].
    + rewrite upd_other; [apply A; [exact Hx|exact Hy|lia]|]. intros E. apply N. nia.
  - intros q Hq. rewrite upd_other by (apply Hq; lia). apply B. exact Hq.
Qed.
Lemma raster_row w h d st old v n m : raster w h d st old v n w m -> raster w h d st old v (n + 1) 0 m.
Proof. intros [A B]. split; [|exact B]. intros x y Hx Hy H. apply A; [exact Hx|exact Hy|lia]. Qed.
Lemma raster_end w h d st old v m : raster w h d st old v h 0 m -> predicts w h d st old m v.
Proof. intros [A B]. split; [|exact B]. intros x y Hx Hy. apply A; [exact Hx|exact Hy|lia]. Qed.

(** ** Sums *)
Lemma sum_snoc n f : 0 <= n -> sum_over (n + 1) f = sum_over n f + f n.
Proof. intros H. unfold sum_over. replace (Z.to_nat (n + 1)) with (S (Z.to_nat n)) by lia. cbn [sumz]. rewrite Z2Nat.id by lia. reflexivity. Qed.
Lemma sum_ext n f g : (forall i, 0 <= i < n -> f i = g i) -> sum_over n f = sum_over n g.
Proof.
  intros H. unfold sum_over. destruct (Z.le_gt_cases n 0) as [L|L]; [replace (Z.to_nat n) with O by lia; reflexivity|].
  assert (G : forall k, Z.of_nat k <= n -> sumz k f = sumz k g).
  { induction k; intros Hk; [reflexivity|]. cbn [sumz]. rewrite IHk by lia. f_equal. apply H. lia. }
  apply G. lia.
Qed.
Lemma floop_sum n f v : 0 <= n -> floop 0 n (fun y v => v + f y) v = v + sum_over n f.
Proof.
  intros H. apply (floop_inv (fun k (t : Z) => t = v + sum_over k f) 0 n); [lia|cbn; lia|].
  intros x t Hx ->. rewrite sum_snoc by lia. lia.
Qed.
Lemma floop_sum1 n f : 0 <= n -> floop 1 (n + 1) (fun y v => v + f y) 0 = sum_over n (fun i => f (i + 1)).
Proof.
  intros H. pose proof (floop_inv (fun k (t : Z) => t = sum_over (k - 1) (fun i => f (i + 1))) 1 (n + 1) (fun y v => v + f y) 0 ltac:(lia)) as G.
  cbn beta in G. replace (n + 1 - 1) with n in G by lia. apply G; [reflexivity|].
  intros x t Hx ->. replace (x + 1 - 1) with (x - 1 + 1) by lia. rewrite sum_snoc by lia. replace (x - 1 + 1) with x by lia. reflexivity.
Qed.
Lemma sum_between n f M : 0 <= n -> (forall i, 0 <= i < n -> 0 <= f i <= M) -> 0 <= sum_over n f <= n * M.
Proof.
  intros Hn H. revert H. pattern n. apply natlike_ind; [|clear n Hn; intros n Hn IH H|exact Hn].
  - intros _. cbn. lia.
  - rewrite <- Z.add_1_r, sum_snoc by lia. pose proof (IH ltac:(intros; apply H; lia)). pose proof (H n ltac:(lia)). lia.
Qed.
Lemma clip3_clamp hi v : 0 <= hi -> clip3 0 hi v = clamp 0 hi v.
Proof. intros H. unfold clip3, clamp. destruct (Z.ltb_spec v 0), (Z.ltb_spec hi v); lia. Qed.
Lemma clamp_in hi v : 0 <= v <= hi -> clamp 0 hi v = v.
Proof. unfold clamp. lia. Qed.
Lemma clamp_range hi v : 0 <= hi -> 0 <= clamp 0 hi v <= hi.
Proof. unfold clamp. lia. Qed.

Section Modes.
Variables (bits depth : Z) (junk src : mem) (s d st : Z) (dst : mem).
Hypothesis Hdep : 1 <= depth <= bits.
Let e (k : Z) : Z := src (s + k).
Let M := 2 ^ depth - 1.
Lemma M_pos : 0 <= M. Proof. unfold M. assert (0 < 2 ^ depth) by (apply Z.pow_pos_nonneg; lia). lia. Qed.

(** ** Vertical and horizontal *)
Lemma ver_ok w h : 0 < w <= st -> 0 < h -> predicts w h d st dst (pred_ver src s d st w h dst) (fun x y => e (x + 1)).
Proof. intros Hw Hh. apply block_predicts; [exact Hw|exact Hh|]. intros x y m Hx Hy. unfold e. f_equal. lia. Qed.
Lemma hor_ok w h : 0 < w <= st -> 0 < h -> predicts w h d st dst (pred_hor src s d st w h dst) (fun x y => e (- (y + 1))).
Proof. intros Hw Hh. apply block_predicts; [exact Hw|exact Hh|]. intros x y m Hx Hy. unfold e. f_equal. lia. Qed.

(** ** DC *)
Lemma dc_range w h top left : 0 < w -> 0 < h -> w + h <= 512 -> (forall k, - h <= k <= w -> 0 <= e k <= M) -> 0 <= dc_rule depth e w h top left <= M.
Proof.
  intros Hw Hh Hs L. pose proof M_pos as MP.
  assert (T : 0 <= sum_over w (fun x => e (x + 1)) <= w * M) by (apply sum_between; [lia|intros; apply L; lia]).
  assert (F : 0 <= sum_over h (fun y => e (- (y + 1))) <= h * M) by (apply sum_between; [lia|intros; apply L; lia]).
  unfold dc_rule. cbv zeta.
  set (t := sum_over w (fun x => e (x + 1))) in *. set (l := sum_over h (fun y => e (- (y + 1)))) in *. clearbody t l. assert (ME : M = 2 ^ depth - 1) by reflexivity. clearbody M.
  destruct top, left.
  - set (n := w + h) in *. pose proof (Z.mul_div_le 512 n ltac:(lia)) as Q. assert (0 <= 512 / n) as Q0 by (apply Z.div_pos; lia).
    pose proof (Z.mul_div_le n 2 ltac:(lia)) as Q1. assert (0 <= n / 2) as Q2 by (apply Z.div_pos; lia).
    assert (Q3 : n / 2 < n) by (apply Z.div_lt; lia).
    set (q := 512 / n) in *. set (r := n / 2) in *.
    split; [apply Z.div_pos; [apply Z.mul_nonneg_nonneg; lia|lia]|].
    assert ((t + l + r) * q / 512 < M + 1); [|lia]. apply Z.div_lt_upper_bound; [lia|].
    assert (t + l + r <= n * M + r) by (unfold n; lia).
    destruct (Z.eq_dec q 0) as [->|Nq]; [lia|].
    assert ((t + l + r) * q <= (n * M + r) * q) by (apply Z.mul_le_mono_nonneg_r; lia).
    assert ((n * M + r) * q < (n * M + n) * q) by (apply Z.mul_lt_mono_pos_r; lia).
    assert ((M + 1) * (n * q) <= (M + 1) * 512) by (apply Z.mul_le_mono_nonneg_l; lia). lia.
  - assert (0 <= w / 2 < w) by (split; [apply Z.div_pos; lia|apply Z.div_lt; lia]).
    split; [apply Z.div_pos; lia|]. assert ((t + w / 2) / w < M + 1); [apply Z.div_lt_upper_bound; lia|lia].
  - assert (0 <= h / 2 < h) by (split; [apply Z.div_pos; lia|apply Z.div_lt; lia]).
    split; [apply Z.div_pos; lia|]. assert ((l + h / 2) / h < M + 1); [apply Z.div_lt_upper_bound; lia|lia].
  - assert (E : 2 ^ depth = 2 * 2 ^ (depth - 1)) by (rewrite <- Z.pow_succ_r by lia; f_equal; lia).
    assert (0 < 2 ^ (depth - 1)) by (apply Z.pow_pos_nonneg; lia). 
    lia.
Qed.
Lemma flags top left : let m := Z.shiftl (if top : bool then 1 else 0) 8 + (if left : bool then 1 else 0) in
  negb (Z.shiftr m 8 =? 0) = top /\ negb (Z.land m 255 =? 0) = left.
Proof. destruct top, left; split; reflexivity. Qed.
Lemma dc_value_eq w h top left : 0 < w -> 0 < h ->
  dc_value depth src s (Z.shiftl (if top : bool then 1 else 0) 8 + (if left : bool then 1 else 0)) w h = dc_rule depth e w h top left.
Proof.
  intros Hw Hh. destruct (flags top left) as [Ft Fl]. unfold dc_value. cbv zeta. rewrite Ft, Fl. clear Ft Fl.
  unfold dc_rule. cbv zeta.
  assert (T : sum_over w (fun x => src (s + 1 + x)) = sum_over w (fun x => e (x + 1))) by (apply sum_ext; intros; unfold e; f_equal; lia).
  assert (L : sum_over h (fun y => src (s - 1 - y)) = sum_over h (fun y => e (- (y + 1)))) by (apply sum_ext; intros; unfold e; f_equal; lia).
  destruct left, top; rewrite ?floop_sum, ?T, ?L by lia; rewrite ?Z.shiftr_div_pow2, ?Z.shiftl_mul_pow2 by lia.
  - change (2 ^ 1) with 2. change (2 ^ 9) with 512. f_equal. f_equal. lia.
  - reflexivity.
  - reflexivity.
  - lia.
Qed.
Lemma dc_ok w h top left : 0 < w <= st -> 0 < h -> w + h <= 512 -> (forall k, - h <= k <= w -> 0 <= e k <= M) ->
  predicts w h d st dst (pred_dc bits depth src s d st (Z.shiftl (if top : bool then 1 else 0) 8 + (if left : bool then 1 else 0)) w h dst)
    (fun x y => dc_rule depth e w h top left).
Proof.
  intros Hw Hh Hs L. apply block_predicts; [exact Hw|exact Hh|]. intros x y m Hx Hy. rewrite dc_value_eq by lia.
  pose proof (dc_range w h top left ltac:(lia) Hh Hs L) as R. pose proof M_pos.
  rewrite clip3_clamp, clamp_in by (first [exact R|assumption]).
  apply (to_pel_id bits depth); [lia|exact R].
Qed.

(** ** Plane *)
Lemma gradient_eq n f i : In n [4; 8; 16; 32; 64] -> i = sum_over (n / 2) (fun i => (i + 1) * (f (n / 2 + (i + 1)) - f (n / 2 - (i + 1)))) ->
  plane_slope n i = gradient n (fst (plane_scale n)) (snd (plane_scale n)) f.
Proof.
  intros Hn ->. unfold plane_slope, gradient. set (S := sum_over _ _). clearbody S.
  assert (E : ib_mult n = fst (plane_scale n) /\ ib_shift n = snd (plane_scale n) /\ 1 <= snd (plane_scale n)).
  { cbn [In] in Hn. destruct Hn as [<-|[<-|[<-|[<-|[<-|[]]]]]]; (split; [reflexivity|split; [reflexivity|discriminate]]). }
  destruct E as (-> & -> & P). set (k := snd (plane_scale n)) in *. clearbody k.
  rewrite Z.shiftr_div_pow2, !Z.shiftl_mul_pow2 by lia. change (2 ^ 5) with 32. f_equal. f_equal; ring.
Qed.
Lemma shape_sides w h : intra_shape w h -> In w [4; 8; 16; 32; 64] /\ In h [4; 8; 16; 32; 64].
Proof. intros H. shapes H; cbn [In]; auto 12. Qed.
Lemma plane_ok w h : intra_shape w h -> w <= st ->
  predicts w h d st dst (pred_plane bits depth src s d st w h dst) (plane_rule depth e w h).
Proof.
  intros Sh W. pose proof (shape_pos w h Sh) as B. destruct (shape_sides w h Sh) as [Iw Ih]. pose proof M_pos as MP.
  unfold pred_plane, plane_rule. cbv zeta.
  rewrite (gradient_eq w e), (gradient_eq h (fun k => e (- k))); [|exact Ih| |exact Iw|].
  2:{ unfold plane_v. cbv zeta. rewrite Z.shiftr_div_pow2 by lia. change (2 ^ 1) with 2. rewrite floop_sum1 by (apply Z.div_pos; lia).
      apply sum_ext. intros i Hi. unfold e. f_equal. f_equal; f_equal; lia. }
  2:{ unfold plane_h. cbv zeta. rewrite Z.shiftr_div_pow2 by lia. change (2 ^ 1) with 2. rewrite floop_sum1 by (apply Z.div_pos; lia).
      apply sum_ext. intros i Hi. unfold e. f_equal. f_equal; f_equal; lia. }
  set (gx := gradient w _ _ _). set (gy := gradient h _ _ _). clearbody gx gy.
  replace (Z.shiftl (src (s - 1 - (h - 1)) + src (s + (1 + w - 1))) 4) with (16 * (e w + e (- h))).
  2:{ rewrite Z.shiftl_mul_pow2 by lia. change (2 ^ 4) with 16. unfold e. replace (s - 1 - (h - 1)) with (s + - h) by lia. replace (s + (1 + w - 1)) with (s + w) by lia. ring. }
  rewrite !Z.shiftr_div_pow2 by lia. change (2 ^ 1) with 2.
  set (A := 16 * (e w + e (- h))). clearbody A.
  set (t0 := A - (h / 2 - 1) * gy - (w / 2 - 1) * gx + 16).
  set (v := fun x y => clamp 0 (2 ^ depth - 1) ((A + (x - (w / 2 - 1)) * gx + (y - (h / 2 - 1)) * gy + 16) / 32)).
  apply raster_end.
  match goal with |- raster _ _ _ _ _ _ _ _ (fst ?x) => cut (raster w h d st dst v h 0 (fst x) /\ snd x = t0 + h * gy) end; [intros [G _]; exact G|].
  apply (floop_inv (fun n (p : mem * Z) => raster w h d st dst v n 0 (fst p) /\ snd p = t0 + n * gy) 0 h); [lia| |].
  - split; [apply raster_start|cbn [snd]; lia].
  - intros n [m t] Hn [R E]. cbn [fst snd] in *. split; [|lia]. apply raster_row.
    match goal with |- raster _ _ _ _ _ _ _ _ (fst ?x) => cut (raster w h d st dst v n w (fst x) /\ snd x = t + w * gx) end; [intros [G _]; exact G|].
    apply (floop_inv (fun j (p : mem * Z) => raster w h d st dst v n j (fst p) /\ snd p = t + j * gx) 0 w); [lia| |].
    + split; [exact R|cbn [snd]; lia].
    + intros j [m1 t1] Hj [R1 E1]. cbn [fst snd] in *. split; [|lia].
      apply raster_step; [exact W|exact Hn|exact Hj|exact R1|].
      unfold v. rewrite clip3_clamp by exact MP. rewrite Z.shiftr_div_pow2 by lia. change (2 ^ 5) with 32.
      rewrite (to_pel_id bits depth); [|lia|apply clamp_range; exact MP]. f_equal. f_equal. subst t1 t t0. ring.
Qed.

(** ** Bilinear *)
Hypothesis Hbits : bits = 8 \/ bits = 16.
Lemma itr_id v : - (2 ^ 7 * (2 ^ depth)) <= v < 2 ^ 7 * 2 ^ depth -> itr bits v = v.
Proof.
  intros H. unfold itr.
  assert (P : 2 ^ depth <= 2 ^ bits) by (apply Z.pow_le_mono_r; lia). change (2 ^ 7) with 128 in H.
  destruct (Z.eqb_spec bits 8) as [E|N].
  - rewrite E in P. change (2 ^ 8) with 256 in P. apply to_i16_id. lia.
  - destruct Hbits as [E|E]; [contradiction|]. rewrite E in P. change (2 ^ 16) with 65536 in P.
    unfold to_i32. rewrite Z.mod_small by lia. lia.
Qed.
Lemma log_size n : In n [4; 8; 16; 32; 64] -> 2 ^ tab_log2size n = n /\ 2 <= tab_log2size n <= 6.
Proof. intros Hn. cbn [In] in Hn. destruct Hn as [<-|[<-|[<-|[<-|[<-|[]]]]]]; (split; [reflexivity|split; discriminate]). Qed.
Lemma corner_eq w h a b : In w [4; 8; 16; 32; 64] -> In h [4; 8; 16; 32; 64] ->
  (if w =? h then Z.shiftr (a + b + 1) 1
   else Z.shiftr ((Z.shiftl a (tab_log2size w) + Z.shiftl b (tab_log2size h)) * 13 + Z.shiftl 1 (Z.min (tab_log2size w) (tab_log2size h) + 5)) (Z.min (tab_log2size w) (tab_log2size h) + 6)) =
  corner w h a b.
Proof.
  intros Iw Ih. unfold corner. destruct (log_size w Iw) as [Pw Lw]. destruct (log_size h Ih) as [Ph Lh].
  destruct (Z.eqb_spec w h); [rewrite Z.shiftr_div_pow2 by lia; reflexivity|].
  rewrite Z.shiftr_div_pow2, !Z.shiftl_mul_pow2, Pw, Ph by lia.
  assert (Q : 2 ^ Z.min (tab_log2size w) (tab_log2size h) = Z.min w h).
  { destruct (Z.le_ge_cases (tab_log2size w) (tab_log2size h)) as [C|C].
    - rewrite Z.min_l by exact C. rewrite Pw. symmetry. apply Z.min_l. rewrite <- Pw, <- Ph. apply Z.pow_le_mono_r; lia.
    - rewrite Z.min_r by exact C. rewrite Ph. symmetry. apply Z.min_r. rewrite <- Pw, <- Ph. apply Z.pow_le_mono_r; lia. }
  rewrite !Z.pow_add_r, Q by lia. change (2 ^ 5) with 32. change (2 ^ 6) with 64. f_equal; [f_equal|]; ring.
Qed.
(** The correction stays small. *)
Lemma twist_bound w h a b N : intra_shape w h -> 0 <= a <= N -> 0 <= b <= N ->
  forall y, 0 <= y < h -> - (128 * (N + 1)) <= y * (2 * corner w h a b - a - b) < 128 * (N + 1).
Proof.
  intros Sh Ha Hb y Hy.
  assert (C : (w = h /\ 0 <= 2 * corner w h a b - a - b <= 1) \/ (h <= 32 /\ - (2 * N) <= 2 * corner w h a b - a - b <= 4 * N)).
  { shapes Sh; unfold corner; cbn [Z.eqb Pos.eqb]; match goal with |- context [(?x + ?y + 1) / 2] => left | _ => right end; (split; [lia|]); try (Z.div_mod_to_equations; lia);
    match goal with |- context [Z.min ?p ?q] => let r := eval vm_compute in (Z.min p q) in change (Z.min p q) with r end;
    match goal with |- context [64 * ?p] => let r := eval vm_compute in (64 * p) in change (64 * p) with r end;
    match goal with |- context [32 * ?p] => let r := eval vm_compute in (32 * p) in change (32 * p) with r end;
    match goal with |- context [?A / ?B] =>
      assert (0 <= A / B) by (apply Z.div_pos; lia); assert (A / B < 2 * N + 1) by (apply Z.div_lt_upper_bound; lia) end; lia. }
  pose proof (shape_pos w h Sh).
  set (c := 2 * corner w h a b - a - b) in *. clearbody c. destruct C as [[E C]|[E C]].
  - assert (0 <= y * c <= y * 1) by (split; [apply Z.mul_nonneg_nonneg; lia|apply Z.mul_le_mono_nonneg_l; lia]). lia.
  - assert (y * - (2 * N) <= y * c <= y * (4 * N)) by (split; apply Z.mul_le_mono_nonneg_l; lia).
    assert (y * (4 * N) <= 31 * (4 * N)) by (apply Z.mul_le_mono_nonneg_r; lia).
    assert (y * (2 * N) <= 31 * (2 * N)) by (apply Z.mul_le_mono_nonneg_r; lia). lia.
Qed.
Lemma blend_bound h e1 b k N : 0 <= k <= h -> h <= 64 -> 0 <= e1 <= N -> 0 <= b <= N -> - (128 * (N + 1)) <= h * e1 + k * (b - e1) < 128 * (N + 1).
Proof.
  intros Hk Hh He Hb. replace (h * e1 + k * (b - e1)) with ((h - k) * e1 + k * b) by ring.
  assert (0 <= (h - k) * e1 <= (h - k) * N) by (split; [apply Z.mul_nonneg_nonneg; lia|apply Z.mul_le_mono_nonneg_l; lia]).
  assert (0 <= k * b <= k * N) by (split; [apply Z.mul_nonneg_nonneg; lia|apply Z.mul_le_mono_nonneg_l; lia]).
  assert (h * N <= 64 * N) by (apply Z.mul_le_mono_nonneg_r; lia). lia.
Qed.
Lemma bilinear_ok w h : intra_shape w h -> w <= st -> (forall k, - h <= k <= w -> 0 <= e k <= M) ->
  predicts w h d st dst (pred_bilinear bits depth junk src s d st w h dst) (bilinear_rule depth e w h).
Proof.
  intros Sh W L. pose proof (shape_pos w h Sh) as B. destruct (shape_sides w h Sh) as [Iw Ih]. pose proof M_pos as MP.
  assert (It : forall v, - (128 * (M + 1)) <= v < 128 * (M + 1) -> itr bits v = v).
  { intros v Hv. apply itr_id. unfold M in Hv. change (2 ^ 7) with 128. lia. }
  destruct (log_size w Iw) as [Pw Lw]. destruct (log_size h Ih) as [Ph Lh].
  assert (Ea : bi_a bits src s w = e w). { unfold bi_a. replace (s + 1 + (w - 1)) with (s + w) by lia. apply It. pose proof (L w ltac:(lia)). unfold e in *. lia. }
  assert (Eb : bi_b bits src s h = e (- h)). { unfold bi_b. replace (s - 1 - (h - 1)) with (s + - h) by lia. apply It. pose proof (L (- h) ltac:(lia)). unfold e in *. lia. }
  assert (Ec : bi_c bits src s w h = corner w h (e w) (e (- h))). { unfold bi_c. cbv zeta. rewrite Ea, Eb. apply corner_eq; assumption. }
  unfold pred_bilinear, bilinear_rule. cbv zeta. rewrite Ea, Eb, Ec.
  pose proof (L w ltac:(lia)) as La. pose proof (L (- h) ltac:(lia)) as Lb.
  pose proof (twist_bound w h (e w) (e (- h)) M Sh La Lb) as Tw.
  set (a := e w) in *. set (b := e (- h)) in *.
  replace (Z.shiftl (corner w h a b) 1) with (2 * corner w h a b) by (rewrite Z.shiftl_mul_pow2 by lia; change (2 ^ 1) with 2; lia).
  set (c := 2 * corner w h a b - a - b) in *. clearbody c. clear Ea Eb Ec Iw Ih Sh.
  set (sx := tab_log2size w) in *. set (sy := tab_log2size h) in *. clearbody sx sy a b.
  set (T := fun k x => h * e (x + 1) + k * (b - e (x + 1))).
  set (v := fun x y => clamp 0 (2 ^ depth - 1) ((h * (w * e (- (y + 1)) + (x + 1) * (a - e (- (y + 1)))) + w * (h * e (x + 1) + (y + 1) * (b - e (x + 1))) + x * y * c + w * h) / (2 * w * h))).
  assert (Et : forall x, 0 <= x < w -> itr bits (src (s + 1 + x)) = e (x + 1)).
  { intros x Hx. unfold e. replace (s + 1 + x) with (s + (x + 1)) by lia. apply It. pose proof (L (x + 1) ltac:(lia)). unfold e in *. lia. }
  assert (El : forall y, 0 <= y < h -> itr bits (src (s - 1 - y)) = e (- (y + 1))).
  { intros y Hy. unfold e. replace (s - 1 - y) with (s + - (y + 1)) by lia. apply It. pose proof (L (- (y + 1)) ltac:(lia)). unfold e in *. lia. }
  set (pTop := floop 0 w _ junk).
  assert (HT : forall x, 0 <= x < w -> pTop x = T 0 x).
  { unfold pTop. apply (floop_inv (fun k (m : mem) => forall x, 0 <= x < k -> m x = T 0 x) 0 w); [lia|intros; lia|].
    intros k m Hk IH x Hx. destruct (Z.eq_dec x k) as [->|]; [|rewrite upd_other by lia; apply IH; lia].
    rewrite upd_same, Et by lia. rewrite Z.shiftl_mul_pow2, Ph by lia. rewrite It; [unfold T; ring|].
    pose proof (blend_bound h (e (k + 1)) b 0 M ltac:(lia) ltac:(lia) ltac:(apply L; lia) Lb). lia. }
  clearbody pTop.
  apply raster_end.
  match goal with |- raster _ _ _ _ _ _ _ _ (snd ?x) => cut (raster w h d st dst v h 0 (snd x) /\ forall x', 0 <= x' < w -> fst x x' = T h x') end; [intros [G _]; exact G|].
  apply (floop_inv (fun n (p : mem * mem) => raster w h d st dst v n 0 (snd p) /\ forall x, 0 <= x < w -> fst p x = T n x) 0 h); [lia| |].
  - split; [apply raster_start|exact HT].
  - intros n [pt m] Hn [R Q]. cbn [fst snd] in *.
    match goal with |- context [floop 0 w ?f (pt, m, ?p0, ?w0)] => set (F := f); set (P0 := p0); set (W0 := w0) end.
    assert (G : raster w h d st dst v n w (snd (fst (fst (floop 0 w F (pt, m, P0, W0))))) /\
      (forall x, 0 <= x < w -> fst (fst (fst (floop 0 w F (pt, m, P0, W0)))) x = T (n + 1) x)).
    { assert (EP : P0 = w * e (- (n + 1))).
      { unfold P0. rewrite El, Z.shiftl_mul_pow2, Pw by lia. rewrite It; [ring|].
        pose proof (blend_bound w (e (- (n + 1))) b 0 M ltac:(lia) ltac:(lia) ltac:(apply L; lia) Lb). lia. }
      assert (EW : W0 = - (n * c)). { unfold W0. rewrite It; [reflexivity|]. apply Tw. exact Hn. }
      pose proof (floop_inv (fun j (p : mem * mem * Z * Z) => raster w h d st dst v n j (snd (fst (fst p))) /\
        (forall x, 0 <= x < w -> fst (fst (fst p)) x = T (if x <? j then n + 1 else n) x) /\
        snd (fst p) = w * e (- (n + 1)) + j * (a - e (- (n + 1))) /\ snd p = (j - 1) * (n * c)) 0 w F (pt, m, P0, W0) ltac:(lia)) as G.
      destruct G as (G1 & G2 & _).
      - cbn [fst snd]. split; [exact R|]. split; [|split; lia].
        intros x Hx. destruct (Z.ltb_spec x 0); [lia|]. apply Q. exact Hx.
      - intros j [[[p1 m1] px] wx] Hj (R1 & Q1 & X1 & Y1). cbn [fst snd] in *. subst F. cbn beta iota. cbn [fst snd].
        assert (N1 : itr bits (a - itr bits (src (s - 1 - n))) = a - e (- (n + 1))).
        { rewrite El by lia. apply It. pose proof (L (- (n + 1)) ltac:(lia)). lia. }
        assert (N2 : itr bits (n * c) = n * c) by (apply It, Tw; exact Hn).
        assert (N3 : itr bits (p1 j + itr bits (b - itr bits (src (s + 1 + j)))) = T (n + 1) j).
        { rewrite Et by lia. rewrite (It (b - e (j + 1))) by (pose proof (L (j + 1) ltac:(lia)); lia).
          rewrite Q1 by lia. destruct (Z.ltb_spec j j); [lia|].
          replace (T n j + (b - e (j + 1))) with (T (n + 1) j) by (unfold T; ring). apply It.
          unfold T. apply blend_bound; [lia|lia|apply L; lia|exact Lb]. }
        rewrite N1, N2, N3. split; [|split; [|split]].
        + apply raster_step; [exact W|exact Hn|exact Hj|exact R1|].
          rewrite upd_same. unfold v. rewrite clip3_clamp by exact MP.
          rewrite (to_pel_id bits depth); [|lia|apply clamp_range; exact MP]. f_equal.
          rewrite Z.shiftr_div_pow2, !Z.shiftl_mul_pow2, !Z.pow_add_r, Pw, Ph by lia. change (2 ^ 1) with 2. rewrite X1, Y1. unfold T. f_equal; ring.
        + intros x Hx. destruct (Z.eq_dec x j) as [->|Nx].
          * rewrite upd_same. destruct (Z.ltb_spec j (j + 1)); [reflexivity|lia].
          * rewrite upd_other by lia. rewrite Q1 by exact Hx. f_equal. destruct (Z.ltb_spec x j), (Z.ltb_spec x (j + 1)); lia.
        + rewrite X1. ring.
        + rewrite Y1. ring.
      - split; [exact G1|]. intros x Hx. rewrite G2 by exact Hx. destruct (Z.ltb_spec x w); [reflexivity|lia]. }
    destruct (floop 0 w F (pt, m, P0, W0)) as [[[p1 m1] px] wx]. cbn [fst snd] in *. destruct G as [G1 G2]. split; [apply raster_row; exact G1|exact G2].
Qed.
End Modes.
