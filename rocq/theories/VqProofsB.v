(** The vector plane predictors. *)
From Coq Require Import ZArith List Bool Lia.
From Verif Require Import CBase MemModel SaoModel SaoProofs AlfSpec McSpec IprModel IprSpec IprProofs IprProofsD IprProofsE IprProofsG VxModelBase VxModel VdModel ViModel VjModel VpModelA
  VxProofs VxProofsB ViProofs ViProofsB ViProofsC VjProofs VjProofsB VqModel VqProofs.
Import ListNotations.
Open Scope Z_scope.

(** ** Words modulo 2^16 *)
Lemma to_i16_add a b : to_i16 (to_i16 a + to_i16 b) = to_i16 (a + b).
Proof.
  unfold to_i16. f_equal. replace ((a + 32768) mod 65536 - 32768 + ((b + 32768) mod 65536 - 32768) + 32768) with ((a + 32768) mod 65536 + (b + 32768) mod 65536 - 32768) by lia.
  rewrite Zminus_mod, <- Zplus_mod, <- Zminus_mod. f_equal. lia.
Qed.
Lemma to_i16_cong a k : to_i16 (a + k * 65536) = to_i16 a.
Proof. unfold to_i16. f_equal. replace (a + k * 65536 + 32768) with (a + 32768 + k * 65536) by lia. apply Z_mod_plus_full. Qed.
Lemma to_i16_form a : exists k, to_i16 a = a + k * 65536.
Proof. exists (- ((a + 32768) / 65536)). unfold to_i16. rewrite Z.mod_eq by lia. lia. Qed.
Lemma to_i16_mul a b : to_i16 (to_i16 a * to_i16 b) = to_i16 (a * b).
Proof.
  destruct (to_i16_form a) as [k ->]. destruct (to_i16_form b) as [l ->].
  replace ((a + k * 65536) * (b + l * 65536)) with (a * b + (a * l + k * b + k * l * 65536) * 65536) by ring. apply to_i16_cong.
Qed.
Lemma i16_set v i : i16_of (set1_epi16 v) i = to_i16 v.
Proof. unfold set1_epi16. apply i16_mk16. Qed.
Lemma i16_mullo a b i : i16_of (mullo_epi16 a b) i = to_i16 (i16_of a i * i16_of b i).
Proof. unfold mullo_epi16. rewrite i16_mk16. reflexivity. Qed.
Lemma iota8 i : 0 <= i < 8 -> nth (Z.to_nat i) [0; 1; 2; 3; 4; 5; 6; 7] 0 = i.
Proof. intros H. assert (i = 0 \/ i = 1 \/ i = 2 \/ i = 3 \/ i = 4 \/ i = 5 \/ i = 6 \/ i = 7) as E by lia. repeat (destruct E as [->|E]; [reflexivity|]). subst i. reflexivity. Qed.
Lemma iota16 i : 0 <= i < 16 -> nth (Z.to_nat i) [0; 1; 2; 3; 4; 5; 6; 7; 8; 9; 10; 11; 12; 13; 14; 15] 0 = i.
Proof.
  intros H. destruct (Z.lt_ge_cases i 8).
  - assert (i = 0 \/ i = 1 \/ i = 2 \/ i = 3 \/ i = 4 \/ i = 5 \/ i = 6 \/ i = 7) as E by lia. repeat (destruct E as [->|E]; [reflexivity|]). subst i. reflexivity.
  - assert (i = 8 \/ i = 9 \/ i = 10 \/ i = 11 \/ i = 12 \/ i = 13 \/ i = 14 \/ i = 15) as E by lia. repeat (destruct E as [->|E]; [reflexivity|]). subst i. reflexivity.
Qed.

(** ** Bounds *)
Lemma weighted n (f : Z -> Z) M : 0 <= n -> (forall i, 0 <= i < n -> - (M * (i + 1)) <= f i <= M * (i + 1)) ->
  - (M * (n * (n + 1))) <= 2 * sum_over n f <= M * (n * (n + 1)).
Proof.
  intros Hn. pattern n. apply natlike_ind; [intros _; change (sum_over 0 f) with 0; lia| |exact Hn]. clear n Hn. intros n Hn IH H.
  rewrite <- Z.add_1_r, sum_snoc by lia. specialize (IH ltac:(intros; apply H; lia)). specialize (H n ltac:(lia)).
  replace (M * ((n + 1) * (n + 1 + 1))) with (M * (n * (n + 1)) + 2 * (M * (n + 1))) by ring. lia.
Qed.
Lemma gradient_bound n (f : Z -> Z) : In n [4; 8; 16; 32; 64] -> (forall k, 0 <= k <= n -> 0 <= f k <= 255) ->
  forall x, 0 <= x < n -> -6100 <= (x - (n / 2 - 1)) * gradient n (fst (plane_scale n)) (snd (plane_scale n)) f <= 6100.
Proof.
  intros Hn B x Hx. unfold gradient.
  assert (S : - (255 * (n / 2 * (n / 2 + 1))) <= 2 * sum_over (n / 2) (fun i => (i + 1) * (f (n / 2 + (i + 1)) - f (n / 2 - (i + 1)))) <= 255 * (n / 2 * (n / 2 + 1))).
  { assert (N2 : n = 2 * (n / 2)) by (cbn [In] in Hn; destruct Hn as [<-|[<-|[<-|[<-|[<-|[]]]]]]; reflexivity).
    apply weighted; [lia|]. intros i Hi. pose proof (B (n / 2 + (i + 1)) ltac:(lia)). pose proof (B (n / 2 - (i + 1)) ltac:(lia)).
    set (p := f (n / 2 + (i + 1))) in *. set (q := f (n / 2 - (i + 1))) in *. clearbody p q. clear - Hi H H0. nia. }
  set (T := sum_over _ _) in *. clearbody T. clear B.
  cbn [In] in Hn. destruct Hn as [<-|[<-|[<-|[<-|[<-|[]]]]]]; cbn [plane_scale Z.eqb Pos.eqb fst snd] in *;
    match goal with |- context [2 ^ ?a / ?b] => idtac | _ => idtac end.
  - change (4 / 2) with 2 in *. change (2 ^ (7 - 1)) with 64. change (2 ^ 7) with 128. set (g := (32 * 13 * T + 64) / 128). assert (-2487 <= g <= 2487) by (unfold g; Z.div_mod_to_equations; lia). clearbody g. nia.
  - change (8 / 2) with 4 in *. change (2 ^ (10 - 1)) with 512. change (2 ^ 10) with 1024. set (g := (32 * 17 * T + 512) / 1024). assert (-1356 <= g <= 1356) by (unfold g; Z.div_mod_to_equations; lia). clearbody g. nia.
  - change (16 / 2) with 8 in *. change (2 ^ (11 - 1)) with 1024. change (2 ^ 11) with 2048. set (g := (32 * 5 * T + 1024) / 2048). assert (-718 <= g <= 718) by (unfold g; Z.div_mod_to_equations; lia). clearbody g. nia.
  - change (32 / 2) with 16 in *. change (2 ^ (15 - 1)) with 16384. change (2 ^ 15) with 32768. set (g := (32 * 11 * T + 16384) / 32768). assert (-374 <= g <= 374) by (unfold g; Z.div_mod_to_equations; lia). clearbody g. nia.
  - change (64 / 2) with 32 in *. change (2 ^ (19 - 1)) with 262144. change (2 ^ 19) with 524288. set (g := (32 * 23 * T + 262144) / 524288). assert (-190 <= g <= 190) by (unfold g; Z.div_mod_to_equations; lia). clearbody g. nia.
Qed.
Lemma sat_clamp v : sat_u8 v = clamp 0 (2 ^ 8 - 1) v.
Proof. unfold sat_u8, clamp. change (2 ^ 8 - 1) with 255. lia. Qed.
(** Bytes of the packed registers as AVX2 moves them. *)
Lemma perm8_at (a : reg) k : 0 <= k < 16 -> permute4x64 a 8 k = a (if k <? 8 then k else 8 + k).
Proof.
  intros H. unfold permute4x64. destruct (Z.ltb_spec k 8).
  - rewrite (Z.div_small k), (Z.mod_small k) by lia. reflexivity.
  - replace (k / 8) with 1 by (Z.div_mod_to_equations; lia). change (Z.land (Z.shiftr 8 (2 * 1)) 3) with 2. f_equal. Z.div_mod_to_equations. lia.
Qed.
Lemma pack_self a k : 0 <= k < 16 -> permute4x64 (packus_epi16 a a) 8 k = sat_u8 (i16_of a k).
Proof.
  intros H. rewrite perm8_at by exact H. destruct (Z.ltb_spec k 8); [apply packus_lo; lia|].
  replace (8 + k) with (16 * 1 + (k - 8)) by lia. destruct (packus_at a a 1 (k - 8) ltac:(lia)) as [-> _]. do 2 f_equal. lia.
Qed.
Lemma pack_two a b k : 0 <= k < 32 -> permute4x64 (packus_epi16 a b) 216 k = if k <? 16 then sat_u8 (i16_of a k) else sat_u8 (i16_of b (k - 16)).
Proof.
  intros H. rewrite permute_216 by exact H.
  destruct (Z.ltb_spec k 8), (Z.ltb_spec k 16); try lia.
  - apply packus_lo. lia.
  - destruct (packus_at a b 1 (k - 8) ltac:(lia)) as [E _]. destruct (Z.ltb_spec k 24); [|lia]. 
    match goal with |- packus_epi16 a b ?q = _ => replace q with (16 * 1 + (k - 8)) by lia end. rewrite E. do 2 f_equal. lia.
  - destruct (Z.ltb_spec k 24).
    + match goal with |- packus_epi16 a b ?q = _ => replace q with (8 + (k - 16)) by lia end. apply packus_hi. lia.
    + destruct (packus_at a b 1 (k - 24) ltac:(lia)) as [_ E].
      match goal with |- packus_epi16 a b ?q = _ => replace q with (16 * 1 + (8 + (k - 24))) by lia end. rewrite E. do 2 f_equal. lia.
Qed.

Section Plane.
Variables (src : mem) (s d st : Z) (dst : mem) (w h : Z).
Let e (k : Z) : Z := src (s + k).
Hypothesis Sh : intra_shape w h.
Hypothesis W : w <= st.
Hypothesis L : forall k, - h <= k <= w -> 0 <= e k <= 255.
Let gx := gradient w (fst (plane_scale w)) (snd (plane_scale w)) e.
Let gy := gradient h (fst (plane_scale h)) (snd (plane_scale h)) (fun k => e (- k)).
Let it := 16 * (e w + e (- h)) - (h / 2 - 1) * gy - (w / 2 - 1) * gx + 16.
Lemma slopes_ok : slopes src s w h = (gx, gy, it).
Proof.
  pose proof (shape_pos w h Sh) as B. destruct (shape_sides w h Sh) as [Iw Ih].
  unfold slopes. cbv zeta.
  assert (E1 : plane_slope w (grad_h src s w) = gx).
  { unfold gx. apply (gradient_eq 0); [exact Iw|]. unfold grad_h. cbv zeta. rewrite Z.shiftr_div_pow2 by lia. change (2 ^ 1) with 2.
    rewrite floop_sum1 by (apply Z.div_pos; lia). apply sum_ext. intros i Hi. unfold e. do 2 f_equal; f_equal; lia. }
  assert (E2 : plane_slope h (grad_v src s h) = gy).
  { unfold gy. apply (gradient_eq 0 h (fun k => e (- k))); [exact Ih|]. unfold grad_v. cbv zeta. rewrite Z.shiftr_div_pow2 by lia. change (2 ^ 1) with 2.
    rewrite floop_sum1 by (apply Z.div_pos; lia). apply sum_ext. intros i Hi. unfold e. do 2 f_equal; f_equal; lia. }
  rewrite E1, E2. f_equal. unfold it. rewrite !Z.shiftr_div_pow2, Z.shiftl_mul_pow2 by lia. change (2 ^ 1) with 2. change (2 ^ 4) with 16.
  unfold e. replace (s - 1 - (h - 1)) with (s + - h) by lia. replace (s + 1 + w - 1) with (s + w) by lia. lia.
Qed.
(** The value before the shift at column [x], row [y]. *)
Definition level (x y : Z) : Z := it + x * gx + y * gy.
Lemma level_rule x y : 0 <= x < w -> 0 <= y < h -> sat_u8 (Z.shiftr (to_i16 (level x y)) 5) = plane_rule 8 e w h x y.
Proof.
  intros Hx Hy. destruct (shape_sides w h Sh) as [Iw Ih]. pose proof (shape_pos w h Sh) as B.
  pose proof (gradient_bound w e Iw ltac:(intros; apply L; lia) x Hx) as Bx. fold gx in Bx.
  pose proof (gradient_bound h (fun k => e (- k)) Ih ltac:(intros; apply L; lia) y Hy) as By. fold gy in By.
  pose proof (L w ltac:(lia)). pose proof (L (- h) ltac:(lia)).
  assert (E : level x y = 16 * (e w + e (- h)) + (x - (w / 2 - 1)) * gx + (y - (h / 2 - 1)) * gy + 16) by (unfold level, it; ring).
  rewrite to_i16_id by (rewrite E; lia). rewrite sat_clamp, Z.shiftr_div_pow2 by lia. rewrite E. reflexivity.
Qed.
(** A register holds the levels of a row from column [X] on. *)
Definition levels (n X y : Z) (r : reg) : Prop := forall i, 0 <= i < n -> i16_of r i = to_i16 (level (X + i) y).
Lemma levels_start n iota : (forall i, 0 <= i < n -> nth (Z.to_nat i) iota 0 = i) -> n <= 16 ->
  levels n 0 0 (add_epi16 (mullo_epi16 (set1_epi16 gx) (setr_epi16 iota)) (set1_epi16 it)).
Proof.
  intros Hi Hn i H. rewrite i16_add, i16_mullo, !i16_set. unfold setr_epi16. rewrite i16_mk16, Hi by exact H.
  rewrite to_i16_mul, to_i16_add. f_equal. unfold level. ring.
Qed.
Lemma levels_down n X y r : levels n X y r -> levels n X (y + 1) (add_epi16 r (set1_epi16 gy)).
Proof. intros H i Hi. rewrite i16_add, i16_set, H, to_i16_add by exact Hi. f_equal. unfold level. ring. Qed.
Lemma levels_right n X y r : levels n X y r -> levels n (X + n) y (add_epi16 r (mullo_epi16 (set1_epi16 gx) (set1_epi16 n))).
Proof. intros H i Hi. rewrite i16_add, i16_mullo, !i16_set, H, to_i16_mul, to_i16_add by exact Hi. f_equal. unfold level. ring. Qed.
Lemma levels_out n X y r i : levels n X y r -> 0 <= i < n -> 0 <= X + i < w -> 0 <= y < h ->
  sat_u8 (i16_of (srai_epi16 r 5) i) = plane_rule 8 e w h (X + i) y.
Proof. intros H Hi HX Hy. rewrite i16_srai by lia. rewrite H by exact Hi. apply level_rule; assumption. Qed.

Lemma plane_sse_ok : predicts w h d st dst (plane_sse src s d st w h dst) (plane_rule 8 e w h).
Proof.
  pose proof (shape_pos w h Sh) as B. destruct (shape_sides w h Sh) as [Iw Ih].
  unfold plane_sse. rewrite slopes_ok. cbv zeta.
  apply (rows_predict (fun y r => levels 8 0 y r)); [lia|lia|apply levels_start; [exact iota8|lia]|].
  intros y T m Hy HT. cbn [fst snd]. split; [apply levels_down; exact HT|].
  destruct (Z.eqb_spec w 4) as [E4|N4].
  { apply store_row_w; [exact E4|]. intros k Hk. rewrite packus_lo by lia. apply (levels_out 8 0 y T k HT); lia. }
  destruct (Z.eqb_spec w 8) as [E8|N8].
  { apply store_row_w; [exact E8|]. intros k Hk. rewrite packus_lo by lia. apply (levels_out 8 0 y T k HT); lia. }
  assert (M16 : 16 * ((w + 16 - 1) / 16) = w) by (clear - Iw N4 N8; cbn [In] in Iw; destruct Iw as [<-|[<-|[<-|[<-|[<-|[]]]]]]; try reflexivity; congruence).
    set (q := d + y * st). set (F := fun x => plane_rule 8 e w h x y).
  match goal with |- forall j, snd (sloop w 16 ?f (T, m)) j = _ =>
    pose proof (sloop_inv (fun X (t : reg * mem) => levels 8 X y (fst t) /\ forall j, snd t j = fill q 0 X F m j) w 16 f (T, m)) as I end.
  cbv beta in I. rewrite M16 in I. apply I; [lia|lia|split; [exact HT|intros j; rewrite fill_none by lia; reflexivity]|].
  intros k [R u] Hk Hx [I1 I2]. cbn [fst snd] in *.
  assert (16 * k + 16 <= w) by (assert (w mod 16 = 0) by (rewrite <- M16, Z.mul_comm; apply Z.mod_mul; lia); Z.div_mod_to_equations; lia).
  pose proof (levels_right 8 _ y _ I1) as J. split.
  - replace (16 * k + 16) with (16 * k + 8 + 8) by lia. apply (levels_right 8); exact J.
  - intros j. unfold store16. rewrite (store_fill 16 u q (16 * k) _ F).
    + rewrite (fill_ext _ _ _ _ u _ I2). apply fill_fill. lia.
    + intros i Hi. unfold F. destruct (Z.lt_ge_cases i 8).
      * rewrite packus_lo by lia. apply (levels_out 8 (16 * k) y R i I1); lia.
      * replace i with (8 + (i - 8)) at 1 by lia. rewrite packus_hi by lia. replace (16 * k + i) with (16 * k + 8 + (i - 8)) by lia. apply (levels_out 8 (16 * k + 8) y _ (i - 8) J); lia.
Qed.
Lemma plane_avx_ok : predicts w h d st dst (plane_avx src s d st w h dst) (plane_rule 8 e w h).
Proof.
  pose proof (shape_pos w h Sh) as B. destruct (shape_sides w h Sh) as [Iw Ih].
  unfold plane_avx. rewrite slopes_ok. cbv zeta.
  apply (rows_predict (fun y r => levels 16 0 y r)); [lia|lia|apply levels_start; [exact iota16|lia]|].
  intros y T m Hy HT. cbn [fst snd]. split; [apply levels_down; exact HT|].
  destruct (Z.eqb_spec w 4) as [E4|N4].
  { intros j. rewrite mask32_store. apply store_row_w; [exact E4|]. intros k Hk. rewrite packus_lo by lia. apply (levels_out 16 0 y T k HT); lia. }
  destruct (Z.eqb_spec w 8) as [E8|N8].
  { intros j. change 7 with (8 - 1). rewrite (mask64_store 8) by lia. apply store_row_w; [exact E8|]. intros k Hk. rewrite packus_lo by lia. apply (levels_out 16 0 y T k HT); lia. }
  destruct (Z.eqb_spec w 16) as [E16|N16].
  { intros j. change 15 with (16 - 1). rewrite (mask64_store 16) by lia. apply store_row_w; [exact E16|]. intros k Hk. rewrite pack_self by lia. apply (levels_out 16 0 y T k HT); lia. }
  assert (M32 : 32 * ((w + 32 - 1) / 32) = w) by (clear - Iw N4 N8 N16; cbn [In] in Iw; destruct Iw as [<-|[<-|[<-|[<-|[<-|[]]]]]]; try reflexivity; congruence).
    set (q := d + y * st). set (F := fun x => plane_rule 8 e w h x y).
  match goal with |- forall j, snd (sloop w 32 ?f (T, m)) j = _ =>
    pose proof (sloop_inv (fun X (t : reg * mem) => levels 16 X y (fst t) /\ forall j, snd t j = fill q 0 X F m j) w 32 f (T, m)) as I end.
  cbv beta in I. rewrite M32 in I. apply I; [lia|lia|split; [exact HT|intros j; rewrite fill_none by lia; reflexivity]|].
  intros k [R u] Hk Hx [I1 I2]. cbn [fst snd] in *.
  assert (32 * k + 32 <= w) by (assert (w mod 32 = 0) by (rewrite <- M32, Z.mul_comm; apply Z.mod_mul; lia); Z.div_mod_to_equations; lia).
  pose proof (levels_right 16 _ y _ I1) as J. split.
  - replace (32 * k + 32) with (32 * k + 16 + 16) by lia. apply (levels_right 16); exact J.
  - intros j. unfold store32. rewrite (store_fill 32 u q (32 * k) _ F).
    + rewrite (fill_ext _ _ _ _ u _ I2). apply fill_fill. lia.
    + intros i Hi. unfold F. rewrite pack_two by exact Hi. destruct (Z.ltb_spec i 16).
      * apply (levels_out 16 (32 * k) y R i I1); lia.
      * replace (32 * k + i) with (32 * k + 16 + (i - 16)) by lia. apply (levels_out 16 (32 * k + 16) y _ (i - 16) J); lia.
Qed.
End Plane.
