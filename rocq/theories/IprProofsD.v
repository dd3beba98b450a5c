(** Each specialised predictor on each block shape. *)
From Coq Require Import ZArith List Bool Lia.
From Verif Require Import CBase MemModel MemProofs MemProofsB SaoModel SaoProofs LfModel IprModel IprSpec IprProofs IprProofsB IprProofsC.
Import ListNotations.
Open Scope Z_scope.

Ltac shapes H :=
  unfold intra_shape in H; cbn [In] in H;
  repeat (destruct H as [H|H]; [apply pair_equal_spec in H; destruct H as [<- <-]|]); [..|destruct H].
(** Evaluate the sizes. *)
Ltac ev :=
  repeat match goal with
  | |- context [Z.shiftr ?a ?b] => let c := eval vm_compute in (Z.shiftr a b) in (match c with Zpos _ => idtac | Z0 => idtac end); change (Z.shiftr a b) with c
  | |- context [Z.shiftl ?a ?b] => let c := eval vm_compute in (Z.shiftl a b) in (match c with Zpos _ => idtac | Z0 => idtac end); change (Z.shiftl a b) with c
  | |- context [Zpos ?a / Zpos ?b] => let c := eval vm_compute in (Zpos a / Zpos b) in change (Zpos a / Zpos b) with c
  | |- context [aligned ?a] => let c := eval vm_compute in (aligned a) in (match c with Zpos _ => idtac end); change (aligned a) with c
  | |- context [rounds ?a ?b] => let c := eval vm_compute in (rounds a b) in (match c with Zpos _ => idtac end); change (rounds a b) with c
  end.

Ltac direct_r C := apply right_direct; [first [exact C|eapply codes_prefix; exact C]|reflexivity|lia].
Ltac direct_l C := apply left_direct; [first [exact C|eapply codes_prefix; exact C]|reflexivity|lia].
Ltac sh := let S := fresh in let W := fresh "W" in intros ? ? S W; shapes S.
Lemma if_t {A} (b : bool) (x y : A) : b = true -> (if b then x else y) = x. Proof. intros ->. reflexivity. Qed.
Lemma if_f {A} (b : bool) (x y : A) : b = false -> (if b then x else y) = y. Proof. intros ->. reflexivity. Qed.
Ltac branch := repeat match goal with
  | |- context [if ?b then ?x else ?y] => first [rewrite (if_t b x y eq_refl) | rewrite (if_f b x y eq_refl)]
  end.

(** ** The general predictors *)
Lemma cp_one m k sl D : 0 <= k <= 8 -> sl = m * 2 ^ (8 - k) ->
  Z.shiftr (D * m) k = walk sl D /\ Z.shiftr (D * m * 32) k - walk sl D * 32 = frac sl D.
Proof.
  intros Hk ->. rewrite !Z.shiftr_div_pow2 by lia. unfold walk, frac.
  assert (P : 0 < 2 ^ k) by (apply Z.pow_pos_nonneg; lia).
  assert (Q : 0 < 2 ^ (8 - k)) by (apply Z.pow_pos_nonneg; lia).
  assert (E : 2 ^ k * 2 ^ (8 - k) = 256). { rewrite <- Z.pow_add_r by lia. replace (k + (8 - k)) with 8 by lia. reflexivity. }
  set (A := 2 ^ k) in *. set (B := 2 ^ (8 - k)) in *. clearbody A B.
  assert (W : D * m / A = D * (m * B) / 256). { rewrite <- E, Z.mul_assoc. symmetry. apply Z.div_mul_cancel_r; lia. }
  assert (F : D * m * 32 / A = D * (m * B) / 8).
  { transitivity (D * m * 32 * B / (A * B)); [symmetry; apply Z.div_mul_cancel_r; lia|]. rewrite E.
    replace (D * m * 32 * B) with (D * (m * B) * 32) by lia. change 256 with (8 * 32). apply Z.div_mul_cancel_r; lia. }
  split; [exact W|]. rewrite F. change 256 with (8 * 32). rewrite <- Z.div_div by lia. rewrite Z.mod_eq by lia. lia.
Qed.
Definition across (mode : Z) : Z := slope (fst (direction mode)) (snd (direction mode)).
Definition down (mode : Z) : Z := slope (snd (direction mode)) (fst (direction mode)).
Ltac modes H :=
  match type of H with ?a <= ?m <= ?b =>
    repeat match goal with
    | H : ?a <= m <= ?b |- _ =>
        let a' := eval vm_compute in (a + 1) in
        destruct (Z.eq_dec m a) as [->|]; [clear H|assert (a' <= m <= b) by lia; clear H; try lia]
    end
  end.
Lemma context_across mode D : 3 <= mode <= 11 \/ 13 <= mode <= 23 -> context_pixel mode false D = (walk (across mode) D, frac (across mode) D).
Proof.
  intros H. unfold context_pixel.
  assert (G : exists m k, nth (Z.to_nat mode) dir_dxdy (0, 0) = (m, k) /\ 0 <= k <= 8 /\ across mode = m * 2 ^ (8 - k)).
  { destruct H as [H|H]; modes H; (eexists; eexists; split; [reflexivity|split; [lia|reflexivity]]). }
  destruct G as (m & k & -> & Hk & E). destruct (cp_one m k (across mode) D Hk E) as [A B]. rewrite A, B. reflexivity.
Qed.
Lemma context_down mode D : 13 <= mode <= 23 \/ 25 <= mode <= 32 -> context_pixel mode true D = (walk (down mode) D, frac (down mode) D).
Proof.
  intros H. unfold context_pixel.
  assert (G : exists m k, nth (Z.to_nat mode) dir_dydx (0, 0) = (m, k) /\ 0 <= k <= 8 /\ down mode = m * 2 ^ (8 - k)).
  { destruct H as [H|H]; modes H; (eexists; eexists; split; [reflexivity|split; [lia|reflexivity]]). }
  destruct G as (m & k & -> & Hk & E). destruct (cp_one m k (down mode) D Hk E) as [A B]. rewrite A, B. reflexivity.
Qed.
Lemma block_predicts w h d st val dst v : 0 < w <= st -> 0 < h ->
  (forall x y m, 0 <= x < w -> 0 <= y < h -> val x y m = v x y) ->
  predicts w h d st dst (block_write (Z.to_nat w) (Z.to_nat h) d st val dst) v.
Proof.
  intros Hw Hh H. destruct (block_write_spec (Z.to_nat w) (Z.to_nat h) d st val dst) as [A B].
  - lia.
  - intros x y m' Hx Hy _. rewrite !H by lia. reflexivity.
  - split.
    + intros x y Hx Hy. specialize (A x y). unfold bpos in A. rewrite A, H by lia. reflexivity.
    + intros q Hq. apply B. intros (x & y & Hx & Hy & E). apply (Hq x y); [lia|lia|exact E].
Qed.
Lemma taps_interp A B C D f : Z.shiftr (A * (32 - f) + B * (64 - f) + C * (32 + f) + D * f + 64) 7 =
  ((32 - f) * (A + 2 * B + C) + f * (B + 2 * C + D) + 64) / 128.
Proof. rewrite Z.shiftr_div_pow2 by lia. change (2 ^ 7) with 128. f_equal. ring. Qed.
Lemma direct_right mode src s x y : 3 <= mode <= 11 -> direct (fun k => src (s + k)) mode x y = right_rule src s (across mode) x y.
Proof.
  intros H. unfold direct, right_rule, across. destruct (direction mode) as [dx dy]. cbn [fst snd]. destruct (Z.ltb_spec mode 12); [reflexivity|lia].
Qed.
Lemma direct_corner mode src s x y : 13 <= mode <= 23 -> direct (fun k => src (s + k)) mode x y = corner_rule src s (across mode) (down mode) x y.
Proof.
  intros H. unfold direct, corner_rule, across, down. destruct (direction mode) as [dx dy]. cbn [fst snd].
  destruct (Z.ltb_spec mode 12); [lia|]. destruct (Z.ltb_spec mode 24); [reflexivity|lia].
Qed.
Lemma direct_left mode src s x y : 25 <= mode <= 32 -> direct (fun k => src (s + k)) mode x y = left_rule src s (down mode) x y.
Proof.
  intros H. unfold direct, left_rule, down. destruct (direction mode) as [dx dy]. cbn [fst snd].
  destruct (Z.ltb_spec mode 12); [lia|]. destruct (Z.ltb_spec mode 24); [lia|reflexivity].
Qed.
Lemma taps_right (src : mem) s p f A B C D : A = src (s + (p - 1)) -> B = src (s + p) -> C = src (s + (p + 1)) -> D = src (s + (p + 2)) ->
  Z.shiftr (A * (32 - f) + B * (64 - f) + C * (32 + f) + D * f + 64) 7 = interp (fun k => src (s + k)) p 1 f.
Proof.
  intros -> -> -> ->. rewrite taps_interp. unfold interp, smooth. replace (p + 1 - 1) with p by lia. replace (p + 1 + 1) with (p + 2) by lia. reflexivity.
Qed.
Lemma taps_left (src : mem) s p f A B C D : A = src (s + (p + 1)) -> B = src (s + p) -> C = src (s + (p - 1)) -> D = src (s + (p - 2)) ->
  Z.shiftr (A * (32 - f) + B * (64 - f) + C * (32 + f) + D * f + 64) 7 = interp (fun k => src (s + k)) p (-1) f.
Proof.
  intros -> -> -> ->. rewrite taps_interp. unfold interp, smooth. replace (p + -1 - 1) with (p - 2) by lia. replace (p + -1 + 1) with p by lia.
  replace (p + -1) with (p - 1) by lia. f_equal. ring.
Qed.
Lemma ang_x_ok bits src s d st mode w h dst : 3 <= mode <= 11 -> 0 < w <= st -> 0 < h ->
  predicts w h d st dst (ang_x bits src s d st mode w h dst) (fun x y => to_pel bits (right_rule src s (across mode) x y)).
Proof.
  intros M Hw Hh. apply block_predicts; [exact Hw|exact Hh|]. intros x y m Hx Hy. rewrite context_across by auto.
  cbv zeta. f_equal. apply taps_right; f_equal; lia.
Qed.
Lemma ang_y_ok bits src s d st mode w h dst : 25 <= mode <= 32 -> 0 < w <= st -> 0 < h ->
  predicts w h d st dst (ang_y bits src s d st mode w h dst) (fun x y => to_pel bits (left_rule src s (down mode) x y)).
Proof.
  intros M Hw Hh. apply block_predicts; [exact Hw|exact Hh|]. intros x y m Hx Hy. rewrite context_down by auto.
  cbv zeta. f_equal. apply taps_left; f_equal; lia.
Qed.
Lemma ang_xy_ok bits src s d st mode w h dst : 13 <= mode <= 23 -> 0 < w <= st -> 0 < h ->
  predicts w h d st dst (ang_xy bits src s d st mode w h dst) (fun x y => to_pel bits (corner_rule src s (across mode) (down mode) x y)).
Proof.
  intros M Hw Hh. apply block_predicts; [exact Hw|exact Hh|]. intros x y m Hx Hy. rewrite context_down, context_across by auto.
  cbv zeta. unfold corner_rule.
  destruct (Z.leb_spec (y - walk (down mode) (x + 1)) (-1)) as [L|L]; destruct (Z.ltb_spec y (walk (down mode) (x + 1))) as [L'|L']; try lia; f_equal.
  - apply taps_left; f_equal; lia.
  - apply taps_right; f_equal; lia.
Qed.

Lemma ang_x_at bits src s d st mode sl w h dst : 3 <= mode <= 11 -> across mode = sl -> 0 < w <= st -> 0 < h ->
  predicts w h d st dst (ang_x bits src s d st mode w h dst) (fun x y => to_pel bits (right_rule src s sl x y)).
Proof. intros M <-. apply ang_x_ok. exact M. Qed.
Lemma ang_y_at bits src s d st mode sl w h dst : 25 <= mode <= 32 -> down mode = sl -> 0 < w <= st -> 0 < h ->
  predicts w h d st dst (ang_y bits src s d st mode w h dst) (fun x y => to_pel bits (left_rule src s sl x y)).
Proof. intros M <-. apply ang_y_ok. exact M. Qed.
Section Instances.
Variables (bits : Z) (junk src : mem) (s d st : Z) (dst : mem).

Ltac planar C M B :=
  eapply (right_lines _ _ _ _ _ _ _ _ _ _ 0 _ M _ _ B); [exact C|reflexivity|lia|reflexivity|lia|lia|lia|lia|apply Z.le_refl| |intros; lia];
  intros k i Hk Hi; rewrite Z.add_0_l; apply planar_read; [lia|lia|lia|exact Hk].
Lemma x3_ok : forall w h, intra_shape w h -> w <= st ->
  predicts w h d st dst (ang_x_3 bits junk src s d st w h dst) (fun x y => to_pel bits (right_rule src s 704 x y)).
Proof. sh; unfold ang_x_3, lines_x3; ev; planar c_x3 11 (fun k => k * 240). Qed.
Lemma x4_ok : forall w h, intra_shape w h -> w <= st ->
  predicts w h d st dst (ang_x_4 bits junk src s d st w h dst) (fun x y => to_pel bits (right_rule src s 512 x y)).
Proof.
  sh; unfold ang_x_4, lines_x4; ev;
  (eapply (right_lines _ _ _ _ _ _ _ _ _ _ 3 _ 2 _ _ (fun _ => 0)); [exact c_x4|reflexivity|lia|reflexivity|lia|lia|lia|lia|apply Z.le_refl| |intros; lia];
   intros k i Hk Hi; rewrite Z.add_0_l; replace k with 0 by lia; rewrite Z.add_assoc; apply single_read; lia).
Qed.
Lemma x6_ok : forall w h, intra_shape w h -> w <= st ->
  predicts w h d st dst (ang_x_6 bits junk src s d st w h dst) (fun x y => to_pel bits (right_rule src s 256 x y)).
Proof.
  sh; unfold ang_x_6, lines_x6; ev;
  (eapply (right_lines _ _ _ _ _ _ _ _ _ _ 0 _ 1 _ _ (fun _ => 0)); [exact c_x6|reflexivity|lia|reflexivity|lia|lia|lia|lia|apply Z.le_refl| |intros; lia];
   intros k i Hk Hi; rewrite !Z.add_0_l; replace k with 0 by lia; apply single_read; lia).
Qed.
Lemma x8_ok : forall w h, intra_shape w h -> w <= st ->
  predicts w h d st dst (ang_x_8 bits junk src s d st w h dst) (fun x y => to_pel bits (right_rule src s 128 x y)).
Proof.
  sh; unfold ang_x_8, lines_x8; cbv zeta; ev; match goal with |- context [fun k t => k * ?al + t] => planar c_x8 1 (fun k => k * al) end.
Qed.
Lemma x10_ok : forall w h, intra_shape w h -> w <= st ->
  predicts w h d st dst (ang_x_10 bits junk src s d st w h dst) (fun x y => to_pel bits (right_rule src s 64 x y)).
Proof.
  sh; unfold ang_x_10, lines_x10; cbv zeta; branch; ev;
  lazymatch goal with |- context [direct_rows] => direct_r c_x10 | |- context [fun k t => k * ?al + t] => planar c_x10 1 (fun k => k * al) end.
Qed.
Lemma x11_ok : forall w h, intra_shape w h -> w <= st ->
  predicts w h d st dst (ang_x_11 bits junk src s d st w h dst) (fun x y => to_pel bits (right_rule src s 32 x y)).
Proof.
  sh; unfold ang_x_11, lines_x11; cbv zeta; branch; ev;
  lazymatch goal with |- context [direct_rows] => direct_r c_x11 | |- context [fun k t => k * ?al + t] => planar c_x11 1 (fun k => k * al) end.
Qed.
Lemma x7_ok : forall w h, intra_shape w h -> w <= st ->
  predicts w h d st dst (ang_x_7 bits src s d st 7 w h dst) (fun x y => to_pel bits (right_rule src s 186 x y)).
Proof. sh; unfold ang_x_7; branch; lazymatch goal with |- context [direct_rows] => direct_r c_x7 | _ => apply ang_x_at; [lia|reflexivity|lia|lia] end. Qed.
Lemma x9_ok : forall w h, intra_shape w h -> w <= st ->
  predicts w h d st dst (ang_x_9 bits src s d st 9 w h dst) (fun x y => to_pel bits (right_rule src s 93 x y)).
Proof. sh; unfold ang_x_9; branch; lazymatch goal with |- context [direct_rows] => direct_r c_x9 | _ => apply ang_x_at; [lia|reflexivity|lia|lia] end. Qed.

Ltac strided C K o :=
  eapply (left_lines _ _ _ _ _ _ _ _ _ _ o K); [exact C|reflexivity|lia|reflexivity|lia|lia|apply Z.le_refl| |intros; lia].
Ltac strided0 C K :=
  strided C K 0;
  let i := fresh "i" in let Hi := fresh "Hi" in intros i Hi; rewrite strided_read by (reflexivity || lia);
  match goal with |- context [s - i / K] => replace (s - i / K) with (s + (- 0 - i / K)) by lia end; reflexivity.
Lemma y25_ok : forall w h, intra_shape w h -> w <= st ->
  predicts w h d st dst (ang_y_25 bits junk src s d st w h dst) (fun x y => to_pel bits (left_rule src s 32 x y)).
Proof.
  sh; unfold ang_y_25, lines_y25; branch; ev; lazymatch goal with |- context [direct_cols] => direct_l c_y25 | _ => strided0 c_y25 8 end.
Qed.
Lemma y26_ok : forall w h, intra_shape w h -> w <= st ->
  predicts w h d st dst (ang_y_26 bits junk src s d st w h dst) (fun x y => to_pel bits (left_rule src s 64 x y)).
Proof.
  sh; unfold ang_y_26, lines_y26; branch; ev; lazymatch goal with |- context [direct_cols] => direct_l c_y26 | _ => strided0 c_y26 4 end.
Qed.
Lemma y27_ok : forall w h, intra_shape w h -> w <= st ->
  predicts w h d st dst (ang_y_27 bits src s d st 27 w h dst) (fun x y => to_pel bits (left_rule src s 93 x y)).
Proof.
  sh; unfold ang_y_27; branch; lazymatch goal with |- context [direct_cols] => direct_l c_y27 | _ => apply ang_y_at; [lia|reflexivity|lia|lia] end.
Qed.
Lemma y28_ok : forall w h, intra_shape w h -> w <= st ->
  predicts w h d st dst (ang_y_28 bits junk src s d st w h dst) (fun x y => to_pel bits (left_rule src s 128 x y)).
Proof. sh; unfold ang_y_28, lines_y28; ev; strided0 c_y28 2. Qed.
Lemma y29_ok : forall w h, intra_shape w h -> w <= st ->
  predicts w h d st dst (ang_y_29 bits src s d st 29 w h dst) (fun x y => to_pel bits (left_rule src s 186 x y)).
Proof.
  sh; unfold ang_y_29; branch; lazymatch goal with |- context [direct_cols] => direct_l c_y29 | _ => apply ang_y_at; [lia|reflexivity|lia|lia] end.
Qed.
Lemma y30_ok : forall w h, intra_shape w h -> w <= st ->
  predicts w h d st dst (ang_y_30 bits junk src s d st w h dst) (fun x y => to_pel bits (left_rule src s 256 x y)).
Proof.
  sh; unfold ang_y_30, lines_y30; ev; strided c_y30 1 2; intros i Hi; rewrite Z.mod_1_r, Z.div_1_r; unfold e_y30; rewrite single_read by lia;
  replace (s - 2 - i) with (s + (- (2) - i)) by lia; reflexivity.
Qed.
Lemma y32_ok : forall w h, intra_shape w h -> w <= st ->
  predicts w h d st dst (ang_y_32 bits junk src s d st w h dst) (fun x y => to_pel bits (left_rule src s 512 x y)).
Proof.
  assert (G : forall w nr n al, 0 < nr -> 0 < w <= st -> nr + w - 1 <= n -> n <= al ->
    predicts w (nr * 2) d st dst (rows_copy nr 2 w d st (line_fill bits e_y32 (fun k i => k * al + i) src (fun i => s - 3 - 2 * i) 0 n junk) (fun k t => k * al + t) dst)
      (fun x y => to_pel bits (left_rule src s 512 x y))).
  { intros w nr n al Hr Hw Hn Hal. eapply predicts_ext; [apply rows_spec; lia|]. cbn beta. intros x y Hx Hy.
    pose proof (Z.mod_pos_bound y 2 ltac:(lia)) as B. pose proof (Z.div_mod y 2 ltac:(lia)) as D.
    set (t := y / 2) in *. set (k := y mod 2) in *. clearbody t k. subst y.
    rewrite <- Z.add_assoc, planar_read by (first [exact B|lia]). f_equal.
    replace (s - 3 - 2 * (t + x)) with (s + (- 3 - 2 * (t + x))) by lia.
    rewrite (code_at _ _ _ _ _ _ _ _ c_y32) by exact B. unfold left_rule.
    replace (walk 512 (x + 1)) with (2 * (x + 1)) by (unfold walk; rewrite <- (Z.div_mul (2 * (x + 1)) 256) by lia; f_equal; lia).
    replace (frac 512 (x + 1)) with 0 by (unfold frac; replace ((x + 1) * 512) with ((x + 1) * 2 * 32 * 8) by lia; rewrite Z.div_mul by lia; rewrite Z.mod_mul by lia; reflexivity).
    f_equal. lia. }
  sh; unfold ang_y_32, lines_y32; cbv zeta; ev;
  match goal with |- predicts _ ?h _ _ _ (rows_copy ?n _ _ _ _ _ _ _) _ => change h with (n * 2) end; apply G; lia.
Qed.

(** Up and left. *)
Lemma planar_corner el et K nr al w h L N :
  codes el 0 (fun k => K - 1 - k) (fun _ => 0) 1 -> codes et 0 (pos_l (256 / K)) (fr (256 / K)) (-1) ->
  Z.of_nat (length el) = K -> Z.of_nat (length et) = K -> 0 < K -> K * (256 / K) = 256 -> 0 < nr -> h = nr * K -> 0 < w <= st ->
  L = nr - 1 -> N = nr - 1 + w -> N <= al ->
  predicts w h d st dst
    (rows_copy nr K w d st
       (line_fill bits et (fun k i => k * al + i) src (fun i => s - (h - K) + K * L + (i - L)) L N
          (line_fill bits el (fun k i => k * al + i) src (fun i => s - (h - K) + K * i) 0 L junk))
       (fun k t => k * al + L - t) dst)
    (fun x y => to_pel bits (corner_rule src s (256 / K) (K * 256) x y)).
Proof.
  intros Cl Ct Ll Lt HK P Hr Hh Hw HL HN Hal.
  apply (corner_planar bits src s d st w h dst el et K nr (fun k => k * al)); try assumption.
  - intros k i Hk Hi. rewrite planar_left by lia. rewrite planar_read by lia. f_equal.
    replace (s - (h - K) + K * i) with (s + (- (h - K) + K * i)) by lia. reflexivity.
  - intros k i Hk Hi. rewrite planar_read by lia. f_equal.
    replace (s - (h - K) + K * L + (i - L)) with (s + (i - (nr - 1))) by (subst; lia). reflexivity.
  - intros. subst L. lia.
Qed.
Lemma strided_corner el et K w h n N off :
  codes el 0 (fun k => walk (256 / K) (k + 1)) (fr (256 / K)) 1 -> codes [et] 0 (fun _ => 0) (fun _ => 0) (-1) ->
  Z.of_nat (length el) = K -> 0 < K -> K * (256 / K) = 256 -> 0 < w <= st -> 0 < h ->
  n = h -> N = K * (h - 1) + w -> (forall t, off 0 t = K * (h - 1 - t)) ->
  predicts w h d st dst
    (rows_copy h 1 w d st
       (line_fill bits [et] (fun _ i => i) src (fun i => s - h + n + (i - (K * n - 1))) (K * n - 1) N
          (line_fill bits el (fun k t => k + K * t) src (fun t => s - h + t) 0 n junk))
       off dst)
    (fun x y => to_pel bits (corner_rule src s (K * 256) (256 / K) x y)).
Proof.
  intros Cl Ct Ll HK P Hw Hh Hn HN Hoff. subst n N.
  apply (corner_strided bits src s d st w h dst el et K); try assumption.
  - intros i Hi. rewrite single_other by lia. rewrite strided_read by lia. f_equal.
    replace (s - h + i / K) with (s + (- h + i / K)) by lia. reflexivity.
  - intros i Hi. rewrite single_read by lia. f_equal.
    replace (s - h + h + (i - (K * h - 1))) with (s + (i - (K * h - 1))) by lia. reflexivity.
Qed.
Ltac planar_c Cl Ct := apply planar_corner; [exact Cl|exact Ct|reflexivity|reflexivity|lia|reflexivity|lia|reflexivity|lia|reflexivity|reflexivity|lia].
Ltac strided_c Cl Ct := apply strided_corner; [exact Cl|exact Ct|reflexivity|lia|reflexivity|lia|lia|reflexivity|reflexivity|intros; lia].
Lemma xy13_ok : forall w h, intra_shape w h -> w <= st ->
  predicts w h d st dst (ang_xy_13 bits junk src s d st w h dst) (fun x y => to_pel bits (corner_rule src s 32 2048 x y)).
Proof.
  sh; unfold ang_xy_13, lines_xy13; branch; cbv zeta; ev;
  lazymatch goal with |- context [direct_rows] => apply (corner_rows bits src s d st _ _ dst _ 8); [first [exact c_xy13|eapply codes_prefix; exact c_xy13]|reflexivity|lia|lia] | _ => planar_c c_xy13l c_xy13 end.
Qed.
Lemma xy14_ok : forall w h, intra_shape w h -> w <= st ->
  predicts w h d st dst (ang_xy_14 bits junk src s d st w h dst) (fun x y => to_pel bits (corner_rule src s 64 1024 x y)).
Proof.
  sh; unfold ang_xy_14, lines_xy14; branch; cbv zeta; ev;
  lazymatch goal with |- context [direct_rows] => apply (corner_rows bits src s d st _ _ dst _ 4); [exact c_xy14|reflexivity|lia|lia] | _ => planar_c c_xy14l c_xy14 end.
Qed.
Lemma xy16_ok : forall w h, intra_shape w h -> w <= st ->
  predicts w h d st dst (ang_xy_16 bits junk src s d st w h dst) (fun x y => to_pel bits (corner_rule src s 128 512 x y)).
Proof.
  sh; unfold ang_xy_16, lines_xy16; cbv zeta; ev; planar_c c_xy16l c_xy16.
Qed.
Lemma xy20_ok : forall w h, intra_shape w h -> w <= st ->
  predicts w h d st dst (ang_xy_20 bits junk src s d st w h dst) (fun x y => to_pel bits (corner_rule src s 512 128 x y)).
Proof.
  sh; unfold ang_xy_20, lines_xy20, rounds, e_mid; cbv zeta; ev; strided_c c_xy20l c_mid.
Qed.
Lemma xy22_ok : forall w h, intra_shape w h -> w <= st ->
  predicts w h d st dst (ang_xy_22 bits junk src s d st w h dst) (fun x y => to_pel bits (corner_rule src s 1024 64 x y)).
Proof.
  sh; unfold ang_xy_22, lines_xy22, rounds, e_mid; branch; cbv zeta; ev;
  lazymatch goal with |- context [direct_cols] => apply (corner_cols bits src s d st _ _ dst _ 4); [exact c_xy22s|reflexivity|lia|reflexivity|lia] | _ => strided_c c_xy22l c_mid end.
Qed.
Lemma xy23_ok : forall w h, intra_shape w h -> w <= st ->
  predicts w h d st dst (ang_xy_23 bits junk src s d st w h dst) (fun x y => to_pel bits (corner_rule src s 2048 32 x y)).
Proof.
  sh; unfold ang_xy_23, lines_xy23, rounds, e_xy23t; branch; cbv zeta; ev;
  lazymatch goal with |- context [direct_cols] => apply (corner_cols bits src s d st _ _ dst _ 8); [first [exact c_xy23|eapply codes_prefix; exact c_xy23]|reflexivity|lia|reflexivity|lia] | _ => strided_c c_xy23l c_xy23t end.
Qed.
Lemma xy18_ok : forall w h, intra_shape w h -> w <= st ->
  predicts w h d st dst (ang_xy_18 bits junk src s d st w h dst) (fun x y => to_pel bits (corner_rule src s 256 256 x y)).
Proof.
  assert (G : forall w h, 0 < w <= st -> 0 < h ->
    predicts w h d st dst (ang_xy_18 bits junk src s d st w h dst) (fun x y => to_pel bits (corner_rule src s 256 256 x y))).
  { intros w h Hw Hh. unfold ang_xy_18, lines_xy18.
    eapply predicts_dims; [|reflexivity|apply Z.mul_1_r].
    eapply predicts_ext; [apply rows_spec; lia|]. cbn beta. intros x y Hx Hy.
    rewrite Z.div_1_r. unfold e_mid. rewrite single_read by lia. f_equal.
    replace (s - (h - 1) + (h - 1 - y + x)) with (s + (x - y)) by lia.
    assert (Wk : forall n, walk 256 n = n) by (intros; unfold walk; apply Z.div_mul; lia).
    assert (Fk : forall n, frac 256 n = 0) by (intros n; unfold frac; replace (n * 256) with (n * 32 * 8) by lia; rewrite Z.div_mul by lia; apply Z.mod_mul; lia).
    unfold corner_rule. rewrite !Wk, !Fk.
    destruct (Z.ltb_spec y (x + 1)) as [Q|Q].
    - pose proof (code_at src s e_mid _ _ _ (x - y) 0 c_mid ltac:(cbn; lia)) as E. cbn in E.
      etransitivity; [exact E|]. f_equal; lia.
    - pose proof (code_at src s e_mid _ _ _ (x - y) 0 c_mid1 ltac:(cbn; lia)) as E. cbn in E.
      etransitivity; [exact E|]. f_equal; lia. }
  sh; apply G; lia.
Qed.
End Instances.
