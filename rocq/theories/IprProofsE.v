(** Mode 5 and its mirror, mode 31, whose small blocks rely on how the border was filled. *)
From Coq Require Import ZArith List Bool Lia.
From Verif Require Import CBase UtilModel MemModel MemProofs LfModel LfProofs SaoModel SaoProofs McSpec IprModel IprSpec IprProofs IprProofsB IprProofsC IprProofsD.
Import ListNotations.
Open Scope Z_scope.

Lemma interp_const e p dir f c : (dir = 1 \/ dir = -1) -> (forall q, p - 1 + Z.min 0 dir <= q <= p + 1 + Z.max 0 dir -> e q = c) -> interp e p dir f = c.
Proof.
  intros D H. unfold interp, smooth.
  rewrite !H by (destruct D; subst dir; lia).
  replace ((32 - f) * (c + 2 * c + c) + f * (c + 2 * c + c) + 64) with (64 + c * 128) by ring.
  rewrite Z.div_add by lia. change (64 / 128) with 0. lia.
Qed.
Lemma walk_mono sl a b : 0 <= sl -> a <= b -> walk sl a <= walk sl b.
Proof. intros. unfold walk. apply Z.div_le_mono; [lia|]. apply Z.mul_le_mono_nonneg_r; lia. Qed.

Ltac planar C M B :=
  eapply (right_lines _ _ _ _ _ _ _ _ _ _ 0 _ M _ _ B); [exact C|reflexivity|lia|reflexivity|lia|lia|lia|lia|apply Z.le_refl| |intros; lia];
  let k := fresh "k" in let i := fresh "i" in let Hk := fresh "Hk" in let Hi := fresh "Hi" in
  intros k i Hk Hi; rewrite Z.add_0_l; apply planar_read; [lia|lia|lia|exact Hk].
Section Five.
Variables (bits : Z) (junk src : mem) (s d st : Z) (dst : mem).
Lemma pad_rows_spec v w a b m : 0 <= w <= st -> a <= b ->
  predicts w (b - a) (d + a * st) st m (pad_rows d st v w a b m) (fun _ _ => v).
Proof.
  intros Hw Hab. unfold pad_rows, predicts.
  apply (floop_inv (fun k (t : mem) =>
    (forall x y, 0 <= x < w -> 0 <= y < k - a -> t (d + a * st + y * st + x) = v) /\
    (forall q, (forall x y, 0 <= x < w -> 0 <= y < k - a -> q <> d + a * st + y * st + x) -> t q = m q)) a b); [lia| |].
  - split; [intros; lia|reflexivity].
  - intros j t Hj [P1 P2].
    assert (Q : (forall x, 0 <= x < w -> floop 0 w (fun i m0 => upd m0 (d + j * st + i) v) t (d + j * st + x) = v) /\
      (forall q, (forall x, 0 <= x < w -> q <> d + j * st + x) -> floop 0 w (fun i m0 => upd m0 (d + j * st + i) v) t q = t q)).
    { apply (floop_inv (fun k (u : mem) => (forall x, 0 <= x < k -> u (d + j * st + x) = v) /\ (forall q, (forall x, 0 <= x < k -> q <> d + j * st + x) -> u q = t q)) 0 w); [lia| |].
      - split; [intros; lia|reflexivity].
      - intros k u Hk [U1 U2]. split.
        + intros x Hx. destruct (Z.eq_dec x k) as [->|]; [apply upd_same|]. rewrite upd_other by lia. apply U1. lia.
        + intros q Hq. rewrite upd_other. { apply U2. intros x Hx. apply Hq. lia. }
          specialize (Hq k ltac:(lia)). congruence. }
    destruct Q as [Q1 Q2]. split.
    + intros x y Hx Hy. destruct (Z.eq_dec y (j - a)) as [->|].
      * replace (d + a * st + (j - a) * st + x) with (d + j * st + x) by ring. apply Q1. exact Hx.
      * rewrite Q2. { apply P1; lia. }
        intros x' Hx' E. assert (y * st + x = (j - a) * st + x') by lia.
        assert (y = j - a) by nia. lia.
    + intros q Hq. rewrite Q2. { apply P2. intros x y Hx Hy. apply Hq; lia. }
      intros x Hx E. apply (Hq x (j - a)); [exact Hx|lia|]. rewrite E. ring.
Qed.
Lemma put_at m x y x' y' v w : 0 <= x < w -> 0 <= x' < w -> w <= st ->
  IprModel.put bits (d + y' * st + x') v m (d + y * st + x) = if (y =? y') && (x =? x') then to_pel bits v else m (d + y * st + x).
Proof.
  intros Hx Hx' Hw. unfold IprModel.put.
  destruct (Z.eqb_spec y y') as [->|N]; cbn [andb].
  - destruct (Z.eqb_spec x x') as [->|]; [apply upd_same|apply upd_other; lia].
  - apply upd_other. intros E. apply N. nia.
Qed.
Lemma put_cases m x y x' y' v w : 0 <= x < w -> 0 <= x' < w -> w <= st ->
  (y = y' /\ x = x' /\ IprModel.put bits (d + y' * st + x') v m (d + y * st + x) = to_pel bits v) \/
  ((y = y' -> x <> x') /\ IprModel.put bits (d + y' * st + x') v m (d + y * st + x) = m (d + y * st + x)).
Proof.
  intros Hx Hx' Hw. rewrite (put_at m x y x' y' v w Hx Hx' Hw).
  destruct (Z.eqb_spec y y'), (Z.eqb_spec x x'); cbn [andb]; auto; right; split; auto; intros; contradiction.
Qed.
Lemma put_cong a a' v v' m m' : a = a' -> v = v' -> m = m' -> IprModel.put bits a v m = IprModel.put bits a' v' m'.
Proof. intros -> -> ->. reflexivity. Qed.
Lemma put_away m a v q : q <> a -> IprModel.put bits a v m q = m q.
Proof. intros H. unfold IprModel.put. apply upd_other. exact H. Qed.
Lemma five_row x k b : 0 <= k < 8 -> x = b -> right_rule src s 352 x k = nth (Z.to_nat k) e_x5 (fun _ => 0) (fun q => src (s + b + q)).
Proof.
  intros Hk ->. rewrite (code_at src s _ _ _ _ b k c_x5) by exact Hk. unfold right_rule, pos_x, fr. f_equal. lia.
Qed.
Lemma five_row8 x k b : 0 <= k < 8 -> b = 11 + x -> right_rule src s 352 x (8 + k) = nth (Z.to_nat k) e_x5 (fun _ => 0) (fun q => src (s + b + q)).
Proof.
  intros Hk ->. rewrite (code_at src s _ _ _ _ _ k c_x5) by exact Hk. unfold right_rule, pos_x, fr.
  replace (8 + k + 1) with (8 * 1 + (k + 1)) by lia. rewrite (walk_period 352 8 11), (frac_period 352 8 11) by lia.
  f_equal. lia.
Qed.
Lemma five_const w x y n : (forall k, 2 * w <= k <= n -> src (s + k) = src (s + 2 * w)) ->
  2 * w <= x + walk 352 (y + 1) -> x + walk 352 (y + 1) + 3 <= n -> right_rule src s 352 x y = src (s + 2 * w).
Proof.
  intros H A B. unfold right_rule. apply interp_const; [left; reflexivity|]. intros q Hq. apply H. lia.
Qed.

Lemma x5_8x32 : 8 <= st -> (forall k, 16 <= k <= 54 -> src (s + k) = src (s + 16)) -> to_pel bits (src (s + 16)) = src (s + 16) ->
  predicts 8 32 d st dst (ang_x_5 bits junk src s d st 8 32 dst) (fun x y => to_pel bits (right_rule src s 352 x y)).
Proof.
  intros W H P.
  assert (E : exists m1 m2, predicts 8 8 d st dst m1 (fun x y => to_pel bits (right_rule src s 352 x y)) /\
     predicts 8 24 (d + 8 * st) st m1 m2 (fun _ _ => src (s + 16)) /\
     ang_x_5 bits junk src s d st 8 32 dst =
       IprModel.put bits (d + 10 * st + 0) (right_rule src s 352 0 10) (IprModel.put bits (d + 9 * st + 2) (right_rule src s 352 2 9)
       (IprModel.put bits (d + 9 * st + 1) (right_rule src s 352 1 9) (IprModel.put bits (d + 9 * st + 0) (right_rule src s 352 0 9)
       (IprModel.put bits (d + 8 * st + 3) (right_rule src s 352 3 8) (IprModel.put bits (d + 8 * st + 2) (right_rule src s 352 2 8)
       (IprModel.put bits (d + 8 * st + 1) (right_rule src s 352 1 8) (IprModel.put bits (d + 8 * st + 0) (right_rule src s 352 0 8) m2)))))))).
  { exists (direct_rows bits src s d st e_x5 8 dst), (pad_rows d st (src (s + 16)) 8 8 32 (direct_rows bits src s d st e_x5 8 dst)).
    split; [|split].
    - apply right_direct; [exact c_x5|reflexivity|lia].
    - exact (pad_rows_spec (src (s + 16)) 8 8 32 _ ltac:(lia) ltac:(lia)).
    - change 10 with (8 + 2). change 9 with (8 + 1). change (right_rule src s 352 3 8) with (right_rule src s 352 3 (8 + 0)).
      change (right_rule src s 352 2 8) with (right_rule src s 352 2 (8 + 0)). change (right_rule src s 352 1 8) with (right_rule src s 352 1 (8 + 0)).
      change (right_rule src s 352 0 8) with (right_rule src s 352 0 (8 + 0)).
      rewrite !(five_row8 0 _ 11), !(five_row8 1 _ 12), !(five_row8 2 _ 13), (five_row8 3 _ 14) by lia.
      unfold ang_x_5. branch. cbv zeta.
      do 8 (apply put_cong; [reflexivity|unfold e_x5, e_x5a; cbv [nth Z.to_nat Pos.to_nat Pos.iter_op Nat.add app]; rewrite <- !Z.add_assoc; reflexivity|]).
      rewrite <- Z.add_assoc. reflexivity. }
  destruct E as (m1 & m2 & [A1 A2] & [B1 B2] & ->). split.
  - intros x y Hx Hy.
    repeat match goal with |- IprModel.put ?B (?D + ?a * ?S + ?b) ?v ?m (?D + y * ?S + x) = _ =>
      let N := fresh "N" in
      destruct (put_cases m x y b a v 8 ltac:(lia) ltac:(lia) ltac:(lia)) as [(-> & -> & N)|[N ->]]; [exact N|] end.
        (destruct (Z_lt_le_dec y 8) as [L|L];
    [rewrite B2 by (intros x' y' Hx' Hy' E'; nia); apply A1; lia|]);
    (replace (d + y * st + x) with (d + 8 * st + (y - 8) * st + x) by ring; rewrite B1 by lia;
     symmetry; rewrite (five_const 8 x y 54);
      [exact P|exact H| |
       clear - Hx Hy; pose proof (walk_mono 352 (y + 1) 32 ltac:(lia) ltac:(lia)); change (walk 352 32) with 44 in *; lia]).
    change (2 * 8) with 16.
    assert (C : y = 8 \/ y = 9 \/ y = 10 \/ 12 <= y + 1) by lia.
    destruct C as [C|[C|[C|C]]].
    + rewrite C. change (walk 352 (8 + 1)) with 12. lia.
    + rewrite C. change (walk 352 (9 + 1)) with 13. lia.
    + rewrite C. change (walk 352 (10 + 1)) with 15. lia.
    + clear - Hx C; pose proof (walk_mono 352 12 (y + 1) ltac:(lia) ltac:(lia)); change (walk 352 12) with 16 in *; lia.
  - intros q Hq. 
    repeat (rewrite put_away by (first [apply Hq; lia|intros ->; eapply Hq; [| |reflexivity]; lia])).
    rewrite B2. { apply A2. intros x y Hx Hy. apply Hq; lia. }
    intros x y Hx Hy E. apply (Hq x (8 + y)); [lia|lia|]. rewrite E. ring.
Qed.
Lemma x5_4x16 : 4 <= st -> (forall k, 8 <= k <= 28 -> src (s + k) = src (s + 8)) -> to_pel bits (src (s + 8)) = src (s + 8) ->
  predicts 4 16 d st dst (ang_x_5 bits junk src s d st 4 16 dst) (fun x y => to_pel bits (right_rule src s 352 x y)).
Proof.
  intros W H P.
  assert (E : exists m1 m2, predicts 4 4 d st dst m1 (fun x y => to_pel bits (right_rule src s 352 x y)) /\
     predicts 4 12 (d + 4 * st) st m1 m2 (fun _ _ => src (s + 8)) /\
     ang_x_5 bits junk src s d st 4 16 dst =
       IprModel.put bits (d + 4 * st + 1) (right_rule src s 352 1 4) (IprModel.put bits (d + 4 * st + 0) (right_rule src s 352 0 4) m2)).
  { exists (direct_rows bits src s d st e_x5a 4 dst), (pad_rows d st (src (s + 8)) 4 4 16 (direct_rows bits src s d st e_x5a 4 dst)).
    split; [|split].
    - apply right_direct; [eapply codes_prefix; exact c_x5|reflexivity|lia].
    - exact (pad_rows_spec (src (s + 8)) 4 4 16 _ ltac:(lia) ltac:(lia)).
    - rewrite !(five_row 0 _ 0), !(five_row 1 _ 1) by lia.
      unfold ang_x_5. branch. cbv zeta.
      do 2 (apply put_cong; [reflexivity|unfold e_x5, e_x5a; cbv [nth Z.to_nat Pos.to_nat Pos.iter_op Nat.add app]; rewrite <- !Z.add_assoc; reflexivity|]).
      rewrite <- !Z.add_assoc. reflexivity. }
  destruct E as (m1 & m2 & [A1 A2] & [B1 B2] & ->). split.
  - intros x y Hx Hy.
    repeat match goal with |- IprModel.put ?B (?D + ?a * ?S + ?b) ?v ?m (?D + y * ?S + x) = _ =>
      let N := fresh "N" in
      destruct (put_cases m x y b a v 4 ltac:(lia) ltac:(lia) ltac:(lia)) as [(-> & -> & N)|[N ->]]; [exact N|] end.
        (destruct (Z_lt_le_dec y 4) as [L|L];
    [rewrite B2 by (intros x' y' Hx' Hy' E'; nia); apply A1; lia|]);
    (replace (d + y * st + x) with (d + 4 * st + (y - 4) * st + x) by ring; rewrite B1 by lia;
     symmetry; rewrite (five_const 4 x y 28);
      [exact P|exact H| |
       clear - Hx Hy; pose proof (walk_mono 352 (y + 1) 16 ltac:(lia) ltac:(lia)); change (walk 352 16) with 22 in *; lia]).
    change (2 * 4) with 8.
    assert (C : y = 4 \/ 6 <= y + 1) by lia.
    destruct C as [C|C].
    + rewrite C. change (walk 352 (4 + 1)) with 6. lia.
    + clear - Hx C; pose proof (walk_mono 352 6 (y + 1) ltac:(lia) ltac:(lia)); change (walk 352 6) with 8 in *; lia.
  - intros q Hq. 
    repeat (rewrite put_away by (first [apply Hq; lia|intros ->; eapply Hq; [| |reflexivity]; lia])).
    rewrite B2. { apply A2. intros x y Hx Hy. apply Hq; lia. }
    intros x y Hx Hy E. apply (Hq x (4 + y)); [lia|lia|]. rewrite E. ring.
Qed.
Lemma x5_ok : forall w h, intra_shape w h -> w <= st -> (forall k, 2 * w <= k <= w + h * 11 / 8 + 2 -> src (s + k) = src (s + 2 * w)) -> to_pel bits (src (s + 2 * w)) = src (s + 2 * w) ->
  predicts w h d st dst (ang_x_5 bits junk src s d st w h dst) (fun x y => to_pel bits (right_rule src s 352 x y)).
Proof.
  intros w h Sh W H P. shapes Sh; [..|exact (x5_4x16 W H P)|exact (x5_8x32 W H P)]; clear H P;
  unfold ang_x_5, lines_x5; branch; cbv zeta; ev;
  lazymatch goal with |- context [direct_rows] => direct_r c_x5
  | |- context [fun k t => k * ?al + _] => planar c_x5 11 (fun k => k * al) end.
Qed.
End Five.

(** Mode 31 mirrors mode 5. *)
Lemma interp_mirror e p f : interp e (- p) (-1) f = interp (fun k => e (- k)) p 1 f.
Proof.
  unfold interp, smooth. f_equal. f_equal.
  replace (- p + -1 - 1) with (- (p + 1 + 1)) by lia. replace (- p + -1 + 1) with (- (p + 1 - 1)) by lia.
  replace (- p + -1) with (- (p + 1)) by lia. replace (- p - 1) with (- (p + 1)) by lia. replace (- p + 1) with (- (p - 1)) by lia. ring.
Qed.
Lemma src_tran_at junk src s w h i : 0 <= i < h + w * 11 / 8 + 3 -> src_tran junk src s w h i = src (s - i).
Proof.
  unfold src_tran. set (n := h + w * 11 / 8 + 3). intros Hi.
  assert (G : forall j, 0 <= j < n -> floop 0 n (fun i m => upd m i (src (s - i))) junk j = src (s - j)).
  { apply (floop_inv (fun k (t : mem) => forall j, 0 <= j < k -> t j = src (s - j)) 0 n); [lia|intros; lia|].
    intros k t Hk IH j Hj. destruct (Z.eq_dec j k) as [->|]; [apply upd_same|]. rewrite upd_other by lia. apply IH. lia. }
  apply G. exact Hi.
Qed.
Lemma transpose_spec d st w h tran dst : 0 <= w <= st -> 0 <= h ->
  predicts w h d st dst (floop 0 h (fun i => floop 0 w (fun j m => upd m (d + (j + st * i)) (tran (i + h * j)))) dst) (fun x y => tran (y + h * x)).
Proof.
  intros Hw Hh. unfold predicts.
  apply (floop_inv (fun k (t : mem) =>
    (forall x y, 0 <= x < w -> 0 <= y < k -> t (d + y * st + x) = tran (y + h * x)) /\
    (forall q, (forall x y, 0 <= x < w -> 0 <= y < k -> q <> d + y * st + x) -> t q = dst q)) 0 h); [lia| |].
  - split; [intros; lia|reflexivity].
  - intros i t Hi [P1 P2].
    assert (Q : (forall x, 0 <= x < w -> floop 0 w (fun j m => upd m (d + (j + st * i)) (tran (i + h * j))) t (d + i * st + x) = tran (i + h * x)) /\
      (forall q, (forall x, 0 <= x < w -> q <> d + i * st + x) -> floop 0 w (fun j m => upd m (d + (j + st * i)) (tran (i + h * j))) t q = t q)).
    { apply (floop_inv (fun k (u : mem) => (forall x, 0 <= x < k -> u (d + i * st + x) = tran (i + h * x)) /\ (forall q, (forall x, 0 <= x < k -> q <> d + i * st + x) -> u q = t q)) 0 w); [lia| |].
      - split; [intros; lia|reflexivity].
      - intros k u Hk [U1 U2]. split.
        + intros x Hx. destruct (Z.eq_dec x k) as [->|]; [replace (d + (k + st * i)) with (d + i * st + k) by ring; apply upd_same|]. rewrite upd_other by lia. apply U1. lia.
        + intros q Hq. rewrite upd_other. { apply U2. intros x Hx. apply Hq. lia. }
          specialize (Hq k ltac:(lia)). lia. }
    destruct Q as [Q1 Q2]. split.
    + intros x y Hx Hy. destruct (Z.eq_dec y i) as [->|]; [apply Q1; exact Hx|].
      rewrite Q2. { apply P1; lia. }
      intros x' Hx' E. assert (y = i) by nia. lia.
    + intros q Hq. rewrite Q2. { apply P2. intros x y Hx Hy. apply Hq; lia. }
      intros x Hx. apply Hq; [exact Hx|lia].
Qed.
Lemma shape_swap w h : intra_shape w h -> intra_shape h w.
Proof. intros H. shapes H; unfold intra_shape; cbn [In]; auto 12. Qed.
Lemma shape_pos w h : intra_shape w h -> 4 <= w <= 64 /\ 4 <= h <= 64.
Proof. intros H. shapes H; lia. Qed.
Lemma walk5 n : walk 352 n = n * 11 / 8.
Proof. unfold walk. replace (n * 352) with (n * 11 * 32) by ring. change 256 with (8 * 32). apply Z.div_mul_cancel_r; lia. Qed.
Lemma interp_range e e' p dir f : (dir = 1 \/ dir = -1) -> (forall q, p - 1 + Z.min 0 dir <= q <= p + 1 + Z.max 0 dir -> e q = e' q) -> interp e p dir f = interp e' p dir f.
Proof. intros D H. unfold interp, smooth. rewrite !H by (destruct D; subst dir; lia). reflexivity. Qed.
Lemma y31_ok bits junk src s d st dst : forall w h, intra_shape w h -> w <= st ->
  (forall k, 2 * h <= k <= h + w * 11 / 8 + 2 -> src (s - k) = src (s - 2 * h)) -> to_pel bits (src (s - 2 * h)) = src (s - 2 * h) ->
  predicts w h d st dst (ang_y_31 bits junk src s d st w h dst) (fun x y => to_pel bits (left_rule src s 352 x y)).
Proof.
  intros w h Sh W H P. unfold ang_y_31. destruct (Z.leb_spec h w) as [L|L].
  - pose proof (shape_pos _ _ Sh) as B.
    assert (D : h <= w * 11 / 8) by (Z.div_mod_to_equations; lia).
    pose proof (x5_ok bits junk (src_tran junk src s w h) 0 0 h junk h w (shape_swap _ _ Sh) (Z.le_refl _)) as X.
    rewrite Z.add_0_l in X. rewrite src_tran_at in X by lia. 
    specialize (X ltac:(intros k Hk; rewrite Z.add_0_l, src_tran_at by lia; apply H; lia) P).
    eapply predicts_ext; [apply transpose_spec; lia|]. cbn beta. intros x y Hx Hy.
    destruct X as [X _]. specialize (X y x Hy Hx). replace (y + h * x) with (0 + x * h + y) by ring. etransitivity; [exact X|].
    f_equal. unfold right_rule, left_rule. rewrite interp_mirror. apply interp_range; [left; reflexivity|].
    intros q Hq. rewrite Z.add_0_l. rewrite src_tran_at. { reflexivity. }
    rewrite walk5 in Hq. assert ((x + 1) * 11 / 8 <= w * 11 / 8) by (apply Z.div_le_mono; lia).
    assert (0 <= (x + 1) * 11 / 8) by (apply Z.div_pos; lia). lia.
  - clear H P. shapes Sh; try (exfalso; lia); branch; apply left_direct; [first [exact c_y31|eapply codes_prefix; exact c_y31]|reflexivity|lia|first [exact c_y31|eapply codes_prefix; exact c_y31]|reflexivity|lia].
Qed.
