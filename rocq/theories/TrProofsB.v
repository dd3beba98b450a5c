(** The interpolation step of the 64-point transforms and the secondary transforms. *)
From Coq Require Import ZArith List Bool Lia.
From Verif Require Import CBase CBaseProofs HdrModel MemModel MemProofs SaoModel SaoProofs AlfSpec McSpec McProofs TrModel TrSpec TrProofs.
Import ListNotations.
Open Scope Z_scope.

Definition i16 (v : Z) : Prop := -32768 <= v <= 32767.
Lemma upd_eq : forall m i v, upd m i v i = v.
Proof. intros. unfold upd. now rewrite Z.eqb_refl. Qed.
Lemma upd_ne : forall m i v j, j <> i -> upd m i v j = m j.
Proof. intros m i v j H. unfold upd. destruct (Z.eqb_spec j i); [congruence|reflexivity]. Qed.

(** Odd positions. *)
Lemma odd_pels_spec : forall h pe, 0 <= h ->
  (forall t, 0 <= t < h -> odd_pels (2 * h) pe (2 * t + 1) = to_i16 ((pe (2 * t) + pe (2 * t + 2)) / 2)) /\
  (forall t, odd_pels (2 * h) pe (2 * t) = pe (2 * t)).
Proof.
  intros h pe Hh. unfold odd_pels. rewrite (Z.mul_comm 2 h), Z.div_mul by lia.
  apply (floop_inv (fun T (q : mem) =>
    (forall t, 0 <= t < T -> q (2 * t + 1) = to_i16 ((pe (2 * t) + pe (2 * t + 2)) / 2)) /\
    (forall t, q (2 * t) = pe (2 * t))) 0 h); [lia|split; [intros; lia|reflexivity]|].
  intros T q HT [A B]. split.
  - intros t Ht. destruct (Z.eq_dec t T) as [-> | N].
    + rewrite upd_eq, Z.shiftr_div_pow2 by lia. change (2 ^ 1) with 2.
      replace (2 * T + 2) with (2 * (T + 1)) by lia. now rewrite !B.
    + rewrite upd_ne by lia. apply A. lia.
  - intros t. rewrite upd_ne by lia. apply B.
Qed.

(** A line of [2 * h] values filled from [h] values. *)
Lemma fill_spec : forall h (f : Z -> Z) (pe : mem), 0 < h ->
  let q := floop 0 h (fun y (pe : mem) => upd pe (2 * y) (f y)) pe in
  let q := upd q (2 * h) (q (2 * h - 2)) in
  (forall t, 0 <= t < h -> q (2 * t) = f t) /\ q (2 * h) = f (h - 1).
Proof.
  intros h f pe Hh. cbv zeta.
  assert (A: forall t, 0 <= t < h -> floop 0 h (fun y (pe : mem) => upd pe (2 * y) (f y)) pe (2 * t) = f t).
  { apply (floop_inv (fun T (q : mem) => forall t, 0 <= t < T -> q (2 * t) = f t) 0 h); [lia|intros; lia|].
    intros T q HT IH t Ht. destruct (Z.eq_dec t T) as [-> | N]; [apply upd_eq|]. rewrite upd_ne by lia. apply IH. lia. }
  split.
  - intros t Ht. rewrite upd_ne by lia. apply A. exact Ht.
  - rewrite upd_eq. replace (2 * h - 2) with (2 * (h - 1)) by lia. apply A. lia.
Qed.
Lemma halve_spec : forall h (pe : mem), 0 <= h ->
  forall t, 0 <= t <= h -> floop 0 (h + 1) (fun t (pe : mem) => upd pe (2 * t) (Z.shiftr (pe (2 * t)) 1)) pe (2 * t) = pe (2 * t) / 2.
Proof.
  intros h pe Hh.
  assert (G: (forall t, 0 <= t < h + 1 -> floop 0 (h + 1) (fun t (pe : mem) => upd pe (2 * t) (Z.shiftr (pe (2 * t)) 1)) pe (2 * t) = pe (2 * t) / 2) /\
             (forall t, h + 1 <= t -> floop 0 (h + 1) (fun t (pe : mem) => upd pe (2 * t) (Z.shiftr (pe (2 * t)) 1)) pe (2 * t) = pe (2 * t))).
  { apply (floop_inv (fun T (q : mem) => (forall t, 0 <= t < T -> q (2 * t) = pe (2 * t) / 2) /\ (forall t, T <= t -> q (2 * t) = pe (2 * t))) 0 (h + 1));
      [lia|split; [intros; lia|reflexivity]|].
    intros T q HT [A B]. split.
    - intros t Ht. destruct (Z.eq_dec t T) as [-> | N].
      + rewrite upd_eq, Z.shiftr_div_pow2 by lia. rewrite B by lia. reflexivity.
      + rewrite upd_ne by lia. apply A. lia.
    - intros t Ht. rewrite upd_ne by lia. apply B. lia. }
  intros t Ht. apply (proj1 G). lia.
Qed.
(** Stores to a column or a line. *)
Lemma store_spec : forall n (a : Z -> Z) (v : Z -> Z) (m : mem), 0 <= n -> (forall i j, 0 <= i < n -> 0 <= j < n -> a i = a j -> i = j) ->
  (forall i, 0 <= i < n -> floop 0 n (fun y (d : mem) => upd d (a y) (v y)) m (a i) = v i) /\
  (forall q, (forall i, 0 <= i < n -> q <> a i) -> floop 0 n (fun y (d : mem) => upd d (a y) (v y)) m q = m q).
Proof.
  intros n a v m Hn Inj.
  refine (proj2 (floop_inv (fun T (d : mem) => 0 <= T <= n /\ (forall i, 0 <= i < T -> d (a i) = v i) /\
     (forall q, (forall i, 0 <= i < T -> q <> a i) -> d q = m q)) 0 n _ m Hn _ _)).
  - split; [lia|]. split; [intros; lia|reflexivity].
  - intros T d HT [R [A B]]. split; [lia|]. split.
    + intros i Hi. destruct (Z.eq_dec i T) as [-> | N]; [apply upd_eq|].
      rewrite upd_ne; [apply A; lia|]. intros E. apply N. apply Inj; [lia|lia|exact E].
    + intros q Hq. rewrite upd_ne; [apply B; intros i Hi; apply Hq; lia|apply Hq; lia].
Qed.

Lemma between_even : forall n f t, between n f (2 * t) = f t.
Proof. intros n f t. unfold between. rewrite Z.mul_comm, Z.mod_mul, Z.div_mul by lia. reflexivity. Qed.
Lemma between_odd : forall h f t, between (2 * h) f (2 * t + 1) = (f t + f (Z.min (t + 1) (h - 1))) / 2.
Proof.
  intros h f t. unfold between. replace (2 * t + 1) with (1 + t * 2) by lia. rewrite Z.mod_add, Z.div_add by lia.
  change (1 mod 2) with 1. change (1 / 2) with 0. cbn [Z.eqb]. rewrite (Z.mul_comm 2 h), Z.div_mul by lia. reflexivity.
Qed.
Lemma even_odd : forall t, exists s, t = 2 * s \/ t = 2 * s + 1.
Proof. intros t. exists (t / 2). generalize (Z.div_mod t 2 ltac:(lia)) (Z.mod_pos_bound t 2 ltac:(lia)). lia. Qed.
(** Filling and interpolating gives [between]. *)
Lemma line_spec : forall h (f : Z -> Z) (pe : mem), 0 < h -> (forall t, 0 <= t < h -> i16 (f t)) ->
  (forall t, 0 <= t < h -> pe (2 * t) = f t) -> pe (2 * h) = f (h - 1) ->
  forall t, 0 <= t < 2 * h -> odd_pels (2 * h) pe t = between (2 * h) f t.
Proof.
  intros h f pe Hh HF E L t Ht. destruct (odd_pels_spec h pe ltac:(lia)) as [A B].
  destruct (even_odd t) as [s [-> | ->]].
  - rewrite B, between_even. apply E. lia.
  - rewrite A by lia. rewrite between_odd. rewrite E by lia. replace (2 * s + 2) with (2 * (s + 1)) by lia.
    destruct (Z.eq_dec s (h - 1)) as [-> | N].
    + replace (h - 1 + 1) with h by lia. rewrite L. rewrite Z.min_r by lia. apply to_i16_id.
      generalize (HF (h - 1) ltac:(lia)). unfold i16. intros R. clear - R. Z.div_mod_to_equations. lia.
    + rewrite E by lia. rewrite Z.min_l by lia. apply to_i16_id.
      generalize (HF s ltac:(lia)) (HF (s + 1) ltac:(lia)). unfold i16. intros R R'. clear - R R'. Z.div_mod_to_equations. lia.
Qed.

Lemma wlt_col_eq : forall p h0 h1 x pe (dst : mem), 0 < h0 -> 0 < h1 ->
  (forall q, (forall y, 0 <= y < 2 * h1 -> q <> p + x + y * (2 * h0)) -> snd (wlt_col p (2 * h0) (2 * h1) x (pe, dst)) q = dst q) /\
  ((forall y, 0 <= y < h1 -> i16 (dst (p + x + y * h0))) -> forall y, 0 <= y < 2 * h1 ->
    snd (wlt_col p (2 * h0) (2 * h1) x (pe, dst)) (p + x + y * (2 * h0)) = between (2 * h1) (fun y => dst (p + x + y * h0) / 2) y).
Proof.
  intros p h0 h1 x pe dst H0 H1. unfold wlt_col. cbn [snd].
  replace (2 * h1 / 2) with h1 by (rewrite Z.mul_comm, Z.div_mul; lia).
  replace (2 * h0 / 2) with h0 by (rewrite Z.mul_comm, Z.div_mul; lia).
  destruct (fill_spec h1 (fun y => dst (p + x + y * h0)) pe H1) as [F1 F2].
  set (pe1 := upd _ (2 * h1) _) in *.
  assert (HV := halve_spec h1 pe1 ltac:(lia)).
  set (pe2 := floop 0 (h1 + 1) _ pe1) in *.
  destruct (store_spec (2 * h1) (fun y => p + x + y * (2 * h0)) (fun y => odd_pels (2 * h1) pe2 y) dst ltac:(lia)) as [S1 S2].
  { intros i j _ _ E. cbv beta in E. nia. }
  split; [exact S2|]. intros R y Hy. rewrite S1 by exact Hy.
  apply line_spec; [exact H1| | | |exact Hy].
  - intros t Ht. generalize (R t Ht). unfold i16. intros Q. clear - Q. Z.div_mod_to_equations. lia.
  - intros t Ht. rewrite HV by lia. rewrite F1 by exact Ht. reflexivity.
  - rewrite HV by lia. rewrite F2. reflexivity.
Qed.
Lemma wlt_row_eq : forall p h0 y pe (dst : mem), 0 < h0 ->
  (forall q, (forall x, 0 <= x < 2 * h0 -> q <> p + y * (2 * h0) + x) -> snd (wlt_row p (2 * h0) y (pe, dst)) q = dst q) /\
  ((forall x, 0 <= x < h0 -> i16 (dst (p + y * (2 * h0) + x))) -> forall x, 0 <= x < 2 * h0 ->
    snd (wlt_row p (2 * h0) y (pe, dst)) (p + y * (2 * h0) + x) = between (2 * h0) (fun x => dst (p + y * (2 * h0) + x)) x).
Proof.
  intros p h0 y pe dst H0. unfold wlt_row. cbn [snd].
  replace (2 * h0 / 2) with h0 by (rewrite Z.mul_comm, Z.div_mul; lia).
  destruct (fill_spec h0 (fun x => dst (p + y * (2 * h0) + x)) pe H0) as [F1 F2].
  set (pe1 := upd _ (2 * h0) _) in *.
  destruct (store_spec (2 * h0) (fun x => p + y * (2 * h0) + x) (fun x => odd_pels (2 * h0) pe1 x) dst ltac:(lia)) as [S1 S2].
  { intros i j _ _ E. cbv beta in E. lia. }
  split; [exact S2|]. intros R x Hx. rewrite S1 by exact Hx.
  apply line_spec; [exact H0|exact R|exact F1|exact F2|exact Hx].
Qed.

Lemma addr_mod : forall h x x' a b, 0 <= x < h -> 0 <= x' < h -> x + a * h = x' + b * h -> x = x' /\ a = b.
Proof.
  intros h x x' a b Hx Hx' E. assert (X: x = x').
  { rewrite <- (Z.mod_small x h Hx), <- (Z.mod_small x' h Hx'). rewrite <- (Z.mod_add x a h), <- (Z.mod_add x' b h) by lia. now rewrite E. }
  split; [exact X|]. subst x'. assert (a * h = b * h) by lia. apply Z.mul_cancel_r in H; lia.
Qed.
Lemma between_i16 : forall n f, (forall t, 0 <= t < n / 2 -> i16 (f t)) -> 0 < n / 2 -> forall t, 0 <= t < n -> n mod 2 = 0 -> i16 (between n f t).
Proof.
  intros n f H P t Ht E. unfold between. assert (A: 0 <= t / 2 < n / 2) by (clear - Ht E; Z.div_mod_to_equations; lia).
  destruct (t mod 2 =? 0); [apply H; exact A|].
  generalize (H (t / 2) A) (H (Z.min (t / 2 + 1) (n / 2 - 1)) ltac:(lia)). unfold i16.
  generalize (f (t / 2)) (f (Z.min (t / 2 + 1) (n / 2 - 1))). clear. intros u v. Z.div_mod_to_equations. lia.
Qed.
Lemma between_ext : forall n f g t, 0 <= t < n -> n mod 2 = 0 -> (forall t, 0 <= t < n / 2 -> f t = g t) -> between n f t = between n g t.
Proof.
  intros n f g t Ht E H. unfold between. assert (A: 0 <= t / 2 < n / 2) by (clear - Ht E; Z.div_mod_to_equations; lia).
  rewrite (H _ A), (H (Z.min (t / 2 + 1) (n / 2 - 1))) by lia. reflexivity.
Qed.

(** Both steps. *)
Section Wavelet.
Variables (p h0 h1 : Z).
Hypothesis H0 : 0 < h0.
Hypothesis H1 : 0 < h1.
Variable b : Z -> Z -> Z.
Hypothesis HB : forall x y, 0 <= x < h0 -> 0 <= y < h1 -> i16 (b x y).
Definition colv (x y : Z) : Z := between (2 * h1) (fun y => b x y / 2) y.
Lemma two_half : forall h, 2 * h / 2 = h.
Proof. intros. rewrite Z.mul_comm, Z.div_mul; lia. Qed.
Lemma two_mod : forall h, (2 * h) mod 2 = 0.
Proof. intros. rewrite Z.mul_comm. apply Z.mod_mul. lia. Qed.
Lemma colv_i16 : forall x y, 0 <= x < h0 -> 0 <= y < 2 * h1 -> i16 (colv x y).
Proof.
  intros x y Hx Hy. unfold colv. apply between_i16; [|rewrite two_half; lia|exact Hy|apply two_mod].
  rewrite two_half. intros t Ht. generalize (HB x t Hx Ht). unfold i16. clear. intros R. Z.div_mod_to_equations. lia.
Qed.

Lemma cols_spec : forall cols pe (dst : mem), h0 <= cols <= 2 * h0 ->
  (forall x y, 0 <= x < h0 -> 0 <= y < h1 -> dst (p + x + y * h0) = b x y) ->
  let r := snd (floop 0 cols (wlt_col p (2 * h0) (2 * h1)) (pe, dst)) in
  (forall x y, 0 <= x < h0 -> 0 <= y < 2 * h1 -> r (p + x + y * (2 * h0)) = colv x y) /\
  (forall q, q < p \/ p + 2 * h0 * (2 * h1) <= q -> r q = dst q).
Proof.
  intros cols pe dst HC HD. cbv zeta.
  assert (G: 0 <= cols <= cols /\
    (forall x y, 0 <= x < h0 -> x < cols -> 0 <= y < 2 * h1 -> snd (floop 0 cols (wlt_col p (2 * h0) (2 * h1)) (pe, dst)) (p + x + y * (2 * h0)) = colv x y) /\
    (forall x y, cols <= x < h0 -> 0 <= y < h1 -> snd (floop 0 cols (wlt_col p (2 * h0) (2 * h1)) (pe, dst)) (p + x + y * h0) = b x y) /\
    (forall q, q < p \/ p + 2 * h0 * (2 * h1) <= q -> snd (floop 0 cols (wlt_col p (2 * h0) (2 * h1)) (pe, dst)) q = dst q)).
  { apply (floop_inv (fun X (st : mem * mem) => 0 <= X <= cols /\
      (forall x y, 0 <= x < h0 -> x < X -> 0 <= y < 2 * h1 -> snd st (p + x + y * (2 * h0)) = colv x y) /\
      (forall x y, X <= x < h0 -> 0 <= y < h1 -> snd st (p + x + y * h0) = b x y) /\
      (forall q, q < p \/ p + 2 * h0 * (2 * h1) <= q -> snd st q = dst q)) 0 cols).
    - lia.
    - split; [lia|]. split; [intros; lia|]. split; [|reflexivity]. intros. apply HD; lia.
    - intros X [pe' dst'] HX [_ [A [B C]]]. cbn [snd] in A, B, C.
      destruct (wlt_col_eq p h0 h1 X pe' dst' H0 H1) as [W1 W2]. split; [lia|]. split; [|split].
      + intros x y Hx HxX Hy. destruct (Z.eq_dec x X) as [-> | N].
        * rewrite W2; [|intros t Ht; rewrite B by lia; apply HB; lia|exact Hy].
          unfold colv. apply between_ext; [exact Hy|apply two_mod|]. rewrite two_half. intros t Ht. rewrite B by lia. reflexivity.
        * rewrite W1; [apply A; lia|]. intros t Ht E. apply N.
          apply (addr_mod (2 * h0) x X y t); lia.
      + intros x y Hx Hy. rewrite W1; [apply B; lia|]. intros t Ht E.
        assert (x = X); [|lia]. apply (addr_mod h0 x X y (t * 2)); lia.
      + intros q Hq. rewrite W1; [apply C; exact Hq|]. intros t Ht E. assert (t * (2 * h0) <= (2 * h1 - 1) * (2 * h0)) by (apply Z.mul_le_mono_nonneg_r; lia).
        assert (0 <= t * (2 * h0)) by (apply Z.mul_nonneg_nonneg; lia). lia. }
  destruct G as [_ [A [_ C]]]. split; [|exact C]. intros x y Hx Hy. apply A; lia.
Qed.
Lemma rows_spec : forall pe (dst : mem),
  (forall x y, 0 <= x < h0 -> 0 <= y < 2 * h1 -> dst (p + x + y * (2 * h0)) = colv x y) ->
  let r := snd (floop 0 (2 * h1) (wlt_row p (2 * h0)) (pe, dst)) in
  (forall x y, 0 <= x < 2 * h0 -> 0 <= y < 2 * h1 -> r (p + y * (2 * h0) + x) = between (2 * h0) (fun x => colv x y) x) /\
  (forall q, q < p \/ p + 2 * h0 * (2 * h1) <= q -> r q = dst q).
Proof.
  intros pe dst HD. cbv zeta.
  assert (G: 0 <= 2 * h1 <= 2 * h1 /\
    (forall x y, 0 <= x < 2 * h0 -> 0 <= y < 2 * h1 -> snd (floop 0 (2 * h1) (wlt_row p (2 * h0)) (pe, dst)) (p + y * (2 * h0) + x) = between (2 * h0) (fun x => colv x y) x) /\
    (forall x y, 0 <= x < h0 -> 2 * h1 <= y < 2 * h1 -> snd (floop 0 (2 * h1) (wlt_row p (2 * h0)) (pe, dst)) (p + y * (2 * h0) + x) = colv x y) /\
    (forall q, q < p \/ p + 2 * h0 * (2 * h1) <= q -> snd (floop 0 (2 * h1) (wlt_row p (2 * h0)) (pe, dst)) q = dst q)).
  { apply (floop_inv (fun Y (st : mem * mem) => 0 <= Y <= 2 * h1 /\
      (forall x y, 0 <= x < 2 * h0 -> 0 <= y < Y -> snd st (p + y * (2 * h0) + x) = between (2 * h0) (fun x => colv x y) x) /\
      (forall x y, 0 <= x < h0 -> Y <= y < 2 * h1 -> snd st (p + y * (2 * h0) + x) = colv x y) /\
      (forall q, q < p \/ p + 2 * h0 * (2 * h1) <= q -> snd st q = dst q)) 0 (2 * h1)).
    - lia.
    - split; [lia|]. split; [intros; lia|]. split; [|reflexivity]. intros x y Hx Hy. cbn [snd].
      replace (p + y * (2 * h0) + x) with (p + x + y * (2 * h0)) by lia. apply HD; lia.
    - intros Y [pe' dst'] HY [_ [A [B C]]]. cbn [snd] in A, B, C.
      destruct (wlt_row_eq p h0 Y pe' dst' H0) as [W1 W2]. split; [lia|]. split; [|split].
      + intros x y Hx Hy. destruct (Z.eq_dec y Y) as [-> | N].
        * rewrite W2; [|intros t Ht; rewrite B by lia; apply colv_i16; lia|exact Hx].
          apply between_ext; [exact Hx|apply two_mod|]. rewrite two_half. intros t Ht. rewrite B by lia. reflexivity.
        * rewrite W1; [apply A; lia|]. intros t Ht E. apply N.
          apply (addr_mod (2 * h0) x t y Y); lia.
      + intros x y Hx Hy. rewrite W1; [apply B; lia|]. intros t Ht E.
        assert (y = Y); [|lia]. apply (addr_mod (2 * h0) x t y Y); lia.
      + intros q Hq. rewrite W1; [apply C; exact Hq|]. intros t Ht E. assert (Y * (2 * h0) <= (2 * h1 - 1) * (2 * h0)) by (apply Z.mul_le_mono_nonneg_r; lia).
        assert (0 <= Y * (2 * h0)) by (apply Z.mul_nonneg_nonneg; lia). lia. }
  destruct G as [_ [A [_ C]]]. split; [exact A|exact C].
Qed.
Lemma wavelet_spec : forall cols pe (dst : mem), h0 <= cols <= 2 * h0 ->
  (forall x y, 0 <= x < h0 -> 0 <= y < h1 -> dst (p + y * h0 + x) = b x y) ->
  (forall x y, 0 <= x < 2 * h0 -> 0 <= y < 2 * h1 -> wavelet cols p (2 * h0) (2 * h1) pe dst (p + y * (2 * h0) + x) = doubled (2 * h0) (2 * h1) b x y) /\
  (forall q, q < p \/ p + 2 * h0 * (2 * h1) <= q -> wavelet cols p (2 * h0) (2 * h1) pe dst q = dst q).
Proof.
  intros cols pe dst HC HD. unfold wavelet.
  destruct (cols_spec cols pe dst HC) as [A B].
  { intros x y Hx Hy. rewrite <- (HD x y Hx Hy). f_equal. lia. }
  destruct (floop 0 cols (wlt_col p (2 * h0) (2 * h1)) (pe, dst)) as [pe' dst']. cbn [snd] in A, B.
  destruct (rows_spec pe' dst' A) as [A' B']. split; [exact A'|].
  intros q Hq. rewrite B' by exact Hq. apply B. exact Hq.
Qed.
End Wavelet.

Lemma idct_w_spec : forall bh bv cols d p stride t0 m, points bh -> points bv -> mc_depth d -> stride = Z.of_nat bh ->
  Z.of_nat bh <= cols <= 2 * Z.of_nat bh -> forall n0 n1, n0 = 2 * Z.of_nat bh -> n1 = 2 * Z.of_nat bv ->
  (forall x y, 0 <= x < n0 -> 0 <= y < n1 ->
     wavelet cols p n0 n1 t0 (idct_hv bh bv 1 d p stride t0 m) (p + y * n0 + x) =
     doubled n0 n1 (residual bh bv 1 d (fun u v => m (p + v * Z.of_nat bh + u))) x y) /\
  (forall q, q < p \/ p + n0 * n1 <= q -> wavelet cols p n0 n1 t0 (idct_hv bh bv 1 d p stride t0 m) q = m q).
Proof.
  intros bh bv cols d p stride t0 m PH PV Hd -> HC n0 n1 -> ->.
  assert (H0: 0 < Z.of_nat bh) by (clear - PH; unfold points in PH; cbn [In] in PH; lia).
  assert (H1: 0 < Z.of_nat bv) by (clear - PV; unfold points in PV; cbn [In] in PV; lia).
  destruct (idct_hv_spec bh bv 1 d p (Z.of_nat bh) t0 m PH PV ltac:(lia) Hd ltac:(lia)) as [A B].
  destruct (wavelet_spec p (Z.of_nat bh) (Z.of_nat bv) H0 H1 (residual bh bv 1 d (fun u v => m (p + v * Z.of_nat bh + u)))) with (cols := cols) (pe := t0)
    (dst := idct_hv bh bv 1 d p (Z.of_nat bh) t0 m) as [W1 W2].
  - intros x y _ _. generalize (residual_range bh bv 1 d (fun u v => m (p + v * Z.of_nat bh + u)) x y ltac:(lia) Hd). unfold i16.
    assert (2 ^ (d + 1) <= 2 ^ 13) by (apply Z.pow_le_mono_r; [lia|unfold mc_depth in Hd; lia]). change (2 ^ 13) with 8192 in H. lia.
  - exact HC.
  - exact A.
  - split; [exact W1|]. intros q Hq. rewrite W2 by exact Hq. apply B.
    intros [x [y [Hx [Hy E]]]]. unfold bpos in E.
    assert (y * Z.of_nat bh <= (Z.of_nat bv - 1) * Z.of_nat bh) by (apply Z.mul_le_mono_nonneg_r; lia).
    assert (0 <= y * Z.of_nat bh) by (apply Z.mul_nonneg_nonneg; lia). nia.
Qed.

(** Secondary transforms. *)
Lemma shift_rshift_l : forall v s, 0 < s -> Z.shiftr (Z.shiftl 1 (s - 1) + v) s = rshift v s.
Proof. intros v s H. rewrite Z.add_comm. apply shift_rshift'. exact H. Qed.
Lemma clip16 : forall v, to_i16 (clip3 (-32768) 32767 v) = lim 16 v.
Proof. intros v. exact (clip3_lim 16 v ltac:(lia)). Qed.
Lemma zsum4 : forall f, zsum 4 f = f 0 + f 1 + f 2 + f 3.
Proof. intros f. cbn [zsum]. change (Z.of_nat 0) with 0. change (Z.of_nat 1) with 1. change (Z.of_nat 2) with 2. change (Z.of_nat 3) with 3. lia. Qed.
Lemma ver_spec : forall tc sh p ic m, 0 < sh -> 4 <= ic ->
  (forall x y, 0 <= x < 4 -> 0 <= y < 4 -> tr2nd_ver tc sh p ic m (p + y * ic + x) = ver4 tc sh (fun x y => m (p + y * ic + x)) x y) /\
  (forall q, ~ in_block 4 4 p ic q -> tr2nd_ver tc sh p ic m q = m q).
Proof.
  intros tc sh p ic m Hs Hi. unfold tr2nd_ver. edestruct (bw_spec 4 4 p ic) as [A B]; [exact Hi|]. split; [|exact B].
  intros x y Hx Hy. rewrite A by assumption. rewrite clip16, shift_rshift_l by exact Hs. unfold ver4. rewrite zsum4. reflexivity.
Qed.
Lemma hor_spec : forall tc sh b p ic m, 0 < sh -> 1 <= b <= 16 -> 4 <= ic ->
  (forall x y, 0 <= x < 4 -> 0 <= y < 4 -> tr2nd_hor tc sh b p ic m (p + y * ic + x) = hor4 tc sh b (fun x y => m (p + y * ic + x)) x y) /\
  (forall q, ~ in_block 4 4 p ic q -> tr2nd_hor tc sh b p ic m q = m q).
Proof.
  intros tc sh b p ic m Hs Hb Hi. unfold tr2nd_hor. cbv zeta. edestruct (bw_spec 4 4 p ic) as [A B]; [exact Hi|]. split; [|exact B].
  intros x y Hx Hy. rewrite A by assumption. rewrite clip3_lim by exact Hb. rewrite shift_rshift_l by exact Hs. unfold hor4. rewrite zsum4. reflexivity.
Qed.
Lemma not_corner : forall p ic x y, 0 <= x < ic -> 4 <= ic -> (x <? 4) && (y <? 4) = false -> 0 <= y -> ~ in_block 4 4 p ic (p + y * ic + x).
Proof.
  intros p ic x y Hx Hi E Hy [x' [y' [Hx' [Hy' Q]]]]. unfold bpos in Q. change (Z.of_nat 4) with 4 in *.
  destruct (addr_mod ic x x' y y') as [-> ->]; [lia|lia|lia|].
  rewrite (proj2 (Z.ltb_lt x' 4)), (proj2 (Z.ltb_lt y' 4)) in E by lia. discriminate.
Qed.
(** In the layout of a whole block of [ic] columns. *)
Lemma ver_block : forall tc sh p ic m x y, 0 < sh -> 4 <= ic -> 0 <= x < ic -> 0 <= y ->
  tr2nd_ver tc sh p ic m (p + y * ic + x) = corner (ver4 tc sh (fun x y => m (p + y * ic + x))) (fun x y => m (p + y * ic + x)) x y.
Proof.
  intros tc sh p ic m x y Hs Hi Hx Hy. destruct (ver_spec tc sh p ic m Hs Hi) as [A B]. unfold corner.
  destruct ((x <? 4) && (y <? 4)) eqn:E; [apply andb_true_iff in E; rewrite !Z.ltb_lt in E; apply A; lia|].
  apply B. apply not_corner; assumption.
Qed.
Lemma hor_block : forall tc sh b p ic m x y, 0 < sh -> 1 <= b <= 16 -> 4 <= ic -> 0 <= x < ic -> 0 <= y ->
  tr2nd_hor tc sh b p ic m (p + y * ic + x) = corner (hor4 tc sh b (fun x y => m (p + y * ic + x))) (fun x y => m (p + y * ic + x)) x y.
Proof.
  intros tc sh b p ic m x y Hs Hb Hi Hx Hy. destruct (hor_spec tc sh b p ic m Hs Hb Hi) as [A B]. unfold corner.
  destruct ((x <? 4) && (y <? 4)) eqn:E; [apply andb_true_iff in E; rewrite !Z.ltb_lt in E; apply A; lia|].
  apply B. apply not_corner; assumption.
Qed.
Lemma ver4_ext : forall t sh c c' x y, (forall y, 0 <= y < 4 -> c x y = c' x y) -> ver4 t sh c x y = ver4 t sh c' x y.
Proof. intros t sh c c' x y H. unfold ver4. rewrite !zsum4. rewrite !H by lia. reflexivity. Qed.
Lemma hor4_ext : forall t sh b c c' x y, (forall x, 0 <= x < 4 -> c x y = c' x y) -> hor4 t sh b c x y = hor4 t sh b c' x y.
Proof. intros t sh b c c' x y H. unfold hor4. rewrite !zsum4. rewrite !H by lia. reflexivity. Qed.

Lemma residual_ext : forall bh bv w d c c' x y, (forall u v, 0 <= u < Z.of_nat bh -> 0 <= v < Z.of_nat bv -> c u v = c' u v) ->
  residual bh bv w d c x y = residual bh bv w d c' x y.
Proof.
  intros bh bv w d c c' x y H. unfold residual. do 2 f_equal. apply zsum_ext. intros u Hu. f_equal. unfold col_pass. do 2 f_equal.
  apply zsum_ext. intros v Hv. f_equal. apply H; assumption.
Qed.
Lemma doubled_ext : forall n0 n1 b b' x y, 0 <= x < n0 -> 0 <= y < n1 -> n0 mod 2 = 0 -> n1 mod 2 = 0 ->
  (forall x y, 0 <= x < n0 / 2 -> 0 <= y < n1 / 2 -> b x y = b' x y) -> doubled n0 n1 b x y = doubled n0 n1 b' x y.
Proof.
  intros n0 n1 b b' x y Hx Hy E0 E1 H. unfold doubled. apply between_ext; [exact Hx|exact E0|]. intros u Hu.
  apply between_ext; [exact Hy|exact E1|]. intros v Hv. rewrite H by assumption. reflexivity.
Qed.

Definition primary (w h d : Z) (c : Z -> Z -> Z) (x y : Z) : Z :=
  if is_doubled w h then doubled w h (residual (Z.to_nat (w / 2)) (Z.to_nat (h / 2)) 1 d c) x y
  else residual (Z.to_nat w) (Z.to_nat h) 0 d c x y.
Lemma out_block : forall w h p q, 0 <= Z.of_nat h -> q < p \/ p + Z.of_nat w * Z.of_nat h <= q -> ~ in_block w h p (Z.of_nat w) q.
Proof.
  intros w h p q _ Hq [x [y [Hx [Hy E]]]]. unfold bpos in E.
  assert (y * Z.of_nat w <= (Z.of_nat h - 1) * Z.of_nat w) by (apply Z.mul_le_mono_nonneg_r; lia).
  assert (0 <= y * Z.of_nat w) by (apply Z.mul_nonneg_nonneg; lia). lia.
Qed.
Definition good (w h d p : Z) (f : Z -> Z -> Z -> mem -> mem -> mem) (t0 : mem) : Prop := forall m,
  (forall x y, 0 <= x < w -> 0 <= y < h ->
     f d p (coeff_width w h) t0 m (p + y * w + x) = primary w h d (coeffs_at m p (coeff_width w h)) x y) /\
  (forall q, q < p \/ p + w * h <= q -> f d p (coeff_width w h) t0 m q = m q).
Lemma hv_good : forall bh bv d p t0 (m : mem) st fl, points bh -> points bv -> mc_depth d -> st = Z.of_nat bh -> fl = 0 ->
  is_doubled (Z.of_nat bh) (Z.of_nat bv) = false ->
  (forall x y, 0 <= x < Z.of_nat bh -> 0 <= y < Z.of_nat bv ->
     idct_hv bh bv fl d p st t0 m (p + y * Z.of_nat bh + x) = primary (Z.of_nat bh) (Z.of_nat bv) d (coeffs_at m p (Z.of_nat bh)) x y) /\
  (forall q, q < p \/ p + Z.of_nat bh * Z.of_nat bv <= q -> idct_hv bh bv fl d p st t0 m q = m q).
Proof.
  intros bh bv d p t0 m st fl PH PV Hd -> -> ND.
  destruct (idct_hv_spec bh bv 0 d p (Z.of_nat bh) t0 m PH PV ltac:(lia) Hd ltac:(lia)) as [A B]. split.
  - intros x y Hx Hy. rewrite A by assumption. unfold primary. rewrite ND, !Nat2Z.id. reflexivity.
  - intros q Hq. apply B. apply out_block; [lia|exact Hq].
Qed.
Lemma idct_good : forall w h d p t0, In (w, h) block_sizes -> mc_depth d -> exists f, idct_of w h = Some f /\ good w h d p f t0.
Proof.
  intros w h d p t0 H Hd. unfold block_sizes in H. cbn [In] in H.
  assert (P4: points 4) by (unfold points; lia). assert (P8: points 8) by (unfold points; lia).
  assert (P16: points 16) by (unfold points; lia). assert (P32: points 32) by (unfold points; lia).
  repeat (destruct H as [H | H]; [apply pair_equal_spec in H; destruct H as [<- <-]|]); try contradiction;
    (eexists; split; [reflexivity|]); intros m; unfold coeff_width; cbn [is_doubled Z.eqb Pos.eqb orb].
  - exact (hv_good 4 4 d p t0 m _ _ P4 P4 Hd eq_refl eq_refl eq_refl).
  - exact (hv_good 8 8 d p t0 m _ _ P8 P8 Hd eq_refl eq_refl eq_refl).
  - exact (hv_good 16 16 d p t0 m _ _ P16 P16 Hd eq_refl eq_refl eq_refl).
  - exact (hv_good 32 32 d p t0 m _ _ P32 P32 Hd eq_refl eq_refl eq_refl).
  - exact (idct_w_spec 32 32 64 d p 32 t0 m P32 P32 Hd eq_refl ltac:(lia) 64 64 eq_refl eq_refl).
  - exact (hv_good 16 4 d p t0 m _ _ P16 P4 Hd eq_refl eq_refl eq_refl).
  - exact (hv_good 4 16 d p t0 m _ _ P4 P16 Hd eq_refl eq_refl eq_refl).
  - exact (hv_good 32 8 d p t0 m _ _ P32 P8 Hd eq_refl eq_refl eq_refl).
  - exact (hv_good 8 32 d p t0 m _ _ P8 P32 Hd eq_refl eq_refl eq_refl).
  - exact (idct_w_spec 32 8 32 d p 32 t0 m P32 P8 Hd eq_refl ltac:(lia) 64 16 eq_refl eq_refl).
  - exact (idct_w_spec 8 32 8 d p 8 t0 m P8 P32 Hd eq_refl ltac:(lia) 16 64 eq_refl eq_refl).
Qed.
Lemma primary_ext : forall w h d c c' x y, In (w, h) block_sizes -> 0 <= x < w -> 0 <= y < h ->
  (forall u v, 0 <= u < coeff_width w h -> 0 <= v < h -> c u v = c' u v) -> primary w h d c x y = primary w h d c' x y.
Proof.
  intros w h d c c' x y H Hx Hy E. unfold primary, coeff_width in *.
  assert (Q: w mod 2 = 0 /\ h mod 2 = 0 /\ 0 < w /\ 0 < h).
  { unfold block_sizes in H. cbn [In] in H. repeat (destruct H as [H | H]; [apply pair_equal_spec in H; destruct H as [<- <-]; repeat split; lia|]). contradiction. }
  destruct Q as [Q0 [Q1 [W0 H0]]]. destruct (is_doubled w h).
  - apply doubled_ext; [assumption..|]. intros x' y' Hx' Hy'. apply residual_ext. intros u v Hu Hv.
    rewrite Z2Nat.id in Hu by (apply Z.div_pos; lia). rewrite Z2Nat.id in Hv by (apply Z.div_pos; lia).
    apply E; [exact Hu|]. clear - Hv H0. Z.div_mod_to_equations. lia.
  - apply residual_ext. intros u v Hu Hv. rewrite Z2Nat.id in Hu, Hv by lia. apply E; assumption.
Qed.

Lemma sec_tabs : g_2T = sec_other /\ g_2T_C = sec_4x4.
Proof. split; reflexivity. Qed.
Lemma inv_2nd_spec : forall p ic mode b_top b_left m x y (hor ver : bool), 4 <= ic -> 0 <= x < ic -> 0 <= y ->
  (hor = true <-> sec_hor mode /\ b_left = true) -> (ver = true <-> sec_ver mode /\ b_top = true) ->
  inv_2nd p ic mode b_top b_left m (p + y * ic + x) = secondary hor ver (coeffs_at m p ic) x y.
Proof.
  intros p ic mode b_top b_left m x y hor ver Hi Hx Hy EH EV. unfold inv_2nd. cbv zeta.
  rewrite (proj1 sec_tabs).
  assert (H1: (((13 <=? mode) && (mode <=? 32) || (0 <=? mode) && (mode <=? 2)) && b_left) = hor).
  { apply eq_true_iff_eq. rewrite EH. unfold sec_hor. rewrite !andb_true_iff, orb_true_iff, !andb_true_iff, !Z.leb_le. tauto. }
  assert (H2: ((0 <=? mode) && (mode <=? 23) && b_top) = ver).
  { apply eq_true_iff_eq. rewrite EV. unfold sec_ver. rewrite !andb_true_iff, !Z.leb_le. tauto. }
  rewrite H1, H2. clear H1 H2 EH EV. unfold secondary. cbv zeta.
  set (m1 := if hor then tr2nd_hor sec_other 7 16 p ic m else m).
  set (c1 := if hor then corner (hor4 sec_other 7 16 (coeffs_at m p ic)) (coeffs_at m p ic) else coeffs_at m p ic).
  assert (E1: forall x y, 0 <= x < ic -> 0 <= y -> m1 (p + y * ic + x) = c1 x y).
  { intros u v Hu Hv. unfold m1, c1. destruct hor; [|reflexivity]. apply hor_block; (assumption || lia). }
  destruct ver; [|apply E1; assumption].
  rewrite ver_block by (assumption || lia). unfold corner. destruct ((x <? 4) && (y <? 4)) eqn:C; [|apply E1; assumption].
  apply ver4_ext. intros v Hv. apply E1; lia.
Qed.
Lemma inv_2nd_outside : forall p ic mode b_top b_left m q, 4 <= ic -> ~ in_block 4 4 p ic q -> inv_2nd p ic mode b_top b_left m q = m q.
Proof.
  intros p ic mode b_top b_left m q Hi Hq. unfold inv_2nd. cbv zeta.
  set (m1 := if _ && b_left then _ else m). assert (E: m1 q = m q).
  { unfold m1. destruct (_ && b_left); [|reflexivity]. apply hor_spec; (assumption || lia). }
  rewrite <- E. destruct (_ && b_top); [|reflexivity]. apply ver_spec; (assumption || lia).
Qed.
Lemma inv_4x4_spec : forall d p m x y, mc_depth d -> 0 <= x < 4 -> 0 <= y < 4 ->
  inv_4x4_2nd d p 4 m (p + y * 4 + x) = residual_4x4_sec d (coeffs_at m p 4) x y.
Proof.
  intros d p m x y Hd Hx Hy. unfold mc_depth in Hd. unfold inv_4x4_2nd. rewrite (proj2 sec_tabs).
  destruct (hor_spec sec_4x4 (20 - d + 2) (d + 1) p 4 (tr2nd_ver sec_4x4 5 p 4 m) ltac:(lia) ltac:(lia) ltac:(lia)) as [A _].
  rewrite A by assumption. unfold residual_4x4_sec. replace (22 - d) with (20 - d + 2) by lia.
  apply hor4_ext. intros u Hu. apply (proj1 (ver_spec sec_4x4 5 p 4 m ltac:(lia) ltac:(lia))); assumption.
Qed.
Lemma inv_4x4_outside : forall d p m q, mc_depth d -> ~ in_block 4 4 p 4 q -> inv_4x4_2nd d p 4 m q = m q.
Proof.
  intros d p m q Hd Hq. unfold mc_depth in Hd. unfold inv_4x4_2nd.
  rewrite (proj2 (hor_spec g_2T_C (20 - d + 2) (d + 1) p 4 (tr2nd_ver g_2T_C 5 p 4 m) ltac:(lia) ltac:(lia) ltac:(lia))) by exact Hq.
  apply (proj2 (ver_spec g_2T_C 5 p 4 m ltac:(lia) ltac:(lia))). exact Hq.
Qed.
Lemma block_residual_primary : forall w h d sec hor ver c x y, sec && (w =? 4) && (h =? 4) = false ->
  block_residual w h d sec hor ver c x y = primary w h d (if sec then secondary hor ver c else c) x y.
Proof. intros w h d sec hor ver c x y E. unfold block_residual. rewrite E. reflexivity. Qed.
Lemma size_facts : forall w h, In (w, h) block_sizes -> 4 <= coeff_width w h <= w /\ 4 <= h /\ 0 < w /\ coeff_width w h * 4 <= w * h.
Proof.
  intros w h H. unfold block_sizes in H. cbn [In] in H.
  repeat (destruct H as [H | H]; [apply pair_equal_spec in H; destruct H as [<- <-]; vm_compute; repeat split; discriminate|]). contradiction.
Qed.

Lemma inv_transform_spec : forall d p w h sec intra luma mode b_top b_left t0 m (hor ver : bool),
  In (w, h) block_sizes -> mc_depth d ->
  (hor = true <-> sec_hor mode /\ b_left = true) -> (ver = true <-> sec_ver mode /\ b_top = true) ->
  exists m', inv_transform d p (coeff_width w h) w h sec intra luma mode b_top b_left t0 m = Done m' /\
    (forall x y, 0 <= x < w -> 0 <= y < h ->
       m' (p + y * w + x) = block_residual w h d (sec && intra && luma) hor ver (coeffs_at m p (coeff_width w h)) x y) /\
    (forall q, q < p \/ p + w * h <= q -> m' q = m q).
Proof.
  intros d p w h sec intra luma mode b_top b_left t0 m hor ver HS Hd EH EV.
  destruct (idct_good w h d p t0 HS Hd) as [f [EF G]].
  destruct (size_facts w h HS) as [SF1 [SF2 [SF3 SF4]]].
  unfold inv_transform. cbv zeta. rewrite EF. set (s := sec && intra && luma). clearbody s.
  destruct ((w =? 4) && (h =? 4)) eqn:E4.
  - assert (W: w = 4 /\ h = 4) by (apply andb_true_iff in E4; rewrite !Z.eqb_eq in E4; exact E4). destruct W as [-> ->].
    change (coeff_width 4 4) with 4 in *. eexists. split; [reflexivity|]. destruct s.
    + split.
      * intros x y Hx Hy. rewrite inv_4x4_spec by assumption. reflexivity.
      * intros q Hq. apply inv_4x4_outside; [exact Hd|]. apply (out_block 4 4 p q); [lia|exact Hq].
    + destruct (G m) as [A B]. split; [exact A|exact B].
  - eexists. split; [reflexivity|].
    destruct (G (if s then inv_2nd p (coeff_width w h) mode b_top b_left m else m)) as [A B]. split.
    + intros x y Hx Hy. rewrite A by assumption.
      rewrite block_residual_primary by (rewrite <- andb_assoc, E4; apply andb_false_r).
      apply primary_ext; [exact HS|exact Hx|exact Hy|]. intros u v Hu Hv. unfold coeffs_at at 1. destruct s; [|reflexivity].
      apply inv_2nd_spec; (assumption || lia).
    + intros q Hq. rewrite B by exact Hq. destruct s; [|reflexivity]. apply inv_2nd_outside; [lia|].
      intros [x [y [Hx [Hy E]]]]. unfold bpos in E. change (Z.of_nat 4) with 4 in *.
      assert (y * coeff_width w h <= 3 * coeff_width w h) by (apply Z.mul_le_mono_nonneg_r; lia).
      assert (0 <= y * coeff_width w h) by (apply Z.mul_nonneg_nonneg; lia). lia.
Qed.
Lemma idct_of_sizes : forall w h, idct_of w h <> None <-> In (w, h) block_sizes.
Proof.
  intros w h. split.
  - unfold idct_of. intros H.
    destruct (Z.eqb_spec w 4) as [Ew | ?].
    { rewrite Ew. destruct (Z.eqb_spec h 4) as [Eh | ?]; [rewrite Eh; vm_compute; auto 20|]. destruct (Z.eqb_spec h 16) as [Eh | ?]; [rewrite Eh|congruence]. vm_compute; auto 20. }
    destruct (Z.eqb_spec w 8) as [Ew | ?].
    { rewrite Ew. destruct (Z.eqb_spec h 8) as [Eh | ?]; [rewrite Eh; vm_compute; auto 20|]. destruct (Z.eqb_spec h 32) as [Eh | ?]; [rewrite Eh|congruence]. vm_compute; auto 20. }
    destruct (Z.eqb_spec w 16) as [Ew | ?].
    { rewrite Ew. destruct (Z.eqb_spec h 16) as [Eh | ?]; [rewrite Eh; vm_compute; auto 20|]. destruct (Z.eqb_spec h 4) as [Eh | ?]; [rewrite Eh; vm_compute; auto 20|].
      destruct (Z.eqb_spec h 64) as [Eh | ?]; [rewrite Eh|congruence]. vm_compute; auto 20. }
    destruct (Z.eqb_spec w 32) as [Ew | ?].
    { rewrite Ew. destruct (Z.eqb_spec h 32) as [Eh | ?]; [rewrite Eh; vm_compute; auto 20|]. destruct (Z.eqb_spec h 8) as [Eh | ?]; [rewrite Eh|congruence]. vm_compute; auto 20. }
    destruct (Z.eqb_spec w 64) as [Ew | ?]; [rewrite Ew|congruence].
    destruct (Z.eqb_spec h 64) as [Eh | ?]; [rewrite Eh; vm_compute; auto 20|]. destruct (Z.eqb_spec h 16) as [Eh | ?]; [rewrite Eh|congruence]. vm_compute; auto 20.
  - intros H. unfold block_sizes in H. cbn [In] in H.
    repeat (destruct H as [H | H]; [apply pair_equal_spec in H; destruct H as [<- <-]; unfold idct_of; cbn [Z.eqb Pos.eqb]; intros Q; discriminate Q|]). contradiction.
Qed.

Lemma between_range : forall n f lo hi t, (forall t, lo <= f t <= hi) -> lo <= between n f t <= hi.
Proof.
  intros n f lo hi t H. unfold between. destruct (t mod 2 =? 0); [apply H|].
  generalize (H (t / 2)) (H (Z.min (t / 2 + 1) (n / 2 - 1))). generalize (f (t / 2)) (f (Z.min (t / 2 + 1) (n / 2 - 1))).
  clear. intros u v. Z.div_mod_to_equations. lia.
Qed.
Lemma block_residual_range : forall w h d sec hor ver c x y, mc_depth d -> - 2 ^ d <= block_residual w h d sec hor ver c x y <= 2 ^ d - 1.
Proof.
  intros w h d sec hor ver c x y Hd. unfold block_residual.
  destruct (sec && (w =? 4) && (h =? 4)).
  - unfold residual_4x4_sec, hor4. unfold mc_depth in Hd.
    match goal with |- context [lim (d + 1) ?v] => generalize (lim_range (d + 1) v ltac:(lia)) end. replace (d + 1 - 1) with d by lia. auto.
  - cbv zeta. set (c' := if sec then _ else _). clearbody c'. destruct (is_doubled w h).
    + unfold doubled. apply between_range. intros u. apply between_range. intros v.
      generalize (residual_range (Z.to_nat (w / 2)) (Z.to_nat (h / 2)) 1 d c' u v ltac:(lia) Hd).
      rewrite Z.pow_add_r by (unfold mc_depth in Hd; lia). change (2 ^ 1) with 2.
      generalize (residual (Z.to_nat (w / 2)) (Z.to_nat (h / 2)) 1 d c' u v) (2 ^ d). clear. intros r q. Z.div_mod_to_equations. lia.
    + generalize (residual_range (Z.to_nat w) (Z.to_nat h) 0 d c' x y ltac:(lia) Hd). rewrite Z.add_0_r. auto.
Qed.
Lemma bf_int32 : forall n s v r, points n -> (forall i, i16 (s i)) -> In v (fst (bf n s) ++ snd (bf n s)) -> 0 <= r <= 2 ^ 14 -> in_i32 v /\ in_i32 (v + r).
Proof.
  intros n s v r P HS Hv Hr. destruct (bf_small n s P HS) as [A B]. unfold small in A, B. rewrite Forall_forall in A, B.
  assert (R: - (32 * 1474560) <= v <= 32 * 1474560).
  { apply in_app_iff in Hv. destruct Hv as [Hv | Hv]; [apply A|apply B]; exact Hv. }
  change (2 ^ 14) with 16384 in Hr. unfold in_i32. lia.
Qed.
Lemma idct_doubled : forall d p w h t0 m, In (w, h) [(64, 64); (64, 16); (16, 64)] -> mc_depth d ->
  exists f, idct_of w h = Some f /\
    (forall x y, 0 <= x < w -> 0 <= y < h -> f d p (w / 2) t0 m (p + y * w + x) =
       doubled w h (residual (Z.to_nat (w / 2)) (Z.to_nat (h / 2)) 1 d (coeffs_at m p (w / 2))) x y) /\
    (forall q, q < p \/ p + w * h <= q -> f d p (w / 2) t0 m q = m q).
Proof.
  intros d p w h t0 m H Hd.
  assert (S: In (w, h) block_sizes /\ is_doubled w h = true).
  { cbn [In] in H. repeat (destruct H as [H | H]; [apply pair_equal_spec in H; destruct H as [<- <-]; vm_compute; auto 20|]). contradiction. }
  destruct S as [HS HD]. destruct (idct_good w h d p t0 HS Hd) as [f [EF G]]. exists f. split; [exact EF|].
  destruct (G m) as [A B]. unfold coeff_width, primary in *. rewrite HD in *. split; [exact A|exact B].
Qed.
Lemma doubled_positions : forall n0 n1 b x y, 0 < n0 -> 0 < n1 -> 0 <= x < n0 -> 0 <= y < n1 ->
  doubled (2 * n0) (2 * n1) b (2 * x) (2 * y) = b x y / 2 /\
  doubled (2 * n0) (2 * n1) b (2 * x + 1) (2 * y) = (b x y / 2 + b (Z.min (x + 1) (n0 - 1)) y / 2) / 2 /\
  doubled (2 * n0) (2 * n1) b (2 * x) (2 * y + 1) = (b x y / 2 + b x (Z.min (y + 1) (n1 - 1)) / 2) / 2.
Proof.
  intros n0 n1 b x y H0 H1 Hx Hy. unfold doubled. repeat split.
  - now rewrite !between_even.
  - rewrite between_odd, !between_even. reflexivity.
  - rewrite between_even, between_odd. reflexivity.
Qed.
