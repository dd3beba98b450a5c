(** The semantics of the vector intra predictors preserves relations between two structures of
    operations. *)
From Coq Require Import ZArith List Bool Lia.
From Verif Require Import MemModel VpModel.
Import ListNotations.
Open Scope Z_scope.

(** If the second run has a result, so has the first, and the results are related. *)
Definition ro {A B} (R : A -> B -> Prop) (o1 : option A) (o2 : option B) : Prop :=
  match o2 with None => True | Some y => match o1 with Some x => R x y | None => False end end.
Lemma ro_bind {A B A' B'} (R : A -> B -> Prop) (R' : A' -> B' -> Prop) o1 o2 f g :
  ro R o1 o2 -> (forall x y, R x y -> ro R' (f x) (g y)) -> ro R' (bind o1 f) (bind o2 g).
Proof. unfold ro, bind. intros H1 H2. destruct o2 as [y|]; [|trivial]. destruct o1 as [x|]; [|contradiction]. apply H2. exact H1. Qed.
Lemma ro_some {A B} (R : A -> B -> Prop) x y : R x y -> ro R (Some x) (Some y).
Proof. trivial. Qed.
Lemma ro_none {A B} (R : A -> B -> Prop) x : ro R x None.
Proof. exact Logic.I. Qed.
Lemma ro_eq {A} (o : option A) : ro eq o o.
Proof. destruct o; simpl; auto. Qed.

Lemma get_lf {A} k : get (@Lf A) k = None. Proof. destruct k; reflexivity. Qed.
Lemma get_set_same {A} k (t : tree A) x : get (set t k x) k = Some x.
Proof. revert t. induction k; intros [|a v b]; simpl; auto. Qed.
Lemma get_set_other {A} k k' (t : tree A) x : k <> k' -> get (set t k x) k' = get t k'.
Proof.
  revert k' t. induction k; intros k' [|a v b] Hn; destruct k'; simpl; try congruence;
    try (rewrite IHk by congruence); try rewrite get_lf; try reflexivity; try apply get_lf.
Qed.
Lemma get_set {A} k k' (t : tree A) x : get (set t k x) k' = if Pos.eqb k k' then Some x else get t k'.
Proof. destruct (Pos.eqb_spec k k') as [->|Hn]. apply get_set_same. apply get_set_other. exact Hn. Qed.
Definition rt {A B} (R : A -> B -> Prop) (t1 : tree A) (t2 : tree B) : Prop := forall k, ro R (get t1 k) (get t2 k).
Lemma rt_lf {A B} (R : A -> B -> Prop) : rt R Lf Lf.
Proof. intro k. rewrite !get_lf. exact Logic.I. Qed.
Lemma rt_set {A B} (R : A -> B -> Prop) t1 t2 k x y : rt R t1 t2 -> R x y -> rt R (set t1 k x) (set t2 k y).
Proof. intros H Hr k'. rewrite !get_set. destruct (Pos.eqb k k'); [exact Hr|apply H]. Qed.

Lemma f2_firstn {A B} (R : A -> B -> Prop) n a b : Forall2 R a b -> Forall2 R (firstn n a) (firstn n b).
Proof. revert a b. induction n; intros a b H; simpl; [constructor|]. inversion H; subst; constructor; auto. Qed.
Lemma f2_skipn {A B} (R : A -> B -> Prop) n a b : Forall2 R a b -> Forall2 R (skipn n a) (skipn n b).
Proof. revert a b. induction n; intros a b H; simpl; [exact H|]. inversion H; subst; [constructor|auto]. Qed.
Lemma f2_repeat {A B} (R : A -> B -> Prop) n x y : R x y -> Forall2 R (repeat x n) (repeat y n).
Proof. intro H. induction n; simpl; constructor; auto. Qed.
Lemma f2_length {A B} (R : A -> B -> Prop) a b : Forall2 R a b -> length a = length b.
Proof. induction 1; simpl; auto. Qed.
Lemma f2_map {A B A' B'} (R : A -> B -> Prop) (R' : A' -> B' -> Prop) f g a b :
  (forall x y, R x y -> R' (f x) (g y)) -> Forall2 R a b -> Forall2 R' (map f a) (map g b).
Proof. intro H. induction 1; simpl; constructor; auto. Qed.
Lemma f2_same {A A' B'} (R' : A' -> B' -> Prop) f g (a : list A) :
  (forall x, R' (f x) (g x)) -> Forall2 R' (map f a) (map g a).
Proof. intro H. induction a; simpl; constructor; auto. Qed.
Lemma f2_nth {A B} (R : A -> B -> Prop) n a b x y : Forall2 R a b -> R x y -> R (nth n a x) (nth n b y).
Proof. intros H Hd. revert n. induction H; intros [|n]; simpl; auto. Qed.
Lemma f2_nth_error {A B} (R : A -> B -> Prop) n a b : Forall2 R a b -> ro R (nth_error a n) (nth_error b n).
Proof. intros H. revert n. induction H; intros [|n]; simpl; auto. Qed.
Lemma f2_flat {A B A' B'} (R : A -> B -> Prop) (R' : A' -> B' -> Prop) f g a b :
  (forall x y, R x y -> Forall2 R' (f x) (g y)) -> Forall2 R a b -> Forall2 R' (flat_map f a) (flat_map g b).
Proof. intro H. induction 1; simpl; [constructor|]. apply Forall2_app; auto. Qed.
Lemma f2_concat {A B} (R : A -> B -> Prop) a b : Forall2 (Forall2 R) a b -> Forall2 R (concat a) (concat b).
Proof. induction 1; simpl; [constructor|]. apply Forall2_app; auto. Qed.
Lemma ro_seq {A B} (R : A -> B -> Prop) a b : Forall2 (ro R) a b -> ro (Forall2 R) (seqo a) (seqo b).
Proof.
  induction 1; simpl; [constructor|]. apply (ro_bind _ _ _ _ _ _ H). intros u v Huv.
  apply (ro_bind _ _ _ _ _ _ IHForall2). intros us vs Hus. simpl. constructor; assumption.
Qed.

Section Rel.
Variables D1 D2 : dom.
Variable RI : dI D1 -> dI D2 -> Prop.
Variable RD : dI D1 -> dI D2 -> Prop.
Variable RB : dB D1 -> dB D2 -> Prop.
Variable RW : dW D1 -> dW D2 -> Prop.
Variable RX : dX D1 -> dX D2 -> Prop.
Variable RM : dM D1 -> dM D2 -> Prop.
Record related : Prop := mkrel {
  h_iz : forall z, RI (iz D1 z) (iz D2 z);
  h_ival : forall a b, RI a b -> ro eq (ival D1 a) (ival D2 b);
  h_iadd : forall a b c d, RI a b -> RI c d -> RI (iadd D1 a c) (iadd D2 b d);
  h_isub : forall a b c d, RI a b -> RI c d -> RI (isub D1 a c) (isub D2 b d);
  h_imul : forall a b c d, RI a b -> RI c d -> ro RI (imul D1 a c) (imul D2 b d);
  h_dadd : forall a b c d, RD a b -> RI c d -> RD (iadd D1 a c) (iadd D2 b d);
  h_bz : forall z, RB (bz D1 z) (bz D2 z);
  h_bval : forall a b, RB a b -> ro eq (bval D1 a) (bval D2 b);
  h_wjoin : forall a b c d, RB a b -> RB c d -> RW (wjoin D1 a c) (wjoin D2 b d);
  h_wlo : forall a b, RW a b -> RB (wlo D1 a) (wlo D2 b);
  h_whi : forall a b, RW a b -> RB (whi D1 a) (whi D2 b);
  h_wadd : forall a b c d, RW a b -> RW c d -> RW (wadd D1 a c) (wadd D2 b d);
  h_wmul : forall a b c d, RW a b -> RW c d -> RW (wmul D1 a c) (wmul D2 b d);
  h_wadds : forall a b c d, RW a b -> RW c d -> RW (wadds D1 a c) (wadds D2 b d);
  h_wsrl : forall k a b, RW a b -> RW (wsrl D1 k a) (wsrl D2 k b);
  h_wpack : forall a b, RW a b -> RB (wpack D1 a) (wpack D2 b);
  h_xz : forall z, RX (xz D1 z) (xz D2 z);
  h_xof : forall a b, RB a b -> RX (xof D1 a) (xof D2 b);
  h_xadd : forall a b c d, RX a b -> RX c d -> RX (xadd D1 a c) (xadd D2 b d);
  h_xmul : forall a b c d, RX a b -> RX c d -> RX (xmul D1 a c) (xmul D2 b d);
  h_xshr : forall k a b, RX a b -> RX (xshr D1 a k) (xshr D2 b k);
  h_xb : forall a b, RX a b -> RB (xb D1 a) (xb D2 b);
  h_xw : forall a b, RX a b -> RW (xw D1 a) (xw D2 b);
  h_mrd : forall m n a b, RM m n -> RD a b -> ro RB (mrd D1 m a) (mrd D2 n b);
  h_mwr : forall m n a b x y, RM m n -> RD a b -> RB x y -> ro RM (mwr D1 m a x) (mwr D2 n b y);
  h_srd : forall k, ro RB (srd D1 k) (srd D2 k);
  h_junk : forall x q k, RB x (junk D2 q k)
}.
Hypothesis H : related.

Definition RP (p : ptr D1) (q : ptr D2) : Prop :=
  fst p = fst q /\ match fst q with 1%positive => RD (snd p) (snd q) | _ => RI (snd p) (snd q) end.
Definition RL (p : Z * tree (dB D1)) (q : Z * tree (dB D2)) : Prop := fst p = fst q /\ rt RB (snd p) (snd q).
Notation RV := (Forall2 RB).
Record RS (s : state D1) (t : state D2) : Prop := mkrs {
  r_ints : rt RI (ints D1 s) (ints D2 t);
  r_ptrs : rt RP (ptrs D1 s) (ptrs D2 t);
  r_regs : rt RV (regs D1 s) (regs D2 t);
  r_locs : rt RL (locs D1 s) (locs D2 t);
  r_next : next D1 s = next D2 t;
  r_new : (next D2 t <> 1)%positive;
  r_pic : RM (pic D1 s) (pic D2 t)
}.

Ltac bd := apply (ro_bind _ _ _ _ _ _).
Lemma arith_rel f a b c d : ro RI a b -> ro RI c d -> ro RI (arith D1 f a c) (arith D2 f b d).
Proof.
  intros Ha Hb. unfold arith. eapply ro_bind; [exact Ha|]. intros x y Hx. eapply ro_bind; [exact Hb|]. intros u v Hu.
  eapply ro_bind; [apply (h_ival H); exact Hx|]. intros z ? <-. eapply ro_bind; [apply (h_ival H); exact Hu|]. intros z' ? <-.
  apply (h_iz H).
Qed.
Lemma ieval_rel s t e : RS s t -> ro RI (ieval D1 s e) (ieval D2 t e).
Proof.
  intro Hs. induction e; simpl;
    try (apply arith_rel; assumption);
    try (eapply ro_bind; [exact IHe1|]; intros x y Hx; eapply ro_bind; [exact IHe2|]; intros u v Hu).
  - apply (h_iz H).
  - apply (r_ints _ _ Hs).
  - simpl. apply (h_iadd H); assumption.
  - simpl. apply (h_isub H); assumption.
  - apply (h_imul H); assumption.
  - eapply ro_bind; [apply (h_ival H); exact Hu|]. intros z ? <-. apply (h_imul H); [assumption|apply (h_iz H)].
  - eapply ro_bind; [exact IHe|]. intros x y Hx. eapply ro_bind; [apply (h_ival H); exact Hx|]. intros z ? <-. apply (h_iz H).
Qed.
Lemma zeval_rel s t e : RS s t -> ro eq (zeval D1 s e) (zeval D2 t e).
Proof. intro Hs. unfold zeval. eapply ro_bind; [apply ieval_rel; exact Hs|]. intros x y Hx. apply (h_ival H). exact Hx. Qed.
Lemma rp_add p q a b : RP p q -> RI a b -> RP (fst p, iadd D1 (snd p) a) (fst q, iadd D2 (snd q) b).
Proof.
  intros [Hf Hp] Ha. split; [exact Hf|]. simpl.
  destruct (fst q); try (apply (h_iadd H); assumption). apply (h_dadd H); assumption.
Qed.
Lemma peval_rel s t p : RS s t -> ro RP (peval D1 s p) (peval D2 t p).
Proof.
  intro Hs. induction p; simpl.
  - eapply ro_bind; [apply zeval_rel; exact Hs|]. intros k ? <-. eapply ro_bind; [apply (ro_eq (slot v k))|]. intros q ? <-.
    apply (r_ptrs _ _ Hs).
  - eapply ro_bind; [exact IHp|]. intros a b Ha. eapply ro_bind; [apply ieval_rel; exact Hs|]. intros k l Hk. simpl. apply rp_add; assumption.
Qed.
Lemma step_rel p q k : RP p q -> RP (step_ptr D1 p k) (step_ptr D2 q k).
Proof. intro Hp. apply rp_add; [exact Hp|apply (h_iz H)]. Qed.
Lemma loc_rd_rel s t q a b : RS s t -> RI a b ->
  ro RB (bind (ival D1 a) (fun k => bind (get (locs D1 s) q) (fun a =>
           if (0 <=? k) && (k <? fst a) then Some (match get (snd a) (Z.to_pos (k + 1)) with Some b => b | None => junk D1 q k end) else None)))
        (bind (ival D2 b) (fun k => bind (get (locs D2 t) q) (fun a =>
           if (0 <=? k) && (k <? fst a) then Some (match get (snd a) (Z.to_pos (k + 1)) with Some b => b | None => junk D2 q k end) else None))).
Proof.
  intros Hs Ha. eapply ro_bind; [apply (h_ival H); exact Ha|]. intros k ? <-.
  eapply ro_bind; [apply (r_locs _ _ Hs)|]. intros x y [Hx Hy]. rewrite Hx. destruct (_ && _); [|exact Logic.I].
  specialize (Hy (Z.to_pos (k + 1))). destruct (get (snd y) (Z.to_pos (k + 1))).
  - destruct (get (snd x) _); [exact Hy|contradiction].
  - simpl. apply (h_junk H).
Qed.
Lemma rd_rel s t p q : RS s t -> RP p q -> ro RB (rd D1 s p) (rd D2 t q).
Proof.
  intros Hs [Hf Hp]. unfold rd. rewrite Hf. destruct (fst q) as [r|r|] eqn:Er.
  - apply loc_rd_rel; assumption.
  - destruct r; try (apply loc_rd_rel; assumption).
    eapply ro_bind; [apply (h_ival H); exact Hp|]. intros k ? <-. apply (h_srd H).
  - apply (h_mrd H); [apply (r_pic _ _ Hs)|exact Hp].
Qed.
Lemma loc_wr_rel s t q a b x y : RS s t -> RI a b -> RB x y ->
  ro RS (bind (ival D1 a) (fun k => bind (get (locs D1 s) q) (fun a =>
           if (0 <=? k) && (k <? fst a) then Some (set_loc D1 s q (fst a, set (snd a) (Z.to_pos (k + 1)) x)) else None)))
        (bind (ival D2 b) (fun k => bind (get (locs D2 t) q) (fun a =>
           if (0 <=? k) && (k <? fst a) then Some (set_loc D2 t q (fst a, set (snd a) (Z.to_pos (k + 1)) y)) else None))).
Proof.
  intros Hs Ha Hxy. eapply ro_bind; [apply (h_ival H); exact Ha|]. intros k ? <-.
  eapply ro_bind; [apply (r_locs _ _ Hs)|]. intros u v [Hx Hy]. rewrite Hx. destruct (_ && _); [|exact Logic.I].
  simpl. destruct Hs. split; try assumption. simpl. apply rt_set; [assumption|]. split; [reflexivity|]. simpl. apply rt_set; assumption.
Qed.
Lemma wr_rel s t p q x y : RS s t -> RP p q -> RB x y -> ro RS (wr D1 s p x) (wr D2 t q y).
Proof.
  intros Hs [Hf Hp] Hx. unfold wr. rewrite Hf. destruct (fst q) as [r|r|] eqn:Er.
  - apply loc_wr_rel; assumption.
  - destruct r; try (apply loc_wr_rel; assumption). exact Logic.I.
  - eapply ro_bind; [apply (h_mwr H); [apply (r_pic _ _ Hs)|exact Hp|exact Hx]|]. intros m n Hm. simpl. destruct Hs. split; assumption.
Qed.
Lemma rdn_rel s t n : RS s t -> forall p q, RP p q -> ro RV (rdn D1 s n p) (rdn D2 t n q).
Proof.
  intro Hs. induction n; intros p q Hp; simpl; [constructor|].
  eapply ro_bind; [apply rd_rel; eassumption|]. intros x y Hx. eapply ro_bind; [apply IHn; apply step_rel; exact Hp|].
  intros l l' Hl. simpl. constructor; assumption.
Qed.
Lemma wrn_rel l l' : RV l l' -> forall s t p q, RS s t -> RP p q -> ro RS (wrn D1 s p l) (wrn D2 t q l').
Proof.
  induction 1; intros s t p q Hs Hp; simpl; [exact Hs|].
  eapply ro_bind; [apply wr_rel; eassumption|]. intros s' t' Hs'. apply IHForall2; [exact Hs'|apply step_rel; exact Hp].
Qed.
Lemma xeval_rel s t x : RS s t -> ro RX (xeval D1 s x) (xeval D2 t x).
Proof.
  intro Hs. induction x; simpl.
  - apply (h_xz H).
  - eapply ro_bind; [apply peval_rel; exact Hs|]. intros a b Ha. eapply ro_bind; [apply rd_rel; eassumption|]. intros u v Hu. apply (h_xof H). exact Hu.
  - eapply ro_bind; [exact IHx1|]. intros u v Hu. eapply ro_bind; [exact IHx2|]. intros u' v' Hu'. apply (h_xadd H); assumption.
  - eapply ro_bind; [exact IHx1|]. intros u v Hu. eapply ro_bind; [exact IHx2|]. intros u' v' Hu'. apply (h_xmul H); assumption.
  - eapply ro_bind; [exact IHx|]. intros u v Hu. apply (h_xmul H); [assumption|apply (h_xz H)].
  - eapply ro_bind; [exact IHx|]. intros u v Hu. apply (h_xshr H). assumption.
Qed.

Lemma words_rel n : forall a b, (length b <= n)%nat -> RV a b -> Forall2 RW (words D1 a) (words D2 b).
Proof.
  induction n; intros a b Hn Hl.
  - destruct b; [|simpl in Hn; lia]. inversion Hl. constructor.
  - inversion Hl as [|x y l l' Hx Hl' Ea Eb]; [constructor|]. inversion Hl' as [|u v m m' Hu Hm]; [constructor|]. simpl. constructor.
    + apply (h_wjoin H); assumption.
    + apply IHn; [|assumption]. subst. simpl in Hn. lia.
Qed.
Lemma words_rel' a b : RV a b -> Forall2 RW (words D1 a) (words D2 b).
Proof. intro Hl. eapply words_rel; [|exact Hl]. apply le_n. Qed.
Lemma bytes_rel a b : Forall2 RW a b -> RV (bytes D1 a) (bytes D2 b).
Proof. intro Hl. eapply f2_flat; [|exact Hl]. intros x y Hx. repeat constructor; [apply (h_wlo H)|apply (h_whi H)]; assumption. Qed.
Lemma map2_rel f g a b c d : (forall x y u v, RW x y -> RW u v -> RW (f x u) (g y v)) ->
  Forall2 RW a b -> Forall2 RW c d -> Forall2 RW (map2 f a c) (map2 g b d).
Proof. intros Hf Hl. revert c d. induction Hl; intros c d Hc; simpl; [constructor|]. inversion Hc; subst; constructor; auto. Qed.
Lemma word2_rel f g a b c d : (forall x y u v, RW x y -> RW u v -> RW (f x u) (g y v)) -> RV a b -> RV c d -> RV (word2 D1 f a c) (word2 D2 g b d).
Proof. intros Hf Ha Hc. apply bytes_rel. apply map2_rel; [exact Hf|apply words_rel'; exact Ha|apply words_rel'; exact Hc]. Qed.
Lemma lanes1_rel f g a b : (forall x y, RV x y -> RV (f x) (g y)) -> RV a b -> RV (lanes1 D1 f a) (lanes1 D2 g b).
Proof.
  intros Hf Ha. unfold lanes1. rewrite (f2_length _ _ _ Ha). destruct (Nat.leb _ _); [auto|].
  apply Forall2_app; apply Hf; [apply f2_firstn|apply f2_skipn]; exact Ha.
Qed.
Lemma lanes2_rel f g a b c d : (forall x y u v, RV x y -> RV u v -> RV (f x u) (g y v)) -> RV a b -> RV c d -> RV (lanes2 D1 f a c) (lanes2 D2 g b d).
Proof.
  intros Hf Ha Hc. unfold lanes2. rewrite (f2_length _ _ _ Ha). destruct (Nat.leb _ _); [auto|].
  apply Forall2_app; apply Hf; try (apply f2_firstn); try (apply f2_skipn); assumption.
Qed.
Lemma pack_rel a b c d : RV a b -> RV c d -> RV (pack D1 a c) (pack D2 b d).
Proof.
  intros Ha Hc. unfold pack. apply Forall2_app; (eapply f2_map; [apply (h_wpack H)|]; apply words_rel'; assumption).
Qed.
Lemma weave_rel n k : forall a b c d, RV a b -> RV c d -> RV (weave D1 n k a c) (weave D2 n k b d).
Proof.
  induction k; intros a b c d Ha Hc; simpl; [constructor|].
  repeat apply Forall2_app; try (apply f2_firstn; assumption). apply IHk; apply f2_skipn; assumption.
Qed.
Lemma shuf_rel a b c d : RV a b -> RV c d -> ro RV (shuf D1 a c) (shuf D2 b d).
Proof.
  intros Ha Hc. unfold shuf. apply ro_seq. eapply f2_map; [|exact Hc]. intros x y Hx.
  eapply ro_bind; [apply (h_bval H); exact Hx|]. intros z ? <-. destruct (128 <=? z); simpl; [apply (h_bz H)|].
  apply f2_nth; [exact Ha|apply (h_bz H)].
Qed.
Lemma half_rel a b c d k : RV a b -> RV c d -> RV (half D1 a c k) (half D2 b d k).
Proof.
  intros Ha Hc. unfold half. destruct (Z.testbit k 3); [apply f2_repeat; apply (h_bz H)|]. cbv zeta.
  destruct (_ =? 0); [apply f2_firstn; assumption|]. destruct (_ =? 1); [apply f2_skipn; assumption|].
  destruct (_ =? 2); [apply f2_firstn|apply f2_skipn]; assumption.
Qed.
Lemma firsts_rel n : forall a b, RV a b -> RV (firsts D1 n a) (firsts D2 n b).
Proof.
  induction n; intros a b Ha; [constructor|]. destruct Ha as [|x y l l' Hx Hl]; [constructor|].
  change (RV (x :: firsts D1 n (skipn 4 (x :: l))) (y :: firsts D2 n (skipn 4 (y :: l')))).
  constructor; [exact Hx|]. apply IHn. apply f2_skipn. constructor; assumption.
Qed.
Lemma perm32_rel a b c d : RV a b -> RV c d -> ro RV (perm32 D1 a c) (perm32 D2 b d).
Proof.
  intros Ha Hc. unfold perm32. eapply (ro_bind (Forall2 RV)).
  - apply ro_seq. eapply f2_map; [|apply firsts_rel; exact Hc]. intros x y Hx.
    eapply ro_bind; [apply (h_bval H); exact Hx|]. intros z ? <-. apply ro_some. apply f2_firstn. apply f2_skipn. exact Ha.
  - intros l l' Hl. simpl. apply f2_concat. exact Hl.
Qed.
Lemma do1_rel o a b : RV a b -> RV (do1 D1 o a) (do1 D2 o b).
Proof.
  intro Ha. destruct o; cbn [do1].
  - apply bytes_rel. eapply f2_map; [|apply words_rel'; exact Ha]. intros. apply (h_wsrl H). assumption.
  - apply lanes1_rel; [|exact Ha]. intros x y Hx. apply Forall2_app; [apply f2_skipn; exact Hx|apply f2_repeat; apply (h_bz H)].
  - eapply f2_flat; [|exact Ha]. intros x y Hx. repeat constructor; [exact Hx|apply (h_bz H)].
  - destruct k; [apply f2_firstn|apply f2_skipn]; exact Ha.
  - apply Forall2_app; [apply f2_firstn; apply f2_skipn; exact Ha|]. repeat constructor; apply (h_bz H).
  - repeat apply Forall2_app; apply f2_firstn; apply f2_skipn; exact Ha.
Qed.
Lemma do2_rel o a b c d : RV a b -> RV c d -> ro RV (do2 D1 o a c) (do2 D2 o b d).
Proof.
  intros Ha Hc. destruct o; cbn [do2].
  - apply ro_some. apply word2_rel; try assumption. intros. apply (h_wadd H); assumption.
  - apply ro_some. apply word2_rel; try assumption. intros. apply (h_wmul H); assumption.
  - apply ro_some. apply word2_rel; try assumption. intros. apply (h_wadds H); assumption.
  - apply ro_some. apply lanes2_rel; try assumption. apply pack_rel.
  - apply ro_some. apply lanes2_rel; try assumption. apply weave_rel.
  - apply ro_some. apply lanes2_rel; try assumption. intros. apply weave_rel; apply f2_skipn; assumption.
  - rewrite (f2_length _ _ _ Ha). destruct (Nat.leb _ _); [apply shuf_rel; assumption|].
    eapply ro_bind; [apply shuf_rel; apply f2_firstn; assumption|]. intros x y Hx.
    eapply ro_bind; [apply shuf_rel; apply f2_skipn; assumption|]. intros u v Hu. apply Forall2_app; assumption.
  - apply ro_some. apply Forall2_app; apply half_rel; assumption.
  - apply perm32_rel; assumption.
Qed.
Lemma veval_rel s t e : RS s t -> ro RV (veval D1 s e) (veval D2 t e).
Proof.
  intro Hs. induction e; cbn [veval].
  - apply (r_regs _ _ Hs).
  - eapply ro_bind; [apply peval_rel; exact Hs|]. intros a b Ha. eapply ro_bind; [apply rdn_rel; eassumption|]. intros l l' Hl.
    apply ro_some. apply Forall2_app; [exact Hl|apply f2_repeat; apply (h_bz H)].
  - apply ro_some. apply f2_same. apply (h_bz H).
  - eapply ro_bind; [apply zeval_rel; exact Hs|]. intros k ? <-. eapply ro_bind; [apply ro_eq|]. intros l ? <-.
    destruct (0 <=? k); [|exact Logic.I]. apply ro_some. apply f2_same. apply (h_bz H).
  - eapply ro_bind; [apply xeval_rel; exact Hs|]. intros u v Hu. apply ro_some.
    assert (Hw : RV (bytes D1 (repeat (xw D1 u) n)) (bytes D2 (repeat (xw D2 v) n))) by (apply bytes_rel; apply f2_repeat; apply (h_xw H); exact Hu).
    destruct width as [|[|]]; try exact Hw. apply f2_repeat. apply (h_xb H). exact Hu.
  - eapply (ro_bind (Forall2 RX)).
    + apply ro_seq. apply f2_same. intro x. apply xeval_rel. exact Hs.
    + intros us vs Hu. apply ro_some. apply bytes_rel. eapply f2_map; [apply (h_xw H)|exact Hu].
  - eapply ro_bind; [exact IHe|]. intros x y Hx. apply ro_some. apply do1_rel. exact Hx.
  - eapply ro_bind; [exact IHe1|]. intros x y Hx. eapply ro_bind; [exact IHe2|]. intros u v Hu. apply do2_rel; assumption.
Qed.
Lemma wrmask_rel w k : forall s t p q m n l l', RS s t -> RP p q -> RV m n -> RV l l' -> ro RS (wrmask D1 w k s p m l) (wrmask D2 w k t q n l').
Proof.
  induction k; intros s t p q m n l l' Hs Hp Hm Hl; cbn [wrmask]; [exact Hs|].
  eapply (ro_bind eq).
  - eapply ro_bind; [apply f2_nth_error; exact Hm|]. intros x y Hx. apply (h_bval H). exact Hx.
  - intros z ? <-. eapply (ro_bind RS).
    + destruct (128 <=? z); [|exact Hs]. apply wrn_rel; try assumption. apply f2_firstn. exact Hl.
    + intros s' t' Hs'. apply IHk; [exact Hs'|apply step_rel; exact Hp|apply f2_skipn; exact Hm|apply f2_skipn; exact Hl].
Qed.
Lemma enter_rel a b c d k k' w w' h h' l l' n m m' :
  RP a b -> RP c d -> RI k k' -> RI w w' -> RI h h' -> rt RL l l' -> n <> 1%positive -> RM m m' ->
  RS (enter D1 a c k w h l n m) (enter D2 b d k' w' h' l' n m').
Proof.
  intros. unfold enter. split; cbn [ints ptrs regs locs next pic]; try assumption; try reflexivity;
    repeat (apply rt_set; [|assumption]); apply rt_lf.
Qed.
Definition RQ (p : bool * state D1) (q : bool * state D2) : Prop := fst p = fst q /\ RS (snd p) (snd q).
Lemma run_rel n : forall l s t, RS s t -> ro RQ (run D1 n l s) (run D2 n l t).
Proof.
  induction n as [|n IH]; intros l s t Hs; [exact Logic.I|]. cbn [run]. destruct l as [|c r].
  - split; [reflexivity|exact Hs].
  - destruct c.
    + eapply ro_bind; [apply ieval_rel; exact Hs|]. intros x y Hx. apply IH. destruct Hs. split; try assumption. apply rt_set; assumption.
    + eapply ro_bind; [apply zeval_rel; exact Hs|]. intros k ? <-. eapply ro_bind; [apply (ro_eq (slot v k))|]. intros q ? <-.
      eapply ro_bind; [apply peval_rel; exact Hs|]. intros x y Hx. apply IH. destruct Hs. split; try assumption. apply rt_set; assumption.
    + eapply ro_bind; [apply veval_rel; exact Hs|]. intros x y Hx. apply IH. destruct Hs. split; try assumption. apply rt_set; assumption.
    + eapply ro_bind; [apply zeval_rel; exact Hs|]. intros k ? <-. eapply ro_bind; [apply (ro_eq (slot v 0))|]. intros q ? <-.
      apply IH. destruct Hs. split; cbn [ints ptrs regs locs next pic]; try assumption.
      * apply rt_set; [assumption|]. split; [assumption|]. cbn [fst snd].
        destruct (next D2 t); try apply (h_iz H). contradiction.
      * rewrite r_next0. apply rt_set; [assumption|]. split; [reflexivity|apply rt_lf].
      * congruence.
      * apply Pos.succ_not_1.
    + eapply ro_bind; [apply peval_rel; exact Hs|]. intros a b Ha. eapply ro_bind; [apply veval_rel; exact Hs|]. intros x y Hx.
      eapply ro_bind; [apply wrn_rel; [apply f2_firstn; exact Hx|exact Hs|exact Ha]|]. intros s' t' Hs'. apply IH. exact Hs'.
    + eapply ro_bind; [apply peval_rel; exact Hs|]. intros a b Ha. eapply ro_bind; [apply veval_rel; exact Hs|]. intros x y Hx.
      eapply ro_bind; [apply veval_rel; exact Hs|]. intros u v Hu. rewrite (f2_length _ _ _ Hx).
      eapply ro_bind; [apply wrmask_rel; eassumption|]. intros s' t' Hs'. apply IH. exact Hs'.
    + eapply ro_bind; [apply zeval_rel; exact Hs|]. intros k ? <-. eapply ro_bind; [apply peval_rel; exact Hs|]. intros a b Ha.
      eapply ro_bind; [apply peval_rel; exact Hs|]. intros u v Hu. eapply ro_bind; [apply rdn_rel; eassumption|]. intros x y Hx.
      eapply ro_bind; [apply wrn_rel; eassumption|]. intros s' t' Hs'. apply IH. exact Hs'.
    + eapply ro_bind; [apply peval_rel; exact Hs|]. intros a b Ha. eapply ro_bind; [apply xeval_rel; exact Hs|]. intros u v Hu.
      eapply ro_bind; [apply wr_rel; [exact Hs|exact Ha|apply (h_xb H); exact Hu]|]. intros s' t' Hs'. apply IH. exact Hs'.
    + eapply ro_bind; [apply zeval_rel; exact Hs|]. intros z ? <-. eapply ro_bind; [apply IH; exact Hs|].
      intros q q' Hq. destruct Hq as [Hb Hq]. rewrite Hb. destruct (fst q') eqn:Eq.
      * split; [congruence|exact Hq].
      * apply IH. exact Hq.
    + eapply ro_bind; [apply zeval_rel; exact Hs|]. intros z ? <-. destruct (z =? 0); [apply IH; exact Hs|].
      eapply ro_bind; [apply IH; exact Hs|]. intros q q' Hq. destruct Hq as [Hb Hq]. rewrite Hb. destruct (fst q') eqn:Eq.
      * split; [congruence|exact Hq].
      * apply IH. exact Hq.
    + eapply ro_bind; [apply peval_rel; exact Hs|]. intros a b Ha. eapply ro_bind; [apply peval_rel; exact Hs|]. intros a' b' Ha'.
      eapply ro_bind; [apply ieval_rel; exact Hs|]. intros k k' Hk. eapply ro_bind; [apply ieval_rel; exact Hs|]. intros w w' Hw.
      eapply ro_bind; [apply ieval_rel; exact Hs|]. intros h h' Hh. rewrite (r_next _ _ Hs).
      eapply ro_bind; [apply IH; apply enter_rel; try eassumption; [apply (r_locs _ _ Hs)|apply (r_new _ _ Hs)|apply (r_pic _ _ Hs)]|].
      intros q q' Hq. destruct Hq as [_ Hq]. apply IH. destruct Hs. destruct Hq. split; assumption.
    + split; [reflexivity|exact Hs].
    + exact Logic.I.
Qed.
End Rel.
