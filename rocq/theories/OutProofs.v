(** Proofs about the output side (OutModel). *)
From Coq Require Import ZArith List Bool Sorted Permutation Lia.
From Verif Require Import CBase CBaseProofs OutModel OutSpec.
Import ListNotations.
Open Scope Z_scope.

Record Inv (s : st) (t : list ev) : Prop := {
  i_sorted : sorted_poc (m_q (s_m s));
  i_npic : m_npic (s_m s) = Z.of_nat (length (m_q (s_m s)));
  i_cons : Permutation (completed t) (delivered t ++ m_q (s_m s));
  i_fly : Permutation (started t) (completed t ++ dropped t ++ s_fly s);
  i_ids : NoDup (map p_id (started t));
  i_bound : forall p, In p (started t) -> 0 <= p_id p < m_in (s_m s);
  i_in : m_in (s_m s) = Z.of_nat (length (started t));
  i_out : m_out (s_m s) = Z.of_nat (length (delivered t));
  i_sps : m_sps (s_m s) = due no_head false t;
  i_head : m_head (s_m s) = last_head no_head t;
  i_inner : match s_pc s with AtInner _ _ => m_sps (s_m s) = false | _ => True end
}.

Lemma inv_init : forall n, Inv (st_init n) [].
Proof. intros. split; cbn; try constructor; try reflexivity; intros; contradiction. Qed.

Lemma completed_app : forall a b, completed (a ++ b) = completed a ++ completed b.
Proof. intros. apply flat_map_app. Qed.
Lemma delivered_app : forall a b, delivered (a ++ b) = delivered a ++ delivered b.
Proof. intros. apply flat_map_app. Qed.
Lemma started_app : forall a b, started (a ++ b) = started a ++ started b.
Proof. intros. apply flat_map_app. Qed.
Lemma dropped_app : forall a b, dropped (a ++ b) = dropped a ++ dropped b.
Proof. intros. apply flat_map_app. Qed.
Lemma last_head_app : forall a h b, last_head h (a ++ b) = last_head (last_head h a) b.
Proof. induction a as [|e a IH]; intros; cbn; auto. destruct e; auto. Qed.
Lemma due_app : forall a h d b, due h d (a ++ b) = due (last_head h a) (due h d a) b.
Proof.
  induction a as [|e a IH]; intros; cbn; auto. destruct e as [| | | |r]; auto. destruct r; auto.
Qed.

Lemma insert_perm : forall p l, Permutation (insert_pic p l) (p :: l).
Proof.
  induction l as [|c l IH]; cbn; auto. destruct (p_poc c <? p_poc p); auto.
  rewrite IH. apply perm_swap.
Qed.

Lemma insert_sorted : forall p l, sorted_poc l -> sorted_poc (insert_pic p l).
Proof.
  unfold sorted_poc. induction l as [|c l IH]; intros H; cbn.
  - repeat constructor.
  - inversion H as [|? ? H1 H2]; subst. destruct (p_poc c <? p_poc p) eqn:E.
    + constructor; auto. apply Forall_forall. intros x Hx.
      apply (Permutation_in _ (insert_perm p l)) in Hx. destruct Hx as [<- | Hx]; [lia|].
      rewrite Forall_forall in H2. auto.
    + constructor; auto. constructor; [lia|]. apply Forall_forall. intros x Hx.
      rewrite Forall_forall in H2. specialize (H2 x Hx). lia.
Qed.

Lemma insert_length : forall p l, length (insert_pic p l) = S (length l).
Proof. intros. rewrite (Permutation_length (insert_perm p l)). reflexivity. Qed.

Lemma remove_perm : forall p l, NoDup (map p_id l) -> In p l ->
  Permutation l (p :: remove_pic p l).
Proof.
  induction l as [|c l IH]; intros Hn Hi; [contradiction|]. cbn in *.
  inversion Hn as [|? ? H1 H2]; subst. destruct (p_id c =? p_id p) eqn:E.
  - destruct Hi as [-> | Hi]; auto. exfalso. apply H1. apply Z.eqb_eq in E. rewrite E.
    apply in_map. auto.
  - destruct Hi as [-> | Hi]; [lia|]. rewrite (IH H2 Hi) at 1. apply perm_swap.
Qed.

Lemma flying_in : forall p l, flying p l = true -> In p l.
Proof.
  intros p l H. unfold flying in H. rewrite existsb_exists in H. destruct H as (c & H1 & H2).
  apply andb_true_iff in H2 as [A B]. apply Z.eqb_eq in A. apply Z.eqb_eq in B.
  destruct c, p; cbn in *; subst. auto.
Qed.

Lemma fly_nodup : forall s t, Inv s t -> NoDup (map p_id (s_fly s)).
Proof.
  intros s t I. pose proof (i_ids _ _ I) as N.
  rewrite (Permutation_map p_id (i_fly _ _ I)) in N.
  rewrite !map_app in N. apply NoDup_app_remove_l in N. apply NoDup_app_remove_l in N. auto.
Qed.

Ltac simp_ev := rewrite ?completed_app, ?delivered_app, ?started_app, ?dropped_app,
   ?last_head_app, ?due_app; cbn [completed delivered started dropped flat_map last_head due app];
   rewrite ?app_nil_r.

Lemma start_inv : forall s t poc dt, Inv s t ->
  Inv (fst (start_pic s poc dt)) (t ++ [EvStart (snd (start_pic s poc dt))]).
Proof.
  intros s t poc dt I. pose proof (i_in _ _ I) as HN. pose proof (i_bound _ _ I) as HB.
  destruct I. unfold start_pic. cbn [fst snd]. split; cbn [s_pc s_m s_fly with_in m_q m_npic m_in m_out m_sps m_head]; simp_ev; auto.
  - rewrite (Permutation_app_comm (started t)). cbn [app]. rewrite i_fly0. rewrite !app_assoc.
    apply Permutation_cons_app. reflexivity.
  - rewrite map_app. cbn. apply (Permutation_NoDup (Permutation_cons_append _ _)).
    constructor; auto. intros Q. apply in_map_iff in Q as (q & E & Q). apply i_bound0 in Q. lia.
  - intros p Hp. apply in_app_iff in Hp as [Hp|[<- | []]].
    + apply i_bound0 in Hp. lia.
    + cbn. lia.
  - rewrite app_length. cbn. lia.
Qed.

Lemma iter_inv : forall m m1 r, out_iter m = (m1, r) ->
  m_in m1 = m_in m /\ m_out m1 = m_out m /\ m_sps m1 = m_sps m /\ m_head m1 = m_head m /\ m_flush m1 = m_flush m /\
  match r with
  | IDeliver p => m_q m = p :: m_q m1 /\ m_npic m1 = m_npic m - 1
  | _ => m_q m1 = m_q m /\ m_npic m1 = m_npic m
  end.
Proof.
  intros m m1 r H. unfold out_iter in H. destruct (m_q m) as [|f l] eqn:Q.
  - inversion H; subst. auto 10.
  - destruct (p_poc f =? m_next m); [inversion H; subst; cbn; auto 10|].
    destruct (m_next m <? p_poc f).
    + destruct (m_flush m && (m_in m =? m_out m + m_npic m)) eqn:?; [inversion H; subst; cbn; auto 10|].
      destruct (Z.of_nat (length (f :: l)) <? 8); inversion H; subst; cbn; auto 10.
    + inversion H; subst; cbn; auto 10.
Qed.

Lemma caller_inv : forall s t s1 e, Inv s t -> caller_step s = Some (s1, e) -> Inv s1 (t ++ e).
Proof.
  intros s t s1 e I H. unfold caller_step in H.
  assert (GH: m_sps (s_m s) = true -> forall s1 e, give_header s = (s1, e) -> Inv s1 (t ++ e)).
  { intros HS s2 e2 G. unfold give_header in G. inversion G; subst. destruct I.
    split; cbn [s_pc s_m s_fly with_sps m_q m_npic m_in m_out m_sps m_head]; simp_ev; auto. }
  destruct (s_pc s) as [|fl w|fl w] eqn:PC; [discriminate| |].
  - destruct ((m_out (s_m s) <? m_in (s_m s)) && (w || fl)) eqn:C.
    + destruct (m_sps (s_m s)) eqn:S.
      * apply Some_inj in H. eapply GH; eauto.
      * inversion H; subst. rewrite app_nil_r. destruct I; split; cbn; auto.
    + destruct (m_sps (s_m s)) eqn:S.
      * apply Some_inj in H. eapply GH; eauto.
      * inversion H; subst. destruct I. split; cbn [s_pc s_m s_fly]; simp_ev;
          destruct fl; cbn [flat_map last_head due app]; rewrite ?app_nil_r; auto; try congruence.
  - destruct (out_iter (s_m s)) as [m1 r] eqn:E. pose proof (iter_inv _ _ _ E) as (A1 & A2 & A3 & A4 & A5 & A6).
    destruct I. destruct r as [p| | |].
    + destruct A6 as [Q N]. inversion H; subst. rewrite Q in *.
      split; cbn [s_pc s_m s_fly with_out m_q m_npic m_in m_out m_sps m_head]; simp_ev.
      * inversion i_sorted0; auto.
      * cbn [length] in i_npic0. lia.
      * rewrite i_cons0. rewrite <- app_assoc. reflexivity.
      * exact i_fly0.
      * auto.
      * rewrite A1. auto.
      * rewrite A1. auto.
      * rewrite A2, app_length. cbn. lia.
      * congruence.
      * congruence.
      * exact Logic.I.
    + destruct A6 as [Q N]. inversion H; subst. rewrite app_nil_r.
      split; cbn [s_pc s_m s_fly]; rewrite ?Q, ?N, ?A1, ?A2, ?A3, ?A4; auto; rewrite PC in *; auto.
    + destruct A6 as [Q N]. inversion H; subst. rewrite app_nil_r.
      split; cbn [s_pc s_m s_fly]; rewrite ?Q, ?N, ?A1, ?A2, ?A3, ?A4; auto; rewrite PC in *; auto.
    + destruct A6 as [Q N]. inversion H; subst. rewrite app_nil_r.
      split; cbn [s_pc s_m s_fly]; rewrite ?Q, ?N, ?A1, ?A2, ?A3, ?A4; auto; rewrite PC in *; auto.
Qed.

Lemma step_inv : forall s t o s1 e, Inv s t -> step s o = Some (s1, e) -> Inv s1 (t ++ e).
Proof.
  intros s t o s1 e I H.
  destruct o as [poc|h|poc| |p|p| |o|]; cbn [step] in H.
  - destruct (s_pc s) eqn:PC; try discriminate. destruct (start_pic s poc 1) as [s2 p] eqn:E.
    inversion H; subst. pose proof (start_inv s t poc 1 I) as K. rewrite E in K. exact K.
  - destruct (s_pc s) eqn:PC; try discriminate. inversion H; subst. destruct I.
    split; cbn [s_pc s_m s_fly with_sps m_q m_npic m_in m_out m_sps m_head]; simp_ev; auto.
    rewrite i_sps0, i_head0. destruct (due no_head false t); cbn; [rewrite orb_true_r; reflexivity|].
    rewrite orb_false_r. rewrite negb_andb, orb_comm. reflexivity.
  - destruct (s_pc s) eqn:PC; try discriminate. destruct (m_next (s_m s) =? -1); try discriminate.
    inversion H; subst. rewrite app_nil_r. destruct I; split; cbn; auto.
  - destruct (s_pc s) eqn:PC; try discriminate. destruct (m_q (s_m s)) as [|f l] eqn:Q; try discriminate.
    destruct (m_next (s_m s) <? p_poc f); try discriminate.
    inversion H; subst. rewrite app_nil_r. destruct I; split; cbn [s_pc s_m s_fly with_q m_q m_npic m_in m_out m_sps m_head]; rewrite <- ?Q; auto.
  - destruct (flying p (s_fly s)) eqn:F; [|discriminate]. apply Some_inj in H.
    apply pair_equal_spec in H as [H <-]. subst s1. apply flying_in in F.
    pose proof (remove_perm p (s_fly s) (fly_nodup _ _ I) F) as RP. destruct I.
    split; cbn [s_pc s_m s_fly send_picture with_q m_q m_npic m_in m_out m_sps m_head]; simp_ev; auto.
    + apply insert_sorted; auto.
    + rewrite insert_length. lia.
    + rewrite i_cons0, insert_perm. rewrite <- app_assoc. apply Permutation_app_head.
      apply Permutation_sym, Permutation_cons_append.
    + rewrite i_fly0. rewrite <- !app_assoc. apply Permutation_app_head. cbn [app].
      rewrite RP at 1. rewrite Permutation_middle. reflexivity.
  - destruct (flying p (s_fly s)) eqn:F; [|discriminate]. apply Some_inj in H.
    apply pair_equal_spec in H as [H <-]. subst s1. apply flying_in in F.
    pose proof (remove_perm p (s_fly s) (fly_nodup _ _ I) F) as RP. destruct I.
    split; cbn [s_pc s_m s_fly]; simp_ev; auto.
    rewrite i_fly0. apply Permutation_app_head. rewrite <- app_assoc. apply Permutation_app_head.
    exact RP.
  - destruct (s_pc s) eqn:PC; try discriminate.
    destruct (negb (m_to_out (s_m s) =? 0) || m_sps (s_m s)) eqn:C; inversion H; subst.
    + rewrite app_nil_r. destruct I; split; cbn; auto.
    + destruct I. split; simp_ev; auto.
  - destruct (s_pc s) eqn:PC; try discriminate.
    assert (I0: Inv (St (with_flush (s_m s)) Idle (s_fly s)) t) by (destruct I; split; cbn; auto).
    destruct o as [poc|].
    + destruct (start_pic (St (with_flush (s_m s)) Idle (s_fly s)) poc 0) as [s2 p] eqn:E.
      pose proof (start_inv _ t poc 0 I0) as K. rewrite E in K. cbn [fst snd] in K.
      inversion H; subst. destruct K; split; cbn; auto.
    + inversion H; subst. rewrite app_nil_r. destruct I0; split; cbn; auto.
  - eapply caller_inv; eauto.
Qed.

Lemma run_inv : forall ops s t s1 e, Inv s t -> run s ops = Some (s1, e) -> Inv s1 (t ++ e).
Proof.
  induction ops as [|o ops IH]; intros s t s1 e I H; cbn [run] in H.
  - inversion H; subst. rewrite app_nil_r. auto.
  - destruct (step s o) as [[s2 e1]|] eqn:E; [|discriminate].
    destruct (run s2 ops) as [[s3 e2]|] eqn:R; [|discriminate]. inversion H; subst.
    rewrite app_assoc. eapply IH; eauto. eapply step_inv; eauto.
Qed.

Lemma step_one : forall s o s1 e, step s o = Some (s1, e) -> e = [] \/ exists x, e = [x].
Proof.
  intros s o s1 e H. destruct o as [poc|h|poc| |p|p| |o|]; cbn [step] in H.
  - destruct (s_pc s); try discriminate. destruct (start_pic s poc 1). inversion H; eauto.
  - destruct (s_pc s); inversion H; eauto.
  - destruct (s_pc s); try discriminate. destruct (m_next (s_m s) =? -1); inversion H; eauto.
  - destruct (s_pc s); try discriminate. destruct (m_q (s_m s)); try discriminate.
    destruct (_ <? _); inversion H; eauto.
  - destruct (flying p (s_fly s)); inversion H; eauto.
  - destruct (flying p (s_fly s)); inversion H; eauto.
  - destruct (s_pc s); try discriminate. destruct (_ || _); inversion H; eauto.
  - destruct (s_pc s); try discriminate. destruct o as [poc|].
    + destruct (start_pic _ poc 0). inversion H; eauto.
    + inversion H; eauto.
  - unfold caller_step in H. destruct (s_pc s); try discriminate.
    + destruct (_ && _); destruct (m_sps (s_m s)); unfold give_header in H; inversion H; eauto.
    + destruct (out_iter (s_m s)) as [m1 [p| | |]]; inversion H; eauto.
Qed.

(** Every event of a run is the effect of one step from a state satisfying the
    invariant for the trace before it. *)
Lemma run_split : forall ops s t s1 e, Inv s t -> run s ops = Some (s1, e) ->
  forall e1 x e2, e = e1 ++ x :: e2 ->
  exists sa o sb, Inv sa (t ++ e1) /\ step sa o = Some (sb, [x]).
Proof.
  induction ops as [|o ops IH]; intros s t s1 e I H e1 x e2 E; cbn [run] in H.
  - inversion H; subst. destruct e1; discriminate.
  - destruct (step s o) as [[s2 e0]|] eqn:ST; [|discriminate].
    destruct (run s2 ops) as [[s3 er]|] eqn:R; [|discriminate]. inversion H; subst.
    pose proof (step_inv _ _ _ _ _ I ST) as I2.
    destruct (step_one _ _ _ _ ST) as [-> | [y ->]].
    + cbn in H2. subst er. rewrite app_nil_r in I2. eapply IH; eauto.
    + destruct e1 as [|z e1]; cbn in H2.
      * injection H2 as -> ->. rewrite app_nil_r. eauto.
      * injection H2 as <- ->. destruct (IH s2 (t ++ [y]) _ _ I2 R e1 x e2 eq_refl) as (sa & o' & sb & A & B).
        exists sa, o', sb. rewrite <- app_assoc in A. auto.
Qed.

Lemma completed_nodup : forall s t, Inv s t -> NoDup (completed t).
Proof.
  intros s t I. pose proof (i_ids _ _ I) as N. apply NoDup_map_inv in N.
  apply (Permutation_NoDup (i_fly _ _ I)) in N. apply NoDup_app_remove_r in N. auto.
Qed.

Lemma waiting_q : forall s t p, Inv s t -> (waiting t p <-> In p (m_q (s_m s))).
Proof.
  intros s t p I. unfold waiting. pose proof (completed_nodup _ _ I) as N.
  apply (Permutation_NoDup (i_cons _ _ I)) in N. split.
  - intros [H1 H2]. apply (Permutation_in _ (i_cons _ _ I)) in H1.
    apply in_app_iff in H1 as [|]; tauto.
  - intros H. split.
    + apply (Permutation_in _ (Permutation_sym (i_cons _ _ I))). apply in_app_iff; auto.
    + intros D. clear I. induction (delivered t) as [|d l IH]; [contradiction|].
      inversion N; subst. destruct D as [-> | D]; auto. apply H2. apply in_app_iff; auto.
Qed.

(** *** C15 *)
Lemma insert_all_sorted : forall l, sorted_poc (fold_left (fun q p => insert_pic p q) l []) /\
  Permutation (fold_left (fun q p => insert_pic p q) l []) l.
Proof.
  assert (G: forall l q, sorted_poc q -> sorted_poc (fold_left (fun q p => insert_pic p q) l q) /\
             Permutation (fold_left (fun q p => insert_pic p q) l q) (q ++ l)).
  { induction l as [|p l IH]; intros q S; cbn.
    - rewrite app_nil_r. auto.
    - destruct (IH (insert_pic p q) (insert_sorted _ _ S)) as [A B]. split; auto.
      rewrite B, insert_perm. cbn. apply Permutation_middle. }
  intros l. destruct (G l [] ltac:(constructor)) as [A B]. auto.
Qed.

Lemma queue_contents : forall n ops s t, run (st_init n) ops = Some (s, t) ->
  sorted_poc (m_q (s_m s)) /\ forall p, In p (m_q (s_m s)) <-> waiting t p.
Proof.
  intros n ops s t R. pose proof (run_inv _ _ _ _ _ (inv_init n) R) as I. cbn [app] in I.
  split; [apply I|]. intros p. symmetry. apply (waiting_q s); auto.
Qed.

(** *** C14 *)
Lemma conservation : forall n ops s t, run (st_init n) ops = Some (s, t) ->
  NoDup (completed t) /\ Permutation (completed t) (delivered t ++ m_q (s_m s)) /\
  Permutation (started t) (completed t ++ dropped t ++ s_fly s).
Proof.
  intros n ops s t R. pose proof (run_inv _ _ _ _ _ (inv_init n) R) as I. cbn [app] in I.
  split; [eapply completed_nodup; eauto|]. split; apply I.
Qed.

(** *** C13 *)
Lemma deliver_step : forall s o s1 p, step s o = Some (s1, [EvRet (GotFrame p)]) ->
  exists l, m_q (s_m s) = p :: l.
Proof.
  intros s o s1 p H. destruct o as [poc|h|poc| |p'|p'| |o|]; cbn [step] in H.
  - destruct (s_pc s); try discriminate; destruct (start_pic s poc 1); discriminate.
  - destruct (s_pc s); discriminate.
  - destruct (s_pc s); try discriminate; destruct (m_next (s_m s) =? -1); discriminate.
  - destruct (s_pc s); try discriminate; destruct (m_q (s_m s)); try discriminate;
    destruct (_ <? _); discriminate.
  - destruct (flying p' (s_fly s)); discriminate.
  - destruct (flying p' (s_fly s)); discriminate.
  - destruct (s_pc s); try discriminate; destruct (_ || _); discriminate.
  - destruct (s_pc s); try discriminate; destruct o as [poc|]; [destruct (start_pic _ poc 0)|]; discriminate.
  - unfold caller_step in H. destruct (s_pc s) as [|fl w|fl w]; try discriminate.
    + destruct (_ && _); destruct (m_sps (s_m s)); unfold give_header in H; inversion H;
      destruct fl; discriminate.
    + destruct (out_iter (s_m s)) as [m1 r] eqn:E. pose proof (iter_inv _ _ _ E) as (_ & _ & _ & _ & _ & A6).
      destruct r as [q| | |]; inversion H; subst. destruct A6 as [Q _]. eauto.
Qed.

Lemma deliver_min : forall n ops s t, run (st_init n) ops = Some (s, t) ->
  forall t1 p t2, t = t1 ++ EvRet (GotFrame p) :: t2 ->
  waiting t1 p /\ forall q, waiting t1 q -> p_poc p <= p_poc q.
Proof.
  intros n ops s t R t1 p t2 E.
  destruct (run_split _ _ _ _ _ (inv_init n) R t1 _ t2 E) as (sa & o & sb & I & ST). cbn [app] in I.
  destruct (deliver_step _ _ _ _ ST) as [l Q].
  split.
  - apply (waiting_q sa); auto. rewrite Q. left; auto.
  - intros q W. apply (waiting_q sa) in W; auto. pose proof (i_sorted _ _ I) as S. rewrite Q in *.
    inversion S as [|? ? _ F]; subst. destruct W as [<- | W]; [lia|]. rewrite Forall_forall in F. auto.
Qed.

Lemma in_delivered_split : forall t q, In q (delivered t) -> exists a b, t = a ++ EvRet (GotFrame q) :: b.
Proof.
  induction t as [|e t IH]; intros q H; [contradiction|].
  destruct e as [p|p|p|h|r]; try (destruct (IH q H) as (a & b & ->); eexists (_ :: a), b; reflexivity).
  destruct r as [p|h| |]; try (destruct (IH q H) as (a & b & ->); eexists (_ :: a), b; reflexivity).
  destruct H as [<- | H].
  - exists [], t. reflexivity.
  - destruct (IH q H) as (a & b & ->). eexists (_ :: a), b; reflexivity.
Qed.

Lemma in_completed_split : forall t q, In q (completed t) -> exists a b, t = a ++ EvDone q :: b.
Proof.
  induction t as [|e t IH]; intros q H; [contradiction|].
  destruct e as [p|p|p|h|r]; try (destruct (IH q H) as (a & b & ->); eexists (_ :: a), b; reflexivity).
  destruct H as [<- | H].
  - exists [], t. reflexivity.
  - destruct (IH q H) as (a & b & ->). eexists (_ :: a), b; reflexivity.
Qed.

Lemma ss_snoc : forall (A : Type) (R : A -> A -> Prop) l x,
  StronglySorted R l -> Forall (fun y => R y x) l -> StronglySorted R (l ++ [x]).
Proof.
  induction l as [|a l IH]; intros x S F; cbn; [repeat constructor|].
  inversion S; subst. inversion F; subst. constructor; auto.
  apply Forall_app. split; auto.
Qed.

Lemma deliver_increasing : forall n ops s t, run (st_init n) ops = Some (s, t) ->
  no_late t -> distinct_poc t -> increasing (delivered t).
Proof.
  intros n ops s t R NL DP.
  assert (G: forall t1 t2, t = t1 ++ t2 -> increasing (delivered t1)); [|apply (G t []); rewrite app_nil_r; auto].
  induction t1 as [|e t1 IH] using rev_ind; intros t2 E; [constructor|].
  rewrite <- app_assoc in E. specialize (IH _ E).
  rewrite delivered_app. destruct e as [p|p|p|h|r]; try (cbn; rewrite app_nil_r; exact IH).
  destruct r as [p|h| |]; try (cbn; rewrite app_nil_r; exact IH).
  cbn [delivered flat_map app]. apply ss_snoc; auto. apply Forall_forall. intros q Hq.
  destruct (deliver_min _ _ _ _ R t1 p t2 E) as [[W1 W2] _].
  assert (NE: p <> q) by congruence.
  destruct (in_delivered_split _ _ Hq) as (a & b & E1).
  assert (Eq: t = a ++ EvRet (GotFrame q) :: (b ++ EvRet (GotFrame p) :: t2)).
  { rewrite E, E1. rewrite <- app_assoc. reflexivity. }
  destruct (deliver_min _ _ _ _ R a q _ Eq) as [[Q1 Q2] QM].
  assert (Pc: In p (completed t)) by (rewrite E, completed_app; apply in_app_iff; auto).
  assert (Qc: In q (completed t)) by (rewrite Eq, completed_app; apply in_app_iff; auto).
  assert (D: p_poc p <> p_poc q) by (intros X; apply NE; apply DP; auto).
  enough (p_poc q <= p_poc p) by lia.
  rewrite E1, completed_app in W1. cbn in W1. apply in_app_iff in W1 as [W1|W1].
  - apply QM. split; auto. intros X. apply W2. rewrite E1, delivered_app. apply in_app_iff; auto.
  - destruct (in_completed_split _ _ W1) as (c & d & E2).
    apply (NL (a ++ EvRet (GotFrame q) :: c) p (d ++ EvRet (GotFrame p) :: t2)).
    + rewrite Eq, E2. rewrite <- !app_assoc. reflexivity.
    + rewrite delivered_app. apply in_app_iff. right. left. reflexivity.
Qed.

(** *** C17 *)
Lemma ret_header : forall s t o s1 r, Inv s t -> step s o = Some (s1, [EvRet r]) ->
  if m_sps (s_m s) then r = GotHeader (m_head (s_m s))
  else forall h, r <> GotHeader h.
Proof.
  intros s t o s1 r I H. destruct o as [poc|h|poc| |p'|p'| |o|]; cbn [step] in H.
  - destruct (s_pc s); try discriminate; destruct (start_pic s poc 1); discriminate.
  - destruct (s_pc s); discriminate.
  - destruct (s_pc s); try discriminate; destruct (m_next (s_m s) =? -1); discriminate.
  - destruct (s_pc s); try discriminate; destruct (m_q (s_m s)); try discriminate;
    destruct (_ <? _); discriminate.
  - destruct (flying p' (s_fly s)); discriminate.
  - destruct (flying p' (s_fly s)); discriminate.
  - destruct (s_pc s); try discriminate. destruct (m_sps (s_m s)) eqn:S.
    + rewrite orb_true_r in H. discriminate.
    + destruct (_ || _); inversion H; subst. discriminate.
  - destruct (s_pc s); try discriminate; destruct o as [poc|]; [destruct (start_pic _ poc 0)|]; discriminate.
  - unfold caller_step in H. destruct (s_pc s) as [|fl w|fl w] eqn:PC; try discriminate.
    + destruct (_ && _); destruct (m_sps (s_m s)) eqn:S; unfold give_header in H; inversion H; auto;
      destruct fl; discriminate.
    + destruct (out_iter (s_m s)) as [m1 r0] eqn:E. 
      pose proof (i_inner _ _ I) as N. rewrite PC in N. rewrite N.
      destruct r0 as [q| | |]; inversion H; subst. discriminate.
Qed.

Lemma header_announced : forall n ops s t, run (st_init n) ops = Some (s, t) ->
  forall t1 r t2, t = t1 ++ EvRet r :: t2 ->
  (due no_head false t1 = true -> r = GotHeader (last_head no_head t1)) /\
  (due no_head false t1 = false -> forall h, r <> GotHeader h).
Proof.
  intros n ops s t R t1 r t2 E.
  destruct (run_split _ _ _ _ _ (inv_init n) R t1 _ t2 E) as (sa & o & sb & I & ST). cbn [app] in I.
  pose proof (ret_header _ _ _ _ _ I ST) as K. rewrite (i_sps _ _ I), (i_head _ _ I) in K.
  split; intros D; rewrite D in K; auto.
Qed.

(** *** C16 *)
Lemma end_step : forall s o s1, step s o = Some (s1, [EvRet REnd]) -> m_in (s_m s) <= m_out (s_m s).
Proof.
  intros s o s1 H. destruct o as [poc|h|poc| |p'|p'| |o|]; cbn [step] in H.
  - destruct (s_pc s); try discriminate; destruct (start_pic s poc 1); discriminate.
  - destruct (s_pc s); discriminate.
  - destruct (s_pc s); try discriminate; destruct (m_next (s_m s) =? -1); discriminate.
  - destruct (s_pc s); try discriminate; destruct (m_q (s_m s)); try discriminate;
    destruct (_ <? _); discriminate.
  - destruct (flying p' (s_fly s)); discriminate.
  - destruct (flying p' (s_fly s)); discriminate.
  - destruct (s_pc s); try discriminate; destruct (_ || _); discriminate.
  - destruct (s_pc s); try discriminate; destruct o as [poc|]; [destruct (start_pic _ poc 0)|]; discriminate.
  - unfold caller_step in H. destruct (s_pc s) as [|fl w|fl w]; try discriminate.
    + destruct (m_out (s_m s) <? m_in (s_m s)) eqn:C; [|lia].
      destruct (w || fl) eqn:W; cbn in H; destruct (m_sps (s_m s)); unfold give_header in H; inversion H.
      destruct fl; [|discriminate]. rewrite orb_true_r in W. discriminate.
    + destruct (out_iter (s_m s)) as [m1 [p| | |]]; inversion H.
Qed.

Lemma end_complete : forall n ops s t, run (st_init n) ops = Some (s, t) ->
  forall t1 t2, t = t1 ++ EvRet REnd :: t2 ->
  Permutation (started t1) (delivered t1) /\ (forall p, ~ waiting t1 p) /\ dropped t1 = [].
Proof.
  intros n ops s t R t1 t2 E.
  destruct (run_split _ _ _ _ _ (inv_init n) R t1 _ t2 E) as (sa & o & sb & I & ST). cbn [app] in I.
  apply end_step in ST. rewrite (i_in _ _ I), (i_out _ _ I) in ST.
  pose proof (Permutation_length (i_fly _ _ I)) as L1. pose proof (Permutation_length (i_cons _ _ I)) as L2.
  rewrite !app_length in L1. rewrite app_length in L2.
  assert (Q: m_q (s_m sa) = []) by (apply length_zero_iff_nil; lia).
  assert (D: dropped t1 = []) by (apply length_zero_iff_nil; lia).
  assert (F: s_fly sa = []) by (apply length_zero_iff_nil; lia).
  split; [|split; auto].
  - rewrite (i_fly _ _ I), D, F, (i_cons _ _ I), Q, !app_nil_r. reflexivity.
  - intros p W. apply (waiting_q sa) in W; auto. rewrite Q in W. contradiction.
Qed.

Lemma run_app : forall a s b s1 e1 s2 e2, run s a = Some (s1, e1) -> run s1 b = Some (s2, e2) ->
  run s (a ++ b) = Some (s2, e1 ++ e2).
Proof.
  induction a as [|o a IH]; intros s b s1 e1 s2 e2 H1 H2; cbn [run app] in *.
  - inversion H1; subst. auto.
  - destruct (step s o) as [[s3 e3]|]; [|discriminate].
    destruct (run s3 a) as [[s4 e4]|] eqn:R; [|discriminate]. inversion H1; subst.
    rewrite (IH _ _ _ _ _ _ R H2). rewrite app_assoc. reflexivity.
Qed.

Lemma run_step : forall s s1 e1 b s2 e2, caller_step s = Some (s1, e1) -> run s1 b = Some (s2, e2) ->
  run s (OStep :: b) = Some (s2, e1 ++ e2).
Proof. intros. cbn [run step]. rewrite H, H0. reflexivity. Qed.

Lemma run_step0 : forall s s1 b s2 e2, caller_step s = Some (s1, []) -> run s1 b = Some (s2, e2) ->
  run s (OStep :: b) = Some (s2, e2).
Proof. intros. exact (run_step _ _ [] _ _ _ H H0). Qed.
Lemma run_last : forall s s1 e1, caller_step s = Some (s1, e1) -> run s [OStep] = Some (s1, e1).
Proof. intros. cbn [run step]. rewrite H, app_nil_r. reflexivity. Qed.

Lemma inner_returns : forall d m w p l, m_q m = p :: l -> m_flush m = true ->
  m_in m = m_out m + m_npic m -> Z.max 0 (p_poc p - m_next m) <= Z.of_nat d ->
  exists k m1, run (St m (AtInner true w) []) (repeat OStep k)
               = Some (St m1 Idle [], [EvRet (GotFrame p)]) /\
    m_q m1 = l /\ m_npic m1 = m_npic m - 1 /\ m_out m1 = m_out m + 1 /\ m_in m1 = m_in m /\
    m_flush m1 = true /\ m_sps m1 = m_sps m /\ m_head m1 = m_head m.
Proof.
  induction d as [|d IH]; intros m w p l Q F B H.
  - (* head is at or behind the next index *)
    destruct (p_poc p =? m_next m) eqn:E.
    + exists 1%nat. eexists. split.
      * cbn [repeat]. apply run_last. unfold caller_step. cbn [s_pc s_m s_fly].
        unfold out_iter. rewrite Q, E. reflexivity.
      * cbn. auto 10.
    + assert (L: (m_next m <? p_poc p) = false) by lia.
      exists 2%nat. eexists. split.
      * cbn [repeat]. eapply run_step0.
        { unfold caller_step. cbn [s_pc s_m s_fly]. unfold out_iter. rewrite Q, E, L. reflexivity. }
        apply run_last. unfold caller_step. cbn [s_pc s_m s_fly].
        unfold out_iter. cbn [with_q m_q m_next m_npic]. rewrite Z.eqb_refl. reflexivity.
      * cbn. auto 10.
  - destruct (p_poc p =? m_next m) eqn:E.
    + exists 1%nat. eexists. split.
      * cbn [repeat]. apply run_last. unfold caller_step. cbn [s_pc s_m s_fly].
        unfold out_iter. rewrite Q, E. reflexivity.
      * cbn. auto 10.
    + destruct (m_next m <? p_poc p) eqn:L.
      * destruct (IH (with_q m (m_q m) (m_next m + 1) (m_npic m)) w p l) as (k & m1 & R & K); auto.
        { cbn. lia. }
        exists (S k), m1. split; [|exact K].
        cbn [repeat]. eapply run_step0; [|exact R]. unfold caller_step. cbn [s_pc s_m s_fly].
        unfold out_iter. rewrite Q, E, L, F. replace (m_in m =? m_out m + m_npic m) with true by lia.
        reflexivity.
      * exists 2%nat. eexists. split.
        -- cbn [repeat]. eapply run_step0.
           { unfold caller_step. cbn [s_pc s_m s_fly]. unfold out_iter. rewrite Q, E, L. reflexivity. }
           apply run_last. unfold caller_step. cbn [s_pc s_m s_fly].
           unfold out_iter. cbn [with_q m_q m_next m_npic]. rewrite Z.eqb_refl. reflexivity.
        -- cbn. auto 10.
Qed.

(** What a flush call returns in a quiescent state. *)
Definition flush_answer (m : mgr) : ret :=
  if m_sps m then GotHeader (m_head m)
  else match m_q m with [] => REnd | p :: _ => GotFrame p end.
Definition after_flush (m m1 : mgr) : Prop :=
  m_in m1 = m_out m1 + m_npic m1 /\ m_npic m1 = Z.of_nat (length (m_q m1)) /\
  m_head m1 = m_head m /\ m_sps m1 = false /\
  m_q m1 = if m_sps m then m_q m else tl (m_q m).

Lemma loop_returns : forall m w, m_flush m = true -> m_in m = m_out m + m_npic m ->
  m_npic m = Z.of_nat (length (m_q m)) ->
  exists k m1, run (St m (AtLoop true w) []) (repeat OStep k)
               = Some (St m1 Idle [], [EvRet (flush_answer m)]) /\ after_flush m m1.
Proof.
  intros m w F B N. unfold flush_answer, after_flush. destruct (m_sps m) eqn:SP.
  - exists 1%nat. exists (with_sps m false (m_head m)). split.
    + cbn [repeat run step]. unfold caller_step. cbn [s_pc s_m s_fly]. rewrite SP.
      destruct (_ && _); reflexivity.
    + cbn. auto 10.
  - destruct (m_q m) as [|p l] eqn:Q.
    + cbn in N. exists 1%nat, m. split.
      * cbn [repeat run step]. unfold caller_step. cbn [s_pc s_m s_fly]. rewrite SP.
        replace (m_out m <? m_in m) with false by lia. reflexivity.
      * rewrite Q. auto 10.
    + destruct (inner_returns (Z.to_nat (Z.max 0 (p_poc p - m_next m))) m w p l Q F B ltac:(lia))
        as (k & m1 & R & K1 & K2 & K3 & K4 & K5 & K6 & K7).
      exists (S k), m1. split.
      * cbn [repeat]. eapply run_step0; [|exact R]. unfold caller_step. cbn [s_pc s_m s_fly].
        rewrite SP, orb_true_r. cbn [length] in N. replace (m_out m <? m_in m) with true by lia. reflexivity.
      * rewrite K1. cbn [tl length] in *. repeat split; try congruence; lia.
Qed.

Lemma flush_call : forall m, m_in m = m_out m + m_npic m -> m_npic m = Z.of_nat (length (m_q m)) ->
  exists k m1, run (St m Idle []) (OFlush None :: repeat OStep k)
               = Some (St m1 Idle [], [EvRet (flush_answer m)]) /\ after_flush m m1.
Proof.
  intros m B N. destruct (loop_returns (with_flush m) (wait_new (with_flush m)) eq_refl B N) as (k & m1 & R & K).
  exists k, m1. split; [|exact K]. cbn [run step s_pc s_m s_fly]. rewrite R. reflexivity.
Qed.

Definition flush_op (o : op) : Prop := o = OFlush None \/ o = OStep.

Lemma drain_noheader : forall l m, m_q m = l -> m_sps m = false ->
  m_in m = m_out m + m_npic m -> m_npic m = Z.of_nat (length (m_q m)) ->
  exists ops m1, Forall flush_op ops /\
    run (St m Idle []) ops = Some (St m1 Idle [], map (fun p => EvRet (GotFrame p)) l ++ [EvRet REnd]).
Proof.
  induction l as [|p l IH]; intros m Q SP B N.
  - destruct (flush_call m B N) as (k & m1 & R & K). exists (OFlush None :: repeat OStep k), m1.
    split.
    + constructor; [left; auto|]. apply Forall_forall. intros x Hx. apply repeat_spec in Hx. right; auto.
    + rewrite R. unfold flush_answer. rewrite SP, Q. reflexivity.
  - destruct (flush_call m B N) as (k & m1 & R & K1 & K2 & K3 & K4 & K5).
    rewrite SP, Q in K5. cbn [tl] in K5.
    destruct (IH m1 K5 K4 K1 K2) as (ops & m2 & FO & R2).
    exists ((OFlush None :: repeat OStep k) ++ ops), m2. split.
    + apply Forall_app. split; auto. constructor; [left; auto|]. apply Forall_forall. intros x Hx.
      apply repeat_spec in Hx. right; auto.
    + unfold flush_answer in R. rewrite SP, Q in R. rewrite (run_app _ _ _ _ _ _ _ R R2). reflexivity.
Qed.

Lemma quiet_counts : forall s t, Inv s t -> dropped t = [] -> s_fly s = [] ->
  m_in (s_m s) = m_out (s_m s) + m_npic (s_m s) /\ m_npic (s_m s) = Z.of_nat (length (m_q (s_m s))).
Proof.
  intros s t I D F. pose proof (Permutation_length (i_fly _ _ I)) as L1.
  pose proof (Permutation_length (i_cons _ _ I)) as L2. rewrite !app_length, D, F in L1. cbn in L1.
  rewrite app_length in L2. rewrite (i_npic _ _ I), (i_in _ _ I), (i_out _ _ I). split; lia.
Qed.

Lemma flush_drains : forall n ops s t, run (st_init n) ops = Some (s, t) ->
  s_pc s = Idle -> s_fly s = [] -> dropped t = [] ->
  exists fops s1, Forall flush_op fops /\
    run s fops = Some (s1, (if m_sps (s_m s) then [EvRet (GotHeader (m_head (s_m s)))] else [])
                            ++ map (fun p => EvRet (GotFrame p)) (m_q (s_m s)) ++ [EvRet REnd]).
Proof.
  intros n ops s t R P F D. pose proof (run_inv _ _ _ _ _ (inv_init n) R) as I. cbn [app] in I.
  destruct (quiet_counts _ _ I D F) as [B N]. destruct s as [m p fly]. cbn [s_m s_pc s_fly] in *. subst p fly.
  destruct (m_sps m) eqn:SP.
  - destruct (flush_call m B N) as (k & m1 & R1 & K1 & K2 & K3 & K4 & K5). rewrite SP in K5.
    destruct (drain_noheader (m_q m) m1 K5 K4 K1 K2) as (ops2 & m2 & FO & R2).
    exists ((OFlush None :: repeat OStep k) ++ ops2), (St m2 Idle []). split.
    + apply Forall_app. split; auto. constructor; [left; auto|]. apply Forall_forall. intros x Hx.
      apply repeat_spec in Hx. right; auto.
    + unfold flush_answer in R1. rewrite SP in R1. rewrite (run_app _ _ _ _ _ _ _ R1 R2). reflexivity.
  - destruct (drain_noheader (m_q m) m eq_refl SP B N) as (ops2 & m2 & FO & R2).
    exists ops2, (St m2 Idle []). auto.
Qed.

Lemma flush_in_progress_returns : forall n ops s t w, run (st_init n) ops = Some (s, t) ->
  s_pc s = AtLoop true w \/ s_pc s = AtInner true w -> m_flush (s_m s) = true ->
  s_fly s = [] -> dropped t = [] ->
  exists k s1 r, run s (repeat OStep k) = Some (s1, [EvRet r]) /\ s_pc s1 = Idle.
Proof.
  intros n ops s t w R P FL F D. pose proof (run_inv _ _ _ _ _ (inv_init n) R) as I. cbn [app] in I.
  destruct (quiet_counts _ _ I D F) as [B N]. destruct s as [m p fly]. cbn [s_m s_pc s_fly] in *. subst fly.
  destruct P as [-> | ->].
  - destruct (loop_returns m w FL B N) as (k & m1 & R1 & K). eauto.
  - destruct (m_q m) as [|p l] eqn:Q.
    + destruct (loop_returns m w FL B ltac:(rewrite Q; auto)) as (k & m1 & R1 & K).
      exists (S k), (St m1 Idle []), (flush_answer m). split; [|reflexivity].
      cbn [repeat]. eapply run_step0; [|exact R1]. unfold caller_step, out_iter. cbn [s_pc s_m s_fly].
      rewrite Q. reflexivity.
    + destruct (inner_returns (Z.to_nat (Z.max 0 (p_poc p - m_next m))) m w p l Q FL B ltac:(lia))
        as (k & m1 & R1 & K1). eauto.
Qed.

Lemma flush_hang : exists n ops s t, run (st_init n) ops = Some (s, t) /\ s_fly s = [] /\
  forall k, exists s1, run s (repeat OStep k) = Some (s1, []).
Proof.
  exists 1, [OFirst 0; OSend 0; ODrop (Pic 0 0); OFlush None]. eexists. eexists.
  split; [reflexivity|]. split; [reflexivity|]. cbn [s_m s_pc s_fly].
  match goal with |- forall k, exists s1, run ?s _ = _ => set (sx := s) end.
  assert (G: forall k s, s = sx \/ s = St (s_m sx) (AtInner true (wait_new (s_m sx))) [] ->
             exists s1, run s (repeat OStep k) = Some (s1, [])).
  { induction k as [|k IH]; intros s H; [eexists; reflexivity|].
    destruct H as [-> | ->].
    - destruct (IH _ (or_intror eq_refl)) as [s1 R]. exists s1.
      cbn [repeat]. eapply run_step0; [|exact R]. reflexivity.
    - destruct (IH _ (or_introl eq_refl)) as [s1 R]. exists s1.
      cbn [repeat]. eapply run_step0; [|exact R]. reflexivity. }
  intros k. apply G. auto.
Qed.

(** Executable check of [no_late], for examples. *)
Fixpoint no_late_chk (acc : list pic) (t : list ev) : bool :=
  match t with
  | [] => true
  | EvDone p :: t => forallb (fun q => p_poc q <=? p_poc p) acc && no_late_chk acc t
  | EvRet (GotFrame p) :: t => no_late_chk (p :: acc) t
  | _ :: t => no_late_chk acc t
  end.
Lemma no_late_chk_ok : forall t, no_late_chk [] t = true -> no_late t.
Proof.
  assert (G: forall t acc, no_late_chk acc t = true ->
     forall t1 p t2 q, t = t1 ++ EvDone p :: t2 -> In q (acc ++ delivered t1) -> p_poc q <= p_poc p).
  { induction t as [|e t IH]; intros acc H t1 p t2 q E Q; [destruct t1; discriminate|].
    destruct t1 as [|e1 t1]; cbn in E; injection E as -> ->.
    - cbn in H, Q. rewrite app_nil_r in Q. apply andb_true_iff in H as [H _].
      rewrite forallb_forall in H. specialize (H q Q). lia.
    - destruct e1 as [a|a|a|a|r]; try (eapply IH; eauto; fail).
      + cbn in H. apply andb_true_iff in H as [_ H]. eapply IH; eauto.
      + destruct r as [a|a| |]; try (eapply IH; eauto; fail).
        apply (IH (a :: acc) H t1 p t2 q eq_refl). cbn in Q |- *.
        rewrite in_app_iff in *. cbn in Q. tauto. }
  intros t H t1 p t2 q E Q. eapply (G t [] H); eauto.
Qed.
