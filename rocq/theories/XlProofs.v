From Coq Require Import ZArith List Bool Lia.
From Verif Require Import CBase CBaseProofs MemModel MemProofs XlModel XlSpec.
Import ListNotations.
Open Scope Z_scope.

Fixpoint chain (nx : mem) (p : Z) (q : list Z) : Prop :=
  match q with
  | [] => p = 0
  | n :: t => p = n /\ chain nx (nx n) t
  end.

Record refines (s : xst) (q : qst) : Prop := {
  r_chain : forall l, chain (next s) (hd (lists s l)) (queue q l);
  r_tail : forall l, tl (lists s l) = last (queue q l) 0;
  r_num : forall l, num (lists s l) = Z.of_nat (length (queue q l));
  r_pos : forall l, Forall (fun n => 0 < n) (queue q l);
  r_nodup : forall l, NoDup (queue q l);
  r_disj : forall l l' n, l <> l' -> In n (queue q l) -> ~ In n (queue q l');
  r_pend : NoDup (pending q);
  r_pend_ok : forall n, In n (pending q) -> 0 < n /\ next s n = 0 /\ forall l, ~ In n (queue q l)
}.

Lemma chain_upd : forall nx q p i v, ~ In i q -> chain nx p q -> chain (upd nx i v) p q.
Proof.
  intros nx q. induction q as [|n t IH]; intros p i v N H; cbn [chain] in *; [exact H|].
  destruct H as [-> H]. split; [reflexivity|]. rewrite upd_other by (intro E; apply N; left; exact E).
  apply IH; [intro; apply N; right; assumption|exact H].
Qed.

Lemma chain_snoc : forall nx q p n, NoDup (q ++ [n]) -> q <> [] -> chain nx p q -> nx n = 0 -> 
  chain (upd nx (last q 0) n) p (q ++ [n]).
Proof.
  intros nx q. induction q as [|a t IH]; intros p n ND NE H Hn; [congruence|].
  cbn [chain app] in *. destruct H as [-> H]. split; [reflexivity|].
  inversion ND as [|x y Na ND']. subst.
  destruct t as [|b t'].
  - cbn [last chain app] in *. rewrite upd_same. split; [reflexivity|].
    rewrite upd_other; [exact Hn|]. intro E. apply Na. left. exact E.
  - assert (Hl: last (a :: b :: t') 0 = last (b :: t') 0) by reflexivity. rewrite Hl.
    assert (In (last (b :: t') 0) (b :: t')).
    { clear. revert b. induction t' as [|c u IHu]; intros b; [left; reflexivity|].
      right. change (last (b :: c :: u) 0) with (last (c :: u) 0). apply IHu. }
    rewrite upd_other.
    + apply IH; auto. discriminate.
    + intro E. apply Na. rewrite in_app_iff. left. rewrite E. assumption.
Qed.

Lemma last_pos : forall q, Forall (fun n => 0 < n) q -> q <> [] -> 0 < last q 0.
Proof.
  induction q as [|a t IH]; intros F NE; [congruence|]. inversion F; subst. destruct t as [|b u]; [assumption|].
  change (last (a :: b :: u) 0) with (last (b :: u) 0). apply IH; [assumption|discriminate].
Qed.

Lemma last_in : forall (q : list Z), q <> [] -> In (last q 0) q.
Proof.
  induction q as [|a t IH]; intros NE; [congruence|]. destruct t as [|b u]; [left; reflexivity|].
  right. change (last (a :: b :: u) 0) with (last (b :: u) 0). apply IH. discriminate.
Qed.

Lemma last_snoc : forall (q : list Z) n, last (q ++ [n]) 0 = n.
Proof.
  induction q as [|a t IH]; intros n; [reflexivity|]. cbn [app].
  destruct (t ++ [n]) as [|b u] eqn:E; [destruct t; discriminate|]. rewrite <- (IH n), E. reflexivity.
Qed.

Lemma NoDup_snoc : forall (q : list Z) n, NoDup q -> ~ In n q -> NoDup (q ++ [n]).
Proof.
  induction q as [|a t IH]; intros n H N; cbn [app]; [constructor; auto; constructor|].
  inversion H; subst. constructor.
  - rewrite in_app_iff. intros [E|[E|[]]]; [contradiction|]. apply N. left. symmetry. exact E.
  - apply IH; [assumption|]. intro; apply N; right; assumption.
Qed.

Lemma NoDup_remove_z : forall n (l : list Z), NoDup l -> NoDup (remove Z.eq_dec n l).
Proof.
  intros n l. induction l as [|a t IH]; intros H; [constructor|]. inversion H; subst. cbn [remove].
  destruct (Z.eq_dec n a); [now apply IH|]. constructor; [|now apply IH]. intro E. apply in_remove in E. tauto.
Qed.

Lemma init_refines : forall nx, refines {| next := nx; lists := fun _ => xl_init |} empty_q.
Proof.
  intros. constructor; cbn; intros; auto; try constructor; try contradiction; try tauto.
Qed.

Lemma step_refines : forall o s q, refines s q -> allowed o q ->
  exists s', xstep o s = Done (s', snd (qstep o q)) /\ refines s' (fst (qstep o q)).
Proof.
  intros o s q R A. destruct R as [Rc Rt Rn Rp Rd Rj Rpe Rpo]. destruct o as [n|l n|l].
  - destruct A as (Hn & Np & Nq). eexists. split; [reflexivity|]. cbn [qstep fst].
    constructor; cbn [append_prep next lists queue pending]; auto.
    + intros l. apply chain_upd; auto.
    + constructor; assumption.
    + intros k [<-|Hk]; [rewrite upd_same; auto|]. destruct (Rpo k Hk) as (P1 & P2 & P3). split; [exact P1|].
      split; [|exact P3]. rewrite upd_other; [exact P2|]. intros ->. contradiction.
  - cbn [allowed] in A. destruct (Rpo n A) as (Hn & Hz & Nq). cbn [xstep qstep fst snd]. eexists. split; [reflexivity|].
    unfold append_link. cbv zeta. specialize (Rt l) as Tl.
    assert (Q: queue q l = [] \/ queue q l <> []) by (destruct (queue q l); [left; reflexivity|right; discriminate]).
    assert (CH: forall nx h, (nx = if tl (lists s l) =? 0 then next s else upd (next s) (tl (lists s l)) n) ->
              (h = if tl (lists s l) =? 0 then n else hd (lists s l)) ->
              chain nx h (queue q l ++ [n]) /\ (forall l', l' <> l -> chain nx (hd (lists s l')) (queue q l')) /\
              (forall k, In k (pending q) -> k <> n -> nx k = 0)).
    { intros nx h -> ->. destruct Q as [Q|Q].
      - rewrite Tl, Q. cbn [last app chain Z.eqb]. split; [split; [reflexivity|exact Hz]|].
        split; [intros; apply Rc|]. intros k Hk _. now apply Rpo.
      - pose proof (last_pos _ (Rp l) Q) as LP. replace (tl (lists s l) =? 0) with false by lia. rewrite Tl.
        split; [|split].
        + apply chain_snoc; auto. apply NoDup_snoc; auto.
        + intros l' Hl'. apply chain_upd; [|apply Rc]. apply (Rj l l'); [congruence|]. now apply last_in.
        + intros k Hk Hne. destruct (Rpo k Hk) as (_ & K2 & K3). rewrite upd_other; [exact K2|].
          intros ->. apply (K3 l). now apply last_in. }
    set (s' := if negb (tl (lists s l) =? 0) then _ else _).
    assert (NX: next s' = if tl (lists s l) =? 0 then next s else upd (next s) (tl (lists s l)) n)
      by (unfold s'; destruct (tl (lists s l) =? 0); reflexivity).
    assert (LS: lists s' = set_list (lists s) l {| hd := if tl (lists s l) =? 0 then n else hd (lists s l); tl := n; num := num (lists s l) + 1 |})
      by (unfold s'; destruct (tl (lists s l) =? 0); reflexivity).
    destruct (CH _ _ NX eq_refl) as (C1 & C2 & C3). clearbody s'.
    assert (INQ: forall l' k, In k (set_q (queue q) l (queue q l ++ [n]) l') -> In k (queue q l') \/ (l' = l /\ k = n)).
    { intros l' k. unfold set_q. destruct (l' =? l) eqn:E; [|tauto]. apply Z.eqb_eq in E. subst.
      rewrite in_app_iff. intros [?|[<-|[]]]; auto. }
    constructor; cbn [queue pending].
    + intros l'. rewrite LS. unfold set_list, set_q. destruct (l' =? l) eqn:E; [exact C1|]. apply C2. lia.
    + intros l'. rewrite LS. unfold set_list, set_q. destruct (l' =? l) eqn:E; [|apply Rt]. cbn [tl]. now rewrite last_snoc.
    + intros l'. rewrite LS. unfold set_list, set_q. destruct (l' =? l) eqn:E; [|apply Rn]. cbn [num].
      rewrite app_length, Rn. cbn [length]. lia.
    + intros l'. unfold set_q. destruct (l' =? l); [|apply Rp]. apply Forall_app. split; [apply Rp|]. constructor; auto.
    + intros l'. unfold set_q. destruct (l' =? l); [|apply Rd]. apply NoDup_snoc; auto.
    + intros l1 l2 k N I1 I2. apply INQ in I1, I2. destruct I1 as [I1|[A1 B1]], I2 as [I2|[A2 B2]]; subst.
      * exact (Rj l1 l2 k N I1 I2).
      * exact (Nq _ I1).
      * exact (Nq _ I2).
      * congruence.
    + now apply NoDup_remove_z.
    + intros k Hk. apply in_remove in Hk. destruct Hk as [Hk Hne]. destruct (Rpo k Hk) as (K1 & _ & K3).
      split; [exact K1|]. split; [now apply C3|]. intros l' I. apply INQ in I. destruct I as [I|[_ ->]]; [exact (K3 _ I)|congruence].
  - cbn [xstep qstep]. unfold remove_head. cbv zeta. rewrite Rn. specialize (Rc l) as Cl. specialize (Rt l) as Tl.
    specialize (Rp l) as Pl. specialize (Rd l) as Dl.
    assert (QJ := Rj l).
    destruct (queue q l) as [|n t] eqn:Q.
    + cbn [length Z.of_nat Z.ltb Z.compare fst snd]. eexists. split; [reflexivity|].
      constructor; auto.
    + replace (0 <? Z.of_nat (length (n :: t))) with true by (cbn [length]; lia).
      cbn [chain] in Cl. destruct Cl as [Hh Ht]. rewrite Hh. pose proof (Forall_inv Pl) as Pn. pose proof (Forall_inv_tail Pl) as Pt. cbv beta in Pn.
      replace (n =? 0) with false by lia. cbn [fst snd]. eexists. split; [reflexivity|].
      apply NoDup_cons_iff in Dl. destruct Dl as [Nn Dt].
      assert (INQ: forall l' k, In k (set_q (queue q) l t l') -> In k (queue q l')).
      { intros l' k. unfold set_q. destruct (l' =? l) eqn:E; [|tauto]. apply Z.eqb_eq in E. subst. rewrite Q. intros; right; assumption. }
      constructor; cbn [queue pending next lists].
      * intros l'. unfold set_list, set_q. destruct (l' =? l); [exact Ht|apply Rc].
      * intros l'. unfold set_list, set_q. destruct (l' =? l); [|apply Rt]. cbn [tl].
        destruct t as [|b u]; cbn [chain] in Ht.
        -- rewrite Ht. reflexivity.
        -- destruct Ht as [-> _]. inversion Pt; subst. replace (b =? 0) with false by lia. rewrite Tl. reflexivity.
      * intros l'. unfold set_list, set_q. destruct (l' =? l); [|apply Rn]. cbn [num length]. lia.
      * intros l'. unfold set_q. destruct (l' =? l); [exact Pt|apply Rp].
      * intros l'. unfold set_q. destruct (l' =? l); [exact Dt|apply Rd].
      * intros l1 l2 k N I1 I2. exact (Rj l1 l2 k N (INQ _ _ I1) (INQ _ _ I2)).
      * exact Rpe.
      * intros k Hk. destruct (Rpo k Hk) as (K1 & K2 & K3). split; [exact K1|]. split; [exact K2|].
        intros l' I. exact (K3 _ (INQ _ _ I)).
Qed.

Lemma run_refines : forall ops s q, refines s q -> legal ops q ->
  exists s', xrun ops s = Done (s', snd (qrun ops q)) /\ refines s' (fst (qrun ops q)).
Proof.
  induction ops as [|o t IH]; intros s q R L; [exists s; split; [reflexivity|exact R]|].
  destruct L as [A L]. destruct (step_refines o s q R A) as (s1 & E1 & R1).
  destruct (IH s1 _ R1 L) as (s2 & E2 & R2). exists s2. cbn [xrun qrun]. rewrite E1. cbn [bindo fst snd]. rewrite E2.
  split; [reflexivity|exact R2].
Qed.

(** First in, first out, each once. *)
Lemma fifo_gen : forall ops q l, legal ops q -> (forall l, Forall (fun n => 0 < n) (queue q l)) -> Forall (fun n => 0 < n) (pending q) ->
  queue q l ++ appended l ops = taken l ops (snd (qrun ops q)) ++ queue (fst (qrun ops q)) l.
Proof.
  induction ops as [|o t IH]; intros q l L P1 P2; [cbn; now rewrite app_nil_r|].
  destruct L as [A L]. cbn [qrun fst snd]. unfold taken. cbn [combine flat_map].
  fold (taken l t (snd (qrun t (fst (qstep o q))))). cbn [fst snd]. unfold appended. cbn [flat_map]. fold (appended l t).
  assert (N: (forall l, Forall (fun n => 0 < n) (queue (fst (qstep o q)) l)) /\ Forall (fun n => 0 < n) (pending (fst (qstep o q)))).
  { destruct o as [n|l' n|l']; cbn [qstep fst allowed] in *.
    - split; [exact P1|]. constructor; [tauto|exact P2].
    - assert (0 < n) by (eapply Forall_forall in P2; eauto). split.
      + intros k. cbn [queue]. unfold set_q. destruct (k =? l'); [|apply P1]. apply Forall_app. split; [apply P1|]. constructor; auto.
      + cbn [pending]. rewrite Forall_forall in *. intros x Hx. apply in_remove in Hx. apply P2. tauto.
    - destruct (queue q l') as [|n u] eqn:Q; cbn [fst queue pending]; [split; [exact P1|exact P2]|]. split; [|exact P2].
      intros k. unfold set_q. destruct (k =? l'); [|apply P1]. specialize (P1 l'). rewrite Q in P1. now inversion P1. }
  destruct N as [N1 N2]. specialize (IH (fst (qstep o q)) l L N1 N2). rewrite <- !app_assoc, <- IH.
  destruct o as [n|l' n|l']; cbn [qstep fst snd].
  - reflexivity.
  - cbn [queue app]. unfold set_q. rewrite (Z.eqb_sym l l'). destruct (l' =? l) eqn:E.
    + apply Z.eqb_eq in E. subst. now rewrite <- app_assoc.
    + reflexivity.
  - specialize (P1 l'). destruct (queue q l') as [|n u] eqn:Q; cbn [fst snd queue].
    + change (0 =? 0) with true. cbn [negb]. rewrite andb_false_r. reflexivity.
    + inversion P1; subst. replace (n =? 0) with false by lia. cbn [negb]. rewrite andb_true_r. unfold set_q. rewrite (Z.eqb_sym l l').
      destruct (l' =? l) eqn:E; [|reflexivity]. apply Z.eqb_eq in E. subst. rewrite Q. reflexivity.
Qed.

Lemma fifo : forall ops nx l, legal ops empty_q ->
  exists s rets, xrun ops {| next := nx; lists := fun _ => xl_init |} = Done (s, rets) /\
    exists rest, appended l ops = taken l ops rets ++ rest /\ num (lists s l) = Z.of_nat (length rest).
Proof.
  intros ops nx l L. destruct (run_refines ops _ _ (init_refines nx) L) as (s & E & R).
  exists s, (snd (qrun ops empty_q)). split; [exact E|].
  exists (queue (fst (qrun ops empty_q)) l). split; [|apply R].
  rewrite <- (fifo_gen ops empty_q l L); cbn; auto.
Qed.

Lemma in_lists_once : forall ops, legal ops empty_q ->
  let q := fst (qrun ops empty_q) in
  (forall l, NoDup (queue q l)) /\ (forall l l' n, l <> l' -> In n (queue q l) -> ~ In n (queue q l')).
Proof.
  intros ops L. destruct (run_refines ops _ _ (init_refines (fun _ => 0)) L) as (s & E & R). cbv zeta. split; apply R.
Qed.

Lemma queue_ok : forall ops nx, legal ops empty_q ->
  exists s, xrun ops {| next := nx; lists := fun _ => xl_init |} = Done (s, snd (qrun ops empty_q)) /\
    forall l, num (lists s l) = Z.of_nat (length (queue (fst (qrun ops empty_q)) l)).
Proof.
  intros ops nx L. destruct (run_refines ops _ _ (init_refines nx) L) as (s & E & R).
  exists s. split; [exact E|apply R].
Qed.
