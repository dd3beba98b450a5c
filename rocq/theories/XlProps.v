(** Property C26: the shared lists are FIFO queues. *)
From Coq Require Import ZArith List Bool Lia.
From Verif Require Import CBase MemModel XlModel XlSpec XlProofs.
Import ListNotations.
Open Scope Z_scope.

(** C26: on any number of lists sharing one heap, any sequence of operations in which a
    node is appended only by its owner behaves as abstract queues do: no invalid access,
    the same nodes returned, and 0 from an empty list. The two parts of an append may be
    separated by operations of other threads. *)
Theorem C26_queue : forall ops nx, legal ops empty_q ->
  exists s, xrun ops {| next := nx; lists := fun _ => xl_init |} = Done (s, snd (qrun ops empty_q)) /\
    forall l, num (lists s l) = Z.of_nat (length (queue (fst (qrun ops empty_q)) l)).
Proof. exact queue_ok. Qed.
Print Assumptions C26_queue.

(** C26: what was appended to a list is what was taken from it, in order and each once,
    followed by what is still in it; the count is the number still in it. *)
Theorem C26_fifo : forall ops nx l, legal ops empty_q ->
  exists s rets, xrun ops {| next := nx; lists := fun _ => xl_init |} = Done (s, rets) /\
    exists rest, appended l ops = taken l ops rets ++ rest /\ num (lists s l) = Z.of_nat (length rest).
Proof. exact fifo. Qed.
Print Assumptions C26_fifo.

(** C26: a node is in at most one list, at most once. *)
Theorem C26_exclusive : forall ops, legal ops empty_q ->
  let q := fst (qrun ops empty_q) in
  (forall l, NoDup (queue q l)) /\ (forall l l' n, l <> l' -> In n (queue q l) -> ~ In n (queue q l')).
Proof. exact in_lists_once. Qed.
Print Assumptions C26_exclusive.

Definition C26_ops : list xop :=
  [Take 1; Prep 11; Prep 12; Link 1 12; Link 1 11; Take 1; Prep 12; Link 2 12; Take 1; Take 1; Take 2].
Example C26_nonvacuous : legal C26_ops empty_q /\
  snd (qrun C26_ops empty_q) = [0; 0; 0; 0; 0; 12; 0; 0; 11; 0; 12].
Proof.
  split; [|reflexivity]. unfold C26_ops. cbn [legal allowed qstep fst queue pending empty_q].
  repeat (split; [|]); try exact Logic.I; cbn [In]; try lia; try tauto.
  all: try (intros l; unfold set_q; cbn [queue]; repeat match goal with |- context [if ?x then _ else _] => destruct x end; cbn; lia).
  - left. reflexivity.
  - intros l. cbn. unfold set_q. destruct (l =? 1); cbn; lia.
Qed.

(** C26 fails when a node is appended that is still in the list, which is what releasing
    the same picture twice does (davs2.cc:371-389): the node is then returned twice. *)
Theorem C26_double_append_refuted : exists ops s rets,
  xrun ops {| next := fun _ => 0; lists := fun _ => xl_init |} = Done (s, rets) /\
  ops = [Prep 5; Link 1 5; Prep 5; Link 1 5; Take 1; Take 1; Take 1] /\ rets = [0; 0; 0; 0; 5; 5; 0].
Proof. eexists. eexists. eexists. split; [|split; reflexivity]. reflexivity. Qed.
Print Assumptions C26_double_append_refuted.
