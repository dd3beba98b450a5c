(** C95: buffers of stream data and output pictures over the life of a handle. *)
From Coq Require Import ZArith List Bool.
From Verif Require Import OwnModel OwnSpec OwnProofs.
Import ListNotations.
Open Scope Z_scope.

(** Whatever the caller and the tasks do, the history of every block is one the automaton of
    OwnSpec accepts: allocated once, a unit never filled or released while a task decodes it, a
    picture never reused or released while queued or held by the caller and only shown with the
    dimensions it was allocated for, nothing done to a block after its release. *)
Theorem C95_lives : forall n ops s tr i, session n ops = (s, tr) -> exists p, lives i tr = Some p.
Proof. exact session_lives. Qed.
Print Assumptions C95_lives.

(** Closing releases every block exactly once, provided every unit given to a task came back and
    every picture shown was delivered and returned. *)
Theorem C95_close_partial : forall n ops s tr, session n (ops ++ [OClose]) = (s, tr) ->
  (forall i p, lives i tr = Some p -> at_rest p = true) ->
  forall i, releases i tr = allocations i tr /\ (releases i tr <= 1)%nat.
Proof. exact close_all. Qed.
Print Assumptions C95_close_partial.

(** Without that condition (what is missing for the full claim) exactly the blocks still in a
    task, in the output queue or with the caller are lost. *)
Theorem C95_lost : forall n ops s tr i p, session n (ops ++ [OClose]) = (s, tr) ->
  lives i tr = Some p -> (releases i tr < allocations i tr)%nat <-> at_rest p = false.
Proof. exact close_leak. Qed.
Print Assumptions C95_lost.

(** A stream of three units with a change of size: all blocks come back. *)
Definition whole : list op :=
  [OFetch; OFill; OGrow; OFill; OCut; OFill; OShow 16 8; ODone 0; OLend 0; OBack 0;
   OCut; OFill; OShow 16 8; ODone 0; OLend 0; OBack 0; OFlush; OShow 32 16; ODone 0; OLend 0; OBack 0].
Example C95_nonvacuous :
  exists s tr, session 3 (whole ++ [OClose]) = (s, tr) /\
    nxt s = 6%nat /\ (forall i, 0 <= i < 6 -> lives i tr = Some Dead) /\ releases 4 tr = 1%nat.
Proof.
  exists (fst (session 3 (whole ++ [OClose]))), (snd (session 3 (whole ++ [OClose]))).
  split; [destruct (session 3 (whole ++ [OClose])); reflexivity|].
  split; [vm_compute; reflexivity|]. split; [|vm_compute; reflexivity].
  intros i Hi. assert (E : i = 0 \/ i = 1 \/ i = 2 \/ i = 3 \/ i = 4 \/ i = 5) by (clear - Hi; Lia.lia).
  destruct E as [-> | [-> | [-> | [-> | [-> | ->]]]]]; vm_compute; reflexivity.
Qed.

(** "Close releases everything" is false: a caller that closes before draining the output loses
    the queued picture and the unit of a job that was not started. *)
Theorem C95_close_refuted : exists ops s tr i j, session 3 (ops ++ [OClose]) = (s, tr) /\
  lives i tr = Some (Pic_queued 16 8) /\ releases i tr = 0%nat /\
  lives j tr = Some Unit_used /\ releases j tr = 0%nat.
Proof.
  exists [OFetch; OFill; OCut; OFill; OShow 16 8; ODone 0; OFlush].
  exists (fst (session 3 ([OFetch; OFill; OCut; OFill; OShow 16 8; ODone 0; OFlush] ++ [OClose]))),
         (snd (session 3 ([OFetch; OFill; OCut; OFill; OShow 16 8; ODone 0; OFlush] ++ [OClose]))).
  exists 3, 1. split; [destruct (session 3 _); reflexivity|]. vm_compute. repeat split; reflexivity.
Qed.
Print Assumptions C95_close_refuted.
