(** Specification of the output side in terms of the observable event trace only. *)
From Coq Require Import ZArith List Bool Sorted Permutation.
From Verif Require Import OutModel.
Import ListNotations.
Open Scope Z_scope.

(** Pictures completed / delivered / started so far, in order. *)
Definition completed (t : list ev) : list pic :=
  flat_map (fun e => match e with EvDone p => [p] | _ => [] end) t.
Definition delivered (t : list ev) : list pic :=
  flat_map (fun e => match e with EvRet (GotFrame p) => [p] | _ => [] end) t.
Definition started (t : list ev) : list pic :=
  flat_map (fun e => match e with EvStart p => [p] | _ => [] end) t.
Definition dropped (t : list ev) : list pic :=
  flat_map (fun e => match e with EvDrop p => [p] | _ => [] end) t.

(** [p] is waiting after [t]: completed and not delivered yet. *)
Definition waiting (t : list ev) (p : pic) : Prop :=
  In p (completed t) /\ ~ In p (delivered t).

(** A picture is late when a picture with a larger display index was delivered before
    it was completed. *)
Definition no_late (t : list ev) : Prop :=
  forall t1 p t2 q, t = t1 ++ EvDone p :: t2 -> In q (delivered t1) -> p_poc q <= p_poc p.

(** Distinct pictures have distinct display indices. *)
Definition distinct_poc (t : list ev) : Prop :=
  forall p q, In p (completed t) -> In q (completed t) -> p_poc p = p_poc q -> p = q.

Definition sorted_poc (l : list pic) : Prop := StronglySorted (fun a b => p_poc a <= p_poc b) l.
Definition increasing (l : list pic) : Prop := StronglySorted (fun a b => p_poc a < p_poc b) l.

(** Headers: the most recent one, and whether one is due to be announced (its picture
    size differs from the previous header's and nothing was announced since). *)
Fixpoint last_head (h : head) (t : list ev) : head :=
  match t with
  | [] => h
  | EvHead h1 :: t => last_head h1 t
  | _ :: t => last_head h t
  end.
Fixpoint due (h : head) (d : bool) (t : list ev) : bool :=
  match t with
  | [] => d
  | EvHead h1 :: t =>
      due h1 (d || negb (h_w h =? h_w h1) || negb (h_h h =? h_h h1)) t
  | EvRet (GotHeader _) :: t => due h false t
  | _ :: t => due h d t
  end.
Definition no_head : head := Head 0 0 0.
