(** Abstract queues: one list of nodes per list, and the nodes about to be appended. *)
From Coq Require Import ZArith List Bool.
From Verif Require Import XlModel.
Import ListNotations.
Open Scope Z_scope.

Record qst := { queue : Z -> list Z; pending : list Z }.
Definition set_q (q : Z -> list Z) (l : Z) (v : list Z) : Z -> list Z := fun k => if k =? l then v else q k.
Definition empty_q : qst := {| queue := fun _ => []; pending := [] |}.

(** A node may be offered for appending only by its owner: it is in no list and nobody
    else is appending it. *)
Definition allowed (o : xop) (q : qst) : Prop :=
  match o with
  | Prep n => 0 < n /\ ~ In n (pending q) /\ forall l, ~ In n (queue q l)
  | Link l n => In n (pending q)
  | Take l => True
  end.
Definition qstep (o : xop) (q : qst) : qst * Z :=
  match o with
  | Prep n => ({| queue := queue q; pending := n :: pending q |}, 0)
  | Link l n => ({| queue := set_q (queue q) l (queue q l ++ [n]); pending := remove Z.eq_dec n (pending q) |}, 0)
  | Take l => match queue q l with
              | [] => (q, 0)
              | n :: t => ({| queue := set_q (queue q) l t; pending := pending q |}, n)
              end
  end.
Fixpoint qrun (ops : list xop) (q : qst) : qst * list Z :=
  match ops with
  | [] => (q, [])
  | o :: t => let p := qstep o q in let r := qrun t (fst p) in (fst r, snd p :: snd r)
  end.
Fixpoint legal (ops : list xop) (q : qst) : Prop :=
  match ops with
  | [] => True
  | o :: t => allowed o q /\ legal t (fst (qstep o q))
  end.
(** Nodes appended to, and nodes taken from, list [l]. *)
Definition appended (l : Z) (ops : list xop) : list Z :=
  flat_map (fun o => match o with Link l' n => if l' =? l then [n] else [] | _ => [] end) ops.
Definition taken (l : Z) (ops : list xop) (rets : list Z) : list Z :=
  flat_map (fun p => match fst p with Take l' => if (l' =? l) && negb (snd p =? 0) then [snd p] else [] | _ => [] end) (combine ops rets).
