(** The linked lists of common.cc. Nodes are addresses (positive; 0 is NULL), [next] is the
    first member of every node. Any number of lists share one heap. *)
From Coq Require Import ZArith List Bool.
From Verif Require Import CBase MemModel.
Import ListNotations.
Open Scope Z_scope.

(** common.h:464-470; mutex and condition variable are left out, each critical section
    is one step. *)
Record xl := { hd : Z; tl : Z; num : Z }.
Record xst := { next : mem; lists : Z -> xl }.
Definition set_list (s : Z -> xl) (l : Z) (v : xl) : Z -> xl := fun k => if k =? l then v else s k.

(** common.cc:212-233 [xl_init]. *)
Definition xl_init : xl := {| hd := 0; tl := 0; num := 0 |}.

(** common.cc:253-279 [xl_append] in its two parts: line 261 before the lock is taken... *)
Definition append_prep (n : Z) (s : xst) : xst := {| next := upd (next s) n 0; lists := lists s |}.
(** ... and lines 263-276 with the lock held. *)
Definition append_link (l n : Z) (s : xst) : xst :=
  let x := lists s l in
  if negb (tl x =? 0)
  then {| next := upd (next s) (tl x) n; lists := set_list (lists s) l {| hd := hd x; tl := n; num := num x + 1 |} |}
  else {| next := next s; lists := set_list (lists s) l {| hd := n; tl := n; num := num x + 1 |} |}.

(** common.cc:283-340 [xl_remove_head] after a possible wait, and [xl_remove_head_ex].
    [Undef] is the access through a NULL head. *)
Definition remove_head (l : Z) (s : xst) : outcome (xst * Z) :=
  let x := lists s l in
  if 0 <? num x then
    if hd x =? 0 then Undef
    else
      let h' := next s (hd x) in
      let x' := {| hd := h'; tl := if h' =? 0 then 0 else tl x; num := num x - 1 |} in
      Done ({| next := next s; lists := set_list (lists s) l x' |}, hd x)
  else Done (s, 0).

Inductive xop := Prep (n : Z) | Link (l n : Z) | Take (l : Z).
(** One step and the value returned (0 for operations that return nothing). *)
Definition xstep (o : xop) (s : xst) : outcome (xst * Z) :=
  match o with
  | Prep n => Done (append_prep n s, 0)
  | Link l n => Done (append_link l n s, 0)
  | Take l => remove_head l s
  end.
Fixpoint xrun (ops : list xop) (s : xst) : outcome (xst * list Z) :=
  match ops with
  | [] => Done (s, [])
  | o :: t => bindo (xstep o s) (fun p => bindo (xrun t (fst p)) (fun q => Done (fst q, snd p :: snd q)))
  end.
