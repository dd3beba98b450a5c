(** The life of a memory block as its owner sees it: an automaton over the events of one block,
    which does not refer to the lists it is held in. *)
From Coq Require Import ZArith List Bool.
From Verif Require Import OwnModel.
Import ListNotations.
Open Scope Z_scope.

Definition id (e : ev) : Z :=
  match e with
  | AllocU i | AllocP i _ _ | Free i | Put i | Start i | Finish i | Show i _ _ | Lend i | Back i => i
  end.

Inductive phase :=
| Unborn | Dead
| Unit_free | Unit_used                    (* a unit outside and inside a task *)
| Pic_free (w h : Z) | Pic_queued (w h : Z) | Pic_lent (w h : Z).

(** The phase after an event; [None] for an event that must not happen. *)
Definition next (p : phase) (e : ev) : option phase :=
  match p, e with
  | Unborn, AllocU _ => Some Unit_free
  | Unborn, AllocP _ w h => Some (Pic_free w h)
  | Unit_free, Put _ => Some Unit_free
  | Unit_free, Start _ => Some Unit_used
  | Unit_used, Finish _ => Some Unit_free
  | Unit_free, Free _ => Some Dead
  | Pic_free w h, Show _ w' h' => if (w =? w') && (h =? h') then Some (Pic_queued w h) else None
  | Pic_queued w h, Lend _ => Some (Pic_lent w h)
  | Pic_lent w h, Back _ => Some (Pic_free w h)
  | Pic_free w h, Free _ => Some Dead
  | _, _ => None
  end.

(** The phase of block i after a history. *)
Fixpoint after (i : Z) (p : phase) (tr : list ev) : option phase :=
  match tr with
  | [] => Some p
  | e :: t => if id e =? i then match next p e with Some q => after i q t | None => None end
              else after i p t
  end.
Definition lives (i : Z) (tr : list ev) : option phase := after i Unborn tr.

(** Nobody but the lists holds the block. *)
Definition at_rest (p : phase) : bool :=
  match p with Unit_used | Pic_queued _ _ | Pic_lent _ _ => false | _ => true end.

Definition allocations (i : Z) (tr : list ev) : nat :=
  length (filter (fun e => match e with AllocU j | AllocP j _ _ => j =? i | _ => false end) tr).
Definition releases (i : Z) (tr : list ev) : nat :=
  length (filter (fun e => match e with Free j => j =? i | _ => false end) tr).
