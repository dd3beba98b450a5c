(** Vocabulary for the thread-pool properties. *)
From Coq Require Import ZArith List Bool.
From Verif Require Import CBase TpModel.
Import ListNotations.
Open Scope Z_scope.

(** The descriptors linked in a queue: the first [size] slots of its array. *)
Definition queued (q : jl) : list Z := map (fun i => arr q (Z.of_nat i)) (seq 0 (Z.to_nat (size q))).
(** Jobs taken from the queue whose function has not run yet. *)
Definition picked (p : pool) : list Z :=
  flat_map (fun x => match snd x with Got d => [d] | _ => [] end) (held p).
Definition holding (p : pool) : list Z := map (fun x => act_desc (snd x)) (held p).
Definition all_descs : list Z := map Z.of_nat (seq 1 128).
