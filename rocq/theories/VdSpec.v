(** What filtering one edge does to a plane. *)
From Coq Require Import ZArith.
From Verif Require Import LfSpec.
Open Scope Z_scope.

(** The edge at [src], its lines [ptr] apart and the samples of a line [inc] apart: each sample is filtered
    from the samples of its own line as they were before, and nothing else changes. *)
Definition edge_filtered (c : bool) (ptr inc alpha beta : Z) (f0 f1 : bool) (src : Z) (m m' : Z -> Z) : Prop :=
  (forall k j, 0 <= k < lines c -> -3 <= j <= 2 ->
     m' (src + k * ptr + j * inc) = filtered c alpha beta (line_flag c f0 f1 k) (fun i => m (src + k * ptr + i * inc)) j) /\
  (forall p, (forall k j, 0 <= k < lines c -> -3 <= j <= 2 -> p <> src + k * ptr + j * inc) -> m' p = m p).
