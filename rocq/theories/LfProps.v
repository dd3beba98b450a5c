(** Property C53: deblocking. *)
From Coq Require Import ZArith List Bool Lia.
From Verif Require Import CBase MemModel UtilModel LfModel LfSpec LfProofs.
Import ListNotations.
Open Scope Z_scope.

(** C53: deblocking an edge replaces every sample of every line by its filtered value,
    computed from the samples as they were before, and touches nothing else. *)
Theorem C53_edge : forall bits c ptr inc alpha beta f0 f1 src m, layout ptr inc ->
  (forall k j, 0 <= k < lines c -> -3 <= j <= 2 -> 0 <= m (src + k * ptr + j * inc) < 2 ^ bits) ->
  let m' := lf_edge bits c ptr inc alpha beta f0 f1 src m in
  (forall k j, 0 <= k < lines c -> -3 <= j <= 2 ->
     m' (src + k * ptr + j * inc) = filtered c alpha beta (line_flag c f0 f1 k) (fun i => m (src + k * ptr + i * inc)) j) /\
  (forall p, (forall k j, 0 <= k < lines c -> -3 <= j <= 2 -> p <> src + k * ptr + j * inc) -> m' p = m p).
Proof. exact edge_ok. Qed.
Print Assumptions C53_edge.

Example C53_edge_nonvacuous :
  let m := fun p => if p mod 64 <? 8 then 100 + p mod 2 else 110 in
  layout 64 1 /\ layout 1 64 /\
  (forall k j, 0 <= k < lines false -> -3 <= j <= 2 -> 0 <= m (8 + k * 64 + j * 1) < 2 ^ 8) /\
  map (edge_ver 8 false 64 20 5 true false 8 m) [5; 6; 7; 8; 9; 10] = [101; 101; 104; 107; 109; 110] /\
  map (edge_ver 8 false 64 20 5 true false 8 m) [261; 262; 263; 264; 265; 266] = [101; 100; 101; 110; 110; 110].
Proof.
  cbv zeta. split; [right; lia|]. split; [left; lia|]. split; [|split; reflexivity].
  intros k j _ _. pose proof (Z.mod_pos_bound (8 + k * 64 + j * 1) 2 ltac:(lia)).
  change (2 ^ 8) with 256. destruct ((8 + k * 64 + j * 1) mod 64 <? 8); lia.
Qed.

(** C53: every new sample lies between the smallest and largest of the six samples of its
    line. *)
Theorem C53_range : forall c alpha beta flag s lo hi j, -3 <= j <= 2 ->
  (forall j, -3 <= j <= 2 -> lo <= s j <= hi) -> lo <= filtered c alpha beta flag s j <= hi.
Proof. exact filtered_range. Qed.
Print Assumptions C53_range.

Example C53_range_nonvacuous :
  let s := fun j => if j <? 0 then 100 else 110 in
  map (filtered false 20 5 true s) [-3; -2; -1; 0; 1; 2] = [101; 102; 104; 106; 108; 109].
Proof. reflexivity. Qed.

(** C53: a line is left alone when the edge is not flagged, or its step is at most one
    or at least the threshold. *)
Theorem C53_untouched : forall c alpha beta flag s j,
  flag = false \/ Z.abs (s 0 - s (-1)) <= 1 \/ alpha <= Z.abs (s 0 - s (-1)) -> filtered c alpha beta flag s j = s j.
Proof. exact filtered_off. Qed.
Print Assumptions C53_untouched.

(** C53: chroma filtering changes at most two samples on each side. *)
Theorem C53_chroma_local : forall alpha beta flag s j, j = -3 \/ j = 2 -> filtered true alpha beta flag s j = s j.
Proof. exact filtered_chroma_local. Qed.
Print Assumptions C53_chroma_local.

Example C53_chroma_local_nonvacuous :
  let s := fun j => if j <? 0 then 100 else 110 in
  map (filtered true 20 5 true s) [-3; -2; -1; 0; 1; 2] = [100; 101; 103; 107; 109; 110].
Proof. reflexivity. Qed.

(** C53: both sides of an edge are treated alike. *)
Theorem C53_mirror : forall c alpha beta flag s j, -3 <= j <= 2 ->
  filtered c alpha beta flag (fun i => s (-1 - i)) j = filtered c alpha beta flag s (-1 - j).
Proof. exact filtered_mirror. Qed.
Print Assumptions C53_mirror.
