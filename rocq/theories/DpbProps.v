(** C21-C23: the decoded-picture buffer, all interleavings. *)
From Coq Require Import ZArith List Bool.
From Verif Require Import CBase DpbModel DpbSpec DpbProofs DpbProofsC DpbProofsD DpbProofsE.
Import ListNotations.
Open Scope Z_scope.

(** C21. A picture is decoded into a buffer that nobody uses and, unless the fallback
    chose it, that holds no picture announced as a reference. *)
Theorem C21_target_unused : forall n ops pre r f refs forced post,
  0 <= n -> events n ops = pre ++ EvStart r f refs forced :: post ->
  users f pre = 0 /\ (forced = false -> marked f pre = false).
Proof. exact target_unused. Qed.
Print Assumptions C21_target_unused.

(** An announced reference is given up only if the last accepted picture asked for its
    removal or its display order is 128 or more away from the picture being set up. *)
Theorem C21_given_up_for_a_reason : forall n ops pre f post,
  0 <= n -> events n ops = pre ++ EvForget f :: post ->
  exists p, content f pre = Some p
    /\ (In (r_coi p) (removals pre)
        \/ exists r, current pre = Some r /\ MAX_POC_DISTANCE <= Z.abs (r_poc p - r_poc r)).
Proof. exact forget_justified. Qed.
Print Assumptions C21_given_up_for_a_reason.

(** The fallback overwrites a picture still announced as a reference (27 reference
    pictures, 26 buffers, none removed). *)
Theorem C21_fallback_overwrites_reference_refuted :
  exists ops pre r f refs post, events 26 ops = pre ++ EvStart r f refs true :: post /\ marked f pre = true.
Proof. exact fallback_overwrites. Qed.
Print Assumptions C21_fallback_overwrites_reference_refuted.

(** The background buffer is decoded into again while its previous picture waits for
    output. *)
Theorem C21_background_overwritten_refuted :
  exists ops pre f post, events 26 ops = pre ++ EvBackground f :: post /\ 0 < users f pre.
Proof. exact background_overwritten. Qed.
Print Assumptions C21_background_overwritten_refuted.

(** C22. The users of a buffer are the references and targets of running tasks, the
    pictures waiting for output and those lent to the caller. *)
Theorem C22_users_are_the_owners : forall n ops s tr f,
  0 <= n -> run (st_init n) ops = (s, tr) -> at_ s = POut ->
  users f tr = times f (flat_map (fun t => t_refs t ++ t_dec t :: if t_out t then [] else [t_dec t]) (tasks s))
               + times f (olist s) + times f (held s).
Proof. exact users_owners. Qed.
Print Assumptions C22_users_are_the_owners.

Theorem C22_users_never_negative : forall n ops pre post f,
  0 <= n -> events n ops = pre ++ post -> 0 <= users f pre.
Proof. exact users_nonneg. Qed.
Print Assumptions C22_users_never_negative.

(** The search takes a buffer exactly when nobody uses it and it is no announced
    reference. *)
Theorem C22_reusable_iff_released_partial : forall n ops s tr r got f,
  0 <= n -> run (st_init n) ops = (s, tr) -> base s <= f < base s + DpbModel.n s ->
  (forall l, ~ In (EvDrop l) tr) -> at_ s = POut ->
  snd (step (goto s (PFind r got (f - base s))) Step) = [EvStart r f got false]
  <-> (users f tr = 0 /\ marked f tr = false).
Proof. exact reusable_iff. Qed.
Print Assumptions C22_reusable_iff_released_partial.

(** If some buffer is free, the search finds one. *)
Theorem C22_search_finds_free_partial : forall n ops s tr r got f,
  0 <= n -> run (st_init n) ops = (s, tr) -> at_ s = PFind r got 0 -> base s <= f < base s + DpbModel.n s ->
  (forall l, ~ In (EvDrop l) tr) -> users f tr = 0 -> marked f tr = false ->
  exists g, snd (run s (repeat Step (S (Z.to_nat (DpbModel.n s))))) = [EvStart r g got false].
Proof. exact free_found. Qed.
Print Assumptions C22_search_finds_free_partial.

(** No count goes below zero and no freed buffer is touched, as long as there are no
    background pictures and the resolution changes only when nothing is in use. *)
Theorem C22_no_invalid_release_partial : forall n ops,
  0 <= n -> calm (events n ops) -> ~ In EvUndef (events n ops).
Proof. exact no_undef. Qed.
Print Assumptions C22_no_invalid_release_partial.

(** A single background picture makes its own release invalid. *)
Theorem C22_background_release_refuted :
  exists ops, In EvUndef (events 26 ops) /\ ~ In EvReset (events 26 ops).
Proof. exact background_release. Qed.
Print Assumptions C22_background_release_refuted.

(** A new resolution while the caller holds a picture: giving it back touches freed
    memory. *)
Theorem C22_reset_release_refuted :
  exists ops, In EvUndef (events 26 ops) /\ (forall f, ~ In (EvBackground f) (events 26 ops)).
Proof. exact reset_release. Qed.
Print Assumptions C22_reset_release_refuted.

(** A picture without slices: nobody uses its buffer afterwards, yet it is never free. *)
Theorem C22_dropped_picture_leaks_refuted :
  exists ops s tr f, run (st_init 26) ops = (s, tr) /\ at_ s = POut
    /\ base s <= f < base s + n s /\ users f tr = 0 /\ marked f tr = false
    /\ forall r got, snd (step (goto s (PFind r got (f - base s))) Step) = [].
Proof. exact dropped_leaks. Qed.
Print Assumptions C22_dropped_picture_leaks_refuted.

(** C23. A picture starts with one reference per entry of its reference list, each the
    announced picture at the given distance in coding order, and kept in use; a B picture
    has exactly two, one displayed after and one before it. *)
Theorem C23_references_exact : forall n ops pre r f refs forced post,
  0 <= n -> events n ops = pre ++ EvStart r f refs forced :: post ->
  current pre = Some r /\ Forall2 (ref_ok pre r) (r_ref r) refs
  /\ (r_b r = true -> around pre r refs).
Proof. exact start_refs. Qed.
Print Assumptions C23_references_exact.

Theorem C23_reference_not_given_up : forall n ops pre f post,
  0 <= n -> events n ops = pre ++ EvRef f :: post -> marked f pre = true.
Proof. exact ref_marked. Qed.
Print Assumptions C23_reference_not_given_up.

(** A picture is dropped before its references were found only if one of them is missing,
    or if it is a B picture whose references do not lie around it. *)
Theorem C23_dropped_for_a_reason : forall n ops pre post,
  0 <= n -> events n ops = pre ++ EvFail :: post -> accepted pre = false ->
  exists r, current pre = Some r
    /\ ((exists d, In d (r_ref r) /\ forall f, ~ present pre r d f)
        \/ (r_b r = true /\ exists fs, Forall2 (at_dist pre r) (r_ref r) fs /\ ~ around pre r fs)).
Proof. exact dropped_reason. Qed.
Print Assumptions C23_dropped_for_a_reason.

(** Hypotheses are met: an I, a P and a B picture, then a P picture that takes the buffer
    of the I picture, removed by the B picture; and a P picture without its reference. *)
Example dpb_example :
  flat_map (fun e => match e with EvStart r f refs b => [(r_coi r, r_poc r, f, refs, b)] | _ => [] end) (events 26 gop)
  = [(0, 0, 0, [], false); (1, 4, 1, [0], false); (2, 2, 2, [1; 0], false); (3, 8, 0, [2], false)].
Proof. vm_compute. reflexivity. Qed.
Example dpb_example_calm : calm (events 26 gop) /\ In (EvForget 0) (events 26 gop).
Proof. exact gop_calm. Qed.
Example dpb_example_fail :
  events 26 (Call (Req 0 false false 1 4 [1] true []) :: repeat Step 40) = [EvCall (Req 0 false false 1 4 [1] true []); EvFail].
Proof. vm_compute. reflexivity. Qed.
