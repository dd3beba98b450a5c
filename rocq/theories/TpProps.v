(** C24, C25: the thread pool, for every schedule of every set of activities. *)
From Coq Require Import ZArith List Bool Lia Permutation.
From Verif Require Import CBase TpModel TpSpec TpProofs.
Import ListNotations.
Open Scope Z_scope.

(** C24: the jobs submitted are, in order, the jobs started and then the jobs still
    queued; the jobs started are exactly the jobs executed and those about to be. *)
Theorem C24_exactly_once : forall d0 ops, exists p, trun ops (init_pool d0) = Done p /\
  submitted p = started p ++ map (fun d => jid (desc p d)) (queued (run p)) /\
  Permutation (started p) (executed p ++ map (fun d => jid (desc p d)) (picked p)).
Proof. exact exactly_once. Qed.
Print Assumptions C24_exactly_once.

(** C24: each of the 128 descriptors is in one queue, or held by one activity. *)
Theorem C24_descriptors : forall d0 ops, exists p, trun ops (init_pool d0) = Done p /\
  Permutation (queued (uninit p) ++ queued (run p) ++ queued (done p) ++ holding p) all_descs.
Proof. exact descriptors. Qed.
Print Assumptions C24_descriptors.

(** C24: an idle worker can start a job whenever one is queued. *)
Theorem C24_pick : forall d0 ops p a, trun ops (init_pool d0) = Done p -> idle a p = true -> size (run p) <> 0 ->
  exists p', tstep (OpPick a) p = Done p'.
Proof. exact pick_enabled. Qed.
Print Assumptions C24_pick.

(** C24: waiting for a job succeeds only for a job with those arguments that was executed,
    and takes it out of the list of finished jobs. *)
Theorem C24_wait : forall d0 ops p a arg p', trun ops (init_pool d0) = Done p -> tstep (OpWait a arg) p = Done p' ->
  exists d, In d (queued (done p)) /\ ~ In d (queued (done p')) /\ jarg (desc p d) = arg /\ In (jid (desc p d)) (executed p).
Proof. exact wait_after_run. Qed.
Print Assumptions C24_wait.

Definition C24_job (n : Z) (w : bool) : job := {| jid := n; jarg := n; jwait := w |}.
Definition C24_sched : list top :=
  [OpPop 1; OpPop 2; OpFill 2 (C24_job 20 true); OpFill 1 (C24_job 10 false); OpPush 2; OpPick 7; OpPush 1; OpPick 8;
   OpRun 8; OpWait 2 20; OpRun 7; OpFinish 7; OpWait 2 20; OpFinish 8; OpPop 3; OpFill 3 (C24_job 30 false); OpPush 3].
Example C24_nonvacuous : exists p, trun C24_sched (init_pool (fun _ => C24_job 0 false)) = Done p /\
  submitted p = [20; 10; 30] /\ started p = [20; 10] /\ executed p = [10; 20] /\ holding p = [127] /\ size (run p) = 1.
Proof. eexists. split; [vm_compute; reflexivity|]. vm_compute. repeat split; reflexivity. Qed.
Example C24_wait_nonvacuous : exists p p',
  trun (firstn 12 C24_sched) (init_pool (fun _ => C24_job 0 false)) = Done p /\ tstep (OpWait 2 20) p = Done p' /\ executed p = [10; 20].
Proof. eexists. eexists. split; [vm_compute; reflexivity|]. split; vm_compute; reflexivity. Qed.

(** C24 is about a running pool only: a job queued when the pool is deleted need not be
    run, because a worker tests the exit flag before it looks at the queue. *)
Theorem C24_exit_refuted : exists ops p,
  trun ops (init_pool (fun _ => C24_job 0 false)) = Done p /\ submitted p = [10] /\ executed p = [] /\ quit p = [7] /\
  ops = [OpPop 1; OpFill 1 (C24_job 10 false); OpPush 1; OpDelete; OpQuit 7].
Proof. eexists. eexists. split; [|repeat split; try reflexivity]. vm_compute; reflexivity. vm_compute; reflexivity. vm_compute; reflexivity. vm_compute; reflexivity. Qed.
Print Assumptions C24_exit_refuted.

(** C25: no schedule accesses a queue outside its array ([Undef]); each queue holds at most
    128 jobs and the slots behind its last job are NULL, which ends every shift. *)
Theorem C25_bounds : forall d0 ops, exists p, trun ops (init_pool d0) = Done p /\
  forall q, q = uninit p \/ q = run p \/ q = done p ->
    0 <= size q <= WORK_MAX /\ forall i, size q <= i < SLOTS -> arr q i = 0.
Proof. exact queue_bounds. Qed.
Print Assumptions C25_bounds.

(** C25: an activity that holds a descriptor can always take its next step; in particular
    no push ever waits for a full queue. *)
Theorem C25_no_wait : forall d0 ops p a x, trun ops (init_pool d0) = Done p -> lookup a (held p) = Some x ->
  exists p', tstep (match x with Have _ => OpFill a {| jid := 0; jarg := 0; jwait := false |} | Filled _ => OpPush a
                             | Got _ => OpRun a | Ran _ => OpFinish a | Waited _ => OpReturn a end) p = Done p'.
Proof. exact pushes_enabled. Qed.
Print Assumptions C25_no_wait.

Example C25_nonvacuous : exists p, trun (firstn 6 C24_sched) (init_pool (fun _ => C24_job 0 false)) = Done p /\
  lookup 1 (held p) = Some (Filled 128) /\ lookup 7 (held p) = Some (Got 127) /\ size (uninit p) = 126.
Proof. eexists. split; [vm_compute; reflexivity|]. vm_compute. repeat split; reflexivity. Qed.
