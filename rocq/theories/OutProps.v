(** Properties C13-C17: order, completeness and end of the output, header
    announcement. All statements range over every interleaving [ops] of worker
    completions and API calls and are phrased on the observable trace [t]. *)
From Coq Require Import ZArith List Bool Sorted Permutation.
From Verif Require Import OutModel OutSpec OutProofs.
Import ListNotations.
Open Scope Z_scope.

(** C13: a delivered picture was waiting, and no waiting picture has a smaller display
    index. *)
Theorem C13_deliver_min : forall n ops s t, run (st_init n) ops = Some (s, t) ->
  forall t1 p t2, t = t1 ++ EvRet (GotFrame p) :: t2 ->
  waiting t1 p /\ forall q, waiting t1 q -> p_poc p <= p_poc q.
Proof. exact deliver_min. Qed.
Print Assumptions C13_deliver_min.

(** C13: without late arrivals the delivered display indices strictly increase. *)
Theorem C13_increasing : forall n ops s t, run (st_init n) ops = Some (s, t) ->
  no_late t -> distinct_poc t -> increasing (delivered t).
Proof. exact deliver_increasing. Qed.
Print Assumptions C13_increasing.

(** Evaluates the run in a goal [exists s t, run .. = Some (s, t) /\ ..]. *)
Ltac run_ex :=
  match goal with
  | |- exists s t, run ?a ?b = Some (s, t) /\ _ =>
      let r := eval vm_compute in (run a b) in
      match r with Some (?s, ?t) => exists s, t; split; [vm_compute; reflexivity|] end
  end.

(** Three pictures finishing out of order, received through flush. *)
Definition ex_ops : list op :=
  [OHeader (Head 1920 1080 7); OFirst 0; ORecv; OStep; OSend 0; OSend 2; OSend 1;
   ODone (Pic 1 2); ODone (Pic 0 0); OFlush None; OStep; OStep;
   ODone (Pic 2 1); OFlush None; OStep; OStep; OFlush None; OStep; OStep; OFlush None; OStep].
Definition ex_trace : list ev :=
  Eval vm_compute in match run (st_init 4) ex_ops with Some (_, t) => t | None => [] end.
Definition ex_final : st :=
  Eval vm_compute in match run (st_init 4) ex_ops with Some (s, _) => s | None => st_init 0 end.
Example C13_nonvacuous : exists s t, run (st_init 4) ex_ops = Some (s, t) /\
  map p_poc (delivered t) = [0; 1; 2] /\ no_late t /\ distinct_poc t.
Proof.
  exists ex_final, ex_trace. split; [vm_compute; reflexivity|]. split; [reflexivity|]. split.
  - apply no_late_chk_ok. reflexivity.
  - intros p q Hp Hq. cbn in *.
    destruct Hp as [<- | [<- | [<- | []]]]; destruct Hq as [<- | [<- | [<- | []]]]; cbn; congruence.
Qed.

(** Display order does not survive a change of resolution: the picture counter restarts
    (header.cc:1101), so a picture of the new sequence overtakes pictures of the old
    sequence that are still waiting. *)
Theorem C13_new_sequence_refuted : exists n ops s t, run (st_init n) ops = Some (s, t) /\ exists p q t1 t2 t3,
  t = t1 ++ EvHead (Head 640 480 0) :: t2 ++ EvRet (GotFrame q) :: t3 /\
  In p (completed t1) /\ In q (started t2) /\ ~ In p (delivered t).
Proof.
  exists 1, [OHeader (Head 320 240 0); OFirst 0; ORecv; OStep; OSend 100; ODone (Pic 0 100);
             OHeader (Head 640 480 0); OSend 0; ODone (Pic 1 0);
             OFlush None; OStep; OFlush None; OStep; OStep].
  run_ex. exists (Pic 0 100), (Pic 1 0).
  exists [EvHead (Head 320 240 0); EvRet (GotHeader (Head 320 240 0)); EvStart (Pic 0 100); EvDone (Pic 0 100)],
         [EvStart (Pic 1 0); EvDone (Pic 1 0); EvRet (GotHeader (Head 640 480 0))], [].
  split; [reflexivity|]. cbn. intuition congruence.
Qed.
Print Assumptions C13_new_sequence_refuted.

(** C14: conservation. Completed pictures are pairwise different and are exactly the
    delivered ones plus those in the queue; started pictures are exactly the completed
    ones, those still being decoded and those dropped for lack of slice data. *)
Theorem C14_exactly_once : forall n ops s t, run (st_init n) ops = Some (s, t) ->
  NoDup (completed t) /\ Permutation (completed t) (delivered t ++ m_q (s_m s)) /\
  Permutation (started t) (completed t ++ dropped t ++ s_fly s).
Proof. exact conservation. Qed.
Print Assumptions C14_exactly_once.

Example C14_nonvacuous : exists s t, run (st_init 4) ex_ops = Some (s, t) /\
  length (completed t) = 3%nat /\ length (delivered t) = 3%nat.
Proof. exists ex_final, ex_trace. split; [vm_compute; reflexivity|]. split; reflexivity. Qed.

(** C15: any insertion order gives a sorted permutation... *)
Theorem C15_insert_sorted : forall l,
  sorted_poc (fold_left (fun q p => insert_pic p q) l []) /\
  Permutation (fold_left (fun q p => insert_pic p q) l []) l.
Proof. exact insert_all_sorted. Qed.
Print Assumptions C15_insert_sorted.

(** ... and in every run the queue is sorted and holds exactly the waiting pictures. *)
Theorem C15_queue : forall n ops s t, run (st_init n) ops = Some (s, t) ->
  sorted_poc (m_q (s_m s)) /\ forall p, In p (m_q (s_m s)) <-> waiting t p.
Proof. exact queue_contents. Qed.
Print Assumptions C15_queue.

Example C15_nonvacuous :
  map p_poc (fold_left (fun q p => insert_pic p q) [Pic 0 5; Pic 1 2; Pic 2 9; Pic 3 2] []) = [2; 2; 5; 9].
Proof. reflexivity. Qed.

(** C16: the end of the stream is reported only when everything that was ever started
    has been delivered (in particular nothing is waiting). *)
Theorem C16_end_only_when_done : forall n ops s t, run (st_init n) ops = Some (s, t) ->
  forall t1 t2, t = t1 ++ EvRet REnd :: t2 ->
  Permutation (started t1) (delivered t1) /\ (forall p, ~ waiting t1 p) /\ dropped t1 = [].
Proof. exact end_complete. Qed.
Print Assumptions C16_end_only_when_done.

(** C16: when the workers are done, repeated flushing returns the pending header, all
    waiting pictures in order, and then the end. Restricted to histories without
    pictures that lack slice data (see the refutation below). *)
Theorem C16_flush_drains_partial : forall n ops s t, run (st_init n) ops = Some (s, t) ->
  s_pc s = Idle -> s_fly s = [] -> dropped t = [] ->
  exists fops s1, Forall flush_op fops /\
    run s fops = Some (s1, (if m_sps (s_m s) then [EvRet (GotHeader (m_head (s_m s)))] else [])
                            ++ map (fun p => EvRet (GotFrame p)) (m_q (s_m s)) ++ [EvRet REnd]).
Proof. exact flush_drains. Qed.
Print Assumptions C16_flush_drains_partial.

(** C16: a flush call that is under way returns after finitely many steps once the
    workers are done. *)
Theorem C16_flush_returns_partial : forall n ops s t w, run (st_init n) ops = Some (s, t) ->
  s_pc s = AtLoop true w \/ s_pc s = AtInner true w -> m_flush (s_m s) = true ->
  s_fly s = [] -> dropped t = [] ->
  exists k s1 r, run s (repeat OStep k) = Some (s1, [EvRet r]) /\ s_pc s1 = Idle.
Proof. exact flush_in_progress_returns. Qed.
Print Assumptions C16_flush_returns_partial.

Example C16_nonvacuous : exists s t, run (st_init 2) [OFirst 0; OSend 4; OSend 2; ODone (Pic 0 4); ODone (Pic 1 2)] = Some (s, t)
  /\ s_pc s = Idle /\ s_fly s = [] /\ dropped t = [] /\ length (m_q (s_m s)) = 2%nat.
Proof. run_ex. repeat split. Qed.

(** C16 is false in general: after a picture header without slice data, flush never
    returns although no work is left. *)
Theorem C16_flush_hangs_refuted : exists n ops s t, run (st_init n) ops = Some (s, t) /\ s_fly s = [] /\
  forall k, exists s1, run s (repeat OStep k) = Some (s1, []).
Proof. exact flush_hang. Qed.
Print Assumptions C16_flush_hangs_refuted.

(** C17: if a header with a new picture size is due, the next API result is exactly
    that header; otherwise no header is reported (so each is reported once). *)
Theorem C17_header_first : forall n ops s t, run (st_init n) ops = Some (s, t) ->
  forall t1 r t2, t = t1 ++ EvRet r :: t2 ->
  (due no_head false t1 = true -> r = GotHeader (last_head no_head t1)) /\
  (due no_head false t1 = false -> forall h, r <> GotHeader h).
Proof. exact header_announced. Qed.
Print Assumptions C17_header_first.

Example C17_nonvacuous : exists s t, run (st_init 4) ex_ops = Some (s, t) /\
  due no_head false (firstn 1 t) = true /\ nth 1 t (EvRet REnd) = EvRet (GotHeader (Head 1920 1080 7)).
Proof. exists ex_final, ex_trace. split; [vm_compute; reflexivity|]. split; reflexivity. Qed.

(** A new header that keeps the picture size but changes anything else (bit depth,
    frame rate, ...) is never announced. *)
Theorem C17_same_size_refuted : exists n ops s t, run (st_init n) ops = Some (s, t) /\ exists h,
  last_head no_head t = h /\ (exists t1 t2 h1, t = t1 ++ EvHead h :: t2 /\ h <> h1 /\ last_head no_head t1 = h1) /\
  due no_head false t = false /\ forall h', In (EvRet (GotHeader h')) t -> h' <> h.
Proof.
  exists 1, [OHeader (Head 320 240 0); ORecv; OStep; OHeader (Head 320 240 1); ORecv].
  run_ex. exists (Head 320 240 1). split; [reflexivity|]. split.
  - exists [EvHead (Head 320 240 0); EvRet (GotHeader (Head 320 240 0))], [EvRet RDefault], (Head 320 240 0).
    split; [reflexivity|]. split; [discriminate|reflexivity].
  - split; [reflexivity|]. cbn. intros h' [H|[H|[H|[H|[]]]]]; inversion H; subst; discriminate.
Qed.
Print Assumptions C17_same_size_refuted.
