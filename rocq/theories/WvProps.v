(** C27: the threads of a picture. *)
From Coq Require Import ZArith List Bool Lia.
From Verif Require Import CBase WvModel WvSpec WvProofs WvProofsB WvProofsC WvProofsD.
Import ListNotations.
Open Scope Z_scope.

(** Under every schedule, with one reconstruction thread or one per row: an LCU is reconstructed only
    when it is parsed and the LCUs it uses are reconstructed. *)
Theorem C27_order : forall c s y x, 0 < c_w c -> reachable c s -> 0 <= y < c_h c -> s_pc s y = Work x ->
  y * c_w c + x <= s_parsed s /\ forall a b, In (a, b) (needs x y) -> in_picture c a b -> rebuilt s a b.
Proof. exact order_deps. Qed.
Print Assumptions C27_order.
Example C27_order_case : exists s, reachable (Cfg 3 2 true true false) s /\ s_pc s 1 = Work 0 /\ rebuilt s 1 0.
Proof. destruct cache_early as (s & R & P & Q). exists s. split; [exact R|]. split; [exact P|]. unfold rebuilt. lia. Qed.

(** With one thread the rows above are complete, so the samples cached ahead for the next LCU are too. *)
Theorem C27_one_thread_rows_above : forall c s y x, 0 < c_w c -> c_many c = false -> reachable c s -> 0 < y < c_h c -> s_pc s y = Work x ->
  forall y', 0 <= y' < y -> s_rec s y' = c_w c.
Proof. exact rows_complete. Qed.
Print Assumptions C27_one_thread_rows_above.

(** Every run ends, after a number of steps bounded by the size of the picture. *)
Theorem C27_runs_end : forall c n s, 0 < c_w c -> 0 < c_h c -> steps c n init s ->
  Z.of_nat n <= (2 * c_h c + 2) * (2 * (c_w c * c_h c)) + c_h c * (5 * (2 * c_h c + 2) + (c_w c + 1) * 8).
Proof. intros c n s W H. exact (run_bound c W H n s). Qed.
Print Assumptions C27_runs_end.

(** One reconstruction thread, no bad slice header: if publishing a parsed LCU took the mutex, a run could
    only end with all rows reconstructed. *)
Theorem C27_progress : forall c n s, 0 < c_w c -> c_many c = false -> c_err c = false -> c_lock c = true -> complete_run c n s ->
  forall y, 0 <= y < c_h c -> s_pc s y = Fin /\ s_rec s y = c_w c.
Proof.
  intros c n s W M E L [R K] y Hy. assert (R' : reachable c s) by (exists n; exact R).
  pose proof (stuck_finished c s W M E L R' K y Hy) as F. split; [exact F|].
  pose proof (i_place c s (inv_reach c s W R') y Hy) as Q. rewrite F in Q. apply Q.
Qed.
Print Assumptions C27_progress.
(** As the code is, the only other end is the thread asleep for an LCU that has been parsed, after the
    parser's last broadcast. *)
Theorem C27_progress_partial : forall c s, 0 < c_w c -> c_many c = false -> c_err c = false -> reachable c s -> stuck c s ->
  all_finished c s \/
  (parser_ended c s /\ exists y x, 0 <= y < c_h c /\ s_pc s y = SlpP x /\ y * c_w c + x <= s_parsed s /\ forall y', 0 <= y' < y -> s_pc s y' = Fin).
Proof. exact stuck_shape. Qed.
Print Assumptions C27_progress_partial.
Theorem C27_lost_wakeup_refuted : exists s, reachable (Cfg 1 1 false false false) s /\ stuck (Cfg 1 1 false false false) s /\ ~ all_finished (Cfg 1 1 false false false) s.
Proof. exact lost_wakeup. Qed.
Print Assumptions C27_lost_wakeup_refuted.
(** A slice header that cannot be read leaves the thread waiting for LCUs nobody parses. *)
Theorem C27_bad_header_refuted : exists s, reachable (Cfg 1 1 false true true) s /\ stuck (Cfg 1 1 false true true) s /\ ~ all_finished (Cfg 1 1 false true true) s.
Proof. exact parser_gives_up. Qed.
Print Assumptions C27_bad_header_refuted.
(** One thread per row: counting an LCU wakes nobody. *)
Theorem C27_row_workers_refuted : exists s, reachable (Cfg 1 2 true true false) s /\ stuck (Cfg 1 2 true true false) s /\ ~ all_finished (Cfg 1 2 true true false) s.
Proof. exact rows_deadlock. Qed.
Print Assumptions C27_row_workers_refuted.
(** One thread per row: LCU 2 of the first row, whose samples are cached for LCU 1 at the end of LCU 0 below,
    need not be reconstructed then. *)
Theorem C27_cache_ahead_refuted : exists s, reachable (Cfg 3 2 true true false) s /\ s_pc s 1 = Work 0 /\ ~ rebuilt s 2 0.
Proof. destruct cache_early as (s & R & P & Q). exists s. split; [exact R|]. split; [exact P|]. unfold rebuilt. lia. Qed.
Print Assumptions C27_cache_ahead_refuted.

(** The default build, one thread for all: with readable slice headers every LCU is reconstructed once, in
    raster order, all rows are signalled and the picture is delivered. *)
Theorem C27_default_build : forall w h bad refd, 0 < w -> 0 < h -> (forall y, 0 <= y < h -> good w bad y) ->
  exists s, decode_rows w h bad refd = Done s /\ length (q_log s) = Z.to_nat (w * h) /\
    (forall k, (k < Z.to_nat (w * h))%nat -> nth_error (rev (q_log s)) k = Some (raster_at w k)) /\ q_out s = true /\
    (refd = true -> q_line s = h /\ forall y, 0 <= y < h -> q_cnt s y = w + 3).
Proof. exact decode_all. Qed.
Print Assumptions C27_default_build.
Example C27_default_case : exists s, decode_rows 2 2 (fun y => if y =? 1 then Some 2 else None) true = Done s /\ rev (q_log s) = [(0, 0); (1, 0); (0, 1); (1, 1)].
Proof. eexists. split; reflexivity. Qed.
(** The exact condition under which it waits for itself for ever: a reference picture with a row
    that meets a bad slice header followed by one that does not. *)
Theorem C27_self_deadlock_iff : forall w h bad, 0 < w -> 0 < h ->
  (decode_rows w h bad true = Hang <-> exists y, 0 < y < h /\ ~ good w bad (y - 1) /\ good w bad y).
Proof. exact decode_hangs. Qed.
Print Assumptions C27_self_deadlock_iff.
Theorem C27_default_build_refuted : exists w h bad, 0 < w /\ 0 < h /\ decode_rows w h bad true = Hang.
Proof. exists 1, 2, (fun y => if y =? 0 then Some 0 else None). split; [lia|]. split; [lia|reflexivity]. Qed.
Print Assumptions C27_default_build_refuted.
Theorem C27_not_reference : forall w h bad, exists s, decode_rows w h bad false = Done s.
Proof. exact not_refd_never_hangs. Qed.
Print Assumptions C27_not_reference.
(** The picture is delivered, and its task freed, only if the last row is complete. *)
Theorem C27_delivered_iff : forall w h bad refd s, 0 < w -> 0 < h -> decode_rows w h bad refd = Done s -> (q_out s = true <-> good w bad (h - 1)).
Proof. exact decode_out. Qed.
Print Assumptions C27_delivered_iff.
