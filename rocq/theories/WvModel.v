(** Parsing and reconstruction of a picture by cooperating threads. Definitions only. *)
From Coq Require Import ZArith List Bool.
From Verif Require Import CBase.
Import ListNotations.
Open Scope Z_scope.

Definition fupd {A : Type} (f : Z -> A) (k : Z) (v : A) : Z -> A := fun i => if i =? k then v else f i.

(** Where the worker of an LCU row is (decoder.cc:595-720, and the functions it calls):
    [ChkP] tests [lcu_xy > i_parsed_lcu_xy] (wait_lcu_row_parsed, 228-240), [WillP] is the moment
    between that test and the sleep in [cond_wait], [SlpP] the sleep; [ChkA], [WillA], [SlpA] the
    same for the row above (wait_lcu_row_reconed, 244-257, called at 612); [Work] reconstructs,
    caches, stores and deblocks; [Cnt] is [num_decoded_lcu_in_row[i_lcu_y]++] (664); [Sig] is
    [decoder_signal] for the row above (686), [SlpS] the sleep in it; [SigLast], [SlpL] the same
    for the last row (706).  The unlocked test before the locked one is the same test. *)
Inductive pc := Idle | ChkP (x : Z) | WillP (x : Z) | SlpP (x : Z) | ChkA (x : Z) | WillA (x : Z) | SlpA (x : Z)
  | Work (x : Z) | Cnt (x : Z) | Sig | SlpS | SigLast | SlpL | Fin.

(** [c_w], [c_h]: size in LCUs.  The code has [c_many] false: [b_next_row_launched] is never set,
    so one thread takes the rows one after the other (700-703); true: a worker per row.
    [c_lock]: whether publishing a parsed LCU excludes the moment between test and sleep; the
    code has false ([i_parsed_lcu_xy] is written without the mutex, 581-582).  [c_err]: whether
    the parser may meet a bad slice header and give up the rest of a row (548-550). *)
Record cfg := Cfg { c_w : Z; c_h : Z; c_many : bool; c_lock : bool; c_err : bool }.
(** [s_parsed]: [i_parsed_lcu_xy]; [s_next]: LCU the parser is at; [s_pub]: it has been published
    but not yet broadcast; [s_cnt]: [num_decoded_lcu_in_row]; [s_rec]: LCUs really reconstructed
    per row (not in the program). *)
Record st := St { s_parsed : Z; s_next : Z; s_pub : bool; s_cnt : Z -> Z; s_pc : Z -> pc; s_rec : Z -> Z }.
(** The start: decoder.cc:1127 (counts), decoder.cc:75 ([i_parsed_lcu_xy = -1]). *)
Definition init : st := St (-1) 0 false (fun _ => 0) (fun _ => Idle) (fun _ => 0).

(** [davs2_thread_cond_broadcast] on [cond_aec] and on [conds_lcu_row[j]]. *)
Definition wake_parsed (p : Z -> pc) : Z -> pc := fun y => match p y with SlpP x => ChkP x | q => q end.
Definition wake_row (j : Z) (p : Z -> pc) : Z -> pc := fun y =>
  match p y with
  | SlpA x => if y - 1 =? j then ChkA x else SlpA x
  | SlpS => if y - 2 =? j then Sig else SlpS
  | SlpL => if y - 1 =? j then SigLast else SlpL
  | q => q
  end.
Definition will_sleep (q : pc) : bool := match q with WillP _ => true | _ => false end.

(** After the last LCU of row [y] (decoder.cc:668-706). *)
Definition after_row (h y : Z) : pc := if 0 <? y then Sig else if y =? h - 1 then SigLast else Fin.

(** One step of one thread.  [decoder_signal] (261-273) tests and sleeps under the mutex that
    its own update takes, so test and sleep are one step; update and broadcast are one step. *)
Inductive step (c : cfg) : st -> st -> Prop :=
| s_start s y : 0 <= y < c_h c -> s_pc s y = Idle -> (c_many c = true \/ y = 0 \/ s_pc s (y - 1) = Fin) ->
    step c s (St (s_parsed s) (s_next s) (s_pub s) (s_cnt s) (fupd (s_pc s) y (ChkP 0)) (s_rec s))
| s_chkp s y x : 0 <= y < c_h c -> s_pc s y = ChkP x ->
    step c s (St (s_parsed s) (s_next s) (s_pub s) (s_cnt s)
      (fupd (s_pc s) y (if s_parsed s <? y * c_w c + x then WillP x else if 0 <? y then ChkA x else Work x)) (s_rec s))
| s_willp s y x : 0 <= y < c_h c -> s_pc s y = WillP x ->
    step c s (St (s_parsed s) (s_next s) (s_pub s) (s_cnt s) (fupd (s_pc s) y (SlpP x)) (s_rec s))
| s_chka s y x : 0 <= y < c_h c -> s_pc s y = ChkA x ->
    step c s (St (s_parsed s) (s_next s) (s_pub s) (s_cnt s)
      (fupd (s_pc s) y (if s_cnt s (y - 1) <? Z.min (x + 2) (c_w c) then WillA x else Work x)) (s_rec s))
| s_willa s y x : 0 <= y < c_h c -> s_pc s y = WillA x ->
    step c s (St (s_parsed s) (s_next s) (s_pub s) (s_cnt s) (fupd (s_pc s) y (SlpA x)) (s_rec s))
| s_work s y x : 0 <= y < c_h c -> s_pc s y = Work x ->
    step c s (St (s_parsed s) (s_next s) (s_pub s) (s_cnt s) (fupd (s_pc s) y (Cnt x)) (fupd (s_rec s) y (x + 1)))
| s_count s y x : 0 <= y < c_h c -> s_pc s y = Cnt x ->
    step c s (St (s_parsed s) (s_next s) (s_pub s) (fupd (s_cnt s) y (s_cnt s y + 1))
      (fupd (s_pc s) y (if x + 1 <? c_w c then ChkP (x + 1) else after_row (c_h c) y)) (s_rec s))
| s_sig s y : 0 <= y < c_h c -> s_pc s y = Sig -> (y = 1 \/ c_w c + 1 <= s_cnt s (y - 2)) ->
    step c s (St (s_parsed s) (s_next s) (s_pub s) (fupd (s_cnt s) (y - 1) (c_w c + 3))
      (fupd (wake_row (y - 1) (s_pc s)) y (if y =? c_h c - 1 then SigLast else Fin)) (s_rec s))
| s_sigsleep s y : 0 <= y < c_h c -> s_pc s y = Sig -> y <> 1 -> s_cnt s (y - 2) < c_w c + 1 ->
    step c s (St (s_parsed s) (s_next s) (s_pub s) (s_cnt s) (fupd (s_pc s) y SlpS) (s_rec s))
| s_last s y : 0 <= y < c_h c -> s_pc s y = SigLast -> (y = 0 \/ c_w c + 1 <= s_cnt s (y - 1)) ->
    step c s (St (s_parsed s) (s_next s) (s_pub s) (fupd (s_cnt s) y (c_w c + 3)) (fupd (wake_row y (s_pc s)) y Fin) (s_rec s))
| s_lastsleep s y : 0 <= y < c_h c -> s_pc s y = SigLast -> y <> 0 -> s_cnt s (y - 1) < c_w c + 1 ->
    step c s (St (s_parsed s) (s_next s) (s_pub s) (s_cnt s) (fupd (s_pc s) y SlpL) (s_rec s))
(** The parser, decoder.cc:538-588: publish, then broadcast; or give up the row. *)
| s_publish s : s_pub s = false -> s_next s < c_w c * c_h c ->
    (c_lock c = true -> forall y, 0 <= y < c_h c -> will_sleep (s_pc s y) = false) ->
    step c s (St (s_next s) (s_next s) true (s_cnt s) (s_pc s) (s_rec s))
| s_broadcast s : s_pub s = true ->
    step c s (St (s_parsed s) (s_next s + 1) false (s_cnt s) (wake_parsed (s_pc s)) (s_rec s))
| s_giveup s : c_err c = true -> s_pub s = false -> s_next s < c_w c * c_h c ->
    step c s (St (s_parsed s) ((s_next s / c_w c + 1) * c_w c) false (s_cnt s) (s_pc s) (s_rec s)).

Inductive steps (c : cfg) : nat -> st -> st -> Prop :=
| steps_nil s : steps c 0 s s
| steps_snoc n s t u : steps c n s t -> step c t u -> steps c (S n) s u.
Definition reachable (c : cfg) (s : st) : Prop := exists n, steps c n init s.
Definition stuck (c : cfg) (s : st) : Prop := forall t, ~ step c s t.
Definition parser_ended (c : cfg) (s : st) : Prop := s_pub s = false /\ c_w c * c_h c <= s_next s.
Definition all_finished (c : cfg) (s : st) : Prop := forall y, 0 <= y < c_h c -> s_pc s y = Fin.

(** The default build decodes a picture in one thread (decoder.cc:1160-1173): the rows one after the
    other, [decode_one_lcu_row] (397-530).  [bad y]: the column at which row [y] meets a bad slice
    header (returns at 411), if any; [refd]: [refered_by_others].  The log holds the
    reconstructed LCUs, newest first; waiting for a count nobody else will raise is [Hang]. *)
Record seq := Seq { q_cnt : Z -> Z; q_line : Z; q_log : list (Z * Z); q_out : bool }.
Definition signal (w y : Z) (s : seq) : outcome seq :=
  if (0 <? y) && (q_cnt s (y - 1) <? w + 1) then Hang
  else Done (Seq (fupd (q_cnt s) y (w + 3)) (q_line s + 1) (q_log s) (q_out s)).
Definition one_row (w h : Z) (bad : Z -> option Z) (refd : bool) (y : Z) (s : seq) : outcome seq :=
  let n := match bad y with Some x => Z.min x w | None => w end in
  let s := Seq (q_cnt s) (q_line s) (rev (map (fun i => (Z.of_nat i, y)) (List.seq 0 (Z.to_nat n))) ++ q_log s) (q_out s) in
  if n <? w then Done s
  else bindo (if refd then signal w y s else Done s) (fun s => Done (Seq (q_cnt s) (q_line s) (q_log s) (q_out s || (y =? h - 1)))).
Fixpoint rows_from (w h : Z) (bad : Z -> option Z) (refd : bool) (n : nat) (y : Z) (s : seq) : outcome seq :=
  match n with O => Done s | S k => bindo (one_row w h bad refd y s) (rows_from w h bad refd k (y + 1)) end.
Definition seq_init : seq := Seq (fun _ => 0) 0 [] false.
Definition decode_rows (w h : Z) (bad : Z -> option Z) (refd : bool) : outcome seq := rows_from w h bad refd (Z.to_nat h) 0 seq_init.
