(** Memory blocks owned by a decoder handle outside the picture buffer: buffers of stream data
    (es_unit_t) and output pictures (davs2_outpic_t), from davs2_decoder_open to
    davs2_decoder_close. Blocks are numbered in the order of their allocation. *)
From Coq Require Import ZArith List Bool.

Import ListNotations.
Open Scope Z_scope.

(** What happens to a block, in the order of the critical sections that do it. *)
Inductive ev :=
| AllocU (i : Z)              (* es_unit_alloc *)
| AllocP (i w h : Z)          (* alloc_picture *)
| Free (i : Z)                (* davs2_free *)
| Put (i : Z)                 (* stream data are copied into the unit *)
| Start (i : Z)               (* the unit is given to a decoding task *)
| Finish (i : Z)              (* task_unload_packet *)
| Show (i w h : Z)            (* the picture is queued for output, for a w x h frame *)
| Lend (i : Z)                (* delivered to the caller *)
| Back (i : Z).               (* davs2_decoder_frame_unref *)

(** A picture and the dimensions it was allocated with. *)
Definition pict := (Z * (Z * Z))%type.

(** common.h:905-960 [davs2_mgr_t]: [idle] is packets_idle, [cur] is es_unit, [jobs] are the
    [curr_es_unit] of the tasks that are queued or running, [bin] is pic_recycle, [outq] is
    outpics.pics, [lent] are the pictures held by the caller. [nxt] counts allocations;
    [alive] is false once the handle has been freed. *)
Record st := {
  idle : list Z; cur : option Z; jobs : list Z;
  bin : list pict; outq : list pict; lent : list pict;
  nxt : nat; alive : bool }.

Definition fresh (s : st) : Z := Z.of_nat (nxt s).

Definition units (n : nat) : list Z := map Z.of_nat (seq 0 n).

(** davs2.cc:191-212 [create_all_lists] with every allocation successful;
    [n] is MAX_ES_FRAME_NUM + threads. *)
Definition opened (n : nat) : st * list ev :=
  ({| idle := units n; cur := None; jobs := []; bin := []; outq := []; lent := [];
      nxt := n; alive := true |}, map AllocU (units n)).

(** One critical section of the API thread, of a task or of the caller. *)
Inductive op :=
| OFetch                      (* davs2_pack_es_unit takes its first buffer *)
| OGrow                       (* ... enlarges it *)
| OCut                        (* ... hands it over and takes another one *)
| OFill                       (* ... copies the packet *)
| OFlush                      (* davs2_decoder_flush hands over the last unit *)
| ODone (k : nat)             (* the task of the k-th job is done *)
| OShow (w h : Z)             (* a task queues its picture for output *)
| OLend (k : nat)             (* decoder_get_output *)
| OBack (k : nat)             (* davs2_decoder_frame_unref of the k-th picture held *)
| OClose.

(** Removal of the k-th element of a list. *)
Fixpoint take {A} (k : nat) (l : list A) : option (A * list A) :=
  match l, k with
  | [], _ => None
  | x :: t, O => Some (x, t)
  | x :: t, S k' => match take k' t with Some (y, r) => Some (y, x :: r) | None => None end
  end.

(** decoder.cc:199-222 [get_one_free_picture]: pictures of other dimensions are released until
    one fits; the events are the releases. *)
Fixpoint reuse (w h : Z) (l : list pict) : list ev * option Z * list pict :=
  match l with
  | [] => ([], None, [])
  | (i, (w', h')) :: t =>
      if (w' =? w) && (h' =? h) then ([], Some i, t)
      else match reuse w h t with (e, r, l') => (Free i :: e, r, l') end
  end.

Definition close_cur (c : option Z) : list ev := match c with Some u => [Free u] | None => [] end.

Definition mk s i c j b o l n := {| idle := i; cur := c; jobs := j; bin := b; outq := o; lent := l; nxt := n; alive := alive s |}.

(** A step that is not possible (an empty list to wait on, no buffer yet) leaves the state as
    it is. Allocations during decoding succeed; the frames of the picture buffer, the frames of
    the tasks and the handle itself are not part of this model. *)
Definition step (o : op) (s : st) : st * list ev :=
  if negb (alive s) then (s, [])
  else match o with
  (* davs2.cc:108-110 *)
  | OFetch =>
      match cur s, idle s with
      | None, u :: t => (mk s t (Some u) (jobs s) (bin s) (outq s) (lent s) (nxt s), [])
      | _, _ => (s, [])
      end
  (* davs2.cc:115-130 *)
  | OGrow =>
      match cur s with
      | Some u => (mk s (idle s) (Some (fresh s)) (jobs s) (bin s) (outq s) (lent s) (S (nxt s)),
                   [AllocU (fresh s); Free u])
      | None => (s, [])
      end
  (* davs2.cc:133-138, 676 and 583-597 *)
  | OCut =>
      match cur s, idle s with
      | Some u, v :: t => (mk s t (Some v) (jobs s ++ [u]) (bin s) (outq s) (lent s) (nxt s), [Start u])
      | _, _ => (s, [])
      end
  (* davs2.cc:139-142 *)
  | OFill => match cur s with Some u => (s, [Put u]) | None => (s, []) end
  (* davs2.cc:744-748 *)
  | OFlush =>
      match cur s with
      | Some u => (mk s (idle s) None (jobs s ++ [u]) (bin s) (outq s) (lent s) (nxt s), [Start u])
      | None => (s, [])
      end
  (* davs2.cc:415-428, called at davs2.cc:613, 618 and decoder.cc:524, 727, 1187 *)
  | ODone k =>
      match take k (jobs s) with
      | Some (u, r) => (mk s (idle s ++ [u]) (cur s) r (bin s) (outq s) (lent s) (nxt s), [Finish u])
      | None => (s, [])
      end
  (* decoder.cc:262-310 [task_output_decoding_frame]; the position in the queue is left out *)
  | OShow w h =>
      match reuse w h (bin s) with
      | (e, Some i, b) => (mk s (idle s) (cur s) (jobs s) b (outq s ++ [(i, (w, h))]) (lent s) (nxt s), e ++ [Show i w h])
      | (e, None, b) => (mk s (idle s) (cur s) (jobs s) b (outq s ++ [(fresh s, (w, h))]) (lent s) (S (nxt s)),
                         e ++ [AllocP (fresh s) w h; Show (fresh s) w h])
      end
  (* davs2.cc:244-305 and 343-357; which picture is next is left out *)
  | OLend k =>
      match take k (outq s) with
      | Some (p, r) => (mk s (idle s) (cur s) (jobs s) (bin s) r (lent s ++ [p]) (nxt s), [Lend (fst p)])
      | None => (s, [])
      end
  (* davs2.cc:369-390 and 222-228 *)
  | OBack k =>
      match take k (lent s) with
      | Some (p, r) => (mk s (idle s) (cur s) (jobs s) (bin s ++ [p]) (outq s) r (nxt s), [Back (fst p)])
      | None => (s, [])
      end
  (* davs2.cc:776-815 [davs2_decoder_close] and 156-187 [destroy_all_lists]. The threads have
     been joined: jobs of running tasks were finished before, queued ones stay as they are. *)
  | OClose =>
      ({| idle := []; cur := None; jobs := jobs s; bin := []; outq := outq s; lent := lent s;
          nxt := nxt s; alive := false |},
       map Free (idle s) ++ map (fun p => Free (fst p)) (bin s) ++ close_cur (cur s))
  end.

Fixpoint run (ops : list op) (s : st) : st * list ev :=
  match ops with
  | [] => (s, [])
  | o :: t => let (s1, e1) := step o s in let (s2, e2) := run t s1 in (s2, e1 ++ e2)
  end.

(** A session: open, then any steps. *)
Definition session (n : nat) (ops : list op) : st * list ev :=
  let (s, e) := opened n in let (s', e') := run ops s in (s', e ++ e').
