(** Model of the output side of the decoder: the reorder list of
    source/common/decoder.cc / davs2.cc and the receive / flush calls of davs2.cc.
    Worker threads and the caller interleave; every step below is one critical section
    (mutex_mgr) or one purely local step of the calling thread.
    Simplifications: frame buffers are reduced to (input index, POC), sample data is
    modelled in FrameModel.v, reference counts in DpbModel.v; a single thread calls the
    API (as the API requires); memory allocation does not fail. *)
From Coq Require Import ZArith List Bool.
Import ListNotations.
Open Scope Z_scope.

(** A picture travelling through the output list: input index and display index
    ([davs2_frame_t.i_poc], common.h). *)
Record pic := Pic { p_id : Z; p_poc : Z }.

(** The part of [davs2_seq_info_t] (davs2.h) that matters here: size and everything
    else. *)
Record head := Head { h_w : Z; h_h : Z; h_rest : Z }.

(** The fields of [davs2_mgr_t] (common.h:900-960) used by the output side. *)
Record mgr := Mgr {
  m_q : list pic;        (* outpics.pics *)
  m_next : Z;            (* outpics.output *)
  m_npic : Z;            (* outpics.num_output_pic *)
  m_in : Z;              (* num_frames_in *)
  m_out : Z;             (* num_frames_out *)
  m_to_out : Z;          (* num_frames_to_output *)
  m_sps : bool;          (* new_sps *)
  m_head : head;         (* seq_info.head *)
  m_flush : bool;        (* b_flushing *)
  m_ndec : Z;            (* num_decoders *)
  m_naec : Z             (* num_aec_thread *)
}.

(** davs2.cc:487-513, [davs2_decoder_open] with [t] threads (CTRL_AEC_THREAD = 0). *)
Definition mgr_init (t : Z) : mgr :=
  Mgr [] (-1) 0 0 0 0 false (Head 0 0 0) false (t + 1) t.

Definition with_q (m : mgr) q nx np : mgr :=
  Mgr q nx np (m_in m) (m_out m) (m_to_out m) (m_sps m) (m_head m) (m_flush m) (m_ndec m) (m_naec m).
Definition with_in (m : mgr) i t : mgr :=
  Mgr (m_q m) (m_next m) (m_npic m) i (m_out m) t (m_sps m) (m_head m) (m_flush m) (m_ndec m) (m_naec m).
Definition with_out (m : mgr) o t : mgr :=
  Mgr (m_q m) (m_next m) (m_npic m) (m_in m) o t (m_sps m) (m_head m) (m_flush m) (m_ndec m) (m_naec m).
Definition with_sps (m : mgr) s h : mgr :=
  Mgr (m_q m) (m_next m) (m_npic m) (m_in m) (m_out m) (m_to_out m) s h (m_flush m) (m_ndec m) (m_naec m).
Definition with_flush (m : mgr) : mgr :=
  Mgr (m_q m) (m_next m) (m_npic m) (m_in m) (m_out m) (m_to_out m) (m_sps m) (m_head m) true (m_ndec m) (m_naec m).

(** decoder.cc:277-312, [task_send_picture_to_output_list]: walk past all smaller
    POCs, link in front of the first one that is not smaller. *)
Fixpoint insert_pic (p : pic) (l : list pic) : list pic :=
  match l with
  | [] => [p]
  | c :: t => if p_poc c <? p_poc p then c :: insert_pic p t else p :: c :: t
  end.
Definition send_picture (m : mgr) (p : pic) : mgr :=
  with_q m (insert_pic p (m_q m)) (m_next m) (m_npic m + 1).

(** davs2.cc:251-298, one iteration of the loop of
    [output_list_get_one_output_picture] (executed under mutex_mgr). *)
Inductive iter_res := IDeliver (p : pic) | IAgain | ISleep | INone.
Definition out_iter (m : mgr) : mgr * iter_res :=
  match m_q m with
  | [] => (m, INone)
  | f :: rest =>
      if p_poc f =? m_next m then
        (with_q m rest (m_next m + 1) (m_npic m - 1), IDeliver f)
      else if m_next m <? p_poc f then
        if m_flush m && (m_in m =? m_out m + m_npic m) then
          (with_q m (m_q m) (m_next m + 1) (m_npic m), IAgain)
        else if Z.of_nat (length (m_q m)) <? 8 then (m, ISleep)
        else (with_q m (m_q m) (p_poc f) (m_npic m), IAgain)
      else (with_q m (m_q m) (p_poc f) (m_npic m), IAgain)
  end.

(** Return values of [davs2_decoder_recv_frame] / [davs2_decoder_flush]. *)
Inductive ret := GotFrame (p : pic) | GotHeader (h : head) | RDefault | REnd.

(** Where the calling thread is: outside the API, at the top of the loop of
    [decoder_get_output] (davs2.cc:315), or inside the call at davs2.cc:325. *)
Inductive pc := Idle | AtLoop (fl wait : bool) | AtInner (fl wait : bool).

(** System state: manager, calling thread, pictures being decoded by workers. *)
Record st := St { s_m : mgr; s_pc : pc; s_fly : list pic }.
Definition st_init (t : Z) : st := St (mgr_init t) Idle [].

(** Operations. [OSend poc]: davs2_decoder_send_packet whose unit starts a picture
    (davs2.cc:600-607, :673). [OHeader]: a sequence header was parsed in
    davs2_decoder_send_packet. [OFirst]: first intra picture header (header.cc:749-755).
    [OSkip]: davs2 gives up waiting for the next POC (header.cc:1441-1447).
    [ODone]: a worker finishes a picture (decoder.cc:518 / 722). [ODrop]: a worker finds
    no slice (decoder.cc:1170-1188): the task is freed, the picture is not output.
    [ORecv], [OFlush]: API calls (flush may first start the buffered picture,
    davs2.cc:742-746). [OStep]: the calling thread runs on. *)
Inductive op :=
| OSend (poc : Z) | OHeader (h : head) | OFirst (poc : Z) | OSkip
| ODone (p : pic) | ODrop (p : pic)
| ORecv | OFlush (o : option Z) | OStep.

(** Observable events. *)
Inductive ev :=
| EvStart (p : pic) | EvDone (p : pic) | EvDrop (p : pic) | EvHead (h : head) | EvRet (r : ret).

Fixpoint remove_pic (p : pic) (l : list pic) : list pic :=
  match l with
  | [] => []
  | c :: t => if p_id c =? p_id p then t else c :: remove_pic p t
  end.
Definition flying (p : pic) (l : list pic) : bool :=
  existsb (fun c => (p_id c =? p_id p) && (p_poc c =? p_poc p)) l.

(** davs2.cc:598-607: the picture becomes the [num_frames_in]-th input. *)
Definition start_pic (s : st) (poc : Z) (dt : Z) : st * pic :=
  let m := s_m s in
  let p := Pic (m_in m) poc in
  (St (with_in m (m_in m + 1) (m_to_out m + dt)) (s_pc s) (p :: s_fly s), p).

(** davs2.cc:313. *)
Definition wait_new (m : mgr) : bool :=
  8 + m_naec m <? m_in m + m_ndec m - m_out m.

(** davs2.cc:316-321 / 333-338: report the pending header. *)
Definition give_header (s : st) : st * list ev :=
  let m := s_m s in
  (St (with_sps m false (m_head m)) Idle (s_fly s), [EvRet (GotHeader (m_head m))]).

(** One step of the calling thread inside decoder_get_output; the flag [fl] also
    selects what the API function does with the result (davs2.cc:707-711, 756-760). *)
Definition caller_step (s : st) : option (st * list ev) :=
  let m := s_m s in
  match s_pc s with
  | Idle => None
  | AtLoop fl w =>
      if (m_out m <? m_in m) && (w || fl) then
        if m_sps m then Some (give_header s)
        else Some (St m (AtInner fl w) (s_fly s), [])
      else if m_sps m then Some (give_header s)
      else Some (St m Idle (s_fly s), [EvRet (if fl then REnd else RDefault)])
  | AtInner fl w =>
      let '(m1, r) := out_iter m in
      match r with
      | IDeliver p =>
          Some (St (with_out m1 (m_out m1 + 1) (if fl then m_to_out m1 else m_to_out m1 - 1))
                   Idle (s_fly s), [EvRet (GotFrame p)])
      | IAgain | ISleep => Some (St m1 (AtInner fl w) (s_fly s), [])
      | INone => Some (St m1 (AtLoop fl w) (s_fly s), [])
      end
  end.

(** [None]: the operation is not enabled in this state. *)
Definition step (s : st) (o : op) : option (st * list ev) :=
  let m := s_m s in
  match o, s_pc s with
  | OStep, _ => caller_step s
  | ODone p, _ =>
      if flying p (s_fly s)
      then Some (St (send_picture m p) (s_pc s) (remove_pic p (s_fly s)), [EvDone p]) else None
  | ODrop p, _ =>
      if flying p (s_fly s)
      then Some (St m (s_pc s) (remove_pic p (s_fly s)), [EvDrop p]) else None
  | OSend poc, Idle => let '(s1, p) := start_pic s poc 1 in Some (s1, [EvStart p])
  | OHeader h, Idle =>
      (* header.cc:1087-1116 *)
      let newres := negb ((h_h (m_head m) =? h_h h) && (h_w (m_head m) =? h_w h)) in
      Some (St (with_sps m (newres || m_sps m) h) Idle (s_fly s), [EvHead h])
  | OFirst poc, Idle =>
      if m_next m =? -1 then Some (St (with_q m (m_q m) poc (m_npic m)) Idle (s_fly s), []) else None
  | OSkip, Idle =>
      match m_q m with
      | f :: _ => if m_next m <? p_poc f
                  then Some (St (with_q m (m_q m) (p_poc f) (m_npic m)) Idle (s_fly s), []) else None
      | [] => None
      end
  | ORecv, Idle =>
      if negb (m_to_out m =? 0) || m_sps m
      then Some (St m (AtLoop false (wait_new m)) (s_fly s), [])
      else Some (s, [EvRet RDefault])
  | OFlush o, Idle =>
      let s0 := St (with_flush m) Idle (s_fly s) in
      let '(s1, e) := match o with
                      | Some poc => let '(s1, p) := start_pic s0 poc 0 in (s1, [EvStart p])
                      | None => (s0, [])
                      end in
      Some (St (s_m s1) (AtLoop true (wait_new (s_m s1))) (s_fly s1), e)
  | _, _ => None
  end.

Fixpoint run (s : st) (ops : list op) : option (st * list ev) :=
  match ops with
  | [] => Some (s, [])
  | o :: t =>
      match step s o with
      | None => None
      | Some (s1, e) => match run s1 t with
                        | None => None
                        | Some (s2, e2) => Some (s2, e ++ e2)
                        end
      end
  end.
