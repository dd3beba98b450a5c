(** The decoded-picture buffer: choice of references and of the target buffer
    (header.cc [task_get_references]), release of frames by the decoding tasks and by the
    output side, removal and replacement of the buffer. Every critical section of a frame
    mutex is one step and the steps of all threads interleave freely.
    Simplifications: the unlocked reads [IS_VALID_FRAME] / [i_coi] happen in the same step
    as the critical section that follows them; [init_fdec] is part of the step that takes
    the buffer (no other thread touches a buffer in between); sample data, motion data and
    time stamps are not part of this model; buffers are named by numbers that are never
    used twice, so an access to a buffer whose memory was freed can be told apart. *)
From Coq Require Import ZArith List Bool.
From Verif Require Import CBase.
Import ListNotations.
Open Scope Z_scope.

Definition INVALID_FRAME : Z := -1.        (* defines.h *)
Definition MAX_POC_DISTANCE : Z := 128.    (* defines.h *)

(** common.h:695-735 [davs2_frame_t]: the fields used here. *)
Record frame := Frame { f_rc : Z; f_poc : Z; f_coi : Z; f_disp : Z; f_refd : bool }.
(** frame.cc:329-330 and header.cc:1126-1132. *)
Definition fresh : frame := Frame 0 INVALID_FRAME INVALID_FRAME 0 false.
Definition is_valid (f : frame) : bool := negb (f_coi f =? INVALID_FRAME) && negb (f_poc f =? INVALID_FRAME).
(** header.cc:1126-1132 [clean_one_frame]. *)
Definition clean (f : frame) : frame := Frame (f_rc f) INVALID_FRAME INVALID_FRAME 0 false.
Definition add_rc (f : frame) (d : Z) : frame := Frame (f_rc f + d) (f_poc f) (f_coi f) (f_disp f) (f_refd f).
Definition set_disp (f : frame) (d : Z) : frame := Frame (f_rc f) (f_poc f) (f_coi f) d (f_refd f).

(** The picture that asks for buffers: decoder number (its [davs2_t]), background picture
    without output (AVS2_GB_SLICE), B picture, order numbers, and the reference set. *)
Record req := Req { r_h : nat; r_gb : bool; r_b : bool; r_coi : Z; r_poc : Z;
                    r_ref : list Z; r_refd : bool; r_rem : list Z }.

(** Progress of the one thread that runs [task_get_references] (the API thread).
    [j] counts buffers, [got] are the references taken so far. *)
Inductive pc :=
| POut
| PRem (r : req) (l : list Z) (j : Z)                       (* header.cc:1262-1287 *)
| PRef (r : req) (l : list Z) (j : Z) (got : list Z)        (* header.cc:1293-1330 *)
| POld (r : req) (got : list Z) (j : Z)                     (* header.cc:1343-1370 *)
| PFind (r : req) (got : list Z) (j : Z)                    (* header.cc:1373-1398 *)
| PWait (r : req) (got : list Z)                            (* header.cc:1406-1459 *)
| PForce (r : req) (got : list Z) (j : Z) (best : option Z) (* header.cc:1410-1438 *)
| PFail (got : list Z).                                     (* header.cc:1478-1485 *)

(** A decoding task: references still held, target buffer, and whether the picture has
    been put into the output list. *)
Record task := Task { t_refs : list Z; t_dec : Z; t_out : bool }.

(** [base], [n]: the buffers of [mgr->dpb] are [base .. base + n - 1]; the background
    buffer of decoder [h] is [-1 - h]. [olist]: pictures in the output list; [held]:
    delivered pictures. [lost]: buffers whose reference was dropped without a release
    (ghost, never read). *)
Record st := St {
  fr : Z -> frame; base : Z; n : Z;
  remq : list Z;                   (* coi_remove_frame *)
  at_ : pc; tasks : list task; olist : list Z; held : list Z;
  expect : Z; busy : bool;         (* outpics.output, outpics.busy *)
  lost : list Z
}.
Definition st_init (n : Z) : st := St (fun _ => fresh) 0 n [] POut [] [] [] (-1) false [].

Definition put (fr : Z -> frame) (f : Z) (v : frame) : Z -> frame := fun g => if g =? f then v else fr g.
Definition with_fr (s : st) (g : Z -> frame) : st :=
  St g (base s) (n s) (remq s) (at_ s) (tasks s) (olist s) (held s) (expect s) (busy s) (lost s).
Definition goto (s : st) (p : pc) : st :=
  St (fr s) (base s) (n s) (remq s) p (tasks s) (olist s) (held s) (expect s) (busy s) (lost s).
Definition with_tasks (s : st) (t : list task) : st :=
  St (fr s) (base s) (n s) (remq s) (at_ s) t (olist s) (held s) (expect s) (busy s) (lost s).
Definition with_out (s : st) (o h : list Z) (b : bool) : st :=
  St (fr s) (base s) (n s) (remq s) (at_ s) (tasks s) o h (expect s) b (lost s).

(** Observable events. [EvStart r f refs forced]: picture [r] will be decoded into [f]
    with the references [refs]; [EvBackground f]: the same for a background picture.
    [EvRef]: a reference on a buffer is taken; [EvUnuse]: it is given back (by a task, or
    by the caller for a delivered picture). [EvAccept l]: the references of a picture were
    accepted and it asks for the removal of the pictures [l]. [EvForget f]: the picture in
    [f] is no longer a reference. [EvUndef]: undefined behaviour. *)
Inductive ev :=
| EvCall (r : req) | EvAccept (l : list Z) | EvForget (f : Z) | EvRef (f : Z)
| EvStart (r : req) (f : Z) (refs : list Z) (forced : bool) | EvBackground (f : Z)
| EvFail | EvUnuse (f : Z) | EvDrop (l : list Z) | EvReset | EvUndef.

(** header.cc:1136-1163 [release_one_frame] on buffer [f]; [None]: the memory was freed,
    or the count is already zero (the assertion; the count would wrap around). *)
Definition release (s : st) (f : Z) : option st :=
  if (0 <=? f) && (f <? base s) then None
  else if f_rc (fr s f) =? 0 then None
  else
    let v := add_rc (fr s f) (-1) in
    let v := if (f_rc v =? 0) && (f_disp v =? 1) then clean v else v in
    Some (with_fr s (put (fr s) f v)).

(** header.cc:1188-1238 [has_blocking]. *)
Definition has_blocking (s : st) : bool :=
  negb (existsb (fun f => f_poc (fr s f) <=? expect s) (olist s))
  && negb (existsb (fun t => f_poc (fr s (t_dec t)) =? expect s) (tasks s))
  && negb (busy s).

(** header.cc:1381-1387 / 1438 and 940-955: the buffer becomes the target. *)
Definition init_fdec (r : req) : frame :=
  Frame 2 (r_poc r) (r_coi r) (if r_refd r then 0 else 1) (r_refd r).
Definition start (s : st) (r : req) (got : list Z) (f : Z) (forced : bool) : st * list ev :=
  (goto (with_tasks (with_fr s (put (fr s) f (init_fdec r))) (tasks s ++ [Task got f false])) POut,
   [EvStart r f got forced]).

(** header.cc:1332-1338: the check for B pictures. *)
Definition b_ok (s : st) (r : req) (got : list Z) : bool :=
  if r_b r then
    match got with
    | [f0; f1] => (r_poc r <? f_poc (fr s f0)) && (f_poc (fr s f1) <? r_poc r)
    | _ => false
    end
  else true.

(** One critical section of [task_get_references], header.cc:1243-1486. *)
Definition get_step (s : st) : st * list ev :=
  match at_ s with
  | POut => (s, [])
  | PRem r [] j =>
      if r_gb r then
        let f := -1 - Z.of_nat (r_h r) in
        (goto (with_tasks s (tasks s ++ [Task [] f false])) POut, [EvBackground f])
      else (goto s (PRef r (r_ref r) 0 []), [])
  | PRem r (c :: l) j =>
      if n s <=? j then (goto s (PRem r l 0), [])
      else
        let f := base s + j in
        let v := fr s f in
        if is_valid v && (f_coi v =? c) then
          (goto (with_fr s (put (fr s) f (if f_rc v =? 0 then clean v else set_disp v 1))) (PRem r l 0), [EvForget f])
        else (goto s (PRem r (c :: l) (j + 1)), [])
  | PRef r [] j got =>
      if b_ok s r got then
        let l := map (fun d => r_coi r - d) (r_rem r) in
        (St (fr s) (base s) (n s) l (POld r got 0) (tasks s) (olist s) (held s) (expect s) (busy s) (lost s), [EvAccept l])
      else (goto s (PFail got), [])
  | PRef r (d :: l) j got =>
      if n s <=? j then (goto s (PFail got), [])
      else
        let f := base s + j in
        let v := fr s f in
        if is_valid v && (0 <=? f_coi v) && (r_coi r - d =? f_coi v) && (f_disp v =? 0) && f_refd v then
          (goto (with_fr s (put (fr s) f (add_rc v 1))) (PRef r l 0 (got ++ [f])), [EvRef f])
        else (goto s (PRef r (d :: l) (j + 1) got), [])
  | POld r got j =>
      if n s <=? j then (goto s (PFind r got 0), [])
      else
        let f := base s + j in
        let v := fr s f in
        if is_valid v && (MAX_POC_DISTANCE <=? Z.abs (f_poc v - r_poc r)) then
          if f_rc v =? 0 then (goto (with_fr s (put (fr s) f (clean v))) (POld r got (j + 1)), [EvForget f])
          else if f_disp v =? 0 then (goto (with_fr s (put (fr s) f (set_disp v 1))) (POld r got (j + 1)), [EvForget f])
          else (goto s (POld r got (j + 1)), [])
        else (goto s (POld r got (j + 1)), [])
  | PFind r got j =>
      if n s <=? j then (goto s (PWait r got), [])
      else
        let f := base s + j in
        let v := fr s f in
        if (f_rc v =? 0) && negb (f_refd v) then start s r got f false
        else (goto s (PFind r got (j + 1)), [])
  | PWait r got =>
      if has_blocking s then
        match olist s with
        | [] => (goto s (PForce r got 0 None), [])
        | g :: _ =>
            (St (fr s) (base s) (n s) (remq s) (PFind r got 0) (tasks s) (olist s) (held s)
                (f_poc (fr s g)) (busy s) (lost s), [])
        end
      else (goto s (PFind r got 0), [])
  | PForce r got j best =>
      if n s <=? j then
        match best with
        | None => (goto s (PFail got), [])
        | Some f => start s r got f true
        end
      else
        let f := base s + j in
        let v := fr s f in
        if (f_rc v =? 0) && (match best with None => true | Some b => f_poc v <? f_poc (fr s b) end) then
          let fr1 := match best with None => fr s | Some b => put (fr s) b (add_rc (fr s b) (-2)) end in
          (goto (with_fr s (put fr1 f (add_rc (fr1 f) 2))) (PForce r got (j + 1) (Some f)), [])
        else (goto s (PForce r got (j + 1) best), [])
  | PFail [] => (goto s POut, [EvFail])
  | PFail (f :: l) =>
      match release s f with
      | Some s1 => (goto s1 (PFail l), [EvUnuse f])
      | None => (s, [EvUndef])
      end
  end.

(** Operations. [Call]: header and references of a new picture (davs2.cc:600-620).
    [Step]: the API thread runs on. [Fin k]: task [k] puts its picture into the output
    list (decoder.cc:317-346). [Rel k]: it releases the next frame (header.cc:1167-1183).
    [Drop k]: no slice was found, the task ends (decoder.cc:1170-1188). [Deliver k]: the
    caller gets the picture. [Unref k]: the delivered picture is given back
    (davs2.cc:371-389), or was copied (davs2.cc:349-352). [Expect v b]: the output side
    changes [outpics.output] and [outpics.busy]. [Reset n']: new resolution,
    [destroy_dpb] and [create_dpb] (header.cc:872-935). *)
Inductive op :=
| Call (r : req) | Step | Fin (k : nat) | Rel (k : nat) | Drop (k : nat)
| Deliver (k : nat) | Unref (k : nat) | Expect (v : Z) (b : bool) | Reset (n' : Z).

Definition cut {A : Type} (k : nat) (l : list A) : list A := firstn k l ++ skipn (S k) l.
Definition swap {A : Type} (k : nat) (x : A) (l : list A) : list A := firstn k l ++ x :: skipn (S k) l.

(** An operation that is not possible in the state changes nothing. *)
Definition step (s : st) (o : op) : st * list ev :=
  match o with
  | Call r =>
      match at_ s with POut => (goto s (PRem r (remq s) 0), [EvCall r]) | _ => (s, []) end
  | Step => get_step s
  | Fin k =>
      match nth_error (tasks s) k with
      | Some t => if t_out t then (s, [])
                  else (with_out (with_tasks s (swap k (Task (t_refs t) (t_dec t) true) (tasks s)))
                                 (olist s ++ [t_dec t]) (held s) (busy s), [])
      | None => (s, [])
      end
  | Rel k =>
      match nth_error (tasks s) k with
      | Some t =>
          if negb (t_out t) then (s, [])
          else
            match t_refs t with
            | f :: l =>
                match release s f with
                | Some s1 => (with_tasks s1 (swap k (Task l (t_dec t) true) (tasks s)), [EvUnuse f])
                | None => (s, [EvUndef])
                end
            | [] =>
                match release s (t_dec t) with
                | Some s1 => (with_tasks s1 (cut k (tasks s)), [EvUnuse (t_dec t)])
                | None => (s, [EvUndef])
                end
            end
      | None => (s, [])
      end
  | Drop k =>
      match nth_error (tasks s) k with
      | Some t =>
          if t_out t then (s, [])
          else let l := t_refs t ++ [t_dec t; t_dec t] in
               (St (fr s) (base s) (n s) (remq s) (at_ s) (cut k (tasks s)) (olist s) (held s) (expect s) (busy s)
                   (lost s ++ l), [EvDrop l])
      | None => (s, [])
      end
  | Deliver k =>
      match nth_error (olist s) k with
      | Some f => (with_out s (cut k (olist s)) (held s ++ [f]) true, [])
      | None => (s, [])
      end
  | Unref k =>
      match nth_error (held s) k with
      | Some f =>
          match release s f with
          | Some s1 => (with_out s1 (olist s) (cut k (held s)) (busy s), [EvUnuse f])
          | None => (s, [EvUndef])
          end
      | None => (s, [])
      end
  | Expect v b =>
      (St (fr s) (base s) (n s) (remq s) (at_ s) (tasks s) (olist s) (held s) v b (lost s), [])
  | Reset n' =>
      match at_ s with
      | POut =>
          if n' <? 0 then (s, [])
          else (St (fun f => if f <? 0 then fr s f else fresh) (base s + n s) n' (remq s) POut (tasks s) (olist s) (held s)
                   (expect s) (busy s) (lost s), [EvReset])
      | _ => (s, [])
      end
  end.

Fixpoint run (s : st) (ops : list op) : st * list ev :=
  match ops with
  | [] => (s, [])
  | o :: t => let '(s1, e) := step s o in let '(s2, e2) := run s1 t in (s2, e ++ e2)
  end.
