(** The thread pool (threadpool.cc) as a transition system. Every critical section is one
    step; every call of an entry point and every worker is an activity with its own name,
    and activities interleave freely. *)
From Coq Require Import ZArith List Bool.
From Verif Require Import CBase MemModel.
Import ListNotations.
Open Scope Z_scope.

Definition WORK_MAX : Z := 128.        (* defines.h DAVS2_WORK_MAX *)
Definition SLOTS : Z := 130.           (* threadpool.cc:63 list[DAVS2_WORK_MAX + 2] *)

(** threadpool.cc:57-64: job descriptors are addresses (positive, 0 is NULL). *)
Record jl := { arr : mem; size : Z }.
Definition jl_empty : jl := {| arr := fun _ => 0; size := 0 |}.

(** threadpool.cc:148-158 [davs2_sync_job_list_push]; [Fail]: the caller waits. *)
Definition push (q : jl) (d : Z) : outcome jl :=
  if size q =? WORK_MAX then Fail
  else if (size q <? 0) || (SLOTS <=? size q) then Undef
  else Done {| arr := upd (arr q) (size q) d; size := size q + 1 |}.

(** threadpool.cc:162-176 [davs2_sync_job_list_pop]. *)
Definition pop (q : jl) : outcome (jl * Z) :=
  if size q =? 0 then Fail
  else let s := size q - 1 in
       if (s <? 0) || (SLOTS <=? s) then Undef
       else Done ({| arr := upd (arr q) s 0; size := s |}, arr q s).

(** threadpool.cc:97-109 [davs2_job_shift] on [list + i]: the loop runs to the first NULL.
    [Undef] is an access behind the array. *)
Fixpoint shift_loop (fuel : nat) (i : Z) (a : mem) : outcome mem :=
  match fuel with
  | O => Hang
  | S f =>
      if (i <? 0) || (SLOTS <=? i) then Undef
      else if a i =? 0 then Done a
      else if SLOTS <=? i + 1 then Undef
      else shift_loop f (i + 1) (upd a i (a (i + 1)))
  end.
Definition job_shift (q : jl) (i : Z) : outcome (jl * Z) :=
  if (i <? 0) || (SLOTS <=? i) then Undef
  else bindo (shift_loop 200 i (arr q)) (fun a => Done ({| arr := a; size := size q - 1 |}, arr q i)).

(** threadpool.cc:46-52: the job of a descriptor. [jid] is a name for the call that
    submitted it; [jarg] stands for both arguments. *)
Record job := { jid : Z; jarg : Z; jwait : bool }.

(** Where an activity is between two critical sections. *)
Inductive act :=
| Have (d : Z)        (* threadpool.cc:290: descriptor taken from [uninit] *)
| Filled (d : Z)      (* threadpool.cc:295: fields written *)
| Got (d : Z)         (* threadpool.cc:208: job taken from [run] *)
| Ran (d : Z)         (* threadpool.cc:216: function executed *)
| Waited (d : Z).     (* threadpool.cc:328: job taken from [done] *)
Definition act_desc (x : act) : Z := match x with Have d | Filled d | Got d | Ran d | Waited d => d end.

Record pool := {
  uninit : jl; run : jl; done : jl;
  desc : Z -> job;
  held : list (Z * act);     (* activities that are not idle *)
  exiting : bool;            (* i_exit *)
  quit : list Z;             (* workers that have left their loop *)
  submitted : list Z; started : list Z; executed : list Z     (* history *)
}.

Definition init_pool (d0 : Z -> job) : pool :=
  {| uninit := {| arr := fun i => if (0 <=? i) && (i <? WORK_MAX) then i + 1 else 0; size := WORK_MAX |};
     run := jl_empty; done := jl_empty; desc := d0; held := []; exiting := false; quit := [];
     submitted := []; started := []; executed := [] |}.

Fixpoint lookup (a : Z) (h : list (Z * act)) : option act :=
  match h with
  | [] => None
  | (b, x) :: t => if a =? b then Some x else lookup a t
  end.
Definition del (a : Z) (h : list (Z * act)) : list (Z * act) := filter (fun p => negb (fst p =? a)) h.
Definition put (a : Z) (x : act) (h : list (Z * act)) : list (Z * act) := (a, x) :: del a h.

Inductive top :=
| OpPop (a : Z) | OpFill (a : Z) (j : job) | OpPush (a : Z)
| OpPick (a : Z) | OpRun (a : Z) | OpFinish (a : Z)
| OpWait (a arg : Z) | OpReturn (a : Z) | OpDelete | OpQuit (a : Z).

(** threadpool.cc:311-327: position of the first finished job with the arguments. *)
Fixpoint find_done (n : nat) (i : Z) (ds : Z -> job) (q : jl) (arg : Z) : option Z :=
  match n with
  | O => None
  | S k => if jarg (ds (arr q i)) =? arg then Some i else find_done k (i + 1) ds q arg
  end.

Definition idle (a : Z) (p : pool) : bool :=
  match lookup a (held p) with None => negb (existsb (Z.eqb a) (quit p)) | Some _ => false end.

(** [Fail]: the activity cannot take this step now (it waits, or is elsewhere). *)
Definition tstep (o : top) (p : pool) : outcome pool :=
  match o with
  | OpPop a =>            (* threadpool.cc:290 *)
      if idle a p then
        bindo (pop (uninit p)) (fun r =>
        Done {| uninit := fst r; run := run p; done := done p; desc := desc p; held := put a (Have (snd r)) (held p);
                exiting := exiting p; quit := quit p; submitted := submitted p; started := started p; executed := executed p |})
      else Fail
  | OpFill a j =>         (* threadpool.cc:292-295 *)
      match lookup a (held p) with
      | Some (Have d) =>
        Done {| uninit := uninit p; run := run p; done := done p; desc := fun k => if k =? d then j else desc p k;
                held := put a (Filled d) (held p);
                exiting := exiting p; quit := quit p; submitted := submitted p; started := started p; executed := executed p |}
      | _ => Fail
      end
  | OpPush a =>           (* threadpool.cc:296 *)
      match lookup a (held p) with
      | Some (Filled d) =>
        bindo (push (run p) d) (fun q =>
        Done {| uninit := uninit p; run := q; done := done p; desc := desc p; held := del a (held p);
                exiting := exiting p; quit := quit p; submitted := submitted p ++ [jid (desc p d)]; started := started p; executed := executed p |})
      | _ => Fail
      end
  | OpPick a =>           (* threadpool.cc:201-210 *)
      if idle a p then
        if size (run p) =? 0 then Fail
        else bindo (job_shift (run p) 0) (fun r =>
        Done {| uninit := uninit p; run := fst r; done := done p; desc := desc p; held := put a (Got (snd r)) (held p);
                exiting := exiting p; quit := quit p; submitted := submitted p; started := started p ++ [jid (desc p (snd r))]; executed := executed p |})
      else Fail
  | OpRun a =>            (* threadpool.cc:216 *)
      match lookup a (held p) with
      | Some (Got d) =>
        Done {| uninit := uninit p; run := run p; done := done p; desc := desc p; held := put a (Ran d) (held p);
                exiting := exiting p; quit := quit p; submitted := submitted p; started := started p; executed := executed p ++ [jid (desc p d)] |}
      | _ => Fail
      end
  | OpFinish a =>         (* threadpool.cc:219-223 *)
      match lookup a (held p) with
      | Some (Ran d) =>
        if jwait (desc p d) then
          bindo (push (done p) d) (fun q =>
          Done {| uninit := uninit p; run := run p; done := q; desc := desc p; held := del a (held p);
                  exiting := exiting p; quit := quit p; submitted := submitted p; started := started p; executed := executed p |})
        else
          bindo (push (uninit p) d) (fun q =>
          Done {| uninit := q; run := run p; done := done p; desc := desc p; held := del a (held p);
                  exiting := exiting p; quit := quit p; submitted := submitted p; started := started p; executed := executed p |})
      | _ => Fail
      end
  | OpWait a arg =>       (* threadpool.cc:310-328 *)
      if idle a p then
        match find_done (Z.to_nat (size (done p))) 0 (desc p) (done p) arg with
        | Some i =>
          bindo (job_shift (done p) i) (fun r =>
          Done {| uninit := uninit p; run := run p; done := fst r; desc := desc p; held := put a (Waited (snd r)) (held p);
                  exiting := exiting p; quit := quit p; submitted := submitted p; started := started p; executed := executed p |})
        | None => Fail
        end
      else Fail
  | OpReturn a =>         (* threadpool.cc:330-333 *)
      match lookup a (held p) with
      | Some (Waited d) =>
        bindo (push (uninit p) d) (fun q =>
        Done {| uninit := q; run := run p; done := done p; desc := desc p; held := del a (held p);
                exiting := exiting p; quit := quit p; submitted := submitted p; started := started p; executed := executed p |})
      | _ => Fail
      end
  | OpDelete =>           (* threadpool.cc:342-345 *)
      Done {| uninit := uninit p; run := run p; done := done p; desc := desc p; held := held p;
              exiting := true; quit := quit p; submitted := submitted p; started := started p; executed := executed p |}
  | OpQuit a =>           (* threadpool.cc:197 *)
      if exiting p && idle a p then
        Done {| uninit := uninit p; run := run p; done := done p; desc := desc p; held := held p;
                exiting := true; quit := a :: quit p; submitted := submitted p; started := started p; executed := executed p |}
      else Fail
  end.

(** A schedule: steps an activity cannot take are skipped. *)
Fixpoint trun (ops : list top) (p : pool) : outcome pool :=
  match ops with
  | [] => Done p
  | o :: t => match tstep o p with
              | Done p' => trun t p'
              | Fail => trun t p
              | Undef => Undef
              | Hang => Hang
              end
  end.
