(** Meaning of an execution of the picture buffer, read off its events only. *)
From Coq Require Import ZArith List Bool.
From Verif Require Import DpbModel.
Import ListNotations.
Open Scope Z_scope.

Definition times (f : Z) (l : list Z) : Z := Z.of_nat (count_occ Z.eq_dec l f).

(** How an event changes the number of users of buffer [f]: a new picture is used by its
    decoder and by the output side, a reference by the picture that refers to it. *)
Definition delta (f : Z) (e : ev) : Z :=
  match e with
  | EvStart _ g _ _ | EvBackground g => if g =? f then 2 else 0
  | EvRef g => if g =? f then 1 else 0
  | EvUnuse g => if g =? f then -1 else 0
  | EvDrop l => - times f l
  | _ => 0
  end.
Definition users (f : Z) (tr : list ev) : Z := fold_left (fun a e => a + delta f e) tr 0.

(** Is the picture in [f] announced as a reference for later pictures, and not yet given
    up? *)
Definition marked (f : Z) (tr : list ev) : bool :=
  fold_left (fun b e => match e with
                        | EvStart r g _ _ => if g =? f then r_refd r else b
                        | EvForget g => if g =? f then false else b
                        | EvReset => if 0 <=? f then false else b
                        | _ => b
                        end) tr false.

(** The picture last put into [f]. *)
Definition content (f : Z) (tr : list ev) : option req :=
  fold_left (fun b e => match e with EvStart r g _ _ => if g =? f then Some r else b | _ => b end) tr None.

(** Removals asked for by the last accepted picture, and the picture being set up. *)
Definition removals (tr : list ev) : list Z :=
  fold_left (fun b e => match e with EvAccept l => l | _ => b end) tr [].
Definition current (tr : list ev) : option req :=
  fold_left (fun b e => match e with EvCall r => Some r | _ => b end) tr None.

(** All events of executions from a new decoder with [n] buffers. *)
Definition events (n : Z) (ops : list op) : list ev := snd (run (st_init n) ops).

(** Buffer [f] holds a reference picture [d] pictures before [r] in coding order; it is in
    use; it can be found by the search (the decoder uses order -1 for "no picture"). *)
Definition at_dist (pre : list ev) (r : req) (d f : Z) : Prop :=
  exists p, content f pre = Some p /\ r_coi p = r_coi r - d /\ r_refd p = true.
Definition ref_ok (pre : list ev) (r : req) (d f : Z) : Prop := 0 < users f pre /\ at_dist pre r d f.
Definition present (pre : list ev) (r : req) (d f : Z) : Prop :=
  marked f pre = true /\ exists p, content f pre = Some p /\ r_coi p = r_coi r - d /\ 0 <= r_coi p /\ r_poc p <> -1.
(** Two references, the first displayed after and the second before [r]. *)
Definition around (pre : list ev) (r : req) (refs : list Z) : Prop :=
  exists f0 f1 p0 p1, refs = [f0; f1] /\ content f0 pre = Some p0 /\ content f1 pre = Some p1
                      /\ r_poc p1 < r_poc r < r_poc p0.
(** Have all references of the picture being set up been found? *)
Definition accepted (tr : list ev) : bool :=
  fold_left (fun b e => match e with EvCall _ => false | EvAccept _ => true | _ => b end) tr false.

(** Histories without background pictures and without a change of resolution while
    pictures are in use. *)
Definition calm (tr : list ev) : Prop :=
  (forall f, ~ In (EvBackground f) tr)
  /\ (forall pre post, tr = pre ++ EvReset :: post -> forall f, users f pre = 0).
