(** Witnesses. *)
From Coq Require Import ZArith List Bool Lia.
From Verif Require Import CBase DpbModel DpbSpec DpbProofs DpbProofsC.
Import ListNotations.
Open Scope Z_scope.

Definition pic (i : Z) : list op :=
  Call (Req 0 false false i i [] true []) :: repeat Step 60 ++ [Fin 0; Rel 0; Deliver 0; Unref 0].
Definition many : list op :=
  flat_map (fun i => pic (Z.of_nat i)) (seq 0 26)
  ++ Expect 26 false :: Call (Req 0 false false 26 26 [1] true []) :: repeat Step 120.

Lemma fallback_overwrites :
  exists ops pre r f refs post, events 26 ops = pre ++ EvStart r f refs true :: post /\ marked f pre = true.
Proof.
  exists many, (firstn 133 (events 26 many)), (Req 0 false false 26 26 [1] true []), 0, [25], (skipn 134 (events 26 many)).
  split; vm_compute; reflexivity.
Qed.

Definition bg (i : Z) : op := Call (Req 0 true false i i [] true []).
Lemma background_overwritten :
  exists ops pre f post, events 26 ops = pre ++ EvBackground f :: post /\ 0 < users f pre.
Proof.
  exists [bg 0; Step; Fin 0; bg 1; Step],
    [EvCall (Req 0 true false 0 0 [] true []); EvBackground (-1); EvCall (Req 0 true false 1 1 [] true [])], (-1), [].
  split; vm_compute; reflexivity.
Qed.
Lemma background_release :
  exists ops, In EvUndef (events 26 ops) /\ ~ In EvReset (events 26 ops).
Proof.
  exists [bg 0; Step; Fin 0; Rel 0]. vm_compute. split; [auto|]. intros [|[|[|[]]]]; discriminate.
Qed.

Definition one (refd : bool) : list op := Call (Req 0 false false 0 0 [] refd []) :: repeat Step 60.
Lemma reset_release :
  exists ops, In EvUndef (events 26 ops) /\ (forall f, ~ In (EvBackground f) (events 26 ops)).
Proof.
  exists (one true ++ [Fin 0; Rel 0; Deliver 0; Reset 26; Unref 0]). vm_compute. split; [auto 8|].
  intros f H. repeat destruct H as [H|H]; discriminate || destruct H.
Qed.

Lemma dropped_leaks :
  exists ops s tr f, run (st_init 26) ops = (s, tr) /\ at_ s = POut
    /\ base s <= f < base s + n s /\ users f tr = 0 /\ marked f tr = false
    /\ forall r got, snd (step (goto s (PFind r got (f - base s))) Step) = [].
Proof.
  exists (one false ++ [Drop 0]), (fst (run (st_init 26) (one false ++ [Drop 0]))), (snd (run (st_init 26) (one false ++ [Drop 0]))), 0.
  split; [destruct (run _ _); reflexivity|]. split; [vm_compute; reflexivity|].
  split; [split; vm_compute; [discriminate|reflexivity]|]. split; [vm_compute; reflexivity|]. split; [vm_compute; reflexivity|].
  intros r got. vm_compute. reflexivity.
Qed.

(** I (order 0), P (order 4), B (order 2), then P (order 8) referring to B and reusing the
    buffer of I, which B asked to remove. *)
Definition gop : list op :=
  Call (Req 0 false false 0 0 [] true []) :: repeat Step 40
  ++ Call (Req 0 false false 1 4 [1] true []) :: repeat Step 60
  ++ Call (Req 0 false true 2 2 [1; 2] true [2]) :: repeat Step 80
  ++ [Fin 0; Fin 0; Rel 0; Fin 0; Fin 1; Rel 1; Rel 1; Deliver 0; Unref 0; Fin 0; Fin 1; Rel 0; Rel 0; Rel 0; Rel 0; Rel 0; Rel 0]
  ++ Call (Req 0 false false 3 8 [1] true []) :: repeat Step 90.

Lemma calm_simple tr : forallb (fun e => match e with EvBackground _ | EvReset => false | _ => true end) tr = true -> calm tr.
Proof.
  intros H. rewrite forallb_forall in H. split.
  - intros f I1. specialize (H _ I1). discriminate.
  - intros pre post E. specialize (H EvReset). rewrite E in H. discriminate H. apply in_or_app. right; left; reflexivity.
Qed.
Lemma gop_calm : calm (events 26 gop) /\ In (EvForget 0) (events 26 gop).
Proof. split; [apply calm_simple; vm_compute; reflexivity|vm_compute; auto 30]. Qed.
