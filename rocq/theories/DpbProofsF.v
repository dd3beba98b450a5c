(** Proofs about the assertions of the picture buffer. *)
From Coq Require Import ZArith List Bool Lia.
From Verif Require Import CBase DpbModel DpbModelA DpbSpec DpbProofs DpbProofsB DpbProofsC DpbProofsD.
Import ListNotations.
Open Scope Z_scope.

Lemma reach_inv n0 ops s tr : 0 <= n0 -> run (st_init n0) ops = (s, tr) -> inv s tr.
Proof.
  intros Hn E. pose proof (inv_run ops (st_init n0) [] (inv_init n0 Hn)) as HI. rewrite E in HI. exact HI.
Qed.

Lemma target_assert n0 ops s tr b : 0 <= n0 -> run (st_init n0) ops = (s, tr) ->
  In (ATarget, b) (assertions s) -> b = true.
Proof.
  intros Hn E HIn. pose proof (reach_inv _ _ _ _ Hn E) as HI. pose proof (i_pc _ _ HI) as HP. unfold pc_ok in HP.
  unfold assertions in HIn. destruct (at_ s) as [|r l j|r l j got|r got j|r got j|r got|r got j best|got]; try (exfalso; exact HIn).
  - destruct l as [|d l]; [exfalso; exact HIn|]. destruct (n s <=? j); [exfalso; exact HIn|].
    destruct (_ && _); [|exfalso; exact HIn]. destruct HIn as [HIn|[HIn|[]]]; discriminate HIn.
  - destruct (n s <=? j) eqn:Ej; [exfalso; exact HIn|].
    destruct (f_rc (fr s (base s + j)) =? 0) eqn:Er; cbn [andb] in HIn; [|exfalso; exact HIn].
    destruct (negb _); [|exfalso; exact HIn].
    destruct HIn as [HIn|[]]. injection HIn as <-. apply Z.eqb_eq. apply Z.eqb_eq in Er.
    destruct HP as (_ & Hj & _). pose proof (i_frames _ _ HI _ (dpb_at s j Hj Ej)) as (_ & F & _). exact (F Er).
  - destruct (_ || _); [exfalso; exact HIn|]. destruct HIn as [HIn|HIn]; [discriminate HIn|].
    destruct (busy s); [exfalso; exact HIn|]. destruct (olist s); [exfalso; exact HIn|]. destruct HIn as [HIn|[]]; discriminate HIn.
Qed.

Lemma skip_assert s b : In (ASkip, b) (assertions s) -> b = true.
Proof.
  unfold assertions. intros HIn. destruct (at_ s) as [|r l j|r l j got|r got j|r got j|r got|r got j best|got]; try (exfalso; exact HIn).
  - destruct l as [|d l]; [exfalso; exact HIn|]. destruct (n s <=? j); [exfalso; exact HIn|].
    destruct (_ && _); [|exfalso; exact HIn]. destruct HIn as [HIn|[HIn|[]]]; discriminate HIn.
  - destruct (n s <=? j); [exfalso; exact HIn|]. destruct (_ && _); [|exfalso; exact HIn]. destruct HIn as [HIn|[]]; discriminate HIn.
  - destruct (existsb _ (olist s)) eqn:EO; cbn [orb] in HIn; [exfalso; exact HIn|].
    destruct (existsb _ (tasks s)); [exfalso; exact HIn|]. destruct HIn as [HIn|HIn]; [discriminate HIn|].
    destruct (busy s); [exfalso; exact HIn|]. destruct (olist s) as [|g o]; [exfalso; exact HIn|]. destruct HIn as [HIn|[]]. injection HIn as <-.
    cbn [existsb] in EO. apply orb_false_iff in EO. destruct EO as [EO _]. apply Z.leb_gt in EO. apply Z.ltb_lt. exact EO.
Qed.

Lemma reference_assert n0 ops s tr r d l j got b1 b2 : 0 <= n0 -> run (st_init n0) ops = (s, tr) ->
  at_ s = PRef r (d :: l) j got -> assertions s = [(ADisp, b1); (ARefd, b2)] ->
  let f := base s + j in
  (exists p, content f tr = Some p /\ r_coi p = r_coi r - d) /\ b1 && b2 = marked f tr.
Proof.
  intros Hn E HA HS f. pose proof (reach_inv _ _ _ _ Hn E) as HI. pose proof (i_pc _ _ HI) as HP. unfold pc_ok in HP.
  unfold assertions in HS. rewrite HA in *. destruct (n s <=? j) eqn:Ej; [discriminate HS|].
  destruct HP as (_ & Hj & _). pose proof (i_frames _ _ HI _ (dpb_at s j Hj Ej)) as (_ & _ & _ & M & C).
  fold f in HS, M, C. destruct (is_valid (fr s f)) eqn:V; cbn [andb] in HS; [|discriminate HS].
  destruct (0 <=? f_coi (fr s f)); cbn [andb] in HS; [|discriminate HS].
  destruct (r_coi r - d =? f_coi (fr s f)) eqn:EC; [|discriminate HS]. injection HS as <- <-.
  apply Z.eqb_eq in EC. split.
  - destruct C as [(C & _)|(p & Ep & Ec & _)].
    + exfalso. unfold is_valid in V. rewrite C, Z.eqb_refl in V. discriminate V.
    + exists p. split; [exact Ep|]. lia.
  - rewrite M. apply andb_comm.
Qed.

(** Scenario: a picture that is no reference, then one that refers to it. *)
Definition bad_ref : list op :=
  Call (Req 0 false false 0 0 [] false []) :: repeat Step 60
  ++ [Call (Req 0 false false 1 1 [1] true []); Step].
Lemma reference_fails : exists ops s tr, run (st_init 26) ops = (s, tr) /\ In (ADisp, false) (assertions s)
  /\ flat_map (fun e => match e with EvCall r => [r] | _ => [] end) tr = [Req 0 false false 0 0 [] false []; Req 0 false false 1 1 [1] true []].
Proof.
  exists bad_ref, (fst (run (st_init 26) bad_ref)), (snd (run (st_init 26) bad_ref)). split; [destruct (run _ _); reflexivity|].
  split; [vm_compute; auto|vm_compute; reflexivity].
Qed.

(** Scenario: the first picture is lost, 26 pictures that follow it are decoded and wait
    for output; the last decoder has not yet released its picture. *)
Definition wait_pic (i : Z) : list op := Call (Req 0 false false i i [] true []) :: repeat Step 60 ++ [Fin 0; Rel 0].
Definition full : list op :=
  Expect 0 false :: flat_map (fun i => wait_pic (Z.of_nat i)) (seq 1 25)
  ++ Call (Req 0 false false 26 26 [] true []) :: repeat Step 60 ++ [Fin 0]
  ++ Call (Req 1 false false 27 27 [] true []) :: repeat Step 56.
Lemma count_fails : exists ops s tr, run (st_init 26) ops = (s, tr) /\ In (ACount, false) (assertions s)
  /\ calm tr /\ (forall l, ~ In (EvDrop l) tr).
Proof.
  exists full, (fst (run (st_init 26) full)), (snd (run (st_init 26) full)). split; [destruct (run _ _); reflexivity|].
  split; [vm_compute; auto|]. split.
  - apply calm_simple. vm_compute. reflexivity.
  - intros l HIn. vm_compute in HIn. repeat destruct HIn as [HIn|HIn]; try discriminate HIn; exact HIn.
Qed.
