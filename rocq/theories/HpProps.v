(** C113: memory from the library's allocator is aligned, private, kept, and given back whole. *)
From Coq Require Import ZArith List Bool Lia.
From Verif Require Import CBase MemModel VxModelBase DqModel DqProofs HpModel HpSpec HpProofs.
Import ListNotations.
Open Scope Z_scope.

(** Every sequence of requests, writes and releases of a user that keeps to its own pieces is defined (in particular [free]
    gets the block that [malloc] returned), and the pieces the user has at the end are aligned and apart. *)
Theorem C113_user : forall m ops l, uses (Heap [] m) [] ops l -> exists h, hrun (Heap [] m) ops = Done h /\ served h l.
Proof.
  intros m ops l U. destruct (user_ok _ _ _ _ U (inv_empty m)) as (h & E & I). exists h. split; [exact E|apply inv_served, I].
Qed.
Print Assumptions C113_user.

(** When everything has been given back, the C library has all its blocks back. *)
Theorem C113_no_leak : forall m ops, uses (Heap [] m) [] ops [] -> exists h, hrun (Heap [] m) ops = Done h /\ live h = [].
Proof.
  intros m ops U. destruct (C113_user m ops [] U) as (h & E & (F & _)). exists h. split; [exact E|]. inversion F. reflexivity.
Qed.
Print Assumptions C113_no_leak.

(** What the user wrote stays until the user writes there again or gives the piece back. *)
Theorem C113_kept : forall m ops1 l ops2 l' h h' a, uses (Heap [] m) [] ops1 l -> hrun (Heap [] m) ops1 = Done h -> uses h l ops2 l' ->
  hrun h ops2 = Done h' -> (exists x, In x l /\ fst x <= a < fst x + snd x) -> (forall v, ~ In (Write a v) ops2) ->
  (forall p, (exists n, In (p, n) l /\ p <= a < p + n) -> ~ In (Release p) ops2) -> hm h' a = hm h a.
Proof.
  intros m ops1 l ops2 l' h h' a U1 E1 U2 E2 O W N. destruct (user_ok _ _ _ _ U1 (inv_empty m)) as (h0 & E & I).
  rewrite E1 in E. injection E as <-. exact (run_keeps _ _ _ _ U2 I a h' E2 W O N).
Qed.
Print Assumptions C113_kept.

(** [davs2_calloc] does not clear an array of more than one element. *)
Theorem C113_calloc_refuted : exists m count size b h p a, fresh [] (count * size + 39) (Some b) /\
  davs2_calloc (Heap [] m) count size (Some b) = (h, p) /\ p <= a < p + count * size /\ hm h a <> 0.
Proof.
  exists (fun _ => 5), 2, 8, 1000.
  eexists. exists 1024, 1032. split; [cbn; split; [lia|]; split; [lia|constructor]|]. split; [reflexivity|]. split; [lia|]. vm_compute. discriminate.
Qed.
Print Assumptions C113_calloc_refuted.

(** A size so large that the sum wraps gets a pointer that is not in the block. *)
Theorem C113_wrap_refuted : exists m size b h p k, 0 <= size < 18446744073709551616 /\ davs2_malloc (Heap [] m) size (Some b) = (h, p) /\
  live h = [(b, k)] /\ b + k < p.
Proof.
  exists (fun _ => 0), 18446744073709551584, 1000. eexists. exists 1024, 7. split; [lia|]. split; [reflexivity|]. split; [reflexivity|lia].
Qed.
Print Assumptions C113_wrap_refuted.

Lemma example_free M h1 : davs2_free (Heap [(1139, 49); (1000, 139)] M) 1024 = Done h1 -> q_of (load M 1016) = 1000 -> h1 = Heap [(1139, 49)] M.
Proof. intros E Q. unfold davs2_free in E. change (1024 - 8) with 1016 in E. cbn [hm] in E. rewrite Q in E. vm_compute in E. injection E as <-. reflexivity. Qed.
(** Concrete case: two pieces, a write to each, the first given back, then a third piece over the same block. *)
Example C113_nonvacuous :
  let ops := [Alloc 100 (Some 1000); Alloc 10 (Some 1139); Write 1024 7; Write 1161 9; Release 1024; Alloc 100 (Some 1000); Release 0] in
  uses (Heap [] (fun _ => 0)) [] ops [(1024, 100); (1152, 10)] /\
  match hrun (Heap [] (fun _ => 0)) ops with Done h => live h = [(1000, 139); (1139, 49)] /\ hm h 1161 = 9 | _ => False end.
Proof.
  cbv zeta. split; [|vm_compute; split; reflexivity].
  eapply u_alloc; [lia|cbn; split; [lia|]; split; [lia|constructor]|reflexivity|].
  eapply u_alloc; [lia| |reflexivity|].
  { cbn. split; [lia|]. split; [lia|]. constructor; [|constructor]. right. cbn. lia. }
  apply u_write; [exists (1024, 100); split; [right; left; reflexivity|cbn; lia]|].
  apply u_write; [exists (1152, 10); split; [left; reflexivity|cbn; lia]|].
  apply (u_free _ [(1152, 10)] 1024 100 []). intros h1 E. rewrite (example_free _ _ E) by (vm_compute; reflexivity).
  eapply u_alloc; [lia| |reflexivity|].
  { cbn. split; [lia|]. split; [lia|]. constructor; [|constructor]. left. cbn. lia. }
  apply u_free0. apply u_end.
Qed.
