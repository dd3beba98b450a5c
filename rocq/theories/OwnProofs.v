From Coq Require Import ZArith List Bool Lia Permutation.
From Verif Require Import OwnModel OwnSpec.
Import ListNotations.
Open Scope Z_scope.

Lemma after_app : forall i a b p, after i p (a ++ b) = match after i p a with Some q => after i q b | None => None end.
Proof.
  intros i a; induction a as [|e a IH]; intros b p; cbn [app after]; [reflexivity|].
  destruct (id e =? i); [destruct (next p e)|]; try reflexivity; apply IH.
Qed.

(** Places of blocks: every block that is not released is in one of them, in its phase. *)
Definition Inv (P : list (Z * phase)) (n : nat) (tr : list ev) : Prop :=
  NoDup (map fst P) /\
  (forall i p, In (i, p) P -> lives i tr = Some p /\ 0 <= i < Z.of_nat n) /\
  (forall i, ~ (0 <= i < Z.of_nat n) -> lives i tr = Some Unborn) /\
  (forall i, 0 <= i < Z.of_nat n -> ~ In i (map fst P) -> lives i tr = Some Dead).

Lemma inv_perm : forall P Q n tr, Permutation P Q -> Inv P n tr -> Inv Q n tr.
Proof.
  intros P Q n tr HP (N & A & B & C). repeat split.
  - eapply Permutation_NoDup; [apply Permutation_map; exact HP | exact N].
  - apply A. eapply Permutation_in; [apply Permutation_sym; exact HP | exact H].
  - eapply A. eapply Permutation_in; [apply Permutation_sym; exact HP | exact H].
  - eapply A. eapply Permutation_in; [apply Permutation_sym; exact HP | exact H].
  - exact B.
  - intros i Hi Hn. apply C; [exact Hi|]. intro X. apply Hn.
    eapply Permutation_in; [apply Permutation_map; exact HP | exact X].
Qed.

Lemma lives_other : forall i e tr, id e <> i -> lives i (tr ++ [e]) = lives i tr.
Proof.
  intros i e tr H. unfold lives. rewrite after_app. destruct (after i Unborn tr) as [q|]; [|reflexivity].
  cbn. apply Z.eqb_neq in H. rewrite H. reflexivity.
Qed.
Lemma lives_this : forall i e tr p q, id e = i -> lives i tr = Some p -> next p e = Some q -> lives i (tr ++ [e]) = Some q.
Proof.
  intros i e tr p q H A B. unfold lives in *. rewrite after_app, A. cbn. rewrite H, Z.eqb_refl, B. reflexivity.
Qed.

Lemma inv_move : forall i p q R n tr e, Inv ((i, p) :: R) n tr -> id e = i -> next p e = Some q ->
  Inv ((i, q) :: R) n (tr ++ [e]).
Proof.
  intros i p q R n tr e (N & A & B & C) He Hn. cbn [map fst] in *.
  destruct (A i p (or_introl eq_refl)) as [Li Ri].
  inversion N as [|x l Nx Nl]; subst x l.
  split; [exact N|]. split; [|split].
  - intros j r [E|Hj].
    + inversion E; subst. split; [|exact Ri]. eapply lives_this; eauto.
    + destruct (A j r (or_intror Hj)) as [Lj Rj]. split; [|exact Rj].
      rewrite lives_other; [exact Lj|]. intro X. apply Nx.
      rewrite <- He, X. apply in_map_iff. exists (j, r). split; [reflexivity | exact Hj].
  - intros j Hj. rewrite lives_other; [apply B; exact Hj|]. intro X. apply Hj. rewrite <- X, He. exact Ri.
  - intros j Hj Hn'. rewrite lives_other; [apply C; assumption|].
    intro X. apply Hn'. left. rewrite <- X. symmetry. exact He.
Qed.

Lemma inv_new : forall q P n tr e, Inv P n tr -> id e = Z.of_nat n -> next Unborn e = Some q ->
  Inv ((Z.of_nat n, q) :: P) (S n) (tr ++ [e]).
Proof.
  intros q P n tr e (N & A & B & C) He Hn.
  assert (Out : ~ In (Z.of_nat n) (map fst P)).
  { intro X. apply in_map_iff in X. destruct X as ([j r] & E & Hj). cbn in E. subst j.
    destruct (A _ _ Hj). lia. }
  cbn [map fst]. split; [constructor; assumption|]. split; [|split].
  - intros j r [E|Hj].
    + inversion E; subst. split; [|lia]. eapply lives_this; [exact He | apply B; lia | exact Hn].
    + destruct (A j r Hj) as [Lj Rj]. split; [|lia]. rewrite lives_other; [exact Lj|]. rewrite He. lia.
  - intros j Hj. rewrite lives_other; [apply B; lia|]. rewrite He. lia.
  - intros j Hj Hn'. rewrite lives_other.
    + apply C.
      * assert (j <> Z.of_nat n) by (intro X; apply Hn'; left; auto). lia.
      * intro X. apply Hn'. right. exact X.
    + intro X. apply Hn'. left. rewrite <- X. symmetry. exact He.
Qed.

Lemma inv_drop : forall i p R n tr, Inv ((i, p) :: R) n tr -> next p (Free i) = Some Dead -> Inv R n (tr ++ [Free i]).
Proof.
  intros i p R n tr HI Hn.
  destruct (inv_move i p Dead R n tr (Free i) HI eq_refl Hn) as (N & A & B & C).
  cbn [map fst] in *. inversion N as [|x l Nx Nl]; subst x l.
  split; [exact Nl|]. split; [|split].
  - intros j r Hj. apply A. right. exact Hj.
  - exact B.
  - intros j Hj Hn'. destruct (Z.eq_dec j i) as [->|D].
    + destruct (A i Dead (or_introl eq_refl)) as [X _]. exact X.
    + apply C; [exact Hj|]. intros [X|X]; [apply D; symmetry; exact X | exact (Hn' X)].
Qed.

Definition uf (i : Z) := (i, Unit_free).
Definition uu (i : Z) := (i, Unit_used).
Definition pf (p : pict) := (fst p, Pic_free (fst (snd p)) (snd (snd p))).
Definition pq (p : pict) := (fst p, Pic_queued (fst (snd p)) (snd (snd p))).
Definition pl (p : pict) := (fst p, Pic_lent (fst (snd p)) (snd (snd p))).
Definition cu (c : option Z) := match c with Some u => [uf u] | None => [] end.
Definition places (s : st) : list (Z * phase) :=
  map uf (idle s) ++ cu (cur s) ++ map uu (jobs s) ++ map pf (bin s) ++ map pq (outq s) ++ map pl (lent s).
Definition ok (s : st) (tr : list ev) : Prop := Inv (places s) (nxt s) tr.

Lemma take_perm : forall {A} k (l : list A) x r, take k l = Some (x, r) -> Permutation l (x :: r).
Proof.
  intros A k; induction k as [|k IH]; intros [|a l] x r H; cbn [take] in H; try discriminate.
  - inversion H; subst. apply Permutation_refl.
  - destruct (take k l) as [[y r']|] eqn:E; [|discriminate]. inversion H; subst.
    eapply perm_trans; [apply perm_skip; eapply IH; exact E | apply perm_swap].
Qed.

Lemma swap_app : forall {A} (a b t : list A), Permutation (b ++ a ++ t) (a ++ b ++ t).
Proof. intros A a b t. rewrite !app_assoc. apply Permutation_app_tail, Permutation_app_comm. Qed.
Lemma swap_cons : forall {A} (a t : list A) x, Permutation (x :: a ++ t) (a ++ x :: t).
Proof. intros A a t x. apply Permutation_middle. Qed.
Lemma swap_front : forall {A} (b t : list A) x, Permutation (b ++ x :: t) (x :: b ++ t).
Proof. intros A b t x. apply Permutation_sym, Permutation_middle. Qed.
Lemma app_last : forall {A} (a : list A), Permutation a (a ++ []).
Proof. intros A a. rewrite app_nil_r. apply Permutation_refl. Qed.

(** Permutations of concatenations: the first part is looked up on the other side. *)
Ltac bring_list a := first
  [ apply Permutation_refl | apply app_last
  | refine (perm_trans _ (swap_app a _ _)); apply Permutation_app_head; bring_list a
  | refine (perm_trans _ (swap_cons a _ _)); apply perm_skip; bring_list a ].
Ltac bring_elt x := first
  [ apply Permutation_refl
  | refine (perm_trans _ (swap_front _ _ x)); apply Permutation_app_head; bring_elt x
  | refine (perm_trans _ (perm_swap x _ _)); apply perm_skip; bring_elt x ].
Ltac perm :=
  rewrite ?map_app; cbn [map]; rewrite <- ?app_assoc; cbn [app]; rewrite ?app_nil_r;
  lazymatch goal with
  | |- Permutation [] [] => constructor
  | |- Permutation (?a ++ ?l) ?r =>
      refine (perm_trans (l' := a ++ _) _ (Permutation_sym _)); [|bring_list a]; apply Permutation_app_head; perm
  | |- Permutation (?x :: ?l) ?r =>
      refine (perm_trans (l' := x :: _) _ (Permutation_sym _)); [|bring_elt x]; apply perm_skip; perm
  | |- Permutation ?a ?r => apply Permutation_refl
  end.

Lemma drop_many : forall {A} (g : A -> Z) (f : A -> Z * phase) l R n tr,
  (forall x, fst (f x) = g x /\ next (snd (f x)) (Free (g x)) = Some Dead) ->
  Inv (map f l ++ R) n tr -> Inv R n (tr ++ map (fun x => Free (g x)) l).
Proof.
  intros A g f l; induction l as [|x l IH]; intros R n tr Hf HI; cbn [map app] in *.
  - rewrite app_nil_r. exact HI.
  - destruct (Hf x) as [E D]. replace (tr ++ Free (g x) :: map (fun x => Free (g x)) l) with ((tr ++ [Free (g x)]) ++ map (fun x => Free (g x)) l) by (rewrite <- app_assoc; reflexivity).
    apply IH; [exact Hf|]. apply (inv_drop (g x) (snd (f x))); [|exact D].
    rewrite <- E. rewrite <- surjective_pairing. exact HI.
Qed.

Lemma reuse_ok : forall w h l R n tr e r b, reuse w h l = (e, r, b) -> Inv (map pf l ++ R) n tr ->
  match r with
  | Some i => Inv ((i, Pic_free w h) :: map pf b ++ R) n (tr ++ e)
  | None => b = [] /\ Inv R n (tr ++ e)
  end.
Proof.
  intros w h l; induction l as [|[i [w' h']] l IH]; intros R n tr e r b H HI; cbn [reuse] in H.
  - inversion H; subst. rewrite app_nil_r. split; [reflexivity | exact HI].
  - destruct ((w' =? w) && (h' =? h)) eqn:E.
    + inversion H; subst. apply andb_true_iff in E. destruct E as [E1 E2].
      apply Z.eqb_eq in E1, E2. subst. rewrite app_nil_r. exact HI.
    + destruct (reuse w h l) as [[e0 r0] b0] eqn:E0. inversion H; subst.
      assert (X : Inv (map pf l ++ R) n (tr ++ [Free i])).
      { apply (inv_drop i (Pic_free w' h')); [exact HI | reflexivity]. }
      pose proof (IH R n _ _ _ _ eq_refl X) as Y. rewrite <- app_assoc in Y. cbn [app] in Y. exact Y.
Qed.

Lemma step_ok : forall o s tr s' e, alive s = true -> ok s tr -> step o s = (s', e) ->
  ok s' (tr ++ e).
Proof.
  intros o s tr s' e Hal HI Hs. unfold ok, places in *. unfold step in Hs. rewrite Hal in Hs. cbn [negb] in Hs.
  destruct s as [id0 cu0 jo bi ou le nx al]. cbn [idle cur jobs bin outq lent nxt alive] in *.
  unfold mk, fresh in Hs. cbn [idle cur jobs bin outq lent nxt alive] in Hs.
  destruct o.
  - (* fetch *)
    destruct cu0 as [u|]; [inversion Hs; subst; rewrite app_nil_r; exact HI|].
    destruct id0 as [|u t]; inversion Hs; subst; rewrite app_nil_r; cbn [idle cur jobs bin outq lent nxt cu map app] in *; [exact HI|].
    eapply inv_perm; [|exact HI]. perm.
  - (* grow *)
    destruct cu0 as [u|]; inversion Hs; subst; cbn [idle cur jobs bin outq lent nxt cu map app] in *; [|rewrite app_nil_r; exact HI].
    replace (tr ++ [AllocU (Z.of_nat nx); Free u]) with ((tr ++ [AllocU (Z.of_nat nx)]) ++ [Free u]) by (rewrite <- app_assoc; reflexivity).
    apply (inv_drop u Unit_free); [|reflexivity].
    eapply inv_perm; [|apply (inv_new Unit_free); [exact HI | reflexivity | reflexivity]].
    change (u, Unit_free) with (uf u). change (Z.of_nat nx, Unit_free) with (uf (Z.of_nat nx)). perm.
  - (* cut *)
    destruct cu0 as [u|]; [|inversion Hs; subst; rewrite app_nil_r; exact HI].
    destruct id0 as [|v t]; inversion Hs; subst; cbn [idle cur jobs bin outq lent nxt cu map app] in *; [rewrite app_nil_r; exact HI|].
    eapply inv_perm; [|apply (inv_move u Unit_free Unit_used (map uf t ++ uf v :: map uu jo ++ map pf bi ++ map pq ou ++ map pl le)); [|reflexivity | reflexivity]].
    + change (u, Unit_used) with (uu u). perm.
    + eapply inv_perm; [|exact HI]. change (u, Unit_free) with (uf u). perm.
  - (* fill *)
    destruct cu0 as [u|]; inversion Hs; subst; cbn [idle cur jobs bin outq lent nxt cu map app] in *; [|rewrite app_nil_r; exact HI].
    eapply inv_perm; [|apply (inv_move u Unit_free Unit_free (map uf id0 ++ map uu jo ++ map pf bi ++ map pq ou ++ map pl le)); [|reflexivity | reflexivity]].
    + change (u, Unit_free) with (uf u). perm.
    + eapply inv_perm; [|exact HI]. change (u, Unit_free) with (uf u). perm.
  - (* flush *)
    destruct cu0 as [u|]; inversion Hs; subst; cbn [idle cur jobs bin outq lent nxt cu map app] in *; [|rewrite app_nil_r; exact HI].
    eapply inv_perm; [|apply (inv_move u Unit_free Unit_used (map uf id0 ++ map uu jo ++ map pf bi ++ map pq ou ++ map pl le)); [|reflexivity | reflexivity]].
    + change (u, Unit_used) with (uu u). perm.
    + eapply inv_perm; [|exact HI]. change (u, Unit_free) with (uf u). perm.
  - (* done *)
    destruct (take k jo) as [[u r]|] eqn:E; inversion Hs; subst; cbn [idle cur jobs bin outq lent nxt map app] in *; [|rewrite app_nil_r; exact HI].
    apply take_perm in E. apply (Permutation_map uu) in E. cbn [map] in E.
    eapply inv_perm; [|apply (inv_move u Unit_used Unit_free (map uf id0 ++ cu cu0 ++ map uu r ++ map pf bi ++ map pq ou ++ map pl le)); [|reflexivity | reflexivity]].
    + change (u, Unit_free) with (uf u). perm.
    + eapply inv_perm; [|exact HI]. change (u, Unit_used) with (uu u).
      eapply perm_trans; [apply Permutation_app_head, Permutation_app_head, Permutation_app_tail; exact E|]. perm.
  - (* show *)
    destruct (reuse w h bi) as [[e0 r] b] eqn:E.
    assert (X : Inv (map pf bi ++ (map uf id0 ++ cu cu0 ++ map uu jo ++ map pq ou ++ map pl le)) nx tr).
    { eapply inv_perm; [|exact HI]. perm. }
    pose proof (reuse_ok w h bi _ _ _ _ _ _ E X) as Y.
    destruct r as [i|]; inversion Hs; subst; cbn [idle cur jobs bin outq lent nxt] in *.
    + rewrite (app_assoc tr). eapply inv_perm; [|apply (inv_move i (Pic_free w h) (Pic_queued w h)); [exact Y | reflexivity |]].
      2:{ cbn. rewrite !Z.eqb_refl. reflexivity. }
      change (i, Pic_queued w h) with (pq (i, (w, h))). perm.
    + destruct Y as [-> Y].
      replace (tr ++ e0 ++ [AllocP (Z.of_nat nx) w h; Show (Z.of_nat nx) w h])
        with (((tr ++ e0) ++ [AllocP (Z.of_nat nx) w h]) ++ [Show (Z.of_nat nx) w h]) by (rewrite <- !app_assoc; reflexivity).
      eapply inv_perm; [|apply (inv_move (Z.of_nat nx) (Pic_free w h) (Pic_queued w h)); [apply (inv_new (Pic_free w h)); [exact Y | reflexivity | reflexivity] | reflexivity |]].
      2:{ cbn. rewrite !Z.eqb_refl. reflexivity. }
      change (Z.of_nat nx, Pic_queued w h) with (pq (Z.of_nat nx, (w, h))). perm.
  - (* lend *)
    destruct (take k ou) as [[[i [w h]] r]|] eqn:E; inversion Hs; subst; cbn [idle cur jobs bin outq lent nxt fst] in *; [|rewrite app_nil_r; exact HI].
    apply take_perm in E. apply (Permutation_map pq) in E. cbn [map] in E.
    eapply inv_perm; [|apply (inv_move i (Pic_queued w h) (Pic_lent w h) (map uf id0 ++ cu cu0 ++ map uu jo ++ map pf bi ++ map pq r ++ map pl le)); [|reflexivity | reflexivity]].
    + change (i, Pic_lent w h) with (pl (i, (w, h))). perm.
    + eapply inv_perm; [|exact HI]. change (i, Pic_queued w h) with (pq (i, (w, h))).
      eapply perm_trans; [do 4 apply Permutation_app_head; apply Permutation_app_tail; exact E|]. perm.
  - (* back *)
    destruct (take k le) as [[[i [w h]] r]|] eqn:E; inversion Hs; subst; cbn [idle cur jobs bin outq lent nxt fst] in *; [|rewrite app_nil_r; exact HI].
    apply take_perm in E. apply (Permutation_map pl) in E. cbn [map] in E.
    eapply inv_perm; [|apply (inv_move i (Pic_lent w h) (Pic_free w h) (map uf id0 ++ cu cu0 ++ map uu jo ++ map pf bi ++ map pq ou ++ map pl r)); [|reflexivity | reflexivity]].
    + change (i, Pic_free w h) with (pf (i, (w, h))). perm.
    + eapply inv_perm; [|exact HI]. change (i, Pic_lent w h) with (pl (i, (w, h))).
      eapply perm_trans; [do 5 apply Permutation_app_head; exact E|]. perm.
  - (* close *)
    inversion Hs; subst; cbn [idle cur jobs bin outq lent nxt map app] in *.
    assert (X : Inv (map uf id0 ++ map pf bi ++ (cu cu0 ++ (map uu jo ++ map pq ou ++ map pl le))) nx tr).
    { eapply inv_perm; [|exact HI]. perm. }
    apply (drop_many (fun i => i) uf) in X; [|intros; split; reflexivity].
    apply (drop_many fst pf) in X; [|intros; split; reflexivity].
    rewrite !(app_assoc tr), !(app_assoc (tr ++ _)). cbn [cu app].
    destruct cu0 as [u|]; cbn [close_cur cu app] in *; [|rewrite app_nil_r; exact X].
    apply (inv_drop u Unit_free); [exact X | reflexivity].
Qed.

Lemma step_dead : forall o s, alive s = false -> step o s = (s, []).
Proof. intros o s H. unfold step. rewrite H. reflexivity. Qed.

Lemma run_ok : forall ops s tr s' e, ok s tr -> run ops s = (s', e) -> ok s' (tr ++ e).
Proof.
  induction ops as [|o ops IH]; intros s tr s' e HI H; cbn [run] in H.
  - inversion H; subst. rewrite app_nil_r. exact HI.
  - destruct (step o s) as [s1 e1] eqn:E1. destruct (run ops s1) as [s2 e2] eqn:E2. inversion H; subst.
    rewrite app_assoc. eapply IH; [|exact E2].
    destruct (alive s) eqn:A.
    + eapply step_ok; eassumption.
    + rewrite (step_dead o s A) in E1. inversion E1; subst. rewrite app_nil_r. exact HI.
Qed.

Lemma opened_ok : forall n, ok (fst (opened n)) (snd (opened n)).
Proof.
  intro n. unfold ok, places, opened. cbn [fst snd idle cur jobs bin outq lent nxt cu map app].
  rewrite app_nil_r. unfold units. rewrite !map_map.
  induction n as [|n IH].
  - split; [constructor|]. split; [intros i p []|]. split; [reflexivity | intros i Hi; cbn in Hi; lia].
  - rewrite seq_S, !map_app. cbn [map]. eapply inv_perm; [apply Permutation_cons_append|].
    apply (inv_new Unit_free); [exact IH | reflexivity | reflexivity].
Qed.

Lemma session_ok : forall n ops s tr, session n ops = (s, tr) -> ok s tr.
Proof.
  intros n ops s tr H. unfold session in H. pose proof (opened_ok n) as O.
  destruct (opened n) as [s0 e0]. destruct (run ops s0) as [s1 e1] eqn:E. inversion H; subst.
  eapply run_ok; [exact O | exact E].
Qed.

(** Every block goes through its phases and no others. *)
Lemma session_lives : forall n ops s tr i, session n ops = (s, tr) -> exists p, lives i tr = Some p.
Proof.
  intros n ops s tr i H. apply session_ok in H. destruct H as (N & A & B & C).
  destruct (in_dec Z.eq_dec i (map fst (places s))) as [X|X].
  - apply in_map_iff in X. destruct X as ([j p] & <- & Hj). exists p. apply A in Hj. apply Hj.
  - destruct (Z_le_dec 0 i), (Z_lt_dec i (Z.of_nat (nxt s))); try (exists Unborn; apply B; lia).
    exists Dead. apply C; [lia | exact X].
Qed.

(** Counting. *)
Definition born (p : phase) : nat := match p with Unborn => 0 | _ => 1 end.
Definition gone (p : phase) : nat := match p with Dead => 1 | _ => 0 end.
Lemma count_alloc : forall i tr p q, after i p tr = Some q -> (allocations i tr + born p = born q)%nat.
Proof.
  intros i tr; induction tr as [|e tr IH]; intros p q H; cbn [after] in H.
  - inversion H; subst. reflexivity.
  - unfold allocations in *. cbn [filter].
    destruct (id e =? i) eqn:E.
    + destruct (next p e) as [r|] eqn:N; [|discriminate]. specialize (IH r q H).
      destruct p, e; cbn in N, E; try discriminate; try rewrite E;
        try (destruct (_ && _) in N; [|discriminate]); inversion N; subst r; cbn [length born] in *; lia.
    + specialize (IH p q H). destruct e; cbn in E |- *; try rewrite E; exact IH.
Qed.
Lemma count_free : forall i tr p q, after i p tr = Some q -> (releases i tr + gone p = gone q)%nat.
Proof.
  intros i tr; induction tr as [|e tr IH]; intros p q H; cbn [after] in H.
  - inversion H; subst. reflexivity.
  - unfold releases in *. cbn [filter].
    destruct (id e =? i) eqn:E.
    + destruct (next p e) as [r|] eqn:N; [|discriminate]. specialize (IH r q H).
      destruct p, e; cbn in N, E; try discriminate; try rewrite E;
        try (destruct (_ && _) in N; [|discriminate]); inversion N; subst r; cbn [length gone] in *; lia.
    + specialize (IH p q H). destruct e; cbn in E |- *; try rewrite E; exact IH.
Qed.

Lemma run_app : forall a b s, run (a ++ b) s = (let (s1, e1) := run a s in let (s2, e2) := run b s1 in (s2, e1 ++ e2)).
Proof.
  induction a as [|o a IH]; intros b s; cbn [run app].
  - destruct (run b s). reflexivity.
  - destruct (step o s) as [s1 e1]. rewrite IH. destruct (run a s1) as [s2 e2]. destruct (run b s2) as [s3 e3].
    rewrite app_assoc. reflexivity.
Qed.

(** A closed handle has released what its lists held. *)
Lemma closed_idle : forall ops s, idle s = [] /\ cur s = None /\ bin s = [] \/ alive s = true ->
  let s' := fst (run ops s) in idle s' = [] /\ cur s' = None /\ bin s' = [] \/ alive s' = true.
Proof.
  induction ops as [|o ops IH]; intros s H; cbn [run]; [exact H|].
  assert (X : let s1 := fst (step o s) in idle s1 = [] /\ cur s1 = None /\ bin s1 = [] \/ alive s1 = true).
  { destruct (alive s) eqn:A.
    - unfold step. rewrite A. cbn [negb].
      destruct o; try (left; cbn; auto; fail);
        repeat match goal with |- context [match ?x with _ => _ end] => destruct x end;
        right; cbn; unfold mk; cbn; exact A.
    - destruct H as [H|H]; [|discriminate]. rewrite (step_dead o s A). left. exact H. }
  destruct (step o s) as [s1 e1]. specialize (IH s1 X). destruct (run ops s1) as [s2 e2]. exact IH.
Qed.

Lemma close_dead : forall n ops s tr, session n (ops ++ [OClose]) = (s, tr) ->
  idle s = [] /\ cur s = None /\ bin s = [] .
Proof.
  intros n ops s tr H. unfold session in H. destruct (opened n) as [s0 e0] eqn:O.
  assert (A0 : alive s0 = true) by (unfold opened in O; inversion O; reflexivity).
  rewrite run_app in H. pose proof (closed_idle ops s0 (or_intror A0)) as X. cbn zeta in X.
  destruct (run ops s0) as [s1 e1]. cbn [fst] in X. cbn [run] in H.
  destruct (alive s1) eqn:A.
  - unfold step in H. rewrite A in H. cbn [negb] in H. inversion H; subst. cbn. auto.
  - rewrite (step_dead OClose s1 A) in H. inversion H; subst. destruct X as [X|X]; [exact X|discriminate].
Qed.

Lemma close_phase : forall n ops s tr i p, session n (ops ++ [OClose]) = (s, tr) ->
  lives i tr = Some p -> at_rest p = true -> p = Unborn \/ p = Dead.
Proof.
  intros n ops s tr i p H L R. destruct (close_dead n ops s tr H) as (Ei & Ec & Eb).
  apply session_ok in H. destruct H as (N & A & B & C).
  destruct (in_dec Z.eq_dec i (map fst (places s))) as [X|X].
  - apply in_map_iff in X. destruct X as ([j q] & E & Hj). cbn in E. subst j.
    destruct (A _ _ Hj) as [Lq _]. rewrite L in Lq. inversion Lq; subst q.
    unfold places in Hj. rewrite Ei, Ec, Eb in Hj. cbn [map cu app] in Hj.
    rewrite !in_app_iff, !in_map_iff in Hj.
    destruct Hj as [(x & E & _)|[(x & E & _)|(x & E & _)]]; inversion E; subst p; discriminate R.
  - destruct (Z_le_dec 0 i), (Z_lt_dec i (Z.of_nat (nxt s))).
    2-4: left; assert (Y : lives i tr = Some Unborn) by (apply B; lia); congruence.
    right. assert (Y : lives i tr = Some Dead) by (apply C; [lia | exact X]). congruence.
Qed.

Lemma close_all : forall n ops s tr, session n (ops ++ [OClose]) = (s, tr) ->
  (forall i p, lives i tr = Some p -> at_rest p = true) ->
  forall i, releases i tr = allocations i tr /\ (releases i tr <= 1)%nat.
Proof.
  intros n ops s tr H R i. destruct (session_lives n _ s tr i H) as [p L].
  pose proof (count_alloc i tr _ _ L) as CA. pose proof (count_free i tr _ _ L) as CF. cbn [born gone] in *.
  destruct (close_phase n ops s tr i p H L (R i p L)) as [->| ->]; cbn [born gone] in *; lia.
Qed.
Lemma close_leak : forall n ops s tr i p, session n (ops ++ [OClose]) = (s, tr) ->
  lives i tr = Some p -> (releases i tr < allocations i tr)%nat <-> at_rest p = false.
Proof.
  intros n ops s tr i p H L.
  pose proof (count_alloc i tr _ _ L) as CA. pose proof (count_free i tr _ _ L) as CF. cbn [born gone] in *.
  destruct (at_rest p) eqn:R.
  - destruct (close_phase n ops s tr i p H L R) as [->| ->]; cbn [born gone] in *; split; [lia|discriminate|lia|discriminate].
  - split; [reflexivity|]. intros _. destruct p; try discriminate R; cbn [born gone] in *; lia.
Qed.
