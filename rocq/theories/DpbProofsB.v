(** The invariant holds along every execution. *)
From Coq Require Import ZArith List Bool Lia.
From Verif Require Import CBase DpbModel DpbSpec DpbProofs.
Import ListNotations.
Open Scope Z_scope.

Lemma inv_put s tr s2 e f v :
  inv s tr -> dpb s f -> fr s2 = put (fr s) f v -> base s2 = base s -> n s2 = n s ->
  remq s2 = removals (tr ++ [e]) ->
  (forall g, times g (uses s2) = times g (uses s) + delta g e) ->
  (forall g, g <> f -> times g (owed s2) = times g (owed s)) ->
  frame_ok (tr ++ [e]) f v (times f (owed s2)) ->
  (forall g, g <> f -> dpb s g -> match e with EvStart _ x _ _ | EvForget x => x <> g | EvReset => g < 0 | _ => True end) ->
  pc_ok s2 (tr ++ [e]) -> inv s2 (tr ++ [e]).
Proof.
  intros Hi D Ef Eb En Er Hu Ho Hf Hq Hk. constructor; try rewrite Eb; try rewrite En; try apply Hi.
  - intros g. rewrite users_snoc, Hu, (i_users _ _ Hi). reflexivity.
  - intros g Dg. unfold dpb in Dg. rewrite Eb, En in Dg. rewrite Ef.
    destruct (Z.eq_dec g f) as [->|N].
    + rewrite put_same. exact Hf.
    + rewrite put_other by exact N. rewrite (Ho g N). apply frame_ok_quiet; [apply Hq; assumption|].
      apply (i_frames _ _ Hi). exact Dg.
  - intros g G. destruct (Z.eq_dec g f) as [->|N]; [apply D|].
    apply (i_bound _ _ Hi). apply times_in. apply times_in in G. rewrite <- (Ho g N). exact G.
  - exact Er.
  - exact Hk.
Qed.

(** An event that touches nothing. *)
Definition neutral (e : ev) : Prop := match e with EvCall _ | EvFail | EvUndef => True | _ => False end.
Lemma inv_event s tr e :
  inv s tr -> neutral e -> at_ s = POut \/ e = EvUndef -> inv s (tr ++ [e]).
Proof.
  intros Hi Ne Hp. constructor; try apply Hi.
  - intros g. rewrite users_snoc, (i_users _ _ Hi). destruct e; try destruct Ne; cbn [delta]; lia.
  - intros g D. apply frame_ok_quiet; [destruct e; try destruct Ne; exact Logic.I|]. apply (i_frames _ _ Hi), D.
  - rewrite removals_snoc. destruct e; try destruct Ne; apply (i_rem _ _ Hi).
  - pose proof (i_pc _ _ Hi) as K. unfold pc_ok in *. destruct Hp as [-> | ->]; [exact Logic.I|].
    rewrite current_snoc, removals_snoc. exact K.
Qed.

Lemma frame_clean tr f v c :
  frame_ok tr f v c -> f_rc v = 0 -> frame_ok (tr ++ [EvForget f]) f (clean v) c.
Proof.
  intros (R & _ & _ & _ & _) Z0. unfold frame_ok. rewrite marked_snoc, Z.eqb_refl. cbn. repeat split; auto.
Qed.
Lemma frame_mark tr f v c :
  frame_ok tr f v c -> f_rc v <> 0 -> frame_ok (tr ++ [EvForget f]) f (set_disp v 1) c.
Proof.
  intros (R & _ & _ & _ & K) Z0. unfold frame_ok. rewrite marked_snoc, content_snoc, Z.eqb_refl. cbn.
  rewrite andb_false_r. repeat split; auto. intros; contradiction.
Qed.
Lemma frame_ref tr f v c :
  frame_ok tr f v c -> 0 <= c -> f_disp v = 0 -> frame_ok (tr ++ [EvRef f]) f (add_rc v 1) (c + 1).
Proof.
  intros (R & D0 & D1 & M & K) C D. unfold frame_ok. rewrite marked_snoc, content_snoc. cbn.
  repeat split; auto; lia.
Qed.
Lemma frame_start tr f r got forced :
  frame_ok (tr ++ [EvStart r f got forced]) f (init_fdec r) 2.
Proof.
  unfold frame_ok. rewrite marked_snoc, content_snoc, Z.eqb_refl. cbn [f_rc f_disp f_refd f_coi f_poc init_fdec].
  repeat split; try lia.
  - destruct (r_refd r); auto.
  - destruct (r_refd r); reflexivity.
  - right. exists r. auto.
Qed.

Lemma dpb_at s j : 0 <= j -> (n s <=? j) = false -> dpb s (base s + j).
Proof. intros H E. apply Z.leb_gt in E. unfold dpb. lia. Qed.

(** Own references keep their pictures when [f], which nobody uses, is overwritten. *)
Lemma got_in s got f : pc_uses (at_ s) = got -> In f got -> times f (uses s) <> 0.
Proof. intros <- G. unfold uses. rewrite times_app. apply times_in in G. pose proof (times_nonneg f (flat_map task_uses (tasks s) ++ olist s ++ held s)). lia. Qed.

Lemma got_put s got r ds f v :
  got_ok (fr s) (base s) (base s + n s) r ds got ->
  same_pic (fr s f) v \/ ~ In f got ->
  got_ok (put (fr s) f v) (base s) (base s + n s) r ds got.
Proof.
  intros G H. eapply got_ok_ext; [|exact G]. intros g I1.
  destruct (Z.eq_dec g f) as [->|N].
  - rewrite put_same. destruct H as [H|H]; [exact H|contradiction].
  - rewrite put_other by exact N. repeat split.
Qed.
Lemma b_ok_put s s2 got r f v :
  fr s2 = put (fr s) f v -> b_ok s r got = true -> same_pic (fr s f) v \/ ~ In f got -> b_ok s2 r got = true.
Proof.
  intros E B H. eapply b_ok_ext; [|exact B]. intros g I1. rewrite E.
  destruct (Z.eq_dec g f) as [->|N].
  - rewrite put_same. destruct H as [H|H]; [exact H|contradiction].
  - rewrite put_other by exact N. repeat split.
Qed.

Lemma times_owed s f : times f (owed s) = times f (uses s) + times f (pc_prov (at_ s)) + times f (lost s).
Proof. unfold owed. rewrite !times_app. lia. Qed.
Lemma times_uses s f :
  times f (uses s) = times f (pc_uses (at_ s)) + times f (flat_map task_uses (tasks s)) + times f (olist s) + times f (held s).
Proof. unfold uses. rewrite !times_app. lia. Qed.

Lemma unused s tr f : inv s tr -> dpb s f -> f_rc (fr s f) = 0 -> times f (uses s) = 0 /\ times f (pc_prov (at_ s)) = 0 /\ times f (lost s) = 0.
Proof.
  intros Hi D R. destruct (i_frames _ _ Hi f D) as (R' & _). rewrite R, times_owed in R'.
  pose proof (times_nonneg f (uses s)). pose proof (times_nonneg f (pc_prov (at_ s))). pose proof (times_nonneg f (lost s)). lia.
Qed.

Lemma times_snoc_task g l t : times g (flat_map task_uses (l ++ [t])) = times g (flat_map task_uses l) + times g (task_uses t).
Proof. rewrite flat_map_app, times_app. cbn [flat_map]. rewrite app_nil_r. reflexivity. Qed.
Lemma times_new_task g got f : times g (task_uses (Task got f false)) = times g got + (if f =? g then 2 else 0).
Proof. unfold task_uses. cbn [t_refs t_dec t_out]. rewrite times_app, !times_cons, times_nil. destruct (f =? g); lia. Qed.

Lemma inv_start s tr r got f forced :
  inv s tr -> dpb s f -> pc_uses (at_ s) = got ->
  times f (uses s) = 0 -> times f (lost s) = 0 ->
  (forall g, g <> f -> times g (pc_prov (at_ s)) = 0) ->
  inv (fst (start s r got f forced)) (tr ++ [EvStart r f got forced]).
Proof.
  intros Hi D Eg T0 L0 P0. unfold start. cbn [fst].
  apply (inv_put s tr _ _ f (init_fdec r) Hi D); try reflexivity.
  - rewrite removals_snoc. apply (i_rem _ _ Hi).
  - intros g. rewrite !times_uses. cbn [at_ goto tasks with_tasks with_fr olist held pc_uses delta].
    rewrite times_snoc_task, times_new_task, Eg, times_nil. lia.
  - intros g N. rewrite !times_owed, !times_uses. cbn [at_ goto tasks with_tasks with_fr olist held pc_uses pc_prov lost].
    rewrite times_snoc_task, times_new_task, Eg, times_nil, (P0 g N).
    replace (f =? g) with false by (symmetry; apply Z.eqb_neq; congruence). lia.
  - rewrite times_owed. cbn [at_ goto tasks with_tasks with_fr olist held pc_uses pc_prov lost].
    rewrite L0, times_nil.
    assert (E : times f (uses (goto (with_tasks (with_fr s (put (fr s) f (init_fdec r))) (tasks s ++ [Task got f false])) POut)) = 2).
    { rewrite times_uses in *. cbn [at_ goto tasks with_tasks with_fr olist held pc_uses].
      rewrite times_snoc_task, times_new_task, times_nil, Z.eqb_refl. rewrite Eg in T0.
      pose proof (times_nonneg f got). lia. }
    rewrite E. apply frame_start.
  - intros g N _. congruence.
Qed.

Lemma not_in_uses s f got : pc_uses (at_ s) = got -> times f (uses s) = 0 -> ~ In f got.
Proof. intros E T G. exact (got_in s got f E G T). Qed.

Ltac quiet_goto A :=
  cbn [fst snd]; rewrite app_nil_r; apply inv_goto; [assumption|rewrite A; reflexivity|rewrite A; reflexivity|unfold pc_ok; cbn [at_ goto base n fr]].

Lemma inv_background s tr h :
  inv s tr -> pc_uses (at_ s) = [] -> pc_prov (at_ s) = [] ->
  inv (goto (with_tasks s (tasks s ++ [Task [] (-1 - Z.of_nat h) false])) POut) (tr ++ [EvBackground (-1 - Z.of_nat h)]).
Proof.
  intros Hi U P. set (f := -1 - Z.of_nat h). assert (Nf : f < 0) by (unfold f; lia).
  set (s2 := goto _ _). pose proof (i_base _ _ Hi) as Hb. pose proof (i_n _ _ Hi) as Hn.
  assert (Eu : forall g, times g (uses s2) = times g (uses s) + (if f =? g then 2 else 0)).
  { intros g. rewrite !times_uses. unfold s2. cbn [at_ goto tasks with_tasks olist held pc_uses].
    rewrite times_snoc_task, times_new_task, U, !times_nil. lia. }
  assert (Eo : forall g, times g (owed s2) = times g (owed s) + (if f =? g then 2 else 0)).
  { intros g. rewrite !times_owed, Eu. unfold s2. cbn [at_ goto pc_prov lost with_tasks]. rewrite P, times_nil. lia. }
  constructor; try apply Hi.
  - intros g. rewrite users_snoc, (i_users _ _ Hi), Eu. cbn [delta]. reflexivity.
  - intros g D. change (dpb s g) in D. apply frame_ok_quiet; [exact Logic.I|]. rewrite Eo.
    replace (f =? g) with false by (symmetry; apply Z.eqb_neq; unfold dpb in D; lia).
    rewrite Z.add_0_r. apply (i_frames _ _ Hi), D.
  - intros g G. change (g < base s + n s). apply times_in in G. rewrite Eo in G. destruct (Z.eqb_spec f g) as [Efg|N]; [lia|].
    apply (i_bound _ _ Hi), times_in. lia.
  - rewrite removals_snoc. apply (i_rem _ _ Hi).
  - exact Logic.I.
Qed.

Lemma inv_rem s tr r l j : inv s tr -> at_ s = PRem r l j -> inv (fst (get_step s)) (tr ++ snd (get_step s)).
Proof.
  intros Hi A. pose proof (i_pc _ _ Hi) as K. unfold pc_ok in K. unfold get_step. rewrite A in *.
  destruct K as (Cu & Li & J). destruct l as [|c l].
  - destruct (r_gb r) eqn:G.
    + cbv zeta. cbn [fst snd]. apply inv_background; [exact Hi|rewrite A; reflexivity|rewrite A; reflexivity].
    + quiet_goto A. repeat split; auto; [lia|]. exists []. split; [reflexivity|constructor].
  - destruct (n s <=? j) eqn:E.
    + quiet_goto A. repeat split; auto; [|lia]. intros x X. apply Li. right; exact X.
    + pose proof (dpb_at s j J E) as D. cbv zeta. set (f := base s + j) in *.
      destruct (is_valid (fr s f) && (f_coi (fr s f) =? c)) eqn:M.
      * cbn [fst snd]. pose proof (i_frames _ _ Hi f D) as F.
        set (s2 := goto _ _).
        assert (Eu : forall g, times g (uses s2) = times g (uses s)) by (intros g; rewrite !times_uses; unfold s2; cbn; rewrite A; reflexivity).
        assert (Eo : forall g, times g (owed s2) = times g (owed s)) by (intros g; rewrite !times_owed, Eu; unfold s2; cbn; rewrite A; reflexivity).
        eapply inv_put with (f := f); try exact Hi; try exact D; try reflexivity.
        -- rewrite removals_snoc. apply (i_rem _ _ Hi).
        -- intros g. rewrite Eu. cbn [delta]. lia.
        -- intros g _. apply Eo.
        -- rewrite Eo. destruct (f_rc (fr s f) =? 0) eqn:Z0; [apply frame_clean|apply frame_mark]; auto.
           ++ apply Z.eqb_eq, Z0.
           ++ apply Z.eqb_neq, Z0.
        -- intros g N _. congruence.
        -- unfold pc_ok, s2. cbn [at_ goto]. rewrite current_snoc, removals_snoc. repeat split; auto; [|lia].
           intros x X. apply Li. right; exact X.
      * quiet_goto A. repeat split; auto; lia.
Qed.

Lemma got_ok_snoc fr lo hi r ds got d f :
  got_ok fr lo hi r ds got -> lo <= f < hi -> f_coi (fr f) = r_coi r - d -> is_valid (fr f) = true -> f_refd (fr f) = true ->
  got_ok fr lo hi r (ds ++ [d]) (got ++ [f]).
Proof. intros G R C V M. apply Forall2_app; [exact G|]. constructor; [auto|constructor]. Qed.

Lemma inv_ref s tr r l j got : inv s tr -> at_ s = PRef r l j got -> inv (fst (get_step s)) (tr ++ snd (get_step s)).
Proof.
  intros Hi A. pose proof (i_pc _ _ Hi) as K. unfold pc_ok in K. unfold get_step. rewrite A in *.
  destruct K as (Cu & J & ds & Ed & G). destruct l as [|d l].
  - rewrite app_nil_r in Ed. subst ds. destruct (b_ok s r got) eqn:B.
    + cbv zeta. cbn [fst snd]. set (s2 := St _ _ _ _ _ _ _ _ _ _ _).
      assert (Eu : forall g, times g (uses s2) = times g (uses s)) by (intros g; rewrite !times_uses; unfold s2; cbn; rewrite A; reflexivity).
      assert (Eo : forall g, times g (owed s2) = times g (owed s)) by (intros g; rewrite !times_owed, Eu; unfold s2; cbn; rewrite A; reflexivity).
      constructor; try apply Hi.
      * intros g. rewrite users_snoc, (i_users _ _ Hi), Eu. cbn [delta]. lia.
      * intros g D. rewrite Eo. apply frame_ok_quiet; [exact Logic.I|]. apply (i_frames _ _ Hi), D.
      * intros g Gg. apply (i_bound _ _ Hi), times_in. rewrite <- Eo. apply times_in, Gg.
      * rewrite removals_snoc. reflexivity.
      * unfold pc_ok, s2. cbn [at_ fr base n]. rewrite current_snoc. repeat split; auto; lia.
    + quiet_goto A. exact Logic.I.
  - destruct (n s <=? j) eqn:E.
    + quiet_goto A. exact Logic.I.
    + pose proof (dpb_at s j J E) as D. cbv zeta. set (f := base s + j) in *.
      destruct (is_valid (fr s f) && (0 <=? f_coi (fr s f)) && (r_coi r - d =? f_coi (fr s f)) && (f_disp (fr s f) =? 0) && f_refd (fr s f)) eqn:M.
      * apply andb_true_iff in M as [M M5]. apply andb_true_iff in M as [M M4]. apply andb_true_iff in M as [M M3].
        apply andb_true_iff in M as [M1 _]. apply Z.eqb_eq in M3, M4.
        cbn [fst snd]. pose proof (i_frames _ _ Hi f D) as F.
        set (s2 := goto _ _).
        assert (Eu : forall g, times g (uses s2) = times g (uses s) + (if f =? g then 1 else 0)).
        { intros g; rewrite !times_uses; unfold s2; cbn [at_ goto with_fr pc_uses tasks olist held]; rewrite A; cbn [pc_uses].
          rewrite times_app, times_cons, times_nil. lia. }
        assert (Eo : forall g, times g (owed s2) = times g (owed s) + (if f =? g then 1 else 0)).
        { intros g; rewrite !times_owed, Eu; unfold s2; cbn [at_ goto with_fr pc_prov lost]. rewrite A; cbn [pc_prov]. lia. }
        eapply inv_put with (f := f); try exact Hi; try exact D; try reflexivity.
        -- rewrite removals_snoc. apply (i_rem _ _ Hi).
        -- intros g. rewrite Eu. cbn [delta]. lia.
        -- intros g N. rewrite Eo. replace (f =? g) with false by (symmetry; apply Z.eqb_neq; congruence). lia.
        -- rewrite Eo, Z.eqb_refl. apply frame_ref; auto. apply times_nonneg.
        -- unfold pc_ok, s2. cbn [at_ goto fr with_fr base n]. rewrite current_snoc. repeat split; auto; [lia|].
           exists (ds ++ [d]). split; [rewrite <- app_assoc; exact Ed|].
           apply got_ok_snoc; [|exact D| | |]; try (rewrite put_same; cbn; congruence).
           ++ apply got_put; [exact G|]. left. repeat split.
           ++ rewrite put_same. exact M1.
      * quiet_goto A. repeat split; auto; [lia|]. eauto.
Qed.

Lemma inv_old s tr r j got : inv s tr -> at_ s = POld r got j -> inv (fst (get_step s)) (tr ++ snd (get_step s)).
Proof.
  intros Hi A. pose proof (i_pc _ _ Hi) as K. unfold pc_ok in K. unfold get_step. rewrite A in *.
  destruct K as (Cu & J & G & B).
  destruct (n s <=? j) eqn:E.
  - quiet_goto A. repeat split; auto; lia.
  - pose proof (dpb_at s j J E) as D. cbv zeta. set (f := base s + j) in *.
    destruct (is_valid (fr s f) && (MAX_POC_DISTANCE <=? Z.abs (f_poc (fr s f) - r_poc r))) eqn:M.
    2:{ quiet_goto A. repeat split; auto; lia. }
    pose proof (i_frames _ _ Hi f D) as F.
    assert (X : forall v, frame_ok (tr ++ [EvForget f]) f v (times f (owed s)) ->
                 (same_pic (fr s f) v \/ ~ In f got) ->
                 inv (goto (with_fr s (put (fr s) f v)) (POld r got (j + 1))) (tr ++ [EvForget f])).
    { intros v Fv Sv. set (s2 := goto _ _).
      assert (Eu : forall g, times g (uses s2) = times g (uses s)) by (intros g; rewrite !times_uses; unfold s2; cbn; rewrite A; reflexivity).
      assert (Eo : forall g, times g (owed s2) = times g (owed s)) by (intros g; rewrite !times_owed, Eu; unfold s2; cbn; rewrite A; reflexivity).
      eapply inv_put with (f := f); try exact Hi; try exact D; try reflexivity.
      - rewrite removals_snoc. apply (i_rem _ _ Hi).
      - intros g. rewrite Eu. cbn [delta]. lia.
      - intros g _. apply Eo.
      - rewrite Eo. exact Fv.
      - intros g N _. congruence.
      - unfold pc_ok, s2. cbn [at_ goto fr with_fr base n]. rewrite current_snoc. repeat split; auto; [lia| |].
        + apply got_put; assumption.
        + eapply b_ok_put; [reflexivity|exact B|exact Sv]. }
    destruct (f_rc (fr s f) =? 0) eqn:Z0.
    + apply Z.eqb_eq in Z0. cbn [fst snd]. apply X.
      * apply frame_clean; assumption.
      * right. apply (not_in_uses s); [rewrite A; reflexivity|]. apply (unused s tr f Hi D Z0).
    + apply Z.eqb_neq in Z0. destruct (f_disp (fr s f) =? 0) eqn:Ed.
      * cbn [fst snd]. apply X; [apply frame_mark; assumption|]. left. repeat split.
      * quiet_goto A. repeat split; auto; lia.
Qed.

Lemma inv_find s tr r j got : inv s tr -> at_ s = PFind r got j -> inv (fst (get_step s)) (tr ++ snd (get_step s)).
Proof.
  intros Hi A. pose proof (i_pc _ _ Hi) as K. unfold pc_ok in K. unfold get_step. rewrite A in *.
  destruct K as (Cu & J & G & B).
  destruct (n s <=? j) eqn:E.
  - quiet_goto A. repeat split; auto.
  - pose proof (dpb_at s j J E) as D. cbv zeta. set (f := base s + j) in *.
    destruct ((f_rc (fr s f) =? 0) && negb (f_refd (fr s f))) eqn:M.
    + apply andb_true_iff in M as [M1 M2]. apply Z.eqb_eq in M1.
      destruct (unused s tr f Hi D M1) as (U & P & L).
      change (snd (start s r got f false)) with [EvStart r f got false].
      apply inv_start; auto; rewrite A; reflexivity.
    + quiet_goto A. repeat split; auto; lia.
Qed.

Lemma inv_wait s tr r got : inv s tr -> at_ s = PWait r got -> inv (fst (get_step s)) (tr ++ snd (get_step s)).
Proof.
  intros Hi A. pose proof (i_pc _ _ Hi) as K. unfold pc_ok in K. unfold get_step. rewrite A in *.
  destruct K as (Cu & G & B).
  destruct (has_blocking s).
  - destruct (olist s) as [|g ol] eqn:O.
    + quiet_goto A. repeat split; auto; lia.
    + cbn [fst snd]. rewrite app_nil_r. set (s2 := St _ _ _ _ _ _ _ _ _ _ _).
      assert (Eu : uses s2 = uses s) by (unfold uses, s2; cbn; rewrite A, O; reflexivity).
      assert (Eo : owed s2 = owed s) by (unfold owed; rewrite Eu; unfold s2; cbn; rewrite A; reflexivity).
      constructor; try apply Hi.
      * intros f. rewrite Eu. apply (i_users _ _ Hi).
      * intros f D. rewrite Eo. apply (i_frames _ _ Hi), D.
      * intros f. rewrite Eo. apply (i_bound _ _ Hi).
      * unfold pc_ok, s2. cbn [at_ fr base n]. repeat split; auto; lia.
  - quiet_goto A. repeat split; auto; lia.
Qed.

Lemma inv_force s tr r got j best : inv s tr -> at_ s = PForce r got j best -> inv (fst (get_step s)) (tr ++ snd (get_step s)).
Proof.
  intros Hi A. pose proof (i_pc _ _ Hi) as K. unfold pc_ok in K. unfold get_step. rewrite A in *.
  destruct K as (Cu & J & G & B & Be).
  destruct (n s <=? j) eqn:E.
  - destruct best as [b|].
    + destruct Be as (Db & Dd & Dr & T). change (snd (start s r got b true)) with [EvStart r b got true].
      apply inv_start; auto.
      * rewrite A; reflexivity.
      * destruct (i_frames _ _ Hi b Db) as (R & _). rewrite Dr, times_owed, T, A in R. cbn [pc_prov] in R.
        rewrite !times_cons, Z.eqb_refl, times_nil in R. lia.
      * intros g N. rewrite A. cbn [pc_prov]. rewrite !times_cons.
        replace (b =? g) with false by (symmetry; apply Z.eqb_neq; congruence). reflexivity.
    + quiet_goto A. exact Logic.I.
  - pose proof (dpb_at s j J E) as D. cbv zeta. set (f := base s + j) in *.
    match goal with |- context [if ?c then _ else _] => destruct c eqn:M end.
    2:{ quiet_goto A. split; [exact Cu|]. split; [lia|]. split; [exact G|]. split; [exact B|].
        destruct best as [b|]; [|exact Logic.I]. unfold uses in *. cbn [at_ goto tasks olist held]. rewrite A in Be. exact Be. }
    apply andb_true_iff in M as [M1 _]. apply Z.eqb_eq in M1.
    destruct (unused s tr f Hi D M1) as (U & P & L).
    pose proof (not_in_uses s f got ltac:(rewrite A; reflexivity) U) as NG.
    cbn [fst snd]. rewrite app_nil_r.
    set (fr1 := match best with None => fr s | Some b => put (fr s) b (add_rc (fr s b) (-2)) end).
    assert (Nb : match best with Some b => b <> f | None => True end).
    { destruct best as [b|]; [|exact Logic.I]. destruct Be as (_ & _ & Dr & _). intros ->. lia. }
    assert (F1 : forall g, same_pic (fr s g) (fr1 g) /\ f_disp (fr1 g) = f_disp (fr s g)).
    { intros g. unfold fr1. destruct best as [b|]; [|repeat split].
      destruct (Z.eq_dec g b) as [->|N]; [rewrite put_same|rewrite put_other by exact N]; repeat split. }
    assert (F1f : fr1 f = fr s f).
    { unfold fr1. destruct best as [b|]; [|reflexivity]. apply put_other. congruence. }
    assert (R1 : forall g, dpb s g -> g <> f -> f_rc (fr1 g) = times g (uses s) + times g (lost s)).
    { intros g Dg N. destruct (i_frames _ _ Hi g Dg) as (R & _). rewrite times_owed, A in R. cbn [pc_prov] in R.
      unfold fr1. destruct best as [b|].
      - rewrite !times_cons, times_nil in R. destruct (Z.eq_dec g b) as [->|Nb'].
        + rewrite put_same. cbn. rewrite Z.eqb_refl in R. lia.
        + rewrite put_other by exact Nb'. replace (b =? g) with false in R by (symmetry; apply Z.eqb_neq; congruence). lia.
      - rewrite times_nil in R. lia. }
    set (s2 := goto _ _).
    assert (Eu : uses s2 = uses s) by (unfold uses, s2; cbn; rewrite A; reflexivity).
    assert (Eo : forall g, times g (owed s2) = times g (uses s) + (if f =? g then 2 else 0) + times g (lost s)).
    { intros g. rewrite times_owed, Eu. unfold s2. cbn [at_ goto pc_prov lost with_fr]. rewrite !times_cons, times_nil. destruct (f =? g); lia. }
    assert (S2 : forall g, same_pic (fr s g) (fr s2 g)).
    { intros g. unfold s2. cbn [fr goto with_fr]. destruct (Z.eq_dec g f) as [->|N].
      - rewrite put_same, F1f. repeat split.
      - rewrite put_other by exact N. apply F1. }
    assert (S3 : forall g, f_disp (fr s2 g) = f_disp (fr s g)).
    { intros g. unfold s2. cbn [fr goto with_fr]. destruct (Z.eq_dec g f) as [->|N].
      - rewrite put_same, F1f. reflexivity.
      - rewrite put_other by exact N. apply F1. }
    assert (R2 : forall g, dpb s g -> f_rc (fr s2 g) = times g (owed s2)).
    { intros g Dg. rewrite Eo. unfold s2. cbn [fr goto with_fr]. destruct (Z.eq_dec g f) as [->|N].
      - rewrite put_same, F1f, Z.eqb_refl. cbn. lia.
      - rewrite put_other by exact N. rewrite (R1 g Dg N). replace (f =? g) with false by (symmetry; apply Z.eqb_neq; congruence). lia. }
    constructor; try apply Hi.
    + intros g. rewrite Eu. apply (i_users _ _ Hi).
    + intros g Dg. change (dpb s g) in Dg. destruct (i_frames _ _ Hi g Dg) as (R & D0 & D1 & Mk & C).
      destruct (S2 g) as (S2c & S2p & S2r). unfold frame_ok. rewrite S3, S2c, S2p, S2r.
      repeat split; auto. intros Z0.
      (* the count became zero: either it was zero, or g was the previous candidate *)
      rewrite R2 in Z0 by exact Dg. rewrite Eo in Z0.
      pose proof (times_nonneg g (uses s)). pose proof (times_nonneg g (lost s)).
      destruct (Z.eqb_spec f g) as [Efg|N]; [exfalso; cbv iota in Z0; lia|].
      destruct best as [b|].
      * destruct (Z.eq_dec g b) as [->|Nb']; [apply Be|]. apply D0. rewrite R, times_owed, A. cbn [pc_prov].
        rewrite !times_cons, times_nil. replace (b =? g) with false by (symmetry; apply Z.eqb_neq; congruence). lia.
      * apply D0. rewrite R, times_owed, A. cbn [pc_prov]. rewrite times_nil. lia.
    + intros g Gg. apply times_in in Gg. rewrite Eo in Gg. destruct (Z.eqb_spec f g) as [Efg|N]; [rewrite <- Efg; apply D|].
      apply (i_bound _ _ Hi), times_in. rewrite times_owed. pose proof (times_nonneg g (pc_prov (at_ s))). lia.
    + unfold pc_ok. change (at_ s2) with (PForce r got (j + 1) (Some f)). cbv iota.
      change (base s2) with (base s). change (n s2) with (n s).
      repeat split; auto; try lia; try apply D.
      * eapply got_ok_ext; [|exact G]. intros g _. apply S2.
      * eapply b_ok_ext; [|exact B]. intros g _. apply S2.
      * rewrite S3. apply (i_frames _ _ Hi f D). exact M1.
      * rewrite R2 by exact D. rewrite Eo, Z.eqb_refl. lia.
      * rewrite Eu. exact U.
Qed.

Lemma inv_fail s tr got : inv s tr -> at_ s = PFail got -> inv (fst (get_step s)) (tr ++ snd (get_step s)).
Proof.
  intros Hi A. unfold get_step. rewrite A. destruct got as [|f l].
  - cbn [fst snd]. apply inv_event; [|exact Logic.I|left; reflexivity].
    apply inv_goto; [exact Hi|rewrite A; reflexivity|rewrite A; reflexivity|exact Logic.I].
  - destruct (release s f) as [s1|] eqn:R; cbn [fst snd].
    + eapply inv_release; try exact R; try exact Hi; try reflexivity.
      * destruct (release_ok s tr f s1 (i_frames _ _ Hi) (i_base _ _ Hi) R) as (v & -> & _). reflexivity.
      * destruct (release_ok s tr f s1 (i_frames _ _ Hi) (i_base _ _ Hi) R) as (v & -> & _). reflexivity.
      * destruct (release_ok s tr f s1 (i_frames _ _ Hi) (i_base _ _ Hi) R) as (v & -> & _). reflexivity.
      * unfold uses. rewrite A. apply in_or_app. left. left. reflexivity.
      * intros g. destruct (release_ok s tr f s1 (i_frames _ _ Hi) (i_base _ _ Hi) R) as (v & -> & _).
        rewrite !times_uses. cbn [at_ goto with_fr pc_uses tasks olist held]. rewrite A. cbn [pc_uses]. rewrite times_cons. lia.
      * rewrite A. reflexivity.
      * destruct (release_ok s tr f s1 (i_frames _ _ Hi) (i_base _ _ Hi) R) as (v & -> & _). reflexivity.
    + apply inv_event; [exact Hi|exact Logic.I|right; reflexivity].
Qed.

Lemma inv_get_step s tr : inv s tr -> inv (fst (get_step s)) (tr ++ snd (get_step s)).
Proof.
  intros Hi. destruct (at_ s) eqn:A; eauto using inv_rem, inv_ref, inv_old, inv_find, inv_wait, inv_force, inv_fail.
  unfold get_step. rewrite A. cbn [fst snd]. rewrite app_nil_r. exact Hi.
Qed.

(** ** The other threads. *)
Lemma inv_other s tr s2 f s1 :
  inv s tr -> release s f = Some s1 -> at_ s2 = at_ s ->
  fr s2 = fr s1 -> base s2 = base s -> n s2 = n s -> remq s2 = remq s -> lost s2 = lost s ->
  (forall g, times g (flat_map task_uses (tasks s2) ++ olist s2 ++ held s2)
             = times g (flat_map task_uses (tasks s) ++ olist s ++ held s) - (if f =? g then 1 else 0)) ->
  In f (flat_map task_uses (tasks s) ++ olist s ++ held s) ->
  inv s2 (tr ++ [EvUnuse f]).
Proof.
  intros Hi R A F B N Q L T Hin.
  assert (Hin' : In f (uses s)) by (unfold uses; apply in_or_app; right; exact Hin).
  assert (Hu : forall g, times g (uses s2) = times g (uses s) - (if f =? g then 1 else 0)).
  { intros g. unfold uses. rewrite A, !(times_app g (pc_uses (at_ s))), T. lia. }
  eapply inv_release; eauto.
  - rewrite A. reflexivity.
  - intros S1 S2. eapply pc_ok_release; eauto; [apply Hi|].
    intros g. unfold uses. rewrite A, times_app. pose proof (times_nonneg g (flat_map task_uses (tasks s2) ++ olist s2 ++ held s2)). lia.
Qed.

(** A step that moves uses around without changing their number. *)
Lemma inv_move s tr s2 :
  inv s tr -> at_ s2 = at_ s -> fr s2 = fr s -> base s2 = base s -> n s2 = n s -> remq s2 = remq s -> lost s2 = lost s ->
  (forall g, times g (flat_map task_uses (tasks s2) ++ olist s2 ++ held s2)
             = times g (flat_map task_uses (tasks s) ++ olist s ++ held s)) ->
  inv s2 tr.
Proof.
  intros Hi A F B N Q L T.
  assert (Hu : forall g, times g (uses s2) = times g (uses s)).
  { intros g. unfold uses. rewrite A, !(times_app g (pc_uses (at_ s))), T. lia. }
  assert (Ho : forall g, times g (owed s2) = times g (owed s)).
  { intros g. rewrite !times_owed, Hu, A, L. reflexivity. }
  constructor; try rewrite B; try rewrite N; try apply Hi.
  - intros g. rewrite Hu. apply (i_users _ _ Hi).
  - intros g D. unfold dpb in D. rewrite B, N in D. rewrite F, Ho. apply (i_frames _ _ Hi), D.
  - intros g G. apply (i_bound _ _ Hi), times_in. rewrite <- Ho. apply times_in, G.
  - rewrite Q. apply (i_rem _ _ Hi).
  - pose proof (i_pc _ _ Hi) as K. unfold pc_ok in *. rewrite A, F, B, N.
    destruct (at_ s); auto; try (unfold b_ok in *; rewrite F; exact K).
    destruct K as (K1 & K2 & K3 & K4 & K5). repeat split; auto; try apply K3.
    + unfold b_ok in *. rewrite F. exact K4.
    + destruct best as [b|]; [|exact Logic.I]. rewrite Hu. unfold dpb. rewrite B, N. exact K5.
Qed.

Lemma inv_step s tr o : inv s tr -> inv (fst (step s o)) (tr ++ snd (step s o)).
Proof.
  intros Hi. destruct o as [r| |k|k|k|k|k|v b|n']; cbn [step].
  - destruct (at_ s) eqn:A; cbn [fst snd]; try (rewrite app_nil_r; exact Hi).
    set (s2 := goto _ _).
    assert (Eu : uses s2 = uses s) by (unfold uses, s2; cbn; rewrite A; reflexivity).
    assert (Eo : owed s2 = owed s) by (unfold owed; rewrite Eu; unfold s2; cbn; rewrite A; reflexivity).
    constructor; try apply Hi.
    + intros f. rewrite Eu, users_snoc, (i_users _ _ Hi). cbn [delta]. lia.
    + intros f D. rewrite Eo. apply frame_ok_quiet; [exact Logic.I|]. apply (i_frames _ _ Hi), D.
    + intros f. rewrite Eo. apply (i_bound _ _ Hi).
    + rewrite removals_snoc. apply (i_rem _ _ Hi).
    + unfold pc_ok, s2. cbn [at_ goto]. rewrite current_snoc, removals_snoc, (i_rem _ _ Hi).
      repeat split; [apply incl_refl|lia].
  - apply inv_get_step, Hi.
  - destruct (nth_error (tasks s) k) as [t|] eqn:T; cbn [fst snd]; [|rewrite app_nil_r; exact Hi].
    destruct (t_out t) eqn:O; cbn [fst snd]; rewrite app_nil_r; [exact Hi|].
    eapply inv_move; try exact Hi; try reflexivity. intros g.
    cbn [tasks olist held with_out with_tasks]. rewrite !times_app, (times_swap g task_uses _ k t _ T).
    unfold task_uses at 2 3. cbn [t_refs t_dec t_out]. rewrite O, !times_app, !times_cons, !times_nil. lia.
  - destruct (nth_error (tasks s) k) as [t|] eqn:T; cbn [fst snd]; [|rewrite app_nil_r; exact Hi].
    destruct (t_out t) eqn:O; cbn [negb fst snd]; [|rewrite app_nil_r; exact Hi].
    assert (Tin : forall f, In f (task_uses t) -> In f (flat_map task_uses (tasks s) ++ olist s ++ held s)).
    { intros f I1. apply in_or_app. left. apply in_flat_map. exists t. split; [eapply nth_error_In; eauto|exact I1]. }
    destruct (t_refs t) as [|f l] eqn:L.
    + destruct (release s (t_dec t)) as [s1|] eqn:R; cbn [fst snd]; [|apply inv_event; [exact Hi|exact Logic.I|right; reflexivity]].
      destruct (release_ok s tr _ s1 (i_frames _ _ Hi) (i_base _ _ Hi) R) as (v & E1 & _). subst s1.
      eapply inv_other; try exact R; try exact Hi; try reflexivity.
      * intros g. cbn [tasks olist held with_fr with_tasks]. rewrite !times_app, (times_cut g task_uses _ k t T).
        unfold task_uses at 2. rewrite O, L. cbn [app]. rewrite times_cons, times_nil. lia.
      * apply Tin. unfold task_uses. rewrite O, L. left. reflexivity.
    + destruct (release s f) as [s1|] eqn:R; cbn [fst snd]; [|apply inv_event; [exact Hi|exact Logic.I|right; reflexivity]].
      destruct (release_ok s tr _ s1 (i_frames _ _ Hi) (i_base _ _ Hi) R) as (v & E1 & _). subst s1.
      eapply inv_other; try exact R; try exact Hi; try reflexivity.
      * intros g. cbn [tasks olist held with_fr with_tasks]. rewrite !times_app, (times_swap g task_uses _ k t _ T).
        unfold task_uses at 2 3. cbn [t_refs t_dec t_out]. rewrite O, L, !times_app, !times_cons, !times_nil. lia.
      * apply Tin. unfold task_uses. rewrite O, L. left. reflexivity.
  - destruct (nth_error (tasks s) k) as [t|] eqn:T; cbn [fst snd]; [|rewrite app_nil_r; exact Hi].
    destruct (t_out t) eqn:O; cbn [fst snd]; [rewrite app_nil_r; exact Hi|].
    set (l := t_refs t ++ [t_dec t; t_dec t]). set (s2 := St _ _ _ _ _ _ _ _ _ _ _).
    assert (El : task_uses t = l) by (unfold task_uses; rewrite O; reflexivity).
    assert (Eu : forall g, times g (uses s2) = times g (uses s) - times g l).
    { intros g. rewrite !times_uses. unfold s2. cbn [at_ tasks olist held]. rewrite (times_cut g task_uses _ k t T), El. lia. }
    assert (Eo : forall g, times g (owed s2) = times g (owed s)).
    { intros g. rewrite !times_owed, Eu. unfold s2. cbn [at_ lost]. rewrite times_app. lia. }
    constructor; try apply Hi.
    + intros g. rewrite users_snoc, (i_users _ _ Hi), Eu. cbn [delta]. lia.
    + intros g D. rewrite Eo. apply frame_ok_quiet; [exact Logic.I|]. apply (i_frames _ _ Hi), D.
    + intros g G. apply (i_bound _ _ Hi), times_in. rewrite <- Eo. apply times_in, G.
    + rewrite removals_snoc. apply (i_rem _ _ Hi).
    + pose proof (i_pc _ _ Hi) as K. unfold pc_ok in *. rewrite current_snoc, removals_snoc.
      change (at_ s2) with (at_ s). destruct (at_ s); auto.
      destruct K as (K1 & K2 & K3 & K4 & K5). split; [exact K1|]. split; [exact K2|]. split; [exact K3|]. split; [exact K4|].
      destruct best as [b|]; [|exact Logic.I]. destruct K5 as (B1 & B2 & B3 & B4). split; [exact B1|]. split; [exact B2|]. split; [exact B3|].
      rewrite Eu, B4. rewrite times_uses in B4. pose proof (times_nonneg b (pc_uses (at_ s))).
      pose proof (times_cut b task_uses _ k t T) as C. rewrite El in C.
      pose proof (times_nonneg b (flat_map task_uses (cut k (tasks s)))). pose proof (times_nonneg b (olist s)). pose proof (times_nonneg b (held s)).
      pose proof (times_nonneg b l). lia.
  - destruct (nth_error (olist s) k) as [f|] eqn:T; cbn [fst snd]; rewrite app_nil_r; [|exact Hi].
    eapply inv_move; try exact Hi; try reflexivity. intros g.
    cbn [tasks olist held with_out]. rewrite !times_app, (times_cutz g _ k f T), times_cons, times_nil. lia.
  - destruct (nth_error (held s) k) as [f|] eqn:T; cbn [fst snd]; [|rewrite app_nil_r; exact Hi].
    destruct (release s f) as [s1|] eqn:R; cbn [fst snd]; [|apply inv_event; [exact Hi|exact Logic.I|right; reflexivity]].
    destruct (release_ok s tr _ s1 (i_frames _ _ Hi) (i_base _ _ Hi) R) as (v & E1 & _). subst s1.
    eapply inv_other; try exact R; try exact Hi; try reflexivity.
    + intros g. cbn [tasks olist held with_fr with_out]. rewrite !times_app, (times_cutz g _ k f T). lia.
    + apply in_or_app. right. apply in_or_app. right. eapply nth_error_In; eauto.
  - cbn [fst snd]. rewrite app_nil_r. eapply inv_move; try exact Hi; reflexivity.
  - destruct (at_ s) eqn:A; cbn [fst snd]; try (rewrite app_nil_r; exact Hi).
    destruct (n' <? 0) eqn:Nn; cbn [fst snd]; [rewrite app_nil_r; exact Hi|]. apply Z.ltb_ge in Nn.
    set (s2 := St _ _ _ _ _ _ _ _ _ _ _). pose proof (i_n _ _ Hi). pose proof (i_base _ _ Hi).
    assert (Eu : uses s2 = uses s) by (unfold uses, s2; cbn; rewrite A; reflexivity).
    assert (Eo : owed s2 = owed s) by (unfold owed; rewrite Eu; unfold s2; cbn; rewrite A; reflexivity).
    constructor.
    + exact Nn.
    + cbn. lia.
    + intros f. rewrite Eu, users_snoc, (i_users _ _ Hi). cbn [delta]. lia.
    + intros f D. unfold dpb, s2 in D. cbn [base n] in D. rewrite Eo. unfold s2. cbn [fr].
      replace (f <? 0) with false by (symmetry; apply Z.ltb_ge; lia).
      assert (T0 : times f (owed s) = 0).
      { pose proof (times_nonneg f (owed s)). destruct (Z.eq_dec (times f (owed s)) 0) as [E|E]; [exact E|].
        exfalso. assert (X : In f (owed s)) by (apply times_in; lia). apply (i_bound _ _ Hi) in X. lia. }
      rewrite T0. unfold frame_ok. rewrite marked_snoc. replace (0 <=? f) with true by (symmetry; apply Z.leb_le; lia).
      cbn. repeat split; auto.
    + intros f. rewrite Eo. intros G. apply (i_bound _ _ Hi) in G. unfold s2. cbn [base n]. lia.
    + rewrite removals_snoc. apply (i_rem _ _ Hi).
    + exact Logic.I.
Qed.

Lemma run_app s a b : run s (a ++ b) = let '(s1, e1) := run s a in let '(s2, e2) := run s1 b in (s2, e1 ++ e2).
Proof.
  revert s; induction a as [|o a IH]; intros s; cbn [run app].
  - destruct (run s b); reflexivity.
  - destruct (step s o) as [s1 e]. rewrite IH. destruct (run s1 a) as [s2 e2]. destruct (run s2 b) as [s3 e3].
    rewrite app_assoc. reflexivity.
Qed.

Lemma inv_run ops s tr : inv s tr -> inv (fst (run s ops)) (tr ++ snd (run s ops)).
Proof.
  revert s tr; induction ops as [|o t IH]; intros s tr Hi; cbn [run].
  - cbn [fst snd]. rewrite app_nil_r. exact Hi.
  - pose proof (inv_step s tr o Hi) as H1. destruct (step s o) as [s1 e]. cbn [fst snd] in H1.
    specialize (IH s1 _ H1). destruct (run s1 t) as [s2 e2]. cbn [fst snd] in *. rewrite app_assoc. exact IH.
Qed.
