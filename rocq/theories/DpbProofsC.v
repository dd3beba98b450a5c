(** Consequences of the invariant. *)
From Coq Require Import ZArith List Bool Lia.
From Verif Require Import CBase CBaseProofs DpbModel DpbSpec DpbProofs DpbProofsB.
Import ListNotations.
Open Scope Z_scope.

Lemma step_one s o : snd (step s o) = [] \/ exists e, snd (step s o) = [e].
Proof.
  destruct o; cbn [step];
    try (unfold get_step, start;
         repeat match goal with
                | |- context [match ?x with _ => _ end] => destruct x
                end; cbn [snd]; eauto).
Qed.

Lemma event_split ops s tr pre e post :
  inv s tr -> snd (run s ops) = pre ++ e :: post ->
  exists s1 o, inv s1 (tr ++ pre) /\ snd (step s1 o) = [e].
Proof.
  revert s tr pre; induction ops as [|o t IH]; intros s tr pre Hi H; cbn [run] in H.
  - destruct pre; discriminate.
  - pose proof (inv_step s tr o Hi) as H1. pose proof (step_one s o) as H2.
    destruct (step s o) as [s1 e1] eqn:E1. cbn [fst snd] in *.
    destruct (run s1 t) as [s2 e2] eqn:E2. cbn [snd] in H.
    destruct H2 as [-> | [x ->]].
    + rewrite app_nil_r in H1. cbn [app] in H. apply (IH s1 tr pre H1). rewrite E2. exact H.
    + cbn [app] in H. destruct pre as [|y pre].
      * cbn [app] in H. assert (x = e) by congruence. subst x.
        exists s, o. rewrite app_nil_r, E1. auto.
      * cbn [app] in H. assert (x = y) by congruence. subst y.
        destruct (IH s1 (tr ++ [x]) pre H1) as (s3 & o3 & A & B).
        -- rewrite E2. cbn [snd]. congruence.
        -- exists s3, o3. rewrite <- app_assoc in A. auto.
Qed.

Lemma events_split n0 ops pre e post :
  0 <= n0 -> events n0 ops = pre ++ e :: post -> exists s o, inv s pre /\ snd (step s o) = [e].
Proof. intros N H. exact (event_split ops _ [] pre e post (inv_init n0 N) H). Qed.

(** Which step produces which event. *)
Lemma start_event s o r f got forced :
  snd (step s o) = [EvStart r f got forced] ->
  o = Step /\
  ((exists j, at_ s = PFind r got j /\ f = base s + j /\ (n s <=? j) = false /\ f_rc (fr s f) = 0 /\ f_refd (fr s f) = false /\ forced = false)
   \/ (exists j, at_ s = PForce r got j (Some f) /\ forced = true)).
Proof.
  destruct o; cbn [step]; intros H.
  - destruct (at_ s); discriminate.
  - split; [reflexivity|]. unfold get_step, start in H.
    destruct (at_ s) as [|r1 l j|r1 l j g1|r1 g1 j|r1 g1 j|r1 g1|r1 g1 j best|g1] eqn:A.
    + discriminate.
    + destruct l; [destruct (r_gb r1); discriminate|]. destruct (n s <=? j); [discriminate|]. cbv zeta in H.
      destruct (is_valid _ && _); discriminate.
    + destruct l; [destruct (b_ok s r1 g1); discriminate|]. destruct (n s <=? j); [discriminate|]. cbv zeta in H.
      match type of H with context [if ?c then _ else _] => destruct c end; discriminate.
    + destruct (n s <=? j); [discriminate|]. cbv zeta in H.
      destruct (is_valid _ && _); [|discriminate]. destruct (_ =? 0); [discriminate|]. destruct (_ =? 0); discriminate.
    + destruct (n s <=? j) eqn:E; [discriminate|]. cbv zeta in H.
      destruct ((f_rc (fr s (base s + j)) =? 0) && negb (f_refd (fr s (base s + j)))) eqn:M; [|discriminate].
      cbn [snd] in H. injection H as -> <- -> <-. left. exists j.
      apply andb_true_iff in M as [M1 M2]. apply Z.eqb_eq in M1. apply negb_true_iff in M2. auto 6.
    + destruct (has_blocking s); [|discriminate]. destruct (olist s); discriminate.
    + destruct (n s <=? j) eqn:E.
      * destruct best as [b|]; [|discriminate]. cbn [snd] in H. injection H as -> -> -> <-. right. eauto.
      * cbv zeta in H. match type of H with context [if ?c then _ else _] => destruct c end; discriminate.
    + destruct g1; [discriminate|]. destruct (release s z); discriminate.
  - destruct (nth_error (tasks s) k); [|discriminate]. destruct (t_out t); discriminate.
  - destruct (nth_error (tasks s) k); [|discriminate]. destruct (t_out t); cbn [negb] in H; [|discriminate].
    destruct (t_refs t); match type of H with context [release ?a ?b] => destruct (release a b) end; discriminate.
  - destruct (nth_error (tasks s) k); [|discriminate]. destruct (t_out t); discriminate.
  - destruct (nth_error (olist s) k); discriminate.
  - destruct (nth_error (held s) k); [|discriminate]. match type of H with context [release ?a ?b] => destruct (release a b) end; discriminate.
  - discriminate.
  - destruct (at_ s); try discriminate. destruct (n' <? 0); discriminate.
Qed.

Lemma forget_event s o f :
  snd (step s o) = [EvForget f] ->
  o = Step /\
  ((exists r c l j, at_ s = PRem r (c :: l) j /\ f = base s + j /\ (n s <=? j) = false /\ is_valid (fr s f) = true /\ f_coi (fr s f) = c)
   \/ (exists r got j, at_ s = POld r got j /\ f = base s + j /\ (n s <=? j) = false /\ is_valid (fr s f) = true
                       /\ MAX_POC_DISTANCE <= Z.abs (f_poc (fr s f) - r_poc r))).
Proof.
  destruct o; cbn [step]; intros H.
  - destruct (at_ s); discriminate.
  - split; [reflexivity|]. unfold get_step, start in H.
    destruct (at_ s) as [|r1 l j|r1 l j g1|r1 g1 j|r1 g1 j|r1 g1|r1 g1 j best|g1] eqn:A.
    + discriminate.
    + destruct l as [|c l]; [destruct (r_gb r1); discriminate|]. destruct (n s <=? j) eqn:E; [discriminate|]. cbv zeta in H.
      destruct (is_valid (fr s (base s + j)) && (f_coi (fr s (base s + j)) =? c)) eqn:M; [|discriminate].
      cbn [snd] in H. injection H as <-. apply andb_true_iff in M as [M1 M2]. apply Z.eqb_eq in M2.
      left. exists r1, c, l, j. auto.
    + destruct l; [destruct (b_ok s r1 g1); discriminate|]. destruct (n s <=? j); [discriminate|]. cbv zeta in H.
      match type of H with context [if ?c then _ else _] => destruct c end; discriminate.
    + destruct (n s <=? j) eqn:E; [discriminate|]. cbv zeta in H.
      destruct (is_valid (fr s (base s + j)) && (MAX_POC_DISTANCE <=? Z.abs (f_poc (fr s (base s + j)) - r_poc r1))) eqn:M; [|discriminate].
      apply andb_true_iff in M as [M1 M2]. apply Z.leb_le in M2.
      right. exists r1, g1, j.
      destruct (_ =? 0); [|destruct (_ =? 0); [|discriminate]]; cbn [snd] in H; injection H as <-; auto.
    + destruct (n s <=? j) eqn:E; [discriminate|]. cbv zeta in H.
      destruct (_ && _); discriminate.
    + destruct (has_blocking s); [|discriminate]. destruct (olist s); discriminate.
    + destruct (n s <=? j) eqn:E.
      * destruct best as [b|]; discriminate.
      * cbv zeta in H. match type of H with context [if ?c then _ else _] => destruct c end; discriminate.
    + destruct g1; [discriminate|]. destruct (release s z); discriminate.
  - destruct (nth_error (tasks s) k); [|discriminate]. destruct (t_out t); discriminate.
  - destruct (nth_error (tasks s) k); [|discriminate]. destruct (t_out t); cbn [negb] in H; [|discriminate].
    destruct (t_refs t); match type of H with context [release ?a ?b] => destruct (release a b) end; discriminate.
  - destruct (nth_error (tasks s) k); [|discriminate]. destruct (t_out t); discriminate.
  - destruct (nth_error (olist s) k); discriminate.
  - destruct (nth_error (held s) k); [|discriminate]. match type of H with context [release ?a ?b] => destruct (release a b) end; discriminate.
  - discriminate.
  - destruct (at_ s); try discriminate. destruct (n' <? 0); discriminate.
Qed.

Lemma ref_event s o f :
  snd (step s o) = [EvRef f] ->
  exists r d l j got, at_ s = PRef r (d :: l) j got /\ f = base s + j /\ (n s <=? j) = false
                      /\ f_coi (fr s f) = r_coi r - d /\ f_disp (fr s f) = 0 /\ f_refd (fr s f) = true /\ is_valid (fr s f) = true.
Proof.
  destruct o; cbn [step]; intros H.
  - destruct (at_ s); discriminate.
  - unfold get_step, start in H.
    destruct (at_ s) as [|r1 l j|r1 l j g1|r1 g1 j|r1 g1 j|r1 g1|r1 g1 j best|g1] eqn:A.
    + discriminate.
    + destruct l as [|c l]; [destruct (r_gb r1); discriminate|]. destruct (n s <=? j) eqn:E; [discriminate|]. cbv zeta in H.
      destruct (is_valid _ && _); discriminate.
    + destruct l as [|d l]; [destruct (b_ok s r1 g1); discriminate|]. destruct (n s <=? j) eqn:E; [discriminate|]. cbv zeta in H.
      match type of H with context [if ?c then _ else _] => destruct c eqn:M end; [|discriminate].
      cbn [snd] in H. injection H as <-.
      apply andb_true_iff in M as [M M5]. apply andb_true_iff in M as [M M4]. apply andb_true_iff in M as [M M3].
      apply andb_true_iff in M as [M1 _]. apply Z.eqb_eq in M3, M4.
      exists r1, d, l, j, g1. repeat split; auto.
    + destruct (n s <=? j); [discriminate|]. cbv zeta in H.
      destruct (is_valid _ && _); [|discriminate]. destruct (_ =? 0); [discriminate|]. destruct (_ =? 0); discriminate.
    + destruct (n s <=? j) eqn:E; [discriminate|]. cbv zeta in H.
      destruct (_ && _); discriminate.
    + destruct (has_blocking s); [|discriminate]. destruct (olist s); discriminate.
    + destruct (n s <=? j) eqn:E.
      * destruct best as [b|]; discriminate.
      * cbv zeta in H. match type of H with context [if ?c then _ else _] => destruct c end; discriminate.
    + destruct g1; [discriminate|]. destruct (release s z); discriminate.
  - destruct (nth_error (tasks s) k); [|discriminate]. destruct (t_out t); discriminate.
  - destruct (nth_error (tasks s) k); [|discriminate]. destruct (t_out t); cbn [negb] in H; [|discriminate].
    destruct (t_refs t); match type of H with context [release ?a ?b] => destruct (release a b) end; discriminate.
  - destruct (nth_error (tasks s) k); [|discriminate]. destruct (t_out t); discriminate.
  - destruct (nth_error (olist s) k); discriminate.
  - destruct (nth_error (held s) k); [|discriminate]. match type of H with context [release ?a ?b] => destruct (release a b) end; discriminate.
  - discriminate.
  - destruct (at_ s); try discriminate. destruct (n' <? 0); discriminate.
Qed.

(** ** C21 *)
Lemma target_unused n0 ops pre r f refs forced post :
  0 <= n0 -> events n0 ops = pre ++ EvStart r f refs forced :: post ->
  users f pre = 0 /\ (forced = false -> marked f pre = false).
Proof.
  intros N H. destruct (events_split n0 ops pre _ post N H) as (s & o & Hi & E).
  apply start_event in E as (_ & [(j & A & -> & Ej & R & M & Fo) | (j & A & Fo)]).
  - pose proof (i_pc _ _ Hi) as K. unfold pc_ok in K. rewrite A in K. destruct K as (_ & J & _).
    pose proof (dpb_at s j J Ej) as D. destruct (unused s pre _ Hi D R) as (U & _ & _).
    split; [rewrite (i_users _ _ Hi); exact U|]. intros _.
    destruct (i_frames _ _ Hi _ D) as (_ & _ & _ & Mk & _). rewrite Mk, M. reflexivity.
  - pose proof (i_pc _ _ Hi) as K. unfold pc_ok in K. rewrite A in K. destruct K as (_ & _ & _ & _ & K).
    split; [rewrite (i_users _ _ Hi); apply K|]. congruence.
Qed.

Lemma valid_content s tr f : inv s tr -> dpb s f -> is_valid (fr s f) = true ->
  exists r, content f tr = Some r /\ f_coi (fr s f) = r_coi r /\ f_poc (fr s f) = r_poc r /\ f_refd (fr s f) = r_refd r.
Proof.
  intros Hi D V. destruct (i_frames _ _ Hi f D) as (_ & _ & _ & _ & [(C & _ & _) | K]); [|exact K].
  unfold is_valid in V. rewrite C in V. discriminate.
Qed.

Lemma forget_justified n0 ops pre f post :
  0 <= n0 -> events n0 ops = pre ++ EvForget f :: post ->
  exists p, content f pre = Some p
    /\ (In (r_coi p) (removals pre)
        \/ exists r, current pre = Some r /\ MAX_POC_DISTANCE <= Z.abs (r_poc p - r_poc r)).
Proof.
  intros N H. destruct (events_split n0 ops pre _ post N H) as (s & o & Hi & E).
  pose proof (i_pc _ _ Hi) as K. unfold pc_ok in K.
  apply forget_event in E as (_ & [(r & c & l & j & A & -> & Ej & V & C) | (r & got & j & A & -> & Ej & V & C)]); rewrite A in K.
  - destruct K as (_ & L & J). pose proof (dpb_at s j J Ej) as D.
    destruct (valid_content s pre _ Hi D V) as (p & P1 & P2 & P3 & P4).
    exists p. split; [exact P1|]. left. apply L. left. congruence.
  - destruct K as (Cu & J & _). pose proof (dpb_at s j J Ej) as D.
    destruct (valid_content s pre _ Hi D V) as (p & P1 & P2 & P3 & P4).
    exists p. split; [exact P1|]. right. exists r. split; [exact Cu|]. rewrite <- P3. exact C.
Qed.

(** ** C23 *)

Lemma got_refs s tr r ds got :
  inv s tr -> pc_uses (at_ s) = got -> got_ok (fr s) (base s) (base s + n s) r ds got -> Forall2 (ref_ok tr r) ds got.
Proof.
  intros Hi E G. assert (X : forall f, In f got -> 0 < users f tr).
  { intros f I1. rewrite (i_users _ _ Hi). pose proof (got_in s got f E I1). pose proof (times_nonneg f (uses s)). lia. }
  clear E. unfold got_ok in G. induction G as [|d f ds got (D & C & V & M) _ IH]; constructor.
  - split; [apply X; left; reflexivity|]. destruct (valid_content s tr f Hi D V) as (p & P1 & P2 & P3 & P4).
    exists p. repeat split; congruence.
  - apply IH. intros g I1. apply X. right; exact I1.
Qed.

Lemma got_b s tr r ds got :
  inv s tr -> got_ok (fr s) (base s) (base s + n s) r ds got -> b_ok s r got = true -> r_b r = true ->
  exists f0 f1 p0 p1, got = [f0; f1] /\ content f0 tr = Some p0 /\ content f1 tr = Some p1
                      /\ r_poc p1 < r_poc r < r_poc p0.
Proof.
  intros Hi G B Rb. unfold b_ok in B. rewrite Rb in B.
  destruct got as [|f0 [|f1 [|? ?]]]; try discriminate.
  apply andb_true_iff in B as [B0 B1]. apply Z.ltb_lt in B0, B1.
  unfold got_ok in G. inversion G as [|d0 x0 ds0 g0 (D0 & C0 & V0 & M0) G0]; subst.
  inversion G0 as [|d1 x1 ds1 g1 (D1 & C1 & V1 & M1) G1]; subst.
  destruct (valid_content s tr f0 Hi D0 V0) as (p0 & P1 & P2 & P3 & P4).
  destruct (valid_content s tr f1 Hi D1 V1) as (p1 & Q1 & Q2 & Q3 & Q4).
  exists f0, f1, p0, p1. repeat split; auto; lia.
Qed.

Lemma start_refs n0 ops pre r f refs forced post :
  0 <= n0 -> events n0 ops = pre ++ EvStart r f refs forced :: post ->
  current pre = Some r /\ Forall2 (ref_ok pre r) (r_ref r) refs
  /\ (r_b r = true -> around pre r refs).
Proof.
  intros N H. destruct (events_split n0 ops pre _ post N H) as (s & o & Hi & E).
  pose proof (i_pc _ _ Hi) as K. unfold pc_ok in K.
  apply start_event in E as (_ & [(j & A & -> & Ej & R & M & Fo) | (j & A & Fo)]); rewrite A in K.
  - destruct K as (Cu & J & G & B). split; [exact Cu|]. split.
    + eapply got_refs; eauto. rewrite A; reflexivity.
    + eapply got_b; eauto.
  - destruct K as (Cu & J & G & B & _). split; [exact Cu|]. split.
    + eapply got_refs; eauto. rewrite A; reflexivity.
    + eapply got_b; eauto.
Qed.

Lemma ref_marked n0 ops pre f post :
  0 <= n0 -> events n0 ops = pre ++ EvRef f :: post -> marked f pre = true.
Proof.
  intros N H. destruct (events_split n0 ops pre _ post N H) as (s & o & Hi & E).
  pose proof (i_pc _ _ Hi) as K. unfold pc_ok in K.
  apply ref_event in E as (r & d & l & j & got & A & -> & Ej & C & Di & M & V). rewrite A in K.
  destruct K as (_ & J & _). pose proof (dpb_at s j J Ej) as D.
  destruct (i_frames _ _ Hi _ D) as (_ & _ & _ & Mk & _). rewrite Mk, M, Di. reflexivity.
Qed.

(** ** C22 *)
Lemma undef_event s o :
  snd (step s o) = [EvUndef] -> exists f, In f (uses s) /\ release s f = None.
Proof.
  destruct o; cbn [step]; intros H.
  - destruct (at_ s); discriminate.
  - unfold get_step, start in H.
    destruct (at_ s) as [|r1 l j|r1 l j g1|r1 g1 j|r1 g1 j|r1 g1|r1 g1 j best|g1] eqn:A.
    + discriminate.
    + destruct l as [|c l]; [destruct (r_gb r1); discriminate|]. destruct (n s <=? j) eqn:E; [discriminate|]. cbv zeta in H.
      destruct (is_valid _ && _); discriminate.
    + destruct l as [|d l]; [destruct (b_ok s r1 g1); discriminate|]. destruct (n s <=? j) eqn:E; [discriminate|]. cbv zeta in H.
      match type of H with context [if ?c then _ else _] => destruct c eqn:M end; discriminate.
    + destruct (n s <=? j); [discriminate|]. cbv zeta in H.
      destruct (is_valid _ && _); [|discriminate]. destruct (_ =? 0); [discriminate|]. destruct (_ =? 0); discriminate.
    + destruct (n s <=? j) eqn:E; [discriminate|]. cbv zeta in H.
      destruct (_ && _); discriminate.
    + destruct (has_blocking s); [|discriminate]. destruct (olist s); discriminate.
    + destruct (n s <=? j) eqn:E.
      * destruct best as [b|]; discriminate.
      * cbv zeta in H. match type of H with context [if ?c then _ else _] => destruct c end; discriminate.
    + destruct g1 as [|z g1]; [discriminate|]. destruct (release s z) eqn:R; [discriminate|].
      exists z. split; [|exact R]. unfold uses. rewrite A. left. reflexivity.
  - destruct (nth_error (tasks s) k); [|discriminate]. destruct (t_out t); discriminate.
  - destruct (nth_error (tasks s) k) as [t|] eqn:T; [|discriminate]. destruct (t_out t) eqn:O; cbn [negb] in H; [|discriminate].
    assert (X : forall f, In f (task_uses t) -> In f (uses s)).
    { intros f I1. unfold uses. apply in_or_app; right. apply in_or_app; left. apply in_flat_map.
      exists t. split; [eapply nth_error_In; eauto|exact I1]. }
    unfold task_uses in X. rewrite O in X.
    destruct (t_refs t) as [|f l]; match type of H with context [release ?a ?b] => destruct (release a b) eqn:R end; try discriminate.
    + exists (t_dec t). split; [|exact R]. apply X. left; reflexivity.
    + exists f. split; [|exact R]. apply X. left; reflexivity.
  - destruct (nth_error (tasks s) k); [|discriminate]. destruct (t_out t); discriminate.
  - destruct (nth_error (olist s) k); discriminate.
  - destruct (nth_error (held s) k) as [f|] eqn:T; [|discriminate].
    destruct (release s f) eqn:R; [discriminate|]. exists f. split; [|exact R].
    unfold uses. do 3 (apply in_or_app; right). eapply nth_error_In; eauto.
  - discriminate.
  - destruct (at_ s); try discriminate. destruct (n' <? 0); discriminate.
Qed.

Lemma calm_prefix a b : calm (a ++ b) -> calm a.
Proof.
  intros [H1 H2]. split.
  - intros f I1. apply (H1 f), in_or_app. left; exact I1.
  - intros pre post E. apply (H2 pre (post ++ b)). rewrite E, <- app_assoc. reflexivity.
Qed.

Lemma release_same s f s1 : release s f = Some s1 -> base s1 = base s /\ n s1 = n s /\ lost s1 = lost s.
Proof.
  unfold release. destruct (_ && _); [discriminate|]. destruct (_ =? 0); [discriminate|].
  intros H. cbv zeta in H. apply Some_inj in H. subst s1. auto.
Qed.

Definition all_in (s : st) : Prop := forall f, In f (uses s) -> dpb s f.

Lemma uses_after s tr o : inv s tr -> all_in s ->
  (forall f, ~ In (EvBackground f) (snd (step s o))) ->
  (snd (step s o) = [EvReset] -> forall f, users f tr = 0) ->
  all_in (fst (step s o)).
Proof.
  intros Hi Ha Hb Hr f Hf.
  pose proof (inv_step s tr o Hi) as Hi2.
  assert (Rg : snd (step s o) = [EvReset] \/ (base (fst (step s o)) = base s /\ n (fst (step s o)) = n s)).
  { clear. destruct o; cbn [step]; unfold get_step, start;
    repeat match goal with
           | |- context [match ?x with _ => _ end] => destruct x eqn:?
           end; cbn; auto;
    match goal with H : release _ _ = Some _ |- _ => apply release_same in H as (-> & -> & _) end; auto. }
  destruct Rg as [Rg | [Rb Rn]].
  - specialize (Hr Rg). assert (U0 : uses s = []).
    { apply times_all_nil. intros g. rewrite <- (i_users _ _ Hi). apply Hr. }
    exfalso. pose proof (i_users _ _ Hi2 f) as T. rewrite Rg, users_snoc, Hr in T. cbn [delta] in T.
    apply times_in in Hf. lia.
  - unfold dpb. rewrite Rb, Rn. change (dpb s f).
    assert (T2 : 0 < users f tr + fold_left (fun a e => a + delta f e) (snd (step s o)) 0).
    { apply times_in in Hf. rewrite <- (i_users _ _ Hi2) in Hf. unfold users in Hf. rewrite fold_left_app in Hf.
      fold (users f tr) in Hf. destruct (step_one s o) as [E | [e E]]; rewrite E in *; cbn [fold_left] in *; lia. }
    assert (Old : 0 < users f tr -> dpb s f).
    { intros P. apply Ha, times_in. rewrite <- (i_users _ _ Hi). exact P. }
    destruct (step_one s o) as [E | [e E]]; rewrite E in T2; cbn [fold_left] in T2; [apply Old; lia|].
    pose proof (i_pc _ _ Hi) as K. unfold pc_ok in K.
    destruct e as [r0|l0|f0|f0|r0 f0 g0 b0|f0| |f0|l0| |]; cbn [delta] in T2; try (apply Old; lia).
    + destruct (Z.eqb_spec f0 f) as [Ee|Ne]; [subst f0|apply Old; lia].
      apply ref_event in E as (r & d & l & j & got & A & -> & Ej & _). rewrite A in K. apply dpb_at; [apply K|exact Ej].
    + destruct (Z.eqb_spec f0 f) as [Ee|Ne]; [subst f0|apply Old; lia].
      apply start_event in E as (_ & [(j & A & -> & Ej & _) | (j & A & _)]); rewrite A in K.
      * apply dpb_at; [apply K|exact Ej].
      * apply K.
    + exfalso. apply (Hb f0). rewrite E. left; reflexivity.
    + destruct (f0 =? f); apply Old; lia.
    + pose proof (times_nonneg f l0). apply Old; lia.
Qed.

Lemma in_use_run ops s tr : inv s tr -> all_in s -> calm (tr ++ snd (run s ops)) ->
  ~ In EvUndef (snd (run s ops)) /\ all_in (fst (run s ops)).
Proof.
  revert s tr; induction ops as [|o t IH]; intros s tr Hi Ha Hc; cbn [run] in *.
  - split; [intros []|exact Ha].
  - pose proof (inv_step s tr o Hi) as Hi1. pose proof (uses_after s tr o Hi Ha) as Hu. pose proof (undef_event s o) as Un.
    pose proof (step_one s o) as So.
    destruct (step s o) as [s1 e] eqn:Es. cbn [fst snd] in *. specialize (IH s1 (tr ++ e) Hi1).
    destruct (run s1 t) as [s2 e2]. cbn [fst snd] in *. rewrite app_assoc in Hc.
    assert (Ha1 : all_in s1).
    { apply Hu.
      - intros f I1. apply calm_prefix in Hc. apply (proj1 Hc f), in_or_app. right; exact I1.
      - intros ->. apply (proj2 Hc tr e2). rewrite <- app_assoc. reflexivity. }
    destruct (IH Ha1 Hc) as [N A2]. split; [|exact A2].
    intros I1. apply in_app_or in I1 as [I1|I1]; [|exact (N I1)].
    destruct So as [-> | [x ->]]; [destruct I1|]. destruct I1 as [->|[]].
    destruct (Un eq_refl) as (f & F & R). pose proof (Ha f F) as D.
    destruct (i_frames _ _ Hi f D) as (Rc & _).
    destruct (release_some s f) as [s3 R3]; [unfold dpb in D; lia| |congruence].
    rewrite Rc, times_owed. apply times_in in F. pose proof (times_nonneg f (pc_prov (at_ s))). pose proof (times_nonneg f (lost s)). lia.
Qed.

Lemma no_undef n0 ops : 0 <= n0 -> calm (events n0 ops) -> ~ In EvUndef (events n0 ops).
Proof.
  intros N C. refine (proj1 (in_use_run ops (st_init n0) [] (inv_init n0 N) _ C)). intros f [].
Qed.

(** Nothing is lost unless a task is dropped. *)
Lemma step_lost s o : lost s = [] -> (forall l, ~ In (EvDrop l) (snd (step s o))) -> lost (fst (step s o)) = [].
Proof.
  intros L H. destruct o; cbn [step] in *; unfold get_step, start in *;
    repeat match goal with
           | |- context [match ?x with _ => _ end] => destruct x eqn:?
           end; cbn [fst snd lost goto with_fr with_tasks with_out] in *; auto;
    try match goal with X : release _ _ = Some _ |- _ => apply release_same in X as (_ & _ & ->); exact L end.
  exfalso. eapply H. left. reflexivity.
Qed.
Lemma run_lost ops s : lost s = [] -> (forall l, ~ In (EvDrop l) (snd (run s ops))) -> lost (fst (run s ops)) = [].
Proof.
  revert s; induction ops as [|o t IH]; intros s L H; cbn [run] in *; [exact L|].
  pose proof (step_lost s o L) as H1. destruct (step s o) as [s1 e]. specialize (IH s1). destruct (run s1 t) as [s2 e2].
  cbn [fst snd] in *. apply IH.
  - apply H1. intros l I1. apply (H l), in_or_app. left; exact I1.
  - intros l I1. apply (H l), in_or_app. right; exact I1.
Qed.

Lemma find_step s r got f :
  dpb s f ->
  snd (step (goto s (PFind r got (f - base s))) Step) = [EvStart r f got false]
  <-> (f_rc (fr s f) = 0 /\ f_refd (fr s f) = false).
Proof.
  intros D. unfold dpb in D. cbn [step get_step at_ goto n base fr].
  replace (n s <=? f - base s) with false by (symmetry; apply Z.leb_gt; lia).
  replace (base s + (f - base s)) with f by lia.
  destruct (Z.eqb_spec (f_rc (fr s f)) 0) as [R|R]; destruct (f_refd (fr s f)) eqn:M; cbn [andb negb start snd].
  - split; [discriminate|intros [_ X]; discriminate].
  - split; auto.
  - split; [discriminate|intros [X _]; contradiction].
  - split; [discriminate|intros [X _]; contradiction].
Qed.

Lemma reusable_iff n0 ops s tr r got f :
  0 <= n0 -> run (st_init n0) ops = (s, tr) -> dpb s f -> (forall l, ~ In (EvDrop l) tr) -> at_ s = POut ->
  snd (step (goto s (PFind r got (f - base s))) Step) = [EvStart r f got false]
  <-> (users f tr = 0 /\ marked f tr = false).
Proof.
  intros N Hr D Nd A. rewrite (find_step s r got f D).
  pose proof (inv_run ops _ _ (inv_init n0 N)) as Hi. rewrite Hr in Hi. cbn [fst snd app] in Hi.
  pose proof (run_lost ops (st_init n0) eq_refl) as L. rewrite Hr in L. cbn [fst snd] in L. specialize (L Nd).
  destruct (i_frames _ _ Hi f D) as (R & D0 & _ & M & _).
  rewrite times_owed, L, A in R. cbn [pc_prov] in R. rewrite times_nil in R. rewrite (i_users _ _ Hi).
  split.
  - intros [Rz Mz]. split; [lia|]. rewrite M, Mz. reflexivity.
  - intros [U Mz]. assert (Rz : f_rc (fr s f) = 0) by lia. split; [exact Rz|].
    rewrite M, (D0 Rz), Z.eqb_refl, andb_true_r in Mz. exact Mz.
Qed.

Lemma users_owners n0 ops s tr f :
  0 <= n0 -> run (st_init n0) ops = (s, tr) -> at_ s = POut ->
  users f tr = times f (flat_map (fun t => t_refs t ++ t_dec t :: if t_out t then [] else [t_dec t]) (tasks s))
               + times f (olist s) + times f (held s).
Proof.
  intros N Hr A. pose proof (inv_run ops _ _ (inv_init n0 N)) as Hi. rewrite Hr in Hi. cbn [fst snd app] in Hi.
  rewrite (i_users _ _ Hi), times_uses, A. cbn [pc_uses]. rewrite times_nil.
  replace (flat_map task_uses (tasks s)) with (flat_map (fun t => t_refs t ++ t_dec t :: if t_out t then [] else [t_dec t]) (tasks s)); [lia|].
  apply flat_map_ext. intros t. unfold task_uses. destruct (t_out t); reflexivity.
Qed.

Lemma users_nonneg n0 ops pre post f :
  0 <= n0 -> events n0 ops = pre ++ post -> 0 <= users f pre.
Proof.
  intros N H. destruct post as [|e post].
  - pose proof (inv_run ops _ _ (inv_init n0 N)) as Hi. unfold events in H. rewrite app_nil_r in H.
    rewrite H in Hi. cbn [app] in Hi. rewrite (i_users _ _ Hi). apply times_nonneg.
  - destruct (events_split n0 ops pre e post N H) as (s & o & Hi & _). rewrite (i_users _ _ Hi). apply times_nonneg.
Qed.

(** A free buffer is found. *)
Lemma run_cons s o t : snd (run s (o :: t)) = snd (step s o) ++ snd (run (fst (step s o)) t).
Proof. cbn [run]. destruct (step s o) as [s1 e]. cbn [fst snd]. destruct (run s1 t). reflexivity. Qed.
Lemma run_idle s k : at_ s = POut -> snd (run s (repeat Step k)) = [].
Proof.
  intros A. induction k as [|k IH]; [reflexivity|]. cbn [repeat]. rewrite run_cons. cbn [step].
  unfold get_step at 1 2. rewrite A. exact IH.
Qed.
Lemma find_loop k s r got j f :
  at_ s = PFind r got j -> 0 <= j -> base s + j <= f < base s + n s -> (Z.to_nat (f - base s - j) <= k)%nat ->
  f_rc (fr s f) = 0 -> f_refd (fr s f) = false ->
  exists g, snd (run s (repeat Step (S k))) = [EvStart r g got false].
Proof.
  revert s j; induction k as [|k IH]; intros s j A J Rg K R M.
  - assert (f = base s + j) by lia. subst f. exists (base s + j). cbn [repeat run step]. unfold get_step. rewrite A.
    replace (n s <=? j) with false by (symmetry; apply Z.leb_gt; lia). cbv zeta. rewrite R, M. reflexivity.
  - change (repeat Step (S (S k))) with (Step :: repeat Step (S k)). setoid_rewrite run_cons.
    assert (X : step s Step = (if (f_rc (fr s (base s + j)) =? 0) && negb (f_refd (fr s (base s + j)))
                               then start s r got (base s + j) false else (goto s (PFind r got (j + 1)), []))).
    { cbn [step]. unfold get_step. rewrite A.
      replace (n s <=? j) with false by (symmetry; apply Z.leb_gt; lia). reflexivity. }
    rewrite X. destruct ((f_rc (fr s (base s + j)) =? 0) && negb (f_refd (fr s (base s + j)))) eqn:E.
    + exists (base s + j). rewrite run_idle by reflexivity. reflexivity.
    + assert (Nf : f <> base s + j).
      { intros ->. rewrite R, M in E. discriminate. }
      cbn [fst snd app]. apply (IH (goto s (PFind r got (j + 1))) (j + 1)); cbn [at_ goto base n fr]; auto; lia.
Qed.

Lemma free_found n0 ops s tr r got f :
  0 <= n0 -> run (st_init n0) ops = (s, tr) -> at_ s = PFind r got 0 -> dpb s f ->
  (forall l, ~ In (EvDrop l) tr) -> users f tr = 0 -> marked f tr = false ->
  exists g, snd (run s (repeat Step (S (Z.to_nat (n s))))) = [EvStart r g got false].
Proof.
  intros N Hr A D Nd U Mz.
  pose proof (inv_run ops _ _ (inv_init n0 N)) as Hi. rewrite Hr in Hi. cbn [fst snd app] in Hi.
  pose proof (run_lost ops (st_init n0) eq_refl) as L. rewrite Hr in L. cbn [fst snd] in L. specialize (L Nd).
  destruct (i_frames _ _ Hi f D) as (R & D0 & _ & M & _).
  rewrite times_owed, L, A in R. cbn [pc_prov] in R. rewrite times_nil, <- (i_users _ _ Hi) in R.
  assert (Rz : f_rc (fr s f) = 0) by lia. unfold dpb in D.
  apply (find_loop _ s r got 0 f A); try lia.
Qed.
