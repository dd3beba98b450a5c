(** Why a picture is dropped. *)
From Coq Require Import ZArith List Bool Lia.
From Verif Require Import CBase CBaseProofs DpbModel DpbSpec DpbProofs DpbProofsB DpbProofsC.
Import ListNotations.
Open Scope Z_scope.

Definition reason (tr : list ev) (r : req) : Prop :=
  accepted tr = true
  \/ (exists d, In d (r_ref r) /\ forall f, ~ present tr r d f)
  \/ (r_b r = true /\ exists fs, Forall2 (at_dist tr r) (r_ref r) fs /\ ~ around tr r fs).
Definition scan_ok (s : st) (tr : list ev) : Prop :=
  (forall f, marked f tr = true -> dpb s f)
  /\ match at_ s with
     | PRef r (d :: l) j got => forall f, base s <= f < base s + j -> ~ present tr r d f
     | POld _ _ _ | PFind _ _ _ | PWait _ _ | PForce _ _ _ _ => accepted tr = true
     | PFail got => exists r, current tr = Some r /\ reason tr r
     | _ => True
     end.

Lemma accepted_snoc tr e : accepted (tr ++ [e]) = match e with EvCall _ => false | EvAccept _ => true | _ => accepted tr end.
Proof. unfold accepted. rewrite fold_left_app. reflexivity. Qed.

(** Events that leave marks and contents alone. *)
Definition calm_ev (e : ev) : Prop :=
  match e with EvUnuse _ | EvDrop _ | EvUndef | EvRef _ | EvBackground _ => True | _ => False end.
Lemma calm_present tr e r d f : calm_ev e -> present (tr ++ [e]) r d f <-> present tr r d f.
Proof. intros C. unfold present. rewrite marked_snoc, content_snoc. destruct e; try destruct C; reflexivity. Qed.
Lemma calm_content tr e f : calm_ev e -> content f (tr ++ [e]) = content f tr.
Proof. intros C. rewrite content_snoc. destruct e; try destruct C; reflexivity. Qed.
Lemma calm_reason tr e r : calm_ev e -> reason tr r -> reason (tr ++ [e]) r.
Proof.
  intros C [A | [(d & D & P) | (B & fs & Fs & A)]].
  - left. rewrite accepted_snoc. destruct e; try destruct C; exact A.
  - right; left. exists d. split; [exact D|]. intros f. rewrite calm_present by exact C. apply P.
  - right; right. split; [exact B|]. exists fs. split.
    + clear A. induction Fs as [|d f ds gs (p & P) _ IH]; constructor; [|exact IH]. exists p. rewrite calm_content by exact C. exact P.
    + intros (f0 & f1 & p0 & p1 & E & P). apply A. exists f0, f1, p0, p1. rewrite !calm_content in P by exact C. auto.
Qed.
Lemma calm_scan s tr s2 e :
  scan_ok s tr -> calm_ev e -> at_ s2 = at_ s -> base s2 = base s -> n s2 = n s -> scan_ok s2 (tr ++ [e]).
Proof.
  intros [M K] C A B N. split.
  - intros f Hf. unfold dpb. rewrite B, N. apply M. rewrite marked_snoc in Hf. destruct e; try destruct C; exact Hf.
  - rewrite A, B. assert (Ac : accepted (tr ++ [e]) = accepted tr) by (rewrite accepted_snoc; destruct e; try destruct C; reflexivity).
    assert (Cu : current (tr ++ [e]) = current tr) by (rewrite current_snoc; destruct e; try destruct C; reflexivity).
    destruct (at_ s) as [|r1 l j|r1 [|d l] j g1|r1 g1 j|r1 g1 j|r1 g1|r1 g1 j best|g1]; rewrite ?Ac; auto.
    + intros f Hf. rewrite calm_present by exact C. apply K; exact Hf.
    + destruct K as (r & Cr & Re). exists r. rewrite Cu. split; [exact Cr|]. apply calm_reason; assumption.
Qed.
Lemma calm_scan0 s tr s2 :
  scan_ok s tr -> at_ s2 = at_ s -> base s2 = base s -> n s2 = n s -> scan_ok s2 tr.
Proof. intros [M K] A B N. split; [intros f Hf; unfold dpb; rewrite B, N; apply M; exact Hf|rewrite A, B; exact K]. Qed.

Lemma scan_get s tr : inv s tr -> scan_ok s tr -> scan_ok (fst (get_step s)) (tr ++ snd (get_step s)).
Proof.
  intros Hi [M K]. pose proof (i_pc _ _ Hi) as P. unfold pc_ok in P. unfold get_step.
  destruct (at_ s) as [|r l j|r l j g|r g j|r g j|r g|r g j best|g] eqn:A.
  - cbn [fst snd]. rewrite app_nil_r. split; [exact M|]. rewrite A. exact Logic.I.
  - destruct l as [|c l].
    + destruct (r_gb r).
      * cbn [fst snd]. split; [|exact Logic.I]. intros f Hf. rewrite marked_snoc in Hf. exact (M f Hf).
      * cbn [fst snd]. rewrite app_nil_r. split; [exact M|]. cbn [at_ goto base]. destruct (r_ref r); [exact Logic.I|]. intros f Hf. lia.
    + destruct (n s <=? j) eqn:E.
      * cbn [fst snd]. rewrite app_nil_r. split; [exact M|exact Logic.I].
      * cbv zeta. destruct (_ && _); cbn [fst snd].
        -- split; [|exact Logic.I]. intros f Hf. rewrite marked_snoc in Hf. apply M. destruct (_ =? f); [discriminate|exact Hf].
        -- rewrite app_nil_r. split; [exact M|exact Logic.I].
  - destruct l as [|d l].
    + destruct (b_ok s r g) eqn:B; cbn [fst snd].
      * split; [intros f Hf; rewrite marked_snoc in Hf; exact (M f Hf)|]. cbn [at_]. rewrite accepted_snoc. reflexivity.
      * rewrite app_nil_r. split; [exact M|]. cbn [at_ goto]. destruct P as (Cu & J & ds & Ed & G). rewrite app_nil_r in Ed. subst ds.
        exists r. split; [exact Cu|]. right; right.
        unfold b_ok in B. destruct (r_b r) eqn:Rb; [|discriminate]. split; [reflexivity|]. exists g. split.
        -- clear B A. induction G as [|d f ds gs (D & C & V & Mk) _ IH]; [constructor|]. constructor; [|exact IH].
           destruct (valid_content s tr f Hi D V) as (p & P1 & P2 & P3 & P4). exists p. repeat split; congruence.
        -- intros (f0 & f1 & p0 & p1 & -> & C0 & C1 & R1 & R2).
           unfold got_ok in G. inversion G as [|d0 x0 ds0 g0 (D0 & E0 & V0 & M0) G0 Eq1 Eq2]; subst.
           inversion G0 as [|d1 x1 ds1 g1 (D1 & E1 & V1 & M1) G1]; subst.
           destruct (valid_content s tr f0 Hi D0 V0) as (q0 & P1 & P2 & P3 & P4).
           destruct (valid_content s tr f1 Hi D1 V1) as (q1 & Q1 & Q2 & Q3 & Q4).
           assert (q0 = p0) by congruence. assert (q1 = p1) by congruence. subst q0 q1.
           apply andb_false_iff in B as [B|B]; apply Z.ltb_ge in B; lia.
    + destruct P as (Cu & J & ds & Ed & G). destruct (n s <=? j) eqn:E; cbn [fst snd].
      * rewrite app_nil_r. split; [exact M|]. cbn [at_ goto]. exists r. split; [exact Cu|]. right; left.
        exists d. split; [rewrite Ed; apply in_or_app; right; left; reflexivity|].
        intros f Pf. apply (K f); [|exact Pf]. pose proof (M f (proj1 Pf)) as D. unfold dpb in D. apply Z.leb_le in E. lia.
      * cbv zeta. match goal with |- context [if ?c then _ else _] => destruct c eqn:Mc end; cbn [fst snd].
        -- split; [intros f Hf; rewrite marked_snoc in Hf; exact (M f Hf)|]. cbn [at_ goto base with_fr].
           destruct l; [exact Logic.I|]. intros f Hf. lia.
        -- rewrite app_nil_r. split; [exact M|]. cbn [at_ goto base]. intros f Hf Pf.
           destruct (Z.eq_dec f (base s + j)) as [Ef|Nf]; [|apply (K f); [lia|exact Pf]]. subst f.
           pose proof (dpb_at s j J E) as D. destruct (i_frames _ _ Hi _ D) as (_ & _ & _ & Mk & Co).
           destruct Pf as (Pm & p & P1 & P2 & P3 & P4). rewrite Mk in Pm. apply andb_true_iff in Pm as [Pm1 Pm2].
           destruct Co as [(_ & _ & Co) | (q & Q1 & Q2 & Q3 & Q4)]; [congruence|].
           assert (q = p) by congruence. subst q.
           rewrite Pm1, Pm2, Q2 in Mc. unfold is_valid, INVALID_FRAME in Mc. rewrite Q2, Q3 in Mc.
           replace (r_coi p =? -1) with false in Mc by (symmetry; apply Z.eqb_neq; lia).
           replace (r_poc p =? -1) with false in Mc by (symmetry; apply Z.eqb_neq; lia).
           replace (0 <=? r_coi p) with true in Mc by (symmetry; apply Z.leb_le; lia).
           replace (r_coi r - d =? r_coi p) with true in Mc by (symmetry; apply Z.eqb_eq; lia). discriminate.
  - destruct (n s <=? j); [cbn [fst snd]; rewrite app_nil_r; split; [exact M|exact K]|]. cbv zeta.
    destruct (_ && _); [|cbn [fst snd]; rewrite app_nil_r; split; [exact M|exact K]].
    destruct (_ =? 0); [|destruct (_ =? 0)]; cbn [fst snd]; rewrite ?app_nil_r; (split; [|cbn [at_ goto with_fr]; rewrite ?accepted_snoc; exact K]); try exact M;
      intros f Hf; rewrite marked_snoc in Hf; apply M; destruct (_ =? f); [discriminate|exact Hf|discriminate|exact Hf].
  - destruct (n s <=? j) eqn:E; [cbn [fst snd]; rewrite app_nil_r; split; [exact M|exact K]|]. cbv zeta.
    destruct (_ && _); [|cbn [fst snd]; rewrite app_nil_r; split; [exact M|exact K]].
    unfold start. cbn [fst snd]. split; [|exact Logic.I]. intros f Hf. rewrite marked_snoc in Hf.
    destruct (Z.eqb_spec (base s + j) f) as [Ef|Nf].
    + subst f. change (dpb s (base s + j)). apply dpb_at; [apply P|exact E].
    + exact (M f Hf).
  - destruct (has_blocking s); [destruct (olist s)|]; cbn [fst snd]; rewrite app_nil_r; (split; [exact M|exact K]).
  - destruct (n s <=? j) eqn:E.
    + destruct best as [b|].
      * unfold start. cbn [fst snd]. split; [|exact Logic.I]. intros f Hf. rewrite marked_snoc in Hf.
        destruct (Z.eqb_spec b f) as [Ef|Nf].
        -- subst f. change (dpb s b). apply P.
        -- exact (M f Hf).
      * cbn [fst snd]. rewrite app_nil_r. split; [exact M|]. cbn [at_ goto]. exists r. split; [apply P|]. left; exact K.
    + cbv zeta. destruct (_ && _); cbn [fst snd]; rewrite app_nil_r; (split; [exact M|exact K]).
  - destruct g as [|f g].
    + cbn [fst snd]. split; [|exact Logic.I]. intros f Hf. rewrite marked_snoc in Hf. exact (M f Hf).
    + destruct (release s f) as [s1|] eqn:R; cbn [fst snd].
      * destruct (release_same s f s1 R) as (B1 & N1 & _). split.
        -- intros h Hf. rewrite marked_snoc in Hf. unfold dpb. cbn [base n goto]. rewrite B1, N1. exact (M h Hf).
        -- cbn [at_ goto]. destruct K as (r & Cr & Re). exists r. rewrite current_snoc. split; [exact Cr|]. apply calm_reason; [exact Logic.I|exact Re].
      * apply (calm_scan s tr s EvUndef); [|exact Logic.I|reflexivity|reflexivity|reflexivity]. split; [exact M|]. rewrite A. exact K.
Qed.

Lemma scan_step s tr o : inv s tr -> scan_ok s tr -> scan_ok (fst (step s o)) (tr ++ snd (step s o)).
Proof.
  intros Hi H. assert (Id : scan_ok s (tr ++ [])) by (rewrite app_nil_r; exact H).
  destruct o as [r| |k|k|k|k|k|v b|n']; cbn [step].
  - destruct (at_ s) eqn:A; cbn [fst snd]; auto. destruct H as [M _]. split; [|exact Logic.I].
    intros f Hf. rewrite marked_snoc in Hf. exact (M f Hf).
  - apply scan_get; assumption.
  - destruct (nth_error (tasks s) k) as [t|]; [|exact Id]. destruct (t_out t); [exact Id|]. cbn [fst snd].
    rewrite app_nil_r. apply (calm_scan0 s); auto.
  - destruct (nth_error (tasks s) k) as [t|]; [|exact Id]. destruct (t_out t); cbn [negb]; [|exact Id].
    destruct (t_refs t);
      match goal with |- context [release ?a ?b] => destruct (release a b) as [s1|] eqn:R end; cbn [fst snd];
      try (apply (calm_scan s tr s EvUndef); [exact H|exact Logic.I|reflexivity|reflexivity|reflexivity]);
      (apply (calm_scan s); [exact H|exact Logic.I|..]; destruct (release_same _ _ _ R) as (B1 & N1 & _); cbn [at_ base n with_tasks]; auto;
       revert R; unfold release; destruct (_ && _); [discriminate|]; destruct (_ =? 0); [discriminate|]; cbv zeta;
       intros R; apply Some_inj in R; subst s1; reflexivity).
  - destruct (nth_error (tasks s) k) as [t|]; [|exact Id]. destruct (t_out t); [exact Id|]. cbn [fst snd].
    apply (calm_scan s); [exact H|exact Logic.I|reflexivity|reflexivity|reflexivity].
  - destruct (nth_error (olist s) k) as [t|]; [|exact Id]. cbn [fst snd]. rewrite app_nil_r. apply (calm_scan0 s); auto.
  - destruct (nth_error (held s) k) as [t|]; [|exact Id]. destruct (release s t) as [s1|] eqn:R; cbn [fst snd].
    + apply (calm_scan s); [exact H|exact Logic.I|..]; destruct (release_same _ _ _ R) as (B1 & N1 & _); cbn [at_ base n with_out]; auto.
      revert R; unfold release; destruct (_ && _); [discriminate|]; destruct (_ =? 0); [discriminate|]; cbv zeta.
      intros R; apply Some_inj in R; subst s1; reflexivity.
    + apply (calm_scan s tr s EvUndef); [exact H|exact Logic.I|reflexivity|reflexivity|reflexivity].
  - cbn [fst snd]. rewrite app_nil_r. apply (calm_scan0 s); auto.
  - destruct (at_ s) eqn:A; cbn [fst snd]; auto. destruct (n' <? 0); [exact Id|]. cbn [fst snd]. split; [|exact Logic.I].
    intros f Hf. rewrite marked_snoc in Hf. destruct H as [M _]. destruct (Z.leb_spec 0 f) as [L|L]; [discriminate|].
    specialize (M f Hf). pose proof (i_base _ _ Hi). unfold dpb in M. lia.
Qed.

Lemma fail_event s o : snd (step s o) = [EvFail] -> at_ s = PFail [].
Proof.
  destruct o; cbn [step]; intros H.
  - destruct (at_ s); discriminate.
  - unfold get_step, start in H.
    destruct (at_ s) as [|r1 l j|r1 l j g1|r1 g1 j|r1 g1 j|r1 g1|r1 g1 j best|g1] eqn:A.
    + discriminate.
    + destruct l as [|c l]; [destruct (r_gb r1); discriminate|]. destruct (n s <=? j) eqn:E; [discriminate|]. cbv zeta in H.
      destruct (is_valid _ && _); discriminate.
    + destruct l as [|d l]; [destruct (b_ok s r1 g1); discriminate|]. destruct (n s <=? j) eqn:E; [discriminate|]. cbv zeta in H.
      match type of H with context [if ?c then _ else _] => destruct c eqn:M end; discriminate.
    + destruct (n s <=? j); [discriminate|]. cbv zeta in H.
      destruct (is_valid _ && _); [|discriminate]. destruct (_ =? 0); [discriminate|]. destruct (_ =? 0); discriminate.
    + destruct (n s <=? j) eqn:E; [discriminate|]. cbv zeta in H.
      destruct (_ && _); discriminate.
    + destruct (has_blocking s); [|discriminate]. destruct (olist s); discriminate.
    + destruct (n s <=? j) eqn:E.
      * destruct best as [b|]; discriminate.
      * cbv zeta in H. match type of H with context [if ?c then _ else _] => destruct c end; discriminate.
    + destruct g1 as [|z g1]; [reflexivity|]. destruct (release s z) eqn:R; discriminate.
  - destruct (nth_error (tasks s) k); [|discriminate]. destruct (t_out t); discriminate.
  - destruct (nth_error (tasks s) k) as [t|] eqn:T; [|discriminate]. destruct (t_out t) eqn:O; cbn [negb] in H; [|discriminate].
    destruct (t_refs t) as [|f l]; match type of H with context [release ?a ?b] => destruct (release a b) eqn:R end; discriminate.
  - destruct (nth_error (tasks s) k); [|discriminate]. destruct (t_out t); discriminate.
  - destruct (nth_error (olist s) k); discriminate.
  - destruct (nth_error (held s) k) as [f|] eqn:T; [|discriminate].
    destruct (release s f) eqn:R; discriminate.
  - discriminate.
  - destruct (at_ s); try discriminate. destruct (n' <? 0); discriminate.
Qed.

Lemma scan_split ops s tr pre e post :
  inv s tr -> scan_ok s tr -> snd (run s ops) = pre ++ e :: post ->
  exists s1 o, scan_ok s1 (tr ++ pre) /\ snd (step s1 o) = [e].
Proof.
  revert s tr pre; induction ops as [|o t IH]; intros s tr pre Hi Hs H; cbn [run] in H.
  - destruct pre; discriminate.
  - pose proof (inv_step s tr o Hi) as H1. pose proof (scan_step s tr o Hi Hs) as H3. pose proof (step_one s o) as H2.
    destruct (step s o) as [s1 e1] eqn:E1. cbn [fst snd] in *.
    destruct (run s1 t) as [s2 e2] eqn:E2. cbn [snd] in H.
    destruct H2 as [-> | [x ->]].
    + rewrite app_nil_r in H1, H3. cbn [app] in H. apply (IH s1 tr pre H1 H3). rewrite E2. exact H.
    + cbn [app] in H. destruct pre as [|y pre].
      * cbn [app] in H. assert (x = e) by congruence. subst x.
        exists s, o. rewrite app_nil_r, E1. auto.
      * cbn [app] in H. assert (x = y) by congruence. subst y.
        destruct (IH s1 (tr ++ [x]) pre H1 H3) as (s3 & o3 & A & B).
        -- rewrite E2. cbn [snd]. congruence.
        -- exists s3, o3. rewrite <- app_assoc in A. auto.
Qed.

Lemma dropped_reason n0 ops pre post :
  0 <= n0 -> events n0 ops = pre ++ EvFail :: post -> accepted pre = false ->
  exists r, current pre = Some r
    /\ ((exists d, In d (r_ref r) /\ forall f, ~ present pre r d f)
        \/ (r_b r = true /\ exists fs, Forall2 (at_dist pre r) (r_ref r) fs /\ ~ around pre r fs)).
Proof.
  intros N H Ac. destruct (scan_split ops (st_init n0) [] pre EvFail post (inv_init n0 N)) as (s & o & [_ K] & E).
  - split; [discriminate|exact Logic.I].
  - exact H.
  - apply fail_event in E. rewrite E in K. destruct K as (r & Cr & Re). exists r. split; [exact Cr|].
    destruct Re as [Re|Re]; [cbn [app] in Re; congruence|exact Re].
Qed.
