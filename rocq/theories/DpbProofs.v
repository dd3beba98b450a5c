(** Invariant of the decoded-picture buffer. *)
From Coq Require Import ZArith List Bool Lia.
From Verif Require Import CBase DpbModel DpbSpec.
Import ListNotations.
Open Scope Z_scope.

(** ** Counting. *)
Lemma times_nil f : times f [] = 0. Proof. reflexivity. Qed.
Lemma times_cons f g l : times f (g :: l) = (if g =? f then 1 else 0) + times f l.
Proof.
  unfold times. cbn [count_occ]. destruct (Z.eq_dec g f) as [->|N].
  - rewrite Z.eqb_refl. lia.
  - replace (g =? f) with false by (symmetry; apply Z.eqb_neq; exact N). lia.
Qed.
Lemma times_app f a b : times f (a ++ b) = times f a + times f b.
Proof. unfold times. rewrite count_occ_app. lia. Qed.
Lemma times_nonneg f l : 0 <= times f l. Proof. unfold times; lia. Qed.
Lemma times_in f l : In f l <-> 0 < times f l.
Proof. unfold times. rewrite (count_occ_In Z.eq_dec). lia. Qed.
Lemma times_all_nil l : (forall f, times f l = 0) -> l = [].
Proof.
  destruct l as [|a l]; [reflexivity|]. intros H. specialize (H a). rewrite times_cons, Z.eqb_refl in H.
  pose proof (times_nonneg a l). lia.
Qed.

Lemma split_at {A : Type} (l : list A) k x :
  nth_error l k = Some x -> l = firstn k l ++ x :: skipn (S k) l.
Proof.
  revert l; induction k; intros [|a l]; cbn; try discriminate.
  - intros [= ->]; reflexivity.
  - intros H. f_equal. apply IHk, H.
Qed.

Definition task_uses (t : task) : list Z := t_refs t ++ (if t_out t then [t_dec t] else [t_dec t; t_dec t]).
Definition pc_uses (p : pc) : list Z :=
  match p with
  | PRef _ _ _ got | POld _ got _ | PFind _ got _ | PWait _ got | PForce _ got _ _ | PFail got => got
  | _ => []
  end.
Definition pc_prov (p : pc) : list Z := match p with PForce _ _ _ (Some f) => [f; f] | _ => [] end.
Definition uses (s : st) : list Z := pc_uses (at_ s) ++ flat_map task_uses (tasks s) ++ olist s ++ held s.
Definition owed (s : st) : list Z := uses s ++ pc_prov (at_ s) ++ lost s.
Definition dpb (s : st) (f : Z) : Prop := base s <= f < base s + n s.

Lemma times_swap f g (l : list task) k t x :
  nth_error l k = Some t ->
  times f (flat_map g (swap k x l)) = times f (flat_map g l) - times f (g t) + times f (g x).
Proof.
  intros H. rewrite (split_at l k t H) at 2. unfold swap.
  rewrite !flat_map_app. cbn [flat_map]. rewrite !times_app. lia.
Qed.
Lemma times_cut f g (l : list task) k t :
  nth_error l k = Some t ->
  times f (flat_map g (cut k l)) = times f (flat_map g l) - times f (g t).
Proof.
  intros H. rewrite (split_at l k t H) at 2. unfold cut.
  rewrite !flat_map_app. cbn [flat_map]. rewrite !times_app. lia.
Qed.
Lemma times_cutz f (l : list Z) k g :
  nth_error l k = Some g -> times f (cut k l) = times f l - (if g =? f then 1 else 0).
Proof.
  intros H. rewrite (split_at l k g H) at 2. unfold cut. rewrite !times_app, times_cons. lia.
Qed.

(** ** Reading the events. *)
Lemma users_snoc f tr e : users f (tr ++ [e]) = users f tr + delta f e.
Proof. unfold users. rewrite fold_left_app. reflexivity. Qed.
Lemma removals_snoc tr e : removals (tr ++ [e]) = match e with EvAccept l => l | _ => removals tr end.
Proof. unfold removals. rewrite fold_left_app. destruct e; reflexivity. Qed.
Lemma current_snoc tr e : current (tr ++ [e]) = match e with EvCall r => Some r | _ => current tr end.
Proof. unfold current. rewrite fold_left_app. destruct e; reflexivity. Qed.
Lemma content_snoc f tr e : content f (tr ++ [e]) = match e with EvStart r g _ _ => if g =? f then Some r else content f tr | _ => content f tr end.
Proof. unfold content. rewrite fold_left_app. destruct e; reflexivity. Qed.
Lemma marked_snoc f tr e :
  marked f (tr ++ [e]) = match e with
    | EvStart r g _ _ => if g =? f then r_refd r else marked f tr
    | EvForget g => if g =? f then false else marked f tr
    | EvReset => if 0 <=? f then false else marked f tr
    | _ => marked f tr
    end.
Proof. unfold marked. rewrite fold_left_app. destruct e; reflexivity. Qed.

(** ** The invariant. *)
Definition frame_ok (tr : list ev) (f : Z) (v : frame) (c : Z) : Prop :=
  f_rc v = c /\ (f_rc v = 0 -> f_disp v = 0) /\ (f_disp v = 0 \/ f_disp v = 1)
  /\ marked f tr = f_refd v && (f_disp v =? 0)
  /\ ((f_coi v = INVALID_FRAME /\ f_poc v = INVALID_FRAME /\ f_refd v = false)
      \/ exists r, content f tr = Some r /\ f_coi v = r_coi r /\ f_poc v = r_poc r /\ f_refd v = r_refd r).

Definition got_ok (fr : Z -> frame) (lo hi : Z) (r : req) (ds got : list Z) : Prop :=
  Forall2 (fun d f => lo <= f < hi /\ f_coi (fr f) = r_coi r - d /\ is_valid (fr f) = true /\ f_refd (fr f) = true) ds got.

Definition pc_ok (s : st) (tr : list ev) : Prop :=
  match at_ s with
  | POut | PFail _ => True
  | PRem r l j => current tr = Some r /\ incl l (removals tr) /\ 0 <= j
  | PRef r l j got => current tr = Some r /\ 0 <= j
                      /\ exists ds, r_ref r = ds ++ l /\ got_ok (fr s) (base s) (base s + n s) r ds got
  | POld r got j | PFind r got j =>
      current tr = Some r /\ 0 <= j /\ got_ok (fr s) (base s) (base s + n s) r (r_ref r) got /\ b_ok s r got = true
  | PWait r got =>
      current tr = Some r /\ got_ok (fr s) (base s) (base s + n s) r (r_ref r) got /\ b_ok s r got = true
  | PForce r got j best =>
      current tr = Some r /\ 0 <= j /\ got_ok (fr s) (base s) (base s + n s) r (r_ref r) got /\ b_ok s r got = true
      /\ match best with None => True | Some b => dpb s b /\ f_disp (fr s b) = 0 /\ f_rc (fr s b) = 2 /\ times b (uses s) = 0 end
  end.

Record inv (s : st) (tr : list ev) : Prop := {
  i_n : 0 <= n s; i_base : 0 <= base s;
  i_users : forall f, users f tr = times f (uses s);
  i_frames : forall f, dpb s f -> frame_ok tr f (fr s f) (times f (owed s));
  i_bound : forall f, In f (owed s) -> f < base s + n s;
  i_rem : remq s = removals tr;
  i_pc : pc_ok s tr
}.

Lemma inv_init n0 : 0 <= n0 -> inv (st_init n0) [].
Proof.
  intros H. constructor; try exact H; try exact (Z.le_refl 0); try reflexivity.
  - intros f _. unfold frame_ok; cbn. repeat split; auto.
  - intros f [].
Qed.

(** Frames that keep their picture. *)
Definition same_pic (v w : frame) : Prop := f_coi w = f_coi v /\ f_poc w = f_poc v /\ f_refd w = f_refd v.
Lemma got_ok_ext fr fr' lo hi r ds got :
  (forall f, In f got -> same_pic (fr f) (fr' f)) -> got_ok fr lo hi r ds got -> got_ok fr' lo hi r ds got.
Proof.
  intros E H. unfold got_ok in *. induction H as [|d f ds got (R & C & V & M) _ IH]; constructor.
  - destruct (E f (or_introl eq_refl)) as (Ec & Ep & Er). unfold is_valid in *.
    rewrite Ec, Ep, Er. auto.
  - apply IH. intros g G. apply E. right; exact G.
Qed.
Lemma b_ok_ext s s' r got :
  (forall f, In f got -> same_pic (fr s f) (fr s' f)) -> b_ok s r got = true -> b_ok s' r got = true.
Proof.
  unfold b_ok. intros E. destruct (r_b r); [|trivial].
  destruct got as [|f0 [|f1 [|? ?]]]; try discriminate.
  destruct (E f0 (or_introl eq_refl)) as (_ & -> & _).
  destruct (E f1 (or_intror (or_introl eq_refl))) as (_ & -> & _). trivial.
Qed.

(** A step that changes only the program counter. *)
Lemma inv_goto s tr p :
  inv s tr -> pc_uses p = pc_uses (at_ s) -> pc_prov p = pc_prov (at_ s) -> pc_ok (goto s p) tr -> inv (goto s p) tr.
Proof.
  intros Hi U P K. destruct Hi as [I1 I2 I3 I4 I5 I6 I7].
  assert (Eu : uses (goto s p) = uses s) by (unfold uses; cbn; rewrite U; reflexivity).
  assert (Eo : owed (goto s p) = owed s) by (unfold owed; rewrite Eu; cbn; rewrite P; reflexivity).
  constructor; cbn [n base goto remq]; auto.
  - intros f. rewrite Eu. apply I3.
  - intros f D. rewrite Eo. apply I4, D.
  - intros f. rewrite Eo. apply I5.
Qed.

(** Events that do not concern frames. *)
Lemma frame_ok_quiet tr e f v c :
  (match e with EvStart _ g _ _ | EvForget g => g <> f | EvReset => f < 0 | _ => True end) ->
  frame_ok tr f v c -> frame_ok (tr ++ [e]) f v c.
Proof.
  intros E (R & D0 & D1 & M & K). unfold frame_ok. rewrite marked_snoc, content_snoc.
  destruct e; try (repeat split; assumption).
  - apply Z.eqb_neq in E. rewrite E. repeat split; assumption.
  - apply Z.eqb_neq in E. rewrite E. repeat split; assumption.
  - replace (0 <=? f) with false by (symmetry; apply Z.leb_gt; exact E). repeat split; assumption.
Qed.

Lemma put_same fr f v : put fr f v f = v. Proof. unfold put. rewrite Z.eqb_refl. reflexivity. Qed.
Lemma put_other fr f v g : g <> f -> put fr f v g = fr g.
Proof. intros H. unfold put. apply Z.eqb_neq in H. rewrite H. reflexivity. Qed.

(** ** Release. *)
Lemma release_ok s tr f s1 :
  (forall g, dpb s g -> frame_ok tr g (fr s g) (times g (owed s))) -> 0 <= base s ->
  release s f = Some s1 ->
  exists v, s1 = with_fr s (put (fr s) f v)
  /\ (dpb s f -> frame_ok tr f v (times f (owed s) - 1)
                 /\ (times f (owed s) <> 1 -> same_pic (fr s f) v) /\ f_disp v <> 2).
Proof.
  intros F B. unfold release. destruct ((0 <=? f) && (f <? base s)) eqn:E1; [discriminate|].
  destruct (f_rc (fr s f) =? 0) eqn:E2; [discriminate|]. apply Z.eqb_neq in E2.
  set (v := add_rc (fr s f) (-1)).
  set (w := if (f_rc v =? 0) && (f_disp v =? 1) then clean v else v).
  cbv zeta. intros E. apply (f_equal (fun o => match o with Some x => x | None => s1 end)) in E. cbv beta iota in E.
  exists w. split; [symmetry; exact E|]. intros D.
  destruct (F f D) as (R & D0 & D1 & M & K).
  assert (Rv : f_rc v = times f (owed s) - 1) by (unfold v; cbn; lia).
  unfold w. destruct ((f_rc v =? 0) && (f_disp v =? 1)) eqn:C.
  - apply andb_true_iff in C as [C1 C2]. apply Z.eqb_eq in C1, C2.
    assert (C2' : f_disp (fr s f) = 1) by exact C2.
    split; [|split].
    + unfold frame_ok. cbn. rewrite C2' in M. rewrite andb_false_r in M.
      repeat split; auto.
    + intros N. exfalso. lia.
    + cbn. lia.
  - split; [|split].
    + unfold frame_ok. change (f_refd v) with (f_refd (fr s f)). change (f_disp v) with (f_disp (fr s f)).
      change (f_coi v) with (f_coi (fr s f)). change (f_poc v) with (f_poc (fr s f)).
      repeat split; auto. intros Z0. rewrite Z0 in C. cbn [Z.eqb andb] in C.
      change (f_disp v) with (f_disp (fr s f)) in C. destruct D1 as [?|D1]; [assumption|]. rewrite D1 in C. discriminate.
    + intros _. repeat split.
    + change (f_disp v) with (f_disp (fr s f)). lia.
Qed.

Lemma release_some s f :
  ~ (0 <= f < base s) -> f_rc (fr s f) <> 0 -> exists s1, release s f = Some s1.
Proof.
  intros A B. unfold release.
  replace ((0 <=? f) && (f <? base s)) with false
    by (symmetry; apply andb_false_iff; destruct (Z.leb_spec 0 f); destruct (Z.ltb_spec f (base s)); auto; lia).
  apply Z.eqb_neq in B. rewrite B. eauto.
Qed.

(** Any step that gives back one use of [f]. *)
Lemma inv_release s tr f s1 s2 :
  inv s tr -> release s f = Some s1 ->
  fr s2 = fr s1 -> base s2 = base s -> n s2 = n s -> remq s2 = remq s -> In f (uses s) ->
  (forall g, times g (uses s2) = times g (uses s) - (if f =? g then 1 else 0)) ->
  pc_prov (at_ s2) = pc_prov (at_ s) -> lost s2 = lost s ->
  ((forall g, dpb s g -> times g (uses s2) <> 0 -> same_pic (fr s g) (fr s2 g)) ->
   (forall g, dpb s g -> g <> f -> fr s2 g = fr s g) -> pc_ok s2 (tr ++ [EvUnuse f])) ->
  inv s2 (tr ++ [EvUnuse f]).
Proof.
  intros Hi Hr Ef Eb En Er Hin Hu Hp Hl Hk.
  destruct (release_ok s tr f s1 (i_frames _ _ Hi) (i_base _ _ Hi) Hr) as (v & -> & Hv).
  cbn [fr with_fr] in Ef.
  assert (Ho : forall g, times g (owed s2) = times g (owed s) - (if f =? g then 1 else 0)).
  { intros g. unfold owed. rewrite !times_app, Hu, Hp, Hl. lia. }
  constructor; try rewrite Eb; try rewrite En.
  - apply Hi.
  - apply Hi.
  - intros g. rewrite users_snoc, Hu, (i_users _ _ Hi). cbn [delta]. destruct (f =? g); lia.
  - intros g D. unfold dpb in D. rewrite Eb, En in D. rewrite Ef, Ho.
    apply frame_ok_quiet; [exact Logic.I|].
    destruct (Z.eq_dec g f) as [->|N].
    + rewrite put_same, Z.eqb_refl. apply Hv. exact D.
    + rewrite put_other by exact N. replace (f =? g) with false by (symmetry; apply Z.eqb_neq; congruence).
      rewrite Z.sub_0_r. apply (i_frames _ _ Hi). exact D.
  - intros g G. apply times_in in G. rewrite Ho in G. apply (i_bound _ _ Hi). apply times_in.
    destruct (f =? g); lia.
  - rewrite Er, removals_snoc. apply (i_rem _ _ Hi).
  - apply Hk.
    + intros g D G. rewrite Ef. destruct (Z.eq_dec g f) as [->|N].
      * rewrite put_same. apply Hv; [exact D|]. intros O.
        specialize (Hu f). rewrite Z.eqb_refl in Hu. unfold owed in O. rewrite times_app in O.
        pose proof (times_nonneg f (pc_prov (at_ s) ++ lost s)). apply times_in in Hin.
        pose proof (times_nonneg f (uses s2)). lia.
      * rewrite put_other by exact N. repeat split.
    + intros g D N. rewrite Ef. apply put_other. exact N.
Qed.

(** The program counter survives a release by another thread. *)
Lemma pc_ok_release s s2 tr f :
  pc_ok s tr -> at_ s2 = at_ s -> base s2 = base s -> n s2 = n s ->
  (forall g, times g (uses s2) = times g (uses s) - (if f =? g then 1 else 0)) ->
  (forall g, dpb s g -> times g (uses s2) <> 0 -> same_pic (fr s g) (fr s2 g)) ->
  (forall g, dpb s g -> g <> f -> fr s2 g = fr s g) ->
  (forall g, times g (pc_uses (at_ s)) <= times g (uses s2)) -> In f (uses s) ->
  pc_ok s2 (tr ++ [EvUnuse f]).
Proof.
  intros K A B N Hu S1 S2 Hpc Hin. unfold pc_ok in *. rewrite A, B, N, current_snoc, removals_snoc.
  assert (X : forall ds r got, pc_uses (at_ s) = got -> got_ok (fr s) (base s) (base s + n s) r ds got ->
                got_ok (fr s2) (base s) (base s + n s) r ds got
                /\ (b_ok s r got = true -> b_ok s2 r got = true)).
  { intros ds r got E G.
    assert (Y : forall g, In g got -> same_pic (fr s g) (fr s2 g)).
    { intros g I1. apply S1.
      - clear - G I1. unfold got_ok in G. induction G as [|d x ds got (R & _) _ IH]; [destruct I1|].
        destruct I1 as [->|I1]; [exact R|exact (IH I1)].
      - subst got. specialize (Hpc g). apply times_in in I1. lia. }
    split; [eapply got_ok_ext; eauto|apply b_ok_ext; exact Y]. }
  destruct (at_ s); auto.
  - destruct K as (? & ? & ds & E & G). destruct (X ds r got eq_refl G). eauto 6.
  - destruct K as (? & ? & G & Bk). destruct (X _ r got eq_refl G). auto.
  - destruct K as (? & ? & G & Bk). destruct (X _ r got eq_refl G). auto.
  - destruct K as (? & G & Bk). destruct (X _ r got eq_refl G). auto.
  - destruct K as (? & ? & G & Bk & Be). destruct (X _ r got eq_refl G).
    repeat split; auto. destruct best as [b|]; [|exact Logic.I].
    destruct Be as (D & Di & Rc & T).
    assert (Nb : b <> f).
    { intros ->. apply times_in in Hin. lia. }
    split; [unfold dpb; rewrite B, N; exact D|].
    rewrite (S2 b D Nb), Hu, T. replace (f =? b) with false by (symmetry; apply Z.eqb_neq; congruence).
    repeat split; auto; lia.
Qed.
