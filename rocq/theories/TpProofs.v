From Coq Require Import ZArith List Bool Lia Permutation.
From Verif Require Import CBase CBaseProofs MemModel MemProofs TpModel TpSpec.
Import ListNotations.
Open Scope Z_scope.

Record rep (q : jl) (l : list Z) : Prop := {
  rp_size : size q = Z.of_nat (length l);
  rp_max : (length l <= 128)%nat;
  rp_get : forall i v, nth_error l i = Some v -> arr q (Z.of_nat i) = v;
  rp_pos : Forall (fun v => 0 < v) l;
  rp_null : forall i, Z.of_nat (length l) <= i < SLOTS -> arr q i = 0
}.

Lemma rep_queued : forall q l, rep q l -> queued q = l.
Proof.
  intros q l [A _ C _ _]. unfold queued. rewrite A, Nat2Z.id. clear A.
  assert (G: forall k l, (forall i v, nth_error l i = Some v -> arr q (Z.of_nat (k + i)) = v) ->
    map (fun i => arr q (Z.of_nat i)) (seq k (length l)) = l).
  { clear. intros k l. revert k. induction l as [|x t IH]; intros k H; [reflexivity|].
    cbn [length seq map]. f_equal; [rewrite <- (H 0%nat x eq_refl); do 2 f_equal; lia|].
    apply IH. intros i v E. rewrite <- (H (S i) v E). do 2 f_equal. lia. }
  apply (G 0%nat l). exact C.
Qed.

Lemma rep_empty : rep jl_empty [].
Proof.
  constructor; cbn; intros; auto; try lia. destruct i; discriminate.
Qed.

Lemma rep_init : rep {| arr := fun i => if (0 <=? i) && (i <? WORK_MAX) then i + 1 else 0; size := WORK_MAX |} all_descs.
Proof.
  constructor; cbn [arr size].
  - reflexivity.
  - unfold all_descs. rewrite map_length, seq_length. lia.
  - intros i v E. unfold all_descs in E. rewrite nth_error_map in E.
    destruct (nth_error (seq 1 128) i) as [k|] eqn:K; [|discriminate]. cbn in E. injection E as <-.
    assert (i < 128)%nat by (rewrite <- (seq_length 128 1); apply nth_error_Some; congruence).
    assert (k = 1 + i)%nat.
    { apply nth_error_nth with (d := 0%nat) in K. rewrite seq_nth in K by lia. lia. }
    subst k. unfold WORK_MAX. replace ((0 <=? Z.of_nat i) && (Z.of_nat i <? 128)) with true by lia. lia.
  - apply Forall_forall. intros x Hx. unfold all_descs in Hx. rewrite in_map_iff in Hx. destruct Hx as (k & <- & Hk).
    apply in_seq in Hk. lia.
  - intros i Hi. change (Z.of_nat (length all_descs)) with 128 in Hi. unfold WORK_MAX.
    replace ((0 <=? i) && (i <? 128)) with false by lia. reflexivity.
Qed.

Lemma push_ok : forall q l d, rep q l -> (length l < 128)%nat -> 0 < d ->
  exists q', push q d = Done q' /\ rep q' (l ++ [d]).
Proof.
  intros q l d [A B C D E] H Hd. unfold push, WORK_MAX, SLOTS in *.
  replace (size q =? 128) with false by lia. replace ((size q <? 0) || (130 <=? size q)) with false by lia.
  eexists. split; [reflexivity|]. constructor; cbn [arr size].
  - rewrite app_length. cbn [length]. lia.
  - rewrite app_length. cbn [length]. lia.
  - intros i v Hi. destruct (Nat.eq_dec i (length l)) as [->|N].
    + rewrite nth_error_app2, Nat.sub_diag in Hi by lia. cbn in Hi. injection Hi as <-. rewrite A. apply upd_same.
    + rewrite upd_other by lia. apply C. rewrite nth_error_app1 in Hi; [exact Hi|].
      assert (i < length (l ++ [d]))%nat by (apply nth_error_Some; congruence). rewrite app_length in H0. cbn in H0. lia.
  - apply Forall_app. split; [exact D|]. constructor; auto.
  - intros i Hi. rewrite app_length in Hi. cbn [length] in Hi. rewrite upd_other by lia. apply E. unfold SLOTS in *. lia.
Qed.

Lemma pop_ok : forall q l d, rep q (l ++ [d]) -> exists q', pop q = Done (q', d) /\ rep q' l.
Proof.
  intros q l d [A B C D E]. unfold pop, SLOTS in *. rewrite app_length in *. cbn [length] in *.
  replace (size q =? 0) with false by lia. cbv zeta. replace ((size q - 1 <? 0) || (130 <=? size q - 1)) with false by lia.
  assert (G: arr q (size q - 1) = d).
  { replace (size q - 1) with (Z.of_nat (length l)) by lia. apply C. rewrite nth_error_app2, Nat.sub_diag by lia. reflexivity. }
  rewrite G. eexists. split; [reflexivity|]. constructor; cbn [arr size].
  - lia.
  - lia.
  - intros i v Hi. assert (i < length l)%nat by (apply nth_error_Some; congruence). rewrite upd_other by lia.
    apply C. rewrite nth_error_app1 by lia. exact Hi.
  - apply Forall_app in D. tauto.
  - intros i Hi. destruct (Z.eq_dec i (size q - 1)) as [->|N]; [apply upd_same|]. rewrite upd_other by lia. apply E. unfold SLOTS in *. lia.
Qed.

Lemma shift_loop_ok : forall fuel i a n, 0 <= i <= n -> n <= 128 -> (Z.to_nat (n - i) < fuel)%nat ->
  (forall j, i <= j < n -> a j <> 0) -> a n = 0 ->
  exists a', shift_loop fuel i a = Done a' /\ forall j, a' j = if (i <=? j) && (j <? n) then a (j + 1) else a j.
Proof.
  induction fuel as [|f IH]; intros i a n Hi Hn Hf Ha H0; [lia|].
  cbn [shift_loop]. unfold SLOTS. replace ((i <? 0) || (130 <=? i)) with false by lia.
  destruct (Z.eq_dec i n) as [->|N].
  - rewrite H0. cbn [Z.eqb]. exists a. split; [reflexivity|]. intros j.
    replace ((n <=? j) && (j <? n)) with false by lia. reflexivity.
  - replace (a i =? 0) with false by (specialize (Ha i ltac:(lia)); lia). replace (130 <=? i + 1) with false by lia.
    destruct (IH (i + 1) (upd a i (a (i + 1))) n) as (a' & E & G); try lia.
    + intros j Hj. rewrite upd_other by lia. apply Ha. lia.
    + rewrite upd_other by lia. exact H0.
    + exists a'. split; [exact E|]. intros j. rewrite G.
      destruct (Z.eq_dec j i) as [->|Nj].
      * replace ((i + 1 <=? i) && (i <? n)) with false by lia. replace ((i <=? i) && (i <? n)) with true by lia. apply upd_same.
      * destruct ((i <=? j) && (j <? n)) eqn:Q.
        -- replace ((i + 1 <=? j) && (j <? n)) with true by lia. rewrite upd_other by lia. reflexivity.
        -- replace ((i + 1 <=? j) && (j <? n)) with false by lia. rewrite upd_other by lia. reflexivity.
Qed.

Lemma shift_ok : forall q l1 d l2, rep q (l1 ++ d :: l2) ->
  exists q', job_shift q (Z.of_nat (length l1)) = Done (q', d) /\ rep q' (l1 ++ l2).
Proof.
  intros q l1 d l2 R. pose proof R as [A B C D E]. unfold job_shift.
  assert (LL: length (l1 ++ d :: l2) = S (length (l1 ++ l2))) by (rewrite !app_length; cbn [length]; lia).
  set (n := Z.of_nat (length (l1 ++ d :: l2))) in *.
  assert (L1: (length l1 <= length (l1 ++ l2))%nat) by (rewrite app_length; lia).
  unfold SLOTS in *. replace ((Z.of_nat (length l1) <? 0) || (130 <=? Z.of_nat (length l1))) with false by lia.
  destruct (shift_loop_ok 200 (Z.of_nat (length l1)) (arr q) n) as (a' & Ea & Ga); try lia.
  - intros j Hj. assert (exists v, nth_error (l1 ++ d :: l2) (Z.to_nat j) = Some v) as [v Hv].
    { destruct (nth_error (l1 ++ d :: l2) (Z.to_nat j)) eqn:Q; [eauto|]. apply nth_error_None in Q. lia. }
    pose proof (C _ _ Hv) as G. rewrite Z2Nat.id in G by lia. rewrite G.
    rewrite Forall_forall in D. specialize (D v (nth_error_In _ _ Hv)). lia.
  - apply E. lia.
  - rewrite Ea. cbn [bindo].
    assert (G: arr q (Z.of_nat (length l1)) = d).
    { apply C. rewrite nth_error_app2, Nat.sub_diag by lia. reflexivity. }
    rewrite G. eexists. split; [reflexivity|]. constructor; cbn [arr size].
    + lia.
    + lia.
    + intros i v Hi. rewrite Ga. assert (i < length (l1 ++ l2))%nat by (apply nth_error_Some; congruence).
      destruct (le_lt_dec (length l1) i) as [Le|Lt].
      * replace ((Z.of_nat (length l1) <=? Z.of_nat i) && (Z.of_nat i <? n)) with true by lia.
        replace (Z.of_nat i + 1) with (Z.of_nat (S i)) by lia. apply C.
        rewrite nth_error_app2 in Hi by lia. rewrite nth_error_app2 by lia.
        replace (S i - length l1)%nat with (S (i - length l1)) by lia. exact Hi.
      * replace ((Z.of_nat (length l1) <=? Z.of_nat i) && (Z.of_nat i <? n)) with false by lia.
        apply C. rewrite nth_error_app1 in * by lia. exact Hi.
    + apply Forall_app in D. destruct D as [D1 D2]. inversion D2; subst. apply Forall_app. tauto.
    + intros i Hi. rewrite Ga. destruct ((Z.of_nat (length l1) <=? i) && (i <? n)) eqn:Q; apply E; unfold SLOTS in *; lia.
Qed.

Lemma find_done_range : forall n i ds q arg r, find_done n i ds q arg = Some r -> i <= r < i + Z.of_nat n /\ jarg (ds (arr q r)) = arg.
Proof.
  induction n as [|n IH]; intros i ds q arg r H; [discriminate|]. cbn [find_done] in H.
  destruct (jarg (ds (arr q i)) =? arg) eqn:E.
  - injection H as <-. lia.
  - apply IH in H. lia.
Qed.

(** *** Held descriptors. *)
Definition gots (h : list (Z * act)) : list Z := flat_map (fun x => match snd x with Got d => [d] | _ => [] end) h.
Definition descs (h : list (Z * act)) : list Z := map (fun x => act_desc (snd x)) h.

Lemma del_keys : forall a h, NoDup (map fst h) -> NoDup (map fst (del a h)) /\ ~ In a (map fst (del a h)).
Proof.
  intros a h. unfold del. induction h as [|[b x] t IH]; intros H; [split; [constructor|cbn; tauto]|].
  cbn [map fst] in H. inversion H; subst. destruct (IH H3) as [I1 I2]. cbn [filter fst].
  destruct (b =? a) eqn:E; cbn [negb]; [tauto|]. cbn [map fst]. split.
  - constructor; [|exact I1]. intro K. apply H2. rewrite in_map_iff in *. destruct K as ([c y] & <- & K).
    apply filter_In in K. exists (c, y). tauto.
  - intros [K|K]; [lia|tauto].
Qed.

Lemma del_notin : forall a h, lookup a h = None -> del a h = h.
Proof.
  intros a h. unfold del. induction h as [|[b x] t IH]; intros H; [reflexivity|]. cbn [lookup] in H. cbn [filter fst].
  destruct (a =? b) eqn:E; [discriminate|]. replace (b =? a) with false by lia. cbn [negb]. f_equal. now apply IH.
Qed.

Lemma lookup_perm : forall a x h, NoDup (map fst h) -> lookup a h = Some x -> Permutation h ((a, x) :: del a h).
Proof.
  intros a x h. induction h as [|[b y] t IH]; intros N H; [discriminate|]. cbn [lookup] in H. cbn [map fst] in N.
  inversion N; subst. unfold del. cbn [filter fst]. destruct (a =? b) eqn:E.
  - apply Z.eqb_eq in E. subst b. injection H as ->. rewrite Z.eqb_refl. cbn [negb]. fold (del a t).
    rewrite del_notin; [reflexivity|]. clear - H2. induction t as [|[c y] u IH]; [reflexivity|]. cbn [lookup].
    destruct (a =? c) eqn:E; [exfalso; apply H2; left; cbn; lia|]. apply IH. intro K. apply H2. right. exact K.
  - replace (b =? a) with false by lia. cbn [negb]. fold (del a t). rewrite perm_swap. constructor. now apply IH.
Qed.

Definition cnt (x : Z) (l : list Z) : nat := count_occ Z.eq_dec l x.
Lemma cnt_app : forall x a b, cnt x (a ++ b) = (cnt x a + cnt x b)%nat.
Proof. intros. apply count_occ_app. Qed.
Lemma cnt_cons : forall x a b, cnt x (a :: b) = (cnt x [a] + cnt x b)%nat.
Proof. intros. change (a :: b) with ([a] ++ b). apply cnt_app. Qed.
Lemma cnt_nil : forall x, cnt x [] = 0%nat.
Proof. reflexivity. Qed.
Lemma perm_cnt : forall a b, (forall x, cnt x a = cnt x b) -> Permutation a b.
Proof. intros. apply (Permutation_count_occ Z.eq_dec). exact H. Qed.
Lemma cnt_perm : forall a b x, Permutation a b -> cnt x a = cnt x b.
Proof. intros. now apply (Permutation_count_occ Z.eq_dec). Qed.

Lemma descs_lookup : forall a x h, NoDup (map fst h) -> lookup a h = Some x ->
  (forall z, cnt z (descs h) = (cnt z [act_desc x] + cnt z (descs (del a h)))%nat).
Proof.
  intros a x h N H z. rewrite <- cnt_cons. apply cnt_perm. change (act_desc x :: descs (del a h)) with (descs ((a, x) :: del a h)).
  unfold descs. apply Permutation_map. now apply lookup_perm.
Qed.
Lemma gots_lookup : forall a x h, NoDup (map fst h) -> lookup a h = Some x ->
  Permutation (gots h) (gots [(a, x)] ++ gots (del a h)).
Proof.
  intros a x h N H. change (gots [(a, x)] ++ gots (del a h)) with ((match x with Got d => [d] | _ => [] end ++ []) ++ gots (del a h)).
  rewrite app_nil_r. change (match x with Got d => [d] | _ => [] end ++ gots (del a h)) with (gots ((a, x) :: del a h)).
  unfold gots. apply Permutation_flat_map. now apply lookup_perm.
Qed.

Record inv (p : pool) : Prop := {
  iU : exists l, rep (uninit p) l;
  iR : exists l, rep (run p) l;
  iD : exists l, rep (done p) l;
  iAll : forall z, (cnt z (queued (uninit p)) + cnt z (queued (run p)) + cnt z (queued (done p)) + cnt z (descs (held p)))%nat = cnt z all_descs;
  iKeys : NoDup (map fst (held p));
  iSub : submitted p = started p ++ map (fun d => jid (desc p d)) (queued (run p));
  iExe : Permutation (started p) (executed p ++ map (fun d => jid (desc p d)) (gots (held p)))
}.

Lemma all_nodup : NoDup all_descs.
Proof. unfold all_descs. apply FinFun.Injective_map_NoDup; [intros a b; lia|apply seq_NoDup]. Qed.
Opaque all_descs.
Lemma all_cnt : forall z, (cnt z all_descs <= 1)%nat.
Proof. intros. apply (NoDup_count_occ Z.eq_dec). apply all_nodup. Qed.
Lemma cnt_in_inv : forall z l, (1 <= cnt z l)%nat -> In z l.
Proof. intros z l H. apply (count_occ_In Z.eq_dec). exact H. Qed.
Lemma all_pos : forall z, (1 <= cnt z all_descs)%nat -> 0 < z.
Proof.
  intros z H. apply cnt_in_inv in H. Transparent all_descs. unfold all_descs in H. Opaque all_descs. rewrite in_map_iff in H.
  destruct H as (k & E & K). apply in_seq in K. clear - E K. lia.
Qed.
Lemma cnt_self : forall z, cnt z [z] = 1%nat.
Proof. intros. unfold cnt. cbn. destruct (Z.eq_dec z z); [reflexivity|congruence]. Qed.

Lemma inv_total : forall p, inv p ->
  (length (queued (uninit p)) + length (queued (run p)) + length (queued (done p)) + length (descs (held p)) = 128)%nat.
Proof.
  intros p [_ _ _ A _ _ _].
  assert (P: Permutation (queued (uninit p) ++ queued (run p) ++ queued (done p) ++ descs (held p)) all_descs).
  { apply perm_cnt. intros x. rewrite !cnt_app. specialize (A x). lia. }
  apply Permutation_length in P. rewrite !app_length in P. change (length all_descs) with 128%nat in P. lia.
Qed.

Lemma descs_length_lookup : forall a x h, lookup a h = Some x -> (1 <= length (descs h))%nat.
Proof. intros a x h H. destruct h; [discriminate|]. cbn. lia. Qed.

Lemma inv_init : forall d0, inv (init_pool d0).
Proof.
  intros. constructor; cbn [init_pool uninit run done held submitted started executed desc].
  - eexists. apply rep_init.
  - eexists. apply rep_empty.
  - eexists. apply rep_empty.
  - intros z. rewrite (rep_queued _ _ rep_init), (rep_queued _ _ rep_empty). unfold descs. cbn [map]. rewrite !cnt_nil. lia.
  - constructor.
  - rewrite (rep_queued _ _ rep_empty). reflexivity.
  - reflexivity.
Qed.

Lemma idle_none : forall a p, idle a p = true -> lookup a (held p) = None.
Proof. unfold idle. intros a p. destruct (lookup a (held p)); [discriminate|reflexivity]. Qed.

Lemma put_keys : forall a x h, NoDup (map fst h) -> NoDup (map fst (put a x h)).
Proof. intros a x h H. destruct (del_keys a h H) as [A B]. unfold put. cbn [map fst]. constructor; assumption. Qed.

Lemma cnt_one : forall a b, cnt a [b] = if Z.eq_dec b a then 1%nat else 0%nat.
Proof. intros. unfold cnt. cbn. destruct (Z.eq_dec b a); reflexivity. Qed.

Lemma map_desc_upd : forall (ds : Z -> job) d j l, ~ In d l ->
  map (fun k => jid ((fun k => if k =? d then j else ds k) k)) l = map (fun k => jid (ds k)) l.
Proof.
  intros ds d j l N. apply map_ext_in. intros k Hk. cbv beta. destruct (k =? d) eqn:E; [|reflexivity].
  apply Z.eqb_eq in E. subst. contradiction.
Qed.
Lemma cnt_in : forall z l, In z l -> (1 <= cnt z l)%nat.
Proof. intros z l H. apply (count_occ_In Z.eq_dec) in H. unfold cnt. lia. Qed.

Lemma gots_in_descs : forall z h, In z (gots h) -> In z (descs h).
Proof.
  intros z h. unfold gots, descs. rewrite in_flat_map, in_map_iff. intros ([a x] & K & E). cbn [snd] in E.
  exists (a, x). split; [|exact K]. cbn [snd]. destruct x; cbn in E; try contradiction. destruct E as [->|[]]. reflexivity.
Qed.

Lemma list_snoc : forall (l : list Z), l = [] \/ exists t d, l = t ++ [d].
Proof. intros l. destruct (rev l) as [|d t] eqn:E.
  - left. rewrite <- (rev_involutive l), E. reflexivity.
  - right. exists (rev t), d. rewrite <- (rev_involutive l), E. reflexivity.
Qed.

Lemma step_inv : forall o p, inv p -> match tstep o p with Done p' => inv p' | Fail => True | _ => False end.
Proof.
  intros o p IV. pose proof (inv_total p IV) as TOT. pose proof IV as [[U RU] [R RR] [D RD] AL KE SU EX].
  rewrite (rep_queued _ _ RU) in AL, TOT. rewrite (rep_queued _ _ RR) in AL, SU, TOT. rewrite (rep_queued _ _ RD) in AL, TOT.
  destruct o as [a|a j|a|a|a|a|a arg|a| |a]; cbn [tstep].
  - (* OpPop *)
    destruct (idle a p) eqn:I; [|trivial]. apply idle_none in I.
    destruct (list_snoc U) as [->|(U' & d & ->)].
    + unfold pop. rewrite (rp_size _ _ RU). cbn. trivial.
    + destruct (pop_ok _ _ _ RU) as (q' & E & RQ). rewrite E. cbn [bindo fst snd].
      constructor; cbn [uninit run done held submitted started executed desc]; eauto.
      * intros z. rewrite (rep_queued _ _ RQ), (rep_queued _ _ RR), (rep_queued _ _ RD). specialize (AL z).
        unfold put. rewrite (del_notin _ _ I). change (descs ((a, Have d) :: held p)) with (d :: descs (held p)).
        rewrite cnt_cons. rewrite cnt_app in AL. lia.
      * now apply put_keys.
      * rewrite (rep_queued _ _ RR). exact SU.
      * unfold put. rewrite (del_notin _ _ I). exact EX.
  - (* OpFill *)
    destruct (lookup a (held p)) as [[d|d|d|d|d]|] eqn:L; trivial.
    assert (ND: forall l, (forall z, (cnt z l <= cnt z U + cnt z R + cnt z D + cnt z (descs (del a (held p))))%nat) -> ~ In d l).
    { intros l Hl Hin. apply cnt_in in Hin. specialize (Hl d). specialize (AL d). rewrite (descs_lookup _ _ _ KE L) in AL.
      cbn [act_desc] in AL. rewrite cnt_self in AL. pose proof (all_cnt d). lia. }
    pose proof (gots_lookup _ _ _ KE L) as GL. cbn in GL.
    constructor; cbn [uninit run done held submitted started executed desc]; eauto.
    + intros z. rewrite (rep_queued _ _ RU), (rep_queued _ _ RR), (rep_queued _ _ RD). specialize (AL z).
      rewrite (descs_lookup _ _ _ KE L) in AL. unfold put. change (descs ((a, Filled d) :: del a (held p))) with (d :: descs (del a (held p))).
      rewrite cnt_cons. cbn [act_desc] in AL. lia.
    + now apply put_keys.
    + rewrite (rep_queued _ _ RR). rewrite (map_desc_upd (desc p) d j R); [exact SU|]. apply ND. intros; lia.
    + unfold put. change (gots ((a, Filled d) :: del a (held p))) with (gots (del a (held p))).
      rewrite (map_desc_upd (desc p) d j (gots (del a (held p)))).
      * rewrite EX. apply Permutation_app_head. apply Permutation_map. exact GL.
      * intro K. apply gots_in_descs in K. revert K. apply ND. intros; lia.
  - (* OpPush *)
    destruct (lookup a (held p)) as [[d|d|d|d|d]|] eqn:L; trivial.
    pose proof (descs_length_lookup _ _ _ L) as DL.
    assert (Pd: 0 < d).
    { apply all_pos. specialize (AL d). rewrite (descs_lookup _ _ _ KE L) in AL. cbn [act_desc] in AL. rewrite cnt_self in AL. lia. }
    destruct (push_ok _ _ d RR ltac:(lia) Pd) as (q' & E & RQ). rewrite E. cbn [bindo].
    pose proof (gots_lookup _ _ _ KE L) as GL. cbn in GL.
    constructor; cbn [uninit run done held submitted started executed desc]; eauto.
    + intros z. rewrite (rep_queued _ _ RU), (rep_queued _ _ RQ), (rep_queued _ _ RD). specialize (AL z).
      rewrite (descs_lookup _ _ _ KE L) in AL. rewrite cnt_app. cbn [act_desc] in AL. lia.
    + apply del_keys. exact KE.
    + rewrite (rep_queued _ _ RQ), map_app. cbn [map]. rewrite SU, <- app_assoc. reflexivity.
    + rewrite EX. apply Permutation_app_head. apply Permutation_map. exact GL.
  - (* OpPick *)
    destruct (idle a p) eqn:I; [|trivial]. apply idle_none in I.
    destruct (size (run p) =? 0) eqn:S0; [trivial|].
    destruct R as [|d R']; [rewrite (rp_size _ _ RR) in S0; discriminate|].
    destruct (shift_ok (run p) [] d R' RR) as (q' & E & RQ). cbn [length Z.of_nat app] in E, RQ. rewrite E. cbn [bindo fst snd].
    constructor; cbn [uninit run done held submitted started executed desc]; eauto.
    + intros z. rewrite (rep_queued _ _ RU), (rep_queued _ _ RQ), (rep_queued _ _ RD). specialize (AL z).
      unfold put. rewrite (del_notin _ _ I). change (descs ((a, Got d) :: held p)) with (d :: descs (held p)).
      rewrite cnt_cons. rewrite (cnt_cons z d R') in AL. lia.
    + now apply put_keys.
    + rewrite (rep_queued _ _ RQ). rewrite SU. cbn [map]. rewrite <- app_assoc. reflexivity.
    + unfold put. rewrite (del_notin _ _ I). change (gots ((a, Got d) :: held p)) with (d :: gots (held p)). cbn [map].
      rewrite EX. rewrite <- app_assoc. apply Permutation_app_head. symmetry. apply Permutation_cons_append.
  - (* OpRun *)
    destruct (lookup a (held p)) as [[d|d|d|d|d]|] eqn:L; trivial.
    pose proof (gots_lookup _ _ _ KE L) as GL. cbn in GL.
    constructor; cbn [uninit run done held submitted started executed desc]; eauto.
    + intros z. rewrite (rep_queued _ _ RU), (rep_queued _ _ RR), (rep_queued _ _ RD). specialize (AL z).
      rewrite (descs_lookup _ _ _ KE L) in AL. unfold put. change (descs ((a, Ran d) :: del a (held p))) with (d :: descs (del a (held p))).
      rewrite cnt_cons. cbn [act_desc] in AL. lia.
    + now apply put_keys.
    + rewrite (rep_queued _ _ RR). exact SU.
    + unfold put. change (gots ((a, Ran d) :: del a (held p))) with (gots (del a (held p))).
      rewrite EX, <- app_assoc. apply Permutation_app_head. rewrite GL. reflexivity.
  - (* OpFinish *)
    destruct (lookup a (held p)) as [[d|d|d|d|d]|] eqn:L; trivial.
    pose proof (descs_length_lookup _ _ _ L) as DL.
    assert (Pd: 0 < d).
    { apply all_pos. specialize (AL d). rewrite (descs_lookup _ _ _ KE L) in AL. cbn [act_desc] in AL. rewrite cnt_self in AL. lia. }
    pose proof (gots_lookup _ _ _ KE L) as GL. cbn in GL.
    destruct (jwait (desc p d)).
    + destruct (push_ok _ _ d RD ltac:(lia) Pd) as (q' & E & RQ). rewrite E. cbn [bindo].
      constructor; cbn [uninit run done held submitted started executed desc]; eauto.
      * intros z. rewrite (rep_queued _ _ RU), (rep_queued _ _ RR), (rep_queued _ _ RQ). specialize (AL z).
        rewrite (descs_lookup _ _ _ KE L) in AL. rewrite cnt_app. cbn [act_desc] in AL. lia.
      * apply del_keys. exact KE.
      * rewrite (rep_queued _ _ RR). exact SU.
      * rewrite EX. apply Permutation_app_head. apply Permutation_map. exact GL.
    + destruct (push_ok _ _ d RU ltac:(lia) Pd) as (q' & E & RQ). rewrite E. cbn [bindo].
      constructor; cbn [uninit run done held submitted started executed desc]; eauto.
      * intros z. rewrite (rep_queued _ _ RQ), (rep_queued _ _ RR), (rep_queued _ _ RD). specialize (AL z).
        rewrite (descs_lookup _ _ _ KE L) in AL. rewrite cnt_app. cbn [act_desc] in AL. lia.
      * apply del_keys. exact KE.
      * rewrite (rep_queued _ _ RR). exact SU.
      * rewrite EX. apply Permutation_app_head. apply Permutation_map. exact GL.
  - (* OpWait *)
    destruct (idle a p) eqn:I; [|trivial]. apply idle_none in I.
    destruct (find_done (Z.to_nat (size (done p))) 0 (desc p) (done p) arg) as [i|] eqn:F; [|trivial].
    apply find_done_range in F. destruct F as [F _]. rewrite (rp_size _ _ RD), Nat2Z.id in F.
    destruct (nth_error D (Z.to_nat i)) as [d|] eqn:Q; [|apply nth_error_None in Q; lia].
    apply nth_error_split in Q. destruct Q as (l1 & l2 & -> & Ll).
    destruct (shift_ok _ _ _ _ RD) as (q' & E & RQ). rewrite Ll in E. rewrite Z2Nat.id in E by lia. rewrite E. cbn [bindo fst snd].
    constructor; cbn [uninit run done held submitted started executed desc]; eauto.
    + intros z. rewrite (rep_queued _ _ RU), (rep_queued _ _ RR), (rep_queued _ _ RQ). specialize (AL z).
      unfold put. rewrite (del_notin _ _ I). change (descs ((a, Waited d) :: held p)) with (d :: descs (held p)).
      rewrite cnt_cons. rewrite cnt_app in *. rewrite (cnt_cons z d l2) in AL. lia.
    + now apply put_keys.
    + rewrite (rep_queued _ _ RR). exact SU.
    + unfold put. rewrite (del_notin _ _ I). exact EX.
  - (* OpReturn *)
    destruct (lookup a (held p)) as [[d|d|d|d|d]|] eqn:L; trivial.
    pose proof (descs_length_lookup _ _ _ L) as DL.
    assert (Pd: 0 < d).
    { apply all_pos. specialize (AL d). rewrite (descs_lookup _ _ _ KE L) in AL. cbn [act_desc] in AL. rewrite cnt_self in AL. lia. }
    pose proof (gots_lookup _ _ _ KE L) as GL. cbn in GL.
    destruct (push_ok _ _ d RU ltac:(lia) Pd) as (q' & E & RQ). rewrite E. cbn [bindo].
    constructor; cbn [uninit run done held submitted started executed desc]; eauto.
    + intros z. rewrite (rep_queued _ _ RQ), (rep_queued _ _ RR), (rep_queued _ _ RD). specialize (AL z).
      rewrite (descs_lookup _ _ _ KE L) in AL. rewrite cnt_app. cbn [act_desc] in AL. lia.
    + apply del_keys. exact KE.
    + rewrite (rep_queued _ _ RR). exact SU.
    + rewrite EX. apply Permutation_app_head. apply Permutation_map. exact GL.
  - constructor; cbn [uninit run done held submitted started executed desc]; eauto.
    + intros z. rewrite (rep_queued _ _ RU), (rep_queued _ _ RR), (rep_queued _ _ RD). apply AL.
    + rewrite (rep_queued _ _ RR). exact SU.
  - destruct (exiting p && idle a p); [|trivial].
    constructor; cbn [uninit run done held submitted started executed desc]; eauto.
    + intros z. rewrite (rep_queued _ _ RU), (rep_queued _ _ RR), (rep_queued _ _ RD). apply AL.
    + rewrite (rep_queued _ _ RR). exact SU.
Qed.

Lemma run_inv : forall ops p, inv p -> exists p', trun ops p = Done p' /\ inv p'.
Proof.
  induction ops as [|o t IH]; intros p I; [exists p; split; [reflexivity|exact I]|].
  cbn [trun]. pose proof (step_inv o p I) as H. destruct (tstep o p) as [p1| | |]; try contradiction; apply IH; assumption.
Qed.

Lemma queued_of : forall q, (exists l, rep q l) -> rep q (queued q).
Proof. intros q [l R]. rewrite (rep_queued _ _ R). exact R. Qed.

Lemma exactly_once : forall d0 ops, exists p, trun ops (init_pool d0) = Done p /\
  submitted p = started p ++ map (fun d => jid (desc p d)) (queued (run p)) /\
  Permutation (started p) (executed p ++ map (fun d => jid (desc p d)) (picked p)).
Proof.
  intros. destruct (run_inv ops _ (inv_init d0)) as (p & E & I). exists p. destruct I. repeat split; assumption.
Qed.

Lemma descriptors : forall d0 ops, exists p, trun ops (init_pool d0) = Done p /\
  Permutation (queued (uninit p) ++ queued (run p) ++ queued (done p) ++ holding p) all_descs.
Proof.
  intros. destruct (run_inv ops _ (inv_init d0)) as (p & E & I). exists p. split; [exact E|]. destruct I.
  apply perm_cnt. intros x. rewrite !cnt_app. specialize (iAll0 x). unfold holding, descs in *. lia.
Qed.

Lemma queue_bounds : forall d0 ops, exists p, trun ops (init_pool d0) = Done p /\
  forall q, q = uninit p \/ q = run p \/ q = done p ->
    0 <= size q <= WORK_MAX /\ forall i, size q <= i < SLOTS -> arr q i = 0.
Proof.
  intros. destruct (run_inv ops _ (inv_init d0)) as (p & E & I). exists p. split; [exact E|].
  assert (G: forall q, (exists l, rep q l) -> 0 <= size q <= WORK_MAX /\ forall i, size q <= i < SLOTS -> arr q i = 0).
  { intros q [l [A B C D F]]. split; [unfold WORK_MAX; lia|]. intros i Hi. apply F. lia. }
  destruct I. intros q [-> | [-> | ->]]; apply G; assumption.
Qed.

Lemma pushes_enabled : forall d0 ops p a x, trun ops (init_pool d0) = Done p -> lookup a (held p) = Some x ->
  exists p', tstep (match x with Have _ => OpFill a {| jid := 0; jarg := 0; jwait := false |} | Filled _ => OpPush a
                             | Got _ => OpRun a | Ran _ => OpFinish a | Waited _ => OpReturn a end) p = Done p'.
Proof.
  intros d0 ops p a x E L. destruct (run_inv ops _ (inv_init d0)) as (p1 & E1 & I). rewrite E in E1. apply Done_inj in E1. subst p1.
  pose proof (inv_total p I) as TOT. pose proof (descs_length_lookup _ _ _ L) as DL.
  assert (Pd: 0 < act_desc x).
  { apply all_pos. destruct I as [_ _ _ AL KE _ _]. specialize (AL (act_desc x)). rewrite (descs_lookup _ _ _ KE L) in AL. rewrite cnt_self in AL. lia. }
  destruct I as [RU RR RD _ _ _ _]. apply queued_of in RU, RR, RD.
  destruct x as [d|d|d|d|d]; cbn [tstep act_desc] in *; rewrite L.
  - eexists; reflexivity.
  - destruct (push_ok _ _ d RR ltac:(lia) Pd) as (q & Eq & _). rewrite Eq. eexists; reflexivity.
  - eexists; reflexivity.
  - destruct (push_ok _ _ d RD ltac:(lia) Pd) as (q & Eq & _). destruct (push_ok _ _ d RU ltac:(lia) Pd) as (q2 & Eq2 & _).
    rewrite Eq, Eq2. destruct (jwait (desc p d)); eexists; reflexivity.
  - destruct (push_ok _ _ d RU ltac:(lia) Pd) as (q & Eq & _). rewrite Eq. eexists; reflexivity.
Qed.

Lemma pick_enabled : forall d0 ops p a, trun ops (init_pool d0) = Done p -> idle a p = true -> size (run p) <> 0 ->
  exists p', tstep (OpPick a) p = Done p'.
Proof.
  intros d0 ops p a E Ha Hs. destruct (run_inv ops _ (inv_init d0)) as (p1 & E1 & I). rewrite E in E1. apply Done_inj in E1. subst p1.
  destruct I as [_ RR _ _ _ _ _]. destruct RR as [[|d t] RR]; [rewrite (rp_size _ _ RR) in Hs; cbn in Hs; lia|].
  destruct (shift_ok (run p) [] d t RR) as (q & Eq & _). cbn [length Z.of_nat] in Eq. cbn [tstep]. rewrite Ha.
  replace (size (run p) =? 0) with false by lia. rewrite Eq. eexists; reflexivity.
Qed.

(** *** Waiting returns only after the job has run. *)
Record inv2 (p : pool) : Prop := {
  i2 : inv p;
  i2D : forall d, In d (queued (done p)) -> In (jid (desc p d)) (executed p);
  i2R : forall a d, lookup a (held p) = Some (Ran d) \/ lookup a (held p) = Some (Waited d) -> In (jid (desc p d)) (executed p)
}.

Lemma lookup_del : forall a b h, lookup a (del b h) = if a =? b then None else lookup a h.
Proof.
  intros a b h. unfold del. induction h as [|[c x] t IH]; [cbn; destruct (a =? b); reflexivity|]. cbn [filter fst].
  destruct (c =? b) eqn:E; cbn [negb].
  - rewrite IH. cbn [lookup]. destruct (a =? b) eqn:F; [reflexivity|]. replace (a =? c) with false by lia. reflexivity.
  - cbn [lookup]. rewrite IH. destruct (a =? c) eqn:G; [|reflexivity]. replace (a =? b) with false by lia. reflexivity.
Qed.
Lemma lookup_put : forall a b x h, lookup a (put b x h) = if a =? b then Some x else lookup a h.
Proof. intros. unfold put. cbn [lookup]. rewrite lookup_del. destruct (a =? b); reflexivity. Qed.

Lemma lookup_in_descs : forall a x h, lookup a h = Some x -> In (act_desc x) (descs h).
Proof.
  intros a x h. unfold descs. induction h as [|[b y] t IH]; intros H; [discriminate|]. cbn [lookup] in H. destruct (a =? b).
  - injection H as ->. left. reflexivity.
  - right. now apply IH.
Qed.

Lemma pop_queued : forall q q' d, (exists l, rep q l) -> pop q = Done (q', d) -> queued q = queued q' ++ [d].
Proof.
  intros q q' d [l R] E. destruct (list_snoc l) as [->|(t & e & ->)].
  - unfold pop in E. rewrite (rp_size _ _ R) in E. discriminate.
  - destruct (pop_ok _ _ _ R) as (q1 & E1 & R1). rewrite E in E1. apply Done_inj in E1. apply pair_equal_spec in E1. destruct E1 as [-> ->].
    now rewrite (rep_queued _ _ R), (rep_queued _ _ R1).
Qed.
Lemma push_queued : forall q q' d, (exists l, rep q l) -> 0 < d -> push q d = Done q' -> queued q' = queued q ++ [d].
Proof.
  intros q q' d [l R] Hd E. destruct (le_lt_dec 128 (length l)) as [G|G].
  - pose proof (rp_max _ _ R). unfold push in E. rewrite (rp_size _ _ R) in E. unfold WORK_MAX in E.
    replace (Z.of_nat (length l) =? 128) with true in E by lia. discriminate.
  - destruct (push_ok _ _ d R G Hd) as (q1 & E1 & R1). rewrite E in E1. apply Done_inj in E1. subst q1.
    now rewrite (rep_queued _ _ R), (rep_queued _ _ R1).
Qed.
Lemma shift_queued : forall q q' i d, (exists l, rep q l) -> 0 <= i < size q -> job_shift q i = Done (q', d) ->
  exists l1 l2, queued q = l1 ++ d :: l2 /\ queued q' = l1 ++ l2 /\ d = arr q i.
Proof.
  intros q q' i d [l R] Hi E. rewrite (rp_size _ _ R) in Hi.
  destruct (nth_error l (Z.to_nat i)) as [e|] eqn:Q; [|apply nth_error_None in Q; lia].
  pose proof (rp_get _ _ R _ _ Q) as Ga. rewrite Z2Nat.id in Ga by lia.
  apply nth_error_split in Q. destruct Q as (l1 & l2 & -> & Ll).
  destruct (shift_ok _ _ _ _ R) as (q1 & E1 & R1). rewrite Ll, Z2Nat.id, E in E1 by lia.
  apply Done_inj in E1. apply pair_equal_spec in E1. destruct E1 as [-> ->].
  exists l1, l2. rewrite (rep_queued _ _ R), (rep_queued _ _ R1). auto.
Qed.

Lemma held_pos : forall p a x, inv p -> lookup a (held p) = Some x -> 0 < act_desc x.
Proof.
  intros p a x [_ _ _ AL KE _ _] L. apply all_pos. specialize (AL (act_desc x)).
  rewrite (descs_lookup _ _ _ KE L), cnt_self in AL. lia.
Qed.

Ltac bo H := match type of H with bindo ?e _ = Done _ => let E := fresh "E" in
  destruct e eqn:E; cbn [bindo fst snd] in H; try discriminate end.

Lemma step_inv2 : forall o p p', inv2 p -> tstep o p = Done p' -> inv2 p'.
Proof.
  intros o p p' [IV HD HR] H. pose proof (step_inv o p IV) as IV'. rewrite H in IV'. split; [exact IV'| |].
  - pose proof IV as [RU RR RD AL KE _ _]. destruct o as [a|a j|a|a|a|a|a arg|a| |a]; cbn [tstep] in H.
    + destruct (idle a p); [|discriminate]. bo H. apply Done_inj in H. subst p'. exact HD.
    + destruct (lookup a (held p)) as [[d|d|d|d|d]|] eqn:L; try discriminate. apply Done_inj in H. subst p'. cbn [done desc executed] in *.
      intros k Hk. destruct (k =? d) eqn:Q; [|now apply HD]. exfalso. apply Z.eqb_eq in Q. subst k.
      apply cnt_in in Hk. specialize (AL d). rewrite (descs_lookup _ _ _ KE L) in AL. cbn [act_desc] in AL. rewrite cnt_self in AL.
      pose proof (all_cnt d). lia.
    + destruct (lookup a (held p)) as [[d|d|d|d|d]|] eqn:L; try discriminate. bo H. apply Done_inj in H. subst p'. exact HD.
    + destruct (idle a p); [|discriminate]. destruct (size (run p) =? 0); [discriminate|]. bo H. apply Done_inj in H. subst p'. exact HD.
    + destruct (lookup a (held p)) as [[d|d|d|d|d]|] eqn:L; try discriminate. apply Done_inj in H. subst p'. cbn [done desc executed] in *.
      intros k Hk. apply in_or_app. left. now apply HD.
    + destruct (lookup a (held p)) as [[d|d|d|d|d]|] eqn:L; try discriminate. pose proof (held_pos _ _ _ IV L) as Pd. cbn [act_desc] in Pd.
      destruct (jwait (desc p d)); bo H; apply Done_inj in H; subst p'; cbn [done desc executed] in *; [|exact HD].
      intros k Hk. rewrite (push_queued _ _ _ RD Pd E) in Hk. apply in_app_or in Hk. destruct Hk as [Hk|[<-|[]]]; [now apply HD|].
      apply (HR a). now left.
    + destruct (idle a p); [|discriminate]. destruct (find_done (Z.to_nat (size (done p))) 0 (desc p) (done p) arg) as [i|] eqn:F; [|discriminate].
      bo H. apply Done_inj in H. subst p'. cbn [done desc executed] in *. destruct a0 as [q d]. cbn [fst].
      apply find_done_range in F. destruct (shift_queued (done p) q i d RD ltac:(lia) E) as (l1 & l2 & E1 & E2 & _).
      intros k Hk. apply HD. rewrite E1. rewrite E2 in Hk. apply in_or_app. apply in_app_or in Hk. cbn [In]. tauto.
    + destruct (lookup a (held p)) as [[d|d|d|d|d]|] eqn:L; try discriminate. bo H. apply Done_inj in H. subst p'. exact HD.
    + apply Done_inj in H. subst p'. exact HD.
    + destruct (exiting p && idle a p); [|discriminate]. apply Done_inj in H. subst p'. exact HD.
  - pose proof IV as [RU RR RD AL KE _ _]. destruct o as [a|a j|a|a|a|a|a arg|a| |a]; cbn [tstep] in H.
    + destruct (idle a p); [|discriminate]. bo H. apply Done_inj in H. subst p'. cbn [held desc executed].
      intros b d. rewrite lookup_put. destruct (b =? a); [intros [K|K]; discriminate|]. apply HR.
    + destruct (lookup a (held p)) as [[d|d|d|d|d]|] eqn:L; try discriminate. apply Done_inj in H. subst p'. cbn [held desc executed].
      intros b k. rewrite lookup_put. destruct (b =? a) eqn:B; [intros [K|K]; discriminate|]. intros K.
      destruct (k =? d) eqn:Q; [|now apply (HR b)]. exfalso. apply Z.eqb_eq in Q. subst k.
      assert (Hin: In d (descs (del a (held p)))).
      { destruct K as [K|K].
        - apply (lookup_in_descs b (Ran d)). rewrite lookup_del, B. exact K.
        - apply (lookup_in_descs b (Waited d)). rewrite lookup_del, B. exact K. }
      apply cnt_in in Hin. specialize (AL d). rewrite (descs_lookup _ _ _ KE L) in AL. cbn [act_desc] in AL. rewrite cnt_self in AL.
      pose proof (all_cnt d). lia.
    + destruct (lookup a (held p)) as [[d|d|d|d|d]|] eqn:L; try discriminate. bo H. apply Done_inj in H. subst p'. cbn [held desc executed].
      intros b k. rewrite lookup_del. destruct (b =? a); [intros [K|K]; discriminate|]. apply HR.
    + destruct (idle a p); [|discriminate]. destruct (size (run p) =? 0); [discriminate|]. bo H. apply Done_inj in H. subst p'. cbn [held desc executed].
      intros b k. rewrite lookup_put. destruct (b =? a); [intros [K|K]; discriminate|]. apply HR.
    + destruct (lookup a (held p)) as [[d|d|d|d|d]|] eqn:L; try discriminate. apply Done_inj in H. subst p'. cbn [held desc executed].
      intros b k. rewrite lookup_put. destruct (b =? a).
      * intros [K|K]; [|discriminate]. apply Some_inj in K. injection K as <-. apply in_or_app. right. left. reflexivity.
      * intros K. apply in_or_app. left. now apply (HR b).
    + destruct (lookup a (held p)) as [[d|d|d|d|d]|] eqn:L; try discriminate.
      destruct (jwait (desc p d)); bo H; apply Done_inj in H; subst p'; cbn [held desc executed];
        intros b k; rewrite lookup_del; destruct (b =? a); try apply HR; intros [K|K]; discriminate.
    + destruct (idle a p); [|discriminate]. destruct (find_done (Z.to_nat (size (done p))) 0 (desc p) (done p) arg) as [i|] eqn:F; [|discriminate].
      bo H. apply Done_inj in H. subst p'. cbn [held desc executed]. destruct a0 as [q d]. cbn [snd].
      apply find_done_range in F. destruct (shift_queued (done p) q i d RD ltac:(lia) E) as (l1 & l2 & E1 & E2 & _).
      intros b k. rewrite lookup_put. destruct (b =? a); [|apply HR]. intros [K|K]; [discriminate|].
      apply Some_inj in K. injection K as <-. apply HD. rewrite E1. apply in_or_app. right. left. reflexivity.
    + destruct (lookup a (held p)) as [[d|d|d|d|d]|] eqn:L; try discriminate. bo H. apply Done_inj in H. subst p'. cbn [held desc executed].
      intros b k. rewrite lookup_del. destruct (b =? a); [intros [K|K]; discriminate|]. apply HR.
    + apply Done_inj in H. subst p'. exact HR.
    + destruct (exiting p && idle a p); [|discriminate]. apply Done_inj in H. subst p'. exact HR.
Qed.

Lemma inv2_init : forall d0, inv2 (init_pool d0).
Proof.
  intros. constructor; [apply inv_init| |].
  - intros d H. cbn [init_pool done] in H. rewrite (rep_queued _ _ rep_empty) in H. contradiction.
  - intros a d [H|H]; discriminate.
Qed.
Lemma run_inv2 : forall ops p p', inv2 p -> trun ops p = Done p' -> inv2 p'.
Proof.
  induction ops as [|o t IH]; intros p p' I H; [apply Done_inj in H; now subst|]. cbn [trun] in H.
  destruct (tstep o p) as [p1| | |] eqn:E; try discriminate.
  - apply (IH p1); [eapply step_inv2; eauto|exact H].
  - now apply (IH p).
Qed.

Lemma wait_after_run : forall d0 ops p a arg p', trun ops (init_pool d0) = Done p -> tstep (OpWait a arg) p = Done p' ->
  exists d, In d (queued (done p)) /\ ~ In d (queued (done p')) /\ jarg (desc p d) = arg /\ In (jid (desc p d)) (executed p).
Proof.
  intros d0 ops p a arg p' R H. pose proof (run_inv2 _ _ _ (inv2_init d0) R) as I2. pose proof I2 as [IV HD HR].
  pose proof IV as [RU RR RD AL KE _ _]. cbn [tstep] in H.
  destruct (idle a p); [|discriminate]. destruct (find_done (Z.to_nat (size (done p))) 0 (desc p) (done p) arg) as [i|] eqn:F; [|discriminate].
  bo H. apply Done_inj in H. subst p'. cbn [done]. destruct a0 as [q d]. cbn [fst].
  apply find_done_range in F. destruct F as [F Fa]. destruct (shift_queued (done p) q i d RD ltac:(lia) E) as (l1 & l2 & E1 & E2 & Ed).
  exists d. assert (In d (queued (done p))) as Hin by (rewrite E1; apply in_or_app; right; left; reflexivity).
  split; [exact Hin|]. split.
  - rewrite E2. intro K. apply cnt_in in K. specialize (AL d). rewrite E1, !cnt_app, cnt_cons, cnt_self in AL. rewrite cnt_app in K.
    pose proof (all_cnt d). lia.
  - split; [rewrite Ed; exact Fa|now apply HD].
Qed.
