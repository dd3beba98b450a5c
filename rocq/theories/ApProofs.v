(** Proofs about the packets of the program. *)
From Coq Require Import ZArith List Bool Lia.
From Verif Require Import CBase ApModel ApSpec.
Import ListNotations.
Open Scope Z_scope.

Lemma at_prefix_iff d : at_prefix d = true <-> prefixed d.
Proof.
  unfold at_prefix, prefixed. destruct d as [|a [|b [|c t]]]; cbn [nth]; rewrite ?andb_true_iff, ?Z.eqb_eq;
    split; try (intros [t' E]; discriminate E); try (intros [[? ?] ?]; discriminate).
  - intros [[-> ->] ->]; now exists t.
  - intros [t' E]; injection E; intros; subst; auto.
Qed.
Lemma tl_skipn n (d : list Z) : skipn n (tl d) = skipn (S n) d.
Proof. destruct d; [now rewrite !skipn_nil|reflexivity]. Qed.
Lemma look_some : forall k d i, look k d = Some i ->
  (i < k)%nat /\ prefixed (skipn i d) /\ forall j, (j < i)%nat -> ~ prefixed (skipn j d).
Proof.
  induction k; intros d i H; cbn [look] in H; [discriminate|].
  destruct (at_prefix d) eqn:E.
  - injection H as <-. split; [lia|]. split; [now apply at_prefix_iff|intros; lia].
  - destruct (look k (tl d)) as [x|] eqn:L; [|discriminate]. injection H as <-.
    apply IHk in L as (L1 & L2 & L3). rewrite tl_skipn in L2.
    split; [lia|]. split; [exact L2|]. intros [|j] Hj.
    + cbn [skipn]. rewrite <- at_prefix_iff, E; discriminate.
    + rewrite <- tl_skipn. apply L3; lia.
Qed.
Lemma look_none : forall k d, look k d = None -> forall j, (j < k)%nat -> ~ prefixed (skipn j d).
Proof.
  induction k; intros d H j Hj; [lia|]. cbn [look] in H.
  destruct (at_prefix d) eqn:E; [discriminate|]. destruct (look k (tl d)) eqn:L; [discriminate|].
  destruct j.
  - cbn [skipn]. rewrite <- at_prefix_iff, E; discriminate.
  - rewrite <- tl_skipn. apply (IHk _ L); lia.
Qed.
Lemma look_is k d i : (i < k)%nat -> prefixed (skipn i d) -> (forall j, (j < i)%nat -> ~ prefixed (skipn j d)) -> look k d = Some i.
Proof.
  intros Hi P N. destruct (look k d) as [x|] eqn:L.
  - apply look_some in L as (L1 & L2 & L3). f_equal. destruct (Nat.lt_trichotomy x i) as [H|[H|H]]; [|exact H|].
    + destruct (N x H L2).
    + destruct (L3 i H P).
  - destruct (look_none _ _ L i Hi P).
Qed.
Lemma look_not k d : (forall j, (j < k)%nat -> ~ prefixed (skipn j d)) -> look k d = None.
Proof. intros N. destruct (look k d) as [x|] eqn:L; [|easy]. apply look_some in L as (L1 & L2 & _). destruct (N x L1 L2). Qed.

Lemma skip_skip a b (d : list Z) : skipn a (skipn b d) = skipn (b + a) d.
Proof. revert d; induction b; intros d; [reflexivity|]. destruct d; [now rewrite !skipn_nil|]. cbn [skipn Nat.add]. apply IHb. Qed.
Lemma code_iff file i : code_at file i <-> prefixed (skipn i file) /\ (i + 4 <= length file)%nat.
Proof.
  unfold code_at, prefixed. pose proof (skipn_length i file) as SL. split.
  - intros (v & t & E). rewrite E in SL |- *. cbn [length] in SL. split; [now exists (v :: t)|lia].
  - intros ([t E] & L). rewrite E in *. cbn [length] in SL. destruct t as [|v t]; [cbn [length] in SL; lia|now exists v, t].
Qed.

(** The length of the packet that is cut off at the front. *)
Lemma next_len d : d <> [] ->
  let l := match find_start_code (skipn 4 d) (Z.of_nat (length d) - 4) with Some i => Z.of_nat (i + 4) | None => Z.of_nat (length d) end in
  exists n, l = Z.of_nat n /\ (0 < n <= length d)%nat /\ ((n < length d)%nat -> (4 <= n)%nat /\ code_at d n) /\
    (forall i, (4 <= i < n)%nat -> ~ code_at d i).
Proof.
  intros Hd. assert (0 < length d)%nat by (destruct d; [easy|cbn; lia]). cbv zeta. unfold find_start_code.
  destruct (look _ _) as [i|] eqn:L.
  - apply look_some in L as (L1 & L2 & L3). rewrite skip_skip in L2. exists (i + 4)%nat. split; [easy|]. split; [lia|].
    split; [intros _; split; [lia|apply code_iff; replace (i + 4)%nat with (4 + i)%nat by lia; split; [exact L2|lia]]|].
    intros j Hj C. apply code_iff in C as [C _]. apply (L3 (j - 4)%nat); [lia|]. rewrite skip_skip. now replace (4 + (j - 4))%nat with j by lia.
  - exists (length d). split; [easy|]. split; [lia|]. split; [lia|].
    intros j Hj C. apply code_iff in C as [C C2]. apply (look_none _ _ L (j - 4)%nat); [lia|]. rewrite skip_skip. now replace (4 + (j - 4))%nat with j by lia.
Qed.
Lemma code_skip d n i : code_at (skipn n d) i <-> code_at d (n + i).
Proof. unfold code_at. now rewrite skip_skip. Qed.

Fixpoint stamped (t : Z) (l : list (list Z)) : list packet := match l with [] => [] | b :: l => Packet b t (- t) :: stamped (t + 1) l end.
Lemma cut_cons d n ps : (4 <= n < length d)%nat -> code_at d n -> (forall i, (4 <= i < n)%nat -> ~ code_at d i) ->
  cut (skipn n d) ps -> cut d (firstn n d :: ps).
Proof.
  intros Hn C N (A1 & A2 & A5 & A3 & A4).
  assert (FL : length (firstn n d) = n) by (rewrite firstn_length; lia).
  assert (OS : forall j, offset (firstn n d :: ps) (S j) = (n + offset ps j)%nat).
  { intros j. unfold offset. cbn [firstn concat]. rewrite app_length, FL. reflexivity. }
  split; [|split; [|split; [|split]]].
  - cbn [concat]. rewrite A1. apply firstn_skipn.
  - intros [|j] Hj; cbn [nth length] in *.
    + intros E. rewrite E in FL. cbn in FL. lia.
    + apply A2. lia.
  - intros [|j] Hj; cbn [nth length] in *; [rewrite FL; lia|]. apply A5. lia.
  - intros [|j] Hj; cbn [length] in Hj; [lia|]. rewrite OS. destruct j.
    + unfold offset. cbn. now rewrite Nat.add_0_r.
    + apply code_skip. apply A3. lia.
  - intros [|j] i Hj Hi; cbn [nth length] in *.
    + unfold offset. cbn [firstn concat length Nat.add]. apply N. lia.
    + rewrite OS, <- Nat.add_assoc, <- code_skip. apply A4; lia.
Qed.
Lemma cut_one d : d <> [] -> (forall i, (4 <= i < length d)%nat -> ~ code_at d i) -> cut d [d].
Proof.
  intros H N. split; [|split; [|split; [|split]]].
  - apply app_nil_r.
  - intros [|j] Hj; cbn in *; [exact H|lia].
  - intros j Hj; cbn in Hj; lia.
  - intros j Hj; cbn in Hj; lia.
  - intros [|j] i Hj Hi; cbn [length nth] in *; [|lia]. unfold offset. cbn. now apply N.
Qed.
Lemma send_cut : forall fuel d t, d <> [] -> (length d <= fuel)%nat ->
  exists ps, cut d ps /\ ps <> [] /\ forall error, exists k, (k <= length ps)%nat /\
    send_loop fuel error d (Z.of_nat (length d)) t = Done (firstn k (stamped t ps)) /\
    (forall j, (S j < k)%nat -> error (t + Z.of_nat j) = false) /\ ((k < length ps)%nat -> (0 < k)%nat /\ error (t + Z.of_nat (k - 1)) = true).
Proof.
  induction fuel; intros d t Hd Hf; [destruct d; [easy|cbn in Hf; lia]|].
  destruct (next_len d Hd) as (n & El & Hn & Hc & Hi).
  destruct (Nat.eq_dec n (length d)) as [E|E].
  - exists [d]. split; [apply cut_one; [exact Hd|now rewrite <- E]|]. split; [easy|]. intros error.
    exists 1%nat. cbn [length]. split; [lia|]. split; [|split; intros; lia].
    cbn [send_loop]. rewrite El, Nat2Z.id, E, firstn_all, Z.sub_diag. cbn [Z.eqb firstn stamped]. now destruct (error t).
  - destruct Hc as [H4 Hc]; [lia|].
    assert (SL : length (skipn n d) = (length d - n)%nat) by apply skipn_length.
    destruct (IHfuel (skipn n d) (t + 1)) as (ps & C & Hps & R); [destruct (skipn n d); cbn in SL; [lia|easy]|lia|].
    exists (firstn n d :: ps). split; [apply cut_cons; auto; lia|]. split; [easy|]. intros error.
    cbn [send_loop]. rewrite El, Nat2Z.id.
    replace (Z.of_nat (length d) - Z.of_nat n) with (Z.of_nat (length (skipn n d))) by lia.
    destruct (error t) eqn:Ee.
    + exists 1%nat. cbn [length]. split; [lia|]. split; [reflexivity|]. split; [intros; lia|]. intros _. split; [lia|].
      change (Z.of_nat (1 - 1)) with 0. now rewrite Z.add_0_r.
    + destruct (R error) as (k & K1 & K2 & K3 & K4). exists (S k). cbn [length]. split; [lia|].
      split; [rewrite K2; destruct (Z.eqb_spec (Z.of_nat (length (skipn n d))) 0); [lia|reflexivity]|].
      split.
      * intros [|j] Hj; [now rewrite Z.add_0_r|]. rewrite Nat2Z.inj_succ. replace (t + Z.succ (Z.of_nat j)) with (t + 1 + Z.of_nat j) by lia. apply K3; lia.
      * intros Hk. split; [lia|]. destruct K4 as [K4 K5]; [lia|]. replace (t + Z.of_nat (S k - 1)) with (t + 1 + Z.of_nat (k - 1)) by lia. exact K5.
Qed.

(** A cut is unique once the file is a proper stream. *)
Lemma stream_cons u us : stream (u :: us) = unit_bytes u ++ stream us.
Proof. reflexivity. Qed.
Lemma stream_pre us : us = [] \/ exists v t, stream us = 0 :: 0 :: 1 :: v :: t.
Proof. destruct us as [|[c p] us]; [now left|right]. exists c, (p ++ stream us). reflexivity. Qed.
Lemma prefixed_app a b : prefixed a -> prefixed (a ++ b).
Proof. intros [t ->]. now exists (t ++ b). Qed.
Lemma clean_app p us i : clean p -> (i < length p)%nat -> ~ prefixed (skipn i (p ++ stream us)).
Proof.
  intros C Hi P. apply (C i Hi). clear C. rewrite skipn_app in *. replace (i - length p)%nat with O in * by lia. cbn [skipn] in *.
  assert (0 < length (skipn i p))%nat by (rewrite skipn_length; lia).
  destruct (skipn i p) as [|a [|b [|c t]]]; [cbn in *; lia| | |].
  - destruct P as [t P]. destruct (stream_pre us) as [->|(v & t' & E)]; [discriminate P|]. rewrite E in P. injection P; intros; discriminate.
  - destruct P as [t P]. destruct (stream_pre us) as [->|(v & t' & E)]; [discriminate P|]. rewrite E in P. injection P; intros; discriminate.
  - destruct P as [t' P]. injection P as -> -> -> _. now exists (t ++ [0; 0; 1]).
Qed.
Lemma find_clean p us len : clean p -> len = Z.of_nat (length (p ++ stream us)) ->
  find_start_code (p ++ stream us) len = match us with [] => None | _ => Some (length p) end.
Proof.
  intros C ->. unfold find_start_code. destruct us as [|u us].
  - apply look_not. intros j Hj. apply clean_app; [exact C|]. change (stream []) with (@nil Z) in Hj. rewrite app_nil_r in Hj. lia.
  - apply look_is.
    + rewrite app_length, stream_cons, app_length. cbn [unit_bytes length]. lia.
    + rewrite skipn_app, Nat.sub_diag, skipn_all. cbn [skipn app]. rewrite stream_cons. eexists; reflexivity.
    + intros j Hj. now apply clean_app.
Qed.
Lemma send_stream : forall us fuel t, us <> [] -> proper us -> (length us <= fuel)%nat ->
  send_loop fuel (fun _ => false) (stream us) (Z.of_nat (length (stream us))) t = Done (stamped t (map unit_bytes us)).
Proof.
  induction us as [|[c p] us IH]; intros fuel t Hne Hp Hf; [easy|]. destruct fuel as [|fuel]; [cbn in Hf; lia|].
  inversion Hp as [|x l Hc Hp' E1]; subst. cbn [snd] in Hc. cbn [send_loop].
  change (skipn 4 (stream ((c, p) :: us))) with (p ++ stream us).
  assert (SL : length (stream ((c, p) :: us)) = (4 + length (p ++ stream us))%nat) by reflexivity.
  rewrite SL. rewrite (find_clean p us) by (auto; lia). cbn [map].
  destruct us as [|u us].
  - change (stream []) with (@nil Z) in *. rewrite app_nil_r in *. rewrite Nat2Z.id, Z.sub_diag. cbn [Z.eqb stamped map]. f_equal. f_equal. f_equal.
    rewrite <- SL, firstn_all. cbn. now rewrite app_nil_r.
  - rewrite !Nat2Z.id. rewrite app_length.
    replace (Z.of_nat (4 + (length p + length (stream (u :: us)))) - Z.of_nat (length p + 4)) with (Z.of_nat (length (stream (u :: us)))) by lia.
    destruct (Z.eqb_spec (Z.of_nat (length (stream (u :: us)))) 0) as [E0|_]; [rewrite stream_cons, app_length in E0; cbn [unit_bytes length] in E0; lia|].
    replace (skipn (length p + 4) (stream ((c, p) :: u :: us))) with (stream (u :: us)).
    + rewrite (IH fuel (t + 1)); [|easy|exact Hp'|cbn [length] in *; lia]. cbn [bindo stamped map]. f_equal. f_equal. f_equal.
      rewrite stream_cons, firstn_app. replace (length p + 4 - length (unit_bytes (c, p)))%nat with O by (cbn; lia).
      replace (length p + 4)%nat with (length (unit_bytes (c, p))) by (cbn; lia). rewrite firstn_all. cbn. now rewrite app_nil_r.
    + rewrite (stream_cons (c, p)), skipn_app. replace (length p + 4)%nat with (length (unit_bytes (c, p))) by (cbn; lia).
      now rewrite skipn_all, Nat.sub_diag.
Qed.

(** Counting. *)
Fixpoint first_unit (us : list (Z * list Z)) : option nat :=
  match us with [] => None | u :: us => if is_unit (fst u) then Some O else match first_unit us with Some n => Some (S n) | None => None end end.
Lemma check_stream : forall us p fuel done len0, clean p -> proper us -> (length us < fuel)%nat ->
  check_loop fuel (p ++ stream us) (Z.of_nat (length (p ++ stream us))) done len0 =
  Done match first_unit us with None => len0 + 1 | Some k => done + Z.of_nat (length p + length (stream (firstn k us))) end.
Proof.
  induction us as [|[c q] us IH]; intros p fuel done len0 Hc Hp Hf; (destruct fuel as [|fuel]; [cbn in Hf; lia|]); cbn [check_loop]; rewrite find_clean by auto.
  - reflexivity.
  - assert (N3 : nth (length p + 3) (p ++ stream ((c, q) :: us)) 0 = c).
    { rewrite app_nth2 by lia. replace (length p + 3 - length p)%nat with 3%nat by lia. reflexivity. }
    rewrite N3. cbn [first_unit fst]. destruct (is_unit c).
    + cbn [firstn]. change (stream []) with (@nil Z). cbn [length]. do 2 f_equal. lia.
    + assert (S4 : skipn (length p + 4) (p ++ stream ((c, q) :: us)) = q ++ stream us).
      { rewrite skipn_app, skipn_all2 by lia. replace (length p + 4 - length p)%nat with 4%nat by lia. reflexivity. }
      rewrite S4. inversion Hp as [|x l Hq Hp' E1]; subst. cbn [snd] in Hq.
      replace (Z.of_nat (length (p ++ stream ((c, q) :: us))) - Z.of_nat (length p + 4)) with (Z.of_nat (length (q ++ stream us)))
        by (rewrite !app_length, stream_cons; unfold unit_bytes; cbn [fst snd app length]; rewrite app_length; lia).
      rewrite IH; [|exact Hq|exact Hp'|cbn [length] in *; lia].
      destruct (first_unit us) as [k|]; [|reflexivity]. cbn [firstn]. rewrite stream_cons, app_length. unfold unit_bytes; cbn [fst snd length]. f_equal. lia.
Qed.
Lemma clean_nil : clean [].
Proof. intros i Hi. cbn in Hi. lia. Qed.
Lemma stream_len us : (4 * length us <= length (stream us))%nat.
Proof. induction us as [|u us IH]; [cbn; lia|]. rewrite stream_cons, app_length. unfold unit_bytes. cbn [length] in *. lia. Qed.
Lemma check_frame_stream p us : clean p -> proper us ->
  check_frame (p ++ stream us) (Z.of_nat (length (p ++ stream us))) =
  Done match first_unit us with None => Z.of_nat (length (p ++ stream us)) + 1 | Some k => Z.of_nat (length p + length (stream (firstn k us))) end.
Proof. intros. unfold check_frame. rewrite check_stream; auto. rewrite app_length. pose proof (stream_len us). lia. Qed.
Lemma stream_app a b : stream (a ++ b) = stream a ++ stream b.
Proof. unfold stream. now rewrite map_app, concat_app. Qed.
Lemma first_split : forall us k, first_unit us = Some k -> exists u r, us = firstn k us ++ u :: r /\ is_unit (fst u) = true /\
  Forall (fun v => is_unit (fst v) = false) (firstn k us).
Proof.
  induction us as [|v us IH]; intros k H; cbn in H; [discriminate|]. destruct (is_unit (fst v)) eqn:E.
  - injection H as <-. exists v, us. cbn. auto.
  - destruct (first_unit us) as [x|]; [|discriminate]. injection H as <-. destruct (IH x eq_refl) as (u & r & A & B & C).
    exists u, r. cbn [firstn app]. rewrite <- A. split; [easy|]. split; [exact B|]. constructor; auto.
Qed.
Lemma first_none : forall us, first_unit us = None -> Forall (fun v => is_unit (fst v) = false) us.
Proof.
  induction us as [|v us IH]; intros H; cbn in H; [constructor|]. destruct (is_unit (fst v)) eqn:E; [discriminate|].
  destruct (first_unit us); [discriminate|]. constructor; auto.
Qed.
Lemma no_pictures us : Forall (fun v => is_unit (fst v) = false) us -> pictures us = 0.
Proof.
  unfold pictures. induction 1 as [|v us E _ IH]; [reflexivity|]. cbn [filter]. unfold is_unit, is_pic in E.
  apply orb_false_iff in E as [_ E]. now rewrite E.
Qed.
Lemma pictures_app a b : pictures (a ++ b) = pictures a + pictures b.
Proof. unfold pictures. rewrite filter_app, app_length. lia. Qed.
Lemma pictures_cons u us : pictures (u :: us) = (if is_pic (fst u) then 1 else 0) + pictures us.
Proof. unfold pictures, is_pic. cbn [filter]. destruct (_ || _); cbn [length]; lia. Qed.
Lemma count_end fuel d c : (0 < fuel)%nat -> count_loop fuel d (-1) c = Done c.
Proof. intros H. destruct fuel; [lia|]. reflexivity. Qed.
Lemma count_stream : forall n us, (length us <= n)%nat -> forall fuel c, proper us -> (S n < fuel)%nat ->
  count_loop fuel (stream us) (Z.of_nat (length (stream us))) c = Done (c + pictures us).
Proof.
  induction n as [|n IH]; intros us Hn fuel c Hp Hf; (destruct fuel as [|fuel]; [lia|]); cbn [count_loop]; unfold find_one_frame.
  - destruct us; [|cbn in Hn; lia]. cbn. f_equal. unfold pictures. cbn. lia.
  - change (stream us) with ([] ++ stream us). rewrite (check_frame_stream [] us clean_nil Hp). cbn [app length Nat.add bindo].
    destruct (first_unit us) as [k|] eqn:F.
    + destruct (first_split us k F) as (u & r & A & B & C). set (a := firstn k us) in *.
      assert (La : length (stream us) = (length (stream a) + (4 + length (snd u ++ stream r)))%nat).
      { rewrite A, stream_app, app_length. reflexivity. }
      destruct (Z.ltb_spec (Z.of_nat (length (stream us))) (Z.of_nat (length (stream a)))) as [Hl|_]; [lia|].
      assert (S4 : skipn (Z.to_nat (Z.of_nat (length (stream a)) + 4)) (stream us) = snd u ++ stream r).
      { replace (Z.to_nat (Z.of_nat (length (stream a)) + 4)) with (length (stream a) + 4)%nat by lia.
        rewrite A, stream_app, skipn_app, skipn_all2 by lia. replace (length (stream a) + 4 - length (stream a))%nat with 4%nat by lia. reflexivity. }
      assert (Hu : clean (snd u) /\ proper r).
      { rewrite A in Hp. apply Forall_app in Hp as [_ Hp]. now inversion Hp. }
      destruct Hu as [Hu Hr].
      rewrite S4. replace (Z.of_nat (length (stream us)) - Z.of_nat (length (stream a)) - 4) with (Z.of_nat (length (snd u ++ stream r))) by lia.
      rewrite check_frame_stream by auto. cbn [bindo].
      assert (N3 : nth (Z.to_nat (Z.of_nat (length (stream a)) + 3)) (stream us) 0 = fst u).
      { rewrite A, stream_app, app_nth2 by lia. replace (Z.to_nat (Z.of_nat (length (stream a)) + 3) - length (stream a))%nat with 3%nat by lia. reflexivity. }
      rewrite N3.
      assert (Lr : (length r <= n)%nat).
      { rewrite A, app_length in Hn. cbn [length] in Hn. lia. }
      assert (PU : pictures us = (if is_pic (fst u) then 1 else 0) + pictures r).
      { rewrite A, pictures_app, pictures_cons, no_pictures by exact C. lia. }
      destruct (first_unit r) as [m|] eqn:G.
      * assert (G' := G). apply first_split in G' as (v & s & A2 & B2 & C2).
        assert (Lb : (length (snd u ++ stream r) = length (snd u) + length (stream (firstn m r)) + length (stream (v :: s)))%nat).
        { rewrite A2 at 1. rewrite stream_app, !app_length. lia. }
        destruct (Z.leb_spec (Z.of_nat (length (snd u) + length (stream (firstn m r)))) (Z.of_nat (length (stream us)))) as [_|Hl]; [|lia].
        set (e := (length (stream a) + 4 + length (snd u) + length (stream (firstn m r)))%nat).
        replace (Z.of_nat (length (snd u) + length (stream (firstn m r))) + Z.of_nat (length (stream a)) + 4) with (Z.of_nat e) by (unfold e; lia).
        rewrite Nat2Z.id.
        assert (SE : skipn e (stream us) = stream (v :: s)).
        { assert (stream us = (stream a ++ unit_bytes u ++ stream (firstn m r)) ++ stream (v :: s)) as ->.
          { rewrite A at 1. rewrite stream_app, stream_cons. rewrite A2 at 1. now rewrite (stream_app (firstn m r)), !app_assoc. }
          rewrite skipn_app. replace (length (stream a ++ unit_bytes u ++ stream (firstn m r))) with e
            by (unfold e; rewrite !app_length; unfold unit_bytes; cbn [length]; lia).
          rewrite skipn_all2, Nat.sub_diag; [reflexivity|]. unfold e; rewrite !app_length; unfold unit_bytes; cbn [length]; lia. }
        rewrite SE. replace (Z.of_nat (length (stream us)) - Z.of_nat e) with (Z.of_nat (length (stream (v :: s)))) by (unfold e; lia).
        rewrite IH.
        -- f_equal. rewrite PU. rewrite A2 at 1. rewrite pictures_app, (no_pictures (firstn m r)) by exact C2. destruct (is_pic (fst u)); lia.
        -- rewrite A2, app_length in Lr. lia.
        -- unfold proper in *. rewrite A2 in Hr. now apply Forall_app in Hr as [_ Hr].
        -- lia.
      * destruct (Z.leb_spec (Z.of_nat (length (snd u ++ stream r)) + 1) (Z.of_nat (length (stream us)))) as [_|Hl]; [|lia].
        replace (Z.of_nat (length (stream us)) - (Z.of_nat (length (snd u ++ stream r)) + 1 + Z.of_nat (length (stream a)) + 4)) with (-1) by lia.
        rewrite count_end by lia. f_equal. rewrite PU, (no_pictures r) by now apply first_none. destruct (is_pic (fst u)); lia.
    + destruct (Z.ltb_spec (Z.of_nat (length (stream us))) (Z.of_nat (length (stream us)) + 1)) as [_|Hl]; [|lia].
      cbn [bindo]. f_equal. rewrite no_pictures by now apply first_none. lia.
Qed.


(** Counting ends for every file. *)
Lemma find_bound d len i : find_start_code d len = Some i -> Z.of_nat i + 4 <= len.
Proof. unfold find_start_code. intros L. apply look_some in L as (L & _). lia. Qed.
Lemma check_done : forall fuel d len dn len0, len <= Z.of_nat fuel -> exists r, check_loop (S fuel) d len dn len0 = Done r /\
  (r = len0 + 1 \/ dn <= r /\ r - dn + 4 <= len).
Proof.
  induction fuel as [fuel IH] using (well_founded_induction lt_wf). intros d len dn len0 H.
  cbn [check_loop]. destruct (find_start_code d len) as [i|] eqn:F; [|exists (len0 + 1); auto].
  apply find_bound in F. destruct (is_unit _); [exists (dn + Z.of_nat i); split; [easy|right; lia]|].
  destruct fuel as [|fuel]; [lia|].
  destruct (IH fuel ltac:(lia) (skipn (i + 4) d) (len - Z.of_nat (i + 4)) (dn + Z.of_nat (i + 4)) len0) as (r & E & R); [lia|].
  exists r. split; [exact E|]. lia.
Qed.
Lemma count_done : forall n d size c fuel, size <= Z.of_nat (length d) -> -1 <= size < Z.of_nat n -> (n < fuel)%nat ->
  exists r, count_loop fuel d size c = Done r /\ c <= r /\ 4 * (r - c) <= size + 1.
Proof.
  induction n as [n IH] using (well_founded_induction lt_wf). intros d size c fuel Hd Hs Hf. destruct fuel as [|fuel]; [lia|].
  cbn [count_loop]. unfold find_one_frame, check_frame.
  destruct (check_done (length d) d size 0 size) as (s & -> & Rs); [lia|]. cbn [bindo].
  destruct (Z.ltb_spec size s); [exists c; split; [easy|lia]|]. cbn [bindo].
  destruct Rs as [Rs|Rs]; [lia|].
  set (d2 := skipn (Z.to_nat (s + 4)) d).
  assert (L2 : length d2 = (length d - Z.to_nat (s + 4))%nat) by apply skipn_length.
  destruct (check_done (length d2) d2 (size - s - 4) 0 (size - s - 4)) as (e & -> & Re); [lia|]. cbn [bindo].
  assert (e <= size) by lia. destruct (Z.leb_spec e size); [|lia].
  set (c' := if is_pic _ then c + 1 else c). assert (c <= c' <= c + 1) by (unfold c'; destruct (is_pic _); lia).
  assert (L3 : length (skipn (Z.to_nat (e + s + 4)) d) = (length d - Z.to_nat (e + s + 4))%nat) by apply skipn_length.
  destruct (Z.eq_dec (size - (e + s + 4)) (-1)) as [E|E].
  - rewrite E, count_end by lia. exists c'. split; [easy|]. lia.
  - destruct (IH (n - 4)%nat ltac:(lia) (skipn (Z.to_nat (e + s + 4)) d) (size - (e + s + 4)) c' fuel) as (r & -> & R); [lia|lia|lia|].
    exists r. split; [easy|]. lia.
Qed.

(** The cut of a file is determined. *)
Lemma cut_tail p ps : cut (p ++ concat ps) (p :: ps) -> cut (concat ps) ps.
Proof.
  intros (A1 & A2 & A5 & A3 & A4).
  assert (OS : forall j, offset (p :: ps) (S j) = (length p + offset ps j)%nat).
  { intros j. unfold offset. cbn [firstn concat]. now rewrite app_length. }
  assert (SK : skipn (length p) (p ++ concat ps) = concat ps) by (rewrite skipn_app, skipn_all, Nat.sub_diag; reflexivity).
  split; [|split; [|split; [|split]]].
  - reflexivity.
  - intros j Hj. apply (A2 (S j)). cbn [length]. lia.
  - intros j Hj. apply (A5 (S j)). cbn [length]. lia.
  - intros j Hj. rewrite <- SK, code_skip, <- OS. apply A3. cbn [length]. lia.
  - intros j i Hj Hi. rewrite <- SK, code_skip, Nat.add_assoc, <- OS. apply (A4 (S j)); cbn [length nth] in *; lia.
Qed.
Lemma cut_le p ps q qs : cut (p ++ concat ps) (p :: ps) -> cut (p ++ concat ps) (q :: qs) -> (length q <= length p)%nat.
Proof.
  intros (A1 & A2 & A5 & A3 & A4) (B1 & B2 & B5 & B3 & B4). destruct (Nat.le_gt_cases (length q) (length p)) as [H|H]; [exact H|exfalso].
  assert (ps <> []).
  { intros ->. apply (f_equal (@length Z)) in B1. cbn [concat] in B1. rewrite !app_length in B1. cbn [length] in B1. lia. }
  assert (0 < length ps)%nat by (destruct ps; [easy|cbn; lia]).
  apply (B4 O (length p)); [cbn; lia|cbn [nth]; split; [apply (A5 O); cbn [length]; lia|exact H]|].
  replace (offset (q :: qs) 0 + length p)%nat with (offset (p :: ps) 1) by (unfold offset; cbn; now rewrite app_nil_r).
  apply A3. cbn [length]. lia.
Qed.
Lemma cut_unique : forall ps qs file, cut file ps -> cut file qs -> ps = qs.
Proof.
  induction ps as [|p ps IH]; intros qs file A B.
  - destruct qs as [|q qs]; [easy|]. destruct A as [A _]. destruct B as [B1 [B2 _]]. exfalso. apply (B2 O); [cbn; lia|].
    rewrite <- A in B1. now apply app_eq_nil in B1.
  - destruct qs as [|q qs].
    { destruct B as [B _]. destruct A as [A1 [A2 _]]. exfalso. apply (A2 O); [cbn; lia|]. rewrite <- B in A1. now apply app_eq_nil in A1. }
    assert (EA : file = p ++ concat ps) by (destruct A as [<- _]; reflexivity).
    assert (EB : file = q ++ concat qs) by (destruct B as [<- _]; reflexivity).
    assert (L : length p = length q).
    { apply Nat.le_antisymm; [apply (cut_le q qs p ps)|apply (cut_le p ps q qs)]; congruence. }
    rewrite EA in EB. assert (p = q /\ concat ps = concat qs) as [<- EC].
    { apply (f_equal (firstn (length p))) in EB as E1. apply (f_equal (skipn (length p))) in EB as E2. rewrite L in E1 at 2. rewrite L in E2 at 2.
      rewrite !firstn_app, !Nat.sub_diag, !firstn_all in E1. rewrite !skipn_app, !Nat.sub_diag, !skipn_all in E2.
      cbn [firstn skipn app] in E1, E2. rewrite !app_nil_r in E1. auto. }
    f_equal. apply (IH qs (concat ps)).
    + apply cut_tail with p. congruence.
    + rewrite EC. apply cut_tail with p. congruence.
Qed.

Lemma stamped_bytes : forall l t, map k_bytes (stamped t l) = l.
Proof. induction l; intros; cbn; [easy|]. now rewrite IHl. Qed.
Lemma stamped_nth : forall l t j p, nth_error (stamped t l) j = Some p -> k_pts p = t + Z.of_nat j /\ k_dts p = - (t + Z.of_nat j).
Proof.
  induction l; intros t j p H; [destruct j; discriminate|]. destruct j; cbn [stamped nth_error] in H.
  - injection H as <-. cbn. lia.
  - apply IHl in H. lia.
Qed.
Lemma stamped_len : forall l t, length (stamped t l) = length l.
Proof. induction l; intros; cbn; [easy|]. now rewrite IHl. Qed.
Definition stamps (ps : list packet) : Prop := forall j p, nth_error ps j = Some p -> k_pts p = Z.of_nat j /\ k_dts p = - Z.of_nat j.
Lemma sent_all file : file <> [] -> exists ps, cut file (map k_bytes ps) /\ stamps ps /\ sent (fun _ => false) file = Done ps /\
  forall error, exists k, (0 < k <= length ps)%nat /\ sent error file = Done (firstn k ps) /\
    (forall j, (S j < k)%nat -> error (Z.of_nat j) = false) /\ (error (Z.of_nat (k - 1)) = true \/ k = length ps).
Proof.
  intros H. destruct (send_cut (length file) file 0 H (le_n _)) as (l & C & Hl & R). exists (stamped 0 l).
  rewrite stamped_bytes, stamped_len. split; [exact C|]. split; [intros j p E; apply stamped_nth in E; cbn in E; exact E|].
  split.
  - destruct (R (fun _ => false)) as (k & K1 & K2 & K3 & K4). unfold sent. rewrite K2. f_equal.
    destruct (Nat.lt_ge_cases k (length l)) as [Hk|Hk]; [apply K4 in Hk as [_ Hk]; discriminate Hk|]. apply firstn_all2. rewrite stamped_len. exact Hk.
  - intros error. destruct (R error) as (k & K1 & K2 & K3 & K4). exists k.
    assert (0 < length l)%nat by (destruct l; [easy|cbn; lia]).
    split; [destruct (Nat.eq_dec k (length l)); [lia|destruct K4; lia]|]. split; [exact K2|]. split; [intros j Hj; apply (K3 j Hj)|].
    destruct (Nat.eq_dec k (length l)) as [E|E]; [now right|left]. apply K4. lia.
Qed.
Lemma stream_sent us : us <> [] -> proper us -> exists ps, sent (fun _ => false) (stream us) = Done ps /\ map k_bytes ps = map unit_bytes us.
Proof.
  intros H P. exists (stamped 0 (map unit_bytes us)). split; [|apply stamped_bytes]. unfold sent. apply send_stream; auto. pose proof (stream_len us). lia.
Qed.
Lemma count_is us : proper us -> count_frames (stream us) = Done (pictures us).
Proof. intros P. unfold count_frames. pose proof (stream_len us). rewrite (count_stream (length us)); auto; lia. Qed.
