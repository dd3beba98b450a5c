(** Proofs about the threads of a picture: order, progress, termination. *)
From Coq Require Import ZArith List Bool Lia.
From Verif Require Import CBase WvModel WvProofs.
Import ListNotations.
Open Scope Z_scope.

Lemma inv_reach c s : 0 < c_w c -> reachable c s -> inv c s.
Proof.
  intros W [n H]. remember init as z eqn:Ez in H. induction H as [z|n z t u H IH Q]; subst.
  - apply inv_init; auto.
  - apply (inv_step c W t); auto.
Qed.

(** One reconstruction thread: what holds in addition. *)
Definition never (q : pc) : Prop := match q with WillA _ | SlpA _ | SlpS | SlpL => False | _ => True end.
Definition tail_ok (w : Z) (cnt : Z -> Z) (y : Z) (q : pc) : Prop :=
  match q with SigLast | Fin => 0 < y -> w + 1 <= cnt (y - 1) | _ => True end.
Record one (c : cfg) (s : st) : Prop := {
  o_seq : forall y, 0 < y < c_h c -> s_pc s y <> Idle -> s_pc s (y - 1) = Fin;
  o_never : forall y, 0 <= y < c_h c -> never (s_pc s y);
  o_tail : forall y, 0 <= y < c_h c -> tail_ok (c_w c) (s_cnt s) y (s_pc s y) }.

Lemma wake_parsed_keeps p y : (wake_parsed p y = Idle <-> p y = Idle) /\ (p y = Fin -> wake_parsed p y = Fin) /\ (never (p y) -> never (wake_parsed p y)).
Proof. unfold wake_parsed. destruct (p y); cbn; repeat split; auto; discriminate. Qed.
Lemma wake_row_never j p y : never (p y) -> wake_row j p y = p y.
Proof. unfold wake_row. destruct (p y); cbn; auto; contradiction. Qed.
Lemma tail_wake w cnt y p : tail_ok w cnt y (p y) -> tail_ok w cnt y (wake_parsed p y).
Proof. unfold wake_parsed. destruct (p y); cbn; auto. Qed.
Lemma tail_grow w cnt cnt' y q : tail_ok w cnt y q -> (0 < y -> cnt (y - 1) <= cnt' (y - 1) \/ w + 1 <= cnt' (y - 1)) -> tail_ok w cnt' y q.
Proof. destruct q; cbn; auto; lia. Qed.

Section One.
  Variable (c : cfg).
  Hypothesis Hw : 0 < c_w c.
  Hypothesis Hone : c_many c = false.

  (** Moving one worker that is not idle, to a place that is not idle. *)
  Lemma seq_move p y q : (forall y, 0 < y < c_h c -> p y <> Idle -> p (y - 1) = Fin) -> p y <> Idle -> p y <> Fin -> forall y', 0 < y' < c_h c -> fupd p y q y' <> Idle -> fupd p y q (y' - 1) = Fin.
  Proof.
    intros H A B y' Hy' N. destruct (fupd_cases p y q (y' - 1)) as [[E ->]|[M ->]].
    - exfalso. rewrite fupd_other in N by lia. apply B. rewrite <- E. auto.
    - destruct (fupd_cases p y q y') as [[-> E]|[_ E]]; [apply H; auto|]. rewrite E in N. auto.
  Qed.
  Lemma one_move s y q : one c s -> 0 <= y < c_h c -> s_pc s y <> Idle -> s_pc s y <> Fin -> never q -> tail_ok (c_w c) (s_cnt s) y q -> forall rec, one c (St (s_parsed s) (s_next s) (s_pub s) (s_cnt s) (fupd (s_pc s) y q) rec).
  Proof.
    intros [O1 O2 O3] Hy A B N T rec. constructor; cbn [s_pc s_cnt].
    - apply seq_move; auto.
    - intros y' Hy'. destruct (fupd_cases (s_pc s) y q y') as [[-> ->]|[_ ->]]; auto.
    - intros y' Hy'. destruct (fupd_cases (s_pc s) y q y') as [[-> ->]|[_ ->]]; auto.
  Qed.
  Lemma one_step s t : inv c s -> one c s -> step c s t -> one c t.
  Proof.
    intros V O E. pose proof V as [I1 I2 I3 I4]. pose proof O as [O1 O2 O3].
    destruct E as [s y Hy P L|s y x Hy P|s y x Hy P|s y x Hy P|s y x Hy P|s y x Hy P|s y x Hy P|s y Hy P L|s y Hy P L L'|s y Hy P L|s y Hy P L L'|s P L G|s P|s G P L].
    - constructor; cbn [s_pc s_cnt].
      + intros y' Hy' N. destruct (fupd_cases (s_pc s) y (ChkP 0) (y' - 1)) as [[E' ->]|[M ->]].
        * exfalso. rewrite fupd_other in N by lia. pose proof (O1 y' Hy' N) as F. rewrite E', P in F. discriminate.
        * destruct (fupd_cases (s_pc s) y (ChkP 0) y') as [[-> E']|[_ E']]; [|rewrite E' in N; auto].
          destruct L as [L|[L|L]]; [congruence|lia|exact L].
      + intros y' Hy'. destruct (fupd_cases (s_pc s) y (ChkP 0) y') as [[-> ->]|[_ ->]]; cbn; auto.
      + intros y' Hy'. destruct (fupd_cases (s_pc s) y (ChkP 0) y') as [[-> ->]|[_ ->]]; cbn; auto.
    - apply one_move; auto; try (rewrite P; discriminate).
      + destruct (_ <? _); cbn; auto. destruct (_ <? _); cbn; auto.
      + destruct (_ <? _); cbn; auto. destruct (_ <? _); cbn; auto.
    - apply one_move; auto; try (rewrite P; discriminate); cbn; auto.
    - (* the row above is complete *)
      assert (Q : c_w c <= s_cnt s (y - 1)).
      { pose proof (I1 y Hy) as Q. rewrite P in Q. cbn [place_ok] in Q.
        pose proof (O1 y ltac:(lia) ltac:(rewrite P; discriminate)) as F. pose proof (I1 (y - 1) ltac:(lia)) as Q'. rewrite F in Q'. cbn [place_ok] in Q'. lia. }
      destruct (Z.ltb_spec (s_cnt s (y - 1)) (Z.min (x + 2) (c_w c))) as [A|A]; [lia|].
      apply one_move; auto; try (rewrite P; discriminate); cbn; auto.
    - pose proof (O2 y Hy) as N. rewrite P in N. contradiction.
    - apply one_move; auto; try (rewrite P; discriminate); cbn; auto.
    - pose proof (I1 y Hy) as Q. rewrite P in Q. cbn [place_ok] in Q.
      constructor; cbn [s_pc s_cnt].
      + apply seq_move; auto; rewrite P; discriminate.
      + intros y' Hy'. match goal with |- never (fupd _ _ ?q _) => destruct (fupd_cases (s_pc s) y q y') as [[-> ->]|[_ ->]] end; auto.
        unfold after_row. repeat (destruct (_ <? _) || destruct (_ =? _)); cbn; auto.
      + intros y' Hy'. match goal with |- tail_ok _ _ _ (fupd _ _ ?q _) => destruct (fupd_cases (s_pc s) y q y') as [[-> ->]|[N ->]] end.
        * unfold after_row. destruct (_ <? _); cbn; auto. destruct (Z.ltb_spec 0 y); cbn; auto. destruct (_ =? _); cbn; lia.
        * apply (tail_grow _ (s_cnt s)); auto. intros _. left. destruct (fupd_cases (s_cnt s) y (s_cnt s y + 1) (y' - 1)) as [[E ->]|[_ ->]]; [rewrite E; lia|lia].
    - pose proof (I1 y Hy) as Q. rewrite P in Q. cbn [place_ok] in Q. pose proof (I4 (y - 1) ltac:(lia)) as U.
      assert (W : forall y', 0 <= y' < c_h c -> wake_row (y - 1) (s_pc s) y' = s_pc s y') by (intros; apply wake_row_never; auto).
      constructor; cbn [s_pc s_cnt].
      + apply seq_move.
        * intros y' Hy' N. rewrite W in * by lia. auto.
        * rewrite W, P by lia. discriminate.
        * rewrite W, P by lia. discriminate.
      + intros y' Hy'. match goal with |- never (fupd ?p _ ?q _) => destruct (fupd_cases p y q y') as [[-> ->]|[_ ->]] end; [destruct (_ =? _); cbn; auto|rewrite W; auto].
      + intros y' Hy'. match goal with |- tail_ok _ _ _ (fupd ?p _ ?q _) => destruct (fupd_cases p y q y') as [[-> ->]|[N ->]] end.
        * destruct (_ =? _); cbn; rewrite fupd_same; lia.
        * rewrite W by lia. apply (tail_grow _ (s_cnt s)); auto. intros _. destruct (fupd_cases (s_cnt s) (y - 1) (c_w c + 3) (y' - 1)) as [[E ->]|[_ ->]]; lia.
    - exfalso. pose proof (I1 y Hy) as Q. rewrite P in Q. cbn [place_ok] in Q.
      pose proof (O1 y ltac:(lia) ltac:(rewrite P; discriminate)) as F. pose proof (O3 (y - 1) ltac:(lia)) as T. rewrite F in T. cbn in T. replace (y - 1 - 1) with (y - 2) in T by lia. lia.
    - pose proof (I1 y Hy) as Q. rewrite P in Q. cbn [place_ok] in Q. pose proof (I4 y ltac:(lia)) as U.
      assert (W : forall y', 0 <= y' < c_h c -> wake_row y (s_pc s) y' = s_pc s y') by (intros; apply wake_row_never; auto).
      constructor; cbn [s_pc s_cnt].
      + apply seq_move.
        * intros y' Hy' N. rewrite W in * by lia. auto.
        * rewrite W, P by lia. discriminate.
        * rewrite W, P by lia. discriminate.
      + intros y' Hy'. match goal with |- never (fupd ?p _ ?q _) => destruct (fupd_cases p y q y') as [[-> ->]|[_ ->]] end; [cbn; auto|rewrite W; auto].
      + intros y' Hy'. match goal with |- tail_ok _ _ _ (fupd ?p _ ?q _) => destruct (fupd_cases p y q y') as [[-> ->]|[N ->]] end.
        * cbn. intros Y. rewrite fupd_other by lia. lia.
        * rewrite W by lia. apply (tail_grow _ (s_cnt s)); auto. intros _. destruct (fupd_cases (s_cnt s) y (c_w c + 3) (y' - 1)) as [[E ->]|[_ ->]]; lia.
    - exfalso. pose proof (O3 y Hy) as T. rewrite P in T. cbn in T. lia.
    - constructor; cbn [s_pc s_cnt]; auto.
    - constructor; cbn [s_pc s_cnt].
      + intros y' Hy' N. apply (proj1 (proj2 (wake_parsed_keeps (s_pc s) (y' - 1)))). apply O1; auto. intros Z. apply N. apply (wake_parsed_keeps (s_pc s) y'). exact Z.
      + intros y' Hy'. apply wake_parsed_keeps. auto.
      + intros y' Hy'. apply tail_wake. auto.
    - constructor; cbn [s_pc s_cnt]; auto.
  Qed.
  Lemma one_reach s : reachable c s -> one c s.
  Proof.
    intros R. assert (G : inv c s /\ one c s); [|apply G]. destruct R as [n H].
    remember init as z eqn:Ez in H. induction H as [z|n z t u H IH Q]; subst.
    - split; [apply inv_init; auto|]. constructor; cbn; intros; auto; congruence.
    - destruct (IH eq_refl) as [A B]. split; [apply (inv_step c Hw t)|apply (one_step t)]; auto.
  Qed.

  (** Progress. *)
  Definition parser_at (s : st) : Prop := if s_pub s then s_parsed s = s_next s else s_parsed s = s_next s - 1.
  Definition slept (s : st) : Prop := forall y, 0 <= y < c_h c ->
    match s_pc s y with
    | WillP x => s_parsed s < y * c_w c + x
    | SlpP x => s_parsed s < y * c_w c + x \/ s_pub s = true
    | _ => True
    end.
  Lemma parser_reach s : c_err c = false -> reachable c s -> parser_at s.
  Proof.
    intros Er [n H]. remember init as z eqn:Ez in H. induction H as [z|n z t u H IH Q]; subst; [reflexivity|].
    specialize (IH eq_refl). unfold parser_at in *. destruct Q; cbn [s_pub s_parsed s_next]; auto.
    - rewrite H0 in IH. lia.
    - congruence.
  Qed.
End One.

Lemma slept_reach c s : c_lock c = true -> c_err c = false -> reachable c s -> slept c s.
Proof.
  intros Lk Er [n H]. remember init as z eqn:Ez in H. induction H as [z|n z t u H IH Q]; subst.
  - intros y Hy. exact Logic.I.
  - specialize (IH eq_refl). unfold slept in *.
    assert (M : forall p y q, (forall y', 0 <= y' < c_h c -> match p y' with WillP x => s_parsed t < y' * c_w c + x | SlpP x => s_parsed t < y' * c_w c + x \/ s_pub t = true | _ => True end) ->
      match q with WillP x => s_parsed t < y * c_w c + x | SlpP x => s_parsed t < y * c_w c + x \/ s_pub t = true | _ => True end ->
      forall y', 0 <= y' < c_h c -> match fupd p y q y' with WillP x => s_parsed t < y' * c_w c + x | SlpP x => s_parsed t < y' * c_w c + x \/ s_pub t = true | _ => True end).
    { intros p y q A B y' Hy'. destruct (fupd_cases p y q y') as [[-> ->]|[_ ->]]; [exact B|exact (A y' Hy')]. }
    assert (WR : forall j y', 0 <= y' < c_h c -> match wake_row j (s_pc t) y' with WillP x => s_parsed t < y' * c_w c + x | SlpP x => s_parsed t < y' * c_w c + x \/ s_pub t = true | _ => True end).
    { intros j y' Hy'. pose proof (IH y' Hy') as A. unfold wake_row. destruct (s_pc t y'); auto; destruct (_ =? _); auto. }
    destruct Q as [s y Hy P L|s y x Hy P|s y x Hy P|s y x Hy P|s y x Hy P|s y x Hy P|s y x Hy P|s y Hy P L|s y Hy P L L'|s y Hy P L|s y Hy P L L'|s P L G|s P|s G P L]; cbn [s_parsed s_next s_pub s_cnt s_pc s_rec]; try (apply M; [exact IH|exact Logic.I]).
    + apply M; [exact IH|]. destruct (Z.ltb_spec (s_parsed s) (y * c_w c + x)); [assumption|]. destruct (_ <? _); exact Logic.I.
    + apply M; [exact IH|]. pose proof (IH y Hy) as A. rewrite P in A. left; exact A.
    + apply M; [exact IH|]. destruct (_ <? _); exact Logic.I.
    + apply M; [exact IH|]. destruct (_ <? _); [exact Logic.I|]. unfold after_row. repeat (destruct (_ <? _) || destruct (_ =? _)); exact Logic.I.
    + apply M; [apply WR|]. destruct (_ =? _); exact Logic.I.
    + apply M; [apply WR|exact Logic.I].
    + intros y' Hy'. pose proof (G Lk y' Hy') as W. destruct (s_pc s y'); cbn in W; auto; discriminate.
    + intros y' Hy'. pose proof (IH y' Hy') as A. unfold wake_parsed. destruct (s_pc s y'); auto.
    + congruence.
Qed.

Lemma least_row (P : Z -> Prop) (D : forall y, {P y} + {~ P y}) (n : nat) : (forall y, 0 <= y < Z.of_nat n -> P y) \/ exists y, 0 <= y < Z.of_nat n /\ ~ P y /\ forall y', 0 <= y' < y -> P y'.
Proof.
  induction n as [|n [IH|(y & Y & N & L)]].
  - left. lia.
  - destruct (D (Z.of_nat n)) as [A|A].
    + left. intros y Hy. destruct (Z.eq_dec y (Z.of_nat n)) as [->|]; [exact A|apply IH; lia].
    + right. exists (Z.of_nat n). split; [lia|]. split; [exact A|]. exact IH.
  - right. exists y. split; [lia|]. auto.
Qed.
Definition fin_dec (q : pc) : {q = Fin} + {q <> Fin}.
Proof. destruct q; (left; reflexivity) || (right; discriminate). Defined.

Lemma stuck_shape c s : 0 < c_w c -> c_many c = false -> c_err c = false -> reachable c s -> stuck c s ->
  all_finished c s \/ (parser_ended c s /\ exists y x, 0 <= y < c_h c /\ s_pc s y = SlpP x /\ y * c_w c + x <= s_parsed s /\ forall y', 0 <= y' < y -> s_pc s y' = Fin).
Proof.
  intros Hw Hone Er R K. pose proof (inv_reach c s Hw R) as V. pose proof (one_reach c Hw Hone s R) as O. pose proof (parser_reach c s Er R) as PA.
  destruct (least_row (fun y => s_pc s y = Fin) (fun y => fin_dec (s_pc s y)) (Z.to_nat (c_h c))) as [A|(y & Y & N & L)].
  { left. intros y Hy. apply A. lia. }
  right. assert (Hy : 0 <= y < c_h c) by lia. pose proof (i_place c s V y Hy) as Q. pose proof (o_never c s O y Hy) as Nv. 
  destruct (s_pc s y) eqn:P; cbn in Nv; try contradiction.
  - exfalso. eapply K. eapply s_start; eauto. destruct (Z.eq_dec y 0); [auto|]. right. right. apply L. lia.
  - exfalso. eapply K. eapply s_chkp; eauto.
  - exfalso. eapply K. eapply s_willp; eauto.
  - cbn [place_ok] in Q. unfold parser_at in PA.
    destruct (s_pub s) eqn:U; [exfalso; eapply K; eapply s_broadcast; eauto|].
    assert (E : c_w c * c_h c <= s_next s).
    { destruct (Z.le_gt_cases (c_w c * c_h c) (s_next s)) as [A|A]; [exact A|]. exfalso. eapply K. eapply s_publish; eauto.
      intros _ y' Hy'. destruct (s_pc s y') eqn:P'; auto. exfalso. eapply K. eapply (s_willp c s y'); eauto. }
    split; [split; auto|]. exists y, x. split; [exact Hy|]. split; [exact P|]. split; [|exact L].
    assert (y * c_w c + x < c_w c * c_h c). { assert ((y + 1) * c_w c <= c_h c * c_w c) by (apply Z.mul_le_mono_nonneg_r; lia). lia. } lia.
  - exfalso. eapply K. eapply s_chka; eauto.
  - exfalso. eapply K. eapply s_work; eauto.
  - exfalso. eapply K. eapply s_count; eauto.
  - exfalso. destruct (Z.eq_dec y 1) as [E|E]; [eapply K; eapply s_sig; eauto|].
    destruct (Z.le_gt_cases (c_w c + 1) (s_cnt s (y - 2))) as [A|A]; [eapply K; eapply s_sig; eauto|eapply K; eapply s_sigsleep; eauto; lia].
  - exfalso. destruct (Z.eq_dec y 0) as [E|E]; [eapply K; eapply s_last; eauto|].
    destruct (Z.le_gt_cases (c_w c + 1) (s_cnt s (y - 1))) as [A|A]; [eapply K; eapply s_last; eauto|eapply K; eapply s_lastsleep; eauto; lia].
Qed.
Lemma stuck_finished c s : 0 < c_w c -> c_many c = false -> c_err c = false -> c_lock c = true -> reachable c s -> stuck c s -> all_finished c s.
Proof.
  intros Hw Hone Er Lk R K. destruct (stuck_shape c s Hw Hone Er R K) as [A|((U & E) & y & x & Hy & P & B & _)]; [exact A|].
  exfalso. pose proof (slept_reach c s Lk Er R y Hy) as Z. rewrite P in Z. rewrite U in Z. destruct Z; [lia|discriminate].
Qed.
Lemma order_ok c s y x : 0 < c_w c -> reachable c s -> 0 <= y < c_h c -> s_pc s y = Work x ->
  0 <= x < c_w c /\ y * c_w c + x <= s_parsed s /\ s_rec s y = x /\ (0 < y -> Z.min (x + 2) (c_w c) <= s_rec s (y - 1)).
Proof.
  intros Hw R Hy P. pose proof (inv_reach c s Hw R) as V. pose proof (i_place c s V y Hy) as Q. rewrite P in Q. cbn [place_ok] in Q.
  split; [lia|]. split; [lia|]. split; [lia|]. intros Y. pose proof (i_true c s V (y - 1) ltac:(lia)) as T. lia.
Qed.
