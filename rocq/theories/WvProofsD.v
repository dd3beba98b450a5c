(** Runs of the threads of a picture that go wrong, and the picture decoded by one thread. *)
From Coq Require Import ZArith List Bool Lia.
From Verif Require Import CBase WvModel WvSpec WvProofs WvProofsB.
Import ListNotations.
Open Scope Z_scope.

Definition leads (c : cfg) (s : st) (P : st -> Prop) : Prop := reachable c s -> exists u, reachable c u /\ P u.
Lemma leads_end c s (P : st -> Prop) : P s -> leads c s P.
Proof. intros H R. exists s. auto. Qed.
Lemma leads_step c s t P : step c s t -> leads c t P -> leads c s P.
Proof. intros H L [n R]. apply L. exists (S n). eapply steps_snoc; eauto. Qed.
Lemma leads_init c (P : st -> Prop) : leads c init P -> exists u, reachable c u /\ P u.
Proof. intros L. apply L. exists 0%nat. constructor. Qed.
Ltac here := split; [discriminate|reflexivity].
Ltac start y := eapply leads_step; [apply (s_start _ _ y); [here|reflexivity|cbn; auto]|cbn [s_parsed s_next s_pub s_cnt s_pc s_rec c_w c_h]].
Ltac chkp y x := eapply leads_step; [apply (s_chkp _ _ y x); [here|reflexivity]|cbn [s_parsed s_next s_pub s_cnt s_pc s_rec c_w c_h]].
Ltac willp y x := eapply leads_step; [apply (s_willp _ _ y x); [here|reflexivity]|cbn [s_parsed s_next s_pub s_cnt s_pc s_rec c_w c_h]].
Ltac chka y x := eapply leads_step; [apply (s_chka _ _ y x); [here|reflexivity]|cbn [s_parsed s_next s_pub s_cnt s_pc s_rec c_w c_h]].
Ltac willa y x := eapply leads_step; [apply (s_willa _ _ y x); [here|reflexivity]|cbn [s_parsed s_next s_pub s_cnt s_pc s_rec c_w c_h]].
Ltac work y x := eapply leads_step; [apply (s_work _ _ y x); [here|reflexivity]|cbn [s_parsed s_next s_pub s_cnt s_pc s_rec c_w c_h]].
Ltac count y x := eapply leads_step; [apply (s_count _ _ y x); [here|reflexivity]|cbn [s_parsed s_next s_pub s_cnt s_pc s_rec c_w c_h]].
Ltac publish := eapply leads_step; [apply s_publish; [reflexivity|reflexivity|cbn; intros; discriminate]|cbn [s_parsed s_next s_pub s_cnt s_pc s_rec c_w c_h]].
Ltac publish_locked := eapply leads_step; [apply s_publish; [reflexivity|reflexivity|intros _ y Hy; cbn in Hy; assert (y = 0 \/ y = 1) as [-> | ->] by lia; reflexivity]|cbn [s_parsed s_next s_pub s_cnt s_pc s_rec c_w c_h]].
Ltac broadcast := eapply leads_step; [apply s_broadcast; reflexivity|cbn [s_parsed s_next s_pub s_cnt s_pc s_rec c_w c_h]].
Ltac giveup := eapply leads_step; [apply s_giveup; reflexivity|cbn [s_parsed s_next s_pub s_cnt s_pc s_rec c_w c_h]].

Lemma stuck_rows c s : (forall y, 0 <= y < c_h c -> (exists x, s_pc s y = SlpP x) \/ (exists x, s_pc s y = SlpA x) \/ s_pc s y = Fin) ->
  s_pub s = false -> c_w c * c_h c <= s_next s -> stuck c s.
Proof.
  intros H U E t Q. destruct Q as [s y Hy P L|s y x Hy P|s y x Hy P|s y x Hy P|s y x Hy P|s y x Hy P|s y x Hy P|s y Hy P L|s y Hy P L L'|s y Hy P L|s y Hy P L L'|s P L G|s P|s G P L]; try (destruct (H y Hy) as [[z K]|[[z K]|K]]; congruence); lia || congruence.
Qed.

(** Lost wake-up: the parsed count is raised and broadcast between test and sleep. *)
Lemma lost_wakeup : exists s, reachable (Cfg 1 1 false false false) s /\ stuck (Cfg 1 1 false false false) s /\ ~ all_finished (Cfg 1 1 false false false) s.
Proof.
  apply leads_init. unfold init. start 0. chkp 0 0. publish. broadcast. willp 0 0. apply leads_end. split.
  - apply stuck_rows; cbn [s_pub s_next s_pc c_w c_h]; [|reflexivity|vm_compute; discriminate]. intros y Hy. assert (y = 0) as -> by lia. left. exists 0. reflexivity.
  - intros A. specialize (A 0 ltac:(cbn; lia)). discriminate A.
Qed.
(** The parser gives up the last row. *)
Lemma parser_gives_up : exists s, reachable (Cfg 1 1 false true true) s /\ stuck (Cfg 1 1 false true true) s /\ ~ all_finished (Cfg 1 1 false true true) s.
Proof.
  apply leads_init. unfold init. giveup. start 0. chkp 0 0. willp 0 0. apply leads_end. split.
  - apply stuck_rows; cbn [s_pub s_next s_pc c_w c_h]; [|reflexivity|]; [|vm_compute; discriminate]. intros y Hy. assert (y = 0) as -> by lia. left. exists 0. reflexivity.
  - intros A. specialize (A 0 ltac:(cbn; lia)). discriminate A.
Qed.
(** Several row workers: nobody wakes the one that waits for the row above. *)
Lemma rows_deadlock : exists s, reachable (Cfg 1 2 true true false) s /\ stuck (Cfg 1 2 true true false) s /\ ~ all_finished (Cfg 1 2 true true false) s.
Proof.
  apply leads_init. unfold init. publish_locked. broadcast. publish_locked. broadcast. start 0. start 1. chkp 1 0. chka 1 0. willa 1 0.
  chkp 0 0. work 0 0. count 0 0. apply leads_end. split.
  - apply stuck_rows; cbn [s_pub s_next s_pc c_w c_h]; [|reflexivity|vm_compute; discriminate]. intros y Hy. assert (y = 0 \/ y = 1) as [-> | ->] by lia; [right; right; reflexivity|right; left]. exists 0. reflexivity.
  - intros A. specialize (A 1 ltac:(cbn; lia)). discriminate A.
Qed.
(** Several row workers: while LCU 0 of row 1 is reconstructed, and its end caches the samples above LCU 1 and to the
    right of it, LCU 2 of row 0 need not be there. *)
Lemma cache_early : exists s, reachable (Cfg 3 2 true true false) s /\ s_pc s 1 = Work 0 /\ s_rec s 0 = 2.
Proof.
  apply leads_init. unfold init. do 4 (publish_locked; broadcast). start 0. start 1.
  chkp 0 0. work 0 0. count 0 0. chkp 0 1. work 0 1. count 0 1. chkp 1 0. chka 1 0. apply leads_end. split; reflexivity.
Qed.
Lemma rows_complete c s y x : 0 < c_w c -> c_many c = false -> reachable c s -> 0 < y < c_h c -> s_pc s y = Work x -> forall y', 0 <= y' < y -> s_rec s y' = c_w c.
Proof.
  intros Hw M R Hy P. pose proof (inv_reach c s Hw R) as V. pose proof (one_reach c Hw M s R) as O.
  assert (F : forall k : nat, Z.of_nat k < y -> s_pc s (y - 1 - Z.of_nat k) = Fin).
  { induction k as [|k IH]; intros L.
    - replace (y - 1 - Z.of_nat 0) with (y - 1) by lia. apply (o_seq c s O); [lia|]. rewrite P. discriminate.
    - replace (y - 1 - Z.of_nat (S k)) with (y - 1 - Z.of_nat k - 1) by lia. apply (o_seq c s O); [lia|]. rewrite IH by lia. discriminate. }
  intros y' Hy'. specialize (F (Z.to_nat (y - 1 - y')) ltac:(lia)). replace (y - 1 - Z.of_nat (Z.to_nat (y - 1 - y'))) with y' in F by lia.
  pose proof (i_place c s V y' ltac:(lia)) as Q. rewrite F in Q. cbn [place_ok] in Q. lia.
Qed.

(** One thread. *)
Definition line (w y : Z) : list (Z * Z) := map (fun i => (Z.of_nat i, y)) (List.seq 0 (Z.to_nat w)).
Fixpoint raster (w : Z) (n : nat) (y : Z) : list (Z * Z) := match n with O => [] | S k => line w y ++ raster w k (y + 1) end.
Lemma one_row_good w h bad refd y s : 0 < w -> good w bad y -> (refd = true -> 0 < y -> w + 1 <= q_cnt s (y - 1)) ->
  one_row w h bad refd y s = Done (Seq (if refd then fupd (q_cnt s) y (w + 3) else q_cnt s) (if refd then q_line s + 1 else q_line s) (rev (line w y) ++ q_log s) (q_out s || (y =? h - 1))).
Proof.
  intros W G C. unfold one_row. assert (N : (match bad y with Some x => Z.min x w | None => w end) = w) by (unfold good in G; destruct (bad y); lia).
  rewrite N. destruct (Z.ltb_spec w w); [lia|]. destruct refd; [|reflexivity].
  unfold signal. cbn [q_cnt q_line q_log q_out].
  assert (B : (0 <? y) && (q_cnt s (y - 1) <? w + 1) = false).
  { destruct (Z.ltb_spec 0 y); [cbn [andb]|reflexivity]. apply Z.ltb_ge. auto. }
  rewrite B. reflexivity.
Qed.
Lemma rows_good w h bad refd n : forall y s, 0 < w -> 0 <= y -> y + Z.of_nat n <= h -> (forall y', y <= y' < h -> good w bad y') -> (refd = true -> 0 < y -> w + 1 <= q_cnt s (y - 1)) ->
  exists s', rows_from w h bad refd n y s = Done s' /\ rev (q_log s') = rev (q_log s) ++ raster w n y /\
    (forall y', q_cnt s' y' = if refd && (y <=? y') && (y' <? y + Z.of_nat n) then w + 3 else q_cnt s y') /\
    q_line s' = q_line s + (if refd then Z.of_nat n else 0) /\ q_out s' = (q_out s || ((0 <? Z.of_nat n) && (y + Z.of_nat n =? h))).
Proof.
  induction n as [|n IH]; intros y s W Y L G C.
  - exists s. cbn [rows_from raster]. split; [reflexivity|]. split; [rewrite app_nil_r; reflexivity|]. split; [|split].
    + intros y'. destruct refd; cbn [andb]; [|reflexivity]. destruct (Z.leb_spec y y'); cbn [andb]; [|reflexivity]. destruct (Z.ltb_spec y' (y + Z.of_nat 0)); [lia|reflexivity].
    + destruct refd; lia.
    + cbn. rewrite orb_false_r. reflexivity.
  - cbn [rows_from raster]. rewrite (one_row_good w h bad refd y s W (G y ltac:(lia)) C). cbn [bindo].
    match goal with |- context [rows_from w h bad refd n (y + 1) ?t] => destruct (IH (y + 1) t W ltac:(lia) ltac:(lia)) as (s' & E & B & K & M & O) end.
    + intros y' Hy'. apply G. lia.
    + intros Rf _. rewrite Rf. cbn [q_cnt]. replace (y + 1 - 1) with y by lia. rewrite fupd_same. lia.
    + exists s'. cbn [q_log q_cnt q_line q_out] in *. split; [exact E|]. split; [|split; [|split]].
      * rewrite B. rewrite rev_app_distr, rev_involutive, app_assoc. reflexivity.
      * intros y'. rewrite K. destruct refd; cbn [andb]; [|reflexivity].
        destruct (Z.leb_spec (y + 1) y'); destruct (Z.leb_spec y y'); cbn [andb]; try lia.
        -- replace (y + 1 + Z.of_nat n) with (y + Z.of_nat (S n)) by lia. destruct (Z.ltb_spec y' (y + Z.of_nat (S n))); [reflexivity|]. rewrite fupd_other by lia. reflexivity.
        -- assert (y' = y) as -> by lia. rewrite fupd_same. destruct (Z.ltb_spec y (y + Z.of_nat (S n))); [reflexivity|lia].
        -- rewrite fupd_other by lia. reflexivity.
      * rewrite M. destruct refd; lia.
      * rewrite O. replace (y + Z.of_nat (S n)) with (y + 1 + Z.of_nat n) by lia. rewrite <- orb_assoc. f_equal.
        destruct (Z.eqb_spec y (h - 1)); destruct (Z.eqb_spec (y + 1 + Z.of_nat n) h); destruct (Z.ltb_spec 0 (Z.of_nat n)); destruct (Z.ltb_spec 0 (Z.of_nat (S n))); cbn; try reflexivity; lia.
Qed.
Lemma in_line w y a b : In (a, b) (line w y) <-> 0 <= a < w /\ b = y.
Proof.
  unfold line. rewrite in_map_iff. split.
  - intros (i & E & L). apply in_seq in L. injection E as <- <-. lia.
  - intros [A ->]. exists (Z.to_nat a). split; [f_equal; lia|]. apply in_seq. lia.
Qed.
Lemma nth_raster w n : forall y k, 0 < w -> (k < Z.to_nat w * n)%nat -> nth_error (raster w n y) k = Some (Z.of_nat k mod w, y + Z.of_nat k / w).
Proof.
  induction n as [|n IH]; intros y k W K; [lia|]. cbn [raster].
  assert (LL : length (line w y) = Z.to_nat w) by (unfold line; rewrite map_length, seq_length; reflexivity).
  destruct (Nat.lt_ge_cases k (Z.to_nat w)) as [A|A].
  - rewrite nth_error_app1 by lia. unfold line. rewrite nth_error_map.
    rewrite (nth_error_nth' _ 0%nat) by (rewrite seq_length; exact A). rewrite seq_nth by exact A. cbn [option_map].
    rewrite Z.mod_small, Z.div_small by lia. f_equal; f_equal; lia. 
  - rewrite nth_error_app2 by lia. rewrite LL. rewrite IH by lia.
    assert (E : Z.of_nat (k - Z.to_nat w) = Z.of_nat k - 1 * w) by lia. rewrite E.
    assert (M : (Z.of_nat k - 1 * w) mod w = Z.of_nat k mod w) by (rewrite <- (Z_mod_plus_full (Z.of_nat k - 1 * w) 1 w); f_equal; lia).
    assert (D : (Z.of_nat k - 1 * w) / w = Z.of_nat k / w - 1) by (replace (Z.of_nat k) with (Z.of_nat k - 1 * w + 1 * w) at 2 by lia; rewrite Z_div_plus_full by lia; lia).
    rewrite M, D. do 2 f_equal. lia.
Qed.

(** A row that meets a bad slice header, before a row that does not. *)
Lemma one_row_bad w h bad refd y s : ~ good w bad y -> exists s', one_row w h bad refd y s = Done s' /\ q_cnt s' = q_cnt s /\ q_out s' = q_out s.
Proof.
  unfold good, one_row. intros G. destruct (bad y) as [x|]; [|contradiction (G Logic.I)].
  destruct (Z.ltb_spec (Z.min x w) w); [|lia]. eexists. split; [reflexivity|]. split; reflexivity.
Qed.
Lemma good_dec w bad y : {good w bad y} + {~ good w bad y}.
Proof. unfold good. destruct (bad y) as [x|]; [|left; exact Logic.I]. destruct (Z_le_dec w x); [left|right]; assumption. Qed.
Lemma rows_any w h bad n : forall y s, 0 < w -> 0 <= y -> y + Z.of_nat n <= h ->
  (forall y', y <= y' < h -> q_cnt s y' = 0) -> (0 < y -> good w bad (y - 1) -> w + 1 <= q_cnt s (y - 1)) -> (0 < y -> ~ good w bad (y - 1) -> q_cnt s (y - 1) = 0) ->
  (rows_from w h bad true n y s = Hang /\ exists y', y <= y' < y + Z.of_nat n /\ 0 < y' /\ ~ good w bad (y' - 1) /\ good w bad y') \/
  ((exists s', rows_from w h bad true n y s = Done s') /\ forall y', y <= y' < y + Z.of_nat n -> 0 < y' -> good w bad y' -> good w bad (y' - 1)).
Proof.
  induction n as [|n IH]; intros y s W Y L Z0 Cg Cb.
  - right. split; [exists s; reflexivity|lia].
  - cbn [rows_from]. destruct (good_dec w bad y) as [G|G].
    + assert (X : (0 < y /\ ~ good w bad (y - 1)) \/ (0 < y -> good w bad (y - 1))).
      { destruct (good_dec w bad (y - 1)) as [G'|G']; [auto|]. destruct (Z_lt_dec 0 y); [auto|right; lia]. }
      destruct X as [[P G']|X].
      * left. split; [|exists y; split; [lia|]; auto].
        unfold one_row. assert (N : (match bad y with Some x => Z.min x w | None => w end) = w) by (unfold good in G; destruct (bad y); lia).
        rewrite N. destruct (Z.ltb_spec w w); [lia|]. unfold signal. cbn [q_cnt]. rewrite (Cb P G').
        destruct (Z.ltb_spec 0 y); [|lia]. destruct (Z.ltb_spec 0 (w + 1)); [|lia]. reflexivity.
      * rewrite (one_row_good w h bad true y s W G) by (intros _ P; apply Cg; auto). cbn [bindo].
        match goal with |- context [rows_from w h bad true n (y + 1) ?t] => destruct (IH (y + 1) t W ltac:(lia) ltac:(lia)) as [(E & y' & Hy' & R)|(E & R)] end.
        -- intros y' Hy'. cbn [q_cnt]. rewrite fupd_other by lia. apply Z0. lia.
        -- intros _ _. cbn [q_cnt]. replace (y + 1 - 1) with y by lia. rewrite fupd_same. lia.
        -- intros _ Gy. replace (y + 1 - 1) with y in Gy by lia. contradiction.
        -- left. split; [exact E|]. exists y'. split; [lia|exact R].
        -- right. split; [exact E|]. intros y' Hy' P' Gy'. destruct (Z.eq_dec y' y) as [->|]; [auto|apply R; auto; lia].
    + destruct (one_row_bad w h bad true y s G) as (s1 & E1 & K1 & _). rewrite E1. cbn [bindo].
      destruct (IH (y + 1) s1 W ltac:(lia) ltac:(lia)) as [(E & y' & Hy' & R)|(E & R)].
      * intros y' Hy'. rewrite K1. apply Z0. lia.
      * intros _ G'. replace (y + 1 - 1) with y in G' by lia. contradiction.
      * intros _ _. rewrite K1. apply Z0. lia.
      * left. split; [exact E|]. exists y'. split; [lia|exact R].
      * right. split; [exact E|]. intros y' Hy' P' Gy'. destruct (Z.eq_dec y' y) as [->|]; [contradiction|]. apply R; auto; lia.
Qed.
Lemma decode_hangs w h bad : 0 < w -> 0 < h ->
  (decode_rows w h bad true = Hang <-> exists y, 0 < y < h /\ ~ good w bad (y - 1) /\ good w bad y).
Proof.
  intros W H. unfold decode_rows. destruct (rows_any w h bad (Z.to_nat h) 0 seq_init W ltac:(lia) ltac:(lia)) as [(E & y & Hy & P & R)|((s' & E) & R)]; cbn [seq_init q_cnt]; intros; auto; try lia.
  - rewrite E. split; [|reflexivity]. intros _. exists y. split; [lia|exact R].
  - rewrite E. split; [discriminate|]. intros (y & Hy & G & G'). exfalso. apply G. apply R; auto; lia.
Qed.
(** Whether the picture is delivered depends on the last row alone. *)
Lemma rows_out w h bad n : forall y s refd, 0 < w -> 0 <= y -> y + Z.of_nat n = h -> q_out s = false -> forall s', rows_from w h bad refd n y s = Done s' ->
  (q_out s' = true <-> (0 < n)%nat /\ good w bad (h - 1)).
Proof.
  induction n as [|n IH]; intros y s refd W Y L Q s' E.
  - cbn [rows_from] in E. assert (s = s') as <- by congruence. rewrite Q. split; [discriminate|lia].
  - cbn [rows_from] in E. destruct (one_row w h bad refd y s) as [s1| | |] eqn:E1; try discriminate. cbn [bindo] in E.
    assert (O1 : q_out s1 = true <-> y = h - 1 /\ good w bad y).
    { destruct (good_dec w bad y) as [G|G].
      - unfold one_row in E1. assert (N : (match bad y with Some x => Z.min x w | None => w end) = w) by (unfold good in G; destruct (bad y); lia).
        rewrite N in E1. destruct (Z.ltb_spec w w); [lia|].
        match type of E1 with bindo ?e _ = _ => destruct e as [s2| | |] eqn:E2; try discriminate end. cbn [bindo] in E1.
        assert (q_out s2 = false). { destruct refd; [unfold signal in E2; cbn [q_out q_cnt q_line q_log] in E2; destruct (_ && _); [discriminate|]|]; assert (X : forall a b, Done (A:=seq) a = Done b -> a = b) by congruence; apply X in E2; rewrite <- E2; exact Q. }
        assert (X : forall a b, Done (A:=seq) a = Done b -> a = b) by congruence. apply X in E1. rewrite <- E1. cbn [q_out]. rewrite H0. cbn [orb]. destruct (Z.eqb_spec y (h - 1)); [tauto|]. split; [discriminate|tauto].
      - destruct (one_row_bad w h bad refd y s G) as (s2 & E2 & _ & O2). rewrite E2 in E1. assert (s2 = s1) as <- by congruence. rewrite O2, Q. split; [discriminate|tauto]. }
    destruct n as [|n].
    + cbn [rows_from] in E. assert (s1 = s') as <- by congruence. rewrite O1. replace (h - 1) with y by lia. split; [intros [_ G]; split; [lia|exact G]|intros [_ G]; auto].
    + assert (q_out s1 = false) by (destruct (q_out s1); [destruct O1 as [O1 _]; specialize (O1 eq_refl); lia|reflexivity]).
      rewrite (IH (y + 1) s1 refd W ltac:(lia) ltac:(lia) H s' E). split; intros [_ G]; split; auto; lia.
Qed.
Lemma decode_out w h bad refd s : 0 < w -> 0 < h -> decode_rows w h bad refd = Done s -> (q_out s = true <-> good w bad (h - 1)).
Proof. intros W H E. unfold decode_rows in E. rewrite (rows_out w h bad (Z.to_nat h) 0 seq_init refd W ltac:(lia) ltac:(lia) eq_refl s E). split; [tauto|]. intros G. split; [lia|exact G]. Qed.

Lemma order_deps c s y x : 0 < c_w c -> reachable c s -> 0 <= y < c_h c -> s_pc s y = Work x ->
  y * c_w c + x <= s_parsed s /\ forall a b, In (a, b) (needs x y) -> in_picture c a b -> rebuilt s a b.
Proof.
  intros W R Hy P. destruct (order_ok c s y x W R Hy P) as (A & B & C & D). split; [exact B|].
  intros a b I [Ha Hb]. unfold rebuilt. cbn [needs In] in I.
  destruct I as [E|[E|[E|[E|[]]]]]; apply pair_equal_spec in E; destruct E as [<- <-]; lia.
Qed.
Lemma decode_all w h bad refd : 0 < w -> 0 < h -> (forall y, 0 <= y < h -> good w bad y) ->
  exists s, decode_rows w h bad refd = Done s /\ length (q_log s) = Z.to_nat (w * h) /\
    (forall k, (k < Z.to_nat (w * h))%nat -> nth_error (rev (q_log s)) k = Some (raster_at w k)) /\ q_out s = true /\
    (refd = true -> q_line s = h /\ forall y, 0 <= y < h -> q_cnt s y = w + 3).
Proof.
  intros W H G. destruct (rows_good w h bad refd (Z.to_nat h) 0 seq_init W ltac:(lia) ltac:(lia) G) as (s & E & L & K & M & O).
  - lia.
  - exists s. unfold decode_rows. split; [exact E|]. cbn [seq_init q_log q_cnt q_line q_out rev app] in *. split; [|split; [|split]].
    + rewrite <- rev_length, L. assert (X : forall n y, length (raster w n y) = (n * Z.to_nat w)%nat).
      { induction n as [|n IH]; intros y; cbn [raster]; [reflexivity|]. rewrite app_length, IH. unfold line. rewrite map_length, seq_length. lia. }
      rewrite X. lia.
    + intros k Hk. rewrite L. rewrite nth_raster by lia. reflexivity.
    + rewrite O. rewrite Z2Nat.id by lia. destruct (Z.ltb_spec 0 h); [|lia]. rewrite Z.eqb_refl. reflexivity.
    + intros ->. split; [rewrite M; lia|]. intros y Hy. rewrite K. cbn [andb]. destruct (Z.leb_spec 0 y); [|lia]. destruct (Z.ltb_spec y (0 + Z.of_nat (Z.to_nat h))); [reflexivity|lia].
Qed.
Lemma not_refd_never_hangs w h bad : exists s, decode_rows w h bad false = Done s.
Proof.
  unfold decode_rows. generalize seq_init 0. induction (Z.to_nat h) as [|n IH]; intros s y; [exists s; reflexivity|].
  cbn [rows_from]. unfold one_row. destruct (_ <? _); cbn [bindo]; apply IH.
Qed.
