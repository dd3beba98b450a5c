(** Proofs about packet input and unit assembly. *)
From Coq Require Import ZArith List Bool Lia.
From Verif Require Import CBase CBaseProofs BsModel BsProofs BsProofs2 PackModel PackSpec.
Import ListNotations.
Open Scope Z_scope.

(** *** Validation. *)
Lemma get_nth : forall A (l : list A) n, get l (Z.of_nat n) = nth_error l n.
Proof. intros. unfold get. destruct (Z.of_nat n <? 0) eqn:E; [lia|]. rewrite Nat2Z.id. reflexivity. Qed.

Lemma payload_some : forall p d, payload p = Some d ->
  exists q b, p = Some q /\ pk_data q = Some b /\ 4 <= pk_len q /\ starts_with_prefix b /\
              d = firstn (Z.to_nat (pk_len q)) b.
Proof.
  intros p d H. destruct p as [q|]; [|discriminate]. cbn in H.
  destruct (pk_data q) as [b|] eqn:Eb; [|discriminate].
  destruct (4 <=? pk_len q) eqn:El; [|discriminate].
  destruct b as [|x b]; [discriminate|]. destruct x; try discriminate.
  destruct b as [|y b]; [discriminate|]. destruct y; try discriminate.
  destruct b as [|z b]; [discriminate|]. destruct z as [|z|]; try discriminate. destruct z; try discriminate.
  apply Some_inj in H. exists q, (0 :: 0 :: 1 :: b). repeat split; auto. lia.
Qed.

Lemma payload_wf : forall p, (exists d, payload p = Some d) <-> well_formed p.
Proof.
  intros p. split.
  - intros (d & H). destruct (payload_some _ _ H) as (q & b & H1 & H2 & H3 & H4 & _).
    exists q, b. auto.
  - intros (q & d & -> & H2 & H3 & H4 & H5 & H6). cbn. rewrite H2.
    replace (4 <=? pk_len q) with true by lia.
    destruct d as [|x [|y [|z d]]]; try discriminate. cbn in *.
    apply Some_inj in H4, H5, H6. subst. eauto.
Qed.

(** What [send] does, in terms of [payload]. *)
Lemma send_spec : forall s p, (forall q, p = Some q -> honest q) ->
  send s p = match payload p with
             | None => SOk s [EvError]
             | Some d => match pack s d with
                         | PBlock => SBlock
                         | PUndef => SUndef
                         | POk s None => SOk s [EvDefault]
                         | POk s (Some u) =>
                             SOk (Pst (ps_cur s) (ps_idle s) (ps_busy s ++ [u]))
                                 [EvUnit (u_data u); EvDefault]
                         end
             end.
Proof.
  intros s p Hh. destruct p as [q|]; [|reflexivity]. specialize (Hh q eq_refl).
  unfold send, payload. destruct (pk_data q) as [b|] eqn:Eb; [|reflexivity].
  specialize (Hh b Eb).
  destruct (pk_len q <=? 0) eqn:E0.
  { replace (4 <=? pk_len q) with false by lia. reflexivity. }
  destruct (pk_len q <? 4) eqn:E4.
  { replace (4 <=? pk_len q) with false by lia. reflexivity. }
  replace (4 <=? pk_len q) with true by lia.
  change (get b 0) with (get b (Z.of_nat 0)). change (get b 1) with (get b (Z.of_nat 1)).
  change (get b 2) with (get b (Z.of_nat 2)). rewrite !get_nth.
  destruct b as [|x [|y [|z b]]]; cbn [length] in Hh; try lia. cbn [nth_error].
  replace (Z.of_nat (length (x :: y :: z :: b)) <? pk_len q) with false by (cbn [length]; lia).
  destruct (x =? 0) eqn:Ex; cbn [negb orb].
  2:{ destruct x; [discriminate|reflexivity|reflexivity]. }
  apply Z.eqb_eq in Ex. subst x.
  destruct (y =? 0) eqn:Ey; cbn [negb orb].
  2:{ destruct y; [discriminate|reflexivity|reflexivity]. }
  apply Z.eqb_eq in Ey. subst y.
  destruct (z =? 1) eqn:Ez; cbn [negb orb].
  2:{ destruct z as [|z|]; try reflexivity. destruct z; try reflexivity. discriminate. }
  apply Z.eqb_eq in Ez. subst z. reflexivity.
Qed.

Lemma send_reject : forall s p, (forall q, p = Some q -> honest q) -> ~ well_formed p ->
  send s p = SOk s [EvError].
Proof.
  intros s p Hh Hw. rewrite send_spec by exact Hh.
  destruct (payload p) eqn:E; [|reflexivity].
  exfalso. apply Hw, payload_wf. eauto.
Qed.

(** *** Invariant of reachable states. *)
Definition idle_ok (u : unit_t) : Prop :=
  u_data u = [] /\ MAX_ES_FRAME_SIZE <= u_cap u /\ u_size u <= u_cap u.
Definition busy_ok (u : unit_t) : Prop := MAX_ES_FRAME_SIZE <= u_cap u /\ u_size u <= u_cap u.
Definition Inv (s : pst) : Prop :=
  (forall u, ps_cur s = Some u -> busy_ok u /\ u_len u <= u_cap u /\ 4 <= u_len u) /\
  Forall idle_ok (ps_idle s) /\ Forall busy_ok (ps_busy s).


Lemma inv_init : forall n, Inv (pst_init n).
Proof.
  intros n. split; [|split].
  - cbn. discriminate.
  - apply Forall_forall. intros u Hu. cbn in Hu. apply repeat_spec in Hu. subst u.
    unfold idle_ok, MAX_ES_FRAME_SIZE. cbn. repeat split; lia.
  - constructor.
Qed.

Lemma grow_spec : forall u n, 0 <= n -> busy_ok u -> u_len u <= u_cap u ->
  grow u n = Undef \/
  exists v, grow u n = Done v /\ u_data v = u_data u /\ busy_ok v /\ u_len u + n <= u_cap v.
Proof.
  intros u n Hn [Hb1 Hb2] Hc. unfold grow, es_unit_alloc.
  destruct (INT_MAX <? u_len u + n); [now left|].
  destruct (u_size u <? u_len u + n) eqn:E.
  - destruct (INT_MAX <? u_len u + n + MAX_ES_FRAME_SIZE * 2); [now left|].
    destruct (INT_MAX <? UNIT_HEADER + (u_len u + n + MAX_ES_FRAME_SIZE * 2)); [now left|].
    cbn [bindo u_cap].
    replace (u_len u + n + MAX_ES_FRAME_SIZE * 2 <? u_len u) with false
      by (unfold MAX_ES_FRAME_SIZE; lia).
    right. eexists. split; [reflexivity|]. split; [reflexivity|].
    assert (0 <= u_len u) by (unfold u_len; lia).
    unfold busy_ok, MAX_ES_FRAME_SIZE in *. cbn [u_cap u_size]. lia.
  - right. exists u. split; [reflexivity|]. split; [reflexivity|]. unfold busy_ok. lia.
Qed.

Lemma grow_defined : forall u n, 0 <= n -> busy_ok u -> u_len u <= u_cap u ->
  u_len u + n <= 2000000000 -> grow u n <> Undef.
Proof.
  intros u n Hn [Hb1 Hb2] Hc Hl. unfold grow, es_unit_alloc, INT_MAX, UNIT_HEADER, MAX_ES_FRAME_SIZE in *.
  assert (0 <= u_len u) by (unfold u_len; lia).
  replace (2147483647 <? u_len u + n) with false by lia.
  destruct (u_size u <? u_len u + n) eqn:E; [|discriminate].
  replace (2147483647 <? u_len u + n + 4000000 * 2) with false by lia.
  replace (2147483647 <? 256 + (u_len u + n + 4000000 * 2)) with false by lia.
  cbn [bindo u_cap]. replace (u_len u + n + 4000000 * 2 <? u_len u) with false by lia. discriminate.
Qed.

Lemma dispose_unit_ok : forall u, exists v, dispose_unit u = Done v /\
  u_data v = dispose (u_data u) /\ u_cap v = u_cap u /\ u_size v = u_size u.
Proof.
  intros u. unfold dispose_unit.
  destruct (dispose_inplace_ok (u_data u)) as (buf & -> & H1 & H2 & H3).
  eexists. split; [reflexivity|]. cbn. rewrite Nat2Z.id. auto.
Qed.

Lemma opener_is_unit : forall d x, nth_error d 3 = Some x -> opener d = is_unit x.
Proof.
  intros d x H. unfold opener, type_of, is_unit.
  rewrite (nth_error_nth d 3 0 H). cbn [existsb].
  destruct (x =? 176), (x =? 177), (x =? 179), (x =? 182), (x =? 183); reflexivity.
Qed.

(** Case analysis of [pack]. The first alternative is blocking, the second undefined
    behaviour (with its cause), the third a unit that goes on growing, the fourth the
    start of a new unit. *)
Lemma pack_cases : forall s d, Inv s -> 4 <= Z.of_nat (length d) ->
  (pack s d = PBlock /\ (ps_idle s = [])) \/
  (pack s d = PUndef /\
     (2000000000 < Z.of_nat (length (cur_data s)) + Z.of_nat (length d) \/
      MAX_ES_FRAME_SIZE < Z.of_nat (length d))) \/
  (exists s', pack s d = POk s' None /\ Inv s' /\ cur_data s' = cur_data s ++ d /\
     (opener d = false \/ cur_data s = []) /\ ps_busy s' = ps_busy s) \/
  (exists s' u, pack s d = POk s' (Some u) /\ Inv s' /\ cur_data s' = d /\
     opener d = true /\ cur_data s <> [] /\
     u_data u = dispose (cur_data s) /\ busy_ok u /\ ps_busy s' = ps_busy s).
Proof.
  intros s d (Hc & Hi & Hb) Hd. unfold pack.
  destruct (get_in Z d 3 ltac:(lia)) as [x Hx]. rewrite Hx.
  change 3 with (Z.of_nat 3) in Hx. rewrite get_nth in Hx.
  destruct (match ps_cur s with
            | Some u => Some (u, ps_idle s)
            | None => match ps_idle s with u :: r => Some (u, r) | [] => None end
            end) as [[u idle]|] eqn:E.
  2:{ left. split; [reflexivity|]. destruct (ps_cur s); [discriminate|].
      destruct (ps_idle s); [reflexivity|discriminate]. }
  assert (HU: busy_ok u /\ u_len u <= u_cap u /\ u_data u = cur_data s /\ Forall idle_ok idle /\
              (idle = [] -> ps_cur s = None \/ ps_idle s = [])).
  { unfold cur_data. destruct (ps_cur s) as [u0|] eqn:Ec.
    - apply Some_inj, pair_equal_spec in E. destruct E as [-> <-].
      destruct (Hc u eq_refl) as (A1 & A2 & A3). split; [exact A1|]. split; [exact A2|]. split; [reflexivity|].
      split; [exact Hi|]. intros ->. right. reflexivity.
    - destruct (ps_idle s) as [|u0 r]; [discriminate|].
      apply Some_inj, pair_equal_spec in E. destruct E as [-> ->].
      inversion Hi; subst. destruct H1 as (B1 & B2 & B3). unfold busy_ok, u_len. rewrite B1. cbn.
      unfold MAX_ES_FRAME_SIZE in *. split; [lia|]. split; [lia|]. split; [reflexivity|]. split; [assumption|].
      intros _. left. reflexivity. }
  destruct HU as (U1 & U2 & U3 & U4 & U5).
  assert (Hlen: u_len u = Z.of_nat (length (cur_data s))) by (unfold u_len; rewrite U3; reflexivity).
  destruct (grow_spec u (Z.of_nat (length d)) ltac:(lia) U1 U2) as [G|(v & G & V1 & V2 & V3)].
  { rewrite G. right; left. split; [reflexivity|]. left.
    destruct (Z_le_gt_dec (u_len u + Z.of_nat (length d)) 2000000000) as [L|L]; [|lia].
    exfalso. apply (grow_defined u (Z.of_nat (length d)) ltac:(lia) U1 U2 L G). }
  rewrite G. rewrite (opener_is_unit d x Hx).
  assert (Hvl: u_len v = u_len u) by (unfold u_len; rewrite V1; reflexivity).
  destruct (is_unit x) eqn:Ex; cbn [andb].
  - destruct (0 <? u_len v) eqn:El.
    + destruct idle as [|w idle].
      { left. split; [reflexivity|]. destruct (U5 eq_refl) as [A|A]; [|exact A].
        exfalso. unfold cur_data in Hlen. rewrite A in Hlen. cbn in Hlen. lia. }
      unfold copy_in. inversion U4; subst. destruct H1 as (W1 & W2 & W3).
      assert (Hw0: u_len w = 0) by (unfold u_len; rewrite W1; reflexivity). rewrite Hw0, W1.
      destruct (u_cap w <? 0 + Z.of_nat (length d)) eqn:Ew.
      { right; left. split; [reflexivity|]. right. lia. }
      destruct (dispose_unit_ok v) as (v' & D1 & D2 & D3 & D4). rewrite D1.
      right; right; right. eexists. exists v'. split; [reflexivity|]. cbn [cur_data ps_cur u_data ps_busy].
      split; [split; [|split]|].
      * cbn. intros u0 Hu0. apply Some_inj in Hu0. subst u0.
        unfold busy_ok, u_len. cbn. lia.
      * exact H2.
      * exact Hb.
      * split; [reflexivity|]. split; [reflexivity|]. split.
        { intros A. rewrite A in Hlen. cbn in Hlen. lia. }
        rewrite D2, V1, U3. split; [reflexivity|]. split; [|reflexivity].
        unfold busy_ok in *. lia.
    + right; right; left.
      assert (Hz: cur_data s = []).
      { destruct (cur_data s); [reflexivity|]. cbn in Hlen. lia. }
      unfold copy_in. rewrite Hvl.
      replace (u_cap v <? u_len u + Z.of_nat (length d)) with false by lia.
      eexists. split; [reflexivity|]. split; [|split; [|split; [|reflexivity]]].
      * split; [|split; [exact U4|exact Hb]]. cbn. intros u0 Hu0. apply Some_inj in Hu0. subst u0.
        unfold busy_ok, u_len in *. cbn [u_size u_cap u_data]. rewrite app_length, V1. lia.
      * cbn. rewrite V1, U3. reflexivity.
      * right. exact Hz.
  - right; right; left.
    unfold copy_in. rewrite Hvl.
    replace (u_cap v <? u_len u + Z.of_nat (length d)) with false by lia.
    eexists. split; [reflexivity|]. split; [|split; [|split; [|reflexivity]]].
    + split; [|split; [exact U4|exact Hb]]. cbn. intros u0 Hu0. apply Some_inj in Hu0. subst u0.
      unfold busy_ok, u_len in *. cbn [u_size u_cap u_data]. rewrite app_length, V1. lia.
    + cbn. rewrite V1, U3. reflexivity.
    + left. reflexivity.
Qed.

Definition honest_op (o : pop) : Prop := forall q, o = PSend (Some q) -> honest q.

Lemma payload_length : forall p d, (forall q, p = Some q -> honest q) -> payload p = Some d ->
  4 <= Z.of_nat (length d).
Proof.
  intros p d Hh H. destruct (payload_some _ _ H) as (q & b & -> & H2 & H3 & H4 & ->).
  specialize (Hh q eq_refl b H2). rewrite firstn_length. lia.
Qed.

(** One step: effect on the invariant, the current data and the emitted units. *)
Definition out_of (x : list Z * bool) : list Z := if snd x then dispose (fst x) else fst x.

Lemma step_spec : forall s o s' e, Inv s -> honest_op o -> pstep s o = SOk s' e ->
  Inv s' /\ forall t,
    units e ++ map out_of (fst (raw_units t (cur_data s'))) = map out_of (fst (raw_units (o :: t) (cur_data s))) /\
    snd (raw_units t (cur_data s')) = snd (raw_units (o :: t) (cur_data s)).
Proof.
  intros s o s' e Hi Hh H. destruct o as [p| |k]; cbn [pstep] in H.
  - assert (Hp: forall q, p = Some q -> honest q) by (intros q ->; apply Hh; reflexivity).
    rewrite send_spec in H by exact Hp. cbn [raw_units].
    destruct (payload p) as [d|] eqn:Ed.
    2:{ inversion H; subst. cbn. auto. }
    pose proof (payload_length _ _ Hp Ed) as Hd.
    destruct (pack_cases s d Hi Hd) as [[P _]|[[P _]|[(s1 & P & I1 & C1 & O1 & B1)|(s1 & u & P & I1 & C1 & O1 & N1 & D1 & U1 & B1)]]];
      rewrite P in H; try discriminate; injection H as <- <-.
    + split; [exact I1|]. intros t. rewrite C1.
      replace (opener d && negb match cur_data s with [] => true | _ => false end) with false.
      2:{ destruct O1 as [-> | ->]; [reflexivity|]. now rewrite andb_false_r. }
      cbn. auto.
    + split.
      { destruct I1 as (J1 & J2 & J3). split; [exact J1|split; [exact J2|]].
        cbn. apply Forall_app. split; [exact J3|]. constructor; [exact U1|constructor]. }
      intros t. change (cur_data {| ps_cur := ps_cur s1; ps_idle := ps_idle s1; ps_busy := ps_busy s1 ++ [u] |}) with (cur_data s1).
      rewrite C1, O1. destruct (cur_data s) as [|c0 cd] eqn:Ec; [congruence|].
      cbn [negb andb]. destruct (raw_units t d) as [us r]. cbn [fst snd map units flat_map app].
      rewrite D1. split; reflexivity.
  - unfold flush in H. cbn [raw_units]. destruct Hi as (J1 & J2 & J3).
    destruct (ps_cur s) as [u|] eqn:Ec.
    + destruct (J1 u eq_refl) as (A1 & A2 & A3). replace (4 <=? u_len u) with true in H by lia.
      injection H as <- <-. split.
      { split; [cbn; discriminate|]. cbn. split; [exact J2|]. apply Forall_app. split; [exact J3|].
        constructor; [exact A1|constructor]. }
      intros t. assert (Ecd: cur_data s = u_data u) by (unfold cur_data; rewrite Ec; reflexivity).
      rewrite Ecd. unfold cur_data. cbn [ps_cur]. destruct (u_data u) as [|c0 cd] eqn:Eu.
      { exfalso. unfold u_len in A3. rewrite Eu in A3. cbn in A3. lia. }
      destruct (raw_units t []) as [us r]. split; reflexivity.
    + injection H as <- <-. split; [split; [rewrite Ec; discriminate|auto]|].
      intros t. unfold cur_data. rewrite Ec. split; reflexivity.
  - unfold unload in H. destruct (nth_error (ps_busy s) k) as [u|] eqn:Ek; [|discriminate].
    inversion H; subst; clear H. destruct Hi as (J1 & J2 & J3). split.
    { split; [exact J1|]. cbn. split.
      - apply Forall_app. split; [exact J2|]. constructor; [|constructor].
        rewrite Forall_forall in J3. destruct (J3 u (nth_error_In _ _ Ek)). unfold idle_ok. cbn. auto.
      - rewrite <- (firstn_skipn k (ps_busy s)) in J3. apply Forall_app in J3. destruct J3 as [K1 K2].
        apply Forall_app. split; [exact K1|]. rewrite (skipn_nth _ _ _ _ Ek) in K2. now inversion K2. }
    intros t. cbn. auto.
Qed.

Lemma honest_ops_cons : forall o t, honest_ops (o :: t) -> honest_op o /\ honest_ops t.
Proof.
  intros o t H. split.
  - intros q ->. apply H. left. reflexivity.
  - intros q Hq. apply H. right. exact Hq.
Qed.

Lemma units_app : forall a b, units (a ++ b) = units a ++ units b.
Proof. intros. apply flat_map_app. Qed.

Lemma run_spec : forall ops s s' e, Inv s -> honest_ops ops -> prun s ops = Some (s', e) ->
  Inv s' /\ units e = map out_of (fst (raw_units ops (cur_data s))) /\
  cur_data s' = snd (raw_units ops (cur_data s)).
Proof.
  induction ops as [|o t IH]; intros s s' e Hi Hh H.
  - cbn in H. apply Some_inj, pair_equal_spec in H. destruct H as [<- <-]. auto.
  - apply honest_ops_cons in Hh. destruct Hh as [Ho Ht]. cbn [prun] in H.
    destruct (pstep s o) as [| |s1 e1] eqn:Es; try discriminate.
    destruct (prun s1 t) as [[s2 e2]|] eqn:Er; [|discriminate].
    apply Some_inj, pair_equal_spec in H. destruct H as [<- <-].
    destruct (step_spec _ _ _ _ Hi Ho Es) as [I1 S1]. destruct (S1 t) as [S2 S3].
    destruct (IH _ _ _ I1 Ht Er) as (R1 & R2 & R3).
    split; [exact R1|]. rewrite units_app, R2. split; [exact S2|]. rewrite R3. exact S3.
Qed.

Lemma units_spec : forall n ops s e, honest_ops ops -> prun (pst_init n) ops = Some (s, e) ->
  units e = map (fun x : list Z * bool => if snd x then dispose (fst x) else fst x) (fst (raw_units ops [])) /\
  cur_data s = snd (raw_units ops []).
Proof.
  intros n ops s e Hh H. destruct (run_spec _ _ _ _ (inv_init n) Hh H) as (_ & A & B). auto.
Qed.

(** *** The grouping itself. *)
Ltac dest_open d := match goal with |- context [opener d && ?x] => destruct (opener d && x) end.
Lemma raw_concat_gen : forall ops cur,
  concat (map fst (fst (raw_units ops cur))) ++ snd (raw_units ops cur) = cur ++ concat (sent ops).
Proof.
  induction ops as [|o t IH]; intros cur.
  - cbn. now rewrite app_nil_r.
  - destruct o as [p| |k]; cbn [raw_units sent flat_map].
    + destruct (payload p) as [d|].
      * dest_open d.
        -- specialize (IH d). destruct (raw_units t d) as [us r]. cbn in *.
           rewrite <- app_assoc, IH. reflexivity.
        -- rewrite IH. cbn. fold (sent t). now rewrite <- app_assoc.
      * rewrite IH. reflexivity.
    + destruct cur as [|c cd].
      * rewrite IH. reflexivity.
      * specialize (IH []). destruct (raw_units t []) as [us r]. cbn in *.
        rewrite <- app_assoc, IH. reflexivity.
    + rewrite IH. reflexivity.
Qed.

Lemma raw_concat : forall ops,
  concat (map fst (fst (raw_units ops []))) ++ snd (raw_units ops []) = concat (sent ops).
Proof. intros. apply raw_concat_gen. Qed.


Lemma swp_app : forall a b, starts_with_prefix a -> starts_with_prefix (a ++ b).
Proof.
  intros a b (H1 & H2 & H3). destruct a as [|x [|y [|z a]]]; try discriminate. repeat split; assumption.
Qed.
Lemma opener_app : forall a b, 4 <= Z.of_nat (length a) -> opener (a ++ b) = opener a.
Proof.
  intros a b H. unfold opener, type_of. rewrite app_nth1 by lia. reflexivity.
Qed.
Lemma payload_swp : forall p d, (forall q, p = Some q -> honest q) -> payload p = Some d -> starts_with_prefix d.
Proof.
  intros p d Hh H. destruct (payload_some _ _ H) as (q & b & -> & H2 & H3 & (A & B & C) & ->).
  replace (Z.to_nat (pk_len q)) with (S (S (S (Z.to_nat (pk_len q) - 3)))) by lia.
  destruct b as [|x [|y [|z b]]]; try discriminate. repeat split; assumption.
Qed.

Lemma raw_openings_gen : forall ops cur first, honest_ops ops ->
  (cur = [] -> first = true) ->
  (cur <> [] -> 4 <= Z.of_nat (length cur) /\ starts_with_prefix cur /\ (first = true \/ opener cur = true)) ->
  openings first (fst (raw_units ops cur)).
Proof.
  induction ops as [|o t IH]; intros cur first Hh He Hc; [exact Logic.I|].
  apply honest_ops_cons in Hh. destruct Hh as [Ho Ht].
  destruct o as [p| |k]; cbn [raw_units].
  - destruct (payload p) as [d|] eqn:Ed; [|now apply IH].
    assert (Hp: forall q, p = Some q -> honest q) by (intros q ->; apply Ho; reflexivity).
    pose proof (payload_length _ _ Hp Ed) as Hd. pose proof (payload_swp _ _ Hp Ed) as Hs.
    destruct cur as [|c cd].
    + rewrite andb_false_r. cbn [app]. apply IH; auto.
    + destruct (Hc ltac:(discriminate)) as (C1 & C2 & C3).
      destruct (opener d) eqn:Eo; cbn [negb andb].
      * specialize (IH d false Ht). destruct (raw_units t d) as [us r]. cbn [fst openings].
        split; [exact C2|]. split; [exact C3|]. cbn [fst negb] in IH. apply IH.
        -- intros ->. cbn in Hd. lia.
        -- intros _. auto.
      * apply IH; [exact Ht|discriminate|]. intros _. rewrite app_length, Nat2Z.inj_add.
        split; [lia|]. split; [now apply swp_app|]. rewrite opener_app by exact C1. exact C3.
  - destruct cur as [|c cd]; [now apply IH|].
    destruct (Hc ltac:(discriminate)) as (C1 & C2 & C3).
    specialize (IH [] true Ht). destruct (raw_units t []) as [us r]. cbn [fst openings negb].
    split; [exact C2|]. split; [exact C3|]. cbn [fst] in IH. apply IH; [reflexivity|congruence].
  - now apply IH.
Qed.

Lemma raw_openings : forall ops, honest_ops ops -> openings true (fst (raw_units ops [])).
Proof. intros. apply raw_openings_gen; auto. congruence. Qed.

(** Splitting a packet in front of a start code that does not open a unit. *)
Lemma raw_split : forall a b ops1 ops2 cur,
  starts_with_prefix a -> 4 <= Z.of_nat (length a) ->
  starts_with_prefix b -> 4 <= Z.of_nat (length b) -> opener b = false ->
  raw_units (ops1 ++ PSend (Some (Packet (Some (a ++ b)) (Z.of_nat (length (a ++ b))))) :: ops2) cur =
  raw_units (ops1 ++ PSend (Some (Packet (Some a) (Z.of_nat (length a))))
                  :: PSend (Some (Packet (Some b) (Z.of_nat (length b)))) :: ops2) cur.
Proof.
  intros a b ops1 ops2 cur Ha La Hb Lb Ob. revert cur.
  assert (P: forall d, starts_with_prefix d -> 4 <= Z.of_nat (length d) ->
             payload (Some (Packet (Some d) (Z.of_nat (length d)))) = Some d).
  { intros d (D1 & D2 & D3) Ld. cbn [payload pk_data pk_len].
    replace (4 <=? Z.of_nat (length d)) with true by lia.
    rewrite Nat2Z.id, firstn_all. destruct d as [|x [|y [|z d]]]; try discriminate. cbn in D1, D2, D3.
    apply Some_inj in D1, D2, D3. subst. reflexivity. }
  induction ops1 as [|o t IH]; intros cur.
  - cbn [app]. cbn [raw_units]. rewrite !P; try assumption.
    2:{ now apply swp_app. } 2:{ rewrite app_length. lia. }
    rewrite opener_app by exact La. rewrite Ob. cbn [andb].
    destruct (opener a && negb match cur with [] => true | _ :: _ => false end).
    + reflexivity.
    + rewrite app_assoc. reflexivity.
  - cbn [app]. destruct o as [p| |k]; cbn [raw_units].
    + destruct (payload p) as [d|]; [|apply IH]. dest_open d; [rewrite IH; reflexivity|apply IH].
    + destruct cur; rewrite IH; reflexivity.
    + apply IH.
Qed.

(** *** Acceptance and capacity. *)
Lemma raw_prefix_len : forall ops1 ops2 cur,
  exists rest, In rest (map fst (fst (raw_units (ops1 ++ ops2) cur)) ++ [snd (raw_units (ops1 ++ ops2) cur)]) /\
    (length (snd (raw_units ops1 cur)) <= length rest)%nat.
Proof.
  induction ops1 as [|o t IH]; intros ops2 cur.
  - cbn [app raw_units snd].
    revert cur. induction ops2 as [|o t IH]; intros cur.
    + cbn. exists cur. auto.
    + destruct o as [p| |k]; cbn [raw_units].
      * destruct (payload p) as [d|]; [|apply IH].
        dest_open d.
        -- destruct (raw_units t d) as [us r]. exists cur. split; [left; reflexivity|lia].
        -- destruct (IH (cur ++ d)) as (rest & R1 & R2). exists rest. split; [exact R1|].
           rewrite app_length in R2. lia.
      * destruct cur as [|c cd]; [apply IH|]. destruct (raw_units t []) as [us r].
        exists (c :: cd). split; [left; reflexivity|lia].
      * apply IH.
  - cbn [app]. destruct o as [p| |k]; cbn [raw_units].
    + destruct (payload p) as [d|]; [|apply IH]. dest_open d.
      * destruct (IH ops2 d) as (rest & R1 & R2). exists rest.
        destruct (raw_units t d) as [us r], (raw_units (t ++ ops2) d) as [us2 r2].
        cbn in *. auto.
      * apply IH.
    + destruct cur as [|c cd]; [apply IH|].
      destruct (IH ops2 []) as (rest & R1 & R2). exists rest.
      destruct (raw_units t []) as [us r], (raw_units (t ++ ops2) []) as [us2 r2]. cbn in *. auto.
    + apply IH.
Qed.


Lemma sent_app : forall a b, sent (a ++ b) = sent a ++ sent b.
Proof. intros. apply flat_map_app. Qed.

Lemma no_undef : forall n ops1 o ops2 s e,
  honest_ops (ops1 ++ o :: ops2) ->
  (forall d, In d (sent (ops1 ++ o :: ops2)) -> Z.of_nat (length d) <= MAX_ES_FRAME_SIZE) ->
  (forall u, In u (all_raw (ops1 ++ o :: ops2)) -> Z.of_nat (length u) <= 2000000000 - MAX_ES_FRAME_SIZE) ->
  prun (pst_init n) ops1 = Some (s, e) -> pstep s o <> SUndef.
Proof.
  intros n ops1 o ops2 s e Hh Hs Hu Hr.
  assert (H1: honest_ops ops1) by (intros q Hq; apply Hh, in_or_app; now left).
  assert (H2: honest_op o) by (intros q ->; apply Hh, in_or_app; right; left; reflexivity).
  destruct (run_spec _ _ _ _ (inv_init n) H1 Hr) as (Hi & _ & Hc). cbn [cur_data pst_init ps_cur] in Hc.
  destruct (raw_prefix_len ops1 (o :: ops2) []) as (rest & R1 & R2). specialize (Hu rest R1).
  change (cur_data (pst_init n)) with (@nil Z) in Hc. rewrite <- Hc in R2.
  destruct o as [p| |k]; cbn [pstep].
  - assert (Hp: forall q, p = Some q -> honest q) by (intros q ->; apply H2; reflexivity).
    rewrite send_spec by exact Hp. destruct (payload p) as [d|] eqn:Ed; [|discriminate].
    pose proof (payload_length _ _ Hp Ed) as Hd.
    assert (Hm: Z.of_nat (length d) <= MAX_ES_FRAME_SIZE).
    { apply Hs. rewrite sent_app. apply in_or_app. right. cbn. rewrite Ed. now left. }
    destruct (pack_cases s d Hi Hd) as [[P _]|[[P Q]|[(s1 & P & _)|(s1 & u & P & _)]]]; rewrite P; try discriminate.
    unfold MAX_ES_FRAME_SIZE in *. lia.
  - unfold flush. destruct (ps_cur s); [|discriminate]. destruct (4 <=? _); discriminate.
  - unfold unload. destruct (nth_error _ _); discriminate.
Qed.

(** A well-formed packet is accepted, or the caller sleeps because no buffer is idle. *)
Lemma send_accept : forall n ops s e p q, honest_ops ops -> prun (pst_init n) ops = Some (s, e) ->
  p = Some q -> honest q -> well_formed p ->
  pk_len q <= MAX_ES_FRAME_SIZE -> Z.of_nat (length (snd (raw_units ops []))) <= 2000000000 - MAX_ES_FRAME_SIZE ->
  (exists s' e', send s p = SOk s' (e' ++ [EvDefault]) /\ ~ In EvError e') \/
  (send s p = SBlock /\ ps_idle s = []).
Proof.
  intros n ops s e p q Hh Hr -> Hq Hw Hl Hu.
  destruct (run_spec _ _ _ _ (inv_init n) Hh Hr) as (Hi & _ & Hc).
  change (cur_data (pst_init n)) with (@nil Z) in Hc.
  assert (Hp: forall q0, Some q = Some q0 -> honest q0) by (intros q0 E; apply Some_inj in E; now subst).
  rewrite send_spec by exact Hp. apply payload_wf in Hw. destruct Hw as [d Ed]. rewrite Ed.
  pose proof (payload_length _ _ Hp Ed) as Hd.
  assert (Hm: Z.of_nat (length d) <= MAX_ES_FRAME_SIZE).
  { destruct (payload_some _ _ Ed) as (q1 & b & E1 & E2 & E3 & _ & ->). apply Some_inj in E1. subst q1.
    rewrite firstn_length. lia. }
  destruct (pack_cases s d Hi Hd) as [[P Q]|[[P Q]|[(s1 & P & _)|(s1 & u & P & _)]]]; rewrite P.
  - right. auto.
  - exfalso. rewrite Hc in Q. unfold MAX_ES_FRAME_SIZE in *. lia.
  - left. exists s1, []. cbn. auto.
  - left. eexists. exists [EvUnit (u_data u)]. split; [reflexivity|]. cbn. intuition discriminate.
Qed.

(** Buffers are neither lost nor created. *)
Definition buffers (s : pst) : nat :=
  (length (ps_idle s) + length (ps_busy s) + match ps_cur s with Some _ => 1 | None => 0 end)%nat.

Lemma pack_count : forall s d s' r, pack s d = POk s' r ->
  (buffers s' + match r with Some _ => 1 | None => 0 end = buffers s)%nat.
Proof.
  intros s d s' r H. unfold pack in H. destruct (get d 3) as [x|]; [|discriminate].
  destruct (ps_cur s) as [u|] eqn:Ec.
  - destruct (grow u _) as [v| | |]; try discriminate.
    destruct (is_unit x && _).
    + destruct (ps_idle s) as [|w idle] eqn:Ei; [discriminate|].
      destruct (copy_in w d); try discriminate. destruct (dispose_unit v); try discriminate.
      inversion H; subst. unfold buffers. rewrite Ec, Ei. cbn. lia.
    + destruct (copy_in v d); try discriminate. inversion H; subst. unfold buffers. rewrite Ec. cbn. lia.
  - destruct (ps_idle s) as [|u idle] eqn:Ei; [discriminate|].
    destruct (grow u _) as [v| | |]; try discriminate.
    destruct (is_unit x && _).
    + destruct idle as [|w idle]; [discriminate|].
      destruct (copy_in w d); try discriminate. destruct (dispose_unit v); try discriminate.
      inversion H; subst. unfold buffers. rewrite Ec, Ei. cbn. lia.
    + destruct (copy_in v d); try discriminate. inversion H; subst. unfold buffers. rewrite Ec, Ei. cbn. lia.
Qed.

Lemma step_count : forall s o s' e, pstep s o = SOk s' e -> buffers s' = buffers s.
Proof.
  intros s o s' e H. destruct o as [p| |k]; cbn [pstep] in H.
  - unfold send in H.
    assert (T: forall p, match pack s p with PBlock => SBlock | PUndef => SUndef | POk s None => SOk s [EvDefault]
                 | POk s (Some u) => SOk (Pst (ps_cur s) (ps_idle s) (ps_busy s ++ [u])) [EvUnit (u_data u); EvDefault] end = SOk s' e ->
               buffers s' = buffers s).
    { intros d T. destruct (pack s d) as [| |s1 [u|]] eqn:P; try discriminate; apply pack_count in P;
        inversion T; subst; unfold buffers in *; cbn [ps_idle ps_busy ps_cur].
      - rewrite app_length. cbn [length]. lia.
      - lia. }
    destruct p as [p|]; [|now inversion H].
    destruct (pk_data p); [|now inversion H].
    destruct (_ <=? _); [now inversion H|]. destruct (_ <? _); [now inversion H|].
    destruct (get l 0); [|discriminate]. destruct (get l 1); [|discriminate].
    destruct (get l 2); [|discriminate].
    destruct (_ || _); [now inversion H|]. destruct (_ <? _); [discriminate|]. now apply T in H.
  - unfold flush in H. destruct (ps_cur s) as [u|] eqn:Ec; [|inversion H; subst; reflexivity].
    destruct (_ <=? _); inversion H; subst; [|reflexivity]. unfold buffers. cbn. rewrite Ec, app_length. cbn. lia.
  - unfold unload in H. destruct (nth_error _ _) eqn:E; [|discriminate].
    remember (skipn (S k) (ps_busy s)) as sk eqn:Esk. apply (f_equal (@length unit_t)) in Esk.
    rewrite skipn_length in Esk. injection H as <- <-.
    unfold buffers. cbn [ps_idle ps_busy ps_cur]. rewrite !app_length, firstn_length.
    assert (k < length (ps_busy s))%nat by (apply nth_error_Some; congruence). cbn [length]. lia.
Qed.

Lemma run_count : forall ops s s' e, prun s ops = Some (s', e) -> buffers s' = buffers s.
Proof.
  induction ops as [|o t IH]; intros s s' e H; cbn [prun] in H.
  - apply Some_inj, pair_equal_spec in H. destruct H as [<- _]. reflexivity.
  - destruct (pstep s o) as [| |s1 e1] eqn:Es; try discriminate.
    destruct (prun s1 t) as [[s2 e2]|] eqn:Er; [|discriminate].
    apply Some_inj, pair_equal_spec in H. destruct H as [<- _].
    rewrite (IH _ _ _ Er). now apply step_count in Es.
Qed.

(** A long packet that opens a unit while another is pending overflows the fresh
    buffer. *)
Lemma overflow : forall m : nat, Z.of_nat m + 4 > MAX_ES_FRAME_SIZE ->
  Z.of_nat m <= 100000000 ->
  exists s e, prun (pst_init 3) [PSend (Some (Packet (Some [0; 0; 1; 176]) 4))] = Some (s, e) /\
    pstep s (PSend (Some (Packet (Some ([0; 0; 1; 179] ++ repeat 7 m)) (Z.of_nat m + 4)))) = SUndef.
Proof.
  intros m Hm Hm2. eexists. eexists. split; [vm_compute; reflexivity|].
  cbn [pstep]. rewrite send_spec.
  2:{ intros q E d Ed. apply Some_inj in E. subst q. cbn [pk_data pk_len] in *. apply Some_inj in Ed. subst d.
      rewrite app_length, repeat_length. cbn [length]. lia. }
  cbn [payload pk_data pk_len]. replace (4 <=? Z.of_nat m + 4) with true by lia.
  cbn [app]. replace (Z.to_nat (Z.of_nat m + 4)) with (S (S (S (S m)))) by lia.
  cbn [firstn]. rewrite firstn_all2 by (rewrite repeat_length; lia).
  unfold pack. change (get (0 :: 0 :: 1 :: 179 :: repeat 7 m) 3) with (Some 179).
  cbn [ps_cur ps_idle]. set (d := 0 :: 0 :: 1 :: 179 :: repeat 7 m).
  assert (Hd: Z.of_nat (length d) = Z.of_nat m + 4) by (unfold d; cbn [length]; rewrite repeat_length; lia).
  unfold grow, es_unit_alloc.
  match goal with |- context [u_len ?u] => change (u_len u) with 4 end. cbn [u_size].
  rewrite !Hd. unfold INT_MAX, UNIT_HEADER. unfold MAX_ES_FRAME_SIZE in *.
  replace (2147483647 <? 4 + (Z.of_nat m + 4)) with false by lia.
  replace (4000000 <? 4 + (Z.of_nat m + 4)) with true by lia.
  replace (2147483647 <? 4 + (Z.of_nat m + 4) + 4000000 * 2) with false by lia.
  replace (2147483647 <? 256 + (4 + (Z.of_nat m + 4) + 4000000 * 2)) with false by lia.
  cbn [bindo u_cap]. replace (4 + (Z.of_nat m + 4) + 4000000 * 2 <? 4) with false by lia.
  cbn [u_data]. match goal with |- context [is_unit 179 && (0 <? ?x)] => change (is_unit 179 && (0 <? x)) with true end.
  cbv iota. unfold copy_in at 1. cbn [u_cap].
  match goal with |- context [u_len ?u] => change (u_len u) with 0 end.
  rewrite Hd. replace (4000000 <? 0 + (Z.of_nat m + 4)) with true by lia. reflexivity.
Qed.
