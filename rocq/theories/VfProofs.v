(** The vector fill functions against the C ones. *)
From Coq Require Import ZArith List Bool Lia.
From Verif Require Import CBase MemModel MemProofs SaoModel SaoProofs NbModel IprModel IprSpec EgModel EgSpec EgProofs EgProofsB VxModelBase VfModel.
Import ListNotations.
Open Scope Z_scope.

Lemma in_range a n q : (a <=? q) && (q <? a + n) = true <-> a <= q < a + n.
Proof. destruct (Z.leb_spec a q), (Z.ltb_spec q (a + n)); cbn [andb]; split; intros; try discriminate; try reflexivity; lia. Qed.
Lemma to_u8_id v : 0 <= v <= 255 -> to_u8 v = v.
Proof. intros H. unfold to_u8. apply Z.mod_small. lia. Qed.

Lemma lines16_ok al base n a r m : (al = true -> (base + a) mod 16 = 0) ->
  exists m', lines16 al base n a r m = Done m' /\
    forall q, m' q = if (a <=? q) && (q <? a + 16 * Z.of_nat n) then r ((q - a) / 16) ((q - a) mod 16) else m q.
Proof.
  intros A. induction n as [|n IH].
  - exists m. split; [reflexivity|]. intros q. destruct (Z.leb_spec a q), (Z.ltb_spec q (a + 16 * Z.of_nat 0)); cbn [andb]; try reflexivity; lia.
  - destruct IH as (m' & E & V). cbn [lines16]. rewrite E. cbn [bindo].
    assert (Al : al && negb ((base + (a + 16 * Z.of_nat n)) mod 16 =? 0) = false).
    { destruct al; [|reflexivity]. replace (base + (a + 16 * Z.of_nat n)) with (base + a + Z.of_nat n * 16) by ring.
      rewrite Z.mod_add by lia. rewrite (A eq_refl). reflexivity. }
    rewrite Al. eexists. split; [reflexivity|]. intros q. unfold store16, store_n. rewrite V. clear - A.
    destruct (Z.leb_spec (a + 16 * Z.of_nat n) q), (Z.ltb_spec q (a + 16 * Z.of_nat n + 16)), (Z.leb_spec a q), (Z.ltb_spec q (a + 16 * Z.of_nat (S n))), (Z.ltb_spec q (a + 16 * Z.of_nat n));
      cbn [andb]; try reflexivity; try lia.
    assert (D : (q - a) / 16 = Z.of_nat n) by (symmetry; apply (Z.div_unique (q - a) 16 _ (q - (a + 16 * Z.of_nat n))); lia).
    assert (M : (q - a) mod 16 = q - (a + 16 * Z.of_nat n)) by (symmetry; apply (Z.mod_unique (q - a) 16 (Z.of_nat n)); lia).
    rewrite D, M. reflexivity.
Qed.
Lemma trips_mul n : 0 <= n -> n mod 16 = 0 -> 16 * Z.of_nat (trips n) = n.
Proof.
  intros H M. unfold trips. pose proof (Z.div_mod n 16 ltac:(lia)) as D. rewrite M in D.
  assert (E : (n + 15) / 16 = n / 16) by (symmetry; apply (Z.div_unique (n + 15) 16 _ 15); lia).
  rewrite E, Z2Nat.id by (apply Z.div_pos; lia). lia.
Qed.

Definition side_size (n : Z) : Prop := In n [4; 8; 16; 32; 64].
Lemma sizes n : side_size n -> n = 4 \/ n = 8 \/ (16 <= n /\ n mod 16 = 0).
Proof. intros H. cbn in H. destruct H as [<-|[<-|[<-|[<-|[<-|[]]]]]]; (left; reflexivity) || (right; left; reflexivity) || (right; right; split; [lia|reflexivity]). Qed.

Lemma vcopy_ok base n a src s m : side_size n -> (16 <= n -> (base + a) mod 16 = 0) ->
  exists m', vcopy base n a src s m = Done m' /\ forall q, m' q = copy_p m a n (fun i => src (s + i)) q.
Proof.
  intros S A. unfold vcopy. destruct (sizes n S) as [-> |[-> |[G M]]].
  - eexists. split; [reflexivity|]. reflexivity.
  - eexists. split; [reflexivity|]. intros q. rewrite copy_at. reflexivity.
  - destruct (Z.eqb_spec n 4); [lia|]. destruct (Z.eqb_spec n 8); [lia|].
    destruct (lines16_ok true base (trips n) a (fun k => load src (s + 16 * k)) m (fun _ => A G)) as (m' & E & V).
    exists m'. split; [exact E|]. intros q. rewrite V, copy_at, trips_mul by (assumption || lia).
    destruct ((a <=? q) && (q <? a + n)); [|reflexivity]. unfold load. f_equal. pose proof (Z.div_mod (q - a) 16 ltac:(lia)). lia.
Qed.
Lemma vrepeat_ok al base n a v m : side_size n -> 0 <= v <= 255 -> (al = true -> 16 <= n -> (base + a) mod 16 = 0) ->
  exists m', vrepeat al base n a v m = Done m' /\ forall q, m' q = repeat_p m a v n q.
Proof.
  intros S B A. unfold vrepeat. rewrite (to_u8_id v B). destruct (sizes n S) as [-> |[-> |[G M]]].
  - eexists. split; [reflexivity|]. reflexivity.
  - eexists. split; [reflexivity|]. intros q. rewrite repeat_at. unfold store8, store_n, set1_epi8, mk8. rewrite (to_u8_id v B). reflexivity.
  - destruct (Z.eqb_spec n 4); [lia|]. destruct (Z.eqb_spec n 8); [lia|].
    destruct (lines16_ok al base (trips n) a (fun _ => set1_epi8 v) m (fun e => A e G)) as (m' & E & V).
    exists m'. split; [exact E|]. intros q. rewrite V, repeat_at, trips_mul by (assumption || lia).
    unfold set1_epi8, mk8. rewrite (to_u8_id v B). reflexivity.
Qed.

Definition column_at (c : column) (k : Z) : Z := match c with Cached lcu pl => lcu (pl - k) | InPic pic p st => pic (p + (k - 1) * st) end.
Lemma down_at m a n (f : Z -> Z) q :
  floop 0 n (fun y (m : mem) => upd m (a - y) (f y)) m q = if (a - n <? q) && (q <=? a) then f (a - q) else m q.
Proof.
  destruct (Z.le_gt_cases n 0) as [N|N].
  - rewrite floop_none by lia. destruct (Z.ltb_spec (a - n) q), (Z.leb_spec q a); cbn [andb]; try reflexivity; lia.
  - enough (H : forall k, 0 <= k <= n -> forall t, t = floop 0 k (fun y (m : mem) => upd m (a - y) (f y)) m ->
      t q = if (a - k <? q) && (q <=? a) then f (a - q) else m q) by (apply (H n ltac:(lia) _ eq_refl)).
    intros k Hk t ->.
    apply (floop_inv (fun k (t : mem) => t q = if (a - k <? q) && (q <=? a) then f (a - q) else m q) 0 k); [lia| |].
    + destruct (Z.ltb_spec (a - 0) q), (Z.leb_spec q a); cbn [andb]; try reflexivity; lia.
    + intros x t Hx E. unfold upd. destruct (Z.eqb_spec q (a - x)) as [Q|Q].
      * destruct (Z.ltb_spec (a - (x + 1)) q), (Z.leb_spec q a); cbn [andb]; try lia. f_equal. lia.
      * rewrite E. destruct (Z.ltb_spec (a - (x + 1)) q), (Z.ltb_spec (a - x) q), (Z.leb_spec q a); cbn [andb]; try reflexivity; lia.
Qed.
Lemma near_at c ep n m q : near c ep n m q = copy_p m (ep - n) n (fun i => column_at c (n - i)) q.
Proof.
  rewrite copy_at. destruct c; cbn [near column_at].
  - rewrite copy_at. destruct (_ && _); [|reflexivity]. f_equal. lia.
  - rewrite (down_at m (ep - 1) n (fun y => pic (p + y * st))).
    destruct (Z.ltb_spec (ep - 1 - n) q), (Z.leb_spec q (ep - 1)), (Z.leb_spec (ep - n) q), (Z.ltb_spec q (ep - n + n)); cbn [andb]; try reflexivity; try lia.
    f_equal. lia.
Qed.
Lemma far_at c ep n m q : far c ep n m q = copy_p m (ep - 2 * n) n (fun i => column_at c (2 * n - i)) q.
Proof.
  rewrite copy_at. destruct c; cbn [far column_at].
  - rewrite copy_at. destruct (_ && _); [|reflexivity]. f_equal. lia.
  - rewrite (down_at m (ep - n - 1) n (fun y => pic (p + n * st + y * st))).
    destruct (Z.ltb_spec (ep - n - 1 - n) q), (Z.leb_spec q (ep - n - 1)), (Z.leb_spec (ep - 2 * n) q), (Z.ltb_spec q (ep - 2 * n + n)); cbn [andb]; try reflexivity; try lia.
    f_equal. lia.
Qed.

Section VFill.
  Variables (base dc : Z) (src : mem) (s : Z) (col : column) (c1 c2 c3 ep : Z) (a : nbs) (w h : Z) (m0 : mem).
  Hypothesis Sw : side_size w.
  Hypothesis Sh : side_size h.
  Hypothesis Al : 16 <= w -> (base + ep + 1) mod 16 = 0.
  Hypothesis Dc : 0 <= dc <= 255.
  Hypothesis Hsrc : forall q, 0 <= src q <= 255.
  Hypothesis Hcol : forall k, 0 <= column_at col k <= 255.

  Definition top_at (k : Z) : Z := src (s + (k - 1)).
  (** The byte behind the border, and whether it is left with the default value. *)
  Definition behind : Z := ep + 2 * w + 1.
  Definition off (v : mem) (m : mem) (x : bool) : Prop := forall q, v q = if x && (q =? behind) then dc else m q.

  Lemma size_pos n : side_size n -> 4 <= n.
  Proof. intros S. destruct (sizes n S) as [-> |[-> |[G _]]]; lia. Qed.

  Lemma off_copy v m x b n f g : off v m x -> (x = true -> b + n <= behind \/ behind < b) -> (forall i, 0 <= i < n -> f i = g i) -> off (copy_p v b n f) (copy_p m b n g) x.
  Proof.
    intros O F FG q. rewrite !copy_at, O. destruct (Z.leb_spec b q), (Z.ltb_spec q (b + n)); cbn [andb]; try reflexivity.
    destruct x; cbn [andb]; [|apply FG; lia]. specialize (F eq_refl). destruct (Z.eqb_spec q behind); [lia|apply FG; lia].
  Qed.
  Lemma off_repeat v m x b n u : off v m x -> (x = true -> b + n <= behind \/ behind < b) -> off (repeat_p v b u n) (repeat_p m b u n) x.
  Proof. intros O F. apply (off_copy v m x b n (fun _ => u) (fun _ => u) O F). reflexivity. Qed.
  Lemma off_ext v v' m x : off v m x -> (forall q, v' q = v q) -> off v' m x.
  Proof. intros O E q. rewrite E. apply O. Qed.
  Lemma off_read v m x q : off v m x -> q <> behind -> v q = m q.
  Proof. intros O Q. rewrite O. destruct (Z.eqb_spec q behind); [lia|]. rewrite andb_false_r. reflexivity. Qed.

  Lemma vfill_ok : exists m', vfill base dc src s col c1 c2 c3 ep a w h m0 = Done m' /\
    off m' (fill_ref dc top_at (column_at col) c1 c2 c3 ep a w h m0) (negb (0 <? pr w h)).
  Proof.
    pose proof (size_pos w Sw) as W. pose proof (size_pos h Sh) as H.
    assert (S1 : Z.shiftl (h + w) 1 = 2 * (h + w)) by (rewrite Z.shiftl_mul_pow2 by lia; lia).
    assert (S2 : Z.shiftl h 1 = 2 * h) by (rewrite Z.shiftl_mul_pow2 by lia; lia).
    unfold vfill. rewrite S1, S2. set (k := 2 * (h + w) + 1). cbv zeta.
    set (j := Z.shiftl (Z.shiftr k 4) 4).
    assert (J : j = 16 * (k / 16)) by (unfold j; rewrite Z.shiftl_mul_pow2, Z.shiftr_div_pow2 by lia; change (2 ^ 4) with 16; ring).
    assert (K : 0 <= k) by (unfold k; lia).
    assert (Jk : 0 <= j <= k) by (rewrite J; pose proof (Z.div_pos k 16 K ltac:(lia)); pose proof (Z.mul_div_le k 16 ltac:(lia)); lia).
    assert (Jm : j mod 16 = 0) by (rewrite J, Z.mul_comm; apply Z.mod_mul; lia).
    destruct (lines16_ok false base (trips j) (ep - 2 * h) (fun _ => set1_epi8 dc) m0 ltac:(discriminate)) as (v0 & E0 & V0).
    rewrite E0. cbn [bindo]. clear E0. rewrite (to_u8_id dc Dc).
    set (v1 := upd (repeat_p v0 (ep - 2 * h + j) dc (k - j + 1)) (ep + 2 * w) dc).
    assert (O1 : off v1 (m1 dc ep w h m0) true).
    { intros q. unfold v1, upd. unfold m1. rewrite !repeat_at, V0, trips_mul by (assumption || lia). unfold set1_epi8, mk8. rewrite (to_u8_id dc Dc). cbn [andb].
      unfold behind. clear - Jk W H. unfold k in *. clearbody j.
      destruct (Z.eqb_spec q (ep + 2 * w)), (Z.eqb_spec q (ep + 2 * w + 1)),
        (Z.leb_spec (ep - 2 * h + j) q), (Z.ltb_spec q (ep - 2 * h + j + (2 * (h + w) + 1 - j + 1))),
        (Z.leb_spec (ep - 2 * h) q), (Z.ltb_spec q (ep - 2 * h + (2 * (h + w) + 1))), (Z.ltb_spec q (ep - 2 * h + j)); cbn [andb]; try reflexivity; lia. }
    clearbody v1. clear V0.
    (* above *)
    assert (O2 : exists v2, (if n_top a then vcopy base w (ep + 1) src s v1 else Done v1) = Done v2 /\ off v2 (m2 dc top_at ep a w h m0) true).
    { unfold m2. destruct (n_top a); [|exists v1; split; [reflexivity|exact O1]].
      destruct (vcopy_ok base w (ep + 1) src s v1 Sw) as (v2 & E2 & V2); [intros G; rewrite Z.add_assoc; exact (Al G)|].
      exists v2. split; [exact E2|]. eapply off_ext; [|exact V2]. apply off_copy; [exact O1|unfold behind; lia|].
      intros i Hi. unfold top_at. f_equal. lia. }
    destruct O2 as (v2 & E2 & O2). rewrite E2. cbn [bindo]. clear E2.
    assert (B2 : 0 <= v2 (ep + w) <= 255).
    { rewrite (off_read _ _ _ _ O2) by (unfold behind; lia). rewrite m2_in by lia. unfold top_at. destruct (n_top a); [apply Hsrc|exact Dc]. }
    assert (A3 : 16 <= w -> (base + (ep + w + 1)) mod 16 = 0).
    { intros G. destruct (sizes w Sw) as [-> |[-> |[_ M]]]; [lia|lia|].
      replace (base + (ep + w + 1)) with (base + ep + 1 + w) by ring. rewrite Z.add_mod, M, (Al G) by lia. reflexivity. }
    assert (O3 : exists v3, (if n_top_right a then vcopy base w (ep + w + 1) src (s + w) v2 else vrepeat true base w (ep + w + 1) (v2 (ep + w)) v2) = Done v3 /\
      off v3 (m3 dc top_at ep a w h m0) true).
    { unfold m3. destruct (n_top_right a).
      - destruct (vcopy_ok base w (ep + w + 1) src (s + w) v2 Sw A3) as (v3 & E3 & V3). exists v3. split; [exact E3|].
        eapply off_ext; [|exact V3]. apply off_copy; [exact O2|unfold behind; lia|]. intros i Hi. unfold top_at. f_equal. lia.
      - destruct (vrepeat_ok true base w (ep + w + 1) (v2 (ep + w)) v2 Sw B2 (fun _ => A3)) as (v3 & E3 & V3). exists v3. split; [exact E3|].
        eapply off_ext; [|exact V3]. rewrite <- (off_read _ _ _ (ep + w) O2) by (unfold behind; lia). apply off_repeat; [exact O2|unfold behind; lia]. }
    destruct O3 as (v3 & E3 & O3). rewrite E3. cbn [bindo]. clear E3.
    fold (pr w h). set (v4 := if 0 <? pr w h then repeat_p v3 (ep + 2 * w + 1) (v3 (ep + 2 * w)) (pr w h) else v3).
    assert (O4 : off v4 (m4 dc top_at ep a w h m0) (negb (0 <? pr w h))).
    { unfold v4, m4. destruct (Z.ltb_spec 0 (pr w h)) as [P|P]; cbn [negb]; [|exact O3].
      intros q. rewrite !repeat_at. rewrite (off_read _ _ _ (ep + 2 * w) O3) by (unfold behind; lia). rewrite (O3 q). cbn [andb]. unfold behind.
      destruct (Z.leb_spec (ep + 2 * w + 1) q), (Z.ltb_spec q (ep + 2 * w + 1 + pr w h)), (Z.eqb_spec q (ep + 2 * w + 1)); cbn [andb]; try reflexivity; lia. }
    clearbody v4. set (x := negb (0 <? pr w h)) in *. clearbody x.
    set (v5 := if n_left a then near col ep h v4 else v4).
    assert (O5 : off v5 (m5 dc top_at (column_at col) ep a w h m0) x).
    { unfold v5, m5. destruct (n_left a); [|exact O4]. eapply off_ext; [|intros q; apply near_at].
      apply off_copy; [exact O4|unfold behind; lia|reflexivity]. }
    clearbody v5.
    assert (B5 : 0 <= v5 (ep - h) <= 255).
    { rewrite (off_read _ _ _ _ O5) by (unfold behind; lia). rewrite m5_in by lia. destruct (n_left a); [apply Hcol|exact Dc]. }
    assert (O6 : exists v6, (if n_left_down a then Done (far col ep h v5) else vrepeat false base h (ep - 2 * h) (v5 (ep - h)) v5) = Done v6 /\
      off v6 (m6 dc top_at (column_at col) ep a w h m0) x).
    { unfold m6. destruct (n_left_down a).
      - eexists. split; [reflexivity|]. eapply off_ext; [|intros q; apply far_at]. apply off_copy; [exact O5|unfold behind; lia|reflexivity].
      - destruct (vrepeat_ok false base h (ep - 2 * h) (v5 (ep - h)) v5 Sh B5 ltac:(discriminate)) as (v6 & E6 & V6). exists v6. split; [exact E6|].
        eapply off_ext; [|exact V6]. rewrite <- (off_read _ _ _ (ep - h) O5) by (unfold behind; lia). apply off_repeat; [exact O5|unfold behind; lia]. }
    destruct O6 as (v6 & E6 & O6). rewrite E6. cbn [bindo]. clear E6. fold (pl w h).
    eexists. split; [reflexivity|].
    change (fill_ref dc top_at (column_at col) c1 c2 c3 ep a w h m0) with (m8 dc top_at (column_at col) c1 c2 c3 ep a w h m0).
    unfold m8. set (M6 := m6 dc top_at (column_at col) ep a w h m0) in *. unfold m7. fold M6. clearbody M6.
    clear - O6 W H Sw Sh. intros q. specialize (O6 q) as Oq. pose proof (off_read _ _ _ (ep - 2 * h) O6 ltac:(unfold behind; lia)) as R6. unfold behind in *.
    destruct (n_top_left a), (n_top a), (n_left a), (Z.ltb_spec 0 (pl w h)) as [P|P]; unfold upd; rewrite ?repeat_at, ?Oq; unfold upd; rewrite ?R6;
      destruct (Z.eqb_spec q ep), (Z.eqb_spec q (ep + 2 * w + 1)), (Z.eqb_spec (ep - 2 * h) ep), x;
      try (destruct (Z.leb_spec (ep - 2 * h - pl w h) q), (Z.ltb_spec q (ep - 2 * h - pl w h + pl w h))); cbn [andb]; try reflexivity; lia.
  Qed.
End VFill.
