(** Diagonal edge offset kernels. *)
From Coq Require Import ZArith List Bool Lia.
From Verif Require Import CBase MemModel MemProofs HdrModel SaoModel SaoSpec SaoProofs.
Import ListNotations.
Open Scope Z_scope.

Section Diagonal.
  Variables (src : mem) (pd ds ps ss w h depth : Z) (av : avail) (off : Z -> Z) (dst junk : mem).
  Hypotheses (Hw : 1 <= w) (Hh : 2 <= h) (Hds : w <= ds) (Hdep : 0 <= depth) (Hc : corners av).
  Let sx := if a_L av then 0 else 1.
  Let ex := if a_R av then w else w - 1.
  Notation S_ := (sample src ps ss).
  Notation ev := (eval src ps ss depth off).

  Lemma d_sx_range : 0 <= sx <= 1. Proof. unfold sx. destruct (a_L av); lia. Qed.
  Lemma d_ex_range : w - 1 <= ex <= w. Proof. unfold ex. destruct (a_R av); lia. Qed.

  (** Rows that are filtered. *)
  Definition row_on (y : Z) : bool := ((0 <? y) || a_T av) && ((y <? h - 1) || a_D av).

  Lemma usable_135 x y : 0 <= x < w -> 0 <= y < h ->
    usable av w h (x + -1) (y + -1) && usable av w h (x - -1) (y - -1) = row_on y && (sx <=? x) && (x <? ex).
  Proof.
    intros Hx Hy. destruct Hc as (C1 & C2 & C3 & C4). unfold usable, row_on, sx, ex. rewrite C1, C2, C3, C4.
    destruct (a_T av), (a_D av), (a_L av), (a_R av); cbn [andb orb];
      destruct (Z.ltb_spec (y + -1) 0), (Z.ltb_spec (y - -1) 0), (Z.ltb_spec (y + -1) h), (Z.ltb_spec (y - -1) h),
        (Z.ltb_spec 0 y), (Z.ltb_spec y (h - 1)); try lia;
      destruct (Z.ltb_spec (x + -1) 0), (Z.ltb_spec (x - -1) 0), (Z.ltb_spec (x + -1) w), (Z.ltb_spec (x - -1) w); try lia; cbn [andb orb];
      try reflexivity; symmetry; try (apply andb_true_iff; split; lia); try (apply andb_false_iff; lia).
  Qed.
  Lemma usable_45 x y : 0 <= x < w -> 0 <= y < h ->
    usable av w h (x + 1) (y + -1) && usable av w h (x - 1) (y - -1) = row_on y && (sx <=? x) && (x <? ex).
  Proof.
    intros Hx Hy. destruct Hc as (C1 & C2 & C3 & C4). unfold usable, row_on, sx, ex. rewrite C1, C2, C3, C4.
    destruct (a_T av), (a_D av), (a_L av), (a_R av); cbn [andb orb];
      destruct (Z.ltb_spec (y + -1) 0), (Z.ltb_spec (y - -1) 0), (Z.ltb_spec (y + -1) h), (Z.ltb_spec (y - -1) h),
        (Z.ltb_spec 0 y), (Z.ltb_spec y (h - 1)); try lia;
      destruct (Z.ltb_spec (x + 1) 0), (Z.ltb_spec (x - 1) 0), (Z.ltb_spec (x + 1) w), (Z.ltb_spec (x - 1) w); try lia; cbn [andb orb];
      try reflexivity; symmetry; try (apply andb_true_iff; split; lia); try (apply andb_false_iff; lia).
  Qed.

  (** Rows up to [Y] are finished. *)
  Definition doneP (Y x y : Z) : bool := (y <? Y) && row_on y && (sx <=? x) && (x <? ex).
  Lemma done_row dx dy Y m :
    0 <= Y < h -> wr w h pd ds dst (ev dx dy) (rowP (doneP Y) Y (if row_on Y then sx else 0) (if row_on Y then Z.max sx ex else 0)) m ->
    wr w h pd ds dst (ev dx dy) (doneP (Y + 1)) m.
  Proof.
    intros HY. apply wr_ext. intros x y Hx Hy. unfold rowP, doneP.
    destruct (Z.eqb_spec y Y) as [->|N].
    - replace (Y <? Y) with false by (symmetry; apply Z.ltb_ge; lia). replace (Y <? Y + 1) with true by (symmetry; apply Z.ltb_lt; lia).
      cbn [andb orb]. destruct (row_on Y); cbn [andb].
      + destruct (Z.leb_spec sx x), (Z.ltb_spec x ex), (Z.ltb_spec x (Z.max sx ex)); cbn; try reflexivity; lia.
      + apply andb_false_iff. right. apply Z.ltb_ge. lia.
    - replace (y <? Y + 1) with (y <? Y); [cbn [andb]; rewrite orb_false_r; reflexivity|].
      destruct (Z.ltb_spec y Y), (Z.ltb_spec y (Y + 1)); try reflexivity; lia.
  Qed.

  Lemma first_last dx dy m : wr w h pd ds dst (ev dx dy) (doneP h) m ->
    (forall x y, 0 <= x < w -> 0 <= y < h ->
       usable av w h (x + dx) (y + dy) && usable av w h (x - dx) (y - dy) = row_on y && (sx <=? x) && (x <? ex)) ->
    block_becomes w h pd ds dst m (edge_result src ps ss w h depth av off dx dy).
  Proof.
    intros H U. eapply wr_becomes; [exact H|]. intros x y Hx Hy. rewrite (edge_result_eval src ps ss w h depth av off dx dy), U by assumption.
    unfold doneP. replace (y <? h) with true by (symmetry; apply Z.ltb_lt; lia). reflexivity.
  Qed.

  Lemma eo_135_correct :
    block_becomes w h pd ds dst (eo_135 src pd ds ps ss w h depth av off junk dst) (edge_result src ps ss w h depth av off (-1) (-1)).
  Proof.
    apply first_last; [|exact usable_135].
    pose proof d_sx_range as Rs. pose proof d_ex_range as Re. destruct Hc as (C1 & C2 & C3 & C4).
    unfold eo_135. fold sx ex.
    (* line buffer *)
    set (up0 := floop sx ex _ junk).
    assert (U0 : forall x, sx < x <= ex -> up0 x = psign (S_ x 1 - S_ (x - 1) 0)).
    { intros x Hx. unfold up0. destruct (Z.le_gt_cases ex sx) as [L|L]; [lia|].
      refine (floop_inv (fun X u => forall x, sx < x <= X -> u x = psign (S_ x 1 - S_ (x - 1) 0)) sx ex _ junk _ _ _ x Hx); [lia|intros; lia|].
      intros X u HX Hu x0 Hx0. cbv beta. unfold upd. destruct (Z.eqb_spec x0 (X + 1)) as [->|N]; [|apply Hu; lia].
      unfold sample. f_equal. f_equal; f_equal; lia. }
    clearbody up0.
    (* first row *)
    set (m1 := floop _ _ _ dst).
    assert (M1 : wr w h pd ds dst (ev (-1) (-1)) (doneP 1) m1).
    { apply (done_row (-1) (-1) 0); [lia|]. unfold row_on.
      replace (0 <? 0) with false by reflexivity. replace (0 <? h - 1) with true by (symmetry; apply Z.ltb_lt; lia). cbn [orb andb]. rewrite andb_true_r.
      assert (D0 : wr w h pd ds dst (ev (-1) (-1)) (doneP 0) dst).
      { eapply wr_ext; [|apply wr_none]. intros x y Hx Hy. unfold doneP. replace (y <? 0) with false by (symmetry; apply Z.ltb_ge; lia). reflexivity. }
      unfold m1. rewrite C1. destruct (a_T av) eqn:ET; cbn [andb].
      - replace (if a_L av then 0 else 1) with sx by reflexivity. fold ex.
        refine (floop_inv' (fun X t => wr w h pd ds dst (ev (-1) (-1)) (rowP (doneP 0) 0 sx X) t) sx ex _ dst _ _).
        + apply wr_row_start. exact D0.
        + intros X t HX Ht. cbv zeta. replace (pd + X) with (pd + 0 * ds + X) by lia.
          apply (wr_row_step w h pd ds dst (ev (-1) (-1)) Hds); auto; try lia.
          unfold eval. rewrite clip_to_sat by exact Hdep. rewrite class_sum, U0 by lia.
          replace (X + 1 - 1) with X by lia. rewrite psign_sub. unfold sample.
          replace (ps + 0 * ss + X) with (ps + X) by lia. replace (ps + (0 + -1) * ss + (X + -1)) with (ps - ss + X - 1) by lia.
          replace (ps + (0 - -1) * ss + (X - -1)) with (ps + 1 * ss + (X + 1)) by lia. reflexivity.
      - rewrite floop_none by lia. apply wr_row_start. exact D0. }
    clearbody m1.
    (* middle rows *)
    set (mid := floop 1 (h - 1) _ (m1, up0, 0)).
    assert (M2 : wr w h pd ds dst (ev (-1) (-1)) (doneP (h - 1)) (fst (fst mid))
                 /\ (forall x, sx < x < ex -> snd (fst mid) x = psign (S_ x (h - 1) - S_ (x - 1) (h - 1 - 1)))).
    { unfold mid.
      refine (floop_inv (fun Y (t : mem * mem * Z) => wr w h pd ds dst (ev (-1) (-1)) (doneP Y) (fst (fst t))
                 /\ (forall x, sx < x < ex -> snd (fst t) x = psign (S_ x Y - S_ (x - 1) (Y - 1)))) 1 (h - 1) _ (m1, up0, 0) _ _ _); [lia|..].
      - cbn [fst snd]. split; [exact M1|]. intros x Hx. apply U0. lia.
      - intros Y t HY [Ht Hu]. cbv zeta.
        assert (Ron : row_on Y = true).
        { unfold row_on. replace (0 <? Y) with true by (symmetry; apply Z.ltb_lt; lia). replace (Y <? h - 1) with true by (symmetry; apply Z.ltb_lt; lia). reflexivity. }
        destruct (Z.le_gt_cases ex sx) as [L|L].
        { rewrite floop_none by lia. split; [|intros; lia]. apply (done_row (-1) (-1) Y); [lia|]. rewrite Ron.
          rewrite Z.max_l by lia. apply wr_row_start. exact Ht. }
        match goal with |- context [floop sx ex ?f t] => set (F := f) end.
        assert (G : wr w h pd ds dst (ev (-1) (-1)) (rowP (doneP Y) Y sx ex) (fst (fst (floop sx ex F t)))
                   /\ (forall x, sx < x < ex -> snd (fst (floop sx ex F t)) x = psign (S_ x (Y + 1) - S_ (x - 1) Y))).
        { pose proof (floop_inv (fun X (t : mem * mem * Z) =>
             wr w h pd ds dst (ev (-1) (-1)) (rowP (doneP Y) Y sx X) (fst (fst t))
             /\ (forall x, X <= x < ex -> sx < x -> snd (fst t) x = psign (S_ x Y - S_ (x - 1) (Y - 1)))
             /\ (forall x, sx < x < X -> snd (fst t) x = psign (S_ x (Y + 1) - S_ (x - 1) Y))
             /\ (sx < X -> snd t = psign (S_ X (Y + 1) - S_ (X - 1) Y))) sx ex F t) as I.
          destruct I as (I1 & I2 & I3 & I4).
          - lia.
          - split; [apply wr_row_start; exact Ht|]. split; [intros x Hx1 Hx2; apply Hu; lia|]. split; intros; lia.
          - intros X [[m u] reg] HX (J1 & J2 & J3 & J4). cbn [fst snd] in *. unfold F. clear F.
            set (u1 := if X =? sx then upd u X _ else u).
            assert (UX : u1 X = psign (S_ X Y - S_ (X - 1) (Y - 1))).
            { unfold u1. destruct (Z.eqb_spec X sx) as [E|N].
              - rewrite upd_same. unfold sample. f_equal. f_equal; f_equal; lia.
              - apply J2; lia. }
            assert (UO : forall x, x <> X -> u1 x = u x).
            { intros x N. unfold u1. destruct (X =? sx); [apply upd_other; exact N|reflexivity]. }
            clearbody u1. cbn [fst snd]. split; [|split; [|split]].
            + apply (wr_row_step w h pd ds dst (ev (-1) (-1)) Hds); auto; try lia.
              unfold eval. rewrite clip_to_sat by exact Hdep. rewrite class_sum, UX. unfold sample.
              replace (Y + -1) with (Y - 1) by lia. replace (X + -1) with (X - 1) by lia. replace (Y - -1) with (Y + 1) by lia. replace (X - -1) with (X + 1) by lia.
              replace (ps + Y * ss + ss + X + 1) with (ps + (Y + 1) * ss + (X + 1)) by lia. do 3 f_equal. lia.
            + intros x Hx1 Hx2. rewrite upd_other by lia. rewrite UO by lia. apply J2; lia.
            + intros x Hx. unfold upd. destruct (Z.eqb_spec x X) as [E|N].
              * subst x. apply J4. lia.
              * rewrite UO by exact N. apply J3. lia.
            + intros _. rewrite psign_neg. unfold sample. f_equal. f_equal; f_equal; lia.
          - split; [exact I1|]. intros x Hx. apply I3. lia. }
        destruct G as [G1 G2]. split.
        + apply (done_row (-1) (-1) Y); [lia|]. rewrite Ron. rewrite Z.max_r by lia. exact G1.
        + intros x Hx. replace (Y + 1 - 1) with Y by lia. apply G2. exact Hx. }
    clearbody mid. destruct mid as [[m2 up2] reg2]. cbn [fst snd] in M2. destruct M2 as [M2 U2].
    (* last row *)
    replace (Z.max 0 (h - 2) + 1) with (h - 1) by lia.
    apply (wr_ext w h pd ds dst (ev (-1) (-1)) (doneP (h - 1 + 1))); [intros x y _ _; replace (h - 1 + 1) with h by lia; reflexivity|].
    apply (done_row (-1) (-1) (h - 1)); [lia|].
    unfold row_on. replace (0 <? h - 1) with true by (symmetry; apply Z.ltb_lt; lia). replace (h - 1 <? h - 1) with false by (symmetry; apply Z.ltb_ge; lia).
    cbn [orb andb]. rewrite C4. cbv zeta. destruct (a_D av) eqn:ED; cbn [andb].
    - replace (if a_L av then 0 else 1) with sx by reflexivity. fold ex.
      refine (proj1 (floop_inv' (fun X (t : mem * mem) => wr w h pd ds dst (ev (-1) (-1)) (rowP (doneP (h - 1)) (h - 1) sx X) (fst t)
                 /\ (forall x, X <= x < ex -> sx < x -> snd t x = psign (S_ x (h - 1) - S_ (x - 1) (h - 1 - 1)))) sx ex _ (m2, up2) _ _)).
      + cbn [fst snd]. split; [apply wr_row_start; exact M2|]. intros x Hx1 Hx2. apply U2. lia.
      + intros X [m u] HX [J1 J2]. cbn [fst snd] in *.
        set (u1 := if X =? sx then upd u X _ else u).
        assert (UX : u1 X = psign (S_ X (h - 1) - S_ (X - 1) (h - 1 - 1))).
        { unfold u1. destruct (Z.eqb_spec X sx) as [E|N].
          - rewrite upd_same. unfold sample. f_equal. f_equal; f_equal; lia.
          - apply J2; lia. }
        assert (UO : forall x, x <> X -> u1 x = u x).
        { intros x N. unfold u1. destruct (X =? sx); [apply upd_other; exact N|reflexivity]. }
        clearbody u1. cbn [fst snd]. split.
        * apply (wr_row_step w h pd ds dst (ev (-1) (-1)) Hds); auto; try lia.
          unfold eval. rewrite clip_to_sat by exact Hdep. rewrite class_sum, UX. unfold sample.
          replace (h - 1 + -1) with (h - 1 - 1) by lia. replace (X + -1) with (X - 1) by lia. replace (h - 1 - -1) with h by lia. replace (X - -1) with (X + 1) by lia.
          replace (ps + (h - 1) * ss + ss + X + 1) with (ps + h * ss + (X + 1)) by lia. do 3 f_equal. lia.
        * intros x Hx1 Hx2. rewrite UO by lia. apply J2; lia.
    - rewrite floop_none by lia. cbn [fst]. apply wr_row_start. exact M2.
  Qed.

  Lemma eo_45_correct :
    block_becomes w h pd ds dst (eo_45 src pd ds ps ss w h depth av off junk dst) (edge_result src ps ss w h depth av off 1 (-1)).
  Proof.
    apply first_last; [|exact usable_45].
    pose proof d_sx_range as Rs. pose proof d_ex_range as Re. destruct Hc as (C1 & C2 & C3 & C4).
    unfold eo_45. fold sx ex.
    set (up0 := floop sx ex _ junk).
    assert (U0 : forall x, sx - 1 <= x < ex - 1 -> up0 x = psign (S_ x 1 - S_ (x + 1) 0)).
    { intros x Hx. unfold up0. destruct (Z.le_gt_cases ex sx) as [L|L]; [lia|].
      refine (floop_inv (fun X u => forall x, sx - 1 <= x < X - 1 -> u x = psign (S_ x 1 - S_ (x + 1) 0)) sx ex _ junk _ _ _ x Hx); [lia|intros; lia|].
      intros X u HX Hu x0 Hx0. cbv beta. unfold upd. destruct (Z.eqb_spec x0 (X - 1)) as [->|N]; [|apply Hu; lia].
      unfold sample. f_equal. f_equal; f_equal; lia. }
    clearbody up0.
    set (m1 := floop _ _ _ dst).
    assert (M1 : wr w h pd ds dst (ev 1 (-1)) (doneP 1) m1).
    { apply (done_row 1 (-1) 0); [lia|]. unfold row_on.
      replace (0 <? 0) with false by reflexivity. replace (0 <? h - 1) with true by (symmetry; apply Z.ltb_lt; lia). cbn [orb andb]. rewrite andb_true_r.
      assert (D0 : wr w h pd ds dst (ev 1 (-1)) (doneP 0) dst).
      { eapply wr_ext; [|apply wr_none]. intros x y Hx Hy. unfold doneP. replace (y <? 0) with false by (symmetry; apply Z.ltb_ge; lia). reflexivity. }
      unfold m1. rewrite C2. destruct (a_T av) eqn:ET; cbn [andb].
      - replace (if a_L av then 0 else 1) with sx by reflexivity. fold ex.
        refine (floop_inv' (fun X t => wr w h pd ds dst (ev 1 (-1)) (rowP (doneP 0) 0 sx X) t) sx ex _ dst _ _).
        + apply wr_row_start. exact D0.
        + intros X t HX Ht. cbv zeta. replace (pd + X) with (pd + 0 * ds + X) by lia.
          apply (wr_row_step w h pd ds dst (ev 1 (-1)) Hds); auto; try lia.
          unfold eval. rewrite clip_to_sat by exact Hdep. rewrite class_sum, U0 by lia.
          replace (X - 1 + 1) with X by lia. rewrite psign_sub. unfold sample.
          replace (ps + 0 * ss + X) with (ps + X) by lia. replace (ps + (0 + -1) * ss + (X + 1)) with (ps - ss + X + 1) by lia.
          replace (ps + (0 - -1) * ss + (X - 1)) with (ps + 1 * ss + (X - 1)) by lia. reflexivity.
      - rewrite floop_none by lia. apply wr_row_start. exact D0. }
    clearbody m1.
    set (mid := floop 1 (h - 1) _ (m1, up0)).
    assert (M2 : wr w h pd ds dst (ev 1 (-1)) (doneP (h - 1)) (fst mid)
                 /\ (forall x, sx <= x < ex - 1 -> snd mid x = psign (S_ x (h - 1) - S_ (x + 1) (h - 1 - 1)))).
    { unfold mid.
      refine (floop_inv (fun Y (t : mem * mem) => wr w h pd ds dst (ev 1 (-1)) (doneP Y) (fst t)
                 /\ (forall x, sx <= x < ex - 1 -> snd t x = psign (S_ x Y - S_ (x + 1) (Y - 1)))) 1 (h - 1) _ (m1, up0) _ _ _); [lia|..].
      - cbn [fst snd]. split; [exact M1|]. intros x Hx. apply U0. lia.
      - intros Y t HY [Ht Hu]. cbv zeta.
        assert (Ron : row_on Y = true).
        { unfold row_on. replace (0 <? Y) with true by (symmetry; apply Z.ltb_lt; lia). replace (Y <? h - 1) with true by (symmetry; apply Z.ltb_lt; lia). reflexivity. }
        destruct (Z.le_gt_cases ex sx) as [L|L].
        { rewrite floop_none by lia. split; [|intros; lia]. apply (done_row 1 (-1) Y); [lia|]. rewrite Ron.
          rewrite Z.max_l by lia. apply wr_row_start. exact Ht. }
        match goal with |- context [floop sx ex ?f t] => set (F := f) end.
        assert (G : wr w h pd ds dst (ev 1 (-1)) (rowP (doneP Y) Y sx ex) (fst (floop sx ex F t))
                   /\ (forall x, sx <= x < ex - 1 -> snd (floop sx ex F t) x = psign (S_ x (Y + 1) - S_ (x + 1) Y))).
        { pose proof (floop_inv (fun X (t : mem * mem) =>
             wr w h pd ds dst (ev 1 (-1)) (rowP (doneP Y) Y sx X) (fst t)
             /\ (forall x, X <= x < ex - 1 -> snd t x = psign (S_ x Y - S_ (x + 1) (Y - 1)))
             /\ (forall x, sx <= x < X - 1 -> snd t x = psign (S_ x (Y + 1) - S_ (x + 1) Y))) sx ex F t) as I.
          destruct I as (I1 & I2 & I3).
          - lia.
          - split; [apply wr_row_start; exact Ht|]. split; [intros x Hx1; apply Hu; lia|]. intros; lia.
          - intros X [m u] HX (J1 & J2 & J3). cbn [fst snd] in *. unfold F. clear F.
            set (u1 := if X =? ex - 1 then upd u X _ else u).
            assert (UX : u1 X = psign (S_ X Y - S_ (X + 1) (Y - 1))).
            { unfold u1. destruct (Z.eqb_spec X (ex - 1)) as [E|N].
              - rewrite upd_same. unfold sample. f_equal. f_equal; f_equal; lia.
              - apply J2; lia. }
            assert (UO : forall x, x <> X -> u1 x = u x).
            { intros x N. unfold u1. destruct (X =? ex - 1); [apply upd_other; exact N|reflexivity]. }
            clearbody u1. cbn [fst snd]. split; [|split].
            + apply (wr_row_step w h pd ds dst (ev 1 (-1)) Hds); auto; try lia.
              unfold eval. rewrite clip_to_sat by exact Hdep. rewrite class_sum, UX. unfold sample.
              replace (Y + -1) with (Y - 1) by lia. replace (Y - -1) with (Y + 1) by lia.
              replace (ps + Y * ss + ss + X - 1) with (ps + (Y + 1) * ss + (X - 1)) by lia. do 3 f_equal. lia.
            + intros x Hx1. rewrite upd_other by lia. rewrite UO by lia. apply J2; lia.
            + intros x Hx. unfold upd. destruct (Z.eqb_spec x (X - 1)) as [E|N].
              * subst x. rewrite psign_neg. unfold sample. f_equal. f_equal; f_equal; lia.
              * rewrite UO by lia. apply J3. lia.
          - split; [exact I1|]. intros x Hx. apply I3. lia. }
        destruct G as [G1 G2]. split.
        + apply (done_row 1 (-1) Y); [lia|]. rewrite Ron. rewrite Z.max_r by lia. exact G1.
        + intros x Hx. replace (Y + 1 - 1) with Y by lia. apply G2. exact Hx. }
    clearbody mid. destruct mid as [m2 up2]. cbn [fst snd] in M2. destruct M2 as [M2 U2].
    replace (Z.max 0 (h - 2) + 1) with (h - 1) by lia.
    apply (wr_ext w h pd ds dst (ev 1 (-1)) (doneP (h - 1 + 1))); [intros x y _ _; replace (h - 1 + 1) with h by lia; reflexivity|].
    apply (done_row 1 (-1) (h - 1)); [lia|].
    unfold row_on. replace (0 <? h - 1) with true by (symmetry; apply Z.ltb_lt; lia). replace (h - 1 <? h - 1) with false by (symmetry; apply Z.ltb_ge; lia).
    cbn [orb andb]. rewrite C3. destruct (a_D av) eqn:ED; cbn [andb].
    - replace (if a_L av then 0 else 1) with sx by reflexivity. fold ex.
      refine (proj1 (floop_inv' (fun X (t : mem * mem) => wr w h pd ds dst (ev 1 (-1)) (rowP (doneP (h - 1)) (h - 1) sx X) (fst t)
                 /\ (forall x, X <= x < ex - 1 -> snd t x = psign (S_ x (h - 1) - S_ (x + 1) (h - 1 - 1)))) sx ex _ (m2, up2) _ _)).
      + cbn [fst snd]. split; [apply wr_row_start; exact M2|]. intros x Hx1. apply U2. lia.
      + intros X [m u] HX [J1 J2]. cbn [fst snd] in *.
        set (u1 := if X =? ex - 1 then upd u X _ else u).
        assert (UX : u1 X = psign (S_ X (h - 1) - S_ (X + 1) (h - 1 - 1))).
        { unfold u1. destruct (Z.eqb_spec X (ex - 1)) as [E|N].
          - rewrite upd_same. unfold sample. f_equal. f_equal; f_equal; lia.
          - apply J2; lia. }
        assert (UO : forall x, x <> X -> u1 x = u x).
        { intros x N. unfold u1. destruct (X =? ex - 1); [apply upd_other; exact N|reflexivity]. }
        clearbody u1. cbn [fst snd]. split.
        * apply (wr_row_step w h pd ds dst (ev 1 (-1)) Hds); auto; try lia.
          unfold eval. rewrite clip_to_sat by exact Hdep. rewrite class_sum, UX. unfold sample.
          replace (h - 1 + -1) with (h - 1 - 1) by lia. replace (h - 1 - -1) with h by lia.
          replace (ps + (h - 1) * ss + ss + X - 1) with (ps + h * ss + (X - 1)) by lia. do 3 f_equal. lia.
        * intros x Hx1. rewrite UO by lia. apply J2; lia.
    - rewrite floop_none by lia. cbn [fst]. apply wr_row_start. exact M2.
  Qed.
End Diagonal.
