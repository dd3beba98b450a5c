(** Inter prediction of whole coding units, and with the residual added. *)
From Coq Require Import ZArith List Bool Lia.
From Verif Require Import CBase CBaseProofs MemModel MemProofs UtilModel UtilProofs AlfSpec SynModel SynSpec McModel McSpec McProofs McProofsB TrModel TrSpec TrProofs TrProofsB CuModel CuSpec CuProofs CuProofsB CuProofsC.
Import ListNotations.
Open Scope Z_scope.

(** What [pu_motion] computes, as a list. *)
Definition motion_list (m : (Z * Z * Z) * option (Z * Z * Z)) : list ((Z * Z) * Z) :=
  let '((x, y, r), s) := m in ((x, y), r) :: match s with None => [] | Some (x2, y2, r2) => [((x2, y2), r2)] end.
Lemma pu_motion_spec : forall slice dmh u l, 0 <= dmh <= 8 -> motion (slice =? B_SLICE) dmh u l ->
  (forall v r, In (v, r) l -> mv_ok (fst v) /\ mv_ok (snd v)) -> motion_list (pu_motion slice dmh u) = l.
Proof.
  intros slice dmh u l Hd M V.
  assert (SP: forall p : Z * Z, (fst p, snd p) = p) by (intros [? ?]; reflexivity).
  unfold pu_motion. cbv zeta. destruct M as [D | [D | D] | D Bs | D Bs | D Bs Z0 | D Bs R]; rewrite D; cbn [Z.eqb Pos.eqb orb]; rewrite ?Bs; cbn [motion_list]; rewrite ?SP; try reflexivity.
  - rewrite Z0. cbn [Z.eqb negb motion_list]. destruct (u_mv0 u). reflexivity.
  - rewrite (proj2 (Z.eqb_neq dmh 0)) by lia. cbn [negb].
    assert (Q: dmh = 1 \/ dmh = 2 \/ dmh = 3 \/ dmh = 4 \/ dmh = 5 \/ dmh = 6 \/ dmh = 7 \/ dmh = 8) by lia.
    destruct (V _ _ (or_introl eq_refl)) as [V1 V2]. destruct (V _ _ (or_intror (or_introl eq_refl))) as [V3 V4]. clear V SP.
    unfold shifted in *. cbn [fst snd] in *.
    assert (G: forall o, offset_of dmh = o -> nth (Z.to_nat dmh) dmh_pos (0, 0, (0, 0)) = ((- fst o, - snd o), o) ->
      motion_list (let '(x0, y0, (x1, y1)) := nth (Z.to_nat dmh) dmh_pos (0, 0, (0, 0)) in
         ((to_i16 (fst (u_mv0 u) + x0), to_i16 (snd (u_mv0 u) + y0), u_ref0 u), Some (to_i16 (fst (u_mv0 u) + x1), to_i16 (snd (u_mv0 u) + y1), u_ref0 u))) =
      [((fst (u_mv0 u) + -1 * fst o, snd (u_mv0 u) + -1 * snd o), u_ref0 u); ((fst (u_mv0 u) + 1 * fst o, snd (u_mv0 u) + 1 * snd o), u_ref0 u)]).
    { intros [o1 o2] EO EN. rewrite EN. cbn [fst snd motion_list]. rewrite EO in *. cbn [fst snd] in *. unfold mv_ok in *.
      rewrite !to_i16_id by lia. repeat f_equal; lia. }
    repeat (destruct Q as [-> | Q]; [exact (G _ eq_refl eq_refl)|]). subst dmh. exact (G _ eq_refl eq_refl).
Qed.
Lemma motion_len : forall b dmh u l, motion b dmh u l -> (exists v r, l = [(v, r)]) \/ (exists v r w s, l = [(v, r); (w, s)]).
Proof. intros b dmh u l M. destruct M; [left|right|left|right|left|right]; repeat eexists. Qed.

(** One unit; [halve] is the identity for luma. *)
Lemma pu_luma : forall d W H slice dmh fref i_fref lx ly ctu_x ctu_y p_fdec i_fdec t0 tb u l m,
  mc_depth d -> 0 <= dmh <= 8 -> motion (slice =? B_SLICE) dmh u l -> fref 0 <> None -> refs_ready 80 d W H i_fref fref l ->
  0 <= cw (u_cb u) -> 0 <= ch (u_cb u) -> blk_ok W (ctu_x + cx (u_cb u) + lx) (cw (u_cb u)) -> blk_ok H (ctu_y + cy (u_cb u) + ly) (ch (u_cb u)) ->
  W <= 8184 -> H <= 8184 -> cw (u_cb u) <= i_fdec ->
  let b := p_fdec + ctu_y * i_fdec + ctu_x in
  exists m', pu_pred false d (W, H) slice dmh fref i_fref lx ly ctu_x ctu_y p_fdec i_fdec t0 tb u m = Done m' /\
    (forall x y, inside (u_cb u) x y -> m' (b + y * i_fdec + x) =
       predicted (luma_ref d W H i_fref fref (lx + ctu_x + x) (ly + ctu_y + y)) l) /\
    (forall q, ~ in_block (Z.to_nat (cw (u_cb u))) (Z.to_nat (ch (u_cb u))) (b + cy (u_cb u) * i_fdec + cx (u_cb u)) i_fdec q -> m' q = m q).
Proof.
  intros d W H slice dmh fref i_fref lx ly ctu_x ctu_y p_fdec i_fdec t0 tb u l m Hd Hm M F0 RR Cw Ch BX BY HW HH HI b.
  assert (EM := pu_motion_spec slice dmh u l Hm M). assert (V: forall v r, In (v, r) l -> mv_ok (fst v) /\ mv_ok (snd v)) by (intros v r I; destruct (RR v r I) as [_ [? [? _]]]; auto).
  specialize (EM V). unfold pu_pred. destruct (pu_motion slice dmh u) as [[[mx1 my1] r1] sec]. cbn [motion_list] in EM.
  assert (GR: forall v r, In (v, r) l -> exists s p, get_ref fref r = Done (Some (s, p)) /\ fref r = Some (s, p) /\ (forall a, 0 <= s a < 2 ^ d) /\ padded 80 W H (plane s p i_fref)).
  { intros v r I. destruct (RR v r I) as [R [_ [_ [s [p [E [S1 S2]]]]]]]. exists s, p. unfold get_ref. rewrite (proj2 (Z.leb_le 0 r)), (proj2 (Z.ltb_lt r 4)) by lia. cbn [andb]. rewrite E. auto. }
  assert (PO: forall mv, mv_ok (fst mv) -> mv_ok (snd mv) -> pic_ok W H (ctu_x + cx (u_cb u) + lx) (ctu_y + cy (u_cb u) + ly) (Z.to_nat (cw (u_cb u))) (Z.to_nat (ch (u_cb u))) mv).
  { intros mv V1 V2. unfold pic_ok. rewrite !Z2Nat.id by assumption. auto 10. }
  replace (p_fdec + (ctu_y + cy (u_cb u)) * i_fdec + (ctu_x + cx (u_cb u))) with (b + cy (u_cb u) * i_fdec + cx (u_cb u)) by (unfold b; lia).
  destruct (fref 0) as [f0|] eqn:E0; [|contradiction]. clear F0.
  destruct sec as [[[mx2 my2] r2]|]; subst l; cbv zeta.
  - destruct (GR _ _ (or_introl eq_refl)) as [s1 [p1 [G1 [E1 [S1 P1]]]]]. destruct (GR _ _ (or_intror (or_introl eq_refl))) as [s2 [p2 [G2 [E2 [S2 P2]]]]].
    destruct (V _ _ (or_introl eq_refl)) as [V1 V2]. destruct (V _ _ (or_intror (or_introl eq_refl))) as [V3 V4].
    rewrite G1, G2. cbn [bindo]. eexists. split; [reflexivity|].
    match goal with |- context [bipred_luma _ _ ?dst _ _ _ _ _ _ _ _ _ _ _ _ _ _ _] =>
      destruct (bipred_luma_spec d W H dst i_fdec _ _ _ _ (mx1, my1) (mx2, my2) s1 p1 s2 p2 i_fref t0 tb m Hd (PO (mx1, my1) V1 V2) (PO (mx2, my2) V3 V4)) as [A O]; try assumption; [rewrite Z2Nat.id; lia|] end.
    split; [|exact O]. intros x y [Ix Iy]. specialize (A (x - cx (u_cb u)) (y - cy (u_cb u))). rewrite !Z2Nat.id in A by assumption.
    specialize (A ltac:(lia) ltac:(lia)).
    replace (b + cy (u_cb u) * i_fdec + cx (u_cb u) + (y - cy (u_cb u)) * i_fdec + (x - cx (u_cb u))) with (b + y * i_fdec + x) in A by lia.
    rewrite A. cbn [predicted]. unfold luma_ref. rewrite E1, E2.
    replace (ctu_x + cx (u_cb u) + lx + (x - cx (u_cb u))) with (lx + ctu_x + x) by lia.
    replace (ctu_y + cy (u_cb u) + ly + (y - cy (u_cb u))) with (ly + ctu_y + y) by lia. reflexivity.
  - destruct (GR _ _ (or_introl eq_refl)) as [s1 [p1 [G1 [E1 [S1 P1]]]]]. destruct (V _ _ (or_introl eq_refl)) as [V1 V2].
    rewrite G1. cbn [bindo]. eexists. split; [reflexivity|].
    match goal with |- context [pred_luma _ _ ?dst _ _ _ _ _ _ _ _ _ _ _] =>
      destruct (pred_luma_endless d W H dst i_fdec _ _ _ _ (mx1, my1) s1 p1 i_fref t0 m Hd (PO (mx1, my1) V1 V2)) as [A O]; try assumption; [rewrite Z2Nat.id; lia|] end.
    split; [|exact O]. intros x y [Ix Iy]. specialize (A (x - cx (u_cb u)) (y - cy (u_cb u))). rewrite !Z2Nat.id in A by assumption.
    specialize (A ltac:(lia) ltac:(lia)).
    replace (b + cy (u_cb u) * i_fdec + cx (u_cb u) + (y - cy (u_cb u)) * i_fdec + (x - cx (u_cb u))) with (b + y * i_fdec + x) in A by lia.
    rewrite A. cbn [predicted]. unfold luma_ref. rewrite E1.
    replace (ctu_x + cx (u_cb u) + lx + (x - cx (u_cb u))) with (lx + ctu_x + x) by lia.
    replace (ctu_y + cy (u_cb u) + ly + (y - cy (u_cb u))) with (ly + ctu_y + y) by lia. reflexivity.
Qed.
Definition half (u : cb) : cb := B (cx u / 2) (cy u / 2) (cw u / 2) (ch u / 2).
Lemma div2_nat : forall w, 0 <= w -> Z.to_nat (w / 2) = Nat.div2 (Z.to_nat w).
Proof. intros w Hw. apply Nat2Z.inj. rewrite div2_half. rewrite !Z2Nat.id; [reflexivity|exact Hw|apply Z.div_pos; lia]. Qed.
Lemma shr1 : forall a c, a mod 2 = 0 -> Z.shiftr (a + c) 1 = a / 2 + c / 2.
Proof. intros a c H. rewrite Z.shiftr_div_pow2 by lia. change (2 ^ 1) with 2. clear - H. Z.div_mod_to_equations. lia. Qed.
Lemma pu_chroma : forall d W H slice dmh fref i_fref lx ly ctu_x ctu_y p_fdec i_fdec t0 tb u l m,
  mc_depth d -> 0 <= dmh <= 8 -> motion (slice =? B_SLICE) dmh u l -> fref 0 <> None -> refs_ready 40 d (W / 2) (H / 2) i_fref fref l ->
  0 <= cw (u_cb u) -> 0 <= ch (u_cb u) -> blk_ok W (ctu_x + cx (u_cb u) + lx) (cw (u_cb u)) -> blk_ok H (ctu_y + cy (u_cb u) + ly) (ch (u_cb u)) ->
  W <= 8184 -> H <= 8184 -> cw (u_cb u) / 2 <= i_fdec -> ctu_x mod 2 = 0 -> ctu_y mod 2 = 0 -> lx mod 2 = 0 -> ly mod 2 = 0 ->
  let b := p_fdec + ctu_y / 2 * i_fdec + ctu_x / 2 in
  exists m', pu_pred true d (W, H) slice dmh fref i_fref lx ly ctu_x ctu_y p_fdec i_fdec t0 tb u m = Done m' /\
    (forall x y, inside (half (u_cb u)) x y -> m' (b + y * i_fdec + x) =
       predicted (chroma_ref d W H i_fref fref ((lx + ctu_x) / 2 + x) ((ly + ctu_y) / 2 + y)) l) /\
    (forall q, ~ in_block (Z.to_nat (cw (half (u_cb u)))) (Z.to_nat (ch (half (u_cb u)))) (b + cy (half (u_cb u)) * i_fdec + cx (half (u_cb u))) i_fdec q -> m' q = m q).
Proof.
  intros d W H slice dmh fref i_fref lx ly ctu_x ctu_y p_fdec i_fdec t0 tb u l m Hd Hm M F0 RR Cw Ch BX BY HW HH HI PX PY PLX PLY b.
  assert (EM := pu_motion_spec slice dmh u l Hm M). assert (V: forall v r, In (v, r) l -> mv_ok (fst v) /\ mv_ok (snd v)) by (intros v r I; destruct (RR v r I) as [_ [? [? _]]]; auto).
  specialize (EM V). unfold pu_pred. destruct (pu_motion slice dmh u) as [[[mx1 my1] r1] sec]. cbn [motion_list] in EM.
  assert (GR: forall v r, In (v, r) l -> exists s p, get_ref fref r = Done (Some (s, p)) /\ fref r = Some (s, p) /\ padded 40 (W / 2) (H / 2) (plane s p i_fref)).
  { intros v r I. destruct (RR v r I) as [R [_ [_ [s [p [E [S1 S2]]]]]]]. exists s, p. unfold get_ref. rewrite (proj2 (Z.leb_le 0 r)), (proj2 (Z.ltb_lt r 4)) by lia. cbn [andb]. rewrite E. auto. }
  assert (PO: forall mv, mv_ok (fst mv) -> mv_ok (snd mv) -> pic_ok W H (ctu_x + cx (u_cb u) + lx) (ctu_y + cy (u_cb u) + ly) (Z.to_nat (cw (u_cb u))) (Z.to_nat (ch (u_cb u))) mv).
  { intros mv V1 V2. unfold pic_ok. rewrite !Z2Nat.id by assumption. auto 10. }
  assert (XX: forall x, (ctu_x + cx (u_cb u) + lx) / 2 + (x - cx (u_cb u) / 2) = (lx + ctu_x) / 2 + x) by (intros; clear - PX PLX; Z.div_mod_to_equations; lia).
  assert (YY: forall y, (ctu_y + cy (u_cb u) + ly) / 2 + (y - cy (u_cb u) / 2) = (ly + ctu_y) / 2 + y) by (intros; clear - PY PLY; Z.div_mod_to_equations; lia).
  rewrite !shr1 by assumption. cbn [half B cx cy cw ch]. rewrite !div2_nat by assumption.
  replace (p_fdec + (ctu_y / 2 + cy (u_cb u) / 2) * i_fdec + (ctu_x / 2 + cx (u_cb u) / 2)) with (b + cy (u_cb u) / 2 * i_fdec + cx (u_cb u) / 2) by (unfold b; lia).
  destruct (fref 0) as [f0|] eqn:E0; [|contradiction]. clear F0.
  destruct sec as [[[mx2 my2] r2]|]; subst l; cbv zeta.
  - destruct (GR _ _ (or_introl eq_refl)) as [s1 [p1 [G1 [E1 P1]]]]. destruct (GR _ _ (or_intror (or_introl eq_refl))) as [s2 [p2 [G2 [E2 P2]]]].
    destruct (V _ _ (or_introl eq_refl)) as [V1 V2]. destruct (V _ _ (or_intror (or_introl eq_refl))) as [V3 V4].
    rewrite G1, G2. cbn [bindo]. eexists. split; [reflexivity|].
    match goal with |- context [bipred_chroma _ _ ?dst _ _ _ _ _ _ _ _ _ _ _ _ _ _ _] =>
      destruct (bipred_chroma_spec d W H dst i_fdec _ _ _ _ (mx1, my1) (mx2, my2) s1 p1 s2 p2 i_fref t0 tb m Hd (PO (mx1, my1) V1 V2) (PO (mx2, my2) V3 V4)) as [A O]; try assumption; [rewrite Z2Nat.id; lia|] end.
    split; [|exact O]. intros x y [Ix Iy]. cbn [half B cx cy cw ch] in Ix, Iy. specialize (A (x - cx (u_cb u) / 2) (y - cy (u_cb u) / 2)). rewrite !Z2Nat.id in A by assumption.
    specialize (A ltac:(lia) ltac:(lia)). rewrite XX, YY in A.
    replace (b + cy (u_cb u) / 2 * i_fdec + cx (u_cb u) / 2 + (y - cy (u_cb u) / 2) * i_fdec + (x - cx (u_cb u) / 2)) with (b + y * i_fdec + x) in A by lia.
    rewrite A. cbn [predicted]. unfold chroma_ref. rewrite E1, E2. reflexivity.
  - destruct (GR _ _ (or_introl eq_refl)) as [s1 [p1 [G1 [E1 P1]]]]. destruct (V _ _ (or_introl eq_refl)) as [V1 V2].
    rewrite G1. cbn [bindo]. eexists. split; [reflexivity|].
    match goal with |- context [pred_chroma _ _ ?dst _ _ _ _ _ _ _ _ _ _ _] =>
      destruct (pred_chroma_endless d W H dst i_fdec _ _ _ _ (mx1, my1) s1 p1 i_fref t0 m Hd (PO (mx1, my1) V1 V2)) as [A O]; try assumption; [rewrite Z2Nat.id; lia|] end.
    split; [|exact O]. intros x y [Ix Iy]. cbn [half B cx cy cw ch] in Ix, Iy. specialize (A (x - cx (u_cb u) / 2) (y - cy (u_cb u) / 2)). rewrite !Z2Nat.id in A by assumption.
    specialize (A ltac:(lia) ltac:(lia)). rewrite XX, YY in A.
    replace (b + cy (u_cb u) / 2 * i_fdec + cx (u_cb u) / 2 + (y - cy (u_cb u) / 2) * i_fdec + (x - cx (u_cb u) / 2)) with (b + y * i_fdec + x) in A by lia.
    rewrite A. cbn [predicted]. unfold chroma_ref. rewrite E1. reflexivity.
Qed.

(** All units, whatever the plane: [rect] is the area of a unit and [val] what it gets. *)
Lemma inter_pred_loop : forall chroma d pic slice dmh fref i_fref lx ly ctu_x ctu_y p_fdec i_fdec t0 tb (rect : pum -> cb) (val : pum -> Z -> Z -> Z) n b us,
  n <= i_fdec -> (forall u, In u us -> fits n (rect u)) -> disjoint_units (map rect us) ->
  (forall u m, In u us -> exists m', pu_pred chroma d pic slice dmh fref i_fref lx ly ctu_x ctu_y p_fdec i_fdec t0 tb u m = Done m' /\
    (forall x y, inside (rect u) x y -> m' (b + y * i_fdec + x) = val u x y) /\
    (forall q, ~ in_block (Z.to_nat (cw (rect u))) (Z.to_nat (ch (rect u))) (b + cy (rect u) * i_fdec + cx (rect u)) i_fdec q -> m' q = m q)) ->
  forall m, exists m', inter_pred chroma d pic slice dmh fref i_fref lx ly ctu_x ctu_y p_fdec i_fdec t0 tb us m = Done m' /\
    (forall u x y, In u us -> inside (rect u) x y -> m' (b + y * i_fdec + x) = val u x y) /\
    (forall q, ~ in_block (Z.to_nat n) (Z.to_nat n) b i_fdec q -> m' q = m q) /\
    (forall q, (forall u, In u us -> ~ in_block (Z.to_nat (cw (rect u))) (Z.to_nat (ch (rect u))) (b + cy (rect u) * i_fdec + cx (rect u)) i_fdec q) -> m' q = m q).
Proof.
  intros chroma d pic slice dmh fref i_fref lx ly ctu_x ctu_y p_fdec i_fdec t0 tb rect val n b us HN. induction us as [|u us IH]; intros FT DJ ONE m.
  - exists m. split; [reflexivity|]. split; [intros u x y []|]. split; reflexivity.
  - destruct DJ as [D1 DJ]. destruct (ONE u m (or_introl eq_refl)) as [m1 [E1 [A1 O1]]].
    destruct (IH (fun v H => FT v (or_intror H)) DJ (fun v m' H => ONE v m' (or_intror H)) m1) as [m2 [E2 [A2 [O2 Q2]]]].
    exists m2. cbn [inter_pred]. rewrite E1. cbn [bindo]. split; [exact E2|]. split; [|split].
    + intros v x y [<- | Hv] Hin; [|apply A2; assumption]. rewrite Q2; [apply A1; exact Hin|].
      intros w Hw. destruct (FT w (or_intror Hw)) as [V1 [V2 [V3 [V4 [V5 V6]]]]]. intros B'.
      destruct (FT u (or_introl eq_refl)) as [U1 [U2 [U3 [U4 [U5 U6]]]]].
      apply (D1 (rect w) (in_map rect us w Hw) x y Hin). apply (unit_block n b i_fdec (rect w) x y HN V1 V5 V3 V4); [destruct Hin; lia|exact B'].
    + intros q Hq. rewrite O2 by exact Hq. apply O1. destruct (FT u (or_introl eq_refl)) as [U1 [U2 [U3 [U4 [U5 U6]]]]].
      apply (outside_block n); assumption.
    + intros q Hq. rewrite Q2; [apply O1; apply Hq; left; reflexivity|]. intros w Hw. apply Hq. right. exact Hw.
Qed.

Lemma half_inside : forall u x y, cx u mod 4 = 0 -> cy u mod 4 = 0 -> cw u mod 4 = 0 -> ch u mod 4 = 0 -> inside (half u) x y -> inside u (2 * x) (2 * y).
Proof.
  intros u x y H1 H2 H3 H4. unfold inside, half. cbn [B cx cy cw ch]. clear - H1 H2 H3 H4. Z.div_mod_to_equations. lia.
Qed.
Lemma half_uniq : forall us, (forall u, In u us -> cx u mod 4 = 0 /\ cy u mod 4 = 0 /\ cw u mod 4 = 0 /\ ch u mod 4 = 0) -> uniq us -> uniq (map half us).
Proof.
  intros us AL U i j u v x y Hi Hj Iu Iv. apply nth_map in Hi. apply nth_map in Hj. destruct Hi as [u' [Hi ->]], Hj as [v' [Hj ->]].
  destruct (AL u' (nth_error_In _ _ Hi)) as [? [? [? ?]]]. destruct (AL v' (nth_error_In _ _ Hj)) as [? [? [? ?]]].
  exact (U i j u' v' (2 * x) (2 * y) Hi Hj (half_inside u' x y ltac:(assumption) ltac:(assumption) ltac:(assumption) ltac:(assumption) Iu) (half_inside v' x y ltac:(assumption) ltac:(assumption) ltac:(assumption) ltac:(assumption) Iv)).
Qed.
Lemma pow_mod8 : forall level, 3 <= level -> 2 ^ level mod 8 = 0.
Proof. intros level H. replace level with (3 + (level - 3)) by lia. rewrite Z.pow_add_r by lia. change (2 ^ 3) with 8. rewrite Z.mul_comm. apply Z.mod_mul. lia. Qed.
Lemma mod84 : forall a, a mod 8 = 0 -> a mod 4 = 0.
Proof. intros a H. clear - H. Z.div_mod_to_equations. lia. Qed.
Lemma sum_mod4 : forall a b, a mod 4 = 0 -> b mod 4 = 0 -> (a + b) mod 4 = 0.
Proof. intros a b H1 H2. clear - H1 H2. Z.div_mod_to_equations. lia. Qed.
Lemma mult4_pos : forall a, a mod 4 = 0 -> 0 < a -> 4 <= a.
Proof. intros a H1 H2. clear - H1 H2. Z.div_mod_to_equations. lia. Qed.

Section Inter.
Variables (d W H slice ds mode dmh : Z) (fref : refs) (i_fref lx ly ctu_x ctu_y p_fdec i_fdec : Z) (t0 tb : mem) (us : list pum) (mot : pum -> list ((Z * Z) * Z)) (level : Z).
Hypothesis Hd : mc_depth d.
Hypothesis Hdmh : 0 <= dmh <= 8.
Hypothesis F0 : fref 0 <> None.
Hypothesis UP : unit_in_picture W H level (lx + ctu_x) (ly + ctu_y).
Hypothesis Hmode : 0 <= mode <= 7.
Hypothesis H3 : level = 3 -> mode <= 3.
Hypothesis US : map u_cb us = prediction_units slice ds mode level.
Hypothesis MOT : forall u, In u us -> motion (slice =? B_SLICE) dmh u (mot u).

Lemma unit_facts : forall u, In u us -> fits (2 ^ level) (u_cb u) /\ (cx (u_cb u) mod 4 = 0 /\ cy (u_cb u) mod 4 = 0 /\ cw (u_cb u) mod 4 = 0 /\ ch (u_cb u) mod 4 = 0) /\
  blk_ok W (ctu_x + cx (u_cb u) + lx) (cw (u_cb u)) /\ blk_ok H (ctu_y + cy (u_cb u) + ly) (ch (u_cb u)).
Proof.
  intros u Hu. destruct UP as [W8 [H8 [WM [HM [X8 [Y8 [X0 [Y0 [HL [XW YH]]]]]]]]]].
  assert (HI: In (u_cb u) (prediction_units slice ds mode level)) by (rewrite <- US; apply in_map; exact Hu).
  assert (FT := tiled_fits _ _ _ (pu_tiled slice ds mode level ltac:(lia) HL) HI).
  destruct (pu_aligned slice ds mode level (u_cb u) ltac:(lia) HL ltac:(lia) HI) as [A1 [A2 [A3 A4]]].
  split; [exact FT|]. split; [auto|]. destruct FT as [F1 [F2 [F3 [F4 [F5 F6]]]]].
  assert (P6: 2 ^ level <= 64) by (change 64 with (2 ^ 6); apply Z.pow_le_mono_r; lia).
  assert (P3: 8 <= 2 ^ level) by (change 8 with (2 ^ 3); apply Z.pow_le_mono_r; lia).
  split; unfold blk_ok.
  - replace (ctu_x + cx (u_cb u) + lx) with (lx + ctu_x + cx (u_cb u)) by lia. repeat split; try assumption; try lia; [apply sum_mod4; [apply mod84|]; assumption|apply mult4_pos; assumption].
  - replace (ctu_y + cy (u_cb u) + ly) with (ly + ctu_y + cy (u_cb u)) by lia. repeat split; try assumption; try lia; [apply sum_mod4; [apply mod84|]; assumption|apply mult4_pos; assumption].
Qed.
Lemma units_uniq : uniq (map u_cb us).
Proof. rewrite US. apply (tiled_uniq (2 ^ level)). apply pu_tiled; [lia|]. destruct UP as [_ [_ [_ [_ [_ [_ [_ [_ [HL _]]]]]]]]]. exact HL. Qed.
Lemma inter_luma : 2 ^ level <= i_fdec -> (forall u, In u us -> refs_ready 80 d W H i_fref fref (mot u)) ->
  let b := p_fdec + ctu_y * i_fdec + ctu_x in
  forall m, exists m', inter_pred false d (W, H) slice dmh fref i_fref lx ly ctu_x ctu_y p_fdec i_fdec t0 tb us m = Done m' /\
    (forall u x y, In u us -> inside (u_cb u) x y -> m' (b + y * i_fdec + x) = predicted (luma_ref d W H i_fref fref (lx + ctu_x + x) (ly + ctu_y + y)) (mot u)) /\
    (forall q, ~ in_block (Z.to_nat (2 ^ level)) (Z.to_nat (2 ^ level)) b i_fdec q -> m' q = m q).
Proof.
  intros HN RR b m. destruct UP as [W8 [H8 [WM [HM _]]]].
  destruct (inter_pred_loop false d (W, H) slice dmh fref i_fref lx ly ctu_x ctu_y p_fdec i_fdec t0 tb u_cb
    (fun u x y => predicted (luma_ref d W H i_fref fref (lx + ctu_x + x) (ly + ctu_y + y)) (mot u)) (2 ^ level) b us HN) with (m := m) as [m' [E [A [O _]]]].
  - intros u Hu. exact (proj1 (unit_facts u Hu)).
  - apply uniq_disjoint. exact units_uniq.
  - intros u m1 Hu. destruct (unit_facts u Hu) as [[F1 [F2 [F3 [F4 [F5 F6]]]]] [_ [BX BY]]].
    apply pu_luma; try assumption; try lia; [apply MOT; exact Hu|apply RR; exact Hu].
  - exists m'. auto.
Qed.
Lemma even_pos : (lx + ctu_x) mod 8 = 0 -> lx mod 8 = 0 -> lx mod 2 = 0 /\ ctu_x mod 2 = 0.
Proof. intros A C. clear - A C. Z.div_mod_to_equations. lia. Qed.
Lemma inter_chroma : 2 ^ (level - 1) <= i_fdec -> (forall u, In u us -> refs_ready 40 d (W / 2) (H / 2) i_fref fref (mot u)) ->
  lx mod 2 = 0 -> ly mod 2 = 0 -> ctu_x mod 2 = 0 -> ctu_y mod 2 = 0 ->
  let b := p_fdec + ctu_y / 2 * i_fdec + ctu_x / 2 in
  forall m, exists m', inter_pred true d (W, H) slice dmh fref i_fref lx ly ctu_x ctu_y p_fdec i_fdec t0 tb us m = Done m' /\
    (forall u x y, In u us -> inside (u_cb u) (2 * x) (2 * y) -> m' (b + y * i_fdec + x) =
       predicted (chroma_ref d W H i_fref fref ((lx + ctu_x) / 2 + x) ((ly + ctu_y) / 2 + y)) (mot u)) /\
    (forall q, ~ in_block (Z.to_nat (2 ^ (level - 1))) (Z.to_nat (2 ^ (level - 1))) b i_fdec q -> m' q = m q).
Proof.
  intros HN RR EX EY ECX ECY b m. destruct UP as [W8 [H8 [WM [HM [_ [_ [_ [_ [HL _]]]]]]]]].
  assert (P2: 2 ^ level = 2 * 2 ^ (level - 1)) by (rewrite <- Z.pow_succ_r by lia; f_equal; lia).
  destruct (inter_pred_loop true d (W, H) slice dmh fref i_fref lx ly ctu_x ctu_y p_fdec i_fdec t0 tb (fun u => half (u_cb u))
    (fun u x y => predicted (chroma_ref d W H i_fref fref ((lx + ctu_x) / 2 + x) ((ly + ctu_y) / 2 + y)) (mot u)) (2 ^ (level - 1)) b us HN) with (m := m) as [m' [E [A [O _]]]].
  - intros u Hu. destruct (unit_facts u Hu) as [[F1 [F2 [F3 [F4 [F5 F6]]]]] [[A1 [A2 [A3 A4]]] _]].
    unfold fits, half. cbn [B cx cy cw ch]. clear - F1 F2 F3 F4 F5 F6 A1 A2 A3 A4 P2. Z.div_mod_to_equations. lia.
  - replace (map (fun u => half (u_cb u)) us) with (map half (map u_cb us)) by apply map_map.
    apply uniq_disjoint. apply half_uniq; [|exact units_uniq]. intros c Hc. apply in_map_iff in Hc. destruct Hc as [u [<- Hu]]. apply (unit_facts u Hu).
  - intros u m1 Hu. destruct (unit_facts u Hu) as [[F1 [F2 [F3 [F4 [F5 F6]]]]] [_ [BX BY]]].
    apply pu_chroma; try assumption; try lia; [apply MOT; exact Hu|apply RR; exact Hu|].
    clear - F5 F1 HN P2. Z.div_mod_to_equations. lia.
  - exists m'. split; [exact E|]. split; [|exact O]. intros u x y Hu [Ix Iy]. apply A; [exact Hu|].
    destruct (unit_facts u Hu) as [_ [[A1 [A2 [A3 A4]]] _]]. unfold inside, half. cbn [B cx cy cw ch]. clear - Ix Iy A1 A2 A3 A4. Z.div_mod_to_equations. lia.
Qed.
End Inter.

(** With the residual. *)
Definition hor_flag (r : rcu) (k : Z) : bool := (((0 <=? r_mode r k) && (r_mode r k <=? 2)) || ((13 <=? r_mode r k) && (r_mode r k <=? 32))) && r_left r.
Definition ver_flag (r : rcu) (k : Z) : bool := ((0 <=? r_mode r k) && (r_mode r k <=? 23)) && r_top r.
Lemma flags_ok : forall r, hv_ok r (hor_flag r) (ver_flag r).
Proof.
  intros r i. unfold hor_flag, ver_flag, sec_hor, sec_ver. split; rewrite ?andb_true_iff, ?orb_true_iff, ?andb_true_iff, ?Z.leb_le; tauto.
Qed.
Lemma block_residual_nosec : forall w h d hor ver c x y, block_residual w h d false hor ver c x y = block_residual w h d false false false c x y.
Proof. reflexivity. Qed.
Lemma recon_inter_luma_spec : forall d W H slice ds mode dmh fref i_fref lx ly ctu_x ctu_y p_fdec i_fdec us mot r cbp t0 tb cbuf fdec,
  mc_depth d -> 0 <= dmh <= 8 -> fref 0 <> None -> unit_in_picture W H (r_level r) (lx + ctu_x) (ly + ctu_y) ->
  0 <= mode <= 7 -> (r_level r = 3 -> mode <= 3) -> map u_cb us = prediction_units slice ds mode (r_level r) ->
  (forall u, In u us -> motion (slice =? B_SLICE) dmh u (mot u) /\ refs_ready 80 d W H i_fref fref (mot u)) ->
  r_intra r = false -> split_ok (r_level r) (r_split r) -> 2 ^ r_level r <= i_fdec ->
  let b := p_fdec + ctu_y * i_fdec + ctu_x in
  exists c' f', recon_inter_luma d (W, H) slice dmh fref i_fref lx ly ctu_x ctu_y p_fdec i_fdec us r cbp t0 tb cbuf fdec = Done (c', f') /\
    (forall u k t x y, In u us -> inside (u_cb u) x y ->
       nth_error (firstn (tu_count (r_split r)) (transform_units (r_split r) (r_level r))) k = Some t -> inside t x y ->
       let p := predicted (luma_ref d W H i_fref fref (lx + ctu_x + x) (ly + ctu_y + y)) (mot u) in
       f' (b + y * i_fdec + x) =
       if coded cbp (r_split r) (Z.of_nat k)
       then sample d (p + unit_residual d false false false cbuf (luma_place (r_zscan r) (r_level r) (Z.of_nat k)) t x y) else p) /\
    (forall q, ~ in_block (Z.to_nat (2 ^ r_level r)) (Z.to_nat (2 ^ r_level r)) b i_fdec q -> f' q = fdec q).
Proof.
  intros d W H slice ds mode dmh fref i_fref lx ly ctu_x ctu_y p_fdec i_fdec us mot r cbp t0 tb cbuf fdec Hd Hdm F0 UP Hm H3 US MR NI SO HN b.
  assert (HL: 3 <= r_level r <= 6) by (destruct UP as [_ [_ [_ [_ [_ [_ [_ [_ [HL _]]]]]]]]]; exact HL).
  destruct (inter_luma d W H slice ds mode dmh fref i_fref lx ly ctu_x ctu_y p_fdec i_fdec t0 tb us mot (r_level r) Hd Hdm F0 UP Hm H3 US
    (fun u Hu => proj1 (MR u Hu)) HN (fun u Hu => proj2 (MR u Hu)) fdec) as [m1 [E1 [A1 O1]]]. fold b in A1, O1.
  destruct (recons_luma_spec d r (hor_flag r) (ver_flag r) Hd (flags_ok r) HL cbp ctu_x ctu_y p_fdec i_fdec t0 cbuf m1 HN SO) as [c' [f' [E2 [A2 [O2 _]]]]]. fold b in A2, O2.
  exists c', f'. unfold recon_inter_luma. rewrite E1. cbn [bindo]. split; [exact E2|]. split.
  - intros u k t x y Hu Iu Hk It. cbv zeta. rewrite (A2 k t x y Hk It). rewrite (A1 u x y Hu Iu). rewrite NI, andb_false_r.
    destruct (coded cbp (r_split r) (Z.of_nat k)); reflexivity.
  - intros q Hq. rewrite O2 by exact Hq. apply O1. exact Hq.
Qed.
Lemma recon_inter_chroma_spec : forall d W H slice ds mode dmh fref i_fref lx ly ctu_x ctu_y p_fdec i_fdec us mot r cbp k t0 tb cbuf fdec,
  mc_depth d -> 0 <= dmh <= 8 -> fref 0 <> None -> unit_in_picture W H (r_level r) (lx + ctu_x) (ly + ctu_y) -> lx mod 8 = 0 -> ly mod 8 = 0 ->
  0 <= mode <= 7 -> (r_level r = 3 -> mode <= 3) -> map u_cb us = prediction_units slice ds mode (r_level r) ->
  (forall u, In u us -> motion (slice =? B_SLICE) dmh u (mot u) /\ refs_ready 40 d (W / 2) (H / 2) i_fref fref (mot u)) ->
  k = 4 \/ k = 5 -> 2 ^ (r_level r - 1) <= i_fdec ->
  let b := p_fdec + ctu_y / 2 * i_fdec + ctu_x / 2 in let n := 2 ^ (r_level r - 1) in
  exists c' f', recon_inter_chroma d (W, H) slice dmh fref i_fref lx ly ctu_x ctu_y p_fdec i_fdec us r cbp k t0 tb cbuf fdec = Done (c', f') /\
    (forall u x y, In u us -> inside (u_cb u) (2 * x) (2 * y) ->
       let p := predicted (chroma_ref d W H i_fref fref ((lx + ctu_x) / 2 + x) ((ly + ctu_y) / 2 + y)) (mot u) in
       f' (b + y * i_fdec + x) =
       if Z.testbit cbp k
       then sample d (p + block_residual n n d false false false (coeffs_at cbuf (chroma_place (r_zscan r)) n) x y) else p) /\
    (forall q, ~ in_block (Z.to_nat n) (Z.to_nat n) b i_fdec q -> f' q = fdec q).
Proof.
  intros d W H slice ds mode dmh fref i_fref lx ly ctu_x ctu_y p_fdec i_fdec us mot r cbp k t0 tb cbuf fdec Hd Hdm F0 UP LX LY Hm H3 US MR K HN b n.
  assert (UP' := UP). destruct UP' as [_ [_ [_ [_ [X8 [Y8 [_ [_ [HL _]]]]]]]]].
  destruct (even_pos lx ctu_x X8 LX) as [PX PCX]. destruct (even_pos ly ctu_y Y8 LY) as [PY PCY].
  destruct (inter_chroma d W H slice ds mode dmh fref i_fref lx ly ctu_x ctu_y p_fdec i_fdec t0 tb us mot (r_level r) Hd Hdm F0 UP Hm H3 US
    (fun u Hu => proj1 (MR u Hu)) HN (fun u Hu => proj2 (MR u Hu)) PX PY PCX PCY fdec) as [m1 [E1 [A1 O1]]]. fold b in A1, O1. fold n in O1.
  destruct (recons_chroma_spec d r (hor_flag r) (ver_flag r) Hd (flags_ok r) HL cbp k ctu_x ctu_y p_fdec i_fdec t0 cbuf m1 K HN) as [c' [f' [E2 [A2 [O2 _]]]]]. fold b in A2, O2. fold n in A2, O2.
  exists c', f'. unfold recon_inter_chroma. rewrite E1. cbn [bindo]. split; [exact E2|]. split.
  - intros u x y Hu Iu. cbv zeta.
    assert (HI: In (u_cb u) (prediction_units slice ds mode (r_level r))) by (rewrite <- US; apply in_map; exact Hu).
    destruct (tiled_fits _ _ _ (pu_tiled slice ds mode (r_level r) ltac:(lia) HL) HI) as [F1 [F2 [F3 [F4 [F5 F6]]]]].
    assert (P2: 2 ^ r_level r = 2 * n) by (unfold n; rewrite <- Z.pow_succ_r by lia; f_equal; lia).
    destruct Iu as [Ix Iy]. rewrite (A2 x y) by lia. rewrite (A1 u x y Hu (conj Ix Iy)). reflexivity.
  - intros q Hq. rewrite O2 by exact Hq. apply O1. exact Hq.
Qed.
