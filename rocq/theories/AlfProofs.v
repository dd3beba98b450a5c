(** The block kernels of the adaptive loop filter. *)
From Coq Require Import ZArith List Bool Lia.
From Verif Require Import CBase MemModel HdrModel MemProofs SaoModel SaoSpec SaoProofs AlfModel AlfSpec.
Import ListNotations.
Open Scope Z_scope.

Definition asum (co : list Z) (f : Z -> Z -> Z) : Z :=
  fold_right Z.add 0 (map (fun t => let '(i, dx, dy) := t in cf co i * f dx dy) support).
Lemma asum_eq co f : asum co f =
  cf co 0 * (f 0 (-3) + f 0 3) + cf co 1 * (f 0 (-2) + f 0 2) + cf co 2 * (f (-1) (-1) + f 1 1) + cf co 3 * (f 0 (-1) + f 0 1) +
  cf co 4 * (f 1 (-1) + f (-1) 1) + cf co 5 * (f (-3) 0 + f 3 0) + cf co 6 * (f (-2) 0 + f 2 0) + cf co 7 * (f (-1) 0 + f 1 0) + cf co 8 * f 0 0.
Proof. unfold asum, support. cbn [map fold_right]. ring. Qed.
Lemma asum_ext co f g : (forall i dx dy, In (i, dx, dy) support -> f dx dy = g dx dy) -> asum co f = asum co g.
Proof.
  unfold asum. intros E. f_equal. apply map_ext_in. intros [[i dx] dy] H. rewrite (E i dx dy H). reflexivity.
Qed.
Definition rnd (depth v : Z) : Z := saturate depth ((v + 32) / 64).
Lemma rnd_shift depth v : 0 <= depth -> clip_to depth (Z.shiftr (v + 32) 6) = rnd depth v.
Proof. intros D. rewrite clip_to_sat, Z.shiftr_div_pow2 by lia. reflexivity. Qed.

Section Block.
  Variables (src dst : mem) (base stride px py w h0 depth : Z) (co : list Z) (top down : bool).
  Let st := alf_start top py. Let en := alf_end down py h0. Let h := en - st.
  Let p0 := base + (st * stride + px).
  Hypothesis Hw : 2 <= w. Hypothesis Hh : 4 <= h. Hypothesis Hs : w <= stride. Hypothesis Dp : 0 <= depth.
  Definition Sm (x y : Z) : Z := src (p0 + y * stride + x).
  Definition Tm (x y : Z) : Z := Sm (if outside 0 (h - 1) y && outside 0 (w - 1) x then clamp 0 (w - 1) x else x) (clamp 0 (h - 1) y).
  Definition A1 (x y : Z) : Z := rnd depth (asum co (fun dx dy => Sm (x + dx) (clamp 0 (h - 1) (y + dy)))).
  Definition B1 (x y : Z) : Z := rnd depth (asum co (fun dx dy => Tm (x + dx) (y + dy))).

  Lemma clip3_clamp lo hi v : lo <= hi -> clip3 lo hi v = clamp lo hi v.
  Proof. intros L. unfold clip3, clamp. destruct (Z.ltb_spec v lo); [lia|]. destruct (Z.ltb_spec hi v); lia. Qed.

  Lemma block1_wr : wr w h p0 stride dst A1 (fun _ _ => true) (alf_block1 src base stride px py w h0 depth co top down dst).
  Proof.
    unfold alf_block1. cbv zeta. fold st en p0. replace (en - st - 1 + 1) with h by (unfold h; lia). replace (en - st - 1) with (h - 1) by (unfold h; lia).
    apply (wr_ext w h p0 stride dst A1 (fun x y => y <? h)).
    { intros x y X Y. apply Z.ltb_lt. lia. }
    apply (floop_inv (fun Y m => wr w h p0 stride dst A1 (fun x y => y <? Y) m)); [lia|..].
    { eapply wr_ext; [|apply wr_none]. intros x y X Y. symmetry. apply Z.ltb_ge. lia. }
    intros Y m HY Hm.
    apply (wr_ext w h p0 stride dst A1 (rowP (fun x y => y <? Y) Y 0 w)).
    { intros x y X Y0. unfold rowP. destruct (Z.ltb_spec y Y), (Z.eqb_spec y Y), (Z.leb_spec 0 x), (Z.ltb_spec x w), (Z.ltb_spec y (Y + 1)); cbn; try reflexivity; lia. }
    apply (floop_inv (fun X m => wr w h p0 stride dst A1 (rowP (fun x y => y <? Y) Y 0 X) m)); [lia|..].
    { apply wr_row_start; assumption. }
    intros X m' HX Hm'. apply wr_row_step; try assumption; try lia.
    change (Z.shiftl 1 5) with 32. rewrite rnd_shift by exact Dp. unfold A1. f_equal. rewrite asum_eq. unfold Sm.
    assert (C : forall k, -3 <= k <= 3 -> clip3 (-3) (w - 1 + 3) (X + k) = X + k) by (intros; rewrite clip3_clamp by lia; unfold clamp; lia).
    pose proof (C (-1) ltac:(lia)) as C1. pose proof (C 1 ltac:(lia)) as C2. pose proof (C (-2) ltac:(lia)) as C3.
    pose proof (C 2 ltac:(lia)) as C4. pose proof (C (-3) ltac:(lia)) as C5. pose proof (C 3 ltac:(lia)) as C6.
    replace (X - 1) with (X + -1) by lia. replace (X - 2) with (X + -2) by lia. replace (X - 3) with (X + -3) by lia.
    rewrite C1, C2, C3, C4, C5, C6. clear C C1 C2 C3 C4 C5 C6.
    replace (Y - 1) with (Y + -1) by lia. replace (Y - 2) with (Y + -2) by lia. replace (Y - 3) with (Y + -3) by lia.
    rewrite !clip3_clamp by lia.
    replace (clamp 0 (h - 1) (Y + 0)) with Y by (unfold clamp; lia).
    assert (R : forall c x, p0 + Y * stride + (c - Y) * stride + x = p0 + c * stride + x) by (intros; ring).
    rewrite !R. rewrite !Z.add_0_r. ring.
  Qed.

  Lemma Tm_at x y cx cy : cy = Z.max 0 (Z.min (h - 1) y) ->
    (((y < 0 \/ h - 1 < y) /\ (x < 0 \/ w - 1 < x) /\ cx = Z.max 0 (Z.min (w - 1) x)) \/ (((0 <= y <= h - 1) \/ (0 <= x <= w - 1)) /\ cx = x)) ->
    Tm x y = Sm cx cy.
  Proof.
    intros -> C. unfold Tm, outside, clamp. f_equal.
    destruct (Z.ltb_spec y 0), (Z.ltb_spec (h - 1) y), (Z.ltb_spec x 0), (Z.ltb_spec (w - 1) x); cbn [orb andb]; lia.
  Qed.

  Lemma inner x y : 0 <= x < w -> 0 <= y < h -> ((x <> 0 /\ x <> w - 1) \/ (y <> 0 /\ y <> h - 1)) -> A1 x y = B1 x y.
  Proof.
    intros X Y N. unfold A1, B1. f_equal. apply asum_ext. intros i dx dy I.
    symmetry. apply Tm_at; [reflexivity|]. right. split; [|reflexivity].
    unfold support in I. cbn [In] in I. repeat (destruct I as [I|I]; [injection I as <- <- <-; lia|]). destruct I.
  Qed.

  (** The corners. *)
  Lemma corner_gen p p1 p2 p3 p4 p5 p6 a b c d f :
    src p5 + src p6 = f 0 (-3) + f 0 3 -> src p3 + src p4 = f 0 (-2) + f 0 2 -> src (p1 + a) + src (p2 + b) = f (-1) (-1) + f 1 1 ->
    src p1 + src p2 = f 0 (-1) + f 0 1 -> src (p1 + c) + src (p2 + d) = f 1 (-1) + f (-1) 1 ->
    src (p + 3) + src (p - 3) = f (-3) 0 + f 3 0 -> src (p + 2) + src (p - 2) = f (-2) 0 + f 2 0 -> src (p + 1) + src (p - 1) = f (-1) 0 + f 1 0 -> src p = f 0 0 ->
    alf_corner src p p1 p2 p3 p4 p5 p6 a b c d depth co = rnd depth (asum co f).
  Proof.
    intros E0 E1 E2 E3 E4 E5 E6 E7 E8. unfold alf_corner. rewrite rnd_shift by exact Dp. f_equal. rewrite asum_eq.
    rewrite E0, E1, E2, E3, E4, E5, E6, E7, E8. ring.
  Qed.
  Lemma Tm_src x y cx cy q : q = p0 + cy * stride + cx -> cy = Z.max 0 (Z.min (h - 1) y) ->
    (((y < 0 \/ h - 1 < y) /\ (x < 0 \/ w - 1 < x) /\ cx = Z.max 0 (Z.min (w - 1) x)) \/ (((0 <= y <= h - 1) \/ (0 <= x <= w - 1)) /\ cx = x)) ->
    src q = Tm x y.
  Proof. intros -> C1 C2. rewrite (Tm_at x y cx cy C1 C2). reflexivity. Qed.
  Lemma sum2 a b c d : a = c -> b = d -> a + b = c + d. Proof. intros -> ->. reflexivity. Qed.
  Lemma sum2' a b c d : a = d -> b = c -> a + b = c + d. Proof. intros -> ->. lia. Qed.

  Lemma corner_tl : alf_corner src p0 (p0 + 1 * stride) p0 (p0 + 2 * stride) p0 (p0 + 3 * stride) p0 1 0 (-1) 1 depth co = B1 (0) (0).
  Proof.
    apply corner_gen.
    - apply sum2'; [apply (Tm_src _ _ (0) (3)); [ring|lia|lia]|apply (Tm_src _ _ (0) (0)); [ring|lia|lia]].
    - apply sum2'; [apply (Tm_src _ _ (0) (2)); [ring|lia|lia]|apply (Tm_src _ _ (0) (0)); [ring|lia|lia]].
    - apply sum2'; [apply (Tm_src _ _ (1) (1)); [ring|lia|lia]|apply (Tm_src _ _ (0) (0)); [ring|lia|lia]].
    - apply sum2'; [apply (Tm_src _ _ (0) (1)); [ring|lia|lia]|apply (Tm_src _ _ (0) (0)); [ring|lia|lia]].
    - apply sum2'; [apply (Tm_src _ _ (-1) (1)); [ring|lia|lia]|apply (Tm_src _ _ (1) (0)); [ring|lia|lia]].
    - apply sum2'; [apply (Tm_src _ _ (3) (0)); [ring|lia|lia]|apply (Tm_src _ _ (-3) (0)); [ring|lia|lia]].
    - apply sum2'; [apply (Tm_src _ _ (2) (0)); [ring|lia|lia]|apply (Tm_src _ _ (-2) (0)); [ring|lia|lia]].
    - apply sum2'; [apply (Tm_src _ _ (1) (0)); [ring|lia|lia]|apply (Tm_src _ _ (-1) (0)); [ring|lia|lia]].
    - apply (Tm_src _ _ (0) (0)); [ring|lia|lia].
  Qed.
  Lemma corner_tr : alf_corner src (p0 + (w - 1)) ((p0 + (w - 1)) + 1 * stride) (p0 + (w - 1)) ((p0 + (w - 1)) + 2 * stride) (p0 + (w - 1)) ((p0 + (w - 1)) + 3 * stride) (p0 + (w - 1)) 1 (-1) (-1) 0 depth co = B1 (w - 1) (0).
  Proof.
    apply corner_gen.
    - apply sum2'; [apply (Tm_src _ _ (w - 1 + 0) (3)); [ring|lia|lia]|apply (Tm_src _ _ (w - 1 + 0) (0)); [ring|lia|lia]].
    - apply sum2'; [apply (Tm_src _ _ (w - 1 + 0) (2)); [ring|lia|lia]|apply (Tm_src _ _ (w - 1 + 0) (0)); [ring|lia|lia]].
    - apply sum2'; [apply (Tm_src _ _ (w - 1 + 1) (1)); [ring|lia|lia]|apply (Tm_src _ _ (w - 1 - 1) (0)); [ring|lia|lia]].
    - apply sum2'; [apply (Tm_src _ _ (w - 1 + 0) (1)); [ring|lia|lia]|apply (Tm_src _ _ (w - 1 + 0) (0)); [ring|lia|lia]].
    - apply sum2'; [apply (Tm_src _ _ (w - 1 - 1) (1)); [ring|lia|lia]|apply (Tm_src _ _ (w - 1) (0)); [ring|lia|lia]].
    - apply sum2'; [apply (Tm_src _ _ (w - 1 + 3) (0)); [ring|lia|lia]|apply (Tm_src _ _ (w - 1 - 3) (0)); [ring|lia|lia]].
    - apply sum2'; [apply (Tm_src _ _ (w - 1 + 2) (0)); [ring|lia|lia]|apply (Tm_src _ _ (w - 1 - 2) (0)); [ring|lia|lia]].
    - apply sum2'; [apply (Tm_src _ _ (w - 1 + 1) (0)); [ring|lia|lia]|apply (Tm_src _ _ (w - 1 - 1) (0)); [ring|lia|lia]].
    - apply (Tm_src _ _ (w - 1 + 0) (0)); [ring|lia|lia].
  Qed.
  Lemma corner_bl : alf_corner src (p0 + (h - 1) * stride) (p0 + (h - 1) * stride) ((p0 + (h - 1) * stride) - 1 * stride) (p0 + (h - 1) * stride) ((p0 + (h - 1) * stride) - 2 * stride) (p0 + (h - 1) * stride) ((p0 + (h - 1) * stride) - 3 * stride) 1 (-1) 0 1 depth co = B1 (0) (h - 1).
  Proof.
    apply corner_gen.
    - apply sum2'; [apply (Tm_src _ _ (0) (h - 1)); [ring|lia|lia]|apply (Tm_src _ _ (0) (h - 1 - 3)); [ring|lia|lia]].
    - apply sum2'; [apply (Tm_src _ _ (0) (h - 1)); [ring|lia|lia]|apply (Tm_src _ _ (0) (h - 1 - 2)); [ring|lia|lia]].
    - apply sum2'; [apply (Tm_src _ _ (1) (h - 1)); [ring|lia|lia]|apply (Tm_src _ _ (-1) (h - 1 - 1)); [ring|lia|lia]].
    - apply sum2'; [apply (Tm_src _ _ (0) (h - 1)); [ring|lia|lia]|apply (Tm_src _ _ (0) (h - 1 - 1)); [ring|lia|lia]].
    - apply sum2'; [apply (Tm_src _ _ (0) (h - 1)); [ring|lia|lia]|apply (Tm_src _ _ (1) (h - 1 - 1)); [ring|lia|lia]].
    - apply sum2'; [apply (Tm_src _ _ (3) (h - 1)); [ring|lia|lia]|apply (Tm_src _ _ (-3) (h - 1)); [ring|lia|lia]].
    - apply sum2'; [apply (Tm_src _ _ (2) (h - 1)); [ring|lia|lia]|apply (Tm_src _ _ (-2) (h - 1)); [ring|lia|lia]].
    - apply sum2'; [apply (Tm_src _ _ (1) (h - 1)); [ring|lia|lia]|apply (Tm_src _ _ (-1) (h - 1)); [ring|lia|lia]].
    - apply (Tm_src _ _ (0) (h - 1)); [ring|lia|lia].
  Qed.
  Lemma corner_br : alf_corner src (p0 + (h - 1) * stride + (w - 1)) (p0 + (h - 1) * stride + (w - 1)) ((p0 + (h - 1) * stride + (w - 1)) - 1 * stride) (p0 + (h - 1) * stride + (w - 1)) ((p0 + (h - 1) * stride + (w - 1)) - 2 * stride) (p0 + (h - 1) * stride + (w - 1)) ((p0 + (h - 1) * stride + (w - 1)) - 3 * stride) 0 (-1) (-1) 1 depth co = B1 (w - 1) (h - 1).
  Proof.
    apply corner_gen.
    - apply sum2'; [apply (Tm_src _ _ (w - 1 + 0) (h - 1)); [ring|lia|lia]|apply (Tm_src _ _ (w - 1 + 0) (h - 1 - 3)); [ring|lia|lia]].
    - apply sum2'; [apply (Tm_src _ _ (w - 1 + 0) (h - 1)); [ring|lia|lia]|apply (Tm_src _ _ (w - 1 + 0) (h - 1 - 2)); [ring|lia|lia]].
    - apply sum2'; [apply (Tm_src _ _ (w - 1) (h - 1)); [ring|lia|lia]|apply (Tm_src _ _ (w - 1 - 1) (h - 1 - 1)); [ring|lia|lia]].
    - apply sum2'; [apply (Tm_src _ _ (w - 1 + 0) (h - 1)); [ring|lia|lia]|apply (Tm_src _ _ (w - 1 + 0) (h - 1 - 1)); [ring|lia|lia]].
    - apply sum2'; [apply (Tm_src _ _ (w - 1 - 1) (h - 1)); [ring|lia|lia]|apply (Tm_src _ _ (w - 1 + 1) (h - 1 - 1)); [ring|lia|lia]].
    - apply sum2'; [apply (Tm_src _ _ (w - 1 + 3) (h - 1)); [ring|lia|lia]|apply (Tm_src _ _ (w - 1 - 3) (h - 1)); [ring|lia|lia]].
    - apply sum2'; [apply (Tm_src _ _ (w - 1 + 2) (h - 1)); [ring|lia|lia]|apply (Tm_src _ _ (w - 1 - 2) (h - 1)); [ring|lia|lia]].
    - apply sum2'; [apply (Tm_src _ _ (w - 1 + 1) (h - 1)); [ring|lia|lia]|apply (Tm_src _ _ (w - 1 - 1) (h - 1)); [ring|lia|lia]].
    - apply (Tm_src _ _ (w - 1 + 0) (h - 1)); [ring|lia|lia].
  Qed.
  Lemma corner_same x y ex ey : (x = 0 /\ ex = -1 \/ x = w - 1 /\ ex = 1) -> (y = 0 /\ ey = -1 \/ y = h - 1 /\ ey = 1) ->
    Sm x y = Sm (x + ex) y -> A1 x y = B1 x y.
  Proof.
    intros X Y E. unfold A1, B1. f_equal. apply asum_ext. intros i dx dy I.
    destruct (Z.eq_dec dx ex) as [Ex|Ex]; [destruct (Z.eq_dec dy ey) as [Ey|Ey]|].
    - subst dx dy. assert (C : clamp 0 (h - 1) (y + ey) = y) by (unfold clamp; lia). rewrite C, <- E.
      symmetry. apply Tm_at; [lia|]. left. lia.
    - symmetry. apply Tm_at; [reflexivity|]. right. split; [|reflexivity].
      unfold support in I. cbn [In] in I. repeat (destruct I as [I|I]; [injection I as <- <- <-; lia|]). destruct I.
    - symmetry. apply Tm_at; [reflexivity|]. right. split; [|reflexivity].
      unfold support in I. cbn [In] in I. repeat (destruct I as [I|I]; [injection I as <- <- <-; lia|]). destruct I.
  Qed.

  Lemma cond_upd (c : bool) (m : mem) p v q : (c = false -> m p = v) -> (if c then upd m p v else m) q = if q =? p then v else m q.
  Proof.
    intros E. destruct c; [reflexivity|]. destruct (Z.eqb_spec q p) as [->|]; [apply E; reflexivity|reflexivity].
  Qed.
  Lemma p_inj x y x' y' : 0 <= x < w -> 0 <= x' < w -> p0 + y * stride + x = p0 + y' * stride + x' -> x = x' /\ y = y'.
  Proof. intros X X' E. assert (y = y') by nia. subst. lia. Qed.

  Lemma alf_block_correct :
    block_becomes w h p0 stride dst
      (alf_block2 src base stride px py w h0 depth co top down (alf_block1 src base stride px py w h0 depth co top down dst))
      (fun x y => Some (B1 x y)).
  Proof.
    pose proof block1_wr as [W1 W2]. set (d1 := alf_block1 src base stride px py w h0 depth co top down dst) in *. clearbody d1.
    cbv beta iota in W1. unfold alf_block2. cbv zeta. fold st en p0.
    replace (p0 + (w - 1) - (w - 1) + (en - st - 1) * stride) with (p0 + (h - 1) * stride) by (unfold h; ring).
    rewrite corner_tl, corner_tr, corner_bl, corner_br.
    set (d2 := if negb (src p0 =? src (p0 - 1)) then upd d1 p0 (B1 0 0) else d1).
    assert (E2 : forall q, d2 q = if q =? p0 then B1 0 0 else d1 q).
    { intros q. apply cond_upd. intros C. apply negb_false_iff, Z.eqb_eq in C.
      replace p0 with (p0 + 0 * stride + 0) at 1 by ring. rewrite W1 by lia. apply (corner_same 0 0 (-1) (-1)); [lia|lia|].
      unfold Sm. replace (p0 + 0 * stride + 0) with p0 by ring. replace (p0 + 0 * stride + (0 + -1)) with (p0 - 1) by ring. exact C. }
    set (d3 := if negb (src (p0 + (w - 1)) =? src (p0 + (w - 1) + 1)) then upd d2 (p0 + (w - 1)) (B1 (w - 1) 0) else d2).
    assert (E3 : forall q, d3 q = if q =? p0 + (w - 1) then B1 (w - 1) 0 else d2 q).
    { intros q. apply cond_upd. intros C. apply negb_false_iff, Z.eqb_eq in C.
      rewrite E2. replace (p0 + (w - 1) =? p0) with false by (symmetry; apply Z.eqb_neq; lia).
      replace (p0 + (w - 1)) with (p0 + 0 * stride + (w - 1)) by ring. rewrite W1 by lia. apply (corner_same (w - 1) 0 1 (-1)); [lia|lia|].
      unfold Sm. replace (p0 + 0 * stride + (w - 1)) with (p0 + (w - 1)) by ring. replace (p0 + 0 * stride + (w - 1 + 1)) with (p0 + (w - 1) + 1) by ring. exact C. }
    set (d4 := if negb (src (p0 + (h - 1) * stride) =? src (p0 + (h - 1) * stride - 1)) then upd d3 (p0 + (h - 1) * stride) (B1 0 (h - 1)) else d3).
    assert (N1 : forall x y, 0 <= x < w -> 0 <= y < h -> (p0 + y * stride + x =? p0) = (x =? 0) && (y =? 0)).
    { intros x y X Y. destruct (Z.eqb_spec (p0 + y * stride + x) p0) as [E|E].
      - replace p0 with (p0 + 0 * stride + 0) in E at 2 by ring. apply p_inj in E; [|lia|lia]. destruct E as [-> ->]. reflexivity.
      - symmetry. apply andb_false_iff. destruct (Z.eqb_spec x 0) as [->|]; [|left; reflexivity]. right. apply Z.eqb_neq. intros ->. apply E. ring. }
    assert (N2 : forall x y, 0 <= x < w -> 0 <= y < h -> (p0 + y * stride + x =? p0 + (w - 1)) = (x =? w - 1) && (y =? 0)).
    { intros x y X Y. destruct (Z.eqb_spec (p0 + y * stride + x) (p0 + (w - 1))) as [E|E].
      - replace (p0 + (w - 1)) with (p0 + 0 * stride + (w - 1)) in E by ring. apply p_inj in E; [|lia|lia]. destruct E as [-> ->]. rewrite Z.eqb_refl. reflexivity.
      - symmetry. apply andb_false_iff. destruct (Z.eqb_spec x (w - 1)) as [->|]; [|left; reflexivity]. right. apply Z.eqb_neq. intros ->. apply E. ring. }
    assert (N3 : forall x y, 0 <= x < w -> 0 <= y < h -> (p0 + y * stride + x =? p0 + (h - 1) * stride) = (x =? 0) && (y =? h - 1)).
    { intros x y X Y. destruct (Z.eqb_spec (p0 + y * stride + x) (p0 + (h - 1) * stride)) as [E|E].
      - replace (p0 + (h - 1) * stride) with (p0 + (h - 1) * stride + 0) in E by ring. apply p_inj in E; [|lia|lia]. destruct E as [-> ->]. rewrite !Z.eqb_refl. reflexivity.
      - symmetry. apply andb_false_iff. destruct (Z.eqb_spec x 0) as [->|]; [|left; reflexivity]. right. apply Z.eqb_neq. intros ->. apply E. ring. }
    assert (N4 : forall x y, 0 <= x < w -> 0 <= y < h -> (p0 + y * stride + x =? p0 + (h - 1) * stride + (w - 1)) = (x =? w - 1) && (y =? h - 1)).
    { intros x y X Y. destruct (Z.eqb_spec (p0 + y * stride + x) (p0 + (h - 1) * stride + (w - 1))) as [E|E].
      - apply p_inj in E; [|lia|lia]. destruct E as [-> ->]. rewrite !Z.eqb_refl. reflexivity.
      - symmetry. apply andb_false_iff. destruct (Z.eqb_spec x (w - 1)) as [->|]; [|left; reflexivity]. right. apply Z.eqb_neq. intros ->. apply E. reflexivity. }
    assert (E4 : forall q, d4 q = if q =? p0 + (h - 1) * stride then B1 0 (h - 1) else d3 q).
    { intros q. apply cond_upd. intros C. apply negb_false_iff, Z.eqb_eq in C.
      replace (p0 + (h - 1) * stride) with (p0 + (h - 1) * stride + 0) at 1 by ring. rewrite E3, N2, E2, N1 by lia.
      replace (0 =? w - 1) with false by (symmetry; apply Z.eqb_neq; lia). replace (h - 1 =? 0) with false by (symmetry; apply Z.eqb_neq; lia).
      rewrite andb_false_r. cbn [andb]. rewrite W1 by lia. apply (corner_same 0 (h - 1) (-1) 1); [lia|lia|].
      unfold Sm. replace (p0 + (h - 1) * stride + 0) with (p0 + (h - 1) * stride) by ring. replace (p0 + (h - 1) * stride + (0 + -1)) with (p0 + (h - 1) * stride - 1) by ring. exact C. }
    set (d5 := if negb (src (p0 + (h - 1) * stride + (w - 1)) =? src (p0 + (h - 1) * stride + (w - 1) + 1)) then upd d4 (p0 + (h - 1) * stride + (w - 1)) (B1 (w - 1) (h - 1)) else d4).
    assert (E5 : forall q, d5 q = if q =? p0 + (h - 1) * stride + (w - 1) then B1 (w - 1) (h - 1) else d4 q).
    { intros q. apply cond_upd. intros C. apply negb_false_iff, Z.eqb_eq in C.
      rewrite E4, N3, E3, N2, E2, N1 by lia.
      replace (w - 1 =? 0) with false by (symmetry; apply Z.eqb_neq; lia). replace (h - 1 =? 0) with false by (symmetry; apply Z.eqb_neq; lia).
      rewrite andb_false_r. cbn [andb]. rewrite W1 by lia. apply (corner_same (w - 1) (h - 1) 1 1); [lia|lia|].
      unfold Sm. replace (p0 + (h - 1) * stride + (w - 1 + 1)) with (p0 + (h - 1) * stride + (w - 1) + 1) by ring. exact C. }
    split.
    - intros x y X Y. rewrite E5, N4, E4, N3, E3, N2, E2, N1, W1 by assumption.
      destruct (Z.eqb_spec x (w - 1)) as [X1|X1], (Z.eqb_spec y (h - 1)) as [Y1|Y1], (Z.eqb_spec x 0) as [X0|X0], (Z.eqb_spec y 0) as [Y0|Y0]; cbn [andb]; try lia;
        try (rewrite <- ?X1, <- ?Y1, ?X0, ?Y0; reflexivity); try (apply inner; lia); subst; try reflexivity.
    - intros q Q. pose proof (Q 0 0 ltac:(lia) ltac:(lia)) as Q1. pose proof (Q (w - 1) 0 ltac:(lia) ltac:(lia)) as Q2.
      pose proof (Q 0 (h - 1) ltac:(lia) ltac:(lia)) as Q3. pose proof (Q (w - 1) (h - 1) ltac:(lia) ltac:(lia)) as Q4.
      rewrite E5, E4, E3, E2. rewrite Z.mul_0_l, Z.add_0_r in Q1, Q2. rewrite Z.add_0_r in Q1, Q3.
      replace (q =? p0 + (h - 1) * stride + (w - 1)) with false by (symmetry; apply Z.eqb_neq; exact Q4).
      replace (q =? p0 + (h - 1) * stride) with false by (symmetry; apply Z.eqb_neq; exact Q3).
      replace (q =? p0 + (w - 1)) with false by (symmetry; apply Z.eqb_neq; exact Q2).
      replace (q =? p0) with false by (symmetry; apply Z.eqb_neq; exact Q1).
      apply W2. exact Q.
  Qed.
End Block.
