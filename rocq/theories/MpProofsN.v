(** Proofs: the motion of skipped and direct units. *)
From Coq Require Import ZArith List Bool Lia.
From Verif Require Import CBase CBaseProofs MemModel SaoModel SaoProofs QpModel UtilModel UtilProofs MvModel MvSpec MvProofs HdrModel SynModel CuModel NbModel NbSpec NbProofs MpModel MpSpec MpSpecB MpProofs MpProofsB MpProofsC MpProofsD MpProofsE MpProofsF MpProofsG MpProofsH MpProofsI MpProofsK MpProofsM.
Import ListNotations.
Open Scope Z_scope.

Lemma near_spatial E Q g x y : spatial E Q g x y = near E Q g x y.
Proof.
  pose proof (avail_spatial E Q g x y) as A. unfold near. rewrite <- A. unfold spatial. destruct (_ || _ || _ || _ || _); reflexivity.
Qed.
Lemma skip_head_ok E level y c c0 : env_ok E -> syntax_ok E level y -> y_type y <= 0 -> header E level y c = Done c0 -> c_type c0 = 0 /\ c_wsm c0 = weighted_mode E y /\ c_ds c0 = spatial_mode E y.
Proof.
  intros Eok Sok Y0 H. pose proof Eok as [Ht Hn _ _ _ _ _ _]. pose proof Sok as [_ _ S3 _ _ S6 S7 _ _]. unfold header in H. replace (Z.max 0 (y_type y)) with 0 in H by lia.
  replace (e_type E =? S_SLICE) with false in H by (symmetry; apply Z.eqb_neq; unfold S_SLICE; lia). replace (y_type y <=? 0) with true in H by (symmetry; apply Z.leb_le; lia). change (0 <=? 7) with true in H. cbv iota zeta in H.
  destruct (e_type E =? I_SLICE); [discriminate|]. destruct (inter_dirs E y _) as [[d r]| | |]; cbn [bindo] in H; try discriminate.
  rewrite !to_i8_small in H by lia. unfold weighted_mode, spatial_mode, weighted_mode, F_SLICE, B_SLICE in *.
  match type of H with Done ?t = _ => assert (c0 = t) as -> by congruence end. cbn [c_type c_wsm c_ds]. split; [reflexivity|]. split; [reflexivity|].
  rewrite (orb_comm (e_mhp E && _)), (andb_comm (e_mhp E)). reflexivity.
Qed.
Definition entry (c : cu) (i : Z) : (Z * Z) * (mvec * mvec) := (c_ref c i, (c_mv0 c i, c_mv1 c i)).
Lemma for_vals (inv_ : cu * grid -> Prop) (V : nat -> (Z * Z) * (mvec * mvec) -> Prop) f : forall L k s s',
  (forall j s s', (k <= j < k + L)%nat -> inv_ s -> f (Z.of_nat j) s = Done s' -> exists r m v, fst s' = with_motion (fst s) (Z.of_nat j) r m v /\ V j (r, (m, v)) /\ inv_ s') ->
  inv_ s -> for_pus L (Z.of_nat k) f s = Done s' ->
  inv_ s' /\ c_type (fst s') = c_type (fst s) /\ c_pus (fst s') = c_pus (fst s) /\
  (forall j, (j < k)%nat -> entry (fst s') (Z.of_nat j) = entry (fst s) (Z.of_nat j)) /\ (forall j, (k <= j < k + L)%nat -> V j (entry (fst s') (Z.of_nat j))).
Proof.
  induction L as [|L IH]; intros k s s' Hf Hi H; cbn [for_pus] in H.
  - assert (s' = s) as -> by congruence. repeat (split; [auto|]). intros j Lj. lia.
  - destruct (f (Z.of_nat k) s) as [s1| | |] eqn:E1; cbn [bindo] in H; try discriminate. replace (Z.of_nat k + 1) with (Z.of_nat (S k)) in H by lia.
    destruct (Hf k s s1 ltac:(lia) Hi E1) as (r & m & v & Ef & Vk & I1).
    destruct (IH (S k) s1 s' (fun j t t' Lj => Hf j t t' ltac:(lia)) I1 H) as (A1 & A2 & A3 & A4 & A5). rewrite Ef in A2, A3. cbn [c_type c_pus with_motion] in A2, A3.
    split; [exact A1|]. split; [exact A2|]. split; [exact A3|]. split.
    + intros j Lj. rewrite A4 by lia. rewrite Ef. unfold entry. destruct (with_motion_other (fst s) k r m v j ltac:(lia)) as (-> & -> & ->). reflexivity.
    + intros j Lj. destruct (Nat.eq_dec j k) as [-> |N]; [|apply A5; lia]. rewrite A4 by lia. rewrite Ef. unfold entry. destruct (with_motion_here (fst s) (Z.of_nat k) r m v) as (-> & -> & ->). exact Vk.
Qed.

Section Skip.
Variables (E : env) (Q : place) (level ux uy : Z) (rs : list (Z * Z * Z * Z)).
Local Notation n := (2 ^ (level - 2)).
Local Notation wu := (e_wu E).
Hypothesis Eok : env_ok E.
Hypothesis Uat : unit_at E Q level ux uy.
Hypothesis Ht : tiles n rs = true.
Variable four : bool.
Hypothesis Hrs : rs = parts four 0 n.
Hypothesis Hfour : four = true -> 4 <= level.
Local Notation side := (if four then n / 2 else n).
Local Notation keeps := (keeps E level ux uy).

Lemma keeps_refl g : keeps g g.
Proof. intros X Y _ _. reflexivity. Qed.
Lemma keeps_paint g g1 k x y w h f : nth_error rs k = Some (x, y, w, h) -> (forall q, f (f q) = f q) -> keeps g g1 -> keeps g (paint wu (ux + x) (uy + y) w h f g1).
Proof.
  intros Hk Hf Kp X Y HX HO. destruct Uat as [Ul Ux Uy Uw Uh _ _ _ _]. rewrite (paint_part E level ux uy rs Ux Uw Ht k x y w h) by assumption.
  destruct (in_block (x, y, w, h) (X - ux) (Y - uy)) eqn:Ib; [|apply Kp; assumption]. exfalso. apply HO. apply (part_in level ux uy rs Ht k (x, y, w, h) X Y Hk Ib).
Qed.
Lemma near_keeps g g' X Y : keeps g g' -> round_about E level ux uy X Y -> near E Q g X Y = near E Q g' X Y.
Proof.
  intros Kp R. unfold near. destruct (avail E Q X Y) eqn:Av; [|reflexivity]. destruct (round_past E Q level ux uy rs Eok Uat Ht X Y Av R) as [No _].
  assert (HX : 0 <= X < wu) by (clear - Av; unfold avail in Av; rewrite !andb_true_iff, !Z.leb_le, !Z.ltb_lt in Av; lia). rewrite (Kp X Y HX No). reflexivity.
Qed.
Lemma six_ok g g' ns : keeps g g' -> six_neighbors E Q g (4 * ux) (4 * uy) (Z.shiftl 1 level) (Z.shiftl 1 level) = Done ns -> ns = six E Q g' n ux uy.
Proof.
  intros Kp. unfold six_neighbors. rewrite !shr4, (shl_level E Q level ux uy rs Uat Ht). replace (n + ux - 1) with (ux + n - 1) by ring. replace (n + uy - 1) with (uy + n - 1) by ring.
  rewrite (whole_tr E Q level ux uy rs Eok Uat Ht). cbn [bindo]. destruct (e_ref0 E); [|discriminate]. intros H. match type of H with Done ?t = _ => assert (ns = t) as -> by congruence end.
  rewrite !near_spatial. rewrite !(near_keeps g g') by (try exact Kp; first [apply xr_round | unfold round_about; left; cbn [In]; auto 10]). unfold six.
  unfold xr, bf, before. replace (in_block (ux, uy, n, n) (ux + n) (uy - 1)) with false; [|symmetry; unfold in_block; rewrite !andb_false_iff; left; left; right; apply Z.ltb_ge; lia].
  destruct (unit_before _ _ _ _ _); [reflexivity|]. unfold near. replace (avail E Q (-1) (uy - 1)) with false by reflexivity. reflexivity.
Qed.
Lemma half_eq : Z.shiftl 1 (level - 3) = n / 2 /\ n = 2 * (n / 2).
Proof. exact (half_unit E Q level ux uy rs Uat Ht four Hrs Hfour). Qed.
Lemma square_at k : (k < length rs)%nat -> nth_error rs k = Some (side * Z.land (Z.of_nat k) 1, side * Z.shiftr (Z.of_nat k) 1, side, side).
Proof. exact (square level rs Ht four Hrs Hfour k). Qed.

(** P and F pictures, motion taken from the first reference. *)
Lemma pf_vals c0 g s' : length (c_pus c0) = length rs -> four = (3 <? level) -> 0 <= c_wsm c0 <= 4 ->
  fill_pf_skip E c0 g (4 * ux) (4 * uy) (Z.shiftl (Z.shiftl 1 (level - 3)) 3) = Done s' ->
  keeps g (snd s') /\ c_type (fst s') = c_type c0 /\ c_pus (fst s') = c_pus c0 /\
  forall j x v w h, nth_error rs j = Some (x, v, w, h) -> let i := Z.of_nat j in let off := (uy + v) * wu + (ux + x) in let c := fst s' in
    c_ref c i = (0, if c_wsm c0 =? 0 then -1 else c_wsm c0) /\
    c_mv0 c i = (if 0 <=? e_cref E off then projected (e_cmv E off) (e_dist E 0 * e_cscale E (e_cref E off)) else (0, 0)) /\
    c_mv1 c i = (if c_wsm c0 =? 0 then (0, 0) else projected (c_mv0 c i) (e_dist E (c_wsm c0) * e_scale E 0)).
Proof.
  intros Lp Hf W H. unfold fill_pf_skip in H. rewrite !shr4, Lp in H. destruct half_eq as [Hs Hn]. rewrite Hs in H. rewrite to_i8_small in H by exact W.
  assert (Sz : (if Z.shiftl (n / 2) 3 =? 8 then Z.shiftr (Z.shiftl (n / 2) 3) 2 else Z.shiftr (Z.shiftr (Z.shiftl (n / 2) 3) 2) 1) = side).
  { destruct Uat as [Ul _ _ _ _ _ _ _ _]. rewrite Z.shiftl_mul_pow2 by lia. change (2 ^ 3) with 8. rewrite !Z.shiftr_div_pow2 by lia. change (2 ^ 2) with 4. change (2 ^ 1) with 2.
    replace (n / 2 * 8) with (n * 4) by (clear - Hn; lia). rewrite Z.div_mul by lia. rewrite Hf.
    assert (C : level = 3 \/ 3 < level) by lia. destruct C as [-> |C]; [reflexivity|]. destruct (Z.ltb_spec 3 level); [|lia]. destruct (Z.eqb_spec (n * 4) 8) as [E8|]; [|reflexivity].
    exfalso. assert (2 ^ 2 <= n) by (apply Z.pow_le_mono_r; lia). change (2 ^ 2) with 4 in H1. lia. }
  rewrite Sz in H. set (r1 := if c_wsm c0 =? 0 then -1 else c_wsm c0) in *.
  pose (V := fun (j : nat) (e : (Z * Z) * (mvec * mvec)) => let off := (uy + side * Z.shiftr (Z.of_nat j) 1) * wu + (ux + side * Z.land (Z.of_nat j) 1) in
    fst e = (0, r1) /\ fst (snd e) = (if 0 <=? e_cref E off then projected (e_cmv E off) (e_dist E 0 * e_cscale E (e_cref E off)) else (0, 0)) /\
    snd (snd e) = (if c_wsm c0 =? 0 then (0, 0) else projected (fst (snd e)) (e_dist E (c_wsm c0) * e_scale E 0))).
  destruct (for_vals (fun s => keeps g (snd s)) V (pf_skip_pu E ux uy side r1) (length rs) 0%nat (c0, g) s') as (A1 & A2 & A3 & _ & A5); [|apply keeps_refl|exact H|].
  - intros j [c g1] s1 Lj Kp H1. cbn [snd] in Kp. unfold pf_skip_pu in H1.
    destruct (delta E (e_dist E) 0) as [d0| | |] eqn:E0 in H1; cbn [bindo] in H1; try discriminate. unfold delta in E0. destruct (_ && _) in E0; [|discriminate]. apply arr4_val in E0.
    set (off := (uy + side * Z.shiftr (Z.of_nat j) 1) * wu + (ux + side * Z.land (Z.of_nat j) 1)) in *.
    destruct (pf_temporal E off d0) as [m| | |] eqn:Em; cbn [bindo] in H1; try discriminate.
    destruct (if negb (r1 =? -1) then _ else _) as [v| | |] eqn:Ev in H1; cbn [bindo] in H1; try discriminate.
    exists (0, r1), m, v. match type of H1 with Done ?t = _ => assert (s1 = t) as -> by congruence end. cbn [fst snd]. split; [reflexivity|]. split.
    + unfold V. fold off. cbn [fst snd]. split; [reflexivity|]. split.
      * unfold pf_temporal in Em. destruct (negb (e_ref0 E)); [discriminate|]. destruct (0 <=? e_cref E off); [|injection Em as <-; reflexivity].
        destruct (arr4 (e_cscale E) (e_cref E off)) as [dd| | |] eqn:Ed in Em; cbn [bindo] in Em; try discriminate. apply arr4_val in Ed. apply skip_pair in Em. rewrite Em, E0, Ed. reflexivity.
      * unfold r1 in Ev. destruct (Z.eqb_spec (c_wsm c0) 0) as [Z0|Z0]; [cbn [Z.eqb Pos.eqb negb] in Ev; injection Ev as <-; reflexivity|]. replace (c_wsm c0 =? -1) with false in Ev by (symmetry; apply Z.eqb_neq; lia). cbn [negb] in Ev.
        destruct (delta E (e_dist E) (c_wsm c0)) as [dr| | |] eqn:E1 in Ev; cbn [bindo] in Ev; try discriminate. unfold delta in E1. destruct (_ && _) in E1; [|discriminate]. apply arr4_val in E1.
        destruct (delta E (e_scale E) 0) as [s0| | |] eqn:E2 in Ev; cbn [bindo] in Ev; try discriminate. unfold delta in E2. destruct (_ && _) in E2; [|discriminate]. apply arr4_val in E2.
        apply skip_pair in Ev. rewrite Ev, E1, E2. reflexivity.
    + apply (keeps_paint g g1 j); [apply square_at; lia|reflexivity|exact Kp].
  - split; [exact A1|]. split; [exact A2|]. split; [exact A3|]. intros j x v w h Hj. cbv zeta. assert (Lj : (j < length rs)%nat) by (apply nth_error_Some; congruence).
    rewrite (square_at j Lj) in Hj. specialize (A5 j ltac:(lia)). unfold V, entry in A5. cbn [fst snd] in A5.
    assert (x = side * Z.land (Z.of_nat j) 1 /\ v = side * Z.shiftr (Z.of_nat j) 1) as [-> ->] by (split; congruence). exact A5.
Qed.

(** B pictures, motion taken from the first reference or predicted. *)
Lemma bt_vals ns c0 g s' : e_type E = 2 -> good_past E Q level ux uy g -> (forall p, i16v (e_cmv E p)) -> length (c_pus c0) = length rs -> c_ds c0 = 0 ->
  fill_bskip E Q ns c0 g (4 * ux) (4 * uy) (Z.shiftl 1 (level - 3)) = Done s' ->
  keeps g (snd s') /\ c_type (fst s') = c_type c0 /\ c_pus (fst s') = c_pus c0 /\
  (grid_ok E (snd s') -> forall j x v w h, nth_error rs j = Some (x, v, w, h) -> let i := Z.of_nat j in let off := (uy + v) * wu + (ux + x) in let c := fst s' in
    c_ref c i = (1, 0) /\
    if e_cref E off =? -1 then
      let P bwd := predictor E Q (snd s') (before (Z.to_nat (e_lv E - 2)) (parts false 0 n) n ux uy 0) bwd 0 ux uy n NoPref in
      c_mv0 c i = P false /\ c_mv1 c i = P true
    else
      let s := e_cscale E (e_cref E off) in
      c_mv0 c i = stretched (e_cmv E off) (e_dist E 1) s /\ c_mv1 c i = opposite_vec (stretched (e_cmv E off) (e_dist E 0) s)).
Proof.
  intros Te Gp Vc Lp Ds H. unfold fill_bskip in H. rewrite Ds in H. cbn [Z.eqb negb] in H. cbv zeta in H. rewrite Lp in H. destruct half_eq as [Hs Hn]. rewrite Hs in H.
  assert (S4 : Z.shiftl (n / 2) 3 = 4 * n) by (rewrite Z.shiftl_mul_pow2 by lia; change (2 ^ 3) with 8; clear - Hn; lia). rewrite S4 in H.
  assert (Sz : Z.shiftr (Z.shiftr (4 * n) (if Z.of_nat (length rs) =? 4 then 1 else 0)) 2 = side).
  { rewrite Hrs. unfold parts. cbn [Z.eqb]. destruct four; cbn [length Z.of_nat Pos.of_succ_nat Pos.succ Z.eqb Pos.eqb].
    - rewrite Z.shiftr_shiftr by lia. rewrite Z.shiftr_div_pow2 by lia. change (2 ^ (1 + 2)) with (4 * 2). rewrite <- Z.div_div by lia. rewrite (Z.mul_comm 4 n), Z.div_mul by lia. reflexivity.
    - rewrite Z.shiftr_0_r. apply shr4. }
  rewrite Sz in H.
  pose (V := fun (j : nat) (e : (Z * Z) * (mvec * mvec)) => let off := (uy + side * Z.shiftr (Z.of_nat j) 1) * wu + (ux + side * Z.land (Z.of_nat j) 1) in
    fst e = (1, 0) /\ if e_cref E off =? -1 then
      forall g', keeps g g' -> get_mvp E Q g' (4 * ux) (4 * uy) false 0 (4 * n) 0 = Done (fst (snd e)) /\ get_mvp E Q g' (4 * ux) (4 * uy) true 0 (4 * n) 0 = Done (snd (snd e))
    else let s := e_cscale E (e_cref E off) in fst (snd e) = stretched (e_cmv E off) (e_dist E 1) s /\ snd (snd e) = opposite_vec (stretched (e_cmv E off) (e_dist E 0) s)).
  destruct (for_vals (fun s => keeps g (snd s)) V (bskip_pu E Q (4 * ux) (4 * uy) (4 * n) (n / 2) side) (length rs) 0%nat (c0, g) s') as (A1 & A2 & A3 & _ & A5); [|apply keeps_refl|exact H|].
  - intros j [c g1] s1 Lj Kp H1. cbn [snd] in Kp. unfold bskip_pu in H1. rewrite !shr4 in H1.
    assert (Lo : Z.land (Z.of_nat j) 1 * (n / 2) = side * Z.land (Z.of_nat j) 1 /\ Z.shiftr (Z.of_nat j) 1 * (n / 2) = side * Z.shiftr (Z.of_nat j) 1).
    { destruct four eqn:Ef; [split; ring|]. assert (j = 0%nat) as -> by (rewrite Hrs in Lj; unfold parts in Lj; cbn [Z.eqb length] in Lj; lia). vm_compute (Z.land _ _). vm_compute (Z.shiftr _ _). split; ring. }
    destruct Lo as [L1 L2]. rewrite L1, L2 in H1. destruct (negb (e_ref0 E)); [discriminate|].
    set (off := (uy + side * Z.shiftr (Z.of_nat j) 1) * wu + (ux + side * Z.land (Z.of_nat j) 1)) in *.
    destruct (if e_cref E off =? -1 then _ else _) as [[m v]| | |] eqn:Ev in H1; cbn [bindo] in H1; try discriminate.
    exists (1, 0), m, v. match type of H1 with Done ?t = _ => assert (s1 = t) as -> by congruence end. cbn [fst snd]. split; [reflexivity|]. split.
    + unfold V. fold off. cbn [fst snd]. split; [reflexivity|]. destruct (e_cref E off =? -1).
      * destruct (get_mvp E Q g1 _ _ false _ _ _) as [m'| | |] eqn:E1 in Ev; cbn [bindo] in Ev; try discriminate. destruct (get_mvp E Q g1 _ _ true _ _ _) as [v'| | |] eqn:E2 in Ev; cbn [bindo] in Ev; try discriminate.
        assert (m' = m /\ v' = v) as [-> ->] by (split; congruence). intros g' Kp'.
        rewrite <- (mvp_whole E Q level ux uy rs Eok Uat Ht g g g1 g' false 0 (same_self _ _ _ _ _ _ Gp) Kp Kp').
        rewrite <- (mvp_whole E Q level ux uy rs Eok Uat Ht g g g1 g' true 0 (same_self _ _ _ _ _ _ Gp) Kp Kp'). auto.
      * destruct (arr4 (e_cdist E) _) as [d1| | |] in Ev; cbn [bindo] in Ev; try discriminate. destruct (arr4 (e_cscale E) (e_cref E off)) as [d2| | |] eqn:E2 in Ev; cbn [bindo] in Ev; try discriminate.
        destruct (arr4 (e_dist E) 0) as [d3| | |] eqn:E3 in Ev; cbn [bindo] in Ev; try discriminate. destruct (arr4 (e_dist E) 1) as [d4| | |] eqn:E4 in Ev; cbn [bindo] in Ev; try discriminate.
        apply arr4_val in E2. apply arr4_val in E3. apply arr4_val in E4.
        destruct (scale_bi (e_cmv E off) d4 d2) as [a| | |] eqn:Ea in Ev; cbn [bindo] in Ev; try discriminate. destruct (scale_bi (e_cmv E off) d3 d2) as [b| | |] eqn:Eb in Ev; cbn [bindo] in Ev; try discriminate.
        apply biskip_pair in Ea; [|apply Vc]. apply biskip_pair in Eb; [|apply Vc]. assert (m = a /\ v = neg16 b) as [-> ->] by (split; congruence). rewrite Ea, Eb, E2, E3, E4. cbv zeta. split; reflexivity.
    + apply (keeps_paint g g1 j); [apply square_at; lia|reflexivity|exact Kp].
  - split; [exact A1|]. split; [exact A2|]. split; [exact A3|]. intros Gd j x v w h Hj. cbv zeta. assert (Lj : (j < length rs)%nat) by (apply nth_error_Some; congruence).
    rewrite (square_at j Lj) in Hj. specialize (A5 j ltac:(lia)). unfold V, entry in A5. cbn [fst snd] in A5.
    assert (x = side * Z.land (Z.of_nat j) 1 /\ v = side * Z.shiftr (Z.of_nat j) 1) as [-> ->] by (split; congruence). destruct A5 as [B1 B2]. split; [exact B1|].
    destruct (_ =? -1); [|exact B2]. destruct (B2 _ A1) as [C1 C2].
    assert (Pm : forall bwd mvp, get_mvp E Q (snd s') (4 * ux) (4 * uy) bwd 0 (4 * n) 0 = Done mvp -> mvp = predictor E Q (snd s') (before (Z.to_nat (e_lv E - 2)) (parts false 0 n) n ux uy 0) bwd 0 ux uy n NoPref).
    { intros bwd mvp. apply (mvp_val E Q (snd s') (4 * ux) (4 * uy) bwd 0 (4 * n) 0 ux uy n NoPref (bf (e_lv E) level 0 false ux uy 0) mvp Eok Gd); try reflexivity.
      - rewrite (eo_b _ Eok Te). lia.
      - left. reflexivity.
      - exact (whole_tr E Q level ux uy rs Eok Uat Ht). }
    split; apply Pm; assumption.
Qed.
End Skip.

Lemma skipped_ok E Q level ux uy y stale c g c' g' : env_ok E -> unit_at E Q level ux uy -> syntax_ok E level y -> grid_ok E g -> good_past E Q level ux uy g -> y_type y <= 0 -> (forall p, i16v (e_cmv E p)) ->
  unit_motion E Q stale (4 * ux) (4 * uy) level y (c, g) = Done (c', g') -> skipped_motion E Q level ux uy (weighted_mode E y) (spatial_mode E y) c' g'.
Proof.
  intros Eok Uat Sok G Gp Ty Vc H. pose proof Uat as [Ul Ux Uy Uw Uh Ax Ay Qx Qy]. pose proof (eo_lv _ Eok) as Lv. assert (L6 : 3 <= level <= 6) by (clear - Ul Lv; lia).
  pose proof (unit_rel E Q level ux uy y stale stale c c g g Eok Uat Sok G G (same_self _ _ _ _ _ _ Gp)) as Rel. rewrite H in Rel. cbn [orel] in Rel.
  destruct Rel as (b0 & b0' & rs0 & Ht0 & _ & _ & _ & _ & Po & _ & _). pose proof (po_keeps _ _ _ _ _ _ _ _ _ Po) as Kp. pose proof (po_good _ _ _ _ _ _ _ _ _ Po) as Gd. cbn [snd] in Kp, Gd. clear b0 b0' Po.
  unfold unit_motion in H. cbn [fst snd] in H. pose proof (header_rel E level y c c Eok L6 Sok) as Hh.
  destruct (header E level y c) as [c0| | |] eqn:Eh; cbn [bindo] in H; try discriminate. cbn [orel] in Hh. destruct Hh as (Ho & _ & _).
  destruct (skip_head_ok E level y c c0 Eok Sok Ty Eh) as (T0 & Wm & Dm). rewrite T0 in H. change (8 <=? 0) with false in H. change (0 =? 0) with true in H. cbv iota in H.
  pose proof (ho_pus _ _ _ Ho) as Pu. rewrite T0 in Pu. pose proof (ho_wsm _ _ _ Ho T0) as [W _]. pose proof (ho_ds _ _ _ Ho) as D4. pose proof (ho_ty _ _ _ Ho) as Tk. rewrite T0 in Tk.
  set (ds := spatial_mode E y) in *. set (wm := weighted_mode E y) in *. set (four := four_of (c_ds c0) 0 level) in *. set (rs := rects four 0 (2 ^ (level - 2))) in *.
  assert (Ef : four = (3 <? level) && (ds =? 0)). { unfold four, four_of. rewrite Dm. change (0 =? 0) with true. destruct (3 <? level), (ds =? 0); reflexivity. }
  assert (Hf : four = true -> 4 <= level) by (rewrite Ef, andb_true_iff, Z.ltb_lt; clear; lia).
  assert (Ht : tiles (2 ^ (level - 2)) rs = true) by (apply rects_tile; [exact L6|exact Tk|exact Hf]).
  assert (Ers : rs = parts four 0 (2 ^ (level - 2))) by reflexivity.
  assert (Lp : length (c_pus c0) = length rs) by (rewrite Pu; apply map_length).
  assert (Tn : e_type E <> 0) by (intros Z0; pose proof (ho_i _ _ _ Ho Z0) as H8; rewrite T0 in H8; lia).
  assert (Et : e_type E = 1 \/ e_type E = 2 \/ e_type E = 4) by (pose proof (eo_type _ Eok) as K; clear - K Tn; lia).
  destruct (six_neighbors E Q g (4 * ux) (4 * uy) (Z.shiftl 1 level) (Z.shiftl 1 level)) as [ns| | |] eqn:En; cbn [bindo] in H; try discriminate.
  apply (six_ok E Q level ux uy rs Eok Uat Ht four Ers Hf g g' ns Kp) in En.
  assert (W4 : 0 <= c_wsm c0 <= 4) by (pose proof (eo_nref _ Eok) as En4; clear - W En4; lia).
  assert (Done2 : forall s, s = (c', g') -> c_type (fst s) = c_type c0 -> c_pus (fst s) = c_pus c0 -> c_type c' = 0 /\ c_pus c' = map samples (parts ((3 <? level) && (ds =? 0)) 0 (2 ^ (level - 2)))).
  { intros s -> A B. cbn [fst] in A, B. rewrite A, B, Pu, <- Ef. split; [exact T0|reflexivity]. }
  unfold fill_skip, B_SLICE, F_SLICE, P_SLICE in H.
  destruct (Z.eqb_spec (e_type E) 2) as [B|B].
  - destruct (Z.eq_dec ds 0) as [Z0|Z0].
    + destruct (bt_vals E Q level ux uy rs Eok Uat Ht four Ers Hf ns c0 g (c', g') B Gp Vc Lp (eq_trans Dm Z0) H) as (_ & A2 & A3 & A4). destruct (Done2 (c', g') eq_refl A2 A3) as [P1 P2].
      constructor; [exact P1|exact P2|]. rewrite <- Ef, <- Ers. intros j x v w h Hj. cbv zeta. replace (ds =? 0) with true by (symmetry; apply Z.eqb_eq; exact Z0). replace (e_type E =? 2) with true by (symmetry; apply Z.eqb_eq; exact B).
      cbv iota. exact (A4 Gd j x v w h Hj).
    + unfold fill_bskip in H. rewrite Dm in H. replace (ds =? 0) with false in H by (symmetry; apply Z.eqb_neq; exact Z0). cbn [negb] in H. rewrite b_spatial_ok in H by (clear - D4 Dm Z0; lia).
      destruct (bskip_refs ds) as [r0 r1] eqn:Er. destruct (b_spatial ds ns) as [m v] eqn:Eb. apply (f_equal (fun o => match o with Done s => fst s | _ => c0 end)) in H. cbn [fst] in H.
      destruct (Done2 (c', g') eq_refl) as [P1 P2]; [cbn [fst]; rewrite <- H; reflexivity|cbn [fst]; rewrite <- H; reflexivity|].
      constructor; [exact P1|exact P2|]. rewrite <- Ef, <- Ers. intros j x u w h Hj. cbv zeta. replace (ds =? 0) with false by (symmetry; apply Z.eqb_neq; exact Z0). replace (e_type E =? 2) with true by (symmetry; apply Z.eqb_eq; exact B).
      assert (j = 0%nat) as ->. { assert (Lj : (j < length rs)%nat) by (apply nth_error_Some; congruence). assert (Fz : four = false) by (rewrite Ef; destruct (Z.eqb_spec ds 0); [contradiction|apply andb_false_r]). rewrite Ers, Fz in Lj. unfold parts in Lj. cbn [Z.eqb length] in Lj. clear - Lj. lia. }
      rewrite <- H. destruct (with_motion_here c0 0 (r0, r1) m v) as (W1 & W2 & W3). change (Z.of_nat 0) with 0. rewrite W1, W2, W3. rewrite <- En, Eb. split; [|reflexivity]. rewrite <- Er.
      assert (C : ds = 1 \/ ds = 2 \/ ds = 3 \/ ds = 4) by (clear - D4 Dm Z0; lia). destruct C as [-> | [-> | [-> | ->]]]; reflexivity.
  - replace ((e_type E =? 4) || (e_type E =? 1)) with true in H by (symmetry; rewrite orb_true_iff, !Z.eqb_eq; clear - Et B; lia). rewrite Dm in H.
    destruct (Z.eq_dec ds 0) as [Z0|Z0].
    + replace (ds =? 0) with true in H by (symmetry; apply Z.eqb_eq; exact Z0). assert (F2 : four = (3 <? level)) by (rewrite Ef, Z0; apply andb_true_r).
      destruct (pf_vals E Q level ux uy rs Uat Ht four Ers Hf c0 g (c', g') Lp F2 W4 H) as (_ & A2 & A3 & A4). destruct (Done2 (c', g') eq_refl A2 A3) as [P1 P2].
      constructor; [exact P1|exact P2|]. rewrite <- Ef, <- Ers. intros j x v w h Hj. cbv zeta. replace (ds =? 0) with true by (symmetry; apply Z.eqb_eq; exact Z0). replace (e_type E =? 2) with false by (symmetry; apply Z.eqb_neq; exact B).
      rewrite <- Wm. exact (A4 j x v w h Hj).
    + replace (ds =? 0) with false in H by (symmetry; apply Z.eqb_neq; exact Z0). rewrite f_spatial_ok in H by (clear - D4 Dm Z0; lia). destruct (f_spatial ds ns) as [[r q] [m v]] eqn:Eb. cbv zeta in H. apply (f_equal (fun o => match o with Done s => fst s | _ => c0 end)) in H. cbn [fst fold_left] in H.
      destruct (Done2 (c', g') eq_refl) as [P1 P2]; [cbn [fst]; rewrite <- H; reflexivity|cbn [fst]; rewrite <- H; reflexivity|].
      constructor; [exact P1|exact P2|]. rewrite <- Ef, <- Ers. intros j x u w h Hj. cbv zeta. replace (ds =? 0) with false by (symmetry; apply Z.eqb_neq; exact Z0). replace (e_type E =? 2) with false by (symmetry; apply Z.eqb_neq; exact B).
      assert (j = 0%nat) as ->. { assert (Lj : (j < length rs)%nat) by (apply nth_error_Some; congruence). assert (Fz : four = false) by (rewrite Ef; destruct (Z.eqb_spec ds 0); [contradiction|apply andb_false_r]). rewrite Ers, Fz in Lj. unfold parts in Lj. cbn [Z.eqb length] in Lj. clear - Lj. lia. }
      rewrite <- En, Eb, <- H. reflexivity.
Qed.
