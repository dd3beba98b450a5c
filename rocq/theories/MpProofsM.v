(** Proofs: the vectors of coded units. *)
From Coq Require Import ZArith List Bool Lia.
From Verif Require Import CBase CBaseProofs MemModel SaoModel SaoProofs QpModel UtilModel UtilProofs MvModel MvSpec MvProofs HdrModel SynModel CuModel NbModel NbSpec NbProofs MpModel MpSpec MpSpecB MpProofs MpProofsB MpProofsC MpProofsD MpProofsE MpProofsF MpProofsG MpProofsH MpProofsI MpProofsK.
Import ListNotations.
Open Scope Z_scope.

(** ** Arithmetic *)
Lemma int32_val v r : int32 v = Done r -> r = v.
Proof. unfold int32. destruct (_ && _); intros H; [injection H as <-; reflexivity|discriminate]. Qed.
Lemma pmvr_add e d p : i16v d -> i16v p -> pmvr e d p = add_diff e d p.
Proof.
  destruct d as [dx dy], p as [px py]. unfold i16v, is_i16. cbn [fst snd]. intros [D1 D2] [P1 P2]. unfold pmvr, add_diff, pmvr_ctr, half_base, THRESHOLD_PMVR. cbv zeta. cbn [fst snd]. rewrite !c_abs_eq, !Z.shiftr_div_pow2 by lia. change (2 ^ 1) with 2.
  assert (Sg : forall v, -2147483648 <= v <= 2147483647 -> 2 < Z.abs v -> sign2 v = Z.sgn v) by (intros v R H; rewrite sign2_ok by exact R; destruct (Z.ltb_spec v 0); lia).
  assert (Hb : forall p, p - 1 <= 2 * (p / 2) <= p) by (intros; Z.div_mod_to_equations; lia). pose proof (Hb px) as B1. pose proof (Hb py) as B2.
  assert (Ex : forall d p, d - (2 * (p / 2) - p) = p + d - 2 * (p / 2)) by (intros; ring). rewrite !Ex.
  set (ex := px + dx - 2 * (px / 2)). set (ey := py + dy - 2 * (py / 2)). assert (R1 : -2147483648 <= ex <= 2147483647) by (unfold ex; clear - D1 P1 B1; lia). assert (R2 : -2147483648 <= ey <= 2147483647) by (unfold ey; clear - D2 P2 B2; lia).
  destruct e; cbn [andb]; cbv beta iota.
  - destruct (Z.ltb_spec 2 (Z.abs ex)) as [H|H].
    + rewrite (Sg ex R1 H). cbn [fst snd]; rewrite !clip16_eq, !to_i16_id by apply sat16_range; f_equal; f_equal; unfold ex; ring.
    + destruct (Z.ltb_spec 2 (Z.abs ey)) as [H'|H'].
      * rewrite (Sg ey R2 H'). cbn [fst snd]; rewrite !clip16_eq, !to_i16_id by apply sat16_range; f_equal; f_equal; unfold ey; ring.
      * cbn [fst snd]; rewrite !clip16_eq, !to_i16_id by apply sat16_range; f_equal; f_equal; ring.
  - cbn [fst snd]; rewrite !clip16_eq, !to_i16_id by apply sat16_range; f_equal; f_equal; ring.
Qed.
Lemma skip_one m d s r : scale_mv_skip m d s = Done r -> r = to_i16 ((m * (d * s) + 8192) / 16384).
Proof.
  unfold scale_mv_skip, mul3. destruct (int32 (m * d)) as [p| | |] eqn:E1; cbn [bindo]; try discriminate. apply int32_val in E1. subst p.
  destruct (int32 (m * d * s)) as [p| | |] eqn:E1; cbn [bindo]; try discriminate. apply int32_val in E1. subst p. unfold HALF_MULTI.
  destruct (int32 (m * d * s + 8192)) as [p| | |] eqn:E1; cbn [bindo]; try discriminate. apply int32_val in E1. subst p.
  intros H. assert (R : r = to_i16 (clip3 (-32768) 32767 (to_i16 (Z.shiftr (m * d * s + 8192) 14)))) by congruence. rewrite R.
  rewrite clip16_eq, sat16_id, to_i16_id by apply to_i16_range. rewrite Z.shiftr_div_pow2 by lia. change (2 ^ 14) with 16384. rewrite Z.mul_assoc. reflexivity.
Qed.
Lemma skip_pair (m : mvec) d s r : bindo (scale_mv_skip (fst m) d s) (fun x => bindo (scale_mv_skip (snd m) d s) (fun y => Done (x, y))) = Done r -> r = projected m (d * s).
Proof.
  destruct (scale_mv_skip (fst m) d s) as [a| | |] eqn:Ea; cbn [bindo]; try discriminate. destruct (scale_mv_skip (snd m) d s) as [b| | |] eqn:Eb; cbn [bindo]; try discriminate.
  intros H. apply skip_one in Ea. apply skip_one in Eb. assert (r = (a, b)) by congruence. subst. reflexivity.
Qed.
Lemma biskip_one m d s r : is_i16 m -> scale_mv_biskip m d s = Done r -> r = to_i16 (Z.sgn m * ((s * (1 + Z.abs m * d) - 1) / 16384)).
Proof.
  intros Hm. unfold scale_mv_biskip. rewrite sign3_ok by (unfold is_i16 in Hm; lia). cbn [bindo].
  destruct (int32 (c_abs m * d)) as [p| | |] eqn:E1; cbn [bindo]; try discriminate. apply int32_val in E1. subst p.
  destruct (int32 (1 + c_abs m * d)) as [p| | |] eqn:E1; cbn [bindo]; try discriminate. apply int32_val in E1. subst p.
  destruct (int32 (s * (1 + c_abs m * d))) as [p| | |] eqn:E1; cbn [bindo]; try discriminate. apply int32_val in E1. subst p.
  set (q := Z.shiftr (s * (1 + c_abs m * d) - 1) 14). destruct (int32 (Z.sgn m * q)) as [p| | |] eqn:E1; cbn [bindo]; try discriminate. apply int32_val in E1. subst p.
  intros H. assert (R : r = to_i16 (clip3 (-32768) 32767 (to_i16 (Z.sgn m * q)))) by congruence. rewrite R.
  rewrite clip16_eq, sat16_id, to_i16_id by apply to_i16_range. unfold q. rewrite Z.shiftr_div_pow2 by lia. change (2 ^ 14) with 16384. rewrite c_abs_eq.
  reflexivity.
Qed.
Lemma biskip_pair (m : mvec) d s r : i16v m -> scale_bi m d s = Done r -> r = stretched m d s.
Proof.
  intros [V1 V2]. unfold scale_bi. destruct (scale_mv_biskip (fst m) d s) as [a| | |] eqn:Ea; cbn [bindo]; try discriminate. destruct (scale_mv_biskip (snd m) d s) as [b| | |] eqn:Eb; cbn [bindo]; try discriminate.
  intros H. apply biskip_one in Ea; [|exact V1]. apply biskip_one in Eb; [|exact V2]. assert (r = (a, b)) by congruence. subst. reflexivity.
Qed.

(** ** The two loops over the parts *)
Section Coded.
Variables (E : env) (Q : place) (level ux uy : Z) (rs : list (Z * Z * Z * Z)).
Local Notation n := (2 ^ (level - 2)).
Local Notation wu := (e_wu E).
Hypothesis Eok : env_ok E.
Hypothesis Hx : 0 <= ux.
Hypothesis Hw : ux + n <= wu.
Hypothesis Ht : tiles n rs = true.
Variables (ty : Z) (four : bool).
Hypothesis Hrs : rs = parts four ty n.
Hypothesis Hlv : 4 <= e_lv E <= 6.
Hypothesis Hlev : 3 <= level <= e_lv E.
Hypothesis Hsh : shape_ok level ty four.
Hypothesis Hy : 0 <= uy.
Hypothesis Hax : ux mod 2 ^ (level - 2) = 0.
Hypothesis Hay : uy mod 2 ^ (level - 2) = 0.
Hypothesis Hqx : q_lx Q = ux - ux mod 2 ^ (e_lv E - 2).
Hypothesis Hqy : q_ly Q = uy - uy mod 2 ^ (e_lv E - 2).
Variables (g0 : grid) (c0 : cu).
Hypothesis Htype : e_type E = 1 \/ e_type E = 2 \/ e_type E = 4.
Local Notation inv m0 m1 s := (inv E level ux uy rs m0 m1 c0 g0 s).
Local Notation kk := (k1 E).

Lemma inv_dirs (m0 m1 m0' m1' : nat) (s s' : cu * grid) : inv m0 m1 s -> inv m0' m1' s' -> same_dirs rs (fst s) (fst s').
Proof. intros A B j _. destruct (i_unit _ _ _ _ _ _ _ _ _ _ A) as (_ & _ & _ & _ & D & R). destruct (i_unit _ _ _ _ _ _ _ _ _ _ B) as (_ & _ & _ & _ & D' & R'). rewrite D, D', R, R'. auto. Qed.
(** The predictor of part [k] does not change once the parts before have their vectors. *)
Lemma mvp_later (bwd : bool) (k m0 m1 m0' m1' : nat) (s s' : cu * grid) x y w h ref shape : nth_error rs k = Some (x, y, w, h) -> inv m0 m1 s -> inv m0' m1' s' ->
  (k <= (if bwd then m1 else m0))%nat -> (k <= (if bwd then m1' else m0'))%nat -> (forall j, (j < k)%nat -> cmv bwd (fst s') j = cmv bwd (fst s) j) ->
  get_mvp E Q (snd s) (4 * ux + 4 * x) (4 * uy + 4 * y) bwd ref (4 * w) shape = get_mvp E Q (snd s') (4 * ux + 4 * x) (4 * uy + 4 * y) bwd ref (4 * w) shape.
Proof.
  intros Hk A B L L' Sm. pose proof (inv_dirs _ _ _ _ _ _ A B) as Sd. destruct A as [Kp Rf M0 M1 _ _ _], B as [Kp' Rf' M0' M1' _ _ _].
  apply (mvp_same E Q level ux uy rs Hx Ht ty four Hrs Hlv Hlev Hsh Hy Hax Hay Hqx Hqy bwd k (fst s) (fst s') (snd s) (snd s') g0 g0 x y w h ref shape Hk); try assumption.
  - intros X Y _ _ _. split; auto.
  - intros j b X Y Lj. destruct bwd; [apply M1|apply M0]; lia.
  - intros j b X Y Lj. destruct bwd; [apply M1'|apply M0']; lia.
  - intros j Lj _. symmetry. apply Sm. exact Lj.
Qed.
Definition count (f : Z -> bool) (a b : nat) : nat := length (filter (fun i => f (c_dir c0 (Z.of_nat i))) (seq a (b - a))).
Lemma count_skip f a b : (a < b)%nat -> f (c_dir c0 (Z.of_nat a)) = false -> count f a b = count f (S a) b.
Proof. intros L F. unfold count. replace (b - a)%nat with (S (b - S a)) by lia. cbn [seq filter]. rewrite F. reflexivity. Qed.
Lemma count_take f a b : (a < b)%nat -> f (c_dir c0 (Z.of_nat a)) = true -> count f a b = S (count f (S a) b).
Proof. intros L F. unfold count. replace (b - a)%nat with (S (b - S a)) by lia. cbn [seq filter]. rewrite F. reflexivity. Qed.
Lemma count_none f a : count f a a = 0%nat.
Proof. unfold count. rewrite Nat.sub_diag. reflexivity. Qed.
Definition shape (p : Z * Z * Z * Z) : Z := let '(x, y, w, h) := p in pu_shape (4 * w) (4 * h) (4 * x) (4 * y).

Definition fval (mvds : list mvec) (k j : nat) (s : cu * grid) : Prop := let i := Z.of_nat j in
  forall x y w h, nth_error rs j = Some (x, y, w, h) -> takes_forward (c_dir c0 i) = true ->
  exists d mvp, nth_error mvds (count takes_forward k j) = Some d /\ c_mv0 (fst s) i = pmvr (e_pmvr E) d mvp /\
    get_mvp E Q (snd s) (4 * ux + 4 * x) (4 * uy + 4 * y) false (fst (c_ref c0 i)) (4 * w) (shape (x, y, w, h)) = Done mvp /\
    (e_type E <> 2 -> c_dir c0 i = 4 -> let r := fst (c_ref c0 i) in c_mv1 (fst s) i = projected (c_mv0 (fst s) i) (e_dist E (if r =? 0 then 1 else 0) * e_scale E r)).
Lemma arr4_val (f : Z -> Z) i v : arr4 f i = Done v -> v = f i.
Proof. unfold arr4. destruct (_ && _); intros H; [injection H as <-; reflexivity|discriminate]. Qed.
Lemma with_mvs_same c k a b j : j <> k -> c_mv0 (with_mvs c (Z.of_nat k) a b) (Z.of_nat j) = c_mv0 c (Z.of_nat j) /\ c_mv1 (with_mvs c (Z.of_nat k) a b) (Z.of_nat j) = c_mv1 c (Z.of_nat j).
Proof. intros N. unfold with_mvs. destruct (with_motion_other c k (c_ref c (Z.of_nat k)) a b j N) as (_ & -> & ->). auto. Qed.
Lemma fwd_vals : forall rest k mvds s, skipn k rs = rest -> inv k (kk k) s ->
  forall m' s', read_fwd E Q (4 * ux) (4 * uy) (Z.of_nat k) (map to_cb rest) mvds s = Done (m', s') ->
  inv (length rs) (kk (length rs)) s' /\ m' = skipn (count takes_forward k (length rs)) mvds /\
  (forall j, (j < k)%nat -> c_mv0 (fst s') (Z.of_nat j) = c_mv0 (fst s) (Z.of_nat j) /\ c_mv1 (fst s') (Z.of_nat j) = c_mv1 (fst s) (Z.of_nat j)) /\
  (forall j, (k <= j)%nat -> fval mvds k j s').
Proof.
  induction rest as [|[[[x y] w] h] rest IH]; intros k mvds [c g] Hk R m' s' H.
  - cbn [map read_fwd] in H. assert (Lk : (length rs <= k)%nat).
    { destruct (le_lt_dec (length rs) k) as [L|L]; [exact L|]. exfalso. assert (length (skipn k rs) = 0)%nat by (rewrite Hk; reflexivity). rewrite skipn_length in H0. lia. }
    assert (m' = mvds /\ s' = (c, g)) as [-> ->] by (split; congruence). split; [|split; [|split]].
    + eapply inv_weak; [| |exact R]; intros j Lj; left; unfold k1 in *; try lia; destruct (e_type E =? 2); lia.
    + unfold count. replace (length rs - k)%nat with 0%nat by lia. reflexivity.
    + auto.
    + intros j Lj x y w h Hj. exfalso. assert (j < length rs)%nat by (apply nth_error_Some; congruence). lia.
  - destruct (skip_head _ _ _ _ Hk) as [Hn Hk']. assert (Lr : (k < length rs)%nat) by (apply nth_error_Some; congruence).
    pose proof (part_pos level rs Ht _ _ _ _ _ Hn) as P. cbn [map read_fwd] in H.
    replace (Z.of_nat k + 1) with (Z.of_nat (S k)) in H by lia.
    pose proof R as [Kp Rf I0 I1 Ds Gd Un]. cbn [fst snd] in *. destruct Un as (_ & _ & _ & _ & Ud & Ur). rewrite Ud in H.
    destruct (Ds k Lr) as [Dk _]. rewrite Ud in Dk.
    destruct (Z.eqb_spec (c_dir c0 (Z.of_nat k)) 1) as [D1|D1].
    + assert (B : e_type E = 2) by (unfold dir_ok in Dk; lia). assert (C0 : cref false c k = -1) by (unfold dir_ok in Dk; lia).
      assert (Tf : takes_forward (c_dir c0 (Z.of_nat k)) = false) by (rewrite D1; reflexivity).
      assert (R' : inv (S k) (kk (S k)) (c, g)). { eapply inv_weak; [| |exact R]; cbn [fst]; intros j Lj; unfold k1 in *; rewrite ?B in *; cbn [Z.eqb Pos.eqb] in *; [destruct (Nat.eq_dec j k) as [-> |]; auto; left; lia|lia]. }
      destruct (IH (S k) mvds (c, g) Hk' R' m' s' H) as (A1 & A2 & A3 & A4). split; [exact A1|]. split; [rewrite (count_skip _ _ _ Lr Tf); exact A2|]. split; [intros j Lj; apply A3; lia|].
      intros j Lj. destruct (Nat.eq_dec j k) as [-> |N].
      * intros x' y' w' h' _ T. congruence.
      * intros x' y' w' h' Hj T. rewrite (count_skip takes_forward k j) by (try lia; exact Tf). apply (A4 j ltac:(lia) x' y' w' h' Hj T).
    + assert (Tf : takes_forward (c_dir c0 (Z.of_nat k)) = true) by (unfold takes_forward; destruct (Z.eqb_spec (c_dir c0 (Z.of_nat k)) 1); [contradiction|reflexivity]).
      assert (Own : k_r0 (g ((uy + y) * wu + (ux + x))) = fst (c_ref c0 (Z.of_nat k))) by (rewrite <- Ur; apply (Rf k _ _ _ Hn (part_own level ux uy rs Ht _ _ _ _ _ Hn))).
      change (to_cb (x, y, w, h)) with (CuModel.B (4 * x) (4 * y) (4 * w) (4 * h)) in H. cbn [CuModel.cx CuModel.cy cw ch B] in H. rewrite !shr4 in H. rewrite Own in H.
      destruct (get_mvp E Q g _ _ false _ _ _) as [mvp| | |] eqn:Em in H; cbn [bindo] in H; try discriminate.
      replace (e_type E =? S_SLICE) with false in H by (symmetry; apply Z.eqb_neq; unfold S_SLICE; lia).
      destruct mvds as [|d mvds]; cbn [bindo] in H; [discriminate|]. set (mv := pmvr (e_pmvr E) d mvp) in *. assert (Vv : i16v mv) by apply pmvr_i16.
      assert (Fin : forall mv2 c1 g1, c1 = with_mvs c (Z.of_nat k) mv mv2 -> (e_type E <> 2 -> c_dir c0 (Z.of_nat k) = 4 -> let r := fst (c_ref c0 (Z.of_nat k)) in mv2 = projected mv (e_dist E (if r =? 0 then 1 else 0) * e_scale E r)) ->
        inv (S k) (kk (S k)) (c1, g1) -> read_fwd E Q (4 * ux) (4 * uy) (Z.of_nat (S k)) (map to_cb rest) mvds (c1, g1) = Done (m', s') ->
        inv (length rs) (kk (length rs)) s' /\ m' = skipn (count takes_forward k (length rs)) (d :: mvds) /\
        (forall j, (j < k)%nat -> c_mv0 (fst s') (Z.of_nat j) = c_mv0 c (Z.of_nat j) /\ c_mv1 (fst s') (Z.of_nat j) = c_mv1 c (Z.of_nat j)) /\
        (forall j, (k <= j)%nat -> fval (d :: mvds) k j s')).
      { intros mv2 c1 g1 Ec V2 R1 H1. destruct (IH (S k) mvds (c1, g1) Hk' R1 m' s' H1) as (A1 & A2 & A3 & A4). cbn [fst] in A3.
        assert (Lo : forall j, (j < k)%nat -> c_mv0 (fst s') (Z.of_nat j) = c_mv0 c (Z.of_nat j) /\ c_mv1 (fst s') (Z.of_nat j) = c_mv1 c (Z.of_nat j)).
        { intros j Lj. destruct (A3 j ltac:(lia)) as [-> ->]. rewrite Ec. apply with_mvs_same. lia. }
        assert (He : c_mv0 (fst s') (Z.of_nat k) = mv /\ c_mv1 (fst s') (Z.of_nat k) = mv2).
        { destruct (A3 k ltac:(lia)) as [-> ->]. rewrite Ec. unfold with_mvs. destruct (with_motion_here c (Z.of_nat k) (c_ref c (Z.of_nat k)) mv mv2) as (_ & -> & ->). auto. }
        split; [exact A1|]. split; [rewrite (count_take _ _ _ Lr Tf); exact A2|]. split; [exact Lo|].
        intros j Lj. destruct (Nat.eq_dec j k) as [-> |N].
        - intros x' y' w' h' Hj _. assert (x' = x /\ y' = y /\ w' = w /\ h' = h) as (-> & -> & -> & ->) by (rewrite Hn in Hj; injection Hj; auto).
          exists d, mvp. rewrite count_none. cbn [nth_error]. split; [reflexivity|]. destruct He as [-> ->]. split; [reflexivity|]. split; [|exact V2].
          rewrite <- (mvp_later false k k (kk k) (length rs) (kk (length rs)) (c, g) s' x y w h _ _ Hn R A1); [exact Em|lia|lia|]. intros j Lj'. unfold cmv. apply Lo. exact Lj'.
        - intros x' y' w' h' Hj T. rewrite (count_take takes_forward k j) by (try lia; exact Tf). cbn [nth_error]. apply (A4 j ltac:(lia) x' y' w' h' Hj T). }
      destruct (Z.eqb_spec (e_type E) B_SLICE) as [B|B]; unfold B_SLICE in B.
      * assert (Kk : forall m, kk m = 0%nat) by (intros m; unfold k1; rewrite B; reflexivity). refine (Fin _ _ _ eq_refl _ _ H); [intros N; exfalso; apply N; exact B|]. rewrite Kk in R |- *.
        apply (inv_step E level ux uy rs Hx Hw Ht Hlv Hlev k x y w h (set_mv0 mv) mv (c_mv1 c (Z.of_nat k)) true false k 0%nat); step_side k.
      * assert (Kk : forall m, kk m = m) by (intros m; unfold k1; destruct (Z.eqb_spec (e_type E) 2); [contradiction|reflexivity]).
        assert (G : forall mv2, i16v mv2 -> inv (S k) (kk (S k)) (with_mvs c (Z.of_nat k) mv mv2, paint wu (ux + x) (uy + y) w h (set_mvs mv mv2) g)).
        { intros mv2 V2. rewrite Kk in R |- *. apply (inv_step E level ux uy rs Hx Hw Ht Hlv Hlev k x y w h (set_mvs mv mv2) mv mv2 true true k k); step_side k. }
        destruct (Z.eqb_spec (c_dir c0 (Z.of_nat k)) 4) as [D4|D4].
        -- destruct (arr4 (e_dist E) (fst _)) as [d1| | |] in H; cbn [bindo] in H; try discriminate. destruct (arr4 (e_scale E) _) as [src| | |] eqn:Es in H; cbn [bindo] in H; try discriminate.
           destruct (arr4 (e_dist E) _) as [d2| | |] eqn:E2 in H; cbn [bindo] in H; try discriminate. apply arr4_val in Es. apply arr4_val in E2.
           destruct (bindo (scale_mv_skip (fst mv) d2 src) (fun x => bindo (scale_mv_skip (snd mv) d2 src) (fun y => Done (x, y)))) as [mv2| | |] eqn:Ev in H; cbn [bindo] in H; try discriminate.
           assert (V2 : i16v mv2). { destruct (scale_mv_skip (fst mv) d2 src) as [a| | |] eqn:Ea; cbn [bindo] in Ev; try discriminate. destruct (scale_mv_skip (snd mv) d2 src) as [b| | |] eqn:Eb; cbn [bindo] in Ev; try discriminate.
             assert (mv2 = (a, b)) as -> by congruence. split; [exact (skip_i16 _ _ _ _ Ea)|exact (skip_i16 _ _ _ _ Eb)]. }
           apply skip_pair in Ev. refine (Fin mv2 _ _ eq_refl _ (G mv2 V2) H). intros _ _. cbv zeta. rewrite Ev, Es, E2. reflexivity.
        -- cbn [bindo] in H. refine (Fin _ _ _ eq_refl _ (G _ zero_i16) H). intros _ D. contradiction.
Qed.
Definition bval (mvds : list mvec) (k j : nat) (s : cu * grid) : Prop := let i := Z.of_nat j in
  forall x y w h, nth_error rs j = Some (x, y, w, h) ->
  (takes_backward (c_dir c0 i) = true -> exists d mvp, nth_error mvds (count takes_backward k j) = Some d /\ c_mv1 (fst s) i = pmvr (e_pmvr E) d mvp /\
    get_mvp E Q (snd s) (4 * ux + 4 * x) (4 * uy + 4 * y) true (snd (c_ref c0 i)) (4 * w) (shape (x, y, w, h)) = Done mvp) /\
  (c_dir c0 i = 2 -> c_mv1 (fst s) i = opposite_vec (projected (c_mv0 (fst s) i) (e_dist E 0 * e_scale E 1))).
Lemma bwd_vals : e_type E = 2 -> forall rest k mvds s, skipn k rs = rest -> inv (length rs) k s ->
  forall m' s', read_bwd E Q (4 * ux) (4 * uy) (Z.of_nat k) (map to_cb rest) mvds s = Done (m', s') ->
  inv (length rs) (length rs) s' /\ (forall j, c_mv0 (fst s') (Z.of_nat j) = c_mv0 (fst s) (Z.of_nat j)) /\
  (forall j, (j < k)%nat -> c_mv1 (fst s') (Z.of_nat j) = c_mv1 (fst s) (Z.of_nat j)) /\
  (forall j, (k <= j)%nat -> bval mvds k j s').
Proof.
  intros T2. induction rest as [|[[[x y] w] h] rest IH]; intros k mvds [c g] Hk R m' s' H.
  - cbn [map read_bwd] in H. assert (Lk : (length rs <= k)%nat).
    { destruct (le_lt_dec (length rs) k) as [L|L]; [exact L|]. exfalso. assert (length (skipn k rs) = 0)%nat by (rewrite Hk; reflexivity). rewrite skipn_length in H0. lia. }
    assert (s' = (c, g)) as -> by congruence. split; [|split; [|split]].
    + eapply inv_weak; [| |exact R]; intros j Lj; left; lia.
    + auto.
    + auto.
    + intros j Lj x y w h Hj. exfalso. assert (j < length rs)%nat by (apply nth_error_Some; congruence). lia.
  - destruct (skip_head _ _ _ _ Hk) as [Hn Hk']. assert (Lr : (k < length rs)%nat) by (apply nth_error_Some; congruence).
    pose proof (part_pos level rs Ht _ _ _ _ _ Hn) as P. cbn [map read_bwd] in H.
    replace (Z.of_nat k + 1) with (Z.of_nat (S k)) in H by lia.
    pose proof R as [Kp Rf I0 I1 Ds Gd Un]. cbn [fst snd] in *. destruct Un as (_ & _ & _ & _ & Ud & Ur). rewrite Ud in H.
    destruct (Ds k Lr) as [Dk _]. rewrite Ud in Dk.
    destruct (Z.eqb_spec (c_dir c0 (Z.of_nat k)) 0) as [D1|D1].
    + assert (C0 : cref true c k = -1) by (unfold dir_ok in Dk; lia).
      assert (Tf : takes_backward (c_dir c0 (Z.of_nat k)) = false) by (rewrite D1; reflexivity).
      assert (R' : inv (length rs) (S k) (c, g)). { eapply inv_weak; [| |exact R]; cbn [fst]; intros j Lj; [left; lia|]; destruct (Nat.eq_dec j k) as [-> |]; auto; left; lia. }
      destruct (IH (S k) mvds (c, g) Hk' R' m' s' H) as (A1 & A2 & A3 & A4). split; [exact A1|]. split; [exact A2|]. split; [intros j Lj; apply A3; lia|].
      intros j Lj. destruct (Nat.eq_dec j k) as [-> |N].
      * intros x' y' w' h' _. split; [intros T; congruence|intros D2; rewrite D1 in D2; discriminate].
      * intros x' y' w' h' Hj. rewrite (count_skip takes_backward k j) by (try lia; exact Tf). apply (A4 j ltac:(lia) x' y' w' h' Hj).
    + assert (Own : k_r1 (g ((uy + y) * wu + (ux + x))) = snd (c_ref c0 (Z.of_nat k))) by (rewrite <- Ur; apply (Rf k _ _ _ Hn (part_own level ux uy rs Ht _ _ _ _ _ Hn))).
      change (to_cb (x, y, w, h)) with (CuModel.B (4 * x) (4 * y) (4 * w) (4 * h)) in H. cbn [CuModel.cx CuModel.cy cw ch B] in H. rewrite !shr4 in H. rewrite Own in H.
      destruct (get_mvp E Q g _ _ true _ _ _) as [mvp| | |] eqn:Em in H; cbn [bindo] in H; try discriminate.
      assert (Fin : forall mv mvds', i16v mv ->
        read_bwd E Q (4 * ux) (4 * uy) (Z.of_nat (S k)) (map to_cb rest) mvds' (with_mvs c (Z.of_nat k) (c_mv0 c (Z.of_nat k)) mv, paint wu (ux + x) (uy + y) w h (set_mv1 mv) g) = Done (m', s') ->
        (takes_backward (c_dir c0 (Z.of_nat k)) = true -> exists d, mvds = d :: mvds' /\ mv = pmvr (e_pmvr E) d mvp) ->
        (takes_backward (c_dir c0 (Z.of_nat k)) = false -> mvds' = mvds) ->
        (c_dir c0 (Z.of_nat k) = 2 -> mv = opposite_vec (projected (c_mv0 c (Z.of_nat k)) (e_dist E 0 * e_scale E 1))) ->
        inv (length rs) (length rs) s' /\ (forall j, c_mv0 (fst s') (Z.of_nat j) = c_mv0 c (Z.of_nat j)) /\
        (forall j, (j < k)%nat -> c_mv1 (fst s') (Z.of_nat j) = c_mv1 c (Z.of_nat j)) /\ (forall j, (k <= j)%nat -> bval mvds k j s')).
      { intros mv mvds' V H1 Td Tn T2'.
        assert (R1 : inv (length rs) (S k) (with_mvs c (Z.of_nat k) (c_mv0 c (Z.of_nat k)) mv, paint wu (ux + x) (uy + y) w h (set_mv1 mv) g)).
        { apply (inv_step E level ux uy rs Hx Hw Ht Hlv Hlev k x y w h (set_mv1 mv) (c_mv0 c (Z.of_nat k)) mv false true (length rs) k); step_side k. }
        destruct (IH (S k) mvds' _ Hk' R1 m' s' H1) as (A1 & A2 & A3 & A4). cbn [fst] in A2, A3.
        assert (M0 : forall j, c_mv0 (fst s') (Z.of_nat j) = c_mv0 c (Z.of_nat j)).
        { intros j. rewrite A2. destruct (Nat.eq_dec j k) as [-> |N]; [|apply with_mvs_same; exact N]. unfold with_mvs. destruct (with_motion_here c (Z.of_nat k) (c_ref c (Z.of_nat k)) (c_mv0 c (Z.of_nat k)) mv) as (_ & -> & _). reflexivity. }
        assert (Lo : forall j, (j < k)%nat -> c_mv1 (fst s') (Z.of_nat j) = c_mv1 c (Z.of_nat j)).
        { intros j Lj. rewrite (A3 j ltac:(lia)). apply with_mvs_same. lia. }
        assert (He : c_mv1 (fst s') (Z.of_nat k) = mv).
        { rewrite (A3 k ltac:(lia)). unfold with_mvs. destruct (with_motion_here c (Z.of_nat k) (c_ref c (Z.of_nat k)) (c_mv0 c (Z.of_nat k)) mv) as (_ & _ & ->). reflexivity. }
        split; [exact A1|]. split; [exact M0|]. split; [exact Lo|].
        intros j Lj. destruct (Nat.eq_dec j k) as [-> |N].
        - intros x' y' w' h' Hj. assert (x' = x /\ y' = y /\ w' = w /\ h' = h) as (-> & -> & -> & ->) by (rewrite Hn in Hj; injection Hj; auto).
          rewrite count_none, He, M0. split; [|exact T2']. intros T. destruct (Td T) as (d & -> & ->). exists d, mvp. cbn [nth_error]. split; [reflexivity|]. split; [reflexivity|].
          rewrite <- (mvp_later true k (length rs) k (length rs) (length rs) (c, g) s' x y w h _ _ Hn R A1); [exact Em|lia|lia|]. intros j Lj'. unfold cmv. apply Lo. exact Lj'.
        - intros x' y' w' h' Hj. destruct (A4 j ltac:(lia) x' y' w' h' Hj) as [B1 B2]. split; [|exact B2]. intros T. destruct (takes_backward (c_dir c0 (Z.of_nat k))) eqn:Tk.
          + destruct (Td eq_refl) as (d & -> & _). rewrite (count_take takes_backward k j) by (try lia; exact Tk). cbn [nth_error]. exact (B1 T).
          + rewrite <- (Tn eq_refl). rewrite (count_skip takes_backward k j) by (try lia; exact Tk). exact (B1 T). }
      destruct (Z.eqb_spec (c_dir c0 (Z.of_nat k)) 2) as [D2|D2].
      * assert (Mo : k_m0 (g ((uy + y) * wu + (ux + x))) = c_mv0 c (Z.of_nat k)).
        { assert (N : cref false c k <> -1) by (unfold dir_ok in Dk; lia). apply (I0 k _ _ _ Lr Hn (part_own level ux uy rs Ht _ _ _ _ _ Hn) N). }
        rewrite Mo in H. destruct (arr4 (e_dist E) 0) as [bd| | |] eqn:E1 in H; cbn [bindo] in H; try discriminate. destruct (arr4 (e_scale E) 1) as [fs| | |] eqn:E2 in H; cbn [bindo] in H; try discriminate.
        apply arr4_val in E1. apply arr4_val in E2. set (m0 := c_mv0 c (Z.of_nat k)) in *.
        destruct (scale_mv_skip (fst m0) bd fs) as [a| | |] eqn:Ea in H; cbn [bindo] in H; try discriminate. destruct (scale_mv_skip (snd m0) bd fs) as [b| | |] eqn:Eb in H; cbn [bindo] in H; try discriminate.
        assert (Tk : takes_backward (c_dir c0 (Z.of_nat k)) = false) by (rewrite D2; reflexivity).
        refine (Fin _ _ (to_i16_i16 _ _) H _ _ _); [intros T; congruence|reflexivity|]. intros _. apply skip_one in Ea. apply skip_one in Eb. rewrite Ea, Eb, E1, E2. reflexivity.
      * assert (Tk : takes_backward (c_dir c0 (Z.of_nat k)) = true). { unfold takes_backward. rewrite orb_true_iff, !Z.eqb_eq. unfold dir_ok in Dk. destruct (Ds k Lr) as [_ Dn]. rewrite Ud in Dn. clear - Dk D1 D2 T2 Dn. lia. }
        destruct mvds as [|d mvds]; cbn [bindo] in H; [discriminate|]. refine (Fin _ _ (pmvr_i16 _ _ _) H _ _ _).
        -- intros _. exists d. auto.
        -- intros T. congruence.
        -- intros D. contradiction.
Qed.
(** All vectors. *)
Lemma read_vals mvds s s' : c_pus c0 = map to_cb rs -> inv 0 0 s -> read_mv E Q (4 * ux) (4 * uy) mvds s = Done s' ->
  inv (length rs) (length rs) s' /\ (forall j, fval mvds 0 j s') /\ (e_type E = 2 -> forall j, bval (skipn (count takes_forward 0 (length rs)) mvds) 0 j s').
Proof.
  intros Pu R H. unfold read_mv in H. assert (Up : c_pus (fst s) = map to_cb rs) by (destruct (i_unit _ _ _ _ _ _ _ _ _ _ R) as (_ & _ & _ & U & _); congruence).
  rewrite Up in H. destruct (read_fwd E Q (4 * ux) (4 * uy) 0 (map to_cb rs) mvds s) as [[m1 s1]| | |] eqn:E1; cbn [bindo] in H; try discriminate.
  assert (R0 : inv 0%nat (kk 0%nat) s) by (unfold k1; destruct (e_type E =? 2); exact R).
  destruct (fwd_vals rs 0%nat mvds s eq_refl R0 m1 s1 E1) as (A1 & A2 & _ & A4).
  destruct (Z.eqb_spec (e_type E) B_SLICE) as [B|B]; unfold B_SLICE in B.
  - destruct (arr4 (e_dist E) 1) as [z1| | |]; cbn [bindo] in H; try discriminate. destruct (arr4 (e_scale E) 1) as [z2| | |]; cbn [bindo] in H; try discriminate. destruct (arr4 (e_dist E) 0) as [z3| | |]; cbn [bindo] in H; try discriminate.
    assert (Kk : forall m, kk m = 0%nat) by (intros m; unfold k1; rewrite B; reflexivity). rewrite Kk in A1.
    assert (Vp : c_pus (fst s1) = map to_cb rs) by (destruct (i_unit _ _ _ _ _ _ _ _ _ _ A1) as (_ & _ & _ & U & _); congruence). rewrite Vp in H.
    destruct (read_bwd E Q (4 * ux) (4 * uy) 0 (map to_cb rs) m1 s1) as [[m2 s2]| | |] eqn:E2; cbn [bindo] in H; try discriminate. assert (s2 = s') as -> by congruence.
    destruct (bwd_vals B rs 0%nat m1 s1 eq_refl A1 m2 s' E2) as (B1 & B2 & _ & B4). split; [exact B1|]. split; [|intros _ j; rewrite <- A2; apply B4; lia].
    intros j x y w h Hj T. destruct (A4 j ltac:(lia) x y w h Hj T) as (d & mvp & D1 & D2 & D3 & D4). exists d, mvp. split; [exact D1|]. rewrite B2. split; [exact D2|]. split; [|intros N; contradiction].
    assert (Lj : (j < length rs)%nat) by (apply nth_error_Some; congruence).
    rewrite <- (mvp_later false j (length rs) 0%nat (length rs) (length rs) s1 s' x y w h _ _ Hj A1 B1); [exact D3|lia|lia|]. intros i _. unfold cmv. apply B2.
  - assert (Kk : forall m, kk m = m) by (intros m; unfold k1; destruct (Z.eqb_spec (e_type E) 2); [contradiction|reflexivity]). rewrite Kk in A1. assert (s1 = s') as -> by congruence.
    split; [exact A1|]. split; [intros j; apply A4; lia|intros T; contradiction].
Qed.
Lemma count_ahead f c j : (forall i, c_dir c i = c_dir c0 i) -> count f 0 j = ahead f c j.
Proof. intros D. unfold count, ahead. rewrite Nat.sub_0_r. f_equal. apply filter_ext. intros i. rewrite D. reflexivity. Qed.
Lemma part_mvp bwd (s : cu * grid) x y w h j ref mvp : nth_error rs j = Some (x, y, w, h) -> grid_ok E (snd s) -> 0 <= ref < e_nref E ->
  get_mvp E Q (snd s) (4 * ux + 4 * x) (4 * uy + 4 * y) bwd ref (4 * w) (shape (x, y, w, h)) = Done mvp ->
  mvp = predictor E Q (snd s) (before (Z.to_nat (e_lv E - 2)) rs n ux uy j) bwd ref (ux + x) (uy + y) w (preference (x, y, w, h)).
Proof.
  intros Hj G Hr H. pose proof (part_tr E Q level ux uy rs Hx ty four Hrs Hlv Hlev Hsh Hy Hax Hay Hqx Hqy j x y w h Hj) as Tr.
  rewrite Hrs. exact (mvp_val E Q (snd s) (4 * ux + 4 * x) (4 * uy + 4 * y) bwd ref (4 * w) (pu_shape (4 * w) (4 * h) (4 * x) (4 * y)) (ux + x) (uy + y) w (preference (x, y, w, h)) (bf (e_lv E) level ty four ux uy j) mvp Eok G Hr (shape_pref x y w h) ltac:(lia) ltac:(lia) eq_refl Tr H).
Qed.
End Coded.

Lemma same_self E Q level ux uy g : good_past E Q level ux uy g -> same_past E Q level ux uy g g.
Proof. intros P X Y Av No Bf. split; [unfold same_cell; auto 10|apply P; assumption]. Qed.
Lemma coded_ok E Q level ux uy y stale c g c' g' : env_ok E -> unit_at E Q level ux uy -> syntax_ok E level y -> grid_ok E g -> 1 <= y_type y <= 7 -> Forall i16v (y_mvds y) ->
  unit_motion E Q stale (4 * ux) (4 * uy) level y (c, g) = Done (c', g') -> coded_motion E Q level ux uy y c' g'.
Proof.
  intros Eok Uat Sok G Ty Vd H. pose proof Uat as [Ul Ux Uy Uw Uh Ax Ay Qx Qy]. pose proof (eo_lv _ Eok) as Lv. assert (L6 : 3 <= level <= 6) by (clear - Ul Lv; lia).
  unfold unit_motion in H. cbn [fst snd] in H. pose proof (header_rel E level y c c Eok L6 Sok) as Hh.
  assert (Th : forall c0, header E level y c = Done c0 -> c_type c0 = y_type y).
  { intros c0. unfold header. replace (Z.max 0 (y_type y)) with (y_type y) by lia. replace (y_type y <=? 0) with false by (symmetry; apply Z.leb_gt; lia).
    replace (y_type y <=? 7) with true by (symmetry; apply Z.leb_le; lia). destruct (if e_type E =? S_SLICE then _ else _) as [w ds]. destruct (e_type E =? I_SLICE); [discriminate|].
    destruct (inter_dirs E y _) as [[d r]| | |]; cbn [bindo]; try discriminate. intros K. match type of K with Done ?t = _ => assert (c0 = t) as -> by congruence end. reflexivity. }
  destruct (header E level y c) as [c0| | |] eqn:Eh; cbn [bindo] in H; try discriminate. cbn [orel] in Hh. destruct Hh as (Ho & _ & _). specialize (Th c0 eq_refl).
  pose proof (ho_ty _ _ _ Ho) as Tk. rewrite Th in *. pose proof (ho_pus _ _ _ Ho) as Pu. rewrite Th in Pu.
  set (ty := y_type y) in *. replace (four_of (c_ds c0) ty level) with false in Pu by (unfold four_of; destruct (Z.eqb_spec ty 0); [lia|reflexivity]).
  set (rs := rects false ty (2 ^ (level - 2))) in *. 
  assert (Ht : tiles (2 ^ (level - 2)) rs = true) by (apply rects_tile; [exact L6|exact Tk|discriminate]).
  assert (Ers : rs = parts false ty (2 ^ (level - 2))) by (unfold rs, rects; replace (ty <=? 7) with true by (symmetry; apply Z.leb_le; lia); reflexivity).
  replace (8 <=? ty) with false in H by (symmetry; apply Z.leb_gt; lia). replace (ty =? 0) with false in H by (symmetry; apply Z.eqb_neq; lia).
  assert (Tn : e_type E <> 0) by (intros Z0; pose proof (ho_i _ _ _ Ho Z0) as H8; rewrite Th in H8; lia).
  assert (Et : e_type E = 1 \/ e_type E = 2 \/ e_type E = 4) by (pose proof (eo_type _ Eok) as K; clear - K Tn; lia).
  assert (Lr : length rs = ulen ty). { rewrite Ers. rewrite inter_len by (clear - Ty; lia). unfold ulen. destruct (Z.leb_spec ty 1) as [U1|U1], (Z.eqb_spec ty 1) as [U2|U2]; try reflexivity; exfalso; clear - Ty U1 U2; lia. }
  assert (Sh : shape_ok level ty false). { destruct Tk as (_ & K2 & _). split; [clear - Ty; lia|]. split; [intros; apply K2; clear - H0 Ty; lia|discriminate]. }
  assert (Dd : forall j, (j < length rs)%nat -> dir_ok E (c_dir c0 (Z.of_nat j)) (cref false c0 j) (cref true c0 j) /\ c_dir c0 (Z.of_nat j) <> -1).
  { intros j Lj. apply (ho_inter _ _ _ Ho); [rewrite Th; exact Ty|]. rewrite Th. fold ty. rewrite <- Lr. exact Lj. }
  assert (R : inv E level ux uy rs 0 0 c0 g (c0, store_refs E c0 (4 * ux) (4 * uy) 0 (c_pus c0) g)).
  { rewrite Pu. destruct (store_ok E level ux uy rs Ux Uw Ht Lv Ul c0 g rs 0%nat g eq_refl ltac:(lia) ltac:(intros X Y _ _; reflexivity) ltac:(intros j b X Y Lj; lia)) as [Kp Rf].
    constructor; cbn [fst snd]; [exact Kp|exact Rf|intros j b X Y Lj; lia|intros j b X Y Lj; lia|exact Dd| |repeat (split; [reflexivity|]); auto].
    apply (store_good E level rs c0 (4 * ux) (4 * uy) Ht Eok (map to_cb rs) 0%nat g); [|exact G]. intros j Lj. rewrite map_length in Lj. apply Dd. exact Lj. }
  destruct (read_vals E Q level ux uy rs Ux Uw Ht ty false Ers Lv Ul Sh Uy Ax Ay Qx Qy g c0 Et (y_mvds y) _ (c', g') Pu R H) as (A & F & B).
  destruct (i_unit _ _ _ _ _ _ _ _ _ _ A) as (_ & U2 & _ & U4 & U5 & U6). cbn [fst] in *. pose proof (i_good _ _ _ _ _ _ _ _ _ _ A) as Gd. cbn [snd] in Gd.
  constructor.
  - rewrite U2. exact Th.
  - fold ty. rewrite U4, Pu, <- Ers. reflexivity.
  - fold ty. rewrite <- Ers. intros j x v w h Hj. cbv zeta. rewrite <- ?Ers. rewrite U5, U6. assert (Lj : (j < length rs)%nat) by (apply nth_error_Some; congruence). destruct (Dd j Lj) as [Dk Dn].
    rewrite <- !(count_ahead c0 _ c') by exact U5.
    assert (Pm : forall bwd ref mvp, 0 <= ref < e_nref E -> get_mvp E Q g' (4 * ux + 4 * x) (4 * uy + 4 * v) bwd ref (4 * w) (shape (x, v, w, h)) = Done mvp ->
      mvp = predictor E Q g' (before (Z.to_nat (e_lv E - 2)) rs (2 ^ (level - 2)) ux uy j) bwd ref (ux + x) (uy + v) w (preference (x, v, w, h))).
    { intros bwd ref mvp Hr. exact (part_mvp E Q level ux uy rs Eok Ux Ht ty false Ers Lv Ul Sh Uy Ax Ay Qx Qy bwd (c', g') x v w h j ref mvp Hj Gd Hr). }
    assert (Vm : forall bwd ref mvp, get_mvp E Q g' (4 * ux + 4 * x) (4 * uy + 4 * v) bwd ref (4 * w) (shape (x, v, w, h)) = Done mvp -> i16v mvp) by (intros bwd ref mvp; apply mvp_i16).
    assert (Vn : forall k d, nth_error (y_mvds y) k = Some d -> i16v d) by (intros k d K; rewrite Forall_forall in Vd; apply Vd; eapply nth_error_In; exact K).
    pose proof (eo_b _ Eok) as E2. unfold cref in Dk.
    split; [|split; [|split]].
    + intros T. destruct (F j x v w h Hj T) as (d & mvp & D1 & D2 & D3 & _). cbn [fst snd] in *. exists d. split; [exact D1|]. rewrite D2, (pmvr_add _ _ _ (Vn _ _ D1) (Vm _ _ _ D3)). f_equal. apply Pm; [|exact D3].
      unfold takes_forward in T. apply negb_true_iff, Z.eqb_neq in T. unfold dir_ok in Dk. clear - Dk T Dn E2. lia.
    + intros T. assert (T2 : e_type E = 2). { unfold takes_backward in T. rewrite orb_true_iff, !Z.eqb_eq in T. unfold dir_ok in Dk. clear - Dk T. lia. }
      destruct (B T2 j x v w h Hj) as [B1 _]. destruct (B1 T) as (d & mvp & D1 & D2 & D3). cbn [fst snd] in *. exists d.
      assert (D1' : nth_error (y_mvds y) (count c0 takes_forward 0 (length rs) + count c0 takes_backward 0 j) = Some d).
      { rewrite <- D1. clear. generalize (count c0 takes_forward 0 (length rs)). generalize (y_mvds y). intros l n0. revert l. induction n0 as [|n0 IH]; intros l; [reflexivity|]. destruct l as [|a l]; [destruct (count c0 takes_backward 0 j); reflexivity|]. cbn [Nat.add nth_error skipn]. apply IH. }
      split; [exact D1'|]. rewrite D2, (pmvr_add _ _ _ (Vn _ _ D1') (Vm _ _ _ D3)). f_equal. apply Pm; [|exact D3].
      unfold takes_backward in T. rewrite orb_true_iff, !Z.eqb_eq in T. unfold dir_ok in Dk. clear - Dk T E2. lia.
    + intros D. assert (T2 : e_type E = 2) by (unfold dir_ok in Dk; clear - Dk D; lia). destruct (B T2 j x v w h Hj) as [_ B2]. exact (B2 D).
    + intros D. assert (T2 : e_type E <> 2) by (unfold dir_ok in Dk; clear - Dk D; lia).
      assert (T : takes_forward (c_dir c0 (Z.of_nat j)) = true) by (rewrite D; reflexivity).
      destruct (F j x v w h Hj T) as (d & mvp & _ & _ & _ & D4). exact (D4 T2 D).
Qed.
