(** Proofs: the skip and direct modes, and one coding unit. *)
From Coq Require Import ZArith List Bool Lia.
From Verif Require Import CBase CBaseProofs MemModel SaoModel SaoProofs QpModel UtilModel MvModel MvSpec MvProofs HdrModel SynModel CuModel NbModel NbSpec NbProofs MpModel MpSpec MpProofs MpProofsB MpProofsC MpProofsD MpProofsE MpProofsF MpProofsG.
Import ListNotations.
Open Scope Z_scope.

(** ** The result of a unit *)
Record post (E : env) (level ux uy : Z) (rs : list (Z * Z * Z * Z)) (m : nat) (c0 : cu) (g0 : grid) (s : cu * grid) : Prop := {
  po_keeps : keeps E level ux uy g0 (snd s);
  po_cells : forall j b X Y, (j < m)%nat -> nth_error rs j = Some b -> in_part ux uy b X Y ->
    let i := Z.of_nat j in let k := snd s (Y * e_wu E + X) in let c := fst s in
    k_r0 k = fst (c_ref c i) /\ k_r1 k = snd (c_ref c i) /\ (k_r0 k <> -1 -> k_m0 k = c_mv0 c i) /\ (k_r1 k <> -1 -> k_m1 k = c_mv1 c i) /\ (e_type E = 2 \/ c_type c <> 0 -> k_dir k = c_dir c i);
  po_dirs : forall j, (j < m)%nat -> dir_ok E (c_dir (fst s) (Z.of_nat j)) (cref false (fst s) j) (cref true (fst s) j);
  po_good : grid_ok E (snd s);
  po_unit : c_level (fst s) = c_level c0 /\ c_type (fst s) = c_type c0 /\ c_dmh (fst s) = c_dmh c0 /\ c_pus (fst s) = c_pus c0 /\ (forall i, c_dir (fst s) i = c_dir c0 i) }.
Definition alike (m : nat) (c c' : cu) : Prop := forall j, (j < m)%nat -> let i := Z.of_nat j in
  c_ref c i = c_ref c' i /\ (fst (c_ref c i) <> -1 -> c_mv0 c i = c_mv0 c' i) /\ (snd (c_ref c i) <> -1 -> c_mv1 c i = c_mv1 c' i).

Lemma for_rel {A : Type} (R : nat -> cu * grid -> cu * grid -> Prop) (L : nat) (f f' : Z -> cu * grid -> outcome (cu * grid)) (a : A) :
  (forall k s s', (k < L)%nat -> R k s s' -> orel (R (S k)) (f (Z.of_nat k) s) (f' (Z.of_nat k) s')) ->
  forall m k s s', (k + m = L)%nat -> R k s s' -> orel (R L) (for_pus m (Z.of_nat k) f s) (for_pus m (Z.of_nat k) f' s').
Proof.
  intros H. induction m as [|m IH]; intros k s s' Ek Hs; cbn [for_pus].
  - cbn [orel]. replace L with k by lia. exact Hs.
  - eapply orel_bind; [apply H; [lia|exact Hs]|]. intros t t' Ht. replace (Z.of_nat k + 1) with (Z.of_nat (S k)) by lia. apply IH; [lia|exact Ht].
Qed.
Lemma with_motion_other c k r m n j : j <> k -> c_ref (with_motion c (Z.of_nat k) r m n) (Z.of_nat j) = c_ref c (Z.of_nat j) /\ c_mv0 (with_motion c (Z.of_nat k) r m n) (Z.of_nat j) = c_mv0 c (Z.of_nat j) /\ c_mv1 (with_motion c (Z.of_nat k) r m n) (Z.of_nat j) = c_mv1 c (Z.of_nat j).
Proof. intros N. unfold with_motion, updf. cbn [c_ref c_mv0 c_mv1]. destruct (Z.eqb_spec (Z.of_nat j) (Z.of_nat k)); [lia|auto]. Qed.
Lemma with_motion_here c i r m n : c_ref (with_motion c i r m n) i = r /\ c_mv0 (with_motion c i r m n) i = m /\ c_mv1 (with_motion c i r m n) i = n.
Proof. unfold with_motion, updf. cbn [c_ref c_mv0 c_mv1]. rewrite Z.eqb_refl. auto. Qed.
Lemma alike_step k c c' r m n : alike k c c' -> alike (S k) (with_motion c (Z.of_nat k) r m n) (with_motion c' (Z.of_nat k) r m n).
Proof.
  intros H j Lj. cbv zeta. destruct (Nat.eq_dec j k) as [-> |N].
  - destruct (with_motion_here c (Z.of_nat k) r m n) as (-> & -> & ->). destruct (with_motion_here c' (Z.of_nat k) r m n) as (-> & -> & ->). auto.
  - destruct (with_motion_other c k r m n j N) as (-> & -> & ->). destruct (with_motion_other c' k r m n j N) as (-> & -> & ->). apply H. lia.
Qed.

Section Skip.
Variables (E : env) (Q : place) (level ux uy : Z) (rs : list (Z * Z * Z * Z)).
Local Notation n := (2 ^ (level - 2)).
Local Notation wu := (e_wu E).
Hypothesis Eok : env_ok E.
Hypothesis Uat : unit_at E Q level ux uy.
Hypothesis Ht : tiles n rs = true.
Local Notation post := (post E level ux uy rs).

Lemma post_step k x y w h r (m v : mvec) f c0 g0 c g : nth_error rs k = Some (x, y, w, h) -> (forall q, f (f q) = f q) ->
  (forall q, k_r0 (f q) = fst r /\ k_r1 (f q) = snd r /\ k_m0 (f q) = m /\ k_m1 (f q) = v /\ (e_type E = 2 -> k_dir (f q) = c_dir c (Z.of_nat k))) ->
  i16v m -> i16v v -> c_type c = 0 -> dir_ok E (c_dir c (Z.of_nat k)) (fst r) (snd r) ->
  post k c0 g0 (c, g) -> post (S k) c0 g0 (with_motion c (Z.of_nat k) r m v, paint wu (ux + x) (uy + y) w h f g).
Proof.
  intros Hk Hi Hf Vm Vv Ct Dk [Kp Ce Ds Gd Un]. destruct Uat as [Ul Ux Uy Uw Uh _ _ _ _]. cbn [fst snd] in *. constructor; cbn [fst snd].
  - intros X Y HX HO. rewrite (paint_part E level ux uy rs Ux Uw Ht k x y w h) by assumption. destruct (in_block (x, y, w, h) (X - ux) (Y - uy)) eqn:Ib; [|apply Kp; assumption].
    exfalso. apply HO. apply (part_in level ux uy rs Ht k (x, y, w, h) X Y Hk Ib).
  - intros j p X Y Lj Hj Hp. cbv zeta. pose proof (part_in level ux uy rs Ht _ _ _ _ Hj Hp) as [HX _]. rewrite (paint_part E level ux uy rs Ux Uw Ht k x y w h) by (assumption || lia).
    change (c_dir (with_motion c (Z.of_nat k) r m v)) with (c_dir c). change (c_type (with_motion c (Z.of_nat k) r m v)) with (c_type c).
    destruct (in_block (x, y, w, h) (X - ux) (Y - uy)) eqn:Ib.
    + assert (j = k) by (eapply (part_unique level ux uy rs Ht); eassumption). subst j. destruct (with_motion_here c (Z.of_nat k) r m v) as (-> & -> & ->). destruct (Hf (g (Y * wu + X))) as (-> & -> & -> & -> & D).
      repeat (split; [auto|]). intros [T|T]; [auto|contradiction].
    + assert (N : j <> k) by (intros ->; rewrite Hk in Hj; injection Hj as <-; unfold in_part in Hp; congruence). destruct (with_motion_other c k r m v j N) as (-> & -> & ->). apply (Ce j p X Y); [lia|assumption|assumption].
  - intros j Lj. change (c_dir (with_motion c (Z.of_nat k) r m v)) with (c_dir c). unfold cref. destruct (Nat.eq_dec j k) as [-> |N].
    + destruct (with_motion_here c (Z.of_nat k) r m v) as (-> & _). exact Dk.
    + destruct (with_motion_other c k r m v j N) as (-> & _). apply Ds. lia.
  - destruct Eok as [Et En Ei Eb _ _ _ _]. unfold grid_ok. apply (paint_any E level rs Ht (fun q => i16v (k_m0 q) /\ i16v (k_m1 q) /\ -1 <= k_r0 q < e_nref E /\ -1 <= k_r1 q < e_nref E)); [|exact Gd].
    intros q _. destruct (Hf q) as (-> & -> & -> & -> & _). split; [exact Vm|]. split; [exact Vv|]. unfold dir_ok in Dk. clear - Dk En Eb. lia.
  - exact Un.
Qed.
Lemma post_start c g : grid_ok E g -> post 0 c g (c, g).
Proof. intros G. constructor; cbn [fst snd]; [intros X Y _ _; reflexivity|intros; lia|intros; lia|exact G|repeat (split; [reflexivity|]); reflexivity]. Qed.

(** ** Neighbours of the whole unit *)
Lemma whole : part_at (e_lv E) level 0 false ux uy 0 0 0 n n.
Proof. destruct Uat as [Ul Ux Uy Uw Uh Ax Ay _ _]. destruct Eok as [_ _ _ _ _ _ _ Lv]. constructor; try assumption; [unfold shape_ok; split; [lia|]; split; [lia|discriminate]|reflexivity]. Qed.
Lemma whole_bf X Y : bf (e_lv E) level 0 false ux uy 0 X Y = true -> ~ in_unit level ux uy X Y /\ unit_before (Z.to_nat (e_lv E - 2)) X Y ux uy = true.
Proof.
  unfold bf, before, in_unit. destruct (in_block (ux, uy, n, n) X Y) eqn:Ib; [cbn; discriminate|]. intros B. split; [|exact B].
  intros [A1 A2]. unfold in_block in Ib. rewrite !andb_false_iff, !Z.leb_gt, !Z.ltb_ge in Ib. lia.
Qed.
Definition round_about (X Y : Z) : Prop := In (X, Y) [(ux - 1, uy - 1); (ux, uy - 1); (ux - 1, uy); (ux + n - 1, uy - 1); (ux - 1, uy + n - 1)] \/
  X = -1 \/ (X, Y) = (ux + n, uy - 1) /\ bf (e_lv E) level 0 false ux uy 0 (ux + n) (uy - 1) = true.
Lemma round_past X Y : avail E Q X Y = true -> round_about X Y -> ~ in_unit level ux uy X Y /\ unit_before (Z.to_nat (e_lv E - 2)) X Y ux uy = true.
Proof.
  intros Av R. apply whole_bf. pose proof (part_facts _ _ _ _ _ _ _ _ _ _ _ whole) as F. cbv zeta in F.
  destruct F as (_ & _ & _ & _ & _ & _ & _ & _ & _ & F1 & F2 & F3 & F4 & F5). rewrite !Z.add_0_r in *.
  destruct R as [R|[R|[R Rb]]].
  - cbn [In] in R. destruct R as [R|[R|[R|[R|[R|[]]]]]]; apply pair_equal_spec in R; destruct R as [<- <-]; assumption.
  - exfalso. unfold avail in Av. rewrite !andb_true_iff, !Z.leb_le in Av. lia.
  - apply pair_equal_spec in R. destruct R as [-> ->]. exact Rb.
Qed.
Definition xr := if bf (e_lv E) level 0 false ux uy 0 (ux + n) (uy - 1) then ux + n else -1.
Lemma whole_tr : tr_column E Q (ux + n - 1) uy = Done xr.
Proof.
  destruct Uat as [_ _ _ _ _ _ _ Qx Qy]. pose proof (tr_ok (e_lv E) level 0 false ux uy 0 0 0 n n E Q whole eq_refl Qx Qy) as T. rewrite !Z.add_0_r in T. exact T.
Qed.
Lemma xr_round : round_about xr (uy - 1).
Proof. unfold xr. destruct (bf _ _ _ _ _ _ _ _ _) eqn:B; [right; right; auto|right; left; reflexivity]. Qed.
Lemma near_rel g g' X Y : same_past E Q level ux uy g g' -> round_about X Y -> nrel E (spatial E Q g X Y) (spatial E Q g' X Y).
Proof.
  intros P R.
  assert (H : avail E Q X Y = true -> same_cell E (g (Y * wu + X)) (g' (Y * wu + X)) /\ cell_ok E (g (Y * wu + X))) by (intros Av; destruct (round_past X Y Av R); apply P; assumption).
  assert (Hh : forall bwd, nhalf bwd (spatial E Q g X Y) (spatial E Q g' X Y)).
  { intros bwd. apply spatial_half. intros Av. destruct (H Av) as [(S1 & S2 & S3 & S4 & _) _]. destruct bwd; split; cbn [kref kmv]; assumption. }
  split; [apply Hh|]. split; [apply Hh|]. pose proof (avail_spatial E Q g X Y) as A1. pose proof (avail_spatial E Q g' X Y) as A2. unfold spatial in *.
  destruct ((Y <? 0) || _ || _ || _ || _); cbn [n_av n_dir n_r0 n_r1] in *.
  - split; [reflexivity|]. unfold motion_ok, dir_ok. destruct (e_type E =? 2); left; auto.
  - destruct (H (eq_sym A1)) as [(_ & _ & _ & _ & S5) Ok]. split; [exact S5|exact Ok].
Qed.
Lemma shl_level : Z.shiftr (Z.shiftl 1 level) 2 = n.
Proof. destruct Uat as [Ul _ _ _ _ _ _ _ _]. rewrite Z.shiftl_1_l, Z.shiftr_div_pow2 by lia. rewrite <- Z.pow_sub_r by lia. reflexivity. Qed.
Lemma six_rel g g' : same_past E Q level ux uy g g' -> grid_ok E g -> grid_ok E g' ->
  orel (fun ns ns' => Forall2 (nrel E) ns ns' /\ Forall (nbr_ok E) ns /\ Forall (nbr_ok E) ns')
    (six_neighbors E Q g (4 * ux) (4 * uy) (Z.shiftl 1 level) (Z.shiftl 1 level)) (six_neighbors E Q g' (4 * ux) (4 * uy) (Z.shiftl 1 level) (Z.shiftl 1 level)).
Proof.
  intros P G G'. unfold six_neighbors. rewrite !shr4, shl_level. replace (n + ux - 1) with (ux + n - 1) by ring. replace (n + uy - 1) with (uy + n - 1) by ring. rewrite whole_tr. cbn [bindo].
  destruct (e_ref0 E); cbn [orel]; [|exact I]. destruct Eok as [_ En _ _ _ _ _ _].
  split; [|split].
  - repeat (constructor; [apply near_rel; [exact P|first [apply xr_round | unfold round_about; left; cbn [In]; auto 10]]|]). constructor.
  - repeat (constructor; [apply spatial_ok; [lia|exact G]|]); constructor.
  - repeat (constructor; [apply spatial_ok; [lia|exact G']|]); constructor.
Qed.
Lemma mvp_whole g0 g0' g g' bwd ref : same_past E Q level ux uy g0 g0' -> keeps E level ux uy g0 g -> keeps E level ux uy g0' g' ->
  get_mvp E Q g (4 * ux) (4 * uy) bwd ref (4 * n) 0 = get_mvp E Q g' (4 * ux) (4 * uy) bwd ref (4 * n) 0.
Proof.
  intros P Kp Kp'. apply (mvp_rel E Q g g' (4 * ux) (4 * uy) bwd ref (4 * n) 0 ux uy n xr eq_refl eq_refl eq_refl whole_tr).
  intros u v Av I0. assert (R : round_about u v).
  { cbn [In] in I0. unfold round_about. cbn [In]. destruct I0 as [I0|[I0|[I0|[I0|[]]]]]; try (left; auto; fail). apply pair_equal_spec in I0. destruct I0 as [<- <-]. apply xr_round. }
  destruct (round_past u v Av R) as [No Bf]. destruct (P u v Av No Bf) as [(S1 & S2 & S3 & S4 & _) _].
  assert (Hu : 0 <= u < wu) by (clear - Av; unfold avail in Av; rewrite !andb_true_iff, !Z.leb_le, !Z.ltb_lt in Av; lia).
  rewrite (Kp u v Hu No), (Kp' u v Hu No). destruct bwd; split; cbn [kref kmv]; assumption.
Qed.

(** ** Squares of a skipped unit *)
Hypothesis level6 : level <= 6.
Variable four : bool.
Hypothesis Hrs : rs = parts four 0 n.
Hypothesis Hfour : four = true -> 4 <= level.
Local Notation side := (if four then n / 2 else n).
Lemma half_unit : Z.shiftl 1 (level - 3) = n / 2 /\ n = 2 * (n / 2).
Proof.
  destruct Uat as [Ul _ _ _ _ _ _ _ _]. assert (P : n = 2 * 2 ^ (level - 3)) by (rewrite <- Z.pow_succ_r by lia; f_equal; lia).
  assert (D : n / 2 = 2 ^ (level - 3)) by (rewrite P, Z.mul_comm; apply Z.div_mul; lia). rewrite D, Z.shiftl_1_l. auto.
Qed.
Lemma square k : (k < length rs)%nat -> nth_error rs k = Some (side * Z.land (Z.of_nat k) 1, side * Z.shiftr (Z.of_nat k) 1, side, side).
Proof.
  rewrite Hrs. unfold parts. cbn [Z.eqb]. destruct four; cbn [length]; intros L.
  - assert (C : k = 0%nat \/ k = 1%nat \/ k = 2%nat \/ k = 3%nat) by lia. destruct C as [-> | [-> | [-> | ->]]]; cbn [nth_error]; vm_compute (Z.land _ _); vm_compute (Z.shiftr _ _); rewrite ?Z.mul_0_r, ?Z.mul_1_r; reflexivity.
  - assert (k = 0%nat) by lia. subst k. cbn [nth_error]. vm_compute (Z.land _ _). vm_compute (Z.shiftr _ _). rewrite ?Z.mul_0_r, ?Z.mul_1_r. reflexivity.
Qed.
Variables (g0 g0' : grid) (c0 c0' : cu).
Hypothesis P0 : same_past E Q level ux uy g0 g0'.
Hypothesis G0 : grid_ok E g0.
Hypothesis G0' : grid_ok E g0'.
Hypothesis H0 : hok E level c0.
Hypothesis H0' : hok E level c0'.
Hypothesis R0 : hrel c0 c0'.
Hypothesis T0 : c_type c0 = 0.
Hypothesis F0 : four = four_of (c_ds c0) 0 level.
Definition two_runs (m : nat) (s s' : cu * grid) : Prop := post m c0 g0 s /\ post m c0' g0' s' /\ alike m (fst s) (fst s').
Lemma two_start : two_runs 0 (c0, g0) (c0', g0').
Proof. split; [apply post_start; exact G0|]. split; [apply post_start; exact G0'|]. intros j Lj. lia. Qed.
Lemma two_step k r m v f f' c g c' g' : (k < length rs)%nat -> (forall q, f (f q) = f q) -> (forall q, f' (f' q) = f' q) ->
  (forall q, k_r0 (f q) = fst r /\ k_r1 (f q) = snd r /\ k_m0 (f q) = m /\ k_m1 (f q) = v /\ (e_type E = 2 -> k_dir (f q) = c_dir c0 (Z.of_nat k))) ->
  (forall q, k_r0 (f' q) = fst r /\ k_r1 (f' q) = snd r /\ k_m0 (f' q) = m /\ k_m1 (f' q) = v /\ (e_type E = 2 -> k_dir (f' q) = c_dir c0 (Z.of_nat k))) ->
  i16v m -> i16v v -> dir_ok E (c_dir c0 (Z.of_nat k)) (fst r) (snd r) -> two_runs k (c, g) (c', g') ->
  two_runs (S k) (with_motion c (Z.of_nat k) r m v, paint wu (ux + side * Z.land (Z.of_nat k) 1) (uy + side * Z.shiftr (Z.of_nat k) 1) side side f g)
                 (with_motion c' (Z.of_nat k) r m v, paint wu (ux + side * Z.land (Z.of_nat k) 1) (uy + side * Z.shiftr (Z.of_nat k) 1) side side f' g').
Proof.
  intros Lk I1 I2 F1 F2 Vm Vv Dk (A & A' & B). destruct (po_unit _ _ _ _ _ _ _ _ _ A) as (_ & Ty & _ & _ & Di). destruct (po_unit _ _ _ _ _ _ _ _ _ A') as (_ & Ty' & _ & _ & Di'). cbn [fst snd] in *.
  pose proof (hr_dir _ _ R0) as Hd. pose proof (hr_ty _ _ R0) as Hty.
  split; [|split].
  - apply post_step; try assumption; [apply square; exact Lk|rewrite Di; exact F1|congruence|rewrite Di; exact Dk].
  - apply post_step; try assumption; [apply square; exact Lk|rewrite Di', <- Hd; exact F2|congruence|rewrite Di', <- Hd; exact Dk].
  - cbn [fst]. apply alike_step. exact B.
Qed.
(** Four squares with motion taken from the first reference (predict.cc:342-401, 554-606). *)
Lemma pus_len : length (c_pus c0) = length rs /\ length (c_pus c0') = length rs.
Proof.
  pose proof (ho_pus _ _ _ H0) as P. pose proof (hr_pus _ _ R0) as P'. rewrite <- P', P, map_length. unfold rects. rewrite T0, <- F0. cbn [Z.leb Z.compare]. rewrite <- Hrs. auto.
Qed.
Lemma pf_rel : e_type E = 1 \/ e_type E = 4 -> c_ds c0 = 0 ->
  orel (two_runs (length rs)) (fill_pf_skip E c0 g0 (4 * ux) (4 * uy) (Z.shiftl (Z.shiftl 1 (level - 3)) 3)) (fill_pf_skip E c0' g0' (4 * ux) (4 * uy) (Z.shiftl (Z.shiftl 1 (level - 3)) 3)).
Proof.
  intros Te Ds. unfold fill_pf_skip. destruct pus_len as [-> ->]. rewrite !shr4. destruct half_unit as [Hs Hn]. rewrite Hs.
  pose proof (ho_wsm _ _ _ H0 T0) as [W _]. pose proof (hr_wsm _ _ R0 T0) as Ew. rewrite <- Ew.
  assert (En : 0 <= e_nref E <= 4) by apply (eo_nref _ Eok). assert (En1 : 1 <= e_nref E) by (apply (eo_inter _ Eok); clear - Te; lia).
  rewrite to_i8_small by (clear - W En; lia).
  assert (Sz : (if Z.shiftl (n / 2) 3 =? 8 then Z.shiftr (Z.shiftl (n / 2) 3) 2 else Z.shiftr (Z.shiftr (Z.shiftl (n / 2) 3) 2) 1) = side).
  { destruct Uat as [Ul _ _ _ _ _ _ _ _]. rewrite Z.shiftl_mul_pow2 by lia. change (2 ^ 3) with 8. rewrite !Z.shiftr_div_pow2 by lia. change (2 ^ 2) with 4. change (2 ^ 1) with 2.
    replace (n / 2 * 8) with (n * 4) by (clear - Hn; lia). rewrite Z.div_mul by lia. unfold four_of in F0. rewrite Ds in F0. cbn [Z.eqb andb] in F0. rewrite andb_true_r in F0. subst four.
    assert (C : level = 3 \/ 3 < level) by lia. destruct C as [-> |C]; [reflexivity|]. destruct (Z.ltb_spec 3 level); [|lia]. destruct (Z.eqb_spec (n * 4) 8) as [E8|]; [|reflexivity].
    exfalso. assert (2 ^ 2 <= n) by (apply Z.pow_le_mono_r; lia). change (2 ^ 2) with 4 in H1. lia. }
  rewrite Sz. set (r1 := if c_wsm c0 =? 0 then -1 else c_wsm c0).
  apply (for_rel two_runs (length rs) _ _ tt) with (k := 0%nat); [|lia|exact two_start].
  intros k [c g] [c' g'] Lk R. unfold pf_skip_pu. apply orel_same. intros d1 _. apply orel_same. intros m Em. apply orel_same. intros v Ev. cbn [orel].
  apply two_step; try assumption; try reflexivity.
  - intros q. cbn. repeat (split; [reflexivity|]). intros T2. exfalso. clear - T2 Te. lia.
  - intros q. cbn. repeat (split; [reflexivity|]). intros T2. exfalso. clear - T2 Te. lia.
  - unfold pf_temporal in Em. destruct (negb (e_ref0 E)); [discriminate|]. destruct (0 <=? _); [|injection Em as <-; exact zero_i16].
    destruct (arr4 _ _) as [dd| | |] in Em; cbn [bindo] in Em; try discriminate. destruct (scale_mv_skip (fst _) d1 dd) as [a| | |] eqn:Ea; cbn [bindo] in Em; try discriminate.
    destruct (scale_mv_skip (snd _) d1 dd) as [b| | |] eqn:Eb; cbn [bindo] in Em; try discriminate. injection Em as <-. split; [exact (skip_i16 _ _ _ _ Ea)|exact (skip_i16 _ _ _ _ Eb)].
  - destruct (negb (r1 =? -1)); [|injection Ev as <-; exact zero_i16]. destruct (delta E (e_dist E) r1) as [dr| | |]; cbn [bindo] in Ev; try discriminate. destruct (delta E (e_scale E) 0) as [s0| | |]; cbn [bindo] in Ev; try discriminate.
    destruct (scale_mv_skip (fst m) dr s0) as [a| | |] eqn:Ea; cbn [bindo] in Ev; try discriminate. destruct (scale_mv_skip (snd m) dr s0) as [b| | |] eqn:Eb; cbn [bindo] in Ev; try discriminate. injection Ev as <-.
    split; [exact (skip_i16 _ _ _ _ Ea)|exact (skip_i16 _ _ _ _ Eb)].
  - rewrite (ho_fskip _ _ _ H0 T0) by (clear - Te; lia). rewrite Ds. cbn [Z.eqb orb fst snd]. rewrite !orb_false_r. unfold dir_ok. right. right. split; [exact Te|]. split; [clear - En1; lia|].
    unfold r1. destruct (Z.eqb_spec (c_wsm c0) 0) as [Z0|Z0]; cbn [negb]; [left; auto|right; split; [reflexivity|]; clear - W En1; lia].
Qed.
Lemma bt_rel : e_type E = 2 -> c_ds c0 = 0 ->
  orel (two_runs (length rs))
    (for_pus (length (c_pus c0)) 0 (bskip_pu E Q (4 * ux) (4 * uy) (Z.shiftl (Z.shiftl 1 (level - 3)) 3) (Z.shiftl 1 (level - 3)) (Z.shiftr (Z.shiftr (Z.shiftl (Z.shiftl 1 (level - 3)) 3) (if Z.of_nat (length (c_pus c0)) =? 4 then 1 else 0)) 2)) (c0, g0))
    (for_pus (length (c_pus c0')) 0 (bskip_pu E Q (4 * ux) (4 * uy) (Z.shiftl (Z.shiftl 1 (level - 3)) 3) (Z.shiftl 1 (level - 3)) (Z.shiftr (Z.shiftr (Z.shiftl (Z.shiftl 1 (level - 3)) 3) (if Z.of_nat (length (c_pus c0')) =? 4 then 1 else 0)) 2)) (c0', g0')).
Proof.
  intros Te Ds. destruct pus_len as [-> ->]. destruct half_unit as [Hs Hn]. rewrite Hs.
  assert (S4 : Z.shiftl (n / 2) 3 = 4 * n) by (rewrite Z.shiftl_mul_pow2 by lia; change (2 ^ 3) with 8; clear - Hn; lia). rewrite S4.
  assert (Sz : Z.shiftr (Z.shiftr (4 * n) (if Z.of_nat (length rs) =? 4 then 1 else 0)) 2 = side).
  { rewrite Hrs. unfold parts. cbn [Z.eqb]. destruct four; cbn [length Z.of_nat Pos.of_succ_nat Pos.succ Z.eqb Pos.eqb].
    - rewrite Z.shiftr_shiftr by lia. rewrite Z.shiftr_div_pow2 by lia. change (2 ^ (1 + 2)) with (4 * 2). rewrite <- Z.div_div by lia. rewrite (Z.mul_comm 4 n), Z.div_mul by lia. reflexivity.
    - rewrite Z.shiftr_0_r. apply shr4. }
  rewrite Sz. apply (for_rel two_runs (length rs) _ _ tt) with (k := 0%nat); [|lia|exact two_start].
  intros k [c g] [c' g'] Lk R. unfold bskip_pu. rewrite !shr4.
  assert (Lo : Z.land (Z.of_nat k) 1 * (n / 2) = side * Z.land (Z.of_nat k) 1 /\ Z.shiftr (Z.of_nat k) 1 * (n / 2) = side * Z.shiftr (Z.of_nat k) 1).
  { destruct four eqn:Ef; [split; ring|]. assert (k = 0%nat) as -> by (rewrite Hrs in Lk; unfold parts in Lk; cbn [Z.eqb length] in Lk; lia). vm_compute (Z.land _ _). vm_compute (Z.shiftr _ _). split; ring. }
  destruct Lo as [-> ->]. destruct (negb (e_ref0 E)); [exact I|].
  assert (G : forall m v, i16v m -> i16v v -> two_runs (S k)
    (with_motion c (Z.of_nat k) (1, 0) m v, paint wu (ux + side * Z.land (Z.of_nat k) 1) (uy + side * Z.shiftr (Z.of_nat k) 1) side side (fun _ => Cell 2 1 0 m v) g)
    (with_motion c' (Z.of_nat k) (1, 0) m v, paint wu (ux + side * Z.land (Z.of_nat k) 1) (uy + side * Z.shiftr (Z.of_nat k) 1) side side (fun _ => Cell 2 1 0 m v) g')).
  { assert (D2 : c_dir c0 (Z.of_nat k) = 2) by (rewrite (ho_bskip _ _ _ H0 T0 Te), Ds; reflexivity).
    intros m v Vm Vv. apply two_step; try assumption; try reflexivity; try (intros q; cbn; repeat (split; [reflexivity|]); intros _; symmetry; exact D2). rewrite D2. unfold dir_ok. right. left. cbn [fst snd]. split; [exact Te|]. clear; lia. }
  destruct R as (A & A' & _).
  rewrite <- (mvp_whole g0 g0' g g' false 0 P0 (po_keeps _ _ _ _ _ _ _ _ _ A) (po_keeps _ _ _ _ _ _ _ _ _ A')).
  rewrite <- (mvp_whole g0 g0' g g' true 0 P0 (po_keeps _ _ _ _ _ _ _ _ _ A) (po_keeps _ _ _ _ _ _ _ _ _ A')).
  apply orel_same. intros [m v] Em. cbn [orel]. apply G.
  - destruct (_ =? -1).
    + destruct (get_mvp E Q g _ _ false _ _ _) as [m'| | |] eqn:E1; cbn [bindo] in Em; try discriminate. destruct (get_mvp E Q g _ _ true _ _ _) as [v'| | |] eqn:E2; cbn [bindo] in Em; try discriminate.
      injection Em as <- _. exact (mvp_i16 _ _ _ _ _ _ _ _ _ _ E1).
    + destruct (arr4 (e_cdist E) _) as [d1| | |]; cbn [bindo] in Em; try discriminate. destruct (arr4 (e_cscale E) _) as [d2| | |]; cbn [bindo] in Em; try discriminate.
      destruct (arr4 (e_dist E) 0) as [d3| | |]; cbn [bindo] in Em; try discriminate. destruct (arr4 (e_dist E) 1) as [d4| | |]; cbn [bindo] in Em; try discriminate.
      unfold scale_bi in Em. destruct (scale_mv_biskip (fst _) d4 d2) as [a| | |] eqn:Ea; cbn [bindo] in Em; try discriminate. destruct (scale_mv_biskip (snd _) d4 d2) as [b| | |] eqn:Eb; cbn [bindo] in Em; try discriminate.
      destruct (scale_mv_biskip (fst _) d3 d2) as [a'| | |] eqn:Ea'; cbn [bindo] in Em; try discriminate. destruct (scale_mv_biskip (snd _) d3 d2) as [b'| | |] eqn:Eb'; cbn [bindo] in Em; try discriminate.
      injection Em as <- _. split; [exact (biskip_i16 _ _ _ _ Ea)|exact (biskip_i16 _ _ _ _ Eb)].
  - destruct (_ =? -1).
    + destruct (get_mvp E Q g _ _ false _ _ _) as [m'| | |] eqn:E1; cbn [bindo] in Em; try discriminate. destruct (get_mvp E Q g _ _ true _ _ _) as [v'| | |] eqn:E2; cbn [bindo] in Em; try discriminate.
      injection Em as _ <-. exact (mvp_i16 _ _ _ _ _ _ _ _ _ _ E2).
    + destruct (arr4 (e_cdist E) _) as [d1| | |]; cbn [bindo] in Em; try discriminate. destruct (arr4 (e_cscale E) _) as [d2| | |]; cbn [bindo] in Em; try discriminate.
      destruct (arr4 (e_dist E) 0) as [d3| | |]; cbn [bindo] in Em; try discriminate. destruct (arr4 (e_dist E) 1) as [d4| | |]; cbn [bindo] in Em; try discriminate.
      unfold scale_bi in Em. destruct (scale_mv_biskip (fst _) d4 d2) as [a| | |] eqn:Ea; cbn [bindo] in Em; try discriminate. destruct (scale_mv_biskip (snd _) d4 d2) as [b| | |] eqn:Eb; cbn [bindo] in Em; try discriminate.
      destruct (scale_mv_biskip (fst _) d3 d2) as [a'| | |] eqn:Ea'; cbn [bindo] in Em; try discriminate. destruct (scale_mv_biskip (snd _) d3 d2) as [b'| | |] eqn:Eb'; cbn [bindo] in Em; try discriminate.
      injection Em as _ <-. apply to_i16_i16.
Qed.
(** One square with the motion of a neighbour. *)
Lemma one_square : c_ds c0 <> 0 -> length rs = 1%nat /\ side = n.
Proof.
  intros Nd. unfold four_of in F0. destruct (Z.eqb_spec (c_ds c0) 0); [contradiction|]. rewrite andb_false_r in F0. rewrite Hrs, F0. auto.
Qed.
Lemma spatial_runs r m v f f' : c_ds c0 <> 0 -> (forall q, f (f q) = f q) -> (forall q, f' (f' q) = f' q) ->
  (forall q, k_r0 (f q) = fst r /\ k_r1 (f q) = snd r /\ k_m0 (f q) = m /\ k_m1 (f q) = v /\ (e_type E = 2 -> k_dir (f q) = c_dir c0 0)) ->
  (forall q, k_r0 (f' q) = fst r /\ k_r1 (f' q) = snd r /\ k_m0 (f' q) = m /\ k_m1 (f' q) = v /\ (e_type E = 2 -> k_dir (f' q) = c_dir c0 0)) ->
  i16v m -> i16v v -> dir_ok E (c_dir c0 0) (fst r) (snd r) ->
  two_runs (length rs) (with_motion c0 0 r m v, paint wu ux uy (Z.shiftl (Z.shiftl 1 (level - 3)) 1) (Z.shiftl (Z.shiftl 1 (level - 3)) 1) f g0)
                       (with_motion c0' 0 r m v, paint wu ux uy (Z.shiftl (Z.shiftl 1 (level - 3)) 1) (Z.shiftl (Z.shiftl 1 (level - 3)) 1) f' g0').
Proof.
  intros Nd I1 I2 F1 F2 Vm Vv Dk. destruct (one_square Nd) as [L Sd]. destruct half_unit as [Hs Hn]. rewrite Hs.
  assert (S2 : Z.shiftl (n / 2) 1 = n) by (rewrite Z.shiftl_mul_pow2 by lia; change (2 ^ 1) with 2; clear - Hn; lia). rewrite S2, L.
  pose proof (two_step 0%nat r m v f f' c0 g0 c0' g0' ltac:(rewrite L; lia) I1 I2 F1 F2 Vm Vv Dk two_start) as S0. rewrite Sd in S0.
  change (Z.of_nat 0) with 0 in S0. change (Z.land 0 1) with 0 in S0. change (Z.shiftr 0 1) with 0 in S0. rewrite !Z.mul_0_r, !Z.add_0_r in S0. exact S0.
Qed.
Lemma alike_motion s : forall t, (forall j, (j < 1)%nat -> c_ref (fst s) (Z.of_nat j) = c_ref t (Z.of_nat j) /\ c_mv0 (fst s) (Z.of_nat j) = c_mv0 t (Z.of_nat j) /\ c_mv1 (fst s) (Z.of_nat j) = c_mv1 t (Z.of_nat j)) ->
  c_level t = c_level (fst s) -> c_type t = c_type (fst s) -> c_dmh t = c_dmh (fst s) -> c_pus t = c_pus (fst s) -> (forall i, c_dir t i = c_dir (fst s) i) -> forall c1 g1, post 1 c1 g1 s -> post 1 c1 g1 (t, snd s).
Proof.
  intros t Ht' L1 L2 L3 L4 L5 c1 g1 [Kp Ce Ds Gd Un]. constructor; cbn [fst snd]; [exact Kp| | |exact Gd|].
  - intros j b X Y Lj Hj Hb. cbv zeta. destruct (Ht' j Lj) as (<- & <- & <-). rewrite L2, L5. exact (Ce j b X Y Lj Hj Hb).
  - intros j Lj. unfold cref. destruct (Ht' j Lj) as (<- & _). rewrite L5. apply Ds. exact Lj.
  - rewrite L1, L2, L3, L4. destruct Un as (U1 & U2 & U3 & U4 & U5). repeat (split; [assumption|]). intros i. rewrite L5. apply U5.
Qed.
Lemma fill_rel stale stale' ns ns' : e_type E <> 0 -> Forall2 (nrel E) ns ns' -> Forall (nbr_ok E) ns ->
  orel (two_runs (length rs)) (fill_skip E Q stale ns c0 g0 (4 * ux) (4 * uy) (Z.shiftl 1 (level - 3))) (fill_skip E Q stale' ns' c0' g0' (4 * ux) (4 * uy) (Z.shiftl 1 (level - 3))).
Proof.
  intros Tn Nr Nok. pose proof (eo_type _ Eok) as Et. pose proof (ho_ds _ _ _ H0) as D4. pose proof (hr_ds _ _ R0) as Ed. unfold fill_skip, B_SLICE, F_SLICE, P_SLICE.
  destruct (Z.eqb_spec (e_type E) 2) as [B|B].
  - unfold fill_bskip. rewrite <- Ed. destruct (Z.eqb_spec (c_ds c0) 0) as [Dz|Dz]; cbn [negb]; cbv zeta.
    + exact (bt_rel B Dz).
    + rewrite (b_spatial_ok ns) by (clear - D4 Dz; lia). rewrite (b_spatial_ok ns') by (clear - D4 Dz; lia). rewrite <- (b_spatial_rel E ns ns' (c_ds c0) B Nr). rewrite !shr4.
      destruct (b_spatial_16 E ns (c_ds c0) Nok) as [V1 V2]. destruct (b_spatial (c_ds c0) ns) as [m v]. cbn [fst snd] in V1, V2. destruct (bskip_refs (c_ds c0)) as [r q] eqn:Er. cbn [orel].
      rewrite <- (hr_dir _ _ R0 0). apply (spatial_runs (r, q) m v); try assumption; try reflexivity; try (intros k; cbn; auto 10; fail).
      rewrite (ho_bskip _ _ _ H0 T0 B). cbn [fst snd]. unfold dir_ok. right. left. split; [exact B|]. unfold bskip_refs in Er.
      assert (C : c_ds c0 = 1 \/ c_ds c0 = 2 \/ c_ds c0 = 3 \/ c_ds c0 = 4) by (clear - D4 Dz; lia). destruct C as [C|[C|[C|C]]]; rewrite C in Er |- *; cbn in Er; apply pair_equal_spec in Er; destruct Er as [<- <-]; vm_compute (nth _ _ _); clear; lia.
  - assert (Te : e_type E = 1 \/ e_type E = 4) by (clear - Et Tn B; lia).
    replace ((e_type E =? 4) || (e_type E =? 1)) with true by (symmetry; rewrite orb_true_iff, !Z.eqb_eq; clear - Te; lia).
    rewrite <- Ed. destruct (Z.eqb_spec (c_ds c0) 0) as [Dz|Dz]; [exact (pf_rel Te Dz)|].
    rewrite (f_spatial_ok stale ns) by (clear - D4 Dz; lia). rewrite (f_spatial_ok stale' ns') by (clear - D4 Dz; lia).
    destruct (f_spatial_rel E ns ns' (c_ds c0) Te (eo_inter _ Eok Tn) Nr) as [<- Rf]. rewrite !shr4. destruct (f_spatial_16 E ns (c_ds c0) Nok) as [V1 V2].
    destruct (f_spatial (c_ds c0) ns) as [[r q] [m v]]. cbn [fst snd] in V1, V2. cbn [orel]. cbv zeta.
    assert (Dk : dir_ok E (c_dir c0 0) r q).
    { rewrite (ho_fskip _ _ _ H0 T0 B). pose proof (ho_wsm _ _ _ H0 T0) as [_ Wz]. assert (W0 : c_wsm c0 = 0) by (clear - Wz Dz; lia). rewrite W0. cbn [Z.eqb negb orb].
      destruct Rf as (R1 & R2 & R3). unfold dir_ok. right. right. split; [exact Te|]. split; [exact R1|].
      destruct (Z.eqb_spec (c_ds c0) 1) as [C1|C1]; cbn [orb]; [right; split; [reflexivity|apply R2; clear - C1; lia]|]. destruct (Z.eqb_spec (c_ds c0) 2) as [C2|C2]; [right; split; [reflexivity|apply R2; clear - C2; lia]|].
      left. split; [reflexivity|]. apply R3. clear - C1 C2 D4 Dz. lia. }
    assert (Tr : two_runs (length rs) (with_motion c0 0 (r, q) m v, paint wu ux uy (Z.shiftl (Z.shiftl 1 (level - 3)) 1) (Z.shiftl (Z.shiftl 1 (level - 3)) 1) (set_ref_mvs r q m v) g0)
      (with_motion c0' 0 (r, q) m v, paint wu ux uy (Z.shiftl (Z.shiftl 1 (level - 3)) 1) (Z.shiftl (Z.shiftl 1 (level - 3)) 1) (set_ref_mvs r q m v) g0')).
    { apply (spatial_runs (r, q) m v); try assumption; try reflexivity; intros k; cbn; repeat (split; [reflexivity|]); intros; contradiction. }
    destruct (one_square Dz) as [L _]. rewrite L in *. destruct Tr as (A & A' & Al).
    assert (Z0 : forall j, (j < 1)%nat -> j = 0%nat) by (intros; lia).
    split; [|split].
    + refine (alike_motion _ _ _ _ _ _ _ _ _ _ A); try reflexivity. intros j Lj. rewrite (Z0 j Lj). cbn. auto.
    + refine (alike_motion _ _ _ _ _ _ _ _ _ _ A'); try reflexivity. intros j Lj. rewrite (Z0 j Lj). cbn. auto.
    + intros j Lj. rewrite (Z0 j Lj). cbn. auto.
Qed.
End Skip.
