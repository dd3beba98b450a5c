(** Proofs: parts of a coding unit, and predictors that depend on decoded neighbours only. *)
From Coq Require Import ZArith List Bool Lia.
From Verif Require Import CBase CBaseProofs MemModel SaoModel SaoProofs QpModel UtilModel MvModel MvSpec MvProofs HdrModel SynModel CuModel NbModel NbSpec NbProofs MpModel MpSpec MpProofs MpProofsB MpProofsC.
Import ListNotations.
Open Scope Z_scope.

(** ** Parts *)
Definition to_cb (p : Z * Z * Z * Z) : cb := let '(x, y, w, h) := p in B (4 * x) (4 * y) (4 * w) (4 * h).
Definition four_of (ds ty level : Z) : bool := (ty =? 0) && (3 <? level) && (ds =? 0).
Definition iparts (ty n : Z) : list (Z * Z * Z * Z) := blocks (if ty =? 8 then 0 else if ty =? 9 then 3 else if ty =? 10 then 1 else 2) n.
Definition rects (four : bool) (ty n : Z) : list (Z * Z * Z * Z) := if ty <=? 7 then parts four ty n else iparts ty n.
Definition ty_ok (level ty : Z) : Prop := 0 <= ty <= 11 /\ (4 <= ty <= 7 -> 4 <= level) /\ (10 <= ty -> level = 4 \/ level = 5).
Definition eqcb (a b : cb) : bool := (cx a =? cx b) && (cy a =? cy b) && (cw a =? cw b) && (ch a =? ch b).
Fixpoint eqcbs (a b : list cb) : bool := match a, b with [], [] => true | x :: a, y :: b => eqcb x y && eqcbs a b | _, _ => false end.
Lemma eqcbs_ok a b : eqcbs a b = true -> a = b.
Proof.
  revert b. induction a as [|x a IH]; intros [|y b]; cbn [eqcbs]; try discriminate; [reflexivity|]. rewrite andb_true_iff. intros [Q H]. rewrite (IH _ H). f_equal.
  unfold eqcb in Q. rewrite !andb_true_iff, !Z.eqb_eq in Q. destruct x, y; cbn in Q. destruct Q as (((-> & ->) & ->) & ->). reflexivity.
Qed.
Definition okty (level ty : Z) : bool := (negb ((4 <=? ty) && (ty <=? 7)) || (4 <=? level)) && (negb (10 <=? ty) || (level =? 4) || (level =? 5)).
Lemma units_check : forallb (fun slice => forallb (fun ds => (slice =? 1) && negb (ds =? 0) || forallb (fun level => forallb (fun ty => negb (okty level ty) ||
  eqcbs (prediction_units slice ds ty level) (map to_cb (rects (four_of ds ty level) ty (2 ^ (level - 2))))) [0; 1; 2; 3; 4; 5; 6; 7; 8; 9; 10; 11]) [3; 4; 5; 6]) [0; 1; 2; 3; 4]) [1; 2; 4] = true.
Proof. vm_compute. reflexivity. Qed.
Lemma iunits_check : forallb (fun level => forallb (fun ty => negb (okty level ty) ||
  eqcbs (prediction_units 0 0 ty level) (map to_cb (rects (four_of 0 ty level) ty (2 ^ (level - 2))))) [8; 9; 10; 11]) [3; 4; 5; 6] = true.
Proof. vm_compute. reflexivity. Qed.
Lemma okty_iff level ty : ty_ok level ty -> okty level ty = true.
Proof.
  intros (H0 & H1 & H2). unfold okty. rewrite andb_true_iff, !orb_true_iff, !negb_true_iff, andb_false_iff, !Z.eqb_eq, !Z.leb_gt, !Z.leb_le.
  split; [destruct (Z_le_gt_dec 4 ty), (Z_le_gt_dec ty 7); lia|lia].
Qed.
Lemma units_rects slice ds ty level : slice = 0 /\ ds = 0 /\ 8 <= ty \/ slice = 1 /\ ds = 0 \/ slice = 2 \/ slice = 4 -> 0 <= ds <= 4 -> 3 <= level <= 6 -> ty_ok level ty ->
  prediction_units slice ds ty level = map to_cb (rects (four_of ds ty level) ty (2 ^ (level - 2))).
Proof.
  intros Hs Hd Hl Ht. apply eqcbs_ok. pose proof (okty_iff _ _ Ht) as Ok. destruct Ht as [Ht _].
  assert (I3 : In level [3; 4; 5; 6]) by (cbn; lia).
  destruct Hs as [(-> & -> & H8)|Hs].
  - pose proof iunits_check as H. rewrite forallb_forall in H. specialize (H _ I3). rewrite forallb_forall in H. assert (I4 : In ty [8; 9; 10; 11]) by (cbn; lia). specialize (H _ I4).
    rewrite Ok in H. exact H.
  - pose proof units_check as H. rewrite forallb_forall in H. assert (I1 : In slice [1; 2; 4]) by (cbn; lia). specialize (H _ I1).
    rewrite forallb_forall in H. assert (I2 : In ds [0; 1; 2; 3; 4]) by (cbn; lia). specialize (H _ I2).
    replace ((slice =? 1) && negb (ds =? 0)) with false in H by (symmetry; apply andb_false_iff; rewrite negb_false_iff, Z.eqb_eq, Z.eqb_neq; lia). cbn [orb] in H.
    rewrite forallb_forall in H. specialize (H _ I3). rewrite forallb_forall in H. assert (I4 : In ty [0; 1; 2; 3; 4; 5; 6; 7; 8; 9; 10; 11]) by (cbn; lia). specialize (H _ I4).
    rewrite Ok in H. exact H.
Qed.

(** The parts lie in the unit, and every place of the unit is in exactly one. *)
Definition inside (n : Z) (b : Z * Z * Z * Z) : bool := let '(x, y, w, h) := b in (0 <=? x) && (0 <=? y) && (0 <? w) && (0 <? h) && (x + w <=? n) && (y + h <=? n).
Definition tiles (n : Z) (rs : list (Z * Z * Z * Z)) : bool :=
  forallb (inside n) rs && forallb (fun y => forallb (fun x => (length (filter (fun b => in_block b x y) rs) =? 1)%nat) (upto n)) (upto n).
Lemma tiles_check : forallb (fun level => forallb (fun ty => negb (okty level ty) ||
  (tiles (2 ^ (level - 2)) (rects false ty (2 ^ (level - 2))) && (negb (3 <? level) || tiles (2 ^ (level - 2)) (rects true ty (2 ^ (level - 2)))))) [0; 1; 2; 3; 4; 5; 6; 7; 8; 9; 10; 11]) [3; 4; 5; 6] = true.
Proof. vm_compute. reflexivity. Qed.
Lemma rects_tile four level ty : 3 <= level <= 6 -> ty_ok level ty -> (four = true -> 4 <= level) -> tiles (2 ^ (level - 2)) (rects four ty (2 ^ (level - 2))) = true.
Proof.
  intros Hl Ht Hf. pose proof (okty_iff _ _ Ht) as Ok. destruct Ht as [Ht _].
  pose proof tiles_check as H. rewrite forallb_forall in H. assert (I3 : In level [3; 4; 5; 6]) by (cbn; lia). specialize (H _ I3).
  rewrite forallb_forall in H. assert (I4 : In ty [0; 1; 2; 3; 4; 5; 6; 7; 8; 9; 10; 11]) by (cbn; lia). specialize (H _ I4). rewrite Ok in H. cbn [negb orb] in H.
  apply andb_true_iff in H. destruct H as [H1 H2]. destruct four; [|exact H1]. replace (3 <? level) with true in H2 by (symmetry; apply Z.ltb_lt; specialize (Hf eq_refl); lia). exact H2.
Qed.
Lemma filter_one {A} (p : A -> bool) l : length (filter p l) = 1%nat ->
  (exists j a, nth_error l j = Some a /\ p a = true) /\ (forall i j a b, nth_error l i = Some a -> nth_error l j = Some b -> p a = true -> p b = true -> i = j).
Proof.
  induction l as [|x l IH]; cbn [filter length]; [discriminate|]. destruct (p x) eqn:P; cbn [length]; intros H.
  - assert (N : filter p l = []) by (destruct (filter p l); [reflexivity|cbn in H; lia]).
    assert (K : forall j b, nth_error l j = Some b -> p b = true -> False).
    { intros j b Hj Hb. assert (In b (filter p l)) by (apply filter_In; split; [eapply nth_error_In; eassumption|exact Hb]). rewrite N in *. contradiction. }
    split; [exists 0%nat, x; auto|]. intros [|i] [|j] a b Hi Hj Ha Hb; cbn [nth_error] in *; [reflexivity|exfalso; eauto|exfalso; eauto|exfalso; eauto].
  - destruct (IH H) as [(j & a & Hj & Ha) U]. split; [exists (S j), a; auto|].
    intros [|i] [|k] a' b Hi Hk Ha' Hb; cbn [nth_error] in *; try congruence. f_equal. eauto.
Qed.
Lemma tiles_facts n rs : tiles n rs = true ->
  (forall j b, nth_error rs j = Some b -> inside n b = true) /\
  (forall x y, 0 <= x < n -> 0 <= y < n -> exists j b, nth_error rs j = Some b /\ in_block b x y = true) /\
  (forall i j a b x y, nth_error rs i = Some a -> nth_error rs j = Some b -> in_block a x y = true -> in_block b x y = true -> i = j).
Proof.
  intros H. apply andb_true_iff in H. destruct H as [H1 H2]. rewrite forallb_forall in H1.
  assert (Is : forall j b, nth_error rs j = Some b -> inside n b = true) by (intros j b Hj; apply H1; eapply nth_error_In; eassumption).
  assert (O : forall x y, 0 <= x < n -> 0 <= y < n -> length (filter (fun b => in_block b x y) rs) = 1%nat).
  { intros x y Hx Hy. rewrite forallb_upto in H2. specialize (H2 y Hy). rewrite forallb_upto in H2. specialize (H2 x Hx). apply Nat.eqb_eq in H2. exact H2. }
  split; [exact Is|]. split.
  - intros x y Hx Hy. destruct (filter_one _ _ (O x y Hx Hy)) as [(j & b & Hj & Hb) _]. eauto.
  - intros i j a b x y Hi Hj Ha Hb. pose proof (Is _ _ Hi) as Ia. destruct a as [[[ax ay] aw] ah]. unfold inside in Ia. unfold in_block in Ha.
    rewrite !andb_true_iff, !Z.leb_le, !Z.ltb_lt in Ia. rewrite !andb_true_iff, !Z.leb_le, !Z.ltb_lt in Ha.
    destruct (filter_one _ _ (O x y ltac:(lia) ltac:(lia))) as [_ U]. eapply U; [exact Hi|exact Hj| |exact Hb]. cbn. rewrite !andb_true_iff, !Z.leb_le, !Z.ltb_lt. lia.
Qed.

(** ** Two outcomes of the same kind *)
Lemma orel_bind {A C A' C' : Type} (R : A -> C -> Prop) (S' : A' -> C' -> Prop) a b f g :
  orel R a b -> (forall x y, R x y -> orel S' (f x) (g y)) -> orel S' (bindo a f) (bindo b g).
Proof. destruct a, b; cbn; try contradiction; auto. Qed.
Lemma orel_same {A A' C' : Type} (S' : A' -> C' -> Prop) (a : outcome A) f g : (forall x, a = Done x -> orel S' (f x) (g x)) -> orel S' (bindo a f) (bindo a g).
Proof. destruct a; cbn; auto. Qed.
Lemma orel_mono {A C : Type} (R R' : A -> C -> Prop) a b : orel R a b -> (forall x y, R x y -> R' x y) -> orel R' a b.
Proof. destruct a, b; cbn; auto. Qed.

(** ** Neighbours *)
Definition kref (bwd : bool) (k : cell) : Z := if bwd then k_r1 k else k_r0 k.
Definition kmv (bwd : bool) (k : cell) : mvec := if bwd then k_m1 k else k_m0 k.
Definition half (bwd : bool) (a b : cell) : Prop := kref bwd a = kref bwd b /\ (kref bwd a <> -1 -> kmv bwd a = kmv bwd b).
Definition nhalf (bwd : bool) (a b : nbr) : Prop := n_av a = n_av b /\ nb_ref bwd a = nb_ref bwd b /\ (nb_ref bwd a <> -1 -> nb_mv bwd a = nb_mv bwd b).
Lemma spatial_half E Q bwd g g' x y : (avail E Q x y = true -> half bwd (g (y * e_wu E + x)) (g' (y * e_wu E + x))) -> nhalf bwd (spatial E Q g x y) (spatial E Q g' x y).
Proof.
  intros H. pose proof (avail_spatial E Q g x y) as A1. pose proof (avail_spatial E Q g' x y) as A2. unfold nhalf. rewrite A1, A2. split; [reflexivity|].
  unfold spatial in *. destruct ((y <? 0) || _ || _ || _ || _); [destruct bwd; cbn; auto|]. cbn [n_av] in A1. symmetry in A1. destruct (H A1) as [H1 H2]. destruct bwd; cbn in *; auto.
Qed.
Lemma recheck_keeps E ref r : recheck E ref r = r \/ recheck E ref r = -1.
Proof. unfold recheck. destruct (r =? -1); [auto|]. cbv zeta. destruct (_ && _ && _); destruct (e_type E =? S_SLICE); auto. Qed.
Lemma mvp_rel E Q g g' px py bwd ref bsx shape x y w xr : px = 4 * x -> py = 4 * y -> bsx = 4 * w -> tr_column E Q (x + w - 1) y = Done xr ->
  (forall u v, avail E Q u v = true -> In (u, v) [(x - 1, y); (x, y - 1); (x - 1, y - 1); (xr, y - 1)] -> half bwd (g (v * e_wu E + u)) (g' (v * e_wu E + u))) ->
  get_mvp E Q g px py bwd ref bsx shape = get_mvp E Q g' px py bwd ref bsx shape.
Proof.
  intros -> -> -> T H. unfold get_mvp, mvp_neighbors.
  assert (S2 : forall v, Z.shiftr (4 * v) 2 = v) by (intros v; rewrite Z.shiftr_div_pow2 by lia; change (2 ^ 2) with 4; rewrite Z.mul_comm; apply Z.div_mul; lia).
  rewrite !S2. replace (w + x - 1) with (x + w - 1) by lia. rewrite T. cbn [bindo].
  assert (Hl : nhalf bwd (spatial E Q g (x - 1) y) (spatial E Q g' (x - 1) y)) by (apply spatial_half; intros; apply H; [assumption|cbn; tauto]).
  assert (Hu : nhalf bwd (spatial E Q g x (y - 1)) (spatial E Q g' x (y - 1))) by (apply spatial_half; intros; apply H; [assumption|cbn; tauto]).
  assert (Hc : nhalf bwd (spatial E Q g (x - 1) (y - 1)) (spatial E Q g' (x - 1) (y - 1))) by (apply spatial_half; intros; apply H; [assumption|cbn; tauto]).
  assert (Hr : nhalf bwd (spatial E Q g xr (y - 1)) (spatial E Q g' xr (y - 1))) by (apply spatial_half; intros; apply H; [assumption|cbn; tauto]).
  set (l := spatial E Q g (x - 1) y) in *. set (l' := spatial E Q g' (x - 1) y) in *. set (u := spatial E Q g x (y - 1)) in *. set (u' := spatial E Q g' x (y - 1)) in *.
  assert (Hd : nhalf bwd (if n_av (spatial E Q g xr (y - 1)) then spatial E Q g xr (y - 1) else spatial E Q g (x - 1) (y - 1)) (if n_av (spatial E Q g' xr (y - 1)) then spatial E Q g' xr (y - 1) else spatial E Q g' (x - 1) (y - 1))).
  { rewrite <- (proj1 Hr). destruct (n_av (spatial E Q g xr (y - 1))); assumption. }
  set (c := if n_av (spatial E Q g xr (y - 1)) then _ else _) in *. set (c' := if n_av (spatial E Q g' xr (y - 1)) then _ else _) in *. clearbody l l' u u' c c'. clear Hc Hr H T.
  assert (KP : forall n n' mult, nhalf bwd n n' -> scale_p E mult (recheck E ref (nb_ref bwd n)) (nb_mv bwd n) = scale_p E mult (recheck E ref (nb_ref bwd n')) (nb_mv bwd n')).
  { intros n n' mult (_ & R & M). rewrite <- R. unfold scale_p. destruct (Z.leb_spec 0 (recheck E ref (nb_ref bwd n))); [|reflexivity]. rewrite M; [reflexivity|]. destruct (recheck_keeps E ref (nb_ref bwd n)); lia. }
  assert (KB : forall n n' mult src, nhalf bwd n n' -> scale_b mult src (recheck E ref (nb_ref bwd n)) (nb_mv bwd n) = scale_b mult src (recheck E ref (nb_ref bwd n')) (nb_mv bwd n')).
  { intros n n' mult src (_ & R & M). rewrite <- R. unfold scale_b. destruct (Z.leb_spec 0 (recheck E ref (nb_ref bwd n))); [|reflexivity]. rewrite M; [reflexivity|]. destruct (recheck_keeps E ref (nb_ref bwd n)); lia. }
  pose proof (fun m => KP l l' m Hl) as Pl. pose proof (fun m => KP u u' m Hu) as Pu. pose proof (fun m => KP c c' m Hd) as Pc.
  pose proof (fun m s => KB l l' m s Hl) as Bl. pose proof (fun m s => KB u u' m s Hu) as Bu. pose proof (fun m s => KB c c' m s Hd) as Bc. clear KP KB.
  rewrite <- (proj1 (proj2 Hl)), <- (proj1 (proj2 Hu)), <- (proj1 (proj2 Hd)) in *.
  destruct (e_type E =? B_SLICE).
  - destruct (arr4 (e_dist E) (if bwd then 0 else 1)) as [m| | |]; cbn [bindo]; try reflexivity. destruct (arr4 (e_scale E) (if bwd then 0 else 1)) as [s| | |]; cbn [bindo]; try reflexivity.
    rewrite Bl, Bu, Bc. reflexivity.
  - destruct (arr4 (e_dist E) ref) as [m| | |]; cbn [bindo]; try reflexivity. rewrite Pl, Pu, Pc. reflexivity.
Qed.
