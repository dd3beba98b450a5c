(** Proofs: reading the motion vectors of a coding unit. *)
From Coq Require Import ZArith List Bool Lia.
From Verif Require Import CBase CBaseProofs MemModel SaoModel SaoProofs QpModel UtilModel MvModel MvSpec MvProofs HdrModel SynModel CuModel NbModel NbSpec NbProofs MpModel MpSpec MpProofs MpProofsB MpProofsC MpProofsD.
Import ListNotations.
Open Scope Z_scope.

Lemma shr4 v : Z.shiftr (4 * v) 2 = v.
Proof. rewrite Z.shiftr_div_pow2 by lia. change (2 ^ 2) with 4. rewrite Z.mul_comm. apply Z.div_mul. lia. Qed.
Lemma to_i16_i16 a b : i16v (to_i16 a, to_i16 b).
Proof. split; apply to_i16_range. Qed.
Lemma skip_i16 m d s x : scale_mv_skip m d s = Done x -> is_i16 x.
Proof.
  unfold scale_mv_skip. destruct (mul3 m d s); cbn [bindo]; try discriminate. destruct (int32 _); cbn [bindo]; try discriminate. intros H. injection H as <-. apply to_i16_range.
Qed.
Lemma biskip_i16 m d s x : scale_mv_biskip m d s = Done x -> is_i16 x.
Proof.
  unfold scale_mv_biskip. destruct (sign3 m); cbn [bindo]; try discriminate. destruct (int32 _); cbn [bindo]; try discriminate. destruct (int32 _); cbn [bindo]; try discriminate.
  destruct (int32 _); cbn [bindo]; try discriminate. destruct (int32 _); cbn [bindo]; try discriminate. intros H. injection H as <-. apply to_i16_range.
Qed.
Lemma default_i16 m d s x : scale_mv_default m d s = Done x -> is_i16 x.
Proof.
  unfold scale_mv_default. destruct (sign3 m); cbn [bindo]; try discriminate. destruct (mul3 _ _ _); cbn [bindo]; try discriminate.
  destruct (int32 _); cbn [bindo]; try discriminate. destruct (int32 _); cbn [bindo]; try discriminate. intros H. injection H as <-. apply to_i16_range.
Qed.
Lemma pmvr_i16 e d p : i16v (pmvr e d p).
Proof. unfold pmvr. destruct d as [dx dy], p as [px py]. cbv zeta. destruct e; [destruct (THRESHOLD_PMVR <? _); [|destruct (THRESHOLD_PMVR <? _)]|]; apply to_i16_i16. Qed.
Lemma scale_both_i16 m d s x : scale_both m d s = Done x -> i16v x.
Proof.
  unfold scale_both. destruct (scale_mv_default (snd m) d s) as [b| | |] eqn:Eb; cbn [bindo]; try discriminate. destruct (scale_mv_default (fst m) d s) as [a| | |] eqn:Ea; cbn [bindo]; try discriminate.
  intros H. injection H as <-. split; [exact (default_i16 _ _ _ _ Ea)|exact (default_i16 _ _ _ _ Eb)].
Qed.
Lemma mvp_i16 E Q g px py bwd ref bsx shape r : get_mvp E Q g px py bwd ref bsx shape = Done r -> i16v r.
Proof.
  unfold get_mvp. destruct (mvp_neighbors E Q g px py bsx) as [[[[l u] ul] ur]| | |]; cbn [bindo]; try discriminate.
  set (c := if n_av ur then ur else ul). set (ty := pred_type _ _ _ _ _).
  assert (K : forall o : outcome (mvec * mvec * mvec), (forall a b c, o = Done (a, b, c) -> i16v a /\ i16v b /\ i16v c) ->
    bindo o (fun '(a, b, c) => Done (if ty =? 0 then (derive_median_mv (fst a) (fst b) (fst c), derive_median_mv (snd a) (snd b) (snd c)) else if ty =? 1 then a else if ty =? 2 then b else c)) = Done r -> i16v r).
  { intros o Ho. destruct o as [[[a b] d]| | |]; cbn [bindo]; try discriminate. destruct (Ho a b d eq_refl) as (A & B & D). intros H. injection H as <-.
    destruct (ty =? 0); [|destruct (ty =? 1); [exact A|destruct (ty =? 2); assumption]]. unfold derive_median_mv. apply to_i16_i16. }
  assert (Sb : forall mult src q m x, scale_b mult src q m = Done x -> i16v x) by (intros mult src q m x; unfold scale_b; destruct (0 <=? q); [apply scale_both_i16|intros H; injection H as <-; exact zero_i16]).
  assert (Sp : forall mult q m x, scale_p E mult q m = Done x -> i16v x).
  { intros mult q m x. unfold scale_p. destruct (0 <=? q); [|intros H; injection H as <-; exact zero_i16]. destruct (arr4 (e_dist E) q); cbn [bindo]; try discriminate. destruct (arr4 (e_scale E) q); cbn [bindo]; try discriminate. apply scale_both_i16. }
  apply K. clear K. intros a b d. destruct (e_type E =? B_SLICE).
  - destruct (arr4 _ _) as [m| | |]; cbn [bindo]; try discriminate. destruct (arr4 _ _) as [s| | |]; cbn [bindo]; try discriminate.
    destruct (scale_b m s _ (nb_mv bwd l)) as [a'| | |] eqn:Ea; cbn [bindo]; try discriminate. destruct (scale_b m s _ (nb_mv bwd u)) as [b'| | |] eqn:Eb; cbn [bindo]; try discriminate.
    destruct (scale_b m s _ (nb_mv bwd c)) as [d'| | |] eqn:Ed; cbn [bindo]; try discriminate. intros H. injection H as <- <- <-. split; [exact (Sb _ _ _ _ _ Ea)|split; [exact (Sb _ _ _ _ _ Eb)|exact (Sb _ _ _ _ _ Ed)]].
  - destruct (arr4 _ _) as [m| | |]; cbn [bindo]; try discriminate.
    destruct (scale_p E m _ (nb_mv bwd l)) as [a'| | |] eqn:Ea; cbn [bindo]; try discriminate. destruct (scale_p E m _ (nb_mv bwd u)) as [b'| | |] eqn:Eb; cbn [bindo]; try discriminate.
    destruct (scale_p E m _ (nb_mv bwd c)) as [d'| | |] eqn:Ed; cbn [bindo]; try discriminate. intros H. injection H as <- <- <-. split; [exact (Sp _ _ _ _ Ea)|split; [exact (Sp _ _ _ _ Eb)|exact (Sp _ _ _ _ Ed)]].
Qed.

Definition cref (bwd : bool) (c : cu) (j : nat) : Z := if bwd then snd (c_ref c (Z.of_nat j)) else fst (c_ref c (Z.of_nat j)).
Definition cmv (bwd : bool) (c : cu) (j : nat) : mvec := if bwd then c_mv1 c (Z.of_nat j) else c_mv0 c (Z.of_nat j).
Definition in_part (ux uy : Z) (b : Z * Z * Z * Z) (X Y : Z) : Prop := in_block b (X - ux) (Y - uy) = true.

Lemma skip_head {A : Type} (l : list A) : forall (k : nat) p rest, skipn k l = p :: rest -> nth_error l k = Some p /\ skipn (S k) l = rest.
Proof.
  induction l as [|a l IH]; intros k p rest H; [destruct k; discriminate|].
  destruct k as [|k]; [cbn in *; injection H as -> ->; auto|]. cbn [skipn nth_error] in H |- *. exact (IH k p rest H).
Qed.

Lemma shr_to_cb x y w h : 0 <= x <= 16 -> 0 <= y <= 16 -> 0 <= w <= 16 -> 0 <= h <= 16 -> cb_shr 2 (to_cb (x, y, w, h)) = B x y w h.
Proof.
  intros Bx By Bw Bh. unfold cb_shr, to_cb, pack, unpack. cbn [CuModel.cx CuModel.cy cw ch B].
  assert (U : forall v, 0 <= v <= 16 -> to_u8 (4 * v) = 4 * v) by (intros v V; unfold to_u8; apply Z.mod_small; lia). rewrite !U by assumption.
  set (p := Z.shiftr _ 2). assert (Ep : p = x + 256 * y + 65536 * w + 16777216 * h).
  { unfold p. rewrite Z.shiftr_div_pow2 by lia. change (2 ^ 2) with 4. replace (4 * x + 256 * (4 * y) + 65536 * (4 * w) + 16777216 * (4 * h)) with ((x + 256 * y + 65536 * w + 16777216 * h) * 4) by ring. apply Z.div_mul. lia. }
  clearbody p. subst p.
  assert (X0 : (x + 256 * y + 65536 * w + 16777216 * h) mod 256 = x) by (symmetry; apply (Z.mod_unique_pos _ 256 (y + 256 * w + 65536 * h)); lia).
  assert (X1 : (x + 256 * y + 65536 * w + 16777216 * h) / 256 = y + 256 * w + 65536 * h) by (symmetry; apply (Z.div_unique_pos _ 256 _ x); lia).
  assert (X2 : (x + 256 * y + 65536 * w + 16777216 * h) / 65536 = w + 256 * h) by (symmetry; apply (Z.div_unique_pos _ 65536 _ (x + 256 * y)); lia).
  assert (X3 : (x + 256 * y + 65536 * w + 16777216 * h) / 16777216 = h) by (symmetry; apply (Z.div_unique_pos _ 16777216 _ (x + 256 * y + 65536 * w)); lia).
  rewrite X0, X1, X2, X3.
  assert (Y1 : (y + 256 * w + 65536 * h) mod 256 = y) by (symmetry; apply (Z.mod_unique_pos _ 256 (w + 256 * h)); lia).
  assert (Y2 : (w + 256 * h) mod 256 = w) by (symmetry; apply (Z.mod_unique_pos _ 256 h); lia).
  rewrite Y1, Y2, (Z.mod_small h 256) by lia.
  assert (I8 : forall v, 0 <= v <= 16 -> to_i8 v = v) by (intros v V; unfold to_i8; rewrite ?Z.mod_small by lia; try (destruct (Z.ltb_spec v 128)); try (destruct (Z.leb_spec 128 v)); lia).
  rewrite !I8 by assumption. reflexivity.
Qed.
Ltac step_side k := try solve [assumption | reflexivity | discriminate | intros; discriminate | intros; reflexivity | intros; assumption | intros q; split; [|split]; reflexivity | intros j Lj; lia |
  intros j Lj; destruct (Nat.eq_dec j k); [right; auto | left; lia]].
Section Unit.
Variables (E : env) (Q : place) (level ux uy : Z) (rs : list (Z * Z * Z * Z)).
Local Notation n := (2 ^ (level - 2)).
Local Notation wu := (e_wu E).
Hypothesis Hx : 0 <= ux.
Hypothesis Hw : ux + n <= wu.
Hypothesis Ht : tiles n rs = true.

Lemma part_in j b X Y : nth_error rs j = Some b -> in_part ux uy b X Y -> ux <= X < ux + n /\ uy <= Y < uy + n.
Proof.
  intros Hj Hb. destruct (tiles_facts _ _ Ht) as [F _]. specialize (F _ _ Hj). destruct b as [[[x y] w] h]. unfold inside in F. unfold in_part, in_block in Hb.
  rewrite !andb_true_iff, !Z.leb_le, !Z.ltb_lt in *. lia.
Qed.
Lemma part_pos j x y w h : nth_error rs j = Some (x, y, w, h) -> 0 <= x /\ 0 <= y /\ 0 < w /\ 0 < h /\ x + w <= n /\ y + h <= n.
Proof. intros Hj. destruct (tiles_facts _ _ Ht) as [F _]. specialize (F _ _ Hj). unfold inside in F. rewrite !andb_true_iff, !Z.leb_le, !Z.ltb_lt in F. lia. Qed.
Lemma part_own j x y w h : nth_error rs j = Some (x, y, w, h) -> in_part ux uy (x, y, w, h) (ux + x) (uy + y).
Proof. intros Hj. pose proof (part_pos _ _ _ _ _ Hj). unfold in_part, in_block. rewrite !andb_true_iff, !Z.leb_le, !Z.ltb_lt. lia. Qed.
Lemma part_unique i j a b X Y : nth_error rs i = Some a -> nth_error rs j = Some b -> in_part ux uy a X Y -> in_part ux uy b X Y -> i = j.
Proof. destruct (tiles_facts _ _ Ht) as (_ & _ & U). unfold in_part. eauto. Qed.
Lemma paint_part j x y w h f g X Y : nth_error rs j = Some (x, y, w, h) -> (forall k, f (f k) = f k) -> 0 <= X < wu ->
  paint wu (ux + x) (uy + y) w h f g (Y * wu + X) = if in_block (x, y, w, h) (X - ux) (Y - uy) then f (g (Y * wu + X)) else g (Y * wu + X).
Proof.
  intros Hj Hf HX. pose proof (part_pos _ _ _ _ _ Hj) as P. rewrite paint_ok; [|exact Hf|lia|lia|exact HX].
  replace (inrectb (ux + x) (uy + y) w h X Y) with (in_block (x, y, w, h) (X - ux) (Y - uy)); [reflexivity|].
  unfold inrectb, in_block. apply eq_true_iff_eq. rewrite !andb_true_iff, !Z.leb_le, !Z.ltb_lt. lia.
Qed.

(** What the maps hold: [bwd] selects the list, [k] the number of parts done. *)
Definition keeps (g0 g : grid) : Prop := forall X Y, 0 <= X < wu -> ~ (ux <= X < ux + n /\ uy <= Y < uy + n) -> g (Y * wu + X) = g0 (Y * wu + X).
Definition refs_in (c : cu) (g : grid) : Prop := forall j b X Y, nth_error rs j = Some b -> in_part ux uy b X Y ->
  let k := g (Y * wu + X) in k_dir k = c_dir c (Z.of_nat j) /\ k_r0 k = fst (c_ref c (Z.of_nat j)) /\ k_r1 k = snd (c_ref c (Z.of_nat j)).
Definition mvs_in (bwd : bool) (m : nat) (c : cu) (g : grid) : Prop := forall j b X Y, (j < m)%nat -> nth_error rs j = Some b -> in_part ux uy b X Y ->
  cref bwd c j <> -1 -> kmv bwd (g (Y * wu + X)) = cmv bwd c j.
Definition dirs_in (c : cu) : Prop := forall j, (j < length rs)%nat -> dir_ok E (c_dir c (Z.of_nat j)) (cref false c j) (cref true c j) /\ c_dir c (Z.of_nat j) <> -1.
Definition same_dirs (c c' : cu) : Prop := forall j, (j < length rs)%nat -> c_dir c (Z.of_nat j) = c_dir c' (Z.of_nat j) /\ c_ref c (Z.of_nat j) = c_ref c' (Z.of_nat j).
Definition same_mvs (bwd : bool) (m : nat) (c c' : cu) : Prop := forall j, (j < m)%nat -> cref bwd c j <> -1 -> cmv bwd c j = cmv bwd c' j.
Definition vecs_ok (g : grid) : Prop := forall p, i16v (k_m0 (g p)) /\ i16v (k_m1 (g p)).
Definition mvs16 (bwd : bool) (m : nat) (c : cu) : Prop := forall j, (j < m)%nat -> cref bwd c j <> -1 -> i16v (cmv bwd c j).

(** The unit's surroundings agree in both runs. *)
Definition around (bwd : bool) (g g' : grid) : Prop := forall X Y, avail E Q X Y = true -> ~ (ux <= X < ux + n /\ uy <= Y < uy + n) ->
  unit_before (Z.to_nat (e_lv E - 2)) X Y ux uy = true -> half bwd (g (Y * wu + X)) (g' (Y * wu + X)).

Variables (ty : Z) (four : bool).
Hypothesis Hrs : rs = parts four ty n.
Hypothesis Hlv : 4 <= e_lv E <= 6.
Hypothesis Hlev : 3 <= level <= e_lv E.
Hypothesis Hsh : shape_ok level ty four.
Hypothesis Hy : 0 <= uy.
Hypothesis Hax : ux mod 2 ^ (level - 2) = 0.
Hypothesis Hay : uy mod 2 ^ (level - 2) = 0.
Hypothesis Hqx : q_lx Q = ux - ux mod 2 ^ (e_lv E - 2).
Hypothesis Hqy : q_ly Q = uy - uy mod 2 ^ (e_lv E - 2).

Lemma avail_in X Y : avail E Q X Y = true -> 0 <= X < wu /\ 0 <= Y.
Proof. unfold avail. rewrite !andb_true_iff, !Z.leb_le, !Z.ltb_lt. lia. Qed.
(** Cells decoded before part [k] agree. *)
Lemma agree_before bwd k c c' g g' g0 g0' X Y : avail E Q X Y = true -> bf (e_lv E) level ty four ux uy k X Y = true ->
  around bwd g0 g0' -> keeps g0 g -> keeps g0' g' -> refs_in c g -> refs_in c' g' -> same_dirs c c' -> mvs_in bwd k c g -> mvs_in bwd k c' g' -> same_mvs bwd k c c' ->
  half bwd (g (Y * wu + X)) (g' (Y * wu + X)).
Proof.
  intros Av Bf Ar Kp Kp' Rf Rf' Sd Mv Mv' Sm. destruct (avail_in _ _ Av) as [HX HY]. unfold bf, before in Bf. rewrite <- Hrs in Bf.
  destruct (in_block (ux, uy, n, n) X Y) eqn:In0.
  - apply existsb_exists in Bf. destruct Bf as (b & Ib & Hb). apply In_nth_error in Ib. destruct Ib as [j Hj].
    assert (Lj : (j < k)%nat). { assert (nth_error (firstn k rs) j <> None) by congruence. apply nth_error_Some in H. rewrite firstn_length in H. lia. }
    assert (Hj' : nth_error rs j = Some b) by (rewrite <- Hj; rewrite <- (firstn_skipn k rs) at 1; apply nth_error_app1; apply nth_error_Some; congruence).
    assert (Lr : (j < length rs)%nat) by (apply nth_error_Some; congruence).
    destruct (Rf j b X Y Hj' Hb) as (_ & R0 & R1). destruct (Rf' j b X Y Hj' Hb) as (_ & R0' & R1'). destruct (Sd j Lr) as [_ Sr].
    assert (Kr : kref bwd (g (Y * wu + X)) = cref bwd c j) by (destruct bwd; assumption).
    assert (Kr' : kref bwd (g' (Y * wu + X)) = cref bwd c' j) by (destruct bwd; assumption).
    assert (Cr : cref bwd c j = cref bwd c' j) by (unfold cref; rewrite Sr; reflexivity).
    split; [rewrite Kr, Kr', Cr; reflexivity|]. rewrite Kr. intros N. rewrite (Mv j b X Y Lj Hj' Hb N). rewrite (Mv' j b X Y Lj Hj' Hb) by (rewrite <- Cr; exact N). apply Sm; assumption.
  - assert (O : ~ (ux <= X < ux + n /\ uy <= Y < uy + n)). { intros [A1 A2]. unfold in_block in In0. rewrite !andb_false_iff, !Z.leb_gt, !Z.ltb_ge in In0. lia. }
    rewrite (Kp X Y HX O), (Kp' X Y HX O). apply Ar; assumption.
Qed.
Lemma part_here k x y w h : nth_error rs k = Some (x, y, w, h) -> part_at (e_lv E) level ty four ux uy k x y w h.
Proof. intros Hk. constructor; try assumption. rewrite <- Hrs. exact Hk. Qed.
Lemma part_tr k x y w h : nth_error rs k = Some (x, y, w, h) ->
  tr_column E Q (ux + x + w - 1) (uy + y) = Done (if bf (e_lv E) level ty four ux uy k (ux + x + w) (uy + y - 1) then ux + x + w else -1).
Proof. intros Hk. apply (tr_ok (e_lv E) level ty four ux uy k x y w h E Q (part_here _ _ _ _ _ Hk) eq_refl Hqx Hqy). Qed.
Lemma mvp_same bwd k c c' g g' g0 g0' x y w h ref shape : nth_error rs k = Some (x, y, w, h) ->
  around bwd g0 g0' -> keeps g0 g -> keeps g0' g' -> refs_in c g -> refs_in c' g' -> same_dirs c c' -> mvs_in bwd k c g -> mvs_in bwd k c' g' -> same_mvs bwd k c c' ->
  get_mvp E Q g (4 * ux + 4 * x) (4 * uy + 4 * y) bwd ref (4 * w) shape = get_mvp E Q g' (4 * ux + 4 * x) (4 * uy + 4 * y) bwd ref (4 * w) shape.
Proof.
  intros Hk Ar Kp Kp' Rf Rf' Sd Mv Mv' Sm. pose proof (part_facts _ _ _ _ _ _ _ _ _ _ _ (part_here _ _ _ _ _ Hk)) as F. cbv zeta in F.
  destruct F as (_ & _ & _ & _ & _ & _ & _ & _ & _ & F1 & F2 & F3 & _).
  apply (mvp_rel E Q g g' (4 * ux + 4 * x) (4 * uy + 4 * y) bwd ref (4 * w) shape (ux + x) (uy + y) w _ ltac:(lia) ltac:(lia) eq_refl (part_tr _ _ _ _ _ Hk)).
  intros u v Av I0. apply (agree_before bwd k c c' g g' g0 g0' u v Av); try assumption.
  cbn [In] in I0. destruct I0 as [I0|[I0|[I0|[I0|[]]]]]; apply pair_equal_spec in I0; destruct I0 as [<- <-]; try assumption.
  destruct (bf (e_lv E) level ty four ux uy k (ux + x + w) (uy + y - 1)) eqn:B; [exact B|].
  exfalso. apply avail_in in Av. lia.
Qed.

(** ** States of the loops *)
Record inv (m0 m1 : nat) (c0 : cu) (g0 : grid) (s : cu * grid) : Prop := {
  i_keeps : keeps g0 (snd s); i_refs : refs_in (fst s) (snd s); i_m0 : mvs_in false m0 (fst s) (snd s); i_m1 : mvs_in true m1 (fst s) (snd s);
  i_dirs : dirs_in (fst s); i_good : grid_ok E (snd s);
  i_unit : c_level (fst s) = c_level c0 /\ c_type (fst s) = c_type c0 /\ c_dmh (fst s) = c_dmh c0 /\ c_pus (fst s) = c_pus c0 /\
           (forall i, c_dir (fst s) i = c_dir c0 i) /\ (forall i, c_ref (fst s) i = c_ref c0 i) }.
Record both (m0 m1 : nat) (c c' : cu) : Prop := { b_dirs_same : same_dirs c c'; b_m0 : same_mvs false m0 c c'; b_m1 : same_mvs true m1 c c' }.

Lemma paint_any (P : cell -> Prop) x y w h f g : (forall k, P k -> P (f k)) -> (forall p, P (g p)) -> forall p, P (paint wu x y w h f g p).
Proof.
  intros Hf Hg. unfold paint. destruct (Z_le_gt_dec h 0) as [H0|H0]; [rewrite floop_none by lia; exact Hg|].
  apply (floop_inv (fun _ (s : grid) => forall p, P (s p))); [lia|exact Hg|]. intros r s _ IH. destruct (Z_le_gt_dec w 0) as [W0|W0]; [rewrite floop_none by lia; exact IH|].
  apply (floop_inv (fun _ (s : grid) => forall p, P (s p))); [lia|exact IH|]. intros c t _ It p. unfold updf. destruct (p =? _); auto.
Qed.
Lemma with_mvs_ref c i a b j : c_ref (with_mvs c i a b) j = c_ref c j.
Proof. unfold with_mvs, with_motion. cbn [c_ref]. unfold updf. destruct (Z.eqb_spec j i) as [-> |]; reflexivity. Qed.
Lemma with_mvs_cref bwd c i a b j : cref bwd (with_mvs c i a b) j = cref bwd c j.
Proof. unfold cref. rewrite with_mvs_ref. reflexivity. Qed.
Lemma with_mvs_cmv bwd c k a b j : cmv bwd (with_mvs c (Z.of_nat k) a b) j = if Nat.eqb j k then (if bwd then b else a) else cmv bwd c j.
Proof.
  unfold cmv, with_mvs, with_motion. cbn [c_mv0 c_mv1]. unfold updf. destruct (Nat.eqb_spec j k) as [-> |N]; [rewrite Z.eqb_refl; destruct bwd; reflexivity|].
  destruct (Z.eqb_spec (Z.of_nat j) (Z.of_nat k)); [lia|]. reflexivity.
Qed.
Lemma inv_step k x y w h f a b (t0 t1 : bool) m0 m1 m0' m1' c0 g0 c g : nth_error rs k = Some (x, y, w, h) ->
  (forall q, f (f q) = f q) -> (forall q, k_dir (f q) = k_dir q /\ k_r0 (f q) = k_r0 q /\ k_r1 (f q) = k_r1 q) ->
  (forall q, k_m0 (f q) = if t0 then a else k_m0 q) -> (forall q, k_m1 (f q) = if t1 then b else k_m1 q) ->
  (t0 = false -> a = c_mv0 c (Z.of_nat k)) -> (t1 = false -> b = c_mv1 c (Z.of_nat k)) -> (t0 = true -> i16v a) -> (t1 = true -> i16v b) ->
  (forall j, (j < m0')%nat -> (j < m0)%nat \/ j = k /\ (t0 = true \/ cref false c k = -1)) ->
  (forall j, (j < m1')%nat -> (j < m1)%nat \/ j = k /\ (t1 = true \/ cref true c k = -1)) ->
  inv m0 m1 c0 g0 (c, g) -> inv m0' m1' c0 g0 (with_mvs c (Z.of_nat k) a b, paint wu (ux + x) (uy + y) w h f g).
Proof.
  intros Hk Hi Hr F0 F1 A0 B0 Va Vb M0 M1 [Kp Rf I0 I1 Ds Gd Un]. cbn [fst snd] in *. constructor; cbn [fst snd].
  - intros X Y HX HO. rewrite (paint_part k x y w h) by assumption. destruct (in_block (x, y, w, h) (X - ux) (Y - uy)) eqn:Ib; [|apply Kp; assumption].
    exfalso. apply HO. apply (part_in k (x, y, w, h) X Y Hk Ib).
  - intros j p X Y Hj Hp. pose proof (part_in _ _ _ _ Hj Hp) as [HX _]. cbv zeta. rewrite (paint_part k x y w h) by (assumption || lia). rewrite with_mvs_ref.
    change (c_dir (with_mvs c (Z.of_nat k) a b)) with (c_dir c). specialize (Rf j p X Y Hj Hp). cbv zeta in Rf. destruct (in_block _ _ _); [|exact Rf]. destruct (Hr (g (Y * wu + X))) as (-> & -> & ->). exact Rf.
  - intros j p X Y Lj Hj Hp. rewrite with_mvs_cref, with_mvs_cmv. intros N. pose proof (part_in _ _ _ _ Hj Hp) as [HX _]. rewrite (paint_part k x y w h) by (assumption || lia). cbn [kmv].
    destruct (in_block (x, y, w, h) (X - ux) (Y - uy)) eqn:Ib.
    + assert (j = k) by (eapply part_unique; eassumption). subst j. rewrite Nat.eqb_refl, F0. destruct t0; [reflexivity|]. rewrite (A0 eq_refl). destruct (M0 k Lj) as [L|[_ [L|L]]]; [|discriminate|contradiction]. apply (I0 k p X Y L Hj Hp N).
    + assert (j <> k) by (intros ->; rewrite Hk in Hj; injection Hj as <-; unfold in_part in Hp; congruence). destruct (Nat.eqb_spec j k); [contradiction|]. destruct (M0 j Lj) as [L|[L _]]; [|contradiction]. apply (I0 j p X Y L Hj Hp N).
  - intros j p X Y Lj Hj Hp. rewrite with_mvs_cref, with_mvs_cmv. intros N. pose proof (part_in _ _ _ _ Hj Hp) as [HX _]. rewrite (paint_part k x y w h) by (assumption || lia). cbn [kmv].
    destruct (in_block (x, y, w, h) (X - ux) (Y - uy)) eqn:Ib.
    + assert (j = k) by (eapply part_unique; eassumption). subst j. rewrite Nat.eqb_refl, F1. destruct t1; [reflexivity|]. rewrite (B0 eq_refl). destruct (M1 k Lj) as [L|[_ [L|L]]]; [|discriminate|contradiction]. apply (I1 k p X Y L Hj Hp N).
    + assert (j <> k) by (intros ->; rewrite Hk in Hj; injection Hj as <-; unfold in_part in Hp; congruence). destruct (Nat.eqb_spec j k); [contradiction|]. destruct (M1 j Lj) as [L|[L _]]; [|contradiction]. apply (I1 j p X Y L Hj Hp N).
  - intros j Lj. rewrite !with_mvs_cref. apply Ds. exact Lj.
  - unfold grid_ok. apply (paint_any (fun q => i16v (k_m0 q) /\ i16v (k_m1 q) /\ -1 <= k_r0 q < e_nref E /\ -1 <= k_r1 q < e_nref E)); [|exact Gd].
    intros q (Q0 & Q1 & Q2 & Q3). destruct (Hr q) as (_ & -> & ->). rewrite F0, F1. destruct t0, t1; auto.
  - destruct Un as (U1 & U2 & U3 & U4 & U5 & U6). repeat (split; [assumption|]). intros i. rewrite with_mvs_ref. apply U6.
Qed.
Lemma both_step k a b m0 m1 m0' m1' c c' b' a' : both m0 m1 c c' ->
  (a = a' \/ cref false c k = -1 \/ a = c_mv0 c (Z.of_nat k) /\ a' = c_mv0 c' (Z.of_nat k) /\ (k < m0)%nat) ->
  (b = b' \/ cref true c k = -1 \/ b = c_mv1 c (Z.of_nat k) /\ b' = c_mv1 c' (Z.of_nat k) /\ (m1' <= k)%nat \/ b = c_mv1 c (Z.of_nat k) /\ b' = c_mv1 c' (Z.of_nat k) /\ (k < m1)%nat) ->
  (forall j, (j < m0')%nat -> (j < m0)%nat \/ j = k) -> (forall j, (j < m1')%nat -> (j < m1)%nat \/ j = k) ->
  both m0' m1' (with_mvs c (Z.of_nat k) a b) (with_mvs c' (Z.of_nat k) a' b').
Proof.
  intros [Sd S0 S1] Ha Hb M0 M1. constructor.
  - intros j Lj. rewrite !with_mvs_ref. apply Sd. exact Lj.
  - intros j Lj. rewrite with_mvs_cref, !with_mvs_cmv. intros N. destruct (Nat.eqb_spec j k) as [-> |Nk].
    + destruct Ha as [Ha|[Ha|(-> & -> & L)]]; [exact Ha|contradiction|]. apply (S0 k L N).
    + destruct (M0 j Lj) as [L|L]; [|contradiction]. apply (S0 j L N).
  - intros j Lj. rewrite with_mvs_cref, !with_mvs_cmv. intros N. destruct (Nat.eqb_spec j k) as [-> |Nk].
    + destruct Hb as [Hb|[Hb|[(_ & _ & L)|(-> & -> & L)]]]; [exact Hb|contradiction|lia|]. apply (S1 k L N).
    + destruct (M1 j Lj) as [L|L]; [|contradiction]. apply (S1 j L N).
Qed.
Lemma inv_weak m0 m1 m0' m1' c0 g0 s : (forall j, (j < m0')%nat -> (j < m0)%nat \/ cref false (fst s) j = -1) -> (forall j, (j < m1')%nat -> (j < m1)%nat \/ cref true (fst s) j = -1) ->
  inv m0 m1 c0 g0 s -> inv m0' m1' c0 g0 s.
Proof.
  intros M0 M1 [Kp Rf I0 I1 Ds Gd Un]. constructor; try assumption.
  - intros j p X Y Lj Hj Hp N. destruct (M0 j Lj); [eapply I0; eassumption|contradiction].
  - intros j p X Y Lj Hj Hp N. destruct (M1 j Lj); [eapply I1; eassumption|contradiction].
Qed.
Lemma both_weak m0 m1 m0' m1' c c' : (forall j, (j < m0')%nat -> (j < m0)%nat \/ cref false c j = -1) -> (forall j, (j < m1')%nat -> (j < m1)%nat \/ cref true c j = -1) ->
  both m0 m1 c c' -> both m0' m1' c c'.
Proof.
  intros M0 M1 [Sd S0 S1]. constructor; [exact Sd| |].
  - intros j Lj N. destruct (M0 j Lj); [apply S0; assumption|contradiction].
  - intros j Lj N. destruct (M1 j Lj); [apply S1; assumption|contradiction].
Qed.

(** ** The two loops over the parts *)
Variables (g0 g0' : grid) (c0 c0' : cu).
Definition k1 (k : nat) : nat := if e_type E =? 2 then O else k.
Hypothesis Htype : e_type E = 1 \/ e_type E = 2 \/ e_type E = 4.
Definition rel (m0 m1 : nat) (s s' : cu * grid) : Prop := inv m0 m1 c0 g0 s /\ inv m0 m1 c0' g0' s' /\ both m0 m1 (fst s) (fst s').
Lemma dirs_here m0 m1 s s' k p : rel m0 m1 s s' -> nth_error rs k = Some p -> c_dir (fst s) (Z.of_nat k) = c_dir (fst s') (Z.of_nat k) /\ c_ref (fst s) (Z.of_nat k) = c_ref (fst s') (Z.of_nat k) /\
  dir_ok E (c_dir (fst s) (Z.of_nat k)) (cref false (fst s) k) (cref true (fst s) k) /\ c_dir (fst s) (Z.of_nat k) <> -1.
Proof.
  intros (I1 & I2 & [Sd _ _]) Hk. assert (L : (k < length rs)%nat) by (apply nth_error_Some; congruence). destruct (Sd k L). destruct (i_dirs _ _ _ _ _ I1 k L). auto.
Qed.
Lemma fwd_rel : around false g0 g0' -> forall rest k mvds s s', skipn k rs = rest -> rel k (k1 k) s s' ->
  orel (fun r r' => fst r = fst r' /\ rel (length rs) (k1 (length rs)) (snd r) (snd r'))
    (read_fwd E Q (4 * ux) (4 * uy) (Z.of_nat k) (map to_cb rest) mvds s) (read_fwd E Q (4 * ux) (4 * uy) (Z.of_nat k) (map to_cb rest) mvds s').
Proof.
  intros Ar. induction rest as [|[[[x y] w] h] rest IH]; intros k mvds [c g] [c' g'] Hk R.
  - cbn [map read_fwd]. cbn [orel fst snd]. split; [reflexivity|]. assert (Lk : (length rs <= k)%nat).
    { destruct (le_lt_dec (length rs) k) as [L|L]; [exact L|]. exfalso. assert (length (skipn k rs) = 0)%nat by (rewrite Hk; reflexivity). rewrite skipn_length in H. lia. }
    destruct R as (R1 & R2 & R3). unfold k1 in *. split; [|split]; [eapply inv_weak; [| |exact R1]|eapply inv_weak; [| |exact R2]|eapply both_weak; [| |exact R3]]; intros j Lj; left; try lia; destruct (e_type E =? 2); lia.
  - destruct (skip_head _ _ _ _ Hk) as [Hn Hk']. destruct (dirs_here _ _ _ _ _ _ R Hn) as (Ed & Er & Dk & Nd). cbn [fst snd] in *.
    pose proof (part_pos _ _ _ _ _ Hn) as P. cbn [map read_fwd]. rewrite <- Ed.
    replace (Z.of_nat k + 1) with (Z.of_nat (S k)) by lia.
    destruct (Z.eqb_spec (c_dir c (Z.of_nat k)) 1) as [D1|D1].
    + apply IH; [exact Hk'|]. assert (B : e_type E = 2) by (unfold dir_ok in Dk; lia). unfold k1 in *. rewrite B in *. cbn [Z.eqb Pos.eqb] in *.
      assert (C0 : cref false c k = -1) by (unfold dir_ok in Dk; lia). assert (C0' : cref false c' k = -1) by (unfold cref in *; rewrite <- Er; exact C0).
      destruct R as (R1 & R2 & R3). split; [|split]; [eapply inv_weak; [| |exact R1]|eapply inv_weak; [| |exact R2]|eapply both_weak; [| |exact R3]]; cbn [fst]; intros j Lj; try lia; destruct (Nat.eq_dec j k) as [-> |]; auto; left; lia.
    + pose proof R as ([Kp Rf I0 I1 Ds Gd Un] & [Kp' Rf' I0' I1' Ds' Gd' Un'] & [Sd S0 S1]). cbn [fst snd] in *.
      assert (Own : k_r0 (g ((uy + y) * wu + (ux + x))) = fst (c_ref c (Z.of_nat k))) by (apply (Rf k _ _ _ Hn (part_own _ _ _ _ _ Hn))).
      assert (Own' : k_r0 (g' ((uy + y) * wu + (ux + x))) = fst (c_ref c' (Z.of_nat k))) by (apply (Rf' k _ _ _ Hn (part_own _ _ _ _ _ Hn))).
      unfold to_cb. cbn [CuModel.cx CuModel.cy cw ch B]. rewrite !shr4. rewrite Own, Own', <- Er.
      rewrite (mvp_same false k c c' g g' g0 g0' x y w h _ _ Hn Ar Kp Kp' Rf Rf' Sd I0 I0' S0).
      apply orel_same. intros mvp Em. pose proof (mvp_i16 _ _ _ _ _ _ _ _ _ _ Em) as Vm.
      replace (e_type E =? S_SLICE) with false by (symmetry; apply Z.eqb_neq; unfold S_SLICE; lia).
      apply orel_same. intros [mvds' mv] Ev. assert (Vv : i16v mv) by (destruct mvds as [|d r]; [discriminate|]; injection Ev as _ <-; apply pmvr_i16).
      unfold k1 in *. destruct (Z.eqb_spec (e_type E) B_SLICE) as [B|B]; unfold B_SLICE in B.
      * rewrite B in *. cbn [Z.eqb Pos.eqb] in *. apply IH; [exact Hk'|]. destruct R as (R1 & R2 & R3). split; [|split].
        -- apply (inv_step k x y w h (set_mv0 mv) mv (c_mv1 c (Z.of_nat k)) true false k 0%nat); step_side k.
        -- apply (inv_step k x y w h (set_mv0 mv) mv (c_mv1 c' (Z.of_nat k)) true false k 0%nat); step_side k.
        -- cbn [fst]. eapply both_step; [exact R3|left; reflexivity| | |].
           ++ right. right. left. split; [reflexivity|]. split; [reflexivity|]. lia.
           ++ intros j Lj. lia.
           ++ intros j Lj. lia.
      * destruct (Z.eqb_spec (e_type E) 2) as [B2|B2]; [contradiction|].
        assert (G : forall mv2, i16v mv2 -> rel (S k) (S k) (with_mvs c (Z.of_nat k) mv mv2, paint wu (ux + x) (uy + y) w h (set_mvs mv mv2) g) (with_mvs c' (Z.of_nat k) mv mv2, paint wu (ux + x) (uy + y) w h (set_mvs mv mv2) g')).
        { intros mv2 V2. destruct R as (R1 & R2 & R3). split; [|split].
          - apply (inv_step k x y w h (set_mvs mv mv2) mv mv2 true true k k); step_side k.
          - apply (inv_step k x y w h (set_mvs mv mv2) mv mv2 true true k k); step_side k.
          - cbn [fst]. eapply both_step; [exact R3|left; reflexivity|left; reflexivity| |]; intros j Lj; lia. }
        apply orel_same. intros mv2 E2. apply IH; [exact Hk'|]. apply G.
        destruct (c_dir c (Z.of_nat k) =? 4); [|injection E2 as <-; exact zero_i16].
        destruct (arr4 (e_dist E) _) as [d1| | |] in E2; cbn [bindo] in E2; try discriminate. destruct (arr4 (e_scale E) _) as [src| | |] in E2; cbn [bindo] in E2; try discriminate.
        destruct (arr4 (e_dist E) _) as [d2| | |] in E2; cbn [bindo] in E2; try discriminate.
        destruct (scale_mv_skip (fst mv) d2 src) as [a| | |] eqn:Ea; cbn [bindo] in E2; try discriminate. destruct (scale_mv_skip (snd mv) d2 src) as [b| | |] eqn:Eb; cbn [bindo] in E2; try discriminate.
        injection E2 as <-. split; [exact (skip_i16 _ _ _ _ Ea)|exact (skip_i16 _ _ _ _ Eb)].
Qed.

Lemma bwd_rel : e_type E = 2 -> around true g0 g0' -> forall rest k mvds s s', skipn k rs = rest -> rel (length rs) k s s' ->
  orel (fun r r' => fst r = fst r' /\ rel (length rs) (length rs) (snd r) (snd r'))
    (read_bwd E Q (4 * ux) (4 * uy) (Z.of_nat k) (map to_cb rest) mvds s) (read_bwd E Q (4 * ux) (4 * uy) (Z.of_nat k) (map to_cb rest) mvds s').
Proof.
  intros T2 Ar. induction rest as [|[[[x y] w] h] rest IH]; intros k mvds [c g] [c' g'] Hk R.
  - cbn [map read_bwd]. cbn [orel fst snd]. split; [reflexivity|]. assert (Lk : (length rs <= k)%nat).
    { destruct (le_lt_dec (length rs) k) as [L|L]; [exact L|]. exfalso. assert (length (skipn k rs) = 0)%nat by (rewrite Hk; reflexivity). rewrite skipn_length in H. lia. }
    destruct R as (R1 & R2 & R3). split; [|split]; [eapply inv_weak; [| |exact R1]|eapply inv_weak; [| |exact R2]|eapply both_weak; [| |exact R3]]; intros j Lj; left; lia.
  - destruct (skip_head _ _ _ _ Hk) as [Hn Hk']. destruct (dirs_here _ _ _ _ _ _ R Hn) as (Ed & Er & Dk & Nd). cbn [fst snd] in *.
    pose proof (part_pos _ _ _ _ _ Hn) as P. cbn [map read_bwd]. rewrite <- Ed.
    replace (Z.of_nat k + 1) with (Z.of_nat (S k)) by lia.
    destruct (Z.eqb_spec (c_dir c (Z.of_nat k)) 0) as [D1|D1].
    + apply IH; [exact Hk'|].
      assert (C0 : cref true c k = -1) by (unfold dir_ok in Dk; lia). assert (C0' : cref true c' k = -1) by (unfold cref in *; rewrite <- Er; exact C0).
      destruct R as (R1 & R2 & R3). split; [|split]; [eapply inv_weak; [| |exact R1]|eapply inv_weak; [| |exact R2]|eapply both_weak; [| |exact R3]]; cbn [fst]; intros j Lj; try lia; destruct (Nat.eq_dec j k) as [-> |]; auto; left; lia.
    + pose proof R as ([Kp Rf I0 I1 Ds Gd Un] & [Kp' Rf' I0' I1' Ds' Gd' Un'] & [Sd S0 S1]). cbn [fst snd] in *.
      assert (Lk : (k < length rs)%nat) by (apply nth_error_Some; congruence).
      assert (Own : k_r1 (g ((uy + y) * wu + (ux + x))) = snd (c_ref c (Z.of_nat k))) by (apply (Rf k _ _ _ Hn (part_own _ _ _ _ _ Hn))).
      assert (Own' : k_r1 (g' ((uy + y) * wu + (ux + x))) = snd (c_ref c' (Z.of_nat k))) by (apply (Rf' k _ _ _ Hn (part_own _ _ _ _ _ Hn))).
      assert (Mo : c_dir c (Z.of_nat k) = 2 -> k_m0 (g ((uy + y) * wu + (ux + x))) = k_m0 (g' ((uy + y) * wu + (ux + x)))).
      { intros D2. assert (N : cref false c k <> -1) by (unfold dir_ok in Dk; lia). assert (N' : cref false c' k <> -1) by (unfold cref in *; rewrite <- Er; exact N).
        pose proof (I0 k _ _ _ Lk Hn (part_own _ _ _ _ _ Hn) N) as M. pose proof (I0' k _ _ _ Lk Hn (part_own _ _ _ _ _ Hn) N') as M'. cbn [kmv] in M, M'. rewrite M, M'. apply S0; assumption. }
      unfold to_cb. cbn [CuModel.cx CuModel.cy cw ch B]. rewrite !shr4. rewrite Own, Own', <- Er.
      rewrite (mvp_same true k c c' g g' g0 g0' x y w h _ _ Hn Ar Kp Kp' Rf Rf' Sd I1 I1' S1).
      apply orel_same. intros mvp Em.
      assert (G : forall mvds' mv, i16v mv -> orel (fun r r' => fst r = fst r' /\ rel (length rs) (length rs) (snd r) (snd r'))
        (read_bwd E Q (4 * ux) (4 * uy) (Z.of_nat (S k)) (map to_cb rest) mvds' (with_mvs c (Z.of_nat k) (c_mv0 c (Z.of_nat k)) mv, paint wu (ux + x) (uy + y) w h (set_mv1 mv) g))
        (read_bwd E Q (4 * ux) (4 * uy) (Z.of_nat (S k)) (map to_cb rest) mvds' (with_mvs c' (Z.of_nat k) (c_mv0 c' (Z.of_nat k)) mv, paint wu (ux + x) (uy + y) w h (set_mv1 mv) g'))).
      { intros mvds' mv V. apply IH; [exact Hk'|]. destruct R as (R1 & R2 & R3). split; [|split].
        - apply (inv_step k x y w h (set_mv1 mv) (c_mv0 c (Z.of_nat k)) mv false true (length rs) k); step_side k.
        - apply (inv_step k x y w h (set_mv1 mv) (c_mv0 c' (Z.of_nat k)) mv false true (length rs) k); step_side k.
        - cbn [fst]. eapply both_step; [exact R3| |left; reflexivity| |].
          + right. right. split; [reflexivity|]. split; [reflexivity|]. exact Lk.
          + intros j Lj. lia.
          + intros j Lj. lia. }
      destruct (Z.eqb_spec (c_dir c (Z.of_nat k)) 2) as [D2|D2].
      * rewrite <- (Mo D2). apply orel_same. intros [mvds' mv] Ev. apply G.
        destruct (arr4 (e_dist E) _) as [d1| | |] in Ev; cbn [bindo] in Ev; try discriminate. destruct (arr4 (e_scale E) _) as [src| | |] in Ev; cbn [bindo] in Ev; try discriminate.
        destruct (scale_mv_skip _ d1 src) as [a| | |] in Ev; cbn [bindo] in Ev; try discriminate. destruct (scale_mv_skip _ d1 src) as [b| | |] in Ev; cbn [bindo] in Ev; try discriminate.
        injection Ev as _ <-. apply to_i16_i16.
      * apply orel_same. intros [mvds' mv] Ev. apply G. destruct mvds as [|d r]; [discriminate|]; injection Ev as _ <-; apply pmvr_i16.
Qed.
(** All vectors of the unit. *)
Lemma read_rel : around false g0 g0' -> around true g0 g0' -> c_pus c0 = map to_cb rs -> c_pus c0' = map to_cb rs ->
  forall mvds s s', rel 0 0 s s' -> orel (rel (length rs) (length rs)) (read_mv E Q (4 * ux) (4 * uy) mvds s) (read_mv E Q (4 * ux) (4 * uy) mvds s').
Proof.
  intros A0 A1 Pu Pu' mvds s s' R. unfold read_mv.
  assert (Up : c_pus (fst s) = map to_cb rs) by (destruct R as (R1 & _ & _); destruct (i_unit _ _ _ _ _ R1) as (_ & _ & _ & U & _); congruence).
  assert (Up' : c_pus (fst s') = map to_cb rs) by (destruct R as (_ & R1 & _); destruct (i_unit _ _ _ _ _ R1) as (_ & _ & _ & U & _); congruence).
  rewrite Up, Up'. eapply orel_bind.
  - apply (fwd_rel A0 rs 0%nat mvds s s' eq_refl). unfold k1. destruct (e_type E =? 2); exact R.
  - intros [m t] [m' t'] [Em Rt]. cbn [fst snd] in Em, Rt. subst m'. unfold k1 in Rt. destruct (Z.eqb_spec (e_type E) B_SLICE) as [B|B]; unfold B_SLICE in B.
    + rewrite B in Rt. cbn [Z.eqb Pos.eqb] in Rt. apply orel_same. intros d1 _. apply orel_same. intros d2 _. apply orel_same. intros d3 _.
      assert (Vp : c_pus (fst t) = map to_cb rs) by (destruct Rt as (R1 & _ & _); destruct (i_unit _ _ _ _ _ R1) as (_ & _ & _ & U & _); congruence).
      assert (Vp' : c_pus (fst t') = map to_cb rs) by (destruct Rt as (_ & R1 & _); destruct (i_unit _ _ _ _ _ R1) as (_ & _ & _ & U & _); congruence).
      rewrite Vp, Vp'. eapply orel_bind; [apply (bwd_rel B A1 rs 0%nat m t t' eq_refl Rt)|].
      intros [m1 v] [m1' v'] [_ Rv]. exact Rv.
    + destruct (Z.eqb_spec (e_type E) 2) as [B2|B2]; [contradiction|]. exact Rt.
Qed.
(** Storing references and directions. *)
Lemma store_ok c g : forall rest k h, skipn k rs = rest -> level <= 6 ->
  keeps g h -> (forall j b X Y, (j < k)%nat -> nth_error rs j = Some b -> in_part ux uy b X Y -> let q := h (Y * wu + X) in k_dir q = c_dir c (Z.of_nat j) /\ k_r0 q = fst (c_ref c (Z.of_nat j)) /\ k_r1 q = snd (c_ref c (Z.of_nat j))) ->
  let h' := store_refs E c (4 * ux) (4 * uy) (Z.of_nat k) (map to_cb rest) h in
  keeps g h' /\ refs_in c h'.
Proof.
  induction rest as [|[[[x y] w] hh] rest IH]; intros k h Hk L6 Kp Rf; cbn [map store_refs]; cbv zeta.
  - split; [exact Kp|]. intros j b X Y Hj Hb. apply (Rf j b X Y); try assumption.
    assert (length (skipn k rs) = 0)%nat by (rewrite Hk; reflexivity). rewrite skipn_length in H. assert (j < length rs)%nat by (apply nth_error_Some; congruence). lia.
  - destruct (skip_head _ _ _ _ Hk) as [Hn Hk']. pose proof (part_pos _ _ _ _ _ Hn) as P.
    assert (N16 : n <= 16) by (change 16 with (2 ^ 4); apply Z.pow_le_mono_r; lia).
    rewrite shr_to_cb by lia. cbn [CuModel.cx CuModel.cy cw ch B]. rewrite !shr4. replace (Z.of_nat k + 1) with (Z.of_nat (S k)) by lia.
    apply IH; [exact Hk'|exact L6| |].
    + intros X Y HX HO. rewrite (paint_part k x y w hh) by (assumption || reflexivity). destruct (in_block (x, y, w, hh) (X - ux) (Y - uy)) eqn:Ib; [|apply Kp; assumption].
      exfalso. apply HO. apply (part_in k (x, y, w, hh) X Y Hn Ib).
    + intros j b X Y Lj Hj Hb. cbv zeta. pose proof (part_in _ _ _ _ Hj Hb) as [HX _]. rewrite (paint_part k x y w hh) by (assumption || reflexivity || lia).
      destruct (in_block (x, y, w, hh) (X - ux) (Y - uy)) eqn:Ib.
      * assert (j = k) by (eapply part_unique; eassumption). subst j. cbn. auto.
      * assert (j <> k) by (intros ->; rewrite Hn in Hj; injection Hj as <-; unfold in_part in Hb; congruence). apply (Rf j b X Y); [lia|assumption|assumption].
Qed.
End Unit.
