(** Proofs: when the predictor is defined; the motion kept for later pictures. *)
From Coq Require Import ZArith List Bool Lia.
From Verif Require Import CBase CBaseProofs MemModel SaoModel SaoProofs QpModel UtilModel MvModel MvSpec MvProofs HdrModel SynModel CuModel NbModel NbSpec NbProofs MpModel MpSpec MpProofs MpProofsB MpProofsC MpProofsD MpProofsE.
Import ListNotations.
Open Scope Z_scope.

Lemma shape_pref x y w h : In (pu_shape (4 * w) (4 * h) (4 * x) (4 * y)) (shape_of (preference (x, y, w, h))).
Proof.
  unfold pu_shape, preference.
  replace (4 * w <? 4 * h) with (w <? h) by (destruct (Z.ltb_spec w h), (Z.ltb_spec (4 * w) (4 * h)); lia). replace (4 * h <? 4 * w) with (h <? w) by (destruct (Z.ltb_spec h w), (Z.ltb_spec (4 * h) (4 * w)); lia).
  replace (4 * x =? 0) with (x =? 0) by (destruct (Z.eqb_spec x 0), (Z.eqb_spec (4 * x) 0); lia). replace (4 * y =? 0) with (y =? 0) by (destruct (Z.eqb_spec y 0), (Z.eqb_spec (4 * y) 0); lia).
  destruct (w <? h), (h <? w), (x =? 0), (y =? 0); cbn; auto.
Qed.
Lemma scale_both_done m dst src : i16v m -> 0 <= dst -> 1 <= src -> Z.abs (fst m) * (dst * src) + 8192 <= 2147483647 -> Z.abs (snd m) * (dst * src) + 8192 <= 2147483647 -> exists r, scale_both m dst src = Done r.
Proof.
  intros [Hx Hy] Hd Hs Lx Ly. unfold scale_both. destruct (default_all (snd m) dst src Hy Hd Hs ltac:(rewrite <- Z.mul_assoc; exact Ly)) as (b & -> & _). destruct (default_all (fst m) dst src Hx Hd Hs ltac:(rewrite <- Z.mul_assoc; exact Lx)) as (a & -> & _). cbn [bindo]. eauto.
Qed.
Lemma nb_scaled_done E bwd ref n : env_ok E -> nbr_ok E n -> 0 <= ref < e_nref E -> (forall c, offer E ref bwd n = Some c -> in_range E bwd ref c) -> exists r, nb_scaled E bwd ref n = Done r.
Proof.
  intros Ok (M0 & M1 & R0 & R1) Hr Hc. destruct Ok as [Ht Hn Hi Hb Hd _ _ _].
  assert (Rn : -1 <= nb_ref bwd n < e_nref E) by (destruct bwd; assumption). assert (Mn : i16v (nb_mv bwd n)) by (destruct bwd; assumption).
  unfold offer in Hc. set (q := recheck E ref (nb_ref bwd n)) in *.
  assert (Q : q = -1 \/ q = nb_ref bwd n /\ q <> -1).
  { unfold q. destruct (Z.eqb_spec (nb_ref bwd n) (-1)) as [Z0|Z0]; [left; rewrite Z0; reflexivity|]. rewrite recheck_fits by exact Z0. destruct (fits E ref (nb_ref bwd n)); auto. }
  unfold nb_scaled. fold q. unfold arr4. clearbody q.
  destruct (Z.eqb_spec (e_type E) 2) as [B|B].
  - assert (N2 : e_nref E = 2) by auto.
    replace ((0 <=? (if bwd then 0 else 1)) && ((if bwd then 0 else 1) <? 4)) with true by (destruct bwd; reflexivity). cbn [bindo]. unfold scale_b.
    destruct Q as [-> |[-> Nq]]; [eexists; reflexivity|].
    destruct (Z.leb_spec 0 (nb_ref bwd n)); [|lia]. destruct (Z.eqb_spec (nb_ref bwd n) (-1)); [lia|]. specialize (Hc _ eq_refl). unfold in_range in Hc. rewrite (proj2 (Z.eqb_eq (e_type E) 2) B) in Hc. destruct Hc as [C1 C2].
    apply scale_both_done; try assumption; destruct (Hd (if bwd then 0 else 1)); try (destruct bwd; lia); lia.
  - replace ((0 <=? ref) && (ref <? 4)) with true by (symmetry; apply andb_true_iff; rewrite Z.leb_le, Z.ltb_lt; lia). cbn [bindo]. unfold scale_p.
    destruct Q as [-> |[-> Nq]]; [eexists; reflexivity|].
    destruct (Z.leb_spec 0 (nb_ref bwd n)); [|lia]. destruct (Z.eqb_spec (nb_ref bwd n) (-1)); [lia|]. specialize (Hc _ eq_refl). unfold in_range in Hc. rewrite (proj2 (Z.eqb_neq (e_type E) 2) B) in Hc. destruct Hc as [C1 C2]. unfold arr4.
    replace ((0 <=? nb_ref bwd n) && (nb_ref bwd n <? 4)) with true by (symmetry; apply andb_true_iff; rewrite Z.leb_le, Z.ltb_lt; lia). cbn [bindo].
    apply scale_both_done; try assumption; [destruct (Hd ref Hr); lia|destruct (Hd (nb_ref bwd n)); lia].
Qed.
Lemma mvp_done E Q g px py bwd ref bsx shape x y w xr : env_ok E -> grid_ok E g -> 0 <= ref < e_nref E ->
  px = 4 * x -> py = 4 * y -> bsx = 4 * w -> tr_column E Q (x + w - 1) y = Done xr ->
  (forall X Y c, candidate E Q g bwd ref X Y = Some c -> in_range E bwd ref c) ->
  exists r, get_mvp E Q g px py bwd ref bsx shape = Done r.
Proof.
  intros Ok G Hr -> -> -> T Hc. unfold get_mvp, mvp_neighbors. rewrite !shr4. replace (w + x - 1) with (x + w - 1) by lia. rewrite T. cbn [bindo].
  assert (Hn : 0 <= e_nref E) by (destruct Ok; lia).
  assert (N : forall X Y, exists r, nb_scaled E bwd ref (spatial E Q g X Y) = Done r).
  { intros X Y. apply nb_scaled_done; [exact Ok|apply spatial_ok; assumption|exact Hr|]. intros c. rewrite offer_spatial. apply Hc. }
  destruct (N (x - 1) y) as (a & Ha). destruct (N x (y - 1)) as (b & Hb).
  set (c := if n_av (spatial E Q g xr (y - 1)) then spatial E Q g xr (y - 1) else spatial E Q g (x - 1) (y - 1)).
  assert (Nc : exists r, nb_scaled E bwd ref c = Done r) by (unfold c; destruct (n_av _); apply N). destruct Nc as (d & Hd). clearbody c.
  unfold nb_scaled in Ha, Hb, Hd. change B_SLICE with 2. destruct (e_type E =? 2).
  - destruct (arr4 (e_dist E) (if bwd then 0 else 1)) as [m| | |]; cbn [bindo] in *; try discriminate. destruct (arr4 (e_scale E) (if bwd then 0 else 1)) as [s| | |]; cbn [bindo] in *; try discriminate.
    rewrite Ha, Hb, Hd. cbn [bindo]. eauto.
  - destruct (arr4 (e_dist E) ref) as [m| | |]; cbn [bindo] in *; try discriminate. rewrite Ha, Hb, Hd. cbn [bindo]. eauto.
Qed.
Lemma predictor_ok E Q g level ux uy ty four k x y w h bwd ref : env_ok E -> unit_at E Q level ux uy -> 0 <= ty <= 7 -> (4 <= ty -> 4 <= level) -> (four = true -> ty = 0 /\ 4 <= level) ->
  nth_error (parts four ty (2 ^ (level - 2))) k = Some (x, y, w, h) -> grid_ok E g -> 0 <= ref < e_nref E ->
  (forall X Y c, candidate E Q g bwd ref X Y = Some c -> in_range E bwd ref c) ->
  get_mvp E Q g (4 * ux + 4 * x) (4 * uy + 4 * y) bwd ref (4 * w) (pu_shape (4 * w) (4 * h) (4 * x) (4 * y)) =
  Done (predictor E Q g (before (Z.to_nat (e_lv E - 2)) (parts four ty (2 ^ (level - 2))) (2 ^ (level - 2)) ux uy k) bwd ref (ux + x) (uy + y) w (preference (x, y, w, h))).
Proof.
  intros Ok U T7 T4 Hf Hk G Hr Hc. destruct U as [Ul Ux Uy Uw Uh Ax Ay Qx Qy]. pose proof (eo_lv _ Ok) as Lv.
  assert (P : part_at (e_lv E) level ty four ux uy k x y w h) by (constructor; try assumption; unfold shape_ok; auto).
  pose proof (tr_ok (e_lv E) level ty four ux uy k x y w h E Q P eq_refl Qx Qy) as Tr.
  destruct (mvp_done E Q g (4 * ux + 4 * x) (4 * uy + 4 * y) bwd ref (4 * w) (pu_shape (4 * w) (4 * h) (4 * x) (4 * y)) (ux + x) (uy + y) w _ Ok G Hr ltac:(lia) ltac:(lia) eq_refl Tr Hc) as (r & Hm). rewrite Hm. f_equal.
  exact (mvp_val E Q g (4 * ux + 4 * x) (4 * uy + 4 * y) bwd ref (4 * w) (pu_shape (4 * w) (4 * h) (4 * x) (4 * y)) (ux + x) (uy + y) w (preference (x, y, w, h)) (bf (e_lv E) level ty four ux uy k) r Ok G Hr (shape_pref x y w h) ltac:(lia) ltac:(lia) eq_refl Tr Hm).
Qed.

(** ** Motion kept for later pictures *)
Lemma centre_mid v n : 0 <= v < n -> centre v n = middle v n.
Proof.
  intros H. unfold centre, middle. rewrite Z.shiftr_div_pow2, Z.shiftl_mul_pow2 by lia. change (2 ^ 2) with 4. rewrite Z.shiftr_div_pow2 by lia. change (2 ^ 1) with 2. set (b := v / 4 * 4). 
  destruct (Z.leb_spec n (b + 2)), (Z.ltb_spec (b + 2) n); try lia; reflexivity.
Qed.
Lemma middle_range v n : 0 <= v < n -> v / 4 * 4 <= middle v n < Z.min (v / 4 * 4 + 4) n.
Proof. intros H. unfold middle. assert (B : v / 4 * 4 <= v < v / 4 * 4 + 4) by (clear; Z.div_mod_to_equations; lia). set (b := v / 4 * 4) in *. clearbody b. cbv zeta. destruct (Z.ltb_spec (b + 2) n); [lia|]. assert (C : b <= (b + n) / 2 < n) by (clear - B H; Z.div_mod_to_equations; lia). lia. Qed.
Lemma row_ok wu hu g j mvb refb : 0 < wu -> forall X Y, 0 <= X < wu ->
  let s := floop 0 wu (fun i '(mvb, refb) => let k := g (centre j hu * wu + centre i wu) in (updf mvb (j * wu + i) (k_m0 k), updf refb (j * wu + i) (k_r0 k))) (mvb, refb) in
  (fst s (Y * wu + X), snd s (Y * wu + X)) = if Y =? j then (k_m0 (g (centre j hu * wu + centre X wu)), k_r0 (g (centre j hu * wu + centre X wu))) else (mvb (Y * wu + X), refb (Y * wu + X)).
Proof.
  intros Hw X Y HX. cbv zeta.
  assert (I : forall m, 0 <= m <= wu -> let s := floop 0 m (fun i '(mvb, refb) => let k := g (centre j hu * wu + centre i wu) in (updf mvb (j * wu + i) (k_m0 k), updf refb (j * wu + i) (k_r0 k))) (mvb, refb) in
    (fst s (Y * wu + X), snd s (Y * wu + X)) = if (Y =? j) && (X <? m) then (k_m0 (g (centre j hu * wu + centre X wu)), k_r0 (g (centre j hu * wu + centre X wu))) else (mvb (Y * wu + X), refb (Y * wu + X))).
  { intros m Hm. cbv zeta. apply (floop_inv (fun i (s : (Z -> mvec) * (Z -> Z)) => (fst s (Y * wu + X), snd s (Y * wu + X)) = if (Y =? j) && (X <? i) then (k_m0 (g (centre j hu * wu + centre X wu)), k_r0 (g (centre j hu * wu + centre X wu))) else (mvb (Y * wu + X), refb (Y * wu + X)))).
    - lia.
    - destruct (Z.ltb_spec X 0); [lia|]. rewrite andb_false_r. reflexivity.
    - intros i [a b] Hi IH. cbn [fst snd] in *. unfold updf. destruct (Z.eqb_spec (Y * wu + X) (j * wu + i)) as [Q|Q].
      + apply cell_inj in Q; [|lia|lia]. destruct Q as [-> ->]. rewrite Z.eqb_refl. destruct (Z.ltb_spec i (i + 1)); [|lia]. reflexivity.
      + rewrite IH. destruct (Z.eqb_spec Y j) as [-> |]; cbn [andb]; [|reflexivity]. assert (X <> i) by (intros ->; apply Q; reflexivity). destruct (Z.ltb_spec X i), (Z.ltb_spec X (i + 1)); try lia; reflexivity. }
  specialize (I wu ltac:(lia)). cbv zeta in I. rewrite I. destruct (Z.ltb_spec X wu); [|lia]. rewrite andb_true_r. reflexivity.
Qed.
Lemma save_ok wu hu lvl row g mvb refb : 0 < wu -> 0 <= row -> 0 <= lvl -> row * 2 ^ lvl < hu -> forall X Y, 0 <= X < wu ->
  let s := save_row wu hu lvl row g mvb refb in
  (fst s (Y * wu + X), snd s (Y * wu + X)) =
  if (row * 2 ^ lvl <=? Y) && (Y <? Z.min ((row + 1) * 2 ^ lvl) hu) then (k_m0 (g (middle Y hu * wu + middle X wu)), k_r0 (g (middle Y hu * wu + middle X wu))) else (mvb (Y * wu + X), refb (Y * wu + X)).
Proof.
  intros Hw Hr Hl Hh X Y HX. cbv zeta. unfold save_row. rewrite !Z.shiftl_mul_pow2 by lia. rewrite Z.mul_1_l. set (n := 2 ^ lvl) in *. assert (Hn : 0 < n) by (apply Z.pow_pos_nonneg; lia).
  replace ((row + 1) * n) with (row * n + n) by ring. set (y0 := row * n) in *. assert (Hy : 0 <= y0) by (unfold y0; nia). clearbody y0.
  set (e := Z.min (y0 + n) hu). assert (He : y0 <= e) by (unfold e; lia).
  apply (floop_inv (fun j (s : (Z -> mvec) * (Z -> Z)) => (fst s (Y * wu + X), snd s (Y * wu + X)) =
     if (y0 <=? Y) && (Y <? j) then (k_m0 (g (middle Y hu * wu + middle X wu)), k_r0 (g (middle Y hu * wu + middle X wu))) else (mvb (Y * wu + X), refb (Y * wu + X)))).
  - exact He.
  - cbn [fst snd]. destruct (Z.leb_spec y0 Y), (Z.ltb_spec Y y0); try lia; reflexivity.
  - intros j [a b] Hj IH. cbn [fst snd] in IH. rewrite row_ok by assumption. destruct (Z.eqb_spec Y j) as [-> |Nj].
    + destruct (Z.leb_spec y0 j); [|lia]. destruct (Z.ltb_spec j (j + 1)); [|lia]. cbn [andb]. rewrite !centre_mid by (unfold e in Hj; lia). reflexivity.
    + rewrite IH. destruct (Z.leb_spec y0 Y), (Z.ltb_spec Y j), (Z.ltb_spec Y (j + 1)); try lia; reflexivity.
Qed.
Lemma middle_row hu lvl row Y : 2 <= lvl -> 0 <= row -> row * 2 ^ lvl <= Y < Z.min ((row + 1) * 2 ^ lvl) hu -> row * 2 ^ lvl <= middle Y hu < Z.min ((row + 1) * 2 ^ lvl) hu.
Proof.
  intros Hl Hr HY. assert (P : 2 ^ lvl = 4 * 2 ^ (lvl - 2)) by (change 4 with (2 ^ 2); rewrite <- Z.pow_add_r by lia; f_equal; lia). rewrite P in *.
  assert (N : 0 < 2 ^ (lvl - 2)) by (apply Z.pow_pos_nonneg; lia). set (n := 2 ^ (lvl - 2)) in *. clearbody n.
  replace ((row + 1) * (4 * n)) with (4 * (row * n) + 4 * n) in * by ring. replace (row * (4 * n)) with (4 * (row * n)) in * by ring. assert (0 <= row * n) by nia. set (q := row * n) in *. clearbody q.
  assert (M := middle_range Y hu ltac:(lia)). assert (B : 4 * q <= Y / 4 * 4 /\ Y / 4 * 4 + 4 <= 4 * q + 4 * n) by (clear - HY; Z.div_mod_to_equations; lia). lia.
Qed.
Lemma save_row_ok wu hu lvl row g mvb refb : 0 < wu -> 0 <= row -> 2 <= lvl -> row * 2 ^ lvl < hu ->
  let s := save_row wu hu lvl row g mvb refb in
  (forall X Y, in_pic wu hu X Y -> row * 2 ^ lvl <= Y < (row + 1) * 2 ^ lvl ->
     let k := g (middle Y hu * wu + middle X wu) in fst s (Y * wu + X) = k_m0 k /\ snd s (Y * wu + X) = k_r0 k) /\
  (forall X Y, 0 <= X < wu -> Y < row * 2 ^ lvl \/ (row + 1) * 2 ^ lvl <= Y \/ hu <= Y -> fst s (Y * wu + X) = mvb (Y * wu + X) /\ snd s (Y * wu + X) = refb (Y * wu + X)) /\
  (forall X Y, in_pic wu hu X Y -> row * 2 ^ lvl <= Y < (row + 1) * 2 ^ lvl ->
     X / 4 * 4 <= middle X wu < Z.min (X / 4 * 4 + 4) wu /\ Y / 4 * 4 <= middle Y hu < Z.min (Y / 4 * 4 + 4) hu /\ row * 2 ^ lvl <= middle Y hu < (row + 1) * 2 ^ lvl).
Proof.
  intros Hw Hr Hl Hh. cbv zeta. pose proof (save_ok wu hu lvl row g mvb refb Hw Hr ltac:(lia) Hh) as A. cbv zeta in A. split; [|split].
  - intros X Y [PX PY] HY. specialize (A X Y PX). destruct (Z.leb_spec (row * 2 ^ lvl) Y); [|lia]. destruct (Z.ltb_spec Y (Z.min ((row + 1) * 2 ^ lvl) hu)); [|lia]. cbn [andb] in A. apply pair_equal_spec in A. exact A.
  - intros X Y PX HY. specialize (A X Y PX). replace ((row * 2 ^ lvl <=? Y) && (Y <? Z.min ((row + 1) * 2 ^ lvl) hu)) with false in A.
    + apply pair_equal_spec in A. exact A.
    + symmetry. destruct (Z.leb_spec (row * 2 ^ lvl) Y), (Z.ltb_spec Y (Z.min ((row + 1) * 2 ^ lvl) hu)); try reflexivity; lia.
  - intros X Y [PX PY] HY. split; [apply middle_range; exact PX|]. split; [apply middle_range; exact PY|]. pose proof (middle_row hu lvl row Y Hl Hr ltac:(lia)). lia.
Qed.
