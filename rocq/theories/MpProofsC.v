(** Proofs: writing rectangles, and the predictor. *)
From Coq Require Import ZArith List Bool Lia.
From Verif Require Import CBase CBaseProofs MemModel SaoModel SaoProofs QpModel UtilModel MvModel MvSpec MvProofs HdrModel SynModel CuModel NbModel NbSpec NbProofs MpModel MpSpec MpProofs MpProofsB.
Import ListNotations.
Open Scope Z_scope.

(** ** Writing a rectangle *)
Definition inrect (x y w h X Y : Z) : Prop := x <= X < x + w /\ y <= Y < y + h.
Definition inrectb (x y w h X Y : Z) : bool := (x <=? X) && (X <? x + w) && (y <=? Y) && (Y <? y + h).
Lemma inrectb_iff x y w h X Y : inrectb x y w h X Y = true <-> inrect x y w h X Y.
Proof. unfold inrectb, inrect. rewrite !andb_true_iff, !Z.leb_le, !Z.ltb_lt. lia. Qed.
Lemma cell_inj wu a b c d : 0 <= a < wu -> 0 <= c < wu -> b * wu + a = d * wu + c -> a = c /\ b = d.
Proof. intros Ha Hc H. assert (b = d) by nia. subst. lia. Qed.
Definition line (wu x y : Z) (f : cell -> cell) (c : Z) (g : grid) : grid := updf g (y * wu + x + c) (f (g (y * wu + x + c))).
Lemma line_ok wu x y w f g X Y : (forall k, f (f k) = f k) -> 0 <= x -> x + w <= wu -> 0 <= X < wu ->
  floop 0 w (line wu x y f) g (Y * wu + X) = if inrectb x y w 1 X Y then f (g (Y * wu + X)) else g (Y * wu + X).
Proof.
  intros Hf Hx Hw HX. destruct (Z.leb_spec w 0) as [Hw0|Hw0].
  - rewrite floop_none by lia. destruct (inrectb x y w 1 X Y) eqn:B; [apply inrectb_iff in B; unfold inrect in B; lia|reflexivity].
  - pose proof (floop_inv (fun c (s : grid) => s (Y * wu + X) = if inrectb x y c 1 X Y then f (g (Y * wu + X)) else g (Y * wu + X)) 0 w (line wu x y f) g) as K. apply K; clear K; [lia| |].
    + destruct (inrectb x y 0 1 X Y) eqn:B; [apply inrectb_iff in B; unfold inrect in B; lia|reflexivity].
    + intros c s Hc IH. unfold line, updf. destruct (Z.eqb_spec (Y * wu + X) (y * wu + x + c)) as [Q|Q].
      * assert (X = x + c /\ Y = y) as [-> ->] by (apply (cell_inj wu); [lia|lia|lia]).
        replace (y * wu + x + c) with (y * wu + (x + c)) by lia. rewrite IH.
        replace (inrectb x y (c + 1) 1 (x + c) y) with true by (symmetry; apply inrectb_iff; unfold inrect; lia).
        destruct (inrectb x y c 1 (x + c) y); [apply Hf|reflexivity].
      * rewrite IH. assert (Eb : inrectb x y (c + 1) 1 X Y = inrectb x y c 1 X Y); [|rewrite Eb; reflexivity].
        apply eq_true_iff_eq. rewrite !inrectb_iff. unfold inrect. split; intros H; [|lia]. assert (~ (X = x + c /\ Y = y)) by (intros [-> ->]; apply Q; ring). lia.
Qed.
Lemma paint_ok wu x y w h f g X Y : (forall k, f (f k) = f k) -> 0 <= x -> x + w <= wu -> 0 <= X < wu ->
  paint wu x y w h f g (Y * wu + X) = if inrectb x y w h X Y then f (g (Y * wu + X)) else g (Y * wu + X).
Proof.
  intros Hf Hx Hw HX. unfold paint. change (fun (r : Z) (g0 : Z -> cell) => floop 0 w (fun c g1 => updf g1 ((y + r) * wu + x + c) (f (g1 ((y + r) * wu + x + c)))) g0) with (fun r (g0 : grid) => floop 0 w (line wu x (y + r) f) g0).
  destruct (Z.leb_spec h 0) as [Hh|Hh].
  - rewrite floop_none by lia. destruct (inrectb x y w h X Y) eqn:B; [apply inrectb_iff in B; unfold inrect in B; lia|reflexivity].
  - pose proof (floop_inv (fun r (s : grid) => s (Y * wu + X) = if inrectb x y w r X Y then f (g (Y * wu + X)) else g (Y * wu + X)) 0 h (fun r (g0 : grid) => floop 0 w (line wu x (y + r) f) g0) g) as K. apply K; clear K; [lia| |].
    + destruct (inrectb x y w 0 X Y) eqn:B; [apply inrectb_iff in B; unfold inrect in B; lia|reflexivity].
    + intros r s Hr IH. rewrite (line_ok wu x (y + r) w f s X Y Hf Hx Hw HX), IH.
      destruct (inrectb x (y + r) w 1 X Y) eqn:B1.
      * apply inrectb_iff in B1. unfold inrect in B1. replace (inrectb x y w (r + 1) X Y) with true by (symmetry; apply inrectb_iff; unfold inrect; lia).
        destruct (inrectb x y w r X Y); [apply Hf|reflexivity].
      * assert (Eb : inrectb x y w (r + 1) X Y = inrectb x y w r X Y); [|rewrite Eb; reflexivity].
        apply eq_true_iff_eq. rewrite !inrectb_iff. unfold inrect. split; intros H; [|lia].
        assert (~ inrect x (y + r) w 1 X Y) by (intros H'; apply inrectb_iff in H'; congruence). unfold inrect in *. lia.
Qed.

(** ** The predictor *)
Lemma component_ok a b c : is_i16 a -> is_i16 b -> is_i16 c -> derive_median_mv a b c = component a b c.
Proof.
  intros Ha Hb Hc. pose proof (median_mv_ok a b c Ha Hb Hc) as (M1 & M2 & M3 & M4). set (r := derive_median_mv a b c) in *. clearbody r.
  assert (O : forall u v, (u * v <? 0) = true <-> opposite u v) by (clear; intros u v; rewrite Z.ltb_lt; unfold opposite; destruct (Z.lt_trichotomy u 0) as [|[|]], (Z.lt_trichotomy v 0) as [|[|]]; split; intros; nia).
  assert (NO : forall u v, (u * v <? 0) = false <-> ~ opposite u v) by (intros u v; rewrite <- O; destruct (u * v <? 0); split; congruence).
  assert (Sy : forall u v, opposite u v <-> opposite v u) by (unfold opposite; intros; tauto).
  unfold component. cbv zeta. unfold outvoted in *.
  destruct ((a * b <? 0) && (a * c <? 0)) eqn:E1; [apply andb_true_iff in E1; rewrite !O in E1; apply M1; exact E1|].
  destruct ((b * a <? 0) && (b * c <? 0)) eqn:E2; [apply andb_true_iff in E2; rewrite !O in E2; rewrite (M2 E2); unfold avg0; rewrite (Z.add_comm a c); reflexivity|].
  destruct ((c * a <? 0) && (c * b <? 0)) eqn:E3; [apply andb_true_iff in E3; rewrite !O in E3; apply M3; exact E3|].
  assert (N1 : ~ (opposite a b /\ opposite a c)) by (rewrite <- !O; intros [X Y]; rewrite X, Y in E1; discriminate).
  assert (N2 : ~ (opposite b a /\ opposite b c)) by (rewrite <- !O; intros [X Y]; rewrite X, Y in E2; discriminate).
  assert (N3 : ~ (opposite c a /\ opposite c b)) by (rewrite <- !O; intros [X Y]; rewrite X, Y in E3; discriminate).
  destruct (M4 N1 N2 N3) as (M5 & M6 & M7). unfold closest in *.
  assert (Ac : Z.abs (a - c) = Z.abs (c - a)) by lia. rewrite Ac.
  destruct (Z.leb_spec (Z.abs (a - b)) (Z.abs (b - c))) as [L1|L1], (Z.leb_spec (Z.abs (a - b)) (Z.abs (c - a))) as [L2|L2]; cbn [andb].
  - apply M5. split; assumption.
  - destruct (Z.leb_spec (Z.abs (b - c)) (Z.abs (c - a))) as [L3|L3]; [exfalso; clear - L1 L2 L3; lia|].
    destruct M7 as [_ M7]; [clear - L1 L2; lia|clear - L1 L2 L3; lia|]. rewrite M7. unfold avg0. rewrite (Z.add_comm c a). reflexivity.
  - destruct (Z.leb_spec (Z.abs (b - c)) (Z.abs (c - a))) as [L3|L3]; [apply M6; clear - L1 L2 L3; lia|]. exfalso. clear - L1 L2 L3. lia.
  - destruct (Z.leb_spec (Z.abs (b - c)) (Z.abs (c - a))) as [L3|L3]; [apply M6; clear - L1 L2 L3; lia|].
    destruct M7 as [_ M7]; [clear - L1 L2; lia|clear - L1 L2 L3; lia|]. rewrite M7. unfold avg0. rewrite (Z.add_comm c a). reflexivity.
Qed.
Lemma default_val mv dst src r : is_i16 mv -> 0 <= dst -> 1 <= src -> scale_mv_default mv dst src = Done r -> r = sat16 (round14 (mv * (dst * src))).
Proof.
  intros Hm Hd Hs H. destruct (Z_le_gt_dec (Z.abs mv * dst * src + 8192) 2147483647) as [L|L].
  - destruct (default_all mv dst src Hm Hd Hs L) as (r' & E & _ & V & _). rewrite E in H. assert (Er : r = r') by congruence. rewrite Er, V. f_equal. f_equal. ring.
  - exfalso. unfold scale_mv_default, mul3 in H. destruct (sign3 mv) eqn:S3; cbn [bindo] in H; try discriminate. rewrite c_abs_eq in H. unfold int32 in H.
    destruct ((-2147483648 <=? Z.abs mv * dst) && (Z.abs mv * dst <=? 2147483647)); cbn [bindo] in H; [|discriminate].
    destruct ((-2147483648 <=? Z.abs mv * dst * src) && (Z.abs mv * dst * src <=? 2147483647)); cbn [bindo] in H; [|discriminate].
    unfold HALF_MULTI in H. destruct ((-2147483648 <=? Z.abs mv * dst * src + 8192) && (Z.abs mv * dst * src + 8192 <=? 2147483647)) eqn:I3; cbn [bindo] in H; [|discriminate].
    apply andb_true_iff in I3. rewrite !Z.leb_le in I3. clear - I3 L. lia.
Qed.
Lemma scale_both_val m dst src r : i16v m -> 0 <= dst -> 1 <= src -> scale_both m dst src = Done r ->
  r = (sat16 (round14 (fst m * (dst * src))), sat16 (round14 (snd m * (dst * src)))).
Proof.
  intros [Hx Hy] Hd Hs H. unfold scale_both in H. destruct (scale_mv_default (snd m) dst src) as [y| | |] eqn:Ey; cbn [bindo] in H; try discriminate.
  destruct (scale_mv_default (fst m) dst src) as [x| | |] eqn:Ex; cbn [bindo] in H; try discriminate.
  apply default_val in Ey; [|assumption..]. apply default_val in Ex; [|assumption..]. subst. congruence.
Qed.

(** What a neighbour offers, from its record. *)
Definition offer (E : env) (ref : Z) (bwd : bool) (n : nbr) : option (Z * mvec) :=
  if recheck E ref (nb_ref bwd n) =? -1 then None else Some (nb_ref bwd n, nb_mv bwd n).
Lemma recheck_fits E ref r : r <> -1 -> recheck E ref r = if fits E ref r then r else -1.
Proof.
  intros H. unfold recheck, fits, P_SLICE, F_SLICE, S_SLICE. cbv zeta. destruct (Z.eqb_spec r (-1)); [congruence|]. destruct (e_type E =? 5); cbn [negb andb]; [reflexivity|].
  destruct (e_bkg E), ((e_type E =? 1) || (e_type E =? 4)), (ref =? e_nref E - 1), (r =? e_nref E - 1); cbn; reflexivity.
Qed.
Lemma offer_spatial E Q g bwd ref x y : offer E ref bwd (spatial E Q g x y) = candidate E Q g bwd ref x y.
Proof.
  unfold offer, candidate, spatial, avail, motion_of, slice_of. rewrite !Z.shiftr_div_pow2 by lia. change (2 ^ 1) with 2.
  destruct (Z.ltb_spec y 0), (Z.leb_spec (e_hu E) y), (Z.ltb_spec x 0), (Z.leb_spec (e_wu E) x), (Z.leb_spec 0 x), (Z.ltb_spec x (e_wu E)), (Z.leb_spec 0 y), (Z.ltb_spec y (e_hu E)); try lia; cbn [orb andb]; try (destruct bwd; reflexivity).
  destruct (q_sl Q (y / 2 * e_wscu E + x / 2) =? q_cur Q); cbn [negb]; [|destruct bwd; reflexivity].
  set (k := g (y * e_wu E + x)). assert (R : nb_ref bwd (Nbr true (k_dir k) (k_r0 k) (k_r1 k) (k_m0 k) (k_m1 k)) = if bwd then k_r1 k else k_r0 k) by (destruct bwd; reflexivity).
  assert (M : nb_mv bwd (Nbr true (k_dir k) (k_r0 k) (k_r1 k) (k_m0 k) (k_m1 k)) = if bwd then k_m1 k else k_m0 k) by (destruct bwd; reflexivity).
  cbv zeta. rewrite R, M. set (r := if bwd then k_r1 k else k_r0 k). clearbody r. destruct (Z.eqb_spec r (-1)) as [-> |N]; [reflexivity|].
  rewrite recheck_fits by exact N. destruct (fits E ref r); [|reflexivity]. destruct (Z.eqb_spec r (-1)); [congruence|reflexivity].
Qed.
Lemma avail_spatial E Q g x y : n_av (spatial E Q g x y) = avail E Q x y.
Proof.
  unfold spatial, avail, slice_of. rewrite !Z.shiftr_div_pow2 by lia. change (2 ^ 1) with 2.
  destruct (Z.ltb_spec y 0), (Z.leb_spec (e_hu E) y), (Z.ltb_spec x 0), (Z.leb_spec (e_wu E) x), (Z.leb_spec 0 x), (Z.ltb_spec x (e_wu E)), (Z.leb_spec 0 y), (Z.ltb_spec y (e_hu E)); try lia; cbn [orb andb]; try reflexivity.
  destruct (q_sl Q (y / 2 * e_wscu E + x / 2) =? q_cur Q); reflexivity.
Qed.

(** All stored vectors are 16 bit, all references are references of the picture. *)
Definition nbr_ok (E : env) (n : nbr) : Prop := i16v (n_m0 n) /\ i16v (n_m1 n) /\ -1 <= n_r0 n < e_nref E /\ -1 <= n_r1 n < e_nref E.
Lemma zero_i16 : i16v (0, 0).
Proof. unfold i16v, is_i16. cbn. lia. Qed.
Lemma spatial_ok E Q g x y : 0 <= e_nref E -> grid_ok E g -> nbr_ok E (spatial E Q g x y).
Proof.
  intros Hn G. unfold spatial, nbr_ok. destruct ((y <? 0) || _ || _ || _ || _); cbn [n_m0 n_m1 n_r0 n_r1]; [|apply G]. repeat split; cbn; unfold is_i16; lia.
Qed.
Definition vec_of (E : env) (bwd : bool) (ref : Z) (o : option (Z * mvec)) : mvec := match o with Some c => scaled E bwd ref c | None => (0, 0) end.
Lemma vec_i16 E bwd ref o : i16v (vec_of E bwd ref o).
Proof. destruct o as [[r m]|]; cbn [vec_of]; [unfold scaled; split; cbn [fst snd]; apply sat16_range|exact zero_i16]. Qed.
Definition nb_scaled (E : env) (bwd : bool) (ref : Z) (n : nbr) : outcome mvec :=
  if e_type E =? 2 then
    bindo (arr4 (e_dist E) (if bwd then 0 else 1)) (fun mult => bindo (arr4 (e_scale E) (if bwd then 0 else 1)) (fun src => scale_b mult src (recheck E ref (nb_ref bwd n)) (nb_mv bwd n)))
  else bindo (arr4 (e_dist E) ref) (fun mult => scale_p E mult (recheck E ref (nb_ref bwd n)) (nb_mv bwd n)).
Lemma nb_scaled_val E bwd ref n r : env_ok E -> nbr_ok E n -> 0 <= ref < e_nref E -> nb_scaled E bwd ref n = Done r -> r = vec_of E bwd ref (offer E ref bwd n).
Proof.
  intros Ok (M0 & M1 & R0 & R1) Hr H. destruct Ok as [Ht Hn Hi Hb Hd _ _ _].
  assert (Rn : -1 <= nb_ref bwd n < e_nref E) by (destruct bwd; assumption). assert (Mn : i16v (nb_mv bwd n)) by (destruct bwd; assumption).
  unfold offer. set (q := recheck E ref (nb_ref bwd n)) in *.
  assert (Q : q = -1 \/ q = nb_ref bwd n /\ q <> -1).
  { unfold q. destruct (Z.eqb_spec (nb_ref bwd n) (-1)) as [Z0|Z0]; [left; rewrite Z0; reflexivity|]. rewrite recheck_fits by exact Z0. destruct (fits E ref (nb_ref bwd n)); auto. }
  unfold nb_scaled in H. fold q in H. unfold arr4 in H. clearbody q.
  destruct (Z.eqb_spec (e_type E) 2) as [B|B].
  - assert (N2 : e_nref E = 2) by auto.
    replace ((0 <=? (if bwd then 0 else 1)) && ((if bwd then 0 else 1) <? 4)) with true in H by (destruct bwd; reflexivity). cbn [bindo] in H. unfold scale_b in H.
    destruct Q as [-> |[-> Nq]]; [cbn in H |- *; congruence|].
    destruct (Z.leb_spec 0 (nb_ref bwd n)); [|lia]. destruct (Z.eqb_spec (nb_ref bwd n) (-1)); [lia|]. cbn [vec_of scaled]. rewrite (proj2 (Z.eqb_eq (e_type E) 2) B).
    apply scale_both_val in H; [exact H|exact Mn| |]; destruct (Hd (if bwd then 0 else 1)); try (destruct bwd; lia); lia.
  - replace ((0 <=? ref) && (ref <? 4)) with true in H by (symmetry; apply andb_true_iff; rewrite Z.leb_le, Z.ltb_lt; lia). cbn [bindo] in H. unfold scale_p in H.
    destruct Q as [-> |[-> Nq]]; [cbn in H |- *; congruence|].
    destruct (Z.leb_spec 0 (nb_ref bwd n)); [|lia]. destruct (Z.eqb_spec (nb_ref bwd n) (-1)); [lia|]. cbn [vec_of scaled]. rewrite (proj2 (Z.eqb_neq (e_type E) 2) B). unfold arr4 in H.
    replace ((0 <=? nb_ref bwd n) && (nb_ref bwd n <? 4)) with true in H by (symmetry; apply andb_true_iff; rewrite Z.leb_le, Z.ltb_lt; lia). cbn [bindo] in H.
    apply scale_both_val in H; [exact H|exact Mn| |]; [destruct (Hd ref Hr); lia|destruct (Hd (nb_ref bwd n)); lia].
Qed.
Definition shape_of (pf : pref) : list Z := match pf with NoPref => [0] | PrefLeft => [1; 4] | PrefAbove => [3] | PrefRight => [2] end.
Lemma choose_ok E bwd ref (l u c : nbr) shape pf a b d : env_ok E -> nbr_ok E l -> nbr_ok E u -> nbr_ok E c -> 0 <= ref < e_nref E -> In shape (shape_of pf) ->
  a = vec_of E bwd ref (offer E ref bwd l) -> b = vec_of E bwd ref (offer E ref bwd u) -> d = vec_of E bwd ref (offer E ref bwd c) ->
  (let ty := pred_type ref (recheck E ref (nb_ref bwd l)) (recheck E ref (nb_ref bwd u)) (recheck E ref (nb_ref bwd c)) shape in
   if ty =? 0 then (derive_median_mv (fst a) (fst b) (fst d), derive_median_mv (snd a) (snd b) (snd d)) else if ty =? 1 then a else if ty =? 2 then b else d)
  = predict (scaled E bwd ref) pf ref (offer E ref bwd l) (offer E ref bwd u) (offer E ref bwd c).
Proof.
  intros Ok Hl Hu Hc Hr Hs Ea Eb Ed. cbv zeta.
  assert (Ia : i16v a) by (rewrite Ea; apply vec_i16). assert (Ib : i16v b) by (rewrite Eb; apply vec_i16). assert (Id : i16v d) by (rewrite Ed; apply vec_i16).
  assert (K : forall n, nbr_ok E n -> (recheck E ref (nb_ref bwd n) = -1 /\ offer E ref bwd n = None) \/
     (recheck E ref (nb_ref bwd n) <> -1 /\ offer E ref bwd n = Some (recheck E ref (nb_ref bwd n), nb_mv bwd n))).
  { intros n On. unfold offer. destruct (Z.eqb_spec (recheck E ref (nb_ref bwd n)) (-1)) as [Z0|Z0]; [left; auto|right]. split; [exact Z0|].
    destruct (Z.eq_dec (nb_ref bwd n) (-1)) as [Z1|Z1]; [rewrite Z1 in Z0; exfalso; apply Z0; reflexivity|]. rewrite recheck_fits in Z0 |- * by exact Z1. destruct (fits E ref (nb_ref bwd n)); [reflexivity|congruence]. }
  pose proof (K l Hl) as Kl. pose proof (K u Hu) as Ku. pose proof (K c Hc) as Kc. clear K.
  set (rl := recheck E ref (nb_ref bwd l)) in *. set (ru := recheck E ref (nb_ref bwd u)) in *. set (rc := recheck E ref (nb_ref bwd c)) in *. clearbody rl ru rc.
  assert (Med : (derive_median_mv (fst a) (fst b) (fst d), derive_median_mv (snd a) (snd b) (snd d)) = (component (fst a) (fst b) (fst d), component (snd a) (snd b) (snd d))).
  { destruct Ia, Ib, Id. rewrite !component_ok by assumption. reflexivity. }
  rewrite Med. clear Med Ia Ib Id. unfold predict, pred_type.
  destruct Kl as [[-> Ol]|[Nl Ol]], Ku as [[-> Ou]|[Nu Ou]], Kc as [[-> Oc]|[Nc Oc]]; rewrite Ol, Ou, Oc in *; cbn [vec_of] in *; subst a b d;
    rewrite ?(proj2 (Z.eqb_neq rl (-1)) Nl), ?(proj2 (Z.eqb_neq ru (-1)) Nu), ?(proj2 (Z.eqb_neq rc (-1)) Nc); cbn [Z.eqb Pos.eqb andb negb]; try reflexivity.
  all: assert (Rn : (-1 =? ref) = false) by (apply Z.eqb_neq; lia).
  all: destruct pf; cbn [shape_of In] in Hs.
  all: destruct Hs as [Hs|Hs]; [|try contradiction; try destruct Hs as [Hs|Hs]; try contradiction]; rewrite <- Hs; cbn [Z.eqb Pos.eqb orb]; rewrite ?Rn; try reflexivity.
  all: match goal with |- (if (if ?b then _ else _) =? 0 then _ else _) = _ => first [destruct b; reflexivity | replace b with false by (symmetry; exact Rn); reflexivity] end.
Qed.
Lemma mvp_val E Q g px py bwd ref bsx shape x y w pf seen (r : mvec) : env_ok E -> grid_ok E g -> 0 <= ref < e_nref E -> In shape (shape_of pf) ->
  px = 4 * x -> py = 4 * y -> bsx = 4 * w ->
  tr_column E Q (x + w - 1) y = Done (if seen (x + w) (y - 1) : bool then x + w else -1) ->
  get_mvp E Q g px py bwd ref bsx shape = Done r -> r = predictor E Q g seen bwd ref x y w pf.
Proof.
  intros Ok G Hr Hs -> -> -> T H. unfold get_mvp, mvp_neighbors in H.
  assert (S2 : forall v, Z.shiftr (4 * v) 2 = v) by (intros v; rewrite Z.shiftr_div_pow2 by lia; change (2 ^ 2) with 4; rewrite Z.mul_comm; apply Z.div_mul; lia).
  rewrite !S2 in H. replace (w + x - 1) with (x + w - 1) in H by lia. rewrite T in H. cbn [bindo] in H.
  assert (Hn : 0 <= e_nref E) by (destruct Ok; lia).
  set (xr := if seen (x + w) (y - 1) then x + w else -1) in *.
  set (l := spatial E Q g (x - 1) y) in *. set (u := spatial E Q g x (y - 1)) in *.
  set (c := if n_av (spatial E Q g xr (y - 1)) then spatial E Q g xr (y - 1) else spatial E Q g (x - 1) (y - 1)) in *.
  assert (Oc : offer E ref bwd c = if seen (x + w) (y - 1) && avail E Q (x + w) (y - 1) then candidate E Q g bwd ref (x + w) (y - 1) else candidate E Q g bwd ref (x - 1) (y - 1)).
  { unfold c. rewrite avail_spatial. unfold xr. destruct (seen (x + w) (y - 1)); cbn [andb]; [destruct (avail E Q (x + w) (y - 1)); apply offer_spatial|].
    replace (avail E Q (-1) (y - 1)) with false by reflexivity. apply offer_spatial. }
  assert (Nl : nbr_ok E l) by (apply spatial_ok; assumption). assert (Nu : nbr_ok E u) by (apply spatial_ok; assumption).
  assert (Nc : nbr_ok E c) by (unfold c; destruct (n_av _); apply spatial_ok; assumption).
  unfold predictor. cbv zeta. rewrite <- Oc. rewrite <- (offer_spatial E Q g bwd ref (x - 1) y), <- (offer_spatial E Q g bwd ref x (y - 1)). fold l u. clearbody l u c. clear Oc T G.
  assert (exists a b d, nb_scaled E bwd ref l = Done a /\ nb_scaled E bwd ref u = Done b /\ nb_scaled E bwd ref c = Done d /\
     (let ty := pred_type ref (recheck E ref (nb_ref bwd l)) (recheck E ref (nb_ref bwd u)) (recheck E ref (nb_ref bwd c)) shape in
      if ty =? 0 then (derive_median_mv (fst a) (fst b) (fst d), derive_median_mv (snd a) (snd b) (snd d)) else if ty =? 1 then a else if ty =? 2 then b else d) = r) as (a & b & d & Ha & Hb & Hd & E1).
  { unfold nb_scaled. change B_SLICE with 2 in H. destruct (e_type E =? 2).
    - destruct (arr4 (e_dist E) (if bwd then 0 else 1)) as [m| | |]; cbn [bindo] in *; try discriminate.
      destruct (arr4 (e_scale E) (if bwd then 0 else 1)) as [s| | |]; cbn [bindo] in *; try discriminate.
      destruct (scale_b m s _ (nb_mv bwd l)) as [a| | |]; cbn [bindo] in *; try discriminate. destruct (scale_b m s _ (nb_mv bwd u)) as [b| | |]; cbn [bindo] in *; try discriminate.
      destruct (scale_b m s _ (nb_mv bwd c)) as [d| | |]; cbn [bindo] in *; try discriminate. exists a, b, d. repeat (split; [reflexivity|]). cbv zeta. congruence.
    - destruct (arr4 (e_dist E) ref) as [m| | |]; cbn [bindo] in *; try discriminate.
      destruct (scale_p E m _ (nb_mv bwd l)) as [a| | |]; cbn [bindo] in *; try discriminate. destruct (scale_p E m _ (nb_mv bwd u)) as [b| | |]; cbn [bindo] in *; try discriminate.
      destruct (scale_p E m _ (nb_mv bwd c)) as [d| | |]; cbn [bindo] in *; try discriminate. exists a, b, d. repeat (split; [reflexivity|]). cbv zeta. congruence. }
  rewrite <- E1. apply choose_ok; try assumption; apply nb_scaled_val; assumption.
Qed.
