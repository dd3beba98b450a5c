(** Row-by-row filtering of a whole plane. *)
From Coq Require Import ZArith List Bool Lia.
From Verif Require Import CBase MemModel HdrModel MemProofs SaoModel SaoSpec SaoProofs SaoProofsB SaoProofsC.
Import ListNotations.
Open Scope Z_scope.

Lemma kernel_correct ty src p stride w h gdepth depth av off up dst :
  0 <= ty <= 4 -> 1 <= w -> 2 <= h -> w <= stride -> 0 <= depth -> corners av ->
  block_becomes w h p stride dst (sao_block ty src p stride w h gdepth depth av off up dst)
    (if ty =? 4 then band_result src p stride gdepth depth off
     else edge_result src p stride w h depth av off (fst (direction ty)) (snd (direction ty))).
Proof.
  intros T W H St Dp C. unfold sao_block, direction.
  assert (ty = 0 \/ ty = 1 \/ ty = 2 \/ ty = 3 \/ ty = 4) as [-> | [-> | [-> | [-> | ->]]]] by lia; cbn [Z.eqb fst snd Pos.eqb].
  - apply eo_0_correct; lia || assumption.
  - apply eo_90_correct; lia || assumption.
  - apply eo_135_correct; lia || assumption.
  - apply eo_45_correct; lia || assumption.
  - apply bo_correct; lia.
Qed.

Lemma copy_lines_spec src base stride w y0 y1 dst x y :
  0 <= w <= stride -> 0 <= x < w ->
  copy_lines src base stride w y0 y1 dst (base + y * stride + x) =
  if (y0 <=? y) && (y <? y1) then src (base + y * stride + x) else dst (base + y * stride + x).
Proof.
  intros Hw Hx. unfold copy_lines. destruct (Z.le_gt_cases y0 y1) as [Le|Gt].
  - apply (floop_inv (fun Y m => m (base + y * stride + x) = if (y0 <=? y) && (y <? Y) then src (base + y * stride + x) else dst (base + y * stride + x))); [exact Le|..].
    { replace ((y0 <=? y) && (y <? y0)) with false; [reflexivity|]. symmetry. destruct (Z.leb_spec y0 y), (Z.ltb_spec y y0); try reflexivity; lia. }
    intros Y m HY Hm.
    assert (E : floop 0 w (fun x dst => upd dst (base + Y * stride + x) (src (base + Y * stride + x))) m (base + y * stride + x)
                = if (y =? Y) && (x <? w) then src (base + y * stride + x) else m (base + y * stride + x)).
    { apply (floop_inv (fun X t => t (base + y * stride + x) = if (y =? Y) && (x <? X) then src (base + y * stride + x) else m (base + y * stride + x))); [lia|..].
      { replace (x <? 0) with false by (symmetry; apply Z.ltb_ge; lia). rewrite andb_false_r. reflexivity. }
      intros X t HX Ht. unfold upd. destruct (Z.eqb_spec (base + y * stride + x) (base + Y * stride + X)) as [E|N].
      - assert (y = Y) by nia. subst y. assert (x = X) by lia. subst x. rewrite Z.eqb_refl.
        replace (X <? X + 1) with true by (symmetry; apply Z.ltb_lt; lia). reflexivity.
      - rewrite Ht. destruct (Z.eqb_spec y Y) as [->|]; [|reflexivity]. cbn [andb].
        assert (x <> X) by (intros ->; apply N; reflexivity).
        destruct (Z.ltb_spec x X), (Z.ltb_spec x (X + 1)); try reflexivity; lia. }
    rewrite E, Hm. replace (x <? w) with true by (symmetry; apply Z.ltb_lt; lia). rewrite andb_true_r.
    destruct (Z.eqb_spec y Y) as [->|].
    + replace ((y0 <=? Y) && (Y <? Y + 1)) with true; [reflexivity|]. symmetry. apply andb_true_iff. split; [apply Z.leb_le|apply Z.ltb_lt]; lia.
    + destruct (Z.leb_spec y0 y), (Z.ltb_spec y Y), (Z.ltb_spec y (Y + 1)); try reflexivity; cbn; try reflexivity; lia.
  - rewrite floop_none by lia. replace ((y0 <=? y) && (y <? y1)) with false; [reflexivity|].
    symmetry. destruct (Z.leb_spec y0 y), (Z.ltb_spec y y1); try reflexivity; lia.
Qed.

Section Plane.
  Variables (g : geom) (par : Z -> Z -> option (Z * (Z -> Z))) (up : mem).
  Hypothesis Sz : sizes_ok (q_lv g) (q_pw g) (q_ph g) (q_wl g) (q_hl g).
  Hypothesis Cr : q_cross g = true.
  Hypothesis Gd : q_gdepth g = q_depth g.
  Hypothesis Dp : 5 <= q_depth g.
  Hypothesis St : plane_w g <= q_stride g.
  Hypothesis Ty : forall lx ly ty off, par lx ly = Some (ty, off) -> 0 <= ty <= 4.
  Let W := plane_w g. Let H := plane_h g. Let side := lcu_lines g. Let wl := q_wl g. Let hl := q_hl g.
  Let pos x y := q_base g + y * q_stride g + x.
  Definition cut (n N i : Z) : Z := if i <=? 0 then 0 else if i <? n then i * side - 4 else N.

  Lemma side_cases : side = 8 \/ side = 16 \/ side = 32 \/ side = 64.
  Proof.
    unfold side, lcu_lines. destruct Sz as (S1 & _).
    assert (q_lv g = 4 \/ q_lv g = 5 \/ q_lv g = 6) as [E | [E | E]] by lia; rewrite E; destruct (q_luma g); vm_compute; auto.
  Qed.
  Lemma geo_facts : 1 <= wl /\ 1 <= hl /\ (wl - 1) * side + 4 <= W <= wl * side /\ (hl - 1) * side + 4 <= H <= hl * side.
  Proof.
    destruct Sz as (S1 & S2 & S3 & S4 & S5 & (S6 & S6') & S7 & S7'). pose proof (grid_pos _ _ _ _ _ Sz) as [G1 G2].
    unfold W, H, side, wl, hl, plane_w, plane_h, lcu_lines. split; [exact G1|]. split; [exact G2|]. rewrite !shr1.
    clear - S1 S2 S3 S4 S5 S6 S6' S7 S7'. generalize dependent (q_pw g). generalize dependent (q_ph g). generalize dependent (q_wl g). generalize dependent (q_hl g). intros hl' wl' S7 S7' ph' S3 S5 S7'' pw'. intros.
    assert (q_lv g = 4 \/ q_lv g = 5 \/ q_lv g = 6) as [E | [E | E]] by lia; rewrite E in *;
      (destruct (q_luma g);
       [ change (Z.shiftl 1 4) with 16 in *; change (Z.shiftl 1 5) with 32 in *; change (Z.shiftl 1 6) with 64 in *
       | change (Z.shiftl 1 (4 - 1)) with 8 in *; change (Z.shiftl 1 (5 - 1)) with 16 in *; change (Z.shiftl 1 (6 - 1)) with 32 in * ];
       change (2 ^ 4) with 16 in *; change (2 ^ 5) with 32 in *; change (2 ^ 6) with 64 in *; Z.div_mod_to_equations; lia).
  Qed.
  Lemma region_plane lx ly : 0 <= lx < wl -> 0 <= ly < hl ->
    let r := sao_region (q_lv g) (q_pw g) (q_ph g) (q_wl g) (q_hl g) true (q_cross g) (q_sl g) lx ly in
    (if q_luma g then (g_x r, g_y r, g_w r, g_h r) else (c_x r, c_y r, c_w r, c_h r)) =
      (cut wl W lx, cut hl H ly, cut wl W (lx + 1) - cut wl W lx, cut hl H (ly + 1) - cut hl H ly)
    /\ g_av r = Avail (negb (ly =? 0)) (ly <? hl - 1) (negb (lx =? 0)) (lx <? wl - 1)
         (negb (ly =? 0) && negb (lx =? 0)) (negb (ly =? 0) && (lx <? wl - 1)) ((ly <? hl - 1) && negb (lx =? 0)) ((ly <? hl - 1) && (lx <? wl - 1)).
  Proof.
    intros Hx Hy r. unfold r. rewrite (region_eq _ _ _ _ _ _ _ Sz lx ly Hx Hy). rewrite Cr.
    cbn [g_x g_y g_w g_h c_x c_y c_w c_h g_av].
    assert (T : forall i, rtop (q_lv g) true (q_sl g) lx i = negb (i =? 0)) by reflexivity.
    assert (Dn : rdown (q_lv g) (q_hl g) true (q_sl g) lx ly = (ly <? hl - 1)).
    { unfold rdown. rewrite T. fold hl. replace (negb (ly + 1 =? 0)) with true by (symmetry; apply negb_true_iff, Z.eqb_neq; lia). destruct (ly <? hl - 1); reflexivity. }
    rewrite Dn, T. split; [|reflexivity].
    unfold x1, y1, x0, y0. rewrite !T. fold wl hl.
    assert (Es : forall k, k = (if q_luma g then 1 else 2) -> 2 ^ q_lv g / k = side /\ q_pw g / k = W /\ q_ph g / k = H).
    { intros k ->. unfold side, W, H, lcu_lines, plane_w, plane_h. rewrite !shr1. destruct Sz as (S1 & _).
      destruct (q_luma g); rewrite !Z.shiftl_mul_pow2, ?Z.div_1_r by lia; split; try (split; reflexivity); [lia|].
      replace (q_lv g) with (q_lv g - 1 + 1) at 1 by lia. rewrite Z.pow_add_r by lia. change (2 ^ 1) with 2. rewrite Z.div_mul by lia. lia. }
    assert (K : (if q_luma g
      then (lx * (2 ^ q_lv g / 1) - (if lx =? 0 then 0 else 4), ly * (2 ^ q_lv g / 1) - (if negb (ly =? 0) then 4 else 0),
            (if lx <? wl - 1 then (lx + 1) * (2 ^ q_lv g / 1) - 4 else q_pw g / 1) - (lx * (2 ^ q_lv g / 1) - (if lx =? 0 then 0 else 4)),
            (if ly <? hl - 1 then (ly + 1) * (2 ^ q_lv g / 1) - (if negb (ly + 1 =? 0) then 4 else 0) else q_ph g / 1) - (ly * (2 ^ q_lv g / 1) - (if negb (ly =? 0) then 4 else 0)))
      else (lx * (2 ^ q_lv g / 2) - (if lx =? 0 then 0 else 4), ly * (2 ^ q_lv g / 2) - (if negb (ly =? 0) then 4 else 0),
            (if lx <? wl - 1 then (lx + 1) * (2 ^ q_lv g / 2) - 4 else q_pw g / 2) - (lx * (2 ^ q_lv g / 2) - (if lx =? 0 then 0 else 4)),
            (if ly <? hl - 1 then (ly + 1) * (2 ^ q_lv g / 2) - (if negb (ly + 1 =? 0) then 4 else 0) else q_ph g / 2) - (ly * (2 ^ q_lv g / 2) - (if negb (ly =? 0) then 4 else 0))))
      = (lx * side - (if lx =? 0 then 0 else 4), ly * side - (if ly =? 0 then 0 else 4),
         (if lx <? wl - 1 then (lx + 1) * side - 4 else W) - (lx * side - (if lx =? 0 then 0 else 4)),
         (if ly <? hl - 1 then (ly + 1) * side - 4 else H) - (ly * side - (if ly =? 0 then 0 else 4)))).
    { replace (ly + 1 =? 0) with false by (symmetry; apply Z.eqb_neq; lia). cbn [negb].
      replace (if negb (ly =? 0) then 4 else 0) with (if ly =? 0 then 0 else 4) by (destruct (ly =? 0); reflexivity).
      destruct (q_luma g).
      - destruct (Es 1 eq_refl) as (-> & -> & ->). reflexivity.
      - destruct (Es 2 eq_refl) as (-> & -> & ->). reflexivity. }
    rewrite K. clear K Es Dn T.
    assert (C0 : forall n N i, 0 <= i < n -> cut n N i = i * side - (if i =? 0 then 0 else 4)).
    { intros n N i Hi. unfold cut. destruct (Z.leb_spec i 0), (Z.eqb_spec i 0); try lia. destruct (Z.ltb_spec i n); lia. }
    assert (C1 : forall n N i, 0 <= i < n -> cut n N (i + 1) = if i <? n - 1 then (i + 1) * side - 4 else N).
    { intros n N i Hi. unfold cut. destruct (Z.leb_spec (i + 1) 0), (Z.ltb_spec (i + 1) n), (Z.ltb_spec i (n - 1)); try lia. }
    rewrite !C0, !C1 by assumption. reflexivity.
  Qed.

  Lemma cut_0 n N : cut n N 0 = 0.
  Proof. reflexivity. Qed.
  Lemma cut_n n N : 1 <= n -> cut n N n = N.
  Proof. intros E. unfold cut. rewrite Z.ltb_irrefl. destruct (Z.leb_spec n 0); [lia|reflexivity]. Qed.
  Lemma cut_step n N i : (n - 1) * side + 4 <= N <= n * side -> 0 <= i < n -> cut n N i + 2 <= cut n N (i + 1).
  Proof.
    intros E Hi. unfold cut. pose proof side_cases as Sc. clearbody side.
    destruct (Z.leb_spec i 0), (Z.leb_spec (i + 1) 0), (Z.ltb_spec i n), (Z.ltb_spec (i + 1) n); try lia;
      destruct Sc as [-> | [-> | [-> | ->]]]; lia.
  Qed.
  Lemma cut_owner n N i x : (n - 1) * side + 4 <= N <= n * side -> 0 <= i < n -> cut n N i <= x < cut n N (i + 1) -> owner side n x = i.
  Proof.
    intros E Hi. unfold cut, owner. pose proof side_cases as Sc. clearbody side.
    destruct (Z.leb_spec i 0), (Z.leb_spec (i + 1) 0), (Z.ltb_spec i n), (Z.ltb_spec (i + 1) n); try lia;
      destruct Sc as [-> | [-> | [-> | ->]]]; intros; Z.div_mod_to_equations; lia.
  Qed.
  Lemma cut_in n N i : 1 <= n -> (n - 1) * side + 4 <= N <= n * side -> 0 <= i <= n -> 0 <= cut n N i <= N.
  Proof.
    intros Hn E Hi. unfold cut. pose proof side_cases as Sc. clearbody side.
    destruct (Z.leb_spec i 0), (Z.ltb_spec i n); try lia;
      destruct Sc as [-> | [-> | [-> | ->]]]; lia.
  Qed.
  Lemma pos_inj x y x' y' : 0 <= x < W -> 0 <= x' < W -> pos x y = pos x' y' -> x = x' /\ y = y'.
  Proof. unfold pos, W in *. intros Hx Hx' E. assert (y = y') by nia. subst. split; [lia|reflexivity]. Qed.

  (** The temporary frame around a row of regions holds [D]. *)
  Definition near (ly : Z) (D tmp : mem) : Prop :=
    forall x y, 0 <= x < W -> 0 <= y < H -> cut hl H ly - 1 <= y <= cut hl H (ly + 1) -> tmp (pos x y) = D (pos x y).

  Lemma usable_inside lx ly x y : 0 <= lx < wl -> 0 <= ly < hl ->
    let w := cut wl W (lx + 1) - cut wl W lx in let h := cut hl H (ly + 1) - cut hl H ly in
    let av := g_av (sao_region (q_lv g) (q_pw g) (q_ph g) (q_wl g) (q_hl g) true (q_cross g) (q_sl g) lx ly) in
    -1 <= x <= w -> -1 <= y <= h ->
    usable av w h x y = inside W H (cut wl W lx + x) (cut hl H ly + y).
  Proof.
    intros Hx Hy w h av. destruct (region_plane lx ly Hx Hy) as [_ E]. unfold av. rewrite E. clear av E. intros Rx Ry.
    destruct geo_facts as (G1 & G2 & G3 & G4).
    pose proof (cut_step wl W lx G3 Hx) as Cx. pose proof (cut_step hl H ly G4 Hy) as Cy.
    pose proof (cut_in wl W (lx + 1) G1 G3 ltac:(lia)) as Bx. pose proof (cut_in hl H (ly + 1) G2 G4 ltac:(lia)) as By.
    assert (X0 : (lx =? 0) = (cut wl W lx =? 0)).
    { unfold cut. pose proof side_cases. destruct (Z.eqb_spec lx 0) as [->|]; [reflexivity|].
      destruct (Z.leb_spec lx 0); [lia|]. destruct (Z.ltb_spec lx wl); [|lia]. symmetry. apply Z.eqb_neq. nia. }
    assert (Y0 : (ly =? 0) = (cut hl H ly =? 0)).
    { unfold cut. pose proof side_cases. destruct (Z.eqb_spec ly 0) as [->|]; [reflexivity|].
      destruct (Z.leb_spec ly 0); [lia|]. destruct (Z.ltb_spec ly hl); [|lia]. symmetry. apply Z.eqb_neq. nia. }
    assert (X1 : (lx <? wl - 1) = (cut wl W (lx + 1) <? W)).
    { unfold cut. pose proof side_cases. destruct (Z.leb_spec (lx + 1) 0); [lia|]. destruct (Z.ltb_spec (lx + 1) wl), (Z.ltb_spec lx (wl - 1)); try lia. }
    assert (Y1 : (ly <? hl - 1) = (cut hl H (ly + 1) <? H)).
    { unfold cut. pose proof side_cases. destruct (Z.leb_spec (ly + 1) 0); [lia|]. destruct (Z.ltb_spec (ly + 1) hl), (Z.ltb_spec ly (hl - 1)); try lia. }
    rewrite X0, Y0, X1, Y1. unfold w, h in *. clear w h X0 Y0 X1 Y1.
    pose proof (cut_in wl W lx G1 G3 ltac:(lia)) as Ax. pose proof (cut_in hl H ly G2 G4 ltac:(lia)) as Ay.
    set (a := cut wl W lx) in *. set (b := cut wl W (lx + 1)) in *. set (c := cut hl H ly) in *. set (d := cut hl H (ly + 1)) in *.
    clearbody a b c d W H. clear - Rx Ry Cx Cy Bx By Ax Ay.
    unfold usable, inside. cbn [a_T a_D a_L a_R a_TL a_TR a_DL a_DR].
    assert (Ex : ((0 <=? a + x) && (a + x <? W)) = if x <? 0 then negb (a =? 0) else if x <? b - a then true else b <? W).
    { destruct (Z.ltb_spec x 0), (Z.ltb_spec x (b - a)), (Z.leb_spec 0 (a + x)), (Z.ltb_spec (a + x) W), (Z.eqb_spec a 0), (Z.ltb_spec b W); cbn; try reflexivity; lia. }
    assert (Ey : ((0 <=? c + y) && (c + y <? H)) = if y <? 0 then negb (c =? 0) else if y <? d - c then true else d <? H).
    { destruct (Z.ltb_spec y 0), (Z.ltb_spec y (d - c)), (Z.leb_spec 0 (c + y)), (Z.ltb_spec (c + y) H), (Z.eqb_spec c 0), (Z.ltb_spec d H); cbn; try reflexivity; lia. }
    rewrite <- andb_assoc, Ex, Ey. clear Ex Ey. destruct (x <? 0), (x <? b - a), (y <? 0), (y <? d - c); rewrite ?andb_true_r, ?andb_true_l; try reflexivity; apply andb_comm.
  Qed.

  Definition F (D : mem) (x y : Z) : Z := plane_offset W H side wl hl (q_depth g) par (fun x y => D (pos x y)) x y.

  Lemma one_block D tmp dec lx ly : 0 <= lx < wl -> 0 <= ly < hl -> near ly D tmp ->
    let dec' := match par lx ly with
     | None => dec
     | Some (ty, off) =>
         let r := sao_region (q_lv g) (q_pw g) (q_ph g) (q_wl g) (q_hl g) true (q_cross g) (q_sl g) lx ly in
         let '(x, y, w, h) := if q_luma g then (g_x r, g_y r, g_w r, g_h r) else (c_x r, c_y r, c_w r, c_h r) in
         sao_block ty tmp (q_base g + (y * q_stride g + x)) (q_stride g) w h (q_gdepth g) (q_depth g) (g_av r) off up dec
     end in
    (forall x y, cut wl W lx <= x < cut wl W (lx + 1) -> cut hl H ly <= y < cut hl H (ly + 1) -> dec (pos x y) = D (pos x y)) ->
    (forall x y, 0 <= x < W -> 0 <= y < H ->
      dec' (pos x y) = if (cut wl W lx <=? x) && (x <? cut wl W (lx + 1)) && (cut hl H ly <=? y) && (y <? cut hl H (ly + 1)) then F D x y else dec (pos x y)).
  Proof.
    intros Hx Hy N dec' Hd x y Rx Ry. destruct geo_facts as (G1 & G2 & G3 & G4).
    pose proof (cut_step wl W lx G3 Hx) as Cx. pose proof (cut_step hl H ly G4 Hy) as Cy.
    pose proof (cut_in wl W (lx + 1) G1 G3 ltac:(lia)) as Bx. pose proof (cut_in hl H (ly + 1) G2 G4 ltac:(lia)) as By.
    pose proof (cut_in wl W lx G1 G3 ltac:(lia)) as Ax. pose proof (cut_in hl H ly G2 G4 ltac:(lia)) as Ay.
    destruct (par lx ly) as [[ty off]|] eqn:EP.
    2:{ unfold dec'. destruct (_ && _) eqn:C; [|reflexivity]. rewrite !andb_true_iff, !Z.leb_le, !Z.ltb_lt in C. destruct C as [[[C1 C2] C3] C4].
        rewrite Hd by lia. unfold F, plane_offset. rewrite (cut_owner wl W lx x G3 Hx), (cut_owner hl H ly y G4 Hy), EP by lia. reflexivity. }
    pose proof (region_plane lx ly Hx Hy) as [E1 E2]. cbv zeta in E1.
    assert (DE : dec' = sao_block ty tmp (q_base g + (cut hl H ly * q_stride g + cut wl W lx)) (q_stride g)
       (cut wl W (lx + 1) - cut wl W lx) (cut hl H (ly + 1) - cut hl H ly) (q_gdepth g) (q_depth g)
       (g_av (sao_region (q_lv g) (q_pw g) (q_ph g) (q_wl g) (q_hl g) true (q_cross g) (q_sl g) lx ly)) off up dec).
    { unfold dec'. cbv zeta. rewrite E1. reflexivity. }
    clearbody dec'.
    set (r := sao_region _ _ _ _ _ _ _ _ _ _) in *.
    set (a := cut wl W lx) in *. set (b := cut wl W (lx + 1)) in *. set (c := cut hl H ly) in *. set (d := cut hl H (ly + 1)) in *.
    assert (Co : corners (g_av r)) by (rewrite E2; unfold corners; cbn; auto).
    assert (Wst : W <= q_stride g) by exact St.
    pose proof (kernel_correct ty tmp (q_base g + (c * q_stride g + a)) (q_stride g) (b - a) (d - c) (q_gdepth g) (q_depth g) (g_av r) off up dec
                  (Ty _ _ _ _ EP) ltac:(lia) ltac:(lia) ltac:(lia) ltac:(lia) Co) as [K1 K2].
    rewrite <- DE in K1, K2.
    assert (PE : forall u v, q_base g + (c * q_stride g + a) + v * q_stride g + u = pos (a + u) (c + v)) by (intros; unfold pos; lia).
    match goal with |- _ = (if ?cc then _ else _) => destruct cc eqn:C end.
    - rewrite !andb_true_iff, !Z.leb_le, !Z.ltb_lt in C. destruct C as [[[C1 C2] C3] C4].
      specialize (K1 (x - a) (y - c) ltac:(lia) ltac:(lia)). rewrite PE in K1.
      replace (a + (x - a)) with x in K1 by lia. replace (c + (y - c)) with y in K1 by lia. rewrite K1.
      unfold F, plane_offset. rewrite (cut_owner wl W lx x G3 Hx), (cut_owner hl H ly y G4 Hy), EP by (split; assumption).
      assert (SA : forall u v, 0 <= x + u < W -> 0 <= y + v < H -> -1 <= v <= 1 ->
                sample tmp (q_base g + (c * q_stride g + a)) (q_stride g) (x - a + u) (y - c + v) = D (pos (x + u) (y + v))).
      { intros u v U V V1. unfold sample. rewrite PE. replace (a + (x - a + u)) with (x + u) by lia. replace (c + (y - c + v)) with (y + v) by lia.
        apply N; try assumption. fold c d. lia. }
      pose proof (SA 0 0 ltac:(lia) ltac:(lia) ltac:(lia)) as S0. rewrite !Z.add_0_r in S0.
      destruct (Z.eqb_spec ty 4) as [T4|T4].
      + unfold band_result. rewrite S0, Gd, Z.shiftr_div_pow2 by lia. reflexivity.
      + unfold edge_result. assert (Dir : -1 <= fst (direction ty) <= 1 /\ -1 <= snd (direction ty) <= 1).
        { unfold direction. destruct (ty =? 0), (ty =? 1), (ty =? 2); cbn; lia. }
        destruct (direction ty) as [dx dy]. cbn [fst snd] in *.
        pose proof (usable_inside lx ly (x - a + dx) (y - c + dy) Hx Hy) as U1. cbv zeta in U1. fold r a b c d in U1. rewrite U1 by lia. clear U1.
        pose proof (usable_inside lx ly (x - a - dx) (y - c - dy) Hx Hy) as U1. cbv zeta in U1. fold r a b c d in U1. rewrite U1 by lia. clear U1.
        replace (a + (x - a + dx)) with (x + dx) by lia. replace (c + (y - c + dy)) with (y + dy) by lia.
        replace (a + (x - a - dx)) with (x - dx) by lia. replace (c + (y - c - dy)) with (y - dy) by lia.
        destruct (inside W H (x + dx) (y + dy) && inside W H (x - dx) (y - dy)) eqn:I.
        * unfold inside in I. rewrite !andb_true_iff, !Z.leb_le, !Z.ltb_lt in I.
          rewrite S0. rewrite (SA dx dy) by lia. pose proof (SA (- dx) (- dy) ltac:(lia) ltac:(lia) ltac:(lia)) as S2.
          rewrite !Z.add_opp_r in S2. rewrite S2. reflexivity.
        * apply Hd; lia.
    - apply K2. intros u v U V. rewrite PE. intros Q. apply pos_inj in Q; [|lia|lia]. destruct Q as [-> ->].
      assert (true = false); [|discriminate]. rewrite <- C. symmetry. rewrite !andb_true_iff, !Z.leb_le, !Z.ltb_lt. lia.
  Qed.

  Lemma one_row D tmp dec ly : 0 <= ly < hl ->
    (forall x y, 0 <= x < W -> 0 <= y < H -> cut hl H ly <= y <= cut hl H (ly + 1) -> dec (pos x y) = D (pos x y)) ->
    (forall x, 0 < ly -> 0 <= x < W -> tmp (pos x (cut hl H ly - 1)) = D (pos x (cut hl H ly - 1))) ->
    let st := sao_lcurow g par up ly (tmp, dec) in
    (forall x y, 0 <= x < W -> 0 <= y < H -> fst st (pos x y) = if (ly * side - 4 <=? y) && (y <? (ly + 1) * side) then dec (pos x y) else tmp (pos x y)) /\
    (forall x y, 0 <= x < W -> 0 <= y < H ->
      snd st (pos x y) = if (cut hl H ly <=? y) && (y <? cut hl H (ly + 1)) then F D x y else dec (pos x y)).
  Proof.
    intros Hy Hd Ht st. destruct geo_facts as (G1 & G2 & G3 & G4).
    pose proof (cut_step hl H ly G4 Hy) as Cy.
    pose proof (cut_in hl H (ly + 1) G2 G4 ltac:(lia)) as By. pose proof (cut_in hl H ly G2 G4 ltac:(lia)) as Ay.
    unfold st, sao_lcurow. cbv zeta. cbn [fst snd].
    assert (Sh : forall i, Z.shiftl i (if q_luma g then q_lv g else q_lv g - 1) = i * side).
    { intros i. unfold side, lcu_lines. destruct Sz as (S1 & _). destruct (q_luma g); rewrite !Z.shiftl_mul_pow2 by lia; lia. }
    rewrite !Sh. fold H W.
    set (tmp' := copy_lines dec (q_base g) (q_stride g) W _ _ tmp).
    assert (T : forall x y, 0 <= x < W -> 0 <= y < H -> tmp' (pos x y) = if (ly * side - 4 <=? y) && (y <? (ly + 1) * side) then dec (pos x y) else tmp (pos x y)).
    { intros x y Rx Ry. unfold tmp', pos. rewrite copy_lines_spec; [|unfold W in *; lia|exact Rx].
      replace ((ly * side + -4 <=? y) && (y <? ly * side + -4 + (Z.min H ((ly + 1) * side) - (ly * side + -4))))
        with ((ly * side - 4 <=? y) && (y <? (ly + 1) * side)); [reflexivity|].
      destruct (Z.leb_spec (ly * side - 4) y), (Z.leb_spec (ly * side + -4) y), (Z.ltb_spec y ((ly + 1) * side)), (Z.ltb_spec y (ly * side + -4 + (Z.min H ((ly + 1) * side) - (ly * side + -4)))); try reflexivity; lia. }
    split; [exact T|].
    assert (N : near ly D tmp').
    { intros x y Rx Ry R. rewrite T by assumption. pose proof side_cases as Sc.
      destruct (_ && _) eqn:C.
      - rewrite andb_true_iff, Z.leb_le, Z.ltb_lt in C. destruct (Z.eq_dec y (cut hl H ly - 1)) as [E|E]; [|apply Hd; lia].
        exfalso. unfold cut in E. destruct (Z.leb_spec ly 0); [lia|]. destruct (Z.ltb_spec ly hl); lia.
      - apply andb_false_iff in C. rewrite Z.leb_gt, Z.ltb_ge in C.
        assert (Q : y = cut hl H ly - 1 /\ 0 < ly).
        { unfold cut in *. revert R C Ry. clear - Hy Sc G4.
          destruct (Z.leb_spec ly 0), (Z.ltb_spec ly hl), (Z.leb_spec (ly + 1) 0), (Z.ltb_spec (ly + 1) hl); try lia; intros; clearbody side; destruct Sc as [-> | [-> | [-> | ->]]]; lia. }
        destruct Q as [-> Q]. apply Ht; assumption. }
    intros x y Rx Ry.
    assert (K : forall n (m : mem), 0 <= n <= wl ->
      (forall x y, 0 <= x < W -> 0 <= y < H -> m (pos x y) = if (x <? cut wl W n) && (cut hl H ly <=? y) && (y <? cut hl H (ly + 1)) then F D x y else dec (pos x y)) ->
      n < wl ->
      (forall x y, 0 <= x < W -> 0 <= y < H -> (fun lx dec =>
     match par lx ly with
     | None => dec
     | Some (ty, off) =>
         let r := sao_region (q_lv g) (q_pw g) (q_ph g) (q_wl g) (q_hl g) true (q_cross g) (q_sl g) lx ly in
         let '(x, y, w, h) := if q_luma g then (g_x r, g_y r, g_w r, g_h r) else (c_x r, c_y r, c_w r, c_h r) in
         sao_block ty tmp' (q_base g + (y * q_stride g + x)) (q_stride g) w h (q_gdepth g) (q_depth g) (g_av r) off up dec
     end) n m (pos x y) = if (x <? cut wl W (n + 1)) && (cut hl H ly <=? y) && (y <? cut hl H (ly + 1)) then F D x y else dec (pos x y))).
    { clear x y Rx Ry. intros n m Rn Hm Ln x y Rx Ry. pose proof (cut_step wl W n G3 ltac:(lia)) as Cx.
      pose proof (cut_in wl W n G1 G3 ltac:(lia)) as Bx. pose proof (cut_in wl W (n + 1) G1 G3 ltac:(lia)) as Ax.
      cbv beta. pose proof (one_block D tmp' m n ly ltac:(lia) Hy N) as O. cbv zeta in O. cbv zeta. rewrite O; [|clear O|exact Rx|exact Ry].
      - rewrite (Hm x y Rx Ry).
        destruct (Z.leb_spec (cut wl W n) x), (Z.ltb_spec x (cut wl W (n + 1))), (Z.ltb_spec x (cut wl W n)), (Z.leb_spec (cut hl H ly) y), (Z.ltb_spec y (cut hl H (ly + 1))); cbn [andb]; try reflexivity; lia.
      - intros x' y' Rx' Ry'. rewrite Hm by lia. replace (x' <? cut wl W n) with false by (symmetry; apply Z.ltb_ge; lia). cbn [andb]. apply Hd; lia. }
    assert (I0 : forall x y, 0 <= x < W -> 0 <= y < H -> dec (pos x y) = if (x <? cut wl W 0) && (cut hl H ly <=? y) && (y <? cut hl H (ly + 1)) then F D x y else dec (pos x y)).
    { intros x' y' Rx' Ry'. rewrite cut_0. replace (x' <? 0) with false by (symmetry; apply Z.ltb_ge; lia). reflexivity. }
    assert (W0 : 0 <= wl) by lia.
    pose proof (floop_inv (fun n m => 0 <= n <= wl /\ forall x y, 0 <= x < W -> 0 <= y < H -> m (pos x y) = if (x <? cut wl W n) && (cut hl H ly <=? y) && (y <? cut hl H (ly + 1)) then F D x y else dec (pos x y)) 0 wl
      (fun lx dec =>
     match par lx ly with
     | None => dec
     | Some (ty, off) =>
         let r := sao_region (q_lv g) (q_pw g) (q_ph g) (q_wl g) (q_hl g) true (q_cross g) (q_sl g) lx ly in
         let '(x, y, w, h) := if q_luma g then (g_x r, g_y r, g_w r, g_h r) else (c_x r, c_y r, c_w r, c_h r) in
         sao_block ty tmp' (q_base g + (y * q_stride g + x)) (q_stride g) w h (q_gdepth g) (q_depth g) (g_av r) off up dec
     end) dec W0 (conj (conj (Z.le_refl 0) W0) I0)) as L.
    destruct L as [_ L].
    { intros n m Rn [_ Hm]. split; [lia|]. intros x' y' Rx' Ry'. apply (K n m); try assumption; lia. }
    rewrite cut_n in L by exact G1. specialize (L x y Rx Ry). replace (x <? W) with true in L by (symmetry; apply Z.ltb_lt; lia). exact L.
  Qed.

  Variables (rec : Z -> mem -> mem) (dec0 : mem).
  Hypothesis Loc : row_local W H side (q_base g) (q_stride g) rec.
  Let Dn (n : Z) : mem := deblocked rec dec0 (Z.to_nat n).
  Let DF : mem := Dn hl.

  Lemma Dn_succ n : 0 <= n -> Dn (n + 1) = rec n (Dn n).
  Proof. intros E. unfold Dn. replace (Z.to_nat (n + 1)) with (S (Z.to_nat n)) by lia. cbn [deblocked]. rewrite Z2Nat.id by lia. reflexivity. Qed.
  Lemma Dn_final m x y : 0 <= m <= hl -> 0 <= x < W -> 0 <= y < H -> (m = hl \/ y < m * side - 3) -> Dn m (pos x y) = DF (pos x y).
  Proof.
    intros Hm Rx Ry [->|L]; [reflexivity|]. unfold DF.
    replace hl with (m + Z.of_nat (Z.to_nat (hl - m))) by lia. induction (Z.to_nat (hl - m)) as [|k IH]; [rewrite Z.add_0_r; reflexivity|].
    rewrite Nat2Z.inj_succ. replace (m + Z.succ (Z.of_nat k)) with (m + Z.of_nat k + 1) by lia. rewrite Dn_succ by lia.
    unfold pos. rewrite (proj1 Loc); [exact IH|exact Rx|exact Ry|]. pose proof side_cases. nia.
  Qed.

  Definition J (m n : Z) (st : mem * mem) : Prop :=
    (forall x y, 0 <= x < W -> 0 <= y < H -> snd st (pos x y) = if y <? cut hl H n then F DF x y else Dn m (pos x y)) /\
    (0 < n < hl -> forall x, 0 <= x < W -> fst st (pos x (cut hl H n - 1)) = DF (pos x (cut hl H n - 1))).

  Lemma cut_small n m : 0 <= n <= m -> m < hl -> cut hl H n <= Z.max 0 (m * side - 4).
  Proof. intros A B. unfold cut. pose proof side_cases. destruct (Z.leb_spec n 0), (Z.ltb_spec n hl); nia. Qed.

  Lemma J_rec m n st : 0 <= n <= m -> m < hl -> J m n st -> J (m + 1) n (fst st, rec m (snd st)).
  Proof.
    intros A B [J1 J2]. split; [|exact J2]. cbn [fst snd]. intros x y Rx Ry. rewrite Dn_succ by lia. pose proof (cut_small n m A B) as C.
    destruct (Z.lt_ge_cases y (m * side - 4)) as [L|G].
    - unfold pos. rewrite !(proj1 Loc) by lia. apply J1; assumption.
    - replace (y <? cut hl H n) with false by (symmetry; apply Z.ltb_ge; lia).
      apply (proj2 Loc); try assumption. intros x' y' Rx' Ry' G'. fold (pos x' y'). rewrite J1 by assumption.
      replace (y' <? cut hl H n) with false by (symmetry; apply Z.ltb_ge; lia). reflexivity.
  Qed.

  Lemma J_sao m n st : 0 <= n < m -> m <= hl -> J m n st -> J m (n + 1) (sao_lcurow g par up n st).
  Proof.
    intros A B [J1 J2]. destruct st as [tmp dec]. cbn [fst snd] in *. destruct geo_facts as (G1 & G2 & G3 & G4).
    pose proof (cut_step hl H n G4 ltac:(lia)) as Cy. pose proof (cut_in hl H n G2 G4 ltac:(lia)) as An. pose proof (cut_in hl H (n + 1) G2 G4 ltac:(lia)) as Bn.
    assert (CE : n + 1 < hl -> cut hl H (n + 1) = (n + 1) * side - 4).
    { intros. unfold cut. destruct (Z.leb_spec (n + 1) 0), (Z.ltb_spec (n + 1) hl); lia. }
    assert (CN : cut hl H n <= Z.max 0 (n * side - 4) /\ n * side - 4 <= cut hl H n).
    { unfold cut. pose proof side_cases. destruct (Z.leb_spec n 0), (Z.ltb_spec n hl); nia. }
    pose proof side_cases as Sc.
    assert (Hd : forall x y, 0 <= x < W -> 0 <= y < H -> cut hl H n <= y <= cut hl H (n + 1) -> dec (pos x y) = DF (pos x y)).
    { intros x y Rx Ry R. rewrite J1 by assumption. replace (y <? cut hl H n) with false by (symmetry; apply Z.ltb_ge; lia).
      apply Dn_final; try assumption; [lia|]. destruct (Z.eq_dec (n + 1) hl) as [E|E]; [left; lia|].
      destruct (Z.eq_dec m hl) as [E'|E']; [left; exact E'|]. right. rewrite CE in R by lia. nia. }
    destruct (one_row DF tmp dec n ltac:(lia) Hd) as [O1 O2]; [intros x P Rx; apply J2; [lia|exact Rx]|].
    split.
    - intros x y Rx Ry. rewrite O2 by assumption. rewrite J1 by assumption.
      destruct (Z.leb_spec (cut hl H n) y), (Z.ltb_spec y (cut hl H (n + 1))), (Z.ltb_spec y (cut hl H n)); cbn [andb]; try reflexivity; lia.
    - intros Rn x Rx. rewrite O1 by lia. rewrite CE by lia.
      replace (n * side - 4 <=? (n + 1) * side - 4 - 1) with true by (symmetry; apply Z.leb_le; nia).
      replace ((n + 1) * side - 4 - 1 <? (n + 1) * side) with true by (symmetry; apply Z.ltb_lt; lia). cbn [andb].
      rewrite CE in Cy, Bn by lia. apply Hd; [exact Rx|lia|]. rewrite CE by lia. lia.
  Qed.

  Lemma J_0 tmp0 : J 0 0 (tmp0, dec0).
  Proof.
    split; [|intros; lia]. intros x y Rx Ry. cbn [snd]. rewrite cut_0. replace (y <? 0) with false by (symmetry; apply Z.ltb_ge; lia). reflexivity.
  Qed.
  Lemma J_end st : J hl hl st -> forall x y, 0 <= x < W -> 0 <= y < H -> snd st (pos x y) = F DF x y.
  Proof.
    intros [J1 _] x y Rx Ry. rewrite J1 by assumption. destruct geo_facts as (G1 & G2 & _). rewrite cut_n by exact G2.
    replace (y <? H) with true by (symmetry; apply Z.ltb_lt; lia). reflexivity.
  Qed.

  Lemma serial_correct tmp0 x y : 0 <= x < W -> 0 <= y < H ->
    snd (rows_serial g par up rec (tmp0, dec0)) (pos x y) = F DF x y.
  Proof.
    intros Rx Ry. apply J_end; try assumption. unfold rows_serial. fold hl.
    destruct geo_facts as (G1 & G2 & _).
    apply (floop_inv (fun i st => J i i st)); [lia|apply J_0|].
    intros i st Hi Hj. apply J_sao; [lia|lia|]. apply J_rec; [lia|lia|exact Hj].
  Qed.
  Lemma delayed_correct tmp0 x y : 2 <= hl -> 0 <= x < W -> 0 <= y < H ->
    snd (rows_delayed g par up rec (tmp0, dec0)) (pos x y) = F DF x y.
  Proof.
    intros H2 Rx Ry. apply J_end; try assumption. unfold rows_delayed. fold hl.
    pose proof (floop_inv (fun i st => J i (if i =? hl then hl else Z.max 0 (i - 1)) st) 0 hl (fun ly st =>
      let st := (fst st, rec ly (snd st)) in
      if negb (ly =? 0) then
        let st := sao_lcurow g par up (ly - 1) st in
        if ly =? hl - 1 then sao_lcurow g par up ly st else st
      else st) (tmp0, dec0) ltac:(lia)) as K.
    cbv beta in K. rewrite Z.eqb_refl in K. apply K.
    - replace (0 =? hl) with false by (symmetry; apply Z.eqb_neq; lia). apply J_0.
    - clear K. intros i st Hi Hj. cbv zeta. replace (i =? hl) with false in Hj by (symmetry; apply Z.eqb_neq; lia).
      destruct (Z.eqb_spec i 0) as [E|N]; cbn [negb].
      + subst i. replace (0 + 1 =? hl) with false by (symmetry; apply Z.eqb_neq; lia). apply J_rec; [lia|lia|exact Hj].
      + rewrite Z.max_r in Hj by lia.
        assert (K : J (i + 1) i (sao_lcurow g par up (i - 1) (fst st, rec i (snd st)))).
        { replace i with (i - 1 + 1) at 2 by lia. apply J_sao; [lia|lia|]. apply J_rec; [lia|lia|exact Hj]. }
        destruct (Z.eqb_spec i (hl - 1)) as [E|E].
        * replace (i + 1 =? hl) with true by (symmetry; apply Z.eqb_eq; lia). replace hl with (i + 1) at 1 by lia. apply J_sao; [lia|lia|exact K].
        * replace (i + 1 =? hl) with false by (symmetry; apply Z.eqb_neq; lia). replace (Z.max 0 (i + 1 - 1)) with i by lia. exact K.
  Qed.
End Plane.

(** One row of LCUs: nothing is filtered. *)
Lemma delayed_one_row g par up rec st : q_hl g = 1 -> rows_delayed g par up rec st = (fst st, rec 0 (snd st)).
Proof. intros E. unfold rows_delayed. rewrite E. reflexivity. Qed.
