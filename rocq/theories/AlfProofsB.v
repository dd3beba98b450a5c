(** Adaptive loop filter on a whole plane, row by row, and the chain of the in-loop filters. *)
From Coq Require Import ZArith List Bool Lia.
From Verif Require Import CBase MemModel HdrModel MemProofs SaoModel SaoSpec SaoProofs SaoProofsB SaoProofsC SaoProofsD AlfModel AlfSpec AlfProofs.
Import ListNotations.
Open Scope Z_scope.

Lemma pad_line_spec pix stride w n (m : mem) x y : 0 <= n -> 1 <= w -> w + 2 * n <= stride -> - n <= x < w + n ->
  pad_line pix w n m (pix + y * stride + x) =
  if y =? 0 then m (pix + clamp 0 (w - 1) x) else m (pix + y * stride + x).
Proof.
  intros N Hw Hs X. unfold pad_line. cbv zeta.
  match goal with |- ?r _ = _ => set (res := r) end.
  assert (K : 0 <= n <= n /\ forall x y, - n <= x < w + n -> res (pix + y * stride + x) =
           if (y =? 0) && ((x <? - n + n) || ((w <=? x) && (x <? w + n))) then m (pix + clamp 0 (w - 1) x) else m (pix + y * stride + x)).
  { unfold res. apply (floop_inv (fun i (t : mem) => 0 <= i <= n /\ forall x y, - n <= x < w + n -> t (pix + y * stride + x) =
           if (y =? 0) && ((x <? - n + i) || ((w <=? x) && (x <? w + i))) then m (pix + clamp 0 (w - 1) x) else m (pix + y * stride + x)) 0 n); [exact N|..].
  - split; [lia|]. intros x' y' X'. replace ((x' <? - n + 0) || ((w <=? x') && (x' <? w + 0))) with false; [rewrite andb_false_r; reflexivity|].
    destruct (Z.ltb_spec x' (- n + 0)), (Z.leb_spec w x'), (Z.ltb_spec x' (w + 0)); try reflexivity; lia.
  - clear x y X. intros i t Hi [_ Ht]. split; [lia|]. intros x y X. unfold upd.
    destruct (Z.eqb_spec (pix + y * stride + x) (pix + w + i)) as [E|E].
    + assert (y = 0) by nia. subst y. assert (x = w + i) by lia. subst x. cbn [Z.eqb andb].
      replace (clamp 0 (w - 1) (w + i)) with (w - 1) by (unfold clamp; lia).
      destruct (Z.ltb_spec (w + i) (- n + (i + 1))), (Z.leb_spec w (w + i)), (Z.ltb_spec (w + i) (w + (i + 1))); cbn; try reflexivity; lia.
    + destruct (Z.eqb_spec (pix + y * stride + x) (pix - n + i)) as [E2|E2].
      * assert (y = 0) by nia. subst y. assert (x = - n + i) by lia. subst x. cbn [Z.eqb andb].
        replace (clamp 0 (w - 1) (- n + i)) with 0 by (unfold clamp; lia).
        destruct (Z.ltb_spec (- n + i) (- n + (i + 1))); cbn; [f_equal; lia|lia].
      * rewrite Ht by exact X. destruct (Z.eqb_spec y 0) as [->|]; [|reflexivity]. cbn [andb].
        assert (x <> w + i) by (intros ->; apply E; ring). assert (x <> - n + i) by (intros ->; apply E2; ring).
        destruct (Z.ltb_spec x (- n + i)), (Z.ltb_spec x (- n + (i + 1))), (Z.leb_spec w x), (Z.ltb_spec x (w + i)), (Z.ltb_spec x (w + (i + 1))); cbn; try reflexivity; lia.
  }
  destruct K as [_ K]. rewrite K by exact X. destruct (Z.eqb_spec y 0) as [->|]; [|reflexivity]. cbn [andb].
  destruct (Z.ltb_spec x (- n + n)) as [L|L]; [reflexivity|]. cbn [orb].
  destruct (Z.leb_spec w x), (Z.ltb_spec x (w + n)); cbn [andb]; try reflexivity; try lia.
  f_equal. unfold clamp. lia.
Qed.

Lemma copy_lines_pad_spec (src : mem) base stride w n y0 y1 dst x y :
  0 <= n -> 1 <= w -> w + 2 * n <= stride -> - n <= x < w + n ->
  copy_lines_pad src base stride w n y0 y1 dst (base + y * stride + x) =
  if (y0 <=? y) && (y <? y1) then src (base + y * stride + clamp 0 (w - 1) x) else dst (base + y * stride + x).
Proof.
  intros N Hw Hs X. unfold copy_lines_pad. destruct (Z.le_gt_cases y0 y1) as [Le|Gt].
  - revert x y X. apply (floop_inv (fun Y (m : mem) => forall x y, - n <= x < w + n -> m (base + y * stride + x) = if (y0 <=? y) && (y <? Y) then src (base + y * stride + clamp 0 (w - 1) x) else dst (base + y * stride + x))); [exact Le|..].
    { intros x y X. replace ((y0 <=? y) && (y <? y0)) with false; [reflexivity|]. symmetry. destruct (Z.leb_spec y0 y), (Z.ltb_spec y y0); try reflexivity; lia. }
    intros Y m HY Hm x y X.
    set (m' := floop 0 w (fun x dst => upd dst (base + Y * stride + x) (src (base + Y * stride + x))) m).
    assert (E : forall x y, - n <= x < w + n -> m' (base + y * stride + x)
                = if (y =? Y) && (0 <=? x) && (x <? w) then src (base + y * stride + x) else m (base + y * stride + x)).
    { unfold m'. apply (floop_inv (fun X (t : mem) => forall x y, - n <= x < w + n -> t (base + y * stride + x) = if (y =? Y) && (0 <=? x) && (x <? X) then src (base + y * stride + x) else m (base + y * stride + x))); [lia|..].
      { intros a b A. destruct (Z.leb_spec 0 a), (Z.ltb_spec a 0); rewrite ?andb_false_r; try reflexivity; lia. }
      intros X0 t HX Ht a b A. unfold upd. destruct (Z.eqb_spec (base + b * stride + a) (base + Y * stride + X0)) as [E|NE].
      - assert (b = Y) by nia. subst b. assert (a = X0) by lia. subst a. rewrite Z.eqb_refl.
        replace (X0 <? X0 + 1) with true by (symmetry; apply Z.ltb_lt; lia). replace (0 <=? X0) with true by (symmetry; apply Z.leb_le; lia). reflexivity.
      - rewrite Ht by exact A. destruct (Z.eqb_spec b Y) as [->|]; [|reflexivity]. cbn [andb].
        assert (a <> X0) by (intros ->; apply NE; reflexivity).
        destruct (Z.ltb_spec a X0), (Z.ltb_spec a (X0 + 1)); try reflexivity; lia. }
    clearbody m'.
    replace (base + y * stride + x) with (base + Y * stride + (y - Y) * stride + x) at 1 by ring.
    rewrite pad_line_spec by assumption.
    destruct (Z.eqb_spec (y - Y) 0) as [E0|E0].
    + assert (y = Y) by lia. subst y. rewrite E by (unfold clamp; lia). rewrite Z.eqb_refl.
      replace (0 <=? clamp 0 (w - 1) x) with true by (symmetry; apply Z.leb_le; unfold clamp; lia).
      replace (clamp 0 (w - 1) x <? w) with true by (symmetry; apply Z.ltb_lt; unfold clamp; lia). cbn [andb].
      replace ((y0 <=? Y) && (Y <? Y + 1)) with true; [reflexivity|]. symmetry. apply andb_true_iff. split; [apply Z.leb_le|apply Z.ltb_lt]; lia.
    + replace (base + Y * stride + (y - Y) * stride + x) with (base + y * stride + x) by ring.
      rewrite E by exact X. replace (y =? Y) with false by (symmetry; apply Z.eqb_neq; lia). cbn [andb]. rewrite Hm by exact X.
      destruct (Z.leb_spec y0 y), (Z.ltb_spec y Y), (Z.ltb_spec y (Y + 1)); try reflexivity; cbn; try reflexivity; lia.
  - rewrite floop_none by lia. replace ((y0 <=? y) && (y <? y1)) with false; [reflexivity|].
    symmetry. destruct (Z.leb_spec y0 y), (Z.ltb_spec y y1); try reflexivity; lia.
Qed.

Lemma kernels_value (src dst : mem) base stride px py w h depth co top down D W : 2 <= w ->
  4 <= alf_end down py h - alf_start top py -> w <= stride -> 0 <= depth -> 0 <= px -> px + w <= W ->
  (forall x y, -3 <= x - px < w + 3 -> alf_start top py <= y < alf_end down py h ->
     src (base + y * stride + x) = D (clamp 0 (W - 1) x) y) ->
  block_becomes w (alf_end down py h - alf_start top py) (base + (alf_start top py * stride + px)) stride dst
    (alf_block2 src base stride px py w h depth co top down (alf_block1 src base stride px py w h depth co top down dst))
    (fun x y => Some (alf_value W px (px + w - 1) (alf_start top py) (alf_end down py h - 1) depth co D (px + x) (alf_start top py + y))).
Proof.
  intros Hw Hh Hs Dp P PW T. destruct (alf_block_correct src dst base stride px py w h depth co top down Hw Hh Hs Dp) as [K1 K2].
  split; [|exact K2]. intros x y X Y. rewrite K1 by assumption. cbv iota.
  set (c := alf_start top py) in *. set (d := alf_end down py h) in *.
  unfold B1. change (rnd depth (asum co (fun dx dy => Tm src base stride px py w h top down (x + dx) (y + dy)))
              = rnd depth (asum co (fun dx dy => tap W px (px + w - 1) c (d - 1) D (px + x + dx) (c + y + dy)))). apply f_equal.
  apply asum_ext. intros i dx dy I.
  assert (B : -3 <= dx <= 3 /\ -3 <= dy <= 3).
  { unfold support in I. cbn [In] in I. repeat (destruct I as [I|I]; [injection I as <- <- <-; lia|]). destruct I. }
  clear I. unfold Tm, Sm, tap. fold c d.
  assert (O1 : outside 0 (d - c - 1) (y + dy) = outside c (d - 1) (c + y + dy)).
  { unfold outside. destruct (Z.ltb_spec (y + dy) 0), (Z.ltb_spec (c + y + dy) c), (Z.ltb_spec (d - c - 1) (y + dy)), (Z.ltb_spec (d - 1) (c + y + dy)); try reflexivity; lia. }
  assert (O2 : outside 0 (w - 1) (x + dx) = outside px (px + w - 1) (px + x + dx)).
  { unfold outside. destruct (Z.ltb_spec (x + dx) 0), (Z.ltb_spec (px + x + dx) px), (Z.ltb_spec (w - 1) (x + dx)), (Z.ltb_spec (px + w - 1) (px + x + dx)); try reflexivity; lia. }
  rewrite O1, O2.
  assert (PE : forall u v, base + (c * stride + px) + v * stride + u = base + (c + v) * stride + (px + u)) by (intros; ring). rewrite PE.
  replace (c + clamp 0 (d - c - 1) (y + dy)) with (clamp c (d - 1) (c + y + dy)) by (unfold clamp; lia).
  destruct (outside c (d - 1) (c + y + dy) && outside px (px + w - 1) (px + x + dx)).
  - replace (px + clamp 0 (w - 1) (x + dx)) with (clamp px (px + w - 1) (px + x + dx)) by (unfold clamp; lia).
    rewrite T by (unfold clamp; lia). f_equal. unfold clamp. lia.
  - replace (px + (x + dx)) with (px + x + dx) by lia. apply T; [lia|]. unfold clamp. lia.
Qed.

Section AlfPlane.
  Variables (g : geom) (ap : Z -> Z -> option (list Z)).
  Hypothesis Sz : sizes_ok (q_lv g) (q_pw g) (q_ph g) (q_wl g) (q_hl g).
  Hypothesis Cr : q_cross g = true.
  Hypothesis Dp : 0 <= q_depth g.
  Hypothesis St : plane_w g + 16 <= q_stride g.
  Let W := plane_w g. Let H := plane_h g. Let side := lcu_lines g. Let wl := q_wl g. Let hl := q_hl g.
  Let pos x y := q_base g + y * q_stride g + x.
  Let ycut := cut g hl H.
  Let xcut := col_start side wl W.
  Definition FA (E : Z -> Z -> Z) (x y : Z) : Z := plane_alf W H side wl hl (q_depth g) ap E x y.

  Lemma xcut_step i : 0 <= i < wl -> xcut i + 4 <= xcut (i + 1).
  Proof.
    intros Hi. destruct (geo_facts g Sz) as (G1 & G2 & G3 & G4). pose proof (side_cases g Sz) as Sc. unfold xcut, col_start. fold wl in G1. fold side W wl in G3 |- *. fold side in Sc.
    clearbody side W wl. destruct (Z.ltb_spec i wl), (Z.ltb_spec (i + 1) wl); try lia; destruct Sc as [-> | [-> | [-> | ->]]]; lia.
  Qed.
  Lemma xcut_in i : 0 <= i <= wl -> 0 <= xcut i <= W.
  Proof.
    intros Hi. destruct (geo_facts g Sz) as (G1 & G2 & G3 & G4). pose proof (side_cases g Sz) as Sc. unfold xcut, col_start. fold wl in G1. fold side W wl in G3 |- *. fold side in Sc.
    clearbody side W wl. destruct (Z.ltb_spec i wl); try lia; destruct Sc as [-> | [-> | [-> | ->]]]; lia.
  Qed.
  Lemma xcut_owner i x : 0 <= i < wl -> xcut i <= x < xcut (i + 1) -> x / side = i.
  Proof.
    intros Hi. destruct (geo_facts g Sz) as (G1 & G2 & G3 & G4). pose proof (side_cases g Sz) as Sc. unfold xcut, col_start. fold wl in G1. fold side W wl in G3 |- *. fold side in Sc.
    clearbody side W wl. destruct (Z.ltb_spec i wl), (Z.ltb_spec (i + 1) wl); try lia; destruct Sc as [-> | [-> | [-> | ->]]]; intros; Z.div_mod_to_equations; lia.
  Qed.
  Lemma ycut_step i : 0 <= i < hl -> ycut i + 4 <= ycut (i + 1).
  Proof.
    intros Hi. destruct (geo_facts g Sz) as (G1 & G2 & G3 & G4). pose proof (side_cases g Sz) as Sc. unfold ycut, cut. fold hl in G2. fold side H hl in G4 |- *. fold side in Sc.
    clearbody side H hl. destruct (Z.leb_spec i 0), (Z.leb_spec (i + 1) 0), (Z.ltb_spec i hl), (Z.ltb_spec (i + 1) hl); try lia; destruct Sc as [-> | [-> | [-> | ->]]]; lia.
  Qed.
  Lemma ycut_in i : 0 <= i <= hl -> 0 <= ycut i <= H.
  Proof. intros Hi. destruct (geo_facts g Sz) as (G1 & G2 & G3 & G4). apply cut_in; assumption. Qed.
  Lemma ycut_owner i y : 0 <= i < hl -> ycut i <= y < ycut (i + 1) -> owner side hl y = i.
  Proof.
    intros Hi. destruct (geo_facts g Sz) as (G1 & G2 & G3 & G4). pose proof (side_cases g Sz) as Sc. unfold ycut, cut, owner. fold hl in G2. fold side H hl in G4 |- *. fold side in Sc.
    clearbody side H hl.
    destruct (Z.leb_spec i 0), (Z.leb_spec (i + 1) 0), (Z.ltb_spec i hl), (Z.ltb_spec (i + 1) hl); try lia;
      destruct Sc as [-> | [-> | [-> | ->]]]; intros; Z.div_mod_to_equations; lia.
  Qed.
  Lemma ycut_start i : ycut i = row_start side hl H i.
  Proof. reflexivity. Qed.

  (** The block of an LCU as the code computes it. *)
  Lemma block_args lx ly : 0 <= lx < wl -> 0 <= ly < hl ->
    let size := Z.shiftl 1 (q_lv g) in
    let px := Z.shiftl lx (q_lv g) in
    let py := Z.shiftl ly (q_lv g) in
    let w := if q_pw g <? px + size then q_pw g - px else size in
    let h := if q_ph g <? py + size then q_ph g - py else size in
    (if q_luma g then (px, py, w, h) else (Z.shiftr px 1, Z.shiftr py 1, Z.shiftr w 1, Z.shiftr h 1)) =
    (xcut lx, ly * side, xcut (lx + 1) - xcut lx, (if ly <? hl - 1 then (ly + 1) * side else H) - ly * side).
  Proof.
    intros Hx Hy size px py w h. destruct Sz as (S1 & S2 & S3 & S4 & S5 & (S6 & S6') & S7 & S7').
    unfold w, h, px, py, size, xcut, col_start, side, W, H, hl, wl, plane_w, plane_h, lcu_lines in *. rewrite !shr1. clear - S1 S2 S3 S4 S5 S6 S6' S7 S7' Hx Hy.
    rewrite !Z.shiftl_mul_pow2 by (destruct (q_luma g); lia).
    generalize dependent (q_pw g). generalize dependent (q_ph g). generalize dependent (q_wl g). generalize dependent (q_hl g). intros hl' Hy S7 S7' wl' Hx ph' S3 S5 S7'' S7''' pw'. intros.
    assert (q_lv g = 4 \/ q_lv g = 5 \/ q_lv g = 6) as [E | [E | E]] by lia; rewrite E in *;
       change (2 ^ 4) with 16 in *; change (2 ^ 5) with 32 in *; change (2 ^ 6) with 64 in *; change (2 ^ (4 - 1)) with 8 in *; change (2 ^ (5 - 1)) with 16 in *; change (2 ^ (6 - 1)) with 32 in *;
       destruct (q_luma g);
       (repeat apply (f_equal2 pair);
        repeat match goal with |- context [?a <? ?b] => destruct (Z.ltb_spec a b) end;
        Z.div_mod_to_equations; lia).
  Qed.

  Lemma avail_plane lx ly : alf_avail (q_lv g) (q_wl g) (q_hl g) (q_cross g) (q_sl g) lx ly = (1 <=? ly, ly <? hl - 1).
  Proof. unfold alf_avail. rewrite Cr. reflexivity. Qed.
  Lemma range_plane ly : 0 <= ly < hl ->
    alf_start (1 <=? ly) (ly * side) = ycut ly /\
    alf_end (ly <? hl - 1) (ly * side) ((if ly <? hl - 1 then (ly + 1) * side else H) - ly * side) = ycut (ly + 1).
  Proof.
    intros Hy. unfold alf_start, alf_end, ycut, cut. fold side. clearbody side H hl.
    destruct (Z.leb_spec 1 ly), (Z.leb_spec ly 0), (Z.ltb_spec ly (hl - 1)), (Z.ltb_spec ly hl), (Z.leb_spec (ly + 1) 0), (Z.ltb_spec (ly + 1) hl); try lia;
      assert (E0 : ly = 0) by lia; subst ly; lia.
  Qed.

  Definition alf_one (tmp : mem) (ly lx : Z) (dec : mem) : mem :=
     match ap lx ly with
     | None => dec
     | Some co =>
         let '(top, down) := alf_avail (q_lv g) (q_wl g) (q_hl g) (q_cross g) (q_sl g) lx ly in
         let size := Z.shiftl 1 (q_lv g) in
         let px := Z.shiftl lx (q_lv g) in
         let py := Z.shiftl ly (q_lv g) in
         let w := if q_pw g <? px + size then q_pw g - px else size in
         let h := if q_ph g <? py + size then q_ph g - py else size in
         let '(px, py, w, h) := if q_luma g then (px, py, w, h) else (Z.shiftr px 1, Z.shiftr py 1, Z.shiftr w 1, Z.shiftr h 1) in
         alf_block2 tmp (q_base g) (q_stride g) px py w h (q_depth g) co top down
           (alf_block1 tmp (q_base g) (q_stride g) px py w h (q_depth g) co top down dec)
     end.

  Lemma alf_one_block (E : Z -> Z -> Z) (tmp dec : mem) lx ly : 0 <= lx < wl -> 0 <= ly < hl ->
    (forall x y, -8 <= x < W + 8 -> ycut ly <= y < ycut (ly + 1) -> tmp (pos x y) = E (clamp 0 (W - 1) x) y) ->
    (forall x y, xcut lx <= x < xcut (lx + 1) -> ycut ly <= y < ycut (ly + 1) -> dec (pos x y) = E x y) ->
    forall x y, 0 <= x < W -> 0 <= y < H ->
      alf_one tmp ly lx dec (pos x y) = if (xcut lx <=? x) && (x <? xcut (lx + 1)) && (ycut ly <=? y) && (y <? ycut (ly + 1)) then FA E x y else dec (pos x y).
  Proof.
    intros Hx Hy T Hd x y Rx Ry. unfold alf_one.
    pose proof (xcut_step lx Hx) as Xs. pose proof (ycut_step ly Hy) as Ys.
    pose proof (xcut_in lx ltac:(lia)) as X0. pose proof (xcut_in (lx + 1) ltac:(lia)) as X1.
    pose proof (ycut_in ly ltac:(lia)) as Y0. pose proof (ycut_in (ly + 1) ltac:(lia)) as Y1.
    destruct (ap lx ly) as [co|] eqn:EA.
    2:{ match goal with |- _ = (if ?cc then _ else _) => destruct cc eqn:C end; [|reflexivity].
        rewrite !andb_true_iff, !Z.leb_le, !Z.ltb_lt in C. destruct C as [[[C1 C2] C3] C4].
        rewrite Hd by lia. unfold FA, plane_alf. rewrite (xcut_owner lx x Hx), (ycut_owner ly y Hy), EA by lia. reflexivity. }
    rewrite avail_plane. pose proof (block_args lx ly Hx Hy) as BA. cbv zeta in BA |- *. rewrite BA. clear BA.
    destruct (range_plane ly Hy) as [R1 R2].
    set (hh := (if ly <? hl - 1 then (ly + 1) * side else H) - ly * side) in *.
    assert (Ws : W + 16 <= q_stride g) by exact St.
    set (a := xcut lx) in *. set (b := xcut (lx + 1)) in *. set (c := ycut ly) in *. set (d := ycut (ly + 1)) in *.
    assert (K : block_becomes (b - a) (d - c) (q_base g + (c * q_stride g + a)) (q_stride g) dec
        (alf_block2 tmp (q_base g) (q_stride g) a (ly * side) (b - a) hh (q_depth g) co (1 <=? ly) (ly <? hl - 1)
           (alf_block1 tmp (q_base g) (q_stride g) a (ly * side) (b - a) hh (q_depth g) co (1 <=? ly) (ly <? hl - 1) dec))
        (fun x y => Some (B1 tmp (q_base g) (q_stride g) a (ly * side) (b - a) hh (q_depth g) co (1 <=? ly) (ly <? hl - 1) x y))).
    { rewrite <- R1 at 2. rewrite <- R1 at 1. rewrite <- R2. apply alf_block_correct; rewrite ?R1, ?R2; lia. }
    destruct K as [K1 K2].
    assert (PE : forall u v, q_base g + (c * q_stride g + a) + v * q_stride g + u = pos (a + u) (c + v)) by (intros; unfold pos; lia).
    match goal with |- _ = (if ?cc then _ else _) => destruct cc eqn:C end.
    - rewrite !andb_true_iff, !Z.leb_le, !Z.ltb_lt in C. destruct C as [[[C1 C2] C3] C4].
      specialize (K1 (x - a) (y - c) ltac:(lia) ltac:(lia)). rewrite PE in K1.
      replace (a + (x - a)) with x in K1 by lia. replace (c + (y - c)) with y in K1 by lia. rewrite K1.
      unfold FA, plane_alf. rewrite (xcut_owner lx x Hx), (ycut_owner ly y Hy), EA by (split; assumption).
      rewrite <- !ycut_start. fold xcut. fold a b c d. unfold B1.
      change (rnd (q_depth g) (asum co (fun dx dy => Tm tmp (q_base g) (q_stride g) a (ly * side) (b - a) hh (1 <=? ly) (ly <? hl - 1) (x - a + dx) (y - c + dy)))
              = rnd (q_depth g) (asum co (fun dx dy => tap W a (b - 1) c (d - 1) E (x + dx) (y + dy)))). apply f_equal. apply asum_ext. intros i dx dy I.
      assert (B : -3 <= dx <= 3 /\ -3 <= dy <= 3).
      { unfold support in I. cbn [In] in I. repeat (destruct I as [I|I]; [injection I as <- <- <-; lia|]). destruct I. }
      clear I. unfold Tm, Sm, tap. rewrite R1, R2, PE.
      assert (O1 : outside 0 (d - c - 1) (y - c + dy) = outside c (d - 1) (y + dy)).
      { unfold outside. destruct (Z.ltb_spec (y - c + dy) 0), (Z.ltb_spec (y + dy) c), (Z.ltb_spec (d - c - 1) (y - c + dy)), (Z.ltb_spec (d - 1) (y + dy)); try reflexivity; lia. }
      assert (O2 : outside 0 (b - a - 1) (x - a + dx) = outside a (b - 1) (x + dx)).
      { unfold outside. destruct (Z.ltb_spec (x - a + dx) 0), (Z.ltb_spec (x + dx) a), (Z.ltb_spec (b - a - 1) (x - a + dx)), (Z.ltb_spec (b - 1) (x + dx)); try reflexivity; lia. }
      rewrite O1, O2. replace (c + clamp 0 (d - c - 1) (y - c + dy)) with (clamp c (d - 1) (y + dy)) by (unfold clamp; lia).
      destruct (outside c (d - 1) (y + dy) && outside a (b - 1) (x + dx)).
      + replace (a + clamp 0 (b - a - 1) (x - a + dx)) with (clamp a (b - 1) (x + dx)) by (unfold clamp; lia).
        rewrite T by (unfold clamp; lia). f_equal. unfold clamp. lia.
      + replace (a + (x - a + dx)) with (x + dx) by lia. apply T; [lia|]. unfold clamp. lia.
    - apply K2. intros u v U V. rewrite PE. intros Q. apply (pos_inj g) in Q; [|lia|unfold W in *; lia|unfold W in *; lia]. destruct Q as [-> ->].
      assert (true = false); [|discriminate]. rewrite <- C. symmetry. rewrite !andb_true_iff, !Z.leb_le, !Z.ltb_lt. lia.
  Qed.

  Lemma alf_one_row (E : Z -> Z -> Z) (tmp dec : mem) ly : 0 <= ly < hl ->
    (forall x y, 0 <= x < W -> ycut ly <= y < ycut (ly + 1) -> dec (pos x y) = E x y) ->
    forall x y, 0 <= x < W -> 0 <= y < H ->
      snd (alf_lcurow g ap ly (tmp, dec)) (pos x y) = if (ycut ly <=? y) && (y <? ycut (ly + 1)) then FA E x y else dec (pos x y).
  Proof.
    intros Hy Hd. destruct (geo_facts g Sz) as (G1 & G2 & G3 & G4). fold W side wl H hl in G1, G2, G3, G4.
    pose proof (ycut_step ly Hy) as Cy. pose proof (ycut_in ly ltac:(lia)) as Y0. pose proof (ycut_in (ly + 1) ltac:(lia)) as Y1.
    pose proof (side_cases g Sz) as Sc. fold side in Sc.
    unfold alf_lcurow. cbv zeta. cbn [fst snd].
    assert (Sh : forall i, Z.shiftl i (if q_luma g then q_lv g else q_lv g - 1) = i * side).
    { intros i. unfold side, lcu_lines. destruct Sz as (S1 & _). destruct (q_luma g); rewrite !Z.shiftl_mul_pow2 by lia; lia. }
    rewrite !Sh. fold H W.
    set (tmp' := copy_lines_pad dec (q_base g) (q_stride g) W 8 _ _ tmp).
    assert (T : forall x y, -8 <= x < W + 8 -> ycut ly <= y < ycut (ly + 1) -> tmp' (pos x y) = E (clamp 0 (W - 1) x) y).
    { intros x y Rx Ry. unfold tmp', pos.
      assert (W1 : 4 <= W) by (clear - G1 G3 Sc; clearbody side; destruct Sc as [-> | [-> | [-> | ->]]]; lia).
      rewrite copy_lines_pad_spec; [|lia|lia|unfold W; lia|lia].
      assert (R : ly * side - 4 <= ycut ly /\ ycut (ly + 1) <= (ly + 1) * side).
      { unfold ycut, cut. fold side. clear - Hy Sc G4. clearbody side. destruct (Z.leb_spec ly 0), (Z.leb_spec (ly + 1) 0), (Z.ltb_spec ly hl), (Z.ltb_spec (ly + 1) hl); try lia; destruct Sc as [-> | [-> | [-> | ->]]]; lia. }
      match goal with |- (if ?cc then _ else _) = _ => replace cc with true end.
      - fold (pos (clamp 0 (W - 1) x) y). apply Hd; [unfold clamp; lia|lia].
      - symmetry. rewrite andb_true_iff, Z.leb_le, Z.ltb_lt. lia. }
    clearbody tmp'.
    change (forall x y, 0 <= x < W -> 0 <= y < H -> floop 0 (q_wl g) (alf_one tmp' ly) dec (pos x y) = if (ycut ly <=? y) && (y <? ycut (ly + 1)) then FA E x y else dec (pos x y)).
    fold wl. assert (W0 : 0 <= wl) by lia.
    pose proof (floop_inv (fun n (m : mem) => 0 <= n <= wl /\ forall x y, 0 <= x < W -> 0 <= y < H -> m (pos x y) = if (x <? xcut n) && (ycut ly <=? y) && (y <? ycut (ly + 1)) then FA E x y else dec (pos x y)) 0 wl (alf_one tmp' ly) dec W0) as L.
    destruct L as [_ L].
    - split; [lia|]. intros x y Rx Ry. replace (x <? xcut 0) with false; [reflexivity|]. symmetry. apply Z.ltb_ge. unfold xcut, col_start. destruct (Z.ltb_spec 0 wl); lia.
    - intros n m Rn [_ Hm]. split; [lia|]. intros x y Rx Ry. pose proof (xcut_step n Rn) as Xs. pose proof (xcut_in (n + 1) ltac:(lia)) as X1. pose proof (xcut_in n ltac:(lia)) as X2.
      rewrite (alf_one_block E tmp' m n ly Rn Hy T); [|clear x y Rx Ry|exact Rx|exact Ry].
      + rewrite (Hm x y Rx Ry).
        destruct (Z.leb_spec (xcut n) x), (Z.ltb_spec x (xcut (n + 1))), (Z.ltb_spec x (xcut n)), (Z.leb_spec (ycut ly) y), (Z.ltb_spec y (ycut (ly + 1))); cbn [andb]; try reflexivity; lia.
      + intros x y Rx Ry. rewrite Hm by lia. replace (x <? xcut n) with false by (symmetry; apply Z.ltb_ge; lia). cbn [andb]. apply Hd; lia.
    - intros x y Rx Ry. rewrite L by assumption. replace (x <? xcut wl) with true; [reflexivity|].
      symmetry. apply Z.ltb_lt. unfold xcut, col_start. rewrite Z.ltb_irrefl. lia.
  Qed.
End AlfPlane.

Section Chain.
  Variables (g : geom) (sp : Z -> Z -> option (Z * (Z -> Z))) (ap : Z -> Z -> option (list Z)) (up : mem).
  Hypothesis Sz : sizes_ok (q_lv g) (q_pw g) (q_ph g) (q_wl g) (q_hl g).
  Hypothesis Cr : q_cross g = true.
  Hypothesis Gd : q_gdepth g = q_depth g.
  Hypothesis Dp : 5 <= q_depth g.
  Hypothesis St : plane_w g + 16 <= q_stride g.
  Hypothesis Ty : forall lx ly ty off, sp lx ly = Some (ty, off) -> 0 <= ty <= 4.
  Variables (rec : Z -> mem -> mem) (dec0 : mem).
  Let W := plane_w g. Let H := plane_h g. Let side := lcu_lines g. Let hl := q_hl g.
  Hypothesis Loc : row_local W H side (q_base g) (q_stride g) rec.
  Let pos x y := q_base g + y * q_stride g + x.
  Let yc := cut g hl H.
  Let Dn (n : Z) : mem := deblocked rec dec0 (Z.to_nat n).
  Let DF : mem := Dn hl.
  Let SF : Z -> Z -> Z := F g sp DF.

  Definition G (m n k : Z) (st : chain) : Prop :=
    (forall x y, 0 <= x < W -> 0 <= y < H -> snd st (pos x y) = if y <? yc k then FA g ap SF x y else if y <? yc n then SF x y else Dn m (pos x y)) /\
    (0 < n < hl -> forall x, 0 <= x < W -> fst (fst st) (pos x (yc n - 1)) = DF (pos x (yc n - 1))).

  Lemma yc_mono i j : 0 <= i <= j -> j <= hl -> yc i <= yc j.
  Proof.
    intros A B. replace j with (i + Z.of_nat (Z.to_nat (j - i))) by lia.
    assert (Q : forall k, i + Z.of_nat k <= hl -> yc i <= yc (i + Z.of_nat k)).
    { induction k as [|k IH]; intros E; [rewrite Z.add_0_r; lia|].
      replace (i + Z.of_nat (S k)) with (i + Z.of_nat k + 1) in * by lia.
      pose proof (ycut_step g Sz (i + Z.of_nat k)) as Y. fold hl H yc in Y. specialize (IH ltac:(lia)). specialize (Y ltac:(lia)). lia. }
    apply Q. lia.
  Qed.

  Lemma G_rec m n k st : 0 <= k <= n -> n <= m -> m < hl -> G m n k st -> G (m + 1) n k (do_rec rec m st).
  Proof.
    intros K A B [J1 J2]. destruct st as [[a b] d]. unfold do_rec. split; [|exact J2]. cbn [fst snd] in *. intros x y Rx Ry.
    unfold Dn. rewrite Dn_succ by (exact g || lia). fold (Dn m).
    pose proof (cut_small g Sz n m ltac:(lia) B) as C. fold hl H side yc in C. pose proof (yc_mono k n K ltac:(lia)) as Mo.
    destruct (Z.lt_ge_cases y (m * side - 4)) as [L|G].
    - unfold pos. rewrite !(proj1 Loc) by lia. apply J1; assumption.
    - replace (y <? yc k) with false by (symmetry; apply Z.ltb_ge; lia). replace (y <? yc n) with false by (symmetry; apply Z.ltb_ge; lia).
      apply (proj2 Loc); try assumption. intros x' y' Rx' Ry' G'. fold (pos x' y'). rewrite J1 by assumption.
      replace (y' <? yc k) with false by (symmetry; apply Z.ltb_ge; lia). replace (y' <? yc n) with false by (symmetry; apply Z.ltb_ge; lia). reflexivity.
  Qed.

  Lemma G_sao m n k st : 0 <= k <= n -> n < m -> m <= hl -> G m n k st -> G m (n + 1) k (do_sao g sp up n st).
  Proof.
    intros K A B [J1 J2]. destruct st as [[tmp b] dec]. unfold do_sao.
    destruct (sao_lcurow g sp up n (tmp, dec)) as [tmp' dec'] eqn:ES. cbn [fst snd] in *.
    destruct (geo_facts g Sz) as (G1 & G2 & G3 & G4). fold hl H side W in G2, G3, G4.
    pose proof (yc_mono k n K ltac:(lia)) as Mo.
    pose proof (ycut_step g Sz n ltac:(fold hl; lia)) as Cy. pose proof (ycut_in g Sz n ltac:(fold hl; lia)) as An. pose proof (ycut_in g Sz (n + 1) ltac:(fold hl; lia)) as Bn.
    fold hl H yc in Cy, An, Bn.
    assert (CE : n + 1 < hl -> yc (n + 1) = (n + 1) * side - 4).
    { intros. unfold yc, cut. fold side. destruct (Z.leb_spec (n + 1) 0), (Z.ltb_spec (n + 1) hl); lia. }
    assert (CN : yc n <= Z.max 0 (n * side - 4) /\ n * side - 4 <= yc n).
    { unfold yc, cut. fold side. pose proof (side_cases g Sz) as Sc. fold side in Sc. destruct (Z.leb_spec n 0), (Z.ltb_spec n hl); nia. }
    pose proof (side_cases g Sz) as Sc. fold side in Sc.
    assert (Hd : forall x y, 0 <= x < W -> 0 <= y < H -> yc n <= y <= yc (n + 1) -> dec (pos x y) = DF (pos x y)).
    { intros x y Rx Ry R. rewrite J1 by assumption. replace (y <? yc k) with false by (symmetry; apply Z.ltb_ge; lia). replace (y <? yc n) with false by (symmetry; apply Z.ltb_ge; lia).
      apply (Dn_final g Sz rec dec0 Loc); try assumption; [fold hl; lia|]. fold hl side. destruct (Z.eq_dec (n + 1) hl) as [E|E]; [left; lia|].
      destruct (Z.eq_dec m hl) as [E'|E']; [left; exact E'|]. right. rewrite CE in R by lia. nia. }
    assert (St' : plane_w g <= q_stride g) by lia.
    assert (Ht : forall x, 0 < n -> 0 <= x < W -> tmp (pos x (yc n - 1)) = DF (pos x (yc n - 1))) by (intros x P Rx; apply J2; [lia|exact Rx]).
    pose proof (one_row g sp up Sz Cr Gd Dp St' Ty DF tmp dec n ltac:(fold hl; lia) Hd Ht) as O. cbv zeta in O. change (@pair (Z -> Z) (Z -> Z) tmp dec) with (@pair mem mem tmp dec) in O. rewrite ES in O. destruct O as [O1 O2]. cbn [fst snd] in O1, O2. fold hl H side W yc in O1, O2. split; cbn [fst snd].
    - intros x y Rx Ry. unfold pos. rewrite O2 by assumption. fold (pos x y). rewrite J1 by assumption. fold SF.
      destruct (Z.leb_spec (yc n) y), (Z.ltb_spec y (yc (n + 1))), (Z.ltb_spec y (yc n)), (Z.ltb_spec y (yc k)); cbn [andb]; try reflexivity; lia.
    - intros Rn x Rx. unfold pos. rewrite O1 by lia. rewrite CE by lia.
      replace (n * side - 4 <=? (n + 1) * side - 4 - 1) with true by (symmetry; apply Z.leb_le; nia).
      replace ((n + 1) * side - 4 - 1 <? (n + 1) * side) with true by (symmetry; apply Z.ltb_lt; lia). cbn [andb].
      rewrite CE in Cy, Bn by lia. apply Hd; [exact Rx|lia|]. rewrite CE by lia. lia.
  Qed.

  Lemma G_alf m n k st : 0 <= k < n -> n <= hl -> G m n k st -> G m n (k + 1) (do_alf g ap k st).
  Proof.
    intros K A [J1 J2]. destruct st as [[a b] dec]. unfold do_alf.
    destruct (alf_lcurow g ap k (b, dec)) as [b' dec'] eqn:ES. cbn [fst snd] in *. split; [|exact J2]. cbn [snd].
    pose proof (yc_mono (k + 1) n ltac:(lia) ltac:(lia)) as Mo. pose proof (ycut_step g Sz k ltac:(fold hl; lia)) as Cy. fold hl H yc in Cy.
    pose proof (ycut_in g Sz k ltac:(fold hl; lia)) as An. pose proof (ycut_in g Sz (k + 1) ltac:(fold hl; lia)) as Bn. fold hl H yc in An, Bn.
    assert (Hd : forall x y, 0 <= x < W -> yc k <= y < yc (k + 1) -> dec (pos x y) = SF x y).
    { intros x y Rx R. rewrite J1 by lia. replace (y <? yc k) with false by (symmetry; apply Z.ltb_ge; lia). replace (y <? yc n) with true by (symmetry; apply Z.ltb_lt; lia). reflexivity. }
    intros x y Rx Ry. pose proof (alf_one_row g ap Sz Cr ltac:(lia) St SF b dec k ltac:(fold hl; lia) Hd x y Rx Ry) as O.
    rewrite ES in O. cbn [snd] in O. fold hl H yc in O. unfold pos. rewrite O. fold (pos x y). rewrite J1 by assumption.
    destruct (Z.leb_spec (yc k) y), (Z.ltb_spec y (yc (k + 1))), (Z.ltb_spec y (yc k)); cbn [andb]; try reflexivity; lia.
  Qed.

  Lemma G_0 a b : G 0 0 0 (a, b, dec0).
  Proof.
    split; [|intros; lia]. intros x y Rx Ry. cbn [snd]. replace (y <? yc 0) with false by (symmetry; apply Z.ltb_ge; change (yc 0) with 0; lia). reflexivity.
  Qed.
  Lemma G_end st : G hl hl hl st -> forall x y, 0 <= x < W -> 0 <= y < H -> snd st (pos x y) = FA g ap SF x y.
  Proof.
    intros [J1 _] x y Rx Ry. rewrite J1 by assumption. destruct (geo_facts g Sz) as (G1 & G2 & _). unfold yc. rewrite cut_n by exact G2.
    replace (y <? H) with true by (symmetry; apply Z.ltb_lt; lia). reflexivity.
  Qed.

  Lemma chain_serial_correct a b x y : 0 <= x < W -> 0 <= y < H ->
    snd (chain_serial g sp ap up rec (a, b, dec0)) (pos x y) = FA g ap SF x y.
  Proof.
    intros Rx Ry. apply G_end; try assumption. unfold chain_serial. fold hl.
    destruct (geo_facts g Sz) as (G1 & G2 & _). fold hl in G2.
    apply (floop_inv (fun i st => G i i i st)); [lia|apply G_0|].
    intros i st Hi Hj. apply G_alf; [lia|lia|]. apply G_sao; [lia|lia|lia|]. apply G_rec; [lia|lia|lia|exact Hj].
  Qed.
  Lemma chain_delayed_correct a b x y : 2 <= hl -> 0 <= x < W -> 0 <= y < H ->
    snd (chain_delayed g sp ap up rec (a, b, dec0)) (pos x y) = FA g ap SF x y.
  Proof.
    intros H2 Rx Ry. apply G_end; try assumption. unfold chain_delayed. fold hl.
    pose proof (floop_inv (fun i st => let j := if i =? hl then hl else Z.max 0 (i - 1) in G i j j st) 0 hl (fun ly st =>
    let st := do_rec rec ly st in
    if negb (ly =? 0) then
      let st := do_sao g sp up (ly - 1) st in
      let st := if ly =? hl - 1 then do_sao g sp up ly st else st in
      let st := do_alf g ap (ly - 1) st in
      if ly =? hl - 1 then do_alf g ap ly st else st
    else st) (a, b, dec0) ltac:(lia)) as K.
    cbv beta in K. rewrite Z.eqb_refl in K. apply K.
    - replace (0 =? hl) with false by (symmetry; apply Z.eqb_neq; lia). apply G_0.
    - clear K. intros i st Hi Hj. cbv zeta in Hj |- *. replace (i =? hl) with false in Hj by (symmetry; apply Z.eqb_neq; lia).
      destruct (Z.eqb_spec i 0) as [E|N]; cbn [negb].
      + subst i. replace (0 + 1 =? hl) with false by (symmetry; apply Z.eqb_neq; lia). apply G_rec; [lia|lia|lia|exact Hj].
      + rewrite Z.max_r in Hj by lia.
        assert (K : G (i + 1) i (i - 1) (do_sao g sp up (i - 1) (do_rec rec i st))).
        { replace i with (i - 1 + 1) at 2 by lia. apply G_sao; [lia|lia|lia|]. apply G_rec; [lia|lia|lia|exact Hj]. }
        destruct (Z.eqb_spec i (hl - 1)) as [E|E].
        * replace (i + 1 =? hl) with true by (symmetry; apply Z.eqb_eq; lia). replace hl with (i + 1) by lia. apply G_alf; [lia|lia|].
          replace i with (i - 1 + 1) at 3 by lia. apply G_alf; [lia|lia|]. apply G_sao; [lia|lia|lia|exact K].
        * replace (i + 1 =? hl) with false by (symmetry; apply Z.eqb_neq; lia). replace (Z.max 0 (i + 1 - 1)) with i by lia.
          replace i with (i - 1 + 1) at 3 by lia. apply G_alf; [lia|lia|]. exact K.
  Qed.
End Chain.
