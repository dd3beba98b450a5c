(** Range, constant areas, block positions and the endless picture. *)
From Coq Require Import ZArith List Bool Lia.
From Verif Require Import CBase UtilModel UtilSpec UtilProofs MemModel MemProofs AlfSpec FrmSpec McModel McSpec McProofs.
Import ListNotations.
Open Scope Z_scope.

Lemma sample_range : forall d v, mc_depth d -> 0 <= sample d v < 2 ^ d.
Proof.
  intros d v H. unfold mc_depth in H. assert (0 < 2 ^ d) by (apply Z.pow_pos_nonneg; lia). unfold sample, clamp. lia.
Qed.
Lemma interp_range : forall n b taps d r X Y, mc_depth d -> samples_ok d r -> 0 <= interp n b taps d r X Y < 2 ^ d.
Proof.
  intros n b taps d r X Y H R. unfold interp. cbv zeta.
  destruct (X mod n =? 0), (Y mod n =? 0); cbn [andb]; [apply R|apply sample_range; exact H|apply sample_range; exact H|apply sample_range; exact H].
Qed.

Lemma wsum_const : forall c v a, wsum c (fun _ => v) a = v * fold_right Z.add 0 c.
Proof. induction c as [|w c IH]; intros v a; cbn [wsum fold_right]; [lia|]. rewrite IH. ring. Qed.
Lemma luma_sum : forall f, 0 < f < 4 -> fold_right Z.add 0 (luma_taps f) = 64.
Proof. intros f H. assert (C: f = 1 \/ f = 2 \/ f = 3) by lia. destruct C as [-> | [-> | ->]]; reflexivity. Qed.
Lemma chroma_sum : forall f, 0 < f < 8 -> fold_right Z.add 0 (chroma_taps f) = 64.
Proof.
  intros f H. assert (C: f = 1 \/ f = 2 \/ f = 3 \/ f = 4 \/ f = 5 \/ f = 6 \/ f = 7) by lia.
  destruct C as [-> | [-> | [-> | [-> | [-> | [-> | ->]]]]]]; reflexivity.
Qed.
Lemma sample_id : forall d v, 0 <= v < 2 ^ d -> sample d v = v.
Proof. intros d v H. unfold sample, clamp. lia. Qed.
Lemma interp_const : forall n b taps d v X Y, 0 < n -> mc_depth d -> 0 <= v < 2 ^ d ->
  (forall f, 0 < f < n -> fold_right Z.add 0 (taps f) = 64) ->
  interp n b taps d (fun _ _ => v) X Y = v.
Proof.
  intros n b taps d v X Y Hn Hd Hv HS. unfold interp. cbv zeta. pose proof Hd as Hd'. unfold mc_depth in Hd'.
  assert (BX := Z.mod_pos_bound X n Hn). assert (BY := Z.mod_pos_bound Y n Hn).
  destruct (Z.eqb_spec (X mod n) 0) as [ZX|ZX]; destruct (Z.eqb_spec (Y mod n) 0) as [ZY|ZY]; cbn [andb]; [reflexivity| | |].
  - rewrite wsum_const, HS by lia. change 64 with (2 ^ 6). rewrite rshift_exact by lia. apply sample_id. exact Hv.
  - rewrite wsum_const, HS by lia. change 64 with (2 ^ 6). rewrite rshift_exact by lia. apply sample_id. exact Hv.
  - rewrite (wsum_ext (taps (Y mod n)) _ (fun _ => v * 2 ^ (14 - d)) _ (Y / n - b)).
    + rewrite wsum_const, HS by lia. change 64 with (2 ^ 6). rewrite <- Z.mul_assoc, <- Z.pow_add_r by lia.
      replace (14 - d + 6) with (20 - d) by lia. rewrite rshift_exact by lia. apply sample_id. exact Hv.
    + intros k _. rewrite wsum_const, HS by lia. replace (v * 64) with ((v * 2 ^ (14 - d)) * 2 ^ (d - 8)).
      * apply rshift_exact. lia.
      * change 64 with (2 ^ 6). rewrite <- Z.mul_assoc, <- Z.pow_add_r by lia. do 2 f_equal. lia.
Qed.
Lemma luma_const : forall d r X Y v, mc_depth d -> 0 <= v < 2 ^ d ->
  (forall x y, X / 4 - 3 <= x <= X / 4 + 4 -> Y / 4 - 3 <= y <= Y / 4 + 4 -> r x y = v) -> interp_luma d r X Y = v.
Proof.
  intros d r X Y v Hd Hv HR. unfold interp_luma.
  rewrite (interp_ext 4 3 8 luma_taps d r (fun _ _ => v) X Y X Y);
    [apply interp_const; [lia|exact Hd|exact Hv|exact luma_sum]|lia|lia|exact luma_len_le|reflexivity|reflexivity|].
  intros i j Hi Hj. apply HR; lia.
Qed.
Lemma chroma_const : forall d r X Y v, mc_depth d -> 0 <= v < 2 ^ d ->
  (forall x y, X / 8 - 1 <= x <= X / 8 + 2 -> Y / 8 - 1 <= y <= Y / 8 + 2 -> r x y = v) -> interp_chroma d r X Y = v.
Proof.
  intros d r X Y v Hd Hv HR. unfold interp_chroma.
  rewrite (interp_ext 8 1 4 chroma_taps d r (fun _ _ => v) X Y X Y);
    [apply interp_const; [lia|exact Hd|exact Hv|exact chroma_sum]|lia|lia|exact chroma_len_le|reflexivity|reflexivity|].
  intros i j Hi Hj. apply HR; lia.
Qed.

(** Storage of the intermediate values: 16 bits for luma, and every sum fits 32 bits. *)
Lemma luma_pass1 : forall d src i step f, mc_depth d -> (forall a, 0 <= src a < 2 ^ d) -> 0 < f < 4 ->
  - 2147483648 <= flt_8tap src i step (luma_taps f) + 2 ^ 11 <= 2147483647 /\
  -32768 <= rshift (flt_8tap src i step (luma_taps f)) (d - 8) <= 32767.
Proof.
  intros d src i step f Hd HS Hf. pose proof Hd as Hd'. unfold mc_depth in Hd'.
  assert (P0: 0 < 2 ^ d) by (apply Z.pow_pos_nonneg; lia).
  assert (P1: 2 ^ d <= 2 ^ 12) by (apply Z.pow_le_mono_r; lia).
  rewrite flt8_wsum by (apply luma_len; exact Hf).
  assert (M := wsum_luma f (fun k => src (i + k * step)) (-3) (2 ^ d - 1) Hf ltac:(lia)).
  refine ((fun M2 => _) (M _)). 2: { intros k. cbv beta. generalize (HS (i + k * step)). lia. }
  change (2 ^ 12) with 4096 in P1. change (2 ^ 11) with 2048. split; [lia|].
  assert (R := pass1_range d (wsum (luma_taps f) (fun k => src (i + k * step)) (-3)) 88 24 Hd ltac:(lia) ltac:(lia) M2). lia.
Qed.
Lemma luma_pass2 : forall d (t : mem) i step f, mc_depth d -> (forall a, -32768 <= t a <= 32767) -> 0 < f < 4 ->
  - 2147483648 <= flt_8tap t i step (luma_taps f) + 2 ^ (19 - d) <= 2147483647.
Proof.
  intros d t i step f Hd HT Hf. unfold mc_depth in Hd.
  assert (P0: 0 < 2 ^ (19 - d)) by (apply Z.pow_pos_nonneg; lia).
  assert (P1: 2 ^ (19 - d) <= 2 ^ 12) by (apply Z.pow_le_mono_r; lia). change (2 ^ 12) with 4096 in P1.
  rewrite flt8_wsum by (apply luma_len; exact Hf).
  assert (C: f = 1 \/ f = 2 \/ f = 3) by lia.
  destruct C as [-> | [-> | ->]]; cbn [wsum luma_taps Z.eqb Pos.eqb];
    generalize (HT (i + -3 * step)) (HT (i + (-3 + 1) * step)) (HT (i + (-3 + 1 + 1) * step)) (HT (i + (-3 + 1 + 1 + 1) * step))
      (HT (i + (-3 + 1 + 1 + 1 + 1) * step)) (HT (i + (-3 + 1 + 1 + 1 + 1 + 1) * step)) (HT (i + (-3 + 1 + 1 + 1 + 1 + 1 + 1) * step))
      (HT (i + (-3 + 1 + 1 + 1 + 1 + 1 + 1 + 1) * step)); lia.
Qed.
Lemma chroma_pass1 : forall d src i step f, mc_depth d -> (forall a, 0 <= src a < 2 ^ d) -> 0 < f < 8 ->
  - 2147483648 <= flt_4tap src i step (chroma_taps f) + 2 ^ 11 <= 2147483647 /\
  -32768 <= rshift (flt_4tap src i step (chroma_taps f)) (d - 8) <= 32767.
Proof.
  intros d src i step f Hd HS Hf. pose proof Hd as Hd'. unfold mc_depth in Hd'.
  assert (P0: 0 < 2 ^ d) by (apply Z.pow_pos_nonneg; lia).
  assert (P1: 2 ^ d <= 2 ^ 12) by (apply Z.pow_le_mono_r; lia).
  rewrite flt4_wsum by (apply chroma_len; exact Hf).
  assert (M := wsum_chroma f (fun k => src (i + k * step)) (-1) (2 ^ d - 1) Hf ltac:(lia)).
  refine ((fun M2 => _) (M _)). 2: { intros k. cbv beta. generalize (HS (i + k * step)). lia. }
  change (2 ^ 12) with 4096 in P1. change (2 ^ 11) with 2048. split; [lia|].
  assert (R := pass1_range d (wsum (chroma_taps f) (fun k => src (i + k * step)) (-1)) 72 8 Hd ltac:(lia) ltac:(lia) M2). lia.
Qed.
Lemma chroma_pass2 : forall d (t : mem) i step f, mc_depth d -> (forall a, -32768 <= t a <= 32767) -> 0 < f < 8 ->
  - 2147483648 <= flt_4tap t i step (chroma_taps f) + 2 ^ (19 - d) <= 2147483647.
Proof.
  intros d t i step f Hd HT Hf. unfold mc_depth in Hd.
  assert (P0: 0 < 2 ^ (19 - d)) by (apply Z.pow_pos_nonneg; lia).
  assert (P1: 2 ^ (19 - d) <= 2 ^ 12) by (apply Z.pow_le_mono_r; lia). change (2 ^ 12) with 4096 in P1.
  rewrite flt4_wsum by (apply chroma_len; exact Hf).
  assert (C: f = 1 \/ f = 2 \/ f = 3 \/ f = 4 \/ f = 5 \/ f = 6 \/ f = 7) by lia.
  destruct C as [-> | [-> | [-> | [-> | [-> | [-> | ->]]]]]]; cbn [wsum chroma_taps Z.eqb Pos.eqb];
    generalize (HT (i + -1 * step)) (HT (i + (-1 + 1) * step)) (HT (i + (-1 + 1 + 1) * step)) (HT (i + (-1 + 1 + 1 + 1) * step)); lia.
Qed.

(** Block positions. *)
Lemma pos_facts : forall img blk pos mv, blk_ok img pos blk -> mv_ok mv -> img <= 8184 ->
  exists q, cu_get_mc_pos_mv img blk pos mv = q /\ q mod 8 = (4 * pos + mv) mod 8 /\
   (q = 4 * pos + mv /\ - blk - 8 <= q / 4 <= img + 4 \/
    4 * (- blk - 8) <= q < 4 * (- blk - 8) + 8 /\ (4 * pos + mv) / 4 < - blk - 8 \/
    4 * (img + 4) <= q < 4 * (img + 4) + 8 /\ img + 4 < (4 * pos + mv) / 4).
Proof.
  intros img blk pos mv [I8 [I0 [P4 [S4 [SB [P0 PE]]]]]] HM HI. unfold mv_ok in HM.
  exists (cu_get_mc_pos_mv img blk pos mv). split; [reflexivity|].
  unfold cu_get_mc_pos_mv, cu_get_mc_pos. cbv zeta. rewrite land7, Z.shiftr_div_pow2 by lia. change (2 ^ 2) with 4.
  assert (E: (4 * pos + mv) / 4 = pos + mv / 4) by (rewrite Z.mul_comm, Z.div_add_l; lia). rewrite E.
  assert (B := Z.mod_pos_bound mv 8 ltac:(lia)).
  destruct (Z.ltb_spec (pos + mv / 4) (- blk - 8)) as [L|L]; [|destruct (Z.ltb_spec (img + 4) (pos + mv / 4)) as [L2|L2]].
  - rewrite to_i16_id by lia. split; [|right; left; lia].
    clear E L. Z.div_mod_to_equations. lia.
  - rewrite to_i16_id by lia. split; [|right; right; lia].
    clear E L L2. Z.div_mod_to_equations. lia.
  - assert (R: -32768 <= pos * 4 + mv <= 32767).
    { clear E B. Z.div_mod_to_equations. lia. }
    rewrite to_i16_id by exact R. replace (pos * 4 + mv) with (4 * pos + mv) by lia. split; [reflexivity|]. left.
    split; [reflexivity|]. rewrite E. lia.
Qed.

(** The taps of the whole block lie in the padded plane, and reach the same samples of the endless
    picture as the unlimited position would. *)
Lemma luma_taps_in : forall img blk pos mv, blk_ok img pos blk -> mv_ok mv -> img <= 8184 ->
  let q := cu_get_mc_pos_mv img blk pos mv in
  q mod 4 = (4 * pos + mv) mod 4 /\
  (forall k, -3 <= k < blk + 4 -> -80 <= q / 4 + k < img + 80 /\
     clamp 0 (img - 1) (q / 4 + k) = clamp 0 (img - 1) ((4 * pos + mv) / 4 + k)).
Proof.
  intros img blk pos mv HB HM HI. cbv zeta.
  destruct (pos_facts img blk pos mv HB HM HI) as [q [E [M C]]]. rewrite E.
  destruct HB as [I8 [I0 [P4 [S4 [SB [P0 PE]]]]]]. split.
  - clear - M. Z.div_mod_to_equations. lia.
  - intros k Hk. unfold clamp. destruct C as [[Q1 Q2] | [[Q1 Q2] | [Q1 Q2]]].
    + rewrite Q1 in Q2 |- *. clear - Q2 SB Hk I0. lia.
    + assert (- blk - 8 <= q / 4 < - blk - 6) by (clear - Q1; Z.div_mod_to_equations; lia). lia.
    + assert (img + 4 <= q / 4 < img + 6) by (clear - Q1; Z.div_mod_to_equations; lia). lia.
Qed.
Lemma chroma_taps_in : forall img blk pos mv, blk_ok img pos blk -> mv_ok mv -> img <= 8184 ->
  let q := cu_get_mc_pos_mv img blk pos mv in
  q mod 8 = (4 * pos + mv) mod 8 /\
  (forall k, -1 <= k < blk / 2 + 2 -> -40 <= q / 8 + k < img / 2 + 40 /\
     clamp 0 (img / 2 - 1) (q / 8 + k) = clamp 0 (img / 2 - 1) ((4 * pos + mv) / 8 + k)).
Proof.
  intros img blk pos mv HB HM HI. cbv zeta.
  destruct (pos_facts img blk pos mv HB HM HI) as [q [E [M C]]]. rewrite E.
  destruct HB as [I8 [I0 [P4 [S4 [SB [P0 PE]]]]]]. split; [exact M|].
  assert (I2: 2 * (img / 2) = img) by (clear - I8; Z.div_mod_to_equations; lia).
  assert (B2: 2 * (blk / 2) = blk) by (clear - S4; Z.div_mod_to_equations; lia).
  intros k Hk. unfold clamp. destruct C as [[Q1 Q2] | [[Q1 Q2] | [Q1 Q2]]].
  - rewrite Q1 in Q2 |- *. assert (- blk - 8 <= 2 * ((4 * pos + mv) / 8) + 1 /\ 2 * ((4 * pos + mv) / 8) <= img + 4) by (clear - Q2; Z.div_mod_to_equations; lia). lia.
  - assert (2 * (q / 8) = - blk - 8) by (clear - Q1 S4; Z.div_mod_to_equations; lia).
    assert (2 * ((4 * pos + mv) / 8) < - blk - 8) by (clear - Q2 S4; Z.div_mod_to_equations; lia). lia.
  - assert (2 * (q / 8) = img + 4) by (clear - Q1 I8; Z.div_mod_to_equations; lia).
    assert (img + 4 <= 2 * ((4 * pos + mv) / 8) + 1) by (clear - Q2 I8; Z.div_mod_to_equations; lia). lia.
Qed.

Lemma clamp_in : forall n v, 1 <= n -> 0 <= clamp 0 (n - 1) v < n.
Proof. intros. unfold clamp. lia. Qed.

Lemma pred_luma_endless : forall d W H dst i_dst bx by_ w h mv src pf stride t0 m,
  mc_depth d -> pic_ok W H bx by_ w h mv -> Z.of_nat w <= i_dst -> (forall a, 0 <= src a < 2 ^ d) ->
  padded 80 W H (plane src pf stride) ->
  (forall x y, 0 <= x < Z.of_nat w -> 0 <= y < Z.of_nat h ->
    pred_luma d (W, H) dst i_dst bx by_ w h mv src pf stride t0 m (dst + y * i_dst + x) =
    interp_luma d (endless W H (plane src pf stride)) (4 * (bx + x) + fst mv) (4 * (by_ + y) + snd mv)) /\
  (forall p, ~ in_block w h dst i_dst p -> pred_luma d (W, H) dst i_dst bx by_ w h mv src pf stride t0 m p = m p).
Proof.
  intros d W H dst i_dst bx by_ w h mv src pf stride t0 m Hd [HX [HY [HW [HH [MX MY]]]]] Hw HS HP.
  unfold pred_luma. cbn [fst snd].
  destruct (luma_taps_in W (Z.of_nat w) bx (fst mv) HX MX HW) as [EX TX].
  destruct (luma_taps_in H (Z.of_nat h) by_ (snd mv) HY MY HH) as [EY TY].
  set (qx := cu_get_mc_pos_mv W (Z.of_nat w) bx (fst mv)) in *. set (qy := cu_get_mc_pos_mv H (Z.of_nat h) by_ (snd mv)) in *.
  assert (W64: (w <= 64)%nat) by (destruct HX as [_ [_ [_ [_ [B _]]]]]; lia).
  destruct (mc_luma_spec d dst i_dst qx qy w h src pf stride t0 m Hd W64 Hw HS) as [A B].
  split; [|exact B]. intros x y Hx Hy. rewrite A by assumption.
  unfold interp_luma. apply (interp_ext 4 3 8); [lia|lia|exact luma_len_le| | |].
  - replace (qx + 4 * x) with (qx + x * 4) by lia. replace (4 * (bx + x) + fst mv) with (4 * bx + fst mv + x * 4) by lia.
    rewrite !Z.mod_add by lia. exact EX.
  - replace (qy + 4 * y) with (qy + y * 4) by lia. replace (4 * (by_ + y) + snd mv) with (4 * by_ + snd mv + y * 4) by lia.
    rewrite !Z.mod_add by lia. exact EY.
  - intros i j Hi Hj.
    replace (qx + 4 * x) with (qx + x * 4) by lia. replace (4 * (bx + x) + fst mv) with (4 * bx + fst mv + x * 4) by lia.
    replace (qy + 4 * y) with (qy + y * 4) by lia. replace (4 * (by_ + y) + snd mv) with (4 * by_ + snd mv + y * 4) by lia.
    rewrite !Z.div_add by lia.
    destruct (TX (x + i) ltac:(lia)) as [PX CX]. destruct (TY (y + j) ltac:(lia)) as [PY CY].
    rewrite HP by lia. unfold endless. f_equal.
    + replace (qx / 4 + x + i) with (qx / 4 + (x + i)) by lia. rewrite CX. f_equal. lia.
    + replace (qy / 4 + y + j) with (qy / 4 + (y + j)) by lia. rewrite CY. f_equal. lia.
Qed.

Lemma div2_half : forall n, Z.of_nat (Nat.div2 n) = Z.of_nat n / 2.
Proof. intros n. now rewrite Nat.div2_div, Nat2Z.inj_div. Qed.

Lemma pred_chroma_endless : forall d W H dst i_dst bx by_ w h mv src pf stride t0 m,
  mc_depth d -> pic_ok W H bx by_ w h mv -> Z.of_nat w / 2 <= i_dst ->
  padded 40 (W / 2) (H / 2) (plane src pf stride) ->
  (forall x y, 0 <= x < Z.of_nat w / 2 -> 0 <= y < Z.of_nat h / 2 ->
    pred_chroma d (W, H) dst i_dst bx by_ w h mv src pf stride t0 m (dst + y * i_dst + x) =
    interp_chroma d (endless (W / 2) (H / 2) (plane src pf stride)) (8 * (bx / 2 + x) + fst mv) (8 * (by_ / 2 + y) + snd mv)) /\
  (forall p, ~ in_block (Nat.div2 w) (Nat.div2 h) dst i_dst p -> pred_chroma d (W, H) dst i_dst bx by_ w h mv src pf stride t0 m p = m p).
Proof.
  intros d W H dst i_dst bx by_ w h mv src pf stride t0 m Hd [HX [HY [HW [HH [MX MY]]]]] Hw HP.
  unfold pred_chroma. cbn [fst snd].
  destruct (chroma_taps_in W (Z.of_nat w) bx (fst mv) HX MX HW) as [EX TX].
  destruct (chroma_taps_in H (Z.of_nat h) by_ (snd mv) HY MY HH) as [EY TY].
  set (qx := cu_get_mc_pos_mv W (Z.of_nat w) bx (fst mv)) in *. set (qy := cu_get_mc_pos_mv H (Z.of_nat h) by_ (snd mv)) in *.
  assert (XB: 8 * (bx / 2) = 4 * bx) by (destruct HX as [_ [_ [P4 _]]]; clear - P4; Z.div_mod_to_equations; lia).
  assert (YB: 8 * (by_ / 2) = 4 * by_) by (destruct HY as [_ [_ [P4 _]]]; clear - P4; Z.div_mod_to_equations; lia).
  assert (W32: (Nat.div2 w <= 32)%nat).
  { apply Nat2Z.inj_le. rewrite div2_half. destruct HX as [_ [_ [_ [_ [B _]]]]]. clear - B. change (Z.of_nat 32) with 32. Z.div_mod_to_equations. lia. }
  destruct (mc_chroma_spec d dst i_dst qx qy (Nat.div2 w) (Nat.div2 h) src pf stride t0 m Hd W32) as [A B].
  { rewrite div2_half. exact Hw. }
  split; [|exact B]. rewrite !div2_half in A. intros x y Hx Hy. rewrite A by assumption.
  unfold interp_chroma. apply (interp_ext 8 1 4); [lia|lia|exact chroma_len_le| | |].
  - replace (qx + 8 * x) with (qx + x * 8) by lia. replace (8 * (bx / 2 + x) + fst mv) with (4 * bx + fst mv + x * 8) by lia.
    rewrite !Z.mod_add by lia. exact EX.
  - replace (qy + 8 * y) with (qy + y * 8) by lia. replace (8 * (by_ / 2 + y) + snd mv) with (4 * by_ + snd mv + y * 8) by lia.
    rewrite !Z.mod_add by lia. exact EY.
  - intros i j Hi Hj.
    replace (qx + 8 * x) with (qx + x * 8) by lia. replace (8 * (bx / 2 + x) + fst mv) with (4 * bx + fst mv + x * 8) by lia.
    replace (qy + 8 * y) with (qy + y * 8) by lia. replace (8 * (by_ / 2 + y) + snd mv) with (4 * by_ + snd mv + y * 8) by lia.
    rewrite !Z.div_add by lia.
    destruct (TX (x + i) ltac:(lia)) as [PX CX]. destruct (TY (y + j) ltac:(lia)) as [PY CY].
    rewrite HP by lia. unfold endless. f_equal.
    + replace (qx / 8 + x + i) with (qx / 8 + (x + i)) by lia. rewrite CX. f_equal. lia.
    + replace (qy / 8 + y + j) with (qy / 8 + (y + j)) by lia. rewrite CY. f_equal. lia.
Qed.

(** Averaging of two predictions. *)
Lemma average_spec : forall dst i_dst src1 p1 i1 w h m, Z.of_nat w <= i_dst ->
  (forall x y, 0 <= x < Z.of_nat w -> 0 <= y < Z.of_nat h ->
    pixel_average dst i_dst src1 p1 i1 w h m (dst + y * i_dst + x) =
    (m (dst + y * i_dst + x) + src1 (p1 + y * i1 + x) + 1) / 2) /\
  (forall p, ~ in_block w h dst i_dst p -> pixel_average dst i_dst src1 p1 i1 w h m p = m p).
Proof.
  intros dst i_dst src1 p1 i1 w h m Hw. unfold pixel_average.
  destruct (block_write_spec w h dst i_dst (fun x y m => Z.shiftr (m (dst + y * i_dst + x) + src1 (p1 + y * i1 + x) + 1) 1) m Hw) as [A B].
  - intros x y m' Hx Hy K. cbv beta. rewrite K; [reflexivity|]. right. unfold bpos. lia.
  - split; [|exact B]. intros x y Hx Hy. etransitivity; [exact (A x y Hx Hy)|]. cbv beta. now rewrite Z.shiftr_div_pow2 by lia.
Qed.

Lemma bipred_luma_spec : forall d W H dst i_dst bx by_ w h mv1 mv2 src1 p1 src2 p2 stride t0 tb m,
  mc_depth d -> pic_ok W H bx by_ w h mv1 -> pic_ok W H bx by_ w h mv2 -> Z.of_nat w <= i_dst ->
  (forall a, 0 <= src1 a < 2 ^ d) -> (forall a, 0 <= src2 a < 2 ^ d) ->
  padded 80 W H (plane src1 p1 stride) -> padded 80 W H (plane src2 p2 stride) ->
  (forall x y, 0 <= x < Z.of_nat w -> 0 <= y < Z.of_nat h ->
    bipred_luma d (W, H) dst i_dst bx by_ w h mv1 mv2 src1 p1 src2 p2 stride t0 tb m (dst + y * i_dst + x) =
    (interp_luma d (endless W H (plane src1 p1 stride)) (4 * (bx + x) + fst mv1) (4 * (by_ + y) + snd mv1) +
     interp_luma d (endless W H (plane src2 p2 stride)) (4 * (bx + x) + fst mv2) (4 * (by_ + y) + snd mv2) + 1) / 2) /\
  (forall p, ~ in_block w h dst i_dst p -> bipred_luma d (W, H) dst i_dst bx by_ w h mv1 mv2 src1 p1 src2 p2 stride t0 tb m p = m p).
Proof.
  intros d W H dst i_dst bx by_ w h mv1 mv2 src1 p1 src2 p2 stride t0 tb m Hd H1 H2 Hw S1 S2 P1 P2.
  unfold bipred_luma. cbv zeta.
  destruct (pred_luma_endless d W H dst i_dst bx by_ w h mv1 src1 p1 stride t0 m Hd H1 Hw S1 P1) as [A1 B1].
  assert (W64: Z.of_nat w <= 64) by (destruct H1 as [[_ [_ [_ [_ [B _]]]]] _]; lia).
  destruct (pred_luma_endless d W H 0 64 bx by_ w h mv2 src2 p2 stride t0 tb Hd H2 W64 S2 P2) as [A2 _].
  match goal with |- context [pixel_average _ _ ?s _ _ _ _ ?mm] => destruct (average_spec dst i_dst s 0 64 w h mm Hw) as [A B] end.
  split.
  - intros x y Hx Hy. rewrite A, A1, A2 by assumption. reflexivity.
  - intros p Hp. rewrite B, B1 by exact Hp. reflexivity.
Qed.
Lemma bipred_chroma_spec : forall d W H dst i_dst bx by_ w h mv1 mv2 src1 p1 src2 p2 stride t0 tb m,
  mc_depth d -> pic_ok W H bx by_ w h mv1 -> pic_ok W H bx by_ w h mv2 -> Z.of_nat w / 2 <= i_dst ->
  padded 40 (W / 2) (H / 2) (plane src1 p1 stride) -> padded 40 (W / 2) (H / 2) (plane src2 p2 stride) ->
  (forall x y, 0 <= x < Z.of_nat w / 2 -> 0 <= y < Z.of_nat h / 2 ->
    bipred_chroma d (W, H) dst i_dst bx by_ w h mv1 mv2 src1 p1 src2 p2 stride t0 tb m (dst + y * i_dst + x) =
    (interp_chroma d (endless (W / 2) (H / 2) (plane src1 p1 stride)) (8 * (bx / 2 + x) + fst mv1) (8 * (by_ / 2 + y) + snd mv1) +
     interp_chroma d (endless (W / 2) (H / 2) (plane src2 p2 stride)) (8 * (bx / 2 + x) + fst mv2) (8 * (by_ / 2 + y) + snd mv2) + 1) / 2) /\
  (forall p, ~ in_block (Nat.div2 w) (Nat.div2 h) dst i_dst p ->
    bipred_chroma d (W, H) dst i_dst bx by_ w h mv1 mv2 src1 p1 src2 p2 stride t0 tb m p = m p).
Proof.
  intros d W H dst i_dst bx by_ w h mv1 mv2 src1 p1 src2 p2 stride t0 tb m Hd H1 H2 Hw P1 P2.
  unfold bipred_chroma. cbv zeta.
  destruct (pred_chroma_endless d W H dst i_dst bx by_ w h mv1 src1 p1 stride t0 m Hd H1 Hw P1) as [A1 B1].
  assert (W64: Z.of_nat w / 2 <= 32).
  { destruct H1 as [[_ [_ [_ [_ [B _]]]]] _]. clear - B. Z.div_mod_to_equations. lia. }
  destruct (pred_chroma_endless d W H 0 32 bx by_ w h mv2 src2 p2 stride t0 tb Hd H2 W64 P2) as [A2 _].
  assert (Hw': Z.of_nat (Nat.div2 w) <= i_dst) by (rewrite div2_half; exact Hw).
  match goal with |- context [pixel_average _ _ ?s _ _ _ _ ?mm] => destruct (average_spec dst i_dst s 0 32 (Nat.div2 w) (Nat.div2 h) mm Hw') as [A B] end.
  rewrite !div2_half in A. split.
  - intros x y Hx Hy. rewrite A, A1, A2 by assumption. reflexivity.
  - intros p Hp. rewrite B, B1 by exact Hp. reflexivity.
Qed.

(** The lines read are final when the row waited for has been signalled. *)
Lemma wait_luma : forall lv H vec_y h y, 4 <= lv <= 6 -> 1 <= H -> 0 <= h ->
  vec_y / 4 - 3 <= y < vec_y / 4 + h + 4 ->
  let rows := (H + 2 ^ lv - 1) / 2 ^ lv in let k := wait_row lv rows vec_y h in
  0 <= k < rows /\ (k = rows - 1 \/ clamp 0 (H - 1) y < first_line false lv (k + 1)).
Proof.
  intros lv H vec_y h y Hlv HH Hh Hy. cbv zeta. unfold wait_row, first_line, clamp. rewrite !Z.shiftr_div_pow2 by lia. change (2 ^ 2) with 4.
  assert (P: 16 <= 2 ^ lv) by (change 16 with (2 ^ 4); apply Z.pow_le_mono_r; lia).
  set (n := 2 ^ lv) in *. clearbody n. set (v := vec_y / 4) in *. clearbody v.
  assert (R1: 1 <= (H + n - 1) / n) by (apply Z.div_le_lower_bound; lia).
  set (rows := (H + n - 1) / n) in *.
  assert (D := Z.div_mod (v + h + 8 + 4 + 8) n ltac:(lia)). assert (M := Z.mod_pos_bound (v + h + 8 + 4 + 8) n ltac:(lia)).
  set (t := (v + h + 8 + 4 + 8) / n) in *. clearbody t. split; [lia|].
  destruct (Z.leb_spec (rows - 1) t) as [L|L]; [left; lia|right].
  destruct (Z.eqb_spec (Z.min (Z.max t 0) (rows - 1) + 1) 0) as [Q|Q]; [lia|].
  rewrite Z.div_1_r. replace (Z.min (Z.max t 0) (rows - 1)) with (Z.max t 0) by lia.
  destruct (Z.leb_spec 0 t) as [T|T].
  - replace (Z.max t 0) with t by lia. lia.
  - replace (Z.max t 0) with 0 by lia. assert (v + h + 20 < 0) by nia. lia.
Qed.

Lemma wait_chroma : forall lv H vec_y h y, 4 <= lv <= 6 -> 2 <= H -> H mod 2 = 0 -> 0 <= h -> h mod 2 = 0 ->
  vec_y / 8 - 1 <= y < vec_y / 8 + h / 2 + 2 ->
  let rows := (H + 2 ^ lv - 1) / 2 ^ lv in let k := wait_row lv rows vec_y h in
  0 <= k < rows /\ (k = rows - 1 \/ clamp 0 (H / 2 - 1) y < first_line true lv (k + 1)).
Proof.
  intros lv H vec_y h y Hlv HH HE Hh HhE Hy. cbv zeta. unfold wait_row, first_line, clamp. rewrite !Z.shiftr_div_pow2 by lia. change (2 ^ 2) with 4.
  assert (P: 8 <= 2 ^ (lv - 1)) by (change 8 with (2 ^ 3); apply Z.pow_le_mono_r; lia).
  assert (EN: 2 ^ lv = 2 * 2 ^ (lv - 1)) by (rewrite <- Z.pow_succ_r by lia; f_equal; lia). rewrite !EN.
  set (n := 2 ^ (lv - 1)) in *. clearbody n. clear EN.
  assert (V: 2 * (vec_y / 8) <= vec_y / 4) by (clear; Z.div_mod_to_equations; lia).
  set (v := vec_y / 4) in *. clearbody v. set (v8 := vec_y / 8) in *. clearbody v8.
  assert (R1: 1 <= (H + 2 * n - 1) / (2 * n)) by (apply Z.div_le_lower_bound; lia).
  set (rows := (H + 2 * n - 1) / (2 * n)) in *.
  assert (D := Z.div_mod (v + h + 8 + 4 + 8) (2 * n) ltac:(lia)). assert (M := Z.mod_pos_bound (v + h + 8 + 4 + 8) (2 * n) ltac:(lia)).
  set (t := (v + h + 8 + 4 + 8) / (2 * n)) in *. clearbody t. split; [lia|].
  assert (H2: 2 * (h / 2) = h) by (clear - HhE; Z.div_mod_to_equations; lia).
  set (h2 := h / 2) in *. clearbody h2.
  destruct (Z.leb_spec (rows - 1) t) as [L|L]; [left; lia|right].
  destruct (Z.eqb_spec (Z.min (Z.max t 0) (rows - 1) + 1) 0) as [Q|Q]; [lia|].
  replace (Z.min (Z.max t 0) (rows - 1)) with (Z.max t 0) by lia.
  replace ((Z.max t 0 + 1) * (2 * n) / 2) with ((Z.max t 0 + 1) * n).
  2: { replace ((Z.max t 0 + 1) * (2 * n)) with ((Z.max t 0 + 1) * n * 2) by ring. now rewrite Z.div_mul. }
  destruct (Z.leb_spec 0 t) as [T|T].
  - replace (Z.max t 0) with t by lia. set (tn := t * n) in *. assert (2 * n * t = 2 * tn) by (unfold tn; ring). lia.
  - replace (Z.max t 0) with 0 by lia. assert (v + h + 20 < 0) by nia. lia.
Qed.
