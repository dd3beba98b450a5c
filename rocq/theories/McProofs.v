(** Proofs about motion compensation. *)
From Coq Require Import ZArith List Bool Lia.
From Verif Require Import CBase UtilModel UtilSpec UtilProofs MemModel MemProofs AlfSpec McModel McSpec.
Import ListNotations.
Open Scope Z_scope.

Lemma bw_spec : forall w h dst stride (v : Z -> Z -> Z) m, Z.of_nat w <= stride ->
  (forall x y, 0 <= x < Z.of_nat w -> 0 <= y < Z.of_nat h ->
     block_write w h dst stride (fun x y _ => v x y) m (dst + y * stride + x) = v x y) /\
  (forall p, ~ in_block w h dst stride p -> block_write w h dst stride (fun x y _ => v x y) m p = m p).
Proof.
  intros w h dst stride v m H.
  exact (block_write_spec w h dst stride (fun x y _ => v x y) m H (fun x y m' _ _ _ => eq_refl)).
Qed.

Lemma wsum_ext : forall c g g' a a',
  (forall k, 0 <= k < Z.of_nat (length c) -> g (a + k) = g' (a' + k)) -> wsum c g a = wsum c g' a'.
Proof.
  induction c as [|w c IH]; intros g g' a a' H; [reflexivity|]. cbn [wsum].
  cbn [length] in H. f_equal.
  - f_equal. generalize (H 0 ltac:(lia)). now rewrite !Z.add_0_r.
  - apply IH. intros k Hk. generalize (H (k + 1) ltac:(lia)).
    replace (a + (k + 1)) with (a + 1 + k) by lia. now replace (a' + (k + 1)) with (a' + 1 + k) by lia.
Qed.
Lemma luma_len : forall f, 0 < f < 4 -> length (luma_taps f) = 8%nat.
Proof. intros f H. assert (C: f = 1 \/ f = 2 \/ f = 3) by lia. destruct C as [-> | [-> | ->]]; reflexivity. Qed.
Lemma chroma_len : forall f, 0 < f < 8 -> length (chroma_taps f) = 4%nat.
Proof.
  intros f H. assert (C: f = 1 \/ f = 2 \/ f = 3 \/ f = 4 \/ f = 5 \/ f = 6 \/ f = 7) by lia.
  destruct C as [-> | [-> | [-> | [-> | [-> | [-> | ->]]]]]]; reflexivity.
Qed.
Lemma luma_tab : forall f, 0 < f < 4 -> nth (Z.to_nat f) intpl_filters [] = luma_taps f.
Proof. intros f H. assert (C: f = 1 \/ f = 2 \/ f = 3) by lia. destruct C as [-> | [-> | ->]]; reflexivity. Qed.
Lemma chroma_tab : forall f, 0 < f < 8 -> nth (Z.to_nat f) intpl_filters_c [] = chroma_taps f.
Proof.
  intros f H. assert (C: f = 1 \/ f = 2 \/ f = 3 \/ f = 4 \/ f = 5 \/ f = 6 \/ f = 7) by lia.
  destruct C as [-> | [-> | [-> | [-> | [-> | [-> | ->]]]]]]; reflexivity.
Qed.

Lemma flt8_wsum : forall src i step c, length c = 8%nat ->
  flt_8tap src i step c = wsum c (fun k => src (i + k * step)) (-3).
Proof.
  intros src i step c H. do 8 (destruct c as [|? c]; [discriminate|]). destruct c; [|discriminate].
  unfold flt_8tap, coef. cbn [nth wsum].
  replace (i + -3 * step) with (i - 3 * step) by lia. replace (i + (-3 + 1) * step) with (i - 2 * step) by lia.
  replace (i + (-3 + 1 + 1) * step) with (i - step) by lia. replace (i + (-3 + 1 + 1 + 1) * step) with i by lia.
  replace (i + (-3 + 1 + 1 + 1 + 1) * step) with (i + step) by lia. replace (i + (-3 + 1 + 1 + 1 + 1 + 1) * step) with (i + 2 * step) by lia.
  replace (i + (-3 + 1 + 1 + 1 + 1 + 1 + 1) * step) with (i + 3 * step) by lia.
  replace (i + (-3 + 1 + 1 + 1 + 1 + 1 + 1 + 1) * step) with (i + 4 * step) by lia. ring.
Qed.
Lemma flt4_wsum : forall src i step c, length c = 4%nat ->
  flt_4tap src i step c = wsum c (fun k => src (i + k * step)) (-1).
Proof.
  intros src i step c H. do 4 (destruct c as [|? c]; [discriminate|]). destruct c; [|discriminate].
  unfold flt_4tap, coef. cbn [nth wsum].
  replace (i + -1 * step) with (i - step) by lia. replace (i + (-1 + 1) * step) with i by lia.
  replace (i + (-1 + 1 + 1) * step) with (i + step) by lia. replace (i + (-1 + 1 + 1 + 1) * step) with (i + 2 * step) by lia. ring.
Qed.

Lemma shift_rshift : forall v s, 0 <= s -> Z.shiftr (v + Z.shiftr (Z.shiftl 1 s) 1) s = rshift v s.
Proof.
  intros v s H. unfold rshift. rewrite Z.shiftl_mul_pow2, Z.mul_1_l by lia. rewrite !Z.shiftr_div_pow2 by lia.
  destruct (Z.eqb_spec s 0) as [-> | N].
  - change (2 ^ 0) with 1. rewrite Z.div_1_r. change (1 / 2 ^ 1) with 0. lia.
  - change (2 ^ 1) with 2. replace (2 ^ s) with (2 ^ (s - 1) * 2) at 1.
    + now rewrite Z.div_mul.
    + rewrite Z.mul_comm, <- Z.pow_succ_r by lia. f_equal. lia.
Qed.
Lemma shift_rshift' : forall v s, 0 < s -> Z.shiftr (v + Z.shiftl 1 (s - 1)) s = rshift v s.
Proof.
  intros v s H. unfold rshift. rewrite Z.shiftl_mul_pow2, Z.mul_1_l by lia. rewrite Z.shiftr_div_pow2 by lia.
  destruct (Z.eqb_spec s 0); [lia|reflexivity].
Qed.
Lemma shift_6 : forall v, Z.shiftr (v + 32) 6 = rshift v 6.
Proof. intros v. exact (shift_rshift' v 6 ltac:(lia)). Qed.
Lemma clip1_sample : forall d v, mc_depth d -> clip1 d v = sample d v.
Proof. intros d v H. unfold mc_depth in H. rewrite clip1_eq by lia. reflexivity. Qed.

Lemma rshift_mono : forall s v v', 0 <= s -> v <= v' -> rshift v s <= rshift v' s.
Proof.
  intros s v v' H L. unfold rshift. destruct (s =? 0); [exact L|]. apply Z.div_le_mono; [|lia].
  apply Z.pow_pos_nonneg; lia.
Qed.
Lemma rshift_exact : forall s k, 0 <= s -> rshift (k * 2 ^ s) s = k.
Proof.
  intros s k H. unfold rshift. destruct (Z.eqb_spec s 0) as [-> | N].
  - change (2 ^ 0) with 1. lia.
  - replace (2 ^ s) with (2 * 2 ^ (s - 1)).
    + assert (P: 0 < 2 ^ (s - 1)) by (apply Z.pow_pos_nonneg; lia).
      symmetry. apply Z.div_unique with (2 ^ (s - 1)); lia.
    + rewrite <- Z.pow_succ_r by lia. f_equal. lia.
Qed.

(** Bounds of one filter pass. *)
Lemma wsum_luma : forall f g a M, 0 < f < 4 -> 0 <= M -> (forall k, 0 <= g k <= M) ->
  - (24 * M) <= wsum (luma_taps f) g a <= 88 * M.
Proof.
  intros f g a M H HM G. assert (C: f = 1 \/ f = 2 \/ f = 3) by lia.
  generalize (G a) (G (a + 1)) (G (a + 1 + 1)) (G (a + 1 + 1 + 1)) (G (a + 1 + 1 + 1 + 1)) (G (a + 1 + 1 + 1 + 1 + 1))
    (G (a + 1 + 1 + 1 + 1 + 1 + 1)) (G (a + 1 + 1 + 1 + 1 + 1 + 1 + 1)).
  destruct C as [-> | [-> | ->]]; cbn [wsum luma_taps Z.eqb Pos.eqb]; lia.
Qed.
Lemma wsum_chroma : forall f g a M, 0 < f < 8 -> 0 <= M -> (forall k, 0 <= g k <= M) ->
  - (8 * M) <= wsum (chroma_taps f) g a <= 72 * M.
Proof.
  intros f g a M H HM G. assert (C: f = 1 \/ f = 2 \/ f = 3 \/ f = 4 \/ f = 5 \/ f = 6 \/ f = 7) by lia.
  generalize (G a) (G (a + 1)) (G (a + 1 + 1)) (G (a + 1 + 1 + 1)).
  destruct C as [-> | [-> | [-> | [-> | [-> | [-> | ->]]]]]]; cbn [wsum chroma_taps Z.eqb Pos.eqb]; lia.
Qed.
(** The stored intermediate value. *)
Lemma pass1_range : forall d v P N, mc_depth d -> 0 <= N -> 0 <= P -> - (N * (2 ^ d - 1)) <= v <= P * (2 ^ d - 1) ->
  - (N * 256) <= rshift v (d - 8) <= P * 256.
Proof.
  intros d v P N H HN HP HV. unfold mc_depth in H.
  assert (E: 2 ^ d = 256 * 2 ^ (d - 8)) by (change 256 with (2 ^ 8); rewrite <- Z.pow_add_r by lia; f_equal; lia).
  assert (Q: 0 < 2 ^ (d - 8)) by (apply Z.pow_pos_nonneg; lia).
  rewrite E in HV. split.
  - rewrite <- (rshift_exact (d - 8) (- (N * 256))) by lia. apply rshift_mono; [lia|]. nia.
  - rewrite <- (rshift_exact (d - 8) (P * 256)) by lia. apply rshift_mono; [lia|]. nia.
Qed.
Lemma to_i16_id : forall v, -32768 <= v <= 32767 -> to_i16 v = v.
Proof. intros v H. unfold to_i16. rewrite Z.mod_small; lia. Qed.

Lemma land3 : forall v, Z.land v 3 = v mod 4.
Proof. intros v. exact (Z.land_ones v 2 ltac:(lia)). Qed.
Lemma land7 : forall v, Z.land v 7 = v mod 8.
Proof. intros v. exact (Z.land_ones v 3 ltac:(lia)). Qed.

Lemma interp_shift : forall n b taps d r X Y x y, 0 < n ->
  interp n b taps d r (X + n * x) (Y + n * y) = interp n b taps d (fun i j => r (i + x) (j + y)) X Y.
Proof.
  intros n b taps d r X Y x y H. unfold interp. cbv zeta.
  replace (X + n * x) with (X + x * n) by lia. replace (Y + n * y) with (Y + y * n) by lia.
  rewrite !Z.div_add, !Z.mod_add by lia.
  destruct (X mod n =? 0); destruct (Y mod n =? 0); cbn [andb]; [reflexivity| | |].
  - do 2 f_equal. apply wsum_ext. intros k Hk. f_equal. lia.
  - do 2 f_equal. apply wsum_ext. intros k Hk. f_equal. lia.
  - do 2 f_equal. apply wsum_ext. intros k Hk. f_equal. apply wsum_ext. intros l Hl. f_equal; lia.
Qed.

Lemma interp_ext : forall n b L taps d r r' X Y X' Y', 0 < n -> 0 <= b < L ->
  (forall f, 0 < f < n -> Z.of_nat (length (taps f)) <= L) ->
  X mod n = X' mod n -> Y mod n = Y' mod n ->
  (forall i j, - b <= i < L - b -> - b <= j < L - b -> r (X / n + i) (Y / n + j) = r' (X' / n + i) (Y' / n + j)) ->
  interp n b taps d r X Y = interp n b taps d r' X' Y'.
Proof.
  intros n b L taps d r r' X Y X' Y' Hn Hb HL EX EY HR. unfold interp. cbv zeta. rewrite <- EX, <- EY.
  assert (BX := Z.mod_pos_bound X n Hn). assert (BY := Z.mod_pos_bound Y n Hn).
  destruct (Z.eqb_spec (X mod n) 0) as [ZX|ZX]; destruct (Z.eqb_spec (Y mod n) 0) as [ZY|ZY]; cbn [andb].
  - generalize (HR 0 0 ltac:(lia) ltac:(lia)). now rewrite !Z.add_0_r.
  - do 2 f_equal. apply wsum_ext. intros k Hk. assert (LY := HL (Y mod n) ltac:(lia)).
    generalize (HR 0 (k - b) ltac:(lia) ltac:(lia)). rewrite !Z.add_0_r.
    replace (Y / n + (k - b)) with (Y / n - b + k) by lia. now replace (Y' / n + (k - b)) with (Y' / n - b + k) by lia.
  - do 2 f_equal. apply wsum_ext. intros k Hk. assert (LX := HL (X mod n) ltac:(lia)).
    generalize (HR (k - b) 0 ltac:(lia) ltac:(lia)). rewrite !Z.add_0_r.
    replace (X / n + (k - b)) with (X / n - b + k) by lia. now replace (X' / n + (k - b)) with (X' / n - b + k) by lia.
  - do 2 f_equal. apply wsum_ext. intros k Hk. f_equal. apply wsum_ext. intros l Hl.
    assert (LX := HL (X mod n) ltac:(lia)). assert (LY := HL (Y mod n) ltac:(lia)).
    generalize (HR (l - b) (k - b) ltac:(lia) ltac:(lia)).
    replace (X / n + (l - b)) with (X / n - b + l) by lia. replace (X' / n + (l - b)) with (X' / n - b + l) by lia.
    replace (Y / n + (k - b)) with (Y / n - b + k) by lia. now replace (Y' / n + (k - b)) with (Y' / n - b + k) by lia.
Qed.
Lemma luma_len_le : forall f, 0 < f < 4 -> Z.of_nat (length (luma_taps f)) <= 8.
Proof. intros f H. rewrite luma_len; [reflexivity|exact H]. Qed.
Lemma chroma_len_le : forall f, 0 < f < 8 -> Z.of_nat (length (chroma_taps f)) <= 4.
Proof. intros f H. rewrite chroma_len; [reflexivity|exact H]. Qed.

(** The kernels compute the interpolated samples. *)
Lemma mc_luma_spec : forall d dst i_dst posx posy w h src pf stride t0 m,
  mc_depth d -> (w <= 64)%nat -> Z.of_nat w <= i_dst -> (forall a, 0 <= src a < 2 ^ d) ->
  (forall x y, 0 <= x < Z.of_nat w -> 0 <= y < Z.of_nat h ->
     mc_luma d dst i_dst posx posy w h src pf stride t0 m (dst + y * i_dst + x) =
     interp_luma d (plane src pf stride) (posx + 4 * x) (posy + 4 * y)) /\
  (forall p, ~ in_block w h dst i_dst p -> mc_luma d dst i_dst posx posy w h src pf stride t0 m p = m p).
Proof.
  intros d dst i_dst posx posy w h src pf stride t0 m Hd Hw64 Hw Hsrc. unfold mc_luma. cbv zeta.
  rewrite !land3. rewrite !Z.shiftr_div_pow2 by lia. change (2 ^ 2) with 4.
  assert (BX := Z.mod_pos_bound posx 4 ltac:(lia)). assert (BY := Z.mod_pos_bound posy 4 ltac:(lia)).
  destruct (Z.eqb_spec (posx mod 4) 0) as [ZX|ZX]; destruct (Z.eqb_spec (posy mod 4) 0) as [ZY|ZY]; cbn [andb].
  - unfold mc_block_copy. edestruct (bw_spec w h dst i_dst) as [A B]; [exact Hw|]. split; [|exact B].
    intros x y Hx Hy. rewrite A by assumption. unfold interp_luma. rewrite interp_shift by lia.
    unfold interp. cbv zeta. rewrite ZX, ZY. cbn [Z.eqb andb]. unfold plane. f_equal. lia.
  - unfold intpl_luma_block_ver. edestruct (bw_spec w h dst i_dst) as [A B]; [exact Hw|]. split; [|exact B].
    intros x y Hx Hy. rewrite A by assumption. unfold interp_luma. rewrite interp_shift by lia.
    unfold interp. cbv zeta. rewrite (proj2 (Z.eqb_eq _ _) ZX), (proj2 (Z.eqb_neq _ _) ZY). cbn [andb].
    rewrite shift_6, clip1_sample, luma_tab by (assumption || lia). rewrite flt8_wsum by (apply luma_len; lia).
    do 2 f_equal. apply wsum_ext. intros k Hk. unfold plane. f_equal. lia.
  - unfold intpl_luma_block_hor. edestruct (bw_spec w h dst i_dst) as [A B]; [exact Hw|]. split; [|exact B].
    intros x y Hx Hy. rewrite A by assumption. unfold interp_luma. rewrite interp_shift by lia.
    unfold interp. cbv zeta. rewrite (proj2 (Z.eqb_neq _ _) ZX), (proj2 (Z.eqb_eq _ _) ZY). cbn [andb].
    rewrite shift_6, clip1_sample, luma_tab by (assumption || lia). rewrite flt8_wsum by (apply luma_len; lia).
    do 2 f_equal. apply wsum_ext. intros k Hk. unfold plane. f_equal. lia.
  - unfold intpl_luma_block_ext. cbv zeta. rewrite !luma_tab by lia.
    set (p := pf + posy / 4 * stride + posx / 4).
    edestruct (bw_spec w (h + 7) 0 64 (fun x y => to_i16 (Z.shiftr (flt_8tap src (p - 3 * stride + y * stride + x) 1 (luma_taps (posx mod 4)) +
      Z.shiftr (Z.shiftl 1 (d - 8)) 1) (d - 8))) t0) as [T _]; [lia|].
    set (tmp := block_write w (h + 7) 0 64 _ t0) in *.
    edestruct (bw_spec w h dst i_dst) as [A B]; [exact Hw|]. split; [|exact B].
    intros x y Hx Hy. rewrite A by assumption. unfold interp_luma. rewrite interp_shift by lia.
    unfold interp. cbv zeta. rewrite (proj2 (Z.eqb_neq _ _) ZX), (proj2 (Z.eqb_neq _ _) ZY). cbn [andb].
    pose proof Hd as Hd'. unfold mc_depth in Hd'. clear A B.
    rewrite shift_rshift', clip1_sample by (assumption || lia). rewrite flt8_wsum by (apply luma_len; lia).
    do 2 f_equal. apply wsum_ext. intros k Hk. rewrite luma_len in Hk by lia.
    replace (3 * 64 + y * 64 + x + (-3 + k) * 64) with (0 + (y + k) * 64 + x) by lia.
    rewrite T by lia. rewrite shift_rshift by lia. rewrite flt8_wsum by (apply luma_len; lia).
    rewrite to_i16_id.
    + f_equal. apply wsum_ext. intros l Hl. unfold plane, p. f_equal. lia.
    + assert (R := pass1_range d (wsum (luma_taps (posx mod 4)) (fun k0 => src (p - 3 * stride + (y + k) * stride + x + k0 * 1)) (-3)) 88 24 Hd ltac:(lia) ltac:(lia)).
      assert (M1 := wsum_luma (posx mod 4) (fun k0 => src (p - 3 * stride + (y + k) * stride + x + k0 * 1)) (-3) (2 ^ d - 1) ltac:(lia)).
      assert (0 < 2 ^ d) by (apply Z.pow_pos_nonneg; lia).
      specialize (M1 ltac:(lia)). refine ((fun M2 => _) (M1 _)).
      2: { intros k0. cbv beta. match goal with |- 0 <= src ?a <= _ => generalize (Hsrc a); lia end. }
      specialize (R M2). lia.
Qed.

Lemma mc_chroma_spec : forall d dst i_dst posx posy w h src pf stride t0 m,
  mc_depth d -> (w <= 32)%nat -> Z.of_nat w <= i_dst ->
  (forall x y, 0 <= x < Z.of_nat w -> 0 <= y < Z.of_nat h ->
     mc_chroma d dst i_dst posx posy w h src pf stride t0 m (dst + y * i_dst + x) =
     interp_chroma d (plane src pf stride) (posx + 8 * x) (posy + 8 * y)) /\
  (forall p, ~ in_block w h dst i_dst p -> mc_chroma d dst i_dst posx posy w h src pf stride t0 m p = m p).
Proof.
  intros d dst i_dst posx posy w h src pf stride t0 m Hd Hw32 Hw. unfold mc_chroma. cbv zeta.
  rewrite !land7. rewrite !Z.shiftr_div_pow2 by lia. change (2 ^ 3) with 8.
  assert (BX := Z.mod_pos_bound posx 8 ltac:(lia)). assert (BY := Z.mod_pos_bound posy 8 ltac:(lia)).
  destruct (Z.eqb_spec (posx mod 8) 0) as [ZX|ZX]; destruct (Z.eqb_spec (posy mod 8) 0) as [ZY|ZY]; cbn [andb].
  - unfold mc_block_copy. edestruct (bw_spec w h dst i_dst) as [A B]; [exact Hw|]. split; [|exact B].
    intros x y Hx Hy. rewrite A by assumption. unfold interp_chroma. rewrite interp_shift by lia.
    unfold interp. cbv zeta. rewrite ZX, ZY. cbn [Z.eqb andb]. unfold plane. f_equal. lia.
  - unfold intpl_chroma_block_ver. edestruct (bw_spec w h dst i_dst) as [A B]; [exact Hw|]. split; [|exact B].
    intros x y Hx Hy. rewrite A by assumption. unfold interp_chroma. rewrite interp_shift by lia.
    unfold interp. cbv zeta. rewrite (proj2 (Z.eqb_eq _ _) ZX), (proj2 (Z.eqb_neq _ _) ZY). cbn [andb].
    rewrite shift_6, clip1_sample, chroma_tab by (assumption || lia). rewrite flt4_wsum by (apply chroma_len; lia).
    do 2 f_equal. apply wsum_ext. intros k Hk. unfold plane. f_equal. lia.
  - unfold intpl_chroma_block_hor. edestruct (bw_spec w h dst i_dst) as [A B]; [exact Hw|]. split; [|exact B].
    intros x y Hx Hy. rewrite A by assumption. unfold interp_chroma. rewrite interp_shift by lia.
    unfold interp. cbv zeta. rewrite (proj2 (Z.eqb_neq _ _) ZX), (proj2 (Z.eqb_eq _ _) ZY). cbn [andb].
    rewrite shift_6, clip1_sample, chroma_tab by (assumption || lia). rewrite flt4_wsum by (apply chroma_len; lia).
    do 2 f_equal. apply wsum_ext. intros k Hk. unfold plane. f_equal. lia.
  - unfold intpl_chroma_block_ext. cbv zeta. rewrite !chroma_tab by lia.
    set (p := pf + posy / 8 * stride + posx / 8).
    edestruct (bw_spec w (h + 3) 0 32 (fun x y => Z.shiftr (flt_4tap src (p - stride + y * stride + x) 1 (chroma_taps (posx mod 8)) +
      Z.shiftr (Z.shiftl 1 (d - 8)) 1) (d - 8)) t0) as [T _]; [lia|].
    set (tmp := block_write w (h + 3) 0 32 _ t0) in *.
    edestruct (bw_spec w h dst i_dst) as [A B]; [exact Hw|]. split; [|exact B].
    intros x y Hx Hy. rewrite A by assumption. unfold interp_chroma. rewrite interp_shift by lia.
    unfold interp. cbv zeta. rewrite (proj2 (Z.eqb_neq _ _) ZX), (proj2 (Z.eqb_neq _ _) ZY). cbn [andb].
    pose proof Hd as Hd'. unfold mc_depth in Hd'. clear A B.
    rewrite shift_rshift', clip1_sample by (assumption || lia). rewrite flt4_wsum by (apply chroma_len; lia).
    do 2 f_equal. apply wsum_ext. intros k Hk. rewrite chroma_len in Hk by lia.
    replace (32 + y * 32 + x + (-1 + k) * 32) with (0 + (y + k) * 32 + x) by lia.
    rewrite T by lia. rewrite shift_rshift by lia. rewrite flt4_wsum by (apply chroma_len; lia).
    f_equal. apply wsum_ext. intros l Hl. unfold plane, p. f_equal. lia.
Qed.
