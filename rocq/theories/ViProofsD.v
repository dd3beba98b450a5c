(** The SSE kernels of interpolation store what the C kernels store. *)
From Coq Require Import ZArith List Bool Lia.
From Verif Require Import CBase UtilModel MemModel MemProofs SaoModel SaoProofs McModel McSpec McProofs VxModelBase VxModel VxProofs VxProofsB VxProofsF VdModel ViModel ViProofs ViProofsB ViProofsC.
Import ListNotations.
Open Scope Z_scope.
(** The coefficients of both kernels. *)
Definition same_c (n : Z) (c : Z -> Z) (cl : list Z) : Prop := forall k, 0 <= k < n -> c k = coef cl (Z.to_nat k).
Lemma flt4_c src i step c cl : same_c 4 c cl ->
  flt_4tap src i step cl = src (i - step) * c 0 + src i * c 1 + src (i + step) * c 2 + src (i + 2 * step) * c 3.
Proof. intros H. unfold flt_4tap. rewrite (H 0), (H 1), (H 2), (H 3) by lia. reflexivity. Qed.
Lemma flt8_c src i step c cl : same_c 8 c cl ->
  flt_8tap src i step cl = src (i - 3 * step) * c 0 + src (i - 2 * step) * c 1 + src (i - step) * c 2 + src i * c 3 +
    src (i + step) * c 4 + src (i + 2 * step) * c 5 + src (i + 3 * step) * c 6 + src (i + 4 * step) * c 7.
Proof. intros H. unfold flt_8tap. rewrite (H 0), (H 1), (H 2), (H 3), (H 4), (H 5), (H 6), (H 7) by lia. reflexivity. Qed.
Lemma eq_idx (m : mem) a b : a = b -> m a = m b.
Proof. intros ->. reflexivity. Qed.
Ltac idx m e := rewrite (eq_idx m _ e) by lia.

Section Kernels.
  Variables (dst i_dst : Z) (src : mem) (p i_src : Z) (w h : nat) (junk : reg) (m : mem).
  Hypotheses (Hs : forall q, byte (src q)) (Hw : Z.of_nat w <= i_dst).
  Local Notation W := (Z.of_nat w).
  Local Notation H := (Z.of_nat h).

  Lemma load_bytes q : bytes (load src q).
  Proof. intros k. apply Hs. Qed.
  Lemma taps4_at c cl q i : fit 4 c -> same_c 4 c cl -> 0 <= i < 8 ->
    i16_of (taps4 (load src q) c) i = flt_4tap src (q + 1 + i) 1 cl /\ -32000 <= i16_of (taps4 (load src q) c) i <= 32000.
  Proof.
    intros C S Hi. destruct (taps4_lane (load src q) c (load_bytes q) i C Hi) as [E R]. split; [|exact R]. rewrite E.
    rewrite (flt4_c src _ 1 c cl S). unfold load.
    replace (q + 1 + i - 1) with (q + i) by lia. replace (q + 1 + i + 1) with (q + (i + 2)) by lia. replace (q + 1 + i + 2 * 1) with (q + (i + 3)) by lia.
    replace (q + 1 + i) with (q + (i + 1)) by lia. reflexivity.
  Qed.
  Lemma taps8_at c cl q i : fit 8 c -> same_c 8 c cl -> 0 <= i < 8 ->
    i16_of (taps8 (load src q) c) i = flt_8tap src (q + 3 + i) 1 cl /\ -32000 <= i16_of (taps8 (load src q) c) i <= 32000.
  Proof.
    intros C S Hi. destruct (taps8_lane (load src q) c (load_bytes q) i C Hi) as [E R]. split; [|exact R]. rewrite E.
    rewrite (flt8_c src _ 1 c cl S). unfold load.
    replace (q + 3 + i - 3 * 1) with (q + i) by lia. replace (q + 3 + i - 2 * 1) with (q + (i + 1)) by lia. replace (q + 3 + i - 1) with (q + (i + 2)) by lia.
    replace (q + 3 + i + 1) with (q + (i + 4)) by lia. replace (q + 3 + i + 2 * 1) with (q + (i + 5)) by lia.
    replace (q + 3 + i + 3 * 1) with (q + (i + 6)) by lia. replace (q + 3 + i + 4 * 1) with (q + (i + 7)) by lia.
    replace (q + 3 + i) with (q + (i + 3)) by lia. reflexivity.
  Qed.

  Lemma chroma_hor_agrees c cl : fit 4 c -> same_c 4 c cl ->
    forall q, chroma_hor_sse dst i_dst src p i_src W H c junk m q = intpl_chroma_block_hor 8 dst i_dst src p i_src w h cl m q.
  Proof.
    intros C S. eapply (wr_det W H dst i_dst m); [lia| |apply bw_wr; exact Hw].
    unfold chroma_hor_sse. cbv zeta. apply (lines1_wr W H dst i_dst m _ Hw junk (fun row col => round6 (taps4 (load src (p - 1 + row * i_src + col)) c))); [lia|lia|reflexivity|].
    intros row col i Hr Hc Hx Hi. destruct (taps4_at c cl (p - 1 + row * i_src + col) i C S Hi) as [E R].
    rewrite round6_lane by assumption. rewrite E. do 3 f_equal. f_equal. lia.
  Qed.
  Lemma luma_hor_agrees c cl : fit 8 c -> same_c 8 c cl ->
    forall q, luma_hor_sse dst i_dst src p i_src W H c junk m q = intpl_luma_block_hor 8 dst i_dst src p i_src w h cl m q.
  Proof.
    intros C S. eapply (wr_det W H dst i_dst m); [lia| |apply bw_wr; exact Hw].
    unfold luma_hor_sse. cbv zeta. apply (lines1_wr W H dst i_dst m _ Hw junk (fun row col => round6 (taps8 (load src (p - 3 + row * i_src + col)) c))); [lia|lia|reflexivity|].
    intros row col i Hr Hc Hx Hi. destruct (taps8_at c cl (p - 3 + row * i_src + col) i C S Hi) as [E R].
    rewrite round6_lane by assumption. rewrite E. do 3 f_equal. f_equal. lia.
  Qed.
  Lemma luma_ver_agrees dy cl : 0 < dy < 4 -> same_c 8 (row_l dy) cl ->
    forall q, luma_ver_sse dy dst i_dst src p i_src W H (row_l dy) junk m q = intpl_luma_block_ver 8 dst i_dst src p i_src w h cl m q.
  Proof.
    intros D S. eapply (wr_det W H dst i_dst m); [lia| |apply bw_wr; exact Hw].
    unfold luma_ver_sse. cbv zeta.
    apply (lines1_wr W H dst i_dst m _ Hw junk (fun row col => round6 (vtaps dy (fun j => load src (p - 3 * i_src + row * i_src + col + j * i_src)) (row_l dy)))); [lia|lia|reflexivity|].
    intros row col i Hr Hc Hx Hi.
    destruct (vtaps_lane (fun j => load src (p - 3 * i_src + row * i_src + col + j * i_src)) (fun j => load_bytes _) dy i D Hi) as [E R].
    rewrite round6_lane by assumption. rewrite E. do 3 f_equal. unfold col8, load. rewrite (flt8_c src _ i_src (row_l dy) cl S).
    set (b := p + row * i_src + (col + i)).
    rewrite (eq_idx src (p - 3 * i_src + row * i_src + col + 0 * i_src + i) (b - 3 * i_src)), (eq_idx src (p - 3 * i_src + row * i_src + col + 1 * i_src + i) (b - 2 * i_src)),
      (eq_idx src (p - 3 * i_src + row * i_src + col + 2 * i_src + i) (b - i_src)), (eq_idx src (p - 3 * i_src + row * i_src + col + 3 * i_src + i) b),
      (eq_idx src (p - 3 * i_src + row * i_src + col + 4 * i_src + i) (b + i_src)), (eq_idx src (p - 3 * i_src + row * i_src + col + 5 * i_src + i) (b + 2 * i_src)),
      (eq_idx src (p - 3 * i_src + row * i_src + col + 6 * i_src + i) (b + 3 * i_src)), (eq_idx src (p - 3 * i_src + row * i_src + col + 7 * i_src + i) (b + 4 * i_src)) by (unfold b; lia).
    reflexivity.
  Qed.

  (** What the first pass leaves in the array, in both kernels. *)
  Lemma luma_pass1_c cl t0 : W <= 64 -> fit 8 (fun k => coef cl (Z.to_nat k)) ->
    forall x y, 0 <= x < W -> 0 <= y < H + 7 ->
    block_write w (h + 7) 0 64 (fun x y _ => to_i16 (Z.shiftr (flt_8tap src (p - 3 * i_src + y * i_src + x) 1 cl + Z.shiftr (Z.shiftl 1 (8 - 8)) 1) (8 - 8))) t0 (y * 64 + x) =
    flt_8tap src (p - 3 * i_src + y * i_src + x) 1 cl.
  Proof.
    intros W64 C x y Hx Hy. destruct (bw_spec w (h + 7) 0 64 (fun x y => to_i16 (Z.shiftr (flt_8tap src (p - 3 * i_src + y * i_src + x) 1 cl + Z.shiftr (Z.shiftl 1 (8 - 8)) 1) (8 - 8))) t0 W64) as [A _].
    pose proof (A x y Hx ltac:(lia)) as E. rewrite Z.add_0_l in E. rewrite E. change (Z.shiftr (Z.shiftl 1 (8 - 8)) 1) with 0. change (8 - 8) with 0. rewrite Z.add_0_r, Z.shiftr_0_r.
    apply to_i16_id. destruct (taps8_at _ cl (p - 3 * i_src + y * i_src + x - 3) 0 C (fun k _ => eq_refl) ltac:(lia)) as [E1 R].
    replace (p - 3 * i_src + y * i_src + x) with (p - 3 * i_src + y * i_src + x - 3 + 3 + 0) by lia. rewrite <- E1. lia.
  Qed.
  Lemma luma_pass1_sse c cl t0 : W <= 64 -> fit 8 c -> same_c 8 c cl ->
    forall x y, 0 <= x < W -> 0 <= y < H + 7 ->
    luma_ext_pass1 src p i_src W H c t0 (y * 64 + x) = flt_8tap src (p - 3 * i_src + y * i_src + x) 1 cl.
  Proof.
    intros W64 C S x y Hx Hy. unfold luma_ext_pass1. cbv zeta. pose proof (up8_range W) as UR.
    assert (U : up8 W <= 64). { unfold up8. Z.div_mod_to_equations. lia. }
    apply (rows_array 64 (H + 7) W _ (fun x y => flt_8tap src (p - 3 * i_src + y * i_src + x) 1 cl) t0); [lia|lia| |exact Hx|exact Hy].
    intros Y t HY. exists (up8 W). split; [lia|].
    apply (words_row (Y * 64) (fun x => flt_8tap src (p - 3 * i_src + Y * i_src + x) 1 cl) W (fun col => taps8 (load src (p - (3 * i_src + 3) + Y * i_src + col)) c)); [lia|].
    intros col i Hc Hi. destruct (taps8_at c cl (p - (3 * i_src + 3) + Y * i_src + col) i C S Hi) as [-> _]. f_equal. lia.
  Qed.
  Lemma chroma_pass1_c cl t0 : W <= 32 ->
    forall x y, 0 <= x < W -> 0 <= y < H + 3 ->
    block_write w (h + 3) 0 32 (fun x y _ => Z.shiftr (flt_4tap src (p - i_src + y * i_src + x) 1 cl + Z.shiftr (Z.shiftl 1 (8 - 8)) 1) (8 - 8)) t0 (y * 32 + x) =
    flt_4tap src (p - i_src + y * i_src + x) 1 cl.
  Proof.
    intros W32 x y Hx Hy. destruct (bw_spec w (h + 3) 0 32 (fun x y => Z.shiftr (flt_4tap src (p - i_src + y * i_src + x) 1 cl + Z.shiftr (Z.shiftl 1 (8 - 8)) 1) (8 - 8)) t0 W32) as [A _].
    pose proof (A x y Hx ltac:(lia)) as E. rewrite Z.add_0_l in E. rewrite E. change (Z.shiftr (Z.shiftl 1 (8 - 8)) 1) with 0. change (8 - 8) with 0. rewrite Z.add_0_r, Z.shiftr_0_r. reflexivity.
  Qed.
  Lemma chroma_pass1_sse c cl t0 : W <= 32 -> fit 4 c -> same_c 4 c cl ->
    forall x y, 0 <= x < W -> 0 <= y < H + 3 ->
    chroma_ext_pass1 src p i_src W H c t0 (y * 32 + x) = flt_4tap src (p - i_src + y * i_src + x) 1 cl.
  Proof.
    intros W32 C S x y Hx Hy. unfold chroma_ext_pass1. cbv zeta. pose proof (up8_range W) as UR.
    assert (U : up8 W <= 32). { unfold up8. Z.div_mod_to_equations. lia. }
    apply (rows_array 32 (H + 3) W _ (fun x y => flt_4tap src (p - i_src + y * i_src + x) 1 cl) t0); [lia|lia| |exact Hx|exact Hy].
    intros Y t HY. destruct (Z.ltb_spec 4 W) as [L|L].
    - exists (up8 W). split; [lia|].
      apply (words_row (Y * 32) (fun x => flt_4tap src (p - i_src + Y * i_src + x) 1 cl) W (fun col => taps4 (load src (p - i_src - 1 + Y * i_src + col)) c)); [lia|].
      intros col i Hc Hi. destruct (taps4_at c cl (p - i_src - 1 + Y * i_src + col) i C S Hi) as [-> _]. f_equal. lia.
    - exists 4. split; [lia|]. intros j. rewrite <- (Z.add_0_r (Y * 32)) at 1.
      rewrite (storew_fill 4 t (Y * 32) 0 _ (fun x => flt_4tap src (p - i_src + Y * i_src + x) 1 cl)); [reflexivity|].
      intros k Hk. rewrite (taps4_narrow _ c k C Hk). destruct (taps4_at c cl (p - i_src - 1 + Y * i_src) k C S ltac:(lia)) as [-> _]. f_equal. lia.
  Qed.

  (** Both passes. *)
  Lemma luma_ext_agrees cx clx cy cly t0 t0' : W <= 64 -> H mod 4 = 0 -> fit 8 cx -> same_c 8 cx clx -> fit 8 cy -> same_c 8 cy cly ->
    (cy 1 = cy 6 -> cy 7 = cy 0 /\ cy 5 = cy 2 /\ cy 4 = cy 3) ->
    forall q, luma_ext_sse dst i_dst src p i_src W H cx cy junk t0 m q = intpl_luma_block_ext 8 dst i_dst src p i_src w h clx cly t0' m q.
  Proof.
    intros W64 H4 Cx Sx Cy Sy Sym.
    assert (Cx' : fit 8 (fun k => coef clx (Z.to_nat k))).
    { destruct Cx as [C1 C2]. split; [intros k Hk; rewrite <- (Sx k Hk); apply C1, Hk|]. cbn [Z.eqb Pos.eqb] in C2 |- *.
      rewrite <- (Sx 0), <- (Sx 1), <- (Sx 2), <- (Sx 3), <- (Sx 4), <- (Sx 5), <- (Sx 6), <- (Sx 7) by lia. exact C2. }
    unfold intpl_luma_block_ext. cbv zeta. set (tmpc := block_write w (h + 7) 0 64 _ t0').
    assert (TC : forall x y, 0 <= x < W -> 0 <= y < H + 7 -> tmpc (y * 64 + x) = flt_8tap src (p - 3 * i_src + y * i_src + x) 1 clx) by (apply luma_pass1_c; assumption).
    clearbody tmpc. eapply (wr_det W H dst i_dst m); [lia| |apply bw_wr; exact Hw].
    unfold luma_ext_sse. cbv zeta. set (tmp := luma_ext_pass1 src p i_src W H cx t0).
    assert (TS : forall x y, 0 <= x < W -> 0 <= y < H + 7 -> tmp (y * 64 + x) = tmpc (y * 64 + x) /\ -32768 <= tmp (y * 64 + x) <= 32767).
    { intros x y Hx Hy. rewrite TC by assumption. unfold tmp. rewrite (luma_pass1_sse cx clx) by assumption. split; [reflexivity|].
      destruct (taps8_at cx clx (p - 3 * i_src + y * i_src + x - 3) 0 Cx Sx ltac:(lia)) as [E1 R].
      replace (p - 3 * i_src + y * i_src + x) with (p - 3 * i_src + y * i_src + x - 3 + 3 + 0) by lia. rewrite <- E1. lia. }
    clearbody tmp.
    assert (L : forall row k col i j, 0 <= row -> row + 4 <= H -> 0 <= k < 4 -> 0 <= col -> col + i < W -> 0 <= i < 8 -> 0 <= j < 8 ->
      i16_of (loadw tmp (row * 64 + col + (k + j) * 64)) i = tmpc ((row + k + j) * 64 + (col + i))).
    { intros row k col i j Hr Hr4 Hk Hc Hx Hi Hj. destruct (TS (col + i) (row + k + j) ltac:(lia) ltac:(lia)) as [E R].
      rewrite i16_loadw; replace (row * 64 + col + (k + j) * 64 + i) with ((row + k + j) * 64 + (col + i)) by lia; assumption. }
    assert (V : forall x y, flt_8tap tmpc (3 * 64 + y * 64 + x) 64 cly =
      tmpc (y * 64 + x) * cy 0 + tmpc ((y + 1) * 64 + x) * cy 1 + tmpc ((y + 2) * 64 + x) * cy 2 + tmpc ((y + 3) * 64 + x) * cy 3 +
      tmpc ((y + 4) * 64 + x) * cy 4 + tmpc ((y + 5) * 64 + x) * cy 5 + tmpc ((y + 6) * 64 + x) * cy 6 + tmpc ((y + 7) * 64 + x) * cy 7).
    { intros x y. rewrite (flt8_c tmpc _ 64 cy cly Sy).
      rewrite (eq_idx tmpc (3 * 64 + y * 64 + x - 3 * 64) (y * 64 + x)), (eq_idx tmpc (3 * 64 + y * 64 + x - 2 * 64) ((y + 1) * 64 + x)),
        (eq_idx tmpc (3 * 64 + y * 64 + x - 64) ((y + 2) * 64 + x)), (eq_idx tmpc (3 * 64 + y * 64 + x + 64) ((y + 4) * 64 + x)),
        (eq_idx tmpc (3 * 64 + y * 64 + x + 2 * 64) ((y + 5) * 64 + x)), (eq_idx tmpc (3 * 64 + y * 64 + x + 3 * 64) ((y + 6) * 64 + x)),
        (eq_idx tmpc (3 * 64 + y * 64 + x + 4 * 64) ((y + 7) * 64 + x)), (eq_idx tmpc (3 * 64 + y * 64 + x) ((y + 3) * 64 + x)) by lia.
      reflexivity. }
    destruct Cy as [B8 _].
    destruct (Z.eqb_spec (cy 1) (cy 6)) as [E|E].
    - destruct (Sym E) as (E7 & E5 & E4).
      match goal with |- wr _ _ _ _ _ ?V0 _ _ => set (VV := V0) end.
      set (vv := fun row k col : Z => let t (j : Z) := loadw tmp (row * 64 + col + (k + j) * 64) in
        round12 (pairs8 unpacklo_epi16 (set1_epi16 (cy 0)) (set1_epi16 (cy 1)) (set1_epi16 (cy 2)) (set1_epi16 (cy 3)) (t 0) (t 7) (t 1) (t 6) (t 2) (t 5) (t 3) (t 4)) (pairs8 unpackhi_epi16 (set1_epi16 (cy 0)) (set1_epi16 (cy 1)) (set1_epi16 (cy 2)) (set1_epi16 (cy 3)) (t 0) (t 7) (t 1) (t 6) (t 2) (t 5) (t 3) (t 4))).
      assert (G : forall row k col i, 0 <= row -> row + 4 <= H -> 0 <= k < 4 -> 0 <= col -> col + i < W -> 0 <= i < 8 -> vv row k col i = VV (col + i) (row + k)).
      { intros row k col i Hr Hr4 Hk Hc Hx Hi. unfold vv. cbv zeta.
        rewrite (vert8 _ _ _ _ (cy 0) (cy 0) (cy 1) (cy 1) (cy 2) (cy 2) (cy 3) (cy 3)); try (apply pair_same, B8; lia); try exact Hi.
        unfold VV. rewrite !L by lia. rewrite V. change (Z.shiftl 1 (20 - 8 - 1)) with 2048. change (20 - 8) with 12. do 2 f_equal. rewrite E7, E5, E4, <- E. replace (row + k + 0) with (row + k) by lia. ring. }
      apply (linesn_wr W H dst i_dst m VV Hw 4 (H - 3) junk vv vv m); try lia; try reflexivity; intros; apply G; lia.
    - match goal with |- wr _ _ _ _ _ ?V0 _ _ => set (VV := V0) end.
      set (CC := fun k => cvtepi8_epi16 (set1_epi16 (load_i16 (cbytes cy) k))).
      set (vv := fun row k col : Z => let t (j : Z) := loadw tmp (row * 64 + col + (k + j) * 64) in
        round12 (pairs8 unpacklo_epi16 (CC 0) (CC 2) (CC 4) (CC 6) (t 0) (t 1) (t 2) (t 3) (t 4) (t 5) (t 6) (t 7)) (pairs8 unpackhi_epi16 (CC 0) (CC 2) (CC 4) (CC 6) (t 0) (t 1) (t 2) (t 3) (t 4) (t 5) (t 6) (t 7))).
      assert (G : forall row k col i, 0 <= row -> row + 4 <= H -> 0 <= k < 4 -> 0 <= col -> col + i < W -> 0 <= i < 8 -> vv row k col i = VV (col + i) (row + k)).
      { intros row k col i Hr Hr4 Hk Hc Hx Hi. unfold vv. cbv zeta.
        rewrite (vert8 _ _ _ _ (cy 0) (cy (0 + 1)) (cy 2) (cy (2 + 1)) (cy 4) (cy (4 + 1)) (cy 6) (cy (6 + 1))); try (apply pair_two; apply B8; lia); try exact Hi.
        unfold VV. rewrite !L by lia. rewrite V. change (Z.shiftl 1 (20 - 8 - 1)) with 2048. change (20 - 8) with 12. change (0 + 1) with 1. change (2 + 1) with 3. change (4 + 1) with 5. change (6 + 1) with 7.
        do 2 f_equal. replace (row + k + 0) with (row + k) by lia. ring. }
      apply (linesn_wr W H dst i_dst m VV Hw 4 (H - 3) junk vv vv m); try lia; try reflexivity; intros; apply G; lia.
  Qed.

  Lemma chroma_ext_agrees cx clx cy cly t0 t0' : W <= 32 -> H mod 2 = 0 -> fit 4 cx -> same_c 4 cx clx -> fit 4 cy -> same_c 4 cy cly -> cy 1 <> cy 6 ->
    forall q, chroma_ext_sse dst i_dst src p i_src W H cx cy junk t0 m q = intpl_chroma_block_ext 8 dst i_dst src p i_src w h clx cly t0' m q.
  Proof.
    intros W32 H2 Cx Sx Cy Sy N. unfold intpl_chroma_block_ext. cbv zeta. set (tmpc := block_write w (h + 3) 0 32 _ t0').
    assert (TC : forall x y, 0 <= x < W -> 0 <= y < H + 3 -> tmpc (y * 32 + x) = flt_4tap src (p - i_src + y * i_src + x) 1 clx) by (apply chroma_pass1_c; assumption).
    clearbody tmpc. eapply (wr_det W H dst i_dst m); [lia| |apply bw_wr; exact Hw].
    unfold chroma_ext_sse. cbv zeta. rewrite (proj2 (Z.eqb_neq _ _) N). set (tmp := chroma_ext_pass1 src p i_src W H cx t0).
    assert (TS : forall x y, 0 <= x < W -> 0 <= y < H + 3 -> tmp (y * 32 + x) = tmpc (y * 32 + x) /\ -32768 <= tmp (y * 32 + x) <= 32767).
    { intros x y Hx Hy. rewrite TC by assumption. unfold tmp. rewrite (chroma_pass1_sse cx clx) by assumption. split; [reflexivity|].
      destruct (taps4_at cx clx (p - i_src + y * i_src + x - 1) 0 Cx Sx ltac:(lia)) as [E1 R].
      replace (p - i_src + y * i_src + x) with (p - i_src + y * i_src + x - 1 + 1 + 0) by lia. rewrite <- E1. lia. }
    clearbody tmp.
    assert (L : forall row k col i j, 0 <= row -> row + 2 <= H -> 0 <= k < 2 -> 0 <= col -> col + i < W -> 0 <= i < 8 -> 0 <= j < 4 ->
      i16_of (loadw tmp (row * 32 + col + (k + j) * 32)) i = tmpc ((row + k + j) * 32 + (col + i))).
    { intros row k col i j Hr Hr4 Hk Hc Hx Hi Hj. destruct (TS (col + i) (row + k + j) ltac:(lia) ltac:(lia)) as [E R].
      rewrite i16_loadw; replace (row * 32 + col + (k + j) * 32 + i) with ((row + k + j) * 32 + (col + i)) by lia; assumption. }
    assert (V : forall x y, flt_4tap tmpc (32 + y * 32 + x) 32 cly =
      tmpc (y * 32 + x) * cy 0 + tmpc ((y + 1) * 32 + x) * cy 1 + tmpc ((y + 2) * 32 + x) * cy 2 + tmpc ((y + 3) * 32 + x) * cy 3).
    { intros x y. rewrite (flt4_c tmpc _ 32 cy cly Sy).
      rewrite (eq_idx tmpc (32 + y * 32 + x - 32) (y * 32 + x)), (eq_idx tmpc (32 + y * 32 + x + 32) ((y + 2) * 32 + x)),
        (eq_idx tmpc (32 + y * 32 + x + 2 * 32) ((y + 3) * 32 + x)), (eq_idx tmpc (32 + y * 32 + x) ((y + 1) * 32 + x)) by lia.
      reflexivity. }
    destruct Cy as [B4 _].
    match goal with |- wr _ _ _ _ _ ?V0 _ _ => set (VV := V0) end.
    set (CC := fun k => cvtepi8_epi16 (set1_epi16 (load_i16 (cbytes cy) k))).
    set (vv := fun row k col : Z => let t (j : Z) := loadw tmp (row * 32 + col + (k + j) * 32) in
      round12 (pairs4 unpacklo_epi16 (CC 0) (CC 2) (t 0) (t 1) (t 2) (t 3)) (pairs4 unpackhi_epi16 (CC 0) (CC 2) (t 0) (t 1) (t 2) (t 3))).
    assert (G : forall row k col i, 0 <= row -> row + 2 <= H -> 0 <= k < 2 -> 0 <= col -> col + i < W -> 0 <= i < 8 -> vv row k col i = VV (col + i) (row + k)).
    { intros row k col i Hr Hr4 Hk Hc Hx Hi. unfold vv. cbv zeta.
      rewrite (vert4 _ _ (cy 0) (cy (0 + 1)) (cy 2) (cy (2 + 1))); try (apply pair_two; apply B4; lia); try exact Hi.
      unfold VV. rewrite !L by lia. rewrite V. change (Z.shiftl 1 (20 - 8 - 1)) with 2048. change (20 - 8) with 12. change (0 + 1) with 1. change (2 + 1) with 3.
      do 2 f_equal. replace (row + k + 0) with (row + k) by lia. ring. }
    apply (linesn_wr W H dst i_dst m VV Hw 2 H junk vv vv m); try lia; try reflexivity; intros; apply G; lia.
  Qed.
End Kernels.

(** The rows of the tables. *)
Lemma row_l_ok f : 0 < f < 4 -> fit 8 (row_l f) /\ same_c 8 (row_l f) (nth (Z.to_nat f) intpl_filters []) /\
  (row_l f 1 = row_l f 6 -> row_l f 7 = row_l f 0 /\ row_l f 5 = row_l f 2 /\ row_l f 4 = row_l f 3).
Proof.
  intros F. assert (C : f = 1 \/ f = 2 \/ f = 3) by lia.
  assert (cases8 : forall k, 0 <= k < 8 -> k = 0 \/ k = 1 \/ k = 2 \/ k = 3 \/ k = 4 \/ k = 5 \/ k = 6 \/ k = 7) by lia.
  destruct C as [-> | [-> | ->]]; (split; [split; [intros k Hk; destruct (cases8 k Hk) as [-> | [-> | [-> | [-> | [-> | [-> | [-> | ->]]]]]]]; vm_compute; split; discriminate|vm_compute; discriminate]|]);
    (split; [intros k Hk; destruct (cases8 k Hk) as [-> | [-> | [-> | [-> | [-> | [-> | [-> | ->]]]]]]]; reflexivity|vm_compute; intros E; repeat split; congruence]).
Qed.
Lemma row_c_ok b f : 0 < f < 8 -> fit 4 (row_c b f) /\ same_c 4 (row_c b f) (nth (Z.to_nat f) intpl_filters_c []) /\
  (f <> 7 \/ b 34 <> 6 -> row_c b f 1 <> row_c b f 6).
Proof.
  intros F. assert (C : f = 1 \/ f = 2 \/ f = 3 \/ f = 4 \/ f = 5 \/ f = 6 \/ f = 7) by lia.
  assert (case4 : forall k, 0 <= k < 4 -> k = 0 \/ k = 1 \/ k = 2 \/ k = 3) by lia.
  destruct C as [-> | [-> | [-> | [-> | [-> | [-> | ->]]]]]];
    (split; [split; [intros k Hk; destruct (case4 k Hk) as [-> | [-> | [-> | ->]]]; vm_compute; split; discriminate|vm_compute; discriminate]|]);
    (split; [intros k Hk; destruct (case4 k Hk) as [-> | [-> | [-> | ->]]]; reflexivity|]); try (intros _; vm_compute; discriminate).
  intros [Z7|Z7]; [congruence|]. change (row_c b 7 1) with 6. change (row_c b 7 6) with (b 34). congruence.
Qed.

Lemma mc_luma_agrees dst i_dst posx posy w h src pf stride junk t0 t0' m :
  (forall q, byte (src q)) -> Z.of_nat w <= i_dst -> (w <= 64)%nat -> (h mod 4 = 0)%nat ->
  forall q, mc_luma_sse dst i_dst posx posy w h src pf stride junk t0 m q = mc_luma 8 dst i_dst posx posy w h src pf stride t0' m q.
Proof.
  intros Hs Hw W64 H4 q. unfold mc_luma_sse, mc_luma. cbv zeta.
  assert (X : 0 <= Z.land posx 3 < 4) by (change 3 with (Z.ones 2); rewrite Z.land_ones by lia; apply Z.mod_pos_bound; reflexivity).
  assert (Y : 0 <= Z.land posy 3 < 4) by (change 3 with (Z.ones 2); rewrite Z.land_ones by lia; apply Z.mod_pos_bound; reflexivity).
  assert (H4' : Z.of_nat h mod 4 = 0) by (change 4 with (Z.of_nat 4); rewrite <- Nat2Z.inj_mod, H4; reflexivity).
  destruct (Z.eqb_spec (Z.land posx 3) 0) as [EX|EX], (Z.eqb_spec (Z.land posy 3) 0) as [EY|EY]; cbn [andb]; [reflexivity|..].
  - destruct (row_l_ok (Z.land posy 3) ltac:(lia)) as (_ & S & _). apply luma_ver_agrees; try assumption. lia.
  - destruct (row_l_ok (Z.land posx 3) ltac:(lia)) as (F & S & _). apply luma_hor_agrees; assumption.
  - destruct (row_l_ok (Z.land posx 3) ltac:(lia)) as (F & S & _). destruct (row_l_ok (Z.land posy 3) ltac:(lia)) as (F' & S' & M). apply luma_ext_agrees; try assumption. lia.
Qed.
Lemma mc_chroma_agrees b dst i_dst posx posy w h src pf stride junk t0 t0' m :
  (forall q, byte (src q)) -> Z.of_nat w <= i_dst -> (w <= 32)%nat -> (h mod 2 = 0)%nat -> (posx mod 8 = 0 \/ posy mod 8 <> 7 \/ b 34 <> 6) ->
  forall q, mc_chroma_sse b dst i_dst posx posy w h src pf stride junk t0 m q = mc_chroma 8 dst i_dst posx posy w h src pf stride t0' m q.
Proof.
  intros Hs Hw W32 H2 B q. unfold mc_chroma_sse, mc_chroma. cbv zeta.
  assert (E : forall v, Z.land v 7 = v mod 8) by (intros v; change 7 with (Z.ones 3); rewrite Z.land_ones by lia; reflexivity). rewrite !E. clear E.
  pose proof (Z.mod_pos_bound posx 8 eq_refl) as X. pose proof (Z.mod_pos_bound posy 8 eq_refl) as Y.
  assert (H2' : Z.of_nat h mod 2 = 0) by (change 2 with (Z.of_nat 2); rewrite <- Nat2Z.inj_mod, H2; reflexivity).
  destruct (Z.eqb_spec (posx mod 8) 0) as [EX|EX], (Z.eqb_spec (posy mod 8) 0) as [EY|EY]; cbn [andb]; [reflexivity|reflexivity|..].
  - destruct (row_c_ok b (posx mod 8) ltac:(lia)) as (F & S & _). apply chroma_hor_agrees; assumption.
  - destruct (row_c_ok b (posx mod 8) ltac:(lia)) as (F & S & _). destruct (row_c_ok b (posy mod 8) ltac:(lia)) as (F' & S' & M).
    apply chroma_ext_agrees; try assumption; [lia|]. apply M. destruct B as [B|[B|B]]; [congruence|left; exact B|right; exact B].
Qed.
