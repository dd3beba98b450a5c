(** The vector bilinear predictors, and the three modes together. *)
From Coq Require Import ZArith List Bool Lia.
From Verif Require Import CBase MemModel MemProofs SaoModel SaoProofs AlfSpec McSpec IprModel IprSpec IprProofs IprProofsD IprProofsE IprProofsG IprProofsH VxModelBase VxModel VdModel ViModel VjModel VpModelA
  VxProofs VxProofsB ViProofs ViProofsB ViProofsC VjProofs VjProofsB VqModel VqProofs VqProofsB VqProofsC VqProofsD.
Import ListNotations.
Open Scope Z_scope.

Lemma perm_dwords (a : reg) k : 0 <= k < 16 ->
  permutevar8x32 a (setr_epi32 [0; 4; 1; 5; 0; 1; 2; 3]) k = a (if k <? 4 then k else if k <? 8 then 12 + k else if k <? 12 then k - 4 else 8 + k).
Proof. revert k. apply (cases_upto 16). intros k Hk. do 16 (destruct k as [|k]; [reflexivity|]). lia. Qed.
Lemma emit_sse m q x R F : layout 4 R (fun k => F (x + k)) -> forall j, store8 m (q + x) R j = fill q x (x + 2 * 4) F m j.
Proof.
  intros H. apply store_fill. intros k Hk. destruct (Z.lt_ge_cases k 4).
  - apply (H 0 k); lia.
  - destruct (H 0 (k - 4) ltac:(lia) ltac:(lia) ltac:(lia)) as [_ E]. replace (16 * 0 + (4 + (k - 4))) with k in E by lia. rewrite E. f_equal. lia.
Qed.
Lemma emit_avx m q x R F : layout 8 R (fun k => F (x + k)) ->
  forall j, maskstore_epi64 m (q + x) (permutevar8x32 R (setr_epi32 [0; 4; 1; 5; 0; 1; 2; 3])) (mask256 15) j = fill q x (x + 2 * 8) F m j.
Proof.
  intros H j. change 15 with (16 - 1). rewrite (mask64_store 16) by lia. apply store_fill. intros k Hk. rewrite perm_dwords by exact Hk.
  destruct (Z.ltb_spec k 4); [apply (H 0 k); lia|].
  destruct (Z.ltb_spec k 8).
  { destruct (H 1 (k - 4) ltac:(lia) ltac:(lia) ltac:(lia)) as [E _]. replace (16 * 1 + (k - 4)) with (12 + k) in E by lia. rewrite E. f_equal. lia. }
  destruct (Z.ltb_spec k 12).
  { destruct (H 0 (k - 8) ltac:(lia) ltac:(lia) ltac:(lia)) as [_ E]. replace (16 * 0 + (4 + (k - 8))) with (k - 4) in E by lia. rewrite E. f_equal. lia. }
  destruct (H 1 (k - 12) ltac:(lia) ltac:(lia) ltac:(lia)) as [_ E]. replace (16 * 1 + (4 + (k - 12))) with (8 + k) in E by lia. rewrite E. f_equal. lia.
Qed.

Lemma pack_low a b Z0 k : 0 <= k < 4 -> packus_epi16 (packus_epi32 a b) Z0 k = sat_u8 (to_i16 (sat_u16 (i32_of a k))).
Proof. intros H. pose proof (pack_twice a b Z0 0 k ltac:(lia)) as E. replace (16 * 0 + k) with k in E by lia. rewrite E. destruct (Z.ltb_spec k 4); [|lia]. replace (4 * 0 + k) with k by lia. reflexivity. Qed.

Lemma mask64_8 m p (r : reg) j : maskstore_epi64 m p r (mask256 7) j = store_n 8 m p r j.
Proof. change 7 with (8 - 1). apply mask64_store. lia. Qed.
Section Bilinear.
Variables (src : mem) (s d st : Z) (dst : mem) (w h : Z).
Let e (k : Z) : Z := src (s + k).
Hypothesis Sh : intra_shape w h.
Hypothesis W : w <= st.
Hypothesis Le : forall k, - h <= k <= w -> 0 <= e k <= 255.
Notation rulev := (bilinear_rule 8 e w h).

Lemma bilinear_sse_ok junk : predicts w h d st dst (bilinear_sse src s d st w h junk dst) rulev.
Proof.
  pose proof (shape_pos w h Sh) as B. destruct (shape_sides w h Sh) as [Iw Ih].
  pose proof (lines_sse_ok src s w h Sh Le junk) as Hl. unfold bilinear_sse. cbv zeta. set (l := lines_sse src s w h junk) in *. clearbody l.
  destruct (Z.eqb_spec w 4) as [E4|N4].
  { apply (rows_predict (fun y r => cols src s w h y r)); [lia|lia| |].
    - intros k Hk. rewrite loadlw_i16 by lia. apply (cols_start src s w h Sh Le l Hl k Hk).
    - intros y T m Hy HT. cbn [fst snd].
      assert (HT' : cols src s w h (y + 1) (add_epi16 T (loadlw (l_T l) 0))).
      { apply (cols_next src s w h Sh Le l Hl); [exact Hy|exact HT|]. intros k Hk. rewrite loadlw_i16 by lia. apply (load_T src s w h Sh Le l Hl k Hk). }
      split; [exact HT'|]. apply store_row_w; [exact E4|]. intros k Hk. rewrite pack_low by lia.
      rewrite (narrow_out src s w h Sh Le l Hl y _ k Hy HT' ltac:(lia) 4 _ (sums_start w h l 4 [0; 1; 2; 3] y ltac:(lia) iota4)) by lia.
      apply (out_rule src s w h Sh Le); lia. }
  destruct (Z.eqb_spec w 8) as [E8|N8].
  { apply (rows_predict (fun y r => cols src s w h y r)); [lia|lia|exact (cols_start src s w h Sh Le l Hl)|].
    intros y T m Hy HT.
    assert (HT' : cols src s w h (y + 1) (add_epi16 T (loadw (l_T l) 0))).
    { apply (cols_next src s w h Sh Le l Hl); [exact Hy|exact HT|]. exact (load_T src s w h Sh Le l Hl). }
    set (T' := add_epi16 T (loadw (l_T l) 0)) in *. clearbody T'.
    match goal with |- context [two_quads w h ?a ?b ?c ?t] => pose proof (quads_ok src s w h Sh Le l Hl 4 0 y a b c ltac:(lia) (sums_start w h l 4 [0; 1; 2; 3] y ltac:(lia) iota4) ltac:(lia) ltac:(lia) Hy) as G; cbv zeta in G;
      destruct (two_quads w h a b c t) as [T1 AD] end.
    cbn [fst snd] in *. split; [exact HT'|].
    assert (Ly : layout 4 T1 (fun k => rulev (0 + k) y)).
    { apply G.
      - intros k Hk. rewrite i32_cvt, Z.add_0_l. apply HT'. lia.
      - intros k Hk. rewrite i32_cvt, i16_srli8 by lia. rewrite HT' by lia. f_equal. }
    intros j. pose proof (emit_sse m (d + y * st) 0 T1 (fun x => rulev x y) Ly j) as E. rewrite Z.add_0_r in E. rewrite E. f_equal. lia. }
  assert (W16 : 16 <= w) by (cbn [In] in Iw; lia).
  match goal with |- context [sloop w 8 ?f ?t0] =>
    pose proof (wide_start w h Sh 4 (fun x => unpacklo_epi16 (loadw (l_top l) x) setzero) (fun x => unpackhi_epi16 (loadw (l_top l) x) setzero)
      (fun x => cvtepi16_epi32 (loadw (l_T l) x)) (fun x => cvtepi16_epi32 (srli_si128 (loadw (l_T l) x) 8)) 2 (fst t0) (snd t0) ltac:(lia) W16 (fun x => col src s h x 0) (fun x => src (s + - h) - src (s + (x + 1)))) as G end.
  cbv zeta in G. cbn [fst snd] in G. change (2 * 4) with 8 in G.
  match type of G with _ -> arr 4 (fst (sloop w 8 ?f ?t0)) _ _ _ /\ _ => change (sloop w 8 _ _) with (sloop w 8 f t0) at 1; destruct (sloop w 8 f t0) as [TT PTT] end.
  cbn [fst snd] in G. destruct G as [G1 G2].
  - intros x k Hx Hw Hk.
    pose proof (top_range src s w h Sh Le l Hl (x + k) ltac:(lia)) as R1. pose proof (top_range src s w h Sh Le l Hl (x + (4 + k)) ltac:(lia)) as R2.
    pose proof (T_range src s w h Sh Le l Hl (x + k) ltac:(lia)) as R3. pose proof (T_range src s w h Sh Le l Hl (x + (4 + k)) ltac:(lia)) as R4.
    rewrite unlo_wide, unhi_wide, !i32_cvt, i16_srli8, !u16_loadw, !i16_loadw; rewrite ?u16_loadw; try lia.
    rewrite !(lh_top _ _ _ _ _ Hl), !(lh_T _ _ _ _ _ Hl) by lia. unfold col. replace (x + (4 + k)) with (x + 4 + k) by lia. repeat split; ring.
  - exact (wide_rows src s d st dst w h Sh W Le 4 2 [0; 1; 2; 3] l TT PTT store8 ltac:(lia) Hl iota4 W16 G1 G2 emit_sse).
Qed.
Lemma bilinear_avx_ok junk : predicts w h d st dst (bilinear_avx src s d st w h junk dst) rulev.
Proof.
  pose proof (shape_pos w h Sh) as B. destruct (shape_sides w h Sh) as [Iw Ih].
  pose proof (lines_avx_ok src s w h Sh Le junk) as Hl. unfold bilinear_avx. cbv zeta. set (l := lines_avx src s w h junk) in *. clearbody l.
  destruct (Z.eqb_spec w 4) as [E4|N4].
  { apply (rows_predict (fun y r => cols src s w h y r)); [lia|lia|exact (cols_start src s w h Sh Le l Hl)|].
    intros y T m Hy HT. cbn [fst snd].
    assert (HT' : cols src s w h (y + 1) (add_epi16 T (loadw (l_T l) 0))).
    { apply (cols_next src s w h Sh Le l Hl); [exact Hy|exact HT|]. exact (load_T src s w h Sh Le l Hl). }
    split; [exact HT'|]. intros j. rewrite mask32_store. apply store_row_w; [exact E4|]. intros k Hk. rewrite pack_low by lia. unfold castsi256_si128.
    rewrite (narrow_out src s w h Sh Le l Hl y _ k Hy HT' ltac:(lia) 8 _ (sums_start w h l 8 [0; 1; 2; 3; 4; 5; 6; 7] y ltac:(lia) iota8)) by lia.
    apply (out_rule src s w h Sh Le); lia. }
  destruct (Z.eqb_spec w 8) as [E8|N8].
  { apply (rows_predict (fun y r => cols src s w h y r)); [lia|lia|exact (cols_start src s w h Sh Le l Hl)|].
    intros y T m Hy HT. cbn [fst snd].
    assert (HT' : cols src s w h (y + 1) (add_epi16 T (loadw (l_T l) 0))).
    { apply (cols_next src s w h Sh Le l Hl); [exact Hy|exact HT|]. exact (load_T src s w h Sh Le l Hl). }
    split; [exact HT'|]. intros j. rewrite mask64_8. apply store_row_w; [exact E8|]. intros k Hk. rewrite packus_lo by lia. unfold castsi256_si128.
    match goal with |- context [packus_epi32 ?a ?a] => set (v := a) end.
    assert (Ev : i16_of (permute4x64 (packus_epi32 v v) 8) k = to_i16 (sat_u16 (i32_of v k))).
    { assert (E : i16_of (permute4x64 (packus_epi32 v v) 8) k = i16_of (packus_epi32 v v) (if k <? 4 then k else 4 + k)).
      { apply word_eq; rewrite perm8_at by lia; f_equal; destruct (Z.ltb_spec k 4); match goal with |- (if ?b then _ else _) = _ => destruct b eqn:Eb; [apply Z.ltb_lt in Eb|apply Z.ltb_ge in Eb]; lia end. }
      rewrite E. unfold packus_epi32. rewrite i16_mk16. f_equal. cbv zeta. destruct (Z.ltb_spec k 4).
      - rewrite Z.div_small, Z.mod_small by lia. destruct (Z.ltb_spec k 4); [reflexivity|lia].
      - replace (4 + k) with (8 * 1 + (k - 4)) by lia. rewrite lane_div8, lane_mod8 by lia. destruct (Z.ltb_spec (k - 4) 4); [do 2 f_equal; lia|lia]. }
    rewrite Ev. unfold v.
    rewrite (narrow_out src s w h Sh Le l Hl y _ k Hy HT' ltac:(lia) 8 _ (sums_start w h l 8 [0; 1; 2; 3; 4; 5; 6; 7] y ltac:(lia) iota8)) by lia.
    apply (out_rule src s w h Sh Le); lia. }
  assert (W16 : 16 <= w) by (cbn [In] in Iw; lia).
  match goal with |- context [sloop w 16 ?f ?t0] =>
    pose proof (wide_start w h Sh 8 (fun x => permute2x128 (unpacklo_epi16 (loadw (l_top l) x) setzero) (unpackhi_epi16 (loadw (l_top l) x) setzero) 32)
      (fun x => permute2x128 (unpacklo_epi16 (loadw (l_top l) x) setzero) (unpackhi_epi16 (loadw (l_top l) x) setzero) 49)
      (fun x => cvtepi16_epi32 (castsi256_si128 (loadw (l_T l) x))) (fun x => cvtepi16_epi32 (extracti128_1 (loadw (l_T l) x))) 3 (fst t0) (snd t0) ltac:(lia) W16 (fun x => col src s h x 0) (fun x => src (s + - h) - src (s + (x + 1)))) as G end.
  cbv zeta in G. cbn [fst snd] in G. change (2 * 8) with 16 in G.
  match type of G with _ -> arr 8 (fst (sloop w 16 ?f ?t0)) _ _ _ /\ _ => change (sloop w 16 _ _) with (sloop w 16 f t0) at 1; destruct (sloop w 16 f t0) as [TT PTT] end.
  cbn [fst snd] in G. destruct G as [G1 G2].
  - intros x k Hx Hw Hk. unfold castsi256_si128.
    pose proof (top_range src s w h Sh Le l Hl (x + k) ltac:(lia)) as R1. pose proof (top_range src s w h Sh Le l Hl (x + (8 + k)) ltac:(lia)) as R2.
    pose proof (T_range src s w h Sh Le l Hl (x + k) ltac:(lia)) as R3. pose proof (T_range src s w h Sh Le l Hl (x + (8 + k)) ltac:(lia)) as R4.
    rewrite perm_lo_wide, perm_hi_wide, !i32_cvt, i16_extract, !u16_loadw, !i16_loadw; rewrite ?u16_loadw; try lia.
    rewrite !(lh_top _ _ _ _ _ Hl), !(lh_T _ _ _ _ _ Hl) by lia. unfold col. replace (x + (8 + k)) with (x + 8 + k) by lia. repeat split; ring.
  - exact (wide_rows src s d st dst w h Sh W Le 8 3 [0; 1; 2; 3; 4; 5; 6; 7] l TT PTT
      (fun m p R => maskstore_epi64 m p (permutevar8x32 R (setr_epi32 [0; 4; 1; 5; 0; 1; 2; 3])) (mask256 15)) ltac:(lia) Hl iota8 W16 G1 G2 emit_avx).
Qed.
End Bilinear.

Lemma near src s w h : intra_shape w h -> legal 8 (fun k => src (s + k)) w h -> forall k, - h <= k <= w -> 0 <= src (s + k) <= 255.
Proof. intros Sh H k Hk. pose proof (shape_pos w h Sh). apply H. unfold reach. lia. Qed.
Lemma pred_sse_near junk src s d st mode w h top left dst : 0 <= mode <= 2 -> intra_shape w h -> w <= st -> (forall k, - h <= k <= w -> 0 <= src (s + k) <= 255) ->
  predicts w h d st dst (pred_sse junk src s d st mode w h top left dst) (rule 8 (fun k => src (s + k)) mode w h top left).
Proof.
  intros Hm Sh W N. unfold pred_sse, rule.
  destruct (Z.eqb_spec mode 0); [apply dc_sse_ok; assumption|]. destruct (Z.eqb_spec mode 1); [apply plane_sse_ok; assumption|].
  destruct (Z.eqb_spec mode 2); [|lia]. apply bilinear_sse_ok; assumption.
Qed.
Lemma pred_avx_near junk src s d st mode w h top left dst : 0 <= mode <= 2 -> intra_shape w h -> w <= st -> (forall k, - h <= k <= w -> 0 <= src (s + k) <= 255) ->
  predicts w h d st dst (pred_avx junk src s d st mode w h top left dst) (rule 8 (fun k => src (s + k)) mode w h top left).
Proof.
  intros Hm Sh W N. unfold pred_avx, rule.
  destruct (Z.eqb_spec mode 0); [apply dc_avx_ok; assumption|]. destruct (Z.eqb_spec mode 1); [apply plane_avx_ok; assumption|].
  destruct (Z.eqb_spec mode 2); [|lia]. apply bilinear_avx_ok; assumption.
Qed.
Lemma pred_sse_ok junk src s d st mode w h top left dst : 0 <= mode <= 2 -> intra_shape w h -> w <= st -> legal 8 (fun k => src (s + k)) w h ->
  predicts w h d st dst (pred_sse junk src s d st mode w h top left dst) (rule 8 (fun k => src (s + k)) mode w h top left).
Proof. intros Hm Sh W L. apply pred_sse_near; try assumption. exact (near src s w h Sh L). Qed.
Lemma pred_avx_ok junk src s d st mode w h top left dst : 0 <= mode <= 2 -> intra_shape w h -> w <= st -> legal 8 (fun k => src (s + k)) w h ->
  predicts w h d st dst (pred_avx junk src s d st mode w h top left dst) (rule 8 (fun k => src (s + k)) mode w h top left).
Proof. intros Hm Sh W L. apply pred_avx_near; try assumption. exact (near src s w h Sh L). Qed.
(** The rule looks at the corner's neighbours and the two sides only. *)
Lemma rule_near e e' mode w h top left x y : 0 <= mode <= 2 -> intra_shape w h -> 0 <= x < w -> 0 <= y < h -> (forall k, - h <= k <= w -> e' k = e k) ->
  rule 8 e' mode w h top left x y = rule 8 e mode w h top left x y.
Proof.
  intros Hm Sh Hx Hy E. pose proof (shape_pos w h Sh) as B. unfold rule. destruct (Z.eqb_spec mode 0) as [M0|M0].
  { unfold dc_rule. rewrite (sum_ext w (fun x => e' (x + 1)) (fun x => e (x + 1))) by (intros; apply E; lia).
    rewrite (sum_ext h (fun y => e' (- (y + 1))) (fun y => e (- (y + 1)))) by (intros; apply E; lia). reflexivity. }
  destruct (Z.eqb_spec mode 1) as [M1|M1].
  { unfold plane_rule, gradient. destruct (shape_sides w h Sh) as [Iw Ih].
    assert (Hw : w = 2 * (w / 2)) by (clear - Iw; cbn [In] in Iw; destruct Iw as [<-|[<-|[<-|[<-|[<-|[]]]]]]; reflexivity).
    assert (Hh : h = 2 * (h / 2)) by (clear - Ih; cbn [In] in Ih; destruct Ih as [<-|[<-|[<-|[<-|[<-|[]]]]]]; reflexivity).
    rewrite (sum_ext (w / 2) (fun i => (i + 1) * (e' (w / 2 + (i + 1)) - e' (w / 2 - (i + 1)))) (fun i => (i + 1) * (e (w / 2 + (i + 1)) - e (w / 2 - (i + 1))))) by (intros; rewrite !E by lia; reflexivity).
    rewrite (sum_ext (h / 2) (fun i => (i + 1) * (e' (- (h / 2 + (i + 1))) - e' (- (h / 2 - (i + 1))))) (fun i => (i + 1) * (e (- (h / 2 + (i + 1))) - e (- (h / 2 - (i + 1)))))) by (intros; rewrite !E by lia; reflexivity).
    rewrite !E by lia. reflexivity. }
  destruct (Z.eqb_spec mode 2); [|lia]. unfold bilinear_rule. rewrite !E by lia. reflexivity.
Qed.
Lemma predicts_ext w h d st old new v v' : (forall x y, 0 <= x < w -> 0 <= y < h -> v x y = v' x y) -> predicts w h d st old new v -> predicts w h d st old new v'.
Proof. intros E [A B]. split; [|exact B]. intros x y Hx Hy. rewrite A by assumption. apply E; assumption. Qed.
Lemma pred_unused junk junk' src src' s d st mode w h top left dst : 0 <= mode <= 2 -> intra_shape w h -> w <= st ->
  (forall k, - h <= k <= w -> 0 <= src (s + k) <= 255 /\ src' (s + k) = src (s + k)) ->
  forall q, pred_sse junk src s d st mode w h top left dst q = pred_sse junk' src' s d st mode w h top left dst q /\
            pred_avx junk src s d st mode w h top left dst q = pred_avx junk' src' s d st mode w h top left dst q.
Proof.
  intros Hm Sh W N q. pose proof (shape_pos w h Sh) as B.
  assert (N1 : forall k, - h <= k <= w -> 0 <= src (s + k) <= 255) by (intros; apply N; assumption).
  assert (N2 : forall k, - h <= k <= w -> 0 <= src' (s + k) <= 255) by (intros k Hk; destruct (N k Hk) as [G ->]; exact G).
  assert (R : forall x y, 0 <= x < w -> 0 <= y < h -> rule 8 (fun k => src' (s + k)) mode w h top left x y = rule 8 (fun k => src (s + k)) mode w h top left x y).
  { intros x y Hx Hy. apply rule_near; try assumption. intros k Hk. apply (N k Hk). }
  split.
  - apply (predicts_same_all w h d st dst _ _ (rule 8 (fun k => src (s + k)) mode w h top left)); [lia|exact W|apply pred_sse_near; assumption|].
    apply (predicts_ext _ _ _ _ _ _ _ _ R). apply pred_sse_near; assumption.
  - apply (predicts_same_all w h d st dst _ _ (rule 8 (fun k => src (s + k)) mode w h top left)); [lia|exact W|apply pred_avx_near; assumption|].
    apply (predicts_ext _ _ _ _ _ _ _ _ R). apply pred_avx_near; assumption.
Qed.
