(** Lemmas about the 8x8 transform in assembly. *)
From Coq Require Import ZArith List Bool Lia.
From Verif Require Import CBase HdrModel MemModel MemProofs UtilModel UtilProofs VxModelBase TrModel AlfSpec McSpec TrSpec TrProofs TrProofsB XaModel XaSpec XaProofs XaProofsB XbModel XbSpec.
Import ListNotations.
Open Scope Z_scope.

Lemma wsmall v : -2147483648 <= v <= 2147483647 -> to_i32 v = v.
Proof. intros H. unfold to_i32. rewrite Z.mod_small by lia. lia. Qed.
Ltac unwrap := repeat match goal with |- context [to_i32 ?t] => lazymatch t with context [to_i32 _] => fail | _ => rewrite (wsmall t) by lia end end.

(** One output of eight inputs: the sum over the basis, rounded, shifted, limited to 16 bits. *)
Definition out8 (sh rnd k : Z) (f : Z -> Z) : Z := sat_i16 (Z.shiftr (zsum 8 (fun i => basis 8 i k * f i) + rnd) sh).
Definition word (v : Z) : Prop := -32768 <= v <= 32767.
Lemma out8_lim sh k f : 0 < sh -> out8 sh (2 ^ (sh - 1)) k f = lim 16 (rshift (zsum 8 (fun i => basis 8 i k * f i)) sh).
Proof.
  intros H. unfold out8, lim, clamp, rshift, sat_i16. rewrite Z.shiftr_div_pow2 by lia. change (2 ^ (16 - 1)) with 32768. destruct (Z.eqb_spec sh 0); [lia|]. reflexivity.
Qed.
Definition f8 (a b c d e f g h : Z) : Z -> Z := fun i =>
  if i =? 0 then a else if i =? 1 then b else if i =? 2 then c else if i =? 3 then d else if i =? 4 then e else if i =? 5 then f else if i =? 6 then g else h.
Ltac consts := repeat match goal with |- context [basis 8 ?u ?x] => let v := eval vm_compute in (basis 8 u x) in change (basis 8 u x) with v end.
Ltac ops := cbv [pass1 process_row pmaddwd paddd psubd psrad packssdw phaddd phsubd punpckhqdq punpcklwd punpckhwd pshufd pshufb low high two
  pb_idct8even pb_idct8odd tab_idct8_1 tab_idct8_2a tab_idct8_2b at_ nth app map].
Ltac sum8 := cbn [zsum Z.of_nat Pos.of_succ_nat Pos.succ]; unfold f8; cbn [Z.eqb Pos.eqb]; consts.
Ltac one := unfold out8; f_equal; f_equal; unfold word in *; unwrap; sum8; ring.

Definition colraw (a b c d e f g h : Z) : list Z :=
  map (fun l => at_ l 0) (pass1 [a;a;a;a] [b;b;b;b] [c;c;c;c] [d;d;d;d] [e;e;e;e] [f;f;f;f] [g;g;g;g] [h;h;h;h]).
Lemma colraw_ok a b c d e f g h : word a -> word b -> word c -> word d -> word e -> word f -> word g -> word h ->
  colraw a b c d e f g h = map (fun y => out8 5 16 y (f8 a b c d e f g h)) [0; 1; 2; 3; 4; 5; 6; 7].
Proof.
  intros Ha Hb Hc Hd He Hf Hg Hh. unfold colraw. ops.
  f_equal; [one|]. f_equal; [one|]. f_equal; [one|]. f_equal; [one|]. f_equal; [one|]. f_equal; [one|]. f_equal; [one|]. f_equal; one.
Qed.
Lemma row_ok sh rnd j a b c d e f g h : word a -> word b -> word c -> word d -> word e -> word f -> word g -> word h -> 0 <= rnd <= 2048 ->
  process_row sh rnd j [a; b; c; d; e; f; g; h] = map (fun x => out8 sh rnd x (f8 a b c d e f g h)) [0; 1; 2; 3; 4; 5; 6; 7].
Proof.
  intros Ha Hb Hc Hd He Hf Hg Hh Hr. ops.
  f_equal; [one|]. f_equal; [one|]. f_equal; [one|]. f_equal; [one|]. f_equal; [one|]. f_equal; [one|]. f_equal; [one|]. f_equal; one.
Qed.
Lemma half_row m p y : (y < 8)%nat -> nth y (half m p) [] =
  map (fun x => nth y (colraw (m (p + x)) (m (p + 8 + x)) (m (p + 16 + x)) (m (p + 24 + x)) (m (p + 32 + x)) (m (p + 40 + x)) (m (p + 48 + x)) (m (p + 56 + x))) 0) [0; 1; 2; 3].
Proof.
  intros H. cbn [map]. rewrite !Z.add_0_r. unfold half, ld4, colraw.
  do 8 (destruct y as [|y]; [ops; reflexivity|]). lia.
Qed.
Definition coef (m : mem) (src u v : Z) : Z := m (src + v * 8 + u).
Lemma f8_col m src u y p : p = src + u -> (forall v, 0 <= v < 8 -> word (coef m src u v)) -> (y < 8)%nat ->
  nth y (colraw (m p) (m (p + 8)) (m (p + 16)) (m (p + 24)) (m (p + 32)) (m (p + 40)) (m (p + 48)) (m (p + 56))) 0 = col_pass 8 (coef m src) u (Z.of_nat y).
Proof.
  intros -> H Hy. unfold coef in H.
  assert (E : forall v k, k = v * 8 -> m (src + u + k) = m (src + v * 8 + u)) by (intros v k ->; f_equal; ring).
  replace (m (src + u)) with (m (src + 0 * 8 + u)) by (f_equal; ring).
  rewrite (E 1 8), (E 2 16), (E 3 24), (E 4 32), (E 5 40), (E 6 48), (E 7 56) by reflexivity. clear E.
  rewrite colraw_ok by (apply H; lia).
  assert (G : forall k, out8 5 16 k (f8 (m (src + 0 * 8 + u)) (m (src + 1 * 8 + u)) (m (src + 2 * 8 + u)) (m (src + 3 * 8 + u)) (m (src + 4 * 8 + u)) (m (src + 5 * 8 + u)) (m (src + 6 * 8 + u)) (m (src + 7 * 8 + u)))
              = col_pass 8 (coef m src) u k).
  { intros k. change 16 with (2 ^ (5 - 1)). rewrite out8_lim by lia. reflexivity. }
  do 8 (destruct y as [|y]; [exact (G _)|]). lia.
Qed.
Lemma word_col bv c u y : word (col_pass bv c u y).
Proof. apply col_range. Qed.

Definition shift2 (d : Z) : Z := if d =? 10 then 10 else 12.
Definition round2 (d : Z) : Z := if d =? 10 then 512 else 2048.
Lemma f8_sum x (g : Z -> Z) : zsum 8 (fun i => basis 8 i x * f8 (g 0) (g 1) (g 2) (g 3) (g 4) (g 5) (g 6) (g 7) i) = zsum 8 (fun i => basis 8 i x * g i).
Proof. reflexivity. Qed.
Lemma row_res d j m src y : d = 8 \/ d = 10 -> (y < 8)%nat -> (forall u v, 0 <= u < 8 -> 0 <= v < 8 -> word (coef m src u v)) ->
  process_row (shift2 d) (round2 d) j (nth y (half m src) [] ++ nth y (half m (src + 4)) []) =
  map (fun x => residual16_8 d (coef m src) x (Z.of_nat y)) [0; 1; 2; 3; 4; 5; 6; 7].
Proof.
  intros Hd Hy H. rewrite !half_row by exact Hy. cbn [map app].
  assert (E : forall p u x, p + x = src + u -> 0 <= u < 8 ->
    nth y (colraw (m (p + x)) (m (p + 8 + x)) (m (p + 16 + x)) (m (p + 24 + x)) (m (p + 32 + x)) (m (p + 40 + x)) (m (p + 48 + x)) (m (p + 56 + x))) 0 = col_pass 8 (coef m src) u (Z.of_nat y)).
  { intros p u x Ep Hu. rewrite <- (f8_col m src u y (p + x) Ep) by (auto; intros v Hv; apply H; lia).
    replace (p + 8 + x) with (p + x + 8) by ring. replace (p + 16 + x) with (p + x + 16) by ring. replace (p + 24 + x) with (p + x + 24) by ring.
    replace (p + 32 + x) with (p + x + 32) by ring. replace (p + 40 + x) with (p + x + 40) by ring. replace (p + 48 + x) with (p + x + 48) by ring.
    replace (p + 56 + x) with (p + x + 56) by ring. reflexivity. }
  rewrite (E src 0 0), (E src 1 1), (E src 2 2), (E src 3 3), (E (src + 4) 4 0), (E (src + 4) 5 1), (E (src + 4) 6 2), (E (src + 4) 7 3) by lia.
  rewrite row_ok; try apply word_col; [|unfold round2; destruct (d =? 10); lia].
  assert (G : forall x, out8 (shift2 d) (round2 d) x (f8 (col_pass 8 (coef m src) 0 (Z.of_nat y)) (col_pass 8 (coef m src) 1 (Z.of_nat y)) (col_pass 8 (coef m src) 2 (Z.of_nat y)) (col_pass 8 (coef m src) 3 (Z.of_nat y))
    (col_pass 8 (coef m src) 4 (Z.of_nat y)) (col_pass 8 (coef m src) 5 (Z.of_nat y)) (col_pass 8 (coef m src) 6 (Z.of_nat y)) (col_pass 8 (coef m src) 7 (Z.of_nat y))) = residual16_8 d (coef m src) x (Z.of_nat y)).
  { intros x. unfold residual16_8. replace (20 - d) with (shift2 d) by (destruct Hd; subst d; reflexivity).
    replace (round2 d) with (2 ^ (shift2 d - 1)) by (destruct Hd; subst d; reflexivity).
    rewrite out8_lim by (destruct Hd; subst d; reflexivity). rewrite (f8_sum x (fun u => col_pass 8 (coef m src) u (Z.of_nat y))). reflexivity. }
  cbn [map]. rewrite !G. reflexivity.
Qed.

(** The eight stores. *)
Lemma st8_in m p l x : 0 <= x < 8 -> st8 m p l (p + x) = at_ l (Z.to_nat x).
Proof. intros H. unfold st8. rewrite (proj2 (Z.leb_le p (p + x))), (proj2 (Z.ltb_lt (p + x) (p + 8))) by lia. cbn [andb]. f_equal. f_equal. lia. Qed.
Lemma st8_out m p l a : a < p \/ p + 8 <= a -> st8 m p l a = m a.
Proof. intros H. unfold st8. destruct (Z.leb_spec p a), (Z.ltb_spec a (p + 8)); cbn [andb]; try reflexivity; lia. Qed.

Lemma asm8_raw d src dst st junk m : d = 8 \/ d = 10 -> 8 <= st -> (forall u v, 0 <= u < 8 -> 0 <= v < 8 -> word (coef m src u v)) ->
  (forall x y, 0 <= x < 8 -> 0 <= y < 8 -> idct_8x8_ssse3 d src dst st junk m (dst + y * st + x) = residual16_8 d (coef m src) x y) /\
  (forall q, ~ in_block 8 8 dst st q -> idct_8x8_ssse3 d src dst st junk m q = m q).
Proof.
  intros Hd Hs H. unfold idct_8x8_ssse3. fold (shift2 d) (round2 d). cbv zeta.
  rewrite !(row_res d) by (auto; lia). set (c := coef m src).
  assert (R : forall k x, 0 <= x < 8 -> at_ (map (fun x => residual16_8 d c x (Z.of_nat k)) [0; 1; 2; 3; 4; 5; 6; 7]) (Z.to_nat x) = residual16_8 d c x (Z.of_nat k)).
  { intros k x Hx. assert (E : x = 0 \/ x = 1 \/ x = 2 \/ x = 3 \/ x = 4 \/ x = 5 \/ x = 6 \/ x = 7) by lia.
    repeat (destruct E as [E|E]; [subst x; reflexivity|]). subst x. reflexivity. }
  split.
  - intros x y Hx Hy. assert (E : y = 0 \/ y = 1 \/ y = 2 \/ y = 3 \/ y = 4 \/ y = 5 \/ y = 6 \/ y = 7) by lia.
    Local Ltac pick R Hx x := match goal with |- context [st8 _ ?p (map _ _) ?a] =>
      first [rewrite (st8_out _ p _ a) by lia | replace a with (p + x) by ring; rewrite st8_in by exact Hx; rewrite R by exact Hx; reflexivity] end.
    destruct E as [->|[->|[->|[->|[->|[->|[->| ->]]]]]]]; do 8 (try pick R Hx x).
  - intros q N. assert (G : forall k, 0 <= k < 8 -> q < dst + k * st \/ dst + k * st + 8 <= q).
    { intros k Hk. destruct (Z_lt_dec q (dst + k * st)); [left; lia|]. destruct (Z_le_dec (dst + k * st + 8) q); [right; lia|].
      exfalso. apply N. exists (q - (dst + k * st)), k. unfold bpos. lia. }
    pose proof (G 0 ltac:(lia)). pose proof (G 1 ltac:(lia)). pose proof (G 2 ltac:(lia)). pose proof (G 3 ltac:(lia)).
    pose proof (G 4 ltac:(lia)). pose proof (G 5 ltac:(lia)). pose proof (G 6 ltac:(lia)). pose proof (G 7 ltac:(lia)).
    rewrite !st8_out by lia. reflexivity.
Qed.

Lemma raw_range8 c x y : 0 <= x < 8 -> -2048 <= residual16_8 8 c x y <= 2048.
Proof.
  intros Hx. unfold residual16_8. set (g := fun u => col_pass 8 c u y).
  assert (W : forall u, word (g u)) by (intros u; apply word_col).
  change (zsum 8 (fun u => basis 8 u x * col_pass 8 c u y)) with (zsum 8 (fun u => basis 8 u x * g u)). clearbody g. clear c y.
  assert (B : -7831552 <= zsum 8 (fun u => basis 8 u x * g u) <= 7831552).
  { pose proof (W 0) as W0. pose proof (W 1) as W1. pose proof (W 2) as W2. pose proof (W 3) as W3. pose proof (W 4) as W4. pose proof (W 5) as W5. pose proof (W 6) as W6. pose proof (W 7) as W7. unfold word in *.
    assert (E : x = 0 \/ x = 1 \/ x = 2 \/ x = 3 \/ x = 4 \/ x = 5 \/ x = 6 \/ x = 7) by lia.
    destruct E as [->|[->|[->|[->|[->|[->|[->| ->]]]]]]]; cbn [zsum Z.of_nat Pos.of_succ_nat Pos.succ]; consts; lia. }
  unfold lim, clamp, rshift. change (20 - 8) with 12. cbn [Z.eqb]. change (2 ^ (12 - 1)) with 2048. change (2 ^ 12) with 4096. change (2 ^ (16 - 1)) with 32768.
  generalize dependent (zsum 8 (fun u => basis 8 u x * g u)). intros z B. pose proof (Z.div_le_mono (-7831552) (z + 2048) 4096 ltac:(lia) ltac:(lia)). pose proof (Z.div_le_mono (z + 2048) 7833600 4096 ltac:(lia) ltac:(lia)).
  change (-7831552 / 4096) with (-1912) in *. change (7833600 / 4096) with 1912 in *. lia.
Qed.
Lemma raw_residual8 d c x y : mc_depth d -> residual 8 8 0 d c x y = Z.max (- 2 ^ d) (Z.min (2 ^ d - 1) (residual16_8 d c x y)).
Proof.
  intros Hd. unfold mc_depth in Hd. unfold residual, residual16_8. rewrite Z.sub_0_r. change (Z.of_nat 8) with 8. set (z := rshift _ _). unfold lim, clamp. change (2 ^ (16 - 1)) with 32768. replace (d + 1 + 0 - 1) with d by lia.
  assert (2 ^ d <= 2 ^ 12) by (apply Z.pow_le_mono_r; lia). change (2 ^ 12) with 4096 in *. assert (0 < 2 ^ d) by (apply Z.pow_pos_nonneg; lia). lia.
Qed.

Lemma recon_8x8 avx2 s st p rs junk t0 c m : 8 <= st -> 8 <= rs -> bytes m ->
  (forall u v, 0 <= u < 8 -> 0 <= v < 8 -> -32768 <= c (p + v * 8 + u) <= 32767) ->
  exists m1, add_ps_asm s st (idct_8x8_ssse3 8 p p rs junk c) p rs avx2 8 8 m = Some m1 /\
    forall a, m1 a = add_ps 8 8 8 s st (idct_8x8 8 p rs t0 c) p rs m a.
Proof.
  intros Hs Hrs Hm C16. assert (Hd : mc_depth 8) by (unfold mc_depth; lia).
  destruct (asm8_raw 8 p p rs junk c (or_introl eq_refl) Hrs C16) as [R1 _]. set (r1 := idct_8x8_ssse3 _ _ _ _ _ c) in *. clearbody r1.
  destruct (idct_hv_spec 8 8 0 8 p rs t0 c ltac:(unfold points; auto) ltac:(unfold points; auto) ltac:(lia) Hd ltac:(lia)) as [C1 _].
  destruct (add_asm_ok avx2 8 8 s st r1 p rs m) as (m1 & E & A); [unfold asm_width; lia|lia|reflexivity|exact Hs|exact Hm| |].
  { intros x y Hx Hy. rewrite R1 by lia. pose proof (raw_range8 (coef c p) x y Hx). lia. }
  exists m1. split; [exact E|]. intros a. rewrite A. change (Z.to_nat 8) with 8%nat.
  destruct (add_ps_spec 8 8 8 s st r1 p rs m ltac:(lia)) as [A1 A2]. destruct (add_ps_spec 8 8 8 s st (idct_8x8 8 p rs t0 c) p rs m ltac:(lia)) as [B1 B2]. cbv zeta in *.
  destruct (in_block_dec 8 8 s st a ltac:(lia)) as [(x & y & Hx & Hy & ->)|N]; [|rewrite A2, B2 by exact N; reflexivity].
  rewrite A1, B1 by assumption. unfold bpos, idct_8x8. rewrite R1, C1 by lia. rewrite raw_residual8 by exact Hd. change (Z.of_nat 8) with 8.
  change (fun u v : Z => c (p + v * 8 + u)) with (coef c p).
  set (v := residual16_8 _ _ _ _). clearbody v. pose proof (Hm (s + y * st + x)). change (2 ^ 8) with 256. rewrite !clip1_eq by lia. change (2 ^ 8) with 256. lia.
Qed.
Lemma limited_8x8 d p st junk t0 c : d = 8 \/ d = 10 -> 8 <= st ->
  (forall u v, 0 <= u < 8 -> 0 <= v < 8 -> -32768 <= c (p + v * 8 + u) <= 32767) ->
  forall x y, 0 <= x < 8 -> 0 <= y < 8 ->
  idct_8x8 d p st t0 c (p + y * st + x) = Z.max (- 2 ^ d) (Z.min (2 ^ d - 1) (idct_8x8_ssse3 d p p st junk c (p + y * st + x))).
Proof.
  intros Hd Hs C16 x y Hx Hy. assert (Hm : mc_depth d) by (unfold mc_depth; lia).
  destruct (asm8_raw d p p st junk c Hd Hs C16) as [R1 _]. rewrite R1 by assumption.
  destruct (idct_hv_spec 8 8 0 d p st t0 c ltac:(unfold points; auto) ltac:(unfold points; auto) ltac:(lia) Hm ltac:(lia)) as [C1 _].
  unfold idct_8x8. rewrite C1 by (change (Z.of_nat 8) with 8; assumption). rewrite raw_residual8 by exact Hm. reflexivity.
Qed.
