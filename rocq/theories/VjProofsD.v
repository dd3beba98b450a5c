(** The AVX2 interpolation kernels store what the C kernels store. *)
From Coq Require Import ZArith List Bool Lia.
From Verif Require Import CBase UtilModel MemModel MemProofs SaoModel SaoProofs McModel McSpec McProofs VxModelBase VxModel VxProofs VxProofsB VxProofsF VdModel ViModel ViProofs ViProofsB ViProofsC ViProofsD VjModel VjProofs VjProofsB VjProofsC.
Import ListNotations.
Open Scope Z_scope.

Lemma step_fits step w x : 0 < step -> w mod step = 0 -> 0 <= x < w -> (x - 0) mod step = 0 -> x + step <= w.
Proof.
  intros Hs Mw Hx Mx. rewrite Z.sub_0_r in Mx. apply Z.mod_divide in Mw, Mx; [|lia|lia]. destruct Mw as [a Ea], Mx as [b Eb].
  assert (b < a) by (apply (Z.mul_lt_mono_pos_r step); lia). assert ((b + 1) * step <= a * step) by (apply Z.mul_le_mono_nonneg_r; lia). lia.
Qed.
(** Pieces of sixteen next to each other. *)
Lemma pieces q F w (put : Z -> mem -> mem) m : 0 <= w -> w mod 16 = 0 ->
  (forall x m, 0 <= x -> x + 16 <= w -> forall j, put x m j = fill q x (x + 16) F m j) ->
  forall j, vfor 0 w 16 (fun x m => (put x m, true)) m j = fill q 0 w F m j.
Proof.
  intros Hw M Hp. apply vfor_fill; [lia|lia|]. intros x m' Hx Mx. pose proof (step_fits 16 w x ltac:(lia) M Hx Mx) as L.
  eexists _, true. split; [reflexivity|]. split; [|left; reflexivity]. rewrite Z.min_r by lia. apply Hp; lia.
Qed.

Section Block.
  Variables (dst i_dst : Z) (w h : nat) (m : mem) (V : Z -> Z -> Z).
  Hypothesis Hw : Z.of_nat w <= i_dst.
  Local Notation W := (Z.of_nat w).
  Local Notation HH := (Z.of_nat h).
  (** A line at a time. *)
  Lemma full_lines (put : Z -> mem -> mem) :
    (forall y m, 0 <= y < HH -> exists F, (forall j, put y m j = fill (dst + y * i_dst) 0 W F m j) /\ forall x, 0 <= x < W -> F x = V x y) ->
    forall j, floop 0 HH put m j = block_write w h dst i_dst (fun x y _ => V x y) m j.
  Proof.
    intros Hp. eapply (wr_det W HH dst i_dst m); [lia| |apply bw_wr; exact Hw].
    eapply wr_ext; [|apply (lines_wr W HH dst i_dst m V Hw (fun _ _ => false) HH 0 0 W put m); [lia|lia|lia|lia|lia| |apply wr_none]].
    - intros x y Hx Hy. cbn [orb]. destruct (Z.leb_spec 0 y), (Z.ltb_spec y (0 + HH)), (Z.leb_spec 0 x), (Z.ltb_spec x W); first [lia | reflexivity].
    - intros k m' Hk. destruct (Hp k m' Hk) as (F & E1 & E2). exists F. rewrite Z.add_0_l. split; assumption.
  Qed.
  (** Two lines at a time, the second one first. *)
  Lemma full_pairs (put : Z -> mem -> mem) : HH mod 2 = 0 ->
    (forall y m, 0 <= y -> y + 2 <= HH -> exists F G, (forall j, put y m j = fill (dst + y * i_dst) 0 W F (fill (dst + (y + 1) * i_dst) 0 W G m) j) /\
       forall x, 0 <= x < W -> F x = V x y /\ G x = V x (y + 1)) ->
    forall j, vfor 0 HH 2 (fun y m => (put y m, true)) m j = block_write w h dst i_dst (fun x y _ => V x y) m j.
  Proof.
    intros M Hp. eapply (wr_det W HH dst i_dst m); [lia| |apply bw_wr; exact Hw].
    unfold vfor. destruct (vloop_inv (fun Y m1 => wr W HH dst i_dst m V (fun x y => y <? Y) m1) 2 HH (fun y m => (put y m, true)) (Z.to_nat (HH - 0)) ltac:(lia) 0 m)
      as (Y & A1 & A2 & A3 & A4 & A5); [lia| | |].
    - eapply wr_ext; [|apply wr_none]. intros x y Hx Hy. symmetry. apply Z.ltb_ge. lia.
    - intros Y m1 HY MY H1. eexists. split; [reflexivity|]. pose proof (step_fits 2 HH Y ltac:(lia) M HY MY) as L.
      destruct (Hp Y m1 ltac:(lia) L) as (F & G & E & EV). eapply wr_same; [exact E|].
      eapply wr_ext; [|apply wr_fill; [exact Hw|apply wr_fill; [exact Hw|exact H1|lia|lia|lia|]|lia|lia|lia|]].
      + intros x y Hx Hy. unfold rowP. destruct (Z.ltb_spec y Y), (Z.ltb_spec y (Y + 2)), (Z.eqb_spec y Y), (Z.eqb_spec y (Y + 1)), (Z.leb_spec 0 x), (Z.ltb_spec x W); cbn [andb orb]; try reflexivity; lia.
      + intros x Hx. apply EV, Hx.
      + intros x Hx. apply EV, Hx.
    - eapply wr_ext; [|exact A5]. intros x y Hx Hy. apply Z.ltb_lt. lia.
  Qed.
End Block.
Lemma bw_ext w h dst ds V V' m : Z.of_nat w <= ds -> (forall x y, 0 <= x < Z.of_nat w -> 0 <= y < Z.of_nat h -> V x y = V' x y) ->
  forall q, block_write w h dst ds (fun x y _ => V x y) m q = block_write w h dst ds (fun x y _ => V' x y) m q.
Proof.
  intros Hw E. eapply (wr_det (Z.of_nat w) (Z.of_nat h) dst ds m V'); [lia| |apply bw_wr; exact Hw].
  destruct (bw_wr w h dst ds V m Hw) as [A B]. split; [|exact B]. intros x y Hx Hy. rewrite A by assumption. apply E; assumption.
Qed.

Section Kernels.
  Variables (dst i_dst : Z) (src : mem) (p i_src : Z) (w h : nat) (junk : reg) (m : mem).
  Hypotheses (Hs : forall q, byte (src q)) (Hw : Z.of_nat w <= i_dst).
  Local Notation W := (Z.of_nat w).
  Local Notation HH := (Z.of_nat h).

  Lemma dot8_flt c cl q : same_c 8 c cl -> dot8 c src (q - 3) = flt_8tap src q 1 cl.
  Proof.
    intros S. rewrite (flt8_c src _ 1 c cl S). unfold dot8.
    rewrite (eq_idx src (q - 3 + 1) (q - 2 * 1)), (eq_idx src (q - 3 + 2) (q - 1)), (eq_idx src (q - 3 + 3) q), (eq_idx src (q - 3 + 4) (q + 1)),
      (eq_idx src (q - 3 + 5) (q + 2 * 1)), (eq_idx src (q - 3 + 6) (q + 3 * 1)), (eq_idx src (q - 3 + 7) (q + 4 * 1)), (eq_idx src (q - 3 * 1) (q - 3)) by lia. reflexivity.
  Qed.
  Lemma dot4_flt c cl q : same_c 4 c cl -> dot4 c src (q - 1) = flt_4tap src q 1 cl.
  Proof.
    intros S. rewrite (flt4_c src _ 1 c cl S). unfold dot4.
    rewrite (eq_idx src (q - 1 + 1) q), (eq_idx src (q - 1 + 2) (q + 1)), (eq_idx src (q - 1 + 3) (q + 2 * 1)) by lia. reflexivity.
  Qed.
  Lemma colsum8_flt c cl (s : mem) q st : same_c 8 c cl -> colsum8 c (fun j => s (q - 3 * st + j * st)) = flt_8tap s q st cl.
  Proof.
    intros S. rewrite (flt8_c s _ st c cl S). unfold colsum8.
    rewrite (eq_idx s (q - 3 * st + 0 * st) (q - 3 * st)), (eq_idx s (q - 3 * st + 1 * st) (q - 2 * st)), (eq_idx s (q - 3 * st + 2 * st) (q - st)), (eq_idx s (q - 3 * st + 3 * st) q),
      (eq_idx s (q - 3 * st + 4 * st) (q + st)), (eq_idx s (q - 3 * st + 5 * st) (q + 2 * st)), (eq_idx s (q - 3 * st + 6 * st) (q + 3 * st)), (eq_idx s (q - 3 * st + 7 * st) (q + 4 * st)) by lia. reflexivity.
  Qed.
  Lemma colsum4_flt c cl (s : mem) q st : same_c 4 c cl -> colsum4 c (fun j => s (q - st + j * st)) = flt_4tap s q st cl.
  Proof.
    intros S. rewrite (flt4_c s _ st c cl S). unfold colsum4.
    rewrite (eq_idx s (q - st + 0 * st) (q - st)), (eq_idx s (q - st + 1 * st) q), (eq_idx s (q - st + 2 * st) (q + st)), (eq_idx s (q - st + 3 * st) (q + 2 * st)) by lia. reflexivity.
  Qed.
  Lemma bsrc q : bytes (load src q).
  Proof. intros k. apply Hs. Qed.
  Lemma Bsrc : bytes src.
  Proof. intros k. apply Hs. Qed.

  (** Along a line. *)
  Lemma hor_w16_agrees taps back D V : W mod 16 = 0 ->
    (forall q k, 0 <= k < 16 -> let sum := round6w (taps (permute4x64 (load src q) 148)) in permute4x64 (packus_epi16 sum sum) 216 k = r6 (D (q + k))) ->
    (forall x y, r6 (D (p - back + y * i_src + x)) = V x y) ->
    forall j, hor_w16 taps back dst i_dst src p i_src W HH m j = block_write w h dst i_dst (fun x y _ => V x y) m j.
  Proof.
    intros M HD HV. unfold hor_w16. cbv zeta. apply full_lines; [exact Hw|]. intros y m' Hy. exists (fun x => r6 (D (p - back + y * i_src + x))). split; [|intros; apply HV].
    apply (pieces (dst + y * i_dst) (fun x => r6 (D (p - back + y * i_src + x))) W
      (fun col m0 => maskstore_epi32 m0 (dst + y * i_dst + col) (permute4x64 (packus_epi16 (round6w (taps (permute4x64 (load src (p - back + y * i_src + col)) 148))) (round6w (taps (permute4x64 (load src (p - back + y * i_src + col)) 148)))) 216) mask16)); [lia|exact M|].
    intros x m0 Hx Hl. apply maskstore_fill; [lia|apply mask16_bit|]. intros k Hk. rewrite (HD (p - back + y * i_src + x) k Hk). do 2 f_equal. lia.
  Qed.
  Lemma luma_hor_w16_agrees c cl : W mod 16 = 0 -> fit 8 c -> same_c 8 c cl ->
    forall j, luma_hor_w16 dst i_dst src p i_src W HH c m j = intpl_luma_block_hor 8 dst i_dst src p i_src w h cl m j.
  Proof.
    intros M C S. apply (hor_w16_agrees _ 3 (dot8 c src)); [exact M| |].
    - intros q k Hk. apply (hor16_byte (fun s => taps8_avx2 s (set1_quad (cbytes c) 0)) (dot8 c)); try assumption.
      + intros s L i B HL Hi. apply taps8_word; assumption.
      + intros s x B. apply dot8_range; assumption.
      + intros i Hi. apply dot8_148, Hi.
    - intros x y. unfold r6. do 3 f_equal. rewrite <- (dot8_flt c cl _ S). f_equal. lia.
  Qed.
  Lemma chroma_hor_w16_agrees c cl : W mod 16 = 0 -> fit 4 c -> same_c 4 c cl ->
    forall j, chroma_hor_w16 dst i_dst src p i_src W HH c m j = intpl_chroma_block_hor 8 dst i_dst src p i_src w h cl m j.
  Proof.
    intros M C S. apply (hor_w16_agrees _ 1 (dot4 c src)); [exact M| |].
    - intros q k Hk. apply (hor16_byte (fun s => taps4_avx2 s (set1_epi32 (load_i32 (cbytes c) 0))) (dot4 c)); try assumption.
      + intros s L i B HL Hi. apply taps4_word; assumption.
      + intros s x B. apply dot4_range; assumption.
      + intros i Hi. apply dot4_148, Hi.
    - intros x y. unfold r6. do 3 f_equal. rewrite <- (dot4_flt c cl _ S). f_equal. lia.
  Qed.
  Lemma luma_hor_w24_agrees c cl : W = 24 -> fit 8 c -> same_c 8 c cl ->
    forall j, luma_hor_w24 dst i_dst src p i_src HH c m j = intpl_luma_block_hor 8 dst i_dst src p i_src w h cl m j.
  Proof.
    intros E C S. unfold luma_hor_w24. cbv zeta. apply full_lines; [exact Hw|]. intros y m' Hy. exists (fun x => r6 (dot8 c src (p - 3 + y * i_src + x))). split.
    - rewrite E. intros j. rewrite <- (Z.add_0_r (dst + y * i_dst)) at 1. apply (maskstore_fill 24 mask24 m' (dst + y * i_dst) 0); [lia|apply mask24_bit|].
      intros k Hk. rewrite (luma24_byte src _ c Hs C k Hk). reflexivity.
    - intros x Hx. unfold r6. do 3 f_equal. rewrite <- (dot8_flt c cl _ S). f_equal. lia.
  Qed.
  Lemma chroma_hor_w24_agrees c cl : W = 24 -> fit 4 c -> same_c 4 c cl ->
    forall j, chroma_hor_w24 dst i_dst src p i_src HH c m j = intpl_chroma_block_hor 8 dst i_dst src p i_src w h cl m j.
  Proof.
    intros E C S. unfold chroma_hor_w24. cbv zeta. apply full_lines; [exact Hw|]. intros y m' Hy. exists (fun x => r6 (dot4 c src (p - 1 + y * i_src + x))). split.
    - rewrite E. intros j. rewrite <- (Z.add_0_r (dst + y * i_dst)) at 1. apply (maskstore_fill 24 mask24 m' (dst + y * i_dst) 0); [lia|apply mask24_bit|].
      intros k Hk. rewrite (chroma24_byte src _ c Hs C k Hk). reflexivity.
    - intros x Hx. unfold r6. do 3 f_equal. rewrite <- (dot4_flt c cl _ S). f_equal. lia.
  Qed.

  (** Down a column. *)
  Definition vsum_is (vsum : (reg -> reg -> reg) -> (Z -> Z) -> (Z -> reg) -> reg) (c : Z -> Z) (n : Z) (cs : (Z -> Z) -> Z) : Prop :=
    (forall ho S k x, picks8 ho k x -> (forall j, 0 <= j < n -> byte (S j x)) -> i16_of (vsum ho c S) k = cs (fun j => S j x)) /\
    (forall t, (forall j, 0 <= j < n -> byte (t j)) -> -32000 <= cs t <= 32000).
  Lemma vbytes_cs vsum c n cs S k : vsum_is vsum c n cs -> (forall j, 0 <= j < n -> byte (S j k)) -> vbytes (fun ho => vsum ho c S) k = r6 (cs (fun j => S j k)).
  Proof.
    intros [A R] B. apply (vbytes_at (fun ho => vsum ho c S) (fun k => cs (fun j => S j k)) k); [|apply R, B].
    intros ho i x P ->. apply A; assumption.
  Qed.
  Lemma ver_lines_agrees (put : (Z -> reg) -> mem -> Z -> mem) vsum up c n cs V : vsum_is vsum c n cs ->
    (forall U m q F, (forall x col, 0 <= col -> 0 <= x -> col + x < W -> U col x = F (col + x)) -> forall j, put U m q j = fill q 0 W F m j) ->
    (forall x y, r6 (cs (fun j => src (p + y * i_src + x - up * i_src + j * i_src))) = V x y) ->
    (forall t t', (forall j, t j = t' j) -> cs t = cs t') ->
    forall j, ver_lines put vsum up dst i_dst src p i_src HH c m j = block_write w h dst i_dst (fun x y _ => V x y) m j.
  Proof.
    intros VS HP HV CE. unfold ver_lines. apply full_lines; [exact Hw|]. intros y m' Hy. exists (fun x => V x y). split; [|reflexivity].
    apply HP. intros x col Hc Hx Hl. rewrite (vbytes_cs vsum c n cs _ x VS) by (intros; apply bsrc). rewrite <- HV. f_equal. apply CE. intros j. unfold load. f_equal. lia.
  Qed.
  Lemma ver_w16_agrees vsum up c n cs V : W = 16 -> HH mod 2 = 0 -> vsum_is vsum c n cs ->
    (forall x y, r6 (cs (fun j => src (p + y * i_src + x - up * i_src + j * i_src))) = V x y) ->
    (forall t t', (forall j, t j = t' j) -> cs t = cs t') ->
    forall j, ver_w16 vsum up dst i_dst src p i_src HH c m j = block_write w h dst i_dst (fun x y _ => V x y) m j.
  Proof.
    intros E M VS HV CE. unfold ver_w16. cbv zeta.
    apply (full_pairs dst i_dst w h m V Hw (fun row m0 => storeu2 m0 (dst + row * i_dst) (dst + row * i_dst + i_dst) (vbytes (fun ho => vsum ho c
      (fun j => set_halves (load src (p - up * i_src + row * i_src + (j + 1) * i_src)) (load src (p - up * i_src + row * i_src + j * i_src)))))) M).
    intros y m' Hy Hl. exists (fun x => V x y), (fun x => V x (y + 1)). split; [|split; reflexivity]. intros j. unfold storeu2, castsi256_si128, store16. rewrite E.
    set (R := vbytes _).
    assert (B : forall k j, byte (set_halves (load src (p - up * i_src + y * i_src + (j + 1) * i_src)) (load src (p - up * i_src + y * i_src + j * i_src)) k)).
    { intros k i. unfold set_halves. destruct (k <? 16); apply bsrc. }
    assert (R0 : forall k, 0 <= k < 16 -> R k = V k (y + 1)).
    { intros k Hk. unfold R. rewrite (vbytes_cs vsum c n cs _ k VS) by (intros; apply B). rewrite <- HV. f_equal. apply CE. intros i. unfold set_halves, load. destruct (Z.ltb_spec k 16); [|lia]. f_equal. lia. }
    assert (R1 : forall k, 0 <= k < 16 -> R (16 + k) = V k y).
    { intros k Hk. unfold R. rewrite (vbytes_cs vsum c n cs _ (16 + k) VS) by (intros; apply B). rewrite <- HV. f_equal. apply CE. intros i. unfold set_halves, load. destruct (Z.ltb_spec (16 + k) 16); [lia|]. f_equal. lia. }
    clearbody R. replace (dst + y * i_dst + i_dst) with (dst + (y + 1) * i_dst + 0) by lia. rewrite <- (Z.add_0_r (dst + y * i_dst)) at 1.
        rewrite (store_fill 16 _ (dst + y * i_dst) 0 _ (fun x => V x y)) by (intros k Hk; apply R1, Hk). change (0 + 16) with 16. apply fill_ext. intros j'.
    apply (store_fill 16 m' (dst + (y + 1) * i_dst) 0). intros k Hk. apply R0, Hk.
  Qed.
  Lemma vsum8_is c : fit 8 c -> sym8 c -> vsum_is vsum8 c 8 (colsum8 c).
  Proof. intros C S. split; [intros; apply vsum8_at; assumption|intros; apply colsum8_range; assumption]. Qed.
  Lemma vsum4_is c : fit 4 c -> sym4 c -> vsum_is vsum4 c 4 (colsum4 c).
  Proof. intros C S. split; [intros; apply vsum4_at; assumption|intros; apply colsum4_range; assumption]. Qed.
  Lemma colsum8_ext c t t' : (forall j, t j = t' j) -> colsum8 c t = colsum8 c t'.
  Proof. intros E. unfold colsum8. rewrite !E. reflexivity. Qed.
  Lemma colsum4_ext c t t' : (forall j, t j = t' j) -> colsum4 c t = colsum4 c t'.
  Proof. intros E. unfold colsum4. rewrite !E. reflexivity. Qed.
  Lemma luma_ver_V c cl : same_c 8 c cl -> forall x y, r6 (colsum8 c (fun j => src (p + y * i_src + x - 3 * i_src + j * i_src))) = clip1 8 (Z.shiftr (flt_8tap src (p + y * i_src + x) i_src cl + 32) 6).
  Proof. intros S x y. unfold r6. do 3 f_equal. apply colsum8_flt, S. Qed.
  Lemma chroma_ver_V c cl : same_c 4 c cl -> forall x y, r6 (colsum4 c (fun j => src (p + y * i_src + x - 1 * i_src + j * i_src))) = clip1 8 (Z.shiftr (flt_4tap src (p + y * i_src + x) i_src cl + 32) 6).
  Proof. intros S x y. unfold r6. do 3 f_equal. rewrite Z.mul_1_l. apply colsum4_flt, S. Qed.

  (** The ways a line is stored. *)
  Definition puts (put : (Z -> reg) -> mem -> Z -> mem) : Prop :=
    forall U m q F, (forall x col, 0 <= col -> 0 <= x -> col + x < W -> U col x = F (col + x)) -> forall j, put U m q j = fill q 0 W F m j.
  Lemma puts_w32 : W = 32 -> puts (fun V m q => put_w32 V m q 0).
  Proof. intros E U m' q F HU j. rewrite E in *. unfold put_w32, store32. apply store_fill. intros k Hk. apply (HU k 0); lia. Qed.
  Lemma puts_w24 : W = 24 -> puts (fun V m q => put_w24 V m q 0).
  Proof. intros E U m' q F HU j. rewrite E in *. unfold put_w24. apply (maskstore_fill 24 mask24 m' q 0); [lia|apply mask24_bit|]. intros k Hk. apply (HU k 0); lia. Qed.
  Lemma puts_w48 : W = 48 -> puts (fun V m q => put_w16 V (put_w32 V m q 0) q 32).
  Proof.
    intros E U m' q F HU j. rewrite E in *. unfold put_w16, put_w32, store32. rewrite (maskstore_fill 16 mask16 _ q 32 _ F); [|lia|apply mask16_bit|intros k Hk; apply (HU k 32); lia].
    rewrite (fill_ext q 32 (32 + 16) F _ (fill q 0 32 F m')); [apply fill_fill; lia|]. intros i. apply (store_fill 32 m' q 0). intros k Hk. apply (HU k 0); lia.
  Qed.
  Lemma puts_w64 : W = 64 -> puts (fun V m q => put_w32 V (put_w32 V m q 0) q 32).
  Proof.
    intros E U m' q F HU j. rewrite E in *. unfold put_w32, store32. rewrite (store_fill 32 _ q 32 _ F); [|intros k Hk; apply (HU k 32); lia].
    rewrite (fill_ext q 32 (32 + 32) F _ (fill q 0 32 F m')); [apply fill_fill; lia|]. intros i. apply (store_fill 32 m' q 0). intros k Hk. apply (HU k 0); lia.
  Qed.

  (** The two SSE kernels. *)
  Lemma unlo_picks k : 0 <= k < 8 -> picks8 unpacklo_epi8 k k.
  Proof. intros Hk. exact (picks_unlo 0 k Hk). Qed.
  Lemma luma_ver_gen_agrees c cl : HH mod 4 = 0 -> fit 8 c -> sym8 c -> same_c 8 c cl ->
    forall j, luma_ver_gen_sse dst i_dst src p i_src W HH c junk m j = intpl_luma_block_ver 8 dst i_dst src p i_src w h cl m j.
  Proof.
    intros M C Sy S. eapply (wr_det W HH dst i_dst m); [lia| |apply bw_wr; exact Hw]. unfold luma_ver_gen_sse. cbv zeta.
    set (val := fun row k col : Z => round6 (vsum8 unpacklo_epi8 c (fun j : Z => load src (p - 3 * i_src + row * i_src + col + (k + j) * i_src)))).
    assert (G : forall row k col i, 0 <= i < 8 -> val row k col i = clip1 8 (Z.shiftr (flt_8tap src (p + (row + k) * i_src + (col + i)) i_src cl + 32) 6)).
    { intros row k col i Hi. unfold val.
      pose proof (vsum8_at unpacklo_epi8 c (fun j : Z => load src (p - 3 * i_src + row * i_src + col + (k + j) * i_src)) i i (unlo_picks i Hi) C Sy (fun j _ => bsrc _ i)) as E.
      rewrite round6_lane; [|exact Hi|rewrite E; apply colsum8_range; [intros; apply bsrc|exact C]]. rewrite E. do 3 f_equal. rewrite <- (colsum8_flt c cl src _ i_src S).
      apply colsum8_ext. intros j. unfold load. f_equal. lia. }
    apply (linesn_wr W HH dst i_dst m _ Hw 4 (HH - 3) junk val val m); try lia; try reflexivity; intros; apply G; lia.
  Qed.
  Lemma chroma_ver_gen_agrees c cl : fit 4 c -> sym4 c -> same_c 4 c cl ->
    forall j, chroma_ver_gen_sse dst i_dst src p i_src W HH c junk m j = intpl_chroma_block_ver 8 dst i_dst src p i_src w h cl m j.
  Proof.
    intros C Sy S. eapply (wr_det W HH dst i_dst m); [lia| |apply bw_wr; exact Hw]. unfold chroma_ver_gen_sse. cbv zeta.
    set (val := fun row k col : Z => round6 (vsum4 unpacklo_epi8 c (fun j : Z => load src (p - i_src + row * i_src + col + (k + j) * i_src)))).
    assert (G : forall row k col i, 0 <= i < 8 -> val row k col i = clip1 8 (Z.shiftr (flt_4tap src (p + (row + k) * i_src + (col + i)) i_src cl + 32) 6)).
    { intros row k col i Hi. unfold val.
      pose proof (vsum4_at unpacklo_epi8 c (fun j : Z => load src (p - i_src + row * i_src + col + (k + j) * i_src)) i i (unlo_picks i Hi) C Sy (fun j _ => bsrc _ i)) as E.
      rewrite round6_lane; [|exact Hi|rewrite E; apply colsum4_range; [intros; apply bsrc|exact C]]. rewrite E. do 3 f_equal. rewrite <- (colsum4_flt c cl src _ i_src S).
      apply colsum4_ext. intros j. unfold load. f_equal. lia. }
    match goal with |- wr _ _ _ _ _ ?V0 _ _ => set (VV := V0) in * end.
    set (body := fun row m0 => (strip8 4 W junk (dst + row * i_dst) i_dst (val row) (val row) m0, true)).
    destruct (vloop_inv (fun Y m1 => wr W HH dst i_dst m VV (fun x y => y <? Y) m1) 4 (HH - 3) body (Z.to_nat (HH - 3 - 0)) ltac:(lia) 0 m) as (Y & A1 & A2 & A3 & A4 & A5); [lia| | |].
    { eapply wr_ext; [|apply wr_none]. intros x y Hx Hy. symmetry. apply Z.ltb_ge. lia. }
    { intros Y m1 HY _ H1. eexists. split; [reflexivity|]. apply strip8_wr; try lia; try exact Hw; [..|exact H1]; intros; apply G; lia. }
    rewrite Z.sub_0_r in A1. fold (vfor 0 (HH - 3) 4 body m) in A5.
    replace (4 * ((Z.max 0 (HH - 3) + 3) / 4)) with Y by (Z.div_mod_to_equations; lia).
    apply (wr_ext W HH dst i_dst m VV (fun x y => y <? HH)). { intros x y Hx Hy. apply Z.ltb_lt. lia. }
    apply (floop_inv (fun Y m1 => wr W HH dst i_dst m VV (fun x y => y <? Y) m1)); [lia|exact A5|].
    intros k m2 Hk H2. apply strip8_wr; try lia; try exact Hw; [..|exact H2]; intros k' col i Hk' Hc Hx Hi; exact (G k k' col i ltac:(lia)).
  Qed.

  (** Both passes. *)
  Lemma range8 clx q : fit 8 (fun k => coef clx (Z.to_nat k)) -> -32768 <= flt_8tap src q 1 clx <= 32767.
  Proof. intros C. rewrite <- (dot8_flt _ clx q (fun k _ => eq_refl)). pose proof (dot8_range _ src (q - 3) Bsrc C). lia. Qed.
  Lemma range4 clx q : fit 4 (fun k => coef clx (Z.to_nat k)) -> -32768 <= flt_4tap src q 1 clx <= 32767.
  Proof. intros C. rewrite <- (dot4_flt _ clx q (fun k _ => eq_refl)). pose proof (dot4_range _ src (q - 1) Bsrc C). lia. Qed.
  (** [D y x] is what the first pass leaves for line [y]. *)
  Lemma pass1_w16 taps up back st n (D : Z -> Z -> Z) t0 : W mod 16 = 0 -> W <= st -> 0 <= n ->
    (forall y x i, 0 <= i < 16 -> i16_of (taps (permute4x64 (load src (p - up * i_src - back + y * i_src + x)) 148)) i = D y (x + i)) ->
    forall x y, 0 <= x < W -> 0 <= y < n -> ext_pass1_w16 taps up back st n src p i_src W t0 (y * st + x) = D y x.
  Proof.
    intros M Hst Hn HD x y Hx Hy. unfold ext_pass1_w16. apply (rows_array st n W _ (fun x y => D y x) t0); [lia|lia| |exact Hx|exact Hy].
    intros Y t HY. exists W. split; [lia|].
    apply (pieces (Y * st) (fun x => D Y x) W (fun col t => storew 16 t (Y * st + col) (taps (permute4x64 (load src (p - up * i_src - back + Y * i_src + col)) 148)))); [lia|exact M|].
    intros c t1 Hc Hl. apply storew_fill. intros k Hk. apply HD, Hk.
  Qed.
  Lemma pass1_w24 sums up back n (D : Z -> Z -> Z) t0 : W = 24 -> 0 <= n ->
    (forall y, let '(sum1, sum2) := sums (load src (p - up * i_src - back + y * i_src)) in
      (forall i, 0 <= i < 8 -> i16_of (castsi256_si128 sum1) i = D y i) /\
      (forall i, 0 <= i < 16 -> i16_of (permute2x128 sum1 (permute4x64 sum2 216) 19) i = D y (8 + i))) ->
    forall x y, 0 <= x < W -> 0 <= y < n -> ext_pass1_w24 sums up back n src p i_src t0 (y * 32 + x) = D y x.
  Proof.
    intros E Hn HD x y Hx Hy. rewrite E in Hx. unfold ext_pass1_w24. apply (rows_array 32 n 24 _ (fun x y => D y x) t0); [lia|lia| |exact Hx|exact Hy].
    intros Y t HY. exists 24. split; [lia|]. intros j. specialize (HD Y).
    destruct (sums (load src (p - up * i_src - back + Y * i_src))) as [sum1 sum2]. destruct HD as [D1 D2]. cbv zeta.
    rewrite (storew_fill 16 _ (Y * 32) 8 _ (fun x => D Y x) D2). rewrite (fill_ext (Y * 32) 8 (8 + 16) _ _ (fill (Y * 32) 0 8 (fun x => D Y x) t)); [apply fill_fill; lia|].
    intros i. rewrite <- (Z.add_0_r (Y * 32)) at 1. apply (storew_fill 8 t (Y * 32) 0). exact D1.
  Qed.
  Lemma words_at tmp st n (D : Z -> Z -> Z) row col j i : (forall x y, 0 <= x < W -> 0 <= y < n -> tmp (y * st + x) = D y x) -> (forall y x, -32768 <= D y x <= 32767) ->
    0 <= col -> 0 <= i -> col + i < W -> 0 <= row + j < n -> i16_of (loadw tmp (row * st + col + j * st)) i = D (row + j) (col + i).
  Proof.
    intros HT HR Hc Hi Hx Hy. assert (E : tmp (row * st + col + j * st + i) = D (row + j) (col + i)) by (rewrite <- (HT (col + i) (row + j)) by lia; f_equal; lia).
    rewrite i16_loadw by (rewrite E; apply HR). exact E.
  Qed.
  Lemma ext2_w16 second st tmp (D : Z -> Z -> Z) n cs V : W mod 16 = 0 ->
    (forall x y, 0 <= x < W -> 0 <= y < HH + (n - 1) -> tmp (y * st + x) = D y x) -> (forall y x, -32768 <= D y x <= 32767) -> 0 < n ->
    (forall t k, sat_u8 (i16_of (second t) k) = r12 (cs (fun j => i16_of (t j) k))) ->
    (forall t t', (forall j, 0 <= j < n -> t j = t' j) -> cs t = cs t') ->
    (forall x y, 0 <= x < W -> 0 <= y < HH -> r12 (cs (fun j => D (y + j) x)) = V x y) ->
    forall j, ext_pass2_w16 second st tmp dst i_dst W HH m j = block_write w h dst i_dst (fun x y _ => V x y) m j.
  Proof.
    intros M HT HR Hn HS CE HV. unfold ext_pass2_w16. cbv zeta. apply full_lines; [exact Hw|]. intros y m' Hy. exists (fun x => r12 (cs (fun j => D (y + j) x))). split; [|intros; apply HV; lia].
    set (vv := fun col => second (fun j : Z => loadw tmp (y * st + col + j * st))).
    apply (pieces (dst + y * i_dst) (fun x => r12 (cs (fun j => D (y + j) x))) W (fun col m0 => store16 m0 (dst + y * i_dst + col) (permute4x64 (packus_epi16 (vv col) (vv col)) 216))); [lia|exact M|].
    intros x m0 Hx Hl. unfold store16. apply store_fill. intros k Hk. rewrite packus_avx by lia. destruct (Z.ltb_spec k 16); [|lia]. unfold vv. rewrite HS. f_equal. apply CE.
    intros j Hj. apply (words_at tmp st (HH + (n - 1)) D y x j k HT HR); lia.
  Qed.
  Lemma ext2_w24 second tmp (D : Z -> Z -> Z) n cs V : W = 24 ->
    (forall x y, 0 <= x < W -> 0 <= y < HH + (n - 1) -> tmp (y * 32 + x) = D y x) -> (forall y x, -32768 <= D y x <= 32767) -> 0 < n ->
    (forall t k, sat_u8 (i16_of (second t) k) = r12 (cs (fun j => i16_of (t j) k))) ->
    (forall t t', (forall j, 0 <= j < n -> t j = t' j) -> cs t = cs t') ->
    (forall x y, 0 <= x < W -> 0 <= y < HH -> r12 (cs (fun j => D (y + j) x)) = V x y) ->
    forall j, ext_pass2_w24 second tmp dst i_dst HH m j = block_write w h dst i_dst (fun x y _ => V x y) m j.
  Proof.
    intros E HT HR Hn HS CE HV. unfold ext_pass2_w24. cbv zeta. apply full_lines; [exact Hw|]. intros y m' Hy. exists (fun x => r12 (cs (fun j => D (y + j) x))). split; [|intros; apply HV; lia].
    intros j. rewrite E. rewrite <- (Z.add_0_r (dst + y * i_dst)) at 1. apply (maskstore_fill 24 mask24 m' (dst + y * i_dst) 0); [lia|apply mask24_bit|].
    intros k Hk. rewrite packus_avx by lia. destruct (Z.ltb_spec k 16).
    - rewrite HS. f_equal. apply CE. intros i Hi. apply (words_at tmp 32 (HH + (n - 1)) D y 0 i k HT HR); lia.
    - rewrite HS. f_equal. apply CE. intros i Hi. rewrite (words_at tmp 32 (HH + (n - 1)) D y 16 i (k - 16) HT HR) by lia. f_equal. lia.
  Qed.
  Lemma colsum8_ext8 c t t' : (forall j, 0 <= j < 8 -> t j = t' j) -> colsum8 c t = colsum8 c t'.
  Proof. intros E. unfold colsum8. rewrite !E by lia. reflexivity. Qed.
  Lemma colsum4_ext4 c t t' : (forall j, 0 <= j < 4 -> t j = t' j) -> colsum4 c t = colsum4 c t'.
  Proof. intros E. unfold colsum4. rewrite !E by lia. reflexivity. Qed.
  Lemma fit8_list cx clx : fit 8 cx -> same_c 8 cx clx -> fit 8 (fun k => coef clx (Z.to_nat k)).
  Proof.
    intros [C1 C2] Sx. split; [intros k Hk; rewrite <- (Sx k Hk); apply C1, Hk|]. cbn [Z.eqb Pos.eqb] in C2 |- *.
    rewrite <- (Sx 0), <- (Sx 1), <- (Sx 2), <- (Sx 3), <- (Sx 4), <- (Sx 5), <- (Sx 6), <- (Sx 7) by lia. exact C2.
  Qed.
  Lemma fit4_list cx clx : fit 4 cx -> same_c 4 cx clx -> fit 4 (fun k => coef clx (Z.to_nat k)).
  Proof.
    intros [C1 C2] Sx. split; [intros k Hk; rewrite <- (Sx k Hk); apply C1, Hk|]. cbn [Z.eqb Pos.eqb] in C2 |- *.
    rewrite <- (Sx 0), <- (Sx 1), <- (Sx 2), <- (Sx 3) by lia. exact C2.
  Qed.
  Lemma luma_taps_words cx clx q i : fit 8 cx -> same_c 8 cx clx -> 0 <= i < 16 ->
    i16_of (taps8_avx2 (permute4x64 (load src q) 148) (set1_quad (cbytes cx) 0)) i = flt_8tap src (q + 3 + i) 1 clx.
  Proof.
    intros C S Hi. assert (B : bytes (permute4x64 (load src q) 148)) by (intros k; apply Hs). rewrite <- (dot8_flt cx clx _ S). destruct (Z.lt_ge_cases i 8).
    - pose proof (taps8_word _ cx 0 i B C (or_introl eq_refl) ltac:(lia)) as E. change (8 * 0 + i) with i in E. change (16 * 0 + i) with i in E. rewrite E, (proj1 (dot8_148 cx src q i ltac:(lia))). f_equal. lia.
    - pose proof (taps8_word _ cx 1 (i - 8) B C (or_intror eq_refl) ltac:(lia)) as E. replace (8 * 1 + (i - 8)) with i in E by lia. change (16 * 1) with 16 in E. rewrite E, (proj2 (dot8_148 cx src q (i - 8) ltac:(lia))). f_equal. lia.
  Qed.
  Lemma chroma_taps_words cx clx q i : fit 4 cx -> same_c 4 cx clx -> 0 <= i < 16 ->
    i16_of (taps4_avx2 (permute4x64 (load src q) 148) (set1_epi32 (load_i32 (cbytes cx) 0))) i = flt_4tap src (q + 1 + i) 1 clx.
  Proof.
    intros C S Hi. assert (B : bytes (permute4x64 (load src q) 148)) by (intros k; apply Hs). rewrite <- (dot4_flt cx clx _ S). destruct (Z.lt_ge_cases i 8).
    - pose proof (taps4_word _ cx 0 i B C (or_introl eq_refl) ltac:(lia)) as E. change (8 * 0 + i) with i in E. change (16 * 0 + i) with i in E. rewrite E, (proj1 (dot4_148 cx src q i ltac:(lia))). f_equal. lia.
    - pose proof (taps4_word _ cx 1 (i - 8) B C (or_intror eq_refl) ltac:(lia)) as E. replace (8 * 1 + (i - 8)) with i in E by lia. change (16 * 1) with 16 in E. rewrite E, (proj2 (dot4_148 cx src q (i - 8) ltac:(lia))). f_equal. lia.
  Qed.
  Lemma luma_ext_V cx clx cy cly t0' : W <= 64 -> fit 8 cx -> same_c 8 cx clx -> same_c 8 cy cly ->
    let tmpc := block_write w (h + 7) 0 64 (fun x y _ => to_i16 (Z.shiftr (flt_8tap src (p - 3 * i_src + y * i_src + x) 1 clx + Z.shiftr (Z.shiftl 1 (8 - 8)) 1) (8 - 8))) t0' in
    forall x y, 0 <= x < W -> 0 <= y < HH ->
    r12 (colsum8 cy (fun j => flt_8tap src (p - 3 * i_src + (y + j) * i_src + x) 1 clx)) = clip1 8 (Z.shiftr (flt_8tap tmpc (3 * 64 + y * 64 + x) 64 cly + Z.shiftl 1 (20 - 8 - 1)) (20 - 8)).
  Proof.
    intros W64 Cx Sx Sy tmpc x y Hx Hy. unfold r12. change (Z.shiftl 1 (20 - 8 - 1)) with 2048. change (20 - 8) with 12. do 3 f_equal. rewrite <- (colsum8_flt cy cly tmpc _ 64 Sy).
    apply colsum8_ext8. intros j Hj. replace (3 * 64 + y * 64 + x - 3 * 64 + j * 64) with ((y + j) * 64 + x) by lia. symmetry. unfold tmpc. apply luma_pass1_c; try assumption; try lia. apply (fit8_list cx); assumption.
  Qed.
  Lemma chroma_ext_V clx cy cly t0' : W <= 32 -> same_c 4 cy cly ->
    let tmpc := block_write w (h + 3) 0 32 (fun x y _ => Z.shiftr (flt_4tap src (p - i_src + y * i_src + x) 1 clx + Z.shiftr (Z.shiftl 1 (8 - 8)) 1) (8 - 8)) t0' in
    forall x y, 0 <= x < W -> 0 <= y < HH ->
    r12 (colsum4 cy (fun j => flt_4tap src (p - i_src + (y + j) * i_src + x) 1 clx)) = clip1 8 (Z.shiftr (flt_4tap tmpc (32 + y * 32 + x) 32 cly + Z.shiftl 1 (20 - 8 - 1)) (20 - 8)).
  Proof.
    intros W32 Sy tmpc x y Hx Hy. unfold r12. change (Z.shiftl 1 (20 - 8 - 1)) with 2048. change (20 - 8) with 12. do 3 f_equal. rewrite <- (colsum4_flt cy cly tmpc _ 32 Sy).
    apply colsum4_ext4. intros j Hj. replace (32 + y * 32 + x - 32 + j * 32) with ((y + j) * 32 + x) by lia. symmetry. unfold tmpc. apply chroma_pass1_c; try assumption; lia.
  Qed.
  Lemma luma_ext_w16_agrees cx clx cy cly t0 t0' : W mod 16 = 0 -> W <= 64 -> fit 8 cx -> same_c 8 cx clx -> fit 8 cy -> same_c 8 cy cly ->
    forall q, luma_ext_w16 dst i_dst src p i_src W HH cx cy t0 m q = intpl_luma_block_ext 8 dst i_dst src p i_src w h clx cly t0' m q.
  Proof.
    intros M W64 Cx Sx Cy Sy. unfold luma_ext_w16. cbv zeta.
    apply (ext2_w16 (second8 false cy) 64 _ (fun y x => flt_8tap src (p - 3 * i_src + y * i_src + x) 1 clx) 8 (colsum8 cy)); try lia; try exact M.
    - apply (pass1_w16 _ 3 3 64 (HH + 7) (fun y x => flt_8tap src (p - 3 * i_src + y * i_src + x) 1 clx) t0); try lia; try exact M.
      intros y x i Hi. rewrite (luma_taps_words cx clx) by assumption. f_equal. lia.
    - intros. apply range8. apply (fit8_list cx); assumption.
    - intros t k. apply second8_at; [apply Cy|discriminate].
    - apply colsum8_ext8.
    - apply (luma_ext_V cx); assumption.
  Qed.
  Lemma luma_ext_w24_agrees cx clx cy cly t0 t0' : W = 24 -> fit 8 cx -> same_c 8 cx clx -> fit 8 cy -> sym8 cy -> same_c 8 cy cly ->
    forall q, luma_ext_w24 dst i_dst src p i_src HH cx cy t0 m q = intpl_luma_block_ext 8 dst i_dst src p i_src w h clx cly t0' m q.
  Proof.
    intros E Cx Sx Cy Sym Sy. unfold luma_ext_w24. cbv zeta.
    apply (ext2_w24 (second8 (cy 1 =? cy 6) cy) _ (fun y x => flt_8tap src (p - 3 * i_src + y * i_src + x) 1 clx) 8 (colsum8 cy)); try lia; try exact E.
    - apply (pass1_w24 _ 3 3 (HH + 7) (fun y x => flt_8tap src (p - 3 * i_src + y * i_src + x) 1 clx) t0); try lia; try exact E.
      intros y. pose proof (luma_sums_words src (p - 3 * i_src - 3 + y * i_src) cx Hs Cx) as Q. destruct (luma_sums _ _) as [s1 s2]. destruct Q as [Q1 Q2].
      split; intros i Hi; [rewrite (Q1 i Hi)|rewrite (Q2 i Hi)]; rewrite <- (dot8_flt cx clx _ Sx); f_equal; lia.
    - intros. apply range8. apply (fit8_list cx); assumption.
    - intros t k. apply second8_at; [apply Cy|]. intros B. apply Z.eqb_eq in B. split; [symmetry; exact B|apply Sym, B].
    - apply colsum8_ext8.
    - apply (luma_ext_V cx); try assumption. lia.
  Qed.
  Lemma chroma_ext_w16_agrees cx clx cy cly t0 t0' : W mod 16 = 0 -> W <= 32 -> fit 4 cx -> same_c 4 cx clx -> fit 4 cy -> same_c 4 cy cly -> cy 1 <> cy 6 ->
    forall q, chroma_ext_w16 dst i_dst src p i_src W HH cx cy t0 m q = intpl_chroma_block_ext 8 dst i_dst src p i_src w h clx cly t0' m q.
  Proof.
    intros M W32 Cx Sx Cy Sy N. unfold chroma_ext_w16. cbv zeta. rewrite (proj2 (Z.eqb_neq _ _) N).
    apply (ext2_w16 (second4 false cy) 32 _ (fun y x => flt_4tap src (p - i_src + y * i_src + x) 1 clx) 4 (colsum4 cy)); try lia; try exact M.
    - apply (pass1_w16 _ 1 1 32 (HH + 3) (fun y x => flt_4tap src (p - i_src + y * i_src + x) 1 clx) t0); try lia; try exact M.
      intros y x i Hi. rewrite (chroma_taps_words cx clx) by assumption. f_equal. lia.
    - intros. apply range4. apply (fit4_list cx); assumption.
    - intros t k. apply second4_at. apply Cy.
    - apply colsum4_ext4.
    - apply chroma_ext_V; assumption.
  Qed.
  Lemma chroma_ext_w24_agrees cx clx cy cly t0 t0' : W = 24 -> fit 4 cx -> same_c 4 cx clx -> fit 4 cy -> same_c 4 cy cly -> cy 1 <> cy 6 ->
    forall q, chroma_ext_w24 dst i_dst src p i_src HH cx cy t0 m q = intpl_chroma_block_ext 8 dst i_dst src p i_src w h clx cly t0' m q.
  Proof.
    intros E Cx Sx Cy Sy N. unfold chroma_ext_w24. cbv zeta. rewrite (proj2 (Z.eqb_neq _ _) N).
    apply (ext2_w24 (second4 false cy) _ (fun y x => flt_4tap src (p - i_src + y * i_src + x) 1 clx) 4 (colsum4 cy)); try lia; try exact E.
    - apply (pass1_w24 _ 1 1 (HH + 3) (fun y x => flt_4tap src (p - i_src + y * i_src + x) 1 clx) t0); try lia; try exact E.
      intros y. pose proof (chroma_sums_words src (p - 1 * i_src - 1 + y * i_src) cx Hs Cx) as Q. destruct (chroma_sums _ _) as [s1 s2]. destruct Q as [Q1 Q2].
      split; intros i Hi; [rewrite (Q1 i Hi)|rewrite (Q2 i Hi)]; rewrite <- (dot4_flt cx clx _ Sx); f_equal; lia.
    - intros. apply range4. apply (fit4_list cx); assumption.
    - intros t k. apply second4_at. apply Cy.
    - apply colsum4_ext4.
    - apply chroma_ext_V; try assumption. lia.
  Qed.
End Kernels.
