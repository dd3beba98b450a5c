(** The vector kernel of the adaptive loop filter on whole blocks. *)
From Coq Require Import ZArith List Bool Lia.
From Verif Require Import CBase MemModel MemProofs HdrModel SaoModel SaoSpec SaoProofs AlfModel VxSpec VxModelBase VxModel VxProofs VxProofsB VxProofsC VxProofsD.
Import ListNotations.
Open Scope Z_scope.
Local Opaque Z.mul Z.add Z.sub Z.div Z.modulo.

Definition alf_taps (src : mem) (p img1 img2 img3 img4 img5 img6 x : Z) (co : list Z) : Z :=
  cf co 0 * (src (img5 + x) + src (img6 + x)) + cf co 1 * (src (img3 + x) + src (img4 + x))
  + cf co 2 * (src (img1 + (x + 1)) + src (img2 + (x - 1))) + cf co 3 * (src (img1 + x) + src (img2 + x))
  + cf co 4 * (src (img1 + (x - 1)) + src (img2 + (x + 1))) + cf co 7 * (src (p + (x + 1)) + src (p + (x - 1)))
  + cf co 6 * (src (p + (x + 2)) + src (p + (x - 2))) + cf co 5 * (src (p + (x + 3)) + src (p + (x - 3))) + cf co 8 * src (p + x).

Lemma lo_dot a b c i : -128 <= c <= 127 -> 0 <= i < 8 -> i16_of (maddubs_epi16 (unpacklo_epi8 a b) (set1_epi8 c)) i = sat_i16 (a i * c + b i * c).
Proof. intros C H. rewrite i16_maddubs, !i8_set1, unlo_even, unlo_odd by lia. reflexivity. Qed.
Lemma hi_dot a b c i : -128 <= c <= 127 -> 0 <= i < 8 -> i16_of (maddubs_epi16 (unpackhi_epi8 a b) (set1_epi8 c)) i = sat_i16 (a (8 + i) * c + b (8 + i) * c).
Proof. intros C H. rewrite i16_maddubs, !i8_set1, unhi_even, unhi_odd by lia. reflexivity. Qed.

(** Rounding, shifting and clipping of a word. *)
Lemma finish ss v i : i16_of ss i = v -> -32768 <= v + 32 <= 32767 ->
  sat_u8 (i16_of (max_epi16 (min_epi16 (srai_epi16 (adds_epi16 ss (set1_epi16 32)) 6) (set1_epi16 (Z.shiftl 1 8 - 1))) (set1_epi16 0)) i) = clip_to 8 (Z.shiftr (v + 32) 6).
Proof.
  intros E R. change (Z.shiftl 1 8 - 1) with 255. rewrite i16_max, i16_min, i16_srai, i16_adds, !i16_set1, E by lia. rewrite (sat_i16_id (v + 32)) by lia.
  rewrite clip_to_sat by lia. unfold saturate, sat_u8. change (2 ^ 8 - 1) with 255. lia.
Qed.

Section Lane.
  Variables (src : mem) (p img1 img2 img3 img4 img5 img6 x : Z) (co : list Z).
  Hypotheses (B : forall q, byte (src q)) (F : fits8 co) (F16 : fits16 co).
  (** Saturating additions that do not saturate, in the order of the kernel. *)
  Lemma chain a0 b0 a1 b1 a2 b2 a3 b3 a4 b4 r : byte a0 -> byte b0 -> byte a1 -> byte b1 -> byte a2 -> byte b2 -> byte a3 -> byte b3 -> byte a4 -> byte b4 ->
    - (255 * (2 * (Z.abs (cf co 5) + Z.abs (cf co 6) + Z.abs (cf co 7)) + Z.abs (cf co 8))) <= r <= 255 * (2 * (Z.abs (cf co 5) + Z.abs (cf co 6) + Z.abs (cf co 7)) + Z.abs (cf co 8)) ->
    let v := cf co 0 * (b0 + a0) + cf co 1 * (b1 + a1) + cf co 2 * (b2 + a2) + cf co 3 * (b3 + a3) + cf co 4 * (b4 + a4) + r in
    sat_i16 (sat_i16 (sat_i16 (a4 * cf co 4 + b4 * cf co 4) + r)
             + sat_i16 (sat_i16 (sat_i16 (a3 * cf co 3 + b3 * cf co 3) + sat_i16 (a2 * cf co 2 + b2 * cf co 2))
                        + sat_i16 (sat_i16 (a0 * cf co 0 + b0 * cf co 0) + sat_i16 (a1 * cf co 1 + b1 * cf co 1)))) = v
    /\ -32768 <= v + 32 <= 32767.
  Proof.
    intros A0 B0 A1 B1 A2 B2 A3 B3 A4 B4 R. cbv zeta. unfold fits16 in F16.
    pose proof (prod_bound a0 (cf co 0) A0). pose proof (prod_bound b0 (cf co 0) B0). pose proof (prod_bound a1 (cf co 1) A1). pose proof (prod_bound b1 (cf co 1) B1).
    pose proof (prod_bound a2 (cf co 2) A2). pose proof (prod_bound b2 (cf co 2) B2). pose proof (prod_bound a3 (cf co 3) A3). pose proof (prod_bound b3 (cf co 3) B3).
    pose proof (prod_bound a4 (cf co 4) A4). pose proof (prod_bound b4 (cf co 4) B4).
    pose proof (Z.abs_nonneg (cf co 0)). pose proof (Z.abs_nonneg (cf co 1)). pose proof (Z.abs_nonneg (cf co 2)). pose proof (Z.abs_nonneg (cf co 3)). pose proof (Z.abs_nonneg (cf co 4)).
    pose proof (Z.abs_nonneg (cf co 5)). pose proof (Z.abs_nonneg (cf co 6)). pose proof (Z.abs_nonneg (cf co 7)). pose proof (Z.abs_nonneg (cf co 8)).
    rewrite !Z.mul_add_distr_l. rewrite !(Z.mul_comm (cf co _)).
    set (P0 := a0 * cf co 0) in *. set (Q0 := b0 * cf co 0) in *. set (P1 := a1 * cf co 1) in *. set (Q1 := b1 * cf co 1) in *.
    set (P2 := a2 * cf co 2) in *. set (Q2 := b2 * cf co 2) in *. set (P3 := a3 * cf co 3) in *. set (Q3 := b3 * cf co 3) in *.
    set (P4 := a4 * cf co 4) in *. set (Q4 := b4 * cf co 4) in *.
    clearbody P0 Q0 P1 Q1 P2 Q2 P3 Q3 P4 Q4. clear - F16 R H H0 H1 H2 H3 H4 H5 H6 H7 H8 H9 H10 H11 H12 H13 H14 H15 H16 H17.
    rewrite (sat_i16_id (P4 + Q4)) by lia. rewrite (sat_i16_id (P3 + Q3)) by lia. rewrite (sat_i16_id (P2 + Q2)) by lia.
    rewrite (sat_i16_id (P1 + Q1)) by lia. rewrite (sat_i16_id (P0 + Q0)) by lia. rewrite (sat_i16_id (P4 + Q4 + r)) by lia.
    rewrite (sat_i16_id (P3 + Q3 + (P2 + Q2))) by lia. rewrite (sat_i16_id (P0 + Q0 + (P1 + Q1))) by lia. rewrite (sat_i16_id (P3 + Q3 + (P2 + Q2) + _)) by lia.
    rewrite sat_i16_id by lia. lia.
  Qed.
  Lemma row_bound (t : reg) i : bytes t ->
    let r := cf co 5 * (t i + t (i + 6)) + cf co 6 * (t (i + 1) + t (i + 5)) + cf co 7 * (t (i + 2) + t (i + 4)) + cf co 8 * t (i + 3) in
    - (255 * (2 * (Z.abs (cf co 5) + Z.abs (cf co 6) + Z.abs (cf co 7)) + Z.abs (cf co 8))) <= r <= 255 * (2 * (Z.abs (cf co 5) + Z.abs (cf co 6) + Z.abs (cf co 7)) + Z.abs (cf co 8)).
  Proof.
    intros T. cbv zeta. rewrite !Z.mul_add_distr_l. rewrite !(Z.mul_comm (cf co _)).
    pose proof (prod_bound (t i) (cf co 5) (T _)). pose proof (prod_bound (t (i + 1)) (cf co 6) (T _)). pose proof (prod_bound (t (i + 2)) (cf co 7) (T _)).
    pose proof (prod_bound (t (i + 3)) (cf co 8) (T _)). pose proof (prod_bound (t (i + 4)) (cf co 7) (T _)). pose proof (prod_bound (t (i + 5)) (cf co 6) (T _)).
    pose proof (prod_bound (t (i + 6)) (cf co 5) (T _)). clear - H H0 H1 H2 H3 H4 H5. lia.
  Qed.

  Lemma alf_lane k : 0 <= k < 16 ->
    alf_vec src p img1 img2 img3 img4 img5 img6 x 8 co k = clip_to 8 (Z.shiftr (alf_taps src p img1 img2 img3 img4 img5 img6 (x + k) co + 32) 6).
  Proof.
    intros K. unfold alf_vec. cbv zeta.
    fold mswitch1 mswitch2 mswitch3 mswitch4 mswitch5. fold (co33 co).
    fold (row_dot (load src (p + x - 3)) (co33 co)). fold (row_dot (load src (p + x + 5)) (co33 co)).
    pose proof (F 0 ltac:(lia)) as C0. pose proof (F 1 ltac:(lia)) as C1. pose proof (F 2 ltac:(lia)) as C2. pose proof (F 3 ltac:(lia)) as C3. pose proof (F 4 ltac:(lia)) as C4.
    destruct (Z.lt_ge_cases k 8) as [L|L].
    - rewrite packus_lo by lia.
      pose proof (row_bound (load src (p + x - 3)) k (load_bytes _ _ B)) as RB. cbv zeta in RB.
      pose proof (chain (load src (img6 + x) k) (load src (img5 + x) k) (load src (img4 + x) k) (load src (img3 + x) k) (load src (img2 + x - 1) k) (load src (img1 + x + 1) k)
        (load src (img2 + x) k) (load src (img1 + x) k) (load src (img2 + x + 1) k) (load src (img1 + x - 1) k) _
        (B _) (B _) (B _) (B _) (B _) (B _) (B _) (B _) (B _) (B _) RB) as [E R]. cbv zeta in E, R.
      set (v := cf co 0 * _ + _ + _ + _ + _ + _) in E, R.
      rewrite (finish _ v k); [|rewrite !i16_adds, !lo_dot, row_dot_at by (assumption || lia || apply load_bytes; assumption); exact E|exact R].
      do 3 f_equal. unfold v, alf_taps, load.
      replace (img5 + x + k) with (img5 + (x + k)) by lia. replace (img6 + x + k) with (img6 + (x + k)) by lia.
      replace (img3 + x + k) with (img3 + (x + k)) by lia. replace (img4 + x + k) with (img4 + (x + k)) by lia.
      replace (img1 + x + k) with (img1 + (x + k)) by lia. replace (img2 + x + k) with (img2 + (x + k)) by lia.
      replace (img1 + x + 1 + k) with (img1 + (x + k + 1)) by lia. replace (img2 + x - 1 + k) with (img2 + (x + k - 1)) by lia.
      replace (img1 + x - 1 + k) with (img1 + (x + k - 1)) by lia. replace (img2 + x + 1 + k) with (img2 + (x + k + 1)) by lia.
      replace (p + x - 3 + k) with (p + (x + k - 3)) by lia. replace (p + x - 3 + (k + 6)) with (p + (x + k + 3)) by lia.
      replace (p + x - 3 + (k + 1)) with (p + (x + k - 2)) by lia. replace (p + x - 3 + (k + 5)) with (p + (x + k + 2)) by lia.
      replace (p + x - 3 + (k + 2)) with (p + (x + k - 1)) by lia. replace (p + x - 3 + (k + 4)) with (p + (x + k + 1)) by lia.
      replace (p + x - 3 + (k + 3)) with (p + (x + k)) by lia. ring.
    - replace k with (8 + (k - 8)) by lia. set (i := k - 8) in *. assert (I8 : 0 <= i < 8) by (unfold i; lia). clearbody i.
      rewrite packus_hi by lia.
      pose proof (row_bound (load src (p + x + 5)) i (load_bytes _ _ B)) as RB. cbv zeta in RB.
      pose proof (chain (load src (img6 + x) (8 + i)) (load src (img5 + x) (8 + i)) (load src (img4 + x) (8 + i)) (load src (img3 + x) (8 + i)) (load src (img2 + x - 1) (8 + i)) (load src (img1 + x + 1) (8 + i))
        (load src (img2 + x) (8 + i)) (load src (img1 + x) (8 + i)) (load src (img2 + x + 1) (8 + i)) (load src (img1 + x - 1) (8 + i)) _
        (B _) (B _) (B _) (B _) (B _) (B _) (B _) (B _) (B _) (B _) RB) as [E R]. cbv zeta in E, R.
      set (v := cf co 0 * _ + _ + _ + _ + _ + _) in E, R.
      rewrite (finish _ v i); [|rewrite !i16_adds, !hi_dot, row_dot_at by (assumption || lia || apply load_bytes; assumption); exact E|exact R].
      do 3 f_equal. unfold v, alf_taps, load.
      replace (img5 + x + (8 + i)) with (img5 + (x + (8 + i))) by lia. replace (img6 + x + (8 + i)) with (img6 + (x + (8 + i))) by lia.
      replace (img3 + x + (8 + i)) with (img3 + (x + (8 + i))) by lia. replace (img4 + x + (8 + i)) with (img4 + (x + (8 + i))) by lia.
      replace (img1 + x + (8 + i)) with (img1 + (x + (8 + i))) by lia. replace (img2 + x + (8 + i)) with (img2 + (x + (8 + i))) by lia.
      replace (img1 + x + 1 + (8 + i)) with (img1 + (x + (8 + i) + 1)) by lia. replace (img2 + x - 1 + (8 + i)) with (img2 + (x + (8 + i) - 1)) by lia.
      replace (img1 + x - 1 + (8 + i)) with (img1 + (x + (8 + i) - 1)) by lia. replace (img2 + x + 1 + (8 + i)) with (img2 + (x + (8 + i) + 1)) by lia.
      replace (p + x + 5 + i) with (p + (x + (8 + i) - 3)) by lia. replace (p + x + 5 + (i + 6)) with (p + (x + (8 + i) + 3)) by lia.
      replace (p + x + 5 + (i + 1)) with (p + (x + (8 + i) - 2)) by lia. replace (p + x + 5 + (i + 5)) with (p + (x + (8 + i) + 2)) by lia.
      replace (p + x + 5 + (i + 2)) with (p + (x + (8 + i) - 1)) by lia. replace (p + x + 5 + (i + 4)) with (p + (x + (8 + i) + 1)) by lia.
      replace (p + x + 5 + (i + 3)) with (p + (x + (8 + i))) by lia. ring.
  Qed.
End Lane.
