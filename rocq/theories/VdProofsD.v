(** Deblocking kernels: chroma, and horizontal edges. *)
From Coq Require Import ZArith List Bool Lia.
From Verif Require Import CBase MemModel VxModelBase VdModel LfModel LfSpec LfProofs VxProofs VdProofs VdProofsB VdSpec VdProofsC.
Import ListNotations.
Open Scope Z_scope.

Lemma chroma_flag f0 f1 i : 0 <= i < 8 ->
  maskl (set_epi32 (flag_mask f1) (flag_mask f0) (flag_mask f1) (flag_mask f0)) i (line_flag true f0 f1 (i mod 4)).
Proof.
  intros Hi. unfold line_flag, lines. replace (2 * (i mod 4) <? 4) with (i mod 4 <? 2); [apply flags_chroma, Hi|].
  destruct (Z.ltb_spec (i mod 4) 2), (Z.ltb_spec (2 * (i mod 4)) 4); lia.
Qed.
Lemma shl1 x : Z.shiftl x 1 = 2 * x.
Proof. rewrite Z.shiftl_mul_pow2 by lia. lia. Qed.
Lemma chroma_ends alpha beta flag s : filtered true alpha beta flag s (-3) = s (-3) /\ filtered true alpha beta flag s 2 = s 2.
Proof. split; apply filtered_chroma_local; auto. Qed.

Section VerC.
  Local Opaque columns weak strong strength_luma strength_chroma rows2 srli_si128 store_n loadl set_epi32 set1_epi16 cmpeq_epi16 testz c_.
  Lemma ver_chroma stride alpha beta f0 f1 srcu srcv mu mv : 8 <= stride -> 0 <= alpha <= 255 -> 0 <= beta <= 255 ->
    (forall q, 0 <= mu q <= 255) -> (forall q, 0 <= mv q <= 255) ->
    let r := edge_ver_c_sse stride alpha beta f0 f1 srcu srcv mu mv in
    edge_filtered true stride 1 alpha beta f0 f1 srcu mu (fst r) /\ edge_filtered true stride 1 alpha beta f0 f1 srcv mv (snd r).
  Proof.
    intros Hst Ha Hb Hu Hv. unfold edge_ver_c_sse. cbv zeta.
    pose proof (load_rows4 mu mv stride srcu srcv) as Row.
    assert (forall i, 0 <= i < 8 -> let s := fun j => if i <? 4 then mu (srcu + i * stride + j) else mv (srcv + (i - 4) * stride + j) in
      let '(T0, T1, T2, T3) := let '(TL3, TL2, TL1, TL0, TR0, TR1, TR2, TR3) := columns (loadl mu (srcu - 4)) (loadl mu (srcu - 4 + stride)) (loadl mu (srcu - 4 + stride * 2)) (loadl mu (srcu - 4 + stride * 3))
           (loadl mv (srcv - 4)) (loadl mv (srcv - 4 + stride)) (loadl mv (srcv - 4 + stride * 2)) (loadl mv (srcv - 4 + stride * 3)) in
         let '(L1, L0, R0, R1) := weak (strength_chroma sub_epi16 (set1_epi16 (to_u8 alpha)) (set1_epi16 (to_u8 beta)) (set_epi32 (flag_mask f1) (flag_mask f0) (flag_mask f1) (flag_mask f0)) TL2 TL1 TL0 TR0 TR1 TR2) TL2 TL1 TL0 TR0 TR1 TR2 in
         rows2 TL3 TL2 L1 L0 R0 R1 TR2 TR3 in
      forall k, 0 <= k < 8 -> sel8 T0 (srli_si128 T0 8) T1 (srli_si128 T1 8) T2 (srli_si128 T2 8) T3 (srli_si128 T3 8) i k = row_after true alpha beta (line_flag true f0 f1 (i mod 4)) s k) as Main.
    { intros i Hi s.
      assert (forall j, 0 <= s j <= 255) as Hs by (intros j; unfold s; destruct (i <? 4); auto).
      pose proof (columns_lane (loadl mu (srcu - 4)) (loadl mu (srcu - 4 + stride)) (loadl mu (srcu - 4 + stride * 2)) (loadl mu (srcu - 4 + stride * 3))
           (loadl mv (srcv - 4)) (loadl mv (srcv - 4 + stride)) (loadl mv (srcv - 4 + stride * 2)) (loadl mv (srcv - 4 + stride * 3)) i Hi) as C.
      assert (forall k, 0 <= k < 8 -> sel8 (loadl mu (srcu - 4)) (loadl mu (srcu - 4 + stride)) (loadl mu (srcu - 4 + stride * 2)) (loadl mu (srcu - 4 + stride * 3))
           (loadl mv (srcv - 4)) (loadl mv (srcv - 4 + stride)) (loadl mv (srcv - 4 + stride * 2)) (loadl mv (srcv - 4 + stride * 3)) i k = s (k - 4)) as Row'.
      { intros k Hk. rewrite Row by assumption. unfold s. reflexivity. }
      specialize (C ltac:(intros k Hk; rewrite Row' by assumption; apply Hs)).
      destruct (columns _ _ _ _ _ _ _ _) as [[[[[[[TL3 TL2] TL1] TL0] TR0] TR1] TR2] TR3]. cbv zeta in C. rewrite !Row' in C by lia.
      destruct C as (C3 & C2 & C1 & C0 & D0 & D1 & D2 & D3). clear Row Row'. clearbody s.
      pose proof (chroma_result sub_epi16 lane_sub (set1_epi16 (to_u8 alpha)) (set1_epi16 (to_u8 beta)) (set_epi32 (flag_mask f1) (flag_mask f0) (flag_mask f1) (flag_mask f0))
        TL2 TL1 TL0 TR0 TR1 TR2 i alpha beta (line_flag true f0 f1 (i mod 4)) s) as L.
      specialize (L (conj (set1_lane _ i Ha) (conj (set1_lane _ i Hb) (conj (chroma_flag f0 f1 i Hi) (conj C2 (conj C1 (conj C0 (conj D0 (conj D1 (conj D2 (fun j _ => Hs j))))))))))).
      destruct (weak _ _ _ _ _ _ _) as [[[L1 L0] R0] R1]. destruct L as (E1 & E0 & G0 & G1).
      destruct (chroma_ends alpha beta (line_flag true f0 f1 (i mod 4)) s) as [X Y].
      pose proof (rows2_byte TL3 TL2 L1 L0 R0 R1 TR2 TR3 i (row_after true alpha beta (line_flag true f0 f1 (i mod 4)) s) Hi) as W.
      change (lane TL2 i (s (-3))) in C2. change (lane TR2 i (s 2)) in D2. rewrite <- X in C2. rewrite <- Y in D2.
      specialize (W (fun k Hk => row_after_range _ _ _ _ _ _ Hs Hk) C3 C2 E1 E0 G0 G1 D2 D3). exact W. }
    clear Row.
    destruct (columns _ _ _ _ _ _ _ _) as [[[[[[[TL3 TL2] TL1] TL0] TR0] TR1] TR2] TR3].
    destruct (weak _ _ _ _ _ _ _) as [[[L1 L0] R0] R1].
    destruct (rows2 _ _ _ _ _ _ _ _) as [[[T0 T1] T2] T3]. cbn [fst snd]. rewrite shl1.
    destruct (stores4 8 stride ltac:(lia) mu (srcu - 4) (srcu - 4 + stride) (srcu - 4 + 2 * stride) (srcu - 4 + stride * 3)
      (srcu - 4) T0 (srli_si128 T0 8) T1 (srli_si128 T1 8)) as [P Q]; try lia.
    destruct (stores4 8 stride ltac:(lia) mv (srcv - 4) (srcv - 4 + stride) (srcv - 4 + 2 * stride) (srcv - 4 + stride * 3)
      (srcv - 4) T2 (srli_si128 T2 8) T3 (srli_si128 T3 8)) as [P' Q']; try lia.
    split; (apply rows_filtered; [exact Hst| |assumption]).
    - intros i k Hi Hk. cbn [lines] in Hi. transitivity (sel8 T0 (srli_si128 T0 8) T1 (srli_si128 T1 8) T0 T0 T0 T0 i k); [apply P; assumption|].
      specialize (Main i ltac:(lia)). cbv zeta in Main. specialize (Main k Hk). rewrite (Z.mod_small i 4) in Main by lia.
      destruct (Z.ltb_spec i 4); [|lia]. rewrite <- Main. four_cases Hi; reflexivity.
    - intros i k Hi Hk. cbn [lines] in Hi. transitivity (sel8 T2 (srli_si128 T2 8) T3 (srli_si128 T3 8) T2 T2 T2 T2 i k); [apply P'; assumption|].
      specialize (Main (i + 4) ltac:(lia)). cbv zeta in Main. specialize (Main k Hk).
      replace ((i + 4) mod 4) with i in Main by (apply Z.mod_unique with 1; lia).
      destruct (Z.ltb_spec (i + 4) 4); [lia|]. replace (i + 4 - 4) with i in Main by lia. rewrite <- Main. four_cases Hi; reflexivity.
  Qed.
End VerC.
