(** The vector kernel of the adaptive loop filter. *)
From Coq Require Import ZArith List Bool Lia.
From Verif Require Import CBase MemModel MemProofs HdrModel SaoModel SaoSpec SaoProofs AlfModel VxSpec VxModelBase VxModel VxProofs VxProofsB VxProofsC.
Import ListNotations.
Open Scope Z_scope.

Definition mswitch1 := setr_epi8 [0; 1; 2; 3; 2; 1; 0; 3; 0; 1; 2; 3; 2; 1; 0; 3].
Definition mswitch2 := setr_epi8 [0; 1; 2; 3; 4; 5; 6; -1; 1; 2; 3; 4; 5; 6; 7; -1].
Definition mswitch3 := setr_epi8 [2; 3; 4; 5; 6; 7; 8; -1; 3; 4; 5; 6; 7; 8; 9; -1].
Definition mswitch4 := setr_epi8 [4; 5; 6; 7; 8; 9; 10; -1; 5; 6; 7; 8; 9; 10; 11; -1].
Definition mswitch5 := setr_epi8 [6; 7; 8; 9; 10; 11; 12; -1; 7; 8; 9; 10; 11; 12; 13; -1].
Definition co33 (co : list Z) : reg :=
  let c30 := mk32 (fun i => cf co (5 + i)) in
  let c31 := packs_epi32 c30 c30 in
  let c32 := packs_epi16 c31 c31 in
  shuffle_epi8 c32 mswitch1.
Definition row_dot (t : reg) (c : reg) : reg :=
  hadds_epi16 (hadds_epi16 (maddubs_epi16 (shuffle_epi8 t mswitch2) c) (maddubs_epi16 (shuffle_epi8 t mswitch3) c))
              (hadds_epi16 (maddubs_epi16 (shuffle_epi8 t mswitch4) c) (maddubs_epi16 (shuffle_epi8 t mswitch5) c)).

Lemma case8 (P : Z -> Prop) : P 0 -> P 1 -> P 2 -> P 3 -> P 4 -> P 5 -> P 6 -> P 7 -> forall i, 0 <= i < 8 -> P i.
Proof. intros. assert (i = 0 \/ i = 1 \/ i = 2 \/ i = 3 \/ i = 4 \/ i = 5 \/ i = 6 \/ i = 7) as C by lia. decompose [or] C; subst; assumption. Qed.
Lemma hadds_lo a b j : 0 <= j < 4 -> i16_of (hadds_epi16 a b) j = sat_i16 (i16_of a (2 * j) + i16_of a (2 * j + 1)).
Proof.
  intros H. unfold hadds_epi16. rewrite i16_mk16. rewrite Z.div_small, Z.mod_small by lia. destruct (Z.ltb_spec j 4); [|lia].
  rewrite to_i16_id by apply sat_i16_range. reflexivity.
Qed.
Lemma hadds_hi a b j : 0 <= j < 4 -> i16_of (hadds_epi16 a b) (4 + j) = sat_i16 (i16_of b (2 * j) + i16_of b (2 * j + 1)).
Proof.
  intros H. unfold hadds_epi16. rewrite i16_mk16. rewrite Z.div_small, Z.mod_small by lia. destruct (Z.ltb_spec (4 + j) 4); [lia|].
  rewrite to_i16_id by apply sat_i16_range. replace (8 * 0 + 2 * (4 + j - 4)) with (2 * j) by lia. reflexivity.
Qed.

Lemma hadds_up a b k : 4 <= k < 8 -> i16_of (hadds_epi16 a b) k = sat_i16 (i16_of b (2 * (k - 4)) + i16_of b (2 * (k - 4) + 1)).
Proof. intros H. replace k with (4 + (k - 4)) at 1 by lia. apply hadds_hi. lia. Qed.

Lemma c32_at co j : fits8 co -> 0 <= j < 4 ->
  i8_of (packs_epi16 (packs_epi32 (mk32 (fun i => cf co (5 + i))) (mk32 (fun i => cf co (5 + i)))) (packs_epi32 (mk32 (fun i => cf co (5 + i))) (mk32 (fun i => cf co (5 + i))))) j = cf co (5 + j).
Proof.
  intros F J. pose proof (F (5 + j) ltac:(lia)). unfold packs_epi16. rewrite i8_mk8. rewrite Z.mod_small, Z.div_small by lia. destruct (Z.ltb_spec j 8); [|lia].
  unfold packs_epi32. replace (8 * 0 + j) with j by lia. rewrite i16_mk16. rewrite Z.mod_small, Z.div_small by lia. destruct (Z.ltb_spec j 4); [|lia].
  rewrite i32_mk32. replace (4 * 0 + j) with j by lia. rewrite to_i32_id by lia. rewrite sat_i16_id, to_i16_id, sat_i8_id, to_i8_id by lia. reflexivity.
Qed.
Lemma co33_at co k : fits8 co -> 0 <= k < 16 -> i8_of (co33 co) k = cf co (5 + nth (Z.to_nat k) [0; 1; 2; 3; 2; 1; 0; 3; 0; 1; 2; 3; 2; 1; 0; 3] 0).
Proof.
  intros F K. unfold co33. cbv zeta. set (c := packs_epi16 _ _).
  assert (C : forall j, 0 <= j < 4 -> i8_of c j = cf co (5 + j)) by (intros; apply c32_at; assumption). clearbody c.
  assert (E : shuffle_epi8 c mswitch1 k = c (nth (Z.to_nat k) [0; 1; 2; 3; 2; 1; 0; 3; 0; 1; 2; 3; 2; 1; 0; 3] 0)).
  { assert (k = 0 \/ k = 1 \/ k = 2 \/ k = 3 \/ k = 4 \/ k = 5 \/ k = 6 \/ k = 7 \/ k = 8 \/ k = 9 \/ k = 10 \/ k = 11 \/ k = 12 \/ k = 13 \/ k = 14 \/ k = 15) as D by lia.
    clear K F C. decompose [or] D; subst; reflexivity. }
  unfold i8_of in *. rewrite E. apply C.
  assert (k = 0 \/ k = 1 \/ k = 2 \/ k = 3 \/ k = 4 \/ k = 5 \/ k = 6 \/ k = 7 \/ k = 8 \/ k = 9 \/ k = 10 \/ k = 11 \/ k = 12 \/ k = 13 \/ k = 14 \/ k = 15) as D by lia.
  clear E C. decompose [or] D; subst; (split; [intros X; discriminate X|reflexivity]).
Qed.
(** The four words for one sample. *)
Section Four.
  Variables (co : list Z) (F : fits8 co) (F16 : fits16 co) (t : reg) (T : bytes t).
  Lemma prod_bound v c : byte v -> -255 * Z.abs c <= v * c <= 255 * Z.abs c.
  Proof. unfold byte. intros H. destruct (Z.abs_spec c) as [[? ->] | [? ->]]; nia. Qed.
  Notation e := (fun i d => t (i + d)).
  Lemma four (m : reg) (i j : Z) : 0 <= j <= 1 ->
    (forall d, 0 <= d < 7 -> shuffle_epi8 t m (8 * j + d) = t (i + d)) -> shuffle_epi8 t m (8 * j + 7) = 0 ->
    let s := maddubs_epi16 (shuffle_epi8 t m) (co33 co) in
    sat_i16 (sat_i16 (i16_of s (4 * j) + i16_of s (4 * j + 1)) + sat_i16 (i16_of s (4 * j + 2) + i16_of s (4 * j + 3)))
    = cf co 5 * (t i + t (i + 6)) + cf co 6 * (t (i + 1) + t (i + 5)) + cf co 7 * (t (i + 2) + t (i + 4)) + cf co 8 * t (i + 3).
  Proof.
    intros J S0 S7 s. unfold s. rewrite !i16_maddubs.
    replace (2 * (4 * j)) with (8 * j + 0) by lia. replace (8 * j + 0 + 1) with (8 * j + 1) by lia.
    replace (2 * (4 * j + 1)) with (8 * j + 2) by lia. replace (8 * j + 2 + 1) with (8 * j + 3) by lia.
    replace (2 * (4 * j + 2)) with (8 * j + 4) by lia. replace (8 * j + 4 + 1) with (8 * j + 5) by lia.
    replace (2 * (4 * j + 3)) with (8 * j + 6) by lia. replace (8 * j + 6 + 1) with (8 * j + 7) by lia.
    rewrite !S0, S7 by lia.
    assert (C : forall d, 0 <= d < 8 -> i8_of (co33 co) (8 * j + d) = cf co (5 + nth (Z.to_nat d) [0; 1; 2; 3; 2; 1; 0; 3] 0)).
    { intros d D. rewrite co33_at by (assumption || lia). assert (j = 0 \/ j = 1) as [-> | ->] by lia; revert d D; apply case8; reflexivity. }
    rewrite (C 0 ltac:(lia) : i8_of (co33 co) (8 * j + 0) = cf co 5).
    rewrite (C 1 ltac:(lia) : i8_of (co33 co) (8 * j + 1) = cf co 6).
    rewrite (C 2 ltac:(lia) : i8_of (co33 co) (8 * j + 2) = cf co 7).
    rewrite (C 3 ltac:(lia) : i8_of (co33 co) (8 * j + 3) = cf co 8).
    rewrite (C 4 ltac:(lia) : i8_of (co33 co) (8 * j + 4) = cf co 7).
    rewrite (C 5 ltac:(lia) : i8_of (co33 co) (8 * j + 5) = cf co 6).
    rewrite (C 6 ltac:(lia) : i8_of (co33 co) (8 * j + 6) = cf co 5).
    rewrite (C 7 ltac:(lia) : i8_of (co33 co) (8 * j + 7) = cf co 8).
    pose proof (prod_bound (t (i + 0)) (cf co 5) (T _)). pose proof (prod_bound (t (i + 1)) (cf co 6) (T _)). pose proof (prod_bound (t (i + 2)) (cf co 7) (T _)).
    pose proof (prod_bound (t (i + 3)) (cf co 8) (T _)). pose proof (prod_bound (t (i + 4)) (cf co 7) (T _)). pose proof (prod_bound (t (i + 5)) (cf co 6) (T _)).
    pose proof (prod_bound (t (i + 6)) (cf co 5) (T _)). unfold fits16 in F16.
    pose proof (Z.abs_nonneg (cf co 0)). pose proof (Z.abs_nonneg (cf co 1)). pose proof (Z.abs_nonneg (cf co 2)). pose proof (Z.abs_nonneg (cf co 3)). pose proof (Z.abs_nonneg (cf co 4)).
    pose proof (Z.abs_nonneg (cf co 5)). pose proof (Z.abs_nonneg (cf co 6)). pose proof (Z.abs_nonneg (cf co 7)). pose proof (Z.abs_nonneg (cf co 8)).
    replace (i + 0) with i in * by lia. rewrite !Z.mul_add_distr_l. rewrite !(Z.mul_comm (cf co _)).
    clear C S0 S7.
    set (P0 := t i * cf co 5) in *. set (P1 := t (i + 1) * cf co 6) in *. set (P2 := t (i + 2) * cf co 7) in *. set (P3 := t (i + 3) * cf co 8) in *.
    set (P4 := t (i + 4) * cf co 7) in *. set (P5 := t (i + 5) * cf co 6) in *. set (P6 := t (i + 6) * cf co 5) in *.
    clearbody P0 P1 P2 P3 P4 P5 P6. clear s. clear F T.
    rewrite (sat_i16_id (P0 + P1)) by lia. rewrite (sat_i16_id (P2 + P3)) by lia. rewrite (sat_i16_id (P4 + P5)) by lia. rewrite (sat_i16_id (P6 + _)) by lia.
    rewrite (sat_i16_id (P0 + P1 + (P2 + P3))) by lia. rewrite (sat_i16_id (P4 + P5 + _)) by lia. rewrite sat_i16_id by lia. lia.
  Qed.
  Lemma row_dot_at i : 0 <= i < 8 -> i16_of (row_dot t (co33 co)) i
    = cf co 5 * (t i + t (i + 6)) + cf co 6 * (t (i + 1) + t (i + 5)) + cf co 7 * (t (i + 2) + t (i + 4)) + cf co 8 * t (i + 3).
  Proof.
    unfold row_dot. revert i. 
    assert (D : forall m j i, 0 <= j <= 1 -> (forall d, 0 <= d < 7 -> shuffle_epi8 t m (8 * j + d) = t (i + d)) -> shuffle_epi8 t m (8 * j + 7) = 0 ->
      let s := maddubs_epi16 (shuffle_epi8 t m) (co33 co) in
      sat_i16 (sat_i16 (i16_of s (4 * j) + i16_of s (4 * j + 1)) + sat_i16 (i16_of s (4 * j + 2) + i16_of s (4 * j + 3)))
      = cf co 5 * (t i + t (i + 6)) + cf co 6 * (t (i + 1) + t (i + 5)) + cf co 7 * (t (i + 2) + t (i + 4)) + cf co 8 * t (i + 3)).
    { intros m j i. apply four. }
    assert (c7 : forall P : Z -> Prop, P 0 -> P 1 -> P 2 -> P 3 -> P 4 -> P 5 -> P 6 -> forall d, 0 <= d < 7 -> P d).
    { intros P p0 p1 p2 p3 p4 p5 p6 d Hd. assert (d = 0 \/ d = 1 \/ d = 2 \/ d = 3 \/ d = 4 \/ d = 5 \/ d = 6) as C by lia. decompose [or] C; subst; assumption. }
    apply case8.
    - rewrite hadds_lo by lia. rewrite (hadds_lo _ _ (2 * 0)), (hadds_lo _ _ (2 * 0 + 1)) by lia.
      apply (D mswitch2 0 0); [lia|apply c7; reflexivity|reflexivity].
    - rewrite hadds_lo by lia. rewrite (hadds_lo _ _ (2 * 1)), (hadds_lo _ _ (2 * 1 + 1)) by lia.
      apply (D mswitch2 1 1); [lia|apply c7; reflexivity|reflexivity].
    - rewrite hadds_lo by lia. rewrite (hadds_up _ _ (2 * 2)), (hadds_up _ _ (2 * 2 + 1)) by lia.
      apply (D mswitch3 0 2); [lia|apply c7; reflexivity|reflexivity].
    - rewrite hadds_lo by lia. rewrite (hadds_up _ _ (2 * 3)), (hadds_up _ _ (2 * 3 + 1)) by lia.
      apply (D mswitch3 1 3); [lia|apply c7; reflexivity|reflexivity].
    - rewrite (hadds_up _ _ 4) by lia. rewrite (hadds_lo _ _ (2 * (4 - 4))), (hadds_lo _ _ (2 * (4 - 4) + 1)) by lia.
      apply (D mswitch4 0 4); [lia|apply c7; reflexivity|reflexivity].
    - rewrite (hadds_up _ _ 5) by lia. rewrite (hadds_lo _ _ (2 * (5 - 4))), (hadds_lo _ _ (2 * (5 - 4) + 1)) by lia.
      apply (D mswitch4 1 5); [lia|apply c7; reflexivity|reflexivity].
    - rewrite (hadds_up _ _ 6) by lia. rewrite (hadds_up _ _ (2 * (6 - 4))), (hadds_up _ _ (2 * (6 - 4) + 1)) by lia.
      apply (D mswitch5 0 6); [lia|apply c7; reflexivity|reflexivity].
    - rewrite (hadds_up _ _ 7) by lia. rewrite (hadds_up _ _ (2 * (7 - 4))), (hadds_up _ _ (2 * (7 - 4) + 1)) by lia.
      apply (D mswitch5 1 7); [lia|apply c7; reflexivity|reflexivity].
  Qed.
End Four.
