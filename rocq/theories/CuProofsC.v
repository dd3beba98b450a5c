(** Residual of whole coding units, inter prediction of whole coding units. *)
From Coq Require Import ZArith List Bool Lia.
From Verif Require Import CBase CBaseProofs MemModel MemProofs UtilModel UtilProofs AlfSpec SynModel SynSpec McModel McSpec McProofs McProofsB TrModel TrSpec TrProofs TrProofsB CuModel CuSpec CuProofs CuProofsB.
Import ListNotations.
Open Scope Z_scope.

Definition uniq (us : list cb) : Prop := forall i j u v x y, nth_error us i = Some u -> nth_error us j = Some v -> inside u x y -> inside v x y -> i = j.
Lemma tiled_uniq : forall n us, tiled n us -> uniq us.
Proof.
  intros n us [A U] i j u v x y Hi Hj Iu Iv. destruct (A u (nth_error_In _ _ Hi)) as [A1 [A2 [A3 [A4 [A5 A6]]]]].
  destruct Iu as [Ix Iy]. destruct (U x y ltac:(lia) ltac:(lia)) as [k [w [_ [_ UU]]]].
  rewrite (UU i u Hi (conj Ix Iy)), (UU j v Hj Iv). reflexivity.
Qed.
Lemma uniq_disjoint : forall us, uniq us -> disjoint_units us.
Proof.
  induction us as [|u us IH]; intros U; [constructor|]. split.
  - intros v Hv x y Hu Hv'. destruct (In_nth_error _ _ Hv) as [j Hj]. assert (E := U 0%nat (S j) u v x y eq_refl Hj Hu Hv'). discriminate.
  - apply IH. intros i j a c x y Hi Hj Ha Hc. assert (E := U (S i) (S j) a c x y Hi Hj Ha Hc). lia.
Qed.
Lemma good_all : forall r n us i, (forall k u, nth_error us k = Some u -> good_tu r n (i + Z.of_nat k) u) -> good_tus r n i us.
Proof.
  intros r n us. induction us as [|u us IH]; intros i H; [constructor|]. split.
  - specialize (H 0%nat u eq_refl). now rewrite Z.add_0_r in H.
  - apply IH. intros k v Hk. replace (i + 1 + Z.of_nat k) with (i + Z.of_nat (S k)) by lia. apply H. exact Hk.
Qed.
Lemma splits4 : forall split, 0 <= split <= 3 -> split = 0 \/ split = 1 \/ split = 2 \/ split = 3.
Proof. intros; lia. Qed.
(** The first block of an unsplit unit may use the places of all four. *)
Lemma tu_facts : forall split level u, 3 <= level <= 6 -> split_ok level split ->
  In u (firstn (tu_count split) (transform_units split level)) ->
  (level =? 6) && negb (split =? CROSS) = is_doubled (cw u) (ch u) /\
  cw (cb_shr (if is_doubled (cw u) (ch u) then 1 else 0) u) = coeff_width (cw u) (ch u) /\
  cw u * ch u <= (if split =? NON then 4 ^ level else 4 ^ (level - 1)).
Proof.
  intros split level u Hl [Hs H3] Hu.
  assert (C: forallb (fun u => Bool.eqb ((level =? 6) && negb (split =? CROSS)) (is_doubled (cw u) (ch u)) &&
     (cw (cb_shr (if is_doubled (cw u) (ch u) then 1 else 0) u) =? coeff_width (cw u) (ch u)) &&
     (cw u * ch u <=? (if split =? NON then 4 ^ level else 4 ^ (level - 1)))) (firstn (tu_count split) (transform_units split level)) = true).
  { clear H3 Hu u. revert level Hl. apply levels4; (destruct (splits4 split Hs) as [-> | [-> | [-> | ->]]]; vm_compute; reflexivity). }
  rewrite forallb_forall in C. specialize (C u Hu). rewrite !andb_true_iff, Z.eqb_eq, Z.leb_le in C. destruct C as [[C1 C2] C3].
  apply eqb_prop in C1. split; [exact C1|split; [exact C2|exact C3]].
Qed.
Lemma tiled_fits : forall n us u, tiled n us -> In u us -> fits n u.
Proof. intros n us u [A _] H. exact (A u H). Qed.
Lemma no_bits : forall cbp, (Z.land cbp 15 =? 0) = negb (existsb (Z.testbit cbp) [0; 1; 2; 3]).
Proof.
  intros cbp. change 15 with (Z.ones 4). rewrite Z.land_ones by lia. cbn [existsb].
  assert (E: cbp mod 2 ^ 4 = Z.b2z (Z.testbit cbp 0) + 2 * Z.b2z (Z.testbit cbp 1) + 4 * Z.b2z (Z.testbit cbp 2) + 8 * Z.b2z (Z.testbit cbp 3)).
  { rewrite !Z.testbit_spec' by lia. change (2 ^ 0) with 1. change (2 ^ 1) with 2. change (2 ^ 2) with 4. change (2 ^ 3) with 8. change (2 ^ 4) with 16.
    clear. Z.div_mod_to_equations. lia. }
  rewrite E. destruct (Z.testbit cbp 0), (Z.testbit cbp 1), (Z.testbit cbp 2), (Z.testbit cbp 3); reflexivity.
Qed.

Section Residual.
Variables (d : Z) (r : rcu) (hor ver : Z -> bool).
Hypothesis Hd : mc_depth d.
Hypothesis HV : hv_ok r hor ver.
Hypothesis HL : 3 <= r_level r <= 6.

Lemma recons_luma_spec : forall cbp ctu_x ctu_y p_fdec i_fdec t0 cbuf fdec, 2 ^ r_level r <= i_fdec -> split_ok (r_level r) (r_split r) ->
  let b := p_fdec + ctu_y * i_fdec + ctu_x in let pl := luma_place (r_zscan r) (r_level r) in
  exists c' f', recons_luma d r cbp ctu_x ctu_y p_fdec i_fdec t0 cbuf fdec = Done (c', f') /\
    (forall k u x y, nth_error (firstn (tu_count (r_split r)) (transform_units (r_split r) (r_level r))) k = Some u -> inside u x y ->
       f' (b + y * i_fdec + x) =
       if coded cbp (r_split r) (Z.of_nat k)
       then sample d (fdec (b + y * i_fdec + x) + unit_residual d (r_sec r && r_intra r) (hor (Z.of_nat k)) (ver (Z.of_nat k)) cbuf (pl (Z.of_nat k)) u x y)
       else fdec (b + y * i_fdec + x)) /\
    (forall q, ~ in_block (Z.to_nat (2 ^ r_level r)) (Z.to_nat (2 ^ r_level r)) b i_fdec q -> f' q = fdec q) /\
    (forall q, q < pl 0 \/ pl 4 <= q -> c' q = cbuf q).
Proof.
  intros cbp ctu_x ctu_y p_fdec i_fdec t0 cbuf fdec HN HS b pl.
  assert (TL := tu_tiled (r_split r) (r_level r) (proj1 HS) HL).
  assert (FA := tu_facts (r_split r) (r_level r)). 
  assert (SZ := tu_sizes (r_split r) (r_level r)).
  assert (PP: 0 < 2 ^ r_level r) by (apply Z.pow_pos_nonneg; lia).
  unfold recons_luma. unfold coded. destruct (Z.eqb_spec (r_split r) NON) as [E0 | N0].
  - rewrite E0 in *. change (tu_count NON) with 1%nat in *. change (NON =? 0) with true. cbv iota.
    rewrite no_bits. destruct (existsb (Z.testbit cbp) [0; 1; 2; 3]); cbn [negb].
    2:{ exists cbuf, fdec. split; [reflexivity|]. split; [reflexivity|]. split; reflexivity. }
    destruct (transform_units NON (r_level r)) as [|u0 rest] eqn:EU; [discriminate EU|]. cbn [nth firstn] in *.
    assert (I0: In u0 [u0]) by (left; reflexivity).
    destruct (tiled_fits _ _ u0 TL I0) as [F1 [F2 [F3 [F4 [F5 F6]]]]].
    destruct (FA u0 HL HS I0) as [W1 [W2 W3]]. change (NON =? NON) with true in W3. cbv iota in W3.
    assert (EW: is_wavelet r 0 = is_doubled (cw u0) (ch u0)) by (unfold is_wavelet; rewrite E0; exact W1).
    destruct (get_recons_spec d r 0 u0 ctu_x ctu_y p_fdec i_fdec t0 cbuf fdec hor ver (SZ u0 HL HS I0) Hd HV ltac:(lia) EW) as [u' [c' [f' [E [A [O C]]]]]].
    { rewrite EW. exact W2. }
    change (0 <? 4) with true in A, O. cbv iota in A, O. rewrite luma_offset in A, C by lia. fold pl in A, C.
    replace (p_fdec + (cy u0 + ctu_y) * i_fdec + (cx u0 + ctu_x)) with (b + cy u0 * i_fdec + cx u0) in * by (unfold b; lia).
    rewrite E. cbn [bindo]. exists c', f'. split; [reflexivity|]. split; [|split].
    + intros [|k] u x y Hk [Ix Iy]; [|destruct k; discriminate Hk]. injection Hk as <-. change (Z.of_nat 0) with 0.
      specialize (A (x - cx u0) (y - cy u0) ltac:(lia) ltac:(lia)).
      replace (b + cy u0 * i_fdec + cx u0 + (y - cy u0) * i_fdec + (x - cx u0)) with (b + y * i_fdec + x) in A by lia.
      unfold sec_of in A. change (0 <? 4) with true in A. rewrite andb_true_r in A. exact A.
    + intros q Hq. apply O. apply (outside_block (2 ^ r_level r)); try assumption; lia.
    + intros q Hq. apply C. assert (P4: pl 4 = pl 0 + 4 ^ r_level r).
      { unfold pl, luma_place. assert (PE: 4 ^ r_level r = 4 * 4 ^ (r_level r - 1)) by (rewrite <- Z.pow_succ_r by lia; f_equal; lia). rewrite PE. ring. }
      clear - Hq P4 W3. lia.
  - assert (TC: tu_count (r_split r) = 4%nat) by (unfold tu_count; rewrite (proj2 (Z.eqb_neq _ _) N0); reflexivity).
    rewrite (proj2 (Z.eqb_neq (r_split r) 0) N0).
    assert (LN: length (transform_units (r_split r) (r_level r)) = 4%nat).
    { unfold transform_units. rewrite map_length. destruct HS as [HS _]. clear - HS. destruct (splits4 _ HS) as [-> | [-> | [-> | ->]]]; reflexivity. }
    assert (EF: firstn (tu_count (r_split r)) (transform_units (r_split r) (r_level r)) = transform_units (r_split r) (r_level r)).
    { rewrite TC, <- LN. apply firstn_all. }
    rewrite EF in *. set (us := transform_units (r_split r) (r_level r)) in *.
    destruct (recons_loop_spec d r cbp (2 ^ r_level r) hor ver ctu_x ctu_y p_fdec i_fdec t0 Hd HV HN ltac:(lia) us 0 cbuf fdec ltac:(lia)) as [c' [f' [E [A [O C]]]]].
    + apply good_all. intros k u Hk. assert (HI := nth_error_In _ _ Hk).
      assert (K4: (k < 4)%nat) by (rewrite <- LN; apply nth_error_Some; rewrite Hk; discriminate).
      destruct (FA u HL HS HI) as [W1 [W2 W3]].
      assert (EW: is_wavelet r (0 + Z.of_nat k) = is_doubled (cw u) (ch u)).
      { unfold is_wavelet. rewrite (proj2 (Z.ltb_lt _ 4)) by lia. exact W1. }
      split; [exact (tiled_fits _ _ _ TL HI)|]. split; [exact (SZ u HL HS HI)|]. split; [lia|]. split; [exact EW|]. split; [rewrite EW; exact W2|exact W3].
    + apply uniq_disjoint. exact (tiled_uniq _ _ TL).
    + fold b in A, O. fold pl in A, C. exists c', f'. split; [exact E|]. split; [|split].
      * intros k u x y Hk Hin. specialize (A k u x y Hk Hin). rewrite Z.add_0_l in A. rewrite A.
        assert (K4: (k < 4)%nat) by (rewrite <- LN; apply nth_error_Some; rewrite Hk; discriminate).
        unfold sec_of. rewrite (proj2 (Z.ltb_lt _ 4)) by lia. rewrite andb_true_r. reflexivity.
      * intros q Hq. apply O. intros u Hu. destruct (tiled_fits _ _ u TL Hu) as [F1 [F2 [F3 [F4 [F5 F6]]]]].
        apply (outside_block (2 ^ r_level r)); try assumption; lia.
      * intros q Hq. apply C. rewrite LN. exact Hq.
Qed.

Lemma chroma_facts : forall k, k = 4 \/ k = 5 -> cw (chroma_cb (r_level r) k) = 2 ^ (r_level r - 1) /\ ch (chroma_cb (r_level r) k) = 2 ^ (r_level r - 1) /\
  cw (cb_shr 0 (chroma_cb (r_level r) k)) = 2 ^ (r_level r - 1) /\ In (2 ^ (r_level r - 1), 2 ^ (r_level r - 1)) block_sizes /\ is_doubled (2 ^ (r_level r - 1)) (2 ^ (r_level r - 1)) = false.
Proof.
  intros k Hk. revert HL. generalize (r_level r). apply levels4; (destruct Hk as [-> | ->]; (repeat split; [vm_compute; tauto])).
Qed.
Lemma recons_chroma_spec : forall cbp k ctu_x ctu_y p_fdec i_fdec t0 cbuf fdec, k = 4 \/ k = 5 -> 2 ^ (r_level r - 1) <= i_fdec ->
  let b := p_fdec + ctu_y / 2 * i_fdec + ctu_x / 2 in let n := 2 ^ (r_level r - 1) in
  exists c' f', recons_chroma d r cbp k ctu_x ctu_y p_fdec i_fdec t0 cbuf fdec = Done (c', f') /\
    (forall x y, 0 <= x < n -> 0 <= y < n -> f' (b + y * i_fdec + x) =
       if Z.testbit cbp k
       then sample d (fdec (b + y * i_fdec + x) + block_residual n n d false false false (coeffs_at cbuf (chroma_place (r_zscan r)) n) x y)
       else fdec (b + y * i_fdec + x)) /\
    (forall q, ~ in_block (Z.to_nat n) (Z.to_nat n) b i_fdec q -> f' q = fdec q) /\
    (forall q, q < chroma_place (r_zscan r) \/ chroma_place (r_zscan r) + 4 ^ (r_level r - 1) <= q -> c' q = cbuf q).
Proof.
  intros cbp k ctu_x ctu_y p_fdec i_fdec t0 cbuf fdec Hk HN b n. unfold recons_chroma.
  destruct (Z.testbit cbp k). 2:{ exists cbuf, fdec. split; [reflexivity|]. split; [reflexivity|]. split; reflexivity. }
  destruct (chroma_facts k Hk) as [C1 [C2 [C3 [C4 C5]]]]. fold n in C1, C2, C3, C4, C5.
  assert (EW: is_wavelet r k = false) by (unfold is_wavelet; destruct Hk as [-> | ->]; reflexivity).
  destruct (get_recons_spec d r k (chroma_cb (r_level r) k) ctu_x ctu_y p_fdec i_fdec t0 cbuf fdec hor ver) as [u' [c' [f' [E [A [O C]]]]]].
  - rewrite C1, C2. exact C4.
  - exact Hd.
  - exact HV.
  - rewrite C1. exact HN.
  - rewrite C1, C2, C5. exact EW.
  - rewrite C1, C2, EW, C3. unfold coeff_width. rewrite C5. reflexivity.
  - rewrite C1, C2 in *. rewrite (proj2 (Z.ltb_ge k 4)) in A, O by lia. rewrite !Z.shiftr_div_pow2 in A, O by lia. change (2 ^ 1) with 2 in A, O. fold b in A, O.
    rewrite chroma_offset in A, C by lia. rewrite E. cbn [bindo]. exists c', f'. split; [reflexivity|]. split; [|split; [exact O|]].
    + intros x y Hx Hy. rewrite A by assumption. unfold sec_of. rewrite (proj2 (Z.ltb_ge k 4)) by lia. rewrite andb_false_r.
      unfold coeff_width. rewrite C5. reflexivity.
    + intros q Hq. apply C. replace (n * n) with (4 ^ (r_level r - 1)); [exact Hq|]. unfold n. change 4 with (2 * 2). apply Z.pow_mul_l.
Qed.
End Residual.
