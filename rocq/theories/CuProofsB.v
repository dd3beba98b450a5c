(** Adding the residual of the units of a coding unit. *)
From Coq Require Import ZArith List Bool Lia.
From Verif Require Import CBase CBaseProofs MemModel MemProofs UtilModel UtilProofs AlfSpec SynModel SynSpec McModel McSpec McProofs McProofsB TrModel TrSpec TrProofs TrProofsB CuModel CuSpec CuProofs.
Import ListNotations.
Open Scope Z_scope.

Lemma block_residual_ext : forall w h d sec hor ver c c' x y, In (w, h) block_sizes -> 0 <= x < w -> 0 <= y < h ->
  (forall u v, 0 <= u < coeff_width w h -> 0 <= v < h -> c u v = c' u v) ->
  block_residual w h d sec hor ver c x y = block_residual w h d sec hor ver c' x y.
Proof.
  intros w h d sec hor ver c c' x y HS Hx Hy E. destruct (size_facts w h HS) as [F1 [F2 _]].
  destruct (sec && (w =? 4) && (h =? 4)) eqn:Q.
  - unfold block_residual. rewrite Q. rewrite !andb_true_iff, !Z.eqb_eq in Q. destruct Q as [[_ ->] ->].
    unfold residual_4x4_sec. apply hor4_ext. intros u Hu. apply ver4_ext. intros v Hv. apply E; [exact Hu|exact Hv].
  - rewrite !block_residual_primary by exact Q. apply primary_ext; [exact HS|exact Hx|exact Hy|]. intros u v Hu Hv.
    destruct sec; [|apply E; assumption]. unfold secondary. cbv zeta.
    set (g := if hor then corner (hor4 sec_other 7 16 c) c else c). set (g' := if hor then corner (hor4 sec_other 7 16 c') c' else c').
    assert (E1: forall u v, 0 <= u < coeff_width w h -> 0 <= v < h -> g u v = g' u v).
    { intros a b Ha Hb. unfold g, g'. destruct hor; [|apply E; assumption]. unfold corner. rewrite (E a b Ha Hb). destruct ((a <? 4) && (b <? 4)); [|reflexivity].
      apply hor4_ext. intros e He. apply E; [lia|exact Hb]. }
    clearbody g g'. destruct ver; [|apply E1; assumption]. unfold corner. rewrite (E1 u v Hu Hv). destruct ((u <? 4) && (v <? 4)); [|reflexivity].
    apply ver4_ext. intros e He. apply E1; [exact Hu|lia].
Qed.

Definition hv_ok (r : rcu) (hor ver : Z -> bool) : Prop := forall i,
  (hor i = true <-> sec_hor (r_mode r i) /\ r_left r = true) /\ (ver i = true <-> sec_ver (r_mode r i) /\ r_top r = true).
Definition sec_of (r : rcu) (i : Z) : bool := r_sec r && r_intra r && (i <? 4).
(** One block. *)
Lemma get_recons_spec : forall d r i u ctu_x ctu_y p_fdec i_fdec t0 cbuf fdec hor ver,
  In (cw u, ch u) block_sizes -> mc_depth d -> hv_ok r hor ver -> cw u <= i_fdec ->
  is_wavelet r i = is_doubled (cw u) (ch u) ->
  cw (cb_shr (if is_wavelet r i then 1 else 0) u) = coeff_width (cw u) (ch u) ->
  let dst := if i <? 4 then p_fdec + (cy u + ctu_y) * i_fdec + (cx u + ctu_x)
             else p_fdec + Z.shiftr ctu_y 1 * i_fdec + Z.shiftr ctu_x 1 in
  exists u' c' f', get_recons d r i u ctu_x ctu_y p_fdec i_fdec t0 cbuf fdec = Done (u', c', f') /\
    (forall x y, 0 <= x < cw u -> 0 <= y < ch u -> f' (dst + y * i_fdec + x) =
       sample d (fdec (dst + y * i_fdec + x) +
         block_residual (cw u) (ch u) d (sec_of r i) (hor i) (ver i) (coeffs_at cbuf (coeff_offset r i) (coeff_width (cw u) (ch u))) x y)) /\
    (forall q, ~ in_block (Z.to_nat (cw u)) (Z.to_nat (ch u)) dst i_fdec q -> f' q = fdec q) /\
    (forall q, q < coeff_offset r i \/ coeff_offset r i + cw u * ch u <= q -> c' q = cbuf q).
Proof.
  intros d r i u ctu_x ctu_y p_fdec i_fdec t0 cbuf fdec hor ver HS Hd HV HW EW EC dst.
  destruct (size_facts _ _ HS) as [F1 [F2 [F3 _]]].
  destruct (HV i) as [Vh Vv].
  destruct (inv_transform_spec d (coeff_offset r i) (cw u) (ch u) (r_sec r) (r_intra r) (i <? 4) (r_mode r i) (r_top r) (r_left r) t0 cbuf (hor i) (ver i) HS Hd Vh Vv)
    as [c' [E [A C]]].
  unfold get_recons. cbv zeta. rewrite EC, E. cbn [bindo].
  assert (ES: Z.shiftl (coeff_width (cw u) (ch u)) (if is_wavelet r i then 1 else 0) = cw u).
  { rewrite EW. unfold coeff_width. destruct (is_doubled (cw u) (ch u)) eqn:ED; [|now rewrite Z.shiftl_0_r].
    rewrite Z.shiftl_mul_pow2 by lia. change (2 ^ 1) with 2.
    assert (cw u mod 2 = 0); [|generalize (Z.div_mod (cw u) 2 ltac:(lia)); lia].
    unfold block_sizes in HS. cbn [In] in HS.
    repeat (destruct HS as [HS | HS]; [apply pair_equal_spec in HS; destruct HS as [<- _]; reflexivity|]). contradiction. }
  rewrite ES. eexists _, c', _. split; [reflexivity|].
  destruct (add_ps_spec d (Z.to_nat (cw u)) (Z.to_nat (ch u)) dst i_fdec c' (coeff_offset r i) (cw u) fdec) as [P1 P2]; [rewrite Z2Nat.id; lia|].
  split; [|split; [exact P2|exact C]].
  intros x y Hx Hy. unfold bpos in P1. specialize (P1 x y). rewrite !Z2Nat.id in P1 by lia. etransitivity; [exact (P1 Hx Hy)|].
  rewrite A by assumption. rewrite clip1_sample by exact Hd. reflexivity.
Qed.

(** Positions of a coding unit of side [n] with its first sample at [b]. *)
Lemma unit_block : forall n b stride u x y, n <= stride -> 0 <= cx u -> cx u + cw u <= n -> 0 < cw u -> 0 < ch u -> 0 <= x < n ->
  (in_block (Z.to_nat (cw u)) (Z.to_nat (ch u)) (b + cy u * stride + cx u) stride (b + y * stride + x) <-> inside u x y).
Proof.
  intros n b stride u x y Hn H1 H2 H3 H4 Hx. unfold in_block, inside, bpos. rewrite !Z2Nat.id by lia. split.
  - intros [x' [y' [Hx' [Hy' E]]]]. destruct (addr_mod stride x (cx u + x') y (cy u + y')) as [-> ->]; lia.
  - intros [Ix Iy]. exists (x - cx u), (y - cy u). repeat split; try lia.
Qed.
Lemma outside_block : forall n b stride u q, n <= stride -> 0 <= cx u -> cx u + cw u <= n -> 0 <= cy u -> cy u + ch u <= n -> 0 < cw u -> 0 < ch u ->
  ~ in_block (Z.to_nat n) (Z.to_nat n) b stride q -> ~ in_block (Z.to_nat (cw u)) (Z.to_nat (ch u)) (b + cy u * stride + cx u) stride q.
Proof.
  intros n b stride u q Hn H1 H2 H3 H4 H5 H6 H [x [y [Hx [Hy E]]]]. apply H. rewrite Z2Nat.id in Hx, Hy by lia.
  exists (cx u + x), (cy u + y). rewrite !Z2Nat.id by lia. unfold bpos in *. repeat split; lia.
Qed.

(** All blocks; [i] is the index of the first one. *)
Lemma pow4 : forall n, 0 <= n -> 2 ^ (n * 2 ^ 1) = 4 ^ n.
Proof. intros n H. change 4 with (2 ^ 2). rewrite <- Z.pow_mul_r by lia. f_equal. lia. Qed.
Lemma luma_offset : forall r i, 1 <= r_level r -> i < 4 -> coeff_offset r i = luma_place (r_zscan r) (r_level r) i.
Proof.
  intros r i HL H. unfold coeff_offset, luma_place. rewrite (proj2 (Z.ltb_lt i 4)) by lia.
  rewrite (Z.shiftl_mul_pow2 (r_level r - 1)) by lia. rewrite !Z.shiftl_mul_pow2 by lia. rewrite pow4 by lia. change (2 ^ 6) with 64. lia.
Qed.
Lemma chroma_offset : forall r i, 4 <= i -> coeff_offset r i = chroma_place (r_zscan r).
Proof.
  intros r i H. unfold coeff_offset, chroma_place. rewrite (proj2 (Z.ltb_ge i 4)) by lia. rewrite Z.shiftl_mul_pow2 by lia. change (2 ^ 4) with 16. lia.
Qed.
Definition fits (n : Z) (u : cb) : Prop := 0 <= cx u /\ 0 <= cy u /\ 0 < cw u /\ 0 < ch u /\ cx u + cw u <= n /\ cy u + ch u <= n.
Definition good_tu (r : rcu) (n : Z) (i : Z) (u : cb) : Prop :=
  fits n u /\ In (cw u, ch u) block_sizes /\ i < 4 /\ is_wavelet r i = is_doubled (cw u) (ch u) /\
  cw (cb_shr (if is_wavelet r i then 1 else 0) u) = coeff_width (cw u) (ch u) /\ cw u * ch u <= 4 ^ (r_level r - 1).
Fixpoint good_tus (r : rcu) (n : Z) (i : Z) (us : list cb) : Prop :=
  match us with [] => True | u :: rest => good_tu r n i u /\ good_tus r n (i + 1) rest end.
Fixpoint disjoint_units (us : list cb) : Prop :=
  match us with [] => True | u :: rest => (forall v, In v rest -> forall x y, inside u x y -> ~ inside v x y) /\ disjoint_units rest end.
Lemma places_grow : forall z l i k, i <= k -> luma_place z l i <= luma_place z l k.
Proof.
  intros z l i k H. unfold luma_place. apply Z.add_le_mono_l. apply Z.mul_le_mono_nonneg_r; [apply Z.pow_nonneg; lia|exact H].
Qed.
Lemma place_next : forall z l i, luma_place z l (i + 1) = luma_place z l i + 4 ^ (l - 1).
Proof. intros. unfold luma_place. ring. Qed.
Lemma coeffs_inside : forall w h u v off, In (w, h) block_sizes -> 0 <= u < coeff_width w h -> 0 <= v < h -> off <= off + v * coeff_width w h + u < off + w * h.
Proof.
  intros w h u v off HS Hu Hv. destruct (size_facts w h HS) as [F1 [F2 [F3 _]]].
  assert (v * coeff_width w h <= (h - 1) * coeff_width w h) by (apply Z.mul_le_mono_nonneg_r; lia).
  assert (0 <= v * coeff_width w h) by (apply Z.mul_nonneg_nonneg; lia).
  assert (h * coeff_width w h <= h * w) by (apply Z.mul_le_mono_nonneg_l; lia). lia.
Qed.
Lemma good_later : forall r n us i k u, good_tus r n i us -> nth_error us k = Some u -> good_tu r n (i + Z.of_nat k) u.
Proof.
  intros r n us. induction us as [|a us IH]; intros i [|k] u G H; try discriminate.
  - injection H as ->. destruct G as [G _]. now rewrite Z.add_0_r.
  - destruct G as [_ G]. cbn [nth_error] in H. replace (i + Z.of_nat (S k)) with (i + 1 + Z.of_nat k) by lia. apply IH; assumption.
Qed.
Lemma recons_loop_spec : forall d r cbp n hor ver ctu_x ctu_y p_fdec i_fdec t0, mc_depth d -> hv_ok r hor ver -> n <= i_fdec -> 1 <= r_level r ->
  forall us i cbuf fdec, 0 <= i -> good_tus r n i us -> disjoint_units us ->
  let b := p_fdec + ctu_y * i_fdec + ctu_x in let pl := luma_place (r_zscan r) (r_level r) in
  exists c' f', recons_loop d r cbp us i ctu_x ctu_y p_fdec i_fdec t0 cbuf fdec = Done (c', f') /\
    (forall k u x y, nth_error us k = Some u -> inside u x y -> f' (b + y * i_fdec + x) =
       if Z.testbit cbp (i + Z.of_nat k)
       then sample d (fdec (b + y * i_fdec + x) + unit_residual d (sec_of r (i + Z.of_nat k)) (hor (i + Z.of_nat k)) (ver (i + Z.of_nat k)) cbuf (pl (i + Z.of_nat k)) u x y)
       else fdec (b + y * i_fdec + x)) /\
    (forall q, (forall u, In u us -> ~ in_block (Z.to_nat (cw u)) (Z.to_nat (ch u)) (b + cy u * i_fdec + cx u) i_fdec q) -> f' q = fdec q) /\
    (forall q, q < pl i \/ pl (i + Z.of_nat (length us)) <= q -> c' q = cbuf q).
Proof.
  intros d r cbp n hor ver ctu_x ctu_y p_fdec i_fdec t0 Hd HV Hn HL us. induction us as [|u us IH]; intros i cbuf fdec Hi G D b pl.
  - exists cbuf, fdec. split; [reflexivity|]. split; [|split; reflexivity]. intros [|k] u x y H; discriminate.
  - destruct G as [[FT [HS [I4 [EW [EC OF]]]]] G]. destruct D as [D1 D].
    destruct FT as [FX [FY [FW [FH [FX2 FY2]]]]].
    cbn [recons_loop].
    assert (STEP: exists c1 f1, (if Z.testbit cbp i
        then bindo (get_recons d r i u ctu_x ctu_y p_fdec i_fdec t0 cbuf fdec) (fun '(_, c, f) => recons_loop d r cbp us (i + 1) ctu_x ctu_y p_fdec i_fdec t0 c f)
        else recons_loop d r cbp us (i + 1) ctu_x ctu_y p_fdec i_fdec t0 cbuf fdec) = recons_loop d r cbp us (i + 1) ctu_x ctu_y p_fdec i_fdec t0 c1 f1 /\
      (forall x y, inside u x y -> f1 (b + y * i_fdec + x) = if Z.testbit cbp i
         then sample d (fdec (b + y * i_fdec + x) + unit_residual d (sec_of r i) (hor i) (ver i) cbuf (pl i) u x y) else fdec (b + y * i_fdec + x)) /\
      (forall q, ~ in_block (Z.to_nat (cw u)) (Z.to_nat (ch u)) (b + cy u * i_fdec + cx u) i_fdec q -> f1 q = fdec q) /\
      (forall q, q < pl i \/ pl (i + 1) <= q -> c1 q = cbuf q)).
    { destruct (Z.testbit cbp i).
      - destruct (get_recons_spec d r i u ctu_x ctu_y p_fdec i_fdec t0 cbuf fdec hor ver HS Hd HV ltac:(lia) EW EC) as [u' [c' [f' [E [A [O C]]]]]].
        rewrite (proj2 (Z.ltb_lt i 4) I4) in *. rewrite luma_offset in A, C by assumption. fold (pl i) in A, C. rewrite E. cbn [bindo]. exists c', f'. split; [reflexivity|].
        replace (p_fdec + (cy u + ctu_y) * i_fdec + (cx u + ctu_x)) with (b + cy u * i_fdec + cx u) in * by (unfold b; lia).
        split; [|split; [exact O|]].
        + intros x y [Ix Iy]. specialize (A (x - cx u) (y - cy u) ltac:(lia) ltac:(lia)).
          replace (b + cy u * i_fdec + cx u + (y - cy u) * i_fdec + (x - cx u)) with (b + y * i_fdec + x) in A by lia. exact A.
        + intros q Hq. apply C. unfold pl in Hq |- *. rewrite place_next in Hq. lia.
      - exists cbuf, fdec. split; [reflexivity|]. split; [reflexivity|]. split; reflexivity. }
    destruct STEP as [c1 [f1 [E [A1 [O1 C1]]]]]. rewrite E.
    destruct (IH (i + 1) c1 f1 ltac:(lia) G D) as [c' [f' [E' [A [O C]]]]]. exists c', f'. split; [exact E'|]. fold b in A, O. fold pl in A, C.
    split; [|split].
    + intros k v x y Hk Hin. destruct k as [|k].
      * injection Hk as ->. rewrite Z.add_0_r.
        rewrite O; [apply A1; exact Hin|]. intros w Hw.
        destruct (In_nth_error us w Hw) as [j Hj]. destruct (good_later _ _ _ _ _ _ G Hj) as [[V1 [V2 [V3 [V4 [V5 V6]]]]] _].
        intros B'. apply (D1 w Hw x y Hin). apply (unit_block n b i_fdec w x y Hn V1 V5 V3 V4); [destruct Hin; lia|exact B'].
      * cbn [nth_error] in Hk. specialize (A k v x y Hk Hin). replace (i + Z.of_nat (S k)) with (i + 1 + Z.of_nat k) by lia.
        rewrite A.
        destruct (good_later _ _ _ _ _ _ G Hk) as [[V1 [V2 [V3 [V4 [V5 V6]]]]] [VS [VI _]]].
        assert (F1: f1 (b + y * i_fdec + x) = fdec (b + y * i_fdec + x)).
        { apply O1. intros B'. apply (D1 v (nth_error_In _ _ Hk) x y); [|exact Hin].
          apply (unit_block n b i_fdec u x y Hn FX FX2 FW FH); [destruct Hin; lia|exact B']. }
        rewrite F1. destruct (Z.testbit cbp (i + 1 + Z.of_nat k)); [|reflexivity]. do 2 f_equal.
        unfold unit_residual. destruct Hin as [Ix Iy]. apply block_residual_ext; [exact VS|lia|lia|]. intros p q Hp Hq. unfold coeffs_at. apply C1. right.
        assert (OG := places_grow (r_zscan r) (r_level r) (i + 1) (i + 1 + Z.of_nat k) ltac:(lia)). fold pl in OG.
        assert (CI := coeffs_inside (cw v) (ch v) p q (pl (i + 1 + Z.of_nat k)) VS Hp Hq). lia.
    + intros q Hq. rewrite O; [|intros w Hw; apply Hq; right; exact Hw]. apply O1. apply Hq. left; reflexivity.
    + intros q Hq. cbn [length] in Hq. rewrite Nat2Z.inj_succ in Hq.
      assert (G1 := places_grow (r_zscan r) (r_level r) i (i + 1) ltac:(lia)). fold pl in G1.
      assert (G2 := places_grow (r_zscan r) (r_level r) (i + 1) (i + 1 + Z.of_nat (length us)) ltac:(lia)). fold pl in G2.
      replace (i + Z.succ (Z.of_nat (length us))) with (i + 1 + Z.of_nat (length us)) in Hq by lia.
      rewrite C by lia. apply C1. lia.
Qed.
