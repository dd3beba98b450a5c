(** The inverse transform with vector functions is the one with C functions. *)
From Coq Require Import ZArith List Bool Lia.
From Verif Require Import CBase MemModel MemProofs VxModelBase SynModel SynSpec TrModel AlfSpec McSpec TrSpec TrProofs TrProofsB
  VtModel VtModelG VtSpec VtProofs VtProofsF.
Import ListNotations.
Open Scope Z_scope.

Lemma same_block w h (P : Z -> Prop) p : 0 < w -> 0 < h -> (forall x y, 0 <= x < w -> 0 <= y < h -> P (p + y * w + x)) -> (forall q, q < p \/ p + w * h <= q -> P q) -> forall q, P q.
Proof.
  intros Hw Hh A B q. destruct (Z_lt_dec q p); [apply B; lia|]. destruct (Z_le_dec (p + w * h) q); [apply B; lia|].
  pose proof (Z.div_mod (q - p) w ltac:(lia)) as DM. pose proof (Z.mod_pos_bound (q - p) w Hw) as MB.
  replace q with (p + (q - p) / w * w + (q - p) mod w) by lia. apply A; [exact MB|]. split; [apply Z.div_pos; lia|]. apply Z.div_lt_upper_bound; lia.
Qed.
Lemma sizes_height w h : In (w, h) block_sizes -> 4 <= coeff_height w h <= h.
Proof.
  intros H. unfold block_sizes in H. cbn [In] in H.
  repeat (destruct H as [H | H]; [apply pair_equal_spec in H; destruct H as [<- <-]; vm_compute; split; discriminate|]). contradiction.
Qed.
Lemma inv_transform_v_eq avx2 d p w h pat sec intra luma mode b_top b_left t0 l1 l2 m :
  In (w, h) block_sizes -> 0 <= pat <= 2 -> mc_depth d ->
  let cw := coeff_width w h in let ch := coeff_height w h in
  coeffs16 cw ch p m -> zero_beyond (fst (region cw ch pat)) (snd (region cw ch pat)) cw ch p m ->
  exists m1 m2, inv_transform_v avx2 d p cw w h pat sec intra luma mode b_top b_left l1 l2 m = Done m1 /\
    inv_transform d p cw w h sec intra luma mode b_top b_left t0 m = Done m2 /\ forall q, m1 q = m2 q.
Proof.
  intros HS Hp Hd cw ch H16 H0. destruct (idct_good w h d p t0 HS Hd) as [f [EF G]]. destruct (table_good avx2 w h pat HS Hp) as [g [EG V]].
  destruct (size_facts w h HS) as [SF1 [SF2 [SF3 SF4]]]. pose proof (sizes_height w h HS) as SH. fold cw in SF1, SF4, V. fold ch in SH, V.
  assert (C16 : corner16 p cw m) by (intros x y Hx Hy; apply H16; lia).
  unfold inv_transform_v, inv_transform. cbv zeta. rewrite EF, EG. set (s := sec && intra && luma). clearbody s.
  assert (D : forall (mv mc : mem), coeffs16 cw ch p mv -> zero_beyond (Z.max 4 (fst (region cw ch pat))) (Z.max 4 (snd (region cw ch pat))) cw ch p mv -> (forall q, mv q = mc q) ->
    forall q, g d p cw l1 l2 mv q = f d p cw t0 mc q).
  { intros mv mc K16 K0 E. destruct (V d p l1 l2 mv Hd K16 K0) as [A B]. destruct (G mc) as [A' B']. fold cw in A, B, A', B'. apply (same_block w h _ p SF3 ltac:(lia)).
    - intros x y Hx Hy. rewrite A, A' by assumption. apply primary_ext; [exact HS|exact Hx|exact Hy|]. intros u v _ _. apply E.
    - intros q Hq. rewrite B, B' by exact Hq. apply E. }
  assert (Z4 : zero_beyond (Z.max 4 (fst (region cw ch pat))) (Z.max 4 (snd (region cw ch pat))) cw ch p m) by (intros u v Hu Hv Hk; apply H0; lia).
  destruct ((w =? 4) && (h =? 4)) eqn:E4.
  - eexists _, _. split; [reflexivity|]. split; [reflexivity|]. destruct s.
    + apply inv_4x4_v_eq; [exact Hd|lia|exact C16].
    + apply D; [exact H16|exact Z4|reflexivity].
  - eexists _, _. split; [reflexivity|]. split; [reflexivity|]. destruct s; [|apply D; [exact H16|exact Z4|reflexivity]].
    assert (E : forall q, inv_2nd_v p cw mode b_top b_left m q = inv_2nd p cw mode b_top b_left m q) by (apply inv_2nd_v_eq; [lia|exact C16]).
    assert (O : forall u v, 0 <= u < cw -> 0 <= v < ch -> 4 <= u \/ 4 <= v -> inv_2nd_v p cw mode b_top b_left m (p + v * cw + u) = m (p + v * cw + u)).
    { intros u v Hu Hv Hk. rewrite E. apply inv_2nd_outside; [lia|]. apply not_corner; [exact Hu|lia| |lia]. apply andb_false_iff. rewrite !Z.ltb_ge. exact Hk. }
    apply D; [| |exact E].
    + intros u v Hu Hv. destruct (Z_lt_dec u 4); [destruct (Z_lt_dec v 4)|]; [|rewrite O by lia; apply H16; assumption..].
      rewrite E. set (hor := ((13 <=? mode) && (mode <=? 32) || (0 <=? mode) && (mode <=? 2)) && b_left). set (ver := (0 <=? mode) && (mode <=? 23) && b_top).
      rewrite (inv_2nd_spec p cw mode b_top b_left m u v hor ver); [|lia|exact Hu|lia| |].
      * unfold secondary. cbv zeta. assert (L16 : forall z, -32768 <= lim 16 z <= 32767) by apply lim16_range.
        assert (T4 : (u <? 4) && (v <? 4) = true) by (apply andb_true_iff; rewrite !Z.ltb_lt; lia).
        destruct ver; [unfold corner; rewrite T4; unfold ver4; apply L16|]. destruct hor; [unfold corner; rewrite T4; unfold hor4; apply L16|]. apply H16; assumption.
      * unfold hor, sec_hor. rewrite !andb_true_iff, orb_true_iff, !andb_true_iff, !Z.leb_le. tauto.
      * unfold ver, sec_ver. rewrite !andb_true_iff, !Z.leb_le. tauto.
    + intros u v Hu Hv Hk. rewrite O by lia. apply H0; lia.
Qed.

(** Kernels on their own, at any stride, with any source and destination. *)
Definition kernel_info : Type := (list ins * (nat * nat) * (nat * nat))%type.
Lemma kernel_eq flat bh bv kh kv k : VtProofsB.idct_check flat bh bv kh kv k = true -> small_size bh bv kh kv -> points bh -> points bv ->
  forall d flag p stride l t0 m, mc_depth d -> 0 <= flag <= 1 -> (if flat then stride = Z.of_nat bh else Z.of_nat bh <= stride) ->
  coeffs16 (Z.of_nat bh) (Z.of_nat bv) p m -> zero_beyond (Z.of_nat kh) (Z.of_nat kv) (Z.of_nat bh) (Z.of_nat bv) p m ->
  forall q, run k (kernel_params d flag) p p stride (fst l) (snd l) m q = idct_hv bh bv flag d p stride t0 m q.
Proof.
  intros Hc (S1 & S2 & S3 & S4 & S5) PH PV d flag p stride l t0 m Hd Hf Hst H16 H0 q. assert (Hs : Z.of_nat bh <= stride) by (destruct flat; lia).
  destruct (VtProofsB.idct_check_ok flat bh bv kh kv k Hc S1 S2 S3 S4 S5 d flag p p stride (fst l) (snd l) m Hd Hf Hst H16 H0) as [A B].
  destruct (idct_hv_spec bh bv flag d p stride t0 m PH PV Hf Hd Hs) as [A' B'].
  destruct (in_block_dec bh bv p stride q ltac:(lia)) as [(x & y & Hx & Hy & ->)|N]; [unfold bpos; rewrite A, A' by assumption; reflexivity|rewrite B, B' by exact N; reflexivity].
Qed.
