(** Deblocking of a picture: the thresholds, the final statements, and the chain with the later filters. *)
From Coq Require Import ZArith List Bool Lia ZifyBool.
From Verif Require Import CBase CBaseProofs HdrModel QpModel QpSpec QpProofs MemModel SaoModel SaoSpec SaoProofsD AlfModel AlfSpec AlfProofsB
  LfSpec DbModel DbSpec DbProofs DbProofsB DbProofsC DbProofsD.
Import ListNotations.
Open Scope Z_scope.

Lemma clip3_clamp hi v : 0 <= hi -> clip3 0 hi v = clamp 0 hi v.
Proof. intros H. unfold clip3, clamp. destruct (Z.ltb_spec v 0); [lia|]. destruct (Z.ltb_spec hi v); lia. Qed.
Lemma get_nth t i v : get t i = Some v -> nth (Z.to_nat i) t 0 = v.
Proof.
  intros H. unfold get in H. destruct (i <? 0); [discriminate|]. apply nth_error_nth with (d := 0) in H. exact H.
Qed.
Lemma luma_thr t depth qp off : t = ALPHA_TABLE \/ t = BETA_TABLE -> depth_ok depth -> -1000 <= qp <= 1000 -> -1073741824 <= off <= 1073741824 ->
  lf_threshold t depth qp off = Done (luma_threshold t depth off qp).
Proof.
  intros Ht Hd Hq Ho. assert (T: thr_table t) by (destruct Ht as [-> | ->]; [apply alpha_table|apply beta_table]).
  destruct (threshold_val t depth qp off T Hd Hq Ho) as (v & Hv & _ & E). rewrite E. unfold luma_threshold. f_equal. f_equal.
  rewrite clip3_clamp in Hv by lia. symmetry. apply get_nth. exact Hv.
Qed.
Lemma chroma_thr p t qp off : t = ALPHA_TABLE \/ t = BETA_TABLE -> depth_ok (p_depth p) -> (p_hbd p = false -> p_depth p = 8) ->
  -128 <= qp <= 127 -> -1073741824 <= p_delta p <= 1073741824 -> -1073741824 <= off <= 1073741824 ->
  (p_hbd p = true -> qp + p_delta p <= 63 + 8 * (p_depth p - 8)) ->
  lf_threshold_c (p_hbd p) t (p_depth p) qp (p_delta p) off = Done (chroma_threshold_of p t off qp).
Proof.
  intros Ht Hd H8 Hq Hdl Ho Hs. unfold lf_threshold_c, chroma_qp, chroma_threshold_of. cbv zeta.
  assert (Dr : 0 <= p_depth p - 8 <= 4) by (unfold depth_ok in Hd; lia).
  destruct (p_hbd p) eqn:HB.
  - unfold chroma_qp_hbd. assert (E: Z.shiftl (p_depth p - 8) 3 = 8 * (p_depth p - 8)) by (rewrite Z.shiftl_mul_pow2 by lia; change (2 ^ 3) with 8; lia).
    specialize (Hs eq_refl). rewrite E, int32_ok by (unfold in_i32; lia). cbn [bindo]. destruct (Z.ltb_spec (qp + p_delta p - 8 * (p_depth p - 8)) 0) as [L|L].
    + cbn [bindo]. rewrite clip3_clamp by lia. replace (clamp 0 _ _) with (Z.max 0 (qp + p_delta p - 8 * (p_depth p - 8) + 8 * (p_depth p - 8))) by (unfold clamp; lia).
      apply luma_thr; [exact Ht|exact Hd|lia|exact Ho].
    + unfold lut. destruct (get_in _ QP_SCALE_CR (qp + p_delta p - 8 * (p_depth p - 8))) as [v Hv]; [change (Z.of_nat (length QP_SCALE_CR)) with 64; lia|].
      rewrite Hv. cbn [bindo]. rewrite (get_nth _ _ _ Hv). apply scale_cr_range in Hv. rewrite clip3_clamp by lia.
      replace (clamp 0 _ _) with (v + 8 * (p_depth p - 8)) by (unfold clamp; lia). apply luma_thr; [exact Ht|exact Hd|lia|exact Ho].
  - specialize (H8 eq_refl). unfold chroma_qp8. rewrite int32_ok by (unfold in_i32; lia). cbn [bindo]. rewrite H8. change (8 * (8 - 8)) with 0. rewrite Z.sub_0_r.
    unfold lut. rewrite clip3_clamp by lia. destruct (get_in _ QP_SCALE_CR (clamp 0 63 (qp + p_delta p))) as [v Hv]; [change (Z.of_nat (length QP_SCALE_CR)) with 64; unfold clamp; lia|].
    rewrite Hv. cbn [bindo]. rewrite (get_nth _ _ _ Hv). apply scale_cr_range in Hv. rewrite <- H8. apply luma_thr; [exact Ht|exact Hd|lia|exact Ho].
Qed.
Lemma half_sum a b lo hi : lo <= a <= hi -> lo <= b <= hi -> lo <= (a + b + 1) / 2 <= hi.
Proof. intros A B. Z.div_mod_to_equations. lia. Qed.
Lemma thresholds_ok p : qps_ok p -> thresholds p (luma_alpha p) (luma_beta p) (chroma_alpha p) (chroma_beta p).
Proof.
  intros (Hd & H8 & Hdl & Ha & Hb & Q) dir x y D (Hx & Hy & Hp) qp.
  assert (B : exists x' y', 0 <= x' < p_ws p /\ 0 <= y' < p_hs p /\ qp = (u_qp (unit_at p x y) + u_qp (unit_at p x' y') + 1) / 2).
  { unfold qp, edge_qp. destruct D as [-> | ->]; cbn in Hp |- *; [exists (x - 1), y|exists x, (y - 1)]; (split; [lia|]; split; [lia|reflexivity]). }
  destruct B as (x' & y' & Hx' & Hy' & E). pose proof (Q x y Hx Hy) as [Q1 C1]. pose proof (Q x' y' Hx' Hy') as [Q2 C2].
  assert (R : 0 <= qp <= 127) by (rewrite E; apply half_sum; lia).
  split; [apply luma_thr; auto; lia|]. split; [apply luma_thr; auto; lia|]. intros NC.
  assert (C : p_hbd p = true -> qp + p_delta p <= 63 + 8 * (p_depth p - 8)).
  { intros HB. specialize (C1 NC HB). specialize (C2 NC HB). pose proof (half_sum (u_qp (unit_at p x y)) (u_qp (unit_at p x' y')) 0 (63 + 8 * (p_depth p - 8) - p_delta p) ltac:(lia) ltac:(lia)). lia. }
  split; apply chroma_thr; auto; lia.
Qed.

Lemma deblocked_cov p c al be cov cov' R : (forall u, 0 <= u < p_ws p -> cov u = cov' u) ->
  forall x y, plane_in p c x y -> deblocked_plane p c al be cov R x y = deblocked_plane p c al be cov' R x y.
Proof.
  intros H x y [Hx Hy]. unfold deblocked_plane, across_horizontal. cbv zeta. rewrite (H (x / per c)); [reflexivity|].
  clear - Hx. assert (0 < per c) by (destruct c; reflexivity). split; [apply Z.div_pos; lia|apply Z.div_lt_upper_bound; lia].
Qed.

Section Pic.
  Variables (p : pict) (a : lay) (ry ru rv : Z -> Z -> Z) (wl hl : Z).
  Hypothesis WF : well_formed p.
  Hypothesis Lc : lcus p wl hl.
  Hypothesis Qp : qps_ok p.
  Hypothesis Sy : 8 <= l_st a /\ per false * p_ws p <= l_st a.
  Hypothesis Sc : 8 <= l_stc a /\ per true * p_ws p <= l_stc a.
  Let Wl : 0 < wl /\ (wl - 1) * N p < p_ws p <= wl * N p. Proof. unfold N. destruct Lc as (A & B & _). auto. Qed.
  Let Hl : 0 < hl /\ (hl - 1) * N p < p_hs p <= hl * N p. Proof. unfold N. destruct Lc as (_ & _ & A & B). auto. Qed.
  Let Lv : 3 <= p_lv p <= 6. Proof. apply WF. Qed.
  Let Ws : 0 < p_ws p. Proof. apply WF. Qed.
  Let Hs : 0 < p_hs p. Proof. apply WF. Qed.

  Lemma plane_done c base st al be R m : 8 <= st -> per c * p_ws p <= st -> samples_ok p c (l_bits a) R -> c && p_c400 p = false ->
    plane_holds p c base st m (pic_pl p c (l_bits a) base st al be R wl hl m) (deblocked_plane p c al be (covered p wl) R).
  Proof.
    intros St Wst RR SK. split.
    - intros x y [Hx Hy]. apply (pic_ok p c (l_bits a) base st al be R wl hl Lv St Wst Ws Hs Wl Hl); [intros; apply RR; split; assumption|exact SK|exact Hx|exact Hy].
    - intros q H. apply (pic_outside p c (l_bits a) base st al be R wl hl Lv St Wst Ws Wl Hl). intros x y Px Py. apply H. split; assumption.
  Qed.
  Lemma plane_done_all c base st al be R m : 2 <= wl -> 8 <= st -> per c * p_ws p <= st -> samples_ok p c (l_bits a) R -> c && p_c400 p = false ->
    plane_holds p c base st m (pic_pl p c (l_bits a) base st al be R wl hl m) (deblocked_plane p c al be (fun _ => true) R).
  Proof.
    intros W2 St Wst RR SK. destruct (plane_done c base st al be R m St Wst RR SK) as [A B]. split; [|exact B].
    intros x y P. rewrite A by exact P. apply deblocked_cov; [|exact P]. intros u Hu. unfold covered. destruct (Z.leb_spec 2 wl); lia.
  Qed.
  Lemma plane_skip base st al be R m : p_c400 p = true -> pic_pl p true (l_bits a) base st al be R wl hl m = m.
  Proof.
    intros C4. assert (O : forall dir u v m, op p true (l_bits a) base st al be dir u v m = m).
    { intros. unfold op, op_on. rewrite C4. cbn [negb]. rewrite andb_false_r. reflexivity. }
    assert (L : forall k (f : Z -> mem -> mem) (m : mem), (forall i m, f i m = m) -> loop k f m = m).
    { intros k f m0 E. induction k as [|k IH]; [reflexivity|]. cbn [loop]. rewrite IH. apply E. }
    unfold pic_pl. apply L. intros ly m0. unfold row_pl. apply L. intros lx m1. unfold lcu_pl, put, ver_loop, hor_loop. replace (skipped p true) with true by (unfold skipped; rewrite C4; reflexivity).
    rewrite !L; [reflexivity| |]; intros; apply L; intros; apply O.
  Qed.

  Theorem picture_done s : 2 <= wl -> samples_ok p false (l_bits a) ry -> (p_c400 p = false -> samples_ok p true (l_bits a) ru /\ samples_ok p true (l_bits a) rv) ->
    exists f s', picture p a ry ru rv wl hl s = Done (f, s') /\
      plane_holds p false (l_by a) (l_st a) (pl_y s) (pl_y s') (deblocked_plane p false (luma_alpha p) (luma_beta p) (fun _ => true) ry) /\
      (p_c400 p = false ->
        plane_holds p true (l_bu a) (l_stc a) (pl_u s) (pl_u s') (deblocked_plane p true (chroma_alpha p) (chroma_beta p) (fun _ => true) ru) /\
        plane_holds p true (l_bv a) (l_stc a) (pl_v s) (pl_v s') (deblocked_plane p true (chroma_alpha p) (chroma_beta p) (fun _ => true) rv)) /\
      (p_c400 p = true -> pl_u s' = pl_u s /\ pl_v s' = pl_v s).
  Proof.
    intros W2 RY RC. destruct (pic_lift p a _ _ _ _ ry ru rv wl hl (thresholds_ok p Qp) WF Wl Hl s) as (f & E & _).
    eexists. eexists. split; [exact E|]. cbn [pl_y pl_u pl_v]. split; [apply plane_done_all; try tauto; reflexivity|]. split.
    - intros C4. destruct (RC C4) as [RU RV]. split; apply plane_done_all; try tauto; rewrite C4; reflexivity.
    - intros C4. split; apply plane_skip; exact C4.
  Qed.
  (** One LCU wide: the horizontal edges of the last eight columns are not among the filtered ones. *)
  Theorem picture_one s : wl = 1 -> samples_ok p false (l_bits a) ry ->
    exists f s', picture p a ry ru rv wl hl s = Done (f, s') /\
      plane_holds p false (l_by a) (l_st a) (pl_y s) (pl_y s') (deblocked_plane p false (luma_alpha p) (luma_beta p) (fun u => u <? p_ws p - 1) ry).
  Proof.
    intros W1 RY. destruct (pic_lift p a _ _ _ _ ry ru rv wl hl (thresholds_ok p Qp) WF Wl Hl s) as (f & E & _).
    eexists. eexists. split; [exact E|]. cbn [pl_y pl_u pl_v]. pose proof (plane_done false (l_by a) (l_st a) (luma_alpha p) (luma_beta p) ry (pl_y s) (proj1 Sy) (proj2 Sy) RY eq_refl) as K.
    unfold covered in K. rewrite W1 in K |- *. exact K.
  Qed.
  Theorem picture_flags s : exists f s', picture p a ry ru rv wl hl s = Done (f, s') /\
    forall x y, 0 <= x < p_ws p -> 0 <= y < p_hs p -> f_ver f (y * p_ws p + x) = edge_kind p 0 x y /\ f_hor f (y * p_ws p + x) = edge_kind p 1 x y.
  Proof.
    destruct (pic_lift p a _ _ _ _ ry ru rv wl hl (thresholds_ok p Qp) WF Wl Hl s) as (f & E & F).
    eexists. eexists. split; [exact E|]. intros x y Hx Hy. split; [apply (F 0 x y)|apply (F 1 x y)]; auto.
  Qed.
End Pic.

Theorem lcu_edges : forall p lx ly f,
  well_formed p -> let N := 2 ^ (p_lv p - 3) in
  0 <= lx -> 0 <= ly -> lx * N < p_ws p -> ly * N < p_hs p ->
  (forall x y, lx * N <= x < lx * N + N -> ly * N <= y < ly * N + N -> x < p_ws p -> y < p_hs p -> f_ver f (y * p_ws p + x) = 0 /\ f_hor f (y * p_ws p + x) = 0) ->
  let f' := set_edges (Z.to_nat (p_lv p - 3)) p (p_lv p) (lx * N) (ly * N) f in
  forall x y, 0 <= x < p_ws p -> 0 <= y < p_hs p ->
    (lx * N <= x < lx * N + N /\ ly * N <= y < ly * N + N -> f_ver f' (y * p_ws p + x) = edge_kind p 0 x y /\ f_hor f' (y * p_ws p + x) = edge_kind p 1 x y) /\
    (~ (lx * N <= x < lx * N + N /\ ly * N <= y < ly * N + N) -> f_ver f' (y * p_ws p + x) = f_ver f (y * p_ws p + x) /\ f_hor f' (y * p_ws p + x) = f_hor f (y * p_ws p + x)).
Proof.
  intros p lx ly f WF N Hx Hy Wx Wy Z0 f' x y Rx Ry.
  destruct (lcu_flags p WF lx ly f Hx Hy Wx Wy) as [A B].
  { intros dir a b Ha Hb Hd. destruct Hd as [Bx By]. fold N in Bx, By. destruct (Z0 a b Bx By ltac:(lia) ltac:(lia)) as [E1 E2]. unfold flag_at. destruct (dir =? 0); assumption. }
  split.
  - intros D. split; [apply (A 0 x y)|apply (A 1 x y)]; auto; split; apply D.
  - intros D. split; [apply (B 0 x y)|apply (B 1 x y)]; auto; intros _ [D1 D2]; apply D; split; assumption.
Qed.

(** One LCU of 16 by 16 samples, four coding units, a step between the upper and the lower half. *)
Definition w_p : pict := Pict 2 2 4 true true (fun _ => Unit8 3 0 0 1 40 0) false (fun _ => 0) (fun _ => 0) (fun _ => 0) false 8 0 0 0 true.
Definition w_r (x y : Z) : Z := if y <? 8 then 100 else 104.
Definition w_a : lay := Lay 8 0 10000 20000 48 32.
Definition w_s : planes := Planes (fun _ => 0) (fun _ => 0) (fun _ => 0).
Lemma one_column : exists p a ry ru rv hl s x y,
  well_formed p /\ lcus p 1 hl /\ qps_ok p /\ 8 <= l_st a /\ per false * p_ws p <= l_st a /\ samples_ok p false (l_bits a) ry /\ plane_in p false x y /\
  exists f s', picture p a ry ru rv 1 hl s = Done (f, s') /\
    pl_y s' (l_by a + y * l_st a + x) = ry x y /\
    deblocked_plane p false (luma_alpha p) (luma_beta p) (fun _ => true) ry x y <> ry x y.
Proof.
  assert (WF : well_formed w_p).
  { unfold well_formed. cbn [p_lv p_ws p_hs w_p]. split; [lia|]. split; [lia|]. split; [lia|]. split; [|cbv zeta; intros; reflexivity].
    intros x y Hx Hy. cbv zeta. change (side8 (unit_at w_p x y)) with 1. change (unit_at w_p x y) with (Unit8 3 0 0 1 40 0). cbn [u_level u_type]. rewrite !Z.div_1_r.
    split; [lia|]. split; [lia|]. split; [lia|]. split; [lia|]. intros. unfold same_cu. auto. }
  assert (Lc : lcus w_p 1 1) by (vm_compute; repeat split; congruence).
  assert (Qp : qps_ok w_p).
  { unfold qps_ok. cbn [p_depth p_hbd p_delta p_offa p_offb p_ws p_hs p_c400 w_p]. split; [left; reflexivity|]. split; [reflexivity|]. split; [lia|]. split; [lia|]. split; [lia|].
    intros x y _ _. cbn. split; [lia|discriminate]. }
  assert (RY : samples_ok w_p false (l_bits w_a) w_r) by (intros x y _; unfold w_r; cbn [l_bits w_a]; change (2 ^ 8) with 256; destruct (y <? 8); lia).
  exists w_p, w_a, w_r, w_r, w_r, 1, w_s, 12, 8. split; [exact WF|]. split; [exact Lc|]. split; [exact Qp|]. split; [vm_compute; discriminate|]. split; [vm_compute; discriminate|].
  split; [exact RY|]. split; [vm_compute; repeat split; congruence|].
  destruct (picture_one w_p w_a w_r w_r w_r 1 1 WF Lc Qp ltac:(vm_compute; split; discriminate) w_s eq_refl RY) as (f & s' & E & K & _).
  exists f, s'. split; [exact E|]. split; [|vm_compute; discriminate].
  rewrite K by (vm_compute; repeat split; congruence). vm_compute. reflexivity.
Qed.
