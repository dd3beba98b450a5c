(** The whole chain of in-loop filters of a picture. *)
From Coq Require Import ZArith List Bool Lia ZifyBool.
From Verif Require Import CBase QpSpec MemModel SaoModel SaoSpec SaoProofs SaoProofsD AlfModel AlfSpec AlfProofs AlfProofsB
  DbModel DbSpec DbProofs DbProofsB DbProofsC DbProofsD DbProofsE DbModelB DbSpecB.
Import ListNotations.
Open Scope Z_scope.

Lemma offset_ext W H side wl hl depth par D D' : (forall x y, 0 <= x < W -> 0 <= y < H -> D x y = D' x y) ->
  forall x y, 0 <= x < W -> 0 <= y < H -> plane_offset W H side wl hl depth par D x y = plane_offset W H side wl hl depth par D' x y.
Proof.
  intros E x y Hx Hy. unfold plane_offset. destruct (par _ _) as [[ty off]|]; [|apply E; assumption].
  rewrite (E x y) by assumption. destruct (ty =? 4); [reflexivity|]. destruct (direction ty) as [dx dy].
  destruct (inside W H (x + dx) (y + dy) && inside W H (x - dx) (y - dy)) eqn:I; [|reflexivity]. unfold inside in I.
  rewrite (E (x + dx) (y + dy)), (E (x - dx) (y - dy)) by (clear - I; lia). reflexivity.
Qed.
Section Ext.
  Variables (g : geom).
  Hypothesis Sz : sizes_ok (q_lv g) (q_pw g) (q_ph g) (q_wl g) (q_hl g).
  Lemma alf_ext ap D D' : (forall x y, 0 <= x < plane_w g -> 0 <= y < plane_h g -> D x y = D' x y) ->
    forall x y, 0 <= x < plane_w g -> 0 <= y < plane_h g ->
    plane_alf (plane_w g) (plane_h g) (lcu_lines g) (q_wl g) (q_hl g) (q_depth g) ap D x y = plane_alf (plane_w g) (plane_h g) (lcu_lines g) (q_wl g) (q_hl g) (q_depth g) ap D' x y.
  Proof.
    intros E x y Hx Hy. unfold plane_alf. destruct (ap _ _) as [co|]; [|apply E; assumption].
    destruct (geo_facts g Sz) as (G1 & G2 & G3 & G4). pose proof (side_cases g Sz) as Sc.
    set (lx := x / lcu_lines g). set (ly := owner (lcu_lines g) (q_hl g) y).
    assert (Lx : 0 <= lx < q_wl g) by (unfold lx; split; [apply Z.div_pos; lia|apply Z.div_lt_upper_bound; lia]).
    assert (Ly : 0 <= ly < q_hl g) by (unfold ly, owner; assert (0 <= (y + 4) / lcu_lines g) by (apply Z.div_pos; lia); lia).
    pose proof (xcut_in g Sz lx ltac:(lia)) as X0. pose proof (xcut_in g Sz (lx + 1) ltac:(lia)) as X1. pose proof (xcut_step g Sz lx Lx) as Xs.
    pose proof (ycut_in g Sz ly ltac:(lia)) as Y0. pose proof (ycut_in g Sz (ly + 1) ltac:(lia)) as Y1. pose proof (ycut_step g Sz ly Ly) as Ys.
    rewrite ycut_start in Y0. rewrite ycut_start in Y1. rewrite (ycut_start g ly), (ycut_start g (ly + 1)) in Ys. unfold alf_value. f_equal. f_equal. f_equal. f_equal. apply map_ext. intros [[i dx] dy]. f_equal. unfold tap.
    apply E; [destruct (outside _ _ _ && outside _ _ _)|]; unfold clamp; lia.
  Qed.
End Ext.

Section Plane.
  Variables (i : frame_in) (c : bool) (base st : Z) (k : plane_par) (R : Z -> Z -> Z).
  Let p := i_p i. Let g := k_g k.
  Definition al := if c then chroma_alpha (i_p i) else luma_alpha (i_p i).
  Definition be := if c then chroma_beta (i_p i) else luma_beta (i_p i).
  Definition rr : Z -> mem -> mem := row_rec p c (l_bits (i_a i)) base st al be R (i_wl i) (i_hl i).
  Hypothesis WF : well_formed p.
  Hypothesis L4 : 4 <= p_lv p.
  Hypothesis Lc : lcus p (i_wl i) (i_hl i).
  Hypothesis W2 : 2 <= i_wl i.
  Hypothesis Qp : qps_ok p.
  Hypothesis SK : c && p_c400 p = false.
  Hypothesis RR : samples_ok p c (l_bits (i_a i)) R.
  Hypothesis Pl : plane_of i c base st k.

  Lemma geom_eq : plane_w g = per c * p_ws p /\ plane_h g = per c * p_hs p /\ lcu_lines g = 2 ^ (if c then p_lv p - 1 else p_lv p) /\ lcu_lines g = per c * N p.
  Proof.
    destruct Pl as (E1 & E2 & E3 & E4 & _). unfold plane_w, plane_h, lcu_lines. fold g in E1, E2, E3, E4. rewrite E1, E2, E3, E4. fold p.
    assert (P8 : 2 ^ p_lv p = 8 * N p) by (unfold N; replace (p_lv p) with (3 + (p_lv p - 3)) at 1 by lia; rewrite Z.pow_add_r by lia; reflexivity).
    assert (P4 : 2 ^ (p_lv p - 1) = 4 * N p) by (unfold N; replace (p_lv p - 1) with (2 + (p_lv p - 3)) at 1 by lia; rewrite Z.pow_add_r by lia; reflexivity).
    rewrite !Z.shiftl_mul_pow2, !Z.shiftr_div_pow2 by lia. change (2 ^ 1) with 2. unfold per. destruct c; cbn [negb]; rewrite ?P8, ?P4; repeat split; Z.div_mod_to_equations; lia.
  Qed.
  Lemma sizes : sizes_ok (q_lv g) (q_pw g) (q_ph g) (q_wl g) (q_hl g).
  Proof.
    destruct Pl as (E1 & E2 & E3 & E4 & E5 & E6 & _). fold g in E1, E2, E3, E4, E5, E6. rewrite E2, E3, E4, E5, E6. fold p. destruct WF as ((_ & L6) & A & B & _). destruct Lc as (C1 & C2 & C3 & C4).
    assert (P8 : 2 ^ p_lv p = 8 * N p) by (unfold N; replace (p_lv p) with (3 + (p_lv p - 3)) at 1 by lia; rewrite Z.pow_add_r by lia; reflexivity).
    unfold sizes_ok. rewrite P8. fold (N p) in C2, C4.
    assert (M : forall z, (8 * z) mod 8 = 0) by (intros; rewrite Z.mul_comm; apply Z.mod_mul; lia). rewrite !M.
    repeat split; try lia.
  Qed.
  Let Lv : 3 <= p_lv p <= 6. Proof. apply WF. Qed.
  Let Wl : 0 < i_wl i /\ (i_wl i - 1) * N p < p_ws p <= i_wl i * N p. Proof. unfold N. destruct Lc as (A & B & _). auto. Qed.
  Let Hl : 0 < i_hl i /\ (i_hl i - 1) * N p < p_hs p <= i_hl i * N p. Proof. unfold N. destruct Lc as (_ & _ & A & B). auto. Qed.
  Let Ws : 0 < p_ws p. Proof. apply WF. Qed.
  Let Wst : pw p c <= st. Proof. destruct Pl as (_ & _ & _ & _ & _ & _ & _ & _ & _ & _ & _ & A & _). fold p in A. unfold pw. lia. Qed.
  Let St8 : 8 <= st. Proof. destruct Pl as (_ & _ & _ & _ & _ & _ & _ & _ & _ & _ & _ & A & _). fold p in A. assert (0 <= per c * p_ws p) by (destruct c; cbn [per]; lia). lia. Qed.
  Lemma rec_local : row_local (plane_w g) (plane_h g) (lcu_lines g) (q_base g) (q_stride g) rr.
  Proof.
    destruct geom_eq as (A & B & _ & D). rewrite A, B, D. destruct Pl as (_ & _ & _ & _ & _ & _ & E7 & E8 & _). fold g in E7, E8. rewrite E7, E8.
    unfold rr. apply (rows_local p c _ base st al be R (i_wl i) (i_hl i) Lv St8 Wst Ws Wl Hl).
  Qed.
  Lemma rec_all m x y : 0 <= x < plane_w g -> 0 <= y < plane_h g ->
    deblocked rr m (Z.to_nat (q_hl g)) (q_base g + y * q_stride g + x) = deblocked_plane p c al be (fun _ => true) R x y.
  Proof.
    destruct geom_eq as (A & B & _ & _). rewrite A, B. intros Hx Hy. destruct Pl as (_ & _ & _ & _ & _ & E6 & E7 & E8 & _). fold g in E6, E7, E8. rewrite E6, E7, E8.
    unfold rr. rewrite rows_deblocked by exact Hl.
    destruct (plane_done_all p (i_a i) (i_wl i) (i_hl i) WF Lc c base st al be R m W2 St8 Wst RR SK) as [K _].
    apply K. split; assumption.
  Qed.
  Lemma serial_plane a b m x y : plane_in p c x y -> snd (chain_serial g (k_sao k) (k_alf k) (k_up k) rr (a, b, m)) (base + y * st + x) = filtered_plane i c k R x y.
  Proof.
    intros [Hx Hy]. pose proof geom_eq as (A & B & C & D). rewrite <- A in Hx. rewrite <- B in Hy.
    pose proof Pl as (E1 & E2 & E3 & E4 & E5 & E6 & E7 & E8 & E9 & E10 & E11 & E12 & E13). fold g in E1, E2, E3, E4, E5, E6, E7, E8, E9, E10, E11.
    assert (Dp : 5 <= q_depth g) by (rewrite E11; destruct Qp as (Q & _); unfold depth_ok in Q; fold p; lia).
    assert (St : plane_w g + 16 <= q_stride g) by (rewrite A, E8; exact E12).
    pose proof (chain_serial_correct g (k_sao k) (k_alf k) (k_up k) sizes E9 E10 Dp St E13 rr m rec_local a b x y Hx Hy) as K. rewrite E7, E8 in K. rewrite K.
    unfold FA, F, filtered_plane. cbv zeta. fold p. rewrite <- A, <- B, <- C, <- E5, <- E6. replace (p_depth p) with (q_depth g) by exact E11.
    apply (alf_ext g sizes); [|exact Hx|exact Hy]. intros x' y' Hx' Hy'. apply offset_ext; [|exact Hx'|exact Hy']. intros x2 y2 Hx2 Hy2.
    apply rec_all; assumption.
  Qed.
  Lemma delayed_plane a b m x y : 2 <= i_hl i -> plane_in p c x y -> snd (chain_delayed g (k_sao k) (k_alf k) (k_up k) rr (a, b, m)) (base + y * st + x) = filtered_plane i c k R x y.
  Proof.
    intros H2 [Hx Hy]. pose proof geom_eq as (A & B & C & D). rewrite <- A in Hx. rewrite <- B in Hy.
    pose proof Pl as (E1 & E2 & E3 & E4 & E5 & E6 & E7 & E8 & E9 & E10 & E11 & E12 & E13). fold g in E1, E2, E3, E4, E5, E6, E7, E8, E9, E10, E11.
    assert (Dp : 5 <= q_depth g) by (rewrite E11; destruct Qp as (Q & _); unfold depth_ok in Q; fold p; lia).
    assert (St : plane_w g + 16 <= q_stride g) by (rewrite A, E8; exact E12).
    rewrite <- E6 in H2.
    pose proof (chain_delayed_correct g (k_sao k) (k_alf k) (k_up k) sizes E9 E10 Dp St E13 rr m rec_local a b x y H2 Hx Hy) as K. rewrite E7, E8 in K. rewrite K.
    unfold FA, F, filtered_plane. cbv zeta. fold p. rewrite <- A, <- B, <- C, <- E5, <- E6. replace (p_depth p) with (q_depth g) by exact E11.
    apply (alf_ext g sizes); [|exact Hx|exact Hy]. intros x' y' Hx' Hy'. apply offset_ext; [|exact Hx'|exact Hy']. intros x2 y2 Hx2 Hy2.
    apply rec_all; assumption.
  Qed.
End Plane.

(** Rows of the three planes at once. *)
Section Frame.
  Variable i : frame_in.
  Let p := i_p i. Let a := i_a i.
  Hypothesis OK : frame_ok i.
  Notation ry := (rr i false (l_by a) (l_st a) (i_ry i)).
  Notation ru := (rr i true (l_bu a) (l_stc a) (i_ru i)).
  Notation rv := (rr i true (l_bv a) (l_stc a) (i_rv i)).
  Let FA := flags_at p.
  Lemma rec_row_ok ly w : 0 <= ly < i_hl i -> flags_at p 0 ly (w_fl w) ->
    exists f, rec_row i ly w = Done (Work f (do_rec ry ly (w_y w)) (do_rec ru ly (w_u w)) (do_rec rv ly (w_v w))) /\ flags_at p 0 (ly + 1) f.
  Proof.
    destruct OK as (WF & _ & (C1 & C2 & C3 & C4) & _ & Qp & _). intros Hy F.
    destruct (row_lift p a _ _ _ _ (i_ry i) (i_ru i) (i_rv i) (i_wl i) (i_hl i) (thresholds_ok p Qp) WF (conj C1 C2) (conj C3 C4) ly (w_fl w) (Planes (snd (w_y w)) (snd (w_u w)) (snd (w_v w))) Hy F) as (f & E & F').
    exists f. split; [|exact F']. unfold rec_row. fold p a. rewrite E. cbn [bindo fst snd pl_y pl_u pl_v]. f_equal.
    clear E F. assert (B : (0 <=? ly) && (ly <? i_hl i) = true) by lia.
    destruct w as [fl [[ya yb] yd] [[ua ub] ud] [[va vb] vd]]. unfold do_rec. cbn [w_y w_u w_v fst snd]. unfold rr, row_rec. rewrite B. reflexivity.
  Qed.
  Definition body_s (k : plane_par) (rec : Z -> mem -> mem) (ly : Z) (st : chain) : chain := do_alf (k_g k) (k_alf k) ly (do_sao (k_g k) (k_sao k) (k_up k) ly (do_rec rec ly st)).
  Definition body_d (k : plane_par) (rec : Z -> mem -> mem) (ly : Z) (st : chain) : chain :=
    let st := do_rec rec ly st in
    if negb (ly =? 0) then
      let st := do_sao (k_g k) (k_sao k) (k_up k) (ly - 1) st in
      let st := if ly =? q_hl (k_g k) - 1 then do_sao (k_g k) (k_sao k) (k_up k) ly st else st in
      let st := do_alf (k_g k) (k_alf k) (ly - 1) st in
      if ly =? q_hl (k_g k) - 1 then do_alf (k_g k) (k_alf k) ly st else st
    else st.
  Lemma hl_eq : q_hl (k_g (i_ky i)) = i_hl i /\ q_hl (k_g (i_ku i)) = i_hl i /\ q_hl (k_g (i_kv i)) = i_hl i.
  Proof. destruct OK as (_ & _ & _ & _ & _ & _ & _ & _ & _ & P1 & P2 & P3). unfold plane_of in P1, P2, P3. tauto. Qed.
  Lemma serial_rows w n : Z.of_nat n <= i_hl i -> unmarked (w_fl w) ->
    exists f, oloop n (fun ly w => bindo (rec_row i ly w) (fun w => Done (alf_row i ly (sao_row i ly w)))) w =
      Done (Work f (loop n (body_s (i_ky i) ry) (w_y w)) (loop n (body_s (i_ku i) ru) (w_u w)) (loop n (body_s (i_kv i) rv) (w_v w))) /\ flags_at p 0 (Z.of_nat n) f.
  Proof.
    intros Hn U. destruct OK as ((Lv & Ws & Hs & _) & _). fold p in Lv, Ws, Hs. pose proof (N_pos p Lv) as N0. induction n as [|n IH]; cbn [oloop loop].
    - exists (w_fl w). split; [destruct w; reflexivity|]. intros dir u v Hd Hu Hv. split; intros H; [exfalso; lia|]. unfold flag_at. destruct (dir =? 0); apply U.
    - destruct (IH ltac:(lia)) as (f1 & E1 & F1). rewrite E1. cbn [bindo].
      match goal with |- context [rec_row i _ ?W] => destruct (rec_row_ok (Z.of_nat n) W ltac:(lia) F1) as (f2 & E2 & F2) end.
      rewrite E2. cbn [bindo]. exists f2. split; [reflexivity|]. replace (Z.of_nat (S n)) with (Z.of_nat n + 1) by lia. exact F2.
  Qed.
  Definition step_d (ly : Z) (w : work) : outcome work := bindo (rec_row i ly w) (fun w =>
    Done (if negb (ly =? 0) then
      let w := sao_row i (ly - 1) w in
      let w := if ly =? i_hl i - 1 then sao_row i ly w else w in
      let w := alf_row i (ly - 1) w in
      if ly =? i_hl i - 1 then alf_row i ly w else w
    else w)).
  Lemma delayed_rows w n : Z.of_nat n <= i_hl i -> unmarked (w_fl w) ->
    exists f, oloop n step_d w =
      Done (Work f (loop n (body_d (i_ky i) ry) (w_y w)) (loop n (body_d (i_ku i) ru) (w_u w)) (loop n (body_d (i_kv i) rv) (w_v w))) /\ flags_at p 0 (Z.of_nat n) f.
  Proof.
    intros Hn U. destruct OK as ((Lv & Ws & Hs & _) & _). fold p in Lv, Ws, Hs. pose proof (N_pos p Lv) as N0. destruct hl_eq as (H1 & H2 & H3). induction n as [|n IH]; cbn [oloop loop].
    - exists (w_fl w). split; [destruct w; reflexivity|]. intros dir u v Hd Hu Hv. split; intros H; [exfalso; lia|]. unfold flag_at. destruct (dir =? 0); apply U.
    - destruct (IH ltac:(lia)) as (f1 & E1 & F1). rewrite E1. cbn [bindo]. unfold step_d.
      match goal with |- context [rec_row i _ ?W] => destruct (rec_row_ok (Z.of_nat n) W ltac:(lia) F1) as (f2 & E2 & F2) end.
      rewrite E2. cbn [bindo]. exists f2. split; [|replace (Z.of_nat (S n)) with (Z.of_nat n + 1) by lia; exact F2].
      clear - H1 H2 H3. generalize (loop n (body_d (i_ky i) ry) (w_y w)) (loop n (body_d (i_ku i) ru) (w_u w)) (loop n (body_d (i_kv i) rv) (w_v w)). intros cy cu cv. unfold body_d. rewrite H1, H2, H3. cbv zeta. destruct (negb (Z.of_nat n =? 0)); [|reflexivity]. destruct (Z.of_nat n =? i_hl i - 1); reflexivity.
  Qed.
  Lemma floop_0 {S : Type} n (f : Z -> S -> S) s : floop 0 n f s = loop (Z.to_nat n) f s.
  Proof. unfold floop. rewrite Z.sub_0_r. reflexivity. Qed.
  Theorem frame_serial_ok w : unmarked (w_fl w) -> exists w', frame_serial i w = Done w' /\ frame_holds i w'.
  Proof.
    intros U. pose proof OK as (WF & L4 & Lc & W2 & Qp & C4 & RY & RU & RV & PY & PU & PV).
    destruct (serial_rows w (Z.to_nat (i_hl i)) ltac:(destruct Lc as (_ & _ & A & _); lia) U) as (f & E & _).
    eexists. split; [exact E|]. unfold frame_holds. cbn [w_y w_u w_v].
    destruct hl_eq as (H1 & H2 & H3). destruct (w_y w) as [[ya yb] yd], (w_u w) as [[ua ub] ud], (w_v w) as [[va vb] vd].
    split; [|split]; intros x y P.
    - rewrite <- (serial_plane i false (l_by a) (l_st a) (i_ky i) (i_ry i) WF L4 Lc W2 Qp eq_refl RY PY ya yb yd x y P).
      unfold chain_serial. rewrite floop_0, H1. reflexivity.
    - rewrite <- (serial_plane i true (l_bu a) (l_stc a) (i_ku i) (i_ru i) WF L4 Lc W2 Qp C4 RU PU ua ub ud x y P).
      unfold chain_serial. rewrite floop_0, H2. reflexivity.
    - rewrite <- (serial_plane i true (l_bv a) (l_stc a) (i_kv i) (i_rv i) WF L4 Lc W2 Qp C4 RV PV va vb vd x y P).
      unfold chain_serial. rewrite floop_0, H3. reflexivity.
  Qed.
  Theorem frame_delayed_ok w : 2 <= i_hl i -> unmarked (w_fl w) -> exists w', frame_delayed i w = Done w' /\ frame_holds i w'.
  Proof.
    intros Two U. pose proof OK as (WF & L4 & Lc & W2 & Qp & C4 & RY & RU & RV & PY & PU & PV).
    destruct (delayed_rows w (Z.to_nat (i_hl i)) ltac:(lia) U) as (f & E & _).
    eexists. split; [exact E|]. unfold frame_holds. cbn [w_y w_u w_v].
    destruct hl_eq as (H1 & H2 & H3). destruct (w_y w) as [[ya yb] yd], (w_u w) as [[ua ub] ud], (w_v w) as [[va vb] vd].
    split; [|split]; intros x y P.
    - rewrite <- (delayed_plane i false (l_by a) (l_st a) (i_ky i) (i_ry i) WF L4 Lc W2 Qp eq_refl RY PY ya yb yd x y Two P).
      unfold chain_delayed. rewrite floop_0, H1. unfold body_d. rewrite H1. reflexivity.
    - rewrite <- (delayed_plane i true (l_bu a) (l_stc a) (i_ku i) (i_ru i) WF L4 Lc W2 Qp C4 RU PU ua ub ud x y Two P).
      unfold chain_delayed. rewrite floop_0, H2. unfold body_d. rewrite H2. reflexivity.
    - rewrite <- (delayed_plane i true (l_bv a) (l_stc a) (i_kv i) (i_rv i) WF L4 Lc W2 Qp C4 RV PV va vb vd x y Two P).
      unfold chain_delayed. rewrite floop_0, H3. unfold body_d. rewrite H3. reflexivity.
  Qed.
End Frame.
