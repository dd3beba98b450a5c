(** From the calls on the frame to the operations on each plane. *)
From Coq Require Import ZArith List Bool Lia.
From Verif Require Import CBase CBaseProofs MemModel MemProofs UtilModel MvProofs QpModel LfModel LfSpec LfProofs DbModel DbSpec DbProofs DbProofsB DbProofsC.
Import ListNotations.
Open Scope Z_scope.

(** Thresholds exist for all edges inside the picture. *)
Definition in_pic (p : pict) (dir x y : Z) : Prop := 0 <= x < p_ws p /\ 0 <= y < p_hs p /\ 0 < (if dir =? 0 then x else y).
Definition thresholds (p : pict) (aly bey alc bec : Z -> Z) : Prop :=
  forall dir x y, dir = 0 \/ dir = 1 -> in_pic p dir x y ->
    let qp := edge_qp p dir x y in
    lf_threshold ALPHA_TABLE (p_depth p) qp (p_offa p) = Done (aly qp) /\ lf_threshold BETA_TABLE (p_depth p) qp (p_offb p) = Done (bey qp) /\
    (p_c400 p = false -> lf_threshold_c (p_hbd p) ALPHA_TABLE (p_depth p) qp (p_delta p) (p_offa p) = Done (alc qp) /\
                         lf_threshold_c (p_hbd p) BETA_TABLE (p_depth p) qp (p_delta p) (p_offb p) = Done (bec qp)).

Lemma half_even x e : 0 <= e <= 1 -> (2 * x + e) / 2 = x.
Proof. intros H. Z.div_mod_to_equations. lia. Qed.
Lemma half_odd x : (2 * x - 1) / 2 = x - 1.
Proof. Z.div_mod_to_equations. lia. Qed.

Lemma need_ok p dir x y e e' : dir = 0 \/ dir = 1 -> (e = 0 /\ e' = 0) \/ (e = dir /\ e' = 1 - dir) ->
  need_filter p (if dir =? 0 then unit_at p (x - 1) y else unit_at p x (y - 1)) (unit_at p x y) dir (2 * x + e) (2 * y + e') = negb (smooth p dir (2 * x + e) (2 * y + e')).
Proof.
  intros Hd He. unfold need_filter, smooth. cbv zeta. destruct (p_inter p); [|destruct Hd as [-> | ->]; reflexivity]. cbn [andb]. f_equal.
  assert (B : 0 <= e <= 1 /\ 0 <= e' <= 1) by (destruct Hd as [-> | ->]; lia). rewrite !c_abs_eq.
  destruct Hd as [-> | ->]; cbn [Z.eqb].
  - assert (e = 0) by lia. subst e. rewrite !half_even by lia. rewrite Z.add_0_r, half_odd.
    replace ((2 * y + e' - 0) * (2 * p_ws p) + (2 * x - (1 - 0))) with ((2 * y + e') * (2 * p_ws p) + (2 * x - 1)) by lia.
    rewrite <- !andb_assoc. rewrite (andb_comm (u_cbp (unit_at p (x - 1) y) =? 0)). rewrite <- !andb_assoc.
    repeat match goal with |- context [?a =? ?b] => destruct (a =? b) end; repeat match goal with |- context [?a <? ?b] => destruct (a <? b) end; reflexivity.
  - assert (e' = 0) by lia. subst e'. rewrite !half_even by lia. rewrite Z.add_0_r, half_odd.
    replace ((2 * y - 1) * (2 * p_ws p) + (2 * x + e - (1 - 1))) with ((2 * y - 1) * (2 * p_ws p) + (2 * x + e)) by lia.
    repeat match goal with |- context [?a =? ?b] => destruct (a =? b) end; repeat match goal with |- context [?a <? ?b] => destruct (a <? b) end; reflexivity.
Qed.

Section Lift.
  Variables (p : pict) (a : lay) (aly bey alc bec : Z -> Z) (ry ru rv : Z -> Z -> Z) (wl hl : Z).
  Notation OY := (op p false (l_bits a) (l_by a) (l_st a) aly bey).
  Notation OU := (op p true (l_bits a) (l_bu a) (l_stc a) alc bec).
  Notation OV := (op p true (l_bits a) (l_bv a) (l_stc a) alc bec).
  Hypothesis TH : thresholds p aly bey alc bec.

  Lemma scu_ok f dir x y s : dir = 0 \/ dir = 1 -> 0 <= x < p_ws p -> 0 <= y < p_hs p -> flag_at p f dir x y = edge_kind p dir x y ->
    scu_deblock p a f dir x y s = Done (Planes (OY dir x y (pl_y s)) (OU dir x y (pl_u s)) (OV dir x y (pl_v s))).
  Proof.
    intros Hd Hx Hy FL. unfold scu_deblock. cbv zeta. unfold flag_at in FL. rewrite FL. fold (unit_at p x y).
    replace (if dir =? 0 then p_units p (y * p_ws p + x - 1) else p_units p (y * p_ws p + x - p_ws p)) with (if dir =? 0 then unit_at p (x - 1) y else unit_at p x (y - 1))
      by (unfold unit_at; destruct (dir =? 0); f_equal; lia).
    replace (Z.shiftl x 1) with (2 * x) by (rewrite Z.shiftl_mul_pow2 by lia; lia). replace (Z.shiftl y 1) with (2 * y) by (rewrite Z.shiftl_mul_pow2 by lia; lia).
    pose proof (need_ok p dir x y 0 0 Hd ltac:(auto)) as NF0. rewrite !Z.add_0_r in NF0. rewrite NF0. rewrite (need_ok p dir x y dir (1 - dir) Hd ltac:(auto)). rewrite !negb_involutive.
    unfold op, op_on.
    destruct (Z.eqb_spec (edge_kind p dir x y) 0) as [E0|E0].
    - rewrite E0. cbn [Z.eqb negb andb]. destruct s; reflexivity.
    - cbn [negb andb]. set (s0 := smooth p dir (2 * x) (2 * y)) in *. set (s1 := smooth p dir (2 * x + dir) (2 * y + (1 - dir))) in *.
      destruct (s0 && s1) eqn:SS; cbn [negb]; [rewrite !andb_false_r; destruct s; reflexivity|]. rewrite !andb_true_r.
      assert (IP : in_pic p dir x y).
      { split; [exact Hx|]. split; [exact Hy|]. destruct (Z.eq_dec (if dir =? 0 then x else y) 0) as [Q|Q]; [exfalso; apply E0|destruct Hd as [-> | ->]; cbn [Z.eqb] in *; lia].
        unfold edge_kind. destruct Hd as [-> | ->]; cbn [Z.eqb] in *; subst; cbn [Z.sub Z.ltb Z.add Z.opp Z.compare orb]; [reflexivity|]. rewrite orb_true_r. reflexivity. }
      destruct (TH dir x y Hd IP) as (T1 & T2 & T3). cbv zeta in *.
      assert (QE : Z.shiftr (u_qp (if dir =? 0 then unit_at p (x - 1) y else unit_at p x (y - 1)) + u_qp (unit_at p x y) + 1) 1 = edge_qp p dir x y).
      { unfold edge_qp. rewrite Z.shiftr_div_pow2 by lia. change (2 ^ 1) with 2. f_equal. lia. }
      rewrite QE, T1. cbn [bindo]. rewrite T2. cbn [bindo pl_y pl_u pl_v].
      assert (EG : forall b st' al be f0 f1 src m, (if dir =? 0 then edge_ver (l_bits a) b st' else edge_hor (l_bits a) b st') al be f0 f1 src m = (if dir =? 0 then edge_ver else edge_hor) (l_bits a) b st' al be f0 f1 src m) by (intros; destruct (dir =? 0); reflexivity).
      rewrite !EG. unfold per.
      replace (l_by a + Z.shiftl y 3 * l_st a + Z.shiftl x 3) with (addr (l_by a) (l_st a) (8 * x) (8 * y)) by (unfold addr; rewrite !Z.shiftl_mul_pow2 by lia; lia).
      assert (PAR : (Z.land y 1 =? 0) && negb (dir =? 0) || (Z.land x 1 =? 0) && (dir =? 0) = (Z.land (if dir =? 0 then x else y) 1 =? 0)).
      { destruct Hd as [-> | ->]; cbn [Z.eqb negb]; rewrite ?andb_false_r, ?andb_true_r, ?orb_false_r; reflexivity. }
      rewrite PAR. destruct (p_c400 p) eqn:E4; cbn [negb]; rewrite ?andb_false_r, ?andb_true_r; cbn [andb]; [reflexivity|]. destruct (T3 eq_refl) as [T4 T5].
      destruct ((edge_kind p dir x y =? 2) && (Z.land (if dir =? 0 then x else y) 1 =? 0)) eqn:EK; [|reflexivity].
      rewrite T4. cbn [bindo]. rewrite T5. cbn [bindo]. rewrite !EG.
      replace (l_bu a + (Z.shiftl y 2 * l_stc a + Z.shiftl x 2)) with (addr (l_bu a) (l_stc a) (4 * x) (4 * y)) by (unfold addr; rewrite !Z.shiftl_mul_pow2 by lia; lia).
      replace (l_bv a + (Z.shiftl y 2 * l_stc a + Z.shiftl x 2)) with (addr (l_bv a) (l_stc a) (4 * x) (4 * y)) by (unfold addr; rewrite !Z.shiftl_mul_pow2 by lia; lia).
      reflexivity.
  Qed.
  Lemma oloop_planes n F g h i : (forall k s, 0 <= k < Z.of_nat n -> F k s = Done (Planes (g k (pl_y s)) (h k (pl_u s)) (i k (pl_v s)))) ->
    forall s, oloop n F s = Done (Planes (loop n g (pl_y s)) (loop n h (pl_u s)) (loop n i (pl_v s))).
  Proof.
    induction n as [|n IH]; intros H s; cbn [oloop loop]; [destruct s; reflexivity|]. rewrite IH by (intros; apply H; lia). cbn [bindo]. rewrite H by lia. reflexivity.
  Qed.
  Lemma bindo_done {A B} (x : A) (g : A -> outcome B) o : o = Done x -> bindo o g = g x.
  Proof. intros ->. reflexivity. Qed.

  Hypothesis WF : well_formed p.
  Hypothesis Wl : 0 < wl /\ (wl - 1) * N p < p_ws p <= wl * N p.
  Hypothesis Hl : 0 < hl /\ (hl - 1) * N p < p_hs p <= hl * N p.
  (** Flags before LCU [(lx, ly)]. *)
  Definition flags_at (lx ly : Z) (f : flags) : Prop :=
    forall dir u v, dir = 0 \/ dir = 1 -> 0 <= u < p_ws p -> 0 <= v < p_hs p ->
      (v < ly * N p \/ (v < ly * N p + N p /\ u < lx * N p) -> flag_at p f dir u v = edge_kind p dir u v) /\
      (~ (v < ly * N p \/ (v < ly * N p + N p /\ u < lx * N p)) -> flag_at p f dir u v = 0).
  Notation LY := (lcu_pl p false (l_bits a) (l_by a) (l_st a) aly bey ry).
  Notation LU := (lcu_pl p true (l_bits a) (l_bu a) (l_stc a) alc bec ru).
  Notation LV := (lcu_pl p true (l_bits a) (l_bv a) (l_stc a) alc bec rv).

  Lemma lcu_lift lx ly f s : 0 <= lx < wl -> 0 <= ly < hl -> flags_at lx ly f ->
    exists f', lcu_step p a ry ru rv lx ly (f, s) = Done (f', Planes (LY lx ly (pl_y s)) (LU lx ly (pl_u s)) (LV lx ly (pl_v s))) /\ flags_at (lx + 1) ly f'.
  Proof.
    intros Hx Hy F. pose proof WF as (Lv & Ws & Hs & _). 
    pose proof (N_pos p Lv) as N0.
    pose proof (geo p wl hl Lv Ws Wl Hl lx ly Hx Hy) as G.
    destruct G as (G1 & G2 & G3 & G4 & G5 & G6 & G7 & G8 & G9 & G10 & G11 & G12 & G13).
    assert (ZB : forall dir u v, 0 <= u < p_ws p -> 0 <= v < p_hs p -> block (lx * N p) (ly * N p) (N p) u v -> flag_at p f dir u v = 0).
    { intros dir u v Hu Hv [B1 B2]. assert (D : flag_at p f dir u v = flag_at p f (if dir =? 0 then 0 else 1) u v) by (unfold flag_at; destruct (dir =? 0); reflexivity).
      rewrite D. apply (F (if dir =? 0 then 0 else 1) u v); [destruct (dir =? 0); auto|exact Hu|exact Hv|lia]. }
    destruct (lcu_flags p WF lx ly f ltac:(lia) ltac:(lia) ltac:(unfold N in *; lia) ltac:(unfold N in *; lia) ZB) as [R1 R2].
    set (f' := set_edges (Z.to_nat (p_lv p - 3)) p (p_lv p) (lx * 2 ^ (p_lv p - 3)) (ly * 2 ^ (p_lv p - 3)) f) in *. fold (N p) in R1, R2.
    exists f'. assert (F' : flags_at (lx + 1) ly f').
    { intros dir u v Hd Hu Hv. destruct (F dir u v Hd Hu Hv) as [F1 F2].
      assert (D : block (lx * N p) (ly * N p) (N p) u v \/ ~ block (lx * N p) (ly * N p) (N p) u v) by apply block_dec. destruct D as [D|D].
      - split; intros H; [apply R1; assumption|]. exfalso. apply H. unfold block in D. lia.
      - rewrite R2; [|exact Hu|auto]. split; intros H.
        + apply F1. unfold block in D. lia.
        + apply F2. intros Q. apply H. lia. }
    split; [|exact F'].
    unfold lcu_step. cbv zeta. cbn [fst snd]. unfold lcu_deblock. cbv zeta. cbn [fst snd]. rewrite !Z.shiftl_mul_pow2 by lia. rewrite !Z.mul_1_l.
    fold f'. fold (N p). fold (cols_left p lx) (rows_left p ly). fold (hor_from p lx).
    replace (if lx * N p =? 0 then cols_left p lx - 1 else if lx * N p + cols_left p lx =? p_ws p then cols_left p lx + 1 else cols_left p lx) with (hor_count p lx) by reflexivity.
    assert (FK : forall dir u v, dir = 0 \/ dir = 1 -> 0 <= u < p_ws p -> ly * N p <= v < ly * N p + rows_left p ly -> u < bv p (lx + 1) -> flag_at p f' dir u v = edge_kind p dir u v).
    { intros dir u v Hd Hu Hv L. unfold rows_left, bv in *. apply (F' dir u v Hd Hu ltac:(lia)). lia. }
    rewrite (bindo_done (Planes (ver_loop p false (l_bits a) (l_by a) (l_st a) aly bey (lx * N p) (ly * N p) (cols_left p lx) (rows_left p ly) (put p false (l_by a) (l_st a) ry lx ly (pl_y s)))
                                (ver_loop p true (l_bits a) (l_bu a) (l_stc a) alc bec (lx * N p) (ly * N p) (cols_left p lx) (rows_left p ly) (put p true (l_bu a) (l_stc a) ru lx ly (pl_u s)))
                                (ver_loop p true (l_bits a) (l_bv a) (l_stc a) alc bec (lx * N p) (ly * N p) (cols_left p lx) (rows_left p ly) (put p true (l_bv a) (l_stc a) rv lx ly (pl_v s))))).
    2:{ unfold ver_loop. rewrite (oloop_planes _ _ (fun j m => loop (Z.to_nat (cols_left p lx)) (fun i m => OY 0 (lx * N p + i) (ly * N p + j) m) m)
          (fun j m => loop (Z.to_nat (cols_left p lx)) (fun i m => OU 0 (lx * N p + i) (ly * N p + j) m) m) (fun j m => loop (Z.to_nat (cols_left p lx)) (fun i m => OV 0 (lx * N p + i) (ly * N p + j) m) m)).
        - cbn [pl_y pl_u pl_v]. unfold put, skipped. cbn [andb]. destruct (p_c400 p); reflexivity.
        - intros j t Hj. apply (oloop_planes _ _ (fun i m => OY 0 (lx * N p + i) (ly * N p + j) m) (fun i m => OU 0 (lx * N p + i) (ly * N p + j) m) (fun i m => OV 0 (lx * N p + i) (ly * N p + j) m)).
          intros i t' Hi. apply scu_ok; [auto|unfold cols_left in *; lia|unfold rows_left in *; lia|]. apply FK; [auto|unfold cols_left in *; lia|lia|lia]. }
    rewrite (bindo_done (Planes (LY lx ly (pl_y s)) (LU lx ly (pl_u s)) (LV lx ly (pl_v s)))); [reflexivity|].
    unfold lcu_pl, hor_loop.
    assert (CW : CC p wl <= p_ws p) by (unfold CC; destruct (2 <=? wl); lia).
    rewrite (oloop_planes _ _ (fun j m => loop (Z.to_nat (hor_count p lx)) (fun i m => OY 1 (hor_from p lx + i) (ly * N p + j) m) m)
          (fun j m => loop (Z.to_nat (hor_count p lx)) (fun i m => OU 1 (hor_from p lx + i) (ly * N p + j) m) m) (fun j m => loop (Z.to_nat (hor_count p lx)) (fun i m => OV 1 (hor_from p lx + i) (ly * N p + j) m) m)).
    - reflexivity.
    - intros j t Hj. apply (oloop_planes _ _ (fun i m => OY 1 (hor_from p lx + i) (ly * N p + j) m) (fun i m => OU 1 (hor_from p lx + i) (ly * N p + j) m) (fun i m => OV 1 (hor_from p lx + i) (ly * N p + j) m)).
      intros i t' Hi. apply scu_ok; [auto|lia|unfold rows_left in *; lia|]. apply FK; [auto|lia|lia|lia].
  Qed.

  Notation RY := (row_pl p false (l_bits a) (l_by a) (l_st a) aly bey ry wl).
  Notation RU := (row_pl p true (l_bits a) (l_bu a) (l_stc a) alc bec ru wl).
  Notation RV := (row_pl p true (l_bits a) (l_bv a) (l_stc a) alc bec rv wl).
  Lemma row_lift ly f s : 0 <= ly < hl -> flags_at 0 ly f ->
    exists f', row_step p a ry ru rv wl ly (f, s) = Done (f', Planes (RY ly (pl_y s)) (RU ly (pl_u s)) (RV ly (pl_v s))) /\ flags_at 0 (ly + 1) f'.
  Proof.
    intros Hy F. unfold row_step, row_pl.
    assert (K : forall n, Z.of_nat n <= wl -> exists f', oloop n (fun lx t => lcu_step p a ry ru rv lx ly t) (f, s) =
      Done (f', Planes (loop n (fun lx m => LY lx ly m) (pl_y s)) (loop n (fun lx m => LU lx ly m) (pl_u s)) (loop n (fun lx m => LV lx ly m) (pl_v s))) /\ flags_at (Z.of_nat n) ly f').
    { induction n as [|n IH]; intros Hn; cbn [oloop loop]; [exists f; split; [destruct s; reflexivity|exact F]|].
      destruct (IH ltac:(lia)) as (f1 & E1 & F1). rewrite E1. cbn [bindo]. destruct (lcu_lift (Z.of_nat n) ly f1 (Planes (loop n (fun lx m => LY lx ly m) (pl_y s)) (loop n (fun lx m => LU lx ly m) (pl_u s)) (loop n (fun lx m => LV lx ly m) (pl_v s))) ltac:(lia) Hy F1) as (f2 & E2 & F2).
      exists f2. split; [exact E2|]. replace (Z.of_nat (S n)) with (Z.of_nat n + 1) by lia. exact F2. }
    destruct (K (Z.to_nat wl) ltac:(lia)) as (f' & E & F'). exists f'. split; [exact E|]. rewrite Z2Nat.id in F' by lia.
    intros dir u v Hd Hu Hv. destruct (F' dir u v Hd Hu Hv) as [A B]. split; intros H; [apply A; lia|apply B; lia].
  Qed.
  Theorem pic_lift s : exists f, picture p a ry ru rv wl hl s = Done (f, Planes (pic_pl p false (l_bits a) (l_by a) (l_st a) aly bey ry wl hl (pl_y s))
      (pic_pl p true (l_bits a) (l_bu a) (l_stc a) alc bec ru wl hl (pl_u s)) (pic_pl p true (l_bits a) (l_bv a) (l_stc a) alc bec rv wl hl (pl_v s))) /\
    forall dir u v, dir = 0 \/ dir = 1 -> 0 <= u < p_ws p -> 0 <= v < p_hs p -> flag_at p f dir u v = edge_kind p dir u v.
  Proof.
    unfold picture, pic_pl. pose proof WF as (Lv & Ws & Hs & _). pose proof (N_pos p Lv) as N0.
    assert (K : forall n, Z.of_nat n <= hl -> exists f', oloop n (fun ly t => row_step p a ry ru rv wl ly t) (Flags (fun _ => 0) (fun _ => 0), s) =
      Done (f', Planes (loop n RY (pl_y s)) (loop n RU (pl_u s)) (loop n RV (pl_v s))) /\ flags_at 0 (Z.of_nat n) f').
    { induction n as [|n IH]; intros Hn; cbn [oloop loop].
      - exists (Flags (fun _ => 0) (fun _ => 0)). split; [destruct s; reflexivity|]. intros dir u v Hd Hu Hv. split; intros H; [exfalso; lia|]. unfold flag_at. cbn [f_ver f_hor]. destruct (dir =? 0); reflexivity.
      - destruct (IH ltac:(lia)) as (f1 & E1 & F1). rewrite E1. cbn [bindo]. destruct (row_lift (Z.of_nat n) f1 (Planes (loop n RY (pl_y s)) (loop n RU (pl_u s)) (loop n RV (pl_v s))) ltac:(lia) F1) as (f2 & E2 & F2).
        exists f2. split; [exact E2|]. replace (Z.of_nat (S n)) with (Z.of_nat n + 1) by lia. exact F2. }
    destruct (K (Z.to_nat hl) ltac:(lia)) as (f' & E & F'). exists f'. split; [exact E|]. rewrite Z2Nat.id in F' by lia.
    intros dir u v Hd Hu Hv. apply (F' dir u v Hd Hu Hv). lia.
  Qed.
End Lift.
