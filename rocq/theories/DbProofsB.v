(** One plane: the order of the edges. *)
From Coq Require Import ZArith List Bool Lia.
From Verif Require Import CBase CBaseProofs MemModel MemProofs UtilModel MvProofs QpModel LfModel LfSpec LfProofs DbModel DbSpec.
Import ListNotations.
Open Scope Z_scope.

(** Equal samples are filtered to equal samples, whatever they are. *)
Definition agree (X : Z -> Prop) (m m' : mem) : Prop := forall q, X q -> m q = m' q.
Lemma agree_upd X m m' i v : agree X m m' -> agree X (upd m i v) (upd m' i v).
Proof. intros A q Hq. unfold upd. destruct (q =? i); [reflexivity|apply A, Hq]. Qed.
Lemma line_agree X bits c inc al be fl src m m' : agree X m m' -> (forall j, -3 <= j <= 2 -> X (src + j * inc)) ->
  agree X (lf_line bits c inc al be fl src m) (lf_line bits c inc al be fl src m').
Proof.
  intros A H. unfold lf_line. cbv zeta.
  replace (src - (inc + Z.shiftl inc 1)) with (src + -3 * inc) by (rewrite Z.shiftl_mul_pow2 by lia; lia).
  replace (src - Z.shiftl inc 1) with (src + -2 * inc) by (rewrite Z.shiftl_mul_pow2 by lia; lia).
  replace (src + Z.shiftl inc 1) with (src + 2 * inc) by (rewrite Z.shiftl_mul_pow2 by lia; lia).
  replace (src - inc) with (src + -1 * inc) by lia. replace (src + inc) with (src + 1 * inc) by lia.
  assert (E : m' src = m src). { pose proof (A _ (H 0 ltac:(lia))) as Q. replace (src + 0 * inc) with src in Q by lia. congruence. }
  rewrite E. rewrite <- !A by (apply H; lia).
  repeat match goal with |- agree _ (if ?b then _ else _) (if ?b then _ else _) => destruct b end; repeat apply agree_upd; exact A.
Qed.
Lemma loop_agree X n f m m' : agree X m m' -> (forall k a b, 0 <= k < Z.of_nat n -> agree X a b -> agree X (f k a) (f k b)) -> agree X (loop n f m) (loop n f m').
Proof. induction n as [|n IH]; intros A H; cbn [loop]; [exact A|]. apply H; [lia|]. apply IH; [exact A|]. intros. apply H; [lia|assumption]. Qed.
Lemma edge_agree X bits c ptr inc al be f0 f1 src m m' : agree X m m' -> (forall k j, 0 <= k < lines c -> -3 <= j <= 2 -> X (src + k * ptr + j * inc)) ->
  agree X (lf_edge bits c ptr inc al be f0 f1 src m) (lf_edge bits c ptr inc al be f0 f1 src m').
Proof.
  intros A H. unfold lf_edge. apply loop_agree; [exact A|]. intros k a b Hk Q. apply line_agree; [exact Q|]. intros j Hj. apply H; [|exact Hj].
  unfold lines. destruct c; lia.
Qed.
Lemma line_off bits c inc al be fl src m q : (forall j, -3 <= j <= 2 -> q <> src + j * inc) -> lf_line bits c inc al be fl src m q = m q.
Proof.
  intros H. unfold lf_line. cbv zeta. rewrite !Z.shiftl_mul_pow2 by lia.
  pose proof (H (-3) ltac:(lia)). pose proof (H (-2) ltac:(lia)). pose proof (H (-1) ltac:(lia)).
  pose proof (H 0 ltac:(lia)). pose proof (H 1 ltac:(lia)). pose proof (H 2 ltac:(lia)). clear H. change (2 ^ 1) with 2 in *.
  repeat match goal with |- (if ?b then _ else _) _ = _ => destruct b end; rewrite ?upd_other by lia; reflexivity.
Qed.
Lemma edge_off bits c ptr inc al be f0 f1 src m q : (forall k j, 0 <= k < lines c -> -3 <= j <= 2 -> q <> src + k * ptr + j * inc) ->
  lf_edge bits c ptr inc al be f0 f1 src m q = m q.
Proof.
  intros H. unfold lf_edge. apply (loop_inv _ (fun _ (m' : mem) => m' q = m q)); [reflexivity|]. intros i s Hi E. rewrite line_off; [exact E|].
  intros j Hj. apply H; [|exact Hj]. unfold lines. destruct c; lia.
Qed.

(** ** The grid of edges. *)
Definition zone (n v : Z) : Prop := v - edge_of v <= 2 /\ 0 < edge_of v < n.
Section Grid.
  Variable c : bool.
  Lemma per_cases : per c = 4 \/ per c = 8. Proof. unfold per. destruct c; auto. Qed.
  Lemma edge_near v : -3 <= v - edge_of v <= 4 /\ edge_of v mod 8 = 0.
  Proof. unfold edge_of. split; [|rewrite Z.mul_comm; apply Z.mod_mul; lia]. Z.div_mod_to_equations. lia. Qed.
  (** A live edge and the coordinates around it. *)
  Lemma edge_around a j : (c = true -> Z.even a = true) -> -3 <= j <= 2 -> edge_of (per c * a + j) = per c * a /\ per c * a / per c = a.
  Proof.
    intros E Hj. split; [|rewrite Z.mul_comm; apply Z.div_mul; unfold per; destruct c; lia].
    unfold edge_of, per. destruct c.
    - specialize (E eq_refl). apply Z.even_spec in E. destruct E as [b ->]. replace (4 * (2 * b) + j + 3) with ((j + 3) + b * 8) by lia. rewrite Z.div_add, Z.div_small by lia. lia.
    - replace (8 * a + j + 3) with ((j + 3) + a * 8) by lia. rewrite Z.div_add, Z.div_small by lia. lia.
  Qed.
  (** A coordinate in a zone belongs to one live edge. *)
  Lemma zone_edge n v : zone (per c * n) v -> let a := edge_of v / per c in edge_of v = per c * a /\ 0 < a < n /\ (c = true -> Z.even a = true) /\ -3 <= v - per c * a <= 2.
  Proof.
    intros [Z1 Z2]. cbv zeta. destruct (edge_near v) as [[N1 _] N2]. apply Z.mod_divide in N2; [|lia]. destruct N2 as [b Hb].
    unfold per in *. destruct c.
    - assert (E : edge_of v / 4 = 2 * b) by (rewrite Hb; replace (b * 8) with ((2 * b) * 4) by lia; apply Z.div_mul; lia).
      rewrite E. repeat split; try lia. intros _. rewrite Z.even_mul. reflexivity.
    - assert (E : edge_of v / 8 = b) by (rewrite Hb; apply Z.div_mul; lia). rewrite E. repeat split; try lia; discriminate.
  Qed.
  Lemma zone_in n a j : 0 < a < n -> (c = true -> Z.even a = true) -> -3 <= j <= 2 -> zone (per c * n) (per c * a + j) /\ 0 <= per c * a + j < per c * n.
  Proof.
    intros H E Hj. destruct (edge_around a j E Hj) as [A _]. unfold zone. rewrite A. pose proof per_cases.
    assert (per c * (a + 1) <= per c * n) by (apply Z.mul_le_mono_nonneg_l; lia). assert (per c * 1 <= per c * a) by (apply Z.mul_le_mono_nonneg_l; lia). lia.
  Qed.
  Lemma unit_of v : per c * (v / per c) <= v < per c * (v / per c) + per c /\ v mod per c = v - per c * (v / per c).
  Proof. pose proof per_cases as [-> | ->]; split; try (Z.div_mod_to_equations; lia). Qed.
  Lemma unit_in a k : 0 <= k < per c -> (per c * a + k) / per c = a /\ (per c * a + k) mod per c = k.
  Proof. pose proof per_cases as [-> | ->]; intros Hk; split; Z.div_mod_to_equations; lia. Qed.
  Lemma unit_near a j : -3 <= j <= 2 -> (per c * a + j) / per c = a \/ (per c * a + j) / per c = a - 1.
  Proof. intros Hj. pose proof per_cases as [-> | ->]; Z.div_mod_to_equations; lia. Qed.
  Lemma unit_bound n v : 0 <= v < per c * n -> 0 <= v / per c < n.
  Proof. intros H. pose proof per_cases. split; [apply Z.div_pos; lia|apply Z.div_lt_upper_bound; lia]. Qed.
  (** In a zone, the edge is that of the own unit or of the next. *)
  Lemma zone_unit n v : zone (per c * n) v -> edge_of v / per c = v / per c \/ edge_of v / per c = v / per c + 1.
  Proof. intros Z0. destruct (zone_edge n v Z0) as (E & A & B & C). cbv zeta in *. set (a := edge_of v / per c) in *. destruct (unit_near a (v - per c * a) C) as [U|U]; replace (per c * a + (v - per c * a)) with v in U by lia; lia. Qed.
  Lemma zone_dec n v : zone n v \/ ~ zone n v. Proof. unfold zone. lia. Qed.
End Grid.

(** ** Operations on one plane. *)
Section Ops.
  Variables (p : pict) (c : bool) (bits base st : Z) (al be : Z -> Z).
  Definition addr (x y : Z) : Z := base + y * st + x.
  Definition pw := per c * p_ws p.
  Definition ph := per c * p_hs p.
  (** The left ([dir] 0) or upper edge of the unit [(u, v)]. *)
  Definition op_on (dir u v : Z) : bool :=
    (if c then (edge_kind p dir u v =? 2) && negb (p_c400 p) && (Z.land (if dir =? 0 then u else v) 1 =? 0) else negb (edge_kind p dir u v =? 0)) &&
    negb (smooth p dir (2 * u) (2 * v) && smooth p dir (2 * u + dir) (2 * v + (1 - dir))).
  Definition op (dir u v : Z) (m : mem) : mem :=
    if op_on dir u v then
      (if dir =? 0 then edge_ver else edge_hor) bits c st (al (edge_qp p dir u v)) (be (edge_qp p dir u v))
        (negb (smooth p dir (2 * u) (2 * v))) (negb (smooth p dir (2 * u + dir) (2 * v + (1 - dir)))) (addr (per c * u) (per c * v)) m
    else m.
  (** Sample [j] of line [k] across that edge. *)
  Definition at_edge (dir u v k j : Z) : Z := if dir =? 0 then addr (per c * u + j) (per c * v + k) else addr (per c * u + k) (per c * v + j).
  Definition live (dir u v : Z) : Prop := let a := if dir =? 0 then u else v in 0 < a /\ (c = true -> Z.even a = true).

  Hypothesis St : 8 <= st.
  Lemma per_lines : lines c = per c. Proof. reflexivity. Qed.

  Lemma op_not_live dir u v m : (dir = 0 \/ dir = 1) -> 0 <= u -> 0 <= v -> ~ live dir u v -> op dir u v m = m.
  Proof.
    intros Hd Hu Hv L. unfold op. replace (op_on dir u v) with false; [reflexivity|]. symmetry. unfold op_on. apply andb_false_iff. left.
    unfold live in L. cbv zeta in L. assert (K : (if dir =? 0 then u else v) = 0 -> edge_kind p dir u v = 0).
    { intros E. unfold edge_kind. destruct Hd as [-> | ->]; cbn [Z.eqb] in *; subst; cbn [Z.sub Z.ltb Z.add Z.opp Z.compare orb]; [reflexivity|]. rewrite orb_true_r. reflexivity. }
    destruct (Z.eq_dec (if dir =? 0 then u else v) 0) as [E|N].
    - rewrite (K E). destruct c; reflexivity.
    - assert (P : 0 < (if dir =? 0 then u else v)) by (destruct Hd as [-> | ->]; cbn [Z.eqb] in *; lia).
      destruct c; [|exfalso; apply L; split; [exact P|discriminate]].
      apply andb_false_iff. right. destruct (Z.even (if dir =? 0 then u else v)) eqn:Ev; [exfalso; apply L; auto|].
      change 1 with (Z.ones 1) at 1. rewrite Z.land_ones by lia. change (2 ^ 1) with 2. rewrite Zmod_odd. rewrite <- Z.negb_even, Ev. reflexivity.
  Qed.
  Lemma step_dir dir : dir = 0 \/ dir = 1 -> layout (if dir =? 0 then st else 1) (if dir =? 0 then 1 else st).
  Proof. intros [-> | ->]; cbn [Z.eqb]; unfold layout; lia. Qed.
  Lemma at_edge_eq dir u v k j : dir = 0 \/ dir = 1 ->
    at_edge dir u v k j = addr (per c * u) (per c * v) + k * (if dir =? 0 then st else 1) + j * (if dir =? 0 then 1 else st).
  Proof. intros [-> | ->]; unfold at_edge, addr; cbn [Z.eqb]; lia. Qed.
  Lemma op_edge dir : dir = 0 \/ dir = 1 -> forall al be f0 f1 src m, 
    (if dir =? 0 then edge_ver else edge_hor) bits c st al be f0 f1 src m = lf_edge bits c (if dir =? 0 then st else 1) (if dir =? 0 then 1 else st) al be f0 f1 src m.
  Proof. intros [-> | ->] *; reflexivity. Qed.
  Lemma op_agree X dir u v m m' : (dir = 0 \/ dir = 1) -> 0 <= u -> 0 <= v -> agree X m m' ->
    (live dir u v -> forall k j, 0 <= k < per c -> -3 <= j <= 2 -> X (at_edge dir u v k j)) -> agree X (op dir u v m) (op dir u v m').
  Proof.
    intros Hd Hu Hv A H. destruct (Z.eq_dec 0 0) as [_|]; [|lia].
    assert (L : live dir u v \/ ~ live dir u v). { unfold live. destruct (Z.even (if dir =? 0 then u else v)), c; lia. }
    destruct L as [L|L].
    - unfold op. destruct (op_on dir u v); [|exact A]. rewrite !op_edge by exact Hd. apply edge_agree; [exact A|]. intros k j Hk Hj. rewrite <- at_edge_eq by exact Hd. apply H; [exact L|exact Hk|exact Hj].
    - rewrite !op_not_live by assumption. exact A.
  Qed.
  Lemma op_off dir u v m q : (dir = 0 \/ dir = 1) -> 0 <= u -> 0 <= v ->
    (live dir u v -> forall k j, 0 <= k < per c -> -3 <= j <= 2 -> q <> at_edge dir u v k j) -> op dir u v m q = m q.
  Proof.
    intros Hd Hu Hv H.
    assert (L : live dir u v \/ ~ live dir u v). { unfold live. destruct (Z.even (if dir =? 0 then u else v)), c; lia. }
    destruct L as [L|L].
    - unfold op. destruct (op_on dir u v); [|reflexivity]. rewrite op_edge by exact Hd. apply edge_off. intros k j Hk Hj. rewrite <- at_edge_eq by exact Hd. apply H; [exact L|exact Hk|exact Hj].
    - rewrite op_not_live by assumption. reflexivity.
  Qed.
  Lemma op_ok dir u v m : (dir = 0 \/ dir = 1) -> 0 <= u -> 0 <= v -> live dir u v ->
    (forall k j, 0 <= k < per c -> -3 <= j <= 2 -> 0 <= m (at_edge dir u v k j) < 2 ^ bits) ->
    forall k j, 0 <= k < per c -> -3 <= j <= 2 ->
    op dir u v m (at_edge dir u v k j) =
    filtered c (al (edge_qp p dir u v)) (be (edge_qp p dir u v)) (edge_on p c dir u v k) (fun i => m (at_edge dir u v k i)) j.
  Proof.
    intros Hd Hu Hv [L1 L2] HR k j Hk Hj. unfold op.
    assert (PAR : c = true -> (Z.land (if dir =? 0 then u else v) 1 =? 0) = true).
    { intros E. change 1 with (Z.ones 1) at 1. rewrite Z.land_ones by lia. change (2 ^ 1) with 2. rewrite Zmod_odd. rewrite <- Z.negb_even, (L2 E). reflexivity. }
    set (s0 := smooth p dir (2 * u) (2 * v)). set (s1 := smooth p dir (2 * u + dir) (2 * v + (1 - dir))).
    set (kd := if c then (edge_kind p dir u v =? 2) && negb (p_c400 p) else negb (edge_kind p dir u v =? 0)).
    assert (EON : edge_on p c dir u v k = kd && (if 2 * k <? per c then negb s0 else negb s1)).
    { unfold edge_on. fold kd. f_equal. assert (Q : 2 * k / per c = if 2 * k <? per c then 0 else 1).
      { destruct (Z.ltb_spec (2 * k) (per c)); [apply Z.div_small; lia|]. symmetry. apply (Z.div_unique _ _ 1 (2 * k - per c)); lia. }
      rewrite Q. unfold s0, s1. destruct Hd as [-> | ->]; cbn [Z.eqb]; destruct (2 * k <? per c); rewrite ?Z.add_0_r; try reflexivity.  }
    assert (OON : op_on dir u v = kd && negb (s0 && s1)).
    { unfold op_on, kd. fold s0 s1. destruct c; [rewrite PAR by reflexivity; rewrite andb_true_r|]; reflexivity. }
    rewrite OON, EON. destruct kd; cbn [andb].
    - destruct (s0 && s1) eqn:SS; cbn [negb].
      + apply andb_prop in SS. destruct SS as [-> ->]. cbn [negb]. rewrite filtered_off; [reflexivity|]. left. destruct (2 * k <? per c); reflexivity.
      + rewrite op_edge by exact Hd.
        destruct (edge_ok bits c (if dir =? 0 then st else 1) (if dir =? 0 then 1 else st) (al (edge_qp p dir u v)) (be (edge_qp p dir u v)) (negb s0) (negb s1) (addr (per c * u) (per c * v)) m (step_dir dir Hd)) as [E _].
        { intros k' j' Hk' Hj'. rewrite <- at_edge_eq by exact Hd. apply HR; assumption. }
        rewrite at_edge_eq by exact Hd. rewrite E by assumption. unfold line_flag. apply filtered_ext; [exact Hj|]. intros i Hi. rewrite at_edge_eq by exact Hd. reflexivity.
    - rewrite filtered_off; [reflexivity|]. left. reflexivity.
  Qed.

  (** ** The picture. *)
  Hypothesis Wst : pw <= st.
  Hypothesis Ws : 0 < p_ws p.
  Hypothesis Hs : 0 < p_hs p.
  Variable R : Z -> Z -> Z.
  Hypothesis RR : forall x y, 0 <= x < pw -> 0 <= y < ph -> 0 <= R x y < 2 ^ bits.
  Variable cov : Z -> bool.
  Definition S1 := across_vertical p c al be pw R.
  Definition S2 := deblocked_plane p c al be cov R.

  Lemma addr_inj x y x' y' : 0 <= x < pw -> 0 <= x' < pw -> addr x y = addr x' y' -> x = x' /\ y = y'.
  Proof.
    unfold addr. intros A A' E. assert (E' : y * st + x = y' * st + x') by lia. clear E. assert (y = y').
    { destruct (Z.lt_trichotomy y y') as [L|[L|L]]; [|exact L|]; exfalso.
      - assert ((y + 1) * st <= y' * st) by (apply Z.mul_le_mono_nonneg_r; lia). lia.
      - assert ((y' + 1) * st <= y * st) by (apply Z.mul_le_mono_nonneg_r; lia). lia. }
    subst. lia.
  Qed.
  Lemma S1_off x y : ~ zone pw x -> S1 x y = R x y.
  Proof.
    intros N. unfold S1, across_vertical. cbv zeta. replace ((x - edge_of x <=? 2) && (0 <? edge_of x) && (edge_of x <? pw)) with false; [reflexivity|].
    symmetry. unfold zone in N. lia.
  Qed.
  Lemma S1_on u j y : 0 < u < p_ws p -> (c = true -> Z.even u = true) -> -3 <= j <= 2 ->
    S1 (per c * u + j) y = filtered c (al (edge_qp p 0 u (y / per c))) (be (edge_qp p 0 u (y / per c))) (edge_on p c 0 u (y / per c) (y mod per c)) (fun i => R (per c * u + i) y) j.
  Proof.
    intros Hu E Hj. unfold S1, across_vertical. cbv zeta. destruct (edge_around c u j E Hj) as [A B]. rewrite A, B. destruct (zone_in c _ u j Hu E Hj) as [[Z1 Z2] _]. rewrite A in Z1, Z2.
    fold pw in Z2. replace ((per c * u + j - per c * u <=? 2) && (0 <? per c * u) && (per c * u <? pw)) with true by lia. replace (per c * u + j - per c * u) with j by lia. reflexivity.
  Qed.
  Lemma S1_range x y : 0 <= x < pw -> 0 <= y < ph -> 0 <= S1 x y < 2 ^ bits.
  Proof.
    intros Hx Hy. destruct (zone_dec pw x) as [Z0|N]; [|rewrite S1_off by exact N; apply RR; assumption].
    destruct (zone_edge c _ x Z0) as (E & A & B & C). cbv zeta in *. set (u := edge_of x / per c) in *. replace x with (per c * u + (x - per c * u)) by lia. rewrite S1_on by assumption.
    set (j := x - per c * u) in *. assert (G : 0 <= filtered c (al (edge_qp p 0 u (y / per c))) (be (edge_qp p 0 u (y / per c))) (edge_on p c 0 u (y / per c) (y mod per c)) (fun i => R (per c * u + i) y) j <= 2 ^ bits - 1).
    { apply filtered_range; [exact C|]. intros i Hi. destruct (zone_in c _ u i A B Hi) as [_ I1]. specialize (RR (per c * u + i) y I1 Hy). lia. }
    lia.
  Qed.
  Lemma S2_off x y : ~ zone ph y -> S2 x y = S1 x y.
  Proof.
    intros N. unfold S2, deblocked_plane, across_horizontal. cbv zeta. fold ph. replace ((y - edge_of y <=? 2) && (0 <? edge_of y) && (edge_of y <? ph)) with false; [reflexivity|].
    symmetry. unfold zone in N. lia.
  Qed.
  Lemma S2_on x v j : 0 < v < p_hs p -> (c = true -> Z.even v = true) -> -3 <= j <= 2 ->
    S2 x (per c * v + j) = filtered c (al (edge_qp p 1 (x / per c) v)) (be (edge_qp p 1 (x / per c) v)) (cov (x / per c) && edge_on p c 1 (x / per c) v (x mod per c)) (fun i => S1 x (per c * v + i)) j.
  Proof.
    intros Hu E Hj. unfold S2, deblocked_plane, across_horizontal. cbv zeta. destruct (edge_around c v j E Hj) as [A B]. rewrite A, B. destruct (zone_in c _ v j Hu E Hj) as [[Z1 Z2] _]. rewrite A in Z1, Z2.
    fold ph. fold ph in Z2. replace ((per c * v + j - per c * v <=? 2) && (0 <? per c * v) && (per c * v <? ph)) with true by lia. replace (per c * v + j - per c * v) with j by lia. reflexivity.
  Qed.

  (** What a sample is worth when the edges in [DV] and [DH] have been dealt with. *)
  Definition hdone (DH : Z -> Z -> Prop) (x y : Z) : Prop := zone ph y /\ DH (x / per c) (edge_of y / per c).
  Record value (DV DH : Z -> Z -> Prop) (x y w : Z) : Prop := {
    v_h : hdone DH x y -> w = S2 x y;
    v_v : ~ hdone DH x y -> DV (edge_of x / per c) (y / per c) -> w = S1 x y;
    v_r : ~ hdone DH x y -> ~ DV (edge_of x / per c) (y / per c) -> w = R x y }.
  Definition inv (DV DH Wr : Z -> Z -> Prop) (m : mem) : Prop :=
    forall x y, 0 <= x < pw -> 0 <= y < ph -> Wr (x / per c) (y / per c) -> value DV DH x y (m (addr x y)).

  Lemma inv_ext (DV DH Wr DV' DH' Wr' : Z -> Z -> Prop) m :
    (forall a b, 0 <= a < p_ws p -> 0 <= b < p_hs p -> DV a b <-> DV' a b) -> (forall a b, 0 <= a < p_ws p -> 0 <= b < p_hs p -> DH a b <-> DH' a b) ->
    (forall a b, 0 <= a < p_ws p -> 0 <= b < p_hs p -> Wr' a b -> Wr a b) -> (forall a b, DV a b \/ ~ DV a b) -> inv DV DH Wr m -> inv DV' DH' Wr' m.
  Proof.
    intros EV EH EW DD H x y Hx Hy Wx. pose proof (unit_bound c _ _ Hx) as Ux. pose proof (unit_bound c _ _ Hy) as Uy. destruct (H x y Hx Hy (EW _ _ Ux Uy Wx)) as [A B C].
    assert (HH : hdone DH x y <-> hdone DH' x y).
    { unfold hdone. split; intros [Z0 D]; (split; [exact Z0|]); destruct (zone_edge c _ y Z0) as (_ & Q & _ & _); cbv zeta in Q; apply (EH (x / per c) (edge_of y / per c) Ux ltac:(lia)); exact D. }
    destruct (zone_dec pw x) as [Z0|N].
    - destruct (zone_edge c _ x Z0) as (_ & Q & _ & _). cbv zeta in Q. pose proof (EV (edge_of x / per c) (y / per c) ltac:(lia) Uy) as E. constructor; intros; tauto.
    - pose proof (S1_off x y N) as O.
      assert (BC : ~ hdone DH x y -> m (addr x y) = R x y) by (intros NH; destruct (DD (edge_of x / per c) (y / per c)); [rewrite <- O; apply B; assumption|apply C; assumption]).
      constructor; [tauto|rewrite O; tauto|tauto].
  Qed.

  Lemma v_step u v m (DV DH Wr DV' : Z -> Z -> Prop) : 0 <= u < p_ws p -> 0 <= v < p_hs p ->
    inv DV DH Wr m -> (forall a b, DV' a b <-> DV a b \/ (a = u /\ b = v)) ->
    ~ DV u v -> (forall a b, (a = u - 1 \/ a = u) -> (b = v \/ b = v + 1) -> 0 <= a -> ~ DH a b) -> (0 < u -> Wr (u - 1) v) -> Wr u v ->
    inv DV' DH Wr (op 0 u v m).
  Proof.
    intros Hu Hv I0 ED NV NH W1 W2 x y Hx Hy Wx. pose proof (I0 x y Hx Hy Wx) as V0.
    assert (L : live 0 u v \/ ~ live 0 u v) by (unfold live; cbn [Z.eqb]; destruct (Z.even u), c; lia).
    assert (KEEP : m (addr x y) = op 0 u v m (addr x y) -> ~ (zone pw x /\ edge_of x / per c = u /\ y / per c = v) -> value DV' DH x y (op 0 u v m (addr x y))).
    { intros <- N. destruct V0 as [A B C]. constructor; [exact A| |].
      - intros H D. apply ED in D. destruct D as [D|[D1 D2]]; [apply B; assumption|].
        rewrite S1_off by (intros Z0; apply N; auto). apply C; [exact H|]. rewrite D1, D2. exact NV.
      - intros H D. apply C; [exact H|]. intros D'. apply D, ED. left. exact D'. }
    destruct L as [L|L].
    2:{ apply KEEP; [rewrite op_not_live by (auto; lia); reflexivity|]. intros (Z0 & E1 & _). apply L. destruct (zone_edge c _ x Z0) as (_ & A & B & _). cbv zeta in *. rewrite E1 in *. split; cbn [Z.eqb]; [lia|exact B]. }
    destruct L as [L1 L2]. cbv zeta in L1, L2. cbn [Z.eqb] in L1, L2.
    (* the samples around the edge are still those of R *)
    assert (RD : forall k i, 0 <= k < per c -> -3 <= i <= 2 -> m (at_edge 0 u v k i) = R (per c * u + i) (per c * v + k) /\ 0 <= R (per c * u + i) (per c * v + k) < 2 ^ bits /\ ~ hdone DH (per c * u + i) (per c * v + k)).
    { intros k i Hk Hi. unfold at_edge. cbn [Z.eqb]. destruct (zone_in c (p_ws p) u i ltac:(lia) L2 Hi) as [_ I1]. destruct (unit_in c v k Hk) as [U1 U2].
      assert (Hy' : 0 <= per c * v + k < ph). { unfold ph. pose proof (per_cases c). assert (per c * (v + 1) <= per c * p_hs p) by (apply Z.mul_le_mono_nonneg_l; lia). assert (0 <= per c * v) by (apply Z.mul_nonneg_nonneg; lia). lia. }
      assert (HN : ~ hdone DH (per c * u + i) (per c * v + k)).
      { intros [Z0 D]. apply zone_unit in Z0. rewrite U1 in Z0. revert D. apply NH; [destruct (unit_near c u i Hi) as [-> | ->]; auto|exact Z0|]. pose proof (unit_bound c _ _ I1). lia. }
      split; [|split; [apply RR; assumption|exact HN]].
      destruct (I0 (per c * u + i) (per c * v + k) I1 Hy') as [A B C].
      - rewrite U1. destruct (unit_near c u i Hi) as [-> | ->]; auto.
      - apply C; [exact HN|]. destruct (edge_around c u i L2 Hi) as [-> ->]. rewrite U1. exact NV. }
    assert (ZD : (zone pw x /\ edge_of x / per c = u /\ y / per c = v) \/ ~ (zone pw x /\ edge_of x / per c = u /\ y / per c = v)) by (unfold zone; lia).
    destruct ZD as [(Z0 & E1 & E2)|N].
    - destruct (zone_edge c _ x Z0) as (Q1 & Q2 & Q3 & Q4). cbv zeta in *. rewrite E1 in *. destruct (unit_of c y) as [U1 U2]. rewrite E2 in *.
      set (j := x - per c * u) in *. set (k := y - per c * v) in *. assert (Hk : 0 <= k < per c) by (unfold k; lia).
      assert (AE : addr x y = at_edge 0 u v k j) by (unfold at_edge; cbn [Z.eqb]; f_equal; unfold j, k; lia).
      assert (EX : per c * u + j = x) by (unfold j; lia). assert (EY : per c * v + k = y) by (unfold k; lia).
      assert (NHD : ~ hdone DH x y) by (destruct (RD k j Hk Q4) as (_ & _ & H); rewrite EX, EY in H; exact H).
      assert (VAL : op 0 u v m (addr x y) = S1 x y).
      { rewrite AE. rewrite op_ok; [|auto|lia|lia|split; assumption| |exact Hk|exact Q4].
        - rewrite <- EX at 1. rewrite (S1_on u j y ltac:(lia) L2 Q4). rewrite E2, U2. fold k. apply filtered_ext; [exact Q4|]. intros i Hi. destruct (RD k i Hk Hi) as (-> & _ & _). rewrite EY. reflexivity.
        - intros k' j' Hk' Hj'. destruct (RD k' j' Hk' Hj') as (-> & H & _). exact H. }
      rewrite VAL. constructor; [contradiction|reflexivity|]. intros _ D. exfalso. apply D. rewrite E1, E2. apply ED. auto.
    - apply KEEP; [|exact N]. symmetry. apply op_off; [auto|lia|lia|]. intros _ k j Hk Hj E. unfold at_edge in E. cbn [Z.eqb] in E.
      destruct (zone_in c (p_ws p) u j ltac:(lia) L2 Hj) as [Z0 I1]. apply addr_inj in E; [|exact Hx|exact I1]. destruct E as [-> ->]. apply N.
      destruct (edge_around c u j L2 Hj) as [-> ->]. destruct (unit_in c v k Hk) as [-> _]. auto.
  Qed.

  Lemma h_step u v m (DV DH Wr DH' : Z -> Z -> Prop) : 0 <= u < p_ws p -> 0 <= v < p_hs p -> cov u = true ->
    inv DV DH Wr m -> (forall a b, DH' a b <-> DH a b \/ (a = u /\ b = v)) -> (forall a b, DV a b \/ ~ DV a b) ->
    ~ DH u v -> (forall a b, (a = u \/ a = u + 1) -> (b = v - 1 \/ b = v) -> 0 < a < p_ws p -> 0 <= b -> DV a b) -> (0 < v -> Wr u (v - 1)) -> Wr u v ->
    inv DV DH' Wr (op 1 u v m).
  Proof.
    intros Hu Hv CV I0 ED DD NH HV W1 W2 x y Hx Hy Wx. pose proof (I0 x y Hx Hy Wx) as V0.
    assert (L : live 1 u v \/ ~ live 1 u v) by (unfold live; cbn [Z.eqb]; destruct (Z.even v), c; lia).
    assert (KEEP : m (addr x y) = op 1 u v m (addr x y) -> ~ (zone ph y /\ edge_of y / per c = v /\ x / per c = u) -> value DV DH' x y (op 1 u v m (addr x y))).
    { intros <- N. destruct V0 as [A B C].
      assert (HH : hdone DH' x y <-> hdone DH x y). { unfold hdone. split; intros [Z0 D]; (split; [exact Z0|]); [|apply ED; left; exact D]. apply ED in D. destruct D as [D|[D1 D2]]; [exact D|]. exfalso. apply N. auto. }
      constructor; intros; tauto. }
    destruct L as [L|L].
    2:{ apply KEEP; [rewrite op_not_live by (auto; lia); reflexivity|]. intros (Z0 & E1 & _). apply L. destruct (zone_edge c _ y Z0) as (_ & A & B & _). cbv zeta in *. rewrite E1 in *. split; cbn [Z.eqb]; [lia|exact B]. }
    destruct L as [L1 L2]. cbv zeta in L1, L2. cbn [Z.eqb] in L1, L2.
    assert (RD : forall k i, 0 <= k < per c -> -3 <= i <= 2 -> m (at_edge 1 u v k i) = S1 (per c * u + k) (per c * v + i) /\ 0 <= S1 (per c * u + k) (per c * v + i) < 2 ^ bits).
    { intros k i Hk Hi. unfold at_edge. cbn [Z.eqb]. destruct (zone_in c (p_hs p) v i ltac:(lia) L2 Hi) as [_ I1]. destruct (unit_in c u k Hk) as [U1 U2].
      assert (Hx' : 0 <= per c * u + k < pw). { unfold pw. pose proof (per_cases c). assert (per c * (u + 1) <= per c * p_ws p) by (apply Z.mul_le_mono_nonneg_l; lia). assert (0 <= per c * u) by (apply Z.mul_nonneg_nonneg; lia). lia. }
      split; [|apply S1_range; assumption].
      destruct (I0 (per c * u + k) (per c * v + i) Hx' I1) as [A B C].
      - rewrite U1. destruct (unit_near c v i Hi) as [-> | ->]; auto.
      - assert (HN : ~ hdone DH (per c * u + k) (per c * v + i)). { intros [Z0 D]. destruct (edge_around c v i L2 Hi) as [E1 E2]. rewrite U1, E1, E2 in D. contradiction. }
        destruct (DD (edge_of (per c * u + k) / per c) ((per c * v + i) / per c)) as [D|D]; [apply B; assumption|]. rewrite C by assumption.
        destruct (zone_dec pw (per c * u + k)) as [Z0|NZ]; [exfalso|symmetry; apply S1_off; exact NZ]. apply D.
        destruct (zone_edge c _ _ Z0) as (_ & Q2 & _ & _). cbv zeta in Q2. pose proof (zone_unit c _ _ Z0) as ZU. rewrite U1 in ZU.
        pose proof (unit_bound c _ _ I1) as UB. apply HV; [exact ZU| |exact Q2|lia]. destruct (unit_near c v i Hi) as [-> | ->]; auto. }
    assert (ZD : (zone ph y /\ edge_of y / per c = v /\ x / per c = u) \/ ~ (zone ph y /\ edge_of y / per c = v /\ x / per c = u)) by (unfold zone; lia).
    destruct ZD as [(Z0 & E1 & E2)|N].
    - destruct (zone_edge c _ y Z0) as (Q1 & Q2 & Q3 & Q4). cbv zeta in *. rewrite E1 in *. destruct (unit_of c x) as [U1 U2]. rewrite E2 in *.
      set (j := y - per c * v) in *. set (k := x - per c * u) in *. assert (Hk : 0 <= k < per c) by (unfold k; lia).
      assert (AE : addr x y = at_edge 1 u v k j) by (unfold at_edge; cbn [Z.eqb]; f_equal; unfold j, k; lia).
      assert (EX : per c * v + j = y) by (unfold j; lia). assert (EY : per c * u + k = x) by (unfold k; lia).
      assert (VAL : op 1 u v m (addr x y) = S2 x y).
      { rewrite AE. rewrite op_ok; [|auto|lia|lia|split; assumption| |exact Hk|exact Q4].
        - rewrite <- EX at 1. rewrite (S2_on x v j ltac:(lia) L2 Q4). rewrite E2, U2, CV. cbn [andb]. fold k. apply filtered_ext; [exact Q4|]. intros i Hi. destruct (RD k i Hk Hi) as (-> & _). rewrite EY. reflexivity.
        - intros k' j' Hk' Hj'. destruct (RD k' j' Hk' Hj') as (-> & H). exact H. }
      rewrite VAL. assert (HD : hdone DH' x y) by (split; [exact Z0|]; rewrite E1, E2; apply ED; auto).
      constructor; [reflexivity|contradiction|contradiction].
    - apply KEEP; [|exact N]. symmetry. apply op_off; [auto|lia|lia|]. intros _ k j Hk Hj E. unfold at_edge in E. cbn [Z.eqb] in E.
      destruct (unit_in c u k Hk) as [U1 U2]. assert (Hx' : 0 <= per c * u + k < pw). { unfold pw. pose proof (per_cases c). assert (per c * (u + 1) <= per c * p_ws p) by (apply Z.mul_le_mono_nonneg_l; lia). assert (0 <= per c * u) by (apply Z.mul_nonneg_nonneg; lia). lia. }
      apply addr_inj in E; [|exact Hx|exact Hx']. destruct E as [-> ->]. apply N. destruct (zone_in c (p_hs p) v j ltac:(lia) L2 Hj) as [Z0 _]. destruct (edge_around c v j L2 Hj) as [-> ->]. auto.
  Qed.
End Ops.
