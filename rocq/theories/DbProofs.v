(** Proofs about deblocking: the edge flags. *)
From Coq Require Import ZArith List Bool Lia.
From Verif Require Import CBase MemModel QpModel LfModel LfSpec DbModel DbSpec.
Import ListNotations.
Open Scope Z_scope.

Lemma upd_at m i v : upd m i v i = v.
Proof. unfold upd. rewrite Z.eqb_refl. reflexivity. Qed.
Lemma upd_off m i v j : j <> i -> upd m i v j = m j.
Proof. intros H. unfold upd. destruct (Z.eqb_spec j i); [contradiction|reflexivity]. Qed.

(** A run of flags that are all equal. *)
Lemma set_run_off n : forall i step et m j, (forall k, 0 <= k < Z.of_nat n -> j <> i + k * step) -> set_run n i step et m j = m j.
Proof.
  induction n as [|n IH]; intros i step et m j H; cbn [set_run]; [reflexivity|].
  destruct (Z.eqb_spec (m i) 0); [|reflexivity]. rewrite IH.
  - apply upd_off. specialize (H 0 ltac:(lia)). lia.
  - intros k Hk. specialize (H (k + 1) ltac:(lia)). lia.
Qed.
Lemma set_run_on n : forall i step et m v, 0 < step -> (forall k, 0 <= k < Z.of_nat n -> m (i + k * step) = v) ->
  forall k, 0 <= k < Z.of_nat n -> set_run n i step et m (i + k * step) = if v =? 0 then et else v.
Proof.
  induction n as [|n IH]; intros i step et m v Hs H k Hk; [lia|]. cbn [set_run].
  pose proof (H 0 ltac:(lia)) as H0. replace (i + 0 * step) with i in H0 by lia. rewrite H0.
  destruct (Z.eqb_spec v 0) as [E|E].
  - destruct (Z.eq_dec k 0) as [->|K].
    + rewrite set_run_off; [replace (i + 0 * step) with i by lia; apply upd_at|].
      intros q Hq. assert (0 <= q * step) by (apply Z.mul_nonneg_nonneg; lia). lia.
    + replace (i + k * step) with (i + step + (k - 1) * step) by lia. rewrite (IH (i + step) step et _ 0 Hs); [reflexivity| |lia].
      intros q Hq. rewrite upd_off.
      * replace (i + step + q * step) with (i + (q + 1) * step) by lia. rewrite H by lia. exact E.
      * assert (0 <= q * step) by (apply Z.mul_nonneg_nonneg; lia). lia.
  - apply H. exact Hk.
Qed.

Definition flag_at (p : pict) (f : flags) (dir x y : Z) : Z := (if dir =? 0 then f_ver f else f_hor f) (y * p_ws p + x).
(** The flags inside the coding unit of side [n] at [(x, y)] by distance from its borders, and those outside. *)
Definition cols := (Z -> Z) -> Prop.
Record shape (p : pict) (x y n : Z) (f0 f : flags) (cv ch : Z -> Z) : Prop := {
  s_v : forall d k, 0 <= d < n -> 0 <= k < n -> flag_at p f 0 (x + d) (y + k) = cv d;
  s_h : forall d k, 0 <= d < n -> 0 <= k < n -> flag_at p f 1 (x + k) (y + d) = ch d;
  s_out : forall dir a b, 0 <= a < p_ws p -> ~ (x <= a < x + n /\ y <= b < y + n) -> flag_at p f dir a b = flag_at p f0 dir a b }.
Definition ins (dx et : Z) (c : Z -> Z) : Z -> Z := fun d => if (d =? dx) && (c d =? 0) then et else c d.

Lemma cell_inj ws a b a' b' : 0 <= a < ws -> 0 <= a' < ws -> b * ws + a = b' * ws + a' -> a = a' /\ b = b'.
Proof.
  intros A A' E. assert (b = b').
  { destruct (Z.lt_trichotomy b b') as [L|[L|L]]; [|exact L|]; exfalso.
    - assert ((b + 1) * ws <= b' * ws) by (apply Z.mul_le_mono_nonneg_r; lia). lia.
    - assert ((b' + 1) * ws <= b * ws) by (apply Z.mul_le_mono_nonneg_r; lia). lia. }
  subst. lia.
Qed.

Section Cu.
  Variable (p : pict) (l x y : Z).
  Hypothesis Hl : 3 <= l <= 6.
  Definition len := 2 ^ (l - 3).
  Hypothesis Hx : 0 <= x /\ x + len <= p_ws p.
  Hypothesis Hy : 0 <= y.
  Lemma len_pos : 0 < len. Proof. unfold len. apply Z.pow_pos_nonneg; lia. Qed.
  Lemma len_nat : Z.of_nat (Z.to_nat (Z.shiftl 1 (l - 3))) = len.
  Proof. rewrite Z.shiftl_mul_pow2 by lia. pose proof len_pos. unfold len in *. lia. Qed.

  Lemma run_ver dx et f0 f cv ch : 0 <= dx < len -> shape p x y len f0 f cv ch ->
    shape p x y len f0 (Flags (set_run (Z.to_nat (Z.shiftl 1 (l - 3))) (y * p_ws p + (x + dx)) (p_ws p) et (f_ver f)) (f_hor f)) (ins dx et cv) ch.
  Proof.
    intros D [S1 S2 S3]. pose proof len_pos as L0. constructor; unfold flag_at; cbn [f_ver f_hor Z.eqb].
    - intros d k Hd Hk. unfold ins. destruct (Z.eqb_spec d dx) as [->|N]; cbn [andb].
      + replace ((y + k) * p_ws p + (x + dx)) with (y * p_ws p + (x + dx) + k * p_ws p) by lia.
        rewrite (set_run_on _ _ _ _ _ (cv dx)); [destruct (cv dx =? 0); reflexivity|lia| |rewrite len_nat; exact Hk].
        intros q Hq. rewrite len_nat in Hq. specialize (S1 dx q D Hq). unfold flag_at in S1. cbn [Z.eqb] in S1. rewrite <- S1. f_equal. lia.
      + rewrite set_run_off; [apply (S1 d k Hd Hk)|]. intros q Hq E. rewrite len_nat in Hq.
        replace (y * p_ws p + (x + dx) + q * p_ws p) with ((y + q) * p_ws p + (x + dx)) in E by lia. apply cell_inj in E; lia.
    - intros d k Hd Hk. apply (S2 d k Hd Hk).
    - intros dir a b Ha Ho. unfold flag_at in S3. rewrite <- (S3 dir a b Ha Ho). destruct (dir =? 0); [|reflexivity].
      rewrite set_run_off; [reflexivity|]. intros q Hq E. rewrite len_nat in Hq.
      replace (y * p_ws p + (x + dx) + q * p_ws p) with ((y + q) * p_ws p + (x + dx)) in E by lia. apply cell_inj in E; lia.
  Qed.
  Lemma run_hor dx et f0 f cv ch : 0 <= dx < len -> shape p x y len f0 f cv ch ->
    shape p x y len f0 (Flags (f_ver f) (set_run (Z.to_nat (Z.shiftl 1 (l - 3))) ((y + dx) * p_ws p + x) 1 et (f_hor f))) cv (ins dx et ch).
  Proof.
    intros D [S1 S2 S3]. pose proof len_pos as L0. constructor; unfold flag_at; cbn [f_ver f_hor Z.eqb].
    - intros d k Hd Hk. apply (S1 d k Hd Hk).
    - intros d k Hd Hk. unfold ins. destruct (Z.eqb_spec d dx) as [->|N]; cbn [andb].
      + replace ((y + dx) * p_ws p + (x + k)) with ((y + dx) * p_ws p + x + k * 1) by lia.
        rewrite (set_run_on _ _ _ _ _ (ch dx)); [destruct (ch dx =? 0); reflexivity|lia| |rewrite len_nat; exact Hk].
        intros q Hq. rewrite len_nat in Hq. specialize (S2 dx q D Hq). unfold flag_at in S2. cbn [Z.eqb] in S2. rewrite <- S2. f_equal. lia.
      + rewrite set_run_off; [apply (S2 d k Hd Hk)|]. intros q Hq E. rewrite len_nat in Hq.
        replace ((y + dx) * p_ws p + x + q * 1) with ((y + dx) * p_ws p + (x + q)) in E by lia. apply cell_inj in E; lia.
    - intros dir a b Ha Ho. unfold flag_at in S3. rewrite <- (S3 dir a b Ha Ho). destruct (dir =? 0); [reflexivity|].
      rewrite set_run_off; [reflexivity|]. intros q Hq E. rewrite len_nat in Hq.
      replace ((y + dx) * p_ws p + x + q * 1) with ((y + dx) * p_ws p + (x + q)) in E by lia. apply cell_inj in E; lia.
  Qed.
  (** Inside the unit all belongs to one slice. *)
  Hypothesis Hslice : forall a b, 0 <= a < len -> 0 <= b < len -> u_slice (unit_at p (x + a) (y + b)) = u_slice (unit_at p x y).
  Lemma inner_ver dx et f0 f cv ch : 0 < dx < len -> shape p x y len f0 f cv ch -> shape p x y len f0 (set_param p l (x + dx) y 0 et f) (ins dx et cv) ch.
  Proof.
    intros D H. unfold set_param. cbn [Z.eqb]. destruct (Z.eqb_spec (x + dx) 0); [lia|].
    assert (E : u_slice (p_units p (y * p_ws p + (x + dx))) = u_slice (p_units p (y * p_ws p + (x + dx) - 1))).
    { pose proof (Hslice dx 0 ltac:(lia) ltac:(lia)) as A. pose proof (Hslice (dx - 1) 0 ltac:(lia) ltac:(lia)) as B. unfold unit_at in A, B.
      replace ((y + 0) * p_ws p + (x + dx)) with (y * p_ws p + (x + dx)) in A by lia. replace ((y + 0) * p_ws p + (x + (dx - 1))) with (y * p_ws p + (x + dx) - 1) in B by lia. congruence. }
    rewrite E, Z.eqb_refl, andb_false_r. apply run_ver; [lia|exact H].
  Qed.
  Lemma inner_hor dx et f0 f cv ch : 0 < dx < len -> shape p x y len f0 f cv ch -> shape p x y len f0 (set_param p l x (y + dx) 1 et f) cv (ins dx et ch).
  Proof.
    intros D H. unfold set_param. cbn [Z.eqb]. destruct (Z.eqb_spec (y + dx) 0); [lia|].
    assert (E : u_slice (p_units p ((y + dx) * p_ws p + x)) = u_slice (p_units p ((y + dx) * p_ws p + x - p_ws p))).
    { pose proof (Hslice 0 dx ltac:(lia) ltac:(lia)) as A. pose proof (Hslice 0 (dx - 1) ltac:(lia) ltac:(lia)) as B. unfold unit_at in A, B.
      replace ((y + dx) * p_ws p + (x + 0)) with ((y + dx) * p_ws p + x) in A by lia. replace ((y + (dx - 1)) * p_ws p + (x + 0)) with ((y + dx) * p_ws p + x - p_ws p) in B by lia. congruence. }
    rewrite E, Z.eqb_refl, andb_false_r. apply run_hor; [lia|exact H].
  Qed.
  (** The left and the upper edge. *)
  Definition left_kind := if x =? 0 then 0 else if negb (p_cross p) && negb (u_slice (unit_at p x y) =? u_slice (unit_at p (x - 1) y)) then 0 else 2.
  Definition top_kind := if y =? 0 then 0 else if negb (p_cross p) && negb (u_slice (unit_at p x y) =? u_slice (unit_at p x (y - 1))) then 0 else 2.
  Definition start (v : Z) : Z -> Z := fun d => if d =? 0 then v else 0.
  Lemma first_edges f : (forall dir a b, x <= a < x + len -> y <= b < y + len -> flag_at p f dir a b = 0) ->
    shape p x y len f (set_param p l (x + 0) y 0 2 f) (start left_kind) (fun _ => 0) /\
    (forall f', shape p x y len f f' (start left_kind) (fun _ => 0) -> shape p x y len f (set_param p l x (y + 0) 1 2 f') (start left_kind) (start top_kind)).
  Proof.
    intros Z0. assert (B : shape p x y len f f (fun _ => 0) (fun _ => 0)) by (constructor; intros; auto; apply Z0; lia).
    pose proof len_pos as L0.
    assert (EX : forall c v, shape p x y len f c (ins 0 2 (fun _ => 0)) v -> forall b, b = 2 -> shape p x y len f c (start b) v).
    { intros c v [S1 S2 S3] b ->. constructor; auto. intros d k Hd Hk. rewrite S1 by assumption. unfold ins, start. rewrite andb_true_r. reflexivity. }
    assert (N0 : forall c v, shape p x y len f c (fun _ => 0) v -> shape p x y len f c (start 0) v).
    { intros c v [S1 S2 S3]. constructor; auto. intros d k Hd Hk. rewrite S1 by assumption. unfold start. destruct (d =? 0); reflexivity. }
    split.
    - unfold set_param, left_kind. cbn [Z.eqb]. replace (x + 0) with x by lia. destruct (Z.eqb_spec x 0); [apply N0, B|].
      unfold unit_at. replace (y * p_ws p + (x - 1)) with (y * p_ws p + x - 1) by lia.
      destruct (negb (p_cross p) && _); [apply N0, B|]. apply EX; [|reflexivity].
      pose proof (run_ver 0 2 f f _ _ ltac:(lia) B) as R. replace (x + 0) with x in R by lia. exact R.
    - intros f' S'. unfold set_param, top_kind. cbn [Z.eqb]. replace (y + 0) with y by lia.
      assert (N1 : shape p x y len f f' (start left_kind) (start 0)).
      { destruct S' as [S1 S2 S3]. constructor; auto. intros d k Hd Hk. rewrite S2 by assumption. unfold start. destruct (d =? 0); reflexivity. }
      destruct (Z.eqb_spec y 0); [exact N1|]. unfold unit_at. replace ((y - 1) * p_ws p + x) with (y * p_ws p + x - p_ws p) by lia.
      destruct (negb (p_cross p) && _); [exact N1|].
      pose proof (run_hor 0 2 f f' _ _ ltac:(lia) S') as R. replace (y + 0) with y in R by lia. destruct R as [S1 S2 S3]. constructor; auto.
      intros d k Hd Hk. rewrite S2 by assumption. unfold ins, start. rewrite andb_true_r. reflexivity.
  Qed.
End Cu.

(** The inner edges of a coding unit, by distance. *)
Definition inner_cols (nsqt : bool) (l t : Z) (split : bool) (c : (Z -> Z) * (Z -> Z)) : (Z -> Z) * (Z -> Z) :=
  let ver dx et (c : (Z -> Z) * (Z -> Z)) := (ins dx et (fst c), snd c) in
  let hor dx et (c : (Z -> Z) * (Z -> Z)) := (fst c, ins dx et (snd c)) in
  if 3 <? l then
    let i := l - 4 in
    let half := Z.shiftl 1 i in
    let quarter := Z.shiftl 1 (i - 1) in
    let c :=
      if t =? 2 then hor half 2 c
      else if t =? 3 then ver half 2 c
      else if t =? 9 then hor half 2 (ver half 2 c)
      else if t =? 10 then (if 0 <? i then hor (quarter * 3) 1 (hor (quarter * 2) 1 (hor quarter 1 c)) else hor half 1 c)
      else if t =? 11 then (if 0 <? i then ver (quarter * 3) 1 (ver (quarter * 2) 1 (ver quarter 1 c)) else ver half 1 c)
      else if t =? 4 then (if 0 <? i then hor quarter 2 c else c)
      else if t =? 5 then (if 0 <? i then hor (quarter * 3) 2 c else c)
      else if t =? 6 then (if 0 <? i then ver quarter 2 c else c)
      else if t =? 7 then (if 0 <? i then ver (quarter * 3) 2 c else c)
      else c in
    if negb (t =? 9) && split then
      if nsqt && hor_part t then
        (if l =? 4 then hor half 1 c else hor (half + quarter) 1 (hor half 1 (hor quarter 1 c)))
      else if nsqt && ver_part t then
        (if l =? 4 then ver half 1 c else ver (half + quarter) 1 (ver half 1 (ver quarter 1 c)))
      else hor half 1 (ver half 1 c)
    else c
  else c.

Definition levels : list Z := [3; 4; 5; 6].
Definition types : list Z := [0; 1; 2; 3; 4; 5; 6; 7; 8; 9; 10; 11].
Definition table_ok : bool :=
  forallb (fun l => forallb (fun t => forallb (fun nsqt : bool => forallb (fun split : bool => forallb (fun lk => forallb (fun tk => forallb (fun k =>
    let d := Z.of_nat k in
    let c := inner_cols nsqt l t split (start lk, start tk) in
    (fst c d =? (if d =? 0 then lk else inner_kind nsqt (2 ^ (l - 3)) t split 0 d)) && (snd c d =? (if d =? 0 then tk else inner_kind nsqt (2 ^ (l - 3)) t split 1 d)))
    (seq 0 (Z.to_nat (2 ^ (l - 3))))) [0; 2]) [0; 2]) [true; false]) [true; false]) types) levels.
Lemma table_is_ok : table_ok = true.
Proof. vm_compute. reflexivity. Qed.
Lemma inner_table nsqt l t split lk tk d : 3 <= l <= 6 -> 0 <= t <= 11 -> (lk = 0 \/ lk = 2) -> (tk = 0 \/ tk = 2) -> 0 <= d < 2 ^ (l - 3) ->
  fst (inner_cols nsqt l t split (start lk, start tk)) d = (if d =? 0 then lk else inner_kind nsqt (2 ^ (l - 3)) t split 0 d) /\
  snd (inner_cols nsqt l t split (start lk, start tk)) d = (if d =? 0 then tk else inner_kind nsqt (2 ^ (l - 3)) t split 1 d).
Proof.
  intros Hl Ht Hlk Htk Hd. pose proof table_is_ok as T. unfold table_ok in T.
  assert (I : forall b : bool, In b [true; false]) by (destruct b; cbn; auto).
  rewrite forallb_forall in T. specialize (T l ltac:(unfold levels; cbn; lia)).
  rewrite forallb_forall in T. specialize (T t ltac:(unfold types; cbn; lia)).
  rewrite forallb_forall in T. specialize (T nsqt (I nsqt)).
  rewrite forallb_forall in T. specialize (T split (I split)).
  rewrite forallb_forall in T. specialize (T lk ltac:(cbn; lia)).
  rewrite forallb_forall in T. specialize (T tk ltac:(cbn; lia)).
  rewrite forallb_forall in T. specialize (T (Z.to_nat d) ltac:(apply in_seq; lia)). cbv zeta in T. rewrite Z2Nat.id in T by lia.
  apply andb_prop in T. destruct T as [A B]. apply Z.eqb_eq in A. apply Z.eqb_eq in B. split; assumption.
Qed.

Lemma cu_shape p l x y u f : 3 <= l <= 6 -> u_level u = l -> 0 <= x /\ x + len l <= p_ws p -> 0 <= y ->
  (forall a b, 0 <= a < len l -> 0 <= b < len l -> u_slice (unit_at p (x + a) (y + b)) = u_slice (unit_at p x y)) ->
  (forall dir a b, x <= a < x + len l -> y <= b < y + len l -> flag_at p f dir a b = 0) ->
  let c := inner_cols (p_nsqt p) l (u_type u) (negb (u_split u =? 0) && negb (u_cbp u =? 0)) (start (left_kind p x y), start (top_kind p x y)) in
  shape p x y (len l) f (cu_edges p l x y u f) (fst c) (snd c).
Proof.
  intros Hl Lu Hx Hy Hs Z0. cbv zeta. destruct (first_edges p l x y Hl Hx f Z0) as [A B]. specialize (B _ A). clear A.
  unfold cu_edges, inner_cols. rewrite Lu. revert B. generalize (set_param p l x (y + 0) 1 2 (set_param p l (x + 0) y 0 2 f)) as f1. intros f1 B.
  pose proof (inner_ver p l x y Hl Hx Hs) as IV. pose proof (inner_hor p l x y Hl Hx Hy Hs) as IH.
  assert (Hl' : l = 3 \/ l = 4 \/ l = 5 \/ l = 6) by lia. 
  assert (GO : 3 < l -> forall dx, 0 < dx < len l -> True) by auto.
  rewrite <- andb_assoc. generalize (negb (u_split u =? 0) && negb (u_cbp u =? 0)) as sp. intros sp. generalize (u_type u) as t. intros t.
  destruct Hl' as [-> | [-> | [-> | ->]]]; cbn [Z.ltb Z.compare Pos.compare Pos.compare_cont]; [exact B| | |].
  all: change (len 4) with 2 in *; change (len 5) with 4 in *; change (len 6) with 8 in *.
  all: cbn [Z.sub Z.add Z.opp Z.pos_sub Z.shiftl Pos.iter Z.mul Pos.mul Pos.add Z.ltb Z.compare Z.eqb Pos.eqb Z.shiftr Z.div2 Pos.succ Pos.pred_double Z.succ_double Z.pred_double Z.double fst snd Pos.compare Pos.compare_cont].
  all: repeat match goal with |- context [if ?b then _ else _] => match b with context [if _ then _ else _] => fail 1 | _ => destruct b end end.
  all: cbn [fst snd]; repeat (first [apply IV; [lia|] | apply IH; [lia|]]); exact B.
Qed.

(** ** The walk over the coding units. *)
Definition block (x y n a b : Z) : Prop := x <= a < x + n /\ y <= b < y + n.
Definition res (p : pict) (D : Z -> Z -> Prop) (f f' : flags) : Prop :=
  (forall dir a b, dir = 0 \/ dir = 1 -> 0 <= a < p_ws p -> 0 <= b < p_hs p -> D a b -> flag_at p f' dir a b = edge_kind p dir a b) /\
  (forall dir a b, 0 <= a < p_ws p -> (0 <= b < p_hs p -> ~ D a b) -> flag_at p f' dir a b = flag_at p f dir a b).
Lemma div_sub m k a x : 0 < m -> 0 < k -> a / m = x / m -> a / (m * k) = x / (m * k).
Proof. intros M K E. rewrite <- !Z.div_div by lia. rewrite E. reflexivity. Qed.
Lemma in_aligned n x a : 0 < n -> x mod n = 0 -> x <= a < x + n -> a / n = x / n /\ a mod n = a - x /\ x / n * n = x.
Proof.
  intros N M H. assert (E : x = n * (x / n)) by (apply Z.div_exact; lia).
  assert (Q : a / n = x / n). { symmetry. apply (Z.div_unique a n (x / n) (a - x)); [left; lia|lia]. }
  repeat split; [exact Q| |lia]. rewrite Z.mod_eq by lia. rewrite Q. lia.
Qed.
Lemma pow_split l m : 3 <= l <= m -> 2 ^ (m - 3) = 2 ^ (l - 3) * 2 ^ (m - l).
Proof. intros H. rewrite <- Z.pow_add_r by lia. f_equal. lia. Qed.

Section Walk.
  Variable p : pict.
  Hypothesis W : well_formed p.
  Lemma slice_block l x y a b a' b' : 3 <= l <= p_lv p -> x mod len l = 0 -> y mod len l = 0 ->
    0 <= a < p_ws p -> 0 <= b < p_hs p -> 0 <= a' < p_ws p -> 0 <= b' < p_hs p -> x <= a < x + len l -> y <= b < y + len l -> x <= a' < x + len l -> y <= b' < y + len l ->
    u_slice (unit_at p a b) = u_slice (unit_at p a' b').
  Proof.
    intros Hl Mx My Pa Pb Pa' Pb' Ha Hb Ha' Hb'. destruct W as (W1 & W2 & W3 & W4 & W5). cbv zeta in W5.
    assert (L0 : 0 < len l) by (unfold len; apply Z.pow_pos_nonneg; lia).
    assert (K0 : 0 < 2 ^ (p_lv p - l)) by (apply Z.pow_pos_nonneg; lia).
    destruct (in_aligned (len l) x a L0 Mx Ha) as (E1 & _ & _). destruct (in_aligned (len l) x a' L0 Mx Ha') as (E2 & _ & _).
    destruct (in_aligned (len l) y b L0 My Hb) as (E3 & _ & _). destruct (in_aligned (len l) y b' L0 My Hb') as (E4 & _ & _).
    apply W5; auto; rewrite (pow_split l (p_lv p)) by lia; apply div_sub; auto; unfold len in *; congruence.
  Qed.
  Lemma unit_block l x y : 0 <= x < p_ws p -> 0 <= y < p_hs p -> u_level (unit_at p x y) = l -> x mod len l = 0 -> y mod len l = 0 ->
    3 <= l <= p_lv p /\ 0 <= u_type (unit_at p x y) <= 11 /\ x + len l <= p_ws p /\ y + len l <= p_hs p /\ forall a b, block x y (len l) a b -> same_cu (unit_at p a b) (unit_at p x y).
  Proof.
    intros Hx Hy E Mx My. destruct W as (W1 & W2 & W3 & W4 & W5). clear W5. specialize (W4 x y Hx Hy). cbv zeta in W4. unfold side8 in W4. rewrite E in W4. fold (len l) in W4.
    destruct W4 as (A & B & C & D & F). assert (L0 : 0 < len l) by (unfold len; apply Z.pow_pos_nonneg; lia).
    destruct (in_aligned (len l) x x L0 Mx ltac:(lia)) as (_ & _ & E1). destruct (in_aligned (len l) y y L0 My ltac:(lia)) as (_ & _ & E2). rewrite E1 in C, F. rewrite E2 in D, F.
    repeat split; try lia; intros; try (destruct (F (a - x) (b - y)) as (F1 & F2 & F3 & F4); [unfold block in *; lia| unfold block in *; lia|]);
      replace (x + (a - x)) with a in * by lia; replace (y + (b - y)) with b in * by lia; assumption.
  Qed.
  Lemma leaf l x y f : 0 <= x < p_ws p -> 0 <= y < p_hs p -> u_level (unit_at p x y) = l -> x mod len l = 0 -> y mod len l = 0 ->
    (forall dir a b, block x y (len l) a b -> flag_at p f dir a b = 0) ->
    res p (block x y (len l)) f (cu_edges p l x y (unit_at p x y) f).
  Proof.
    intros Hx Hy E Mx My Z0. destruct (unit_block l x y Hx Hy E Mx My) as (B1 & B2 & B3 & B4 & B5).
    assert (L0 : 0 < len l) by (unfold len; apply Z.pow_pos_nonneg; lia).
    assert (H6 : 3 <= l <= 6) by (destruct W as (W1 & _); lia).
    pose proof (cu_shape p l x y (unit_at p x y) f H6 E ltac:(lia) ltac:(lia)) as SH. cbv zeta in SH.
    specialize (SH ltac:(intros a b Ha Hb; apply (slice_block l x y); lia)). specialize (SH ltac:(intros; apply Z0; unfold block; lia)).
    destruct SH as [S1 S2 S3].
    assert (LK : left_kind p x y = 0 \/ left_kind p x y = 2) by (unfold left_kind; destruct (x =? 0); [auto|]; destruct (negb (p_cross p) && _); auto).
    assert (TK : top_kind p x y = 0 \/ top_kind p x y = 2) by (unfold top_kind; destruct (y =? 0); [auto|]; destruct (negb (p_cross p) && _); auto).
    split.
    - intros dir a b Hdir Pa Pb In. pose proof (B5 a b In) as (C1 & C2 & C3 & C4). destruct In as [Ia Ib].
      destruct (in_aligned (len l) x a L0 Mx Ia) as (_ & MA & _). destruct (in_aligned (len l) y b L0 My Ib) as (_ & MB & _).
      destruct Hdir as [-> | ->].
      + specialize (S1 (a - x) (b - y) ltac:(lia) ltac:(lia)). replace (x + (a - x)) with a in S1 by lia. replace (y + (b - y)) with b in S1 by lia. rewrite S1.
        destruct (inner_table (p_nsqt p) l (u_type (unit_at p x y)) (negb (u_split (unit_at p x y) =? 0) && negb (u_cbp (unit_at p x y) =? 0)) (left_kind p x y) (top_kind p x y) (a - x) H6 B2 LK TK ltac:(unfold len in *; lia)) as [T _].
        rewrite T. clear T. unfold edge_kind. cbn [Z.eqb]. unfold side8. rewrite C1, C2, C3, C4, E. fold (len l). rewrite MA.
        destruct (Z.eqb_spec (a - x) 0) as [D|D].
        * assert (a = x) by lia. subst a. unfold left_kind. destruct (Z.eqb_spec x 0) as [X0|X0]; destruct (Z.ltb_spec (x - 1) 0); try lia; cbn [orb]; [reflexivity|].
          destruct (Z.ltb_spec b 0); [lia|]. rewrite (slice_block l x y x b x y) by lia.
          assert (SL : u_slice (unit_at p (x - 1) b) = u_slice (unit_at p (x - 1) y)).
          { apply (slice_block l (x - len l) y); try lia. replace (x - len l) with (x + (-1) * len l) by lia. rewrite Z.mod_add by lia. exact Mx. }
          rewrite SL, (Z.eqb_sym (u_slice (unit_at p x y))). destruct (negb (p_cross p) && _); [reflexivity|]. unfold inner_kind. replace (x - x) with 0 by lia. reflexivity.
        * destruct (Z.ltb_spec (a - 1) 0); [lia|]. destruct (Z.ltb_spec b 0); [lia|]. cbn [orb].
          rewrite (slice_block l x y (a - 1) b a b) by lia. rewrite Z.eqb_refl, andb_false_r. reflexivity.
      + specialize (S2 (b - y) (a - x) ltac:(lia) ltac:(lia)). replace (x + (a - x)) with a in S2 by lia. replace (y + (b - y)) with b in S2 by lia. rewrite S2.
        destruct (inner_table (p_nsqt p) l (u_type (unit_at p x y)) (negb (u_split (unit_at p x y) =? 0) && negb (u_cbp (unit_at p x y) =? 0)) (left_kind p x y) (top_kind p x y) (b - y) H6 B2 LK TK ltac:(unfold len in *; lia)) as [_ T].
        rewrite T. clear T. unfold edge_kind. cbn [Z.eqb]. unfold side8. rewrite C1, C2, C3, C4, E. fold (len l). rewrite MB.
        destruct (Z.eqb_spec (b - y) 0) as [D|D].
        * assert (b = y) by lia. subst b. unfold top_kind. destruct (Z.eqb_spec y 0) as [Y0|Y0]; destruct (Z.ltb_spec (y - 1) 0); try lia; destruct (Z.ltb_spec a 0); try lia; cbn [orb]; [reflexivity|].
          rewrite (slice_block l x y a y x y) by lia.
          assert (SL : u_slice (unit_at p a (y - 1)) = u_slice (unit_at p x (y - 1))).
          { apply (slice_block l x (y - len l)); try lia. replace (y - len l) with (y + (-1) * len l) by lia. rewrite Z.mod_add by lia. exact My. }
          rewrite SL, (Z.eqb_sym (u_slice (unit_at p x y))). destruct (negb (p_cross p) && _); [reflexivity|]. unfold inner_kind. replace (y - y) with 0 by lia. reflexivity.
        * destruct (Z.ltb_spec a 0); [lia|]. destruct (Z.ltb_spec (b - 1) 0); [lia|]. cbn [orb].
          rewrite (slice_block l x y a (b - 1) a b) by lia. rewrite Z.eqb_refl, andb_false_r. reflexivity.
    - intros dir a b Pa Out. apply S3; [exact Pa|]. intros [Ia Ib]. apply Out; [lia|]. split; assumption.
  Qed.
  Lemma res_seq (D1 D2 D : Z -> Z -> Prop) f f1 f2 :
    (forall a b, D2 a b \/ ~ D2 a b) -> (forall a b, 0 <= a < p_ws p -> 0 <= b < p_hs p -> (D a b <-> D1 a b \/ D2 a b)) ->
    res p D1 f f1 -> res p D2 f1 f2 -> res p D f f2.
  Proof.
    intros DD E [A1 A2] [B1 B2]. split.
    - intros dir a b Hd Pa Pb In. apply E in In; [|exact Pa|exact Pb]. destruct (DD a b) as [I2|N2].
      + apply B1; auto.
      + destruct In as [I1|I2]; [|contradiction]. rewrite B2; [apply A1; auto|exact Pa|auto].
    - intros dir a b Pa Out. rewrite B2; [apply A2; [exact Pa|]|exact Pa|].
      + intros Pb I1. apply (Out Pb). apply E; auto.
      + intros Pb I2. apply (Out Pb). apply E; auto.
  Qed.
  Lemma res_none (D : Z -> Z -> Prop) f : (forall a b, 0 <= a < p_ws p -> 0 <= b < p_hs p -> ~ D a b) -> res p D f f.
  Proof. intros H. split; [intros dir a b _ Pa Pb In; exfalso; apply (H a b Pa Pb In)|reflexivity]. Qed.
  Lemma block_dec x y n a b : block x y n a b \/ ~ block x y n a b.
  Proof. unfold block. lia. Qed.

  Lemma set_edges_ok n : forall l x y f, Z.of_nat n = l - 3 -> l <= p_lv p -> 0 <= x < p_ws p -> 0 <= y < p_hs p -> x mod len l = 0 -> y mod len l = 0 ->
    (forall a b, 0 <= a < p_ws p -> 0 <= b < p_hs p -> block x y (len l) a b -> u_level (unit_at p a b) <= l) ->
    (forall dir a b, 0 <= a < p_ws p -> 0 <= b < p_hs p -> block x y (len l) a b -> flag_at p f dir a b = 0) ->
    res p (block x y (len l)) f (set_edges n p l x y f).
  Proof.
    induction n as [|n IH]; intros l x y f Hn Hl Hx Hy Mx My LV Z0.
    - assert (l = 3) by lia. subst l. change (len 3) with 1 in *. cbn [set_edges]. fold (unit_at p x y).
      assert (E : u_level (unit_at p x y) = 3). { pose proof (LV x y Hx Hy ltac:(unfold block; lia)). destruct W as (_ & _ & _ & W4 & _). specialize (W4 x y Hx Hy). cbv zeta in W4. lia. }
      change 1 with (len 3). apply leaf; auto. change (len 3) with 1. intros dir a b In. apply Z0; unfold block in In |- *; lia.
    - assert (L0 : 0 < len l) by (unfold len; apply Z.pow_pos_nonneg; lia). cbn [set_edges]. fold (unit_at p x y). destruct (Z.ltb_spec (u_level (unit_at p x y)) l) as [Hlt|Hge].
      + assert (EH : Z.shiftl 1 (l - 4) = len (l - 1)). { rewrite Z.shiftl_mul_pow2 by lia. unfold len. replace (l - 1 - 3) with (l - 4) by lia. lia. }
        rewrite EH. assert (E2 : len l = 2 * len (l - 1)). { unfold len. replace (l - 3) with (Z.succ (l - 1 - 3)) by lia. apply Z.pow_succ_r. lia. }
        set (h := len (l - 1)) in *. assert (H0 : 0 < h) by lia.
        assert (QL : forall a b, 0 <= a < p_ws p -> 0 <= b < p_hs p -> block x y (len l) a b -> u_level (unit_at p a b) <= l - 1).
        { intros a b Pa Pb In. pose proof (LV a b Pa Pb In) as Q. destruct (Z.eq_dec (u_level (unit_at p a b)) l) as [E|E]; [exfalso|lia].
          pose proof W as (_ & _ & _ & W4 & _). specialize (W4 a b Pa Pb). cbv zeta in W4. unfold side8 in W4. rewrite E in W4. fold (len l) in W4.
          destruct W4 as (_ & _ & _ & _ & C). destruct In as [Ia Ib].
          destruct (in_aligned (len l) x a L0 Mx Ia) as (Q1 & _ & Q2). destruct (in_aligned (len l) y b L0 My Ib) as (Q3 & _ & Q4).
          rewrite Q1, Q2, Q3, Q4 in C. specialize (C 0 0 ltac:(lia) ltac:(lia)). rewrite !Z.add_0_r in C. destruct C as [C _]. lia. }
        assert (SUB : forall dx dy g, (dx = 0 \/ dx = h) -> (dy = 0 \/ dy = h) ->
          (forall dir a b, 0 <= a < p_ws p -> 0 <= b < p_hs p -> block (x + dx) (y + dy) h a b -> flag_at p g dir a b = 0) ->
          res p (block (x + dx) (y + dy) h) g (if (p_ws p <=? x + dx) || (p_hs p <=? y + dy) then g else set_edges n p (l - 1) (x + dx) (y + dy) g)).
        { intros dx dy g Dx Dy G0. destruct (Z.leb_spec (p_ws p) (x + dx)) as [O1|O1]; [apply res_none; unfold block; lia|].
          destruct (Z.leb_spec (p_hs p) (y + dy)) as [O2|O2]; [apply res_none; unfold block; lia|]. cbn [orb].
          assert (MM : forall v d, v mod len l = 0 -> d = 0 \/ d = h -> (v + d) mod h = 0).
          { intros v d M D. rewrite E2 in M. apply Z.mod_divide in M; [|lia]. destruct M as [k Hk]. subst v. destruct D as [-> | ->].
            - replace (k * (2 * h) + 0) with ((2 * k) * h) by lia. apply Z.mod_mul. lia.
            - replace (k * (2 * h) + h) with ((2 * k + 1) * h) by lia. apply Z.mod_mul. lia. }
          apply IH; try lia; fold h; auto; [lia..|]. intros a b Pa Pb In. apply QL; auto. unfold block in *. lia. }
        (* the four quarters *)
        assert (NZ : forall dx dy D g, res p D f g -> (dx = 0 \/ dx = h) -> (dy = 0 \/ dy = h) -> (forall a b, D a b -> ~ block (x + dx) (y + dy) h a b) ->
          forall dir a b, 0 <= a < p_ws p -> 0 <= b < p_hs p -> block (x + dx) (y + dy) h a b -> flag_at p g dir a b = 0).
        { intros dx dy D g [_ R2] Dx Dy DJ dir a b Pa Pb In. rewrite R2; [apply Z0; auto; unfold block in *; lia|exact Pa|]. intros _ I1. apply (DJ a b I1 In). }
        pose proof (SUB 0 0 f ltac:(lia) ltac:(lia) ltac:(intros; apply Z0; auto; unfold block in *; lia)) as R1.
        match type of R1 with res _ _ _ ?g => set (f1 := g) in * end.
        pose proof (SUB h 0 f1 ltac:(lia) ltac:(lia) ltac:(apply (NZ h 0 _ f1 R1); [lia..|unfold block; intros; lia])) as R2.
        match type of R2 with res _ _ _ ?g => set (f2 := g) in * end.
        assert (R12 : res p (fun a b => block x y (len l) a b /\ b < y + h) f f2).
        { eapply res_seq; [intros; apply block_dec| |exact R1|exact R2]. intros a b _ _. unfold block. lia. }
        pose proof (SUB 0 h f2 ltac:(lia) ltac:(lia) ltac:(apply (NZ 0 h _ f2 R12); [lia..|unfold block; intros; lia])) as R3.
        match type of R3 with res _ _ _ ?g => set (f3 := g) in * end.
        assert (R13 : res p (fun a b => block x y (len l) a b /\ (b < y + h \/ a < x + h)) f f3).
        { eapply res_seq; [intros; apply block_dec| |exact R12|exact R3]. intros a b _ _. unfold block. lia. }
        pose proof (SUB h h f3 ltac:(lia) ltac:(lia) ltac:(apply (NZ h h _ f3 R13); [lia..|unfold block; intros; lia])) as R4.
        eapply res_seq; [intros; apply block_dec| |exact R13|exact R4]. intros a b _ _. unfold block. lia.
      + assert (E : u_level (unit_at p x y) = l) by (pose proof (LV x y Hx Hy ltac:(unfold block; lia)); lia).
        apply leaf; auto. destruct (unit_block l x y Hx Hy E Mx My) as (B1 & B2 & B3 & B4 & B5). intros dir a b In. apply Z0; unfold block in In |- *; lia.
  Qed.

  (** One LCU. *)
  Theorem lcu_flags lx ly f : let N := 2 ^ (p_lv p - 3) in 0 <= lx -> 0 <= ly -> lx * N < p_ws p -> ly * N < p_hs p ->
    (forall dir a b, 0 <= a < p_ws p -> 0 <= b < p_hs p -> block (lx * N) (ly * N) N a b -> flag_at p f dir a b = 0) ->
    res p (block (lx * N) (ly * N) N) f (set_edges (Z.to_nat (p_lv p - 3)) p (p_lv p) (lx * N) (ly * N) f).
  Proof.
    cbv zeta. intros H1 H2 H3 H4 Z0. pose proof W as (W1 & W2 & W3 & W4 & W5). assert (N0 : 0 < 2 ^ (p_lv p - 3)) by (apply Z.pow_pos_nonneg; lia).
    assert (P1 : 0 <= lx * 2 ^ (p_lv p - 3)) by (apply Z.mul_nonneg_nonneg; lia). assert (P2 : 0 <= ly * 2 ^ (p_lv p - 3)) by (apply Z.mul_nonneg_nonneg; lia).
    apply (set_edges_ok (Z.to_nat (p_lv p - 3)) (p_lv p)).
    - lia.
    - lia.
    - split; assumption.
    - split; assumption.
    - unfold len. apply Z.mod_mul. lia.
    - unfold len. apply Z.mod_mul. lia.
    - intros a b Pa Pb _. specialize (W4 a b Pa Pb). cbv zeta in W4. lia.
    - exact Z0.
  Qed.
End Walk.
