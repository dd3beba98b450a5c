From Coq Require Import ZArith List Bool Lia.
From Verif Require Import CBase CBaseProofs MemModel MemProofs UtilModel MvProofs LfModel LfSpec.
Import ListNotations.
Open Scope Z_scope.

Lemma strength_range : forall beta s, 0 <= strength beta s <= 4.
Proof.
  intros. unfold strength. cbv zeta.
  repeat match goal with |- context [if ?x then _ else _] => destruct x end; lia.
Qed.
Lemma strength_of_range : forall c beta s, 0 <= strength_of c beta s <= 4 /\ (c = true -> strength_of c beta s <= 3).
Proof. intros. unfold strength_of. pose proof (strength_range beta s). destruct c; split; try lia; discriminate. Qed.

Lemma fs_ok : forall c beta s, lf_fs c beta (s (-3)) (s (-2)) (s (-1)) (s 0) (s 1) (s 2) = strength_of c beta s.
Proof.
  intros c beta s. unfold lf_fs, strength_of, strength. cbv zeta. rewrite !c_abs_eq.
  replace (Z.abs (s 0 - s 1)) with (Z.abs (s 1 - s 0)) by lia. replace (Z.abs (s 0 - s 2)) with (Z.abs (s 2 - s 0)) by lia.
  rewrite (Z.eqb_sym (s (-1)) (s (-2))).
  rewrite (andb_comm (s 1 =? s 0)).
  destruct (Z.abs (s (-2) - s (-1)) <? beta), (Z.abs (s (-3) - s (-1)) <? beta),
    (Z.abs (s 1 - s 0) <? beta), (Z.abs (s 2 - s 0) <? beta), (Z.abs (s (-2) - s 1) <? beta),
    ((s (-2) =? s (-1)) && (s 1 =? s 0)), c; reflexivity.
Qed.

Definition weights_ok (w : list Z) : Prop :=
  exists a b c d e f, w = [a; b; c; d; e; f] /\ 0 <= a /\ 0 <= b /\ 0 <= c /\ 0 <= d /\ 0 <= e /\ 0 <= f /\ 0 < a + b + c + d + e + f.

Lemma six : forall j, -3 <= j <= 2 -> j = -3 \/ j = -2 \/ j = -1 \/ j = 0 \/ j = 1 \/ j = 2.
Proof. lia. Qed.
Lemma five : forall j, 0 <= j <= 4 -> j = 0 \/ j = 1 \/ j = 2 \/ j = 3 \/ j = 4.
Proof. lia. Qed.

Lemma weights_wok : forall fs j w, 0 <= fs <= 4 -> -3 <= j <= 2 -> weights fs j = Some w -> weights_ok w.
Proof.
  intros fs j w Hf Hj E. apply six in Hj. apply five in Hf.
  destruct Hf as [-> | [-> | [-> | [-> | ->]]]]; destruct Hj as [-> | [-> | [-> | [-> | [-> | ->]]]]];
  vm_compute in E; try discriminate E; apply Some_inj in E; subst w; unfold weights_ok;
  do 6 eexists; (split; [reflexivity|lia]).
Qed.

Lemma wmean_range : forall w s lo hi, weights_ok w -> (forall j, -3 <= j <= 2 -> lo <= s j <= hi) -> lo <= wmean w s <= hi.
Proof.
  intros w s lo hi (a & b & c & d & e & f & -> & Ha & Hb & Hc & Hd & He & Hf & Ht) H.
  unfold wmean, dot, total. cbn [combine map fst snd fold_right]. rewrite !Z.add_0_r.
  pose proof (H (-3) ltac:(lia)). pose proof (H (-2) ltac:(lia)). pose proof (H (-1) ltac:(lia)).
  pose proof (H 0 ltac:(lia)). pose proof (H 1 ltac:(lia)). pose proof (H 2 ltac:(lia)). clear H.
  generalize dependent (s (-3)). generalize dependent (s (-2)). generalize dependent (s (-1)).
  generalize dependent (s 0). generalize dependent (s 1). generalize dependent (s 2). intros.
  set (T := a + (b + (c + (d + (e + f))))). set (D := a * z4 + (b * z3 + (c * z2 + (d * z1 + (e * z0 + f * z))))).
  assert (L: lo * T <= D) by (unfold T, D; nia). assert (U: D <= hi * T) by (unfold T, D; nia).
  assert (0 < T) by (unfold T; lia). clearbody T D. split.
  - apply Z.div_le_lower_bound; [lia|nia].
  - assert ((2 * D + T) / (2 * T) < hi + 1); [|lia]. apply Z.div_lt_upper_bound; [lia|nia].
Qed.

Lemma filtered_range : forall c alpha beta flag s lo hi j, -3 <= j <= 2 ->
  (forall j, -3 <= j <= 2 -> lo <= s j <= hi) -> lo <= filtered c alpha beta flag s j <= hi.
Proof.
  intros c alpha beta flag s lo hi j Hj H. unfold filtered. cbv zeta.
  destruct (flag && (Z.abs (s 0 - s (-1)) <? alpha) && (1 <? Z.abs (s 0 - s (-1)))); [|now apply H].
  destruct (weights (strength_of c beta s) j) as [w|] eqn:W; [|now apply H].
  apply wmean_range; [|assumption]. eapply weights_wok; [| |exact W]; [|assumption]. apply strength_of_range.
Qed.

Lemma to_pel_id : forall bits v, 0 <= v < 2 ^ bits -> to_pel bits v = v.
Proof. intros. unfold to_pel. now apply Z.mod_small. Qed.

(** One store with the cast: the stored value is a weighted mean of samples in range. *)
Lemma pel_wmean : forall bits w s v, weights_ok w -> (forall j, -3 <= j <= 2 -> 0 <= s j < 2 ^ bits) ->
  v = wmean w s -> to_pel bits v = wmean w s.
Proof.
  intros bits w s v Hw Hs ->. apply to_pel_id.
  pose proof (wmean_range w s 0 (2 ^ bits - 1) Hw). cut (0 <= wmean w s <= 2 ^ bits - 1); [lia|].
  apply H. intros j Hj. specialize (Hs j Hj). lia.
Qed.

Lemma wok : forall a b c d e f, 0 <= a -> 0 <= b -> 0 <= c -> 0 <= d -> 0 <= e -> 0 <= f -> 0 < a + b + c + d + e + f ->
  weights_ok [a; b; c; d; e; f].
Proof. intros. exists a, b, c, d, e, f. repeat split; auto. Qed.

Lemma wmean_shift : forall w s k t, 0 < k -> 2 * t = 2 ^ k -> total w = 2 ^ k -> wmean w s = Z.shiftr (dot w s + t) k.
Proof.
  intros w s k t Hk Ht E. unfold wmean. rewrite E, Z.shiftr_div_pow2 by lia.
  replace (2 * dot w s + 2 ^ k) with (2 * (dot w s + t)) by lia.
  assert (0 < 2 ^ k) by (apply Z.pow_pos_nonneg; lia). now rewrite Z.div_mul_cancel_l by lia.
Qed.

Ltac shifts := rewrite !Z.shiftl_mul_pow2 by lia;
  change (2 ^ 1) with 2 in *; change (2 ^ 2) with 4 in *; change (2 ^ 3) with 8 in *.

Lemma line_ok : forall bits c inc alpha beta flag src m, 1 <= inc ->
  (forall j, -3 <= j <= 2 -> 0 <= m (src + j * inc) < 2 ^ bits) ->
  let m' := lf_line bits c inc alpha beta flag src m in
  let s := fun j => m (src + j * inc) in
  (forall j, -3 <= j <= 2 -> m' (src + j * inc) = filtered c alpha beta flag s j) /\
  (forall p, (forall j, -3 <= j <= 2 -> p <> src + j * inc) -> m' p = m p).
Proof.
  intros bits c inc alpha beta flag src m Hi Hs. cbv zeta.
  remember (fun j => m (src + j * inc)) as s eqn:Ds.
  assert (Es: forall j, m (src + j * inc) = s j) by (intros; subst s; reflexivity).
  unfold lf_line. cbv zeta.
  replace (src - (inc + Z.shiftl inc 1)) with (src + -3 * inc) by (rewrite Z.shiftl_mul_pow2 by lia; lia).
  replace (src - Z.shiftl inc 1) with (src + -2 * inc) by (rewrite Z.shiftl_mul_pow2 by lia; lia).
  replace (src + Z.shiftl inc 1) with (src + 2 * inc) by (rewrite Z.shiftl_mul_pow2 by lia; lia).
  replace (src - inc) with (src + -1 * inc) by lia.
  replace (src + inc) with (src + 1 * inc) by lia.
  replace (m src) with (s 0) by (rewrite <- Es; f_equal; lia).
  rewrite !Es, fs_ok, c_abs_eq. unfold filtered. cbv zeta.
  destruct (flag && (Z.abs (s 0 - s (-1)) <? alpha) && (1 <? Z.abs (s 0 - s (-1)))) eqn:G; [|split; [intros j Hj; apply Es|reflexivity]].
  destruct (strength_of_range c beta s) as [SR _]. apply five in SR. set (fs := strength_of c beta s) in *. clearbody fs.
  assert (W: forall w v, weights_ok w -> v = wmean w s -> to_pel bits v = wmean w s).
  { intros w v Hw. apply pel_wmean; [assumption|]. intros j Hj. rewrite <- Es. now apply Hs. }
  clear Ds Hs G.
  Ltac get i := first [rewrite (upd_same _ i) | rewrite (upd_other _ i) by lia].
  Ltac rest Es := intros p Hp; pose proof (Hp (-3) ltac:(lia)); pose proof (Hp (-2) ltac:(lia));
    pose proof (Hp (-1) ltac:(lia)); pose proof (Hp 0 ltac:(lia)); pose proof (Hp 1 ltac:(lia)); pose proof (Hp 2 ltac:(lia));
    rewrite ?upd_other by lia; reflexivity.
  Ltac look Es := repeat first [rewrite upd_same | rewrite upd_other by lia]; try apply Es.
  Ltac mean W kk tt := apply W; [apply wok; lia|]; rewrite (wmean_shift _ _ kk tt) by (reflexivity || lia);
    f_equal; rewrite ?Z.shiftl_mul_pow2 by lia; unfold dot; cbn [combine map fst snd fold_right]; lia.
  destruct SR as [-> | [-> | [-> | [-> | ->]]]]; cbn [Z.eqb Pos.eqb].
  - split; [|reflexivity]. intros j Hj. apply six in Hj.
    destruct Hj as [-> | [-> | [-> | [-> | [-> | ->]]]]]; apply Es.
  - split; [|rest Es]. intros j Hj. apply six in Hj.
    destruct Hj as [-> | [-> | [-> | [-> | [-> | ->]]]]];
    match goal with |- _ = match ?w with _ => _ end => let w' := eval vm_compute in w in change w with w' end; cbv iota;
    [look Es | look Es | | | look Es | look Es].
    + rewrite upd_other by lia. rewrite upd_same. mean W 2 2.
    + replace (src + 0 * inc) with src by lia. rewrite upd_same. mean W 2 2.
  - split; [|rest Es]. intros j Hj. apply six in Hj.
    destruct Hj as [-> | [-> | [-> | [-> | [-> | ->]]]]];
    match goal with |- _ = match ?w with _ => _ end => let w' := eval vm_compute in w in change w with w' end; cbv iota;
    [look Es | look Es | | | look Es | look Es].
    + rewrite upd_other by lia. rewrite upd_same. mean W 4 8.
    + replace (src + 0 * inc) with src by lia. rewrite upd_same. mean W 4 8.
  - split; [|rest Es]. intros j Hj. apply six in Hj.
    destruct Hj as [-> | [-> | [-> | [-> | [-> | ->]]]]];
    match goal with |- _ = match ?w with _ => _ end => let w' := eval vm_compute in w in change w with w' end; cbv iota;
    [look Es | | | | | look Es].
    + rewrite upd_other by lia. rewrite upd_same. mean W 4 8.
    + rewrite !upd_other by lia. rewrite upd_same. mean W 4 8.
    + replace (src + 0 * inc) with src by lia. rewrite !upd_other by lia. rewrite upd_same. mean W 4 8.
    + rewrite upd_same. mean W 4 8.
  - split; [|rest Es]. intros j Hj. apply six in Hj.
    destruct Hj as [-> | [-> | [-> | [-> | [-> | ->]]]]];
    match goal with |- _ = match ?w with _ => _ end => let w' := eval vm_compute in w in change w with w' end; cbv iota.
    + rewrite !upd_other by lia. rewrite upd_same. mean W 3 4.
    + rewrite !upd_other by lia. rewrite upd_same. mean W 4 8.
    + rewrite !upd_other by lia. rewrite upd_same. mean W 5 16.
    + replace (src + 0 * inc) with src by lia. rewrite !upd_other by lia. rewrite upd_same. mean W 5 16.
    + rewrite !upd_other by lia. rewrite upd_same. mean W 4 8.
    + rewrite upd_same. mean W 3 4.
Qed.

Lemma filtered_ext : forall c alpha beta flag s t j, -3 <= j <= 2 ->
  (forall j, -3 <= j <= 2 -> s j = t j) -> filtered c alpha beta flag s j = filtered c alpha beta flag t j.
Proof.
  intros c alpha beta flag s t j Hj H. unfold filtered. cbv zeta.
  assert (E: strength beta s = strength beta t).
  { unfold strength. cbv zeta. rewrite !H by lia. reflexivity. }
  assert (E2: strength_of c beta s = strength_of c beta t) by (unfold strength_of; now rewrite E).
  rewrite E2, (H 0), (H (-1)), (H j) by lia.
  destruct (weights (strength_of c beta t) j) as [w|]; [|reflexivity].
  assert (D: dot w s = dot w t).
  { unfold dot. f_equal. apply map_ext_in. intros [a b] Hin. cbn [fst snd]. f_equal. apply H.
    apply in_combine_r in Hin. cbn in Hin. lia. }
  unfold wmean. now rewrite D.
Qed.


Lemma layout_inj : forall ptr inc k k' j j', layout ptr inc -> 0 <= k < 8 -> 0 <= k' < 8 -> -3 <= j <= 2 -> -3 <= j' <= 2 ->
  k * ptr + j * inc = k' * ptr + j' * inc -> k = k' /\ j = j'.
Proof.
  intros ptr inc k k' j j' [[-> H]|[-> H]] Hk Hk' Hj Hj' E.
  - assert (j = j') by nia. lia.
  - assert (k = k') by nia. lia.
Qed.

Lemma edge_ok : forall bits c ptr inc alpha beta f0 f1 src m, layout ptr inc ->
  (forall k j, 0 <= k < lines c -> -3 <= j <= 2 -> 0 <= m (src + k * ptr + j * inc) < 2 ^ bits) ->
  let m' := lf_edge bits c ptr inc alpha beta f0 f1 src m in
  (forall k j, 0 <= k < lines c -> -3 <= j <= 2 ->
     m' (src + k * ptr + j * inc) = filtered c alpha beta (line_flag c f0 f1 k) (fun i => m (src + k * ptr + i * inc)) j) /\
  (forall p, (forall k j, 0 <= k < lines c -> -3 <= j <= 2 -> p <> src + k * ptr + j * inc) -> m' p = m p).
Proof.
  intros bits c ptr inc alpha beta f0 f1 src m HL Hs. cbv zeta. unfold lf_edge.
  assert (Hi: 1 <= inc) by (destruct HL; lia).
  set (n := if c then 4%nat else 8%nat).
  assert (Hn: Z.of_nat n = lines c) by (unfold n, lines; destruct c; reflexivity).
  assert (L8: lines c <= 8) by (unfold lines; destruct c; lia).
  set (f := fun k m => _).
  assert (K: (fun i (m' : mem) =>
     (forall k j, 0 <= k < i -> -3 <= j <= 2 ->
        m' (src + k * ptr + j * inc) = filtered c alpha beta (line_flag c f0 f1 k) (fun i => m (src + k * ptr + i * inc)) j) /\
     (forall k j, i <= k < lines c -> -3 <= j <= 2 -> m' (src + k * ptr + j * inc) = m (src + k * ptr + j * inc)) /\
     (forall p, (forall k j, 0 <= k < lines c -> -3 <= j <= 2 -> p <> src + k * ptr + j * inc) -> m' p = m p))
     (Z.of_nat n) (loop n f m)).
  { apply loop_inv.
    - split; [intros; lia|]. split; intros; reflexivity.
    - intros i mm Hi' (A & B & C). rewrite Hn in Hi'. unfold f. cbv zeta.
      replace (if (if c then 2 * i else i) <? 4 then f0 else f1) with (line_flag c f0 f1 i).
      2:{ unfold line_flag, lines. destruct c; [destruct (2 * i <? 4); reflexivity|].
          destruct (2 * i <? 8) eqn:E1, (i <? 4) eqn:E2; try reflexivity; lia. }
      assert (R: forall j, -3 <= j <= 2 -> 0 <= mm (src + i * ptr + j * inc) < 2 ^ bits).
      { intros j Hj. rewrite B by lia. apply Hs; lia. }
      destruct (line_ok bits c inc alpha beta (line_flag c f0 f1 i) (src + i * ptr) mm Hi R) as [P Q]. cbv zeta in P, Q.
      split; [|split].
      + intros k j Hk Hj. destruct (Z.eq_dec k i) as [->|N].
        * rewrite P by assumption. apply filtered_ext; [assumption|]. intros j' Hj'. apply B; lia.
        * rewrite Q; [apply A; lia|]. intros j' Hj' E.
          destruct (layout_inj ptr inc k i j j' HL ltac:(lia) ltac:(lia) Hj Hj' ltac:(lia)). lia.
      + intros k j Hk Hj. rewrite Q; [apply B; lia|]. intros j' Hj' E.
        destruct (layout_inj ptr inc k i j j' HL ltac:(lia) ltac:(lia) Hj Hj' ltac:(lia)). lia.
      + intros p Hp. rewrite Q; [now apply C|]. intros j Hj. apply Hp; lia. }
  destruct K as (A & B & C). rewrite Hn in A. split; assumption.
Qed.

(** Consequences. *)
Lemma filtered_off : forall c alpha beta flag s j,
  flag = false \/ Z.abs (s 0 - s (-1)) <= 1 \/ alpha <= Z.abs (s 0 - s (-1)) -> filtered c alpha beta flag s j = s j.
Proof.
  intros c alpha beta flag s j H. unfold filtered. cbv zeta.
  replace (flag && (Z.abs (s 0 - s (-1)) <? alpha) && (1 <? Z.abs (s 0 - s (-1)))) with false; [reflexivity|].
  symmetry. destruct flag; [|reflexivity]. destruct H as [H|H]; [discriminate|]. lia.
Qed.

Lemma filtered_chroma_local : forall alpha beta flag s j, j = -3 \/ j = 2 -> filtered true alpha beta flag s j = s j.
Proof.
  intros alpha beta flag s j Hj. unfold filtered. cbv zeta.
  destruct (flag && _ && _); [|reflexivity].
  destruct (strength_of_range true beta s) as [R1 R2]. specialize (R2 eq_refl).
  set (fs := strength_of true beta s) in *. clearbody fs.
  assert (H: fs = 0 \/ fs = 1 \/ fs = 2 \/ fs = 3) by lia.
  destruct Hj as [-> | ->]; destruct H as [-> | [-> | [-> | ->]]]; reflexivity.
Qed.

Lemma strength_mirror : forall beta s, strength beta (fun j => s (-1 - j)) = strength beta s.
Proof.
  intros. unfold strength. cbv zeta. cbn [Z.sub Z.opp Z.add Pos.add Z.pos_sub Pos.pred_double].
  change (-1 - -2) with 1. change (-1 - -1) with 0. change (-1 - -3) with 2. change (-1 - 1) with (-2).
  change (-1 - 0) with (-1). change (-1 - 2) with (-3).
  replace (Z.abs (s 1 - s (-2))) with (Z.abs (s (-2) - s 1)) by lia.
  rewrite (andb_comm (s 1 =? s 0)).
  destruct (Z.abs (s (-2) - s (-1)) <? beta), (Z.abs (s (-3) - s (-1)) <? beta),
    (Z.abs (s 1 - s 0) <? beta), (Z.abs (s 2 - s 0) <? beta), (Z.abs (s (-2) - s 1) <? beta); reflexivity.
Qed.

Lemma dot_rev : forall w s, weights_ok w -> dot (rev w) (fun j => s (-1 - j)) = dot w s.
Proof.
  intros w s (a & b & c & d & e & f & -> & _). unfold dot. cbn [rev app combine map fst snd fold_right].
  change (-1 - -2) with 1. change (-1 - -1) with 0. change (-1 - -3) with 2. change (-1 - 1) with (-2).
  change (-1 - 0) with (-1). change (-1 - 2) with (-3). lia.
Qed.
Lemma total_rev : forall w, weights_ok w -> total (rev w) = total w.
Proof. intros w (a & b & c & d & e & f & -> & _). unfold total. cbn [rev app fold_right]. lia. Qed.

Lemma weights_mirror : forall fs j, -3 <= j <= 2 -> weights fs (-1 - j) = option_map (@rev Z) (weights fs j).
Proof.
  intros fs j Hj. unfold weights. replace (-1 - (-1 - j)) with j by lia.
  destruct (j <? 0) eqn:E.
  - replace (-1 - j <? 0) with false by lia. reflexivity.
  - replace (-1 - j <? 0) with true by lia. destruct (weights_left fs (-1 - j)) as [w|]; [|reflexivity].
    cbn [option_map]. now rewrite rev_involutive.
Qed.

Lemma filtered_mirror : forall c alpha beta flag s j, -3 <= j <= 2 ->
  filtered c alpha beta flag (fun i => s (-1 - i)) j = filtered c alpha beta flag s (-1 - j).
Proof.
  intros c alpha beta flag s j Hj. unfold filtered. cbv zeta.
  change (-1 - 0) with (-1). change (-1 - -1) with 0.
  replace (Z.abs (s (-1) - s 0)) with (Z.abs (s 0 - s (-1))) by lia.
  destruct (flag && _ && _); [|reflexivity].
  replace (strength_of c beta (fun j0 => s (-1 - j0))) with (strength_of c beta s) by (unfold strength_of; now rewrite strength_mirror).
  rewrite weights_mirror by assumption. destruct (weights (strength_of c beta s) j) as [w|] eqn:W; cbn [option_map]; [|reflexivity].
  assert (Wk: weights_ok w) by (eapply weights_wok; [apply strength_of_range|exact Hj|exact W]).
  assert (Wr: weights_ok (rev w)).
  { destruct Wk as (a & b & c' & d & e & f & -> & ?). cbn [rev app]. apply wok; lia. }
  unfold wmean. rewrite <- (dot_rev (rev w) s) by exact Wr. rewrite total_rev by exact Wk. now rewrite rev_involutive.
Qed.
