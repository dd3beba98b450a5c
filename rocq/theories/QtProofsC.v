(** The quadtree: places of coefficients, whole pictures. *)
From Coq Require Import ZArith List Bool Lia.
From Verif Require Import CBase CBaseProofs MemModel MemProofs SaoModel SaoProofs QtModel QtSpec QtProofs QtProofsB.
Import ListNotations.
Open Scope Z_scope.

(** *** Places of coefficients. *)
Definition un_z (q : Z) : Z * Z :=
  let b k := q / 2 ^ k mod 2 in (b 0 + 2 * b 2 + 4 * b 4, b 1 + 2 * b 3 + 4 * b 5).
Definition upto (n : nat) : list Z := map Z.of_nat (seq 0 n).
Lemma in_upto : forall n q, 0 <= q < Z.of_nat n -> In q (upto n).
Proof. intros n q H. unfold upto. apply in_map_iff. exists (Z.to_nat q). split; [lia|]. apply in_seq. lia. Qed.
Lemma un_z_order : forall x y, 0 <= x < 8 -> 0 <= y < 8 -> un_z (z_order x y) = (x, y).
Proof.
  intros x y Hx Hy.
  assert (C: forallb (fun x => forallb (fun y => (fst (un_z (z_order x y)) =? x) && (snd (un_z (z_order x y)) =? y)) (upto 8)) (upto 8) = true) by (vm_compute; reflexivity).
  rewrite forallb_forall in C. specialize (C x (in_upto 8 x Hx)). rewrite forallb_forall in C. specialize (C y (in_upto 8 y Hy)).
  rewrite andb_true_iff, !Z.eqb_eq in C. destruct (un_z (z_order x y)). cbn in C. destruct C as [-> ->]. reflexivity.
Qed.
Lemma z_block : forall l a b q, 3 <= l <= 6 -> 0 <= a -> 0 <= b -> a mod 2 ^ (l - 3) = 0 -> b mod 2 ^ (l - 3) = 0 ->
  a + 2 ^ (l - 3) <= 8 -> b + 2 ^ (l - 3) <= 8 -> z_order a b <= q < z_order a b + 4 ^ (l - 3) ->
  exists i j, 0 <= i < 2 ^ (l - 3) /\ 0 <= j < 2 ^ (l - 3) /\ z_order (a + i) (b + j) = q.
Proof.
  intros l a b q Hl Ha Hb Ma Mb La Lb Hq.
  assert (C: forallb (fun l => forallb (fun a => forallb (fun b => forallb (fun k =>
     negb ((a mod 2 ^ (l - 3) =? 0) && (b mod 2 ^ (l - 3) =? 0) && (k <? 4 ^ (l - 3)))
     || (let '(x, y) := un_z (z_order a b + k) in (a <=? x) && (x <? a + 2 ^ (l - 3)) && (b <=? y) && (y <? b + 2 ^ (l - 3)) && (z_order x y =? z_order a b + k)))
       (upto 64)) (upto 8)) (upto 8)) [3; 4; 5; 6] = true) by (vm_compute; reflexivity).
  assert (P1: 0 < 2 ^ (l - 3)) by (apply Z.pow_pos_nonneg; lia).
  assert (P4: 4 ^ (l - 3) <= 64) by (change 64 with (4 ^ 3); apply Z.pow_le_mono_r; lia).
  rewrite forallb_forall in C. specialize (C l ltac:(cbn; lia)). rewrite forallb_forall in C. specialize (C a (in_upto 8 a ltac:(lia))).
  rewrite forallb_forall in C. specialize (C b (in_upto 8 b ltac:(lia))). rewrite forallb_forall in C. specialize (C (q - z_order a b) (in_upto 64 (q - z_order a b) ltac:(lia))).
  rewrite Ma, Mb in C. rewrite (proj2 (Z.ltb_lt (q - z_order a b) (4 ^ (l - 3)))) in C by lia. cbn [Z.eqb andb negb orb] in C.
  replace (z_order a b + (q - z_order a b)) with q in C by lia. destruct (un_z q) as [x y].
  rewrite !andb_true_iff, !Z.leb_le, !Z.ltb_lt, Z.eqb_eq in C. exists (x - a), (y - b). replace (a + (x - a)) with x by lia. replace (b + (y - b)) with y by lia. lia.
Qed.
Lemma z_range : forall x y, 0 <= x < 8 -> 0 <= y < 8 -> 0 <= z_order x y < 64.
Proof.
  intros x y Hx Hy.
  assert (C: forallb (fun x => forallb (fun y => (0 <=? z_order x y) && (z_order x y <? 64)) (upto 8)) (upto 8) = true) by (vm_compute; reflexivity).
  rewrite forallb_forall in C. specialize (C x (in_upto 8 x Hx)). rewrite forallb_forall in C. specialize (C y (in_upto 8 y Hy)).
  rewrite andb_true_iff, Z.leb_le, Z.ltb_lt in C. exact C.
Qed.
Lemma z_fits : forall l L a b, 3 <= l <= L -> L <= 6 -> 0 <= a -> 0 <= b -> a mod 2 ^ (l - 3) = 0 -> b mod 2 ^ (l - 3) = 0 ->
  a + 2 ^ (l - 3) <= 2 ^ (L - 3) -> b + 2 ^ (l - 3) <= 2 ^ (L - 3) -> 0 <= z_order a b /\ z_order a b + 4 ^ (l - 3) <= 4 ^ (L - 3).
Proof.
  intros l L a b Hl HL Ha Hb Ma Mb La Lb.
  assert (C: forallb (fun L => forallb (fun l => forallb (fun a => forallb (fun b =>
     negb ((l <=? L) && (a mod 2 ^ (l - 3) =? 0) && (b mod 2 ^ (l - 3) =? 0) && (a + 2 ^ (l - 3) <=? 2 ^ (L - 3)) && (b + 2 ^ (l - 3) <=? 2 ^ (L - 3)))
     || ((0 <=? z_order a b) && (z_order a b + 4 ^ (l - 3) <=? 4 ^ (L - 3)))) (upto 8)) (upto 8)) [3; 4; 5; 6]) [3; 4; 5; 6] = true) by (vm_compute; reflexivity).
  assert (P1: 0 < 2 ^ (l - 3)) by (apply Z.pow_pos_nonneg; lia).
  assert (P8: 2 ^ (L - 3) <= 8) by (change 8 with (2 ^ 3); apply Z.pow_le_mono_r; lia).
  rewrite forallb_forall in C. specialize (C L ltac:(cbn; lia)). rewrite forallb_forall in C. specialize (C l ltac:(cbn; lia)). rewrite forallb_forall in C. specialize (C a (in_upto 8 a ltac:(lia))).
  rewrite forallb_forall in C. specialize (C b (in_upto 8 b ltac:(lia))). rewrite Ma, Mb in C.
  rewrite (proj2 (Z.leb_le l L)), (proj2 (Z.leb_le (a + _) _) La), (proj2 (Z.leb_le (b + _) _) Lb) in C by lia. cbn [Z.eqb andb negb orb] in C.
  rewrite andb_true_iff, !Z.leb_le in C. exact C.
Qed.
Lemma sub_mod : forall l L x s, 3 <= l <= L -> x mod 2 ^ l = 0 -> s mod 2 ^ (L - 3) = 0 -> (x / 8 - s) mod 2 ^ (l - 3) = 0 /\ x = 8 * (x / 8).
Proof.
  intros l L x s Hl Hx Hs. assert (P1: 0 < 2 ^ (l - 3)) by (apply Z.pow_pos_nonneg; lia). assert (P2: 0 < 2 ^ (L - 3)) by (apply Z.pow_pos_nonneg; lia).
  rewrite (pow8 l) in Hx by lia. apply Z.mod_divide in Hx; [|lia]. destruct Hx as [k Hx]. apply Z.mod_divide in Hs; [|lia]. destruct Hs as [c ->].
  assert (E: x / 8 = k * 2 ^ (l - 3)) by (rewrite Hx; replace (k * (8 * 2 ^ (l - 3))) with (k * 2 ^ (l - 3) * 8) by ring; apply Z.div_mul; lia).
  rewrite E. split; [|lia]. apply Z.mod_divide; [lia|]. exists (k - c * 2 ^ (L - l)).
  replace (L - 3) with ((L - l) + (l - 3)) by lia. rewrite Z.pow_add_r by lia. ring.
Qed.
Lemma places_disjoint : forall sx sy (L : nat) us P, (4 <= L <= 6)%nat -> sx mod 2 ^ (Z.of_nat L - 3) = 0 -> sy mod 2 ^ (Z.of_nat L - 3) = 0 ->
  covers_once us P -> Forall (good_z sx sy L) us ->
  (forall u, In u us -> 0 <= v_z u /\ v_z u + 4 ^ (v_level u - 3) <= 4 ^ (Z.of_nat L - 3)) /\
  (forall i j u v, nth_error us i = Some u -> nth_error us j = Some v -> i <> j -> v_z u + 4 ^ (v_level u - 3) <= v_z v \/ v_z v + 4 ^ (v_level v - 3) <= v_z u).
Proof.
  intros sx sy L us P HL HX HY [CA CB] GZ. rewrite Forall_forall in GZ.
  assert (FA: forall u, In u us -> let a := v_x u / 8 - sx in let b := v_y u / 8 - sy in let n := 2 ^ (v_level u - 3) in
    3 <= v_level u <= Z.of_nat L /\ 0 <= a /\ 0 <= b /\ a mod n = 0 /\ b mod n = 0 /\ a + n <= 2 ^ (Z.of_nat L - 3) /\ b + n <= 2 ^ (Z.of_nat L - 3) /\ v_z u = z_order a b /\
    v_x u = 8 * (v_x u / 8) /\ v_y u = 8 * (v_y u / 8) /\ 2 ^ v_level u = 8 * n).
  { intros u Hu a b n. destruct (GZ u Hu) as [[[[L3 L6] [Mx [My [Px Py]]]] LL] [[I1 [I2 [I3 I4]]] Ez]].
    destruct (sub_mod (v_level u) (Z.of_nat L) (v_x u) sx ltac:(lia) Mx HX) as [A1 A2]. destruct (sub_mod (v_level u) (Z.of_nat L) (v_y u) sy ltac:(lia) My HY) as [B1 B2].
    assert (PL := pow8 (v_level u) L3). assert (PLL := pow8 (Z.of_nat L) ltac:(lia)). fold n in PL, A1, B1. fold a in A1, Ez. fold b in B1, Ez.
    repeat split; try assumption; try lia; unfold a, b; lia. }
  split.
  - intros u Hu. destruct (FA u Hu) as [F1 [F2 [F3 [F4 [F5 [F6 [F7 [F8 _]]]]]]]]. rewrite F8. apply z_fits; try assumption; lia.
  - intros i j u v Hi Hj NE.
    assert (Iu := nth_error_In _ _ Hi). assert (Iv := nth_error_In _ _ Hj).
    destruct (FA u Iu) as [F1 [F2 [F3 [F4 [F5 [F6 [F7 [F8 [F9 [F10 F11]]]]]]]]]]. destruct (FA v Iv) as [G1 [G2 [G3 [G4 [G5 [G6 [G7 [G8 [G9 [G10 G11]]]]]]]]]].
    assert (P8: 2 ^ (Z.of_nat L - 3) <= 8) by (change 8 with (2 ^ 3); apply Z.pow_le_mono_r; lia).
    assert (Q1: 0 < 4 ^ (v_level u - 3)) by (apply Z.pow_pos_nonneg; lia). assert (Q2: 0 < 4 ^ (v_level v - 3)) by (apply Z.pow_pos_nonneg; lia).
    destruct (Z.le_gt_cases (v_z u + 4 ^ (v_level u - 3)) (v_z v)) as [ | A]; [left; assumption|]. right.
    destruct (Z.le_gt_cases (v_z v + 4 ^ (v_level v - 3)) (v_z u)) as [ | B]; [assumption|]. exfalso.
    set (q := Z.max (v_z u) (v_z v)).
    destruct (z_block (v_level u) _ _ q ltac:(lia) F2 F3 F4 F5 ltac:(lia) ltac:(lia) ltac:(rewrite <- F8; unfold q; lia)) as [i1 [j1 [I1 [J1 E1]]]].
    destruct (z_block (v_level v) _ _ q ltac:(lia) G2 G3 G4 G5 ltac:(lia) ltac:(lia) ltac:(rewrite <- G8; unfold q; lia)) as [i2 [j2 [I2 [J2 E2]]]].
    assert (U1 := un_z_order _ _ ltac:(split; [apply Z.add_nonneg_nonneg; [exact F2|apply I1]|lia]) ltac:(split; [apply Z.add_nonneg_nonneg; [exact F3|apply J1]|lia])).
    assert (U2 := un_z_order _ _ ltac:(split; [apply Z.add_nonneg_nonneg; [exact G2|apply I2]|lia]) ltac:(split; [apply Z.add_nonneg_nonneg; [exact G3|apply J2]|lia])).
    rewrite E1 in U1. rewrite E2 in U2. rewrite U1 in U2. apply pair_equal_spec in U2. destruct U2 as [EA EB].
    set (X := v_x u + 8 * i1). set (Y := v_y u + 8 * j1).
    assert (Xu: in_unit u X Y) by (unfold in_unit, X, Y; lia).
    assert (Xv: in_unit v X Y) by (unfold in_unit, X, Y; lia).
    destruct (CB X Y (CA u X Y Iu Xu)) as [k [w [_ [_ UU]]]]. apply NE. rewrite (UU i u Hi Xu), (UU j v Hj Xv). reflexivity.
Qed.
