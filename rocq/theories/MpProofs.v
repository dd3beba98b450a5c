(** Proofs: candidates of the spatial skip and direct modes. *)
From Coq Require Import ZArith List Bool Lia.
From Verif Require Import CBase MpModel MpSpec.
Import ListNotations.
Open Scope Z_scope.

Definition cnt {A : Type} (p : A -> bool) (l : list A) : Z := Z.of_nat (length (filter p l)).
Definition pick {A B : Type} (o : option A) (f : A -> B) (d : B) : B := match o with Some a => f a | None => d end.
Lemma cnt_snoc {A} (p : A -> bool) l n : cnt p (l ++ [n]) = cnt p l + (if p n then 1 else 0).
Proof. unfold cnt. rewrite filter_app, app_length. cbn [filter]. destruct (p n); cbn [length]; lia. Qed.
Lemma last_snoc {A} (p : A -> bool) l n : last_of p (l ++ [n]) = if p n then Some n else last_of p l.
Proof. unfold last_of. rewrite rev_unit. reflexivity. Qed.
Lemma first_snoc {A} (p : A -> bool) l n : first_of p (l ++ [n]) = match first_of p l with Some a => Some a | None => if p n then Some n else None end.
Proof. unfold first_of. induction l as [|a l IH]; cbn [app find]; [reflexivity|]. destruct (p a); [reflexivity|exact IH]. Qed.
Lemma cnt_nonneg {A} (p : A -> bool) l : 0 <= cnt p l.
Proof. unfold cnt. lia. Qed.
Lemma first_none {A} (p : A -> bool) l : first_of p l = None <-> cnt p l = 0.
Proof.
  unfold cnt, first_of. induction l as [|a l IH]; cbn [find filter]; [tauto|]. destruct (p a); cbn [length]; [split; [discriminate|lia]|exact IH].
Qed.
Lemma last_none {A} (p : A -> bool) l : last_of p l = None <-> cnt p l = 0.
Proof.
  induction l as [|a l IH] using rev_ind; [unfold last_of, cnt; cbn; tauto|]. rewrite last_snoc, cnt_snoc. pose proof (cnt_nonneg p l).
  destruct (p a); [split; [discriminate|lia]|rewrite Z.add_0_r; exact IH].
Qed.
Lemma one_same {A} (p : A -> bool) l : cnt p l = 1 -> first_of p l = last_of p l.
Proof.
  induction l as [|a l IH] using rev_ind; [reflexivity|]. rewrite last_snoc, cnt_snoc, first_snoc. destruct (p a).
  - intros H. assert (Z0 : cnt p l = 0) by lia. apply first_none in Z0. rewrite Z0. reflexivity.
  - rewrite Z.add_0_r. intros H. rewrite (IH H). destruct (last_of p l); reflexivity.
Qed.
Lemma several_cnt {A} (p : A -> bool) l : several p l = (1 <? cnt p l).
Proof. unfold several, cnt. destruct (Nat.leb_spec 2 (length (filter p l))), (Z.ltb_spec 1 (Z.of_nat (length (filter p l)))); try reflexivity; lia. Qed.
Lemma updf_same {A} (f : Z -> A) i v : updf f i v i = v.
Proof. unfold updf. rewrite Z.eqb_refl. reflexivity. Qed.
Lemma updf_other {A} (f : Z -> A) i j v : i <> j -> updf f i v j = f j.
Proof. intros H. unfold updf. destruct (Z.eqb_spec j i); [congruence|reflexivity]. Qed.

(** ** B pictures *)
Definition b_state (c : cand) (l : list nbr) (n0 : nbr) : Prop :=
  w_bid c = cnt two l /\ w_bw c = cnt back l /\ w_fw c = cnt forw l /\ w_sym c = cnt symm l /\
  w_bid2 c = pick (first_of two l) (fun n => n) n0 /\
  w_m1 c 1 = pick (last_of two l) n_m0 (0, 0) /\ w_m2 c 1 = pick (last_of two l) n_m1 (0, 0) /\
  w_m1 c 3 = pick (last_of symm l) n_m0 (0, 0) /\ w_m2 c 3 = pick (last_of symm l) n_m1 (0, 0) /\
  w_m1 c 4 = pick (last_of forw l) n_m0 (0, 0) /\ w_m2 c 4 = (0, 0) /\
  w_m1 c 2 = (0, 0) /\ w_m2 c 2 = pick (last_of back l) n_m1 (0, 0).
Lemma b_fold n0 l : b_state (fold_left bskip_step l (Cand (fun _ => 0) (fun _ => 0) (fun _ => (0, 0)) (fun _ => (0, 0)) 0 0 0 0 n0 n0)) l n0.
Proof.
  induction l as [|n l IH] using rev_ind; [repeat split|].
  rewrite fold_left_app. cbn [fold_left]. set (c := fold_left _ _ _) in *. clearbody c.
  destruct IH as (A1 & A2 & A3 & A4 & A5 & A6 & A7 & A8 & A9 & A10 & A11 & A12 & A13).
  unfold b_state. rewrite !cnt_snoc, !last_snoc, !first_snoc. unfold bskip_step.
  unfold two, back, forw, symm in *. pose proof (cnt_nonneg (fun n => n_dir n =? 3) l) as N3.
  destruct (Z.eqb_spec (n_dir n) 3) as [E|E]; [|destruct (Z.eqb_spec (n_dir n) 2) as [E2|E2]; [|destruct (Z.eqb_spec (n_dir n) 1) as [E1|E1]; [|destruct (Z.eqb_spec (n_dir n) 0) as [E0|E0]]]].
  - rewrite E. cbn [Z.eqb Pos.eqb w_bid w_bw w_fw w_sym w_bid2 w_m1 w_m2]. rewrite !updf_same, !updf_other by discriminate. rewrite A1, A2, A3, A4, A5, !Z.add_0_r.
    repeat (split; [reflexivity || assumption|]).
    split.
    { destruct (first_of _ l) eqn:F; cbn [pick].
      + destruct (Z.eqb_spec (cnt (fun n => n_dir n =? 3) l + 1) 1) as [Q|Q]; [|reflexivity]. exfalso.
        assert (Z0 : cnt (fun n => n_dir n =? 3) l = 0) by lia. apply first_none in Z0. congruence.
      + apply first_none in F. rewrite F. reflexivity. }
    repeat (split; [reflexivity || assumption|]). assumption.
  - rewrite E2. cbn [Z.eqb Pos.eqb w_bid w_bw w_fw w_sym w_bid2 w_m1 w_m2]. rewrite !updf_same, !updf_other by discriminate. rewrite A1, A2, A3, A4, A5, !Z.add_0_r.
    repeat (split; [reflexivity || assumption|]). split; [destruct (first_of _ l); reflexivity|]. repeat (split; [reflexivity || assumption|]). assumption.
  - rewrite E1. cbn [Z.eqb Pos.eqb w_bid w_bw w_fw w_sym w_bid2 w_m1 w_m2]. rewrite !updf_same, !updf_other by discriminate. rewrite A1, A2, A3, A4, A5, !Z.add_0_r.
    repeat (split; [reflexivity || assumption|]). split; [destruct (first_of _ l); reflexivity|]. repeat (split; [reflexivity || assumption|]). reflexivity.
  - cbn [Z.eqb Pos.eqb w_bid w_bw w_fw w_sym w_bid2 w_m1 w_m2]. rewrite !updf_same, !updf_other by discriminate. rewrite A1, A2, A3, A4, A5, !Z.add_0_r.
    repeat (split; [reflexivity || assumption|]). split; [destruct (first_of _ l); reflexivity|]. repeat (split; [reflexivity || assumption|]). assumption.
  - rewrite !Z.add_0_r. rewrite A5. repeat (split; [reflexivity || assumption|]). split; [destruct (first_of _ l); reflexivity|]. repeat (split; [reflexivity || assumption|]). assumption.
Qed.

Lemma b_spatial_ok : forall ns mode, 1 <= mode <= 4 -> bskip_spatial ns mode = b_spatial mode ns.
Proof.
  intros ns mode Hm. unfold bskip_spatial. cbv zeta. set (n0 := nth 0 ns _). pose proof (b_fold n0 ns) as B. set (c := fold_left _ _ _) in *. clearbody c n0.
  destruct B as (A1 & A2 & A3 & A4 & A5 & A6 & A7 & A8 & A9 & A10 & A11 & A12 & A13). rewrite A1, A2, A3, A4, A5.
  unfold b_spatial, b_two, b_back, b_symm, b_forw. rewrite !several_cnt.
  pose proof (cnt_nonneg two ns) as N1. pose proof (cnt_nonneg back ns) as N2. pose proof (cnt_nonneg forw ns) as N3. pose proof (cnt_nonneg symm ns) as N4.
  pose proof (first_none two ns) as F1. pose proof (last_none two ns) as L1. pose proof (last_none back ns) as L2. pose proof (last_none forw ns) as L3. pose proof (last_none symm ns) as L4.
  pose proof (one_same two ns) as O1.
  destruct (Z.eqb_spec (cnt two ns) 0) as [T0|T0], (Z.eqb_spec (cnt back ns) 0) as [B0|B0], (Z.eqb_spec (cnt forw ns) 0) as [W0|W0], (Z.eqb_spec (cnt symm ns) 0) as [S0|S0], (Z.ltb_spec 1 (cnt two ns)) as [G|G];
    cbn [andb negb]; try (exfalso; clear - T0 G; lia).
  all: destruct (last_of symm ns) as [ls|]; [try (exfalso; assert (X : Some ls = None) by (apply L4; assumption); discriminate X)|try (exfalso; apply S0; apply L4; reflexivity)].
  all: destruct (last_of forw ns) as [lf|]; [try (exfalso; assert (X : Some lf = None) by (apply L3; assumption); discriminate X)|try (exfalso; apply W0; apply L3; reflexivity)].
  all: destruct (last_of back ns) as [lb|]; [try (exfalso; assert (X : Some lb = None) by (apply L2; assumption); discriminate X)|try (exfalso; apply B0; apply L2; reflexivity)].
  all: destruct (last_of two ns) as [lt|]; [try (exfalso; assert (X : Some lt = None) by (apply L1; assumption); discriminate X)|try (exfalso; apply T0; apply L1; reflexivity)].
  all: destruct (first_of two ns) as [ft|]; [try (exfalso; assert (X : Some ft = None) by (apply F1; assumption); discriminate X)|try (exfalso; apply T0; apply F1; reflexivity)].
  all: try (assert (Q1 : cnt two ns = 1) by (clear - T0 G N1; lia); assert (EF : ft = lt) by (specialize (O1 Q1); congruence); subst ft).
  all: cbn [pick] in *.
  all: assert (mode = 1 \/ mode = 2 \/ mode = 3 \/ mode = 4) as [-> | [-> | [-> | ->]]] by (clear - Hm; lia); cbn [Z.eqb Pos.eqb].
  all: unfold neg16, opposite_vec; rewrite ?updf_same, ?updf_other by discriminate; rewrite ?updf_same, ?updf_other by discriminate; try (rewrite ?A6, ?A7, ?A8, ?A9, ?A10, ?A11, ?A12, ?A13; reflexivity).
Qed.

(** ** P and F pictures *)
Definition f_state (c : cand) (l : list nbr) (n0 : nbr) : Prop :=
  w_bid c = cnt dual l /\ w_fw c = cnt single l /\
  w_bid2 c = pick (first_of dual l) (fun n => n) n0 /\ w_fw2 c = pick (first_of single l) (fun n => n) n0 /\
  w_r1 c 1 = pick (last_of dual l) n_r0 0 /\ w_r2 c 1 = pick (last_of dual l) n_r1 0 /\
  w_m1 c 1 = pick (last_of dual l) n_m0 (0, 0) /\ w_m2 c 1 = pick (last_of dual l) n_m1 (0, 0) /\
  w_r1 c 3 = pick (last_of single l) n_r0 0 /\ w_m1 c 3 = pick (last_of single l) n_m0 (0, 0) /\
  w_r1 c 2 = 0 /\ w_r2 c 2 = 0 /\ w_m1 c 2 = (0, 0) /\ w_m2 c 2 = (0, 0) /\ w_r1 c 4 = 0 /\ w_m1 c 4 = (0, 0).
Lemma f_fold stale n0 l : f_state (fold_left fskip_step l (Cand (fun _ => 0) (fun _ => 0) (fun _ => (0, 0)) (updf (fun _ => (0, 0)) 4 (0, stale)) 0 0 0 0 n0 n0)) l n0.
Proof.
  induction l as [|n l IH] using rev_ind; [repeat split|].
  rewrite fold_left_app. cbn [fold_left]. set (c := fold_left _ _ _) in *. clearbody c.
  destruct IH as (A1 & A2 & A3 & A4 & A5 & A6 & A7 & A8 & A9 & A10 & A11 & A12 & A13 & A14 & A15 & A16).
  unfold f_state. rewrite !cnt_snoc, !last_snoc, !first_snoc. unfold fskip_step.
  pose proof (cnt_nonneg dual l) as N1. pose proof (cnt_nonneg single l) as N2.
  change (negb (n_r0 n =? -1) && negb (n_r1 n =? -1)) with (dual n). change (negb (n_r0 n =? -1) && (n_r1 n =? -1)) with (single n).
  assert (X : dual n = true -> single n = false) by (unfold dual, single; destruct (n_r0 n =? -1), (n_r1 n =? -1); cbn; congruence).
  destruct (dual n) eqn:D; [rewrite (X eq_refl)|destruct (single n) eqn:S1]; cbn [w_bid w_fw w_bid2 w_fw2 w_r1 w_r2 w_m1 w_m2]; rewrite ?updf_same, ?updf_other by discriminate; rewrite ?A1, ?A2, ?A3, ?A4, ?Z.add_0_r.
  - split; [reflexivity|]. split; [reflexivity|]. split; [|split; [destruct (first_of single l); reflexivity|repeat (split; [reflexivity || assumption|]); assumption]].
    destruct (first_of dual l) eqn:F; cbn [pick].
    + destruct (Z.eqb_spec (cnt dual l + 1) 1) as [Q|Q]; [|reflexivity]. exfalso. assert (Z0 : cnt dual l = 0) by lia. apply first_none in Z0. congruence.
    + apply first_none in F. rewrite F. reflexivity.
  - split; [reflexivity|]. split; [reflexivity|]. split; [destruct (first_of dual l); reflexivity|split; [|repeat (split; [reflexivity || assumption|]); assumption]].
    destruct (first_of single l) eqn:F; cbn [pick].
    + destruct (Z.eqb_spec (cnt single l + 1) 1) as [Q|Q]; [|reflexivity]. exfalso. assert (Z0 : cnt single l = 0) by lia. apply first_none in Z0. congruence.
    + apply first_none in F. rewrite F. reflexivity.
  - split; [reflexivity|]. split; [reflexivity|]. split; [destruct (first_of dual l); reflexivity|]. split; [destruct (first_of single l); reflexivity|]. repeat (split; [reflexivity || assumption|]). assumption.
Qed.

Lemma f_spatial_ok : forall stale ns mode, 1 <= mode <= 4 -> fskip_spatial stale ns mode = f_spatial mode ns.
Proof.
  intros stale ns mode Hm. unfold fskip_spatial. cbv zeta. set (n0 := nth 0 ns _). pose proof (f_fold stale n0 ns) as B. set (c := fold_left _ _ _) in *. clearbody c n0.
  destruct B as (A1 & A2 & A3 & A4 & A5 & A6 & A7 & A8 & A9 & A10 & A11 & A12 & A13 & A14 & A15 & A16). rewrite A1, A2, A3, A4.
  unfold f_spatial, f_dual1, f_dual2, f_single1, f_single2, f_singles. rewrite !several_cnt.
  pose proof (cnt_nonneg dual ns) as N1. pose proof (cnt_nonneg single ns) as N2.
  pose proof (first_none dual ns) as F1. pose proof (last_none dual ns) as L1. pose proof (first_none single ns) as F2. pose proof (last_none single ns) as L2.
  pose proof (one_same dual ns) as O1. pose proof (one_same single ns) as O2.
  destruct (Z.eqb_spec (cnt dual ns) 0) as [D0|D0], (Z.eqb_spec (cnt dual ns) 1) as [D1|D1], (Z.ltb_spec 1 (cnt dual ns)) as [DG|DG], (Z.eqb_spec (cnt single ns) 0) as [S0|S0], (Z.ltb_spec 1 (cnt single ns)) as [SG|SG];
    cbn [andb negb]; try (exfalso; clear - D0 D1 DG N1; lia); try (exfalso; clear - S0 SG; lia).
  all: destruct (last_of dual ns) as [ld|]; [try (exfalso; assert (X : Some ld = None) by (apply L1; assumption); discriminate X)|try (exfalso; apply D0; apply L1; reflexivity)].
  all: destruct (first_of dual ns) as [fd|]; [try (exfalso; assert (X : Some fd = None) by (apply F1; assumption); discriminate X)|try (exfalso; apply D0; apply F1; reflexivity)].
  all: destruct (last_of single ns) as [ls|]; [try (exfalso; assert (X : Some ls = None) by (apply L2; assumption); discriminate X)|try (exfalso; apply S0; apply L2; reflexivity)].
  all: destruct (first_of single ns) as [fs|]; [try (exfalso; assert (X : Some fs = None) by (apply F2; assumption); discriminate X)|try (exfalso; apply S0; apply F2; reflexivity)].
  all: try (assert (EF : fd = ld) by (specialize (O1 D1); congruence); subst fd).
  all: cbn [pick] in *.
  all: assert (mode = 1 \/ mode = 2 \/ mode = 3 \/ mode = 4) as [-> | [-> | [-> | ->]]] by (clear - Hm; lia); cbn [Z.eqb Pos.eqb].
  all: unfold f_of_dual, f_of_two, f_zero, f_one; rewrite ?updf_same, ?updf_other by discriminate; rewrite ?updf_same, ?updf_other by discriminate; rewrite ?updf_same, ?updf_other by discriminate;
    try (rewrite ?A5, ?A6, ?A7, ?A8, ?A9, ?A10, ?A11, ?A12, ?A13, ?A14, ?A15, ?A16; reflexivity).
Qed.
