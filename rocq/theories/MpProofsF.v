(** Proofs: candidates of the skip and direct modes depend on decoded neighbours only. *)
From Coq Require Import ZArith List Bool Lia.
From Verif Require Import CBase CBaseProofs MemModel SaoModel SaoProofs QpModel UtilModel MvModel MvSpec MvProofs HdrModel SynModel CuModel NbModel NbSpec NbProofs MpModel MpSpec MpProofs MpProofsB MpProofsC MpProofsD MpProofsE.
Import ListNotations.
Open Scope Z_scope.

Definition nrel (E : env) (a b : nbr) : Prop :=
  nhalf false a b /\ nhalf true a b /\ (e_type E = 2 -> n_dir a = n_dir b) /\ motion_ok E (n_dir a) (n_r0 a) (n_r1 a).
Lemma find_rel {A : Type} (R : A -> A -> Prop) (p : A -> bool) l l' : Forall2 R l l' -> (forall a b, R a b -> p a = p b) ->
  match find p l, find p l' with Some a, Some b => R a b /\ p a = true | None, None => True | _, _ => False end.
Proof.
  intros H Hp. induction H as [|a b l l' Rab _ IH]; cbn [find]; [exact I|]. rewrite <- (Hp a b Rab). destruct (p a) eqn:P; [auto|exact IH].
Qed.
Lemma rev_rel {A : Type} (R : A -> A -> Prop) l l' : Forall2 R l l' -> Forall2 R (rev l) (rev l').
Proof. induction 1; cbn [rev]; [constructor|]. apply Forall2_app; [assumption|]. constructor; [assumption|constructor]. Qed.
Lemma count_rel {A : Type} (R : A -> A -> Prop) (p : A -> bool) l l' : Forall2 R l l' -> (forall a b, R a b -> p a = p b) -> length (filter p l) = length (filter p l').
Proof. intros H Hp. induction H as [|a b l l' Rab _ IH]; cbn [filter]; [reflexivity|]. rewrite <- (Hp a b Rab). destruct (p a); cbn [length]; congruence. Qed.

Lemma b_spatial_rel E ns ns' m : e_type E = 2 -> Forall2 (nrel E) ns ns' -> b_spatial m ns = b_spatial m ns'.
Proof.
  intros T H. pose proof (rev_rel _ _ _ H) as Hr.
  assert (Dp : forall v a b, nrel E a b -> (n_dir a =? v) = (n_dir b =? v)) by (intros v a b (_ & _ & D & _); rewrite (D T); reflexivity).
  assert (V0 : forall a b, nrel E a b -> (two a = true \/ symm a = true \/ forw a = true) -> n_m0 a = n_m0 b).
  { intros a b ((_ & _ & M) & _ & _ & Ok) P. apply M. cbn [nb_ref]. unfold motion_ok, dir_ok in Ok. rewrite T in Ok. cbn [Z.eqb Pos.eqb] in Ok. unfold two, symm, forw in P. rewrite !Z.eqb_eq in P. lia. }
  assert (V1 : forall a b, nrel E a b -> (two a = true \/ symm a = true \/ back a = true) -> n_m1 a = n_m1 b).
  { intros a b (_ & (_ & _ & M) & _ & Ok) P. apply M. cbn [nb_ref]. unfold motion_ok, dir_ok in Ok. rewrite T in Ok. cbn [Z.eqb Pos.eqb] in Ok. unfold two, symm, back in P. rewrite !Z.eqb_eq in P. lia. }
  pose proof (find_rel (nrel E) two _ _ H (Dp 3)) as F1. pose proof (find_rel (nrel E) two _ _ Hr (Dp 3)) as F2. pose proof (find_rel (nrel E) symm _ _ Hr (Dp 2)) as F3.
  pose proof (find_rel (nrel E) back _ _ Hr (Dp 1)) as F4. pose proof (find_rel (nrel E) forw _ _ Hr (Dp 0)) as F5. pose proof (count_rel (nrel E) two _ _ H (Dp 3)) as C.
  unfold b_spatial, b_two, b_back, b_symm, b_forw, first_of, last_of, several. rewrite <- C.
  set (f1 := find two ns) in *. set (f1' := find two ns') in *. set (f2 := find two (rev ns)) in *. set (f2' := find two (rev ns')) in *. set (f3 := find symm (rev ns)) in *. set (f3' := find symm (rev ns')) in *.
  set (f4 := find back (rev ns)) in *. set (f4' := find back (rev ns')) in *. set (f5 := find forw (rev ns)) in *. set (f5' := find forw (rev ns')) in *. set (sv := (2 <=? length (filter two ns))%nat). clearbody f1 f1' f2 f2' f3 f3' f4 f4' f5 f5' sv. clear H Hr Dp C.
  assert (E1 : match f1, f1' with Some a, Some b => n_m0 a = n_m0 b /\ n_m1 a = n_m1 b | None, None => True | _, _ => False end) by (destruct f1, f1'; auto; destruct F1; split; [apply V0|apply V1]; auto).
  assert (E2 : match f2, f2' with Some a, Some b => n_m0 a = n_m0 b /\ n_m1 a = n_m1 b | None, None => True | _, _ => False end) by (destruct f2, f2'; auto; destruct F2; split; [apply V0|apply V1]; auto).
  assert (E3 : match f3, f3' with Some a, Some b => n_m0 a = n_m0 b /\ n_m1 a = n_m1 b | None, None => True | _, _ => False end) by (destruct f3, f3'; auto; destruct F3; split; [apply V0|apply V1]; auto).
  assert (E4 : match f4, f4' with Some a, Some b => n_m1 a = n_m1 b | None, None => True | _, _ => False end) by (destruct f4, f4'; auto; destruct F4; apply V1; auto).
  assert (E5 : match f5, f5' with Some a, Some b => n_m0 a = n_m0 b | None, None => True | _, _ => False end) by (destruct f5, f5'; auto; destruct F5; apply V0; auto).
  clear - E1 E2 E3 E4 E5.
  destruct (m =? 1); [destruct f2, f2'; try contradiction; [destruct E2; congruence|]; destruct f4, f4'; try contradiction; destruct f5, f5'; try contradiction; congruence|].
  destruct (m =? 2); [destruct f4, f4'; try contradiction; [congruence|]; destruct f1, f1'; try contradiction; [destruct E1; congruence|reflexivity]|].
  destruct (m =? 3).
  - destruct f3, f3'; try contradiction; [destruct E3; congruence|]. destruct sv.
    + destruct f1, f1'; try contradiction; [destruct E1; congruence|]. destruct f4, f4'; try contradiction; [congruence|]. destruct f5, f5'; try contradiction; congruence.
    + destruct f4, f4'; try contradiction; [congruence|]. destruct f5, f5'; try contradiction; congruence.
  - destruct f5, f5'; try contradiction; [congruence|]. destruct f1, f1'; try contradiction; [destruct E1; congruence|reflexivity].
Qed.
Lemma f_spatial_rel E ns ns' m : e_type E = 1 \/ e_type E = 4 -> 1 <= e_nref E -> Forall2 (nrel E) ns ns' ->
  f_spatial m ns = f_spatial m ns' /\ (let '((r0, r1), _) := f_spatial m ns in 0 <= r0 < e_nref E /\ (1 <= m <= 2 -> 0 <= r1 < e_nref E) /\ (3 <= m -> r1 = -1)).
Proof.
  intros T N1 H. pose proof (rev_rel _ _ _ H) as Hr.
  assert (Ok : forall a b, nrel E a b -> n_r0 a = -1 /\ n_r1 a = -1 \/ 0 <= n_r0 a < e_nref E /\ -1 <= n_r1 a < e_nref E).
  { intros a b (_ & _ & _ & O). unfold motion_ok in O. destruct (Z.eqb_spec (e_type E) 2) as [Q|_]; [rewrite Q in T; lia|exact O]. }
  assert (Dp : forall a b, nrel E a b -> dual a = dual b) by (intros a b ((_ & R0 & _) & (_ & R1 & _) & _); unfold dual; cbn [nb_ref] in *; rewrite R0, R1; reflexivity).
  assert (Sp : forall a b, nrel E a b -> single a = single b) by (intros a b ((_ & R0 & _) & (_ & R1 & _) & _); unfold single; cbn [nb_ref] in *; rewrite R0, R1; reflexivity).
  assert (Vd : forall a b, nrel E a b -> dual a = true -> n_r0 a = n_r0 b /\ n_r1 a = n_r1 b /\ n_m0 a = n_m0 b /\ n_m1 a = n_m1 b /\ 0 <= n_r0 a < e_nref E /\ 0 <= n_r1 a < e_nref E).
  { intros a b R D. pose proof (Ok _ _ R) as O. destruct R as ((_ & R0 & M0) & (_ & R1 & M1) & _). cbn [nb_ref nb_mv] in *. unfold dual in D. rewrite andb_true_iff, !negb_true_iff, !Z.eqb_neq in D. destruct D as [D0 D1].
    split; [exact R0|]. split; [exact R1|]. split; [auto|]. split; [auto|]. lia. }
  assert (Vs : forall a b, nrel E a b -> single a = true -> n_r0 a = n_r0 b /\ n_m0 a = n_m0 b /\ 0 <= n_r0 a < e_nref E).
  { intros a b R D. pose proof (Ok _ _ R) as O. destruct R as ((_ & R0 & M0) & (_ & R1 & M1) & _). cbn [nb_ref nb_mv] in *. unfold single in D. rewrite andb_true_iff, negb_true_iff, Z.eqb_neq, Z.eqb_eq in D. destruct D as [D0 D1].
    split; [exact R0|]. split; [auto|]. lia. }
  pose proof (find_rel (nrel E) dual _ _ H Dp) as F1. pose proof (find_rel (nrel E) dual _ _ Hr Dp) as F2. pose proof (find_rel (nrel E) single _ _ H Sp) as F3. pose proof (find_rel (nrel E) single _ _ Hr Sp) as F4.
  pose proof (count_rel (nrel E) dual _ _ H Dp) as C1. pose proof (count_rel (nrel E) single _ _ H Sp) as C2.
  unfold f_spatial, f_dual1, f_dual2, f_single1, f_single2, f_singles, f_of_dual, f_of_two, f_one, f_zero, first_of, last_of, several. rewrite <- C1, <- C2.
  set (f1 := find dual ns) in *. set (f1' := find dual ns') in *. set (f2 := find dual (rev ns)) in *. set (f2' := find dual (rev ns')) in *. set (f3 := find single ns) in *. set (f3' := find single ns') in *.
  set (f4 := find single (rev ns)) in *. set (f4' := find single (rev ns')) in *. set (sd := (2 <=? length (filter dual ns))%nat). set (ss := (2 <=? length (filter single ns))%nat). clearbody f1 f1' f2 f2' f3 f3' f4 f4' sd ss. clear H Hr Dp Sp C1 C2 Ok.
  assert (E1 : match f1, f1' with Some a, Some b => n_r0 a = n_r0 b /\ n_r1 a = n_r1 b /\ n_m0 a = n_m0 b /\ n_m1 a = n_m1 b /\ 0 <= n_r0 a < e_nref E /\ 0 <= n_r1 a < e_nref E | None, None => True | _, _ => False end) by (destruct f1, f1'; auto; destruct F1; apply Vd; auto).
  assert (E2 : match f2, f2' with Some a, Some b => n_r0 a = n_r0 b /\ n_r1 a = n_r1 b /\ n_m0 a = n_m0 b /\ n_m1 a = n_m1 b /\ 0 <= n_r0 a < e_nref E /\ 0 <= n_r1 a < e_nref E | None, None => True | _, _ => False end) by (destruct f2, f2'; auto; destruct F2; apply Vd; auto).
  assert (E3 : match f3, f3' with Some a, Some b => n_r0 a = n_r0 b /\ n_m0 a = n_m0 b /\ 0 <= n_r0 a < e_nref E | None, None => True | _, _ => False end) by (destruct f3, f3'; auto; destruct F3; apply Vs; auto).
  assert (E4 : match f4, f4' with Some a, Some b => n_r0 a = n_r0 b /\ n_m0 a = n_m0 b /\ 0 <= n_r0 a < e_nref E | None, None => True | _, _ => False end) by (destruct f4, f4'; auto; destruct F4; apply Vs; auto).
  clear - E1 E2 E3 E4 N1.
  assert (Z0 : 0 <= 0 < e_nref E) by lia.
  destruct (Z.eqb_spec m 1) as [M1|M1].
  { destruct f2 as [a|], f2' as [b|]; try contradiction.
    - destruct E2 as (q1 & q2 & q3 & q4 & A1 & A2); rewrite ?q1, ?q2, ?q3, ?q4; rewrite q1 in A1; rewrite q2 in A2. split; [reflexivity|]. split; [exact A1|]. split; [auto|lia].
    - destruct f4 as [a|], f4' as [b|]; try contradiction; destruct f3 as [a'|], f3' as [b'|]; try contradiction; try (split; [reflexivity|split; [exact Z0|split; [auto|lia]]]).
      destruct E4 as (-> & -> & A1), E3 as (-> & -> & A2). destruct ss; (split; [reflexivity|split; [assumption|split; [auto|lia]]]). }
  destruct (Z.eqb_spec m 2) as [M2|M2].
  { destruct f1 as [a|], f1' as [b|]; try contradiction.
    - destruct E1 as (q1 & q2 & q3 & q4 & A1 & A2); rewrite ?q1, ?q2, ?q3, ?q4; rewrite q1 in A1; rewrite q2 in A2. destruct sd; [split; [reflexivity|split; [exact A1|split; [auto|lia]]]|].
      destruct f4 as [a4|], f4' as [b4|]; try contradiction; destruct f3 as [a3|], f3' as [b3|]; try contradiction; try (split; [reflexivity|split; [exact Z0|split; [auto|lia]]]).
      destruct E4 as (-> & -> & A3), E3 as (-> & -> & A4). destruct ss; (split; [reflexivity|split; [assumption|split; [auto|lia]]]).
    - split; [reflexivity|]. split; [exact Z0|split; [auto|lia]]. }
  destruct (Z.eqb_spec m 3) as [M3|M3].
  { destruct f4 as [a|], f4' as [b|]; try contradiction.
    - destruct E4 as (-> & -> & A1). split; [reflexivity|split; [exact A1|split; [lia|auto]]].
    - destruct f1 as [a1|], f1' as [b1|]; try contradiction; [destruct E1 as (q1 & q2 & q3 & q4 & A1 & A2); rewrite ?q1, ?q2, ?q3, ?q4; rewrite q1 in A1; rewrite q2 in A2|]; (split; [reflexivity|split; [assumption|split; [lia|auto]]]). }
  destruct ss.
  - destruct f3 as [a|], f3' as [b|]; try contradiction; [destruct E3 as (-> & -> & A1); split; [reflexivity|split; [exact A1|split; [lia|auto]]]|].
    destruct f1 as [a1|], f1' as [b1|]; try contradiction; [destruct E1 as (q1 & q2 & q3 & q4 & A1 & A2); rewrite ?q1, ?q2, ?q3, ?q4; rewrite q1 in A1; rewrite q2 in A2|]; (split; [reflexivity|split; [assumption|split; [lia|auto]]]).
  - destruct f1 as [a1|], f1' as [b1|]; try contradiction; [destruct E1 as (q1 & q2 & q3 & q4 & A1 & A2); rewrite ?q1, ?q2, ?q3, ?q4; rewrite q1 in A1; rewrite q2 in A2|]; (split; [reflexivity|split; [assumption|split; [lia|auto]]]).
Qed.
(** Vectors of candidates are 16 bit. *)
Lemma b_spatial_16 E ns m : Forall (nbr_ok E) ns -> i16v (fst (b_spatial m ns)) /\ i16v (snd (b_spatial m ns)).
Proof.
  intros H. assert (Hr : Forall (nbr_ok E) (rev ns)) by (apply Forall_rev; exact H). rewrite Forall_forall in H, Hr.
  assert (F : forall p a l, find p l = Some a -> (forall x, In x l -> nbr_ok E x) -> i16v (n_m0 a) /\ i16v (n_m1 a)) by (intros p a l Ha Hl; apply find_some in Ha; destruct (Hl a (proj1 Ha)) as (A & B & _); auto).
  assert (Z0 : i16v (0, 0)) by exact zero_i16. assert (Op : forall v, i16v (opposite_vec v)) by (intros v; apply to_i16_i16).
  unfold b_spatial, b_two, b_back, b_symm, b_forw, first_of, last_of.
  destruct (find two ns) as [a|] eqn:E1, (find two (rev ns)) as [b|] eqn:E2, (find symm (rev ns)) as [c|] eqn:E3, (find back (rev ns)) as [d|] eqn:E4, (find forw (rev ns)) as [e|] eqn:E5;
    repeat match goal with Hf : find _ _ = Some _ |- _ => apply F in Hf; [destruct Hf|assumption] end;
    destruct (m =? 1), (m =? 2), (m =? 3); try destruct (several two ns); cbn [fst snd]; auto.
Qed.
Lemma f_spatial_16 E ns m : Forall (nbr_ok E) ns -> i16v (fst (snd (f_spatial m ns))) /\ i16v (snd (snd (f_spatial m ns))).
Proof.
  intros H. assert (Hr : Forall (nbr_ok E) (rev ns)) by (apply Forall_rev; exact H). rewrite Forall_forall in H, Hr.
  assert (F : forall p a l, find p l = Some a -> (forall x, In x l -> nbr_ok E x) -> i16v (n_m0 a) /\ i16v (n_m1 a)) by (intros p a l Ha Hl; apply find_some in Ha; destruct (Hl a (proj1 Ha)) as (A & B & _); auto).
  assert (Z0 : i16v (0, 0)) by exact zero_i16.
  unfold f_spatial, f_dual1, f_dual2, f_single1, f_single2, f_singles, f_of_dual, f_of_two, f_one, f_zero, first_of, last_of.
  destruct (find dual ns) as [a|] eqn:E1, (find dual (rev ns)) as [b|] eqn:E2, (find single ns) as [c|] eqn:E3, (find single (rev ns)) as [d|] eqn:E4;
    repeat match goal with Hf : find _ _ = Some _ |- _ => apply F in Hf; [destruct Hf|assumption] end;
    destruct (m =? 1), (m =? 2), (m =? 3), (several single ns), (several dual ns); cbn [fst snd]; auto.
Qed.
