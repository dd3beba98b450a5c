(** Proofs: one coding unit. *)
From Coq Require Import ZArith List Bool Lia.
From Verif Require Import CBase CBaseProofs MemModel SaoModel SaoProofs QpModel UtilModel MvModel MvSpec MvProofs HdrModel SynModel CuModel NbModel NbSpec NbProofs MpModel MpSpec MpProofs MpProofsB MpProofsC MpProofsD MpProofsE MpProofsF MpProofsG MpProofsH.
Import ListNotations.
Open Scope Z_scope.

Lemma past_around E Q level ux uy g g' bwd : same_past E Q level ux uy g g' -> around E Q level ux uy bwd g g'.
Proof. intros P X Y Av No Bf. destruct (P X Y Av No Bf) as [(S1 & S2 & S3 & S4 & _) _]. destruct bwd; split; cbn [kref kmv]; assumption. Qed.
Lemma dir_range E d r0 r1 : env_ok E -> dir_ok E d r0 r1 -> -1 <= r0 < e_nref E /\ -1 <= r1 < e_nref E.
Proof. intros [_ En Ei Eb _ _ _ _] H. unfold dir_ok in H. clear - H En Eb. lia. Qed.
Lemma store_good E level rs c px py : tiles (2 ^ (level - 2)) rs = true -> env_ok E -> forall pus k g, (forall j, (j < k + length pus)%nat -> dir_ok E (c_dir c (Z.of_nat j)) (cref false c j) (cref true c j)) -> grid_ok E g ->
  grid_ok E (store_refs E c px py (Z.of_nat k) pus g).
Proof.
  intros Ht Eok. induction pus as [|p pus IH]; intros k g Hd G; cbn [store_refs]; [exact G|].
  replace (Z.of_nat k + 1) with (Z.of_nat (S k)) by lia. apply IH; [intros j Lj; apply Hd; cbn [length]; lia|]. unfold grid_ok.
  assert (Lk : (k < k + length (p :: pus))%nat) by (cbn [length]; lia). pose proof (dir_range _ _ _ _ Eok (Hd k Lk)) as R. unfold cref in R.
  apply (paint_any E level rs Ht (fun q => i16v (k_m0 q) /\ i16v (k_m1 q) /\ -1 <= k_r0 q < e_nref E /\ -1 <= k_r1 q < e_nref E)); [|exact G].
  intros q (Q0 & Q1 & _). cbn. auto.
Qed.
Definition settled (E : env) (level ux uy : Z) (c0 c0' : cu) (g0 g0' : grid) (s s' : cu * grid) : Prop :=
  exists rs, tiles (2 ^ (level - 2)) rs = true /\ c_pus c0 = map to_cb rs /\ hok E level c0 /\ hok E level c0' /\ hrel c0 c0' /\
    post E level ux uy rs (length rs) c0 g0 s /\ post E level ux uy rs (length rs) c0' g0' s' /\ alike (length rs) (fst s) (fst s').
Lemma inter_len four ty m : 0 <= ty <= 7 -> (ty = 0 -> four = false) -> length (parts four ty m) = if ty <=? 1 then 1%nat else 2%nat.
Proof.
  intros H F. assert (C : ty = 0 \/ ty = 1 \/ ty = 2 \/ ty = 3 \/ ty = 4 \/ ty = 5 \/ ty = 6 \/ ty = 7) by lia. destruct C as [-> | [-> | [-> | [-> | [-> | [-> | [-> | ->]]]]]]]; try reflexivity. rewrite F by reflexivity. reflexivity.
Qed.
Lemma unit_rel E Q level ux uy y stale stale' c c' g g' : env_ok E -> unit_at E Q level ux uy -> syntax_ok E level y -> grid_ok E g -> grid_ok E g' -> same_past E Q level ux uy g g' ->
  orel (fun s s' => exists c0 c0', settled E level ux uy c0 c0' g g' s s')
    (unit_motion E Q stale (4 * ux) (4 * uy) level y (c, g)) (unit_motion E Q stale' (4 * ux) (4 * uy) level y (c', g')).
Proof.
  intros Eok Uat Sok G G' P. pose proof Uat as [Ul Ux Uy Uw Uh Ax Ay Qx Qy]. pose proof (eo_lv _ Eok) as Lv. assert (L6 : 3 <= level <= 6) by (clear - Ul Lv; lia).
  unfold unit_motion. cbn [fst snd]. eapply orel_bind; [apply (header_rel E level y c c' Eok L6 Sok)|]. intros c0 c0' (Ho & Ho' & Hr).
  pose proof (hr_ty _ _ Hr) as Ety. pose proof (hr_pus _ _ Hr) as Epu. rewrite <- Ety.
  set (ty := c_type c0) in *. pose proof (ho_ty _ _ _ Ho) as Tk. fold ty in Tk. set (four := four_of (c_ds c0) ty level). set (rs := rects four ty (2 ^ (level - 2))).
  assert (Hf : four = true -> ty = 0 /\ 4 <= level).
  { unfold four, four_of. rewrite !andb_true_iff, Z.eqb_eq, Z.ltb_lt. clear; lia. }
  assert (Ht : tiles (2 ^ (level - 2)) rs = true) by (apply rects_tile; [exact L6|exact Tk|intros F; apply Hf; exact F]).
  assert (Pu : c_pus c0 = map to_cb rs) by exact (ho_pus _ _ _ Ho). assert (Pu' : c_pus c0' = map to_cb rs) by (rewrite <- Epu; exact Pu).
  assert (St : forall c0, level <= 6 -> forall g, keeps E level ux uy g (store_refs E c0 (4 * ux) (4 * uy) 0 (map to_cb rs) g) /\ refs_in E ux uy rs c0 (store_refs E c0 (4 * ux) (4 * uy) 0 (map to_cb rs) g)).
  { intros d L g1. apply (store_ok E level ux uy rs Ux Uw Ht Lv Ul d g1 rs 0%nat g1 eq_refl L); [intros X Y _ _; reflexivity|intros j b X Y Lj; lia]. }
  destruct (Z.leb_spec 8 ty) as [T8|T8].
  - cbn [orel]. exists c0, c0'. exists rs. split; [exact Ht|]. split; [exact Pu|]. split; [exact Ho|]. split; [exact Ho'|]. split; [exact Hr|].
    assert (K : forall d g1, hok E level d -> c_type d = ty -> c_pus d = map to_cb rs -> grid_ok E g1 -> post E level ux uy rs (length rs) d g1 (d, store_refs E d (4 * ux) (4 * uy) 0 (c_pus d) g1)).
    { intros d g1 Hd Td Pd Gd. rewrite Pd. destruct (St d ltac:(clear - L6; lia) g1) as [Kp Rf].
      assert (Dd : forall j, dir_ok E (c_dir d (Z.of_nat j)) (cref false d j) (cref true d j)).
      { intros j. destruct (ho_intra _ _ _ Hd ltac:(rewrite Td; exact T8) (Z.of_nat j)) as [Q1 Q2]. unfold cref. rewrite Q1, Q2. left. auto. }
      constructor; cbn [fst snd].
      - exact Kp.
      - intros j b X Y _ Hj Hb. cbv zeta. destruct (Rf j b X Y Hj Hb) as (D & R0 & R1). rewrite D, R0, R1. destruct (ho_intra _ _ _ Hd ltac:(rewrite Td; exact T8) (Z.of_nat j)) as [_ Q2]. rewrite Q2. cbn [fst snd]. repeat (split; [auto; intros; congruence|]). auto.
      - intros j _. apply Dd.
      - apply (store_good E level rs d (4 * ux) (4 * uy) Ht Eok (map to_cb rs) 0%nat g1); [intros j _; apply Dd|exact Gd].
      - repeat (split; [reflexivity|]). reflexivity. }
    split; [apply K; auto|]. split; [apply K; auto|].
    intros j _. cbv zeta. cbn [fst]. rewrite <- (hr_refi _ _ Hr T8). destruct (ho_intra _ _ _ Ho T8 (Z.of_nat j)) as [_ ->]. cbn [fst snd]. split; [reflexivity|]. split; intros; congruence.
  - assert (T7 : ty <= 7) by (clear - T8; lia). assert (Tn : e_type E <> 0) by (intros Z0; pose proof (ho_i _ _ _ Ho Z0) as H8; fold ty in H8; clear - H8 T8; lia).
    assert (Ers : rs = parts four ty (2 ^ (level - 2))) by (unfold rs, rects; replace (ty <=? 7) with true by (symmetry; apply Z.leb_le; exact T7); reflexivity).
    destruct (Z.eqb_spec ty 0) as [Z0|Z0].
    + eapply orel_bind; [apply (six_rel E Q level ux uy rs Eok Uat Ht g g' P G G')|]. intros ns ns' (Nr & N1 & _).
      assert (Rsk : rs = parts four 0 (2 ^ (level - 2))) by (rewrite Ers, Z0; reflexivity).
      assert (Ffo : four = four_of (c_ds c0) 0 level) by (unfold four; rewrite Z0; reflexivity).
      eapply orel_mono; [apply (fill_rel E Q level ux uy rs Eok Uat Ht (proj2 L6) four Rsk (fun F => proj2 (Hf F)) g g' c0 c0' P G G' Ho Ho' Hr Z0 Ffo stale stale' ns ns' Tn Nr N1)|].
      intros s s' (A & A' & Al). exists c0, c0'. exists rs. auto 10.
    + assert (T17 : 1 <= ty <= 7) by (destruct Tk as [Tk _]; clear - Tk Z0 T7; lia).
      assert (Lr : length rs = ulen ty). { rewrite Ers. rewrite inter_len by (clear - T17; lia). unfold ulen. destruct (Z.leb_spec ty 1) as [U1|U1], (Z.eqb_spec ty 1) as [U2|U2]; try reflexivity; exfalso; clear - T17 U1 U2; lia. }
      assert (Sh : shape_ok level ty four). { destruct Tk as (_ & K2 & _). split; [clear - T17; lia|]. split; [intros; apply K2; clear - H T17; lia|exact Hf]. }
      assert (Et : e_type E = 1 \/ e_type E = 2 \/ e_type E = 4) by (pose proof (eo_type _ Eok) as K; clear - K Tn; lia).
      assert (K : forall d g1, hok E level d -> c_type d = ty -> c_pus d = map to_cb rs -> grid_ok E g1 -> inv E level ux uy rs 0 0 d g1 (d, store_refs E d (4 * ux) (4 * uy) 0 (c_pus d) g1)).
      { intros d g1 Hd Td Pd Gd. rewrite Pd. destruct (St d ltac:(clear - L6; lia) g1) as [Kp Rf].
        assert (Dd : forall j, (j < length rs)%nat -> dir_ok E (c_dir d (Z.of_nat j)) (cref false d j) (cref true d j) /\ c_dir d (Z.of_nat j) <> -1).
        { intros j Lj. apply (ho_inter _ _ _ Hd); [rewrite Td; exact T17|]. rewrite Td, <- Lr. exact Lj. }
        constructor; cbn [fst snd]; [exact Kp|exact Rf|intros j b X Y Lj; lia|intros j b X Y Lj; lia|exact Dd| |repeat (split; [reflexivity|]); auto].
        apply (store_good E level rs d (4 * ux) (4 * uy) Ht Eok (map to_cb rs) 0%nat g1); [|exact Gd]. intros j Lj. rewrite map_length in Lj. apply Dd. exact Lj. }
      eapply orel_mono.
      * apply (read_rel E Q level ux uy rs Ux Uw Ht ty four Ers Lv Ul Sh Uy Ax Ay Qx Qy g g' c0 c0' Et (past_around _ _ _ _ _ _ _ false P) (past_around _ _ _ _ _ _ _ true P) Pu Pu').
        split; [apply K; auto|]. split; [apply K; auto|]. cbn [fst]. constructor; [|intros j Lj; lia|intros j Lj; lia].
        intros j Lj. split; [apply (hr_dir _ _ Hr)|]. apply (hr_ref _ _ Hr); [exact T17|]. fold ty. rewrite <- Lr. exact Lj.
      * intros s s' (A & A' & [Sd S0 S1]). exists c0, c0'. exists rs.
        assert (W : forall d g1 t, inv E level ux uy rs (length rs) (length rs) d g1 t -> c_type d = ty -> post E level ux uy rs (length rs) d g1 t).
        { intros d g1 t [Kp Rf M0 M1 Di Gd Un] Td. constructor; [exact Kp| | |exact Gd|].
          - intros j b X Y Lj Hj Hb. cbv zeta. destruct (Rf j b X Y Hj Hb) as (D & R0 & R1). split; [exact R0|]. split; [exact R1|].
            split; [intros N; apply (M0 j b X Y Lj Hj Hb); unfold cref; rewrite <- R0; exact N|]. split; [intros N; apply (M1 j b X Y Lj Hj Hb); unfold cref; rewrite <- R1; exact N|]. intros _. exact D.
          - intros j Lj. apply Di. exact Lj.
          - destruct Un as (U1 & U2 & U3 & U4 & U5 & _). auto. }
        split; [exact Ht|]. split; [exact Pu|]. split; [exact Ho|]. split; [exact Ho'|]. split; [exact Hr|]. split; [apply W; [exact A|reflexivity]|]. split; [apply W; [exact A'|auto]|].
        intros j Lj. cbv zeta. destruct (Sd j Lj) as [_ Sr]. split; [exact Sr|]. split; [exact (S0 j Lj)|exact (S1 j Lj)].
Qed.
