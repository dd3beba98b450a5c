(** Proofs: units and pictures. *)
From Coq Require Import ZArith List Bool Lia.
From Verif Require Import CBase CBaseProofs MemModel SaoModel SaoProofs QpModel UtilModel MvModel MvSpec MvProofs HdrModel SynModel CuModel NbModel NbSpec NbProofs MpModel MpSpec MpProofs MpProofsB MpProofsC MpProofsD MpProofsE MpProofsF MpProofsG MpProofsH MpProofsI.
Import ListNotations.
Open Scope Z_scope.

Lemma pu_part ux uy x y w h X Y : in_pu ux uy (to_cb (x, y, w, h)) X Y <-> in_part ux uy (x, y, w, h) X Y.
Proof. unfold in_pu, in_part, in_block, to_cb. cbn [CuModel.cx CuModel.cy cw ch B]. rewrite !andb_true_iff, !Z.leb_le, !Z.ltb_lt. lia. Qed.
Lemma nth_map {A C : Type} (f : A -> C) l j c : nth_error (map f l) j = Some c -> exists a, nth_error l j = Some a /\ c = f a.
Proof. revert j. induction l as [|x l IH]; intros [|j] H; cbn in H; try discriminate; [injection H as <-; exists x; auto|apply IH; exact H]. Qed.
Lemma dir_motion E d r0 r1 d' : dir_ok E d r0 r1 -> (e_type E = 2 -> d' = d) -> motion_ok E d' r0 r1.
Proof.
  intros H D. unfold motion_ok. destruct (Z.eqb_spec (e_type E) 2) as [T|T]; [rewrite (D T); exact H|]. unfold dir_ok in H. clear - H T. lia.
Qed.
Lemma covered level ux uy rs X Y : tiles (2 ^ (level - 2)) rs = true -> in_unit level ux uy X Y -> exists j b, nth_error rs j = Some b /\ in_part ux uy b X Y.
Proof.
  intros Ht [H1 H2]. destruct (tiles_facts _ _ Ht) as (_ & C & _). destruct (C (X - ux) (Y - uy) ltac:(lia) ltac:(lia)) as (j & b & Hj & Hb). exists j, b. split; [exact Hj|exact Hb].
Qed.
Lemma post_done E level ux uy rs c0 g s : tiles (2 ^ (level - 2)) rs = true -> c_pus c0 = map to_cb rs -> post E level ux uy rs (length rs) c0 g s -> unit_done E level ux uy g s.
Proof.
  intros Ht Pu [Kp Ce Ds Gd (_ & _ & _ & Up & _)]. rewrite Pu in Up.
  constructor.
  - intros X Y HX No. apply Kp; [exact HX|]. exact No.
  - intros X Y Hu. destruct (covered _ _ _ _ _ _ Ht Hu) as (j & [[[x y] w] h] & Hj & Hb). exists j, (to_cb (x, y, w, h)). split; [rewrite Up; apply map_nth_error; exact Hj|]. apply pu_part. exact Hb.
  - intros j p X Y Hj Hp. rewrite Up in Hj. destruct (nth_map _ _ _ _ Hj) as ([[[x y] w] h] & Hr & ->). apply pu_part in Hp. assert (Lj : (j < length rs)%nat) by (apply nth_error_Some; congruence).
    exact (Ce j _ X Y Lj Hr Hp).
  - intros j Lj. rewrite Up, map_length in Lj. exact (Ds j Lj).
  - intros X Y Hu. destruct (covered _ _ _ _ _ _ Ht Hu) as (j & b & Hj & Hb). assert (Lj : (j < length rs)%nat) by (apply nth_error_Some; congruence).
    destruct (Ce j b X Y Lj Hj Hb) as (R0 & R1 & _ & _ & D). unfold cell_ok. rewrite R0, R1. eapply dir_motion; [exact (Ds j Lj)|]. intros T. apply D. left. exact T.
  - exact Gd.
Qed.
Lemma past_refl E Q level ux uy g : good_past E Q level ux uy g -> same_past E Q level ux uy g g.
Proof. intros H X Y A N B. split; [unfold same_cell; auto|]. apply H; assumption. Qed.
Lemma unit_ok E Q level ux uy y stale c g s : env_ok E -> unit_at E Q level ux uy -> syntax_ok E level y -> grid_ok E g -> good_past E Q level ux uy g ->
  unit_motion E Q stale (4 * ux) (4 * uy) level y (c, g) = Done s -> unit_done E level ux uy g s.
Proof.
  intros Eok Uat Sok G P H. pose proof (unit_rel E Q level ux uy y stale stale c c g g Eok Uat Sok G G (past_refl _ _ _ _ _ _ P)) as R. rewrite H in R. cbn [orel] in R.
  destruct R as (c0 & c0' & rs & Ht & Pu & _ & _ & _ & Po & _). exact (post_done _ _ _ _ _ _ _ _ Ht Pu Po).
Qed.
Lemma unit_same E Q level ux uy y stale stale' c c' g g' : env_ok E -> unit_at E Q level ux uy -> syntax_ok E level y -> grid_ok E g -> grid_ok E g' -> same_past E Q level ux uy g g' ->
  orel (fun s s' => same_unit (fst s) (fst s') /\ (forall X Y, in_unit level ux uy X Y -> same_cell E (snd s (Y * e_wu E + X)) (snd s' (Y * e_wu E + X))) /\ unit_done E level ux uy g s /\ unit_done E level ux uy g' s')
    (unit_motion E Q stale (4 * ux) (4 * uy) level y (c, g)) (unit_motion E Q stale' (4 * ux) (4 * uy) level y (c', g')).
Proof.
  intros Eok Uat Sok G G' P. eapply orel_mono; [apply unit_rel; eassumption|]. intros [d h] [d' h'] (c0 & c0' & rs & Ht & Pu & Ho & Ho' & Hr & Po & Po' & Al). cbn [fst snd] in *.
  assert (Pu' : c_pus c0' = map to_cb rs) by (rewrite <- (hr_pus _ _ Hr); exact Pu).
  split; [|split; [|split; [exact (post_done _ _ _ _ _ _ _ _ Ht Pu Po)|exact (post_done _ _ _ _ _ _ _ _ Ht Pu' Po')]]].
  - destruct (po_unit _ _ _ _ _ _ _ _ _ Po) as (_ & Ty & Dm & Up & Di). destruct (po_unit _ _ _ _ _ _ _ _ _ Po') as (_ & Ty' & Dm' & Up' & Di'). cbn [fst snd] in *.
    unfold same_unit. split; [rewrite Ty, Ty'; apply (hr_ty _ _ Hr)|]. split; [rewrite Dm, Dm'; apply (hr_dmh _ _ Hr)|]. split; [rewrite Up, Up'; apply (hr_pus _ _ Hr)|].
    intros j Lj. rewrite Up, Pu, map_length in Lj. cbv zeta. destruct (Al j Lj) as (A1 & A2 & A3). split; [rewrite Di, Di'; apply (hr_dir _ _ Hr)|]. auto.
  - intros X Y Hu. destruct (covered _ _ _ _ _ _ Ht Hu) as (j & b & Hj & Hb). assert (Lj : (j < length rs)%nat) by (apply nth_error_Some; congruence).
    destruct (po_cells _ _ _ _ _ _ _ _ _ Po j b X Y Lj Hj Hb) as (R0 & R1 & M0 & M1 & D). destruct (po_cells _ _ _ _ _ _ _ _ _ Po' j b X Y Lj Hj Hb) as (R0' & R1' & M0' & M1' & D').
    destruct (Al j Lj) as (A1 & A2 & A3). cbn [fst snd] in *.
    assert (Q0 : k_r0 (h (Y * e_wu E + X)) = k_r0 (h' (Y * e_wu E + X))) by (rewrite R0, R0', A1; reflexivity).
    assert (Q1 : k_r1 (h (Y * e_wu E + X)) = k_r1 (h' (Y * e_wu E + X))) by (rewrite R1, R1', A1; reflexivity).
    split; [exact Q0|]. split; [exact Q1|].
    split; [intros N; rewrite (M0 N), M0' by (rewrite <- Q0; exact N); apply A2; rewrite <- R0; exact N|].
    split; [intros N; rewrite (M1 N), M1' by (rewrite <- Q1; exact N); apply A3; rewrite <- R1; exact N|].
    intros T. rewrite D, D' by (left; exact T).
    destruct (po_unit _ _ _ _ _ _ _ _ _ Po) as (_ & _ & _ & _ & Di). destruct (po_unit _ _ _ _ _ _ _ _ _ Po') as (_ & _ & _ & _ & Di'). cbn [fst snd] in *. rewrite Di, Di'. apply (hr_dir _ _ Hr).
Qed.
(** ** A picture *)
Definition held (E : env) (js : list job) (g g' : grid) : Prop := forall j X Y, In j js -> in_job j X Y -> same_cell E (g (Y * e_wu E + X)) (g' (Y * e_wu E + X)) /\ cell_ok E (g (Y * e_wu E + X)).
Lemma avail_pic E Q X Y : avail E Q X Y = true -> in_pic (e_wu E) (e_hu E) X Y.
Proof. unfold avail, in_pic. rewrite !andb_true_iff, !Z.leb_le, !Z.ltb_lt. lia. Qed.
Lemma run_same E js0 : env_ok E -> Forall (job_ok E) js0 -> in_order E js0 -> forall js done junk junk' g g', js0 = done ++ js -> grid_ok E g -> grid_ok E g' -> held E done g g' ->
  orel (fun a a' => Forall2 same_unit (fst a) (fst a') /\ length (fst a) = length js /\ held E js0 (snd a) (snd a') /\ grid_ok E (snd a)) (run_units E junk js g) (run_units E junk' js g').
Proof.
  intros Eok Jok Ord. induction js as [|[[[[Q level] ux] uy] y] js IH]; intros done junk junk' g g' Ej G G' Hd; cbn [run_units].
  - cbn [orel fst snd]. rewrite app_nil_r in Ej. subst done. auto.
  - assert (Jk : job_ok E (Q, level, ux, uy, y)) by (rewrite Forall_forall in Jok; apply Jok; rewrite Ej; apply in_or_app; right; left; reflexivity). destruct Jk as [Uat Sok].
    assert (P : same_past E Q level ux uy g g').
    { intros X Y Av No Bf. destruct (Ord (length done) Q level ux uy y X Y) as (i & j & Li & Hi & Hj); [rewrite Ej; rewrite nth_error_app2 by lia; rewrite Nat.sub_diag; reflexivity|exact (avail_pic _ _ _ _ Av)|exact No|exact Bf|].
      rewrite Ej, nth_error_app1 in Hi by exact Li. apply (Hd j X Y); [exact (nth_error_In _ _ Hi)|exact Hj]. }
    eapply orel_bind; [apply (unit_same E Q level ux uy y _ _ _ _ g g' Eok Uat Sok G G' P)|].
    intros [c h] [c' h'] (Su & Sc & [K1 _ _ _ C1 G1] & [K2 _ _ _ _ G2]). cbn [fst snd] in *.
    eapply orel_bind.
    + apply (IH (done ++ [(Q, level, ux, uy, y)]) (fun k => junk (S k)) (fun k => junk' (S k)) h h'); [rewrite <- app_assoc; exact Ej|exact G1|exact G2|].
      intros j X Y Hj Hin. destruct (in_block (ux, uy, 2 ^ (level - 2), 2 ^ (level - 2)) X Y) eqn:Ib.
      * assert (Iu : in_unit level ux uy X Y) by (clear - Ib; unfold in_block in Ib; rewrite !andb_true_iff, !Z.leb_le, !Z.ltb_lt in Ib; unfold in_unit; lia). split; [apply Sc; exact Iu|apply C1; exact Iu].
      * assert (Nu : ~ in_unit level ux uy X Y) by (clear - Ib; intros [A1 A2]; unfold in_block in Ib; rewrite !andb_false_iff, !Z.leb_gt, !Z.ltb_ge in Ib; lia).
        apply in_app_or in Hj. destruct Hj as [Hj|[<-|[]]]; [|exfalso; exact (Nu Hin)].
        assert (HX : 0 <= X < e_wu E).
        { assert (Jj : job_ok E j) by (rewrite Forall_forall in Jok; apply Jok; rewrite Ej; apply in_or_app; left; exact Hj). destruct j as [[[[Q1 l1] x1] y1] s1]. destruct Jj as [[_ A1 _ A2 _ _ _ _ _] _]. destruct Hin as [B1 _]. clear - A1 A2 B1. lia. }
        rewrite (K1 X Y HX Nu), (K2 X Y HX Nu). exact (Hd j X Y Hj Hin).
    + intros [cs f] [cs' f'] (Fa & Le & He & Ge). cbn [orel fst snd] in *. split; [constructor; assumption|]. split; [cbn [length]; congruence|]. split; [exact He|exact Ge].
Qed.
Lemma picture_same E js junk junk' g g' : env_ok E -> Forall (job_ok E) js -> in_order E js -> grid_ok E g -> grid_ok E g' ->
  orel (same_picture E js) (run_units E junk js g) (run_units E junk' js g').
Proof.
  intros Eok Jok Ord G G'. eapply orel_mono; [apply (run_same E js Eok Jok Ord js [] junk junk' g g' eq_refl G G')|].
  - intros j X Y [].
  - intros a a' (F & L & H & _). constructor; [exact F|exact L|exact H].
Qed.
