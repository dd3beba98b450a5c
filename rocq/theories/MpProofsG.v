(** Proofs: the header of a coding unit. *)
From Coq Require Import ZArith List Bool Lia.
From Verif Require Import CBase CBaseProofs MemModel SaoModel SaoProofs QpModel UtilModel MvModel MvSpec MvProofs HdrModel SynModel CuModel NbModel NbSpec NbProofs MpModel MpSpec MpProofs MpProofsB MpProofsC MpProofsD MpProofsE MpProofsF.
Import ListNotations.
Open Scope Z_scope.

Definition ulen (ty : Z) : nat := if ty =? 1 then 1%nat else 2%nat.
Lemma parts_len four ty n : 1 <= ty <= 7 -> length (parts four ty n) = ulen ty.
Proof.
  intros H. assert (C : ty = 1 \/ ty = 2 \/ ty = 3 \/ ty = 4 \/ ty = 5 \/ ty = 6 \/ ty = 7) by lia.
  destruct C as [-> | [-> | [-> | [-> | [-> | [-> | ->]]]]]]; reflexivity.
Qed.
Lemma look_table {A : Type} (l : list A) (P : A -> Prop) i : Forall P l -> 0 <= i < Z.of_nat (length l) -> exists v, look l i = Done v /\ P v.
Proof.
  intros F Hi. unfold look. destruct (get l i) as [v|] eqn:G.
  - exists v. split; [reflexivity|]. rewrite Forall_forall in F. apply F. unfold get in G. destruct (i <? 0); [discriminate|]. eapply nth_error_In. eassumption.
  - exfalso. unfold get in G. destruct (Z.ltb_spec i 0); [lia|]. apply nth_error_None in G. lia.
Qed.
Lemma to_i8_small v : 0 <= v <= 4 -> to_i8 v = v.
Proof. intros H. unfold to_i8. rewrite Z.mod_small by lia. lia. Qed.
Definition ref_ok (E : env) (d : Z) (r : Z * Z) : Prop := 0 <= fst r < e_nref E /\ (d = 0 /\ snd r = -1 \/ d = 4 /\ 0 <= snd r < e_nref E).
Lemma read_refs_rel E dir : 1 <= e_nref E <= 4 -> (forall i, dir i = 0 \/ dir i = 4 /\ 2 <= e_nref E) -> forall k i refs m m', Forall (fun r => 0 <= r < e_nref E) refs ->
  orel (fun q q' => (forall j, i <= j < i + Z.of_nat k -> q j = q' j /\ ref_ok E (dir j) (q j)) /\ (forall j, ~ (i <= j < i + Z.of_nat k) -> q j = m j /\ q' j = m' j))
    (read_refs (e_nref E) k i dir refs m) (read_refs (e_nref E) k i dir refs m').
Proof.
  intros Hn Hd. induction k as [|k IH]; intros i refs m m' Hr; cbn [read_refs].
  - cbn [orel]. split; [intros j Hj; lia|auto].
  - assert (G : forall r t, 0 <= r < e_nref E -> Forall (fun r => 0 <= r < e_nref E) t ->
      orel (fun q q' => (forall j, i <= j < i + Z.of_nat (S k) -> q j = q' j /\ ref_ok E (dir j) (q j)) /\ (forall j, ~ (i <= j < i + Z.of_nat (S k)) -> q j = m j /\ q' j = m' j))
        (read_refs (e_nref E) k (i + 1) dir t (updf m i (r, if dir i =? 4 then if r =? 0 then 1 else 0 else -1)))
        (read_refs (e_nref E) k (i + 1) dir t (updf m' i (r, if dir i =? 4 then if r =? 0 then 1 else 0 else -1)))).
    { intros r t Hr0 Ht. eapply orel_mono; [apply IH; exact Ht|]. intros q q' [H1 H2]. cbv beta in H1, H2. split.
      - intros j Hj. destruct (Z.eq_dec j i) as [-> |N]; [|apply H1; lia]. destruct (H2 i ltac:(lia)) as [-> ->]. unfold updf. rewrite Z.eqb_refl. split; [reflexivity|].
        unfold ref_ok. cbn [fst snd]. split; [exact Hr0|]. destruct (Hd i) as [D|[D D2]]; rewrite D; cbn [Z.eqb Pos.eqb]; [left; auto|right]. split; [reflexivity|]. destruct (r =? 0); lia.
      - intros j Hj. destruct (H2 j ltac:(lia)) as [-> ->]. unfold updf. destruct (Z.eqb_spec j i); [lia|auto]. }
    destruct (Z.ltb_spec 1 (e_nref E)).
    + destruct refs as [|r t]; [exact I|]. inversion Hr as [|? ? Hr0 Ht]; subst. cbn [bindo]. rewrite (to_i8_small r) by lia. apply G; assumption.
    + cbn [bindo]. apply G; [lia|exact Hr].
Qed.

(** What the header leaves, and what it leaves equal in two runs. *)
Record hok (E : env) (level : Z) (c : cu) : Prop := {
  ho_level : c_level c = level; ho_ty : ty_ok level (c_type c); ho_ds : 0 <= c_ds c <= 4; ho_dsz : c_type c <> 0 -> c_ds c = 0; ho_p : e_type E <> 2 -> e_type E <> 4 -> c_ds c = 0;
  ho_i : e_type E = 0 -> 8 <= c_type c;
  ho_pus : c_pus c = map to_cb (rects (four_of (c_ds c) (c_type c) level) (c_type c) (2 ^ (level - 2)));
  ho_intra : 8 <= c_type c -> forall i, c_dir c i = -1 /\ c_ref c i = (-1, -1);
  ho_inter : 1 <= c_type c <= 7 -> forall j, (j < ulen (c_type c))%nat -> dir_ok E (c_dir c (Z.of_nat j)) (cref false c j) (cref true c j) /\ c_dir c (Z.of_nat j) <> -1;
  ho_bskip : c_type c = 0 -> e_type E = 2 -> forall i, c_dir c i = nth (Z.to_nat (c_ds c)) [2; 3; 1; 2; 0] 0;
  ho_fskip : c_type c = 0 -> e_type E <> 2 -> forall i, c_dir c i = if negb (c_wsm c =? 0) || (c_ds c =? 1) || (c_ds c =? 2) then 4 else 0;
  ho_wsm : c_type c = 0 -> 0 <= c_wsm c < Z.max 1 (e_nref E) /\ (c_wsm c <> 0 -> c_ds c = 0) }.
Record hrel (c c' : cu) : Prop := {
  hr_ty : c_type c = c_type c'; hr_ds : c_ds c = c_ds c'; hr_dmh : c_dmh c = c_dmh c'; hr_pus : c_pus c = c_pus c'; hr_dir : forall i, c_dir c i = c_dir c' i;
  hr_wsm : c_type c = 0 -> c_wsm c = c_wsm c'; hr_refi : 8 <= c_type c -> forall i, c_ref c i = c_ref c' i;
  hr_ref : 1 <= c_type c <= 7 -> forall j, (j < ulen (c_type c))%nat -> c_ref c (Z.of_nat j) = c_ref c' (Z.of_nat j) }.
Definition b_pair (d : Z) : Z * Z := if d =? 0 then (1, -1) else if d =? 1 then (-1, 0) else (1, 0).
Lemma b_refs_val d : 0 <= d <= 3 -> b_refs d = Done (b_pair d).
Proof. intros H. assert (C : d = 0 \/ d = 1 \/ d = 2 \/ d = 3) by lia. destruct C as [-> | [-> | [-> | ->]]]; reflexivity. Qed.
Lemma b_pair_ok E d : e_type E = 2 -> 0 <= d <= 3 -> dir_ok E d (fst (b_pair d)) (snd (b_pair d)).
Proof. intros T H. unfold dir_ok. right. left. split; [exact T|]. assert (C : d = 0 \/ d = 1 \/ d = 2 \/ d = 3) by lia. destruct C as [-> | [-> | [-> | ->]]]; cbn; lia. Qed.
Lemma b_dirs_ok ty ds pdir : 0 <= ty <= 7 -> 0 <= ds <= 4 -> 0 <= pdir <= 15 -> (ty = 1 -> pdir <= 3) ->
  exists d, b_dirs ty ds pdir = Done d /\ (forall i, 0 <= d i <= 3) /\ (ty = 0 -> forall i, d i = nth (Z.to_nat ds) [2; 3; 1; 2; 0] 0).
Proof.
  intros Ht Hd Hp H1. unfold b_dirs. destruct (Z.eqb_spec ty 0) as [-> |N0].
  - exists (fun _ => nth (Z.to_nat ds) [2; 3; 1; 2; 0] 0). assert (C : ds = 0 \/ ds = 1 \/ ds = 2 \/ ds = 3 \/ ds = 4) by lia.
    destruct C as [-> | [-> | [-> | [-> | ->]]]]; (split; [reflexivity|split; [intros i; split; vm_compute; discriminate|reflexivity]]).
  - destruct (Z.eqb_spec ty 1) as [-> |N1]; [eexists; split; [reflexivity|split; intros; lia]|].
    destruct (look_table b_pdir0 (fun v => 0 <= v <= 3) pdir) as (a & -> & Ha); [repeat constructor; lia|cbn; lia|].
    destruct (look_table b_pdir1 (fun v => 0 <= v <= 3) pdir) as (b & -> & Hb); [repeat constructor; lia|cbn; lia|]. cbn [bindo].
    eexists. split; [reflexivity|]. split; [|intros; lia]. intros i. unfold four. destruct ((i =? 1) || (i =? 3)); assumption.
Qed.
Lemma pf_dirs_ok ty pdir : 1 <= ty <= 7 -> 0 <= pdir <= 3 -> exists d, pf_dirs ty pdir = Done d /\ (forall i, d i = 0 \/ d i = 4 /\ pdir <> 0).
Proof.
  intros Ht Hp. unfold pf_dirs. destruct (Z.eqb_spec ty 1) as [-> |N1].
  - eexists. split; [reflexivity|]. intros i. cbv beta. destruct (Z.eqb_spec pdir 0); auto.
  - assert (C : pdir = 0 \/ pdir = 1 \/ pdir = 2 \/ pdir = 3) by lia. destruct C as [-> | [-> | [-> | ->]]]; (eexists; split; [reflexivity|]); intros i; unfold four; destruct ((i =? 1) || (i =? 3)); (left; reflexivity) || (right; split; [reflexivity|lia]).
Qed.

(** The skip modes, from the coded values. *)
Lemma skip_modes E y : env_ok E -> 0 <= y_wsm y < Z.max 1 (e_nref E) -> 0 <= y_ds y <= 4 ->
  let w := if (e_type E =? F_SLICE) && e_wsm E && (1 <? e_nref E) then to_i8 (y_wsm y) else 0 in
  let d := if (w =? 0) && ((e_mhp E && (e_type E =? F_SLICE)) || (e_type E =? B_SLICE)) then to_i8 (y_ds y) else 0 in
  0 <= w < Z.max 1 (e_nref E) /\ 0 <= d <= 4 /\ (w <> 0 -> d = 0) /\ (e_type E <> 2 -> e_type E <> 4 -> d = 0).
Proof.
  intros [_ Hn _ _ _ _ _ _] Hw Hd. cbv zeta. assert (W4 : 0 <= y_wsm y <= 4) by (clear - Hw Hn; lia). rewrite (to_i8_small _ W4), (to_i8_small _ Hd).
  set (w := if (e_type E =? F_SLICE) && e_wsm E && (1 <? e_nref E) then y_wsm y else 0).
  assert (W : 0 <= w < Z.max 1 (e_nref E)) by (unfold w; destruct (_ && _ && _); [exact Hw|clear; lia]). clearbody w.
  split; [exact W|]. split; [destruct (_ && _); [exact Hd|clear; lia]|]. split.
  - intros N. destruct (Z.eqb_spec w 0); [contradiction|reflexivity].
  - intros N2 N4. unfold F_SLICE, B_SLICE. destruct (Z.eqb_spec (e_type E) 4); [contradiction|]. destruct (Z.eqb_spec (e_type E) 2); [contradiction|]. rewrite !andb_false_r. reflexivity.
Qed.
(** Directions and references of an inter unit. *)
Lemma inter_rel E y c c' : env_ok E -> e_type E <> 0 -> syntax_ok E (c_level c) y -> c_level c = c_level c' -> c_type c = c_type c' -> c_ds c = c_ds c' -> 0 <= c_type c <= 7 -> (c_type c <> 0 -> c_type c = y_type y) -> 0 <= c_ds c <= 4 -> (c_type c = 0 -> c_wsm c = c_wsm c') ->
  orel (fun a a' => (forall i, fst a i = fst a' i) /\
    (1 <= c_type c -> forall j, (j < ulen (c_type c))%nat -> let i := Z.of_nat j in snd a i = snd a' i /\ dir_ok E (fst a i) (fst (snd a i)) (snd (snd a i)) /\ fst a i <> -1) /\
    (c_type c = 0 -> e_type E = 2 -> forall i, fst a i = nth (Z.to_nat (c_ds c)) [2; 3; 1; 2; 0] 0) /\
    (c_type c = 0 -> e_type E <> 2 -> forall i, fst a i = if negb (c_wsm c =? 0) || (c_ds c =? 1) || (c_ds c =? 2) then 4 else 0))
    (inter_dirs E y c) (inter_dirs E y c').
Proof.
  intros [Ht Hn Hi Hb _ _ _ _] T0 [_ _ _ _ _ _ _ S8 S9] El Et Ed H7 Hy Hd Hw. unfold inter_dirs. rewrite <- El, <- Et, <- Ed. cbv zeta. destruct S8 as (P0 & P1 & P2 & P3).
  destruct (Z.eqb_spec (e_type E) B_SLICE) as [B|B]; unfold B_SLICE in B.
  - set (pdir := if (1 <=? c_type c) && (c_type c <=? 7) then y_pdir y else 0).
    assert (Hp : 0 <= pdir <= 15) by (unfold pdir; specialize (P2 B); destruct (_ && _); lia).
    assert (Hp1 : c_type c = 1 -> pdir <= 3).
    { intros C1. unfold pdir. rewrite C1. cbn [Z.leb Z.compare Pos.compare Pos.compare_cont andb]. apply P1; [exact B|]. rewrite <- Hy; [exact C1|clear - C1; lia]. }
    clearbody pdir. destruct (b_dirs_ok (c_type c) (c_ds c) pdir H7 Hd Hp Hp1) as (d & -> & Rd & Sd). cbn [bindo].
    rewrite !b_refs_val by apply Rd. cbn [bindo orel fst snd]. split; [reflexivity|]. split; [|split; [intros C0 _; apply Sd; exact C0|intros; contradiction]].
    intros C1 j Lj. unfold ulen in Lj. assert (J : j = 0%nat \/ j = 1%nat) by (destruct (c_type c =? 1); clear - Lj; lia).
    assert (Nd : forall i, d i <> -1) by (intros i; specialize (Rd i); clear - Rd; lia).
    destruct J as [-> | ->]; cbn [Z.of_nat Pos.of_succ_nat]; unfold updf; cbn [Z.eqb Pos.eqb]; (split; [reflexivity|split; [apply b_pair_ok; [exact B|apply Rd]|apply Nd]]).
  - destruct (Z.eqb_spec (c_type c) 0) as [C0|C0].
    + rewrite <- (Hw C0). cbn [orel fst snd]. split; [reflexivity|]. split; [intros; clear - C0 H; lia|]. split; [intros; contradiction|reflexivity].
    + set (pdir := if (e_type E =? F_SLICE) && (1 <? e_nref E) && e_dhp E && negb ((c_level c =? 3) && (2 <=? c_type c) && (c_type c <=? 7)) then y_pdir y else 0).
      assert (Hp : 0 <= pdir <= 3 /\ (pdir <> 0 -> 2 <= e_nref E)).
      { unfold pdir. specialize (P3 B). destruct (Z.ltb_spec 1 (e_nref E)) as [L|L]; [destruct (_ && _ && _ && _); clear - P0 P3 L; lia|]. rewrite andb_false_r. cbn [andb]. clear; lia. }
      clearbody pdir. destruct Hp as [Hp Hp2]. destruct (pf_dirs_ok (c_type c) pdir ltac:(clear - C0 H7; lia) Hp) as (d & -> & Rd). cbn [bindo].
      replace (e_type E =? S_SLICE) with false by (symmetry; apply Z.eqb_neq; unfold S_SLICE; clear - Ht; lia).
      eapply orel_bind; [apply (read_refs_rel E d)|].
      * specialize (Hi T0). clear - Hi Hn. lia.
      * intros i. destruct (Rd i) as [->|[-> N]]; [left; reflexivity|right; split; [reflexivity|apply Hp2; exact N]].
      * exact S9.
      * intros q q' [H1 _]. cbv beta in H1. cbn [orel fst snd]. split; [reflexivity|]. split; [|split; intros; contradiction].
        intros _ j Lj. assert (K : 0 <= Z.of_nat j < 0 + Z.of_nat (if c_type c =? 1 then 1%nat else 2%nat)) by (unfold ulen in Lj; clear - Lj; destruct (c_type c =? 1); lia).
        destruct (H1 _ K) as [-> [R0 R1]]. split; [reflexivity|]. split; [|destruct (Rd (Z.of_nat j)) as [->|[-> _]]; clear; lia].
        unfold dir_ok. right. right. split; [clear - Ht B T0; lia|]. split; [exact R0|]. exact R1.
Qed.
Lemma header_rel E level y c c' : env_ok E -> 3 <= level <= 6 -> syntax_ok E level y ->
  orel (fun a a' => hok E level a /\ hok E level a' /\ hrel a a') (header E level y c) (header E level y c').
Proof.
  intros Eok Hl Sok. pose proof Eok as [Ht Hn Hi Hb _ _ _ _]. pose proof Sok as [S1 S2 S3 S4 S5 S6 S7 S8 S9]. unfold header.
  replace (e_type E =? S_SLICE) with false by (symmetry; apply Z.eqb_neq; unfold S_SLICE; clear - Ht; lia).
  pose proof (skip_modes E y Eok S6 S7) as M. cbv zeta in M.
  set (w0 := if (e_type E =? F_SLICE) && e_wsm E && (1 <? e_nref E) then to_i8 (y_wsm y) else 0) in *.
  set (d0 := if (w0 =? 0) && ((e_mhp E && (e_type E =? F_SLICE)) || (e_type E =? B_SLICE)) then to_i8 (y_ds y) else 0) in *. clearbody d0. clearbody w0.
  destruct M as (W0 & D0 & D1 & D2).
  assert (Is : e_type E = 0 /\ 0 = 0 \/ e_type E = 1 \/ e_type E = 2 \/ e_type E = 4) by (clear - Ht; lia).
  destruct (Z.leb_spec (y_type y) 0) as [Y0|Y0]; cbv beta iota zeta.
  - assert (T0 : e_type E <> 0) by (intros T; specialize (S3 T); clear - S3 Y0; lia).
    replace (Z.max 0 (y_type y)) with 0 by (clear - Y0; lia). cbn [Z.leb Z.compare]. replace (e_type E =? I_SLICE) with false by (symmetry; apply Z.eqb_neq; exact T0).
    eapply orel_bind; [apply (inter_rel E y); cbn [c_level c_type c_ds c_wsm]; try assumption; try reflexivity; clear; lia|].
    cbn [c_level c_type c_ds c_wsm]. intros [d r] [d' r'] (A1 & _ & A3 & A4). cbn [fst snd] in *. rewrite !andb_false_r. cbn [orel].
    assert (Pu : prediction_units (e_type E) d0 0 level = map to_cb (rects (four_of d0 0 level) 0 (2 ^ (level - 2)))).
    { apply units_rects; [|exact D0|exact Hl|unfold ty_ok; clear; lia]. right. clear - Ht T0 D2. destruct (Z.eq_dec (e_type E) 2); [auto|]. destruct (Z.eq_dec (e_type E) 4); [auto|]. left. split; [lia|auto]. }
    assert (A4' : e_type E <> 2 -> forall i, d' i = if negb (w0 =? 0) || (d0 =? 1) || (d0 =? 2) then 4 else 0) by (intros N i; rewrite <- A1; apply A4; [reflexivity|exact N]).
    assert (A3' : e_type E = 2 -> forall i, d' i = nth (Z.to_nat d0) [2; 3; 1; 2; 0] 0) by (intros N i; rewrite <- A1; apply A3; [reflexivity|exact N]).
    split; [|split]; constructor; cbn [c_level c_type c_ds c_wsm c_dmh c_pus c_dir c_ref]; try reflexivity; try assumption; try (intros; exfalso; clear - H; lia); auto; try (unfold ty_ok; clear; lia).
    all: intros T; contradiction.
  - set (ty := y_type y) in *. assert (T1 : 1 <= ty <= 9) by (clear - S1 Y0; lia). replace (Z.max 0 ty) with ty by (clear - T1; lia).
    destruct (Z.leb_spec ty 7) as [L7|L7].
    + assert (T0 : e_type E <> 0) by (intros T; specialize (S3 T); clear - S3 L7; lia).
      replace (e_type E =? I_SLICE) with false by (symmetry; apply Z.eqb_neq; exact T0).
      eapply orel_bind; [apply (inter_rel E y); cbn [c_level c_type c_ds c_wsm]; try assumption; try reflexivity; try (clear - T1 L7; lia)|].
      cbn [c_level c_type c_ds c_wsm]. intros [d r] [d' r'] (A1 & A2 & _ & _). cbn [fst snd] in *. specialize (A2 ltac:(clear - T1; lia)). cbn [orel].
      assert (Tk : ty_ok level ty) by (unfold ty_ok; split; [clear - T1; lia|split; [exact S2|clear - L7; lia]]).
      assert (Pu : prediction_units (e_type E) 0 ty level = map to_cb (rects (four_of 0 ty level) ty (2 ^ (level - 2)))).
      { apply units_rects; [|clear; lia|exact Hl|exact Tk]. right. clear - Ht T0. destruct (Z.eq_dec (e_type E) 2); [auto|]. destruct (Z.eq_dec (e_type E) 4); [auto|]. left. split; [lia|auto]. }
      assert (Dm : forall j, d' j = d j) by (intros j; symmetry; apply A1). rewrite !Dm.
      split; [|split]; constructor; cbn [c_level c_type c_ds c_wsm c_dmh c_pus c_dir c_ref]; try reflexivity; try assumption; try (intros; exfalso; clear - H T1 L7; lia); auto; try (clear; lia).
      * intros _ j Lj. destruct (A2 j Lj) as (_ & Q1 & Q2). split; [exact Q1|exact Q2].
      * intros _ j Lj. destruct (A2 j Lj) as (Q0 & Q1 & Q2). unfold cref. cbn [c_ref]. rewrite <- Q0, !Dm. split; [exact Q1|exact Q2].
      * intros _ j Lj. destruct (A2 j Lj) as (Q0 & _). exact Q0.
    + cbn [orel].
      assert (Tk : ty_ok level (y_itype y)) by (unfold ty_ok; split; [clear - S4; lia|split; [clear - S4; lia|exact S5]]).
      assert (Pu : prediction_units (e_type E) 0 (y_itype y) level = map to_cb (rects (four_of 0 (y_itype y) level) (y_itype y) (2 ^ (level - 2)))).
      { apply units_rects; [|clear; lia|exact Hl|exact Tk]. clear - Ht S4. lia. }
      split; [|split]; constructor; cbn [c_level c_type c_ds c_wsm c_dmh c_pus c_dir c_ref]; try reflexivity; try assumption; try (intros; exfalso; clear - H S4; lia); auto; try (clear - S4; lia).
Qed.
