(** The groups of a block. *)
From Coq Require Import ZArith List Bool Lia.
From Verif Require Import CBase CBaseProofs AecModel AecSpec SynModel SynSpec SynProofsA SynProofsB SynProofsC.
Import ListNotations.
Open Scope Z_scope.

Lemma nodup_app_intro : forall A (l m : list A), NoDup l -> NoDup m -> (forall x, In x l -> ~ In x m) -> NoDup (l ++ m).
Proof.
  intros A l. induction l as [|a l IH]; intros m Nl Nm D; cbn [app]; [exact Nm|]. inversion_clear Nl as [|? ? N1 N2]. constructor.
  - intros I1. apply in_app_or in I1. destruct I1 as [I1|I1]; [contradiction|]. exact (D a (or_introl eq_refl) I1).
  - apply IH; [exact N2|exact Nm|]. intros x Ix. apply D. right. exact Ix.
Qed.

Section Rules.
Context {u : Prop}.
Local Notation safe := (safe_or u).

Definition blk_post (p : blk) (r : Z * list group) : Prop :=
  -1 <= fst r <= 2 /\ Forall (group_ok (b_w p) (b_h p)) (snd r) /\ NoDup (map fst (snd r)) /\
  (0 <= fst r -> Forall (within (b_w p) (b_h p) (fst r)) (snd r) /\ snd r <> []).

Section Blk.
  Context (p : blk) (S1 : shape_ok p).
  Let N := Z.shiftr (b_w p * b_h p) 4.

  Lemma gxy_in : forall i x y, 0 <= i < N -> get (b_scan p) i = Some (x, y) ->
    let '(gx, gy) := gxy p x y in 0 <= gx /\ 4 * gx + 4 <= b_w p /\ 0 <= gy /\ 4 * gy + 4 <= b_h p.
  Proof.
    intros i x y Hi G. destruct (shape_facts p S1) as (_ & _ & _ & F & _). specialize (F i (x, y) Hi G). cbn [fst snd] in F.
    destruct S1 as (_ & Sq & _). unfold gxy. destruct (b_swap p); [specialize (Sq eq_refl)|]; lia.
  Qed.
  Lemma gxy_inj : forall x y x' y', gxy p x y = gxy p x' y' -> (x, y) = (x', y').
  Proof. intros x y x' y' H. unfold gxy in H. destruct (b_swap p); congruence. Qed.

  Definition from_scan (k : Z) (g : group) : Prop :=
    exists i x y, k <= i < N /\ get (b_scan p) i = Some (x, y) /\ fst g = gxy p x y.

  Lemma read_groups_safe : forall esc one, level_reader_or u esc -> forall n rank cgx cgy pat out,
    Z.of_nat n <= N -> 0 <= rank <= 4 -> 0 <= pat <= 2 ->
    (rank = 0 -> (0 < n)%nat /\ get (b_scan p) (Z.of_nat n - 1) = Some (cgx, cgy)) -> (rank <> 0 -> out <> []) ->
    Forall (group_ok (b_w p) (b_h p)) out -> NoDup (map fst out) -> Forall (from_scan (Z.of_nat n)) out ->
    Forall (fun g => inside p pat (fst (fst g)) (snd (fst g))) out ->
    safe (read_groups n esc p one rank cgx cgy pat out) (blk_post p).
  Proof.
    destruct (shape_facts p S1) as (_ & LS & W4 & SC & SI & _). fold N in LS, SC, SI.
    pose proof S1 as (_ & Sq & Q).
    intros esc one He. induction n as [|k IH]; intros rank cgx cgy pat out HN Hr Hp R0 RN FG ND FS FI; cbn [read_groups].
    - assert (rank <> 0) by (intros E; destruct (R0 E); lia). apply safe_ret.
      split; [cbn; lia|]. split; [exact FG|]. split; [exact ND|]. intros _. cbn [fst snd]. split; [|auto].
      apply Forall_forall. intros [[gx gy] ws] I1. rewrite Forall_forall in FG, FI. pose proof (FG _ I1) as G1. pose proof (FI _ I1) as G2.
      assert (4 <= b_h p) by (destruct G1 as (_ & _ & G1 & G3 & _); clear - G1 G3; lia). apply inside_within; [lia|lia|exact G2|exact G1].
    - replace (Z.of_nat (S k) - 1) with (Z.of_nat k) in R0 by lia.
      apply safe_bind with (P := fun r => let '(x, y, b) := r in get (b_scan p) (Z.of_nat k) = Some (x, y) /\ (rank = 0 -> b = 1)).
      { apply safe_if; intros E.
        - apply Z.ltb_lt in E. apply safe_bind with (P := fun v => get (b_scan p) (Z.of_nat k) = Some v).
          + apply safe_lookup; [lia|auto].
          + intros [x y] G. apply safe_bind with (P := fun _ => True).
            * apply safe_sym; [|auto|auto]. unfold A_SIGCG. destruct (b_luma p), (Z.of_nat k =? 0); cbn; lia.
            * intros b _. apply safe_ret. split; [exact G|lia].
        - apply Z.ltb_ge in E. apply safe_ret. split; [apply R0; lia|auto]. }
      intros [[x y] sig] [G Sg].
      assert (FS' : Forall (from_scan (Z.of_nat k)) out).
      { eapply Forall_impl; [|exact FS]. intros g (i & a & b & H1 & H2). exists i, a, b. split; [lia|exact H2]. }
      apply safe_if; intros E.
      + apply Z.eqb_eq in E. assert (rank <> 0) by (intros E0; specialize (Sg E0); lia).
        apply IH; try assumption; [lia|]. intros E0. contradiction.
      + pose proof (gxy_in (Z.of_nat k) x y ltac:(lia) G) as GI.
        apply safe_bind with (P := fun o => match o with
          | Some r => fst (fst r) = gxy p x y /\ group_ok (b_w p) (b_h p) (fst r) /\ 1 <= snd r <= 4 | None => True end).
        { apply safe_catch; [|exact Logic.I]. eapply safe_bind; [apply read_group_safe; [exact He|exact Q|exact W4|exact Hr|exact GI]|].
          intros r Hr'. apply safe_ret. exact Hr'. }
        intros [[[[gx gy] ws] rank']|] Hx.
        * cbn [fst snd] in Hx. destruct Hx as (Egx & Gok & Hr').
          assert (BH : 4 <= b_h p) by (destruct Gok as (_ & _ & G1 & G3 & _); clear - G1 G3; lia).
          apply IH; try lia.
          -- apply next_range; exact Hp.
          -- intros _ Z0. apply app_eq_nil in Z0. destruct Z0 as [_ Z0]; discriminate.
          -- apply Forall_app. split; [exact FG|constructor; [exact Gok|constructor]].
          -- rewrite map_app. cbn [map fst]. apply nodup_app_intro; [exact ND|constructor; [intros []|constructor]|]. intros gg I1 [I2|[]]. subst gg. apply in_map_iff in I1. destruct I1 as (g & Eg & Ig).
             rewrite Forall_forall in FS. destruct (FS g Ig) as (i & a & b & H1 & H2 & H3).
             rewrite H3, Egx in Eg. apply gxy_inj in Eg. rewrite Eg in H2.
             assert (i = Z.of_nat k) by (apply (SI i (Z.of_nat k) (x, y)); [lia|lia|exact H2|exact G]). lia.
          -- apply Forall_app. split; [exact FS'|constructor; [|constructor]]. exists (Z.of_nat k), x, y. split; [lia|]. split; [exact G|exact Egx].
          -- apply Forall_app. split.
             ++ eapply Forall_impl; [|exact FI]. intros g Hg. apply next_mono; [lia|lia|exact Hp|exact Hg].
             ++ constructor; [|constructor]. cbn [fst snd]. apply next_inside; [lia|lia|exact Hp].
        * apply safe_ret. split; [cbn; lia|]. split; [exact FG|]. split; [exact ND|]. cbn [fst]. lia.
  Qed.

  Lemma run_level_safe : forall esc, level_reader_or u esc -> safe (run_level_gen esc p) (blk_post p).
  Proof.
    intros esc He. destruct (shape_facts p S1) as (N1 & LS & _ & _ & _ & G0). fold N in N1, LS. unfold run_level_gen. fold N. cbv zeta.
    apply safe_bind with (P := fun r => let '(i, x, y) := r in 0 <= i < N /\ get (b_scan p) i = Some (x, y)).
    - apply safe_if; intros E.
      + apply Z.ltb_lt in E. apply (last_cg_pos_safe p S1). exact E.
      + apply safe_ret. split; [lia|exact G0].
    - intros [[i x] y] [Hi G]. apply read_groups_safe; try lia; try constructor; try exact He.
      + unfold DCT_QUAD. lia.
      + unfold DCT_QUAD. lia.
      + lia.
      + replace (Z.of_nat (Z.to_nat (i + 1)) - 1) with i by lia. exact G.
  Qed.
End Blk.
End Rules.

(** Different groups write different places. *)
Lemma group_place : forall w h g o, group_ok w h g -> In o (map fst (snd g)) ->
  exists x y, at_xy w x y o /\ x / 4 = fst (fst g) /\ y / 4 = snd (fst g).
Proof.
  intros w h [[gx gy] ws] o (_ & _ & _ & _ & _ & _ & F) I1. cbn [fst snd] in *. apply in_map_iff in I1. destruct I1 as (v & <- & Iv).
  rewrite Forall_forall in F. destruct (F v Iv) as [(x & y & A & B & C) _]. exists x, y. split; [exact A|].
  split; [|]; symmetry; [apply (Z.div_unique x 4 gx (x - 4 * gx))|apply (Z.div_unique y 4 gy (y - 4 * gy))]; lia.
Qed.
Lemma at_xy_inj : forall w x y x' y' o, at_xy w x y o -> at_xy w x' y' o -> x = x' /\ y = y'.
Proof. intros w x y x' y' o (A1 & A2 & A3) (B1 & B2 & B3). assert (y = y') by nia. subst y'. split; [lia|reflexivity]. Qed.
Lemma groups_flat : forall w h gs, Forall (group_ok w h) gs -> NoDup (map fst gs) -> block_ok w h gs.
Proof.
  intros w h gs F N. split; [exact F|]. induction F as [|g t G F IH]; cbn [map concat]; [constructor|].
  inversion_clear N as [|? ? N1 N2]. apply nodup_app_intro.
  - destruct g as [[gx gy] ws]. destruct G as (_ & _ & _ & _ & _ & G & _). exact G.
  - exact (IH N2).
  - intros o Io Ic. apply N1. apply in_concat in Ic. destruct Ic as (l & Il & Io'). apply in_map_iff in Il. destruct Il as (g' & <- & Ig').
    rewrite Forall_forall in F. destruct (group_place w h g o G Io) as (x & y & A & A1 & A2).
    destruct (group_place w h g' o (F g' Ig') Io') as (x' & y' & B & B1 & B2). destruct (at_xy_inj _ _ _ _ _ _ A B) as [-> ->].
    replace (fst g) with (fst g'); [apply in_map; exact Ig'|]. destruct (fst g), (fst g'). cbn [fst snd] in *. f_equal; lia.
Qed.

(** The reader in use. *)
Lemma esc_prefix_pos : forall f acc g, 0 <= g <= 31 -> 1 <= acc -> 32 <= g + Z.of_nat f -> safe_or True (esc_prefix f acc g) (fun r => 1 <= fst r).
Proof.
  induction f as [|f IH]; intros acc g Hg Ha Hf; [lia|]. cbn [esc_prefix].
  apply safe_bind with (P := fun _ => True); [apply safe_byp; auto|]. intros l _.
  apply safe_bind with (P := fun _ => True); [apply safe_check; auto|]. intros _ _.
  apply safe_if; intros _; [|apply safe_ret; cbn; lia]. apply safe_if; intros E.
  - intros a cs L. cbn. exact Logic.I.
  - apply Z.leb_gt in E. assert (0 <= Z.shiftl 1 g) by (apply Z.shiftl_nonneg; lia).
    apply safe_bind with (P := fun v => v = acc + Z.shiftl 1 g); [apply safe_chk_or; auto|].
    intros v ->. apply IH; lia.
Qed.
Lemma esc_suffix_pos : forall g bin, 0 <= bin -> safe_or True (esc_suffix g bin) (fun v => 0 <= v).
Proof.
  induction g as [|k IH]; intros bin Hb; cbn [esc_suffix]; [apply safe_ret; exact Hb|].
  apply safe_bind with (P := fun b => 0 <= b); [apply safe_byp; lia|]. intros b Hb'. apply IH.
  apply Z.lor_nonneg. split; [exact Hb|]. apply Z.shiftl_nonneg. exact Hb'.
Qed.
Lemma esc_code_reader : level_reader_or True (esc_code 1).
Proof.
  unfold level_reader_or, esc_code. apply safe_bind with (P := fun r => 1 <= fst r); [apply esc_prefix_pos; [lia|lia|change (Z.of_nat 40) with 40; lia]|].
  intros [acc g] Ha. cbn [fst] in Ha. eapply safe_bind; [apply esc_suffix_pos; lia|]. intros bin Hb. cbv beta in Hb.
  apply safe_chk_or; [auto|]. intros _. split; [lia|auto].
Qed.

(** ** Statements. *)
Lemma coeffs_safe : forall esc p, level_reader esc -> block_in_use p ->
  safe (run_level_gen esc p) (fun r => block_ok (b_w p) (b_h p) (snd r)).
Proof.
  intros esc p He Hp. eapply safe_weaken; [apply run_level_safe; [apply in_use_shape; exact Hp|exact He]|].
  intros r (_ & F & N & _). apply groups_flat; assumption.
Qed.
Lemma coeffs_done : forall p a cs a1 cs1 r, block_in_use p -> legal cs -> run_level p a cs = Done (a1, cs1, Some r) ->
  legal cs1 /\ block_ok (b_w p) (b_h p) (snd r).
Proof.
  intros p a cs a1 cs1 r Hp L H. pose proof (run_level_safe p (in_use_shape p Hp) _ esc_code_reader a cs L) as R.
  unfold run_level in H. rewrite H in R. destruct R as (L1 & _ & F & N & _). split; [exact L1|apply groups_flat; assumption].
Qed.
Lemma coeffs_no_hang : forall p a cs, block_in_use p -> legal cs -> run_level p a cs <> Hang.
Proof.
  intros p a cs Hp L H. pose proof (run_level_safe p (in_use_shape p Hp) _ esc_code_reader a cs L) as R.
  unfold run_level in H. rewrite H in R. exact R.
Qed.
Lemma pattern_covers : forall p a cs a1 cs1 pat gs, block_in_use p -> legal cs -> run_level p a cs = Done (a1, cs1, Some (pat, gs)) -> pat <> -1 ->
  0 <= pat <= 2 /\ gs <> [] /\ Forall (within (b_w p) (b_h p) pat) gs.
Proof.
  intros p a cs a1 cs1 pat gs Hp L H Hn. pose proof (run_level_safe p (in_use_shape p Hp) _ esc_code_reader a cs L) as R.
  unfold run_level in H. rewrite H in R. destruct R as (_ & Rp & _ & _ & W). cbn [fst snd] in *.
  assert (E : 0 <= pat) by lia. destruct (W E) as [W1 W2]. split; [lia|auto].
Qed.
