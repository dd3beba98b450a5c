(** Coding units are read back; where the levels go. *)
From Coq Require Import ZArith List Bool Lia.
From Verif Require Import CBase CBaseProofs AecModel AecSpec SynModel SynSpec BinSpec BinProofs BinProofsB BinProofsD CofSpec CofProofs CofProofsB CofProofsC.
Import ListNotations.
Open Scope Z_scope.

Lemma pattern_range : forall p lev, 0 <= block_pattern p lev <= 2.
Proof. intros p lev. unfold block_pattern, DCT_DEFAULT, DCT_HALF, DCT_QUAD. destruct (reaches 2 p lev); [lia|]. destruct (reaches 4 p lev); lia. Qed.

Section Unit.
Context (c : cu_coef) (lev : Z -> levels).
Local Notation ok l := (forall b o, In (b, o) l -> exists p, o = Some p /\ block_in_use p /\ levels_ok p (lev b)).
Definition luma_of (b : Z) : Z * option blk := (b, luma_blk (c_level c) (c_split c) (c_dc c b) (c_swap c b) (c_scale c) (c_shift c)).
Definition chroma_of (b : Z) : Z * option blk := (b, chroma_blk (c_level c) (c_split c) (c_cscale c (b - 4)) (c_cshift c (b - 4))).

Lemma split_read : forall k out, let l := map luma_of (filter (Z.testbit (c_cbp c)) (map (fun i => 3 - i) (down k))) in ok l ->
  reads (split_blocks k c out) (flat_map (blk_bins lev) l) (true, out ++ flat_map (blk_out lev) l).
Proof.
  induction k as [|k IH]; intros out l H; subst l; cbn [split_blocks].
  - cbn. rret. rewrite app_nil_r. reflexivity.
  - rewrite down_S in *. cbn [map filter] in *. set (b := 3 - Z.of_nat k) in *. destruct (Z.testbit (c_cbp c) b).
    + cbn [map flat_map] in *. destruct (H b _ (or_introl eq_refl)) as (p & E & U & L). cbn [snd] in E. rewrite E.
      eapply reads_quiet; [apply reads_ret|]. cbv beta. assert (EB: luma_of b = (b, Some p)) by (unfold luma_of; rewrite E; reflexivity). rewrite EB. cbn [blk_bins blk_out fst snd] in *.
      eapply reads_bind; [apply (block_read p (lev b) U L)|]. cbv beta iota. pose proof (pattern_range p (lev b)) as PR. rewrite to_i8_id by lia.
      replace (block_pattern p (lev b) <? 0) with false by lia. rewrite app_assoc. apply IH. intros b' o' HI. apply H. right. exact HI.
    + apply IH. exact H.
Qed.
Lemma chroma_read : forall k out, let l := map chroma_of (filter (Z.testbit (c_cbp c)) (map (fun i => 5 - i) (down k))) in ok l ->
  reads (chroma_blocks k c out) (flat_map (blk_bins lev) l) (true, out ++ flat_map (blk_out lev) l).
Proof.
  induction k as [|k IH]; intros out l H; subst l; cbn [chroma_blocks].
  - cbn. rret. rewrite app_nil_r. reflexivity.
  - rewrite down_S in *. cbn [map filter] in *. replace (1 - Z.of_nat k + 4) with (5 - Z.of_nat k) by lia. set (b := 5 - Z.of_nat k) in *. assert (UB: 1 - Z.of_nat k = b - 4) by (subst b; lia). destruct (Z.testbit (c_cbp c) b).
    + cbn [map flat_map] in *. destruct (H b _ (or_introl eq_refl)) as (p & E & U & L). cbn [snd] in E. rewrite UB, E.
      eapply reads_quiet; [apply reads_ret|]. cbv beta. assert (EB: chroma_of b = (b, Some p)) by (unfold chroma_of; rewrite E; reflexivity). rewrite EB. cbn [blk_bins blk_out fst snd] in *.
      eapply reads_bind; [apply (block_read p (lev b) U L)|]. cbv beta iota. pose proof (pattern_range p (lev b)) as PR. rewrite to_i8_id by lia.
      replace (block_pattern p (lev b) <? 0) with false by lia. rewrite app_assoc. replace (4 + (b - 4)) with b by lia. apply IH. intros b' o' HI. apply H. right. exact HI.
    + apply IH. exact H.
Qed.
Lemma unit_read : unit_ok c lev -> reads (read_all_coeffs c) (unit_bins c lev) (true, unit_out c lev).
Proof.
  intros H. unfold read_all_coeffs, unit_bins, unit_out. unfold unit_ok, unit_blocks in *. rewrite !flat_map_app.
  eapply reads_bind with (x := (true, flat_map (blk_out lev) (unit_luma c))).
  - assert (HL: ok (unit_luma c)) by (intros b o HI; apply H, in_or_app; left; exact HI). clear H. unfold unit_luma in *. destruct (Z.eqb_spec (c_split c) NON) as [N|N].
    + destruct (Z.land (c_cbp c) 15 =? 0); cbn [negb]; [apply reads_ret|]. destruct (HL 0 _ (or_introl eq_refl)) as (p & E & U & L). cbn [snd] in E. rewrite E.
      eapply reads_quiet; [apply reads_ret|]. cbv beta. cbn [flat_map blk_bins blk_out fst snd]. rewrite app_nil_r. apply reads_end.
      eapply reads_bind; [apply (block_read p (lev 0) U L)|]. cbv beta iota. rret. pose proof (pattern_range p (lev 0)). rewrite to_i8_id by lia. reflexivity.
    + exact (split_read 4 [] HL).
  - cbv beta iota. assert (HC: ok (unit_chroma c)) by (intros b o HI; apply H, in_or_app; right; exact HI). clear H. unfold unit_chroma in *. destruct (c_400 c).
    + cbn [flat_map]. rret. rewrite app_nil_r. reflexivity.
    + exact (chroma_read 2 _ HC).
Qed.
End Unit.

(** ** Where the levels are. *)
Lemma places : forall p lev, block_in_use p -> forall o v,
  In (o, v) (flat_map snd (block_groups p lev)) <->
  exists k i, 0 <= k < num_groups p /\ 0 <= i < 16 /\ lev k i <> 0 /\ v = scaled p (lev k i) /\
    let '(gx, gy) := exchanged p (group_xy p k) in let '(x, y) := exchanged p (nth (Z.to_nat i) tab_scan_4x4 (0, 0)) in o = (4 * gy + y) * b_w p + (4 * gx + x).
Proof.
  intros p lev HU o v. unfold block_groups. rewrite in_flat_map. split.
  - intros (gr & H1 & H2). apply in_map_iff in H1. destruct H1 as (k & <- & H1). apply (used_in p lev HU) in H1. unfold group_of in H2. destruct (exchanged p (group_xy p k)) as [gx gy] eqn:EG. cbn [snd] in H2.
    apply in_map_iff in H2. destruct H2 as (i & E & H2). apply in_rev, coded_in in H2. exists k, i. rewrite EG. destruct (exchanged p (nth (Z.to_nat i) tab_scan_4x4 (0, 0))) as [x y].
    apply pair_equal_spec in E. destruct E as [<- <-]. repeat (split; [tauto|]). lia.
  - intros (k & i & Hk & Hi & Hn & -> & E). exists (group_of p lev k). split.
    + apply in_map. apply (used_in p lev HU). split; [exact Hk|]. apply live_spec. intros C. assert (I2: In i (coded (lev k))) by (apply coded_in; auto). rewrite C in I2. exact I2.
    + unfold group_of. destruct (exchanged p (group_xy p k)) as [gx gy]. cbn [snd]. apply in_map_iff. exists i. destruct (exchanged p (nth (Z.to_nat i) tab_scan_4x4 (0, 0))) as [x y].
      split; [rewrite E; f_equal; lia|]. apply -> in_rev. apply coded_in. auto.
Qed.
