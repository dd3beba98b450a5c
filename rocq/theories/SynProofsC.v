(** The coefficients of a group and of a block. *)
From Coq Require Import ZArith List Bool Lia Sorted.
From Verif Require Import CBase CBaseProofs AecModel AecSpec MvSpec MvProofs SynModel SynSpec SynProofsA SynProofsB.
Import ListNotations.
Open Scope Z_scope.

Section Rules.
Context {u : Prop}.
Local Notation safe := (safe_or u).


Lemma read_level_safe : forall esc p first pos rank np, level_reader_or u esc -> 0 <= rank <= 4 -> 0 <= np ->
  safe (read_level esc p first pos rank np) (fun v => 1 <= v /\ (u \/ v <= 1073741856)).
Proof.
  intros esc p first pos rank np He Hr Hn. unfold read_level.
  apply safe_bind with (P := fun _ => True); [apply safe_fin; auto|]. intros f _.
  apply safe_bind with (P := fun v => 1 <= v /\ (u \/ v <= 1073741856)).
  - apply safe_if; intros _.
    + eapply safe_bind; [exact He|]. intros v [Hv1 Hv2]. apply safe_chk_or; [destruct Hv2; [left; assumption|right; lia]|]. intros _.
      split; [lia|]. destruct Hv2; [left; assumption|right; lia].
    + cbv zeta. apply safe_bind with (P := fun v => 0 <= v <= 31).
      * assert (I1 : 0 <= Z.min 2 (Z.shiftr (np + 1) 1) <= 2).
        { assert (0 <= Z.shiftr (np + 1) 1) by (apply Z.shiftr_nonneg; lia). lia. }
        set (idx := Z.min 2 (Z.shiftr (np + 1) 1)) in *. clearbody idx.
        assert (E : idx = 0 \/ idx = 1 \/ idx = 2) by lia.
        assert (SZ : a_size (A_LEVEL (b_luma p)) = 20) by (destruct (b_luma p); reflexivity).
        apply safe_cont0; [|lia|auto]. rewrite SZ.
        assert (B : 0 <= Z.shiftr (5 * idx) 1 <= 5 - (2 - idx)) by (destruct E as [-> | [-> | ->]]; vm_compute; split; congruence).
        destruct (first && (pos <? 3)); lia.
      * intros v Hv. apply safe_ret. split; [lia|right; lia].
  - intros lv Hl. apply safe_bind with (P := fun _ => True); [apply safe_check; auto|]. intros _ _. apply safe_ret. exact Hl.
Qed.

(** A pair list: 16-bit levels, runs below sixteen. *)
Definition pair_ok (lr : Z * Z) : Prop := in_i16 (fst lr) /\ 0 <= snd lr <= 15.
Fixpoint span (ps : list (Z * Z)) : Z := match ps with [] => 0 | lr :: t => snd lr + 1 + span t end.
Lemma span_app : forall a b, span (a ++ b) = span a + span b.
Proof. induction a as [|x a IH]; intros b; cbn [span app]; [lia|]. rewrite IH. lia. Qed.
Lemma span_rev : forall a, span (rev a) = span a.
Proof. induction a as [|x a IH]; cbn [span rev]; [reflexivity|]. rewrite span_app, IH. cbn [span]. lia. Qed.
Lemma span_length : forall ps, Forall pair_ok ps -> Z.of_nat (length ps) <= span ps.
Proof. induction 1 as [|x t [_ H] _ IH]; cbn [span length]; lia. Qed.

Lemma abssum_range : forall ps n acc, Forall pair_ok ps -> 0 <= acc -> 0 <= n -> acc <= abssum ps n acc <= acc + 32768 * Z.of_nat (length ps).
Proof.
  induction ps as [|[lv run] t IH]; intros n acc F Ha Hn; cbn [abssum length]; [lia|].
  pose proof (Forall_inv F) as [H1 H2]. cbn [fst snd] in *. apply Forall_inv_tail in F. unfold in_i16 in H1.
  destruct (6 <=? n + run); [lia|]. specialize (IH (n + run + 1) (acc + Z.abs lv) F ltac:(lia) ltac:(lia)). lia.
Qed.

Lemma tchr : forall r v, 0 <= r <= 4 -> get T_Chr r = Some v -> r = 0 -> v = 0.
Proof. intros r v H G ->. cbn in G. congruence. Qed.
Lemma trank : forall i v, get tab_rank i = Some v -> 0 <= v <= 4 /\ (1 <= i -> 1 <= v).
Proof.
  intros i v G. unfold get in G. destruct (i <? 0) eqn:E; [discriminate|]. apply Z.ltb_ge in E.
  destruct (Z.to_nat i) as [|[|[|[|[|[|k]]]]]] eqn:K; cbn in G; try (apply Some_inj in G; subst v; lia).
  destruct k; discriminate.
Qed.

Lemma read_pairs_safe : forall esc p one first, level_reader_or u esc -> forall f pos rank ps P,
  0 <= pos <= 15 -> 0 <= rank <= 4 -> Forall pair_ok ps -> span ps + pos + 1 = P -> P <= 16 -> pos + 1 <= Z.of_nat f ->
  safe (read_pairs f esc p one first pos rank ps) (fun r => Forall pair_ok (fst r) /\ span (fst r) = P /\ 1 <= snd r <= 4).
Proof.
  intros esc p one first He. induction f as [|f IH]; intros pos rank ps P Hp Hr F Hs HP Hf; [lia|]. cbn [read_pairs].
  apply safe_bind with (P := fun v => 1 <= v /\ (u \/ v <= 1073741856)); [apply read_level_safe; [exact He|lia|lia]|]. intros lv [Hl Hlu].
  pose proof (span_length ps F) as SL. pose proof (abssum_range ps 0 0 F ltac:(lia) ltac:(lia)) as AB.
  apply safe_bind with (P := fun s => 0 <= s); [apply safe_chk_or; [destruct Hlu; [left; assumption|right; lia]|intros _; lia]|]. intros s Hs0.
  apply safe_bind with (P := fun v => 0 <= v <= pos).
  { apply safe_if; intros E.
    - apply read_run_safe; [reflexivity|lia|lia|]. change (Z.of_nat 16) with 16. lia.
    - apply safe_ret. lia. }
  intros run Hrun. apply safe_bind with (P := fun _ => True); [apply safe_check; auto|]. intros _ _. cbv zeta.
  apply safe_bind with (P := fun v => rank = 0 -> v = 0).
  { apply safe_lookup; [change (Z.of_nat (length T_Chr)) with 5; lia|]. intros v G E. apply (tchr rank v); assumption. }
  intros t Ht. apply safe_bind with (P := fun r => 1 <= r <= 4).
  { apply safe_if; intros E.
    - apply safe_lookup; [change (Z.of_nat (length tab_rank)) with 6; lia|]. intros v G. destruct (trank _ _ G) as [R1 R2]. split; [apply R2; lia|lia].
    - apply safe_ret. apply Z.ltb_ge in E. assert (rank <> 0) by (intros R0; specialize (Ht R0); lia). lia. }
  intros rank' Hr'.
  assert (F' : Forall pair_ok ((to_i16 lv, to_i16 run) :: ps)).
  { constructor; [|exact F]. split; cbn [fst snd]; [apply to_i16_range|]. assert (TI : to_i16 run = run) by (apply to_i16_id; unfold MvSpec.is_i16; lia). rewrite TI. lia. }
  assert (SP : span ((to_i16 lv, to_i16 run) :: ps) = run + 1 + span ps).
  { cbn [span snd]. assert (TI : to_i16 run = run) by (apply to_i16_id; unfold MvSpec.is_i16; lia). rewrite TI. lia. }
  apply safe_if; intros E.
  - apply Z.eqb_eq in E. apply safe_ret. cbn [fst snd] in *. split; [exact F'|]. split; [rewrite SP; lia|lia].
  - apply Z.eqb_neq in E. apply IH; [lia|lia|exact F'|rewrite SP; lia|lia|lia].
Qed.

Lemma read_signs_safe : forall ps, Forall pair_ok ps -> safe (read_signs ps) (fun r => Forall pair_ok r /\ map snd r = map snd ps).
Proof.
  induction ps as [|[lv run] t IH]; intros F; cbn [read_signs]; [apply safe_ret; split; [constructor|reflexivity]|].
  pose proof (Forall_inv F) as [H1 H2]. cbn [fst snd] in *. apply Forall_inv_tail in F.
  apply safe_bind with (P := fun _ => True); [apply safe_byp; auto|]. intros b _.
  eapply safe_bind; [exact (IH F)|]. intros tl [Fu Mu]. apply safe_ret. split.
  - constructor; [|exact Fu]. split; cbn [fst snd]; [|exact H2]. destruct (b =? 0); [exact H1|apply to_i16_range].
  - cbn [map snd]. now rewrite Mu.
Qed.
Lemma span_runs : forall a b, map snd a = map snd b -> span a = span b.
Proof.
  induction a as [|x a IH]; intros [|y b] H; try discriminate; [reflexivity|]. cbn [map] in H. cbn [span].
  assert (E1 : snd x = snd y) by congruence. assert (E2 : map snd a = map snd b) by congruence. rewrite (IH b E2), E1. reflexivity.
Qed.

(** Position of coefficient [c] of the scan in a group at offset [org]. *)
Definition scan_xy (p : blk) (c : Z) : Z * Z :=
  let xy := nth (Z.to_nat c) tab_scan_4x4 (0, 0) in if b_swap p then (snd xy, fst xy) else xy.
Definition scan_off (p : blk) (org c : Z) : Z := org + snd (scan_xy p c) * b_w p + fst (scan_xy p c).

Lemma scan_in : forall p c, 0 <= c <= 15 -> 0 <= fst (scan_xy p c) <= 3 /\ 0 <= snd (scan_xy p c) <= 3.
Proof.
  intros p c H. unfold scan_xy.
  assert (F : Forall (fun xy => 0 <= fst xy <= 3 /\ 0 <= snd xy <= 3) tab_scan_4x4) by (repeat (constructor; [cbn; lia|]); constructor).
  rewrite Forall_forall in F. assert (I1 : In (nth (Z.to_nat c) tab_scan_4x4 (0, 0)) tab_scan_4x4) by (apply nth_In; change (length tab_scan_4x4) with 16%nat; lia).
  specialize (F _ I1). cbv zeta. destruct (b_swap p); cbn [fst snd]; tauto.
Qed.
Lemma scan_inj : forall p c d, 0 <= c <= 15 -> 0 <= d <= 15 -> scan_xy p c = scan_xy p d -> c = d.
Proof.
  intros p c d Hc Hd H. unfold scan_xy in H. cbv zeta in H.
  assert (N : NoDup tab_scan_4x4) by (apply nodupb_NoDup; vm_compute; reflexivity).
  rewrite (NoDup_nth tab_scan_4x4 (0, 0)) in N.
  assert (E : Z.to_nat c = Z.to_nat d); [|lia]. apply N; try (change (length tab_scan_4x4) with 16%nat; lia).
  destruct (nth (Z.to_nat c) tab_scan_4x4 (0, 0)) as [a1 a2], (nth (Z.to_nat d) tab_scan_4x4 (0, 0)) as [b1 b2].
  destruct (b_swap p); cbn [fst snd] in H; congruence.
Qed.

Lemma clip16_range : forall v, in_i16 (clip16 v).
Proof. intros v. unfold clip16, in_i16. destruct (v <? -32768) eqn:A; [lia|]. destruct (32767 <? v) eqn:B; [lia|]. apply Z.ltb_ge in A, B. lia. Qed.

Definition placed (p : blk) (org ctr : Z) (n : nat) (ws : list (Z * Z)) : Prop :=
  length ws = n /\ Forall (fun w => in_i16 (snd w)) ws /\
  exists cs, map fst ws = map (scan_off p org) cs /\ Forall (fun c => ctr < c <= 15) cs /\ StronglySorted Z.lt cs.

Lemma place_safe : forall p org, quant_ok (b_scale p) (b_shift p) -> forall ps ctr, -1 <= ctr -> Forall pair_ok ps -> ctr + span ps <= 15 ->
  safe (place p org ctr ps) (placed p org ctr (length ps)).
Proof.
  intros p org [Q1 Q2]. induction ps as [|[lv run] t IH]; intros ctr Hc F Hs; cbn [place].
  - apply safe_ret. split; [reflexivity|]. split; [constructor|]. exists []. split; [reflexivity|]. split; constructor.
  - pose proof (Forall_inv F) as [H1 H2]. cbn [fst snd span] in *. apply Forall_inv_tail in F. unfold in_i16 in H1.
    assert (SP : 0 <= span t) by (pose proof (span_length t F); lia).
    assert (E : (run <? 0) || (16 <=? run) = false) by (apply orb_false_intro; [apply Z.ltb_ge|apply Z.leb_gt]; lia).
    rewrite E. cbv zeta. set (c := ctr + run + 1) in *.
    apply safe_bind with (P := fun xy => xy = nth (Z.to_nat c) tab_scan_4x4 (0, 0)).
    { apply safe_lookup; [change (Z.of_nat (length tab_scan_4x4)) with 16; lia|]. intros v G. unfold get in G.
      destruct (c <? 0); [discriminate|]. symmetry. apply nth_error_nth. exact G. }
    intros xy Exy.
    assert (XY : (let '(x, y) := xy in if b_swap p then (y, x) else (x, y)) = scan_xy p c).
    { rewrite Exy. unfold scan_xy. cbv zeta. destruct (nth (Z.to_nat c) tab_scan_4x4 (0, 0)) as [x y]. destruct (b_swap p); reflexivity. }
    replace (let '(x, y) := xy in let '(x0, y0) := if b_swap p then (y, x) else (x, y) in
               let! v := chk (lv * b_scale p) in let! v0 := chk (v + Z.shiftl 1 (b_shift p - 1)) in
               let! u := place p org c t in ret ((org + y0 * b_w p + x0, clip16 (Z.shiftr v0 (b_shift p))) :: u))
      with (let! v := chk (lv * b_scale p) in let! v0 := chk (v + Z.shiftl 1 (b_shift p - 1)) in
               let! u := place p org c t in ret ((scan_off p org c, clip16 (Z.shiftr v0 (b_shift p))) :: u)).
    2:{ unfold scan_off. rewrite <- XY. destruct xy as [x y]. destruct (b_swap p); reflexivity. }
    assert (PR : -32768 * 65535 <= lv * b_scale p <= 32767 * 65535) by nia.
    apply safe_bind with (P := fun v => v = lv * b_scale p); [apply safe_chk; lia|]. intros v ->.
    assert (SH : 1 <= Z.shiftl 1 (b_shift p - 1) <= 65536).
    { rewrite Z.shiftl_mul_pow2 by lia. rewrite Z.mul_1_l. change 65536 with (2 ^ 16). split; [|apply Z.pow_le_mono_r; lia].
      assert (0 < 2 ^ (b_shift p - 1)) by (apply Z.pow_pos_nonneg; lia). lia. }
    apply safe_bind with (P := fun _ => True); [apply safe_chk; [lia|auto]|]. intros v0 _.
    eapply safe_bind; [apply (IH c); [lia|exact F|lia]|]. intros tl (Lu & Fu & cs & Mu & Ru & Su). apply safe_ret.
    split; [cbn [length]; now rewrite Lu|]. split; [constructor; [apply clip16_range|exact Fu]|].
    exists (c :: cs). split; [cbn [map fst]; now rewrite Mu|]. split.
    + constructor; [lia|]. eapply Forall_impl; [|exact Ru]. cbv beta. intros a Ha. lia.
    + constructor; [exact Su|]. eapply Forall_impl; [|exact Ru]. cbv beta. intros a Ha. lia.
Qed.

Lemma sorted_nodup : forall (l : list Z), StronglySorted Z.lt l -> NoDup l.
Proof.
  induction 1 as [|a l S1 IH F]; constructor; [|exact IH]. intros I1. rewrite Forall_forall in F. specialize (F a I1). lia.
Qed.
Lemma map_nodup_in : forall A B (f : A -> B) l, (forall x y, In x l -> In y l -> f x = f y -> x = y) -> NoDup l -> NoDup (map f l).
Proof.
  intros A B f l. induction l as [|a l IH]; intros H N; cbn [map]; [constructor|]. inversion_clear N as [|? ? N1 N2]. constructor.
  - intros I1. apply in_map_iff in I1. destruct I1 as (x & E & Ix). apply N1. rewrite <- (H x a); auto; [right; exact Ix|left; reflexivity].
  - apply IH; [|exact N2]. intros x y Ix Iy. apply H; right; assumption.
Qed.

Definition gxy (p : blk) (x y : Z) : Z * Z := if b_swap p then (y, x) else (x, y).

Lemma group_placed : forall p gx gy n ws, 4 <= b_w p -> 0 <= gx -> 4 * gx + 4 <= b_w p -> 0 <= gy -> 4 * gy + 4 <= b_h p -> (1 <= n <= 16)%nat ->
  placed p (b_w p * (4 * gy) + 4 * gx) (-1) n ws -> group_ok (b_w p) (b_h p) (gx, gy, ws).
Proof.
  intros p gx gy n ws Hw H1 H2 H3 H4 Hn (Lw & Fw & cs & M & R & S1). unfold group_ok.
  split; [lia|]. split; [lia|]. split; [lia|]. split; [lia|]. split; [lia|].
  rewrite Forall_forall in R.
  assert (OFF : forall c, In c cs -> exists x y, at_xy (b_w p) x y (scan_off p (b_w p * (4 * gy) + 4 * gx) c) /\ 4 * gx <= x < 4 * gx + 4 /\ 4 * gy <= y < 4 * gy + 4 /\
      x = 4 * gx + fst (scan_xy p c) /\ y = 4 * gy + snd (scan_xy p c)).
  { intros c Ic. destruct (scan_in p c) as [A B]; [specialize (R c Ic); lia|].
    exists (4 * gx + fst (scan_xy p c)), (4 * gy + snd (scan_xy p c)). unfold at_xy, scan_off. repeat split; try lia; try ring. }
  split.
  - rewrite M. apply map_nodup_in; [|apply sorted_nodup; exact S1]. intros c d Ic Id E.
    destruct (OFF c Ic) as (x & y & (A1 & A2 & A3) & _ & _ & A4 & A5). destruct (OFF d Id) as (x' & y' & (B1 & B2 & B3) & _ & _ & B4 & B5).
    rewrite E, B3 in A3. assert (y = y') by nia. assert (x = x') by nia. apply (scan_inj p); [specialize (R c Ic); lia|specialize (R d Id); lia|].
    destruct (scan_xy p c), (scan_xy p d). cbn [fst snd] in *. f_equal; lia.
  - apply Forall_forall. intros w Iw. split.
    + assert (I2 : In (fst w) (map fst ws)) by (apply in_map; exact Iw). rewrite M in I2. apply in_map_iff in I2. destruct I2 as (c & E & Ic).
      destruct (OFF c Ic) as (x & y & A & B & C & _). exists x, y. rewrite <- E. auto.
    + rewrite Forall_forall in Fw. exact (Fw w Iw).
Qed.

Lemma read_group_safe : forall esc p one first rank cgx cgy, level_reader_or u esc -> quant_ok (b_scale p) (b_shift p) -> 4 <= b_w p -> 0 <= rank <= 4 ->
  (let '(gx, gy) := gxy p cgx cgy in 0 <= gx /\ 4 * gx + 4 <= b_w p /\ 0 <= gy /\ 4 * gy + 4 <= b_h p) ->
  safe (read_group esc p one first rank cgx cgy) (fun r => fst (fst r) = gxy p cgx cgy /\ group_ok (b_w p) (b_h p) (fst r) /\ 1 <= snd r <= 4).
Proof.
  intros esc p one first rank cgx cgy He Hq Hw Hr Hg. unfold read_group.
  eapply safe_bind; [apply last_coeff_pos_safe|]. intros pos Hp. cbv beta in Hp.
  eapply safe_bind; [apply (read_pairs_safe esc p one first He 16 pos rank [] (pos + 1)); [lia|lia|constructor|cbn [span]; lia|lia|lia]|].
  intros [ps rank'] (F & Sp & Hr'). cbn [fst snd] in *.
  eapply safe_bind; [apply read_signs_safe; apply Forall_rev; exact F|]. intros qs [Fq Mq].
  assert (Sq : span (rev qs) = pos + 1) by (rewrite span_rev, (span_runs _ _ Mq), span_rev; exact Sp).
  assert (LQ : (1 <= length (rev qs) <= 16)%nat).
  { pose proof (span_length (rev qs) (Forall_rev Fq)) as SL. split; [|lia]. destruct (rev qs); [cbn [span] in Sq; lia|cbn; lia]. }
  fold (gxy p cgx cgy). destruct (gxy p cgx cgy) as [gx gy]. destruct Hg as (G1 & G2 & G3 & G4).
  eapply safe_bind; [apply place_safe; [exact Hq|lia|apply Forall_rev; exact Fq|lia]|]. intros ws Hws. apply safe_ret. cbn [fst snd].
  split; [reflexivity|]. split; [|lia]. eapply group_placed; eauto.
Qed.

(** The region declared by the pattern. *)
Definition inside (p : blk) (pat gx gy : Z) : Prop :=
  pat = 0 \/ (pat = 1 /\ gx < w_half p /\ gy < h_half p) \/ (pat = 2 /\ gx < w_quad p /\ gy < h_quad p).
Lemma shr_half : forall v, 0 <= v -> Z.shiftr (Z.shiftr v 1) 2 = v / 8 /\ Z.shiftr (Z.shiftr v 2) 2 = v / 16 /\ Z.shiftr v 2 = v / 4.
Proof.
  intros v Hv. rewrite !Z.shiftr_shiftr by lia. rewrite !Z.shiftr_div_pow2 by lia. auto.
Qed.
Lemma quad_le_half : forall p, 0 <= b_w p -> 0 <= b_h p -> w_quad p <= w_half p /\ h_quad p <= h_half p.
Proof.
  intros p Hw Hh. unfold w_quad, w_half, h_quad, h_half. destruct (shr_half _ Hw) as (A & B & C). destruct (shr_half _ Hh) as (A' & B' & C').
  pose proof (Z.div_mod (b_w p) 8 ltac:(lia)). pose proof (Z.mod_pos_bound (b_w p) 8 ltac:(lia)).
  pose proof (Z.div_mod (b_w p) 16 ltac:(lia)). pose proof (Z.mod_pos_bound (b_w p) 16 ltac:(lia)).
  pose proof (Z.div_mod (b_h p) 8 ltac:(lia)). pose proof (Z.mod_pos_bound (b_h p) 8 ltac:(lia)).
  pose proof (Z.div_mod (b_h p) 16 ltac:(lia)). pose proof (Z.mod_pos_bound (b_h p) 16 ltac:(lia)).
  destruct (b_w p =? b_h p); [lia|]. destruct (b_h p <? b_w p); lia.
Qed.
Lemma next_inside : forall p pat gx gy, 0 <= b_w p -> 0 <= b_h p -> 0 <= pat <= 2 -> inside p (next_pattern p pat gx gy) gx gy.
Proof.
  intros p pat gx gy Hw Hh Hp. destruct (quad_le_half p Hw Hh) as [Q1 Q2]. unfold next_pattern, inside, DCT_DEFAULT, DCT_HALF.
  destruct ((h_half p <=? gy) || (w_half p <=? gx)) eqn:E; [left; reflexivity|]. apply orb_false_elim in E. destruct E as [E1 E2]. apply Z.leb_gt in E1, E2.
  destruct ((h_quad p <=? gy) || (w_quad p <=? gx)) eqn:E3; cbn [andb].
  - destruct (pat =? 0) eqn:E4; cbn [negb]; [left; apply Z.eqb_eq; exact E4|]. right; left. lia.
  - apply orb_false_elim in E3. destruct E3 as [E3 E4]. apply Z.leb_gt in E3, E4.
    assert (E : pat = 0 \/ pat = 1 \/ pat = 2) by lia. destruct E as [-> | [-> | ->]]; [left; reflexivity|right; left; lia|right; right; lia].
Qed.
Lemma next_mono : forall p pat gx gy x y, 0 <= b_w p -> 0 <= b_h p -> 0 <= pat <= 2 -> inside p pat x y -> inside p (next_pattern p pat gx gy) x y.
Proof.
  intros p pat gx gy x y Hw Hh Hp Hi. destruct (quad_le_half p Hw Hh) as [Q1 Q2]. unfold next_pattern, DCT_DEFAULT, DCT_HALF.
  destruct ((h_half p <=? gy) || (w_half p <=? gx)); [left; reflexivity|].
  destruct ((h_quad p <=? gy) || (w_quad p <=? gx)); cbn [andb]; [|exact Hi].
  destruct (pat =? 0) eqn:E4; cbn [negb]; [exact Hi|]. apply Z.eqb_neq in E4. destruct Hi as [Hi|[Hi|Hi]]; [lia|right; left; lia|right; left; lia].
Qed.
Lemma next_range : forall p pat gx gy, 0 <= pat <= 2 -> 0 <= next_pattern p pat gx gy <= 2.
Proof. intros p pat gx gy H. unfold next_pattern, DCT_DEFAULT, DCT_HALF. destruct (_ || _); [lia|]. destruct (_ && _); lia. Qed.

Lemma inside_within : forall p pat gx gy ws, 0 <= b_w p -> 0 <= b_h p -> inside p pat gx gy -> group_ok (b_w p) (b_h p) (gx, gy, ws) ->
  within (b_w p) (b_h p) pat (gx, gy, ws).
Proof.
  intros p pat gx gy ws Hw Hh Hi (G1 & G2 & G3 & G4 & _ & _ & F). unfold within.
  eapply Forall_impl; [|exact F]. intros [o v] ((x & y & (X1 & X2 & X3) & X4 & X5) & _) x' y' (Y1 & Y2 & Y3). cbn [fst] in *.
  assert (y' = y) by nia. subst y'. assert (x' = x) by nia. subst x'. clear F Y1 Y2 Y3 o v X3.
  unfold region, inside, w_half, h_half, w_quad, h_quad, DCT_QUAD, DCT_HALF in *.
  destruct (shr_half _ Hw) as (A & B & C). destruct (shr_half _ Hh) as (A' & B' & C').
  destruct Hi as [-> | [(-> & Hi1 & Hi2) | (-> & Hi1 & Hi2)]]; cbn [Z.eqb Pos.eqb fst snd].
  - rewrite !Z.div_1_r. destruct (b_h p <=? b_w p), (b_w p <=? b_h p); lia.
  - pose proof (Z.div_mod (b_w p) 8 ltac:(lia)). pose proof (Z.mod_pos_bound (b_w p) 8 ltac:(lia)).
    pose proof (Z.div_mod (b_w p) 2 ltac:(lia)). pose proof (Z.mod_pos_bound (b_w p) 2 ltac:(lia)).
    pose proof (Z.div_mod (b_h p) 8 ltac:(lia)). pose proof (Z.mod_pos_bound (b_h p) 8 ltac:(lia)).
    pose proof (Z.div_mod (b_h p) 2 ltac:(lia)). pose proof (Z.mod_pos_bound (b_h p) 2 ltac:(lia)).
    destruct (b_w p =? b_h p) eqn:E1; [apply Z.eqb_eq in E1|apply Z.eqb_neq in E1; destruct (b_h p <? b_w p) eqn:E2; [apply Z.ltb_lt in E2|apply Z.ltb_ge in E2]];
      destruct (b_h p <=? b_w p) eqn:E3; (apply Z.leb_le in E3 || apply Z.leb_gt in E3); destruct (b_w p <=? b_h p) eqn:E4; (apply Z.leb_le in E4 || apply Z.leb_gt in E4); lia.
  - pose proof (Z.div_mod (b_w p) 16 ltac:(lia)). pose proof (Z.mod_pos_bound (b_w p) 16 ltac:(lia)).
    pose proof (Z.div_mod (b_w p) 4 ltac:(lia)). pose proof (Z.mod_pos_bound (b_w p) 4 ltac:(lia)).
    pose proof (Z.div_mod (b_h p) 16 ltac:(lia)). pose proof (Z.mod_pos_bound (b_h p) 16 ltac:(lia)).
    pose proof (Z.div_mod (b_h p) 4 ltac:(lia)). pose proof (Z.mod_pos_bound (b_h p) 4 ltac:(lia)).
    destruct (b_w p =? b_h p) eqn:E1; [apply Z.eqb_eq in E1|apply Z.eqb_neq in E1; destruct (b_h p <? b_w p) eqn:E2; [apply Z.ltb_lt in E2|apply Z.ltb_ge in E2]];
      destruct (b_h p <=? b_w p) eqn:E3; (apply Z.leb_le in E3 || apply Z.leb_gt in E3); destruct (b_w p <=? b_h p) eqn:E4; (apply Z.leb_le in E4 || apply Z.leb_gt in E4); lia.
Qed.

End Rules.
