(** Blocks and coding units are read back. *)
From Coq Require Import ZArith List Bool Lia Sorted.
From Verif Require Import CBase CBaseProofs AecModel AecSpec SynModel SynSpec SynProofsA SynProofsB BinSpec BinProofs BinProofsB BinProofsD CofSpec CofProofs CofProofsB.
Import ListNotations.
Open Scope Z_scope.

Lemma flat_map_ext_in : forall A B (f g : A -> list B) l, (forall x, In x l -> f x = g x) -> flat_map f l = flat_map g l.
Proof. intros A B f g. induction l as [|x l IH]; intros H; [reflexivity|]. cbn [flat_map]. rewrite H by (left; reflexivity). rewrite IH; [reflexivity|]. intros y Hy. apply H. right. exact Hy. Qed.

(** ** More about the shapes. *)
Definition shape2_chk (luma : bool) (split w h : Z) (scan : list (Z * Z)) : bool :=
  let n := Z.shiftr (w * h) 4 in
  (w mod 4 =? 0) && (h mod 4 =? 0) && (4 <=? h) &&
  match get scan (n - 1) with
  | Some (mx, my) => forallb (fun xy => (fst xy <=? mx) && (snd xy <=? my)) (firstn (Z.to_nat n) scan)
  | None => false
  end.
Definition chk2_opt (p : option blk) : bool :=
  match p with Some p => shape2_chk (b_luma p) (b_split p) (b_w p) (b_h p) (b_scan p) | None => false end.
Lemma all_shapes2 :
  forallb (fun level => forallb (fun split => chk2_opt (luma_blk level split true false 0 0) && chk2_opt (chroma_blk level split 0 0)) (splits level)) [3; 4; 5; 6] = true.
Proof. vm_compute. reflexivity. Qed.
Lemma luma_same : forall l s dc sw sc sh p, luma_blk l s dc sw sc sh = Some p ->
  exists q, luma_blk l s true false 0 0 = Some q /\ b_luma q = b_luma p /\ b_split q = b_split p /\ b_w q = b_w p /\ b_h q = b_h p /\ b_scan q = b_scan p.
Proof.
  intros l s dc sw sc sh p H. unfold luma_blk in *. cbv zeta in *.
  destruct (if s =? NON then _ else _) as [w h]. destruct (tab_scan_cg _ s) as [scan|]; [|discriminate].
  apply Some_inj in H. subst p. eexists. split; [reflexivity|]. cbn. auto 10.
Qed.
Lemma in_use_shape2 : forall p, block_in_use p -> shape2_chk (b_luma p) (b_split p) (b_w p) (b_h p) (b_scan p) = true.
Proof.
  intros p (level & split & Hl & [Hs Hs3] & Q & H).
  pose proof all_shapes2 as A. rewrite forallb_forall in A.
  assert (IL : In level [3; 4; 5; 6]) by (assert (level = 3 \/ level = 4 \/ level = 5 \/ level = 6) by lia; cbn; intuition).
  specialize (A level IL). rewrite forallb_forall in A.
  assert (IS : In split (splits level)).
  { unfold splits. destruct (level =? 3) eqn:E.
    - apply Z.eqb_eq in E. destruct (Hs3 E) as [->| ->]; cbn; auto.
    - assert (split = 0 \/ split = 1 \/ split = 2 \/ split = 3) by lia. cbn; intuition. }
  specialize (A split IS). apply andb_prop in A. destruct A as [A1 A2]. destruct H as [(dc & swap & H & _)|H].
  - destruct (luma_same _ _ _ _ _ _ _ H) as (q & Hq & e1 & e2 & e3 & e4 & e5). rewrite Hq in A1. cbn [chk2_opt] in A1. rewrite e1, e2, e3, e4, e5 in A1. exact A1.
  - remember (b_scale p) as sc eqn:Esc. remember (b_shift p) as sh eqn:Esh. unfold chroma_blk in H, A2. destruct (tab_scan_cg (level - 3) NON) as [scan|]; [|discriminate]. apply Some_inj in H. subst p. exact A2.
Qed.

Section Block.
Context (p : blk) (lev : levels).
Hypothesis (HU : block_in_use p) (HL : levels_ok p lev).
Local Notation n := (num_groups p).
Local Notation one := (n =? 1).

Lemma num_eq : Z.shiftr (b_w p * b_h p) 4 = n.
Proof. unfold num_groups. rewrite Z.shiftr_div_pow2 by lia. reflexivity. Qed.
Lemma groups_in_range : 1 <= n /\ (Z.to_nat n <= length (b_scan p))%nat.
Proof. pose proof (shape_facts p (in_use_shape p HU)) as (A & B & _). cbv zeta in A, B. rewrite num_eq in A, B. auto. Qed.
Lemma xy_get : forall k, 0 <= k < n -> get (b_scan p) k = Some (group_xy p k).
Proof. intros k Hk. destruct groups_in_range as [_ B]. apply get_nth. lia. Qed.
Lemma xy_range : forall k, 0 <= k < n -> 0 <= fst (group_xy p k) /\ 4 * fst (group_xy p k) + 4 <= b_w p /\ 0 <= snd (group_xy p k) /\ 4 * snd (group_xy p k) + 4 <= b_h p.
Proof. intros k Hk. pose proof (shape_facts p (in_use_shape p HU)) as (_ & _ & _ & A & _). cbv zeta in A. rewrite num_eq in A. exact (A k _ Hk (xy_get k Hk)). Qed.
Lemma xy_last : forall k, 0 <= k < n -> fst (group_xy p k) <= fst (group_xy p (n - 1)) /\ snd (group_xy p k) <= snd (group_xy p (n - 1)).
Proof.
  intros k Hk. pose proof (in_use_shape2 p HU) as A. unfold shape2_chk in A. cbv zeta in A. rewrite num_eq, xy_get in A by lia.
  apply andb_prop in A. destruct A as [_ A]. destruct (group_xy p (n - 1)) as [mx my]. rewrite forallb_forall in A. cbn [fst snd].
  assert (I1: In (group_xy p k) (firstn (Z.to_nat n) (b_scan p))).
  { pose proof (xy_get k Hk) as G. unfold get in G. replace (k <? 0) with false in G by lia. apply (nth_error_In _ (Z.to_nat k)). rewrite nth_error_firstn_lt by lia. exact G. }
  specialize (A _ I1). lia.
Qed.
Lemma xy_inj : forall j k, 0 <= j < n -> 0 <= k < n -> group_xy p j = group_xy p k -> j = k.
Proof.
  intros j k Hj Hk E. pose proof (shape_facts p (in_use_shape p HU)) as (_ & _ & _ & _ & A & _). cbv zeta in A. rewrite num_eq in A.
  apply (A j k (group_xy p k) Hj Hk); [rewrite <- E|]; apply xy_get; assumption.
Qed.

(** ** The first group. *)
Lemma first_group_read : forall k, 0 <= k < n -> 1 < n -> reads (read_last_cg_pos p n) (first_group_bins p k) (k, fst (group_xy p k), snd (group_xy p k)).
Proof.
  intros k Hk Hn. destruct (in_use_shape p HU) as (C & _). unfold shape_chk in C. cbv zeta in C. rewrite num_eq, xy_get in C by lia.
  pose proof (xy_last k Hk) as [LX LY]. pose proof (xy_range k Hk) as (X0 & _ & Y0 & _). pose proof (xy_inj) as INJ. pose proof (xy_get k Hk) as GK.
  unfold read_last_cg_pos, first_group_bins. eapply reads_quiet; [apply reads_lookup, xy_get; lia|]. cbv beta iota zeta.
  destruct (group_xy p (n - 1)) as [mx my] eqn:EM. destruct (group_xy p k) as [x y] eqn:EK. cbn [fst snd] in *.
  apply andb_prop in C. destruct C as [_ C]. replace (n =? 1) with false in * by lia.
  remember (b_luma p && (b_split p =? HOR)) as hor. remember (b_luma p && (b_split p =? VER)) as ver. remember (b_luma p && b_dc p) as sw.
  assert (SZ : a_size (A_LASTCG (b_luma p)) = 6) by (destruct (b_luma p); reflexivity).
  destruct (n =? 4) eqn:E4.
  - apply Z.eqb_eq in E4. rewrite forallb_forall in C. specialize (C k (in_zrange 4 k ltac:(lia))). apply is_at_eq in C. rewrite GK in C. apply Some_inj in C.
    assert (R: reads (let! i := ext (A_LASTCG (b_luma p)) 0 2 3 in if hor then ret (i, i, 0) else if ver then ret (i, 0, i) else ret (i, Z.land i 1, Z.shiftr i 1))
                 (unary (fun j => at_ctx (A_LASTCG (b_luma p)) (Z.min j 2)) k 3) (k, x, y)).
    { apply reads_end. eapply reads_bind; [eapply reads_eq; [apply (reads_ext _ 0 2 3 k); [lia|change (Z.min 2 (3 - 1)) with 2; lia|lia]|reflexivity|reflexivity]|]. cbv beta.
      destruct hor; [|destruct ver]; (eapply reads_eq; [apply reads_ret|reflexivity|rewrite <- pair_equal_spec in * || idtac; congruence]). }
    destruct sw; exact R.
  - apply andb_prop in C. destruct C as [C R]. apply andb_prop in C. destruct C as [Cx Cy]. apply Z.leb_le in Cx, Cy.
    assert (LK: reads (if hor then lookup raster2ZZ_2x8 (y * 8 + x) else if ver then lookup raster2ZZ_8x2 (y * 2 + x)
              else if n =? 16 then lookup raster2ZZ_4x4 (y * 4 + x) else lookup raster2ZZ_8x8 (y * 8 + x)) [] k).
    { rewrite forallb_forall in R. specialize (R x (in_zrange (mx + 1) x ltac:(lia))). rewrite forallb_forall in R.
      specialize (R y (in_zrange (my + 1) y ltac:(lia))).
      assert (Q : forall t o, match get t o with Some i => (0 <=? i) && (i <? n) && is_at (b_scan p) i (x, y) | None => false end = true -> reads (lookup t o) [] k).
      { intros t o H. destruct (get t o) as [i|] eqn:G; [|discriminate]. apply reads_lookup. rewrite G. f_equal. apply andb_prop in H. destruct H as [H H3]. apply andb_prop in H. destruct H as [H1 H2].
        apply INJ; [lia|lia|]. apply is_at_eq in H3. rewrite xy_get in H3 by lia. apply Some_inj in H3. congruence. }
      unfold raster_tab in R. destruct hor; [apply Q; exact R|]. destruct ver; [apply Q; exact R|]. destruct (n =? 16); apply Q; exact R. }
    assert (K: forall u v mu mv, 0 <= u <= mu -> 0 <= v <= mv -> 1 <= mu -> 1 <= mv -> (let '(a, b) := if sw then (v, u) else (u, v) in (a, b)) = (x, y) ->
      reads (let! bit := sym (A_LASTCG (b_luma p)) 3 in
             let! (x, y) := if bit =? 0 then ret (0, 0)
               else let! x := cont0 (A_LASTCG (b_luma p)) 4 mu in
                    if x =? 0 then let! y := if mv =? 1 then ret 0 else cont0 (A_LASTCG (b_luma p)) 5 (mv - 1) in ret (x, y + 1)
                    else let! y := cont0 (A_LASTCG (b_luma p)) 5 mv in ret (x, y) in
             let '(x, y) := if sw then (y, x) else (x, y) in
             let! i := if hor then lookup raster2ZZ_2x8 (y * 8 + x)
              else if ver then lookup raster2ZZ_8x2 (y * 2 + x)
              else if n =? 16 then lookup raster2ZZ_4x4 (y * 4 + x)
              else lookup raster2ZZ_8x8 (y * 8 + x) in ret (i, x, y))
        (if (u =? 0) && (v =? 0) then [at_ctx (A_LASTCG (b_luma p)) 3 0]
         else at_ctx (A_LASTCG (b_luma p)) 3 1 :: unary (fun _ => at_ctx (A_LASTCG (b_luma p)) 4) u mu ++
              (if u =? 0 then unary (fun _ => at_ctx (A_LASTCG (b_luma p)) 5) (v - 1) (mv - 1) else unary (fun _ => at_ctx (A_LASTCG (b_luma p)) 5) v mv)) (k, x, y)).
    { intros u v mu mv Hu Hv Hmu Hmv E.
      assert (Tail: reads (let '(x, y) := if sw then (v, u) else (u, v) in
             let! i := if hor then lookup raster2ZZ_2x8 (y * 8 + x)
              else if ver then lookup raster2ZZ_8x2 (y * 2 + x)
              else if n =? 16 then lookup raster2ZZ_4x4 (y * 4 + x)
              else lookup raster2ZZ_8x8 (y * 8 + x) in ret (i, x, y)) [] (k, x, y)).
      { destruct (if sw then (v, u) else (u, v)) as [a b]. apply pair_equal_spec in E. destruct E as [-> ->]. eapply reads_quiet; [exact LK|]. cbv beta. apply reads_ret. }
      destruct ((u =? 0) && (v =? 0)) eqn:Z0.
      - assert (u = 0 /\ v = 0) as [-> ->] by (clear - Z0; apply andb_prop in Z0; destruct Z0; lia). rsym 0. change (0 =? 0) with true. cbv iota. eapply reads_quiet; [apply reads_ret|]. exact Tail.
      - rsym 1. change (1 =? 0) with false. cbv iota. apply reads_end. eapply reads_bind with (x := (u, v)); [|exact Tail].
        eapply reads_bind; [apply reads_cont0; lia|]. cbv beta. destruct (Z.eqb_spec u 0) as [U|U].
        + cbn [andb] in Z0. apply reads_end. eapply reads_bind with (x := v - 1).
          * destruct (Z.eqb_spec mv 1) as [M1|M1]; [|apply reads_cont0; lia]. replace (v - 1) with 0 by lia. replace (mv - 1) with 0 by lia. rewrite unary_last. apply reads_ret.
          * cbv beta. rret. f_equal. lia.
        + apply reads_end. eapply reads_bind; [apply reads_cont0; lia|]. cbv beta. apply reads_ret. }
    destruct sw; apply K; first [lia|reflexivity].
Qed.

(** ** The groups. *)
Lemma used_in : forall k, In k (used p lev) <-> 0 <= k < n /\ live lev k = true.
Proof. intros k. unfold used. rewrite filter_In, in_down. destruct groups_in_range as [A _]. rewrite Z2Nat.id by lia. tauto. Qed.
Lemma used_falling : falling (used p lev).
Proof. apply filter_falling, down_falling. Qed.
Lemma live_spec : forall k, live lev k = true <-> coded (lev k) <> [].
Proof. intros k. unfold live. destruct (coded (lev k)); cbn; split; congruence. Qed.
Lemma before_step : forall k, 0 <= k < n -> magnitudes_before p lev (k - 1) =
  if live lev k then Z.max (magnitudes_before p lev k) (biggest (map (lev k) (coded (lev k)))) else magnitudes_before p lev k.
Proof.
  intros k Hk. unfold magnitudes_before. destruct (live lev k) eqn:L.
  - assert (I1: In k (used p lev)) by (apply used_in; auto). apply in_split in I1. destruct I1 as (a & b & E). pose proof used_falling as F. rewrite E in F |- *.
    rewrite split_above by exact F. destruct (falling_split _ _ _ F) as [A B]. rewrite filter_app, filter_all by (intros x Hx; specialize (A x Hx); lia).
    cbn [filter]. replace (k - 1 <? k) with true by lia. rewrite (filter_none _ _ b) by (intros x Hx; specialize (B x Hx); lia).
    rewrite flat_map_app, biggest_app. cbn [flat_map]. rewrite app_nil_r. reflexivity.
  - f_equal. f_equal. apply filter_ext_in. intros j Hj. apply used_in in Hj. assert (j <> k) by (intros ->; destruct Hj; congruence). lia.
Qed.
Lemma before_nonneg : forall k, 0 <= magnitudes_before p lev k.
Proof. intros k. apply biggest_nonneg. Qed.
Lemma live_big : forall k, live lev k = true -> 1 <= biggest (map (lev k) (coded (lev k))).
Proof.
  intros k L. apply live_spec in L. destruct (coded (lev k)) as [|q r] eqn:E; [congruence|]. assert (Q: 0 <= q < 16 /\ lev k q <> 0) by (apply coded_in; rewrite E; left; reflexivity).
  cbn [map biggest fold_right]. lia.
Qed.

Local Notation marker k := (at_ctx (A_SIGCG (b_luma p)) (flag (b_luma p && negb (k =? 0))) (flag (live lev k))).
Local Notation body k := (if live lev k then group_bins (b_luma p) (b_dc p) one (k =? 0) (magnitudes_before p lev k) (fst (group_xy p k)) (snd (group_xy p k)) (lev k) else []).
Definition pattern_step (pat : Z) (g : group) : Z := next_pattern p pat (fst (fst g)) (snd (fst g)).

Lemma one_group_read : forall k, 0 <= k < n -> live lev k = true ->
  reads (catch (let! x := read_group (esc_code 1) p one (k =? 0) (magnitude_class (magnitudes_before p lev k)) (fst (group_xy p k)) (snd (group_xy p k)) in ret (Some x)) None)
        (body k) (Some (group_of p lev k, magnitude_class (magnitudes_before p lev (k - 1)))).
Proof.
  intros k Hk L. apply reads_catch. rewrite L. apply reads_end. destruct HL as [HB _]. destruct (in_use_shape p HU) as (_ & _ & HQ). pose proof (xy_range k Hk) as (X & _ & Y & _).
  eapply reads_bind; [apply group_read; try assumption|].
  - apply before_nonneg.
  - apply surjective_pairing.
  - intros i Hi. apply HB; assumption.
  - cbv beta. rret. rewrite before_step, L by exact Hk. reflexivity.
Qed.
Lemma groups_read : forall k gx gy pat out, Z.of_nat k <= n -> 1 <= magnitudes_before p lev (Z.of_nat k - 1) ->
  reads (read_groups k (esc_code 1) p one (magnitude_class (magnitudes_before p lev (Z.of_nat k - 1))) gx gy pat out) (flat_map (fun k => [marker k] ++ body k) (down k))
        (fold_left pattern_step (map (group_of p lev) (filter (live lev) (down k))) pat, out ++ map (group_of p lev) (filter (live lev) (down k))).
Proof.
  induction k as [|k IH]; intros gx gy pat out Hk HM.
  - cbn [read_groups down seq rev map filter flat_map fold_left]. rret. rewrite app_nil_r. reflexivity.
  - replace (Z.of_nat (S k) - 1) with (Z.of_nat k) in * by lia. set (z := Z.of_nat k) in *. assert (Hz: 0 <= z < n) by lia.
    assert (RK: 0 <? magnitude_class (magnitudes_before p lev z) = true).
    { pose proof (class_range (magnitudes_before p lev z) ltac:(lia)). pose proof (class_zero (magnitudes_before p lev z) ltac:(lia)). lia. }
    rewrite down_S. fold z. cbn [read_groups flat_map filter]. fold z. rewrite RK. rewrite <- app_assoc. cbn [app].
    change (marker z :: body z ++ ?r) with ([marker z] ++ (body z ++ r)).
    eapply reads_bind with (x := (fst (group_xy p z), snd (group_xy p z), flag (live lev z))).
    { eapply reads_quiet; [apply reads_lookup, xy_get; exact Hz|]. cbv beta. destruct (group_xy p z) as [x y]. cbn [fst snd]. unfold flag at 1.
      eapply reads_next; [apply reads_sym|cbv beta; rret; reflexivity]. destruct (b_luma p); cbn [andb A_SIGCG a_size]; [destruct (negb (z =? 0)); lia|lia]. }
    cbv beta iota. destruct (live lev z) eqn:L; cbn [flag].
    + change (1 =? 0) with false. cbv iota. pose proof (one_group_read z Hz L) as G. rewrite L in G. eapply reads_bind; [exact G|]. cbv beta iota.
      destruct (group_of p lev z) as [[x y] ws] eqn:EG. cbn [map fold_left]. rewrite EG.
      change (pattern_step pat (x, y, ws)) with (next_pattern p pat x y). eapply reads_eq; [apply IH; [lia|]|reflexivity|rewrite <- app_assoc; reflexivity]. fold z. rewrite before_step, L by exact Hz. pose proof (before_nonneg z). lia.
    + change (0 =? 0) with true. cbv iota. cbn [app]. pose proof (before_step z Hz) as BS. rewrite L in BS. rewrite <- BS. apply IH; [lia|]. fold z. rewrite BS. exact HM.
Qed.

(** ** The pattern. *)
Definition past (d k : Z) : bool :=
  let '(gx, gy) := exchanged p (group_xy p k) in ((b_h p <=? b_w p) && (b_w p <=? d * (4 * gx + 3))) || ((b_w p <=? b_h p) && (b_h p <=? d * (4 * gy + 3))).
Lemma step_past : forall k pat, 0 <= k < n -> 0 <= pat <= 2 -> pattern_step pat (group_of p lev k) =
  (if past 2 k then 0 else if past 4 k && negb (pat =? 0) then 1 else pat) /\ (past 2 k = true -> past 4 k = true).
Proof.
  intros k pat Hk Hp. pose proof (xy_range k Hk) as (X0 & X1 & Y0 & Y1). destruct (in_use_shape p HU) as (_ & SW & _). pose proof (in_use_shape2 p HU) as A2.
  unfold shape2_chk in A2. cbv zeta in A2. apply andb_prop in A2. destruct A2 as [A2 _]. apply andb_prop in A2. destruct A2 as [A2 H4]. apply andb_prop in A2. destruct A2 as [W4 H0].
  unfold pattern_step, past, group_of. set (e := exchanged p (group_xy p k)).
  assert (E: 0 <= fst e /\ 4 * fst e + 4 <= b_w p /\ 0 <= snd e /\ 4 * snd e + 4 <= b_h p).
  { subst e. unfold exchanged. destruct (b_swap p) eqn:B; [specialize (SW eq_refl); cbn [fst snd]; lia|lia]. }
  destruct e as [gx gy]. cbn [fst snd] in *. unfold next_pattern, w_half, h_half, w_quad, h_quad, DCT_DEFAULT, DCT_HALF.
  apply Z.eqb_eq in W4, H0. set (w := b_w p) in *. set (h := b_h p) in *. clearbody w h.
  pose proof (Z.div_mod w 4 ltac:(lia)) as DW. pose proof (Z.div_mod h 4 ltac:(lia)) as DH. rewrite W4 in DW. rewrite H0 in DH.
  set (a := w / 4) in *. set (b := h / 4) in *. clearbody a b. clear W4 H0.
  assert (S2: forall v, Z.shiftr (Z.shiftr v 1) 2 = v / 8) by (intros v; rewrite !Z.shiftr_div_pow2 by lia; change (2 ^ 1) with 2; change (2 ^ 2) with 4; rewrite Z.div_div by lia; reflexivity).
  assert (S4: forall v, Z.shiftr (Z.shiftr v 2) 2 = v / 16) by (intros v; rewrite !Z.shiftr_div_pow2 by lia; change (2 ^ 2) with 4; rewrite Z.div_div by lia; reflexivity).
  assert (S1: forall v, Z.shiftr v 2 = v / 4) by (intros v; rewrite !Z.shiftr_div_pow2 by lia; reflexivity).
  assert (C8: forall v g, v mod 4 = 0 -> (v / 8 <=? g) = (v <=? 2 * (4 * g + 3))) by (intros v g Hv; pose proof (Z.div_mod v 8 ltac:(lia)); pose proof (Z.mod_pos_bound v 8 ltac:(lia)); pose proof (Z.div_mod v 4 ltac:(lia)); lia).
  assert (C16: forall v g, v mod 4 = 0 -> (v / 16 <=? g) = (v <=? 4 * (4 * g + 3))) by (intros v g Hv; pose proof (Z.div_mod v 16 ltac:(lia)); pose proof (Z.mod_pos_bound v 16 ltac:(lia)); pose proof (Z.div_mod v 4 ltac:(lia)); lia).
  assert (C4: forall v g, 4 * g + 4 <= v -> (v / 4 <=? g) = false) by (intros v g Hv; apply Z.leb_gt; pose proof (Z.div_le_lower_bound v 4 (g + 1)); lia).
  assert (MW: w mod 4 = 0) by (rewrite DW, Z.add_0_r, Z.mul_comm; apply Z.mod_mul; lia). assert (MH: h mod 4 = 0) by (rewrite DH, Z.add_0_r, Z.mul_comm; apply Z.mod_mul; lia).
  destruct E as (E0 & E1 & E2 & E3).
  destruct (Z.eqb_spec w h) as [Q|Q].
  - replace (h <=? w) with true by lia. replace (w <=? h) with true by lia. cbn [andb]. rewrite !S2, !S4, !C8, !C16 by assumption.
    rewrite (orb_comm (h <=? 2 * (4 * gy + 3))), (orb_comm (h <=? 4 * (4 * gy + 3))). split; [reflexivity|]. intros H. apply orb_prop in H. apply orb_true_intro. destruct H as [H|H]; [left|right]; lia.
  - destruct (Z.ltb_spec h w) as [R|R].
    + replace (h <=? w) with true by lia. replace (w <=? h) with false by lia. cbn [andb]. rewrite S2, S4, !S1, !C4, C8, C16, !orb_false_r by assumption. cbn [orb]. split; [reflexivity|]. intros H. lia.
    + replace (h <=? w) with false by lia. replace (w <=? h) with true by lia. cbn [andb]. rewrite S2, S4, !S1, !C4, C8, C16 by assumption. rewrite !orb_false_r, !orb_false_l. split; [reflexivity|]. intros H. lia.
Qed.
Lemma pattern_fold : forall l pat, 0 <= pat <= 2 -> (forall k, In k l -> 0 <= k < n) -> fold_left pattern_step (map (group_of p lev) l) pat =
  (if existsb (past 2) l || (pat =? 0) then 0 else if existsb (past 4) l || (pat =? 1) then 1 else 2).
Proof.
  induction l as [|k l IH]; intros pat Hp HI; cbn [map fold_left existsb].
  - cbn [orb]. destruct (Z.eqb_spec pat 0), (Z.eqb_spec pat 1); lia.
  - assert (Hk: 0 <= k < n) by (apply HI; left; reflexivity). destruct (step_past k pat Hk Hp) as [-> SP]. rewrite IH; [| |intros j Hj; apply HI; right; exact Hj].
    + destruct (past 2 k); cbn [orb]; [rewrite orb_true_r; reflexivity|]. destruct (past 4 k); cbn [andb orb]; [|reflexivity].
      assert (D: pat = 0 \/ pat = 1 \/ pat = 2) by lia. destruct D as [-> | [-> | ->]]; cbn [Z.eqb negb]; destruct (existsb (past 2) l), (existsb (past 4) l); reflexivity.
    + destruct (past 2 k); [lia|]. destruct (past 4 k && negb (pat =? 0)); lia.
Qed.

(** ** The block. *)
Lemma used_some : used p lev <> [].
Proof.
  destruct HL as (_ & k & i & Hk & Hi & Hn). intros E. assert (I1: In k (used p lev)); [|rewrite E in I1; exact I1].
  apply used_in. split; [exact Hk|]. apply live_spec. intros C. assert (I2: In i (coded (lev k))) by (apply coded_in; auto). rewrite C in I2. exact I2.
Qed.
Lemma block_read : reads (run_level p) (block_bins p lev) (block_pattern p lev, block_groups p lev).
Proof.
  unfold run_level, run_level_gen, block_bins, block_groups. cbv zeta. rewrite num_eq. pose proof used_falling as UF. destruct (used p lev) as [|z rest] eqn:EU; [destruct (used_some EU)|]. cbn [hd].
  assert (Hz: 0 <= z < n /\ live lev z = true) by (apply used_in; rewrite EU; left; reflexivity). destruct Hz as [Hz L].
  eapply reads_bind with (x := (z, fst (group_xy p z), snd (group_xy p z))).
  { destruct (Z.ltb_spec 1 n) as [C|C]; [apply first_group_read; assumption|]. assert (E1: n = 1) by (destruct groups_in_range; lia).
    unfold first_group_bins. rewrite E1. change (1 =? 1) with true. replace z with 0 by lia. eapply reads_eq; [apply reads_ret| |].
    - destruct (b_luma p && b_dc p); [reflexivity|]. destruct (group_xy p 0), (group_xy p (1 - 1)). reflexivity.
    - pose proof (shape_facts p (in_use_shape p HU)) as (_ & _ & _ & _ & _ & G0). rewrite xy_get in G0 by lia. apply Some_inj in G0. rewrite G0. reflexivity. }
  cbv beta iota. replace (Z.to_nat (z + 1)) with (S (Z.to_nat z)) by lia. rewrite down_S. cbn [read_groups flat_map]. rewrite !Z2Nat.id by lia. rewrite Z.ltb_irrefl, Z.eqb_refl.
  assert (B0: magnitudes_before p lev z = 0) by (unfold magnitudes_before; rewrite EU; pose proof (split_above [] z rest UF) as SA; cbn [app] in SA; rewrite SA; reflexivity).
  eapply reads_quiet; [apply reads_ret|]. cbv beta iota. change (1 =? 0) with false. cbv iota. cbn [app].
  pose proof (one_group_read z Hz L) as G. rewrite B0 in G. change (magnitude_class 0) with 0 in G. rewrite B0.
  eapply reads_bind; [exact G|]. cbv beta iota. destruct (group_of p lev z) as [[x y] ws] eqn:EG.
  assert (RR: rest = filter (live lev) (down (Z.to_nat z))).
  { pose proof (split_below [] z rest UF) as SB. cbn [app] in SB. rewrite <- SB. rewrite <- EU. unfold used. clear - Hz.
    assert (K: forall m, (Z.to_nat z <= m)%nat -> filter (fun j => j <? z) (filter (live lev) (down m)) = filter (live lev) (down (Z.to_nat z))).
    { induction m as [|m IHm]; intros Hm; [replace (Z.to_nat z) with 0%nat by lia; reflexivity|]. destruct (Nat.eq_dec (Z.to_nat z) (S m)) as [E|E].
      - rewrite <- E. apply filter_all. intros j Hj. apply filter_In in Hj. destruct Hj as [Hj _]. apply in_down in Hj. lia.
      - rewrite down_S. cbn [filter]. destruct (live lev (Z.of_nat m)); cbn [filter]; [replace (Z.of_nat m <? z) with false by lia|]; apply IHm; lia. }
    apply K. lia. }
  set (zn := Z.to_nat z). assert (Ezn: Z.of_nat zn = z) by (subst zn; lia).
  assert (BM: 1 <= magnitudes_before p lev (z - 1)) by (rewrite before_step, L by exact Hz; pose proof (live_big z L); lia).
  rewrite <- Ezn in BM. pose proof (groups_read zn x y (next_pattern p DCT_QUAD x y) [(x, y, ws)] ltac:(lia) BM) as GR. rewrite Ezn in GR. fold zn in RR. rewrite <- RR in GR.
  eapply reads_eq; [exact GR| |].
  - fold zn. apply flat_map_ext_in. intros k Hk. apply in_down in Hk. replace (k =? z) with false by lia. reflexivity.
  - cbn [map app]. rewrite EG. f_equal.
    transitivity (fold_left pattern_step (map (group_of p lev) (used p lev)) DCT_QUAD).
    + rewrite pattern_fold; [|unfold DCT_QUAD; lia|intros k Hk; apply used_in in Hk; tauto]. unfold block_pattern, reaches. fold (past 2). unfold past.
      change (DCT_QUAD =? 0) with false. change (DCT_QUAD =? 1) with false. rewrite !orb_false_r. reflexivity.
    + rewrite EU. cbn [map fold_left]. rewrite EG. reflexivity.
Qed.
End Block.
