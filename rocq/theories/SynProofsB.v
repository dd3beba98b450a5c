(** Positions of coefficient groups and of coefficients inside a group. *)
From Coq Require Import ZArith List Bool Lia.
From Verif Require Import CBase CBaseProofs AecModel AecSpec SynModel SynSpec SynProofsA.
Import ListNotations.
Open Scope Z_scope.

Section Rules.
Context {u : Prop}.
Local Notation safe := (safe_or u).


Lemma nth_error_firstn_lt : forall A (l : list A) n i, (i < n)%nat -> nth_error (firstn n l) i = nth_error l i.
Proof. induction l as [|a l IH]; intros [|n] [|i] H; try lia; cbn; auto. apply IH. lia. Qed.

(** ** The shapes. *)
Definition zrange (n : Z) : list Z := map Z.of_nat (seq 0 (Z.to_nat n)).
Lemma in_zrange : forall n x, 0 <= x < n -> In x (zrange n).
Proof.
  intros n x H. unfold zrange. apply in_map_iff. exists (Z.to_nat x). split; [lia|]. apply in_seq. lia.
Qed.
Definition pair_eqb (a b : Z * Z) : bool := (fst a =? fst b) && (snd a =? snd b).
Lemma pair_eqb_eq : forall a b, pair_eqb a b = true -> a = b.
Proof. intros [a1 a2] [b1 b2] H. unfold pair_eqb in H. cbn [fst snd] in H. apply andb_prop in H. destruct H as [H1 H2]. apply Z.eqb_eq in H1, H2. congruence. Qed.
Lemma pair_eqb_refl : forall a, pair_eqb a a = true.
Proof. intros [a1 a2]. unfold pair_eqb. cbn [fst snd]. now rewrite !Z.eqb_refl. Qed.
Fixpoint nodupb (l : list (Z * Z)) : bool := match l with [] => true | a :: t => negb (existsb (pair_eqb a) t) && nodupb t end.
Lemma nodupb_NoDup : forall l, nodupb l = true -> NoDup l.
Proof.
  induction l as [|a t IH]; intros H; constructor; cbn [nodupb] in H; apply andb_prop in H; destruct H as [H1 H2].
  - intros I1. apply negb_true_iff in H1. assert (E : existsb (pair_eqb a) t = true) by (apply existsb_exists; exists a; split; [exact I1|apply pair_eqb_refl]). congruence.
  - auto.
Qed.
Definition is_at (scan : list (Z * Z)) (i : Z) (xy : Z * Z) : bool := match get scan i with Some v => pair_eqb v xy | None => false end.
Lemma is_at_eq : forall scan i xy, is_at scan i xy = true -> get scan i = Some xy.
Proof. intros scan i xy H. unfold is_at in H. destruct (get scan i) as [v|]; [|discriminate]. apply pair_eqb_eq in H. congruence. Qed.

Definition raster_tab (hor ver : bool) (n x y : Z) : list Z * Z :=
  if hor then (raster2ZZ_2x8, y * 8 + x) else if ver then (raster2ZZ_8x2, y * 2 + x)
  else if n =? 16 then (raster2ZZ_4x4, y * 4 + x) else (raster2ZZ_8x8, y * 8 + x).
Definition shape_chk (luma : bool) (split w h : Z) (scan : list (Z * Z)) : bool :=
  let n := Z.shiftr (w * h) 4 in
  let hor := luma && (split =? HOR) in
  let ver := luma && (split =? VER) in
  match get scan (n - 1) with
  | None => false
  | Some (mx, my) =>
      (1 <=? n) && (n <=? Z.of_nat (length scan)) && (4 <=? w) &&
      forallb (fun xy => (0 <=? fst xy) && (4 * fst xy + 4 <=? w) && (0 <=? snd xy) && (4 * snd xy + 4 <=? h)) (firstn (Z.to_nat n) scan) &&
      nodupb (firstn (Z.to_nat n) scan) && is_at scan 0 (0, 0) &&
      (if n =? 1 then true
       else if n =? 4 then forallb (fun i => is_at scan i (if hor then (i, 0) else if ver then (0, i) else (Z.land i 1, Z.shiftr i 1))) (zrange 4)
       else (1 <=? mx) && (1 <=? my) &&
            forallb (fun x => forallb (fun y => let '(t, k) := raster_tab hor ver n x y in
              match get t k with Some i => (0 <=? i) && (i <? n) && is_at scan i (x, y) | None => false end) (zrange (my + 1))) (zrange (mx + 1)))
  end.

Definition chk_opt (swap : bool) (p : option blk) : bool :=
  match p with
  | Some p => shape_chk (b_luma p) (b_split p) (b_w p) (b_h p) (b_scan p) && (negb (b_swap p) || (b_w p =? b_h p))
  | None => false
  end.
Definition splits (level : Z) : list Z := if level =? 3 then [0; 3] else [0; 1; 2; 3].
Lemma all_shapes :
  forallb (fun level => forallb (fun split => forallb (fun dc : bool => forallb (fun swap : bool =>
     chk_opt swap (luma_blk level split dc (swap && ((split =? 0) || (split =? 3))) 0 0) && chk_opt swap (chroma_blk level split 0 0))
     [true; false]) [true; false]) (splits level)) [3; 4; 5; 6] = true.
Proof. vm_compute. reflexivity. Qed.

Definition shape_ok (p : blk) : Prop :=
  shape_chk (b_luma p) (b_split p) (b_w p) (b_h p) (b_scan p) = true /\ (b_swap p = true -> b_w p = b_h p) /\ quant_ok (b_scale p) (b_shift p).

Lemma luma_scale : forall l s dc sw sc sh p, luma_blk l s dc sw sc sh = Some p ->
  exists q, luma_blk l s dc sw 0 0 = Some q /\ b_luma q = b_luma p /\ b_split q = b_split p /\ b_w q = b_w p /\ b_h q = b_h p /\ b_scan q = b_scan p /\ b_swap q = b_swap p.
Proof.
  intros l s dc sw sc sh p H. unfold luma_blk in *. cbv zeta in *.
  destruct (if s =? NON then _ else _) as [w h]. destruct (tab_scan_cg _ s) as [scan|]; [|discriminate].
  apply Some_inj in H. subst p. eexists. split; [reflexivity|]. cbn. auto 10.
Qed.
Lemma in_use_shape : forall p, block_in_use p -> shape_ok p.
Proof.
  intros p (level & split & Hl & [Hs Hs3] & Q & H).
  pose proof all_shapes as A. rewrite forallb_forall in A.
  assert (IL : In level [3; 4; 5; 6]) by (assert (level = 3 \/ level = 4 \/ level = 5 \/ level = 6) by lia; cbn; intuition).
  specialize (A level IL). rewrite forallb_forall in A.
  assert (IS : In split (splits level)).
  { unfold splits. destruct (level =? 3) eqn:E.
    - apply Z.eqb_eq in E. destruct (Hs3 E) as [->| ->]; cbn; auto.
    - assert (split = 0 \/ split = 1 \/ split = 2 \/ split = 3) by lia. cbn; intuition. }
  specialize (A split IS). rewrite forallb_forall in A.
  assert (IB : forall b : bool, In b [true; false]) by (intros []; cbn; auto).
  destruct H as [(dc & swap & H & Hsw)|H].
  - specialize (A dc (IB dc)). rewrite forallb_forall in A. specialize (A swap (IB swap)). apply andb_prop in A. destruct A as [A _].
    assert (E : swap && ((split =? 0) || (split =? 3)) = swap).
    { destruct swap; [|reflexivity]. destruct (Hsw eq_refl) as [->| ->]; reflexivity. }
    rewrite E in A. destruct (luma_scale _ _ _ _ _ _ _ H) as (q & Hq & e1 & e2 & e3 & e4 & e5 & e6).
    rewrite Hq in A. cbn [chk_opt] in A. rewrite e1, e2, e3, e4, e5, e6 in A. apply andb_prop in A. destruct A as [A B].
    split; [exact A|]. split; [|exact Q]. intros Sw. rewrite Sw in B. cbn in B. apply Z.eqb_eq in B. exact B.
  - remember (b_scale p) as sc eqn:Esc. remember (b_shift p) as sh eqn:Esh.
    specialize (A true (IB true)). rewrite forallb_forall in A. specialize (A true (IB true)). apply andb_prop in A. destruct A as [_ A].
    unfold chroma_blk in H, A. destruct (tab_scan_cg (level - 3) NON) as [scan|]; [|discriminate]. apply Some_inj in H. subst p.
    cbn [chk_opt b_luma b_split b_w b_h b_scan b_swap b_scale b_shift negb orb] in *. apply andb_prop in A. destruct A as [A _].
    split; [exact A|]. split; [discriminate|exact Q].
Qed.

Section Shape.
  Context (p : blk) (S1 : shape_ok p).
  Let n := Z.shiftr (b_w p * b_h p) 4.

  Lemma shape_facts :
    1 <= n /\ (Z.to_nat n <= length (b_scan p))%nat /\ 4 <= b_w p /\
    (forall i xy, 0 <= i < n -> get (b_scan p) i = Some xy -> 0 <= fst xy /\ 4 * fst xy + 4 <= b_w p /\ 0 <= snd xy /\ 4 * snd xy + 4 <= b_h p) /\
    (forall i j xy, 0 <= i < n -> 0 <= j < n -> get (b_scan p) i = Some xy -> get (b_scan p) j = Some xy -> i = j) /\
    get (b_scan p) 0 = Some (0, 0).
  Proof.
    destruct S1 as (C & _ & _). unfold shape_chk in C. fold n in C. cbv zeta in C.
    destruct (get (b_scan p) (n - 1)) as [[mx my]|]; [|discriminate].
    repeat (apply andb_prop in C; let D := fresh "D" in destruct C as [C D]).
    clear D. apply Z.leb_le in C, D3, D4.
    assert (F : forall i xy, 0 <= i < n -> get (b_scan p) i = Some xy -> nth_error (firstn (Z.to_nat n) (b_scan p)) (Z.to_nat i) = Some xy).
    { intros i xy Hi G. unfold get in G. assert (E : (i <? 0) = false) by (apply Z.ltb_ge; lia). rewrite E in G.
      rewrite nth_error_firstn_lt; [exact G|lia]. }
    split; [lia|]. split; [lia|]. split; [lia|]. split; [|split].
    - intros i xy Hi G. pose proof (nth_error_In _ _ (F i xy Hi G)) as I1. rewrite forallb_forall in D2. specialize (D2 xy I1).
      repeat (apply andb_prop in D2; let E := fresh "E" in destruct D2 as [D2 E]). apply Z.leb_le in D2, E, E0, E1. lia.
    - intros i j xy Hi Hj Gi Gj. apply nodupb_NoDup in D1. rewrite NoDup_nth_error in D1.
      assert (E : Z.to_nat i = Z.to_nat j); [|lia]. apply D1.
      + rewrite firstn_length. lia.
      + rewrite (F i xy Hi Gi), (F j xy Hj Gj). reflexivity.
    - apply is_at_eq. assumption.
  Qed.

  Lemma last_cg_pos_safe : 1 < n -> safe (read_last_cg_pos p n) (fun r => let '(i, x, y) := r in 0 <= i < n /\ get (b_scan p) i = Some (x, y)).
  Proof.
    intros Hn. pose proof shape_facts as (_ & Ln & _). destruct S1 as (C & _ & _). unfold shape_chk in C. fold n in C. cbv zeta in C.
    unfold read_last_cg_pos. apply safe_bind with (P := fun v => get (b_scan p) (n - 1) = Some v).
    { apply safe_lookup; [lia|auto]. }
    intros [mx my] G. rewrite G in C. apply andb_prop in C. destruct C as [_ C].
    assert (E1 : (n =? 1) = false) by (apply Z.eqb_neq; lia). rewrite E1 in C.
    remember (b_luma p && (b_split p =? HOR)) as hor. remember (b_luma p && (b_split p =? VER)) as ver.
    remember (b_luma p && b_dc p) as sw.
    destruct (n =? 4) eqn:E4.
    - apply Z.eqb_eq in E4. replace (let '(_, _) := if sw then (my, mx) else (mx, my) in
         bind (ext (A_LASTCG (b_luma p)) 0 2 3) (fun i : Z => if hor then ret (i, i, 0) else if ver then ret (i, 0, i) else ret (i, Z.land i 1, Z.shiftr i 1)))
       with (bind (ext (A_LASTCG (b_luma p)) 0 2 3) (fun i : Z => if hor then ret (i, i, 0) else if ver then ret (i, 0, i) else ret (i, Z.land i 1, Z.shiftr i 1))) by (destruct sw; reflexivity).
      apply safe_bind with (P := fun i => 0 <= i <= 3).
      { apply safe_ext; [lia| |lia|auto]. unfold A_LASTCG. destruct (b_luma p); cbn; lia. }
      intros i Hi. rewrite forallb_forall in C. specialize (C i (in_zrange 4 i ltac:(lia))). apply is_at_eq in C.
      destruct hor; [apply safe_ret; split; [lia|exact C]|]. destruct ver; apply safe_ret; (split; [lia|exact C]).
    - apply andb_prop in C. destruct C as [C R]. apply andb_prop in C. destruct C as [Cx Cy]. apply Z.leb_le in Cx, Cy.
      assert (SZ : a_size (A_LASTCG (b_luma p)) = 6) by (destruct (b_luma p); reflexivity).
      assert (K : forall bit ax ay, 1 <= ax -> 1 <= ay ->
        safe (if bit =? 0 then ret (0, 0)
          else let! x := cont0 (A_LASTCG (b_luma p)) 4 ax in
               if x =? 0 then let! y := if ay =? 1 then ret 0 else cont0 (A_LASTCG (b_luma p)) 5 (ay - 1) in ret (x, y + 1)
               else let! y := cont0 (A_LASTCG (b_luma p)) 5 ay in ret (x, y)) (fun r => 0 <= fst r <= ax /\ 0 <= snd r <= ay)).
      { intros bit ax ay Hax Hay.
        apply safe_if; intros _; [apply safe_ret; cbn; lia|].
        apply safe_bind with (P := fun x => 0 <= x <= ax); [apply safe_cont0; [lia|lia|auto]|]. intros x Hx.
        apply safe_if; intros Ex.
        - apply safe_bind with (P := fun y => 0 <= y <= ay - 1).
          + apply safe_if; intros Ey; [apply safe_ret; apply Z.eqb_eq in Ey; lia|]. apply safe_cont0; [lia|lia|auto].
          + intros y Hy. apply safe_ret. cbn. lia.
        - apply safe_bind with (P := fun y => 0 <= y <= ay); [apply safe_cont0; [lia|lia|auto]|]. intros y Hy. apply safe_ret. cbn. lia. }
      assert (F : forall x y, 0 <= x <= mx -> 0 <= y <= my ->
        safe (let! i := if hor then lookup raster2ZZ_2x8 (y * 8 + x)
              else if ver then lookup raster2ZZ_8x2 (y * 2 + x)
              else if n =? 16 then lookup raster2ZZ_4x4 (y * 4 + x)
              else lookup raster2ZZ_8x8 (y * 8 + x) in ret (i, x, y)) (fun r => let '(i, x, y) := r in 0 <= i < n /\ get (b_scan p) i = Some (x, y))).
      { intros x y Hx Hy. rewrite forallb_forall in R. specialize (R x (in_zrange (mx + 1) x ltac:(lia))). rewrite forallb_forall in R.
        specialize (R y (in_zrange (my + 1) y ltac:(lia))).
        assert (Q : forall t k, match get t k with Some i => (0 <=? i) && (i <? n) && is_at (b_scan p) i (x, y) | None => false end = true ->
           safe (let! i := lookup t k in ret (i, x, y)) (fun r => let '(i, x, y) := r in 0 <= i < n /\ get (b_scan p) i = Some (x, y))).
        { intros t k H. unfold lookup. destruct (get t k) as [i|]; [|discriminate]. apply safe_bind with (P := fun j => j = i); [apply safe_ret; reflexivity|].
          intros j ->. apply safe_ret. apply andb_prop in H. destruct H as [H H3]. apply andb_prop in H. destruct H as [H1 H2].
          apply Z.leb_le in H1. apply Z.ltb_lt in H2. split; [lia|]. apply is_at_eq. exact H3. }
        unfold raster_tab in R.
        destruct hor; [apply Q; exact R|]. destruct ver; [apply Q; exact R|]. destruct (n =? 16); apply Q; exact R. }
      destruct sw; (apply safe_bind with (P := fun _ => True); [apply safe_sym; [lia|auto|auto]|]; intros b _).
      + eapply safe_bind; [apply (K b my mx); lia|]. intros [x y] [Hx Hy]. cbn [fst snd] in *. apply F; lia.
      + eapply safe_bind; [apply (K b mx my); lia|]. intros [x y] [Hx Hy]. cbn [fst snd] in *. apply F; lia.
  Qed.
End Shape.

Lemma last_coeff_pos_safe : forall p one rank cgx cgy, safe (read_last_coeff_pos p one rank cgx cgy) (fun v => 0 <= v <= 15).
Proof.
  intros p one rank cgx cgy. unfold read_last_coeff_pos. cbv zeta.
  set (offset := if negb (b_luma p) then _ else _).
  assert (O : 0 <= offset /\ offset + 3 < a_size (A_LASTPOS (b_luma p))).
  { unfold offset. destruct (b_luma p), one, (rank =? 0), (b_dc p), (cgx =? 0), (cgy =? 0); cbn; lia. }
  clearbody offset.
  apply safe_bind with (P := fun v => 0 <= v <= 3); [apply safe_ext; [lia|lia|lia|auto]|]. intros xx Hx.
  apply safe_bind with (P := fun v => 0 <= v <= 3); [apply safe_ext; [lia|lia|lia|auto]|]. intros yy Hy.
  assert (L : forall x y, 0 <= x <= 3 -> 0 <= y <= 3 -> safe (lookup tab_scan_coeff_pos_in_cg (y * 4 + x)) (fun v => 0 <= v <= 15)).
  { intros x y Hx' Hy'. apply safe_lookup; [change (Z.of_nat (length tab_scan_coeff_pos_in_cg)) with 16; lia|]. intros v G.
    assert (F : Forall (fun v => 0 <= v <= 15) tab_scan_coeff_pos_in_cg) by (repeat (constructor; [lia|]); constructor).
    rewrite Forall_forall in F. apply F. unfold get in G. destruct (_ <? 0); [discriminate|]. exact (nth_error_In _ _ G). }
  destruct ((cgx =? 0) && (0 <? cgy) && b_dc p), (negb (rank =? 0)), (b_dc p); apply L; lia.
Qed.

Lemma run_ctx_safe : forall p one first pos run, 0 <= run < pos -> pos <= 15 -> safe (run_ctx p one first pos run) (fun v => 0 <= v < 11).
Proof.
  intros p one first pos run Hr Hp. unfold run_ctx. apply safe_if; intros Hl.
  - apply safe_bind with (P := fun m => 0 <= m <= 2).
    + apply safe_if; intros _.
      * apply safe_bind with (P := fun xy => 0 <= snd xy <= 3).
        -- apply safe_lookup; [change (Z.of_nat (length tab_scan_4x4)) with 16; lia|]. intros v G.
           assert (F : Forall (fun v => 0 <= snd v <= 3) tab_scan_4x4) by (repeat (constructor; [cbn; lia|]); constructor).
           rewrite Forall_forall in F. apply F. unfold get in G. destruct (_ <? 0); [discriminate|]. exact (nth_error_In _ _ G).
        -- intros xy H. apply safe_ret. rewrite Z.shiftr_div_pow2 by lia. change (2 ^ 1) with 2. split; [apply Z.div_pos; lia|apply Z.div_le_upper_bound; lia].
      * apply safe_ret. destruct (pos <? run + 4), (pos <? run + 11); lia.
    + intros m Hm. apply safe_ret. destruct first, (pos =? run + 1), one; lia.
  - cbv zeta. apply safe_ret. destruct first, (pos =? run + 1), one, (6 + run <=? pos); lia.
Qed.
Lemma read_run_safe : forall f p r one first pos run, a_size r = 11 -> 0 <= run <= pos -> pos <= 15 -> pos - run <= Z.of_nat f ->
  safe (read_run f p r one first pos run) (fun v => 0 <= v <= pos).
Proof.
  induction f as [|f IH]; intros p r one first pos run Hr H Hp Hf; cbn [read_run].
  - assert (E : (run =? pos) = true) by (apply Z.eqb_eq; lia). rewrite E. apply safe_ret. lia.
  - apply safe_if; intros E; [apply safe_ret; lia|]. apply Z.eqb_neq in E.
    eapply safe_bind; [apply run_ctx_safe; lia|]. intros o Ho. cbv beta in Ho. apply safe_bind with (P := fun _ => True); [apply safe_sym; [lia|auto|auto]|].
    intros b _. apply safe_if; intros _; [apply safe_ret; lia|]. apply IH; [exact Hr|lia|lia|lia].
Qed.

End Rules.
