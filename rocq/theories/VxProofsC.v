(** The vector kernels of sample adaptive offset on whole blocks. *)
From Coq Require Import ZArith List Bool Lia.
From Verif Require Import CBase MemModel MemProofs HdrModel SynModel SynSpec SaoModel SaoSpec SaoProofs SaoProofsB SaoProofsC AlfModel VxModelBase VxModel VxProofs VxProofsB.
Import ListNotations.
Open Scope Z_scope.
Local Opaque Z.mul Z.add Z.sub Z.div Z.modulo.

Lemma class_sym c a b : edge_class c a b = edge_class c b a.
Proof. rewrite !class_sum. lia. Qed.

(** Kernels made of rows. *)
Definition rowf := mem -> Z -> Z -> Z -> Z -> Z -> (Z -> Z) -> reg -> mem -> mem.
Definition gen_0 (row : rowf) (src : mem) (pd ds ps ss w h : Z) (av : avail) (off : Z -> Z) (junk : reg) (dst : mem) : mem :=
  let sx := if a_L av then 0 else 1 in
  let ex := if a_R av then w else w - 1 in
  floop 0 h (fun y dst => row src (ps + y * ss) (pd + y * ds) 1 sx ex off junk dst) dst.
Definition gen_90 (row : rowf) (src : mem) (pd ds ps ss w h : Z) (av : avail) (off : Z -> Z) (junk : reg) (dst : mem) : mem :=
  let sy := if a_T av then 0 else 1 in
  let ey := if a_D av then h else h - 1 in
  floop sy ey (fun y dst => row src (ps + y * ss) (pd + y * ds) ss 0 w off junk dst) dst.
Definition gen_135 (row : rowf) (src : mem) (pd ds ps ss w h : Z) (av : avail) (off : Z -> Z) (junk : reg) (dst : mem) : mem :=
  let sx_0 := if a_TL av then 0 else 1 in
  let ex_0 := if a_T av then (if a_R av then w else w - 1) else 1 in
  let dst := row src ps pd (ss + 1) sx_0 ex_0 off junk dst in
  let sx := if a_L av then 0 else 1 in
  let ex := if a_R av then w else w - 1 in
  let dst := floop 1 (h - 1) (fun y dst => row src (ps + y * ss) (pd + y * ds) (ss + 1) sx ex off junk dst) dst in
  let sx_n := if a_D av then (if a_L av then 0 else 1) else w - 1 in
  let ex_n := if a_DR av then w else w - 1 in
  let y := Z.max 0 (h - 2) + 1 in
  row src (ps + y * ss) (pd + y * ds) (ss + 1) sx_n ex_n off junk dst.
Definition gen_45 (row : rowf) (src : mem) (pd ds ps ss w h : Z) (av : avail) (off : Z -> Z) (junk : reg) (dst : mem) : mem :=
  let sx_0 := if a_T av then (if a_L av then 0 else 1) else w - 1 in
  let ex_0 := if a_TR av then w else w - 1 in
  let dst := row src ps pd (ss - 1) sx_0 ex_0 off junk dst in
  let sx := if a_L av then 0 else 1 in
  let ex := if a_R av then w else w - 1 in
  let dst := floop 1 (h - 1) (fun y dst => row src (ps + y * ss) (pd + y * ds) (ss - 1) sx ex off junk dst) dst in
  let sx_n := if a_DL av then 0 else 1 in
  let ex_n := if a_D av then (if a_R av then w else w - 1) else 1 in
  let y := Z.max 0 (h - 2) + 1 in
  row src (ps + y * ss) (pd + y * ds) (ss - 1) sx_n ex_n off junk dst.

Section Gen.
  Variables (row : rowf) (src : mem) (pd ds ps ss w h : Z) (av : avail) (off : Z -> Z) (dst : mem) (junk : reg).
  Hypothesis Row : forall p q d sx ex dst j, row src p q d sx ex off junk dst j = fill q sx ex (at_ src p d off) dst j.
  Hypotheses (Hw : 1 <= w) (Hds : w <= ds).
  Notation ev := (eval src ps ss 8 off).
  Notation W := (wr w h pd ds dst).

  Lemma row_step dx dy d P Y a b m : (forall x, at_ src (ps + Y * ss) d off x = ev dx dy x Y) ->
    W (ev dx dy) P m -> 0 <= a -> b <= w -> 0 <= Y < h ->
    W (ev dx dy) (rowP P Y a b) (row src (ps + Y * ss) (pd + Y * ds) d a b off junk m).
  Proof.
    intros E H A B HY. eapply wr_same; [intros j; apply Row|]. apply wr_fill; auto.
  Qed.
  Lemma at_0 x Y : at_ src (ps + Y * ss) 1 off x = ev 1 0 x Y.
  Proof.
    unfold at_, eval, sample. rewrite class_sym. replace (Y + 0) with Y by lia. replace (Y - 0) with Y by lia.
    replace (ps + Y * ss + (x + 1)) with (ps + Y * ss + x + 1) by lia. replace (ps + Y * ss + (x - 1)) with (ps + Y * ss + x - 1) by lia. reflexivity.
  Qed.
  Lemma at_90 x Y : at_ src (ps + Y * ss) ss off x = ev 0 1 x Y.
  Proof.
    unfold at_, eval, sample. rewrite class_sym. replace (x + 0) with x by lia. replace (x - 0) with x by lia.
    replace (ps + (Y + 1) * ss + x) with (ps + Y * ss + x + ss) by lia. replace (ps + (Y - 1) * ss + x) with (ps + Y * ss + x - ss) by lia. reflexivity.
  Qed.
  Lemma at_135 x Y : at_ src (ps + Y * ss) (ss + 1) off x = ev (-1) (-1) x Y.
  Proof.
    unfold at_, eval, sample.
    replace (ps + (Y + -1) * ss + (x + -1)) with (ps + Y * ss + x - (ss + 1)) by lia. replace (ps + (Y - -1) * ss + (x - -1)) with (ps + Y * ss + x + (ss + 1)) by lia. reflexivity.
  Qed.
  Lemma at_45 x Y : at_ src (ps + Y * ss) (ss - 1) off x = ev 1 (-1) x Y.
  Proof.
    unfold at_, eval, sample.
    replace (ps + (Y + -1) * ss + (x + 1)) with (ps + Y * ss + x - (ss - 1)) by lia. replace (ps + (Y - -1) * ss + (x - 1)) with (ps + Y * ss + x + (ss - 1)) by lia. reflexivity.
  Qed.

  Lemma gen_0_correct : 1 <= h ->
    block_becomes w h pd ds dst (gen_0 row src pd ds ps ss w h av off junk dst) (edge_result src ps ss w h 8 av off 1 0).
  Proof.
    intros Hh. unfold gen_0. cbv zeta. set (sx := if a_L av then 0 else 1). set (ex := if a_R av then w else w - 1).
    assert (Rs : 0 <= sx <= 1) by (unfold sx; destruct (a_L av); lia).
    assert (Re : w - 1 <= ex <= w) by (unfold ex; destruct (a_R av); lia).
    eapply wr_becomes with (val := ev 1 0) (P := fun x y => (sx <=? x) && (x <? ex)).
    - apply (wr_ext w h pd ds dst (ev 1 0) (fun x y => (y <? h) && (sx <=? x) && (x <? ex))).
      { intros x y X Y. replace (y <? h) with true by (symmetry; apply Z.ltb_lt; lia). reflexivity. }
      apply (floop_inv (fun Y m => W (ev 1 0) (fun x y => (y <? Y) && (sx <=? x) && (x <? ex)) m)); [lia|..].
      + eapply wr_ext; [|apply wr_none]. intros x y X Y. cbv beta. replace (y <? 0) with false by (symmetry; apply Z.ltb_ge; lia). reflexivity.
      + intros Y m HY Hm. set (P := fun x y => (y <? Y) && (sx <=? x) && (x <? ex)) in *.
        eapply wr_ext; [|apply (row_step 1 0 1 P Y sx ex m); [intros; apply at_0|exact Hm|lia|lia|lia]].
        intros x y Hx Hy. unfold rowP, P.
        destruct (Z.ltb_spec y Y), (Z.eqb_spec y Y), (Z.ltb_spec y (Y + 1)), (Z.leb_spec sx x), (Z.ltb_spec x ex); cbn; try reflexivity; lia.
    - intros x y Hx Hy. rewrite edge_result_eval.
      replace (usable av w h (x + 1) (y + 0) && usable av w h (x - 1) (y - 0)) with ((sx <=? x) && (x <? ex)); [reflexivity|].
      unfold usable, sx, ex.
      destruct (a_L av), (a_R av); destruct (Z.ltb_spec (y + 0) 0), (Z.ltb_spec (y - 0) 0), (Z.ltb_spec (y + 0) h), (Z.ltb_spec (y - 0) h); try lia;
        destruct (Z.ltb_spec (x + 1) 0), (Z.ltb_spec (x - 1) 0), (Z.ltb_spec (x + 1) w), (Z.ltb_spec (x - 1) w); try lia; cbn [andb];
        try (apply andb_true_iff; split; lia); try (apply andb_false_iff; lia).
  Qed.
  Lemma gen_90_correct : 1 <= h ->
    block_becomes w h pd ds dst (gen_90 row src pd ds ps ss w h av off junk dst) (edge_result src ps ss w h 8 av off 0 1).
  Proof.
    intros Hh. unfold gen_90. cbv zeta. set (sy := if a_T av then 0 else 1). set (ey := if a_D av then h else h - 1).
    assert (Rs : 0 <= sy <= 1) by (unfold sy; destruct (a_T av); lia).
    assert (Re : h - 1 <= ey <= h) by (unfold ey; destruct (a_D av); lia).
    eapply wr_becomes with (val := ev 0 1) (P := fun x y => (sy <=? y) && (y <? ey)).
    - apply (wr_ext w h pd ds dst (ev 0 1) (fun x y => (sy <=? y) && (y <? Z.max sy ey))).
      { intros x y X Y. destruct (Z.leb_spec sy y), (Z.ltb_spec y ey), (Z.ltb_spec y (Z.max sy ey)); try reflexivity; lia. }
      apply (floop_inv' (fun Y m => W (ev 0 1) (fun x y => (sy <=? y) && (y <? Y)) m)).
      + eapply wr_ext; [|apply wr_none]. intros x y X Y. cbv beta. destruct (Z.leb_spec sy y), (Z.ltb_spec y sy); try reflexivity; lia.
      + intros Y m HY Hm. set (P := fun x y => (sy <=? y) && (y <? Y)) in *.
        eapply wr_ext; [|apply (row_step 0 1 ss P Y 0 w m); [intros; apply at_90|exact Hm|lia|lia|lia]].
        intros x y Hx Hy. unfold rowP, P.
        destruct (Z.ltb_spec y Y), (Z.eqb_spec y Y), (Z.ltb_spec y (Y + 1)), (Z.leb_spec sy y), (Z.leb_spec 0 x), (Z.ltb_spec x w); cbn; try reflexivity; lia.
    - intros x y Hx Hy. rewrite edge_result_eval.
      replace (usable av w h (x + 0) (y + 1) && usable av w h (x - 0) (y - 1)) with ((sy <=? y) && (y <? ey)); [reflexivity|].
      unfold usable, sy, ey.
      destruct (a_T av), (a_D av); destruct (Z.ltb_spec (x + 0) 0), (Z.ltb_spec (x - 0) 0), (Z.ltb_spec (x + 0) w), (Z.ltb_spec (x - 0) w); try lia;
        destruct (Z.ltb_spec (y + 1) 0), (Z.ltb_spec (y - 1) 0), (Z.ltb_spec (y + 1) h), (Z.ltb_spec (y - 1) h); try lia; cbn [andb];
        try (apply andb_true_iff; split; lia); try (apply andb_false_iff; lia).
  Qed.

  (** The diagonal kernels. *)
  Hypotheses (Hh : 2 <= h) (Hc : corners av).
  Lemma diag dx dy d (sx_0 ex_0 sx_n ex_n : Z) :
    (forall x Y, at_ src (ps + Y * ss) d off x = ev dx dy x Y) ->
    let sx := if a_L av then 0 else 1 in let ex := if a_R av then w else w - 1 in
    (if a_T av then sx_0 = sx /\ ex_0 = ex else ex_0 <= sx_0 /\ 0 <= sx_0 /\ ex_0 <= w) ->
    (if a_D av then sx_n = sx /\ ex_n = ex else ex_n <= sx_n /\ 0 <= sx_n /\ ex_n <= w) ->
    W (ev dx dy) (doneP w h av h)
      (let dst := row src ps pd d sx_0 ex_0 off junk dst in
       let dst := floop 1 (h - 1) (fun y dst => row src (ps + y * ss) (pd + y * ds) d sx ex off junk dst) dst in
       let y := Z.max 0 (h - 2) + 1 in
       row src (ps + y * ss) (pd + y * ds) d sx_n ex_n off junk dst).
  Proof.
    intros E sx ex F L. cbv zeta.
    assert (Rs : 0 <= sx <= 1) by (unfold sx; destruct (a_L av); lia).
    assert (Re : w - 1 <= ex <= w) by (unfold ex; destruct (a_R av); lia).
    assert (St : forall Y a b m, 0 <= Y < h -> 0 <= a -> b <= w ->
               (if row_on h av Y then a = sx /\ b = ex else b <= a) -> W (ev dx dy) (doneP w h av Y) m ->
               W (ev dx dy) (doneP w h av (Y + 1)) (row src (ps + Y * ss) (pd + Y * ds) d a b off junk m)).
    { intros Y a b m HY A B C Hm. eapply wr_ext; [|apply (row_step dx dy d (doneP w h av Y) Y a b m); [intros; apply E|exact Hm|exact A|exact B|exact HY]].
      intros x y Hx Hy. unfold rowP, doneP. fold sx ex. destruct (Z.eq_dec y Y) as [->|N].
      - rewrite Z.eqb_refl. replace (Y <? Y) with false by (symmetry; apply Z.ltb_ge; lia). replace (Y <? Y + 1) with true by (symmetry; apply Z.ltb_lt; lia).
        cbn [andb orb]. destruct (row_on h av Y); cbn [andb].
        + destruct C as [-> ->]. reflexivity.
        + destruct (Z.leb_spec a x), (Z.ltb_spec x b); try reflexivity; lia.
      - replace (y =? Y) with false by (symmetry; apply Z.eqb_neq; exact N). cbn [andb]. rewrite orb_false_r.
        replace (y <? Y + 1) with (y <? Y); [reflexivity|]. destruct (Z.ltb_spec y Y), (Z.ltb_spec y (Y + 1)); try reflexivity; lia. }
    replace (Z.max 0 (h - 2) + 1) with (h - 1) by lia.
    eapply wr_ext; [intros x y _ _; replace h with (h - 1 + 1) at 2 by lia; reflexivity|].
    assert (C0 : 0 <= sx_0 /\ ex_0 <= w) by (destruct (a_T av); lia).
    assert (Cn : 0 <= sx_n /\ ex_n <= w) by (destruct (a_D av); lia).
    apply St; [lia|lia|lia| |].
    { unfold row_on. replace (0 <? h - 1) with true by (symmetry; apply Z.ltb_lt; lia). replace (h - 1 <? h - 1) with false by (symmetry; apply Z.ltb_ge; lia).
      cbn [orb andb]. destruct (a_D av); [exact L|lia]. }
    apply (floop_inv (fun Y m => W (ev dx dy) (doneP w h av Y) m)); [lia| |].
    - assert (D0 : W (ev dx dy) (doneP w h av 0) dst).
      { eapply wr_ext; [|apply wr_none]. intros x y Hx Hy. unfold doneP. replace (y <? 0) with false by (symmetry; apply Z.ltb_ge; lia). reflexivity. }
      change 1 with (0 + 1). replace ps with (ps + 0 * ss) at 2 by lia. replace pd with (pd + 0 * ds) at 2 by lia.
      apply St; [lia|lia|lia| |exact D0].
      unfold row_on. replace (0 <? 0) with false by reflexivity. replace (0 <? h - 1) with true by (symmetry; apply Z.ltb_lt; lia). cbn [orb andb]. rewrite andb_true_r.
      destruct (a_T av); [exact F|lia].
    - intros Y m HY Hm. apply St; [lia|lia|lia| |exact Hm].
      unfold row_on. replace (0 <? Y) with true by (symmetry; apply Z.ltb_lt; lia). replace (Y <? h - 1) with true by (symmetry; apply Z.ltb_lt; lia). cbn [orb andb].
      split; reflexivity.
  Qed.
  Lemma gen_135_correct :
    block_becomes w h pd ds dst (gen_135 row src pd ds ps ss w h av off junk dst) (edge_result src ps ss w h 8 av off (-1) (-1)).
  Proof.
    apply (first_last src pd ds ps ss w h 8 av off dst); [|exact (usable_135 w h av Hh Hc)].
    destruct Hc as (C1 & C2 & C3 & C4). unfold gen_135. apply diag; [exact at_135|rewrite C1|rewrite C4].
    - destruct (a_T av); cbn [andb]; [split; reflexivity|lia].
    - destruct (a_D av); cbn [andb]; [split; reflexivity|lia].
  Qed.
  Lemma gen_45_correct :
    block_becomes w h pd ds dst (gen_45 row src pd ds ps ss w h av off junk dst) (edge_result src ps ss w h 8 av off 1 (-1)).
  Proof.
    apply (first_last src pd ds ps ss w h 8 av off dst); [|exact (usable_45 w h av Hh Hc)].
    destruct Hc as (C1 & C2 & C3 & C4). unfold gen_45. apply diag; [exact at_45|rewrite C2|rewrite C3].
    - destruct (a_T av); cbn [andb]; [split; reflexivity|lia].
    - destruct (a_D av); cbn [andb]; [split; reflexivity|lia].
  Qed.
End Gen.

(** A row without left and right neighbours outside, SSE. *)
Definition row90_sse : rowf := fun src p q d sx ex off junk dst =>
  vfor sx ex 16 (fun x dst =>
      let s0 := load src (p + x - d) in
      let s1 := load src (p + x) in
      let s2 := load src (p + x + d) in
      let t0 := eo_sse off s0 s1 s2 in
      if x <? ex - 15 then (store16 dst (q + x) t0, true)
      else (maskmoveu dst (q + x) t0 (mask_row junk (Z.land (ex - sx) 15 - 1)), false)) dst.
Lemma row_90_sse src p q d sx ex off junk dst : (forall q, byte (src q)) -> off_i8 off ->
  forall j, row90_sse src p q d sx ex off junk dst j = fill q sx ex (at_ src p d off) dst j.
Proof.
  intros B O j. unfold row90_sse. destruct (Z.le_gt_cases ex sx) as [L|L].
  - rewrite vfor_empty by lia. rewrite fill_none by lia. reflexivity.
  - cbv zeta. change 15 with (2 ^ 4 - 1) at 2. rewrite low_bits by lia. change (2 ^ 4) with 16.
    apply vfor_fill; [lia|lia|]. intros x m Hx M.
    assert (V : forall k, 0 <= k < 16 -> eo_sse off (load src (p + x - d)) (load src (p + x)) (load src (p + x + d)) k = at_ src p d off (x + k)).
    { intros k K. rewrite eo_sse_value by (auto using load_bytes; lia). unfold at_, load.
      replace (p + (x + k)) with (p + x + k) by lia. replace (p + x + k - d) with (p + x - d + k) by lia. replace (p + x + k + d) with (p + x + d + k) by lia. reflexivity. }
    destruct (last_piece sx ex x 16 ((ex - sx) mod 16) ltac:(lia) Hx M eq_refl) as [[E R]|[N R]].
    + destruct (Z.ltb_spec x (ex - 15)); [lia|]. eexists _, _. split; [reflexivity|]. split; [|right; lia].
      intros i. rewrite (mask_fill junk ((ex - sx) mod 16 - 1) m q x _ (at_ src p d off)); [|lia|intros; apply V; lia].
      replace (x + ((ex - sx) mod 16 - 1) + 1) with (Z.min ex (x + 16)) by lia. reflexivity.
    + destruct (Z.ltb_spec x (ex - 15)); [|lia]. eexists _, _. split; [reflexivity|]. split; [|left; reflexivity].
      intros i. unfold store16. rewrite (store_fill 16 m q x _ (at_ src p d off) V). rewrite Z.min_r by lia. reflexivity.
Qed.
Lemma eo_90_gen src pd ds ps ss w h av off junk dst : eo_90_sse src pd ds ps ss w h av off junk dst = gen_90 row90_sse src pd ds ps ss w h av off junk dst.
Proof. unfold eo_90_sse, gen_90, row90_sse. cbv zeta. rewrite Z.sub_0_r. reflexivity. Qed.

Section Blocks.
  Variables (src : mem) (pd ds ps ss w h : Z) (av : avail) (off : Z -> Z) (junk : reg) (dst : mem).
  Hypotheses (B : forall q, byte (src q)) (O : off_i8 off) (Hw : 1 <= w) (Hds : w <= ds).
  Lemma eo_0_sse_correct : 1 <= h -> block_becomes w h pd ds dst (eo_0_sse src pd ds ps ss w h av off junk dst) (edge_result src ps ss w h 8 av off 1 0).
  Proof. intros H. apply (gen_0_correct eo_row_sse); auto using row_sse. Qed.
  Lemma eo_0_avx2_correct : 1 <= h -> block_becomes w h pd ds dst (eo_0_avx2 src pd ds ps ss w h av off junk dst) (edge_result src ps ss w h 8 av off 1 0).
  Proof. intros H. apply (gen_0_correct eo_row_avx2); auto using row_avx2. Qed.
  Lemma eo_90_sse_correct : 1 <= h -> block_becomes w h pd ds dst (eo_90_sse src pd ds ps ss w h av off junk dst) (edge_result src ps ss w h 8 av off 0 1).
  Proof. intros H. rewrite eo_90_gen. apply gen_90_correct; auto using row_90_sse. Qed.
  Lemma eo_90_avx2_correct : 1 <= h -> block_becomes w h pd ds dst (eo_90_avx2 src pd ds ps ss w h av off junk dst) (edge_result src ps ss w h 8 av off 0 1).
  Proof. intros H. apply (gen_90_correct eo_row_avx2); auto using row_avx2. Qed.
  Lemma eo_135_sse_correct : 2 <= h -> corners av -> block_becomes w h pd ds dst (eo_135_sse src pd ds ps ss w h av off junk dst) (edge_result src ps ss w h 8 av off (-1) (-1)).
  Proof. intros H C. apply (gen_135_correct eo_row_sse); auto using row_sse. Qed.
  Lemma eo_135_avx2_correct : 2 <= h -> corners av -> block_becomes w h pd ds dst (eo_135_avx2 src pd ds ps ss w h av off junk dst) (edge_result src ps ss w h 8 av off (-1) (-1)).
  Proof. intros H C. apply (gen_135_correct eo_row_avx2); auto using row_avx2. Qed.
  Lemma eo_45_sse_correct : 2 <= h -> corners av -> block_becomes w h pd ds dst (eo_45_sse src pd ds ps ss w h av off junk dst) (edge_result src ps ss w h 8 av off 1 (-1)).
  Proof. intros H C. apply (gen_45_correct eo_row_sse); auto using row_sse. Qed.
  Lemma eo_45_avx2_correct : 2 <= h -> corners av -> block_becomes w h pd ds dst (eo_45_avx2 src pd ds ps ss w h av off junk dst) (edge_result src ps ss w h 8 av off 1 (-1)).
  Proof. intros H C. apply (gen_45_correct eo_row_avx2); auto using row_avx2. Qed.
End Blocks.

(** Band offset. *)
Lemma land_31 v : Z.land v 31 = v mod 32.
Proof. exact (low_bits v 5 ltac:(lia)). Qed.
Lemma land31 v : Z.land (to_u8 v) 31 = v mod 32.
Proof. change 31 with (2 ^ 5 - 1). rewrite low_bits by lia. unfold to_u8. change (2 ^ 5) with 32. Z.div_mod_to_equations. lia. Qed.
Lemma band_srai a k : byte (a k) -> byte (a (2 * (k / 2))) -> byte (a (2 * (k / 2) + 1)) -> and_si (srai_epi16 a 3) (set1_epi8 31) k = a k / 8.
Proof.
  intros B B0 B1. unfold and_si, set1_epi8, mk8. change (to_u8 31) with 31. unfold srai_epi16. set (i := k / 2) in *.
  assert (E : i16_of a i = a (2 * i) + 256 * a (2 * i + 1) \/ i16_of a i = a (2 * i) + 256 * a (2 * i + 1) - 65536).
  { unfold i16_of, to_i16, u16_of, byte in *. Z.div_mod_to_equations. lia. }
  assert (k = 2 * i \/ k = 2 * i + 1) as [K | K] by (unfold i; Z.div_mod_to_equations; lia); rewrite K.
  - rewrite mk16_lo, land31, Z.shiftr_div_pow2 by lia. change (2 ^ 3) with 8. unfold byte in *. Z.div_mod_to_equations. lia.
  - rewrite mk16_hi, land31, Z.shiftr_div_pow2 by lia. change (2 ^ 3) with 8. unfold byte in *. Z.div_mod_to_equations. lia.
Qed.
Lemma band_srli a k : byte (a k) -> byte (a (2 * (k / 2))) -> byte (a (2 * (k / 2) + 1)) -> and_si (srli_epi16 a 3) (set1_epi8 31) k = a k / 8.
Proof.
  intros B B0 B1. unfold and_si, set1_epi8, mk8. change (to_u8 31) with 31. unfold srli_epi16. set (i := k / 2) in *.
  assert (E : u16_of a i = a (2 * i) + 256 * a (2 * i + 1)) by reflexivity.
  assert (k = 2 * i \/ k = 2 * i + 1) as [K | K] by (unfold i; Z.div_mod_to_equations; lia); rewrite K.
  - rewrite mk16_lo, land31, Z.shiftr_div_pow2 by lia. change (2 ^ 3) with 8. unfold byte in *. Z.div_mod_to_equations. lia.
  - rewrite mk16_hi, land31, Z.shiftr_div_pow2 by lia. change (2 ^ 3) with 8. unfold byte in *. Z.div_mod_to_equations. lia.
Qed.
Lemma bo_type_value b1 b2 off s k : 0 <= b1 <= 31 -> 0 <= b2 <= 31 -> 0 <= s k <= 31 -> (forall e, 0 <= e <= 31 -> -128 <= off e <= 127) ->
  (forall e, 0 <= e <= 31 -> ~ In e [b1; (b1 + 1) mod 32; b2; (b2 + 1) mod 32] -> off e = 0) ->
  i8_of (bo_type (fun k => set1_epi8 (bo_band b1 b2 k)) (fun k => set1_epi8 (off (bo_band b1 b2 k))) s) k = off (s k).
Proof.
  intros H1 H2 Hs Ho Hz. specialize (Hz (s k) Hs). specialize (Ho (s k) Hs).
  assert (A : forall j, and_si (cmpeq_epi8 s (set1_epi8 (bo_band b1 b2 j))) (set1_epi8 (off (bo_band b1 b2 j))) k = if s k =? bo_band b1 b2 j then to_u8 (off (s k)) else 0).
  { intros j. assert (0 <= bo_band b1 b2 j <= 31).
    { unfold bo_band. rewrite !land_31.
      destruct (j =? 0), (j =? 1), (j =? 2); Z.div_mod_to_equations; lia. }
    unfold and_si, cmpeq_epi8, set1_epi8, mk8. rewrite (to_u8_id (bo_band b1 b2 j)) by (unfold byte; lia).
    destruct (Z.eqb_spec (s k) (bo_band b1 b2 j)) as [->|N]; [|reflexivity].
    rewrite Z.land_comm. change 255 with (Z.ones 8). rewrite Z.land_ones by lia. unfold to_u8. rewrite Z.mod_mod by lia. reflexivity. }
  unfold i8_of, bo_type, or_si at 1 2 3. rewrite !A.
  unfold bo_band. cbn [Z.eqb Pos.eqb]. rewrite !land_31.
  destruct (Z.eqb_spec (s k) b1), (Z.eqb_spec (s k) ((b1 + 1) mod 32)), (Z.eqb_spec (s k) b2), (Z.eqb_spec (s k) ((b2 + 1) mod 32));
    rewrite ?Z.lor_0_l, ?Z.lor_0_r, ?Z.lor_diag;
    try (rewrite to_i8_u8; apply to_i8_id; exact Ho).
  rewrite Hz; [reflexivity|]. cbn [In]. intuition congruence.
Qed.

Definition band_at (src : mem) (p : Z) (off : Z -> Z) (x : Z) : Z := saturate 8 (src (p + x) + off (Z.shiftr (src (p + x)) 3)).
Section Band.
  Variables (src : mem) (pd ds ps ss w h : Z) (b1 b2 : Z) (off : Z -> Z) (junk : reg) (dst : mem).
  Hypotheses (B : forall q, byte (src q)) (H1 : 0 <= b1 <= 31) (H2 : 0 <= b2 <= 31) (Ho : forall e, 0 <= e <= 31 -> -128 <= off e <= 127)
    (Hz : forall e, 0 <= e <= 31 -> ~ In e [b1; (b1 + 1) mod 32; b2; (b2 + 1) mod 32] -> off e = 0)
    (Hw : 0 <= w <= ds) (Hh : 0 <= h).
  Notation r := (fun k => set1_epi8 (bo_band b1 b2 k)).
  Notation o := (fun k => set1_epi8 (off (bo_band b1 b2 k))).
  Lemma band_rows (f : Z -> mem -> mem) : (forall Y m j, f Y m j = fill (pd + Y * ds) 0 w (band_at src (ps + Y * ss) off) m j) ->
    block_becomes w h pd ds dst (floop 0 h f dst) (band_result src ps ss 8 8 off).
  Proof.
    intros F. set (val := fun x y => saturate 8 (sample src ps ss x y + off (Z.shiftr (sample src ps ss x y) (8 - 5)))).
    eapply wr_becomes with (val := val) (P := fun x y => true); [|reflexivity].
    apply (wr_ext w h pd ds dst val (fun x y => y <? h)).
    { intros x y X Y. apply Z.ltb_lt. lia. }
    apply (floop_inv (fun Y m => wr w h pd ds dst val (fun x y => y <? Y) m)); [lia|..].
    { eapply wr_ext; [|apply wr_none]. intros x y X Y. symmetry. apply Z.ltb_ge. lia. }
    intros Y m HY Hm. eapply wr_same; [apply F|].
    eapply wr_ext; [|apply wr_fill; [lia|exact Hm|lia|apply Z.le_refl|exact HY|intros x Hx; reflexivity]].
    intros x y X Y0. unfold rowP. destruct (Z.ltb_spec y Y), (Z.eqb_spec y Y), (Z.leb_spec 0 x), (Z.ltb_spec x w), (Z.ltb_spec y (Y + 1)); cbn; try reflexivity; lia.
  Qed.
  Lemma bo_sse_correct : block_becomes w h pd ds dst (bo_sse src pd ds ps ss w h 8 b1 b2 off junk dst) (band_result src ps ss 8 8 off).
  Proof.
    unfold bo_sse. cbv zeta. change (8 - 5) with 3. apply band_rows. intros Y dst0 j. set (p := ps + Y * ss). set (q := pd + Y * ds).
    destruct (Z.le_gt_cases w 0) as [L|L].
    - rewrite vfor_empty by lia. rewrite fill_none by lia. reflexivity.
    - change (Z.land w 15) with (Z.land w (2 ^ 4 - 1)). rewrite low_bits by lia. change (2 ^ 4) with 16.
      apply vfor_fill; [lia|lia|]. intros x m Hx M. set (t := add_offsets_sse _ _).
      assert (V : forall k, 0 <= k < 16 -> t k = band_at src p off (x + k)).
      { intros k K. unfold t. rewrite add_offsets_value by (auto using load_bytes). rewrite sat8.
        assert (E : and_si (srai_epi16 (load src (p + x)) 3) (set1_epi8 31) k = load src (p + x) k / 8) by (apply band_srai; apply load_bytes; exact B).
        assert (Bk : byte (load src (p + x) k)) by (apply load_bytes; exact B). unfold byte in Bk.
        rewrite bo_type_value; try assumption; [|rewrite E; Z.div_mod_to_equations; lia]. rewrite E. unfold band_at. rewrite Z.shiftr_div_pow2 by lia. change (2 ^ 3) with 8. unfold load.
        replace (p + (x + k)) with (p + x + k) by lia. reflexivity. }
      clearbody t. rewrite Z.sub_0_r in M.
      destruct (last_piece 0 w x 16 (w mod 16) ltac:(lia) Hx ltac:(rewrite Z.sub_0_r; exact M) ltac:(rewrite Z.sub_0_r; reflexivity)) as [[E R]|[N R]].
      + destruct (Z.ltb_spec x (w - 15)); [lia|]. eexists _, _. split; [reflexivity|]. split; [|right; lia].
        intros i. rewrite (mask_fill junk (w mod 16 - 1) m q x _ (band_at src p off)); [|lia|intros; apply V; lia].
        replace (x + (w mod 16 - 1) + 1) with (Z.min w (x + 16)) by lia. reflexivity.
      + destruct (Z.ltb_spec x (w - 15)); [|lia]. eexists _, _. split; [reflexivity|]. split; [|left; reflexivity].
        intros i. unfold store16. rewrite (store_fill 16 m q x _ (band_at src p off) V). rewrite Z.min_r by lia. reflexivity.
  Qed.
  Lemma bo_avx2_correct : block_becomes w h pd ds dst (bo_avx2 src pd ds ps ss w h 8 b1 b2 off junk dst) (band_result src ps ss 8 8 off).
  Proof.
    unfold bo_avx2. cbv zeta. change (8 - 5) with 3. apply band_rows. intros Y dst0 j. set (p := ps + Y * ss). set (q := pd + Y * ds).
    destruct (Z.le_gt_cases w 0) as [L|L].
    - rewrite vfor_empty by lia. rewrite fill_none by lia. reflexivity.
    - change (Z.land (w - 0) 31) with (Z.land (w - 0) (2 ^ 5 - 1)). rewrite low_bits by lia. change (2 ^ 5) with 32.
      apply vfor_fill; [lia|lia|]. intros x m Hx M. set (t := add_offsets_avx2 _ _ _).
      assert (V : forall k, 0 <= k < 32 -> t k = band_at src p off (x + k)).
      { intros k K. unfold t. rewrite add_offsets_avx_value by (auto using load_bytes, add_small). rewrite sat8.
        assert (E : and_si (srli_epi16 (load src (p + x)) 3) (set1_epi8 31) k = load src (p + x) k / 8) by (apply band_srli; apply load_bytes; exact B).
        assert (Bk : byte (load src (p + x) k)) by (apply load_bytes; exact B). unfold byte in Bk.
        rewrite bo_type_value; try assumption; [|rewrite E; Z.div_mod_to_equations; lia]. rewrite E. unfold band_at. rewrite Z.shiftr_div_pow2 by lia. change (2 ^ 3) with 8. unfold load.
        replace (p + (x + k)) with (p + x + k) by lia. reflexivity. }
      clearbody t.
      destruct (last_piece 0 w x 32 ((w - 0) mod 32) ltac:(lia) Hx M eq_refl) as [[E R]|[N R]].
      + destruct (Z.ltb_spec x (w - (w - 0) mod 32)); [lia|]. eexists _, _. split; [reflexivity|]. split; [|right; lia].
        intros i. rewrite <- E. rewrite (tail_avx2 m q x w x _ junk (band_at src p off)); [|reflexivity|lia|exact V]. rewrite Z.min_l by lia. reflexivity.
      + destruct (Z.ltb_spec x (w - (w - 0) mod 32)).
        2:{ exfalso. pose proof (Z.mod_pos_bound (w - 0) 32 ltac:(lia)). Z.div_mod_to_equations. lia. }
        eexists _, _. split; [reflexivity|]. split; [|left; reflexivity].
        intros i. unfold store32. rewrite (store_fill 32 m q x _ (band_at src p off) V). rewrite Z.min_r by lia. reflexivity.
  Qed.
End Band.
