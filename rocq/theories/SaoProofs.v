(** Edge and band offset kernels. *)
From Coq Require Import ZArith List Bool Lia.
From Verif Require Import CBase MemModel MemProofs HdrModel SaoModel SaoSpec.
Import ListNotations.
Open Scope Z_scope.

Lemma floop_inv {S : Type} (Inv : Z -> S -> Prop) a b f (s : S) :
  a <= b -> Inv a s -> (forall x t, a <= x < b -> Inv x t -> Inv (x + 1) (f x t)) -> Inv b (floop a b f s).
Proof.
  intros L H0 Hs. unfold floop.
  pose proof (loop_inv S (fun i t => Inv (a + i) t) (Z.to_nat (b - a)) (fun i => f (a + i)) s) as H.
  cbv beta in H. rewrite Z2Nat.id in H by lia. replace (a + (b - a)) with b in H by lia. apply H.
  - rewrite Z.add_0_r. exact H0.
  - intros i t Hi Ht. replace (a + (i + 1)) with (a + i + 1) by lia. apply Hs; [lia|exact Ht].
Qed.
Lemma floop_none {S : Type} a b f (s : S) : b <= a -> floop a b f s = s.
Proof. intros L. unfold floop. replace (Z.to_nat (b - a)) with 0%nat by lia. reflexivity. Qed.
(** Also for empty ranges. *)
Lemma floop_inv' {S : Type} (Inv : Z -> S -> Prop) a b f (s : S) :
  Inv a s -> (forall x t, a <= x < b -> Inv x t -> Inv (x + 1) (f x t)) -> Inv (Z.max a b) (floop a b f s).
Proof.
  intros H0 Hs. destruct (Z.le_gt_cases a b) as [L|L].
  - rewrite Z.max_r by lia. apply floop_inv; assumption.
  - rewrite floop_none by lia. rewrite Z.max_l by lia. exact H0.
Qed.

Lemma psign_cmp c a : psign (c - a) = match c ?= a with Lt => -1 | Eq => 0 | Gt => 1 end.
Proof.
  unfold psign. destruct (Z.compare_spec c a) as [->|H|H].
  - rewrite Z.sub_diag. reflexivity.
  - replace (0 <? c - a) with false by (symmetry; apply Z.ltb_ge; lia). replace (c - a <? 0) with true by (symmetry; apply Z.ltb_lt; lia). reflexivity.
  - replace (0 <? c - a) with true by (symmetry; apply Z.ltb_lt; lia). reflexivity.
Qed.
Lemma psign_neg a b : - psign (a - b) = psign (b - a).
Proof.
  rewrite !psign_cmp. rewrite (Z.compare_antisym a b). destruct (a ?= b); reflexivity.
Qed.
Lemma psign_sub p a b : p - psign (a - b) = p + psign (b - a).
Proof. rewrite <- (psign_neg a b). lia. Qed.
Lemma class_sum c a b : edge_class c a b = psign (c - a) + psign (c - b) + 2.
Proof. unfold edge_class. rewrite !psign_cmp. destruct (c ?= a), (c ?= b); reflexivity. Qed.
Lemma class_range c a b : 0 <= edge_class c a b <= 4.
Proof. unfold edge_class. destruct (c ?= a), (c ?= b); lia. Qed.
Lemma clip_to_sat depth v : 0 <= depth -> clip_to depth v = saturate depth v.
Proof.
  intros D. unfold clip_to, clip3, saturate. rewrite Z.shiftl_mul_pow2, Z.mul_1_l by exact D.
  pose proof (Z.pow_pos_nonneg 2 depth ltac:(lia) D).
  destruct (Z.ltb_spec v 0); [lia|]. destruct (Z.ltb_spec (2 ^ depth - 1) v); lia.
Qed.

Section Write.
  Variables (w h pd ds : Z) (m0 : mem) (val : Z -> Z -> Z).
  Hypothesis Hds : w <= ds.

  (** The positions in [P] have their new values. *)
  Definition wr (P : Z -> Z -> bool) (m : mem) : Prop :=
    (forall x y, 0 <= x < w -> 0 <= y < h -> m (pd + y * ds + x) = if P x y then val x y else m0 (pd + y * ds + x))
    /\ (forall q, (forall x y, 0 <= x < w -> 0 <= y < h -> q <> pd + y * ds + x) -> m q = m0 q).

  Lemma wr_ext P Q m : (forall x y, 0 <= x < w -> 0 <= y < h -> P x y = Q x y) -> wr P m -> wr Q m.
  Proof. intros E [H1 H2]. split; [|exact H2]. intros x y X Y. rewrite <- E by assumption. apply H1; assumption. Qed.

  Lemma wr_none : wr (fun _ _ => false) m0.
  Proof. split; reflexivity. Qed.

  Lemma wr_upd P m X Y v : wr P m -> 0 <= X < w -> 0 <= Y < h -> v = val X Y ->
    wr (fun x y => P x y || ((x =? X) && (y =? Y))) (upd m (pd + Y * ds + X) v).
  Proof.
    intros [H1 H2] HX HY ->. split.
    - intros x y Hx Hy. unfold upd.
      destruct (Z.eqb_spec (pd + y * ds + x) (pd + Y * ds + X)) as [E|N].
      + assert (y = Y) by nia. subst y. assert (x = X) by lia. subst x.
        rewrite !Z.eqb_refl, orb_true_r. reflexivity.
      + rewrite H1 by assumption. replace ((x =? X) && (y =? Y)) with false; [rewrite orb_false_r; reflexivity|].
        symmetry. apply andb_false_iff. destruct (Z.eqb_spec x X) as [->|]; [|left; reflexivity].
        right. apply Z.eqb_neq. intros ->. apply N. reflexivity.
    - intros q Hq. rewrite upd_other; [apply H2; exact Hq|]. apply Hq; assumption.
  Qed.

  (** A row (or part of it). *)
  Definition rowP (P : Z -> Z -> bool) (Y a X : Z) (x y : Z) : bool := P x y || ((y =? Y) && (a <=? x) && (x <? X)).
  Lemma wr_row_step P Y a X m v : wr (rowP P Y a X) m -> a <= X -> 0 <= X < w -> 0 <= Y < h -> v = val X Y ->
    wr (rowP P Y a (X + 1)) (upd m (pd + Y * ds + X) v).
  Proof.
    intros H A HX HY V. eapply wr_ext; [|apply (wr_upd _ _ X Y v H HX HY V)].
    intros x y Hx Hy. unfold rowP. cbv beta.
    destruct (P x y); [reflexivity|]. cbn [orb].
    destruct (Z.eqb_spec y Y), (Z.leb_spec a x), (Z.ltb_spec x X), (Z.ltb_spec x (X + 1)), (Z.eqb_spec x X); cbn; try reflexivity; lia.
  Qed.
  Lemma wr_row_start P Y a m : wr P m -> wr (rowP P Y a a) m.
  Proof.
    apply wr_ext. intros x y Hx Hy. unfold rowP. destruct (P x y); [reflexivity|].
    destruct (Z.eqb_spec y Y), (Z.leb_spec a x), (Z.ltb_spec x a); cbn; try reflexivity; lia.
  Qed.
  Definition colP (P : Z -> Z -> bool) (X a Y : Z) (x y : Z) : bool := P x y || ((x =? X) && (a <=? y) && (y <? Y)).
  Lemma wr_col_step P X a Y m v : wr (colP P X a Y) m -> a <= Y -> 0 <= X < w -> 0 <= Y < h -> v = val X Y ->
    wr (colP P X a (Y + 1)) (upd m (pd + Y * ds + X) v).
  Proof.
    intros H A HX HY V. eapply wr_ext; [|apply (wr_upd _ _ X Y v H HX HY V)].
    intros x y Hx Hy. unfold colP. cbv beta.
    destruct (P x y); [reflexivity|]. cbn [orb].
    destruct (Z.eqb_spec x X), (Z.leb_spec a y), (Z.ltb_spec y Y), (Z.ltb_spec y (Y + 1)), (Z.eqb_spec y Y); cbn; try reflexivity; lia.
  Qed.
  Lemma wr_col_start P X a m : wr P m -> wr (colP P X a a) m.
  Proof.
    apply wr_ext. intros x y Hx Hy. unfold colP. destruct (P x y); [reflexivity|].
    destruct (Z.eqb_spec x X), (Z.leb_spec a y), (Z.ltb_spec y a); cbn; try reflexivity; lia.
  Qed.
End Write.

Lemma wr_becomes w h pd ds old new val P f :
  wr w h pd ds old val P new ->
  (forall x y, 0 <= x < w -> 0 <= y < h -> f x y = if P x y then Some (val x y) else None) ->
  block_becomes w h pd ds old new f.
Proof.
  intros [H1 H2] E. split; [|exact H2]. intros x y X Y. rewrite H1, E by assumption. destruct (P x y); reflexivity.
Qed.

Section Kernels.
  Variables (src : mem) (pd ds ps ss w h depth : Z) (av : avail) (off : Z -> Z) (dst : mem).
  Hypotheses (Hw : 1 <= w) (Hh : 1 <= h) (Hds : w <= ds) (Hdep : 0 <= depth).
  Let sx := if a_L av then 0 else 1.
  Let ex := if a_R av then w else w - 1.
  Notation S_ := (sample src ps ss).
  Definition eval (dx dy x y : Z) : Z :=
    saturate depth (S_ x y + off (edge_class (S_ x y) (S_ (x + dx) (y + dy)) (S_ (x - dx) (y - dy)))).

  Lemma edge_result_eval dx dy x y :
    edge_result src ps ss w h depth av off dx dy x y
    = if usable av w h (x + dx) (y + dy) && usable av w h (x - dx) (y - dy) then Some (eval dx dy x y) else None.
  Proof. reflexivity. Qed.

  Lemma sx_range : 0 <= sx <= 1. Proof. unfold sx. destruct (a_L av); lia. Qed.
  Lemma ex_range : w - 1 <= ex <= w. Proof. unfold ex. destruct (a_R av); lia. Qed.

  Lemma eo_0_correct :
    block_becomes w h pd ds dst (eo_0 src pd ds ps ss w h depth av off dst) (edge_result src ps ss w h depth av off 1 0).
  Proof.
    unfold eo_0. fold sx ex. pose proof sx_range as Rs. pose proof ex_range as Re.
    eapply wr_becomes with (val := eval 1 0) (P := fun x y => (sx <=? x) && (x <? ex)).
    - apply (wr_ext w h pd ds dst (eval 1 0) (fun x y => (y <? h) && (sx <=? x) && (x <? ex))).
      { intros x y X Y. replace (y <? h) with true by (symmetry; apply Z.ltb_lt; lia). reflexivity. }
      apply (floop_inv (fun Y m => wr w h pd ds dst (eval 1 0) (fun x y => (y <? Y) && (sx <=? x) && (x <? ex)) m)); [lia|..].
      + eapply wr_ext; [|apply wr_none]. intros x y X Y. cbv beta. replace (y <? 0) with false by (symmetry; apply Z.ltb_ge; lia). reflexivity.
      + intros Y m HY Hm. set (P := fun x y => (y <? Y) && (sx <=? x) && (x <? ex)) in *. cbv beta zeta.
        eapply wr_ext with (P := rowP P Y sx (Z.max sx ex)).
        { intros x y Hx Hy. unfold rowP, P.
          destruct (Z.ltb_spec y Y), (Z.eqb_spec y Y), (Z.ltb_spec y (Y + 1)), (Z.leb_spec sx x), (Z.ltb_spec x ex), (Z.ltb_spec x (Z.max sx ex)); cbn; try reflexivity; lia. }
        refine (proj1 (floop_inv' (fun X (t : mem * Z) => wr w h pd ds dst (eval 1 0) (rowP P Y sx X) (fst t)
                   /\ snd t = psign (S_ X Y - S_ (X - 1) Y)) sx ex _ (m, _) _ _)).
        * split; [apply wr_row_start; exact Hm|]. cbn [snd]. unfold sample. f_equal. f_equal; f_equal; lia.
        * intros X [m1 ls] HX [Hm1 Hls]. cbn [fst snd] in *. split.
          -- apply (wr_row_step w h pd ds dst (eval 1 0) Hds); auto; try lia.
             unfold eval. rewrite clip_to_sat by exact Hdep. rewrite class_sum, Hls.
             unfold sample. replace (Y + 0) with Y by lia. replace (Y - 0) with Y by lia.
             replace (ps + Y * ss + (X + 1)) with (ps + Y * ss + X + 1) by lia. do 3 f_equal. lia.
          -- rewrite psign_neg. unfold sample. f_equal. f_equal; f_equal; lia.
    - intros x y Hx Hy. rewrite edge_result_eval.
      replace (usable av w h (x + 1) (y + 0) && usable av w h (x - 1) (y - 0)) with ((sx <=? x) && (x <? ex)); [reflexivity|].
      unfold usable, sx, ex.
      destruct (a_L av), (a_R av); destruct (Z.ltb_spec (y + 0) 0), (Z.ltb_spec (y - 0) 0), (Z.ltb_spec (y + 0) h), (Z.ltb_spec (y - 0) h); try lia;
        destruct (Z.ltb_spec (x + 1) 0), (Z.ltb_spec (x - 1) 0), (Z.ltb_spec (x + 1) w), (Z.ltb_spec (x - 1) w); try lia; cbn [andb];
        try (apply andb_true_iff; split; lia); try (apply andb_false_iff; lia).
  Qed.

  Lemma eo_90_correct :
    block_becomes w h pd ds dst (eo_90 src pd ds ps ss w h depth av off dst) (edge_result src ps ss w h depth av off 0 1).
  Proof.
    unfold eo_90. set (sy := if a_T av then 0 else 1). set (ey := if a_D av then h else h - 1).
    assert (Rs : 0 <= sy <= 1) by (unfold sy; destruct (a_T av); lia).
    assert (Re : h - 1 <= ey <= h) by (unfold ey; destruct (a_D av); lia).
    eapply wr_becomes with (val := eval 0 1) (P := fun x y => (sy <=? y) && (y <? ey)).
    - apply (wr_ext w h pd ds dst (eval 0 1) (fun x y => (x <? w) && (sy <=? y) && (y <? ey))).
      { intros x y X Y. replace (x <? w) with true by (symmetry; apply Z.ltb_lt; lia). reflexivity. }
      apply (floop_inv (fun X m => wr w h pd ds dst (eval 0 1) (fun x y => (x <? X) && (sy <=? y) && (y <? ey)) m)); [lia|..].
      + eapply wr_ext; [|apply wr_none]. intros x y X Y. cbv beta. replace (x <? 0) with false by (symmetry; apply Z.ltb_ge; lia). reflexivity.
      + intros X m HX Hm. set (P := fun x y => (x <? X) && (sy <=? y) && (y <? ey)) in *. cbv beta zeta.
        eapply wr_ext with (P := colP P X sy (Z.max sy ey)).
        { intros x y Hx Hy. unfold colP, P.
          destruct (Z.ltb_spec x X), (Z.eqb_spec x X), (Z.ltb_spec x (X + 1)), (Z.leb_spec sy y), (Z.ltb_spec y ey), (Z.ltb_spec y (Z.max sy ey)); cbn; try reflexivity; lia. }
        refine (proj1 (floop_inv' (fun Y (t : mem * Z) => wr w h pd ds dst (eval 0 1) (colP P X sy Y) (fst t)
                   /\ snd t = psign (S_ X Y - S_ X (Y - 1))) sy ey _ (m, _) _ _)).
        * split; [apply wr_col_start; exact Hm|]. cbn [snd]. unfold sample. f_equal.
        * intros Y [m1 ls] HY [Hm1 Hls]. cbn [fst snd] in *. split.
          -- apply (wr_col_step w h pd ds dst (eval 0 1) Hds); auto; try lia.
             unfold eval. rewrite clip_to_sat by exact Hdep. rewrite class_sum, Hls.
             unfold sample. replace (X + 0) with X by lia. replace (X - 0) with X by lia. do 3 f_equal.
          -- rewrite psign_neg. unfold sample. f_equal. f_equal; f_equal; lia.
    - intros x y Hx Hy. rewrite edge_result_eval.
      replace (usable av w h (x + 0) (y + 1) && usable av w h (x - 0) (y - 1)) with ((sy <=? y) && (y <? ey)); [reflexivity|].
      unfold usable, sy, ey.
      destruct (a_T av), (a_D av); destruct (Z.ltb_spec (x + 0) 0), (Z.ltb_spec (x - 0) 0), (Z.ltb_spec (x + 0) w), (Z.ltb_spec (x - 0) w); try lia;
        destruct (Z.ltb_spec (y + 1) 0), (Z.ltb_spec (y - 1) 0), (Z.ltb_spec (y + 1) h), (Z.ltb_spec (y - 1) h); try lia; cbn [andb];
        try (apply andb_true_iff; split; lia); try (apply andb_false_iff; lia).
  Qed.
End Kernels.
