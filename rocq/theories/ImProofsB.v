(** Proofs about the grid of stored modes. *)
From Coq Require Import ZArith List Bool Lia.
From Verif Require Import MemModel MemProofs MemProofsB SaoModel SaoProofs ImModel ImSpec.
Import ListNotations.
Open Scope Z_scope.

(** The events as the model's operations; [lv] is the LCU level. *)
Definition op_event (lv : Z) (o : mode_op) : mode_event :=
  match o with Slice r => NewSlice (r * 2 ^ (lv - 2)) | Unit x y w h md => NewUnit x y w h md end.

Lemma addr_cell st wu x y cx cy : st = wu + 16 -> -1 <= x < wu -> -1 <= cx < wu -> y * st + x = cy * st + cx -> x = cx /\ y = cy.
Proof. intros -> Hx Hc E. assert (y = cy \/ y <= cy - 1 \/ cy + 1 <= y) as [H|[H|H]] by lia; [subst; lia|exfalso; nia|exfalso; nia]. Qed.
Lemma addr_wide st wu x y cx cy : st = wu + 16 -> -16 <= x < wu -> -1 <= cx < wu -> y * st + x = cy * st + cx -> x = cx /\ y = cy.
Proof. intros -> Hx Hc E. assert (y = cy \/ y <= cy - 1 \/ cy + 1 <= y) as [H|[H|H]] by lia; [subst; lia|exfalso; nia|exfalso; nia]. Qed.

Lemma store_paints st x y w h md : 0 < w -> 0 < h ->
  paints (store_mode st x y w h md)
         (fun q => existsb (fun j => (y * st + x + j * st + (if j =? h - 1 then 0 else w - 1) <=? q) && (q <? y * st + x + j * st + w)) (zrange 0 h))
         (fun _ => md).
Proof.
  intros Hw Hh. unfold store_mode. apply paints_floop. intros j Hj. apply paints_line. intros i Hi. apply paints_upd. reflexivity.
Qed.
Lemma store_cell st wu x y w h md g cx cy : st = wu + 16 -> 0 <= x -> 0 < w -> x + w <= wu -> 0 < h -> -1 <= cx < wu ->
  (on_right x y w h cx cy \/ on_bottom x y w h cx cy -> store_mode st x y w h md g (cy * st + cx) = md) /\
  (~ cell_in x y w h cx cy -> store_mode st x y w h md g (cy * st + cx) = g (cy * st + cx)).
Proof.
  intros Est Hx Hw Hxw Hh Hc. rewrite (store_paints st x y w h md Hw Hh). split.
  - intros R. match goal with |- (if ?b then _ else _) = _ => assert (B : b = true) end.
    + apply existsb_zrange. exists (cy - y).
      assert (0 <= cy - y < h /\ (cx = x + w - 1 \/ cy - y = h - 1) /\ x <= cx < x + w) as (Hj & Hor & Hcx) by (clear - R; unfold on_right, on_bottom, cell_in in R; lia).
      split; [exact Hj|]. apply andb_true_iff. rewrite Z.leb_le, Z.ltb_lt. destruct (Z.eqb_spec (cy - y) (h - 1)); split; nia.
    + rewrite B. reflexivity.
  - intros N. match goal with |- (if ?b then _ else _) = _ => destruct b eqn:B end; [|reflexivity]. exfalso. apply N.
    apply existsb_zrange in B. destruct B as (j & Hj & B). apply andb_true_iff in B. rewrite Z.leb_le, Z.ltb_lt in B.
    assert (exists i, 0 <= i < w /\ (y + j) * st + (x + i) = cy * st + cx) as (i & Hi & E).
    { exists (cy * st + cx - (y * st + x + j * st)). split; [destruct (j =? h - 1); lia|lia]. }
    apply (addr_cell st wu) in E; [|exact Est|lia|lia]. unfold cell_in. lia.
Qed.
Lemma slice_cell st wu lv r g cx cy : st = wu + 16 -> 2 <= lv -> -1 <= cx < wu ->
  (cy = r * 2 ^ (lv - 2) - 1 -> slice_modes st lv r g (cy * st + cx) = 0) /\
  (cy <> r * 2 ^ (lv - 2) - 1 -> slice_modes st lv r g (cy * st + cx) = g (cy * st + cx)).
Proof.
  intros Est Hlv Hc. unfold slice_modes. cbv zeta. rewrite Z.shiftl_mul_pow2 by lia. set (y := r * 2 ^ (lv - 2)). clearbody y.
  rewrite (paints_line 0 st ((y - 1) * st - 16) _ (fun _ => 0)) by (intros t Ht; apply paints_upd; reflexivity).
  destruct (Z.leb_spec ((y - 1) * st - 16 + 0) (cy * st + cx)), (Z.ltb_spec (cy * st + cx) ((y - 1) * st - 16 + st)); cbn [andb].
  - split; [reflexivity|]. intros N. exfalso. apply N.
    destruct (addr_wide st wu (cy * st + cx - (y - 1) * st) (y - 1) cx cy Est) as [_ E]; lia.
  - split; [|reflexivity]. intros ->. lia.
  - split; [|reflexivity]. intros ->. lia.
  - split; [|reflexivity]. intros ->. lia.
Qed.
Lemma init_cell st wu hu g cx cy : st = wu + 16 -> 0 < wu -> 0 < hu -> -1 <= cx < wu -> -1 <= cy < hu -> init_modes st hu g (cy * st + cx) = 0.
Proof.
  intros Est Hw Hh Hx Hy. unfold init_modes.
  rewrite (paints_line 0 (st * (hu + 1)) (- st - 16) _ (fun _ => 0)) by (intros t Ht; apply paints_upd; reflexivity).
  assert (- st <= cy * st) by nia. assert (cy * st <= (hu - 1) * st) by nia.
  replace ((- st - 16 + 0 <=? cy * st + cx) && (cy * st + cx <? - st - 16 + st * (hu + 1))) with true; [reflexivity|].
  symmetry. apply andb_true_iff. rewrite Z.leb_le, Z.ltb_lt. split; nia.
Qed.

Section Grid.
Variables st wu hu lv : Z.
Hypothesis Est : st = wu + 16.
Hypothesis Hwu : 0 < wu.
Hypothesis Hhu : 0 < hu.
Hypothesis Hlv : 2 <= lv.

(** An operation that leaves the value [v] at a cell. *)
Definition leaves (v cx cy : Z) (o : mode_op) : Prop :=
  forall g : mem, g (cy * st + cx) = v -> mode_step st lv g o (cy * st + cx) = v.
Lemma leaves_all v cx cy ops : Forall (leaves v cx cy) ops -> forall g : mem, g (cy * st + cx) = v -> fold_left (mode_step st lv) ops g (cy * st + cx) = v.
Proof.
  induction ops as [|o ops IH]; intros F g E; cbn [fold_left]; [exact E|].
  inversion_clear F as [|? ? A B]. apply IH; [exact B|]. apply A. exact E.
Qed.
Lemma ord_split {A} (R : A -> A -> Prop) l1 x l2 : ForallOrdPairs R (l1 ++ x :: l2) -> Forall (R x) l2.
Proof. induction l1 as [|y l1 IH]; cbn [app]; intros F; inversion_clear F; auto. Qed.
Lemma unit_leaves v cx cy x y w h md : event_in wu hu (NewUnit x y w h md) -> -1 <= cx < wu -> ~ cell_in x y w h cx cy -> leaves v cx cy (Unit x y w h md).
Proof.
  intros E Hc N g G. cbn [event_in] in E. cbn [mode_step]. destruct (store_cell st wu x y w h md g cx cy) as [_ K]; try lia. rewrite (K N). exact G.
Qed.
Lemma slice_leaves v cx cy r : -1 <= cx < wu -> cy <> r * 2 ^ (lv - 2) - 1 \/ v = 0 -> leaves v cx cy (Slice r).
Proof.
  intros Hc N g G. cbn [mode_step]. destruct (slice_cell st wu lv r g cx cy Est Hlv Hc) as [A B].
  destruct (Z.eq_dec cy (r * 2 ^ (lv - 2) - 1)) as [E|E]; [rewrite (A E); lia|rewrite (B E); exact G].
Qed.
Variable ops : list mode_op.
Hypothesis Hok : events_ok wu hu (map (op_event lv) ops).
Lemma in_event o : In o ops -> event_in wu hu (op_event lv o).
Proof. intros H. destruct Hok as [F _]. rewrite Forall_forall in F. apply F. apply in_map. exact H. Qed.

Lemma grid_unit g cx cy x y w h md : -1 <= cx < wu -> slices_upto (map (op_event lv) ops) cy ->
  In (Unit x y w h md) ops -> on_right x y w h cx cy \/ on_bottom x y w h cx cy ->
  mode_grid st lv hu ops g (cy * st + cx) = md.
Proof.
  intros Hc Hs Hin On. pose proof (in_event _ Hin) as Ein. apply in_split in Hin. destruct Hin as (l1 & l2 & E).
  unfold mode_grid. rewrite E, fold_left_app. cbn [fold_left].
  apply leaves_all.
  - apply Forall_forall. intros o Ho. assert (Io : In o ops) by (rewrite E; apply in_or_app; right; right; exact Ho).
    assert (B : event_before (NewUnit x y w h md) (op_event lv o)).
    { destruct Hok as [_ P]. rewrite E, map_app in P. cbn [map op_event] in P. apply ord_split in P. rewrite Forall_forall in P. apply P. apply in_map. exact Ho. }
    pose proof (in_event _ Io) as Eo. destruct o as [r|x' y' w' h' md'].
    + apply slice_leaves; [exact Hc|]. left. specialize (Hs (r * 2 ^ (lv - 2))).
      assert (r * 2 ^ (lv - 2) <= cy) by (apply Hs; apply in_map_iff; exists (Slice r); auto). lia.
    + apply unit_leaves; [exact Eo|exact Hc|]. intros C. cbn [op_event event_before] in B. apply (B cx cy). split; [|exact C]. destruct On as [[On _]|[On _]]; exact On.
  - cbn [op_event event_in] in Ein. cbn [mode_step]. apply (proj1 (store_cell st wu x y w h md _ cx cy Est ltac:(lia) ltac:(lia) ltac:(lia) ltac:(lia) Hc)). exact On.
Qed.
Lemma grid_none g cx cy : -1 <= cx < wu -> -1 <= cy < hu -> ~ covered (map (op_event lv) ops) cx cy -> mode_grid st lv hu ops g (cy * st + cx) = 0.
Proof.
  intros Hc Hy N. unfold mode_grid. apply leaves_all.
  - apply Forall_forall. intros o Ho. pose proof (in_event _ Ho) as Eo. destruct o as [r|x y w h md].
    + apply slice_leaves; [exact Hc|]. right. reflexivity.
    + apply unit_leaves; [exact Eo|exact Hc|]. intros C. apply N. exists x, y, w, h, md. split; [|exact C]. apply in_map_iff. exists (Unit x y w h md). auto.
  - apply (init_cell st wu); assumption.
Qed.
Lemma grid_slice g cx cy r : -1 <= cx < wu -> In (Slice r) ops -> r * 2 ^ (lv - 2) = cy + 1 -> mode_grid st lv hu ops g (cy * st + cx) = 0.
Proof.
  intros Hc Hin Er. apply in_split in Hin. destruct Hin as (l1 & l2 & E).
  unfold mode_grid. rewrite E, fold_left_app. cbn [fold_left].
  apply leaves_all.
  - apply Forall_forall. intros o Ho. assert (Io : In o ops) by (rewrite E; apply in_or_app; right; right; exact Ho).
    assert (B : event_before (NewSlice (r * 2 ^ (lv - 2))) (op_event lv o)).
    { destruct Hok as [_ P]. rewrite E, map_app in P. cbn [map op_event] in P. apply ord_split in P. rewrite Forall_forall in P. apply P. apply in_map. exact Ho. }
    pose proof (in_event _ Io) as Eo. destruct o as [r'|x' y' w' h' md'].
    + apply slice_leaves; [exact Hc|]. right. reflexivity.
    + apply unit_leaves; [exact Eo|exact Hc|]. intros C. cbn [op_event event_before] in B. unfold cell_in in C. lia.
  - cbn [mode_step]. apply (proj1 (slice_cell st wu lv r _ cx cy Est Hlv Hc)). lia.
Qed.
Lemma left_top_modes g x y : 0 <= x < wu -> 0 <= y < hu -> slices_upto (map (op_event lv) ops) y ->
  (forall x1 y1 w1 h1 md, In (Unit x1 y1 w1 h1 md) ops -> on_right x1 y1 w1 h1 (x - 1) y -> mode_left st x y (mode_grid st lv hu ops g) = md) /\
  (~ covered (map (op_event lv) ops) (x - 1) y -> mode_left st x y (mode_grid st lv hu ops g) = 0) /\
  (forall x1 y1 w1 h1 md, slices_upto (map (op_event lv) ops) (y - 1) -> In (Unit x1 y1 w1 h1 md) ops -> on_bottom x1 y1 w1 h1 x (y - 1) ->
     mode_top st x y (mode_grid st lv hu ops g) = md) /\
  (~ covered (map (op_event lv) ops) x (y - 1) -> mode_top st x y (mode_grid st lv hu ops g) = 0) /\
  (forall r, In (Slice r) ops -> r * 2 ^ (lv - 2) = y -> mode_top st x y (mode_grid st lv hu ops g) = 0).
Proof.
  intros Hx Hy Hs. unfold mode_left, mode_top. replace (y * st + x - 1) with (y * st + (x - 1)) by lia. replace (y * st + x - st) with ((y - 1) * st + x) by lia.
  split; [|split; [|split; [|split]]].
  - intros x1 y1 w1 h1 md Hin On. apply (grid_unit g (x - 1) y x1 y1 w1 h1 md); auto; lia.
  - intros N. apply grid_none; auto; lia.
  - intros x1 y1 w1 h1 md Hs' Hin On. apply (grid_unit g x (y - 1) x1 y1 w1 h1 md); auto; lia.
  - intros N. apply grid_none; auto; lia.
  - intros r Hin Er. apply (grid_slice g x (y - 1) r); auto; lia.
Qed.
End Grid.

(** The units of a coding unit fill it exactly. *)
Lemma ex4 {A} (P : A -> Prop) a b c d : (exists p, In p [a; b; c; d] /\ P p) <-> P a \/ P b \/ P c \/ P d.
Proof.
  split.
  - intros (p & Hin & H). cbn [In] in Hin. destruct Hin as [<- | [<- | [<- | [<- | []]]]]; auto.
  - intros [H | [H | [H | H]]]; [exists a|exists b|exists c|exists d]; (split; [cbn; auto|exact H]).
Qed.
Lemma ex1 {A} (P : A -> Prop) a : (exists p, In p [a] /\ P p) <-> P a.
Proof.
  split.
  - intros (p & Hin & H). cbn [In] in Hin. destruct Hin as [<- | []]; auto.
  - intros H. exists a. split; [cbn; auto|exact H].
Qed.
Lemma units_tile level split x y : 3 <= level <= 6 -> (split = 0 \/ split = 3 \/ (level = 4 \/ level = 5) /\ (split = 1 \/ split = 2)) ->
  let w := fst (unit_size level split) in
  let h := snd (unit_size level split) in
  let n := 2 ^ (level - 2) in
  0 < w /\ 0 < h /\
  (forall cx cy, (exists p, In p (unit_places level split x y) /\ cell_in (fst p) (snd p) w h cx cy) <-> cell_in x y n n cx cy) /\
  ForallOrdPairs (fun p q => forall cx cy, ~ (cell_in (fst p) (snd p) w h cx cy /\ cell_in (fst q) (snd q) w h cx cy)) (unit_places level split x y).
Proof.
  intros Hl Hs.
  assert (E : level = 3 \/ level = 4 \/ level = 5 \/ level = 6) by lia.
  assert (C : split = 0 \/ split = 3 \/ split = 1 \/ split = 2) by lia.
  destruct E as [-> | [-> | [-> | ->]]]; destruct C as [-> | [-> | [-> | ->]]]; try (exfalso; lia); clear Hl Hs;
    cbv zeta; cbn [unit_size unit_places Z.eqb Pos.eqb Z.sub Z.add Z.opp Z.shiftl Z.shiftr Pos.iter Z.mul Z.div2 Pos.div2 Pos.mul Pos.add fst snd Z.pow Z.pow_pos Z.pos_sub Pos.pred_double Z.pred_double Z.succ_double Z.double Pos.sub Pos.sub_mask Pos.double_mask Pos.succ_double_mask Pos.double_pred_mask Pos.compare Pos.compare_cont];
    (split; [lia|split; [lia|split; [intros cx cy; first [rewrite ex4|rewrite ex1]; cbn [fst snd]; unfold cell_in; lia
    |repeat (apply FOP_cons; [repeat (apply Forall_cons; [cbn [fst snd]; unfold cell_in; intros; lia|]); apply Forall_nil|]); apply FOP_nil]]]).
Qed.
