(** From the four fill functions to the rule, and prediction of a block. *)
From Coq Require Import ZArith List Bool Lia.
From Verif Require Import CBase MemModel MemProofs SaoModel SaoProofs NbModel NbSpec NbProofs IprModel IprSpec IprProofs IprProofsE IprProofsH EgModel EgSpec EgProofs.
Import ListNotations.
Open Scope Z_scope.

Lemma side_ext n near far s s' g k : 1 <= k -> 0 < n ->
  (near = true -> forall j, 1 <= j <= n -> s j = s' j) -> (far = true -> forall j, n < j <= 2 * n -> s j = s' j) ->
  side n near far s g k = side n near far s' g k.
Proof.
  intros Hk Hn N F. unfold side. destruct (Z.leb_spec k n) as [K|K].
  - destruct near; [apply N; [reflexivity|lia]|reflexivity].
  - destruct far; [apply F; [reflexivity|lia]|]. destruct near; [apply N; [reflexivity|lia]|reflexivity].
Qed.
Lemma side_repeats n near far s g k : 0 < n -> 2 * n <= k -> side n near far s g k = side n near far s g (2 * n).
Proof.
  intros Hn K. unfold side. destruct (Z.leb_spec k n), (Z.leb_spec (2 * n) n); try lia. rewrite Z.min_id, Z.min_r by lia. reflexivity.
Qed.
Lemma side_range n near far s g k (P : Z -> Prop) : 1 <= k -> 0 < n -> P g ->
  (near = true -> forall j, 1 <= j <= n -> P (s j)) -> (far = true -> forall j, n < j <= 2 * n -> P (s j)) ->
  P (side n near far s g k).
Proof.
  intros Hk Hn G N F. unfold side. destruct (Z.leb_spec k n) as [K|K].
  - destruct near; [apply N; [reflexivity|lia]|exact G].
  - destruct far; [apply F; [reflexivity|lia]|]. destruct near; [apply N; [reflexivity|lia]|exact G].
Qed.

Section Kept.
  Variables (pic : mem) (fd st : Z) (lcu : mem) (rt ox oy : Z) (R : Z -> Z -> Z).
  Lemma kept_pic x y : kept pic fd st lcu rt ox oy R x y -> ox <= x -> oy <= y -> pic (fd + (y - oy) * st + (x - ox)) = R x y.
  Proof. intros [(A & B & E)|[(A & B & E)|[(A & B & E)|(A & B & E)]]] X Y; [exact E|lia|lia|lia]. Qed.
  Lemma kept_top x y : kept pic fd st lcu rt ox oy R x y -> ox <= x -> y = oy - 1 -> lcu (rt + 1 + (x - ox)) = R x y.
  Proof. intros [(A & B & E)|[(A & B & E)|[(A & B & E)|(A & B & E)]]] X Y; [lia|exact E|lia|lia]. Qed.
  Lemma kept_left x y : kept pic fd st lcu rt ox oy R x y -> x = ox - 1 -> oy <= y -> lcu (rt - 1 - (y - oy)) = R x y.
  Proof. intros [(A & B & E)|[(A & B & E)|[(A & B & E)|(A & B & E)]]] X Y; [lia|lia|exact E|lia]. Qed.
  Lemma kept_corner x y : kept pic fd st lcu rt ox oy R x y -> x = ox - 1 -> y = oy - 1 -> lcu rt = R x y.
  Proof. intros [(A & B & E)|[(A & B & E)|[(A & B & E)|(A & B & E)]]] X Y; [lia|lia|lia|exact E]. Qed.
End Kept.

Section Edge.
  Variables (dc : Z) (pic : mem) (fd st : Z) (lcu : mem) (rt ox oy : Z) (R : Z -> Z -> Z) (a : nbs) (cx cy w h ep : Z) (m : mem).
  Hypothesis Hx : 0 <= cx.
  Hypothesis Hy : 0 <= cy.
  Hypothesis Hw : 0 < w.
  Hypothesis Hh : 0 < h.
  Hypothesis K : forall x y, uses a (ox + cx) (oy + cy) w h x y -> kept pic fd st lcu rt ox oy R x y.
  Let ptl := fd + cy * st + cx - st - 1.
  Let pl := rt + cx - cy.

  Definition covers (top left : Z -> Z) (c1 c2 c3 : Z) : Prop :=
    (forall j, 1 <= j -> uses a (ox + cx) (oy + cy) w h (ox + cx + j - 1) (oy + cy - 1) -> top j = R (ox + cx + j - 1) (oy + cy - 1)) /\
    (forall j, 1 <= j -> uses a (ox + cx) (oy + cy) w h (ox + cx - 1) (oy + cy + j - 1) -> left j = R (ox + cx - 1) (oy + cy + j - 1)) /\
    (uses a (ox + cx) (oy + cy) w h (ox + cx - 1) (oy + cy - 1) -> c1 = R (ox + cx - 1) (oy + cy - 1)) /\ c2 = top 1 /\ c3 = left 1.
  Lemma covers_fill top left c1 c2 c3 k : covers top left c1 c2 c3 -> - reach h w <= k <= reach w h ->
    fill_ref dc top left c1 c2 c3 ep a w h m (ep + k) = border_of dc a R (ox + cx) (oy + cy) w h k.
  Proof.
    intros (T & L & C & -> & ->) Hk. rewrite fill_ref_in by assumption. unfold filled, border_of.
    destruct (Z.ltb_spec 0 k) as [P|P].
    - apply side_ext; [lia|exact Hw| |]; intros A j Hj; apply T; try lia.
      + left. split; [exact A|]. lia.
      + right. left. split; [exact A|]. lia.
    - destruct (Z.ltb_spec k 0) as [P'|P'].
      + apply side_ext; [lia|exact Hh| |]; intros A j Hj; apply L; try lia.
        * right. right. left. split; [exact A|]. lia.
        * right. right. right. left. split; [exact A|]. lia.
      + destruct (n_top_left a) eqn:A1.
        { apply C. right. right. right. right. split; [exact A1|]. lia. }
        destruct (n_top a) eqn:A2.
        { rewrite T; [f_equal; lia|lia|]. left. split; [exact A2|]. lia. }
        destruct (n_left a) eqn:A3; [|reflexivity].
        rewrite L; [f_equal; lia|lia|]. right. right. left. split; [exact A3|]. lia.
  Qed.
  Lemma fill_edge_in k : - reach h w <= k <= reach w h ->
    fill_edge cx cy dc pic ptl st lcu pl ep a w h m (ep + k) = border_of dc a R (ox + cx) (oy + cy) w h k.
  Proof.
    intros Hk. unfold fill_edge. change (Z.shiftl (if cy =? 0 then 0 else 1) 1) with (Z.shiftl (if cy =? 0 then 0 else 1) 1).
    assert (E1 : forall j, pic (ptl + 1 + (j - 1)) = pic (fd + (oy + cy - 1 - oy) * st + (ox + cx + j - 1 - ox))) by (intros j; f_equal; unfold ptl; ring).
    assert (E2 : forall j, pic (ptl + st + (j - 1) * st) = pic (fd + (oy + cy + j - 1 - oy) * st + (ox + cx - 1 - ox))) by (intros j; f_equal; unfold ptl; ring).
    assert (E3 : pic ptl = pic (fd + (oy + cy - 1 - oy) * st + (ox + cx - 1 - ox))) by (f_equal; unfold ptl; ring).
    destruct (Z.eqb_spec cy 0) as [Y|Y], (Z.eqb_spec cx 0) as [X|X]; cbn [Z.shiftl Z.add Z.eqb Pos.iter Pos.eqb Pos.add Pos.mul Z.mul].
    - apply covers_fill; [|exact Hk]. split; [|split; [|split; [|split; reflexivity]]].
      + intros j Hj U. rewrite <- (kept_top _ _ _ _ _ _ _ _ _ _ (K _ _ U)) by lia. f_equal. unfold pl. lia.
      + intros j Hj U. rewrite <- (kept_left _ _ _ _ _ _ _ _ _ _ (K _ _ U)) by lia. f_equal. unfold pl. lia.
      + intros U. rewrite <- (kept_corner _ _ _ _ _ _ _ _ _ _ (K _ _ U)) by lia. f_equal. unfold pl. lia.
    - apply covers_fill; [|exact Hk]. split; [|split; [|split; [|split; [reflexivity|]]]].
      + intros j Hj U. rewrite <- (kept_top _ _ _ _ _ _ _ _ _ _ (K _ _ U)) by lia. f_equal. unfold pl. lia.
      + intros j Hj U. rewrite E2. apply (kept_pic _ _ _ _ _ _ _ _ _ _ (K _ _ U)); lia.
      + intros U. rewrite <- (kept_top _ _ _ _ _ _ _ _ _ _ (K _ _ U)) by lia. f_equal. unfold pl. lia.
      + f_equal. lia.
    - apply covers_fill; [|exact Hk]. split; [|split; [|split; [|split; [|reflexivity]]]].
      + intros j Hj U. rewrite E1. apply (kept_pic _ _ _ _ _ _ _ _ _ _ (K _ _ U)); lia.
      + intros j Hj U. rewrite <- (kept_left _ _ _ _ _ _ _ _ _ _ (K _ _ U)) by lia. f_equal. unfold pl. lia.
      + intros U. rewrite <- (kept_left _ _ _ _ _ _ _ _ _ _ (K _ _ U)) by lia. f_equal. unfold pl. lia.
      + f_equal. lia.
    - apply covers_fill; [|exact Hk]. split; [|split; [|split; [|split]]].
      + intros j Hj U. rewrite E1. apply (kept_pic _ _ _ _ _ _ _ _ _ _ (K _ _ U)); lia.
      + intros j Hj U. rewrite E2. apply (kept_pic _ _ _ _ _ _ _ _ _ _ (K _ _ U)); lia.
      + intros U. rewrite E3. apply (kept_pic _ _ _ _ _ _ _ _ _ _ (K _ _ U)); lia.
      + f_equal. lia.
      + f_equal. lia.
  Qed.
  Lemma fill_edge_out q : ~ (ep - reach h w <= q <= ep + reach w h) -> fill_edge cx cy dc pic ptl st lcu pl ep a w h m q = m q.
  Proof.
    intros H. unfold fill_edge.
    destruct (Z.eqb_spec cy 0) as [Y|Y], (Z.eqb_spec cx 0) as [X|X]; cbn [Z.shiftl Z.add Z.eqb Pos.iter Pos.eqb Pos.add Pos.mul Z.mul];
      apply fill_ref_out; assumption.
  Qed.
End Edge.

(** The rule's border can be predicted from. *)
Lemma border_of_repeats g a R x0 y0 w h : 0 < w -> 0 < h -> repeats (border_of g a R x0 y0 w h) w h (reach w h) (reach h w).
Proof.
  intros Hw Hh. unfold border_of. split; intros k Hk.
  - destruct (Z.ltb_spec 0 k), (Z.ltb_spec 0 (2 * w)); try lia. apply side_repeats; lia.
  - destruct (Z.ltb_spec 0 (- k)), (Z.ltb_spec 0 (- (2 * h))), (Z.ltb_spec (- k) 0), (Z.ltb_spec (- (2 * h)) 0); try lia.
    rewrite !Z.opp_involutive. apply side_repeats; lia.
Qed.
Lemma border_of_range (P : Z -> Prop) g a R x0 y0 w h k : 0 < w -> 0 < h -> P g ->
  (forall x y, uses a x0 y0 w h x y -> P (R x y)) -> P (border_of g a R x0 y0 w h k).
Proof.
  intros Hw Hh G U. unfold border_of. destruct (Z.ltb_spec 0 k) as [A|A].
  - apply side_range; [lia|exact Hw|exact G| |]; intros E j Hj; apply U.
    + left. split; [exact E|]. lia.
    + right. left. split; [exact E|]. lia.
  - destruct (Z.ltb_spec k 0) as [A'|A'].
    + apply side_range; [lia|exact Hh|exact G| |]; intros E j Hj; apply U.
      * right. right. left. split; [exact E|]. lia.
      * right. right. right. left. split; [exact E|]. lia.
    + destruct (n_top_left a) eqn:A1; [apply U; right; right; right; right; split; [exact A1|lia]|].
      destruct (n_top a) eqn:A2; [apply U; left; split; [exact A2|lia]|].
      destruct (n_left a) eqn:A3; [apply U; right; right; left; split; [exact A3|lia]|exact G].
Qed.
Lemma grey_range depth : 1 <= depth -> 0 <= 2 ^ (depth - 1) <= 2 ^ depth - 1.
Proof.
  intros H. assert (2 ^ depth = 2 * 2 ^ (depth - 1)) as E by (rewrite <- Z.pow_succ_r by lia; f_equal; lia).
  pose proof (Z.pow_pos_nonneg 2 (depth - 1)). lia.
Qed.
