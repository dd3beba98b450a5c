(** Prediction of a whole block, with the availability of C51. *)
From Coq Require Import ZArith List Bool Lia.
From Verif Require Import CBase MemModel MemProofs SaoModel SaoProofs NbModel NbSpec NbProofs IprModel IprSpec IprProofs IprProofsE IprProofsH EgModel EgSpec EgProofs EgProofsB.
Import ListNotations.
Open Scope Z_scope.

Section Block.
  Variables (bits depth : Z) (junk : mem) (R : Z -> Z -> Z) (lcu : mem) (rt fd st ox oy : Z).
  Hypothesis Hd : 1 <= depth <= bits.
  Hypothesis Hb : bits = 8 \/ bits = 16.

  (** Prediction with the border of an edge buffer that holds the rule's border. *)
  Lemma predict_from a buf ep p mode w h x0 y0 dst :
    0 <= mode <= 32 -> intra_shape w h -> w <= st ->
    (forall x y, uses a x0 y0 w h x y -> 0 <= R x y <= 2 ^ depth - 1) ->
    (forall k, - reach h w <= k <= reach w h -> buf (ep + k) = border_of (2 ^ (depth - 1)) a R x0 y0 w h k) ->
    predicts w h p st dst (intra_pred bits depth junk buf ep p st mode w h (n_top a) (n_left a) dst)
      (rule depth (border_of (2 ^ (depth - 1)) a R x0 y0 w h) mode w h (n_top a) (n_left a)).
  Proof.
    intros Hm Sh W U B. pose proof (shape_pos w h Sh) as P. pose proof (IprProofsF.reach_ge w h) as Q1. pose proof (IprProofsF.reach_ge h w) as Q2.
    assert (L : legal depth (fun k => buf (ep + k)) w h).
    { intros k Hk. cbv beta. rewrite B by exact Hk. apply (border_of_range (fun v => 0 <= v <= 2 ^ depth - 1)); [lia|lia|apply grey_range; lia|exact U]. }
    assert (RP : repeats (fun k => buf (ep + k)) w h (reach w h) (reach h w)).
    { destruct (border_of_repeats (2 ^ (depth - 1)) a R x0 y0 w h ltac:(lia) ltac:(lia)) as [R1 R2].
      split; intros k Hk; cbv beta; rewrite !B by lia; [apply R1|apply R2]; exact Hk. }
    destruct (intra_pred_ok bits depth junk buf ep p st mode w h (n_top a) (n_left a) dst Hd Hb Hm Sh W L RP) as [A1 A2].
    split; [|exact A2]. intros x y Hx Hy. rewrite A1 by assumption. apply rule_border; try assumption.
  Qed.

  Lemma pred_block c cur mode cx cy w h buf pic a :
    0 <= mode <= 32 -> intra_shape w h -> w <= st -> 0 <= cx -> 0 <= cy ->
    intra_neighbors (k_lv c) (k_wu c) (k_hu c) (k_wscu c) (k_sl c) (Z.shiftr cx 2 + k_ux c) (Z.shiftr cy 2 + k_uy c) w h cur = Done a ->
    (forall x y, uses a (ox + cx) (oy + cy) w h x y -> kept pic fd st lcu rt ox oy R x y /\ 0 <= R x y <= 2 ^ depth - 1) ->
    exists buf' pic', get_intra_pred bits depth junk c cur mode cx cy w h lcu rt fd st buf pic = Done (a, buf', pic') /\
      (forall k, - reach h w <= k <= reach w h -> buf' (255 + k) = border_of (2 ^ (depth - 1)) a R (ox + cx) (oy + cy) w h k) /\
      (forall q, ~ (255 - reach h w <= q <= 255 + reach w h) -> buf' q = buf q) /\
      predicts w h (fd + cy * st + cx) st pic pic'
        (rule depth (border_of (2 ^ (depth - 1)) a R (ox + cx) (oy + cy) w h) mode w h (n_top a) (n_left a)).
  Proof.
    intros Hm Sh W Hx Hy N K. pose proof (shape_pos w h Sh) as P.
    unfold get_intra_pred. rewrite N. cbn [bindo]. change (Z.shiftl 64 2 - 1) with 255.
    eexists. eexists. split; [reflexivity|].
    match goal with |- context [intra_pred bits depth junk ?b _ _ _ _ _ _ _ _ _] => set (buf' := b) end.
    assert (B : forall k, - reach h w <= k <= reach w h -> buf' (255 + k) = border_of (2 ^ (depth - 1)) a R (ox + cx) (oy + cy) w h k).
    { intros k Hk. unfold buf'. apply fill_edge_in; try assumption; try lia. intros x y U. apply (K x y U). }
    split; [exact B|]. split.
    - intros q Hq. unfold buf'. apply fill_edge_out; [lia|lia|exact Hq].
    - apply predict_from; try assumption. intros x y U. apply (K x y U).
  Qed.

  (** The two chroma borders lie side by side in the buffer. *)
  Lemma chroma_size level : 3 <= level <= 6 -> let n := 2 ^ (level - 1) in intra_shape n n /\ reach n n <= 124 /\ 0 < n.
  Proof.
    intros H. assert (C : level = 3 \/ level = 4 \/ level = 5 \/ level = 6) by lia.
    destruct C as [-> | [-> | [-> | ->]]]; cbn; (split; [unfold intra_shape; cbn [In]; auto 10|split; [unfold reach; cbn; lia|lia]]).
  Qed.
End Block.

Lemma pred_chroma bits depth junk R1 R2 lcu1 lcu2 rt fd1 fd2 st ox oy c cur level luma c_mode mode cx cy buf pic1 pic2 a :
  1 <= depth <= bits -> bits = 8 \/ bits = 16 ->
  real_mode luma c_mode = Done mode -> 0 <= mode <= 32 -> 3 <= level <= 6 ->
  let n := 2 ^ (level - 1) in
  n <= st -> 0 <= cx -> 0 <= cy ->
  intra_neighbors (k_lv c) (k_wu c) (k_hu c) (k_wscu c) (k_sl c) (2 * cx / 4 + k_ux c) (2 * cy / 4 + k_uy c) (2 * n) (2 * n) cur = Done a ->
  (forall x y, uses a (ox + cx) (oy + cy) n n x y ->
     kept pic1 fd1 st lcu1 rt ox oy R1 x y /\ kept pic2 fd2 st lcu2 rt ox oy R2 x y /\
     0 <= R1 x y <= 2 ^ depth - 1 /\ 0 <= R2 x y <= 2 ^ depth - 1) ->
  exists buf' pic1' pic2', get_intra_pred_chroma bits depth junk c cur level luma c_mode cx cy lcu1 lcu2 rt fd1 fd2 st buf pic1 pic2 = Done (a, buf', (pic1', pic2')) /\
    predicts n n (fd1 + cy * st + cx) st pic1 pic1'
      (rule depth (border_of (2 ^ (depth - 1)) a R1 (ox + cx) (oy + cy) n n) mode n n (n_top a) (n_left a)) /\
    predicts n n (fd2 + cy * st + cx) st pic2 pic2'
      (rule depth (border_of (2 ^ (depth - 1)) a R2 (ox + cx) (oy + cy) n n) mode n n (n_top a) (n_left a)) /\
    (forall q, ~ (0 <= q <= 511) -> buf' q = buf q).
Proof.
  intros Hd Hb RM Hm Hl n W Hx Hy N K.
  destruct (chroma_size level Hl) as (Sh & Rn & Pn). fold n in Sh, Rn, Pn.
  unfold get_intra_pred_chroma. rewrite RM. cbn [bindo].
  assert (E1 : Z.shiftl 1 (level - 1) = n) by (rewrite Z.shiftl_mul_pow2 by lia; unfold n; lia). rewrite E1.
  rewrite !(Z.shiftl_mul_pow2 _ 1) by lia. change (2 ^ 1) with 2. rewrite !(Z.mul_comm _ 2), !Z.shiftr_div_pow2 by lia. change (2 ^ 2) with 4. rewrite N. cbn [bindo].
  change (2 * 64 - 1) with 127. change (Z.shiftl 64 2) with 256. change (127 + 256) with 383.
  eexists. eexists. eexists. split; [reflexivity|].
  set (b1 := fill_edge cx cy (2 ^ (depth - 1)) pic1 (fd1 + cy * st + cx - st - 1) st lcu1 (rt + cx - cy) 127 a n n buf).
  set (b2 := fill_edge cx cy (2 ^ (depth - 1)) pic2 (fd2 + cy * st + cx - st - 1) st lcu2 (rt + cx - cy) 383 a n n b1).
  split; [|split].
  - apply predict_from; try assumption; [intros x y U; apply (K x y U)|].
    intros k Hk. unfold b2. rewrite fill_edge_out by lia. unfold b1. apply fill_edge_in; try assumption. intros x y U. apply (K x y U).
  - apply predict_from; try assumption; [intros x y U; apply (K x y U)|].
    intros k Hk. unfold b2. apply fill_edge_in; try assumption. intros x y U. apply (K x y U).
  - intros q Hq. unfold b2. rewrite fill_edge_out by lia. unfold b1. apply fill_edge_out; lia.
Qed.

(** Shapes of the blocks of intra coding units. *)
Lemma block_shape lv level split cx cy k bx by_ w h : unit_at lv level split cx cy k bx by_ w h -> intra_shape (4 * w) (4 * h).
Proof.
  intros [Hv Hl Hs Hx Hy Ax Ay Hk].
  assert (C : level = 3 \/ level = 4 \/ level = 5 \/ level = 6) by lia.
  unfold intra_shape. destruct k as [|[|[|[|k]]]];
    destruct C as [-> | [-> | [-> | ->]]]; destruct Hs as [-> | [-> | [[?|?] [-> | ->]]]]; try lia; cbn in Hk;
    try discriminate; try (injection Hk as <- <- <- <-; cbn [In Z.mul Pos.mul]; auto 10); destruct k; discriminate.
Qed.
(** What comes before a block lies in earlier LCU rows, or in this row and not to the right. *)
Lemma before_lcu lv level split cx cy k bx by_ w h u v : unit_at lv level split cx cy k bx by_ w h ->
  let N := 2 ^ (lv - 2) in
  decoded_before (Z.to_nat (lv - 2)) split (2 ^ (level - 2)) cx cy k u v = true ->
  v / N < cy / N \/ v / N = cy / N /\ u / N <= cx / N.
Proof.
  intros U N. pose proof (block_facts _ _ _ _ _ _ _ _ _ _ U) as F. cbv zeta in F. fold N in F.
  destruct F as (_ & _ & _ & _ & _ & _ & F1 & F2 & _). pose proof (ua_lv _ _ _ _ _ _ _ _ _ _ U) as Hv. pose proof (ua_level _ _ _ _ _ _ _ _ _ _ U) as Hl.
  assert (PN : 0 < N) by (apply Z.pow_pos_nonneg; lia).
  unfold decoded_before. destruct (in_block _ u v) eqn:B.
  - intros _. unfold in_block in B. rewrite !andb_true_iff, !Z.leb_le, !Z.ltb_lt in B. right.
    rewrite (same_row N cy v), (same_row N cx u) by lia. lia.
  - unfold unit_before. rewrite Z2Nat.id by lia. fold N.
    destruct (Z.eqb_spec (v / N) (cy / N)) as [E|E]; cbn [andb orb].
    + destruct (Z.eqb_spec (u / N) (cx / N)) as [E'|E']; cbn [andb orb]; intros H; [lia|].
      apply orb_true_iff in H. destruct H as [H|H]; [apply Z.ltb_lt in H; lia|]. apply Z.ltb_lt in H. lia.
    + rewrite orb_false_r. intros H. apply Z.ltb_lt in H. lia.
Qed.
