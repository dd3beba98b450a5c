(** The four functions, and prediction from the border they leave. *)
From Coq Require Import ZArith List Bool Lia.
From Verif Require Import CBase MemModel MemProofs SaoModel SaoProofs NbModel IprModel IprSpec IprProofs IprProofsE IprProofsH EgModel EgSpec EgProofs EgProofsB EgProofsC VxModelBase VfModel VfProofs.
Import ListNotations.
Open Scope Z_scope.

Lemma filled_ext dc T L T' L' c1 c2 c3 a w h k : (forall j, T j = T' j) -> (forall j, L j = L' j) ->
  filled dc T L c1 c2 c3 a w h k = filled dc T' L' c1 c2 c3 a w h k.
Proof. intros ET EL. unfold filled, side. rewrite ?ET, ?EL. reflexivity. Qed.
Lemma fill_ref_ext dc T L T' L' c1 c2 c3 ep a w h m m' : 0 < w -> 0 < h -> (forall j, T j = T' j) -> (forall j, L j = L' j) -> (forall q, m q = m' q) ->
  forall q, fill_ref dc T L c1 c2 c3 ep a w h m q = fill_ref dc T' L' c1 c2 c3 ep a w h m' q.
Proof.
  intros W H ET EL EM q.
  destruct (Z_le_dec (ep - reach h w) q) as [A|A].
  - destruct (Z_le_dec q (ep + reach w h)) as [B|B].
    + replace q with (ep + (q - ep)) by ring. rewrite !fill_ref_in by lia. apply filled_ext; assumption.
    + rewrite !fill_ref_out by (assumption || lia). apply EM.
  - rewrite !fill_ref_out by (assumption || lia). apply EM.
Qed.

(** Reduces the index of the table. *)
Ltac pick := repeat match goal with |- context [Z.shiftl ?x 1 + ?y] => let v := eval vm_compute in (Z.shiftl x 1 + y) in change (Z.shiftl x 1 + y) with v end;
  repeat match goal with |- context [Z.eqb ?x ?y] => match x with 0 => idtac | 1 => idtac | 2 => idtac | 3 => idtac end; match y with 0 => idtac | 1 => idtac | 2 => idtac end;
    let v := eval vm_compute in (Z.eqb x y) in change (Z.eqb x y) with v end; cbv iota.

Section Edge.
  Variables (base dc : Z) (pic : mem) (ptl st : Z) (lcu : mem) (p ep : Z) (a : nbs) (cx cy w h : Z) (m : mem).
  Hypothesis Sw : side_size w.
  Hypothesis Sh : side_size h.
  Hypothesis Al : 16 <= w -> (base + ep + 1) mod 16 = 0.
  Hypothesis Dc : 0 <= dc <= 255.
  Hypothesis Hpic : forall q, 0 <= pic q <= 255.
  Hypothesis Hlcu : forall q, 0 <= lcu q <= 255.

  Lemma vfill_edge_ok : exists m', vfill_edge cx cy base dc pic ptl st lcu p ep a w h m = Done m' /\
    forall q, m' q = if negb (0 <? pr w h) && (q =? ep + 2 * w + 1) then dc else fill_edge cx cy dc pic ptl st lcu p ep a w h m q.
  Proof.
    pose proof (size_pos w Sw) as W. pose proof (size_pos h Sh) as H. unfold vfill_edge, fill_edge.
    destruct (Z.eqb_spec cy 0) as [Y|Y], (Z.eqb_spec cx 0) as [X|X]; pick;
      unfold vfill_0, vfill_x, vfill_y, vfill_xy, fill_0, fill_x, fill_y, fill_xy;
      match goal with |- exists _, vfill _ _ ?src ?s ?col ?c1 ?c2 ?c3 _ _ _ _ _ = _ /\ _ =>
        destruct (vfill_ok base dc src s col c1 c2 c3 ep a w h m Sw Sh Al Dc) as (m' & E & O);
        [first [exact Hpic|exact Hlcu]|intros k; cbn [column_at]; first [apply Hpic|apply Hlcu]|] end;
      exists m'; (split; [exact E|]); intros q; rewrite (O q); unfold behind;
      (destruct (negb (0 <? pr w h) && (q =? ep + 2 * w + 1)); [reflexivity|]);
      (apply fill_ref_ext; [lia|lia| | |intros; reflexivity]); intros j; unfold top_at; cbn [column_at]; f_equal; ring.
  Qed.
  (** What is in the border: samples of the two memories or the default. *)
  Lemma fill_edge_byte k : - reach h w <= k <= reach w h -> 0 <= fill_edge cx cy dc pic ptl st lcu p ep a w h m (ep + k) <= 255.
  Proof.
    intros Hk. pose proof (size_pos w Sw) as W. pose proof (size_pos h Sh) as H. unfold fill_edge.
    destruct (Z.eqb_spec cy 0) as [Y|Y], (Z.eqb_spec cx 0) as [X|X]; pick;
      unfold fill_0, fill_x, fill_y, fill_xy; rewrite fill_ref_in by (assumption || lia); unfold filled;
      (destruct (Z.ltb_spec 0 k); [apply (side_range _ _ _ _ _ _ (fun v => 0 <= v <= 255)); try lia; intros; first [apply Hpic|apply Hlcu]|]);
      (destruct (Z.ltb_spec k 0); [apply (side_range _ _ _ _ _ _ (fun v => 0 <= v <= 255)); try lia; intros; first [apply Hpic|apply Hlcu]|]);
      destruct (n_top_left a), (n_top a), (n_left a); first [apply Hpic|apply Hlcu|exact Dc].
  Qed.
  Lemma fill_edge_repeats : repeats (fun k => fill_edge cx cy dc pic ptl st lcu p ep a w h m (ep + k)) w h (reach w h) (reach h w).
  Proof.
    pose proof (size_pos w Sw) as W. pose proof (size_pos h Sh) as H.
    pose proof (IprProofsF.reach_ge w h) as Q1. pose proof (IprProofsF.reach_ge h w) as Q2.
    unfold fill_edge.
    destruct (Z.eqb_spec cy 0) as [Y|Y], (Z.eqb_spec cx 0) as [X|X]; pick;
      unfold fill_0, fill_x, fill_y, fill_xy; (split; intros k Hk; rewrite !fill_ref_in by lia; unfold filled);
      [destruct (Z.ltb_spec 0 k), (Z.ltb_spec 0 (2 * w)); try lia; apply side_repeats; lia
      |destruct (Z.ltb_spec 0 (- k)), (Z.ltb_spec 0 (- (2 * h))), (Z.ltb_spec (- k) 0), (Z.ltb_spec (- (2 * h)) 0); try lia; rewrite !Z.opp_involutive; apply side_repeats; lia
      |destruct (Z.ltb_spec 0 k), (Z.ltb_spec 0 (2 * w)); try lia; apply side_repeats; lia
      |destruct (Z.ltb_spec 0 (- k)), (Z.ltb_spec 0 (- (2 * h))), (Z.ltb_spec (- k) 0), (Z.ltb_spec (- (2 * h)) 0); try lia; rewrite !Z.opp_involutive; apply side_repeats; lia
      |destruct (Z.ltb_spec 0 k), (Z.ltb_spec 0 (2 * w)); try lia; apply side_repeats; lia
      |destruct (Z.ltb_spec 0 (- k)), (Z.ltb_spec 0 (- (2 * h))), (Z.ltb_spec (- k) 0), (Z.ltb_spec (- (2 * h)) 0); try lia; rewrite !Z.opp_involutive; apply side_repeats; lia
      |destruct (Z.ltb_spec 0 k), (Z.ltb_spec 0 (2 * w)); try lia; apply side_repeats; lia
      |destruct (Z.ltb_spec 0 (- k)), (Z.ltb_spec 0 (- (2 * h))), (Z.ltb_spec (- k) 0), (Z.ltb_spec (- (2 * h)) 0); try lia; rewrite !Z.opp_involutive; apply side_repeats; lia].
  Qed.
End Edge.

Lemma pr_reach w h : 0 < w -> 0 < h -> negb (0 <? pr w h) = (reach w h =? 2 * w).
Proof.
  intros W H. destruct (reach_pad w h W H) as [-> _]. destruct (Z.ltb_spec 0 (pr w h)), (Z.eqb_spec (2 * w + Z.max 0 (pr w h)) (2 * w)); cbn [negb]; try reflexivity; lia.
Qed.
Lemma shape_sides w h : intra_shape w h -> side_size w /\ side_size h.
Proof.
  intros S. unfold intra_shape in S. cbn [In] in S. unfold side_size. cbn [In].
  repeat (destruct S as [E|S]; [inversion E; subst; split; tauto|]). destruct S.
Qed.

Lemma luma_v base junk c cur mode cx cy w h lcu rt fd st buf pic :
  0 <= mode <= 32 -> intra_shape w h -> w <= st -> base mod 16 = 0 ->
  (forall q, 0 <= pic q <= 255) -> (forall q, 0 <= lcu q <= 255) ->
  forall a buf' pic', get_intra_pred 8 8 junk c cur mode cx cy w h lcu rt fd st buf pic = Done (a, buf', pic') ->
  exists bufv picv, get_intra_pred_v base 8 8 junk c cur mode cx cy w h lcu rt fd st buf pic = Done (a, bufv, picv) /\
    (forall q, bufv q = if (reach w h =? 2 * w) && (q =? 256 + 2 * w) then 128 else buf' q) /\ (forall q, picv q = pic' q).
Proof.
  intros Hm S W B Hp Hl a buf' pic'. unfold get_intra_pred, get_intra_pred_v. destruct (shape_sides w h S) as [Sw Sh]. pose proof (shape_pos w h S) as Pos.
  destruct (intra_neighbors _ _ _ _ _ _ _ _ _ _) as [a'| | |]; cbn [bindo]; try discriminate. intros E. injection E as <- <- <-.
  change (Z.shiftl 64 2 - 1) with 255. change (2 ^ (8 - 1)) with 128.
  set (p := fd + cy * st + cx).
  assert (Al : 16 <= w -> (base + 255 + 1) mod 16 = 0) by (intros _; replace (base + 255 + 1) with (base + 16 * 16) by ring; rewrite Z.mod_add by lia; exact B).
  destruct (vfill_edge_ok base 128 pic (p - st - 1) st lcu (rt + cx - cy) 255 a' cx cy w h buf Sw Sh Al ltac:(lia) Hp Hl) as (bufv & E & V).
  rewrite E. cbn [bindo]. eexists. eexists. split; [reflexivity|]. rewrite pr_reach in V by lia. split.
  - intros q. rewrite V. replace (255 + 2 * w + 1) with (256 + 2 * w) by ring. reflexivity.
  - assert (In : forall k, - reach h w <= k <= reach w h -> bufv (255 + k) = fill_edge cx cy 128 pic (p - st - 1) st lcu (rt + cx - cy) 255 a' w h buf (255 + k)).
    { intros k Hk. rewrite V. destruct (Z.eqb_spec (reach w h) (2 * w)), (Z.eqb_spec (255 + k) (255 + 2 * w + 1)); cbn [andb]; try reflexivity; lia. }
    intros q. symmetry. apply (intra_pred_border 8 8 junk junk _ bufv 255 255); try assumption; try lia.
    + intros k Hk. apply fill_edge_byte; assumption || lia.
    + apply fill_edge_repeats; assumption.
    + intros k Hk. symmetry. apply In. exact Hk.
Qed.

Lemma chroma_v base junk c cur level luma c_mode cx cy lcu1 lcu2 rt fd1 fd2 st buf pic1 pic2 mode :
  real_mode luma c_mode = Done mode -> 0 <= mode <= 32 -> 3 <= level <= 6 -> 2 ^ (level - 1) <= st -> base mod 16 = 0 ->
  (forall q, 0 <= pic1 q <= 255) -> (forall q, 0 <= lcu1 q <= 255) -> (forall q, 0 <= pic2 q <= 255) -> (forall q, 0 <= lcu2 q <= 255) ->
  forall a buf' pic1' pic2', get_intra_pred_chroma 8 8 junk c cur level luma c_mode cx cy lcu1 lcu2 rt fd1 fd2 st buf pic1 pic2 = Done (a, buf', (pic1', pic2')) ->
  exists bufv pic1v pic2v, get_intra_pred_chroma_v base 8 8 junk c cur level luma c_mode cx cy lcu1 lcu2 rt fd1 fd2 st buf pic1 pic2 = Done (a, bufv, (pic1v, pic2v)) /\
    (forall q, bufv q = buf' q) /\ (forall q, pic1v q = pic1' q) /\ (forall q, pic2v q = pic2' q).
Proof.
  intros Rm Hm Lv W B Hp1 Hl1 Hp2 Hl2 a buf' pic1' pic2'. unfold get_intra_pred_chroma, get_intra_pred_chroma_v. rewrite Rm. cbn [bindo].
  assert (N : Z.shiftl 1 (level - 1) = 2 ^ (level - 1)) by (rewrite Z.shiftl_mul_pow2 by lia; lia). rewrite N.
  destruct (chroma_size level Lv) as (S & R & P). set (n := 2 ^ (level - 1)) in *. clearbody n.
  destruct (shape_sides n n S) as [Sn _]. pose proof (IprProofsF.reach_ge n n) as Q.
  destruct (intra_neighbors _ _ _ _ _ _ _ _ _ _) as [a'| | |]; cbn [bindo]; try discriminate. intros E. injection E as <- <- <- <-.
  change (Z.shiftl 64 1 - 1) with 127. change (127 + Z.shiftl 64 2) with 383. change (2 ^ (8 - 1)) with 128.
  set (p1 := fd1 + cy * st + cx). set (p2 := fd2 + cy * st + cx).
  assert (A1 : 16 <= n -> (base + 127 + 1) mod 16 = 0) by (intros _; replace (base + 127 + 1) with (base + 8 * 16) by ring; rewrite Z.mod_add by lia; exact B).
  assert (A2 : 16 <= n -> (base + 383 + 1) mod 16 = 0) by (intros _; replace (base + 383 + 1) with (base + 24 * 16) by ring; rewrite Z.mod_add by lia; exact B).
  assert (X : (reach n n =? 2 * n) = false).
  { apply Z.eqb_neq. unfold reach. assert (0 <= n * 11 / 4 - n) by (pose proof (Z.div_le_lower_bound (n * 11) 4 n ltac:(lia)); lia). lia. }
  destruct (vfill_edge_ok base 128 pic1 (p1 - st - 1) st lcu1 (rt + cx - cy) 127 a' cx cy n n buf Sn Sn A1 ltac:(lia) Hp1 Hl1) as (b1 & E1 & V1).
  rewrite E1. cbn [bindo]. rewrite pr_reach, X in V1 by lia. cbn [andb] in V1.
  destruct (vfill_edge_ok base 128 pic2 (p2 - st - 1) st lcu2 (rt + cx - cy) 383 a' cx cy n n b1 Sn Sn A2 ltac:(lia) Hp2 Hl2) as (b2 & E2 & V2).
  rewrite E2. cbn [bindo]. rewrite pr_reach, X in V2 by lia. cbn [andb] in V2.
  set (C1 := fill_edge cx cy 128 pic1 (p1 - st - 1) st lcu1 (rt + cx - cy) 127 a' n n buf) in *.
  assert (EB : forall q, b2 q = fill_edge cx cy 128 pic2 (p2 - st - 1) st lcu2 (rt + cx - cy) 383 a' n n C1 q).
  { intros q. rewrite V2. unfold fill_edge. destruct (Z.eqb_spec cy 0), (Z.eqb_spec cx 0); pick;
      apply fill_ref_ext; try lia; try (intros; reflexivity); exact V1. }
  eexists. eexists. eexists. split; [reflexivity|]. split; [exact EB|].
  assert (F1 : forall k, - reach n n <= k <= reach n n -> b2 (127 + k) = C1 (127 + k)).
  { intros k Hk. rewrite EB. apply fill_edge_out; lia. }
  split; intros q; symmetry.
  - apply (intra_pred_border 8 8 junk junk _ b2 127 127); try assumption; try lia.
    + intros k Hk. rewrite <- EB, F1 by exact Hk. apply fill_edge_byte; assumption || lia.
    + destruct (fill_edge_repeats 128 pic1 (p1 - st - 1) st lcu1 (rt + cx - cy) 127 a' cx cy n n buf Sn Sn) as [R1 R2].
      split; intros k Hk; rewrite <- !EB, !F1 by lia; [apply R1|apply R2]; exact Hk.
    + intros k Hk. symmetry. apply EB.
  - apply (intra_pred_border 8 8 junk junk _ b2 383 383); try assumption; try lia.
    + intros k Hk. apply fill_edge_byte; assumption || lia.
    + apply fill_edge_repeats; assumption.
    + intros k Hk. symmetry. apply EB.
Qed.
