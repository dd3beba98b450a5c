(** The cached border of an LCU holds unfiltered samples. *)
From Coq Require Import ZArith List Bool Lia.
From Verif Require Import CBase MemModel MemProofs SaoModel SaoProofs NbModel EgModel EgSpec EgProofs.
Import ListNotations.
Open Scope Z_scope.

Lemma cache_at dst border p_top plane p_left i_left w h q : 0 <= h ->
  cache_border dst border p_top plane p_left i_left w h q =
  if (- h <=? q) && (q <? 0) then plane (p_left + (- q - 1) * i_left)
  else if (0 <=? q) && (q <? 2 * w + 1) then border (p_top + q) else dst q.
Proof.
  intros Hh. unfold cache_border.
  set (d1 := copy_p dst 0 (2 * w + 1) (fun i => border (p_top + i))).
  assert (D : d1 q = if (0 <=? q) && (q <? 2 * w + 1) then border (p_top + q) else dst q).
  { unfold d1. rewrite copy_at. rewrite Z.add_0_l, Z.sub_0_r. reflexivity. }
  rewrite <- D. clearbody d1. clear D.
  replace (- h <=? q) with (1 - (h + 1) <=? q) by (f_equal; lia).
  apply (floop_inv (fun k (t : mem) => t q = if (1 - k <=? q) && (q <? 0) then plane (p_left + (- q - 1) * i_left) else d1 q) 1 (h + 1)); [lia| |].
  - destruct (Z.leb_spec (1 - 1) q), (Z.ltb_spec q 0); cbn [andb]; try reflexivity; lia.
  - intros x t Hx E. unfold upd. destruct (Z.eqb_spec q (- x)) as [Q|Q].
    + destruct (Z.leb_spec (1 - (x + 1)) q), (Z.ltb_spec q 0); cbn [andb]; try lia. subst q. rewrite Z.opp_involutive. reflexivity.
    + rewrite E. destruct (Z.leb_spec (1 - (x + 1)) q), (Z.leb_spec (1 - x) q), (Z.ltb_spec q 0); cbn [andb]; try reflexivity; lia.
Qed.

Section Run.
  Variables (pw ph n org st cols rows : Z) (recon : Z -> Z -> mem -> mem -> mem) (deblock : Z -> Z -> mem -> mem) (s0 : rstate).
  Hypothesis Hn : 0 < n.
  Hypothesis Hc : 0 < cols.
  Hypothesis Hr : 0 < rows.
  Hypothesis Hpw : (cols - 1) * n < pw <= cols * n.
  Hypothesis Hph : (rows - 1) * n < ph <= rows * n.

  Definition at_lcu (i : Z) : rstate := lcu_run pw ph n org st cols rows recon deblock (Z.to_nat i) s0.
  (** The state in which LCU [(x, y)] is reconstructed, and the plane just after that. *)
  Definition entry (x y : Z) : rstate := before_recon pw n x (at_lcu (y * cols + x)).
  Definition done (x y : Z) : mem := recon x y (r_top (entry x y)) (r_plane (entry x y)).
  (** The reconstructed samples: each as it was when its LCU had just been reconstructed. *)
  Definition unfiltered (X Y : Z) : Z := done (X / n) (Y / n) (org + Y * st + X).

  Lemma at_next x y : 0 <= x < cols -> 0 <= y -> at_lcu (y * cols + x + 1) =
    RS (r_border (after_recon pw ph n org st rows x y (done x y) (entry x y))) (r_top (after_recon pw ph n org st rows x y (done x y) (entry x y)))
       (deblock x y (done x y)).
  Proof.
    intros Hx Hy. assert (P : 0 <= y * cols) by (apply Z.mul_nonneg_nonneg; lia).
    unfold at_lcu. replace (Z.to_nat (y * cols + x + 1)) with (S (Z.to_nat (y * cols + x))) by lia.
    unfold lcu_run at 1. cbn [loop]. rewrite Z2Nat.id by lia.
    fold (lcu_run pw ph n org st cols rows recon deblock (Z.to_nat (y * cols + x)) s0). fold (at_lcu (y * cols + x)).
    rewrite (Z.add_comm (y * cols) x) at 1. rewrite (Z.add_comm (y * cols) x) at 1. rewrite Z.mod_add, Z.div_add, Z.mod_small, (Z.div_small x cols) by lia. rewrite Z.add_0_l.
    reflexivity.
  Qed.

  (** The cached border, while LCU [(x, y)] is reconstructed. *)
  Definition top_ok (rt : mem) (x y : Z) : Prop := 0 < y -> forall X, x * n <= X < x * n + 2 * n -> X < pw -> rt (1 + (X - x * n)) = unfiltered X (y * n - 1).
  Definition left_ok (rt : mem) (x y : Z) : Prop :=
    0 < x -> (forall Y, y * n <= Y < y * n + n -> Y < ph -> rt (- 1 - (Y - y * n)) = unfiltered (x * n - 1) Y) /\
             (0 < y -> rt 0 = unfiltered (x * n - 1) (y * n - 1)).
  (** The stored line, before LCU [(x, y)]. *)
  Definition border_ok (b : mem) (x y : Z) : Prop :=
    forall X, 0 <= X < pw -> (X < x * n -> y < rows - 1 -> b X = unfiltered X (y * n + n - 1)) /\
                             (x * n <= X -> 0 < y -> b X = unfiltered X (y * n - 1)).

  Lemma in_lcu x X : x * n <= X < x * n + n -> X / n = x.
  Proof. intros H. symmetry. apply (Z.div_unique_pos X n x (X - x * n)); [lia|ring]. Qed.
  Lemma lcu_w x : 0 <= x < cols -> let w := lcu_size pw n (x * n) in 0 < w <= n /\ x * n + w <= pw /\ (x < cols - 1 -> w = n) /\ (x * n + w < pw -> w = n).
  Proof.
    intros Hx w. unfold w, lcu_size. assert (x * n <= (cols - 1) * n) by (apply Z.mul_le_mono_nonneg_r; lia).
    split; [lia|]. split; [lia|]. split; [|lia]. intros L. assert ((x + 1) * n <= (cols - 1) * n) by (apply Z.mul_le_mono_nonneg_r; lia). lia.
  Qed.
  Lemma lcu_h y : 0 <= y < rows -> let h := lcu_size ph n (y * n) in 0 < h <= n /\ y * n + h <= ph /\ (y < rows - 1 -> h = n) /\ (y * n + h < ph -> h = n).
  Proof.
    intros Hx w. unfold w, lcu_size. assert (y * n <= (rows - 1) * n) by (apply Z.mul_le_mono_nonneg_r; lia).
    split; [lia|]. split; [lia|]. split; [|lia]. intros L. assert ((y + 1) * n <= (rows - 1) * n) by (apply Z.mul_le_mono_nonneg_r; lia). lia.
  Qed.

  Lemma entry_border x y : r_border (entry x y) = r_border (at_lcu (y * cols + x)).
  Proof. unfold entry, before_recon. destruct (x =? 0); reflexivity. Qed.
  (** Entering an LCU. *)
  Lemma entering x y : 0 <= x < cols -> 0 <= y < rows ->
    border_ok (r_border (at_lcu (y * cols + x))) x y ->
    (0 < x -> top_ok (r_top (at_lcu (y * cols + x))) x y /\ left_ok (r_top (at_lcu (y * cols + x))) x y) ->
    top_ok (r_top (entry x y)) x y /\ left_ok (r_top (entry x y)) x y.
  Proof.
    intros Hx Hy B T. unfold entry, before_recon. destruct (Z.eqb_spec x 0) as [E|E]; [|apply T; lia].
    subst x. cbn [r_top]. split; [|intros C; lia].
    intros Py X HX HX'. rewrite Z.mul_0_l in *. destruct (lcu_w 0 Hx) as (W1 & W2 & W3 & W4).
    rewrite Z.mul_0_l in *. rewrite copy_in.
    - replace (1 + (X - 0) - 1) with X by lia. apply (proj2 (B X ltac:(lia))); [lia|exact Py].
    - destruct (Z.le_gt_cases (0 + lcu_size pw n 0) X) as [L|L]; [rewrite W4 by lia; lia|lia].
  Qed.
  (** Leaving it. *)
  Lemma leaving x y : 0 <= x < cols -> 0 <= y < rows -> border_ok (r_border (at_lcu (y * cols + x))) x y ->
    border_ok (r_border (at_lcu (y * cols + x + 1))) (x + 1) y /\
    (x + 1 < cols -> top_ok (r_top (at_lcu (y * cols + x + 1))) (x + 1) y /\ left_ok (r_top (at_lcu (y * cols + x + 1))) (x + 1) y).
  Proof.
    intros Hx Hy B. destruct (lcu_w x Hx) as (W1 & W2 & W3 & W4). destruct (lcu_h y Hy) as (H1 & H2 & H3 & H4).
    rewrite at_next by lia. cbn [r_border r_top]. unfold after_recon. cbv zeta. cbn [r_border r_top].
    set (w := lcu_size pw n (x * n)) in *. set (h := lcu_size ph n (y * n)) in *.
    rewrite entry_border. split.
    - intros X HX. destruct (B X HX) as [B1 B2].
      assert (Q : X < (x + 1) * n -> x * n <= X -> X < x * n + w) by lia.
      split.
      + intros L Ly. destruct (Z.ltb_spec y (rows - 1)) as [_|C]; [|lia].
        destruct (Z.le_gt_cases (x * n) X) as [G|G].
        * rewrite copy_in by lia. unfold unfiltered. rewrite (in_lcu x X), (in_lcu y) by lia. f_equal. rewrite (H3 Ly). ring.
        * rewrite copy_out by lia. apply B1; lia.
      + intros L Py. destruct (Z.ltb_spec y (rows - 1)) as [_|C]; [|apply B2; lia]. rewrite copy_out by lia. apply B2; lia.
    - intros Lc. assert (Ew : w = n) by (apply W3; lia). split.
      + intros Py X HX HX'. rewrite cache_at by lia. destruct (Z.leb_spec (- h) (1 + (X - (x + 1) * n))), (Z.ltb_spec (1 + (X - (x + 1) * n)) 0); cbn [andb]; try lia.
        destruct (Z.leb_spec 0 (1 + (X - (x + 1) * n))), (Z.ltb_spec (1 + (X - (x + 1) * n)) (2 * w + 1)); cbn [andb]; try lia.
        replace (x * n + w - 1 + (1 + (X - (x + 1) * n))) with X by lia. assert (0 <= x * n) by (apply Z.mul_nonneg_nonneg; lia). apply (proj2 (B X ltac:(lia))); lia.
      + intros _. split.
        * intros Y HY HY'. rewrite cache_at by lia.
          destruct (Z.leb_spec (- h) (- 1 - (Y - y * n))), (Z.ltb_spec (- 1 - (Y - y * n)) 0); cbn [andb]; try lia.
          unfold unfiltered. rewrite (in_lcu x ((x + 1) * n - 1)), (in_lcu y Y) by lia. f_equal.
          replace (- (- 1 - (Y - y * n)) - 1) with (Y - y * n) by lia. rewrite Ew. ring.
        * intros Py. rewrite cache_at by lia. destruct (Z.leb_spec (- h) 0), (Z.ltb_spec 0 0); cbn [andb]; try lia.
          destruct (Z.leb_spec 0 0), (Z.ltb_spec 0 (2 * w + 1)); cbn [andb]; try lia.
          rewrite Z.add_0_r. assert (0 <= x * n) by (apply Z.mul_nonneg_nonneg; lia). rewrite (proj2 (B (x * n + w - 1) ltac:(lia))) by lia.
          f_equal. lia.
  Qed.
  Lemma next_row y : 0 <= y -> border_ok (r_border (at_lcu (y * cols + (cols - 1) + 1))) cols y -> y < rows - 1 ->
    border_ok (r_border (at_lcu ((y + 1) * cols + 0))) 0 (y + 1).
  Proof.
    intros Hy B L X HX. replace ((y + 1) * cols + 0) with (y * cols + (cols - 1) + 1) by ring.
    destruct (B X HX) as [B1 _]. split; [lia|]. intros _ _. replace ((y + 1) * n - 1) with (y * n + n - 1) by lia. apply B1; lia.
  Qed.
  Lemma invariant k : forall x y, 0 <= x < cols -> 0 <= y < rows -> y * cols + x = Z.of_nat k ->
    border_ok (r_border (at_lcu (y * cols + x))) x y /\
    (0 < x -> top_ok (r_top (at_lcu (y * cols + x))) x y /\ left_ok (r_top (at_lcu (y * cols + x))) x y).
  Proof.
    induction k as [|k IH]; intros x y Hx Hy E.
    - assert (y = 0). { destruct (Z.eq_dec y 0) as [Q|Q]; [exact Q|]. assert (1 * cols <= y * cols) by (apply Z.mul_le_mono_nonneg_r; lia). lia. }
      subst y. assert (x = 0) by lia. subst x. split; [|lia]. intros X HX. split; lia.
    - destruct (Z.eq_dec x 0) as [Q|Q].
      + subst x. assert (Py : 0 < y) by lia.
        destruct (IH (cols - 1) (y - 1) ltac:(lia) ltac:(lia)) as [I1 _]; [lia|].
        split; [|lia]. destruct (leaving (cols - 1) (y - 1) ltac:(lia) ltac:(lia) I1) as [L _].
        replace (cols - 1 + 1) with cols in L by lia. pose proof (next_row (y - 1) ltac:(lia) L ltac:(lia)) as NR. replace (y - 1 + 1) with y in NR by lia. exact NR.
      + destruct (IH (x - 1) y ltac:(lia) Hy) as [I1 _]; [lia|].
        destruct (leaving (x - 1) y ltac:(lia) Hy I1) as [L1 L2]. replace (x - 1 + 1) with x in L1, L2 by lia.
        replace (y * cols + (x - 1) + 1) with (y * cols + x) in L1, L2 by lia. split; [exact L1|]. intros _. apply L2. lia.
  Qed.
  Theorem cached x y : 0 <= x < cols -> 0 <= y < rows -> top_ok (r_top (entry x y)) x y /\ left_ok (r_top (entry x y)) x y.
  Proof.
    intros Hx Hy. assert (0 <= y * cols) by (apply Z.mul_nonneg_nonneg; lia).
    destruct (invariant (Z.to_nat (y * cols + x)) x y Hx Hy ltac:(lia)) as [I1 I2]. apply entering; assumption.
  Qed.
End Run.
