(** Filling the border. *)
From Coq Require Import ZArith List Bool Lia.
From Verif Require Import CBase MemModel MemProofs SaoModel SaoProofs NbModel IprModel IprSpec EgModel EgSpec.
Import ListNotations.
Open Scope Z_scope.

Lemma copy_at m a n f q : copy_p m a n f q = if (a <=? q) && (q <? a + n) then f (q - a) else m q.
Proof.
  unfold copy_p. destruct (Z.le_gt_cases n 0) as [N|N].
  - rewrite floop_none by lia. destruct (Z.leb_spec a q), (Z.ltb_spec q (a + n)); cbn [andb]; try reflexivity; lia.
  - enough (H : forall k, 0 <= k <= n -> forall t, t = floop 0 k (fun i m0 => upd m0 (a + i) (f i)) m ->
      t q = if (a <=? q) && (q <? a + k) then f (q - a) else m q) by (apply (H n ltac:(lia) _ eq_refl)).
    intros k Hk t ->.
    apply (floop_inv (fun k (t : mem) => t q = if (a <=? q) && (q <? a + k) then f (q - a) else m q) 0 k); [lia| |].
    + destruct (Z.leb_spec a q), (Z.ltb_spec q (a + 0)); cbn [andb]; try reflexivity; lia.
    + intros x t Hx E. unfold upd. destruct (Z.eqb_spec q (a + x)) as [Q|Q].
      * destruct (Z.leb_spec a q), (Z.ltb_spec q (a + (x + 1))); cbn [andb]; try lia. f_equal. lia.
      * rewrite E. destruct (Z.leb_spec a q), (Z.ltb_spec q (a + (x + 1))), (Z.ltb_spec q (a + x)); cbn [andb]; try reflexivity; lia.
Qed.
Lemma repeat_at m a v n q : repeat_p m a v n q = if (a <=? q) && (q <? a + n) then v else m q.
Proof. exact (copy_at m a n (fun _ => v) q). Qed.
Lemma copy_in m a n f q : a <= q < a + n -> copy_p m a n f q = f (q - a).
Proof. intros H. rewrite copy_at. destruct (Z.leb_spec a q), (Z.ltb_spec q (a + n)); cbn [andb]; try reflexivity; lia. Qed.
Lemma copy_out m a n f q : ~ (a <= q < a + n) -> copy_p m a n f q = m q.
Proof. intros H. rewrite copy_at. destruct (Z.leb_spec a q), (Z.ltb_spec q (a + n)); cbn [andb]; try reflexivity; lia. Qed.
Lemma repeat_in m a n v q : a <= q < a + n -> repeat_p m a v n q = v.
Proof. exact (copy_in m a n (fun _ => v) q). Qed.
Lemma repeat_out m a n v q : ~ (a <= q < a + n) -> repeat_p m a v n q = m q.
Proof. exact (copy_out m a n (fun _ => v) q). Qed.

Section Fill.
  Variables (dc : Z) (top left : Z -> Z) (c1 c2 c3 ep : Z) (a : nbs) (w h : Z) (m0 : mem).
  Hypothesis Hw : 0 < w.
  Hypothesis Hh : 0 < h.
  (** What the skeleton leaves at [ep + k]. *)
  Definition filled (k : Z) : Z :=
    if 0 <? k then side w (n_top a) (n_top_right a) top dc k
    else if k <? 0 then side h (n_left a) (n_left_down a) left dc (- k)
    else if n_top_left a then c1 else if n_top a then c2 else if n_left a then c3 else dc.
  Definition pr := Z.quot (h * 11) 4 - w + 4.
  Definition pl := Z.quot (w * 11) 4 - h + 4.
  Lemma reach_pad : reach w h = 2 * w + Z.max 0 pr /\ reach h w = 2 * h + Z.max 0 pl.
  Proof. unfold reach, pr, pl. rewrite !Z.quot_div_nonneg by lia. split; reflexivity. Qed.

  Definition m1 := repeat_p m0 (ep - 2 * h) dc (2 * (h + w) + 1).
  Definition m2 := if n_top a then copy_p m1 (ep + 1) w (fun i => top (1 + i)) else m1.
  Definition m3 := if n_top_right a then copy_p m2 (ep + w + 1) w (fun i => top (w + 1 + i)) else repeat_p m2 (ep + w + 1) (m2 (ep + w)) w.
  Definition m4 := if 0 <? pr then repeat_p m3 (ep + 2 * w + 1) (m3 (ep + 2 * w)) pr else m3.
  Definition m5 := if n_left a then copy_p m4 (ep - h) h (fun i => left (h - i)) else m4.
  Definition m6 := if n_left_down a then copy_p m5 (ep - 2 * h) h (fun i => left (2 * h - i)) else repeat_p m5 (ep - 2 * h) (m5 (ep - h)) h.
  Definition m7 := if n_top_left a then upd m6 ep c1 else if n_top a then upd m6 ep c2 else if n_left a then upd m6 ep c3 else m6.
  Definition m8 := if 0 <? pl then repeat_p m7 (ep - 2 * h - pl) (m7 (ep - 2 * h)) pl else m7.

  Lemma m1_in k : - (2 * h) <= k <= 2 * w -> m1 (ep + k) = dc.
  Proof. intros H. unfold m1. apply repeat_in. lia. Qed.
  Lemma m2_in k : 1 <= k <= w -> m2 (ep + k) = if n_top a then top k else dc.
  Proof.
    intros H. unfold m2. destruct (n_top a).
    - rewrite copy_in by lia. f_equal. lia.
    - apply m1_in. lia.
  Qed.
  Lemma m2_out q : ~ (ep + 1 <= q <= ep + w) -> m2 q = m1 q.
  Proof. intros H. unfold m2. destruct (n_top a); [apply copy_out; lia|reflexivity]. Qed.
  Lemma m3_out q : ~ (ep + w + 1 <= q <= ep + 2 * w) -> m3 q = m2 q.
  Proof. intros H. unfold m3. destruct (n_top_right a); [apply copy_out|apply repeat_out]; lia. Qed.
  Lemma m3_in k : 1 <= k <= 2 * w -> m3 (ep + k) = side w (n_top a) (n_top_right a) top dc k.
  Proof.
    intros H. unfold side. destruct (Z.leb_spec k w) as [K|K].
    - rewrite m3_out by lia. apply m2_in. lia.
    - unfold m3. destruct (n_top_right a).
      + rewrite copy_in by lia. f_equal. lia.
      + rewrite repeat_in by lia. apply m2_in. lia.
  Qed.
  Lemma m4_out q : ~ (ep + 2 * w + 1 <= q <= ep + reach w h) -> m4 q = m3 q.
  Proof.
    intros H. destruct reach_pad as [E _]. rewrite E in H. unfold m4. destruct (Z.ltb_spec 0 pr) as [P|P]; [|reflexivity].
    apply repeat_out. lia.
  Qed.
  Lemma m4_in k : 1 <= k <= reach w h -> m4 (ep + k) = side w (n_top a) (n_top_right a) top dc k.
  Proof.
    intros H. destruct reach_pad as [E _].
    destruct (Z.le_gt_cases k (2 * w)) as [K|K].
    - rewrite m4_out by lia. apply m3_in. lia.
    - rewrite E in H. unfold m4. destruct (Z.ltb_spec 0 pr) as [P|P]; [|lia].
      rewrite repeat_in by lia. rewrite m3_in by lia. unfold side.
      destruct (Z.leb_spec (2 * w) w), (Z.leb_spec k w); try lia. rewrite Z.min_id, (Z.min_r k) by lia. reflexivity.
  Qed.
  Lemma m4_left k : - (2 * h) <= k <= 0 -> m4 (ep + k) = dc.
  Proof. intros H. rewrite m4_out, m3_out, m2_out by lia. apply m1_in. lia. Qed.
  Lemma m5_out q : ~ (ep - h <= q <= ep - 1) -> m5 q = m4 q.
  Proof. intros H. unfold m5. destruct (n_left a); [apply copy_out; lia|reflexivity]. Qed.
  Lemma m5_in k : 1 <= k <= h -> m5 (ep - k) = if n_left a then left k else dc.
  Proof.
    intros H. unfold m5. destruct (n_left a).
    - rewrite copy_in by lia. f_equal. lia.
    - replace (ep - k) with (ep + - k) by lia. apply m4_left. lia.
  Qed.
  Lemma m6_out q : ~ (ep - 2 * h <= q <= ep - h - 1) -> m6 q = m5 q.
  Proof. intros H. unfold m6. destruct (n_left_down a); [apply copy_out|apply repeat_out]; lia. Qed.
  Lemma m6_in k : 1 <= k <= 2 * h -> m6 (ep - k) = side h (n_left a) (n_left_down a) left dc k.
  Proof.
    intros H. unfold side. destruct (Z.leb_spec k h) as [K|K].
    - rewrite m6_out by lia. apply m5_in. lia.
    - unfold m6. destruct (n_left_down a).
      + rewrite copy_in by lia. f_equal. lia.
      + rewrite repeat_in by lia. apply m5_in. lia.
  Qed.
  Lemma m7_out q : q <> ep -> m7 q = m6 q.
  Proof.
    intros H. unfold m7. destruct (n_top_left a); [apply upd_other; exact H|].
    destruct (n_top a); [apply upd_other; exact H|]. destruct (n_left a); [apply upd_other; exact H|reflexivity].
  Qed.
  Lemma m7_corner : m7 ep = if n_top_left a then c1 else if n_top a then c2 else if n_left a then c3 else dc.
  Proof.
    unfold m7. destruct (n_top_left a); [apply upd_same|].
    destruct (n_top a); [apply upd_same|]. destruct (n_left a); [apply upd_same|].
    rewrite m6_out, m5_out by lia. replace ep with (ep + 0) by lia. apply m4_left. lia.
  Qed.
  Lemma m8_out q : ~ (ep - reach h w <= q <= ep - 2 * h - 1) -> m8 q = m7 q.
  Proof.
    intros H. destruct reach_pad as [_ E]. rewrite E in H. unfold m8. destruct (Z.ltb_spec 0 pl) as [P|P]; [|reflexivity].
    apply repeat_out. lia.
  Qed.
  Lemma m8_in k : 1 <= k <= reach h w -> m8 (ep - k) = side h (n_left a) (n_left_down a) left dc k.
  Proof.
    intros H. destruct reach_pad as [_ E].
    destruct (Z.le_gt_cases k (2 * h)) as [K|K].
    - rewrite m8_out, m7_out by lia. apply m6_in. lia.
    - rewrite E in H. unfold m8. destruct (Z.ltb_spec 0 pl) as [P|P]; [|lia].
      rewrite repeat_in by lia. rewrite m7_out, m6_in by lia. unfold side.
      destruct (Z.leb_spec (2 * h) h), (Z.leb_spec k h); try lia. rewrite Z.min_id, (Z.min_r k) by lia. reflexivity.
  Qed.
  Lemma fill_ref_in k : - reach h w <= k <= reach w h -> fill_ref dc top left c1 c2 c3 ep a w h m0 (ep + k) = filled k.
  Proof.
    intros H. change (fill_ref dc top left c1 c2 c3 ep a w h m0) with m8. unfold filled. destruct reach_pad as [E1 E2].
    destruct (Z.ltb_spec 0 k) as [K|K].
    - rewrite m8_out, m7_out, m6_out, m5_out by lia. apply m4_in. lia.
    - destruct (Z.ltb_spec k 0) as [K'|K'].
      + replace (ep + k) with (ep - - k) by lia. apply m8_in. lia.
      + replace (ep + k) with ep by lia. rewrite m8_out by lia. exact m7_corner.
  Qed.
  Lemma fill_ref_out q : ~ (ep - reach h w <= q <= ep + reach w h) -> fill_ref dc top left c1 c2 c3 ep a w h m0 q = m0 q.
  Proof.
    intros H. change (fill_ref dc top left c1 c2 c3 ep a w h m0) with m8. destruct reach_pad as [E1 E2].
    rewrite m8_out, m7_out, m6_out, m5_out, m4_out, m3_out, m2_out by lia. unfold m1. apply repeat_out. lia.
  Qed.
End Fill.
