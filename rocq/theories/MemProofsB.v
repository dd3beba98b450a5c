(** Store loops as a whole: which cells a loop writes and with what. *)
From Coq Require Import ZArith List Bool Lia.
From Verif Require Import MemModel MemProofs SaoModel SaoProofs.
Import ListNotations.
Open Scope Z_scope.

(** [f] sets exactly the cells in [w], cell [q] to [v q]. *)
Definition paints (f : mem -> mem) (w : Z -> bool) (v : Z -> Z) : Prop :=
  forall m q, f m q = if w q then v q else m q.
Definition zrange (a b : Z) : list Z := map (fun i => a + Z.of_nat i) (seq 0 (Z.to_nat (b - a))).
Lemma in_zrange a b t : In t (zrange a b) <-> a <= t < b.
Proof.
  unfold zrange. rewrite in_map_iff. split.
  - intros (i & E & Hi). apply in_seq in Hi. lia.
  - intros H. exists (Z.to_nat (t - a)). rewrite in_seq. lia.
Qed.
Lemma zrange_snoc a b : a <= b -> zrange a (b + 1) = zrange a b ++ [b].
Proof.
  intros H. unfold zrange. replace (Z.to_nat (b + 1 - a)) with (S (Z.to_nat (b - a))) by lia. rewrite seq_S, map_app. cbn [map]. f_equal. f_equal. lia.
Qed.
Lemma zrange_none a b : b <= a -> zrange a b = [].
Proof. intros H. unfold zrange. replace (Z.to_nat (b - a)) with 0%nat by lia. reflexivity. Qed.
Lemma paints_id v : paints (fun m => m) (fun _ => false) v.
Proof. intros m q. reflexivity. Qed.
Lemma paints_upd a x v : x = v a -> paints (fun m => upd m a x) (fun q => q =? a) v.
Proof. intros E m q. unfold upd. destruct (Z.eqb_spec q a) as [->|N]; [exact E|reflexivity]. Qed.
Lemma paints_seq f g w w' v : paints f w v -> paints g w' v -> paints (fun m => g (f m)) (fun q => w q || w' q) v.
Proof. intros F G m q. rewrite G, F. destruct (w q), (w' q); reflexivity. Qed.
Lemma paints_iff f w w' v : paints f w v -> (forall q, w q = true <-> w' q = true) -> paints f w' v.
Proof.
  intros F E m q. rewrite F. specialize (E q). destruct (w q), (w' q); try reflexivity.
  - destruct E as [E _]. discriminate (E eq_refl).
  - destruct E as [_ E]. discriminate (E eq_refl).
Qed.
Lemma paints_ext f g w v : (forall m q, f m q = g m q) -> paints f w v -> paints g w v.
Proof. intros E F m q. rewrite <- E. apply F. Qed.
Lemma paints_val f w v v' : paints f w v -> (forall q, w q = true -> v q = v' q) -> paints f w v'.
Proof. intros F E m q. rewrite F. specialize (E q). destruct (w q); [apply E; reflexivity|reflexivity]. Qed.
Lemma paints_if (b : bool) f g w v : (b = true -> paints f w v) -> (b = false -> paints g w v) -> paints (if b then f else g) w v.
Proof. intros F G. destruct b; auto. Qed.
Lemma paints_floop a b body w v : (forall t, a <= t < b -> paints (body t) (w t) v) ->
  paints (floop a b body) (fun q => existsb (fun t => w t q) (zrange a b)) v.
Proof.
  intros H m q.
  destruct (Z.le_gt_cases a b) as [L|L].
  2: { rewrite floop_none by lia. rewrite zrange_none by lia. reflexivity. }
  apply (floop_inv (fun k (m' : mem) => m' q = if existsb (fun t => w t q) (zrange a k) then v q else m q) a b); [exact L| |].
  - rewrite zrange_none by lia. reflexivity.
  - intros x t Hx Ht. rewrite zrange_snoc by lia. rewrite existsb_app. cbn [existsb]. rewrite orb_false_r.
    rewrite (H x Hx), Ht. destruct (w x q), (existsb (fun t0 => w t0 q) (zrange a x)); reflexivity.
Qed.
Lemma existsb_zrange (p : Z -> bool) a b : existsb p (zrange a b) = true <-> exists t, a <= t < b /\ p t = true.
Proof.
  rewrite existsb_exists. split; intros (t & A & B); exists t; [rewrite in_zrange in A|rewrite in_zrange]; auto.
Qed.
(** A loop over an interval of cells. *)
Lemma paints_line a b p body v : (forall t, a <= t < b -> paints (body t) (fun q => q =? p + t) v) ->
  paints (floop a b body) (fun q => (p + a <=? q) && (q <? p + b)) v.
Proof.
  intros H. eapply paints_iff; [apply paints_floop; exact H|]. intros q. rewrite existsb_zrange, andb_true_iff, Z.leb_le, Z.ltb_lt. split.
  - intros (t & A & B). apply Z.eqb_eq in B. lia.
  - intros A. exists (q - p). rewrite Z.eqb_eq. lia.
Qed.
(** A list of stores. *)
Definition stores (l : list (Z * Z)) (m : mem) : mem := fold_left (fun m '(a, x) => upd m a x) l m.
Lemma paints_stores l v : (forall a x, In (a, x) l -> x = v a) -> paints (stores l) (fun q => existsb (fun p => q =? fst p) l) v.
Proof.
  induction l as [|[a x] l IH]; intros H.
  - apply paints_id.
  - intros m q. cbn [stores fold_left existsb fst]. change (fold_left (fun (m0 : mem) '(a0, x0) => upd m0 a0 x0) l (upd m a x)) with (stores l (upd m a x)).
    rewrite IH by (intros; apply H; right; assumption). rewrite (paints_upd a x v) by (apply H; left; reflexivity).
    destruct (q =? a), (existsb (fun p => q =? fst p) l); reflexivity.
Qed.
