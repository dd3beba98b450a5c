(** The allocator serves a well-behaved user. *)
From Coq Require Import ZArith List Bool Lia.
From Verif Require Import CBase MemModel VxModelBase DqModel DqProofs HpModel HpSpec.
Import ListNotations.
Open Scope Z_scope.

Definition addr (b : Z) : Z := b + 31 + 8 - (b + 31 + 8) mod 32.
Lemma addr_spec b : addr b mod 32 = 0 /\ b + 8 <= addr b <= b + 39.
Proof.
  unfold addr. pose proof (Z.div_mod (b + 31 + 8) 32 ltac:(lia)). pose proof (Z.mod_pos_bound (b + 31 + 8) 32 ltac:(lia)).
  split; [|lia]. replace (b + 31 + 8 - (b + 31 + 8) mod 32) with ((b + 31 + 8) / 32 * 32) by lia. apply Z.mod_mul. lia.
Qed.
Lemma land31 x : Z.land x 31 = x mod 32.
Proof. change 31 with (Z.ones 5). rewrite Z.land_ones by lia. reflexivity. Qed.

(** Piece [x] lives in block [b] of the heap with memory [m]. *)
Definition R (m : mem) (x b : Z * Z) : Prop :=
  fst x = addr (fst b) /\ snd b = snd x + 39 /\ 0 <= snd x /\ 0 < fst b /\ q_of (load m (fst x - 8)) = fst b.
Definition inv (h : heap) (l : ledger) : Prop := Forall2 (R (hm h)) l (live h) /\ ForallOrdPairs apart2 (live h).

Lemma q_ext r r' : (forall k, 0 <= k < 8 -> r k = r' k) -> q_of r = q_of r'.
Proof. intros E. unfold q_of. cbn [fold_right]. rewrite !E by lia. reflexivity. Qed.
Lemma R_mem m m' x b : (forall k, 0 <= k < 8 -> m' (fst x - 8 + k) = m (fst x - 8 + k)) -> R m x b -> R m' x b.
Proof. intros E (A & B & C & D & Q). repeat split; try assumption. rewrite <- Q. apply q_ext. intros k K. apply E, K. Qed.

Lemma Forall2_weak {A B} (P Q : A -> B -> Prop) l l' : Forall2 P l l' -> (forall x y, In x l -> In y l' -> P x y -> Q x y) -> Forall2 Q l l'.
Proof.
  intros H. induction H as [|x y l l' P0 H IH]; intros W; constructor.
  - apply W; [left; reflexivity|left; reflexivity|exact P0].
  - apply IH. intros x' y' I J. apply W; right; assumption.
Qed.
Lemma Forall2_in {A B} (P : A -> B -> Prop) l l' x : Forall2 P l l' -> In x l -> exists y, In y l' /\ P x y.
Proof.
  intros H. induction H as [|a b l l' P0 H IH]; intros I; [destruct I|]. destruct I as [->|I].
  - exists b. split; [left; reflexivity|exact P0].
  - destruct (IH I) as (y & J & Q). exists y. split; [right; exact J|exact Q].
Qed.

Lemma inv_write h l a v : inv h l -> (exists x, In x l /\ fst x <= a < fst x + snd x) -> inv (Heap (live h) (upd (hm h) a v)) l.
Proof.
  intros (F & O) (x & X & A). split; [|exact O]. cbn [live hm].
  destruct (Forall2_in _ _ _ x F X) as (b & Bi & (E1 & E2 & E3 & E4 & _)).
  apply (Forall2_weak _ _ _ _ F). intros y c Y C H. apply (R_mem (hm h)); [|exact H].
  intros k K. unfold upd. destruct (Z.eqb_spec (fst y - 8 + k) a) as [Q|]; [exfalso|reflexivity].
  destruct H as (G1 & G2 & G3 & G4 & _). pose proof (proj2 (addr_spec (fst b))). pose proof (proj2 (addr_spec (fst c))).
  destruct (ForallOrdPairs_In O _ _ Bi C) as [->|[P|P]]; [|unfold apart2 in P..]; lia.
Qed.

Lemma inv_alloc h l size b h1 p : inv h l -> 0 <= size < 18446744073709551577 -> fresh (live h) (size + 39) (Some b) ->
  davs2_malloc h size (Some b) = (h1, p) -> inv h1 ((p, size) :: l).
Proof.
  intros (F & O) S (B0 & B1 & B2) E. unfold davs2_malloc in E. rewrite land31 in E. fold (addr b) in E.
  replace (to_u64 (size + 31 + 8)) with (size + 39) in E by (unfold to_u64; rewrite Z.mod_small; lia).
  injection E as <- <-. pose proof (proj2 (addr_spec b)) as AB. split; cbn [live hm]; [|constructor; [exact B2|exact O]].
  constructor.
  - repeat split; cbn [fst snd]; try lia. transitivity (q_of (movq b)); [|apply q_movq; lia].
    apply q_ext. intros k K. unfold load, store8, store_n.
    replace ((addr b - 8 <=? addr b - 8 + k) && (addr b - 8 + k <? addr b - 8 + 8)) with true by lia. f_equal. lia.
  - apply (Forall2_weak _ _ _ _ F). intros y c Y C H. apply (R_mem (hm h)); [|exact H].
    intros k K. unfold store8, store_n. destruct ((addr b - 8 <=? fst y - 8 + k) && (fst y - 8 + k <? addr b - 8 + 8)) eqn:Q; [exfalso|reflexivity].
    apply andb_true_iff in Q. destruct Q as [Q1%Z.leb_le Q2%Z.ltb_lt]. destruct H as (G1 & G2 & G3 & G4 & _).
    rewrite Forall_forall in B2. specialize (B2 c C). unfold apart2 in B2. cbn [fst snd] in B2.
    pose proof (proj2 (addr_spec (fst c))). lia.
Qed.

Lemma take_at (l1 : list (Z * Z)) x l2 : Forall (fun y => fst y <> fst x) l1 -> take (fst x) (l1 ++ x :: l2) = Some (l1 ++ l2).
Proof.
  induction l1 as [|y l1 IH]; intros H; cbn [app take]; [rewrite Z.eqb_refl; reflexivity|].
  inversion H as [|? ? H1 H2]; subst. destruct (Z.eqb_spec (fst y) (fst x)) as [Q|_]; [contradiction|]. rewrite IH by exact H2. reflexivity.
Qed.
Lemma pairs_mid {A} (P : A -> A -> Prop) l1 x l2 : ForallOrdPairs P (l1 ++ x :: l2) -> ForallOrdPairs P (l1 ++ l2) /\ Forall (fun y => P y x) l1.
Proof.
  induction l1 as [|y l1 IH]; cbn [app]; intros H; inversion H as [|? ? H1 H2]; subst; [split; [exact H2|constructor]|].
  destruct (IH H2) as [G1 G2]. split.
  - constructor; [|exact G1]. apply Forall_app in H1. destruct H1 as [K1 K2]. inversion K2; subst. apply Forall_app; split; assumption.
  - constructor; [|exact G2]. apply Forall_app in H1. destruct H1 as [_ K2]. inversion K2; subst. assumption.
Qed.
Lemma inv_free h l1 p n l2 : inv h (l1 ++ (p, n) :: l2) -> exists h1, davs2_free h p = Done h1 /\ inv h1 (l1 ++ l2).
Proof.
  intros (F & O). apply Forall2_app_inv_l in F. destruct F as (b1 & b2' & F1 & F2 & E).
  inversion F2 as [|? b ? b2 H F3]; subst. rewrite E in O. destruct (pairs_mid _ _ _ _ O) as [O1 O2].
  destruct H as (G1 & G2 & G3 & G4 & G5). cbn [fst snd] in *. pose proof (proj2 (addr_spec (fst b))) as AB.
  unfold davs2_free. replace (p =? 0) with false by lia. rewrite G5. unfold libc_free. rewrite E.
  rewrite take_at.
  - eexists. split; [reflexivity|]. split; cbn [live hm]; [apply Forall2_app; assumption|exact O1].
  - apply Forall_forall. intros y Y. rewrite Forall_forall in O2. specialize (O2 y Y). unfold apart2 in O2.
    assert (Z : 0 < snd y).
    { clear - F1 Y. induction F1 as [|x b l l' (_ & A & B & _) F IH]; [destruct Y|]. destruct Y as [->|Y]; [lia|exact (IH Y)]. }
    lia.
Qed.

Lemma inv_served h l : inv h l -> served h l.
Proof.
  intros (F & O). split; [|split; [exact O|]].
  - apply (Forall2_weak _ _ _ _ F). intros x b _ _ (A & B & C & D & _). rewrite A. pose proof (addr_spec (fst b)) as [M L]. repeat split; lia.
  - revert O. induction F as [|x b l bs (A & B & C & _) F IH]; intros O; constructor; inversion O as [|? ? O1 O2]; subst; [|apply IH; exact O2].
    apply Forall_forall. intros y Y. destruct (Forall2_in _ _ _ y F Y) as (c & Ci & (A' & B' & C' & _)).
    rewrite Forall_forall in O1. specialize (O1 c Ci). unfold apart2 in *. rewrite A, A'.
    pose proof (proj2 (addr_spec (fst b))). pose proof (proj2 (addr_spec (fst c))). lia.
Qed.

Lemma user_ok h l ops l' : uses h l ops l' -> inv h l -> exists h', hrun h ops = Done h' /\ inv h' l'.
Proof.
  intros U. induction U as [h l|h l size r l' S U IH|h l size b h1 p r l' S F E U IH|h l a v r l' X U IH|h l r l' U IH|h l1 p n l2 r l' U IH]; intros I;
    cbn [hrun hstep bindo].
  - exists h. split; [reflexivity|exact I].
  - apply IH, I.
  - rewrite E. cbn [fst]. apply IH. eapply inv_alloc; eassumption.
  - apply IH, inv_write; assumption.
  - apply IH, I.
  - destruct (inv_free _ _ _ _ _ I) as (h1 & E & I1). rewrite E. cbn [bindo]. apply (IH h1 E I1).
Qed.
Lemma inv_empty m : inv (Heap [] m) [].
Proof. split; constructor. Qed.

(** Asking for memory changes no byte of the pieces already there. *)
Lemma alloc_keeps h l size b h1 p a : inv h l -> 0 <= size < 18446744073709551577 -> fresh (live h) (size + 39) (Some b) ->
  davs2_malloc h size (Some b) = (h1, p) -> (exists x, In x l /\ fst x <= a < fst x + snd x) -> hm h1 a = hm h a.
Proof.
  intros (F & O) S (B0 & B1 & B2) E (x & X & A). unfold davs2_malloc in E. rewrite land31 in E. fold (addr b) in E.
  injection E as <- <-. cbn [hm]. pose proof (proj2 (addr_spec b)). unfold store8, store_n.
  destruct ((addr b - 8 <=? a) && (a <? addr b - 8 + 8)) eqn:Q; [exfalso|reflexivity].
  apply andb_true_iff in Q. destruct Q as [Q1%Z.leb_le Q2%Z.ltb_lt].
  destruct (Forall2_in _ _ _ x F X) as (c & Ci & (G1 & G2 & G3 & G4 & _)).
  rewrite Forall_forall in B2. specialize (B2 c Ci). unfold apart2 in B2. cbn [fst snd] in B2. pose proof (proj2 (addr_spec (fst c))). lia.
Qed.
Lemma free_keeps h p h1 : davs2_free h p = Done h1 -> hm h1 = hm h.
Proof.
  unfold davs2_free, libc_free. destruct (p =? 0); [intros E; injection E as <-; reflexivity|].
  destruct (take _ _); [intros E; injection E as <-; reflexivity|discriminate].
Qed.
Lemma run_keeps h l ops l' : uses h l ops l' -> inv h l -> forall a h', hrun h ops = Done h' ->
  (forall v, ~ In (Write a v) ops) -> (exists x, In x l /\ fst x <= a < fst x + snd x) -> (forall p, (exists n, In (p, n) l /\ p <= a < p + n) -> ~ In (Release p) ops) ->
  hm h' a = hm h a.
Proof.
  intros U. induction U as [h l|h l size r l' S U IH|h l size b h1 p r l' S F E U IH|h l b v r l' X U IH|h l r l' U IH|h l1 p n l2 r l' U IH]; intros I a h' G NW OW NR;
    cbn [hrun hstep bindo] in G.
  - injection G as <-. reflexivity.
  - apply (IH I a h' G); [intros w W; apply (NW w); right; exact W|exact OW|intros q Q W; apply (NR q Q); right; exact W].
  - rewrite E in G. cbn [fst] in G. rewrite <- (alloc_keeps h l size b h1 p a I S F E OW).
    pose proof (inv_alloc _ _ _ _ _ _ I S F E) as I1.
    apply (IH I1 a h' G); [intros w W; apply (NW w); right; exact W| |].
    + destruct OW as (x & X & A). exists x. split; [right; exact X|exact A].
    + intros q (n & [Q|Q] & A) W.
      * injection Q as -> ->. destruct OW as (x & X & Ax). destruct (inv_served _ _ I1) as (_ & _ & O). inversion O as [|? ? O1 _]; subst.
        rewrite Forall_forall in O1. specialize (O1 x X). unfold apart2 in O1. cbn [fst snd] in O1. lia.
      * apply (NR q); [exists n; split; assumption|right; exact W].
  - assert (N : a <> b) by (intros ->; apply (NW v); left; reflexivity).
    rewrite (IH (inv_write h l b v I X) a h' G); [|intros w W; apply (NW w); right; exact W|exact OW|intros q Q W; apply (NR q Q); right; exact W].
    cbn [hm]. unfold upd. replace (a =? b) with false by lia. reflexivity.
  - apply (IH I a h' G); [intros w W; apply (NW w); right; exact W|exact OW|intros q Q W; apply (NR q Q); right; exact W].
  - destruct (inv_free _ _ _ _ _ I) as (h1 & E & I1). rewrite E in G. cbn [bindo] in G.
    rewrite <- (free_keeps _ _ _ E). apply (IH h1 E I1 a h' G); [intros w W; apply (NW w); right; exact W| |].
    + destruct OW as (x & X & A). exists x. split; [|exact A]. apply in_app_or in X. apply in_or_app.
      destruct X as [X|[<-|X]]; [left; exact X| |right; exact X]. exfalso.
      apply (NR p); [exists n; split; [apply in_or_app; right; left; reflexivity|exact A]|left; reflexivity].
    + intros q (k & Q & A) W. apply (NR q); [|right; exact W]. exists k. split; [|exact A].
      apply in_app_or in Q. apply in_or_app. destruct Q as [Q|Q]; [left; exact Q|right; right; exact Q].
Qed.
