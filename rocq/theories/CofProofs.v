(** Coefficient groups are read back: positions, magnitudes, distances and signs. *)
From Coq Require Import ZArith List Bool Lia Sorted.
From Verif Require Import CBase CBaseProofs AecModel AecSpec SynModel SynSpec BinSpec BinProofs BinProofsB CofSpec.
Import ListNotations.
Open Scope Z_scope.

(** ** Lists. *)
Lemma filter_rev : forall A (f : A -> bool) l, filter f (rev l) = rev (filter f l).
Proof.
  intros A f. induction l as [|a t IH]; [reflexivity|]. cbn [rev filter]. rewrite filter_app, IH. cbn [filter].
  destruct (f a); cbn [rev]; [reflexivity|apply app_nil_r].
Qed.
Lemma total_app : forall a b, total (a ++ b) = total a + total b.
Proof. induction a as [|x a IH]; intros b; cbn [total fold_right app]; [reflexivity|]. fold (total (a ++ b)) (total a). rewrite IH. lia. Qed.
Lemma total_rev : forall l, total (rev l) = total l.
Proof.
  induction l as [|x l IH]; [reflexivity|]. cbn [rev]. rewrite total_app, IH. unfold total at 2 3. cbn [fold_right]. fold (total l). lia.
Qed.
Lemma total_nonneg : forall l, 0 <= total l.
Proof. induction l as [|x l IH]; cbn [total fold_right]; [lia|]. fold (total l). lia. Qed.
Lemma total_le : forall l B, Forall (fun v => Z.abs v <= B) l -> total l <= B * Z.of_nat (length l).
Proof. intros l B H. induction H as [|x l Hx H IH]; cbn [total fold_right length]; [lia|]. fold (total l). lia. Qed.
Lemma biggest_app : forall a b, biggest (a ++ b) = Z.max (biggest a) (biggest b).
Proof.
  assert (N: forall l, 0 <= biggest l) by (induction l as [|x l IH]; cbn [biggest fold_right]; [lia|]; fold (biggest l); lia).
  induction a as [|x a IH]; intros b; cbn [biggest fold_right app].
  - change (biggest b = Z.max 0 (biggest b)). specialize (N b). lia.
  - fold (biggest (a ++ b)) (biggest a). rewrite IH. lia.
Qed.
Lemma biggest_nonneg : forall l, 0 <= biggest l.
Proof. induction l as [|x l IH]; cbn [biggest fold_right]; [lia|]. fold (biggest l). lia. Qed.
Lemma down_S : forall n, down (S n) = Z.of_nat n :: down n.
Proof. intros n. unfold down. rewrite seq_S, rev_app_distr. reflexivity. Qed.
Lemma in_down : forall n x, In x (down n) <-> 0 <= x < Z.of_nat n.
Proof.
  intros n x. unfold down. rewrite in_map_iff. split.
  - intros (k & <- & H). apply in_rev, in_seq in H. lia.
  - intros H. exists (Z.to_nat x). split; [lia|]. apply -> in_rev. apply in_seq. lia.
Qed.
Definition falling : list Z -> Prop := StronglySorted Z.gt.
Lemma down_falling : forall n, falling (down n).
Proof.
  induction n as [|n IH]; [constructor|]. rewrite down_S. constructor; [exact IH|]. apply Forall_forall. intros x H. apply in_down in H. lia.
Qed.
Lemma filter_falling : forall f l, falling l -> falling (filter f l).
Proof.
  intros f l H. induction H as [|a l H IH F]; [constructor|]. cbn [filter]. destruct (f a); [|exact IH]. constructor; [exact IH|].
  apply Forall_forall. intros x Hx. apply filter_In in Hx. rewrite Forall_forall in F. apply F. tauto.
Qed.
Lemma filter_all : forall A (f : A -> bool) l, (forall x, In x l -> f x = true) -> filter f l = l.
Proof. intros A f. induction l as [|a l IH]; intros H; [reflexivity|]. cbn [filter]. rewrite H by (left; reflexivity). rewrite IH; [reflexivity|]. intros x Hx. apply H. right. exact Hx. Qed.
Lemma filter_none : forall A (f : A -> bool) l, (forall x, In x l -> f x = false) -> filter f l = [].
Proof. intros A f. induction l as [|a l IH]; intros H; [reflexivity|]. cbn [filter]. rewrite H by (left; reflexivity). apply IH. intros x Hx. apply H. right. exact Hx. Qed.
Lemma falling_split : forall a q b, falling (a ++ q :: b) -> (forall x, In x a -> q < x) /\ (forall x, In x b -> x < q).
Proof.
  induction a as [|y a IH]; intros q b H; cbn [app] in H; inversion H as [|? ? H1 F]; subst.
  - split; [intros x []|]. intros x Hx. rewrite Forall_forall in F. specialize (F x Hx). lia.
  - destruct (IH q b H1) as [A B]. split; [|exact B]. intros x [<- |Hx]; [|exact (A x Hx)]. rewrite Forall_forall in F.
    specialize (F q ltac:(apply in_or_app; right; left; reflexivity)). lia.
Qed.
Lemma falling_left : forall a b, falling (a ++ b) -> falling a.
Proof.
  unfold falling. induction a as [|x a IH]; intros b H; [constructor|]. cbn [app] in H. inversion H as [|? ? C1 C2]; subst. constructor; [exact (IH b C1)|]. apply Forall_app in C2. tauto.
Qed.
Lemma split_above : forall a q b, falling (a ++ q :: b) -> filter (fun j => q <? j) (a ++ q :: b) = a.
Proof.
  intros a q b H. destruct (falling_split a q b H) as [A B]. rewrite filter_app, filter_all by (intros x Hx; specialize (A x Hx); lia).
  cbn [filter]. rewrite Z.ltb_irrefl, filter_none by (intros x Hx; specialize (B x Hx); lia). apply app_nil_r.
Qed.
Lemma split_below : forall a q b, falling (a ++ q :: b) -> filter (fun j => j <? q) (a ++ q :: b) = b.
Proof.
  intros a q b H. destruct (falling_split a q b H) as [A B]. rewrite filter_app, filter_none by (intros x Hx; specialize (A x Hx); lia).
  cbn [filter app]. rewrite Z.ltb_irrefl. apply filter_all. intros x Hx. specialize (B x Hx). lia.
Qed.
Lemma coded_falling : forall g, falling (coded g).
Proof. intros g. apply filter_falling, down_falling. Qed.
Lemma coded_in : forall g i, In i (coded g) <-> 0 <= i < 16 /\ g i <> 0.
Proof. intros g i. unfold coded. rewrite filter_In, in_down, negb_true_iff, Z.eqb_neq. change (Z.of_nat 16) with 16. tauto. Qed.
Lemma coded_short : forall g, (length (coded g) <= 16)%nat.
Proof. intros g. unfold coded. etransitivity; [|apply (Nat.eq_le_incl (length (down 16)) 16 eq_refl)]. induction (down 16) as [|a l IH]; cbn [filter]; [lia|]. destruct (negb (g a =? 0)); cbn [length]; lia. Qed.

(** Ascending positions with the number of zeros below each. *)
Fixpoint gaps (cur : Z) (l : list Z) : list (Z * Z) := match l with [] => [] | d :: t => (d, d - cur - 1) :: gaps d t end.
Definition unsigned (g : Z -> Z) (l : list (Z * Z)) : list (Z * Z) := map (fun t => (to_i16 (Z.abs (g (fst t))), snd t)) l.
Definition signed (g : Z -> Z) (l : list (Z * Z)) : list (Z * Z) := map (fun t => (g (fst t), snd t)) l.

Lemma to_i16_abs : forall v, -32768 <= v <= 32767 -> Z.abs (to_i16 (Z.abs v)) = Z.abs v.
Proof.
  intros v H. destruct (Z.eq_dec (Z.abs v) 32768) as [-> |C]; [reflexivity|]. rewrite to_i16_id by lia. lia.
Qed.
Definition rising : list Z -> Prop := StronglySorted Z.lt.
Lemma abssum_window : forall g i l cur acc, (forall j, 0 <= j < 16 -> -32768 <= g j <= 32767) -> rising l -> Forall (fun d => 0 <= d < 16) l ->
  abssum (unsigned g (gaps cur l)) (cur - i) acc = acc + total (map g (filter (fun j => j <=? i + 6) l)).
Proof.
  intros g i l cur acc B HR. revert cur acc. induction HR as [|d l H IH F]; intros cur acc FB; cbn [gaps unsigned map abssum filter fst snd].
  - cbn. lia.
  - inversion FB as [|? ? B1 B2]; subst. replace (cur - i + (d - cur - 1)) with (d - i - 1) by lia. destruct (Z.leb_spec d (i + 6)) as [C|C].
    + replace (6 <=? d - i - 1) with false by lia. replace (d - i - 1 + 1) with (d - i) by lia. fold (unsigned g (gaps d l)). rewrite IH by exact B2.
      cbn [map total fold_right]. fold (total (map g (filter (fun j => j <=? i + 6) l))). rewrite to_i16_abs by auto. lia.
    + replace (6 <=? d - i - 1) with true by lia. rewrite filter_none; [cbn; lia|]. intros x Hx. rewrite Forall_forall in F. specialize (F x Hx). lia.
Qed.

(** ** Distances. *)
Lemma run_ctx_read : forall p one first pos run, 0 <= run < pos -> pos <= 15 -> reads (run_ctx p one first pos run) [] (level_at_ctx (b_luma p) (b_dc p) one first (pos - 1 - run)).
Proof.
  intros p one first pos run Hr Hp. unfold run_ctx, level_at_ctx. set (t := pos - 1 - run). assert (Ht: 0 <= t < 15) by lia.
  replace (pos =? run + 1) with (t =? 0) by lia. replace (pos <? run + 4) with (t <? 3) by lia. replace (pos <? run + 11) with (t <? 10) by lia.
  replace (6 + run <=? pos) with (negb (t <? 5)) by lia. destruct (b_luma p).
  - destruct (b_dc p); cbn [negb].
    + eapply reads_quiet; [apply reads_ret|]. cbv beta. apply reads_ret.
    + eapply reads_quiet.
      * eapply reads_quiet; [apply reads_lookup with (v := nth (Z.to_nat t) tab_scan_4x4 (0, 0))|cbv beta; apply reads_ret].
        unfold get. replace (t <? 0) with false by lia. apply nth_error_nth'. change (length tab_scan_4x4) with 16%nat. lia.
      * cbv beta. rewrite Z.shiftr_div_pow2 by lia. apply reads_ret.
  - destruct (t <? 5); cbn [negb]; apply reads_ret.
Qed.
Lemma level_at_ctx_range : forall luma dc one first t, 0 <= t < 15 -> 0 <= level_at_ctx luma dc one first t < 11.
Proof.
  intros luma dc one first t Ht. unfold level_at_ctx.
  assert (Row: 0 <= snd (nth (Z.to_nat t) tab_scan_4x4 (0, 0)) <= 3).
  { assert (C: forallb (fun xy => (0 <=? snd xy) && (snd xy <=? 3)) tab_scan_4x4 = true) by reflexivity. rewrite forallb_forall in C.
    specialize (C (nth (Z.to_nat t) tab_scan_4x4 (0, 0)) ltac:(apply nth_In; change (length tab_scan_4x4) with 16%nat; lia)). lia. }
  set (y := snd (nth (Z.to_nat t) tab_scan_4x4 (0, 0))) in *. clearbody y.
  assert (Half: 0 <= (y + 1) / 2 <= 2) by (split; [apply Z.div_pos; lia|apply Z.div_le_upper_bound; lia]).
  destruct luma, dc, one, first, (t <? 3), (t <? 10), (t <? 5), (t =? 0); lia.
Qed.
Lemma run_read : forall f p r one first pos run v, a_size r = 11 -> 0 <= run -> pos <= 15 -> 0 <= v <= pos - run -> pos - run <= Z.of_nat f ->
  reads (read_run f p r one first pos run) (unary (fun j => at_ctx r (level_at_ctx (b_luma p) (b_dc p) one first (pos - 1 - run - j))) v (pos - run)) (run + v).
Proof.
  induction f as [|f IH]; intros p r one first pos run v Hr H0 Hp Hv Hf; cbn [read_run].
  - replace (run =? pos) with true by lia. replace v with 0 by lia. replace (pos - run) with 0 by lia. rewrite unary_last. rret. lia.
  - destruct (Z.eq_dec run pos) as [C|C].
    + replace (run =? pos) with true by lia. replace v with 0 by lia. replace (pos - run) with 0 by lia. rewrite unary_last. rret. lia.
    + replace (run =? pos) with false by lia. eapply reads_quiet; [apply run_ctx_read; lia|]. cbv beta.
      pose proof (level_at_ctx_range (b_luma p) (b_dc p) one first (pos - 1 - run) ltac:(lia)) as HC.
      destruct (Z.eq_dec v 0) as [-> |D].
      * rewrite unary_zero, Z.sub_0_r by lia. rsym 1. change (negb (1 =? 0)) with true. cbv iota. rret. lia.
      * rewrite unary_step, Z.sub_0_r by lia. rsym 0. change (negb (0 =? 0)) with false. cbv iota. replace (pos - run - 1) with (pos - (run + 1)) by lia.
        rewrite (unary_ext _ (fun j => at_ctx r (level_at_ctx (b_luma p) (b_dc p) one first (pos - 1 - (run + 1) - j)))) by (try lia; intros j b Hj; do 2 f_equal; lia).
        eapply reads_eq; [apply (IH p r one first pos (run + 1) (v - 1)); try assumption; lia|reflexivity|lia].
Qed.

(** ** Magnitudes. *)
Lemma class_range : forall m, 0 <= m -> 0 <= magnitude_class m <= 4.
Proof. intros m H. unfold magnitude_class. destruct (Z.leb_spec m 2), (Z.leb_spec m 4); lia. Qed.
Lemma class_zero : forall m, 0 <= m -> (magnitude_class m =? 0) = (m =? 0).
Proof. intros m H. unfold magnitude_class. destruct (Z.leb_spec m 2), (Z.leb_spec m 4); lia. Qed.
Lemma level_read : forall p first m before i v, 0 <= m -> 0 <= before -> v <> 0 -> Z.abs v <= 32768 ->
  reads (read_level (esc_code 1) p first i (magnitude_class m) before) (level_bins (b_luma p) first m before i v) (Z.abs v).
Proof.
  intros p first m before i v Hm Hb Hv Hl. unfold read_level, level_bins. rewrite !Z.shiftr_div_pow2 by lia. change (2 ^ 1) with 2.
  set (h := Z.min 2 ((before + 1) / 2)). assert (Hh: 0 <= h <= 2) by (unfold h; pose proof (Z.div_pos (before + 1) 2); lia). clearbody h.
  pose proof (class_range m Hm) as Hc. set (k := magnitude_class m) in *. clearbody k.
  destruct (Z.leb_spec (Z.abs v) 32) as [C|C].
  - eapply reads_next; [apply reads_fin|]. cbv beta. change (negb (0 =? 0)) with false. cbv iota.
    apply reads_end. eapply reads_bind with (x := Z.abs v).
    + apply reads_end. eapply reads_bind; [apply reads_cont0; [|lia]|cbv beta; rret; lia].
      assert (E: a_size (A_LEVEL (b_luma p)) = 20) by (destruct (b_luma p); reflexivity). rewrite E.
      assert (D: h = 0 \/ h = 1 \/ h = 2) by lia. destruct D as [-> | [-> | ->]].
      * change (5 * 0 / 2) with 0. destruct (first && (i <? 3)); lia.
      * change (5 * 1 / 2) with 2. destruct (first && (i <? 3)); lia.
      * change (5 * 2 / 2) with 5. destruct (first && (i <? 3)); lia.
    + cbv beta. rcheck. apply reads_ret.
  - eapply reads_next; [apply reads_fin|]. cbv beta. change (negb (1 =? 0)) with true. cbv iota.
    apply reads_end. eapply reads_bind with (x := Z.abs v).
    + apply reads_end. eapply reads_bind; [apply (reads_esc 1); lia|]. cbv beta. eapply reads_eq; [apply reads_chk; lia|reflexivity|lia].
    + cbv beta. rcheck. apply reads_ret.
Qed.
Lemma class_read : forall A (k : Z -> syn A) m v l x, 0 <= m -> 0 < v -> reads (k (magnitude_class (Z.max m v))) l x ->
  reads (let! t := lookup T_Chr (magnitude_class m) in let! rank := if t <? v then lookup tab_rank (Z.min 5 v) else ret (magnitude_class m) in k rank) l x.
Proof.
  intros A k m v l x Hm Hv H.
  assert (G: exists t, get T_Chr (magnitude_class m) = Some t /\ (t < v -> get tab_rank (Z.min 5 v) = Some (magnitude_class (Z.max m v))) /\ (v <= t -> magnitude_class (Z.max m v) = magnitude_class m)).
  { assert (R: v < 5 -> v = 1 \/ v = 2 \/ v = 3 \/ v = 4) by lia.
    assert (Big: forall n, 5 <= n -> magnitude_class n = 4) by (intros n Hn; unfold magnitude_class; destruct (Z.leb_spec n 2), (Z.leb_spec n 4); lia).
    assert (T: 5 <= v -> get tab_rank (Z.min 5 v) = Some (magnitude_class (Z.max m v))) by (intros C; rewrite Big, Z.min_l by lia; reflexivity).
    destruct (Z_le_gt_dec 5 m) as [C|C].
    - exists 3000. rewrite !Big by lia. split; [reflexivity|]. split; [|reflexivity]. intros L. rewrite Z.min_l by lia. reflexivity.
    - assert (D: m = 0 \/ m = 1 \/ m = 2 \/ m = 3 \/ m = 4) by lia.
      destruct (Z_le_gt_dec 5 v) as [E|E].
      + destruct D as [-> | [-> | [-> | [-> | ->]]]]; eexists; (split; [reflexivity|]); (split; [intros _; exact (T E)|lia]).
      + destruct D as [-> | [-> | [-> | [-> | ->]]]]; destruct (R ltac:(lia)) as [-> | [-> | [-> | ->]]]; eexists; (split; [reflexivity|]); cbn; (split; [intros; try lia; reflexivity|intros; try lia; reflexivity]). }
  destruct G as (t & G1 & G2 & G3). eapply reads_quiet; [apply reads_lookup, G1|]. cbv beta. destruct (Z.ltb_spec t v) as [C|C].
  - eapply reads_quiet; [apply reads_lookup, (G2 C)|]. exact H.
  - eapply reads_quiet; [apply reads_ret|]. cbv beta. rewrite <- G3 by lia. exact H.
Qed.

Section Group.
Context (p : blk) (one first : bool) (m : Z) (g : Z -> Z).
Hypothesis (Hm : 0 <= m) (HB : forall j, 0 <= j < 16 -> -32768 <= g j <= 32767).
Local Notation pair_bins i := (level_bins (b_luma p) first (Z.max m (biggest (map g (above g i)))) (Z.of_nat (length (above g i))) i (g i) ++ run_bins (b_luma p) (b_dc p) one first g i).
Local Notation here hs := (magnitude_class (Z.max m (biggest (map g hs)))).

Lemma rev_rising : forall l, falling l -> rising (rev l).
Proof.
  intros l H. induction H as [|a l H IH F]; [constructor|]. cbn [rev]. clear H. induction (rev l) as [|b t IHt] eqn:E in l, IH, F |- *; cbn [app].
  - constructor; [constructor|constructor].
  - inversion IH as [|? ? I1 I2]; subst. assert (Fr: Forall (fun x => a > x) (b :: t)) by (apply Forall_forall; intros x Hx; rewrite Forall_forall in F; apply F; apply in_rev; rewrite E; exact Hx).
    clear E F IHt. revert Fr. assert (K: forall t, StronglySorted Z.lt t -> Forall (fun x => a > x) t -> StronglySorted Z.lt (t ++ [a])).
    { clear. induction t as [|c t IHt]; intros HS HF; cbn [app]; [repeat constructor|]. inversion HS as [|? ? S1 S2]; subst. inversion HF as [|? ? F1 F2]; subst. constructor; [auto|].
      apply Forall_app. split; [exact S2|]. constructor; [lia|constructor]. }
    intros Fr. exact (K (b :: t) IH Fr).
Qed.

Lemma pairs_read : forall rest hs q f, coded g = hs ++ q :: rest -> (length rest < f)%nat ->
  reads (read_pairs f (esc_code 1) p one first q (here hs) (unsigned g (gaps q (rev hs)))) (flat_map (fun i => pair_bins i) (q :: rest))
        (unsigned g (gaps (-1) (rev (coded g))), here (coded g)).
Proof.
  induction rest as [|n rest IH]; intros hs q f E Hf; (destruct f as [|f]; [lia|]); pose proof (coded_falling g) as CF; rewrite E in CF;
  (assert (Q: 0 <= q < 16 /\ g q <> 0) by (apply coded_in; rewrite E; apply in_or_app; right; left; reflexivity)); destruct Q as [Q1 Q2];
  pose proof (HB q Q1) as BQ; destruct (falling_split _ _ _ CF) as [UP DN];
  (assert (AB: above g q = hs) by (unfold above; rewrite E; apply split_above, CF));
  (assert (LH: (length hs < 16)%nat) by (pose proof (coded_short g) as CS; rewrite E, app_length in CS; cbn [length] in CS; lia));
  (assert (HIn: forall x, In x hs -> 0 <= x < 16) by (intros x Hx; apply (coded_in g x); rewrite E; apply in_or_app; left; exact Hx)).
  1: assert (BE: below g q = []) by (unfold below; rewrite E; exact (split_below _ _ _ CF)).
  2: assert (BE: below g q = n :: rest) by (unfold below; rewrite E; exact (split_below _ _ _ CF)).
  all: cbn [read_pairs]; change (flat_map (fun i => pair_bins i) (q :: ?r)) with (pair_bins q ++ flat_map (fun i => pair_bins i) r); rewrite <- app_assoc.
  all: assert (LU: length (unsigned g (gaps q (rev hs))) = length hs) by (unfold unsigned; rewrite map_length; transitivity (length (rev hs)); [generalize (rev hs) as l, q as c; clear; induction l as [|x l IHl]; intros c; cbn [gaps length]; [reflexivity|now rewrite IHl]|apply rev_length]).
  all: rewrite LU, AB.
  all: assert (HM: 0 <= Z.max m (biggest (map g hs))) by lia.
  all: (eapply reads_bind; [apply level_read; [exact HM|lia|exact Q2|lia]|]); cbv beta.
  all: assert (SUM: abssum (unsigned g (gaps q (rev hs))) 0 0 + Z.abs (g q) = near g q).
  1, 3: unfold near; rewrite AB; replace 0 with (q - q) at 1 by lia; rewrite abssum_window; [|exact HB|apply rev_rising; exact (falling_left _ _ CF)|apply Forall_forall; intros x Hx; apply HIn, in_rev, Hx]; rewrite filter_rev, map_rev, total_rev; lia.
  all: rewrite SUM.
  all: assert (SR: 0 <= near g q <= 32768 * 17).
  1, 3: split; [unfold near; pose proof (total_nonneg (map g (filter (fun j => j <=? q + 6) (above g q)))); lia|];
     unfold near; rewrite AB; pose proof (total_le (map g (filter (fun j => j <=? q + 6) hs)) 32768) as TL; rewrite map_length in TL;
     (assert (FL: (length (filter (fun j => (j <=? q + 6)%Z) hs) <= length hs)%nat) by (clear; induction hs as [|a l IHl]; cbn [filter length]; [lia|]; destruct (a <=? q + 6); cbn [length]; lia));
     (assert (FA: Forall (fun v => Z.abs v <= 32768) (map g (filter (fun j => j <=? q + 6) hs))) by (apply Forall_forall; intros v Hv; apply in_map_iff in Hv; destruct Hv as (x & <- & Hx); apply filter_In in Hx; specialize (HB x (HIn x (proj1 Hx))); lia));
     specialize (TL FA); lia.
  all: (eapply reads_quiet; [apply reads_chk; lia|]); cbv beta.
  all: assert (ZB: 0 <= zeros_behind g q <= q) by (unfold zeros_behind; rewrite BE; cbn [hd]; try lia; assert (NI: In n (coded g)) by (rewrite E; apply in_or_app; right; right; left; reflexivity); apply coded_in in NI; specialize (DN n (or_introl eq_refl)); lia).
  all: (eapply reads_bind with (x := zeros_behind g q);
    [destruct (Z.ltb_spec 0 q) as [C|C];
      [eapply reads_eq; [apply (run_read 16 p _ one first q 0 (zeros_behind g q)); [reflexivity|lia|lia|lia|lia]| |lia];
       unfold run_bins; rewrite Z.shiftr_div_pow2, Z.min_comm by lia; replace (q - 0) with q by lia; change (2 ^ 1) with 2; apply unary_ext; [lia|]; intros j b Hj; do 2 f_equal; lia
      |unfold run_bins; replace (zeros_behind g q) with 0 by lia; replace q with 0 by lia; apply reads_ret]|]); cbv beta.
  all: rcheck; rewrite to_i16_id with (v := zeros_behind g q) by lia.
  all: (apply class_read; [exact HM|lia|]).
  all: assert (EM: Z.max (Z.max m (biggest (map g hs))) (Z.abs (g q)) = Z.max m (biggest (map g (hs ++ [q])))) by (rewrite map_app, biggest_app; cbn [map biggest fold_right]; lia).
  all: rewrite EM.
  - assert (ZE: zeros_behind g q = q) by (unfold zeros_behind; rewrite BE; cbn [hd]; lia). rewrite ZE. rewrite Z.eqb_refl. cbn [flat_map]. rret.
    rewrite E. f_equal. rewrite rev_app_distr. cbn [rev app gaps unsigned map fst snd]. do 2 f_equal. lia.
  - assert (ZE: zeros_behind g q = q - 1 - n) by (unfold zeros_behind; rewrite BE; reflexivity). assert (NI: 0 <= n < 16 /\ g n <> 0) by (apply coded_in; rewrite E; apply in_or_app; right; right; left; reflexivity).
    replace (zeros_behind g q =? q) with false by lia. replace (q - (zeros_behind g q + 1)) with n by lia.
    replace ((to_i16 (Z.abs (g q)), zeros_behind g q) :: unsigned g (gaps q (rev hs))) with (unsigned g (gaps n (rev (hs ++ [q])))).
    + apply IH; [rewrite <- app_assoc; exact E|cbn [length] in Hf; lia].
    + rewrite rev_app_distr. cbn [rev app gaps unsigned map fst snd]. do 2 f_equal. lia.
Qed.

(** ** Signs. *)
Lemma signs_read : forall l, Forall (fun t => 0 <= fst t < 16) l -> Forall (fun t => g (fst t) <> 0) l ->
  reads (read_signs (unsigned g l)) (map (fun t => equi (flag (g (fst t) <? 0))) l) (signed g l).
Proof.
  induction l as [|[i r] l IH]; intros F1 F2; cbn [unsigned signed map read_signs fst snd]; [apply reads_ret|].
  inversion F1 as [|? ? A1 A2]; subst. inversion F2 as [|? ? B1 B2]; subst. cbn [fst] in *. pose proof (HB i A1) as BI.
  rbyp (flag (g i <? 0)). apply reads_end. eapply reads_bind; [apply IH; assumption|]. cbv beta. rret. f_equal. f_equal.
  destruct (Z.ltb_spec (g i) 0) as [C|C]; cbn [flag Z.eqb].
  - destruct (Z.eq_dec (g i) (-32768)) as [-> |D]; [reflexivity|]. rewrite (to_i16_id (Z.abs (g i))) by lia. rewrite to_i16_id by lia. lia.
  - rewrite to_i16_id; lia.
Qed.
End Group.
