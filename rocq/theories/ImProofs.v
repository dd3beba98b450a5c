(** Proofs about intra modes. *)
From Coq Require Import ZArith List Bool Lia Sorting.Sorted.
From Verif Require Import CBase MemModel MemProofs MemProofsB SaoModel SaoProofs SynModel SynSpec SynProofsA SynProofsF SynProofsG ImModel ImSpec.
Import ListNotations.
Open Scope Z_scope.

Lemma i8_id v : -128 <= v <= 127 -> to_i8 v = v.
Proof. intros H. unfold to_i8. cbv zeta. destruct (Z.ltb_spec (v mod 2 ^ 8) (2 ^ 7)); change (2 ^ 8) with 256 in *; change (2 ^ 7) with 128 in *; Z.div_mod_to_equations; lia. Qed.

Definition m_lo (top lf : Z) : Z := if top =? lf then 0 else Z.min top lf.
Definition m_hi (top lf : Z) : Z := if top =? lf then (if top =? 0 then 2 else top) else Z.max top lf.
Lemma mpm_ok top lf : 0 <= top <= 32 -> 0 <= lf <= 32 -> is_mpm top lf (m_lo top lf) (m_hi top lf) /\ 0 <= m_lo top lf /\ m_hi top lf <= 32.
Proof.
  intros Ht Hl. unfold is_mpm, m_lo, m_hi. destruct (Z.eqb_spec top lf) as [E|N]; [destruct (Z.eqb_spec top 0)|]; lia.
Qed.
Definition at_code (m0 m1 code : Z) : Z := code + (if m0 <=? code then 1 else 0) + (if m1 <=? code + 1 then 1 else 0).
Lemma luma_form top lf code : 0 <= top <= 32 -> 0 <= lf <= 32 -> -2 <= code <= 31 ->
  luma_mode top lf code = if code =? -2 then m_lo top lf else if code =? -1 then m_hi top lf else Z.min 32 (at_code (m_lo top lf) (m_hi top lf) code).
Proof.
  intros Ht Hl Hc. unfold luma_mode. cbv zeta.
  assert (E : (if Z.min top lf =? Z.max top lf then (0, if Z.max top lf =? 0 then 2 else Z.max top lf) else (Z.min top lf, Z.max top lf)) = (m_lo top lf, m_hi top lf)).
  { unfold m_lo, m_hi. destruct (Z.eqb_spec top lf) as [->|N].
    - rewrite Z.min_id, Z.max_id, Z.eqb_refl. reflexivity.
    - destruct (Z.eqb_spec (Z.min top lf) (Z.max top lf)); [lia|reflexivity]. }
  rewrite E. destruct (mpm_ok top lf Ht Hl) as ((M & _) & M0 & M1).
  set (a := m_lo top lf) in *. set (b := m_hi top lf) in *. clearbody a b. clear E Ht Hl.
  change (code + 2 =? 0) with (code + 2 =? 0). fold (at_code a b code).
  assert (R : 0 <= code -> 0 <= at_code a b code <= 33) by (unfold at_code; destruct (Z.leb_spec a code), (Z.leb_spec b (code + 1)); lia).
  destruct (Z.ltb_spec code 0).
  - destruct (Z.eqb_spec (code + 2) 0).
    + replace (code =? -2) with true by (symmetry; apply Z.eqb_eq; lia). rewrite i8_id by lia.
      replace ((a <? 0) || (33 <=? a)) with false by (symmetry; apply orb_false_iff; split; [apply Z.ltb_ge|apply Z.leb_gt]; lia). reflexivity.
    + replace (code =? -2) with false by (symmetry; apply Z.eqb_neq; lia). replace (code =? -1) with true by (symmetry; apply Z.eqb_eq; lia). rewrite i8_id by lia.
      replace ((b <? 0) || (33 <=? b)) with false by (symmetry; apply orb_false_iff; split; [apply Z.ltb_ge|apply Z.leb_gt]; lia). reflexivity.
  - replace (code =? -2) with false by (symmetry; apply Z.eqb_neq; lia). replace (code =? -1) with false by (symmetry; apply Z.eqb_neq; lia).
    specialize (R ltac:(lia)). rewrite (i8_id (at_code a b code)) by lia.
    destruct (Z.ltb_spec (at_code a b code) 0); [lia|]. destruct (Z.leb_spec 33 (at_code a b code)); cbn [orb].
    + destruct (Z.ltb_spec 32 (at_code a b code)); rewrite i8_id by lia; lia.
    + lia.
Qed.
Lemma sorted_map_seq (f : nat -> Z) n k : (forall i, (k <= i)%nat -> (S i < k + n)%nat -> f i < f (S i)) -> StronglySorted Z.lt (map f (seq k n)).
Proof.
  revert k. induction n as [|n IH]; intros k H; cbn [seq map]; [constructor|].
  constructor; [apply IH; intros i A B; apply H; lia|].
  assert (G : forall d, (k + d < k + S n)%nat -> f k <= f (k + d)%nat /\ (d <> 0%nat -> f k < f (k + d)%nat)).
  { induction d as [|d IHd]; intros L; [rewrite Nat.add_0_r; lia|].
    specialize (IHd ltac:(lia)). specialize (H (k + d)%nat ltac:(lia) ltac:(lia)). replace (k + S d)%nat with (S (k + d)) by lia. lia. }
  apply Forall_forall. intros z Iz. apply in_map_iff in Iz. destruct Iz as (i & <- & Ii). apply in_seq in Ii.
  specialize (G (i - k)%nat ltac:(lia)). replace (k + (i - k))%nat with i in G by lia. apply G. lia.
Qed.
Lemma luma_codes : forall top lf, 0 <= top <= 32 -> 0 <= lf <= 32 ->
  exists m0 m1 ms, is_mpm top lf m0 m1 /\ others m0 m1 ms /\ length ms = 31%nat /\
    luma_mode top lf (-2) = m0 /\ luma_mode top lf (-1) = m1 /\
    (forall code, 0 <= code <= 30 -> nth_error ms (Z.to_nat code) = Some (luma_mode top lf code)) /\
    luma_mode top lf 31 = 32.
Proof.
  intros top lf Ht Hl. destruct (mpm_ok top lf Ht Hl) as (M & M0 & M1).
  exists (m_lo top lf), (m_hi top lf), (map (fun i => luma_mode top lf (Z.of_nat i)) (seq 0 31)).
  assert (Mm : m_lo top lf < m_hi top lf) by apply M.
  assert (F : forall code, 0 <= code <= 31 -> luma_mode top lf code = Z.min 32 (at_code (m_lo top lf) (m_hi top lf) code)).
  { intros code Hc. rewrite luma_form by lia. replace (code =? -2) with false by (symmetry; apply Z.eqb_neq; lia). replace (code =? -1) with false by (symmetry; apply Z.eqb_neq; lia). reflexivity. }
  split; [exact M|]. split; [split|].
  - apply sorted_map_seq. intros i _ Hi. rewrite !F by lia. unfold at_code.
    destruct (Z.leb_spec (m_lo top lf) (Z.of_nat i)), (Z.leb_spec (m_hi top lf) (Z.of_nat i + 1)), (Z.leb_spec (m_lo top lf) (Z.of_nat (S i))), (Z.leb_spec (m_hi top lf) (Z.of_nat (S i) + 1)); lia.
  - intros m. rewrite in_map_iff. split.
    + intros (i & E & Hi). apply in_seq in Hi. rewrite F in E by lia. unfold at_code in E.
      destruct (Z.leb_spec (m_lo top lf) (Z.of_nat i)), (Z.leb_spec (m_hi top lf) (Z.of_nat i + 1)); lia.
    + intros (R & N0 & N1). exists (Z.to_nat (m - (if m_lo top lf <? m then 1 else 0) - (if m_hi top lf <? m then 1 else 0))).
      assert (0 <= m - (if m_lo top lf <? m then 1 else 0) - (if m_hi top lf <? m then 1 else 0) <= 30) by (destruct (Z.ltb_spec (m_lo top lf) m), (Z.ltb_spec (m_hi top lf) m); lia).
      split; [|rewrite in_seq; lia]. rewrite Z2Nat.id by lia. rewrite F by lia. unfold at_code.
      destruct (Z.ltb_spec (m_lo top lf) m), (Z.ltb_spec (m_hi top lf) m);
      match goal with |- context [?a <=? ?b] => destruct (Z.leb_spec a b) end;
      match goal with |- context [?a <=? ?b] => destruct (Z.leb_spec a b) end; lia.
  - split; [rewrite map_length, seq_length; reflexivity|]. split; [rewrite luma_form by lia; reflexivity|]. split; [rewrite luma_form by lia; reflexivity|]. split.
    + intros code Hc. rewrite nth_error_map. rewrite nth_error_nth' with (d := 0%nat) by (rewrite seq_length; lia).
      rewrite seq_nth by lia. cbn [option_map]. rewrite Nat.add_0_l, Z2Nat.id by lia. reflexivity.
    + rewrite F by lia. unfold at_code. destruct (Z.leb_spec (m_lo top lf) 31), (Z.leb_spec (m_hi top lf) (31 + 1)); lia.
Qed.
Lemma read_luma_code : forall u top lf, 0 <= top <= 32 -> 0 <= lf <= 32 ->
  safe_or u (read_luma_mode top lf) (fun v => exists code, -2 <= code <= 31 /\ v = luma_mode top lf code).
Proof.
  intros u top lf Ht Hl. unfold read_luma_mode. eapply safe_bind; [apply pmode_safe|]. intros code Hc.
  apply safe_bind with (P := fun _ => True); [apply safe_check; auto|]. intros _ _. apply safe_ret. exists code. auto.
Qed.
Lemma read_chroma_code : forall u ctx luma, 0 <= ctx <= 1 -> 0 <= luma <= 32 ->
  safe_or u (read_intra_pmode_c ctx luma) (fun v => exists s, 0 <= s <= 4 /\ v = chroma_mode (nth (Z.to_nat luma) luma2chroma 0) s).
Proof.
  intros u ctx lm Hc Hl. unfold read_intra_pmode_c.
  apply safe_bind with (P := fun v => v = nth (Z.to_nat lm) luma2chroma 0).
  - apply safe_lookup; [change (Z.of_nat (length luma2chroma)) with 33; lia|]. intros v Hv. unfold get in Hv. destruct (lm <? 0); [discriminate Hv|]. symmetry. apply nth_error_nth. exact Hv.
  - intros v ->. eapply safe_bind; [apply bit_sym; unfold a_size, A_IPRED_C; lia|]. intros b _. apply safe_if; intros _.
    + apply safe_ret. exists 0. split; [lia|]. unfold chroma_mode.
      assert (A : forallb (fun x => (x <? 0) || (1 <=? x)) luma2chroma = true) by reflexivity.
      rewrite forallb_forall in A. specialize (A (nth (Z.to_nat lm) luma2chroma 0)).
      assert (B : In (nth (Z.to_nat lm) luma2chroma 0) luma2chroma) by (apply nth_In; change (length luma2chroma) with 33%nat; lia).
      specialize (A B). set (x := nth (Z.to_nat lm) luma2chroma 0) in *. clearbody x.
      destruct (Z.leb_spec 0 x), (Z.leb_spec x 0); cbn [andb]; try reflexivity.
      destruct (Z.ltb_spec x 0), (Z.leb_spec 1 x); try lia; discriminate A.
    + eapply safe_bind; [apply unary_bin_safe; [cbn; lia|cbn; lia|lia]|]. intros s Hs. cbv beta in Hs. apply safe_ret. exists (s + 1). split; [lia|reflexivity].
Qed.
Definition chroma_ok (luma : nat) : bool :=
  let red := existsb (Z.eqb (Z.of_nat luma)) [0; 24; 12; 2] in
  let l := map (fun s => real_chroma (Z.of_nat luma) (chroma_mode (nth luma luma2chroma 0) (Z.of_nat s))) (seq 0 (if red then 4 else 5)) in
  forallb (fun c => existsb (Z.eqb c) l) (chroma_choices (Z.of_nat luma)) && forallb (fun v => existsb (Z.eqb v) (chroma_choices (Z.of_nat luma))) l
  && Nat.eqb (length (nodup Z.eq_dec l)) (length l).
Lemma nodup_len (l : list Z) : length (nodup Z.eq_dec l) = length l -> NoDup l.
Proof.
  induction l as [|x l IH]; cbn [nodup length]; intros E; [constructor|].
  destruct (in_dec Z.eq_dec x l) as [i|n].
  - assert (G : forall k : list Z, (length (nodup Z.eq_dec k) <= length k)%nat).
    { induction k as [|y k IHk]; cbn [nodup length]; [lia|]. destruct (in_dec Z.eq_dec y k); cbn [length]; lia. }
    specialize (G l). lia.
  - cbn [length] in E. constructor; [exact n|]. apply IH. lia.
Qed.
Lemma chroma_codes : forall luma, 0 <= luma <= 32 ->
  let n := if existsb (Z.eqb luma) [0; 24; 12; 2] then 4%nat else 5%nat in
  let real s := real_chroma luma (chroma_mode (nth (Z.to_nat luma) luma2chroma 0) (Z.of_nat s)) in
  NoDup (map real (seq 0 n)) /\ (forall m, In m (map real (seq 0 n)) <-> In m (chroma_choices luma)).
Proof.
  assert (A : forallb chroma_ok (seq 0 33) = true) by (vm_compute; reflexivity).
  intros luma Hl. cbv zeta. rewrite forallb_forall in A. specialize (A (Z.to_nat luma)). rewrite in_seq in A. specialize (A ltac:(lia)).
  unfold chroma_ok in A. cbv zeta in A. rewrite Z2Nat.id in A by lia.
  set (l := map _ _) in A. change (map (fun s => real_chroma luma (chroma_mode (nth (Z.to_nat luma) luma2chroma 0) (Z.of_nat s))) (seq 0 (if existsb (Z.eqb luma) [0; 24; 12; 2] then 4%nat else 5%nat))) with l.
  clearbody l. apply andb_true_iff in A. destruct A as [A C]. apply andb_true_iff in A. destruct A as [A B].
  apply Nat.eqb_eq in C. split; [apply nodup_len; exact C|]. intros m. rewrite forallb_forall in A, B. split; intros H.
  - specialize (B m H). apply existsb_exists in B. destruct B as (x & Ix & E). apply Z.eqb_eq in E. subst x. exact Ix.
  - specialize (A m H). apply existsb_exists in A. destruct A as (x & Ix & E). apply Z.eqb_eq in E. subst x. exact Ix.
Qed.
