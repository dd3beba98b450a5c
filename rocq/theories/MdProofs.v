(** The words of MD5 and its 64 operations. *)
From Coq Require Import ZArith List Bool Lia.
From Verif Require Import CBase AecProofsA MdModel MdSpec.
Import ListNotations.
Open Scope Z_scope.

Definition is_word (x : Z) : Prop := 0 <= x < 4294967296.
Lemma u32_word x : is_word (to_u32 x).
Proof. apply Z.mod_pos_bound. lia. Qed.
Lemma word_bits x n : is_word x -> 32 <= n -> Z.testbit x n = false.
Proof.
  intros [A B] N. destruct (Z.eq_dec x 0) as [->|Nz]; [apply Z.bits_0|]. apply Z.bits_above_log2; [exact A|].
  apply Z.lt_le_trans with 32; [|exact N]. apply Z.log2_lt_pow2; [lia|exact B].
Qed.
Lemma bits_word x : 0 <= x -> (forall n, 32 <= n -> Z.testbit x n = false) -> is_word x.
Proof.
  intros A H. split; [exact A|]. destruct (Z_lt_dec x (2 ^ 32)) as [L|L]; [exact L|]. exfalso.
  assert (G : 0 < x) by lia. pose proof (Z.log2_spec x G) as [S1 S2].
  assert (32 <= Z.log2 x). { destruct (Z_le_dec 32 (Z.log2 x)); [assumption|]. assert (Z.succ (Z.log2 x) <= 32) as P by lia. pose proof (Z.pow_le_mono_r 2 _ _ ltac:(lia) P). lia. }
  specialize (H (Z.log2 x) H0). rewrite Z.bit_log2 in H by exact G. discriminate.
Qed.
Lemma not_complement x : is_word x -> m_not x = complement x.
Proof.
  intros W. unfold m_not, complement, word. change (4294967296 - 1) with (Z.ones 32). change 4294967295 with (Z.ones 32).
  rewrite Z.sub_nocarry_ldiff.
  - apply Z.bits_inj'. intros n Hn. rewrite Z.lxor_spec, Z.ldiff_spec. destruct (Z_lt_dec n 32).
    + rewrite Z.ones_spec_low by lia. destruct (Z.testbit x n); reflexivity.
    + rewrite Z.ones_spec_high by lia. rewrite (word_bits x n W) by lia. reflexivity.
  - apply Z.bits_inj'. intros n Hn. rewrite Z.ldiff_spec, Z.bits_0. destruct (Z_lt_dec n 32).
    + rewrite Z.ones_spec_low by lia. apply andb_false_r.
    + rewrite (word_bits x n W) by lia. reflexivity.
Qed.
Lemma not_word x : is_word x -> is_word (m_not x).
Proof. intros W. rewrite not_complement by exact W. unfold complement, word, is_word in *. lia. Qed.
Lemma land_word x y : is_word x -> is_word y -> is_word (Z.land x y).
Proof. intros X Y. apply bits_word; [apply Z.land_nonneg; left; apply X|]. intros n N. rewrite Z.land_spec, (word_bits x n X N). reflexivity. Qed.
Lemma lor_word x y : is_word x -> is_word y -> is_word (Z.lor x y).
Proof. intros X Y. apply bits_word; [apply Z.lor_nonneg; split; [apply X|apply Y]|]. intros n N. rewrite Z.lor_spec, (word_bits x n X N), (word_bits y n Y N). reflexivity. Qed.
Lemma lxor_word x y : is_word x -> is_word y -> is_word (Z.lxor x y).
Proof. intros X Y. apply bits_word; [apply Z.lxor_nonneg; split; intros _; [apply Y|apply X]|]. intros n N. rewrite Z.lxor_spec, (word_bits x n X N), (word_bits y n Y N). reflexivity. Qed.

Lemma mul_mod_pow x s t : 0 <= s -> 0 <= t -> x * 2 ^ s mod 2 ^ (t + s) = x mod 2 ^ t * 2 ^ s.
Proof. intros S T. rewrite Z.pow_add_r by lia. pose proof (Z.pow_pos_nonneg 2 s ltac:(lia) S). pose proof (Z.pow_pos_nonneg 2 t ltac:(lia) T). apply Z.mul_mod_distr_r; lia. Qed.
Lemma shl_u32 x s : 0 <= s <= 32 -> to_u32 (Z.shiftl x s) = x mod 2 ^ (32 - s) * 2 ^ s.
Proof. intros S. unfold to_u32. rewrite Z.shiftl_mul_pow2 by lia. rewrite <- mul_mod_pow by lia. replace (32 - s + s) with 32 by ring. reflexivity. Qed.
Lemma rl_rotate x s : is_word x -> 0 <= s <= 32 -> m_RL x s = rotate x s.
Proof.
  intros [A B] S. unfold m_RL, rotate, word. rewrite Z.shiftr_div_pow2 by lia.
  change 4294967296 with (2 ^ 32). replace (2 ^ 32) with (2 ^ (32 - s + s)) by (f_equal; ring). rewrite mul_mod_pow by lia.
  rewrite shl_u32 by exact S. apply lor_shift; [lia|]. split; [apply Z.div_pos; [exact A|apply Z.pow_pos_nonneg; lia]|].
  apply Z.div_lt_upper_bound; [apply Z.pow_pos_nonneg; lia|]. rewrite <- Z.pow_add_r by lia. replace (32 - s + s) with 32 by ring. exact B.
Qed.

(** The statement the algorithm has in place [i]. *)
Definition the_stm (i : Z) : mstm :=
  let f := if i / 16 =? 0 then SFF else if i / 16 =? 1 then SGG else if i / 16 =? 2 then SHH else SII in
  (if i mod 4 =? 0 then f Ra Rb Rc Rd else if i mod 4 =? 1 then f Rd Ra Rb Rc else if i mod 4 =? 2 then f Rc Rd Ra Rb else f Rb Rc Rd Ra)
    (choice i) (turn i) (sine_word i).
Lemma body_is : md5_body = map the_stm (map Z.of_nat (seq 0 64)).
Proof. vm_compute. reflexivity. Qed.

Definition view (i : Z) (m : mregs) : Z * Z * Z * Z :=
  if i mod 4 =? 0 then (va m, vb m, vc m, vd m) else if i mod 4 =? 1 then (vd m, va m, vb m, vc m)
  else if i mod 4 =? 2 then (vc m, vd m, va m, vb m) else (vb m, vc m, vd m, va m).
Definition words (m : mregs) : Prop := is_word (va m) /\ is_word (vb m) /\ is_word (vc m) /\ is_word (vd m).

Lemma add_words a f x k : to_u32 (to_u32 (to_u32 (a + f) + x) + k) = (a + f + x + k) mod word.
Proof. unfold to_u32, word. rewrite Zplus_mod_idemp_l, <- Z.add_assoc, Zplus_mod_idemp_l. f_equal. ring. Qed.
Lemma turn_range i : 0 <= turn i <= 32.
Proof.
  unfold turn. pose proof (Z.mod_pos_bound i 4 ltac:(lia)) as M.
  assert (i mod 4 = 0 \/ i mod 4 = 1 \/ i mod 4 = 2 \/ i mod 4 = 3) as [->|[->|[->| ->]]] by lia;
    destruct (i / 16 =? 0), (i / 16 =? 1), (i / 16 =? 2); vm_compute; split; discriminate.
Qed.
Lemma next_mod i r : i mod 4 = r -> (i + 1) mod 4 = (r + 1) mod 4.
Proof. intros <-. rewrite Zplus_mod_idemp_l. reflexivity. Qed.

Section Step.
  Variables (x X : Z -> Z).
  Hypothesis E : forall k, 0 <= k < 16 -> x k = X k.
  (** One assignment is one operation. *)
  Lemma assign_value f i a b c d : is_word b -> is_word c -> is_word d -> f b c d = mix i b c d ->
    to_u32 (b + m_RL (to_u32 (to_u32 (to_u32 (a + f b c d) + x (choice i)) + sine_word i)) (turn i)) =
    (b + rotate ((a + mix i b c d + X (choice i) + sine_word i) mod word) (turn i)) mod word.
  Proof.
    intros B C D F. rewrite add_words, rl_rotate; [|apply Z.mod_pos_bound; reflexivity|apply turn_range].
    rewrite F, E; [reflexivity|]. unfold choice. apply Z.mod_pos_bound. lia.
  Qed.
  Lemma step_ok i m : 0 <= i < 64 -> words m -> words (mstep x m (the_stm i)) /\ view (i + 1) (mstep x m (the_stm i)) = operation X (view i m) i.
  Proof.
    intros Hi (A & B & C & D).
    assert (F : forall b c d, is_word b -> is_word c -> is_word d ->
      (if i / 16 =? 0 then m_F else if i / 16 =? 1 then m_G else if i / 16 =? 2 then m_H else m_I) b c d = mix i b c d).
    { intros b c d Hb Hc Hd. unfold mix. destruct (i / 16 =? 0); [unfold m_F; rewrite not_complement by assumption; reflexivity|].
      destruct (i / 16 =? 1); [unfold m_G; rewrite not_complement by assumption; reflexivity|].
      destruct (i / 16 =? 2); [unfold m_H; apply Z.lxor_assoc|unfold m_I; rewrite not_complement by assumption; reflexivity]. }
    assert (G : forall a b c d, mstep x m ((if i / 16 =? 0 then SFF else if i / 16 =? 1 then SGG else if i / 16 =? 2 then SHH else SII) a b c d (choice i) (turn i) (sine_word i))
      = massign (if i / 16 =? 0 then m_F else if i / 16 =? 1 then m_G else if i / 16 =? 2 then m_H else m_I) x a b c d (choice i) (turn i) (sine_word i) m).
    { intros. destruct (i / 16 =? 0); [reflexivity|]. destruct (i / 16 =? 1); [reflexivity|]. destruct (i / 16 =? 2); reflexivity. }
    pose proof (Z.mod_pos_bound i 4 ltac:(lia)) as M. unfold the_stm, view.
    assert (i mod 4 = 0 \/ i mod 4 = 1 \/ i mod 4 = 2 \/ i mod 4 = 3) as [R|[R|[R|R]]] by lia;
      pose proof (next_mod i _ R) as R'; rewrite R, R'; cbn -[massign mset Z.div choice turn sine_word operation is_word mstep Z.add]; rewrite G; unfold massign;
      cbn -[Z.div choice turn sine_word is_word to_u32 Z.add mix m_RL rotate]; unfold words; cbn [va vb vc vd];
      (split; [split; [|split; [|split]]; first [assumption|apply u32_word]|]);
      rewrite assign_value by (try assumption; apply F; assumption); reflexivity.
  Qed.
  Lemma steps_ok : forall n s m, (s + n <= 64)%nat -> words m ->
    let m' := fold_left (mstep x) (map the_stm (map Z.of_nat (seq s n))) m in
    words m' /\ view (Z.of_nat (s + n)) m' = fold_left (operation X) (map Z.of_nat (seq s n)) (view (Z.of_nat s) m).
  Proof.
    induction n as [|n IH]; intros s m H W; cbn [seq map fold_left].
    - rewrite Nat.add_0_r. split; [exact W|reflexivity].
    - destruct (step_ok (Z.of_nat s) m ltac:(lia) W) as [W' V]. destruct (IH (S s) _ ltac:(lia) W') as [W2 V2].
      split; [exact W2|]. replace (s + S n)%nat with (S s + n)%nat by lia. rewrite V2. f_equal. rewrite <- V. f_equal. lia.
  Qed.
End Step.

Definition quad (m : mregs) : Z * Z * Z * Z := (va m, vb m, vc m, vd m).
Lemma block_ok x block m : words m -> (forall k, 0 <= k < 16 -> x k = number (firstn 4 (skipn (Z.to_nat (4 * k)) block))) ->
  words (md5_block x m) /\ quad (md5_block x m) = compress (quad m) block.
Proof.
  intros W E. unfold md5_block. split; [split; [|split; [|split]]; apply u32_word|].
  destruct (steps_ok x _ E 64 0 m ltac:(lia) W) as [_ V]. rewrite <- body_is in V.
  unfold compress, quad at 2. change (quad m) with (view (Z.of_nat 0) m). cbv zeta. rewrite <- V.
  generalize (fold_left (mstep x) md5_body m). intros r. unfold view, quad. change (Z.of_nat (0 + 64)) with 64. change (64 mod 4) with 0. cbn [Z.eqb va vb vc vd]. reflexivity.
Qed.
