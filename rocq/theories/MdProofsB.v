(** Blocks, padding and printing. *)
From Coq Require Import ZArith List Bool Lia.
From Verif Require Import CBase AecProofsA MdModel MdSpec MdProofs.
Import ListNotations.
Open Scope Z_scope.
Strategy 1000 [md5_block compress refill].

Lemma nth_skip {A} (d : A) : forall n i l, nth (n + i) l d = nth i (skipn n l) d.
Proof. induction n as [|n IH]; intros i l; [reflexivity|]. destruct l as [|a l]; cbn; [destruct i; reflexivity|apply IH]. Qed.
Lemma skip_repeat {A} (a : A) : forall n k, skipn k (repeat a n) = repeat a (n - k).
Proof. induction n as [|n IH]; intros k; destruct k as [|k]; cbn; try reflexivity. apply IH. Qed.
Lemma first_repeat {A} (a : A) : forall n k, (k <= n)%nat -> firstn k (repeat a n) = repeat a k.
Proof. induction n as [|n IH]; intros k H; destruct k as [|k]; cbn; try reflexivity; [lia|]. f_equal. apply IH. lia. Qed.
Lemma word_at_ok block k : length block = 64%nat -> 0 <= k < 16 -> word_at block k = number (firstn 4 (skipn (Z.to_nat (4 * k)) block)).
Proof.
  intros L K. unfold word_at. rewrite (Z2Nat.inj_add (4 * k) 0), (Z2Nat.inj_add (4 * k) 1), (Z2Nat.inj_add (4 * k) 2), (Z2Nat.inj_add (4 * k) 3) by lia.
  rewrite !nth_skip. change (Z.to_nat 0) with 0%nat. change (Z.to_nat 1) with 1%nat. change (Z.to_nat 2) with 2%nat. change (Z.to_nat 3) with 3%nat.
  assert (S : (length (skipn (Z.to_nat (4 * k)) block) >= 4)%nat) by (rewrite skipn_length; lia).
  destruct (skipn (Z.to_nat (4 * k)) block) as [|a [|b [|c [|d r]]]]; cbn [length] in S; try lia. cbn [nth firstn number fold_right]. ring.
Qed.
Lemma md5_block_ok block m : length block = 64%nat -> words m -> words (md5_block (word_at block) m) /\ quad (md5_block (word_at block) m) = compress (quad m) block.
Proof. intros L W. apply block_ok; [exact W|]. intros k K. apply word_at_ok; assumption. Qed.

Lemma refill_eq rest : refill rest = firstn 64 rest ++ repeat 0 (64 - length rest).
Proof.
  unfold refill, put. rewrite firstn_O. cbn [app]. rewrite Nat.add_0_l, skip_repeat, firstn_length. f_equal. f_equal. lia.
Qed.
Lemma skip_skip {A} : forall a b (l : list A), skipn b (skipn a l) = skipn (a + b) l.
Proof. induction a as [|a IH]; intros b l; [reflexivity|]. destruct l as [|x l]; cbn [skipn Nat.add]; [apply skipn_nil|apply IH]. Qed.
Lemma loop_S n m x rest : md5_loop (S n) m x rest = md5_loop n (md5_block (word_at x) m) (refill rest) (skipn 64 rest).
Proof. reflexivity. Qed.
Lemma blocks_S n l v : fold_left compress (blocks (S n) l) v = fold_left compress (blocks n (skipn 64 l)) (compress v (firstn 64 l)).
Proof. reflexivity. Qed.
Lemma loop_ok : forall n m file, (64 * n <= length file)%nat -> words m ->
  exists m', md5_loop n m (refill file) (skipn 64 file) = (m', refill (skipn (64 * n) file)) /\ words m' /\ quad m' = fold_left compress (blocks n file) (quad m).
Proof.
  induction n as [|n IH]; intros m file L W.
  - exists m. split; [rewrite Nat.mul_0_r; reflexivity|]. split; [exact W|reflexivity].
  - assert (R : refill file = firstn 64 file). { rewrite refill_eq. replace (64 - length file)%nat with 0%nat by lia. apply app_nil_r. }
    destruct (md5_block_ok (firstn 64 file) m ltac:(rewrite firstn_length; lia) W) as [W1 Q1].
    destruct (IH _ (skipn 64 file) ltac:(rewrite skipn_length; lia) W1) as (m' & E & W' & Q').
    exists m'. rewrite loop_S, R, E, blocks_S, Q', Q1. split; [|split; [exact W'|reflexivity]].
    rewrite skip_skip. replace (64 + 64 * n)%nat with (64 * S n)%nat by lia. reflexivity.
Qed.
Lemma blocks_app : forall n k l r, (64 * n <= length l)%nat -> blocks (n + k) (l ++ r) = blocks n l ++ blocks k (skipn (64 * n) l ++ r).
Proof.
  induction n as [|n IH]; intros k l r L; [reflexivity|]. change (blocks (S n + k) (l ++ r)) with (firstn 64 (l ++ r) :: blocks (n + k) (skipn 64 (l ++ r))).
  change (blocks (S n) l) with (firstn 64 l :: blocks n (skipn 64 l)). rewrite <- app_comm_cons.
  rewrite firstn_app, skipn_app. replace (64 - length l)%nat with 0%nat by lia. rewrite firstn_O, skipn_O, app_nil_r. f_equal.
  rewrite IH by (rewrite skipn_length; lia). f_equal. f_equal. f_equal.
  rewrite skip_skip. f_equal. lia.
Qed.
Lemma little_app : forall n k a b, 0 <= a < 256 ^ Z.of_nat n -> little (n + k) (a + 256 ^ Z.of_nat n * b) = little n a ++ little k b.
Proof.
  induction n as [|n IH]; intros k a b A.
  - change (256 ^ Z.of_nat 0) with 1 in *. replace (a + 1 * b) with b by lia. reflexivity.
  - rewrite Nat2Z.inj_succ, Z.pow_succ_r in * by lia. cbn [Nat.add little app].
    replace (a + 256 * 256 ^ Z.of_nat n * b) with (a + (256 ^ Z.of_nat n * b) * 256) by ring. rewrite Z.mod_add, Z.div_add by lia. f_equal.
    apply IH. split; [apply Z.div_pos; lia|apply Z.div_lt_upper_bound; lia].
Qed.
Lemma little4 v : little 4 v = word_bytes v.
Proof. unfold word_bytes. cbn [little]. rewrite !Z.div_div by lia. reflexivity. Qed.
Lemma length8 len : 0 <= len -> len / 64 <= 2147483647 -> word_bytes (to_u32 (len mod 536870912 * 8)) ++ word_bytes (to_u32 (len / 536870912)) = little 8 (8 * len).
Proof.
  intros P H. assert (B : len < 2147483648 * 64) by (pose proof (Z.div_mod len 64 ltac:(lia)); pose proof (Z.mod_pos_bound len 64 ltac:(lia)); lia).
  pose proof (Z.div_mod len 536870912 ltac:(lia)) as D. pose proof (Z.mod_pos_bound len 536870912 ltac:(lia)) as M.
  assert (0 <= len / 536870912 < 4294967296) as Q by (split; [apply Z.div_pos; lia|apply Z.div_lt_upper_bound; lia]).
  unfold to_u32. rewrite (Z.mod_small (len mod _ * 8)), (Z.mod_small (len / _)) by lia. rewrite <- !little4.
  rewrite <- (little_app 4 4); [|change (256 ^ Z.of_nat 4) with 4294967296; lia]. change (256 ^ Z.of_nat 4) with 4294967296. f_equal. lia.
Qed.

Lemma put_app (a b c l : list Z) i : length a = i -> length b = length l -> put (a ++ b ++ c) i l = a ++ l ++ c.
Proof.
  intros A B. unfold put. rewrite firstn_app, A, Nat.sub_diag, firstn_O, app_nil_r. rewrite <- A at 1. rewrite firstn_all. f_equal. f_equal.
  rewrite <- A, app_assoc, skipn_app, app_length, B. rewrite skipn_all2 by (rewrite app_length; lia).
  replace (length a + length l - (length a + length l))%nat with 0%nat by lia. reflexivity.
Qed.
Lemma put_mark tail : (length tail < 64)%nat -> put (tail ++ repeat 0 (64 - length tail)) (length tail) [128] = tail ++ [128] ++ repeat 0 (63 - length tail).
Proof.
  intros T. replace (64 - length tail)%nat with (1 + (63 - length tail))%nat by lia. rewrite repeat_app. apply put_app; reflexivity.
Qed.

Definition started : mregs := Mregs 1732584193 4023233417 2562383102 271733878.
(** The four words when the file has been taken in. *)
Lemma file_words file : Z.of_nat (length file) / 64 <= 2147483647 -> exists m, words m /\ file_md5 file = Done [m_PP (va m); m_PP (vb m); m_PP (vc m); m_PP (vd m)] /\
  quad m = fold_left compress (blocks (length (padded file) / 64) (padded file)) (quad started).
Proof.
  intros H. unfold file_md5. cbv zeta. set (len := Z.of_nat (length file)) in *.
  destruct (Z.ltb_spec 2147483647 (len / 64)) as [C|_]; [lia|].
  pose proof (Z.div_mod len 64 ltac:(lia)) as D. pose proof (Z.mod_pos_bound len 64 ltac:(lia)) as M.
  assert (P : 0 <= len / 64) by (apply Z.div_pos; lia).
  set (n := Z.to_nat (len / 64)). assert (L : (64 * n <= length file)%nat) by lia.
  assert (W0 : words started) by (unfold words, is_word; cbn; lia).
  destruct (loop_ok n started file L W0) as (m & E & W & Q). unfold started in E. rewrite E. clear E.
  set (tail := skipn (64 * n) file) in *. assert (T : length tail = Z.to_nat (len mod 64)) by (unfold tail; rewrite skipn_length; lia).
  assert (T64 : (length tail < 64)%nat) by lia.
  rewrite refill_eq, firstn_all2, <- T, put_mark by lia. rewrite length8 by lia.
  set (L8 := little 8 (8 * len)). assert (Len8 : length L8 = 8%nat) by reflexivity.
  unfold padded. fold len. fold L8.
  destruct (Z.ltb_spec 55 (len mod 64)) as [C|C].
  - assert (Z0 : (55 - len) mod 64 = 119 - len mod 64).
    { symmetry. apply Z.mod_unique with (- (len / 64) - 1); [left; lia|lia]. }
    rewrite Z0. replace (Z.to_nat (119 - len mod 64)) with (63 - length tail + 56)%nat by lia.
    destruct (md5_block_ok (tail ++ [128] ++ repeat 0 (63 - length tail)) m ltac:(rewrite !app_length, repeat_length; cbn [length]; lia) W) as [W1 Q1].
    assert (X : put (repeat 0 64) 56 L8 = repeat 0 56 ++ L8).
    { change (repeat 0 64) with (repeat 0 56 ++ repeat 0 8 ++ []). rewrite put_app; [rewrite app_nil_r; reflexivity|reflexivity|reflexivity]. }
    rewrite X. destruct (md5_block_ok (repeat 0 56 ++ L8) _ ltac:(rewrite !app_length, repeat_length; lia) W1) as [W2 Q2].
    eexists. split; [exact W2|]. split; [reflexivity|]. rewrite Q2, Q1, Q.
    assert (LL : (length (file ++ [128%Z] ++ repeat 0%Z (63 - length tail + 56) ++ L8) / 64 = n + 2)%nat).
    { rewrite !app_length, repeat_length. cbn [length]. replace (length file + (1 + (63 - length tail + 56 + length L8)))%nat with ((n + 2) * 64)%nat by lia. apply Nat.div_mul. lia. }
    rewrite LL, blocks_app by exact L. fold tail. rewrite fold_left_app. cbn [blocks fold_left].
    rewrite repeat_app. rewrite <- !app_assoc. f_equal; [f_equal|].
    + symmetry. rewrite !app_assoc, <- (app_assoc _ (repeat 0 56) L8), firstn_app.
      rewrite firstn_all2 by (rewrite !app_length, repeat_length; cbn [length]; lia).
      rewrite !app_length, repeat_length. cbn [length]. replace (64 - (length tail + 1 + (63 - length tail)))%nat with 0%nat by lia. rewrite firstn_O, app_nil_r. reflexivity.
    + symmetry. rewrite !app_assoc, <- (app_assoc _ (repeat 0 56) L8), skipn_app.
      rewrite skipn_all2 by (rewrite !app_length, repeat_length; cbn [length]; lia).
      rewrite !app_length, repeat_length. cbn [length]. replace (64 - (length tail + 1 + (63 - length tail)))%nat with 0%nat by lia. rewrite skipn_O. cbn [app]. apply firstn_all2. rewrite app_length, repeat_length. lia.
  - assert (Z0 : (55 - len) mod 64 = 55 - len mod 64).
    { symmetry. apply Z.mod_unique with (- (len / 64)); [left; lia|lia]. }
    rewrite Z0. replace (Z.to_nat (55 - len mod 64)) with (55 - length tail)%nat by lia.
    assert (X : put (tail ++ [128] ++ repeat 0 (63 - length tail)) 56 L8 = tail ++ [128] ++ repeat 0 (55 - length tail) ++ L8).
    { replace (63 - length tail)%nat with (55 - length tail + 8)%nat by lia. rewrite repeat_app.
      replace (tail ++ [128] ++ repeat 0 (55 - length tail) ++ repeat 0 8) with ((tail ++ [128] ++ repeat 0 (55 - length tail)) ++ repeat 0 8 ++ []) by (rewrite app_nil_r, <- !app_assoc; reflexivity).
      rewrite put_app; [rewrite app_nil_r, <- !app_assoc; reflexivity|rewrite !app_length, repeat_length; cbn [length]; lia|reflexivity]. }
    rewrite X. destruct (md5_block_ok (tail ++ [128] ++ repeat 0 (55 - length tail) ++ L8) m ltac:(rewrite !app_length, repeat_length; cbn [length]; lia) W) as [W1 Q1].
    eexists. split; [exact W1|]. split; [reflexivity|]. rewrite Q1, Q.
    assert (LL : (length (file ++ [128%Z] ++ repeat 0%Z (55 - length tail) ++ L8) / 64 = n + 1)%nat).
    { rewrite !app_length, repeat_length. cbn [length]. replace (length file + (1 + (55 - length tail + length L8)))%nat with ((n + 1) * 64)%nat by lia. apply Nat.div_mul. lia. }
    rewrite LL, blocks_app by exact L. fold tail. rewrite fold_left_app. cbn [blocks fold_left]. f_equal. symmetry. apply firstn_all2.
    rewrite !app_length, repeat_length. cbn [length]. lia.
Qed.

(** Printing. *)
Lemma land_mask y k : 0 <= k -> Z.land y (Z.shiftl 255 k) = y / 2 ^ k mod 256 * 2 ^ k.
Proof.
  intros K. change 256 with (2 ^ 8). rewrite <- Z.land_ones, <- Z.shiftr_div_pow2, <- Z.shiftl_mul_pow2 by lia. change 255 with (Z.ones 8).
  apply Z.bits_inj'. intros n N. rewrite Z.land_spec. destruct (Z_lt_dec n k).
  - rewrite !Z.shiftl_spec_low by lia. apply andb_false_r.
  - rewrite !Z.shiftl_spec, Z.land_spec, Z.shiftr_spec by lia. f_equal. f_equal. lia.
Qed.
Lemma pp_bytes b0 b1 b2 b3 : 0 <= b0 <= 255 -> 0 <= b1 <= 255 -> 0 <= b2 <= 255 -> 0 <= b3 <= 255 ->
  m_PP (b0 + 256 * (b1 + 256 * (b2 + 256 * b3))) = b3 + 256 * (b2 + 256 * (b1 + 256 * b0)).
Proof.
  intros H0 H1 H2 H3. unfold m_PP. set (v := b0 + 256 * (b1 + 256 * (b2 + 256 * b3))).
  rewrite !shl_u32 by lia. change 16711680 with (Z.shiftl 255 16). change 65280 with (Z.shiftl 255 8). rewrite !land_mask by lia.
  rewrite !Z.shiftr_div_pow2 by lia. change (2 ^ (32 - 24)) with 256. change (2 ^ (32 - 8)) with 16777216. change (2 ^ 8) with 256. change (2 ^ 16) with 65536. change (2 ^ 24) with 16777216.
  assert (E0 : v mod 256 = b0) by (symmetry; apply Z.mod_unique with (b1 + 256 * (b2 + 256 * b3)); unfold v; lia).
  assert (E1 : v mod 16777216 * 256 / 65536 mod 256 = b1).
  { assert (v mod 16777216 = b0 + 256 * (b1 + 256 * b2)) as -> by (symmetry; apply Z.mod_unique with b3; unfold v; lia).
    assert ((b0 + 256 * (b1 + 256 * b2)) * 256 / 65536 = b1 + 256 * b2) as -> by (symmetry; apply Z.div_unique with (256 * b0); lia).
    symmetry; apply Z.mod_unique with b2; lia. }
  assert (E2 : v / 256 / 256 mod 256 = b2).
  { assert (v / 256 = b1 + 256 * (b2 + 256 * b3)) as -> by (symmetry; apply Z.div_unique with b0; unfold v; lia).
    assert ((b1 + 256 * (b2 + 256 * b3)) / 256 = b2 + 256 * b3) as -> by (symmetry; apply Z.div_unique with b1; lia).
    symmetry; apply Z.mod_unique with b3; lia. }
  assert (E3 : v / 16777216 = b3) by (symmetry; apply Z.div_unique with (b0 + 256 * (b1 + 256 * b2)); unfold v; lia).
  rewrite E0, E1, E2, E3. clearbody v.
  change 16777216 with (2 ^ 24) at 1. rewrite lor_shift by lia.
  replace (b0 * 2 ^ 24 + b1 * 65536) with ((b0 * 256 + b1) * 2 ^ 16) by (change (2 ^ 24) with 16777216; change (2 ^ 16) with 65536; ring). rewrite lor_shift by lia.
  replace ((b0 * 256 + b1) * 2 ^ 16 + b2 * 256) with (((b0 * 256 + b1) * 256 + b2) * 2 ^ 8) by (change (2 ^ 8) with 256; change (2 ^ 16) with 65536; ring). rewrite lor_shift by lia.
  change (2 ^ 8) with 256. ring.
Qed.
Lemma digit_ok n : 0 <= n < 16 -> hex_digit n = nth (Z.to_nat n) [48; 49; 50; 51; 52; 53; 54; 55; 56; 57; 65; 66; 67; 68; 69; 70] 0.
Proof.
  intros H. assert (Ha : In n (map Z.of_nat (seq 0 16))) by (apply in_map_iff; exists (Z.to_nat n); split; [lia|apply in_seq; lia]).
  cbn [seq map] in Ha. repeat (destruct Ha as [<-|Ha]; [reflexivity|]). destruct Ha.
Qed.
Lemma nibble v k u n w : v = u + 16 ^ k * (n + 16 * w) -> 0 <= k -> 0 <= u < 16 ^ k -> 0 <= n < 16 -> v / 16 ^ k mod 16 = n.
Proof.
  intros -> K U N. assert ((u + 16 ^ k * (n + 16 * w)) / 16 ^ k = n + 16 * w) as -> by (symmetry; apply Z.div_unique with u; lia).
  symmetry. apply Z.mod_unique with w; lia.
Qed.
Lemma print_ok v : is_word v -> print_08X (m_PP v) = hexadecimal (little 4 v).
Proof.
  intros [A B]. cbn [little].
  set (b0 := v mod 256). set (b1 := v / 256 mod 256). set (b2 := v / 256 / 256 mod 256). set (b3 := v / 256 / 256 / 256 mod 256).
  assert (V : v = b0 + 256 * (b1 + 256 * (b2 + 256 * b3))).
  { unfold b0, b1, b2, b3. pose proof (Z.div_mod v 256 ltac:(lia)). pose proof (Z.div_mod (v / 256) 256 ltac:(lia)). pose proof (Z.div_mod (v / 256 / 256) 256 ltac:(lia)).
    rewrite (Z.mod_small (v / 256 / 256 / 256)); [lia|]. rewrite !Z.div_div by lia. split; [apply Z.div_pos; lia|apply Z.div_lt_upper_bound; lia]. }
  pose proof (Z.mod_pos_bound v 256 ltac:(lia)) as H0. pose proof (Z.mod_pos_bound (v / 256) 256 ltac:(lia)) as H1.
  pose proof (Z.mod_pos_bound (v / 256 / 256) 256 ltac:(lia)) as H2. pose proof (Z.mod_pos_bound (v / 256 / 256 / 256) 256 ltac:(lia)) as H3.
  fold b0 in H0. fold b1 in H1. fold b2 in H2. fold b3 in H3. clearbody b0 b1 b2 b3. subst v. rewrite pp_bytes by lia. clear A B.
  assert (N : forall b, 0 <= b < 256 -> 0 <= b / 16 < 16 /\ 0 <= b mod 16 < 16 /\ b = 16 * (b / 16) + b mod 16).
  { intros b Hb. split; [split; [apply Z.div_pos; lia|apply Z.div_lt_upper_bound; lia]|]. split; [apply Z.mod_pos_bound; lia|apply Z.div_mod; lia]. }
  destruct (N b0 H0) as (P0 & Q0 & E0). destruct (N b1 H1) as (P1 & Q1 & E1). destruct (N b2 H2) as (P2 & Q2 & E2). destruct (N b3 H3) as (P3 & Q3 & E3).
  unfold print_08X, hexadecimal. cbn [flat_map map app].
  set (p0 := b0 / 16) in *. set (q0 := b0 mod 16) in *. set (p1 := b1 / 16) in *. set (q1 := b1 mod 16) in *.
  set (p2 := b2 / 16) in *. set (q2 := b2 mod 16) in *. set (p3 := b3 / 16) in *. set (q3 := b3 mod 16) in *. clearbody p0 q0 p1 q1 p2 q2 p3 q3. clear N H0 H1 H2 H3. subst b0 b1 b2 b3.
  set (S := 16 * p3 + q3 + _).
  rewrite (nibble S 7 (q3 + 16 * (p3 + 16 * (q2 + 16 * (p2 + 16 * (q1 + 16 * (p1 + 16 * q0)))))) p0 0) by (unfold S; change (16 ^ 7) with 268435456; lia).
  rewrite (nibble S 6 (q3 + 16 * (p3 + 16 * (q2 + 16 * (p2 + 16 * (q1 + 16 * p1))))) q0 p0) by (unfold S; change (16 ^ 6) with 16777216; lia).
  rewrite (nibble S 5 (q3 + 16 * (p3 + 16 * (q2 + 16 * (p2 + 16 * q1)))) p1 (q0 + 16 * p0)) by (unfold S; change (16 ^ 5) with 1048576; lia).
  rewrite (nibble S 4 (q3 + 16 * (p3 + 16 * (q2 + 16 * p2))) q1 (p1 + 16 * (q0 + 16 * p0))) by (unfold S; change (16 ^ 4) with 65536; lia).
  rewrite (nibble S 3 (q3 + 16 * (p3 + 16 * q2)) p2 (q1 + 16 * (p1 + 16 * (q0 + 16 * p0)))) by (unfold S; change (16 ^ 3) with 4096; lia).
  rewrite (nibble S 2 (q3 + 16 * p3) q2 (p2 + 16 * (q1 + 16 * (p1 + 16 * (q0 + 16 * p0))))) by (unfold S; change (16 ^ 2) with 256; lia).
  rewrite (nibble S 1 q3 p3 (q2 + 16 * (p2 + 16 * (q1 + 16 * (p1 + 16 * (q0 + 16 * p0)))))) by (unfold S; change (16 ^ 1) with 16; lia).
  rewrite (nibble S 0 0 q3 (p3 + 16 * (q2 + 16 * (p2 + 16 * (q1 + 16 * (p1 + 16 * (q0 + 16 * p0))))))) by (unfold S; change (16 ^ 0) with 1; lia).
  rewrite !digit_ok by assumption. reflexivity.
Qed.
Lemma text_ok file : Z.of_nat (length file) / 64 <= 2147483647 -> md5_text file = Done (hexadecimal (digest file)).
Proof.
  intros H. destruct (file_words file H) as (m & (Wa & Wb & Wc & Wd) & E & Q). unfold md5_text. rewrite E. cbn [bindo flat_map]. f_equal.
  unfold digest. cbv zeta. change (0x67452301, 0xefcdab89, 0x98badcfe, 0x10325476) with (quad started). rewrite <- Q. unfold quad.
  rewrite !print_ok by assumption. unfold hexadecimal. rewrite !flat_map_app, app_nil_r. reflexivity.
Qed.
Lemma hex_char n : 0 <= n < 16 -> hex_digit n < 97.
Proof. intros H. unfold hex_digit. destruct (Z.ltb_spec n 10); lia. Qed.
Lemma small_letters file text ref : md5_text file = Done text -> (exists c, In c ref /\ 97 <= c <= 102) -> text <> ref.
Proof.
  intros H (c & Hc & R) <-. unfold md5_text in H. destruct (file_md5 file) as [v| | |]; cbn [bindo] in H; try discriminate. injection H as <-.
  apply in_flat_map in Hc. destruct Hc as (x & _ & Hc). unfold print_08X in Hc. apply in_map_iff in Hc. destruct Hc as (i & <- & _).
  pose proof (hex_char (x / 16 ^ i mod 16) (Z.mod_pos_bound _ 16 ltac:(lia))). lia.
Qed.
Lemma long_undef file : 2 ^ 37 <= Z.of_nat (length file) -> md5_text file = Undef.
Proof.
  intros H. unfold md5_text, file_md5. cbv zeta. assert (2147483648 <= Z.of_nat (length file) / 64) by (apply Z.div_le_lower_bound; lia).
  destruct (Z.ltb_spec 2147483647 (Z.of_nat (length file) / 64)); [reflexivity|lia].
Qed.
