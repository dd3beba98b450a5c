(** The memory functions copy and clear what they should. *)
From Coq Require Import ZArith List Bool Lia.
From Verif Require Import CBase MemModel MemProofs SaoModel SaoProofs FrmModel VxModelBase MmModel MmSpec.
Import ListNotations.
Open Scope Z_scope.

Ltac Zb := repeat match goal with
  | |- context [(?a <=? ?b) && (?c <? ?e)] =>
      let E := fresh "E" in destruct ((a <=? b) && (c <? e)) eqn:E;
      [apply andb_true_iff in E; destruct E as [?%Z.leb_le ?%Z.ltb_lt] | apply andb_false_iff in E; rewrite Z.leb_gt, Z.ltb_ge in E]
  end.

(** A copy of [c] bytes in one go. *)
Definition blk (c d s : Z) (m : mem) : mem := fun a => if (d <=? a) && (a <? d + c) then m (s + (a - d)) else m a.
(** The bytes [lo, hi) of the area are done. *)
Definition part (d s lo hi : Z) (m0 m : mem) : Prop :=
  forall a, m a = if (d + lo <=? a) && (a <? d + hi) then m0 (s + (a - d)) else m0 a.

Lemma part_copied d s n m0 m : part d s 0 n m0 m -> copied d s n m0 m.
Proof. intros H a. rewrite H. Zb; split; intros; try reflexivity; lia. Qed.
Lemma part_nil d s k m : part d s k k m m.
Proof. intros a. Zb; try reflexivity; lia. Qed.
Lemma part_up d s n lo hi c m0 m f : apart d s n -> 0 <= lo <= hi -> 0 <= c -> hi + c <= n ->
  (forall a, f a = blk c (d + hi) (s + hi) m a) -> part d s lo hi m0 m -> part d s lo (hi + c) m0 f.
Proof.
  intros A L C N F H a. rewrite F. unfold blk. destruct A as [A|A].
  all: Zb; rewrite H; Zb; try lia; try (f_equal; lia); reflexivity.
Qed.
Lemma part_down d s n lo hi c m0 m f : apart d s n -> c <= lo -> lo <= hi -> hi <= n -> 0 <= c ->
  (forall a, f a = blk c (d + (lo - c)) (s + (lo - c)) m a) -> part d s lo hi m0 m -> part d s (lo - c) hi m0 f.
Proof.
  intros A C L N C0 F H a. rewrite F. unfold blk. destruct A as [A|A].
  all: Zb; rewrite H; Zb; try lia; try (f_equal; lia); reflexivity.
Qed.

Lemma copy2_blk d s r m a : copy2 d s r m a = blk 16 (d + (r - 16)) (s + (r - 16)) m a.
Proof. unfold copy2, blk, store8, store_n, load. cbv zeta. Zb; try lia; try (f_equal; lia); reflexivity. Qed.
Lemma copy4_blk d s r m a : copy4 d s r m a = blk 32 (d + (r - 32)) (s + (r - 32)) m a.
Proof. unfold copy4, blk, store8, store_n, load. cbv zeta. Zb; try lia; try (f_equal; lia); reflexivity. Qed.
Lemma copy64_blk d s m a : copy64 d s m a = blk 64 d s m a.
Proof. unfold copy64, blk, store8, store_n, load. cbv zeta. Zb; try lia; try (f_equal; lia); reflexivity. Qed.
Lemma store8_blk d s m a : store8 m d (load m s) a = blk 8 d s m a.
Proof. reflexivity. Qed.
Lemma upd_blk d s m a : upd m d (m s) a = blk 1 d s m a.
Proof. unfold upd, blk. destruct (Z.eqb_spec a d) as [->|N]; Zb; try lia; try (f_equal; lia); reflexivity. Qed.

Lemma copy4_loop_ok d s n : apart d s n -> n < 2147483648 -> forall k fuel m0 m, (k < fuel)%nat -> 32 * (Z.of_nat k + 1) <= n ->
  part d s (32 * (Z.of_nat k + 1)) n m0 m -> exists r, copy4_loop fuel d s (32 * (Z.of_nat k + 1)) m = Done r /\ part d s 0 n m0 r.
Proof.
  intros A N. induction k as [|k IH]; intros fuel m0 m F L P; (destruct fuel as [|fuel]; [lia|]); cbn [copy4_loop].
  - change (32 <? to_i32 (32 * (Z.of_nat 0 + 1))) with false. cbv iota. eexists. split; [reflexivity|].
    enough (X : part d s (32 * (Z.of_nat 0 + 1) - 32) n m0 (copy4 d s (32 * (Z.of_nat 0 + 1)) m)) by exact X.
    eapply part_down; [exact A|lia|lia|lia|lia|apply copy4_blk|exact P].
  - replace (to_i32 (32 * (Z.of_nat (S k) + 1))) with (32 * (Z.of_nat (S k) + 1)) by (unfold to_i32; rewrite Z.mod_small; lia).
    rewrite (proj2 (Z.ltb_lt 32 (32 * (Z.of_nat (S k) + 1)))) by lia.
    replace (to_u32 (32 * (Z.of_nat (S k) + 1) - 32)) with (32 * (Z.of_nat k + 1)) by (unfold to_u32; rewrite Z.mod_small; lia).
    apply IH; [lia|lia|]. replace (32 * (Z.of_nat k + 1)) with (32 * (Z.of_nat (S k) + 1) - 32) by lia.
    eapply part_down; [exact A|lia|lia|lia|lia|apply copy4_blk|exact P].
Qed.

Lemma bit4 n : 0 <= n -> n mod 16 = 0 -> (Z.testbit n 4 = true /\ n mod 32 = 16) \/ (Z.testbit n 4 = false /\ n mod 32 = 0).
Proof.
  intros N M. assert (E : Z.b2z (Z.testbit n 4) = (n / 2 ^ 4) mod 2) by (apply Z.testbit_spec'; lia).
  change (2 ^ 4) with 16 in E. destruct (Z.testbit n 4); cbn in E; [left|right]; (split; [reflexivity|]);
  pose proof (Z.div_mod n 16 ltac:(lia)); pose proof (Z.div_mod (n / 16) 2 ltac:(lia));
  pose proof (Z.div_mod n 32 ltac:(lia)); pose proof (Z.mod_pos_bound n 32 ltac:(lia)); lia.
Qed.

Lemma memcpy_aligned_ok d s n m : 0 <= n < 2147483648 -> n mod 16 = 0 -> apart d s n ->
  exists r, memcpy_aligned_mmx d s n m = Done r /\ copied d s n m r.
Proof.
  intros N M A.
  enough (exists r, memcpy_aligned_mmx d s n m = Done r /\ part d s 0 n m r) as (r & E & P) by (exists r; split; [exact E|apply part_copied, P]).
  unfold memcpy_aligned_mmx.
  assert (G : forall m1 r2, part d s r2 n m m1 -> 0 <= r2 <= n -> r2 mod 32 = 0 ->
    exists r, (if to_u32 r2 =? 0 then Done m1 else copy4_loop (S (Z.to_nat n)) d s r2 m1) = Done r /\ part d s 0 n m r).
  { intros m1 r2 P L D. replace (to_u32 r2) with r2 by (unfold to_u32; rewrite Z.mod_small; lia).
    destruct (Z.eqb_spec r2 0) as [->|Z0]; [eexists; split; [reflexivity|exact P]|].
    pose proof (Z.div_mod r2 32 ltac:(lia)) as Q. rewrite D in Q.
    assert (R : r2 = 32 * (Z.of_nat (Z.to_nat (r2 / 32 - 1)) + 1)) by lia.
    rewrite R. rewrite R in P. apply copy4_loop_ok; [exact A|lia|lia|lia|exact P]. }
  destruct (bit4 n ltac:(lia) M) as [[-> D]|[-> D]].
  - replace (to_u32 (n - 16)) with (n - 16) by (unfold to_u32; pose proof (Z.mod_le n 32 ltac:(lia) ltac:(lia)); rewrite Z.mod_small; lia).
    pose proof (Z.mod_le n 32 ltac:(lia) ltac:(lia)). apply G; [|lia|].
    + eapply part_down; [exact A|lia|lia|lia|lia|apply copy2_blk|apply part_nil].
    + pose proof (Z.div_mod n 32 ltac:(lia)). replace (n - 16) with (n / 32 * 32) by lia. apply Z.mod_mul. lia.
  - apply G; [apply part_nil|lia|exact D].
Qed.

Lemma times_part d s n m0 c cnt f lo m : apart d s n -> 0 <= c -> 0 <= cnt -> 0 <= lo -> lo + c * cnt <= n ->
  (forall i m a, f i m a = blk c (d + (lo + c * i)) (s + (lo + c * i)) m a) ->
  part d s 0 lo m0 m -> part d s 0 (lo + c * cnt) m0 (times cnt f m).
Proof.
  intros A C K L N F P. unfold times.
  pose proof (loop_inv mem (fun i m => part d s 0 (lo + c * i) m0 m) (Z.to_nat cnt) f m) as I.
  cbv beta in I. rewrite Z2Nat.id in I by exact K. apply I.
  - replace (lo + c * 0) with lo by lia. exact P.
  - intros i m1 B Q. replace (lo + c * (i + 1)) with (lo + c * i + c) by lia.
    assert (0 <= c * i) by (apply Z.mul_nonneg_nonneg; lia).
    assert (c * (i + 1) <= c * cnt) by (apply Z.mul_le_mono_nonneg_l; lia).
    eapply part_up; [exact A|lia|exact C|lia|intros a; apply F|exact Q].
Qed.

Lemma split8 n : Z.land n 7 = n mod 8 /\ Z.shiftr n 3 = n / 8.
Proof. split; [change 7 with (Z.ones 3); rewrite Z.land_ones by lia; reflexivity|rewrite Z.shiftr_div_pow2 by lia; reflexivity]. Qed.

Lemma fast_memcpy_ok d s n m : 0 <= n -> apart d s n -> copied d s n m (fast_memcpy_mmx d s n m).
Proof.
  intros N A. apply part_copied. unfold fast_memcpy_mmx. cbv zeta.
  destruct (split8 n) as [-> ->]. destruct (split8 (n / 8)) as [-> ->].
  set (q := n / 8 / 8). set (t := (n / 8) mod 8). set (u := n mod 8).
  assert (D1 : n / 8 = 8 * q + t) by (apply Z.div_mod; lia).
  assert (D2 : n = 8 * (n / 8) + u) by (apply Z.div_mod; lia).
  assert (T : 0 <= t < 8) by (apply Z.mod_pos_bound; lia). assert (U : 0 <= u < 8) by (apply Z.mod_pos_bound; lia).
  assert (Q : 0 <= q) by (unfold q; apply Z.div_pos; [apply Z.div_pos|]; lia).
  clearbody q t u. rewrite D1 in D2. clear D1.
  replace n with (64 * q + 8 * t + 1 * u) at 1 by lia.
  apply (times_part d s n m 1); [exact A|lia|lia|lia|lia| |].
  { intros i m1 a. rewrite upd_blk. replace (d + 64 * q + 8 * t + i) with (d + (64 * q + 8 * t + 1 * i)) by lia.
    replace (s + 64 * q + 8 * t + i) with (s + (64 * q + 8 * t + 1 * i)) by lia. reflexivity. }
  apply (times_part d s n m 8); [exact A|lia|lia|lia|lia| |].
  { intros i m1 a. rewrite store8_blk. replace (d + 64 * q + 8 * i) with (d + (64 * q + 8 * i)) by lia.
    replace (s + 64 * q + 8 * i) with (s + (64 * q + 8 * i)) by lia. reflexivity. }
  replace (64 * q) with (0 + 64 * q) by lia.
  apply (times_part d s n m 64); [exact A|lia|lia|lia|lia| |apply part_nil].
  intros i m1 a. rewrite copy64_blk. reflexivity.
Qed.

(** Filling: [times] of stores of [c] bytes of value [v]. *)
Definition fpart (d lo v : Z) (m0 m : mem) : Prop := forall a, m a = if (d <=? a) && (a <? d + lo) then v else m0 a.
Lemma fpart_filled d n v m0 m : fpart d n v m0 m -> filled d n v m0 m.
Proof. intros H a. rewrite H. Zb; split; intros; try reflexivity; lia. Qed.
Lemma fpart_nil d v m : fpart d 0 v m m.
Proof. intros a. Zb; try reflexivity; lia. Qed.
Lemma times_fill d v m0 c cnt f lo m : 0 <= c -> 0 <= cnt -> 0 <= lo ->
  (forall i m a, f i m a = if (d + (lo + c * i) <=? a) && (a <? d + (lo + c * i) + c) then v else m a) ->
  fpart d lo v m0 m -> fpart d (lo + c * cnt) v m0 (times cnt f m).
Proof.
  intros C K L F P. unfold times.
  pose proof (loop_inv mem (fun i m => fpart d (lo + c * i) v m0 m) (Z.to_nat cnt) f m) as I.
  cbv beta in I. rewrite Z2Nat.id in I by exact K. apply I.
  - replace (lo + c * 0) with lo by lia. exact P.
  - intros i m1 B Q a. rewrite F, Q. assert (0 <= c * i) by (apply Z.mul_nonneg_nonneg; lia).
    replace (lo + c * (i + 1)) with (lo + c * i + c) by lia. Zb; try lia; reflexivity.
Qed.

Lemma fill8 d v n (r : reg) w m : 0 <= n -> (forall k, 0 <= k < 8 -> r k = v) -> w = v ->
  fpart d n v m (times (n mod 8) (fun i m => upd m (d + 8 * (n / 8) + i) w) (times (n / 8) (fun i m => store8 m (d + 8 * i) r) m)).
Proof.
  intros N R ->. pose proof (Z.div_mod n 8 ltac:(lia)) as D. pose proof (Z.mod_pos_bound n 8 ltac:(lia)).
  pose proof (Z.div_pos n 8 ltac:(lia) ltac:(lia)).
  replace n with (8 * (n / 8) + 1 * (n mod 8)) at 1 by lia.
  apply times_fill; [lia|lia|lia| |].
  { intros i m1 a. unfold upd. destruct (Z.eqb_spec a (d + 8 * (n / 8) + i)) as [->|]; Zb; try lia; reflexivity. }
  replace (8 * (n / 8)) with (0 + 8 * (n / 8)) at 1 by lia.
  apply times_fill; [lia|lia|lia| |apply fpart_nil].
  intros i m1 a. unfold store8, store_n. replace (d + (0 + 8 * i)) with (d + 8 * i) by lia.
  Zb; [apply R; lia|reflexivity].
Qed.

Lemma fast_memzero_ok d n m : 0 <= n -> filled d n 0 m (fast_memzero_mmx d n m).
Proof.
  intros N. apply fpart_filled. unfold fast_memzero_mmx. cbv zeta. destruct (split8 n) as [-> ->].
  apply fill8; [exact N|reflexivity|reflexivity].
Qed.

Lemma word_of val j : -32768 <= val <= 32767 -> i16_of (mk16 (fun _ => val)) j = val.
Proof.
  intros B. unfold i16_of, u16_of, mk16. rewrite Z.even_mul, orb_true_l.
  replace (Z.even (2 * j + 1)) with false by (rewrite Z.even_add, Z.even_mul; reflexivity).
  unfold to_u8, to_i16. pose proof (Z.div_mod val 256 ltac:(lia)). pose proof (Z.mod_pos_bound val 256 ltac:(lia)).
  pose proof (Z.div_mod (val / 256) 256 ltac:(lia)). pose proof (Z.mod_pos_bound (val / 256) 256 ltac:(lia)).
  replace (val mod 256 + 256 * ((val / 256) mod 256) + 32768) with (val + 32768 + (- (val / 256 / 256)) * 65536) by lia.
  rewrite Z.mod_add by lia. rewrite Z.mod_small by lia. lia.
Qed.
Lemma memset_reg val k : -128 <= val <= 127 -> mk8 (fun k => sat_i8 (i16_of (mk16 (fun _ => val)) (k mod 4))) k = to_u8 val.
Proof. intros B. unfold mk8. rewrite word_of by lia. f_equal. unfold sat_i8. lia. Qed.
Lemma fast_memset_ok d val n m : 0 <= n -> -128 <= val <= 127 -> filled d n (to_u8 val) m (fast_memset_mmx d val n m).
Proof.
  intros N B. apply fpart_filled. unfold fast_memset_mmx. cbv zeta. destruct (split8 n) as [-> ->].
  apply fill8; [exact N|intros k _; apply memset_reg, B|reflexivity].
Qed.

Lemma memzero_aligned_ok w d n m : 0 < w -> 0 <= n -> d mod w = 0 ->
  exists r, memzero_aligned_c w d n m = Done r /\ filled d (n - n mod w) 0 m r.
Proof.
  intros W N A. unfold memzero_aligned_c. cbv zeta. rewrite A. rewrite andb_false_r.
  eexists. split; [reflexivity|]. apply fpart_filled. pose proof (Z.div_mod n w ltac:(lia)).
  replace (n - n mod w) with (0 + w * (n / w)) by lia.
  apply times_fill; [lia|apply Z.div_pos; lia|lia| |apply fpart_nil].
  intros i m1 a. unfold store_n, setzero. replace (d + (0 + w * i)) with (d + w * i) by lia. reflexivity.
Qed.

(** The C loop of the frame model copies too. *)
Lemma copy_line_ok d s n m : 0 <= n -> apart d s n -> copied d s n m (copy_line d s n m).
Proof.
  intros N A. apply part_copied. unfold copy_line.
  apply (floop_inv (fun i m' => part d s 0 i m m') 0 n); [exact N|apply part_nil|].
  intros i m1 B P. eapply part_up; [exact A|lia|lia|lia|intros a; apply upd_blk|exact P].
Qed.
Lemma copied_fun d s n m r r' : copied d s n m r -> copied d s n m r' -> forall a, r a = r' a.
Proof.
  intros H H' a. destruct (H a) as [H1 H2], (H' a) as [K1 K2].
  assert (D : d <= a < d + n \/ ~ d <= a < d + n) by lia. destruct D as [D|D]; [rewrite H1, K1|rewrite H2, K2]; tauto.
Qed.

(** Values that a signed byte cannot hold. *)
Lemma fast_memset_bad d val n m : 8 <= n < 9223372036854775808 -> 128 <= val <= 255 ->
  ~ filled d n (to_u8 val) m (fast_memset_mmx d val n m).
Proof.
  intros N V F. assert (K : fast_memset_mmx d val n m d = 127).
  { unfold fast_memset_mmx. cbv zeta. destruct (split8 n) as [-> ->].
    set (r := mk8 _). assert (R : r 0 = 127).
    { unfold r, mk8. rewrite word_of by lia. unfold sat_i8, to_u8. rewrite Z.mod_small; lia. }
    pose proof (Z.div_mod n 8 ltac:(lia)) as D. pose proof (Z.mod_pos_bound n 8 ltac:(lia)).
    assert (Q : 1 <= n / 8) by lia. unfold times.
    pose proof (loop_inv mem (fun _ m' => m' d = 127) (Z.to_nat (n mod 8)) (fun i m' => upd m' (d + 8 * (n / 8) + i) (to_u8 val))) as I.
    cbv beta in I. apply I.
    - pose proof (loop_inv mem (fun i m' => 0 < i -> m' d = 127) (Z.to_nat (n / 8)) (fun i m' => store8 m' (d + 8 * i) r) m) as J.
      cbv beta in J. apply J; [lia| |lia]. intros i m1 B P _. unfold store8, store_n.
      destruct (Z.eq_dec i 0) as [->|Z0].
      + replace (d - (d + 8 * 0)) with 0 by lia. Zb; [exact R|lia].
      + Zb; [lia|apply P; lia].
    - intros i m1 B P. rewrite upd_other by lia. exact P. }
  destruct (F d) as [F1 _]. rewrite K in F1. specialize (F1 ltac:(lia)). unfold to_u8 in F1. rewrite Z.mod_small in F1; lia.
Qed.
