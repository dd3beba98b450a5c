(** Proofs about the text of the features and the threads. *)
From Coq Require Import ZArith List Bool Lia String.
From Verif Require Import CBase CpModel CpSpec CpProofs.
Import ListNotations.
Open Scope Z_scope.

Lemma len_app a b : String.length (a ++ b) = (String.length a + String.length b)%nat.
Proof. induction a; cbn; auto. Qed.
(** What an entry of the table adds. *)
Definition part (c : Z) (name : string) (f : Z) (same : bool) : nat :=
  if negb (left_out name c) && ((Z.land c f =? f) && negb same) then S (String.length name) else O.
Fixpoint parts (c : Z) (prev : option Z) (l : list (string * Z)) : nat :=
  match l with
  | [] => O
  | (name, f) :: l => (part c name f (match prev with None => false | Some g => (f =? g)%Z end) + parts c (Some f) l)%nat
  end.
Lemma names_len c : forall l prev, String.length (names_loop c prev l) = parts c prev l.
Proof.
  induction l as [|[name f] l IH]; intros prev; cbn [names_loop parts]; [reflexivity|]. rewrite len_app, IH. f_equal. unfold part.
  destruct (_ && _); reflexivity.
Qed.
Lemma part_le c name f same : (part c name f same <= S (String.length name))%nat.
Proof. unfold part. destruct (_ && _); lia. Qed.
Lemma part_same c name f : part c name f true = O.
Proof. unfold part. now rewrite !andb_false_r. Qed.
(** An entry with a flag needs that flag. *)
Lemma part_bit c name f same k : Z.testbit f k = true -> (part c name f same <= if Z.testbit c k then S (String.length name) else 0)%nat.
Proof.
  intros T. unfold part. destruct (_ && ((Z.land c f =? f) && _)) eqn:E; [|destruct (Z.testbit c k); lia].
  apply andb_true_iff in E as [_ E]. apply andb_true_iff in E as [E _]. apply Z.eqb_eq in E. now rewrite (mask_bits c f k E T).
Qed.
Lemma part_out c name f same b : left_out name c = b -> (part c name f same <= if b then 0 else S (String.length name))%nat.
Proof. intros <-. unfold part. destruct (left_out name c); cbn [negb andb]; [lia|]. destruct (_ && _); lia. Qed.
Lemma out41 c : left_out "SSE4.1" c = Z.testbit c 8.
Proof. unfold left_out. cbn [String.eqb Ascii.eqb Bool.eqb andb orb]. change F_SSE42 with (2 ^ 8). rewrite any_pow by lia. now rewrite orb_false_r. Qed.
Lemma out_bmi c : left_out "BMI1" c = Z.testbit c 16.
Proof. unfold left_out. cbn [String.eqb Ascii.eqb Bool.eqb andb orb]. change F_BMI2 with (2 ^ 16). now rewrite any_pow by lia. Qed.
Lemma parts_bound c : exclusive c -> (parts c None cpu_names <= 118)%nat.
Proof.
  intros (X1 & X2 & X3 & X4 & X5). unfold cpu_names. cbn [parts].
  change (M2 =? M2) with true. rewrite part_same. change (S2 + F_SSE3 + F_SSSE3 + F_SSE4 =? S2 + F_SSE3 + F_SSSE3 + F_SSE4) with true. rewrite part_same.
  repeat match goal with |- context [part c ?n ?f (?a =? ?b)] => change (a =? b) with false end.
  pose proof (part_le c "MMX2" M2 false). pose proof (part_le c "SSE" (M2 + F_SSE) false).
  pose proof (part_bit c "SSE2Slow" (S2 + F_SLOW) false 19 eq_refl). pose proof (part_le c "SSE2" S2 false).
  pose proof (part_bit c "SSE2Fast" (S2 + F_FAST) false 20 eq_refl). pose proof (part_le c "SSE3" (S2 + F_SSE3) false).
  pose proof (part_le c "SSSE3" (S2 + F_SSE3 + F_SSSE3) false).
  pose proof (part_out c "SSE4.1" (S2 + F_SSE3 + F_SSSE3 + F_SSE4) false _ (out41 c)).
  pose proof (part_bit c "SSE4.2" (S2 + F_SSE3 + F_SSSE3 + F_SSE4 + F_SSE42) false 8 eq_refl).
  pose proof (part_bit c "AVX" AV false 8 eq_refl). pose proof (part_bit c "XOP" (AV + F_XOP) false 8 eq_refl).
  pose proof (part_bit c "FMA4" (AV + F_FMA4) false 8 eq_refl). pose proof (part_bit c "AVX2" (AV + F_AVX2) false 8 eq_refl).
  pose proof (part_bit c "FMA3" (AV + F_FMA3) false 8 eq_refl).
  pose proof (part_bit c "Cache32" F_CACHE32 false 17 eq_refl). pose proof (part_bit c "Cache64" F_CACHE64 false 18 eq_refl).
  pose proof (part_le c "LZCNT" F_LZCNT false). pose proof (part_out c "BMI1" F_BMI1 false _ (out_bmi c)).
  pose proof (part_bit c "BMI2" (F_BMI1 + F_BMI2) false 16 eq_refl). pose proof (part_le c "SlowCTZ" F_CTZ false).
  pose proof (part_bit c "SlowAtom" F_ATOM false 24 eq_refl). pose proof (part_le c "SlowPshufb" F_PSHUFB false).
  pose proof (part_le c "SlowPalignr" F_PALIGNR false). pose proof (part_bit c "SlowShuffle" F_SHUFFLE false 21 eq_refl).
  pose proof (part_bit c "UnalignedStack" F_STACK false 22 eq_refl).
  cbn [String.length] in *. rewrite X4 in *.
  repeat match goal with |- context [part c ?n ?f false] => set (part c n f false) in *; match goal with p := part c n f false |- _ => clearbody p end end.
  assert (n1 + n3 <= 9)%nat by (clear - X1 H1 H3; destruct (Z.testbit c 19), (Z.testbit c 20); try discriminate X1; lia).
  assert (n6 + n7 + n8 + n9 + n10 + n11 + n12 + n13 + n14 <= 30)%nat by
    (clear - X2 X3 H6 H7 H8 H9 H10 H11 H12 H13 H14; destruct (Z.testbit c 17), (Z.testbit c 18); try discriminate X2; destruct (Z.testbit c 8); try discriminate X3; lia).
  assert (n16 + n17 <= 5)%nat by (clear - H16 H17; destruct (Z.testbit c 16); lia).
  assert (n19 + n22 <= 12)%nat by (clear - X5 H19 H22; destruct (Z.testbit c 24), (Z.testbit c 21); try discriminate X5; lia).
  lia.
Qed.
Lemma hex_len : forall n x, (String.length (hex n x) <= n)%nat.
Proof.
  induction n; intros x; cbn [hex]; [cbn; lia|]. rewrite len_app.
  assert (S1 : forall m t, (String.length (String.substring m 1 t) <= 1)%nat).
  { induction m; destruct t; cbn [String.substring String.length]; try lia; [destruct t; cbn; lia|apply IHm]. }
  specialize (S1 (Z.to_nat (Z.land x 15)) "0123456789abcdef"%string). destruct (x <? 16); cbn [String.length]; [lia|]. pose proof (IHn (Z.shiftr x 4)). lia.
Qed.
Lemma text_fits c : exclusive c -> (String.length (simd_text c) < 120)%nat.
Proof.
  intros X. unfold simd_text. destruct (String.eqb _ _).
  - rewrite len_app. pose proof (hex_len 8 c). cbn [String.length]. lia.
  - rewrite names_len. pose proof (parts_bound c X). lia.
Qed.
Lemma chosen_exclusive b c : exclusive c -> exclusive (chosen b c).
Proof. intros X. unfold chosen, exclusive in *. rewrite !clr_bit. consts. exact X. Qed.
Lemma chosen_bits b c k : Z.testbit (chosen b c) k = Z.testbit c k && negb (b && ((k =? bit_avx) || (k =? bit_avx2))).
Proof.
  unfold chosen. rewrite clr_bit. f_equal. f_equal. f_equal. change (F_AVX + F_AVX2) with (Z.lor (2 ^ 10) (2 ^ 13)). rewrite Z.lor_spec, !Z.pow2_bits_eqb by lia.
  unfold bit_avx, bit_avx2. now rewrite (Z.eqb_sym 10), (Z.eqb_sym 13).
Qed.

(** Threads. *)
Lemma count_members n mask : count_bits n mask = Z.of_nat (List.length (members n mask)).
Proof.
  unfold members. induction n; [reflexivity|]. cbn [count_bits]. rewrite seq_S, map_app, filter_app, app_length, IHn. cbn [map Nat.add filter].
  destruct (mask (Z.of_nat n)); cbn [List.length]; lia.
Qed.
Lemma members_more a b mask : (forall i, Z.of_nat a <= i -> mask i = false) -> members (a + b) mask = members a mask.
Proof.
  intros H. unfold members. rewrite seq_app, map_app, filter_app. cbn [Nat.add]. rewrite <- app_nil_r. f_equal.
  assert (forall m s, (a <= s)%nat -> filter mask (map Z.of_nat (seq s m)) = []) as E; [|now apply E].
  induction m; intros s Hs; [reflexivity|]. cbn [seq map filter]. rewrite H by lia. apply IHm. lia.
Qed.
Lemma threads_ok threads mask : 1 <= (if threads <=? 0 then num_processors mask else threads) ->
  exists t, open_threads threads mask = Done (t, t + 1) /\ 1 <= t <= 8 /\ t + 1 <= AVS2_THREAD_MAX /\
  (1 <= threads -> t = Z.min threads 8) /\ (threads <= 0 -> t = Z.min (num_processors mask) 8).
Proof.
  unfold open_threads, AVS2_THREAD_MAX. change (16 / 2) with 8. set (np := num_processors mask). clearbody np. intros H.
  set (u := if threads <=? 0 then np else threads) in *. exists (Z.min u 8).
  assert (E : (if 8 <? u then 8 else u) = Z.min u 8) by (destruct (Z.ltb_spec 8 u); lia). rewrite E.
  split; [|split; [lia|split; [lia|split]]].
  - destruct (Z.ltb_spec (Z.min u 8) 1); [lia|]. destruct (Z.ltb_spec (Z.min u 8 + 1) (Z.min u 8)); [lia|]. reflexivity.
  - intros T. unfold u. destruct (Z.leb_spec threads 0); lia.
  - intros T. unfold u. destruct (Z.leb_spec threads 0); lia.
Qed.
