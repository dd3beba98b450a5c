(** The walk over the LCUs follows the slices. *)
From Coq Require Import ZArith List Bool Lia.
From Verif Require Import CBase CBaseProofs VlcModel VlcSpec VlcProofs HdrModel HdrSpec AecModel AecSpec SlModel SlSpec SlProofs.
Import ListNotations.
Open Scope Z_scope.

Lemma take_bit_err : forall a r, take_bit a = Done r -> err (fst r) = err a.
Proof. intros a r H. unfold take_bit in H. destruct ((btg a <? 0) || (64 <=? btg a)); [discriminate|]. injection H as <-. reflexivity. Qed.
Lemma next_bit_sticky : forall a r, get_next_bit a = Done r -> err a = true -> err (fst r) = true.
Proof.
  intros a r H E. unfold get_next_bit in H. cbv zeta in H.
  destruct (to_i8 (btg a - 1) <? 0).
  - destruct (7 <? nbytes a - byte_pos a).
    + destruct (be_bytes _ _ _ _); [|discriminate]. apply take_bit_err in H. rewrite H. exact E.
    + destruct (0 <? nbytes a - byte_pos a).
      * destruct (be_bytes _ _ _ _); [|discriminate]. apply take_bit_err in H. rewrite H. exact E.
      * injection H as <-. reflexivity.
  - apply take_bit_err in H. rewrite H. exact E.
Qed.
Lemma next_bits_sticky : forall k a a', next_bits k a = Done a' -> err a = true -> err a' = true.
Proof.
  induction k as [|k IH]; intros a a' H E; cbn [next_bits] in H; [congruence|].
  destruct (get_next_bit a) as [r| | |] eqn:G; try discriminate. cbn [bindo] in H.
  apply (IH _ _ H). apply (next_bit_sticky _ _ G E).
Qed.
(** A decoder that started without an error started inside the unit. *)
Lemma start_inside : forall mem p n ob w a, start_decoding mem p n ob w = Done a -> err a = false -> p < n.
Proof.
  intros mem p n ob w a H E. destruct (Z_lt_le_dec p n) as [L|L]; [exact L|exfalso].
  unfold start_decoding, get_next_n_bit in H. cbn [btg] in H. change (9 <=? 0) with false in H. cbv iota in H.
  change (Z.to_nat 9) with 9%nat in H.
  set (a0 := {| buf := mem; byte_buf := w; byte_pos := p; nbytes := n; btg := 0; err := false; bound := ob; domain := true;
                s1 := 0; t1 := 255; vs := 0; vt := 0 |}) in H.
  cbn [next_bits] in H.
  assert (G : get_next_bit a0 = Done (set_err (set_rd a0 w p (-1)) true, true)).
  { unfold get_next_bit. cbv zeta. change (to_i8 (btg a0 - 1)) with (-1). change (-1 <? 0) with true. cbv iota.
    cbn [nbytes byte_pos a0 byte_buf]. replace (7 <? n - p) with false by (symmetry; apply Z.ltb_ge; lia).
    replace (0 <? n - p) with false by (symmetry; apply Z.ltb_ge; lia). reflexivity. }
  rewrite G in H. cbn [bindo fst] in H.
  match type of H with bindo (bindo ?x _) _ = _ => destruct x as [a1| | |] eqn:N; try discriminate end.
  cbn [bindo fst] in H. injection H as <-.
  change (next_bits 8 (set_err (set_rd a0 w p (-1)) true) = Done a1) in N.
  apply next_bits_sticky in N; [congruence|reflexivity].
Qed.

Section Walk.
Variable T : Type.
Variable new_slice : T -> T.
Variable reset_row : Z -> T -> T.
Variable lcu : Z -> Z -> shdr -> T -> aec -> outcome (T * aec * bool).
Variables (g : pic) (w : Z) (mem : list Z) (n : Z).

Local Notation checked := (check_slice_header T new_slice reset_row g).
Local Notation step1 := (one_lcu T lcu).
Local Notation runs := (run T lcu).
Local Notation coded := (slices T new_slice reset_row lcu g w mem n).

Lemma check_ok : forall y q i hd a e t log p s a0, 0 <= q -> first_code mem ((q + 7) / 8) p -> p <= (q + 7) / 8 + 3 ->
  slice_at g mem p s -> slice_fits s -> start_decoding mem (data_start g p s) n (bound a) (byte_buf a) = Done a0 -> err a0 = false ->
  checked y (St (Bs mem n q) true i hd a e t log)
  = Done (St (Bs mem n (8 * (p + 3) + zlen (slice_bits g s))) true (i + 1) (slice_meaning g hd s) a0 e (reset_row y (new_slice t)) log, false).
Proof.
  intros y q i hd a e t log p s a0 Hq F P3 A Fs D E.
  assert (Q : 0 <= (q + 7) / 8) by (Z.div_mod_to_equations; lia).
  assert (Q' : (q + 7) / 8 <= p) by apply F.
  unfold check_slice_header. cbn [s_chk s_bs s_idx s_hdr s_aec s_err s_t s_log].
  unfold found_slice_header. rewrite (found_loop_hit 4 mem n q p Hq F) by lia. cbn [bindo].
  replace (bs_align (Bs mem n (q + 8 * (p - (q + 7) / 8)))) with (Bs mem n (8 * p)).
  2:{ unfold bs_align. cbn [bs_mem bs_len bs_pos]. rewrite up8, up8_add, Z.shiftl_mul_pow2 by lia. f_equal. ring. }
  rewrite (header_roundtrip g hd mem n p s); [|lia|exact Fs|exact A|apply Z.lt_le_incl; apply (start_inside _ _ _ _ _ _ D E)].
  cbn [bindo bs_mem bs_len bs_pos].
  replace (Z.quot (8 * (p + 3) + zlen (slice_bits g s) + 7) 8) with (data_start g p s).
  2:{ pose proof (zlen_pos _ (slice_bits g s)). rewrite Z.quot_div_nonneg by lia. unfold data_start.
      replace (8 * (p + 3) + zlen (slice_bits g s) + 7) with (zlen (slice_bits g s) + 7 + (p + 3) * 8) by ring.
      rewrite Z.div_add by lia. ring. }
  rewrite D. cbn [bindo]. rewrite E. reflexivity.
Qed.

(** The state in front of LCU [k]: inside a slice, or in front of one. *)
Inductive ahead (total : Z) (t' : T) (full : list (Z * Z)) : Z -> st T -> Prop :=
| in_front : forall k q i hd a t log rest,
    coded (i + 1) k q hd t a rest t' -> full = log ++ assigned k (i + 1) rest -> k + lcus_of rest = total ->
    ahead total t' full k (St (Bs mem n q) true i hd a false t log)
| inside : forall k q i hd a t log rest m t1 a1,
    runs (to_i8 i) hd k (S m) t a t1 a1 (repeat 0 m ++ [1]) ->
    coded (i + 1) (k + Z.of_nat (S m)) (bits_read a1) hd t1 a1 rest t' ->
    full = log ++ numbered (S m) k i ++ assigned (k + Z.of_nat (S m)) (i + 1) rest ->
    k + Z.of_nat (S m) + lcus_of rest = total ->
    ahead total t' full k (St (Bs mem n q) false i hd a false t log).

Lemma bits_eq : forall a, aec_bits_read a = bits_read a.
Proof. intros. unfold aec_bits_read, bits_read. rewrite Z.shiftl_mul_pow2 by lia. ring. Qed.

Lemma lcu_ahead : forall total t' full k q c i hd a t log rest m t1 a1,
    runs (to_i8 i) hd k (S m) t a t1 a1 (repeat 0 m ++ [1]) ->
    coded (i + 1) (k + Z.of_nat (S m)) (bits_read a1) hd t1 a1 rest t' ->
    full = log ++ numbered (S m) k i ++ assigned (k + Z.of_nat (S m)) (i + 1) rest ->
    k + Z.of_nat (S m) + lcus_of rest = total ->
    exists s', step1 k (St (Bs mem n q) c i hd a false t log) = Done s' /\ ahead total t' full (k + 1) s'.
Proof.
  intros total t' full k q c i hd a t log rest m t1 a1 R C Fu To.
  inversion R as [|k0 n0 t0 a0 u1 b1 b2 f t2 a2 fs L Df R' E1 E2 E3 E4 E5 E6 E7]; subst k0 n0 t0 a0 t2 a2.
  unfold one_lcu. cbn [s_bs s_chk s_idx s_hdr s_aec s_err s_t s_log]. rewrite L. cbn [bindo]. rewrite Df. cbn [bindo bs_mem bs_len].
  eexists. split; [reflexivity|]. rewrite bits_eq.
  destruct m as [|m].
  - cbn [repeat app] in E7. injection E7 as -> ->.
    inversion R' as [k0 t0 a0 F1 F2 F3 F4 F5|]. subst k0 t0 a0 u1 b2.
    change (negb (1 =? 0)) with true. apply in_front with (rest := rest).
    + exact C.
    + rewrite Fu. cbn [numbered]. rewrite <- app_assoc. reflexivity.
    + exact To.
  - cbn [repeat app] in E7. injection E7 as -> ->.
    change (negb (0 =? 0)) with false.
    apply inside with (rest := rest) (m := m) (t1 := t1) (a1 := a1).
    + exact R'.
    + replace (k + 1 + Z.of_nat (S m)) with (k + Z.of_nat (S (S m))) by lia. exact C.
    + rewrite Fu. replace (k + 1 + Z.of_nat (S m)) with (k + Z.of_nat (S (S m))) by lia.
      rewrite <- app_assoc. reflexivity.
    + lia.
Qed.

Lemma step_ahead : forall total t' full k s, ahead total t' full k s -> k < total ->
  exists s1 s2, checked (k / w) s = Done (s1, false) /\ step1 k s1 = Done s2 /\ ahead total t' full (k + 1) s2.
Proof.
  intros total t' full k s A Lk. inversion A as [k0 q i hd a t log rest C Fu To|k0 q i hd a t log rest m t1 a1 R C Fu To]; subst k0 s.
  - inversion C as [|i0 k0 q0 hd0 t0 a0 p y m b0 u1 b1 r t2 Hq F P3 At Fs D E R C' E1 E2 E3 E4 E5 E6 E7 E8].
    + match goal with X : [] = rest |- _ => subst rest end. cbn [lcus_of] in To. lia.
    + subst i0 k0 q0 hd0 t0 a0 t2. subst rest.
      rewrite (check_ok (k / w) q i hd a false t log p y b0 Hq F P3 At Fs D E).
      destruct (lcu_ahead total t' full k (8 * (p + 3) + zlen (slice_bits g y)) true (i + 1) (slice_meaning g hd y) b0
                  (reset_row (k / w) (new_slice t)) log r m u1 b1 R C') as (s' & S1 & S2).
      * exact Fu.
      * cbn [lcus_of] in To. lia.
      * exists (St (Bs mem n (8 * (p + 3) + zlen (slice_bits g y))) true (i + 1) (slice_meaning g hd y) b0 false (reset_row (k / w) (new_slice t)) log), s'.
        auto.
  - destruct (lcu_ahead total t' full k q false i hd a t log rest m t1 a1 R C Fu To) as (s' & S1 & S2).
    exists (St (Bs mem n q) false i hd a false t log), s'. split; [reflexivity|auto].
Qed.

Lemma ahead_no_err : forall total t' full k s, ahead total t' full k s -> s_err s = false.
Proof. intros total t' full k s A. inversion A; reflexivity. Qed.

Lemma row_ahead : forall total t' full m y x s, 0 < w -> 0 <= x -> x + Z.of_nat m <= w -> y * w + x + Z.of_nat m <= total ->
  ahead total t' full (y * w + x) s ->
  exists s', row_loop T new_slice reset_row lcu m g w y x s = Done (s', false) /\ ahead total t' full (y * w + x + Z.of_nat m) s'.
Proof.
  intros total t' full. induction m as [|m IH]; intros y x s W X Xm To A.
  - exists s. split; [reflexivity|]. replace (y * w + x + Z.of_nat 0) with (y * w + x) by lia. exact A.
  - cbn [row_loop]. rewrite (ahead_no_err _ _ _ _ _ A).
    destruct (step_ahead total t' full (y * w + x) s A) as (s1 & s2 & C & O & A'); [lia|].
    replace ((y * w + x) / w) with y in C.
    2:{ apply Z.div_unique with (r := x); lia. }
    rewrite C. cbn [bindo]. rewrite O. cbn [bindo].
    destruct (IH y (x + 1) s2) as (s' & R & A2); [exact W|lia|lia|lia|replace (y * w + (x + 1)) with (y * w + x + 1) by ring; exact A'|].
    exists s'. split; [exact R|]. replace (y * w + x + Z.of_nat (S m)) with (y * w + (x + 1) + Z.of_nat m) by lia. exact A2.
Qed.

Lemma rows_ahead : forall total t' full m y s, 0 < w -> 0 <= y -> (y + Z.of_nat m) * w = total -> ahead total t' full (y * w) s ->
  exists s', rows T new_slice reset_row lcu m g w y s = Done s' /\ ahead total t' full total s'.
Proof.
  intros total t' full. induction m as [|m IH]; intros y s W Y To A.
  - exists s. split; [reflexivity|]. assert (E : y * w = total) by lia. rewrite E in A. exact A.
  - cbn [rows]. destruct (row_ahead total t' full (Z.to_nat w) y 0 s) as (s1 & R & A1); [exact W|lia|lia| | |].
    + rewrite Z2Nat.id by lia. rewrite <- To.
      assert (0 <= Z.of_nat m) by lia. nia.
    + replace (y * w + 0) with (y * w) by ring. exact A.
    + rewrite R. cbn [bindo fst]. apply (IH (y + 1) s1 W); [lia|lia|].
      rewrite Z2Nat.id in A1 by lia. replace ((y + 1) * w) with (y * w + 0 + w) by ring. exact A1.
Qed.

Lemma lcus_pos : forall l, 0 <= lcus_of l.
Proof. induction l as [|[[p y] m] l IH]; cbn [lcus_of]; lia. Qed.

Lemma picture_ok : forall h q p y m rest hd0 a0 t0 t', 0 < w -> 0 < h -> 0 <= q -> n <= Z.of_nat (length mem) ->
  first_code mem (q / 8) p -> p + 4 <= n ->
  coded 0 0 (8 * p) hd0 t0 a0 ((p, y, m) :: rest) t' -> lcus_of ((p, y, m) :: rest) = w * h ->
  exists s, decode_picture T new_slice reset_row lcu g w h (Bs mem n q) hd0 a0 t0 = Done (Some s) /\
    s_t s = t' /\ s_err s = false /\ s_log s = assigned 0 0 ((p, y, m) :: rest).
Proof.
  intros h q p y m rest hd0 a0 t0 t' W H Hq L F Pn C To.
  unfold decode_picture. rewrite (user_data_first mem n q p Hq L Pn F). cbn [bindo].
  destruct (rows_ahead (w * h) t' (assigned 0 0 ((p, y, m) :: rest)) (Z.to_nat h) 0
              (St (Bs mem n (8 * p)) true (-1) hd0 a0 false t0 [])) as (s & R & A); [exact W|lia|lia| |].
  - apply in_front with (rest := (p, y, m) :: rest); [exact C|reflexivity|cbn [Z.mul]; lia].
  - rewrite R. cbn [bindo]. exists s. split; [reflexivity|].
    inversion A as [k0 q1 i hd a t log r C1 Fu T1|k0 q1 i hd a t log r m1 t1 a1 R1 C1 Fu T1].
    + cbn [s_t s_err s_log]. inversion C1 as [|i0 k1 q0 hd1 t1 a1 p1 y1 m1 b0 u1 b1 r1 t2].
      * match goal with X : [] = r |- _ => subst r end. rewrite Fu. cbn [assigned]. rewrite app_nil_r. auto.
      * subst r. cbn [lcus_of] in T1. pose proof (lcus_pos r1). lia.
    + pose proof (lcus_pos r). lia.
Qed.
End Walk.
