(** Slice headers and the search for them. *)
From Coq Require Import ZArith List Bool Lia.
From Verif Require Import CBase CBaseProofs VlcModel VlcSpec VlcProofs HdrModel HdrSpec AecModel AecSpec SlModel SlSpec.
Import ListNotations.
Open Scope Z_scope.

(** [p] reads the bits [l] wherever they stand in a unit. *)
Definition consumes {A} (p : P A) (l : list bool) (a : A) : Prop :=
  forall mem n pre post, bits_of mem = pre ++ l ++ post -> zlen (pre ++ l) < 8 * (n + 1) ->
    p (Bs mem n (zlen pre)) = Done (a, Bs mem n (zlen (pre ++ l))).

Lemma zlen_app : forall A (a b : list A), zlen (a ++ b) = zlen a + zlen b.
Proof. intros. unfold zlen. rewrite app_length. lia. Qed.
Lemma zlen_pos : forall A (a : list A), 0 <= zlen a.
Proof. intros. unfold zlen. lia. Qed.

Lemma consumes_ret : forall A (a : A), consumes (retp a) [] a.
Proof. intros A a mem n pre post H L. rewrite app_nil_r. reflexivity. Qed.
Lemma consumes_bind : forall A B (p : P A) (f : A -> P B) l1 l2 a b,
  consumes p l1 a -> consumes (f a) l2 b -> consumes (bindp p f) (l1 ++ l2) b.
Proof.
  intros A B p f l1 l2 a b H1 H2 mem n pre post H L. unfold bindp.
  rewrite <- app_assoc in H. rewrite !zlen_app in L.
  rewrite (H1 mem n pre (l2 ++ post) H) by (rewrite zlen_app; pose proof (zlen_pos _ l2); lia).
  rewrite (H2 mem n (pre ++ l1) post); [now rewrite <- app_assoc|now rewrite <- app_assoc|rewrite !zlen_app; lia].
Qed.
Lemma consumes_u : forall n v, (n <= 31)%nat -> fits (Z.of_nat n) v -> consumes (u_v n) (u n v) v.
Proof.
  intros n v Hn Hv mem m pre post H L. unfold u_v, vlc_u_v, u in *. cbn [bs_mem bs_len bs_pos].
  rewrite (read_bits_ok mem m (zlen pre) n (low_bits n v)); auto.
  - unfold fits in Hv. rewrite be_val_low_bits, Z.mod_small by lia. unfold bs_move; cbn [bs_mem bs_len bs_pos].
    rewrite zlen_app. unfold zlen at 3. rewrite low_bits_length. reflexivity.
  - apply zlen_pos.
  - unfold zlen. rewrite Nat2Z.id, H, skipn_app, skipn_all, Nat.sub_diag. cbn [skipn app].
    rewrite firstn_app, low_bits_length, Nat.sub_diag. cbn [firstn]. rewrite app_nil_r.
    rewrite <- (low_bits_length n v) at 1. apply firstn_all.
  - apply low_bits_length.
  - rewrite zlen_app in L. unfold zlen at 2 in L. rewrite low_bits_length in L. exact L.
Qed.
Lemma flag_bits : forall b, [b] = u 1 (flag_of b).
Proof. destruct b; reflexivity. Qed.
Lemma consumes_flag : forall b, consumes flag [b] (flag_of b).
Proof.
  intros b. rewrite flag_bits. unfold flag. rewrite <- (app_nil_r (u 1 (flag_of b))).
  eapply consumes_bind; [apply (consumes_u 1 (flag_of b)); [lia|destruct b; split; cbn; lia]|].
  replace (to_u8 (flag_of b)) with (flag_of b) by (destruct b; reflexivity). apply consumes_ret.
Qed.

Lemma header_consumes : forall g old y, slice_fits y ->
  consumes (u_v 8 ;;;
  (if 144 * p_lcu g <? p_height g then u_v 3 else retp 0) ;;;
  u_v 8 ;;;
  (if 255 * p_lcu g <? p_width g then u_v 2 else retp 0) ;;;
  q <- (if p_fixed g then retp (p_qp g, false, h_fixed old)
        else f <- flag ;; s <- u_v 7 ;; retp (s, f =? 0, f)) ;;
  sao <- (if p_sao g then a <- flag ;; b <- flag ;; c <- flag ;; retp (a, b, c) else retp (h_sao old)) ;;
  let '(qp, dqp, fx) := q in
  retp (Shdr qp dqp fx sao)) (slice_bits g y) (slice_meaning g old y).
Proof.
  intros g old y (F1 & F2 & F3 & F4 & F5). unfold slice_bits.
  eapply consumes_bind; [apply (consumes_u 8 (y_row y)); [lia|unfold fits; change (2 ^ Z.of_nat 8) with 256; lia]|].
  apply consumes_bind with (a := if tall g then y_rowx y else 0).
  { unfold tall. destruct (144 * p_lcu g <? p_height g); [apply (consumes_u 3 (y_rowx y)); [lia|exact F2]|apply consumes_ret]. }
  eapply consumes_bind; [apply (consumes_u 8 (y_col y)); [lia|exact F3]|].
  apply consumes_bind with (a := if wide g then y_colx y else 0).
  { unfold wide. destruct (255 * p_lcu g <? p_width g); [apply (consumes_u 2 (y_colx y)); [lia|exact F4]|apply consumes_ret]. }
  apply consumes_bind with (a := (if p_fixed g then p_qp g else y_sqp y, if p_fixed g then false else negb (y_fix y),
       if p_fixed g then h_fixed old else flag_of (y_fix y))).
  { destruct (p_fixed g); [apply consumes_ret|].
    change (y_fix y :: u 7 (y_sqp y)) with ([y_fix y] ++ u 7 (y_sqp y)).
    eapply consumes_bind; [apply consumes_flag|].
    rewrite <- (app_nil_r (u 7 (y_sqp y))).
    eapply consumes_bind; [apply (consumes_u 7 (y_sqp y)); [lia|exact F5]|].
    replace (flag_of (y_fix y) =? 0) with (negb (y_fix y)) by (destruct (y_fix y); reflexivity).
    apply consumes_ret. }
  destruct (p_sao g) eqn:ES.
  - unfold slice_meaning. rewrite ES. destruct (y_on y) as [[a b] c].
    rewrite <- (app_nil_r [a; b; c]).
    apply consumes_bind with (a := (flag_of a, flag_of b, flag_of c)).
    + change [a; b; c] with ([a] ++ [b] ++ [c] ++ []).
      eapply consumes_bind; [apply consumes_flag|]. eapply consumes_bind; [apply consumes_flag|].
      eapply consumes_bind; [apply consumes_flag|]. apply consumes_ret.
    + apply consumes_ret.
  - unfold slice_meaning. rewrite ES. change (@nil bool) with (@nil bool ++ []) at 1.
    eapply consumes_bind; [apply consumes_ret|]. apply consumes_ret.
Qed.

(** Round trip of the header at any byte position. *)
Lemma header_roundtrip : forall g old mem n p y, 0 <= p -> slice_fits y -> slice_at g mem p y -> data_start g p y <= n ->
  parse_slice_header g old (Bs mem n (8 * p)) = Done (slice_meaning g old y, Bs mem n (8 * (p + 3) + zlen (slice_bits g y))).
Proof.
  intros g old mem n p y Hp F (_ & _ & _ & (pre & post & E & L)) D.
  unfold parse_slice_header. unfold bindp at 1. unfold skip, bs_move. cbn [bs_mem bs_len bs_pos].
  pose proof (header_consumes g old y F mem n pre post E) as C.
  rewrite zlen_app in C. unfold zlen in C at 1 2 3 4. rewrite L in C.
  replace (8 * p + 24) with (8 * (p + 3)) by ring. apply C.
  clear - D. unfold data_start in D. change (Z.of_nat (length (slice_bits g y))) with (zlen (slice_bits g y)).
  Z.div_mod_to_equations; lia.
Qed.

(** ** The search within four bytes. *)
Lemma get_some : forall A (l : list A) i, 0 <= i < Z.of_nat (length l) -> exists v, get l i = Some v.
Proof.
  intros A l i H. unfold get. replace (i <? 0) with false by (symmetry; apply Z.ltb_ge; lia).
  destruct (nth_error l (Z.to_nat i)) eqn:E; [eauto|]. apply nth_error_None in E. lia.
Qed.
Lemma get_lt : forall A (l : list A) i v, get l i = Some v -> 0 <= i < Z.of_nat (length l).
Proof.
  intros A l i v H. unfold get in H. destruct (Z.ltb_spec i 0); [discriminate|].
  assert (nth_error l (Z.to_nat i) <> None) by congruence. apply nth_error_Some in H1. lia.
Qed.

Lemma code_at_true : forall mem p, slice_code_at mem p = Some true <-> slice_code mem p.
Proof.
  intros mem p. unfold slice_code_at, slice_code, SC_SLICE_CODE_MAX.
  destruct (get mem p) as [a|]; destruct (get mem (p + 1)) as [b|]; destruct (get mem (p + 2)) as [c|]; destruct (get mem (p + 3)) as [d|];
    split; intro H; try discriminate; try (destruct H as (H1 & H2 & H3 & x & H4 & H5); congruence).
  - assert (E : (a =? 0) && (b =? 0) && (c =? 1) && (d <=? 143) = true) by congruence. clear H.
    apply andb_true_iff in E. destruct E as [E E4]. apply andb_true_iff in E. destruct E as [E E3].
    apply andb_true_iff in E. destruct E as [E1 E2].
    apply Z.eqb_eq in E1, E2, E3. apply Z.leb_le in E4. subst. repeat split; auto. exists d. auto.
  - destruct H as (H1 & H2 & H3 & x & H4 & H5). injection H1 as ->. injection H2 as ->. injection H3 as ->. injection H4 as ->.
    cbn [Z.eqb andb]. f_equal. apply Z.leb_le. exact H5.
Qed.
Lemma code_at_some : forall mem p, 0 <= p -> p + 3 < Z.of_nat (length mem) -> slice_code_at mem p = Some true \/ slice_code_at mem p = Some false.
Proof.
  intros mem p H H'. unfold slice_code_at.
  destruct (get_some _ mem p) as [a ->]; [lia|]. destruct (get_some _ mem (p + 1)) as [b ->]; [lia|].
  destruct (get_some _ mem (p + 2)) as [c ->]; [lia|]. destruct (get_some _ mem (p + 3)) as [d ->]; [lia|].
  destruct ((a =? 0) && (b =? 0) && (c =? 1) && (d <=? SC_SLICE_CODE_MAX)); auto.
Qed.

Lemma up8 : forall q, Z.shiftr (q + 7) 3 = (q + 7) / 8.
Proof. intros. rewrite shiftr3. reflexivity. Qed.
Lemma up8_add : forall q k, (q + 8 * k + 7) / 8 = (q + 7) / 8 + k.
Proof. intros. replace (q + 8 * k + 7) with (q + 7 + k * 8) by ring. apply Z.div_add. lia. Qed.

Lemma found_loop_hit : forall k mem n q p, 0 <= q -> first_code mem ((q + 7) / 8) p -> p < (q + 7) / 8 + Z.of_nat k ->
  found_loop k (Bs mem n q) = Done (true, Bs mem n (q + 8 * (p - (q + 7) / 8))).
Proof.
  induction k as [|k IH]; intros mem n q p Hq (H1 & H2 & H3) H4; [lia|].
  cbn [found_loop bs_mem bs_pos]. rewrite up8.
  assert (Q : 0 <= (q + 7) / 8) by (Z.div_mod_to_equations; lia).
  destruct (Z.eq_dec p ((q + 7) / 8)) as [E|E].
  - rewrite <- E. apply code_at_true in H2. rewrite H2. do 3 f_equal. lia.
  - assert (B : p + 3 < Z.of_nat (length mem)) by (destruct H2 as (_ & _ & _ & d & G & _); apply get_lt in G; lia).
    destruct (code_at_some mem ((q + 7) / 8)) as [C|C]; [exact Q|lia| |].
    + apply code_at_true in C. exfalso. apply (H3 ((q + 7) / 8)); [lia|exact C].
    + rewrite C. unfold bs_move; cbn [bs_mem bs_len bs_pos].
      assert (U : (q + 8 + 7) / 8 = (q + 7) / 8 + 1) by apply (up8_add q 1).
      rewrite (IH mem n (q + 8) p); [|lia| |].
      * rewrite U. do 3 f_equal. lia.
      * rewrite U. repeat split; [lia|exact (proj1 H2)|exact (proj1 (proj2 H2))|exact (proj1 (proj2 (proj2 H2)))|exact (proj2 (proj2 (proj2 H2)))|].
        intros j J. apply H3. lia.
      * rewrite U. lia.
Qed.
Lemma found_loop_miss : forall k mem n q, 0 <= q -> (q + 7) / 8 + Z.of_nat k + 2 < Z.of_nat (length mem) ->
  (forall j, (q + 7) / 8 <= j < (q + 7) / 8 + Z.of_nat k -> ~ slice_code mem j) ->
  found_loop k (Bs mem n q) = Done (false, Bs mem n (q + 8 * Z.of_nat k)).
Proof.
  induction k as [|k IH]; intros mem n q Hq L H.
  - cbn [found_loop]. do 3 f_equal. lia.
  - cbn [found_loop bs_mem bs_pos]. rewrite up8.
    assert (Q : 0 <= (q + 7) / 8) by (Z.div_mod_to_equations; lia).
    destruct (code_at_some mem ((q + 7) / 8)) as [C|C]; [exact Q|lia| |].
    + apply code_at_true in C. exfalso. apply (H ((q + 7) / 8)); [lia|exact C].
    + rewrite C. unfold bs_move; cbn [bs_mem bs_len bs_pos].
      assert (U : (q + 8 + 7) / 8 = (q + 7) / 8 + 1) by apply (up8_add q 1).
      rewrite (IH mem n (q + 8)); [do 3 f_equal; lia|lia|rewrite U; lia|].
      intros j J. rewrite U in J. apply H. lia.
Qed.

(** ** The first slice. *)
Lemma user_loop_spec : forall fuel mem pos left n, (Z.to_nat left <= fuel)%nat -> 0 <= pos -> pos + left = n -> n <= Z.of_nat (length mem) ->
  (exists p, first_code mem pos p /\ p + 4 <= n /\ user_loop fuel mem pos left = Done (Some p)) \/
  ((forall p, pos <= p -> p + 4 <= n -> ~ slice_code mem p) /\ user_loop fuel mem pos left = Done None).
Proof.
  induction fuel as [|fuel IH]; intros mem pos left n F P E L.
  - right. cbn [user_loop]. destruct (Z.leb_spec 4 left); [lia|]. split; [intros; lia|reflexivity].
  - cbn [user_loop]. destruct (Z.leb_spec 4 left) as [H4|H4].
    2:{ right. split; [intros; lia|reflexivity]. }
    destruct (get_some _ mem pos) as [a Ga]; [lia|]. destruct (get_some _ mem (pos + 1)) as [b Gb]; [lia|].
    destruct (get_some _ mem (pos + 2)) as [c Gc]; [lia|]. destruct (get_some _ mem (pos + 3)) as [d Gd]; [lia|].
    rewrite Ga, Gb, Gc, Gd.
    assert (skip4 : a = 0 -> b = 0 -> c = 1 -> 143 < d ->
      (exists p, first_code mem pos p /\ p + 4 <= n /\ user_loop fuel mem (pos + 4) (left - 4) = Done (Some p)) \/
      ((forall p, pos <= p -> p + 4 <= n -> ~ slice_code mem p) /\ user_loop fuel mem (pos + 4) (left - 4) = Done None)).
    { intros -> -> -> D.
      assert (N : forall j, pos <= j < pos + 4 -> ~ slice_code mem j).
      { intros j J (S1 & S2 & S3 & x & S4 & S5).
        assert (Q : j = pos \/ j = pos + 1 \/ j = pos + 2 \/ j = pos + 3) by lia.
        destruct Q as [-> | [-> | [-> | ->]]].
        - rewrite Gd in S4. injection S4 as <-. lia.
        - replace (pos + 1 + 1) with (pos + 2) in S2 by ring. rewrite Gc in S2. discriminate.
        - rewrite Gc in S1. discriminate.
        - rewrite Gd in S1. injection S1 as ->. lia. }
      destruct (IH mem (pos + 4) (left - 4) n) as [(p & (A1 & A2 & A3) & B & C)|(A & C)]; [lia|lia|lia|exact L| |].
      - left. exists p. repeat split; auto; try lia; try exact (proj1 A2); try exact (proj1 (proj2 A2)); try exact (proj1 (proj2 (proj2 A2)));
          try exact (proj2 (proj2 (proj2 A2))).
        intros j J. destruct (Z_lt_le_dec j (pos + 4)); [apply N; lia|apply A3; lia].
      - right. split; [|exact C]. intros j J J'. destruct (Z_lt_le_dec j (pos + 4)); [apply N; lia|apply A; lia]. }
    destruct ((a =? 0) && (b =? 0) && (c =? 1)) eqn:EC.
    + apply andb_true_iff in EC. destruct EC as [EC Ec]. apply andb_true_iff in EC. destruct EC as [Ea Eb].
      apply Z.eqb_eq in Ea, Eb, Ec. unfold SC_USER_DATA, SC_SLICE_CODE_MAX.
      destruct (Z.eqb_spec d 178); [apply skip4; auto; lia|].
      destruct (Z.leb_spec d 143); [|apply skip4; auto].
      left. exists pos. subst. repeat split; auto; try lia. exists d. auto.
    + assert (N : ~ slice_code mem pos).
      { intros (S1 & S2 & S3 & _). rewrite Ga in S1. rewrite Gb in S2. rewrite Gc in S3.
        injection S1 as ->. injection S2 as ->. injection S3 as ->. discriminate. }
      destruct (IH mem (pos + 1) (left - 1) n) as [(p & (A1 & A2 & A3) & B & C)|(A & C)]; [lia|lia|lia|exact L| |].
      * left. exists p. repeat split; auto; try lia; try exact (proj1 A2); try exact (proj1 (proj2 A2)); try exact (proj1 (proj2 (proj2 A2)));
          try exact (proj2 (proj2 (proj2 A2))).
        intros j J. destruct (Z.eq_dec j pos) as [->|]; [exact N|apply A3; lia].
      * right. split; [|exact C]. intros j J J'. destruct (Z.eq_dec j pos) as [->|]; [exact N|apply A; lia].
Qed.

Lemma user_data_first : forall mem n q p, 0 <= q -> n <= Z.of_nat (length mem) -> p + 4 <= n -> first_code mem (q / 8) p ->
  decode_user_data (Bs mem n q) = Done (true, Bs mem n (8 * p)).
Proof.
  intros mem n q p Hq L Hp (F1 & F2 & F3). unfold decode_user_data. cbn [bs_mem bs_len bs_pos]. rewrite shiftr3.
  assert (Q : 0 <= q / 8) by (Z.div_mod_to_equations; lia).
  destruct (user_loop_spec (Z.to_nat n) mem (q / 8) (n - q / 8) n) as [(p' & (A1 & A2 & A3) & B & C)|(A & C)]; [lia|exact Q|lia|exact L| |].
  - rewrite C. cbn [bindo]. assert (p' = p) as ->.
    { destruct (Z_lt_le_dec p' p); [exfalso; apply (F3 p'); [lia|exact A2]|].
      destruct (Z_lt_le_dec p p'); [exfalso; apply (A3 p); [lia|exact F2]|lia]. }
    rewrite Z.shiftl_mul_pow2 by lia. do 3 f_equal. ring.
  - exfalso. apply (A p); [lia|exact Hp|exact F2].
Qed.
Lemma user_data_none : forall mem n q, 0 <= q -> n <= Z.of_nat (length mem) ->
  (forall p, q / 8 <= p -> p + 4 <= n -> ~ slice_code mem p) ->
  decode_user_data (Bs mem n q) = Done (false, Bs mem n q).
Proof.
  intros mem n q Hq L H. unfold decode_user_data. cbn [bs_mem bs_len bs_pos]. rewrite shiftr3.
  assert (Q : 0 <= q / 8) by (Z.div_mod_to_equations; lia).
  destruct (user_loop_spec (Z.to_nat n) mem (q / 8) (n - q / 8) n) as [(p' & (A1 & A2 & A3) & B & C)|(A & C)]; [lia|exact Q|lia|exact L| |].
  - exfalso. apply (H p'); [exact A1|exact B|exact A2].
  - rewrite C. reflexivity.
Qed.
