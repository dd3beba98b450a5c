From Coq Require Import ZArith List Bool Lia.
From Verif Require Import CBase CBaseProofs MemModel AecModel AecSpec AecProofsA AecProofsB AecProofsC AecProofsD AecProofsE AecProofsF AecProofsG.
Import ListNotations.
Open Scope Z_scope.

Lemma adapt_from_init : forall h, legal_ctx (adapt h ctx_init) /\ adapt h ctx_init = adapt_rule h ctx_init.
Proof. intros h. split; [apply adapt_legal, legal_init|apply adapt_is_rule, legal_init]. Qed.

Lemma reader_order : forall data pos n ob w k, bytes_ok data -> 0 <= pos <= n -> n <= Z.of_nat (length data) ->
  let bits := bits_of (slice data pos n) in
  (k <= length bits + 128)%nat ->
  exists a, requests k {| buf := data; byte_buf := w; byte_pos := pos; nbytes := n; btg := 0; err := false; bound := ob; domain := true; s1 := 0; t1 := 255; vs := 0; vt := 0 |}
            = Done (firstn k (map Some bits ++ repeat None 128), a) /\ err a = (length bits <? k)%nat.
Proof.
  intros data pos n ob w k HB HP HL bits HK. set (a0 := {| buf := data |}).
  assert (R0: rd_ok a0) by (constructor; cbn; auto; lia). assert (A0: avail a0 = bits) by reflexivity.
  destruct (requests_ok k a0 R0) as (a & E & F & _); [rewrite A0; exact HK|]. rewrite A0 in *. exists a. split; [exact E|]. rewrite F. reflexivity.
Qed.
Lemma reader_start : forall data pos n ob w, bytes_ok data -> 0 <= pos -> pos + 2 <= n -> n <= Z.of_nat (length data) ->
  exists a, start_decoding data pos n ob w = Done a /\ err a = false /\
    vt a = be_val (firstn 9 (bits_of (slice data pos n))) /\
    (forall k, (k <= 8 * Z.to_nat (n - pos) - 9 + 128)%nat -> exists a', requests k a = Done (firstn k (map Some (skipn 9 (bits_of (slice data pos n))) ++ repeat None 128), a')).
Proof.
  intros data pos n ob w HB HP HN HL. destruct (start_inv data pos n ob w HB HP HN HL) as (a & E & [R Er G] & NV & _ & VT & _ & _ & AV).
  exists a. split; [exact E|]. split; [exact Er|]. split; [exact VT|]. intros k Hk. rewrite <- AV.
  destruct (requests_ok k a R) as (a' & E1 & _); [unfold nav in NV; lia|]. exists a'. exact E1.
Qed.
Lemma reader_inside : forall k data data' pos n ob w, bytes_ok data -> bytes_ok data' -> 0 <= pos <= n -> n <= Z.of_nat (length data) -> n <= Z.of_nat (length data') ->
  slice data pos n = slice data' pos n -> (k <= 8 * Z.to_nat (n - pos) + 128)%nat ->
  forall r, requests k {| buf := data; byte_buf := w; byte_pos := pos; nbytes := n; btg := 0; err := false; bound := ob; domain := true; s1 := 0; t1 := 255; vs := 0; vt := 0 |} = Done r ->
  exists r', requests k {| buf := data'; byte_buf := w; byte_pos := pos; nbytes := n; btg := 0; err := false; bound := ob; domain := true; s1 := 0; t1 := 255; vs := 0; vt := 0 |} = Done r' /\ fst r = fst r'.
Proof.
  intros k data data' pos n ob w HB HB' HP HL HL' HS HK r E.
  assert (LS: length (bits_of (slice data pos n)) = (8 * Z.to_nat (n - pos))%nat).
  { rewrite bits_of_length. unfold slice. rewrite firstn_length, skipn_length. lia. }
  destruct (reader_order data pos n ob w k HB HP HL ltac:(lia)) as (a1 & E1 & _).
  destruct (reader_order data' pos n ob w k HB' HP HL' ltac:(rewrite <- HS; lia)) as (a2 & E2 & _).
  rewrite E1 in E. apply Done_inj in E. subst r. eexists. split; [exact E2|]. cbn [fst]. now rewrite HS.
Qed.
Lemma reader_wrap : exists data k, bytes_ok data /\ 
  (exists a, start_decoding data 0 (Z.of_nat (length data)) false 0 = Done a /\ err a = false /\ requests k a = Undef).
Proof.
  exists [1; 2], 136%nat. split. { repeat (constructor; [lia|]); constructor. }
  destruct (start_inv [1; 2] 0 2 false 0) as (a & E & [R Er G] & NV & _); try (cbn; lia). { repeat (constructor; [lia|]); constructor. }
  exists a. split; [exact E|]. split; [exact Er|]. replace 136%nat with (length (avail a) + 129)%nat by (unfold nav in NV; lia). apply requests_wrap. exact R.
Qed.

Lemma reach_inv : forall data pos n ob w a0 rs a cs bs, bytes_ok data -> 0 <= pos -> pos + 2 <= n -> n <= Z.of_nat (length data) ->
  start_decoding data pos n ob w = Done a0 -> decodes rs a0 (fun _ => ctx_init) = Done (a, cs, bs) -> err a = false ->
  inv a /\ (forall j, legal_ctx (cs j)) /\ nbytes a = n.
Proof.
  intros data pos n ob w a0 rs a cs bs HB HP HN HL E D He. destruct (start_inv data pos n ob w HB HP HN HL) as (x & Ex & Ix & _ & NB & _).
  rewrite E in Ex. apply Done_inj in Ex. subst x. destruct (decodes_spec rs a0 _ Ix (fun _ => legal_init)) as (a1 & cs1 & b1 & D1 & L1 & _ & _ & F1).
  rewrite D in D1. apply Done_inj in D1. apply pair_equal_spec in D1. destruct D1 as [D1 <-]. apply pair_equal_spec in D1. destruct D1 as [<- <-].
  destruct (F1 He) as (F2 & _ & _ & F3). split; [exact F2|]. split; [exact L1|]. congruence.
Qed.

Lemma batched : forall data pos n ob w a0 rs a cs bs k m, bytes_ok data -> 0 <= pos -> pos + 2 <= n -> n <= Z.of_nat (length data) ->
  start_decoding data pos n ob w = Done a0 -> decodes rs a0 (fun _ => ctx_init) = Done (a, cs, bs) -> err a = false ->
  exists a1 c1 m1 a2 c2 m2, continue0 a (cs k) m = Done (a1, c1, m1) /\ repeat_symbol (Z.to_nat m) a (cs k) = Done (a2, c2, m2) /\
    err a1 = err a2 /\ m1 = m2 /\ (err a1 = false -> a1 = a2 /\ c1 = c2).
Proof.
  intros data pos n ob w a0 rs a cs bs k m HB HP HN HL E D He. destruct (reach_inv _ _ _ _ _ _ _ _ _ _ HB HP HN HL E D He) as (H & L & _).
  assert (V: a = set_vs a (vs a)) by (destruct a; reflexivity). unfold continue0.
  assert (H': inv (set_vs a (vs a))) by (rewrite <- V; exact H).
  destruct (continue0_agree (Z.to_nat m) a (cs k) (vs a) 0 H' (L k)) as (a1 & c1 & m1 & a2 & c2 & m2 & P1 & P2 & P3 & P4 & P5). rewrite <- V in P2.
  exists a1, c1, m1, a2, c2, m2. split; [exact P1|]. split; [exact P2|]. split; [exact P3|]. destruct (err a1).
  - destruct (P5 eq_refl). split; [congruence|discriminate].
  - destruct (P4 eq_refl) as (A & B & C). split; [lia|auto].
Qed.
Lemma batched_ext : forall data pos n ob w a0 rs a cs bs inc m, bytes_ok data -> 0 <= pos -> pos + 2 <= n -> n <= Z.of_nat (length data) ->
  start_decoding data pos n ob w = Done a0 -> decodes rs a0 (fun _ => ctx_init) = Done (a, cs, bs) -> err a = false ->
  exists a1 c1 m1 a2 c2 m2, continue0_ext a cs inc m = Done (a1, c1, m1) /\ repeat_symbol_ext (Z.to_nat m) a cs inc 0 = Done (a2, c2, m2) /\
    err a1 = err a2 /\ m1 = m2 /\ (err a1 = false -> a1 = a2 /\ c1 = c2).
Proof.
  intros data pos n ob w a0 rs a cs bs inc m HB HP HN HL E D He. destruct (reach_inv _ _ _ _ _ _ _ _ _ _ HB HP HN HL E D He) as (H & L & _).
  unfold continue0_ext. destruct (ext_agree (Z.to_nat m) a cs inc 0 H L) as (a1 & c1 & m1 & a2 & c2 & m2 & P1 & P2 & P3 & P4 & P5).
  exists a1, c1, m1, a2, c2, m2. split; [exact P1|]. split; [exact P2|]. split; [exact P3|]. destruct (err a1).
  - destruct (P5 eq_refl). split; [congruence|discriminate].
  - destruct (P4 eq_refl) as (A & B & C). split; [lia|auto].
Qed.

Lemma inv_width : forall a, inv a -> in_width a.
Proof. intros a [_ _ [A B C D _]]. unfold in_width. auto. Qed.
Lemma total : forall data pos n ob w rs, bytes_ok data -> 0 <= pos -> pos + 2 <= n -> n <= Z.of_nat (length data) ->
  exists a0 a cs bs, start_decoding data pos n ob w = Done a0 /\ decodes rs a0 (fun _ => ctx_init) = Done (a, cs, bs) /\
    Forall (fun b => b = 0 \/ b = 1) bs /\ (length bs <= length rs)%nat /\
    (err a = false -> length bs = length rs /\ bits_read a0 <= bits_read a <= 8 * n /\ in_width a).
Proof.
  intros data pos n ob w rs HB HP HN HL. destruct (start_inv data pos n ob w HB HP HN HL) as (a0 & E0 & I0 & N0 & NB & _).
  destruct (decodes_spec rs a0 _ I0 (fun _ => legal_init)) as (a & cs & bs & D & _ & B & LB & F). exists a0, a, cs, bs.
  split; [exact E0|]. split; [exact D|]. split; [exact B|]. split; [exact LB|]. intros He. destruct (F He) as (F1 & F2 & F3 & F4).
  split; [exact F2|]. split; [|apply inv_width, F1]. destruct (rd_ok_avail a (iv_rd _ F1)) as [_ Q1]. destruct (rd_ok_avail a0 (iv_rd _ I0)) as [_ Q0].
  rewrite Q0, Q1, F4, NB. unfold nav in *. lia.
Qed.
Lemma step_bits : forall data pos n ob w a0 rs a cs bs r, bytes_ok data -> 0 <= pos -> pos + 2 <= n -> n <= Z.of_nat (length data) ->
  start_decoding data pos n ob w = Done a0 -> decodes rs a0 (fun _ => ctx_init) = Done (a, cs, bs) -> err a = false ->
  exists a1 cs1 b, decode r a cs = Done (a1, cs1, b) /\
    (err a1 = false -> in_width a1 /\ bits_read a <= bits_read a1 <= bits_read a + 263 /\
       (offset_below a -> r <> Bypass \/ ~ (domain a = false /\ s1 a = 254 /\ bound a = true) -> offset_below a1)).
Proof.
  intros data pos n ob w a0 rs a cs bs r HB HP HN HL E D He. destruct (reach_inv _ _ _ _ _ _ _ _ _ _ HB HP HN HL E D He) as (H & L & _).
  destruct (decode_spec r a cs H L) as (a1 & cs1 & b & E1 & _ & _ & F). exists a1, cs1, b. split; [exact E1|]. intros Er. destruct (F Er) as (F1 & F2 & F3 & F4).
  split; [apply inv_width, F1|]. split; [|exact F4]. destruct (rd_ok_avail a (iv_rd _ H)) as [_ Q1]. destruct (rd_ok_avail a1 (iv_rd _ F1)) as [_ Q0]. lia.
Qed.
Lemma sym_below : forall data pos n ob w a0 rs a cs bs, bytes_ok data -> 0 <= pos -> pos + 2 <= n -> n <= Z.of_nat (length data) ->
  start_decoding data pos n ob w = Done a0 -> vt a0 < 511 -> ~ In Bypass rs -> decodes rs a0 (fun _ => ctx_init) = Done (a, cs, bs) -> err a = false -> offset_below a.
Proof.
  intros data pos n ob w a0 rs a cs bs HB HP HN HL E V NB D He. destruct (start_inv data pos n ob w HB HP HN HL) as (x & Ex & Ix & _ & _ & _ & Dx & Tx & _).
  rewrite E in Ex. apply Done_inj in Ex. subst x. apply (decodes_sym_below rs a0 _ Ix (fun _ => legal_init) NB) with (cs1 := cs) (bs := bs); auto.
  unfold offset_below. rewrite Dx, Tx. lia.
Qed.
Lemma n_bits_single : forall a n, bytes_ok (buf a) -> 0 <= byte_pos a <= nbytes a -> nbytes a <= Z.of_nat (length (buf a)) -> 0 <= btg a <= 63 -> 0 < n <= 32 -> err a = false ->
  get_next_n_bit a n = bindo (next_bits (Z.to_nat n) a) (fun a => Done (a, err a)).
Proof. intros a n A B C D. apply n_bit_single. constructor; assumption. Qed.
