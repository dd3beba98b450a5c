(** The whole walk on two memories that agree on the unit and a number of bytes behind it. *)
From Coq Require Import ZArith List Bool Lia.
From Verif Require Import CBase CBaseProofs VlcModel VlcSpec VlcProofs HdrModel HdrSpec AecModel AecSpec SlModel SlSpec SlSpecB SlProofs SlProofsB SlProofsC.
Import ListNotations.
Open Scope Z_scope.

Section Mem.
Variables (M n : Z) (l l' : list Z).
Hypothesis N0 : 0 <= n.
Hypothesis Mn : n < M.
Hypothesis Sb : same_below M l l'.

Definition move_to {A} (r : A * bs) : A * bs := (fst r, Bs l' n (bs_pos (snd r))).
(** [p] does the same on both memories and moves by at most [c] bits. *)
Definition alike {A} (c : Z) (p : P A) : Prop := forall q, (q + c) / 8 < M ->
  p (Bs l' n q) = omap move_to (p (Bs l n q)) /\ forall a b, p (Bs l n q) = Done (a, b) -> exists q', b = Bs l n q' /\ q <= q' <= q + c.

Lemma loop_alike : forall k bo bi inf, bo < M -> read_bits_loop l' n k bo bi inf = read_bits_loop l n k bo bi inf.
Proof.
  induction k as [|k IH]; intros bo bi inf H; cbn [read_bits_loop]; [reflexivity|].
  rewrite <- (Sb bo H). destruct (negb (dbl_ok inf)); [reflexivity|]. destruct (get l bo) as [b|]; [|reflexivity]. cbv zeta.
  destruct (bi - 1 <? 0); [|apply IH; exact H].
  destruct (Z.ltb_spec n (bo + 1)); [reflexivity|]. apply IH. lia.
Qed.
Lemma alike_u : forall k, alike (Z.of_nat k) (u_v k).
Proof.
  intros k q H. unfold u_v, vlc_u_v. cbn [bs_mem bs_len bs_pos].
  assert (E : read_bits l' n q k = read_bits l n q k).
  { unfold read_bits. apply loop_alike. rewrite shiftr3. clear - H. Z.div_mod_to_equations; lia. }
  rewrite E. destruct (read_bits l n q k) as [v| | |]; cbn [omap]; try (split; [reflexivity|discriminate]).
  - split; [reflexivity|]. intros a b X. injection X as <- <-. exists (q + Z.of_nat k). unfold bs_move; cbn. split; [reflexivity|lia].
  - split; [reflexivity|]. intros a b X. injection X as <- <-. exists q. split; [reflexivity|lia].
Qed.
Lemma alike_ret : forall A (a : A) c, 0 <= c -> alike c (retp a).
Proof. intros A a c C q H. split; [reflexivity|]. intros x b X. injection X as <- <-. exists q. split; [reflexivity|lia]. Qed.
Lemma alike_bind : forall A B (p : P A) (f : A -> P B) c d, 0 <= d -> alike c p -> (forall a, alike d (f a)) -> alike (c + d) (bindp p f).
Proof.
  intros A B p f c d D Hp Hf q H. unfold bindp.
  destruct (Hp q) as [E Q]; [clear - D H; Z.div_mod_to_equations; lia|].
  rewrite E. destruct (p (Bs l n q)) as [[a b]| | |]; cbn [omap]; try (split; [reflexivity|discriminate]).
  unfold move_to at 1. cbn [fst snd].
  destruct (Q a b eq_refl) as (q' & -> & Hq'). cbn [bs_pos].
  destruct (Hf a q') as [E' Q']; [clear - D H Hq'; Z.div_mod_to_equations; lia|].
  rewrite E'. split; [reflexivity|]. intros x y X. destruct (Q' x y X) as (q2 & -> & H2). exists q2. split; [reflexivity|lia].
Qed.
Lemma alike_le : forall A (p : P A) c d, c <= d -> alike c p -> alike d p.
Proof.
  intros A p c d L H q Hq. destruct (H q) as [E Q]; [clear - L Hq; Z.div_mod_to_equations; lia|]. split; [exact E|].
  intros a b X. destruct (Q a b X) as (q' & -> & Y). exists q'. split; [reflexivity|lia].
Qed.
Lemma alike_flag : alike 1 flag.
Proof. unfold flag. change 1 with (Z.of_nat 1 + 0). apply alike_bind; [lia|apply alike_u|]. intros a. apply alike_ret. lia. Qed.
Lemma alike_skip : forall k, 0 <= k -> alike k (skip k).
Proof. intros k K q H. split; [reflexivity|]. intros a b X. injection X as <- <-. exists (q + k). split; [reflexivity|lia]. Qed.

Lemma alike_header : forall g old, alike 56 (parse_slice_header g old).
Proof.
  intros g old. unfold parse_slice_header.
  apply (alike_bind _ _ _ _ 24 32); [lia|apply alike_skip; lia|intros _].
  apply (alike_bind _ _ _ _ 8 24); [lia|apply (alike_u 8)|intros _].
  apply (alike_bind _ _ _ _ 3 21); [lia|destruct (144 * p_lcu g <? p_height g); [apply (alike_u 3)|apply alike_ret; lia]|intros _].
  apply (alike_bind _ _ _ _ 8 13); [lia|apply (alike_u 8)|intros _].
  apply (alike_bind _ _ _ _ 2 11); [lia|destruct (255 * p_lcu g <? p_width g); [apply (alike_u 2)|apply alike_ret; lia]|intros _].
  apply (alike_bind _ _ _ _ 8 3); [lia| |].
  - destruct (p_fixed g); [apply alike_ret; lia|].
    apply (alike_bind _ _ _ _ 1 7); [lia|apply alike_flag|intros f].
    apply (alike_bind _ _ _ _ 7 0); [lia|apply (alike_u 7)|intros s]. apply alike_ret. lia.
  - intros [[qp dqp] fx]. apply (alike_bind _ _ _ _ 3 0); [lia| |intros sao; apply alike_ret; lia].
    destruct (p_sao g); [|apply alike_ret; lia].
    apply (alike_bind _ _ _ _ 1 2); [lia|apply alike_flag|intros a].
    apply (alike_bind _ _ _ _ 1 1); [lia|apply alike_flag|intros b].
    apply (alike_bind _ _ _ _ 1 0); [lia|apply alike_flag|intros c]. apply alike_ret. lia.
Qed.

Lemma code_alike : forall p, p + 3 < M -> slice_code_at l' p = slice_code_at l p.
Proof. intros p H. unfold slice_code_at. rewrite <- !Sb by lia. reflexivity. Qed.
Lemma found_alike : forall k q, (q + 7) / 8 + Z.of_nat k + 3 <= M ->
  found_loop k (Bs l' n q) = omap move_to (found_loop k (Bs l n q)) /\
  forall f b, found_loop k (Bs l n q) = Done (f, b) -> exists q', b = Bs l n q' /\ q <= q' <= q + 8 * Z.of_nat k /\ (f = true -> q' <= q + 8 * Z.of_nat k - 8).
Proof.
  induction k as [|k IH]; intros q H; cbn [found_loop bs_mem bs_pos].
  - split; [reflexivity|]. intros f b X. injection X as <- <-. exists q. split; [reflexivity|]. split; [lia|discriminate].
  - rewrite up8. rewrite code_alike by lia. destruct (slice_code_at l ((q + 7) / 8)) as [[|]|].
    + split; [reflexivity|]. intros f b X. injection X as <- <-. exists q. split; [reflexivity|lia].
    + unfold bs_move; cbn [bs_mem bs_len bs_pos].
      assert (U : (q + 8 + 7) / 8 = (q + 7) / 8 + 1) by apply (up8_add q 1).
      destruct (IH (q + 8)) as [E Q]; [rewrite U; lia|]. rewrite E. split; [reflexivity|].
      intros f b X. destruct (Q f b X) as (q' & -> & Y & Z0). exists q'. split; [reflexivity|]. split; [lia|]. intros F. specialize (Z0 F). lia.
    + split; [reflexivity|discriminate].
Qed.
Lemma user_alike : forall fuel pos left, pos + left <= n -> user_loop fuel l' pos left = user_loop fuel l pos left.
Proof.
  induction fuel as [|fuel IH]; intros pos left H; cbn [user_loop]; destruct (Z.leb_spec 4 left); try reflexivity.
  rewrite <- !Sb by lia. destruct (get l pos) as [a|]; [|reflexivity]. destruct (get l (pos + 1)) as [b|]; [|reflexivity].
  destruct (get l (pos + 2)) as [c|]; [|reflexivity]. destruct (get l (pos + 3)) as [d|]; [|reflexivity].
  rewrite !IH by lia. reflexivity.
Qed.

Section Walk.
Variable T : Type.
Variable new_slice : T -> T.
Variable reset_row : Z -> T -> T.
Variable lcu : Z -> Z -> shdr -> T -> aec -> outcome (T * aec * bool).
Hypothesis Hl : reads_unit_only lcu.
Variables (g : pic) (w : Z).

(** States of the two runs; [B] bounds the position. At the start the entropy decoders are those of the picture before. *)
Definition twin (B : Z) (s s' : st T) : Prop :=
  bs_mem (s_bs s) = l /\ bs_len (s_bs s) = n /\ s_bs s' = Bs l' n (bs_pos (s_bs s)) /\ s_chk s' = s_chk s /\ s_idx s' = s_idx s /\
  s_hdr s' = s_hdr s /\ s_err s' = s_err s /\ s_t s' = s_t s /\ s_log s' = s_log s /\ (bs_pos (s_bs s) + 7) / 8 <= B /\
  (s_aec s' = on l' (s_aec s) /\ reading (B - 17) n l (s_aec s) \/
   bound (s_aec s') = bound (s_aec s) /\ byte_buf (s_aec s') = byte_buf (s_aec s) /\ s_chk s = true /\ slice_code l ((bs_pos (s_bs s) + 7) / 8)).

Definition twins (B : Z) (o o' : outcome (st T * bool)) : Prop :=
  match o, o' with
  | Done (s, e), Done (s', e') => e = e' /\ twin B s s'
  | Fail, Fail => True | Undef, Undef => True | Hang, Hang => True
  | _, _ => False
  end.
Lemma twin_le : forall B B' s s', B <= B' -> twin B s s' -> twin B' s s'.
Proof.
  intros B B' s s' L (H1 & H2 & H3 & H4 & H5 & H6 & H7 & H8 & H9 & H10 & H11). unfold twin. repeat (split; [assumption|]).
  split; [lia|]. destruct H11 as [[E (R1 & R2 & R3 & R4)]|H11]; [left|right; exact H11].
  split; [exact E|]. repeat split; auto; lia.
Qed.

(** A header check: without an error the decoder is inside the unit, or the state has not changed but for the position. *)
Lemma check_alike : forall B y s s', n <= B - 17 -> B + 11 < M -> twin B s s' ->
  match check_slice_header T new_slice reset_row g y s, check_slice_header T new_slice reset_row g y s' with
  | Done (a, e), Done (a', e') => e = e' /\ (if e then twin (B + 27) a a' else
      bs_mem (s_bs a) = l /\ bs_len (s_bs a) = n /\ bs_mem (s_bs a') = l' /\ bs_len (s_bs a') = n /\ s_idx a' = s_idx a /\ s_hdr a' = s_hdr a /\ s_err a' = s_err a /\
      s_t a' = s_t a /\ s_log a' = s_log a /\ s_aec a' = on l' (s_aec a) /\ reading (B - 17) n l (s_aec a))
  | Fail, Fail => True | Undef, Undef => True | Hang, Hang => True
  | _, _ => False
  end.
Proof.
  intros B y s s' NB BM (H1 & H2 & H3 & H4 & H5 & H6 & H7 & H8 & H9 & H10 & H11).
  destruct s as [b c i hd a e t log], s' as [b' c' i' hd' a' e' t' log'].
  cbn [s_bs s_chk s_idx s_hdr s_aec s_err s_t s_log] in *. destruct b as [m0 n0 q]. cbn [bs_mem bs_len bs_pos] in *. subst m0 n0 b' c' i' hd' e' t' log'.
  unfold check_slice_header. cbn [s_bs s_chk s_idx s_hdr s_aec s_err s_t s_log].
  destruct c.
  2:{ cbn [s_bs s_chk s_idx s_hdr s_aec s_err s_t s_log bs_mem bs_len]. destruct H11 as [[E R]|(_ & _ & X & _)]; [|discriminate X]. repeat (split; [reflexivity|]). split; [exact E|exact R]. }
  unfold found_slice_header. destruct (found_alike 4 q) as [E Q]; [change (Z.of_nat 4) with 4; lia|].
  assert (hit : slice_code l ((q + 7) / 8) -> found_loop 4 (Bs l n q) = Done (true, Bs l n q)).
  { intros C. cbn [found_loop bs_mem bs_pos]. rewrite up8. apply code_at_true in C. rewrite C. reflexivity. }
  rewrite E. destruct (found_loop 4 (Bs l n q)) as [[f b]| | |] eqn:EF; cbn [omap bindo]; try exact I.
  destruct (Q f b eq_refl) as (q' & -> & Y & Y'). change (Z.of_nat 4) with 4 in *. unfold move_to. cbn [fst snd bs_pos]. destruct f.
  2:{ cbn [s_bs s_chk s_idx s_hdr s_aec s_err s_t s_log bs_mem bs_len]. destruct H11 as [[E' R]|(_ & _ & _ & X)]; [|specialize (hit X); congruence].
      repeat (split; [reflexivity|]). split; [exact E'|exact R]. }
  specialize (Y' eq_refl).
  set (p := (q' + 7) / 8). assert (P : p <= B + 3). { clear - H10 Y' p. unfold p. clearbody p. Z.div_mod_to_equations; lia. }
  unfold bs_align. cbn [bs_mem bs_len bs_pos]. rewrite up8. fold p. rewrite Z.shiftl_mul_pow2 by lia. change (2 ^ 3) with 8.
  destruct (alike_header g hd (p * 8)) as [Eh Qh]; [clear - P BM; Z.div_mod_to_equations; lia|].
  rewrite Eh. destruct (parse_slice_header g hd (Bs l n (p * 8))) as [[hd1 b1]| | |] eqn:EP; cbn [omap bindo]; try exact I.
  destruct (Qh hd1 b1 eq_refl) as (q2 & -> & Z0). unfold move_to. cbn [fst snd bs_mem bs_len bs_pos].
  set (d := Z.quot (q2 + 7) 8).
  assert (D : d <= B + 10). { clear - P Z0 d N0 NB. unfold d. clearbody d. Z.quot_rem_to_equations; lia. }
  assert (B1 : bound a' = bound a) by (destruct H11 as [[-> _]|(X & _)]; [reflexivity|exact X]).
  assert (B2 : byte_buf a' = byte_buf a) by (destruct H11 as [[-> _]|(_ & X & _)]; [reflexivity|exact X]).
  rewrite B1, B2.
  assert (Sn : same_below n l l') by (apply (same_le n M); [lia|exact Sb]).
  destruct (start_on (B + 10) n l l' ltac:(lia) Sn d (bound a) (byte_buf a) D) as [Es Qs].
  rewrite Es. destruct (start_decoding l d n (bound a) (byte_buf a)) as [a1| | |] eqn:ES; cbn [omap bindo]; try exact I.
  change (err (on l' a1)) with (err a1). destruct (err a1) eqn:EE.
  - split; [reflexivity|]. unfold twin. cbn [s_bs s_chk s_idx s_hdr s_aec s_err s_t s_log bs_mem bs_len bs_pos].
    repeat (split; [reflexivity|]). split; [clear - P Z0; Z.div_mod_to_equations; lia|]. left. split; [reflexivity|].
    replace (B + 27 - 17) with (B + 10) by ring. apply (reading_set (B + 10) n l a1); auto.
  - split; [reflexivity|]. cbn [s_bs s_chk s_idx s_hdr s_aec s_err s_t s_log bs_mem bs_len].
    pose proof (start_inside _ _ _ _ _ _ ES EE) as In.
    destruct (start_on (B - 17) n l l' NB Sn d (bound a) (byte_buf a) ltac:(lia)) as [_ Qr].
    repeat (split; [reflexivity|]). apply Qr. exact ES.
Qed.

Lemma row_alike : forall m B y x s s', n <= B - 17 -> B + 11 < M -> twin B s s' ->
  twins (B + 27) (row_loop T new_slice reset_row lcu m g w y x s) (row_loop T new_slice reset_row lcu m g w y x s').
Proof.
  induction m as [|m IH]; intros B y x s s' NB BM H; cbn [row_loop].
  - split; [reflexivity|]. apply (twin_le B); [lia|exact H].
  - assert (E7 : s_err s' = s_err s) by apply H. rewrite E7. destruct (s_err s).
    + split; [reflexivity|]. apply (twin_le B); [lia|exact H].
    + pose proof (check_alike B y s s' NB BM H) as C.
      destruct (check_slice_header T new_slice reset_row g y s) as [[a e]| | |]; destruct (check_slice_header T new_slice reset_row g y s') as [[a' e']| | |]; try contradiction; try exact I.
      cbn [bindo]. destruct C as [<- C]. destruct e; [split; [reflexivity|exact C]|].
      destruct C as (C1 & C2 & C3 & C4 & C5 & C6 & C7 & C8 & C9 & C10 & C11).
      unfold one_lcu. rewrite C5, C6, C8, C10.
      assert (Sn : same_below n l l') by (apply (same_le n M); [lia|exact Sb]).
      destruct (Hl (B - 17) n l l' NB Sn (y * w + x) (to_i8 (s_idx a)) (s_hdr a) (s_t a) (s_aec a) C11) as [El Ql].
      rewrite El. destruct (lcu (y * w + x) (to_i8 (s_idx a)) (s_hdr a) (s_t a) (s_aec a)) as [[[t1 a1] e1]| | |]; cbn [omap bindo]; try exact I.
      specialize (Ql t1 a1 e1 eq_refl).
      destruct (final_on (B - 17) n l l' NB Sn a1 Ql) as [Ef Qf].
      rewrite Ef. destruct (decode_final a1) as [[a2 f]| | |]; cbn [omap bindo]; try exact I.
      specialize (Qf (a2, f) eq_refl). cbn [fst] in Qf. unfold val_on. cbn [fst snd].
      apply IH; [exact NB|exact BM|].
      unfold twin. cbn [s_bs s_chk s_idx s_hdr s_aec s_err s_t s_log bs_mem bs_len bs_pos].
      rewrite C1, C2, C3, C4, C9.
      repeat (split; [reflexivity|]). split; [|left; split; [reflexivity|exact Qf]].
      destruct Qf as (_ & _ & Q3 & Q4). unfold aec_bits_read. rewrite Z.shiftl_mul_pow2 by lia. clear - Q3 Q4. Z.div_mod_to_equations; lia.
Qed.

Lemma rows_alike : forall m B y s s', n <= B - 17 -> B + 27 * Z.of_nat m + 11 < M + 27 -> twin B s s' ->
  match rows T new_slice reset_row lcu m g w y s, rows T new_slice reset_row lcu m g w y s' with
  | Done a, Done a' => s_t a' = s_t a /\ s_err a' = s_err a /\ s_log a' = s_log a
  | Fail, Fail => True | Undef, Undef => True | Hang, Hang => True
  | _, _ => False
  end.
Proof.
  induction m as [|m IH]; intros B y s s' NB BM H; cbn [rows].
  - destruct H as (H1 & H2 & H3 & H4 & H5 & H6 & H7 & H8 & H9 & _). auto.
  - pose proof (row_alike (Z.to_nat w) B y 0 s s' NB ltac:(lia) H) as R. unfold twins in R.
    destruct (row_loop T new_slice reset_row lcu (Z.to_nat w) g w y 0 s) as [[a e]| | |]; destruct (row_loop T new_slice reset_row lcu (Z.to_nat w) g w y 0 s') as [[a' e']| | |];
      try contradiction; try exact I.
    cbn [bindo fst]. destruct R as [_ R]. apply (IH (B + 27)); [lia|lia|exact R].
Qed.

Lemma picture_alike : forall h q hd0 a0 t0, 0 <= q -> n <= Z.of_nat (length l) -> n + 32 * (Z.max 0 h + 1) <= M ->
  shown (decode_picture T new_slice reset_row lcu g w h (Bs l' n q) hd0 a0 t0) = shown (decode_picture T new_slice reset_row lcu g w h (Bs l n q) hd0 a0 t0).
Proof.
  intros h q hd0 a0 t0 Hq Ln HM. unfold decode_picture, decode_user_data. cbn [bs_mem bs_len bs_pos].
  assert (U : user_loop (Z.to_nat n) l' (Z.shiftr q 3) (n - Z.shiftr q 3) = user_loop (Z.to_nat n) l (Z.shiftr q 3) (n - Z.shiftr q 3)) by (apply user_alike; lia).
  rewrite U.
  assert (Q : 0 <= q / 8) by (Z.div_mod_to_equations; lia).
  rewrite shiftr3.
  destruct (user_loop_spec (Z.to_nat n) l (q / 8) (n - q / 8) n) as [(p & F & Pn & C)|(_ & C)]; [lia|exact Q|lia|exact Ln| |]; rewrite C; cbn [bindo]; [|reflexivity].
  rewrite Z.shiftl_mul_pow2 by lia. change (2 ^ 3) with 8.
  assert (P8 : (p * 8 + 7) / 8 = p) by (Z.div_mod_to_equations; lia).
  pose proof (rows_alike (Z.to_nat h) (n + 17) 0 (St (Bs l n (p * 8)) true (-1) hd0 a0 false t0 []) (St (Bs l' n (p * 8)) true (-1) hd0 a0 false t0 [])) as R.
  assert (R' : n <= n + 17 - 17) by lia. specialize (R R'). clear R'.
  assert (R' : n + 17 + 27 * Z.of_nat (Z.to_nat h) + 11 < M + 27) by lia. specialize (R R'). clear R'.
  assert (R' : twin (n + 17) (St (Bs l n (p * 8)) true (-1) hd0 a0 false t0 []) (St (Bs l' n (p * 8)) true (-1) hd0 a0 false t0 [])).
  { unfold twin. cbn [s_bs s_chk s_idx s_hdr s_aec s_err s_t s_log bs_mem bs_len bs_pos]. rewrite P8.
    repeat (split; [reflexivity|]). split; [lia|]. right. repeat split; auto; apply F. }
  specialize (R R').
  destruct (rows T new_slice reset_row lcu (Z.to_nat h) g w 0 (St (Bs l n (p * 8)) true (-1) hd0 a0 false t0 [])) as [a| | |];
  destruct (rows T new_slice reset_row lcu (Z.to_nat h) g w 0 (St (Bs l' n (p * 8)) true (-1) hd0 a0 false t0 [])) as [a'| | |]; try contradiction; cbn [bindo]; try reflexivity.
  destruct R as (R1 & R2 & R3). unfold shown, omap. rewrite R1, R2, R3. reflexivity.
Qed.
End Walk.
End Mem.
