From Coq Require Import ZArith List Bool Lia.
From Verif Require Import CBase CBaseProofs VlcModel VlcSpec VlcProofs BsModel BsSpec BsProofs2 HdrModel HdrSpec HdrProofs UhModel UhSpec.
Import ListNotations.
Open Scope Z_scope.

(** Parsers keep the data, do not move back and end. *)
Definition good {A} (p : P A) : Prop := forall s, 0 <= bs_pos s ->
  match p s with
  | Done (_, s') => bs_mem s' = bs_mem s /\ bs_len s' = bs_len s /\ bs_pos s <= bs_pos s'
  | Hang => False
  | _ => True
  end.

Lemma good_ret : forall A (a : A), good (retp a).
Proof. intros A a s H. cbn. repeat split; lia. Qed.
Lemma good_fail : forall A, good (@failp A).
Proof. intros A s H. exact I. Qed.
Lemma good_undef : forall A, good (@undefp A).
Proof. intros A s H. exact I. Qed.
Lemma good_bind : forall A B (p : P A) (f : A -> P B), good p -> (forall a, good (f a)) -> good (bindp p f).
Proof.
  intros A B p f Hp Hf s H. unfold bindp. specialize (Hp s H). destruct (p s) as [[a s1]| | |]; auto.
  destruct Hp as (E1 & E2 & L). specialize (Hf a s1 ltac:(lia)). destruct (f a s1) as [[b s2]| | |]; auto.
  destruct Hf as (E3 & E4 & L2). rewrite E3, E4. repeat split; auto. lia.
Qed.
Lemma good_skip : forall n, 0 <= n -> good (skip n).
Proof. intros n Hn s H. cbn. repeat split; lia. Qed.

Lemma read_bits_no_hang : forall n mem i_buf byo bio inf, read_bits_loop mem i_buf n byo bio inf <> Hang.
Proof.
  induction n as [|n IH]; intros mem i_buf byo bio inf; cbn [read_bits_loop]; [discriminate|].
  destruct (negb (dbl_ok inf)); [discriminate|]. destruct (get mem byo); [|discriminate].
  destruct (bio - 1 <? 0); [|apply IH]. destruct (i_buf <? byo + 1); [discriminate | apply IH].
Qed.
Lemma good_u : forall n, good (u_v n).
Proof.
  intros n s H. unfold u_v, vlc_u_v. destruct (read_bits (bs_mem s) (bs_len s) (bs_pos s) n) as [v| | |] eqn:E; auto.
  - cbn. repeat split; lia.
  - repeat split; lia.
  - exact (read_bits_no_hang _ _ _ _ _ _ E).
Qed.
Lemma good_flag : good flag.
Proof. apply good_bind; [apply good_u | intro; apply good_ret]. Qed.

Lemma get_none : forall (l : list Z) i, Z.of_nat (length l) <= i -> get l i = None.
Proof.
  intros l i H. unfold get. destruct (i <? 0) eqn:E; [reflexivity|]. apply nth_error_None. lia.
Qed.
Lemma zeros_ends : forall fuel mem len cnt byo bio, 0 <= bio <= 7 -> 0 <= byo -> (0 < fuel)%nat ->
  8 * Z.of_nat (length mem) < 8 * byo + (7 - bio) + Z.of_nat fuel ->
  match vlc_zeros fuel mem len cnt byo bio with Done (l, c, _, _) => cnt <= c | Hang => False | _ => True end.
Proof.
  induction fuel as [|f IH]; intros mem len cnt byo bio Hb Hy Hp Hf; [lia|]. cbn [vlc_zeros].
  destruct (get mem byo) as [b|] eqn:G; [|exact I].
  assert (L : byo < Z.of_nat (length mem)).
  { destruct (Z_lt_dec byo (Z.of_nat (length mem))); [assumption|]. rewrite get_none in G by lia. discriminate. }
  destruct (Z.land b (Z.shiftl 1 bio) =? 0); [|lia].
  destruct (bio - 1 <? 0) eqn:E.
  - assert (X := IH mem (len + 1) (cnt + 1) (byo + 1) (bio - 1 + 8) ltac:(lia) ltac:(lia) ltac:(lia) ltac:(lia)).
    destruct (vlc_zeros f mem (len + 1) (cnt + 1) (byo + 1) (bio - 1 + 8)) as [[[[? ?] ?] ?]| | |]; auto; lia.
  - assert (X := IH mem (len + 1) (cnt + 1) byo (bio - 1) ltac:(lia) ltac:(lia) ltac:(lia) ltac:(lia)).
    destruct (vlc_zeros f mem (len + 1) (cnt + 1) byo (bio - 1)) as [[[[? ?] ?] ?]| | |]; auto; lia.
Qed.
Lemma info_ends : forall n mem i_buf inf cnt byo bio,
  match vlc_info n mem i_buf inf cnt byo bio with Done (_, c) => cnt <= c | Hang => False | _ => True end.
Proof.
  induction n as [|n IH]; intros mem i_buf inf cnt byo bio; cbn [vlc_info]; [lia|].
  destruct (if bio - 1 <? 0 then (byo + 1, bio - 1 + 8) else (byo, bio - 1)) as [byo' bio'].
  destruct (i_buf <? byo'); [exact I|]. destruct (negb (dbl_ok inf)); [exact I|].
  destruct (get mem byo') as [b|]; [|exact I].
  match goal with |- match vlc_info n mem i_buf ?i ?c ?y ?o with _ => _ end =>
    specialize (IH mem i_buf i c y o); destruct (vlc_info n mem i_buf i c y o) as [[? ?]| | |] end; auto. lia.
Qed.
Lemma good_ue : good ue_v.
Proof.
  intros s H. unfold ue_v, vlc_ue_v, get_vlc_symbol.
  assert (M : 0 <= Z.land (bs_pos s) 7 <= 7) by (rewrite land7; pose proof (Z.mod_pos_bound (bs_pos s) 8); lia).
  assert (D : 8 * Z.shiftr (bs_pos s) 3 + Z.land (bs_pos s) 7 = bs_pos s) by (rewrite shiftr3, land7; pose proof (Z.div_mod (bs_pos s) 8); lia).
  assert (X := zeros_ends (S (8 * length (bs_mem s))) (bs_mem s) 1 1 (Z.shiftr (bs_pos s) 3) (7 - Z.land (bs_pos s) 7)
    ltac:(lia) ltac:(lia) ltac:(lia) ltac:(lia)).
  destruct (vlc_zeros _ _ _ _ _ _) as [[[[l c] y] o]| | |]; cbn [bindo]; auto.
  - assert (Y := info_ends (Z.to_nat (l - 1)) (bs_mem s) (bs_len s) 0 c y o).
    destruct (vlc_info _ _ _ _ _ _ _) as [[i c']| | |]; cbn [bindo]; auto; [|repeat split; lia].
    unfold shl1. destruct ((Z.shiftr c' 1 <? 0) || (30 <? Z.shiftr c' 1)); cbn [bindo]; auto.
    cbn. repeat split; lia.
  - try contradiction; repeat split; lia.
Qed.

Lemma good_repp : forall A n (p : P A), good p -> good (repp n p).
Proof.
  intros A n p Hp; induction n as [|n IH]; cbn [repp]; [apply good_ret|].
  apply good_bind; [exact Hp|]. intro. apply good_bind; [exact IH|]. intro. apply good_ret.
Qed.

Lemma good_tab : forall c n, good (read_tab c n).
Proof. intros c n. unfold read_tab. destruct (c <? n); [apply good_undef | apply good_repp, good_u]. Qed.

Ltac goods := repeat first
  [ apply good_u | apply good_flag | apply good_ue | apply good_ret | apply good_fail | apply good_undef
  | apply good_repp | apply good_tab | apply good_bind; [|intro] | match goal with |- good (if ?c then _ else _) => destruct c end
  | progress (cbv zeta) ].

Lemma good_seq_rps : good parse_seq_rps.
Proof. unfold parse_seq_rps. goods. Qed.
Lemma good_wq : forall w, good (parse_wq w).
Proof. intro w. unfold parse_wq. goods. Qed.

Lemma seq_body_moves : forall s q s', 0 <= bs_pos s -> parse_seq_body s = Done (q, s') ->
  bs_mem s' = bs_mem s /\ bs_len s' = bs_len s /\ bs_pos s + 32 <= bs_pos s'.
Proof.
  intros s q s' H E. unfold parse_seq_body in E. apply bindp_done in E. destruct E as ([] & s1 & E1 & E).
  inversion E1; subst s1; clear E1.
  match type of E with ?p (bs_move s 32) = _ => assert (G : good p) end.
  { goods; try apply good_seq_rps; try apply good_wq. }
  specialize (G (bs_move s 32) ltac:(cbn; lia)). rewrite E in G. exact G.
Qed.
Lemma seq_body_ends : forall s, 0 <= bs_pos s -> parse_seq_body s <> Hang.
Proof.
  intros s H E. assert (G : good parse_seq_body).
  { unfold parse_seq_body. apply good_bind; [apply good_skip; lia|]. intro.
    goods; try apply good_seq_rps; try apply good_wq. }
  specialize (G s H). rewrite E in G. exact G.
Qed.
Lemma align_up : forall p, p <= Z.shiftl (Z.shiftr (p + 7) 3) 3 <= p + 7.
Proof.
  intro p. rewrite Z.shiftl_mul_pow2, shiftr3 by lia. change (2 ^ 3) with 8.
  pose proof (Z.div_mod (p + 7) 8). pose proof (Z.mod_pos_bound (p + 7) 8). lia.
Qed.
Lemma seq_moves : forall s q s', 0 <= bs_pos s -> parse_sequence_header s = Done (q, s') ->
  bs_mem s' = bs_mem s /\ bs_len s' = bs_len s /\ bs_pos s + 32 <= bs_pos s'.
Proof.
  intros s q s' H E. unfold parse_sequence_header in E. destruct (parse_seq_body s) as [[q0 s0]| | |] eqn:B; try discriminate.
  inversion E; subst. destruct (seq_body_moves s q s0 H B) as (A1 & A2 & A3). unfold bs_align. cbn [bs_mem bs_len bs_pos].
  pose proof (align_up (bs_pos s0)) as U. split; [exact A1|]. split; [exact A2|]. clear - A3 U. lia.
Qed.
Lemma seq_ends : forall s, 0 <= bs_pos s -> parse_sequence_header s <> Hang.
Proof.
  intros s H E. unfold parse_sequence_header in E. destruct (parse_seq_body s) as [[q0 s0]| | |] eqn:B; try discriminate.
  exact (seq_body_ends s H B).
Qed.

Lemma loop_ends : forall fuel s qs, 0 <= bs_pos s -> (Z.to_nat (bs_len s) < Z.to_nat (Z.shiftr (bs_pos s) 3) + fuel)%nat \/ (0 < fuel /\ Z.to_nat (bs_len s) <= Z.to_nat (Z.shiftr (bs_pos s) 3))%nat ->
  (0 < fuel)%nat -> unit_loop fuel s qs <> Hang.
Proof.
  induction fuel as [|f IH]; intros s qs Hp Hf H0; [lia|]. cbn [unit_loop].
  set (p := Z.to_nat (Z.shiftr (bs_pos s) 3)) in *.
  destruct (find_start_code (skipn p (firstn (Z.to_nat (bs_len s)) (bs_mem s)))) as [k|] eqn:F; [|discriminate].
  apply find_start_code_bound in F. rewrite skipn_length, firstn_length in F.
  cbn [bs_len bs_pos bs_mem].
  destruct (_ <? _); [discriminate|]. destruct (_ || _); [discriminate|].
  destruct (_ =? _) eqn:C.
  - set (s1 := Bs (bs_mem s) (bs_len s) (Z.shiftl (Z.of_nat (p + k)) 3)).
    assert (P1 : bs_pos s1 = 8 * Z.of_nat (p + k)) by (unfold s1; cbn [bs_pos]; rewrite Z.shiftl_mul_pow2 by lia; lia).
    destruct (parse_sequence_header s1) as [[q s']| | |] eqn:E; try discriminate.
    + destruct (seq_moves s1 q s' ltac:(lia) E) as (A1 & A2 & A3). apply IH.
      * lia.
      * rewrite A2. cbn [s1 bs_len]. assert (Z.of_nat (p + k) + 4 <= Z.shiftr (bs_pos s') 3).
        { rewrite shiftr3. apply Z.div_le_lower_bound; lia. }
        left. lia.
      * lia.
    + intros _. exact (seq_ends s1 ltac:(lia) E).
  - apply IH; cbn [bs_move bs_pos bs_len]; rewrite ?Z.shiftl_mul_pow2 by lia; change (2 ^ 3) with 8; [lia| |lia].
    left. rewrite shiftr3. replace (Z.of_nat (p + k) * 8 + 32) with ((Z.of_nat (p + k) + 4) * 8) by lia.
    rewrite Z.div_mul by lia. lia.
Qed.

Lemma header_ends : forall s, 0 <= bs_pos s -> parse_header s <> Hang.
Proof.
  intros s H. unfold parse_header. destruct (bs_len s <=? 4); [discriminate|]. apply loop_ends; lia.
Qed.

(** *** The picture is found. *)
Lemma sc_skip : forall l p j t, sc_at (skipn p l) j t <-> sc_at l (p + j) t.
Proof.
  assert (N : forall (l : list Z) p j, nth_error (skipn p l) j = nth_error l (p + j)).
  { intros l p; revert l; induction p as [|p IH]; intros [|a l] j; cbn; auto. now destruct j. }
  intros l p j t. unfold sc_at. rewrite !N.
  replace (p + (j + 1))%nat with (p + j + 1)%nat by lia.
  replace (p + (j + 2))%nat with (p + j + 2)%nat by lia.
  replace (p + (j + 3))%nat with (p + j + 3)%nat by lia. reflexivity.
Qed.
Lemma bytes_skip : forall p l, bytes_ok l -> bytes_ok (skipn p l).
Proof.
  induction p as [|p IH]; intros [|a l] H; cbn; auto. apply IH. now inversion H.
Qed.

(** The next start code is the one at [b] if there is none before it. *)
Lemma find_at : forall data p b t, bytes_ok data -> (p <= b)%nat -> sc_at data b t ->
  (forall j u, (p <= j < b)%nat -> ~ sc_at data j u) ->
  find_start_code (skipn p data) = Some (b - p)%nat.
Proof.
  intros data p b t Hb Hp Hs Hn. destruct (find_start_code (skipn p data)) as [k|] eqn:F.
  - destruct (find_start_code_some _ _ (bytes_skip p data Hb) F) as ((u & U) & V).
    apply sc_skip in U. f_equal.
    destruct (lt_eq_lt_dec (p + k) b) as [[L|E]|G].
    + exfalso. exact (Hn (p + k)%nat u ltac:(lia) U).
    + lia.
    + exfalso. apply (V (b - p)%nat t ltac:(lia)). apply sc_skip. replace (p + (b - p))%nat with b by lia. exact Hs.
  - exfalso. apply (find_start_code_none _ (bytes_skip p data Hb) F (b - p)%nat t). apply sc_skip.
    replace (p + (b - p))%nat with b by lia. exact Hs.
Qed.

Lemma sc_nth : forall l b t, sc_at l b t -> nth (b + 3) l 0 = t /\ (b + 3 < length l)%nat.
Proof.
  intros l b t (_ & _ & _ & H). split; [now apply nth_error_nth|]. apply nth_error_Some. congruence.
Qed.

Section Found.
Variables (ts : list thing) (pc : Z) (rest : list Z).
Let data := front ts ++ [0; 0; 1; pc] ++ rest.
Hypothesis B : bytes_ok data.
Hypothesis E : no_emulation ts ([0; 0; 1; pc] ++ rest).
Hypothesis OKs : Forall thing_ok ts.
Hypothesis PC : pc = 179 \/ pc = 182.

Lemma front_app : forall a b, front (a ++ b) = front a ++ front b.
Proof. intros. apply flat_map_app. Qed.

Lemma thing_bytes : forall t, exists c body, bytes_of_thing t = [0; 0; 1; c] ++ body /\
  c = match t with Other c _ => c | Sequence _ _ => 176 end.
Proof. intros [c b|y b]; cbn; eauto. Qed.

Lemma sc_here : forall (a : list Z) c b, sc_at (a ++ [0; 0; 1; c] ++ b) (length a) c.
Proof.
  intros a c b. unfold sc_at. rewrite !(nth_error_app2 a) by lia.
  replace (length a - length a)%nat with O by lia.
  replace (length a + 1 - length a)%nat with 1%nat by lia.
  replace (length a + 2 - length a)%nat with 2%nat by lia.
  replace (length a + 3 - length a)%nat with 3%nat by lia. repeat split; reflexivity.
Qed.

Lemma len4 : forall t, (4 <= length (bytes_of_thing t))%nat.
Proof. intros [c b|y b]; cbn; lia. Qed.

(** No start code strictly inside the thing behind [a]. *)
Lemma inside : forall a t b j u, ts = a ++ t :: b -> (length (front a) < j < length (front a) + length (bytes_of_thing t))%nat ->
  ~ sc_at data j u.
Proof.
  intros a t b j u Ht Hj Hs.
  assert (L : length (front ts) = (length (front a) + length (bytes_of_thing t) + length (front b))%nat).
  { rewrite Ht, front_app. cbn [front flat_map]. rewrite !app_length. fold (front b). lia. }
  destruct (E j u Hs ltac:(lia)) as (a' & t' & b' & Ht' & ->).
  assert (C : a' = a \/ (exists l, a' = a ++ t :: l) \/ (exists l, a = a' ++ t' :: l)).
  { rewrite Ht in Ht'. clear - Ht'. revert a' Ht'. induction a as [|x a IH]; intros [|x' a'] H; cbn in H.
    - left; reflexivity.
    - right; left. inversion H; subst. exists a'. reflexivity.
    - right; right. inversion H; subst. exists a. reflexivity.
    - inversion H; subst. destruct (IH a' H2) as [->|[[l ->]|[l ->]]]; [left|right; left; exists l|right; right; exists l]; reflexivity. }
  destruct C as [->|[[l ->]|[l ->]]].
  - lia.
  - rewrite front_app in Hj. cbn [front flat_map] in Hj. rewrite !app_length in Hj. lia.
  - rewrite front_app in Hj. cbn [front flat_map] in Hj. rewrite !app_length in Hj. lia.
Qed.

Lemma seq_here : forall a y body b, ts = a ++ Sequence y body :: b ->
  exists q s', parse_sequence_header (Bs data (Z.of_nat (length data)) (8 * Z.of_nat (length (front a)))) = Done (q, s') /\
    meaning y q /\ bs_mem s' = data /\ bs_len s' = Z.of_nat (length data) /\
    exists n, (4 <= n <= length (bytes_of_thing (Sequence y body)))%nat /\ bs_pos s' = 8 * Z.of_nat (length (front a) + n).
Proof.
  intros a y body b Ht.
  assert (T : thing_ok (Sequence y body)) by (pose proof OKs as Q; rewrite Ht in Q; rewrite Forall_forall in Q; apply Q; apply in_elt).
  destruct T as (F & Lg & pad & Hb).
  assert (D : data = front a ++ bytes_of_thing (Sequence y body) ++ (front b ++ [0; 0; 1; pc] ++ rest)).
  { unfold data. rewrite Ht, front_app. cbn [front flat_map]. rewrite <- !app_assoc. reflexivity. }
  assert (X : bits_of data = bits_of (front a) ++ syn_bits y ++ (pad ++ bits_of (front b ++ [0; 0; 1; pc] ++ rest))).
  { rewrite D, !bits_of_app, Hb, <- !app_assoc. reflexivity. }
  pose proof (parse_built y F Lg data (bits_of (front a)) _ X) as R. unfold at_pos in R.
  rewrite bits_of_length in R.
  replace (8 * Z.of_nat (length (front a))) with (Z.of_nat (8 * length (front a))) by lia.
  unfold parse_sequence_header. rewrite R. eexists. eexists. split; [reflexivity|].
  split; [apply built_meaning; assumption|]. split; [reflexivity|]. split; [reflexivity|].
  rewrite app_length, bits_of_length.
  assert (Len : (length (syn_bits y) + length pad = 8 * length (bytes_of_thing (Sequence y body)))%nat).
  { rewrite <- app_length, <- Hb. apply bits_of_length. }
  assert (S32 : (32 <= length (syn_bits y))%nat).
  { unfold syn_bits. rewrite app_length. unfold u. rewrite low_bits_length. lia. }
  exists (Z.to_nat ((Z.of_nat (length (syn_bits y)) + 7) / 8)).
  pose proof (Z.div_mod (Z.of_nat (length (syn_bits y)) + 7) 8). pose proof (Z.mod_pos_bound (Z.of_nat (length (syn_bits y)) + 7) 8).
  split; [split; apply Nat2Z.inj_le; rewrite Z2Nat.id by lia; lia|].
  unfold bs_align. cbn [bs_pos]. rewrite Z.shiftl_mul_pow2, shiftr3 by lia. change (2 ^ 3) with 8.
  replace (Z.of_nat (8 * length (front a) + length (syn_bits y)) + 7) with (Z.of_nat (length (syn_bits y)) + 7 + Z.of_nat (length (front a)) * 8) by lia.
  rewrite Z.div_add by lia. lia.
Qed.

Lemma firstn_data : firstn (Z.to_nat (Z.of_nat (length data))) data = data.
Proof. rewrite Nat2Z.id. apply firstn_all. Qed.

Definition stop := Bs data (Z.of_nat (length data)) (8 * Z.of_nat (length (front ts))).

Lemma found_from : forall b a fuel p qs, ts = a ++ b -> 
  (length b < fuel)%nat -> (p <= length (front a))%nat ->
  (forall j u, (p <= j < length (front a))%nat -> ~ sc_at data j u) ->
  exists qs', Forall2 meaning (sequences b) qs' /\
  forall pos, Z.shiftr pos 3 = Z.of_nat p ->
  unit_loop fuel (Bs data (Z.of_nat (length data)) pos) qs = Done (RPic pc stop, qs ++ qs').
Proof.
  induction b as [|t b IH]; intros a fuel p qs Ht Hf Hp Hn; (destruct fuel as [|f]; [cbn in Hf; lia|]).
  - rewrite app_nil_r in Ht. exists []. split; [constructor|]. intros pos Hpos. cbn [unit_loop bs_pos bs_len bs_mem].
    rewrite Hpos, Nat2Z.id, firstn_data.
    assert (Hs : sc_at data (length (front a)) pc) by (unfold data; rewrite Ht; apply sc_here).
    rewrite (find_at data p (length (front a)) pc B Hp Hs Hn).
    replace (p + (length (front a) - p))%nat with (length (front a)) by lia.
    destruct (sc_nth _ _ _ Hs) as [N L]. rewrite N.
    rewrite !Z.shiftl_mul_pow2, shiftr3 by lia. change (2 ^ 3) with 8. rewrite Z.div_mul by lia.
    assert (C : (Z.of_nat (length data) <? Z.of_nat (length (front a)) + 4) = false) by lia. rewrite C.
    assert (C2 : (pc =? SC_INTRA_PICTURE) || (pc =? SC_INTER_PICTURE) = true) by (destruct PC as [-> | ->]; reflexivity).
    rewrite C2, app_nil_r. unfold stop. rewrite Ht. do 4 f_equal. lia.
  - destruct (thing_bytes t) as (c & body & Hc & Ec).
    assert (Hs : sc_at data (length (front a)) c).
    { unfold data. rewrite Ht, front_app. cbn [front flat_map]. rewrite Hc. rewrite <- !app_assoc. apply sc_here. }
    assert (Ht2 : ts = (a ++ [t]) ++ b) by (rewrite <- app_assoc; exact Ht).
    assert (L2 : length (front (a ++ [t])) = (length (front a) + length (bytes_of_thing t))%nat).
    { rewrite front_app, app_length. cbn [front flat_map]. rewrite app_nil_r. reflexivity. }
    pose proof (len4 t) as L4.
    assert (Next : forall n, (4 <= n <= length (bytes_of_thing t))%nat -> forall qs0,
      exists qs', Forall2 meaning (sequences b) qs' /\ forall pos, Z.shiftr pos 3 = Z.of_nat (length (front a) + n) ->
        unit_loop f (Bs data (Z.of_nat (length data)) pos) qs0 = Done (RPic pc stop, qs0 ++ qs')).
    { intros n Hn' qs0. apply (IH (a ++ [t]) f _ qs0 Ht2); [cbn in Hf; lia | lia |].
      intros j u Hj. apply (inside a t b j u Ht). lia. }
    destruct (sc_nth _ _ _ Hs) as [N L].
    assert (Step : forall pos, Z.shiftr pos 3 = Z.of_nat p ->
      unit_loop (S f) (Bs data (Z.of_nat (length data)) pos) qs =
      let s := Bs data (Z.of_nat (length data)) (8 * Z.of_nat (length (front a))) in
      if (c =? SC_INTRA_PICTURE) || (c =? SC_INTER_PICTURE) then Done (RPic c s, qs)
      else if c =? SC_SEQUENCE_HEADER then
            match parse_sequence_header s with
            | Done (q, s') => unit_loop f s' (qs ++ [q])
            | Fail => Done (RErr, qs) | Undef => Undef | Hang => Hang
            end
      else unit_loop f (bs_move s 32) qs).
    { intros pos Hpos. cbn [unit_loop bs_pos bs_len bs_mem]. rewrite Hpos, Nat2Z.id, firstn_data.
      rewrite (find_at data p (length (front a)) c B Hp Hs Hn).
      replace (p + (length (front a) - p))%nat with (length (front a)) by lia. rewrite N.
      rewrite !Z.shiftl_mul_pow2, shiftr3 by lia. change (2 ^ 3) with 8. rewrite Z.div_mul by lia.
      assert (C : (Z.of_nat (length data) <? Z.of_nat (length (front a)) + 4) = false) by lia. rewrite C.
      rewrite (Z.mul_comm 8). reflexivity. }
    assert (T : thing_ok t) by (pose proof OKs as Q; rewrite Ht in Q; rewrite Forall_forall in Q; apply Q; apply in_elt).
    destruct t as [c0 body0|y body0]; subst c.
    + destruct T as (T1 & T2 & T3). destruct (Next 4%nat ltac:(lia) qs) as (qs' & Fm & Hq).
      exists qs'. split; [exact Fm|]. intros pos Hpos. rewrite (Step pos Hpos). cbv zeta.
      assert (C2 : (c0 =? SC_INTRA_PICTURE) || (c0 =? SC_INTER_PICTURE) = false).
      { unfold SC_INTRA_PICTURE, SC_INTER_PICTURE. apply orb_false_iff; split; apply Z.eqb_neq; assumption. }
      assert (C3 : (c0 =? SC_SEQUENCE_HEADER) = false) by (apply Z.eqb_neq; exact T1).
      rewrite C2, C3. unfold bs_move. cbn [bs_mem bs_len bs_pos]. apply Hq.
      rewrite shiftr3. replace (8 * Z.of_nat (length (front a)) + 32) with ((Z.of_nat (length (front a) + 4)) * 8) by lia.
      apply Z.div_mul. lia.
    + destruct (seq_here a y body0 b Ht) as (q & s' & Pq & Mq & Ms & Ls & n & Hn' & Ps).
      destruct (Next n Hn' (qs ++ [q])) as (qs' & Fm & Hq).
      exists (q :: qs'). split; [cbn [sequences flat_map app]; constructor; assumption|].
      intros pos Hpos. rewrite (Step pos Hpos). cbv zeta. cbn [Z.eqb orb SC_INTRA_PICTURE SC_INTER_PICTURE].
      change ((176 =? SC_INTRA_PICTURE) || (176 =? SC_INTER_PICTURE)) with false.
      change (176 =? SC_SEQUENCE_HEADER) with true. cbn iota. rewrite Pq.
      destruct s' as [m' l' p']. cbn [bs_mem bs_len bs_pos] in Ms, Ls, Ps. subst m' l'.
      rewrite (Hq p').
      * rewrite <- app_assoc. reflexivity.
      * rewrite Ps, shiftr3. replace (8 * Z.of_nat (length (front a) + n)) with (Z.of_nat (length (front a) + n) * 8) by lia.
        apply Z.div_mul. lia.
Qed.

Lemma things_len : forall l, (length l <= length (front l))%nat.
Proof.
  induction l as [|t l IH]; [cbn; lia|]. cbn [front flat_map length]. rewrite app_length. fold (front l).
  pose proof (len4 t). lia.
Qed.

Lemma found : (4 < length data)%nat -> exists qs, Forall2 meaning (sequences ts) qs /\
  parse_header (Bs data (Z.of_nat (length data)) 0) = Done (RPic pc stop, qs).
Proof.
  intro H4.
  assert (Lt : (length ts < S (length data))%nat).
  { unfold data. rewrite app_length. pose proof (things_len ts). lia. }
  destruct (found_from ts [] (S (length data)) 0 [] eq_refl Lt ltac:(cbn; lia) ltac:(cbn; lia)) as (qs & F & H).
  exists qs. split; [exact F|]. unfold parse_header. cbn [bs_len].
  assert (C : (Z.of_nat (length data) <=? 4) = false) by lia. rewrite C.
  rewrite Nat2Z.id. apply H. reflexivity.
Qed.
End Found.
