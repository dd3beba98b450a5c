From Coq Require Import ZArith List Bool Lia.
From Verif Require Import CBase CBaseProofs MemModel AecModel AecSpec AecProofsA AecProofsB AecProofsC.
Import ListNotations.
Open Scope Z_scope.

Definition nav (a : aec) : Z := Z.of_nat (length (avail a)).

Lemma rd_ok_avail : forall a, rd_ok a -> nav a = btg a + 8 * (nbytes a - byte_pos a) /\ bits_read a = 8 * nbytes a - nav a.
Proof.
  intros a [HB HP HL HG]. unfold nav, bits_read, avail. rewrite app_length, low_bits_length, bits_of_length. unfold slice.
  rewrite firstn_length, skipn_length. split; lia.
Qed.

(** A request on a live reader succeeds and consumes one bit, or raises the flag. *)
Lemma bit_live : forall a, rd_ok a -> err a = false ->
  (exists w p g b, get_next_bit a = Done (set_vt (set_rd a w p g) (push_bit (vt a) b), false) /\
     rd_ok (set_rd a w p g) /\ nav (set_rd a w p g) = nav a - 1 /\ 0 < nav a) \/
  (exists g, get_next_bit a = Done (set_err (set_rd a (byte_buf a) (byte_pos a) g) true, true) /\ nav a = 0).
Proof.
  intros a R E. destruct (avail a) as [|b t] eqn:A.
  - right. destruct (avail_nil a R A) as [G P]. rewrite get_next_bit_none by lia. exists (btg a - 1). split; [reflexivity|]. unfold nav. rewrite A. reflexivity.
  - left. destruct (get_next_bit_some a b t R A) as (w & p & g & E1 & R1 & A1). exists w, p, g, b. split; [exact E1|]. split; [exact R1|].
    unfold nav. rewrite A, A1. cbn [length]. lia.
Qed.
Lemma nbits_live : forall a n, rd_ok a -> err a = false -> 0 < n <= 9 ->
  (exists w p g l, get_next_n_bit a n = Done (set_vt (set_rd a w p g) (pushes (vt a) l), false) /\ Z.of_nat (length l) = n /\
     rd_ok (set_rd a w p g) /\ nav (set_rd a w p g) = nav a - n /\ n <= nav a) \/
  (exists a', get_next_n_bit a n = Done (a', true) /\ err a' = true /\ reg_same a a' /\ nav a < n).
Proof.
  intros a n R E Hn. destruct (le_lt_dec (Z.to_nat n) (length (avail a))) as [G|G].
  - left. destruct (n_bit_ok a n R ltac:(lia) E G) as (w & p & g & E1 & R1 & A1). exists w, p, g, (firstn (Z.to_nat n) (avail a)).
    split; [exact E1|]. split; [rewrite firstn_length; lia|]. split; [exact R1|]. unfold nav. rewrite A1, skipn_length. lia.
  - right. destruct (n_bit_short a n R ltac:(lia) E G) as (a' & E1 & S1 & R1 & _). exists a'. repeat split; auto; try apply S1. unfold nav. lia.
Qed.

Lemma norm_loop_spec : forall f a v, rd_ok a -> err a = false -> 0 <= v <= 254 -> 254 - v <= Z.of_nat f -> 0 <= vt a < 4294967296 ->
  exists a1 v1 e, norm_loop f a v = Done (a1, v1, e) /\
  (e = true -> err a1 = true) /\ 0 <= v1 <= 254 /\
  (e = false -> exists w p g x, a1 = set_vt (set_rd a w p g) x /\ rd_ok (set_rd a w p g) /\ v <= v1 /\
     nav (set_rd a w p g) = nav a - (v1 - v) /\ 0 <= x < 4294967296 /\ (x < 256 -> v1 = 254) /\ ((v1 = v /\ x = vt a) \/ (v < v1 /\ vt a < 256 /\ x <= 511))).
Proof.
  induction f as [|f IH]; intros a v R E Hv Hf Hx; cbn [norm_loop]; unfold QUARTER, BOUND in *.
  - replace ((vt a <? 256) && (v <? 254)) with false by lia. exists a, v, false. split; [reflexivity|]. split; [discriminate|]. split; [lia|]. intros _.
    exists (byte_buf a), (byte_pos a), (btg a), (vt a). split; [destruct a; reflexivity|]. split; [destruct R; constructor; assumption|].
    split; [lia|]. split; [unfold nav, avail; cbn; lia|]. split; [lia|]. split; [lia|]. left. auto.
  - destruct ((vt a <? 256) && (v <? 254)) eqn:C.
    + destruct (bit_live a R E) as [(w & p & g & b & E1 & R1 & N1 & _)|(g & E1 & _)].
      * rewrite E1. cbn [bindo fst snd]. set (a2 := set_vt (set_rd a w p g) (push_bit (vt a) b)).
        assert (R2: rd_ok a2) by (destruct R1; constructor; assumption).
        assert (B2: vt a2 <= 511). { unfold a2. cbn [set_vt vt]. rewrite push_bit_small by lia. destruct b; cbn [Z.b2z]; lia. }
        pose proof (push_bit_range (vt a) b) as PR.
        destruct (IH a2 (v + 1) R2 E ltac:(lia) ltac:(lia) ltac:(cbn [a2 set_vt vt]; lia)) as (a1 & v1 & e & E3 & T3 & V3 & F3).
        exists a1, v1, e. split; [exact E3|]. split; [exact T3|]. split; [exact V3|]. intros He. destruct (F3 He) as (w3 & p3 & g3 & x & Ea & Ra & L3 & Na & Rx & X3 & Cx).
        exists w3, p3, g3, x. subst a1. split; [reflexivity|]. split; [destruct Ra; constructor; assumption|]. split; [lia|].
        split. { change (nav (set_rd a w3 p3 g3)) with (nav (set_rd a2 w3 p3 g3)). rewrite Na. change (nav a2) with (nav (set_rd a w p g)). lia. }
        split; [lia|]. split; [exact X3|]. right. split; [lia|]. split; [lia|]. destruct Cx as [[_ ->]|Cx]; [exact B2|lia].
      * rewrite E1. cbn [bindo fst snd]. eexists. exists v, true. split; [reflexivity|]. split; [reflexivity|]. split; [lia|]. discriminate.
    + exists a, v, false. split; [reflexivity|]. split; [discriminate|]. split; [lia|]. intros _.
      exists (byte_buf a), (byte_pos a), (btg a), (vt a). split; [destruct a; reflexivity|]. split; [destruct R; constructor; assumption|].
      split; [lia|]. split; [unfold nav, avail; cbn; lia|]. split; [lia|]. split; [lia|]. left. auto.
Qed.

(** Registers, with [v] for the shift of the offset. *)
Record regs (a : aec) (v : Z) : Prop := {
  rg_t1 : 0 <= t1 a <= 255;
  rg_s1 : 0 <= s1 a <= 254;
  rg_v : 0 <= v <= 254;
  rg_vt : 0 <= vt a < 4294967296;
  rg_le : domain a = false -> bound a = false -> s1 a <= v
}.
Definition below (a : aec) (v : Z) : Prop :=
  if domain a then vt a < 256 + t1 a
  else vt a <= 255 /\ (if bound a then v = 254 else s1 a < v \/ (s1 a = v /\ vt a < t1 a)).

Lemma land255 : forall x, Z.land x 255 = x mod 256.
Proof. intros. change 255 with (Z.ones 8). apply Z.land_ones. lia. Qed.

Lemma norm1_spec : forall a v, rd_ok a -> err a = false -> regs a v ->
  exists a1 v1 e, norm1 a v = Done (a1, v1, e) /\ (e = true -> err a1 = true) /\ 0 <= v1 <= 254 /\
  (e = false -> err a1 = false /\ rd_ok a1 /\ t1 a1 = t1 a /\ 0 <= s1 a1 <= 254 /\ 0 <= vt a1 < 4294967296 /\
     nav a - 254 <= nav a1 <= nav a /\ nbytes a1 = nbytes a /\ (bound a1 = false -> s1 a1 <= v1) /\ (bound a1 = true -> s1 a1 < 254) /\
     (below a v -> vt a1 <= 255 /\ (if bound a1 then v1 = 254 else s1 a1 < v1 \/ (s1 a1 = v1 /\ vt a1 < t1 a1)))).
Proof.
  intros a v R E [T S1 V X LE]. unfold norm1. destruct (in_r_domain a) eqn:D.
  - destruct (norm_loop_spec 300 (set_s1 a 0) 0) as (a1 & v1 & e & E1 & T1 & V1 & F1); auto; try lia.
    { destruct R; constructor; assumption. }
    rewrite E1. cbn [bindo]. destruct e.
    + exists a1, v1, true. split; [reflexivity|]. split; [exact T1|]. split; [exact V1|]. discriminate.
    + eexists. exists v1, false. split; [reflexivity|]. split; [discriminate|]. split; [exact V1|]. intros _.
      destruct (F1 eq_refl) as (w & p & g & x & -> & R1 & L1 & N1 & Rx & X1 & C1). unfold QUARTER.
      cbn [set_vt set_bound set_rd set_s1 err t1 s1 vt bound]. rewrite land255. pose proof (Z.mod_pos_bound x 256 ltac:(lia)).
      split; [exact E|]. split; [destruct R1; constructor; assumption|]. split; [reflexivity|]. split; [lia|]. split; [lia|].
      split. { change (nav (set_vt (set_bound (set_vt (set_rd (set_s1 a 0) w p g) x) (x <? 256)) (x mod 256))) with (nav (set_rd (set_s1 a 0) w p g)).
               rewrite N1. change (nav (set_s1 a 0)) with (nav a). lia. }
      split; [reflexivity|]. split; [lia|]. split; [lia|].
      intros B. split; [lia|].
      assert (BX: vt a < 256 + t1 a).
      { unfold in_r_domain in D. unfold below in B. destruct (domain a); [exact B|]. destruct B as [B _]. lia. }
      destruct (x <? 256) eqn:Q; [apply X1; lia|]. cbn [set_s1 vt] in C1. destruct C1 as [[-> ->]|(C1 & _ & C2)].
      * right. split; [reflexivity|]. replace (vt a mod 256) with (vt a - 256) by (apply Z.mod_unique with 1; lia). lia.
      * left. lia.
  - unfold in_r_domain in D. apply orb_false_elim in D. destruct D as [D1 D2].
    exists a, v, false. split; [reflexivity|]. split; [discriminate|]. split; [exact V|]. intros _.
    split; [exact E|]. split; [exact R|]. split; [reflexivity|]. split; [exact S1|]. split; [exact X|]. split; [lia|]. split; [reflexivity|].
    split; [intros Hb; now apply LE|]. split. { intros Hb. rewrite Hb in D2. unfold BOUND in D2. lia. }
    unfold below. rewrite D1. tauto.
Qed.

Definition rlps_check (t : Z) : bool :=
  match rlps_loop 10 t 0 with Done (t', n) => (0 <=? n) && (n <=? 8) && (t' =? t * 2 ^ n) && (256 <=? t') && (t' <=? 511) | _ => false end.
Lemma rlps_all : forallb rlps_check (map Z.of_nat (seq 1 511)) = true.
Proof. vm_compute. reflexivity. Qed.
Lemma rlps_spec : forall t, 1 <= t <= 511 -> exists n, rlps_loop 10 t 0 = Done (t * 2 ^ n, n) /\ 0 <= n <= 8 /\ 256 <= t * 2 ^ n <= 511.
Proof.
  intros t Ht. pose proof rlps_all as H. rewrite forallb_forall in H. specialize (H t). unfold rlps_check in H.
  destruct (rlps_loop 10 t 0) as [[t' n]| | |].
  - assert (Q: In t (map Z.of_nat (seq 1 511))) by (apply in_map_iff; exists (Z.to_nat t); split; [lia|apply in_seq; lia]).
    specialize (H Q). exists n. rewrite !andb_true_iff in H. assert (t' = t * 2 ^ n) by lia. subst t'. split; [reflexivity|]. lia.
  - assert (Q: In t (map Z.of_nat (seq 1 511))) by (apply in_map_iff; exists (Z.to_nat t); split; [lia|apply in_seq; lia]). specialize (H Q). discriminate.
  - assert (Q: In t (map Z.of_nat (seq 1 511))) by (apply in_map_iff; exists (Z.to_nat t); split; [lia|apply in_seq; lia]). specialize (H Q). discriminate.
  - assert (Q: In t (map Z.of_nat (seq 1 511))) by (apply in_map_iff; exists (Z.to_nat t); split; [lia|apply in_seq; lia]). specialize (H Q). discriminate.
Qed.

Lemma pushes_range : forall l v, 0 <= v < 4294967296 -> 0 <= pushes v l < 4294967296.
Proof.
  intros l v H. destruct l as [|b t] using rev_ind; [exact H|]. unfold pushes. rewrite fold_left_app. cbn [fold_left]. apply push_bit_range.
Qed.
Lemma pushes_small : forall l v, Z.of_nat (length l) <= 8 -> 0 <= v < 512 -> pushes v l = v * 2 ^ Z.of_nat (length l) + be_val l.
Proof.
  intros l v Hl Hv. destruct (pushes_val l v ltac:(lia)) as [E| ->]; [|cbn; lia]. rewrite E. f_equal. unfold to_u32. apply Z.mod_small.
  assert (2 ^ Z.of_nat (length l) <= 2 ^ 8) by (apply Z.pow_le_mono_r; lia). change (2 ^ 8) with 256 in H.
  assert (0 < 2 ^ Z.of_nat (length l)) by (apply Z.pow_pos_nonneg; lia). nia.
Qed.

(** Scaling after a less probable symbol. *)
Lemma lps_scale_spec : forall a t, rd_ok a -> err a = false -> 1 <= t <= 511 -> 0 <= vt a < 4294967296 ->
  exists a1 e, lps_scale a t = Done (a1, e) /\ (e = true -> err a1 = true) /\
  (e = false -> err a1 = false /\ rd_ok a1 /\ s1 a1 = 0 /\ 0 <= t1 a1 <= 255 /\ 0 <= vt a1 < 4294967296 /\ domain a1 = domain a /\
     nav a - 8 <= nav a1 <= nav a /\ nbytes a1 = nbytes a /\ (vt a < t -> vt a1 < 256 + t1 a1)).
Proof.
  intros a t R E Ht HX. unfold lps_scale. destruct (rlps_spec t Ht) as (n & E1 & Hn & Hr). rewrite E1. cbn [bindo].
  assert (T: Z.land (t * 2 ^ n) 255 = t * 2 ^ n - 256) by (rewrite land255; symmetry; apply Z.mod_unique with 1; lia).
  rewrite T. destruct (n =? 0) eqn:N0.
  - cbn [bindo fst snd]. eexists. exists false. split; [reflexivity|]. split; [discriminate|]. intros _. cbn [set_t1 set_s1 err s1 t1 vt domain].
    assert (n = 0) by lia. subst n. rewrite Z.mul_1_r in *.
    repeat split; auto; try lia; try apply R; try (unfold nav, avail; cbn [set_t1 set_s1 byte_buf btg buf byte_pos nbytes]; lia).
  - destruct (nbits_live a n R E ltac:(lia)) as [(w & p & g & l & E2 & L2 & R2 & N2 & _)|(a' & E2 & R2 & _)].
    + rewrite E2. cbn [bindo fst snd]. eexists. exists false. split; [reflexivity|]. split; [discriminate|]. intros _.
      cbn [set_t1 set_s1 set_vt set_rd err s1 t1 vt domain]. split; [exact E|]. split; [destruct R2; constructor; assumption|].
      split; [reflexivity|]. split; [lia|]. split; [apply pushes_range; lia|]. split; [reflexivity|].
      split. { change (nav (set_t1 (set_s1 (set_vt (set_rd a w p g) (pushes (vt a) l)) 0) (t * 2 ^ n - 256))) with (nav (set_rd a w p g)). lia. }
      split; [reflexivity|]. intros Hlt. rewrite pushes_small by lia. rewrite L2. pose proof (be_val_bound l) as B. rewrite L2 in B. nia.
    + rewrite E2. cbn [bindo fst snd]. exists a', true. split; [reflexivity|]. split; [intros _; exact R2|]. discriminate.
Qed.
