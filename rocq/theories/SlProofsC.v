(** Decoding does not look further than 32 bytes behind the unit. *)
From Coq Require Import ZArith List Bool Lia.
From Verif Require Import CBase CBaseProofs VlcModel VlcSpec VlcProofs HdrModel HdrSpec AecModel AecSpec SlModel SlSpec SlSpecB SlProofs SlProofsB.
Import ListNotations.
Open Scope Z_scope.

Definition pair_on (l : list Z) (r : aec * bool) : aec * bool := (on l (fst r), snd r).
Lemma same_le : forall m m' l l', m <= m' -> same_below m' l l' -> same_below m l l'.
Proof. intros m m' l l' H S i Hi. apply S. lia. Qed.

Lemma be_same : forall k m l l' p acc, same_below m l l' -> p + Z.of_nat k <= m -> be_bytes l' p k acc = be_bytes l p k acc.
Proof.
  induction k as [|k IH]; intros m l l' p acc Sb H; cbn [be_bytes]; [reflexivity|].
  rewrite <- (Sb p) by lia. destruct (get l p); [|reflexivity]. apply (IH m); [exact Sb|lia].
Qed.
Lemma i8_range : forall x, -128 <= to_i8 x <= 127.
Proof. intros. unfold to_i8. pose proof (Z.mod_pos_bound (x + 128) 256). lia. Qed.
Lemma i8_small : forall x, -128 <= x <= 127 -> to_i8 x = x.
Proof. intros x H. unfold to_i8. rewrite Z.mod_small by lia. lia. Qed.

Lemma take_on : forall l a, take_bit (on l a) = omap (pair_on l) (take_bit a).
Proof. intros. unfold take_bit, pair_on. cbn [btg on]. destruct ((btg a <? 0) || (64 <=? btg a)); reflexivity. Qed.
Lemma take_reading : forall m n l a r, take_bit a = Done r -> buf a = l -> nbytes a = n -> byte_pos a <= m -> reading m n l (fst r).
Proof.
  intros m n l a r H B N P. unfold take_bit in H. destruct ((btg a <? 0) || (64 <=? btg a)) eqn:E; [discriminate|].
  injection H as <-. apply orb_false_iff in E. destruct E as [E1 E2]. apply Z.ltb_ge in E1. apply Z.leb_gt in E2.
  unfold reading; cbn [fst set_vt buf nbytes byte_pos btg]. repeat split; auto; lia.
Qed.

Section Unit.
Variables (m n : Z) (l l' : list Z).
Hypothesis Nm : n <= m.
Hypothesis Sb : same_below n l l'.

Lemma next_bit_on : forall a, reading m n l a ->
  get_next_bit (on l' a) = omap (pair_on l') (get_next_bit a) /\ forall r, get_next_bit a = Done r -> reading m n l (fst r).
Proof.
  intros a (B & N & P & G). unfold get_next_bit. cbv zeta.
  cbn [btg on nbytes byte_pos buf byte_buf]. pose proof (i8_range (btg a - 1)) as R.
  destruct (Z.ltb_spec (to_i8 (btg a - 1)) 0) as [Neg|Pos].
  - destruct (Z.ltb_spec 7 (nbytes a - byte_pos a)) as [D|D].
    + rewrite B. rewrite (be_same 8 n l l') by (auto; change (Z.of_nat 8) with 8; lia).
      destruct (be_bytes l (byte_pos a) 8 0) as [x|]; [|split; [reflexivity|discriminate]]. split.
      * change (set_rd (on l' a) x (byte_pos a + 8) 63) with (on l' (set_rd a x (byte_pos a + 8) 63)). apply take_on.
      * intros r H. apply (take_reading m n l _ _ H); cbn [set_rd buf nbytes byte_pos]; auto; lia.
    + destruct (Z.ltb_spec 0 (nbytes a - byte_pos a)) as [D'|D'].
      * rewrite B. rewrite (be_same (Z.to_nat (nbytes a - byte_pos a)) n l l') by (auto; lia).
        destruct (be_bytes l (byte_pos a) (Z.to_nat (nbytes a - byte_pos a)) 0) as [x|]; [|split; [reflexivity|discriminate]].
        set (g' := to_i8 (to_i8 (btg a - 1) + to_i8 (Z.shiftl (nbytes a - byte_pos a) 3))).
        set (np := byte_pos a + Z.shiftr (g' + 1) 3). split.
        -- change (set_rd (on l' a) x np g') with (on l' (set_rd a x np g')). apply take_on.
        -- intros r H. apply (take_reading m n l _ _ H); cbn [set_rd buf nbytes byte_pos]; auto.
           unfold np, g'. rewrite (i8_small (Z.shiftl _ _)) by (rewrite Z.shiftl_mul_pow2 by lia; lia).
           rewrite (i8_small (_ + _)) by (rewrite Z.shiftl_mul_pow2 by lia; lia).
           rewrite shiftr3, Z.shiftl_mul_pow2 by lia. clear - N Nm P D D' Neg R. Z.div_mod_to_equations; lia.
      * split; [reflexivity|]. intros r H. injection H as <-.
        unfold reading; cbn [fst set_err set_rd buf nbytes byte_pos btg]. repeat split; auto; lia.
  - split.
    + change (set_rd (on l' a) (byte_buf a) (byte_pos a) (to_i8 (btg a - 1))) with (on l' (set_rd a (byte_buf a) (byte_pos a) (to_i8 (btg a - 1)))). apply take_on.
    + intros r H. apply (take_reading m n l _ _ H); cbn [set_rd buf nbytes byte_pos]; auto.
Qed.

Lemma next_bits_on : forall k a, reading m n l a ->
  next_bits k (on l' a) = omap (on l') (next_bits k a) /\ forall r, next_bits k a = Done r -> reading m n l r.
Proof.
  induction k as [|k IH]; intros a R; cbn [next_bits].
  - split; [reflexivity|]. intros r H. injection H as <-. exact R.
  - destruct (next_bit_on a R) as [E Q]. rewrite E. destruct (get_next_bit a) as [r| | |]; cbn [omap bindo]; try (split; [reflexivity|discriminate]).
    unfold pair_on. cbn [fst]. apply IH. apply Q. reflexivity.
Qed.
Lemma n_bits_on : forall k a, reading m n l a -> 0 <= k ->
  get_next_n_bit (on l' a) k = omap (pair_on l') (get_next_n_bit a k) /\ forall r, get_next_n_bit a k = Done r -> reading m n l (fst r).
Proof.
  intros k a R K. unfold get_next_n_bit. cbn [btg on].
  destruct (Z.leb_spec k (btg a)) as [L|L].
  - cbv zeta. cbn [byte_buf on byte_pos]. destruct ((to_i8 (btg a - k) <? 0) || (64 <=? to_i8 (btg a - k))); [split; [reflexivity|discriminate]|].
    split; [reflexivity|]. intros r H. injection H as <-. destruct R as (B & N & P & G).
    unfold reading; cbn [fst set_vt set_rd buf nbytes byte_pos btg]. pose proof (i8_range (btg a - k)). repeat split; auto; lia.
  - destruct (next_bits_on (Z.to_nat k) a R) as [E Q]. rewrite E. destruct (next_bits (Z.to_nat k) a) as [r| | |]; cbn [omap bindo]; try (split; [reflexivity|discriminate]).
    split; [reflexivity|]. intros r' H. injection H as <-. apply Q. reflexivity.
Qed.

Lemma reading_set : forall a a', reading m n l a -> buf a' = buf a -> nbytes a' = nbytes a -> byte_pos a' = byte_pos a -> btg a' = btg a -> reading m n l a'.
Proof. intros a a' (B & N & P & G) E1 E2 E3 E4. unfold reading. rewrite E1, E2, E3, E4. auto. Qed.

Lemma norm_loop_on : forall k a, reading m n l a ->
  norm_loop_m k (on l' a) = omap (pair_on l') (norm_loop_m k a) /\ forall r, norm_loop_m k a = Done r -> reading m n l (fst r).
Proof.
  induction k as [|k IH]; intros a R; cbn [norm_loop_m]; cbn [vt vs on]; destruct ((vt a <? QUARTER) && (vs a <? BOUND)).
  - split; [reflexivity|discriminate].
  - split; [reflexivity|]. intros r H. injection H as <-. exact R.
  - destruct (next_bit_on a R) as [E Q]. rewrite E. destruct (get_next_bit a) as [[a1 e]| | |]; cbn [omap bindo]; try (split; [reflexivity|discriminate]).
    unfold pair_on at 1. cbn [fst snd]. destruct e.
    + split; [reflexivity|]. intros r H. injection H as <-. apply (Q (a1, true)). reflexivity.
    + apply (IH (set_vs a1 (vs a1 + 1))). apply (reading_set a1); try reflexivity. apply (Q (a1, false)). reflexivity.
  - split; [reflexivity|]. intros r H. injection H as <-. exact R.
Qed.
Lemma norm_on : forall a, reading m n l a ->
  norm_m (on l' a) = omap (pair_on l') (norm_m a) /\ forall r, norm_m a = Done r -> reading m n l (fst r).
Proof.
  intros a R. unfold norm_m. unfold in_r_domain. cbn [domain on s1 bound].
  match goal with |- context [if ?c then _ else Done (a, false)] => destruct c end.
  - destruct (norm_loop_on 300 (set_vs (set_s1 a 0) 0)) as [E Q]; [apply (reading_set a); auto|].
    change (set_vs (set_s1 (on l' a) 0) 0) with (on l' (set_vs (set_s1 a 0) 0)). rewrite E.
    destruct (norm_loop_m 300 (set_vs (set_s1 a 0) 0)) as [[a1 e]| | |]; cbn [omap bindo]; try (split; [reflexivity|discriminate]).
    unfold pair_on at 1. cbn [fst snd]. pose proof (Q (a1, e) eq_refl) as Q1. cbn [fst] in Q1. destruct e.
    + split; [reflexivity|]. intros r H. injection H as <-. exact Q1.
    + split; [reflexivity|]. intros r H. injection H as <-. apply (reading_set a1); auto.
  - split; [reflexivity|]. intros r H. injection H as <-. exact R.
Qed.
Definition val_on (r : aec * Z) : aec * Z := (on l' (fst r), snd r).
Lemma final_on : forall a, reading m n l a ->
  decode_final (on l' a) = omap val_on (decode_final a) /\ forall r, decode_final a = Done r -> reading m n l (fst r).
Proof.
  intros a R. unfold decode_final. destruct (norm_on a R) as [E Q]. rewrite E.
  destruct (norm_m a) as [[a1 e]| | |]; cbn [omap bindo]; try (split; [reflexivity|discriminate]).
  pose proof (Q (a1, e) eq_refl) as R1. cbn [fst] in R1. clear E Q R a. unfold pair_on at 1. cbn [fst snd]. destruct e.
  - split; [reflexivity|]. intros r H. injection H as <-. exact R1.
  - cbv zeta. cbn [t1 s1 vs vt bound on].
    set (fl := less (t1 a1) 1). set (s2 := to_u32 (s1 a1 + fl)). set (t2 := to_u32 (t1 a1 - 1 + Z.shiftl fl 8)).
    set (lps := ((vs a1 <? s2) || (s2 =? vs a1) && (t2 <=? vt a1)) && negb (bound a1)).
    change (set_domain (on l' a1) lps) with (on l' (set_domain a1 lps)).
    assert (R2 : reading m n l (set_domain a1 lps)) by (apply (reading_set a1); auto).
    set (a2 := set_domain a1 lps) in *. clearbody a2. cbn [vs vt on]. destruct lps.
    + set (mid := fun b : aec => if s2 =? vs a2 then Done (set_vt b (to_u32 (vt a2 - t2)), false)
             else bindo (get_next_bit b) (fun r => if snd r then Done r
                  else Done (set_vt (fst r) (to_u32 (vt (fst r) + 256 - t2)), false))).
      assert (M : mid (on l' a2) = omap (pair_on l') (mid a2) /\ forall r, mid a2 = Done r -> reading m n l (fst r)).
      { unfold mid. destruct (s2 =? vs a2).
        - split; [reflexivity|]. intros r H. injection H as <-. apply (reading_set a2); auto.
        - destruct (next_bit_on a2 R2) as [E Q]. rewrite E. destruct (get_next_bit a2) as [[b e]| | |]; cbn [omap bindo]; try (split; [reflexivity|discriminate]).
          pose proof (Q (b, e) eq_refl) as Q1. cbn [fst] in Q1. unfold pair_on at 1. cbn [fst snd]. destruct e.
          + split; [reflexivity|]. intros r H. injection H as <-. exact Q1.
          + split; [reflexivity|]. intros r H. injection H as <-. apply (reading_set b); auto. }
      change (if s2 =? vs a2 then Done (set_vt (on l' a2) (to_u32 (vt a2 - t2)), false)
             else bindo (get_next_bit (on l' a2)) (fun r => if snd r then Done r
                  else Done (set_vt (fst r) (to_u32 (vt (fst r) + 256 - t2)), false))) with (mid (on l' a2)).
      change (if s2 =? vs a2 then Done (set_vt a2 (to_u32 (vt a2 - t2)), false)
             else bindo (get_next_bit a2) (fun r => if snd r then Done r
                  else Done (set_vt (fst r) (to_u32 (vt (fst r) + 256 - t2)), false))) with (mid a2).
      destruct M as [E Q]. rewrite E. destruct (mid a2) as [[b e]| | |]; cbn [omap bindo]; try (split; [reflexivity|discriminate]).
      pose proof (Q (b, e) eq_refl) as Q1. cbn [fst] in Q1. unfold pair_on at 1. cbn [fst snd]. destruct e.
      * split; [reflexivity|]. intros r H. injection H as <-. exact Q1.
      * assert (RL : rlps_loop 10 1 0 = Done (256, 8)) by reflexivity. rewrite RL. cbn [bindo snd]. change (8 =? 0) with false. cbv iota.
        destruct (n_bits_on 8 b Q1) as [E' Q']; [lia|]. rewrite E'.
        destruct (get_next_n_bit b 8) as [[c e]| | |]; cbn [omap bindo]; try (split; [reflexivity|discriminate]).
        pose proof (Q' (c, e) eq_refl) as Q2. cbn [fst] in Q2. unfold pair_on at 1. cbn [fst snd]. destruct e.
        -- split; [reflexivity|]. intros r H. injection H as <-. exact Q2.
        -- split; [reflexivity|]. intros r H. injection H as <-. apply (reading_set c); auto.
    + split; [reflexivity|]. intros r H. injection H as <-. apply (reading_set a2); auto.
Qed.

Lemma start_on : forall p ob w, p <= m -> start_decoding l' p n ob w = omap (on l') (start_decoding l p n ob w) /\
  forall a, start_decoding l p n ob w = Done a -> reading m n l a.
Proof.
  intros p ob w P. unfold start_decoding.
  set (a0 := {| buf := l; byte_buf := w; byte_pos := p; nbytes := n; btg := 0; err := false; bound := ob; domain := true; s1 := 0; t1 := 255; vs := 0; vt := 0 |}).
  change {| buf := l'; byte_buf := w; byte_pos := p; nbytes := n; btg := 0; err := false; bound := ob; domain := true; s1 := 0; t1 := 255; vs := 0; vt := 0 |} with (on l' a0).
  destruct (n_bits_on 9 a0) as [E Q].
  - unfold reading, a0. cbn. repeat split; lia.
  - lia.
  - rewrite E. destruct (get_next_n_bit a0 9) as [[b e]| | |]; cbn [omap bindo]; try (split; [reflexivity|discriminate]).
    split; [reflexivity|]. intros a H'. injection H' as <-. apply (Q (b, e)). reflexivity.
Qed.
End Unit.
