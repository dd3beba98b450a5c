From Coq Require Import ZArith List Bool Lia ZifyBool.
From Verif Require Import CBase CBaseProofs BsModel BsSpec BsProofs.
Import ListNotations.
Open Scope Z_scope.

(** *** In-place execution (C02). *)
Definition need (s : pcs) : nat := if pc_cnt s =? 0 then 0%nat else 1%nat.

Lemma step_need : forall s b,
  (length (snd (pc_step s b)) + need (fst (pc_step s b)) <= need s + 1)%nat.
Proof.
  intros [f z k d l] b. unfold pc_step, pc_switch, need.
  destruct f, ((b =? SC_SEQUENCE_HEADER) || (b =? SC_USER_DATA) || (b =? SC_EXTENSION));
  cbn [pc_found pc_zeros pc_cnt pc_disp pc_last];
  repeat match goal with
         | |- context [if ?c then _ else _] =>
             let E := fresh in destruct c eqn:E;
             cbn [pc_found pc_zeros pc_cnt pc_disp pc_last fst snd length app negb Z.eqb Pos.eqb] in *
         end; try discriminate; try lia.
Qed.

Lemma tail_need : forall s, (length (pc_tail s) <= need s)%nat.
Proof.
  intros. unfold pc_tail, need. destruct (pc_cnt s =? 0); cbn [negb andb]; [cbn; lia|].
  destruct (negb (pc_last s =? 0)); cbn; lia.
Qed.

Lemma upd_nat_app : forall A (a b : list A) x v, upd_nat (a ++ x :: b) (length a) v = a ++ v :: b.
Proof. induction a; cbn; intros; auto. f_equal. auto. Qed.

Lemma write_all_ok : forall w dst m, (length w <= length m)%nat ->
  write_all (dst ++ m) (Z.of_nat (length dst)) w
  = Some (dst ++ w ++ skipn (length w) m, Z.of_nat (length dst + length w)).
Proof.
  induction w as [|x w IH]; intros dst m H.
  - cbn. do 2 f_equal. lia.
  - destruct m as [|y m]; [cbn in H; lia|]. cbn [write_all].
    rewrite set_some by (rewrite app_length; cbn [length]; lia).
    rewrite Nat2Z.id, upd_nat_app.
    replace (dst ++ x :: m) with ((dst ++ [x]) ++ m) by (rewrite <- app_assoc; reflexivity).
    replace (Z.of_nat (length dst) + 1) with (Z.of_nat (length (dst ++ [x]))) by (rewrite app_length; cbn; lia).
    rewrite IH by (cbn in H; lia). rewrite !app_length. cbn [length skipn].
    rewrite <- app_assoc. cbn [app]. f_equal. f_equal. lia.
Qed.

Lemma run_inplace_ok : forall rest s dst mid,
  (need s <= length mid)%nat ->
  exists mid',
    pc_run_inplace (length rest) s (dst ++ mid ++ rest)
      (Z.of_nat (length dst + length mid)) (Z.of_nat (length dst))
    = Some (fst (pc_run s rest), dst ++ snd (pc_run s rest) ++ mid',
            Z.of_nat (length dst + length (snd (pc_run s rest)))) /\
    (length (snd (pc_run s rest)) + length mid' = length mid + length rest)%nat /\
    (need (fst (pc_run s rest)) <= length mid')%nat.
Proof.
  induction rest as [|b rest IH]; intros s dst mid Hn.
  - cbn. exists mid. rewrite app_nil_r. repeat split; auto; try lia. do 2 f_equal. lia.
  - cbn [length pc_run_inplace pc_run].
    assert (G: get (dst ++ mid ++ b :: rest) (Z.of_nat (length dst + length mid)) = Some b).
    { unfold get. replace (Z.of_nat (length dst + length mid) <? 0) with false by lia.
      rewrite Nat2Z.id, nth_error_app2 by lia. rewrite nth_error_app2 by lia.
      replace (length dst + length mid - length dst - length mid)%nat with O by lia. reflexivity. }
    rewrite G. pose proof (step_need s b) as SN.
    destruct (pc_step s b) as [s1 w]. cbn [fst snd] in SN.
    replace (dst ++ mid ++ b :: rest) with (dst ++ (mid ++ [b]) ++ rest)
      by (rewrite <- app_assoc; reflexivity).
    rewrite write_all_ok by (rewrite !app_length; cbn [length]; lia).
    set (m2 := skipn (length w) (mid ++ [b])).
    assert (Em: skipn (length w) ((mid ++ [b]) ++ rest) = m2 ++ rest).
    { unfold m2. rewrite (skipn_app (length w) (mid ++ [b])). 
      replace (length w - length (mid ++ [b]))%nat with O by (rewrite app_length; cbn [length]; lia).
      reflexivity. }
    assert (Lm: (length m2 + length w = length mid + 1)%nat).
    { unfold m2. rewrite skipn_length, app_length. cbn [length]. lia. }
    rewrite Em. destruct (IH s1 (dst ++ w) m2 ltac:(lia)) as (mid' & H1 & H2 & H3).
    replace (dst ++ w ++ m2 ++ rest) with ((dst ++ w) ++ m2 ++ rest) by (rewrite <- app_assoc; reflexivity).
    replace (Z.of_nat (length dst + length mid) + 1) with (Z.of_nat (length (dst ++ w) + length m2))
      by (rewrite app_length; lia).
    replace (Z.of_nat (length dst + length w)) with (Z.of_nat (length (dst ++ w))) by (rewrite app_length; lia).
    rewrite H1. destruct (pc_run s1 rest) as [s2 w2]. cbn [fst snd] in *.
    exists mid'. rewrite !app_length in *. repeat split.
    + rewrite <- !app_assoc. f_equal. f_equal. lia.
    + lia.
    + exact H3.
Qed.

Lemma dispose_inplace_ok : forall buf,
  exists buf', dispose_inplace buf = Some (buf', Z.of_nat (length (dispose buf))) /\
    length buf' = length buf /\
    (length (dispose buf) <= length buf)%nat /\
    firstn (length (dispose buf)) buf' = dispose buf.
Proof.
  intros buf. unfold dispose_inplace, dispose.
  destruct (run_inplace_ok buf pcs_init [] [] ltac:(cbn; lia)) as (mid' & H1 & H2 & H3).
  cbn [app length Nat.add] in H1. change (Z.of_nat 0) with 0 in H1. rewrite H1.
  destruct (pc_run pcs_init buf) as [s w]. cbn [fst snd] in *.
  pose proof (tail_need s).
  rewrite write_all_ok by lia.
  eexists. split; [rewrite !app_length; reflexivity|].
  rewrite !app_length, skipn_length. cbn [length] in *. split; [lia|]. split; [lia|].
  rewrite app_assoc. rewrite <- app_length, firstn_app, firstn_all, Nat.sub_diag, firstn_O.
  apply app_nil_r.
Qed.

(** Loop-level statement of "writes never overtake reads". *)
Lemma run_write_bound : forall l s, need s = O ->
  (length (snd (pc_run s l)) + need (fst (pc_run s l)) <= length l)%nat.
Proof.
  assert (G: forall l s, (length (snd (pc_run s l)) + need (fst (pc_run s l)) <= need s + length l)%nat).
  { induction l as [|b l IH]; intros s; cbn [pc_run].
    - cbn. lia.
    - pose proof (step_need s b). destruct (pc_step s b) as [s1 w]. cbn [fst snd] in *.
      specialize (IH s1). destruct (pc_run s1 l) as [s2 w2]. cbn [fst snd length] in *.
      rewrite app_length. lia. }
  intros. specialize (G l s). lia.
Qed.

(** *** Round trip (C03). *)
Fixpoint ok_types (rp l : list Z) : Prop :=
  match l with
  | [] => True
  | b :: t => (found_of rp = true -> b <> 1 /\ b <> 2) /\ ok_types (b :: rp) t
  end.

Lemma no_small_ok : forall l rp, no_small_type (rev rp ++ l) -> ok_types rp l.
Proof.
  induction l as [|b l IH]; intros rp H; cbn; auto. split.
  - intros F. apply found_of_inv in F as [q ->]. cbn [rev] in H.
    rewrite <- !app_assoc in H. cbn [app] in H. apply (H (rev q) l b). reflexivity.
  - apply IH. cbn [rev]. rewrite <- app_assoc. exact H.
Qed.

Lemma found_of_pattern : forall p, found_of (rev (p ++ [0; 0; 1])) = true.
Proof. intros. rewrite rev_app_distr. reflexivity. Qed.

Lemma ok_no_small : forall l rp, ok_types rp l ->
  forall p s t, l = p ++ t :: s -> found_of (rev p ++ rp) = true -> t <> 1 /\ t <> 2.
Proof.
  induction l as [|b l IH]; intros rp H p s t E F.
  - destruct p; discriminate.
  - destruct H as [H1 H2]. destruct p as [|x p].
    + injection E as -> ->. auto.
    + injection E as -> ->. cbn [rev] in F. rewrite <- app_assoc in F. cbn [app] in F.
      eapply IH; eauto.
Qed.

Lemma ok_types_no_small : forall l, ok_types [] l -> no_small_type l.
Proof.
  intros l H p s t E. apply (ok_no_small l [] H (p ++ [0;0;1]) s t).
  - rewrite <- app_assoc. exact E.
  - rewrite app_nil_r. apply found_of_pattern.
Qed.

Definition all0 (l : list bool) : bool := negb (existsb (fun b => b) l).

Lemma all0_app : forall a b, all0 (a ++ b) = all0 a && all0 b.
Proof. intros. unfold all0. rewrite existsb_app, negb_orb. reflexivity. Qed.
Lemma all0_repeat : forall n, all0 (repeat false n) = true.
Proof. intros. unfold all0. rewrite existsb_repeat_false. reflexivity. Qed.
Lemma all0_eq : forall l, all0 l = true -> l = repeat false (length l).
Proof. intros. apply existsb_false_repeat. unfold all0 in H. destruct (existsb _ l); [discriminate|auto]. Qed.

Lemma be_val8 : forall l, length l = 8%nat -> byte_bits (be_val l) = l /\ 0 <= be_val l <= 255.
Proof.
  intros l H. do 8 (destruct l as [|? l]; [discriminate|]). destruct l; [|discriminate].
  split; [apply byte_bits_be_val|].
  pose proof (be_val_bound [b;b0;b1;b2;b3;b4;b5;b6]) as Q. cbn [length] in Q.
  change (2 ^ Z.of_nat 8) with 256 in Q. lia.
Qed.

Lemma be_val_zero : forall l, (be_val l =? 0) = all0 l.
Proof.
  induction l using rev_ind; [reflexivity|].
  rewrite be_val_snoc, all0_app, <- IHl. unfold all0; cbn [existsb].
  pose proof (be_val_bound l). destruct x; cbn [Z.b2z orb negb]; lia.
Qed.

Lemma firstn8_pad : forall bits, bits <> [] ->
  length (firstn 8 (pad8 bits)) = 8%nat /\
  exists r, (r < 8)%nat /\ firstn 8 (pad8 bits) ++ skipn 8 bits = bits ++ repeat false r
            /\ (skipn 8 bits <> [] -> r = O).
Proof.
  intros bits Hne. unfold pad8.
  assert (Hl: (length bits <> 0)%nat) by (destruct bits; [congruence|cbn; lia]).
  destruct (Compare_dec.le_lt_dec 8 (length bits)) as [H|H].
  - rewrite firstn_app. replace (8 - length bits)%nat with O by lia. rewrite firstn_O, app_nil_r.
    split; [rewrite firstn_length; lia|]. exists O. rewrite firstn_skipn. cbn. rewrite app_nil_r.
    repeat split; auto; lia.
  - rewrite (Nat.mod_small (length bits)) by lia. rewrite (Nat.mod_small (8 - length bits)) by lia.
    rewrite firstn_all2 by (rewrite app_length, repeat_length; lia).
    split; [rewrite app_length, repeat_length; lia|]. exists (8 - length bits)%nat.
    rewrite skipn_all2 by lia. rewrite app_nil_r. repeat split; auto; try lia; congruence.
Qed.

Lemma firstn6_pad : forall bits, bits <> [] -> all0 (firstn 6 (pad8 bits)) = true ->
  exists r, (r < 8)%nat /\ repeat false 6 ++ skipn 6 bits = bits ++ repeat false r
            /\ (skipn 6 bits <> [] -> r = O).
Proof.
  intros bits Hne H0.
  assert (Hl: (length bits <> 0)%nat) by (destruct bits; [congruence|cbn; lia]).
  assert (L6: length (firstn 6 (pad8 bits)) = 6%nat).
  { rewrite firstn_length. unfold pad8. rewrite app_length, repeat_length.
    pose proof (Nat.mod_upper_bound (length bits) 8). 
    destruct (Compare_dec.le_lt_dec 8 (length bits)); [lia|].
    rewrite (Nat.mod_small (length bits)) by lia. rewrite Nat.mod_small by lia. lia. }
  apply all0_eq in H0. rewrite L6 in H0. rewrite <- H0. clear L6 H0.
  unfold pad8.
  destruct (Compare_dec.le_lt_dec 6 (length bits)) as [H|H].
  - rewrite firstn_app. replace (6 - length bits)%nat with O by lia. rewrite firstn_O, app_nil_r.
    exists O. rewrite firstn_skipn. cbn. rewrite app_nil_r. repeat split; auto; lia.
  - rewrite (Nat.mod_small (length bits)) by lia. rewrite (Nat.mod_small (8 - length bits)) by lia.
    exists (6 - length bits)%nat.
    rewrite skipn_all2 by lia. rewrite app_nil_r.
    rewrite firstn_app, firstn_all2 by lia.
    assert (E: forall a b, (a <= b)%nat -> firstn a (repeat false b) = repeat false a).
    { induction a; destruct b; cbn; intros; auto; try lia. f_equal. apply IHa. lia. }
    rewrite E by lia. repeat split; auto; try lia; congruence.
Qed.

Lemma firstn6_8 : forall A (l : list A), firstn 6 l = firstn 6 (firstn 8 l).
Proof. intros. rewrite firstn_firstn. reflexivity. Qed.

Definition last8 (l : list bool) : list bool := skipn (length l - 8) l.

Definition tailp (rp : list Z) : bool := match rp with b :: r => is_pseudo r b | [] => false end.

Lemma protect_clean : forall fuel z bits rp out dn,
  (length bits < fuel)%nat -> czeros rp = z -> (z <= 2)%nat ->
  protected rp = true -> found_of rp = false ->
  (exists pad, (pad < 8)%nat /\ clean_bits rp out (protect fuel z bits) = out ++ bits ++ repeat false pad)
  /\ ok_types rp (protect fuel z bits) /\ bytes_ok (protect fuel z bits)
  /\ ((length (dn ++ bits) mod 8 = 0)%nat -> all0 (last8 (dn ++ bits)) = false ->
      ((1 <= z)%nat -> dn = [] \/ (8 <= length dn)%nat /\ all0 (last8 dn) = true) ->
      (bits = [] -> tailp rp = false) ->
      tailp (rev (protect fuel z bits) ++ rp) = false).
Proof.
  induction fuel as [|fuel IH]; intros z bits rp out dn Hf Hz Hz2 Hp Hfo; [lia|].
  cbn [protect]. destruct bits as [|x bits'] eqn:Eb.
  { cbn. repeat split; auto.
    - exists O. cbn. rewrite app_nil_r. split; [lia|auto].
    - constructor. }
  rewrite <- Eb in *. assert (Hne: bits <> []) by (rewrite Eb; discriminate). clear Eb x bits'.
  change (negb (existsb (fun b : bool => b) (firstn 6 (pad8 bits)))) with (all0 (firstn 6 (pad8 bits))).
  assert (Hlen: (length bits <> 0)%nat) by (destruct bits; [congruence|cbn; lia]).
  destruct ((2 <=? z)%nat && all0 (firstn 6 (pad8 bits))) eqn:C.
  - (* inserted byte *)
    apply andb_prop in C as [C1 C2].
    assert (z = 2%nat) by lia.
    assert (PS: is_pseudo rp 2 = true).
    { unfold is_pseudo. rewrite Hp, <- czeros_exact, Hz, H. reflexivity. }
    destruct (firstn6_pad bits Hne C2) as (r & R1 & R2 & R3).
    destruct (IH O (skipn 6 bits) (2 :: rp) (out ++ firstn 6 (byte_bits 2)) (dn ++ firstn 6 bits)) as (A & B & D & E).
    + rewrite skipn_length. lia.
    + reflexivity.
    + lia.
    + rewrite protected_cons, Hfo. exact Hp.
    + reflexivity.
    + cbn [clean_bits ok_types]. rewrite PS. replace (is_start rp 2) with false by reflexivity.
      split; [|split; [|split]].
      * destruct A as (pad & A1 & A2). rewrite A2.
        destruct (skipn 6 bits) as [|y q] eqn:Q.
        -- cbn [app] in *. rewrite app_nil_r in R2.
           destruct fuel; [blia|]. cbn [protect] in A2. cbn [clean_bits] in A2.
           exists r. split; auto. rewrite <- app_assoc. f_equal.
           apply (f_equal (@length bool)) in A2. rewrite !app_length in A2. rewrite repeat_length in A2.
           assert (pad = O) by blia. subst pad. cbn [repeat]. rewrite app_nil_r. exact R2.
        -- rewrite (R3 ltac:(discriminate)) in R2. cbn [repeat] in R2. rewrite app_nil_r in R2.
           exists pad. split; auto. rewrite <- app_assoc. f_equal. rewrite <- R2, <- app_assoc. reflexivity.
      * split; [congruence|exact B].
      * constructor; [blia|exact D].
      * intros M1 M2 M3 M4. cbn [rev]. rewrite <- app_assoc. cbn [app].
        rewrite <- app_assoc, firstn_skipn in E. apply E; auto; try blia.
        (* the inserted byte cannot be the last one *)
        intros Q. exfalso.
        assert (L6: (length bits <= 6)%nat).
        { assert (length (skipn 6 bits) = O) by (rewrite Q; reflexivity). rewrite skipn_length in H0. blia. }
        rewrite Q, app_nil_r in R2.
        assert (Z0: all0 bits = true).
        { assert (all0 (bits ++ repeat false r) = true) by (rewrite <- R2; apply all0_repeat).
          rewrite all0_app in H0. apply andb_prop in H0. tauto. }
        destruct (M3 ltac:(blia)) as [->|[M8 M3']].
        -- cbn [app] in M1. clear - M1 L6 Hlen. rewrite Nat.mod_small in M1; lia.
        -- assert (F: all0 (last8 (dn ++ bits)) = true).
           { unfold last8. rewrite skipn_app, all0_app.
             rewrite app_length.
             apply andb_true_intro. split.
             - unfold last8 in M3'.
               replace (length dn + length bits - 8)%nat with (length bits + (length dn - 8))%nat.
               + rewrite <- skipn_skipn.
                 rewrite <- (firstn_skipn (length bits) (skipn (length dn - 8) dn)), all0_app in M3'.
                 apply andb_prop in M3'. tauto.
               + clear - M8; lia.
             - rewrite (all0_eq _ Z0).
               assert (Es: forall a b, skipn a (repeat false b) = repeat false (b - a)).
               { induction a; destruct b; cbn; auto. }
               rewrite Es. apply all0_repeat. }
           congruence.
  - (* ordinary byte *)
    destruct (firstn8_pad bits Hne) as (L8 & r & R1 & R2 & R3).
    set (b := be_val (firstn 8 (pad8 bits))) in *.
    destruct (be_val8 _ L8) as [BB BR]. fold b in BB, BR.
    assert (NS: (2 <= z)%nat -> b <> 0 /\ b <> 1 /\ b <> 2).
    { intros Hz'. replace (2 <=? z)%nat with true in C by lia. cbn [andb] in C.
      rewrite firstn6_8, <- BB in C.
      repeat split; intro Q; rewrite Q in C; discriminate. }
    assert (P0: is_pseudo rp b = false).
    { unfold is_pseudo. rewrite <- czeros_exact, Hz. destruct (Z.of_nat z =? 2) eqn:Z2; [|rewrite andb_false_r; reflexivity].
      destruct (NS ltac:(lia)) as (_ & _ & N). replace (b =? 2) with false by lia. reflexivity. }
    assert (S0: is_start rp b = false).
    { unfold is_start. rewrite <- czeros_two, Hz. destruct (2 <=? Z.of_nat z) eqn:Z2; [|apply andb_false_r].
      destruct (NS ltac:(lia)) as (_ & N & _). replace (b =? 1) with false by lia. reflexivity. }
    assert (CZ: czeros (b :: rp) = if b =? 0 then S z else O).
    { destruct (b =? 0) eqn:B0; [|apply czeros_nz; lia].
      assert (B0': b = 0) by lia. rewrite B0'. cbn [czeros]. congruence. }
    destruct (IH (if b =? 0 then S z else O) (skipn 8 bits) (b :: rp) (out ++ byte_bits b) (dn ++ firstn 8 bits)) as (A & B & D & E).
    + rewrite skipn_length. lia.
    + exact CZ.
    + destruct (b =? 0) eqn:B0; [|lia].
      destruct (Compare_dec.le_lt_dec 2 z); [|lia]. destruct (NS l). lia.
    + rewrite protected_cons, Hfo. exact Hp.
    + rewrite found_of_cons. exact S0.
    + cbn [clean_bits ok_types]. rewrite P0, S0.
      split; [|split; [|split]].
      * destruct A as (pad & A1 & A2). rewrite A2. rewrite BB in *.
        destruct (skipn 8 bits) as [|y q] eqn:Q.
        -- cbn [app] in *. rewrite app_nil_r in R2.
           destruct fuel; [blia|]. cbn [protect] in A2. cbn [clean_bits] in A2.
           exists r. split; auto. rewrite <- app_assoc. f_equal.
           apply (f_equal (@length bool)) in A2. rewrite !app_length in A2. rewrite repeat_length in A2.
           assert (pad = O) by blia. subst pad. cbn [repeat]. rewrite app_nil_r. exact R2.
        -- rewrite (R3 ltac:(discriminate)) in R2. cbn [repeat] in R2. rewrite app_nil_r in R2.
           exists pad. split; auto. rewrite <- app_assoc. f_equal. rewrite app_assoc. f_equal. exact R2.
      * split; [congruence|exact B].
      * constructor; [blia|exact D].
      * intros M1 M2 M3 M4. cbn [rev]. rewrite <- app_assoc. cbn [app].
        destruct (Compare_dec.le_lt_dec 8 (length bits)) as [H|H].
        -- rewrite <- app_assoc, firstn_skipn in E. apply E; auto.
           intros Hb1. destruct (b =? 0) eqn:B0; [|blia]. right.
           rewrite app_length, firstn_length. split; [blia|].
           unfold last8. rewrite app_length, firstn_length.
           rewrite skipn_app, skipn_all2 by blia. cbn [app].
           replace (length dn + Nat.min 8 (length bits) - 8 - length dn)%nat with O by blia.
           cbn [skipn]. unfold b in B0. rewrite be_val_zero in B0.
           unfold pad8 in B0. rewrite firstn_app in B0. replace (8 - length bits)%nat with O in B0 by (clear - H; lia).
           rewrite firstn_O, app_nil_r in B0. exact B0.
        -- rewrite skipn_all2 by blia. destruct fuel; [blia|]. cbn. exact P0.
Qed.

Lemma protect_unit_ok : forall t payload,
  0 <= t <= 255 -> ~ In t [1; 2; 176; 178; 181] ->
  bytes_ok payload -> payload <> [] -> last payload 0 <> 0 ->
  dispose (protect_unit t payload) = [0; 0; 1; t] ++ payload.
Proof.
  intros t payload Ht Hin Hb Hne Hlast.
  set (bits := bits_of payload).
  set (z := if t =? 0 then 1%nat else 0%nat).
  set (enc := protect (S (length bits)) z bits).
  assert (CZ: czeros [t; 1; 0; 0] = z).
  { unfold z. destruct (t =? 0) eqn:T; [assert (t = 0) by lia; subst; reflexivity|]. apply czeros_nz. lia. }
  cbn [In] in Hin.
  assert (PR: protected [t; 1; 0; 0] = true).
  { rewrite protected_cons. change (found_of [1;0;0]) with true. cbv iota.
    replace (t =? 176) with false by lia. replace (t =? 178) with false by lia.
    replace (t =? 181) with false by lia. reflexivity. }
  assert (FO: found_of [t;1;0;0] = false).
  { rewrite found_of_cons. unfold is_start. replace (t =? 1) with false by lia. reflexivity. }
  assert (Hz: (z <= 2)%nat) by (unfold z; destruct (t =? 0); lia).
  destruct (protect_clean (S (length bits)) z bits [t;1;0;0] (bits_of [0;0;1;t]) [] ltac:(lia) CZ Hz PR FO)
    as ((pad & P1 & P2) & OT & BO & TP).
  fold enc in P2, OT, BO, TP.
  assert (Lb: (length bits mod 8 = 0)%nat).
  { unfold bits. rewrite bits_of_length, Nat.mul_comm. apply Nat.mod_mul. lia. }
  assert (T0: tailp (rev enc ++ [t; 1; 0; 0]) = false).
  { apply TP; cbn [app]; auto.
    - (* last byte not zero *)
      destruct (exists_last Hne) as (ini & x & ->).
      rewrite last_last in Hlast. unfold last8, bits.
      rewrite bits_of_app. cbn [bits_of flat_map]. rewrite app_nil_r.
      rewrite app_length. change (length (byte_bits x)) with 8%nat.
      replace (length (bits_of ini) + 8 - 8)%nat with (length (bits_of ini)) by lia.
      fold (bits_of ini).
      rewrite skipn_app, skipn_all, Nat.sub_diag. cbn [app skipn].
      destruct (all0 (byte_bits x)) eqn:A; auto. exfalso. apply Hlast.
      apply Forall_app in Hb as [_ Hx]. inversion Hx; subst.
      rewrite <- be_val_zero, be_val_byte_bits in A by lia. lia.
    - intros Q. exfalso. unfold bits in Q. destruct payload; [congruence|discriminate]. }
  unfold protect_unit. fold bits. fold z. fold enc.
  rewrite dispose_clean.
  - unfold clean.
    assert (CB: clean_bits [] [] ([0;0;1;t] ++ enc) = bits_of ([0;0;1;t] ++ payload) ++ repeat false pad).
    { rewrite bits_of_app, <- app_assoc. fold bits. rewrite <- P2.
      cbn [app clean_bits].
      change (is_start [] 0) with false. change (is_start [0] 0) with false.
      change (is_start [0;0] 1) with true.
      change (is_pseudo [] 0) with false. change (is_pseudo [0] 0) with false.
      change (is_pseudo [0;0] 1) with false. cbv iota.
      assert (I1: is_start [1;0;0] t = false) by (unfold is_start; replace (t =? 1) with false by lia; reflexivity).
      assert (I2: is_pseudo [1;0;0] t = false) by (unfold is_pseudo; replace (t =? 2) with false by lia; reflexivity).
      rewrite I1, I2. reflexivity. }
    rewrite CB. unfold pack.
    set (q := [0;0;1;t] ++ payload).
    assert (Hq: bytes_ok q).
    { unfold q. apply bytes_ok_app; auto. repeat constructor; lia. }
    assert (Hdiv: (length (bits_of q ++ repeat false pad) / 8 = length q)%nat).
    { rewrite app_length, repeat_length, bits_of_length, Nat.add_comm, Nat.mul_comm, Nat.div_add by lia.
      rewrite Nat.div_small by lia. lia. }
    rewrite Hdiv.
    replace (8 * length q)%nat with (length (bits_of q)) by (rewrite bits_of_length; lia). rewrite skipn_app, skipn_all, Nat.sub_diag. cbn [app skipn].
    rewrite existsb_repeat_false, app_nil_r.
    rewrite bytes_of_app8.
    + rewrite bytes_of_bits_of by auto.
      replace (bytes_of (repeat false pad)) with (@nil Z); [apply app_nil_r|].
      symmetry. apply length_zero_iff_nil. rewrite bytes_of_length, repeat_length. apply Nat.div_small. lia.
    + rewrite bits_of_length, Nat.mul_comm. apply Nat.mod_mul. lia.
  - apply bytes_ok_app; auto. repeat constructor; lia.
  - apply ok_types_no_small. cbn [app ok_types].
    repeat match goal with |- _ /\ _ => split end; try exact OT;
      try (intros Q; cbn in Q; try discriminate; split; lia).
  - unfold ends_pseudo. rewrite rev_app_distr. cbn [rev app]. exact T0.
Qed.

(** *** Start-code search. *)
Lemma is_prefix4_spec : forall a b c d r, bytes_ok (a :: b :: c :: d :: r) ->
  is_prefix4 (a :: b :: c :: d :: r) = true <-> a = 0 /\ b = 0 /\ c = 1.
Proof.
  intros a b c d r H. inversion H as [|? ? Ha H1]; subst. inversion H1 as [|? ? Hb H2]; subst.
  inversion H2 as [|? ? Hc H3]; subst. inversion H3 as [|? ? Hd H4]; subst.
  unfold is_prefix4. change 16777215 with (Z.ones 24). rewrite Z.land_ones by lia.
  change (2 ^ 24) with 16777216.
  replace (a + 256 * b + 65536 * c + 16777216 * d) with (a + 256 * b + 65536 * c + d * 16777216) by lia.
  rewrite Z.mod_add, Z.mod_small by lia. rewrite Z.eqb_eq. lia.
Qed.

Lemma find_start_code_eq : forall a b c d r, find_start_code (a :: b :: c :: d :: r) =
  if is_prefix4 (a :: b :: c :: d :: r) then Some O
  else option_map S (find_start_code (b :: c :: d :: r)).
Proof. reflexivity. Qed.

Lemma find_start_code_some : forall l k, bytes_ok l -> find_start_code l = Some k ->
  (exists t, sc_at l k t) /\ forall j t, (j < k)%nat -> ~ sc_at l j t.
Proof.
  induction l as [|a l IH]; intros k Hb H; [discriminate|].
  destruct l as [|b [|c [|d r]]]; try discriminate.
  rewrite find_start_code_eq in H. destruct (is_prefix4 (a :: b :: c :: d :: r)) eqn:P.
  - injection H as <-. apply is_prefix4_spec in P; auto. destruct P as (-> & -> & ->).
    split; [exists d; unfold sc_at; cbn; auto|]. intros; lia.
  - destruct (find_start_code (b :: c :: d :: r)) as [k'|] eqn:F; [|discriminate].
    injection H as <-. inversion Hb; subst. destruct (IH k' H2 eq_refl) as [(t & S1) S2].
    split.
    + exists t. exact S1.
    + intros j t' Hj Q. destruct j as [|j].
      * destruct Q as (Q1 & Q2 & Q3 & _). cbn in Q1, Q2, Q3.
        assert (is_prefix4 (a :: b :: c :: d :: r) = true).
        { apply is_prefix4_spec; auto. repeat split; congruence. }
        congruence.
      * apply (S2 j t'); [lia|]. exact Q.
Qed.

Lemma find_start_code_none : forall l, bytes_ok l -> find_start_code l = None -> forall j t, ~ sc_at l j t.
Proof.
  induction l as [|a l IH]; intros Hb H j t (Q1 & Q2 & Q3 & Q4).
  - destruct j; discriminate.
  - assert (L: (j + 3 < length (a :: l))%nat) by (apply nth_error_Some; congruence).
    destruct l as [|b [|c [|d r]]]; try (cbn in L; lia).
    rewrite find_start_code_eq in H. destruct (is_prefix4 (a :: b :: c :: d :: r)) eqn:P; [discriminate|].
    destruct (find_start_code (b :: c :: d :: r)) as [k'|] eqn:F; [discriminate|].
    inversion Hb; subst. destruct j as [|j].
    + cbn in Q1, Q2, Q3. assert (is_prefix4 (a :: b :: c :: d :: r) = true).
      { apply is_prefix4_spec; auto. repeat split; congruence. }
      congruence.
    + apply (IH H3 eq_refl j t). repeat split; auto.
Qed.

Lemma find_start_code_bound : forall l k, find_start_code l = Some k -> (k + 4 <= length l)%nat.
Proof.
  induction l as [|a l IH]; intros k H; [discriminate|].
  destruct l as [|b [|c [|d r]]]; try discriminate.
  rewrite find_start_code_eq in H. destruct (is_prefix4 (a :: b :: c :: d :: r)).
  - injection H as <-. cbn; lia.
  - destruct (find_start_code (b :: c :: d :: r)) as [k'|] eqn:F; [|discriminate].
    injection H as <-. specialize (IH k' eq_refl). cbn [length] in *. lia.
Qed.

Lemma ispic_spec : forall x, ispic x = true <-> opens_unit x.
Proof. intros. unfold ispic, opens_unit. rewrite !orb_true_iff, !Z.eqb_eq. tauto. Qed.

Lemma sc_at_skip : forall l m j t, sc_at (skipn m l) j t <-> sc_at l (m + j) t.
Proof.
  assert (N: forall (l : list Z) m j, nth_error (skipn m l) j = nth_error l (m + j)).
  { induction l; destruct m; cbn; intros; auto. destruct j; reflexivity. }
  intros. unfold sc_at. rewrite !N. rewrite <- !Nat.add_assoc. tauto.
Qed.

Lemma nth_sc : forall l k t, sc_at l k t -> nth (k + 3) l 0 = t.
Proof. intros l k t (_ & _ & _ & H). apply nth_error_nth. exact H. Qed.

Lemma bytes_ok_skipn : forall l n, bytes_ok l -> bytes_ok (skipn n l).
Proof. induction l; destruct n; cbn; intros; auto. inversion H; subst. apply IHl; auto. Qed.


Lemma sc_overlap : forall l k u q t, sc_at l k u -> sc_at l q t -> (k <= q)%nat -> (q < k + 4)%nat -> q = k \/ (q = k + 3)%nat /\ u = 0.
Proof.
  intros l k u q t (A1 & A2 & A3 & A4) (B1 & B2 & B3 & B4) H1 H2.
  assert (C: q = k \/ q = (k+1)%nat \/ q = (k+2)%nat \/ q = (k+3)%nat) by lia.
  destruct C as [-> | [-> | [-> | ->]]].
  - auto.
  - exfalso. replace (k + 1 + 1)%nat with (k + 2)%nat in B2 by lia. congruence.
  - exfalso. congruence.
  - right. split; [reflexivity|congruence].
Qed.

Lemma find_pic_loop_ok : forall fuel data off, bytes_ok data -> (length data < fuel)%nat ->
  match find_pic_loop fuel data off with
  | Some r => exists k t, r = off + Z.of_nat k /\ sc_at data k t /\ opens_unit t /\
                forall q t', (q < k)%nat -> sc_at data q t' -> opens_unit t' -> hidden data q
  | None => forall q t', sc_at data q t' -> opens_unit t' -> hidden data q
  end.
Proof.
  induction fuel as [|fuel IH]; intros data off Hb Hf; [lia|].
  cbn [find_pic_loop]. destruct (find_start_code data) as [k|] eqn:F.
  2:{ intros q t' Q. exfalso. eapply find_start_code_none; eauto. }
  pose proof (find_start_code_bound _ _ F) as HL.
  destruct (find_start_code_some _ _ Hb F) as [(u & S1) S2].
  rewrite (nth_sc _ _ _ S1). destruct (ispic u) eqn:P.
  - exists k, u. repeat split; try apply S1. { apply ispic_spec; auto. }
    intros q t' Q1 Q2. exfalso. eapply S2; eauto.
  - assert (NP: ~ opens_unit u) by (intro N; apply ispic_spec in N; congruence).
    specialize (IH (skipn (k + 4) data) (off + Z.of_nat k + 4) (bytes_ok_skipn _ _ Hb)).
    rewrite skipn_length in IH. specialize (IH ltac:(lia)).
    (* an occurrence before k + 4 is the non-unit one or hidden *)
    assert (EARLY: forall q t', sc_at data q t' -> opens_unit t' -> (q < k + 4)%nat -> hidden data q).
    { intros q t' Q1 Q2 Q3. destruct (Compare_dec.le_lt_dec k q) as [H|H].
      - destruct (sc_overlap data k u q t' S1 Q1 H Q3) as [->|[-> ->]].
        + exfalso. assert (u = t') by (destruct S1 as (_ & _ & _ & X), Q1 as (_ & _ & _ & Y); congruence). congruence.
        + exists k. auto.
      - exfalso. eapply S2; eauto. }
    assert (LIFT: forall q, (k + 4 <= q)%nat -> hidden (skipn (k + 4) data) (q - (k + 4)) -> hidden data q).
    { intros q Hq (s & E & Q). exists (k + 4 + s)%nat. split; [lia|]. apply sc_at_skip. exact Q. }
    destruct (find_pic_loop fuel (skipn (k + 4) data) (off + Z.of_nat k + 4)) as [r|].
    + destruct IH as (k2 & t & -> & Q1 & Q2 & Q3).
      exists (k + 4 + k2)%nat, t. split; [lia|]. split; [apply sc_at_skip; exact Q1|]. split; auto.
      intros q t' H1 H2 H3. destruct (Compare_dec.le_lt_dec (k + 4) q) as [H|H].
      * apply LIFT; auto. apply (Q3 _ t'); auto; [lia|].
        apply sc_at_skip. replace (k + 4 + (q - (k + 4)))%nat with q by lia. exact H2.
      * eapply EARLY; eauto.
    + intros q t' H2 H3. destruct (Compare_dec.le_lt_dec (k + 4) q) as [H|H].
      * apply LIFT; auto. apply (IH _ t'); auto.
        apply sc_at_skip. replace (k + 4 + (q - (k + 4)))%nat with q by lia. exact H2.
      * eapply EARLY; eauto.
Qed.

Lemma sc_at_cons : forall a l j t, sc_at (a :: l) (S j) t <-> sc_at l j t.
Proof. intros. unfold sc_at. cbn [Nat.add nth_error]. tauto. Qed.

Lemma sc_at_shift3 : forall a b c l j t, sc_at (a :: b :: c :: l) (j + 3) t <-> sc_at l j t.
Proof.
  intros. replace (j + 3)%nat with (S (S (S j))) by lia. rewrite !sc_at_cons. tauto.
Qed.

Lemma find_pic_search : forall p3 p2 p1 data, bytes_ok data ->
  let l := p3 :: p2 :: p1 :: data in
  (forall q t, (q < 3)%nat -> sc_at l q t -> ~ opens_unit t) ->
  let r := match find_pic_loop (S (length data)) data 0 with
           | Some p => p | None => Z.of_nat (length data) + 1 end in
  (exists k t, r = Z.of_nat k - 3 /\ sc_at l k t /\ opens_unit t /\
     forall q t', (q < k)%nat -> sc_at l q t' -> opens_unit t' -> hidden l q)
  \/ (r = Z.of_nat (length data) + 1 /\
     forall q t', sc_at l q t' -> opens_unit t' -> hidden l q).
Proof.
  intros p3 p2 p1 data Hb l HP r. unfold r.
  pose proof (find_pic_loop_ok (S (length data)) data 0 Hb ltac:(lia)) as F.
  assert (LH: forall q, (3 <= q)%nat -> hidden data (q - 3) -> hidden l q).
  { intros q Hq (s & E & Q). exists (s + 3)%nat. split; [lia|]. apply sc_at_shift3. exact Q. }
  destruct (find_pic_loop (S (length data)) data 0) as [p|].
  - left. destruct F as (k & t & -> & Q1 & Q2 & Q3). exists (k + 3)%nat, t.
    split; [lia|]. split; [apply sc_at_shift3; auto|]. split; auto.
    intros q t' H1 H2 H3. destruct (Compare_dec.le_lt_dec 3 q) as [H|H].
    + apply LH; auto. apply (Q3 _ t'); auto; [lia|].
      apply (sc_at_shift3 p3 p2 p1). replace (q - 3 + 3)%nat with q by lia. exact H2.
    + exfalso. eapply HP; eauto.
  - right. split; auto. intros q t' H2 H3. destruct (Compare_dec.le_lt_dec 3 q) as [H|H].
    + apply LH; auto. apply (F _ t'); auto.
      apply (sc_at_shift3 p3 p2 p1). replace (q - 3 + 3)%nat with q by lia. exact H2.
    + exfalso. eapply HP; eauto.
Qed.

Lemma find_pic_start_code_ok : forall p3 p2 p1 data, bytes_ok data ->
  let l := p3 :: p2 :: p1 :: data in
  let r := find_pic_start_code p3 p2 p1 data in
  (exists k t, r = Z.of_nat k - 3 /\ sc_at l k t /\ opens_unit t /\
     forall q t', (q < k)%nat -> sc_at l q t' -> opens_unit t' -> hidden l q)
  \/ (r = Z.of_nat (length data) + 1 /\
     forall q t', sc_at l q t' -> opens_unit t' -> hidden l q).
Proof.
  intros p3 p2 p1 data Hb l r.
  pose proof (find_pic_search p3 p2 p1 data Hb) as FS. cbv zeta in FS. fold l in FS.
  unfold r, find_pic_start_code. cbv zeta.
  destruct ((1 <=? Z.of_nat (length data)) && (p3 =? 0) && (p2 =? 0) && (p1 =? 1)) eqn:C1.
  { rewrite !andb_true_iff, !Z.eqb_eq, Z.leb_le in C1. destruct C1 as (((H0 & ->) & ->) & ->).
    destruct data as [|d0 data]; [cbn in H0; lia|]. cbn [nth].
    destruct (ispic d0) eqn:P.
    - left. exists 0%nat, d0. split; [lia|]. split; [unfold sc_at; cbn; auto|].
      split; [apply ispic_spec; auto|]. intros; lia.
    - apply FS. intros q t Hq (A1 & A2 & A3 & A4) O. unfold l in *.
      destruct q as [|[|[|]]]; cbn in *; try lia; try congruence.
      injection A4 as <-. apply ispic_spec in O. congruence. }
  destruct ((2 <=? Z.of_nat (length data)) && (p2 =? 0) && (p1 =? 0) && (nth 0 data 0 =? 1)) eqn:C2.
  { rewrite !andb_true_iff, !Z.eqb_eq, Z.leb_le in C2. destruct C2 as (((H0 & ->) & ->) & E0).
    destruct data as [|d0 [|d1 data]]; try (cbn in H0; lia). cbn [nth] in *. subst d0.
    destruct (ispic d1) eqn:P.
    - left. exists 1%nat, d1. split; [lia|]. split; [unfold sc_at; cbn; auto|].
      split; [apply ispic_spec; auto|]. intros q t' Hq (A1 & A2 & A3 & A4). unfold l in *.
      destruct q; [|lia]. cbn in *. congruence.
    - apply FS. intros q t Hq (A1 & A2 & A3 & A4) O. unfold l in *.
      destruct q as [|[|[|]]]; cbn in *; try lia; try congruence.
      injection A4 as <-. apply ispic_spec in O. congruence. }
  assert (N01: forall q t, (q < 2)%nat -> ~ sc_at l q t).
  { intros q t Hq (A1 & A2 & A3 & A4). unfold l in *. destruct q as [|[|]]; [| |lia].
    - cbn [nth_error Nat.add] in A1, A2, A3, A4. destruct data as [|d0 data]; [discriminate|].
      injection A1 as ->. injection A2 as ->. injection A3 as ->.
      replace (1 <=? Z.of_nat (length (d0 :: data))) with true in C1 by (cbn [length]; lia). discriminate.
    - cbn [nth_error Nat.add] in A1, A2, A3, A4. destruct data as [|d0 [|d1 data]]; try discriminate.
      injection A1 as ->. injection A2 as ->. injection A3 as ->.
      replace (2 <=? Z.of_nat (length (1 :: d1 :: data))) with true in C2 by (cbn [length]; lia). discriminate. }
  destruct ((3 <=? Z.of_nat (length data)) && (p1 =? 0) && (nth 0 data 0 =? 0) && (nth 1 data 0 =? 1)) eqn:C3.
  { rewrite !andb_true_iff, !Z.eqb_eq, Z.leb_le in C3. destruct C3 as (((H0 & ->) & E0) & E1).
    destruct data as [|d0 [|d1 [|d2 data]]]; try (cbn in H0; lia). cbn [nth] in *. subst d0 d1.
    destruct (ispic d2) eqn:P.
    - left. exists 2%nat, d2. split; [lia|]. split; [unfold sc_at; cbn; auto|].
      split; [apply ispic_spec; auto|]. intros q t' Hq A. exfalso. eapply N01; eauto.
    - apply FS. intros q t Hq A O. destruct (Compare_dec.le_lt_dec 2 q) as [H|H].
      + assert (q = 2%nat) by lia; subst q. destruct A as (A1 & A2 & A3 & A4). cbn in *.
        injection A4 as <-. apply ispic_spec in O. congruence.
      + eapply N01; eauto. }
  apply FS. intros q t Hq A O. destruct (Compare_dec.le_lt_dec 2 q) as [H|H]; [|eapply N01; eauto].
  assert (q = 2%nat) by lia; subst q. destruct A as (A1 & A2 & A3 & A4). unfold l in *. cbn [nth_error Nat.add] in A1, A2, A3, A4.
  destruct data as [|d0 [|d1 [|d2 data]]]; try discriminate. cbn [nth_error] in *.
  injection A1 as ->. injection A2 as ->. injection A3 as ->.
  replace (3 <=? Z.of_nat (length (0 :: 1 :: d2 :: data))) with true in C3 by (cbn [length]; lia). discriminate.
Qed.
