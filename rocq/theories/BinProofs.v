(** Readers and bins: the calculus in which the binarisations are checked. *)
From Coq Require Import ZArith List Bool Lia.
From Verif Require Import CBase CBaseProofs MemModel AecModel AecSpec AecProofsA AecProofsB AecProofsC AecProofsD AecProofsE AecProofsF AecProofsG AecProofsH SynModel CodSpec CodProofsB BinSpec.
Import ListNotations.
Open Scope Z_scope.

Definition reads {A : Type} (m : syn A) (l : list bin) (v : A) : Prop :=
  forall a cs cs' a1 cs1, inv a -> (forall j, legal_ctx (cs j)) -> (forall j, cs' j = cs j) ->
  decodes (map fst l) a cs = Done (a1, cs1, map snd l) -> err a1 = false ->
  exists cs2, m a cs' = Done (a1, cs2, Some v) /\ forall j, cs2 j = cs1 j.

Lemma reads_as : forall A (m : syn A) l v, reads m l v -> read_as m l v.
Proof.
  intros A m l v H a cs cs' a1 cs1 (data & pos & n & ob & w & a0 & rs & bs & HB & HP & HN & HL & E & D & He) Q D1 E1.
  destruct (reach_inv _ _ _ _ _ _ _ _ _ _ HB HP HN HL E D He) as (V & L & _). exact (H a cs cs' a1 cs1 V L Q D1 E1).
Qed.

Lemma decodes_cut : forall rs1 rs2 bs1 bs2 a cs a2 cs2, length bs1 = length rs1 -> inv a -> (forall j, legal_ctx (cs j)) ->
  decodes (rs1 ++ rs2) a cs = Done (a2, cs2, bs1 ++ bs2) -> err a2 = false ->
  exists a1 cs1, decodes rs1 a cs = Done (a1, cs1, bs1) /\ err a1 = false /\ inv a1 /\ (forall j, legal_ctx (cs1 j)) /\ decodes rs2 a1 cs1 = Done (a2, cs2, bs2).
Proof.
  induction rs1 as [|r t IH]; intros rs2 bs1 bs2 a cs a2 cs2 HL V L D E.
  - destruct bs1; [|discriminate]. exists a, cs. cbn [app] in D. split; [reflexivity|]. split; [exact (iv_err _ V)|]. auto.
  - destruct bs1 as [|b bs1]; [discriminate|]. cbn [app decodes] in D |- *. destruct (decode_spec r a cs V L) as (a1 & cs1 & c & D1 & L1 & _ & F). rewrite D1 in D |- *. cbn [bindo] in D |- *.
    destruct (err a1) eqn:E1.
    + apply Done_inj in D. apply pair_equal_spec in D. destruct D as [D _]. apply pair_equal_spec in D. destruct D as [<- _]. congruence.
    + destruct (F eq_refl) as (V1 & _). destruct (decodes (t ++ rs2) a1 cs1) as [[[x y] z]| | |] eqn:D2; try discriminate. cbn [bindo] in D.
      apply Done_inj in D. apply pair_equal_spec in D. destruct D as [D Dz]. apply pair_equal_spec in D. destruct D as [-> ->]. injection Dz as -> ->.
      destruct (IH rs2 bs1 bs2 a1 cs1 a2 cs2) as (a3 & cs3 & D3 & E3 & V3 & L3 & D4); auto.
      exists a3, cs3. rewrite D3. cbn [bindo]. split; [reflexivity|]. auto.
Qed.

Lemma decodes_join : forall rs1 rs2 bs1 bs2 a cs a1 cs1 a2 cs2, decodes rs1 a cs = Done (a1, cs1, bs1) -> err a1 = false -> decodes rs2 a1 cs1 = Done (a2, cs2, bs2) ->
  decodes (rs1 ++ rs2) a cs = Done (a2, cs2, bs1 ++ bs2).
Proof.
  induction rs1 as [|r t IH]; intros rs2 bs1 bs2 a cs a1 cs1 a2 cs2 D1 E1 D2; cbn [app decodes] in *.
  - injection D1 as -> -> <-. exact D2.
  - destruct (decode r a cs) as [[[x y] z]| | |]; try discriminate. cbn [bindo] in *. destruct (err x) eqn:Ex.
    + injection D1 as -> -> <-. congruence.
    + destruct (decodes t x y) as [[[x1 y1] z1]| | |] eqn:D; try discriminate. cbn [bindo] in D1. injection D1 as -> -> <-. rewrite (IH rs2 z1 bs2 x y a1 cs1 a2 cs2 D E1 D2). reflexivity.
Qed.
Lemma read_as_bind : forall A B (m : syn A) (k : A -> syn B) l1 l2 x v, read_as m l1 x -> read_as (k x) l2 v -> read_as (bind m k) (l1 ++ l2) v.
Proof.
  intros A B m k l1 l2 x v H1 H2 a cs cs' a1 cs1 HS Q D E. pose proof HS as (data & pos & n & ob & w & a0 & rs & bs & HB & HP & HN & HL & E0 & D0 & He).
  destruct (reach_inv _ _ _ _ _ _ _ _ _ _ HB HP HN HL E0 D0 He) as (V & L & _). rewrite !map_app in D.
  assert (HLn: length (map snd l1) = length (map fst l1)) by (rewrite !map_length; reflexivity).
  destruct (decodes_cut _ _ _ _ _ _ _ _ HLn V L D E) as (a2 & cs2 & D1 & E1 & _ & _ & D2). destruct (H1 a cs cs' a2 cs2 HS Q D1 E1) as (cs3 & M & Q3).
  destruct (H2 a2 cs2 cs3 a1 cs1) as (cs4 & M2 & Q4); auto.
  - exists data, pos, n, ob, w, a0, (rs ++ map fst l1), (bs ++ map snd l1). repeat (split; [assumption|]). split; [|exact E1]. exact (decodes_join _ _ _ _ _ _ _ _ _ _ D0 He D1).
  - exists cs4. split; [|exact Q4]. unfold bind. rewrite M. exact M2.
Qed.

Section Calculus.
Context {A B : Type}.
Lemma reads_bind : forall (m : syn A) (k : A -> syn B) l1 l2 x v, reads m l1 x -> reads (k x) l2 v -> reads (bind m k) (l1 ++ l2) v.
Proof.
  intros m k l1 l2 x v H1 H2 a cs cs' a1 cs1 V L Q D E. rewrite !map_app in D.
  assert (HL: length (map snd l1) = length (map fst l1)) by (rewrite !map_length; reflexivity).
  destruct (decodes_cut _ _ _ _ _ _ _ _ HL V L D E) as (a2 & cs2 & D1 & E1 & V1 & L1 & D2).
  destruct (H1 a cs cs' a2 cs2 V L Q D1 E1) as (cs3 & M1 & Q1). destruct (H2 a2 cs2 cs3 a1 cs1 V1 L1 Q1 D2 E) as (cs4 & M2 & Q2).
  exists cs4. unfold bind. rewrite M1. auto.
Qed.
Lemma reads_next : forall (m : syn A) (k : A -> syn B) b l x v, reads m [b] x -> reads (k x) l v -> reads (bind m k) (b :: l) v.
Proof. intros m k b l x v. exact (reads_bind m k [b] l x v). Qed.
Lemma reads_quiet : forall (m : syn A) (k : A -> syn B) l x v, reads m [] x -> reads (k x) l v -> reads (bind m k) l v.
Proof. intros m k l x v. exact (reads_bind m k [] l x v). Qed.
Lemma reads_ret : forall x : A, reads (ret x) [] x.
Proof.
  intros x a cs cs' a1 cs1 _ _ Q D _. cbn [map decodes] in D. apply Done_inj in D. apply pair_equal_spec in D. destruct D as [D _]. apply pair_equal_spec in D. destruct D as [<- <-].
  exists cs'. split; [reflexivity|exact Q].
Qed.
Lemma reads_catch : forall (m : syn A) r l v, reads m l v -> reads (catch m r) l v.
Proof. intros m r l v H a cs cs' a1 cs1 V L Q D E. destruct (H a cs cs' a1 cs1 V L Q D E) as (c & M & R). exists c. unfold catch. rewrite M. auto. Qed.
Lemma reads_lookup : forall (t : list A) i v, get t i = Some v -> reads (lookup t i) [] v.
Proof. intros t i v H. unfold lookup. rewrite H. apply reads_ret. Qed.
End Calculus.
Lemma reads_eq : forall A (m : syn A) l l' v v', reads m l v -> l' = l -> v' = v -> reads m l' v'.
Proof. intros; subst; assumption. Qed.
Lemma reads_end : forall A (m : syn A) l v, reads m (l ++ []) v -> reads m l v.
Proof. intros A m l v. rewrite app_nil_r. exact (fun H => H). Qed.
Lemma reads_chk : forall v, -2147483648 <= v <= 2147483647 -> reads (chk v) [] v.
Proof. intros v H. unfold chk. replace ((-2147483648 <=? v) && (v <=? 2147483647)) with true by (symmetry; apply andb_true_intro; lia). apply reads_ret. Qed.
Lemma reads_check : reads check [] tt.
Proof.
  intros a cs cs' a1 cs1 V _ Q D _. cbn [map decodes] in D. apply Done_inj in D. apply pair_equal_spec in D. destruct D as [D _]. apply pair_equal_spec in D. destruct D as [<- <-].
  exists cs'. unfold check. rewrite (iv_err _ V). split; [reflexivity|exact Q].
Qed.
Lemma decodes_one : forall r b a cs a1 cs1, inv a -> (forall j, legal_ctx (cs j)) -> decodes [r] a cs = Done (a1, cs1, [b]) -> err a1 = false -> decode r a cs = Done (a1, cs1, b).
Proof.
  intros r b a cs a1 cs1 V L D E. cbn [decodes] in D. destruct (decode_spec r a cs V L) as (a2 & cs2 & c & D1 & _). rewrite D1 in D |- *. cbn [bindo] in D.
  destruct (err a2); cbn [bindo] in D; injection D as -> -> ->; reflexivity.
Qed.
Lemma reads_sym : forall r i b, 0 <= i < a_size r -> reads (sym r i) [at_ctx r i b] b.
Proof.
  intros r i b Hi a cs cs' a1 cs1 V L Q D E. apply (decodes_one _ _ _ _ _ _ V L) in D; [|exact E]. cbn [fst at_ctx decode] in D. unfold sym.
  replace ((0 <=? i) && (i <? a_size r)) with true by (symmetry; apply andb_true_intro; lia). rewrite Q.
  destruct (decode_symbol a (cs (a_base r + i))) as [[[x c] y]| | |]; try discriminate. cbn [bindo] in D. injection D as -> <- ->.
  eexists. split; [reflexivity|]. intros j. cbv beta. rewrite Q. reflexivity.
Qed.
Lemma reads_byp : forall b, reads byp [equi b] b.
Proof.
  intros b a cs cs' a1 cs1 V L Q D E. apply (decodes_one _ _ _ _ _ _ V L) in D; [|exact E]. cbn [fst equi decode] in D. unfold byp.
  destruct (decode_eq_prob a) as [[x y]| | |]; try discriminate. cbn [bindo fst snd] in D. injection D as -> <- ->. eauto.
Qed.
Lemma reads_fin : forall b, reads fin [(Final, b)] b.
Proof.
  intros b a cs cs' a1 cs1 V L Q D E. apply (decodes_one _ _ _ _ _ _ V L) in D; [|exact E]. cbn [fst decode] in D. unfold fin.
  destruct (decode_final a) as [[x y]| | |]; try discriminate. cbn [bindo fst snd] in D. injection D as -> <- ->. eauto.
Qed.

(** ** Unary codes. *)
Lemma unary_zero : forall c max, 0 < max -> unary c 0 max = [c 0 1].
Proof. intros c max H. unfold unary. replace (0 <? max) with true by lia. reflexivity. Qed.
Lemma unary_last : forall c, unary c 0 0 = [].
Proof. reflexivity. Qed.
Lemma unary_step : forall c v max, 0 < v -> unary c v max = c 0 0 :: unary (fun j => c (j + 1)) (v - 1) (max - 1).
Proof.
  intros c v max H. unfold unary. replace (Z.to_nat v) with (S (Z.to_nat (v - 1))) by lia. cbn [seq map app]. f_equal. f_equal.
  - rewrite <- seq_shift, map_map. apply map_ext. intros j. f_equal. lia.
  - replace (v - 1 <? max - 1) with (v <? max) by lia. replace (v - 1 + 1) with v by lia. reflexivity.
Qed.
Lemma unary_ext : forall c d v max, 0 <= v -> (forall j b, 0 <= j <= v -> c j b = d j b) -> unary c v max = unary d v max.
Proof.
  intros c d v max Hv H. unfold unary. f_equal.
  - apply map_ext_in. intros j I1. apply in_seq in I1. apply H. lia.
  - destruct (v <? max); [|reflexivity]. rewrite H by lia. reflexivity.
Qed.

Lemma cont0_symbols : forall n v k a cs a1 cs1, (v <= n)%nat -> inv a -> (forall j, legal_ctx (cs j)) ->
  decodes (map fst (unary (fun _ b => (Sym k, b)) (Z.of_nat v) (Z.of_nat n))) a cs = Done (a1, cs1, map snd (unary (fun _ b => (Sym k, b)) (Z.of_nat v) (Z.of_nat n))) -> err a1 = false ->
  repeat_symbol n a (cs k) = Done (a1, cs1 k, Z.of_nat v) /\ forall j, j <> k -> cs1 j = cs j.
Proof.
  induction n as [|n IH]; intros v k a cs a1 cs1 Hv V L D E.
  - replace v with 0%nat in * by lia. cbn in D. injection D as <- <-. cbn [repeat_symbol]. auto.
  - destruct v as [|v].
    + change (Z.of_nat 0) with 0 in *. rewrite unary_zero in D by lia. apply (decodes_one _ _ _ _ _ _ V L) in D; [|exact E]. cbn [fst decode] in D. cbn [repeat_symbol].
      destruct (decode_symbol a (cs k)) as [[[x c] y]| | |]; try discriminate. cbn [bindo] in D |- *. injection D as -> <- ->. rewrite E, !Z.eqb_refl.
      split; [reflexivity|]. intros j Hj. replace (j =? k) with false by lia. reflexivity.
    + rewrite unary_step in D by lia. replace (Z.of_nat (S v) - 1) with (Z.of_nat v) in D by lia. replace (Z.of_nat (S n) - 1) with (Z.of_nat n) in D by lia. cbn [map fst snd] in D.
      destruct (decodes_cut [Sym k] _ [0] _ _ _ _ _ eq_refl V L D E) as (a2 & cs2 & D1 & E2 & V2 & L2 & D2). apply (decodes_one _ _ _ _ _ _ V L) in D1; [|exact E2].
      destruct (IH v k a2 cs2 a1 cs1 ltac:(lia) V2 L2 D2 E) as [R1 R2]. cbn [decode] in D1. cbn [repeat_symbol].
      destruct (decode_symbol a (cs k)) as [[[x c] y]| | |]; try discriminate. cbn [bindo] in D1 |- *. injection D1 as -> <- ->. rewrite E2. cbn [Z.eqb]. rewrite Z.eqb_refl in R1. rewrite R1. cbn [bindo]. rewrite E.
      split; [f_equal; f_equal; lia|]. intros j Hj. rewrite R2 by exact Hj. replace (j =? k) with false by lia. reflexivity.
Qed.
Lemma reads_cont0 : forall r i max v, 0 <= i < a_size r -> 0 <= v <= max -> reads (cont0 r i max) (unary (fun _ => at_ctx r i) v max) v.
Proof.
  intros r i max v Hi Hv a cs cs' a1 cs1 V L Q D E. unfold cont0. replace ((0 <=? i) && (i <? a_size r)) with true by (symmetry; apply andb_true_intro; lia).
  set (k := a_base r + i) in *. rewrite Q. unfold continue0.
  assert (D': decodes (map fst (unary (fun _ b => (Sym k, b)) (Z.of_nat (Z.to_nat v)) (Z.of_nat (Z.to_nat max)))) a cs = Done (a1, cs1, map snd (unary (fun _ b => (Sym k, b)) (Z.of_nat (Z.to_nat v)) (Z.of_nat (Z.to_nat max))))).
  { rewrite !Z2Nat.id by lia. exact D. }
  destruct (cont0_symbols (Z.to_nat max) (Z.to_nat v) k a cs a1 cs1 ltac:(lia) V L D' E) as [R1 R2]. rewrite Z2Nat.id in R1 by lia.
  assert (VV: a = set_vs a (vs a)) by (destruct a; reflexivity). assert (H': inv (set_vs a (vs a))) by (rewrite <- VV; exact V).
  destruct (continue0_agree (Z.to_nat max) a (cs k) (vs a) 0 H' (L k)) as (b1 & c1 & m1 & b2 & c2 & m2 & P1 & P2 & P3 & P4 & _). rewrite <- VV in P2. rewrite P1.
  rewrite R1 in P2. injection P2 as <- <- <-. rewrite E in P3. destruct (P4 P3) as (-> & -> & ->). eexists. split; [reflexivity|].
  intros j. cbv beta. destruct (Z.eq_dec j k) as [-> |Hj]; [rewrite Z.eqb_refl; reflexivity|]. replace (j =? k) with false by lia. rewrite Q. symmetry. apply R2, Hj.
Qed.

Lemma ext_symbols : forall n v k inc i a cs a1 cs1, (v <= n)%nat -> 0 <= i -> inv a -> (forall j, legal_ctx (cs j)) ->
  let l := unary (fun j b => (Sym (k + Z.min (i + j) inc), b)) (Z.of_nat v) (Z.of_nat n) in
  forall ds, (forall j, ds j = cs (k + j)) ->
  decodes (map fst l) a cs = Done (a1, cs1, map snd l) -> err a1 = false ->
  exists ds1, repeat_symbol_ext n a ds inc i = Done (a1, ds1, Z.of_nat v) /\ forall j, ds1 j = cs1 (k + j).
Proof.
  induction n as [|n IH]; intros v k inc i a cs a1 cs1 Hv Hi V L l ds Hds D E; subst l.
  - replace v with 0%nat in * by lia. cbn in D. injection D as <- <-. cbn [repeat_symbol_ext]. eauto.
  - destruct v as [|v].
    + change (Z.of_nat 0) with 0 in *. rewrite unary_zero in D by lia. apply (decodes_one _ _ _ _ _ _ V L) in D; [|exact E]. cbn [fst decode] in D. cbn [repeat_symbol_ext decode].
      rewrite Z.add_0_r in D. rewrite Hds. destruct (decode_symbol a (cs (k + Z.min i inc))) as [[[x c] y]| | |]; try discriminate. cbn [bindo] in D |- *. injection D as -> <- ->. rewrite E. cbn [Z.eqb].
      eexists. split; [reflexivity|]. intros j. cbv beta. replace (k + j =? k + Z.min i inc) with (j =? Z.min i inc) by (clear; lia). rewrite Hds. reflexivity.
    + rewrite unary_step in D by lia. replace (Z.of_nat (S v) - 1) with (Z.of_nat v) in D by lia. replace (Z.of_nat (S n) - 1) with (Z.of_nat n) in D by lia.
      rewrite (unary_ext _ (fun j b => (Sym (k + Z.min ((i + 1) + j) inc), b))) in D by (try lia; intros j b Hj; do 3 f_equal; lia). rewrite Z.add_0_r in D. cbn [map fst snd] in D.
      destruct (decodes_cut [_] _ [0] _ _ _ _ _ eq_refl V L D E) as (a2 & cs2 & D1 & E2 & V2 & L2 & D2). apply (decodes_one _ _ _ _ _ _ V L) in D1; [|exact E2].
      cbn [decode] in D1. cbn [repeat_symbol_ext decode]. rewrite Hds.
      destruct (decode_symbol a (cs (k + Z.min i inc))) as [[[x c] y]| | |]; try discriminate. cbn [bindo] in D1 |- *. injection D1 as -> <- ->. rewrite E2. cbn [Z.eqb].
      destruct (IH v k inc (i + 1) a2 _ a1 cs1 ltac:(lia) ltac:(lia) V2 L2 (fun x => if x =? Z.min i inc then c else ds x)) with (2 := D2) (3 := E) as (ds1 & R1 & R2).
      { intros j. cbv beta. replace (k + j =? k + Z.min i inc) with (j =? Z.min i inc) by (clear; lia). rewrite Hds. reflexivity. }
      rewrite R1. cbn [bindo]. rewrite E. exists ds1. split; [f_equal; f_equal; lia|exact R2].
Qed.
Lemma reads_ext : forall r i inc max v, 0 <= i -> i + Z.min inc (max - 1) < a_size r -> 0 <= v <= max ->
  reads (ext r i inc max) (unary (fun j => at_ctx r (i + Z.min j inc)) v max) v.
Proof.
  intros r i inc max v Hi Hs Hv a cs cs' a1 cs1 V L Q D E. unfold ext. replace ((0 <=? i) && (i + Z.min inc (max - 1) <? a_size r)) with true by (symmetry; apply andb_true_intro; lia).
  unfold continue0_ext.
  assert (D': decodes (map fst (unary (fun j b => (Sym (a_base r + i + Z.min (0 + j) inc), b)) (Z.of_nat (Z.to_nat v)) (Z.of_nat (Z.to_nat max)))) a cs
     = Done (a1, cs1, map snd (unary (fun j b => (Sym (a_base r + i + Z.min (0 + j) inc), b)) (Z.of_nat (Z.to_nat v)) (Z.of_nat (Z.to_nat max))))).
  { rewrite !Z2Nat.id by lia. rewrite (unary_ext _ (fun j => at_ctx r (i + Z.min j inc))); [exact D|lia|].
    intros j b Hj. unfold at_ctx. do 2 f_equal. lia. }
  destruct (ext_symbols (Z.to_nat max) (Z.to_nat v) (a_base r + i) inc 0 a cs a1 cs1 ltac:(lia) ltac:(lia) V L (fun j => cs' (a_base r + i + j)) (fun j => Q _) D' E) as (ds1 & R1 & R2). rewrite Z2Nat.id in R1 by lia.
  destruct (ext_agree (Z.to_nat max) a (fun j => cs' (a_base r + i + j)) inc 0 V) as (b1 & c1 & m1 & b2 & c2 & m2 & P1 & P2 & P3 & P4 & _); [intros j; rewrite Q; apply L|]. rewrite P1.
  rewrite R1 in P2. injection P2 as <- <- <-. rewrite E in P3. destruct (P4 P3) as (-> & -> & ->). eexists. split; [reflexivity|].
  intros j. cbv beta. rewrite R2. f_equal. lia.
Qed.

(** ** Fixed-length and Exp-Golomb codes. *)
Lemma digits_S : forall n v, digits (S n) v = v / 2 ^ Z.of_nat n mod 2 :: digits n v.
Proof. intros n v. unfold digits. rewrite seq_S, rev_app_distr. reflexivity. Qed.
Lemma digits_mod : forall n k v, (n <= k)%nat -> digits n (v mod 2 ^ Z.of_nat k) = digits n v.
Proof.
  intros n k v H. unfold digits. apply map_ext_in. intros j Hj. apply in_rev, in_seq in Hj.
  rewrite <- !Z.testbit_spec' by lia. rewrite Z.mod_pow2_bits_low by lia. reflexivity.
Qed.
Lemma reads_suffix : forall n acc v, 0 <= acc -> acc mod 2 ^ Z.of_nat n = 0 -> 0 <= v < 2 ^ Z.of_nat n -> reads (esc_suffix n acc) (map equi (digits n v)) (acc + v).
Proof.
  induction n as [|n IH]; intros acc v Ha Hm Hv.
  - cbn in Hv |- *. replace (acc + v) with acc by lia. apply reads_ret.
  - rewrite digits_S. cbn [map esc_suffix]. rewrite Nat2Z.inj_succ, Z.pow_succ_r in * by lia. assert (P: 0 < 2 ^ Z.of_nat n) by (apply Z.pow_pos_nonneg; lia).
    set (b := v / 2 ^ Z.of_nat n mod 2). assert (B: b = v / 2 ^ Z.of_nat n).
    { unfold b. apply Z.mod_small. split; [apply Z.div_pos; lia|apply Z.div_lt_upper_bound; lia]. }
    assert (B01: 0 <= b <= 1) by (unfold b; pose proof (Z.mod_pos_bound (v / 2 ^ Z.of_nat n) 2); lia).
    apply reads_next with (x := b); [apply reads_byp|].
    apply Z.div_exact in Hm; [|lia]. set (q := acc / (2 * 2 ^ Z.of_nat n)) in *.
    assert (Lor: Z.lor acc (Z.shiftl b (Z.of_nat n)) = acc + b * 2 ^ Z.of_nat n).
    { rewrite Z.shiftl_mul_pow2 by lia. rewrite Z.add_comm. symmetry. rewrite Z.lor_comm.
      replace acc with (Z.shiftl (2 * q) (Z.of_nat n)) by (rewrite Z.shiftl_mul_pow2 by lia; lia).
      replace (b * 2 ^ Z.of_nat n) with (Z.shiftl b (Z.of_nat n)) by (apply Z.shiftl_mul_pow2; lia).
      rewrite <- Z.shiftl_lor, !Z.shiftl_mul_pow2 by lia. replace (Z.lor b (2 * q)) with (b + 2 * q); [lia|].
      replace b with (Z.b2z (b =? 1)) by (destruct (b =? 1) eqn:X; cbn [Z.b2z]; lia). destruct (b =? 1); cbn [Z.b2z]; [|rewrite Z.lor_0_l; lia].
      assert (Q0: 0 <= q) by (unfold q; apply Z.div_pos; lia). destruct q; [reflexivity|reflexivity|lia]. }
    rewrite Lor. rewrite <- (digits_mod n n v) by lia. rewrite (Z.mod_eq v) by lia. rewrite <- B.
    eapply reads_eq; [apply IH| reflexivity|].
    + nia.
    + rewrite Hm. replace (2 * 2 ^ Z.of_nat n * q + b * 2 ^ Z.of_nat n) with ((2 * q + b) * 2 ^ Z.of_nat n) by lia. apply Z.mod_mul. lia.
    + rewrite B. pose proof (Z.mod_pos_bound v (2 ^ Z.of_nat n) P). rewrite Z.mod_eq in H by lia. lia.
    + lia.
Qed.
Lemma reads_prefix : forall k f acc g, (k < f)%nat -> 0 <= g -> g + Z.of_nat k <= 31 -> 0 <= acc -> acc + 2 ^ (g + Z.of_nat k) - 2 ^ g <= 2147483647 ->
  reads (esc_prefix f acc g) (map equi (repeat 0 k ++ [1])) (acc + 2 ^ (g + Z.of_nat k) - 2 ^ g, g + Z.of_nat k).
Proof.
  induction k as [|k IH]; intros f acc g Hf Hg Hk Ha Hb; (destruct f as [|f]; [lia|]).
  - cbn [repeat app map esc_prefix]. apply reads_next with (x := 1); [apply reads_byp|]. apply reads_quiet with (x := tt); [apply reads_check|]. change (1 =? 0) with false. cbv iota.
    eapply reads_eq; [apply reads_ret|reflexivity|]. rewrite Z.add_0_r. f_equal. lia.
  - cbn [repeat app map esc_prefix]. apply reads_next with (x := 0); [apply reads_byp|]. apply reads_quiet with (x := tt); [apply reads_check|]. change (0 =? 0) with true. cbv iota.
    replace (31 <=? g) with false by lia. rewrite Z.shiftl_mul_pow2, Z.mul_1_l by lia. assert (P: 0 < 2 ^ g) by (apply Z.pow_pos_nonneg; lia).
    assert (P1: 2 ^ (g + 1) = 2 * 2 ^ g) by (rewrite Z.pow_add_r by lia; lia).
    assert (P2: 2 ^ (g + 1) <= 2 ^ (g + Z.of_nat (S k))) by (apply Z.pow_le_mono_r; lia).
    apply reads_quiet with (x := acc + 2 ^ g); [apply reads_chk; lia|].
    eapply reads_eq; [apply (IH f (acc + 2 ^ g) (g + 1)); try lia|reflexivity|].
    + replace (g + 1 + Z.of_nat k) with (g + Z.of_nat (S k)) by lia. lia.
    + replace (g + 1 + Z.of_nat k) with (g + Z.of_nat (S k)) by lia. f_equal. lia.
Qed.
Lemma reads_esc : forall s n, 0 <= s -> 0 <= n -> s + n <= 2147483647 -> n + 1 < 2147483648 -> reads (esc_code s) (eg0 n) (s + n).
Proof.
  intros s n Hs Hn Hb Hl. unfold esc_code, eg0. set (k := Z.to_nat (Z.log2 (n + 1))). pose proof (Z.log2_spec (n + 1) ltac:(lia)) as [L1 L2].
  pose proof (Z.log2_nonneg (n + 1)) as L0. replace (Z.log2 (n + 1)) with (Z.of_nat k) in * by (subst k; lia). rewrite Z.pow_succ_r in L2 by lia.
  assert (K: Z.of_nat k < 31).
  { destruct (Z_lt_ge_dec (Z.of_nat k) 31) as [C|C]; [exact C|]. exfalso. assert (2 ^ 31 <= 2 ^ Z.of_nat k) by (apply Z.pow_le_mono_r; lia). lia. }
  rewrite digits_S. assert (TB: (n + 1) / 2 ^ Z.of_nat k = 1) by (symmetry; apply (Z.div_unique _ _ _ (n + 1 - 2 ^ Z.of_nat k)); lia).
  rewrite TB. change (1 mod 2) with 1. replace (map equi (repeat 0 k ++ 1 :: digits k (n + 1))) with (map equi (repeat 0 k ++ [1]) ++ map equi (digits k (n + 1))) by (rewrite <- map_app, <- app_assoc; reflexivity).
  eapply reads_bind; [apply (reads_prefix k 40 s 0); rewrite ?Z.add_0_l; lia|]. cbv beta iota. rewrite Z.add_0_l, Nat2Z.id.
  rewrite <- (digits_mod k k) by lia. rewrite Z.mod_eq, TB by lia.
  apply reads_end. eapply reads_bind; [apply reads_suffix|]; [lia|apply Z.mod_0_l; lia|lia|]. cbv beta. eapply reads_eq; [apply reads_chk|reflexivity|]; lia.
Qed.
