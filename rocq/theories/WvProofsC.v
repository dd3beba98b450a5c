(** Every run of the threads of a picture ends. *)
From Coq Require Import ZArith List Bool Lia.
From Verif Require Import CBase WvModel WvProofs WvProofsB.
Import ListNotations.
Open Scope Z_scope.

Fixpoint rsum (n : nat) (f : Z -> Z) : Z := match n with O => 0 | S k => f (Z.of_nat k) + rsum k f end.
Lemma rsum_ge0 n f : (forall y, 0 <= y < Z.of_nat n -> 0 <= f y) -> 0 <= rsum n f.
Proof. induction n as [|n IH]; intros H; cbn [rsum]; [lia|]. pose proof (H (Z.of_nat n) ltac:(lia)). pose proof (IH ltac:(intros; apply H; lia)). lia. Qed.
Lemma rsum_le n f g d : (forall y, 0 <= y < Z.of_nat n -> g y <= f y + d) -> rsum n g <= rsum n f + Z.of_nat n * d.
Proof. induction n as [|n IH]; intros H; cbn [rsum]; [lia|]. pose proof (H (Z.of_nat n) ltac:(lia)). pose proof (IH ltac:(intros; apply H; lia)). lia. Qed.
Lemma rsum_eq n f g : (forall y, 0 <= y < Z.of_nat n -> g y = f y) -> rsum n g = rsum n f.
Proof. induction n as [|n IH]; intros H; cbn [rsum]; [lia|]. rewrite (H (Z.of_nat n)) by lia. rewrite IH; [reflexivity|]. intros; apply H; lia. Qed.
Lemma rsum_one n f g y : 0 <= y < Z.of_nat n -> (forall y', y' <> y -> g y' = f y') -> rsum n g = rsum n f + g y - f y.
Proof.
  induction n as [|n IH]; intros Y H; [lia|]. cbn [rsum]. destruct (Z.eq_dec y (Z.of_nat n)) as [->|N].
  - rewrite (rsum_eq n f g) by (intros; apply H; lia). lia.
  - rewrite IH by (auto; lia). rewrite (H (Z.of_nat n)) by lia. lia.
Qed.

Section Term.
  Variable (c : cfg).
  Hypothesis Hw : 0 < c_w c.
  Hypothesis Hh : 0 < c_h c.
  Definition big : Z := 2 * c_h c + 2.
  Definition rank (q : pc) : Z :=
    match q with
    | Idle => 5 * big + (c_w c + 1) * 8
    | ChkP x => 5 * big + (c_w c - x) * 8 + 7 | WillP x => 5 * big + (c_w c - x) * 8 + 6 | SlpP x => 5 * big + (c_w c - x) * 8 + 5
    | ChkA x => 5 * big + (c_w c - x) * 8 + 4 | WillA x => 5 * big + (c_w c - x) * 8 + 3 | SlpA x => 5 * big + (c_w c - x) * 8 + 2
    | Work x => 5 * big + (c_w c - x) * 8 + 1 | Cnt x => 5 * big + (c_w c - x) * 8
    | Sig => 4 * big + 1 | SlpS => 4 * big | SigLast => 2 * big + 1 | SlpL => 2 * big | Fin => 0
    end.
  Definition todo (s : st) : Z := big * (2 * (c_w c * c_h c - s_next s) - (if s_pub s then 1 else 0)) + rsum (Z.to_nat (c_h c)) (fun y => rank (s_pc s y)).
  Definition in_range (s : st) : Prop := 0 <= s_next s <= c_w c * c_h c /\ (s_pub s = true -> s_next s < c_w c * c_h c).

  Lemma range_step s t : in_range s -> step c s t -> in_range t.
  Proof.
    unfold in_range. intros I E. destruct E; cbn [s_next s_pub]; auto; try lia.
    - destruct I as [I1 I2]. specialize (I2 H). split; [lia|discriminate].
    - split; [|discriminate]. destruct I as [I1 _].
      pose proof (Z.div_pos (s_next s) (c_w c) ltac:(lia) Hw).
      assert (s_next s / c_w c < c_h c) by (apply Z.div_lt_upper_bound; lia).
      assert ((s_next s / c_w c + 1) * c_w c <= c_h c * c_w c) by (apply Z.mul_le_mono_nonneg_r; lia). split; [|lia]. apply Z.mul_nonneg_nonneg; lia.
  Qed.
  Lemma rank_ge0 s : inv c s -> forall y, 0 <= y < c_h c -> 0 <= rank (s_pc s y).
  Proof. intros V y Hy. pose proof (i_place c s V y Hy) as Q. unfold rank, big. destruct (s_pc s y); cbn [place_ok] in Q; lia. Qed.
  Lemma todo_ge0 s : inv c s -> in_range s -> 0 <= todo s.
  Proof.
    intros V R. unfold todo. unfold in_range in R. apply Z.add_nonneg_nonneg.
    - apply Z.mul_nonneg_nonneg; [unfold big; lia|]. destruct (s_pub s); [destruct R as [_ R]; specialize (R eq_refl)|]; lia.
    - apply rsum_ge0. intros y Hy. apply rank_ge0; auto. lia.
  Qed.
  Lemma move_less p y q : 0 <= y < c_h c -> rank q < rank (p y) -> rsum (Z.to_nat (c_h c)) (fun y' => rank (fupd p y q y')) < rsum (Z.to_nat (c_h c)) (fun y' => rank (p y')).
  Proof.
    intros Hy L. rewrite (rsum_one _ (fun y' => rank (p y')) (fun y' => rank (fupd p y q y')) y).
    - rewrite fupd_same. lia.
    - lia.
    - intros y' N. rewrite fupd_other; auto.
  Qed.
  Lemma wake_more_row j p y : rank (wake_row j p y) <= rank (p y) + 2.
  Proof. unfold wake_row. destruct (p y); cbn [rank]; try lia; destruct (_ =? _); cbn [rank]; lia. Qed.
  Lemma wake_more_parsed p y : rank (wake_parsed p y) <= rank (p y) + 2.
  Proof. unfold wake_parsed. destruct (p y); cbn [rank]; lia. Qed.
  Lemma wake_move_less j p y q : 0 <= y < c_h c -> wake_row j p y = p y -> rank q + big <= rank (p y) ->
    rsum (Z.to_nat (c_h c)) (fun y' => rank (fupd (wake_row j p) y q y')) < rsum (Z.to_nat (c_h c)) (fun y' => rank (p y')).
  Proof.
    intros Hy W L. rewrite (rsum_one _ (fun y' => rank (wake_row j p y')) (fun y' => rank (fupd (wake_row j p) y q y')) y).
    - rewrite fupd_same, W. pose proof (rsum_le (Z.to_nat (c_h c)) (fun y' => rank (p y')) (fun y' => rank (wake_row j p y')) 2 ltac:(intros; apply wake_more_row)) as B.
      rewrite Z2Nat.id in B by lia. unfold big in L. lia.
    - lia.
    - intros y' N. rewrite fupd_other; auto.
  Qed.
  Lemma step_less s t : inv c s -> in_range s -> step c s t -> todo t < todo s.
  Proof.
    intros V R E. pose proof (i_place c s V) as I1. unfold todo.
    destruct E as [s y Hy P L|s y x Hy P|s y x Hy P|s y x Hy P|s y x Hy P|s y x Hy P|s y x Hy P|s y Hy P L|s y Hy P L L'|s y Hy P L|s y Hy P L L'|s P L G|s P|s G P L]; cbn [s_next s_pub s_pc].
    - apply Z.add_lt_mono_l, move_less; auto. rewrite P. cbn [rank]. lia.
    - apply Z.add_lt_mono_l, move_less; auto. rewrite P. destruct (_ <? _); [|destruct (_ <? _)]; cbn [rank]; lia.
    - apply Z.add_lt_mono_l, move_less; auto. rewrite P. cbn [rank]. lia.
    - apply Z.add_lt_mono_l, move_less; auto. rewrite P. destruct (_ <? _); cbn [rank]; lia.
    - apply Z.add_lt_mono_l, move_less; auto. rewrite P. cbn [rank]. lia.
    - apply Z.add_lt_mono_l, move_less; auto. rewrite P. cbn [rank]. lia.
    - pose proof (I1 y Hy) as Q. rewrite P in Q. cbn [place_ok] in Q.
      apply Z.add_lt_mono_l, move_less; auto. rewrite P. destruct (_ <? _); [cbn [rank]; lia|]. unfold after_row, big. destruct (_ <? _); [|destruct (_ =? _)]; cbn [rank]; unfold big; lia.
    - apply Z.add_lt_mono_l, wake_move_less; auto; [unfold wake_row; rewrite P; reflexivity|]. rewrite P. destruct (_ =? _); cbn [rank]; unfold big; lia.
    - apply Z.add_lt_mono_l, move_less; auto. rewrite P. cbn [rank]. lia.
    - apply Z.add_lt_mono_l, wake_move_less; auto; [unfold wake_row; rewrite P; reflexivity|]. rewrite P. cbn [rank]; unfold big; lia.
    - apply Z.add_lt_mono_l, move_less; auto. rewrite P. cbn [rank]. lia.
    - rewrite P. unfold big. lia.
    - rewrite P. pose proof (rsum_le (Z.to_nat (c_h c)) (fun y' => rank (s_pc s y')) (fun y' => rank (wake_parsed (s_pc s) y')) 2 ltac:(intros; apply wake_more_parsed)) as B.
      rewrite Z2Nat.id in B by lia. assert (big = 2 * c_h c + 2) by reflexivity. lia.
    - rewrite P. pose proof (Z.mul_succ_div_gt (s_next s) (c_w c) Hw) as D.
      assert (D' : s_next s < (s_next s / c_w c + 1) * c_w c) by lia.
      apply Z.add_lt_mono_r, Z.mul_lt_mono_pos_l; [unfold big|]; lia.
  Qed.
  Lemma steps_bound n s : steps c n init s -> inv c s /\ in_range s /\ todo s + Z.of_nat n <= todo init.
  Proof.
    intros H. remember init as z eqn:Ez in H. induction H as [z|n z t u H IH Q]; subst.
    - split; [apply inv_init; auto|]. split; [|lia]. unfold in_range. cbn [init s_next s_pub]. split; [|discriminate]. split; [lia|]. apply Z.mul_nonneg_nonneg; lia.
    - destruct (IH eq_refl) as (A & B & L). split; [apply (inv_step c Hw t); auto|]. split; [apply (range_step t); auto|]. pose proof (step_less t u A B Q). lia.
  Qed.
  Lemma todo_init : todo init = (2 * c_h c + 2) * (2 * (c_w c * c_h c)) + c_h c * (5 * (2 * c_h c + 2) + (c_w c + 1) * 8).
  Proof.
    unfold todo. cbn [init s_next s_pub s_pc].
    assert (E : forall n k, rsum n (fun _ => k) = Z.of_nat n * k) by (induction n; intros; cbn [rsum]; [|rewrite IHn]; lia).
    rewrite E. cbn [rank]. rewrite Z2Nat.id by lia. unfold big. lia.
  Qed.
  Lemma run_bound n s : steps c n init s -> Z.of_nat n <= (2 * c_h c + 2) * (2 * (c_w c * c_h c)) + c_h c * (5 * (2 * c_h c + 2) + (c_w c + 1) * 8).
  Proof. intros H. destruct (steps_bound n s H) as (A & B & L). pose proof (todo_ge0 s A B). rewrite todo_init in L. lia. Qed.
End Term.
