(** Readers that never leave their tables. *)
From Coq Require Import ZArith List Bool Lia.
From Verif Require Import CBase CBaseProofs AecModel AecSpec AecProofsA AecProofsB SynModel SynSpec.
Import ListNotations.
Open Scope Z_scope.

Section Rules.
Context {u : Prop}.
Local Notation safe := (safe_or u).


Local Opaque update_ctx_mps update_ctx_lps.

Definition bit (b : Z) : Prop := b = 0 \/ b = 1.

Definition okb {A : Type} (P : A -> Prop) (o : outcome A) : Prop := match o with Done x => P x | _ => True end.
Lemma okb_bind : forall A B (P : B -> Prop) (o : outcome A) (f : A -> outcome B), (forall x, okb P (f x)) -> okb P (bindo o f).
Proof. intros A B P [x| | |] f H; cbn [bindo okb]; auto. Qed.
Lemma okb_if : forall A (P : A -> Prop) (b : bool) x y, okb P x -> okb P y -> okb P (if b then x else y).
Proof. intros A P [] x y; auto. Qed.
Lemma okb_done : forall A (P : A -> Prop) x, P x -> okb P (Done x).
Proof. auto. Qed.

Lemma legal_bits : forall c, legal_ctx c -> bit (mps c) /\ bit (1 - mps c).
Proof. intros c (_ & [Hm|Hm] & _); rewrite Hm; unfold bit; lia. Qed.
Lemma bit0 : bit 0. Proof. left; reflexivity. Qed.
Lemma bit1 : bit 1. Proof. right; reflexivity. Qed.

Lemma symbol_bit : forall a c, legal_ctx c -> okb (fun r => let '(_, c1, b) := r in legal_ctx c1 /\ bit b) (decode_symbol a c).
Proof.
  intros a c L. destruct (legal_bits c L) as [M1 M2]. unfold decode_symbol. cbv zeta.
  apply okb_bind. intros [[a2 v] e]. apply okb_if; [apply okb_done; split; [exact L|exact bit0]|].
  apply okb_if; [apply okb_done; split; [exact L|exact bit0]|].
  apply okb_if; [|apply okb_done; split; [exact (legal_mps c L)|exact M1]].
  apply okb_bind. intros [a3 e3]. apply okb_if; [apply okb_done; split; [exact L|exact bit0]|].
  apply okb_bind. intros [t n]. apply okb_bind. intros [a4 e4].
  apply okb_if; [apply okb_done; split; [exact L|exact bit0]|].
  apply okb_done; split; [exact (legal_lps c L)|exact M2].
Qed.
Lemma eq_prob_bit : forall a, okb (fun r => bit (snd r)) (decode_eq_prob a).
Proof.
  intros a. unfold decode_eq_prob. cbv zeta. apply okb_if.
  - apply okb_bind. intros [a1 e]. apply okb_if; [exact bit0|]. apply okb_if; [exact bit1|exact bit0].
  - apply okb_if; [|exact bit0]. apply okb_if; [exact bit1|]. apply okb_bind. intros [a1 e]. apply okb_if; [exact bit0|exact bit1].
Qed.
Lemma final_bit : forall a, okb (fun r => bit (snd r)) (decode_final a).
Proof.
  intros a. unfold decode_final. cbv zeta. apply okb_bind. intros [a1 e]. apply okb_if; [exact bit0|].
  apply okb_if; [|exact bit0].
  apply okb_bind. intros [a2 e2]. apply okb_if; [exact bit0|]. apply okb_bind. intros [t n]. apply okb_bind. intros [a3 e3].
  apply okb_if; [exact bit0|exact bit1].
Qed.
Lemma cont0_loop_range : forall k a c v b i, legal_ctx c -> bit b -> 0 <= i -> (b = 1 -> 1 <= i) ->
  okb (fun r => let '(_, c1, n) := r in legal_ctx c1 /\ 0 <= n <= i + Z.of_nat k) (continue0_loop k a c v b i).
Proof.
  induction k as [|k IH]; intros a c v b i L B Hi Hb; cbn [continue0_loop].
  - apply okb_done. split; [exact L|]. destruct B; lia.
  - apply okb_if; [apply okb_done; split; [exact L|destruct B; lia]|]. cbv zeta.
    destruct (legal_bits c L) as [M1 M2].
    apply okb_bind. intros [[a2 v2] e]. apply okb_if; [apply okb_done; split; [exact L|lia]|].
    apply okb_if; [apply okb_done; split; [exact L|lia]|].
    replace (i + Z.of_nat (S k)) with (i + 1 + Z.of_nat k) by lia.
    apply okb_if; [|apply IH; [exact (legal_mps c L)|exact M1|lia|lia]].
    apply okb_bind. intros [a3 e3]. apply okb_if; [apply okb_done; split; [exact L|lia]|].
    apply okb_bind. intros [t n]. apply okb_bind. intros [a4 e4]. apply okb_if; [apply okb_done; split; [exact L|lia]|].
    apply IH; [exact (legal_lps c L)|exact M2|lia|lia].
Qed.
Lemma ext_loop_range : forall k a cs inc b i, legal cs -> bit b -> 0 <= i -> (b = 1 -> 1 <= i) ->
  okb (fun r => let '(_, cs1, n) := r in legal cs1 /\ 0 <= n <= i + Z.of_nat k) (continue0_ext_loop k a cs inc b i).
Proof.
  induction k as [|k IH]; intros a cs inc b i L B Hi Hb; cbn [continue0_ext_loop].
  - apply okb_done. split; [exact L|]. destruct B; lia.
  - apply okb_if; [apply okb_done; split; [exact L|destruct B; lia]|]. cbv zeta.
    assert (Lj : legal_ctx (cs (Z.min i inc))) by apply L.
    destruct (legal_bits _ Lj) as [M1 M2].
    assert (U : forall c, legal_ctx c -> legal (fun x => if x =? Z.min i inc then c else cs x)).
    { intros c Hc j. destruct (j =? Z.min i inc); [exact Hc|apply L]. }
    apply okb_bind. intros [a2 e]. apply okb_if; [apply okb_done; split; [exact L|lia]|].
    apply okb_if; [apply okb_done; split; [exact L|lia]|].
    replace (i + Z.of_nat (S k)) with (i + 1 + Z.of_nat k) by lia.
    apply okb_if; [|apply IH; [exact (U _ (legal_mps _ Lj))|exact M1|lia|lia]].
    apply okb_bind. intros [a3 e3]. apply okb_if; [apply okb_done; split; [exact L|lia]|].
    apply okb_bind. intros [[a4 t] e4]. apply okb_if; [apply okb_done; split; [exact L|lia]|].
    apply IH; [exact (U _ (legal_lps _ Lj))|exact M2|lia|lia].
Qed.

(** ** Rules. *)
Lemma safe_ret : forall A (Q : A -> Prop) x, Q x -> safe (ret x) Q.
Proof. intros A Q x H a cs L. cbn. auto. Qed.
Lemma safe_stop : forall A (Q : A -> Prop), safe stop Q.
Proof. intros A Q a cs L. cbn. auto. Qed.
Lemma safe_bind : forall A B (P : A -> Prop) (Q : B -> Prop) m k, safe m P -> (forall x, P x -> safe (k x) Q) -> safe (bind m k) Q.
Proof.
  intros A B P Q m k Hm Hk a cs L. unfold bind. specialize (Hm a cs L).
  destruct (m a cs) as [[[a1 cs1] [x|]]| | |]; auto. destruct Hm as [L1 Px]. exact (Hk x Px a1 cs1 L1).
Qed.
Lemma safe_weaken : forall A (P Q : A -> Prop) m, safe m P -> (forall x, P x -> Q x) -> safe m Q.
Proof.
  intros A P Q m Hm H a cs L. specialize (Hm a cs L). destruct (m a cs) as [[[a1 cs1] [x|]]| | |]; auto.
  destruct Hm; split; auto.
Qed.
Lemma safe_catch : forall A (Q : A -> Prop) m r, safe m Q -> Q r -> safe (catch m r) Q.
Proof.
  intros A Q m r Hm Hr a cs L. unfold catch. specialize (Hm a cs L). destruct (m a cs) as [[[a1 cs1] [x|]]| | |]; auto.
  destruct Hm; split; auto.
Qed.
Lemma safe_chk : forall v (Q : Z -> Prop), -2147483648 <= v <= 2147483647 -> Q v -> safe (chk v) Q.
Proof.
  intros v Q Hv HQ. unfold chk.
  assert (E : (-2147483648 <=? v) && (v <=? 2147483647) = true) by (apply andb_true_intro; split; apply Z.leb_le; lia).
  rewrite E. apply safe_ret. exact HQ.
Qed.
Lemma safe_chk_or : forall v (Q : Z -> Prop), u \/ -2147483648 <= v <= 2147483647 -> (-2147483648 <= v <= 2147483647 -> Q v) -> safe (chk v) Q.
Proof.
  intros v Q Hv HQ. unfold chk. destruct ((-2147483648 <=? v) && (v <=? 2147483647)) eqn:E.
  - apply andb_prop in E. destruct E as [E1 E2]. apply Z.leb_le in E1, E2. apply safe_ret. apply HQ. lia.
  - intros a cs L. cbn. destruct Hv as [Hv|Hv]; [exact Hv|]. apply andb_false_iff in E. destruct E as [E|E]; apply Z.leb_gt in E; lia.
Qed.
Lemma safe_lookup : forall A (t : list A) i (Q : A -> Prop), 0 <= i < Z.of_nat (length t) -> (forall v, get t i = Some v -> Q v) -> safe (lookup t i) Q.
Proof.
  intros A t i Q Hi HQ. unfold lookup. destruct (get t i) as [v|] eqn:E.
  - apply safe_ret. apply HQ. reflexivity.
  - exfalso. unfold get in E. assert (L : (i <? 0) = false) by (apply Z.ltb_ge; lia). rewrite L in E.
    apply nth_error_None in E. lia.
Qed.
Lemma safe_sym : forall r i (Q : Z -> Prop), 0 <= i < a_size r -> Q 0 -> Q 1 -> safe (sym r i) Q.
Proof.
  intros r i Q Hi Q0 Q1 a cs L. unfold sym.
  assert (E : (0 <=? i) && (i <? a_size r) = true) by (apply andb_true_intro; split; [apply Z.leb_le|apply Z.ltb_lt]; lia).
  rewrite E. pose proof (symbol_bit a (cs (a_base r + i)) (L _)) as S1.
  destruct (decode_symbol a (cs (a_base r + i))) as [[[a1 c1] b]| | |]; auto. cbn [okb] in S1. destruct S1 as [Lc B]. split.
  - intros j. destruct (j =? a_base r + i); [exact Lc|apply L].
  - destruct B; subst; assumption.
Qed.
Lemma safe_byp : forall (Q : Z -> Prop), Q 0 -> Q 1 -> safe byp Q.
Proof.
  intros Q Q0 Q1 a cs L. unfold byp. pose proof (eq_prob_bit a) as S1. destruct (decode_eq_prob a) as [[a1 b]| | |]; auto.
  cbn [okb snd] in S1. split; [exact L|]. destruct S1; subst; assumption.
Qed.
Lemma safe_fin : forall (Q : Z -> Prop), Q 0 -> Q 1 -> safe fin Q.
Proof.
  intros Q Q0 Q1 a cs L. unfold fin. pose proof (final_bit a) as S1. destruct (decode_final a) as [[a1 b]| | |]; auto.
  cbn [okb snd] in S1. split; [exact L|]. destruct S1; subst; assumption.
Qed.
Lemma safe_cont0 : forall r i max (Q : Z -> Prop), 0 <= i < a_size r -> 0 <= max -> (forall v, 0 <= v <= max -> Q v) -> safe (cont0 r i max) Q.
Proof.
  intros r i max Q Hi Hm HQ a cs L. unfold cont0.
  assert (E : (0 <=? i) && (i <? a_size r) = true) by (apply andb_true_intro; split; [apply Z.leb_le|apply Z.ltb_lt]; lia).
  rewrite E. unfold continue0.
  pose proof (cont0_loop_range (Z.to_nat max) a (cs (a_base r + i)) (vs a) 0 0 (L _) bit0 (Z.le_refl 0) ltac:(lia)) as S1.
  destruct (continue0_loop (Z.to_nat max) a (cs (a_base r + i)) (vs a) 0 0) as [[[a1 c1] b]| | |]; auto.
  cbn [okb] in S1. destruct S1 as [Lc B]. split.
  - intros j. destruct (j =? a_base r + i); [exact Lc|apply L].
  - apply HQ. lia.
Qed.
Lemma safe_ext : forall r i inc max (Q : Z -> Prop), 0 <= i -> i + Z.min inc (max - 1) < a_size r -> 0 <= max -> (forall v, 0 <= v <= max -> Q v) ->
  safe (ext r i inc max) Q.
Proof.
  intros r i inc max Q Hi Hj Hm HQ a cs L. unfold ext.
  assert (E : (0 <=? i) && (i + Z.min inc (max - 1) <? a_size r) = true) by (apply andb_true_intro; split; [apply Z.leb_le|apply Z.ltb_lt]; lia).
  rewrite E. unfold continue0_ext.
  pose proof (ext_loop_range (Z.to_nat max) a (fun j => cs (a_base r + i + j)) inc 0 0 ltac:(intros j; apply L) bit0 (Z.le_refl 0) ltac:(lia)) as S1.
  destruct (continue0_ext_loop (Z.to_nat max) a (fun j => cs (a_base r + i + j)) inc 0 0) as [[[a1 c1] b]| | |]; auto.
  cbn [okb] in S1. destruct S1 as [Lc B]. split.
  - intros j. apply Lc.
  - apply HQ. lia.
Qed.
Lemma safe_check : forall (Q : unit -> Prop), Q tt -> safe check Q.
Proof. intros Q H a cs L. unfold check. destruct (err a); cbn; auto. Qed.
Lemma safe_if : forall A (Q : A -> Prop) (b : bool) m n, (b = true -> safe m Q) -> (b = false -> safe n Q) -> safe (if b then m else n) Q.
Proof. intros A Q [] m n H1 H2; auto. Qed.

End Rules.
