(** The kernels that double a block. *)
From Coq Require Import ZArith List Bool Lia.
From Verif Require Import CBase MemModel MemProofs VxModelBase VtModel VtModelE VtModelF VxProofs ViProofs VtProofs VtProofsB AlfSpec McSpec TrSpec.
Import ListNotations.
Open Scope Z_scope.

Fixpoint weqb (a b : wsym) : bool :=
  match a, b with
  | K x, K y => x =? y
  | V x, V y => x =? y
  | Wadd a1 a2, Wadd b1 b2 => weqb a1 b1 && weqb a2 b2
  | Wmin a1 a2, Wmin b1 b2 => weqb a1 b1 && weqb a2 b2
  | Wmax a1 a2, Wmax b1 b2 => weqb a1 b1 && weqb a2 b2
  | Wsra a1 n, Wsra b1 k => weqb a1 b1 && (n =? k)
  | _, _ => false end.
Lemma weqb_ok a : forall b, weqb a b = true -> a = b.
Proof.
  induction a; intros []; cbn [weqb]; try discriminate; rewrite ?andb_true_iff, ?Z.eqb_eq; intros; f_equal; firstorder.
Qed.
Definition leaf (h0 x y : Z) : wsym := Wsra (V (y * h0 + x)) 1.
Definition vtree (h0 h1 x y : Z) : wsym :=
  if y mod 2 =? 0 then leaf h0 x (y / 2) else Wsra (Wadd (leaf h0 x (y / 2)) (leaf h0 x (Z.min (y / 2 + 1) (h1 - 1)))) 1.
Definition htree (h0 h1 x y : Z) : wsym :=
  if x mod 2 =? 0 then vtree h0 h1 (x / 2) y else Wsra (Wadd (vtree h0 h1 (x / 2) y) (vtree h0 h1 (Z.min (x / 2 + 1) (h0 - 1)) y)) 1.
Definition wavelet_check (h0 h1 : Z) (p : list ins) : bool :=
  match srun (fun _ _ => None) p with
  | Some log => rows0 log && chk_log true (2 * h0) (2 * h1) (fun w x y => weqb w (htree h0 h1 x y)) log && chk_cover true (2 * h0) (2 * h1) log
  | None => false end.

Section Tree.
  Variables (h0 h1 : Z) (v : Z -> Z) (b : Z -> Z -> Z).
  Hypothesis H0 : 0 < h0.
  Hypothesis H1 : 0 < h1.
  Hypothesis vb : forall x y, 0 <= x < h0 -> 0 <= y < h1 -> v (y * h0 + x) = b x y.
  Hypothesis b16 : forall x y, 0 <= x < h0 -> 0 <= y < h1 -> -32768 <= b x y <= 32767.
  Definition inner (x y : Z) : Z := between (2 * h1) (fun y => b x y / 2) y.
  Lemma half_range z : -32768 <= z <= 32767 -> -16384 <= z / 2 <= 16383.
  Proof. intros. Z.div_mod_to_equations. lia. Qed.
  Lemma avg a c : -16384 <= a <= 16383 -> -16384 <= c <= 16383 -> Z.shiftr (to_i16 (a + c)) 1 = (a + c) / 2 /\ -16384 <= (a + c) / 2 <= 16383.
  Proof. intros A C. rewrite to_i16_id by lia. rewrite Z.shiftr_div_pow2 by lia. change (2 ^ 1) with 2. split; [reflexivity|]. Z.div_mod_to_equations. lia. Qed.
  Lemma leaf_ok x y : 0 <= x < h0 -> 0 <= y < h1 -> weval v (leaf h0 x y) = b x y / 2.
  Proof. intros Hx Hy. unfold leaf. cbn [weval]. rewrite vb by assumption. rewrite Z.shiftr_div_pow2 by lia. reflexivity. Qed.
  Lemma vtree_ok x y : 0 <= x < h0 -> 0 <= y < 2 * h1 -> weval v (vtree h0 h1 x y) = inner x y /\ -16384 <= inner x y <= 16383.
  Proof.
    intros Hx Hy. unfold vtree, inner, between. replace (2 * h1 / 2) with h1 by (rewrite Z.mul_comm, Z.div_mul; lia).
    assert (0 <= y / 2 < h1) by (Z.div_mod_to_equations; lia).
    destruct (Z.eqb_spec (y mod 2) 0).
    - rewrite leaf_ok by assumption. split; [reflexivity|]. apply half_range, b16; assumption.
    - cbn [weval]. rewrite !leaf_ok by (assumption || lia).
      apply avg; apply half_range, b16; lia.
  Qed.
  Lemma htree_ok x y : 0 <= x < 2 * h0 -> 0 <= y < 2 * h1 -> weval v (htree h0 h1 x y) = doubled (2 * h0) (2 * h1) b x y.
  Proof.
    intros Hx Hy. unfold htree, doubled, between at 1. replace (2 * h0 / 2) with h0 by (rewrite Z.mul_comm, Z.div_mul; lia).
    assert (0 <= x / 2 < h0) by (Z.div_mod_to_equations; lia).
    destruct (Z.eqb_spec (x mod 2) 0).
    - exact (proj1 (vtree_ok (x / 2) y ltac:(assumption) Hy)).
    - cbn [weval]. destruct (vtree_ok (x / 2) y ltac:(assumption) Hy) as [E1 R1]. destruct (vtree_ok (Z.min (x / 2 + 1) (h0 - 1)) y ltac:(lia) Hy) as [E2 R2].
      rewrite E1, E2. exact (proj1 (avg _ _ R1 R2)).
  Qed.
End Tree.

Lemma wavelet_check_ok h0 h1 p : wavelet_check h0 h1 p = true -> 0 < h0 -> 0 < h1 -> h0 * h1 <= 4096 ->
  forall src dst stride regs ints m,
  (forall x y, 0 <= x < h0 -> 0 <= y < h1 -> -32768 <= m (src + y * h0 + x) <= 32767) ->
  (forall x y, 0 <= x < 2 * h0 -> 0 <= y < 2 * h1 ->
     run p (fun _ => 0) src dst stride regs ints m (dst + y * (2 * h0) + x) = doubled (2 * h0) (2 * h1) (fun x y => m (src + y * h0 + x)) x y) /\
  (forall q, ~ (exists x y, 0 <= x < 2 * h0 /\ 0 <= y < 2 * h1 /\ q = dst + y * (2 * h0) + x) -> run p (fun _ => 0) src dst stride regs ints m q = m q).
Proof.
  intros Hc H0 H1 Sz src dst stride regs ints m C16. unfold wavelet_check in Hc.
  destruct (srun _ p) as [log|] eqn:E1; [|discriminate]. rewrite !andb_true_iff in Hc. destruct Hc as [[R0 Hl] Hv].
  set (v := fun id => if id <? 4096 then to_i16 (m (src + id)) else if id =? ONE then 1 else 0).
  assert (SR : forall q, run p (fun _ => 0) src dst stride regs ints m q = log_mem v dst stride m log q).
  { refine (srun_ok _ v (fun _ => 0) src dst stride m _ _ _ _ _ _ p log regs ints E1).
    - intros id. subst v. cbn beta. destruct (_ <? _); [apply to_i16_range|]. destruct (_ =? _); lia.
    - reflexivity.
    - intros id Hi. subst v. cbn beta. unfold ONE. destruct (Z.ltb_spec id 4096); [lia|]. destruct (Z.eqb_spec id 12289); [lia|reflexivity].
    - intros id Hi. subst v. cbn beta. destruct (Z.ltb_spec id 4096); [reflexivity|lia].
    - lia.
    - discriminate. }
  destruct (log_spec true (2 * h0) (2 * h1) _ ltac:(lia) v dst (2 * h0) m eq_refl log Hl Hv) as [L1 L2]. split.
  - intros x y Hx Hy. rewrite SR, (rows0_ok _ _ _ (2 * h0)) by exact R0. destruct (L1 x y Hx Hy) as (w & G & ->). apply weqb_ok in G. subst w.
    apply htree_ok; try assumption. intros x' y' Hx' Hy'. subst v. cbn beta. destruct (Z.ltb_spec (y' * h0 + x') 4096); [|nia]. rewrite Z.add_assoc. apply to_i16_id, C16; assumption.
  - intros q Nq. rewrite SR, (rows0_ok _ _ _ (2 * h0)) by exact R0. apply L2. exact Nq.
Qed.

Lemma chk_w64x16 : wavelet_check 32 8 inv_wavelet_64x16_sse128 = true.
Proof. vm_compute. reflexivity. Qed.
Lemma chk_w16x64 : wavelet_check 8 32 inv_wavelet_16x64_sse128 = true.
Proof. vm_compute. reflexivity. Qed.
Lemma chk_w64x64 : wavelet_check 32 32 inv_wavelet_64x64_sse128 = true.
Proof. vm_compute. reflexivity. Qed.
Lemma chk_w64x16_avx2 : wavelet_check 32 8 inv_wavelet_64x16_avx2 = true.
Proof. vm_compute. reflexivity. Qed.
Lemma chk_w16x64_avx2 : wavelet_check 8 32 inv_wavelet_16x64_avx2 = true.
Proof. vm_compute. reflexivity. Qed.
Lemma chk_w64x64_avx2 : wavelet_check 32 32 inv_wavelet_64x64_avx2 = true.
Proof. vm_compute. reflexivity. Qed.
