(** Proofs about the coding quadtree. *)
From Coq Require Import ZArith List Bool Lia.
From Verif Require Import CBase CBaseProofs MemModel MemProofs SaoModel SaoProofs QtModel QtSpec.
Import ListNotations.
Open Scope Z_scope.

(** *** Covering. *)
Lemma covers_ext : forall us P Q, covers_once us P -> (forall X Y, P X Y <-> Q X Y) -> covers_once us Q.
Proof.
  intros us P Q [A C] E. split.
  - intros u X Y Hu Hi. apply E. exact (A u X Y Hu Hi).
  - intros X Y HQ. apply C. apply E. exact HQ.
Qed.
Lemma covers_nil : forall P, (forall X Y, ~ P X Y) -> covers_once [] P.
Proof. intros P N. split; [intros u X Y []|]. intros X Y HP. exfalso. exact (N X Y HP). Qed.
Lemma covers_one : forall u, covers_once [u] (in_unit u).
Proof.
  intros u. split; [intros v X Y [<- | []] Hi; exact Hi|]. intros X Y HI. exists 0%nat, u. split; [reflexivity|]. split; [exact HI|].
  intros [|j] v Hj _; [reflexivity|]. destruct j; discriminate.
Qed.
Lemma covers_app : forall us vs P Q, covers_once us P -> covers_once vs Q -> (forall X Y, P X Y -> ~ Q X Y) ->
  covers_once (us ++ vs) (fun X Y => P X Y \/ Q X Y).
Proof.
  intros us vs P Q [A1 C1] [A2 C2] D. split.
  - intros u X Y Hu Hi. apply in_app_or in Hu. destruct Hu as [Hu | Hu]; [left; exact (A1 u X Y Hu Hi)|right; exact (A2 u X Y Hu Hi)].
  - intros X Y [HP | HQ].
    + destruct (C1 X Y HP) as [i [u [Hi [Iu U]]]]. exists i, u. split; [|split; [exact Iu|]].
      * rewrite nth_error_app1; [exact Hi|]. apply nth_error_Some. rewrite Hi. discriminate.
      * intros j v Hj Iv. destruct (Nat.lt_ge_cases j (length us)) as [L | L].
        -- rewrite nth_error_app1 in Hj by exact L. exact (U j v Hj Iv).
        -- rewrite nth_error_app2 in Hj by exact L. exfalso. apply (D X Y HP). exact (A2 v X Y (nth_error_In _ _ Hj) Iv).
    + destruct (C2 X Y HQ) as [i [u [Hi [Iu U]]]]. exists (length us + i)%nat, u. split; [|split; [exact Iu|]].
      * rewrite nth_error_app2 by lia. replace (length us + i - length us)%nat with i by lia. exact Hi.
      * intros j v Hj Iv. destruct (Nat.lt_ge_cases j (length us)) as [L | L].
        -- rewrite nth_error_app1 in Hj by exact L. exfalso. apply (D X Y); [|exact HQ]. exact (A1 v X Y (nth_error_In _ _ Hj) Iv).
        -- rewrite nth_error_app2 in Hj by exact L. rewrite <- (U _ v Hj Iv). lia.
Qed.

(** *** Spreading a unit over its area. *)
Lemma read_end_spec : forall wscu level xy m, 3 <= level -> 2 ^ (level - 3) <= wscu ->
  (forall i j, 0 <= i < 2 ^ (level - 3) -> 0 <= j < 2 ^ (level - 3) -> read_end wscu level xy m (xy + i * wscu + j) = m xy) /\
  (forall q, (forall i j, 0 <= i < 2 ^ (level - 3) -> 0 <= j < 2 ^ (level - 3) -> q <> xy + i * wscu + j) -> read_end wscu level xy m q = m q).
Proof.
  intros wscu level xy m HL HW. unfold read_end. rewrite Z.shiftl_mul_pow2 by lia. rewrite Z.mul_1_l. set (n := 2 ^ (level - 3)) in *.
  assert (N1: 1 <= n) by (assert (0 < n) by (apply Z.pow_pos_nonneg; lia); lia).
  destruct (Z.leb_spec n 1) as [L | L].
  - assert (n = 1) by lia. split; [|reflexivity]. intros i j Hi Hj. replace (xy + i * wscu + j) with xy; [reflexivity|]. assert (i = 0) by lia. subst i. lia.
  - cbv zeta. set (m1 := floop 1 n (fun i m' => upd m' (xy + i) (m xy)) m).
    assert (R1: (forall j, 0 <= j < n -> m1 (xy + j) = m xy) /\ (forall q, q < xy \/ xy + n <= q -> m1 q = m q)).
    { unfold m1. apply (floop_inv (fun k (t : mem) => (forall j, 0 <= j < k -> t (xy + j) = m xy) /\ (forall q, q < xy \/ xy + k <= q -> t q = m q)) 1 n); [lia| |].
      - split; [|reflexivity]. intros j Hj. replace (xy + j) with xy by lia. reflexivity.
      - intros k t Hk [T1 T2]. split.
        + intros j Hj. destruct (Z.eq_dec j k) as [-> | Ne]; [apply upd_same|]. rewrite upd_other by lia. apply T1. lia.
        + intros q Hq. rewrite upd_other by lia. apply T2. lia. }
    clearbody m1. destruct R1 as [R1 R2].
    set (m2 := floop 1 n (fun i t => floop 0 n (fun j t' => upd t' (xy + i * wscu + j) (t' (xy + j))) t) m1).
    assert (R3: (forall i j, 0 <= i < n -> 0 <= j < n -> m2 (xy + i * wscu + j) = m xy) /\
      (forall q, (forall i j, 0 <= i < n -> 0 <= j < n -> q <> xy + i * wscu + j) -> m2 q = m1 q)).
    { unfold m2. apply (floop_inv (fun k (t : mem) => (forall i j, 0 <= i < k -> 0 <= j < n -> t (xy + i * wscu + j) = m xy) /\
        (forall q, (forall i j, 0 <= i < k -> 0 <= j < n -> q <> xy + i * wscu + j) -> t q = m1 q)) 1 n); [lia| |].
      - split; [|reflexivity]. intros i j Hi Hj. replace i with 0 by lia. replace (xy + 0 * wscu + j) with (xy + j) by lia. apply R1. exact Hj.
      - intros k t Hk [T1 T2].
        assert (IN: forall b, 0 <= b <= n -> (forall j, 0 <= j < b -> floop 0 b (fun j t' => upd t' (xy + k * wscu + j) (t' (xy + j))) t (xy + k * wscu + j) = m xy) /\
          (forall q, (forall j, 0 <= j < b -> q <> xy + k * wscu + j) -> floop 0 b (fun j t' => upd t' (xy + k * wscu + j) (t' (xy + j))) t q = t q)).
        { intros b Hb. apply (floop_inv (fun c (t' : mem) => (forall j, 0 <= j < c -> t' (xy + k * wscu + j) = m xy) /\ (forall q, (forall j, 0 <= j < c -> q <> xy + k * wscu + j) -> t' q = t q)) 0 b); [lia| |].
          - split; [intros; lia|reflexivity].
          - intros c t' Hc [U1 U2].
            assert (KW: wscu <= k * wscu) by (rewrite <- (Z.mul_1_l wscu) at 1; apply Z.mul_le_mono_nonneg_r; lia).
            split.
            + intros j Hj. destruct (Z.eq_dec j c) as [-> | Ne].
              * rewrite upd_same. rewrite U2 by (intros; lia). replace (xy + c) with (xy + 0 * wscu + c) by lia. apply T1; lia.
              * rewrite upd_other by lia. apply U1. lia.
            + intros q Hq. rewrite upd_other by (intros E; apply (Hq c); lia). apply U2. intros j Hj. apply Hq. lia. }
        destruct (IN n ltac:(lia)) as [I1 I2]. split.
        + intros i j Hi Hj. destruct (Z.eq_dec i k) as [-> | Ne]; [apply I1; exact Hj|]. rewrite I2.
          * apply T1; lia.
          * intros j' Hj' E. assert (i * wscu + wscu <= k * wscu) by (replace (i * wscu + wscu) with ((i + 1) * wscu) by ring; apply Z.mul_le_mono_nonneg_r; lia). lia.
        + intros q Hq. rewrite I2 by (intros j Hj; apply Hq; lia). apply T2. intros i j Hi Hj. apply Hq; lia. }
    clearbody m2. destruct R3 as [R3 R4]. split; [exact R3|]. intros q Hq. rewrite R4 by exact Hq. apply R2.
    destruct (Z.lt_ge_cases q xy) as [ | G]; [left; assumption|]. right. destruct (Z.le_gt_cases (xy + n) q) as [ | G2]; [assumption|]. exfalso.
    apply (Hq 0 (q - xy)); lia.
Qed.
