(** The tables of vector intra predictors. *)
From Coq Require Import ZArith List Bool Lia.
From Verif Require Import MemModel IprSpec VpModel VpModelG VpModelH VpSpec VpProofsA VpProofsB VpProofsC VpProofsD VpProofsE.
Import ListNotations.
Open Scope Z_scope.

Strategy 1000 [check predict run].
Lemma table_in avx t : table_ok avx t = true -> forall mode f w h, In (mode, f) t -> intra_shape w h -> leaves avx mode w h = false -> shape_ok avx f mode (w, h) = true.
Proof.
  unfold table_ok. intros Ht mode f w h Hi Sh Hl. rewrite forallb_forall in Ht. specialize (Ht _ Hi). rewrite forallb_forall in Ht.
  specialize (Ht (w, h) Sh). cbn [fst snd] in Ht. rewrite Hl in Ht. exact Ht.
Qed.
Lemma sse_in mode f w h : In (mode, f) sse_table -> intra_shape w h -> shape_ok false f mode (w, h) = true.
Proof.
  intros Hi Sh. unfold sse_table in Hi. apply in_app_or in Hi. destruct Hi as [Hi|Hi]; [|apply in_app_or in Hi; destruct Hi as [Hi|Hi]].
  - exact (table_in _ _ sse_x_ok mode f w h Hi Sh eq_refl).
  - exact (table_in _ _ sse_y_ok mode f w h Hi Sh eq_refl).
  - exact (table_in _ _ sse_xy_ok mode f w h Hi Sh eq_refl).
Qed.
Lemma avx_in mode f w h : In (mode, f) avx_table -> intra_shape w h -> leaves true mode w h = false -> shape_ok true f mode (w, h) = true.
Proof.
  intros Hi Sh. unfold avx_table in Hi. apply in_app_or in Hi. destruct Hi as [Hi|Hi]; [|apply in_app_or in Hi; destruct Hi as [Hi|Hi]].
  - exact (table_in _ _ avx_x_ok mode f w h Hi Sh).
  - exact (table_in _ _ avx_y_ok mode f w h Hi Sh).
  - exact (table_in _ _ avx_xy_ok mode f w h Hi Sh).
Qed.
Definition modes_of (t : list (Z * list stm)) : list Z := map fst t.
Lemma sse_mode mode f : In (mode, f) sse_table -> 3 <= mode <= 32.
Proof.
  intro Hi. assert (In mode (modes_of sse_table)) as Hm by (apply in_map_iff; exists (mode, f); split; [reflexivity|exact Hi]).
  change (modes_of sse_table) with [3; 4; 5; 6; 8; 10; 12; 24; 25; 26; 28; 30; 31; 32; 13; 14; 16; 18; 20; 22; 23] in Hm. cbn [In] in Hm. clear - Hm. lia.
Qed.
Lemma avx_mode mode f : In (mode, f) avx_table -> 3 <= mode <= 32.
Proof.
  intro Hi. assert (In mode (modes_of avx_table)) as Hm by (apply in_map_iff; exists (mode, f); split; [reflexivity|exact Hi]).
  change (modes_of avx_table) with [3; 4; 5; 6; 8; 10; 12; 24; 25; 26; 28; 30; 31; 32; 13; 14; 16; 18; 20; 22; 23] in Hm. cbn [In] in Hm. clear - Hm. lia.
Qed.
Lemma shape_small w h : intra_shape w h -> w <= 64.
Proof. unfold intra_shape. cbn [In]. intros H. repeat (destruct H as [H|H]; [injection H as <- <-; lia|]). contradiction. Qed.
Lemma rows_above avx mode h : h <= rows avx mode h.
Proof. unfold rows. destruct (_ && _) eqn:E; [|lia]. apply andb_prop in E. destruct E as [E _]. apply andb_prop in E. destruct E as [_ E]. apply Z.eqb_eq in E. lia. Qed.
Lemma shape_sound avx f mode lo hi e j d st w h top left old :
  3 <= mode -> shape_ok avx f mode (w, h) = true -> intra_shape w h -> w <= st ->
  lo <= first w h -> last avx mode w h <= hi -> samples lo hi e -> repeats e w h (reach w h) (reach h w) ->
  exists new, predict lo hi e j f d st w h old = Some new /\ predicts_above w h (rows avx mode h) d st old new (rule 8 e mode w h top left).
Proof.
  intros Hm Ho Sh Hst Hlo Hhi He Hr.
  unfold shape_ok in Ho. cbn [fst snd] in Ho.
  destruct (check_ok lo hi (first w h) (last avx mode w h) w h (rows avx mode h) d st e j old Hlo Hhi He Hr (shape_small w h Sh) Hst f mode top left Hm (rows_above avx mode h) Ho) as (new & A & B & C).
  exists new. split; [exact A|]. split; [exact B|exact C].
Qed.
Lemma avx_13_in r w h : intra_shape w h -> shape_ok true (k_ang_xy_13_avx_with (map r (seq 16 48))) 13 (w, h) = true.
Proof. intro Sh. pose proof (avx_13_ok r) as H. rewrite forallb_forall in H. exact (H (w, h) Sh). Qed.
Lemma reach_inside avx mode w h : intra_shape w h -> first w h <= - reach h w /\ reach w h <= last avx mode w h.
Proof.
  unfold intra_shape. cbn [In]. intros H. unfold last, first.
  repeat (destruct H as [H|H]; [injection H as <- <-; cbn -[Z.mul]; destruct (mode =? 3), avx; cbn; lia|]). contradiction.
Qed.
Lemma predicts_same w h d st old a b r : predicts w h d st old a r -> predicts w h d st old b r -> forall q, a q = b q.
Proof.
  intros [A1 A2] [B1 B2] q.
  assert (D : forall n : nat, (exists x y, 0 <= x < w /\ 0 <= y < Z.of_nat n /\ q = d + y * st + x) \/
    (forall x y, 0 <= x < w -> 0 <= y < Z.of_nat n -> q <> d + y * st + x)).
  { induction n as [|n IH].
    - right. intros x y _ Hy. simpl in Hy. exfalso. clear - Hy. lia.
    - destruct IH as [(x & y & Hx & Hy & E)|IH]; [left; exists x, y; split; [exact Hx|]; split; [clear - Hy; lia|exact E]|].
      set (x := q - d - Z.of_nat n * st). destruct (Z_lt_dec x 0) as [|H0]; [|destruct (Z_lt_dec x w) as [H1|]].
      + right. intros x' y' Hx' Hy' E. destruct (Z.eq_dec y' (Z.of_nat n)) as [->|]; [unfold x in *; clear - Hx' E l; lia|].
        apply (IH x' y'); [exact Hx'|clear - Hy' n0; lia|exact E].
      + left. exists x, (Z.of_nat n). split; [clear - H0 H1; lia|]. split; [clear; lia|]. unfold x. clear. lia.
      + right. intros x' y' Hx' Hy' E. destruct (Z.eq_dec y' (Z.of_nat n)) as [->|]; [unfold x in *; clear - Hx' E n0; lia|].
        apply (IH x' y'); [exact Hx'|clear - Hy' n1; lia|exact E]. }
  destruct (Z_lt_dec 0 h) as [Hh|Hh].
  - destruct (D (Z.to_nat h)) as [(x & y & Hx & Hy & ->)|N].
    + rewrite A1, B1; [reflexivity| | | |]; try exact Hx; clear - Hy Hh; lia.
    + rewrite A2, B2; [reflexivity| |]; intros x y Hx Hy; apply N; try exact Hx; clear - Hy Hh; lia.
  - rewrite A2, B2; [reflexivity| |]; intros x y Hx Hy; exfalso; clear - Hy Hh; lia.
Qed.
Lemma luma_inside avx mode w h : intra_shape w h -> ~ (avx = true /\ mode = 3 /\ w = 64) -> -255 <= first w h /\ last avx mode w h <= 256.
Proof.
  unfold intra_shape. cbn [In]. intros H N. unfold last, first, square.
  destruct (Z.eqb_spec mode 3) as [E|E];
  repeat (destruct H as [H|H]; [injection H as <- <-; destruct avx; cbn; try lia; exfalso; apply N; auto|]); contradiction.
Qed.
Lemma chroma_inside avx mode n : In n [4; 8; 16; 32] -> ~ (mode = 3 /\ n = 32) -> -127 <= first n n /\ last avx mode n n <= 128.
Proof.
  cbn [In]. intros H N. unfold last, first, square.
  destruct (Z.eqb_spec mode 3) as [E|E];
  repeat (destruct H as [H|H]; [subst n; destruct avx; cbn; try lia; exfalso; apply N; auto|]); contradiction.
Qed.
