(** Proofs: the arrays local to the intra predictors. *)
From Coq Require Import ZArith List Bool Lia.
From Verif Require Import CBase MemModel SaoModel SaoProofs LfModel HdrModel IprModel IprSpec IprSpecB IprProofsD.
Import ListNotations.
Open Scope Z_scope.

Definition within (lo hi : Z) (E : tapf) : Prop := forall r r', (forall q, lo <= q <= hi -> r q = r' q) -> E r = E r'.
Lemma put_out bits a es : forall addr r k m, (forall j, k <= j < k + Z.of_nat (length es) -> addr j <> a) -> line_put bits es addr r k m a = m a.
Proof.
  induction es as [|E es IH]; intros addr r k m H; cbn [line_put]; [reflexivity|]. cbn [length] in H. rewrite IH; [|intros j Hj; apply H; lia]. unfold upd. destruct (Z.eqb_spec a (addr k)) as [Q|]; [|reflexivity]. exfalso. apply (H k); [lia|congruence].
Qed.
Lemma put_same bits lo hi a es : forall addr r r' k m m', Forall (within lo hi) es -> (forall q, lo <= q <= hi -> r q = r' q) -> (forall b, m b = m' b) -> line_put bits es addr r k m a = line_put bits es addr r' k m' a.
Proof.
  induction es as [|E es IH]; intros addr r r' k m m' W H Hm; cbn [line_put]; [apply Hm|]. inversion W as [|? ? W1 W2]; subst. apply IH; [exact W2|exact H|]. intros b. unfold upd. rewrite (W1 r r' H), Hm. reflexivity.
Qed.
Lemma fill_out bits es addr src pos x y m a : (forall k i, 0 <= k < Z.of_nat (length es) -> x <= i < y -> addr k i <> a) -> line_fill bits es addr src pos x y m a = m a.
Proof.
  intros H. unfold line_fill. destruct (Z_lt_le_dec y x) as [L|L]; [rewrite floop_none by lia; reflexivity|].
  apply (floop_inv (fun _ m' => m' a = m a) x y); [exact L|reflexivity|]. intros i m' Hi E. rewrite put_out; [exact E|]. intros j Hj. apply H; lia.
Qed.
Lemma fill_same bits lo hi es addr src src' pos x y m m' a : Forall (within lo hi) es -> (forall i q, x <= i < y -> lo <= q <= hi -> src (pos i + q) = src' (pos i + q)) -> (forall b, m b = m' b) ->
  line_fill bits es addr src pos x y m a = line_fill bits es addr src' pos x y m' a.
Proof.
  intros W H Hm. unfold line_fill, floop. assert (G : Z.of_nat (Z.to_nat (y - x)) <= Z.max 0 (y - x)) by lia. revert G a. generalize (Z.to_nat (y - x)) as n.
  induction n as [|n IH]; intros G a; cbn [loop]; [apply Hm|]. apply (put_same bits lo hi a es); [exact W|intros q Hq; apply H; lia|]. intros b. apply IH. lia.
Qed.

Ltac w_list := repeat (apply Forall_cons; [intros r r' H; cbv beta; rewrite !H by lia; reflexivity|]); apply Forall_nil.
Lemma w_x3 : Forall (within 2 14) e_x3. Proof. unfold e_x3. w_list. Qed.
Lemma w_x4 : Forall (within (-1) 1) e_x4. Proof. unfold e_x4. w_list. Qed.
Lemma w_x5 : Forall (within 1 13) e_x5. Proof. unfold e_x5, e_x5a. cbn [app]. w_list. Qed.
Lemma w_x6 : Forall (within 1 3) e_x6. Proof. unfold e_x6. w_list. Qed.
Lemma w_x8 : Forall (within 0 3) e_x8. Proof. unfold e_x8. w_list. Qed.
Lemma w_x10 : Forall (within 0 3) e_x10. Proof. unfold e_x10. w_list. Qed.
Lemma w_x11 : Forall (within 0 3) e_x11. Proof. unfold e_x11, e_x11a. cbn [app]. w_list. Qed.
Lemma w_xy13l : Forall (within (-2) 9) e_xy13l. Proof. unfold e_xy13l. w_list. Qed.
Lemma w_xy13 : Forall (within (-2) 2) e_xy13. Proof. unfold e_xy13, e_xy13a. cbn [app]. w_list. Qed.
Lemma w_xy14l : Forall (within (-2) 5) e_xy14l. Proof. unfold e_xy14l. w_list. Qed.
Lemma w_xy14 : Forall (within (-2) 2) e_xy14. Proof. unfold e_xy14. w_list. Qed.
Lemma w_xy16l : Forall (within (-2) 3) e_xy16l. Proof. unfold e_xy16l. w_list. Qed.
Lemma w_xy16 : Forall (within (-2) 2) e_xy16. Proof. unfold e_xy16. w_list. Qed.
Lemma w_mid : Forall (within (-1) 1) e_mid. Proof. unfold e_mid. w_list. Qed.
Lemma w_xy20l : Forall (within (-1) 3) e_xy20l. Proof. unfold e_xy20l. w_list. Qed.
Lemma w_xy22l : Forall (within (-1) 3) e_xy22l. Proof. unfold e_xy22l. w_list. Qed.
Lemma w_xy23l : Forall (within (-1) 3) e_xy23l. Proof. unfold e_xy23l. w_list. Qed.
Lemma w_xy23t : Forall (within (-1) 1) e_xy23t. Proof. unfold e_xy23t. w_list. Qed.
Lemma w_y25 : Forall (within (-3) 0) e_y25. Proof. unfold e_y25, e_y25a. cbn [app]. w_list. Qed.
Lemma w_y26 : Forall (within (-3) 0) e_y26. Proof. unfold e_y26. w_list. Qed.
Lemma w_y28 : Forall (within (-3) 0) e_y28. Proof. unfold e_y28. w_list. Qed.
Lemma w_y30 : Forall (within (-1) 1) e_y30. Proof. unfold e_y30. w_list. Qed.
Lemma w_y32 : Forall (within (-3) 3) e_y32. Proof. unfold e_y32. w_list. Qed.

Ltac sizes := repeat match goal with
  | |- context [Z.shiftl ?a ?b] => let c := eval vm_compute in (Z.shiftl a b) in (match c with Zpos _ => idtac | Z0 => idtac end); change (Z.shiftl a b) with c
  | |- context [Z.shiftr ?a ?b] => let c := eval vm_compute in (Z.shiftr a b) in (match c with Zpos _ => idtac | Z0 => idtac end); change (Z.shiftr a b) with c
  | |- context [aligned ?a] => let c := eval vm_compute in (aligned a) in (match c with Zpos _ => idtac | Z0 => idtac end); change (aligned a) with c
  | |- context [rounds ?a ?b] => let c := eval vm_compute in (rounds a b) in (match c with Zpos _ => idtac | Z0 => idtac end); change (rounds a b) with c
  | |- context [?a / ?b] => let c := eval vm_compute in (a / b) in (match c with Zpos _ => idtac | Z0 => idtac end); change (a / b) with c
  end.
Ltac out1 := let k := fresh "k" in let i := fresh "i" in let Hk := fresh "Hk" in let Hi := fresh "Hi" in
  intros k i Hk Hi; match type of Hk with context [Z.of_nat ?x] => let c := eval vm_compute in (Z.of_nat x) in change (Z.of_nat x) with c in Hk end; revert Hi.
Ltac look s H := let i := fresh "i" in let q := fresh "q" in let Hi := fresh "Hi" in let Hq := fresh "Hq" in
  intros i q Hi Hq; match goal with |- _ ?e = _ => replace e with (s + (e - s)) by ring; apply H end; revert Hi.
Lemma x3_ok bits w h : intra_shape w h -> local_array 960 (0) 256 (fun j src s => lines_x3 bits j src s w h).
Proof.
  intros Sh. split.
  - intros j src s a Ha. unfold lines_x3. cbv zeta. rewrite fill_out; [reflexivity|]. out1. shapes Sh; sizes; lia.
  - intros j src src' s a H. unfold lines_x3. cbv zeta. apply (fill_same _ _ _ _ _ _ _ _ _ _ _ _ _ w_x3); [|reflexivity]. look s H. shapes Sh; sizes; lia.
Qed.
Lemma x4_ok bits w h : intra_shape w h -> local_array 192 (0) 256 (fun j src s => lines_x4 bits j src s w h).
Proof.
  intros Sh. split.
  - intros j src s a Ha. unfold lines_x4. cbv zeta. rewrite fill_out; [reflexivity|]. out1. shapes Sh; sizes; lia.
  - intros j src src' s a H. unfold lines_x4. cbv zeta. apply (fill_same _ _ _ _ _ _ _ _ _ _ _ _ _ w_x4); [|reflexivity]. look s H. shapes Sh; sizes; lia.
Qed.
Lemma x5_ok bits w h : intra_shape w h -> 4 < h -> 8 < w -> local_array 1152 (0) 256 (fun j src s => lines_x5 bits j src s w h).
Proof.
  intros Sh C0 C1. split.
  - intros j src s a Ha. unfold lines_x5. cbv zeta. rewrite fill_out; [reflexivity|]. out1. shapes Sh; sizes; lia.
  - intros j src src' s a H. unfold lines_x5. cbv zeta. apply (fill_same _ _ _ _ _ _ _ _ _ _ _ _ _ w_x5); [|reflexivity]. look s H. shapes Sh; sizes; lia.
Qed.
Lemma x6_ok bits w h : intra_shape w h -> local_array 128 (0) 256 (fun j src s => lines_x6 bits j src s w h).
Proof.
  intros Sh. split.
  - intros j src s a Ha. unfold lines_x6. cbv zeta. rewrite fill_out; [reflexivity|]. out1. shapes Sh; sizes; lia.
  - intros j src src' s a H. unfold lines_x6. cbv zeta. apply (fill_same _ _ _ _ _ _ _ _ _ _ _ _ _ w_x6); [|reflexivity]. look s H. shapes Sh; sizes; lia.
Qed.
Lemma x8_ok bits w h : intra_shape w h -> local_array 192 (0) 256 (fun j src s => lines_x8 bits j src s w h).
Proof.
  intros Sh. split.
  - intros j src s a Ha. unfold lines_x8. cbv zeta. rewrite fill_out; [reflexivity|]. out1. shapes Sh; sizes; lia.
  - intros j src src' s a H. unfold lines_x8. cbv zeta. apply (fill_same _ _ _ _ _ _ _ _ _ _ _ _ _ w_x8); [|reflexivity]. look s H. shapes Sh; sizes; lia.
Qed.
Lemma x10_ok bits w h : intra_shape w h -> h <> 4 -> local_array 320 (0) 256 (fun j src s => lines_x10 bits j src s w h).
Proof.
  intros Sh C0. split.
  - intros j src s a Ha. unfold lines_x10. cbv zeta. rewrite fill_out; [reflexivity|]. out1. shapes Sh; sizes; lia.
  - intros j src src' s a H. unfold lines_x10. cbv zeta. apply (fill_same _ _ _ _ _ _ _ _ _ _ _ _ _ w_x10); [|reflexivity]. look s H. shapes Sh; sizes; lia.
Qed.
Lemma x11_ok bits w h : intra_shape w h -> 8 < h -> local_array 640 (0) 256 (fun j src s => lines_x11 bits j src s w h).
Proof.
  intros Sh C0. split.
  - intros j src s a Ha. unfold lines_x11. cbv zeta. rewrite fill_out; [reflexivity|]. out1. shapes Sh; sizes; lia.
  - intros j src src' s a H. unfold lines_x11. cbv zeta. apply (fill_same _ _ _ _ _ _ _ _ _ _ _ _ _ w_x11); [|reflexivity]. look s H. shapes Sh; sizes; lia.
Qed.
Lemma y25_ok bits w h : intra_shape w h -> 8 < w -> local_array 576 (-255) 0 (fun j src s => lines_y25 bits j src s w h).
Proof.
  intros Sh C0. split.
  - intros j src s a Ha. unfold lines_y25. cbv zeta. rewrite fill_out; [reflexivity|]. out1. shapes Sh; sizes; lia.
  - intros j src src' s a H. unfold lines_y25. cbv zeta. apply (fill_same _ _ _ _ _ _ _ _ _ _ _ _ _ w_y25); [|reflexivity]. look s H. shapes Sh; sizes; lia.
Qed.
Lemma y26_ok bits w h : intra_shape w h -> w <> 4 -> local_array 320 (-255) 0 (fun j src s => lines_y26 bits j src s w h).
Proof.
  intros Sh C0. split.
  - intros j src s a Ha. unfold lines_y26. cbv zeta. rewrite fill_out; [reflexivity|]. out1. shapes Sh; sizes; lia.
  - intros j src src' s a H. unfold lines_y26. cbv zeta. apply (fill_same _ _ _ _ _ _ _ _ _ _ _ _ _ w_y26); [|reflexivity]. look s H. shapes Sh; sizes; lia.
Qed.
Lemma y28_ok bits w h : intra_shape w h -> local_array 192 (-255) 0 (fun j src s => lines_y28 bits j src s w h).
Proof.
  intros Sh. split.
  - intros j src s a Ha. unfold lines_y28. cbv zeta. rewrite fill_out; [reflexivity|]. out1. shapes Sh; sizes; lia.
  - intros j src src' s a H. unfold lines_y28. cbv zeta. apply (fill_same _ _ _ _ _ _ _ _ _ _ _ _ _ w_y28); [|reflexivity]. look s H. shapes Sh; sizes; lia.
Qed.
Lemma y30_ok bits w h : intra_shape w h -> local_array 128 (-255) 0 (fun j src s => lines_y30 bits j src s w h).
Proof.
  intros Sh. split.
  - intros j src s a Ha. unfold lines_y30. cbv zeta. rewrite fill_out; [reflexivity|]. out1. shapes Sh; sizes; lia.
  - intros j src src' s a H. unfold lines_y30. cbv zeta. apply (fill_same _ _ _ _ _ _ _ _ _ _ _ _ _ w_y30); [|reflexivity]. look s H. shapes Sh; sizes; lia.
Qed.
Lemma y32_ok bits w h : intra_shape w h -> local_array 192 (-255) 0 (fun j src s => lines_y32 bits j src s w h).
Proof.
  intros Sh. split.
  - intros j src s a Ha. unfold lines_y32. cbv zeta. rewrite fill_out; [reflexivity|]. out1. shapes Sh; sizes; lia.
  - intros j src src' s a H. unfold lines_y32. cbv zeta. apply (fill_same _ _ _ _ _ _ _ _ _ _ _ _ _ w_y32); [|reflexivity]. look s H. shapes Sh; sizes; lia.
Qed.
Lemma xy18_ok bits w h : intra_shape w h -> local_array 128 (-255) 256 (fun j src s => lines_xy18 bits j src s w h).
Proof.
  intros Sh. split.
  - intros j src s a Ha. unfold lines_xy18. cbv zeta. rewrite fill_out; [reflexivity|]. out1. shapes Sh; sizes; lia.
  - intros j src src' s a H. unfold lines_xy18. cbv zeta. apply (fill_same _ _ _ _ _ _ _ _ _ _ _ _ _ w_mid); [|reflexivity]. look s H. shapes Sh; sizes; lia.
Qed.
Lemma xy13_ok bits w h : intra_shape w h -> 8 < h -> local_array 640 (-255) 256 (fun j src s => lines_xy13 bits j src s w h).
Proof.
  intros Sh C0. split.
  - intros j src s a Ha. unfold lines_xy13. cbv zeta. rewrite fill_out; [rewrite fill_out; [reflexivity|]|]; out1; shapes Sh; sizes; lia.
  - intros j src src' s a H. unfold lines_xy13. cbv zeta. apply (fill_same _ _ _ _ _ _ _ _ _ _ _ _ _ w_xy13); [|intros b; apply (fill_same _ _ _ _ _ _ _ _ _ _ _ _ _ w_xy13l); [|reflexivity]]; look s H; shapes Sh; sizes; lia.
Qed.
Lemma xy14_ok bits w h : intra_shape w h -> h <> 4 -> local_array 320 (-255) 256 (fun j src s => lines_xy14 bits j src s w h).
Proof.
  intros Sh C0. split.
  - intros j src s a Ha. unfold lines_xy14. cbv zeta. rewrite fill_out; [rewrite fill_out; [reflexivity|]|]; out1; shapes Sh; sizes; lia.
  - intros j src src' s a H. unfold lines_xy14. cbv zeta. apply (fill_same _ _ _ _ _ _ _ _ _ _ _ _ _ w_xy14); [|intros b; apply (fill_same _ _ _ _ _ _ _ _ _ _ _ _ _ w_xy14l); [|reflexivity]]; look s H; shapes Sh; sizes; lia.
Qed.
Lemma xy16_ok bits w h : intra_shape w h -> local_array 192 (-255) 256 (fun j src s => lines_xy16 bits j src s w h).
Proof.
  intros Sh. split.
  - intros j src s a Ha. unfold lines_xy16. cbv zeta. rewrite fill_out; [rewrite fill_out; [reflexivity|]|]; out1; shapes Sh; sizes; lia.
  - intros j src src' s a H. unfold lines_xy16. cbv zeta. apply (fill_same _ _ _ _ _ _ _ _ _ _ _ _ _ w_xy16); [|intros b; apply (fill_same _ _ _ _ _ _ _ _ _ _ _ _ _ w_xy16l); [|reflexivity]]; look s H; shapes Sh; sizes; lia.
Qed.
Lemma xy20_ok bits w h : intra_shape w h -> local_array 192 (-255) 256 (fun j src s => lines_xy20 bits j src s w h).
Proof.
  intros Sh. split.
  - intros j src s a Ha. unfold lines_xy20. cbv zeta. rewrite fill_out; [rewrite fill_out; [reflexivity|]|]; out1; shapes Sh; sizes; lia.
  - intros j src src' s a H. unfold lines_xy20. cbv zeta. apply (fill_same _ _ _ _ _ _ _ _ _ _ _ _ _ w_mid); [|intros b; apply (fill_same _ _ _ _ _ _ _ _ _ _ _ _ _ w_xy20l); [|reflexivity]]; look s H; shapes Sh; sizes; lia.
Qed.
Lemma xy22_ok bits w h : intra_shape w h -> w <> 4 -> local_array 320 (-255) 256 (fun j src s => lines_xy22 bits j src s w h).
Proof.
  intros Sh C0. split.
  - intros j src s a Ha. unfold lines_xy22. cbv zeta. rewrite fill_out; [rewrite fill_out; [reflexivity|]|]; out1; shapes Sh; sizes; lia.
  - intros j src src' s a H. unfold lines_xy22. cbv zeta. apply (fill_same _ _ _ _ _ _ _ _ _ _ _ _ _ w_mid); [|intros b; apply (fill_same _ _ _ _ _ _ _ _ _ _ _ _ _ w_xy22l); [|reflexivity]]; look s H; shapes Sh; sizes; lia.
Qed.
Lemma xy23_ok bits w h : intra_shape w h -> 8 < w -> local_array 576 (-255) 256 (fun j src s => lines_xy23 bits j src s w h).
Proof.
  intros Sh C0. split.
  - intros j src s a Ha. unfold lines_xy23. cbv zeta. rewrite fill_out; [rewrite fill_out; [reflexivity|]|]; out1; shapes Sh; sizes; lia.
  - intros j src src' s a H. unfold lines_xy23. cbv zeta. apply (fill_same _ _ _ _ _ _ _ _ _ _ _ _ _ w_xy23t); [|intros b; apply (fill_same _ _ _ _ _ _ _ _ _ _ _ _ _ w_xy23l); [|reflexivity]]; look s H; shapes Sh; sizes; lia.
Qed.
Lemma tran_src w h : intra_shape w h -> local_array 512 (-255) 0 (fun j src s => src_tran j src s w h).
Proof.
  intros Sh. split.
  - intros j src s a Ha. unfold src_tran. set (n := h + w * 11 / 8 + 3). assert (Hn : 0 <= n <= 512) by (unfold n; shapes Sh; sizes; lia). clearbody n.
    apply (floop_inv (fun _ m => m a = j a) 0 n); [lia|reflexivity|]. intros i m Hi E. unfold upd. destruct (Z.eqb_spec a i); [lia|exact E].
  - intros j src src' s a H. unfold src_tran. set (n := h + w * 11 / 8 + 3). assert (Hn : 0 <= n <= 256) by (unfold n; shapes Sh; sizes; lia). clearbody n.
    unfold floop. assert (G : Z.of_nat (Z.to_nat (n - 0)) <= n) by lia. revert G a. generalize (Z.to_nat (n - 0)) as t.
    induction t as [|t IH]; intros G a; cbn [loop]; [reflexivity|]. unfold upd. destruct (a =? _); [|apply IH; lia]. unfold Z.sub. apply H. lia.
Qed.
Lemma loop_keep a x y (f : Z -> mem -> mem) m : (forall i t, x <= i < y -> f i t a = t a) -> floop x y f m a = m a.
Proof.
  intros H. destruct (Z_lt_le_dec y x) as [L|L]; [rewrite floop_none by lia; reflexivity|]. apply (floop_inv (fun _ t => t a = m a) x y); [exact L|reflexivity|]. intros i t Hi E. rewrite H by lia. exact E.
Qed.
Lemma upd_keep m a v b : b <> a -> upd m a v b = m b.
Proof. intros H. unfold upd. destruct (Z.eqb_spec b a); [contradiction|reflexivity]. Qed.
Lemma rows_keep n K w d st fl off dst a : (forall t k x, 0 <= t < n -> 0 <= k < K -> 0 <= x < w -> a <> d + (K * t + k) * st + x) -> rows_copy n K w d st fl off dst a = dst a.
Proof.
  intros H. unfold rows_copy. apply loop_keep. intros t m Ht. apply loop_keep. intros k m' Hk. apply loop_keep. intros x m2 Hx. apply upd_keep. apply H; assumption.
Qed.
(** The block that mode 31 predicts transposed, in its local array. *)
Lemma tran_dst bits j src w h a : intra_shape w h -> h <= w -> ~ 0 <= a < 4096 -> ang_x_5 bits j src 0 0 h h w j a = j a.
Proof.
  intros Sh Hw Ha. unfold ang_x_5. destruct ((4 <? w) && (8 <? h)) eqn:C.
  - cbv zeta. apply rows_keep. intros t k x. clear C. shapes Sh; sizes; intros; nia.
  - cbv zeta. destruct (h =? 16) eqn:C1; [shapes Sh; cbn in C, C1, Hw; try discriminate; lia|]. destruct (h =? 8) eqn:C2.
    + assert (D : direct_rows bits src 0 0 h e_x5 8 j a = j a).
      { unfold direct_rows. rewrite fill_out; [reflexivity|]. out1. shapes Sh; cbn in C2; try discriminate; intros; nia. }
      destruct (w =? 32) eqn:C3; [|exact D]. unfold put. rewrite !upd_keep by (shapes Sh; cbn in C2, C3; try discriminate; lia).
      unfold pad_rows. rewrite loop_keep; [exact D|]. intros r t Hr. apply loop_keep. intros i t' Hi. apply upd_keep. shapes Sh; cbn in C2, C3; try discriminate; nia.
    + assert (H4 : h = 4) by (shapes Sh; cbn in C, C1, C2, Hw; try discriminate; lia). assert (W : w <= 64) by (shapes Sh; lia).
      assert (D : direct_rows bits src 0 0 h e_x5a 4 j a = j a).
      { unfold direct_rows. rewrite fill_out; [reflexivity|]. out1. subst h. intros; nia. }
      subst h. destruct (w =? 16) eqn:C3; [|exact D]. unfold put. rewrite !upd_keep by lia. unfold pad_rows. rewrite loop_keep; [exact D|]. intros r t Hr. apply loop_keep. intros i t' Hi. apply upd_keep. nia.
Qed.
