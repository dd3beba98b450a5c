(** The readers of the coding-unit elements and the binarisations. *)
From Coq Require Import ZArith List Bool Lia.
From Verif Require Import CBase CBaseProofs AecModel AecSpec SynModel BinSpec BinProofs.
Import ListNotations.
Open Scope Z_scope.

Ltac in_array := match goal with |- context [a_size ?r] => let s := eval cbn in (a_size r) in change (a_size r) with s; lia end.
(** One bin of a reader that has nothing else to say. *)
Ltac rsym b := eapply reads_next with (x := b); [apply reads_sym; try in_array; try lia|cbv beta].
Ltac rbyp b := eapply reads_next with (x := b); [apply reads_byp|cbv beta].
Ltac rcheck := eapply reads_quiet with (x := tt); [apply reads_check|cbv beta].
Ltac rret := eapply reads_eq; [apply reads_ret|reflexivity|].

Lemma flag01 : forall c, flag c = 0 \/ flag c = 1.
Proof. intros [|]; auto. Qed.

(** ** Motion vector differences. *)
Lemma mvd_tail : forall v m, m = Z.abs v -> 0 < m <= 2147483647 ->
  reads (if m =? 0 then ret 0 else let! s := byp in if s =? 0 then ret m else chk (- m)) [equi (flag (v <? 0))] v.
Proof.
  intros v m -> Hm. replace (Z.abs v =? 0) with false by lia. destruct (v <? 0) eqn:C; cbn [flag].
  - rbyp 1. cbn [Z.eqb]. eapply reads_eq; [apply reads_chk; lia|reflexivity|lia].
  - rbyp 0. cbn [Z.eqb]. rret. lia.
Qed.
Lemma mvd_read : forall i v, (i = 0 \/ i = 1) -> Z.abs v <= 2147483647 -> reads (read_mvd i) (mvd_bins i v) v.
Proof.
  intros i v Hi Hv. unfold read_mvd, read_mvd_gen, mvd_bins. apply reads_catch. cbv zeta. set (m := Z.abs v) in *.
  assert (Hm: 0 <= m) by lia. set (u := fun j b => at_ctx (A_MVD i) j (1 - b)).
  destruct (Z_le_gt_dec m 0) as [C|C].
  { assert (E0: m = 0) by lia. rewrite E0. change (Z.min 0 3) with 0. rewrite unary_zero by lia. cbn [app Z.ltb Z.compare Z.eqb]. unfold u. rsym 0. cbn [Z.eqb].
    eapply reads_quiet with (x := 0); [apply reads_ret|]. cbv beta. cbn [Z.eqb]. rret. lia. }
  replace (m =? 0) with false by lia. rewrite unary_step by lia. cbn [app]. unfold u at 1. rsym 1. cbn [Z.eqb].
  destruct (Z_le_gt_dec m 1) as [C1|C1].
  { assert (E1: m = 1) by lia. rewrite E1. change (Z.min 1 3 - 1) with 0. rewrite unary_zero by lia. change (1 <? 3) with true. cbv iota. cbn [app].
    change (u (0 + 1) 1 :: [equi (flag (v <? 0))]) with ([u 1 1] ++ [equi (flag (v <? 0))]). eapply reads_bind with (x := 1).
    - unfold u. rsym 0. cbn [Z.eqb]. apply reads_ret.
    - cbv beta. apply mvd_tail; lia. }
  rewrite unary_step by lia. cbn [app].
  destruct (Z_le_gt_dec m 2) as [C2|C2].
  { assert (E1: m = 2) by lia. rewrite E1. change (Z.min 2 3 - 1 - 1) with 0. rewrite unary_zero by lia. change (2 <? 3) with true. cbv iota. cbn [app].
    change (u (0 + 1) 0 :: u (0 + 1 + 1) 1 :: [equi (flag (v <? 0))]) with ([u 1 0; u 2 1] ++ [equi (flag (v <? 0))]). eapply reads_bind with (x := 2).
    - unfold u. rsym 1. cbn [Z.eqb]. rsym 0. cbn [Z.eqb]. apply reads_ret.
    - cbv beta. apply mvd_tail; lia. }
  rewrite unary_step by lia. replace (Z.min m 3) with 3 by lia. change (unary (fun j => u (j + 1 + 1 + 1)) (3 - 1 - 1 - 1) (3 - 1 - 1 - 1)) with (@nil bin). cbn [app].
  replace (m <? 3) with false by lia. set (add := (m - 3) mod 2). set (n := (m - 3) / 2).
  assert (DM: m - 3 = 2 * n + add) by (unfold n, add; apply Z.div_mod; lia). assert (AB: 0 <= add < 2) by (unfold add; apply Z.mod_pos_bound; lia).
  clearbody n add.
  change (u (0 + 1) 0 :: u (0 + 1 + 1) 0 :: (equi add :: eg0 n) ++ [equi (flag (v <? 0))]) with ((u 1 0 :: u 2 0 :: equi add :: eg0 n) ++ [equi (flag (v <? 0))]).
  eapply reads_bind with (x := m); [|cbv beta; apply mvd_tail; lia].
  unfold u. rsym 1. cbn [Z.eqb]. rsym 1. cbn [Z.eqb]. rbyp add. apply reads_end.
  eapply reads_bind with (x := n). { eapply reads_eq; [apply (reads_esc 0 n)|reflexivity|]. all: lia. }
  cbv beta. rewrite Z.shiftl_mul_pow2 by lia. change (2 ^ 1) with 2.
  eapply reads_quiet with (x := n * 2); [apply reads_chk; lia|]. cbv beta. eapply reads_quiet with (x := n * 2 + 3); [apply reads_chk; lia|]. cbv beta.
  eapply reads_eq; [apply reads_chk; lia|reflexivity|lia].
Qed.
Lemma to_i16_id : forall v, -32768 <= v <= 32767 -> to_i16 v = v.
Proof. intros v H. unfold to_i16. rewrite Z.mod_small by lia. lia. Qed.
Lemma to_i8_id : forall v, -128 <= v <= 127 -> to_i8 v = v.
Proof. intros v H. unfold to_i8. rewrite Z.mod_small by lia. lia. Qed.
Lemma mvds_read : forall x y, -32768 <= x <= 32767 -> -32768 <= y <= 32767 -> reads read_mvds (mvd_bins 0 x ++ mvd_bins 1 y) (x, y).
Proof.
  intros x y Hx Hy. unfold read_mvds. eapply reads_bind with (x := x); [apply mvd_read; auto; lia|]. cbv beta. apply reads_end.
  eapply reads_bind with (x := y); [apply mvd_read; auto; lia|]. cbv beta. rret. now rewrite !to_i16_id.
Qed.

(** ** Quantiser steps. *)
Lemma ubm_read : forall r i off max v, 0 <= i < a_size r -> 0 <= i + off < a_size r -> 1 < max -> 0 <= v <= max ->
  reads (unary_bin_max r i off max) (unary (fun j => at_ctx r (if j =? 0 then i else i + off)) v max) v.
Proof.
  intros r i off max v Hi Ho Hm Hv. unfold unary_bin_max. destruct (Z.eq_dec v 0) as [-> |C].
  - rewrite unary_zero by lia. change (0 =? 0) with true. cbv iota. rsym 1. change (1 =? 1) with true. cbv iota. apply reads_ret.
  - rewrite unary_step by lia. change (0 =? 0) with true. cbv iota. rsym 0. change (0 =? 1) with false. cbv iota. replace (max =? 1) with false by lia.
    rewrite (unary_ext _ (fun _ => at_ctx r (i + off))) by (try lia; intros j b Hj; replace (j + 1 =? 0) with false by lia; reflexivity).
    apply reads_end. eapply reads_bind with (x := v - 1); [apply reads_cont0; lia|]. cbv beta. rret. lia.
Qed.
Lemma delta_read : forall last d, -128 <= d <= 128 -> reads (read_cu_delta_qp last) (dqp_bins last d) d.
Proof.
  intros last d Hd. unfold read_cu_delta_qp, dqp_bins. set (s := dqp_code d). assert (Hs: 0 <= s <= 256) by (unfold s, dqp_code; destruct (Z.ltb_spec 0 d); lia).
  assert (Out: (if Z.land s 1 =? 0 then - Z.shiftr (s + 1) 1 else Z.shiftr (s + 1) 1) = d).
  { change 1 with (Z.ones 1) at 1. rewrite Z.land_ones, Z.shiftr_div_pow2 by lia. change (2 ^ 1) with 2. unfold s, dqp_code.
    destruct (Z.ltb_spec 0 d) as [P|P].
    - replace ((2 * d - 1) mod 2) with 1 by (apply (Z.mod_unique _ _ (d - 1)); lia). cbn [Z.eqb]. replace (2 * d - 1 + 1) with (d * 2) by lia. apply Z.div_mul. lia.
    - replace ((-2 * d) mod 2) with 0 by (apply (Z.mod_unique _ _ (- d)); lia). cbn [Z.eqb]. replace ((-2 * d + 1) / 2) with (- d); [lia|]. apply (Z.div_unique _ _ _ 1); lia. }
  assert (Fl: 0 <= flag (negb (last =? 0)) <= 1) by (destruct (flag01 (negb (last =? 0))) as [-> | ->]; lia).
  replace (if last =? 0 then 0 else 1) with (flag (negb (last =? 0))) by (destruct (last =? 0); reflexivity).
  clearbody s. destruct (Z.eq_dec s 0) as [-> |C].
  - rewrite unary_zero by lia. change (0 =? 0) with true. cbv iota. rsym 1. change (1 - 1 =? 0) with true. cbv iota.
    eapply reads_quiet with (x := 0); [apply reads_ret|]. cbv beta. rret. symmetry. exact Out.
  - rewrite unary_step by lia. change (0 =? 0) with true. cbv iota. rsym 0. change (1 - 0 =? 0) with false. cbv iota. apply reads_end.
    eapply reads_bind with (x := s).
    + apply reads_end. eapply reads_bind with (x := s - 1); [|cbv beta; rret; lia].
      eapply reads_eq; [apply (ubm_read A_DQP 2 1 256 (s - 1)); cbn; lia| |reflexivity].
      apply unary_ext; [lia|]. intros j b Hj. replace (j + 1 =? 0) with false by lia. destruct (Z.eqb_spec j 0) as [E0|E0]; f_equal; lia.
    + cbv beta. rret. symmetry. exact Out.
Qed.
Lemma delta_qp_read : forall depth last d, - (32 + 4 * (depth - 8)) <= d <= 32 + 4 * (depth - 8) -> -128 <= d <= 127 -> reads (delta_qp depth last) (dqp_bins last d) d.
Proof.
  intros depth last d Hm Hd. unfold delta_qp. apply reads_end. eapply reads_bind with (x := d); [apply delta_read; lia|]. cbv beta zeta. rewrite to_i8_id by lia. rret.
  set (x := 32 + 4 * (depth - 8)) in *. destruct (Z.ltb_spec d (- x)); [lia|]. destruct (Z.ltb_spec x d); lia.
Qed.

(** ** Intra modes. *)
Lemma digits5 : forall v, 0 <= v < 32 -> exists b4 b3 b2 b1 b0, digits 5 v = [b4; b3; b2; b1; b0] /\ Z.shiftl b4 4 + Z.shiftl b3 3 + Z.shiftl b2 2 + Z.shiftl b1 1 + b0 = v.
Proof.
  intros v Hv.
  assert (T: forallb (fun v => match digits 5 v with [b4; b3; b2; b1; b0] => Z.shiftl b4 4 + Z.shiftl b3 3 + Z.shiftl b2 2 + Z.shiftl b1 1 + b0 =? v | _ => false end) (map Z.of_nat (seq 0 32)) = true) by (vm_compute; reflexivity).
  rewrite forallb_forall in T. specialize (T v). assert (In v (map Z.of_nat (seq 0 32))) as Hin by (replace v with (Z.of_nat (Z.to_nat v)) by lia; apply in_map, in_seq; lia). specialize (T Hin).
  destruct (digits 5 v) as [|b4 [|b3 [|b2 [|b1 [|b0 [|]]]]]]; try discriminate. exists b4, b3, b2, b1, b0. split; [reflexivity|]. apply Z.eqb_eq, T.
Qed.
Lemma luma_mode_read : forall top lf m, 0 <= top <= 32 -> 0 <= lf <= 32 -> 0 <= m <= 32 -> reads (read_luma_mode top lf) (luma_bins top lf m) m.
Proof.
  intros top lf m Ht Hl Hm. unfold read_luma_mode, luma_bins. set (P := predicted top lf).
  assert (LM: forall code, luma_mode top lf code = let '(p0, p1) := P in
    let v := to_i8 (if code <? 0 then (if code + 2 =? 0 then p0 else p1) else code + (if p0 <=? code then 1 else 0) + (if p1 <=? code + 1 then 1 else 0)) in
    if (v <? 0) || (33 <=? v) then to_i8 (if v <? 0 then 0 else if 32 <? v then 32 else v) else v).
  { intros code. unfold luma_mode, P, predicted. destruct (Z.eq_dec top lf) as [-> |C].
    - rewrite Z.min_id, Z.max_id, Z.eqb_refl. reflexivity.
    - replace (top =? lf) with false by lia. replace (Z.min top lf =? Z.max top lf) with false by lia. reflexivity. }
  assert (HP: 0 <= fst P /\ fst P < snd P /\ snd P <= 32).
  { unfold P, predicted. destruct (Z.eqb_spec top lf); [destruct (Z.eqb_spec top 0)|]; cbn [fst snd]; lia. }
  destruct P as [p0 p1]. cbn [fst snd] in HP.
  assert (Fin: forall code v, -128 <= v <= 127 -> (if code <? 0 then (if code + 2 =? 0 then p0 else p1) else code + (if p0 <=? code then 1 else 0) + (if p1 <=? code + 1 then 1 else 0)) = v ->
     0 <= v <= 32 -> luma_mode top lf code = v).
  { intros code v H1 H2 H3. rewrite LM. cbv zeta. rewrite H2, to_i8_id by lia. replace (v <? 0) with false by lia. replace (33 <=? v) with false by lia. reflexivity. }
  destruct (Z.eqb_spec m p0) as [E0|E0]; [|destruct (Z.eqb_spec m p1) as [E1|E1]].
  - eapply reads_eq with (l := [at_ctx A_IPRED 0 1; at_ctx A_IPRED 6 0] ++ []); [|reflexivity|reflexivity]. eapply reads_bind with (x := -2).
    + unfold read_intra_pmode. rsym 1. cbn [Z.eqb Pos.eqb]. rsym 0. apply reads_ret.
    + cbv beta. rcheck. rret. symmetry. apply Fin; try lia. cbn. lia.
  - eapply reads_eq with (l := [at_ctx A_IPRED 0 1; at_ctx A_IPRED 6 1] ++ []); [|reflexivity|reflexivity]. eapply reads_bind with (x := -1).
    + unfold read_intra_pmode. rsym 1. cbn [Z.eqb Pos.eqb]. rsym 1. apply reads_ret.
    + cbv beta. rcheck. rret. symmetry. apply Fin; try lia. cbn. lia.
  - set (v := m - flag (p0 <? m) - flag (p1 <? m)).
    assert (Hv: 0 <= v < 32) by (unfold v, flag; destruct (Z.ltb_spec p0 m), (Z.ltb_spec p1 m); lia).
    destruct (digits5 v Hv) as (b4 & b3 & b2 & b1 & b0 & D & S5). rewrite D. cbn [combine map fst snd]. apply reads_end. eapply reads_bind with (x := v).
    + unfold read_intra_pmode. rsym 0. cbn [Z.eqb Pos.eqb]. rsym b4. rsym b3. rsym b2. rsym b1. rsym b0. rret. symmetry. exact S5.
    + cbv beta. rcheck. rret. symmetry. apply Fin; try lia. unfold v, flag in *. 
      destruct (Z.ltb_spec p0 m), (Z.ltb_spec p1 m); try lia;
      destruct (Z.ltb_spec (m - 1 - 1) 0), (Z.ltb_spec (m - 1 - 0) 0), (Z.ltb_spec (m - 0 - 0) 0); try lia;
      repeat match goal with |- context [if ?a <=? ?b then _ else _] => destruct (Z.leb_spec a b) end; lia.
Qed.
Lemma chroma_mode_read : forall ctx mode same m, 0 <= ctx <= 2 -> get luma2chroma mode = Some same -> 0 <= m <= 4 -> m <> same ->
  reads (read_intra_pmode_c ctx mode) (chroma_bins ctx same m) m.
Proof.
  intros ctx mode same m Hc Hg Hm Hs. unfold read_intra_pmode_c, chroma_bins. eapply reads_quiet; [apply reads_lookup, Hg|]. cbv beta. destruct (Z.eqb_spec m 0) as [-> |C].
  - rsym 1. cbn [Z.eqb negb]. apply reads_ret.
  - rsym 0. cbn [Z.eqb negb]. apply reads_end.
    assert (SB: same = -1 \/ 1 <= same <= 4).
    { unfold get in Hg. destruct (mode <? 0); [discriminate|]. apply nth_error_In in Hg. unfold luma2chroma in Hg. cbn [In] in Hg. clear - Hg. lia. }
    set (v := m - 1 - flag ((0 <=? same) && (same <? m))).
    assert (V: v = m - 1 /\ (same < 0 \/ m < same) \/ v = m - 2 /\ 0 <= same < m).
    { unfold v. destruct (Z.leb_spec 0 same), (Z.ltb_spec same m); cbn [andb flag]; lia. }
    eapply reads_bind with (x := v).
    + eapply reads_eq; [apply (ubm_read A_IPRED_C 2 0 3 v); cbn; lia| |reflexivity]. apply unary_ext; [lia|]. intros j b Hj. destruct (j =? 0); reflexivity.
    + cbv beta. rret. unfold chroma_mode. destruct (Z.leb_spec 0 same), (Z.leb_spec same (v + 1)); cbn [andb]; try lia. destruct (Z.eqb_spec (v + 1) 4); lia.
Qed.
