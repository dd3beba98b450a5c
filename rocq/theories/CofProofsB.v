(** Blocks and coding units: groups, patterns, and the composition. *)
From Coq Require Import ZArith List Bool Lia Sorted.
From Verif Require Import CBase CBaseProofs AecModel AecSpec SynModel SynSpec SynProofsB BinSpec BinProofs BinProofsB BinProofsD CofSpec CofProofs.
Import ListNotations.
Open Scope Z_scope.

Lemma get_nth : forall A (l : list A) i d, 0 <= i < Z.of_nat (length l) -> get l i = Some (nth (Z.to_nat i) l d).
Proof. intros A l i d H. unfold get. replace (i <? 0) with false by lia. apply nth_error_nth'. lia. Qed.

(** ** The first level of a group. *)
Definition pos_ok : bool := forallb (fun i => let '(x, y) := nth (Z.to_nat i) tab_scan_4x4 (0, 0) in
  (0 <=? x) && (x <=? 3) && (0 <=? y) && (y <=? 3) && match get tab_scan_coeff_pos_in_cg (y * 4 + x) with Some j => j =? i | None => false end) (zrange 16).
Lemma pos_all : pos_ok = true.
Proof. vm_compute. reflexivity. Qed.
Lemma pos_facts : forall i, 0 <= i < 16 -> let xy := nth (Z.to_nat i) tab_scan_4x4 (0, 0) in
  0 <= fst xy <= 3 /\ 0 <= snd xy <= 3 /\ get tab_scan_coeff_pos_in_cg (snd xy * 4 + fst xy) = Some i.
Proof.
  intros i Hi xy. pose proof pos_all as P. unfold pos_ok in P. rewrite forallb_forall in P. specialize (P i (in_zrange 16 i Hi)). fold xy in P.
  destruct xy as [x y]. cbn [fst snd]. destruct (get tab_scan_coeff_pos_in_cg (y * 4 + x)) as [j|]; [|rewrite andb_false_r in P; discriminate].
  repeat (apply andb_prop in P; let D := fresh "D" in destruct P as [P D]). assert (j = i) by lia. subst j. repeat split; lia.
Qed.
Lemma first_level_read : forall p one m gx gy i, 0 <= m -> 0 <= gx -> 0 <= gy -> 0 <= i < 16 ->
  reads (read_last_coeff_pos p one (magnitude_class m) gx gy) (first_level_bins (b_luma p) (b_dc p) one m gx gy i) i.
Proof.
  intros p one m gx gy i Hm Hx Hy Hi. unfold read_last_coeff_pos, first_level_bins. pose proof (pos_facts i Hi) as PF. cbv zeta in PF. rewrite class_zero by exact Hm.
  destruct (nth (Z.to_nat i) tab_scan_4x4 (0, 0)) as [x y]. cbn [fst snd] in PF. destruct PF as (X & Y & G).
  set (r0 := if m =? 0 then 1 else 0). change (flag (m =? 0)) with r0. set (dc := if b_dc p then 1 else 0). change (flag (b_dc p)) with dc.
  set (z := if (gx =? 0) && (gy =? 0) then 1 else 0). change (flag ((gx =? 0) && (gy =? 0))) with z.
  set (o := if b_luma p then _ else _).
  assert (EO: (if negb (b_luma p) then if one then 0 else 4 + r0 * 4 else if one then 40 + dc * 4 else if negb (gx =? 0) && negb (gy =? 0) then 32 + r0 * 4 else (4 * r0 + 2 * z + dc) * 4) = o).
  { subst o. destruct (b_luma p), one; cbn [negb]; try lia. destruct (gx =? 0), (gy =? 0); cbn [negb andb orb]; lia. }
  rewrite EO.
  assert (Ro: 0 <= r0 <= 1) by (unfold r0; destruct (m =? 0); lia). assert (Rd: 0 <= dc <= 1) by (unfold dc; destruct (b_dc p); lia). assert (Rz: 0 <= z <= 1) by (unfold z; destruct ((gx =? 0) && (gy =? 0)); lia).
  assert (SZ: 0 <= o /\ o + 4 <= a_size (A_LASTPOS (b_luma p))).
  { subst o. destruct (b_luma p); cbn [A_LASTPOS a_size].
    - destruct one; [lia|]. destruct ((gx =? 0) || (gy =? 0)); lia.
    - destruct one; lia. }
  clearbody o. clear EO.
  assert (K: forall u v, 0 <= u <= 3 -> 0 <= v <= 3 ->
    (let '(xx, yy) := if (gx =? 0) && (0 <? gy) && b_dc p then (v, u) else (u, v) in
     let '(xx, yy) := if negb (m =? 0) then (3 - xx, if b_dc p then 3 - yy else yy) else (xx, yy) in (xx, yy)) = (x, y) ->
    reads (let! xx := ext (A_LASTPOS (b_luma p)) o 1 3 in let! yy := ext (A_LASTPOS (b_luma p)) (o + 2) 1 3 in
      let '(xx, yy) := if (gx =? 0) && (0 <? gy) && b_dc p then (yy, xx) else (xx, yy) in
      let '(xx, yy) := if negb (m =? 0) then (3 - xx, if b_dc p then 3 - yy else yy) else (xx, yy) in
      lookup tab_scan_coeff_pos_in_cg (yy * 4 + xx))
     (unary (fun j => at_ctx (A_LASTPOS (b_luma p)) (o + Z.min j 1)) u 3 ++ unary (fun j => at_ctx (A_LASTPOS (b_luma p)) (o + 2 + Z.min j 1)) v 3) i).
  { intros u v Hu Hv E. eapply reads_bind; [apply reads_ext; [lia|change (Z.min 1 (3 - 1)) with 1; lia|exact Hu]|]. cbv beta. apply reads_end.
    eapply reads_bind; [apply reads_ext; [lia|change (Z.min 1 (3 - 1)) with 1; lia|exact Hv]|]. cbv beta.
    destruct (if (gx =? 0) && (0 <? gy) && b_dc p then (v, u) else (u, v)) as [xx yy].
    destruct (if negb (m =? 0) then (3 - xx, if b_dc p then 3 - yy else yy) else (xx, yy)) as [a b]. apply pair_equal_spec in E. destruct E as [-> ->]. apply reads_lookup, G. }
  destruct (m =? 0); cbn [negb] in *.
  - destruct ((gx =? 0) && (0 <? gy) && b_dc p); apply K; first [lia|reflexivity].
  - destruct (b_dc p); rewrite ?andb_true_r, ?andb_false_r in *.
    + destruct ((gx =? 0) && (0 <? gy)); apply K; try lia; f_equal; lia.
    + apply K; try lia. f_equal; lia.
Qed.

(** ** Placing the levels of a group. *)
Lemma clip16_scaled : forall p v, clip16 (Z.shiftr (v * b_scale p + Z.shiftl 1 (b_shift p - 1)) (b_shift p)) = scaled p v \/ ~ quant_ok (b_scale p) (b_shift p).
Proof.
  intros p v. destruct (Z_lt_ge_dec (b_shift p) 1) as [C|C]; [right; unfold quant_ok; lia|]. left.
  unfold scaled, clip16. rewrite Z.shiftr_div_pow2, Z.shiftl_mul_pow2, Z.mul_1_l by lia. set (q := _ / _). clearbody q.
  destruct (Z.ltb_spec q (-32768)); [lia|]. destruct (Z.ltb_spec 32767 q); lia.
Qed.
Lemma place_read : forall p g org, quant_ok (b_scale p) (b_shift p) -> forall l ctr, -1 <= ctr -> rising l -> Forall (fun d => ctr < d < 16 /\ -32768 <= g d <= 32767) l ->
  reads (place p org ctr (signed g (gaps ctr l))) []
    (map (fun d => let '(x, y) := exchanged p (nth (Z.to_nat d) tab_scan_4x4 (0, 0)) in (org + y * b_w p + x, scaled p (g d))) l).
Proof.
  intros p g org HQ l. induction l as [|d l IH]; intros ctr Hc HR F; cbn [gaps signed map place fst snd]; [apply reads_ret|].
  inversion F as [|? ? [F1 F2] F3]; subst. inversion HR as [|? ? R1 R2]; subst.
  replace ((d - ctr - 1 <? 0) || (16 <=? d - ctr - 1)) with false by (symmetry; apply orb_false_intro; lia).
  replace (ctr + (d - ctr - 1) + 1) with d by lia. eapply reads_quiet; [apply reads_lookup, (get_nth _ _ _ (0, 0)); change (length tab_scan_4x4) with 16%nat; lia|].
  destruct (nth (Z.to_nat d) tab_scan_4x4 (0, 0)) as [x y]. cbv beta iota. unfold exchanged at 1. cbn [fst snd]. destruct (clip16_scaled p (g d)) as [CS|]; [|contradiction]. destruct HQ as [Q1 Q2].
  assert (SH: 1 <= Z.shiftl 1 (b_shift p - 1) <= 65536).
  { rewrite Z.shiftl_mul_pow2, Z.mul_1_l by lia. pose proof (Z.pow_le_mono_r 2 (b_shift p - 1) 16 ltac:(lia) ltac:(lia)). pose proof (Z.pow_pos_nonneg 2 (b_shift p - 1) ltac:(lia) ltac:(lia)). change (2 ^ 16) with 65536 in *. lia. }
  assert (PR: -32768 * 65535 <= g d * b_scale p <= 32767 * 65535) by nia.
  destruct (if b_swap p then (y, x) else (x, y)) as [u v].
  eapply reads_quiet; [apply reads_chk; lia|]. cbv beta. eapply reads_quiet; [apply reads_chk; lia|]. cbv beta.
  eapply reads_quiet; [apply (IH d); [lia|exact R1|]|].
  - apply Forall_forall. intros z Hz. rewrite Forall_forall in F3, R2. specialize (F3 z Hz). specialize (R2 z Hz). lia.
  - cbv beta. rret. f_equal. f_equal. symmetry. exact CS.
Qed.

(** ** A group. *)
Lemma gaps_fst : forall l c, map fst (gaps c l) = l.
Proof. induction l as [|d l IH]; intros c; cbn [gaps map fst]; [reflexivity|now rewrite IH]. Qed.
Lemma group_read : forall p one first m gx gy lev k, quant_ok (b_scale p) (b_shift p) -> 0 <= m -> 0 <= gx -> 0 <= gy -> group_xy p k = (gx, gy) ->
  (forall i, 0 <= i < 16 -> -32768 <= lev k i <= 32767) -> live lev k = true ->
  reads (read_group (esc_code 1) p one first (magnitude_class m) gx gy) (group_bins (b_luma p) (b_dc p) one first m gx gy (lev k))
        (group_of p lev k, magnitude_class (Z.max m (biggest (map (lev k) (coded (lev k)))))).
Proof.
  intros p one first m gx gy lev k HQ Hm Hx Hy GX HB HL. unfold read_group, group_bins. set (g := lev k) in *.
  destruct (coded g) as [|q rest] eqn:E; [unfold live in HL; fold g in HL; rewrite E in HL; discriminate|]. cbn [hd].
  assert (Q: 0 <= q < 16 /\ g q <> 0) by (apply coded_in; rewrite E; left; reflexivity).
  eapply reads_bind; [apply first_level_read; try assumption; tauto|]. cbv beta.
  pose proof (pairs_read p one first m g Hm HB rest [] q 16 E) as PR. cbn [rev gaps unsigned map biggest fold_right] in PR. rewrite Z.max_l in PR by lia.
  eapply reads_bind; [rewrite <- E; rewrite E at 1; apply PR; pose proof (coded_short g) as CS; rewrite E in CS; cbn [length] in CS; lia|]. cbv beta iota.
  assert (CIn: forall d, In d (coded g) -> 0 <= d < 16 /\ g d <> 0) by (intros d; apply coded_in).
  assert (ER: rev (unsigned g (gaps (-1) (rev (coded g)))) = unsigned g (rev (gaps (-1) (rev (coded g))))) by (unfold unsigned; symmetry; apply map_rev).
  rewrite ER. assert (FR: map fst (rev (gaps (-1) (rev (coded g)))) = coded g) by (rewrite map_rev, gaps_fst; apply rev_involutive).
  apply reads_end. rewrite <- E. eapply reads_bind with (x := signed g (rev (gaps (-1) (rev (coded g))))).
  { eapply reads_eq; [apply (signs_read g HB)| |reflexivity].
    - apply Forall_forall. intros t Ht. apply (in_map fst) in Ht. rewrite FR in Ht. apply CIn, Ht.
    - apply Forall_forall. intros t Ht. apply (in_map fst) in Ht. rewrite FR in Ht. apply CIn, Ht.
    - rewrite <- FR at 1. rewrite map_map. reflexivity. }
  cbv beta. replace (rev (signed g (rev (gaps (-1) (rev (coded g)))))) with (signed g (gaps (-1) (rev (coded g)))) by (unfold signed; rewrite map_rev, rev_involutive; reflexivity).
  unfold group_of. rewrite GX. fold g. unfold exchanged at 1. cbn [fst snd]. destruct (if b_swap p then (gy, gx) else (gx, gy)) as [u v].
  eapply reads_quiet; [apply (place_read p g); [exact HQ|lia|apply rev_rising, coded_falling|]|].
  - apply Forall_forall. intros d Hd. apply in_rev, CIn in Hd. specialize (HB d (proj1 Hd)). lia.
  - cbv beta. rret. do 2 f_equal. apply map_ext. intros d. destruct (exchanged p (nth (Z.to_nat d) tab_scan_4x4 (0, 0))) as [x y]. f_equal. lia.
Qed.
