(** The readers of coded-block patterns and of sample adaptive offsets. *)
From Coq Require Import ZArith List Bool Lia.
From Verif Require Import CBase CBaseProofs AecModel AecSpec AecProofsF AecProofsG SynModel CodSpec CodProofsB BinSpec BinProofs BinProofsB BinProofsC.
Import ListNotations.
Open Scope Z_scope.

(** ** Coded-block patterns. *)
Definition nb_ok (nb : Z -> Z -> Z * Z) : Prop := forall k c, 0 <= fst (nb k c) <= 1 /\ 0 <= snd (nb k c) <= 1.
Lemma ctp_y_read : forall nb k c b, nb_ok nb -> reads (read_ctp_y (fst (nb k c)) (snd (nb k c))) [at_ctx A_CBP (fst (nb k c) + 2 * snd (nb k c)) b] b.
Proof. intros nb k c b H. unfold read_ctp_y. destruct (H k c). apply reads_sym. in_array. Qed.
Lemma ctp_4_read : forall nb base y, nb_ok nb -> 0 <= y < 16 -> reads (read_ctp_4 nb base) (luma_flags nb base y) (base + y).
Proof.
  intros nb base y H Hy. unfold read_ctp_4, luma_flags. cbn [map].
  set (b0 := y / 2 ^ 0 mod 2). set (b1 := y / 2 ^ 1 mod 2). set (b2 := y / 2 ^ 2 mod 2). set (b3 := y / 2 ^ 3 mod 2).
  assert (T: forallb (fun y => (y mod 2 ^ 0 =? 0) && (y mod 2 ^ 1 =? y / 2 ^ 0 mod 2) && (y mod 2 ^ 2 =? y / 2 ^ 0 mod 2 + Z.shiftl (y / 2 ^ 1 mod 2) 1) &&
     (y mod 2 ^ 3 =? y / 2 ^ 0 mod 2 + Z.shiftl (y / 2 ^ 1 mod 2) 1 + Z.shiftl (y / 2 ^ 2 mod 2) 2) &&
     (y =? y / 2 ^ 0 mod 2 + Z.shiftl (y / 2 ^ 1 mod 2) 1 + Z.shiftl (y / 2 ^ 2 mod 2) 2 + Z.shiftl (y / 2 ^ 3 mod 2) 3)) (map Z.of_nat (seq 0 16)) = true) by (vm_compute; reflexivity).
  rewrite forallb_forall in T. specialize (T y). assert (Hin: In y (map Z.of_nat (seq 0 16))) by (replace y with (Z.of_nat (Z.to_nat y)) by lia; apply in_map, in_seq; lia). specialize (T Hin).
  fold b0 b1 b2 b3 in T. rewrite !andb_true_iff, !Z.eqb_eq in T. destruct T as ((((T0 & T1) & T2) & T3) & T4). rewrite T0, T1, T2, T3.
  replace (base + 0) with base by lia. eapply reads_next; [apply ctp_y_read, H|]. cbv beta zeta. eapply reads_next; [apply ctp_y_read, H|]. cbv beta zeta.
  rewrite !Z.add_assoc. eapply reads_next; [apply ctp_y_read, H|]. cbv beta zeta. eapply reads_next; [apply ctp_y_read, H|]. cbv beta. rret. clear - T4. lia.
Qed.
Lemma intra_cbp_read : forall ty level (c400 : bool) sdip nsqt nb y c, 8 <= ty -> nb_ok nb -> 0 <= y < (if ty =? 8 then 2 else 16) -> 0 <= c <= (if c400 then 0 else 3) ->
  reads (read_cbp ty level c400 sdip nsqt nb) (intra_cbp_bins ty c400 nb y c) (y + 16 * c, None).
Proof.
  intros ty level c400 sdip nsqt nb y c Ht Hnb Hy Hc. unfold read_cbp, intra_cbp_bins. replace (is_intra_mode ty) with true by (unfold is_intra_mode; lia). cbn [negb].
  eapply reads_bind with (x := y).
  - destruct (ty =? 8); [apply ctp_y_read, Hnb|]. apply ctp_4_read; auto.
  - cbv beta. apply reads_end. eapply reads_bind with (x := 16 * c); [|cbv beta; apply reads_ret]. destruct c400; [rret; lia|].
    assert (c = 0 \/ c = 1 \/ c = 2 \/ c = 3) as [-> | [-> | [-> | ->]]] by lia; unfold chroma_flags;
    repeat (eapply reads_next; [apply reads_sym; in_array|]; cbv beta; cbn [Z.eqb Pos.eqb negb]); apply reads_ret.
Qed.
Definition tu_split_ok (sdip nsqt : bool) (ty level : Z) (div : bool) (sp : Z) : Prop :=
  sp = if div then (if nsqt && (3 <? level) then (if (ty =? 2) || (ty =? 4) || (ty =? 5) then HOR else if (ty =? 3) || (6 <=? ty) then VER else CROSS) else CROSS) else NON.
Lemma tu_split_read : forall sdip nsqt ty level div sp, 0 <= ty <= 7 -> tu_split_ok sdip nsqt ty level div sp -> reads (set_tu_split sdip nsqt ty level div) [] sp.
Proof.
  intros sdip nsqt ty level div sp Ht ->. unfold set_tu_split. replace (is_intra_mode ty) with false by (unfold is_intra_mode; lia). destruct div; [|apply reads_ret].
  assert (ty = 0 \/ ty = 1 \/ ty = 2 \/ ty = 3 \/ ty = 4 \/ ty = 5 \/ ty = 6 \/ ty = 7) as [-> | [-> | [-> | [-> | [-> | [-> | [-> | ->]]]]]]] by lia;
  (eapply reads_quiet; [apply reads_lookup; reflexivity|]); cbv beta iota; destruct (nsqt && (3 <? level)); apply reads_ret.
Qed.
Lemma inter_cbp_read : forall ty level (c400 : bool) sdip nsqt nb (div : bool) y c sp, 0 <= ty <= 7 -> nb_ok nb -> 0 <= y < (if div then 16 else 2) -> 0 <= c <= (if c400 then 0 else 3) ->
  (ty = 0 -> div = false -> c = 0 -> y = 1) ->
  tu_split_ok sdip nsqt ty level (div || (y =? 0) && (c =? 0)) sp ->
  reads (read_cbp ty level c400 sdip nsqt nb) (inter_cbp_bins ty c400 nb div y c) (y + 16 * c, Some sp).
Proof.
  intros ty level c400 sdip nsqt nb div y c sp Ht Hnb Hy Hc H0 Hsp. unfold read_cbp, inter_cbp_bins. replace (is_intra_mode ty) with false by (unfold is_intra_mode; lia). cbn [negb].
  destruct ((y =? 0) && (c =? 0) && negb (ty =? 0) && negb div) eqn:Z0.
  - rewrite !andb_true_iff, !negb_true_iff in Z0. destruct Z0 as (((Z1 & Z2) & Z3) & ->). assert (y = 0) as -> by lia. assert (c = 0) as -> by lia.
    replace ((1 <=? ty) && (ty <=? 7)) with true by lia. rsym 1. cbn [Z.eqb]. eapply reads_quiet; [apply tu_split_read; eauto|]. cbv beta. apply reads_ret.
  - assert (Z1: (div || (y =? 0) && (c =? 0)) = div).
    { destruct div; [reflexivity|]. cbn [orb]. destruct ((y =? 0) && (c =? 0)) eqn:Z2; [|reflexivity]. exfalso. cbn [andb negb] in Z0. rewrite andb_true_r in Z0.
      apply negb_false_iff in Z0. assert (y = 1) by (apply H0; lia). lia. }
    rewrite Z1 in Hsp. eapply reads_bind with (x := 0).
    { destruct (Z.eqb_spec ty 0) as [E0|E0]; [replace ((1 <=? ty) && (ty <=? 7)) with false by lia; apply reads_ret|]. replace ((1 <=? ty) && (ty <=? 7)) with true by lia. apply reads_sym. in_array. }
    cbv beta. cbn [Z.eqb]. cbn [app]. rsym (flag div). replace (negb (flag div =? 0)) with div by (destruct div; reflexivity). eapply reads_quiet; [apply tu_split_read; eauto|]. cbv beta.
    eapply reads_bind with (x := 16 * c).
    { destruct c400; [rret; lia|]. assert (c = 0 \/ c = 1 \/ c = 2 \/ c = 3) as [-> | [-> | [-> | ->]]] by lia; unfold chroma_flags;
      repeat (eapply reads_next; [apply reads_sym; in_array|]; cbv beta; cbn [Z.eqb Pos.eqb negb]); apply reads_ret. }
    cbv beta. apply reads_end. eapply reads_bind with (x := y + 16 * c); [|cbv beta; apply reads_ret]. destruct div; cbn [flag Z.eqb].
    + eapply reads_eq; [apply (ctp_4_read nb (16 * c) y Hnb Hy)|reflexivity|]. clear. lia.
    + destruct (Z.eqb_spec c 0) as [-> |C0].
      * cbn [Z.mul Z.eqb]. rret. destruct (Z.eqb_spec y 0) as [Y0|Y0]; [|lia]. exfalso. destruct (Z.eqb_spec ty 0) as [T0|T0]; [|discriminate]. rewrite (H0 T0 eq_refl eq_refl) in Y0. discriminate.
      * replace (16 * c =? 0) with false by lia. eapply reads_next; [apply ctp_y_read, Hnb|]. cbv beta. rret. lia.
Qed.

(** ** Sample adaptive offset. *)
Lemma merge_read : forall lf top m, (m = 0 \/ m = 1 /\ top = true \/ m = 2 /\ lf = true) -> reads (read_sao_mergeflag lf top) (merge_bins lf top m) m.
Proof.
  intros lf top m H. unfold read_sao_mergeflag, merge_bins.
  destruct lf, top; destruct H as [-> | [(-> & T) | (-> & T)]]; try discriminate; cbn [Z.eqb Pos.eqb flag];
  apply reads_end; first [eapply reads_quiet; [apply reads_ret|]; cbv beta zeta; apply reads_ret
    | eapply reads_bind; [first [apply reads_sym; in_array | eapply reads_next with (x := 1); [apply reads_sym; in_array|]; cbv beta; cbn [Z.eqb Pos.eqb]; apply reads_ret
        | eapply reads_next with (x := 0); [apply reads_sym; in_array|]; cbv beta; cbn [Z.eqb Pos.eqb]; apply reads_end; eapply reads_bind; [apply reads_sym; in_array|]; cbv beta; apply reads_ret]|]; cbv beta zeta; apply reads_ret].
Qed.
Lemma sao_mode_read : forall m, m = 0 \/ m = 1 \/ m = 3 -> reads read_sao_mode (sao_mode_bins m) m.
Proof.
  intros m [-> | [-> | ->]]; unfold read_sao_mode, sao_mode_bins; cbn [Z.eqb Pos.eqb flag].
  - rsym 1. cbn [Z.eqb]. apply reads_ret.
  - rsym 0. cbn [Z.eqb]. rbyp 1. apply reads_ret.
  - rsym 0. cbn [Z.eqb]. rbyp 0. apply reads_ret.
Qed.
Lemma sao_unary_read : forall f v cnt max, 0 <= cnt -> 0 <= v -> cnt + v <= max -> 1 <= v -> max - cnt <= Z.of_nat f + 1 ->
  reads (sao_unary f true cnt max) (unary (fun _ => equi) (v - 1) (max - cnt - 1)) (cnt + v).
Proof.
  induction f as [|f IH]; intros v cnt max Hc Hv Hm H1 Hf; cbn [sao_unary]; destruct (Z.eqb_spec (cnt + 1) max) as [E0|E0].
  1, 3: replace (v - 1) with 0 by lia; replace (max - cnt - 1) with 0 by lia; rewrite unary_last; rret; lia.
  - exfalso. lia.
  - destruct (Z.eq_dec v 1) as [-> |V1].
    + change (1 - 1) with 0. rewrite unary_zero by lia. rbyp 1. cbn [Z.eqb]. destruct f; cbn [sao_unary]; rret; lia.
    + rewrite unary_step by lia. rbyp 0. cbn [Z.eqb]. eapply reads_eq; [apply (IH (v - 1) (cnt + 1) max); lia| |lia]. f_equal. lia.
Qed.
Lemma sao_count_read : forall (c : Z -> Z -> bin) (m : syn Z) v max, 0 <= v <= max -> 1 <= max <= 7 -> (forall b, reads m [c 0 b] b) -> (forall j b, 0 < j -> c j b = equi b) ->
  reads (let! s := m in sao_unary 8 (s =? 0) 0 max) (unary c v max) v.
Proof.
  intros c m v max Hv Hm R C. destruct (Z.eq_dec v 0) as [-> |V0].
  - rewrite unary_zero by lia. eapply reads_next; [apply R|]. cbv beta. cbn [Z.eqb sao_unary]. apply reads_ret.
  - rewrite unary_step by lia. eapply reads_next; [apply R|]. cbv beta. cbn [Z.eqb]. eapply reads_eq; [apply (sao_unary_read 8 v 0 max); lia| |lia].
    rewrite Z.sub_0_r. apply unary_ext; [lia|]. intros j b Hj. apply C. lia.
Qed.
Lemma bind_assoc : forall A B C (x : syn A) (f : A -> syn B) (g : B -> syn C) l w, reads (bind (bind x f) g) l w -> reads (let! y := x in bind (f y) g) l w.
Proof.
  intros A B C x f g l w H a cs cs' a1 cs1 V LG Q D E. destruct (H a cs cs' a1 cs1 V LG Q D E) as (c2 & M & R). exists c2. split; [|exact R]. rewrite <- M. unfold bind.
  destruct (x a cs') as [[[? ?] [?|]]| | |]; reflexivity.
Qed.
Lemma band_offset_read : forall v, -7 <= v <= 7 -> reads (read_sao_offset BO) (band_offset_bins v) v.
Proof.
  intros v Hv. unfold read_sao_offset, band_offset_bins. eapply reads_quiet with (x := 7); [apply reads_lookup; reflexivity|]. cbv beta. change (BO =? BO) with true. cbv iota. apply bind_assoc.
  eapply reads_bind with (x := Z.abs v). { apply sao_count_read; try lia; [intros b; apply reads_sym; in_array|]. intros j b Hj. replace (j =? 0) with false by lia. reflexivity. }
  cbv beta. change (BO =? 0) with false. change (BO =? 4) with false. change (BO =? 3) with false. cbv iota. eapply reads_quiet; [apply reads_ret|]. cbv beta. cbn [andb].
  destruct (Z.eqb_spec v 0) as [-> |V0]; [apply reads_ret|]. replace (Z.abs v =? 0) with false by lia. cbn [negb]. destruct (Z.ltb_spec v 0); cbn [flag].
  - rbyp 1. cbn [Z.eqb]. rret. lia.
  - rbyp 0. cbn [Z.eqb]. rret. lia.
Qed.
Definition edge_ok (cls v : Z) : Prop :=
  cls = 0 /\ -1 <= v <= 6 \/ cls = 1 /\ 0 <= v <= 1 \/ cls = 3 /\ -1 <= v <= 0 \/ cls = 4 /\ -6 <= v <= 1.
Lemma edge_number_ok : forall v, -1 <= v <= 6 -> 0 <= edge_number v <= 7 /\ get eo_offset_inv_map (edge_number v) = Some v.
Proof.
  intros v Hv. assert (v = -1 \/ v = 0 \/ v = 1 \/ v = 2 \/ v = 3 \/ v = 4 \/ v = 5 \/ v = 6) as [-> | [-> | [-> | [-> | [-> | [-> | [-> | ->]]]]]]] by lia;
  vm_compute; (split; [split; discriminate|reflexivity]).
Qed.
Lemma edge_offset_read : forall cls v, edge_ok cls v -> reads (read_sao_offset cls) (edge_offset_bins cls v) v.
Proof.
  intros cls v [(-> & Hv) | [(-> & Hv) | [(-> & Hv) | (-> & Hv)]]]; unfold read_sao_offset, edge_offset_bins.
  - destruct (edge_number_ok v Hv) as (N & G). eapply reads_quiet with (x := 7); [apply reads_lookup; reflexivity|]. cbv beta. cbn [Z.eqb BO]. apply bind_assoc. apply reads_end.
    eapply reads_bind with (x := edge_number v). { apply sao_count_read; try lia; [intros b; apply reads_byp|]. reflexivity. }
    cbv beta. eapply reads_quiet; [apply reads_lookup, G|]. cbv beta. cbn [andb]. apply reads_ret.
  - eapply reads_quiet with (x := 1); [apply reads_lookup; reflexivity|]. cbv beta. cbn [Z.eqb Pos.eqb BO]. apply bind_assoc. apply reads_end.
    eapply reads_bind with (x := v). { apply sao_count_read; try lia; [intros b; apply reads_byp|]. reflexivity. }
    cbv beta. eapply reads_quiet; [apply reads_ret|]. cbv beta. cbn [andb]. apply reads_ret.
  - eapply reads_quiet with (x := 1); [apply reads_lookup; reflexivity|]. cbv beta. cbn [Z.eqb Pos.eqb BO]. apply bind_assoc. apply reads_end.
    eapply reads_bind with (x := - v). { apply sao_count_read; try lia; [intros b; apply reads_byp|]. reflexivity. }
    cbv beta. eapply reads_quiet; [apply reads_ret|]. cbv beta. cbn [andb]. rret. lia.
  - destruct (edge_number_ok (- v) ltac:(lia)) as (N & G). eapply reads_quiet with (x := 7); [apply reads_lookup; reflexivity|]. cbv beta. cbn [Z.eqb Pos.eqb BO]. apply bind_assoc. apply reads_end.
    eapply reads_bind with (x := edge_number (- v)). { apply sao_count_read; try lia; [intros b; apply reads_byp|]. reflexivity. }
    cbv beta. eapply reads_quiet with (x := v). { eapply reads_quiet; [apply reads_lookup, G|]. cbv beta. rret. lia. } cbv beta. cbn [andb]. apply reads_ret.
Qed.
Lemma fixed_read : forall n i acc v, 0 <= i -> 0 <= v < 2 ^ Z.of_nat n -> reads (sao_fixed n i acc) (map equi (digits_lsb n v)) (acc + v * 2 ^ i).
Proof.
  induction n as [|n IH]; intros i acc v Hi Hv.
  - cbn in Hv |- *. rret. replace v with 0 by lia. lia.
  - unfold digits_lsb. cbn [seq map sao_fixed]. change (2 ^ Z.of_nat 0) with 1. rewrite Z.div_1_r. eapply reads_next; [apply reads_byp|]. cbv beta. rewrite Nat2Z.inj_succ, Z.pow_succ_r in Hv by lia.
    eapply reads_eq; [apply (IH (i + 1) (acc + Z.shiftl (v mod 2) i) (v / 2)); [lia|split; [apply Z.div_pos; lia|apply Z.div_lt_upper_bound; lia]]| |].
    + f_equal. unfold digits_lsb. rewrite <- seq_shift, map_map. apply map_ext. intros j. rewrite Z.div_div by (try lia; apply Z.pow_pos_nonneg; lia). rewrite Nat2Z.inj_succ, Z.pow_succ_r by lia. reflexivity.
    + rewrite Z.shiftl_mul_pow2 by lia. rewrite Z.pow_add_r by lia. change (2 ^ 1) with 2. pose proof (Z.div_mod v 2 ltac:(lia)) as DM. rewrite DM at 1. ring.
Qed.
Lemma distance_read : forall d, 2 <= d <= 16 -> reads sao_delta (distance_bins d) (d - 2).
Proof.
  intros d Hd. unfold sao_delta, distance_bins. cbv zeta. set (v := d - 2). assert (Hv: 0 <= v <= 14) by lia. clearbody v.
  assert (Tl: forall pre acc g u, 0 <= u < 2 ^ g -> 0 <= g -> v = acc + u -> reads (sao_delta_prefix 4 0 1) (map equi pre) (acc, g) ->
     reads (let! (acc, g) := sao_delta_prefix 4 0 1 in let! r := esc_suffix (Z.to_nat g) 0 in ret (acc + r)) (map equi (pre ++ digits (Z.to_nat g) u)) v).
  { intros pre acc g u Hu Hg E R. rewrite map_app. eapply reads_bind; [exact R|]. cbv beta iota. apply reads_end. eapply reads_bind.
    - apply reads_suffix; [lia|apply Z.mod_0_l; apply Z.pow_nonzero; lia|]. rewrite Z2Nat.id by lia. exact Hu.
    - cbv beta. rret. lia. }
  destruct (Z.ltb_spec v 2); [|destruct (Z.ltb_spec v 6); [|destruct (Z.ltb_spec v 14)]].
  - apply (Tl [1] 0 1 v); [change (2 ^ 1) with 2; lia|lia|lia|]. cbn [map sao_delta_prefix]. rbyp 1. rcheck. apply reads_ret.
  - apply (Tl [0; 1] 2 2 (v - 2)); [change (2 ^ 2) with 4; lia|lia|lia|]. cbn [map sao_delta_prefix]. rbyp 0. rcheck. cbn [Z.eqb Z.add Pos.add Pos.succ Pos.eqb]. rbyp 1. rcheck. apply reads_ret.
  - apply (Tl [0; 0; 1] 6 3 (v - 6)); [change (2 ^ 3) with 8; lia|lia|lia|]. cbn [map sao_delta_prefix]. rbyp 0. rcheck. cbn [Z.eqb Z.add Pos.add Pos.succ Pos.eqb]. rbyp 0. rcheck. cbn [Z.eqb Z.add Pos.add Pos.succ Pos.eqb]. rbyp 1. rcheck. apply reads_ret.
  - apply (Tl [0; 0; 0] 14 0 0); [change (2 ^ 0) with 1; lia|lia|lia|]. cbn [map sao_delta_prefix]. rbyp 0. rcheck. cbn [Z.eqb Z.add Pos.add Pos.succ Pos.eqb]. rbyp 0. rcheck. cbn [Z.eqb Z.add Pos.add Pos.succ Pos.eqb]. rbyp 0. rcheck. apply reads_ret.
Qed.
Lemma band_type_read : forall b d, 0 <= b <= 31 -> 2 <= d <= 16 -> reads (read_sao_type true) (map equi (digits_lsb 5 b) ++ distance_bins d) (b + 32 * d).
Proof.
  intros b d Hb Hd. unfold read_sao_type. eapply reads_bind; [apply (fixed_read 5 0 0 b); [lia|change (2 ^ Z.of_nat 5) with 32; lia]|]. cbv beta. apply reads_end.
  eapply reads_bind; [apply reads_catch, distance_read, Hd|]. cbv beta. rret. rewrite Z.shiftl_mul_pow2 by lia. change (2 ^ 5) with 32. change (2 ^ 0) with 1. lia.
Qed.
Lemma edge_type_read : forall k, 0 <= k <= 3 -> reads (read_sao_type false) (map equi (digits_lsb 2 k)) k.
Proof. intros k Hk. unfold read_sao_type. eapply reads_eq; [apply (fixed_read 2 0 0 k); [lia|change (2 ^ Z.of_nat 2) with 4; lia]|reflexivity|]. change (2 ^ 0) with 1. lia. Qed.
Lemma reads_put : forall l i v m, set l i v = Some m -> reads (put l i v) [] m.
Proof. intros l i v m H. unfold put. rewrite H. apply reads_ret. Qed.
Lemma set_at : forall (l : list Z) i v, 0 <= i < Z.of_nat (length l) -> exists m, set l i v = Some m /\ length m = length l /\ forall j, get m j = if j =? i then Some v else get l j.
Proof.
  intros l i v H. destruct (set l i v) as [m|] eqn:E.
  - exists m. split; [reflexivity|]. split; [exact (set_length _ _ _ _ _ E)|]. intros j. destruct (Z.eqb_spec j i) as [-> |C]; [exact (get_set_same _ _ _ _ _ E)|]. apply (get_set_other _ _ _ _ _ _ E). congruence.
  - exfalso. unfold set in E. replace ((i <? 0) || (Z.of_nat (length l) <=? i)) with false in E by lia. discriminate.
Qed.
Lemma plane_read : forall old c, sao_choice_ok c -> (5 <= length (s_off old))%nat -> exists p, reads (sao_read_plane old) (sao_plane_bins c) p /\ sao_stored old c p.
Proof.
  intros old c Hc Hl. unfold sao_read_plane, sao_plane_bins. destruct c as [|b d [[[o0 o1] o2] o3]|k [[[o0 o1] o2] o3]]; cbn [sao_choice_ok] in Hc.
  - eexists. split; [apply reads_end; eapply reads_bind with (x := 0); [apply sao_mode_read; auto|]; cbv beta; cbn [Z.eqb]; apply reads_ret|]. cbn. auto.
  - destruct Hc as (Hb & Hd & H0 & H1 & H2 & H3). set (b2 := (b + d) mod 32).
    assert (B2: 0 <= b2 < 32) by (apply Z.mod_pos_bound; lia).
    assert (M1: forall x, 0 <= x -> Z.rem x 32 = x mod 32) by (intros x Hx; apply Z.rem_mod_nonneg; lia).
    destruct (set_at (repeat 0 32) b o0) as (l0 & S0 & N0 & G0); [rewrite repeat_length; lia|]. rewrite repeat_length in N0.
    destruct (set_at l0 ((b + 1) mod 32) o1) as (l1 & S1 & N1 & G1); [rewrite N0; apply Z.mod_pos_bound; lia|].
    destruct (set_at l1 b2 o2) as (l2 & S2 & N2 & G2); [lia|].
    destruct (set_at l2 ((b2 + 1) mod 32) o3) as (l3 & S3 & N3 & G3); [rewrite N2, N1, N0; apply Z.mod_pos_bound; lia|].
    exists {| s_mode := 2; s_type := 4; s_band := b; s_band2 := b2; s_off := l3 |}. split.
    + eapply reads_bind with (x := 1); [apply sao_mode_read; auto|]. cbv beta. change (1 =? 0) with false. change (1 =? 1) with true. cbv iota zeta.
      rewrite !app_assoc, <- (app_assoc _ (map equi (digits_lsb 5 b))). eapply reads_bind with (x := (o0, o1, o2, o3)).
      { unfold read_sao_offsets. rewrite <- !app_assoc. eapply reads_bind; [apply band_offset_read, H0|]. cbv beta. eapply reads_bind; [apply band_offset_read, H1|]. cbv beta.
        eapply reads_bind; [apply band_offset_read, H2|]. cbv beta. apply reads_end. eapply reads_bind; [apply band_offset_read, H3|]. cbv beta. apply reads_ret. }
      cbv beta iota. apply reads_end. eapply reads_bind; [apply band_type_read; assumption|]. cbv beta.
      assert (Sh: Z.shiftr (b + 32 * d) 5 = d) by (rewrite Z.shiftr_div_pow2 by lia; change (2 ^ 5) with 32; symmetry; apply (Z.div_unique _ _ _ b); lia). rewrite Sh.
      replace (b + 32 * d - Z.shiftl d 5) with b by (rewrite Z.shiftl_mul_pow2 by lia; change (2 ^ 5) with 32; lia). rewrite !M1 by lia. fold b2.
      eapply reads_quiet; [apply reads_put, S0|]. cbv beta. eapply reads_quiet; [apply reads_put, S1|]. cbv beta. eapply reads_quiet; [apply reads_put, S2|]. cbv beta. eapply reads_quiet; [apply reads_put, S3|]. cbv beta. apply reads_ret.
    + cbn [sao_stored s_mode s_type s_off]. split; [reflexivity|]. split; [reflexivity|]. split; [congruence|]. intros i Hi. rewrite G3, G2, G1, G0. unfold b2. rewrite (Zplus_mod_idemp_l (b + d) 1 32).
      assert (R: get (repeat 0 32) i = Some 0).
      { unfold get. replace (i <? 0) with false by lia. apply nth_error_repeat. lia. } rewrite R.
      assert (D: forall x y, 0 <= x < y -> y < x + 32 -> x mod 32 <> y mod 32).
      { intros x y Hx Hy E. apply (f_equal (fun z => z)) in E. pose proof (Z.div_mod x 32 ltac:(lia)). pose proof (Z.div_mod y 32 ltac:(lia)). lia. }
      assert (Bm: b = b mod 32) by (symmetry; apply Z.mod_small; lia).
      pose proof (D b (b + 1)) as D1. pose proof (D b (b + d)) as D2. pose proof (D b (b + d + 1)) as D3. pose proof (D (b + 1) (b + d)) as D4. pose proof (D (b + 1) (b + d + 1)) as D5. pose proof (D (b + d) (b + d + 1)) as D6.
      rewrite <- Bm in D1, D2, D3. clear D Bm R. 
      destruct (Z.eqb_spec i b) as [E0|E0], (Z.eqb_spec i ((b + 1) mod 32)) as [E1|E1], (Z.eqb_spec i ((b + d) mod 32)) as [E2|E2], (Z.eqb_spec i ((b + d + 1) mod 32)) as [E3|E3]; try reflexivity; exfalso; 
      (apply D1; [lia|lia|congruence]) || (apply D2; [lia|lia|congruence]) || (apply D3; [lia|lia|congruence]) || (apply D4; [lia|lia|congruence]) || (apply D5; [lia|lia|congruence]) || (apply D6; [lia|lia|congruence]).
  - destruct Hc as (Hk & H0 & H1 & H2 & H3).
    destruct (set_at (s_off old) 0 o0) as (l0 & S0 & N0 & G0); [lia|]. destruct (set_at l0 1 o1) as (l1 & S1 & N1 & G1); [lia|]. destruct (set_at l1 2 0) as (l2 & S2 & N2 & G2); [lia|].
    destruct (set_at l2 3 o2) as (l3 & S3 & N3 & G3); [lia|]. destruct (set_at l3 4 o3) as (l4 & S4 & N4 & G4); [lia|].
    exists {| s_mode := 2; s_type := k; s_band := s_band old; s_band2 := s_band2 old; s_off := l4 |}. split.
    + eapply reads_bind with (x := 3); [apply sao_mode_read; auto|]. cbv beta. change (3 =? 0) with false. change (3 =? 1) with false. cbv iota zeta.
      rewrite !app_assoc. eapply reads_bind with (x := (o0, o1, o2, o3)).
      { unfold read_sao_offsets. rewrite <- !app_assoc. eapply reads_bind; [apply edge_offset_read; left; auto|]. cbv beta. eapply reads_bind; [apply edge_offset_read; right; left; auto|]. cbv beta.
        eapply reads_bind; [apply edge_offset_read; right; right; left; auto|]. cbv beta. apply reads_end. eapply reads_bind; [apply edge_offset_read; right; right; right; auto|]. cbv beta. apply reads_ret. }
      cbv beta iota. apply reads_end. eapply reads_bind; [apply edge_type_read; assumption|]. cbv beta.
      eapply reads_quiet; [apply reads_put, S0|]. cbv beta. eapply reads_quiet; [apply reads_put, S1|]. cbv beta. eapply reads_quiet; [apply reads_put, S2|]. cbv beta. eapply reads_quiet; [apply reads_put, S3|]. cbv beta.
      eapply reads_quiet; [apply reads_put, S4|]. cbv beta. apply reads_ret.
    + cbn [sao_stored s_mode s_type s_off]. repeat (split; [first [reflexivity | congruence | rewrite G4, ?G3, ?G2, ?G1, ?G0; reflexivity]|]). rewrite G4. reflexivity.
Qed.

(** ** From values to slices. *)
Lemma coded_back : forall A (m : syn A) l v, read_as m l v -> Forall (fun x => snd x = 0 \/ snd x = 1) l -> gentle (map fst l) (map snd l) coder0 ->
  exists data, bytes_ok data /\ 2 <= Z.of_nat (length data) /\ forall ob w, exists a0 a cs, start_decoding data 0 (Z.of_nat (length data)) ob w = Done a0 /\
    m a0 (fun _ => ctx_init) = Done (a, cs, Some v) /\ err a = false.
Proof.
  intros A m l v H F G. destruct (encodable (map fst l) (map snd l)) as (data & B & N & H1).
  - rewrite !map_length. reflexivity.
  - clear - F. induction F; constructor; auto.
  - exact G.
  - exists data. split; [exact B|]. split; [exact N|]. intros ob w. destruct (H1 ob w) as (a0 & a & cs & E0 & D & E). destruct (AecProofsG.start_inv data 0 (Z.of_nat (length data)) ob w B ltac:(lia) ltac:(lia) ltac:(lia)) as (x & Ex & Ix & _).
    rewrite E0 in Ex. apply Done_inj in Ex. subst x.
    destruct (H a0 (fun _ => ctx_init) (fun _ => ctx_init) a cs) as (cs2 & M & _); [|reflexivity|exact D|exact E|].
    + exists data, 0, (Z.of_nat (length data)), ob, w, a0, [], []. repeat (split; [assumption || lia || reflexivity|]). exact (AecProofsF.iv_err _ Ix).
    + exists a0, a, cs2. auto.
Qed.
