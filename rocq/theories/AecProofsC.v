From Coq Require Import ZArith List Bool Lia.
From Verif Require Import CBase CBaseProofs MemModel AecModel AecSpec AecProofsA AecProofsB.
Import ListNotations.
Open Scope Z_scope.

(** *** Changing [i_value_s] does not interfere with reading bits. *)
Definition lift (v : Z) (r : aec * bool) : outcome (aec * bool) := Done (set_vs (fst r) v, snd r).
Lemma take_bit_vs : forall a v, take_bit (set_vs a v) = bindo (take_bit a) (lift v).
Proof. intros. unfold take_bit. cbn [set_vs btg byte_buf vt]. destruct ((btg a <? 0) || (64 <=? btg a)); reflexivity. Qed.
Lemma get_next_bit_vs : forall a v, get_next_bit (set_vs a v) = bindo (get_next_bit a) (lift v).
Proof.
  intros. unfold get_next_bit. cbn [set_vs btg nbytes byte_pos buf byte_buf].
  assert (T: forall w p g, take_bit (set_rd (set_vs a v) w p g) = bindo (take_bit (set_rd a w p g)) (lift v)).
  { intros. rewrite <- take_bit_vs. reflexivity. }
  destruct (to_i8 (btg a - 1) <? 0); [|apply T]. destruct (7 <? nbytes a - byte_pos a).
  - destruct (be_bytes _ _ _ _); [apply T|reflexivity].
  - destruct (0 <? nbytes a - byte_pos a); [|reflexivity]. cbv zeta. destruct (be_bytes _ _ _ _); [apply T|reflexivity].
Qed.
Lemma next_bits_vs : forall n a v, next_bits n (set_vs a v) = bindo (next_bits n a) (fun a => Done (set_vs a v)).
Proof.
  induction n as [|n IH]; intros a v; [reflexivity|]. cbn [next_bits]. rewrite get_next_bit_vs.
  destruct (get_next_bit a) as [r| | |]; try reflexivity. cbn [bindo lift fst]. apply IH.
Qed.
Lemma n_bit_vs : forall a n v, get_next_n_bit (set_vs a v) n = bindo (get_next_n_bit a n) (lift v).
Proof.
  intros. unfold get_next_n_bit. cbn [set_vs btg byte_buf byte_pos vt]. destruct (n <=? btg a).
  - cbv zeta. destruct ((to_i8 (btg a - n) <? 0) || (64 <=? to_i8 (btg a - n))); reflexivity.
  - rewrite next_bits_vs. destruct (next_bits (Z.to_nat n) a); reflexivity.
Qed.
Lemma norm_loop_vs : forall f a v w, norm_loop f (set_vs a w) v = bindo (norm_loop f a v) (fun r => Done (set_vs (fst (fst r)) w, snd (fst r), snd r)).
Proof.
  induction f as [|f IH]; intros a v w; cbn [norm_loop set_vs vt]; destruct ((vt a <? QUARTER) && (v <? BOUND)); try reflexivity.
  rewrite get_next_bit_vs. destruct (get_next_bit a) as [[a1 e]| | |]; try reflexivity. cbn [bindo lift fst snd]. destruct e; [reflexivity|]. apply IH.
Qed.
Lemma norm_loop_m_eq : forall f a v, norm_loop_m f (set_vs a v) = bindo (norm_loop f a v) (fun r => Done (set_vs (fst (fst r)) (snd (fst r)), snd r)).
Proof.
  induction f as [|f IH]; intros a v; cbn [norm_loop norm_loop_m set_vs vt vs]; destruct ((vt a <? QUARTER) && (v <? BOUND)); try reflexivity.
  rewrite get_next_bit_vs. destruct (get_next_bit a) as [[a1 e]| | |]; try reflexivity. cbn [bindo lift fst snd]. destruct e; [reflexivity|].
  rewrite <- IH. reflexivity.
Qed.

(** *** The common body of the symbol decoders. *)
Definition norm1 (a : aec) (v : Z) : outcome (aec * Z * bool) :=
  if in_r_domain a then
    bindo (norm_loop 300 (set_s1 a 0) 0) (fun r =>
    let '(a, v, e) := r in
    if e then Done (a, v, true)
    else Done (set_vt (set_bound a (vt a <? QUARTER)) (Z.land (vt a) 255), v, false))
  else Done (a, v, false).

Lemma norm_m_eq : forall a, norm_m a = bindo (norm1 a (vs a)) (fun r => Done (set_vs (fst (fst r)) (snd (fst r)), snd r)).
Proof.
  intros a. unfold norm_m, norm1. destruct (in_r_domain a); [|destruct a; reflexivity].
  rewrite norm_loop_m_eq. destruct (norm_loop 300 (set_s1 a 0) 0) as [[[a1 v1] e]| | |]; try reflexivity.
  cbn [bindo fst snd]. destruct e; reflexivity.
Qed.
Lemma norm1_vs : forall a v w, norm1 (set_vs a w) v = bindo (norm1 a v) (fun r => Done (set_vs (fst (fst r)) w, snd (fst r), snd r)).
Proof.
  intros. unfold norm1. change (in_r_domain (set_vs a w)) with (in_r_domain a). destruct (in_r_domain a); [|reflexivity].
  change (set_s1 (set_vs a w) 0) with (set_vs (set_s1 a 0) w). rewrite norm_loop_vs.
  destruct (norm_loop 300 (set_s1 a 0) 0) as [[[a1 v1] e]| | |]; try reflexivity. cbn [bindo fst snd]. destruct e; reflexivity.
Qed.

Definition flag_of (a : aec) (lgp : Z) := less (t1 a) lgp.
Definition s2_of (a : aec) (lgp : Z) := to_u32 (s1 a + flag_of a lgp).
Definition t2_of (a : aec) (lgp : Z) := to_u32 (t1 a - lgp + Z.shiftl (flag_of a lgp) 8).
Definition lps_of (a : aec) (lgp v : Z) : bool :=
  ((v <? s2_of a lgp) || ((s2_of a lgp =? v) && (t2_of a lgp <=? vt a))) && negb (bound a).

(** The less probable symbol: new offset, then the range scaled up. *)
Definition lps_value (a : aec) (lgp v : Z) : outcome (aec * bool) :=
  if s2_of a lgp =? v then Done (set_vt (set_domain a true) (to_u32 (vt a - t2_of a lgp)), false)
  else bindo (get_next_bit (set_domain a true)) (fun r =>
       if snd r then Done r else Done (set_vt (fst r) (to_u32 (vt (fst r) + 256 - t2_of a lgp)), false)).
Definition rlps_of (a : aec) (lgp : Z) : Z := if flag_of a lgp =? 0 then lgp else to_u32 (t1 a + lgp).
Definition lps_scale (a : aec) (t : Z) : outcome (aec * bool) :=
  bindo (rlps_loop 10 t 0) (fun tn =>
  let '(t, n) := tn in
  bindo (if n =? 0 then Done (a, false) else get_next_n_bit a n) (fun r =>
  if snd r then Done (fst r, true) else Done (set_t1 (set_s1 (fst r) 0) (Z.land t 255), false))).

Definition body (a : aec) (c : ctx) (v : Z) : outcome (aec * ctx * Z * Z * bool) :=
  bindo (norm1 a v) (fun r =>
  let '(a, v, e) := r in
  if e then Done (a, c, v, 0, true)
  else
    let lgp := Z.shiftr (lg c) 2 in
    if lps_of a lgp v then
      bindo (lps_value a lgp v) (fun r =>
      if snd r then Done (fst r, c, v, 0, true)
      else bindo (lps_scale (fst r) (rlps_of a lgp)) (fun r =>
           if snd r then Done (fst r, c, v, 0, true) else Done (fst r, update_ctx_lps c, v, 1 - mps c, false)))
    else Done (set_t1 (set_s1 (set_domain a false) (s2_of a lgp)) (t2_of a lgp), update_ctx_mps c, v, mps c, false)).

Lemma norm1_vs_same : forall a v a1 v1 e, norm1 a v = Done (a1, v1, e) -> vs a1 = vs a.
Proof.
  intros a v a1 v1 e H. unfold norm1 in H. destruct (in_r_domain a); [|apply Done_inj in H; apply pair_equal_spec in H; destruct H as [H _]; apply pair_equal_spec in H; destruct H as [-> _]; reflexivity].
  assert (G: forall f b v b1 v1 e, norm_loop f b v = Done (b1, v1, e) -> vs b1 = vs b).
  { clear. induction f as [|f IH]; intros b v b1 v1 e H; cbn [norm_loop] in H; destruct ((vt b <? QUARTER) && (v <? BOUND)).
    - discriminate.
    - apply Done_inj in H. apply pair_equal_spec in H. destruct H as [H _]. apply pair_equal_spec in H. destruct H as [-> _]. reflexivity.
    - destruct (get_next_bit b) as [[b2 e2]| | |] eqn:E; try discriminate. cbn [bindo fst snd] in H.
      assert (V: vs b2 = vs b). { apply get_next_bit_inv in E. destruct E as [(_ & w & p & g & x & ->)|(_ & g & ->)]; reflexivity. }
      destruct e2.
      + apply Done_inj in H. apply pair_equal_spec in H. destruct H as [H _]. apply pair_equal_spec in H. destruct H as [<- _]. exact V.
      + rewrite <- V. eapply IH; eauto.
    - apply Done_inj in H. apply pair_equal_spec in H. destruct H as [H _]. apply pair_equal_spec in H. destruct H as [-> _]. reflexivity. }
  destruct (norm_loop 300 (set_s1 a 0) 0) as [[[b1 w1] e1]| | |] eqn:E; try discriminate. apply G in E. cbn [bindo] in H.
  destruct e1; apply Done_inj in H; apply pair_equal_spec in H; destruct H as [H _]; apply pair_equal_spec in H; destruct H as [<- _]; exact E.
Qed.


Lemma decode_symbol_body : forall a c, vs a <= 254 ->
  decode_symbol a c = bindo (body a c (vs a)) (fun r => let '(a', c', v, b, e) := r in if e then Done (a', c, 0) else Done (set_vs a' v, c', b)).
Proof.
  intros a c Hv. unfold decode_symbol, body. fold (norm1 a (vs a)).
  destruct (norm1 a (vs a)) as [[[a1 v1] e]| | |] eqn:E; try reflexivity. cbn [bindo]. destruct e; [reflexivity|].
  rewrite (norm1_vs_same _ _ _ _ _ E). unfold BOUND. replace (254 <? vs a) with false by lia. cbv zeta.
  fold (flag_of a1 (Z.shiftr (lg c) 2)). fold (s2_of a1 (Z.shiftr (lg c) 2)). fold (t2_of a1 (Z.shiftr (lg c) 2)).
  fold (lps_of a1 (Z.shiftr (lg c) 2) v1). set (lgp := Z.shiftr (lg c) 2).
  destruct (lps_of a1 lgp v1); [|reflexivity].
  change (t1 (set_domain a1 true)) with (t1 a1). fold (rlps_of a1 lgp). change (vt (set_domain a1 true)) with (vt a1).
  change (if s2_of a1 lgp =? v1 then Done (set_vt (set_domain a1 true) (to_u32 (vt a1 - t2_of a1 lgp)), false)
          else bindo (get_next_bit (set_domain a1 true)) (fun r => if snd r then Done r else Done (set_vt (fst r) (to_u32 (vt (fst r) + 256 - t2_of a1 lgp)), false)))
    with (lps_value a1 lgp v1).
  destruct (lps_value a1 lgp v1) as [[a2 e2]| | |]; try reflexivity. cbn [bindo fst snd]. destruct e2; [reflexivity|].
  unfold lps_scale. destruct (rlps_loop 10 (rlps_of a1 lgp) 0) as [[t n]| | |]; try reflexivity. cbn [bindo].
  destruct (if n =? 0 then Done (a2, false) else get_next_n_bit a2 n) as [[a3 e3]| | |]; try reflexivity. cbn [bindo fst snd]. destruct e3; reflexivity.
Qed.

Lemma continue0_body : forall k a c v i, (forall a1 v1 e, norm1 a v = Done (a1, v1, e) -> v1 <= 254) ->
  continue0_loop (S k) a c v 0 i = bindo (body a c v) (fun r => let '(a', c', v', b, e) := r in
    if e then Done (a', c, 0) else continue0_loop k a' c' v' b (i + 1)).
Proof.
  intros k a c v i Hv. unfold body. cbn [continue0_loop Z.eqb]. fold (norm1 a v).
  destruct (norm1 a v) as [[[a1 v1] e]| | |] eqn:E; try reflexivity. cbn [bindo]. destruct e; [reflexivity|].
  specialize (Hv _ _ _ eq_refl). unfold BOUND. replace (254 <? v1) with false by lia. cbv zeta.
  fold (flag_of a1 (Z.shiftr (lg c) 2)). fold (s2_of a1 (Z.shiftr (lg c) 2)). fold (t2_of a1 (Z.shiftr (lg c) 2)).
  fold (lps_of a1 (Z.shiftr (lg c) 2) v1). set (lgp := Z.shiftr (lg c) 2).
  destruct (lps_of a1 lgp v1); [|reflexivity].
  change (t1 (set_domain a1 true)) with (t1 a1). fold (rlps_of a1 lgp). change (vt (set_domain a1 true)) with (vt a1).
  change (if s2_of a1 lgp =? v1 then Done (set_vt (set_domain a1 true) (to_u32 (vt a1 - t2_of a1 lgp)), false)
          else bindo (get_next_bit (set_domain a1 true)) (fun r => if snd r then Done r else Done (set_vt (fst r) (to_u32 (vt (fst r) + 256 - t2_of a1 lgp)), false)))
    with (lps_value a1 lgp v1).
  destruct (lps_value a1 lgp v1) as [[a2 e2]| | |]; try reflexivity. cbn [bindo fst snd]. destruct e2; [reflexivity|].
  unfold lps_scale. destruct (rlps_loop 10 (rlps_of a1 lgp) 0) as [[t n]| | |]; try reflexivity. cbn [bindo].
  destruct (if n =? 0 then Done (a2, false) else get_next_n_bit a2 n) as [[a3 e3]| | |]; try reflexivity. cbn [bindo fst snd]. destruct e3; reflexivity.
Qed.
