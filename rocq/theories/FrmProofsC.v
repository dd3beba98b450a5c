(** Output pictures. *)
From Coq Require Import ZArith List Bool Lia.
From Verif Require Import CBase CBaseProofs MemModel MemProofs QpModel UtilModel SaoModel SaoSpec SaoProofs FrmModel FrmSpec FrmProofs FrmProofsB.
Import ListNotations.
Open Scope Z_scope.

Definition same_buf (b b' : buffer) : bool :=
  match b, b' with Own, Own => true | Frame k, Frame k' => k =? k' | _, _ => false end.
Lemma same_buf_eq b b' : same_buf b b' = true <-> b = b'.
Proof. destruct b, b'; cbn; split; intros H; try congruence. - apply Z.eqb_eq in H. congruence. - inversion H. apply Z.eqb_refl. Qed.

Lemma copy_block dst dstr w h (g : Z -> Z -> Z) (m : mem) x y : w <= dstr -> 0 <= x < w -> 0 <= y < h ->
  floop 0 h (fun j m => floop 0 w (fun k m => upd m (dst + j * dstr + k) (g j k)) m) m (dst + y * dstr + x) = g y x.
Proof.
  intros D X Y.
  refine (proj2 (floop_inv (fun j (t : mem) => 0 <= j <= h /\ (y < j -> t (dst + y * dstr + x) = g y x)) 0 h _ m _ _ _) _); try lia.
  - intros j t Hj [_ Ht]. split; [lia|]. intros L.
    destruct (Z.eq_dec y j) as [->|N].
    + refine (proj2 (floop_inv (fun k (t : mem) => 0 <= k <= w /\ (x < k -> t (dst + j * dstr + x) = g j x)) 0 w _ t _ _ _) _); try lia.
      * intros k t' Hk [_ Ht']. split; [lia|]. intros Lk. destruct (Z.eq_dec x k) as [->|Nk]; [apply upd_same|].
        rewrite upd_other by lia. apply Ht'. lia.
    + refine (floop_inv (fun k (t : mem) => t (dst + y * dstr + x) = g y x) 0 w _ t _ _ _); try lia.
      * intros k t' Hk Ht'. rewrite upd_other by nia. exact Ht'.
Qed.

Lemma out_plane_same st b pl dst dstr src p pstr w h v x y : w <= dstr -> 0 <= x < w -> 0 <= y < h ->
  out_plane st b pl dst dstr src p pstr w h v b pl (dst + y * dstr + x) = v (src (p + y * pstr + x)).
Proof.
  intros D X Y. unfold out_plane. fold (same_buf b b). rewrite (proj2 (same_buf_eq b b) eq_refl), Z.eqb_refl. cbn [andb].
  apply (copy_block dst dstr w h (fun j k => v (src (p + j * pstr + k))) (st b pl) x y D X Y).
Qed.
Lemma out_plane_other st b pl dst dstr src p pstr w h v b' pl' : b' <> b \/ pl' <> pl ->
  out_plane st b pl dst dstr src p pstr w h v b' pl' = st b' pl'.
Proof.
  intros N. unfold out_plane. fold (same_buf b b'). destruct (same_buf b b') eqn:E; [|reflexivity].
  apply same_buf_eq in E. destruct (Z.eqb_spec pl' pl); [|reflexivity]. destruct N; congruence.
Qed.

(** The value a viewer sees: through the frame itself, or converted. *)
Lemma write_shown pelb p f st i x y : (pelb = 1 \/ pelb = 2) -> pool_pic p -> o_buf p <> Frame (f_id f) -> in_plane f p i x y ->
  (f_depth f = f_out f \/ f_out f = 8) ->
  let '(p', st') := write_frame pelb p f st in
  shown st' p' i x y =
    (if f_depth f =? f_out f then (if pelb =? (if f_out f =? 8 then 1 else 2) then fun v => v else if f_out f =? 8 then to_u8 else fun _ => shown st' p' i x y)
     else to_out (f_depth f) (f_depth f - f_out f)) (decoded st f i x y).
Proof.
  intros HB (W & H & W1 & W2) NB IN DE. unfold write_frame. cbv zeta.
  set (nb := if f_out f =? 8 then 1 else 2).
  assert (ES : (f_depth f - f_out f =? 0) = (f_depth f =? f_out f)) by (destruct (Z.eqb_spec (f_depth f - f_out f) 0), (Z.eqb_spec (f_depth f) (f_out f)); lia).
  rewrite ES.
  assert (NB0 : nb = 1 \/ nb = 2) by (unfold nb; destruct (f_out f =? 8); lia).
  destruct (Z.eqb_spec (f_depth f) (f_out f)) as [Ed|Ed]; cbn [andb negb].
  - destruct (Z.eqb_spec pelb nb) as [Ep|Ep].
    + unfold shown, decoded. cbn [o_buf o_org o_stride o_bytes]. rewrite Z.div_mul by lia. reflexivity.
    + destruct (Z.eqb_spec (f_out f) 8) as [E8|E8]; [|reflexivity].
      assert (Enb : nb = 1) by (unfold nb; first [reflexivity | rewrite E8; reflexivity]).
      unfold shown, decoded. cbn [o_buf o_org o_stride o_bytes]. rewrite Enb, !Z.div_1_r, !Z.mul_1_r.
      destruct IN as (X & Y & [(-> & X2 & Y2)|(I12 & F1 & X2 & Y2)]).
      * destruct (Z.eqb_spec (if f_fmt f =? 0 then 1 else 3) 3).
        -- rewrite !out_plane_other by (right; lia). apply out_plane_same; lia.
        -- apply out_plane_same; lia.
      * rewrite F1. cbn [Z.eqb Pos.eqb]. rewrite !Z.quot_div_nonneg by lia.
        destruct I12 as [-> | ->].
        -- rewrite out_plane_other by (right; lia). rewrite W1. apply out_plane_same; lia.
        -- rewrite W2. apply out_plane_same; lia.
  - destruct DE as [DE|E8]; [contradiction|]. assert (Enb : nb = 1) by (unfold nb; first [reflexivity | rewrite E8; reflexivity]).
    rewrite E8. cbn [Z.eqb Pos.eqb]. unfold shown, decoded. cbn [o_buf o_org o_stride o_bytes]. rewrite Enb, !Z.div_1_r, !Z.mul_1_r.
    destruct IN as (X & Y & [(-> & X2 & Y2)|(I12 & F1 & X2 & Y2)]).
    + destruct (Z.eqb_spec (if f_fmt f =? 0 then 1 else 3) 3).
      * rewrite !out_plane_other by (right; lia). apply out_plane_same; lia.
      * apply out_plane_same; lia.
    + rewrite F1. cbn [Z.eqb Pos.eqb]. rewrite !Z.quot_div_nonneg by lia.
      destruct I12 as [-> | ->].
      * rewrite out_plane_other by (right; lia). rewrite W1. apply out_plane_same; lia.
      * rewrite W2. apply out_plane_same; lia.
Qed.

Lemma write_same_depth pelb p f st i x y : (pelb = 1 /\ f_depth f = 8 \/ pelb = 2 /\ (f_depth f = 8 \/ f_depth f = 10 \/ f_depth f = 12)) ->
  f_out f = f_depth f -> pool_pic p -> o_buf p <> Frame (f_id f) -> in_plane f p i x y ->
  0 <= decoded st f i x y < 2 ^ f_depth f ->
  shown (snd (write_frame pelb p f st)) (fst (write_frame pelb p f st)) i x y = decoded st f i x y.
Proof.
  intros HB EO PP NB IN R. assert (HB' : pelb = 1 \/ pelb = 2) by lia.
  pose proof (write_shown pelb p f st i x y HB' PP NB IN ltac:(left; lia)) as K.
  destruct (write_frame pelb p f st) as [p' st'] eqn:Ew. cbn [fst snd].
  rewrite EO, Z.eqb_refl in K. rewrite K.
  destruct (Z.eqb_spec (f_depth f) 8) as [E8|E8].
  - destruct (Z.eqb_spec pelb 1); [reflexivity|]. unfold to_u8. apply Z.mod_small. rewrite E8 in R. change (2 ^ 8) with 256 in R. lia.
  - destruct (Z.eqb_spec pelb 2) as [E2|E2]; [reflexivity|]. lia.
Qed.

Lemma write_reduced pelb p f st i x y : (pelb = 1 \/ pelb = 2) -> (f_depth f = 10 \/ f_depth f = 12) -> f_out f = 8 ->
  pool_pic p -> o_buf p <> Frame (f_id f) -> in_plane f p i x y ->
  0 <= decoded st f i x y < 2 ^ f_depth f - 2 ^ (f_depth f - 8 - 1) ->
  shown (snd (write_frame pelb p f st)) (fst (write_frame pelb p f st)) i x y = reduced (f_depth f - 8) (decoded st f i x y).
Proof.
  intros HB HD EO PP NB IN R.
  pose proof (write_shown pelb p f st i x y HB PP NB IN ltac:(right; exact EO)) as K.
  destruct (write_frame pelb p f st) as [p' st'] eqn:Ew. cbn [fst snd]. rewrite K. rewrite EO.
  set (v := decoded st f i x y) in *. clearbody v. clear K Ew.
  assert (N8 : (f_depth f =? 8) = false) by (apply Z.eqb_neq; lia). rewrite N8.
  unfold to_out, reduced, clip1, max_pel, to_u8.
  destruct HD as [D|D]; rewrite D in *;
  change (10 - 8) with 2 in *; change (12 - 8) with 4 in *; change (2 - 1) with 1 in *; change (4 - 1) with 3 in *;
  rewrite !Z.shiftl_mul_pow2, !Z.shiftr_div_pow2 by lia;
  change (2 ^ 10) with 1024 in *; change (2 ^ 12) with 4096 in *; change (2 ^ 1) with 2 in *; change (2 ^ 3) with 8 in *; change (2 ^ 2) with 4; change (2 ^ 4) with 16.
  - assert (0 <= (v + 1 * 2) / 4 <= 255) by (Z.div_mod_to_equations; lia). replace (v + 2) with (v + 1 * 2) by ring. set (t := (v + 1 * 2) / 4) in *. clearbody t.
    destruct (Z.ltb_spec (1 * 1024 - 1) t), (Z.ltb_spec t 0); try lia. rewrite Z.mod_small; lia.
  - assert (0 <= (v + 1 * 8) / 16 <= 255) by (Z.div_mod_to_equations; lia). replace (v + 8) with (v + 1 * 8) by ring. set (t := (v + 1 * 8) / 16) in *. clearbody t.
    destruct (Z.ltb_spec (1 * 4096 - 1) t), (Z.ltb_spec t 0); try lia. rewrite Z.mod_small; lia.
Qed.

(** No decoded frame is written if the picture has its own memory. *)
Lemma write_frames_kept pelb p f st k i q : o_buf p = Own -> snd (write_frame pelb p f st) (Frame k) i q = st (Frame k) i q.
Proof.
  intros E. unfold write_frame. cbv zeta. cbn [snd]. rewrite E.
  repeat match goal with |- context [if ?c then _ else _] => destruct c end; try reflexivity;
  rewrite !out_plane_other by (left; discriminate); reflexivity.
Qed.
