(** C92: deblocking with the vector kernels is deblocking. *)
From Coq Require Import ZArith List Bool Lia.
From Verif Require Import CBase MemModel QpModel QpSpec LfModel LfSpec SaoModel DbModel DbSpec DbProps VdModel VdModelB VdSpec VdProofsC VdProofsD VdProofsE VdProofsF.
Import ListNotations.
Open Scope Z_scope.

(** Each kernel filters the lines of its edge and writes nothing else: every sample as the C kernels are proved to leave
    it (C53_edge). *)
Theorem C92_luma_vertical : forall stride alpha beta f0 f1 src m, 8 <= stride -> 0 <= alpha <= 255 -> 0 <= beta <= 255 -> (forall q, 0 <= m q <= 255) ->
  edge_filtered false stride 1 alpha beta f0 f1 src m (edge_ver_sse stride alpha beta f0 f1 src m).
Proof. exact ver_luma. Qed.
Print Assumptions C92_luma_vertical.
Theorem C92_luma_horizontal : forall stride alpha beta f0 f1 src m, 8 <= stride -> 0 <= alpha <= 255 -> 0 <= beta <= 255 -> (forall q, 0 <= m q <= 255) ->
  edge_filtered false 1 stride alpha beta f0 f1 src m (edge_hor_sse stride alpha beta f0 f1 src m).
Proof. exact hor_luma. Qed.
Print Assumptions C92_luma_horizontal.
Theorem C92_chroma_vertical : forall stride alpha beta f0 f1 srcu srcv mu mv, 8 <= stride -> 0 <= alpha <= 255 -> 0 <= beta <= 255 ->
  (forall q, 0 <= mu q <= 255) -> (forall q, 0 <= mv q <= 255) ->
  let r := edge_ver_c_sse stride alpha beta f0 f1 srcu srcv mu mv in
  edge_filtered true stride 1 alpha beta f0 f1 srcu mu (fst r) /\ edge_filtered true stride 1 alpha beta f0 f1 srcv mv (snd r).
Proof. exact ver_chroma. Qed.
Print Assumptions C92_chroma_vertical.
Theorem C92_chroma_horizontal : forall stride alpha beta f0 f1 srcu srcv mu mv, 8 <= stride -> 0 <= alpha <= 255 -> 0 <= beta <= 255 ->
  (forall q, 0 <= mu q <= 255) -> (forall q, 0 <= mv q <= 255) ->
  let r := edge_hor_c_sse stride alpha beta f0 f1 srcu srcv mu mv in
  edge_filtered true 1 stride alpha beta f0 f1 srcu mu (fst r) /\ edge_filtered true 1 stride alpha beta f0 f1 srcv mv (snd r).
Proof. exact hor_chroma. Qed.
Print Assumptions C92_chroma_horizontal.
(** The kernels keep the thresholds in a byte: in the 8-bit build they fit, whatever the QP and the offsets. *)
Theorem C92_thresholds_fit : forall t, t = ALPHA_TABLE \/ t = BETA_TABLE -> forall qp delta off v,
  lf_threshold t 8 qp off = Done v \/ lf_threshold_c false t 8 qp delta off = Done v -> 0 <= v <= 255.
Proof.
  intros t Ht qp delta off v H. assert (Forall (fun v => 0 <= v <= 255) t) as F by (destruct Ht as [-> | ->]; [exact table_alpha|exact table_beta]).
  destruct H as [H|H]; [exact (threshold_byte _ _ _ _ F H)|exact (threshold_c_byte _ _ _ _ _ F H)].
Qed.
Print Assumptions C92_thresholds_fit.

(** A picture deblocked with them is the picture deblocked with the C kernels, byte for byte, and one is undefined
    exactly when the other is. *)
Theorem C92_same_picture : forall p a ry ru rv wl hl s,
  p_depth p = 8 -> p_hbd p = false -> l_bits a = 8 -> 8 <= l_st a -> 8 <= l_stc a ->
  samples_ok p false 8 ry -> (p_c400 p = false -> samples_ok p true 8 ru /\ samples_ok p true 8 rv) ->
  (forall q, 0 <= pl_y s q <= 255 /\ 0 <= pl_u s q <= 255 /\ 0 <= pl_v s q <= 255) ->
  match picture p a ry ru rv wl hl s, picture_sse p a ry ru rv wl hl s with
  | Done (f, s1), Done (f', s2) => f = f' /\ forall q, pl_y s1 q = pl_y s2 q /\ pl_u s1 q = pl_u s2 q /\ pl_v s1 q = pl_v s2 q
  | Undef, Undef | Fail, Fail | Hang, Hang => True
  | _, _ => False
  end.
Proof.
  intros p a ry ru rv wl hl s Hd Hh Hb Hs Hc Ry Rc B.
  assert (same s s) as H by (split; [split; [|split]; intros q; reflexivity|split; [|split]; intros q; apply B]).
  pose proof (picture_same p a Hd Hh Hb Hs Hc ry ru rv wl hl s s Ry Rc H) as K.
  destruct (picture_sse p a ry ru rv wl hl s) as [[f' s2]| | |], (picture p a ry ru rv wl hl s) as [[f s1]| | |]; cbn [orel] in K; try contradiction; auto.
  destruct K as [E [(A & A' & A'') _]]. cbn [fst snd] in *. split; [congruence|]. intros q. rewrite A, A', A''. auto.
Qed.
Print Assumptions C92_same_picture.
(** Hence C72 with the vector kernels. *)
Theorem C92_picture : forall p a ry ru rv wl hl s,
  well_formed p -> lcus p wl hl -> qps_ok p -> 2 <= wl -> p_depth p = 8 -> p_hbd p = false -> l_bits a = 8 ->
  8 <= l_st a /\ per false * p_ws p <= l_st a -> 8 <= l_stc a /\ per true * p_ws p <= l_stc a ->
  samples_ok p false 8 ry -> (p_c400 p = false -> samples_ok p true 8 ru /\ samples_ok p true 8 rv) ->
  (forall q, 0 <= pl_y s q <= 255 /\ 0 <= pl_u s q <= 255 /\ 0 <= pl_v s q <= 255) ->
  exists f s', picture_sse p a ry ru rv wl hl s = Done (f, s') /\
    plane_holds p false (l_by a) (l_st a) (pl_y s) (pl_y s') (deblocked_plane p false (luma_alpha p) (luma_beta p) (fun _ => true) ry) /\
    (p_c400 p = false ->
      plane_holds p true (l_bu a) (l_stc a) (pl_u s) (pl_u s') (deblocked_plane p true (chroma_alpha p) (chroma_beta p) (fun _ => true) ru) /\
      plane_holds p true (l_bv a) (l_stc a) (pl_v s) (pl_v s') (deblocked_plane p true (chroma_alpha p) (chroma_beta p) (fun _ => true) rv)).
Proof.
  intros p a ry ru rv wl hl s W L Q Hw Hd Hh Hb Hs Hc Ry Rc B.
  pose proof (C92_same_picture p a ry ru rv wl hl s Hd Hh Hb (proj1 Hs) (proj1 Hc) Ry Rc B) as K.
  rewrite <- Hb in Ry, Rc. destruct (C72_picture p a ry ru rv wl hl s W L Q Hw Hs Hc Ry Rc) as (f & s' & E & Y & UV & _).
  rewrite E in K. destruct (picture_sse p a ry ru rv wl hl s) as [[f' s2]| | |]; try contradiction. destruct K as [_ K].
  assert (forall c base st old n1 n2 F, (forall q, n1 q = n2 q) -> plane_holds p c base st old n1 F -> plane_holds p c base st old n2 F) as X.
  { intros c base st old n1 n2 F En [P1 P2]. split; [intros; rewrite <- En; apply P1; assumption|intros; rewrite <- En; apply P2; assumption]. }
  exists f', s2. split; [reflexivity|]. split; [apply (X _ _ _ _ (pl_y s')); [intros; apply K|exact Y]|].
  intros C. destruct (UV C) as [U V]. split; [apply (X _ _ _ _ (pl_u s')); [intros; apply K|exact U]|apply (X _ _ _ _ (pl_v s')); [intros; apply K|exact V]].
Qed.
Print Assumptions C92_picture.

(** A step of eight across an edge: all four kernels filter some lines strongly and leave those without the flag. *)
Definition ex_vd : mem := fun q => if (q mod 16 <? 8) then 60 + q mod 3 else 68 + q mod 2.
Definition ex_vdh : mem := fun q => if q <? 640 then 60 + q mod 3 else 68 + q mod 2.
Example C92_nonvacuous :
  map (fun j => edge_ver_sse 16 20 10 true false (64 + 8) ex_vd (72 + j)) [-4; -3; -2; -1; 0; 1; 2; 3] <> map (fun j => ex_vd (72 + j)) [-4; -3; -2; -1; 0; 1; 2; 3] /\
  map (fun j => edge_ver_sse 16 20 10 true false (64 + 8) ex_vd (72 + 64 + j)) [-4; -3; -2; -1; 0; 1; 2; 3] = map (fun j => ex_vd (72 + 64 + j)) [-4; -3; -2; -1; 0; 1; 2; 3] /\
  edge_hor_sse 64 20 10 true false 640 ex_vdh 576 <> ex_vdh 576 /\ edge_hor_sse 64 20 10 true false 640 ex_vdh 580 = ex_vdh 580 /\
  snd (edge_ver_c_sse 16 20 10 true true 72 72 ex_vd ex_vd) 71 <> ex_vd 71 /\ snd (edge_hor_c_sse 64 20 10 true true 640 640 ex_vdh ex_vdh) 640 <> ex_vdh 640 /\
  (well_formed ex_pict /\ lcus ex_pict 2 2 /\ qps_ok ex_pict /\ p_depth ex_pict = 8 /\ p_hbd ex_pict = false /\ l_bits ex_lay = 8 /\ samples_ok ex_pict false 8 ex_rec).
Proof.
  split; [vm_compute; discriminate|]. split; [vm_compute; reflexivity|]. split; [vm_compute; discriminate|]. split; [vm_compute; reflexivity|].
  split; [vm_compute; discriminate|]. split; [vm_compute; discriminate|].
  split; [exact ex_wf|]. split; [exact ex_lcus|]. split; [exact ex_qps|]. split; [reflexivity|]. split; [reflexivity|]. split; [reflexivity|]. apply ex_samples.
Qed.
