(** C71 to C73: which edges are deblocked, what deblocking makes of a picture, and the picture after all in-loop filters. *)
From Coq Require Import ZArith List Bool Lia.
From Verif Require Import CBase QpSpec MemModel SaoModel SaoSpec AlfModel AlfSpec DbModel DbSpec DbModelB DbSpecB DbProofs DbProofsC DbProofsE DbProofsF.
Import ListNotations.
Open Scope Z_scope.

(** Two LCUs of 16 samples by two: one coding unit cut into halves, the others of 8 samples. *)
Definition ex_unit (q : Z) : unit8 := if (q mod 4 <? 2) && (q / 4 <? 2) then Unit8 4 2 1 1 40 0 else Unit8 3 0 0 (q mod 2) (38 + q mod 3) 0.
Definition ex_pict : pict := Pict 4 4 4 true true ex_unit false (fun _ => 0) (fun _ => 0) (fun _ => 0) false 8 2 3 1 false.
Definition ex_lay : lay := Lay 8 0 10000 20000 48 32.
Definition ex_rec (x y : Z) : Z := 100 + (x / 8 + y / 8) mod 2 * 6.
Lemma ex_wf : well_formed ex_pict.
Proof.
  unfold well_formed. cbn [p_lv p_ws p_hs ex_pict]. split; [lia|]. split; [lia|]. split; [lia|]. split.
  - intros x y Hx Hy. cbv zeta.
    assert (x = 0 \/ x = 1 \/ x = 2 \/ x = 3) as [-> | [-> | [-> | ->]]] by lia;
      (assert (y = 0 \/ y = 1 \/ y = 2 \/ y = 3) as [-> | [-> | [-> | ->]]] by lia);
      (split; [vm_compute; split; discriminate|]; split; [vm_compute; split; discriminate|]; split; [vm_compute; discriminate|]; split; [vm_compute; discriminate|]);
      intros a b Ha Hb; unfold same_cu;
      match type of Ha with 0 <= a < ?n => let v := eval vm_compute in n in change n with v in Ha, Hb end;
      first [ (assert (a = 0) as -> by lia; assert (b = 0) as -> by lia; vm_compute; auto)
            | (assert (a = 0 \/ a = 1) as [-> | ->] by lia; (assert (b = 0 \/ b = 1) as [-> | ->] by lia); vm_compute; auto) ].
  - cbv zeta. intros x y x' y' _ _ _ _ _ _. assert (E : forall q, u_slice (ex_unit q) = 0) by (intros q; unfold ex_unit; destruct (_ && _); reflexivity).
    unfold unit_at. cbn [p_units ex_pict]. rewrite !E. reflexivity.
Qed.
Lemma ex_lcus : lcus ex_pict 2 2. Proof. vm_compute. repeat split; congruence. Qed.
Lemma ex_qps : qps_ok ex_pict.
Proof.
  unfold qps_ok. cbn [p_depth p_hbd p_delta p_offa p_offb p_ws p_hs p_c400 ex_pict]. split; [left; reflexivity|]. split; [reflexivity|]. split; [lia|]. split; [lia|]. split; [lia|].
  intros x y _ _. cbv zeta. unfold unit_at. cbn [p_units ex_pict]. unfold ex_unit. destruct (_ && _); cbn [u_qp]; (split; [|discriminate]); [lia|].
  match goal with |- context [?a mod 3] => pose proof (Z.mod_pos_bound a 3 ltac:(lia)) end. lia.
Qed.
Lemma ex_samples c : samples_ok ex_pict c 8 ex_rec.
Proof. intros x y _. unfold ex_rec. pose proof (Z.mod_pos_bound (x / 8 + y / 8) 2 ltac:(lia)). change (2 ^ 8) with 256. lia. Qed.

(** C71: after the LCU at [(lx, ly)] the flags of its units say, for each edge, whether it separates coding
    units, prediction units or transform blocks; no other flag has changed. *)
Theorem C71_lcu_edges : forall p lx ly f,
  well_formed p -> let N := 2 ^ (p_lv p - 3) in
  0 <= lx -> 0 <= ly -> lx * N < p_ws p -> ly * N < p_hs p ->
  (forall x y, lx * N <= x < lx * N + N -> ly * N <= y < ly * N + N -> x < p_ws p -> y < p_hs p -> f_ver f (y * p_ws p + x) = 0 /\ f_hor f (y * p_ws p + x) = 0) ->
  let f' := set_edges (Z.to_nat (p_lv p - 3)) p (p_lv p) (lx * N) (ly * N) f in
  forall x y, 0 <= x < p_ws p -> 0 <= y < p_hs p ->
    (lx * N <= x < lx * N + N /\ ly * N <= y < ly * N + N -> f_ver f' (y * p_ws p + x) = edge_kind p 0 x y /\ f_hor f' (y * p_ws p + x) = edge_kind p 1 x y) /\
    (~ (lx * N <= x < lx * N + N /\ ly * N <= y < ly * N + N) -> f_ver f' (y * p_ws p + x) = f_ver f (y * p_ws p + x) /\ f_hor f' (y * p_ws p + x) = f_hor f (y * p_ws p + x)).
Proof. exact lcu_edges. Qed.
Print Assumptions C71_lcu_edges.
(** After the whole picture every flag is the kind of its edge. *)
Theorem C71_picture_edges : forall p a ry ru rv wl hl s,
  well_formed p -> lcus p wl hl -> qps_ok p ->
  exists f s', picture p a ry ru rv wl hl s = Done (f, s') /\
    forall x y, 0 <= x < p_ws p -> 0 <= y < p_hs p -> f_ver f (y * p_ws p + x) = edge_kind p 0 x y /\ f_hor f (y * p_ws p + x) = edge_kind p 1 x y.
Proof. intros. apply picture_flags; assumption. Qed.
Print Assumptions C71_picture_edges.
Example C71_nonvacuous : well_formed ex_pict /\ lcus ex_pict 2 2 /\ qps_ok ex_pict /\
  edge_kind ex_pict 1 0 1 = 2 /\ edge_kind ex_pict 0 1 0 = 0 /\ edge_kind ex_pict 0 2 0 = 2 /\ edge_kind ex_pict 0 0 0 = 0.
Proof. split; [exact ex_wf|]. split; [exact ex_lcus|]. split; [exact ex_qps|]. vm_compute. auto. Qed.

(** C72: LCUs reconstructed and deblocked one after the other leave every sample as if all vertical edges of
    the reconstructed picture had been filtered first and then all horizontal ones; nothing outside the planes is
    written.  Pictures of at least two LCU columns. *)
Theorem C72_picture : forall p a ry ru rv wl hl s,
  well_formed p -> lcus p wl hl -> qps_ok p -> 2 <= wl ->
  8 <= l_st a /\ per false * p_ws p <= l_st a -> 8 <= l_stc a /\ per true * p_ws p <= l_stc a ->
  samples_ok p false (l_bits a) ry -> (p_c400 p = false -> samples_ok p true (l_bits a) ru /\ samples_ok p true (l_bits a) rv) ->
  exists f s', picture p a ry ru rv wl hl s = Done (f, s') /\
    plane_holds p false (l_by a) (l_st a) (pl_y s) (pl_y s') (deblocked_plane p false (luma_alpha p) (luma_beta p) (fun _ => true) ry) /\
    (p_c400 p = false ->
      plane_holds p true (l_bu a) (l_stc a) (pl_u s) (pl_u s') (deblocked_plane p true (chroma_alpha p) (chroma_beta p) (fun _ => true) ru) /\
      plane_holds p true (l_bv a) (l_stc a) (pl_v s) (pl_v s') (deblocked_plane p true (chroma_alpha p) (chroma_beta p) (fun _ => true) rv)) /\
    (p_c400 p = true -> pl_u s' = pl_u s /\ pl_v s' = pl_v s).
Proof. intros. apply picture_done; assumption. Qed.
Print Assumptions C72_picture.
(** One LCU column: all but the horizontal edges of the last eight columns. *)
Theorem C72_one_column_partial : forall p a ry ru rv wl hl s,
  well_formed p -> lcus p wl hl -> qps_ok p -> wl = 1 ->
  8 <= l_st a /\ per false * p_ws p <= l_st a -> samples_ok p false (l_bits a) ry ->
  exists f s', picture p a ry ru rv wl hl s = Done (f, s') /\
    plane_holds p false (l_by a) (l_st a) (pl_y s) (pl_y s') (deblocked_plane p false (luma_alpha p) (luma_beta p) (fun u => u <? p_ws p - 1) ry).
Proof. intros. apply picture_one; assumption. Qed.
Print Assumptions C72_one_column_partial.
Theorem C72_one_column_refuted : exists p a ry ru rv hl s x y,
  well_formed p /\ lcus p 1 hl /\ qps_ok p /\ 8 <= l_st a /\ per false * p_ws p <= l_st a /\ samples_ok p false (l_bits a) ry /\ plane_in p false x y /\
  exists f s', picture p a ry ru rv 1 hl s = Done (f, s') /\
    pl_y s' (l_by a + y * l_st a + x) = ry x y /\
    deblocked_plane p false (luma_alpha p) (luma_beta p) (fun _ => true) ry x y <> ry x y.
Proof. exact one_column. Qed.
Print Assumptions C72_one_column_refuted.
Example C72_nonvacuous :
  well_formed ex_pict /\ lcus ex_pict 2 2 /\ qps_ok ex_pict /\ per false * p_ws ex_pict <= l_st ex_lay /\ per true * p_ws ex_pict <= l_stc ex_lay /\
  samples_ok ex_pict false 8 ex_rec /\ samples_ok ex_pict true 8 ex_rec /\
  deblocked_plane ex_pict false (luma_alpha ex_pict) (luma_beta ex_pict) (fun _ => true) ex_rec 17 17 <> ex_rec 17 17 /\
  deblocked_plane ex_pict true (chroma_alpha ex_pict) (chroma_beta ex_pict) (fun _ => true) ex_rec 8 3 <> ex_rec 8 3.
Proof.
  split; [exact ex_wf|]. split; [exact ex_lcus|]. split; [exact ex_qps|]. split; [vm_compute; discriminate|]. split; [vm_compute; discriminate|].
  split; [apply ex_samples|]. split; [apply ex_samples|]. split; vm_compute; discriminate.
Qed.

(** C73: a picture decoded row by row, each row deblocked as it is reconstructed and offset and filtered either at once
    or one row later, holds in its three planes the reconstruction deblocked, then offset, then filtered, each as a
    whole. *)
Theorem C73_one_thread : forall i w, frame_ok i -> unmarked (w_fl w) -> exists w', frame_serial i w = Done w' /\ frame_holds i w'.
Proof. intros. apply frame_serial_ok; assumption. Qed.
Print Assumptions C73_one_thread.
Theorem C73_row_threads : forall i w, frame_ok i -> 2 <= i_hl i -> unmarked (w_fl w) -> exists w', frame_delayed i w = Done w' /\ frame_holds i w'.
Proof. intros. apply frame_delayed_ok; assumption. Qed.
Print Assumptions C73_row_threads.
Definition ex_par (luma : bool) (base st : Z) : plane_par :=
  PlanePar (Geom luma 4 32 32 2 2 true (fun _ _ => 0) base st 8 8)
    (fun lx ly => if lx =? ly then Some (1, fun e => nth (Z.to_nat e) [4; 1; 0; -1; -4] 0) else None)
    (fun lx ly => if ly =? 1 then Some [1; 2; -3; 4; 0; 1; 1; 2; 48] else None) (fun _ => 0).
Definition ex_in : frame_in := FrameIn ex_pict ex_lay ex_rec ex_rec ex_rec 2 2 (ex_par true 0 48) (ex_par false 10000 32) (ex_par false 20000 32).
Example C73_nonvacuous : frame_ok ex_in /\ 2 <= i_hl ex_in /\
  filtered_plane ex_in false (i_ky ex_in) ex_rec 17 17 <> deblocked_plane ex_pict false (luma_alpha ex_pict) (luma_beta ex_pict) (fun _ => true) ex_rec 17 17.
Proof.
  split; [|split; [vm_compute; discriminate|vm_compute; discriminate]].
  assert (T : forall lx ly ty off, k_sao (ex_par true 0 48) lx ly = Some (ty, off) -> 0 <= ty <= 4).
  { intros lx ly ty off. cbn [k_sao ex_par]. destruct (lx =? ly); [|discriminate]. intros E. assert (Some ty = Some 1) as F by (apply (f_equal (option_map fst)) in E; symmetry; exact E). injection F as ->. lia. }
  unfold frame_ok. cbv zeta. cbn [i_p i_a i_wl i_hl i_ry i_ru i_rv i_ky i_ku i_kv ex_in].
  split; [exact ex_wf|]. split; [vm_compute; discriminate|]. split; [exact ex_lcus|]. split; [lia|]. split; [exact ex_qps|]. split; [reflexivity|].
  split; [apply ex_samples|]. split; [apply ex_samples|]. split; [apply ex_samples|].
  unfold plane_of. split; [|split]; (repeat (split; [vm_compute; congruence|]); exact T).
Qed.
