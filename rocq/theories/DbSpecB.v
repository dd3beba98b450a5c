(** What a decoded picture holds after the three in-loop filters. *)
From Coq Require Import ZArith List Bool.
From Verif Require Import MemModel SaoModel SaoSpec AlfModel AlfSpec DbModel DbSpec DbModelB.
Import ListNotations.
Open Scope Z_scope.

(** The geometry of a plane of the picture. *)
Definition plane_of (i : frame_in) (c : bool) (base st : Z) (k : plane_par) : Prop :=
  let g := k_g k in
  q_luma g = negb c /\ q_lv g = p_lv (i_p i) /\ q_pw g = 8 * p_ws (i_p i) /\ q_ph g = 8 * p_hs (i_p i) /\
  q_wl g = i_wl i /\ q_hl g = i_hl i /\ q_base g = base /\ q_stride g = st /\
  q_cross g = true /\ q_gdepth g = q_depth g /\ q_depth g = p_depth (i_p i) /\
  per c * p_ws (i_p i) + 16 <= st /\
  (forall lx ly ty off, k_sao k lx ly = Some (ty, off) -> 0 <= ty <= 4).
Definition frame_ok (i : frame_in) : Prop :=
  let p := i_p i in let a := i_a i in
  well_formed p /\ 4 <= p_lv p /\ lcus p (i_wl i) (i_hl i) /\ 2 <= i_wl i /\ qps_ok p /\ p_c400 p = false /\
  samples_ok p false (l_bits a) (i_ry i) /\ samples_ok p true (l_bits a) (i_ru i) /\ samples_ok p true (l_bits a) (i_rv i) /\
  plane_of i false (l_by a) (l_st a) (i_ky i) /\ plane_of i true (l_bu a) (l_stc a) (i_ku i) /\ plane_of i true (l_bv a) (l_stc a) (i_kv i).
(** A plane of the picture deblocked, offset, filtered, each as a whole. *)
Definition filtered_plane (i : frame_in) (c : bool) (k : plane_par) (R : Z -> Z -> Z) : Z -> Z -> Z :=
  let p := i_p i in
  let W := per c * p_ws p in let H := per c * p_hs p in
  let side := 2 ^ (if c then p_lv p - 1 else p_lv p) in
  let al := if c then chroma_alpha p else luma_alpha p in
  let be := if c then chroma_beta p else luma_beta p in
  plane_alf W H side (i_wl i) (i_hl i) (p_depth p) (k_alf k)
    (plane_offset W H side (i_wl i) (i_hl i) (p_depth p) (k_sao k) (deblocked_plane p c al be (fun _ => true) R)).
Definition frame_holds (i : frame_in) (w : work) : Prop :=
  let p := i_p i in let a := i_a i in
  (forall x y, plane_in p false x y -> snd (w_y w) (l_by a + y * l_st a + x) = filtered_plane i false (i_ky i) (i_ry i) x y) /\
  (forall x y, plane_in p true x y -> snd (w_u w) (l_bu a + y * l_stc a + x) = filtered_plane i true (i_ku i) (i_ru i) x y) /\
  (forall x y, plane_in p true x y -> snd (w_v w) (l_bv a + y * l_stc a + x) = filtered_plane i true (i_kv i) (i_rv i) x y).
(** No edge is marked yet. *)
Definition unmarked (f : flags) : Prop := forall q, f_ver f q = 0 /\ f_hor f q = 0.
