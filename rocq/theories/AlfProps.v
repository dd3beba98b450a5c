(** Property theorems: the adaptive loop filter. *)
From Coq Require Import ZArith List Bool Lia.
From Verif Require Import CBase VlcModel VlcSpec HdrModel HdrSpec HdrProofs MemModel SaoModel SaoSpec AlfModel AlfSpec AlfProofs AlfProofsB AlfProofsC AlfProofsD.
Import ListNotations.
Open Scope Z_scope.

(** C57: the reconstructed coefficients over the 17 taps sum to 64 plus the transmitted last
    value. *)
Theorem C57_normalised : forall c, length c = 9%nat ->
  fold_right Z.add 0 (map (fun t => let '(i, _, _) := t in cf (alf_recon c) i) support) = 64 + nth 8 c 0.
Proof. exact recon_sum. Qed.
Print Assumptions C57_normalised.
Theorem C57_flat : forall W x0 x1 y0 y1 depth c v x y, length c = 9%nat -> nth 8 c 0 = 0 -> 0 <= v < 2 ^ depth ->
  alf_value W x0 x1 y0 y1 depth (alf_recon c) (fun _ _ => v) x y = v.
Proof. exact flat_value. Qed.
Print Assumptions C57_flat.
Theorem C57_range : forall W x0 x1 y0 y1 depth co D x y, 0 <= depth ->
  0 <= alf_value W x0 x1 y0 y1 depth co D x y < 2 ^ depth.
Proof. exact value_range. Qed.
Print Assumptions C57_range.
(** The two block kernels of the code compute that filter; nothing outside the block
    changes. *)
Theorem C57_kernels : forall (src dst : mem) base stride px py w h depth co top down D W, 2 <= w ->
  4 <= alf_end down py h - alf_start top py -> w <= stride -> 0 <= depth -> 0 <= px -> px + w <= W ->
  (forall x y, -3 <= x - px < w + 3 -> alf_start top py <= y < alf_end down py h ->
     src (base + y * stride + x) = D (clamp 0 (W - 1) x) y) ->
  block_becomes w (alf_end down py h - alf_start top py) (base + (alf_start top py * stride + px)) stride dst
    (alf_block2 src base stride px py w h depth co top down (alf_block1 src base stride px py w h depth co top down dst))
    (fun x y => Some (alf_value W px (px + w - 1) (alf_start top py) (alf_end down py h - 1) depth co D (px + x) (alf_start top py + y))).
Proof. exact kernels_value. Qed.
Print Assumptions C57_kernels.
(** The region of an LCU is in range, and for any accepted data the filter of every region
    is one that was transmitted. *)
Theorem C57_region : forall wl hl lx ly, 0 <= lx -> 0 <= ly -> 0 <= wl -> 0 <= hl -> 0 <= alf_region wl hl lx ly <= 15.
Proof. exact region_range. Qed.
Print Assumptions C57_region.
Theorem C57_selected : forall a s b s', alf_read_luma a s = Done (b, s') -> length (al_co a) = 16%nat ->
  al_n b <= 16 /\ length (al_pat b) = 16%nat /\ length (al_co b) = 16%nat /\
  (1 <= al_n b -> forall r, 0 <= r <= 15 -> 0 <= nth (Z.to_nat r) (alf_var_table b) 0 < al_n b).
Proof. exact luma_done. Qed.
Print Assumptions C57_selected.
(** No intermediate sum leaves 32 bits for conforming coefficients, in whatever order it is
    formed; coefficients are not checked, so other streams do overflow. *)
Theorem C57_no_overflow : forall c smp, conforming c -> (forall dx dy, 0 <= smp dx dy < 4096) ->
  magnitude (alf_recon c) smp + 32 < 2 ^ 31 /\ Z.abs (cf (alf_recon c) 8) <= 2176.
Proof. exact magnitude_small. Qed.
Print Assumptions C57_no_overflow.
Theorem C57_overflow_refuted : exists c, chroma_ok c /\ ~ in_i32 (fold_left (fun s v => s + 2 * v) (firstn 8 c) 0).
Proof. exists big_coef. exact overflow. Qed.
Print Assumptions C57_overflow_refuted.
Example C57_nonvacuous :
  let c := [3; -5; 7; 0; 2; -1; 4; 60; 0] in
  conforming c /\ alf_recon c = [3; -5; 7; 0; 2; -1; 4; 60; -76] /\
  alf_value 16 0 15 0 11 8 (alf_recon c) (fun x y => 10 * x + y) 15 11 = 149 /\
  (exists b s', alf_read_luma empty_param (hdr [95; 254; 255; 255]) = Done (b, s') /\ al_n b = 2).
Proof.
  cbv zeta. split; [|split; [reflexivity|split; [vm_compute; reflexivity|]]].
  - split; [reflexivity|]. split; [|vm_compute; split; discriminate]. intros i Hi.
    assert (i = 0 \/ i = 1 \/ i = 2 \/ i = 3 \/ i = 4 \/ i = 5 \/ i = 6 \/ i = 7) as E by lia.
    repeat (destruct E as [-> | E]; [vm_compute; split; discriminate|]). subst i. vm_compute. split; discriminate.
  - do 2 eexists. split; vm_compute; reflexivity.
Qed.

(** C58: parameters written by an encoder are read back exactly, without leaving the tables,
    and every region gets its filter. *)
Theorem C58_roundtrip_partial : forall p y u v, alf_pic_ok p -> length (al_co y) = 16%nat -> length (al_co u) = 16%nat -> length (al_co v) = 16%nat ->
  exists y' u' v', reads (alf_read_param y u v) (alf_pic_code p) ([present (ap_y p); present (ap_u p); present (ap_v p)], y', u', v') /\
    match ap_y p with Some s => selects y' s | None => y' = y end /\
    match ap_u p with Some c => nth 0 (al_co u') [] = c | None => u' = u end /\
    match ap_v p with Some c => nth 0 (al_co v') [] = c | None => v' = v end.
Proof. exact pic_roundtrip. Qed.
Print Assumptions C58_roundtrip_partial.
(** Other headers do leave them: 17 filters, a region distance of 16, a header that ends
    early (the distance -1 overwrites the member in front of the table). *)
Theorem C58_filters_refuted : exists bytes, alf_read_param empty_param empty_param empty_param (hdr bytes) = Undef.
Proof. exact (ex_intro _ _ too_many). Qed.
Print Assumptions C58_filters_refuted.
Theorem C58_distance_refuted : exists bytes, alf_read_param empty_param empty_param empty_param (hdr bytes) = Undef /\ length bytes = 5%nat.
Proof. exact (ex_intro _ _ (conj too_far eq_refl)). Qed.
Print Assumptions C58_distance_refuted.
Theorem C58_truncated_refuted : exists bytes, alf_read_param empty_param empty_param empty_param (hdr bytes) = Undef /\ length bytes = 3%nat.
Proof. exact (ex_intro _ _ (conj cut_short eq_refl)). Qed.
Print Assumptions C58_truncated_refuted.
Example C58_nonvacuous :
  let p := AlfPic (Some (AlfSet [1; -2; 3; 0; 0; 5; 6; 7; 8] [(3, [0; 0; 0; 0; 0; 0; 0; 0; 9]); (11, [-1; 0; 0; 0; 0; 0; 0; 0; 0])])) None (Some [0; 1; 0; -1; 0; 1; 0; -1; 2]) in
  alf_pic_ok p /\ filter_of [1; -2; 3; 0; 0; 5; 6; 7; 8] [(3, [0; 0; 0; 0; 0; 0; 0; 0; 9]); (11, [-1; 0; 0; 0; 0; 0; 0; 0; 0])] 10 = [0; 0; 0; 0; 0; 0; 0; 0; 9].
Proof.
  cbv zeta. split; [|reflexivity]. split; [|split; [exact Logic.I|]]; cbn [whenp ap_y ap_v].
  - split; [reflexivity|]. split; [repeat constructor; lia|]. cbn [as_rest rest_ok]. repeat split; try lia; repeat constructor; lia.
  - split; [reflexivity|]. repeat constructor; lia.
Qed.

(** C64: deblocking, offset and adaptive loop filter row by row, in both orders, leave every
    sample as the three filters applied one after the other to the whole plane. *)
Theorem C64_serial : forall g sp ap up rec dec0 a b x y,
  sizes_ok (q_lv g) (q_pw g) (q_ph g) (q_wl g) (q_hl g) -> q_cross g = true -> q_gdepth g = q_depth g -> 5 <= q_depth g ->
  plane_w g + 16 <= q_stride g -> (forall lx ly ty off, sp lx ly = Some (ty, off) -> 0 <= ty <= 4) ->
  row_local (plane_w g) (plane_h g) (lcu_lines g) (q_base g) (q_stride g) rec ->
  0 <= x < plane_w g -> 0 <= y < plane_h g ->
  snd (chain_serial g sp ap up rec (a, b, dec0)) (q_base g + y * q_stride g + x) =
  plane_alf (plane_w g) (plane_h g) (lcu_lines g) (q_wl g) (q_hl g) (q_depth g) ap
    (plane_offset (plane_w g) (plane_h g) (lcu_lines g) (q_wl g) (q_hl g) (q_depth g) sp
       (fun x y => deblocked rec dec0 (Z.to_nat (q_hl g)) (q_base g + y * q_stride g + x))) x y.
Proof. intros. apply chain_serial_correct; assumption. Qed.
Print Assumptions C64_serial.
Theorem C64_delayed : forall g sp ap up rec dec0 a b x y,
  sizes_ok (q_lv g) (q_pw g) (q_ph g) (q_wl g) (q_hl g) -> q_cross g = true -> q_gdepth g = q_depth g -> 5 <= q_depth g ->
  plane_w g + 16 <= q_stride g -> (forall lx ly ty off, sp lx ly = Some (ty, off) -> 0 <= ty <= 4) ->
  row_local (plane_w g) (plane_h g) (lcu_lines g) (q_base g) (q_stride g) rec ->
  2 <= q_hl g -> 0 <= x < plane_w g -> 0 <= y < plane_h g ->
  snd (chain_delayed g sp ap up rec (a, b, dec0)) (q_base g + y * q_stride g + x) =
  plane_alf (plane_w g) (plane_h g) (lcu_lines g) (q_wl g) (q_hl g) (q_depth g) ap
    (plane_offset (plane_w g) (plane_h g) (lcu_lines g) (q_wl g) (q_hl g) (q_depth g) sp
       (fun x y => deblocked rec dec0 (Z.to_nat (q_hl g)) (q_base g + y * q_stride g + x))) x y.
Proof. intros. apply chain_delayed_correct; assumption. Qed.
Print Assumptions C64_delayed.
Theorem C64_one_row_refuted : exists g ap sp up rec d0 a b x y,
  sizes_ok (q_lv g) (q_pw g) (q_ph g) (q_wl g) (q_hl g) /\ q_cross g = true /\ plane_w g + 16 <= q_stride g /\ q_depth g = 8 /\
  (forall lx ly, sp lx ly = None) /\
  row_local (plane_w g) (plane_h g) (lcu_lines g) (q_base g) (q_stride g) rec /\
  0 <= x < plane_w g /\ 0 <= y < plane_h g /\
  snd (chain_delayed g sp ap up rec (a, b, d0)) (q_base g + y * q_stride g + x) <>
  snd (chain_serial g sp ap up rec (a, b, d0)) (q_base g + y * q_stride g + x).
Proof. exact alf_one_row_skipped. Qed.
Print Assumptions C64_one_row_refuted.
(** With filtering across slices off, the four lines above a slice boundary belong to no LCU
    row: they are never filtered although the filter is on everywhere. *)
Theorem C64_slices_refuted : exists g ap sp up rec d0 a b x y,
  sizes_ok (q_lv g) (q_pw g) (q_ph g) (q_wl g) (q_hl g) /\ q_cross g = false /\ plane_w g + 16 <= q_stride g /\ q_depth g = 8 /\
  (forall lx ly, ap lx ly <> None) /\ (forall lx ly, sp lx ly = None) /\
  row_local (plane_w g) (plane_h g) (lcu_lines g) (q_base g) (q_stride g) rec /\
  0 <= x < plane_w g /\ 0 <= y < plane_h g /\
  (forall lx ly, 0 <= lx < q_wl g -> 0 <= ly < q_hl g -> ~ alf_rows g lx ly y) /\
  snd (chain_serial g sp ap up rec (a, b, d0)) (q_base g + y * q_stride g + x) = d0 (q_base g + y * q_stride g + x) /\
  snd (chain_serial g sp ap up rec (a, b, d0)) (q_base g + (y - 1) * q_stride g + x) <> d0 (q_base g + (y - 1) * q_stride g + x).
Proof. exact alf_gap. Qed.
Print Assumptions C64_slices_refuted.
Example C64_nonvacuous :
  let g := Geom true 4 24 40 2 3 true (fun _ _ => 0) 8 40 8 8 in
  let rec := fun ly m q => if (ly * 16 - 3 <=? (q - 8) / 40) && ((q - 8) / 40 <? ly * 16 + 16) then m q / 2 + 7 * (q mod 5) else m q in
  let sp := fun lx ly => if lx =? ly then Some (1, fun e => nth (Z.to_nat e) [4; 1; 0; -1; -4] 0) else None in
  let ap := fun lx ly => if ly =? 1 then Some [1; 2; -3; 4; 0; 1; 1; 2; 90] else None in
  sizes_ok (q_lv g) (q_pw g) (q_ph g) (q_wl g) (q_hl g) /\ plane_w g + 16 <= q_stride g /\
  row_local (plane_w g) (plane_h g) (lcu_lines g) (q_base g) (q_stride g) rec /\
  snd (chain_serial g sp ap (fun _ => 0) rec (fun _ => 0, fun _ => 0, fun _ => 100)) (8 + 20 * 40 + 4) <> deblocked rec (fun _ => 100) 3 (8 + 20 * 40 + 4).
Proof.
  cbv zeta. cbn [q_lv q_pw q_ph q_wl q_hl q_base q_stride]. change (plane_w _) with 24. change (plane_h _) with 40. change (lcu_lines _) with 16.
  split; [unfold sizes_ok; cbn; lia|]. split; [lia|]. split; [|vm_compute; discriminate].
  split.
  - intros ly m x y Hx Hy L. replace (8 + y * 40 + x - 8) with (x + y * 40) by lia. rewrite Z.div_add, Z.div_small by lia.
    replace (ly * 16 - 3 <=? 0 + y) with false by (symmetry; apply Z.leb_gt; lia). reflexivity.
  - intros ly m m' E x y Hx Hy L. rewrite E by assumption. reflexivity.
Qed.
