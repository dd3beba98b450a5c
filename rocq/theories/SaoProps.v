(** Sample adaptive offset: C54, C55, C56, C63. *)
From Coq Require Import ZArith List Bool Lia.
From Verif Require Import CBase MemModel SynModel SynSpec SaoModel SaoSpec SaoProofs SaoProofsB SaoProofsC SaoProofsD SaoProofsE.
Import ListNotations.
Open Scope Z_scope.

(** C54: each edge kernel, for every block, every availability pattern, every stride and
    whatever was on the stack. *)
Theorem C54_edge_0 : forall src pd ds ps ss w h depth av off dst,
  1 <= w -> 1 <= h -> w <= ds -> 0 <= depth ->
  block_becomes w h pd ds dst (eo_0 src pd ds ps ss w h depth av off dst) (edge_result src ps ss w h depth av off 1 0).
Proof. intros. apply eo_0_correct; assumption. Qed.
Print Assumptions C54_edge_0.
Theorem C54_edge_90 : forall src pd ds ps ss w h depth av off dst,
  1 <= w -> 1 <= h -> w <= ds -> 0 <= depth ->
  block_becomes w h pd ds dst (eo_90 src pd ds ps ss w h depth av off dst) (edge_result src ps ss w h depth av off 0 1).
Proof. intros. apply eo_90_correct; assumption. Qed.
Print Assumptions C54_edge_90.
Theorem C54_edge_135 : forall src pd ds ps ss w h depth av off up dst,
  1 <= w -> 2 <= h -> w <= ds -> 0 <= depth -> corners av ->
  block_becomes w h pd ds dst (eo_135 src pd ds ps ss w h depth av off up dst) (edge_result src ps ss w h depth av off (-1) (-1)).
Proof. intros. apply eo_135_correct; assumption. Qed.
Print Assumptions C54_edge_135.
Theorem C54_edge_45 : forall src pd ds ps ss w h depth av off up dst,
  1 <= w -> 2 <= h -> w <= ds -> 0 <= depth -> corners av ->
  block_becomes w h pd ds dst (eo_45 src pd ds ps ss w h depth av off up dst) (edge_result src ps ss w h depth av off 1 (-1)).
Proof. intros. apply eo_45_correct; assumption. Qed.
Print Assumptions C54_edge_45.
(** The regions the decoder forms are at least two samples in each direction and their corner
    flags are as required. *)
Theorem C54_regions : forall lv pw ph wl hl cross sl lx ly, sizes_ok lv pw ph wl hl -> 0 <= lx < wl -> 0 <= ly < hl ->
  let r := sao_region lv pw ph wl hl true cross sl lx ly in
  2 <= g_w r /\ 2 <= g_h r /\ 2 <= c_w r /\ 2 <= c_h r /\ corners (g_av r).
Proof. exact region_fit. Qed.
Print Assumptions C54_regions.
Example C54_nonvacuous :
  let src := fun q => nth (Z.to_nat q) [10; 20; 10; 30; 5; 5; 40; 40; 40] 0 in
  let av := Avail false false true true false false false false in
  map (fun q => eo_0 src 0 3 0 3 3 3 8 (Avail true true false false false false false false) (fun e => nth (Z.to_nat e) [4; 1; 0; -1; -4] 0) src q) [0; 1; 2; 3; 4; 5]
  = [10; 16; 10; 30; 6; 5].
Proof. reflexivity. Qed.

(** C55: for every frozen table of slice numbers the regions tile the luma and the chroma
    planes. *)
Theorem C55_tiles_luma : forall lv pw ph wl hl cross sl, sizes_ok lv pw ph wl hl ->
  tiles wl hl pw ph (fun lx ly => in_luma (sao_region lv pw ph wl hl true cross sl lx ly)).
Proof. exact tiles_luma. Qed.
Print Assumptions C55_tiles_luma.
Theorem C55_tiles_chroma : forall lv pw ph wl hl cross sl, sizes_ok lv pw ph wl hl ->
  tiles wl hl (pw / 2) (ph / 2) (fun lx ly => in_chroma (sao_region lv pw ph wl hl true cross sl lx ly)).
Proof. exact tiles_chroma. Qed.
Print Assumptions C55_tiles_chroma.
(** With rows decoded one after the other the table below the current row is still that of
    the previous picture: there are samples in no region at all. *)
Theorem C55_stale_slices_refuted : exists lv pw ph wl hl old new x y,
  sizes_ok lv pw ph wl hl /\ 0 <= x < pw /\ 0 <= y < ph /\
  forall lx ly, 0 <= lx < wl -> 0 <= ly < hl ->
    ~ in_luma (sao_region lv pw ph wl hl true false (seen old new lv ly) lx ly) x y.
Proof. exact stale_gap. Qed.
Print Assumptions C55_stale_slices_refuted.
Example C55_nonvacuous : sizes_ok 6 1920 1088 30 17 /\ sizes_ok 4 24 40 2 3 /\
  let r := sao_region 4 24 40 2 3 true false (fun _ y => y / 4) 1 1 in (g_x r, g_y r, g_w r, g_h r) = (12, 12, 12, 20).
Proof. unfold sizes_ok. cbn. repeat split; lia || reflexivity. Qed.

(** C56: band offset with parameters the parser produces ([band_ok] is what C38 gives). *)
Theorem C56_band : forall p src pd ds ps ss w h depth dst,
  band_ok p -> 8 <= depth -> 0 <= w <= ds -> 0 <= h ->
  (forall x y, 0 <= x < w -> 0 <= y < h -> 0 <= sample src ps ss x y < 2 ^ depth) ->
  let new := bo_block src pd ds ps ss w h depth depth (off_at p) dst in
  (forall x y, 0 <= x < w -> 0 <= y < h ->
     let c := sample src ps ss x y in let band := c / 2 ^ (depth - 5) in
     0 <= band < 32 /\
     new (pd + y * ds + x) = saturate depth (c + off_at p band) /\
     0 <= new (pd + y * ds + x) < 2 ^ depth /\
     (~ In band (bands p) -> new (pd + y * ds + x) = c)) /\
  (forall q, (forall x y, 0 <= x < w -> 0 <= y < h -> q <> pd + y * ds + x) -> new q = dst q).
Proof. exact band_parsed. Qed.
Print Assumptions C56_band.
(** The shift uses a process-wide depth: if a decoder of another depth was opened since,
    the band is wrong and the offset can come from outside the table. *)
Theorem C56_other_depth_refuted : exists depth gdepth c, 8 <= depth /\ 8 <= gdepth /\ 0 <= c < 2 ^ depth /\
  ~ 0 <= Z.shiftr c (gdepth - 5) < 32.
Proof. exists 10, 8, 1023. vm_compute. intuition discriminate. Qed.
Print Assumptions C56_other_depth_refuted.
Example C56_nonvacuous :
  let p := Build_sao_param 2 4 12 20 (repeat 0 12 ++ [3; -2] ++ repeat 0 6 ++ [1; 1] ++ repeat 0 10) in
  band_ok p /\ map (fun q => bo_block (fun q => 90 + 6 * q) 0 4 0 4 4 1 8 8 (off_at p) (fun _ => 0) q) [0; 1; 2; 3] = [90; 99; 105; 106].
Proof.
  split; [|reflexivity]. unfold band_ok. cbn [s_type s_band s_band2 bands].
  split; [reflexivity|]. split; [lia|]. split; [lia|]. split.
  - left. vm_compute. repeat constructor; cbn; intuition discriminate.
  - split.
    + intros i Hi. assert (In (Z.to_nat i) (seq 0 32)) as H by (apply in_seq; lia). unfold off_at. cbn [s_off].
      revert H. generalize (Z.to_nat i). intros n H. cbn in H. repeat (destruct H as [<- | H]; [vm_compute; split; discriminate|]). destruct H.
    + intros i Hi N. assert (In (Z.to_nat i) (seq 0 32)) as H by (apply in_seq; lia). unfold off_at, bands in *. cbn [s_off s_band s_band2] in *.
      rewrite <- (Z2Nat.id i) in N by lia. revert N H. generalize (Z.to_nat i). intros n N H. cbn in H.
      repeat (destruct H as [<- | H]; [try reflexivity; exfalso; apply N; vm_compute; tauto|]). destruct H.
Qed.

(** C63: filtering row by row, interleaved with the reconstruction and deblocking of later
    rows, gives the offset of the completely deblocked plane. [rec] is any reconstruction
    that is local in the stated sense, [tmp0] any first content of the temporary frame. *)
Theorem C63_serial : forall g par up rec dec0 tmp0 x y,
  sizes_ok (q_lv g) (q_pw g) (q_ph g) (q_wl g) (q_hl g) -> q_cross g = true -> q_gdepth g = q_depth g -> 5 <= q_depth g ->
  plane_w g <= q_stride g -> (forall lx ly ty off, par lx ly = Some (ty, off) -> 0 <= ty <= 4) ->
  row_local (plane_w g) (plane_h g) (lcu_lines g) (q_base g) (q_stride g) rec ->
  0 <= x < plane_w g -> 0 <= y < plane_h g ->
  snd (rows_serial g par up rec (tmp0, dec0)) (q_base g + y * q_stride g + x) =
  plane_offset (plane_w g) (plane_h g) (lcu_lines g) (q_wl g) (q_hl g) (q_depth g) par
    (fun x y => deblocked rec dec0 (Z.to_nat (q_hl g)) (q_base g + y * q_stride g + x)) x y.
Proof. intros. apply serial_correct; assumption. Qed.
Print Assumptions C63_serial.
Theorem C63_delayed : forall g par up rec dec0 tmp0 x y,
  sizes_ok (q_lv g) (q_pw g) (q_ph g) (q_wl g) (q_hl g) -> q_cross g = true -> q_gdepth g = q_depth g -> 5 <= q_depth g ->
  plane_w g <= q_stride g -> (forall lx ly ty off, par lx ly = Some (ty, off) -> 0 <= ty <= 4) ->
  row_local (plane_w g) (plane_h g) (lcu_lines g) (q_base g) (q_stride g) rec ->
  2 <= q_hl g -> 0 <= x < plane_w g -> 0 <= y < plane_h g ->
  snd (rows_delayed g par up rec (tmp0, dec0)) (q_base g + y * q_stride g + x) =
  plane_offset (plane_w g) (plane_h g) (lcu_lines g) (q_wl g) (q_hl g) (q_depth g) par
    (fun x y => deblocked rec dec0 (Z.to_nat (q_hl g)) (q_base g + y * q_stride g + x)) x y.
Proof. intros. apply delayed_correct; assumption. Qed.
Print Assumptions C63_delayed.
(** A picture one LCU high comes out differently depending on whether a second thread was
    free: the delayed order never filters it. *)
Theorem C63_one_row_refuted : exists g par up rec dec0 tmp0 x y,
  sizes_ok (q_lv g) (q_pw g) (q_ph g) (q_wl g) (q_hl g) /\ q_cross g = true /\ q_gdepth g = q_depth g /\ q_depth g = 8 /\
  plane_w g <= q_stride g /\ (forall lx ly ty off, par lx ly = Some (ty, off) -> 0 <= ty <= 4) /\
  row_local (plane_w g) (plane_h g) (lcu_lines g) (q_base g) (q_stride g) rec /\
  0 <= x < plane_w g /\ 0 <= y < plane_h g /\
  snd (rows_delayed g par up rec (tmp0, dec0)) (q_base g + y * q_stride g + x) <>
  snd (rows_serial g par up rec (tmp0, dec0)) (q_base g + y * q_stride g + x).
Proof. exact one_row_differs. Qed.
Print Assumptions C63_one_row_refuted.
(** So does a picture with a slice starting in the middle of an LCU row when filtering
    across slices is off, although deblocking does not cross slices either. *)
Theorem C63_slices_refuted : exists g par up dec0 tmp0 x y,
  sizes_ok (q_lv g) (q_pw g) (q_ph g) (q_wl g) (q_hl g) /\ q_cross g = false /\ q_sl g = two_slices /\ q_gdepth g = q_depth g /\ q_depth g = 8 /\
  plane_w g <= q_stride g /\ (forall lx ly ty off, par lx ly = Some (ty, off) -> 0 <= ty <= 4) /\
  row_local (plane_w g) (plane_h g) (lcu_lines g) (q_base g) (q_stride g) rec_top /\
  (forall ly m x y, 0 <= x < plane_w g -> 0 <= y < ly * lcu_lines g ->
     two_slices (x / lcu_lines g * 2) (ly * 2) <> two_slices (x / lcu_lines g * 2) (ly * 2 - 1) ->
     rec_top ly m (q_base g + y * q_stride g + x) = m (q_base g + y * q_stride g + x)) /\
  0 <= x < plane_w g /\ 0 <= y < plane_h g /\
  snd (rows_delayed g par up rec_top (tmp0, dec0)) (q_base g + y * q_stride g + x) <>
  snd (rows_serial g par up rec_top (tmp0, dec0)) (q_base g + y * q_stride g + x).
Proof. exact slices_differ. Qed.
Print Assumptions C63_slices_refuted.
Example C63_nonvacuous :
  let g := Geom true 4 24 40 2 3 true (fun _ _ => 0) 0 24 8 8 in
  let rec := fun ly m q => if (ly * 16 - 3 <=? q / 24) && (q / 24 <? ly * 16 + 16) then m q / 2 + 7 * (q mod 5) else m q in
  let par := fun lx ly => if lx =? ly then Some (1, fun e => nth (Z.to_nat e) [4; 1; 0; -1; -4] 0) else None in
  sizes_ok (q_lv g) (q_pw g) (q_ph g) (q_wl g) (q_hl g) /\ row_local (plane_w g) (plane_h g) (lcu_lines g) (q_base g) (q_stride g) rec /\
  snd (rows_serial g par (fun _ => 0) rec (fun _ => 0, fun _ => 100)) (5 * 24 + 4) <> deblocked rec (fun _ => 100) 3 (5 * 24 + 4).
Proof.
  cbv zeta. cbn [q_lv q_pw q_ph q_wl q_hl q_base q_stride]. change (plane_w _) with 24. change (plane_h _) with 40. change (lcu_lines _) with 16.
  split; [unfold sizes_ok; cbn; lia|]. split; [|vm_compute; discriminate].
  split.
  - intros ly m x y Hx Hy L. replace (0 + y * 24 + x) with (x + y * 24) by lia. rewrite Z.div_add, Z.div_small by lia.
    replace (ly * 16 - 3 <=? 0 + y) with false by (symmetry; apply Z.leb_gt; lia). reflexivity.
  - intros ly m m' E x y Hx Hy L. rewrite E by assumption. reflexivity.
Qed.
