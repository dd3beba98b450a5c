(** C101: the intra predictors with vector instructions. *)
From Coq Require Import ZArith List Bool Lia.
From Verif Require Import CBase UtilModel MemModel IprModel IprSpec IprProofsH IprProps VpModel VpModelE VpModelF VpModelG VpModelH VpSpec VpProofsF.
Import ListNotations.
Open Scope Z_scope.
Strategy 1000 [predict run].

(** Each predictor of the SSE table, on every shape of block, writes the block of the rule and
    nothing else; it reads the border between [first] and [last] only. *)
Theorem C101_sse lo hi e j mode f d st w h top left old :
  In (mode, f) sse_table -> intra_shape w h -> w <= st ->
  lo <= first w h -> last false mode w h <= hi -> samples lo hi e -> repeats e w h (reach w h) (reach h w) ->
  exists new, predict lo hi e j f d st w h old = Some new /\ predicts w h d st old new (rule 8 e mode w h top left).
Proof.
  intros Hi Sh. exact (shape_sound false f mode lo hi e j d st w h top left old (proj1 (sse_mode _ _ Hi)) (sse_in _ _ _ _ Hi Sh) Sh).
Qed.
Print Assumptions C101_sse.
(** Each predictor of the AVX2 table, unless it leaves its arrays; modes 8 and 32 also write
    to the four rows below a block of four rows. *)
Theorem C101_avx2 lo hi e j mode f d st w h top left old :
  In (mode, f) avx_table -> intra_shape w h -> leaves true mode w h = false -> w <= st ->
  lo <= first w h -> last true mode w h <= hi -> samples lo hi e -> repeats e w h (reach w h) (reach h w) ->
  exists new, predict lo hi e j f d st w h old = Some new /\ predicts_above w h (rows true mode h) d st old new (rule 8 e mode w h top left).
Proof.
  intros Hi Sh Hl. exact (shape_sound true f mode lo hi e j d st w h top left old (proj1 (avx_mode _ _ Hi)) (avx_in _ _ _ _ Hi Sh Hl) Sh).
Qed.
Print Assumptions C101_avx2.
Example C101_case : In (22, VpModelD.k_ang_xy_22_sse128) sse_table /\ intra_shape 16 4 /\ 16 <= 64 /\ samples (-255) 256 (border (ramp 16 4) 0) /\
  repeats (border (ramp 16 4) 0) 16 4 (reach 16 4) (reach 4 16) /\ first 16 4 = -255 /\ last false 22 16 4 = 256 /\
  rule 8 (border (ramp 16 4) 0) 22 16 4 true true 5 1 = 11 /\ leaves true 22 16 4 = false /\ rows true 22 4 = 4.
Proof.
  split; [unfold sse_table, sse_xy; do 2 (apply in_or_app; right); cbn [In]; auto 10|].
  split; [unfold intra_shape; cbn [In]; auto 10|]. split; [lia|].
  split; [intros k _; unfold border, ramp; rewrite Z.add_0_l; destruct (Z.leb_spec 0 k); lia|].
  split; [apply ramp_repeats; lia|]. repeat split.
Qed.
(** The modes in the tables. *)
Example C101_modes : map fst sse_table = map fst avx_table /\
  map fst sse_table = [3; 4; 5; 6; 8; 10; 12; 24; 25; 26; 28; 30; 31; 32; 13; 14; 16; 18; 20; 22; 23].
Proof. split; reflexivity. Qed.

(** The C functions give the same picture. *)
Theorem C101_sse_equals_c lo hi src s junk j mode f d st w h top left old :
  In (mode, f) sse_table -> intra_shape w h -> w <= st ->
  lo <= first w h -> last false mode w h <= hi -> samples lo hi (border src s) -> repeats (border src s) w h (reach w h) (reach h w) ->
  exists new, predict lo hi (border src s) j f d st w h old = Some new /\
    forall q, new q = intra_pred 8 8 junk src s d st mode w h top left old q.
Proof.
  intros Hi Sh Hst Hlo Hhi He Hr. destruct (C101_sse lo hi (border src s) j mode f d st w h top left old Hi Sh Hst Hlo Hhi He Hr) as (new & A & B).
  exists new. split; [exact A|]. pose proof (sse_mode _ _ Hi) as Hm. destruct (reach_inside false mode w h Sh) as [R1 R2].
  apply (predicts_same w h d st old new _ _ B).
  apply (C68_all_modes_follow_the_rule 8 8 junk src s d st mode w h top left old); try assumption; try lia.
  intros k Hk. change (2 ^ 8 - 1) with 255. apply He. lia.
Qed.
Print Assumptions C101_sse_equals_c.
Theorem C101_avx2_equals_c lo hi src s junk j mode f d st w h top left old :
  In (mode, f) avx_table -> intra_shape w h -> leaves true mode w h = false -> ~ (h = 4 /\ (mode = 8 \/ mode = 32)) -> w <= st ->
  lo <= first w h -> last true mode w h <= hi -> samples lo hi (border src s) -> repeats (border src s) w h (reach w h) (reach h w) ->
  exists new, predict lo hi (border src s) j f d st w h old = Some new /\
    forall q, new q = intra_pred 8 8 junk src s d st mode w h top left old q.
Proof.
  intros Hi Sh Hl H4 Hst Hlo Hhi He Hr. destruct (C101_avx2 lo hi (border src s) j mode f d st w h top left old Hi Sh Hl Hst Hlo Hhi He Hr) as (new & A & B).
  exists new. split; [exact A|]. pose proof (avx_mode _ _ Hi) as Hm. destruct (reach_inside true mode w h Sh) as [R1 R2].
  assert (Er : rows true mode h = h).
  { unfold rows. destruct (Z.eqb_spec h 4) as [Eh|]; [|reflexivity]. destruct (Z.eqb_spec mode 8) as [E8|]; [exfalso; apply H4; auto|].
    destruct (Z.eqb_spec mode 32) as [E32|]; [exfalso; apply H4; auto|reflexivity]. }
  rewrite Er in B. apply (predicts_same w h d st old new _ _ B).
  apply (C68_all_modes_follow_the_rule 8 8 junk src s d st mode w h top left old); try assumption; try lia.
  intros k Hk. change (2 ^ 8 - 1) with 255. apply He. lia.
Qed.
Print Assumptions C101_avx2_equals_c.

(** Luma: the buffer has entries -255 to 256 (intra.cc:2510).  All modes keep within it but mode
    3 of AVX2 on blocks of 64x64, which reads past it for every border. *)
Theorem C101_luma_buffer avx mode w h : intra_shape w h -> ~ (avx = true /\ mode = 3 /\ w = 64) ->
  -255 <= first w h /\ last avx mode w h <= 256.
Proof. exact (luma_inside avx mode w h). Qed.
Print Assumptions C101_luma_buffer.
Theorem C101_luma_buffer_refuted e j d st old : predict (-255) 256 e j k_ang_x_3_avx d st 64 64 old = None.
Proof. vm_cast_no_check (@eq_refl (option mem) None). Qed.
Print Assumptions C101_luma_buffer_refuted.
(** Chroma: 256 entries for each component (intra.cc:2543-2544), -127 to 128.  All modes keep
    within them but mode 3 on blocks of 32x32, which reads past them for every border. *)
Theorem C101_chroma_buffer avx mode n : In n [4; 8; 16; 32] -> ~ (mode = 3 /\ n = 32) ->
  -127 <= first n n /\ last avx mode n n <= 128.
Proof. exact (chroma_inside avx mode n). Qed.
Print Assumptions C101_chroma_buffer.
Theorem C101_chroma_buffer_refuted e j d st old :
  predict (-127) 128 e j VpModelB.k_ang_x_3_sse128 d st 32 32 old = None /\ predict (-127) 128 e j k_ang_x_3_avx d st 32 32 old = None.
Proof. split; vm_cast_no_check (@eq_refl (option mem) None). Qed.
Print Assumptions C101_chroma_buffer_refuted.

(** Modes 8 and 32 of AVX2 change a sample below the block. *)
Theorem C101_rows_below_refuted : exists e old,
  samples (-255) 256 e /\ repeats e 4 4 (reach 4 4) (reach 4 4) /\
  (exists new, predict (-255) 256 e (fun _ _ => 0) k_ang_x_8_avx 0 64 4 4 old = Some new /\ new (4 * 64) <> old (4 * 64)) /\
  (exists new, predict (-255) 256 e (fun _ _ => 0) k_ang_y_32_avx 0 64 4 4 old = Some new /\ new (4 * 64) <> old (4 * 64)).
Proof.
  exists (fun _ => 100), (fun _ => 7). split; [intros k _; lia|]. split; [split; reflexivity|].
  split; (eexists; split; [vm_compute; reflexivity|vm_compute; discriminate]).
Qed.
Print Assumptions C101_rows_below_refuted.
(** Mode 16 of AVX2 on blocks of four rows reads in front of its local array, and mode 13 on
    blocks of 32 and more columns behind the table of masks, for every border. *)
Theorem C101_mode16_refuted e j d st old :
  predict (-255) 256 e j k_ang_xy_16_avx d st 4 4 old = None /\ predict (-255) 256 e j k_ang_xy_16_avx d st 16 4 old = None.
Proof. split; vm_cast_no_check (@eq_refl (option mem) None). Qed.
Print Assumptions C101_mode16_refuted.
Theorem C101_mode13_refuted e j d st old :
  predict (-255) 256 e j k_ang_xy_13_avx d st 32 32 old = None /\ predict (-255) 256 e j k_ang_xy_13_avx d st 64 64 old = None /\
  predict (-255) 256 e j k_ang_xy_13_avx d st 32 8 old = None.
Proof. repeat split; vm_cast_no_check (@eq_refl (option mem) None). Qed.
Print Assumptions C101_mode13_refuted.
(** Whatever is read behind the table, mode 13 gives the rule. *)
Theorem C101_mode13_any_mask lo hi e j r d st w h top left old :
  intra_shape w h -> w <= st ->
  lo <= first w h -> last true 13 w h <= hi -> samples lo hi e -> repeats e w h (reach w h) (reach h w) ->
  exists new, predict lo hi e j (k_ang_xy_13_avx_with (map r (seq 16 48))) d st w h old = Some new /\
    predicts w h d st old new (rule 8 e 13 w h top left).
Proof.
  intros Sh. assert (Er : rows true 13 h = h) by (unfold rows; cbn; rewrite andb_false_r; reflexivity).
  pose proof (shape_sound true _ 13 lo hi e j d st w h top left old ltac:(lia) (avx_13_in r w h Sh) Sh) as P. rewrite Er in P. exact P.
Qed.
Print Assumptions C101_mode13_any_mask.
