(** C28, C29 and C30: frame buffers, padding and output pictures. *)
From Coq Require Import ZArith List Bool Lia.
From Verif Require Import CBase MemModel QpModel SaoModel AlfModel AlfSpec FrmModel FrmSpec FrmProofs FrmProofsB FrmProofsC.
Import ListNotations.
Open Scope Z_scope.

(** C28: for every accepted size a frame can be laid out without integer overflow; its handle, its
    three planes with their borders and its arrays are disjoint, aligned and inside the size
    that is requested for it. *)
Theorem C28_frame : forall P base w h fmt extra, plat_ok P -> frame_size_ok w h fmt ->
  exists l s, frame_new P base w h fmt extra = Done l /\ frame_get_size P w h fmt extra = Done s /\
    carved base (base + s) (frame_areas P w h fmt extra l) /\ frame_aligned P w l.
Proof.
  intros P base w h fmt extra HP HS. destruct (frame_new_ok P base w h fmt extra HP HS) as (l & s & E & E' & C & L & _ & A).
  exists l, s. split; [exact E|]. split; [exact E'|]. split; [|exact A]. apply chain_carved. eapply chain_weaken; [| |exact C]; lia.
Qed.
Print Assumptions C28_frame.

(** C28: the decoded-picture buffer: the pointer table and all pieces of all its frames. *)
Theorem C28_dpb : forall P base n w h fmt, plat_ok P -> frame_size_ok w h fmt ->
  exists size fs, create_dpb P base n w h fmt = Done (size, fs) /\ length fs = n /\
    carved base (base + size) ((base, Z.of_nat n * sz_ptr P) :: flat_map (frame_areas P w h fmt true) fs) /\
    Forall (frame_aligned P w) fs.
Proof. exact create_dpb_ok. Qed.
Print Assumptions C28_dpb.

(** C28: the extra buffer of a decoder. If it is accepted, its twelve arrays and all pieces of its two
    to four frames are disjoint and inside; it is accepted whenever the size is below 2^31. *)
Theorem C28_extra : forall P base ab w h fmt lv alf sao s1 s0, plat_ok P -> frame_size_ok w h fmt -> 0 <= ab -> 0 <= lv ->
  frame_get_size P w h fmt true = Done s1 -> frame_get_size P w h fmt false = Done s0 ->
  let size := extra_size P ab w h lv s1 s0 alf sao in
  exists arrays fs1 fs2,
    (size <= 2147483647 -> alloc_extra P base ab w h fmt lv alf sao = Done (size, arrays, fs1 ++ fs2)) /\
    (forall r, alloc_extra P base ab w h fmt lv alf sao = Done r -> r = (size, arrays, fs1 ++ fs2)) /\
    map snd arrays = extra_bytes P ab w h lv /\ length fs1 = 2%nat /\
    length fs2 = ((if alf then 1 else 0) + (if sao then 1 else 0))%nat /\
    carved base (base + size) (arrays ++ flat_map (frame_areas P w h fmt true) fs1 ++ flat_map (frame_areas P w h fmt false) fs2).
Proof. exact alloc_extra_ok. Qed.
Print Assumptions C28_extra.

Definition linux64 : plat := Plat 1 304 48 2 64 120 8.
Example C28_nonvacuous : plat_ok linux64 /\ frame_size_ok 1920 1088 1 /\
  (exists l, frame_new linux64 4096 1920 1088 1 true = Done l /\ frame_aligned linux64 1920 l /\ g_sl (l_geo l) = 2080).
Proof.
  assert (HP : plat_ok linux64) by (unfold plat_ok; cbn; lia).
  assert (HS : frame_size_ok 1920 1088 1) by (unfold frame_size_ok; repeat split; try lia; try reflexivity; right; reflexivity).
  split; [exact HP|]. split; [exact HS|].
  destruct (C28_frame linux64 4096 1920 1088 1 true HP HS) as (l & s & E & _ & _ & A). exists l. split; [exact E|]. split; [exact A|].
  vm_compute in E. injection E as <-. reflexivity.
Qed.

(** C28: the largest pictures a sequence header can describe cannot be decoded: the check at the end
    of the allocation converts the size to [int]. *)
Theorem C28_extra_refuted : exists P base ab w h fmt lv, plat_ok P /\ frame_size_ok w h fmt /\ 0 <= ab /\
  alloc_extra P base ab w h fmt lv true true = Fail.
Proof.
  exists linux64, 4096, 65536, 16384, 16384, 1, 6. split; [unfold plat_ok; cbn; lia|].
  split; [unfold frame_size_ok; repeat split; try lia; try reflexivity; right; reflexivity|]. split; [lia|]. vm_compute. reflexivity.
Qed.
Print Assumptions C28_extra_refuted.

(** C29: rows are decoded, filtered and padded one after the other. Whatever the decoding of a row does
    to samples of the plane from four lines above the row downwards, after the last row
    every sample up to [n] outside equals the nearest sample of the plane. *)
Theorem C29_extended : forall base stride w n, 0 <= n -> 1 <= w -> w + 2 * n <= stride ->
  forall (chroma : bool) lines lv nl, n = (if chroma then 40 else 80) -> 4 <= lv <= 6 -> 1 <= lines -> 1 <= nl ->
  (nl - 1) * 2 ^ lv < lines * (if chroma then 2 else 1) <= nl * 2 ^ lv ->
  forall (f : Z -> mem -> mem) m,
  (forall ly, 0 <= ly < nl -> writes_below base stride w lines (first_line chroma lv ly) (f ly)) ->
  extended base stride w lines n (floop 0 nl (fun ly m => pad_line_lcu chroma base stride w lines lv nl ly (f ly m)) m).
Proof. exact pad_run. Qed.
Print Assumptions C29_extended.

(** C29: padding a row does not change any sample of the plane, and writes nothing outside the plane
    with its border (which C28 shows to be inside the allocation). *)
Theorem C29_inside : forall base stride w n, 0 <= n -> 1 <= w -> w + 2 * n <= stride ->
  forall (chroma : bool) lines lv nl, n = (if chroma then 40 else 80) -> 4 <= lv <= 6 -> 1 <= lines -> 1 <= nl ->
  (nl - 1) * 2 ^ lv < lines * (if chroma then 2 else 1) <= nl * 2 ^ lv ->
  forall ly m, 0 <= ly < nl ->
  (forall x y, 0 <= x < w -> 0 <= y < lines ->
     pad_line_lcu chroma base stride w lines lv nl ly m (at_ base stride x y) = m (at_ base stride x y)) /\
  (forall q, q < at_ base stride (- n) (- n) \/ at_ base stride (- n) (lines + n) <= q ->
     pad_line_lcu chroma base stride w lines lv nl ly m q = m q).
Proof.
  intros base stride w n H1 H2 H3 chroma lines lv nl H4 H5 H6 H7 H8 ly m Hl. split.
  - intros x y X Y. eapply pad_call_inside; eassumption.
  - intros q Q. eapply pad_call_area; eassumption.
Qed.
Print Assumptions C29_inside.

(** A 24 x 40 plane in LCUs of 16, each row writing its own lines. *)
Example C29_nonvacuous :
  let f := fun ly (m : mem) p => if (16 * ly * 200 <=? p - 20000) && (p - 20000 <? 40 * 200) && ((p - 20000) mod 200 <? 24) then p mod 251 else m p in
  (forall ly, 0 <= ly < 3 -> writes_below 20000 200 24 40 (first_line false 4 ly) (f ly)) /\
  floop 0 3 (fun ly m => pad_line_lcu false 20000 200 24 40 4 3 ly (f ly m)) (fun _ => 0) (at_ 20000 200 (-7) 50) = (at_ 20000 200 0 39) mod 251.
Proof.
  intros f. split.
  - intros ly Hly m p H. unfold f.
    destruct (Z.leb_spec (16 * ly * 200) (p - 20000)) as [A|A]; [|reflexivity].
    destruct (Z.ltb_spec (p - 20000) (40 * 200)) as [B|B]; [|reflexivity].
    destruct (Z.ltb_spec ((p - 20000) mod 200) 24) as [C|C]; [|reflexivity].
    exfalso. apply (H ((p - 20000) mod 200) ((p - 20000) / 200)).
    + split; [apply Z.mod_pos_bound; lia|exact C].
    + split.
      * unfold first_line. destruct (Z.eqb_spec ly 0) as [->|]; [apply Z.div_pos; lia|]. change (2 ^ 4) with 16. rewrite Z.div_1_r.
        assert (ly * 16 <= (p - 20000) / 200) by (apply Z.div_le_lower_bound; lia). lia.
      * apply Z.div_lt_upper_bound; lia.
    + unfold at_. pose proof (Z.div_mod (p - 20000) 200). lia.
  - vm_compute. reflexivity.
Qed.

(** C30: at equal depth a delivered picture shows the decoded samples of the display area of every
    plane. *)
Theorem C30_same_depth : forall pelb p f st i x y,
  (pelb = 1 /\ f_depth f = 8 \/ pelb = 2 /\ (f_depth f = 8 \/ f_depth f = 10 \/ f_depth f = 12)) ->
  f_out f = f_depth f -> pool_pic p -> o_buf p <> Frame (f_id f) -> in_plane f p i x y ->
  0 <= decoded st f i x y < 2 ^ f_depth f ->
  shown (snd (write_frame pelb p f st)) (fst (write_frame pelb p f st)) i x y = decoded st f i x y.
Proof. exact write_same_depth. Qed.
Print Assumptions C30_same_depth.

(** C30: a reduced sample is the rounded one. Missing: the brightest samples, see
    [C30_white_refuted]. *)
Theorem C30_reduced_partial : forall pelb p f st i x y, (pelb = 1 \/ pelb = 2) -> (f_depth f = 10 \/ f_depth f = 12) -> f_out f = 8 ->
  pool_pic p -> o_buf p <> Frame (f_id f) -> in_plane f p i x y ->
  0 <= decoded st f i x y < 2 ^ f_depth f - 2 ^ (f_depth f - 8 - 1) ->
  shown (snd (write_frame pelb p f st)) (fst (write_frame pelb p f st)) i x y = reduced (f_depth f - 8) (decoded st f i x y).
Proof. exact write_reduced. Qed.
Print Assumptions C30_reduced_partial.

Definition a_pic : opic := Opic 3 1 8 0 None Own (fun _ => 0) (fun i => i * 1000) 0 0 0 0 0 (fun i => if i =? 0 then 32 else 16) (fun i => if i =? 0 then 16 else 8).
Definition a_frame (out depth : Z) : frm := Frm 5 1 out depth 0 1 30 900 890 7 (fun _ => 224) (fun _ => 10000).
Definition a_store (v : Z) : store := fun b _ => match b with Own => fun _ => 77 | Frame _ => fun q => v end.
Example C30_nonvacuous : pool_pic a_pic /\ in_plane (a_frame 8 10) a_pic 2 15 7 /\
  shown (snd (write_frame 2 a_pic (a_frame 8 10) (a_store 514))) (fst (write_frame 2 a_pic (a_frame 8 10) (a_store 514))) 2 15 7 = 129 /\
  shown (snd (write_frame 2 a_pic (a_frame 10 10) (a_store 514))) (fst (write_frame 2 a_pic (a_frame 10 10) (a_store 514))) 2 15 7 = 514.
Proof.
  split; [unfold pool_pic; cbn; lia|]. split; [unfold in_plane; cbn; lia|]. split; vm_compute; reflexivity.
Qed.

(** C30: type, quantiser, time stamps and display index are those of the decoded picture, so are depth, number of
    planes and the error flag; the picture size is not touched. *)
Theorem C30_properties : forall pelb p f st, let p' := fst (write_frame pelb p f st) in
  o_type p' = f_type f /\ o_qp p' = f_qp f /\ o_pts p' = f_pts f /\ o_dts p' = f_dts f /\ o_poc p' = f_poc f /\
  o_err p' = f_err f /\ o_depth p' = f_out f /\ o_planes p' = (if f_fmt f =? 0 then 1 else 3) /\ o_w p' = o_w p /\ o_h p' = o_h p.
Proof. intros. repeat split. Qed.
Print Assumptions C30_properties.

(** C30: writing a picture that has its own memory changes no decoded frame. *)
Theorem C30_frames_kept : forall pelb p f st k i q, o_buf p = Own -> snd (write_frame pelb p f st) (Frame k) i q = st (Frame k) i q.
Proof. exact write_frames_kept. Qed.
Print Assumptions C30_frames_kept.

(** C30: the full claim is false: white becomes black when ten bits are reduced to eight. *)
Theorem C30_white_refuted : exists p f st, pool_pic p /\ o_buf p = Own /\ in_plane f p 0 0 0 /\ f_depth f = 10 /\ f_out f = 8 /\
  decoded st f 0 0 0 = 1023 /\ shown (snd (write_frame 2 p f st)) (fst (write_frame 2 p f st)) 0 0 0 = 0 /\ reduced 2 1023 = 255.
Proof.
  exists a_pic, (a_frame 8 10), (a_store 1023). split; [unfold pool_pic; cbn; lia|]. split; [reflexivity|].
  split; [unfold in_plane; cbn; lia|]. repeat split; vm_compute; reflexivity.
Qed.
Print Assumptions C30_white_refuted.

(** C30: eight coded bits with a sample precision of ten (a Main-10 header may say so): nothing
    is written, the picture is delivered with old contents and claims two bytes per sample. *)
Theorem C30_not_written_refuted : exists pelb p f st, pool_pic p /\ o_buf p = Own /\ f_depth f = 8 /\ f_out f = 10 /\
  o_bytes (fst (write_frame pelb p f st)) = 2 /\ o_buf (fst (write_frame pelb p f st)) = Own /\
  forall i q, snd (write_frame pelb p f st) Own i q = st Own i q.
Proof.
  exists 1, a_pic, (a_frame 10 8), (a_store 9). split; [unfold pool_pic; cbn; lia|]. repeat split.
Qed.
Print Assumptions C30_not_written_refuted.

(** C30: a recycled picture keeps the plane pointers of the frame it showed last; a later copy into it
    overwrites that frame. *)
Theorem C30_recycled_refuted : exists p f g st q, pool_pic p /\ o_buf p = Own /\ f_id f <> f_id g /\
  let r := write_frame 2 p f st in snd (write_frame 2 (fst r) g (snd r)) (Frame (f_id f)) 0 q <> snd r (Frame (f_id f)) 0 q.
Proof.
  exists a_pic, (a_frame 10 10), (Frm 6 1 8 10 0 1 30 900 890 7 (fun _ => 224) (fun _ => 10000)), (a_store 514), 10000.
  split; [unfold pool_pic; cbn; lia|]. split; [reflexivity|]. split; [discriminate|]. vm_compute. discriminate.
Qed.
Print Assumptions C30_recycled_refuted.
