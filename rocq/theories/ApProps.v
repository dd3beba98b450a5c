(** Properties C105 and C106: packets and output file of the program. *)
From Coq Require Import ZArith List Bool Lia.
From Verif Require Import CBase CBaseProofs VlcModel HdrModel HdrSpec HdrProofs ApModel ApSpec ApProofs ApProofsB.
Import ListNotations.
Open Scope Z_scope.

(** C105: of every file that is not empty the program sends all bytes once and in order, in packets cut before start codes, the time
    stamps counting up and down; if the decoder refuses a packet, that is the last one sent. *)
Theorem C105_packets : forall file, file <> [] ->
  exists ps, cut file (map k_bytes ps) /\
    (forall j p, nth_error ps j = Some p -> k_pts p = Z.of_nat j /\ k_dts p = - Z.of_nat j) /\
    sent (fun _ => false) file = Done ps /\
    forall error, exists k, (0 < k <= length ps)%nat /\ sent error file = Done (firstn k ps) /\
      (forall j, (S j < k)%nat -> error (Z.of_nat j) = false) /\ (error (Z.of_nat (k - 1)) = true \/ k = length ps).
Proof. exact sent_all. Qed.
Print Assumptions C105_packets.
(** C105: there is only one such way to cut a file. *)
Theorem C105_cut_unique : forall ps qs file, cut file ps -> cut file qs -> ps = qs.
Proof. exact cut_unique. Qed.
Print Assumptions C105_cut_unique.
(** C105: a proper stream is sent unit by unit, and the number of frames shown is the number of its pictures. *)
Theorem C105_stream : forall us, us <> [] -> proper us -> exists ps, sent (fun _ => false) (stream us) = Done ps /\ map k_bytes ps = map unit_bytes us.
Proof. exact stream_sent. Qed.
Print Assumptions C105_stream.
Theorem C105_count : forall us, proper us -> count_frames (stream us) = Done (pictures us).
Proof. exact count_is. Qed.
Print Assumptions C105_count.
(** C105: counting ends for every file, and every picture counted has four bytes of its own. *)
Theorem C105_count_ends : forall file, exists n, count_frames file = Done n /\ 0 <= n /\ 4 * n <= Z.of_nat (length file) + 1.
Proof.
  intros file. destruct (count_done (S (length file)) file (Z.of_nat (length file)) 0 (S (S (length file)))) as (n & E & A & B); [lia|lia|lia|].
  exists n. split; [exact E|]. lia.
Qed.
Print Assumptions C105_count_ends.

Definition ex_units : list (Z * list Z) := [(176, [32; 34; 0; 0; 2]); (179, [1; 2; 0]); (0, [9; 0; 0]); (182, [5]); (0, [7; 7]); (177, [])].
Example C105_nonvacuous : proper ex_units /\ count_frames (stream ex_units) = Done 2 /\
  (exists ps, sent (fun _ => false) (stream ex_units) = Done ps /\ map (fun p => length (k_bytes p)) ps = [9; 7; 7; 5; 6; 4]%nat /\ map k_dts ps = [0; -1; -2; -3; -4; -5]) /\
  (exists ps, sent (fun i => 2 <=? i) (stream ex_units) = Done ps /\ length ps = 3%nat) /\
  code_at (stream ex_units) 9 /\ count_frames [0; 0; 1; 179; 0; 0; 1; 179; 0; 0] = Done 2.
Proof.
  split; [|split; [reflexivity|split; [eexists; repeat split; reflexivity|split; [eexists; repeat split; reflexivity|split; [do 2 eexists; reflexivity|reflexivity]]]]].
  assert (D : forall p, forallb (fun i => negb (at_prefix (skipn i (p ++ [0; 0; 1])))) (seq 0 (length p)) = true -> clean p).
  { intros p H i Hi. rewrite forallb_forall in H. specialize (H i). rewrite in_seq, negb_true_iff in H. rewrite <- at_prefix_iff, H by lia. discriminate. }
  repeat constructor; apply D; reflexivity.
Qed.

(** C106: the raw output file is the pictures one behind the other: its length is the sum of their sizes, and every byte of every sample
    of every plane stands where the sizes before it put it. *)
Theorem C106_raw : forall l before pic after, Forall good_picture (frames l) -> frames l = before ++ pic :: after ->
  exists file, output_file false l = Done file /\ Z.of_nat (length file) = total (frames l) /\
  (forall x y b, 0 <= x < pl_w (pc_y pic) -> 0 <= y < pl_h (pc_y pic) -> 0 <= b < pc_bytes pic ->
     nth (Z.to_nat (total before + (y * pl_w (pc_y pic) + x) * pc_bytes pic + b)) file 0 =
     pl_mem (pc_y pic) (pl_at (pc_y pic) + y * pl_stride (pc_y pic) + x * pc_bytes pic + b)) /\
  (pc_num pic = 3 -> forall x y b, 0 <= x < pl_w (pc_u pic) -> 0 <= y < pl_h (pc_u pic) -> 0 <= b < pc_bytes pic ->
     nth (Z.to_nat (total before + pc_bytes pic * samples (pc_y pic) + (y * pl_w (pc_u pic) + x) * pc_bytes pic + b)) file 0 =
     pl_mem (pc_u pic) (pl_at (pc_u pic) + y * pl_stride (pc_u pic) + x * pc_bytes pic + b)) /\
  (pc_num pic = 3 -> forall x y b, 0 <= x < pl_w (pc_v pic) -> 0 <= y < pl_h (pc_v pic) -> 0 <= b < pc_bytes pic ->
     nth (Z.to_nat (total before + pc_bytes pic * (samples (pc_y pic) + samples (pc_u pic)) + (y * pl_w (pc_v pic) + x) * pc_bytes pic + b)) file 0 =
     pl_mem (pc_v pic) (pl_at (pc_v pic) + y * pl_stride (pc_v pic) + x * pc_bytes pic + b)).
Proof. exact raw_place. Qed.
Print Assumptions C106_raw.
(** C106: if the decoder returns a header first, the y4m file is one line with size, rate and depth of that header, which fits the
    program's buffer, and the pictures, each behind the word FRAME.  The full claim is for every rate a header can have; the codes
    9 to 13 are refuted below. *)
Theorem C106_y4m_partial : forall h r, 1 <= hd_rate_id h < 9 -> 0 <= hd_w h < 100000 -> 0 <= hd_h h < 100000 -> 0 <= hd_depth h < 100 ->
  good_rates r -> Forall good_picture (frames r) ->
  exists num den t, rate_of (hd_rate_id h) num den /\ y4m_line t (hd_w h) (hd_h h) num den (hd_depth h) /\
    output_file true (GotHeader h :: r) = Done (t ++ flat_map (fun p => [70; 82; 65; 77; 69; 10] ++ picture_bytes p) (frames r)).
Proof. exact y4m_file. Qed.
Print Assumptions C106_y4m_partial.

(** What the decoder reports of a sequence header (davs2.h: davs2_seq_info_t). *)
Definition reported (q : seqh) : header := Header (q_width q) (q_height q) (q_frame_rate_id q) (q_output_depth q).
Definition fast_syn : syn := Syn 432 32 34 1 0 1918 1078 1 1 1 1 9 1000 3 0 0 77 6 None 1 [1;1;1;1;0;1;0;1;1;0] [] 2 1.
(** C106: the header of a sequence with 100 frames a second is accepted by the decoder, but the program looks the rate up behind the end of its table. *)
Theorem C106_rate_refuted : exists y q, syn_fits y /\ legal y /\ meaning y q /\ q_frame_rate_id q = 9 /\ output_file true [GotHeader (reported q)] = Undef.
Proof.
  assert (F: syn_fits fast_syn).
  { unfold syn_fits, fits, zlen; cbn. repeat match goal with |- _ /\ _ => split end; try lia; repeat constructor; cbn; lia. }
  assert (L: legal fast_syn) by (unfold legal, zlen, eff_eprec; cbn; lia).
  exists fast_syn, (built fast_syn). split; [exact F|]. split; [exact L|]. split; [apply built_meaning; assumption|]. split; reflexivity.
Qed.
Print Assumptions C106_rate_refuted.
(** C106: a y4m line announces three planes for pictures of one; and after a second header with another size the line is not written again. *)
Definition tiny (n w : Z) : picture := Picture 1 n (Plane (fun i => i) 0 w w w) (Plane (fun i => i) 50 (w / 2) (w / 2) (w / 2)) (Plane (fun i => i) 90 (w / 2) (w / 2) (w / 2)).
Definition small_head (w : Z) : header := Header w w 3 8.
Theorem C106_planes_refuted : exists h pic t file, output_file true [GotHeader h; GotFrame h pic] = Done file /\ good_picture pic /\
  y4m_line t (hd_w h) (hd_h h) 25 1 8 /\ file = t ++ [70; 82; 65; 77; 69; 10] ++ picture_bytes pic /\
  2 * Z.of_nat (length (picture_bytes pic)) <> 3 * (hd_w h * hd_h h).
Proof.
  exists (small_head 2), (tiny 1 2), (y4m_text 2 2 25 1 8). eexists. split; [reflexivity|].
  split; [unfold good_picture, good_plane; cbn; lia|]. split; [apply (text_line 2 2 25 1 8); lia|]. split; [reflexivity|]. intros E. vm_compute in E. discriminate E.
Qed.
Print Assumptions C106_planes_refuted.
Theorem C106_resize_refuted : exists t, y4m_line t 2 2 25 1 8 /\
  output_file true [GotHeader (small_head 2); GotFrame (small_head 2) (tiny 3 2); GotHeader (small_head 4); GotFrame (small_head 4) (tiny 3 4)] =
  Done (t ++ ([70; 82; 65; 77; 69; 10] ++ picture_bytes (tiny 3 2)) ++ ([70; 82; 65; 77; 69; 10] ++ picture_bytes (tiny 3 4))) /\
  Z.of_nat (length (picture_bytes (tiny 3 2))) = 6 /\ Z.of_nat (length (picture_bytes (tiny 3 4))) = 24.
Proof. exists (y4m_text 2 2 25 1 8). split; [apply text_line; lia|]. split; [reflexivity|]. split; reflexivity. Qed.
Print Assumptions C106_resize_refuted.
Example C106_nonvacuous : let l := [GotHeader (small_head 2); GotFrame (small_head 2) (tiny 3 2); GotFrame (small_head 2) (tiny 3 2)] in
  Forall good_picture (frames l) /\ frames l = [tiny 3 2] ++ tiny 3 2 :: [] /\ good_rates l /\
  output_file false l = Done [0; 1; 2; 3; 50; 90; 0; 1; 2; 3; 50; 90].
Proof. split; [repeat constructor; cbn; lia|]. split; [reflexivity|]. split; [repeat constructor; cbn; lia|reflexivity]. Qed.
