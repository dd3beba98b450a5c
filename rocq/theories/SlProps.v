(** Properties C82, C83 and C84: the slices of a picture. *)
From Coq Require Import ZArith List Bool Lia.
From Verif Require Import CBase CBaseProofs VlcModel VlcSpec HdrModel HdrSpec AecModel AecSpec SlModel SlSpec SlSpecB SlProofs SlProofsB SlProofsC SlProofsD.
Import ListNotations.
Open Scope Z_scope.

(** C82: the first slice of a picture is found, whatever user data precedes it; without one none is found and the position stays. *)
Theorem C82_first : forall mem n q p, 0 <= q -> n <= Z.of_nat (length mem) -> p + 4 <= n -> first_code mem (q / 8) p ->
  decode_user_data (Bs mem n q) = Done (true, Bs mem n (8 * p)).
Proof. exact user_data_first. Qed.
Print Assumptions C82_first.
Theorem C82_none : forall mem n q, 0 <= q -> n <= Z.of_nat (length mem) ->
  (forall p, q / 8 <= p -> p + 4 <= n -> ~ slice_code mem p) ->
  decode_user_data (Bs mem n q) = Done (false, Bs mem n q).
Proof. exact user_data_none. Qed.
Print Assumptions C82_none.

(** C82: behind a slice the next one is found exactly if it begins in the first four whole bytes. *)
Theorem C82_next : forall mem n q p, 0 <= q -> first_code mem ((q + 7) / 8) p -> p < (q + 7) / 8 + 4 ->
  exists q', found_slice_header (Bs mem n q) = Done (true, Bs mem n q') /\ bs_align (Bs mem n q') = Bs mem n (8 * p).
Proof.
  intros mem n q p H F P. exists (q + 8 * (p - (q + 7) / 8)). split; [apply (found_loop_hit 4 mem n q p H F); exact P|].
  unfold bs_align. cbn [bs_mem bs_len bs_pos]. rewrite up8, up8_add, Z.shiftl_mul_pow2 by lia. f_equal. ring.
Qed.
Print Assumptions C82_next.
Theorem C82_next_none : forall mem n q, 0 <= q -> (q + 7) / 8 + 6 < Z.of_nat (length mem) ->
  (forall j, (q + 7) / 8 <= j < (q + 7) / 8 + 4 -> ~ slice_code mem j) ->
  exists q', found_slice_header (Bs mem n q) = Done (false, Bs mem n q').
Proof. intros mem n q H L F. eexists. apply (found_loop_miss 4 mem n q H); [change (Z.of_nat 4) with 4; lia|exact F]. Qed.
Print Assumptions C82_next_none.

(** C82: every slice header is read back as written, and the reader stands behind it. *)
Theorem C82_header : forall g old mem n p y, 0 <= p -> slice_fits y -> slice_at g mem p y -> data_start g p y <= n ->
  parse_slice_header g old (Bs mem n (8 * p)) = Done (slice_meaning g old y, Bs mem n (8 * (p + 3) + zlen (slice_bits g y))).
Proof. exact header_roundtrip. Qed.
Print Assumptions C82_header.

(** C82: a picture made of slices is decoded slice by slice: each slice with its own header, a fresh entropy decoder at its own data and the
    number of LCUs it has, the LCUs in raster order from the first to the last, whatever the rows of LCUs are. *)
Theorem C82_picture : forall T new_slice reset_row lcu g w mem n h q p y m rest hd0 a0 (t0 t' : T), 0 < w -> 0 < h -> 0 <= q -> n <= Z.of_nat (length mem) ->
  first_code mem (q / 8) p -> p + 4 <= n ->
  slices T new_slice reset_row lcu g w mem n 0 0 (8 * p) hd0 t0 a0 ((p, y, m) :: rest) t' -> lcus_of ((p, y, m) :: rest) = w * h ->
  exists s, decode_picture T new_slice reset_row lcu g w h (Bs mem n q) hd0 a0 t0 = Done (Some s) /\
    s_t s = t' /\ s_err s = false /\ s_log s = assigned 0 0 ((p, y, m) :: rest).
Proof. exact picture_ok. Qed.
Print Assumptions C82_picture.

(** User data, then a picture of 2x2 LCUs: a slice of three LCUs with quantiser 30, and one of one LCU with the fixed quantiser 40. The LCUs of
    the example read nothing and record their number, slice and quantiser. *)
Definition ex_g : pic := Pic 32 32 16 false 0 true.
Definition ex_y0 : slice_syn := SliceSyn 0 0 0 0 false 30 (true, false, true).
Definition ex_y1 : slice_syn := SliceSyn 1 0 1 0 true 40 (false, false, false).
Definition ex_mem : list Z :=
  [0; 0; 1; 178; 7] ++ [0; 0; 1; 0; 0; 30; 191] ++ [254; 0; 128] ++ [0; 0; 1; 1; 1; 168; 31] ++ [255; 255; 128] ++ repeat 0 24.
Definition ex_lcu (k i : Z) (hd : shdr) (t : list (Z * Z * Z)) (a : aec) : outcome (list (Z * Z * Z) * aec * bool) := Done (t ++ [(k, i, h_qp hd)], a, false).
Definition ex_hd : shdr := Shdr 0 false 0 (0, 0, 0).
Definition ex_aec : aec :=
  {| buf := []; byte_buf := 0; byte_pos := 0; nbytes := 0; btg := 0; err := false; bound := false; domain := true; s1 := 0; t1 := 0; vs := 0; vt := 0 |}.

Ltac code_here := split; [vm_compute; discriminate|split; [split; [reflexivity|split; [reflexivity|split; [reflexivity|eexists; split; [reflexivity|lia]]]]|]].
Example C82_case : first_code ex_mem (0 / 8) 5 /\ lcus_of [(5, ex_y0, 3%nat); (15, ex_y1, 1%nat)] = 2 * 2 /\
  slices _ (fun t => t) (fun _ t => t) ex_lcu ex_g 2 ex_mem 25 0 0 (8 * 5) ex_hd [] ex_aec [(5, ex_y0, 3%nat); (15, ex_y1, 1%nat)]
    [(0, 0, 30); (1, 0, 30); (2, 0, 30); (3, 1, 40)].
Proof.
  split; [|split; [reflexivity|]].
  - code_here. intros j J (S1 & S2 & S3 & d & S4 & S5).
    assert (Q : j = 0 \/ j = 1 \/ j = 2 \/ j = 3 \/ j = 4) by (change (0 / 8) with 0 in J; lia).
    destruct Q as [-> | [-> | [-> | [-> | ->]]]]; try discriminate S1; try discriminate S2; try discriminate S3.
    injection S4 as <-. lia.
  - eapply slices_cons.
    + lia.
    + code_here. intros j J. change ((8 * 5 + 7) / 8) with 5 in J. lia.
    + change ((8 * 5 + 7) / 8) with 5. lia.
    + repeat split; try reflexivity. exists (firstn 64 (bits_of ex_mem)), (skipn 91 (bits_of ex_mem)). split; reflexivity.
    + unfold slice_fits, fits. cbn. lia.
    + vm_compute. reflexivity.
    + reflexivity.
    + eapply run_S; [reflexivity|vm_compute; reflexivity|]. eapply run_S; [reflexivity|vm_compute; reflexivity|].
      eapply run_S; [reflexivity|vm_compute; reflexivity|]. apply run_0.
    + eapply slices_cons.
      * vm_compute; discriminate.
      * match goal with |- first_code _ ?q _ => let v := eval vm_compute in q in change q with v end. code_here. intros j J. lia.
      * match goal with |- _ <= ?q => let v := eval vm_compute in q in change q with v end. lia.
      * repeat split; try reflexivity. exists (firstn 144 (bits_of ex_mem)), (skipn 171 (bits_of ex_mem)). split; reflexivity.
      * unfold slice_fits, fits. cbn. lia.
      * vm_compute. reflexivity.
      * reflexivity.
      * eapply run_S; [reflexivity|vm_compute; reflexivity|]. apply run_0.
      * apply slices_nil.
Qed.
Example C82_case_run :
  match decode_picture _ (fun t => t) (fun _ t => t) ex_lcu ex_g 2 2 (Bs ex_mem 25 0) ex_hd ex_aec [] with
  | Done (Some s) => s_t s = [(0, 0, 30); (1, 0, 30); (2, 0, 30); (3, 1, 40)] /\ s_log s = [(0, 0); (1, 0); (2, 0); (3, 1)]
  | _ => False
  end.
Proof. vm_compute. auto. Qed.

(** C83: a slice is decoded at the LCU its header names. The header's position is read and not used: the claim holds for pictures in which
    every slice is where the one before it ends. *)
Lemma find_numbered : forall m k i j r, i <> j -> find (fun e => snd e =? j) (numbered m k i ++ r) = find (fun e : Z * Z => snd e =? j) r.
Proof.
  induction m as [|m IH]; intros k i j r H; cbn [numbered app find snd]; [reflexivity|].
  replace (i =? j) with false by (symmetry; apply Z.eqb_neq; exact H). apply IH. exact H.
Qed.
Lemma first_in_place : forall g w l k i j p y m, in_place g w k l -> nth_error l j = Some (p, y, S m) ->
  first_lcu (assigned k i l) (i + Z.of_nat j) = Some (header_lcu g w y).
Proof.
  intros g w. induction l as [|[[p0 y0] m0] l IH]; intros k i j p y m P E; [destruct j; discriminate|].
  cbn [in_place] in P. destruct P as [P1 P2]. unfold first_lcu. cbn [assigned]. destruct j as [|j].
  - cbn [nth_error] in E. injection E as -> -> ->. cbn [numbered app find snd].
    replace (i =? i + Z.of_nat 0) with true by (symmetry; apply Z.eqb_eq; lia). cbn [fst]. rewrite P1. reflexivity.
  - rewrite find_numbered by lia. replace (i + Z.of_nat (S j)) with (i + 1 + Z.of_nat j) by lia.
    apply (IH (k + Z.of_nat m0) (i + 1) j p y m P2 E).
Qed.
Theorem C83_in_order_partial : forall T new_slice reset_row lcu g w mem n h q p y m rest hd0 a0 (t0 t' : T), 0 < w -> 0 < h -> 0 <= q -> n <= Z.of_nat (length mem) ->
  first_code mem (q / 8) p -> p + 4 <= n ->
  slices T new_slice reset_row lcu g w mem n 0 0 (8 * p) hd0 t0 a0 ((p, y, m) :: rest) t' -> lcus_of ((p, y, m) :: rest) = w * h ->
  in_place g w 0 ((p, y, m) :: rest) ->
  exists s, decode_picture T new_slice reset_row lcu g w h (Bs mem n q) hd0 a0 t0 = Done (Some s) /\
    forall j pj yj mj, nth_error ((p, y, m) :: rest) j = Some (pj, yj, S mj) -> first_lcu (s_log s) (Z.of_nat j) = Some (header_lcu g w yj).
Proof.
  intros T new_slice reset_row lcu g w mem n h q p y m rest hd0 a0 t0 t' W H Q L F P C To In.
  destruct (picture_ok T new_slice reset_row lcu g w mem n h q p y m rest hd0 a0 t0 t' W H Q L F P C To) as (s & E & _ & _ & Lg).
  exists s. split; [exact E|]. intros j pj yj mj N. rewrite Lg. apply (first_in_place g w _ 0 0 j pj yj mj In N).
Qed.
Print Assumptions C83_in_order_partial.
Example C83_case : in_place ex_g 2 0 [(5, ex_y0, 3%nat); (15, ex_y1, 1%nat)] /\ header_lcu ex_g 2 ex_y1 = 3.
Proof. repeat split. Qed.

(** The picture of the example without its first slice: a unit with one complete slice, whose header says it begins with the last of the four
    LCUs. It is decoded as the first one. *)
Theorem C83_lost_slice_refuted : exists mem n p y s,
  slice_at ex_g mem p y /\ slice_fits y /\ first_code mem 0 p /\ header_lcu ex_g 2 y = 3 /\
  decode_picture _ (fun t => t) (fun _ t => t) ex_lcu ex_g 2 2 (Bs mem n 0) ex_hd ex_aec [] = Done (Some s) /\ s_err s = false /\
  first_lcu (s_log s) 0 = Some 0.
Proof.
  exists ([0; 0; 1; 1; 1; 168; 31] ++ [255; 255; 128] ++ repeat 0 24), 10, 0, ex_y1. eexists.
  split; [repeat split; try reflexivity; exists (firstn 24 (bits_of ([0; 0; 1; 1; 1; 168; 31] ++ [255; 255; 128] ++ repeat 0 24))), (skipn 51 (bits_of ([0; 0; 1; 1; 1; 168; 31] ++ [255; 255; 128] ++ repeat 0 24))); split; reflexivity|].
  split; [unfold slice_fits, fits; cbn; lia|].
  split; [code_here; intros j J; lia|].
  split; [reflexivity|]. split; [vm_compute; reflexivity|]. split; reflexivity.
Qed.
Print Assumptions C83_lost_slice_refuted.

(** C84: what stands in memory behind a unit. The search for slice headers is not bounded by the length of the unit, so the bytes behind
    it do matter, but no more than 32 for every row of LCUs and 32 more. *)
Theorem C84_reach_partial : forall T new_slice reset_row lcu g w h n mem mem' q hd0 a0 (t0 : T), reads_unit_only lcu ->
  0 <= q -> 0 <= n <= Z.of_nat (length mem) -> same_below (n + 32 * (Z.max 0 h + 1)) mem mem' ->
  shown (decode_picture T new_slice reset_row lcu g w h (Bs mem' n q) hd0 a0 t0) = shown (decode_picture T new_slice reset_row lcu g w h (Bs mem n q) hd0 a0 t0).
Proof.
  intros T new_slice reset_row lcu g w h n mem mem' q hd0 a0 t0 Hl Q [N0 N] Sb.
  apply (picture_alike (n + 32 * (Z.max 0 h + 1)) n mem mem'); auto; lia.
Qed.
Print Assumptions C84_reach_partial.
(** The assumption about LCUs holds for one that decodes a terminating bin and keeps it. *)
Definition ex_lcu_bin (k i : Z) (hd : shdr) (t : list Z) (a : aec) : outcome (list Z * aec * bool) :=
  bindo (decode_final a) (fun r => Done (t ++ [snd r], fst r, false)).
Example C84_case : reads_unit_only ex_lcu_bin.
Proof.
  intros m n l l' Nm Sb k i hd t a R. unfold ex_lcu_bin. destruct (final_on m n l l' Nm Sb a R) as [E Q]. rewrite E.
  destruct (decode_final a) as [[a1 f]| | |]; cbn [omap bindo]; try (split; [reflexivity|discriminate]).
  split; [reflexivity|]. intros t1 a2 e X. injection X as <- <- <-. apply (Q (a1, f)). reflexivity.
Qed.

(** A unit with a single slice of one LCU for a picture of two: followed by zeros, both LCUs are decoded; followed by the remains of a
    start code, the row ends behind the first. *)
Theorem C84_leftover_refuted : exists n mem mem' s s', same_below n mem mem' /\ n <= Z.of_nat (length mem) /\
  decode_picture _ (fun t => t) (fun _ t => t) ex_lcu ex_g 2 1 (Bs mem n 0) ex_hd ex_aec [] = Done (Some s) /\
  decode_picture _ (fun t => t) (fun _ t => t) ex_lcu ex_g 2 1 (Bs mem' n 0) ex_hd ex_aec [] = Done (Some s') /\
  s_log s = [(0, 0); (1, 0)] /\ s_log s' = [(0, 0)].
Proof.
  exists 10, ([0; 0; 1; 1; 1; 168; 31; 255; 255; 128] ++ repeat 0 24), ([0; 0; 1; 1; 1; 168; 31; 255; 255; 128] ++ [0; 0; 1; 0] ++ repeat 0 24).
  eexists. eexists. split.
  { intros i Hi. unfold get. destruct (Z.ltb_spec i 0); [reflexivity|]. rewrite !nth_error_app1 by (cbn [length]; lia). reflexivity. }
  split; [cbn; lia|]. split; [vm_compute; reflexivity|]. split; [vm_compute; reflexivity|]. split; reflexivity.
Qed.
Print Assumptions C84_leftover_refuted.
