(** Properties C01-C05: emulation prevention and start-code search. *)
From Coq Require Import ZArith List Bool Lia.
From Verif Require Import CBase BsModel BsSpec BsProofs BsProofs2.
Import ListNotations.
Open Scope Z_scope.

(** C01: the bytes handed to the parsers are the unit with exactly the
    emulation-prevention bit pairs removed. Two hypotheses exclude the deviations
    proved just below. *)
Theorem C01_dispose_exact_partial : forall l,
  bytes_ok l -> no_small_type l -> ends_pseudo l = false -> dispose l = clean l.
Proof. exact dispose_clean. Qed.
Print Assumptions C01_dispose_exact_partial.

(** A P picture header, a pseudo start code in the slice data, a second start code. *)
Example C01_dispose_exact_nonvacuous :
  let l := [0;0;1;182; 17;0;0;2;255;128; 0;0;1;3; 0;0;2;5] in
  bytes_ok l /\ no_small_type l /\ ends_pseudo l = false /\
  dispose l = [0;0;1;182; 17;0;0;3;254;0; 0;0;1;3; 0;0;0;20].
Proof.
  cbv zeta. split; [repeat constructor; lia|]. split.
  - apply ok_types_no_small. repeat split; intros; discriminate.
  - split; reflexivity.
Qed.

(** Without the first hypothesis the claim is false: after the start code of slice 1
    (00 00 01 01) a first payload byte B0 is mistaken for a sequence-header type and
    the pseudo start code that follows is not removed. *)
Theorem C01_slice_type_01_refuted : exists l,
  bytes_ok l /\ ends_pseudo l = false /\ dispose l <> clean l.
Proof.
  exists [0;0;1;1; 176; 0;0;2;5]. split; [repeat constructor; lia|].
  split; [reflexivity|]. vm_compute. discriminate.
Qed.
Print Assumptions C01_slice_type_01_refuted.

(** Without the second hypothesis the claim is false: a pseudo start code that ends the
    unit keeps its two stuffing bits. *)
Theorem C01_trailing_pseudo_refuted : exists l,
  bytes_ok l /\ no_small_type l /\ dispose l <> clean l.
Proof.
  exists [0;0;1;182; 7; 0;0;2]. split; [repeat constructor; lia|].
  split; [apply ok_types_no_small; repeat split; intros; discriminate|]. vm_compute. discriminate.
Qed.
Print Assumptions C01_trailing_pseudo_refuted.

(** C02: cleaning a unit in its own buffer stays inside the buffer, never grows the
    unit and gives the same bytes as cleaning into a separate buffer. *)
Theorem C02_inplace : forall buf,
  exists buf', dispose_inplace buf = Some (buf', Z.of_nat (length (dispose buf))) /\
    length buf' = length buf /\
    (length (dispose buf) <= length buf)%nat /\
    firstn (length (dispose buf)) buf' = dispose buf.
Proof. exact dispose_inplace_ok. Qed.
Print Assumptions C02_inplace.

(** C03: a payload protected by the encoder rule and cleaned by the decoder comes back
    unchanged. Missing for the full statement: picture/slice types 01 and 02 (see
    [C01_slice_type_01_refuted]) and payloads ending in a zero byte (the encoder always
    ends a payload with a stuffing one bit). *)
Theorem C03_roundtrip_partial : forall t payload,
  0 <= t <= 255 -> ~ In t [1; 2; 176; 178; 181] ->
  bytes_ok payload -> payload <> [] -> last payload 0 <> 0 ->
  dispose (protect_unit t payload) = [0; 0; 1; t] ++ payload.
Proof. exact protect_unit_ok. Qed.
Print Assumptions C03_roundtrip_partial.

Example C03_roundtrip_nonvacuous :
  protect_unit 182 [9;0;0;1;0;0;0;0;3;128] = [0;0;1;182; 9;0;0;2;64;0;0;2;0;56;0]
  /\ dispose [0;0;1;182; 9;0;0;2;64;0;0;2;0;56;0] = [0;0;1;182;9;0;0;1;0;0;0;0;3;128].
Proof. split; reflexivity. Qed.

(** The round trip really fails for slice type 01. *)
Theorem C03_slice_type_01_refuted : exists payload,
  bytes_ok payload /\ last payload 0 <> 0 /\
  dispose (protect_unit 1 payload) <> [0; 0; 1; 1] ++ payload.
Proof.
  exists [176; 0; 0; 1; 128]. split; [repeat constructor; lia|].
  split; [cbn; lia|]. vm_compute. discriminate.
Qed.
Print Assumptions C03_slice_type_01_refuted.

(** C04: first occurrence, no false positive. *)
Theorem C04_find_first : forall l k, bytes_ok l -> find_start_code l = Some k ->
  (exists t, sc_at l k t) /\ forall j t, (j < k)%nat -> ~ sc_at l j t.
Proof. exact find_start_code_some. Qed.
Print Assumptions C04_find_first.

(** C04: no false negative. *)
Theorem C04_find_none : forall l, bytes_ok l -> find_start_code l = None ->
  forall j t, ~ sc_at l j t.
Proof. exact find_start_code_none. Qed.
Print Assumptions C04_find_none.

Example C04_nonvacuous :
  find_start_code [0;0;0;1;7;0;0;1;176] = Some 1%nat /\ find_start_code [0;1;0;0;1] = None.
Proof. split; reflexivity. Qed.

(** C05: over the previous three bytes followed by the packet, the reported position is
    that of a unit-opening start code and every earlier unit-opening start code overlaps
    a slice start code 00 00 01 00 ([hidden]); "none" is reported only when all are so
    hidden. *)
Theorem C05_pic_start_code_partial : forall p3 p2 p1 data, bytes_ok data ->
  let l := p3 :: p2 :: p1 :: data in
  let r := find_pic_start_code p3 p2 p1 data in
  (exists k t, r = Z.of_nat k - 3 /\ sc_at l k t /\ opens_unit t /\
     forall q t', (q < k)%nat -> sc_at l q t' -> opens_unit t' -> hidden l q)
  \/ (r = Z.of_nat (length data) + 1 /\
     forall q t', sc_at l q t' -> opens_unit t' -> hidden l q).
Proof. exact find_pic_start_code_ok. Qed.
Print Assumptions C05_pic_start_code_partial.

Example C05_nonvacuous :
  find_pic_start_code 9 0 0 [1;179;5] = -2 /\
  find_pic_start_code 0 0 1 [1;0;0;1;179;5] = 1 /\
  find_pic_start_code 9 9 9 [0;0;1;1;2;0;0;1;182] = 5.
Proof. repeat split; reflexivity. Qed.

(** The overlap really is missed. *)
Theorem C05_hidden_refuted : exists data t,
  bytes_ok data /\ sc_at data 3 t /\ opens_unit t /\
  find_pic_start_code 9 9 9 data = Z.of_nat (length data) + 1.
Proof.
  exists [0;0;1;0;0;1;179], 179. split; [repeat constructor; lia|].
  split; [unfold sc_at; cbn; auto|]. split; [unfold opens_unit; auto|]. reflexivity.
Qed.
Print Assumptions C05_hidden_refuted.
