(** Property theorems about the arithmetic code. *)
From Coq Require Import ZArith List Bool Lia.
From Verif Require Import CBase CBaseProofs AecModel AecSpec CodSpec CodProofsB.
Import ListNotations.
Open Scope Z_scope.

(** C85: the bins that decoding a slice delivers are those whose interval contains the slice
    read as a binary fraction; the contexts are those of the coder. Not so if the slice starts
    with nine ones, or if an equiprobable bin comes after 254 doublings without a less
    probable one (both refuted below). *)
Theorem C85_interval_partial : forall data pos n ob w a0 rs a cs bs, bytes_ok data -> 0 <= pos -> pos + 2 <= n -> n <= Z.of_nat (length data) ->
  firstn 9 (bits_of (slice data pos n)) <> repeat true 9 ->
  start_decoding data pos n ob w = Done a0 -> decodes rs a0 (fun _ => ctx_init) = Done (a, cs, bs) -> err a = false -> gentle rs bs coder0 ->
  exists s, code rs bs coder0 = Some s /\ inside s (bits_of (slice data pos n)) /\ (forall j, cs j = c_ctx s j).
Proof. exact decoded. Qed.
Print Assumptions C85_interval_partial.

(** C85: the intervals of different sequences of bins are disjoint, so the bins are determined. *)
Theorem C85_disjoint : forall rs bs bs' s s' bits, code rs bs coder0 = Some s -> code rs bs' coder0 = Some s' -> inside s bits -> inside s' bits -> bs = bs'.
Proof. intros rs bs bs' s s' bits. exact (fun A B => code_disjoint rs bs bs' coder0 s s' bits cwf0 A B). Qed.
Print Assumptions C85_disjoint.
Definition C85_data : list Z := [37; 201; 18; 77; 3; 250; 9; 166; 80; 12; 5].
Definition C85_reqs : list req := [Sym 0; Sym 1; Bypass; Sym 0; Bypass; Final; Sym 2].
Example C85_nonvacuous : exists a0 a cs s, bytes_ok C85_data /\ firstn 9 (bits_of (slice C85_data 0 11)) <> repeat true 9 /\ start_decoding C85_data 0 11 false 0 = Done a0 /\
  decodes C85_reqs a0 (fun _ => ctx_init) = Done (a, cs, [0; 0; 1; 0; 0; 0; 1]) /\ err a = false /\ gentle C85_reqs [0; 0; 1; 0; 0; 0; 1] coder0 /\
  code C85_reqs [0; 0; 1; 0; 0; 0; 1] coder0 = Some s /\ c_prec s = 14 /\ inside s (bits_of C85_data).
Proof.
  do 4 eexists. split. { repeat (constructor; [lia|]); constructor. } split; [vm_compute; discriminate|]. split; [vm_compute; reflexivity|]. split; [vm_compute; reflexivity|].
  split; [reflexivity|]. split. { cbn [C85_reqs gentle]. repeat (split; [discriminate || (intros _; vm_compute; reflexivity)|]). exact I. }
  split; [reflexivity|]. split; [vm_compute; reflexivity|]. vm_compute. split; [discriminate|]. split; [discriminate|reflexivity].
Qed.

(** C86: whatever string lies in the interval of a sequence of bins, with 263 bits behind it,
    decodes to these bins, without error. *)
Theorem C86_round_trip_partial : forall data pos n ob w rs bs s, bytes_ok data -> 0 <= pos <= n -> n <= Z.of_nat (length data) ->
  code rs bs coder0 = Some s -> gentle rs bs coder0 -> inside s (bits_of (slice data pos n)) -> c_prec s + 263 <= 8 * (n - pos) ->
  exists a0 a cs, start_decoding data pos n ob w = Done a0 /\ decodes rs a0 (fun _ => ctx_init) = Done (a, cs, bs) /\ err a = false /\ (forall j, cs j = c_ctx s j).
Proof. exact decoded_back. Qed.
Print Assumptions C86_round_trip_partial.

(** C86: for every sequence of bins there is a slice that decodes to it. *)
Theorem C86_every_bins_partial : forall rs bs, length bs = length rs -> Forall (fun b => b = 0 \/ b = 1) bs -> gentle rs bs coder0 ->
  exists data, bytes_ok data /\ 2 <= Z.of_nat (length data) /\ forall ob w, exists a0 a cs, start_decoding data 0 (Z.of_nat (length data)) ob w = Done a0 /\
    decodes rs a0 (fun _ => ctx_init) = Done (a, cs, bs) /\ err a = false.
Proof. exact encodable. Qed.
Print Assumptions C86_every_bins_partial.
Definition C86_data : list Z := [37; 201; 18] ++ repeat 85 40.
Example C86_nonvacuous : exists s, code C85_reqs [0; 0; 1; 0; 0; 0; 1] coder0 = Some s /\ gentle C85_reqs [0; 0; 1; 0; 0; 0; 1] coder0 /\
  inside s (bits_of (slice C86_data 0 43)) /\ c_prec s + 263 <= 8 * (43 - 0) /\
  Forall (fun b => b = 0 \/ b = 1) [0; 0; 1; 0; 0; 0; 1] /\ length [0; 0; 1; 0; 0; 0; 1] = length C85_reqs.
Proof.
  eexists. split; [reflexivity|]. split. { cbn [C85_reqs gentle]. repeat (split; [discriminate || (intros _; vm_compute; reflexivity)|]). exact I. }
  split; [vm_compute; split; [discriminate|]; split; [discriminate|reflexivity]|]. split; [vm_compute; discriminate|]. split; [repeat (constructor; [lia|]); constructor|reflexivity].
Qed.

(** C85 and C86 fail in the saturated state: 255 context-coded bins and two equiprobable ones
    are in the interval of the bins ending in 0, 1, but are decoded as ending in 0, 0. *)
Definition C86_sat_data : list Z := repeat 0 31 ++ [1; 144] ++ repeat 0 40.
Definition C86_sat_reqs : list req := map (fun i => Sym (Z.of_nat i)) (seq 0 255) ++ [Bypass; Bypass].
Theorem C86_saturated_refuted : exists s a0 a cs, bytes_ok C86_sat_data /\ code C86_sat_reqs (repeat 0 256 ++ [1]) coder0 = Some s /\
  inside s (bits_of (slice C86_sat_data 0 73)) /\ c_prec s + 263 <= 8 * (73 - 0) /\
  start_decoding C86_sat_data 0 73 false 0 = Done a0 /\ decodes C86_sat_reqs a0 (fun _ => ctx_init) = Done (a, cs, repeat 0 257) /\ err a = false.
Proof.
  do 4 eexists. split. { repeat (constructor; [lia|]); constructor. }
  split; [vm_compute; reflexivity|]. split; [vm_compute; split; [discriminate|]; split; [discriminate|reflexivity]|]. split; [vm_compute; discriminate|].
  split; [vm_compute; reflexivity|]. split; [vm_compute; reflexivity|]. reflexivity.
Qed.
Print Assumptions C86_saturated_refuted.

(** C85 fails for a slice that starts with nine ones: its first bins have an interval that
    does not contain it. *)
Theorem C85_nine_ones_refuted : exists data a0 a cs bs s, bytes_ok data /\ start_decoding data 0 8 false 0 = Done a0 /\
  decodes [Sym 0; Sym 1] a0 (fun _ => ctx_init) = Done (a, cs, bs) /\ err a = false /\ code [Sym 0; Sym 1] bs coder0 = Some s /\ ~ inside s (bits_of (slice data 0 8)).
Proof.
  exists [255; 128; 0; 0; 0; 0; 0; 0]. do 5 eexists. split. { repeat (constructor; [lia|]); constructor. }
  split; [vm_compute; reflexivity|]. split; [vm_compute; reflexivity|]. split; [reflexivity|]. split; [vm_compute; reflexivity|].
  vm_compute. intros [_ [_ H]]. discriminate.
Qed.
Print Assumptions C85_nine_ones_refuted.
