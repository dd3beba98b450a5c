(** C31-C34: the entropy decoder. *)
From Coq Require Import ZArith List Bool Lia.
From Verif Require Import CBase MemModel AecModel AecSpec AecProofsH.
Import ListNotations.
Open Scope Z_scope.

(** C31: whatever the history of updates, a context stays legal and is the one given by the
    arithmetic rule. *)
Theorem C31_contexts : forall h, legal_ctx (adapt h ctx_init) /\ adapt h ctx_init = adapt_rule h ctx_init.
Proof. exact adapt_from_init. Qed.
Print Assumptions C31_contexts.
Example C31_nonvacuous : adapt [true; true; false; false; true; false; false; false] ctx_init = {| lg := 1017; mps := 1; cyc := 3 |}
  /\ adapt_rule [false; false] ctx_init = {| lg := 1023; mps := 0; cyc := 2 |}.
Proof. split; vm_compute; reflexivity. Qed.

(** C32: [k] bit requests from the start of a slice return its bits, first byte and most
    significant bit first, each once; then every request reports an error. *)
Theorem C32_order : forall data pos n ob w k, bytes_ok data -> 0 <= pos <= n -> n <= Z.of_nat (length data) ->
  let bits := bits_of (slice data pos n) in
  (k <= length bits + 128)%nat ->
  exists a, requests k {| buf := data; byte_buf := w; byte_pos := pos; nbytes := n; btg := 0; err := false; bound := ob; domain := true; s1 := 0; t1 := 255; vs := 0; vt := 0 |}
            = Done (firstn k (map Some bits ++ repeat None 128), a) /\ err a = (length bits <? k)%nat.
Proof. exact reader_order. Qed.
Print Assumptions C32_order.

(** C32: initialisation takes nine bits into the value register, the requests that follow
    continue with the tenth. *)
Theorem C32_start : forall data pos n ob w, bytes_ok data -> 0 <= pos -> pos + 2 <= n -> n <= Z.of_nat (length data) ->
  exists a, start_decoding data pos n ob w = Done a /\ err a = false /\
    vt a = be_val (firstn 9 (bits_of (slice data pos n))) /\
    (forall k, (k <= 8 * Z.to_nat (n - pos) - 9 + 128)%nat -> exists a', requests k a = Done (firstn k (map Some (skipn 9 (bits_of (slice data pos n))) ++ repeat None 128), a')).
Proof. exact reader_start. Qed.
Print Assumptions C32_start.

(** C32: bytes outside the slice have no influence on any request. *)
Theorem C32_inside : forall k data data' pos n ob w, bytes_ok data -> bytes_ok data' -> 0 <= pos <= n -> n <= Z.of_nat (length data) -> n <= Z.of_nat (length data') ->
  slice data pos n = slice data' pos n -> (k <= 8 * Z.to_nat (n - pos) + 128)%nat ->
  forall r, requests k {| buf := data; byte_buf := w; byte_pos := pos; nbytes := n; btg := 0; err := false; bound := ob; domain := true; s1 := 0; t1 := 255; vs := 0; vt := 0 |} = Done r ->
  exists r', requests k {| buf := data'; byte_buf := w; byte_pos := pos; nbytes := n; btg := 0; err := false; bound := ob; domain := true; s1 := 0; t1 := 255; vs := 0; vt := 0 |} = Done r' /\ fst r = fst r'.
Proof. exact reader_inside. Qed.
Print Assumptions C32_inside.

(** C32: asking for [n] bits at once is asking for one bit [n] times. *)
Theorem C32_n_bits : forall a n, bytes_ok (buf a) -> 0 <= byte_pos a <= nbytes a -> nbytes a <= Z.of_nat (length (buf a)) -> 0 <= btg a <= 63 -> 0 < n <= 32 -> err a = false ->
  get_next_n_bit a n = bindo (next_bits (Z.to_nat n) a) (fun a => Done (a, err a)).
Proof. exact n_bits_single. Qed.
Print Assumptions C32_n_bits.

(** C32 fails beyond: the counter of remaining bits is eight bits wide, and the 129th request
    after the end wraps it, so that the next shift exceeds the width of the register. *)
Theorem C32_wrap_refuted : exists data k, bytes_ok data /\
  (exists a, start_decoding data 0 (Z.of_nat (length data)) false 0 = Done a /\ err a = false /\ requests k a = Undef).
Proof. exact reader_wrap. Qed.
Print Assumptions C32_wrap_refuted.
Definition C32_data : list Z := [9; 0; 1; 165; 60; 255; 7; 128; 33; 200; 77].
Example C32_nonvacuous : exists a b, start_decoding C32_data 2 11 true 5 = Done a /\ vt a = 3 /\
  requests 66 a = Done (map Some [false; true; false; false; true; false; true] ++ map Some (bits_of [60; 255; 7; 128; 33; 200; 77]) ++ [None; None; None], b) /\ err b = true.
Proof. eexists _, _. split; [vm_compute; reflexivity|]. split; [reflexivity|]. split; vm_compute; reflexivity. Qed.

(** C33: in every state that decoding a slice can reach, the loop that counts zeros under
    one context gives the count, contexts and state of decoding symbol by symbol. *)
Theorem C33_continue0 : forall data pos n ob w a0 rs a cs bs k m, bytes_ok data -> 0 <= pos -> pos + 2 <= n -> n <= Z.of_nat (length data) ->
  start_decoding data pos n ob w = Done a0 -> decodes rs a0 (fun _ => ctx_init) = Done (a, cs, bs) -> err a = false ->
  exists a1 c1 m1 a2 c2 m2, continue0 a (cs k) m = Done (a1, c1, m1) /\ repeat_symbol (Z.to_nat m) a (cs k) = Done (a2, c2, m2) /\
    err a1 = err a2 /\ m1 = m2 /\ (err a1 = false -> a1 = a2 /\ c1 = c2).
Proof. exact batched. Qed.
Print Assumptions C33_continue0.

(** C33: the same for the loop that moves through an array of contexts. *)
Theorem C33_continue0_ext : forall data pos n ob w a0 rs a cs bs inc m, bytes_ok data -> 0 <= pos -> pos + 2 <= n -> n <= Z.of_nat (length data) ->
  start_decoding data pos n ob w = Done a0 -> decodes rs a0 (fun _ => ctx_init) = Done (a, cs, bs) -> err a = false ->
  exists a1 c1 m1 a2 c2 m2, continue0_ext a cs inc m = Done (a1, c1, m1) /\ repeat_symbol_ext (Z.to_nat m) a cs inc 0 = Done (a2, c2, m2) /\
    err a1 = err a2 /\ m1 = m2 /\ (err a1 = false -> a1 = a2 /\ c1 = c2).
Proof. exact batched_ext. Qed.
Print Assumptions C33_continue0_ext.
Example C33_nonvacuous : exists a0 a cs bs a1 c1 a2 c2, start_decoding C32_data 0 11 false 0 = Done a0 /\
  decodes [Sym 1; Bypass; Sym 2; Sym 1] a0 (fun _ => ctx_init) = Done (a, cs, bs) /\ err a = false /\
  continue0 a (cs 1) 9 = Done (a1, c1, 1) /\ err a1 = false /\ continue0_ext a cs 2 20 = Done (a2, c2, 1) /\ err a2 = false.
Proof. do 8 eexists. split; [vm_compute; reflexivity|]. split; [vm_compute; reflexivity|]. vm_compute. repeat split; reflexivity. Qed.

(** C34: any sequence of requests on any slice terminates with defined arithmetic, zeros and
    ones only, and until the error flag rises inside the slice with registers in range. *)
Theorem C34_total : forall data pos n ob w rs, bytes_ok data -> 0 <= pos -> pos + 2 <= n -> n <= Z.of_nat (length data) ->
  exists a0 a cs bs, start_decoding data pos n ob w = Done a0 /\ decodes rs a0 (fun _ => ctx_init) = Done (a, cs, bs) /\
    Forall (fun b => b = 0 \/ b = 1) bs /\ (length bs <= length rs)%nat /\
    (err a = false -> length bs = length rs /\ bits_read a0 <= bits_read a <= 8 * n /\ in_width a).
Proof. exact total. Qed.
Print Assumptions C34_total.

(** C34: one request takes at most 263 bits, and keeps the offset below the range unless it
    is an equiprobable symbol in the saturated state. *)
Theorem C34_step : forall data pos n ob w a0 rs a cs bs r, bytes_ok data -> 0 <= pos -> pos + 2 <= n -> n <= Z.of_nat (length data) ->
  start_decoding data pos n ob w = Done a0 -> decodes rs a0 (fun _ => ctx_init) = Done (a, cs, bs) -> err a = false ->
  exists a1 cs1 b, decode r a cs = Done (a1, cs1, b) /\
    (err a1 = false -> in_width a1 /\ bits_read a <= bits_read a1 <= bits_read a + 263 /\
       (offset_below a -> r <> Bypass \/ ~ (domain a = false /\ s1 a = 254 /\ bound a = true) -> offset_below a1)).
Proof. exact step_bits. Qed.
Print Assumptions C34_step.

(** C34: without equiprobable symbols, and unless the slice starts with nine ones, the offset
    is always below the range. *)
Theorem C34_offset : forall data pos n ob w a0 rs a cs bs, bytes_ok data -> 0 <= pos -> pos + 2 <= n -> n <= Z.of_nat (length data) ->
  start_decoding data pos n ob w = Done a0 -> vt a0 < 511 -> ~ In Bypass rs -> decodes rs a0 (fun _ => ctx_init) = Done (a, cs, bs) -> err a = false -> offset_below a.
Proof. exact sym_below. Qed.
Print Assumptions C34_offset.

(** C34 fails with nine leading ones: the offset starts equal to the range. *)
Theorem C34_start_refuted : exists data a, bytes_ok data /\ start_decoding data 0 2 false 0 = Done a /\ ~ offset_below a.
Proof.
  exists [255; 128]. eexists. split. { repeat (constructor; [lia|]); constructor. }
  split; [vm_compute; reflexivity|]. vm_compute. discriminate.
Qed.
Print Assumptions C34_start_refuted.

(** C34 fails for an equiprobable symbol in the saturated state: the domain flag is not set,
    and the offset leaves the eight bits it has in that domain. *)
Definition C34_zeros : list Z := repeat 0 31 ++ [1; 144; 0; 0; 0; 0; 0; 0].
Definition C34_symbols : list req := map (fun i => Sym (Z.of_nat i)) (seq 0 255).
Theorem C34_bypass_refuted : exists a0 a cs bs a1 cs1 b, bytes_ok C34_zeros /\ start_decoding C34_zeros 0 39 false 0 = Done a0 /\
  decodes C34_symbols a0 (fun _ => ctx_init) = Done (a, cs, bs) /\ err a = false /\ offset_below a /\
  decode Bypass a cs = Done (a1, cs1, b) /\ err a1 = false /\ ~ offset_below a1.
Proof.
  do 7 eexists. split. { repeat (constructor; [lia|]); constructor. }
  split; [vm_compute; reflexivity|]. split; [vm_compute; reflexivity|]. split; [reflexivity|].
  split; [vm_compute; split; [discriminate|reflexivity]|]. split; [vm_compute; reflexivity|]. split; [reflexivity|].
  vm_compute. intros [H _]. apply H. reflexivity.
Qed.
Print Assumptions C34_bypass_refuted.
