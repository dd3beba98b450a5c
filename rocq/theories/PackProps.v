(** Properties C18-C20 (packet input), and a refutation for C01. *)
From Coq Require Import ZArith List Bool Lia.
From Verif Require Import CBase BsModel BsSpec PackModel PackSpec PackProofs.
Import ListNotations.
Open Scope Z_scope.

(** C18: a malformed packet is answered with an error and changes nothing. *)
Theorem C18_reject : forall s p, (forall q, p = Some q -> honest q) -> ~ well_formed p ->
  send s p = SOk s [EvError].
Proof. exact send_reject. Qed.
Print Assumptions C18_reject.

(** C18: in every reachable state a well-formed packet is accepted, unless the caller
    has to wait for a free buffer. The two size limits are those of C20. *)
Theorem C18_accept : forall n ops s e p q, honest_ops ops -> prun (pst_init n) ops = Some (s, e) ->
  p = Some q -> honest q -> well_formed p ->
  pk_len q <= MAX_ES_FRAME_SIZE -> Z.of_nat (length (snd (raw_units ops []))) <= 2000000000 - MAX_ES_FRAME_SIZE ->
  (exists s' e', send s p = SOk s' (e' ++ [EvDefault]) /\ ~ In EvError e') \/
  (send s p = SBlock /\ ps_idle s = []).
Proof. exact send_accept. Qed.
Print Assumptions C18_accept.

Definition pk (d : list Z) : pop := PSend (Some (Packet (Some d) (Z.of_nat (length d)))).
Example C18_nonvacuous :
  ~ well_formed (Some (Packet (Some [0; 0; 2; 176; 1]) 5)) /\
  ~ well_formed (Some (Packet (Some [0; 0; 1; 176; 1]) 3)) /\
  well_formed (Some (Packet (Some [0; 0; 1; 176; 1]) 5)).
Proof.
  repeat split.
  - intros (q & d & E & H & _ & _ & _ & P). inversion E; subst. inversion H; subst. discriminate.
  - intros (q & d & E & H & L & _). inversion E; subst. cbn in L. lia.
  - eexists. eexists. split; [reflexivity|]. split; [reflexivity|]. cbn. repeat split. lia.
Qed.

(** C19: the units handed to the parsers are the groups of packets, in order, each
    cleaned of emulation-prevention bits (except those ended by a flush), and the rest
    is still buffered. *)
Theorem C19_units : forall n ops s e, honest_ops ops -> prun (pst_init n) ops = Some (s, e) ->
  units e = map (fun x : list Z * bool => if snd x then dispose (fst x) else fst x) (fst (raw_units ops [])) /\
  cur_data s = snd (raw_units ops []).
Proof. exact units_spec. Qed.
Print Assumptions C19_units.

(** C19: no byte is lost, duplicated or reordered by the grouping. *)
Theorem C19_concat : forall ops,
  concat (map fst (fst (raw_units ops []))) ++ snd (raw_units ops []) = concat (sent ops).
Proof. exact raw_concat. Qed.
Print Assumptions C19_concat.

(** C19: every unit begins with a start code; one that was opened by a packet is of a
    unit-opening type. *)
Theorem C19_openings : forall ops, honest_ops ops -> openings true (fst (raw_units ops [])).
Proof. exact raw_openings. Qed.
Print Assumptions C19_openings.

(** C19: cutting a packet in front of a start code that does not open a unit gives the
    same units. *)
Theorem C19_recut : forall a b ops1 ops2 cur,
  starts_with_prefix a -> 4 <= Z.of_nat (length a) ->
  starts_with_prefix b -> 4 <= Z.of_nat (length b) -> opener b = false ->
  raw_units (ops1 ++ PSend (Some (Packet (Some (a ++ b)) (Z.of_nat (length (a ++ b))))) :: ops2) cur =
  raw_units (ops1 ++ PSend (Some (Packet (Some a) (Z.of_nat (length a))))
                  :: PSend (Some (Packet (Some b) (Z.of_nat (length b)))) :: ops2) cur.
Proof. exact raw_split. Qed.
Print Assumptions C19_recut.

Definition ex_ops : list pop :=
  [pk [0; 0; 1; 176; 9; 9]; pk [0; 0; 1; 181; 5]; pk [0; 0; 1; 179; 4; 4]; pk [0; 0; 1; 0; 7; 0; 0; 2; 8];
   pk [0; 0; 1; 182; 3]; PReturn 0; PFlush].
Example C19_nonvacuous : exists s e, prun (pst_init 3) ex_ops = Some (s, e) /\
  units e = [[0; 0; 1; 176; 9; 9; 0; 0; 1; 181; 5]; [0; 0; 1; 179; 4; 4; 0; 0; 1; 0; 7; 0; 0; 0; 32]; [0; 0; 1; 182; 3]] /\
  honest_ops ex_ops.
Proof.
  eexists. eexists. split; [vm_compute; reflexivity|]. split; [reflexivity|].
  intros p H. cbn in H. repeat (destruct H as [H|H]; [inversion H; intros d E; inversion E; cbn; lia|]).
  destruct H.
Qed.

(** C01 fails for the last unit: a unit that is decoded by a flush keeps its
    emulation-prevention bits (davs2.cc:742-746 does not clean it). *)
Theorem C01_flush_refuted : exists n ops s e u, honest_ops ops /\ prun (pst_init n) ops = Some (s, e) /\
  units e = [u] /\ map fst (fst (raw_units ops [])) = [u] /\ dispose u <> u /\ clean u <> u.
Proof.
  exists 2%nat, [pk [0; 0; 1; 179; 0; 0; 2; 128]; PFlush]. eexists. eexists. exists [0; 0; 1; 179; 0; 0; 2; 128].
  split; [|split; [vm_compute; reflexivity|]].
  - intros p H. cbn in H. destruct H as [H|[H|[]]]; inversion H. intros d E; inversion E; cbn; lia.
  - repeat split; vm_compute; discriminate.
Qed.
Print Assumptions C01_flush_refuted.

(** C20: no history whose packets are at most MAX_ES_FRAME_SIZE long (and whose units
    stay below 2*10^9 bytes) makes the decoder write outside a unit buffer. Missing for
    the full statement: longer packets, see the refutation. *)
Theorem C20_inside_partial : forall n ops1 o ops2 s e,
  honest_ops (ops1 ++ o :: ops2) ->
  (forall d, In d (sent (ops1 ++ o :: ops2)) -> Z.of_nat (length d) <= MAX_ES_FRAME_SIZE) ->
  (forall u, In u (all_raw (ops1 ++ o :: ops2)) -> Z.of_nat (length u) <= 2000000000 - MAX_ES_FRAME_SIZE) ->
  prun (pst_init n) ops1 = Some (s, e) -> pstep s o <> SUndef.
Proof. exact no_undef. Qed.
Print Assumptions C20_inside_partial.

(** The idle, pending and busy buffers are always the ones allocated at the start. *)
Theorem C20_buffers_conserved : forall n ops s e, prun (pst_init n) ops = Some (s, e) ->
  (length (ps_idle s) + length (ps_busy s) + match ps_cur s with Some _ => 1 | None => 0 end)%nat = n.
Proof.
  intros n ops s e H. change (buffers s = n). rewrite (run_count _ _ _ _ H).
  unfold buffers, pst_init. cbn. rewrite repeat_length. now rewrite !Nat.add_0_r.
Qed.
Print Assumptions C20_buffers_conserved.

Example C20_nonvacuous : (forall d, In d (sent ex_ops) -> Z.of_nat (length d) <= MAX_ES_FRAME_SIZE) /\
  (forall u, In u (all_raw ex_ops) -> Z.of_nat (length u) <= 2000000000 - MAX_ES_FRAME_SIZE).
Proof.
  split; apply Forall_forall.
  - repeat constructor; vm_compute; discriminate.
  - repeat constructor; vm_compute; discriminate.
Qed.

(** C20 is false for longer packets: the buffer that is enlarged is not the one the
    packet is copied into. *)
Theorem C20_overflow_refuted : forall m : nat, Z.of_nat m + 4 > MAX_ES_FRAME_SIZE ->
  Z.of_nat m <= 100000000 ->
  exists s e, prun (pst_init 3) [PSend (Some (Packet (Some [0; 0; 1; 176]) 4))] = Some (s, e) /\
    pstep s (PSend (Some (Packet (Some ([0; 0; 1; 179] ++ repeat 7 m)) (Z.of_nat m + 4)))) = SUndef.
Proof. exact overflow. Qed.
Print Assumptions C20_overflow_refuted.
