(** Property C94: the assertions of the picture buffer and of picture numbering. *)
From Coq Require Import ZArith List Bool Lia.
From Verif Require Import CBase HdrModel HdrSpec HdrProofs HdrProps DpbModel DpbModelA DpbSpec DpbProofs DpbProofsC DpbProofsD DpbProofsF.
Import ListNotations.
Open Scope Z_scope.

(** C94, header.cc:1379: a buffer chosen as target is never marked as disposable. *)
Theorem C94_target : forall n ops s tr b, 0 <= n -> run (st_init n) ops = (s, tr) ->
  In (ATarget, b) (assertions s) -> b = true.
Proof. exact target_assert. Qed.
Print Assumptions C94_target.

(** C94, header.cc:1445: when an expected picture is given up, the next one in the output
    list is displayed later. *)
Theorem C94_skip : forall n ops s tr b, 0 <= n -> run (st_init n) ops = (s, tr) ->
  In (ASkip, b) (assertions s) -> b = true.
Proof. intros n ops s tr b _ _. exact (skip_assert s b). Qed.
Print Assumptions C94_skip.

(** C94, header.cc:1305-1306: the assertions on a reference hold exactly if the picture
    with the wanted number was announced as a reference and not given up since. *)
Theorem C94_reference_partial : forall n ops s tr r d l j got b1 b2, 0 <= n -> run (st_init n) ops = (s, tr) ->
  at_ s = PRef r (d :: l) j got -> assertions s = [(ADisp, b1); (ARefd, b2)] ->
  let f := base s + j in
  (exists p, content f tr = Some p /\ DpbModel.r_coi p = DpbModel.r_coi r - d) /\ b1 && b2 = marked f tr.
Proof. exact reference_assert. Qed.
Print Assumptions C94_reference_partial.

(** All four kinds are evaluated in executions. *)
Example C94_nonvacuous :
  map (fun k => assertions (fst (run (st_init 26) (firstn k full)))) [31%nat; 1727%nat]
  = [[(ATarget, true)]; [(ACount, false); (ASkip, true)]] /\
  existsb (fun k => match assertions (fst (run (st_init 26) (firstn k gop))) with [(ADisp, true); (ARefd, true)] => true | _ => false end) (seq 0 80) = true.
Proof. split; vm_compute; reflexivity. Qed.

(** C94 fails: a picture that refers to a picture which was not announced as a reference
    and is still in the buffer ends the process. Both numbers come from the stream. *)
Theorem C94_reference_refuted : exists ops s tr, run (st_init 26) ops = (s, tr) /\ In (ADisp, false) (assertions s)
  /\ flat_map (fun e => match e with EvCall r => [r] | _ => [] end) tr = [Req 0 false false 0 0 [] false []; Req 0 false false 1 1 [1] true []].
Proof. exact reference_fails. Qed.
Print Assumptions C94_reference_refuted.

(** C94 fails, header.cc:1230: a picture that is in the output list and not yet released
    by its decoder counts twice, so with one picture lost and the buffer full the count
    exceeds the size; no background picture, change of resolution or empty picture is needed. *)
Theorem C94_count_refuted : exists ops s tr, run (st_init 26) ops = (s, tr) /\ In (ACount, false) (assertions s)
  /\ calm tr /\ (forall l, ~ In (EvDrop l) tr).
Proof. exact count_fails. Qed.
Print Assumptions C94_count_refuted.

(** C94 fails, header.cc:747: without low delay every first picture whose number and
    display delay are together below the reorder delay of the sequence gets a negative POC. *)
Theorem C94_poc_refuted : forall q p output, q_low_delay q = 0 -> c_frame p = true -> 0 <= c_coi p ->
  c_coi p + c_delay p < q_reorder q ->
  exists g coi poc, picture_order (new_sequence (Pmgr 0 (-1) output)) q true p = Some (g, coi, poc) /\ 0 <= coi /\ poc < 0.
Proof.
  intros q p output HL HF HC HD. unfold picture_order, new_sequence, coi_update, poc_of. rewrite HF, HL. cbn [negb Z.eqb g_prev g_wrap g_output].
  destruct (c_coi p <? -1) eqn:E; [apply Z.ltb_lt in E; lia|]. do 3 eexists. split; [reflexivity|]. lia.
Qed.
Print Assumptions C94_poc_refuted.

(** The sequence header of the example of C09 has a reorder delay of 2. *)
Example C94_poc_case :
  picture_order (Pmgr 0 (-1) (-1)) (built ex_syn) true
    (Pich I_SLICE 0 0 0 (Rps 1 0 [] 0 []) true 0 30 1 0 0 0 0) = Some (Pmgr 0 0 (-2), 0, -2).
Proof. reflexivity. Qed.
