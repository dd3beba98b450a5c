(** C88: coefficients are read back as an encoder writes them. *)
From Coq Require Import ZArith List Bool Lia.
From Verif Require Import CBase AecModel AecSpec SynModel SynSpec CodSpec BinSpec BinProofs BinProps CofSpec CofProofs CofProofsB CofProofsC CofProofsD.
Import ListNotations.
Open Scope Z_scope.

(** C88: a block. Whatever the 16-bit levels are, as long as there is one that is not zero:
    from the bins of the block the reader produces the scaled levels at their places, group by
    group, and the smallest pattern that covers them. *)
Theorem C88_block : forall p lev, block_in_use p -> levels_ok p lev -> read_as (run_level p) (block_bins p lev) (block_pattern p lev, block_groups p lev).
Proof. intros p lev HU HL. apply reads_as, block_read; assumption. Qed.
Print Assumptions C88_block.

(** C88: every coefficient that is not zero is written to its column and row of the block,
    and nothing else is written. *)
Theorem C88_places : forall p lev, block_in_use p -> forall o v,
  In (o, v) (flat_map snd (block_groups p lev)) <->
  exists k i, 0 <= k < num_groups p /\ 0 <= i < 16 /\ lev k i <> 0 /\ v = scaled p (lev k i) /\
    let '(gx, gy) := exchanged p (group_xy p k) in let '(x, y) := exchanged p (nth (Z.to_nat i) tab_scan_4x4 (0, 0)) in o = (4 * gy + y) * b_w p + (4 * gx + x).
Proof. exact places. Qed.
Print Assumptions C88_places.

(** C88: a coding unit, all its luma and chroma blocks. *)
Theorem C88_unit : forall c lev, unit_ok c lev -> read_as (read_all_coeffs c) (unit_bins c lev) (true, unit_out c lev).
Proof. intros c lev H. apply reads_as, unit_read, H. Qed.
Print Assumptions C88_unit.

(** A 16x16 unit with a luma block of two groups and a chroma block, the slice in which it is
    coded, and what is read from it. Level 40 needs the escape code. *)
Definition C88_levels (b : Z) : levels := fun k i =>
  if b =? 0 then (if (k =? 0) && (i =? 0) then -7 else if (k =? 0) && (i =? 5) then 40 else if (k =? 5) && (i =? 3) then 1 else 0)
  else if (k =? 1) && (i =? 15) then -2 else 0.
Definition C88_cu : cu_coef :=
  {| c_level := 4; c_split := 0; c_cbp := 33; c_dc := fun _ => true; c_swap := fun _ => false; c_400 := false; c_scale := 32768; c_shift := 14;
     c_cscale := fun _ => 40000; c_cshift := fun _ => 15 |}.
Example C88_nonvacuous : unit_ok C88_cu C88_levels /\ length (unit_bins C88_cu C88_levels) = 75%nat /\
  unit_out C88_cu C88_levels = [(0, 0, [(2, 0, [(40, 2)]); (0, 0, [(0, -14); (2, 80)])]); (5, 0, [(1, 0, [(31, -2)])])] /\
  exists data, bytes_ok data /\ 2 <= Z.of_nat (length data) /\ forall ob w, exists a0 a cs, start_decoding data 0 (Z.of_nat (length data)) ob w = Done a0 /\
    read_all_coeffs C88_cu a0 (fun _ => ctx_init) = Done (a, cs, Some (true, unit_out C88_cu C88_levels)) /\ err a = false.
Proof.
  assert (U: unit_ok C88_cu C88_levels).
  { intros b o H. cbn in H. destruct H as [E|[E|[]]]; apply pair_equal_spec in E; destruct E as [<- <-]; eexists; (split; [reflexivity|]); split.
    - exists 4, 0. split; [lia|]. split; [split; [lia|discriminate]|]. split; [split; cbn; lia|]. left. exists true, false. split; [reflexivity|discriminate].
    - split; [|exists 5, 3; repeat split; try lia; discriminate]. intros k i _ _. unfold C88_levels. change (0 =? 0) with true. cbv iota.
      destruct ((k =? 0) && (i =? 0)); [lia|]. destruct ((k =? 0) && (i =? 5)); [lia|]. destruct ((k =? 5) && (i =? 3)); lia.
    - exists 4, 0. split; [lia|]. split; [split; [lia|discriminate]|]. split; [split; cbn; lia|]. right. reflexivity.
    - split; [|exists 1, 15; repeat split; try lia; discriminate]. intros k i _ _. unfold C88_levels. change (5 =? 0) with false. cbv iota.
      destruct ((k =? 1) && (i =? 15)); lia. }
  split; [exact U|]. split; [vm_compute; reflexivity|]. split; [vm_compute; reflexivity|].
  apply (C87_coded_partial _ _ (unit_bins C88_cu C88_levels)); [apply C88_unit, U| |].
  - vm_compute. repeat (constructor; [auto|]). constructor.
  - assert (T: forall l s, (fix go l s := match l with [] => true | (r, b) :: t => (match r with Bypass => c_run s <? 254 | _ => true end) && go t (code1 r b s) end) l s = true -> gentle (map fst l) (map snd l) s).
    { induction l as [|[r b] t IH]; intros s H; [exact I|]. apply andb_true_iff in H. destruct H as [H1 H2]. cbn [map fst snd gentle]. split; [intros ->; lia|]. apply IH, H2. }
    apply T. vm_compute. reflexivity.
Qed.
