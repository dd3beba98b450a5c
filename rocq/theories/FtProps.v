(** Property C109: the table of functions. *)
From Coq Require Import ZArith List Bool Lia.
From Verif Require Import CBase CpModel CpSpec CpProps FtModel FtSpec FtProofs.
Import ListNotations.
Open Scope Z_scope.

(** C109: whatever the word of features, every call made through the table reaches a function, and one whose work is the work asked for. *)
Theorem C109_calls : forall cpuid c, made c = true -> exists s f v,
  called c = Done s /\ fill_table cpuid (fun _ => None) s = Some (f, v) /\ right c f = true.
Proof.
  intros cpuid c H. destruct (reached c H) as (s & C & R). destruct (R cpuid (fun _ => None)) as (a & _ & _ & _ & F & W).
  destruct (value a) as [f v]. exists s, f, v. auto.
Qed.
Print Assumptions C109_calls.
(** C109: decoders opened one after the other all work with the table of the first. *)
Theorem C109_first_open : forall detected b l, Z.of_nat (length l) + 1 < 2 ^ 32 ->
  funcs (opens detected (b :: l)) = fill_table (chosen b detected) (fun _ => None).
Proof. exact opens_first. Qed.
Print Assumptions C109_first_open.
(** C109: on a machine that has with an instruction set also the smaller ones, every call but one reaches a function whose instructions the machine has. *)
Theorem C109_runs_partial : forall cpu xcr0 b l c, regular cpu -> Z.of_nat (length l) + 1 < 2 ^ 32 -> made c = true -> c <> c_second_4x4 ->
  exists s f v, called c = Done s /\ funcs (opens (cpu_detect cpu xcr0) (b :: l)) s = Some (f, v) /\ right c f = true /\
  forall i, In i (needs (f, v)) -> usable cpu xcr0 i = true.
Proof.
  intros cpu xcr0 b l c R L H N. destruct (reached c H) as (s & C & K). rewrite opens_first by exact L.
  destruct (K (chosen b (cpu_detect cpu xcr0)) (fun _ => None)) as (a & I & T & O & F & W). destruct (value a) as [f v] eqn:V. exists s, f, v.
  repeat (split; [assumption|]). intros i Hi. rewrite <- V in Hi. refine (runs cpu xcr0 b a i R I _ O Hi).
  intros E. apply N, called_second; [exact H|]. rewrite C. congruence.
Qed.
Print Assumptions C109_runs_partial.
(** C109: with [disable_avx] given to the first decoder no call reaches a function that needs AVX. *)
Theorem C109_without_avx : forall detected l c, Z.of_nat (length l) + 1 < 2 ^ 32 -> made c = true ->
  exists s f v, called c = Done s /\ funcs (opens detected (true :: l)) s = Some (f, v) /\ right c f = true /\ ~ In AVX (needs (f, v)) /\ ~ In AVX2 (needs (f, v)).
Proof.
  intros detected l c L H. destruct (reached c H) as (s & C & K). rewrite opens_first by exact L.
  destruct (K (chosen true detected) (fun _ => None)) as (a & I & T & O & F & W). pose proof (no_avx detected a I O) as A. destruct (value a) as [f v] eqn:V. exists s, f, v. auto 6.
Qed.
Print Assumptions C109_without_avx.

(** A processor with SSSE3 and without SSE4.1 (the first Core 2). *)
Definition core2 (leaf : Z) : regs :=
  if leaf =? 0 then Regs 10 1970169159 1818588270 1231384169 else if leaf =? 1 then Regs 1782 0 58301 3219913727 else Regs 0 0 0 0.
(** C109: the secondary transform of 4x4 blocks uses SSE4.1 and is chosen for SSE2 alone: this machine has no such instructions. *)
Theorem C109_second_refuted : exists cpu, regular cpu /\ exists f v,
  called c_second_4x4 = Done s_inv_4x4_2nd /\ funcs (opens (cpu_detect cpu 0) [false]) s_inv_4x4_2nd = Some (f, v) /\
  In SSE41 (needs (f, v)) /\ usable cpu 0 SSE41 = false /\ usable cpu 0 SSSE3 = true.
Proof.
  exists core2. split; [repeat split; vm_compute; congruence|]. exists f_inv_4x4_2nd, v_sse128. split; [reflexivity|].
  split; [vm_compute; reflexivity|]. split; [right; left; reflexivity|]. split; vm_compute; reflexivity.
Qed.
Print Assumptions C109_second_refuted.
(** C109: [disable_avx] of a later decoder changes nothing, its calls go on reaching AVX2 functions. *)
Theorem C109_disable_avx_refuted : exists cpu xcr0 f v, regular cpu /\ made (c_idct 16 16 0) = true /\
  funcs (opens (cpu_detect cpu xcr0) [false; true]) (s_idct PART_16x16 DCT_DEAULT) = Some (f, v) /\ called (c_idct 16 16 0) = Done (s_idct PART_16x16 DCT_DEAULT) /\ In AVX2 (needs (f, v)).
Proof.
  exists ex_cpu, 7, (f_idct 16 16 0), v_avx2. split; [repeat split; vm_compute; congruence|]. split; [reflexivity|]. split; [vm_compute; reflexivity|].
  split; [reflexivity|]. cbn. tauto.
Qed.
Print Assumptions C109_disable_avx_refuted.
Example C109_nonvacuous : made (c_luma 48 64 0 0) = true /\ made (c_chroma 6 8 0 0) = true /\ made (c_idct 8 32 2) = true /\ regular ex_cpu /\
  called (c_chroma 6 8 0 0) = Done s_block_copy /\ called (c_chroma 16 12 0 0) = Done (s_copy_pp PART_16x12) /\ part_index 6 8 = Done PART_4x8 /\ part_index 20 4 = Undef /\
  funcs (opens (cpu_detect ex_cpu 7) [false]) (s_intra 22) = Some (f_ang_xy_n 22, v_sse128) /\
  funcs (opens (cpu_detect ex_cpu 3) [false]) (s_luma_ver 1 2) = Some (f_luma_ver_n 2, v_sse128).
Proof. repeat split; vm_compute; congruence. Qed.
