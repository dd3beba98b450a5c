(** Properties C107 and C108: processor features, number of threads. *)
From Coq Require Import ZArith List Bool Lia String.
From Verif Require Import CBase CpModel CpSpec CpProofs CpProofsB.
Import ListNotations.
Open Scope Z_scope.

(** C107: an instruction set is reported exactly when the processor names it and, for AVX, AVX2 and FMA3, the operating system saves
    its registers; SSE2 and SSE3 of one old family are hidden. *)
Theorem C107_features : forall cpu xcr0, let d := cpu_detect cpu xcr0 in let r := cpu 1 in
  Z.testbit d bit_mmx = works cpu /\
  Z.testbit d bit_sse = works cpu && Z.testbit (edx r) 25 /\
  Z.testbit d bit_sse2 = full cpu && Z.testbit (edx r) 26 && negb (pentium_m cpu) /\
  Z.testbit d bit_sse3 = full cpu && Z.testbit (ecx r) 0 && negb (pentium_m cpu) /\
  Z.testbit d bit_ssse3 = full cpu && Z.testbit (ecx r) 9 /\
  Z.testbit d bit_sse4 = full cpu && Z.testbit (ecx r) 19 /\
  Z.testbit d bit_sse42 = full cpu && Z.testbit (ecx r) 20 /\
  Z.testbit d bit_avx = full cpu && avx_usable cpu xcr0 /\
  Z.testbit d bit_avx2 = full cpu && avx_usable cpu xcr0 && avx2_named cpu /\
  Z.testbit d bit_fma3 = full cpu && avx_usable cpu xcr0 && Z.testbit (ecx r) 12.
Proof. exact detect_bits. Qed.
Print Assumptions C107_features.
(** C107: [disable_avx] takes AVX and AVX2 away and nothing else. *)
Theorem C107_disable_avx : forall b c k, Z.testbit (chosen b c) k = Z.testbit c k && negb (b && ((k =? bit_avx) || (k =? bit_avx2))).
Proof. exact chosen_bits. Qed.
Print Assumptions C107_disable_avx.
(** C107: for every processor the text of its features fits the 120 bytes [davs2_decoder_open] has for it, with the zero. *)
Theorem C107_text_fits : forall cpu xcr0 b, (String.length (simd_text (chosen b (cpu_detect cpu xcr0))) + 1 <= 120)%nat.
Proof.
  intros cpu xcr0 b. pose proof (text_fits _ (chosen_exclusive b _ (detect_exclusive cpu xcr0))). lia.
Qed.
Print Assumptions C107_text_fits.
(** C107: this is a fact about processors: with all flags set the text would not fit. *)
Example C107_text_long : String.length (simd_text 134217727) = 153%nat.
Proof. reflexivity. Qed.

(** A processor with AVX2 and one with an old Intel vendor string whose leaf 2 holds only empty descriptors. *)
Definition ex_cpu (leaf : Z) : regs :=
  if leaf =? 0 then Regs 13 1752462657 1145913699 1769238117 else if leaf =? 1 then Regs 8851216 0 2128097803 395049983
  else if leaf =? 7 then Regs 0 563909033 0 0 else if leaf =? 2147483648 then Regs 2147483679 0 0 0 else if leaf =? 2147483649 then Regs 8851216 0 1975662591 802421759 else Regs 0 0 0 0.
Definition old_cpu (leaf : Z) : regs :=
  if leaf =? 0 then Regs 2 1970169159 1818588270 1231384169 else if leaf =? 1 then Regs 1632 0 0 58753535
  else if leaf =? 2 then Regs 16777217 0 0 0 else Regs 0 0 0 0.
Example C107_nonvacuous : full ex_cpu = true /\ avx_usable ex_cpu 7 = true /\ avx2_named ex_cpu = true /\
  simd_text (cpu_detect ex_cpu 7) = " MMX2 SSE2Fast SSSE3 SSE4.2 AVX AVX2 FMA3 LZCNT BMI2"%string /\
  simd_text (cpu_detect ex_cpu 3) = " MMX2 SSE2Fast SSSE3 SSE4.2 LZCNT BMI2"%string /\
  simd_text (chosen true (cpu_detect ex_cpu 7)) = " MMX2 SSE2Fast SSSE3 SSE4.2 LZCNT BMI2"%string.
Proof. repeat split; vm_compute; reflexivity. Qed.
(** C107: the length of a cache line is not what the descriptors say: [strchr] takes an empty descriptor for one of 64 bytes. *)
Theorem C107_cache_refuted : exists cpu, let r := cpu 2 in
  (forall x, In x [eax r; ebx r; ecx r; edx r] -> forall i, In i [0; 8; 16; 24] -> Z.land (Z.shiftr x i) 255 = 0 \/ Z.land (Z.shiftr x i) 255 = 1) /\
  Z.testbit (cpu_detect cpu 0) 18 = true.
Proof.
  exists old_cpu. cbv zeta. split; [|vm_compute; reflexivity]. intros x Hx i Hi. cbn in Hx, Hi.
  destruct Hx as [<-|[<-|[<-|[<-|[]]]]]; destruct Hi as [<-|[<-|[<-|[<-|[]]]]]; vm_compute; auto.
Qed.
Print Assumptions C107_cache_refuted.

(** C108: with a positive number of threads asked for, or none asked for and a processor found, the decoder opens with that number, at most 8,
    and its decoders fit the memory allocated for them. *)
Theorem C108_threads : forall threads mask, 1 <= (if threads <=? 0 then num_processors mask else threads) ->
  exists t, open_threads threads mask = Done (t, t + 1) /\ 1 <= t <= 8 /\ t + 1 <= AVS2_THREAD_MAX /\
  (1 <= threads -> t = Z.min threads 8) /\ (threads <= 0 -> t = Z.min (num_processors mask) 8).
Proof. exact threads_ok. Qed.
Print Assumptions C108_threads.
(** C108: the processors are counted rightly on machines whose usable ones are numbered below 128. *)
Theorem C108_processors_partial : forall mask n, (forall i, 128 <= i -> mask i = false) -> (128 <= n)%nat ->
  num_processors mask = Z.of_nat (List.length (members n mask)).
Proof.
  intros mask n H Hn. unfold num_processors. rewrite count_members. replace n with (128 + (n - 128))%nat by lia. rewrite members_more; [reflexivity|exact H].
Qed.
Print Assumptions C108_processors_partial.
(** C108: with all usable processors numbered from 128 on none is counted, and opening without a number of threads fails. *)
Theorem C108_processors_refuted : exists mask, members 1024 mask = [200; 201; 202; 203] /\ num_processors mask = 0 /\ open_threads 0 mask = Fail.
Proof. exists (fun i => (200 <=? i) && (i <? 204)). split; [vm_compute; reflexivity|]. split; reflexivity. Qed.
Print Assumptions C108_processors_refuted.
Example C108_nonvacuous : open_threads 0 (fun i => i <? 6) = Done (6, 7) /\ open_threads 3 (fun _ => false) = Done (3, 4) /\ open_threads 100 (fun _ => true) = Done (8, 9).
Proof. repeat split. Qed.
