(** Processor features and the number of threads.  Definitions only. *)
From Coq Require Import ZArith List Bool String.
From Verif Require Import CBase.
Import ListNotations.
Open Scope Z_scope.

(** The answer of the CPUID instruction; [cpu leaf].  A leaf asked twice answers the same (cpu.cc:345-360 asks leaf 2 again
    as often as its first byte says). *)
Record regs := Regs { eax : Z; ebx : Z; ecx : Z; edx : Z }.
(** defines.h:258-290 *)
Definition F_CMOV := 1.  Definition F_MMX := 2.  Definition F_MMX2 := 4.  Definition F_SSE := 8.  Definition F_SSE2 := 16.
Definition F_SSE3 := 32.  Definition F_SSSE3 := 64.  Definition F_SSE4 := 128.  Definition F_SSE42 := 256.  Definition F_LZCNT := 512.
Definition F_AVX := 1024.  Definition F_XOP := 2048.  Definition F_FMA4 := 4096.  Definition F_AVX2 := 8192.  Definition F_FMA3 := 16384.
Definition F_BMI1 := 32768.  Definition F_BMI2 := 65536.  Definition F_CACHE32 := 131072.  Definition F_CACHE64 := 262144.
Definition F_SLOW := 524288.  Definition F_FAST := 1048576.  Definition F_SHUFFLE := 2097152.  Definition F_STACK := 4194304.
Definition F_CTZ := 8388608.  Definition F_ATOM := 16777216.  Definition F_PSHUFB := 33554432.  Definition F_PALIGNR := 67108864.

(** [x & f] as a condition; [c |= f] and [c &= ~f] under a condition. *)
Definition any (x f : Z) : bool := negb (Z.land x f =? 0).
Definition setif (b : bool) (f c : Z) : Z := if b then Z.lor c f else c.
Definition clrif (b : bool) (f c : Z) : Z := if b then Z.ldiff c f else c.

(** [strcmp] of the vendor string, twelve bytes in ebx, edx, ecx (cpu.cc:189). *)
Definition vendor_is (r : regs) (b d c : Z) : bool := (ebx r =? b) && (edx r =? d) && (ecx r =? c).
Definition amd (r : regs) := vendor_is r 1752462657 1769238117 1145913699.
Definition intel (r : regs) := vendor_is r 1970169159 1231384169 1818588270.
Definition cyrix (r : regs) := vendor_is r 1769109827 1936607608 1684104564.

(** cpu.cc:339-341: the descriptors; [strchr] also finds the zero that ends the array. *)
Definition ids32 : list Z := [10; 12; 65; 66; 67; 68; 69; 130; 131; 132; 133; 0].
Definition ids64 : list Z := [34; 35; 37; 41; 44; 70; 71; 73; 96; 102; 103; 104; 120; 121; 122; 123; 124; 124; 127; 134; 135; 0].
Definition strchr (l : list Z) (x : Z) : bool := existsb (Z.eqb x) l.
(** cpu.cc:350-358: the loop over the bytes of one register. *)
Fixpoint bytes_loop (n : nat) (b cache : Z) : Z :=
  match n with
  | O => cache
  | S n => if b =? 0 then cache else
           let x := Z.land b 255 in
           let cache := if strchr ids32 x then 32 else cache in
           let cache := if strchr ids64 x then 64 else cache in
           bytes_loop n (Z.shiftr b 8) cache
  end.
Definition reg_cache (b cache : Z) : Z := if Z.shiftr b 31 =? 0 then bytes_loop 4 b cache else cache.
(** cpu.cc:345-361 *)
Definition leaf2_cache (r : regs) (cache : Z) : Z :=
  reg_cache (edx r) (reg_cache (ecx r) (reg_cache (ebx r) (reg_cache (Z.ldiff (eax r) 255) cache))).

(** cpu.cc:260-301, the extended leaf; [v] holds the vendor. *)
Definition detect_extended (cpu : Z -> regs) (c : Z) : Z :=
  let v := cpu 0 in
  let r := cpu 2147483649 in
  let c := setif (any (ecx r) 32) F_LZCNT c in
  let sse4a := any (ecx r) 64 in
  let family := Z.land (Z.shiftr (eax r) 8) 15 + Z.land (Z.shiftr (eax r) 20) 255 in
  let c := setif sse4a F_FAST c in
  let bobcat := sse4a && (family =? 20) in
  let c := clrif bobcat F_FAST c in
  let c := setif bobcat F_SLOW c in
  let c := setif bobcat F_PALIGNR c in
  let c := setif (sse4a && (family =? 22)) F_PSHUFB c in
  let avx := any c F_AVX in
  let c := setif (avx && any (ecx r) 2048) F_XOP c in
  let c := setif (avx && any (ecx r) 65536) F_FMA4 c in
  let c := setif (amd v && any (edx r) 4194304) F_MMX2 c in
  let c := setif (amd v && negb (any c F_LZCNT)) F_CTZ c in
  setif (amd v && (any c F_SSE2 && negb (any c F_FAST))) F_SLOW c.
(** cpu.cc:303-326, Intel's families. *)
Definition detect_intel (cpu : Z -> regs) (c : Z) : Z :=
  let r := cpu 1 in
  let family := Z.land (Z.shiftr (eax r) 8) 15 + Z.land (Z.shiftr (eax r) 20) 255 in
  let model := Z.land (Z.shiftr (eax r) 4) 15 + Z.land (Z.shiftr (eax r) 12) 240 in
  if negb (intel (cpu 0) && (family =? 6)) then c
  else if (model =? 9) || (model =? 13) || (model =? 14) then Z.ldiff c (F_SSE2 + F_SSE3)
  else if model =? 28 then Z.lor (Z.lor (Z.lor c F_ATOM) F_CTZ) F_PSHUFB
  else setif (any c F_SSSE3 && negb (any c F_SSE4) && (model <? 23)) F_SHUFFLE c.
(** cpu.cc:328-371, the length of a cache line. *)
Definition detect_cache (cpu : Z -> regs) (max_basic max_ext c : Z) : Z :=
  if (intel (cpu 0) || cyrix (cpu 0)) && negb (any c F_SSE42) then
    let cache := Z.shiftr (Z.land (ebx (cpu 1)) 65280) 5 in
    let cache := if (cache =? 0) && (2147483654 <=? max_ext) then Z.land (ecx (cpu 2147483654)) 255 else cache in
    let cache := if (cache =? 0) && (2 <=? max_basic) then leaf2_cache (cpu 2) cache else cache in
    if cache =? 32 then Z.lor c F_CACHE32 else if cache =? 64 then Z.lor c F_CACHE64 else c
  else c.
(** cpu.cc:174-378 [davs2_cpu_detect] of the 64-bit build; [xcr0] is the low half of what [davs2_cpu_xgetbv] returns. *)
Definition cpu_detect (cpu : Z -> regs) (xcr0 : Z) : Z :=
  let max_basic := eax (cpu 0) in
  if max_basic =? 0 then 0 else
  let r := cpu 1 in
  if negb (any (edx r) 8388608) then 0 else
  let c := F_MMX in
  let c := setif (any (edx r) 33554432) (F_MMX2 + F_SSE) c in
  if negb (any (edx r) 32768) then c else
  let c := Z.lor c F_CMOV in
  let c := setif (any (edx r) 67108864) F_SSE2 c in
  let c := setif (any (ecx r) 1) F_SSE3 c in
  let c := setif (any (ecx r) 512) F_SSSE3 c in
  let c := setif (any (ecx r) 524288) F_SSE4 c in
  let c := setif (any (ecx r) 1048576) F_SSE42 c in
  let avx := (Z.land (ecx r) 402653184 =? 402653184) && (Z.land xcr0 6 =? 6) in
  let c := setif avx F_AVX c in
  let c := setif (avx && any (ecx r) 4096) F_FMA3 c in
  let r7 := cpu 7 in
  let ext7 := 7 <=? max_basic in
  let c := setif (ext7 && (any c F_AVX && any (ebx r7) 32)) F_AVX2 c in
  let c := setif (ext7 && any (ebx r7) 8) F_BMI1 c in
  let c := setif (ext7 && (any (ebx r7) 8 && any (ebx r7) 256)) F_BMI2 c in
  let c := setif (any c F_SSSE3) F_FAST c in
  let max_ext := eax (cpu 2147483648) in
  let c := if 2147483649 <=? max_ext then detect_extended cpu c else c in
  detect_cache cpu max_basic max_ext (detect_intel cpu c).
(** davs2.cc:469-472 *)
Definition chosen (disable_avx : bool) (c : Z) : Z := clrif disable_avx (F_AVX + F_AVX2) c.

Open Scope string_scope.
(** cpu.cc:85-131 [davs2_cpu_names] *)
Definition M2 := F_MMX + F_MMX2 + F_CMOV.
Definition S2 := M2 + F_SSE + F_SSE2.
Definition AV := S2 + F_SSE3 + F_SSSE3 + F_SSE4 + F_SSE42 + F_AVX.
Definition cpu_names : list (string * Z) :=
  [("MMX2", M2); ("MMXEXT", M2); ("SSE", M2 + F_SSE); ("SSE2Slow", S2 + F_SLOW); ("SSE2", S2); ("SSE2Fast", S2 + F_FAST);
   ("SSE3", S2 + F_SSE3); ("SSSE3", S2 + F_SSE3 + F_SSSE3); ("SSE4.1", S2 + F_SSE3 + F_SSSE3 + F_SSE4);
   ("SSE4", S2 + F_SSE3 + F_SSSE3 + F_SSE4); ("SSE4.2", S2 + F_SSE3 + F_SSSE3 + F_SSE4 + F_SSE42);
   ("AVX", AV); ("XOP", AV + F_XOP); ("FMA4", AV + F_FMA4); ("AVX2", AV + F_AVX2); ("FMA3", AV + F_FMA3);
   ("Cache32", F_CACHE32); ("Cache64", F_CACHE64); ("LZCNT", F_LZCNT); ("BMI1", F_BMI1); ("BMI2", F_BMI1 + F_BMI2);
   ("SlowCTZ", F_CTZ); ("SlowAtom", F_ATOM); ("SlowPshufb", F_PSHUFB); ("SlowPalignr", F_PALIGNR); ("SlowShuffle", F_SHUFFLE);
   ("UnalignedStack", F_STACK)].
(** cpu.cc:141-155, the names left out. *)
Definition left_out (name : string) (c : Z) : bool :=
  ((name =? "SSE") && any c F_SSE2) || ((name =? "SSE2") && any c (F_FAST + F_SLOW)) ||
  ((name =? "SSE3") && (any c F_SSSE3 || negb (any c F_CACHE64))) || ((name =? "SSE4.1") && any c F_SSE42) || ((name =? "BMI1") && any c F_BMI2).
(** cpu.cc:135-159; [prev] is the entry before, none for the first. *)
Fixpoint names_loop (c : Z) (prev : option Z) (l : list (string * Z)) : string :=
  match l with
  | [] => ""
  | (name, f) :: l =>
    let same := match prev with None => false | Some g => (f =? g)%Z end in
    (if negb (left_out name c) && ((Z.land c f =? f)%Z && negb same) then " " ++ name else "") ++ names_loop c (Some f) l
  end.
(** [%x] of a 32-bit number. *)
Fixpoint hex (n : nat) (x : Z) : string :=
  match n with
  | O => ""
  | S n => (if (x <? 16)%Z then "" else hex n (Z.shiftr x 4)) ++ String.substring (Z.to_nat (Z.land x 15)) 1 "0123456789abcdef"
  end.
(** cpu.cc:135-165 [davs2_get_simd_capabilities] *)
Definition simd_text (c : Z) : string :=
  let t := names_loop c None cpu_names in if t =? "" then " none! 0x" ++ hex 8 c else t.

(** cpu.cc:400-408 [davs2_cpu_num_processors] on Linux: [mask] is the set [sched_getaffinity] fills, [sizeof(cpu_set_t)] = 128 bytes
    of 8 processors each. *)
Fixpoint count_bits (n : nat) (mask : Z -> bool) : Z :=
  match n with O => 0 | S n => count_bits n mask + (if mask (Z.of_nat n) then 1 else 0) end%Z.
Definition num_processors (mask : Z -> bool) : Z := count_bits 128 mask.
(** davs2.cc:442, 495-550: the part of [davs2_decoder_open] that settles the threads, CTRL_AEC_THREAD = 0; the result is
    (num_total_thread, num_decoders), [Fail] for the null pointer. *)
Definition AVS2_THREAD_MAX : Z := 16.
Definition open_threads (threads : Z) (mask : Z -> bool) : outcome (Z * Z) :=
  (let max := AVS2_THREAD_MAX / 2 in
  let t := if threads <=? 0 then num_processors mask else threads in
  let t := if max <? t then max else t in
  let dec := t + 1 in
  if (t <? 1) || (dec <? t) then Fail else Done (t, dec))%Z.
