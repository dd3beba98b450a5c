(** What the processor manuals say a feature needs, by register and bit number. *)
From Coq Require Import ZArith List Bool.
From Verif Require Import CpModel.
Open Scope Z_scope.

(** CPUID answers, and names MMX (leaf 1, edx bit 23) and CMOV (bit 15). *)
Definition works (cpu : Z -> regs) : bool := negb (eax (cpu 0) =? 0) && Z.testbit (edx (cpu 1)) 23.
Definition full (cpu : Z -> regs) : bool := works cpu && Z.testbit (edx (cpu 1)) 15.
(** The operating system saves XMM and YMM registers (XCR0 bits 1 and 2), asked only if OSXSAVE (ecx bit 27) and AVX (bit 28) are named. *)
Definition avx_usable (cpu : Z -> regs) (xcr0 : Z) : bool :=
  Z.testbit (ecx (cpu 1)) 27 && Z.testbit (ecx (cpu 1)) 28 && Z.testbit xcr0 1 && Z.testbit xcr0 2.
Definition avx2_named (cpu : Z -> regs) : bool := (7 <=? eax (cpu 0)) && Z.testbit (ebx (cpu 7)) 5.
(** Intel, family 6, models 9, 13 and 14: SSE2 and SSE3 are slower than MMX. *)
Definition pentium_m (cpu : Z -> regs) : bool :=
  let r := cpu 1 in
  (ebx (cpu 0) =? 1970169159) && (edx (cpu 0) =? 1231384169) && (ecx (cpu 0) =? 1818588270) &&
  ((eax r / 2 ^ 8) mod 16 + (eax r / 2 ^ 20) mod 256 =? 6) &&
  let m := (eax r / 2 ^ 4) mod 16 + (eax r / 2 ^ 16) mod 16 * 16 in (m =? 9) || (m =? 13) || (m =? 14).
(** Bit numbers of the library's word (defines.h:258-290). *)
Definition bit_mmx := 1.  Definition bit_sse := 3.  Definition bit_sse2 := 4.  Definition bit_sse3 := 5.  Definition bit_ssse3 := 6.
Definition bit_sse4 := 7.  Definition bit_sse42 := 8.  Definition bit_avx := 10.  Definition bit_avx2 := 13.  Definition bit_fma3 := 14.
(** The processors below [n] in a set. *)
Definition members (n : nat) (mask : Z -> bool) : list Z := filter mask (map Z.of_nat (seq 0 n)).
