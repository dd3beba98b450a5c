(** Copying and clearing memory in assembly and with intrinsics. Definitions only. Memory is
    bytes; a register of [n] bytes moves [n] bytes. Addresses are numbers without wrap. *)
From Coq Require Import ZArith List Bool.
From Verif Require Import CBase MemModel VxModelBase.
Import ListNotations.
Open Scope Z_scope.

(** x86/mc-a2.asm:412-446 [MEMCPY] for MMX ([mmsize] is 8): [memcpy_aligned_mmx]. [d] is r0, [s] is r1,
    [r2] the third register; an operation on [r2d] clears its upper half. *)
Definition copy2 (d s r2 : Z) (m : mem) : mem :=
  let m0 := load m (s + r2 - 8) in let m1 := load m (s + r2 - 16) in
  let m := store8 m (d + r2 - 8) m0 in
  store8 m (d + r2 - 16) m1.
Definition copy4 (d s r2 : Z) (m : mem) : mem :=
  let m0 := load m (s + r2 - 8) in let m1 := load m (s + r2 - 16) in
  let m2 := load m (s + r2 - 24) in let m3 := load m (s + r2 - 32) in
  let m := store8 m (d + r2 - 8) m0 in
  let m := store8 m (d + r2 - 16) m1 in
  let m := store8 m (d + r2 - 24) m2 in
  store8 m (d + r2 - 32) m3.
(** The loop of lines 430-440; the fuel is the number of turns allowed. [sub] then [jg] compares [r2d]
    as a signed number with 32. *)
Fixpoint copy4_loop (fuel : nat) (d s r2 : Z) (m : mem) : outcome mem :=
  match fuel with
  | O => Hang
  | S k => let m := copy4 d s r2 m in
           if 32 <? to_i32 r2 then copy4_loop k d s (to_u32 (r2 - 32)) m else Done m end.
Definition memcpy_aligned_mmx (d s n : Z) (m : mem) : outcome mem :=
  let '(r2, m) := if Z.testbit n 4 then (to_u32 (n - 16), copy2 d s n m) else (n, m) in
  if to_u32 r2 =? 0 then Done m else copy4_loop (S (Z.to_nat n)) d s r2 m.

(** A loop closed by [dec] and [jnz] and entered with a counter [c] above 0 makes [c] turns; all such
    loops below are jumped over when the counter is 0. *)
Definition times (c : Z) (f : Z -> mem -> mem) (m : mem) : mem := loop (Z.to_nat c) f m.
(** x86/mc-a2.asm:457-528 [fast_memcpy_mmx], for [n] below 2^63 ([sar] keeps the sign). *)
Definition copy64 (d s : Z) (m : mem) : mem :=
  let v k := load m (s + k * 8) in
  let m := store8 m (d + 0 * 8) (v 0) in let m := store8 m (d + 1 * 8) (v 1) in
  let m := store8 m (d + 2 * 8) (v 2) in let m := store8 m (d + 3 * 8) (v 3) in
  let m := store8 m (d + 4 * 8) (v 4) in let m := store8 m (d + 5 * 8) (v 5) in
  let m := store8 m (d + 6 * 8) (v 6) in store8 m (d + 7 * 8) (v 7).
Definition fast_memcpy_mmx (d s n : Z) (m : mem) : mem :=
  let r3 := Z.land n 7 in
  let r2 := Z.shiftr n 3 in
  let r4 := Z.land r2 7 in
  let r2 := Z.shiftr r2 3 in
  let m := times r2 (fun i m => copy64 (d + 64 * i) (s + 64 * i) m) m in
  let d := d + 64 * r2 in let s := s + 64 * r2 in
  let m := times r4 (fun i m => store8 m (d + 8 * i) (load m (s + 8 * i))) m in
  let d := d + 8 * r4 in let s := s + 8 * r4 in
  times r3 (fun i m => upd m (d + i) (m (s + i))) m.

(** x86/mc-a2.asm:573-602 [fast_memzero_mmx]. *)
Definition fast_memzero_mmx (d n : Z) (m : mem) : mem :=
  let r2 := Z.land n 7 in
  let r1 := Z.shiftr n 3 in
  let m := times r1 (fun i m => store8 m (d + 8 * i) setzero) m in
  let d := d + 8 * r1 in
  times r2 (fun i m => upd m (d + i) 0) m.
(** x86/mc-a2.asm:610-641 [fast_memset_mmx]: [movd], [pshufw] of the lowest word to all four, [packsswb]. *)
Definition fast_memset_mmx (d val n : Z) (m : mem) : mem :=
  let r3 := Z.land n 7 in
  let r2 := Z.shiftr n 3 in
  let m0 : reg := mk16 (fun _ => val) in
  let m0 : reg := mk8 (fun k => sat_i8 (i16_of m0 (k mod 4))) in
  let m := times r2 (fun i m => store8 m (d + 8 * i) m0) m in
  let d := d + 8 * r2 in
  times r3 (fun i m => upd m (d + i) (to_u8 val)) m.

(** vec/intrinsic_pixel.cc:118-130 [memzero_aligned_c_sse2] ([w] = 16) and vec/intrinsic_pixel_avx.cc:44-56
    [memzero_aligned_c_avx] ([w] = 32), for [n] below 2^31 * w (the count is cast to [int]). A store to an
    address that is not a multiple of [w] is a fault. *)
Definition memzero_aligned_c (w d n : Z) (m : mem) : outcome mem :=
  let i := n / w in
  if (0 <? i) && negb (d mod w =? 0) then Undef
  else Done (times i (fun k m => store_n w m (d + w * k) setzero) m).
