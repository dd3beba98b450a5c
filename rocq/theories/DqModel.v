(** Dequantisation in assembly. Definitions only. Memory is bytes, registers are the ones of
    VxModelBase; instruction names are those of the assembly file. *)
From Coq Require Import ZArith List Bool.
From Verif Require Import CBase MemModel VxModelBase.
Open Scope Z_scope.

(** [movq] of a general register, [pshufd] with 0, sign extension of four words, and the operations on double
    words. The count of [psrad] is the lower 64 bits of the second register; more than 31 counts as 31. *)
Definition movq (v : Z) : reg := fun k => if k <? 8 then to_u8 (v / 256 ^ k) else 0.
Definition q_of (r : reg) : Z := fold_right (fun k a => r k + 256 * a) 0 (0 :: 1 :: 2 :: 3 :: 4 :: 5 :: 6 :: 7 :: nil).
Definition pshufd0 (a : reg) : reg := mk32 (fun _ => i32_of a 0).
Definition pmovsxwd (m : mem) (p : Z) : reg := mk32 (fun i => i16_of (load m p) i).
Definition pmulld (a b : reg) : reg := mk32 (fun i => i32_of a i * i32_of b i).
Definition paddd (a b : reg) : reg := mk32 (fun i => i32_of a i + i32_of b i).
Definition psrad (a c : reg) : reg := mk32 (fun i => Z.shiftr (i32_of a i) (Z.min 31 (q_of c))).

(** x86/quant8.asm:58-85, one turn of the loop with [r0] = [p]. *)
Definition dequant_turn (m4 m5 m6 : reg) (p : Z) (m : mem) : mem :=
  let m0 := pmovsxwd m p in let m1 := pmovsxwd m (p + 8) in
  let m2 := pmovsxwd m (p + 16) in let m3 := pmovsxwd m (p + 24) in
  let m0 := pmulld m0 m4 in let m1 := pmulld m1 m4 in let m2 := pmulld m2 m4 in let m3 := pmulld m3 m4 in
  let m0 := paddd m0 m5 in let m1 := paddd m1 m5 in let m2 := paddd m2 m5 in let m3 := paddd m3 m5 in
  let m0 := psrad m0 m6 in let m1 := psrad m1 m6 in let m2 := psrad m2 m6 in let m3 := psrad m3 m6 in
  let m0 := packs_epi32 m0 m1 in
  let m2 := packs_epi32 m2 m3 in
  let m := store16 m p m0 in
  store16 m (p + 16) m2.
(** x86/quant8.asm:44-86 [dequant_sse4]. [r0] .. [r3] are the 64-bit registers the four arguments come in; of an
    [int] argument the calling convention (System V) fixes only the lower 32 bits. [mova] faults on an address that
    is not a multiple of 16. The loop tests its counter at the end, so a counter of 0 means 2^64 turns. *)
Definition dequant_sse4 (r0 r1 r2 r3 : Z) (m : mem) : outcome mem :=
  let m4 := movq r2 in
  let m6 := movq r3 in
  let r3 := to_u64 (r3 - 1) in
  let r1 := Z.shiftr r1 4 in
  let r2 := 2 ^ (r3 mod 64) in
  let m5 := movq r2 in
  let m4 := pshufd0 m4 in
  let m5 := pshufd0 m5 in
  let turns := if r1 =? 0 then 18446744073709551616 else r1 in
  if negb (r0 mod 16 =? 0) then Undef
  else Done (loop (Z.to_nat turns) (fun i m => dequant_turn m4 m5 m6 (r0 + 32 * i) m) m).
