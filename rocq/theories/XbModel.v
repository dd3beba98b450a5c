(** The 8x8 inverse transform in assembly. Definitions only. A register is read as 8 words or as 4 double
    words, lowest first; memory is one element for a [coeff_t], as in [TrModel]. *)
From Coq Require Import ZArith List Bool.
From Verif Require Import CBase MemModel VxModelBase.
Import ListNotations.
Open Scope Z_scope.

(** The instructions, from words or double words to words or double words. *)
Definition at_ (l : list Z) (k : nat) : Z := nth k l 0.
Definition punpcklwd (a b : list Z) : list Z := [at_ a 0; at_ b 0; at_ a 1; at_ b 1; at_ a 2; at_ b 2; at_ a 3; at_ b 3].
Definition punpckhwd (a b : list Z) : list Z := [at_ a 4; at_ b 4; at_ a 5; at_ b 5; at_ a 6; at_ b 6; at_ a 7; at_ b 7].
Definition pmaddwd (a b : list Z) : list Z :=
  [to_i32 (at_ a 0 * at_ b 0 + at_ a 1 * at_ b 1); to_i32 (at_ a 2 * at_ b 2 + at_ a 3 * at_ b 3);
   to_i32 (at_ a 4 * at_ b 4 + at_ a 5 * at_ b 5); to_i32 (at_ a 6 * at_ b 6 + at_ a 7 * at_ b 7)].
Definition paddd (a b : list Z) : list Z :=
  [to_i32 (at_ a 0 + at_ b 0); to_i32 (at_ a 1 + at_ b 1); to_i32 (at_ a 2 + at_ b 2); to_i32 (at_ a 3 + at_ b 3)].
Definition psubd (a b : list Z) : list Z :=
  [to_i32 (at_ a 0 - at_ b 0); to_i32 (at_ a 1 - at_ b 1); to_i32 (at_ a 2 - at_ b 2); to_i32 (at_ a 3 - at_ b 3)].
Definition psrad (a : list Z) (n : Z) : list Z := [Z.shiftr (at_ a 0) n; Z.shiftr (at_ a 1) n; Z.shiftr (at_ a 2) n; Z.shiftr (at_ a 3) n].
Definition packssdw (a b : list Z) : list Z :=
  [sat_i16 (at_ a 0); sat_i16 (at_ a 1); sat_i16 (at_ a 2); sat_i16 (at_ a 3); sat_i16 (at_ b 0); sat_i16 (at_ b 1); sat_i16 (at_ b 2); sat_i16 (at_ b 3)].
Definition phaddd (a b : list Z) : list Z :=
  [to_i32 (at_ a 0 + at_ a 1); to_i32 (at_ a 2 + at_ a 3); to_i32 (at_ b 0 + at_ b 1); to_i32 (at_ b 2 + at_ b 3)].
Definition phsubd (a b : list Z) : list Z :=
  [to_i32 (at_ a 0 - at_ a 1); to_i32 (at_ a 2 - at_ a 3); to_i32 (at_ b 0 - at_ b 1); to_i32 (at_ b 2 - at_ b 3)].
Definition punpckhqdq (a b : list Z) : list Z := [at_ a 2; at_ a 3; at_ b 2; at_ b 3].
(** [pshufd] with the four fields of its immediate, lowest first; [pshufb] whose table moves whole words, given by their numbers. *)
Definition pshufd (a : list Z) (i0 i1 i2 i3 : nat) : list Z := [at_ a i0; at_ a i1; at_ a i2; at_ a i3].
Definition pshufb (a : list Z) (t : list nat) : list Z := map (at_ a) t.
Definition low (a : list Z) : list Z := [at_ a 0; at_ a 1; at_ a 2; at_ a 3].
Definition high (a : list Z) : list Z := [at_ a 4; at_ a 5; at_ a 6; at_ a 7].

(** x86/dct8.asm:37-41, 56-76: the tables. *)
Definition two (a b : Z) : list Z := [a; b; a; b; a; b; a; b].
Definition pb_idct8even : list nat := [0; 4; 2; 6; 0; 4; 2; 6]%nat.
Definition pb_idct8odd : list nat := [1; 3; 5; 7; 1; 3; 5; 7]%nat.
Definition tab_idct8_1 : list Z := [32; -32; 17; -42; 32; 32; 42; 17].
Definition tab_idct8_2a : list Z := [44; 38; 25; 9; 38; -9; -44; -25].
Definition tab_idct8_2b : list Z := [25; -44; 9; 38; 9; -25; 38; -44].

(** x86/dct8.asm:294-387 [patial_butterfly_inverse_internal_pass1]: [q0] .. [q7] are the four words at r0 + 16 k;
    the result is what is stored at r5 + 16 k, k = 0 .. 7. *)
Definition pass1 (q0 q1 q2 q3 q4 q5 q6 q7 : list Z) : list (list Z) :=
  let m0 := q0 ++ q2 in
  let m1 := q4 ++ q6 in
  let m2 := punpckhwd m0 m1 in
  let m0 := punpcklwd m0 m1 in
  let m1 := pmaddwd m0 (two 32 32) in
  let m0 := pmaddwd m0 (two 32 (-32)) in
  let m3 := pmaddwd m2 (two 42 17) in
  let m2 := pmaddwd m2 (two 17 (-42)) in
  let m4 := paddd m1 m3 in
  let m1 := psubd m1 m3 in
  let m3 := paddd m0 m2 in
  let m0 := psubd m0 m2 in
  let m5 := [16; 16; 16; 16] in
  let m0 := paddd m0 m5 in
  let m1 := paddd m1 m5 in
  let m3 := paddd m3 m5 in
  let m4 := paddd m4 m5 in
  let m2 := q1 ++ q5 in
  let m5 := q3 ++ q7 in
  let m6 := punpcklwd m2 m5 in
  let m2 := punpckhwd m2 m5 in
  let m5 := pmaddwd m6 (two 44 38) in
  let m7 := pmaddwd m2 (two 25 9) in
  let m5 := paddd m5 m7 in
  let m7 := psrad (paddd m4 m5) 5 in
  let m4 := psrad (psubd m4 m5) 5 in
  let s0 := packssdw m7 m4 in
  let m5 := pmaddwd m6 (two 38 (-9)) in
  let m4 := pmaddwd m2 (two (-44) (-25)) in
  let m5 := paddd m5 m4 in
  let m4 := psrad (paddd m3 m5) 5 in
  let m3 := psrad (psubd m3 m5) 5 in
  let s1 := packssdw m4 m3 in
  let m5 := pmaddwd m6 (two 25 (-44)) in
  let m4 := pmaddwd m2 (two 9 38) in
  let m5 := paddd m5 m4 in
  let m4 := psrad (paddd m0 m5) 5 in
  let m0 := psrad (psubd m0 m5) 5 in
  let s2 := packssdw m4 m0 in
  let m5 := pmaddwd m6 (two 9 (-25)) in
  let m4 := pmaddwd m2 (two 38 (-44)) in
  let m5 := paddd m5 m4 in
  let m4 := psrad (paddd m1 m5) 5 in
  let m1 := psrad (psubd m1 m5) 5 in
  let s3 := packssdw m4 m1 in
  [low s0; low s1; low s2; low s3; high s3; high s2; high s1; high s0].

(** x86/dct8.asm:389-419 [PARTIAL_BUTTERFLY_PROCESS_ROW] for the words [w]; [m5] is what that register held before,
    [m6] the rounding and [sh] the shift. *)
Definition process_row (sh rnd : Z) (m5 w : list Z) : list Z :=
  let m6 := [rnd; rnd; rnd; rnd] in
  let m4 := pshufb w pb_idct8even in
  let m4 := pmaddwd m4 tab_idct8_1 in
  let m5 := phsubd m5 m4 in
  let m4 := pshufd m4 2 3 0 1 in
  let m4 := phaddd m4 m4 in
  let m4 := punpckhqdq m4 m5 in
  let m4 := paddd m4 m6 in
  let w := pshufb w pb_idct8odd in
  let m5 := pmaddwd w tab_idct8_2a in
  let w := pmaddwd w tab_idct8_2b in
  let m5 := phaddd m5 w in
  let w := psrad (paddd m4 m5) sh in
  let m4 := psrad (psubd m4 m5) sh in
  let m4 := pshufd m4 3 2 1 0 in
  packssdw w m4.

Definition ld4 (m : mem) (p : Z) : list Z := [m p; m (p + 1); m (p + 2); m (p + 3)].
Definition st8 (m : mem) (p : Z) (l : list Z) : mem := fun a => if (p <=? a) && (a <? p + 8) then at_ l (Z.to_nat (a - p)) else m a.
Definition half (m : mem) (p : Z) : list (list Z) :=
  pass1 (ld4 m p) (ld4 m (p + 8)) (ld4 m (p + 16)) (ld4 m (p + 24)) (ld4 m (p + 32)) (ld4 m (p + 40)) (ld4 m (p + 48)) (ld4 m (p + 56)).
(** x86/dct8.asm:421-485 [idct_8x8_ssse3] with [..._pass2]: the 16 stores to the stack come before the first store to [dst].
    The stack buffer is apart from [src] and [dst]; [i_dst] is the whole 64-bit register (see F107); [junk k] is what m5 holds
    before row [k]: after the first row that is a value of the row before, which no lane of the result uses. *)
Definition idct_8x8_ssse3 (d src dst i_dst : Z) (junk : nat -> list Z) (m : mem) : mem :=
  let sh := if d =? 10 then 10 else 12 in
  let rnd := if d =? 10 then 512 else 2048 in
  let l := half m src in let r := half m (src + 4) in
  let row k := process_row sh rnd (junk k) (nth k l [] ++ nth k r []) in
  let m := st8 m dst (row 0%nat) in
  let m := st8 m (dst + i_dst) (row 1%nat) in
  let m := st8 m (dst + 2 * i_dst) (row 2%nat) in
  let m := st8 m (dst + 3 * i_dst) (row 3%nat) in
  let dst := dst + 4 * i_dst in
  let m := st8 m dst (row 4%nat) in
  let m := st8 m (dst + i_dst) (row 5%nat) in
  let m := st8 m (dst + 2 * i_dst) (row 6%nat) in
  st8 m (dst + 3 * i_dst) (row 7%nat).
