(** Vector registers and the SSE/AVX2 instructions that the kernels in source/common/vec use.
    A register is a function from the byte number (0 .. 15, or 0 .. 31 for AVX2; byte 0 is
    the one at the lowest address) to the byte, 0 .. 255; bytes beyond the width have no
    meaning and are never stored. Each definition transcribes the operation of the
    instruction as the Intel manual gives it, one element at a time; these definitions take
    the place of the C semantics for the kernels built from them. *)
From Coq Require Import ZArith List Bool.
From Verif Require Import CBase MemModel.
Import ListNotations.
Open Scope Z_scope.

Definition reg := Z -> Z.

(** Saturation of the packed instructions. *)
Definition sat_i8 (v : Z) : Z := Z.max (-128) (Z.min 127 v).
Definition sat_u8 (v : Z) : Z := Z.max 0 (Z.min 255 v).
Definition sat_i16 (v : Z) : Z := Z.max (-32768) (Z.min 32767 v).
Definition sat_u16 (v : Z) : Z := Z.max 0 (Z.min 65535 v).

(** Elements of a register: signed byte, unsigned and signed word, signed double word, and a
    register from its elements. *)
Definition i8_of (r : reg) (k : Z) : Z := to_i8 (r k).
Definition u16_of (r : reg) (i : Z) : Z := r (2 * i) + 256 * r (2 * i + 1).
Definition i16_of (r : reg) (i : Z) : Z := to_i16 (u16_of r i).
Definition i32_of (r : reg) (i : Z) : Z :=
  to_i32 (r (4 * i) + 256 * r (4 * i + 1) + 65536 * r (4 * i + 2) + 16777216 * r (4 * i + 3)).
Definition mk8 (f : Z -> Z) : reg := fun k => to_u8 (f k).
Definition mk16 (f : Z -> Z) : reg := fun k => if Z.even k then to_u8 (f (k / 2)) else to_u8 (f (k / 2) / 256).
Definition mk32 (f : Z -> Z) : reg := fun k => to_u8 (f (k / 4) / 256 ^ (k mod 4)).

(** Moves: [loadu]/[load]/[lddqu], stores of 4, 8, 16 and 32 bytes, the masked store of 16 bytes
    (bit 7 of each byte of the mask) and of eight double words (bit 31 of each). *)
Definition load (m : mem) (p : Z) : reg := fun k => m (p + k).
Definition store_n (n : Z) (m : mem) (p : Z) (r : reg) : mem :=
  fun q => if (p <=? q) && (q <? p + n) then r (q - p) else m q.
Definition store4 := store_n 4.
Definition store8 := store_n 8.
Definition store16 := store_n 16.
Definition store32 := store_n 32.
Definition maskmoveu (m : mem) (p : Z) (r mask : reg) : mem :=
  fun q => if (p <=? q) && (q <? p + 16) && Z.testbit (mask (q - p)) 7 then r (q - p) else m q.
Definition maskstore_epi32 (m : mem) (p : Z) (r mask : reg) : mem :=
  fun q => if (p <=? q) && (q <? p + 32) && Z.testbit (mask (4 * ((q - p) / 4) + 3)) 7 then r (q - p) else m q.

(** Constants. *)
Definition set1_epi8 (v : Z) : reg := mk8 (fun _ => v).
Definition set1_epi16 (v : Z) : reg := mk16 (fun _ => v).
Definition setzero : reg := fun _ => 0.
Definition setr_epi8 (l : list Z) : reg := fun k => to_u8 (nth (Z.to_nat k) l 0).

(** Bytewise operations. *)
Definition and_si (a b : reg) : reg := fun k => Z.land (a k) (b k).
Definition or_si (a b : reg) : reg := fun k => Z.lor (a k) (b k).
Definition andnot_si (a b : reg) : reg := fun k => Z.land (255 - a k) (b k).
Definition xor_si (a b : reg) : reg := fun k => Z.lxor (a k) (b k).
Definition min_epu8 (a b : reg) : reg := fun k => Z.min (a k) (b k).
Definition max_epu8 (a b : reg) : reg := fun k => Z.max (a k) (b k).
Definition avg_epu8 (a b : reg) : reg := fun k => (a k + b k + 1) / 2.
Definition cmpeq_epi8 (a b : reg) : reg := fun k => if a k =? b k then 255 else 0.
Definition cmpgt_epi8 (a b : reg) : reg := fun k => if i8_of b k <? i8_of a k then 255 else 0.
Definition add_epi8 (a b : reg) : reg := mk8 (fun k => a k + b k).
Definition sub_epi8 (a b : reg) : reg := mk8 (fun k => a k - b k).
Definition adds_epi8 (a b : reg) : reg := mk8 (fun k => sat_i8 (i8_of a k + i8_of b k)).
Definition subs_epi8 (a b : reg) : reg := mk8 (fun k => sat_i8 (i8_of a k - i8_of b k)).
Definition adds_epu8 (a b : reg) : reg := fun k => sat_u8 (a k + b k).
Definition subs_epu8 (a b : reg) : reg := fun k => sat_u8 (a k - b k).

(** Wordwise operations. *)
Definition add_epi16 (a b : reg) : reg := mk16 (fun i => i16_of a i + i16_of b i).
Definition sub_epi16 (a b : reg) : reg := mk16 (fun i => i16_of a i - i16_of b i).
Definition adds_epi16 (a b : reg) : reg := mk16 (fun i => sat_i16 (i16_of a i + i16_of b i)).
Definition subs_epi16 (a b : reg) : reg := mk16 (fun i => sat_i16 (i16_of a i - i16_of b i)).
Definition mullo_epi16 (a b : reg) : reg := mk16 (fun i => i16_of a i * i16_of b i).
Definition min_epi16 (a b : reg) : reg := mk16 (fun i => Z.min (i16_of a i) (i16_of b i)).
Definition max_epi16 (a b : reg) : reg := mk16 (fun i => Z.max (i16_of a i) (i16_of b i)).
Definition abs_epi16 (a : reg) : reg := mk16 (fun i => Z.abs (i16_of a i)).
Definition cmpeq_epi16 (a b : reg) : reg := mk16 (fun i => if u16_of a i =? u16_of b i then -1 else 0).
Definition cmpgt_epi16 (a b : reg) : reg := mk16 (fun i => if i16_of b i <? i16_of a i then -1 else 0).
Definition srai_epi16 (a : reg) (n : Z) : reg := mk16 (fun i => Z.shiftr (i16_of a i) n).
Definition srli_epi16 (a : reg) (n : Z) : reg := mk16 (fun i => Z.shiftr (u16_of a i) n).
Definition slli_epi16 (a : reg) (n : Z) : reg := mk16 (fun i => Z.shiftl (u16_of a i) n).
(** Unsigned bytes of [a] times signed bytes of [b], neighbours added with saturation. *)
Definition maddubs_epi16 (a b : reg) : reg :=
  mk16 (fun i => sat_i16 (a (2 * i) * i8_of b (2 * i) + a (2 * i + 1) * i8_of b (2 * i + 1))).

(** Operations that cross elements. AVX2 has them in each half of 16 bytes on its own; for an
    SSE register there is only the half 0. *)
Definition half (k : Z) : Z := 16 * (k / 16).
Definition shuffle_epi8 (a m : reg) : reg := fun k => if Z.testbit (m k) 7 then 0 else a (half k + Z.land (m k) 15).
Definition unpacklo_epi8 (a b : reg) : reg := fun k => let j := half k + (k mod 16) / 2 in if Z.even k then a j else b j.
Definition unpackhi_epi8 (a b : reg) : reg := fun k => let j := half k + 8 + (k mod 16) / 2 in if Z.even k then a j else b j.
(** Word [i] of the result is in the half [i / 8]; its lower four words come from [a]. *)
Definition hadds_epi16 (a b : reg) : reg :=
  mk16 (fun i => let h := 8 * (i / 8) in let j := i mod 8 in
                 if j <? 4 then sat_i16 (i16_of a (h + 2 * j) + i16_of a (h + 2 * j + 1))
                 else sat_i16 (i16_of b (h + 2 * (j - 4)) + i16_of b (h + 2 * (j - 4) + 1))).
(** Byte [k] of the result: words of [a] in the lower eight bytes of a half, of [b] in the upper. *)
Definition packus_epi16 (a b : reg) : reg :=
  fun k => let h := 8 * (k / 16) in let j := k mod 16 in
           if j <? 8 then sat_u8 (i16_of a (h + j)) else sat_u8 (i16_of b (h + j - 8)).
Definition packs_epi16 (a b : reg) : reg :=
  mk8 (fun k => let h := 8 * (k / 16) in let j := k mod 16 in
                if j <? 8 then sat_i8 (i16_of a (h + j)) else sat_i8 (i16_of b (h + j - 8))).
Definition packs_epi32 (a b : reg) : reg :=
  mk16 (fun i => let h := 4 * (i / 8) in let j := i mod 8 in
                 if j <? 4 then sat_i16 (i32_of a (h + j)) else sat_i16 (i32_of b (h + j - 4))).
(** Whole-register moves of the SSE form. *)
Definition srli_si128 (a : reg) (n : Z) : reg := fun k => if k + n <? 16 then a (k + n) else 0.
(** Words from the lower 8 (SSE) or 16 (AVX2) bytes. *)
Definition cvtepi8_epi16 (a : reg) : reg := mk16 (fun i => i8_of a i).
Definition cvtepu8_epi16 (a : reg) : reg := mk16 (fun i => a i).

(** AVX2: the halves, a register from two, and the four quarters permuted by an immediate. *)
Definition castsi256_si128 (a : reg) : reg := a.
Definition extracti128_1 (a : reg) : reg := fun k => a (16 + k).
Definition set_halves (lo hi : reg) : reg := fun k => if k <? 16 then lo k else hi (k - 16).
Definition permute4x64 (a : reg) (imm : Z) : reg :=
  fun k => a (8 * Z.land (Z.shiftr imm (2 * (k / 8))) 3 + k mod 8).

(** vec/intrinsic.cc:61-77 [intrinsic_mask]. *)
Definition intrinsic_mask : list (list Z) :=
  [ [-1; 0; 0; 0; 0; 0; 0; 0; 0; 0; 0; 0; 0; 0; 0; 0];
    [-1; -1; 0; 0; 0; 0; 0; 0; 0; 0; 0; 0; 0; 0; 0; 0];
    [-1; -1; -1; 0; 0; 0; 0; 0; 0; 0; 0; 0; 0; 0; 0; 0];
    [-1; -1; -1; -1; 0; 0; 0; 0; 0; 0; 0; 0; 0; 0; 0; 0];
    [-1; -1; -1; -1; -1; 0; 0; 0; 0; 0; 0; 0; 0; 0; 0; 0];
    [-1; -1; -1; -1; -1; -1; 0; 0; 0; 0; 0; 0; 0; 0; 0; 0];
    [-1; -1; -1; -1; -1; -1; -1; 0; 0; 0; 0; 0; 0; 0; 0; 0];
    [-1; -1; -1; -1; -1; -1; -1; -1; 0; 0; 0; 0; 0; 0; 0; 0];
    [-1; -1; -1; -1; -1; -1; -1; -1; -1; 0; 0; 0; 0; 0; 0; 0];
    [-1; -1; -1; -1; -1; -1; -1; -1; -1; -1; 0; 0; 0; 0; 0; 0];
    [-1; -1; -1; -1; -1; -1; -1; -1; -1; -1; -1; 0; 0; 0; 0; 0];
    [-1; -1; -1; -1; -1; -1; -1; -1; -1; -1; -1; -1; 0; 0; 0; 0];
    [-1; -1; -1; -1; -1; -1; -1; -1; -1; -1; -1; -1; -1; 0; 0; 0];
    [-1; -1; -1; -1; -1; -1; -1; -1; -1; -1; -1; -1; -1; -1; 0; 0];
    [-1; -1; -1; -1; -1; -1; -1; -1; -1; -1; -1; -1; -1; -1; -1; 0] ].
(** A row of it; [junk] is what a load beside the table finds there. *)
Definition mask_row (junk : reg) (i : Z) : reg :=
  match get intrinsic_mask i with Some row => setr_epi8 row | None => junk end.
