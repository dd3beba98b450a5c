(** MD5 after RFC 1321. *)
From Coq Require Import ZArith List Bool.
Import ListNotations.
Open Scope Z_scope.

Definition word := 4294967296.
(** The constants: the integer part of 2^32 times the absolute value of sin (i + 1), computed in fixed
    point with 200 bits after the point from 110 terms of the series. *)
Definition unit_ : Z := 2 ^ 200.
Fixpoint sine_terms (n : nat) (k x2 term : Z) : Z :=
  match n with O => 0 | S n => term + sine_terms n (k + 2) x2 (- (term * x2) / ((k + 1) * (k + 2))) end.
Definition sine (i : Z) : Z := sine_terms 110 1 (i * i) (i * unit_).
Definition sine_word (i : Z) : Z := Z.abs (sine (i + 1)) * word / unit_.
(** The order of words and the rotations of the four rounds. *)
Definition choice (i : Z) : Z :=
  (if i / 16 =? 0 then i else if i / 16 =? 1 then 5 * i + 1 else if i / 16 =? 2 then 3 * i + 5 else 7 * i) mod 16.
Definition turn (i : Z) : Z :=
  nth (Z.to_nat (i mod 4)) (if i / 16 =? 0 then [7; 12; 17; 22] else if i / 16 =? 1 then [5; 9; 14; 20]
                            else if i / 16 =? 2 then [4; 11; 16; 23] else [6; 10; 15; 21]) 0.
Definition complement (x : Z) : Z := word - 1 - x.
Definition mix (i b c d : Z) : Z :=
  if i / 16 =? 0 then Z.lor (Z.land b c) (Z.land (complement b) d)
  else if i / 16 =? 1 then Z.lor (Z.land b d) (Z.land c (complement d))
  else if i / 16 =? 2 then Z.lxor b (Z.lxor c d)
  else Z.lxor c (Z.lor b (complement d)).
Definition rotate (x s : Z) : Z := x * 2 ^ s mod word + x / 2 ^ (32 - s).
(** One of the 64 operations; the four words move on by one. *)
Definition operation (X : Z -> Z) (v : Z * Z * Z * Z) (i : Z) : Z * Z * Z * Z :=
  let '(a, b, c, d) := v in
  (d, (b + rotate ((a + mix i b c d + X (choice i) + sine_word i) mod word) (turn i)) mod word, b, c).
Definition number (l : list Z) : Z := fold_right (fun b v => b + 256 * v) 0 l.
Definition compress (v : Z * Z * Z * Z) (block : list Z) : Z * Z * Z * Z :=
  let X k := number (firstn 4 (skipn (Z.to_nat (4 * k)) block)) in
  let '(a, b, c, d) := v in
  let '(a', b', c', d') := fold_left (operation X) (map Z.of_nat (seq 0 64)) v in
  ((a + a') mod word, (b + b') mod word, (c + c') mod word, (d + d') mod word).
Fixpoint little (n : nat) (v : Z) : list Z := match n with O => [] | S n => v mod 256 :: little n (v / 256) end.
Definition padded (msg : list Z) : list Z :=
  let len := Z.of_nat (length msg) in
  msg ++ [128] ++ repeat 0 (Z.to_nat ((55 - len) mod 64)) ++ little 8 (8 * len).
Fixpoint blocks (n : nat) (l : list Z) : list (list Z) := match n with O => [] | S n => firstn 64 l :: blocks n (skipn 64 l) end.
Definition digest (msg : list Z) : list Z :=
  let p := padded msg in
  let '(a, b, c, d) := fold_left compress (blocks (length p / 64) p) (0x67452301, 0xefcdab89, 0x98badcfe, 0x10325476) in
  little 4 a ++ little 4 b ++ little 4 c ++ little 4 d.
(** Hexadecimal with capital letters. *)
Definition hexadecimal (bytes : list Z) : list Z :=
  flat_map (fun b => map (fun n => nth (Z.to_nat n) [48; 49; 50; 51; 52; 53; 54; 55; 56; 57; 65; 66; 67; 68; 69; 70] 0) [b / 16; b mod 16]) bytes.
