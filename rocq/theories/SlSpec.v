(** Coded pictures: slice headers as an encoder writes them, and pictures as a sequence of slices. *)
From Coq Require Import ZArith List Bool.
From Verif Require Import CBase VlcSpec HdrModel HdrSpec AecModel AecSpec SlModel.
Import ListNotations.
Open Scope Z_scope.

(** The slice header syntax (AVS2, 7.1.4): position of the first LCU and its extensions, fixed_slice_qp,
    slice_qp, three sample-adaptive-offset flags. *)
Record slice_syn := SliceSyn { y_row : Z; y_rowx : Z; y_col : Z; y_colx : Z; y_fix : bool; y_sqp : Z; y_on : bool * bool * bool }.

(** The extensions are present in pictures taller than 144 or wider than 255 LCUs. *)
Definition tall (g : pic) : bool := 144 * p_lcu g <? p_height g.
Definition wide (g : pic) : bool := 255 * p_lcu g <? p_width g.

(** The bits from the last byte of the start code on. *)
Definition slice_bits (g : pic) (y : slice_syn) : list bool :=
  u 8 (y_row y) ++ (if tall g then u 3 (y_rowx y) else []) ++ u 8 (y_col y) ++ (if wide g then u 2 (y_colx y) else [])
  ++ (if p_fixed g then [] else y_fix y :: u 7 (y_sqp y))
  ++ (if p_sao g then let '(a, b, c) := y_on y in [a; b; c] else []).
Definition slice_fits (y : slice_syn) : Prop :=
  0 <= y_row y <= 143 /\ fits 3 (y_rowx y) /\ fits 8 (y_col y) /\ fits 2 (y_colx y) /\ fits 7 (y_sqp y).

(** [l] stands in the memory from bit position [p] on. *)
Definition bits_at (mem : list Z) (p : Z) (l : list bool) : Prop :=
  exists pre post, bits_of mem = pre ++ l ++ post /\ Z.of_nat (length pre) = p.

(** A slice start code at byte [p]. *)
Definition slice_code (mem : list Z) (p : Z) : Prop :=
  get mem p = Some 0 /\ get mem (p + 1) = Some 0 /\ get mem (p + 2) = Some 1 /\ exists d, get mem (p + 3) = Some d /\ d <= 143.
(** [p] is the first slice start code at or after byte [q]. *)
Definition first_code (mem : list Z) (q p : Z) : Prop :=
  q <= p /\ slice_code mem p /\ forall j, q <= j < p -> ~ slice_code mem j.

(** Start code and header of the slice [y] at byte [p]. *)
Definition slice_at (g : pic) (mem : list Z) (p : Z) (y : slice_syn) : Prop :=
  get mem p = Some 0 /\ get mem (p + 1) = Some 0 /\ get mem (p + 2) = Some 1 /\ bits_at mem (8 * (p + 3)) (slice_bits g y).
(** Where its data begins: the first whole byte behind the header. *)
Definition data_start (g : pic) (p : Z) (y : slice_syn) : Z := p + 3 + (zlen (slice_bits g y) + 7) / 8.

Definition flag_of (b : bool) : Z := if b then 1 else 0.
(** What a header means: the quantiser, whether units may change it, and the offset flags. *)
Definition slice_meaning (g : pic) (old : shdr) (y : slice_syn) : shdr :=
  Shdr (if p_fixed g then p_qp g else y_sqp y)
       (if p_fixed g then false else negb (y_fix y))
       (if p_fixed g then h_fixed old else flag_of (y_fix y))
       (if p_sao g then let '(a, b, c) := y_on y in (flag_of a, flag_of b, flag_of c) else h_sao old).

Section Pictures.
Variable T : Type.
Variable new_slice : T -> T.
Variable reset_row : Z -> T -> T.
Variable lcu : Z -> Z -> shdr -> T -> aec -> outcome (T * aec * bool).

(** [n] LCUs from number [k] on with slice number [i] and header [hd]: the states before and after, and the flags decoded behind
    the LCUs. *)
Inductive run (i : Z) (hd : shdr) : Z -> nat -> T -> aec -> T -> aec -> list Z -> Prop :=
| run_0 : forall k t a, run i hd k O t a t a []
| run_S : forall k n t a t1 a1 a2 f t' a' fs,
    lcu k i hd t a = Done (t1, a1, false) -> decode_final a1 = Done (a2, f) ->
    run i hd (k + 1) n t1 a2 t' a' fs -> run i hd k (S n) t a t' a' (f :: fs).

(** A sequence of slices (byte position, header, number of LCUs) in the unit of [n] bytes at [mem], the first one with number [i] beginning with LCU
    [k]; [q] is the bit position reached before, [t] and [t'] the states before and after. Each slice is the first one at or behind
    the position reached, at most three bytes away; its end flag is 0 behind all its LCUs but the last. *)
Inductive slices (g : pic) (w : Z) (mem : list Z) (n : Z) : Z -> Z -> Z -> shdr -> T -> aec -> list (Z * slice_syn * nat) -> T -> Prop :=
| slices_nil : forall i k q hd t a, slices g w mem n i k q hd t a [] t
| slices_cons : forall i k q hd t a p y m a0 t1 a1 rest t',
    0 <= q -> first_code mem ((q + 7) / 8) p -> p <= (q + 7) / 8 + 3 ->
    slice_at g mem p y -> slice_fits y ->
    start_decoding mem (data_start g p y) n (bound a) (byte_buf a) = Done a0 -> err a0 = false ->
    run (to_i8 i) (slice_meaning g hd y) k (S m) (reset_row (k / w) (new_slice t)) a0 t1 a1 (repeat 0 m ++ [1]) ->
    slices g w mem n (i + 1) (k + Z.of_nat (S m)) (bits_read a1) (slice_meaning g hd y) t1 a1 rest t' ->
    slices g w mem n i k q hd t a ((p, y, S m) :: rest) t'.
End Pictures.

(** The LCUs [k], [k + 1], ..., all in slice [i]. *)
Fixpoint numbered (n : nat) (k i : Z) : list (Z * Z) :=
  match n with O => [] | S m => (k, i) :: numbered m (k + 1) i end.
(** The assignment of LCUs to slices a sequence of slices describes. *)
Fixpoint assigned (k i : Z) (l : list (Z * slice_syn * nat)) : list (Z * Z) :=
  match l with [] => [] | (_, _, n) :: r => numbered n k i ++ assigned (k + Z.of_nat n) (i + 1) r end.
Fixpoint lcus_of (l : list (Z * slice_syn * nat)) : Z :=
  match l with [] => 0 | (_, _, n) :: r => Z.of_nat n + lcus_of r end.
