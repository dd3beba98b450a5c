(** Shared vocabulary: C integer conversions, bytes and bit strings.
    Definitions only; no davs2 code is modelled here except where cited. *)
From Coq Require Import ZArith List Bool Lia.
Import ListNotations.
Open Scope Z_scope.

(** Representability in the C integer types used by davs2
    (source/common/defines.h and <stdint.h>). *)
Definition in_i8  (z : Z) : Prop := -128 <= z <= 127.
Definition in_u8  (z : Z) : Prop := 0 <= z <= 255.
Definition in_i16 (z : Z) : Prop := -32768 <= z <= 32767.
Definition in_i32 (z : Z) : Prop := -2147483648 <= z <= 2147483647.
Definition in_u32 (z : Z) : Prop := 0 <= z <= 4294967295.

(** Conversion (wrapping) to the fixed-width types. *)
Definition to_u8  (z : Z) : Z := z mod 256.
Definition to_u16 (z : Z) : Z := z mod 65536.
Definition to_u32 (z : Z) : Z := z mod 4294967296.
Definition to_u64 (z : Z) : Z := z mod 18446744073709551616.
Definition to_i8  (z : Z) : Z := (z + 128) mod 256 - 128.
Definition to_i16 (z : Z) : Z := (z + 32768) mod 65536 - 32768.
Definition to_i32 (z : Z) : Z := (z + 2147483648) mod 4294967296 - 2147483648.

(** A byte string is a list of integers 0..255. *)
Definition bytes_ok (l : list Z) : Prop := Forall (fun b => 0 <= b <= 255) l.

(** Checked read: [None] is an access outside the object. *)
Definition get {A : Type} (l : list A) (i : Z) : option A :=
  if i <? 0 then None else nth_error l (Z.to_nat i).

(** Checked write. *)
Fixpoint upd_nat {A : Type} (l : list A) (n : nat) (v : A) : list A :=
  match l, n with
  | [], _ => []
  | _ :: t, O => v :: t
  | h :: t, S m => h :: upd_nat t m v
  end.
Definition set {A : Type} (l : list A) (i : Z) (v : A) : option (list A) :=
  if (i <? 0) || (Z.of_nat (length l) <=? i) then None
  else Some (upd_nat l (Z.to_nat i) v).

(** Bits of a byte, most significant first, and of a byte string. *)
Definition byte_bits (b : Z) : list bool :=
  [Z.testbit b 7; Z.testbit b 6; Z.testbit b 5; Z.testbit b 4;
   Z.testbit b 3; Z.testbit b 2; Z.testbit b 1; Z.testbit b 0].
Definition bits_of (l : list Z) : list bool := flat_map byte_bits l.

(** Big-endian value of a bit string. *)
Definition be_val (l : list bool) : Z := fold_left (fun a b => 2 * a + Z.b2z b) l 0.

(** Bytes of a bit string (complete groups of eight; a final incomplete group is
    dropped). *)
Fixpoint bytes_of (l : list bool) : list Z :=
  match l with
  | a :: b :: c :: d :: e :: f :: g :: h :: t =>
      be_val [a; b; c; d; e; f; g; h] :: bytes_of t
  | _ => []
  end.

(** Outcome of a C function: [Done v] normal return, [Fail] the function's own
    error return, [Undef] undefined behaviour (access outside an object, signed
    overflow, over-wide shift), [Hang] the loop did not end within the fuel given
    by the model (every theorem excludes it). *)
Inductive outcome (A : Type) : Type :=
| Done (a : A) | Fail | Undef | Hang.
Arguments Done {A} a.  Arguments Fail {A}.  Arguments Undef {A}.  Arguments Hang {A}.

Definition bindo {A B : Type} (o : outcome A) (f : A -> outcome B) : outcome B :=
  match o with Done a => f a | Fail => Fail | Undef => Undef | Hang => Hang end.
