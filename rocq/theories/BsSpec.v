(** Independent specification of emulation prevention and start-code search. *)
From Coq Require Import ZArith List Bool.
From Verif Require Import CBase.
Import ListNotations.
Open Scope Z_scope.

(** *** Removal, specified on bits.
    [rp] is the part of the unit before the current byte, most recent byte first. *)

(** Type byte of the most recent start code 00 00 01 tt. *)
Fixpoint last_type (rp : list Z) : option Z :=
  match rp with
  | [] => None
  | t :: r =>
      match r with
      | 1 :: 0 :: 0 :: _ => Some t
      | _ => last_type r
      end
  end.

(** Emulation prevention applies to everything except sequence headers, user data and
    extension data. *)
Definition protected (rp : list Z) : bool :=
  match last_type rp with
  | Some t => negb ((t =? 176) || (t =? 178) || (t =? 181))
  | None => false
  end.

Definition two_zeros (rp : list Z) : bool :=
  match rp with 0 :: 0 :: _ => true | _ => false end.
Definition exactly_two_zeros (rp : list Z) : bool :=
  match rp with
  | [0; 0] => true
  | 0 :: 0 :: x :: _ => negb (x =? 0)
  | _ => false
  end.

Definition is_pseudo (rp : list Z) (b : Z) : bool :=
  (b =? 2) && exactly_two_zeros rp && protected rp.
Definition is_start (rp : list Z) (b : Z) : bool := (b =? 1) && two_zeros rp.

Definition pad8 (l : list bool) : list bool :=
  l ++ repeat false ((8 - length l mod 8) mod 8).

(** The cleaned unit as a bit string. *)
Fixpoint clean_bits (rp : list Z) (out : list bool) (l : list Z) : list bool :=
  match l with
  | [] => out
  | b :: t =>
      let out := if is_start rp b then pad8 out else out in
      let bits := if is_pseudo rp b then firstn 6 (byte_bits b) else byte_bits b in
      clean_bits (b :: rp) (out ++ bits) t
  end.

(** Packing into bytes; a last incomplete group is kept (zero padded) only if it
    contains a one bit. *)
Definition pack (l : list bool) : list Z :=
  let rest := skipn (8 * (length l / 8)) l in
  bytes_of l ++ (if existsb (fun b => b) rest then bytes_of (pad8 rest) else []).

Definition clean (l : list Z) : list Z := pack (clean_bits [] [] l).

(** No start code of the unit has type byte 01 or 02. *)
Definition no_small_type (l : list Z) : Prop :=
  forall p s t, l = p ++ [0; 0; 1; t] ++ s -> t <> 1 /\ t <> 2.

(** The unit does not end in an emulation-prevention byte. *)
Definition ends_pseudo (l : list Z) : bool :=
  match rev l with
  | b :: rp => is_pseudo rp b
  | [] => false
  end.

(** *** Encoder: protects a payload given as bits. [z] is the number of zero bytes
    just written (saturating at 2). Whenever two zero bytes were written and the next
    six payload bits are zero, the byte 000000'10 is written instead. *)
Fixpoint protect (fuel : nat) (z : nat) (bits : list bool) : list Z :=
  match fuel with
  | O => []
  | S fuel =>
      match bits with
      | [] => []
      | _ =>
          let six := firstn 6 (pad8 bits) in
          if (2 <=? z)%nat && negb (existsb (fun b => b) six)
          then 2 :: protect fuel 0 (skipn 6 bits)
          else
            let b := be_val (firstn 8 (pad8 bits)) in
            b :: protect fuel (if b =? 0 then S z else O) (skipn 8 bits)
      end
  end.

(** A start code of type [t] followed by the protected payload bytes. *)
Definition protect_unit (t : Z) (payload : list Z) : list Z :=
  [0; 0; 1; t] ++
  protect (S (length (bits_of payload))) (if t =? 0 then 1%nat else 0%nat) (bits_of payload).

(** *** Start-code search. [sc_at l i]: the bytes 00 00 01 tt start at offset [i]. *)
Definition sc_at (l : list Z) (i : nat) (t : Z) : Prop :=
  nth_error l i = Some 0 /\ nth_error l (i + 1) = Some 0 /\
  nth_error l (i + 2) = Some 1 /\ nth_error l (i + 3) = Some t.

(** Unit-opening types: sequence header, sequence end, I picture, P/B picture, edit. *)
Definition opens_unit (t : Z) : Prop :=
  t = 176 \/ t = 177 \/ t = 179 \/ t = 182 \/ t = 183.

(** Overlap of a unit start code with an earlier slice start code of type 0. *)
Definition hidden (l : list Z) (q : nat) : Prop := exists s, q = (s + 3)%nat /\ sc_at l s 0.
