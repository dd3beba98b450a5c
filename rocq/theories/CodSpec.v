(** The arithmetic code, told from the side of the encoder: a sequence of bins narrows an
    interval of binary fractions, in exact integers of any size. *)
From Coq Require Import ZArith List Bool.
From Verif Require Import CBase AecModel AecSpec.
Import ListNotations.
Open Scope Z_scope.

(** The interval is [c_low / 2^c_prec, (c_low + c_range) / 2^c_prec); [c_run] is the number
    of doublings since the last bin of the upper kind. *)
Record coder := { c_low : Z; c_range : Z; c_prec : Z; c_run : Z; c_ctx : Z -> ctx }.
Definition coder0 : coder := {| c_low := 0; c_range := 511; c_prec := 9; c_run := 0; c_ctx := fun _ => ctx_init |}.

(** A range of 256 + t is split into a lower part for the more probable bin and an upper part
    for the other. The lower part loses [p] while at least 256 remains; otherwise the scale is
    doubled first and the lower part is 512 + t - p. *)
Record parts := { lower : Z; upper : Z; doubled : Z }.
Definition split (range p : Z) : parts :=
  if p <=? range - 256 then {| lower := range - p; upper := p; doubled := 0 |}
  else {| lower := range + 256 - p; upper := range - 256 + p; doubled := 1 |}.
Definition parts_of (r : req) (s : coder) : parts :=
  match r with
  | Sym k => split (c_range s) (lg (c_ctx s k) / 4)
  | Final => split (c_range s) 1
  | Bypass => {| lower := c_range s; upper := c_range s; doubled := 1 |}
  end.
(** The bin of the lower part. *)
Definition likely (r : req) (s : coder) : Z := match r with Sym k => mps (c_ctx s k) | _ => 0 end.
Definition with_ctx (r : req) (s : coder) (f : ctx -> ctx) : Z -> ctx :=
  match r with Sym k => fun j => if j =? k then f (c_ctx s k) else c_ctx s j | _ => c_ctx s end.
Definition take_lower (r : req) (s : coder) : coder :=
  let q := parts_of r s in
  {| c_low := c_low s * 2 ^ doubled q; c_range := lower q; c_prec := c_prec s + doubled q; c_run := c_run s + doubled q;
     c_ctx := with_ctx r s after_mps |}.
(** The upper part is scaled until its range is at least 256. *)
Definition take_upper (r : req) (s : coder) : coder :=
  let q := parts_of r s in let n := 8 - Z.log2 (upper q) in
  {| c_low := (c_low s * 2 ^ doubled q + lower q) * 2 ^ n; c_range := upper q * 2 ^ n; c_prec := c_prec s + doubled q + n; c_run := 0;
     c_ctx := with_ctx r s after_lps |}.
Definition code1 (r : req) (b : Z) (s : coder) : coder := if b =? likely r s then take_lower r s else take_upper r s.

(** The interval of a sequence of bins, one for each request. *)
Fixpoint code (rs : list req) (bs : list Z) (s : coder) : option coder :=
  match rs, bs with
  | [], [] => Some s
  | r :: rs', b :: bs' => if (b =? 0) || (b =? 1) then code rs' bs' (code1 r b s) else None
  | _, _ => None
  end.

(** No equiprobable bin is coded after 254 doublings without a bin of the upper kind. *)
Fixpoint gentle (rs : list req) (bs : list Z) (s : coder) : Prop :=
  match rs, bs with
  | r :: rs', b :: bs' => (r = Bypass -> c_run s < 254) /\ gentle rs' bs' (code1 r b s)
  | _, _ => True
  end.

(** The string of bits, read as a binary fraction, lies in the interval. *)
Definition inside (s : coder) (bits : list bool) : Prop :=
  c_prec s <= Z.of_nat (length bits) /\ c_low s <= be_val (firstn (Z.to_nat (c_prec s)) bits) < c_low s + c_range s.
