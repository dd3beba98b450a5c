(** Vocabulary for the entropy-decoder properties. *)
From Coq Require Import ZArith List Bool.
From Verif Require Import CBase AecModel.
Import ListNotations.
Open Scope Z_scope.

(** The bytes [pos .. n-1] of a buffer. *)
Definition slice (data : list Z) (pos n : Z) : list Z := firstn (Z.to_nat (n - pos)) (skipn (Z.to_nat pos) data).

(** [k] bit requests in a row: for each the bit shifted into the value register, or [None]
    if the request reported an error. *)
Fixpoint requests (k : nat) (a : aec) : outcome (list (option bool) * aec) :=
  match k with
  | O => Done ([], a)
  | S j => bindo (get_next_bit a) (fun r =>
           bindo (requests j (fst r)) (fun q =>
           Done ((if snd r then None else Some (Z.odd (vt (fst r)))) :: fst q, snd q)))
  end.

(** Number of bits taken from the buffer so far (aec.cc:381 [aec_bits_read]). *)
Definition bits_read (a : aec) : Z := 8 * byte_pos a - btg a.

(** The adaptation rule as arithmetic: after a more probable symbol the index loses the
    fractions 2^-cwr and 2^-(cwr+2); after a less probable one it grows by a constant and
    is mirrored, exchanging the symbols, when it passes one half (1024). *)
Definition rate (c : Z) : Z := if c =? 2 then 4 else if c =? 3 then 5 else 3.
Definition growth (c : Z) : Z := if c =? 2 then 95 else if c =? 3 then 46 else 197.
Definition after_mps (c : ctx) : ctx :=
  {| lg := lg c - lg c / 2 ^ rate (cyc c) - lg c / (4 * 2 ^ rate (cyc c)); mps := mps c; cyc := if cyc c =? 0 then 1 else cyc c |}.
Definition after_lps (c : ctx) : ctx :=
  let l := lg c + growth (cyc c) in
  {| lg := if l <? 1024 then l else 2047 - l; mps := if l <? 1024 then mps c else 1 - mps c;
     cyc := if cyc c =? 3 then 3 else cyc c + 1 |}.
Definition legal_ctx (c : ctx) : Prop := 7 <= lg c <= 1023 /\ (mps c = 0 \/ mps c = 1) /\ 0 <= cyc c <= 3.

(** A history of updates, [true] being a more probable symbol: as the decoder does it, and by the rule. *)
Fixpoint adapt (h : list bool) (c : ctx) : ctx :=
  match h with [] => c | b :: t => adapt t (if b then update_ctx_mps c else update_ctx_lps c) end.
Fixpoint adapt_rule (h : list bool) (c : ctx) : ctx :=
  match h with [] => c | b :: t => adapt_rule t (if b then after_mps c else after_lps c) end.

(** A decode request: a context-coded symbol, an equiprobable one, or the end flag. *)
Inductive req := Sym (k : Z) | Bypass | Final.
Definition decode (r : req) (a : aec) (cs : Z -> ctx) : outcome (aec * (Z -> ctx) * Z) :=
  match r with
  | Sym k => bindo (decode_symbol a (cs k)) (fun x => let '(a, c, b) := x in Done (a, fun j => if j =? k then c else cs j, b))
  | Bypass => bindo (decode_eq_prob a) (fun x => Done (fst x, cs, snd x))
  | Final => bindo (decode_final a) (fun x => Done (fst x, cs, snd x))
  end.

(** A sequence of requests, stopped at the first one that raises the error flag. *)
Fixpoint decodes (rs : list req) (a : aec) (cs : Z -> ctx) : outcome (aec * (Z -> ctx) * list Z) :=
  match rs with
  | [] => Done (a, cs, [])
  | r :: t =>
      bindo (decode r a cs) (fun x => let '(a1, cs1, b) := x in
      if err a1 then Done (a1, cs1, [b])
      else bindo (decodes t a1 cs1) (fun y => let '(a2, cs2, bs) := y in Done (a2, cs2, b :: bs)))
  end.

(** Symbols decoded one at a time until a one, [k] symbols, or an error. *)
Fixpoint repeat_symbol (k : nat) (a : aec) (c : ctx) : outcome (aec * ctx * Z) :=
  match k with
  | O => Done (a, c, 0)
  | S j => bindo (decode_symbol a c) (fun x => let '(a1, c1, b) := x in
           if err a1 then Done (a1, c1, 0)
           else if b =? 1 then Done (a1, c1, 0)
           else bindo (repeat_symbol j a1 c1) (fun y => let '(a2, c2, m) := y in
                if err a2 then Done (a2, c2, 0) else Done (a2, c2, m + 1)))
  end.
(** The same with the i-th symbol using context min(i, inc). *)
Fixpoint repeat_symbol_ext (k : nat) (a : aec) (cs : Z -> ctx) (inc i : Z) : outcome (aec * (Z -> ctx) * Z) :=
  match k with
  | O => Done (a, cs, 0)
  | S j => bindo (decode (Sym (Z.min i inc)) a cs) (fun x => let '(a1, cs1, b) := x in
           if err a1 then Done (a1, cs1, 0)
           else if b =? 1 then Done (a1, cs1, 0)
           else bindo (repeat_symbol_ext j a1 cs1 inc (i + 1)) (fun y => let '(a2, cs2, m) := y in
                if err a2 then Done (a2, cs2, 0) else Done (a2, cs2, m + 1)))
  end.

(** The interval of the coder. In the R domain the range is 256 + t1 and the offset vt; in
    the LG domain both are kept as (shift, fraction), a larger shift being a smaller number,
    and [bound] says that the offset is smaller than any range representable. *)
Definition offset_below (a : aec) : Prop :=
  if domain a then vt a < 256 + t1 a
  else vt a <= 255 /\ (if bound a then vs a = 254 else s1 a < vs a \/ (s1 a = vs a /\ vt a < t1 a)).

(** The registers fit their declared types: [i_t1], [i_s1], [i_value_s] hold a byte-sized
    fraction and two shifts of at most 254, [i_value_t] 32 bits. *)
Definition in_width (a : aec) : Prop := 0 <= t1 a <= 255 /\ 0 <= s1 a <= 254 /\ 0 <= vs a <= 254 /\ 0 <= vt a < 4294967296.
