(** Positions of slices, and what lies behind a unit. *)
From Coq Require Import ZArith List Bool.
From Verif Require Import CBase VlcModel HdrModel AecModel AecSpec SlModel SlSpec.
Import ListNotations.
Open Scope Z_scope.

(** The LCU at which a slice begins according to its header, in a picture of [w] LCUs per row (AVS2, 7.2.4: the extension counts 128 rows, or
    256 columns). *)
Definition header_lcu (g : pic) (w : Z) (y : slice_syn) : Z :=
  (if tall g then 128 * y_rowx y + y_row y else y_row y) * w + (if wide g then 256 * y_colx y + y_col y else y_col y).
(** Every slice of the sequence says that it begins where the one before it ends. *)
Fixpoint in_place (g : pic) (w k : Z) (l : list (Z * slice_syn * nat)) : Prop :=
  match l with [] => True | (_, y, n) :: r => header_lcu g w y = k /\ in_place g w (k + Z.of_nat n) r end.
(** The first LCU that was decoded as part of slice [i]. *)
Definition first_lcu (log : list (Z * Z)) (i : Z) : option Z :=
  match find (fun e => snd e =? i) log with Some e => Some (fst e) | None => None end.

(** Two memories with the same bytes below [m]. *)
Definition same_below (m : Z) (l l' : list Z) : Prop := forall i, i < m -> get l i = get l' i.
(** The entropy decoder on another memory. *)
Definition on (l : list Z) (a : aec) : aec :=
  {| buf := l; byte_buf := byte_buf a; byte_pos := byte_pos a; nbytes := nbytes a; btg := btg a; err := err a; bound := bound a;
     domain := domain a; s1 := s1 a; t1 := t1 a; vs := vs a; vt := vt a |}.
Definition omap {A B} (f : A -> B) (o : outcome A) : outcome B :=
  match o with Done a => Done (f a) | Fail => Fail | Undef => Undef | Hang => Hang end.
(** The decoder reads the unit of [n] bytes at [l] and has not gone past byte [m]. *)
Definition reading (m n : Z) (l : list Z) (a : aec) : Prop := buf a = l /\ nbytes a = n /\ byte_pos a <= m /\ -128 <= btg a <= 127.

(** What is assumed of the decoding of an LCU: it keeps the memory and the length, and does not look at bytes behind the unit. *)
Definition reads_unit_only {T} (lcu : Z -> Z -> shdr -> T -> aec -> outcome (T * aec * bool)) : Prop :=
  forall m n l l', n <= m -> same_below n l l' -> forall k i hd t a, reading m n l a ->
    lcu k i hd t (on l' a) = omap (fun r => let '(t, a, e) := r in (t, on l' a, e)) (lcu k i hd t a) /\
    forall t1 a1 e, lcu k i hd t a = Done (t1, a1, e) -> reading m n l a1.

(** What a decoded picture shows. *)
Definition shown {T} (o : outcome (option (st T))) : outcome (option (T * bool * list (Z * Z))) :=
  omap (fun r => match r with Some s => Some (s_t s, s_err s, s_log s) | None => None end) o.
