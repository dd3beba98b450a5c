(** What intra mode coding means, stated without the decoder's tables. *)
From Coq Require Import ZArith List Bool Sorting.Sorted.
Import ListNotations.
Open Scope Z_scope.

(** The two most probable modes derived from the modes above and to the left: the smaller
    and the larger; when they are equal, DC and that mode, or DC and bilinear. *)
Definition is_mpm (top lf m0 m1 : Z) : Prop :=
  m0 < m1 /\
  (top <> lf -> (m0 = top /\ m1 = lf) \/ (m0 = lf /\ m1 = top)) /\
  (top = lf -> m0 = 0 /\ (top <> 0 -> m1 = top) /\ (top = 0 -> m1 = 2)).
(** [ms] is the increasing enumeration of all 33 modes but [m0] and [m1]. *)
Definition others (m0 m1 : Z) (ms : list Z) : Prop :=
  StronglySorted Z.lt ms /\ forall m, In m ms <-> 0 <= m <= 32 /\ m <> m0 /\ m <> m1.

(** The five ways to predict chroma: as luma, DC, horizontal, vertical, bilinear. *)
Definition chroma_choices (luma : Z) : list Z := [luma; 0; 24; 12; 2].

(** Rectangles of 4x4 units. *)
Definition cell_in (x y w h cx cy : Z) : Prop := x <= cx < x + w /\ y <= cy < y + h.
(** The place of a cell inside a rectangle matters to a neighbour below or to the right. *)
Definition on_right (x y w h cx cy : Z) : Prop := cell_in x y w h cx cy /\ cx = x + w - 1.
Definition on_bottom (x y w h cx cy : Z) : Prop := cell_in x y w h cx cy /\ cy = y + h - 1.

(** What a decoder does with the modes of a picture [wu] by [hu] units: intra units with
    their mode, and starts of slices (the unit row a slice starts at). *)
Inductive mode_event := NewSlice (row : Z) | NewUnit (x y w h md : Z).
Definition event_in (wu hu : Z) (e : mode_event) : Prop :=
  match e with
  | NewSlice row => 0 <= row < hu
  | NewUnit x y w h md => 0 <= x /\ 0 < w /\ x + w <= wu /\ 0 <= y /\ 0 < h /\ y + h <= hu
  end.
(** [a] comes before [b]: units do not overlap, units of a slice do not start above it. *)
Definition event_before (a b : mode_event) : Prop :=
  match a, b with
  | NewUnit x y w h _, NewUnit x' y' w' h' _ => forall cx cy, ~ (cell_in x y w h cx cy /\ cell_in x' y' w' h' cx cy)
  | NewSlice row, NewUnit x y w h _ => row <= y
  | _, _ => True
  end.
Definition events_ok (wu hu : Z) (es : list mode_event) : Prop :=
  Forall (event_in wu hu) es /\ ForallOrdPairs event_before es.
(** The slice that is being decoded starts at or above [row]. *)
Definition slices_upto (es : list mode_event) (row : Z) : Prop := forall r, In (NewSlice r) es -> r <= row.
Definition covered (es : list mode_event) (cx cy : Z) : Prop :=
  exists x y w h md, In (NewUnit x y w h md) es /\ cell_in x y w h cx cy.
