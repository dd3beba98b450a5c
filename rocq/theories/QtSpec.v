(** Specification of the coding quadtree. *)
From Coq Require Import ZArith List Bool.
From Verif Require Import QtModel.
Import ListNotations.
Open Scope Z_scope.

(** A sample belongs to a coding unit. *)
Definition in_unit (u : unit_) (X Y : Z) : Prop := v_x u <= X < v_x u + 2 ^ v_level u /\ v_y u <= Y < v_y u + 2 ^ v_level u.
(** The units cover an area: every sample of it is in exactly one of them (one place of the list),
    and no unit has a sample outside. *)
Definition covers_once (us : list unit_) (area : Z -> Z -> Prop) : Prop :=
  (forall u X Y, In u us -> in_unit u X Y -> area X Y) /\
  (forall X Y, area X Y -> exists i u, nth_error us i = Some u /\ in_unit u X Y /\
     forall j v, nth_error us j = Some v -> in_unit v X Y -> j = i).
(** The part of a square that lies in the picture; the whole picture. *)
Definition square_in (W H n x y X Y : Z) : Prop := (x <= X < x + n /\ y <= Y < y + n) /\ X < W /\ Y < H.
Definition picture (W H X Y : Z) : Prop := 0 <= X < W /\ 0 <= Y < H.
(** Sizes 8 to 64, at positions that are multiples of the size. *)
Definition proper_unit (u : unit_) : Prop :=
  3 <= v_level u <= 6 /\ v_x u mod 2 ^ v_level u = 0 /\ v_y u mod 2 ^ v_level u = 0 /\ 0 <= v_x u /\ 0 <= v_y u.
(** Z-order of an 8x8 block in an LCU: the bits of line and column interleaved. *)
Definition z_order (x y : Z) : Z :=
  let b v k := v / 2 ^ k mod 2 in
  b x 0 + 2 * b y 0 + 4 * b x 1 + 8 * b y 1 + 16 * b x 2 + 32 * b y 2.
(** Picture sizes as the decoder uses them: multiples of 8, LCU sizes 16 to 64. *)
Definition sizes (W H wscu : Z) (level : nat) : Prop :=
  W mod 8 = 0 /\ H mod 8 = 0 /\ 8 <= W /\ 8 <= H /\ wscu = W / 8 /\ (4 <= level <= 6)%nat.
