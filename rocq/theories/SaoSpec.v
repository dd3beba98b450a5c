(** What sample adaptive offset does to a block, without reference to how it is computed. *)
From Coq Require Import ZArith List Bool.
From Verif Require Import MemModel SaoModel.
Import ListNotations.
Open Scope Z_scope.

Definition saturate (depth v : Z) : Z := Z.max 0 (Z.min (2 ^ depth - 1) v).
Definition sample (src : mem) (ps ss x y : Z) : Z := src (ps + y * ss + x).

(** 0: smaller than both neighbours, 1: smaller than one and equal to the other, 2: neither,
    3: larger than one and equal to the other, 4: larger than both. *)
Definition edge_class (c a b : Z) : Z :=
  match c ?= a, c ?= b with
  | Lt, Lt => 0
  | Lt, Eq | Eq, Lt => 1
  | Gt, Eq | Eq, Gt => 3
  | Gt, Gt => 4
  | _, _ => 2
  end.

(** Is the sample at column [x], row [y] of a block or of its frame of one sample
    available? *)
Definition usable (av : avail) (w h x y : Z) : bool :=
  if y <? 0 then (if x <? 0 then a_TL av else if x <? w then a_T av else a_TR av)
  else if y <? h then (if x <? 0 then a_L av else if x <? w then true else a_R av)
  else (if x <? 0 then a_DL av else if x <? w then a_D av else a_DR av).
(** Corners are available if both sides are. *)
Definition corners (av : avail) : Prop :=
  a_TL av = a_T av && a_L av /\ a_TR av = a_T av && a_R av /\ a_DL av = a_D av && a_L av /\ a_DR av = a_D av && a_R av.

(** The new value at [x], [y], if any, for the direction [dx], [dy]. *)
Definition edge_result (src : mem) (ps ss w h depth : Z) (av : avail) (off : Z -> Z) (dx dy x y : Z) : option Z :=
  if usable av w h (x + dx) (y + dy) && usable av w h (x - dx) (y - dy) then
    let c := sample src ps ss x y in
    Some (saturate depth (c + off (edge_class c (sample src ps ss (x + dx) (y + dy)) (sample src ps ss (x - dx) (y - dy)))))
  else None.

(** The block of [w] times [h] samples at [pd] has the new values [f], everything else is as
    before. *)
Definition block_becomes (w h pd ds : Z) (old new : mem) (f : Z -> Z -> option Z) : Prop :=
  (forall x y, 0 <= x < w -> 0 <= y < h ->
     new (pd + y * ds + x) = match f x y with Some v => v | None => old (pd + y * ds + x) end)
  /\ (forall q, (forall x y, 0 <= x < w -> 0 <= y < h -> q <> pd + y * ds + x) -> new q = old q).

(** The planes of a picture of [pw] times [ph] luma samples in LCUs of side [2^lv]. *)
Definition sizes_ok (lv pw ph wl hl : Z) : Prop :=
  4 <= lv <= 6 /\ 0 < pw /\ 0 < ph /\ pw mod 8 = 0 /\ ph mod 8 = 0 /\
  (wl - 1) * 2 ^ lv < pw <= wl * 2 ^ lv /\ (hl - 1) * 2 ^ lv < ph <= hl * 2 ^ lv.
Definition in_luma (r : region) (x y : Z) : Prop := g_x r <= x < g_x r + g_w r /\ g_y r <= y < g_y r + g_h r.
Definition in_chroma (r : region) (x y : Z) : Prop := c_x r <= x < c_x r + c_w r /\ c_y r <= y < c_y r + c_h r.
(** A family of areas, one per LCU, of which each sample of the plane is in exactly one, and
    that contain nothing outside the plane. *)
Definition tiles (wl hl W H : Z) (area : Z -> Z -> Z -> Z -> Prop) : Prop :=
  (forall x y, 0 <= x < W -> 0 <= y < H ->
     exists lx ly, 0 <= lx < wl /\ 0 <= ly < hl /\ area lx ly x y /\
       (forall lx' ly', 0 <= lx' < wl -> 0 <= ly' < hl -> area lx' ly' x y -> lx' = lx /\ ly' = ly)) /\
  (forall lx ly x y, 0 <= lx < wl -> 0 <= ly < hl -> area lx ly x y -> 0 <= x < W /\ 0 <= y < H).

(** Offset on a whole plane: the parameters of an LCU apply to the LCU moved four samples up
    and left; neighbours count if they are in the plane. *)
Definition owner (side n x : Z) : Z := Z.min (n - 1) ((x + 4) / side).
Definition direction (ty : Z) : Z * Z :=
  if ty =? 0 then (1, 0) else if ty =? 1 then (0, 1) else if ty =? 2 then (-1, -1) else (1, -1).
Definition inside (W H x y : Z) : bool := (0 <=? x) && (x <? W) && (0 <=? y) && (y <? H).
Definition plane_offset (W H side wl hl depth : Z) (par : Z -> Z -> option (Z * (Z -> Z))) (D : Z -> Z -> Z) (x y : Z) : Z :=
  match par (owner side wl x) (owner side hl y) with
  | None => D x y
  | Some (ty, off) =>
      if ty =? 4 then saturate depth (D x y + off (D x y / 2 ^ (depth - 5)))
      else let '(dx, dy) := direction ty in
           if inside W H (x + dx) (y + dy) && inside W H (x - dx) (y - dy)
           then saturate depth (D x y + off (edge_class (D x y) (D (x + dx) (y + dy)) (D (x - dx) (y - dy))))
           else D x y
  end.

(** Reconstruction with deblocking of LCU row [ly] (rows of [side] lines): changes nothing
    more than three lines above the row and depends on nothing more than four lines above. *)
Definition row_local (W H side base stride : Z) (rec : Z -> mem -> mem) : Prop :=
  (forall ly m x y, 0 <= x < W -> 0 <= y < H -> y < ly * side - 3 ->
     rec ly m (base + y * stride + x) = m (base + y * stride + x)) /\
  (forall ly m m',
     (forall x y, 0 <= x < W -> 0 <= y < H -> ly * side - 4 <= y -> m (base + y * stride + x) = m' (base + y * stride + x)) ->
     forall x y, 0 <= x < W -> 0 <= y < H -> ly * side - 4 <= y ->
       rec ly m (base + y * stride + x) = rec ly m' (base + y * stride + x)).
(** Rows reconstructed and deblocked from [0] to [n - 1], no other filter in between. *)
Fixpoint deblocked (rec : Z -> mem -> mem) (m : mem) (n : nat) : mem :=
  match n with O => m | S k => rec (Z.of_nat k) (deblocked rec m k) end.
