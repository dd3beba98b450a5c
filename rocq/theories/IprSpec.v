(** Intra prediction, as a rule.  The border of a block is a function [e]: [e 0] is the corner
    above and to the left, [e (x + 1)] the sample above column [x], [e (- (y + 1))] the sample
    left of row [y]. *)
From Coq Require Import ZArith List Bool.
From Verif Require Import MemModel AlfSpec McSpec.
Import ListNotations.
Open Scope Z_scope.

(** The block of [w] times [h] samples at [d] becomes [v], everything else stays. *)
Definition predicts (w h d st : Z) (old new : mem) (v : Z -> Z -> Z) : Prop :=
  (forall x y, 0 <= x < w -> 0 <= y < h -> new (d + y * st + x) = v x y) /\
  (forall q, (forall x y, 0 <= x < w -> 0 <= y < h -> q <> d + y * st + x) -> new q = old q).

(** The shapes of intra luma blocks; chroma blocks are the squares up to 32. *)
Definition intra_shape (w h : Z) : Prop :=
  In (w, h) [(4, 4); (8, 8); (16, 16); (32, 32); (64, 64); (16, 4); (32, 8); (4, 16); (8, 32)].

(** Directions of the angular modes, |dx| and |dy|: 3 to 11 point up and right, 13 to 23 up
    and left, 25 to 32 down and left. *)
Definition direction (mode : Z) : Z * Z :=
  nth (Z.to_nat mode)
    [(0, 1); (0, 1); (0, 1); (11, 4); (2, 1); (11, 8); (1, 1); (8, 11); (1, 2); (4, 11); (1, 4); (1, 8);
     (0, 1); (1, 8); (1, 4); (4, 11); (1, 2); (8, 11); (1, 1); (11, 8); (2, 1); (11, 4); (4, 1); (8, 1);
     (1, 1); (8, 1); (4, 1); (11, 4); (2, 1); (11, 8); (1, 1); (8, 11); (1, 2)] (0, 1).
(** a / b in units of 1/256, rounded to nearest. *)
Definition slope (a b : Z) : Z := (512 * a + b) / (2 * b).
(** After [t] steps with a slope: whole samples and 1/32 samples beyond. *)
Definition walk (sl t : Z) : Z := t * sl / 256.
Definition frac (sl t : Z) : Z := t * sl / 8 mod 32.
(** Linear interpolation, [f]/32 of the way from border position [p] to [p + dir], between
    border samples smoothed with 1 2 1; rounded. *)
Definition smooth (e : Z -> Z) (p : Z) : Z := e (p - 1) + 2 * e p + e (p + 1).
Definition interp (e : Z -> Z) (p dir f : Z) : Z := ((32 - f) * smooth e p + f * smooth e (p + dir) + 64) / 128.
Definition up_right (mode : Z) : Prop := 3 <= mode <= 11.
Definition up_left (mode : Z) : Prop := 13 <= mode <= 23.
Definition down_left (mode : Z) : Prop := 25 <= mode <= 32.
Definition is_angular (mode : Z) : Prop := up_right mode \/ up_left mode \/ down_left mode.
(** The predicted sample at column [x], row [y]: follow the direction to the border. *)
Definition direct (e : Z -> Z) (mode x y : Z) : Z :=
  let '(dx, dy) := direction mode in
  let across := slope dx dy in
  let down := slope dy dx in
  if mode <? 12 then interp e (x + 1 + walk across (y + 1)) 1 (frac across (y + 1))
  else if mode <? 24 then
    if y <? walk down (x + 1) then interp e (x + 1 - walk across (y + 1)) (-1) (frac across (y + 1))
    else interp e (- (y + 1 - walk down (x + 1))) 1 (frac down (x + 1))
  else interp e (- (y + 1 + walk down (x + 1))) (-1) (frac down (x + 1)).

(** A border filled beyond twice the block's size by repeating the last sample, as far as
    [n] entries to the right and [m] to the left. *)
Definition repeats (e : Z -> Z) (w h n m : Z) : Prop :=
  (forall k, 2 * w <= k <= n -> e k = e (2 * w)) /\ (forall k, 2 * h <= k <= m -> e (- k) = e (- (2 * h))).

(** The other modes. *)
Fixpoint sumz (n : nat) (f : Z -> Z) : Z := match n with O => 0 | S k => sumz k f + f (Z.of_nat k) end.
Definition sum_over (n : Z) (f : Z -> Z) : Z := sumz (Z.to_nat n) f.
(** Mean of what is available, half up; for both sides of a block that is not square, 512 /
    (w + h) is rounded down first. *)
Definition dc_rule (depth : Z) (e : Z -> Z) (w h : Z) (top left : bool) : Z :=
  let st := sum_over w (fun x => e (x + 1)) in
  let sl := sum_over h (fun y => e (- (y + 1))) in
  match top, left with
  | true, true => (st + sl + (w + h) / 2) * (512 / (w + h)) / 512
  | true, false => (st + w / 2) / w
  | false, true => (sl + h / 2) / h
  | false, false => 2 ^ (depth - 1)
  end.
(** Gradient along one side of [n] samples [b 1 .. b n], [b 0] the corner: a weighted sum of
    differences symmetric about the middle, scaled by 32 * m / 2^k. *)
Definition gradient (n m k : Z) (b : Z -> Z) : Z :=
  (32 * m * sum_over (n / 2) (fun i => (i + 1) * (b (n / 2 + (i + 1)) - b (n / 2 - (i + 1)))) + 2 ^ (k - 1)) / 2 ^ k.
Definition plane_scale (n : Z) : Z * Z :=
  if n =? 4 then (13, 7) else if n =? 8 then (17, 10) else if n =? 16 then (5, 11) else if n =? 32 then (11, 15) else (23, 19).
Definition plane_rule (depth : Z) (e : Z -> Z) (w h x y : Z) : Z :=
  let gx := gradient w (fst (plane_scale w)) (snd (plane_scale w)) e in
  let gy := gradient h (fst (plane_scale h)) (snd (plane_scale h)) (fun k => e (- k)) in
  clamp 0 (2 ^ depth - 1) ((16 * (e w + e (- h)) + (x - (w / 2 - 1)) * gx + (y - (h / 2 - 1)) * gy + 16) / 32).
(** Interpolation between the left sample of the row and [a] (end of the top side), and
    between the top sample of the column and [b] (end of the left side), with a correction
    towards the lower right corner value [c]. *)
Definition corner (w h a b : Z) : Z :=
  if w =? h then (a + b + 1) / 2
  else ((w * a + h * b) * 13 + 32 * Z.min w h) / (64 * Z.min w h).
Definition bilinear_rule (depth : Z) (e : Z -> Z) (w h x y : Z) : Z :=
  let a := e w in
  let b := e (- h) in
  let c := corner w h a b in
  let row := w * e (- (y + 1)) + (x + 1) * (a - e (- (y + 1))) in
  let col := h * e (x + 1) + (y + 1) * (b - e (x + 1)) in
  clamp 0 (2 ^ depth - 1) ((h * row + w * col + x * y * (2 * c - a - b) + w * h) / (2 * w * h)).
Definition rule (depth : Z) (e : Z -> Z) (mode w h : Z) (top left : bool) (x y : Z) : Z :=
  if mode =? 0 then dc_rule depth e w h top left
  else if mode =? 1 then plane_rule depth e w h x y
  else if mode =? 2 then bilinear_rule depth e w h x y
  else if mode =? 12 then e (x + 1)
  else if mode =? 24 then e (- (y + 1))
  else direct e mode x y.
(** Border samples in the range of [depth] bits, on the part filled before prediction. *)
Definition reach (w h : Z) : Z := 2 * w + Z.max 0 (h * 11 / 4 - w + 4).
Definition legal (depth : Z) (e : Z -> Z) (w h : Z) : Prop :=
  forall k, - reach h w <= k <= reach w h -> 0 <= e k <= 2 ^ depth - 1.
