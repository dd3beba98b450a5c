(** Specification of motion compensation, independent of the model's loops and clamps. *)
From Coq Require Import ZArith List Bool.
From Verif Require Import AlfSpec.
Import ListNotations.
Open Scope Z_scope.

(** Filter taps of the AVS2 standard: luma for quarter positions, chroma for eighth positions. *)
Definition luma_taps (f : Z) : list Z :=
  if f =? 1 then [-1; 4; -10; 57; 19; -7; 3; -1]
  else if f =? 2 then [-1; 4; -11; 40; 40; -11; 4; -1]
  else if f =? 3 then [-1; 3; -7; 19; 57; -10; 4; -1] else [].
Definition chroma_taps (f : Z) : list Z :=
  if f =? 1 then [-4; 62; 6; 0] else if f =? 2 then [-6; 56; 15; -1] else if f =? 3 then [-5; 47; 25; -3]
  else if f =? 4 then [-4; 36; 36; -4] else if f =? 5 then [-3; 25; 47; -5] else if f =? 6 then [-1; 15; 56; -6]
  else if f =? 7 then [0; 6; 62; -4] else [].
(** The weighted sum of the samples [g first], [g (first + 1)], ... *)
Fixpoint wsum (c : list Z) (g : Z -> Z) (first : Z) : Z :=
  match c with [] => 0 | w :: c => w * g first + wsum c g (first + 1) end.
Definition sample (d v : Z) : Z := clamp 0 (2 ^ d - 1) v.
(** Division by 2^k, rounding half up; k = 0 is exact. *)
Definition rshift (v k : Z) : Z := if k =? 0 then v else (v + 2 ^ (k - 1)) / 2 ^ k.

(** The interpolated sample at position (X, Y) in units of 1/n sample, of a reference picture [r],
    with the taps starting [b] samples before the position. Where both coordinates are fractional,
    the rows are filtered first and kept with eight bits of fraction scale. *)
Definition interp (n b : Z) (taps : Z -> list Z) (d : Z) (r : Z -> Z -> Z) (X Y : Z) : Z :=
  let x := X / n in let y := Y / n in let fx := X mod n in let fy := Y mod n in
  if (fx =? 0) && (fy =? 0) then r x y
  else if fx =? 0 then sample d (rshift (wsum (taps fy) (fun j => r x j) (y - b)) 6)
  else if fy =? 0 then sample d (rshift (wsum (taps fx) (fun i => r i y) (x - b)) 6)
  else sample d (rshift (wsum (taps fy) (fun j => rshift (wsum (taps fx) (fun i => r i j) (x - b)) (d - 8)) (y - b)) (20 - d)).
Definition interp_luma := interp 4 3 luma_taps.
Definition interp_chroma := interp 8 1 chroma_taps.

(** The reference plane in memory, and the picture continued without end by its border samples. *)
Definition plane (src : Z -> Z) (p stride : Z) (x y : Z) : Z := src (p + y * stride + x).
Definition endless (w h : Z) (r : Z -> Z -> Z) (x y : Z) : Z := r (clamp 0 (w - 1) x) (clamp 0 (h - 1) y).
(** [r] agrees with its own endless continuation up to [n] samples outside the picture. *)
Definition padded (n w h : Z) (r : Z -> Z -> Z) : Prop :=
  forall x y, - n <= x < w + n -> - n <= y < h + n -> r x y = endless w h r x y.

Definition samples_ok (d : Z) (r : Z -> Z -> Z) : Prop := forall x y, 0 <= r x y < 2 ^ d.
(** Bit depths; the decoder accepts 8 and 10. *)
Definition mc_depth (d : Z) : Prop := 8 <= d <= 12.
(** A vector component as stored. *)
Definition mv_ok (v : Z) : Prop := -32768 <= v <= 32767.
(** A block of at most 64x64 samples, with even coordinates and sizes, inside a picture whose
    sizes are multiples of 8. *)
Definition blk_ok (img pos size : Z) : Prop :=
  img mod 8 = 0 /\ 8 <= img /\ pos mod 4 = 0 /\ size mod 4 = 0 /\ 4 <= size <= 64 /\ 0 <= pos /\ pos + size <= img.
(** Such a block with a motion vector, in a picture of at most 8184 columns and lines. *)
Definition pic_ok (W H bx by_ : Z) (w h : nat) (mv : Z * Z) : Prop :=
  blk_ok W bx (Z.of_nat w) /\ blk_ok H by_ (Z.of_nat h) /\ W <= 8184 /\ H <= 8184 /\ mv_ok (fst mv) /\ mv_ok (snd mv).
