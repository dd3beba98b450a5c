(** What the vector intra predictors need and do beyond the rule of IprSpec. *)
From Coq Require Import ZArith List Bool.
From Verif Require Import MemModel IprSpec.
Open Scope Z_scope.

(** The block of [w] times [h] samples at [d] becomes [r]; of the rest, only the rows below the
    block up to [v] may change. *)
Definition predicts_above (w h v d st : Z) (old new : mem) (r : Z -> Z -> Z) : Prop :=
  (forall x y, 0 <= x < w -> 0 <= y < h -> new (d + y * st + x) = r x y) /\
  (forall q, (forall x y, 0 <= x < w -> 0 <= y < v -> q <> d + y * st + x) -> new q = old q).
(** Entries [first .. last] of the border may be read: the squares up to 32, which are also the
    chroma blocks, keep within the 256 entries of a chroma border, the others within the 512 of
    the luma border.  Mode 3 reads further. *)
Definition square (w h : Z) : bool := (w =? h) && (w <=? 32).
Definition first (w h : Z) : Z := if square w h then -127 else -255.
Definition last (avx : bool) (mode w h : Z) : Z :=
  if square w h then (if (mode =? 3) && (w =? 32) then (if avx then 140 else 131) else 128)
  else if avx && (mode =? 3) && (w =? 64) then 268 else 256.
(** Rows written. *)
Definition rows (avx : bool) (mode h : Z) : Z :=
  if avx && (h =? 4) && ((mode =? 8) || (mode =? 32)) then 8 else h.
Definition samples (lo hi : Z) (e : Z -> Z) : Prop := forall k, lo <= k <= hi -> 0 <= e k <= 255.
(** Cases that leave their local arrays or tables: mode 13 on blocks of 32 and more columns,
    mode 16 on blocks of 4 rows. *)
Definition leaves (avx : bool) (mode w h : Z) : bool := avx && ((mode =? 13) && (32 <=? w) || (mode =? 16) && (h =? 4)).
