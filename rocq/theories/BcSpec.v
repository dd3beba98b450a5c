(** Copying a block of elements, and the sizes there are. *)
From Coq Require Import ZArith List.
From Verif Require Import MemModel.
Import ListNotations.
Open Scope Z_scope.

(** Byte [a] belongs to the block of [h] rows of [w] elements of [u] bytes at [p], rows [st] elements apart. *)
Definition in_block (u w h p st a : Z) : Prop :=
  exists y x, 0 <= y < h /\ 0 <= x < u * w /\ a = p + y * (u * st) + x.
(** [r] is [m] with the block at [s] put at [d] and every other byte as it was. *)
Definition block_copied (u w h d sd s ss : Z) (m r : mem) : Prop :=
  (forall y x, 0 <= y < h -> 0 <= x < u * w -> r (d + y * (u * sd) + x) = m (s + y * (u * ss) + x)) /\
  (forall a, ~ in_block u w h d sd a -> r a = m a).
(** The two blocks share no byte. *)
Definition blocks_apart (u w h d sd s ss : Z) : Prop :=
  forall a, in_block u w h d sd a -> ~ in_block u w h s ss a.

(** The sizes of prediction units the decoder has (the PART_ numbers of common.h). *)
Definition part_sizes : list (Z * Z) :=
  [(64,64); (64,32); (32,64); (64,16); (64,48); (16,64); (48,64); (32,32); (32,16); (16,32); (32,8); (32,24); (8,32);
   (24,32); (16,16); (16,8); (8,16); (16,4); (16,12); (4,16); (12,16); (8,8); (8,4); (4,8); (4,4)].
