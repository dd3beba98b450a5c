(** The binarisation of a block of levels, from the side of an encoder. Taken from [SynModel]
    are the numbering of the contexts, the scan orders and the description [blk] of a block;
    no reader is mentioned.

    A block is divided into groups of 4x4 coefficients. [lev k i] is the level at scan
    position [i] (0 .. 15) of group number [k]; both are numbered along their scans, so that
    group 0 and position 0 hold the lowest frequencies. Everything is coded from the highest
    number down. *)
From Coq Require Import ZArith List Bool.
From Verif Require Import CBase AecModel AecSpec SynModel SynSpec BinSpec.
Import ListNotations.
Open Scope Z_scope.

(** n - 1, ..., 1, 0. *)
Definition down (n : nat) : list Z := map Z.of_nat (rev (seq 0 n)).
Definition total (l : list Z) : Z := fold_right (fun v s => Z.abs v + s) 0 l.
Definition biggest (l : list Z) : Z := fold_right (fun v m => Z.max (Z.abs v) m) 0 l.

(** ** One group. [g i] is the level at scan position [i]. *)

(** The positions of the non-zero levels, in the order of coding; those coded before and
    those coded after position [i]. *)
Definition coded (g : Z -> Z) : list Z := filter (fun i => negb (g i =? 0)) (down 16).
Definition above (g : Z -> Z) (i : Z) : list Z := filter (fun j => i <? j) (coded g).
Definition below (g : Z -> Z) (i : Z) : list Z := filter (fun j => j <? i) (coded g).

(** Contexts depend on the largest magnitude coded so far in the block, by class: 0; 1; 2;
    3 and 4; more. *)
Definition magnitude_class (m : Z) : Z := if m <=? 2 then m else if m <=? 4 then 3 else 4.

(** The magnitude of a level: up to 32 in unary, above in an Exp-Golomb code. [m] is the
    largest magnitude so far, [before] the number of levels coded in this group. *)
Definition level_bins (luma first : bool) (m before i v : Z) : list bin :=
  let h := Z.min 2 ((before + 1) / 2) in
  let ctx := (if first && (i <? 3) then 10 else 0) + Z.min (magnitude_class m) (h + 2) + 5 * h / 2 in
  if Z.abs v <=? 32 then (Final, 0) :: unary (fun _ => at_ctx (A_LEVEL luma) ctx) (Z.abs v - 1) 31
  else (Final, 1) :: eg0 (Z.abs v - 33).

(** Behind a level: how many zeros follow. Each bin tells whether there is a level at position
    [t], and its context depends on [t]: in luma on the row of [t] or, for DC and diagonal
    modes, on the distance from position 0. *)
Definition level_at_ctx (luma dc one first : bool) (t : Z) : Z :=
  if luma then
    let c := if dc then (if t <? 3 then 0 else if t <? 10 then 1 else 2)
             else (snd (nth (Z.to_nat t) tab_scan_4x4 (0, 0)) + 1) / 2 in
    (if first then (if t =? 0 then 0 else 1 + c) else 4 + c) + (if one then 0 else 4)
  else
    let c := if t <? 5 then 0 else 1 in
    (if first then (if t =? 0 then 0 else 1 + c) else 3 + c) + (if one then 0 else 3).
(** ... and one of three sets of contexts is chosen by the sum of the magnitudes at [i] and at
    the six positions above it. *)
Definition near (g : Z -> Z) (i : Z) : Z := Z.abs (g i) + total (map g (filter (fun j => j <=? i + 6) (above g i))).
Definition zeros_behind (g : Z -> Z) (i : Z) : Z := i - 1 - hd (-1) (below g i).
Definition run_bins (luma dc one first : bool) (g : Z -> Z) (i : Z) : list bin :=
  unary (fun j => at_ctx (A_RUN luma (Z.min 2 (near g i / 2))) (level_at_ctx luma dc one first (i - 1 - j))) (zeros_behind g i) i.

(** The position of the first level coded, as a column and a row of the 4x4 square. Once
    something has been coded in the block ([m] is not zero) they are counted from the other
    end (rows only for DC and diagonal modes). (gx, gy) is the place of the group. *)
Definition first_level_bins (luma dc one : bool) (m gx gy i : Z) : list bin :=
  let '(x, y) := nth (Z.to_nat i) tab_scan_4x4 (0, 0) in
  let '(x, y) := if m =? 0 then (x, y) else (3 - x, if dc then 3 - y else y) in
  let '(x, y) := if (gx =? 0) && (0 <? gy) && dc then (y, x) else (x, y) in
  let r := flag (m =? 0) in
  let o := if luma then
             (if one then 40 + 4 * flag dc
              else if (gx =? 0) || (gy =? 0) then 16 * r + 8 * flag ((gx =? 0) && (gy =? 0)) + 4 * flag dc
              else 32 + 4 * r)
           else (if one then 0 else 4 + 4 * r) in
  unary (fun j => at_ctx (A_LASTPOS luma) (o + Z.min j 1)) x 3 ++ unary (fun j => at_ctx (A_LASTPOS luma) (o + 2 + Z.min j 1)) y 3.

(** Where the highest level is, magnitudes and distances, then all signs. [one] if the block
    is one group, [first] if this is group 0, [m] the largest magnitude in the groups before. *)
Definition group_bins (luma dc one first : bool) (m gx gy : Z) (g : Z -> Z) : list bin :=
  first_level_bins luma dc one m gx gy (hd 0 (coded g)) ++
  flat_map (fun i => level_bins luma first (Z.max m (biggest (map g (above g i)))) (Z.of_nat (length (above g i))) i (g i) ++
                     run_bins luma dc one first g i) (coded g) ++
  map (fun i => equi (flag (g i <? 0))) (coded g).

(** ** A block. *)
Definition levels := Z -> Z -> Z.
Definition live (lev : levels) (k : Z) : bool := negb (length (coded (lev k)) =? 0)%nat.
Definition num_groups (p : blk) : Z := b_w p * b_h p / 16.
Definition group_xy (p : blk) (k : Z) : Z * Z := nth (Z.to_nat k) (b_scan p) (0, 0).
(** The groups with levels, in the order of coding. *)
Definition used (p : blk) (lev : levels) : list Z := filter (live lev) (down (Z.to_nat (num_groups p))).

(** The first group coded: by its number if there are four, otherwise by column and row,
    in exchanged order for DC and diagonal luma modes, with a bin for column 0, row 0. *)
Definition first_group_bins (p : blk) (k : Z) : list bin :=
  let n := num_groups p in
  let sw := b_luma p && b_dc p in
  let '(x, y) := if sw then (snd (group_xy p k), fst (group_xy p k)) else group_xy p k in
  let '(mx, my) := if sw then (snd (group_xy p (n - 1)), fst (group_xy p (n - 1))) else group_xy p (n - 1) in
  let c i := at_ctx (A_LASTCG (b_luma p)) i in
  if n =? 1 then []
  else if n =? 4 then unary (fun j => c (Z.min j 2)) k 3
  else if (x =? 0) && (y =? 0) then [c 3 0]
  else c 3 1 :: unary (fun _ => c 4) x mx ++ (if x =? 0 then unary (fun _ => c 5) (y - 1) (my - 1) else unary (fun _ => c 5) y my).

(** Then the groups: from the second on a bin tells whether there are levels at all. *)
Definition magnitudes_before (p : blk) (lev : levels) (k : Z) : Z :=
  biggest (flat_map (fun j => map (lev j) (coded (lev j))) (filter (fun j => k <? j) (used p lev))).
Definition block_bins (p : blk) (lev : levels) : list bin :=
  let last := hd 0 (used p lev) in
  first_group_bins p last ++
  flat_map (fun k =>
      (if k =? last then [] else [at_ctx (A_SIGCG (b_luma p)) (flag (b_luma p && negb (k =? 0))) (flag (live lev k))]) ++
      (if live lev k then group_bins (b_luma p) (b_dc p) (num_groups p =? 1) (k =? 0) (magnitudes_before p lev k)
                                     (fst (group_xy p k)) (snd (group_xy p k)) (lev k) else []))
    (down (S (Z.to_nat last))).

(** ** What should come out: for every group with levels its place and the levels, scaled,
    rounded and clipped, each at its place in the rows of the block. *)
Definition scaled (p : blk) (v : Z) : Z := Z.max (-32768) (Z.min 32767 ((v * b_scale p + 2 ^ (b_shift p - 1)) / 2 ^ b_shift p)).
Definition exchanged (p : blk) (xy : Z * Z) : Z * Z := if b_swap p then (snd xy, fst xy) else xy.
Definition group_of (p : blk) (lev : levels) (k : Z) : group :=
  let '(gx, gy) := exchanged p (group_xy p k) in
  (gx, gy, map (fun i => let '(x, y) := exchanged p (nth (Z.to_nat i) tab_scan_4x4 (0, 0)) in
                         ((4 * gy + y) * b_w p + 4 * gx + x, scaled p (lev k i))) (rev (coded (lev k)))).
Definition block_groups (p : blk) (lev : levels) : list group := map (group_of p lev) (used p lev).
(** The smallest pattern that covers the groups; [reaches d] if some group has a column or row
    (of a block that is not square: along the longer side only) from 1/d of the size on. *)
Definition reaches (d : Z) (p : blk) (lev : levels) : bool :=
  existsb (fun k => let '(gx, gy) := exchanged p (group_xy p k) in
     ((b_h p <=? b_w p) && (b_w p <=? d * (4 * gx + 3))) || ((b_w p <=? b_h p) && (b_h p <=? d * (4 * gy + 3)))) (used p lev).
Definition block_pattern (p : blk) (lev : levels) : Z :=
  if reaches 2 p lev then DCT_DEFAULT else if reaches 4 p lev then DCT_HALF else DCT_QUAD.

(** Levels fit 16 bits, and there is one. *)
Definition levels_ok (p : blk) (lev : levels) : Prop :=
  (forall k i, 0 <= k < num_groups p -> 0 <= i < 16 -> -32768 <= lev k i <= 32767) /\
  exists k i, 0 <= k < num_groups p /\ 0 <= i < 16 /\ lev k i <> 0.

(** ** A coding unit: the blocks whose bit is set in the coded-block pattern, luma first. *)
Definition unit_luma (c : cu_coef) : list (Z * option blk) :=
  if c_split c =? NON then
    (if Z.land (c_cbp c) 15 =? 0 then [] else [(0, luma_blk (c_level c) NON (c_dc c 0) (c_swap c 0) (c_scale c) (c_shift c))])
  else map (fun b => (b, luma_blk (c_level c) (c_split c) (c_dc c b) (c_swap c b) (c_scale c) (c_shift c)))
           (filter (Z.testbit (c_cbp c)) [0; 1; 2; 3]).
Definition unit_chroma (c : cu_coef) : list (Z * option blk) :=
  if c_400 c then []
  else map (fun b => (b, chroma_blk (c_level c) (c_split c) (c_cscale c (b - 4)) (c_cshift c (b - 4)))) (filter (Z.testbit (c_cbp c)) [4; 5]).
Definition unit_blocks (c : cu_coef) : list (Z * option blk) := unit_luma c ++ unit_chroma c.
Definition blk_bins (lev : Z -> levels) (x : Z * option blk) : list bin :=
  match snd x with Some p => block_bins p (lev (fst x)) | None => [] end.
Definition blk_out (lev : Z -> levels) (x : Z * option blk) : list block :=
  match snd x with Some p => [(fst x, block_pattern p (lev (fst x)), block_groups p (lev (fst x)))] | None => [] end.
Definition unit_bins (c : cu_coef) (lev : Z -> levels) : list bin := flat_map (blk_bins lev) (unit_blocks c).
Definition unit_out (c : cu_coef) (lev : Z -> levels) : list block := flat_map (blk_out lev) (unit_blocks c).
Definition unit_ok (c : cu_coef) (lev : Z -> levels) : Prop :=
  forall b o, In (b, o) (unit_blocks c) -> exists p, o = Some p /\ block_in_use p /\ levels_ok p (lev b).
