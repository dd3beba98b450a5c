(** The vector functions that fill the border of an intra block (8-bit builds),
    vec/intrinsic_intra-filledge.cc. Definitions only. *)
From Coq Require Import ZArith List Bool.
From Verif Require Import CBase MemModel SaoModel NbModel IprModel EgModel VxModelBase.
Import ListNotations.
Open Scope Z_scope.

(** [n] stores of 16 bytes, one behind the other; with [al] by [_mm_store_si128], which faults
    ([Undef]) when the address is not a multiple of 16.  [base] is the address of byte 0 of the
    memory. *)
Fixpoint lines16 (al : bool) (base : Z) (n : nat) (a : Z) (r : Z -> reg) (m : mem) : outcome mem :=
  match n with
  | O => Done m
  | S k => bindo (lines16 al base k a r m) (fun m =>
           let q := a + 16 * Z.of_nat k in
           if al && negb ((base + q) mod 16 =? 0) then Undef else Done (store16 m q (r (Z.of_nat k))))
  end.
(** Iterations of [for (i = 0; i < n; i += 16)]. *)
Definition trips (n : Z) : nat := Z.to_nat ((n + 15) / 16).

(** Copying [n] samples, lines 69-80, 84-95 (and the same in the other functions): [memcpy] for 4,
    the lower half of a register for 8, else aligned stores. *)
Definition vcopy (base n a : Z) (src : mem) (s : Z) (m : mem) : outcome mem :=
  if n =? 4 then Done (copy_p m a n (fun i => src (s + i)))
  else if n =? 8 then Done (store8 m a (load src s))
  else lines16 true base (trips n) a (fun k => load src (s + 16 * k)) m.
(** Repeating a sample, lines 97-108 ([al] set) and 129-139 (unaligned stores). *)
Definition vrepeat (al : bool) (base n a v : Z) (m : mem) : outcome mem :=
  if n =? 4 then Done (repeat_p m a (to_u8 v) n)
  else if n =? 8 then Done (store8 m a (set1_epi8 v))
  else lines16 al base (trips n) a (fun _ => set1_epi8 v) m.

(** Where the left column comes from: the cached border, read upwards with [memcpy], or the
    picture, read with a loop. *)
Inductive column := Cached (lcu : mem) (pl : Z) | InPic (pic : mem) (p st : Z).
Definition near (c : column) (ep n : Z) (m : mem) : mem :=
  match c with
  | Cached lcu pl => copy_p m (ep - n) n (fun i => lcu (pl - n + i))
  | InPic pic p st => floop 0 n (fun y (m : mem) => upd m (ep - 1 - y) (pic (p + y * st))) m
  end.
Definition far (c : column) (ep n : Z) (m : mem) : mem :=
  match c with
  | Cached lcu pl => copy_p m (ep - 2 * n) n (fun i => lcu (pl - 2 * n + i))
  | InPic pic p st => floop 0 n (fun y (m : mem) => upd m (ep - n - 1 - y) (pic (p + n * st + y * st))) m
  end.

(** intrinsic_intra-filledge.cc:46-159, 165-281, 287-401, 407-524: four functions with the same
    text but for the places they read from.  [src], [s]: memory and index of the sample above
    the first column; [c1], [c2], [c3] the sources of the corner.  [dc] is [g_dc_value];
    [memset] takes its lower byte.  Line 62 fills one byte more than the C functions. *)
Definition vfill (base dc : Z) (src : mem) (s : Z) (col : column) (c1 c2 c3 : Z) (ep : Z) (a : nbs) (bsx bsy : Z) (m : mem) : outcome mem :=
  let k := Z.shiftl (bsy + bsx) 1 + 1 in
  let j := Z.shiftl (Z.shiftr k 4) 4 in
  bindo (lines16 false base (trips j) (ep - Z.shiftl bsy 1) (fun _ => set1_epi8 dc) m) (fun m =>
  let m := repeat_p m (ep - Z.shiftl bsy 1 + j) (to_u8 dc) (k - j + 1) in
  let m := upd m (ep + 2 * bsx) (to_u8 dc) in
  bindo (if n_top a then vcopy base bsx (ep + 1) src s m else Done m) (fun m =>
  bindo (if n_top_right a then vcopy base bsx (ep + bsx + 1) src (s + bsx) m
         else vrepeat true base bsx (ep + bsx + 1) (m (ep + bsx)) m) (fun m =>
  let pad := Z.quot (bsy * 11) 4 - bsx + 4 in
  let m := if 0 <? pad then repeat_p m (ep + 2 * bsx + 1) (m (ep + 2 * bsx)) pad else m in
  let m := if n_left a then near col ep bsy m else m in
  bindo (if n_left_down a then Done (far col ep bsy m)
         else vrepeat false base bsy (ep - Z.shiftl bsy 1) (m (ep - bsy)) m) (fun m =>
  let pad := Z.quot (bsx * 11) 4 - bsy + 4 in
  let m := if 0 <? pad then repeat_p m (ep - 2 * bsy - pad) (m (ep - 2 * bsy)) pad else m in
  Done (if n_top_left a then upd m ep c1 else if n_top a then upd m ep c2 else if n_left a then upd m ep c3 else m))))).

Definition vfill_0 (base dc : Z) (pic : mem) (ptl i_tl : Z) (lcu : mem) (pl : Z) :=
  vfill base dc lcu (pl + 1) (Cached lcu pl) (lcu pl) (lcu (pl + 1)) (lcu (pl - 1)).
Definition vfill_x (base dc : Z) (pic : mem) (ptl i_tl : Z) (lcu : mem) (pl : Z) :=
  vfill base dc lcu (pl + 1) (InPic pic (ptl + i_tl) i_tl) (lcu pl) (lcu (pl + 1)) (pic (ptl + i_tl)).
Definition vfill_y (base dc : Z) (pic : mem) (ptl i_tl : Z) (lcu : mem) (pl : Z) :=
  vfill base dc pic (ptl + 1) (Cached lcu pl) (lcu pl) (pic (ptl + 1)) (lcu (pl - 1)).
Definition vfill_xy (base dc : Z) (pic : mem) (ptl i_tl : Z) (lcu : mem) (pl : Z) :=
  vfill base dc pic (ptl + 1) (InPic pic (ptl + i_tl) i_tl) (pic ptl) (pic (ptl + 1)) (pic (ptl + i_tl)).
(** The table as set at intra.cc:2670-2673, indexed as in [fill_edge]. *)
Definition vfill_edge (ctu_x ctu_y : Z) :=
  let xy := Z.shiftl (if ctu_y =? 0 then 0 else 1) 1 + (if ctu_x =? 0 then 0 else 1) in
  if xy =? 0 then vfill_0 else if xy =? 1 then vfill_x else if xy =? 2 then vfill_y else vfill_xy.

(** intra.cc:2507-2531 [davs2_get_intra_pred] with these functions in the table; the prediction is
    that of the C functions. *)
Definition get_intra_pred_v (base bits depth : Z) (junk : mem) (c : ctx) (cur mode ctu_x ctu_y bsx bsy : Z) (lcu : mem) (rt : Z)
  (fd st : Z) (buf pic : mem) : outcome (nbs * mem * mem) :=
  let ep := Z.shiftl 64 2 - 1 in
  let bx := Z.shiftr ctu_x 2 + k_ux c in
  let by_ := Z.shiftr ctu_y 2 + k_uy c in
  let p := fd + ctu_y * st + ctu_x in
  bindo (intra_neighbors (k_lv c) (k_wu c) (k_hu c) (k_wscu c) (k_sl c) bx by_ bsx bsy cur) (fun a =>
  let ptl := p - st - 1 in
  bindo (vfill_edge ctu_x ctu_y base (2 ^ (depth - 1)) pic ptl st lcu (rt + ctu_x - ctu_y) ep a bsx bsy buf) (fun buf =>
  Done (a, buf, intra_pred bits depth junk buf ep p st mode bsx bsy (n_top a) (n_left a) pic))).
(** intra.cc:2537-2572 [davs2_get_intra_pred_chroma], likewise. *)
Definition get_intra_pred_chroma_v (base bits depth : Z) (junk : mem) (c : ctx) (cur level luma c_mode cx cy : Z) (lcu1 lcu2 : mem) (rt : Z)
  (fd1 fd2 st : Z) (buf pic1 pic2 : mem) : outcome (nbs * mem * (mem * mem)) :=
  let ep1 := Z.shiftl 64 1 - 1 in
  let ep2 := ep1 + Z.shiftl 64 2 in
  let n := Z.shiftl 1 (level - 1) in
  let bx := Z.shiftr (Z.shiftl cx 1) 2 + k_ux c in
  let by_ := Z.shiftr (Z.shiftl cy 1) 2 + k_uy c in
  bindo (real_mode luma c_mode) (fun mode =>
  let p1 := fd1 + cy * st + cx in
  let p2 := fd2 + cy * st + cx in
  bindo (intra_neighbors (k_lv c) (k_wu c) (k_hu c) (k_wscu c) (k_sl c) bx by_ (Z.shiftl n 1) (Z.shiftl n 1) cur) (fun a =>
  bindo (vfill_edge cx cy base (2 ^ (depth - 1)) pic1 (p1 - st - 1) st lcu1 (rt + cx - cy) ep1 a n n buf) (fun buf =>
  bindo (vfill_edge cx cy base (2 ^ (depth - 1)) pic2 (p2 - st - 1) st lcu2 (rt + cx - cy) ep2 a n n buf) (fun buf =>
  let pic1 := intra_pred bits depth junk buf ep1 p1 st mode n n (n_top a) (n_left a) pic1 in
  let pic2 := intra_pred bits depth junk buf ep2 p2 st mode n n (n_top a) (n_left a) pic2 in
  Done (a, buf, (pic1, pic2)))))).
