(** Specification of the motion of coding units. Only the types of states and inputs come from the model. *)
From Coq Require Import ZArith List Bool.
From Verif Require Import CBase MemModel CuModel MvSpec NbSpec QtModel MpModel.
Import ListNotations.
Open Scope Z_scope.

(** ** Geometry, in units of 4x4 samples *)
(** The parts of an inter coding unit of [n] by [n] units in decoding order: one square (types 0, 1), two halves (2, 3), a quarter and three
    quarters or the reverse (4 to 7); type 0 may also be four squares. *)
Definition parts (four : bool) (ty n : Z) : list (Z * Z * Z * Z) :=
  if ty =? 0 then (if four then [(0, 0, n / 2, n / 2); (n / 2, 0, n / 2, n / 2); (0, n / 2, n / 2, n / 2); (n / 2, n / 2, n / 2, n / 2)] else [(0, 0, n, n)])
  else if ty =? 1 then [(0, 0, n, n)]
  else if ty =? 2 then [(0, 0, n, n / 2); (0, n / 2, n, n / 2)]
  else if ty =? 3 then [(0, 0, n / 2, n); (n / 2, 0, n / 2, n)]
  else if ty =? 4 then [(0, 0, n, n / 4); (0, n / 4, n, n - n / 4)]
  else if ty =? 5 then [(0, 0, n, n - n / 4); (0, n - n / 4, n, n / 4)]
  else if ty =? 6 then [(0, 0, n / 4, n); (n / 4, 0, n - n / 4, n)]
  else [(0, 0, n - n / 4, n); (n - n / 4, 0, n / 4, n)].
(** Unit [(x, y)] is decoded before part [k] of the coding unit at [(cx, cy)]: in an earlier part of it, or outside and earlier in the
    decoding order. *)
Definition before (l : nat) (ps : list (Z * Z * Z * Z)) (n cx cy : Z) (k : nat) (x y : Z) : bool :=
  if in_block (cx, cy, n, n) x y then existsb (fun b => in_block b (x - cx) (y - cy)) (firstn k ps) else unit_before l x y cx cy.

(** ** The predictor *)
(** The unit is in the picture and in the current slice. *)
Definition avail (E : env) (Q : place) (x y : Z) : bool :=
  (0 <=? x) && (x <? e_wu E) && (0 <=? y) && (y <? e_hu E) && (slice_of (e_wscu E) (q_sl Q) x y =? q_cur Q).
(** Reference and vector of a unit in one of the two lists; none if the list is not used. *)
Definition motion_of (E : env) (g : grid) (bwd : bool) (x y : Z) : option (Z * mvec) :=
  let k := g (y * e_wu E + x) in
  let r := if bwd then k_r1 k else k_r0 k in
  if r =? -1 then None else Some (r, if bwd then k_m1 k else k_m0 k).
(** A neighbour does not count in S pictures. In P and F pictures with a background picture, which is the last reference, it counts
    only if both units refer to it or neither does. *)
Definition fits (E : env) (ref r : Z) : bool :=
  negb (e_type E =? 5) && negb (e_bkg E && ((e_type E =? 1) || (e_type E =? 4)) && xorb (ref =? e_nref E - 1) (r =? e_nref E - 1)).
Definition candidate (E : env) (Q : place) (g : grid) (bwd : bool) (ref x y : Z) : option (Z * mvec) :=
  if avail E Q x y then
    match motion_of E g bwd x y with Some (r, m) => if fits E ref r then Some (r, m) else None | None => None end
  else None.
(** A vector scaled from the distance of its reference to that of the current one. In B pictures both are the reference of the list. *)
Definition scaled (E : env) (bwd : bool) (ref : Z) (c : Z * mvec) : mvec :=
  let '(r, m) := c in
  let b := e_type E =? 2 in
  let one := if bwd then 0 else 1 in
  let f := e_dist E (if b then one else ref) * e_scale E (if b then one else r) in
  (sat16 (round14 (fst m * f)), sat16 (round14 (snd m * f))).
(** One component out of three: the average of the two that agree in sign against the third, else of the closest two. *)
Definition component (a b c : Z) : Z :=
  let opp u v := u * v <? 0 in
  if opp a b && opp a c then avg0 b c
  else if opp b a && opp b c then avg0 a c
  else if opp c a && opp c b then avg0 a b
  else if (Z.abs (a - b) <=? Z.abs (b - c)) && (Z.abs (a - b) <=? Z.abs (a - c)) then avg0 a b
  else if Z.abs (b - c) <=? Z.abs (a - c) then avg0 b c
  else avg0 a c.
(** Which neighbour the shape of a part prefers: tall parts look left or above right, wide parts above or left. *)
Inductive pref := NoPref | PrefLeft | PrefAbove | PrefRight.
Definition preference (p : Z * Z * Z * Z) : pref :=
  let '(x, y, w, h) := p in
  if w <? h then (if x =? 0 then PrefLeft else PrefRight) else if h <? w then (if y =? 0 then PrefAbove else PrefLeft) else NoPref.
Definition predict (sc : Z * mvec -> mvec) (pf : pref) (ref : Z) (left above corner : option (Z * mvec)) : mvec :=
  let vec c := match c with Some c => sc c | None => (0, 0) end in
  match left, above, corner with
  | Some c, None, None | None, Some c, None | None, None, Some c => sc c
  | _, _, _ =>
    let liked := match pf with NoPref => None | PrefLeft => left | PrefAbove => above | PrefRight => corner end in
    let all := (component (fst (vec left)) (fst (vec above)) (fst (vec corner)), component (snd (vec left)) (snd (vec above)) (snd (vec corner))) in
    match liked with Some (r, m) => if r =? ref then sc (r, m) else all | None => all end
  end.
(** The predictor of a part at [(x, y)], [w] units wide; [seen] tells which units are decoded before. *)
Definition predictor (E : env) (Q : place) (g : grid) (seen : Z -> Z -> bool) (bwd : bool) (ref x y w : Z) (pf : pref) : mvec :=
  let cand := candidate E Q g bwd ref in
  let corner := if seen (x + w) (y - 1) && avail E Q (x + w) (y - 1) then cand (x + w) (y - 1) else cand (x - 1) (y - 1) in
  predict (scaled E bwd ref) pf ref (cand (x - 1) y) (cand x (y - 1)) corner.

(** Scaling this candidate stays inside 32 bit. *)
Definition in_range (E : env) (bwd : bool) (ref : Z) (c : Z * mvec) : Prop :=
  let '(r, m) := c in
  let b := e_type E =? 2 in
  let one := if bwd then 0 else 1 in
  let f := e_dist E (if b then one else ref) * e_scale E (if b then one else r) in
  Z.abs (fst m) * f + 8192 <= 2147483647 /\ Z.abs (snd m) * f + 8192 <= 2147483647.

(** ** What is assumed of pictures, syntax elements and stored motion *)
Record env_ok (E : env) : Prop := {
  eo_type : e_type E = 0 \/ e_type E = 1 \/ e_type E = 2 \/ e_type E = 4;
  eo_nref : 0 <= e_nref E <= 4; eo_inter : e_type E <> 0 -> 1 <= e_nref E; eo_b : e_type E = 2 -> e_nref E = 2;
  eo_dist : forall i, 0 <= i < e_nref E -> 1 <= e_dist E i /\ 1 <= e_scale E i;
  eo_wu : 0 < e_wu E; eo_hu : 0 < e_hu E; eo_lv : 4 <= e_lv E <= 6 }.
Definition i16v (m : mvec) : Prop := is_i16 (fst m) /\ is_i16 (snd m).

(** ** Candidates of the spatial skip and direct modes *)
Definition first_of {A : Type} (p : A -> bool) (l : list A) : option A := find p l.
Definition last_of {A : Type} (p : A -> bool) (l : list A) : option A := find p (rev l).
Definition several {A : Type} (p : A -> bool) (l : list A) : bool := (2 <=? length (filter p l))%nat.
Definition exactly_one {A : Type} (p : A -> bool) (l : list A) : bool := (length (filter p l) =? 1)%nat.
Definition opposite_vec (m : mvec) : mvec := (to_i16 (- fst m), to_i16 (- snd m)).
(** B pictures, by the direction of the neighbours (0 forward, 1 backward, 2 symmetric, 3 two vectors). *)
Definition two (n : nbr) : bool := n_dir n =? 3.
Definition symm (n : nbr) : bool := n_dir n =? 2.
Definition back (n : nbr) : bool := n_dir n =? 1.
Definition forw (n : nbr) : bool := n_dir n =? 0.
Definition b_two (ns : list nbr) : mvec * mvec :=
  match last_of two ns, last_of forw ns, last_of back ns with
  | Some n, _, _ => (n_m0 n, n_m1 n)
  | None, Some f, Some b => (n_m0 f, n_m1 b)
  | _, _, _ => ((0, 0), (0, 0))
  end.
Definition b_back (ns : list nbr) : mvec * mvec :=
  match last_of back ns, first_of two ns with
  | Some n, _ | None, Some n => ((0, 0), n_m1 n)
  | None, None => ((0, 0), (0, 0))
  end.
Definition b_forw (ns : list nbr) : mvec * mvec :=
  match last_of forw ns, first_of two ns with
  | Some n, _ | None, Some n => (n_m0 n, (0, 0))
  | None, None => ((0, 0), (0, 0))
  end.
Definition b_symm (ns : list nbr) : mvec * mvec :=
  match last_of symm ns with
  | Some n => (n_m0 n, n_m1 n)
  | None =>
    match (if several two ns then first_of two ns else None), last_of back ns, last_of forw ns with
    | Some n, _, _ => (n_m0 n, n_m1 n)
    | None, Some n, _ => (opposite_vec (n_m1 n), n_m1 n)
    | None, None, Some n => (n_m0 n, opposite_vec (n_m0 n))
    | None, None, None => ((0, 0), (0, 0))
    end
  end.
Definition b_spatial (mode : Z) (ns : list nbr) : mvec * mvec :=
  if mode =? 1 then b_two ns else if mode =? 2 then b_back ns else if mode =? 3 then b_symm ns else b_forw ns.
(** P and F pictures, by the number of references of the neighbours. *)
Definition dual (n : nbr) : bool := negb (n_r0 n =? -1) && negb (n_r1 n =? -1).
Definition single (n : nbr) : bool := negb (n_r0 n =? -1) && (n_r1 n =? -1).
Definition f_of_dual (n : nbr) := ((n_r0 n, n_r1 n), (n_m0 n, n_m1 n)).
Definition f_of_two (a b : nbr) := ((n_r0 a, n_r0 b), (n_m0 a, n_m0 b)).
Definition f_zero : (Z * Z) * (mvec * mvec) := ((0, 0), ((0, 0), (0, 0))).
Definition f_one (r : Z) (m : mvec) : (Z * Z) * (mvec * mvec) := ((r, -1), (m, (0, 0))).
Definition f_singles (ns : list nbr) :=
  match last_of single ns, first_of single ns with Some a, Some b => if several single ns then f_of_two a b else f_zero | _, _ => f_zero end.
Definition f_dual1 (ns : list nbr) := match last_of dual ns with Some n => f_of_dual n | None => f_singles ns end.
Definition f_dual2 (ns : list nbr) :=
  match first_of dual ns with
  | Some n => if several dual ns then f_of_dual n else f_singles ns
  | None => f_zero
  end.
Definition f_single1 (ns : list nbr) :=
  match last_of single ns, first_of dual ns with
  | Some n, _ | None, Some n => f_one (n_r0 n) (n_m0 n)
  | None, None => f_one 0 (0, 0)
  end.
Definition f_single2 (ns : list nbr) :=
  match (if several single ns then first_of single ns else None), first_of dual ns with
  | Some n, _ => f_one (n_r0 n) (n_m0 n)
  | None, Some n => f_one (n_r1 n) (n_m1 n)
  | None, None => f_one 0 (0, 0)
  end.
Definition f_spatial (mode : Z) (ns : list nbr) : (Z * Z) * (mvec * mvec) :=
  if mode =? 1 then f_dual1 ns else if mode =? 2 then f_dual2 ns else if mode =? 3 then f_single1 ns else f_single2 ns.

(** ** Units and their motion *)
(** References and directions that go together. *)
Definition dir_ok (E : env) (d r0 r1 : Z) : Prop :=
  d = -1 /\ r0 = -1 /\ r1 = -1 \/
  e_type E = 2 /\ (d = 0 /\ r0 = 1 /\ r1 = -1 \/ d = 1 /\ r0 = -1 /\ r1 = 0 \/ (d = 2 \/ d = 3) /\ r0 = 1 /\ r1 = 0) \/
  (e_type E = 1 \/ e_type E = 4) /\ 0 <= r0 < e_nref E /\ (d = 0 /\ r1 = -1 \/ d = 4 /\ 0 <= r1 < e_nref E).
(** The motion of a decoded unit: in pictures other than B the direction is not looked at. *)
Definition motion_ok (E : env) (d r0 r1 : Z) : Prop :=
  if e_type E =? 2 then dir_ok E d r0 r1 else r0 = -1 /\ r1 = -1 \/ 0 <= r0 < e_nref E /\ -1 <= r1 < e_nref E.
Definition cell_ok (E : env) (k : cell) : Prop := motion_ok E (k_dir k) (k_r0 k) (k_r1 k).
(** A coding unit of level [level] (4x4 units [2 ^ (level - 2)] to a side) at 4x4 unit [(ux, uy)]: inside the picture, aligned, the place of its LCU known. *)
Record unit_at (E : env) (Q : place) (level ux uy : Z) : Prop := {
  ua_level : 3 <= level <= e_lv E; ua_x : 0 <= ux; ua_y : 0 <= uy; ua_w : ux + 2 ^ (level - 2) <= e_wu E; ua_h : uy + 2 ^ (level - 2) <= e_hu E;
  ua_ax : ux mod 2 ^ (level - 2) = 0; ua_ay : uy mod 2 ^ (level - 2) = 0;
  ua_qx : q_lx Q = ux - ux mod 2 ^ (e_lv E - 2); ua_qy : q_ly Q = uy - uy mod 2 ^ (e_lv E - 2) }.
Definition in_unit (level ux uy X Y : Z) : Prop := ux <= X < ux + 2 ^ (level - 2) /\ uy <= Y < uy + 2 ^ (level - 2).
(** Values the entropy decoder can deliver (C55 to C62). *)
Record syntax_ok (E : env) (level : Z) (y : syntax) : Prop := {
  so_type : -1 <= y_type y <= 9; so_shape : 4 <= y_type y <= 7 -> 4 <= level; so_intra : e_type E = 0 -> 8 <= y_type y;
  so_itype : 8 <= y_itype y <= 11; so_stripes : 10 <= y_itype y -> level = 4 \/ level = 5;
  so_wsm : 0 <= y_wsm y < Z.max 1 (e_nref E); so_ds : 0 <= y_ds y <= 4;
  so_pdir : 0 <= y_pdir y /\ (e_type E = 2 -> y_type y = 1 -> y_pdir y <= 3) /\ (e_type E = 2 -> y_pdir y <= 15) /\ (e_type E <> 2 -> y_pdir y <= 3);
  so_refs : Forall (fun r => 0 <= r < e_nref E) (y_refs y) }.
(** A place of the prediction block [p] (samples, relative to the unit). *)
Definition in_pu (ux uy : Z) (p : cb) (X Y : Z) : Prop :=
  4 * ux + CuModel.cx p <= 4 * X < 4 * ux + CuModel.cx p + cw p /\ 4 * uy + CuModel.cy p <= 4 * Y < 4 * uy + CuModel.cy p + ch p.
(** The maps hold the motion of the parts of the unit; in P and F pictures a skipped unit leaves no direction. *)
Definition stored (E : env) (ux uy : Z) (c : cu) (g : grid) : Prop := forall j p X Y, nth_error (c_pus c) j = Some p -> in_pu ux uy p X Y ->
  let i := Z.of_nat j in let k := g (Y * e_wu E + X) in
  k_r0 k = fst (c_ref c i) /\ k_r1 k = snd (c_ref c i) /\ (k_r0 k <> -1 -> k_m0 k = c_mv0 c i) /\ (k_r1 k <> -1 -> k_m1 k = c_mv1 c i) /\
  (e_type E = 2 \/ c_type c <> 0 -> k_dir k = c_dir c i).
(** The same motion as far as anything looks at it. *)
Definition same_cell (E : env) (k k' : cell) : Prop :=
  k_r0 k = k_r0 k' /\ k_r1 k = k_r1 k' /\ (k_r0 k <> -1 -> k_m0 k = k_m0 k') /\ (k_r1 k <> -1 -> k_m1 k = k_m1 k') /\ (e_type E = 2 -> k_dir k = k_dir k').
Definition same_unit (c c' : cu) : Prop :=
  c_type c = c_type c' /\ c_dmh c = c_dmh c' /\ c_pus c = c_pus c' /\
  forall j, (j < length (c_pus c))%nat -> let i := Z.of_nat j in
    c_dir c i = c_dir c' i /\ c_ref c i = c_ref c' i /\ (fst (c_ref c i) <> -1 -> c_mv0 c i = c_mv0 c' i) /\ (snd (c_ref c i) <> -1 -> c_mv1 c i = c_mv1 c' i).
(** What was decoded before in the same slice is the same in both maps, and is motion of this picture. *)
Definition same_past (E : env) (Q : place) (level ux uy : Z) (g g' : grid) : Prop := forall X Y, avail E Q X Y = true -> ~ in_unit level ux uy X Y ->
  unit_before (Z.to_nat (e_lv E - 2)) X Y ux uy = true -> same_cell E (g (Y * e_wu E + X)) (g' (Y * e_wu E + X)) /\ cell_ok E (g (Y * e_wu E + X)).
(** The maps hold 16 bit vectors and references of the picture or none. *)
Definition grid_ok (E : env) (g : grid) : Prop := forall p, i16v (k_m0 (g p)) /\ i16v (k_m1 (g p)) /\ -1 <= k_r0 (g p) < e_nref E /\ -1 <= k_r1 (g p) < e_nref E.
(** Two computations end alike. *)
Definition orel {A C : Type} (R : A -> C -> Prop) (a : outcome A) (b : outcome C) : Prop :=
  match a, b with Done x, Done y => R x y | Fail, Fail | Undef, Undef | Hang, Hang => True | _, _ => False end.
(** The result of a unit: nothing outside changes, its parts cover it, the maps hold their motion, which fits the picture. *)
Record unit_done (E : env) (level ux uy : Z) (g : grid) (s : cu * grid) : Prop := {
  ud_keeps : forall X Y, 0 <= X < e_wu E -> ~ in_unit level ux uy X Y -> snd s (Y * e_wu E + X) = g (Y * e_wu E + X);
  ud_parts : forall X Y, in_unit level ux uy X Y -> exists j p, nth_error (c_pus (fst s)) j = Some p /\ in_pu ux uy p X Y;
  ud_stored : stored E ux uy (fst s) (snd s);
  ud_dirs : forall j, (j < length (c_pus (fst s)))%nat -> let i := Z.of_nat j in dir_ok E (c_dir (fst s) i) (fst (c_ref (fst s) i)) (snd (c_ref (fst s) i));
  ud_cells : forall X Y, in_unit level ux uy X Y -> cell_ok E (snd s (Y * e_wu E + X));
  ud_grid : grid_ok E (snd s) }.
(** What was decoded before in the same slice is motion of this picture. *)
Definition good_past (E : env) (Q : place) (level ux uy : Z) (g : grid) : Prop := forall X Y, avail E Q X Y = true -> ~ in_unit level ux uy X Y ->
  unit_before (Z.to_nat (e_lv E - 2)) X Y ux uy = true -> cell_ok E (g (Y * e_wu E + X)).

(** ** A picture *)
Definition job_ok (E : env) (j : job) : Prop := let '(Q, level, ux, uy, y) := j in unit_at E Q level ux uy /\ syntax_ok E level y.
Definition in_job (j : job) (X Y : Z) : Prop := let '(_, level, ux, uy, _) := j in in_unit level ux uy X Y.
(** Everything in the picture that comes before a unit in decoding order is in an earlier unit. *)
Definition in_order (E : env) (js : list job) : Prop := forall k Q level ux uy y X Y, nth_error js k = Some (Q, level, ux, uy, y) ->
  in_pic (e_wu E) (e_hu E) X Y -> ~ in_unit level ux uy X Y -> unit_before (Z.to_nat (e_lv E - 2)) X Y ux uy = true ->
  exists i j, (i < k)%nat /\ nth_error js i = Some j /\ in_job j X Y.
(** Two runs of a picture: the same units and, wherever a unit lies, the same motion; it fits the picture. *)
Record same_picture (E : env) (js : list job) (a a' : list cu * grid) : Prop := {
  sp_units : Forall2 same_unit (fst a) (fst a'); sp_count : length (fst a) = length js;
  sp_cells : forall j X Y, In j js -> in_job j X Y -> same_cell E (snd a (Y * e_wu E + X)) (snd a' (Y * e_wu E + X)) /\ cell_ok E (snd a (Y * e_wu E + X)) }.
(** The work for one unit of the quadtree: its size and place, in units of 4, and the LCU it is in. *)
Definition job_of (E : env) (u : unit_) (j : job) : Prop := let '(Q, level, ux, uy, y) := j in
  v_level u = level /\ v_x u = 4 * ux /\ v_y u = 4 * uy /\ q_lx Q = ux - ux mod 2 ^ (e_lv E - 2) /\ q_ly Q = uy - uy mod 2 ^ (e_lv E - 2) /\ syntax_ok E level y.

(** ** Motion kept for later pictures *)
(** In a block of 4 by 4 units the unit right below and right of the centre; the middle of what is left of the block if the picture ends before. *)
Definition middle (v n : Z) : Z := let b := v / 4 * 4 in if b + 2 <? n then b + 2 else (b + n) / 2.
