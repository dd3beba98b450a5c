(** Deblocking of a picture as a rule: which edges, and what becomes of every sample. *)
From Coq Require Import ZArith List Bool.
From Verif Require Import QpModel QpSpec LfSpec AlfSpec DbModel.
Import ListNotations.
Open Scope Z_scope.

(** Edges.  A coding unit of side [n] (in units of 8 samples) is cut at quarters of its side. *)
Definition cut (quarters : list Z) (n d : Z) : bool := existsb (fun q => 4 * d =? q * n) quarters.
(** Cuts between prediction units; [dir] 0: vertical edges.  Types as in common.h:217-229. *)
Definition pu_cuts (t dir : Z) : list Z :=
  if dir =? 0 then
    match t with 3 => [2] | 6 => [1] | 7 => [3] | 9 => [2] | 11 => [1; 2; 3] | _ => [] end
  else
    match t with 2 => [2] | 4 => [1] | 5 => [3] | 9 => [2] | 10 => [1; 2; 3] | _ => [] end.
(** The long thin intra units do not cut chroma. *)
Definition pu_kind (t : Z) : Z := if (t =? 10) || (t =? 11) then 1 else 2.
(** Cuts between transform blocks. *)
Definition tu_cuts (nsqt : bool) (t dir : Z) : list Z :=
  let wide := existsb (Z.eqb t) [2; 4; 5; 10] in
  let tall := existsb (Z.eqb t) [3; 6; 7; 11] in
  if nsqt && wide then (if dir =? 0 then [] else [1; 2; 3])
  else if nsqt && tall then (if dir =? 0 then [1; 2; 3] else [])
  else [2].
(** Kind of the edge at distance [d] from the border of a coding unit: 2 for luma and chroma, 1 for luma only, 0 for none. *)
Definition inner_kind (nsqt : bool) (n t : Z) (split : bool) (dir d : Z) : Z :=
  if d =? 0 then 2
  else if cut (pu_cuts t dir) n d then pu_kind t
  else if split && negb (t =? 9) && cut (tu_cuts nsqt t dir) n d then 1
  else 0.
Definition unit_at (p : pict) (x y : Z) : unit8 := p_units p (y * p_ws p + x).
Definition side8 (u : unit8) : Z := 2 ^ (u_level u - 3).
(** Kind of the left ([dir] 0) or upper edge of the 8x8 unit at [(x, y)]. *)
Definition edge_kind (p : pict) (dir x y : Z) : Z :=
  let Q := unit_at p x y in
  let '(px, py) := if dir =? 0 then (x - 1, y) else (x, y - 1) in
  if (px <? 0) || (py <? 0) then 0
  else if negb (p_cross p) && negb (u_slice (unit_at p px py) =? u_slice Q) then 0
  else inner_kind (p_nsqt p) (side8 Q) (u_type Q) (negb (u_split Q =? 0) && negb (u_cbp Q =? 0)) dir ((if dir =? 0 then x else y) mod side8 Q).

(** The units form coding units: aligned squares inside the picture and inside one LCU, with the same data
    everywhere; an LCU belongs to one slice. *)
Definition same_cu (u v : unit8) : Prop := u_level u = u_level v /\ u_type u = u_type v /\ u_split u = u_split v /\ u_cbp u = u_cbp v.
Definition well_formed (p : pict) : Prop :=
  3 <= p_lv p <= 6 /\ 0 < p_ws p /\ 0 < p_hs p /\
  (forall x y, 0 <= x < p_ws p -> 0 <= y < p_hs p ->
     let u := unit_at p x y in let n := side8 u in
     3 <= u_level u <= p_lv p /\ 0 <= u_type u <= 11 /\ x / n * n + n <= p_ws p /\ y / n * n + n <= p_hs p /\
     forall a b, 0 <= a < n -> 0 <= b < n -> same_cu (unit_at p (x / n * n + a) (y / n * n + b)) u) /\
  (let N := 2 ^ (p_lv p - 3) in
   forall x y x' y', 0 <= x < p_ws p -> 0 <= y < p_hs p -> 0 <= x' < p_ws p -> 0 <= y' < p_hs p ->
     x / N = x' / N -> y / N = y' / N -> u_slice (unit_at p x y) = u_slice (unit_at p x' y')).

(** Samples.  A 4x4 unit needs no filtering towards its neighbour in P and F pictures if both units have no
    coefficients and the same reference, with vectors less than one sample apart. *)
Definition smooth (p : pict) (dir x4 y4 : Z) : bool :=
  let w := 2 * p_ws p in
  let '(nx, ny) := if dir =? 0 then (x4 - 1, y4) else (x4, y4 - 1) in
  let i := y4 * w + x4 in let j := ny * w + nx in
  p_inter p && (u_cbp (unit_at p (x4 / 2) (y4 / 2)) =? 0) && (u_cbp (unit_at p (nx / 2) (ny / 2)) =? 0) &&
  negb (p_ref p i =? -1) && (p_ref p i =? p_ref p j) &&
  (Z.abs (p_mvx p i - p_mvx p j) <? 4) && (Z.abs (p_mvy p i - p_mvy p j) <? 4).
(** Average QP across the edge. *)
Definition edge_qp (p : pict) (dir x y : Z) : Z :=
  (u_qp (unit_at p x y) + u_qp (if dir =? 0 then unit_at p (x - 1) y else unit_at p x (y - 1)) + 1) / 2.

(** One plane: [c] for chroma; a unit has [per c] samples; edges lie on a grid of 8 samples. *)
Definition per (c : bool) : Z := if c then 4 else 8.
(** The edge nearest to coordinate [v] on the grid. *)
Definition edge_of (v : Z) : Z := 8 * ((v + 3) / 8).
(** Is line [k] of the left (upper) edge of unit [(x, y)] filtered?  [covered]: the horizontal edges dealt with. *)
Definition edge_on (p : pict) (c : bool) (dir x y k : Z) : bool :=
  (if c then (edge_kind p dir x y =? 2) && negb (p_c400 p) else negb (edge_kind p dir x y =? 0)) &&
  negb (if dir =? 0 then smooth p 0 (2 * x) (2 * y + 2 * k / per c) else smooth p 1 (2 * x + 2 * k / per c) (2 * y)).
(** Filtering across all vertical edges of a plane of [W] columns; [al], [be]: thresholds by QP. *)
Definition across_vertical (p : pict) (c : bool) (al be : Z -> Z) (W : Z) (R : Z -> Z -> Z) (x y : Z) : Z :=
  let e := edge_of x in let u := e / per c in let v := y / per c in
  if (x - e <=? 2) && (0 <? e) && (e <? W) then
    filtered c (al (edge_qp p 0 u v)) (be (edge_qp p 0 u v)) (edge_on p c 0 u v (y mod per c)) (fun j => R (e + j) y) (x - e)
  else R x y.
(** The same for the horizontal edges; [covered u]: those in unit column [u] are filtered at all. *)
Definition across_horizontal (p : pict) (c : bool) (al be : Z -> Z) (covered : Z -> bool) (H : Z) (R : Z -> Z -> Z) (x y : Z) : Z :=
  let e := edge_of y in let u := x / per c in let v := e / per c in
  if (y - e <=? 2) && (0 <? e) && (e <? H) then
    filtered c (al (edge_qp p 1 u v)) (be (edge_qp p 1 u v)) (covered u && edge_on p c 1 u v (x mod per c)) (fun j => R x (e + j)) (y - e)
  else R x y.
Definition deblocked_plane (p : pict) (c : bool) (al be : Z -> Z) (covered : Z -> bool) (R : Z -> Z -> Z) : Z -> Z -> Z :=
  across_horizontal p c al be covered (per c * p_hs p) (across_vertical p c al be (per c * p_ws p) R).

(** Thresholds by QP: the tables of the standard at the QP with the offset of the picture. *)
Definition luma_threshold (t : list Z) (depth off qp : Z) : Z :=
  nth (Z.to_nat (clamp 0 63 (qp - 8 * (depth - 8) + off))) t 0 * 2 ^ (depth - 8).
Definition chroma_threshold_of (p : pict) (t : list Z) (off qp : Z) : Z :=
  let d := 8 * (p_depth p - 8) in
  let q := qp + p_delta p - d in
  let qc := if p_hbd p then (if q <? 0 then Z.max 0 (q + d) else nth (Z.to_nat q) QP_SCALE_CR 0 + d)
            else nth (Z.to_nat (clamp 0 63 q)) QP_SCALE_CR 0 in
  luma_threshold t (p_depth p) off qc.
Definition luma_alpha (p : pict) : Z -> Z := luma_threshold ALPHA_TABLE (p_depth p) (p_offa p).
Definition luma_beta (p : pict) : Z -> Z := luma_threshold BETA_TABLE (p_depth p) (p_offb p).
Definition chroma_alpha (p : pict) : Z -> Z := chroma_threshold_of p ALPHA_TABLE (p_offa p).
Definition chroma_beta (p : pict) : Z -> Z := chroma_threshold_of p BETA_TABLE (p_offb p).
(** QPs and offsets of a picture: the chroma offset leaves the scale of chroma QPs only downwards. *)
Definition qps_ok (p : pict) : Prop :=
  depth_ok (p_depth p) /\ (p_hbd p = false -> p_depth p = 8) /\
  -1073741824 <= p_delta p <= 1073741824 /\ -1073741824 <= p_offa p <= 1073741824 /\ -1073741824 <= p_offb p <= 1073741824 /\
  forall x y, 0 <= x < p_ws p -> 0 <= y < p_hs p ->
    let q := u_qp (unit_at p x y) in
    0 <= q <= 127 /\ (p_c400 p = false -> p_hbd p = true -> q + p_delta p <= 63 + 8 * (p_depth p - 8)).
(** [wl] times [hl] LCUs cover the picture. *)
Definition lcus (p : pict) (wl hl : Z) : Prop :=
  let N := 2 ^ (p_lv p - 3) in
  0 < wl /\ (wl - 1) * N < p_ws p <= wl * N /\ 0 < hl /\ (hl - 1) * N < p_hs p <= hl * N.
Definition plane_in (p : pict) (c : bool) (x y : Z) : Prop := 0 <= x < per c * p_ws p /\ 0 <= y < per c * p_hs p.
(** A plane at [base] with lines [st] apart holds [F]; the rest of the memory is as before. *)
Definition plane_holds (p : pict) (c : bool) (base st : Z) (old new : Z -> Z) (F : Z -> Z -> Z) : Prop :=
  (forall x y, plane_in p c x y -> new (base + y * st + x) = F x y) /\
  (forall q, (forall x y, plane_in p c x y -> q <> base + y * st + x) -> new q = old q).
Definition samples_ok (p : pict) (c : bool) (bits : Z) (R : Z -> Z -> Z) : Prop :=
  forall x y, plane_in p c x y -> 0 <= R x y < 2 ^ bits.
