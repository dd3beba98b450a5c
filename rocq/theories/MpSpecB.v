(** Specification of the motion vectors of coding units. Only the types of states and inputs come from the model. *)
From Coq Require Import ZArith List Bool.
From Verif Require Import CBase MemModel CuModel MvSpec NbSpec MpModel MpSpec.
Import ListNotations.
Open Scope Z_scope.

(** ** Arithmetic *)
(** Predictor and difference make the vector, which is saturated. With [pm] a place more than two quarter samples from the predictor, rounded
    down to half samples, in the first or else the second component is on the half sample grid: differences count in half samples there. *)
Definition add_diff (pm : bool) (d p : mvec) : mvec :=
  let bx := half_base (fst p) in let by_ := half_base (snd p) in
  let ex := fst p + fst d - bx in let ey := snd p + snd d - by_ in
  let v := if pm && (2 <? Z.abs ex) then (bx + 2 * (ex - Z.sgn ex), by_ + 2 * snd d)
           else if pm && (2 <? Z.abs ey) then (bx + 2 * fst d, by_ + 2 * (ey - Z.sgn ey))
           else (fst p + fst d, snd p + snd d) in
  (sat16 (fst v), sat16 (snd v)).
(** A vector times [f / 2^14], rounded to nearest, halves up; low 16 bits. *)
Definition projected (m : mvec) (f : Z) : mvec := let r v := to_i16 ((v * f + 8192) / 16384) in (r (fst m), r (snd m)).
(** The scaling of the temporal mode of B pictures: magnitude [(s * (1 + |v| * d) - 1) / 2^14], sign kept; low 16 bits. *)
Definition stretched (m : mvec) (d s : Z) : mvec := let r v := to_i16 (Z.sgn v * ((s * (1 + Z.abs v * d) - 1) / 16384)) in (r (fst m), r (snd m)).

(** ** Coded vectors *)
(** Forward (P, F, B) and backward (B) vectors that take a difference, by direction: backward only is 1, symmetric 2, two vectors 3. *)
Definition takes_forward (d : Z) : bool := negb (d =? 1).
Definition takes_backward (d : Z) : bool := (d =? 1) || (d =? 3).
(** How many of the parts before number [j] take one. *)
Definition ahead (f : Z -> bool) (c : cu) (j : nat) : nat := length (filter (fun i => f (c_dir c (Z.of_nat i))) (seq 0 j)).
Definition samples (p : Z * Z * Z * Z) : cb := let '(x, y, w, h) := p in B (4 * x) (4 * y) (4 * w) (4 * h).
(** The motion of a coded unit after the maps are complete ([g]): the parts, and for each part the vectors. The differences come part by
    part, first all forward ones. The second vector of a symmetric part and that of a part with two references are projections of the first. *)
Record coded_motion (E : env) (Q : place) (level ux uy : Z) (y : syntax) (c : cu) (g : grid) : Prop := {
  cm_type : c_type c = y_type y;
  cm_parts : c_pus c = map samples (parts false (y_type y) (2 ^ (level - 2)));
  cm_vectors : forall j x v w h, nth_error (parts false (y_type y) (2 ^ (level - 2))) j = Some (x, v, w, h) ->
    let i := Z.of_nat j in let n := 2 ^ (level - 2) in let ps := parts false (y_type y) n in
    let P bwd ref := predictor E Q g (before (Z.to_nat (e_lv E - 2)) ps n ux uy j) bwd ref (ux + x) (uy + v) w (preference (x, v, w, h)) in
    (takes_forward (c_dir c i) = true -> exists d, nth_error (y_mvds y) (ahead takes_forward c j) = Some d /\ c_mv0 c i = add_diff (e_pmvr E) d (P false (fst (c_ref c i)))) /\
    (takes_backward (c_dir c i) = true -> exists d, nth_error (y_mvds y) (ahead takes_forward c (length ps) + ahead takes_backward c j) = Some d /\ c_mv1 c i = add_diff (e_pmvr E) d (P true (snd (c_ref c i)))) /\
    (c_dir c i = 2 -> c_mv1 c i = opposite_vec (projected (c_mv0 c i) (e_dist E 0 * e_scale E 1))) /\
    (c_dir c i = 4 -> let r := fst (c_ref c i) in c_mv1 c i = projected (c_mv0 c i) (e_dist E (if r =? 0 then 1 else 0) * e_scale E r)) }.

(** ** Skipped and direct units *)
(** A neighbour; one outside the picture or the slice has no motion. *)
Definition near (E : env) (Q : place) (g : grid) (x y : Z) : nbr :=
  if avail E Q x y then let k := g (y * e_wu E + x) in Nbr true (k_dir k) (k_r0 k) (k_r1 k) (k_m0 k) (k_m1 k) else Nbr false (-1) (-1) (-1) (0, 0) (0, 0).
(** The six neighbours of a unit [n] wide: left above, above, left, right above if decoded before, and those at the other ends of its top
    and left sides. *)
Definition six (E : env) (Q : place) (g : grid) (n ux uy : Z) : list nbr :=
  [near E Q g (ux - 1) (uy - 1); near E Q g ux (uy - 1); near E Q g (ux - 1) uy;
   (if unit_before (Z.to_nat (e_lv E - 2)) (ux + n) (uy - 1) ux uy then near E Q g (ux + n) (uy - 1) else Nbr false (-1) (-1) (-1) (0, 0) (0, 0));
   near E Q g (ux + n - 1) (uy - 1); near E Q g (ux - 1) (uy + n - 1)].
(** References that go with a spatial mode of B pictures. *)
Definition b_mode_refs (mode : Z) : Z * Z := if mode =? 2 then (-1, 0) else if mode =? 4 then (1, -1) else (1, 0).
(** The motion of a skipped or direct unit; [wsm] and [ds] are the modes in force. *)
Record skipped_motion (E : env) (Q : place) (level ux uy wsm ds : Z) (c : cu) (g : grid) : Prop := {
  sm_type : c_type c = 0;
  sm_parts : c_pus c = map samples (parts ((3 <? level) && (ds =? 0)) 0 (2 ^ (level - 2)));
  sm_vectors : forall j x v w h, nth_error (parts ((3 <? level) && (ds =? 0)) 0 (2 ^ (level - 2))) j = Some (x, v, w, h) ->
    let i := Z.of_nat j in let n := 2 ^ (level - 2) in let off := (uy + v) * e_wu E + (ux + x) in
    if ds =? 0 then
      if e_type E =? 2 then
        (* B, temporal *)
        c_ref c i = (1, 0) /\
        if e_cref E off =? -1 then
          let P bwd := predictor E Q g (before (Z.to_nat (e_lv E - 2)) (parts false 0 n) n ux uy 0) bwd 0 ux uy n NoPref in
          c_mv0 c i = P false /\ c_mv1 c i = P true
        else
          let s := e_cscale E (e_cref E off) in
          c_mv0 c i = stretched (e_cmv E off) (e_dist E 1) s /\ c_mv1 c i = opposite_vec (stretched (e_cmv E off) (e_dist E 0) s)
      else
        (* P and F, temporal *)
        let r1 := if wsm =? 0 then -1 else wsm in
        c_ref c i = (0, r1) /\
        c_mv0 c i = (if 0 <=? e_cref E off then projected (e_cmv E off) (e_dist E 0 * e_cscale E (e_cref E off)) else (0, 0)) /\
        c_mv1 c i = (if wsm =? 0 then (0, 0) else projected (c_mv0 c i) (e_dist E wsm * e_scale E 0))
    else if e_type E =? 2 then c_ref c i = b_mode_refs ds /\ (c_mv0 c i, c_mv1 c i) = b_spatial ds (six E Q g n ux uy)
    else (c_ref c i, (c_mv0 c i, c_mv1 c i)) = f_spatial ds (six E Q g n ux uy) }.
(** The modes in force: weighted skip in F pictures with more than one reference if switched on; the spatial modes in B pictures always, in F
    pictures if switched on and not weighted. *)
Definition weighted_mode (E : env) (y : syntax) : Z := if (e_type E =? 4) && e_wsm E && (1 <? e_nref E) then y_wsm y else 0.
Definition spatial_mode (E : env) (y : syntax) : Z := if (weighted_mode E y =? 0) && ((e_type E =? 2) || (e_type E =? 4) && e_mhp E) then y_ds y else 0.
