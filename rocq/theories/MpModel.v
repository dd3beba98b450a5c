(** Motion of a coding unit: neighbours, predictors, skip and direct modes, and the maps of motion data
    that later units, the deblocking filter and later pictures read. Definitions only. Sequences with
    field coding ([b_field_coding]) are not modelled. *)
From Coq Require Import ZArith List Bool.
From Verif Require Import CBase MemModel SaoModel QpModel UtilModel MvModel SynModel CuModel NbModel.
Import ListNotations.
Open Scope Z_scope.

Definition mvec := (Z * Z)%type.
(** One 4x4 unit of [h->p_dirpred], [p_ref_idx], [p_tmv_1st], [p_tmv_2nd] (common.h:1136-1139). *)
Record cell := Cell { k_dir : Z; k_r0 : Z; k_r1 : Z; k_m0 : mvec; k_m1 : mvec }.
Definition grid := Z -> cell.
Definition updf {A : Type} (f : Z -> A) (i : Z) (v : A) : Z -> A := fun j => if j =? i then v else f j.
(** The store loops over a rectangle of 4x4 units, for example cu.cc:419-426: [w] columns, [h] lines, line length [wu]. *)
Definition paint (wu x y w h : Z) (f : cell -> cell) (g : grid) : grid :=
  floop 0 h (fun r g => floop 0 w (fun c g => updf g ((y + r) * wu + x + c) (f (g ((y + r) * wu + x + c)))) g) g.
Definition set_ref_dir (d r0 r1 : Z) (k : cell) : cell := Cell d r0 r1 (k_m0 k) (k_m1 k).
Definition set_mv0 (m : mvec) (k : cell) : cell := Cell (k_dir k) (k_r0 k) (k_r1 k) m (k_m1 k).
Definition set_mv1 (m : mvec) (k : cell) : cell := Cell (k_dir k) (k_r0 k) (k_r1 k) (k_m0 k) m.
Definition set_mvs (m n : mvec) (k : cell) : cell := Cell (k_dir k) (k_r0 k) (k_r1 k) m n.
Definition set_ref_mvs (r0 r1 : Z) (m n : mvec) (k : cell) : cell := Cell (k_dir k) r0 r1 m n.

(** What the picture fixes: type, number of references, sizes in 4x4 and 8x8 units, level of the LCU, flags, the
    distances of its own references ([fdec->dist_refs], [dist_scale_refs]); of [fref[0]]: whether it exists, its
    stored motion, and the distances of its references. *)
Record env := Env {
  e_type : Z; e_nref : Z; e_wu : Z; e_hu : Z; e_wscu : Z; e_lv : Z;
  e_bkg : bool; e_pmvr : bool; e_wsm : bool; e_mhp : bool; e_dhp : bool;
  e_dist : Z -> Z; e_scale : Z -> Z;
  e_ref0 : bool; e_cref : Z -> Z; e_cmv : Z -> mvec; e_cdist : Z -> Z; e_cscale : Z -> Z }.
(** Arrays of AVS2_MAX_REFS entries. *)
Definition arr4 (f : Z -> Z) (i : Z) : outcome Z := if (0 <=? i) && (i <? 4) then Done (f i) else Undef.

(** What the position fixes: slice numbers of the 8x8 units, the number of the current one, the place of the LCU in 4x4 units. *)
Record place := Place { q_sl : mem; q_cur : Z; q_lx : Z; q_ly : Z }.

(** common.h:608-613 [neighbor_inter_t]. *)
Record nbr := Nbr { n_av : bool; n_dir : Z; n_r0 : Z; n_r1 : Z; n_m0 : mvec; n_m1 : mvec }.
(** predict.h:240-261 [cu_get_neighbor_spatial]. *)
Definition spatial (E : env) (Q : place) (g : grid) (x y : Z) : nbr :=
  if (y <? 0) || (e_hu E <=? y) || (x <? 0) || (e_wu E <=? x) || negb (q_sl Q (Z.shiftr y 1 * e_wscu E + Z.shiftr x 1) =? q_cur Q)
  then Nbr false (-1) (-1) (-1) (0, 0) (0, 0)
  else let k := g (y * e_wu E + x) in Nbr true (k_dir k) (k_r0 k) (k_r1 k) (k_m0 k) (k_m1 k).
(** predict.cc:176-192: the place asked for the block above right. *)
Definition tr_column (E : env) (Q : place) (x1 y0 : Z) : outcome Z :=
  match get (tab_TR (e_lv E)) (Z.shiftl (y0 - q_ly Q) (e_lv E - 2) + (x1 - q_lx Q)) with
  | Some v => Done (if v =? 0 then -1 else x1 + 1)
  | None => Undef
  end.
(** predict.cc:173-192 [cu_get_neighbors_default_mvp]: left, above, above left, above right. *)
Definition mvp_neighbors (E : env) (Q : place) (g : grid) (px py bsx : Z) : outcome (nbr * nbr * nbr * nbr) :=
  let x0 := Z.shiftr px 2 in let y0 := Z.shiftr py 2 in
  let x1 := Z.shiftr bsx 2 + x0 - 1 in
  bindo (tr_column E Q x1 y0) (fun xr =>
  Done (spatial E Q g (x0 - 1) y0, spatial E Q g x0 (y0 - 1), spatial E Q g (x0 - 1) (y0 - 1), spatial E Q g xr (y0 - 1))).
(** cu.cc:240-264 [cu_get_neighbors], in the order of the indices BLK_TOPLEFT .. BLK_LEFT2 (common.h:318-323). The collocated
    entry (predict.h:267-279) is never used; reading it needs [fref[0]]. *)
Definition six_neighbors (E : env) (Q : place) (g : grid) (px py bsx bsy : Z) : outcome (list nbr) :=
  let x0 := Z.shiftr px 2 in let y0 := Z.shiftr py 2 in
  let x1 := Z.shiftr bsx 2 + x0 - 1 in let y1 := Z.shiftr bsy 2 + y0 - 1 in
  bindo (tr_column E Q x1 y0) (fun xr =>
  if e_ref0 E then
    Done [spatial E Q g (x0 - 1) (y0 - 1); spatial E Q g x0 (y0 - 1); spatial E Q g (x0 - 1) y0;
          spatial E Q g xr (y0 - 1); spatial E Q g x1 (y0 - 1); spatial E Q g (x0 - 1) y1]
  else Undef).

Definition nb_ref (bwd : bool) (n : nbr) : Z := if bwd then n_r1 n else n_r0 n.
Definition nb_mv (bwd : bool) (n : nbr) : mvec := if bwd then n_m1 n else n_m0 n.
(** predict.cc:82-97 [recheck_neighbor_ref_avail]. *)
Definition recheck (E : env) (ref nb : Z) : Z :=
  if nb =? -1 then nb
  else
    let last := e_nref E - 1 in
    let nb := if (((ref =? last) && negb (nb =? last)) || (negb (ref =? last) && (nb =? last)))
                 && ((e_type E =? P_SLICE) || (e_type E =? F_SLICE)) && e_bkg E then -1 else nb in
    if e_type E =? S_SLICE then -1 else nb.
(** predict.cc:102-137 [derive_mv_pred_type]: 0 MVPRED_xy_MIN, 1 MVPRED_L, 2 MVPRED_U, 3 MVPRED_UR. *)
Definition pred_type (ref rl ru rur shape : Z) : Z :=
  if negb (rl =? -1) && (ru =? -1) && (rur =? -1) then 1
  else if (rl =? -1) && negb (ru =? -1) && (rur =? -1) then 2
  else if (rl =? -1) && (ru =? -1) && negb (rur =? -1) then 3
  else if (shape =? 1) || (shape =? 4) then (if rl =? ref then 1 else 0)
  else if shape =? 2 then (if rur =? ref then 3 else 0)
  else if shape =? 3 then (if ru =? ref then 2 else 0)
  else 0.
(** predict.cc:53-64 [check_scaling_neighbor_mv] and 69-77 [check_scaling_neighbor_mv_b]. *)
Definition scale_both (m : mvec) (mult src : Z) : outcome mvec :=
  bindo (scale_mv_default (snd m) mult src) (fun y => bindo (scale_mv_default (fst m) mult src) (fun x => Done (x, y))).
Definition scale_p (E : env) (mult r : Z) (m : mvec) : outcome mvec :=
  if 0 <=? r then bindo (arr4 (e_dist E) r) (fun _ => bindo (arr4 (e_scale E) r) (scale_both m mult)) else Done (0, 0).
Definition scale_b (mult src r : Z) (m : mvec) : outcome mvec := if 0 <=? r then scale_both m mult src else Done (0, 0).
(** predict.cc:197-252 [get_mvp_default]; index 0 is [B_BWD], 1 [B_FWD] (common.h:310-311). *)
Definition get_mvp (E : env) (Q : place) (g : grid) (px py : Z) (bwd : bool) (ref bsx shape : Z) : outcome mvec :=
  bindo (mvp_neighbors E Q g px py bsx) (fun '(l, u, ul, ur) =>
  let c := if n_av ur then ur else ul in
  let rl := recheck E ref (nb_ref bwd l) in
  let ru := recheck E ref (nb_ref bwd u) in
  let rc := recheck E ref (nb_ref bwd c) in
  let ty := pred_type ref rl ru rc shape in
  bindo (if e_type E =? B_SLICE then
           bindo (arr4 (e_dist E) (if bwd then 0 else 1)) (fun mult =>
           bindo (arr4 (e_scale E) (if bwd then 0 else 1)) (fun src =>
           bindo (scale_b mult src rl (nb_mv bwd l)) (fun a =>
           bindo (scale_b mult src ru (nb_mv bwd u)) (fun b =>
           bindo (scale_b mult src rc (nb_mv bwd c)) (fun c => Done (a, b, c))))))
         else
           bindo (arr4 (e_dist E) ref) (fun mult =>
           bindo (scale_p E mult rl (nb_mv bwd l)) (fun a =>
           bindo (scale_p E mult ru (nb_mv bwd u)) (fun b =>
           bindo (scale_p E mult rc (nb_mv bwd c)) (fun c => Done (a, b, c))))))
  (fun '(a, b, c) =>
  Done (if ty =? 0 then (derive_median_mv (fst a) (fst b) (fst c), derive_median_mv (snd a) (snd b) (snd c))
        else if ty =? 1 then a else if ty =? 2 then b else c))).
(** predict.h:285-302 [get_pu_type_for_mvp]. *)
Definition pu_shape (bsx bsy x y : Z) : Z :=
  if bsx <? bsy then (if x =? 0 then 1 else 2) else if bsy <? bsx then (if y =? 0 then 3 else 4) else 0.

(** The member arrays of predict.cc:260-263 and 408-410. *)
Record cand := Cand { w_r1 : Z -> Z; w_r2 : Z -> Z; w_m1 : Z -> mvec; w_m2 : Z -> mvec;
                      w_bid : Z; w_bw : Z; w_fw : Z; w_sym : Z; w_bid2 : nbr; w_fw2 : nbr }.
Definition neg16 (m : mvec) : mvec := (to_i16 (- fst m), to_i16 (- snd m)).
(** One round of predict.cc:267-286; [bid2] is the first bidirectional neighbour. *)
Definition bskip_step (c : cand) (n : nbr) : cand :=
  if n_dir n =? 3 then
    Cand (w_r1 c) (w_r2 c) (updf (w_m1 c) 1 (n_m0 n)) (updf (w_m2 c) 1 (n_m1 n)) (w_bid c + 1) (w_bw c) (w_fw c) (w_sym c)
      (if w_bid c + 1 =? 1 then n else w_bid2 c) (w_fw2 c)
  else if n_dir n =? 2 then
    Cand (w_r1 c) (w_r2 c) (updf (w_m1 c) 3 (n_m0 n)) (updf (w_m2 c) 3 (n_m1 n)) (w_bid c) (w_bw c) (w_fw c) (w_sym c + 1) (w_bid2 c) (w_fw2 c)
  else if n_dir n =? 1 then
    Cand (w_r1 c) (w_r2 c) (w_m1 c) (updf (w_m2 c) 2 (n_m1 n)) (w_bid c) (w_bw c + 1) (w_fw c) (w_sym c) (w_bid2 c) (w_fw2 c)
  else if n_dir n =? 0 then
    Cand (w_r1 c) (w_r2 c) (updf (w_m1 c) 4 (n_m0 n)) (w_m2 c) (w_bid c) (w_bw c) (w_fw c + 1) (w_sym c) (w_bid2 c) (w_fw2 c)
  else c.
(** predict.cc:257-320 [get_mv_bskip_spatial]: DS_B_BID 1, DS_B_BWD 2, DS_B_SYM 3, DS_B_FWD 4 (common.h:335-338). [bid2] and
    [fw2] start as index 0. *)
Definition bskip_spatial (ns : list nbr) (mode : Z) : mvec * mvec :=
  let n0 := nth 0 ns (Nbr false (-1) (-1) (-1) (0, 0) (0, 0)) in
  let zero := fun _ : Z => (0, 0) : mvec in
  let c := fold_left bskip_step ns (Cand (fun _ => 0) (fun _ => 0) zero zero 0 0 0 0 n0 n0) in
  let bid := w_bid c in let fw := w_fw c in let bw := w_bw c in let sym := w_sym c in let b2 := w_bid2 c in
  let m1 := w_m1 c in let m2 := w_m2 c in
  let '(m1, m2) := if (bid =? 0) && negb (fw =? 0) && negb (bw =? 0) then (updf m1 1 (m1 4), updf m2 1 (m2 2)) else (m1, m2) in
  let '(m1, m2) :=
    if (sym =? 0) && (1 <? bid) then (updf m1 3 (n_m0 b2), updf m2 3 (n_m1 b2))
    else if (sym =? 0) && negb (bw =? 0) then (updf m1 3 (neg16 (m2 2)), updf m2 3 (m2 2))
    else if (sym =? 0) && negb (fw =? 0) then (updf m1 3 (m1 4), updf m2 3 (neg16 (m1 4)))
    else (m1, m2) in
  let m2 := if (bw =? 0) && (1 <? bid) then updf m2 2 (n_m1 b2) else if (bw =? 0) && negb (bid =? 0) then updf m2 2 (m2 1) else m2 in
  let m1 := if (fw =? 0) && (1 <? bid) then updf m1 4 (n_m0 b2) else if (fw =? 0) && negb (bid =? 0) then updf m1 4 (m1 1) else m1 in
  (m1 mode, m2 mode).

(** One round of predict.cc:417-435. *)
Definition fskip_step (c : cand) (n : nbr) : cand :=
  if negb (n_r0 n =? -1) && negb (n_r1 n =? -1) then
    Cand (updf (w_r1 c) 1 (n_r0 n)) (updf (w_r2 c) 1 (n_r1 n)) (updf (w_m1 c) 1 (n_m0 n)) (updf (w_m2 c) 1 (n_m1 n))
      (w_bid c + 1) (w_bw c) (w_fw c) (w_sym c) (if w_bid c + 1 =? 1 then n else w_bid2 c) (w_fw2 c)
  else if negb (n_r0 n =? -1) && (n_r1 n =? -1) then
    Cand (updf (w_r1 c) 3 (n_r0 n)) (w_r2 c) (updf (w_m1 c) 3 (n_m0 n)) (w_m2 c)
      (w_bid c) (w_bw c) (w_fw c + 1) (w_sym c) (w_bid2 c) (if w_fw c + 1 =? 1 then n else w_fw2 c)
  else c.
(** predict.cc:406-482 [get_mv_fskip_spatial]: DS_DUAL_1ST 1, DS_DUAL_2ND 2, DS_SINGLE_1ST 3, DS_SINGLE_2ND 4 (common.h:341-344). The
    call of [memset] adds up the sizes of the four arrays, which leaves out the two bytes of padding between them: the last
    component of the last vector keeps its value [stale]. *)
Definition fskip_spatial (stale : Z) (ns : list nbr) (mode : Z) : (Z * Z) * (mvec * mvec) :=
  let n0 := nth 0 ns (Nbr false (-1) (-1) (-1) (0, 0) (0, 0)) in
  let zero := fun _ : Z => (0, 0) : mvec in
  let c := fold_left fskip_step ns (Cand (fun _ => 0) (fun _ => 0) zero (updf zero 4 (0, stale)) 0 0 0 0 n0 n0) in
  let bid := w_bid c in let fw := w_fw c in let b2 := w_bid2 c in let f2 := w_fw2 c in
  let r1 := w_r1 c in let r2 := w_r2 c in let m1 := w_m1 c in let m2 := w_m2 c in
  let '(r1, r2, m1, m2) :=
    if (bid =? 0) && (1 <? fw) then (updf r1 1 (r1 3), updf r2 1 (n_r0 f2), updf m1 1 (m1 3), updf m2 1 (n_m0 f2)) else (r1, r2, m1, m2) in
  let '(r1, r2, m1, m2) :=
    if 1 <? bid then (updf r1 2 (n_r0 b2), updf r2 2 (n_r1 b2), updf m1 2 (n_m0 b2), updf m2 2 (n_m1 b2))
    else if (bid =? 1) && (1 <? fw) then (updf r1 2 (r1 3), updf r2 2 (n_r0 f2), updf m1 2 (m1 3), updf m2 2 (n_m0 f2))
    else (r1, r2, m1, m2) in
  let r2 := updf r2 3 (-1) in let m2 := updf m2 3 (0, 0) in
  let '(r1, m1) :=
    if (fw =? 0) && (1 <? bid) then (updf r1 3 (n_r0 b2), updf m1 3 (n_m0 b2))
    else if (fw =? 0) && (bid =? 1) then (updf r1 3 (r1 1), updf m1 3 (m1 1)) else (r1, m1) in
  let r2 := updf r2 4 (-1) in let m2 := updf m2 4 (0, 0) in
  let '(r1, m1) :=
    if 1 <? fw then (updf r1 4 (n_r0 f2), updf m1 4 (n_m0 f2))
    else if 1 <? bid then (updf r1 4 (n_r1 b2), updf m1 4 (n_m1 b2))
    else if bid =? 1 then (updf r1 4 (r2 1), updf m1 4 (m2 1)) else (r1, m1) in
  ((r1 mode, r2 mode), (m1 mode, m2 mode)).

(** The members of [cu_t] (common.h:807-839) concerned; arrays of four entries as functions. [c_pus] are the entries of [pu] in use. *)
Record cu := MkCu { c_level : Z; c_type : Z; c_ds : Z; c_wsm : Z; c_dmh : Z; c_pus : list cb;
                  c_dir : Z -> Z; c_ref : Z -> Z * Z; c_mv0 : Z -> mvec; c_mv1 : Z -> mvec }.
Definition with_motion (c : cu) (i : Z) (r : Z * Z) (m n : mvec) : cu :=
  MkCu (c_level c) (c_type c) (c_ds c) (c_wsm c) (c_dmh c) (c_pus c) (c_dir c) (updf (c_ref c) i r) (updf (c_mv0 c) i m) (updf (c_mv1 c) i n).
Definition with_mvs (c : cu) (i : Z) (m n : mvec) : cu := with_motion c i (c_ref c i) m n.

(** predict.cc:325-338 [get_mv_pf_skip_temporal]. *)
Definition pf_temporal (E : env) (off cur_dist : Z) : outcome mvec :=
  if negb (e_ref0 E) then Undef else
  let r := e_cref E off in
  if 0 <=? r then
    bindo (arr4 (e_cscale E) r) (fun d =>
    bindo (scale_mv_skip (fst (e_cmv E off)) cur_dist d) (fun x =>
    bindo (scale_mv_skip (snd (e_cmv E off)) cur_dist d) (fun y => Done (x, y))))
  else Done (0, 0).
(** The local arrays [delta], [delta_src] (predict.cc:351-360) have entries for the references only. *)
Definition delta (E : env) (f : Z -> Z) (i : Z) : outcome Z := if (0 <=? i) && (i <? e_nref E) then arr4 f i else Undef.
(** One round of predict.cc:369-400. *)
Definition pf_skip_pu (E : env) (spu_x spu_y size r1 : Z) (i : Z) (s : cu * grid) : outcome (cu * grid) :=
  let '(c, g) := s in
  let bx := spu_x + size * Z.land i 1 in
  let by_ := spu_y + size * Z.shiftr i 1 in
  let off := by_ * e_wu E + bx in
  bindo (delta E (e_dist E) 0) (fun d0 =>
  bindo (pf_temporal E off d0) (fun m =>
  bindo (if negb (r1 =? -1) then
           bindo (delta E (e_dist E) r1) (fun dr =>
           bindo (delta E (e_scale E) 0) (fun s0 =>
           bindo (scale_mv_skip (fst m) dr s0) (fun x => bindo (scale_mv_skip (snd m) dr s0) (fun y => Done (x, y)))))
         else Done (0, 0)) (fun n =>
  Done (with_motion c i (0, r1) m n, paint (e_wu E) bx by_ size size (set_ref_mvs 0 r1 m n) g)))).
Fixpoint for_pus (n : nat) (i : Z) (f : Z -> cu * grid -> outcome (cu * grid)) (s : cu * grid) : outcome (cu * grid) :=
  match n with O => Done s | S n => bindo (f i s) (for_pus n (i + 1) f) end.
(** predict.cc:342-401 [fill_mv_pf_skip_temporal]; [num_pu] is the number of [c_pus]. The size of the blocks depends on [cu_size],
    not on the number of units (the asserts of 364, 366 are compiled out). *)
Definition fill_pf_skip (E : env) (c : cu) (g : grid) (px py cu_size : Z) : outcome (cu * grid) :=
  let size := Z.shiftr cu_size 2 in
  let size := if cu_size =? 8 then size else Z.shiftr size 1 in
  let r1 := if c_wsm c =? 0 then -1 else to_i8 (c_wsm c) in
  for_pus (length (c_pus c)) 0 (pf_skip_pu E (Z.shiftr px 2) (Z.shiftr py 2) size r1) (c, g).

(** predict.cc:514-529: references of a spatial mode. *)
Definition bskip_refs (mode : Z) : Z * Z := if (mode =? 3) || (mode =? 1) then (1, 0) else if mode =? 2 then (-1, 0) else (1, -1).
Definition scale_bi (m : mvec) (d s : Z) : outcome mvec :=
  bindo (scale_mv_biskip (fst m) d s) (fun x => bindo (scale_mv_biskip (snd m) d s) (fun y => Done (x, y))).
(** One round of predict.cc:559-606. *)
Definition bskip_pu (E : env) (Q : place) (px py size_cu size_scu size_pu : Z) (i : Z) (s : cu * grid) : outcome (cu * grid) :=
  let '(c, g) := s in
  let i8 := Z.shiftr px 2 + Z.land i 1 * size_scu in
  let j8 := Z.shiftr py 2 + Z.shiftr i 1 * size_scu in
  let off := j8 * e_wu E + i8 in
  if negb (e_ref0 E) then Undef else
  let r := e_cref E off in
  bindo (if r =? -1 then
           bindo (get_mvp E Q g px py false 0 size_cu 0) (fun m => bindo (get_mvp E Q g px py true 0 size_cu 0) (fun n => Done (m, n)))
         else
           bindo (arr4 (e_cdist E) r) (fun _ => bindo (arr4 (e_cscale E) r) (fun src =>
           bindo (arr4 (e_dist E) 0) (fun trd => bindo (arr4 (e_dist E) 1) (fun trb =>
           bindo (scale_bi (e_cmv E off) trb src) (fun m => bindo (scale_bi (e_cmv E off) trd src) (fun n => Done (m, neg16 n))))))))
  (fun '(m, n) =>
  Done (with_motion c i (1, 0) m n, paint (e_wu E) i8 j8 size_pu size_pu (fun k => Cell 2 1 0 m n) g)).
(** predict.cc:486-608 [fill_mv_bskip]. *)
Definition fill_bskip (E : env) (Q : place) (ns : list nbr) (c : cu) (g : grid) (px py size_scu : Z) : outcome (cu * grid) :=
  if negb (c_ds c =? 0) then
    let n := Z.shiftl size_scu 1 in
    let '(r0, r1) := bskip_refs (c_ds c) in
    let '(m1, m2) := bskip_spatial ns (c_ds c) in
    Done (with_motion c 0 (r0, r1) m1 m2, paint (e_wu E) (Z.shiftr px 2) (Z.shiftr py 2) n n (fun _ => Cell (c_dir c 0) r0 r1 m1 m2) g)
  else
    let size_cu := Z.shiftl size_scu 3 in
    let size_pu := Z.shiftr (Z.shiftr size_cu (if Z.of_nat (length (c_pus c)) =? 4 then 1 else 0)) 2 in
    for_pus (length (c_pus c)) 0 (bskip_pu E Q px py size_cu size_scu size_pu) (c, g).
(** predict.cc:614-662 [fill_mv_and_ref_for_skip]: nothing happens in pictures of other types. *)
Definition fill_skip (E : env) (Q : place) (stale : Z) (ns : list nbr) (c : cu) (g : grid) (px py size_scu : Z) : outcome (cu * grid) :=
  if e_type E =? B_SLICE then fill_bskip E Q ns c g px py size_scu
  else if (e_type E =? F_SLICE) || (e_type E =? P_SLICE) then
    if c_ds c =? 0 then fill_pf_skip E c g px py (Z.shiftl size_scu 3)
    else
      let '((r0, r1), (m1, m2)) := fskip_spatial stale ns (c_ds c) in
      let c := fold_left (fun c i => with_motion c i (r0, r1) m1 m2) [0; 1; 2; 3] c in
      let n := Z.shiftl size_scu 1 in
      Done (c, paint (e_wu E) (Z.shiftr px 2) (Z.shiftr py 2) n n (set_ref_mvs r0 r1 m1 m2) g)
  else Done (c, g).

(** cu.cc:393-428 [cu_store_references]. *)
Fixpoint store_refs (E : env) (c : cu) (px py : Z) (i : Z) (pus : list cb) (g : grid) : grid :=
  match pus with
  | [] => g
  | p :: rest =>
      let u := cb_shr 2 p in
      store_refs E c px py (i + 1) rest
        (paint (e_wu E) (Z.shiftr px 2 + cx u) (Z.shiftr py 2 + cy u) (cw u) (ch u) (set_ref_dir (c_dir c i) (fst (c_ref c i)) (snd (c_ref c i))) g)
  end.

(** cu.cc:462-530, the forward vectors; [mvds] are the vector differences that [aec_read_mvds] delivers, in order ([Fail]: an error in the
    entropy decoder). In a S picture there is none. *)
Fixpoint read_fwd (E : env) (Q : place) (px py : Z) (i : Z) (pus : list cb) (mvds : list mvec) (s : cu * grid) : outcome (list mvec * (cu * grid)) :=
  match pus with
  | [] => Done (mvds, s)
  | p :: rest =>
    let '(c, g) := s in
    if c_dir c i =? 1 then read_fwd E Q px py (i + 1) rest mvds s
    else
      let i8 := Z.shiftr px 2 + Z.shiftr (cx p) 2 in
      let j8 := Z.shiftr py 2 + Z.shiftr (cy p) 2 in
      let ref := k_r0 (g (j8 * e_wu E + i8)) in
      bindo (get_mvp E Q g (px + cx p) (py + cy p) false ref (cw p) (pu_shape (cw p) (ch p) (cx p) (cy p))) (fun mvp =>
      bindo (if e_type E =? S_SLICE then Done (mvds, mvp)
             else match mvds with [] => Fail | d :: r => Done (r, pmvr (e_pmvr E) d mvp) end) (fun '(mvds, mv) =>
      let w := Z.shiftr (cw p) 2 in let h := Z.shiftr (ch p) 2 in
      if e_type E =? B_SLICE then
        read_fwd E Q px py (i + 1) rest mvds (with_mvs c i mv (c_mv1 c i), paint (e_wu E) i8 j8 w h (set_mv0 mv) g)
      else
        bindo (if c_dir c i =? 4 then
                 bindo (arr4 (e_dist E) ref) (fun _ => bindo (arr4 (e_scale E) ref) (fun src =>
                 bindo (arr4 (e_dist E) (if ref =? 0 then 1 else 0)) (fun d2 =>
                 bindo (scale_mv_skip (fst mv) d2 src) (fun x => bindo (scale_mv_skip (snd mv) d2 src) (fun y => Done (x, y))))))
               else Done (0, 0)) (fun mv2 =>
        read_fwd E Q px py (i + 1) rest mvds (with_mvs c i mv mv2, paint (e_wu E) i8 j8 w h (set_mvs mv mv2) g))))
  end.
(** cu.cc:543-590, the backward vectors of B pictures. *)
Fixpoint read_bwd (E : env) (Q : place) (px py : Z) (i : Z) (pus : list cb) (mvds : list mvec) (s : cu * grid) : outcome (list mvec * (cu * grid)) :=
  match pus with
  | [] => Done (mvds, s)
  | p :: rest =>
    let '(c, g) := s in
    if c_dir c i =? 0 then read_bwd E Q px py (i + 1) rest mvds s
    else
      let i8 := Z.shiftr px 2 + Z.shiftr (cx p) 2 in
      let j8 := Z.shiftr py 2 + Z.shiftr (cy p) 2 in
      let ref := k_r1 (g (j8 * e_wu E + i8)) in
      bindo (get_mvp E Q g (px + cx p) (py + cy p) true ref (cw p) (pu_shape (cw p) (ch p) (cx p) (cy p))) (fun mvp =>
      bindo (if c_dir c i =? 2 then
               let m1 := k_m0 (g (j8 * e_wu E + i8)) in
               bindo (arr4 (e_dist E) 0) (fun bd => bindo (arr4 (e_scale E) 1) (fun fs =>
               bindo (scale_mv_skip (fst m1) bd fs) (fun x => bindo (scale_mv_skip (snd m1) bd fs) (fun y => Done (mvds, neg16 (x, y))))))
             else match mvds with [] => Fail | d :: r => Done (r, pmvr (e_pmvr E) d mvp) end) (fun '(mvds, mv) =>
      let w := Z.shiftr (cw p) 2 in let h := Z.shiftr (ch p) 2 in
      read_bwd E Q px py (i + 1) rest mvds (with_mvs c i (c_mv0 c i) mv, paint (e_wu E) i8 j8 w h (set_mv1 mv) g)))
  end.
(** cu.cc:432-594 [cu_read_mv] after [i_dmh_mode] (446-459), which is set in [header] below. *)
Definition read_mv (E : env) (Q : place) (px py : Z) (mvds : list mvec) (s : cu * grid) : outcome (cu * grid) :=
  bindo (read_fwd E Q px py 0 (c_pus (fst s)) mvds s) (fun '(mvds, s) =>
  if e_type E =? B_SLICE then
    bindo (arr4 (e_dist E) 1) (fun _ => bindo (arr4 (e_scale E) 1) (fun _ => bindo (arr4 (e_dist E) 0) (fun _ =>
    bindo (read_bwd E Q px py 0 (c_pus (fst s)) mvds s) (fun '(_, s) => Done s))))
  else Done s).

(** The syntax elements of a coding unit that determine its motion, as the entropy decoder delivers them: the value of [aec_read_cu_type] or
    [aec_read_cu_type_sframe] (-1: skip without residual), the intra type, the two skip modes, the coded direction, reference
    indices, [i_dmh_mode] and vector differences. *)
Record syntax := Syn { y_type : Z; y_itype : Z; y_wsm : Z; y_ds : Z; y_pdir : Z; y_refs : list Z; y_dmh : Z; y_mvds : list mvec }.
Definition look {A : Type} (l : list A) (i : Z) : outcome A := match get l i with Some v => Done v | None => Undef end.
Definition four {A : Type} (a b : A) : Z -> A := fun i => if (i =? 1) || (i =? 3) then b else a.
(** aec.cc:1261-1289 [cu_set_pdir_PFframe] for inter types. *)
Definition pf_dirs (ty pdir : Z) : outcome (Z -> Z) :=
  if ty =? 1 then Done (fun _ => if pdir =? 0 then 0 else 4)
  else bindo (look [0; 0; 4; 4] pdir) (fun a => bindo (look [0; 4; 0; 4] pdir) (fun b => Done (four a b))).
(** aec.cc:1294-1336 [cu_set_pdir_Bframe]; 129-131 [tab_pdir_bskip]. *)
Definition b_dirs (ty ds pdir : Z) : outcome (Z -> Z) :=
  if ty =? 0 then bindo (look [2; 3; 1; 2; 0] ds) (fun d => Done (fun _ => d))
  else if ty =? 1 then Done (fun _ => pdir)
  else bindo (look b_pdir0 pdir) (fun a => bindo (look b_pdir1 pdir) (fun b => Done (four a b))).
Definition b_refs (d : Z) : outcome (Z * Z) := look [(1, -1); (-1, 0); (1, 0); (1, 0)] d.
(** aec.cc:1366-1399 [cu_read_references]: [k] units from number [i]; indices are coded only if there is a choice. *)
Fixpoint read_refs (nref : Z) (k : nat) (i : Z) (dir : Z -> Z) (refs : list Z) (m : Z -> Z * Z) : outcome (Z -> Z * Z) :=
  match k with
  | O => Done m
  | S k =>
    bindo (if 1 <? nref then match refs with [] => Fail | r :: t => Done (to_i8 r, t) end else Done (0, refs)) (fun '(r, t) =>
    read_refs nref k (i + 1) dir t (updf m i (r, if dir i =? 4 then (if r =? 0 then 1 else 0) else -1)))
  end.
(** aec.cc:1403-1436 [aec_read_inter_pred_dir]: directions and references of the four quarters. *)
Definition inter_dirs (E : env) (y : syntax) (c : cu) : outcome ((Z -> Z) * (Z -> Z * Z)) :=
  let ty := c_type c in
  if e_type E =? B_SLICE then
    let pdir := if (1 <=? ty) && (ty <=? 7) then y_pdir y else 0 in
    bindo (b_dirs ty (c_ds c) pdir) (fun d =>
    bindo (b_refs (d 0)) (fun r0 => bindo (b_refs (d 1)) (fun r1 => bindo (b_refs (d 2)) (fun r2 => bindo (b_refs (d 3)) (fun r3 =>
    Done (d, updf (updf (updf (updf (c_ref c) 0 r0) 1 r1) 2 r2) 3 r3))))))
  else
    if ty =? 0 then
      Done (fun _ => if negb (c_wsm c =? 0) || (c_ds c =? 1) || (c_ds c =? 2) then 4 else 0, c_ref c)
    else
      let pdir := if (e_type E =? F_SLICE) && (1 <? e_nref E) && e_dhp E && negb ((c_level c =? 3) && (2 <=? ty) && (ty <=? 7)) then y_pdir y else 0 in
      bindo (pf_dirs ty pdir) (fun d =>
      if e_type E =? S_SLICE then Done (d, c_ref c)
      else bindo (read_refs (e_nref E) (if ty =? 1 then 1%nat else 2%nat) 0 d (y_refs y) (c_ref c)) (fun r => Done (d, r))).
(** cu.cc:737-817 [cu_read_header] with the members set by [cu_init] (269-283) and [aec_read_cu_type] (aec.cc:1048-1072); [c] holds what the
    structure held before. Intra modes are left out. Units by [cu_init_prediction_units]; [i_dmh_mode] of cu.cc:446-459. *)
Definition header (E : env) (level : Z) (y : syntax) (c : cu) : outcome cu :=
  let ty := Z.max 0 (y_type y) in
  let '(w, ds) :=
    if e_type E =? S_SLICE then (c_wsm c, 0)
    else if y_type y <=? 0 then
      let w := if (e_type E =? F_SLICE) && e_wsm E && (1 <? e_nref E) then to_i8 (y_wsm y) else 0 in
      (w, if (w =? 0) && ((e_mhp E && (e_type E =? F_SLICE)) || (e_type E =? B_SLICE)) then to_i8 (y_ds y) else 0)
    else (c_wsm c, 0) in
  let c := MkCu level ty ds w 0 (c_pus c) (c_dir c) (c_ref c) (c_mv0 c) (c_mv1 c) in
  if ty <=? 7 then
    if e_type E =? I_SLICE then Undef  (* not reached: an I picture has type 9 only *)
    else
    bindo (inter_dirs E y c) (fun '(d, r) =>
    let dmh := if (e_type E =? F_SLICE) && (1 <=? ty) && (d 0 =? 0) && (d 1 =? 0) && (d 2 =? 0) && (d 3 =? 0)
                  && negb ((level =? 3) && (2 <=? ty) && (ty <=? 7)) then y_dmh y else 0 in
    Done (MkCu level ty ds w dmh (prediction_units (e_type E) ds ty level) d r (c_mv0 c) (c_mv1 c)))
  else
    Done (MkCu level (y_itype y) ds w 0 (prediction_units (e_type E) ds (y_itype y) level) (fun _ => -1) (fun _ => (-1, -1)) (c_mv0 c) (c_mv1 c)).
(** cu.cc:822-862, steps 1 and 2 of [cu_read_info]. *)
Definition unit_motion (E : env) (Q : place) (stale px py level : Z) (y : syntax) (s : cu * grid) : outcome (cu * grid) :=
  bindo (header E level y (fst s)) (fun c =>
  let g := snd s in
  if 8 <=? c_type c then Done (c, store_refs E c px py 0 (c_pus c) g)
  else if c_type c =? 0 then
    bindo (six_neighbors E Q g px py (Z.shiftl 1 level) (Z.shiftl 1 level)) (fun ns =>
    fill_skip E Q stale ns c g px py (Z.shiftl 1 (level - 3)))
  else read_mv E Q px py (y_mvds y) (c, store_refs E c px py 0 (c_pus c) g)).
(** A unit to decode: place, level, position in 4x4 units, syntax elements. *)
Definition job := (place * Z * Z * Z * syntax)%type.
(** The units of a picture one after the other (cu.cc:1294-1333 under decoder.cc:404-437 or 545-574). [junk] is what the [cu_t] of each
    unit and the local array of [get_mv_fskip_spatial] hold before. The run ends at an error; the code goes on with the next unit. *)
Fixpoint run_units (E : env) (junk : nat -> cu * Z) (js : list job) (g : grid) : outcome (list cu * grid) :=
  match js with
  | [] => Done ([], g)
  | (Q, level, ux, uy, y) :: js =>
      bindo (unit_motion E Q (snd (junk 0%nat)) (4 * ux) (4 * uy) level y (fst (junk 0%nat), g)) (fun '(c, g) =>
      bindo (run_units E (fun k => junk (S k)) js g) (fun '(cs, g) => Done (c :: cs, g)))
  end.
(** The motion that reconstruction reads (cu.cc:952-1012), as the units of [CuModel.pu_motion]. *)
Definition pums (c : cu) : list pum :=
  map (fun '(i, p) => {| u_cb := p; u_dir := c_dir c i; u_mv0 := c_mv0 c i; u_mv1 := c_mv1 c i; u_ref0 := fst (c_ref c i); u_ref1 := snd (c_ref c i) |})
    (combine [0; 1; 2; 3] (c_pus c)).

(** decoder.cc:161-195 [save_mv_ref_info] for one LCU row; [lvl] is [i_lcu_level - MIN_PU_SIZE_IN_BIT]. *)
Definition centre (i n : Z) : Z :=
  let b := Z.shiftl (Z.shiftr i 2) 2 in if n <=? b + 2 then Z.shiftr (b + n) 1 else b + 2.
Definition save_row (wu hu lvl row : Z) (g : grid) (mvb : Z -> mvec) (refb : Z -> Z) : (Z -> mvec) * (Z -> Z) :=
  let spu_y := Z.shiftl row lvl in
  floop spu_y (Z.min (spu_y + Z.shiftl 1 lvl) hu) (fun j s =>
    floop 0 wu (fun i '(mvb, refb) =>
      let k := g (centre j hu * wu + centre i wu) in
      (updf mvb (j * wu + i) (k_m0 k), updf refb (j * wu + i) (k_r0 k))) s) (mvb, refb).
