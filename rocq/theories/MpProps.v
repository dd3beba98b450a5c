(** Properties C74 to C79, C80 and C81: the motion of coding units. *)
From Coq Require Import ZArith List Bool Lia.
From Verif Require Import CBase MemModel SaoModel MvModel MvSpec SynModel CuModel NbSpec QtModel QtSpec MpModel MpSpec MpProofs MpProofsJ MpProofsK MpProofsL MpSpecB MpProofsM MpProofsN.
Import ListNotations.
Open Scope Z_scope.

(** Common to the examples: an F picture of 24x16 samples with LCUs of 16, two references at distances 2 and 4, in one slice. *)
Definition ex_env : env := Env 4 2 6 4 3 4 false false true true true (fun i => 2 * i + 2) (fun i => 16384 / (2 * i + 2)) true (fun _ => 0) (fun _ => (8, -4)) (fun _ => 2) (fun _ => 8192).
Definition ex_place (lx : Z) : place := Place (fun _ => 0) 0 lx 0.
Definition ex_grid : grid := fun p => if p =? 0 then Cell 0 1 (-1) (12, 20) (0, 0) else if p =? 1 then Cell 4 0 1 (5, -7) (9, -15) else Cell (-1) (-1) (-1) (0, 0) (0, 0).
Lemma ex_env_ok : env_ok ex_env.
Proof.
  constructor; cbn; try lia; auto. intros i Hi. assert (i = 0 \/ i = 1) as [-> | ->] by lia; cbn; lia.
Qed.
Lemma ex_grid_ok : grid_ok ex_env ex_grid.
Proof. intros p. unfold ex_grid, i16v, is_i16. destruct (p =? 0); [cbn; lia|]. destruct (p =? 1); cbn; lia. Qed.

(** The predictor of a part of a coding unit is the one of the specification, whatever the maps hold, as long as scaling stays
    inside 32 bit: the neighbours asked are exactly those of the picture and the slice that are decoded before the part. *)
Theorem C74_predictor : forall E Q g level ux uy ty four k x y w h bwd ref,
  env_ok E -> unit_at E Q level ux uy -> 0 <= ty <= 7 -> (4 <= ty -> 4 <= level) -> (four = true -> ty = 0 /\ 4 <= level) ->
  nth_error (parts four ty (2 ^ (level - 2))) k = Some (x, y, w, h) -> grid_ok E g -> 0 <= ref < e_nref E ->
  (forall X Y c, candidate E Q g bwd ref X Y = Some c -> in_range E bwd ref c) ->
  get_mvp E Q g (4 * ux + 4 * x) (4 * uy + 4 * y) bwd ref (4 * w) (pu_shape (4 * w) (4 * h) (4 * x) (4 * y)) =
  Done (predictor E Q g (before (Z.to_nat (e_lv E - 2)) (parts four ty (2 ^ (level - 2))) (2 ^ (level - 2)) ux uy k) bwd ref (ux + x) (uy + y) w (preference (x, y, w, h))).
Proof. exact predictor_ok. Qed.
Print Assumptions C74_predictor.
(** Second half of a unit of 8 at (0, 0) after a first half with motion: the left neighbour does not exist, the one above is the first half. *)
Example C74_case : unit_at ex_env (ex_place 0) 3 0 0 /\ nth_error (parts false 2 2) 1 = Some (0, 1, 2, 1) /\
  (forall X Y c, candidate ex_env (ex_place 0) ex_grid false 0 X Y = Some c -> in_range ex_env false 0 c) /\
  predictor ex_env (ex_place 0) ex_grid (before 2 (parts false 2 2) 2 0 0 1) false 0 0 1 2 (preference (0, 1, 2, 1)) = (6, 10).
Proof.
  split; [constructor; cbn; lia|]. split; [reflexivity|]. split; [|vm_compute; reflexivity].
  intros X Y c. unfold candidate, motion_of. cbv zeta. destruct (avail _ _ X Y); [|discriminate].
  assert (G : forall p, ex_grid p = Cell 0 1 (-1) (12, 20) (0, 0) \/ ex_grid p = Cell 4 0 1 (5, -7) (9, -15) \/ ex_grid p = Cell (-1) (-1) (-1) (0, 0) (0, 0)) by (intros p; unfold ex_grid; destruct (p =? 0), (p =? 1); auto).
  assert (R : in_range ex_env false 0 (1, (12, 20)) /\ in_range ex_env false 0 (0, (5, -7))) by (vm_compute; repeat split; discriminate).
  destruct (G (Y * e_wu ex_env + X)) as [-> |[-> | ->]]; cbn [k_r0 k_m0 k_r1 k_m1 Z.eqb]; [| |discriminate].
  - change (1 =? -1) with false. cbv iota. change (fits ex_env 0 1) with true. cbv iota. intros Q. apply (f_equal (fun o => match o with Some v => v | None => c end)) in Q. cbv beta iota in Q. rewrite <- Q. apply R.
  - change (0 =? -1) with false. cbv iota. change (fits ex_env 0 0) with true. cbv iota. intros Q. apply (f_equal (fun o => match o with Some v => v | None => c end)) in Q. cbv beta iota in Q. rewrite <- Q. apply R.
Qed.
(** The hypothesis on the range is needed: a neighbour at distance 2 and a reference at distance 16 make the product too big. *)
Theorem C74_range_refuted : exists E Q g px py bsx shape, env_ok E /\ grid_ok E g /\ unit_at E Q 3 2 0 /\ px = 8 /\ py = 0 /\ get_mvp E Q g px py false 1 bsx shape = Undef.
Proof.
  exists (Env 1 2 6 4 3 4 false false true true true (fun i => 14 * i + 2) (fun i => 16384 / (14 * i + 2)) true (fun _ => 0) (fun _ => (8, -4)) (fun _ => 2) (fun _ => 8192)), (ex_place 0), (fun _ => Cell 0 0 (-1) (-32768, 0) (0, 0)), 8, 0, 8, 0.
  split; [constructor; cbn; try lia; auto; intros i Hi; assert (i = 0 \/ i = 1) as [-> | ->] by lia; cbn; lia|]. split; [intros p; unfold i16v, is_i16; cbn; lia|]. split; [constructor; cbn; lia|]. split; [reflexivity|]. split; [reflexivity|]. vm_compute. reflexivity.
Qed.
Print Assumptions C74_range_refuted.

(** The candidates of the spatial skip and direct modes: in B pictures, from the directions of the six neighbours; in P and F pictures,
    from the number of their references, and whatever was in the memory of the local arrays. *)
Theorem C75_spatial_b : forall ns mode, 1 <= mode <= 4 -> bskip_spatial ns mode = b_spatial mode ns.
Proof. exact b_spatial_ok. Qed.
Print Assumptions C75_spatial_b.
Theorem C75_spatial_f : forall stale ns mode, 1 <= mode <= 4 -> fskip_spatial stale ns mode = f_spatial mode ns.
Proof. exact f_spatial_ok. Qed.
Print Assumptions C75_spatial_f.
Definition ex_ns : list nbr := [Nbr true 0 1 (-1) (3, 4) (0, 0); Nbr true 3 1 0 (5, 6) (7, 8); Nbr true 1 (-1) 0 (0, 0) (9, 1); Nbr false (-1) (-1) (-1) (0, 0) (0, 0); Nbr true 0 1 (-1) (2, 2) (0, 0); Nbr true 3 1 0 (1, 1) (2, 2)].
Example C75_case : b_spatial 1 ex_ns = ((1, 1), (2, 2)) /\ b_spatial 3 ex_ns = ((5, 6), (7, 8)) /\ b_spatial 2 ex_ns = ((0, 0), (9, 1)) /\
  f_spatial 2 ex_ns = ((1, 0), ((5, 6), (7, 8))) /\ f_spatial 4 ex_ns = ((1, -1), ((3, 4), (0, 0))).
Proof. vm_compute. auto. Qed.

(** A unit that is read without error: nothing outside changes, its parts cover it, the maps hold their motion, directions and references
    go together and are references of the picture. *)
Theorem C76_unit : forall E Q level ux uy y stale c g s, env_ok E -> unit_at E Q level ux uy -> syntax_ok E level y -> grid_ok E g -> good_past E Q level ux uy g ->
  unit_motion E Q stale (4 * ux) (4 * uy) level y (c, g) = Done s -> unit_done E level ux uy g s.
Proof. exact unit_ok. Qed.
Print Assumptions C76_unit.

(** Nothing left over from earlier units or pictures matters: not what the structure of the unit held, not the map at places that are not
    decoded yet or belong to other slices, not the memory of the local arrays. *)
Theorem C77_no_leftovers : forall E Q level ux uy y stale stale' c c' g g', env_ok E -> unit_at E Q level ux uy -> syntax_ok E level y -> grid_ok E g -> grid_ok E g' -> same_past E Q level ux uy g g' ->
  orel (fun s s' => same_unit (fst s) (fst s') /\ (forall X Y, in_unit level ux uy X Y -> same_cell E (snd s (Y * e_wu E + X)) (snd s' (Y * e_wu E + X))) /\ unit_done E level ux uy g s /\ unit_done E level ux uy g' s')
    (unit_motion E Q stale (4 * ux) (4 * uy) level y (c, g)) (unit_motion E Q stale' (4 * ux) (4 * uy) level y (c', g')).
Proof. exact unit_same. Qed.
Print Assumptions C77_no_leftovers.
(** A unit of 16 in two halves, the first with two references; and a skipped unit of 8 to its right, with another structure before. *)
Definition ex_y1 : syntax := Syn 2 9 0 0 2 [1; 0] 0 [(4, 4); (1, -2)].
Definition ex_y2 : syntax := Syn (-1) 9 0 4 0 [] 0 [].
Definition ex_cu (r : Z) : cu := MkCu 3 1 0 0 0 [] (fun _ => 0) (fun _ => (r, r)) (fun _ => (77, r)) (fun _ => (r, 88)).
Definition ex_none : grid := fun _ => Cell (-1) (-1) (-1) (0, 0) (0, 0).
Definition ex_s1 : outcome (cu * grid) := unit_motion ex_env (ex_place 0) 5 0 0 4 ex_y1 (ex_cu 0, ex_none).
Example C76_case : unit_at ex_env (ex_place 0) 4 0 0 /\ syntax_ok ex_env 4 ex_y1 /\ unit_at ex_env (ex_place 4) 3 4 0 /\ syntax_ok ex_env 3 ex_y2 /\ good_past ex_env (ex_place 0) 4 0 0 ex_none /\
  match ex_s1 with
  | Done (c, g) => c_type c = 2 /\ map (fun i => (c_dir c i, c_ref c i, c_mv0 c i)) [0; 1] = [(4, (1, 0), (4, 4)); (0, (0, -1), (3, 0))] /\ k_r0 (g 9) = 1 /\ k_r0 (g 15) = 0 /\ g 4 = ex_none 4 /\
      match unit_motion ex_env (ex_place 4) 5 16 0 3 ex_y2 (ex_cu 1, g), unit_motion ex_env (ex_place 4) 6 16 0 3 ex_y2 (ex_cu 0, fun p => if p mod 6 <? 4 then g p else Cell 3 1 1 (9, 9) (8, 8)) with
      | Done (a, ga), Done (b, gb) => c_ref a 0 = c_ref b 0 /\ c_mv0 a 0 = c_mv0 b 0 /\ k_m0 (ga 11) = k_m0 (gb 11) /\ c_ref a 0 = (0, -1) /\ c_mv0 a 0 = (2, 2)
      | _, _ => False
      end
  | _ => False
  end.
Proof.
  split; [constructor; cbn; lia|]. split; [constructor; cbn; try lia; repeat constructor; lia|]. split; [constructor; cbn; lia|]. split; [constructor; cbn; try lia; constructor|]. split; [intros X Y _ _ _; left; cbn; auto|].
  vm_compute. repeat split; reflexivity.
Qed.

(** In S pictures, references and vectors of a skipped unit are what its structure held before. *)
Theorem C77_s_picture_refuted : exists E Q level ux uy y c c' g s s', e_type E = 5 /\ unit_at E Q level ux uy /\ syntax_ok E level y /\ grid_ok E g /\
  unit_motion E Q 0 (4 * ux) (4 * uy) level y (c, g) = Done s /\ unit_motion E Q 0 (4 * ux) (4 * uy) level y (c', g) = Done s' /\ c_type (fst s) = 0 /\ c_ref (fst s) 0 = (0, 0) /\ c_ref (fst s') 0 = (-1, -1).
Proof.
  set (E := Env 5 1 6 4 3 4 false false true true true (fun i => 2) (fun i => 8192) true (fun _ => 0) (fun _ => (8, -4)) (fun _ => 2) (fun _ => 8192)).
  destruct (unit_motion E (ex_place 0) 0 0 0 3 (Syn 0 9 0 0 0 [] 0 []) (ex_cu 0, ex_none)) as [s| | |] eqn:A; try (vm_compute in A; discriminate).
  destruct (unit_motion E (ex_place 0) 0 0 0 3 (Syn 0 9 0 0 0 [] 0 []) (ex_cu (-1), ex_none)) as [s'| | |] eqn:B; try (vm_compute in B; discriminate).
  exists E, (ex_place 0), 3, 0, 0, (Syn 0 9 0 0 0 [] 0 []), (ex_cu 0), (ex_cu (-1)), ex_none, s, s'.
  split; [reflexivity|]. split; [constructor; cbn; lia|]. split; [constructor; cbn; try lia; constructor|]. split; [intros p; unfold i16v, is_i16; cbn; lia|]. split; [exact A|]. split; [exact B|].
  vm_compute in A. vm_compute in B. injection A as <-. injection B as <-. repeat split.
Qed.
Print Assumptions C77_s_picture_refuted.

(** A picture: its units, in the order in which the quadtree is parsed, get motion that does not depend on anything left over in the maps
    and structures, and all of the picture has motion that fits it. *)
Theorem C78_picture : forall (St : Type) (read_split : Z -> St -> bool * St) (read_cu : Z -> Z -> Z -> St -> bool * St) (between : Z -> St -> St) (slice : Z -> Z) W H wscu (level : nat) wlcu hlcu st st' E js junk junk' g g',
  sizes W H wscu level -> wlcu = (W + 2 ^ Z.of_nat level - 1) / 2 ^ Z.of_nat level -> hlcu = (H + 2 ^ Z.of_nat level - 1) / 2 ^ Z.of_nat level ->
  (forall k, to_i8 (slice k) <> -1) -> s_log st = [] ->
  parse_picture St read_split read_cu between slice W H wscu wlcu level (Z.to_nat (wlcu * hlcu)) 0 st = Done st' ->
  env_ok E -> e_lv E = Z.of_nat level -> e_wu E = W / 4 -> e_hu E = H / 4 -> Forall2 (job_of E) (s_log st') js -> grid_ok E g -> grid_ok E g' ->
  orel (fun a a' => same_picture E js a a' /\ forall X Y, in_pic (W / 4) (H / 4) X Y -> same_cell E (snd a (Y * e_wu E + X)) (snd a' (Y * e_wu E + X)) /\ cell_ok E (snd a (Y * e_wu E + X)))
    (run_units E junk js g) (run_units E junk' js g').
Proof. exact whole_picture. Qed.
Print Assumptions C78_picture.
(** The order behind it: the log of the quadtree is in decoding order. *)
Theorem C78_order : forall (St : Type) (read_split : Z -> St -> bool * St) (read_cu : Z -> Z -> Z -> St -> bool * St) (between : Z -> St -> St) (slice : Z -> Z) W H wscu (level : nat) wlcu hlcu st st' E js,
  sizes W H wscu level -> wlcu = (W + 2 ^ Z.of_nat level - 1) / 2 ^ Z.of_nat level -> hlcu = (H + 2 ^ Z.of_nat level - 1) / 2 ^ Z.of_nat level ->
  (forall k, to_i8 (slice k) <> -1) -> s_log st = [] ->
  parse_picture St read_split read_cu between slice W H wscu wlcu level (Z.to_nat (wlcu * hlcu)) 0 st = Done st' ->
  e_lv E = Z.of_nat level -> e_wu E = W / 4 -> e_hu E = H / 4 ->
  Forall2 (job_of E) (s_log st') js ->
  Forall (job_ok E) js /\ in_order E js.
Proof. exact log_order. Qed.
Print Assumptions C78_order.
(** The picture of the other examples: one unit of 16, then two of 8 in the LCU that the border cuts. *)
Definition ex_jobs : list job := [(ex_place 0, 4, 0, 0, ex_y1); (ex_place 4, 3, 4, 0, ex_y2); (ex_place 4, 3, 4, 2, Syn 9 9 0 0 0 [] 0 [])].
Example C78_case : sizes 24 16 3 4 /\
  match parse_picture unit (fun _ s => (false, s)) (fun _ _ _ s => (true, s)) (fun _ s => s) (fun _ => 0) 24 16 3 2 4 2 0 {| s_level := fun _ => 0; s_slice := fun _ => 0; s_rest := tt; s_log := [] |} with
  | Done st => Forall2 (job_of ex_env) (s_log st) ex_jobs
  | _ => False
  end /\
  match run_units ex_env (fun k => (ex_cu 0, 3)) ex_jobs ex_none with Done (cs, g) => map c_type cs = [2; 0; 9] /\ k_r0 (g 4) = 0 /\ k_r0 (g 17) = -1 | _ => False end.
Proof.
  split; [unfold sizes; cbn; repeat split; lia|]. split.
  - vm_compute (parse_picture _ _ _ _ _ _ _ _ _ _ _ _ _). cbv beta iota. cbn [s_log]. unfold ex_jobs.
    apply Forall2_cons; [|apply Forall2_cons; [|apply Forall2_cons; [|apply Forall2_nil]]]; (do 5 (split; [reflexivity|])); constructor; cbn; try lia; repeat constructor; lia.
  - vm_compute. auto.
Qed.

(** The motion kept for later pictures: for every LCU row, each block of 16x16 samples keeps the first vector and reference of the unit at its
    centre, or in the middle of what the border leaves of it; only units of the same LCU row are read and only its entries written. *)
Theorem C79_kept : forall wu hu lvl row g mvb refb, 0 < wu -> 0 <= row -> 2 <= lvl -> row * 2 ^ lvl < hu ->
  let s := save_row wu hu lvl row g mvb refb in
  (forall X Y, in_pic wu hu X Y -> row * 2 ^ lvl <= Y < (row + 1) * 2 ^ lvl ->
     let k := g (middle Y hu * wu + middle X wu) in fst s (Y * wu + X) = k_m0 k /\ snd s (Y * wu + X) = k_r0 k) /\
  (forall X Y, 0 <= X < wu -> Y < row * 2 ^ lvl \/ (row + 1) * 2 ^ lvl <= Y \/ hu <= Y -> fst s (Y * wu + X) = mvb (Y * wu + X) /\ snd s (Y * wu + X) = refb (Y * wu + X)) /\
  (forall X Y, in_pic wu hu X Y -> row * 2 ^ lvl <= Y < (row + 1) * 2 ^ lvl ->
     X / 4 * 4 <= middle X wu < Z.min (X / 4 * 4 + 4) wu /\ Y / 4 * 4 <= middle Y hu < Z.min (Y / 4 * 4 + 4) hu /\ row * 2 ^ lvl <= middle Y hu < (row + 1) * 2 ^ lvl).
Proof. exact save_row_ok. Qed.
Print Assumptions C79_kept.
Example C79_case : let s := save_row 6 6 2 1 (fun p => Cell 0 p (-1) (p, p) (0, 0)) (fun _ => (0, 0)) (fun _ => -1) in
  map (snd s) [23; 24; 27; 28; 29; 30; 35] = [-1; 32; 32; 35; 35; 32; 35].
Proof. vm_compute. reflexivity. Qed.

(** The vectors of a coded unit: predictor plus the next difference of the stream, forward ones of all parts first, with the coarser grid
    of progressive vectors; second vectors of symmetric and two-reference parts by projection. The predictors are those of the maps after
    the unit. *)
Theorem C80_coded : forall E Q level ux uy y stale c g c' g', env_ok E -> unit_at E Q level ux uy -> syntax_ok E level y -> grid_ok E g -> 1 <= y_type y <= 7 -> Forall i16v (y_mvds y) ->
  unit_motion E Q stale (4 * ux) (4 * uy) level y (c, g) = Done (c', g') -> coded_motion E Q level ux uy y c' g'.
Proof. exact coded_ok. Qed.
Print Assumptions C80_coded.
(** The unit of 16 of [ex_y1]: first half with two references, vector as sent, projected from distance 4 to 2; second half with the predictor
    scaled from distance 4 to 2. With progressive vectors the difference (8, 3) on the predictor (5, 1) counts in half samples. *)
Lemma ex_mvds : Forall i16v (y_mvds ex_y1).
Proof. unfold ex_y1, i16v, is_i16. cbn [y_mvds]. apply Forall_cons; [cbn; lia|]. apply Forall_cons; [cbn; lia|]. apply Forall_nil. Qed.
Example C80_case : 1 <= y_type ex_y1 <= 7 /\ Forall i16v (y_mvds ex_y1) /\
  match ex_s1 with Done (c, g) => coded_motion ex_env (ex_place 0) 4 0 0 ex_y1 c g /\ (c_mv0 c 0, c_mv1 c 0, c_mv0 c 1) = ((4, 4), (2, 2), (3, 0)) | _ => False end /\
  add_diff false (8, 3) (5, 1) = (13, 4) /\ add_diff true (8, 3) (5, 1) = (20, 6).
Proof.
  split; [cbn; lia|]. split; [apply ex_mvds|]. split; [|split; reflexivity].
  destruct ex_s1 as [[c g]| | |] eqn:A; try (vm_compute in A; discriminate). split.
  - apply (C80_coded ex_env (ex_place 0) 4 0 0 ex_y1 5 (ex_cu 0) ex_none); [exact ex_env_ok|constructor; cbn; lia|constructor; cbn; try lia; repeat constructor; lia|intros p; unfold i16v, is_i16; cbn; lia|cbn; lia|apply ex_mvds|rewrite <- A; change (4 * 0) with 0; unfold ex_s1; reflexivity].
  - vm_compute in A. injection A as <- _. reflexivity.
Qed.

(** The motion of a skipped or direct unit: the temporal modes from the motion kept for the first reference, block by block of the four
    quarters of units over 8; weighted skip with its second reference; the spatial modes from the six neighbours, one block. *)
Theorem C81_skipped : forall E Q level ux uy y stale c g c' g', env_ok E -> unit_at E Q level ux uy -> syntax_ok E level y -> grid_ok E g -> good_past E Q level ux uy g -> y_type y <= 0 -> (forall p, i16v (e_cmv E p)) ->
  unit_motion E Q stale (4 * ux) (4 * uy) level y (c, g) = Done (c', g') -> skipped_motion E Q level ux uy (weighted_mode E y) (spatial_mode E y) c' g'.
Proof. exact skipped_ok. Qed.
Print Assumptions C81_skipped.
(** A skipped unit of 16 with weighted mode 1 in the picture of the examples: the kept vector (8, -4) at distance 2 projected to references 0
    and 1; and a B picture with the temporal mode. *)
Definition ex_b : env := Env 2 2 6 4 3 4 false false true true true (fun i => 2 * i + 2) (fun i => 16384 / (2 * i + 2)) true (fun p => if p <? 12 then 0 else -1) (fun _ => (8, -4)) (fun _ => 6) (fun _ => 2730).
Lemma ex_b_ok : env_ok ex_b.
Proof. constructor; cbn; try lia; auto. intros i Hi. assert (i = 0 \/ i = 1) as [-> | ->] by lia; cbn; lia. Qed.
Example C81_case : weighted_mode ex_env (Syn 0 9 1 0 0 [] 0 []) = 1 /\ spatial_mode ex_env (Syn 0 9 1 0 0 [] 0 []) = 0 /\ good_past ex_env (ex_place 0) 4 0 0 ex_none /\
  match unit_motion ex_env (ex_place 0) 0 0 0 4 (Syn 0 9 1 0 0 [] 0 []) (ex_cu 0, ex_none) with
  | Done (c, g) => length (c_pus c) = 4%nat /\ map (fun i => (c_ref c i, c_mv0 c i, c_mv1 c i)) [0; 3] = [((0, 1), (8, -4), (16, -8)); ((0, 1), (8, -4), (16, -8))]
  | _ => False
  end /\
  match unit_motion ex_b (ex_place 0) 0 0 0 4 (Syn 0 9 0 0 0 [] 0 []) (ex_cu 0, ex_none) with
  | Done (c, g) => length (c_pus c) = 4%nat /\ map (fun i => (c_ref c i, c_mv0 c i, c_mv1 c i)) [0; 3] = [((1, 0), (5, -2), (-2, 1)); ((1, 0), (0, 0), (0, 0))]
  | _ => False
  end.
Proof. split; [reflexivity|]. split; [reflexivity|]. split; [intros X Y _ _ _; left; cbn; auto|]. vm_compute. repeat split; reflexivity. Qed.
