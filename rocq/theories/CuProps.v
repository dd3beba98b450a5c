(** Properties C47, C66 and C67: units of a coding unit and its reconstruction. *)
From Coq Require Import ZArith List Bool Lia.
From Verif Require Import CBase MemModel MemProofs SynModel SynSpec McSpec TrModel TrSpec CuModel CuSpec CuProofs CuProofsB CuProofsC CuProofsD.
Import ListNotations.
Open Scope Z_scope.

(** C47: the units, computed by shifting four packed bytes at once, are the partitions by name. *)
Theorem C47_prediction_shapes : forall slice ds mode level, 0 <= mode <= 11 -> 3 <= level <= 6 ->
  prediction_units slice ds mode level =
  quarters (2 ^ (level - 2)) (partition (skip_four slice ds level) mode).
Proof. exact pu_shape. Qed.
Print Assumptions C47_prediction_shapes.
Theorem C47_transform_shapes : forall split level, 0 <= split <= 3 -> 3 <= level <= 6 ->
  firstn (tu_count split) (transform_units split level) = quarters (2 ^ (level - 2)) (tu_partition split).
Proof. exact tu_shape. Qed.
Print Assumptions C47_transform_shapes.
(** Every sample of the unit is in exactly one prediction unit and in exactly one transform unit. *)
Theorem C47_prediction_tiles : forall slice ds mode level, 0 <= mode <= 11 -> 3 <= level <= 6 ->
  tiled (2 ^ level) (prediction_units slice ds mode level).
Proof. exact pu_tiled. Qed.
Print Assumptions C47_prediction_tiles.
Theorem C47_transform_tiles : forall split level, 0 <= split <= 3 -> 3 <= level <= 6 ->
  tiled (2 ^ level) (firstn (tu_count split) (transform_units split level)).
Proof. exact tu_tiled. Qed.
Print Assumptions C47_transform_tiles.
(** Every transform unit of a split that can be read has a transform; prediction units are made of
    4x4 blocks, except those of asymmetric and quarter-high partitions of 8x8 units. *)
Theorem C47_transform_sizes : forall split level u, 3 <= level <= 6 -> split_ok level split ->
  In u (firstn (tu_count split) (transform_units split level)) -> In (cw u, ch u) block_sizes.
Proof. exact tu_sizes. Qed.
Print Assumptions C47_transform_sizes.
Theorem C47_aligned : forall slice ds mode level u, 0 <= mode <= 11 -> 3 <= level <= 6 -> (level = 3 -> mode <= 3 \/ mode = 8 \/ mode = 9) ->
  In u (prediction_units slice ds mode level) -> cx u mod 4 = 0 /\ cy u mod 4 = 0 /\ cw u mod 4 = 0 /\ ch u mod 4 = 0.
Proof. exact pu_aligned. Qed.
Print Assumptions C47_aligned.
Example C47_case : prediction_units 2 0 5 6 = [B 0 0 64 48; B 0 48 64 16] /\ transform_units 2 6 = [B 0 0 16 64; B 16 0 16 64; B 32 0 16 64; B 48 0 16 64] /\
  prediction_units P_SLICE 0 0 4 = [B 0 0 8 8; B 8 0 8 8; B 0 8 8 8; B 8 8 8 8] /\ prediction_units P_SLICE 0 0 3 = [B 0 0 8 8].
Proof. vm_compute. auto. Qed.

(** C66: the residual of a whole coding unit: each coded transform unit adds the residual of its own
    coefficients, clipped to the depth; nothing outside the unit and no coefficient outside its
    places is touched. *)
Theorem C66_luma : forall d r (hor ver : Z -> bool), mc_depth d ->
  (forall i, (hor i = true <-> sec_hor (r_mode r i) /\ r_left r = true) /\ (ver i = true <-> sec_ver (r_mode r i) /\ r_top r = true)) ->
  3 <= r_level r <= 6 ->
  forall cbp ctu_x ctu_y p_fdec i_fdec t0 cbuf fdec, 2 ^ r_level r <= i_fdec -> split_ok (r_level r) (r_split r) ->
  let b := p_fdec + ctu_y * i_fdec + ctu_x in let pl := luma_place (r_zscan r) (r_level r) in
  exists c' f', recons_luma d r cbp ctu_x ctu_y p_fdec i_fdec t0 cbuf fdec = Done (c', f') /\
    (forall k u x y, nth_error (firstn (tu_count (r_split r)) (transform_units (r_split r) (r_level r))) k = Some u -> inside u x y ->
       f' (b + y * i_fdec + x) =
       if coded cbp (r_split r) (Z.of_nat k)
       then sample d (fdec (b + y * i_fdec + x) + unit_residual d (r_sec r && r_intra r) (hor (Z.of_nat k)) (ver (Z.of_nat k)) cbuf (pl (Z.of_nat k)) u x y)
       else fdec (b + y * i_fdec + x)) /\
    (forall q, ~ in_block (Z.to_nat (2 ^ r_level r)) (Z.to_nat (2 ^ r_level r)) b i_fdec q -> f' q = fdec q) /\
    (forall q, q < pl 0 \/ pl 4 <= q -> c' q = cbuf q).
Proof. exact recons_luma_spec. Qed.
Print Assumptions C66_luma.
Theorem C66_chroma : forall d r, mc_depth d -> 3 <= r_level r <= 6 ->
  forall cbp k ctu_x ctu_y p_fdec i_fdec t0 cbuf fdec, k = 4 \/ k = 5 -> 2 ^ (r_level r - 1) <= i_fdec ->
  let b := p_fdec + ctu_y / 2 * i_fdec + ctu_x / 2 in let n := 2 ^ (r_level r - 1) in
  exists c' f', recons_chroma d r cbp k ctu_x ctu_y p_fdec i_fdec t0 cbuf fdec = Done (c', f') /\
    (forall x y, 0 <= x < n -> 0 <= y < n -> f' (b + y * i_fdec + x) =
       if Z.testbit cbp k
       then sample d (fdec (b + y * i_fdec + x) + block_residual n n d false false false (coeffs_at cbuf (chroma_place (r_zscan r)) n) x y)
       else fdec (b + y * i_fdec + x)) /\
    (forall q, ~ in_block (Z.to_nat n) (Z.to_nat n) b i_fdec q -> f' q = fdec q) /\
    (forall q, q < chroma_place (r_zscan r) \/ chroma_place (r_zscan r) + 4 ^ (r_level r - 1) <= q -> c' q = cbuf q).
Proof. intros d r Hd HL. exact (recons_chroma_spec d r (hor_flag r) (ver_flag r) Hd (flags_ok r) HL). Qed.
Print Assumptions C66_chroma.
(** An 8x8 unit split in four, the second and the last block coded: DC coefficients 640 and -6400. *)
Example C66_case :
  let r := {| r_level := 3; r_split := 3; r_sec := false; r_intra := false; r_mode := fun _ => 0; r_top := true; r_left := true; r_zscan := 2 |} in
  match recons_luma 8 r 10 8 16 1000 32 (fun _ => 9) (fun a => if a =? 144 then 640 else if a =? 176 then -6400 else 0) (fun _ => 50) with
  | Done (c, f) => map (fun '(x, y) => f (1000 + 16 * 32 + 8 + y * 32 + x)) [(3, 0); (4, 0); (7, 3); (8, 3); (4, 4); (3, 4)]
  | _ => [] end = [50; 55; 55; 50; 0; 50].
Proof. vm_compute. reflexivity. Qed.

(** C67: reconstruction of an inter coding unit, from references and coefficients to samples. [mot]
    gives the references and vectors of each prediction unit. *)
Theorem C67_luma : forall d W H slice ds mode dmh fref i_fref lx ly ctu_x ctu_y p_fdec i_fdec us mot r cbp t0 tb cbuf fdec,
  mc_depth d -> 0 <= dmh <= 8 -> fref 0 <> None -> unit_in_picture W H (r_level r) (lx + ctu_x) (ly + ctu_y) ->
  0 <= mode <= 7 -> (r_level r = 3 -> mode <= 3) -> map u_cb us = prediction_units slice ds mode (r_level r) ->
  (forall u, In u us -> motion (slice =? B_SLICE) dmh u (mot u) /\ refs_ready 80 d W H i_fref fref (mot u)) ->
  r_intra r = false -> split_ok (r_level r) (r_split r) -> 2 ^ r_level r <= i_fdec ->
  let b := p_fdec + ctu_y * i_fdec + ctu_x in
  exists c' f', recon_inter_luma d (W, H) slice dmh fref i_fref lx ly ctu_x ctu_y p_fdec i_fdec us r cbp t0 tb cbuf fdec = Done (c', f') /\
    (forall u k t x y, In u us -> inside (u_cb u) x y ->
       nth_error (firstn (tu_count (r_split r)) (transform_units (r_split r) (r_level r))) k = Some t -> inside t x y ->
       let p := predicted (luma_ref d W H i_fref fref (lx + ctu_x + x) (ly + ctu_y + y)) (mot u) in
       f' (b + y * i_fdec + x) =
       if coded cbp (r_split r) (Z.of_nat k)
       then sample d (p + unit_residual d false false false cbuf (luma_place (r_zscan r) (r_level r) (Z.of_nat k)) t x y) else p) /\
    (forall q, ~ in_block (Z.to_nat (2 ^ r_level r)) (Z.to_nat (2 ^ r_level r)) b i_fdec q -> f' q = fdec q).
Proof. exact recon_inter_luma_spec. Qed.
Print Assumptions C67_luma.
Theorem C67_chroma : forall d W H slice ds mode dmh fref i_fref lx ly ctu_x ctu_y p_fdec i_fdec us mot r cbp k t0 tb cbuf fdec,
  mc_depth d -> 0 <= dmh <= 8 -> fref 0 <> None -> unit_in_picture W H (r_level r) (lx + ctu_x) (ly + ctu_y) -> lx mod 8 = 0 -> ly mod 8 = 0 ->
  0 <= mode <= 7 -> (r_level r = 3 -> mode <= 3) -> map u_cb us = prediction_units slice ds mode (r_level r) ->
  (forall u, In u us -> motion (slice =? B_SLICE) dmh u (mot u) /\ refs_ready 40 d (W / 2) (H / 2) i_fref fref (mot u)) ->
  k = 4 \/ k = 5 -> 2 ^ (r_level r - 1) <= i_fdec ->
  let b := p_fdec + ctu_y / 2 * i_fdec + ctu_x / 2 in let n := 2 ^ (r_level r - 1) in
  exists c' f', recon_inter_chroma d (W, H) slice dmh fref i_fref lx ly ctu_x ctu_y p_fdec i_fdec us r cbp k t0 tb cbuf fdec = Done (c', f') /\
    (forall u x y, In u us -> inside (u_cb u) (2 * x) (2 * y) ->
       let p := predicted (chroma_ref d W H i_fref fref ((lx + ctu_x) / 2 + x) ((ly + ctu_y) / 2 + y)) (mot u) in
       f' (b + y * i_fdec + x) =
       if Z.testbit cbp k
       then sample d (p + block_residual n n d false false false (coeffs_at cbuf (chroma_place (r_zscan r)) n) x y) else p) /\
    (forall q, ~ in_block (Z.to_nat n) (Z.to_nat n) b i_fdec q -> f' q = fdec q).
Proof. exact recon_inter_chroma_spec. Qed.
Print Assumptions C67_chroma.
(** An 8x8 unit of a P picture cut in two halves, the upper one predicted from reference 0, the lower
    one from references 0 and 1, second and last transform block coded as above. *)
Definition c67_fref : refs := fun i => if (0 <=? i) && (i <? 2) then Some (fun _ => 100 + 10 * i, 0) else None.
Definition c67_units : list pum :=
  [{| u_cb := B 0 0 8 4; u_dir := 0; u_mv0 := (5, -70); u_mv1 := (0, 0); u_ref0 := 0; u_ref1 := 0 |};
   {| u_cb := B 0 4 8 4; u_dir := 4; u_mv0 := (-3, 2); u_mv1 := (400, 1); u_ref0 := 0; u_ref1 := 1 |}].
Definition c67_mot (u : pum) : list ((Z * Z) * Z) := if u_dir u =? 0 then [(u_mv0 u, u_ref0 u)] else [(u_mv0 u, u_ref0 u); (u_mv1 u, u_ref1 u)].
Definition c67_cu : rcu := {| r_level := 3; r_split := 3; r_sec := false; r_intra := false; r_mode := fun _ => 0; r_top := true; r_left := true; r_zscan := 2 |}.
Example C67_hypotheses : unit_in_picture 128 64 3 (64 + 8) (0 + 16) /\ map u_cb c67_units = prediction_units P_SLICE 0 2 3 /\
  (forall u, In u c67_units -> motion (P_SLICE =? B_SLICE) 0 u (c67_mot u) /\ refs_ready 80 8 128 64 32 c67_fref (c67_mot u)) /\ c67_fref 0 <> None.
Proof.
  split; [unfold unit_in_picture; repeat split; try reflexivity; discriminate|]. split; [reflexivity|]. split; [|discriminate].
  assert (P: forall i, 0 <= i < 2 -> exists s p, c67_fref i = Some (s, p) /\ (forall a, 0 <= s a < 2 ^ 8) /\ padded 80 128 64 (plane s p 32)).
  { intros i Hi. exists (fun _ => 100 + 10 * i), 0. unfold c67_fref. rewrite (proj2 (Z.leb_le 0 i)), (proj2 (Z.ltb_lt i 2)) by lia. split; [reflexivity|].
    split; [intros _; change (2 ^ 8) with 256; lia|]. intros x y _ _. reflexivity. }
  intros u [<- | [<- | []]]; (split; [cbn; constructor; reflexivity|]); unfold refs_ready, c67_mot; cbn [u_dir u_mv0 u_mv1 u_ref0 u_ref1 Z.eqb In].
  - intros v r [E | []]. apply pair_equal_spec in E. destruct E as [<- <-]. unfold mv_ok. cbn [fst snd]. split; [lia|]. split; [lia|]. split; [lia|]. apply P. lia.
  - intros v r [E | [E | []]]; apply pair_equal_spec in E; destruct E as [<- <-]; unfold mv_ok; cbn [fst snd]; (split; [lia|]); (split; [lia|]); (split; [lia|]); apply P; lia.
Qed.
Example C67_case :
  match recon_inter_luma 8 (128, 64) P_SLICE 0 c67_fref 32 64 0 8 16 1000 32 c67_units c67_cu 10 (fun _ => 9) (fun _ => 7)
          (fun a => if a =? 144 then 640 else if a =? 176 then -6400 else 0) (fun _ => 50) with
  | Done (c, f) => map (fun '(x, y) => f (1000 + 16 * 32 + 8 + y * 32 + x)) [(3, 0); (4, 0); (7, 3); (8, 3); (4, 4); (3, 4)]
  | _ => [] end = [100; 105; 105; 50; 55; 105].
Proof. vm_compute. reflexivity. Qed.
