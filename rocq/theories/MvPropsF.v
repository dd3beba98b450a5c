(** Property C45 in field-coded sequences. *)
From Coq Require Import ZArith Bool Lia.
From Verif Require Import CBase HdrModel QpModel UtilModel MvModel MvModelF MvSpec MvSpecF MvProofs MvProofsF.
Open Scope Z_scope.

(** C45 in fields, builds without assertions and even POCs: with [m] and [n] the field
    distances of the vector's reference and of the wanted one, it is the displacement on
    the screen (the bottom field lies half a line lower) that is scaled, not the coded
    vector, whenever the displacement and the result stay two units inside 16 bits. *)
Theorem C45_field_partial : forall F mvy m n, 1 <= m <= 255 -> 1 <= n <= 255 ->
  (f_asserts F = true -> f_frame F = true /\ Z.even (f_poc F) = true) ->
  let top := f_top F in
  let dst := dist_ref n in let src := dist_ref m in let mul := dist_scale src in
  let d := displacement top (parity_at top m) mvy in
  is_i16 d ->
  (forall v, Z.abs d * dst * mul + 8192 <= 2147483647 -> v = sat16 (round14 (d * dst * mul)) ->
     -32766 <= v <= 32765 ->
     exists r, scale_mv_default_y (Some F) mvy dst src mul = Done r /\ is_i16 r /\ displacement top (parity_at top n) r = v) /\
  (forall v, Z.abs d * dst * mul <= 16384 * 32765 -> v = (d * dst * mul + 8192) / 16384 ->
     exists r, scale_mv_skip_y (Some F) mvy dst src mul = Done r /\ is_i16 r /\ displacement top (parity_at top n) r = v) /\
  (forall v, mul * (1 + Z.abs d * dst) <= 16384 * 32765 -> v = Z.sgn d * ((mul * (1 + Z.abs d * dst) - 1) / 16384) ->
     exists r, scale_mv_biskip_y (Some F) mvy dst src mul = Done r /\ is_i16 r /\ displacement top (parity_at top n) r = v).
Proof. exact field_all. Qed.
Print Assumptions C45_field_partial.

(** From the bottom field of POC 5 (no assertions), a vector to the field 1 away (top),
    scaled to the field 2 away (bottom): (10 - 2) * 2 = 16; to 3 away (top): 24 + 2. *)
Example C45_field_nonvacuous :
  let F := Field 5 false true false in
  scale_mv_default_y (Some F) 10 (dist_ref 2) (dist_ref 1) (dist_scale (dist_ref 1)) = Done 16 /\
  scale_mv_skip_y (Some F) 10 (dist_ref 3) (dist_ref 1) (dist_scale (dist_ref 1)) = Done 26 /\
  scale_mv_biskip_y (Some (Field 4 true true true)) 10 (dist_ref 2) (dist_ref 1) (dist_scale (dist_ref 1)) = Done 24 /\
  is_i16 (displacement false (parity_at false 1) 10).
Proof. unfold is_i16. repeat split; cbv; intros; discriminate. Qed.

(** C45 in frames: the vertical component is scaled like the horizontal one. *)
Theorem C45_frame : forall mvy dst src mul,
  scale_mv_default_y None mvy dst src mul = scale_mv_default mvy dst mul /\
  scale_mv_skip_y None mvy dst src mul = scale_mv_skip mvy dst mul /\
  scale_mv_biskip_y None mvy dst src mul = scale_mv_biskip mvy dst mul.
Proof. exact frame_y. Qed.
Print Assumptions C45_frame.

(** C45 fails in builds that keep assertions, which the GNU builds do: every vertical
    scaling in a field whose POC is odd ends the process, whatever the vector and the
    distances, because [getDeltas] asserts that POCs are even and is given the POC
    itself rather than its double. *)
Theorem C45_field_abort_refuted : forall F mvy dst src mul, f_asserts F = true -> Z.odd (f_poc F) = true ->
  scale_mv_default_y (Some F) mvy dst src mul = Fail /\ scale_mv_skip_y (Some F) mvy dst src mul = Fail /\
  scale_mv_biskip_y (Some F) mvy dst src mul = Fail.
Proof. exact field_abort. Qed.
Print Assumptions C45_field_abort_refuted.

(** C45 fails for vectors taken from the collocated field when that has the other
    parity: they are corrected as if they started in the current field.  Here the
    current field is the top field of POC 4, the collocated one the bottom field of POC
    5 with a vector to POC 2, and the forward reference POC 3. *)
Theorem C45_collocated_refuted : exists F k m n mv r,
  f_asserts F = false /\ 1 <= m <= 255 /\ 1 <= n <= 255 /\ Z.odd k = true /\
  let col := parity_at (f_top F) k in
  let mul := dist_scale (dist_ref m) in
  scale_mv_biskip_y (Some F) mv (dist_ref n) (dist_ref m) mul = Done r /\
  scale_mv_biskip (displacement col (parity_at col m) mv) (dist_ref n) mul
    <> Done (displacement (f_top F) (parity_at (f_top F) n) r).
Proof.
  exists (Field 4 true true false), 1, 3, 1, 30. eexists.
  split; [reflexivity|]. split; [lia|]. split; [lia|]. split; [reflexivity|]. cbv zeta.
  split; [vm_compute; reflexivity|vm_compute; discriminate].
Qed.
Print Assumptions C45_collocated_refuted.
