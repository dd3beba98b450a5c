(** C69, C70: what intra blocks are predicted from. *)
From Coq Require Import ZArith List Bool Lia.
From Verif Require Import CBase MemModel NbModel NbSpec NbProofs IprModel IprSpec EgModel EgSpec EgProofs EgProofsB EgProofsC EgProofsD EgProofsE.
Import ListNotations.
Open Scope Z_scope.

(** C69.  Each of the four fill functions, chosen by the place of the block in its LCU, leaves
    in the edge buffer the border of the rule, wherever the used samples are kept; and touches
    nothing else. *)
Theorem C69_border_is_the_rule grey pic fd st lcu rt ox oy R a cx cy w h ep m :
  0 <= cx -> 0 <= cy -> 0 < w -> 0 < h ->
  (forall x y, uses a (ox + cx) (oy + cy) w h x y -> kept pic fd st lcu rt ox oy R x y) ->
  let new := fill_edge cx cy grey pic (fd + cy * st + cx - st - 1) st lcu (rt + cx - cy) ep a w h m in
  (forall k, - reach h w <= k <= reach w h -> new (ep + k) = border_of grey a R (ox + cx) (oy + cy) w h k) /\
  (forall q, ~ (ep - reach h w <= q <= ep + reach w h) -> new q = m q).
Proof.
  intros Hx Hy Hw Hh K new. split.
  - intros k Hk. exact (fill_edge_in grey pic fd st lcu rt ox oy R a cx cy w h ep m Hx Hy Hw Hh K k Hk).
  - intros q Hq. exact (fill_edge_out grey pic fd st lcu rt a cx cy w h ep m Hw Hh q Hq).
Qed.
Print Assumptions C69_border_is_the_rule.
(** The third variant: a 4x4 block in the first column of its LCU, 8 lines down; line above in
    the picture, left column cached, below left not available. *)
Definition some_nbs : nbs := {| n_left := true; n_top := true; n_left_down := false; n_top_right := true; n_top_left := true |}.
Example C69_border_case :
  let R := fun x y => 100 + 3 * x + 7 * y in
  let pic := fun q => R (q mod 100) (q / 100) in
  let lcu := fun q => R 63 (63 - q) in
  map (fun k => fill_edge 0 8 128 pic (100 * 71 + 63) 100 lcu (0 - 8) 255 some_nbs 4 4 (fun _ => 0) (255 + k)) [-19; -8; -4; -1; 0; 1; 4; 8; 12] =
  map (border_of 128 some_nbs R 64 72 4 4) [-19; -8; -4; -1; 0; 1; 4; 8; 12].
Proof. vm_compute. reflexivity. Qed.

(** C69.  Prediction of every block of an intra coding unit, from the neighbours that are in the
    picture, in the slice and decoded before it, where decoding leaves them. *)
Theorem C69_luma_blocks bits depth junk R lcu rt fd st lv level split cx cy k bx by_ w h wu hu wscu sl cur mode buf pic :
  1 <= depth <= bits -> bits = 8 \/ bits = 16 -> 0 <= mode <= 32 ->
  unit_at lv level split cx cy k bx by_ w h -> row_slices lv wu hu wscu sl ->
  in_pic wu hu (cx + 2 ^ (level - 2) - 1) (cy + 2 ^ (level - 2) - 1) -> 4 * w <= st ->
  let N := 2 ^ (lv - 2) in
  let lx := cx / N in let ly := cy / N in
  let ox := 4 * (N * lx) in let oy := 4 * (N * ly) in
  let x0 := 4 * (cx + bx) in let y0 := 4 * (cy + by_) in
  let ready x y := ready_unit lv level split cx cy k wu hu wscu sl cur (x / 4) (y / 4) in
  held pic fd st lcu rt ox oy (4 * N) R ready ->
  (forall x y, ready x y -> 0 <= R x y <= 2 ^ depth - 1) ->
  exists a buf' pic',
    get_intra_pred bits depth junk (Ctx lv wu hu wscu sl (N * lx) (N * ly)) cur mode (x0 - ox) (y0 - oy) (4 * w) (4 * h) lcu rt fd st buf pic = Done (a, buf', pic') /\
    bits_say a ready x0 y0 (4 * w) (4 * h) /\
    predicts (4 * w) (4 * h) (fd + (y0 - oy) * st + (x0 - ox)) st pic pic'
      (rule depth (border_of (2 ^ (depth - 1)) a R x0 y0 (4 * w) (4 * h)) mode (4 * w) (4 * h) (n_top a) (n_left a)).
Proof. exact (luma_block bits depth junk R lcu rt fd st lv level split cx cy k bx by_ w h wu hu wscu sl cur mode buf pic). Qed.
Print Assumptions C69_luma_blocks.
Theorem C69_chroma_blocks bits depth junk R1 R2 lcu1 lcu2 rt fd1 fd2 st lv level cx cy wu hu wscu sl cur luma c_mode mode buf pic1 pic2 :
  1 <= depth <= bits -> bits = 8 \/ bits = 16 ->
  real_mode luma c_mode = Done mode -> 0 <= mode <= 32 ->
  let w := 2 ^ (level - 2) in
  unit_at lv level 0 cx cy 0 0 0 w w -> row_slices lv wu hu wscu sl ->
  in_pic wu hu (cx + w - 1) (cy + w - 1) -> 2 * w <= st ->
  let N := 2 ^ (lv - 2) in
  let lx := cx / N in let ly := cy / N in
  let ox := 2 * (N * lx) in let oy := 2 * (N * ly) in
  let x0 := 2 * cx in let y0 := 2 * cy in
  let ready x y := ready_unit lv level 0 cx cy 0 wu hu wscu sl cur (x / 2) (y / 2) in
  held pic1 fd1 st lcu1 rt ox oy (2 * N) R1 ready -> held pic2 fd2 st lcu2 rt ox oy (2 * N) R2 ready ->
  (forall x y, ready x y -> 0 <= R1 x y <= 2 ^ depth - 1 /\ 0 <= R2 x y <= 2 ^ depth - 1) ->
  exists a buf' pic1' pic2',
    get_intra_pred_chroma bits depth junk (Ctx lv wu hu wscu sl (N * lx) (N * ly)) cur level luma c_mode (x0 - ox) (y0 - oy) lcu1 lcu2 rt fd1 fd2 st buf pic1 pic2
      = Done (a, buf', (pic1', pic2')) /\
    bits_say a ready x0 y0 (2 * w) (2 * w) /\
    predicts (2 * w) (2 * w) (fd1 + (y0 - oy) * st + (x0 - ox)) st pic1 pic1'
      (rule depth (border_of (2 ^ (depth - 1)) a R1 x0 y0 (2 * w) (2 * w)) mode (2 * w) (2 * w) (n_top a) (n_left a)) /\
    predicts (2 * w) (2 * w) (fd2 + (y0 - oy) * st + (x0 - ox)) st pic2 pic2'
      (rule depth (border_of (2 ^ (depth - 1)) a R2 x0 y0 (2 * w) (2 * w)) mode (2 * w) (2 * w) (n_top a) (n_left a)).
Proof. exact (chroma_blocks bits depth junk R1 R2 lcu1 lcu2 rt fd1 fd2 st lv level cx cy wu hu wscu sl cur luma c_mode mode buf pic1 pic2). Qed.
Print Assumptions C69_chroma_blocks.
(** The hypotheses can be met: any samples, held as decoding leaves them. *)
Definition slope_plane (x y : Z) : Z := (3 * x + 5 * y) mod 256.
Example C69_case : unit_at 6 4 1 12 4 2 0 2 4 1 /\ row_slices 6 50 30 25 (fun _ => 0) /\ in_pic 50 30 15 7 /\
  (let ox := 4 * (16 * (12 / 16)) in let oy := 4 * (16 * (4 / 16)) in
   held (fun q => slope_plane (q mod 400) (q / 400)) 0 400 (fun q => if 0 <=? q then slope_plane (q - 1) (-1) else slope_plane (-1) (- q - 1)) 0 ox oy 64 slope_plane
     (fun x y => ready_unit 6 4 1 12 4 2 50 30 25 (fun _ => 0) 0 (x / 4) (y / 4))) /\
  (forall x y, 0 <= slope_plane x y <= 2 ^ 8 - 1).
Proof.
  split; [constructor; cbn; try lia; try reflexivity; unfold intra_split; lia|].
  split; [intros x y x' y' _ _ _; reflexivity|]. split; [unfold in_pic; lia|]. split.
  - cbn zeta. change (4 * (16 * (12 / 16))) with 0. change (4 * (16 * (4 / 16))) with 0. split; [|split; [|split]].
    + intros x y Hx Hy _. replace (0 + (y - 0) * 400 + (x - 0)) with (x + y * 400) by ring. rewrite Z.mod_add, Z.div_add, Z.mod_small, (Z.div_small x 400) by lia. reflexivity.
    + intros x Hx _. destruct (Z.leb_spec 0 (0 + 1 + (x - 0))); [|lia]. f_equal; lia.
    + intros y Hy _. destruct (Z.leb_spec 0 (0 - 1 - (y - 0))); [lia|]. f_equal; lia.
    + intros _. reflexivity.
  - intros x y. unfold slope_plane. pose proof (Z.mod_pos_bound (3 * x + 5 * y) 256). lia.
Qed.

(** C70.  In a run over the LCUs of a picture, whatever reconstruction and deblocking do to the
    plane, the cached border an LCU is reconstructed with holds the samples around it as they
    were when their own LCU had just been reconstructed, before any filter. *)
Theorem C70_cached_border_is_unfiltered pw ph n org st cols rows recon deblock s0 :
  0 < n -> 0 < cols -> 0 < rows -> (cols - 1) * n < pw <= cols * n -> (rows - 1) * n < ph <= rows * n ->
  let state x y := before_recon pw n x (lcu_run pw ph n org st cols rows recon deblock (Z.to_nat (y * cols + x)) s0) in
  let just_reconstructed x y := recon x y (r_top (state x y)) (r_plane (state x y)) in
  let R X Y := just_reconstructed (X / n) (Y / n) (org + Y * st + X) in
  forall x y, 0 <= x < cols -> 0 <= y < rows ->
  let rt := r_top (state x y) in
  (0 < y -> forall X, x * n <= X < x * n + 2 * n -> X < pw -> rt (1 + (X - x * n)) = R X (y * n - 1)) /\
  (0 < x -> forall Y, y * n <= Y < y * n + n -> Y < ph -> rt (- 1 - (Y - y * n)) = R (x * n - 1) Y) /\
  (0 < x -> 0 < y -> rt 0 = R (x * n - 1) (y * n - 1)).
Proof.
  intros Hn Hc Hr Hpw Hph state just R x y Hx Hy rt.
  destruct (cached pw ph n org st cols rows recon deblock s0 Hn Hc Hr Hpw Hph x y Hx Hy) as [T L].
  split; [exact T|]. split; [intros Px; exact (proj1 (L Px))|intros Px; exact (proj2 (L Px))].
Qed.
Print Assumptions C70_cached_border_is_unfiltered.
(** A picture of 5 by 5 samples in LCUs of 2, reconstruction giving the LCU number, deblocking
    destroying everything above and to the left: the border of LCU (1, 1). *)
Example C70_case :
  let recon x y (rt pl : mem) := fun q => if (q / 10 / 2 =? y) && (q mod 10 / 2 =? x) then 100 + 10 * x + y else pl q in
  let deblock x y (pl : mem) := fun q => if (q / 10 / 2 <=? y) && (q mod 10 / 2 <=? x) then 0 else pl q in
  let s := before_recon 5 2 1 (lcu_run 5 5 2 0 10 3 3 recon deblock 4 (RS (fun _ => 7) (fun _ => 7) (fun _ => 7))) in
  map (r_top s) [-2; -1; 0; 1; 2; 3] = [101; 101; 100; 110; 110; 120].
Proof. vm_compute. reflexivity. Qed.
