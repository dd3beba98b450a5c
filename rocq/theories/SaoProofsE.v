(** Band offset with parsed parameters, and the cases in which the row order matters. *)
From Coq Require Import ZArith List Bool Lia.
From Verif Require Import CBase MemModel HdrModel MemProofs SynModel SynSpec SaoModel SaoSpec SaoProofs SaoProofsB SaoProofsC SaoProofsD.
Import ListNotations.
Open Scope Z_scope.

Lemma band_parsed p src pd ds ps ss w h depth dst :
  band_ok p -> 8 <= depth -> 0 <= w <= ds -> 0 <= h ->
  (forall x y, 0 <= x < w -> 0 <= y < h -> 0 <= sample src ps ss x y < 2 ^ depth) ->
  let new := bo_block src pd ds ps ss w h depth depth (off_at p) dst in
  (forall x y, 0 <= x < w -> 0 <= y < h ->
     let c := sample src ps ss x y in let band := c / 2 ^ (depth - 5) in
     0 <= band < 32 /\
     new (pd + y * ds + x) = saturate depth (c + off_at p band) /\
     0 <= new (pd + y * ds + x) < 2 ^ depth /\
     (~ In band (bands p) -> new (pd + y * ds + x) = c)) /\
  (forall q, (forall x y, 0 <= x < w -> 0 <= y < h -> q <> pd + y * ds + x) -> new q = dst q).
Proof.
  intros (_ & _ & _ & _ & _ & Z0) D W Hh R new.
  destruct (bo_correct src pd ds ps ss w h depth depth (off_at p) dst ltac:(lia) Hh ltac:(lia) ltac:(lia)) as [B1 B2].
  split; [|exact B2]. intros x y Hx Hy c band. specialize (R x y Hx Hy). fold c in R.
  pose proof (Z.pow_pos_nonneg 2 depth ltac:(lia) ltac:(lia)) as P.
  assert (Bd : 0 <= band < 32).
  { unfold band. split; [apply Z.div_pos; [lia|apply Z.pow_pos_nonneg; lia]|]. apply Z.div_lt_upper_bound; [apply Z.pow_pos_nonneg; lia|].
    change 32 with (2 ^ 5). rewrite <- Z.pow_add_r by lia. replace (depth - 5 + 5) with depth by lia. lia. }
  assert (E : new (pd + y * ds + x) = saturate depth (c + off_at p band)).
  { unfold new. rewrite B1 by assumption. unfold band_result. fold c. rewrite Z.shiftr_div_pow2 by lia. reflexivity. }
  split; [exact Bd|]. split; [exact E|]. split.
  - rewrite E. unfold saturate. lia.
  - intros N. rewrite E, (Z0 band Bd N). unfold saturate. lia.
Qed.

Definition brighten : Z -> Z := fun _ => 1.
(** Pictures one LCU high. *)
Lemma one_row_differs : exists g par up rec dec0 tmp0 x y,
  sizes_ok (q_lv g) (q_pw g) (q_ph g) (q_wl g) (q_hl g) /\ q_cross g = true /\ q_gdepth g = q_depth g /\ q_depth g = 8 /\
  plane_w g <= q_stride g /\ (forall lx ly ty off, par lx ly = Some (ty, off) -> 0 <= ty <= 4) /\
  row_local (plane_w g) (plane_h g) (lcu_lines g) (q_base g) (q_stride g) rec /\
  0 <= x < plane_w g /\ 0 <= y < plane_h g /\
  snd (rows_delayed g par up rec (tmp0, dec0)) (q_base g + y * q_stride g + x) <>
  snd (rows_serial g par up rec (tmp0, dec0)) (q_base g + y * q_stride g + x).
Proof.
  exists (Geom true 4 16 16 1 1 true (fun _ _ => 0) 0 16 8 8), (fun _ _ => Some (4, brighten)), (fun _ => 0), (fun _ m => m), (fun _ => 100), (fun _ => 0), 3, 3.
  split; [unfold sizes_ok; cbn; lia|]. split; [reflexivity|]. split; [reflexivity|]. split; [reflexivity|].
  split; [vm_compute; discriminate|]. split; [intros lx ly ty off E; injection E as <- <-; lia|].
  split; [split; [reflexivity|intros ly m m' E; exact E]|].
  split; [vm_compute; split; [discriminate|reflexivity]|]. split; [vm_compute; split; [discriminate|reflexivity]|].
  vm_compute. discriminate.
Qed.

(** Two slices, the second starting in the middle of an LCU row, filtering across slices
    off. Row 1 is deblocked against row 0 only in the LCU column whose two LCUs are in the
    same slice. *)
Definition two_slices (x y : Z) : Z := if (y <? 2) || (x <? 2) then 0 else 1.
Definition rec_top (ly : Z) (m : mem) : mem :=
  fun q => if (ly =? 1) && (q mod 32 <? 16) && (13 <=? q / 32) && (q / 32 <? 16) then 50 else m q.
Lemma slices_differ : exists g par up dec0 tmp0 x y,
  sizes_ok (q_lv g) (q_pw g) (q_ph g) (q_wl g) (q_hl g) /\ q_cross g = false /\ q_sl g = two_slices /\ q_gdepth g = q_depth g /\ q_depth g = 8 /\
  plane_w g <= q_stride g /\ (forall lx ly ty off, par lx ly = Some (ty, off) -> 0 <= ty <= 4) /\
  row_local (plane_w g) (plane_h g) (lcu_lines g) (q_base g) (q_stride g) rec_top /\
  (forall ly m x y, 0 <= x < plane_w g -> 0 <= y < ly * lcu_lines g ->
     two_slices (x / lcu_lines g * 2) (ly * 2) <> two_slices (x / lcu_lines g * 2) (ly * 2 - 1) ->
     rec_top ly m (q_base g + y * q_stride g + x) = m (q_base g + y * q_stride g + x)) /\
  0 <= x < plane_w g /\ 0 <= y < plane_h g /\
  snd (rows_delayed g par up rec_top (tmp0, dec0)) (q_base g + y * q_stride g + x) <>
  snd (rows_serial g par up rec_top (tmp0, dec0)) (q_base g + y * q_stride g + x).
Proof.
  exists (Geom true 4 32 32 2 2 false two_slices 0 32 8 8), (fun _ _ => Some (4, brighten)), (fun _ => 0), (fun _ => 100), (fun _ => 0), 14, 14.
  split; [unfold sizes_ok; cbn; lia|]. split; [reflexivity|]. split; [reflexivity|]. split; [reflexivity|]. split; [reflexivity|].
  split; [vm_compute; discriminate|]. split; [intros lx ly ty off E; injection E as <- <-; lia|].
  cbn [q_base q_stride]. change (plane_w _) with 32. change (plane_h _) with 32. change (lcu_lines _) with 16.
  split.
  { split.
    - intros ly m x y Hx Hy Hl. unfold rec_top. replace (0 + y * 32 + x) with (x + y * 32) by lia. rewrite Z.div_add, Z.div_small by lia.
      destruct (Z.eqb_spec ly 1) as [->|]; [|reflexivity]. destruct (Z.leb_spec 13 (0 + y)); [lia|]. rewrite andb_false_r. reflexivity.
    - intros ly m m' E x y Hx Hy Hl. unfold rec_top. destruct (_ && _); [reflexivity|]. apply E; assumption. }
  split.
  { intros ly m x y Hx Hy N. unfold rec_top. destruct (Z.eqb_spec ly 1) as [->|]; [|reflexivity].
    replace (0 + y * 32 + x) with (x + y * 32) by lia. rewrite Z.mod_add, Z.mod_small by lia.
    destruct (Z.ltb_spec x 16); [|reflexivity]. exfalso. apply N. rewrite Z.div_small by lia. reflexivity. }
  split; [lia|]. split; [lia|]. vm_compute. discriminate.
Qed.
