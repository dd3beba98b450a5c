(** C100: filling the border of intra blocks with the vector functions. *)
From Coq Require Import ZArith List Bool Lia.
From Verif Require Import CBase MemModel NbModel IprModel IprSpec IprProofs IprProofsE EgModel EgSpec EgProofs EgProofsB VxModelBase VfModel VfProofs VfProofsB.
Import ListNotations.
Open Scope Z_scope.

(** C100.  Each of the four vector functions, chosen by the place of the block in its LCU, leaves
    the border of the rule (C69), wherever the used samples are kept.  Beyond the border it
    changes at most the byte behind the right end, in blocks whose border is not padded there.
    Aligned stores do not fault when the edge buffer is aligned as declared. *)
Theorem C100_border_is_the_rule base grey pic fd st lcu rt ox oy R a cx cy w h ep m :
  0 <= cx -> 0 <= cy -> intra_shape w h -> 0 <= grey <= 255 -> (base + ep + 1) mod 16 = 0 ->
  (forall q, 0 <= pic q <= 255) -> (forall q, 0 <= lcu q <= 255) ->
  (forall x y, uses a (ox + cx) (oy + cy) w h x y -> kept pic fd st lcu rt ox oy R x y) ->
  exists new, vfill_edge cx cy base grey pic (fd + cy * st + cx - st - 1) st lcu (rt + cx - cy) ep a w h m = Done new /\
  (forall k, - reach h w <= k <= reach w h -> new (ep + k) = border_of grey a R (ox + cx) (oy + cy) w h k) /\
  (forall q, ~ (ep - reach h w <= q <= ep + reach w h) -> new q = if (reach w h =? 2 * w) && (q =? ep + 2 * w + 1) then grey else m q).
Proof.
  intros Hx Hy S G Al Hp Hl K. destruct (shape_sides w h S) as [Sw Sh]. pose proof (shape_pos w h S) as P.
  destruct (vfill_edge_ok base grey pic (fd + cy * st + cx - st - 1) st lcu (rt + cx - cy) ep a cx cy w h m Sw Sh (fun _ => Al) G Hp Hl) as (new & E & V).
  exists new. split; [exact E|]. rewrite pr_reach in V by lia. split.
  - intros k Hk. rewrite V, (fill_edge_in grey pic fd st lcu rt ox oy R a cx cy w h ep m) by (assumption || lia).
    destruct (Z.eqb_spec (reach w h) (2 * w)), (Z.eqb_spec (ep + k) (ep + 2 * w + 1)); cbn [andb]; try reflexivity; lia.
  - intros q Hq. rewrite V, fill_edge_out by (assumption || lia). reflexivity.
Qed.
Print Assumptions C100_border_is_the_rule.

(** C100.  A luma block predicted from such a border is the block predicted from the border of
    the C functions, in every mode; the edge buffer starts at an address divisible by 16. *)
Theorem C100_luma base junk c cur mode cx cy w h lcu rt fd st buf pic :
  0 <= mode <= 32 -> intra_shape w h -> w <= st -> base mod 16 = 0 ->
  (forall q, 0 <= pic q <= 255) -> (forall q, 0 <= lcu q <= 255) ->
  forall a buf' pic', get_intra_pred 8 8 junk c cur mode cx cy w h lcu rt fd st buf pic = Done (a, buf', pic') ->
  exists bufv picv, get_intra_pred_v base 8 8 junk c cur mode cx cy w h lcu rt fd st buf pic = Done (a, bufv, picv) /\
    (forall q, bufv q = if (reach w h =? 2 * w) && (q =? 256 + 2 * w) then 128 else buf' q) /\ (forall q, picv q = pic' q).
Proof. exact (luma_v base junk c cur mode cx cy w h lcu rt fd st buf pic). Qed.
Print Assumptions C100_luma.

(** C100.  The two chroma blocks, whose borders share the buffer; here nothing differs. *)
Theorem C100_chroma base junk c cur level luma c_mode cx cy lcu1 lcu2 rt fd1 fd2 st buf pic1 pic2 mode :
  real_mode luma c_mode = Done mode -> 0 <= mode <= 32 -> 3 <= level <= 6 -> 2 ^ (level - 1) <= st -> base mod 16 = 0 ->
  (forall q, 0 <= pic1 q <= 255) -> (forall q, 0 <= lcu1 q <= 255) -> (forall q, 0 <= pic2 q <= 255) -> (forall q, 0 <= lcu2 q <= 255) ->
  forall a buf' pic1' pic2', get_intra_pred_chroma 8 8 junk c cur level luma c_mode cx cy lcu1 lcu2 rt fd1 fd2 st buf pic1 pic2 = Done (a, buf', (pic1', pic2')) ->
  exists bufv pic1v pic2v, get_intra_pred_chroma_v base 8 8 junk c cur level luma c_mode cx cy lcu1 lcu2 rt fd1 fd2 st buf pic1 pic2 = Done (a, bufv, (pic1v, pic2v)) /\
    (forall q, bufv q = buf' q) /\ (forall q, pic1v q = pic1' q) /\ (forall q, pic2v q = pic2' q).
Proof. exact (chroma_v base junk c cur level luma c_mode cx cy lcu1 lcu2 rt fd1 fd2 st buf pic1 pic2 mode). Qed.
Print Assumptions C100_chroma.

(** Blocks of 32x8 and 16x4 are those with the byte behind the border: the buffer does not end up
    as the C functions leave it. *)
Theorem C100_byte_behind_refuted : exists w h a m lcu new, intra_shape w h /\ (forall q, 0 <= lcu q <= 255) /\
  vfill_edge 0 0 0 128 lcu 0 0 lcu 300 255 a w h m = Done new /\
  new (255 + 2 * w + 1) <> fill_edge 0 0 128 lcu 0 0 lcu 300 255 a w h m (255 + 2 * w + 1).
Proof.
  exists 16, 4, (Nbs true true true true true), (fun _ => 0), (fun q => q mod 256).
  destruct (vfill_edge_ok 0 128 (fun q => q mod 256) 0 0 (fun q => q mod 256) 300 255 (Nbs true true true true true) 0 0 16 4 (fun _ => 0)) as (new & E & V);
    try (cbn; tauto); try lia; try (intros q; pose proof (Z.mod_pos_bound q 256); lia).
  exists new. split; [cbn; tauto|]. split; [intros q; pose proof (Z.mod_pos_bound q 256); lia|]. split; [exact E|].
  rewrite V. vm_compute. discriminate.
Qed.
Print Assumptions C100_byte_behind_refuted.

(** A 16x16 block at column 16 of the first line of its LCU; the buffer at an address that is not a
    multiple of 16 faults. *)
Example C100_case :
  let pic := fun q => q mod 251 in let lcu := fun q => (3 * q) mod 256 in
  let a := Nbs true true false true true in
  match vfill_edge 16 0 64 128 pic 4000 100 lcu 500 255 a 16 16 (fun _ => 0) with
  | Done m => map (fun k => m (255 + k)) [-60; -32; -17; -16; -1; 0; 1; 16; 17; 32; 60]
              = map (fun k => fill_edge 16 0 128 pic 4000 100 lcu 500 255 a 16 16 (fun _ => 0) (255 + k)) [-60; -32; -17; -16; -1; 0; 1; 16; 17; 32; 60]
              /\ m (255 + 17) = 15 /\ m (255 - 16) = 78
  | _ => False
  end /\ vfill_edge 16 0 68 128 pic 4000 100 lcu 500 255 a 16 16 (fun _ => 0) = Undef.
Proof. vm_compute. repeat split. Qed.
