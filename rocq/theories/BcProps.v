(** C114: the block copies. *)
From Coq Require Import ZArith List Bool Lia.
From Verif Require Import CBase MemModel FtModel FtSpec BcModel BcSpec BcProofs.
Import ListNotations.
Open Scope Z_scope.

(** C114: every version of every size, called with anything in the other registers, puts the source block at the
    destination and leaves all other bytes alone. *)
Theorem C114_copies : forall k w h v f, copy_fn k w h v = Some f -> forall g r d sd s ss m, 0 <= w <= sd -> 0 <= h ->
  blocks_apart (unit_of k) w h d sd s ss -> block_copied (unit_of k) w h d sd s ss m (f g r d sd s ss m).
Proof. exact fn_ok. Qed.
Print Assumptions C114_copies.
(** C114: so two versions, of C or assembly, leave the same memory. *)
Theorem C114_same : forall k w h v v' f f', copy_fn k w h v = Some f -> copy_fn k w h v' = Some f' ->
  forall g r g' r' d sd s ss m, 0 <= w <= sd -> 0 <= h -> blocks_apart (unit_of k) w h d sd s ss ->
  forall a, f g r d sd s ss m a = f' g' r' d sd s ss m a.
Proof.
  intros k w h v v' f f' E E' g r g' r' d sd s ss m Hw Hh Hap.
  exact (copied_same _ _ _ _ _ _ _ _ _ _ (fn_ok _ _ _ _ _ E g r d sd s ss m Hw Hh Hap) (fn_ok _ _ _ _ _ E' g' r' d sd s ss m Hw Hh Hap)).
Qed.
Print Assumptions C114_same.
(** C114: all 25 sizes have an SSE2 version, for samples and for coefficients. *)
Theorem C114_sizes : forall k w h, In (w, h) part_sizes -> exists f, copy_fn k w h v_sse2 = Some f.
Proof.
  intros k w h Hin. assert (H : forall k, forallb (fun p => match copy_fn k (fst p) (snd p) v_sse2 with Some _ => true | None => false end) part_sizes = true)
    by (intros []; vm_compute; reflexivity).
  specialize (H k). rewrite forallb_forall in H. specialize (H _ Hin). cbn [fst snd] in H.
  destruct (copy_fn k w h v_sse2) as [f|]; [exists f; reflexivity|discriminate].
Qed.
Print Assumptions C114_sizes.
(** C114: whatever features were detected, a prediction from a whole-sample position copies the reference block
    (a chroma block with a side of 2 or 6 uses another member of the table, [block_copy]). *)
Theorem C114_called : forall cpuid c w h, made c = true -> c = c_luma w h 0 0 \/ c = c_chroma w h 0 0 ->
  exists t f v, called c = Done t /\ fill_table cpuid (fun _ => None) t = Some (f, v) /\
  (f = f_block_copy /\ c = c_chroma w h 0 0 \/
   f = f_copy_pp w h /\ exists p, copy_fn PP w h v = Some p /\
     forall g r d sd s ss m, w <= sd -> blocks_apart 1 w h d sd s ss -> block_copied 1 w h d sd s ss m (p g r d sd s ss m)).
Proof.
  intros cpuid c w h Hm Hc. destruct (copy_called cpuid c w h Hm Hc) as (t & Ht & f & v & F & H). exists t, f, v.
  split; [exact Ht|]. split; [exact F|]. destruct H as [H|(E & Hw & Hh & p & Ep)]; [left; exact H|right].
  split; [exact E|]. exists p. split; [exact Ep|]. intros g r d sd s ss m Hsd Hap.
  exact (fn_ok PP w h v p Ep g r d sd s ss m (conj Hw Hsd) Hh Hap).
Qed.
Print Assumptions C114_called.
(** C114: on blocks that overlap the versions differ: the C code repeats what it has just written. *)
Theorem C114_overlap_refuted : exists f f' d s m a, copy_fn PP 4 4 v_c = Some f /\ copy_fn PP 4 4 v_sse2 = Some f' /\
  f (fun _ => 0) (fun _ _ => 0) d 100 s 100 m a <> f' (fun _ => 0) (fun _ _ => 0) d 100 s 100 m a.
Proof.
  eexists _, _, 1, 0, (fun a => a), 2. split; [reflexivity|]. split; [reflexivity|]. vm_compute. discriminate.
Qed.
Print Assumptions C114_overlap_refuted.

Example C114_nonvacuous : blocks_apart 2 16 12 0 16 1000 64 /\ (exists f, copy_fn SS 16 12 v_avx = Some f) /\
  made (c_luma 48 64 0 0) = true /\ made (c_chroma 8 4 0 0) = true /\
  (match copy_fn SS 16 12 v_avx with
   | Some f => map (f (fun _ => 7) (fun _ _ => 9) 0 16 1000 64 (fun a => a * a)) [-1; 0; 33; 383; 384] = [1; 1000 * 1000; 1129 * 1129; 2439 * 2439; 384 * 384]
   | None => False end).
Proof.
  split.
  - intros a (y & x & Hy & Hx & E) (y' & x' & Hy' & Hx' & E'). lia.
  - split; [eexists; reflexivity|]. split; [reflexivity|]. split; [reflexivity|]. vm_compute. reflexivity.
Qed.
