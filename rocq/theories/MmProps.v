(** C111: the fast memory functions do what [memcpy] and [memset] do, for the sizes the decoder gives them. *)
From Coq Require Import ZArith List Bool Lia.
From Verif Require Import CBase MemModel MemProofs SaoModel SaoProofs FrmModel FrmProofs VxModelBase MmModel MmSpec MmProofs.
Import ListNotations.
Open Scope Z_scope.

(** [fast_memcpy] copies every number of bytes between areas that do not meet and writes nothing else. *)
Theorem C111_memcpy : forall d s n m, 0 <= n < 9223372036854775808 -> apart d s n -> copied d s n m (fast_memcpy_mmx d s n m).
Proof. intros d s n m N A. apply fast_memcpy_ok; [lia|exact A]. Qed.
Print Assumptions C111_memcpy.

(** [fast_memzero] clears every number of bytes and writes nothing else. *)
Theorem C111_memzero : forall d n m, 0 <= n < 9223372036854775808 -> filled d n 0 m (fast_memzero_mmx d n m).
Proof. intros d n m N. apply fast_memzero_ok. lia. Qed.
Print Assumptions C111_memzero.

(** [memcpy_aligned] ends and copies when the size is a multiple of 16 below 2^31. *)
Theorem C111_aligned : forall d s n m, 0 <= n < 2147483648 -> n mod 16 = 0 -> apart d s n ->
  exists r, memcpy_aligned_mmx d s n m = Done r /\ copied d s n m r.
Proof. exact memcpy_aligned_ok. Qed.
Print Assumptions C111_aligned.

(** With another size it writes below the destination. *)
Theorem C111_aligned_refuted : exists d s n m r a, 0 <= n < 2147483648 /\ apart d s n /\
  memcpy_aligned_mmx d s n m = Done r /\ a < d /\ r a <> m a.
Proof.
  set (m := (fun a => if a =? 1999 then 7 else 0) : mem).
  assert (R : match memcpy_aligned_mmx 1000 2000 40 m with Done r => r 999 = 7 | _ => False end) by (vm_compute; reflexivity).
  destruct (memcpy_aligned_mmx 1000 2000 40 m) as [r| | |] eqn:E; [|contradiction..].
  exists 1000, 2000, 40, m, r, 999. split; [lia|]. split; [left; lia|]. split; [exact E|]. split; [lia|].
  rewrite R. change (m 999) with 0. discriminate.
Qed.
Print Assumptions C111_aligned_refuted.

(** The rows of a frame: whatever stride [align_stride] gives, for samples of one and of two bytes, the
    copy of a row to the one above or below is that of the C loop. *)
Theorem C111_rows : forall x st ps p q m, 0 <= x <= 100000 -> align_stride x = Done st -> ps = 1 \/ ps = 2 ->
  q = p - st * ps \/ q = p + st * ps ->
  exists r, memcpy_aligned_mmx q p (st * ps) m = Done r /\ copied q p (st * ps) m r /\ forall a, r a = copy_line q p (st * ps) m a.
Proof.
  intros x st ps p q m X E P Q. destruct (align_stride_ok x X) as (st' & E' & M & L).
  rewrite E in E'. injection E' as <-.
  assert (N : 0 <= st * ps < 2147483648) by (destruct P as [-> | ->]; lia).
  assert (A : apart q p (st * ps)) by (destruct Q as [-> | ->]; unfold apart; lia).
  assert (D : (st * ps) mod 16 = 0).
  { pose proof (Z.div_mod st 32 ltac:(lia)) as D. rewrite M in D.
    replace (st * ps) with (st / 32 * 2 * ps * 16) by lia. apply Z.mod_mul. lia. }
  destruct (memcpy_aligned_ok q p (st * ps) m N D A) as (r & R & C).
  exists r. split; [exact R|]. split; [exact C|]. eapply copied_fun; [exact C|]. apply copy_line_ok; [lia|exact A].
Qed.
Print Assumptions C111_rows.

(** The planes of a picture ([davs2_frame_copy_planes]): stride times lines, as long as it is below 2^31 bytes. *)
Theorem C111_planes : forall x st ps lines d s m, 0 <= x <= 100000 -> align_stride x = Done st -> ps = 1 \/ ps = 2 ->
  0 <= lines -> st * lines * ps < 2147483648 -> apart d s (st * lines * ps) ->
  exists r, memcpy_aligned_mmx d s (st * lines * ps) m = Done r /\ copied d s (st * lines * ps) m r.
Proof.
  intros x st ps lines d s m X E P L B A. destruct (align_stride_ok x X) as (st' & E' & M & S).
  rewrite E in E'. injection E' as <-. apply memcpy_aligned_ok; [|clear B A|exact A].
  - split; [|exact B]. apply Z.mul_nonneg_nonneg; [apply Z.mul_nonneg_nonneg; lia|destruct P; lia].
  - pose proof (Z.div_mod st 32 ltac:(lia)) as D. rewrite M, Z.add_0_r in D. rewrite D.
    replace (32 * (st / 32) * lines * ps) with (2 * (st / 32) * lines * ps * 16) by ring. apply Z.mod_mul. lia.
Qed.
Print Assumptions C111_planes.

(** [fast_memset] sets the bytes when the value fits a signed byte. Missing: values 128 to 255 (see below). *)
Theorem C111_memset_partial : forall d val n m, 0 <= n < 9223372036854775808 -> -128 <= val <= 127 ->
  filled d n (to_u8 val) m (fast_memset_mmx d val n m).
Proof. intros d val n m N V. apply fast_memset_ok; [lia|exact V]. Qed.
Print Assumptions C111_memset_partial.

(** A value from 128 to 255 is cut to 127 in all groups of eight bytes. *)
Theorem C111_memset_refuted : forall d val n m, 8 <= n < 9223372036854775808 -> 128 <= val <= 255 ->
  ~ filled d n (to_u8 val) m (fast_memset_mmx d val n m).
Proof. exact fast_memset_bad. Qed.
Print Assumptions C111_memset_refuted.

(** [memzero_aligned] (16 bytes at a time with SSE2, 32 with AVX) on an aligned area of a multiple of that size. *)
Theorem C111_memzero_aligned : forall w d n m, w = 16 \/ w = 32 -> 0 <= n < 2147483648 * w -> d mod w = 0 -> n mod w = 0 ->
  exists r, memzero_aligned_c w d n m = Done r /\ filled d n 0 m r.
Proof.
  intros w d n m W N D M. destruct (memzero_aligned_ok w d n m ltac:(lia) ltac:(lia) D) as (r & R & F).
  rewrite M, Z.sub_0_r in F. exists r. split; assumption.
Qed.
Print Assumptions C111_memzero_aligned.

(** On any other size the last bytes stay as they are. *)
Theorem C111_memzero_aligned_refuted : forall w d n m, w = 16 \/ w = 32 -> 0 <= n < 2147483648 * w -> d mod w = 0 -> n mod w <> 0 ->
  m (d + n - 1) <> 0 -> exists r, memzero_aligned_c w d n m = Done r /\ ~ filled d n 0 m r.
Proof.
  intros w d n m W N D M V. destruct (memzero_aligned_ok w d n m ltac:(lia) ltac:(lia) D) as (r & R & F).
  exists r. split; [exact R|]. intros G. destruct (F (d + n - 1)) as [_ F2], (G (d + n - 1)) as [G1 _].
  pose proof (Z.mod_pos_bound n w ltac:(lia)). pose proof (Z.mod_le n w ltac:(lia) ltac:(lia)).
  rewrite F2 in G1 by lia. apply V, G1. lia.
Qed.
Print Assumptions C111_memzero_aligned_refuted.

(** Concrete cases: sizes that use every part of the functions. *)
Example C111_nonvacuous :
  (let m : mem := fun a => a mod 251 in
   map (fast_memcpy_mmx 1000 3000 93 m) [999; 1000; 1063; 1064; 1087; 1088; 1092; 1093] =
   [246; 3000 mod 251; 3063 mod 251; 3064 mod 251; 3087 mod 251; 3088 mod 251; 3092 mod 251; 1093 mod 251]) /\
  (match memcpy_aligned_mmx 1000 3000 112 (fun a => a mod 251) with
   | Done r => map r [999; 1000; 1095; 1096; 1111; 1112] = [246; 3000 mod 251; 3095 mod 251; 3096 mod 251; 3111 mod 251; 1112 mod 251]
   | _ => False end) /\
  apart 1000 3000 112 /\ align_stride 1920 = Done 1920 /\
  map (fast_memset_mmx 10 (-1) 11 (fun _ => 5)) [9; 10; 17; 18; 20; 21] = [5; 255; 255; 255; 255; 5] /\
  map (fast_memset_mmx 10 200 11 (fun _ => 5)) [9; 10; 17; 18; 20; 21] = [5; 127; 127; 200; 200; 5].
Proof. split; [vm_compute; reflexivity|]. split; [vm_compute; reflexivity|]. split; [left; lia|]. repeat split; vm_compute; reflexivity. Qed.
