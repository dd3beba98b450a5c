(** C112: the assembly dequantisation gives the coefficients of the C function. *)
From Coq Require Import ZArith List Bool Lia.
From Verif Require Import CBase MemModel HdrModel QpModel QpSpec QpProofs VxModelBase VxProofs DqModel DqSpec DqProofs.
Import ListNotations.
Open Scope Z_scope.

(** Wherever the C function is defined, on every number of coefficients that is a multiple of 16. The upper half of
    the register with the scale may hold anything; those of the count and the shift have to be 0 (see below). *)
Theorem C112_sse4 : forall p n scale shift u m l, p mod 16 = 0 -> 16 <= Z.of_nat n <= 2147483647 -> (Z.of_nat n) mod 16 = 0 ->
  -2147483648 <= scale <= 2147483647 -> to_i32 u = scale -> 1 <= shift <= 31 ->
  dequant_c scale shift (coeffs m p n) = Done l ->
  exists r, dequant_sse4 p (Z.of_nat n) u shift m = Done r /\ coeffs r p n = l /\ only p (2 * Z.of_nat n) m r.
Proof. exact dequant_sse4_c. Qed.
Print Assumptions C112_sse4.

(** So for every sample depth, QP and block size, whatever the levels are. *)
Theorem C112_levels : forall depth qp bits p n m, depth_ok depth -> 0 <= qp <= 79 -> 2 <= bits <= 6 ->
  p mod 16 = 0 -> 16 <= Z.of_nat n <= 2147483647 -> (Z.of_nat n) mod 16 = 0 ->
  exists shift scale l r, quant_params depth qp bits = Done (shift, scale) /\ dequant_c scale shift (coeffs m p n) = Done l /\
    dequant_sse4 p (Z.of_nat n) scale shift m = Done r /\ coeffs r p n = l /\ only p (2 * Z.of_nat n) m r.
Proof. exact dequant_levels. Qed.
Print Assumptions C112_levels.

(** The calling convention leaves the upper half of an [int] argument open. With anything but 0 there the shift is 31. *)
Theorem C112_shift_refuted : exists p n scale shift junk m l, p mod 16 = 0 /\ 1 <= shift <= 31 /\ 0 < junk < 4294967296 /\
  dequant_c scale shift (coeffs m p n) = Done l /\
  exists r, dequant_sse4 p (Z.of_nat n) scale (shift + 4294967296 * junk) m = Done r /\ coeffs r p n <> l.
Proof.
  set (m := (fun _ => 1) : mem). exists 0, 16%nat, 65535, 8, 1, m, (repeat 32767 16).
  split; [reflexivity|]. split; [lia|]. split; [lia|]. split; [vm_compute; reflexivity|].
  destruct (sse4_ok 0 16 65535 (8 + 4294967296 * 1) m eq_refl ltac:(lia) ltac:(lia)) as (r & R & H).
  exists r. split; [exact R|]. intros E. apply (f_equal (fun l => nth 0 l 0)) in E. unfold coeffs in E. cbn [seq map nth repeat] in E.
  rewrite !H in E. vm_compute in E. discriminate.
Qed.
Print Assumptions C112_shift_refuted.

(** With anything but 0 in the upper half of the count, or with fewer than 16 coefficients, it changes memory behind the block. *)
Theorem C112_count_refuted : (exists p n junk scale shift m r a, 0 < junk < 4294967296 /\ 16 <= n /\
    dequant_sse4 p (n + 4294967296 * junk) scale shift m = Done r /\ p + 2 * n <= a /\ r a <> m a) /\
  (exists p n scale shift m r a, 0 <= n < 16 /\
    dequant_sse4 p n scale shift m = Done r /\ p + 2 * n <= a /\ r a <> m a).
Proof.
  set (m := (fun _ => 1) : mem). split.
  - destruct (sse4_ok 0 (16 + 4294967296 * 1) 65535 8 m eq_refl ltac:(lia) ltac:(lia)) as (r & R & H).
    exists 0, 16, 1, 65535, 8, m, r, 32. split; [lia|]. split; [lia|]. split; [exact R|]. split; [lia|]. rewrite H. vm_compute. discriminate.
  - destruct (sse4_ok 0 8 65535 8 m eq_refl ltac:(lia) ltac:(lia)) as (r & R & H).
    exists 0, 8, 65535, 8, m, r, 16. split; [lia|]. split; [exact R|]. split; [lia|]. rewrite H. vm_compute. discriminate.
Qed.
Print Assumptions C112_count_refuted.

(** Concrete case: saturation in both directions, zero and small levels. *)
Example C112_nonvacuous :
  let m : mem := fun a => nth (Z.to_nat a) [3; 0; 0; 0; 251; 255; 255; 127; 0; 128] 0 in
  firstn 6 (coeffs m 0 16) = [3; 0; -5; 32767; -32768; 0] /\
  dequant_c 65535 7 (coeffs m 0 16) = Done ([1536; 0; -2560; 32767; -32768] ++ repeat 0 11) /\
  quant_params 8 40 3 = Done (7, 65535) /\ depth_ok 8.
Proof. cbv zeta. split; [vm_compute; reflexivity|]. split; [vm_compute; reflexivity|]. split; [vm_compute; reflexivity|]. unfold depth_ok. lia. Qed.
