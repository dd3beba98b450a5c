(** C115: the 8x8 inverse transform in assembly. *)
From Coq Require Import ZArith List Bool Lia.
From Verif Require Import CBase MemModel MemProofs UtilModel TrModel AlfSpec McSpec TrSpec XaModel XbModel XbSpec XbProofs.
Import ListNotations.
Open Scope Z_scope.

(** C115: whatever the registers held, [idct_8x8_ssse3] writes the two-pass transform limited to 16 bits, and no other element. *)
Theorem C115_residual16 : forall d src dst st junk m, d = 8 \/ d = 10 -> 8 <= st ->
  (forall u v, 0 <= u < 8 -> 0 <= v < 8 -> -32768 <= m (src + v * 8 + u) <= 32767) ->
  (forall x y, 0 <= x < 8 -> 0 <= y < 8 ->
     idct_8x8_ssse3 d src dst st junk m (dst + y * st + x) = residual16_8 d (fun u v => m (src + v * 8 + u)) x y) /\
  (forall q, (forall x y, 0 <= x < 8 -> 0 <= y < 8 -> q <> dst + y * st + x) -> idct_8x8_ssse3 d src dst st junk m q = m q).
Proof.
  intros d src dst st junk m Hd Hs H. destruct (asm8_raw d src dst st junk m Hd Hs H) as [A B]. split; [exact A|].
  intros q Hq. apply B. intros (x & y & Hx & Hy & E). exact (Hq x y Hx Hy E).
Qed.
Print Assumptions C115_residual16.
(** C115: so the residual is that of the C function up to its last limit. *)
Theorem C115_limited : forall d p st junk t0 c, d = 8 \/ d = 10 -> 8 <= st ->
  (forall u v, 0 <= u < 8 -> 0 <= v < 8 -> -32768 <= c (p + v * 8 + u) <= 32767) ->
  forall x y, 0 <= x < 8 -> 0 <= y < 8 ->
  idct_8x8 d p st t0 c (p + y * st + x) = Z.max (- 2 ^ d) (Z.min (2 ^ d - 1) (idct_8x8_ssse3 d p p st junk c (p + y * st + x))).
Proof. exact limited_8x8. Qed.
Print Assumptions C115_limited.
(** C115: added to 8-bit samples by the assembly of C110 it gives the samples of the C code. *)
Theorem C115_recon : forall avx2 s st p rs junk t0 c m, 8 <= st -> 8 <= rs -> (forall a, 0 <= m a <= 255) ->
  (forall u v, 0 <= u < 8 -> 0 <= v < 8 -> -32768 <= c (p + v * 8 + u) <= 32767) ->
  exists m1, add_ps_asm s st (idct_8x8_ssse3 8 p p rs junk c) p rs avx2 8 8 m = Some m1 /\
    forall a, m1 a = add_ps 8 8 8 s st (idct_8x8 8 p rs t0 c) p rs m a.
Proof. exact recon_8x8. Qed.
Print Assumptions C115_recon.
(** C115: the residuals themselves are not the same: 16 bits are kept where the C function keeps 9. *)
Theorem C115_same_residual_refuted : exists junk t0 c q, (forall k, -32768 <= c k <= 32767) /\
  idct_8x8_ssse3 8 0 0 8 junk c q <> idct_8x8 8 0 8 t0 c q.
Proof.
  set (c := fun k : Z => if k =? 0 then 32767 else if k =? 1 then 32767 else 0).
  exists (fun _ => []), (fun _ => 0), c, 0.
  assert (C : forall k, -32768 <= c k <= 32767) by (intros k; unfold c; destruct (k =? 0), (k =? 1); lia).
  split; [exact C|].
  pose proof (C115_limited 8 0 8 (fun _ => []) (fun _ => 0) c ltac:(auto) ltac:(lia) ltac:(intros; apply C) 0 0 ltac:(lia) ltac:(lia)) as L.
  destruct (C115_residual16 8 0 0 8 (fun _ => []) c ltac:(auto) ltac:(lia) ltac:(intros; apply C)) as [A _].
  specialize (A 0 0 ltac:(lia) ltac:(lia)). change (0 + 0 * 8 + 0) with 0 in *. rewrite L, A. vm_compute. discriminate.
Qed.
Print Assumptions C115_same_residual_refuted.
(** C115: the code uses all 64 bits of the register of the [int] argument: with anything in the upper half the lines after
    the first go elsewhere. *)
Theorem C115_upper_half_refuted : exists reg, reg mod 2 ^ 32 = 8 /\ exists c q, (forall k, -32768 <= c k <= 32767) /\
  forall junk t0, idct_8x8_ssse3 8 0 0 reg junk c q <> idct_8x8 8 0 8 t0 c q.
Proof.
  exists (8 + 2 ^ 32). split; [reflexivity|].
  set (c := fun k : Z => if k =? 0 then 1000 else 0). exists c, 8.
  assert (C : forall k, -32768 <= c k <= 32767) by (intros k; unfold c; destruct (k =? 0); lia).
  split; [exact C|]. intros junk t0.
  destruct (C115_residual16 8 0 0 (8 + 2 ^ 32) junk c ltac:(auto) ltac:(lia) ltac:(intros; apply C)) as [_ B]. rewrite B by (intros x y Hx Hy; lia).
  pose proof (C115_limited 8 0 8 (fun _ => []) t0 c ltac:(auto) ltac:(lia) ltac:(intros; apply C) 0 1 ltac:(lia) ltac:(lia)) as L.
  destruct (C115_residual16 8 0 0 8 (fun _ => []) c ltac:(auto) ltac:(lia) ltac:(intros; apply C)) as [A _].
  specialize (A 0 1 ltac:(lia) ltac:(lia)). change (0 + 1 * 8 + 0) with 8 in *. rewrite L, A. vm_compute. discriminate.
Qed.
Print Assumptions C115_upper_half_refuted.

Example C115_nonvacuous : exists c, (forall u v, 0 <= u < 8 -> 0 <= v < 8 -> -32768 <= c (100 + v * 8 + u) <= 32767) /\
  map (fun x => residual16_8 8 (fun u v => c (100 + v * 8 + u)) x 3) [0; 1; 6; 7] = [14; 13; 4; 3].
Proof.
  exists (fun k => if k =? 100 then 1200 else if k =? 101 then 500 else if k =? 108 then -300 else 0). split.
  - intros u v _ _. cbv beta. set (k := 100 + v * 8 + u). destruct (k =? 100), (k =? 101), (k =? 108); lia.
  - vm_compute. reflexivity.
Qed.
