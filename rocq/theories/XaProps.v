(** Properties of the assembly functions that reconstruct a block in the 8-bit build. *)
From Coq Require Import ZArith List Bool Lia.
From Verif Require Import CBase HdrModel MemModel MemProofs UtilModel UtilProofs SynModel SynSpec VxModelBase TrModel AlfSpec McSpec TrSpec TrProofs TrProofsB
  VtModel VtModelG VtSpec XaModel XaSpec XaProofs XaProofsB.
Import ListNotations.
Open Scope Z_scope.

(** C110: a 4x4 block reconstructed by the assembly functions has the samples the C functions give: for
    all coefficients of 16 bits, all predictions, all strides not below the width, any contents of the
    registers; with the table of SSE4 and with that of AVX2. *)
Theorem C110_recon_4x4 : forall avx2 s st p rs regs ints t0 c m, 4 <= st -> 4 <= rs -> (forall a, 0 <= m a <= 255) ->
  (forall u v, 0 <= u < 4 -> 0 <= v < 4 -> -32768 <= c (p + v * 4 + u) <= 32767) ->
  exists m1, add_ps_asm s st (run idct_4x4_asm (kernel_params 8 0) p p rs regs ints c) p rs avx2 4 4 m = Some m1 /\
    forall a, m1 a = add_ps 8 4 4 s st (idct_4x4 8 p rs t0 c) p rs m a.
Proof. exact recon_4x4. Qed.
Print Assumptions C110_recon_4x4.

(** Adding a residual: every size with an assembly function, every residual up to 32512, which is far
    beyond what a transform gives. Outside the block nothing is written. *)
Theorem C110_add : forall avx2 w h s st r p rs m, In (w, h) add_sizes -> w <= st -> (forall a, 0 <= m a <= 255) ->
  (forall x y, 0 <= x < w -> 0 <= y < h -> -32768 <= r (p + y * rs + x) <= 32512) ->
  exists m1, add_ps_asm s st r p rs avx2 w h m = Some m1 /\
    (forall x y, 0 <= x < w -> 0 <= y < h -> m1 (s + y * st + x) = clamp 0 255 (m (s + y * st + x) + r (p + y * rs + x))) /\
    (forall a, (forall x y, 0 <= x < w -> 0 <= y < h -> a <> s + y * st + x) -> m1 a = m a).
Proof.
  intros avx2 w h s st r p rs m HS Hs Hm Hr.
  assert (G : asm_width w /\ 0 <= h /\ h mod 4 = 0 /\ 0 < w).
  { unfold add_sizes in HS. cbn [In] in HS. unfold asm_width. repeat (destruct HS as [HS|HS]; [injection HS as <- <-; split; [lia|split; [lia|split; [reflexivity|lia]]]|]). destruct HS. }
  destruct G as (W & Hh & H4 & Hw). destruct (add_asm_ok avx2 w h s st r p rs m W Hh H4 Hs Hm Hr) as (m1 & E & A).
  destruct (add_ps_spec 8 (Z.to_nat w) (Z.to_nat h) s st r p rs m ltac:(lia)) as [A1 A2]. cbv zeta in A1, A2. unfold bpos in A1.
  exists m1. split; [exact E|]. split.
  - intros x y Hx Hy. rewrite A, A1 by lia. rewrite clip1_eq by lia. unfold clamp. change (2 ^ 8) with 256. lia.
  - intros a N. rewrite A. apply A2. intros (x & y & Hx & Hy & Ea). unfold bpos in Ea. apply (N x y); lia.
Qed.
Print Assumptions C110_add.

(** Any block: the vector transforms of C98 and the assembly addition give the samples of the C
    functions. (For a 4x4 block without second transform the 8-bit table has the function of
    [C110_recon_4x4] instead.) *)
Theorem C110_recon : forall avx2 s st p w h pat sec intra luma mode b_top b_left t0 l1 l2 c m,
  In (w, h) block_sizes -> 0 <= pat <= 2 -> w <= st -> (forall a, 0 <= m a <= 255) ->
  let cw := coeff_width w h in let ch := coeff_height w h in
  coeffs16 cw ch p c -> zero_beyond (fst (region cw ch pat)) (snd (region cw ch pat)) cw ch p c ->
  exists c1 c2 m1, inv_transform_v avx2 8 p cw w h pat sec intra luma mode b_top b_left l1 l2 c = Done c1 /\
    inv_transform 8 p cw w h sec intra luma mode b_top b_left t0 c = Done c2 /\
    add_ps_asm s st c1 p w avx2 w h m = Some m1 /\
    forall a, m1 a = add_ps 8 (Z.to_nat w) (Z.to_nat h) s st c2 p w m a.
Proof. exact recon_block. Qed.
Print Assumptions C110_recon.

(** The words the 4x4 transform leaves: the second pass limited to 16 bits, not to [d + 1]. *)
Theorem C110_residual16 : forall d src dst stride regs ints m, mc_depth d -> 4 <= stride ->
  (forall u v, 0 <= u < 4 -> 0 <= v < 4 -> -32768 <= m (src + v * 4 + u) <= 32767) ->
  (forall x y, 0 <= x < 4 -> 0 <= y < 4 ->
     run idct_4x4_asm (kernel_params d 0) src dst stride regs ints m (dst + y * stride + x) = residual16 d (fun u v => m (src + v * 4 + u)) x y) /\
  (forall q, (forall x y, 0 <= x < 4 -> 0 <= y < 4 -> q <> dst + y * stride + x) -> run idct_4x4_asm (kernel_params d 0) src dst stride regs ints m q = m q).
Proof.
  intros d src dst stride regs ints m Hd Hs C16. destruct (asm_raw d src dst stride regs ints m Hd Hs C16) as [A B]. split; [exact A|].
  intros q N. apply B. intros (x & y & Hx & Hy & Eq). apply (N x y); [exact Hx|exact Hy|exact Eq].
Qed.
Print Assumptions C110_residual16.

(** So as a function of its own it is not [idct_4x4_c]: one large coefficient tells them apart. *)
Theorem C110_same_residual_refuted : ~ (forall regs ints t0 c,
  (forall k, -32768 <= c k <= 32767) ->
  forall q, run idct_4x4_asm (kernel_params 8 0) 0 0 4 regs ints c q = idct_4x4 8 0 4 t0 c q).
Proof.
  intros H. assert (C : forall k, -32768 <= (fun k => if k =? 0 then 32767 else 0) k <= 32767) by (intros k; cbv beta; destruct (k =? 0); lia).
  specialize (H (fun _ _ => 0) (fun _ => 0) (fun _ => 0) _ C 0).
  destruct (C110_residual16 8 0 0 4 (fun _ _ => 0) (fun _ => 0) (fun k => if k =? 0 then 32767 else 0) ltac:(unfold mc_depth; lia) ltac:(lia) ltac:(intros; apply C)) as [A _].
  specialize (A 0 0 ltac:(lia) ltac:(lia)). change (0 + 0 * 4 + 0) with 0 in A. rewrite A in H. revert H. vm_compute. discriminate.
Qed.
Print Assumptions C110_same_residual_refuted.

(** And the addition is not that of C for every residual of 16 bits: [paddw] wraps. *)
Theorem C110_any_residual_refuted : ~ (forall r m m1, (forall k, -32768 <= r k <= 32767) -> (forall a, 0 <= m a <= 255) ->
  add_ps_asm 0 4 r 0 4 false 4 4 m = Some m1 -> forall a, m1 a = add_ps 8 4 4 0 4 r 0 4 m a).
Proof.
  intros H. specialize (H (fun _ => 32767) (fun _ => 255)).
  destruct (add_ps_asm 0 4 (fun _ => 32767) 0 4 false 4 4 (fun _ => 255)) as [m1|] eqn:E; [|discriminate E].
  specialize (H m1 ltac:(intros; lia) ltac:(intros; lia) eq_refl 0).
  assert (E0 : m1 0 = 0) by (injection E as <-; vm_compute; reflexivity). rewrite E0 in H. revert H. vm_compute. discriminate.
Qed.
Print Assumptions C110_any_residual_refuted.

(** Not vacuous: a block whose residual leaves 9 bits in the assembly function and whose samples are
    those of C nevertheless; and a line of 32 samples. *)
Definition ex_c (k : Z) : Z := nth (Z.to_nat k) [32767; -1200; 0; 77; 5; 0; -900; 0; 0; 0; 31; 0; 8; 0; 0; -3] 0.
Definition ex_m (k : Z) : Z := (k * 37) mod 256.
Example C110_nonvacuous : let c u v := ex_c (0 + v * 4 + u) in
  map (fun x => residual16 8 c x 0) [0; 1; 2; 3] = [235; 259; 271; 259] /\ map (fun x => residual 4 4 0 8 c x 0) [0; 1; 2; 3] = [235; 255; 255; 255].
Proof. vm_compute. split; reflexivity. Qed.
Example C110_nonvacuous_add :
  option_map (fun m => map m [7; 20; 35; 41; 64; 170]) (add_ps_asm 0 40 (fun k => k - 100) 0 32 true 32 8 ex_m) = Some [0; 148; 15; 170; 20; 184] /\
  map (add_ps 8 32 8 0 40 (fun k => k - 100) 0 32 ex_m) [7; 20; 35; 41; 64; 170] = [0; 148; 15; 170; 20; 184].
Proof. vm_compute. split; reflexivity. Qed.
