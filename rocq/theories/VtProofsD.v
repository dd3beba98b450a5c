(** The checks of the kernels of 32 points, SSE, and of the AVX2 kernels. *)
From Coq Require Import ZArith List Bool Lia.
From Verif Require Import VtModel VtModelB VtModelC VtModelD VtProofs VtProofsB.
Import ListNotations.
Open Scope Z_scope.

Lemma chk_32x8 : idct_check false 32 8 32 8 idct_32x8_sse128 = true.
Proof. vm_compute. reflexivity. Qed.
Lemma chk_8x32 : idct_check true 8 32 8 32 idct_8x32_sse128 = true.
Proof. vm_compute. reflexivity. Qed.
Lemma chk_32x32 : idct_check false 32 32 32 32 idct_32x32_sse128 = true.
Proof. vm_compute. reflexivity. Qed.
Lemma chk_32x32_half : idct_check false 32 32 16 16 idct_32x32_half_sse128 = true.
Proof. vm_compute. reflexivity. Qed.
Lemma chk_32x32_quad : idct_check false 32 32 8 8 idct_32x32_quad_sse128 = true.
Proof. vm_compute. reflexivity. Qed.
Lemma chk_8x8_avx2 : idct_check0 8 8 8 8 idct_8x8_avx2 = true.
Proof. vm_compute. reflexivity. Qed.
Lemma chk_16x16_avx2 : idct_check0 16 16 16 16 idct_16x16_avx2 = true.
Proof. vm_compute. reflexivity. Qed.
Lemma chk_32x32_avx2 : idct_check0 32 32 32 32 idct_32x32_avx2 = true.
Proof. vm_compute. reflexivity. Qed.
