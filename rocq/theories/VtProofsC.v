(** The checks of the kernels for sizes 4 to 16, SSE. *)
From Coq Require Import ZArith List Bool Lia.
From Verif Require Import VtModel VtModelA VtProofs VtProofsB.
Import ListNotations.
Open Scope Z_scope.

Lemma chk_4x4_flat : idct_check true 4 4 4 4 idct_4x4_sse128_flat = true.
Proof. vm_compute. reflexivity. Qed.
Lemma chk_4x4 : idct_check false 4 4 4 4 idct_4x4_sse128 = true.
Proof. vm_compute. reflexivity. Qed.
Lemma chk_4x16_flat : idct_check true 4 16 4 16 idct_4x16_sse128_flat = true.
Proof. vm_compute. reflexivity. Qed.
Lemma chk_4x16 : idct_check false 4 16 4 16 idct_4x16_sse128 = true.
Proof. vm_compute. reflexivity. Qed.
Lemma chk_16x4 : idct_check false 16 4 16 4 idct_16x4_sse128 = true.
Proof. vm_compute. reflexivity. Qed.
Lemma chk_8x8 : idct_check false 8 8 8 8 idct_8x8_sse128 = true.
Proof. vm_compute. reflexivity. Qed.
Lemma chk_16x16 : idct_check false 16 16 16 16 idct_16x16_sse128 = true.
Proof. vm_compute. reflexivity. Qed.
Lemma chk_16x16_half : idct_check false 16 16 8 8 idct_16x16_half_sse128 = true.
Proof. vm_compute. reflexivity. Qed.
Lemma chk_16x16_quad : idct_check false 16 16 4 4 idct_16x16_quad_sse128 = true.
Proof. vm_compute. reflexivity. Qed.
