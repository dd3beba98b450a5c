(** The AVX2 predictors, evaluated. *)
From Coq Require Import ZArith List Bool.
From Verif Require Import MemModel VpModel VpModelG VpModelH VpProofsA VpProofsC.
Import ListNotations.
Open Scope Z_scope.
Lemma avx_x_ok : table_ok true avx_x = true.
Proof. vm_cast_no_check (eq_refl true). Qed.
Lemma avx_y_ok : table_ok true avx_y = true.
Proof. vm_cast_no_check (eq_refl true). Qed.
Lemma avx_xy_ok : table_ok true avx_xy = true.
Proof. vm_cast_no_check (eq_refl true). Qed.
(** Mode 13 with any 48 further rows of the table of masks. *)
Lemma avx_13_ok r : forallb (shape_ok true (k_ang_xy_13_avx_with (map r (seq 16 48))) 13) shapes = true.
Proof. vm_cast_no_check (eq_refl true). Qed.
