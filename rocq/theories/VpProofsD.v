(** The SSE predictors, evaluated. *)
From Coq Require Import ZArith List Bool.
From Verif Require Import MemModel VpModel VpModelH VpProofsA VpProofsC.
Import ListNotations.
Open Scope Z_scope.
Lemma sse_x_ok : table_ok false sse_x = true.
Proof. vm_cast_no_check (eq_refl true). Qed.
Lemma sse_y_ok : table_ok false sse_y = true.
Proof. vm_cast_no_check (eq_refl true). Qed.
Lemma sse_xy_ok : table_ok false sse_xy = true.
Proof. vm_cast_no_check (eq_refl true). Qed.
