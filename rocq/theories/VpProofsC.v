(** All block shapes of a table of predictors. *)
From Coq Require Import ZArith List Bool.
From Verif Require Import MemModel IprSpec VpModel VpSpec VpProofsA.
Import ListNotations.
Open Scope Z_scope.
Definition shape_ok (avx : bool) (f : list stm) (mode : Z) (q : Z * Z) : bool :=
  check (first (fst q) (snd q)) (last avx mode (fst q) (snd q)) f mode (fst q) (snd q) (rows avx mode (snd q)).
Definition table_ok (avx : bool) (t : list (Z * list stm)) : bool :=
  forallb (fun p => forallb (fun q => if leaves avx (fst p) (fst q) (snd q) then true else shape_ok avx (snd p) (fst p) q) shapes) t.
