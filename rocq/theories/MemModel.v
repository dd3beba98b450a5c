(** Sample memory as a total function from element index to value, counted loops, and
    the two-dimensional store loop used by the sample kernels. Definitions only. *)
From Coq Require Import ZArith List Bool.
Import ListNotations.
Open Scope Z_scope.

Definition mem := Z -> Z.
Definition upd (m : mem) (i v : Z) : mem := fun j => if j =? i then v else m j.

(** [for (i = 0; i < n; i++) s = f(i, s)]. *)
Fixpoint loop {S : Type} (n : nat) (f : Z -> S -> S) (s : S) : S :=
  match n with
  | O => s
  | Datatypes.S k => f (Z.of_nat k) (loop k f s)
  end.

(** [for (y..h) { for (x..w) dst[x] = val; dst += stride; }]; [val x y m] may read the
    memory as it is at that moment. *)
Definition block_write (w h : nat) (dst stride : Z) (val : Z -> Z -> mem -> Z) (m : mem) : mem :=
  loop h (fun y m => loop w (fun x m => upd m (dst + y * stride + x) (val x y m)) m) m.
