(** Property C52: the coding quadtree. *)
From Coq Require Import ZArith List Bool Lia.
From Verif Require Import CBase MemModel QtModel QtSpec QtProofs QtProofsB QtProofsC QtProofsD.
Import ListNotations.
Open Scope Z_scope.

(** Whatever the entropy decoder answers, the units of a picture cover it exactly once (and nothing
    else), each with a size from 8 to the LCU size and at a multiple of its size; reconstruction from
    the stored levels and slice numbers visits the same units in the same order with the same
    coefficient places, and runs exactly for the units that were read without error. *)
Theorem C52_picture : forall (St : Type) (read_split : Z -> St -> bool * St) (read_cu : Z -> Z -> Z -> St -> bool * St)
    (between : Z -> St -> St) (slice : Z -> Z) W H wscu (level : nat) wlcu hlcu st,
  sizes W H wscu level -> wlcu = (W + 2 ^ Z.of_nat level - 1) / 2 ^ Z.of_nat level -> hlcu = (H + 2 ^ Z.of_nat level - 1) / 2 ^ Z.of_nat level ->
  (forall k, to_i8 (slice k) <> -1) -> s_log st = [] ->
  let n := Z.to_nat (wlcu * hlcu) in
  exists st', parse_picture St read_split read_cu between slice W H wscu wlcu level n 0 st = Done st' /\
    covers_once (s_log st') (picture W H) /\ Forall proper_unit (s_log st') /\ Forall (fun u => v_level u <= Z.of_nat level) (s_log st') /\
    recon_picture W H wscu wlcu (s_level st') (s_slice st') level n 0 [] = Done (s_log st').
Proof. exact qt_picture. Qed.
Print Assumptions C52_picture.

(** The same for one LCU, for the order parse-reconstruct per LCU; moreover the coefficients of its
    units have disjoint places in the buffers of the LCU. *)
Theorem C52_lcu : forall (St : Type) (read_split : Z -> St -> bool * St) (read_cu : Z -> Z -> Z -> St -> bool * St) W H wscu (level : nat) lx ly nr st,
  sizes W H wscu level -> 0 <= lx -> 0 <= ly -> let n := 2 ^ Z.of_nat level in lx * n < W -> ly * n < H -> to_i8 nr <> -1 ->
  exists st' us, parse_lcu St read_split read_cu W H wscu level lx ly nr st = Done st' /\ s_log st' = s_log st ++ us /\
    covers_once us (square_in W H n (lx * n) (ly * n)) /\ Forall proper_unit us /\
    (forall log, recon W H wscu ((n - 1) / 8) (s_level st') (s_slice st') level (lx * n) (ly * n) log = Done (log ++ us)) /\
    (forall u, In u us -> 0 <= 64 * v_z u /\ 64 * v_z u + 4 ^ v_level u <= n * n /\ 0 <= 16 * v_z u /\ 16 * v_z u + 4 ^ (v_level u - 1) <= (n / 2) * (n / 2)) /\
    (forall i j u v, nth_error us i = Some u -> nth_error us j = Some v -> i <> j ->
       (64 * v_z u + 4 ^ v_level u <= 64 * v_z v \/ 64 * v_z v + 4 ^ v_level v <= 64 * v_z u) /\
       (16 * v_z u + 4 ^ (v_level u - 1) <= 16 * v_z v \/ 16 * v_z v + 4 ^ (v_level v - 1) <= 16 * v_z u)).
Proof. exact qt_lcu. Qed.
Print Assumptions C52_lcu.

(** The hypothesis on slice numbers is needed: the 256th slice of a picture is stored as the error
    mark, so its units are read without error and not reconstructed. *)
Theorem C52_slice_255_refuted : exists nr st', 0 <= nr <= 255 /\
  parse_lcu unit (fun _ s => (false, s)) (fun _ _ _ s => (true, s)) 16 16 2 4 0 0 nr {| s_level := fun _ => 0; s_slice := fun _ => 0; s_rest := tt; s_log := [] |} = Done st' /\
  s_log st' = [{| v_level := 4; v_x := 0; v_y := 0; v_z := 0; v_ok := true |}] /\
  recon 16 16 2 1 (s_level st') (s_slice st') 4 0 0 [] = Done [{| v_level := 4; v_x := 0; v_y := 0; v_z := 0; v_ok := false |}].
Proof. exact qt_slice_255. Qed.
Print Assumptions C52_slice_255_refuted.

(** A 40x24 picture with LCUs of 32: units are split on some questions
    and not on others, and some units fail; parsing and reconstruction agree. *)
Definition ex_split (_ : Z) (s : Z) : bool * Z := (s mod 2 =? 0, s + 1).
Definition ex_cu (_ _ _ : Z) (s : Z) : bool * Z := (negb (s mod 3 =? 0), s + 1).
Definition ex_end : outcome (qst Z) :=
  parse_picture Z ex_split ex_cu (fun _ s => s) (fun k => k) 40 24 5 2 5 2 0 {| s_level := fun _ => 0; s_slice := fun _ => 0; s_rest := 0; s_log := [] |}.
Example C52_case : sizes 40 24 5 5 /\
  match ex_end with
  | Done st => map v_level (s_log st) = [3; 3; 3; 3; 4; 3; 3; 3; 3; 3; 3; 3] /\ map v_ok (s_log st) = [true; true; false; true; false; true; true; false; true; true; false; true] /\
      recon_picture 40 24 5 2 (s_level st) (s_slice st) 5 2 0 [] = Done (s_log st)
  | _ => False
  end.
Proof. split; [unfold sizes; cbn; repeat split; lia|]. vm_compute. auto. Qed.
