(** A picture through reconstruction, deblocking, offset and adaptive loop filter. *)
From Coq Require Import ZArith List Bool.
From Verif Require Import CBase MemModel SaoModel AlfModel DbModel.
Import ListNotations.
Open Scope Z_scope.

(** What offset and adaptive loop filter use of a plane: geometry, parameters by LCU, what is on the stack. *)
Record plane_par := PlanePar { k_g : geom; k_sao : Z -> Z -> option (Z * (Z -> Z)); k_alf : Z -> Z -> option (list Z); k_up : mem }.
(** The flags of the edges and, by plane, offset's temporary frame, ALF's temporary frame, the decoded frame. *)
Record work := Work { w_fl : flags; w_y : chain; w_u : chain; w_v : chain }.
Record frame_in := FrameIn { i_p : pict; i_a : lay; i_ry : Z -> Z -> Z; i_ru : Z -> Z -> Z; i_rv : Z -> Z -> Z; i_wl : Z; i_hl : Z;
                             i_ky : plane_par; i_ku : plane_par; i_kv : plane_par }.
(** decoder.cc:410-475: one LCU row reconstructed and deblocked. *)
Definition rec_row (i : frame_in) (ly : Z) (w : work) : outcome work :=
  bindo (row_step (i_p i) (i_a i) (i_ry i) (i_ru i) (i_rv i) (i_wl i) ly (w_fl w, Planes (snd (w_y w)) (snd (w_u w)) (snd (w_v w)))) (fun t =>
  Done (Work (fst t) (fst (w_y w), pl_y (snd t)) (fst (w_u w), pl_u (snd t)) (fst (w_v w), pl_v (snd t)))).
(** sao.cc:587-634 and alf.cc:491-536 for the three planes of a row. *)
Definition sao_row (i : frame_in) (ly : Z) (w : work) : work :=
  let f k := do_sao (k_g k) (k_sao k) (k_up k) ly in
  Work (w_fl w) (f (i_ky i) (w_y w)) (f (i_ku i) (w_u w)) (f (i_kv i) (w_v w)).
Definition alf_row (i : frame_in) (ly : Z) (w : work) : work :=
  let f k := do_alf (k_g k) (k_alf k) ly in
  Work (w_fl w) (f (i_ky i) (w_y w)) (f (i_ku i) (w_u w)) (f (i_kv i) (w_v w)).
(** decoder.cc:397-535 [decode_one_lcu_row], row after row (one thread), all filters on. *)
Definition frame_serial (i : frame_in) (w : work) : outcome work :=
  oloop (Z.to_nat (i_hl i)) (fun ly w => bindo (rec_row i ly w) (fun w => Done (alf_row i ly (sao_row i ly w)))) w.
(** decoder.cc:596-735 [decode_lcu_row_recon] in row order: the later filters one row behind. *)
Definition frame_delayed (i : frame_in) (w : work) : outcome work :=
  oloop (Z.to_nat (i_hl i)) (fun ly w => bindo (rec_row i ly w) (fun w =>
    Done (if negb (ly =? 0) then
      let w := sao_row i (ly - 1) w in
      let w := if ly =? i_hl i - 1 then sao_row i ly w else w in
      let w := alf_row i (ly - 1) w in
      if ly =? i_hl i - 1 then alf_row i ly w else w
    else w))) w.
