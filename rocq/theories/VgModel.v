(** Intra prediction on a processor with vector instructions: border and predictor from the tables. *)
From Coq Require Import ZArith List Bool.
From Verif Require Import CBase MemModel NbModel IprModel EgModel VfModel VpModel VpModelH VqModel.
Import ListNotations.
Open Scope Z_scope.
Strategy 1000 [predict run].

(** Contents of uninitialised arrays: of the C functions, of the functions without direction, of
    the directional ones. *)
Record junks := Junks { u_c : mem; u_q : Z -> mem; u_p : positive -> Z -> Z }.
(** intra.cc:2633-2711 [davs2_intra_pred_init] (8-bit build): the predictor of each mode
    with SSE4 and, if [avx], with AVX2, mode 22 of which is compiled by MSVC only ([msvc]); modes missing in the tables (7, 9, 11, 15, 17, 19, 21, 27, 29)
    keep the C function.  The border may be read from [lo] to [hi] only. *)
Definition vpredict (avx msvc : bool) (lo hi : Z) (u : junks) (src : mem) (s d st mode w h : Z) (top left : bool) (dst : mem) : outcome mem :=
  if mode <=? 2 then Done ((if avx then pred_avx else pred_sse) (u_q u) src s d st mode w h top left dst)
  else match find (fun p => fst p =? mode) (if avx && (msvc || negb (mode =? 22)) then avx_table else sse_table) with
       | Some (_, f) => match predict lo hi (fun k => src (s + k)) (u_p u) f d st w h dst with Some m => Done m | None => Undef end
       | None => Done (intra_pred 8 8 (u_c u) src s d st mode w h top left dst)
       end.

(** intra.cc:2507-2531 [davs2_get_intra_pred] with these functions.  [buf_edge_pixels] has 512 entries (common.h:991) and
    starts at address [base]; 512 - 256 = 256 of them follow EP, see C101. *)
Definition vget_intra_pred (avx msvc : bool) (base : Z) (u : junks) (c : ctx) (cur mode ctu_x ctu_y bsx bsy : Z) (lcu : mem) (rt : Z)
  (fd st : Z) (buf pic : mem) : outcome (nbs * mem * mem) :=
  let ep := Z.shiftl 64 2 - 1 in
  let bx := Z.shiftr ctu_x 2 + k_ux c in
  let by_ := Z.shiftr ctu_y 2 + k_uy c in
  let p := fd + ctu_y * st + ctu_x in
  bindo (intra_neighbors (k_lv c) (k_wu c) (k_hu c) (k_wscu c) (k_sl c) bx by_ bsx bsy cur) (fun a =>
  let ptl := p - st - 1 in
  bindo (vfill_edge ctu_x ctu_y base 128 pic ptl st lcu (rt + ctu_x - ctu_y) ep a bsx bsy buf) (fun buf =>
  bindo (vpredict avx msvc (- ep) (Z.shiftl 64 3 - 1 - ep) u buf ep p st mode bsx bsy (n_top a) (n_left a) pic) (fun pic =>
  Done (a, buf, pic)))).
(** intra.cc:2537-2572 [davs2_get_intra_pred_chroma], likewise. *)
Definition vget_intra_pred_chroma (avx msvc : bool) (base : Z) (u : junks) (c : ctx) (cur level luma c_mode cx cy : Z) (lcu1 lcu2 : mem) (rt : Z)
  (fd1 fd2 st : Z) (buf pic1 pic2 : mem) : outcome (nbs * mem * (mem * mem)) :=
  let ep1 := Z.shiftl 64 1 - 1 in
  let ep2 := ep1 + Z.shiftl 64 2 in
  let n := Z.shiftl 1 (level - 1) in
  let bx := Z.shiftr (Z.shiftl cx 1) 2 + k_ux c in
  let by_ := Z.shiftr (Z.shiftl cy 1) 2 + k_uy c in
  bindo (real_mode luma c_mode) (fun mode =>
  let p1 := fd1 + cy * st + cx in
  let p2 := fd2 + cy * st + cx in
  bindo (intra_neighbors (k_lv c) (k_wu c) (k_hu c) (k_wscu c) (k_sl c) bx by_ (Z.shiftl n 1) (Z.shiftl n 1) cur) (fun a =>
  bindo (vfill_edge cx cy base 128 pic1 (p1 - st - 1) st lcu1 (rt + cx - cy) ep1 a n n buf) (fun buf =>
  bindo (vfill_edge cx cy base 128 pic2 (p2 - st - 1) st lcu2 (rt + cx - cy) ep2 a n n buf) (fun buf =>
  bindo (vpredict avx msvc (- ep1) (Z.shiftl 64 3 - 1 - ep1) u buf ep1 p1 st mode n n (n_top a) (n_left a) pic1) (fun pic1 =>
  bindo (vpredict avx msvc (- ep2) (Z.shiftl 64 3 - 1 - ep2) u buf ep2 p2 st mode n n (n_top a) (n_left a) pic2) (fun pic2 =>
  Done (a, buf, (pic1, pic2)))))))).
