(** The syntax-element readers of aec.cc that sit on top of the arithmetic decoder:
    motion-vector differences, coefficients, sample-adaptive-offset parameters and the
    coding-unit elements; and the part of cu.cc and sao.cc that drives them. *)
From Coq Require Import ZArith List Bool.
From Verif Require Import CBase AecModel.
Import ListNotations.
Open Scope Z_scope.

(** ** Readers.
    A reader works on the decoder registers and the context array. [Some x] is a value,
    [None] the early return of the macro AEC_RETURN_ON_ERROR. [Undef] is undefined behaviour
    of the syntax layer itself: an index outside a table or context array, signed overflow,
    a negative or over-wide shift. The outcomes [Undef] and [Hang] of the arithmetic decoder
    below are the subject of C32 and C34; here they are mapped to [Fail]. *)
Definition ctxs := Z -> ctx.
Definition syn (A : Type) := aec -> ctxs -> outcome (aec * ctxs * option A).

Definition ret {A : Type} (x : A) : syn A := fun a cs => Done (a, cs, Some x).
Definition undef {A : Type} : syn A := fun _ _ => Undef.
Definition hang {A : Type} : syn A := fun _ _ => Hang.
Definition stop {A : Type} : syn A := fun a cs => Done (a, cs, None).
Definition bind {A B : Type} (m : syn A) (k : A -> syn B) : syn B := fun a cs =>
  match m a cs with
  | Done (a1, cs1, Some x) => k x a1 cs1
  | Done (a1, cs1, None) => Done (a1, cs1, None)
  | Fail => Fail
  | Undef => Undef
  | Hang => Hang
  end.
Notation "'let!' x ':=' m 'in' k" := (bind m (fun x => k)) (at level 200, x pattern, k at level 200).
(** The value returned to a caller that does not look at the error. *)
Definition catch {A : Type} (m : syn A) (r : A) : syn A := fun a cs =>
  match m a cs with Done (a1, cs1, None) => Done (a1, cs1, Some r) | o => o end.

(** An [int] result: undefined if it does not fit. *)
Definition chk (v : Z) : syn Z := if (-2147483648 <=? v) && (v <=? 2147483647) then ret v else undef.
(** A read of a constant table. *)
Definition lookup {A : Type} (t : list A) (i : Z) : syn A :=
  match get t i with Some v => ret v | None => undef end.

(** common.h:491-523 [context_set_t], flattened; the sizes are those of common.h:409-446.
    Arrays with a luma and a chroma part are taken as two arrays. *)
Record arr := { a_base : Z; a_size : Z }.
Definition A_CUTYPE := {| a_base := 0; a_size := 6 |}.
Definition A_INTRA_PU := {| a_base := 6; a_size := 1 |}.
Definition A_SPLIT := {| a_base := 7; a_size := 3 |}.
Definition A_TUSPLIT := {| a_base := 10; a_size := 3 |}.
Definition A_AMP := {| a_base := 13; a_size := 2 |}.
Definition A_REF := {| a_base := 15; a_size := 3 |}.
Definition A_CBP := {| a_base := 18; a_size := 9 |}.
Definition A_MVD (i : Z) := {| a_base := 27 + 3 * i; a_size := 3 |}.
Definition A_PUTYPE := {| a_base := 33; a_size := 15 |}.
Definition A_PUTYPE_MIN := {| a_base := 48; a_size := 2 |}.
Definition A_SUBTYPE := {| a_base := 50; a_size := 4 |}.
Definition A_WSKIP := {| a_base := 54; a_size := 3 |}.
Definition A_DQP := {| a_base := 57; a_size := 4 |}.
Definition A_IPRED := {| a_base := 61; a_size := 7 |}.
Definition A_IPRED_C := {| a_base := 68; a_size := 3 |}.
Definition A_RUN (luma : bool) (i : Z) := {| a_base := 71 + (if luma then 0 else 33) + 11 * i; a_size := 11 |}.
Definition A_LEVEL (luma : bool) := if luma then {| a_base := 137; a_size := 20 |} else {| a_base := 157; a_size := 20 |}.
Definition A_LASTCG (luma : bool) := if luma then {| a_base := 177; a_size := 6 |} else {| a_base := 183; a_size := 6 |}.
Definition A_SIGCG (luma : bool) := if luma then {| a_base := 189; a_size := 2 |} else {| a_base := 191; a_size := 1 |}.
Definition A_LASTPOS (luma : bool) := if luma then {| a_base := 192; a_size := 48 |} else {| a_base := 240; a_size := 12 |}.
Definition A_SAO_MERGE := {| a_base := 252; a_size := 3 |}.
Definition A_SAO_MODE := {| a_base := 255; a_size := 1 |}.
Definition A_SAO_OFFSET := {| a_base := 256; a_size := 2 |}.
Definition A_ALF := {| a_base := 258; a_size := 12 |}.

(** Calls of the symbol decoders; a context outside its array is an access outside the object. *)
Definition sym (r : arr) (i : Z) : syn Z := fun a cs =>
  if (0 <=? i) && (i <? a_size r) then
    match decode_symbol a (cs (a_base r + i)) with
    | Done (a1, c1, b) => Done (a1, fun k => if k =? a_base r + i then c1 else cs k, Some b)
    | _ => Fail
    end
  else Undef.
Definition byp : syn Z := fun a cs => match decode_eq_prob a with Done (a1, b) => Done (a1, cs, Some b) | _ => Fail end.
Definition fin : syn Z := fun a cs => match decode_final a with Done (a1, b) => Done (a1, cs, Some b) | _ => Fail end.
Definition cont0 (r : arr) (i max : Z) : syn Z := fun a cs =>
  if (0 <=? i) && (i <? a_size r) then
    match continue0 a (cs (a_base r + i)) max with
    | Done (a1, c1, v) => Done (a1, fun k => if k =? a_base r + i then c1 else cs k, Some v)
    | _ => Fail
    end
  else Undef.
(** [max] symbols use the contexts i .. i + min(inc, max - 1). *)
Definition ext (r : arr) (i inc max : Z) : syn Z := fun a cs =>
  if (0 <=? i) && (i + Z.min inc (max - 1) <? a_size r) then
    match continue0_ext a (fun j => cs (a_base r + i + j)) inc max with
    | Done (a1, cs1, v) => Done (a1, fun k => cs1 (k - (a_base r + i)), Some v)
    | _ => Fail
    end
  else Undef.
(** aec.h:116-123 AEC_RETURN_ON_ERROR: the flag is cleared and the function returns. *)
Definition check : syn unit := fun a cs => if err a then Done (set_err a false, cs, None) else Done (a, cs, Some tt).

(** ** Escape codes. *)

(** aec.cc:848-860, 2042-2051: the prefix; [acc] is the value accumulated, [g] the order. A
    shift of 1 by 31 or more is undefined. *)
Fixpoint esc_prefix (fuel : nat) (acc g : Z) : syn (Z * Z) :=
  match fuel with
  | O => hang
  | S f =>
      let! l := byp in
      let! _ := check in
      if l =? 0 then
        if 31 <=? g then undef else let! acc' := chk (acc + Z.shiftl 1 g) in esc_prefix f acc' (g + 1)
      else ret (acc, g)
  end.
(** aec.cc:862-867, 2053-2057: the [g] bits of the suffix, most significant first. *)
Fixpoint esc_suffix (g : nat) (bin : Z) : syn Z :=
  match g with
  | O => ret bin
  | S k => let! b := byp in esc_suffix k (Z.lor bin (Z.shiftl b (Z.of_nat k)))
  end.
Definition esc_code (start : Z) : syn Z :=
  let! (acc, g) := esc_prefix 40 start 0 in
  let! bin := esc_suffix (Z.to_nat g) 0 in
  chk (acc + bin).

(** aec.cc:832-880 [aec_read_mvd]: an error inside the escape code returns 0. *)
Definition read_mvd_gen (esc : syn Z) (i : Z) : syn Z :=
  catch (
    let! b0 := sym (A_MVD i) 0 in
    let! v :=
      if b0 =? 0 then ret 0 else
      let! b1 := sym (A_MVD i) 1 in
      if b1 =? 0 then ret 1 else
      let! b2 := sym (A_MVD i) 2 in
      if b2 =? 0 then ret 2 else
      let! add := byp in
      let! act := esc in
      let! d := chk (Z.shiftl act 1) in
      let! d := chk (d + 3) in
      chk (d + add) in
    if v =? 0 then ret 0
    else let! s := byp in if s =? 0 then ret v else chk (- v)) 0.
Definition read_mvd : Z -> syn Z := read_mvd_gen (esc_code 0).
(** aec.cc:885-889 [aec_read_mvds]. *)
Definition read_mvds : syn (Z * Z) :=
  let! x := read_mvd 0 in let! y := read_mvd 1 in ret (to_i16 x, to_i16 y).

(** ** Coefficients. *)

(** scantab.h:48-131. *)
Definition tab_scan_2x2 : list (Z * Z) := [(0,0); (1,0); (0,1); (1,1)].
Definition tab_scan_4x4 : list (Z * Z) :=
  [(0,0); (1,0); (0,1); (0,2); (1,1); (2,0); (3,0); (2,1); (1,2); (0,3); (1,3); (2,2); (3,1); (3,2); (2,3); (3,3)].
Definition tab_scan_8x8 : list (Z * Z) :=
  [(0,0); (1,0); (0,1); (0,2); (1,1); (2,0); (3,0); (2,1);
   (1,2); (0,3); (0,4); (1,3); (2,2); (3,1); (4,0); (5,0);
   (4,1); (3,2); (2,3); (1,4); (0,5); (0,6); (1,5); (2,4);
   (3,3); (4,2); (5,1); (6,0); (7,0); (6,1); (5,2); (4,3);
   (3,4); (2,5); (1,6); (0,7); (1,7); (2,6); (3,5); (4,4);
   (5,3); (6,2); (7,1); (7,2); (6,3); (5,4); (4,5); (3,6);
   (2,7); (3,7); (4,6); (5,5); (6,4); (7,3); (7,4); (6,5);
   (5,6); (4,7); (5,7); (6,6); (7,5); (7,6); (6,7); (7,7)].
Definition tab_scan_1x4 : list (Z * Z) := [(0,0); (1,0); (2,0); (3,0)].
Definition tab_scan_4x1 : list (Z * Z) := [(0,0); (0,1); (0,2); (0,3)].
Definition tab_scan_2x8 : list (Z * Z) :=
  [(0,0); (1,0); (0,1); (1,1); (2,0); (3,0); (2,1); (3,1); (4,0); (5,0); (4,1); (5,1); (6,0); (7,0); (6,1); (7,1)].
Definition tab_scan_8x2 : list (Z * Z) :=
  [(0,0); (1,0); (0,1); (0,2); (1,1); (1,2); (0,3); (0,4); (1,3); (1,4); (0,5); (0,6); (1,5); (1,6); (0,7); (1,7)].

(** common.h:247-252 split types. *)
Definition NON : Z := 0.
Definition HOR : Z := 1.
Definition VER : Z := 2.
Definition CROSS : Z := 3.

(** scantab.h:435-444; [None] is a null pointer. *)
Definition tab_scan_cg (level split : Z) : option (list (Z * Z)) :=
  match get [[Some tab_scan_2x2; None; None; Some tab_scan_2x2];
             [Some tab_scan_2x2; Some tab_scan_1x4; Some tab_scan_4x1; Some tab_scan_2x2];
             [Some tab_scan_4x4; Some tab_scan_2x8; Some tab_scan_8x2; Some tab_scan_4x4];
             [Some tab_scan_8x8; None; None; Some tab_scan_8x8]] level with
  | Some row => match get row split with Some p => p | None => None end
  | None => None
  end.

(** aec.cc:76-119. *)
Definition T_Chr : list Z := [0; 1; 2; 4; 3000].
Definition tab_rank : list Z := [0; 1; 2; 3; 3; 4].
Definition raster2ZZ_4x4 : list Z := [0; 1; 5; 6; 2; 4; 7; 12; 3; 8; 11; 13; 9; 10; 14; 15].
Definition raster2ZZ_8x8 : list Z :=
  [ 0;  1;  5;  6; 14; 15; 27; 28;
    2;  4;  7; 13; 16; 26; 29; 42;
    3;  8; 12; 17; 25; 30; 41; 43;
    9; 11; 18; 24; 31; 40; 44; 53;
   10; 19; 23; 32; 39; 45; 52; 54;
   20; 22; 33; 38; 46; 51; 55; 60;
   21; 34; 37; 47; 50; 56; 59; 61;
   35; 36; 48; 49; 57; 58; 62; 63].
Definition raster2ZZ_2x8 : list Z := [0; 1; 4; 5; 8; 9; 12; 13; 2; 3; 6; 7; 10; 11; 14; 15].
Definition raster2ZZ_8x2 : list Z := [0; 1; 2; 4; 3; 5; 6; 8; 7; 9; 10; 12; 11; 13; 14; 15].
Definition tab_scan_coeff_pos_in_cg : list Z := [0; 1; 5; 6; 2; 4; 7; 12; 3; 8; 11; 13; 9; 10; 14; 15].

(** The arguments of [cu_get_block_coeffs] (aec.cc:2165-2184) with the fields it sets in
    [runlevel_t]. [b_dc] is [is_dc_diag]. *)
Record blk := {
  b_luma : bool; b_dc : bool; b_swap : bool; b_split : Z;
  b_w : Z; b_h : Z; b_scan : list (Z * Z); b_scale : Z; b_shift : Z
}.

(** aec.cc:1722-1798 [aec_read_last_cg_pos]: index, x and y of the last group. *)
Definition read_last_cg_pos (p : blk) (num_cg : Z) : syn (Z * Z * Z) :=
  let hor := b_luma p && (b_split p =? HOR) in
  let ver := b_luma p && (b_split p =? VER) in
  let sw := b_luma p && b_dc p in
  let! (mx, my) := lookup (b_scan p) (num_cg - 1) in
  let '(mx, my) := if sw then (my, mx) else (mx, my) in
  if num_cg =? 4 then
    let! i := ext (A_LASTCG (b_luma p)) 0 2 3 in
    if hor then ret (i, i, 0) else if ver then ret (i, 0, i) else ret (i, Z.land i 1, Z.shiftr i 1)
  else
    let! bit := sym (A_LASTCG (b_luma p)) 3 in
    let! (x, y) :=
      if bit =? 0 then ret (0, 0)
      else
        let! x := cont0 (A_LASTCG (b_luma p)) 4 mx in
        if x =? 0 then
          let! y := if my =? 1 then ret 0 else cont0 (A_LASTCG (b_luma p)) 5 (my - 1) in
          ret (x, y + 1)
        else let! y := cont0 (A_LASTCG (b_luma p)) 5 my in ret (x, y) in
    let '(x, y) := if sw then (y, x) else (x, y) in
    let! i := if hor then lookup raster2ZZ_2x8 (y * 8 + x)
              else if ver then lookup raster2ZZ_8x2 (y * 2 + x)
              else if num_cg =? 16 then lookup raster2ZZ_4x4 (y * 4 + x)
              else lookup raster2ZZ_8x8 (y * 8 + x) in
    ret (i, x, y).

(** aec.cc:1802-1834 [aec_read_last_coeff_pos_in_cg]. *)
Definition read_last_coeff_pos (p : blk) (one : bool) (rank cgx cgy : Z) : syn Z :=
  let r0 := if rank =? 0 then 1 else 0 in
  let dc := if b_dc p then 1 else 0 in
  let offset :=
    if negb (b_luma p) then (if one then 0 else 4 + r0 * 4)
    else if one then 40 + dc * 4
    else if negb (cgx =? 0) && negb (cgy =? 0) then 32 + r0 * 4
    else (4 * r0 + 2 * (if (cgx =? 0) && (cgy =? 0) then 1 else 0) + dc) * 4 in
  let! xx := ext (A_LASTPOS (b_luma p)) offset 1 3 in
  let! yy := ext (A_LASTPOS (b_luma p)) (offset + 2) 1 3 in
  let '(xx, yy) := if (cgx =? 0) && (0 <? cgy) && b_dc p then (yy, xx) else (xx, yy) in
  let '(xx, yy) := if negb (rank =? 0) then (3 - xx, if b_dc p then 3 - yy else yy) else (xx, yy) in
  lookup tab_scan_coeff_pos_in_cg (yy * 4 + xx).

(** aec.cc:1838-1856 [get_abssum_of_n_last_coeffs]; the pairs, most recent first. *)
Fixpoint abssum (ps : list (Z * Z)) (n acc : Z) : Z :=
  match ps with
  | [] => acc
  | (level, run) :: t => let n := n + run in if 6 <=? n then acc else abssum t (n + 1) (acc + Z.abs level)
  end.

(** aec.cc:1868-1877, 1900-1906, 1934-1938: the context of the next run symbol; the
    counter [ctxpos] is always equal to [Run]. *)
Definition run_ctx (p : blk) (one first : bool) (pos run : Z) : syn Z :=
  if b_luma p then
    let! moddiv :=
      if negb (b_dc p) then let! xy := lookup tab_scan_4x4 (pos - 1 - run) in ret (Z.shiftr (snd xy + 1) 1)
      else ret (if pos <? run + 4 then 0 else if pos <? run + 11 then 1 else 2) in
    ret ((if first then (if pos =? run + 1 then 0 else 1 + moddiv) else 4 + moddiv) + (if one then 0 else 4))
  else
    let moddiv := if 6 + run <=? pos then 1 else 0 in
    ret ((if first then (if pos =? run + 1 then 0 else 1 + moddiv) else 3 + moddiv) + (if one then 0 else 3)).
(** aec.cc:1860-1955 [aec_read_run_luma1], [_luma2], [_chroma]. *)
Fixpoint read_run (fuel : nat) (p : blk) (r : arr) (one first : bool) (pos run : Z) : syn Z :=
  if run =? pos then ret run
  else
    match fuel with
    | O => hang
    | S f =>
        let! o := run_ctx p one first pos run in
        let! b := sym r o in
        if negb (b =? 0) then ret run else read_run f p r one first pos (run + 1)
    end.

(** aec.cc:2037-2063: one level; [esc] reads the escape code. *)
Definition read_level (esc : syn Z) (p : blk) (first : bool) (pos rank npairs : Z) : syn Z :=
  let! f := fin in
  let! lv :=
    if negb (f =? 0) then let! v := esc in chk (v + 32)
    else
      let idx := Z.min 2 (Z.shiftr (npairs + 1) 1) in
      let! v := cont0 (A_LEVEL (b_luma p))
                  ((if first && (pos <? 3) then 10 else 0) + Z.min rank (idx + 2) + Z.shiftr (5 * idx) 1) 31 in
      ret (1 + v) in
  let! _ := check in
  ret lv.

(** aec.cc:2029-2109: the run-level pairs of a group, most recent first, and the new rank. *)
Fixpoint read_pairs (fuel : nat) (esc : syn Z) (p : blk) (one first : bool) (pos rank : Z) (ps : list (Z * Z)) : syn (list (Z * Z) * Z) :=
  match fuel with
  | O => ret (ps, rank)
  | S f =>
      let! lv := read_level esc p first pos rank (Z.of_nat (length ps)) in
      let! s := chk (abssum ps 0 0 + lv) in
      let! run := if 0 <? pos then read_run 16 p (A_RUN (b_luma p) (Z.min (Z.shiftr s 1) 2)) one first pos 0 else ret 0 in
      let! _ := check in
      let ps := (to_i16 lv, to_i16 run) :: ps in
      let! t := lookup T_Chr rank in
      let! rank := if t <? lv then lookup tab_rank (Z.min 5 lv) else ret rank in
      if run =? pos then ret (ps, rank) else read_pairs f esc p one first (pos - (run + 1)) rank ps
  end.

(** aec.cc:2111-2116: the signs, in reading order. *)
Fixpoint read_signs (ps : list (Z * Z)) : syn (list (Z * Z)) :=
  match ps with
  | [] => ret []
  | (lv, run) :: t =>
      let! b := byp in
      let! u := read_signs t in
      ret ((if b =? 0 then lv else to_i16 (- lv), run) :: u)
  end.

(** aec.cc:2119-2147: the pairs, last read first, become writes (offset, value) relative to
    the block; [org] is [i_coeff * (CGy << 2) + (CGx << 2)]. *)
Definition clip16 (v : Z) : Z := if v <? -32768 then -32768 else if 32767 <? v then 32767 else v.
Fixpoint place (p : blk) (org ctr : Z) (ps : list (Z * Z)) : syn (list (Z * Z)) :=
  match ps with
  | [] => ret []
  | (lv, run) :: t =>
      if (run <? 0) || (16 <=? run) then stop
      else
        let ctr := ctr + run + 1 in
        let! (x, y) := lookup tab_scan_4x4 ctr in
        let '(x, y) := if b_swap p then (y, x) else (x, y) in
        let! v := chk (lv * b_scale p) in
        let! v := chk (v + Z.shiftl 1 (b_shift p - 1)) in
        let! u := place p org ctr t in
        ret ((org + y * b_w p + x, clip16 (Z.shiftr v (b_shift p))) :: u)
  end.

(** One non-zero group (aec.cc:2024-2153): its position after the exchange at 2124, its
    writes, and the new rank. *)
Definition group := (Z * Z * list (Z * Z))%type.
Definition read_group (esc : syn Z) (p : blk) (one first : bool) (rank cgx cgy : Z) : syn (group * Z) :=
  let! pos := read_last_coeff_pos p one rank cgx cgy in
  let! (ps, rank) := read_pairs 16 esc p one first pos rank [] in
  let! ps := read_signs (rev ps) in
  let '(cgx, cgy) := if b_swap p then (cgy, cgx) else (cgx, cgy) in
  let! ws := place p (b_w p * (4 * cgy) + 4 * cgx) (-1) (rev ps) in
  ret ((cgx, cgy, ws), rank).

(** aec.cc:1975-1999: limits, in groups, of the halved and quartered regions. *)
Definition w_half (p : blk) : Z := Z.shiftr (if b_w p =? b_h p then Z.shiftr (b_w p) 1 else if b_h p <? b_w p then Z.shiftr (b_w p) 1 else b_w p) 2.
Definition h_half (p : blk) : Z := Z.shiftr (if b_w p =? b_h p then Z.shiftr (b_h p) 1 else if b_h p <? b_w p then b_h p else Z.shiftr (b_h p) 1) 2.
Definition w_quad (p : blk) : Z := Z.shiftr (if b_w p =? b_h p then Z.shiftr (b_w p) 2 else if b_h p <? b_w p then Z.shiftr (b_w p) 2 else b_w p) 2.
Definition h_quad (p : blk) : Z := Z.shiftr (if b_w p =? b_h p then Z.shiftr (b_h p) 2 else if b_h p <? b_w p then b_h p else Z.shiftr (b_h p) 2) 2.
Definition DCT_DEFAULT : Z := 0.
Definition DCT_HALF : Z := 1.
Definition DCT_QUAD : Z := 2.
(** aec.cc:2149-2153. *)
Definition next_pattern (p : blk) (pat cgx cgy : Z) : Z :=
  if (h_half p <=? cgy) || (w_half p <=? cgx) then DCT_DEFAULT
  else if ((h_quad p <=? cgy) || (w_quad p <=? cgx)) && negb (pat =? DCT_DEFAULT) then DCT_HALF
  else pat.

(** aec.cc:2010-2156: the groups, from the last one (number [n - 1]) down to group 0. The
    result is the value returned and the groups written, also when reading stops early. *)
Fixpoint read_groups (n : nat) (esc : syn Z) (p : blk) (one : bool) (rank cgx cgy pat : Z) (out : list group) : syn (Z * list group) :=
  match n with
  | O => ret (pat, out)
  | S k =>
      let cg := Z.of_nat k in
      let first := cg =? 0 in
      let! (cgx, cgy, sig) :=
        if 0 <? rank then
          let! (x, y) := lookup (b_scan p) cg in
          let! b := sym (A_SIGCG (b_luma p)) (if b_luma p && negb (cg =? 0) then 1 else 0) in
          ret (x, y, b)
        else ret (cgx, cgy, 1) in
      if sig =? 0 then read_groups k esc p one rank cgx cgy pat out
      else
        let! r := catch (let! x := read_group esc p one first rank cgx cgy in ret (Some x)) None in
        match r with
        | None => ret (-1, out)
        | Some ((x, y, ws), rank) => read_groups k esc p one rank x y (next_pattern p pat x y) (out ++ [(x, y, ws)])
        end
  end.
(** aec.cc:1950-2160 [aec_read_run_level]. *)
Definition run_level_gen (esc : syn Z) (p : blk) : syn (Z * list group) :=
  let num_cg := Z.shiftr (b_w p * b_h p) 4 in
  let! (cg, x, y) := if 1 <? num_cg then read_last_cg_pos p num_cg else ret (0, 0, 0) in
  read_groups (Z.to_nat (cg + 1)) esc p (num_cg =? 1) 0 x y DCT_QUAD [].
Definition run_level : blk -> syn (Z * list group) := run_level_gen (esc_code 1).

(** cu.cc:218-240, 626-700: the luma blocks of a coding unit of 2^level samples; block size,
    table row. Scale and shift come from [cu_get_quant_params]. *)
Definition luma_blk (level split : Z) (dc swap : bool) (scale shift : Z) : option blk :=
  let wavelet := if (level =? 6) && negb (split =? CROSS) then 1 else 0 in
  let tl := if split =? NON then Z.min 3 (level - 2) else level - 3 - wavelet in
  let '(w, h) :=
    if split =? NON then (Z.shiftl 1 (tl + 2), Z.shiftl 1 (tl + 2))
    else
      let '(w, h) := nth (Z.to_nat split) [(8, 8); (8, 2); (2, 8); (4, 4)] (0, 0) in
      (Z.shiftr (Z.shiftl w (level - 3)) wavelet, Z.shiftr (Z.shiftl h (level - 3)) wavelet) in
  match tab_scan_cg tl split with
  | Some scan => Some {| b_luma := true; b_dc := dc; b_swap := swap; b_split := split; b_w := w; b_h := h; b_scan := scan;
                         b_scale := scale; b_shift := shift |}
  | None => None
  end.
(** cu.cc:702-727: a chroma block; [split] is the luma split type, which the reader ignores. *)
Definition chroma_blk (level split scale shift : Z) : option blk :=
  match tab_scan_cg (level - 3) NON with
  | Some scan => Some {| b_luma := false; b_dc := true; b_swap := false; b_split := split;
                         b_w := Z.shiftl 1 (level - 1); b_h := Z.shiftl 1 (level - 1); b_scan := scan;
                         b_scale := scale; b_shift := shift |}
  | None => None
  end.

(** The coefficient description of a coding unit: the per-block scan class and exchange flag
    as functions of the block number, luma and chroma quantiser. *)
Record cu_coef := {
  c_level : Z; c_split : Z; c_cbp : Z; c_dc : Z -> bool; c_swap : Z -> bool; c_400 : bool;
  c_scale : Z; c_shift : Z; c_cscale : Z -> Z; c_cshift : Z -> Z
}.
(** What [cu_read_all_coeffs] leaves behind: for every block read, its number (4, 5 for
    chroma), the value stored in [dct_pattern] and the groups written. *)
Definition block := (Z * Z * list group)%type.
Definition some_blk (o : option blk) : syn blk := match o with Some b => ret b | None => undef end.
Fixpoint split_blocks (n : nat) (c : cu_coef) (out : list block) : syn (bool * list block) :=
  match n with
  | O => ret (true, out)
  | S k =>
      let b8 := 3 - Z.of_nat k in
      if Z.testbit (c_cbp c) b8 then
        let! p := some_blk (luma_blk (c_level c) (c_split c) (c_dc c b8) (c_swap c b8) (c_scale c) (c_shift c)) in
        let! (pat, gs) := run_level p in
        let out := out ++ [(b8, to_i8 pat, gs)] in
        if to_i8 pat <? 0 then ret (false, out) else split_blocks k c out
      else split_blocks k c out
  end.
Fixpoint chroma_blocks (n : nat) (c : cu_coef) (out : list block) : syn (bool * list block) :=
  match n with
  | O => ret (true, out)
  | S k =>
      let uv := 1 - Z.of_nat k in
      if Z.testbit (c_cbp c) (uv + 4) then
        let! p := some_blk (chroma_blk (c_level c) (c_split c) (c_cscale c uv) (c_cshift c uv)) in
        let! (pat, gs) := run_level p in
        let out := out ++ [(4 + uv, to_i8 pat, gs)] in
        if to_i8 pat <? 0 then ret (false, out) else chroma_blocks k c out
      else chroma_blocks k c out
  end.
(** cu.cc:598-730 [cu_read_all_coeffs]: [true] is return code 0, [false] -1. The clearing of
    the coefficient buffers and the weighting matrices are not modelled. Note that the
    non-split luma block (643) is the only one whose result is not tested. *)
Definition read_all_coeffs (c : cu_coef) : syn (bool * list block) :=
  let! (ok, out) :=
    if c_split c =? NON then
      if negb (Z.land (c_cbp c) 15 =? 0) then
        let! p := some_blk (luma_blk (c_level c) NON (c_dc c 0) (c_swap c 0) (c_scale c) (c_shift c)) in
        let! (pat, gs) := run_level p in
        ret (true, [(0, to_i8 pat, gs)])
      else ret (true, [])
    else split_blocks 4 c [] in
  if ok then (if c_400 c then ret (true, out) else chroma_blocks 2 c out) else ret (false, out).

(** transform.cc:846: the entry of [gf_davs2.idct[part]], an array of DCT_PATTERN_NUM = 3. *)
Definition idct_entry (pat : Z) : outcome Z := if (0 <=? pat) && (pat <? 3) then Done pat else Undef.

(** ** Sample adaptive offset. *)
Definition BO : Z := 5.
(** sao.cc:50-57 [saoclip], third column: the largest code of each class. *)
Definition saoclip_max : list Z := [7; 1; 0; 1; 7; 7].
(** aec.cc:75. *)
Definition eo_offset_inv_map : list Z := [1; 0; 2; -1; 3; 4; 5; 6].

(** aec.cc:2216-2232 [read_sao_mergeflag] and 2236-2260 [aec_read_sao_mergeflag]. *)
Definition read_sao_mergeflag (lf top : bool) : syn Z :=
  let! idx :=
    match lf, top with
    | false, false => ret 0
    | true, true =>
        let! b := sym A_SAO_MERGE 1 in
        if b =? 1 then ret b else let! c := sym A_SAO_MERGE 2 in ret (b + Z.shiftl c 1)
    | _, _ => sym A_SAO_MERGE 0
    end in
  let ml := if lf then Z.land idx 1 else 0 in
  let idx := if lf then Z.shiftr idx 1 else idx in
  let mt := if top && (ml =? 0) then Z.land idx 1 else 0 in
  ret (Z.shiftl ml 1 + mt).

(** aec.cc:2264-2277 [aec_read_sao_mode]. *)
Definition read_sao_mode : syn Z :=
  let! b := sym A_SAO_MODE 0 in
  if b =? 0 then let! c := byp in ret (1 + Z.shiftl (if c =? 0 then 1 else 0) 1) else ret 0.

(** aec.cc:2292-2299: the unary code; [sym0] is the first (inverted) symbol. *)
Fixpoint sao_unary (fuel : nat) (s : bool) (cnt max : Z) : syn Z :=
  if s then
    let cnt := cnt + 1 in
    if cnt =? max then ret cnt
    else match fuel with O => hang | S f => let! b := byp in sao_unary f (b =? 0) cnt max end
  else ret cnt.
(** aec.cc:2281-2319 [read_sao_offset]. *)
Definition read_sao_offset (cls : Z) : syn Z :=
  let! max := lookup saoclip_max cls in
  let! s := if cls =? BO then sym A_SAO_OFFSET 0 else byp in
  let! cnt := sao_unary 8 (s =? 0) 0 max in
  let! v := if cls =? 0 then lookup eo_offset_inv_map cnt
            else if cls =? 4 then let! m := lookup eo_offset_inv_map cnt in ret (- m)
            else if cls =? 3 then ret (- cnt)
            else ret cnt in
  if (cls =? BO) && negb (v =? 0) then let! b := byp in if b =? 0 then ret v else ret (- v)
  else ret v.
(** aec.cc:2323-2339 [aec_read_sao_offsets]. *)
Definition read_sao_offsets (bo : bool) : syn (Z * Z * Z * Z) :=
  let! a := read_sao_offset (if bo then BO else 0) in
  let! b := read_sao_offset (if bo then BO else 1) in
  let! c := read_sao_offset (if bo then BO else 3) in
  let! d := read_sao_offset (if bo then BO else 4) in
  ret (a, b, c, d).

(** aec.cc:2389-2393: the fixed-length code, least significant bit first. *)
Fixpoint sao_fixed (n : nat) (i acc : Z) : syn Z :=
  match n with O => ret acc | S k => let! b := byp in sao_fixed k (i + 1) (acc + Z.shiftl b i) end.
(** aec.cc:2362-2378: the prefix of the band distance; value so far and suffix length. *)
Fixpoint sao_delta_prefix (fuel : nat) (acc g : Z) : syn (Z * Z) :=
  match fuel with
  | O => hang
  | S f =>
      let! t := byp in
      let! _ := check in
      let '(acc, g) := if t =? 0 then (acc + Z.shiftl 1 g, g + 1) else (acc, g) in
      if g =? 4 then ret (acc, 0) else if t =? 1 then ret (acc, g) else sao_delta_prefix f acc g
  end.
(** aec.cc:2343-2396 [read_sao_type] with act_ctx 2; an error makes it return -1. *)
Definition sao_delta : syn Z :=
  let! (acc, g) := sao_delta_prefix 4 0 1 in
  let! r := esc_suffix (Z.to_nat g) 0 in
  ret (acc + r).
(** aec.cc:2400-2415 [aec_read_sao_type]. *)
Definition read_sao_type (bo : bool) : syn Z :=
  if bo then
    let! b := sao_fixed 5 0 0 in
    let! d := catch sao_delta (-1) in
    ret (b + Z.shiftl (d + 2) 5)
  else sao_fixed 2 0 0.

(** common.h:537-543 [sao_param_t]; [s_mode] 0 is off, 2 new; [s_type] 4 is the band offset. *)
Record sao_param := { s_mode : Z; s_type : Z; s_band : Z; s_band2 : Z; s_off : list Z }.
Definition put (l : list Z) (i v : Z) : syn (list Z) := match set l i v with Some m => ret m | None => undef end.
(** sao.cc:385-436: one plane with SAO enabled; [old] is what the structure held before. *)
Definition sao_read_plane (old : sao_param) : syn sao_param :=
  let! mode := read_sao_mode in
  if mode =? 0 then ret {| s_mode := 0; s_type := s_type old; s_band := s_band old; s_band2 := s_band2 old; s_off := s_off old |}
  else
    let bo := mode =? 1 in
    let! (o0, o1, o2, o3) := read_sao_offsets bo in
    let! ty := read_sao_type bo in
    if bo then
      let db := Z.shiftr ty 5 in
      let b0 := ty - Z.shiftl db 5 in
      let b1 := Z.rem (b0 + db) 32 in
      let! l := put (repeat 0 32) b0 o0 in
      let! l := put l (Z.rem (b0 + 1) 32) o1 in
      let! l := put l b1 o2 in
      let! l := put l (Z.rem (b1 + 1) 32) o3 in
      ret {| s_mode := 2; s_type := 4; s_band := b0; s_band2 := b1; s_off := l |}
    else
      let! l := put (s_off old) 0 o0 in
      let! l := put l 1 o1 in
      let! l := put l 2 0 in
      let! l := put l 3 o2 in
      let! l := put l 4 o3 in
      ret {| s_mode := 2; s_type := ty; s_band := s_band old; s_band2 := s_band2 old; s_off := l |}.
Definition sao_plane (on : bool) (old : sao_param) : syn sao_param :=
  if on then sao_read_plane old
  else ret {| s_mode := 0; s_type := s_type old; s_band := s_band old; s_band2 := s_band2 old; s_off := s_off old |}.
Definition sao3 := (sao_param * sao_param * sao_param)%type.
(** sao.cc:100-111 [sao_init_param]. *)
Definition sao_off_param : sao_param := {| s_mode := 0; s_type := -1; s_band := -1; s_band2 := -1; s_off := repeat 0 32 |}.
(** sao.cc:355-450 [sao_read_lcu], [sao_read_lcu_param] for block number [i] of a picture [w]
    blocks wide; [infos] is [lcu_infos], [lf] and [top] the availability of the neighbours. *)
Definition sao_read_lcu (w : Z) (on : bool * bool * bool) (infos : list sao3) (i : Z) (lf top : bool) : syn sao3 :=
  let '(e0, e1, e2) := on in
  if e0 || e1 || e2 then
    let! m := read_sao_mergeflag lf top in
    if negb (m =? 0) then (if m =? 2 then lookup infos (i - 1) else lookup infos (i - w))
    else
      let! (p0, p1, p2) := lookup infos i in
      let! p0 := sao_plane e0 p0 in
      let! p1 := sao_plane e1 p1 in
      let! p2 := sao_plane e2 p2 in
      ret (p0, p1, p2)
  else ret (sao_off_param, sao_off_param, sao_off_param).
(** The blocks [i], [i + 1], ... in decoding order, each with its availability flags. *)
Fixpoint sao_read_lcus (w : Z) (on : bool * bool * bool) (infos : list sao3) (i : Z) (av : list (bool * bool)) : syn (list sao3) :=
  match av with
  | [] => ret infos
  | (lf, top) :: t =>
      let! p := sao_read_lcu w on infos i lf top in
      match set infos i p with Some infos => sao_read_lcus w on infos (i + 1) t | None => undef end
  end.

(** ** Coding-unit elements. *)

(** aec.cc:762-778 [unary_bin_max_decode]. *)
Definition unary_bin_max (r : arr) (i off max : Z) : syn Z :=
  let! b := sym r i in
  if b =? 1 then ret 0 else if max =? 1 then ret b else let! v := cont0 r (i + off) (max - 1) in ret (1 + v).
(** aec.cc:803-826 [aec_read_dmh_mode]. *)
Definition read_dmh_mode (level : Z) : syn Z :=
  let k := (level - 3) * 3 + 3 in
  let! b := sym A_PUTYPE k in
  if b =? 0 then ret 0 else
  let! b := sym A_PUTYPE (k + 1) in
  if b =? 0 then let! c := byp in ret (3 + c) else
  let! b := sym A_PUTYPE (k + 2) in
  if b =? 0 then let! c := byp in ret (7 + c) else
  let! b3 := byp in let! b4 := byp in ret (1 + Z.shiftl b3 2 + b4).
(** aec.cc:892-912 [aec_read_wpm], [aec_read_dir_skip_mode]. *)
Definition read_wpm (nref : Z) : syn Z := ext A_WSKIP 0 2 (nref - 1).
Definition read_dir_skip_mode : syn Z :=
  let! v := ext A_SUBTYPE 0 32768 3 in
  if v =? 3 then let! b := sym A_SUBTYPE 3 in ret (v + (if b =? 0 then 1 else 0)) else ret v.
(** aec.cc:914-942 [cu_set_tu_split_type]; -1 is TU_SPLIT_INVALID. *)
Definition tu_split_type : list (Z * Z) :=
  [(CROSS, CROSS); (CROSS, CROSS); (CROSS, HOR); (CROSS, VER); (CROSS, HOR); (CROSS, HOR); (CROSS, VER); (CROSS, VER);
   (NON, -1); (CROSS, CROSS); (-1, HOR); (-1, VER)].
Definition is_intra_mode (m : Z) : bool := 8 <=? m.
Definition set_tu_split (sdip nsqt : bool) (mode level : Z) (flag : bool) : syn Z :=
  let e := (if is_intra_mode mode then sdip else nsqt) && (3 <? level) in
  if flag then let! (a, b) := lookup tu_split_type mode in ret (if e then b else a) else ret NON.
(** aec.cc:948-982 [aec_read_intra_cu_type]: the type and the split. *)
Definition read_intra_cu_type (sdip : bool) (nsqt : bool) (level : Z) : syn (Z * Z) :=
  let sd := ((level =? 5) || (level =? 4)) && sdip in
  let! split := if (level =? 3) || sd then sym A_TUSPLIT (1 + if sd then 1 else 0) else ret 0 in
  let! ty := if split =? 0 then ret 8
             else if sd then let! b := sym A_INTRA_PU 0 in ret (if b =? 0 then 11 else 10)
             else ret 9 in
  let! sp := set_tu_split sdip nsqt ty level (negb (split =? 0)) in
  ret (ty, sp).
(** common.h:140-150 slice types. *)
Definition I_SLICE : Z := 0.  Definition P_SLICE : Z := 1.  Definition B_SLICE : Z := 2.
Definition G_SLICE : Z := 3.  Definition F_SLICE : Z := 4.  Definition S_SLICE : Z := 5.
(** aec.cc:1008-1027. *)
Fixpoint cu_type_bins (fuel : nat) (level bin act_ctx act_sym max : Z) : syn Z :=
  if act_sym <? max then
    match fuel with
    | O => hang
    | S f =>
        let! b := if (bin =? 5) && negb (level =? 3) then fin else sym A_CUTYPE act_ctx in
        let! _ := check in
        if b =? 0 then cu_type_bins f level (bin + 1) (Z.min 5 (act_ctx + 1)) (act_sym + 1) max else ret act_sym
    end
  else ret act_sym.
(** aec.cc:988-1068 [aec_read_cu_type]: type, weighted-skip mode, direct-skip mode; the last
    two are [None] if the structure keeps its old values. *)
Definition read_cu_type (level slice : Z) (amp mhp wsm : bool) (nref : Z) : syn (Z * option (Z * Z)) :=
  let! ty :=
    if negb (slice =? I_SLICE) then
      let! s := cu_type_bins 7 level 0 0 0 (if level =? 3 then 5 else 6) in
      let! ty := lookup (if level =? 3 then [-1; 0; 1; 2; 3; 9; 0] else [-1; 0; 1; 2; 3; -1; 9]) s in
      if (4 <=? level) && amp && ((ty =? 2) || (ty =? 3)) then
        let! b := sym A_AMP 0 in
        if b =? 0 then let! c := sym A_AMP 1 in ret (ty * 2 + (if c =? 0 then 1 else 0)) else ret ty
      else ret ty
    else ret 9 in
  if ty <=? 0 then
    let! w := if (slice =? F_SLICE) && wsm && (1 <? nref) then read_wpm nref else ret 0 in
    let! d := if (w =? 0) && ((mhp && (slice =? F_SLICE)) || (slice =? B_SLICE)) then read_dir_skip_mode else ret 0 in
    ret (ty, Some (to_i8 w, to_i8 d))
  else ret (ty, None).
(** aec.cc:1072-1098 [aec_read_cu_type_sframe]. *)
Definition read_cu_type_sframe : syn Z :=
  let! b := sym A_CUTYPE 0 in
  if negb (b =? 0) then ret (-1) else
  let! b := sym A_CUTYPE 1 in
  ret (if negb (b =? 0) then 0 else 9).
(** aec.cc:1106-1202 [aec_read_b_pdir]; types are 1 .. 7. *)
Definition dir2offset : list (list Z) := [[0; 2; 4; 9]; [3; 1; 5; 10]; [6; 7; 8; 11]; [12; 13; 14; 15]].
Definition look2 (t : list (list Z)) (i j : Z) : syn Z := let! row := lookup t i in lookup row j.
Definition read_b_pdir (ty level : Z) : syn Z :=
  if ty =? 1 then
    let! v := ext A_PUTYPE 0 32768 2 in
    if v =? 2 then let! b := sym A_PUTYPE 2 in ret (v + (if b =? 0 then 1 else 0)) else ret v
  else if (2 <=? ty) && (ty <=? 7) && (level =? 3) then
    let! b := sym A_PUTYPE_MIN 0 in
    let d0 := if b =? 0 then 1 else 0 in
    let! c := sym A_PUTYPE_MIN 1 in
    look2 dir2offset d0 (if c =? 0 then 1 - d0 else d0)
  else
    let! v := ext A_PUTYPE 3 32768 2 in
    let! d0 := if v =? 2 then let! b := sym A_PUTYPE 5 in ret (v + (if b =? 0 then 1 else 0)) else ret v in
    let! same := sym A_PUTYPE 6 in
    let! d1 := if negb (same =? 0) then ret d0
               else
                 let! b := sym A_PUTYPE (7 + 2 * d0) in
                 if negb (b =? 0) then ret (if d0 =? 0 then 1 else 0)
                 else let! c := sym A_PUTYPE (8 + 2 * d0) in
                      ret (if negb (c =? 0) then (if d0 <=? 1 then 2 else 1) else (if d0 =? 3 then 2 else 3)) in
    let! e0 := lookup [3; 1; 0; 2] d0 in
    let! e1 := lookup [3; 1; 0; 2] d1 in
    look2 dir2offset e0 e1.
(** aec.cc:1208-1247 [aec_read_pdir_dhp]. *)
Definition read_pdir_dhp (ty : Z) : syn Z :=
  if ty =? 1 then sym A_PUTYPE 0
  else
    let! d0 := sym A_PUTYPE 1 in
    let! s := sym A_PUTYPE 2 in
    look2 [[0; 1]; [2; 3]] d0 (if s =? 0 then 1 - d0 else d0).
(** aec.cc:1251-1279 [cu_set_pdir_PFframe]: the directions of the four quarters. *)
Definition set_pdir_pf (ty pdir : Z) : syn (list Z) :=
  if ty =? 1 then ret (repeat (if pdir =? 0 then 0 else 4) 4)
  else if (2 <=? ty) && (ty <=? 7) then
    let! a := lookup [0; 0; 4; 4] pdir in
    let! b := lookup [0; 4; 0; 4] pdir in
    ret [a; b; a; b]
  else ret (repeat (-1) 4).
(** aec.cc:1283-1333 [cu_set_pdir_Bframe]: directions and the two reference indices of each quarter. *)
Definition b_pdir0 : list Z := [0; 1; 0; 1; 0; 1; 2; 2; 2; 0; 1; 2; 3; 3; 3; 3].
Definition b_pdir1 : list Z := [0; 1; 1; 0; 2; 2; 0; 1; 2; 3; 3; 3; 0; 1; 2; 3].
Definition set_pdir_b (ty dskip pdir : Z) : syn (list Z * list (Z * Z)) :=
  let! l :=
    if ty =? 0 then let! d := lookup [2; 3; 1; 2; 0] dskip in ret (repeat d 4)
    else if ty =? 1 then ret (repeat pdir 4)
    else if (2 <=? ty) && (ty <=? 7) then
      let! a := lookup b_pdir0 pdir in let! b := lookup b_pdir1 pdir in ret [a; b; a; b]
    else ret (repeat (-1) 4) in
  let! r :=
    (fix go (l : list Z) : syn (list (Z * Z)) :=
       match l with
       | [] => ret []
       | d :: t => let! x := lookup [(1, -1); (-1, 0); (1, 0); (1, 0)] d in let! u := go t in ret (x :: u)
       end) l in
  ret (l, r).
(** aec.cc:1339-1360 [aec_read_ref_frame]. *)
Fixpoint ref_loop (fuel : nat) (act_sym act_ctx nref : Z) : syn Z :=
  if act_sym =? nref - 1 then ret act_sym
  else match fuel with
       | O => hang
       | S f => let! b := sym A_REF act_ctx in
                if negb (b =? 0) then ret act_sym else ref_loop f (act_sym + 1) (Z.min 2 (act_ctx + 1)) nref
       end.
Definition read_ref_frame (nref : Z) : syn Z :=
  let! b := sym A_REF 0 in
  if negb (b =? 0) then ret 0 else ref_loop (Z.to_nat nref) 1 1 nref.
(** aec.cc:1362-1396 [cu_read_references]: the indices of one prediction unit with direction [d]. *)
Definition read_reference (nref d : Z) : syn (Z * Z) :=
  let! r := if 1 <? nref then let! v := read_ref_frame nref in let! _ := check in ret (to_i8 v) else ret 0 in
  ret (r, if d =? 4 then (if r =? 0 then 1 else 0) else -1).
(** aec.cc:1440-1462 [aec_read_intra_pmode]. *)
Definition read_intra_pmode : syn Z :=
  let! b := sym A_IPRED 0 in
  if b =? 1 then let! c := sym A_IPRED 6 in ret (c - 2)
  else
    let! b4 := sym A_IPRED 1 in
    let! b3 := sym A_IPRED 2 in
    let! b2 := sym A_IPRED 3 in
    let! b1 := sym A_IPRED 4 in
    let! b0 := sym A_IPRED 5 in
    ret (Z.shiftl b4 4 + Z.shiftl b3 3 + Z.shiftl b2 2 + Z.shiftl b1 1 + b0).
(** aec.cc:1467-1490 [aec_read_cu_delta_qp] and 1658-1676 of [cu_read_cbp]: the stored value. *)
Definition read_cu_delta_qp (last : Z) : syn Z :=
  let! b := sym A_DQP (if last =? 0 then 0 else 1) in
  let! s := if 1 - b =? 0 then ret 0 else let! v := unary_bin_max A_DQP 2 1 256 in ret (v + 1) in
  let d := Z.shiftr (s + 1) 1 in
  ret (if Z.land s 1 =? 0 then - d else d).
Definition delta_qp (depth last : Z) : syn Z :=
  let! d := read_cu_delta_qp last in
  let d := to_i8 d in
  let max := 32 + 4 * (depth - 8) in
  ret (if d <? - max then - max else if max <? d then max else d).
(** aec.cc:1493-1534 [aec_read_ctp_y]: [a], [b] are the flags of the left and upper neighbour. *)
Definition read_ctp_y (a b : Z) : syn Z := sym A_CBP (a + 2 * b).
(** aec.cc:1604-1620, 1579-1594: four flags; [nb k cbp] gives the neighbour flags of block [k]
    when the pattern so far is [cbp]. *)
Definition read_ctp_4 (nb : Z -> Z -> Z * Z) (cbp : Z) : syn Z :=
  let! b := read_ctp_y (fst (nb 0 cbp)) (snd (nb 0 cbp)) in let cbp := cbp + b in
  let! b := read_ctp_y (fst (nb 1 cbp)) (snd (nb 1 cbp)) in let cbp := cbp + Z.shiftl b 1 in
  let! b := read_ctp_y (fst (nb 2 cbp)) (snd (nb 2 cbp)) in let cbp := cbp + Z.shiftl b 2 in
  let! b := read_ctp_y (fst (nb 3 cbp)) (snd (nb 3 cbp)) in ret (cbp + Z.shiftl b 3).
(** aec.cc:1540-1646 [aec_read_cbp]: the pattern and, for inter blocks, the split. *)
Definition read_cbp (ty level : Z) (c400 sdip nsqt : bool) (nb : Z -> Z -> Z * Z) : syn (Z * option Z) :=
  if negb (is_intra_mode ty) then
    let! zero := if (1 <=? ty) && (ty <=? 7) then sym A_CBP 8 else ret 0 in
    if zero =? 0 then
      let! sf := sym A_TUSPLIT 0 in
      let! sp := set_tu_split sdip nsqt ty level (negb (sf =? 0)) in
      let! cbp :=
        if c400 then ret 0
        else
          let! b := sym A_CBP 4 in
          if b =? 0 then ret 0 else
          let! b := sym A_CBP 5 in
          if negb (b =? 0) then ret 48 else let! b := sym A_CBP 5 in ret (if b =? 1 then 32 else 16) in
      let! cbp :=
        if sf =? 0 then
          if cbp =? 0 then ret 1 else let! b := read_ctp_y (fst (nb 0 cbp)) (snd (nb 0 cbp)) in ret (cbp + b)
        else read_ctp_4 nb cbp in
      ret (cbp, Some sp)
    else let! sp := set_tu_split sdip nsqt ty level true in ret (0, Some sp)
  else
    let! cbp := if ty =? 8 then read_ctp_y (fst (nb 0 0)) (snd (nb 0 0)) else read_ctp_4 nb 0 in
    let! c := if c400 then ret 0
              else
                let! b := sym A_CBP 6 in
                if b =? 0 then ret 0 else
                let! b := sym A_CBP 7 in
                if negb (b =? 0) then ret 48 else let! b := sym A_CBP 7 in ret (Z.shiftl 16 b) in
    ret (cbp + c, None).
(** aec.cc:149-153 and 1692-1718 [aec_read_intra_pmode_c]; [ctx] is [c_ipred_mode_ctx]. The
    entries are DC_PRED_C 1, HOR_PRED_C 2, VERT_PRED_C 3, BI_PRED_C 4 (defines.h:174-178). *)
Definition luma2chroma : list Z :=
  [1; -1; 4; -1; -1; -1; -1; -1; -1; -1; -1; -1; 3; -1; -1; -1; -1; -1; -1; -1; -1; -1; -1; -1;
   2; -1; -1; -1; -1; -1; -1; -1; -1].
(** The symbol [s] read is turned into the mode; [lm] is the table entry of the luma mode. *)
Definition chroma_mode (lm s : Z) : Z :=
  if (0 <=? lm) && (lm <=? s) then (if s =? 4 then 4 else s + 1) else s.
Definition read_intra_pmode_c (ctx luma_mode : Z) : syn Z :=
  let! lm := lookup luma2chroma luma_mode in
  let! b := sym A_IPRED_C ctx in
  if negb (b =? 0) then ret 0
  else
    let! v := unary_bin_max A_IPRED_C 2 0 3 in
    ret (chroma_mode lm (v + 1)).
(** aec.cc:2203-2213 [aec_read_split_flag]. *)
Definition read_split_flag (level : Z) : syn Z := sym A_SPLIT (level - 4).
(** cu.cc:323-370 [cu_read_intrapred_mode_luma] without its stores; [top], [lf] are the
    stored modes of the neighbours. *)
Definition luma_mode (top lf code : Z) : Z :=
  let m0 := Z.min top lf in
  let m1 := Z.max top lf in
  let '(m0, m1) := if m0 =? m1 then (0, if m1 =? 0 then 2 else m1) else (m0, m1) in
  let v := to_i8 (if code <? 0 then (if code + 2 =? 0 then m0 else m1)
                  else code + (if m0 <=? code then 1 else 0) + (if m1 <=? code + 1 then 1 else 0)) in
  if (v <? 0) || (33 <=? v) then to_i8 (if v <? 0 then 0 else if 32 <? v then 32 else v) else v.
Definition read_luma_mode (top lf : Z) : syn Z :=
  let! code := read_intra_pmode in
  let! _ := check in
  ret (luma_mode top lf code).
