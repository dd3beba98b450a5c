(** The coding quadtree of an LCU: parsing and reconstruction order. *)
From Coq Require Import ZArith List Bool.
From Verif Require Import CBase MemModel SaoModel.
Import ListNotations.
Open Scope Z_scope.

(** cu.cc:52-61 [tab_b8xy_to_zigzag]. *)
Definition tab_b8xy_to_zigzag : list (list Z) :=
  [[ 0;  1;  4;  5; 16; 17; 20; 21]; [ 2;  3;  6;  7; 18; 19; 22; 23];
   [ 8;  9; 12; 13; 24; 25; 28; 29]; [10; 11; 14; 15; 26; 27; 30; 31];
   [32; 33; 36; 37; 48; 49; 52; 53]; [34; 35; 38; 39; 50; 51; 54; 55];
   [40; 41; 44; 45; 56; 57; 60; 61]; [42; 43; 46; 47; 58; 59; 62; 63]].
Definition zigzag (y x : Z) : outcome Z :=
  if (0 <=? y) && (y <? 8) && (0 <=? x) && (x <? 8)
  then Done (nth (Z.to_nat x) (nth (Z.to_nat y) tab_b8xy_to_zigzag []) 0) else Undef.

(** A visited coding unit: level, position in samples, place of its coefficients, and whether it was
    read without error (parsing) or is reconstructed (reconstruction). *)
Record unit_ := { v_level : Z; v_x : Z; v_y : Z; v_z : Z; v_ok : bool }.

Section Quadtree.
(** The entropy decoder and the rest of the decoder state are left open: [read_split] is
    [aec_read_split_flag], [read_cu] what [cu_read_info] does besides the fields below (false: it
    returned an error). Neither writes [i_cu_level] or [i_slice_nr] (read off cu.cc, aec.cc). *)
Variable St : Type.
Variable read_split : Z -> St -> bool * St.
Variable read_cu : Z -> Z -> Z -> St -> bool * St.

(** [s_level], [s_slice]: the members [i_cu_level] and [i_slice_nr] of [h->scu_data]; [s_log] is the
    list of units in order (not in the code). *)
Record qst := { s_level : mem; s_slice : mem; s_rest : St; s_log : list unit_ }.
(** cu.cc:296-318 [cu_read_end] for one member: first row, then whole rows; the unit is copied from
    its first entry. *)
Definition read_end (wscu level xy : Z) (m : mem) : mem :=
  let size := Z.shiftl 1 (level - 3) in
  if size <=? 1 then m
  else let v := m xy in
       let m := floop 1 size (fun i m => upd m (xy + i) v) m in
       floop 1 size (fun i m => floop 0 size (fun j m => upd m (xy + i * wscu + j) (m (xy + j))) m) m.
(** cu.cc:822-883 [cu_read_info], the parts named above: [cu_init] writes the level first; the unit is
    spread over its area only on success; cu.cc:1327-1330 marks a unit with an error. *)
Definition read_unit (wscu level x y : Z) (z : Z) (st : qst) : qst :=
  let xy := Z.shiftr y 3 * wscu + Z.shiftr x 3 in
  let lv := upd (s_level st) xy (to_i8 level) in
  let '(ok, r) := read_cu level x y (s_rest st) in
  let log := s_log st ++ [{| v_level := level; v_x := x; v_y := y; v_z := z; v_ok := ok |}] in
  if ok then {| s_level := read_end wscu level xy lv; s_slice := read_end wscu level xy (s_slice st); s_rest := r; s_log := log |}
  else {| s_level := lv; s_slice := upd (s_slice st) xy (-1); s_rest := r; s_log := log |}.
(** cu.cc:1294-1333 [decode_lcu_parse]; (sx, sy) is the position of the LCU in 8x8 units. The result of
    the recursive calls is ignored by the code. The level is a natural number; levels below 3 do not
    occur ([split_flag] is false at 3). *)
Fixpoint parse (W H wscu sx sy : Z) (level : nat) (x y : Z) (st : qst) : outcome qst :=
  let l := Z.of_nat level in
  let inside := (x + Z.shiftl 1 l <=? W) && (y + Z.shiftl 1 l <=? H) in
  let '(split, st) :=
    if (3 <? l) && inside then let '(b, r) := read_split l (s_rest st) in
      (b, {| s_level := s_level st; s_slice := s_slice st; s_rest := r; s_log := s_log st |})
    else (negb (l =? 3), st) in
  if split then
    match level with
    | O => Undef
    | S next =>
        let sub (i : Z) (st : qst) :=
          let sub_x := x + Z.shiftl (Z.land i 1) (Z.of_nat next) in
          let sub_y := y + Z.shiftl (Z.shiftr i 1) (Z.of_nat next) in
          if (sub_x <? W) && (sub_y <? H) then parse W H wscu sx sy next sub_x sub_y st else Done st in
        bindo (sub 0 st) (fun st => bindo (sub 1 st) (fun st => bindo (sub 2 st) (sub 3)))
    end
  else
    bindo (zigzag (Z.shiftr y 3 - sy) (Z.shiftr x 3 - sx)) (fun z => Done (read_unit wscu l x y z st)).
End Quadtree.
Arguments s_level {St}. Arguments s_slice {St}. Arguments s_rest {St}. Arguments s_log {St}.

(** cu.cc:1339-1376 [decode_lcu_recon]: the units visited; the slice member decides whether
    [cu_recon] runs (-1: only an error is noted). [mask] is [i_lcu_size_sub1 >> 3]. *)
Fixpoint recon (W H wscu mask : Z) (lv sl : mem) (level : nat) (x y : Z) (log : list unit_) : outcome (list unit_) :=
  let l := Z.of_nat level in
  let cu_x := Z.shiftr x 3 in let cu_y := Z.shiftr y 3 in
  if lv (cu_y * wscu + cu_x) <? l then
    match level with
    | O => Undef
    | S next =>
        let sub (i : Z) (log : list unit_) :=
          let sub_x := x + Z.shiftl (Z.land i 1) (Z.of_nat next) in
          let sub_y := y + Z.shiftl (Z.shiftr i 1) (Z.of_nat next) in
          if (sub_x <? W) && (sub_y <? H) then recon W H wscu mask lv sl next sub_x sub_y log else Done log in
        bindo (sub 0 log) (fun log => bindo (sub 1 log) (fun log => bindo (sub 2 log) (sub 3)))
    end
  else bindo (zigzag (Z.land cu_y mask) (Z.land cu_x mask)) (fun z =>
         Done (log ++ [{| v_level := l; v_x := x; v_y := y; v_z := z; v_ok := negb (sl (cu_y * wscu + cu_x) =? -1) |}])).

(** decode_lcu_init (cu.cc:1201-1203) and the picture loop of decoder.cc:404-437 and 545-574 over all
    LCUs in raster order, [n] LCUs from number [k]; [slice] is the index of the slice of each LCU
    (cu.cc:1222-1231 stores it). What else happens between the LCUs changes only [s_rest]. *)
Section Picture.
Variable St : Type.
Variable read_split : Z -> St -> bool * St.
Variable read_cu : Z -> Z -> Z -> St -> bool * St.
Variable between : Z -> St -> St.
Variable slice : Z -> Z.
Definition lcu_init (W H wscu level lx ly nr : Z) (st : qst St) : qst St :=
  let n := Z.shiftl 1 (level - 3) in
  let sx := Z.shiftl lx (level - 3) in let sy := Z.shiftl ly (level - 3) in
  let xy := sy * wscu + sx in
  let w := Z.min (Z.shiftr (W - Z.shiftl sx 3) 3) n in let h := Z.min (Z.shiftr (H - Z.shiftl sy 3) 3) n in
  {| s_level := s_level st;
     s_slice := floop 0 h (fun i m => floop 0 w (fun j m => upd m (xy + i * wscu + j) (to_i8 nr)) m) (s_slice st);
     s_rest := s_rest st; s_log := s_log st |}.
Definition parse_lcu (W H wscu : Z) (level : nat) (lx ly nr : Z) (st : qst St) : outcome (qst St) :=
  let sx := Z.shiftl lx (Z.of_nat level - 3) in let sy := Z.shiftl ly (Z.of_nat level - 3) in
  parse St read_split read_cu W H wscu sx sy level (Z.shiftl sx 3) (Z.shiftl sy 3) (lcu_init W H wscu (Z.of_nat level) lx ly nr st).
Fixpoint parse_picture (W H wscu wlcu : Z) (level : nat) (n : nat) (k : Z) (st : qst St) : outcome (qst St) :=
  match n with
  | O => Done st
  | S n =>
      bindo (parse_lcu W H wscu level (k mod wlcu) (k / wlcu) (slice k) st) (fun st =>
      parse_picture W H wscu wlcu level n (k + 1)
        {| s_level := s_level st; s_slice := s_slice st; s_rest := between k (s_rest st); s_log := s_log st |})
  end.
End Picture.
(** The reconstruction pass over the same LCUs (decoder.cc:443 and 604-631). *)
Fixpoint recon_picture (W H wscu wlcu : Z) (lv sl : mem) (level : nat) (n : nat) (k : Z) (log : list unit_) : outcome (list unit_) :=
  match n with
  | O => Done log
  | S n =>
      bindo (recon W H wscu (Z.shiftr (Z.shiftl 1 (Z.of_nat level) - 1) 3) lv sl level
               (Z.shiftl (k mod wlcu) (Z.of_nat level)) (Z.shiftl (k / wlcu) (Z.of_nat level)) log)
        (recon_picture W H wscu wlcu lv sl level n (k + 1))
  end.
