(** Model of source/common/bitstream.cc: start-code search and removal of the
    emulation-prevention ("pseudo start code") bits. *)
From Coq Require Import ZArith List Bool.
From Verif Require Import CBase.
Import ListNotations.
Open Scope Z_scope.

(** header.h: start code values used below (SC_SEQUENCE_HEADER 0xB0,
    SC_USER_DATA 0xB2, SC_EXTENSION 0xB5, SC_SLICE_CODE_MAX 0x8F). *)
Definition SC_SEQUENCE_HEADER : Z := 176.
Definition SC_USER_DATA : Z := 178.
Definition SC_EXTENSION : Z := 181.

(** bitstream.cc:132, BITMASK. *)
Definition BITMASK (i : Z) : Z :=
  if i =? 2 then 192 else if i =? 4 then 240 else if i =? 6 then 252 else 0.

(** Local variables of [bs_dispose_pseudo_code] (bitstream.cc:133-141) except the two
    indices. *)
Record pcs := Pcs {
  pc_found : bool;      (* b_found_start_code *)
  pc_zeros : Z;         (* leading_zeros *)
  pc_cnt : Z;           (* last_bit_count *)
  pc_disp : bool;       (* b_dispose *)
  pc_last : Z           (* last_byte *)
}.

Definition pcs_init : pcs := Pcs false 0 0 false 0.

(** bitstream.cc:147-185, the switch: new flags, [curr_bit_count] and the bytes
    written by "insert the dispose byte". *)
Definition pc_switch (s : pcs) (curr : Z) : pcs * Z * list Z :=
  if curr =? 0 then
    let s := if pc_found s
             then Pcs false (pc_zeros s) (pc_cnt s) true (pc_last s) else s in
    (Pcs (pc_found s) (pc_zeros s + 1) (pc_cnt s) (pc_disp s) (pc_last s), 8, [])
  else if curr =? 1 then
    if 2 <=? pc_zeros s then
      if negb (pc_cnt s =? 0)
      then (Pcs true 0 0 (pc_disp s) (pc_last s), 8, [0])
      else (Pcs true 0 (pc_cnt s) (pc_disp s) (pc_last s), 8, [])
    else (Pcs (pc_found s) 0 (pc_cnt s) (pc_disp s) (pc_last s), 8, [])
  else if curr =? 2 then
    let n := if pc_disp s && (pc_zeros s =? 2) then 6 else 8 in
    (Pcs (pc_found s) 0 (pc_cnt s) (pc_disp s) (pc_last s), n, [])
  else
    let s :=
      if pc_found s then
        if (curr =? SC_SEQUENCE_HEADER) || (curr =? SC_USER_DATA) || (curr =? SC_EXTENSION)
        then Pcs false (pc_zeros s) (pc_cnt s) false (pc_last s)
        else Pcs false (pc_zeros s) (pc_cnt s) true (pc_last s)
      else s in
    (Pcs (pc_found s) 0 (pc_cnt s) (pc_disp s) (pc_last s), 8, []).

(** bitstream.cc:190,199: the merged byte. *)
Definition pc_merge (last cnt curr : Z) : Z :=
  Z.lor (Z.land last (BITMASK cnt)) (Z.shiftr (Z.land curr (BITMASK (8 - cnt))) cnt).

(** bitstream.cc:145-203, one iteration of the loop on input byte [curr]: new local
    variables and the bytes written to [dst], in order. *)
Definition pc_step (s : pcs) (curr : Z) : pcs * list Z :=
  let '(s, n, ins) := pc_switch s curr in
  if n =? 8 then
    if pc_cnt s =? 0 then (s, ins ++ [curr])
    else
      (Pcs (pc_found s) (pc_zeros s) (pc_cnt s) (pc_disp s)
           (Z.land (Z.shiftl curr (8 - pc_cnt s)) (BITMASK (pc_cnt s))),
       ins ++ [pc_merge (pc_last s) (pc_cnt s) curr])
  else
    if pc_cnt s =? 0 then
      (Pcs (pc_found s) (pc_zeros s) n (pc_disp s) curr, ins)
    else
      (Pcs (pc_found s) (pc_zeros s) (pc_cnt s - 2) (pc_disp s)
           (Z.land (Z.shiftl curr (8 - pc_cnt s)) (BITMASK (pc_cnt s - 2))),
       ins ++ [pc_merge (pc_last s) (pc_cnt s) curr]).

(** bitstream.cc:206-208: bytes written after the loop. *)
Definition pc_tail (s : pcs) : list Z :=
  if negb (pc_cnt s =? 0) && negb (pc_last s =? 0) then [pc_last s] else [].

(** The whole loop, collecting the written bytes ([dst] distinct from [src]). *)
Fixpoint pc_run (s : pcs) (src : list Z) : pcs * list Z :=
  match src with
  | [] => (s, [])
  | b :: t =>
      let '(s1, w) := pc_step s b in
      let '(s2, w2) := pc_run s1 t in (s2, w ++ w2)
  end.

(** bitstream.cc:130-211 [bs_dispose_pseudo_code] into a separate buffer: the bytes of
    [dst] (the return value is their number). *)
Definition dispose (src : list Z) : list Z :=
  let '(s, w) := pc_run pcs_init src in w ++ pc_tail s.

(** Consecutive writes [dst[i_dst++] = w] with bounds check. *)
Fixpoint write_all (buf : list Z) (i_dst : Z) (w : list Z) : option (list Z * Z) :=
  match w with
  | [] => Some (buf, i_dst)
  | b :: t => match set buf i_dst b with
              | None => None
              | Some buf => write_all buf (i_dst + 1) t
              end
  end.

(** The same function called in place as in davs2.cc:147 ([dst == src]): reads and
    writes go to one buffer. [n] is the number of iterations left. *)
Fixpoint pc_run_inplace (n : nat) (s : pcs) (buf : list Z) (i_pos i_dst : Z)
  : option (pcs * list Z * Z) :=
  match n with
  | O => Some (s, buf, i_dst)
  | S n =>
      match get buf i_pos with
      | None => None
      | Some b =>
          let '(s, w) := pc_step s b in
          match write_all buf i_dst w with
          | None => None
          | Some (buf, i_dst) => pc_run_inplace n s buf (i_pos + 1) i_dst
          end
      end
  end.

(** davs2.cc:147: [len = bs_dispose_pseudo_code(data, data, len)]; [None] is an access
    outside the unit's [len] bytes. Result: buffer and new length. *)
Definition dispose_inplace (buf : list Z) : option (list Z * Z) :=
  match pc_run_inplace (length buf) pcs_init buf 0 0 with
  | None => None
  | Some (s, buf, i_dst) => write_all buf i_dst (pc_tail s)
  end.

(** Little-endian 32-bit load masked to three bytes compared with 0x00010000
    (bitstream.cc:219): bytes 00 00 01. *)
Definition is_prefix4 (data : list Z) : bool :=
  match data with
  | a :: b :: c :: d :: _ =>
      Z.land (a + 256 * b + 65536 * c + 16777216 * d) 16777215 =? 65536
  | _ => false
  end.

(** bitstream.cc:216-225 [find_start_code]: offset of the start code, [None] = NULL.
    [len] is the number of bytes of [data]; the load reads 4 bytes only while
    [len >= 4], so it stays inside [data]. *)
Fixpoint find_start_code (data : list Z) : option nat :=
  match data with
  | _ :: _ :: _ :: _ :: _ =>
      if is_prefix4 data then Some O
      else match data with
           | _ :: t => option_map S (find_start_code t)
           | [] => None
           end
  | _ => None
  end.

(** bitstream.cc:232 ISPIC. *)
Definition ispic (x : Z) : bool :=
  (x =? 176) || (x =? 177) || (x =? 179) || (x =? 182) || (x =? 183).

(** bitstream.cc:254-257, search inside the packet; [off] is [data - data0]. The fuel
    is the number of bytes: every round skips at least four. *)
Fixpoint find_pic_loop (fuel : nat) (data : list Z) (off : Z) : option Z :=
  match fuel with
  | O => None
  | S fuel =>
      match find_start_code data with
      | None => None
      | Some k =>
          if ispic (nth (k + 3) data 0) then Some (off + Z.of_nat k)
          else find_pic_loop fuel (skipn (k + 4) data) (off + Z.of_nat k + 4)
      end
  end.

(** bitstream.cc:229-262 [find_pic_start_code]. *)
Definition find_pic_start_code (prev3 prev2 prev1 : Z) (data : list Z) : Z :=
  let len := Z.of_nat (length data) in
  let d i := nth i data 0 in
  let search :=
    match find_pic_loop (S (length data)) data 0 with
    | Some p => p
    | None => len + 1
    end in
  if (1 <=? len) && (prev3 =? 0) && (prev2 =? 0) && (prev1 =? 1) then
    if ispic (d 0%nat) then -3 else search
  else if (2 <=? len) && (prev2 =? 0) && (prev1 =? 0) && (d 0%nat =? 1) then
    if ispic (d 1%nat) then -2 else search
  else if (3 <=? len) && (prev1 =? 0) && (d 0%nat =? 0) && (d 1%nat =? 1) then
    if ispic (d 2%nat) then -1 else search
  else search.
