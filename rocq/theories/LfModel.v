(** The deblocking edge filter (deblock.cc). *)
From Coq Require Import ZArith List Bool.
From Verif Require Import CBase MemModel UtilModel.
Import ListNotations.
Open Scope Z_scope.

(** deblock.cc:307-337: strength from the six samples. *)
Definition b2z (b : bool) : Z := if b then 1 else 0.
Definition lf_fs (chroma : bool) (beta L2 L1 L0 R0 R1 R2 : Z) : Z :=
  let fl := (if c_abs (L1 - L0) <? beta then 2 else 0) + b2z (c_abs (L2 - L0) <? beta) in
  let fr := (if c_abs (R0 - R1) <? beta then 2 else 0) + b2z (c_abs (R0 - R2) <? beta) in
  let same := b2z ((R1 =? R0) && (L0 =? L1)) in
  let fs :=
    if fl + fr =? 6 then 3 + same
    else if fl + fr =? 5 then 2 + same
    else if fl + fr =? 4 then 1 + b2z (fl =? 2)
    else if fl + fr =? 3 then b2z (c_abs (L1 - R1) <? beta)
    else 0 in
  fs - b2z (chroma && (0 <? fs)).

(** [(pel_t)] cast: 8 or 16 bits. *)
Definition to_pel (bits v : Z) : Z := v mod 2 ^ bits.

(** deblock.cc:295-362, one round of the loop: [src] is the first sample right of the
    edge, [inc] the distance between samples across the edge. *)
Definition lf_line (bits : Z) (chroma : bool) (inc alpha beta : Z) (flag : bool) (src : Z) (m : mem) : mem :=
  let inc2 := Z.shiftl inc 1 in
  let inc3 := inc + inc2 in
  let L2 := m (src - inc3) in
  let L1 := m (src - inc2) in
  let L0 := m (src - inc) in
  let R0 := m src in
  let R1 := m (src + inc) in
  let R2 := m (src + inc2) in
  let d := c_abs (R0 - L0) in
  let st (i v : Z) (m : mem) := upd m i (to_pel bits v) in
  if flag && (d <? alpha) && (1 <? d) then
    let fs := lf_fs chroma beta L2 L1 L0 R0 R1 R2 in
    if fs =? 4 then
      let m := st (src - inc) (Z.shiftr (L0 + Z.shiftl (L0 + L2) 3 + L2 + Z.shiftl R0 3 + Z.shiftl R2 2 + Z.shiftl R2 1 + 16) 5) m in
      let m := st (src - inc2) (Z.shiftr (Z.shiftl L0 3 - L0 + Z.shiftl L2 2 + Z.shiftl L2 1 + R0 + Z.shiftl R0 1 + 8) 4) m in
      let m := st (src - inc3) (Z.shiftr (Z.shiftl L0 2 + L2 + Z.shiftl L2 1 + R0 + 4) 3) m in
      let m := st src (Z.shiftr (R0 + Z.shiftl (R0 + R2) 3 + R2 + Z.shiftl L0 3 + Z.shiftl L2 2 + Z.shiftl L2 1 + 16) 5) m in
      let m := st (src + inc) (Z.shiftr (Z.shiftl R0 3 - R0 + Z.shiftl R2 2 + Z.shiftl R2 1 + L0 + Z.shiftl L0 1 + 8) 4) m in
      st (src + inc2) (Z.shiftr (Z.shiftl R0 2 + R2 + Z.shiftl R2 1 + L0 + 4) 3) m
    else if fs =? 3 then
      let m := st (src - inc) (Z.shiftr (L2 + Z.shiftl L1 2 + Z.shiftl L0 2 + Z.shiftl L0 1 + Z.shiftl R0 2 + R1 + 8) 4) m in
      let m := st src (Z.shiftr (L1 + Z.shiftl L0 2 + Z.shiftl R0 2 + Z.shiftl R0 1 + Z.shiftl R1 2 + R2 + 8) 4) m in
      let m := st (src - inc2) (Z.shiftr (L2 * 3 + L1 * 8 + L0 * 4 + R0 + 8) 4) m in
      st (src + inc) (Z.shiftr (R2 * 3 + R1 * 8 + R0 * 4 + L0 + 8) 4) m
    else if fs =? 2 then
      let m := st (src - inc) (Z.shiftr (Z.shiftl L1 1 + L1 + Z.shiftl L0 3 + Z.shiftl L0 1 + Z.shiftl R0 1 + R0 + 8) 4) m in
      st src (Z.shiftr (Z.shiftl L0 1 + L0 + Z.shiftl R0 3 + Z.shiftl R0 1 + Z.shiftl R1 1 + R1 + 8) 4) m
    else if fs =? 1 then
      let m := st (src - inc) (Z.shiftr (L0 * 3 + R0 + 2) 2) m in
      st src (Z.shiftr (R0 * 3 + L0 + 2) 2) m
    else m
  else m.

(** deblock.cc:283-363 [lf_edge_core]: eight lines, or four for chroma (the counter is
    stepped twice); the first flag covers the first half of the edge. *)
Definition lf_edge (bits : Z) (chroma : bool) (ptr_inc inc alpha beta : Z) (flag0 flag1 : bool) (src : Z) (m : mem) : mem :=
  loop (if chroma then 4 else 8)
    (fun k m => let pel := if chroma then 2 * k else k in
                lf_line bits chroma inc alpha beta (if pel <? 4 then flag0 else flag1) (src + k * ptr_inc) m) m.

(** deblock.cc:368-418: the two directions. *)
Definition edge_hor (bits : Z) (chroma : bool) (stride : Z) := lf_edge bits chroma 1 stride.
Definition edge_ver (bits : Z) (chroma : bool) (stride : Z) := lf_edge bits chroma stride 1.
