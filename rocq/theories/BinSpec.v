(** The binarisation of the syntax elements, written from the side of an encoder: for every
    value the bins to be coded, each with the request it answers. Nothing here mentions a
    reader; the only thing taken from [SynModel] is the numbering of the contexts. *)
From Coq Require Import ZArith List Bool.
From Verif Require Import CBase AecModel AecSpec SynModel.
Import ListNotations.
Open Scope Z_scope.

Definition bin := (req * Z)%type.
Definition at_ctx (r : arr) (i b : Z) : bin := (Sym (a_base r + i), b).
Definition equi (b : Z) : bin := (Bypass, b).
Definition flag (c : bool) : Z := if c then 1 else 0.

(** ** Codes. *)

(** [v] zeros and a one; the one is left out of the largest value. [c j] is bin number [j]. *)
Definition unary (c : Z -> Z -> bin) (v max : Z) : list bin :=
  map (fun j => c (Z.of_nat j) 0) (seq 0 (Z.to_nat v)) ++ (if v <? max then [c v 1] else []).
(** [n] binary digits, most significant first; least significant first. *)
Definition digits (n : nat) (v : Z) : list Z := map (fun j => v / 2 ^ Z.of_nat j mod 2) (rev (seq 0 n)).
Definition digits_lsb (n : nat) (v : Z) : list Z := map (fun j => v / 2 ^ Z.of_nat j mod 2) (seq 0 n).
(** The Exp-Golomb code of order 0: n + 1 in binary, behind as many zeros as it has digits but one. *)
Definition eg0 (n : Z) : list bin :=
  let k := Z.to_nat (Z.log2 (n + 1)) in map equi (repeat 0 k ++ digits (S k) (n + 1)).

(** ** Motion vector differences. *)
Definition mvd_bins (i v : Z) : list bin :=
  let m := Z.abs v in
  unary (fun j b => at_ctx (A_MVD i) j (1 - b)) (Z.min m 3) 3 ++
  (if m <? 3 then [] else equi ((m - 3) mod 2) :: eg0 ((m - 3) / 2)) ++
  (if m =? 0 then [] else [equi (flag (v <? 0))]).

(** ** Quantiser steps: 0, 1, -1, 2, -2, ... in unary. *)
Definition dqp_code (d : Z) : Z := if 0 <? d then 2 * d - 1 else -2 * d.
Definition dqp_bins (last d : Z) : list bin :=
  unary (fun j => at_ctx A_DQP (if j =? 0 then flag (negb (last =? 0)) else Z.min (j + 1) 3)) (dqp_code d) 257.

(** ** Intra modes. *)

(** The two predicted modes of a luma block, in order. *)
Definition predicted (top lf : Z) : Z * Z :=
  if top =? lf then (0, if top =? 0 then 2 else top) else (Z.min top lf, Z.max top lf).
Definition luma_bins (top lf m : Z) : list bin :=
  let '(p0, p1) := predicted top lf in
  if m =? p0 then [at_ctx A_IPRED 0 1; at_ctx A_IPRED 6 0]
  else if m =? p1 then [at_ctx A_IPRED 0 1; at_ctx A_IPRED 6 1]
  else at_ctx A_IPRED 0 0 ::
       map (fun x => at_ctx A_IPRED (fst x) (snd x)) (combine [1; 2; 3; 4; 5] (digits 5 (m - flag (p0 <? m) - flag (p1 <? m)))).
(** Chroma: mode 0 repeats luma; of the others the one equal to luma ([same], -1 if there is
    none) is left out of the numbering. *)
Definition chroma_bins (ctx same m : Z) : list bin :=
  if m =? 0 then [at_ctx A_IPRED_C ctx 1]
  else at_ctx A_IPRED_C ctx 0 :: unary (fun _ => at_ctx A_IPRED_C 2) (m - 1 - flag ((0 <=? same) && (same <? m))) 3.

(** ** Types of coding units. *)
Definition wpm_bins (nref w : Z) : list bin := unary (fun j => at_ctx A_WSKIP (Z.min j 2)) w (nref - 1).
Definition dir_skip_bins (d : Z) : list bin := unary (fun j => at_ctx A_SUBTYPE j) d 4.
(** The number of the type in the order of the code: -1, 0, 1, then 2, 4, 5 and 3, 6, 7, then
    intra; units larger than 8x8 leave number 5 out. *)
Definition type_number (level ty : Z) : Z :=
  if ty <=? 1 then ty + 1 else if 8 <=? ty then (if level =? 3 then 5 else 6)
  else if (ty =? 2) || (ty =? 4) || (ty =? 5) then 3 else 4.
Definition type_bins (level : Z) (amp : bool) (ty : Z) : list bin :=
  unary (fun j b => if (j =? 5) && negb (level =? 3) then (Final, b) else at_ctx A_CUTYPE j b) (type_number level ty) (if level =? 3 then 5 else 6) ++
  (if amp && negb (level =? 3) && (2 <=? ty) && (ty <=? 7)
   then (if ty <=? 3 then [at_ctx A_AMP 0 1] else [at_ctx A_AMP 0 0; at_ctx A_AMP 1 (1 - ty mod 2)]) else []).
(** A skipped unit (types -1 and 0) in the F and B pictures adds its skip modes. *)
Definition skip_bins (slice : Z) (mhp wsm : bool) (nref w d : Z) : list bin :=
  (if (slice =? F_SLICE) && wsm && (1 <? nref) then wpm_bins nref w else []) ++
  (if (w =? 0) && ((mhp && (slice =? F_SLICE)) || (slice =? B_SLICE)) then dir_skip_bins d else []).

(** ** Directions of a B unit in two parts: 0 forward, 1 backward, 2 symmetric, 3 bidirectional. *)

(** The order in which directions are numbered in the code. *)
Definition dir_number (d : Z) : Z := nth (Z.to_nat d) [2; 1; 3; 0] 0.
Definition one_dir_bins (r : Z) (n : Z) : list bin := unary (fun j => at_ctx A_PUTYPE (r + j)) n 3.
Definition two_dir_bins (d e : Z) : list bin :=
  let m := dir_number d in
  let n := dir_number e in
  one_dir_bins 3 m ++
  (if n =? m then [at_ctx A_PUTYPE 6 1]
   else at_ctx A_PUTYPE 6 0 ::
        (** the other three, in order *)
        unary (fun j => at_ctx A_PUTYPE (7 + 2 * m + j)) (n - flag (m <? n)) 2).
(** In units of 8x8 only forward and backward. *)
Definition two_dir_min_bins (d e : Z) : list bin := [at_ctx A_PUTYPE_MIN 0 (1 - d); at_ctx A_PUTYPE_MIN 1 (flag (d =? e))].
Definition pdir_bins (ty level d e : Z) : list bin :=
  if ty =? 1 then one_dir_bins 0 d else if level =? 3 then two_dir_min_bins d e else two_dir_bins d e.
(** The reference indices of a B unit: forward is reference 1, backward reference 0. *)
Definition dir_refs (d : Z) : Z * Z := (if d =? 1 then -1 else 1, if d =? 0 then -1 else 0).
(** F pictures with two hypotheses; directions are 0 (forward) and 4 (dual forward). *)
Definition dhp_bins (ty d e : Z) : list bin :=
  if ty =? 1 then [at_ctx A_PUTYPE 0 (flag (d =? 4))]
  else [at_ctx A_PUTYPE 1 (flag (d =? 4)); at_ctx A_PUTYPE 2 (flag (d =? e))].
(** References. *)
Definition ref_bins (nref r : Z) : list bin := unary (fun j => at_ctx A_REF (Z.min j 2)) r (nref - 1).
(** Directional multi-hypothesis modes 0 .. 8. *)
Definition dmh_bins (level m : Z) : list bin :=
  let c := at_ctx A_PUTYPE in
  let k := 3 * (level - 2) in
  match m with
  | 0 => [c k 0]
  | 3 => [c k 1; c (k + 1) 0; equi 0]
  | 4 => [c k 1; c (k + 1) 0; equi 1]
  | 7 => [c k 1; c (k + 1) 1; c (k + 2) 0; equi 0]
  | 8 => [c k 1; c (k + 1) 1; c (k + 2) 0; equi 1]
  | 1 => [c k 1; c (k + 1) 1; c (k + 2) 1; equi 0; equi 0]
  | 2 => [c k 1; c (k + 1) 1; c (k + 2) 1; equi 0; equi 1]
  | 5 => [c k 1; c (k + 1) 1; c (k + 2) 1; equi 1; equi 0]
  | _ => [c k 1; c (k + 1) 1; c (k + 2) 1; equi 1; equi 1]
  end.

(** ** Coded-block patterns. [y] and [c] are the luma and chroma parts. *)
Definition luma_flags (nb : Z -> Z -> Z * Z) (base y : Z) : list bin :=
  map (fun k => let low := base + y mod 2 ^ k in at_ctx A_CBP (fst (nb k low) + 2 * snd (nb k low)) (y / 2 ^ k mod 2)) [0; 1; 2; 3].
Definition chroma_flags (k c : Z) : list bin :=
  match c with
  | 0 => [at_ctx A_CBP k 0]
  | 3 => [at_ctx A_CBP k 1; at_ctx A_CBP (k + 1) 1]
  | 1 => [at_ctx A_CBP k 1; at_ctx A_CBP (k + 1) 0; at_ctx A_CBP (k + 1) 0]
  | _ => [at_ctx A_CBP k 1; at_ctx A_CBP (k + 1) 0; at_ctx A_CBP (k + 1) 1]
  end.
(** Intra units: one flag for an undivided luma block. *)
Definition intra_cbp_bins (ty : Z) (c400 : bool) (nb : Z -> Z -> Z * Z) (y c : Z) : list bin :=
  (if ty =? 8 then [at_ctx A_CBP (fst (nb 0 0) + 2 * snd (nb 0 0)) y] else luma_flags nb 0 y) ++ (if c400 then [] else chroma_flags 6 c).
(** Inter units: whether there is anything, whether the transform is divided, chroma, luma. An
    undivided unit without chroma needs no luma flag; skipped units (type 0) cannot be empty. *)
Definition inter_cbp_bins (ty : Z) (c400 : bool) (nb : Z -> Z -> Z * Z) (div : bool) (y c : Z) : list bin :=
  if (y =? 0) && (c =? 0) && negb (ty =? 0) && negb div then [at_ctx A_CBP 8 1]
  else
    (if ty =? 0 then [] else [at_ctx A_CBP 8 0]) ++ [at_ctx A_TUSPLIT 0 (flag div)] ++
    (if c400 then [] else chroma_flags 4 c) ++
    (if div then luma_flags nb (16 * c) y
     else if c =? 0 then [] else [at_ctx A_CBP (fst (nb 0 (16 * c)) + 2 * snd (nb 0 (16 * c))) y]).

(** ** Sample adaptive offset. *)

(** Merging: 0 none, 1 with the block above, 2 with the block on the left. *)
Definition merge_bins (lf top : bool) (m : Z) : list bin :=
  match lf, top with
  | false, false => []
  | true, false => [at_ctx A_SAO_MERGE 0 (flag (m =? 2))]
  | false, true => [at_ctx A_SAO_MERGE 0 (flag (m =? 1))]
  | true, true => if m =? 2 then [at_ctx A_SAO_MERGE 1 1] else [at_ctx A_SAO_MERGE 1 0; at_ctx A_SAO_MERGE 2 (flag (m =? 1))]
  end.
(** Mode 0 off, 1 band, 3 edge. *)
Definition sao_mode_bins (m : Z) : list bin :=
  if m =? 0 then [at_ctx A_SAO_MODE 0 1] else [at_ctx A_SAO_MODE 0 0; equi (flag (m =? 1))].
(** A band offset in -7 .. 7: magnitude, then sign. *)
Definition band_offset_bins (v : Z) : list bin :=
  unary (fun j => if j =? 0 then at_ctx A_SAO_OFFSET 0 else equi) (Z.abs v) 7 ++ (if v =? 0 then [] else [equi (flag (v <? 0))]).
(** An edge offset. The outer classes (0 and 4) range over -1 .. 6, up to sign, in the order
    1, 0, 2, -1, 3, 4, 5, 6; the inner ones (1 and 3) over 0, 1, up to sign. *)
Definition edge_number (v : Z) : Z := nth (Z.to_nat (v + 1)) [3; 1; 0; 2; 4; 5; 6; 7] 0.
Definition edge_offset_bins (cls v : Z) : list bin :=
  match cls with
  | 0 => unary (fun _ => equi) (edge_number v) 7
  | 1 => unary (fun _ => equi) v 1
  | 3 => unary (fun _ => equi) (- v) 1
  | _ => unary (fun _ => equi) (edge_number (- v)) 7
  end.
(** The distance of the second band from the first, 2 .. 16: an Exp-Golomb code of order 1
    whose longest prefix has no terminating one and no suffix. *)
Definition distance_bins (d : Z) : list bin :=
  let v := d - 2 in
  if v <? 2 then map equi (1 :: digits 1 v)
  else if v <? 6 then map equi ([0; 1] ++ digits 2 (v - 2))
  else if v <? 14 then map equi ([0; 0; 1] ++ digits 3 (v - 6))
  else map equi [0; 0; 0].
(** What a plane of a block can be told: nothing; bands with offsets; an edge class with offsets. *)
Inductive sao_choice :=
| SaoOff
| SaoBand (b1 d : Z) (o : Z * Z * Z * Z)
| SaoEdge (cls : Z) (o : Z * Z * Z * Z).
Definition sao_plane_bins (c : sao_choice) : list bin :=
  match c with
  | SaoOff => sao_mode_bins 0
  | SaoBand b d (o0, o1, o2, o3) =>
      sao_mode_bins 1 ++ band_offset_bins o0 ++ band_offset_bins o1 ++ band_offset_bins o2 ++ band_offset_bins o3 ++
      map equi (digits_lsb 5 b) ++ distance_bins d
  | SaoEdge k (o0, o1, o2, o3) =>
      sao_mode_bins 3 ++ edge_offset_bins 0 o0 ++ edge_offset_bins 1 o1 ++ edge_offset_bins 3 o2 ++ edge_offset_bins 4 o3 ++
      map equi (digits_lsb 2 k)
  end.

(** ** What it means to read a binarised value.
    In whatever state of a slice: if the next bins are those of [l], and there are enough bits
    for them, the reader returns [v], and registers and contexts are afterwards as if the bins
    had been decoded one by one. Context arrays count up to their entries. *)
Definition slice_state (a : aec) (cs : ctxs) : Prop :=
  exists data pos n ob w a0 rs bs, bytes_ok data /\ 0 <= pos /\ pos + 2 <= n /\ n <= Z.of_nat (length data) /\
    start_decoding data pos n ob w = Done a0 /\ decodes rs a0 (fun _ => ctx_init) = Done (a, cs, bs) /\ err a = false.
Definition read_as {A : Type} (m : syn A) (l : list bin) (v : A) : Prop :=
  forall a cs cs' a1 cs1, slice_state a cs -> (forall j, cs' j = cs j) -> decodes (map fst l) a cs = Done (a1, cs1, map snd l) -> err a1 = false ->
  exists cs2, m a cs' = Done (a1, cs2, Some v) /\ forall j, cs2 j = cs1 j.

(** What a choice for a plane means, [p] being what is stored and [old] what was there: the
    offsets of the two pairs of bands, or the offsets of the edge classes, in place. *)
Definition sao_choice_ok (c : sao_choice) : Prop :=
  match c with
  | SaoOff => True
  | SaoBand b d (o0, o1, o2, o3) => 0 <= b <= 31 /\ 2 <= d <= 16 /\ -7 <= o0 <= 7 /\ -7 <= o1 <= 7 /\ -7 <= o2 <= 7 /\ -7 <= o3 <= 7
  | SaoEdge k (o0, o1, o2, o3) => 0 <= k <= 3 /\ -1 <= o0 <= 6 /\ 0 <= o1 <= 1 /\ -1 <= o2 <= 0 /\ -6 <= o3 <= 1
  end.
Definition sao_stored (old : sao_param) (c : sao_choice) (p : sao_param) : Prop :=
  match c with
  | SaoOff => s_mode p = 0 /\ s_off p = s_off old
  | SaoBand b d (o0, o1, o2, o3) =>
      s_mode p = 2 /\ s_type p = 4 /\ length (s_off p) = 32%nat /\
      forall i, 0 <= i < 32 -> get (s_off p) i =
        Some (if i =? b then o0 else if i =? (b + 1) mod 32 then o1 else if i =? (b + d) mod 32 then o2 else if i =? (b + d + 1) mod 32 then o3 else 0)
  | SaoEdge k (o0, o1, o2, o3) =>
      s_mode p = 2 /\ s_type p = k /\ length (s_off p) = length (s_off old) /\
      get (s_off p) 0 = Some o0 /\ get (s_off p) 1 = Some o1 /\ get (s_off p) 2 = Some 0 /\ get (s_off p) 3 = Some o2 /\ get (s_off p) 4 = Some o3
  end.
