(** What the program's packets and its output file should be, without its loops. *)
From Coq Require Import ZArith List Bool.
From Verif Require Import ApModel.
Import ListNotations.
Open Scope Z_scope.

(** The byte sequence begins with the start code prefix. *)
Definition prefixed (d : list Z) : Prop := exists t, d = 0 :: 0 :: 1 :: t.
(** A whole start code, prefix and value, stands at byte [i] of the file. *)
Definition code_at (file : list Z) (i : nat) : Prop := exists v t, skipn i file = 0 :: 0 :: 1 :: v :: t.
(** The file cut into pieces as a reader of start codes cuts it: every piece but the first begins with a start code, every piece but the
    last has four bytes at least, and no start code begins inside a piece behind its first four bytes. *)
Definition offset (pieces : list (list Z)) (j : nat) : nat := length (concat (firstn j pieces)).
Definition cut (file : list Z) (pieces : list (list Z)) : Prop :=
  concat pieces = file /\
  (forall j, (j < length pieces)%nat -> nth j pieces [] <> []) /\
  (forall j, (S j < length pieces)%nat -> (4 <= length (nth j pieces []))%nat) /\
  (forall j, (0 < j < length pieces)%nat -> code_at file (offset pieces j)) /\
  (forall j i, (j < length pieces)%nat -> (4 <= i < length (nth j pieces []))%nat -> ~ code_at file (offset pieces j + i)).

(** A unit of a stream: value of the start code, payload.  In a proper stream no prefix begins in a payload, even if another unit
    follows. *)
Definition unit_bytes (u : Z * list Z) : list Z := 0 :: 0 :: 1 :: fst u :: snd u.
Definition clean (payload : list Z) : Prop := forall i, (i < length payload)%nat -> ~ prefixed (skipn i (payload ++ [0; 0; 1])).
Definition stream (us : list (Z * list Z)) : list Z := concat (map unit_bytes us).
Definition proper (us : list (Z * list Z)) : Prop := Forall (fun u => clean (snd u)) us.
(** Pictures: start codes B3 and B6. *)
Definition pictures (us : list (Z * list Z)) : Z := Z.of_nat (length (filter (fun u => (fst u =? 179) || (fst u =? 182)) us)).

(** The numbers below [n]. *)
Definition below (n : Z) : list Z := map Z.of_nat (seq 0 (Z.to_nat n)).
(** The bytes of a plane in the order of a raw video file: lines from the top, samples from the left, bytes as in memory. *)
Definition raster (mem : Z -> Z) (base w h stride bytes : Z) : list Z :=
  flat_map (fun y => flat_map (fun x => map (fun b => mem (base + y * stride + x * bytes + b)) (below bytes)) (below w)) (below h).
(** What a reader of digits makes of a text. *)
Fixpoint decimal (acc : Z) (l : list Z) : Z := match l with [] => acc | c :: l => decimal (acc * 10 + (c - 48)) l end.

(** The bytes of a plane and of a picture (one plane or three), and how many they are. *)
Definition plane_bytes (p : plane) (bytes : Z) : list Z := raster (pl_mem p) (pl_at p) (pl_w p) (pl_h p) (pl_stride p) bytes.
Definition picture_bytes (pic : picture) : list Z :=
  plane_bytes (pc_y pic) (pc_bytes pic) ++
  if pc_num pic =? 3 then plane_bytes (pc_u pic) (pc_bytes pic) ++ plane_bytes (pc_v pic) (pc_bytes pic) else [].
Definition samples (p : plane) : Z := pl_w p * pl_h p.
Definition picture_size (pic : picture) : Z :=
  pc_bytes pic * (samples (pc_y pic) + if pc_num pic =? 3 then samples (pc_u pic) + samples (pc_v pic) else 0).
Definition total (l : list picture) : Z := fold_right (fun p s => picture_size p + s) 0 l.
Definition good_plane (p : plane) : Prop := 0 <= pl_w p /\ 0 <= pl_h p.
Definition good_picture (pic : picture) : Prop := 0 <= pc_bytes pic /\ good_plane (pc_y pic) /\ good_plane (pc_u pic) /\ good_plane (pc_v pic).
(** What the decoder returned: its pictures; the program knows the rates of all its headers. *)
Definition frames (l : list event) : list picture := flat_map (fun e => match e with GotFrame _ p => [p] | GotHeader _ => [] end) l.
Definition good_rates (l : list event) : Prop := Forall (fun e => match e with GotHeader h => 0 <= hd_rate_id h < 9 | _ => True end) l.
(** A line of text as YUV4MPEG2 wants it: width, height, rate, progressive, 4:2:0 with the depth if that is not 8. *)
Definition number (t : list Z) (n : Z) : Prop := decimal 0 t = n /\ t <> [] /\ Forall (fun c => 48 <= c <= 57) t.
Definition y4m_line (t : list Z) (w h num den depth : Z) : Prop := exists a b c d e, 
  t = [89; 85; 86; 52; 77; 80; 69; 71; 50; 32; 87] ++ a ++ [32; 72] ++ b ++ [32; 70] ++ c ++ [58] ++ d ++ [32; 73; 112; 32; 67; 52; 50; 48] ++ e ++ [10] /\
  number a w /\ number b h /\ number c num /\ number d den /\ (depth = 8 /\ e = [] \/ depth <> 8 /\ exists f, e = 112 :: f /\ number f depth).
(** Frames per second of the codes 1 to 8 as a fraction. *)
Definition rate_of (id num den : Z) : Prop :=
  id = 1 /\ (num, den) = (24000, 1001) \/ id = 2 /\ (num, den) = (24, 1) \/ id = 3 /\ (num, den) = (25, 1) \/ id = 4 /\ (num, den) = (30000, 1001) \/
  id = 5 /\ (num, den) = (30, 1) \/ id = 6 /\ (num, den) = (50, 1) \/ id = 7 /\ (num, den) = (60000, 1001) \/ id = 8 /\ (num, den) = (60, 1).
