(** The command-line program: packets, counting, output file.  Definitions only. *)
From Coq Require Import ZArith List Bool.
From Verif Require Import CBase.
Import ListNotations.
Open Scope Z_scope.

(** A pointer into the input buffer is the list of bytes from there to the end of the file; behind the file the
    buffer holds zeros (calloc, inputstream.h:132). *)
Definition at_prefix (d : list Z) : bool := (nth 0 d 0 =? 0) && (nth 1 d 0 =? 0) && (nth 2 d 0 =? 1).
(** test/inputstream.h:51-61 [find_start_code]: [k] positions left to look at, which is [len - 3]; the result is
    the distance from [data]. *)
Fixpoint look (k : nat) (d : list Z) : option nat :=
  match k with
  | O => None
  | S k => if at_prefix d then Some O else match look k (tl d) with Some i => Some (S i) | None => None end
  end.
Definition find_start_code (d : list Z) (len : Z) : option nat := look (Z.to_nat (len - 3)) d.

(** A packet as given to [davs2_decoder_send_packet]. *)
Record packet := Packet { k_bytes : list Z; k_pts : Z; k_dts : Z }.
(** test/test.c:212-258, the loop of [test_decoder] that sends the packets; [error i] says whether the
    decoder refuses the [i]-th.  Running out of fuel is no outcome of the program. *)
Fixpoint send_loop (fuel : nat) (error : Z -> bool) (d : list Z) (len dts : Z) : outcome (list packet) :=
  match fuel with
  | O => Hang
  | S fuel =>
    let l := match find_start_code (skipn 4 d) (len - 4) with Some i => Z.of_nat (i + 4) | None => len end in
    let p := Packet (firstn (Z.to_nat l) d) dts (- dts) in
    if error dts then Done [p]
    else if len - l =? 0 then Done [p]
    else bindo (send_loop fuel error (skipn (Z.to_nat l) d) (len - l) (dts + 1)) (fun r => Done (p :: r))
  end.
Definition sent (error : Z -> bool) (file : list Z) : outcome (list packet) := send_loop (length file) error file (Z.of_nat (length file)) 0.

(** test/inputstream.h:46-47 [ISPIC], [ISUNIT]. *)
Definition is_pic (x : Z) : bool := (x =? 179) || (x =? 182).
Definition is_unit (x : Z) : bool := (x =? 176) || (x =? 177) || (x =? 183) || is_pic x.
(** test/inputstream.h:65-78 [check_frame]. *)
Fixpoint check_loop (fuel : nat) (d : list Z) (len done len0 : Z) : outcome Z :=
  match fuel with
  | O => Hang
  | S fuel =>
    match find_start_code d len with
    | None => Done (len0 + 1)
    | Some i => if is_unit (nth (i + 3) d 0) then Done (done + Z.of_nat i)
                else check_loop fuel (skipn (i + 4) d) (len - Z.of_nat (i + 4)) (done + Z.of_nat (i + 4)) len0
    end
  end.
Definition check_frame (d : list Z) (len : Z) : outcome Z := check_loop (S (length d)) d len 0 len.
(** test/inputstream.h:82-94 [find_one_frame], -1 as [None]. *)
Definition find_one_frame (d : list Z) (len : Z) : outcome (option (Z * Z)) :=
  bindo (check_frame d len) (fun start =>
  if len <? start then Done None else
  bindo (check_frame (skipn (Z.to_nat (start + 4)) d) (len - start - 4)) (fun e =>
  Done (Some (start, if e <=? len then e + start + 4 else e)))).
(** test/inputstream.h:98-118 [count_frames]. *)
Fixpoint count_loop (fuel : nat) (d : list Z) (size count : Z) : outcome Z :=
  match fuel with
  | O => Hang
  | S fuel =>
    bindo (find_one_frame d size) (fun r =>
    match r with
    | None => Done count
    | Some (start, e) =>
      let count := if is_pic (nth (Z.to_nat (start + 3)) d 0) then count + 1 else count in
      count_loop fuel (skipn (Z.to_nat e) d) (size - e) count
    end)
  end.
Definition count_frames (file : list Z) : outcome Z := count_loop (S (S (length file))) file (Z.of_nat (length file)) 0.

(** [davs2_picture_t], what the program uses of it: memory, place, size in samples, bytes per line. *)
Record plane := Plane { pl_mem : Z -> Z; pl_at : Z; pl_w : Z; pl_h : Z; pl_stride : Z }.
Record picture := Picture { pc_bytes : Z; pc_num : Z; pc_y : plane; pc_u : plane; pc_v : plane }.
Definition upto (n : Z) : list Z := map Z.of_nat (seq 0 (Z.to_nat n)).
(** test/utils.h:149-160 [write_frame_plane]; the output file is the list of its bytes. *)
Fixpoint plane_loop (n : nat) (f : Z -> Z) (p size_line stride : Z) (out : list Z) : list Z :=
  match n with O => out | S n => plane_loop n f (p + stride) size_line stride (out ++ map (fun j => f (p + j)) (upto size_line)) end.
Definition write_frame_plane (p : plane) (bytes : Z) (out : list Z) : list Z :=
  plane_loop (Z.to_nat (pl_h p)) (pl_mem p) (pl_at p) (pl_w p * bytes) (pl_stride p) out.
(** test/utils.h:189-209 [write_frame]. *)
Definition s_frame : list Z := [70; 82; 65; 77; 69; 10].
Definition write_frame (pic : picture) (y4m : bool) (out : list Z) : list Z :=
  let out := if y4m then out ++ s_frame else out in
  let out := write_frame_plane (pc_y pic) (pc_bytes pic) out in
  if pc_num pic =? 3 then write_frame_plane (pc_v pic) (pc_bytes pic) (write_frame_plane (pc_u pic) (pc_bytes pic) out) else out.

(** [%d] of a number that is not negative. *)
Fixpoint digits (f : nat) (n : Z) : list Z := match f with O => [] | S f => if n <? 10 then [48 + n] else digits f (n / 10) ++ [48 + n mod 10] end.
Definition print_d (n : Z) : list Z := digits 20 n.
(** test/utils.h:164-185 [write_y4m_header]: the text, "YUV4MPEG2 W%d H%d F%d:%d Ip C420p%d\n" or without the depth.
    [buf] has 64 bytes, the last for the zero of [sprintf]. *)
Definition y4m_text (w h num den depth : Z) : list Z :=
  [89; 85; 86; 52; 77; 80; 69; 71; 50; 32; 87] ++ print_d w ++ [32; 72] ++ print_d h ++ [32; 70] ++ print_d num ++ [58] ++ print_d den ++
  [32; 73; 112; 32; 67; 52; 50; 48] ++ (if depth =? 8 then [] else [112] ++ print_d depth) ++ [10].
Record header := Header { hd_w : Z; hd_h : Z; hd_rate_id : Z; hd_depth : Z }.
Inductive event := GotHeader (h : header) | GotFrame (h : header) (pic : picture).
(** test/test.c:120-130 *)
Definition FRAME_RATE : list (Z * Z) := [(0, 1); (24000, 1001); (24, 1); (25, 1); (30000, 1001); (30, 1); (50, 1); (60000, 1001); (60, 1)].
(** test/test.c:101-168 [output_decoded_frame] without its messages and the comparison with a reference; [written] is
    [b_y4m_header_write] (utils.h:167). *)
Definition output_event (y4m : bool) (st : list Z * bool) (e : event) : outcome (list Z * bool) :=
  let '(out, written) := st in
  match e with
  | GotHeader h =>
    if y4m then
      match nth_error FRAME_RATE (Z.to_nat (hd_rate_id h)) with
      | None => Undef
      | Some (num, den) =>
        if written then Done (out, true)
        else let t := y4m_text (hd_w h) (hd_h h) num den (hd_depth h) in
             if Z.of_nat (length t) <? 64 then Done (out ++ t, true) else Undef
      end
    else Done (out, written)
  | GotFrame _ pic => Done (write_frame pic y4m out, written)
  end.
Fixpoint output_events (y4m : bool) (st : list Z * bool) (l : list event) : outcome (list Z * bool) :=
  match l with [] => Done st | e :: l => bindo (output_event y4m st e) (fun st => output_events y4m st l) end.
(** The output file for what the decoder returned, call by call. *)
Definition output_file (y4m : bool) (l : list event) : outcome (list Z) := bindo (output_events y4m ([], false) l) (fun st => Done (fst st)).
