(** Model of source/common/vlc.h: fixed-length and Exp-Golomb syntax elements.
    The memory object behind [p_buf] is [mem] (every access outside it is
    [Undef]); [i_buf] is the length the C functions are told. *)
From Coq Require Import ZArith List Bool.
From Verif Require Import CBase.
Import ListNotations.
Open Scope Z_scope.

(** The largest [int] whose double is still an [int]. *)
Definition dbl_ok (v : Z) : bool := v <=? 1073741823.

(** vlc.h:55-68, the loop of [read_bits]. [inf <<= 1] on a value that leaves the
    [int] range is [Undef]. *)
Fixpoint read_bits_loop (mem : list Z) (i_buf : Z) (i_bits : nat)
         (byte_offset bit_offset inf : Z) : outcome Z :=
  match i_bits with
  | O => Done inf
  | S n =>
      if negb (dbl_ok inf) then Undef else
      match get mem byte_offset with
      | None => Undef
      | Some b =>
          let inf := Z.lor (Z.shiftl inf 1)
                       (Z.shiftr (Z.land b (Z.shiftl 1 bit_offset)) bit_offset) in
          let bit_offset := bit_offset - 1 in
          if bit_offset <? 0 then
            let byte_offset := byte_offset + 1 in
            let bit_offset := bit_offset + 8 in
            if i_buf <? byte_offset then Fail
            else read_bits_loop mem i_buf n byte_offset bit_offset inf
          else read_bits_loop mem i_buf n byte_offset bit_offset inf
      end
  end.

(** vlc.h:49-72 [read_bits]. [Fail] is the return value -1. *)
Definition read_bits (mem : list Z) (i_buf i_bit_pos : Z) (i_bits : nat) : outcome Z :=
  read_bits_loop mem i_buf i_bits (Z.shiftr i_bit_pos 3) (7 - Z.land i_bit_pos 7) 0.

(** vlc.h:88-102, search of the leading one bit in [get_vlc_symbol]; returns
    [(len, bit_counter, byte_offset, bit_offset)]. [fuel] only bounds the recursion:
    the loop of the code has no bound of its own. *)
Fixpoint vlc_zeros (fuel : nat) (mem : list Z) (len bit_counter byte_offset bit_offset : Z)
  : outcome (Z * Z * Z * Z) :=
  match fuel with
  | O => Hang
  | S fuel =>
      match get mem byte_offset with
      | None => Undef
      | Some b =>
          if Z.land b (Z.shiftl 1 bit_offset) =? 0 then
            let len := len + 1 in
            let bit_offset := bit_offset - 1 in
            let bit_counter := bit_counter + 1 in
            if bit_offset <? 0
            then vlc_zeros fuel mem len bit_counter (byte_offset + 1) (bit_offset + 8)
            else vlc_zeros fuel mem len bit_counter byte_offset bit_offset
          else Done (len, bit_counter, byte_offset, bit_offset)
      end
  end.

(** vlc.h:106-124, the info word of [get_vlc_symbol]; returns [(info, bit_counter)]. *)
Fixpoint vlc_info (n : nat) (mem : list Z) (i_buf inf bit_counter byte_offset bit_offset : Z)
  : outcome (Z * Z) :=
  match n with
  | O => Done (inf, bit_counter)
  | S n =>
      let bit_counter := bit_counter + 1 in
      let bit_offset := bit_offset - 1 in
      let '(byte_offset, bit_offset) :=
        if bit_offset <? 0 then (byte_offset + 1, bit_offset + 8)
        else (byte_offset, bit_offset) in
      if i_buf <? byte_offset then Fail else
      if negb (dbl_ok inf) then Undef else
      match get mem byte_offset with
      | None => Undef
      | Some b =>
          let inf := Z.shiftl inf 1 in
          let inf := if Z.land b (Z.shiftl 1 bit_offset) =? 0 then inf else Z.lor inf 1 in
          vlc_info n mem i_buf inf bit_counter byte_offset bit_offset
      end
  end.

(** vlc.h:78-129 [get_vlc_symbol]; result [(length, info)]. *)
Definition get_vlc_symbol (mem : list Z) (i_bit_pos i_buf : Z) : outcome (Z * Z) :=
  bindo (vlc_zeros (S (8 * length mem)) mem 1 1
           (Z.shiftr i_bit_pos 3) (7 - Z.land i_bit_pos 7))
    (fun '(len, bit_counter, byte_offset, bit_offset) =>
       bindo (vlc_info (Z.to_nat (len - 1)) mem i_buf 0 bit_counter byte_offset bit_offset)
         (fun '(inf, bit_counter) => Done (bit_counter, inf))).

(** The bit-stream reader (davs2_bs_t, common.h): data, declared length, position. *)
Record bs := Bs { bs_mem : list Z; bs_len : Z; bs_pos : Z }.
Definition bs_move (s : bs) (n : Z) : bs := Bs (bs_mem s) (bs_len s) (bs_pos s + n).

(** A syntax element as seen by the caller: the returned value (-1 on error) and
    the reader afterwards. *)
Definition elem := outcome (Z * bs).

(** vlc.h:136-155 [vlc_u_v]. *)
Definition vlc_u_v (s : bs) (i_bits : nat) : elem :=
  match read_bits (bs_mem s) (bs_len s) (bs_pos s) i_bits with
  | Done v => Done (v, bs_move s (Z.of_nat i_bits))
  | Fail => Done (-1, s)
  | Undef => Undef
  | Hang => Hang
  end.

(** [1 << k] as an [int]: defined for 0 <= k <= 30. *)
Definition shl1 (k : Z) : outcome Z :=
  if (k <? 0) || (30 <? k) then Undef else Done (Z.shiftl 1 k).

(** vlc.h:162-186 [vlc_ue_v]. *)
Definition vlc_ue_v (s : bs) : elem :=
  match get_vlc_symbol (bs_mem s) (bs_pos s) (bs_len s) with
  | Done (len, info) =>
      bindo (shl1 (Z.shiftr len 1)) (fun p => Done (p + info - 1, bs_move s len))
  | Fail => Done (-1, s)
  | Undef => Undef
  | Hang => Hang
  end.

(** vlc.h:193-222 [vlc_se_v]. *)
Definition vlc_se_v (s : bs) : elem :=
  match get_vlc_symbol (bs_mem s) (bs_pos s) (bs_len s) with
  | Done (len, info) =>
      bindo (shl1 (Z.shiftr len 1))
        (fun p =>
           let n := p + info - 1 in
           let r := Z.shiftr (n + 1) 1 in
           Done (if Z.land n 1 =? 0 then - r else r, bs_move s len))
  | Fail => Done (-1, s)
  | Undef => Undef
  | Hang => Hang
  end.

(** vlc.h:231 [u_flag]: one bit converted to [bool_t] (an unsigned char type that
    keeps the value 255 for -1; only zero / non-zero is observed by callers). *)
Definition u_flag (s : bs) : outcome (bool * bs) :=
  bindo (vlc_u_v s 1) (fun '(v, s) => Done (negb (v =? 0), s)).
