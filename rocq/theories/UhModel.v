(** Model of [parse_header], source/common/header.cc: the search for the picture header in the
    data of one unit. *)
From Coq Require Import ZArith List Bool.
From Verif Require Import CBase VlcModel BsModel HdrModel.
Import ListNotations.
Open Scope Z_scope.

(** How the search ends: at a picture start code (the reader stands on it), without one
    (return value 1), or with an invalid sequence header (return value -1). *)
Inductive res := RPic (code : Z) (s : bs) | RNone | RErr.

(** defines.h:247-248. *)
Definition SC_INTRA_PICTURE : Z := 179.
Definition SC_INTER_PICTURE : Z := 182.

(** header.cc:1500-1553, the loop of [parse_header]. [qs] collects the sequence headers handed to
    [task_set_sequence_head] (1531; allocation of a new picture buffer succeeds). The fuel is the
    number of bytes: every round moves on by at least four. A picture start code ends the loop;
    what follows, [task_decoder_update] and [parse_picture_header], is modelled in HdrModel.v. *)
Fixpoint unit_loop (fuel : nat) (s : bs) (qs : list seqh) : outcome (res * list seqh) :=
  match fuel with
  | O => Hang
  | S f =>
      let p := Z.to_nat (Z.shiftr (bs_pos s) 3) in
      match find_start_code (skipn p (firstn (Z.to_nat (bs_len s)) (bs_mem s))) with
      | None => Done (RNone, qs)
      | Some k =>
          let b := (p + k)%nat in
          let s := Bs (bs_mem s) (bs_len s) (Z.shiftl (Z.of_nat b) 3) in
          if bs_len s <? Z.shiftr (bs_pos s) 3 + 4 then Done (RNone, qs) else
          let code := nth (b + 3) (bs_mem s) 0 in
          if (code =? SC_INTRA_PICTURE) || (code =? SC_INTER_PICTURE) then Done (RPic code s, qs)
          else if code =? SC_SEQUENCE_HEADER then
            match parse_sequence_header s with
            | Done (q, s') => unit_loop f s' (qs ++ [q])
            | Fail => Done (RErr, qs)
            | Undef => Undef
            | Hang => Hang
            end
          else unit_loop f (bs_move s 32) qs
      end
  end.

(** header.cc:1490-1556 [parse_header] (decoder_decode_es_unit calls it at position 0). *)
Definition parse_header (s : bs) : outcome (res * list seqh) :=
  if bs_len s <=? 4 then Done (RErr, []) else unit_loop (S (Z.to_nat (bs_len s))) s [].
