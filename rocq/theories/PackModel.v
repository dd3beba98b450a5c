(** Model of the input side of the decoder (source/common/davs2.cc): validation of
    packets, assembly of ES units, hand-over to the parsers and return of the buffers.
    Simplifications: time stamps are left out; the decoding of a handed-over unit is not
    part of this model (only its bytes are recorded); memory allocation does not fail;
    [xl_remove_head(.., 1)] on an empty idle list is a step that is not enabled (the
    thread sleeps on the condition variable until a node is appended). *)
From Coq Require Import ZArith List Bool.
From Verif Require Import CBase BsModel.
Import ListNotations.
Open Scope Z_scope.

(** defines.h: MAX_ES_FRAME_SIZE, and INT_MAX. *)
Definition MAX_ES_FRAME_SIZE : Z := 4000000.
Definition INT_MAX : Z := 2147483647.
(** An upper bound of [sizeof(es_unit_t) + 31] (common.h:875-883), used only for the
    overflow check of the allocation size. *)
Definition UNIT_HEADER : Z := 256.

(** common.h:875-883 [es_unit_t]: the [size] field, the real capacity of the data
    buffer behind it, and the valid data bytes ([len] is their number). *)
Record unit_t := Unit { u_size : Z; u_cap : Z; u_data : list Z }.
Definition u_len (u : unit_t) : Z := Z.of_nat (length (u_data u)).

(** davs2.cc:65-86 [es_unit_alloc]; the rounding of the allocation up to a multiple of
    32 is left out, so [u_cap] is a lower bound of the real capacity. *)
Definition es_unit_alloc (buf_size : Z) : outcome unit_t :=
  if INT_MAX <? UNIT_HEADER + buf_size then Undef else Done (Unit buf_size buf_size []).

(** The fields of [davs2_mgr_t] used here: [es_unit], [packets_idle], and the units
    owned by decoding tasks. *)
Record pst := Pst { ps_cur : option unit_t; ps_idle : list unit_t; ps_busy : list unit_t }.

(** davs2.cc:190-232 [create_all_lists]: [n] (MAX_ES_FRAME_NUM) buffers. *)
Definition pst_init (n : nat) : pst :=
  Pst None (repeat (Unit MAX_ES_FRAME_SIZE MAX_ES_FRAME_SIZE []) n) [].

(** davs2.h [davs2_packet_t]: data pointer (NULL or the bytes behind it) and len. *)
Record packet := Packet { pk_data : option (list Z); pk_len : Z }.

(** davs2.cc:103 DAVS2_ISUNIT. *)
Definition is_unit (x : Z) : bool :=
  (x =? 176) || (x =? 177) || (x =? 183) || (x =? 179) || (x =? 182).

(** davs2.cc:141-142: [memcpy(es_unit->data + es_unit->len, data, len)] and the new
    length; a copy past the capacity is undefined. *)
Definition copy_in (u : unit_t) (d : list Z) : outcome unit_t :=
  if u_cap u <? u_len u + Z.of_nat (length d) then Undef
  else Done (Unit (u_size u) (u_cap u) (u_data u ++ d)).

(** davs2.cc:114-131: enlarge the buffer. The header is copied from the old unit, so the
    [size] field keeps the old value. *)
Definition grow (u : unit_t) (len : Z) : outcome unit_t :=
  if INT_MAX <? u_len u + len then Undef
  else if u_size u <? u_len u + len then
    if INT_MAX <? u_len u + len + MAX_ES_FRAME_SIZE * 2 then Undef
    else bindo (es_unit_alloc (u_len u + len + MAX_ES_FRAME_SIZE * 2)) (fun n =>
         if u_cap n <? u_len u then Undef else Done (Unit (u_size u) (u_cap n) (u_data u)))
  else Done u.

(** Result of [davs2_pack_es_unit]: new state and the unit to decode, or the call
    sleeps. *)
Inductive pres := PBlock | PUndef | POk (s : pst) (r : option unit_t).

(** davs2.cc:146-148: emulation-prevention removal in place. *)
Definition dispose_unit (u : unit_t) : outcome unit_t :=
  match dispose_inplace (u_data u) with
  | None => Undef
  | Some (buf, n) => Done (Unit (u_size u) (u_cap u) (firstn (Z.to_nat n) buf))
  end.

(** davs2.cc:100-152 [davs2_pack_es_unit] for [len > 0] (checked by the caller). *)
Definition pack (s : pst) (d : list Z) : pres :=
  match get d 3 with
  | None => PUndef
  | Some start_code =>
      match (match ps_cur s with
             | Some u => Some (u, ps_idle s)
             | None => match ps_idle s with u :: r => Some (u, r) | [] => None end
             end) with
      | None => PBlock
      | Some (u, idle) =>
          match grow u (Z.of_nat (length d)) with
          | Done u =>
              if is_unit start_code && (0 <? u_len u) then
                match idle with
                | [] => PBlock
                | v :: idle =>
                    match copy_in v d, dispose_unit u with
                    | Done v, Done u => POk (Pst (Some v) idle (ps_busy s)) (Some u)
                    | _, _ => PUndef
                    end
                end
              else
                match copy_in u d with
                | Done u => POk (Pst (Some u) idle (ps_busy s)) None
                | _ => PUndef
                end
          | _ => PUndef
          end
      end
  end.

(** Operations of the caller and of the workers. [PReturn k]: a task gives back the
    [k]-th unit in use (davs2.cc:415-429 [task_unload_packet]: len = 0, appended to the
    idle list). *)
Inductive pop := PSend (p : option packet) | PFlush | PReturn (k : nat).

(** Observable effects: return value, and the unit bytes handed to the parsers
    (davs2.cc:591 [bs_init]). *)
Inductive pev := EvError | EvDefault | EvUnit (d : list Z).

(** Step result. *)
Inductive sres := SBlock | SUndef | SOk (s : pst) (e : list pev).

(** davs2.cc:645-675 [davs2_decoder_send_packet]. [None]: NULL packet. *)
Definition send (s : pst) (p : option packet) : sres :=
  match p with
  | None => SOk s [EvError]
  | Some p =>
      match pk_data p with
      | None => SOk s [EvError]
      | Some buf =>
          if pk_len p <=? 0 then SOk s [EvError]
          else if pk_len p <? 4 then SOk s [EvError]
          else match get buf 0, get buf 1, get buf 2 with
               | Some a, Some b, Some c =>
                   if negb (a =? 0) || negb (b =? 0) || negb (c =? 1) then SOk s [EvError]
                   else if Z.of_nat (length buf) <? pk_len p then SUndef
                   else match pack s (firstn (Z.to_nat (pk_len p)) buf) with
                        | PBlock => SBlock
                        | PUndef => SUndef
                        | POk s None => SOk s [EvDefault]
                        | POk s (Some u) =>
                            SOk (Pst (ps_cur s) (ps_idle s) (ps_busy s ++ [u]))
                                [EvUnit (u_data u); EvDefault]
                        end
               | _, _, _ => SUndef
               end
      end
  end.

(** davs2.cc:742-746: the buffered unit is decoded as it is. *)
Definition flush (s : pst) : sres :=
  match ps_cur s with
  | Some u => if 4 <=? u_len u
              then SOk (Pst None (ps_idle s) (ps_busy s ++ [u])) [EvUnit (u_data u)]
              else SOk s []
  | None => SOk s []
  end.

Definition unload (s : pst) (k : nat) : sres :=
  match nth_error (ps_busy s) k with
  | None => SBlock
  | Some u => SOk (Pst (ps_cur s) (ps_idle s ++ [Unit (u_size u) (u_cap u) []])
                       (firstn k (ps_busy s) ++ skipn (S k) (ps_busy s))) []
  end.

Definition pstep (s : pst) (o : pop) : sres :=
  match o with
  | PSend p => send s p
  | PFlush => flush s
  | PReturn k => unload s k
  end.

(** A history: every operation ran to completion. [None]: undefined behaviour was met
    or an operation blocked for ever. *)
Fixpoint prun (s : pst) (ops : list pop) : option (pst * list pev) :=
  match ops with
  | [] => Some (s, [])
  | o :: t =>
      match pstep s o with
      | SOk s1 e => match prun s1 t with
                    | Some (s2, e2) => Some (s2, e ++ e2)
                    | None => None
                    end
      | _ => None
      end
  end.
