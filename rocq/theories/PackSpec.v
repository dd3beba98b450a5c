(** Specification of packet input, independent of buffers and lists. *)
From Coq Require Import ZArith List Bool.
From Verif Require Import CBase PackModel.
Import ListNotations.
Open Scope Z_scope.

(** A packet is well formed when it has data, at least four bytes and begins with
    00 00 01. The length field never claims more bytes than there are. *)
Definition starts_with_prefix (d : list Z) : Prop :=
  nth_error d 0 = Some 0 /\ nth_error d 1 = Some 0 /\ nth_error d 2 = Some 1.
Definition honest (p : packet) : Prop :=
  forall d, pk_data p = Some d -> pk_len p <= Z.of_nat (length d).
Definition well_formed (p : option packet) : Prop :=
  exists q d, p = Some q /\ pk_data q = Some d /\ 4 <= pk_len q /\ starts_with_prefix d.

(** Decision procedure for the same notion; payload of a packet. *)
Definition payload (p : option packet) : option (list Z) :=
  match p with
  | Some q =>
      match pk_data q with
      | Some d =>
          if 4 <=? pk_len q then
            match d with
            | 0 :: 0 :: 1 :: _ => Some (firstn (Z.to_nat (pk_len q)) d)
            | _ => None
            end
          else None
      | None => None
      end
  | None => None
  end.

(** Payloads of the accepted packets of a history, in order. *)
Definition sent (ops : list pop) : list (list Z) :=
  flat_map (fun o => match o with
                     | PSend p => match payload p with Some d => [d] | None => [] end
                     | _ => []
                     end) ops.

(** Type byte of a unit or packet and the unit-opening types. *)
Definition type_of (d : list Z) : Z := nth 3 d 0.
Definition opener (d : list Z) : bool := existsb (Z.eqb (type_of d)) [176; 177; 179; 182; 183].

(** Grouping of a history into units: a unit ends where a packet with a unit-opening
    type begins, or at a flush. [raw_units ops cur] gives the finished units, each with
    a flag telling whether it was ended by a packet (true) or a flush (false), and the
    unfinished rest. *)
Fixpoint raw_units (ops : list pop) (cur : list Z) : list (list Z * bool) * list Z :=
  match ops with
  | [] => ([], cur)
  | PSend p :: t =>
      match payload p with
      | None => raw_units t cur
      | Some d =>
          if opener d && negb (match cur with [] => true | _ => false end)
          then let '(us, r) := raw_units t d in ((cur, true) :: us, r)
          else raw_units t (cur ++ d)
      end
  | PFlush :: t =>
      match cur with
      | [] => raw_units t []
      | _ => let '(us, r) := raw_units t [] in ((cur, false) :: us, r)
      end
  | PReturn _ :: t => raw_units t cur
  end.

(** Unit bytes handed to the parsers. *)
Definition units (e : list pev) : list (list Z) :=
  flat_map (fun x => match x with EvUnit d => [d] | _ => [] end) e.

(** All packets of a history are honest. *)
Definition honest_ops (ops : list pop) : Prop :=
  forall p, In (PSend (Some p)) ops -> honest p.

(** Every unit begins with a start-code prefix; one that follows a unit ended by a
    packet is of a unit-opening type. *)
Fixpoint openings (first : bool) (us : list (list Z * bool)) : Prop :=
  match us with
  | [] => True
  | (d, b) :: t => starts_with_prefix d /\ (first = true \/ opener d = true) /\ openings (negb b) t
  end.

(** All units of the history, including the unfinished one. *)
Definition all_raw (ops : list pop) : list (list Z) :=
  map fst (fst (raw_units ops [])) ++ [snd (raw_units ops [])].

(** Bytes of the unfinished unit. *)
Definition cur_data (s : pst) : list Z := match ps_cur s with Some u => u_data u | None => [] end.
