(** What the data of a unit look like: things in front of the picture, then the picture. *)
From Coq Require Import ZArith List Bool.
From Verif Require Import CBase BsSpec HdrModel HdrSpec.
Import ListNotations.
Open Scope Z_scope.

(** Extension, user data or the like with its start code byte, or a sequence header with the
    syntax elements it carries. *)
Inductive thing :=
| Other (code : Z) (body : list Z)
| Sequence (y : syn) (body : list Z).

Definition bytes_of_thing (t : thing) : list Z :=
  match t with Other c b => [0; 0; 1; c] ++ b | Sequence _ b => [0; 0; 1; 176] ++ b end.

Definition thing_ok (t : thing) : Prop :=
  match t with
  | Other c _ => c <> 176 /\ c <> 179 /\ c <> 182
  | Sequence y _ => syn_fits y /\ legal y /\ exists pad, bits_of (bytes_of_thing t) = syn_bits y ++ pad
  end.

Definition front (ts : list thing) : list Z := flat_map bytes_of_thing ts.
Definition sequences (ts : list thing) : list syn :=
  flat_map (fun t => match t with Sequence y _ => [y] | Other _ _ => [] end) ts.

(** Start codes stand at the beginnings of things only. *)
Definition no_emulation (ts : list thing) (rest : list Z) : Prop :=
  forall j c, sc_at (front ts ++ rest) j c -> (j < length (front ts))%nat ->
  exists a t b, ts = a ++ t :: b /\ j = length (front a).
