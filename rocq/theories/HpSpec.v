(** A well-behaved user of the allocator, and what the user may rely on. *)
From Coq Require Import ZArith List Bool.
From Verif Require Import CBase MemModel HpModel.
Import ListNotations.
Open Scope Z_scope.

(** What the user has: pointer and number of bytes of every piece not given back, latest first. *)
Definition ledger := list (Z * Z).
Definition apart2 (x y : Z * Z) : Prop := fst x + snd x <= fst y \/ fst y + snd y <= fst x.
(** [malloc] answers NULL or a block of the size asked for that is at a positive address, ends below 2^64 and meets
    no block handed out. *)
Definition fresh (live : list (Z * Z)) (asked : Z) (ans : option Z) : Prop :=
  match ans with
  | None => True
  | Some b => 0 < b /\ b + asked < 18446744073709551616 /\ Forall (apart2 (b, asked)) live
  end.
(** Steps of a user who writes only to pieces it has and gives back only what it has (or NULL). A request comes with the
    pointer that [davs2_malloc] returns. *)
Inductive uses : heap -> ledger -> list op -> ledger -> Prop :=
| u_end h l : uses h l [] l
| u_null h l size r l' : 0 <= size < 18446744073709551577 ->
    uses h l r l' -> uses h l (Alloc size None :: r) l'
| u_alloc h l size b h1 p r l' : 0 <= size < 18446744073709551577 -> fresh (live h) (size + 39) (Some b) ->
    davs2_malloc h size (Some b) = (h1, p) -> uses h1 ((p, size) :: l) r l' -> uses h l (Alloc size (Some b) :: r) l'
| u_write h l a v r l' : (exists x, In x l /\ fst x <= a < fst x + snd x) ->
    uses (Heap (live h) (upd (hm h) a v)) l r l' -> uses h l (Write a v :: r) l'
| u_free0 h l r l' : uses h l r l' -> uses h l (Release 0 :: r) l'
| u_free h l1 p n l2 r l' : (forall h1, davs2_free h p = Done h1 -> uses h1 (l1 ++ l2) r l') ->
    uses h (l1 ++ (p, n) :: l2) (Release p :: r) l'.

(** Every piece starts at a multiple of 32 and not at NULL, lies in one block of its own, and no two pieces meet. *)
Definition served (h : heap) (l : ledger) : Prop :=
  Forall2 (fun x b => fst x mod 32 = 0 /\ 0 < fst x /\ fst b + 8 <= fst x /\ fst x + snd x <= fst b + snd b) l (live h) /\
  ForallOrdPairs apart2 (live h) /\ ForallOrdPairs apart2 l.
