(** The vector versions of the intra predictors: source/common/vec/intrinsic_intra-pred.cc and
    intrinsic_intra-pred_avx2.cc, as syntax trees of a small language and its semantics.

    The language has the constructs these functions use: integers, pointers to samples, arrays
    of pointers, local arrays of samples, vector registers, if, loops, return and calls of
    other predictors.  The trees are in VpModelA and later; they follow the functions statement
    by statement, with [BUGFIX_PREDICTION_INTRA] = 1 and 8 bit samples.

    - Integers are unbounded (all values stay below 2^16 in size), registers are lists of bytes,
      least significant first: 16 or 32 of them.
    - A pointer is an array and an offset.  Array 1 is the picture, with the offset as its
      address, array 2 the border with the offset counted from EP[0]; arrays from 3 on are local.
      Reading or writing outside a local array, or outside the entries [lo .. hi] of the border,
      is [None]; so is the use of a variable before it is set, [assert(0)] and lack of fuel.
      Bytes of a local array that were not stored hold [junk].
    - Aligned and unaligned loads and stores are the same; alignment is not modelled.  Masked
      stores and [_mm_maskmoveu_si128] store the selected parts only.
    - [M32(dst) = 0x01010101 * x] stores [x] four times, M64 eight times.
    - The argument [dir_mode] is not used by any of the functions and is left out.

    The semantics is written over a structure of operations [dom], so that it can also be run on
    values other than bytes; [machine] is the structure that stands for the machine. *)
From Coq Require Import ZArith List Bool.
From Verif Require Import MemModel.
Import ListNotations.
Open Scope Z_scope.

(** Finite maps with positive keys. *)
Inductive tree (A : Type) : Type := Lf : tree A | Br : tree A -> option A -> tree A -> tree A.
Arguments Lf {A}.
Arguments Br {A} _ _ _.
Fixpoint get {A} (t : tree A) (k : positive) : option A :=
  match t, k with
  | Lf, _ => None
  | Br _ v _, xH => v
  | Br a _ _, xO k' => get a k'
  | Br _ _ b, xI k' => get b k'
  end.
Fixpoint set {A} (t : tree A) (k : positive) (x : A) : tree A :=
  match k, t with
  | xH, Lf => Br Lf (Some x) Lf
  | xH, Br a _ b => Br a (Some x) b
  | xO k', Lf => Br (set Lf k' x) None Lf
  | xO k', Br a v b => Br (set a k' x) v b
  | xI k', Lf => Br Lf None (set Lf k' x)
  | xI k', Br a v b => Br a v (set b k' x)
  end.

(** Syntax. *)
Definition var := positive.
Inductive iexp :=
| IC (z : Z) | IV (v : var)
| IAdd (a b : iexp) | ISub (a b : iexp) | IMul (a b : iexp) | IShl (a b : iexp) | IShr (a b : iexp) | IDiv (a b : iexp) | IAnd (a b : iexp)
| IMin (a b : iexp) | IMax (a b : iexp) | ILt (a b : iexp) | ILe (a b : iexp) | IEq (a b : iexp) | INot (a : iexp) | ILand (a b : iexp) | ILor (a b : iexp).
(** [PV v i]: the pointer [v], or entry [i] of the array of pointers [v]. *)
Inductive pexp := PV (v : var) (i : iexp) | PAdd (p : pexp) (i : iexp).
(** Integer expressions of samples. *)
Inductive xexp := XC (z : Z) | XLd (p : pexp) | XAdd (a b : xexp) | XMul (a b : xexp) | XShl (a : xexp) (k : Z) | XShr (a : xexp) (k : Z).
Inductive op1 := Srl16 (k : Z) | SrlB (k : nat) | Cvt8 | Ext (k : nat) | Ext16 (k : nat) | Perm64 (k : Z).
Inductive op2 := Add16 | Mul16 | Adds16 | Pack16 | UnpL (n : nat) | UnpH (n : nat) | Shuf8 | Perm128 (k : Z) | Perm32.
Inductive vexp :=
| VV (v : var)
| VLoad (n zeros : nat) (p : pexp)
| VConst (l : list Z)
| VTab (rows : list (list Z)) (i : iexp)
| VSet1 (width n : nat) (x : xexp)
| VSetr (l : list xexp)
| VOp1 (o : op1) (a : vexp)
| VOp2 (o : op2) (a b : vexp).
Inductive stm :=
| SInt (v : var) (e : iexp)
| SPtr (v : var) (i : iexp) (p : pexp)
| SVec (v : var) (e : vexp)
| SArr (v : var) (size : iexp)
| SStore (n : nat) (p : pexp) (e : vexp)
| SMask (width : nat) (p : pexp) (m e : vexp)
| SCopy (n : iexp) (d s : pexp)
| SPut (p : pexp) (x : xexp)
| SIf (c : iexp) (a b : list stm)
| SLoop (c : iexp) (b : list stm)
| SCall (f : list stm) (src dst : pexp) (i_dst bsx bsy : iexp)
| SRet
| SFail.
Definition v_src : var := 1%positive.
Definition v_dst : var := 2%positive.
Definition v_i_dst : var := 3%positive.
Definition v_bsx : var := 4%positive.
Definition v_bsy : var := 5%positive.

(** What the semantics needs: integers, bytes, 16 bit words, sums of samples, the picture, the
    border and the initial contents of local arrays. *)
Record dom : Type := mkdom {
  dI : Type; iz : Z -> dI; ival : dI -> option Z; iadd : dI -> dI -> dI; isub : dI -> dI -> dI; imul : dI -> dI -> option dI;
  dB : Type; bz : Z -> dB; bval : dB -> option Z;
  dW : Type; wjoin : dB -> dB -> dW; wlo : dW -> dB; whi : dW -> dB;
  wadd : dW -> dW -> dW; wmul : dW -> dW -> dW; wadds : dW -> dW -> dW; wsrl : Z -> dW -> dW; wpack : dW -> dB;
  dX : Type; xz : Z -> dX; xof : dB -> dX; xadd : dX -> dX -> dX; xmul : dX -> dX -> dX; xshr : dX -> Z -> dX; xb : dX -> dB; xw : dX -> dW;
  dM : Type; mrd : dM -> dI -> option dB; mwr : dM -> dI -> dB -> option dM;
  srd : Z -> option dB;
  junk : positive -> Z -> dB
}.

(** The machine.  [e k] is EP[k], which exists for [lo <= k <= hi]. *)
Definition signed16 (z : Z) : Z := if z <? 32768 then z else z - 65536.
Definition clip (lo hi z : Z) : Z := Z.min hi (Z.max lo z).
Definition machine (lo hi : Z) (e : Z -> Z) (j : positive -> Z -> Z) : dom := {|
  dI := Z; iz := fun z => z; ival := fun z => Some z; iadd := Z.add; isub := Z.sub; imul := fun a b => Some (a * b);
  dB := Z; bz := fun z => z; bval := fun z => Some z;
  dW := Z; wjoin := fun l h => l + 256 * h; wlo := fun w => w mod 256; whi := fun w => w / 256;
  wadd := fun a b => (a + b) mod 65536; wmul := fun a b => (a * b) mod 65536;
  wadds := fun a b => clip (-32768) 32767 (signed16 a + signed16 b) mod 65536;
  wsrl := fun k a => Z.shiftr a k; wpack := fun a => clip 0 255 (signed16 a);
  dX := Z; xz := fun z => z; xof := fun b => b; xadd := Z.add; xmul := Z.mul; xshr := Z.shiftr; xb := fun x => x mod 256; xw := fun x => x mod 65536;
  dM := mem; mrd := fun m a => Some (m a); mwr := fun m a b => Some (upd m a b);
  srd := fun k => if (lo <=? k) && (k <=? hi) then Some (e k) else None;
  junk := j |}.

Definition bind {A B} (o : option A) (f : A -> option B) : option B := match o with Some a => f a | None => None end.
Fixpoint seqo {A} (l : list (option A)) : option (list A) :=
  match l with
  | [] => Some []
  | o :: r => bind o (fun a => bind (seqo r) (fun l' => Some (a :: l')))
  end.

Section Semantics.
Variable D : dom.
Notation I := (dI D).
Notation B := (dB D).
Notation W := (dW D).
Notation X := (dX D).
Notation M := (dM D).
Definition ptr : Type := positive * I.
Record state : Type := mkst {
  ints : tree I; ptrs : tree ptr; regs : tree (list B); locs : tree (Z * tree B); next : positive; pic : M
}.
Definition set_int s v x := mkst (set (ints s) v x) (ptrs s) (regs s) (locs s) (next s) (pic s).
Definition set_ptr s v x := mkst (ints s) (set (ptrs s) v x) (regs s) (locs s) (next s) (pic s).
Definition set_reg s v x := mkst (ints s) (ptrs s) (set (regs s) v x) (locs s) (next s) (pic s).
Definition set_loc s v x := mkst (ints s) (ptrs s) (regs s) (set (locs s) v x) (next s) (pic s).
Definition set_pic s x := mkst (ints s) (ptrs s) (regs s) (locs s) (next s) x.

(** Integers; comparisons and logic give 0 or 1; the divisions here are of numbers that are not
    negative. *)
Definition truth (b : bool) : Z := if b then 1 else 0.
Definition arith (f : Z -> Z -> Z) (a b : option I) : option I :=
  bind a (fun x => bind b (fun y => bind (ival D x) (fun u => bind (ival D y) (fun v => Some (iz D (f u v)))))).
Fixpoint ieval (s : state) (e : iexp) : option I :=
  match e with
  | IC z => Some (iz D z)
  | IV v => get (ints s) v
  | IAdd a b => bind (ieval s a) (fun x => bind (ieval s b) (fun y => Some (iadd D x y)))
  | ISub a b => bind (ieval s a) (fun x => bind (ieval s b) (fun y => Some (isub D x y)))
  | IMul a b => bind (ieval s a) (fun x => bind (ieval s b) (fun y => imul D x y))
  | IShl a b => bind (ieval s a) (fun x => bind (ieval s b) (fun y => bind (ival D y) (fun k => imul D x (iz D (2 ^ k)))))
  | IShr a b => arith Z.shiftr (ieval s a) (ieval s b)
  | IDiv a b => arith Z.quot (ieval s a) (ieval s b)
  | IAnd a b => arith Z.land (ieval s a) (ieval s b)
  | IMin a b => arith Z.min (ieval s a) (ieval s b)
  | IMax a b => arith Z.max (ieval s a) (ieval s b)
  | ILt a b => arith (fun x y => truth (x <? y)) (ieval s a) (ieval s b)
  | ILe a b => arith (fun x y => truth (x <=? y)) (ieval s a) (ieval s b)
  | IEq a b => arith (fun x y => truth (x =? y)) (ieval s a) (ieval s b)
  | INot a => bind (ieval s a) (fun x => bind (ival D x) (fun u => Some (iz D (truth (u =? 0)))))
  | ILand a b => arith (fun x y => truth (negb (x =? 0) && negb (y =? 0))) (ieval s a) (ieval s b)
  | ILor a b => arith (fun x y => truth (negb (x =? 0) || negb (y =? 0))) (ieval s a) (ieval s b)
  end.
Definition zeval (s : state) (e : iexp) : option Z := bind (ieval s e) (ival D).

(** Pointers; entry [i] of the array of pointers [v], 0 <= i < 64. *)
Definition slot (v : var) (i : Z) : option positive :=
  if (0 <=? i) && (i <? 64) then Some (Z.to_pos (Zpos v * 64 + i)) else None.
Fixpoint peval (s : state) (p : pexp) : option ptr :=
  match p with
  | PV v i => bind (zeval s i) (fun k => bind (slot v k) (fun q => get (ptrs s) q))
  | PAdd p i => bind (peval s p) (fun a => bind (ieval s i) (fun k => Some (fst a, iadd D (snd a) k)))
  end.
(** One byte of an array. *)
Definition rd (s : state) (p : ptr) : option B :=
  match fst p with
  | 1%positive => mrd D (pic s) (snd p)
  | 2%positive => bind (ival D (snd p)) (srd D)
  | q => bind (ival D (snd p)) (fun k => bind (get (locs s) q) (fun a =>
           if (0 <=? k) && (k <? fst a) then Some (match get (snd a) (Z.to_pos (k + 1)) with Some b => b | None => junk D q k end) else None))
  end.
Definition wr (s : state) (p : ptr) (b : B) : option state :=
  match fst p with
  | 1%positive => bind (mwr D (pic s) (snd p) b) (fun m => Some (set_pic s m))
  | 2%positive => None
  | q => bind (ival D (snd p)) (fun k => bind (get (locs s) q) (fun a =>
           if (0 <=? k) && (k <? fst a) then Some (set_loc s q (fst a, set (snd a) (Z.to_pos (k + 1)) b)) else None))
  end.
Definition step_ptr (p : ptr) (k : Z) : ptr := (fst p, iadd D (snd p) (iz D k)).
Fixpoint rdn (s : state) (n : nat) (p : ptr) : option (list B) :=
  match n with
  | O => Some []
  | S k => bind (rd s p) (fun b => bind (rdn s k (step_ptr p 1)) (fun l => Some (b :: l)))
  end.
Fixpoint wrn (s : state) (p : ptr) (l : list B) : option state :=
  match l with
  | [] => Some s
  | b :: r => bind (wr s p b) (fun s' => wrn s' (step_ptr p 1) r)
  end.

(** Sums of samples. *)
Fixpoint xeval (s : state) (x : xexp) : option X :=
  match x with
  | XC z => Some (xz D z)
  | XLd p => bind (peval s p) (fun a => bind (rd s a) (fun b => Some (xof D b)))
  | XAdd a b => bind (xeval s a) (fun u => bind (xeval s b) (fun v => Some (xadd D u v)))
  | XMul a b => bind (xeval s a) (fun u => bind (xeval s b) (fun v => Some (xmul D u v)))
  | XShl a k => bind (xeval s a) (fun u => Some (xmul D u (xz D (2 ^ k))))
  | XShr a k => bind (xeval s a) (fun u => Some (xshr D u k))
  end.

(** Registers. *)
Fixpoint words (l : list B) : list W := match l with a :: b :: r => wjoin D a b :: words r | _ => [] end.
Definition bytes (l : list W) : list B := flat_map (fun w => [wlo D w; whi D w]) l.
Fixpoint map2 {A C E} (f : A -> C -> E) (a : list A) (b : list C) : list E :=
  match a, b with x :: a', y :: b' => f x y :: map2 f a' b' | _, _ => [] end.
Definition word2 (f : W -> W -> W) (a b : list B) : list B := bytes (map2 f (words a) (words b)).
(** The 256 bit forms work on each half like the 128 bit forms. *)
Definition half1 {A} (l : list A) := firstn 16 l.
Definition half2 {A} (l : list A) := skipn 16 l.
Definition lanes1 (f : list B -> list B) (a : list B) : list B := if Nat.leb (length a) 16 then f a else f (half1 a) ++ f (half2 a).
Definition lanes2 (f : list B -> list B -> list B) (a b : list B) : list B :=
  if Nat.leb (length a) 16 then f a b else f (half1 a) (half1 b) ++ f (half2 a) (half2 b).
Definition pack (a b : list B) : list B := map (wpack D) (words a) ++ map (wpack D) (words b).
Fixpoint weave (n k : nat) (a b : list B) : list B :=
  match k with O => [] | S k' => firstn n a ++ firstn n b ++ weave n k' (skipn n a) (skipn n b) end.
Definition shuf (a m : list B) : option (list B) :=
  seqo (map (fun b => bind (bval D b) (fun z => Some (if 128 <=? z then bz D 0 else nth (Z.to_nat (z mod 16)) a (bz D 0)))) m).
Definition quad (a : list B) (k : Z) : list B := firstn 8 (skipn (8 * Z.to_nat k) a).
Definition half (a b : list B) (k : Z) : list B :=
  if Z.testbit k 3 then repeat (bz D 0) 16
  else let s := Z.land k 3 in
       if s =? 0 then half1 a else if s =? 1 then half2 a else if s =? 2 then half1 b else half2 b.
(** The index of each 32 bit element, from its lowest byte. *)
Fixpoint firsts (n : nat) (l : list B) : list B :=
  match n with O => [] | S k => match l with [] => [] | b :: _ => b :: firsts k (skipn 4 l) end end.
Definition perm32 (a m : list B) : option (list B) :=
  bind (seqo (map (fun b => bind (bval D b) (fun z => Some (firstn 4 (skipn (4 * Z.to_nat (z mod 8)) a)))) (firsts 8 m))) (fun l => Some (concat l)).
Definition do1 (o : op1) (a : list B) : list B :=
  match o with
  | Srl16 k => bytes (map (wsrl D k) (words a))
  | SrlB k => lanes1 (fun l => skipn k l ++ repeat (bz D 0) k) a
  | Cvt8 => flat_map (fun b => [b; bz D 0]) a
  | Ext k => match k with O => half1 a | S _ => half2 a end
  | Ext16 k => firstn 2 (skipn (2 * k) a) ++ [bz D 0; bz D 0]
  | Perm64 k => quad a (Z.land k 3) ++ quad a (Z.land (Z.shiftr k 2) 3) ++ quad a (Z.land (Z.shiftr k 4) 3) ++ quad a (Z.land (Z.shiftr k 6) 3)
  end.
Definition do2 (o : op2) (a b : list B) : option (list B) :=
  match o with
  | Add16 => Some (word2 (wadd D) a b)
  | Mul16 => Some (word2 (wmul D) a b)
  | Adds16 => Some (word2 (wadds D) a b)
  | Pack16 => Some (lanes2 pack a b)
  | UnpL n => Some (lanes2 (fun x y => weave n (Nat.div 8 n) x y) a b)
  | UnpH n => Some (lanes2 (fun x y => weave n (Nat.div 8 n) (skipn 8 x) (skipn 8 y)) a b)
  | Shuf8 => if Nat.leb (length a) 16 then shuf a b
             else bind (shuf (half1 a) (half1 b)) (fun x => bind (shuf (half2 a) (half2 b)) (fun y => Some (x ++ y)))
  | Perm128 k => Some (half a b (Z.land k 15) ++ half a b (Z.shiftr k 4))
  | Perm32 => perm32 a b
  end.
Fixpoint veval (s : state) (e : vexp) : option (list B) :=
  match e with
  | VV v => get (regs s) v
  | VLoad n z p => bind (peval s p) (fun a => bind (rdn s n a) (fun l => Some (l ++ repeat (bz D 0) z)))
  | VConst l => Some (map (bz D) l)
  | VTab rows i => bind (zeval s i) (fun k => bind (nth_error rows (Z.to_nat k)) (fun l => if 0 <=? k then Some (map (bz D) l) else None))
  | VSet1 w n x => bind (xeval s x) (fun u => Some (match w with 1%nat => repeat (xb D u) n | _ => bytes (repeat (xw D u) n) end))
  | VSetr l => bind (seqo (map (xeval s) l)) (fun us => Some (bytes (map (xw D) us)))
  | VOp1 o a => bind (veval s a) (fun x => Some (do1 o x))
  | VOp2 o a b => bind (veval s a) (fun x => bind (veval s b) (fun y => do2 o x y))
  end.
(** A masked store: of each group of [w] bytes, if the highest bit of the group's mask is set. *)
Fixpoint wrmask (w k : nat) (s : state) (p : ptr) (m l : list B) : option state :=
  match k with
  | O => Some s
  | S k' => bind (bind (nth_error m (Nat.pred w)) (bval D)) (fun z =>
            bind (if 128 <=? z then wrn s p (firstn w l) else Some s) (fun s' =>
            wrmask w k' s' (step_ptr p (Z.of_nat w)) (skipn w m) (skipn w l)))
  end.

(** The state at the start of a predictor. *)
Definition enter (src dst : ptr) (i_dst bsx bsy : I) (l : tree (Z * tree B)) (n : positive) (m : M) : state :=
  mkst (set (set (set Lf v_i_dst i_dst) v_bsx bsx) v_bsy bsy) (set (set Lf (v_src~0~0~0~0~0~0)%positive src) (v_dst~0~0~0~0~0~0)%positive dst) Lf l n m.

(** Statements; the result tells whether the function has returned. *)
Fixpoint run (fuel : nat) (l : list stm) (s : state) : option (bool * state) :=
  match fuel with
  | O => None
  | S n =>
    match l with
    | [] => Some (false, s)
    | c :: r =>
      match c with
      | SInt v e => bind (ieval s e) (fun x => run n r (set_int s v x))
      | SPtr v i p => bind (zeval s i) (fun k => bind (slot v k) (fun q => bind (peval s p) (fun x => run n r (set_ptr s q x))))
      | SVec v e => bind (veval s e) (fun x => run n r (set_reg s v x))
      | SArr v e => bind (zeval s e) (fun k => bind (slot v 0) (fun q =>
          run n r (mkst (ints s) (set (ptrs s) q (next s, iz D 0)) (regs s) (set (locs s) (next s) (k, Lf)) (Pos.succ (next s)) (pic s))))
      | SStore k p e => bind (peval s p) (fun a => bind (veval s e) (fun x => bind (wrn s a (firstn k x)) (fun s' => run n r s')))
      | SMask w p m e => bind (peval s p) (fun a => bind (veval s m) (fun y => bind (veval s e) (fun x =>
          bind (wrmask w (Nat.div (length y) w) s a y x) (fun s' => run n r s'))))
      | SCopy k d p => bind (zeval s k) (fun z => bind (peval s d) (fun a => bind (peval s p) (fun b =>
          bind (rdn s (Z.to_nat z) b) (fun x => bind (wrn s a x) (fun s' => run n r s')))))
      | SPut p x => bind (peval s p) (fun a => bind (xeval s x) (fun u => bind (wr s a (xb D u)) (fun s' => run n r s')))
      | SIf c a b => bind (zeval s c) (fun z => bind (run n (if z =? 0 then b else a) s) (fun q => if fst q : bool then Some q else run n r (snd q)))
      | SLoop c b => bind (zeval s c) (fun z =>
          if z =? 0 then run n r s
          else bind (run n b s) (fun q => if fst q : bool then Some q else run n (SLoop c b :: r) (snd q)))
      | SCall f src dst i_dst bsx bsy =>
          bind (peval s src) (fun a => bind (peval s dst) (fun b => bind (ieval s i_dst) (fun k => bind (ieval s bsx) (fun w => bind (ieval s bsy) (fun h =>
          bind (run n f (enter a b k w h (locs s) (next s) (pic s))) (fun q =>
          run n r (mkst (ints s) (ptrs s) (regs s) (locs (snd q)) (next (snd q)) (pic (snd q)))))))))
      | SRet => Some (true, s)
      | SFail => None
      end
    end
  end.
End Semantics.

(** A predictor called for the block of [w] times [h] samples at [d] of the picture [m] with
    stride [st]. *)
Definition fuel : nat := Z.to_nat 100000.
Definition predict (lo hi : Z) (e : Z -> Z) (j : positive -> Z -> Z) (f : list stm) (d st w h : Z) (m : mem) : option mem :=
  let D := machine lo hi e j in
  bind (run D fuel f (enter D (2%positive, 0) (1%positive, d) st w h Lf 3%positive m)) (fun q => Some (pic D (snd q))).
