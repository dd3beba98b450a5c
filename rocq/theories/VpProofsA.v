(** Symbolic evaluation of the vector intra predictors: bytes that are shifted linear forms of the
    border. *)
From Coq Require Import ZArith List Bool.
From Verif Require Import MemModel IprSpec VpModel.
Import ListNotations.
Open Scope Z_scope.

(** [SW t c s h]: (sum of a * e k over (k, a) in t, plus c) / 2^s, at most h. *)
Inductive sw := SW (t : list (Z * Z)) (c s h : Z).
Fixpoint merge (n : nat) (a b : list (Z * Z)) : list (Z * Z) :=
  match n with
  | O => a ++ b
  | S m =>
    match a, b with
    | [], _ => b
    | _, [] => a
    | (k, x) :: a', (l, y) :: b' =>
        match Z.compare k l with
        | Lt => (k, x) :: merge m a' b
        | Gt => (l, y) :: merge m a b'
        | Eq => (k, x + y) :: merge m a' b'
        end
    end
  end.
Definition plus (a b : list (Z * Z)) : list (Z * Z) := merge 40 a b.
Definition times (c : Z) (a : list (Z * Z)) : list (Z * Z) := map (fun p => (fst p, c * snd p)) a.
Fixpoint same (a b : list (Z * Z)) : bool :=
  match a, b with
  | [], [] => true
  | (k, x) :: a', (l, y) :: b' => (k =? l) && (x =? y) && same a' b'
  | _, _ => false
  end.
Definition same_sw (a b : sw) : bool := let 'SW t c s _ := a in let 'SW t' c' s' _ := b in (c =? c') && (s =? s') && same t t'.
Definition cst (z : Z) : sw := SW [] z 0 z.
Definition s_add (max : Z) (a b : option sw) : option sw :=
  match a, b with
  | Some (SW t c 0 h), Some (SW t' c' 0 h') => if h + h' <=? max then Some (SW (plus t t') (c + c') 0 (h + h')) else None
  | _, _ => None
  end.
Definition s_scale (max k : Z) (t : list (Z * Z)) (c h : Z) : option sw :=
  if (0 <=? k) && (k * h <=? max) then Some (if k =? 0 then cst 0 else if k =? 1 then SW t c 0 h else SW (times k t) (k * c) 0 (k * h)) else None.
Definition s_mul (max : Z) (a b : option sw) : option sw :=
  match a, b with
  | Some (SW [] k 0 _), Some (SW t c 0 h) => s_scale max k t c h
  | Some (SW t c 0 h), Some (SW [] k 0 _) => s_scale max k t c h
  | _, _ => None
  end.
Definition s_shr (k : Z) (a : option sw) : option sw :=
  match a with Some (SW t c s h) => if 0 <=? k then Some (SW t c (s + k) (Z.shiftr h k)) else None | None => None end.
Inductive sb := SU | SB (w : sw) | SLo (w : sw) | SHi (w : sw).
Definition s_bz (z : Z) : sb := if (0 <=? z) && (z <=? 255) then SB (cst z) else SU.
Definition s_bval (b : sb) : option Z := match b with SB (SW [] c 0 _) => Some c | _ => None end.
Definition top (w : sw) : Z := let 'SW _ _ _ h := w in h.
Definition s_lo (w : option sw) : sb := match w with Some a => if top a <=? 255 then SB a else SLo a | None => SU end.
Definition s_hi (w : option sw) : sb := match w with Some a => if top a <=? 255 then SB (cst 0) else SHi a | None => SU end.
Definition s_join (l h : sb) : option sw :=
  match l, h with
  | SB a, SB (SW [] c 0 _) => if c =? 0 then Some a else match a with SW [] c' 0 _ => Some (cst (c' + 256 * c)) | _ => None end
  | SLo a, SHi b => if same_sw a b then Some a else None
  | _, _ => None
  end.
Definition s_byte (w : option sw) : sb := match w with Some a => if top a <=? 255 then SB a else SU | None => SU end.
Definition s_word (w : option sw) : option sw := match w with Some a => if top a <=? 65535 then w else None | None => None end.

(** Integers: a multiple of the stride and a number. *)
Definition i_val (i : Z * Z) : option Z := if fst i =? 0 then Some (snd i) else None.
Definition i_mul (a b : Z * Z) : option (Z * Z) :=
  if fst a =? 0 then Some (snd a * fst b, snd a * snd b) else if fst b =? 0 then Some (fst a * snd b, snd a * snd b) else None.
(** The block: row and column as key. *)
Definition cell (w h : Z) (i : Z * Z) : option positive :=
  if (0 <=? fst i) && (fst i <? h) && (0 <=? snd i) && (snd i <? w) then Some (Z.to_pos (fst i * 64 + snd i + 1)) else None.
(** Entries beyond twice the size are copies of the last one. *)
Definition canon (w h k : Z) : Z :=
  if (2 * w <=? k) && (k <=? reach w h) then 2 * w else if (2 * h <=? - k) && (- k <=? reach h w) then - (2 * h) else k.
(** [v]: the rows that may be written. *)
Definition symbolic (lo hi w h v : Z) : dom := {|
  dI := Z * Z; iz := fun z => (0, z); ival := i_val;
  iadd := fun a b => (fst a + fst b, snd a + snd b); isub := fun a b => (fst a - fst b, snd a - snd b); imul := i_mul;
  dB := sb; bz := s_bz; bval := s_bval;
  dW := option sw; wjoin := s_join; wlo := s_lo; whi := s_hi;
  wadd := s_add 65535; wmul := s_mul 65535; wadds := s_add 32767; wsrl := s_shr; wpack := s_byte;
  dX := option sw; xz := fun z => if 0 <=? z then Some (cst z) else None; xof := fun b => match b with SB a => Some a | _ => None end;
  xadd := s_add 1000000; xmul := s_mul 1000000; xshr := fun a k => s_shr k a; xb := s_byte; xw := s_word;
  dM := tree sb; mrd := fun m a => bind (cell w v a) (fun k => Some (match get m k with Some b => b | None => SU end));
  mwr := fun m a b => bind (cell w v a) (fun k => Some (set m k b));
  srd := fun k => if (lo <=? k) && (k <=? hi) then Some (SB (SW [(canon w h k, 1)] 0 0 255)) else None;
  junk := fun _ _ => SU |}.

(** The rule. *)
Definition atom (w h k : Z) : list (Z * Z) := [(canon w h k, 1)].
Definition r_smooth (w h p : Z) : list (Z * Z) := plus (plus (atom w h (p - 1)) (times 2 (atom w h p))) (atom w h (p + 1)).
Definition r_interp (w h p dir f : Z) : list (Z * Z) :=
  if f =? 0 then times 32 (r_smooth w h p) else plus (times (32 - f) (r_smooth w h p)) (times f (r_smooth w h (p + dir))).
(** The same where no entry is a copy, written out. *)
Definition q_interp (w h p dir f : Z) : list (Z * Z) :=
  if (2 - 2 * h <? p) && (p <? 2 * w - 2) then
    let g := 32 - f in
    if f =? 0 then [(p - 1, 32); (p, 64); (p + 1, 32)]
    else if dir =? 1 then [(p - 1, g); (p, g + 32); (p + 1, f + 32); (p + 2, f)]
    else [(p - 2, f); (p - 1, f + 32); (p, g + 32); (p + 1, g)]
  else r_interp w h p dir f.
(** [r], [c]: number, whole samples and 32nds of the row and of the column. *)
Definition r_direct (w h mode : Z) (r c : Z * Z * Z) : list (Z * Z) :=
  let '(y, wa, fa) := r in
  let '(x, wd, fd) := c in
  if mode <? 12 then q_interp w h (x + 1 + wa) 1 fa
  else if mode <? 24 then
    if y <? wd then q_interp w h (x + 1 - wa) (-1) fa
    else q_interp w h (- (y + 1 - wd)) 1 fd
  else q_interp w h (- (y + 1 + wd)) (-1) fd.
(** (t + c) / 2^s is (g + 64) / 128; also if g is 128 times t. *)
Fixpoint same_times (n : Z) (a b : list (Z * Z)) : bool :=
  match a, b with
  | [], [] => true
  | (k, x) :: a', (l, y) :: b' => (k =? l) && (n * x =? y) && same_times n a' b'
  | _, _ => false
  end.
Definition is_128th (b : sb) (g : list (Z * Z)) : bool :=
  match b with
  | SB (SW t c s _) => (0 <=? s) && (s <=? 7) && (let k := 2 ^ (7 - s) in ((c * k =? 64) || (s =? 0) && (c =? 0)) && same_times k t g)
  | _ => false
  end.
Definition is_entry (b : sb) (k : Z) : bool := match b with SB (SW [(l, 1)] 0 0 _) => l =? k | _ => false end.
Definition zs (n : Z) : list Z := map Z.of_nat (seq 0 (Z.to_nat n)).
Definition expect (w h mode : Z) (b : sb) (r c : Z * Z * Z) : bool :=
  if mode =? 12 then is_entry b (canon w h (fst (fst c) + 1))
  else if mode =? 24 then is_entry b (canon w h (- (fst (fst r) + 1)))
  else is_128th b (r_direct w h mode r c).
Definition s_run (lo hi : Z) (f : list stm) (w h v : Z) : option (tree sb) :=
  let D := symbolic lo hi w h v in
  bind (run D fuel f (enter D (2%positive, (0, 0)) (1%positive, (0, 0)) (1, 0) (0, w) (0, h) Lf 3%positive Lf)) (fun q => Some (pic D (snd q))).
Definition steps (sl n : Z) : list (Z * Z * Z) := map (fun t => (t, walk sl (t + 1), frac sl (t + 1))) (zs n).
Definition good (w h mode : Z) (m : tree sb) : bool :=
  let '(dx, dy) := direction mode in
  let cs := steps (slope dy dx) w in
  forallb (fun r => forallb (fun c =>
    match get m (Z.to_pos (fst (fst r) * 64 + fst (fst c) + 1)) with Some b => expect w h mode b r c | None => false end) cs) (steps (slope dx dy) h).
Definition check (lo hi : Z) (f : list stm) (mode w h v : Z) : bool :=
  match s_run lo hi f w h v with Some m => good w h mode m | None => false end.
Definition shapes : list (Z * Z) := [(4, 4); (8, 8); (16, 16); (32, 32); (64, 64); (16, 4); (32, 8); (4, 16); (8, 32)].
