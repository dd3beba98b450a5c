(** Vocabulary for the syntax-element properties. *)
From Coq Require Import ZArith List Bool.
From Verif Require Import CBase AecModel AecSpec SynModel.
Import ListNotations.
Open Scope Z_scope.

Definition legal (cs : ctxs) : Prop := forall j, legal_ctx (cs j).

(** From any decoder state with legal contexts, [m] does not hang and has undefined behaviour
    of its own only if [u]; the contexts stay legal and a returned value satisfies [Q]. *)
Definition safe_or (u : Prop) {A : Type} (m : syn A) (Q : A -> Prop) : Prop := forall a cs, legal cs ->
  match m a cs with
  | Done (_, cs1, o) => legal cs1 /\ match o with Some x => Q x | None => True end
  | Fail => True
  | Undef => u
  | Hang => False
  end.
Definition safe {A : Type} : syn A -> (A -> Prop) -> Prop := safe_or False.

(** The blocks [cu_read_all_coeffs] asks for: a coding unit of 8 to 64 samples, split types
    as [cu_set_tu_split_type] produces them (an 8x8 unit is never split horizontally or
    vertically), the exchange of rows and columns only for square blocks, and a quantiser
    within 16 bits. *)
Definition quant_ok (scale shift : Z) : Prop := 0 <= scale <= 65535 /\ 1 <= shift <= 17.
Definition split_ok (level split : Z) : Prop := 0 <= split <= 3 /\ (level = 3 -> split = NON \/ split = CROSS).
Definition block_in_use (p : blk) : Prop :=
  exists level split, 3 <= level <= 6 /\ split_ok level split /\ quant_ok (b_scale p) (b_shift p) /\
    ((exists dc swap, luma_blk level split dc swap (b_scale p) (b_shift p) = Some p /\
                      (swap = true -> split = NON \/ split = CROSS)) \/
     chroma_blk level split (b_scale p) (b_shift p) = Some p).

(** A reader of escape-coded levels: positive, and below 2^30 unless [u]. *)
Definition level_reader_or (u : Prop) (esc : syn Z) : Prop := safe_or u esc (fun v => 1 <= v /\ (u \/ v <= 1073741824)).
Definition level_reader : syn Z -> Prop := level_reader_or False.

(** Position (x, y) of offset [o] in a block [w] wide. *)
Definition at_xy (w x y o : Z) : Prop := 0 <= x < w /\ 0 <= y /\ o = y * w + x.

(** The writes of one group: at most sixteen, at different places, all inside the 4x4
    square of group (gx, gy), which is inside the block; values fit the buffer's type. *)
Definition group_ok (w h : Z) (g : group) : Prop :=
  let '(gx, gy, ws) := g in
  0 <= gx /\ 4 * gx + 4 <= w /\ 0 <= gy /\ 4 * gy + 4 <= h /\
  (1 <= length ws <= 16)%nat /\ NoDup (map fst ws) /\
  Forall (fun ov => (exists x y, at_xy w x y (fst ov) /\ 4 * gx <= x < 4 * gx + 4 /\ 4 * gy <= y < 4 * gy + 4) /\
                    in_i16 (snd ov)) ws.

(** All writes of a block: the groups are as above and no place is written twice. *)
Definition block_ok (w h : Z) (gs : list group) : Prop :=
  Forall (group_ok w h) gs /\ NoDup (concat (map (fun g => map fst (snd g)) gs)).

(** The part of a w x h block that a pattern declares occupied: both dimensions halved or
    quartered if the block is square, otherwise only the longer one. *)
Definition region (w h pat : Z) : Z * Z :=
  let d := if pat =? DCT_QUAD then 4 else if pat =? DCT_HALF then 2 else 1 in
  (if h <=? w then w / d else w, if w <=? h then h / d else h).
Definition within (w h pat : Z) (g : group) : Prop :=
  let '(gx, gy, ws) := g in
  Forall (fun ov => forall x y, at_xy w x y (fst ov) -> x < fst (region w h pat) /\ y < snd (region w h pat)) ws.

(** [n] equiprobable symbols in a row. *)
Fixpoint draw (n : nat) : syn (list bool) :=
  match n with O => ret [] | S k => let! b := byp in let! t := draw k in ret (negb (b =? 0) :: t) end.

(** Exponential-Golomb code of order 0: [n] zeros, a one, [n] bits. *)
Definition eg0 (bits : list bool) : Z := 2 ^ Z.of_nat (length bits) - 1 + be_val bits.
Definition eg0_code (bits : list bool) : list bool := repeat false (length bits) ++ [true] ++ bits.

(** The escape-code reader on data in which the code has at most 28 leading zeros. *)
Definition capped (start : Z) : syn Z := fun a cs =>
  match draw 29 a cs with
  | Done (_, _, Some bs) => if existsb (fun b => b) bs then esc_code start a cs else Fail
  | _ => Fail
  end.

(** ** Sample adaptive offset. *)
Definition off_at (p : sao_param) (i : Z) : Z := nth (Z.to_nat i) (s_off p) 0.
Definition edge_ok (p : sao_param) : Prop :=
  0 <= s_type p <= 3 /\ -1 <= off_at p 0 <= 6 /\ 0 <= off_at p 1 <= 1 /\ off_at p 2 = 0 /\
  -1 <= off_at p 3 <= 0 /\ -6 <= off_at p 4 <= 1.
Definition bands (p : sao_param) : list Z :=
  [s_band p; (s_band p + 1) mod 32; s_band2 p; (s_band2 p + 1) mod 32].
Definition band_ok (p : sao_param) : Prop :=
  s_type p = 4 /\ 0 <= s_band p <= 31 /\ 0 <= s_band2 p <= 31 /\ (NoDup (bands p) \/ s_band2 p = (s_band p + 1) mod 32) /\
  (forall i, 0 <= i < 32 -> -7 <= off_at p i <= 7) /\
  (forall i, 0 <= i < 32 -> ~ In i (bands p) -> off_at p i = 0).
Definition sao_ok (p : sao_param) : Prop :=
  length (s_off p) = 32%nat /\ (s_mode p = 0 \/ (s_mode p = 2 /\ (edge_ok p \/ band_ok p))).
Definition sao3_ok (t : sao3) : Prop := let '(a, b, c) := t in sao_ok a /\ sao_ok b /\ sao_ok c.
(** Availability flags as [sao_read_lcu] derives them: no left neighbour in the first
    column, none above in the first row. *)
Fixpoint avail_ok (w i : Z) (av : list (bool * bool)) : Prop :=
  match av with
  | [] => True
  | (lf, top) :: t => (lf = true -> i mod w <> 0) /\ (top = true -> w <= i) /\ avail_ok w (i + 1) t
  end.

(** ** Coding-unit elements. *)

(** Prediction types: 0 skip/direct, 1..7 inter, 8 and 9 intra whole or quartered, 10 and 11
    intra in stripes; split of the transform: none, horizontal, vertical, cross. *)
Definition intra_type (ty : Z) : Prop := 8 <= ty <= 11.
Definition directions (l : list Z) : Prop := length l = 4%nat /\ Forall (fun d => 0 <= d <= 4) l.
(** A reference index the prediction direction uses is a frame of the list. *)
Definition refs_for (d : Z) (r : Z * Z) : Prop :=
  (d = 0 -> fst r = 1) /\ (d = 1 -> snd r = 0) /\ (d = 2 \/ d = 3 -> r = (1, 0)).
