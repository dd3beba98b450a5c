(** The machine for the vector kernels of the inverse transforms, source/common/vec/intrinsic_idct.cc
    and intrinsic_idct_avx2.cc. Definitions only. A kernel is a list of assignments to vector
    variables and of stores; the files VtModelA, VtModelB, ... give the kernels. All loops of the kernels have
    constant bounds and all conditions but one (a test of the stride, given as two kernels) depend on
    loop counters only, so a kernel is the list its loops unroll to. The instructions are those of VxModelBase, VdModel, ViModel and VjModel. *)
From Coq Require Import ZArith List Bool.
From Verif Require Import CBase MemModel VxModelBase VdModel ViModel VjModel.
Import ListNotations.
Open Scope Z_scope.

(** More instructions: subtraction of double words, the upper halves of quad words interleaved, the
    halves of a register from two places. *)
Definition sub_epi32 (a b : reg) : reg := mk32 (fun i => i32_of a i - i32_of b i).
Definition unpackhi_epi64 (a b : reg) : reg := fun k => let j := half k + 8 + k mod 8 in if (k mod 16) <? 8 then a j else b j.
Definition loadw2 (m : mem) (hiaddr loaddr : Z) : reg := set_halves (loadw m loaddr) (loadw m hiaddr).

(** An [int] operand: a literal, a parameter of the kernel (computed from the bit depth, see
    [kernel_params]), an [int] variable. *)
Inductive imm := I (z : Z) | Q (id : Z) | X (k : Z).
(** Instructions of two registers; [P20] and [P31] are [permute2x128] with those immediates. *)
Inductive bop := Add16 | Min16 | Max16 | Add32 | Sub32 | Madd | Packs32 | Lo16 | Hi16 | Lo32 | Hi32 | Lo64 | Hi64 | P20 | P31.
(** Expressions: a variable; a load of [w] words from [src + k]; two loads of eight words; a constant
    from memory; [set1_epi32] and [set1_epi16] of [w] words; the rest. *)
Inductive ex :=
  | R (r : Z) | Ld (w k : Z) | Ld2 (hi lo : Z) | Cst (l : list Z) | S32 (w : nat) (i : imm) | S16 (w : nat) (i : imm)
  | B (o : bop) (a b : ex) | Sra16 (a : ex) (i : imm) | Sra32 (a : ex) (i : imm).
(** Statements: a variable is assigned; an [int] variable is assigned; the words [from ..
    from + w - 1] of a register are stored at [dst + row * i_dst + col]. *)
Inductive ins := Set_ (r : Z) (e : ex) | SetI (k : Z) (i : imm) | St (w from row col : Z) (e : ex).

Definition bop_sem (o : bop) : reg -> reg -> reg :=
  match o with
  | Add16 => add_epi16 | Min16 => min_epi16 | Max16 => max_epi16 | Add32 => add_epi32 | Sub32 => sub_epi32
  | Madd => madd_epi16 | Packs32 => packs_epi32 | Lo16 => unpacklo_epi16 | Hi16 => unpackhi_epi16
  | Lo32 => unpacklo_epi32 | Hi32 => unpackhi_epi32 | Lo64 => unpacklo_epi64 | Hi64 => unpackhi_epi64
  | P20 => fun a b => permute2x128 a b 32 | P31 => fun a b => permute2x128 a b 49 end.

(** The state: vector variables, [int] variables, memory of [coeff_t] words. *)
Record vst := Vst { v_reg : Z -> reg; v_int : Z -> Z; v_mem : mem }.
Definition imm_val (pv : Z -> Z) (ints : Z -> Z) (i : imm) : Z := match i with I z => z | Q id => pv id | X k => ints k end.
Fixpoint ev (pv : Z -> Z) (src : Z) (s : vst) (e : ex) : reg :=
  match e with
  | R r => v_reg s r
  | Ld _ k => loadw (v_mem s) (src + k)
  | Ld2 hi lo => loadw2 (v_mem s) (src + hi) (src + lo)
  | Cst l => setr_epi16 l
  | S32 _ i => set1_epi32 (imm_val pv (v_int s) i)
  | S16 _ i => set1_epi16 (imm_val pv (v_int s) i)
  | B o a b => bop_sem o (ev pv src s a) (ev pv src s b)
  | Sra16 a i => srai_epi16 (ev pv src s a) (imm_val pv (v_int s) i)
  | Sra32 a i => srai_epi32 (ev pv src s a) (imm_val pv (v_int s) i) end.
Definition exec1 (pv : Z -> Z) (src dst stride : Z) (s : vst) (c : ins) : vst :=
  match c with
  | Set_ r e => let v := ev pv src s e in Vst (fun q => if q =? r then v else v_reg s q) (v_int s) (v_mem s)
  | SetI k i => let v := imm_val pv (v_int s) i in Vst (v_reg s) (fun q => if q =? k then v else v_int s q) (v_mem s)
  | St w from row col e =>
      let v := ev pv src s e in
      Vst (v_reg s) (v_int s) (storew w (v_mem s) (dst + row * stride + col) (fun k => v (k + 2 * from))) end.
(** A kernel runs on variables with any contents. *)
Definition run (p : list ins) (pv : Z -> Z) (src dst stride : Z) (regs : Z -> reg) (ints : Z -> Z) (m : mem) : mem :=
  v_mem (fold_left (exec1 pv src dst stride) p (Vst regs ints m)).

(** [for (i = 0; i < n; i++)] and [if] of a loop counter. *)
Definition loop (n : Z) (f : Z -> list ins) : list ins := flat_map (fun i => f (Z.of_nat i)) (seq 0 (Z.to_nat n)).
Definition when (c : bool) (l : list ins) : list ins := if c then l else [].

(** The parameters: shift, rounding term and limits of the second pass at [d] bits; [flag] is the
    lowest bit of the stride (or 0 in the kernels that do not look at it). *)
Definition SH2 : Z := 12290.
Definition RND2 : Z := 12291.
Definition HI2 : Z := 12292.
Definition LO2 : Z := 12293.
Definition kernel_params (d flag : Z) (id : Z) : Z :=
  let sh := 20 - d - flag in let cd := d + 1 + flag in
  if id =? SH2 then sh else if id =? RND2 then Z.shiftl 1 (sh - 1)
  else if id =? HI2 then Z.shiftl 1 (cd - 1) - 1 else if id =? LO2 then - Z.shiftl 1 (cd - 1) else 0.

(** Names as in the sources, for [_mm_*] and [_mm256_*] alike. *)
Notation add16 := (B Add16). Notation min16 := (B Min16). Notation max16 := (B Max16).
Notation add32 := (B Add32). Notation sub32 := (B Sub32). Notation madd := (B Madd). Notation packs32 := (B Packs32).
Notation lo16 := (B Lo16). Notation hi16 := (B Hi16). Notation lo32 := (B Lo32). Notation hi32 := (B Hi32).
Notation lo64 := (B Lo64). Notation hi64 := (B Hi64). Notation p20 := (B P20). Notation p31 := (B P31).
