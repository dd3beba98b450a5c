(** The block copies of the assembly, as straight-line code and a counted loop. Definitions only.
    The lists of instructions follow the text of x86/blockcopy8.asm with its macros and [%rep] blocks
    written out. Memory is bytes, addresses are numbers without wrap, and the loads and stores of these
    functions ([movd], [movh], [movq], [movu]) need no alignment. *)
From Coq Require Import ZArith List Bool.
From Verif Require Import MemModel FtModel.
Import ListNotations.
Open Scope Z_scope.

(** An address [[ra * k + rb * l + c]]. *)
Definition adr := (list (Z * Z) * Z)%type.
(** [Lea] is [lea], and also [add ra, rb] (there the flags are not used); [Ld w v a] fills [w] bytes of vector register [v];
    [St w a v] writes the low [w] bytes of [v]. [w] is 4 for [movd], 8 for [movh] and [movq], 16 or 32 for [movu]. *)
Inductive ins := Lea (r : Z) (a : adr) | Ld (w v : Z) (a : adr) | St (w : Z) (a : adr) (v : Z).
(** The instructions before the label [.loop] and those from it to [jnz]. The counter and its [dec] are left
    out: it starts at the number of turns and no other instruction names it. *)
Inductive code := Code (pre body : list ins).

Record mach := Mach { gp : Z -> Z; vr : Z -> Z -> Z; me : mem }.
Definition ea (g : Z -> Z) (a : adr) : Z := fold_right (fun p t => snd p * g (fst p) + t) (snd a) (fst a).
Definition put {A : Type} (f : Z -> A) (k : Z) (x : A) : Z -> A := fun i => if i =? k then x else f i.
(** Bytes of a vector register above the [w] loaded are cleared. *)
Definition exec (i : ins) (s : mach) : mach :=
  match i with
  | Lea r a => Mach (put (gp s) r (ea (gp s) a)) (vr s) (me s)
  | Ld w v a => let p := ea (gp s) a in
                Mach (gp s) (put (vr s) v (fun k => if (0 <=? k) && (k <? w) then me s (p + k) else 0)) (me s)
  | St w a v => let p := ea (gp s) a in
                Mach (gp s) (vr s) (fun b => if (p <=? b) && (b <? p + w) then vr s v (b - p) else me s b)
  end.
Definition run (l : list ins) (s : mach) : mach := fold_left (fun s i => exec i s) l s.
Fixpoint turns (n : nat) (l : list ins) (s : mach) : mach :=
  match n with O => s | S k => turns k l (run l s) end.
(** The function called with r0 = dst, r1 = dstStride, r2 = src, r3 = srcStride; the other registers hold anything. *)
Definition copy_call (c : code * nat) (g : Z -> Z) (v : Z -> Z -> Z) (d sd s ss : Z) (m : mem) : mem :=
  let '(Code pre body, n) := c in
  me (turns n body (run pre (Mach (put (put (put (put g 0 d) 1 sd) 2 s) 3 ss) v m))).

(** pixel.cc:80-108 [davs2_blockcopy_pp_WxH], [davs2_blockcopy_ss_WxH]: elements of [u] bytes, strides in elements.
    An assignment of an element moves its [u] bytes. *)
Definition move (u d s : Z) (m : mem) : mem := fun b => if (d <=? b) && (b <? d + u) then m (s + (b - d)) else m b.
Definition blockcopy_c (u w h d sd s ss : Z) (m : mem) : mem :=
  loop (Z.to_nat h) (fun y m => loop (Z.to_nat w) (fun x m => move u (d + u * (y * sd + x)) (s + u * (y * ss + x)) m) m) m.

Inductive kind := PP | SS.
Inductive bname := Bname (k : kind) (w h : Z) (v : version).

(** x86/blockcopy8.asm:1007-1055; sizes 64x64, 64x32, 64x16, 64x48. *)
Definition code_pp_64x64_sse2 : code := Code
  []
  [
   Ld 16 0 ([(2, 1)], 0); Ld 16 1 ([(2, 1)], 16); Ld 16 2 ([(2, 1)], 32); Ld 16 3 ([(2, 1)], 48);
    Ld 16 4 ([(2, 1); (3, 1)], 0); Ld 16 5 ([(2, 1); (3, 1)], 16); St 16 ([(0, 1)], 0) 0; St 16 ([(0, 1)], 16) 1;
    St 16 ([(0, 1)], 32) 2; St 16 ([(0, 1)], 48) 3; St 16 ([(0, 1); (1, 1)], 0) 4; St 16 ([(0, 1); (1, 1)], 16) 5;
    Ld 16 0 ([(2, 1); (3, 1)], 32); Ld 16 1 ([(2, 1); (3, 1)], 48); Lea 2 ([(2, 1); (3, 2)], 0); Ld 16 2 ([(2, 1)], 0);
    Ld 16 3 ([(2, 1)], 16); Ld 16 4 ([(2, 1)], 32); Ld 16 5 ([(2, 1)], 48); St 16 ([(0, 1); (1, 1)], 32) 0;
    St 16 ([(0, 1); (1, 1)], 48) 1; Lea 0 ([(0, 1); (1, 2)], 0); St 16 ([(0, 1)], 0) 2; St 16 ([(0, 1)], 16) 3;
    St 16 ([(0, 1)], 32) 4; St 16 ([(0, 1)], 48) 5; Ld 16 0 ([(2, 1); (3, 1)], 0); Ld 16 1 ([(2, 1); (3, 1)], 16);
    Ld 16 2 ([(2, 1); (3, 1)], 32); Ld 16 3 ([(2, 1); (3, 1)], 48); St 16 ([(0, 1); (1, 1)], 0) 0;
    St 16 ([(0, 1); (1, 1)], 16) 1; St 16 ([(0, 1); (1, 1)], 32) 2; St 16 ([(0, 1); (1, 1)], 48) 3;
    Lea 0 ([(0, 1); (1, 2)], 0); Lea 2 ([(2, 1); (3, 2)], 0) ].
(** x86/blockcopy8.asm:691-721; sizes 32x64, 32x32, 32x16, 32x8, 32x24. *)
Definition code_pp_32x64_sse2 : code := Code
  []
  [
   Ld 16 0 ([(2, 1)], 0); Ld 16 1 ([(2, 1)], 16); Ld 16 2 ([(2, 1); (3, 1)], 0); Ld 16 3 ([(2, 1); (3, 1)], 16);
    Lea 2 ([(2, 1); (3, 2)], 0); St 16 ([(0, 1)], 0) 0; St 16 ([(0, 1)], 16) 1; St 16 ([(0, 1); (1, 1)], 0) 2;
    St 16 ([(0, 1); (1, 1)], 16) 3; Lea 0 ([(0, 1); (1, 2)], 0); Ld 16 0 ([(2, 1)], 0); Ld 16 1 ([(2, 1)], 16);
    Ld 16 2 ([(2, 1); (3, 1)], 0); Ld 16 3 ([(2, 1); (3, 1)], 16); St 16 ([(0, 1)], 0) 0; St 16 ([(0, 1)], 16) 1;
    St 16 ([(0, 1); (1, 1)], 0) 2; St 16 ([(0, 1); (1, 1)], 16) 3; Lea 0 ([(0, 1); (1, 2)], 0); Lea 2 ([(2, 1); (3, 2)], 0) ].
(** x86/blockcopy8.asm:602-635; sizes 16x64, 16x32, 16x16, 16x8. *)
Definition code_pp_16x64_sse2 : code := Code
  []
  [
   Ld 16 0 ([(2, 1)], 0); Ld 16 1 ([(2, 1); (3, 1)], 0); Lea 2 ([(2, 1); (3, 2)], 0); Ld 16 2 ([(2, 1)], 0);
    Ld 16 3 ([(2, 1); (3, 1)], 0); Lea 2 ([(2, 1); (3, 2)], 0); Ld 16 4 ([(2, 1)], 0); Ld 16 5 ([(2, 1); (3, 1)], 0);
    Lea 2 ([(2, 1); (3, 2)], 0); St 16 ([(0, 1)], 0) 0; St 16 ([(0, 1); (1, 1)], 0) 1; Lea 0 ([(0, 1); (1, 2)], 0);
    St 16 ([(0, 1)], 0) 2; St 16 ([(0, 1); (1, 1)], 0) 3; Lea 0 ([(0, 1); (1, 2)], 0); St 16 ([(0, 1)], 0) 4;
    St 16 ([(0, 1); (1, 1)], 0) 5; Lea 0 ([(0, 1); (1, 2)], 0); Ld 16 0 ([(2, 1)], 0); Ld 16 1 ([(2, 1); (3, 1)], 0);
    St 16 ([(0, 1)], 0) 0; St 16 ([(0, 1); (1, 1)], 0) 1; Lea 0 ([(0, 1); (1, 2)], 0); Lea 2 ([(2, 1); (3, 2)], 0) ].
(** x86/blockcopy8.asm:919-957; sizes 48x64. *)
Definition code_pp_48x64_sse2 : code := Code
  []
  [
   Ld 16 0 ([(2, 1)], 0); Ld 16 1 ([(2, 1)], 16); Ld 16 2 ([(2, 1)], 32); Ld 16 3 ([(2, 1); (3, 1)], 0);
    Ld 16 4 ([(2, 1); (3, 1)], 16); Ld 16 5 ([(2, 1); (3, 1)], 32); Lea 2 ([(2, 1); (3, 2)], 0); St 16 ([(0, 1)], 0) 0;
    St 16 ([(0, 1)], 16) 1; St 16 ([(0, 1)], 32) 2; St 16 ([(0, 1); (1, 1)], 0) 3; St 16 ([(0, 1); (1, 1)], 16) 4;
    St 16 ([(0, 1); (1, 1)], 32) 5; Lea 0 ([(0, 1); (1, 2)], 0); Ld 16 0 ([(2, 1)], 0); Ld 16 1 ([(2, 1)], 16);
    Ld 16 2 ([(2, 1)], 32); Ld 16 3 ([(2, 1); (3, 1)], 0); Ld 16 4 ([(2, 1); (3, 1)], 16); Ld 16 5 ([(2, 1); (3, 1)], 32);
    St 16 ([(0, 1)], 0) 0; St 16 ([(0, 1)], 16) 1; St 16 ([(0, 1)], 32) 2; St 16 ([(0, 1); (1, 1)], 0) 3;
    St 16 ([(0, 1); (1, 1)], 16) 4; St 16 ([(0, 1); (1, 1)], 32) 5; Lea 0 ([(0, 1); (1, 2)], 0); Lea 2 ([(2, 1); (3, 2)], 0) ].
(** x86/blockcopy8.asm:459-487; sizes 8x32. *)
Definition code_pp_8x32_sse2 : code := Code
  [Lea 4 ([(3, 3)], 0); Lea 5 ([(1, 3)], 0)]
  [
   Ld 8 0 ([(2, 1)], 0); Ld 8 1 ([(2, 1); (3, 1)], 0); Ld 8 2 ([(2, 1); (3, 2)], 0); Ld 8 3 ([(2, 1); (4, 1)], 0);
    St 8 ([(0, 1)], 0) 0; St 8 ([(0, 1); (1, 1)], 0) 1; St 8 ([(0, 1); (1, 2)], 0) 2; St 8 ([(0, 1); (5, 1)], 0) 3;
    Lea 2 ([(2, 1); (3, 4)], 0); Ld 8 0 ([(2, 1)], 0); Ld 8 1 ([(2, 1); (3, 1)], 0); Ld 8 2 ([(2, 1); (3, 2)], 0);
    Ld 8 3 ([(2, 1); (4, 1)], 0); Lea 0 ([(0, 1); (1, 4)], 0); St 8 ([(0, 1)], 0) 0; St 8 ([(0, 1); (1, 1)], 0) 1;
    St 8 ([(0, 1); (1, 2)], 0) 2; St 8 ([(0, 1); (5, 1)], 0) 3; Lea 2 ([(2, 1); (3, 4)], 0); Ld 8 0 ([(2, 1)], 0);
    Ld 8 1 ([(2, 1); (3, 1)], 0); Ld 8 2 ([(2, 1); (3, 2)], 0); Ld 8 3 ([(2, 1); (4, 1)], 0); Lea 0 ([(0, 1); (1, 4)], 0);
    St 8 ([(0, 1)], 0) 0; St 8 ([(0, 1); (1, 1)], 0) 1; St 8 ([(0, 1); (1, 2)], 0) 2; St 8 ([(0, 1); (5, 1)], 0) 3;
    Lea 2 ([(2, 1); (3, 4)], 0); Ld 8 0 ([(2, 1)], 0); Ld 8 1 ([(2, 1); (3, 1)], 0); Ld 8 2 ([(2, 1); (3, 2)], 0);
    Ld 8 3 ([(2, 1); (4, 1)], 0); Lea 0 ([(0, 1); (1, 4)], 0); St 8 ([(0, 1)], 0) 0; St 8 ([(0, 1); (1, 1)], 0) 1;
    St 8 ([(0, 1); (1, 2)], 0) 2; St 8 ([(0, 1); (5, 1)], 0) 3; Lea 2 ([(2, 1); (3, 4)], 0); Ld 8 0 ([(2, 1)], 0);
    Ld 8 1 ([(2, 1); (3, 1)], 0); Ld 8 2 ([(2, 1); (3, 2)], 0); Ld 8 3 ([(2, 1); (4, 1)], 0); Lea 0 ([(0, 1); (1, 4)], 0);
    St 8 ([(0, 1)], 0) 0; St 8 ([(0, 1); (1, 1)], 0) 1; St 8 ([(0, 1); (1, 2)], 0) 2; St 8 ([(0, 1); (5, 1)], 0) 3;
    Lea 2 ([(2, 1); (3, 4)], 0); Ld 8 0 ([(2, 1)], 0); Ld 8 1 ([(2, 1); (3, 1)], 0); Ld 8 2 ([(2, 1); (3, 2)], 0);
    Ld 8 3 ([(2, 1); (4, 1)], 0); Lea 0 ([(0, 1); (1, 4)], 0); St 8 ([(0, 1)], 0) 0; St 8 ([(0, 1); (1, 1)], 0) 1;
    St 8 ([(0, 1); (1, 2)], 0) 2; St 8 ([(0, 1); (5, 1)], 0) 3; Lea 2 ([(2, 1); (3, 4)], 0); Ld 8 0 ([(2, 1)], 0);
    Ld 8 1 ([(2, 1); (3, 1)], 0); Ld 8 2 ([(2, 1); (3, 2)], 0); Ld 8 3 ([(2, 1); (4, 1)], 0); Lea 0 ([(0, 1); (1, 4)], 0);
    St 8 ([(0, 1)], 0) 0; St 8 ([(0, 1); (1, 1)], 0) 1; St 8 ([(0, 1); (1, 2)], 0) 2; St 8 ([(0, 1); (5, 1)], 0) 3;
    Lea 2 ([(2, 1); (3, 4)], 0); Ld 8 0 ([(2, 1)], 0); Ld 8 1 ([(2, 1); (3, 1)], 0); Ld 8 2 ([(2, 1); (3, 2)], 0);
    Ld 8 3 ([(2, 1); (4, 1)], 0); Lea 0 ([(0, 1); (1, 4)], 0); St 8 ([(0, 1)], 0) 0; St 8 ([(0, 1); (1, 1)], 0) 1;
    St 8 ([(0, 1); (1, 2)], 0) 2; St 8 ([(0, 1); (5, 1)], 0) 3 ].
(** x86/blockcopy8.asm:650-679; sizes 24x32. *)
Definition code_pp_24x32_sse2 : code := Code
  []
  [
   Ld 16 0 ([(2, 1)], 0); Ld 8 1 ([(2, 1)], 16); Ld 16 2 ([(2, 1); (3, 1)], 0); Ld 8 3 ([(2, 1); (3, 1)], 16);
    Lea 2 ([(2, 1); (3, 2)], 0); Ld 16 4 ([(2, 1)], 0); Ld 8 5 ([(2, 1)], 16); St 16 ([(0, 1)], 0) 0; St 8 ([(0, 1)], 16) 1;
    St 16 ([(0, 1); (1, 1)], 0) 2; St 8 ([(0, 1); (1, 1)], 16) 3; Lea 0 ([(0, 1); (1, 2)], 0); St 16 ([(0, 1)], 0) 4;
    St 8 ([(0, 1)], 16) 5; Ld 16 0 ([(2, 1); (3, 1)], 0); Ld 8 1 ([(2, 1); (3, 1)], 16); St 16 ([(0, 1); (1, 1)], 0) 0;
    St 8 ([(0, 1); (1, 1)], 16) 1; Lea 0 ([(0, 1); (1, 2)], 0); Lea 2 ([(2, 1); (3, 2)], 0) ].
(** x86/blockcopy8.asm:425-453; sizes 8x16. *)
Definition code_pp_8x16_sse2 : code := Code
  [Lea 4 ([(3, 3)], 0); Lea 5 ([(1, 3)], 0)]
  [
   Ld 8 0 ([(2, 1)], 0); Ld 8 1 ([(2, 1); (3, 1)], 0); Ld 8 2 ([(2, 1); (3, 2)], 0); Ld 8 3 ([(2, 1); (4, 1)], 0);
    St 8 ([(0, 1)], 0) 0; St 8 ([(0, 1); (1, 1)], 0) 1; St 8 ([(0, 1); (1, 2)], 0) 2; St 8 ([(0, 1); (5, 1)], 0) 3;
    Lea 2 ([(2, 1); (3, 4)], 0); Ld 8 0 ([(2, 1)], 0); Ld 8 1 ([(2, 1); (3, 1)], 0); Ld 8 2 ([(2, 1); (3, 2)], 0);
    Ld 8 3 ([(2, 1); (4, 1)], 0); Lea 0 ([(0, 1); (1, 4)], 0); St 8 ([(0, 1)], 0) 0; St 8 ([(0, 1); (1, 1)], 0) 1;
    St 8 ([(0, 1); (1, 2)], 0) 2; St 8 ([(0, 1); (5, 1)], 0) 3; Lea 2 ([(2, 1); (3, 4)], 0); Ld 8 0 ([(2, 1)], 0);
    Ld 8 1 ([(2, 1); (3, 1)], 0); Ld 8 2 ([(2, 1); (3, 2)], 0); Ld 8 3 ([(2, 1); (4, 1)], 0); Lea 0 ([(0, 1); (1, 4)], 0);
    St 8 ([(0, 1)], 0) 0; St 8 ([(0, 1); (1, 1)], 0) 1; St 8 ([(0, 1); (1, 2)], 0) 2; St 8 ([(0, 1); (5, 1)], 0) 3;
    Lea 2 ([(2, 1); (3, 4)], 0); Ld 8 0 ([(2, 1)], 0); Ld 8 1 ([(2, 1); (3, 1)], 0); Ld 8 2 ([(2, 1); (3, 2)], 0);
    Ld 8 3 ([(2, 1); (4, 1)], 0); Lea 0 ([(0, 1); (1, 4)], 0); St 8 ([(0, 1)], 0) 0; St 8 ([(0, 1); (1, 1)], 0) 1;
    St 8 ([(0, 1); (1, 2)], 0) 2; St 8 ([(0, 1); (5, 1)], 0) 3 ].
(** x86/blockcopy8.asm:570-591; sizes 16x4, 16x12. *)
Definition code_pp_16x4_sse2 : code := Code
  []
  [
   Ld 16 0 ([(2, 1)], 0); Ld 16 1 ([(2, 1); (3, 1)], 0); Lea 2 ([(2, 1); (3, 2)], 0); Ld 16 2 ([(2, 1)], 0);
    Ld 16 3 ([(2, 1); (3, 1)], 0); St 16 ([(0, 1)], 0) 0; St 16 ([(0, 1); (1, 1)], 0) 1; Lea 0 ([(0, 1); (1, 2)], 0);
    St 16 ([(0, 1)], 0) 2; St 16 ([(0, 1); (1, 1)], 0) 3; Lea 0 ([(0, 1); (1, 2)], 0); Lea 2 ([(2, 1); (3, 2)], 0) ].
(** x86/blockcopy8.asm:189-222; sizes 4x16. *)
Definition code_pp_4x16_sse2 : code := Code
  [Lea 5 ([(1, 3)], 0); Lea 6 ([(3, 3)], 0)]
  [
   Ld 4 0 ([(2, 1)], 0); Ld 4 1 ([(2, 1); (3, 1)], 0); Ld 4 2 ([(2, 1); (3, 2)], 0); Ld 4 3 ([(2, 1); (6, 1)], 0);
    St 4 ([(0, 1)], 0) 0; St 4 ([(0, 1); (1, 1)], 0) 1; St 4 ([(0, 1); (1, 2)], 0) 2; St 4 ([(0, 1); (5, 1)], 0) 3;
    Lea 2 ([(2, 1); (3, 4)], 0); Ld 4 0 ([(2, 1)], 0); Ld 4 1 ([(2, 1); (3, 1)], 0); Ld 4 2 ([(2, 1); (3, 2)], 0);
    Ld 4 3 ([(2, 1); (6, 1)], 0); Lea 0 ([(0, 1); (1, 4)], 0); St 4 ([(0, 1)], 0) 0; St 4 ([(0, 1); (1, 1)], 0) 1;
    St 4 ([(0, 1); (1, 2)], 0) 2; St 4 ([(0, 1); (5, 1)], 0) 3; Lea 0 ([(0, 1); (1, 4)], 0); Lea 2 ([(2, 1); (3, 4)], 0) ].
(** x86/blockcopy8.asm:528-558; sizes 12x16. *)
Definition code_pp_12x16_sse2 : code := Code
  []
  [
   Ld 8 0 ([(2, 1)], 0); Ld 4 1 ([(2, 1)], 8); Ld 8 2 ([(2, 1); (3, 1)], 0); Ld 4 3 ([(2, 1); (3, 1)], 8);
    Lea 2 ([(2, 1); (3, 2)], 0); St 8 ([(0, 1)], 0) 0; St 4 ([(0, 1)], 8) 1; St 8 ([(0, 1); (1, 1)], 0) 2;
    St 4 ([(0, 1); (1, 1)], 8) 3; Lea 0 ([(0, 1); (1, 2)], 0); Ld 8 0 ([(2, 1)], 0); Ld 4 1 ([(2, 1)], 8);
    Ld 8 2 ([(2, 1); (3, 1)], 0); Ld 4 3 ([(2, 1); (3, 1)], 8); St 8 ([(0, 1)], 0) 0; St 4 ([(0, 1)], 8) 1;
    St 8 ([(0, 1); (1, 1)], 0) 2; St 4 ([(0, 1); (1, 1)], 8) 3; Lea 0 ([(0, 1); (1, 2)], 0); Lea 2 ([(2, 1); (3, 2)], 0) ].
(** x86/blockcopy8.asm:393-419; sizes 8x8. *)
Definition code_pp_8x8_sse2 : code := Code
  [Lea 4 ([(3, 3)], 0); Lea 5 ([(1, 3)], 0)]
  [
   Ld 8 0 ([(2, 1)], 0); Ld 8 1 ([(2, 1); (3, 1)], 0); Ld 8 2 ([(2, 1); (3, 2)], 0); Ld 8 3 ([(2, 1); (4, 1)], 0);
    St 8 ([(0, 1)], 0) 0; St 8 ([(0, 1); (1, 1)], 0) 1; St 8 ([(0, 1); (1, 2)], 0) 2; St 8 ([(0, 1); (5, 1)], 0) 3;
    Lea 2 ([(2, 1); (3, 4)], 0); Ld 8 0 ([(2, 1)], 0); Ld 8 1 ([(2, 1); (3, 1)], 0); Ld 8 2 ([(2, 1); (3, 2)], 0);
    Ld 8 3 ([(2, 1); (4, 1)], 0); Lea 0 ([(0, 1); (1, 4)], 0); St 8 ([(0, 1)], 0) 0; St 8 ([(0, 1); (1, 1)], 0) 1;
    St 8 ([(0, 1); (1, 2)], 0) 2; St 8 ([(0, 1); (5, 1)], 0) 3 ].
(** x86/blockcopy8.asm:317-329; sizes 8x4. *)
Definition code_pp_8x4_sse2 : code := Code
  []
  [
   Ld 8 0 ([(2, 1)], 0); Ld 8 1 ([(2, 1); (3, 1)], 0); Ld 8 2 ([(2, 1); (3, 2)], 0); Lea 3 ([(3, 3)], 0);
    Ld 8 3 ([(2, 1); (3, 1)], 0); St 8 ([(0, 1)], 0) 0; St 8 ([(0, 1); (1, 1)], 0) 1; St 8 ([(0, 1); (1, 2)], 0) 2;
    Lea 1 ([(1, 3)], 0); St 8 ([(0, 1); (1, 1)], 0) 3 ].
(** x86/blockcopy8.asm:156-182; sizes 4x8. *)
Definition code_pp_4x8_sse2 : code := Code
  [Lea 4 ([(1, 3)], 0); Lea 5 ([(3, 3)], 0)]
  [
   Ld 4 0 ([(2, 1)], 0); Ld 4 1 ([(2, 1); (3, 1)], 0); Ld 4 2 ([(2, 1); (3, 2)], 0); Ld 4 3 ([(2, 1); (5, 1)], 0);
    St 4 ([(0, 1)], 0) 0; St 4 ([(0, 1); (1, 1)], 0) 1; St 4 ([(0, 1); (1, 2)], 0) 2; St 4 ([(0, 1); (4, 1)], 0) 3;
    Lea 2 ([(2, 1); (3, 4)], 0); Ld 4 0 ([(2, 1)], 0); Ld 4 1 ([(2, 1); (3, 1)], 0); Ld 4 2 ([(2, 1); (3, 2)], 0);
    Ld 4 3 ([(2, 1); (5, 1)], 0); Lea 0 ([(0, 1); (1, 4)], 0); St 4 ([(0, 1)], 0) 0; St 4 ([(0, 1); (1, 1)], 0) 1;
    St 4 ([(0, 1); (1, 2)], 0) 2; St 4 ([(0, 1); (4, 1)], 0) 3 ].
(** x86/blockcopy8.asm:138-150; sizes 4x4. *)
Definition code_pp_4x4_sse2 : code := Code
  []
  [
   Ld 4 0 ([(2, 1)], 0); Ld 4 1 ([(2, 1); (3, 1)], 0); Ld 4 2 ([(2, 1); (3, 2)], 0); Lea 3 ([(3, 3)], 0);
    Ld 4 3 ([(2, 1); (3, 1)], 0); St 4 ([(0, 1)], 0) 0; St 4 ([(0, 1); (1, 1)], 0) 1; St 4 ([(0, 1); (1, 2)], 0) 2;
    Lea 1 ([(1, 3)], 0); St 4 ([(0, 1); (1, 1)], 0) 3 ].
(** x86/blockcopy8.asm:1068-1098; sizes 64x64, 64x32, 64x16, 64x48. *)
Definition code_pp_64x64_avx : code := Code
  [Lea 4 ([(1, 3)], 0); Lea 5 ([(3, 3)], 0)]
  [
   Ld 32 0 ([(2, 1)], 0); Ld 32 1 ([(2, 1)], 32); Ld 32 2 ([(2, 1); (3, 1)], 0); Ld 32 3 ([(2, 1); (3, 1)], 32);
    Ld 32 4 ([(2, 1); (3, 2)], 0); Ld 32 5 ([(2, 1); (3, 2)], 32); St 32 ([(0, 1)], 0) 0; St 32 ([(0, 1)], 32) 1;
    St 32 ([(0, 1); (1, 1)], 0) 2; St 32 ([(0, 1); (1, 1)], 32) 3; St 32 ([(0, 1); (1, 2)], 0) 4;
    St 32 ([(0, 1); (1, 2)], 32) 5; Ld 32 0 ([(2, 1); (5, 1)], 0); Ld 32 1 ([(2, 1); (5, 1)], 32);
    St 32 ([(0, 1); (4, 1)], 0) 0; St 32 ([(0, 1); (4, 1)], 32) 1; Lea 2 ([(2, 1); (3, 4)], 0); Lea 0 ([(0, 1); (1, 4)], 0) ].
(** x86/blockcopy8.asm:853-907; sizes 32x64, 32x32. *)
Definition code_pp_32x64_avx : code := Code
  [Lea 4 ([(1, 3)], 0); Lea 5 ([(3, 3)], 0)]
  [
   Ld 32 0 ([(2, 1)], 0); Ld 32 1 ([(2, 1); (3, 1)], 0); Ld 32 2 ([(2, 1); (3, 2)], 0); Ld 32 3 ([(2, 1); (5, 1)], 0);
    Lea 2 ([(2, 1); (3, 4)], 0); Ld 32 4 ([(2, 1)], 0); Ld 32 5 ([(2, 1); (3, 1)], 0); St 32 ([(0, 1)], 0) 0;
    St 32 ([(0, 1); (1, 1)], 0) 1; St 32 ([(0, 1); (1, 2)], 0) 2; St 32 ([(0, 1); (4, 1)], 0) 3;
    Lea 0 ([(0, 1); (1, 4)], 0); St 32 ([(0, 1)], 0) 4; St 32 ([(0, 1); (1, 1)], 0) 5; Ld 32 0 ([(2, 1); (3, 2)], 0);
    Ld 32 1 ([(2, 1); (5, 1)], 0); Lea 2 ([(2, 1); (3, 4)], 0); Ld 32 2 ([(2, 1)], 0); Ld 32 3 ([(2, 1); (3, 1)], 0);
    Ld 32 4 ([(2, 1); (3, 2)], 0); Ld 32 5 ([(2, 1); (5, 1)], 0); St 32 ([(0, 1); (1, 2)], 0) 0;
    St 32 ([(0, 1); (4, 1)], 0) 1; Lea 0 ([(0, 1); (1, 4)], 0); St 32 ([(0, 1)], 0) 2; St 32 ([(0, 1); (1, 1)], 0) 3;
    St 32 ([(0, 1); (1, 2)], 0) 4; St 32 ([(0, 1); (4, 1)], 0) 5; Lea 2 ([(2, 1); (3, 4)], 0); Ld 32 0 ([(2, 1)], 0);
    Ld 32 1 ([(2, 1); (3, 1)], 0); Ld 32 2 ([(2, 1); (3, 2)], 0); Ld 32 3 ([(2, 1); (5, 1)], 0);
    Lea 0 ([(0, 1); (1, 4)], 0); St 32 ([(0, 1)], 0) 0; St 32 ([(0, 1); (1, 1)], 0) 1; St 32 ([(0, 1); (1, 2)], 0) 2;
    St 32 ([(0, 1); (4, 1)], 0) 3; Lea 2 ([(2, 1); (3, 4)], 0); Lea 0 ([(0, 1); (1, 4)], 0) ].
(** x86/blockcopy8.asm:967-997; sizes 48x64. *)
Definition code_pp_48x64_avx : code := Code
  []
  [
   Ld 32 0 ([(2, 1)], 0); Ld 16 1 ([(2, 1)], 32); Ld 32 2 ([(2, 1); (3, 1)], 0); Ld 16 3 ([(2, 1); (3, 1)], 32);
    Lea 2 ([(2, 1); (3, 2)], 0); St 32 ([(0, 1)], 0) 0; St 16 ([(0, 1)], 32) 1; St 32 ([(0, 1); (1, 1)], 0) 2;
    St 16 ([(0, 1); (1, 1)], 32) 3; Lea 0 ([(0, 1); (1, 2)], 0); Ld 32 0 ([(2, 1)], 0); Ld 16 1 ([(2, 1)], 32);
    Ld 32 2 ([(2, 1); (3, 1)], 0); Ld 16 3 ([(2, 1); (3, 1)], 32); St 32 ([(0, 1)], 0) 0; St 16 ([(0, 1)], 32) 1;
    St 32 ([(0, 1); (1, 1)], 0) 2; St 16 ([(0, 1); (1, 1)], 32) 3; Lea 0 ([(0, 1); (1, 2)], 0); Lea 2 ([(2, 1); (3, 2)], 0) ].
(** x86/blockcopy8.asm:761-808; sizes 32x16. *)
Definition code_pp_32x16_avx : code := Code
  [Lea 4 ([(1, 3)], 0); Lea 5 ([(3, 3)], 0)]
  [
   Ld 32 0 ([(2, 1)], 0); Ld 32 1 ([(2, 1); (3, 1)], 0); Ld 32 2 ([(2, 1); (3, 2)], 0); Ld 32 3 ([(2, 1); (5, 1)], 0);
    Lea 2 ([(2, 1); (3, 4)], 0); Ld 32 4 ([(2, 1)], 0); Ld 32 5 ([(2, 1); (3, 1)], 0); St 32 ([(0, 1)], 0) 0;
    St 32 ([(0, 1); (1, 1)], 0) 1; St 32 ([(0, 1); (1, 2)], 0) 2; St 32 ([(0, 1); (4, 1)], 0) 3;
    Lea 0 ([(0, 1); (1, 4)], 0); St 32 ([(0, 1)], 0) 4; St 32 ([(0, 1); (1, 1)], 0) 5; Ld 32 0 ([(2, 1); (3, 2)], 0);
    Ld 32 1 ([(2, 1); (5, 1)], 0); Lea 2 ([(2, 1); (3, 4)], 0); Ld 32 2 ([(2, 1)], 0); Ld 32 3 ([(2, 1); (3, 1)], 0);
    Ld 32 4 ([(2, 1); (3, 2)], 0); Ld 32 5 ([(2, 1); (5, 1)], 0); St 32 ([(0, 1); (1, 2)], 0) 0;
    St 32 ([(0, 1); (4, 1)], 0) 1; Lea 0 ([(0, 1); (1, 4)], 0); St 32 ([(0, 1)], 0) 2; St 32 ([(0, 1); (1, 1)], 0) 3;
    St 32 ([(0, 1); (1, 2)], 0) 4; St 32 ([(0, 1); (4, 1)], 0) 5; Lea 2 ([(2, 1); (3, 4)], 0); Ld 32 0 ([(2, 1)], 0);
    Ld 32 1 ([(2, 1); (3, 1)], 0); Ld 32 2 ([(2, 1); (3, 2)], 0); Ld 32 3 ([(2, 1); (5, 1)], 0);
    Lea 0 ([(0, 1); (1, 4)], 0); St 32 ([(0, 1)], 0) 0; St 32 ([(0, 1); (1, 1)], 0) 1; St 32 ([(0, 1); (1, 2)], 0) 2;
    St 32 ([(0, 1); (4, 1)], 0) 3 ].
(** x86/blockcopy8.asm:733-758; sizes 32x8. *)
Definition code_pp_32x8_avx : code := Code
  [Lea 4 ([(1, 3)], 0); Lea 5 ([(3, 3)], 0)]
  [
   Ld 32 0 ([(2, 1)], 0); Ld 32 1 ([(2, 1); (3, 1)], 0); Ld 32 2 ([(2, 1); (3, 2)], 0); Ld 32 3 ([(2, 1); (5, 1)], 0);
    Lea 2 ([(2, 1); (3, 4)], 0); Ld 32 4 ([(2, 1)], 0); Ld 32 5 ([(2, 1); (3, 1)], 0); St 32 ([(0, 1)], 0) 0;
    St 32 ([(0, 1); (1, 1)], 0) 1; St 32 ([(0, 1); (1, 2)], 0) 2; St 32 ([(0, 1); (4, 1)], 0) 3;
    Lea 0 ([(0, 1); (1, 4)], 0); St 32 ([(0, 1)], 0) 4; St 32 ([(0, 1); (1, 1)], 0) 5; Ld 32 0 ([(2, 1); (3, 2)], 0);
    Ld 32 1 ([(2, 1); (5, 1)], 0); St 32 ([(0, 1); (1, 2)], 0) 0; St 32 ([(0, 1); (4, 1)], 0) 1 ].
(** x86/blockcopy8.asm:814-846; sizes 32x24. *)
Definition code_pp_32x24_avx : code := Code
  [Lea 4 ([(1, 3)], 0); Lea 5 ([(3, 3)], 0)]
  [
   Ld 32 0 ([(2, 1)], 0); Ld 32 1 ([(2, 1); (3, 1)], 0); Ld 32 2 ([(2, 1); (3, 2)], 0); Ld 32 3 ([(2, 1); (5, 1)], 0);
    Lea 2 ([(2, 1); (3, 4)], 0); Ld 32 4 ([(2, 1)], 0); Ld 32 5 ([(2, 1); (3, 1)], 0); St 32 ([(0, 1)], 0) 0;
    St 32 ([(0, 1); (1, 1)], 0) 1; St 32 ([(0, 1); (1, 2)], 0) 2; St 32 ([(0, 1); (4, 1)], 0) 3;
    Lea 0 ([(0, 1); (1, 4)], 0); St 32 ([(0, 1)], 0) 4; St 32 ([(0, 1); (1, 1)], 0) 5; Ld 32 0 ([(2, 1); (3, 2)], 0);
    Ld 32 1 ([(2, 1); (5, 1)], 0); St 32 ([(0, 1); (1, 2)], 0) 0; St 32 ([(0, 1); (4, 1)], 0) 1;
    Lea 2 ([(2, 1); (3, 4)], 0); Lea 0 ([(0, 1); (1, 4)], 0) ].
(** x86/blockcopy8.asm:4187-4280; sizes 64x64, 64x32, 64x16, 64x48. *)
Definition code_ss_64x64_sse2 : code := Code
  [Lea 1 ([(1, 2)], 0); Lea 3 ([(3, 2)], 0)]
  [
   Ld 16 0 ([(2, 1)], 0); Ld 16 1 ([(2, 1)], 16); Ld 16 2 ([(2, 1)], 32); Ld 16 3 ([(2, 1)], 48); St 16 ([(0, 1)], 0) 0;
    St 16 ([(0, 1)], 16) 1; St 16 ([(0, 1)], 32) 2; St 16 ([(0, 1)], 48) 3; Ld 16 0 ([(2, 1)], 64); Ld 16 1 ([(2, 1)], 80);
    Ld 16 2 ([(2, 1)], 96); Ld 16 3 ([(2, 1)], 112); St 16 ([(0, 1)], 64) 0; St 16 ([(0, 1)], 80) 1; St 16 ([(0, 1)], 96) 2;
    St 16 ([(0, 1)], 112) 3; Ld 16 0 ([(2, 1); (3, 1)], 0); Ld 16 1 ([(2, 1); (3, 1)], 16); Ld 16 2 ([(2, 1); (3, 1)], 32);
    Ld 16 3 ([(2, 1); (3, 1)], 48); St 16 ([(0, 1); (1, 1)], 0) 0; St 16 ([(0, 1); (1, 1)], 16) 1;
    St 16 ([(0, 1); (1, 1)], 32) 2; St 16 ([(0, 1); (1, 1)], 48) 3; Ld 16 0 ([(2, 1); (3, 1)], 64);
    Ld 16 1 ([(2, 1); (3, 1)], 80); Ld 16 2 ([(2, 1); (3, 1)], 96); Ld 16 3 ([(2, 1); (3, 1)], 112);
    St 16 ([(0, 1); (1, 1)], 64) 0; St 16 ([(0, 1); (1, 1)], 80) 1; St 16 ([(0, 1); (1, 1)], 96) 2;
    St 16 ([(0, 1); (1, 1)], 112) 3; Lea 2 ([(2, 1); (3, 2)], 0); Lea 0 ([(0, 1); (1, 2)], 0); Ld 16 0 ([(2, 1)], 0);
    Ld 16 1 ([(2, 1)], 16); Ld 16 2 ([(2, 1)], 32); Ld 16 3 ([(2, 1)], 48); St 16 ([(0, 1)], 0) 0; St 16 ([(0, 1)], 16) 1;
    St 16 ([(0, 1)], 32) 2; St 16 ([(0, 1)], 48) 3; Ld 16 0 ([(2, 1)], 64); Ld 16 1 ([(2, 1)], 80); Ld 16 2 ([(2, 1)], 96);
    Ld 16 3 ([(2, 1)], 112); St 16 ([(0, 1)], 64) 0; St 16 ([(0, 1)], 80) 1; St 16 ([(0, 1)], 96) 2;
    St 16 ([(0, 1)], 112) 3; Ld 16 0 ([(2, 1); (3, 1)], 0); Ld 16 1 ([(2, 1); (3, 1)], 16); Ld 16 2 ([(2, 1); (3, 1)], 32);
    Ld 16 3 ([(2, 1); (3, 1)], 48); St 16 ([(0, 1); (1, 1)], 0) 0; St 16 ([(0, 1); (1, 1)], 16) 1;
    St 16 ([(0, 1); (1, 1)], 32) 2; St 16 ([(0, 1); (1, 1)], 48) 3; Ld 16 0 ([(2, 1); (3, 1)], 64);
    Ld 16 1 ([(2, 1); (3, 1)], 80); Ld 16 2 ([(2, 1); (3, 1)], 96); Ld 16 3 ([(2, 1); (3, 1)], 112);
    St 16 ([(0, 1); (1, 1)], 64) 0; St 16 ([(0, 1); (1, 1)], 80) 1; St 16 ([(0, 1); (1, 1)], 96) 2;
    St 16 ([(0, 1); (1, 1)], 112) 3; Lea 2 ([(2, 1); (3, 2)], 0); Lea 0 ([(0, 1); (1, 2)], 0) ].
(** x86/blockcopy8.asm:3940-3992; sizes 32x64, 32x32, 32x16, 32x8, 32x24. *)
Definition code_ss_32x64_sse2 : code := Code
  [Lea 1 ([(1, 2)], 0); Lea 3 ([(3, 2)], 0)]
  [
   Ld 16 0 ([(2, 1)], 0); Ld 16 1 ([(2, 1)], 16); Ld 16 2 ([(2, 1)], 32); Ld 16 3 ([(2, 1)], 48); St 16 ([(0, 1)], 0) 0;
    St 16 ([(0, 1)], 16) 1; St 16 ([(0, 1)], 32) 2; St 16 ([(0, 1)], 48) 3; Ld 16 0 ([(2, 1); (3, 1)], 0);
    Ld 16 1 ([(2, 1); (3, 1)], 16); Ld 16 2 ([(2, 1); (3, 1)], 32); Ld 16 3 ([(2, 1); (3, 1)], 48);
    St 16 ([(0, 1); (1, 1)], 0) 0; St 16 ([(0, 1); (1, 1)], 16) 1; St 16 ([(0, 1); (1, 1)], 32) 2;
    St 16 ([(0, 1); (1, 1)], 48) 3; Lea 2 ([(2, 1); (3, 2)], 0); Lea 0 ([(0, 1); (1, 2)], 0); Ld 16 0 ([(2, 1)], 0);
    Ld 16 1 ([(2, 1)], 16); Ld 16 2 ([(2, 1)], 32); Ld 16 3 ([(2, 1)], 48); St 16 ([(0, 1)], 0) 0; St 16 ([(0, 1)], 16) 1;
    St 16 ([(0, 1)], 32) 2; St 16 ([(0, 1)], 48) 3; Ld 16 0 ([(2, 1); (3, 1)], 0); Ld 16 1 ([(2, 1); (3, 1)], 16);
    Ld 16 2 ([(2, 1); (3, 1)], 32); Ld 16 3 ([(2, 1); (3, 1)], 48); St 16 ([(0, 1); (1, 1)], 0) 0;
    St 16 ([(0, 1); (1, 1)], 16) 1; St 16 ([(0, 1); (1, 1)], 32) 2; St 16 ([(0, 1); (1, 1)], 48) 3;
    Lea 2 ([(2, 1); (3, 2)], 0); Lea 0 ([(0, 1); (1, 2)], 0) ].
(** x86/blockcopy8.asm:3776-3834; sizes 16x64, 16x32, 16x16, 16x8. *)
Definition code_ss_16x64_sse2 : code := Code
  [Lea 1 ([(1, 2)], 0); Lea 3 ([(3, 2)], 0)]
  [
   Ld 16 0 ([(2, 1)], 0); Ld 16 1 ([(2, 1)], 16); Ld 16 2 ([(2, 1); (3, 1)], 0); Ld 16 3 ([(2, 1); (3, 1)], 16);
    St 16 ([(0, 1)], 0) 0; St 16 ([(0, 1)], 16) 1; St 16 ([(0, 1); (1, 1)], 0) 2; St 16 ([(0, 1); (1, 1)], 16) 3;
    Lea 2 ([(2, 1); (3, 2)], 0); Lea 0 ([(0, 1); (1, 2)], 0); Ld 16 0 ([(2, 1)], 0); Ld 16 1 ([(2, 1)], 16);
    Ld 16 2 ([(2, 1); (3, 1)], 0); Ld 16 3 ([(2, 1); (3, 1)], 16); St 16 ([(0, 1)], 0) 0; St 16 ([(0, 1)], 16) 1;
    St 16 ([(0, 1); (1, 1)], 0) 2; St 16 ([(0, 1); (1, 1)], 16) 3; Lea 2 ([(2, 1); (3, 2)], 0); Lea 0 ([(0, 1); (1, 2)], 0);
    Ld 16 0 ([(2, 1)], 0); Ld 16 1 ([(2, 1)], 16); Ld 16 2 ([(2, 1); (3, 1)], 0); Ld 16 3 ([(2, 1); (3, 1)], 16);
    St 16 ([(0, 1)], 0) 0; St 16 ([(0, 1)], 16) 1; St 16 ([(0, 1); (1, 1)], 0) 2; St 16 ([(0, 1); (1, 1)], 16) 3;
    Lea 2 ([(2, 1); (3, 2)], 0); Lea 0 ([(0, 1); (1, 2)], 0); Ld 16 0 ([(2, 1)], 0); Ld 16 1 ([(2, 1)], 16);
    Ld 16 2 ([(2, 1); (3, 1)], 0); Ld 16 3 ([(2, 1); (3, 1)], 16); St 16 ([(0, 1)], 0) 0; St 16 ([(0, 1)], 16) 1;
    St 16 ([(0, 1); (1, 1)], 0) 2; St 16 ([(0, 1); (1, 1)], 16) 3; Lea 2 ([(2, 1); (3, 2)], 0); Lea 0 ([(0, 1); (1, 2)], 0) ].
(** x86/blockcopy8.asm:4059-4127; sizes 48x64. *)
Definition code_ss_48x64_sse2 : code := Code
  [Lea 1 ([(1, 2)], 0); Lea 3 ([(3, 2)], 0)]
  [
   Ld 16 0 ([(2, 1)], 0); Ld 16 1 ([(2, 1)], 16); Ld 16 2 ([(2, 1)], 32); Ld 16 3 ([(2, 1)], 48); Ld 16 4 ([(2, 1)], 64);
    Ld 16 5 ([(2, 1)], 80); St 16 ([(0, 1)], 0) 0; St 16 ([(0, 1)], 16) 1; St 16 ([(0, 1)], 32) 2; St 16 ([(0, 1)], 48) 3;
    St 16 ([(0, 1)], 64) 4; St 16 ([(0, 1)], 80) 5; Ld 16 0 ([(2, 1); (3, 1)], 0); Ld 16 1 ([(2, 1); (3, 1)], 16);
    Ld 16 2 ([(2, 1); (3, 1)], 32); Ld 16 3 ([(2, 1); (3, 1)], 48); Ld 16 4 ([(2, 1); (3, 1)], 64);
    Ld 16 5 ([(2, 1); (3, 1)], 80); St 16 ([(0, 1); (1, 1)], 0) 0; St 16 ([(0, 1); (1, 1)], 16) 1;
    St 16 ([(0, 1); (1, 1)], 32) 2; St 16 ([(0, 1); (1, 1)], 48) 3; St 16 ([(0, 1); (1, 1)], 64) 4;
    St 16 ([(0, 1); (1, 1)], 80) 5; Lea 2 ([(2, 1); (3, 2)], 0); Lea 0 ([(0, 1); (1, 2)], 0); Ld 16 0 ([(2, 1)], 0);
    Ld 16 1 ([(2, 1)], 16); Ld 16 2 ([(2, 1)], 32); Ld 16 3 ([(2, 1)], 48); Ld 16 4 ([(2, 1)], 64); Ld 16 5 ([(2, 1)], 80);
    St 16 ([(0, 1)], 0) 0; St 16 ([(0, 1)], 16) 1; St 16 ([(0, 1)], 32) 2; St 16 ([(0, 1)], 48) 3; St 16 ([(0, 1)], 64) 4;
    St 16 ([(0, 1)], 80) 5; Ld 16 0 ([(2, 1); (3, 1)], 0); Ld 16 1 ([(2, 1); (3, 1)], 16); Ld 16 2 ([(2, 1); (3, 1)], 32);
    Ld 16 3 ([(2, 1); (3, 1)], 48); Ld 16 4 ([(2, 1); (3, 1)], 64); Ld 16 5 ([(2, 1); (3, 1)], 80);
    St 16 ([(0, 1); (1, 1)], 0) 0; St 16 ([(0, 1); (1, 1)], 16) 1; St 16 ([(0, 1); (1, 1)], 32) 2;
    St 16 ([(0, 1); (1, 1)], 48) 3; St 16 ([(0, 1); (1, 1)], 64) 4; St 16 ([(0, 1); (1, 1)], 80) 5;
    Lea 2 ([(2, 1); (3, 2)], 0); Lea 0 ([(0, 1); (1, 2)], 0) ].
(** x86/blockcopy8.asm:3601-3638; sizes 8x32, 8x16, 8x8. *)
Definition code_ss_8x32_sse2 : code := Code
  [Lea 1 ([(1, 2)], 0); Lea 3 ([(3, 2)], 0)]
  [
   Ld 16 0 ([(2, 1)], 0); Ld 16 1 ([(2, 1); (3, 1)], 0); Lea 2 ([(2, 1); (3, 2)], 0); Ld 16 2 ([(2, 1)], 0);
    Ld 16 3 ([(2, 1); (3, 1)], 0); St 16 ([(0, 1)], 0) 0; St 16 ([(0, 1); (1, 1)], 0) 1; Lea 0 ([(0, 1); (1, 2)], 0);
    St 16 ([(0, 1)], 0) 2; St 16 ([(0, 1); (1, 1)], 0) 3; Lea 2 ([(2, 1); (3, 2)], 0); Lea 0 ([(0, 1); (1, 2)], 0);
    Ld 16 0 ([(2, 1)], 0); Ld 16 1 ([(2, 1); (3, 1)], 0); Lea 2 ([(2, 1); (3, 2)], 0); Ld 16 2 ([(2, 1)], 0);
    Ld 16 3 ([(2, 1); (3, 1)], 0); St 16 ([(0, 1)], 0) 0; St 16 ([(0, 1); (1, 1)], 0) 1; Lea 0 ([(0, 1); (1, 2)], 0);
    St 16 ([(0, 1)], 0) 2; St 16 ([(0, 1); (1, 1)], 0) 3; Lea 0 ([(0, 1); (1, 2)], 0); Lea 2 ([(2, 1); (3, 2)], 0) ].
(** x86/blockcopy8.asm:3849-3889; sizes 24x32. *)
Definition code_ss_24x32_sse2 : code := Code
  [Lea 1 ([(1, 2)], 0); Lea 3 ([(3, 2)], 0)]
  [
   Ld 16 0 ([(2, 1)], 0); Ld 16 1 ([(2, 1)], 16); Ld 16 2 ([(2, 1)], 32); Ld 16 3 ([(2, 1); (3, 1)], 0);
    Ld 16 4 ([(2, 1); (3, 1)], 16); Ld 16 5 ([(2, 1); (3, 1)], 32); St 16 ([(0, 1)], 0) 0; St 16 ([(0, 1)], 16) 1;
    St 16 ([(0, 1)], 32) 2; St 16 ([(0, 1); (1, 1)], 0) 3; St 16 ([(0, 1); (1, 1)], 16) 4; St 16 ([(0, 1); (1, 1)], 32) 5;
    Lea 2 ([(2, 1); (3, 2)], 0); Lea 0 ([(0, 1); (1, 2)], 0); Ld 16 0 ([(2, 1)], 0); Ld 16 1 ([(2, 1)], 16);
    Ld 16 2 ([(2, 1)], 32); Ld 16 3 ([(2, 1); (3, 1)], 0); Ld 16 4 ([(2, 1); (3, 1)], 16); Ld 16 5 ([(2, 1); (3, 1)], 32);
    St 16 ([(0, 1)], 0) 0; St 16 ([(0, 1)], 16) 1; St 16 ([(0, 1)], 32) 2; St 16 ([(0, 1); (1, 1)], 0) 3;
    St 16 ([(0, 1); (1, 1)], 16) 4; St 16 ([(0, 1); (1, 1)], 32) 5; Lea 2 ([(2, 1); (3, 2)], 0); Lea 0 ([(0, 1); (1, 2)], 0) ].
(** x86/blockcopy8.asm:3696-3728; sizes 16x4, 16x12. *)
Definition code_ss_16x4_sse2 : code := Code
  [Lea 1 ([(1, 2)], 0); Lea 3 ([(3, 2)], 0)]
  [
   Ld 16 0 ([(2, 1)], 0); Ld 16 1 ([(2, 1)], 16); Ld 16 2 ([(2, 1); (3, 1)], 0); Ld 16 3 ([(2, 1); (3, 1)], 16);
    St 16 ([(0, 1)], 0) 0; St 16 ([(0, 1)], 16) 1; St 16 ([(0, 1); (1, 1)], 0) 2; St 16 ([(0, 1); (1, 1)], 16) 3;
    Lea 2 ([(2, 1); (3, 2)], 0); Lea 0 ([(0, 1); (1, 2)], 0); Ld 16 0 ([(2, 1)], 0); Ld 16 1 ([(2, 1)], 16);
    Ld 16 2 ([(2, 1); (3, 1)], 0); Ld 16 3 ([(2, 1); (3, 1)], 16); St 16 ([(0, 1)], 0) 0; St 16 ([(0, 1)], 16) 1;
    St 16 ([(0, 1); (1, 1)], 0) 2; St 16 ([(0, 1); (1, 1)], 16) 3; Lea 0 ([(0, 1); (1, 2)], 0); Lea 2 ([(2, 1); (3, 2)], 0) ].
(** x86/blockcopy8.asm:3388-3423; sizes 4x16, 4x8. *)
Definition code_ss_4x16_sse2 : code := Code
  [Lea 1 ([(1, 2)], 0); Lea 3 ([(3, 2)], 0)]
  [
   Ld 8 0 ([(2, 1)], 0); Ld 8 1 ([(2, 1); (3, 1)], 0); Lea 2 ([(2, 1); (3, 2)], 0); Ld 8 2 ([(2, 1)], 0);
    Ld 8 3 ([(2, 1); (3, 1)], 0); St 8 ([(0, 1)], 0) 0; St 8 ([(0, 1); (1, 1)], 0) 1; Lea 0 ([(0, 1); (1, 2)], 0);
    St 8 ([(0, 1)], 0) 2; St 8 ([(0, 1); (1, 1)], 0) 3; Lea 0 ([(0, 1); (1, 2)], 0); Lea 2 ([(2, 1); (3, 2)], 0);
    Ld 8 0 ([(2, 1)], 0); Ld 8 1 ([(2, 1); (3, 1)], 0); Lea 2 ([(2, 1); (3, 2)], 0); Ld 8 2 ([(2, 1)], 0);
    Ld 8 3 ([(2, 1); (3, 1)], 0); St 8 ([(0, 1)], 0) 0; St 8 ([(0, 1); (1, 1)], 0) 1; Lea 0 ([(0, 1); (1, 2)], 0);
    St 8 ([(0, 1)], 0) 2; St 8 ([(0, 1); (1, 1)], 0) 3; Lea 0 ([(0, 1); (1, 2)], 0); Lea 2 ([(2, 1); (3, 2)], 0) ].
(** x86/blockcopy8.asm:3652-3684; sizes 12x16. *)
Definition code_ss_12x16_sse2 : code := Code
  [Lea 1 ([(1, 2)], 0); Lea 3 ([(3, 2)], 0)]
  [
   Ld 16 0 ([(2, 1)], 0); Ld 8 1 ([(2, 1)], 16); Ld 16 2 ([(2, 1); (3, 1)], 0); Ld 8 3 ([(2, 1); (3, 1)], 16);
    Lea 2 ([(2, 1); (3, 2)], 0); St 16 ([(0, 1)], 0) 0; St 8 ([(0, 1)], 16) 1; St 16 ([(0, 1); (1, 1)], 0) 2;
    St 8 ([(0, 1); (1, 1)], 16) 3; Lea 0 ([(0, 1); (1, 2)], 0); Ld 16 0 ([(2, 1)], 0); Ld 8 1 ([(2, 1)], 16);
    Ld 16 2 ([(2, 1); (3, 1)], 0); Ld 8 3 ([(2, 1); (3, 1)], 16); St 16 ([(0, 1)], 0) 0; St 8 ([(0, 1)], 16) 1;
    St 16 ([(0, 1); (1, 1)], 0) 2; St 8 ([(0, 1); (1, 1)], 16) 3; Lea 0 ([(0, 1); (1, 2)], 0); Lea 2 ([(2, 1); (3, 2)], 0) ].
(** x86/blockcopy8.asm:3530-3545; sizes 8x4. *)
Definition code_ss_8x4_sse2 : code := Code
  [Lea 1 ([(1, 2)], 0); Lea 3 ([(3, 2)], 0)]
  [
   Ld 16 0 ([(2, 1)], 0); Ld 16 1 ([(2, 1); (3, 1)], 0); Lea 2 ([(2, 1); (3, 2)], 0); Ld 16 2 ([(2, 1)], 0);
    Ld 16 3 ([(2, 1); (3, 1)], 0); St 16 ([(0, 1)], 0) 0; St 16 ([(0, 1); (1, 1)], 0) 1; Lea 0 ([(0, 1); (1, 2)], 0);
    St 16 ([(0, 1)], 0) 2; St 16 ([(0, 1); (1, 1)], 0) 3 ].
(** x86/blockcopy8.asm:3367-3381; sizes 4x4. *)
Definition code_ss_4x4_sse2 : code := Code
  [Lea 1 ([(1, 2)], 0); Lea 3 ([(3, 2)], 0)]
  [
   Ld 8 0 ([(2, 1)], 0); Ld 8 1 ([(2, 1); (3, 1)], 0); Lea 2 ([(2, 1); (3, 2)], 0); Ld 8 2 ([(2, 1)], 0);
    Ld 8 3 ([(2, 1); (3, 1)], 0); St 8 ([(0, 1)], 0) 0; St 8 ([(0, 1); (1, 1)], 0) 1; Lea 0 ([(0, 1); (1, 2)], 0);
    St 8 ([(0, 1)], 0) 2; St 8 ([(0, 1); (1, 1)], 0) 3 ].
(** x86/blockcopy8.asm:4293-4344; sizes 64x64, 64x32, 64x16, 64x48. *)
Definition code_ss_64x64_avx : code := Code
  [Lea 1 ([(1, 2)], 0); Lea 3 ([(3, 2)], 0); Lea 5 ([(1, 3)], 0); Lea 6 ([(3, 3)], 0)]
  [
   Ld 32 0 ([(2, 1)], 0); Ld 32 1 ([(2, 1)], 32); Ld 32 2 ([(2, 1)], 64); Ld 32 3 ([(2, 1)], 96); St 32 ([(0, 1)], 0) 0;
    St 32 ([(0, 1)], 32) 1; St 32 ([(0, 1)], 64) 2; St 32 ([(0, 1)], 96) 3; Ld 32 0 ([(2, 1); (3, 1)], 0);
    Ld 32 1 ([(2, 1); (3, 1)], 32); Ld 32 2 ([(2, 1); (3, 1)], 64); Ld 32 3 ([(2, 1); (3, 1)], 96);
    St 32 ([(0, 1); (1, 1)], 0) 0; St 32 ([(0, 1); (1, 1)], 32) 1; St 32 ([(0, 1); (1, 1)], 64) 2;
    St 32 ([(0, 1); (1, 1)], 96) 3; Ld 32 0 ([(2, 1); (3, 2)], 0); Ld 32 1 ([(2, 1); (3, 2)], 32);
    Ld 32 2 ([(2, 1); (3, 2)], 64); Ld 32 3 ([(2, 1); (3, 2)], 96); St 32 ([(0, 1); (1, 2)], 0) 0;
    St 32 ([(0, 1); (1, 2)], 32) 1; St 32 ([(0, 1); (1, 2)], 64) 2; St 32 ([(0, 1); (1, 2)], 96) 3;
    Ld 32 0 ([(2, 1); (6, 1)], 0); Ld 32 1 ([(2, 1); (6, 1)], 32); Ld 32 2 ([(2, 1); (6, 1)], 64);
    Ld 32 3 ([(2, 1); (6, 1)], 96); Lea 2 ([(2, 1); (3, 4)], 0); St 32 ([(0, 1); (5, 1)], 0) 0;
    St 32 ([(0, 1); (5, 1)], 32) 1; St 32 ([(0, 1); (5, 1)], 64) 2; St 32 ([(0, 1); (5, 1)], 96) 3;
    Lea 0 ([(0, 1); (1, 4)], 0) ].
(** x86/blockcopy8.asm:4007-4044; sizes 32x64, 32x32, 32x16, 32x8, 32x24. *)
Definition code_ss_32x64_avx : code := Code
  [Lea 1 ([(1, 2)], 0); Lea 3 ([(3, 2)], 0); Lea 5 ([(1, 3)], 0); Lea 6 ([(3, 3)], 0)]
  [
   Ld 32 0 ([(2, 1)], 0); Ld 32 1 ([(2, 1)], 32); St 32 ([(0, 1)], 0) 0; St 32 ([(0, 1)], 32) 1;
    Ld 32 0 ([(2, 1); (3, 1)], 0); Ld 32 1 ([(2, 1); (3, 1)], 32); St 32 ([(0, 1); (1, 1)], 0) 0;
    St 32 ([(0, 1); (1, 1)], 32) 1; Ld 32 0 ([(2, 1); (3, 2)], 0); Ld 32 1 ([(2, 1); (3, 2)], 32);
    St 32 ([(0, 1); (1, 2)], 0) 0; St 32 ([(0, 1); (1, 2)], 32) 1; Ld 32 0 ([(2, 1); (6, 1)], 0);
    Ld 32 1 ([(2, 1); (6, 1)], 32); St 32 ([(0, 1); (5, 1)], 0) 0; St 32 ([(0, 1); (5, 1)], 32) 1;
    Lea 2 ([(2, 1); (3, 4)], 0); Lea 0 ([(0, 1); (1, 4)], 0) ].
(** x86/blockcopy8.asm:3739-3760; sizes 16x64, 16x32, 16x16, 16x8, 16x4, 16x12. *)
Definition code_ss_16x64_avx : code := Code
  [Lea 1 ([(1, 2)], 0); Lea 3 ([(3, 2)], 0); Lea 5 ([(3, 3)], 0); Lea 6 ([(1, 3)], 0)]
  [
   Ld 32 0 ([(2, 1)], 0); Ld 32 1 ([(2, 1); (3, 1)], 0); Ld 32 2 ([(2, 1); (3, 2)], 0); Ld 32 3 ([(2, 1); (5, 1)], 0);
    St 32 ([(0, 1)], 0) 0; St 32 ([(0, 1); (1, 1)], 0) 1; St 32 ([(0, 1); (1, 2)], 0) 2; St 32 ([(0, 1); (6, 1)], 0) 3;
    Lea 0 ([(0, 1); (1, 4)], 0); Lea 2 ([(2, 1); (3, 4)], 0) ].
(** x86/blockcopy8.asm:4135-4180; sizes 48x64. *)
Definition code_ss_48x64_avx : code := Code
  [Lea 1 ([(1, 2)], 0); Lea 3 ([(3, 2)], 0); Lea 5 ([(3, 3)], 0); Lea 6 ([(1, 3)], 0)]
  [
   Ld 32 0 ([(2, 1)], 0); Ld 32 1 ([(2, 1)], 32); Ld 32 2 ([(2, 1)], 64); St 32 ([(0, 1)], 0) 0; St 32 ([(0, 1)], 32) 1;
    St 32 ([(0, 1)], 64) 2; Ld 32 0 ([(2, 1); (3, 1)], 0); Ld 32 1 ([(2, 1); (3, 1)], 32); Ld 32 2 ([(2, 1); (3, 1)], 64);
    St 32 ([(0, 1); (1, 1)], 0) 0; St 32 ([(0, 1); (1, 1)], 32) 1; St 32 ([(0, 1); (1, 1)], 64) 2;
    Ld 32 0 ([(2, 1); (3, 2)], 0); Ld 32 1 ([(2, 1); (3, 2)], 32); Ld 32 2 ([(2, 1); (3, 2)], 64);
    St 32 ([(0, 1); (1, 2)], 0) 0; St 32 ([(0, 1); (1, 2)], 32) 1; St 32 ([(0, 1); (1, 2)], 64) 2;
    Ld 32 0 ([(2, 1); (5, 1)], 0); Ld 32 1 ([(2, 1); (5, 1)], 32); Ld 32 2 ([(2, 1); (5, 1)], 64);
    St 32 ([(0, 1); (6, 1)], 0) 0; St 32 ([(0, 1); (6, 1)], 32) 1; St 32 ([(0, 1); (6, 1)], 64) 2;
    Lea 2 ([(2, 1); (3, 4)], 0); Lea 0 ([(0, 1); (1, 4)], 0) ].
(** x86/blockcopy8.asm:3900-3929; sizes 24x32. *)
Definition code_ss_24x32_avx : code := Code
  [Lea 1 ([(1, 2)], 0); Lea 3 ([(3, 2)], 0); Lea 5 ([(3, 3)], 0); Lea 6 ([(1, 3)], 0)]
  [
   Ld 32 0 ([(2, 1)], 0); Ld 16 1 ([(2, 1)], 32); St 32 ([(0, 1)], 0) 0; St 16 ([(0, 1)], 32) 1;
    Ld 32 0 ([(2, 1); (3, 1)], 0); Ld 16 1 ([(2, 1); (3, 1)], 32); St 32 ([(0, 1); (1, 1)], 0) 0;
    St 16 ([(0, 1); (1, 1)], 32) 1; Ld 32 0 ([(2, 1); (3, 2)], 0); Ld 16 1 ([(2, 1); (3, 2)], 32);
    St 32 ([(0, 1); (1, 2)], 0) 0; St 16 ([(0, 1); (1, 2)], 32) 1; Ld 32 0 ([(2, 1); (5, 1)], 0);
    Ld 16 1 ([(2, 1); (5, 1)], 32); St 32 ([(0, 1); (6, 1)], 0) 0; St 16 ([(0, 1); (6, 1)], 32) 1;
    Lea 2 ([(2, 1); (3, 4)], 0); Lea 0 ([(0, 1); (1, 4)], 0) ].

(** The functions of the table: samples or coefficients, width, height, instruction set; the code and its turns. *)
Definition copy_funcs : list (bname * (code * nat)) :=
  [ (Bname PP 64 64 v_sse2, (code_pp_64x64_sse2, 16%nat));
    (Bname PP 64 32 v_sse2, (code_pp_64x64_sse2, 8%nat));
    (Bname PP 32 64 v_sse2, (code_pp_32x64_sse2, 16%nat));
    (Bname PP 64 16 v_sse2, (code_pp_64x64_sse2, 4%nat));
    (Bname PP 64 48 v_sse2, (code_pp_64x64_sse2, 12%nat));
    (Bname PP 16 64 v_sse2, (code_pp_16x64_sse2, 8%nat));
    (Bname PP 48 64 v_sse2, (code_pp_48x64_sse2, 16%nat));
    (Bname PP 32 32 v_sse2, (code_pp_32x64_sse2, 8%nat));
    (Bname PP 32 16 v_sse2, (code_pp_32x64_sse2, 4%nat));
    (Bname PP 16 32 v_sse2, (code_pp_16x64_sse2, 4%nat));
    (Bname PP 32 8 v_sse2, (code_pp_32x64_sse2, 2%nat));
    (Bname PP 32 24 v_sse2, (code_pp_32x64_sse2, 6%nat));
    (Bname PP 8 32 v_sse2, (code_pp_8x32_sse2, 1%nat));
    (Bname PP 24 32 v_sse2, (code_pp_24x32_sse2, 8%nat));
    (Bname PP 16 16 v_sse2, (code_pp_16x64_sse2, 2%nat));
    (Bname PP 16 8 v_sse2, (code_pp_16x64_sse2, 1%nat));
    (Bname PP 8 16 v_sse2, (code_pp_8x16_sse2, 1%nat));
    (Bname PP 16 4 v_sse2, (code_pp_16x4_sse2, 1%nat));
    (Bname PP 16 12 v_sse2, (code_pp_16x4_sse2, 3%nat));
    (Bname PP 4 16 v_sse2, (code_pp_4x16_sse2, 2%nat));
    (Bname PP 12 16 v_sse2, (code_pp_12x16_sse2, 4%nat));
    (Bname PP 8 8 v_sse2, (code_pp_8x8_sse2, 1%nat));
    (Bname PP 8 4 v_sse2, (code_pp_8x4_sse2, 1%nat));
    (Bname PP 4 8 v_sse2, (code_pp_4x8_sse2, 1%nat));
    (Bname PP 4 4 v_sse2, (code_pp_4x4_sse2, 1%nat));
    (Bname PP 64 64 v_avx, (code_pp_64x64_avx, 16%nat));
    (Bname PP 64 32 v_avx, (code_pp_64x64_avx, 8%nat));
    (Bname PP 32 64 v_avx, (code_pp_32x64_avx, 4%nat));
    (Bname PP 64 16 v_avx, (code_pp_64x64_avx, 4%nat));
    (Bname PP 64 48 v_avx, (code_pp_64x64_avx, 12%nat));
    (Bname PP 48 64 v_avx, (code_pp_48x64_avx, 16%nat));
    (Bname PP 32 32 v_avx, (code_pp_32x64_avx, 2%nat));
    (Bname PP 32 16 v_avx, (code_pp_32x16_avx, 1%nat));
    (Bname PP 32 8 v_avx, (code_pp_32x8_avx, 1%nat));
    (Bname PP 32 24 v_avx, (code_pp_32x24_avx, 3%nat));
    (Bname SS 64 64 v_sse2, (code_ss_64x64_sse2, 16%nat));
    (Bname SS 64 32 v_sse2, (code_ss_64x64_sse2, 8%nat));
    (Bname SS 32 64 v_sse2, (code_ss_32x64_sse2, 16%nat));
    (Bname SS 64 16 v_sse2, (code_ss_64x64_sse2, 4%nat));
    (Bname SS 64 48 v_sse2, (code_ss_64x64_sse2, 12%nat));
    (Bname SS 16 64 v_sse2, (code_ss_16x64_sse2, 8%nat));
    (Bname SS 48 64 v_sse2, (code_ss_48x64_sse2, 16%nat));
    (Bname SS 32 32 v_sse2, (code_ss_32x64_sse2, 8%nat));
    (Bname SS 32 16 v_sse2, (code_ss_32x64_sse2, 4%nat));
    (Bname SS 16 32 v_sse2, (code_ss_16x64_sse2, 4%nat));
    (Bname SS 32 8 v_sse2, (code_ss_32x64_sse2, 2%nat));
    (Bname SS 32 24 v_sse2, (code_ss_32x64_sse2, 6%nat));
    (Bname SS 8 32 v_sse2, (code_ss_8x32_sse2, 4%nat));
    (Bname SS 24 32 v_sse2, (code_ss_24x32_sse2, 8%nat));
    (Bname SS 16 16 v_sse2, (code_ss_16x64_sse2, 2%nat));
    (Bname SS 16 8 v_sse2, (code_ss_16x64_sse2, 1%nat));
    (Bname SS 8 16 v_sse2, (code_ss_8x32_sse2, 2%nat));
    (Bname SS 16 4 v_sse2, (code_ss_16x4_sse2, 1%nat));
    (Bname SS 16 12 v_sse2, (code_ss_16x4_sse2, 3%nat));
    (Bname SS 4 16 v_sse2, (code_ss_4x16_sse2, 2%nat));
    (Bname SS 12 16 v_sse2, (code_ss_12x16_sse2, 4%nat));
    (Bname SS 8 8 v_sse2, (code_ss_8x32_sse2, 1%nat));
    (Bname SS 8 4 v_sse2, (code_ss_8x4_sse2, 1%nat));
    (Bname SS 4 8 v_sse2, (code_ss_4x16_sse2, 1%nat));
    (Bname SS 4 4 v_sse2, (code_ss_4x4_sse2, 1%nat));
    (Bname SS 64 64 v_avx, (code_ss_64x64_avx, 16%nat));
    (Bname SS 64 32 v_avx, (code_ss_64x64_avx, 8%nat));
    (Bname SS 32 64 v_avx, (code_ss_32x64_avx, 16%nat));
    (Bname SS 64 16 v_avx, (code_ss_64x64_avx, 4%nat));
    (Bname SS 64 48 v_avx, (code_ss_64x64_avx, 12%nat));
    (Bname SS 16 64 v_avx, (code_ss_16x64_avx, 16%nat));
    (Bname SS 48 64 v_avx, (code_ss_48x64_avx, 16%nat));
    (Bname SS 32 32 v_avx, (code_ss_32x64_avx, 8%nat));
    (Bname SS 32 16 v_avx, (code_ss_32x64_avx, 4%nat));
    (Bname SS 16 32 v_avx, (code_ss_16x64_avx, 8%nat));
    (Bname SS 32 8 v_avx, (code_ss_32x64_avx, 2%nat));
    (Bname SS 32 24 v_avx, (code_ss_32x64_avx, 6%nat));
    (Bname SS 24 32 v_avx, (code_ss_24x32_avx, 8%nat));
    (Bname SS 16 16 v_avx, (code_ss_16x64_avx, 4%nat));
    (Bname SS 16 8 v_avx, (code_ss_16x64_avx, 2%nat));
    (Bname SS 16 4 v_avx, (code_ss_16x64_avx, 1%nat));
    (Bname SS 16 12 v_avx, (code_ss_16x64_avx, 3%nat)) ].

(** The bytes of an element: [pel_t] of the 8-bit build, [coeff_t]. In a build for more bits [copy_pp] holds the functions of
    [copy_ss] (pixel.cc:196-224). *)
Definition unit_of (k : kind) : Z := match k with PP => 1 | SS => 2 end.
Definition kind_eqb (a b : kind) : bool := match a, b with PP, PP | SS, SS => true | _, _ => false end.
Definition version_eqb (a b : version) : bool :=
  match a, b with
  | v_c, v_c | v_mmx, v_mmx | v_sse2, v_sse2 | v_sse128, v_sse128 | v_ssse3, v_ssse3 | v_sse4, v_sse4 | v_avx, v_avx | v_avx2, v_avx2 => true
  | _, _ => false end.
(** pixel.cc:84-108, 144-145: the function of that name, with what the registers hold at the call; [None] if there is none of that name. *)
Definition copy_fn (k : kind) (w h : Z) (v : version) : option ((Z -> Z) -> (Z -> Z -> Z) -> Z -> Z -> Z -> Z -> mem -> mem) :=
  match v with
  | v_c => Some (fun _ _ => blockcopy_c (unit_of k) w h)
  | _ => match find (fun p => let 'Bname k' w' h' v' := fst p in kind_eqb k k' && (w =? w') && (h =? h') && version_eqb v v') copy_funcs with
         | Some p => Some (copy_call (snd p)) | None => None end end.
