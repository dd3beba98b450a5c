(** The memory allocator of the library on top of [malloc] and [free]. Definitions only. Pointers have 64 bits and are
    stored with the low byte first; memory is bytes. *)
From Coq Require Import ZArith List Bool.
From Verif Require Import CBase MemModel VxModelBase DqModel.
Import ListNotations.
Open Scope Z_scope.

(** The heap of the C library: blocks handed out (first byte, number of bytes), and the memory. *)
Record heap := Heap { live : list (Z * Z); hm : mem }.
(** [free]: anything but the start of a block handed out is undefined. *)
Fixpoint take (b : Z) (l : list (Z * Z)) : option (list (Z * Z)) :=
  match l with
  | [] => None
  | x :: r => if fst x =? b then Some r else option_map (cons x) (take b r)
  end.
Definition libc_free (h : heap) (b : Z) : outcome heap :=
  match take b (live h) with Some l => Done (Heap l (hm h)) | None => Undef end.

(** common.h:1236-1256 [davs2_malloc]; [ans] is what [malloc] answers ([None] for NULL), CACHE_LINE_SIZE is 32
    (osdep.h:180). The sum is a [size_t]. The result is the pointer. *)
Definition davs2_malloc (h : heap) (size : Z) (ans : option Z) : heap * Z :=
  let asked := to_u64 (size + 31 + 8) in
  match ans with
  | None => (h, 0)
  | Some buf =>
      let align_buf := buf + 31 + 8 in
      let align_buf := align_buf - Z.land align_buf 31 in
      (Heap ((buf, asked) :: live h) (store8 (hm h) (align_buf - 8) (movq buf)), align_buf)
  end.
(** common.h:1267-1272 [davs2_free]. *)
Definition davs2_free (h : heap) (ptr : Z) : outcome heap :=
  if ptr =? 0 then Done h else libc_free h (q_of (load (hm h) (ptr - 8))).
(** common.h:1258-1265 [davs2_calloc]: the [memset] has [size], not [count * size]. *)
Definition davs2_calloc (h : heap) (count size : Z) (ans : option Z) : heap * Z :=
  let '(h, p) := davs2_malloc h (to_u64 (count * size)) ans in
  if p =? 0 then (h, p) else (Heap (live h) (store_n size (hm h) p setzero), p).

(** What the rest of the library does with it: ask for memory, write a byte, give memory back. *)
Inductive op := Alloc (size : Z) (ans : option Z) | Write (a v : Z) | Release (ptr : Z).
Definition hstep (h : heap) (o : op) : outcome heap :=
  match o with
  | Alloc size ans => Done (fst (davs2_malloc h size ans))
  | Write a v => Done (Heap (live h) (upd (hm h) a v))
  | Release ptr => davs2_free h ptr
  end.
Fixpoint hrun (h : heap) (l : list op) : outcome heap :=
  match l with [] => Done h | o :: r => bindo (hstep h o) (fun h => hrun h r) end.
