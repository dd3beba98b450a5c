(** The MD5 sum of the command-line program.  Definitions only. *)
From Coq Require Import ZArith List Bool.
From Verif Require Import CBase.
Import ListNotations.
Open Scope Z_scope.

(** test/md5.h:62-67, the macros on [unsigned int]. *)
Definition m_not (x : Z) : Z := Z.lxor x 4294967295.
Definition m_F (x y z : Z) : Z := Z.lor (Z.land x y) (Z.land (m_not x) z).
Definition m_G (x y z : Z) : Z := Z.lor (Z.land x z) (Z.land y (m_not z)).
Definition m_H (x y z : Z) : Z := Z.lxor (Z.lxor x y) z.
Definition m_I (x y z : Z) : Z := Z.lxor y (Z.lor x (m_not z)).
Definition m_RL (x y : Z) : Z := Z.lor (to_u32 (Z.shiftl x y)) (Z.shiftr x (32 - y)).
(** test/md5.h:69 [PP] *)
Definition m_PP (x : Z) : Z :=
  Z.lor (Z.lor (Z.lor (to_u32 (Z.shiftl x 24)) (Z.land (to_u32 (Z.shiftl x 8)) 16711680)) (Z.land (Z.shiftr x 8) 65280)) (Z.shiftr x 24).

(** test/md5.h:71-74 [FF], [GG], [HH], [II]: statements on the variables [a], [b], [c], [d], here with the number
    of the word of [x], the rotation and the constant. *)
Inductive mreg := Ra | Rb | Rc | Rd.
Inductive mstm :=
| SFF (a b c d : mreg) (k s ac : Z) | SGG (a b c d : mreg) (k s ac : Z)
| SHH (a b c d : mreg) (k s ac : Z) | SII (a b c d : mreg) (k s ac : Z).
Record mregs := Mregs { va : Z; vb : Z; vc : Z; vd : Z }.
Definition mget (m : mregs) (r : mreg) : Z := match r with Ra => va m | Rb => vb m | Rc => vc m | Rd => vd m end.
Definition mset (m : mregs) (r : mreg) (v : Z) : mregs :=
  match r with
  | Ra => Mregs v (vb m) (vc m) (vd m) | Rb => Mregs (va m) v (vc m) (vd m)
  | Rc => Mregs (va m) (vb m) v (vd m) | Rd => Mregs (va m) (vb m) (vc m) v
  end.
Definition massign (f : Z -> Z -> Z -> Z) (x : Z -> Z) (a b c d : mreg) (k s ac : Z) (m : mregs) : mregs :=
  mset m a (to_u32 (mget m b + m_RL (to_u32 (to_u32 (to_u32 (mget m a + f (mget m b) (mget m c) (mget m d)) + x k) + ac)) s)).
Definition mstep (x : Z -> Z) (m : mregs) (i : mstm) : mregs :=
  match i with
  | SFF a b c d k s ac => massign m_F x a b c d k s ac m
  | SGG a b c d k s ac => massign m_G x a b c d k s ac m
  | SHH a b c d k s ac => massign m_H x a b c d k s ac m
  | SII a b c d k s ac => massign m_I x a b c d k s ac m
  end.
(** test/md5.h:84-153, the body of [md5]. *)
Definition md5_body : list mstm := [
  SFF Ra Rb Rc Rd 0 7 3614090360; SFF Rd Ra Rb Rc 1 12 3905402710;
  SFF Rc Rd Ra Rb 2 17 606105819; SFF Rb Rc Rd Ra 3 22 3250441966;
  SFF Ra Rb Rc Rd 4 7 4118548399; SFF Rd Ra Rb Rc 5 12 1200080426;
  SFF Rc Rd Ra Rb 6 17 2821735955; SFF Rb Rc Rd Ra 7 22 4249261313;
  SFF Ra Rb Rc Rd 8 7 1770035416; SFF Rd Ra Rb Rc 9 12 2336552879;
  SFF Rc Rd Ra Rb 10 17 4294925233; SFF Rb Rc Rd Ra 11 22 2304563134;
  SFF Ra Rb Rc Rd 12 7 1804603682; SFF Rd Ra Rb Rc 13 12 4254626195;
  SFF Rc Rd Ra Rb 14 17 2792965006; SFF Rb Rc Rd Ra 15 22 1236535329;
  SGG Ra Rb Rc Rd 1 5 4129170786; SGG Rd Ra Rb Rc 6 9 3225465664;
  SGG Rc Rd Ra Rb 11 14 643717713; SGG Rb Rc Rd Ra 0 20 3921069994;
  SGG Ra Rb Rc Rd 5 5 3593408605; SGG Rd Ra Rb Rc 10 9 38016083;
  SGG Rc Rd Ra Rb 15 14 3634488961; SGG Rb Rc Rd Ra 4 20 3889429448;
  SGG Ra Rb Rc Rd 9 5 568446438; SGG Rd Ra Rb Rc 14 9 3275163606;
  SGG Rc Rd Ra Rb 3 14 4107603335; SGG Rb Rc Rd Ra 8 20 1163531501;
  SGG Ra Rb Rc Rd 13 5 2850285829; SGG Rd Ra Rb Rc 2 9 4243563512;
  SGG Rc Rd Ra Rb 7 14 1735328473; SGG Rb Rc Rd Ra 12 20 2368359562;
  SHH Ra Rb Rc Rd 5 4 4294588738; SHH Rd Ra Rb Rc 8 11 2272392833;
  SHH Rc Rd Ra Rb 11 16 1839030562; SHH Rb Rc Rd Ra 14 23 4259657740;
  SHH Ra Rb Rc Rd 1 4 2763975236; SHH Rd Ra Rb Rc 4 11 1272893353;
  SHH Rc Rd Ra Rb 7 16 4139469664; SHH Rb Rc Rd Ra 10 23 3200236656;
  SHH Ra Rb Rc Rd 13 4 681279174; SHH Rd Ra Rb Rc 0 11 3936430074;
  SHH Rc Rd Ra Rb 3 16 3572445317; SHH Rb Rc Rd Ra 6 23 76029189;
  SHH Ra Rb Rc Rd 9 4 3654602809; SHH Rd Ra Rb Rc 12 11 3873151461;
  SHH Rc Rd Ra Rb 15 16 530742520; SHH Rb Rc Rd Ra 2 23 3299628645;
  SII Ra Rb Rc Rd 0 6 4096336452; SII Rd Ra Rb Rc 7 10 1126891415;
  SII Rc Rd Ra Rb 14 15 2878612391; SII Rb Rc Rd Ra 5 21 4237533241;
  SII Ra Rb Rc Rd 12 6 1700485571; SII Rd Ra Rb Rc 3 10 2399980690;
  SII Rc Rd Ra Rb 10 15 4293915773; SII Rb Rc Rd Ra 1 21 2240044497;
  SII Ra Rb Rc Rd 8 6 1873313359; SII Rd Ra Rb Rc 15 10 4264355552;
  SII Rc Rd Ra Rb 6 15 2734768916; SII Rb Rc Rd Ra 13 21 1309151649;
  SII Ra Rb Rc Rd 4 6 4149444226; SII Rd Ra Rb Rc 11 10 3174756917;
  SII Rc Rd Ra Rb 2 15 718787259; SII Rb Rc Rd Ra 9 21 3951481745
].
(** test/md5.h:76-160 [md5]; [x k] is [x[k]]. *)
Definition md5_block (x : Z -> Z) (m : mregs) : mregs :=
  let r := fold_left (mstep x) md5_body m in
  Mregs (to_u32 (va m + va r)) (to_u32 (vb m + vb r)) (to_u32 (vc m + vc r)) (to_u32 (vd m + vd r)).

(** The array [x] is kept as its 64 bytes; the machine is little-endian. *)
Definition word_at (x : list Z) (k : Z) : Z :=
  let b i := nth (Z.to_nat (4 * k + i)) x 0 in b 0 + 256 * (b 1 + 256 * (b 2 + 256 * b 3)).
Definition put (x : list Z) (i : nat) (l : list Z) : list Z := firstn i x ++ l ++ skipn (i + length l) x.
Definition word_bytes (v : Z) : list Z := [v mod 256; v / 256 mod 256; v / 65536 mod 256; v / 16777216 mod 256].
(** [memset(x, 0, 64)] and [fread(&x, 4, 16, f)] where [rest] is left of the file.  When fewer than four bytes
    are left for a word, the C standard does not say what the word holds; as in the usual
    libraries, the bytes are stored. *)
Definition refill (rest : list Z) : list Z := put (repeat 0 64) 0 (firstn 64 rest).

(** test/md5.h:205-215, [n] rounds left. *)
Fixpoint md5_loop (n : nat) (m : mregs) (x rest : list Z) : mregs * list Z :=
  match n with
  | O => (m, x)
  | S n => let m := md5_block (word_at x) m in md5_loop n m (refill rest) (skipn 64 rest)
  end.
(** test/md5.h:162-231 [FileMD5] for a file that can be opened and read; [file] is its contents.
    The loop counter is an [int]: from 2^37 bytes on it overflows. *)
Definition file_md5 (file : list Z) : outcome (list Z) :=
  let len := Z.of_nat (length file) in
  let m := Mregs 1732584193 4023233417 2562383102 271733878 in
  let flen1 := to_u32 (len / 536870912) in
  let flen0 := to_u32 (len mod 536870912 * 8) in
  if 2147483647 <? len / 64 then Undef else
  let '(m, x) := md5_loop (Z.to_nat (len / 64)) m (refill file) (skipn 64 file) in
  let x := put x (Z.to_nat (len mod 64)) [128] in
  let '(m, x) := if 55 <? len mod 64 then (md5_block (word_at x) m, repeat 0 64) else (m, x) in
  let x := put x 56 (word_bytes flen0 ++ word_bytes flen1) in
  let m := md5_block (word_at x) m in
  Done [m_PP (va m); m_PP (vb m); m_PP (vc m); m_PP (vd m)].

(** [sprintf("%08X")] of an [unsigned int]: the codes of eight characters. *)
Definition hex_digit (n : Z) : Z := if n <? 10 then 48 + n else 55 + n.
Definition print_08X (v : Z) : list Z := map (fun i => hex_digit (v / 16 ^ i mod 16)) [7; 6; 5; 4; 3; 2; 1; 0].
(** test/test.c:356-359: the text compared with the one given on the command line. *)
Definition md5_text (file : list Z) : outcome (list Z) := bindo (file_md5 file) (fun v => Done (flat_map print_08X v)).
