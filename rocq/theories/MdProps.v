(** C104: the MD5 sum of the command-line program. *)
From Coq Require Import ZArith List Bool Lia.
From Verif Require Import CBase MdModel MdSpec MdProofs MdProofsB.
Import ListNotations.
Open Scope Z_scope.

(** C104.  The text compared with the reference is the digest of RFC 1321 of the whole output file. *)
Theorem C104_md5 file : Z.of_nat (length file) < 2 ^ 37 -> md5_text file = Done (hexadecimal (digest file)).
Proof.
  intros H. apply text_ok. change (2 ^ 37) with (64 * 2147483648) in H. assert (Z.of_nat (length file) / 64 < 2147483648) by (apply Z.div_lt_upper_bound; lia). lia.
Qed.
Print Assumptions C104_md5.
(** "abc" (RFC 1321, A.5) and a text whose padding takes a block of its own. *)
Example C104_abc : md5_text [97; 98; 99] = Done [57;48;48;49;53;48;57;56;51;67;68;50;52;70;66;48;68;54;57;54;51;70;55;68;50;56;69;49;55;70;55;50].
Proof. vm_compute. reflexivity. Qed.
Example C104_two_blocks : length (padded (repeat 97 60)) = 128%nat /\ Z.of_nat (length (repeat 97 60)) < 2 ^ 37.
Proof. split; reflexivity. Qed.

(** The text has no small letters: a reference written with them, as most programs print it,
    matches no file. *)
Theorem C104_small_letters_refuted file text ref : md5_text file = Done text -> (exists c, In c ref /\ 97 <= c <= 102) -> text <> ref.
Proof. exact (small_letters file text ref). Qed.
Print Assumptions C104_small_letters_refuted.
Example C104_small_case : exists c, In c [57; 99] /\ 97 <= c <= 102.
Proof. exists 99. cbn. lia. Qed.
(** From 2^37 bytes on the loop counter overflows. *)
Theorem C104_long_refuted file : 2 ^ 37 <= Z.of_nat (length file) -> md5_text file = Undef.
Proof. exact (long_undef file). Qed.
Print Assumptions C104_long_refuted.
