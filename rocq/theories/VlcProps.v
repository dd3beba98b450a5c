(** Properties C06, C07, C08: reading of header syntax elements. *)
From Coq Require Import ZArith List Bool.
From Verif Require Import CBase VlcModel VlcSpec VlcProofs.
Import ListNotations.
Open Scope Z_scope.

(** C06: a field of at most 31 bits inside the data is read MSB first and the
    position advances by its length, at every alignment. *)
Theorem C06_u_v_value : forall mem pre f post,
  (length f <= 31)%nat ->
  bits_of mem = pre ++ f ++ post ->
  vlc_u_v (Bs mem (Z.of_nat (length mem)) (Z.of_nat (length pre))) (length f)
  = Done (be_val f, Bs mem (Z.of_nat (length mem)) (Z.of_nat (length (pre ++ f)))).
Proof. exact u_v_value. Qed.
Print Assumptions C06_u_v_value.

Example C06_u_v_value_nonvacuous :
  bits_of [18; 52; 86] = firstn 5 (bits_of [18; 52; 86]) ++ [false; true; false; false; false; true; true; false; true] ++ skipn 14 (bits_of [18; 52; 86])
  /\ vlc_u_v (Bs [18; 52; 86] 3 5) 9 = Done (141, Bs [18; 52; 86] 3 14).
Proof. split; reflexivity. Qed.

(** C06: a field that reaches past the byte behind the data is refused with -1 and
    the position does not move. *)
Theorem C06_u_v_fail : forall s n,
  0 <= bs_pos s < 8 * (bs_len s + 1) -> (n <= 31)%nat ->
  bs_len s < Z.of_nat (length (bs_mem s)) ->
  8 * (bs_len s + 1) <= bs_pos s + Z.of_nat n ->
  vlc_u_v s n = Done (-1, s).
Proof. exact u_v_fail. Qed.
Print Assumptions C06_u_v_fail.

Example C06_u_v_fail_nonvacuous :
  vlc_u_v (Bs [18; 52; 86] 2 10) 15 = Done (-1, Bs [18; 52; 86] 2 10).
Proof. reflexivity. Qed.

(** C07: ue(v) and se(v) round trips at any bit position. *)
Theorem C07_ue_roundtrip : forall mem pre post v,
  0 <= v <= 2147483646 ->
  bits_of mem = pre ++ ue_code v ++ post ->
  vlc_ue_v (Bs mem (Z.of_nat (length mem)) (Z.of_nat (length pre)))
  = Done (v, Bs mem (Z.of_nat (length mem)) (Z.of_nat (length (pre ++ ue_code v)))).
Proof. exact ue_roundtrip. Qed.
Print Assumptions C07_ue_roundtrip.

Theorem C07_se_roundtrip : forall mem pre post v,
  -1073741823 <= v <= 1073741823 ->
  bits_of mem = pre ++ se_code v ++ post ->
  vlc_se_v (Bs mem (Z.of_nat (length mem)) (Z.of_nat (length pre)))
  = Done (v, Bs mem (Z.of_nat (length mem)) (Z.of_nat (length (pre ++ se_code v)))).
Proof. exact se_roundtrip. Qed.
Print Assumptions C07_se_roundtrip.

(** 3 bits of other data, ue(37) = 00000 100110, padding. *)
Example C07_nonvacuous :
  bits_of [160; 152] = [true; false; true] ++ ue_code 37 ++ [false; false]
  /\ vlc_ue_v (Bs [160; 152] 2 3) = Done (37, Bs [160; 152] 2 14)
  /\ vlc_se_v (Bs [160; 152] 2 3) = Done (19, Bs [160; 152] 2 14)
  /\ ue_code 37 = se_code 19.
Proof. repeat split; reflexivity. Qed.

(** C08 is false of the code: a fixed-length field crossing the end by up to 7 bits
    is read from the byte behind the data ... *)
Theorem C08_u_v_reads_past_end_refuted :
  exists (mem : list Z) (pos : Z) (n : nat),
    bytes_ok mem /\ 0 <= pos <= 8 * Z.of_nat (length mem) /\ (n <= 8)%nat /\
    vlc_u_v (Bs mem (Z.of_nat (length mem)) pos) n = Undef.
Proof. exists [171], 6, 4%nat. repeat split; try (repeat constructor; discriminate); try reflexivity; discriminate. Qed.
Print Assumptions C08_u_v_reads_past_end_refuted.

(** ... and the search for the leading one bit of an Exp-Golomb code has no bound at
    all: it runs through any amount of zero memory behind the data. *)
Theorem C08_ue_v_unbounded_scan_refuted :
  forall slack : nat,
    exists (mem : list Z),
      bytes_ok mem /\
      vlc_ue_v (Bs (mem ++ repeat 0 slack) (Z.of_nat (length mem)) 0) = Undef.
Proof. exact ue_unbounded. Qed.
Print Assumptions C08_ue_v_unbounded_scan_refuted.

(** What does hold: with one addressable byte behind the data every u(v) read of at
    most 31 bits is defined, and stays so for all following u(v) reads. *)
Theorem C08_u_v_safe_with_slack_partial : forall s n,
  u_v_safe_state s -> (n <= 31)%nat ->
  exists v s', vlc_u_v s n = Done (v, s') /\ u_v_safe_state s' /\
               bs_mem s' = bs_mem s /\ bs_len s' = bs_len s /\ -1 <= v < 2 ^ Z.of_nat n.
Proof. exact u_v_safe. Qed.
Print Assumptions C08_u_v_safe_with_slack_partial.

Example C08_u_v_safe_nonvacuous : u_v_safe_state (Bs [1; 2; 3] 2 23).
Proof. split; cbn; split; reflexivity || discriminate. Qed.

(** And ue(v) is defined when a one bit follows within 30 bits. *)
Theorem C08_ue_v_safe_with_slack_partial : forall s k rest,
  0 <= bs_pos s -> bs_len s < Z.of_nat (length (bs_mem s)) -> (k <= 30)%nat ->
  skipn (Z.to_nat (bs_pos s)) (bits_of (bs_mem s)) = repeat false k ++ true :: rest ->
  exists v s', vlc_ue_v s = Done (v, s') /\ -1 <= v <= 2147483646 /\
               bs_mem s' = bs_mem s /\ bs_len s' = bs_len s /\
               (v = -1 /\ s' = s \/ 0 <= v /\ bs_pos s' = bs_pos s + 2 * Z.of_nat k + 1).
Proof. exact ue_safe. Qed.
Print Assumptions C08_ue_v_safe_with_slack_partial.

Example C08_ue_v_safe_nonvacuous :
  skipn (Z.to_nat 3) (bits_of [160; 152; 0]) = repeat false 5 ++ true :: [false; false; true; true; false; false; false; false; false; false; false; false; false; false; false].
Proof. reflexivity. Qed.
