(** Property theorems about the binarisation of the syntax elements. *)
From Coq Require Import ZArith List Bool Lia.
From Verif Require Import CBase CBaseProofs AecModel AecSpec SynModel CodSpec BinSpec BinProofs BinProofsB BinProofsC BinProofsD.
Import ListNotations.
Open Scope Z_scope.

(** C87: motion vector differences. *)
Theorem C87_mvd : forall x y, -32768 <= x <= 32767 -> -32768 <= y <= 32767 -> read_as read_mvds (mvd_bins 0 x ++ mvd_bins 1 y) (x, y).
Proof. intros x y Hx Hy. apply reads_as, mvds_read; assumption. Qed.
Print Assumptions C87_mvd.
Theorem C87_mvd_wide : forall i v, (i = 0 \/ i = 1) -> Z.abs v <= 2147483647 -> read_as (read_mvd i) (mvd_bins i v) v.
Proof. intros i v Hi Hv. apply reads_as, mvd_read; assumption. Qed.
Print Assumptions C87_mvd_wide.

(** C87: quantiser steps. *)
Theorem C87_delta_qp : forall depth last d, depth = 8 \/ depth = 10 -> Z.abs d <= 32 + 4 * (depth - 8) -> read_as (delta_qp depth last) (dqp_bins last d) d.
Proof. intros depth last d Hp Hd. apply reads_as, delta_qp_read; lia. Qed.
Print Assumptions C87_delta_qp.

(** C87: intra modes; [same] is the chroma mode that repeats the luma mode. *)
Theorem C87_luma_mode : forall top lf m, 0 <= top <= 32 -> 0 <= lf <= 32 -> 0 <= m <= 32 -> read_as (read_luma_mode top lf) (luma_bins top lf m) m.
Proof. intros top lf m Ht Hl Hm. apply reads_as, luma_mode_read; assumption. Qed.
Print Assumptions C87_luma_mode.
Theorem C87_chroma_mode : forall ctx mode m, 0 <= ctx <= 2 -> 0 <= mode <= 32 -> 0 <= m <= 4 ->
  let same := if mode =? 0 then 1 else if mode =? 24 then 2 else if mode =? 12 then 3 else if mode =? 2 then 4 else -1 in
  m <> same -> read_as (read_intra_pmode_c ctx mode) (chroma_bins ctx same m) m.
Proof.
  intros ctx mode m Hc Hm0 Hm same Hs. apply reads_as, chroma_mode_read; auto. subst same.
  assert (T: forallb (fun mode => match get luma2chroma mode with Some x => x =? (if mode =? 0 then 1 else if mode =? 24 then 2 else if mode =? 12 then 3 else if mode =? 2 then 4 else -1) | None => false end) (map Z.of_nat (seq 0 33)) = true) by (vm_compute; reflexivity).
  rewrite forallb_forall in T. specialize (T mode). assert (Hin: In mode (map Z.of_nat (seq 0 33))) by (replace mode with (Z.of_nat (Z.to_nat mode)) by lia; apply in_map, in_seq; lia). specialize (T Hin).
  destruct (get luma2chroma mode) as [x|]; [|discriminate]. apply Z.eqb_eq in T. f_equal. exact T.
Qed.
Print Assumptions C87_chroma_mode.

(** C87: types of coding units, with the modes of skipped ones. *)
Theorem C87_cu_type : forall level slice amp mhp wsm nref ty, 3 <= level <= 6 -> slice <> I_SLICE ->
  1 <= ty <= 3 \/ 4 <= ty <= 7 /\ level <> 3 /\ amp = true \/ ty = 9 -> read_as (read_cu_type level slice amp mhp wsm nref) (type_bins level amp ty) (ty, None).
Proof. intros level slice amp mhp wsm nref ty Hl Hs Ht. apply reads_as, cu_type_read; auto; [|lia]. unfold type_ok. destruct Ht as [H|[H|H]]; auto. left. lia. Qed.
Print Assumptions C87_cu_type.
Theorem C87_cu_skip : forall level slice amp mhp wsm nref ty w d, 3 <= level <= 6 -> slice <> I_SLICE -> ty = -1 \/ ty = 0 -> 1 <= nref <= 4 ->
  0 <= w <= nref - 1 -> (w <> 0 -> slice = F_SLICE /\ wsm = true) ->
  0 <= d <= 4 -> (d <> 0 -> w = 0 /\ (mhp = true /\ slice = F_SLICE \/ slice = B_SLICE)) ->
  read_as (read_cu_type level slice amp mhp wsm nref) (type_bins level amp ty ++ skip_bins slice mhp wsm nref w d) (ty, Some (w, d)).
Proof.
  intros level slice amp mhp wsm nref ty w d Hl Hs Ht Hn Hw Hw1 Hd Hd1. apply reads_as. apply cu_skip_read; [assumption|assumption|assumption|lia|lia| |assumption|assumption].
  intros H. destruct (Hw1 H) as [H1 H2]. split; [exact H1|]. split; [exact H2|lia].
Qed.
Print Assumptions C87_cu_skip.

(** C87: prediction directions, with what they are turned into; references; multi-hypothesis modes. *)
Theorem C87_directions_b : forall ty level dskip d e, 1 <= ty <= 7 -> 0 <= d <= 3 -> 0 <= e <= 3 -> (ty = 1 -> e = d) -> (ty <> 1 -> level = 3 -> d <= 1 /\ e <= 1) ->
  read_as (let! v := read_b_pdir ty level in set_pdir_b ty dskip v) (pdir_bins ty level d e) ([d; e; d; e], map dir_refs [d; e; d; e]).
Proof. intros ty level dskip d e H1 H2 H3 H4 H5. apply reads_as, b_pdir_read; assumption. Qed.
Print Assumptions C87_directions_b.
Theorem C87_directions_f : forall ty d e, 1 <= ty <= 7 -> d = 0 \/ d = 4 -> e = 0 \/ e = 4 -> (ty = 1 -> e = d) ->
  read_as (let! v := read_pdir_dhp ty in set_pdir_pf ty v) (dhp_bins ty d e) [d; e; d; e].
Proof. intros ty d e H1 H2 H3 H4. apply reads_as, dhp_read; assumption. Qed.
Print Assumptions C87_directions_f.
Theorem C87_reference : forall nref d r, 1 <= nref <= 4 -> 0 <= r <= nref - 1 ->
  read_as (read_reference nref d) (if 1 <? nref then ref_bins nref r else []) (r, if d =? 4 then 1 - Z.min r 1 else -1).
Proof. intros nref d r H1 H2. apply reads_as, reference_read; assumption. Qed.
Print Assumptions C87_reference.
Theorem C87_dmh : forall level m, 3 <= level <= 6 -> 0 <= m <= 8 -> read_as (read_dmh_mode level) (dmh_bins level m) m.
Proof. intros level m H1 H2. apply reads_as, dmh_read; assumption. Qed.
Print Assumptions C87_dmh.

(** C87: coded-block patterns; [nb] are the flags of the neighbours. *)
Theorem C87_cbp_intra : forall ty level (c400 : bool) sdip nsqt nb y c, 8 <= ty <= 11 -> (forall k x, 0 <= fst (nb k x) <= 1 /\ 0 <= snd (nb k x) <= 1) ->
  0 <= y < (if ty =? 8 then 2 else 16) -> 0 <= c <= (if c400 then 0 else 3) ->
  read_as (read_cbp ty level c400 sdip nsqt nb) (intra_cbp_bins ty c400 nb y c) (y + 16 * c, None).
Proof. intros ty level c400 sdip nsqt nb y c H1 H2 H3 H4. apply reads_as, intra_cbp_read; auto. lia. Qed.
Print Assumptions C87_cbp_intra.
(** The transform of an empty unit counts as divided. *)
Theorem C87_cbp_inter : forall ty level (c400 : bool) sdip (nsqt : bool) nb (div : bool) y c, 0 <= ty <= 7 -> (forall k x, 0 <= fst (nb k x) <= 1 /\ 0 <= snd (nb k x) <= 1) ->
  0 <= y < (if div then 16 else 2) -> 0 <= c <= (if c400 then 0 else 3) -> (ty = 0 -> div = false -> c = 0 -> y = 1) ->
  read_as (read_cbp ty level c400 sdip nsqt nb) (inter_cbp_bins ty c400 nb div y c)
    (y + 16 * c, Some (if div || (y + c =? 0) then
        (if nsqt && (3 <? level) then (if (ty =? 2) || (ty =? 4) || (ty =? 5) then HOR else if (ty =? 3) || (6 <=? ty) then VER else CROSS) else CROSS) else NON)).
Proof.
  intros ty level c400 sdip nsqt nb div y c H1 H2 H3 H4 H5. apply reads_as, inter_cbp_read; auto. unfold tu_split_ok.
  replace ((y =? 0) && (c =? 0)) with (y + c =? 0) by (destruct (Z.eqb_spec y 0), (Z.eqb_spec c 0), (Z.eqb_spec (y + c) 0); try reflexivity; lia). reflexivity.
Qed.
Print Assumptions C87_cbp_inter.

(** C87: sample adaptive offsets, to where they are stored. *)
Theorem C87_sao_merge : forall lf top m, (m = 0 \/ m = 1 /\ top = true \/ m = 2 /\ lf = true) -> read_as (read_sao_mergeflag lf top) (merge_bins lf top m) m.
Proof. intros lf top m H. apply reads_as, merge_read, H. Qed.
Print Assumptions C87_sao_merge.
Theorem C87_sao_plane : forall old c, sao_choice_ok c -> length (s_off old) = 32%nat ->
  exists p, read_as (sao_read_plane old) (sao_plane_bins c) p /\ sao_stored old c p.
Proof. intros old c Hc Hl. destruct (plane_read old c Hc ltac:(lia)) as (p & R & S1). exists p. split; [apply reads_as, R|exact S1]. Qed.
Print Assumptions C87_sao_plane.

(** C87: readers one after the other read binarisations one after the other. *)
Theorem C87_sequence : forall A B (m : syn A) (k : A -> syn B) l1 l2 x v, read_as m l1 x -> read_as (k x) l2 v -> read_as (bind m k) (l1 ++ l2) v.
Proof. exact read_as_bind. Qed.
Print Assumptions C87_sequence.

(** C87 with C86: whatever value has a binarisation has a slice from which it is read. *)
Theorem C87_coded_partial : forall A (m : syn A) l v, read_as m l v -> Forall (fun x => snd x = 0 \/ snd x = 1) l -> gentle (map fst l) (map snd l) coder0 ->
  exists data, bytes_ok data /\ 2 <= Z.of_nat (length data) /\ forall ob w, exists a0 a cs, start_decoding data 0 (Z.of_nat (length data)) ob w = Done a0 /\
    m a0 (fun _ => ctx_init) = Done (a, cs, Some v) /\ err a = false.
Proof. exact coded_back. Qed.
Print Assumptions C87_coded_partial.
(** Values of different kinds in a row, the slice in which they are coded, and the reader
    applied to it: a vector difference, a luma mode, a step of the quantiser, a type. *)
Definition C87_reader : syn (Z * Z * Z * Z * (Z * option (Z * Z))) :=
  let! v := read_mvds in let! m := read_luma_mode 5 12 in let! q := delta_qp 8 0 in let! t := read_cu_type 4 B_SLICE true false false 2 in ret (v, m, q, t).
Definition C87_bins : list bin :=
  (mvd_bins 0 (-300) ++ mvd_bins 1 2) ++ luma_bins 5 12 31 ++ dqp_bins 0 (-4) ++ (type_bins 4 true (-1) ++ skip_bins B_SLICE false false 2 0 3) ++ [].
Example C87_nonvacuous : length C87_bins = 44%nat /\ read_as C87_reader C87_bins ((-300, 2), 31, -4, (-1, Some (0, 3))) /\
  exists data, bytes_ok data /\ 2 <= Z.of_nat (length data) /\ forall ob w, exists a0 a cs, start_decoding data 0 (Z.of_nat (length data)) ob w = Done a0 /\
    C87_reader a0 (fun _ => ctx_init) = Done (a, cs, Some ((-300, 2), 31, -4, (-1, Some (0, 3)))) /\ err a = false.
Proof.
  split; [vm_compute; reflexivity|].
  assert (R: read_as C87_reader C87_bins ((-300, 2), 31, -4, (-1, Some (0, 3)))).
  { unfold C87_reader, C87_bins. apply C87_sequence with (x := (-300, 2)); [apply C87_mvd; lia|]. cbv beta. apply C87_sequence with (x := 31); [apply C87_luma_mode; lia|]. cbv beta.
    apply C87_sequence with (x := -4); [apply C87_delta_qp; lia|]. cbv beta. apply C87_sequence with (x := (-1, Some (0, 3))).
    - apply C87_cu_skip; try lia; try discriminate.
    - apply reads_as, reads_ret. }
  split; [exact R|]. apply (C87_coded_partial _ _ C87_bins); [exact R| |].
  - vm_compute. repeat (constructor; [auto|]). constructor.
  - assert (T: forall l s, (fix go l s := match l with [] => true | (r, b) :: t => (match r with Bypass => c_run s <? 254 | _ => true end) && go t (code1 r b s) end) l s = true -> gentle (map fst l) (map snd l) s).
    { induction l as [|[r b] t IH]; intros s H; [exact I|]. apply andb_true_iff in H. destruct H as [H1 H2]. cbn [map fst snd gentle]. split; [intros ->; lia|]. apply IH, H2. }
    apply T. vm_compute. reflexivity.
Qed.
(** A plane with bands 30, 31 and 3, 4, and one with edges. *)
Example C87_sao_nonvacuous : sao_choice_ok (SaoBand 30 5 (7, -3, 0, 1)) /\ sao_choice_ok (SaoEdge 2 (4, 1, -1, -6)) /\
  sao_plane_bins (SaoEdge 2 (4, 1, -1, -6)) = (Sym 255, 0) :: map equi [0; 0; 0; 0; 0; 0; 1; 0; 0; 0; 0; 0; 0; 0; 0; 0; 0; 1].
Proof. split; [vm_compute; repeat split; discriminate|]. split; [vm_compute; repeat split; discriminate|]. vm_compute. reflexivity. Qed.
