(** C96: the headers in front of a picture. *)
From Coq Require Import ZArith List Bool Lia.
From Verif Require Import CBase VlcModel BsModel BsSpec HdrModel HdrSpec HdrProps UhModel UhSpec UhProofs.
Import ListNotations.
Open Scope Z_scope.

(** However many sequence headers, extensions and user data stand in front of the picture, the
    picture header is found, and all sequence headers before it have taken effect, in order and
    with the meaning of what was written; nothing else has. *)
Theorem C96_found : forall ts pc rest,
  let data := front ts ++ [0; 0; 1; pc] ++ rest in
  bytes_ok data -> no_emulation ts ([0; 0; 1; pc] ++ rest) -> Forall thing_ok ts ->
  pc = 179 \/ pc = 182 -> (4 < length data)%nat ->
  exists qs, Forall2 meaning (sequences ts) qs /\
    parse_header (Bs data (Z.of_nat (length data)) 0) =
      Done (RPic pc (Bs data (Z.of_nat (length data)) (8 * Z.of_nat (length (front ts)))), qs).
Proof. exact found. Qed.
Print Assumptions C96_found.

(** On any bytes, damaged or not, the search ends. *)
Theorem C96_ends : forall s, 0 <= bs_pos s -> parse_header s <> Hang.
Proof. exact header_ends. Qed.
Print Assumptions C96_ends.

(** User data, a sequence header, an extension, then a picture and its first slice. *)
Definition ex_body : list Z := Eval vm_compute in skipn 4 (bytes_of (syn_bits ex_syn10 ++ repeat true 7)).
Definition ex_things : list thing := [Other 178 [65; 0; 0]; Sequence ex_syn10 ex_body; Other 181 [32; 9]].
Lemma sc_dec : forall l j c, sc_at l j c -> find_start_code (skipn j l) = Some O \/ ~ bytes_ok l.
Proof.
  intros l j c H. destruct (Forall_dec (fun b => 0 <= b <= 255)) with (l := l) as [B|B].
  - intro x. destruct (Z_le_dec 0 x), (Z_le_dec x 255); [left; lia|right; lia..].
  - left. rewrite (find_at l j j c); [f_equal; lia | exact B | lia | exact H | intros; lia].
  - right. exact B.
Qed.
Example C96_nonvacuous :
  let rest := [40; 0; 0; 1; 0; 128] in
  bytes_ok (front ex_things ++ [0; 0; 1; 179] ++ rest) /\ no_emulation ex_things ([0; 0; 1; 179] ++ rest) /\
  Forall thing_ok ex_things /\ sequences ex_things = [ex_syn10].
Proof.
  assert (B : bytes_ok (front ex_things ++ [0; 0; 1; 179] ++ [40; 0; 0; 1; 0; 128])).
  { apply Forall_forall. intros x Hx. vm_compute in Hx. repeat (destruct Hx as [<- | Hx]; [lia|]). contradiction. }
  cbv zeta. split; [exact B|]. split.
  - intros j c H Hj.
    assert (F : find_start_code (skipn j (front ex_things ++ [0; 0; 1; 179] ++ [40; 0; 0; 1; 0; 128])) = Some O).
    { destruct (sc_dec _ _ _ H); [assumption|contradiction]. }
    (let n := eval vm_compute in (length (front ex_things)) in change (length (front ex_things)) with n in Hj).
    assert (C : j = 0%nat \/ j = length (front [Other 178 [65; 0; 0]]) \/ j = length (front [Other 178 [65; 0; 0]; Sequence ex_syn10 ex_body])).
    { clear H B. do 60 (destruct j as [|j]; [first [exfalso; lia | left; reflexivity | right; left; reflexivity | right; right; reflexivity | vm_compute in F; discriminate F]|]). lia. }
    destruct C as [-> | [-> | ->]].
    + exists [], (Other 178 [65; 0; 0]), [Sequence ex_syn10 ex_body; Other 181 [32; 9]]. split; reflexivity.
    + exists [Other 178 [65; 0; 0]], (Sequence ex_syn10 ex_body), [Other 181 [32; 9]]. split; reflexivity.
    + exists [Other 178 [65; 0; 0]; Sequence ex_syn10 ex_body], (Other 181 [32; 9]), []. split; reflexivity.
  - split; [|reflexivity]. constructor; [cbn; lia|]. constructor; [|constructor; [cbn; lia | constructor]].
    split; [|split].
    + unfold syn_fits, fits, zlen; cbn.
      repeat match goal with |- _ /\ _ => split end; try lia; repeat constructor; cbn; lia.
    + unfold legal, zlen, eff_eprec; cbn; lia.
    + exists (skipn (length (syn_bits ex_syn10)) (bits_of ([0; 0; 1; 176] ++ ex_body))). vm_compute. reflexivity.
Qed.
