(** Block copies: a checker of straight-line copies, its soundness, and the run over all functions. *)
From Coq Require Import ZArith List Bool Lia.
From Verif Require Import CBase MemModel FtModel FtSpec FtProofs BcModel BcSpec.
Import ListNotations.
Open Scope Z_scope.

(** A number [d * D + sd * SD + s * S + ss * SS + c]. *)
Record lin := Lin { ld : Z; lsd : Z; ls : Z; lss : Z; lc : Z }.
Definition lval (D SD S SS : Z) (l : lin) : Z := ld l * D + lsd l * SD + ls l * S + lss l * SS + lc l.
Definition ladd (k : Z) (a b : lin) : lin :=
  Lin (k * ld a + ld b) (k * lsd a + lsd b) (k * ls a + ls b) (k * lss a + lss b) (k * lc a + lc b).
Definition leqb (a b : lin) : bool :=
  (ld a =? ld b) && (lsd a =? lsd b) && (ls a =? ls b) && (lss a =? lss b) && (lc a =? lc b).

Fixpoint get {A : Type} (l : list (Z * A)) (k : Z) : option A :=
  match l with [] => None | (i, x) :: t => if k =? i then Some x else get t k end.
Fixpoint set {A : Type} (l : list (Z * A)) (k : Z) (x : A) : list (Z * A) :=
  match l with [] => [(k, x)] | (i, y) :: t => if k =? i then (k, x) :: t else (i, y) :: set t k x end.
Lemma get_set : forall A (l : list (Z * A)) k x i, get (set l k x) i = if i =? k then Some x else get l i.
Proof.
  induction l as [|[j y] t IH]; intros k x i; cbn; [reflexivity|].
  destruct (Z.eqb_spec k j) as [->|Hkj]; cbn.
  - destruct (Z.eqb_spec i j); reflexivity.
  - rewrite IH. destruct (Z.eqb_spec i j) as [->|]; [|reflexivity].
    destruct (Z.eqb_spec j k); [lia|reflexivity].
Qed.

Fixpoint sea (g : list (Z * lin)) (l : list (Z * Z)) (c : Z) : option lin :=
  match l with
  | [] => Some (Lin 0 0 0 0 c)
  | (r, k) :: t => match get g r, sea g t c with Some a, Some b => Some (ladd k a b) | _, _ => None end end.

(** [(y, x, n)]: [n] bytes of row [y] from byte [x] on. *)
Definition piece := (Z * Z * Z)%type.
Definition piece_eqb (a b : piece) : bool :=
  let '(y, x, n) := a in let '(y', x', n') := b in (y =? y') && (x =? x') && (n =? n').
Record sym := Sym { sg : list (Z * lin); sv : list (Z * piece); sd : list piece }.

Section Check.
Variables u W R : Z.
Definition inside (y x n : Z) : bool := (0 <=? y) && (y <? R) && (0 <=? x) && (x + n <=? u * W).
Definition from_src (n : Z) (l : lin) : option piece :=
  let y := lss l / u in
  if (ld l =? 0) && (lsd l =? 0) && (ls l =? 1) && (u * y =? lss l) && inside y (lc l) n then Some (y, lc l, n) else None.
Definition to_dst (n : Z) (l : lin) : option piece :=
  let y := lsd l / u in
  if (ls l =? 0) && (lss l =? 0) && (ld l =? 1) && (u * y =? lsd l) && inside y (lc l) n then Some (y, lc l, n) else None.
Definition step (i : ins) (s : sym) : option sym :=
  match i with
  | Lea r a => match sea (sg s) (fst a) (snd a) with Some l => Some (Sym (set (sg s) r l) (sv s) (sd s)) | None => None end
  | Ld n v a => match sea (sg s) (fst a) (snd a) with
                | Some l => match from_src n l with Some p => Some (Sym (sg s) (set (sv s) v p) (sd s)) | None => None end
                | None => None end
  | St n a v => match sea (sg s) (fst a) (snd a) with
                | Some l => match to_dst n l, get (sv s) v with
                            | Some p, Some q => if piece_eqb p q then Some (Sym (sg s) (sv s) (p :: sd s)) else None
                            | _, _ => None end
                | None => None end
  end.
Fixpoint steps (l : list ins) (s : sym) : option sym :=
  match l with [] => Some s | i :: t => match step i s with Some s' => steps t s' | None => None end end.

(** From byte [x] of row [y] to the end of the row there are pieces. *)
Fixpoint covrow (fuel : nat) (l : list piece) (y x : Z) : bool :=
  if u * W <=? x then true else
  match fuel with
  | O => false
  | S k => match find (fun p => let '(y', x', n) := p in (y =? y') && (x =? x') && (0 <? n)) l with
           | Some (_, _, n) => covrow k l y (x + n) | None => false end end.
Definition covers (l : list piece) : bool :=
  forallb (fun y => covrow (Z.to_nat (u * W)) l (Z.of_nat y) 0) (seq 0 (Z.to_nat R)).

(** After a turn r0 and r2 are [R] rows on and the other known registers are as before. *)
Definition moved (r : Z) (l : lin) : lin :=
  if r =? 0 then Lin (ld l) (lsd l + u * R) (ls l) (lss l) (lc l)
  else if r =? 2 then Lin (ld l) (lsd l) (ls l) (lss l + u * R) (lc l) else l.
Definition again (g g' : list (Z * lin)) : bool :=
  forallb (fun p => match get g' (fst p) with Some l => leqb l (moved (fst p) (snd p)) | None => false end) g.
(** Which multiples of D and S a register may hold at the start of a turn. *)
Definition plain (p : Z * lin) : bool :=
  let '(r, l) := p in
  if r =? 0 then (ld l =? 1) && (ls l =? 0) else if r =? 2 then (ld l =? 0) && (ls l =? 1) else (ld l =? 0) && (ls l =? 0).
Definition start : list (Z * lin) :=
  [(0, Lin 1 0 0 0 0); (1, Lin 0 1 0 0 0); (2, Lin 0 0 1 0 0); (3, Lin 0 0 0 1 0)].
Definition is_lea (i : ins) : bool := match i with Lea _ _ => true | _ => false end.
Definition check (c : code) (n : nat) : bool :=
  let '(Code pre body) := c in
  (0 <? u) && (0 <? R) && forallb is_lea pre &&
  match steps pre (Sym start [] []) with
  | None => false
  | Some s => match steps body (Sym (sg s) [] []) with
              | None => false
              | Some e => covers (sd e) && match n with 1%nat => true | _ => forallb plain (sg s) && again (sg s) (sg e) end
              end end.
End Check.

Definition check_one (p : bname * (code * nat)) : bool :=
  let '(Bname k w h _, (c, n)) := p in
  let r := h / Z.of_nat n in (r * Z.of_nat n =? h) && check (unit_of k) w r c n.
Lemma all_checked : forallb check_one copy_funcs = true.
Proof. vm_compute. reflexivity. Qed.

Lemma sea_ok : forall D SD S SS gs g, (forall r l, get gs r = Some l -> g r = lval D SD S SS l) ->
  forall l c t, sea gs l c = Some t -> ea g (l, c) = lval D SD S SS t.
Proof.
  intros D SD S SS gs g Hg. induction l as [|[r k] l IH]; intros c t; cbn.
  - intros [= <-]. unfold lval; cbn. lia.
  - destruct (get gs r) as [a|] eqn:Ea; [|discriminate]. destruct (sea gs l c) as [b|] eqn:Eb; [|discriminate].
    intros [= <-]. specialize (IH _ _ Eb). unfold ea in IH. cbn in IH. rewrite IH, (Hg _ _ Ea).
    unfold lval, ladd; cbn. ring.
Qed.

Section Sound.
Variables u W R : Z.
Variables D SD S SS : Z.
Hypothesis Hu : 0 < u.
Hypothesis HW : W <= SD.
Hypothesis Hap : forall y x y' x', 0 <= y < R -> 0 <= x < u * W -> 0 <= y' < R -> 0 <= x' < u * W ->
  D + y * (u * SD) + x <> S + y' * (u * SS) + x'.
Variable m0 : mem.

Definition inv (s : sym) (q : mach) : Prop :=
  (forall r l, get (sg s) r = Some l -> gp q r = lval D SD S SS l) /\
  (forall v y x n, get (sv s) v = Some (y, x, n) -> forall k, 0 <= k < n -> vr q v k = m0 (S + y * (u * SS) + (x + k))) /\
  (forall y x n, In (y, x, n) (sd s) -> forall k, 0 <= k < n -> me q (D + y * (u * SD) + (x + k)) = m0 (S + y * (u * SS) + (x + k))) /\
  (forall y x n, In (y, x, n) (sd s) -> 0 <= y < R /\ 0 <= x /\ x + n <= u * W) /\
  (forall a, ~ in_block u W R D SD a -> me q a = m0 a).

Lemma inside_ok : forall y x n, inside u W R y x n = true -> 0 <= y < R /\ 0 <= x /\ x + n <= u * W.
Proof. intros y x n. unfold inside. rewrite !andb_true_iff, !Z.leb_le, Z.ltb_lt. lia. Qed.
Lemma from_src_ok : forall n l y x n', from_src u W R n l = Some (y, x, n') ->
  n' = n /\ lval D SD S SS l = S + y * (u * SS) + x /\ 0 <= y < R /\ 0 <= x /\ x + n <= u * W.
Proof.
  intros n l y x n'. unfold from_src. set (q := lss l / u).
  destruct (_ && _) eqn:E; [|discriminate]. intros [= <- <- <-].
  rewrite !andb_true_iff, !Z.eqb_eq in E. destruct E as [[[[E1 E2] E3] E4] E5].
  apply inside_ok in E5. split; [reflexivity|]. split; [|exact E5].
  unfold lval. rewrite E1, E2, E3, <- E4. ring.
Qed.
Lemma to_dst_ok : forall n l y x n', to_dst u W R n l = Some (y, x, n') ->
  n' = n /\ lval D SD S SS l = D + y * (u * SD) + x /\ 0 <= y < R /\ 0 <= x /\ x + n <= u * W.
Proof.
  intros n l y x n'. unfold to_dst. set (q := lsd l / u).
  destruct (_ && _) eqn:E; [|discriminate]. intros [= <- <- <-].
  rewrite !andb_true_iff, !Z.eqb_eq in E. destruct E as [[[[E1 E2] E3] E4] E5].
  apply inside_ok in E5. split; [reflexivity|]. split; [|exact E5].
  unfold lval. rewrite E1, E2, E3, <- E4. ring.
Qed.
Lemma same_place : forall y x y' x', 0 <= x < u * W -> 0 <= x' < u * W ->
  D + y * (u * SD) + x = D + y' * (u * SD) + x' -> y = y' /\ x = x'.
Proof.
  intros y x y' x' Hx Hx' E. assert (H : u * W <= u * SD) by (apply Z.mul_le_mono_nonneg_l; lia).
  remember (u * SD) as st. remember (u * W) as wb.
  assert (y = y').
  { destruct (Z.lt_trichotomy y y') as [L|[L|L]]; [|exact L|].
    - assert ((y + 1) * st <= y' * st) by (apply Z.mul_le_mono_nonneg_r; lia). lia.
    - assert ((y' + 1) * st <= y * st) by (apply Z.mul_le_mono_nonneg_r; lia). lia. }
  subst y'. lia.
Qed.

Lemma step_ok : forall i s s' q, step u W R i s = Some s' -> inv s q -> inv s' (exec i q).
Proof.
  intros i s s' q Es (Ig & Iv & Id & Ii & Io). destruct i as [r [l c] | n v [l c] | n [l c] v]; cbn in Es;
    destruct (sea (sg s) l c) as [t|] eqn:Et; try discriminate; pose proof (sea_ok _ _ _ _ _ _ Ig _ _ _ Et) as Ea.
  - injection Es as <-. split; [|exact (conj Iv (conj Id (conj Ii Io)))]. cbn -[ea].
    intros r' l' Hl. rewrite get_set in Hl. unfold put. destruct (r' =? r); [injection Hl as <-; exact Ea | exact (Ig _ _ Hl)].
  - destruct (from_src u W R n t) as [[[y x] n']|] eqn:Ef; [|discriminate]. injection Es as <-.
    apply from_src_ok in Ef. destruct Ef as (-> & El & Hy & Hx & Hn).
    split; [exact Ig|split; [|exact (conj Id (conj Ii Io))]]. cbn -[ea].
    intros v' y' x' n' Hv k Hk. rewrite get_set in Hv. unfold put. destruct (v' =? v).
    + injection Hv as <- <- <-. rewrite (proj2 (Z.leb_le 0 k)), (proj2 (Z.ltb_lt k n)) by lia. cbn [andb].
      rewrite Ea, El. replace (S + y * (u * SS) + x + k) with (S + y * (u * SS) + (x + k)) by ring.
      apply Io. intros (y2 & x2 & Hy2 & Hx2 & E). refine (Hap y2 x2 y (x + k) Hy2 Hx2 Hy _ (eq_sym E)). lia.
    + eapply Iv; eassumption.
  - destruct (to_dst u W R n t) as [[[y x] n']|] eqn:Ef; [|discriminate].
    destruct (get (sv s) v) as [[[y2 x2] n2]|] eqn:Ev; [|discriminate].
    destruct (piece_eqb (y, x, n') (y2, x2, n2)) eqn:Ep; [|discriminate]. injection Es as <-.
    apply to_dst_ok in Ef. destruct Ef as (-> & El & Hy & Hx & Hn).
    cbn in Ep. rewrite !andb_true_iff, !Z.eqb_eq in Ep. destruct Ep as [[<- <-] <-].
    pose proof (Iv _ _ _ _ Ev) as Iw. rewrite El in Ea.
    split; [exact Ig|split; [exact Iv|]]. unfold exec. rewrite Ea. cbn [me sd].
    assert (Hst : forall k, 0 <= k < n ->
      (D + y * (u * SD) + x <=? D + y * (u * SD) + (x + k)) && (D + y * (u * SD) + (x + k) <? D + y * (u * SD) + x + n) = true).
    { intros k Hk. rewrite andb_true_iff, Z.leb_le, Z.ltb_lt. lia. }
    split; [|split].
    + intros y' x' n' [[= <- <- <-]|Hin] k Hk.
      * rewrite (Hst k Hk). rewrite <- (Iw k Hk). f_equal. ring.
      * specialize (Id _ _ _ Hin k Hk). destruct (Ii _ _ _ Hin) as (Hy' & Hx' & Hn').
        set (b := D + y' * (u * SD) + (x' + k)) in *.
        destruct ((D + y * (u * SD) + x <=? b) && (b <? D + y * (u * SD) + x + n)) eqn:E; [|exact Id].
        rewrite andb_true_iff, Z.leb_le, Z.ltb_lt in E.
        set (j := b - (D + y * (u * SD) + x)) in *. assert (Hj : 0 <= j < n) by (unfold j; lia).
        rewrite (Iw j Hj).
        assert (Eb : D + y * (u * SD) + (x + j) = D + y' * (u * SD) + (x' + k)) by (fold b; unfold j; ring).
        apply same_place in Eb; [|lia|lia]. destruct Eb as [-> ->]. reflexivity.
    + intros y' x' n' [[= <- <- <-]|Hin]; [exact (conj Hy (conj Hx Hn)) | exact (Ii _ _ _ Hin)].
    + intros b Hb. destruct ((D + y * (u * SD) + x <=? b) && (b <? D + y * (u * SD) + x + n)) eqn:E; [|exact (Io b Hb)].
      exfalso. rewrite andb_true_iff, Z.leb_le, Z.ltb_lt in E. apply Hb.
      exists y, (b - (D + y * (u * SD))). split; [exact Hy|]. split; [lia|ring].
Qed.

Lemma steps_ok : forall l s s' q, steps u W R l s = Some s' -> inv s q -> inv s' (run l q).
Proof.
  induction l as [|i l IH]; intros s s' q; cbn.
  - intros [= <-]. exact (fun H => H).
  - destruct (step u W R i s) as [s1|] eqn:E; [|discriminate]. intros Es Hi.
    apply (IH s1 s' (exec i q) Es). exact (step_ok _ _ _ _ E Hi).
Qed.

Lemma covrow_ok : forall l y f x, covrow u W f l y x = true -> forall b, x <= b < u * W ->
  exists x' n, In (y, x', n) l /\ x' <= b < x' + n.
Proof.
  intros l y. induction f as [|f IH]; intros x; cbn; destruct (Z.leb_spec (u * W) x); try (intros _ b Hb; lia); [discriminate|].
  match goal with |- context [find ?g l] => destruct (find g l) as [[[y' x'] n]|] eqn:E end; [|discriminate].
  apply find_some in E. destruct E as [Hin E]. rewrite !andb_true_iff, !Z.eqb_eq, Z.ltb_lt in E.
  destruct E as [[<- <-] Hn]. intros Hc b Hb.
  destruct (Z_lt_ge_dec b (x + n)).
  - exists x, n. split; [exact Hin|lia].
  - apply (IH _ Hc). lia.
Qed.
Lemma covers_ok : forall l, covers u W R l = true -> forall y b, 0 <= y < R -> 0 <= b < u * W ->
  exists x' n, In (y, x', n) l /\ x' <= b < x' + n.
Proof.
  intros l H y b Hy Hb. unfold covers in H. rewrite forallb_forall in H.
  specialize (H (Z.to_nat y)). rewrite Z2Nat.id in H by lia.
  refine (covrow_ok l y _ 0 (H _) b Hb). apply in_seq. lia.
Qed.

(** One turn. *)
Lemma turn_ok : forall gs l e q, steps u W R l (Sym gs [] []) = Some e -> covers u W R (sd e) = true ->
  (forall r t, get gs r = Some t -> gp q r = lval D SD S SS t) -> me q = m0 ->
  block_copied u W R D SD S SS m0 (me (run l q)) /\ (forall r t, get (sg e) r = Some t -> gp (run l q) r = lval D SD S SS t).
Proof.
  intros gs l e q Hs Hc Hg Hm.
  assert (Hi : inv (Sym gs [] []) q).
  { split; [exact Hg|]. split; [intros v y x n H; discriminate H|]. split; [intros y x n []|]. split; [intros y x n []|].
    intros a _. rewrite Hm. reflexivity. }
  apply (steps_ok _ _ _ _ Hs) in Hi. destruct Hi as (Ig & _ & Id & _ & Io). split; [|exact Ig].
  split; [|exact Io]. intros y x Hy Hx. destruct (covers_ok _ Hc y x Hy Hx) as (x' & n & Hin & Hb).
  specialize (Id _ _ _ Hin (x - x')). replace (x' + (x - x')) with x in Id by ring. apply Id. lia.
Qed.
End Sound.

Lemma pre_ok : forall u W R l, forallb is_lea l = true -> forall s e q D SD S SS, steps u W R l s = Some e ->
  (forall r t, get (sg s) r = Some t -> gp q r = lval D SD S SS t) ->
  (forall r t, get (sg e) r = Some t -> gp (run l q) r = lval D SD S SS t) /\ me (run l q) = me q.
Proof.
  intros u W R. induction l as [|i l IH]; intros Hl s e q D SD S SS; cbn.
  - intros [= <-] H. exact (conj H eq_refl).
  - cbn in Hl. apply andb_true_iff in Hl. destruct Hl as [Hi Hl]. destruct i as [r [a c]| |]; try discriminate Hi. cbn.
    destruct (sea (sg s) a c) as [t|] eqn:Et; [|discriminate]. intros Es Hg.
    pose proof (sea_ok _ _ _ _ _ _ Hg _ _ _ Et) as Ea.
    refine (IH Hl _ _ (Mach (put (gp q) r (ea (gp q) (a, c))) (vr q) (me q)) D SD S SS Es _). cbn -[ea].
    intros r' l' Hl'. rewrite get_set in Hl'. unfold put. destruct (r' =? r); [injection Hl' as <-; exact Ea | exact (Hg _ _ Hl')].
Qed.

Lemma get_in : forall A (l : list (Z * A)) k x, get l k = Some x -> In (k, x) l.
Proof.
  induction l as [|[i y] l IH]; intros k x; cbn; [discriminate|].
  destruct (Z.eqb_spec k i) as [->|]; [intros [= <-]; left; reflexivity|intros H; right; exact (IH _ _ H)].
Qed.

Lemma leqb_ok : forall a b, leqb a b = true -> a = b.
Proof.
  intros [a1 a2 a3 a4 a5] [b1 b2 b3 b4 b5]. unfold leqb; cbn. rewrite !andb_true_iff, !Z.eqb_eq.
  intros [[[[-> ->] ->] ->] ->]. reflexivity.
Qed.
Lemma moved_ok : forall u R r t D SD S SS, plain (r, t) = true ->
  lval D SD S SS (moved u R r t) = lval (D + R * (u * SD)) SD (S + R * (u * SS)) SS t.
Proof.
  intros u R r [a b c d e] D SD S SS. unfold plain, moved, lval; cbn.
  destruct (r =? 0); [|destruct (r =? 2)]; rewrite andb_true_iff, !Z.eqb_eq; cbn; intros [-> ->]; ring.
Qed.

Lemma compose : forall u W R h D SD S SS m m1 r, 0 < u -> W <= SD -> 0 <= R -> 0 <= h ->
  blocks_apart u W (R + h) D SD S SS ->
  block_copied u W R D SD S SS m m1 ->
  block_copied u W h (D + R * (u * SD)) SD (S + R * (u * SS)) SS m1 r ->
  block_copied u W (R + h) D SD S SS m r.
Proof.
  intros u W R h D SD S SS m m1 r Hu HW HR Hh Hap [C1 O1] [C2 O2]. split.
  - intros y x Hy Hx. destruct (Z_lt_ge_dec y R) as [L|L].
    + rewrite O2; [apply C1; [lia|exact Hx]|]. intros (y' & x' & Hy' & Hx' & E).
      assert (E' : D + y * (u * SD) + x = D + (R + y') * (u * SD) + x') by (rewrite E; ring).
      apply (same_place u W D SD Hu HW) in E'; [|exact Hx|exact Hx']. lia.
    + replace (D + y * (u * SD) + x) with (D + R * (u * SD) + (y - R) * (u * SD) + x) by ring.
      rewrite C2; [|lia|exact Hx].
      replace (S + R * (u * SS) + (y - R) * (u * SS) + x) with (S + y * (u * SS) + x) by ring.
      apply O1. intros (y' & x' & Hy' & Hx' & E).
      apply (Hap (S + y * (u * SS) + x)); [exists y', x'; split; [lia|split; [exact Hx'|exact E]]|].
      exists y, x. split; [exact Hy|split; [exact Hx|reflexivity]].
  - intros a Ha. rewrite O2, O1; [reflexivity| |].
    + intros (y & x & Hy & Hx & E). apply Ha. exists y, x. split; [lia|split; [exact Hx|exact E]].
    + intros (y & x & Hy & Hx & E). apply Ha. exists (R + y), x. split; [lia|split; [exact Hx|rewrite E; ring]].
Qed.

Lemma apart_part : forall u W R h k D SD S SS, 0 <= k -> 0 <= R -> k + R <= h -> blocks_apart u W h D SD S SS ->
  blocks_apart u W R (D + k * (u * SD)) SD (S + k * (u * SS)) SS.
Proof.
  intros u W R h k D SD S SS Hk HR Hh H a (y & x & Hy & Hx & E) (y' & x' & Hy' & Hx' & E').
  apply (H a); [exists (k + y), x | exists (k + y'), x']; (split; [lia|split; [assumption|]]); [rewrite E|rewrite E']; ring.
Qed.
Lemma apart_points : forall u W R D SD S SS, blocks_apart u W R D SD S SS ->
  forall y x y' x', 0 <= y < R -> 0 <= x < u * W -> 0 <= y' < R -> 0 <= x' < u * W ->
  D + y * (u * SD) + x <> S + y' * (u * SS) + x'.
Proof.
  intros u W R D SD S SS H y x y' x' Hy Hx Hy' Hx' E. apply (H (D + y * (u * SD) + x)).
  - exists y, x. split; [exact Hy|split; [exact Hx|reflexivity]].
  - exists y', x'. split; [exact Hy'|split; [exact Hx'|exact E]].
Qed.

Lemma turns_ok : forall u W R SD SS gs l e, 0 < u -> 0 < R -> W <= SD ->
  steps u W R l (Sym gs [] []) = Some e -> covers u W R (sd e) = true ->
  forallb plain gs = true -> again u R gs (sg e) = true ->
  forall n q D S, (forall r t, get gs r = Some t -> gp q r = lval D SD S SS t) ->
  blocks_apart u W (Z.of_nat n * R) D SD S SS ->
  block_copied u W (Z.of_nat n * R) D SD S SS (me q) (me (turns n l q)).
Proof.
  intros u W R SD SS gs l e Hu HR HW Hs Hc Hp Ha. induction n as [|n IH]; intros q D S Hg Hap.
  - split; [intros y x Hy; lia|]. intros a _. reflexivity.
  - replace (Z.of_nat (Datatypes.S n) * R) with (R + Z.of_nat n * R) in * by lia.
    assert (Hn : 0 <= Z.of_nat n * R) by (apply Z.mul_nonneg_nonneg; lia).
    assert (Hap1 : blocks_apart u W R D SD S SS).
    { replace D with (D + 0 * (u * SD)) by ring. replace S with (S + 0 * (u * SS)) by ring.
      apply (apart_part u W R (R + Z.of_nat n * R)); try lia. exact Hap. }
    destruct (turn_ok u W R D SD S SS Hu HW (apart_points _ _ _ _ _ _ _ Hap1) (me q) gs l e q Hs Hc Hg eq_refl) as [Hb Hr].
    cbn [turns]. apply (compose u W R (Z.of_nat n * R) D SD S SS (me q) (me (run l q)) _ Hu HW); try lia; [exact Hap|exact Hb|].
    apply IH.
    + intros r t Ht. pose proof (get_in _ _ _ _ Ht) as Hin.
      unfold again in Ha. rewrite forallb_forall in Ha, Hp. specialize (Ha _ Hin). specialize (Hp _ Hin). cbn in Ha.
      destruct (get (sg e) r) as [t'|] eqn:Et; [|discriminate]. apply leqb_ok in Ha. subst t'.
      rewrite (Hr _ _ Et). apply moved_ok. exact Hp.
    + apply (apart_part u W _ (R + Z.of_nat n * R)); try lia. exact Hap.
Qed.

Lemma check_ok : forall u W R c n g v D SD S SS m, check u W R c n = true -> W <= SD ->
  blocks_apart u W (Z.of_nat n * R) D SD S SS ->
  block_copied u W (Z.of_nat n * R) D SD S SS m (copy_call (c, n) g v D SD S SS m).
Proof.
  intros u W R [pre body] n g v D SD S SS m Hc HW Hap. unfold check in Hc. rewrite !andb_true_iff, !Z.ltb_lt in Hc.
  destruct Hc as [[[Hu HR] Hl] Hc]. destruct (steps u W R pre _) as [s|] eqn:Es; [|discriminate].
  destruct (steps u W R body _) as [e|] eqn:Ee; [|discriminate]. apply andb_true_iff in Hc. destruct Hc as [Hcov Hn].
  unfold copy_call. set (q := Mach _ v m).
  assert (Hq : forall r t, get start r = Some t -> gp q r = lval D SD S SS t).
  { intros r t. unfold start, q, put, lval; cbn -[Z.eqb Z.mul Z.add].
    destruct (Z.eqb_spec r 0) as [->|]; [intros [= <-]; cbn -[Z.mul Z.add]; lia|].
    destruct (Z.eqb_spec r 1) as [->|]; [intros [= <-]; cbn -[Z.mul Z.add]; lia|].
    destruct (Z.eqb_spec r 2) as [->|]; [intros [= <-]; cbn -[Z.mul Z.add]; lia|].
    destruct (Z.eqb_spec r 3) as [->|]; [intros [= <-]; cbn -[Z.mul Z.add]; lia|discriminate]. }
  destruct (pre_ok u W R pre Hl _ _ q D SD S SS Es Hq) as [Hg Hm].
  change m with (me q). rewrite <- Hm.
  assert (Hn' : n = 1%nat \/ forallb plain (sg s) = true /\ again u R (sg s) (sg e) = true).
  { destruct n as [|[|n]]; [right|left; reflexivity|right]; apply andb_true_iff; exact Hn. }
  destruct Hn' as [-> |[Hp Ha]].
  - replace (Z.of_nat 1 * R) with R in * by lia. cbn [turns].
    exact (proj1 (turn_ok u W R D SD S SS Hu HW (apart_points _ _ _ _ _ _ _ Hap) _ _ _ _ _ Ee Hcov Hg eq_refl)).
  - exact (turns_ok u W R SD SS (sg s) body e Hu HR HW Ee Hcov Hp Ha n _ D S Hg Hap).
Qed.

Lemma funcs_ok : forall k w h i c, In (Bname k w h i, c) copy_funcs -> forall g v d sd s ss m, w <= sd ->
  blocks_apart (unit_of k) w h d sd s ss ->
  block_copied (unit_of k) w h d sd s ss m (copy_call c g v d sd s ss m).
Proof.
  intros k w h i [c n] Hin g v d sd s ss m HW Hap. pose proof all_checked as H. rewrite forallb_forall in H.
  specialize (H _ Hin). cbn in H. apply andb_true_iff in H. destruct H as [E H]. apply Z.eqb_eq in E.
  rewrite Z.mul_comm in E. rewrite <- E in *. rewrite E in H.
  apply (check_ok _ _ _ _ _ g v d sd s ss m H HW Hap).
Qed.

(** The C functions. *)
Lemma row_ok : forall u d s sd ss n m, 0 < u -> 0 <= n -> blocks_apart u n 1 d sd s ss ->
  block_copied u n 1 d sd s ss m (loop (Z.to_nat n) (fun x m => move u (d + u * x) (s + u * x) m) m).
Proof.
  intros u d s sd ss n m Hu Hn. rewrite <- (Z2Nat.id n) at 1 2 by exact Hn. generalize (Z.to_nat n) as k. clear n Hn.
  induction k as [|k IH]; intros Hap.
  - split; [intros y x _ Hx; lia|intros a _; reflexivity].
  - assert (Hsub : forall p st a, in_block u (Z.of_nat k) 1 p st a -> in_block u (Z.of_nat (S k)) 1 p st a).
    { intros p st a (y & x & Hy & Hx & E). exists y, x. split; [exact Hy|split; [|exact E]]. rewrite Nat2Z.inj_succ. lia. }
    assert (Hap' : blocks_apart u (Z.of_nat k) 1 d sd s ss).
    { intros a H1 H2. exact (Hap a (Hsub _ _ _ H1) (Hsub _ _ _ H2)). }
    specialize (IH Hap'). cbn [loop]. set (r := loop k _ m) in *. destruct IH as [C O]. unfold move.
    assert (Ew : u * Z.of_nat (S k) = u * Z.of_nat k + u) by (rewrite Nat2Z.inj_succ; ring).
    assert (Hk : 0 <= u * Z.of_nat k) by (apply Z.mul_nonneg_nonneg; lia).
    split.
    + intros y x Hy Hx. assert (y = 0) by lia. subst y. rewrite !Z.mul_0_l, !Z.add_0_r.
      destruct ((d + u * Z.of_nat k <=? d + x) && (d + x <? d + u * Z.of_nat k + u)) eqn:E.
      * rewrite andb_true_iff, Z.leb_le, Z.ltb_lt in E. rewrite O.
        -- f_equal. lia.
        -- intros H. apply (Hap _ (Hsub _ _ _ H)). exists 0, x. split; [lia|split; [exact Hx|lia]].
      * apply andb_false_iff in E. rewrite Z.leb_gt, Z.ltb_ge in E. specialize (C 0 x Hy).
        rewrite !Z.mul_0_l, !Z.add_0_r in C. apply C. lia.
    + intros a Ha. destruct ((d + u * Z.of_nat k <=? a) && (a <? d + u * Z.of_nat k + u)) eqn:E.
      * exfalso. rewrite andb_true_iff, Z.leb_le, Z.ltb_lt in E. apply Ha. exists 0, (a - d). split; [lia|split; lia].
      * apply O. intros H. exact (Ha (Hsub _ _ _ H)).
Qed.

Lemma loop_ext : forall (f g : Z -> mem -> mem) n m, (forall i m, f i m = g i m) -> loop n f m = loop n g m.
Proof. intros f g n m H. induction n as [|n IH]; cbn; [reflexivity|]. rewrite IH, H. reflexivity. Qed.

Lemma c_ok : forall u w h d sd s ss m, 0 < u -> 0 <= w <= sd -> 0 <= h -> blocks_apart u w h d sd s ss ->
  block_copied u w h d sd s ss m (blockcopy_c u w h d sd s ss m).
Proof.
  intros u w h d sd s ss m Hu Hw Hh. unfold blockcopy_c. rewrite <- (Z2Nat.id h) at 1 2 by exact Hh.
  generalize (Z.to_nat h) as k. clear h Hh. induction k as [|k IH]; intros Hap.
  - split; [intros y x Hy; lia|intros a _; reflexivity].
  - cbn [loop]. set (r := loop k _ m) in *. replace (Z.of_nat (S k)) with (Z.of_nat k + 1) in * by lia.
    apply (compose u w (Z.of_nat k) 1 d sd s ss m r); try lia; [exact Hap| |].
    + apply IH. replace d with (d + 0 * (u * sd)) by ring. replace s with (s + 0 * (u * ss)) by ring.
      apply (apart_part u w _ (Z.of_nat k + 1)); try lia. exact Hap.
    + pose proof (row_ok u (d + Z.of_nat k * (u * sd)) (s + Z.of_nat k * (u * ss)) sd ss w r Hu) as H.
      erewrite loop_ext; [apply H; [lia|]|].
      * apply (apart_part u w 1 (Z.of_nat k + 1)); try lia. exact Hap.
      * intros i m'. cbv beta. f_equal; ring.
Qed.

Lemma version_eqb_ok : forall a b, version_eqb a b = true -> a = b.
Proof. intros [] []; cbn; congruence. Qed.
Lemma fn_ok : forall k w h v f, copy_fn k w h v = Some f -> forall g r d sd s ss m, 0 <= w <= sd -> 0 <= h ->
  blocks_apart (unit_of k) w h d sd s ss -> block_copied (unit_of k) w h d sd s ss m (f g r d sd s ss m).
Proof.
  intros k w h v f E g r d sd s ss m Hw Hh Hap.
  assert (H : f = (fun _ _ => blockcopy_c (unit_of k) w h) \/ exists c, In (Bname k w h v, c) copy_funcs /\ f = copy_call c).
  { unfold copy_fn in E. destruct v; [left; injection E as <-; reflexivity|..]; right;
      match type of E with match find ?p ?l with _ => _ end = _ => destruct (find p l) as [[[k' w' h' v'] c]|] eqn:F; [|discriminate] end;
      injection E as <-; apply find_some in F; destruct F as [Hin F]; cbn [fst] in F; rewrite !andb_true_iff, !Z.eqb_eq in F;
      destruct F as [[[F1 <-] <-] F4]; apply version_eqb_ok in F4; subst v'; exists c; (split; [|reflexivity]);
      destruct k, k'; try discriminate F1; exact Hin. }
  destruct H as [-> |(c & Hin & ->)].
  - apply c_ok; try assumption. destruct k; cbn; lia.
  - apply (funcs_ok k w h v c Hin g r d sd s ss m); [lia|exact Hap].
Qed.

(** Every copy function put into the table exists. *)
Definition named (a : assign) : bool :=
  match value a with
  | (f_copy_pp w h, v) => match copy_fn PP w h v with Some _ => (0 <=? w) && (0 <=? h) | None => false end
  | (f_copy_ss w h, v) => match copy_fn SS w h v with Some _ => (0 <=? w) && (0 <=? h) | None => false end
  | (f_luma_ver_n i, _) => 0 <=? i
  | _ => true end.
Lemma all_named : forallb named all_inits = true.
Proof. vm_compute. reflexivity. Qed.

Lemma in_block_dec : forall u w h p st a, in_block u w h p st a \/ ~ in_block u w h p st a.
Proof.
  intros u w h p st a.
  destruct (existsb (fun y => (0 <=? a - p - Z.of_nat y * (u * st)) && (a - p - Z.of_nat y * (u * st) <? u * w)) (seq 0 (Z.to_nat h))) eqn:E.
  - left. apply existsb_exists in E. destruct E as (y & Hy & E). apply in_seq in Hy. rewrite andb_true_iff, Z.leb_le, Z.ltb_lt in E.
    exists (Z.of_nat y), (a - p - Z.of_nat y * (u * st)). split; [lia|split; [exact E|ring]].
  - right. intros (y & x & Hy & Hx & Ea). assert (F : existsb (fun y => (0 <=? a - p - Z.of_nat y * (u * st)) && (a - p - Z.of_nat y * (u * st) <? u * w)) (seq 0 (Z.to_nat h)) = true); [|congruence].
    apply existsb_exists. exists (Z.to_nat y). split; [apply in_seq; lia|]. rewrite Z2Nat.id by lia.
    rewrite andb_true_iff, Z.leb_le, Z.ltb_lt. lia.
Qed.
Lemma copied_same : forall u w h d sd s ss m r r', block_copied u w h d sd s ss m r -> block_copied u w h d sd s ss m r' -> forall a, r a = r' a.
Proof.
  intros u w h d sd s ss m r r' [C O] [C' O'] a. destruct (in_block_dec u w h d sd a) as [(y & x & Hy & Hx & ->)|N].
  - rewrite C, C' by assumption. reflexivity.
  - rewrite O, O' by exact N. reflexivity.
Qed.

(** A copy with no fraction reaches a function that copies. *)
Lemma copy_called : forall cpuid c w h, made c = true -> c = c_luma w h 0 0 \/ c = c_chroma w h 0 0 ->
  exists t, called c = Done t /\ exists f v, fill_table cpuid (fun _ => None) t = Some (f, v) /\
  (f = f_block_copy /\ c = c_chroma w h 0 0 \/
   f = f_copy_pp w h /\ 0 <= w /\ 0 <= h /\ exists p, copy_fn PP w h v = Some p).
Proof.
  intros cpuid c w h Hm Hc. destruct (reached c Hm) as (t & Ht & K). exists t. split; [exact Ht|].
  destruct (K cpuid (fun _ => None)) as (a & Hin & _ & _ & F & W). pose proof all_named as N. rewrite forallb_forall in N.
  specialize (N a Hin). unfold named in N. destruct (value a) as [f v]. exists f, v. split; [exact F|]. cbn [fst] in W.
  destruct Hc as [-> | ->]; destruct f; try (cbn in W; discriminate W);
    try (exfalso; unfold right in W; rewrite andb_true_iff, !Z.eqb_eq in W; rewrite Z.leb_le in N; lia).
  - right. unfold right in W. rewrite !andb_true_iff, !Z.eqb_eq in W. destruct W as [[_ <-] <-]. split; [reflexivity|].
    destruct (copy_fn PP w h v) as [p|]; [|discriminate]. rewrite andb_true_iff, !Z.leb_le in N.
    split; [exact (proj1 N)|split; [exact (proj2 N)|exists p; reflexivity]].
  - right. unfold right in W. rewrite !andb_true_iff, !Z.eqb_eq in W. destruct W as [[_ <-] <-]. split; [reflexivity|].
    destruct (copy_fn PP w h v) as [p|]; [|discriminate]. rewrite andb_true_iff, !Z.leb_le in N.
    split; [exact (proj1 N)|split; [exact (proj2 N)|exists p; reflexivity]].
  - left. split; reflexivity.
Qed.
