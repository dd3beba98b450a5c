(** The quadtree: parsing covers, reconstruction follows. *)
From Coq Require Import ZArith List Bool Lia.
From Verif Require Import CBase CBaseProofs MemModel MemProofs SaoModel SaoProofs QtModel QtSpec QtProofs.
Import ListNotations.
Open Scope Z_scope.

Lemma zigzag_z : forall x y, 0 <= x < 8 -> 0 <= y < 8 -> zigzag y x = Done (z_order x y).
Proof.
  intros x y Hx Hy.
  assert (EX: x = 0 \/ x = 1 \/ x = 2 \/ x = 3 \/ x = 4 \/ x = 5 \/ x = 6 \/ x = 7) by lia.
  assert (EY: y = 0 \/ y = 1 \/ y = 2 \/ y = 3 \/ y = 4 \/ y = 5 \/ y = 6 \/ y = 7) by lia. clear Hx Hy.
  repeat (destruct EX as [-> | EX]; [repeat (destruct EY as [-> | EY]; [vm_compute; reflexivity|]); subst y; vm_compute; reflexivity|]).
  subst x. repeat (destruct EY as [-> | EY]; [vm_compute; reflexivity|]). subst y. vm_compute. reflexivity.
Qed.
Lemma shr3 : forall x, Z.shiftr x 3 = x / 8.
Proof. intros. rewrite Z.shiftr_div_pow2 by lia. reflexivity. Qed.
Lemma shl1 : forall l, 0 <= l -> Z.shiftl 1 l = 2 ^ l.
Proof. intros. rewrite Z.shiftl_mul_pow2 by lia. lia. Qed.
Lemma pow8 : forall l, 3 <= l -> 2 ^ l = 8 * 2 ^ (l - 3).
Proof. intros l H. change 8 with (2 ^ 3). rewrite <- Z.pow_add_r by lia. f_equal. lia. Qed.

Section Walk.
Variables (St : Type) (W H wscu sx sy : Z) (L : nat).
Hypothesis HS : sizes W H wscu L.
Let ix (a b : Z) : Z := b * wscu + a.
Lemma ix_inj : forall a b a' b', 0 <= a < wscu -> 0 <= a' < wscu -> ix a b = ix a' b' -> a = a' /\ b = b'.
Proof.
  unfold ix. intros a b a' b' Ha Ha' E.
  assert (b = b').
  { assert (Q: (b * wscu + a) / wscu = b) by (rewrite Z.add_comm, Z.div_add by lia; rewrite Z.div_small by lia; lia).
    assert (Q': (b' * wscu + a') / wscu = b') by (rewrite Z.add_comm, Z.div_add by lia; rewrite Z.div_small by lia; lia).
    rewrite <- Q, <- Q', E. reflexivity. }
  subst b'. lia.
Qed.
Definition good_unit (u : unit_) : Prop := proper_unit u /\ v_level u <= Z.of_nat L.
Definition agree (R : Z -> Z -> Prop) (lv sl : mem) (st : qst St) : Prop := forall a b, R a b -> lv (ix a b) = s_level st (ix a b) /\ sl (ix a b) = s_slice st (ix a b).
Definition frame (R : Z -> Z -> Prop) (m m' : mem) : Prop := forall q, (forall a b, R a b -> q <> ix a b) -> m' q = m q.
Definition step_ok (R P : Z -> Z -> Prop) (Q : unit_ -> Prop) (st st' : qst St) (us : list unit_) (g : mem -> mem -> list unit_ -> outcome (list unit_)) : Prop :=
  s_log st' = s_log st ++ us /\ covers_once us P /\ Forall Q us /\ frame R (s_level st) (s_level st') /\ frame R (s_slice st) (s_slice st') /\
  ((forall a b, R a b -> s_slice st (ix a b) <> -1) -> forall lv sl, agree R lv sl st' -> forall log, g lv sl log = Done (log ++ us)).
Definition in_cols (R : Z -> Z -> Prop) : Prop := forall a b, R a b -> 0 <= a < wscu.
Lemma frame_at : forall R m m' a b, in_cols R -> frame R m m' -> 0 <= a < wscu -> ~ R a b -> m' (ix a b) = m (ix a b).
Proof.
  intros R m m' a b IC F Ha N. apply F. intros a' b' HR E. destruct (ix_inj a b a' b' Ha (IC a' b' HR) E) as [-> ->]. contradiction.
Qed.
Lemma step_nil : forall R P Q st g, (forall X Y, ~ P X Y) -> (forall lv sl log, g lv sl log = Done log) -> step_ok R P Q st st [] g.
Proof.
  intros R P Q st g N G. split; [now rewrite app_nil_r|]. split; [apply covers_nil; exact N|]. split; [constructor|]. split; [intros q _; reflexivity|]. split; [intros q _; reflexivity|].
  intros _ lv sl _ log. rewrite app_nil_r. apply G.
Qed.
Lemma step_ext : forall R P Q R' P' (Q' : unit_ -> Prop) st st' us g g', step_ok R P Q st st' us g -> (forall a b, R a b <-> R' a b) -> (forall X Y, P X Y <-> P' X Y) ->
  (forall u, Q u -> Q' u) -> (forall lv sl, (forall a b, R' a b -> s_level st' (ix a b) = lv (ix a b)) -> forall log, g' lv sl log = g lv sl log) -> step_ok R' P' Q' st st' us g'.
Proof.
  intros R P Q R' P' Q' st st' us g g' [A [B [C [D [E G]]]]] HR HP HQ HG. split; [exact A|]. split; [exact (covers_ext us P P' B HP)|].
  split; [eapply Forall_impl; [exact HQ|exact C]|]. split; [intros q N; apply D; intros a b HR'; apply N; apply HR; exact HR'|].
  split; [intros q N; apply E; intros a b HR'; apply N; apply HR; exact HR'|].
  intros NS lv sl AG log. rewrite HG by (intros a b HR'; symmetry; apply (AG a b HR')). apply G; [intros a b HR'; apply NS; apply HR; exact HR'|]. intros a b HR'. apply AG. apply HR. exact HR'.
Qed.
Lemma step_seq : forall R1 P1 R2 P2 Q st st1 st2 us1 us2 g1 g2, step_ok R1 P1 Q st st1 us1 g1 -> step_ok R2 P2 Q st1 st2 us2 g2 ->
  in_cols R1 -> in_cols R2 -> (forall a b, R1 a b -> ~ R2 a b) -> (forall X Y, P1 X Y -> ~ P2 X Y) ->
  step_ok (fun a b => R1 a b \/ R2 a b) (fun X Y => P1 X Y \/ P2 X Y) Q st st2 (us1 ++ us2) (fun lv sl log => bindo (g1 lv sl log) (g2 lv sl)).
Proof.
  intros R1 P1 R2 P2 Q st st1 st2 us1 us2 g1 g2 [A1 [B1 [C1 [D1 [E1 G1]]]]] [A2 [B2 [C2 [D2 [E2 G2]]]]] I1 I2 DR DP.
  split; [rewrite A2, A1, app_assoc; reflexivity|]. split; [apply covers_app; assumption|]. split; [apply Forall_app; split; assumption|].
  split; [intros q N; rewrite D2, D1; [reflexivity|intros a b HR; apply N; left; exact HR|intros a b HR; apply N; right; exact HR]|].
  split; [intros q N; rewrite E2, E1; [reflexivity|intros a b HR; apply N; left; exact HR|intros a b HR; apply N; right; exact HR]|].
  intros NS lv sl AG log. rewrite (G1 (fun a b HR => NS a b (or_introl HR)) lv sl).
  - cbn [bindo]. rewrite G2; [rewrite app_assoc; reflexivity| |].
    + intros a b HR. rewrite (frame_at R1 (s_slice st) (s_slice st1) a b I1 E1 (I2 a b HR)); [apply NS; right; exact HR|]. intros HR1. exact (DR a b HR1 HR).
    + intros a b HR. apply AG. right. exact HR.
  - intros a b HR. destruct (AG a b (or_introl HR)) as [G3 G4].
    rewrite G3, G4. split; [apply (frame_at R2 (s_level st1) (s_level st2))|apply (frame_at R2 (s_slice st1) (s_slice st2))]; try assumption; try exact (I1 a b HR); apply DR; exact HR.
Qed.

(** *** One LCU. *)
Variable read_split : Z -> St -> bool * St.
Variable read_cu : Z -> Z -> Z -> St -> bool * St.
Hypothesis HX : sx mod 2 ^ (Z.of_nat L - 3) = 0.
Hypothesis HY : sy mod 2 ^ (Z.of_nat L - 3) = 0.
Hypothesis PX : 0 <= sx.
Hypothesis PY : 0 <= sy.
Let mask : Z := Z.shiftr (Z.shiftl 1 (Z.of_nat L) - 1) 3.
Definition reg (n x y a b : Z) : Prop := (x <= 8 * a < x + n /\ 8 * a < W) /\ (y <= 8 * b < y + n /\ 8 * b < H) /\ 0 <= a.
Lemma reg_cols : forall n x y, in_cols (reg n x y).
Proof. intros n x y a b [[A1 A2] [_ A3]]. destruct HS as [S1 [_ [_ [_ [S3 _]]]]]. subst wscu. clear - A2 A3 S1. Z.div_mod_to_equations. lia. Qed.
Lemma mask_place : forall s c, s mod 2 ^ (Z.of_nat L - 3) = 0 -> 0 <= c - s < 2 ^ (Z.of_nat L - 3) -> Z.land c mask = c - s.
Proof.
  intros s c Hs Hc. destruct HS as [_ [_ [_ [_ [_ HL]]]]].
  assert (EM: mask = Z.ones (Z.of_nat L - 3)).
  { unfold mask. rewrite shl1 by lia. assert (E: (L = 4 \/ L = 5 \/ L = 6)%nat) by lia. destruct E as [-> | [-> | ->]]; reflexivity. }
  rewrite EM, Z.land_ones by lia. replace c with ((c - s) + s / 2 ^ (Z.of_nat L - 3) * 2 ^ (Z.of_nat L - 3)) at 1.
  - rewrite Z.mod_add by lia. apply Z.mod_small. exact Hc.
  - assert (E := Z.div_mod s (2 ^ (Z.of_nat L - 3)) ltac:(lia)). lia.
Qed.
Definition in_lcu (n x y : Z) : Prop := 8 * sx <= x /\ x + n <= 8 * sx + 2 ^ Z.of_nat L /\ 8 * sy <= y /\ y + n <= 8 * sy + 2 ^ Z.of_nat L.
Definition good_z (u : unit_) : Prop := good_unit u /\ in_lcu (2 ^ v_level u) (v_x u) (v_y u) /\ v_z u = z_order (v_x u / 8 - sx) (v_y u / 8 - sy).

Lemma unit_step : forall (level : nat) x y st, (3 <= level <= L)%nat -> x mod 2 ^ Z.of_nat level = 0 -> y mod 2 ^ Z.of_nat level = 0 -> 0 <= x -> 0 <= y ->
  x + 2 ^ Z.of_nat level <= W -> y + 2 ^ Z.of_nat level <= H -> in_lcu (2 ^ Z.of_nat level) x y ->
  let l := Z.of_nat level in
  exists st' us, bindo (zigzag (Z.shiftr y 3 - sy) (Z.shiftr x 3 - sx)) (fun z => Done (read_unit St read_cu wscu l x y z st)) = Done st' /\
    step_ok (reg (2 ^ l) x y) (square_in W H (2 ^ l) x y) good_z st st' us (fun lv sl log => recon W H wscu mask lv sl level x y log) /\
    s_level st' (ix (x / 8) (y / 8)) = l.
Proof.
  intros level x y st HL Mx My Px Py IW IH [LX1 [LX2 [LY1 LY2]]] l. fold l in Mx, My, IW, IH, LX2, LY2.
  destruct HS as [W8 [H8 [W1 [H1 [EW HL6]]]]].
  assert (P8 := pow8 l ltac:(lia)). assert (P8L := pow8 (Z.of_nat L) ltac:(lia)).
  assert (N1: 0 < 2 ^ (l - 3)) by (apply Z.pow_pos_nonneg; lia).
  assert (N2: 2 ^ (Z.of_nat L - 3) <= 8) by (change 8 with (2 ^ 3); apply Z.pow_le_mono_r; lia).
  set (n := 2 ^ (l - 3)) in *. set (N := 2 ^ (Z.of_nat L - 3)) in *.
  assert (X8: x = 8 * (x / 8)).
  { rewrite P8 in Mx. clear - Mx N1. assert (x mod 8 = 0); [|Z.div_mod_to_equations; lia]. apply Z.mod_divide; [lia|]. apply Z.mod_divide in Mx; [|lia]. destruct Mx as [k ->]. exists (k * n). ring. }
  assert (Y8: y = 8 * (y / 8)).
  { rewrite P8 in My. clear - My N1. assert (y mod 8 = 0); [|Z.div_mod_to_equations; lia]. apply Z.mod_divide; [lia|]. apply Z.mod_divide in My; [|lia]. destruct My as [k ->]. exists (k * n). ring. }
  assert (WW: W = 8 * wscu) by (subst wscu; clear - W8; Z.div_mod_to_equations; lia).
  rewrite !shr3. rewrite zigzag_z by lia. cbn [bindo].
  set (z := z_order (x / 8 - sx) (y / 8 - sy)). set (a0 := x / 8) in *. set (b0 := y / 8) in *.
  assert (RI: forall a b, reg (2 ^ l) x y a b <-> exists i j, 0 <= i < n /\ 0 <= j < n /\ a = a0 + j /\ b = b0 + i).
  { intros a b. unfold reg. split.
    - intros [[A1 A2] [[B1 B2] A3]]. exists (b - b0), (a - a0). lia.
    - intros [i [j [Hi [Hj [-> ->]]]]]. lia. }
  unfold read_unit. rewrite !shr3. fold a0 b0. destruct (read_cu l x y (s_rest st)) as [ok r].
  set (xy := b0 * wscu + a0) in *. assert (IXY: xy = ix a0 b0) by reflexivity.
  assert (T8: to_i8 l = l).
  { unfold to_i8. assert (E: level = 3%nat \/ level = 4%nat \/ level = 5%nat \/ level = 6%nat) by lia. unfold l. destruct E as [-> | [-> | [-> | ->]]]; reflexivity. }
  assert (IXS: forall i j, xy + i * wscu + j = ix (a0 + j) (b0 + i)) by (intros; unfold xy, ix; ring).
  assert (F1: forall v m, frame (reg (2 ^ l) x y) m (upd m xy v)).
  { intros v m q Hq. apply upd_other. intros E. apply (Hq a0 b0); [apply RI; exists 0, 0; lia|]. rewrite <- IXY. lia. }
  assert (F2: forall m, frame (reg (2 ^ l) x y) m (read_end wscu l xy m)).
  { intros m q Hq. apply (proj2 (read_end_spec wscu l xy m ltac:(lia) ltac:(fold n; lia))). fold n. intros i j Hi Hj. rewrite IXS. apply Hq. apply RI. exists i, j. auto. }
  assert (TOP: forall m, read_end wscu l xy m xy = m xy).
  { intros m. assert (T := proj1 (read_end_spec wscu l xy m ltac:(lia) ltac:(fold n; lia)) 0 0 ltac:(fold n; lia) ltac:(fold n; lia)).
    replace (xy + 0 * wscu + 0) with xy in T by lia. exact T. }
  set (u := {| v_level := l; v_x := x; v_y := y; v_z := z; v_ok := ok |}).
  assert (CO: covers_once [u] (square_in W H (2 ^ l) x y)).
  { apply (covers_ext [u] (in_unit u)); [apply covers_one|]. intros X Y. unfold in_unit, square_in, u. cbn [v_x v_y v_level]. lia. }
  assert (GZ: Forall good_z [u]).
  { constructor; [|constructor]. unfold good_z, good_unit, proper_unit, in_lcu, u. cbn [v_x v_y v_level v_z]. fold a0 b0. fold z. repeat split; try lia; assumption. }
  assert (RC: forall st', s_level st' xy = l -> (s_slice st xy <> -1 -> (s_slice st' xy =? -1) = negb ok) ->
    (forall a b, reg (2 ^ l) x y a b -> s_slice st (ix a b) <> -1) -> forall lv sl, agree (reg (2 ^ l) x y) lv sl st' ->
    forall log, recon W H wscu mask lv sl level x y log = Done (log ++ [u])).
  { intros st' EL ES NS lv sl AG log.
    assert (R0: reg (2 ^ l) x y a0 b0) by (apply RI; exists 0, 0; lia).
    destruct (AG a0 b0 R0) as [G1 G2]. specialize (NS a0 b0 R0). rewrite <- IXY in *.
    assert (Q: lv xy <? l = false) by (rewrite G1, EL; apply Z.ltb_irrefl).
    destruct level as [|lv']; [lia|]. cbn [recon]. rewrite !shr3. fold a0 b0 xy. fold l. rewrite Q.
    rewrite (mask_place sy b0 HY) by (fold N; lia). rewrite (mask_place sx a0 HX) by (fold N; lia). rewrite zigzag_z by lia. cbn [bindo]. fold z.
    rewrite G2, (ES NS). rewrite negb_involutive. reflexivity. }
  destruct ok.
  - eexists _, [u]. split; [reflexivity|]. split; [|cbn [s_level]; rewrite <- IXY, TOP, upd_same; exact T8].
    split; [reflexivity|]. split; [exact CO|]. split; [exact GZ|]. cbn [s_level s_slice]. split; [|split].
    + intros q Hq. rewrite (F2 (upd (s_level st) xy (to_i8 l)) q Hq). apply F1. exact Hq.
    + apply F2.
    + apply RC; cbn [s_level s_slice]; [rewrite TOP, upd_same; exact T8|]. intros NS. rewrite TOP. apply Z.eqb_neq. exact NS.
  - eexists _, [u]. split; [reflexivity|]. split; [|cbn [s_level]; rewrite <- IXY, upd_same; exact T8].
    split; [reflexivity|]. split; [exact CO|]. split; [exact GZ|]. cbn [s_level s_slice]. split; [apply F1|]. split; [apply F1|].
    apply RC; cbn [s_level s_slice]; [rewrite upd_same; exact T8|]. intros NS. rewrite upd_same. reflexivity.
Qed.
Lemma half_mod : forall next x, x mod 2 ^ Z.of_nat (S next) = 0 -> forall k, (x + k * 2 ^ Z.of_nat next) mod 2 ^ Z.of_nat next = 0.
Proof.
  intros next x Hx k. assert (P: 0 < 2 ^ Z.of_nat next) by (apply Z.pow_pos_nonneg; lia). rewrite Z.mod_add by lia.
  rewrite Nat2Z.inj_succ, Z.pow_succ_r in Hx by lia. apply Z.mod_divide; [lia|]. apply Z.mod_divide in Hx; [|lia]. destruct Hx as [c ->]. exists (c * 2). ring.
Qed.
Definition sub_parse (next : nat) (x y i : Z) (st : qst St) : outcome (qst St) :=
  let sub_x := x + Z.shiftl (Z.land i 1) (Z.of_nat next) in
  let sub_y := y + Z.shiftl (Z.shiftr i 1) (Z.of_nat next) in
  if (sub_x <? W) && (sub_y <? H) then parse St read_split read_cu W H wscu sx sy next sub_x sub_y st else Done st.
Definition sub_recon (lv sl : mem) (next : nat) (x y i : Z) (log : list unit_) : outcome (list unit_) :=
  let sub_x := x + Z.shiftl (Z.land i 1) (Z.of_nat next) in
  let sub_y := y + Z.shiftl (Z.shiftr i 1) (Z.of_nat next) in
  if (sub_x <? W) && (sub_y <? H) then recon W H wscu mask lv sl next sub_x sub_y log else Done log.
Lemma parse_split_eq : forall next x y st split st1, 
  (if (3 <? Z.of_nat (S next)) && ((x + Z.shiftl 1 (Z.of_nat (S next)) <=? W) && (y + Z.shiftl 1 (Z.of_nat (S next)) <=? H))
   then let '(b, r) := read_split (Z.of_nat (S next)) (s_rest st) in
      (b, {| s_level := s_level st; s_slice := s_slice st; s_rest := r; s_log := s_log st |})
    else (negb (Z.of_nat (S next) =? 3), st)) = (split, st1) ->
  parse St read_split read_cu W H wscu sx sy (S next) x y st =
  if split then bindo (sub_parse next x y 0 st1) (fun st => bindo (sub_parse next x y 1 st) (fun st => bindo (sub_parse next x y 2 st) (sub_parse next x y 3)))
  else bindo (zigzag (Z.shiftr y 3 - sy) (Z.shiftr x 3 - sx)) (fun z => Done (read_unit St read_cu wscu (Z.of_nat (S next)) x y z st1)).
Proof. intros next x y st split st1 E. cbn [parse]. rewrite E. reflexivity. Qed.
Lemma parse_step : forall (level : nat) x y st, (3 <= level <= L)%nat -> x mod 2 ^ Z.of_nat level = 0 -> y mod 2 ^ Z.of_nat level = 0 ->
  0 <= x < W -> 0 <= y < H -> in_lcu (2 ^ Z.of_nat level) x y ->
  let l := Z.of_nat level in
  exists st' us, parse St read_split read_cu W H wscu sx sy level x y st = Done st' /\
    step_ok (reg (2 ^ l) x y) (square_in W H (2 ^ l) x y) good_z st st' us (fun lv sl log => recon W H wscu mask lv sl level x y log) /\
    s_level st' (ix (x / 8) (y / 8)) <= l.
Proof.
  induction level as [|next IH]; intros x y st HL Mx My Px Py IL l; [lia|].
  destruct HS as [W8 [H8 [W1 [H1 [EW HL6]]]]].
  assert (EL: l = Z.of_nat (S next)) by reflexivity.
  destruct (if (3 <? Z.of_nat (S next)) && ((x + Z.shiftl 1 (Z.of_nat (S next)) <=? W) && (y + Z.shiftl 1 (Z.of_nat (S next)) <=? H))
   then let '(b, r) := read_split (Z.of_nat (S next)) (s_rest st) in
      (b, {| s_level := s_level st; s_slice := s_slice st; s_rest := r; s_log := s_log st |})
    else (negb (Z.of_nat (S next) =? 3), st)) as [split st1] eqn:ES.
  rewrite (parse_split_eq next x y st split st1 ES).
  assert (T1: s_level st1 = s_level st /\ s_slice st1 = s_slice st /\ s_log st1 = s_log st /\ (split = true -> (3 <= next)%nat) /\
    (split = false -> x + 2 ^ l <= W /\ y + 2 ^ l <= H)).
  { rewrite !shl1 in ES by lia. fold l in ES. destruct (Z.ltb_spec 3 l) as [G | G]; cbn [andb] in ES.
    - destruct (Z.leb_spec (x + 2 ^ l) W) as [A | A]; destruct (Z.leb_spec (y + 2 ^ l) H) as [B | B]; cbn [andb] in ES.
      + destruct (read_split l (s_rest st)) as [b r]. apply pair_equal_spec in ES. destruct ES as [_ <-]. cbn [s_level s_slice s_log]. repeat split; lia.
      + apply pair_equal_spec in ES. destruct ES as [Es <-]. rewrite (proj2 (Z.eqb_neq l 3)) in Es by lia. subst split. repeat split; try lia; discriminate.
      + apply pair_equal_spec in ES. destruct ES as [Es <-]. rewrite (proj2 (Z.eqb_neq l 3)) in Es by lia. subst split. repeat split; try lia; discriminate.
      + apply pair_equal_spec in ES. destruct ES as [Es <-]. rewrite (proj2 (Z.eqb_neq l 3)) in Es by lia. subst split. repeat split; try lia; discriminate.
    - assert (E3: l = 3) by lia. apply pair_equal_spec in ES. destruct ES as [Es <-]. rewrite E3 in Es. cbn in Es. subst split. split; [reflexivity|]. split; [reflexivity|]. split; [reflexivity|]. split; [discriminate|].
      intros _. fold l in Mx, My. rewrite E3 in *. change (2 ^ 3) with 8 in *. clear - Mx My W8 H8 Px Py. Z.div_mod_to_equations. lia. }
  destruct T1 as [T1 [T2 [T3 [T4 T5]]]].
  assert (TR: forall R P Q st' us g, step_ok R P Q st1 st' us g -> step_ok R P Q st st' us g).
  { intros R P Q st' us g [A [B [C [D [E G]]]]]. rewrite T1 in D. rewrite T2 in E, G. rewrite T3 in A. repeat split; try assumption; apply B. }
  destruct split.
  - specialize (T4 eq_refl). clear T5 ES.
    assert (PN: 0 < 2 ^ Z.of_nat next) by (apply Z.pow_pos_nonneg; lia).
    assert (P2: 2 ^ l = 2 * 2 ^ Z.of_nat next) by (unfold l; rewrite Nat2Z.inj_succ, Z.pow_succ_r by lia; reflexivity).
    set (n := 2 ^ Z.of_nat next) in *.
    assert (SUB: forall i dx dy st0, Z.land i 1 = dx -> Z.shiftr i 1 = dy -> 0 <= dx <= 1 -> 0 <= dy <= 1 ->
      exists st' us, sub_parse next x y i st0 = Done st' /\
        step_ok (reg n (x + dx * n) (y + dy * n)) (square_in W H n (x + dx * n) (y + dy * n)) good_z st0 st' us (fun lv sl log => sub_recon lv sl next x y i log) /\
        (dx = 0 -> dy = 0 -> s_level st' (ix (x / 8) (y / 8)) <= Z.of_nat next)).
    { intros i dx dy st0 Ex Ey Hdx Hdy. unfold sub_parse, sub_recon. rewrite Ex, Ey. rewrite !Z.shiftl_mul_pow2 by lia. fold n.
      destruct (Z.ltb_spec (x + dx * n) W) as [A | A]; destruct (Z.ltb_spec (y + dy * n) H) as [B | B]; cbn [andb].
      2,3,4: exists st0, []; split; [reflexivity|]; split; [apply step_nil; [intros X Y [SQ1 SQ2]; lia|reflexivity]|intros -> ->; lia].
      assert (D1: 0 <= dx * n <= n) by (split; [apply Z.mul_nonneg_nonneg; lia|rewrite <- (Z.mul_1_l n) at 2; apply Z.mul_le_mono_nonneg_r; lia]).
      assert (D2: 0 <= dy * n <= n) by (split; [apply Z.mul_nonneg_nonneg; lia|rewrite <- (Z.mul_1_l n) at 2; apply Z.mul_le_mono_nonneg_r; lia]).
      destruct (IH (x + dx * n) (y + dy * n) st0 ltac:(lia) (half_mod next x Mx dx) (half_mod next y My dy) ltac:(lia) ltac:(lia)) as [st' [us [E [S1 LV]]]].
      { fold n. fold l in IL. rewrite P2 in IL. unfold in_lcu in *. lia. }
      exists st', us. fold n in S1. split; [exact E|]. split; [exact S1|]. intros -> ->. rewrite !Z.mul_0_l, !Z.add_0_r in LV. exact LV. }
    destruct (SUB 0 0 0 st1 eq_refl eq_refl ltac:(lia) ltac:(lia)) as [s1 [u1 [E1 [S1 V1]]]]. rewrite E1. cbn [bindo].
    destruct (SUB 1 1 0 s1 eq_refl eq_refl ltac:(lia) ltac:(lia)) as [s2 [u2 [E2 [S2 _]]]]. rewrite E2. cbn [bindo].
    destruct (SUB 2 0 1 s2 eq_refl eq_refl ltac:(lia) ltac:(lia)) as [s3 [u3 [E3 [S3 _]]]]. rewrite E3. cbn [bindo].
    destruct (SUB 3 1 1 s3 eq_refl eq_refl ltac:(lia) ltac:(lia)) as [s4 [u4 [E4 [S4 _]]]]. rewrite E4.
    assert (S34 := step_seq _ _ _ _ _ _ _ _ _ _ _ _ S3 S4 (reg_cols _ _ _) (reg_cols _ _ _) ltac:(intros a b; unfold reg; lia) ltac:(intros X Y; unfold square_in; lia)).
    assert (S234 := step_seq _ _ _ _ _ _ _ _ _ _ _ _ S2 S34 (reg_cols _ _ _) ltac:(intros a b [R|R]; exact (reg_cols _ _ _ a b R)) ltac:(intros a b; unfold reg; lia) ltac:(intros X Y; unfold square_in; lia)).
    assert (SALL := step_seq _ _ _ _ _ _ _ _ _ _ _ _ S1 S234 (reg_cols _ _ _) ltac:(intros a b [R|[R|R]]; exact (reg_cols _ _ _ a b R)) ltac:(intros a b; unfold reg; lia) ltac:(intros X Y; unfold square_in; lia)).
    assert (X8: x mod 8 = 0 /\ y mod 8 = 0).
    { fold l in Mx, My. rewrite (pow8 l) in Mx, My by lia. assert (0 < 2 ^ (l - 3)) by (apply Z.pow_pos_nonneg; lia). split.
      - apply Z.mod_divide; [lia|]. apply Z.mod_divide in Mx; [|lia]. destruct Mx as [k ->]. exists (k * 2 ^ (l - 3)). ring.
      - apply Z.mod_divide; [lia|]. apply Z.mod_divide in My; [|lia]. destruct My as [k ->]. exists (k * 2 ^ (l - 3)). ring. }
    assert (XX: x = 8 * (x / 8) /\ y = 8 * (y / 8)) by (clear - X8; Z.div_mod_to_equations; lia).
    assert (LV: s_level s4 (ix (x / 8) (y / 8)) <= Z.of_nat next).
    { destruct S234 as [_ [_ [_ [FR _]]]].
      assert (FA: s_level s4 (ix (x / 8) (y / 8)) = s_level s1 (ix (x / 8) (y / 8))).
      { eapply frame_at; [|exact FR| |].
        - intros a b [R|[R|R]]; exact (reg_cols _ _ _ a b R).
        - apply (reg_cols n x y (x / 8) (y / 8)). unfold reg. lia.
        - unfold reg. lia. }
      rewrite FA. apply V1; reflexivity. }
    exists s4, (u1 ++ u2 ++ u3 ++ u4). split; [reflexivity|]. split; [|unfold l; lia].
    apply TR. eapply step_ext; [exact SALL| | | |].
    + intros a b. unfold reg. lia.
    + intros X Y. unfold square_in. lia.
    + auto.
    + intros lv sl AG log. cbv beta. cbn [recon].
      assert (LT: (lv (Z.shiftr y 3 * wscu + Z.shiftr x 3) <? l) = true).
      { rewrite !shr3. apply Z.ltb_lt. specialize (AG (x / 8) (y / 8)). unfold ix in AG, LV. rewrite <- AG; [unfold l; lia|]. unfold reg. lia. }
      fold l. rewrite LT. unfold sub_recon.
      destruct ((x + Z.shiftl (Z.land 0 1) (Z.of_nat next) <? W) && (y + Z.shiftl (Z.shiftr 0 1) (Z.of_nat next) <? H)); reflexivity.
  - destruct (T5 eq_refl) as [IW IH'].
    destruct (unit_step (S next) x y st1 HL Mx My ltac:(lia) ltac:(lia) IW IH' IL) as [st' [us [E [S1 LV]]]].
    exists st', us. split; [exact E|]. split; [apply TR; exact S1|]. fold l in LV. lia.
Qed.
End Walk.
