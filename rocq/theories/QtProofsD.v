(** The quadtree: one LCU, whole pictures. *)
From Coq Require Import ZArith List Bool Lia.
From Verif Require Import CBase CBaseProofs MemModel MemProofs SaoModel SaoProofs QtModel QtSpec QtProofs QtProofsB QtProofsC.
Import ListNotations.
Open Scope Z_scope.

Section Pic.
Variables (St : Type) (W H wscu : Z) (L : nat).
Hypothesis HS : sizes W H wscu L.
Variable read_split : Z -> St -> bool * St.
Variable read_cu : Z -> Z -> Z -> St -> bool * St.
Let ix (a b : Z) : Z := b * wscu + a.

Lemma fill_spec : forall v xy w h (m : mem), 0 <= w -> 0 <= h -> w <= wscu -> forall q,
  ((exists i j, 0 <= i < h /\ 0 <= j < w /\ q = xy + i * wscu + j) -> floop 0 h (fun i m => floop 0 w (fun j m => upd m (xy + i * wscu + j) v) m) m q = v) /\
  ((forall i j, 0 <= i < h -> 0 <= j < w -> q <> xy + i * wscu + j) -> floop 0 h (fun i m => floop 0 w (fun j m => upd m (xy + i * wscu + j) v) m) m q = m q).
Proof.
  intros v xy w h m Hw Hh Hww q.
  assert (R: forall i (t : mem), let t' := floop 0 w (fun j m => upd m (xy + i * wscu + j) v) t in
    ((exists j, 0 <= j < w /\ q = xy + i * wscu + j) -> t' q = v) /\ ((forall j, 0 <= j < w -> q <> xy + i * wscu + j) -> t' q = t q)).
  { intros i t. cbn zeta.
    apply (floop_inv (fun k (t' : mem) => ((exists j, 0 <= j < k /\ q = xy + i * wscu + j) -> t' q = v) /\ ((forall j, 0 <= j < k -> q <> xy + i * wscu + j) -> t' q = t q)) 0 w); [lia| |].
    - split; [intros [j [Hj _]]; lia|reflexivity].
    - intros k t' Hk [A B]. split.
      + intros [j [Hj E]]. destruct (Z.eq_dec j k) as [-> | N]; [rewrite E; apply upd_same|]. rewrite upd_other by lia. apply A. exists j. lia.
      + intros N. rewrite upd_other by (apply N; lia). apply B. intros j Hj. apply N. lia. }
  apply (floop_inv (fun k (t' : mem) => ((exists i j, 0 <= i < k /\ 0 <= j < w /\ q = xy + i * wscu + j) -> t' q = v) /\ ((forall i j, 0 <= i < k -> 0 <= j < w -> q <> xy + i * wscu + j) -> t' q = m q)) 0 h); [lia| |].
  - split; [intros [i [j [Hi _]]]; lia|reflexivity].
  - intros k t' Hk [A B]. destruct (R k t') as [RA RB]. split.
    + intros [i [j [Hi [Hj E]]]]. destruct (Z.eq_dec i k) as [-> | N]; [apply RA; exists j; auto|].
      rewrite RB; [apply A; exists i, j; repeat split; try assumption; lia|].
      intros j' Hj' E'. rewrite E in E'. assert (i * wscu - k * wscu = j' - j) by lia. assert (EE: (i - k) * wscu = j' - j) by lia. clear - EE N Hj Hj' Hww. 
      assert (i - k = 0); [|lia]. destruct (Z.lt_trichotomy (i - k) 0) as [T | [T | T]]; [|exact T|]; exfalso; nia.
    + intros N. rewrite RB by (intros j Hj; apply N; lia). apply B. intros i j Hi Hj. apply N; lia.
Qed.

(** One LCU: like [parse_step], but the slice is known. *)
Definition good_lcu (lx ly : Z) : unit_ -> Prop := good_z (lx * 2 ^ (Z.of_nat L - 3)) (ly * 2 ^ (Z.of_nat L - 3)) L.
Definition recon_lcu (lx ly : Z) (lv sl : mem) (log : list unit_) : outcome (list unit_) :=
  recon W H wscu (Z.shiftr (Z.shiftl 1 (Z.of_nat L) - 1) 3) lv sl L (Z.shiftl lx (Z.of_nat L)) (Z.shiftl ly (Z.of_nat L)) log.
Definition lcu_reg (lx ly : Z) : Z -> Z -> Prop := reg W H (2 ^ Z.of_nat L) (lx * 2 ^ Z.of_nat L) (ly * 2 ^ Z.of_nat L).
Definition lcu_area (lx ly : Z) : Z -> Z -> Prop := square_in W H (2 ^ Z.of_nat L) (lx * 2 ^ Z.of_nat L) (ly * 2 ^ Z.of_nat L).
Definition sure_ok (R P : Z -> Z -> Prop) (Q : unit_ -> Prop) (st st' : qst St) (us : list unit_) (g : mem -> mem -> list unit_ -> outcome (list unit_)) : Prop :=
  step_ok St wscu R P Q st st' us g /\ forall lv sl, agree St wscu R lv sl st' -> forall log, g lv sl log = Done (log ++ us).

Lemma lcu_step : forall lx ly nr st, 0 <= lx -> 0 <= ly -> lx * 2 ^ Z.of_nat L < W -> ly * 2 ^ Z.of_nat L < H -> to_i8 nr <> -1 ->
  exists st' us, parse_lcu St read_split read_cu W H wscu L lx ly nr st = Done st' /\
    sure_ok (lcu_reg lx ly) (lcu_area lx ly) (good_lcu lx ly) st st' us (recon_lcu lx ly).
Proof.
  intros lx ly nr st Hx Hy Wx Wy HN. destruct HS as [S1 [S2 [S3 [S4 [S5 S6]]]]].
  assert (PL := pow8 (Z.of_nat L) ltac:(lia)). set (n := 2 ^ (Z.of_nat L - 3)) in *. assert (Pn: 0 < n) by (unfold n; apply Z.pow_pos_nonneg; lia).
  unfold parse_lcu. rewrite !(Z.shiftl_mul_pow2 lx), !(Z.shiftl_mul_pow2 ly) by lia. fold n. rewrite !Z.shiftl_mul_pow2 by lia. change (2 ^ 3) with 8.
  replace (lx * n * 8) with (lx * 2 ^ Z.of_nat L) by (rewrite PL; ring). replace (ly * n * 8) with (ly * 2 ^ Z.of_nat L) by (rewrite PL; ring).
  set (st0 := lcu_init St W H wscu (Z.of_nat L) lx ly nr st).
  assert (X0: 0 <= lx * 2 ^ Z.of_nat L) by (apply Z.mul_nonneg_nonneg; lia). assert (Y0: 0 <= ly * 2 ^ Z.of_nat L) by (apply Z.mul_nonneg_nonneg; lia).
  assert (M1: forall c, (c * n) mod n = 0) by (intros; apply Z.mod_mul; lia).
  assert (M2: forall c, (c * 2 ^ Z.of_nat L) mod 2 ^ Z.of_nat L = 0) by (intros; apply Z.mod_mul; lia).
  assert (IL: in_lcu (lx * n) (ly * n) L (2 ^ Z.of_nat L) (lx * 2 ^ Z.of_nat L) (ly * 2 ^ Z.of_nat L)) by (unfold in_lcu; rewrite PL; lia).
  destruct (parse_step St W H wscu (lx * n) (ly * n) L HS read_split read_cu (M1 lx) (M1 ly)
    L _ _ st0 ltac:(lia) (M2 lx) (M2 ly) (conj X0 Wx) (conj Y0 Wy) IL) as [st' [us [EP [SO _]]]].
  exists st', us. split; [exact EP|].
  assert (FL: s_level st0 = s_level st) by reflexivity. assert (FG: s_log st0 = s_log st) by reflexivity.
  assert (FS: (forall a b, lcu_reg lx ly a b -> s_slice st0 (ix a b) = to_i8 nr) /\ frame wscu (lcu_reg lx ly) (s_slice st) (s_slice st0)).
  { unfold st0, lcu_init. cbn [s_slice]. rewrite !shr3, shl1 by lia. rewrite !(Z.shiftl_mul_pow2 lx), !(Z.shiftl_mul_pow2 ly) by lia. fold n. rewrite !Z.shiftl_mul_pow2 by lia. change (2 ^ 3) with 8.
    set (w := Z.min ((W - lx * n * 8) / 8) n). set (h := Z.min ((H - ly * n * 8) / 8) n).
    assert (EW: W = 8 * wscu) by (subst wscu; clear - S1; Z.div_mod_to_equations; lia).
    assert (EH: H = 8 * (H / 8)) by (clear - S2; Z.div_mod_to_equations; lia). set (hs := H / 8) in *.
    assert (Ew: (W - lx * n * 8) / 8 = wscu - lx * n) by (rewrite EW; replace (8 * wscu - lx * n * 8) with ((wscu - lx * n) * 8) by ring; apply Z.div_mul; lia).
    assert (Eh: (H - ly * n * 8) / 8 = hs - ly * n) by (rewrite EH; replace (8 * hs - ly * n * 8) with ((hs - ly * n) * 8) by ring; apply Z.div_mul; lia).
    assert (Px: 0 <= lx * n) by (apply Z.mul_nonneg_nonneg; lia). assert (Py: 0 <= ly * n) by (apply Z.mul_nonneg_nonneg; lia).
    assert (Vw: w = Z.min (wscu - lx * n) n) by (unfold w; rewrite Ew; reflexivity). assert (Vh: h = Z.min (hs - ly * n) n) by (unfold h; rewrite Eh; reflexivity). clearbody w h. rewrite PL in Wx, Wy.
    assert (Pw: 0 <= w <= wscu) by (clear - Vw Pn Wx EW Px; lia). assert (Ph: 0 <= h) by (clear - Vh Pn Wy EH Py; lia).
    split.
    - intros a b [[A1 A2] [[B1 B2] A3]]. rewrite PL in A1, B1.
      apply (proj1 (fill_spec (to_i8 nr) (ly * n * wscu + lx * n) w h (s_slice st) (proj1 Pw) Ph (proj2 Pw) (ix a b))).
      exists (b - ly * n), (a - lx * n). unfold ix. repeat split; try lia.
    - intros q N. apply (proj2 (fill_spec (to_i8 nr) (ly * n * wscu + lx * n) w h (s_slice st) (proj1 Pw) Ph (proj2 Pw) q)).
      intros i j Hi Hj E. apply (N (lx * n + j) (ly * n + i)).
      + unfold lcu_reg, reg. rewrite PL. repeat split; lia.
      + rewrite E. ring. }
  destruct FS as [FS1 FS2]. destruct SO as [A [B [C [D [E G]]]]]. fold (lcu_reg lx ly) in D, E, G. fold (lcu_area lx ly) in B.
  assert (GG: forall lv sl, agree St wscu (lcu_reg lx ly) lv sl st' -> forall log, recon_lcu lx ly lv sl log = Done (log ++ us)).
  { intros lv sl AG log. unfold recon_lcu. rewrite (Z.shiftl_mul_pow2 lx), (Z.shiftl_mul_pow2 ly) by lia.
    refine (G _ lv sl AG log). intros a b HR. assert (E1 := FS1 a b HR). unfold ix in E1. rewrite E1. exact HN. }
  split; [|exact GG]. split; [rewrite A, FG; reflexivity|]. split; [exact B|]. split; [exact C|].
  split; [rewrite <- FL; exact D|]. split; [intros q N; rewrite (E q N); apply FS2; exact N|]. intros _. exact GG.
Qed.

(** The picture: LCUs in raster order. *)
Variable between : Z -> St -> St.
Variable slice : Z -> Z.
Variable wlcu hlcu : Z.
Hypothesis HW : wlcu = (W + 2 ^ Z.of_nat L - 1) / 2 ^ Z.of_nat L.
Hypothesis HH : hlcu = (H + 2 ^ Z.of_nat L - 1) / 2 ^ Z.of_nat L.
Hypothesis HSL : forall k, to_i8 (slice k) <> -1.
Definition good_pic (u : unit_) : Prop := exists lx ly, 0 <= lx /\ 0 <= ly /\ good_lcu lx ly u.
Definition some_lcu (P : Z -> Z -> Z -> Z -> Prop) (k n : Z) (a b : Z) : Prop := exists j, k <= j < k + n /\ P (j mod wlcu) (j / wlcu) a b.
Lemma ceil_facts : forall V, 0 < V -> let c := (V + 2 ^ Z.of_nat L - 1) / 2 ^ Z.of_nat L in 0 < c /\ forall l, 0 <= l -> (l < c <-> l * 2 ^ Z.of_nat L < V).
Proof.
  intros V HV c. set (n := 2 ^ Z.of_nat L) in *. assert (Pn: 0 < n) by (apply Z.pow_pos_nonneg; lia).
  assert (D := Z.div_mod (V + n - 1) n ltac:(lia)). assert (M := Z.mod_pos_bound (V + n - 1) n Pn). fold c in D.
  assert (E: n * c - n < V <= n * c) by (clear - D M Pn; lia).
  assert (C: 0 < c) by (destruct (Z.le_gt_cases c 0); [|lia]; assert (n * c <= n * 0) by (apply Z.mul_le_mono_nonneg_l; lia); lia).
  split; [exact C|]. intros l Hl. split.
  - intros LT. assert (n * l <= n * (c - 1)) by (apply Z.mul_le_mono_nonneg_l; lia). lia.
  - intros LT. destruct (Z.lt_ge_cases l c) as [ | GE]; [assumption|]. assert (n * c <= n * l) by (apply Z.mul_le_mono_nonneg_l; lia). lia.
Qed.
Lemma lcu_of : forall lx ly X Y, lx * 2 ^ Z.of_nat L <= X < lx * 2 ^ Z.of_nat L + 2 ^ Z.of_nat L -> ly * 2 ^ Z.of_nat L <= Y < ly * 2 ^ Z.of_nat L + 2 ^ Z.of_nat L ->
  X / 2 ^ Z.of_nat L = lx /\ Y / 2 ^ Z.of_nat L = ly.
Proof.
  intros lx ly X Y HX HY. split; symmetry; [apply Z.div_unique_pos with (X - lx * 2 ^ Z.of_nat L)|apply Z.div_unique_pos with (Y - ly * 2 ^ Z.of_nat L)]; lia.
Qed.
Lemma lcu_index : forall j j', 0 < wlcu -> j mod wlcu = j' mod wlcu -> j / wlcu = j' / wlcu -> j = j'.
Proof. intros j j' Hw M D. rewrite (Z.div_mod j wlcu), (Z.div_mod j' wlcu) by lia. rewrite M, D. reflexivity. Qed.

Lemma picture_step : forall n k st, 0 <= k -> k + Z.of_nat n <= wlcu * hlcu ->
  exists st' us, parse_picture St read_split read_cu between slice W H wscu wlcu L n k st = Done st' /\
    sure_ok (some_lcu lcu_reg k (Z.of_nat n)) (some_lcu lcu_area k (Z.of_nat n)) good_pic st st' us
      (fun lv sl log => recon_picture W H wscu wlcu lv sl L n k log).
Proof.
  assert (Hsz := HS). destruct Hsz as [S1 [S2 [S3 [S4 [S5 S6]]]]].
  destruct (ceil_facts W ltac:(lia)) as [CW FW]. destruct (ceil_facts H ltac:(lia)) as [CH FH]. rewrite <- HW in CW, FW. rewrite <- HH in CH, FH.
  induction n as [|n IH]; intros k st Hk Hn.
  - exists st, []. split; [reflexivity|].
    assert (E: forall P a b, ~ some_lcu P k (Z.of_nat 0) a b) by (intros P a b [j [Hj _]]; lia).
    split; [apply step_nil; [intros X Y; apply E|reflexivity]|]. intros lv sl _ log. rewrite app_nil_r. reflexivity.
  - cbn [parse_picture].
    assert (Hlx: 0 <= k mod wlcu < wlcu) by (apply Z.mod_pos_bound; lia).
    assert (Hly: 0 <= k / wlcu < hlcu) by (split; [apply Z.div_pos; lia|apply Z.div_lt_upper_bound; lia]).
    destruct (lcu_step (k mod wlcu) (k / wlcu) (slice k) st) as [st1 [us1 [E1 [SO1 G1]]]];
      [lia|lia|apply FW; lia|apply FH; lia|apply HSL|].
    rewrite E1. cbn [bindo].
    set (st1' := {| s_level := s_level st1; s_slice := s_slice st1; s_rest := between k (s_rest st1); s_log := s_log st1 |}).
    destruct (IH (k + 1) st1' ltac:(lia) ltac:(lia)) as [st2 [us2 [E2 [SO2 G2]]]]. exists st2, (us1 ++ us2). split; [exact E2|].
    assert (CC: forall kk nn, in_cols wscu (some_lcu lcu_reg kk nn)) by (intros kk nn a b [j [_ HR]]; exact (reg_cols W H wscu L HS _ _ _ a b HR)).
    assert (C1: in_cols wscu (lcu_reg (k mod wlcu) (k / wlcu))) by (apply (reg_cols W H wscu L HS)).
    assert (DJ: forall a b, lcu_reg (k mod wlcu) (k / wlcu) a b -> ~ some_lcu lcu_reg (k + 1) (Z.of_nat n) a b).
    { intros a b [[A1 _] [[A2 _] _]] [j [Hj [[B1 _] [[B2 _] _]]]]. destruct (lcu_of _ _ _ _ A1 A2) as [X1 Y1]. destruct (lcu_of _ _ _ _ B1 B2) as [X2 Y2].
      assert (k = j) by (apply lcu_index; congruence). lia. }
    assert (DP: forall a b, lcu_area (k mod wlcu) (k / wlcu) a b -> ~ some_lcu lcu_area (k + 1) (Z.of_nat n) a b).
    { intros a b [[A1 A2] _] [j [Hj [[B1 B2] _]]]. destruct (lcu_of _ _ _ _ A1 A2) as [X1 Y1]. destruct (lcu_of _ _ _ _ B1 B2) as [X2 Y2].
      assert (k = j) by (apply lcu_index; congruence). lia. }
    assert (SO1': step_ok St wscu (lcu_reg (k mod wlcu) (k / wlcu)) (lcu_area (k mod wlcu) (k / wlcu)) good_pic st st1' us1 (recon_lcu (k mod wlcu) (k / wlcu))).
    { destruct SO1 as [A [B [C [D [E G]]]]]. split; [exact A|]. split; [exact B|]. split; [|split; [exact D|split; [exact E|intros _; exact G1]]].
      eapply Forall_impl; [|exact C]. intros u Hu. exists (k mod wlcu), (k / wlcu). repeat split; try lia; apply Hu. }
    assert (SS := step_seq St wscu _ _ _ _ _ _ _ _ _ _ _ _ SO1' SO2 C1 (CC _ _) DJ DP).
    assert (EQ: forall (P : Z -> Z -> Z -> Z -> Prop) a b, P (k mod wlcu) (k / wlcu) a b \/ some_lcu P (k + 1) (Z.of_nat n) a b <-> some_lcu P k (Z.of_nat (S n)) a b).
    { intros P a b. split.
      - intros [HP | [j [Hj HP]]]; [exists k; split; [lia|exact HP]|exists j; split; [lia|exact HP]].
      - intros [j [Hj HP]]. destruct (Z.eq_dec j k) as [-> | N]; [left; exact HP|right; exists j; split; [lia|exact HP]]. }
    assert (GG: forall lv sl, agree St wscu (some_lcu lcu_reg k (Z.of_nat (S n))) lv sl st2 -> forall log, recon_picture W H wscu wlcu lv sl L (S n) k log = Done (log ++ us1 ++ us2)).
    { intros lv sl AG log. cbn [recon_picture]. 
      assert (T1: recon_lcu (k mod wlcu) (k / wlcu) lv sl log = Done (log ++ us1)).
      { apply G1. intros a b HR. destruct (AG a b) as [AA AB]; [apply EQ; left; exact HR|]. destruct SO2 as [_ [_ [_ [D2 [F2 _]]]]].
        assert (IN := C1 a b HR). rewrite (frame_at wscu _ _ _ a b (CC _ _) D2 IN (DJ a b HR)) in AA. rewrite (frame_at wscu _ _ _ a b (CC _ _) F2 IN (DJ a b HR)) in AB. split; [exact AA|exact AB]. }
      unfold recon_lcu in T1. rewrite T1. cbn [bindo]. rewrite app_assoc. apply G2. intros a b HR. apply AG. apply EQ. right. exact HR. }
    split; [|exact GG].
    destruct SS as [A [B [C [D [E _]]]]]. split; [exact A|]. split; [exact (covers_ext _ _ _ B (EQ lcu_area))|]. split; [exact C|].
    split; [intros q N; apply D; intros a b HR; apply N; apply (EQ lcu_reg); exact HR|]. split; [intros q N; apply E; intros a b HR; apply N; apply (EQ lcu_reg); exact HR|].
    intros _. exact GG.
Qed.
Lemma all_lcus : forall X Y, some_lcu lcu_area 0 (wlcu * hlcu) X Y <-> picture W H X Y.
Proof.
  destruct HS as [S1 [S2 [S3 [S4 [S5 S6]]]]].
  destruct (ceil_facts W ltac:(lia)) as [CW FW]. destruct (ceil_facts H ltac:(lia)) as [CH FH]. rewrite <- HW in CW, FW. rewrite <- HH in CH, FH.
  assert (Pn: 0 < 2 ^ Z.of_nat L) by (apply Z.pow_pos_nonneg; lia).
  intros X Y. split.
  - intros [j [Hj [[A1 A2] [A3 A4]]]]. assert (0 <= j mod wlcu) by (apply Z.mod_pos_bound; lia). assert (0 <= j / wlcu) by (apply Z.div_pos; lia).
    assert (0 <= j mod wlcu * 2 ^ Z.of_nat L) by (apply Z.mul_nonneg_nonneg; lia). assert (0 <= j / wlcu * 2 ^ Z.of_nat L) by (apply Z.mul_nonneg_nonneg; lia). split; lia.
  - intros [HX HY]. set (n := 2 ^ Z.of_nat L) in *.
    assert (DX := Z.div_mod X n ltac:(lia)). assert (MX := Z.mod_pos_bound X n Pn). assert (DY := Z.div_mod Y n ltac:(lia)). assert (MY := Z.mod_pos_bound Y n Pn).
    assert (QX: 0 <= X / n) by (apply Z.div_pos; lia). assert (QY: 0 <= Y / n) by (apply Z.div_pos; lia).
    assert (LX: X / n < wlcu) by (apply FW; [lia|lia]). assert (LY: Y / n < hlcu) by (apply FH; [lia|lia]).
    exists (Y / n * wlcu + X / n).
    assert (EM: (Y / n * wlcu + X / n) mod wlcu = X / n) by (rewrite Z.add_comm, Z.mod_add by lia; apply Z.mod_small; lia).
    assert (ED: (Y / n * wlcu + X / n) / wlcu = Y / n) by (rewrite Z.add_comm, Z.div_add by lia; rewrite Z.div_small by lia; lia).
    rewrite EM, ED. split.
    + assert (0 <= Y / n * wlcu) by (apply Z.mul_nonneg_nonneg; lia). assert (Y / n * wlcu <= (hlcu - 1) * wlcu) by (apply Z.mul_le_mono_nonneg_r; lia). lia.
    + unfold lcu_area, square_in. fold n. lia.
Qed.
End Pic.

Lemma qt_picture : forall (St : Type) (read_split : Z -> St -> bool * St) (read_cu : Z -> Z -> Z -> St -> bool * St)
    (between : Z -> St -> St) (slice : Z -> Z) W H wscu (level : nat) wlcu hlcu st,
  sizes W H wscu level -> wlcu = (W + 2 ^ Z.of_nat level - 1) / 2 ^ Z.of_nat level -> hlcu = (H + 2 ^ Z.of_nat level - 1) / 2 ^ Z.of_nat level ->
  (forall k, to_i8 (slice k) <> -1) -> s_log st = [] ->
  let n := Z.to_nat (wlcu * hlcu) in
  exists st', parse_picture St read_split read_cu between slice W H wscu wlcu level n 0 st = Done st' /\
    covers_once (s_log st') (picture W H) /\ Forall proper_unit (s_log st') /\ Forall (fun u => v_level u <= Z.of_nat level) (s_log st') /\
    recon_picture W H wscu wlcu (s_level st') (s_slice st') level n 0 [] = Done (s_log st').
Proof.
  intros St rs rc bt sl W H wscu L wlcu hlcu st HS HW HH HSL HL n.
  assert (CW: 0 < wlcu) by (destruct HS as [_ [_ [S3 _]]]; rewrite HW; exact (proj1 (ceil_facts L W ltac:(lia)))).
  assert (CH: 0 < hlcu) by (destruct HS as [_ [_ [_ [S3 _]]]]; rewrite HH; exact (proj1 (ceil_facts L H ltac:(lia)))).
  assert (PP: 0 <= wlcu * hlcu) by (apply Z.mul_nonneg_nonneg; lia).
  assert (EN: Z.of_nat n = wlcu * hlcu) by (unfold n; lia).
  destruct (picture_step St W H wscu L HS rs rc bt sl wlcu hlcu HW HH HSL n 0 st ltac:(lia) ltac:(lia)) as [st' [us [E [[A [B [C _]]] G]]]].
  rewrite HL in A. cbn [app] in A. exists st'. split; [exact E|]. rewrite A. rewrite EN in B.
  split; [exact (covers_ext _ _ _ B (all_lcus W H wscu L HS wlcu hlcu HW HH))|].
  split; [eapply Forall_impl; [|exact C]; intros u [lx [ly [_ [_ Hu]]]]; apply Hu|].
  split; [eapply Forall_impl; [|exact C]; intros u [lx [ly [_ [_ Hu]]]]; apply Hu|].
  apply G. intros a b _. split; reflexivity.
Qed.
Lemma qt_lcu : forall (St : Type) (read_split : Z -> St -> bool * St) (read_cu : Z -> Z -> Z -> St -> bool * St) W H wscu (level : nat) lx ly nr st,
  sizes W H wscu level -> 0 <= lx -> 0 <= ly -> let n := 2 ^ Z.of_nat level in lx * n < W -> ly * n < H -> to_i8 nr <> -1 ->
  exists st' us, parse_lcu St read_split read_cu W H wscu level lx ly nr st = Done st' /\ s_log st' = s_log st ++ us /\
    covers_once us (square_in W H n (lx * n) (ly * n)) /\ Forall proper_unit us /\
    (forall log, recon W H wscu ((n - 1) / 8) (s_level st') (s_slice st') level (lx * n) (ly * n) log = Done (log ++ us)) /\
    (forall u, In u us -> 0 <= 64 * v_z u /\ 64 * v_z u + 4 ^ v_level u <= n * n /\ 0 <= 16 * v_z u /\ 16 * v_z u + 4 ^ (v_level u - 1) <= (n / 2) * (n / 2)) /\
    (forall i j u v, nth_error us i = Some u -> nth_error us j = Some v -> i <> j ->
       (64 * v_z u + 4 ^ v_level u <= 64 * v_z v \/ 64 * v_z v + 4 ^ v_level v <= 64 * v_z u) /\
       (16 * v_z u + 4 ^ (v_level u - 1) <= 16 * v_z v \/ 16 * v_z v + 4 ^ (v_level v - 1) <= 16 * v_z u)).
Proof.
  intros St rs rc W H wscu L lx ly nr st HS Hx Hy n Wx Wy HN. unfold n in *.
  destruct (lcu_step St W H wscu L HS rs rc lx ly nr st Hx Hy Wx Wy HN) as [st' [us [E [[A [B [C _]]] G]]]].
  exists st', us. split; [exact E|]. split; [exact A|]. split; [exact B|]. split; [eapply Forall_impl; [|exact C]; intros u Hu; apply Hu|].
  assert (HL: (4 <= L <= 6)%nat) by apply HS.
  split.
  { intros log. rewrite <- (G (s_level st') (s_slice st')) by (intros a b _; split; reflexivity). unfold recon_lcu.
    rewrite shr3, shl1, !Z.shiftl_mul_pow2 by lia. reflexivity. }
  assert (P1: 0 < 2 ^ (Z.of_nat L - 3)) by (apply Z.pow_pos_nonneg; lia).
  assert (M1: forall c, (c * 2 ^ (Z.of_nat L - 3)) mod 2 ^ (Z.of_nat L - 3) = 0) by (intros; apply Z.mod_mul; lia).
  destruct (places_disjoint _ _ L us _ HL (M1 lx) (M1 ly) B C) as [F D].
  assert (P4: forall l, 3 <= l -> 4 ^ l = 64 * 4 ^ (l - 3) /\ 4 ^ (l - 1) = 16 * 4 ^ (l - 3)).
  { intros l Hl. change 64 with (4 ^ 3). change 16 with (4 ^ 2). rewrite <- !Z.pow_add_r by lia. split; f_equal; lia. }
  assert (LV: forall u, In u us -> 3 <= v_level u) by (intros u Hu; rewrite Forall_forall in C; apply (C u Hu)).
  assert (NN: 2 ^ Z.of_nat L * 2 ^ Z.of_nat L = 64 * 4 ^ (Z.of_nat L - 3) /\ 2 ^ Z.of_nat L / 2 * (2 ^ Z.of_nat L / 2) = 16 * 4 ^ (Z.of_nat L - 3)).
  { assert (EL: (L = 4 \/ L = 5 \/ L = 6)%nat) by lia. destruct EL as [-> | [-> | ->]]; vm_compute; auto. }
  split.
  - intros u Hu. destruct (P4 (v_level u) (LV u Hu)) as [-> ->]. destruct (F u Hu) as [F1 F2]. destruct NN as [-> ->]. lia.
  - intros i j u v Hi Hj NE. destruct (P4 (v_level u) (LV u (nth_error_In _ _ Hi))) as [-> ->]. destruct (P4 (v_level v) (LV v (nth_error_In _ _ Hj))) as [-> ->].
    destruct (D i j u v Hi Hj NE); lia.
Qed.
Lemma qt_slice_255 : exists nr st', 0 <= nr <= 255 /\
  parse_lcu unit (fun _ s => (false, s)) (fun _ _ _ s => (true, s)) 16 16 2 4 0 0 nr {| s_level := fun _ => 0; s_slice := fun _ => 0; s_rest := tt; s_log := [] |} = Done st' /\
  s_log st' = [{| v_level := 4; v_x := 0; v_y := 0; v_z := 0; v_ok := true |}] /\
  recon 16 16 2 1 (s_level st') (s_slice st') 4 0 0 [] = Done [{| v_level := 4; v_x := 0; v_y := 0; v_z := 0; v_ok := false |}].
Proof. exists 255. eexists. split; [lia|]. split; [reflexivity|]. split; vm_compute; reflexivity. Qed.
