(** Proofs: the units of the quadtree come in decoding order; the motion of a whole picture. *)
From Coq Require Import ZArith List Bool Lia.
From Verif Require Import CBase CBaseProofs MemModel SaoModel UtilModel NbModel NbSpec NbProofs QtModel QtSpec QtProofsB QtProofsD MpModel MpSpec MpProofsJ.
Import ListNotations.
Open Scope Z_scope.

Definition cells (u : unit_) (X Y : Z) : Prop := MpSpec.in_unit (v_level u) (v_x u / 4) (v_y u / 4) X Y.
Definition within (k a b : Z) (u : unit_) : Prop :=
  (v_x u / 4 / 2 ^ k = a /\ v_y u / 4 / 2 ^ k = b) /\ forall X Y, cells u X Y -> X / 2 ^ k = a /\ Y / 2 ^ k = b.
Definition quad_late (k : nat) (u v : unit_) : Prop := forall X Y, cells v X Y -> quad_before k X Y (v_x u / 4) (v_y u / 4) = false.
Definition late (k : nat) (u v : unit_) : Prop := forall X Y, cells v X Y -> unit_before k X Y (v_x u / 4) (v_y u / 4) = false.

Lemma FOP_app {A} (R : A -> A -> Prop) a b : ForallOrdPairs R a -> ForallOrdPairs R b -> (forall x y, In x a -> In y b -> R x y) -> ForallOrdPairs R (a ++ b).
Proof.
  intros Ha Hb Hab. induction Ha as [|x a Hx Ha IH]; [exact Hb|]. cbn [app]. constructor.
  - apply Forall_app. split; [exact Hx|]. apply Forall_forall. intros y Hy. apply Hab; [left; reflexivity|exact Hy].
  - apply IH. intros u v Hu Hv. apply Hab; [right; exact Hu|exact Hv].
Qed.
Lemma FOP_nth {A} (R : A -> A -> Prop) l : ForallOrdPairs R l -> forall i j x y, (i < j)%nat -> nth_error l i = Some x -> nth_error l j = Some y -> R x y.
Proof.
  induction 1 as [|a l Ha Hl IH]; intros i j x y Lt Hx Hy; [destruct i; discriminate|].
  destruct j as [|j]; [lia|]. destruct i as [|i]; cbn [nth_error] in *.
  - injection Hx as ->. rewrite Forall_forall in Ha. apply Ha. exact (nth_error_In _ _ Hy).
  - apply (IH i j); [lia|exact Hx|exact Hy].
Qed.
Lemma FOP_mono {A} (R R' : A -> A -> Prop) l : ForallOrdPairs R l -> (forall x y, In x l -> In y l -> R x y -> R' x y) -> ForallOrdPairs R' l.
Proof.
  induction 1 as [|a l Ha Hl IH]; intros M; constructor.
  - rewrite Forall_forall in *. intros y Hy. apply M; [left; reflexivity|right; exact Hy|auto].
  - apply IH. intros x y Hx Hy. apply M; right; assumption.
Qed.
Lemma div_half v k : 0 <= k -> v / 2 ^ (k + 1) = v / 2 ^ k / 2.
Proof. intros H. rewrite Z.div_div by (try lia; apply Z.pow_pos_nonneg; lia). rewrite Z.pow_add_r by lia. reflexivity. Qed.
Lemma within_up k a b dx dy u : 0 <= k -> 0 <= dx <= 1 -> 0 <= dy <= 1 -> within k (2 * a + dx) (2 * b + dy) u -> within (k + 1) a b u.
Proof.
  intros Hk Hx Hy [[A B] C]. unfold within. rewrite !div_half by lia. rewrite A, B.
  assert (D : (2 * a + dx) / 2 = a /\ (2 * b + dy) / 2 = b) by (clear - Hx Hy; Z.div_mod_to_equations; lia).
  split; [exact D|]. intros X Y H. rewrite !div_half by lia. destruct (C X Y H) as [-> ->]. exact D.
Qed.
Lemma bit_of v k a d : 0 <= d <= 1 -> v / 2 ^ k = 2 * a + d -> v / 2 ^ k mod 2 = d.
Proof. intros Hd ->. clear - Hd. Z.div_mod_to_equations. lia. Qed.

Section Order.
Variables (St : Type) (read_split : Z -> St -> bool * St) (read_cu : Z -> Z -> Z -> St -> bool * St) (W H wscu : Z).
Lemma parse_order sx sy : forall level a b (st st' : qst St), (3 <= level)%nat ->
  parse St read_split read_cu W H wscu sx sy level (a * 2 ^ Z.of_nat level) (b * 2 ^ Z.of_nat level) st = Done st' ->
  exists us, s_log st' = s_log st ++ us /\ Forall (within (Z.of_nat level - 2) a b) us /\ ForallOrdPairs (quad_late (level - 2)) us.
Proof.
  induction level as [|next IH]; intros a b st st' HL E; [lia|].
  set (x := a * 2 ^ Z.of_nat (S next)) in *. set (y := b * 2 ^ Z.of_nat (S next)) in *.
  destruct (if (3 <? Z.of_nat (S next)) && ((x + Z.shiftl 1 (Z.of_nat (S next)) <=? W) && (y + Z.shiftl 1 (Z.of_nat (S next)) <=? H))
   then let '(b, r) := read_split (Z.of_nat (S next)) (s_rest st) in
      (b, {| s_level := s_level st; s_slice := s_slice st; s_rest := r; s_log := s_log st |})
    else (negb (Z.of_nat (S next) =? 3), st)) as [split st1] eqn:ES.
  rewrite (parse_split_eq St W H wscu sx sy read_split read_cu next x y st split st1 ES) in E.
  assert (T : s_log st1 = s_log st /\ (split = true -> (3 <= next)%nat)).
  { destruct (Z.ltb_spec 3 (Z.of_nat (S next))) as [G|G]; cbn [andb] in ES.
    - split; [|lia]. destruct (_ && _) in ES; [destruct (read_split _ _)|]; apply pair_equal_spec in ES; destruct ES as [_ <-]; reflexivity.
    - replace (Z.of_nat (S next)) with 3 in ES by lia. apply pair_equal_spec in ES. destruct ES as [<- <-]. split; [reflexivity|discriminate]. }
  clear ES. destruct T as [T1 T2]. rewrite <- T1.
  destruct split.
  - specialize (T2 eq_refl).
    assert (SUB : forall i dx dy s s', Z.land i 1 = dx -> Z.shiftr i 1 = dy -> sub_parse St W H wscu sx sy read_split read_cu next x y i s = Done s' ->
      exists us, s_log s' = s_log s ++ us /\ Forall (within (Z.of_nat next - 2) (2 * a + dx) (2 * b + dy)) us /\ ForallOrdPairs (quad_late (next - 2)) us).
    { intros i dx dy s s' Ex Ey Hs. unfold sub_parse in Hs. rewrite Ex, Ey, !Z.shiftl_mul_pow2 in Hs by lia.
      destruct (_ && _) in Hs.
      - apply (IH _ _ s s' T2). rewrite <- Hs. f_equal; unfold x, y; rewrite Nat2Z.inj_succ, Z.pow_succ_r by lia; ring.
      - injection Hs as ->. exists []. rewrite app_nil_r. repeat split; constructor. }
    destruct (sub_parse St W H wscu sx sy read_split read_cu next x y 0 st1) as [s1| | |] eqn:E1; cbn [bindo] in E; try discriminate.
    destruct (sub_parse St W H wscu sx sy read_split read_cu next x y 1 s1) as [s2| | |] eqn:E2; cbn [bindo] in E; try discriminate.
    destruct (sub_parse St W H wscu sx sy read_split read_cu next x y 2 s2) as [s3| | |] eqn:E3; cbn [bindo] in E; try discriminate.
    destruct (SUB 0 0 0 _ _ eq_refl eq_refl E1) as (u1 & L1 & I1 & O1). destruct (SUB 1 1 0 _ _ eq_refl eq_refl E2) as (u2 & L2 & I2 & O2).
    destruct (SUB 2 0 1 _ _ eq_refl eq_refl E3) as (u3 & L3 & I3 & O3). destruct (SUB 3 1 1 _ _ eq_refl eq_refl E) as (u4 & L4 & I4 & O4). clear SUB IH E E1 E2 E3.
    exists (u1 ++ u2 ++ u3 ++ u4). split; [rewrite L4, L3, L2, L1, !app_assoc; reflexivity|].
    set (k := (next - 2)%nat) in *. replace (S next - 2)%nat with (S k) by (unfold k; lia). replace (Z.of_nat (S next) - 2) with (Z.of_nat k + 1) by (unfold k; lia). replace (Z.of_nat next - 2) with (Z.of_nat k) in * by (unfold k; lia). clearbody k.
    split.
    { rewrite !Forall_app. repeat split; (eapply Forall_impl; [|eassumption]); intros u; apply within_up; lia. }
    assert (SAME : forall dx dy us, 0 <= dx <= 1 -> 0 <= dy <= 1 -> Forall (within (Z.of_nat k) (2 * a + dx) (2 * b + dy)) us -> ForallOrdPairs (quad_late k) us -> ForallOrdPairs (quad_late (S k)) us).
    { intros dx dy us Hx Hy Hi Ho. apply (FOP_mono _ _ _ Ho). rewrite Forall_forall in Hi. intros u v Hu Hv Huv X Y HXY. cbn [quad_before].
      destruct (Hi u Hu) as [[A B] _]. destruct (proj2 (Hi v Hv) X Y HXY) as [C D].
      rewrite (bit_of _ _ _ _ Hx A), (bit_of _ _ _ _ Hy B), (bit_of _ _ _ _ Hx C), (bit_of _ _ _ _ Hy D), Z.eqb_refl. apply Huv. exact HXY. }
    assert (DIFF : forall dx dy ex ey us vs, 0 <= dx <= 1 -> 0 <= dy <= 1 -> 0 <= ex <= 1 -> 0 <= ey <= 1 -> 2 * dy + dx < 2 * ey + ex ->
      Forall (within (Z.of_nat k) (2 * a + dx) (2 * b + dy)) us -> Forall (within (Z.of_nat k) (2 * a + ex) (2 * b + ey)) vs -> forall u v, In u us -> In v vs -> quad_late (S k) u v).
    { intros dx dy ex ey us vs Hx Hy Gx Gy Lt Hu Hv u v Iu Iv X Y HXY. rewrite Forall_forall in Hu, Hv. cbn [quad_before].
      destruct (Hu u Iu) as [[A B] _]. destruct (proj2 (Hv v Iv) X Y HXY) as [C D].
      rewrite (bit_of _ _ _ _ Hx A), (bit_of _ _ _ _ Hy B), (bit_of _ _ _ _ Gx C), (bit_of _ _ _ _ Gy D).
      destruct (Z.eqb_spec (2 * ey + ex) (2 * dy + dx)); [lia|]. apply Z.ltb_ge. lia. }
    apply FOP_app; [apply (SAME 0 0); try lia; assumption| |].
    2: { intros u v Iu Iv. apply in_app_or in Iv. destruct Iv as [Iv|Iv]; [apply (DIFF 0 0 1 0 u1 u2); try lia; assumption|]. apply in_app_or in Iv. destruct Iv as [Iv|Iv]; [apply (DIFF 0 0 0 1 u1 u3); try lia; assumption|apply (DIFF 0 0 1 1 u1 u4); try lia; assumption]. }
    apply FOP_app; [apply (SAME 1 0); try lia; assumption| |].
    2: { intros u v Iu Iv. apply in_app_or in Iv. destruct Iv as [Iv|Iv]; [apply (DIFF 1 0 0 1 u2 u3); try lia; assumption|apply (DIFF 1 0 1 1 u2 u4); try lia; assumption]. }
    apply FOP_app; [apply (SAME 0 1); try lia; assumption|apply (SAME 1 1); try lia; assumption|].
    intros u v Iu Iv. apply (DIFF 0 1 1 1 u3 u4); try lia; assumption.
  - destruct (zigzag _ _) as [z| | |]; cbn [bindo] in E; try discriminate.
    set (l := Z.of_nat (S next)) in *. assert (E' : st' = read_unit St read_cu wscu l x y z st1) by congruence. subst st'. clear E. unfold read_unit. destruct (read_cu l x y (s_rest st1)) as [ok r].
    assert (W0 : within (l - 2) a b {| v_level := l; v_x := x; v_y := y; v_z := z; v_ok := ok |}).
    { unfold within, cells, MpSpec.in_unit. cbn [v_x v_y v_level]. unfold x, y. assert (P : 2 ^ l = 2 ^ (l - 2) * 4) by (change 4 with (2 ^ 2); rewrite <- Z.pow_add_r by (unfold l; lia); f_equal; lia).
      assert (N : 0 < 2 ^ (l - 2)) by (apply Z.pow_pos_nonneg; unfold l; lia). rewrite P, !Z.mul_assoc, !Z.div_mul by lia. set (n := 2 ^ (l - 2)) in *. clearbody n. split; [auto|].
      intros X Y [A B]. split; symmetry.
      - apply Z.div_unique with (r := X - a * n); lia.
      - apply Z.div_unique with (r := Y - b * n); lia. }
    exists [{| v_level := l; v_x := x; v_y := y; v_z := z; v_ok := ok |}]. split; [destruct ok; reflexivity|]. split; [constructor; [exact W0|constructor]|]. constructor; constructor.
Qed.
Variables (between : Z -> St -> St) (slice : Z -> Z) (L : nat).
Hypothesis HL : (3 <= L)%nat.
Lemma lcu_order lx ly nr (st st' : qst St) : parse_lcu St read_split read_cu W H wscu L lx ly nr st = Done st' ->
  exists us, s_log st' = s_log st ++ us /\ Forall (within (Z.of_nat L - 2) lx ly) us /\ ForallOrdPairs (quad_late (L - 2)) us.
Proof.
  intros E. unfold parse_lcu in E. rewrite !Z.shiftl_mul_pow2 in E by lia.
  replace (lx * 2 ^ (Z.of_nat L - 3) * 2 ^ 3) with (lx * 2 ^ Z.of_nat L) in E by (rewrite <- Z.mul_assoc, <- Z.pow_add_r by lia; f_equal; f_equal; lia).
  replace (ly * 2 ^ (Z.of_nat L - 3) * 2 ^ 3) with (ly * 2 ^ Z.of_nat L) in E by (rewrite <- Z.mul_assoc, <- Z.pow_add_r by lia; f_equal; f_equal; lia).
  destruct (parse_order _ _ L lx ly _ st' HL E) as (us & A & B). exists us. split; [exact A|exact B].
Qed.
Lemma picture_order wlcu : 0 < wlcu -> forall n k (st st' : qst St), parse_picture St read_split read_cu between slice W H wscu wlcu L n k st = Done st' ->
  exists us, s_log st' = s_log st ++ us /\ Forall (fun u => exists j, k <= j /\ within (Z.of_nat L - 2) (j mod wlcu) (j / wlcu) u) us /\ ForallOrdPairs (late (L - 2)) us.
Proof.
  intros Hw. induction n as [|n IH]; intros k st st' E.
  - injection E as <-. exists []. rewrite app_nil_r. repeat split; constructor.
  - cbn [parse_picture] in E. destruct (parse_lcu _ _ _ _ _ _ _ _ _ _ st) as [s1| | |] eqn:E1; cbn [bindo] in E; try discriminate.
    destruct (lcu_order _ _ _ _ _ E1) as (u1 & L1 & I1 & O1). destruct (IH _ _ _ E) as (u2 & L2 & I2 & O2). cbn [s_log] in L2.
    exists (u1 ++ u2). split; [rewrite L2, L1, app_assoc; reflexivity|].
    assert (P2 : 2 ^ Z.of_nat (L - 2) = 2 ^ (Z.of_nat L - 2)) by (f_equal; lia).
    split.
    + apply Forall_app. split; [eapply Forall_impl; [|exact I1]; intros u Hu; exists k; split; [lia|exact Hu]|]. eapply Forall_impl; [|exact I2]. intros u (j & Hj & Hu). exists j. split; [lia|exact Hu].
    + rewrite Forall_forall in I1, I2. apply FOP_app; [|exact O2|].
      * apply (FOP_mono _ _ _ O1). intros u v Hu Hv Huv X Y HXY. unfold unit_before. rewrite P2. destruct (I1 u Hu) as [[-> ->] _]. destruct (proj2 (I1 v Hv) X Y HXY) as [-> ->]. rewrite !Z.eqb_refl. apply Huv. exact HXY.
      * intros u v Hu Hv X Y HXY. unfold unit_before. rewrite P2. destruct (I1 u Hu) as [[-> ->] _]. destruct (I2 v Hv) as (j & Hj & Hvj). destruct (proj2 Hvj X Y HXY) as [-> ->].
        assert (J : k / wlcu < j / wlcu \/ k / wlcu = j / wlcu /\ k mod wlcu < j mod wlcu).
        { assert (Q := Z.div_mod k wlcu ltac:(lia)). assert (Q' := Z.div_mod j wlcu ltac:(lia)). assert (D : k / wlcu <= j / wlcu) by (apply Z.div_le_mono; lia). destruct (Z.eq_dec (k / wlcu) (j / wlcu)) as [Eq|Ne]; [right|left; lia]. split; [exact Eq|]. rewrite Eq in Q. lia. }
        destruct (Z.eqb_spec (j / wlcu) (k / wlcu)), (Z.eqb_spec (j mod wlcu) (k mod wlcu)), (Z.ltb_spec (j / wlcu) (k / wlcu)), (Z.ltb_spec (j mod wlcu) (k mod wlcu)); try lia; reflexivity.
Qed.
End Order.

(** The jobs of a picture, given by the log of the quadtree. *)
Lemma log_order (St : Type) (read_split : Z -> St -> bool * St) (read_cu : Z -> Z -> Z -> St -> bool * St) (between : Z -> St -> St) (slice : Z -> Z) W H wscu (level : nat) wlcu hlcu st st' E js :
  sizes W H wscu level -> wlcu = (W + 2 ^ Z.of_nat level - 1) / 2 ^ Z.of_nat level -> hlcu = (H + 2 ^ Z.of_nat level - 1) / 2 ^ Z.of_nat level ->
  (forall k, to_i8 (slice k) <> -1) -> s_log st = [] ->
  parse_picture St read_split read_cu between slice W H wscu wlcu level (Z.to_nat (wlcu * hlcu)) 0 st = Done st' ->
  e_lv E = Z.of_nat level -> e_wu E = W / 4 -> e_hu E = H / 4 ->
  Forall2 (job_of E) (s_log st') js ->
  Forall (job_ok E) js /\ in_order E js.
Proof.
  intros HS Ew Eh Hs Hl HP Lv Wu Hu F. subst hlcu.
  destruct (qt_picture St read_split read_cu between slice W H wscu level wlcu _ st HS Ew eq_refl Hs Hl) as (st2 & HP2 & [Cv1 Cv2] & PU & LE & _).
  rewrite HP in HP2. assert (st2 = st') by congruence. subst st2. clear HP2.
  destruct HS as (W8 & H8 & W1 & H1 & _ & L6).
  assert (Wl : 0 < wlcu). { subst wlcu. apply Z.div_str_pos. assert (0 < 2 ^ Z.of_nat level) by (apply Z.pow_pos_nonneg; lia). lia. }
  destruct (picture_order St read_split read_cu W H wscu between slice level ltac:(lia) wlcu Wl _ _ _ _ HP) as (us & El & _ & Or). rewrite Hl in El. cbn [app] in El. subst us. clear HP.
  assert (UA : forall u, In u (s_log st') -> exists n a b, v_level u = n + 2 /\ 1 <= n /\ v_x u = 4 * (a * 2 ^ n) /\ v_y u = 4 * (b * 2 ^ n) /\ 0 <= a /\ 0 <= b /\ a * 2 ^ n + 2 ^ n <= W / 4 /\ b * 2 ^ n + 2 ^ n <= H / 4 /\ v_level u <= Z.of_nat level).
  { intros u Iu. rewrite Forall_forall in PU, LE. destruct (PU u Iu) as (A & B & C & D & G). specialize (LE u Iu). pose proof (Cv1 u) as V.
    set (n := v_level u - 2). assert (Pn : 0 < 2 ^ n) by (apply Z.pow_pos_nonneg; unfold n; lia).
    assert (P4 : 2 ^ v_level u = 4 * 2 ^ n) by (change 4 with (2 ^ 2); rewrite <- Z.pow_add_r by (unfold n; lia); f_equal; unfold n; lia).
    exists n, (v_x u / 2 ^ v_level u), (v_y u / 2 ^ v_level u).
    assert (X0 : v_x u = 4 * (v_x u / 2 ^ v_level u * 2 ^ n)) by (rewrite P4 in *; assert (Q := Z.div_mod (v_x u) (4 * 2 ^ n) ltac:(lia)); lia).
    assert (Y0 : v_y u = 4 * (v_y u / 2 ^ v_level u * 2 ^ n)) by (rewrite P4 in *; assert (Q := Z.div_mod (v_y u) (4 * 2 ^ n) ltac:(lia)); lia).
    assert (A0 : 0 <= v_x u / 2 ^ v_level u) by (apply Z.div_pos; lia). assert (B0 : 0 <= v_y u / 2 ^ v_level u) by (apply Z.div_pos; lia).
    destruct (V (v_x u + 2 ^ v_level u - 1) (v_y u + 2 ^ v_level u - 1) Iu) as [[_ V1] [_ V2]].
    { unfold QtSpec.in_unit. rewrite P4. lia. }
    rewrite P4 in V1, V2. set (a := v_x u / 2 ^ v_level u) in *. set (b := v_y u / 2 ^ v_level u) in *. clearbody a b. clear V.
    set (p := a * 2 ^ n) in *. set (q := b * 2 ^ n) in *. clearbody p q. set (N := 2 ^ n) in *. clearbody N.
    split; [unfold n; lia|]. split; [unfold n; lia|]. split; [exact X0|]. split; [exact Y0|]. split; [exact A0|]. split; [exact B0|]. rewrite X0 in V1. rewrite Y0 in V2. clear - V1 V2 LE. split; [Z.div_mod_to_equations; lia|]. split; [Z.div_mod_to_equations; lia|exact LE]. }
  assert (JU : forall k Q lv ux uy y, nth_error js k = Some (Q, lv, ux, uy, y) -> exists u, nth_error (s_log st') k = Some u /\ v_level u = lv /\ v_x u = 4 * ux /\ v_y u = 4 * uy /\ job_ok E (Q, lv, ux, uy, y)).
  { intros k Q lv ux uy y Hk. assert (G : exists u, nth_error (s_log st') k = Some u /\ job_of E u (Q, lv, ux, uy, y)).
    { clear - F Hk. revert k Hk. induction F as [|u j us js H F IH]; intros [|k] Hk; try discriminate; cbn [nth_error] in *; [injection Hk as ->; eauto|eauto]. }
    destruct G as (u & Hu1 & (A & B & C & D & G & Sy)). destruct (UA u (nth_error_In _ _ Hu1)) as (n & a & b & E1 & E2 & E3 & E4 & E5 & E6 & E7 & E8 & E9).
    assert (Pn : 0 < 2 ^ n) by (apply Z.pow_pos_nonneg; lia).
    exists u. split; [exact Hu1|]. split; [exact A|]. assert (X1 : ux = a * 2 ^ n) by lia. assert (Y1 : uy = b * 2 ^ n) by lia. split; [lia|]. split; [lia|]. split; [|exact Sy].
    assert (N2 : lv - 2 = n) by lia. constructor; rewrite ?N2, ?Wu, ?Hu, ?Lv; subst ux uy; try assumption; try lia.
    all: first [apply Z.mul_nonneg_nonneg; lia|apply Z.mod_mul; lia|rewrite <- Lv; assumption]. }
  split.
  - apply Forall_forall. intros [[[[Q lv] ux] uy] y] Ij. apply In_nth_error in Ij. destruct Ij as (k & Hk). destruct (JU _ _ _ _ _ _ Hk) as (u & _ & _ & _ & _ & J). exact J.
  - intros k Q lv ux uy y X Y Hk HP Ni Bf. destruct (JU _ _ _ _ _ _ Hk) as (u & Hu1 & A & B & C & _).
    destruct HP as [PX PY]. rewrite Wu in PX. rewrite Hu in PY.
    destruct (Cv2 (4 * X) (4 * Y)) as (i & v & Hv & Iv & _).
    { unfold picture. clear - PX PY. Z.div_mod_to_equations. lia. }
    assert (CV : cells v X Y).
    { destruct (UA v (nth_error_In _ _ Hv)) as (n & a & b & E1 & E2 & E3 & E4 & E5 & E6 & E7 & E8 & E9). unfold cells, MpSpec.in_unit. unfold QtSpec.in_unit in Iv. rewrite E3, E4 in *. rewrite !(Z.mul_comm 4 (_ * _)), !Z.div_mul by lia. 
      rewrite E1 in *. rewrite Z.pow_add_r in Iv by lia. replace (n + 2 - 2) with n by lia. change (2 ^ 2) with 4 in Iv. lia. }
    assert (Lt : (i < k)%nat).
    { destruct (lt_eq_lt_dec i k) as [[Lt|Eq]|Gt]; [exact Lt| |]; exfalso.
      - subst i. rewrite Hu1 in Hv. injection Hv as ->. apply Ni. unfold cells in CV. rewrite A, B, C in CV. rewrite !(Z.mul_comm 4), !Z.div_mul in CV by lia. exact CV.
      - pose proof (FOP_nth _ _ Or k i u v Gt Hu1 Hv X Y CV) as Q0. rewrite B, C in Q0. rewrite !(Z.mul_comm 4), !Z.div_mul in Q0 by lia. rewrite Lv in Bf. replace (Z.to_nat (Z.of_nat level - 2)) with (level - 2)%nat in Bf by lia. congruence. }
    assert (Jv : exists j, nth_error js i = Some j /\ job_of E v j).
    { clear - F Hv. revert i Hv. induction F as [|u j us js H F IH]; intros [|i] Hi; try discriminate; cbn [nth_error] in *; [injection Hi as ->; eauto|eauto]. }
    destruct Jv as (j & Hj & Jv). exists i, j. split; [exact Lt|]. split; [exact Hj|]. destruct j as [[[[Q' lv'] ux'] uy'] y']. destruct Jv as (A' & B' & C' & _). unfold in_job. unfold cells in CV. rewrite A', B', C' in CV. rewrite !(Z.mul_comm 4), !Z.div_mul in CV by lia. exact CV.
Qed.
Lemma whole_picture (St : Type) (read_split : Z -> St -> bool * St) (read_cu : Z -> Z -> Z -> St -> bool * St) (between : Z -> St -> St) (slice : Z -> Z) W H wscu (level : nat) wlcu hlcu st st' E js junk junk' g g' :
  sizes W H wscu level -> wlcu = (W + 2 ^ Z.of_nat level - 1) / 2 ^ Z.of_nat level -> hlcu = (H + 2 ^ Z.of_nat level - 1) / 2 ^ Z.of_nat level ->
  (forall k, to_i8 (slice k) <> -1) -> s_log st = [] ->
  parse_picture St read_split read_cu between slice W H wscu wlcu level (Z.to_nat (wlcu * hlcu)) 0 st = Done st' ->
  env_ok E -> e_lv E = Z.of_nat level -> e_wu E = W / 4 -> e_hu E = H / 4 -> Forall2 (job_of E) (s_log st') js -> grid_ok E g -> grid_ok E g' ->
  orel (fun a a' => same_picture E js a a' /\ forall X Y, in_pic (W / 4) (H / 4) X Y -> same_cell E (snd a (Y * e_wu E + X)) (snd a' (Y * e_wu E + X)) /\ cell_ok E (snd a (Y * e_wu E + X)))
    (run_units E junk js g) (run_units E junk' js g').
Proof.
  intros HS Ew Eh Hs Hl HP Ok Lv Wu Hu F G G'.
  destruct (log_order St read_split read_cu between slice W H wscu level wlcu hlcu st st' E js HS Ew Eh Hs Hl HP Lv Wu Hu F) as [Jo Io].
  pose proof (picture_same E js junk junk' g g' Ok Jo Io G G') as R.
  assert (CO : forall X Y, in_pic (W / 4) (H / 4) X Y -> exists j, In j js /\ in_job j X Y).
  { intros X Y [PX PY]. destruct (qt_picture St read_split read_cu between slice W H wscu level wlcu hlcu st HS Ew Eh Hs Hl) as (st2 & HP2 & [_ Cv2] & PU & _).
    rewrite HP in HP2. assert (st2 = st') by congruence. subst st2.
    destruct (Cv2 (4 * X) (4 * Y)) as (i & v & Hv & Iv & _); [unfold picture; clear - PX PY; Z.div_mod_to_equations; lia|].
    assert (Jv : exists j, nth_error js i = Some j /\ job_of E v j).
    { clear - F Hv. revert i Hv. induction F as [|u j us js H F IH]; intros [|i] Hi; try discriminate; cbn [nth_error] in *; [injection Hi as ->; eauto|eauto]. }
    destruct Jv as (j & Hj & Jv). exists j. split; [exact (nth_error_In _ _ Hj)|]. destruct j as [[[[Q' lv'] ux'] uy'] y']. destruct Jv as (A' & B' & C' & _). unfold in_job, MpSpec.in_unit. unfold QtSpec.in_unit in Iv. rewrite A', B', C' in Iv.
    rewrite Forall_forall in PU. destruct (PU v (nth_error_In _ _ Hv)) as (L3 & _). rewrite A' in L3.
    assert (P4 : 2 ^ lv' = 4 * 2 ^ (lv' - 2)) by (change 4 with (2 ^ 2); rewrite <- Z.pow_add_r by lia; f_equal; lia). rewrite P4 in Iv. lia. }
  destruct (run_units E junk js g) as [a| | |], (run_units E junk' js g') as [a'| | |]; cbn [orel] in *; try exact R; try contradiction.
  split; [exact R|]. intros X Y HXY. destruct (CO X Y HXY) as (j & Ij & Hj). exact (sp_cells _ _ _ _ R j X Y Ij Hj).
Qed.
