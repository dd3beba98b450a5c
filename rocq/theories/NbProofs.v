(** Proofs about the availability of neighbours. *)
From Coq Require Import ZArith List Bool Lia.
From Verif Require Import CBase CBaseProofs MemModel NbModel NbSpec.
Import ListNotations.
Open Scope Z_scope.

Lemma bit_shift k l x a : (k < l)%nat -> (x + 2 ^ Z.of_nat l * a) / 2 ^ Z.of_nat k mod 2 = x / 2 ^ Z.of_nat k mod 2.
Proof.
  intros H. replace (2 ^ Z.of_nat l * a) with ((2 ^ (Z.of_nat l - Z.of_nat k - 1) * a * 2) * 2 ^ Z.of_nat k).
  - rewrite Z.div_add by (apply Z.pow_nonzero; lia). apply Z.mod_add. lia.
  - replace (Z.of_nat l) with ((Z.of_nat l - Z.of_nat k - 1) + 1 + Z.of_nat k) at 2 by lia.
    rewrite !Z.pow_add_r by lia. ring.
Qed.
Lemma quad_shift k : forall l ax ay bx by_ a b, (k <= l)%nat ->
  quad_before k (ax + 2 ^ Z.of_nat l * a) (ay + 2 ^ Z.of_nat l * b) (bx + 2 ^ Z.of_nat l * a) (by_ + 2 ^ Z.of_nat l * b) = quad_before k ax ay bx by_.
Proof.
  induction k as [|k IH]; intros l ax ay bx by_ a b H; cbn [quad_before]; [reflexivity|].
  rewrite !bit_shift by lia. rewrite IH by lia. reflexivity.
Qed.
Lemma eqb_add_r a b c : (a + c =? b + c) = (a =? b).
Proof. destruct (Z.eqb_spec a b), (Z.eqb_spec (a + c) (b + c)); try reflexivity; lia. Qed.
Lemma ltb_add_r a b c : (a + c <? b + c) = (a <? b).
Proof. destruct (Z.ltb_spec a b), (Z.ltb_spec (a + c) (b + c)); try reflexivity; lia. Qed.
Lemma leb_add_r a b c : (a + c <=? b + c) = (a <=? b).
Proof. destruct (Z.leb_spec a b), (Z.leb_spec (a + c) (b + c)); try reflexivity; lia. Qed.
Lemma unit_shift l ax ay bx by_ a b :
  unit_before l (ax + 2 ^ Z.of_nat l * a) (ay + 2 ^ Z.of_nat l * b) (bx + 2 ^ Z.of_nat l * a) (by_ + 2 ^ Z.of_nat l * b) = unit_before l ax ay bx by_.
Proof.
  unfold unit_before. cbv zeta. rewrite quad_shift by lia.
  assert (P : 2 ^ Z.of_nat l <> 0) by (apply Z.pow_nonzero; lia).
  assert (D : forall v w, (v + 2 ^ Z.of_nat l * w) / 2 ^ Z.of_nat l = v / 2 ^ Z.of_nat l + w) by (intros v w; rewrite (Z.mul_comm _ w); apply Z.div_add; exact P).
  rewrite !D, !eqb_add_r, !ltb_add_r. reflexivity.
Qed.
Lemma decoded_shift l split n cx cy k x y a b :
  decoded_before l split n (cx + 2 ^ Z.of_nat l * a) (cy + 2 ^ Z.of_nat l * b) k (x + 2 ^ Z.of_nat l * a) (y + 2 ^ Z.of_nat l * b) = decoded_before l split n cx cy k x y.
Proof.
  unfold decoded_before. rewrite unit_shift. unfold in_block at 1. unfold in_block at 2.
  set (A := 2 ^ Z.of_nat l * a). set (B := 2 ^ Z.of_nat l * b).
  replace (cx + A + n) with (cx + n + A) by lia. replace (cy + B + n) with (cy + n + B) by lia.
  rewrite !leb_add_r, !ltb_add_r. replace (x + A - (cx + A)) with (x - cx) by lia. replace (y + B - (cy + B)) with (y - cy) by lia. reflexivity.
Qed.

(** The finite part: all positions inside an LCU. *)
Definition upto (n : Z) : list Z := map Z.of_nat (seq 0 (Z.to_nat n)).
Lemma in_upto n i : In i (upto n) <-> 0 <= i < n.
Proof.
  unfold upto. rewrite in_map_iff. split.
  - intros (k & <- & H). apply in_seq in H. lia.
  - intros H. exists (Z.to_nat i). rewrite in_seq. lia.
Qed.
Definition entry (t : list Z) (i : Z) : bool := match get t i with Some v => negb (v =? 0) | None => false end.
Definition check_block (lv : Z) (level split cx cy : Z) (k : nat) : bool :=
  let n := 2 ^ (level - 2) in
  let l := Z.to_nat (lv - 2) in
  let N := 2 ^ (lv - 2) in
  let '(bx, by_, w, h) := nth k (blocks split n) (0, 0, 0, 0) in
  let x := cx + bx in
  let y := cy + by_ in
  let before := decoded_before l split n cx cy k in
  (0 <=? bx) && (0 <=? by_) && (0 <? w) && (0 <? h) && (bx + w <=? n) && (by_ + h <=? n) &&
  Bool.eqb (entry (tab_DL lv) ((y + h - 1) * N + x)) (forallb (fun i => before (x - 1) (y + h + i)) (upto h)) &&
  Bool.eqb (entry (tab_TR lv) (y * N + (x + w - 1))) (forallb (fun i => before (x + w + i) (y - 1)) (upto w)) &&
  forallb (fun i => before (x - 1) (y + i)) (upto h) && forallb (fun i => before (x + i) (y - 1)) (upto w) && before (x - 1) (y - 1).
Definition check_all (lv level split : Z) : bool :=
  let n := 2 ^ (level - 2) in
  forallb (fun ny => forallb (fun nx => forallb (fun k => check_block lv level split (nx * n) (ny * n) k) (seq 0 (length (blocks split n)))) (upto (2 ^ (lv - level)))) (upto (2 ^ (lv - level))).
Definition splits (level : Z) : list Z := if (level =? 4) || (level =? 5) then [0; 1; 2; 3] else [0; 3].
Lemma check_true : forallb (fun lv => forallb (fun level => negb (level <=? lv) || forallb (fun s => check_all lv level s) (splits level)) [3; 4; 5; 6]) [4; 5; 6] = true.
Proof. vm_compute. reflexivity. Qed.
Lemma check_lcu lv level split : 4 <= lv <= 6 -> 3 <= level <= lv -> intra_split level split -> check_all lv level split = true.
Proof.
  intros Hv Hl Hs. pose proof check_true as H. rewrite forallb_forall in H. specialize (H lv). assert (I1 : In lv [4; 5; 6]) by (cbn; lia). specialize (H I1).
  rewrite forallb_forall in H. specialize (H level). assert (I2 : In level [3; 4; 5; 6]) by (cbn; lia). specialize (H I2).
  replace (level <=? lv) with true in H by (symmetry; apply Z.leb_le; lia). cbn [negb orb] in H. rewrite forallb_forall in H. apply H.
  unfold splits, intra_split in *. destruct (Z.eqb_spec level 4), (Z.eqb_spec level 5); cbn [orb In]; lia.
Qed.
Lemma forallb_upto p n : forallb p (upto n) = true <-> forall i, 0 <= i < n -> p i = true.
Proof.
  rewrite forallb_forall. split; intros H i Hi; apply H; apply in_upto; exact Hi.
Qed.
Lemma eqb_iff a b : Bool.eqb a b = true -> (a = true <-> b = true).
Proof. intros E. apply eqb_prop in E. rewrite E. tauto. Qed.

(** A coding unit in the picture. *)
Record unit_at (lv level split cx cy : Z) (k : nat) (bx by_ w h : Z) : Prop := {
  ua_lv : 4 <= lv <= 6; ua_level : 3 <= level <= lv; ua_split : intra_split level split;
  ua_x : 0 <= cx; ua_y : 0 <= cy; ua_ax : cx mod 2 ^ (level - 2) = 0; ua_ay : cy mod 2 ^ (level - 2) = 0;
  ua_k : nth_error (blocks split (2 ^ (level - 2))) k = Some (bx, by_, w, h) }.

Lemma rel_pos level lv c : 3 <= level <= lv -> c mod 2 ^ (level - 2) = 0 ->
  exists nc, 0 <= nc < 2 ^ (lv - level) /\ c mod 2 ^ (lv - 2) = nc * 2 ^ (level - 2) /\ c = nc * 2 ^ (level - 2) + 2 ^ (lv - 2) * (c / 2 ^ (lv - 2)).
Proof.
  intros Hl Hc. assert (P : 0 < 2 ^ (level - 2)) by (apply Z.pow_pos_nonneg; lia). assert (Q : 0 < 2 ^ (lv - level)) by (apply Z.pow_pos_nonneg; lia).
  assert (E : 2 ^ (lv - 2) = 2 ^ (level - 2) * 2 ^ (lv - level)) by (rewrite <- Z.pow_add_r by lia; f_equal; lia).
  set (n := 2 ^ (level - 2)) in *. set (q := 2 ^ (lv - level)) in *. clearbody n q. rewrite E.
  exists ((c / n) mod q). pose proof (Z.mod_pos_bound (c / n) q Q) as B.
  assert (M : c mod (n * q) = (c / n) mod q * n) by (rewrite Z.rem_mul_r by lia; lia).
  split; [exact B|]. split; [exact M|]. rewrite <- M. pose proof (Z.div_mod c (n * q) ltac:(nia)). lia.
Qed.
Lemma land_mask lv c b n : 4 <= lv <= 6 -> 0 <= b < n -> c mod 2 ^ (lv - 2) + n <= 2 ^ (lv - 2) -> Z.land (c + b) (Z.shiftl 1 (lv - 2) - 1) = c mod 2 ^ (lv - 2) + b.
Proof.
  intros Hv Hb Hn. rewrite Z.shiftl_1_l. replace (2 ^ (lv - 2) - 1) with (Z.ones (lv - 2)) by (rewrite Z.ones_equiv; lia). rewrite Z.land_ones by lia.
  assert (P : 0 < 2 ^ (lv - 2)) by (apply Z.pow_pos_nonneg; lia).
  set (N := 2 ^ (lv - 2)) in *. clearbody N. rewrite <- Z.add_mod_idemp_l by lia. apply Z.mod_small. pose proof (Z.mod_pos_bound c N P). lia.
Qed.
Lemma entry_get t i : 0 <= i < Z.of_nat (length t) -> exists v, get t i = Some v /\ entry t i = negb (v =? 0).
Proof. intros H. destruct (get_in _ t i H) as [v E]. exists v. unfold entry. rewrite E. auto. Qed.
Lemma tab_len lv : 4 <= lv <= 6 -> Z.of_nat (length (tab_DL lv)) = 2 ^ (lv - 2) * 2 ^ (lv - 2) /\ Z.of_nat (length (tab_TR lv)) = 2 ^ (lv - 2) * 2 ^ (lv - 2).
Proof. intros H. assert (lv = 4 \/ lv = 5 \/ lv = 6) as [-> | [-> | ->]] by lia; split; reflexivity. Qed.
Lemma avail_iff wu hu wscu sl x y dx dy cur : block_available wu hu wscu sl x y dx dy cur = true <-> in_pic wu hu (x + dx) (y + dy) /\ slice_of wscu sl (x + dx) (y + dy) = cur.
Proof.
  unfold block_available, in_pic, slice_of. cbv zeta. rewrite !Z.shiftr_div_pow2 by lia. change (2 ^ 1) with 2.
  destruct (Z.ltb_spec (x + dx) 0); cbn [orb]; [split; [discriminate|lia]|].
  destruct (Z.ltb_spec (y + dy) 0); cbn [orb]; [split; [discriminate|lia]|].
  destruct (Z.leb_spec wu (x + dx)); cbn [orb]; [split; [discriminate|lia]|].
  destruct (Z.leb_spec hu (y + dy)); cbn [orb]; [split; [discriminate|lia]|].
  rewrite Z.eqb_eq. split; intros Q; [split; [lia|congruence]|destruct Q; congruence].
Qed.

Lemma block_facts lv level split cx cy k bx by_ w h : unit_at lv level split cx cy k bx by_ w h ->
  let l := Z.to_nat (lv - 2) in
  let n := 2 ^ (level - 2) in
  let N := 2 ^ (lv - 2) in
  let before := decoded_before l split n cx cy k in
  let x := cx + bx in let y := cy + by_ in
  let rx := cx mod N + bx in let ry := cy mod N + by_ in
  0 <= bx /\ 0 <= by_ /\ 0 < w /\ 0 < h /\ bx + w <= n /\ by_ + h <= n /\ cx mod N + n <= N /\ cy mod N + n <= N /\
  (entry (tab_DL lv) ((ry + h - 1) * N + rx) = true <-> forall i, 0 <= i < h -> before (x - 1) (y + h + i) = true) /\
  (entry (tab_TR lv) (ry * N + (rx + w - 1)) = true <-> forall i, 0 <= i < w -> before (x + w + i) (y - 1) = true) /\
  (forall i, 0 <= i < h -> before (x - 1) (y + i) = true) /\ (forall i, 0 <= i < w -> before (x + i) (y - 1) = true) /\ before (x - 1) (y - 1) = true.
Proof.
  intros [Hv Hl Hs Hx Hy Ax Ay Hk]. cbv zeta.
  destruct (rel_pos level lv cx Hl Ax) as (nx & Hnx & Mx & Ex). destruct (rel_pos level lv cy Hl Ay) as (ny & Hny & My & Ey).
  pose proof (check_lcu lv level split Hv Hl Hs) as C. unfold check_all in C. cbv zeta in C.
  rewrite forallb_upto in C. specialize (C ny Hny). rewrite forallb_upto in C. specialize (C nx Hnx). rewrite forallb_forall in C. specialize (C k).
  assert (Ik : In k (seq 0 (length (blocks split (2 ^ (level - 2)))))) by (apply in_seq; split; [lia|]; apply nth_error_Some; rewrite Hk; discriminate).
  specialize (C Ik). unfold check_block in C. cbv zeta in C. rewrite (nth_error_nth _ _ _ Hk) in C.
  rewrite !andb_true_iff in C. destruct C as (((((((((( C0 & C1) & C2) & C3) & C4) & C5) & C6) & C7) & C8) & C9) & C10).
  rewrite Z.leb_le in C0, C1, C4, C5. rewrite Z.ltb_lt in C2, C3. apply eqb_iff in C6, C7. rewrite forallb_upto in C6, C7, C8, C9.
  assert (EN : 2 ^ (lv - 2) = 2 ^ Z.of_nat (Z.to_nat (lv - 2))) by (rewrite Z2Nat.id by lia; reflexivity).
  rewrite Mx, My.
  assert (T : forall u v, decoded_before (Z.to_nat (lv - 2)) split (2 ^ (level - 2)) cx cy k (u + 2 ^ (lv - 2) * (cx / 2 ^ (lv - 2))) (v + 2 ^ (lv - 2) * (cy / 2 ^ (lv - 2)))
                        = decoded_before (Z.to_nat (lv - 2)) split (2 ^ (level - 2)) (nx * 2 ^ (level - 2)) (ny * 2 ^ (level - 2)) k u v).
  { intros u v. rewrite Ex at 1. rewrite Ey at 1. rewrite EN at 1 2 3 4 5 6 7 8. apply decoded_shift. }
  set (n := 2 ^ (level - 2)) in *. set (N := 2 ^ (lv - 2)) in *. set (a := cx / N) in *. set (b := cy / N) in *.
  assert (Q : N = n * 2 ^ (lv - level)) by (unfold n, N; rewrite <- Z.pow_add_r by lia; f_equal; lia).
  assert (Pn : 0 < n) by (apply Z.pow_pos_nonneg; lia).
  assert (nx * n + n <= N) by (rewrite Q; clear - Hnx Pn; set (q := 2 ^ (lv - level)) in *; clearbody q; nia).
  assert (ny * n + n <= N) by (rewrite Q; clear - Hny Pn; set (q := 2 ^ (lv - level)) in *; clearbody q; nia).
  assert (T' : forall u v u' v', u' = u + N * a -> v' = v + N * b -> decoded_before (Z.to_nat (lv - 2)) split n cx cy k u' v' = decoded_before (Z.to_nat (lv - 2)) split n (nx * n) (ny * n) k u v)
    by (intros u v u' v' -> ->; apply T).
  repeat (split; [assumption|]).
  split; [etransitivity; [exact C6|]|split; [etransitivity; [exact C7|]|split; [|split]]].
  - split; intros G i Hi; specialize (G i Hi); rewrite <- G; [|symmetry]; apply T'; lia.
  - split; intros G i Hi; specialize (G i Hi); rewrite <- G; [|symmetry]; apply T'; lia.
  - intros i Hi. rewrite <- (C8 i Hi). apply T'; lia.
  - intros i Hi. rewrite <- (C9 i Hi). apply T'; lia.
  - rewrite <- C10. apply T'; lia.
Qed.

Lemma neighbours_ok : forall lv level split cx cy k bx by_ w h, unit_at lv level split cx cy k bx by_ w h ->
  forall wu hu wscu sl cur,
  let before := decoded_before (Z.to_nat (lv - 2)) split (2 ^ (level - 2)) cx cy k in
  let x := cx + bx in let y := cy + by_ in
  let usable u v := in_pic wu hu u v /\ slice_of wscu sl u v = cur in
  exists nb, intra_neighbors lv wu hu wscu sl x y (4 * w) (4 * h) cur = Done nb /\
    (n_left nb = true <-> usable (x - 1) y) /\
    (n_top nb = true <-> usable x (y - 1)) /\
    (n_top_left nb = true <-> usable (x - 1) (y - 1)) /\
    (n_left_down nb = true <-> usable (x - 1) (y + 2 * h - 1) /\ forall i, 0 <= i < h -> before (x - 1) (y + h + i) = true) /\
    (n_top_right nb = true <-> usable (x + 2 * w - 1) (y - 1) /\ forall i, 0 <= i < w -> before (x + w + i) (y - 1) = true).
Proof.
  intros lv level split cx cy k bx by_ w h U wu hu wscu sl cur. cbv zeta.
  pose proof (block_facts _ _ _ _ _ _ _ _ _ _ U) as F. cbv zeta in F. destruct F as (B0 & B1 & B2 & B3 & B4 & B5 & B6 & B7 & D & T & _).
  pose proof (ua_lv _ _ _ _ _ _ _ _ _ _ U) as Hv. pose proof (tab_len lv Hv) as [LD LT].
  unfold intra_neighbors. cbv zeta.
  rewrite (land_mask lv cx bx (2 ^ (level - 2))) by (auto; lia). rewrite (land_mask lv cy by_ (2 ^ (level - 2))) by (auto; lia).
  assert (S1 : forall s v, s = 1 -> Z.shiftr (4 * v) s = 2 * v) by (intros s v ->; rewrite Z.shiftr_div_pow2 by lia; change (2 ^ 1) with 2; replace (4 * v) with (2 * v * 2) by lia; apply Z.div_mul; lia).
  assert (S2 : forall s v, s = 2 -> Z.shiftr (4 * v) s = v) by (intros s v ->; rewrite Z.shiftr_div_pow2 by lia; change (2 ^ 2) with 4; rewrite Z.mul_comm; apply Z.div_mul; lia).
  rewrite !(S1 1 _ eq_refl), !(S2 2 _ eq_refl). rewrite !Z.shiftl_mul_pow2 by lia.
  assert (PN : 0 < 2 ^ (lv - 2)) by (apply Z.pow_pos_nonneg; lia).
  pose proof (Z.mod_pos_bound cx _ PN) as Rx. pose proof (Z.mod_pos_bound cy _ PN) as Ry.
  set (N := 2 ^ (lv - 2)) in *. set (rx := cx mod N) in *. set (ry := cy mod N) in *. set (n := 2 ^ (level - 2)) in *.
  destruct (entry_get (tab_DL lv) ((ry + by_ + h - 1) * N + (rx + bx))) as (v1 & G1 & E1).
  { rewrite LD. clear - B0 B1 B2 B3 B4 B5 B6 B7 PN Rx Ry. clearbody N rx ry n. nia. }
  destruct (entry_get (tab_TR lv) ((ry + by_) * N + (rx + bx + w - 1))) as (v2 & G2 & E2).
  { rewrite LT. clear - B0 B1 B2 B3 B4 B5 B6 B7 PN Rx Ry. clearbody N rx ry n. nia. }
  rewrite G1, G2. eexists. split; [reflexivity|]. cbn [n_left n_top n_left_down n_top_right n_top_left].
  rewrite <- E1, <- E2, !andb_true_iff, D, T, !avail_iff.
  replace (cx + bx + -1) with (cx + bx - 1) by lia. replace (cy + by_ + -1) with (cy + by_ - 1) by lia. rewrite !Z.add_0_r.
  replace (cy + by_ + (2 * h - 1)) with (cy + by_ + 2 * h - 1) by lia. replace (cx + bx + (2 * w - 1)) with (cx + bx + 2 * w - 1) by lia.
  tauto.
Qed.

(** With slices that consist of whole LCU rows the far unit speaks for the whole range. *)
Definition row_slices (lv wu hu wscu : Z) (sl : mem) : Prop :=
  forall x y x' y', in_pic wu hu x y -> in_pic wu hu x' y' -> y / 2 ^ (lv - 2) = y' / 2 ^ (lv - 2) -> slice_of wscu sl x y = slice_of wscu sl x' y'.
Lemma before_row l ax ay bx by_ : unit_before l ax ay bx by_ = true -> ay / 2 ^ Z.of_nat l <= by_ / 2 ^ Z.of_nat l.
Proof.
  unfold unit_before. cbv zeta. destruct (Z.eqb_spec (ay / 2 ^ Z.of_nat l) (by_ / 2 ^ Z.of_nat l)) as [E|E]; cbn [andb]; [lia|].
  rewrite orb_false_r. intros H. apply Z.ltb_lt in H. lia.
Qed.
Lemma same_row N c d : 0 < N -> c <= d -> d - c < N - c mod N -> d / N = c / N.
Proof. intros P L H. symmetry. apply (Z.div_unique_pos d N (c / N) (c mod N + (d - c))); [pose proof (Z.mod_pos_bound c N P); lia|]. pose proof (Z.div_mod c N ltac:(lia)). lia. Qed.
Lemma neighbour_ranges : forall lv level split cx cy k bx by_ w h, unit_at lv level split cx cy k bx by_ w h ->
  forall wu hu wscu sl cur nb, row_slices lv wu hu wscu sl ->
  let before := decoded_before (Z.to_nat (lv - 2)) split (2 ^ (level - 2)) cx cy k in
  let x := cx + bx in let y := cy + by_ in
  let ready u v := in_pic wu hu u v /\ slice_of wscu sl u v = cur /\ before u v = true in
  in_pic wu hu (cx + 2 ^ (level - 2) - 1) (cy + 2 ^ (level - 2) - 1) ->
  intra_neighbors lv wu hu wscu sl x y (4 * w) (4 * h) cur = Done nb ->
    (n_left nb = true <-> forall i, 0 <= i < h -> ready (x - 1) (y + i)) /\
    (n_top nb = true <-> forall i, 0 <= i < w -> ready (x + i) (y - 1)) /\
    (n_top_left nb = true <-> ready (x - 1) (y - 1)) /\
    (n_left_down nb = true <-> forall i, 0 <= i < h -> ready (x - 1) (y + h + i)) /\
    (n_top_right nb = true <-> forall i, 0 <= i < w -> ready (x + w + i) (y - 1)).
Proof.
  intros lv level split cx cy k bx by_ w h U wu hu wscu sl cur nb RS before x y ready Pic E.
  pose proof (neighbours_ok _ _ _ _ _ _ _ _ _ _ U wu hu wscu sl cur) as K. cbv zeta in K. destruct K as (nb' & E' & K1 & K2 & K3 & K4 & K5).
  fold x y in E', K1, K2, K3, K4, K5. rewrite E in E'. assert (nb' = nb) by (injection E'; auto). subst nb'. clear E E'.
  pose proof (block_facts _ _ _ _ _ _ _ _ _ _ U) as F. cbv zeta in F. destruct F as (B0 & B1 & B2 & B3 & B4 & B5 & B6 & B7 & _ & _ & F1 & F2 & F3).
  fold before x y in F1, F2, F3. fold before in K4, K5.
  destruct U as [Hv Hl Hs Hx Hy Ax Ay Hk].
  assert (PN : 0 < 2 ^ (lv - 2)) by (apply Z.pow_pos_nonneg; lia).
  assert (EN : 2 ^ (lv - 2) = 2 ^ Z.of_nat (Z.to_nat (lv - 2))) by (rewrite Z2Nat.id by lia; reflexivity).
  assert (Row : forall u v, cy <= v -> before u v = true -> v / 2 ^ (lv - 2) = cy / 2 ^ (lv - 2)).
  { intros u v Hv' Hb. unfold before, decoded_before in Hb. destruct (in_block (cx, cy, 2 ^ (level - 2), 2 ^ (level - 2)) u v) eqn:Bk.
    - unfold in_block in Bk. rewrite !andb_true_iff, !Z.leb_le, !Z.ltb_lt in Bk. apply same_row; lia.
    - apply before_row in Hb. rewrite <- EN in Hb. pose proof (Z.div_le_mono cy v _ PN Hv'). lia. }
  unfold in_pic in Pic. unfold row_slices in RS. set (N := 2 ^ (lv - 2)) in *. set (n := 2 ^ (level - 2)) in *. clearbody N n before.
  unfold ready. split; [|split; [|split; [|split]]].
  - rewrite K1. split.
    + intros [P Q] i Hi. split; [unfold in_pic in *; lia|]. split; [|apply F1; exact Hi]. rewrite <- Q. apply RS; [unfold in_pic in *; lia|exact P|].
      transitivity (cy / N); [|symmetry]; apply same_row; unfold y; lia.
    + intros G. specialize (G 0 ltac:(lia)). rewrite Z.add_0_r in G. tauto.
  - rewrite K2. split.
    + intros [P Q] i Hi. split; [unfold in_pic in *; lia|]. split; [|apply F2; exact Hi]. rewrite <- Q. apply RS; [unfold in_pic in *; lia|exact P|reflexivity].
    + intros G. specialize (G 0 ltac:(lia)). rewrite Z.add_0_r in G. tauto.
  - rewrite K3. tauto.
  - rewrite K4. split.
    + intros [[P Q] G] i Hi. split; [unfold in_pic in *; lia|]. split; [|apply G; exact Hi]. rewrite <- Q. apply RS; [unfold in_pic in *; lia|exact P|].
      transitivity (cy / N); [|symmetry].
      * apply (Row (x - 1)); [unfold y; lia|]. apply G. exact Hi.
      * apply (Row (x - 1)); [unfold y; lia|]. replace (y + 2 * h - 1) with (y + h + (h - 1)) by lia. apply G. lia.
    + intros G. split; [|intros i Hi; apply G; exact Hi]. specialize (G (h - 1) ltac:(lia)). replace (y + h + (h - 1)) with (y + 2 * h - 1) in G by lia. tauto.
  - rewrite K5. split.
    + intros [[P Q] G] i Hi. split; [unfold in_pic in *; lia|]. split; [|apply G; exact Hi]. rewrite <- Q. apply RS; [unfold in_pic in *; lia|exact P|reflexivity].
    + intros G. split; [|intros i Hi; apply G; exact Hi]. specialize (G (w - 1) ltac:(lia)). replace (x + w + (w - 1)) with (x + 2 * w - 1) in G by lia. tauto.
Qed.
