From Coq Require Import ZArith List Bool Lia.
From Verif Require Import CBase CBaseProofs HdrModel QpModel QpProofs UtilModel UtilProofs MvModel MvSpec.
Import ListNotations.
Open Scope Z_scope.

Lemma to_i16_id : forall v, is_i16 v -> to_i16 v = v.
Proof. unfold is_i16, to_i16. intros. rewrite Z.mod_small by lia. lia. Qed.
Lemma to_i16_range : forall v, is_i16 (to_i16 v).
Proof. unfold is_i16, to_i16. intros. pose proof (Z.mod_pos_bound (v + 32768) 65536). lia. Qed.
Lemma clip16_eq : forall v, clip3 (-32768) 32767 v = sat16 v.
Proof.
  intros. unfold clip3, sat16. destruct (v <? -32768) eqn:A; [lia|]. destruct (32767 <? v) eqn:B; lia.
Qed.
Lemma sat16_range : forall v, is_i16 (sat16 v).
Proof. unfold is_i16, sat16. lia. Qed.
Lemma sat16_id : forall v, is_i16 v -> sat16 v = v.
Proof. unfold is_i16, sat16. lia. Qed.
Lemma sat16_mono : forall v w, v <= w -> sat16 v <= sat16 w.
Proof. unfold sat16. lia. Qed.
Lemma c_abs_eq : forall v, c_abs v = Z.abs v.
Proof. intros. unfold c_abs. destruct (v <? 0) eqn:?; lia. Qed.
Lemma shiftr14 : forall q, Z.shiftr q 14 = q / 16384.
Proof. intros. rewrite Z.shiftr_div_pow2 by lia. reflexivity. Qed.

Lemma div_le_num : forall q, 0 <= q -> 0 <= q / 16384 <= q.
Proof. intros. split; [apply Z.div_pos; lia|apply Z.div_le_upper_bound; lia]. Qed.

Lemma default_ok : forall mv dst src, is_i16 mv -> 0 <= dst -> 1 <= src ->
  Z.abs mv * dst * src + 8192 <= 2147483647 ->
  scale_mv_default mv dst src = Done (sat16 (round14 (mv * dst * src))).
Proof.
  intros mv dst src Hm Hd Hs Hb. unfold is_i16 in Hm. unfold scale_mv_default, mul3.
  rewrite sign3_ok by lia. cbn [bindo]. rewrite c_abs_eq.
  assert (P0: 0 <= Z.abs mv * dst) by nia. assert (P1: Z.abs mv * dst <= Z.abs mv * dst * src) by nia.
  rewrite int32_ok by (unfold in_i32; lia). cbn [bindo].
  rewrite int32_ok by (unfold in_i32; lia). cbn [bindo]. unfold HALF_MULTI.
  rewrite int32_ok by (unfold in_i32; lia). cbn [bindo]. rewrite shiftr14.
  pose proof (div_le_num (Z.abs mv * dst * src + 8192) ltac:(lia)) as B.
  rewrite int32_ok by (unfold in_i32; destruct (Z.sgn_spec mv) as [[? ->]|[[? ->]|[? ->]]]; lia). cbn [bindo].
  rewrite clip16_eq, to_i16_id by apply sat16_range. do 2 f_equal. unfold round14.
  assert (A: Z.abs (mv * dst * src) = Z.abs mv * dst * src) by (rewrite !Z.abs_mul; rewrite (Z.abs_eq dst), (Z.abs_eq src) by lia; reflexivity).
  rewrite A. destruct (Z.eq_dec dst 0) as [->|Nd].
  - rewrite ?Z.mul_0_r, ?Z.mul_0_l. cbn. rewrite ?Z.mul_0_r. reflexivity.
  - rewrite !Z.sgn_mul. rewrite (Z.sgn_pos dst), (Z.sgn_pos src) by lia. lia.
Qed.

Lemma round14_opp : forall p, round14 (- p) = - round14 p.
Proof. intros. unfold round14. rewrite Z.abs_opp, Z.sgn_opp. lia. Qed.
Lemma round14_mono : forall p q, p <= q -> round14 p <= round14 q.
Proof.
  intros p q H. unfold round14. pose proof (Z.div_le_mono (Z.abs p + 8192) (Z.abs q + 8192) 16384 ltac:(lia)).
  pose proof (Z.div_le_mono (Z.abs q + 8192) (Z.abs p + 8192) 16384 ltac:(lia)).
  assert (0 <= (Z.abs p + 8192) / 16384) by (apply Z.div_pos; lia).
  assert (0 <= (Z.abs q + 8192) / 16384) by (apply Z.div_pos; lia).
  destruct (Z.sgn_spec p) as [[? ->]|[[? ->]|[? ->]]]; destruct (Z.sgn_spec q) as [[? ->]|[[? ->]|[? ->]]]; lia.
Qed.
Lemma round14_err : forall p, Z.abs (16384 * round14 p - p) <= 8192.
Proof.
  intros p. unfold round14. pose proof (Z.div_mod (Z.abs p + 8192) 16384 ltac:(lia)).
  pose proof (Z.mod_pos_bound (Z.abs p + 8192) 16384 ltac:(lia)).
  destruct (Z.sgn_spec p) as [[? ->]|[[? ->]|[? ->]]]; lia.
Qed.

Lemma default_all : forall mv dst src, is_i16 mv -> 0 <= dst -> 1 <= src ->
  Z.abs mv * dst * src + 8192 <= 2147483647 ->
  exists r, scale_mv_default mv dst src = Done r /\ is_i16 r /\
    r = sat16 (round14 (mv * dst * src)) /\
    (mv = 0 -> r = 0) /\ (dst * src = 16384 -> r = mv) /\
    (is_i16 (- mv) -> is_i16 (- r) -> r <> 32767 -> scale_mv_default (- mv) dst src = Done (- r)).
Proof.
  intros mv dst src Hm Hd Hs Hb. eexists. split; [now apply default_ok|].
  split; [apply sat16_range|]. split; [reflexivity|]. split; [|split].
  - intros ->. reflexivity.
  - intros E. replace (mv * dst * src) with (mv * 16384) by (rewrite <- E; ring).
    replace (round14 (mv * 16384)) with mv; [now apply sat16_id|].
    pose proof (round14_err (mv * 16384)).
    assert (Z.abs (round14 (mv * 16384) - mv) < 1) by lia. lia.
  - intros Hn Hr Hne. rewrite default_ok; auto; [|rewrite Z.abs_opp; lia].
    f_equal. replace (- mv * dst * src) with (- (mv * dst * src)) by ring. rewrite round14_opp.
    unfold sat16, is_i16 in *. lia.
Qed.

Lemma default_mono : forall mv mv' dst src r r', is_i16 mv -> is_i16 mv' -> 0 <= dst -> 1 <= src ->
  Z.abs mv * dst * src + 8192 <= 2147483647 -> Z.abs mv' * dst * src + 8192 <= 2147483647 ->
  mv <= mv' -> scale_mv_default mv dst src = Done r -> scale_mv_default mv' dst src = Done r' -> r <= r'.
Proof.
  intros mv mv' dst src r r' H1 H2 Hd Hs B1 B2 L E1 E2. rewrite default_ok in E1, E2 by assumption.
  apply Done_inj in E1, E2. subst. apply sat16_mono, round14_mono. apply Z.mul_le_mono_nonneg_r; [lia|]. apply Z.mul_le_mono_nonneg_r; lia.
Qed.

Lemma dist_scale_bounds : forall d, 1 <= d <= 16384 -> 1 <= dist_scale d /\ d * dist_scale d <= 16384 < d * (dist_scale d + 1).
Proof.
  intros d Hd. unfold dist_scale, MULTI. rewrite Z.quot_div_nonneg by lia.
  pose proof (Z.div_mod 16384 d ltac:(lia)). pose proof (Z.mod_pos_bound 16384 d ltac:(lia)).
  split; [apply Z.div_le_lower_bound; lia|]. lia.
Qed.

Lemma land511 : forall z, Z.land z 511 = z mod 512.
Proof. intros. change 511 with (Z.ones 9). now rewrite Z.land_ones by lia. Qed.
Lemma dist_ref_range : forall dpoc, 1 <= dist_ref dpoc <= 511.
Proof.
  intros. unfold dist_ref, distance_index. cbv zeta. rewrite !land511.
  pose proof (Z.mod_pos_bound (2 * dpoc + 512) 512 ltac:(lia)).
  destruct ((2 * dpoc + 512) mod 512 <=? 0) eqn:E; lia.
Qed.
Lemma dist_ref_exact : forall dpoc, 1 <= dpoc <= 255 -> dist_ref dpoc = 2 * dpoc.
Proof.
  intros. unfold dist_ref, distance_index. cbv zeta. rewrite !land511.
  replace (2 * dpoc + 512) with (2 * dpoc + 1 * 512) by lia.
  rewrite Z.mod_add, Z.mod_small by lia. destruct (2 * dpoc <=? 0) eqn:E; lia.
Qed.

Lemma default_accuracy : forall mv dpoc dpoc', is_i16 mv ->
  let dst := dist_ref dpoc in let d := dist_ref dpoc' in
  Z.abs mv * dst * dist_scale d + 8192 <= 2147483647 ->
  exists r, scale_mv_default mv dst (dist_scale d) = Done r /\
    (-32768 < r < 32767 -> Z.abs (d * r - mv * dst) * 16384 <= d * (8192 + Z.abs mv * dst)).
Proof.
  intros mv dpoc dpoc' Hm dst d Hb. pose proof (dist_ref_range dpoc) as Rd. fold dst in Rd.
  pose proof (dist_ref_range dpoc') as Rs. fold d in Rs.
  destruct (dist_scale_bounds d ltac:(lia)) as [S1 S2]. set (src := dist_scale d) in *.
  eexists. split; [apply default_ok; lia || assumption|].
  intros Hr. set (r := round14 (mv * dst * src)) in *.
  assert (Es: sat16 r = r) by (unfold sat16 in *; lia). rewrite Es in *.
  pose proof (round14_err (mv * dst * src)) as E. fold r in E. clearbody r src d dst.
  assert (A: Z.abs (d * (16384 * r - mv * dst * src)) <= d * 8192) by (rewrite Z.abs_mul, (Z.abs_eq d) by lia; nia).
  assert (B: Z.abs (mv * dst * (16384 - d * src)) <= Z.abs mv * dst * d).
  { rewrite !Z.abs_mul. rewrite (Z.abs_eq dst), (Z.abs_eq (16384 - d * src)) by lia. apply Z.mul_le_mono_nonneg_l; nia. }
  replace (Z.abs (d * r - mv * dst) * 16384) with (Z.abs (d * (16384 * r - mv * dst * src) - mv * dst * (16384 - d * src))).
  2:{ rewrite <- (Z.abs_eq 16384) at 3 by lia. rewrite <- Z.abs_mul. f_equal. ring. }
  lia.
Qed.

Lemma shift_wrap : forall q, to_i16 (clip3 (-32768) 32767 (to_i16 q)) = to_i16 q.
Proof. intros. rewrite clip16_eq, sat16_id, to_i16_id; auto using to_i16_range. Qed.

Lemma skip_ok : forall mv dst src, is_i16 mv -> 0 <= dst -> 1 <= src ->
  Z.abs mv * dst * src + 8192 <= 2147483647 -> Z.abs mv * dst * src <= 16384 * 32767 ->
  scale_mv_skip mv dst src = Done ((mv * dst * src + 8192) / 16384).
Proof.
  intros mv dst src Hm Hd Hs Hb Hc. unfold scale_mv_skip, mul3, HALF_MULTI.
  assert (A: Z.abs (mv * dst * src) = Z.abs mv * dst * src) by (rewrite !Z.abs_mul; rewrite (Z.abs_eq dst), (Z.abs_eq src) by lia; reflexivity).
  assert (A2: Z.abs (mv * dst) = Z.abs mv * dst) by (rewrite !Z.abs_mul; rewrite (Z.abs_eq dst) by lia; reflexivity).
  assert (P1: Z.abs mv * dst <= Z.abs mv * dst * src) by nia.
  rewrite int32_ok by (unfold in_i32; lia). cbn [bindo].
  rewrite int32_ok by (unfold in_i32; lia). cbn [bindo].
  rewrite int32_ok by (unfold in_i32; lia). cbn [bindo]. rewrite shift_wrap, shiftr14. f_equal.
  apply to_i16_id. unfold is_i16. clear - A Hc. set (p := mv * dst * src) in *. clearbody p.
  Z.div_mod_to_equations. lia.
Qed.

Lemma skip_all : forall mv dst src, is_i16 mv -> 0 <= dst -> 1 <= src ->
  Z.abs mv * dst * src <= 16384 * 32767 ->
  exists r, scale_mv_skip mv dst src = Done r /\ is_i16 r /\
    -8192 <= 16384 * r - mv * dst * src <= 8192 /\
    (mv = 0 -> r = 0) /\ (dst * src = 16384 -> r = mv) /\
    (forall mv' r', is_i16 mv' -> mv' <= mv -> Z.abs mv' * dst * src <= 16384 * 32767 ->
       scale_mv_skip mv' dst src = Done r' -> r' <= r) /\
    (forall r', scale_mv_skip (- mv) dst src = Done r' -> is_i16 (- mv) -> 0 <= r + r' <= 1).
Proof.
  intros mv dst src Hm Hd Hs Hc. eexists. split; [apply skip_ok; lia || assumption|].
  assert (A: Z.abs (mv * dst * src) = Z.abs mv * dst * src) by (rewrite !Z.abs_mul; rewrite (Z.abs_eq dst), (Z.abs_eq src) by lia; reflexivity).
  split; [|split; [|split; [|split; [|split]]]].
  - unfold is_i16. clear - A Hc. set (p := mv * dst * src) in *. clearbody p. Z.div_mod_to_equations. lia.
  - clear. Z.div_mod_to_equations. lia.
  - intros ->. reflexivity.
  - intros E. replace (mv * dst * src) with (mv * 16384) by (rewrite <- E; ring). rewrite Z.div_add_l by lia. cbn. lia.
  - intros mv' r' Hm' L Hc' E. rewrite skip_ok in E by (lia || assumption). apply Done_inj in E. subst r'.
    apply Z.div_le_mono; [lia|]. apply Z.add_le_mono_r, Z.mul_le_mono_nonneg_r; [lia|]. apply Z.mul_le_mono_nonneg_r; lia.
  - intros r' E Hn. rewrite skip_ok in E; try (rewrite ?Z.abs_opp; lia || assumption). apply Done_inj in E. subst r'.
    replace (- mv * dst * src) with (- (mv * dst * src)) by ring. generalize (mv * dst * src). intros p. clear.
    Z.div_mod_to_equations. lia.
Qed.

Lemma biskip_ok : forall mv dst src, is_i16 mv -> 0 <= dst -> 1 <= src ->
  src * (1 + Z.abs mv * dst) <= 16384 * 32767 ->
  scale_mv_biskip mv dst src = Done (Z.sgn mv * ((src * (1 + Z.abs mv * dst) - 1) / 16384)).
Proof.
  intros mv dst src Hm Hd Hs Hb. unfold is_i16 in Hm. unfold scale_mv_biskip.
  rewrite sign3_ok by lia. cbn [bindo]. rewrite c_abs_eq.
  assert (P0: 0 <= Z.abs mv * dst) by nia. assert (P1: 1 + Z.abs mv * dst <= src * (1 + Z.abs mv * dst)) by nia.
  rewrite int32_ok by (unfold in_i32; lia). cbn [bindo].
  rewrite int32_ok by (unfold in_i32; lia). cbn [bindo].
  rewrite int32_ok by (unfold in_i32; lia). cbn [bindo]. rewrite shiftr14.
  assert (B: 0 <= (src * (1 + Z.abs mv * dst) - 1) / 16384 <= 32767).
  { split; [apply Z.div_pos; lia|]. apply Z.div_le_upper_bound; lia. }
  rewrite int32_ok by (unfold in_i32; destruct (Z.sgn_spec mv) as [[? ->]|[[? ->]|[? ->]]]; lia). cbn [bindo].
  rewrite shift_wrap. f_equal. apply to_i16_id. unfold is_i16.
  destruct (Z.sgn_spec mv) as [[? ->]|[[? ->]|[? ->]]]; lia.
Qed.

Lemma biskip_all : forall mv dst src, is_i16 mv -> 0 <= dst -> 1 <= src ->
  src * (1 + Z.abs mv * dst) <= 16384 * 32767 ->
  exists r, scale_mv_biskip mv dst src = Done r /\ is_i16 r /\ (mv = 0 -> r = 0) /\
    (is_i16 (- mv) -> scale_mv_biskip (- mv) dst src = Done (- r)) /\
    (forall mv' r', is_i16 mv' -> mv' <= mv -> src * (1 + Z.abs mv' * dst) <= 16384 * 32767 ->
       scale_mv_biskip mv' dst src = Done r' -> r' <= r).
Proof.
  intros mv dst src Hm Hd Hs Hb. eexists. split; [now apply biskip_ok|].
  assert (B: forall m, src * (1 + Z.abs m * dst) <= 16384 * 32767 -> 0 <= (src * (1 + Z.abs m * dst) - 1) / 16384 <= 32767).
  { intros m H. assert (0 <= Z.abs m * dst) by nia. split; [apply Z.div_pos; nia|]. apply Z.div_le_upper_bound; lia. }
  split; [|split; [|split]].
  - specialize (B mv Hb). unfold is_i16. destruct (Z.sgn_spec mv) as [[? ->]|[[? ->]|[? ->]]]; lia.
  - intros ->. reflexivity.
  - intros Hn. rewrite biskip_ok; auto; rewrite ?Z.abs_opp; auto. rewrite Z.sgn_opp. f_equal. lia.
  - intros mv' r' Hm' L Hb' E. rewrite biskip_ok in E by assumption. apply Done_inj in E. subst r'.
    pose proof (B mv Hb). pose proof (B mv' Hb').
    destruct (Z.sgn_spec mv) as [[? ->]|[[? ->]|[? ->]]]; destruct (Z.sgn_spec mv') as [[? ->]|[[? ->]|[? ->]]]; try lia.
    + rewrite !Z.mul_1_l. apply Z.div_le_mono; [lia|]. assert (Z.abs mv' * dst <= Z.abs mv * dst) by nia. nia.
    + assert ((src * (1 + Z.abs mv * dst) - 1) / 16384 <= (src * (1 + Z.abs mv' * dst) - 1) / 16384); [|lia].
      apply Z.div_le_mono; [lia|]. assert (Z.abs mv * dst <= Z.abs mv' * dst) by nia. nia.
Qed.

(** *** Median. *)
Lemma avg0_quot : forall u v, Z.quot (u + v) 2 = avg0 u v.
Proof.
  intros. unfold avg0. rewrite <- (Z.quot_div_nonneg (Z.abs (u + v)) 2) by lia.
  destruct (Z.sgn_spec (u + v)) as [[H E]|[[H E]|[H E]]]; rewrite E.
  - rewrite Z.abs_eq by lia. lia.
  - rewrite <- H. reflexivity.
  - rewrite Z.abs_neq by lia. rewrite Z.quot_opp_l by lia. lia.
Qed.
Lemma avg0_between : forall u v, Z.min u v <= avg0 u v <= Z.max u v.
Proof.
  intros. unfold avg0. destruct (Z.sgn_spec (u + v)) as [[H E]|[[H E]|[H E]]]; rewrite E; Z.div_mod_to_equations; lia.
Qed.

Lemma median_mv_ok : forall a b c, is_i16 a -> is_i16 b -> is_i16 c ->
  let r := derive_median_mv a b c in
  (outvoted a b c -> r = avg0 b c) /\ (outvoted b a c -> r = avg0 c a) /\ (outvoted c a b -> r = avg0 a b) /\
  (~ outvoted a b c -> ~ outvoted b a c -> ~ outvoted c a b ->
     (closest a b c -> r = avg0 a b) /\
     (~ closest a b c -> closest b c a -> r = avg0 b c) /\
     (~ closest a b c -> ~ closest b c a -> closest c a b /\ r = avg0 c a)).
Proof.
  intros a b c Ha Hb Hc. cbv zeta. unfold derive_median_mv. rewrite !avg0_quot. cbv zeta. rewrite !c_abs_eq.
  unfold c_min.
  set (d1 := Z.abs (a - b)). set (d2 := Z.abs (b - c)). set (d3 := Z.abs (c - a)).
  replace (if d1 <? (if d2 <? d3 then d2 else d3) then d1 else if d2 <? d3 then d2 else d3) with (Z.min d1 (Z.min d2 d3))
    by (destruct (d2 <? d3) eqn:E1; [destruct (d1 <? d2) eqn:E2|destruct (d1 <? d3) eqn:E2]; lia).
  set (o1 := (a <? 0) && (0 <? b) && (0 <? c) || (0 <? a) && (b <? 0) && (c <? 0)).
  set (o2 := (b <? 0) && (0 <? a) && (0 <? c) || (0 <? b) && (a <? 0) && (c <? 0)).
  set (o3 := (c <? 0) && (0 <? a) && (0 <? b) || (0 <? c) && (a <? 0) && (b <? 0)).
  assert (O1: o1 = true <-> outvoted a b c) by (unfold o1, outvoted, opposite; clear; lia).
  assert (O2: o2 = true <-> outvoted b a c) by (unfold o2, outvoted, opposite; clear; lia).
  assert (O3: o3 = true <-> outvoted c a b) by (unfold o3, outvoted, opposite; clear; lia).
  assert (X12: outvoted a b c -> ~ outvoted b a c) by (unfold outvoted, opposite; clear; lia).
  assert (X13: outvoted a b c -> ~ outvoted c a b) by (unfold outvoted, opposite; clear; lia).
  assert (X23: outvoted b a c -> ~ outvoted c a b) by (unfold outvoted, opposite; clear; lia).
  assert (I: forall u v, is_i16 u -> is_i16 v -> to_i16 (avg0 u v) = avg0 u v).
  { intros u v Hu Hv. apply to_i16_id. pose proof (avg0_between u v). unfold is_i16 in *. lia. }
  clearbody o1 o2 o3. destruct o1; [rewrite I by assumption; intuition congruence|].
  destruct o2; [rewrite I by assumption; intuition congruence|].
  destruct o3; [rewrite I by assumption; intuition congruence|].
  split; [intros H; apply O1 in H; discriminate|]. split; [intros H; apply O2 in H; discriminate|].
  split; [intros H; apply O3 in H; discriminate|]. intros _ _ _.
  unfold closest. fold d1 d2 d3. clear O1 O2 O3 X12 X13 X23.
  replace (Z.abs (c - a)) with d3 by reflexivity. 
  split; [|split].
  - intros [A B]. replace (Z.min d1 (Z.min d2 d3) =? d1) with true by lia. now apply I.
  - intros N [A B]. replace (Z.min d1 (Z.min d2 d3) =? d1) with false by lia.
    replace (Z.min d1 (Z.min d2 d3) =? d2) with true by lia. now apply I.
  - intros N1 N2. replace (Z.min d1 (Z.min d2 d3) =? d1) with false by lia.
    replace (Z.min d1 (Z.min d2 d3) =? d2) with false by lia. split; [lia|now apply I].
Qed.

Lemma median_between : forall a b c, is_i16 a -> is_i16 b -> is_i16 c ->
  Z.min a (Z.min b c) <= derive_median_mv a b c <= Z.max a (Z.max b c) /\
  (a = b -> b = c -> derive_median_mv a b c = a).
Proof.
  intros a b c Ha Hb Hc.
  assert (K: Z.min a (Z.min b c) <= derive_median_mv a b c <= Z.max a (Z.max b c)).
  { unfold derive_median_mv. rewrite !avg0_quot. cbv zeta.
    pose proof (avg0_between a b). pose proof (avg0_between b c). pose proof (avg0_between c a).
    unfold is_i16 in *.
    repeat match goal with |- context [if ?x then _ else _] => destruct x end; rewrite to_i16_id by (unfold is_i16; lia); lia. }
  split; [exact K|]. intros -> ->. lia.
Qed.

(** *** PMVR. *)
Lemma pmvr_ctr_eq : forall p, pmvr_ctr p = - (p mod 2).
Proof. intros. unfold pmvr_ctr. rewrite Z.shiftr_div_pow2 by lia. change (2 ^ 1) with 2. Z.div_mod_to_equations. lia. Qed.

Lemma pmvr_off : forall d p, is_i16 (fst d) -> is_i16 (snd d) -> is_i16 (fst p) -> is_i16 (snd p) ->
  pmvr false d p = (sat16 (fst d + fst p), sat16 (snd d + snd p)).
Proof.
  intros [dx dy] [px py]. cbn [fst snd]. intros. cbn [pmvr]. rewrite !clip16_eq, !to_i16_id by apply sat16_range. reflexivity.
Qed.


Lemma pmvr_on : forall dx dy px py, is_i16 dx -> is_i16 dy -> is_i16 px -> is_i16 py ->
  exists mx my, pmvr true (dx, dy) (px, py) = (sat16 mx, sat16 my) /\
    ((Z.abs (mx - half_base px) <= 2 /\ Z.abs (my - half_base py) <= 2 /\ mx = px + dx /\ my = py + dy) \/
     (Z.even mx = true /\ Z.even my = true /\
      (2 < Z.abs (px + dx - half_base px) \/ 2 < Z.abs (py + dy - half_base py)))).
Proof.
  intros dx dy px py Hdx Hdy Hpx Hpy. unfold is_i16 in *. unfold pmvr. cbv zeta.
  set (cx := pmvr_ctr px). set (cy := pmvr_ctr py).
  assert (Cx: cx = half_base px - px) by (unfold cx, half_base; rewrite pmvr_ctr_eq; pose proof (Z.div_mod px 2); lia).
  assert (Cy: cy = half_base py - py) by (unfold cy, half_base; rewrite pmvr_ctr_eq; pose proof (Z.div_mod py 2); lia).
  assert (Bx: -1 <= cx <= 0) by (unfold cx; rewrite pmvr_ctr_eq; pose proof (Z.mod_pos_bound px 2); lia).
  assert (By: -1 <= cy <= 0) by (unfold cy; rewrite pmvr_ctr_eq; pose proof (Z.mod_pos_bound py 2); lia).
  rewrite !c_abs_eq. unfold THRESHOLD_PMVR.
  rewrite !sign2_ok by (unfold in_i32; lia).
  assert (Ex: exists kx, half_base px = 2 * kx) by (exists (px / 2); reflexivity).
  assert (Ey: exists ky, half_base py = 2 * ky) by (exists (py / 2); reflexivity).
  destruct Ex as [kx Ex]. destruct Ey as [ky Ey].
  assert (EV: forall m k, m = 2 * k -> Z.even m = true) by (intros m k ->; rewrite Z.even_mul; reflexivity).
  destruct (2 <? Z.abs (dx - cx)) eqn:T1; [|destruct (2 <? Z.abs (dy - cy)) eqn:T2].
  - exists (px + 2 * dx - cx - (if dx - cx <? 0 then -1 else 1) * 2), (py + 2 * dy + cy).
    split; [rewrite !clip16_eq, !to_i16_id by apply sat16_range; reflexivity|]. right.
    split; [|split].
    + apply (EV _ (px + dx - kx - (if dx - cx <? 0 then -1 else 1))). lia.
    + apply (EV _ (ky + dy)). lia.
    + lia.
  - exists (px + 2 * dx + cx), (py + 2 * dy - cy - (if dy - cy <? 0 then -1 else 1) * 2).
    split; [rewrite !clip16_eq, !to_i16_id by apply sat16_range; reflexivity|]. right.
    split; [|split].
    + apply (EV _ (kx + dx)). lia.
    + apply (EV _ (py + dy - ky - (if dy - cy <? 0 then -1 else 1))). lia.
    + lia.
  - exists (dx + px), (dy + py).
    split; [rewrite !clip16_eq, !to_i16_id by apply sat16_range; reflexivity|]. left. lia.
Qed.
