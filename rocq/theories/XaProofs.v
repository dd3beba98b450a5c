(** Lemmas about the addition of the residual. *)
From Coq Require Import ZArith List Bool Lia.
From Verif Require Import CBase MemModel MemProofs UtilModel UtilProofs VxModelBase VxProofs VdModel ViModel ViProofs VjModel VtModel VtProofs VqProofsB XaModel.
Import ListNotations.
Open Scope Z_scope.

Section Add.
  Variables (s st : Z) (r : mem) (p rs w h : Z).
  Hypothesis Hw : 0 < w <= st.
  Hypothesis Hr : forall x y, 0 <= x < w -> 0 <= y < h -> -32768 <= r (p + y * rs + x) <= 32512.
  Definition Y (a : Z) : Z := (a - s) / st.
  Definition X (a : Z) : Z := (a - s) mod st.
  Definition F (a v : Z) : Z := sat_u8 (v + r (p + Y a * rs + X a)).
  Definition area (y k c n a : Z) : bool := (y <=? Y a) && (Y a <? y + k) && (c <=? X a) && (X a <? c + n).
  Definition put (y k c n : Z) (m : mem) : mem := fun a => if area y k c n a then F a (m a) else m a.
  Definition bytes (m : mem) := forall a, 0 <= m a <= 255.

  Lemma split_a a : a = s + Y a * st + X a /\ 0 <= X a < st.
  Proof using Hw. clear Hr. unfold X, Y. pose proof (Z.div_mod (a - s) st). pose proof (Z.mod_pos_bound (a - s) st). lia. Qed.
  Lemma at_yx y x : 0 <= x < st -> Y (s + y * st + x) = y /\ X (s + y * st + x) = x.
  Proof using Hw. clear Hr. intros Hx. unfold X, Y. replace (s + y * st + x - s) with (x + y * st) by lia. rewrite Z.div_add, Z.mod_add by lia. rewrite Z.div_small, Z.mod_small by lia. lia. Qed.
  Lemma put_bytes y k c n m : bytes m -> bytes (put y k c n m).
  Proof using Type. intros H a. unfold put, F, sat_u8. destruct (area _ _ _ _ _); [lia|apply H]. Qed.
  Lemma put_ext y k c n m m' : (forall a, m a = m' a) -> forall a, put y k c n m a = put y k c n m' a.
  Proof using Type. intros H a. unfold put. now rewrite H. Qed.
  Lemma put_two y k c n m a : 0 <= k -> 0 <= n -> forall k', 0 <= k' -> put (y + k) k' c n (put y k c n m) a = put y (k + k') c n m a.
  Proof using Type.
    intros Hk Hn k' Hk'. unfold put, area.
    destruct (Z.leb_spec (y + k) (Y a)), (Z.ltb_spec (Y a) (y + k + k')), (Z.leb_spec y (Y a)), (Z.ltb_spec (Y a) (y + k)), (Z.ltb_spec (Y a) (y + (k + k'))), (c <=? X a), (X a <? c + n); cbn [andb]; try reflexivity; lia.
  Qed.
  Lemma put_wide y k c n n' m a : 0 <= n -> 0 <= n' -> put y k (c + n) n' (put y k c n m) a = put y k c (n + n') m a.
  Proof using Type.
    intros Hn Hn'. unfold put, area.
    destruct (Z.leb_spec (c + n) (X a)), (Z.ltb_spec (X a) (c + n + n')), (Z.leb_spec c (X a)), (Z.ltb_spec (X a) (c + n)), (Z.ltb_spec (X a) (c + (n + n'))), (y <=? Y a), (Y a <? y + k); cbn [andb]; try reflexivity; lia.
  Qed.

  (** A store of values that were computed from the memory [m0], which the stores before left alone here. *)
  Lemma store_put n c y (m m0 : mem) (V : reg) : 0 <= c -> 0 <= n -> c + n <= w ->
    (forall k, 0 <= k < n -> V k = F (s + y * st + c + k) (m0 (s + y * st + c + k))) ->
    (forall k, 0 <= k < n -> m (s + y * st + c + k) = m0 (s + y * st + c + k)) ->
    forall a, store_n n m (s + y * st + c) V a = put y 1 c n m a.
  Proof using Hw. clear Hr.
    intros Hc Hn Hcn HV Hm a. unfold store_n, put, area. destruct (split_a a) as [E B].
    destruct (Z.leb_spec y (Y a)); [destruct (Z.ltb_spec (Y a) (y + 1))|]; cbn [andb].
    - assert (Ey : Y a = y) by lia. rewrite Ey in E.
      destruct (Z.leb_spec c (X a)); [destruct (Z.ltb_spec (X a) (c + n))|]; cbn [andb].
      + replace (_ <=? a) with true by (symmetry; apply Z.leb_le; lia). replace (a <? _) with true by (symmetry; apply Z.ltb_lt; lia). cbn [andb].
        assert (Ea : a = s + y * st + c + (a - (s + y * st + c))) by lia. rewrite HV by lia. rewrite <- Hm by lia. rewrite <- Ea. reflexivity.
      + replace (a <? _) with false by (symmetry; apply Z.ltb_ge; lia). now rewrite andb_false_r.
      + replace (_ <=? a) with false by (symmetry; apply Z.leb_gt; lia). reflexivity.
    - replace (a <? s + y * st + c + n) with false; [now rewrite andb_false_r|]. symmetry. apply Z.ltb_ge. assert (y * st + st <= Y a * st) by nia. lia.
    - replace (_ <=? a) with false; [reflexivity|]. symmetry. apply Z.leb_gt. assert (Y a * st + st <= y * st) by nia. lia.
  Qed.
  Lemma put_other y k c n m y' x : 0 <= x < st -> y' < y \/ y + k <= y' \/ x < c \/ c + n <= x -> put y k c n m (s + y' * st + x) = m (s + y' * st + x).
  Proof using Hw. clear Hr.
    intros Hx H. unfold put, area. destruct (at_yx y' x Hx) as [-> ->].
    destruct (Z.leb_spec y y'), (Z.ltb_spec y' (y + k)), (Z.leb_spec c x), (Z.ltb_spec x (c + n)); cbn [andb]; try reflexivity; lia.
  Qed.

  (** A lane of the sum. *)
  Lemma psum_at m y c k : bytes m -> 0 <= y < h -> 0 <= c + k < w ->
    sat_u8 (i16_of (psum s st r p rs m y c) k) = F (s + y * st + c + k) (m (s + y * st + c + k)).
  Proof using Hw Hr.
    intros Hm Hy Hk. unfold psum, F. replace (s + y * st + c + k) with (s + y * st + (c + k)) by lia. destruct (at_yx y (c + k)) as [-> ->]; [lia|].
    rewrite i16_add, i16_cvtu8 by (unfold byte; unfold load; apply Hm). pose proof (Hr (c + k) y Hk Hy) as HR. rewrite i16_loadw by (replace (p + y * rs + c + k) with (p + y * rs + (c + k)) by lia; lia).
    unfold load. replace (p + y * rs + c + k) with (p + y * rs + (c + k)) by lia. replace (s + y * st + c + k) with (s + y * st + (c + k)) by lia.
    pose proof (Hm (s + y * st + (c + k))). rewrite to_i16_id by lia. reflexivity.
  Qed.
  Notation ps := (psum s st r p rs).
  Lemma pack16_at m y c k : bytes m -> 0 <= y < h -> 0 <= c -> c + 16 <= w -> 0 <= k < 16 ->
    packus_epi16 (ps m y c) (ps m y (c + 8)) k = F (s + y * st + c + k) (m (s + y * st + c + k)).
  Proof using Hw Hr.
    intros Hm Hy Hc Hcw Hk. destruct (Z_lt_dec k 8).
    - rewrite packus_lo by lia. apply psum_at; auto; lia.
    - replace k with (8 + (k - 8)) at 1 by lia. rewrite packus_hi by lia. rewrite psum_at by (auto; lia). f_equal; [lia|f_equal; lia].
  Qed.
  Lemma pack32_at m y c k : bytes m -> 0 <= y < h -> 0 <= c -> c + 32 <= w -> 0 <= k < 32 ->
    permute4x64 (packus_epi16 (ps m y c) (ps m y (c + 16))) 216 k = F (s + y * st + c + k) (m (s + y * st + c + k)).
  Proof using Hw Hr.
    intros Hm Hy Hc Hcw Hk. rewrite pack_two by lia. destruct (Z.ltb_spec k 16).
    - apply psum_at; auto; lia.
    - rewrite psum_at by (auto; lia). f_equal; [lia|f_equal; lia].
  Qed.

  (** One turn of each function. *)
  Definition turn_ok (k : Z) (f : Z -> mem -> mem) := forall y m, bytes m -> 0 <= y -> y + k <= h -> forall a, f y m a = put y k 0 w m a.
  Lemma base y : s + y * st = s + y * st + 0. Proof. lia. Qed.
  Ltac row := rewrite base.

  Lemma join2 y n m m1 m2 : (forall a, m1 a = put y 1 0 n m a) -> (forall a, m2 a = put (y + 1) 1 0 n m1 a) -> 0 <= n -> forall a, m2 a = put y 2 0 n m a.
  Proof using Type. intros H1 H2 Hn a. rewrite H2, (put_ext _ _ _ _ _ _ H1), put_two by lia. reflexivity. Qed.
  Lemma join4 y n m m1 m2 m3 m4 : (forall a, m1 a = put y 1 0 n m a) -> (forall a, m2 a = put (y + 1) 1 0 n m1 a) -> (forall a, m3 a = put (y + 2) 1 0 n m2 a) ->
    (forall a, m4 a = put (y + 3) 1 0 n m3 a) -> 0 <= n -> forall a, m4 a = put y 4 0 n m a.
  Proof using Type.
    intros H1 H2 H3 H4 Hn a. pose proof (join2 y n m m1 m2 H1 H2 Hn) as A. pose proof (join2 (y + 2) n m2 m3 m4 H3) as B.
    replace (y + 2 + 1) with (y + 3) in B by lia. specialize (B H4 Hn a). rewrite B, (put_ext _ _ _ _ _ _ A), put_two by lia. reflexivity.
  Qed.

  (** The stores of one line each, the values all computed from [m0]. *)
  Lemma line_put n y (m m0 : mem) V : n = w -> (forall k, 0 <= k < n -> V k = F (s + y * st + k) (m0 (s + y * st + k))) ->
    (forall k, 0 <= k < n -> m (s + y * st + k) = m0 (s + y * st + k)) -> forall a, store_n n m (s + y * st) V a = put y 1 0 w m a.
  Proof using Hw. clear Hr.
    intros -> HV Hm a. rewrite base. apply (store_put w 0 y m m0 V); [lia|lia|lia| |]; intros k Hk; rewrite Z.add_0_r; auto.
  Qed.
  Lemma put_keep y k c n m m1 y' : (forall a, m1 a = put y k c n m a) -> y' < y \/ y + k <= y' -> forall x, 0 <= x < w -> m1 (s + y' * st + x) = m (s + y' * st + x).
  Proof using Hw. clear Hr. intros H Hy x Hx. rewrite H. apply put_other; lia. Qed.

  Lemma four_lines y (m : mem) V0 V1 V2 V3 :
    (forall k, 0 <= k < w -> V0 k = F (s + y * st + k) (m (s + y * st + k))) ->
    (forall k, 0 <= k < w -> V1 k = F (s + (y + 1) * st + k) (m (s + (y + 1) * st + k))) ->
    (forall k, 0 <= k < w -> V2 k = F (s + (y + 2) * st + k) (m (s + (y + 2) * st + k))) ->
    (forall k, 0 <= k < w -> V3 k = F (s + (y + 3) * st + k) (m (s + (y + 3) * st + k))) ->
    forall a, store_n w (store_n w (store_n w (store_n w m (s + y * st) V0) (s + (y + 1) * st) V1) (s + (y + 2) * st) V2) (s + (y + 3) * st) V3 a = put y 4 0 w m a.
  Proof using Hw. clear Hr.
    intros H0 H1 H2 H3.
    pose proof (line_put w y m m V0 eq_refl H0 ltac:(reflexivity)) as E0. set (m1 := store_n w m _ V0) in *.
    assert (E1 : forall a, store_n w m1 (s + (y + 1) * st) V1 a = put (y + 1) 1 0 w m1 a).
    { apply (line_put w (y + 1) m1 m V1 eq_refl H1). apply (put_keep _ _ _ _ _ _ (y + 1) E0). lia. }
    set (m2 := store_n w m1 _ V1) in *.
    pose proof (put_keep _ _ _ _ _ _ (y + 2) E0 ltac:(lia)) as K1. pose proof (put_keep _ _ _ _ _ _ (y + 2) E1 ltac:(lia)) as K2.
    assert (E2 : forall a, store_n w m2 (s + (y + 2) * st) V2 a = put (y + 2) 1 0 w m2 a).
    { apply (line_put w (y + 2) m2 m V2 eq_refl H2). intros k Hk. rewrite K2, K1 by lia. reflexivity. }
    set (m3 := store_n w m2 _ V2) in *.
    pose proof (put_keep _ _ _ _ _ _ (y + 3) E0 ltac:(lia)) as L1. pose proof (put_keep _ _ _ _ _ _ (y + 3) E1 ltac:(lia)) as L2. pose proof (put_keep _ _ _ _ _ _ (y + 3) E2 ltac:(lia)) as L3.
    assert (E3 : forall a, store_n w m3 (s + (y + 3) * st) V3 a = put (y + 3) 1 0 w m3 a).
    { apply (line_put w (y + 3) m3 m V3 eq_refl H3). intros k Hk. rewrite L3, L2, L1 by lia. reflexivity. }
    apply (join4 y w m m1 m2 m3 _ E0 E1 E2 E3). lia.
  Qed.
  Lemma two_lines y (m : mem) V0 V1 :
    (forall k, 0 <= k < w -> V0 k = F (s + y * st + k) (m (s + y * st + k))) ->
    (forall k, 0 <= k < w -> V1 k = F (s + (y + 1) * st + k) (m (s + (y + 1) * st + k))) ->
    forall a, store_n w (store_n w m (s + y * st) V0) (s + (y + 1) * st) V1 a = put y 2 0 w m a.
  Proof using Hw. clear Hr.
    intros H0 H1. pose proof (line_put w y m m V0 eq_refl H0 ltac:(reflexivity)) as E0. set (m1 := store_n w m _ V0) in *.
    assert (E1 : forall a, store_n w m1 (s + (y + 1) * st) V1 a = put (y + 1) 1 0 w m1 a).
    { apply (line_put w (y + 1) m1 m V1 eq_refl H1). apply (put_keep _ _ _ _ _ _ (y + 1) E0). lia. }
    apply (join2 y w m m1 _ E0 E1). lia.
  Qed.

  Lemma narrow_ok : w = 4 \/ w = 8 -> turn_ok 4 (add_narrow s st r p rs w).
  Proof using Hw Hr.
    intros W y m Hm Hy Hh. unfold add_narrow. cbv zeta.
    apply four_lines; intros k Hk; rewrite packus_lo by lia; rewrite psum_at by (auto; lia); (f_equal; [lia|f_equal; lia]).
  Qed.
  Lemma sse16_ok : w = 16 -> turn_ok 2 (add_16_sse4 s st r p rs).
  Proof using Hw Hr.
    intros W y m Hm Hy Hh. unfold add_16_sse4, store16. cbv zeta. replace 16 with w by lia.
    apply two_lines; intros k Hk; rewrite (pack16_at m _ 0) by (auto; lia); (f_equal; [lia|f_equal; lia]).
  Qed.
  Lemma avx16_at y m k : bytes m -> 0 <= y -> y + 2 <= h -> w = 16 -> 0 <= k < 16 ->
    let v := permute4x64 (packus_epi16 (ps m y 0) (ps m (y + 1) 0)) 216 in
    v k = F (s + y * st + k) (m (s + y * st + k)) /\ extracti128_1 v k = F (s + (y + 1) * st + k) (m (s + (y + 1) * st + k)).
  Proof using Hw Hr.
    intros Hm Hy Hh W Hk v. unfold v, extracti128_1. rewrite !pack_two by lia. destruct (Z.ltb_spec k 16); [|lia]. destruct (Z.ltb_spec (16 + k) 16); [lia|].
    rewrite !psum_at by (auto; lia). split; (f_equal; [lia|f_equal; lia]).
  Qed.
  Lemma avx16_ok : w = 16 -> turn_ok 4 (add_16_avx2 s st r p rs).
  Proof using Hw Hr.
    intros W y m Hm Hy Hh. unfold add_16_avx2, store16. cbv zeta. rewrite <- W.
    apply four_lines; intros k Hk.
    - apply (avx16_at y m k); auto; lia.
    - apply (avx16_at y m k); auto; lia.
    - replace (y + 3) with (y + 2 + 1) by lia. apply (avx16_at (y + 2) m k); auto; lia.
    - replace (y + 3) with (y + 2 + 1) by lia. apply (avx16_at (y + 2) m k); auto; lia.
  Qed.

  Lemma bytes_ext (m m' : mem) : (forall a, m a = m' a) -> bytes m' -> bytes m.
  Proof using Type. intros H B a. rewrite H. apply B. Qed.
  Lemma part_ok c y m : bytes m -> 0 <= y < h -> 0 <= c -> c + 32 <= w -> forall a, add_32_part s st r p rs c y m a = put y 1 c 32 m a.
  Proof using Hw Hr.
    intros Hm Hy Hc Hcw a. unfold add_32_part, store16. cbv zeta.
    assert (E1 : forall a, store_n 16 m (s + y * st + c) (packus_epi16 (ps m y c) (ps m y (c + 8))) a = put y 1 c 16 m a).
    { apply (store_put 16 c y m m); [lia|lia|lia| |reflexivity]. intros k Hk. apply pack16_at; auto; lia. }
    set (m1 := store_n 16 m _ _) in *.
    assert (E2 : forall a, store_n 16 m1 (s + y * st + (c + 16)) (packus_epi16 (ps m y (c + 16)) (ps m y (c + 24))) a = put y 1 (c + 16) 16 m1 a).
    { apply (store_put 16 (c + 16) y m1 m); [lia|lia|lia| |].
      - intros k Hk. replace (c + 24) with (c + 16 + 8) by lia. apply pack16_at; auto; lia.
      - intros k Hk. rewrite E1. replace (s + y * st + (c + 16) + k) with (s + y * st + (c + 16 + k)) by lia. apply put_other; lia. }
    rewrite E2, (put_ext _ _ _ _ _ _ E1), put_wide by lia. reflexivity.
  Qed.
  Lemma sse32_ok : w = 32 -> turn_ok 2 (add_32_sse4 s st r p rs).
  Proof using Hw Hr.
    intros W y m Hm Hy Hh. unfold add_32_sse4.
    pose proof (part_ok 0 y m Hm ltac:(lia) ltac:(lia) ltac:(lia)) as E0. set (m1 := add_32_part _ _ _ _ _ 0 y m) in *.
    pose proof (part_ok 0 (y + 1) m1 (bytes_ext _ _ E0 (put_bytes _ _ _ _ _ Hm)) ltac:(lia) ltac:(lia) ltac:(lia)) as E1.
    rewrite W. apply (join2 y 32 m m1 _ E0 E1). lia.
  Qed.
  Lemma line64 y m : w = 64 -> bytes m -> 0 <= y < h -> forall a, add_32_part s st r p rs 32 y (add_32_part s st r p rs 0 y m) a = put y 1 0 64 m a.
  Proof using Hw Hr.
    intros W Hm Hy a. pose proof (part_ok 0 y m Hm ltac:(lia) ltac:(lia) ltac:(lia)) as E0. set (m1 := add_32_part _ _ _ _ _ 0 y m) in *.
    rewrite (part_ok 32 y m1 (bytes_ext _ _ E0 (put_bytes _ _ _ _ _ Hm))) by lia. rewrite (put_ext _ _ _ _ _ _ E0). apply (put_wide y 1 0 32 32); lia.
  Qed.
  Lemma sse64_ok : w = 64 -> turn_ok 2 (add_64_sse4 s st r p rs).
  Proof using Hw Hr.
    intros W y m Hm Hy Hh. unfold add_64_sse4. pose proof (line64 y m W Hm ltac:(lia)) as E0. set (m1 := add_32_part _ _ _ _ _ 32 y _) in *.
    pose proof (line64 (y + 1) m1 W (bytes_ext _ _ E0 (put_bytes _ _ _ _ _ Hm)) ltac:(lia)) as E1. rewrite W. apply (join2 y 64 m m1 _ E0 E1). lia.
  Qed.
  Lemma line32_ok y m : w = 32 -> bytes m -> 0 <= y < h -> forall a, add_32_line s st r p rs y m a = put y 1 0 w m a.
  Proof using Hw Hr.
    intros W Hm Hy. unfold add_32_line, store32. cbv zeta. apply (line_put 32 y m m); [lia| |reflexivity].
    intros k Hk. rewrite (pack32_at m y 0) by (auto; lia). f_equal; [lia|f_equal; lia].
  Qed.
  Lemma avx32_ok : w = 32 -> turn_ok 4 (add_32_avx2 s st r p rs).
  Proof using Hw Hr.
    intros W y m Hm Hy Hh. unfold add_32_avx2.
    pose proof (line32_ok y m W Hm ltac:(lia)) as E0. set (m1 := add_32_line _ _ _ _ _ y m) in *. pose proof (bytes_ext _ _ E0 (put_bytes _ _ _ _ _ Hm)) as B1.
    pose proof (line32_ok (y + 1) m1 W B1 ltac:(lia)) as E1. set (m2 := add_32_line _ _ _ _ _ (y + 1) m1) in *. pose proof (bytes_ext _ _ E1 (put_bytes _ _ _ _ _ B1)) as B2.
    pose proof (line32_ok (y + 2) m2 W B2 ltac:(lia)) as E2. set (m3 := add_32_line _ _ _ _ _ (y + 2) m2) in *. pose proof (bytes_ext _ _ E2 (put_bytes _ _ _ _ _ B2)) as B3.
    pose proof (line32_ok (y + 3) m3 W B3 ltac:(lia)) as E3. apply (join4 y w m m1 m2 m3 _ E0 E1 E2 E3). lia.
  Qed.
  Lemma avx_line64 y m : w = 64 -> bytes m -> 0 <= y < h -> forall a, add_64_line s st r p rs y m a = put y 1 0 w m a.
  Proof using Hw Hr.
    intros W Hm Hy a. unfold add_64_line, store32. cbv zeta.
    assert (E1 : forall a, store_n 32 m (s + y * st) (permute4x64 (packus_epi16 (ps m y 0) (ps m y 16)) 216) a = put y 1 0 32 m a).
    { intros b. rewrite base. apply (store_put 32 0 y m m); [lia|lia|lia| |reflexivity]. intros k Hk. apply (pack32_at m y 0); auto; lia. }
    set (m1 := store_n 32 m _ _) in *.
    assert (E2 : forall a, store_n 32 m1 (s + y * st + 32) (permute4x64 (packus_epi16 (ps m y 32) (ps m y 48)) 216) a = put y 1 32 32 m1 a).
    { apply (store_put 32 32 y m1 m); [lia|lia|lia| |].
      - intros k Hk. apply (pack32_at m y 32); auto; lia.
      - intros k Hk. rewrite E1. replace (s + y * st + 32 + k) with (s + y * st + (32 + k)) by lia. apply put_other; lia. }
    rewrite E2, (put_ext _ _ _ _ _ _ E1), W. apply (put_wide y 1 0 32 32); lia.
  Qed.
  Lemma avx64_ok : w = 64 -> turn_ok 2 (add_64_avx2 s st r p rs).
  Proof using Hw Hr.
    intros W y m Hm Hy Hh. unfold add_64_avx2. pose proof (avx_line64 y m W Hm ltac:(lia)) as E0. set (m1 := add_64_line _ _ _ _ _ y m) in *.
    pose proof (avx_line64 (y + 1) m1 W (bytes_ext _ _ E0 (put_bytes _ _ _ _ _ Hm)) ltac:(lia)) as E1. apply (join2 y w m m1 _ E0 E1). lia.
  Qed.

  Lemma turns_ok k f n m : turn_ok k f -> 0 < k -> 0 <= n -> k * n <= h -> bytes m -> forall a, turns k n f m a = put 0 (k * n) 0 w m a.
  Proof using Hw.
    intros T Hk Hn Hh Hm. unfold turns. rewrite <- (Z2Nat.id n) in Hh |- * by lia. rewrite Nat2Z.id. induction (Z.to_nat n) as [|j IH]; intros a.
    - cbn [MemModel.loop]. replace (k * Z.of_nat 0) with 0 by lia. unfold put, area. destruct (Z.leb_spec 0 (Y a)), (Z.ltb_spec (Y a) (0 + 0)); cbn [andb]; try reflexivity; lia.
    - cbn [MemModel.loop]. assert (Hj : k * Z.of_nat j + k <= h) by (clear - Hh; lia). specialize (IH ltac:(clear - Hj Hk; lia)).
      rewrite T; [|exact (bytes_ext _ _ IH (put_bytes _ _ _ _ _ Hm))|clear - Hk; lia|exact Hj].
      rewrite (put_ext _ _ _ _ _ _ IH).
      replace (k * Z.of_nat (S j)) with (k * Z.of_nat j + k) by lia. rewrite <- put_two by (clear - Hk Hw; lia). reflexivity.
  Qed.
End Add.
