(** Proofs about vertical scaling in fields. *)
From Coq Require Import ZArith Bool Lia.
From Verif Require Import CBase HdrModel QpModel UtilModel MvModel MvModelF MvSpec MvSpecF MvProofs.
Open Scope Z_scope.

Lemma distance_index_mod : forall d, distance_index d = d mod 512.
Proof. intros. unfold distance_index. rewrite land511. replace (d + 512) with (d + 1 * 512) by lia. apply Z.mod_add. lia. Qed.

Lemma half_parity : forall d, Z.rem (Z.quot (distance_index d) 2) 2 = (d / 2) mod 2.
Proof.
  intros. rewrite distance_index_mod. pose proof (Z.mod_pos_bound d 512 ltac:(lia)).
  rewrite Z.quot_div_nonneg by lia. rewrite Z.rem_mod_nonneg by (try apply Z.div_pos; lia).
  Z.div_mod_to_equations. lia.
Qed.

Lemma odd_ne : forall a n, negb (((a - 2 * n) / 2) mod 2 =? (a / 2) mod 2) = Z.odd n.
Proof.
  intros. replace (a - 2 * n) with (a + (- n) * 2) by lia. rewrite Z.div_add by lia. rewrite Zmod_odd.
  rewrite Zmod_odd. rewrite Z.odd_add, Z.odd_opp. destruct (Z.odd (a / 2)), (Z.odd n); reflexivity.
Qed.

Lemma rem_even : forall d, Z.even d = true -> Z.rem (distance_index d) 2 = 0.
Proof.
  intros d E. rewrite distance_index_mod. pose proof (Z.mod_pos_bound d 512 ltac:(lia)).
  rewrite Z.rem_mod_nonneg by lia. apply Z.even_spec in E. destruct E as [k ->]. Z.div_mod_to_equations. lia.
Qed.
Lemma rem_odd : forall d, Z.odd d = true -> Z.rem (distance_index d) 2 = 1.
Proof.
  intros d E. rewrite distance_index_mod. pose proof (Z.mod_pos_bound d 512 ltac:(lia)).
  rewrite Z.rem_mod_nonneg by lia. apply Z.odd_spec in E. destruct E as [k ->]. Z.div_mod_to_equations. lia.
Qed.
Lemma rem_nonneg : forall d, 0 <= Z.rem (distance_index d) 2.
Proof.
  intros d. rewrite distance_index_mod. pose proof (Z.mod_pos_bound d 512 ltac:(lia)).
  rewrite Z.rem_mod_nonneg by lia. apply Z.mod_pos_bound. lia.
Qed.

Definition shift_of (top : bool) (n : Z) : Z := displacement top (parity_at top n) 0.

Lemma getDeltas_ok : forall F m n, (f_asserts F = true -> f_frame F = true /\ Z.even (f_poc F) = true) ->
  getDeltas F (f_poc F) (f_poc F - 2 * m) (f_poc F) (f_poc F - 2 * n) = Done (shift_of (f_top F) m, shift_of (f_top F) n).
Proof.
  intros F m n HA. unfold getDeltas.
  destruct (f_asserts F).
  - destruct (HA eq_refl) as [-> E]. cbn [andb negb].
    assert (E2: forall k, Z.even (f_poc F - 2 * k) = true) by (intros k; rewrite Z.even_sub, E, Z.even_mul; reflexivity).
    rewrite !rem_even by auto. cbn [Z.add Z.eqb negb]. rewrite !half_parity.
    rewrite !odd_ne, !Z.eqb_refl. cbn [negb].
    unfold shift_of, displacement, parity_at, field_offset. destruct (f_top F), (Z.odd m), (Z.odd n); reflexivity.
  - cbn [andb]. rewrite !half_parity.
    rewrite !odd_ne, !Z.eqb_refl. cbn [negb].
    unfold shift_of, displacement, parity_at, field_offset. destruct (f_top F), (Z.odd m), (Z.odd n); reflexivity.
Qed.

Lemma field_scale : forall sc F mvy m n mul v,
  (f_asserts F = true -> f_frame F = true /\ Z.even (f_poc F) = true) ->
  sc (displacement (f_top F) (parity_at (f_top F) m) mvy) (2 * n) mul = Done v ->
  is_i16 (v - shift_of (f_top F) n) ->
  exists r, scale_y sc (Some F) mvy (2 * n) (2 * m) mul = Done r /\
    is_i16 r /\ displacement (f_top F) (parity_at (f_top F) n) r = v.
Proof.
  intros sc F mvy m n mul v HA HS HR. exists (v - shift_of (f_top F) n). unfold scale_y.
  rewrite getDeltas_ok by assumption. cbn [bindo].
  replace (mvy + shift_of (f_top F) m) with (displacement (f_top F) (parity_at (f_top F) m) mvy)
    by (unfold shift_of, displacement; lia).
  rewrite HS. cbn [bindo]. rewrite to_i16_id by assumption.
  repeat split; try apply HR. unfold shift_of, displacement. lia.
Qed.

Lemma getDeltas_odd : forall F a b c, f_asserts F = true -> Z.odd (f_poc F) = true ->
  getDeltas F (f_poc F) a b c = Fail.
Proof.
  intros F a b c HA HO. unfold getDeltas. rewrite HA. cbn [andb]. destruct (f_frame F); [|reflexivity]. cbn [negb].
  rewrite rem_odd by assumption. pose proof (rem_nonneg a). pose proof (rem_nonneg b). pose proof (rem_nonneg c).
  destruct (_ =? 0) eqn:E; [|reflexivity]. apply Z.eqb_eq in E. lia.
Qed.

Lemma field_all : forall F mvy m n, 1 <= m <= 255 -> 1 <= n <= 255 ->
  (f_asserts F = true -> f_frame F = true /\ Z.even (f_poc F) = true) ->
  let top := f_top F in
  let dst := dist_ref n in let src := dist_ref m in let mul := dist_scale src in
  let d := displacement top (parity_at top m) mvy in
  is_i16 d ->
  (forall v, Z.abs d * dst * mul + 8192 <= 2147483647 -> v = sat16 (round14 (d * dst * mul)) ->
     -32766 <= v <= 32765 ->
     exists r, scale_mv_default_y (Some F) mvy dst src mul = Done r /\ is_i16 r /\ displacement top (parity_at top n) r = v) /\
  (forall v, Z.abs d * dst * mul <= 16384 * 32765 -> v = (d * dst * mul + 8192) / 16384 ->
     exists r, scale_mv_skip_y (Some F) mvy dst src mul = Done r /\ is_i16 r /\ displacement top (parity_at top n) r = v) /\
  (forall v, mul * (1 + Z.abs d * dst) <= 16384 * 32765 -> v = Z.sgn d * ((mul * (1 + Z.abs d * dst) - 1) / 16384) ->
     exists r, scale_mv_biskip_y (Some F) mvy dst src mul = Done r /\ is_i16 r /\ displacement top (parity_at top n) r = v).
Proof.
  intros F mvy m n Hm Hn HA top dst src mul d Hd.
  assert (E1: dst = 2 * n) by (apply dist_ref_exact; lia). assert (E2: src = 2 * m) by (apply dist_ref_exact; lia).
  assert (PM: 1 <= mul) by (apply dist_scale_bounds; lia).
  assert (SH: -2 <= shift_of top n <= 2).
  { unfold shift_of, displacement, parity_at, field_offset. destruct top, (Z.odd n); cbn; lia. }
  assert (W: forall v, -32766 <= v <= 32765 -> is_i16 (v - shift_of top n)) by (intros v; unfold is_i16; lia).
  clearbody dst src mul. subst dst src. subst d top.
  split; [|split].
  - intros v B -> R. apply field_scale; [assumption| |now apply W]. apply default_ok; auto; lia.
  - intros v B ->. apply field_scale; [assumption| |].
    + apply skip_ok; auto; lia.
    + apply W. assert (A: Z.abs (displacement (f_top F) (parity_at (f_top F) m) mvy * (2 * n) * mul) <= 16384 * 32765)
        by (rewrite !Z.abs_mul, (Z.abs_eq mul) by lia; rewrite (Z.abs_eq 2), (Z.abs_eq n) by lia; exact B).
      revert A. generalize (displacement (f_top F) (parity_at (f_top F) m) mvy * (2 * n) * mul). clear. intros p A.
      Z.div_mod_to_equations. lia.
  - intros v B ->. apply field_scale; [assumption| |].
    + apply biskip_ok; auto; lia.
    + apply W. assert (P0: 0 <= Z.abs (displacement (f_top F) (parity_at (f_top F) m) mvy) * (2 * n)) by nia.
      assert (Q: 0 <= (mul * (1 + Z.abs (displacement (f_top F) (parity_at (f_top F) m) mvy) * (2 * n)) - 1) / 16384 <= 32765).
      { split; [apply Z.div_pos; nia|]. apply Z.div_le_upper_bound; lia. }
      destruct (Z.sgn_spec (displacement (f_top F) (parity_at (f_top F) m) mvy)) as [[? ->]|[[? ->]|[? ->]]]; lia.
Qed.

Lemma field_abort : forall F mvy dst src mul, f_asserts F = true -> Z.odd (f_poc F) = true ->
  scale_mv_default_y (Some F) mvy dst src mul = Fail /\ scale_mv_skip_y (Some F) mvy dst src mul = Fail /\
  scale_mv_biskip_y (Some F) mvy dst src mul = Fail.
Proof.
  intros F mvy dst src mul HA HO. unfold scale_mv_default_y, scale_mv_skip_y, scale_mv_biskip_y, scale_y.
  rewrite !getDeltas_odd by assumption. repeat split.
Qed.
Lemma frame_y : forall mvy dst src mul,
  scale_mv_default_y None mvy dst src mul = scale_mv_default mvy dst mul /\
  scale_mv_skip_y None mvy dst src mul = scale_mv_skip mvy dst mul /\
  scale_mv_biskip_y None mvy dst src mul = scale_mv_biskip mvy dst mul.
Proof. repeat split. Qed.
