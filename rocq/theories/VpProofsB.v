(** The symbolic evaluation of the vector intra predictors is sound. *)
From Coq Require Import ZArith List Bool Lia Btauto.
From Verif Require Import MemModel IprSpec VpModel VpProofs VpProofsA.
Import ListNotations.
Open Scope Z_scope.

Section Sound.
Variables lo hi lo' hi' w h v d st : Z.
Variable e : Z -> Z.
Variable j : positive -> Z -> Z.
Variable old : mem.
Hypothesis Hlo : lo <= lo'.
Hypothesis Hhi : hi' <= hi.
Hypothesis He : forall k, lo <= k <= hi -> 0 <= e k <= 255.
Hypothesis Hr : repeats e w h (reach w h) (reach h w).
Hypothesis Hw : w <= 64.
Hypothesis Hst : w <= st.

Fixpoint den (t : list (Z * Z)) : Z := match t with [] => 0 | (k, a) :: r => a * e k + den r end.
Lemma den_app a b : den (a ++ b) = den a + den b.
Proof. induction a as [|[k x] a IH]; simpl; [reflexivity|]. rewrite IH. clear. lia. Qed.
Lemma den_merge n : forall a b, den (merge n a b) = den a + den b.
Proof.
  induction n; intros a b; simpl; [apply den_app|].
  destruct a as [|[k x] a]; [reflexivity|]. destruct b as [|[l y] b]; [simpl; clear; lia|].
  destruct (Z.compare_spec k l) as [->|?|?]; simpl; rewrite IHn; simpl; clear; lia.
Qed.
Lemma den_plus a b : den (plus a b) = den a + den b.
Proof. apply den_merge. Qed.
Lemma den_times c a : den (times c a) = c * den a.
Proof. induction a as [|[k x] a IH]; simpl; [clear; lia|]. unfold times in *. rewrite IH. clear. lia. Qed.
Lemma same_den a : forall b, same a b = true -> den a = den b.
Proof.
  induction a as [|[k x] a IH]; intros [|[l y] b] Hs; try discriminate; [reflexivity|]. simpl in Hs.
  apply andb_prop in Hs. destruct Hs as [Hs H3]. apply andb_prop in Hs. destruct Hs as [H1 H2].
  apply Z.eqb_eq in H1. apply Z.eqb_eq in H2. subst. simpl. rewrite (IH _ H3). reflexivity.
Qed.
Definition dn (a : sw) (z : Z) : Prop := let 'SW t c s m := a in 0 <= s /\ z = (den t + c) / 2 ^ s /\ 0 <= z <= m.
Lemma dn0 t c m z : dn (SW t c 0 m) z <-> z = den t + c /\ 0 <= z <= m.
Proof. unfold dn. rewrite Z.pow_0_r, Z.div_1_r. split; intros; lia. Qed.
Lemma dn_cst z : 0 <= z -> dn (cst z) z.
Proof. intro. apply dn0. simpl. clear - H. lia. Qed.
Lemma dn_top a z : dn a z -> 0 <= z <= top a.
Proof. destruct a. simpl. tauto. Qed.
Lemma same_dn a b z z' : same_sw a b = true -> dn a z -> dn b z' -> z = z'.
Proof.
  destruct a as [t c s m], b as [t' c' s' m']. simpl. intros Hs (_ & -> & _) (_ & -> & _).
  apply andb_prop in Hs. destruct Hs as [Hs H3]. apply andb_prop in Hs. destruct Hs as [H1 H2].
  apply Z.eqb_eq in H1. apply Z.eqb_eq in H2. subst. rewrite (same_den _ _ H3). reflexivity.
Qed.
Definition rw (z : Z) (o : option sw) : Prop := match o with None => True | Some a => dn a z end.
Definition rb (z : Z) (b : sb) : Prop :=
  match b with
  | SU => True
  | SB a => dn a z
  | SLo a => exists u, dn a u /\ z = u mod 256
  | SHi a => exists u, dn a u /\ z = u / 256
  end.
Definition ri (z : Z) (p : Z * Z) : Prop := z = fst p * st + snd p.
Definition rdp (z : Z) (p : Z * Z) : Prop := z = d + fst p * st + snd p.
Definition key (x y : Z) : positive := Z.to_pos (y * 64 + x + 1).
Definition rm (m : mem) (n : tree sb) : Prop :=
  (forall x y, 0 <= x < w -> 0 <= y < v -> match get n (key x y) with Some b => rb (m (d + y * st + x)) b | None => True end) /\
  (forall q, (forall x y, 0 <= x < w -> 0 <= y < v -> q <> d + y * st + x) -> m q = old q).

Lemma rw_add max z z' a b : rw z a -> rw z' b -> max <= 65535 -> rw ((z + z') mod 65536) (s_add max a b).
Proof.
  destruct a as [[t c [| |] m]|]; try exact (fun _ _ _ => Logic.I). destruct b as [[t' c' [| |] m']|]; try exact (fun _ _ _ => Logic.I).
  intros Ha Hb Hm. apply dn0 in Ha. apply dn0 in Hb. simpl s_add. destruct (Z.leb_spec (m + m') max); [|exact Logic.I].
  apply dn0. rewrite den_plus. rewrite Z.mod_small by (clear - Ha Hb Hm H; lia). clear - Ha Hb Hm H; lia.
Qed.
Lemma rx_add max z z' a b : rw z a -> rw z' b -> rw (z + z') (s_add max a b).
Proof.
  destruct a as [[t c [| |] m]|]; try exact (fun _ _ => Logic.I). destruct b as [[t' c' [| |] m']|]; try exact (fun _ _ => Logic.I).
  intros Ha Hb. apply dn0 in Ha. apply dn0 in Hb. simpl s_add. destruct (Z.leb_spec (m + m') max); [|exact Logic.I].
  apply dn0. rewrite den_plus. clear - Ha Hb H; lia.
Qed.
Lemma rw_adds z z' a b : rw z a -> rw z' b -> rw (clip (-32768) 32767 (signed16 z + signed16 z') mod 65536) (s_add 32767 a b).
Proof.
  destruct a as [[t c [| |] m]|]; try exact (fun _ _ => Logic.I). destruct b as [[t' c' [| |] m']|]; try exact (fun _ _ => Logic.I).
  intros Ha Hb. apply dn0 in Ha. apply dn0 in Hb. simpl s_add. destruct (Z.leb_spec (m + m') 32767); [|exact Logic.I].
  apply dn0. rewrite den_plus. unfold signed16.
  destruct (Z.ltb_spec z 32768); [|exfalso; clear - Ha Hb H H0; lia]. destruct (Z.ltb_spec z' 32768); [|exfalso; clear - Ha Hb H H1; lia].
  unfold clip. rewrite Z.max_r by (clear - Ha Hb; lia). rewrite Z.min_r by (clear - Ha Hb H; lia).
  rewrite Z.mod_small by (clear - Ha Hb H; lia). clear - Ha Hb H; lia.
Qed.
Lemma rw_scale max k t c m z : dn (SW t c 0 m) z -> 0 <= k -> rw (k * z) (s_scale max k t c m) .
Proof.
  intros Ha Hk. unfold s_scale. destruct (_ && _) eqn:E; [|exact Logic.I]. pose proof (proj1 (dn0 _ _ _ _) Ha) as Hb.
  destruct (Z.eqb_spec k 0) as [->|]; [apply dn_cst; clear; lia|]. destruct (Z.eqb_spec k 1) as [->|].
  - replace (1 * z) with z by (clear; lia). exact Ha.
  - apply dn0. rewrite den_times. clear - Hb Hk. nia.
Qed.
Lemma scale_top max k t c m a : s_scale max k t c m = Some a -> 0 <= m -> 0 <= k -> forall z, dn a z -> z <= Z.max max 0.
Proof.
  unfold s_scale. destruct (_ && _) eqn:E; [|discriminate]. apply andb_prop in E. destruct E as [_ E]. apply Z.leb_le in E.
  intros Hs Hm Hk z Hz. injection Hs as <-. apply dn_top in Hz. destruct (Z.eqb_spec k 0); [simpl in Hz; clear - Hz; lia|].
  destruct (Z.eqb_spec k 1); simpl in Hz; [subst; clear - Hz E; lia|]. clear - Hz E. lia.
Qed.
Lemma rx_mul max z z' a b : rw z a -> rw z' b -> rw (z * z') (s_mul max a b).
Proof.
  destruct a as [[t c s m]|]; [|exact (fun _ _ => Logic.I)].
  destruct b as [[t' c' s' m']|]; [|intros; destruct t as [|[]]; destruct s; exact Logic.I].
  intros Ha Hb. destruct s; try (destruct t as [|[]]; exact Logic.I). destruct s'; try (destruct t as [|[]], t' as [|[]]; exact Logic.I).
  destruct t as [|p t].
  - replace (s_mul max (Some (SW [] c 0 m)) (Some (SW t' c' 0 m'))) with (s_scale max c t' c' m') by (destruct t'; reflexivity). apply dn0 in Ha. simpl den in Ha. destruct Ha as [-> Ha]. rewrite Z.add_0_l in *. apply rw_scale; [exact Hb|clear - Ha; lia].
  - destruct t' as [|p' t']; [|destruct p, p'; exact Logic.I].
    replace (s_mul max (Some (SW (p :: t) c 0 m)) (Some (SW [] c' 0 m'))) with (s_scale max c' (p :: t) c m) by (destruct p; reflexivity).
    apply dn0 in Hb. simpl den in Hb. destruct Hb as [-> Hb]. rewrite Z.add_0_l in *. rewrite Z.mul_comm. apply rw_scale; [exact Ha|clear - Hb; lia].
Qed.
Lemma mul_top z z' a b c : rw z a -> rw z' b -> s_mul 65535 a b = Some c -> forall u, dn c u -> u <= 65535.
Proof.
  destruct a as [[t x s m]|]; [|discriminate].
  destruct b as [[t' x' s' m']|]; [|intros ? ? Hd; destruct t as [|[]]; destruct s; discriminate].
  intros Ha Hb. destruct s; try (destruct t as [|[]]; discriminate). destruct s'; try (destruct t as [|[]], t' as [|[]]; discriminate).
  apply dn0 in Ha. apply dn0 in Hb.
  destruct t as [|p t].
  - replace (s_mul 65535 (Some (SW [] x 0 m)) (Some (SW t' x' 0 m'))) with (s_scale 65535 x t' x' m') by (destruct t'; reflexivity). intros Hc u Hu. simpl den in Ha. refine (scale_top _ _ _ _ _ _ Hc _ _ u Hu); clear - Ha Hb; lia.
  - destruct t' as [|p' t']; [|destruct p, p'; discriminate].
    replace (s_mul 65535 (Some (SW (p :: t) x 0 m)) (Some (SW [] x' 0 m'))) with (s_scale 65535 x' (p :: t) x m) by (destruct p; reflexivity).
    intros Hc u Hu. simpl den in Hb. refine (scale_top _ _ _ _ _ _ Hc _ _ u Hu); clear - Ha Hb; lia.
Qed.
Lemma rw_mul z z' a b : rw z a -> rw z' b -> rw ((z * z') mod 65536) (s_mul 65535 a b).
Proof.
  intros Ha Hb. pose proof (rx_mul 65535 z z' a b Ha Hb) as Hm. destruct (s_mul 65535 a b) as [c|] eqn:E; [|exact Logic.I].
  pose proof (mul_top z z' a b c Ha Hb E _ Hm) as Ht. simpl in Hm. simpl. pose proof (dn_top _ _ Hm) as Hz.
  rewrite Z.mod_small by (clear - Ht Hz; lia). exact Hm.
Qed.
Lemma rw_shr k z a : rw z a -> rw (Z.shiftr z k) (s_shr k a).
Proof.
  destruct a as [[t c s m]|]; [|trivial]. intro Ha. simpl s_shr. destruct (Z.leb_spec 0 k); [|exact Logic.I].
  destruct Ha as (Hs & -> & Hz). simpl. split; [clear - Hs H; lia|]. rewrite !Z.shiftr_div_pow2 by assumption. split.
  - rewrite Z.pow_add_r by assumption. rewrite Z.div_div; [reflexivity| |]; try apply Z.pow_pos_nonneg; try lia.
  - pose proof (Z.pow_pos_nonneg 2 k ltac:(clear; lia) H) as Hp. split.
    + apply Z.div_pos; [clear - Hz; lia|exact Hp].
    + apply Z.div_le_mono; [exact Hp|clear - Hz; lia].
Qed.
Lemma rb_lo z a : rw z a -> rb (z mod 256) (s_lo a).
Proof.
  destruct a as [a|]; [|trivial]. simpl. intro Ha. pose proof (dn_top _ _ Ha) as Ht. destruct (Z.leb_spec (top a) 255).
  - simpl. rewrite Z.mod_small by (clear - Ht H; lia). exact Ha.
  - exists z. auto.
Qed.
Lemma rb_hi z a : rw z a -> rb (z / 256) (s_hi a).
Proof.
  destruct a as [a|]; [|trivial]. simpl. intro Ha. pose proof (dn_top _ _ Ha) as Ht. destruct (Z.leb_spec (top a) 255).
  - simpl rb. rewrite Z.div_small by (clear - Ht H; lia). apply dn_cst. clear. lia.
  - exists z. auto.
Qed.
Lemma rb_byte z a : rw z a -> rb (z mod 256) (s_byte a).
Proof.
  destruct a as [a|]; [|trivial]. simpl. intro Ha. pose proof (dn_top _ _ Ha) as Ht. destruct (Z.leb_spec (top a) 255); [|exact Logic.I].
  simpl. rewrite Z.mod_small by (clear - Ht H; lia). exact Ha.
Qed.
Lemma rb_pack z a : rw z a -> rb (clip 0 255 (signed16 z)) (s_byte a).
Proof.
  destruct a as [a|]; [|trivial]. simpl. intro Ha. pose proof (dn_top _ _ Ha) as Ht. destruct (Z.leb_spec (top a) 255); [|exact Logic.I].
  unfold signed16, clip. destruct (Z.ltb_spec z 32768); [|exfalso; clear - Ht H H0; lia].
  rewrite Z.max_r by (clear - Ht; lia). rewrite Z.min_r by (clear - Ht H; lia). exact Ha.
Qed.
Lemma rw_word z a : rw z a -> rw (z mod 65536) (s_word a).
Proof.
  destruct a as [a|]; [|trivial]. simpl. intro Ha. pose proof (dn_top _ _ Ha) as Ht. destruct (Z.leb_spec (top a) 65535); [|exact Logic.I].
  simpl. rewrite Z.mod_small by (clear - Ht H; lia). exact Ha.
Qed.
Lemma rw_join x y a b : rb x a -> rb y b -> rw (x + 256 * y) (s_join a b).
Proof.
  intros Ha Hb. destruct a as [|a|a|a]; try exact Logic.I; destruct b as [|b|b|b]; try exact Logic.I.
  - destruct b as [[|] c [| |] m]; try exact Logic.I. simpl s_join. apply dn0 in Hb. simpl den in Hb. destruct Hb as [-> Hb]. rewrite Z.add_0_l in *.
    destruct (Z.eqb_spec c 0) as [->|].
    + rewrite Z.mul_0_r, Z.add_0_r. exact Ha.
    + destruct a as [[|] c' [| |] m']; try exact Logic.I. apply dn0 in Ha. simpl den in Ha. destruct Ha as [-> Ha]. rewrite Z.add_0_l in *.
      apply dn_cst. clear - Ha Hb. lia.
  - destruct Ha as (u & Ha & ->). destruct Hb as (u' & Hb & ->). simpl s_join. destruct (same_sw a b) eqn:E; [|exact Logic.I].
    rewrite <- (same_dn a b u u' E Ha Hb).
    replace (u mod 256 + 256 * (u / 256)) with u; [exact Ha|]. rewrite (Z.div_mod u 256) at 1 by discriminate. apply Z.add_comm.
Qed.
Lemma canon_ok k : e (canon w h k) = e k.
Proof.
  unfold canon. destruct Hr as [H1 H2]. destruct (_ && _) eqn:E.
  - apply andb_prop in E. destruct E as [E1 E2]. apply Z.leb_le in E1. apply Z.leb_le in E2. symmetry. apply H1. clear - E1 E2. lia.
  - clear E. destruct (_ && _) eqn:E; [|reflexivity].
    apply andb_prop in E. destruct E as [E1 E2]. apply Z.leb_le in E1. apply Z.leb_le in E2. specialize (H2 (- k)).
    rewrite Z.opp_involutive in H2. symmetry. apply H2. clear - E1 E2. lia.
Qed.
Lemma cell_ok i k : cell w v i = Some k -> 0 <= snd i < w /\ 0 <= fst i < v /\ k = key (snd i) (fst i).
Proof.
  unfold cell. destruct (_ && _) eqn:E; [|discriminate]. intro Hs. injection Hs as <-.
  apply andb_prop in E. destruct E as [E E4]. apply andb_prop in E. destruct E as [E E3]. apply andb_prop in E. destruct E as [E1 E2].
  apply Z.leb_le in E1. apply Z.ltb_lt in E2. apply Z.leb_le in E3. apply Z.ltb_lt in E4. auto.
Qed.
Lemma key_inj x y x' y' : 0 <= x < w -> 0 <= y -> 0 <= x' < w -> 0 <= y' -> key x y = key x' y' -> x = x' /\ y = y'.
Proof. intros Hx Hy Hx' Hy' Hk. unfold key in Hk. apply Z2Pos.inj in Hk; clear - Hx Hy Hx' Hy' Hk Hw; lia. Qed.
Lemma addr_inj x y x' y' : 0 <= x < w -> 0 <= x' < w -> d + y * st + x = d + y' * st + x' -> x = x' /\ y = y'.
Proof. intros Hx Hx' Ha. assert (y = y') by (clear - Hx Hx' Ha Hst; nia). subst. split; [clear - Ha; lia|reflexivity]. Qed.

Lemma machine_related : related (machine lo hi e j) (symbolic lo' hi' w h v) ri rdp rb rw rw rm.
Proof.
  split; simpl.
  - intro z. unfold ri. simpl. reflexivity.
  - intros a [r c] Ha. unfold ri in Ha. simpl in Ha. unfold i_val. simpl. destruct (Z.eqb_spec r 0); [|exact Logic.I]. simpl. subst. clear. lia.
  - intros a [r c] b [r' c'] Ha Hb. unfold ri in *. simpl in *. subst. clear. lia.
  - intros a [r c] b [r' c'] Ha Hb. unfold ri in *. simpl in *. subst. clear. lia.
  - intros a [r c] b [r' c'] Ha Hb. unfold ri, i_mul in *. simpl in *. subst.
    destruct (Z.eqb_spec r 0); [simpl; subst; clear; lia|]. destruct (Z.eqb_spec r' 0); [simpl; subst; clear; lia|exact Logic.I].
  - intros a [r c] b [r' c'] Ha Hb. unfold ri, rdp in *. simpl in *. subst. clear. lia.
  - intro z. unfold s_bz. destruct (Z.leb_spec 0 z); [|exact Logic.I]. destruct (Z.leb_spec z 255); [|exact Logic.I]. apply dn_cst. assumption.
  - intros a b Hb. destruct b as [|b|b|b]; try exact Logic.I. destruct b as [[|] c [| |] m]; try exact Logic.I. apply dn0 in Hb. simpl in *. clear - Hb. lia.
  - intros a b c c' Ha Hb. apply rw_join; assumption.
  - intros. apply rb_lo. assumption.
  - intros. apply rb_hi. assumption.
  - intros. apply rw_add; try assumption. clear. lia.
  - intros. apply rw_mul; assumption.
  - intros. apply rw_adds; assumption.
  - intros. apply rw_shr. assumption.
  - intros. apply rb_pack. assumption.
  - intro z. destruct (Z.leb_spec 0 z); [|exact Logic.I]. apply dn_cst. assumption.
  - intros a b Hb. destruct b; try exact Logic.I. exact Hb.
  - intros. apply rx_add; assumption.
  - intros. apply rx_mul; assumption.
  - intros. apply rw_shr. assumption.
  - intros. apply rb_byte. assumption.
  - intros. apply rw_word. assumption.
  - intros m n a i [Hm _] Ha. destruct (cell w v i) as [k|] eqn:E; [|exact Logic.I]. apply cell_ok in E. destruct E as (E1 & E2 & ->).
    simpl. specialize (Hm _ _ E1 E2). unfold rdp in Ha. rewrite <- Ha in Hm. destruct (get n _); [exact Hm|exact Logic.I].
  - intros m n a i x y [Hm Ho] Ha Hx. destruct (cell w v i) as [k|] eqn:E; [|exact Logic.I]. apply cell_ok in E. destruct E as (E1 & E2 & ->).
    simpl. unfold rdp in Ha. subst a. split.
    + intros x' y' Hx' Hy'. rewrite get_set. destruct (Pos.eqb_spec (key (snd i) (fst i)) (key x' y')) as [Ek|Ek].
      * apply key_inj in Ek; [|exact E1|apply E2|exact Hx'|apply Hy']. destruct Ek as [<- <-]. unfold upd. rewrite Z.eqb_refl. exact Hx.
      * specialize (Hm _ _ Hx' Hy'). destruct (get n (key x' y')); [|exact Logic.I]. unfold upd.
        destruct (Z.eqb_spec (d + y' * st + x') (d + fst i * st + snd i)) as [Eq|]; [|exact Hm].
        exfalso. apply addr_inj in Eq; [|assumption|assumption]. destruct Eq as [-> ->]. apply Ek. reflexivity.
    + intros q Hq. unfold upd. destruct (Z.eqb_spec q (d + fst i * st + snd i)) as [Eq|]; [|apply Ho; exact Hq].
      exfalso. exact (Hq _ _ E1 E2 Eq).
  - intro k. destruct ((lo' <=? k) && (k <=? hi')) eqn:E; [|exact Logic.I]. apply andb_prop in E. destruct E as [E1 E2]. apply Z.leb_le in E1. apply Z.leb_le in E2.
    destruct (Z.leb_spec lo k); [|clear - E1 H Hlo; lia]. destruct (Z.leb_spec k hi); [|clear - E2 H0 Hhi; lia].
    simpl andb. cbv iota. apply ro_some. apply dn0. change (den [(canon w h k, 1)]) with (1 * e (canon w h k) + 0). rewrite canon_ok. specialize (He k (conj H H0)). clear - He. lia.
  - intros. exact Logic.I.
Qed.

(** The rule. *)
Lemma den_smooth p : den (r_smooth w h p) = smooth e p.
Proof. unfold r_smooth, smooth. rewrite !den_plus, den_times. unfold atom. unfold den. rewrite !canon_ok. clear. lia. Qed.
Lemma den_interp p dir f : (den (r_interp w h p dir f) + 64) / 128 = interp e p dir f.
Proof.
  unfold r_interp, interp. destruct (Z.eqb_spec f 0) as [->|].
  - rewrite den_times, den_smooth. rewrite Z.mul_0_l, Z.add_0_r, Z.sub_0_r. reflexivity.
  - rewrite den_plus, !den_times, !den_smooth. reflexivity.
Qed.
Lemma den_q p dir f : dir = 1 \/ dir = -1 -> (den (q_interp w h p dir f) + 64) / 128 = interp e p dir f.
Proof.
  intro Hd. unfold q_interp. destruct (_ && _); [|apply den_interp]. unfold interp, smooth. cbv zeta.
  f_equal. f_equal. destruct (Z.eqb_spec f 0) as [->|].
  - unfold den. clear. lia.
  - destruct Hd as [-> | ->]; [change (1 =? 1) with true|change (-1 =? 1) with false]; cbv iota; unfold den.
    + replace (p + 1 - 1) with p by (clear; lia). replace (p + 1 + 1) with (p + 2) by (clear; lia). clear. lia.
    + replace (p + -1 - 1) with (p - 2) by (clear; lia). replace (p + -1 + 1) with p by (clear; lia). replace (p + -1) with (p - 1) by (clear; lia). clear. lia.
Qed.
Lemma den_direct mode x y : let '(dx, dy) := direction mode in
  (den (r_direct w h mode (y, walk (slope dx dy) (y + 1), frac (slope dx dy) (y + 1)) (x, walk (slope dy dx) (x + 1), frac (slope dy dx) (x + 1))) + 64) / 128
  = direct e mode x y.
Proof.
  unfold direct. destruct (direction mode) as [dx dy]. cbv zeta. unfold r_direct.
  destruct (mode <? 12); [apply den_q; auto|]. destruct (mode <? 24); [|apply den_q; auto]. destruct (y <? _); apply den_q; auto.
Qed.
Lemma same_times_den n a : forall b, same_times n a b = true -> n * den a = den b.
Proof.
  induction a as [|[k x] a IH]; intros [|[l y] b] Hs; try discriminate; [simpl; clear; lia|]. simpl in Hs.
  apply andb_prop in Hs. destruct Hs as [Hs H3]. apply andb_prop in Hs. destruct Hs as [H1 H2].
  apply Z.eqb_eq in H1. apply Z.eqb_eq in H2. subst. simpl. rewrite <- (IH _ H3). clear. lia.
Qed.
Lemma is_128th_ok z b g : rb z b -> is_128th b g = true -> z = (den g + 64) / 128.
Proof.
  destruct b as [|[t c s m]| |]; try discriminate. intros (Hs & -> & _) Hg. unfold is_128th in Hg. cbv zeta in Hg.
  apply andb_prop in Hg. destruct Hg as [G1 Hg]. apply andb_prop in G1. destruct G1 as [_ G1]. apply Z.leb_le in G1.
  apply andb_prop in Hg. destruct Hg as [G2 G3]. apply same_times_den in G3.
  assert (P : 2 ^ (7 - s) * 2 ^ s = 128) by (rewrite <- Z.pow_add_r by (clear - Hs G1; lia); replace (7 - s + s) with 7 by (clear; lia); reflexivity).
  pose proof (Z.pow_pos_nonneg 2 s ltac:(clear; lia) Hs) as P1.
  pose proof (Z.pow_pos_nonneg 2 (7 - s) ltac:(clear; lia) ltac:(clear - G1; lia)) as P2.
  apply orb_prop in G2. destruct G2 as [G2|G2].
  - apply Z.eqb_eq in G2. rewrite <- G3, <- G2, <- P. rewrite (Z.mul_comm c), <- Z.mul_add_distr_l.
    rewrite Z.div_mul_cancel_l; [reflexivity| |]; clear - P1 P2; lia.
  - apply andb_prop in G2. destruct G2 as [A B]. apply Z.eqb_eq in A. apply Z.eqb_eq in B. subst s c. change (2 ^ (7 - 0)) with 128 in *.
    rewrite <- G3, Z.pow_0_r, Z.div_1_r, Z.add_0_r. rewrite Z.mul_comm, Z.div_add_l by discriminate. change (64 / 128) with 0. clear; lia.
Qed.
Lemma is_entry_ok z b k : rb z b -> is_entry b k = true -> z = e k.
Proof.
  intros Hb Hk. destruct b as [|[t c s m]| |]; try discriminate.
  destruct t as [|[l a] [|]]; try discriminate; try (destruct a as [|[]|]; discriminate).
  simpl in Hk. destruct a as [|[]|]; try discriminate. destruct c; try discriminate. destruct s; try discriminate. apply Z.eqb_eq in Hk. subst.
  apply dn0 in Hb. simpl den in Hb. destruct Hb as [Hb _]. rewrite Hb. destruct (e k); simpl; lia.
Qed.
Lemma expect_ok mode top left z b x y : 3 <= mode -> rb z b ->
  (let '(dx, dy) := direction mode in expect w h mode b (y, walk (slope dx dy) (y + 1), frac (slope dx dy) (y + 1)) (x, walk (slope dy dx) (x + 1), frac (slope dy dx) (x + 1))) = true -> z = rule 8 e mode w h top left x y.
Proof.
  intros Hm Hb. pose proof (den_direct mode x y) as Hd. destruct (direction mode) as [dx dy]. unfold expect, rule. cbn [fst snd].
  destruct (Z.eqb_spec mode 0); [clear - Hm e0; lia|]. destruct (Z.eqb_spec mode 1); [clear - Hm e0; lia|]. destruct (Z.eqb_spec mode 2); [clear - Hm e0; lia|].
  destruct (mode =? 12).
  - intro Hx. apply (is_entry_ok _ _ _ Hb) in Hx. rewrite canon_ok in Hx. exact Hx.
  - destruct (mode =? 24).
    + intro Hx. apply (is_entry_ok _ _ _ Hb) in Hx. rewrite canon_ok in Hx. exact Hx.
    + intro Hx. apply (is_128th_ok _ _ _ Hb) in Hx. rewrite <- Hd. exact Hx.
Qed.
Lemma zs_in n x : 0 <= x < n -> In x (zs n).
Proof.
  intro Hx. unfold zs. apply in_map_iff. exists (Z.to_nat x). split; [apply Z2Nat.id; apply Hx|]. apply in_seq. clear - Hx. lia.
Qed.
Lemma steps_in sl n x : 0 <= x < n -> In (x, walk sl (x + 1), frac sl (x + 1)) (steps sl n).
Proof. intro Hx. unfold steps. apply in_map_iff. exists x. split; [reflexivity|apply zs_in; exact Hx]. Qed.
(** If the check succeeds, the predictor writes the rule to the block and nothing else but
    the rows below the block up to [v]. *)
Theorem check_ok f mode top left : 3 <= mode -> h <= v -> check lo' hi' f mode w h v = true ->
  exists new, predict lo hi e j f d st w h old = Some new /\
    (forall x y, 0 <= x < w -> 0 <= y < h -> new (d + y * st + x) = rule 8 e mode w h top left x y) /\
    (forall q, (forall x y, 0 <= x < w -> 0 <= y < v -> q <> d + y * st + x) -> new q = old q).
Proof.
  intros Hm Hv. unfold check, s_run, predict. generalize fuel. intros n Hc. cbv zeta in *.
  set (D1 := machine lo hi e j) in *. set (D2 := symbolic lo' hi' w h v) in *.
  pose proof (run_rel D1 D2 ri rdp rb rw rw rm machine_related n f
    (enter D1 (2%positive, 0) (1%positive, d) st w h Lf 3%positive old)
    (enter D2 (2%positive, (0, 0)) (1%positive, (0, 0)) (1, 0) (0, w) (0, h) Lf 3%positive Lf)) as R.
  assert (S : RS D1 D2 ri rdp rb rm (enter D1 (2%positive, 0) (1%positive, d) st w h Lf 3%positive old)
    (enter D2 (2%positive, (0, 0)) (1%positive, (0, 0)) (1, 0) (0, w) (0, h) Lf 3%positive Lf)).
  { apply enter_rel; unfold RP, ri, rdp; cbn [fst snd].
    - split; [reflexivity|]. clear; lia.
    - split; [reflexivity|]. clear; lia.
    - clear; lia.
    - clear; lia.
    - clear; lia.
    - apply rt_lf.
    - discriminate.
    - split; [|reflexivity]. intros x y _ _. rewrite get_lf. exact Logic.I. }
  specialize (R S). clear S. unfold ro in R.
  destruct (run D2 n f _) as [[q2 s2]|]; [|discriminate]. destruct (run D1 n f _) as [[q1 s1]|]; [|contradiction].
  destruct R as [_ R]. cbn [bind fst snd] in *. exists (pic D1 s1). split; [reflexivity|]. destruct (r_pic _ _ _ _ _ _ _ _ R) as [Rb Ro].
  split; [|exact Ro]. intros x y Hx Hy. specialize (Rb x y Hx). unfold good in Hc.
  assert (Hy' : 0 <= y < v) by (clear - Hy Hv; lia). specialize (Rb Hy').
  pose proof (expect_ok mode top left (pic D1 s1 (d + y * st + x))) as Hx2.
  destruct (direction mode) as [dx dy]. cbv zeta in Hc.
  rewrite forallb_forall in Hc. specialize (Hc _ (steps_in (slope dx dy) h y Hy)). rewrite forallb_forall in Hc. specialize (Hc _ (steps_in (slope dy dx) w x Hx)). cbn [fst snd] in Hc.
  change (Z.to_pos (y * 64 + x + 1)) with (key x y) in Hc.
  match type of Hc with match ?g with _ => _ end = _ => destruct g as [b|] eqn:Eg; [|discriminate] end.
  exact (Hx2 b x y Hm Rb Hc).
Qed.
End Sound.
