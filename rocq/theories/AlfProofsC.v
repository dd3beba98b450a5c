(** Adaptive loop filter: coefficients, filter selection, parameter syntax. *)
From Coq Require Import ZArith List Bool Lia.
From Verif Require Import CBase CBaseProofs VlcModel VlcSpec VlcProofs HdrModel HdrSpec HdrProofs MemModel MemProofs SaoModel SaoSpec SaoProofs AlfModel AlfSpec AlfProofs.
Import ListNotations.
Open Scope Z_scope.

(** ** Coefficients. *)
Lemma nine (c : list Z) : length c = 9%nat -> exists a b c0 d e f g h i, c = [a; b; c0; d; e; f; g; h; i].
Proof.
  intros L. destruct c as [|a [|b [|c0 [|d [|e [|f [|g [|h [|i [|]]]]]]]]]]; try discriminate L. repeat eexists.
Qed.
Lemma recon_length c : length c = 9%nat -> length (alf_recon c) = 9%nat.
Proof. intros L. destruct (nine c L) as (a & b & c0 & d & e & f & g & h & i & ->). reflexivity. Qed.
Lemma recon_same c k : length c = 9%nat -> 0 <= k < 8 -> cf (alf_recon c) k = cf c k.
Proof.
  intros L K. destruct (nine c L) as (a & b & c0 & d & e & f & g & h & i & ->). unfold alf_recon. cbn [firstn app].
  assert (k = 0 \/ k = 1 \/ k = 2 \/ k = 3 \/ k = 4 \/ k = 5 \/ k = 6 \/ k = 7) as E by lia.
  repeat (destruct E as [E|E]; [subst k; reflexivity|]). subst k. reflexivity.
Qed.
Lemma recon_sum c : length c = 9%nat ->
  fold_right Z.add 0 (map (fun t => let '(i, _, _) := t in cf (alf_recon c) i) support) = 64 + nth 8 c 0.
Proof.
  intros L. destruct (nine c L) as (a & b & c0 & d & e & f & g & h & i & ->).
  cbv [support alf_recon cf map fold_right fold_left firstn app nth Z.to_nat Pos.to_nat Pos.iter_op Nat.add]. change (Z.shiftl 1 6) with 64. ring.
Qed.

Lemma flat_value W x0 x1 y0 y1 depth c (v x y : Z) : length c = 9%nat -> nth 8 c 0 = 0 -> 0 <= v < 2 ^ depth ->
  alf_value W x0 x1 y0 y1 depth (alf_recon c) (fun _ _ => v) x y = v.
Proof.
  intros L Z0 V. unfold alf_value.
  assert (E : fold_right Z.add 0 (map (fun t => let '(i, dx, dy) := t in cf (alf_recon c) i * tap W x0 x1 y0 y1 (fun _ _ => v) (x + dx) (y + dy)) support) = 64 * v).
  { pose proof (recon_sum c L) as R. rewrite Z0 in R. revert R. unfold support, tap. cbn [map fold_right]. generalize (cf (alf_recon c)). intros k R. nia. }
  rewrite E. replace (64 * v + 32) with (32 + v * 64) by ring. rewrite Z.div_add by lia. change (32 / 64) with 0. unfold saturate. lia.
Qed.
Lemma value_range W x0 x1 y0 y1 depth co D x y : 0 <= depth ->
  0 <= alf_value W x0 x1 y0 y1 depth co D x y < 2 ^ depth.
Proof. intros Dp. unfold alf_value, saturate. pose proof (Z.pow_pos_nonneg 2 depth ltac:(lia) Dp). lia. Qed.

(** ** Filter selection. *)
Definition marked (pat : list Z) (r : Z) : bool := negb (nth (Z.to_nat r) pat 0 =? 0).
Lemma var_steps_length prev pat : length (var_steps prev pat) = length pat.
Proof. revert prev. induction pat as [|b t IH]; intros prev; [reflexivity|]. cbn. rewrite IH. reflexivity. Qed.
Lemma var_steps_succ pat : forall prev i, (i < length pat)%nat ->
  nth (S i) (prev :: var_steps prev pat) 0 = nth i (prev :: var_steps prev pat) 0 + (if negb (nth i pat 0 =? 0) then 1 else 0).
Proof.
  induction pat as [|b t IH]; intros prev i L; [cbn in L; lia|]. cbn [var_steps]. destruct i as [|i].
  - cbn [nth]. destruct (negb (b =? 0)); cbn [nth]; lia.
  - cbn [length] in L. specialize (IH (if negb (b =? 0) then prev + 1 else prev) i ltac:(lia)). cbn [nth] in *. exact IH.
Qed.
Lemma var_step a r : 1 < al_n a -> length (al_pat a) = 16%nat -> 0 <= r < 15 ->
  nth (Z.to_nat (r + 1)) (alf_var_table a) 0 = nth (Z.to_nat r) (alf_var_table a) 0 + (if marked (al_pat a) (r + 1) then 1 else 0).
Proof.
  intros N L R. unfold alf_var_table, marked. replace (1 <? al_n a) with true by (symmetry; apply Z.ltb_lt; lia).
  destruct (al_pat a) as [|p t]; [discriminate L|]. cbn [tl]. cbn [length] in L.
  replace (Z.to_nat (r + 1)) with (S (Z.to_nat r)) by lia. rewrite var_steps_succ by lia. reflexivity.
Qed.
Lemma var_0 a : nth 0 (alf_var_table a) 0 = 0.
Proof. unfold alf_var_table. destruct (1 <? al_n a); reflexivity. Qed.

(** A list of region starts marks a pattern. *)
Definition marks (pat : list Z) (starts : list Z) : Prop :=
  length pat = 16%nat /\ forall r, 0 <= r <= 15 -> (marked pat r = true <-> In r starts).
Lemma marks_0 : marks (repeat 0 16) [].
Proof.
  split; [reflexivity|]. intros r R. split; [|intros []]. unfold marked. rewrite nth_repeat. discriminate.
Qed.
Lemma nth_upd_same (A : Type) (l : list A) n v d : (n < length l)%nat -> nth n (upd_nat l n v) d = v.
Proof. intros H. apply nth_error_nth. apply upd_nat_same. exact H. Qed.
Lemma nth_upd_other (A : Type) (l : list A) n m v d : n <> m -> nth m (upd_nat l n v) d = nth m l d.
Proof.
  intros H. destruct (nth_error l m) as [x|] eqn:E.
  - rewrite (nth_error_nth _ _ d E). apply nth_error_nth. rewrite upd_nat_other by exact H. exact E.
  - rewrite !nth_overflow; [reflexivity|apply nth_error_None; exact E|]. rewrite upd_nat_length. apply nth_error_None. exact E.
Qed.
Lemma marks_add pat starts s pat' : marks pat starts -> set pat s 1 = Some pat' -> 0 <= s <= 15 /\ marks pat' (s :: starts).
Proof.
  intros [L M] E. unfold set in E. destruct ((s <? 0) || (Z.of_nat (length pat) <=? s)) eqn:B; [discriminate E|].
  apply orb_false_iff in B. rewrite Z.ltb_ge, Z.leb_gt in B. apply Some_inj in E. subst pat'. split; [lia|].
  split; [rewrite upd_nat_length; exact L|]. intros r R. unfold marked. destruct (Z.eq_dec r s) as [->|N].
  - rewrite nth_upd_same by lia. split; intros; [left; reflexivity|reflexivity].
  - rewrite nth_upd_other by lia. fold (marked pat r). rewrite M by exact R. cbn [In]. split; [auto|]. intros [E|E]; [congruence|exact E].
Qed.

Definition count_upto (starts : list Z) (r : Z) : nat := length (filter (fun s => s <=? r) starts).
Lemma count_step starts r : NoDup starts ->
  Z.of_nat (count_upto starts (r + 1)) = Z.of_nat (count_upto starts r) + (if in_dec Z.eq_dec (r + 1) starts then 1 else 0).
Proof.
  unfold count_upto. induction starts as [|s t IH]; intros N; [reflexivity|]. inversion N as [|? ? N1 N2]; subst. specialize (IH N2). cbn [filter].
  destruct (in_dec Z.eq_dec (r + 1) (s :: t)) as [I|I], (in_dec Z.eq_dec (r + 1) t) as [I'|I'];
    destruct (Z.leb_spec s (r + 1)), (Z.leb_spec s r); cbn [length]; try lia.
  - exfalso. assert (s = r + 1) by lia. subst s. contradiction.
  - exfalso. destruct I as [I|I]; [lia|contradiction].
  - exfalso. destruct I as [I|I]; [lia|contradiction].
  - exfalso. apply I. right. exact I'.
  - exfalso. apply I. right. exact I'.
  - exfalso. apply I. right. exact I'.
  - exfalso. apply I. left. lia.
Qed.
Lemma count_0 starts : Forall (fun s => 1 <= s) starts -> count_upto starts 0 = O.
Proof. unfold count_upto. induction 1 as [|s t H _ IH]; [reflexivity|]. cbn [filter]. destruct (Z.leb_spec s 0); [lia|exact IH]. Qed.
Lemma table_count a starts r : 1 < al_n a -> marks (al_pat a) starts -> NoDup starts -> Forall (fun s => 1 <= s) starts -> 0 <= r <= 15 ->
  nth (Z.to_nat r) (alf_var_table a) 0 = Z.of_nat (count_upto starts r).
Proof.
  intros N [L M] Nd Fa R. replace r with (Z.of_nat (Z.to_nat r)) by lia. assert (B : (Z.to_nat r <= 15)%nat) by lia. revert B.
  induction (Z.to_nat r) as [|k IH]; intros B.
  - change (Z.of_nat 0) with 0. rewrite (count_0 starts Fa). apply var_0.
  - replace (Z.of_nat (S k)) with (Z.of_nat k + 1) by lia. rewrite var_step by lia. rewrite IH by lia. rewrite count_step by exact Nd. f_equal.
    rewrite ?Nat2Z.id. destruct (in_dec Z.eq_dec (Z.of_nat k + 1) starts) as [I|I].
    + apply M in I; [|lia]. rewrite I. reflexivity.
    + destruct (marked (al_pat a) (Z.of_nat k + 1)) eqn:E; [|reflexivity]. exfalso. apply I. apply M; [lia|exact E].
Qed.
(** Duplicates and region 0 do not count. *)
Lemma table_bound a starts r : 1 < al_n a -> marks (al_pat a) starts -> 0 <= r <= 15 ->
  0 <= nth (Z.to_nat r) (alf_var_table a) 0 <= Z.of_nat (length starts).
Proof.
  intros N M R. set (st := filter (fun s => 1 <=? s) (nodup Z.eq_dec starts)).
  assert (Nd : NoDup st) by (apply NoDup_filter, NoDup_nodup).
  assert (Fa : Forall (fun s => 1 <= s) st) by (apply Forall_forall; intros s I; apply filter_In in I; destruct I as [_ I]; apply Z.leb_le in I; exact I).
  assert (Le : (length st <= length starts)%nat).
  { unfold st. etransitivity; [apply NoDup_incl_length; [exact Nd|]|reflexivity]. intros s I. apply filter_In in I. destruct I as [I _]. apply nodup_In in I. exact I. }
  set (pat0 := 0 :: tl (al_pat a)).
  assert (L : length (al_pat a) = 16%nat) by apply M.
  assert (E : alf_var_table a = alf_var_table (AlfParam (al_n a) pat0 (al_co a))) by reflexivity.
  rewrite E. rewrite (table_count _ st r); [|exact N| |exact Nd|exact Fa|exact R].
  - split; [lia|]. unfold count_upto. apply Nat2Z.inj_le. etransitivity; [|exact Le].
    clear. induction st as [|s t IH]; [reflexivity|]. cbn [filter]. destruct (s <=? r); cbn [length]; lia.
  - cbn [al_pat]. split; [unfold pat0; destruct (al_pat a); [discriminate L|exact L]|]. intros q Q. destruct (Z.eq_dec q 0) as [->|N0].
    + split; [discriminate|]. intros I. exfalso. rewrite Forall_forall in Fa. specialize (Fa 0 I). lia.
    + assert (X : marked pat0 q = marked (al_pat a) q).
      { unfold marked, pat0. destruct (al_pat a) as [|p t]; [discriminate L|]. replace (Z.to_nat q) with (S (Z.to_nat (q - 1))) by lia. reflexivity. }
      rewrite X. rewrite (proj2 M q Q). unfold st. rewrite filter_In, nodup_In, Z.leb_le. split; [intros; split; [assumption|lia]|intros []; assumption].
Qed.

(** ** Whatever was parsed. *)
Lemma filters_done : forall k f n pre pat co s pat' co' s' starts,
  alf_filters k f n pre pat co s = Done ((pat', co'), s') -> marks pat starts -> length co = 16%nat -> 0 <= f ->
  exists starts', marks pat' starts' /\ length co' = 16%nat /\
    (length starts' <= length starts + (if (f =? 0)%Z then Nat.pred k else k))%nat /\ (k = O \/ f + Z.of_nat k <= 16) /\
    (forall i, (i < 16)%nat -> length (nth i co []) = 9%nat -> length (nth i co' []) = 9%nat).
Proof.
  induction k as [|k IH]; intros f n pre pat co s pat' co' s' starts E M L F; cbn [alf_filters] in E.
  - apply Done_inj, pair_equal_spec in E. destruct E as [E _]. apply pair_equal_spec in E. destruct E as [<- <-].
    exists starts. split; [exact M|]. split; [exact L|]. split; [destruct (f =? 0); cbn; lia|]. split; [left; reflexivity|]. intros; assumption.
  - apply bindp_done in E. destruct E as ([p1 pre1] & s1 & E1 & E). apply bindp_done in E. destruct E as (c & s2 & E2 & E).
    apply bindp_done in E. destruct E as (co1 & s3 & E3 & E).
    assert (X : exists st1, marks p1 st1 /\ (length st1 <= length starts + (if (f =? 0)%Z then 0 else 1))%nat).
    { destruct (Z.ltb_spec 0 f) as [P|P].
      - apply bindp_done in E1. destruct E1 as (sym & s4 & _ & E1). apply bindp_done in E1. destruct E1 as (p2 & s5 & E4 & E1).
        apply Done_inj, pair_equal_spec in E1. destruct E1 as [E1 _]. apply pair_equal_spec in E1. destruct E1 as [<- _].
        unfold store in E4. destruct (set pat (sym + pre) 1) as [p3|] eqn:E5; [|discriminate E4].
        apply Done_inj, pair_equal_spec in E4. destruct E4 as [<- _]. destruct (marks_add _ _ _ _ M E5) as [_ M'].
        exists (sym + pre :: starts). split; [exact M'|]. cbn [length]. replace (f =? 0) with false by (symmetry; apply Z.eqb_neq; lia). lia.
      - apply Done_inj, pair_equal_spec in E1. destruct E1 as [E1 _]. apply pair_equal_spec in E1. destruct E1 as [<- _].
        exists starts. split; [exact M|]. destruct (f =? 0); lia. }
    destruct X as (st1 & M1 & L1). pose proof (repp_length _ _ _ _ _ _ E2) as Lc.
    unfold store in E3. destruct (set co f c) as [co2|] eqn:E6; [|discriminate E3].
    apply Done_inj, pair_equal_spec in E3. destruct E3 as [E3 _]. subst co2.
    unfold set in E6. destruct ((f <? 0) || (Z.of_nat (length co) <=? f)) eqn:B; [discriminate E6|]. apply Some_inj in E6.
    apply orb_false_iff in B. rewrite Z.ltb_ge, Z.leb_gt in B.
    destruct (IH (f + 1) n pre1 p1 co1 s3 pat' co' s' st1 E M1 ltac:(subst co1; rewrite upd_nat_length; exact L) ltac:(lia)) as (st2 & M2 & L2 & L3 & L4 & L5).
    exists st2. split; [exact M2|]. split; [exact L2|]. split; [|split].
    + replace (f + 1 =? 0) with false in L3 by (symmetry; apply Z.eqb_neq; lia). destruct (f =? 0); lia.
    + right. destruct L4 as [->|L4]; lia.
    + intros i Hi Hl. apply L5; [exact Hi|]. subst co1. destruct (Nat.eq_dec (Z.to_nat f) i) as [<-|Ne].
      * rewrite nth_upd_same by lia. exact Lc.
      * rewrite nth_upd_other by exact Ne. exact Hl.
Qed.

Lemma luma_done a s b s' : alf_read_luma a s = Done (b, s') -> length (al_co a) = 16%nat ->
  al_n b <= 16 /\ length (al_pat b) = 16%nat /\ length (al_co b) = 16%nat /\
  (1 <= al_n b -> forall r, 0 <= r <= 15 -> 0 <= nth (Z.to_nat r) (alf_var_table b) 0 < al_n b).
Proof.
  intros E L. unfold alf_read_luma in E. apply bindp_done in E. destruct E as (v & s1 & E1 & E). apply bindp_done in E.
  destruct E as ([pat co] & s2 & E2 & E). apply Done_inj, pair_equal_spec in E. destruct E as [<- _].
  destruct (filters_done _ _ _ _ _ _ _ _ _ _ _ E2 marks_0 L (Z.le_refl 0)) as (st & M & Lc & Ls & Lk & _). cbn [al_n al_pat al_co].
  split; [|split; [apply M|split; [exact Lc|]]].
  - destruct Lk as [Lk|Lk]; lia.
  - intros N r R. destruct (Z.eq_dec (v + 1) 1) as [E|Ne].
    + unfold alf_var_table. cbn [al_n]. rewrite E. cbn [Z.ltb Z.compare Pos.compare Pos.compare_cont]. rewrite nth_repeat. lia.
    + pose proof (table_bound (AlfParam (v + 1) pat co) st r ltac:(cbn [al_n]; lia) M R) as B. cbn [length Z.eqb] in Ls. lia.
Qed.

Lemma region_range wl hl lx ly : 0 <= lx -> 0 <= ly -> 0 <= wl -> 0 <= hl -> 0 <= alf_region wl hl lx ly <= 15.
Proof.
  intros A B C D. unfold alf_region. cbv zeta. set (qw := Z.shiftr (wl + 1) 2). set (qh := Z.shiftr (hl + 1) 2).
  assert (Q : 0 <= qw /\ 0 <= qh) by (unfold qw, qh; split; apply Z.shiftr_nonneg; lia). clearbody qw qh.
  set (ry := if qh =? 0 then 3 else Z.min (ly / qh) 3). set (rx := if qw =? 0 then 3 else Z.min (lx / qw) 3).
  assert (R : 0 <= ry <= 3 /\ 0 <= rx <= 3).
  { unfold rx, ry. split; [destruct (Z.eqb_spec qh 0)|destruct (Z.eqb_spec qw 0)]; try lia.
    - pose proof (Z.div_pos ly qh ltac:(lia) ltac:(lia)). lia.
    - pose proof (Z.div_pos lx qw ltac:(lia) ltac:(lia)). lia. }
  clearbody rx ry.
  assert (K : forall n, (n < 16)%nat -> 0 <= nth n regionTable 0 <= 15).
  { intros n Hn. do 16 (destruct n as [|n]; [vm_compute; split; discriminate|]). lia. }
  apply K. lia.
Qed.

(** ** Round trip. *)
Lemma reads_ue_wide v : 0 <= v <= 2147483646 -> reads ue_v (ue_code v) v.
Proof. intros V mem pre post H. unfold ue_v, at_pos. apply (ue_roundtrip mem pre post v); assumption. Qed.
Lemma reads_se v : -1073741823 <= v <= 1073741823 -> reads se_v (se_code v) v.
Proof. intros V mem pre post H. unfold se_v, at_pos. apply (se_roundtrip mem pre post v); assumption. Qed.
Lemma reads_coef c : length c = 9%nat -> Forall (fun v => -1073741823 <= v <= 1073741823) c -> reads (repp 9 se_v) (coef_code c) c.
Proof.
  intros L F. rewrite <- L. apply reads_repp. eapply Forall_impl; [|exact F]. intros v V. apply reads_se. exact V.
Qed.

Fixpoint set_all (pat : list Z) (starts : list Z) : list Z :=
  match starts with [] => pat | s :: t => set_all (upd_nat pat (Z.to_nat s) 1) t end.
Fixpoint put_all (co : list (list Z)) (f : nat) (l : list (list Z)) : list (list Z) :=
  match l with [] => co | c :: t => put_all (upd_nat co f c) (S f) t end.
Lemma set_ok {A : Type} (l : list A) i v : 0 <= i < Z.of_nat (length l) -> set l i v = Some (upd_nat l (Z.to_nat i) v).
Proof. intros H. unfold set. destruct (Z.ltb_spec i 0), (Z.leb_spec (Z.of_nat (length l)) i); try lia. reflexivity. Qed.
Lemma rest_bound : forall l pre, 0 <= pre -> rest_ok pre l -> pre + Z.of_nat (length l) <= Z.max pre 15.
Proof.
  induction l as [|[s c] t IH]; intros pre P R; cbn [rest_ok length] in *; [lia|]. destruct R as (A & _ & _ & R). specialize (IH s ltac:(lia) R). lia.
Qed.
Lemma rest_tight : forall l pre s c t, 0 <= pre -> rest_ok pre l -> pre + Z.of_nat (length l) = 15 -> l = (s, c) :: t -> s = pre + 1.
Proof.
  intros l pre s c t P R Q ->. cbn [rest_ok length] in *. destruct R as (A & _ & _ & R). pose proof (rest_bound t s ltac:(lia) R). lia.
Qed.
Lemma reads_filters : forall l f pre pat co n, 0 <= pre -> rest_ok pre l -> length pat = 16%nat -> length co = 16%nat ->
  (1 <= f) -> f + Z.of_nat (length l) <= 16 -> (n = 16 -> pre + Z.of_nat (length l) = 15) ->
  reads (alf_filters (length l) f n pre pat co) (rest_code (n =? 16) pre l)
        (set_all pat (map fst l), put_all co (Z.to_nat f) (map snd l)).
Proof.
  induction l as [|[s c] t IH]; intros f pre pat co n P R Lp Lc F B N; cbn [length alf_filters rest_code map fst snd set_all put_all].
  - apply reads_ret.
  - pose proof R as R0. cbn [rest_ok] in R. destruct R as (A & Lc9 & Fc & R). cbn [length] in B, N.
    replace (0 <? f) with true by (symmetry; apply Z.ltb_lt; lia).
    eapply reads_bind with (a := (upd_nat pat (Z.to_nat s) 1, s)).
    + rewrite <- (app_nil_r (if n =? 16 then [] else ue_code (s - pre))). eapply reads_bind with (a := s - pre).
      * destruct (Z.eqb_spec n 16) as [E|E]; cbn [negb].
        -- specialize (N E). pose proof (rest_tight _ pre s c t P R0 ltac:(cbn [length]; lia) eq_refl) as E1. replace (s - pre) with 1 by lia. apply reads_ret.
        -- apply reads_ue_wide. lia.
      * replace (s - pre + pre) with s by lia. eapply reads_bind0; [|].
        -- unfold store. rewrite set_ok by lia. apply reads_ret.
        -- replace (pre + (s - pre)) with s by lia. apply reads_ret.
    + eapply reads_bind; [apply reads_coef; assumption|].
      eapply reads_bind0 with (a := upd_nat co (Z.to_nat f) c).
      * unfold store. rewrite set_ok by lia. apply reads_ret.
      * replace (S (Z.to_nat f)) with (Z.to_nat (f + 1)) by lia. apply IH; try assumption; try lia.
        -- rewrite upd_nat_length. exact Lp.
        -- rewrite upd_nat_length. exact Lc.
        -- intros E. specialize (N E). pose proof (rest_tight _ pre s c t P R0 ltac:(cbn [length]; lia) eq_refl). lia.
Qed.

Lemma set_all_marks : forall starts pat old, marks pat old -> Forall (fun s => 0 <= s <= 15) starts -> marks (set_all pat starts) (rev starts ++ old).
Proof.
  induction starts as [|s t IH]; intros pat old M F; [exact M|]. inversion F; subst. cbn [set_all rev]. rewrite <- app_assoc. cbn [app]. apply IH; [|assumption].
  destruct (marks_add pat old s (upd_nat pat (Z.to_nat s) 1) M) as [_ M']; [|exact M']. apply set_ok. destruct M as [L _]. lia.
Qed.
Lemma put_all_nth : forall l co f i d, (f + length l <= length co)%nat ->
  nth i (put_all co f l) d = if (f <=? i)%nat && (i <? f + length l)%nat then nth (i - f) l d else nth i co d.
Proof.
  induction l as [|c t IH]; intros co f i d B; cbn [put_all length] in *.
  - destruct (Nat.leb_spec f i), (Nat.ltb_spec i (f + 0)); try reflexivity; lia.
  - rewrite IH by (rewrite upd_nat_length; lia).
    destruct (Nat.eq_dec f i) as [->|Ne].
    + rewrite nth_upd_same by lia. rewrite Nat.sub_diag. destruct (Nat.leb_spec (S i) i), (Nat.leb_spec i i), (Nat.ltb_spec i (i + S (length t))); try reflexivity; lia.
    + rewrite nth_upd_other by exact Ne. destruct (Nat.leb_spec (S f) i), (Nat.leb_spec f i), (Nat.ltb_spec i (S f + length t)), (Nat.ltb_spec i (f + S (length t))); try lia; try reflexivity.
      cbn [andb]. replace (i - f)%nat with (S (i - S f)) by lia. reflexivity.
Qed.
Lemma rest_starts : forall l pre, rest_ok pre l -> Forall (fun s => pre < s <= 15) (map fst l) /\ NoDup (map fst l).
Proof.
  induction l as [|[s c] t IH]; intros pre R; cbn [map fst]; [split; constructor|]. cbn [rest_ok] in R. destruct R as (A & _ & _ & R). destruct (IH s R) as [I1 I2].
  split; constructor; try assumption.
  - eapply Forall_impl; [|exact I1]. cbn. intros; lia.
  - intros I. rewrite Forall_forall in I1. specialize (I1 s I). lia.
Qed.
Lemma filter_of_count : forall l cur pre r, rest_ok pre l ->
  filter_of cur l r = nth (count_upto (map fst l) r) (cur :: map snd l) [].
Proof.
  unfold count_upto. induction l as [|[s c] t IH]; intros cur pre r R; cbn [filter_of map fst snd filter]; [reflexivity|].
  pose proof R as R0. cbn [rest_ok] in R. destruct R as (A & _ & _ & R).
  destruct (Z.leb_spec s r).
  - rewrite (IH c s r R). reflexivity.
  - destruct (rest_starts t s R) as [F _]. replace (filter (fun s0 => s0 <=? r) (map fst t)) with (@nil Z); [reflexivity|].
    symmetry. clear - F H. revert F. generalize (map fst t). intros u0 F. induction u0 as [|q u IHu]; [reflexivity|]. inversion F; subst. cbn [filter]. destruct (Z.leb_spec q r); [lia|]. apply IHu. assumption.
Qed.
Lemma count_rev l r : count_upto (rev l) r = count_upto l r.
Proof.
  unfold count_upto. induction l as [|s t IH]; [reflexivity|]. cbn [rev]. rewrite filter_app, app_length, IH. cbn [filter].
  destruct (s <=? r); cbn [length]; lia.
Qed.

Lemma count_le l r : (count_upto l r <= length l)%nat.
Proof. unfold count_upto. induction l as [|s t IH]; [reflexivity|]. cbn [filter]. destruct (s <=? r); cbn [length]; lia. Qed.

Lemma luma_roundtrip s a : alf_set_ok s -> length (al_co a) = 16%nat ->
  exists b, reads (alf_read_luma a) (alf_code s) b /\ al_n b = 1 + Z.of_nat (length (as_rest s)) /\
    forall r, 0 <= r <= 15 ->
      nth (Z.to_nat (nth (Z.to_nat r) (alf_var_table b) 0)) (al_co b) [] = filter_of (as_first s) (as_rest s) r.
Proof.
  intros (L1 & F1 & R) La. pose proof (rest_bound (as_rest s) 0 ltac:(lia) R) as B. set (l := as_rest s) in *. set (k := length l) in *.
  assert (Lu : length (upd_nat (al_co a) 0 (as_first s)) = 16%nat) by (rewrite upd_nat_length; exact La).
  exists (AlfParam (1 + Z.of_nat k) (set_all (repeat 0 16) (map fst l)) (put_all (upd_nat (al_co a) 0 (as_first s)) 1 (map snd l))).
  split; [|split; [reflexivity|]].
  - unfold alf_read_luma, alf_code. fold l k. eapply reads_bind; [apply reads_ue_wide; lia|].
    replace (Z.to_nat (Z.of_nat k + 1)) with (S k) by lia.
    match goal with |- reads _ ?x _ => rewrite <- (app_nil_r x) end.
    eapply reads_bind with (a := (set_all (repeat 0 16) (map fst l), put_all (upd_nat (al_co a) 0 (as_first s)) 1 (map snd l))).
    2:{ replace (1 + Z.of_nat k) with (Z.of_nat k + 1) by lia. apply reads_ret. }
    cbn [alf_filters]. change (0 <? 0) with false. cbv iota.
    eapply reads_bind0; [apply reads_ret|]. eapply reads_bind; [apply reads_coef; assumption|].
    eapply reads_bind0 with (a := upd_nat (al_co a) 0 (as_first s)).
    { unfold store. rewrite set_ok by lia. apply reads_ret. }
    replace (Nat.eqb k 15) with (Z.of_nat k + 1 =? 16) by (destruct (Z.eqb_spec (Z.of_nat k + 1) 16), (Nat.eqb_spec k 15); try reflexivity; lia).
    change 1%nat with (Z.to_nat (0 + 1)). apply reads_filters; try assumption; try lia; try reflexivity.
  - intros r Rr. cbn [al_co]. destruct (rest_starts l 0 R) as [Fs Nd].
    assert (CL : (count_upto (map fst l) r <= k)%nat).
    { unfold k. rewrite <- (map_length fst l). apply count_le. }
    set (b := AlfParam (1 + Z.of_nat k) (set_all (repeat 0 16) (map fst l)) (put_all (upd_nat (al_co a) 0 (as_first s)) 1 (map snd l))).
    assert (T : nth (Z.to_nat r) (alf_var_table b) 0 = Z.of_nat (count_upto (map fst l) r)).
    { destruct (Nat.eq_dec k 0) as [K|K].
      - unfold alf_var_table. cbn [al_n b]. rewrite K. change (1 <? 1 + Z.of_nat 0) with false. cbv iota. rewrite nth_repeat. lia.
      - rewrite <- count_rev. apply table_count; [cbn [al_n b]; lia| | | |exact Rr].
        + cbn [al_pat b]. pose proof (set_all_marks (map fst l) (repeat 0 16) [] marks_0) as M. rewrite app_nil_r in M. apply M.
          eapply Forall_impl; [|exact Fs]. cbn. intros; lia.
        + apply NoDup_rev. exact Nd.
        + apply Forall_rev. eapply Forall_impl; [|exact Fs]. cbn. intros; lia. }
    rewrite T, Nat2Z.id, (filter_of_count l (as_first s) 0 r R). set (c := count_upto (map fst l) r) in *.
    rewrite put_all_nth by (rewrite map_length, upd_nat_length, La; fold k; lia). rewrite map_length. fold k.
    destruct c as [|c].
    + cbn [Nat.leb andb]. rewrite nth_upd_same by lia. reflexivity.
    + replace (S c <? 1 + k)%nat with true by (symmetry; apply Nat.ltb_lt; lia). cbn [Nat.leb andb nth]. f_equal. lia.
Qed.
