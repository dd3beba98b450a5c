(** Adaptive loop filter: the picture parameters, overflow, counterexamples. *)
From Coq Require Import ZArith List Bool Lia.
From Verif Require Import CBase CBaseProofs VlcModel VlcSpec VlcProofs HdrModel HdrSpec HdrProofs MemModel MemProofs SaoModel SaoSpec SaoProofs SaoProofsE AlfModel AlfSpec AlfProofs AlfProofsB AlfProofsC.
Import ListNotations.
Open Scope Z_scope.

Definition selects (b : alf_param) (s : alf_set) : Prop :=
  al_n b = 1 + Z.of_nat (length (as_rest s)) /\
  forall r, 0 <= r <= 15 -> nth (Z.to_nat (nth (Z.to_nat r) (alf_var_table b) 0)) (al_co b) [] = filter_of (as_first s) (as_rest s) r.
Lemma reads_present {A : Type} (o : option A) : reads flag (low_bits 1 (present o)) (present o).
Proof. apply (reads_flag (present o)). destruct o; unfold fits; cbn; lia. Qed.
Lemma chroma_roundtrip c a : chroma_ok c -> length (al_co a) = 16%nat ->
  reads (alf_read_chroma a) (coef_code c) (AlfParam (al_n a) (al_pat a) (upd_nat (al_co a) 0 c)).
Proof.
  intros [L F] La. unfold alf_read_chroma. rewrite <- (app_nil_r (coef_code c)). eapply reads_bind; [apply reads_coef; assumption|].
  eapply reads_bind0; [unfold store; rewrite set_ok by lia; apply reads_ret|]. apply reads_ret.
Qed.
Lemma pic_roundtrip p y u v : alf_pic_ok p -> length (al_co y) = 16%nat -> length (al_co u) = 16%nat -> length (al_co v) = 16%nat ->
  exists y' u' v', reads (alf_read_param y u v) (alf_pic_code p) ([present (ap_y p); present (ap_u p); present (ap_v p)], y', u', v') /\
    match ap_y p with Some s => selects y' s | None => y' = y end /\
    match ap_u p with Some c => nth 0 (al_co u') [] = c | None => u' = u end /\
    match ap_v p with Some c => nth 0 (al_co v') [] = c | None => v' = v end.
Proof.
  intros (Oy & Ou & Ov) Ly Lu Lv. destruct p as [py pu pv]. cbn [ap_y ap_u ap_v] in *.
  assert (Y : exists y', reads (if negb (present py =? 0) then alf_read_luma y else retp y) (bits_if alf_code py) y' /\
                match py with Some s => selects y' s | None => y' = y end).
  { destruct py as [s|]; cbn [present bits_if whenp] in *.
    - destruct (luma_roundtrip s y Oy Ly) as (b & R & N & Q). exists b. split; [exact R|]. split; assumption.
    - exists y. split; [apply reads_ret|reflexivity]. }
  assert (C : forall o a, whenp chroma_ok o -> length (al_co a) = 16%nat ->
              exists a', reads (if negb (present o =? 0) then alf_read_chroma a else retp a) (bits_if coef_code o) a' /\
                match o with Some c => nth 0 (al_co a') [] = c | None => a' = a end).
  { intros o a O L. destruct o as [c|]; cbn [present bits_if whenp] in *.
    - eexists. split; [apply chroma_roundtrip; assumption|]. cbn [al_co]. destruct (al_co a); [discriminate L|reflexivity].
    - exists a. split; [apply reads_ret|reflexivity]. }
  destruct Y as (y' & Y1 & Y2). destruct (C pu u Ou Lu) as (u' & U1 & U2). destruct (C pv v Ov Lv) as (v' & V1 & V2).
  exists y', u', v'. split; [|auto]. unfold alf_read_param, alf_pic_code. cbn [ap_y ap_u ap_v].
  eapply reads_bind; [apply reads_present|]. eapply reads_bind; [apply reads_present|]. eapply reads_bind; [apply reads_present|].
  eapply reads_bind; [exact Y1|]. eapply reads_bind; [exact U1|]. rewrite <- (app_nil_r (bits_if coef_code pv)). eapply reads_bind; [exact V1|]. apply reads_ret.
Qed.

Lemma magnitude_small c smp : conforming c -> (forall dx dy, 0 <= smp dx dy < 4096) ->
  magnitude (alf_recon c) smp + 32 < 2 ^ 31 /\ Z.abs (cf (alf_recon c) 8) <= 2176.
Proof.
  intros (L & C & C8) S.
  assert (R : 2 * (cf (alf_recon c) 0 + cf (alf_recon c) 1 + cf (alf_recon c) 2 + cf (alf_recon c) 3 + cf (alf_recon c) 4 + cf (alf_recon c) 5 + cf (alf_recon c) 6 + cf (alf_recon c) 7) + cf (alf_recon c) 8 = 64 + cf c 8).
  { pose proof (recon_sum c L) as R. unfold support in R. cbn [map fold_right] in R. change (cf c 8) with (nth 8 c 0). lia. }
  rewrite !recon_same in R by (assumption || lia).
  assert (B8 : Z.abs (cf (alf_recon c) 8) <= 2176).
  { pose proof (C 0 ltac:(lia)). pose proof (C 1 ltac:(lia)). pose proof (C 2 ltac:(lia)). pose proof (C 3 ltac:(lia)).
    pose proof (C 4 ltac:(lia)). pose proof (C 5 ltac:(lia)). pose proof (C 6 ltac:(lia)). pose proof (C 7 ltac:(lia)). lia. } split; [|exact B8].
  assert (P : forall k M dx dy, Z.abs k <= M -> Z.abs (k * smp dx dy) <= M * 4096).
  { intros k M dx dy K. rewrite Z.abs_mul. specialize (S dx dy). rewrite (Z.abs_eq (smp dx dy)) by lia. apply Z.mul_le_mono_nonneg; lia. }
  assert (Q : forall k dx dy, 0 <= k < 8 -> Z.abs (cf c k * smp dx dy) <= 262144).
  { intros k dx dy K. apply (P _ 64). specialize (C k K). lia. }
  assert (Q8 : Z.abs (cf (alf_recon c) 8 * smp 0 0) <= 8912896) by (apply (P _ 2176); exact B8).
  unfold magnitude, support. cbn [map fold_right]. rewrite !recon_same by (assumption || lia). change (2 ^ 31) with 2147483648.
  clear - Q Q8.
  assert (K : forall a b M N, a <= M -> b <= N -> a + b <= M + N) by (intros; lia).
  assert (V : forall k dx dy b N, 0 <= k < 8 -> b <= N -> Z.abs (cf c k * smp dx dy) + b <= 262144 + N) by (intros; apply K; [apply Q; assumption|assumption]).
  eapply Z.le_lt_trans.
  { apply Z.add_le_mono_r. do 16 (apply V; [lia|]). apply K; [exact Q8|apply Z.le_refl]. }
  lia.
Qed.

Definition big_coef : list Z := repeat 1073741823 9.
Lemma overflow : chroma_ok big_coef /\ ~ in_i32 (fold_left (fun s v => s + 2 * v) (firstn 8 big_coef) 0).
Proof.
  split; [split; [reflexivity|]; unfold big_coef; repeat constructor; lia|]. vm_compute. intros [_ A]. apply A. reflexivity.
Qed.

(** ** Reads that leave the tables. *)
Definition empty_param : alf_param := AlfParam 1 (repeat 0 16) (repeat (repeat 0 9) 16).
Definition hdr (bytes : list Z) : bs := Bs bytes (Z.of_nat (length bytes)) 0.
Lemma too_many : alf_read_param empty_param empty_param empty_param (hdr (129 :: 31 :: repeat 255 40)) = Undef.
Proof. vm_compute. reflexivity. Qed.
Lemma too_far : alf_read_param empty_param empty_param empty_param (hdr [139; 254; 17; 255; 255]) = Undef.
Proof. vm_compute. reflexivity. Qed.
Lemma cut_short : alf_read_param empty_param empty_param empty_param (hdr [139; 254; 0]) = Undef.
Proof. vm_compute. reflexivity. Qed.

(** ** Rows nobody filters. *)
Definition slice_rows (x y : Z) : Z := y / 2.
Lemma alf_gap : exists g ap sp up rec d0 a b x y,
  sizes_ok (q_lv g) (q_pw g) (q_ph g) (q_wl g) (q_hl g) /\ q_cross g = false /\ plane_w g + 16 <= q_stride g /\ q_depth g = 8 /\
  (forall lx ly, ap lx ly <> None) /\ (forall lx ly, sp lx ly = None) /\
  row_local (plane_w g) (plane_h g) (lcu_lines g) (q_base g) (q_stride g) rec /\
  0 <= x < plane_w g /\ 0 <= y < plane_h g /\
  (forall lx ly, 0 <= lx < q_wl g -> 0 <= ly < q_hl g -> ~ alf_rows g lx ly y) /\
  snd (chain_serial g sp ap up rec (a, b, d0)) (q_base g + y * q_stride g + x) = d0 (q_base g + y * q_stride g + x) /\
  snd (chain_serial g sp ap up rec (a, b, d0)) (q_base g + (y - 1) * q_stride g + x) <> d0 (q_base g + (y - 1) * q_stride g + x).
Proof.
  exists (Geom true 4 16 32 1 2 false slice_rows 0 32 8 8), (fun _ _ => Some [0;0;0;0;0;0;0;0;128]), (fun _ _ => None), (fun _ => 0), (fun _ m => m), (fun _ => 10), (fun _ => 0), (fun _ => 0), 5, 12.
  cbn [q_lv q_pw q_ph q_wl q_hl q_cross q_stride q_depth q_base q_sl].
  split; [unfold sizes_ok; cbn; lia|]. split; [reflexivity|]. split; [vm_compute; discriminate|]. split; [reflexivity|]. split; [discriminate|]. split; [reflexivity|].
  split; [split; [reflexivity|intros ly m m' E; exact E]|]. change (plane_w _) with 16. change (plane_h _) with 32. split; [lia|]. split; [lia|].
  split.
  { intros lx ly X Y. assert (lx = 0) by lia. subst lx. assert (ly = 0 \/ ly = 1) as [-> | ->] by lia; vm_compute; intros [A B]; try (apply A; reflexivity); discriminate. }
  split; [vm_compute; reflexivity|]. vm_compute. discriminate.
Qed.

Lemma alf_one_row_skipped : exists g ap sp up rec d0 a b x y,
  sizes_ok (q_lv g) (q_pw g) (q_ph g) (q_wl g) (q_hl g) /\ q_cross g = true /\ plane_w g + 16 <= q_stride g /\ q_depth g = 8 /\
  (forall lx ly, sp lx ly = None) /\
  row_local (plane_w g) (plane_h g) (lcu_lines g) (q_base g) (q_stride g) rec /\
  0 <= x < plane_w g /\ 0 <= y < plane_h g /\
  snd (chain_delayed g sp ap up rec (a, b, d0)) (q_base g + y * q_stride g + x) <>
  snd (chain_serial g sp ap up rec (a, b, d0)) (q_base g + y * q_stride g + x).
Proof.
  exists (Geom true 4 16 16 1 1 true slice_rows 0 32 8 8), (fun _ _ => Some [0;0;0;0;0;0;0;0;128]), (fun _ _ => None), (fun _ => 0), (fun _ m => m), (fun _ => 10), (fun _ => 0), (fun _ => 0), 5, 12.
  cbn [q_lv q_pw q_ph q_wl q_hl q_cross q_stride q_depth q_base q_sl].
  split; [unfold sizes_ok; cbn; lia|]. split; [reflexivity|]. split; [vm_compute; discriminate|]. split; [reflexivity|]. split; [reflexivity|].
  split; [split; [reflexivity|intros ly m m' E; exact E]|]. change (plane_w _) with 16. change (plane_h _) with 16. split; [lia|]. split; [lia|].
  vm_compute. discriminate.
Qed.
