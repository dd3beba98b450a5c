(** Proofs about the output file of the program. *)
From Coq Require Import ZArith List Bool Lia.
From Verif Require Import CBase ApModel ApSpec.
Import ListNotations.
Open Scope Z_scope.

Lemma below_S n : 0 <= n -> below (n + 1) = below n ++ [n].
Proof. intros. unfold below. replace (Z.to_nat (n + 1)) with (S (Z.to_nat n)) by lia. rewrite seq_S, map_app. cbn. now rewrite Z2Nat.id. Qed.
Lemma below_cons n : 0 <= n -> below (n + 1) = 0 :: map (fun i => i + 1) (below n).
Proof.
  intros. unfold below. replace (Z.to_nat (n + 1)) with (S (Z.to_nat n)) by lia. cbn [seq map]. f_equal.
  rewrite <- seq_shift, !map_map. apply map_ext. intros; lia.
Qed.
Lemma below_add a b : 0 <= a -> 0 <= b -> below (a + b) = below a ++ map (fun i => a + i) (below b).
Proof.
  intros Ha Hb. unfold below. rewrite Z2Nat.inj_add, seq_app, map_app by lia. f_equal. rewrite map_map.
  cbn [Nat.add]. 
  generalize (Z.to_nat b) as m. intros m. clear Hb b.
  transitivity (map Z.of_nat (map (fun i => (Z.to_nat a + i)%nat) (seq 0 m))).
  - f_equal. clear. induction m as [|m IH]; [reflexivity|]. rewrite !seq_S, map_app, IH. reflexivity.
  - rewrite map_map. apply map_ext. intros; lia.
Qed.
Lemma below_mul w b : 0 <= w -> 0 <= b -> below (w * b) = flat_map (fun x => map (fun i => x * b + i) (below b)) (below w).
Proof.
  intros Hw Hb. pattern w. apply natlike_ind; [reflexivity| |exact Hw]. intros x Hx IH.
  rewrite <- Z.add_1_r, below_S, flat_map_app, <- IH by lia. cbn [flat_map]. rewrite app_nil_r, Z.mul_add_distr_r, Z.mul_1_l. apply below_add; nia.
Qed.
Lemma map_flat {A B C} (g : B -> C) (f : A -> list B) l : map g (flat_map f l) = flat_map (fun x => map g (f x)) l.
Proof. induction l; cbn; [easy|]. now rewrite map_app, IHl. Qed.
Lemma flat_map_map {A B C} (f : B -> list C) (g : A -> B) l : flat_map f (map g l) = flat_map (fun x => f (g x)) l.
Proof. induction l; cbn; [easy|]. now rewrite IHl. Qed.
Lemma plane_loop_eq : forall n f p line stride out,
  plane_loop n f p line stride out = out ++ flat_map (fun y => map (fun j => f (p + y * stride + j)) (below line)) (below (Z.of_nat n)).
Proof.
  induction n; intros f p line stride out; cbn [plane_loop]; [now rewrite app_nil_r|].
  rewrite IHn, Nat2Z.inj_succ, <- Z.add_1_r, below_cons by lia. cbn [flat_map]. rewrite <- app_assoc. f_equal.
  rewrite flat_map_map. f_equal; [apply map_ext; intros; f_equal; lia|].
  apply flat_map_ext. intros y. apply map_ext. intros j. f_equal. lia.
Qed.
Lemma write_plane_eq p bytes out : good_plane p -> 0 <= bytes -> write_frame_plane p bytes out = out ++ plane_bytes p bytes.
Proof.
  intros [Hw Hh] Hb. unfold write_frame_plane. rewrite plane_loop_eq, Z2Nat.id by lia. f_equal. unfold plane_bytes, raster.
  apply flat_map_ext. intros y. rewrite below_mul, map_flat by lia. apply flat_map_ext. intros x. rewrite map_map. apply map_ext. intros b. f_equal. lia.
Qed.
Lemma write_frame_eq pic y4m out : good_picture pic -> write_frame pic y4m out = out ++ (if y4m then s_frame else []) ++ picture_bytes pic.
Proof.
  intros (Hb & Hy & Hu & Hv). unfold write_frame, picture_bytes. destruct y4m, (pc_num pic =? 3); rewrite !write_plane_eq by auto; now rewrite <- ?app_assoc, ?app_nil_r.
Qed.
Lemma events_raw : forall l out w, Forall good_picture (frames l) -> output_events false (out, w) l = Done (out ++ flat_map picture_bytes (frames l), w).
Proof.
  induction l as [|[h|h p] l IH]; intros out w G; cbn [output_events output_event bindo frames flat_map app]; [now rewrite app_nil_r| |].
  - apply IH. exact G.
  - cbn [frames flat_map app] in G. inversion G as [|x y G1 G2]; subst. rewrite IH by exact G2. rewrite write_frame_eq by exact G1. cbn [app]. now rewrite <- app_assoc.
Qed.
Lemma rate_ok i : 0 <= i < 9 -> exists a, nth_error FRAME_RATE (Z.to_nat i) = Some a.
Proof. intros H. destruct (nth_error FRAME_RATE (Z.to_nat i)) as [a|] eqn:E; [now exists a|]. apply nth_error_None in E. cbn in E. lia. Qed.
Lemma events_y4m : forall l out, Forall good_picture (frames l) -> good_rates l ->
  output_events true (out, true) l = Done (out ++ flat_map (fun p => s_frame ++ picture_bytes p) (frames l), true).
Proof.
  induction l as [|[h|h p] l IH]; intros out G R; cbn [output_events output_event bindo frames flat_map app]; [now rewrite app_nil_r| |];
    inversion R as [|x y R1 R2]; subst.
  - destruct (rate_ok _ R1) as [[a b] ->]. cbn [bindo]. now apply IH.
  - cbn [frames flat_map app] in G. inversion G as [|x y G1 G2]; subst. rewrite IH by assumption. rewrite write_frame_eq by exact G1. now rewrite <- app_assoc.
Qed.

(** Numbers in the header. *)
Lemma decimal_app : forall a b acc, decimal acc (a ++ b) = decimal (decimal acc a) b.
Proof. induction a; intros; cbn; auto. Qed.
Lemma digits_value : forall f n, 0 <= n < 10 ^ Z.of_nat f -> decimal 0 (digits f n) = n /\ Forall (fun c => 48 <= c <= 57) (digits f n).
Proof.
  induction f; intros n H; [change (10 ^ Z.of_nat 0) with 1 in H; cbn; split; [lia|constructor]|].
  cbn [digits]. destruct (Z.ltb_spec n 10).
  - split; [cbn [decimal]; lia|]. constructor; [lia|constructor].
  - rewrite Nat2Z.inj_succ, Z.pow_succ_r in H by lia. destruct (IHf (n / 10)) as [V D].
    { split; [apply Z.div_pos; lia|]. apply Z.div_lt_upper_bound; lia. }
    rewrite decimal_app, V. cbn [decimal]. pose proof (Z.div_mod n 10 ltac:(lia)). pose proof (Z.mod_pos_bound n 10 ltac:(lia)).
    split; [lia|]. apply Forall_app. split; [exact D|]. constructor; [lia|constructor].
Qed.
Lemma digits_len : forall k f n, (1 <= k)%nat -> 0 <= n < 10 ^ Z.of_nat k -> (length (digits f n) <= k)%nat.
Proof.
  intros k f. revert k. induction f; intros k n Hk H; [cbn; lia|]. cbn [digits]. destruct (Z.ltb_spec n 10); [cbn; lia|].
  destruct k as [|[|k]]; [lia|change (10 ^ Z.of_nat 1) with 10 in H; lia|].
  rewrite app_length. cbn [length]. enough (length (digits f (n / 10)) <= S k)%nat by lia. apply IHf; [lia|].
  rewrite Nat2Z.inj_succ, Z.pow_succ_r in H by lia. split; [apply Z.div_pos; lia|]. apply Z.div_lt_upper_bound; lia.
Qed.
Lemma text_len w h num den depth : 0 <= w < 100000 -> 0 <= h < 100000 -> In (num, den) FRAME_RATE -> 0 <= depth < 100 ->
  Z.of_nat (length (y4m_text w h num den depth)) < 64.
Proof.
  intros Hw Hh Hr Hd. unfold y4m_text. rewrite !app_length. cbn [length].
  assert (length (print_d w) <= 5)%nat by (apply digits_len; [lia|exact Hw]).
  assert (length (print_d h) <= 5)%nat by (apply digits_len; [lia|exact Hh]).
  assert (length (print_d depth) <= 2)%nat by (apply digits_len; [lia|exact Hd]).
  assert (0 <= num < 10 ^ 5 /\ 0 <= den < 10 ^ 4) as [Hn Hq] by (cbn in Hr; repeat (destruct Hr as [E|Hr]; [injection E as <- <-; lia|]); easy).
  assert (length (print_d num) <= 5)%nat by (apply digits_len; [lia|exact Hn]).
  assert (length (print_d den) <= 4)%nat by (apply digits_len; [lia|exact Hq]).
  destruct (depth =? 8); cbn [length app]; try lia.
Qed.

(** Place of a sample. *)
Lemma below_len n : 0 <= n -> Z.of_nat (length (below n)) = n.
Proof. intros. unfold below. rewrite map_length, seq_length. lia. Qed.
Lemma flat_len {A} (f : A -> list Z) m l : (forall x, length (f x) = m) -> length (flat_map f l) = (length l * m)%nat.
Proof. intros H. induction l; cbn; [easy|]. rewrite app_length, H, IHl. reflexivity. Qed.
Lemma flat_nth (f : Z -> list Z) m n y j : (forall x, length (f x) = m) -> 0 <= y < n -> (j < m)%nat ->
  nth (Z.to_nat y * m + j) (flat_map f (below n)) 0 = nth j (f y) 0.
Proof.
  intros H Hy Hj. replace n with (y + (1 + (n - y - 1))) by lia. rewrite below_add, flat_map_app by lia.
  rewrite app_nth2; rewrite (flat_len f m) by exact H; unfold below at 1; rewrite map_length, seq_length; [|nia].
  replace (Z.to_nat y * m + j - Z.to_nat y * m)%nat with j by lia.
  rewrite (below_add 1), map_app by lia. change (below 1) with [0]. cbn [map app flat_map]. rewrite Z.add_0_r. now rewrite app_nth1 by (rewrite H; exact Hj).
Qed.
Lemma raster_len mem base w h stride bytes : 0 <= w -> 0 <= h -> 0 <= bytes -> Z.of_nat (length (raster mem base w h stride bytes)) = h * w * bytes.
Proof.
  intros. unfold raster. rewrite (flat_len _ (Z.to_nat (w * bytes))).
  - pose proof (below_len h). nia.
  - intros y. rewrite (flat_len _ (Z.to_nat bytes)).
    + pose proof (below_len w). nia.
    + intros x. rewrite map_length. pose proof (below_len bytes). lia.
Qed.
Lemma raster_nth mem base w h stride bytes x y b : 0 <= x < w -> 0 <= y < h -> 0 <= b < bytes ->
  nth (Z.to_nat ((y * w + x) * bytes + b)) (raster mem base w h stride bytes) 0 = mem (base + y * stride + x * bytes + b).
Proof.
  intros Hx Hy Hb. unfold raster.
  replace (Z.to_nat ((y * w + x) * bytes + b)) with (Z.to_nat y * Z.to_nat (w * bytes) + Z.to_nat (x * bytes + b))%nat by nia.
  assert (HI : forall y0 x0, length (map (fun b0 => mem (base + y0 * stride + x0 * bytes + b0)) (below bytes)) = Z.to_nat bytes)
    by (intros; rewrite map_length; pose proof (below_len bytes); lia).
  rewrite flat_nth.
  - replace (Z.to_nat (x * bytes + b)) with (Z.to_nat x * Z.to_nat bytes + Z.to_nat b)%nat by nia.
    rewrite flat_nth; [|intros; apply HI|lia|lia].
    rewrite (nth_indep _ 0 (mem (base + y * stride + x * bytes + Z.of_nat 0))) by (rewrite HI; lia).
    unfold below. rewrite (map_nth (fun b0 => mem (base + y * stride + x * bytes + b0))), map_nth, seq_nth by lia. f_equal. lia.
  - intros y0. rewrite (flat_len _ (Z.to_nat bytes)) by (intros; apply HI). pose proof (below_len w). nia.
  - lia.
  - nia.
Qed.

Lemma plane_len p bytes : good_plane p -> 0 <= bytes -> Z.of_nat (length (plane_bytes p bytes)) = bytes * samples p.
Proof. intros [? ?] ?. unfold plane_bytes, samples. rewrite raster_len by auto. lia. Qed.
Lemma picture_len pic : good_picture pic -> Z.of_nat (length (picture_bytes pic)) = picture_size pic.
Proof.
  intros (Hb & Hy & Hu & Hv). unfold picture_bytes, picture_size. destruct (pc_num pic =? 3); rewrite ?app_length, ?Nat2Z.inj_add, !plane_len by auto; cbn [length]; lia.
Qed.
Lemma total_len l : Forall good_picture l -> Z.of_nat (length (flat_map picture_bytes l)) = total l.
Proof. induction 1 as [|p l H _ IH]; [reflexivity|]. cbn [flat_map total fold_right]. rewrite app_length, Nat2Z.inj_add, IH, picture_len by exact H. reflexivity. Qed.
Lemma size_pos p : good_picture p -> 0 <= picture_size p.
Proof. intros H. rewrite <- picture_len by exact H. lia. Qed.
Lemma total_pos l : Forall good_picture l -> 0 <= total l.
Proof. intros H. rewrite <- total_len by exact H. lia. Qed.
Lemma plane_at p bytes x y b pre post : good_plane p -> 0 <= x < pl_w p -> 0 <= y < pl_h p -> 0 <= b < bytes ->
  nth (length pre + Z.to_nat ((y * pl_w p + x) * bytes + b)) (pre ++ plane_bytes p bytes ++ post) 0 = pl_mem p (pl_at p + y * pl_stride p + x * bytes + b).
Proof.
  intros G Hx Hy Hb. rewrite app_nth2_plus. rewrite app_nth1.
  - now apply raster_nth.
  - pose proof (plane_len p bytes G ltac:(lia)) as L. unfold samples in L.
    pose proof (Z.mul_le_mono_nonneg_r (y + 1) (pl_h p) (pl_w p) ltac:(lia) ltac:(lia)) as M.
    pose proof (Z.mul_nonneg_nonneg y (pl_w p) ltac:(lia) ltac:(lia)) as N.
    pose proof (Z.mul_le_mono_nonneg_r (y * pl_w p + x + 1) (pl_w p * pl_h p) bytes ltac:(lia) ltac:(lia)) as M2.
    pose proof (Z.mul_nonneg_nonneg (y * pl_w p + x) bytes ltac:(lia) ltac:(lia)) as N2. lia.
Qed.
Lemma number_print n : 0 <= n < 10 ^ 20 -> number (print_d n) n.
Proof.
  intros H. destruct (digits_value 20 n H) as [V D]. split; [exact V|]. split; [|exact D].
  change (print_d n) with (if n <? 10 then [48 + n] else digits 19 (n / 10) ++ [48 + n mod 10]).
  destruct (n <? 10); [discriminate|]. intros E. apply app_eq_nil in E as [_ E]. discriminate E.
Qed.
Lemma text_line w h num den depth : 0 <= w < 100000 -> 0 <= h < 100000 -> 0 <= num < 100000 -> 0 <= den < 100000 -> 0 <= depth < 100 ->
  y4m_line (y4m_text w h num den depth) w h num den depth.
Proof.
  intros. exists (print_d w), (print_d h), (print_d num), (print_d den), (if depth =? 8 then [] else [112] ++ print_d depth).
  split; [reflexivity|]. split; [apply number_print; lia|]. split; [apply number_print; lia|]. split; [apply number_print; lia|].
  split; [apply number_print; lia|]. destruct (Z.eqb_spec depth 8) as [E|E]; [now left|right]. split; [exact E|]. exists (print_d depth). split; [easy|apply number_print; lia].
Qed.
Lemma rate_row i : 1 <= i < 9 -> exists num den, nth_error FRAME_RATE (Z.to_nat i) = Some (num, den) /\ rate_of i num den /\ In (num, den) FRAME_RATE.
Proof.
  intros H. assert (i = 1 \/ i = 2 \/ i = 3 \/ i = 4 \/ i = 5 \/ i = 6 \/ i = 7 \/ i = 8) as C by lia.
  unfold rate_of. repeat (destruct C as [->|C]; [cbn; do 2 eexists; split; [reflexivity|]; split; [intuition|intuition]|]). subst i.
  cbn; do 2 eexists; split; [reflexivity|]; split; intuition.
Qed.
Lemma y4m_file h r : 1 <= hd_rate_id h < 9 -> 0 <= hd_w h < 100000 -> 0 <= hd_h h < 100000 -> 0 <= hd_depth h < 100 ->
  good_rates r -> Forall good_picture (frames r) ->
  exists num den t, rate_of (hd_rate_id h) num den /\ y4m_line t (hd_w h) (hd_h h) num den (hd_depth h) /\
    output_file true (GotHeader h :: r) = Done (t ++ flat_map (fun p => s_frame ++ picture_bytes p) (frames r)).
Proof.
  intros Hr Hw Hh Hd R G. destruct (rate_row _ Hr) as (num & den & E & RO & I). exists num, den, (y4m_text (hd_w h) (hd_h h) num den (hd_depth h)).
  assert (0 <= num < 100000 /\ 0 <= den < 100000) as [Hn Hq] by (unfold rate_of in RO; clear - RO; intuition; try (injection H1; lia)).
  split; [exact RO|]. split; [now apply text_line|]. unfold output_file. cbn [output_events output_event]. rewrite E.
  pose proof (text_len (hd_w h) (hd_h h) num den (hd_depth h) Hw Hh I Hd) as T. apply Z.ltb_lt in T. rewrite T. cbn [bindo]. rewrite events_y4m by assumption. reflexivity.
Qed.
Lemma raw_file l : Forall good_picture (frames l) -> output_file false l = Done (flat_map picture_bytes (frames l)).
Proof. intros G. unfold output_file. rewrite events_raw by exact G. reflexivity. Qed.
Lemma raw_place l before pic after : Forall good_picture (frames l) -> frames l = before ++ pic :: after ->
  exists file, output_file false l = Done file /\ Z.of_nat (length file) = total (frames l) /\
  (forall x y b, 0 <= x < pl_w (pc_y pic) -> 0 <= y < pl_h (pc_y pic) -> 0 <= b < pc_bytes pic ->
     nth (Z.to_nat (total before + (y * pl_w (pc_y pic) + x) * pc_bytes pic + b)) file 0 =
     pl_mem (pc_y pic) (pl_at (pc_y pic) + y * pl_stride (pc_y pic) + x * pc_bytes pic + b)) /\
  (pc_num pic = 3 -> forall x y b, 0 <= x < pl_w (pc_u pic) -> 0 <= y < pl_h (pc_u pic) -> 0 <= b < pc_bytes pic ->
     nth (Z.to_nat (total before + pc_bytes pic * samples (pc_y pic) + (y * pl_w (pc_u pic) + x) * pc_bytes pic + b)) file 0 =
     pl_mem (pc_u pic) (pl_at (pc_u pic) + y * pl_stride (pc_u pic) + x * pc_bytes pic + b)) /\
  (pc_num pic = 3 -> forall x y b, 0 <= x < pl_w (pc_v pic) -> 0 <= y < pl_h (pc_v pic) -> 0 <= b < pc_bytes pic ->
     nth (Z.to_nat (total before + pc_bytes pic * (samples (pc_y pic) + samples (pc_u pic)) + (y * pl_w (pc_v pic) + x) * pc_bytes pic + b)) file 0 =
     pl_mem (pc_v pic) (pl_at (pc_v pic) + y * pl_stride (pc_v pic) + x * pc_bytes pic + b)).
Proof.
  intros G E. exists (flat_map picture_bytes (frames l)). split; [now apply raw_file|]. split; [now apply total_len|].
  assert (G2 := G). rewrite E in G2. apply Forall_app in G2 as [Gb G2]. inversion G2 as [|x0 y0 Gp Ga E1]; subst.
  destruct Gp as (Hb & Gy & Gu & Gv). rewrite E, flat_map_app. cbn [flat_map]. rewrite <- (total_len before) by exact Gb.
  set (pre := flat_map picture_bytes before).
  assert (PB : picture_bytes pic = plane_bytes (pc_y pic) (pc_bytes pic) ++
    if pc_num pic =? 3 then plane_bytes (pc_u pic) (pc_bytes pic) ++ plane_bytes (pc_v pic) (pc_bytes pic) else []) by reflexivity.
  rewrite PB. clear PB.
  pose proof (plane_len _ _ Gy Hb) as Ly. pose proof (plane_len _ _ Gu Hb) as Lu.
  assert (P : forall w x y b, 0 <= x < w -> 0 <= y -> 0 <= b < pc_bytes pic -> 0 <= (y * w + x) * pc_bytes pic + b).
  { intros w x y b Hx Hy Hb'. pose proof (Z.mul_nonneg_nonneg y w ltac:(lia) ltac:(lia)). pose proof (Z.mul_nonneg_nonneg (y * w + x) (pc_bytes pic) ltac:(lia) ltac:(lia)). lia. }
  split; [|split].
  - intros x y b Hx Hy Hb'. pose proof (P _ _ _ _ Hx (proj1 Hy) Hb') as P'.
    rewrite <- Z.add_assoc, Z2Nat.inj_add, Nat2Z.id by lia. rewrite <- app_assoc. now apply plane_at.
  - intros N3 x y b Hx Hy Hb'. rewrite N3. change (3 =? 3) with true. cbn iota. pose proof (P _ _ _ _ Hx (proj1 Hy) Hb') as P'.
    rewrite <- Ly, <- Nat2Z.inj_add, <- app_length, <- Z.add_assoc, Z2Nat.inj_add, Nat2Z.id by lia.
    rewrite <- !app_assoc, (app_assoc pre). now apply plane_at.
  - intros N3 x y b Hx Hy Hb'. rewrite N3. change (3 =? 3) with true. cbn iota. pose proof (P _ _ _ _ Hx (proj1 Hy) Hb') as P'.
    rewrite Z.mul_add_distr_l, Z.add_assoc, <- Ly, <- Lu, <- !Nat2Z.inj_add, <- !app_length, <- Z.add_assoc, Z2Nat.inj_add, Nat2Z.id by lia.
    rewrite <- !app_assoc. rewrite (app_assoc (plane_bytes (pc_y pic) _) (plane_bytes (pc_u pic) _) (_ ++ _)), (app_assoc pre (_ ++ _) (_ ++ _)). now apply plane_at.
Qed.
