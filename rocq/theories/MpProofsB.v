(** Proofs: places of the neighbours of a part. *)
From Coq Require Import ZArith List Bool Lia.
From Verif Require Import CBase CBaseProofs MemModel SaoModel SaoProofs QpModel UtilModel MvModel MvSpec MvProofs HdrModel SynModel CuModel NbModel NbSpec NbProofs MpModel MpSpec MpProofs.
Import ListNotations.
Open Scope Z_scope.

(** ** Geometry *)
Definition shape_ok (level ty : Z) (four : bool) : Prop := 0 <= ty <= 7 /\ (4 <= ty -> 4 <= level) /\ (four = true -> ty = 0 /\ 4 <= level).
Definition check_part (lv level ty : Z) (four : bool) (cx cy : Z) (k : nat) : bool :=
  let n := 2 ^ (level - 2) in
  let N := 2 ^ (lv - 2) in
  let '(bx, by_, w, h) := nth k (parts four ty n) (0, 0, 0, 0) in
  let x := cx + bx in let y := cy + by_ in
  let bf := before (Z.to_nat (lv - 2)) (parts four ty n) n cx cy k in
  (0 <=? bx) && (0 <=? by_) && (0 <? w) && (0 <? h) && (bx + w <=? n) && (by_ + h <=? n) &&
  Bool.eqb (entry (tab_TR lv) (y * N + (x + w - 1))) (bf (x + w) (y - 1)) &&
  bf (x - 1) y && bf x (y - 1) && bf (x - 1) (y - 1) && bf (x + w - 1) (y - 1) && bf (x - 1) (y + h - 1).
Definition check_unit (lv level ty : Z) (four : bool) : bool :=
  let n := 2 ^ (level - 2) in
  forallb (fun ny => forallb (fun nx => forallb (fun k => check_part lv level ty four (nx * n) (ny * n) k) (seq 0 (length (parts four ty n)))) (upto (2 ^ (lv - level)))) (upto (2 ^ (lv - level))).
Lemma check_parts : forallb (fun lv => forallb (fun level => negb (level <=? lv) ||
  forallb (fun ty => negb ((ty <? 4) || (4 <=? level)) || check_unit lv level ty false) [0; 1; 2; 3; 4; 5; 6; 7] && (negb (4 <=? level) || check_unit lv level 0 true)) [3; 4; 5; 6]) [4; 5; 6] = true.
Proof. vm_compute. reflexivity. Qed.
Lemma check_unit_ok lv level ty four : 4 <= lv <= 6 -> 3 <= level <= lv -> shape_ok level ty four -> check_unit lv level ty four = true.
Proof.
  intros Hv Hl (Ht & H4 & Hf). pose proof check_parts as H. rewrite forallb_forall in H. specialize (H lv). assert (I1 : In lv [4; 5; 6]) by (cbn; lia). specialize (H I1).
  rewrite forallb_forall in H. specialize (H level). assert (I2 : In level [3; 4; 5; 6]) by (cbn; lia). specialize (H I2).
  replace (level <=? lv) with true in H by (symmetry; apply Z.leb_le; lia). cbn [negb orb] in H. apply andb_true_iff in H. destruct H as [H1 H2].
  destruct four.
  - destruct (Hf eq_refl) as [-> H5]. replace (4 <=? level) with true in H2 by (symmetry; apply Z.leb_le; lia). exact H2.
  - rewrite forallb_forall in H1. specialize (H1 ty). assert (I3 : In ty [0; 1; 2; 3; 4; 5; 6; 7]) by (cbn; lia). specialize (H1 I3).
    replace ((ty <? 4) || (4 <=? level)) with true in H1; [exact H1|]. symmetry. apply orb_true_iff. rewrite Z.ltb_lt, Z.leb_le. lia.
Qed.
Lemma before_shift l ps n cx cy k x y a b :
  before l ps n (cx + 2 ^ Z.of_nat l * a) (cy + 2 ^ Z.of_nat l * b) k (x + 2 ^ Z.of_nat l * a) (y + 2 ^ Z.of_nat l * b) = before l ps n cx cy k x y.
Proof.
  unfold before. rewrite unit_shift. unfold in_block at 1. unfold in_block at 2.
  set (A := 2 ^ Z.of_nat l * a). set (B := 2 ^ Z.of_nat l * b).
  replace (cx + A + n) with (cx + n + A) by lia. replace (cy + B + n) with (cy + n + B) by lia.
  rewrite !leb_add_r, !ltb_add_r. replace (x + A - (cx + A)) with (x - cx) by lia. replace (y + B - (cy + B)) with (y - cy) by lia. reflexivity.
Qed.

(** A part of an inter coding unit at a place in the picture (units of 4x4 samples). *)
Record part_at (lv level ty : Z) (four : bool) (cx cy : Z) (k : nat) (bx by_ w h : Z) : Prop := {
  pa_lv : 4 <= lv <= 6; pa_level : 3 <= level <= lv; pa_shape : shape_ok level ty four;
  pa_x : 0 <= cx; pa_y : 0 <= cy; pa_ax : cx mod 2 ^ (level - 2) = 0; pa_ay : cy mod 2 ^ (level - 2) = 0;
  pa_k : nth_error (parts four ty (2 ^ (level - 2))) k = Some (bx, by_, w, h) }.
Definition bf (lv level ty : Z) (four : bool) (cx cy : Z) (k : nat) : Z -> Z -> bool :=
  before (Z.to_nat (lv - 2)) (parts four ty (2 ^ (level - 2))) (2 ^ (level - 2)) cx cy k.
Lemma part_facts lv level ty four cx cy k bx by_ w h : part_at lv level ty four cx cy k bx by_ w h ->
  let n := 2 ^ (level - 2) in
  let N := 2 ^ (lv - 2) in
  let b := bf lv level ty four cx cy k in
  let x := cx + bx in let y := cy + by_ in
  let rx := cx mod N + bx in let ry := cy mod N + by_ in
  0 <= bx /\ 0 <= by_ /\ 0 < w /\ 0 < h /\ bx + w <= n /\ by_ + h <= n /\ cx mod N + n <= N /\ cy mod N + n <= N /\
  entry (tab_TR lv) (ry * N + (rx + w - 1)) = b (x + w) (y - 1) /\
  b (x - 1) y = true /\ b x (y - 1) = true /\ b (x - 1) (y - 1) = true /\ b (x + w - 1) (y - 1) = true /\ b (x - 1) (y + h - 1) = true.
Proof.
  intros [Hv Hl Hs Hx Hy Ax Ay Hk]. cbv zeta. unfold bf.
  destruct (rel_pos level lv cx Hl Ax) as (nx & Hnx & Mx & Ex). destruct (rel_pos level lv cy Hl Ay) as (ny & Hny & My & Ey).
  pose proof (check_unit_ok lv level ty four Hv Hl Hs) as C. unfold check_unit in C. cbv zeta in C.
  rewrite forallb_upto in C. specialize (C ny Hny). rewrite forallb_upto in C. specialize (C nx Hnx). rewrite forallb_forall in C. specialize (C k).
  assert (Ik : In k (seq 0 (length (parts four ty (2 ^ (level - 2)))))) by (apply in_seq; split; [lia|]; apply nth_error_Some; rewrite Hk; discriminate).
  specialize (C Ik). unfold check_part in C. cbv zeta in C. rewrite (nth_error_nth _ _ _ Hk) in C.
  rewrite !andb_true_iff in C. destruct C as (((((((((((C0 & C1) & C2) & C3) & C4) & C5) & C6) & C7) & C8) & C9) & C10) & C11).
  rewrite Z.leb_le in C0, C1, C4, C5. rewrite Z.ltb_lt in C2, C3. apply eqb_prop in C6.
  assert (EN : 2 ^ (lv - 2) = 2 ^ Z.of_nat (Z.to_nat (lv - 2))) by (clear - Hv; rewrite Z2Nat.id by lia; reflexivity).
  rewrite Mx, My. set (ps := parts four ty (2 ^ (level - 2))) in *. clearbody ps.
  assert (T : forall u v, before (Z.to_nat (lv - 2)) ps (2 ^ (level - 2)) cx cy k (u + 2 ^ (lv - 2) * (cx / 2 ^ (lv - 2))) (v + 2 ^ (lv - 2) * (cy / 2 ^ (lv - 2)))
                        = before (Z.to_nat (lv - 2)) ps (2 ^ (level - 2)) (nx * 2 ^ (level - 2)) (ny * 2 ^ (level - 2)) k u v).
  { intros u v. rewrite Ex at 1. rewrite Ey at 1. rewrite EN at 1 2 3 4 5 6 7 8. apply before_shift. }
  set (n := 2 ^ (level - 2)) in *. set (N := 2 ^ (lv - 2)) in *. set (a := cx / N) in *. set (b := cy / N) in *.
  assert (Q : N = n * 2 ^ (lv - level)) by (clear - Hl; unfold n, N; rewrite <- Z.pow_add_r by lia; f_equal; lia).
  assert (Pn : 0 < n) by (clear - Hl; apply Z.pow_pos_nonneg; lia).
  assert (nx * n + n <= N) by (rewrite Q; clear - Hnx Pn; set (q := 2 ^ (lv - level)) in *; clearbody q; nia).
  assert (ny * n + n <= N) by (rewrite Q; clear - Hny Pn; set (q := 2 ^ (lv - level)) in *; clearbody q; nia).
  assert (T' : forall u v u' v', u' = u + N * a -> v' = v + N * b -> before (Z.to_nat (lv - 2)) ps n cx cy k u' v' = before (Z.to_nat (lv - 2)) ps n (nx * n) (ny * n) k u v)
    by (intros u v u' v' -> ->; apply T).
  repeat (split; [assumption|]).
  split; [rewrite C6; symmetry; apply T'; clear - Ex Ey; lia|].
  split; [rewrite <- C7; apply T'; clear - Ex Ey; lia|]. split; [rewrite <- C8; apply T'; clear - Ex Ey; lia|]. split; [rewrite <- C9; apply T'; clear - Ex Ey; lia|]. split; [rewrite <- C10; apply T'; clear - Ex Ey; lia|rewrite <- C11; apply T'; clear - Ex Ey; lia].
Qed.

(** The column asked for the block above right. *)
Lemma tr_ok lv level ty four cx cy k bx by_ w h E Q : part_at lv level ty four cx cy k bx by_ w h -> e_lv E = lv ->
  q_lx Q = cx - cx mod 2 ^ (lv - 2) -> q_ly Q = cy - cy mod 2 ^ (lv - 2) ->
  tr_column E Q (cx + bx + w - 1) (cy + by_) = Done (if bf lv level ty four cx cy k (cx + bx + w) (cy + by_ - 1) then cx + bx + w else -1).
Proof.
  intros P Ev Qx Qy. pose proof (part_facts _ _ _ _ _ _ _ _ _ _ _ P) as F. cbv zeta in F. destruct F as (B0 & B1 & B2 & B3 & B4 & B5 & B6 & B7 & T & _).
  pose proof (pa_lv _ _ _ _ _ _ _ _ _ _ _ P) as Hv. pose proof (tab_len lv Hv) as [_ LT].
  unfold tr_column. rewrite Ev, Qx, Qy. rewrite Z.shiftl_mul_pow2 by lia.
  assert (PN : 0 < 2 ^ (lv - 2)) by (apply Z.pow_pos_nonneg; lia).
  pose proof (Z.mod_pos_bound cx _ PN) as Rx. pose proof (Z.mod_pos_bound cy _ PN) as Ry.
  set (N := 2 ^ (lv - 2)) in *. set (rx := cx mod N) in *. set (ry := cy mod N) in *. set (n := 2 ^ (level - 2)) in *.
  replace ((cy + by_ - (cy - ry)) * N + (cx + bx + w - 1 - (cx - rx))) with ((ry + by_) * N + (rx + bx + w - 1)) by ring.
  destruct (entry_get (tab_TR lv) ((ry + by_) * N + (rx + bx + w - 1))) as (v & G & E1).
  { rewrite LT. clear - B0 B1 B2 B3 B4 B5 B6 B7 PN Rx Ry. clearbody N rx ry n. nia. }
  rewrite G. rewrite <- T, E1. destruct (v =? 0); cbn [negb]; [reflexivity|]. f_equal. lia.
Qed.
