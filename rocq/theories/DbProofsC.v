(** One plane: LCUs, rows, the picture. *)
From Coq Require Import ZArith List Bool Lia.
From Verif Require Import CBase CBaseProofs MemModel MemProofs UtilModel MvProofs QpModel LfModel LfSpec LfProofs SaoSpec DbModel DbSpec DbProofsB.
Import ListNotations.
Open Scope Z_scope.

(** Edges dealt with: all of the LCU rows above in columns below [C]; in this LCU row the columns below [B];
    then, in the part being processed, rows before [j] up to column [E] and [i] edges of row [j]. *)
Definition done (C y0 N B E j i u v : Z) : Prop :=
  (v < y0 /\ u < C) \/ (y0 <= v < y0 + N /\ u < B) \/ (y0 <= v < y0 + j /\ u < E) \/ (v = y0 + j /\ B <= u < B + i).
Lemma done_dec C y0 N B E j i u v : done C y0 N B E j i u v \/ ~ done C y0 N B E j i u v.
Proof. unfold done. lia. Qed.

Section Pl.
  Variables (p : pict) (c : bool) (bits base st : Z) (al be : Z -> Z) (R : Z -> Z -> Z) (wl hl : Z).
  Definition N := 2 ^ (p_lv p - 3).
  Definition skipped := c && p_c400 p.
  Definition covered := fun u : Z => u <? (if 2 <=? wl then p_ws p else p_ws p - 1).
  Notation OP := (op p c bits base st al be).
  Notation INV := (inv p c base st al be R covered).
  Notation AD := (addr base st).
  (** The plane operations of one LCU, one row, the picture. *)
  Definition ver_loop (x0 y0 nh nv : Z) (m : mem) : mem := loop (Z.to_nat nv) (fun j m => loop (Z.to_nat nh) (fun i m => OP 0 (x0 + i) (y0 + j) m) m) m.
  Definition hor_loop (x0 y0 nh nv : Z) (m : mem) : mem := loop (Z.to_nat nv) (fun j m => loop (Z.to_nat nh) (fun i m => OP 1 (x0 + i) (y0 + j) m) m) m.
  Definition cols_left (lx : Z) := Z.min (p_ws p - lx * N) N.
  Definition rows_left (ly : Z) := Z.min (p_hs p - ly * N) N.
  Definition hor_from (lx : Z) := if lx * N =? 0 then lx * N else lx * N - 1.
  Definition hor_count (lx : Z) := if lx * N =? 0 then cols_left lx - 1 else if lx * N + cols_left lx =? p_ws p then cols_left lx + 1 else cols_left lx.
  Definition put (lx ly : Z) (m : mem) : mem := if skipped then m else store_lcu p base st (if c then 1 else 0) lx ly R m.
  Definition lcu_pl (lx ly : Z) (m : mem) : mem :=
    hor_loop (hor_from lx) (ly * N) (hor_count lx) (rows_left ly) (ver_loop (lx * N) (ly * N) (cols_left lx) (rows_left ly) (put lx ly m)).
  Definition row_pl (ly : Z) (m : mem) : mem := loop (Z.to_nat wl) (fun lx m => lcu_pl lx ly m) m.
  Definition pic_pl (m : mem) : mem := loop (Z.to_nat hl) row_pl m.

  Hypothesis Lv : 3 <= p_lv p <= 6.
  Hypothesis St : 8 <= st.
  Hypothesis Wst : pw p c <= st.
  Hypothesis Ws : 0 < p_ws p.
  Hypothesis Hs : 0 < p_hs p.
  Hypothesis Wl : 0 < wl /\ (wl - 1) * N < p_ws p <= wl * N.
  Hypothesis Hl : 0 < hl /\ (hl - 1) * N < p_hs p <= hl * N.
  Lemma N_pos : 0 < N. Proof. unfold N. apply Z.pow_pos_nonneg; lia. Qed.

  (** Sets when LCU [(lx, ly)] is next. *)
  Definition CC := if 2 <=? wl then p_ws p else p_ws p - 1.
  Definition bv (lx : Z) := Z.min (lx * N) (p_ws p).
  Definition bh (lx : Z) := if lx <=? 0 then 0 else if lx <? wl then lx * N - 1 else CC.
  Definition DV0 (lx ly : Z) := done (p_ws p) (ly * N) N (bv lx) (bv lx) 0 0.
  Definition DH0 (lx ly : Z) := done CC (ly * N) N (bh lx) (bh lx) 0 0.
  Definition Wr0 (lx ly u v : Z) : Prop := v < ly * N \/ (ly * N <= v < ly * N + N /\ u < lx * N).

  Section Lcu.
    Variables lx ly : Z.
    Hypothesis Hx : 0 <= lx < wl.
    Hypothesis Hy : 0 <= ly < hl.
    Lemma geo : 0 <= lx * N < p_ws p /\ 0 <= ly * N < p_hs p /\ 0 < cols_left lx <= N /\ 0 < rows_left ly <= N /\
      lx * N + cols_left lx = bv (lx + 1) /\ bv lx = lx * N /\ hor_from lx = bh lx /\ 0 <= bh lx <= Z.max 0 (lx * N - 1) /\ 0 <= hor_count lx /\ bh lx + hor_count lx = bh (lx + 1) /\ bh (lx + 1) <= CC /\
      (bh (lx + 1) < bv (lx + 1) \/ (bh (lx + 1) = p_ws p /\ bv (lx + 1) = p_ws p)) /\ lx * N - 1 <= bh lx.
    Proof.
      pose proof N_pos as N0.
      assert (A : lx * N <= (wl - 1) * N) by (apply Z.mul_le_mono_nonneg_r; lia). assert (B : ly * N <= (hl - 1) * N) by (apply Z.mul_le_mono_nonneg_r; lia).
      assert (A0 : 0 <= lx * N) by (apply Z.mul_nonneg_nonneg; lia). assert (B0 : 0 <= ly * N) by (apply Z.mul_nonneg_nonneg; lia).
      assert (A1 : 1 <= lx -> 1 * N <= lx * N) by (intros; apply Z.mul_le_mono_nonneg_r; lia).
      assert (A2 : lx < wl - 1 -> (lx + 1) * N <= (wl - 1) * N) by (intros; apply Z.mul_le_mono_nonneg_r; lia).
      assert (A3 : lx = wl - 1 -> lx * N = (wl - 1) * N) by (intros ->; reflexivity).
      assert (L : p_ws p <= (lx + 1) * N -> lx = wl - 1) by (intros; destruct (Z.eq_dec lx (wl - 1)); [assumption|specialize (A2 ltac:(lia)); lia]).
      unfold hor_from, hor_count, bh, bv, CC, cols_left, rows_left.
      destruct (Z.eqb_spec (lx * N) 0) as [E|E].
      - assert (lx = 0) by (destruct (Z.eq_dec lx 0); [assumption|specialize (A1 ltac:(lia)); lia]). subst lx. cbn [Z.leb Z.compare].
        destruct (Z.leb_spec (0 + 1) 0); [lia|]. destruct (Z.ltb_spec (0 + 1) wl); destruct (Z.leb_spec 2 wl); lia.
      - assert (0 < lx) by (destruct (Z.eq_dec lx 0); [subst; lia|lia]). destruct (Z.leb_spec lx 0); [lia|]. destruct (Z.ltb_spec lx wl); [|lia]. destruct (Z.leb_spec (lx + 1) 0); [lia|].
        destruct (Z.leb_spec 2 wl); [|lia]. destruct (Z.ltb_spec (lx + 1) wl).
        + destruct (Z.eqb_spec (lx * N + Z.min (p_ws p - lx * N) N) (p_ws p)); lia.
        + destruct (Z.eqb_spec (lx * N + Z.min (p_ws p - lx * N) N) (p_ws p)); lia.
    Qed.

    (** Storing. *)
    Lemma put_spec m : skipped = false ->
      (forall x y, 0 <= x < pw p c -> 0 <= y < ph p c -> lx * N <= x / per c < lx * N + N -> ly * N <= y / per c < ly * N + N -> put lx ly m (AD x y) = R x y) /\
      (forall q, (forall x y, 0 <= x < pw p c -> 0 <= y < ph p c -> lx * N <= x / per c < lx * N + N -> ly * N <= y / per c < ly * N + N -> q <> AD x y) -> put lx ly m q = m q).
    Proof.
      intros SK. unfold put. rewrite SK. pose proof geo as (G1 & G2 & G3 & G4 & _). pose proof N_pos as N0.
      set (sh := if c then 1 else 0). assert (PE : per c = 2 ^ (3 - sh)) by (unfold sh, per; destruct c; reflexivity). assert (SH : 0 <= sh <= 1) by (unfold sh; destruct c; lia).
      assert (P0 : 0 < per c) by (destruct (per_cases c); lia).
      assert (EL : 2 ^ (p_lv p - sh) = per c * N) by (rewrite PE; unfold N; rewrite <- Z.pow_add_r by lia; f_equal; lia).
      unfold store_lcu. cbv zeta. rewrite !Z.shiftl_mul_pow2 by lia. rewrite EL, <- PE.
      replace (lx * (per c * N)) with (per c * (lx * N)) by lia. replace (ly * (per c * N)) with (per c * (ly * N)) by lia.
      set (x0 := per c * (lx * N)). set (y0 := per c * (ly * N)).
      assert (W1 : Z.min (1 * (per c * N)) (p_ws p * per c - x0) = per c * cols_left lx). { unfold cols_left, x0. destruct (Z.min_spec (p_ws p - lx * N) N) as [[Q ->]|[Q ->]].
        - assert (per c * (p_ws p - lx * N) <= per c * N) by (apply Z.mul_le_mono_nonneg_l; lia). lia.
        - assert (per c * N <= per c * (p_ws p - lx * N)) by (apply Z.mul_le_mono_nonneg_l; lia). lia. }
      assert (H1 : Z.min (1 * (per c * N)) (p_hs p * per c - y0) = per c * rows_left ly). { unfold rows_left, y0. destruct (Z.min_spec (p_hs p - ly * N) N) as [[Q ->]|[Q ->]].
        - assert (per c * (p_hs p - ly * N) <= per c * N) by (apply Z.mul_le_mono_nonneg_l; lia). lia.
        - assert (per c * N <= per c * (p_hs p - ly * N)) by (apply Z.mul_le_mono_nonneg_l; lia). lia. }
      rewrite W1, H1. set (w := Z.to_nat (per c * cols_left lx)). set (h := Z.to_nat (per c * rows_left ly)).
      assert (Ew : Z.of_nat w = per c * cols_left lx) by (unfold w; rewrite Z2Nat.id; [reflexivity|apply Z.mul_nonneg_nonneg; lia]).
      assert (Eh : Z.of_nat h = per c * rows_left ly) by (unfold h; rewrite Z2Nat.id; [reflexivity|apply Z.mul_nonneg_nonneg; lia]).
      assert (CW : per c * cols_left lx <= pw p c) by (unfold pw, cols_left; apply Z.mul_le_mono_nonneg_l; lia).
      destruct (block_write_spec w h (base + y0 * st + x0) st (fun i j _ => R (x0 + i) (y0 + j)) m ltac:(lia) ltac:(intros; reflexivity)) as [A B].
      assert (IN : forall x y, 0 <= x < pw p c -> 0 <= y < ph p c -> lx * N <= x / per c < lx * N + N -> ly * N <= y / per c < ly * N + N -> 0 <= x - x0 < Z.of_nat w /\ 0 <= y - y0 < Z.of_nat h).
      { intros x y Px Py Ux Uy. rewrite Ew, Eh. destruct (unit_of c x) as [Q1 _]. destruct (unit_of c y) as [Q2 _]. pose proof (unit_bound c _ _ Px) as B1. pose proof (unit_bound c _ _ Py) as B2.
        assert (per c * (lx * N) <= per c * (x / per c)) by (apply Z.mul_le_mono_nonneg_l; lia). assert (per c * (ly * N) <= per c * (y / per c)) by (apply Z.mul_le_mono_nonneg_l; lia).
        assert (per c * (x / per c + 1) <= per c * (lx * N + cols_left lx)) by (apply Z.mul_le_mono_nonneg_l; [lia|]; unfold cols_left; lia).
        assert (per c * (y / per c + 1) <= per c * (ly * N + rows_left ly)) by (apply Z.mul_le_mono_nonneg_l; [lia|]; unfold rows_left; lia). unfold x0, y0. lia. }
      split.
      - intros x y Px Py Ux Uy. destruct (IN x y Px Py Ux Uy) as [I1 I2]. specialize (A (x - x0) (y - y0) I1 I2). unfold bpos in A.
        replace (AD x y) with (base + y0 * st + x0 + (y - y0) * st + (x - x0)) by (unfold addr; lia). etransitivity; [exact A|]. f_equal; lia.
      - intros q Hq. apply B. intros (i & j & Hi & Hj & E). rewrite Ew in Hi. rewrite Eh in Hj. unfold bpos in E.
        apply (Hq (x0 + i) (y0 + j)); [| | | |rewrite E; unfold addr; lia].
        + unfold pw, x0. assert (per c * (lx * N + cols_left lx) <= per c * p_ws p) by (apply Z.mul_le_mono_nonneg_l; [lia|]; unfold cols_left; lia). assert (0 <= per c * (lx * N)) by (apply Z.mul_nonneg_nonneg; lia). lia.
        + unfold ph, y0. assert (per c * (ly * N + rows_left ly) <= per c * p_hs p) by (apply Z.mul_le_mono_nonneg_l; [lia|]; unfold rows_left; lia). assert (0 <= per c * (ly * N)) by (apply Z.mul_nonneg_nonneg; lia). lia.
        + unfold x0. replace (per c * (lx * N) + i) with (i + (lx * N) * per c) by lia. rewrite Z.div_add by lia.
          assert (0 <= i / per c < cols_left lx) by (split; [apply Z.div_pos; lia|apply Z.div_lt_upper_bound; lia]). lia.
        + unfold y0. replace (per c * (ly * N) + j) with (j + (ly * N) * per c) by lia. rewrite Z.div_add by lia.
          assert (0 <= j / per c < rows_left ly) by (split; [apply Z.div_pos; lia|apply Z.div_lt_upper_bound; lia]). lia.
    Qed.

    Hypothesis RR : forall x y, 0 <= x < pw p c -> 0 <= y < ph p c -> 0 <= R x y < 2 ^ bits.
    Lemma put_inv m : skipped = false -> INV (DV0 lx ly) (DH0 lx ly) (Wr0 lx ly) m -> INV (DV0 lx ly) (DH0 lx ly) (Wr0 (lx + 1) ly) (put lx ly m).
    Proof.
      intros SK I0 x y Px Py Wx. destruct (put_spec m SK) as [A B]. pose proof geo as (G1 & G2 & G3 & G4 & G5 & G6 & G7 & G8 & _). pose proof N_pos as N0.
      destruct (unit_bound c _ _ Px) as [Ux1 Ux2]. destruct (unit_bound c _ _ Py) as [Uy1 Uy2].
      assert (D : (lx * N <= x / per c < lx * N + N /\ ly * N <= y / per c < ly * N + N) \/ Wr0 lx ly (x / per c) (y / per c)).
      { unfold Wr0 in *. lia. }
      assert (D2 : (lx * N <= x / per c < lx * N + N /\ ly * N <= y / per c < ly * N + N) \/ ~ (lx * N <= x / per c < lx * N + N /\ ly * N <= y / per c < ly * N + N)) by lia.
      destruct D2 as [[D1 D2]|ND].
      - rewrite A by assumption. assert (NHD : ~ hdone p c (DH0 lx ly) x y).
        { intros [Z0 H]. apply zone_unit in Z0. unfold DH0, done in H. lia. }
        constructor; [contradiction| |reflexivity]. intros _ H. destruct (zone_dec (pw p c) x) as [Z0|NZ]; [exfalso|symmetry; apply S1_off; exact NZ].
        apply zone_unit in Z0. unfold DV0, done in H. lia.
      - destruct D as [D|D]; [contradiction|]. rewrite B; [apply I0; assumption|]. intros x' y' Px' Py' H1 H2 E.
        apply (addr_inj p c base st St Wst) in E; [|exact Px|exact Px']. destruct E as [-> ->]. apply ND. split; assumption.
    Qed.
    Lemma ver_inv m : INV (DV0 lx ly) (DH0 lx ly) (Wr0 (lx + 1) ly) m -> INV (DV0 (lx + 1) ly) (DH0 lx ly) (Wr0 (lx + 1) ly) (ver_loop (lx * N) (ly * N) (cols_left lx) (rows_left ly) m).
    Proof.
      intros I0. pose proof geo as (G1 & G2 & G3 & G4 & G5 & G6 & G7 & G8 & G9 & G10 & G11 & G12 & G13). pose proof N_pos as N0. unfold ver_loop.
      set (D := fun j i => done (p_ws p) (ly * N) N (bv lx) (bv (lx + 1)) j i).
      assert (K : INV (D (Z.of_nat (Z.to_nat (rows_left ly))) 0) (DH0 lx ly) (Wr0 (lx + 1) ly) (loop (Z.to_nat (rows_left ly)) (fun j m => loop (Z.to_nat (cols_left lx)) (fun i m => OP 0 (lx * N + i) (ly * N + j) m) m) m)).
      { apply (loop_inv _ (fun j m => INV (D j 0) (DH0 lx ly) (Wr0 (lx + 1) ly) m)).
        - eapply inv_ext; [ | | | |exact I0]; [intros a b Pa Pb; unfold DV0, D, done; lia|intros; reflexivity|auto|intros; apply done_dec].
        - intros j mj Hj Ij.
          assert (K : INV (D j (Z.of_nat (Z.to_nat (cols_left lx)))) (DH0 lx ly) (Wr0 (lx + 1) ly) (loop (Z.to_nat (cols_left lx)) (fun i m => OP 0 (lx * N + i) (ly * N + j) m) mj)).
          { apply (loop_inv _ (fun i m => INV (D j i) (DH0 lx ly) (Wr0 (lx + 1) ly) m)); [exact Ij|]. intros i mi Hi Ii.
            assert (Hj' : 0 <= j < rows_left ly) by lia. assert (Hi' : 0 <= i < cols_left lx) by lia.
            apply (v_step p c bits base st al be St Wst Ws R RR covered (lx * N + i) (ly * N + j) mi (D j i) (DH0 lx ly) (Wr0 (lx + 1) ly) (D j (i + 1))); auto.
            - unfold cols_left in Hi'. lia.
            - unfold rows_left in Hj'. lia.
            - intros a b. unfold D, done. lia.
            - unfold D, done. lia.
            - intros a b Ha Hb Pa. unfold DH0, done. lia.
            - intros _. unfold Wr0. lia.
            - unfold Wr0. lia. }
          eapply inv_ext; [ | | | |exact K]; [intros a b Pa Pb; unfold D, done; lia|intros; reflexivity|auto|intros; apply done_dec]. }
      eapply inv_ext; [ | | | |exact K]; [intros a b Pa Pb; unfold DV0, D, done, rows_left in *; lia|intros; reflexivity|auto|intros; apply done_dec].
    Qed.
    Lemma hor_inv m : INV (DV0 (lx + 1) ly) (DH0 lx ly) (Wr0 (lx + 1) ly) m -> INV (DV0 (lx + 1) ly) (DH0 (lx + 1) ly) (Wr0 (lx + 1) ly) (hor_loop (hor_from lx) (ly * N) (hor_count lx) (rows_left ly) m).
    Proof.
      intros I0. pose proof geo as (G1 & G2 & G3 & G4 & G5 & G6 & G7 & G8 & G9 & G10 & G11 & G12 & G13). pose proof N_pos as N0. unfold hor_loop. rewrite G7.
      set (D := fun j i => done CC (ly * N) N (bh lx) (bh (lx + 1)) j i).
      assert (K : INV (DV0 (lx + 1) ly) (D (Z.of_nat (Z.to_nat (rows_left ly))) 0) (Wr0 (lx + 1) ly) (loop (Z.to_nat (rows_left ly)) (fun j m => loop (Z.to_nat (hor_count lx)) (fun i m => OP 1 (bh lx + i) (ly * N + j) m) m) m)).
      { apply (loop_inv _ (fun j m => INV (DV0 (lx + 1) ly) (D j 0) (Wr0 (lx + 1) ly) m)).
        - eapply inv_ext; [ | | | |exact I0]; [intros; reflexivity|intros a b Pa Pb; unfold DH0, D, done; lia|auto|intros; apply done_dec].
        - intros j mj Hj Ij.
          assert (K : INV (DV0 (lx + 1) ly) (D j (Z.of_nat (Z.to_nat (hor_count lx)))) (Wr0 (lx + 1) ly) (loop (Z.to_nat (hor_count lx)) (fun i m => OP 1 (bh lx + i) (ly * N + j) m) mj)).
          { apply (loop_inv _ (fun i m => INV (DV0 (lx + 1) ly) (D j i) (Wr0 (lx + 1) ly) m)); [exact Ij|]. intros i mi Hi Ii.
            assert (Hj' : 0 <= j < rows_left ly) by lia. assert (Hi' : 0 <= i < hor_count lx) by lia.
            assert (CW : CC <= p_ws p) by (unfold CC; destruct (2 <=? wl); lia).
            apply (h_step p c bits base st al be St Wst Ws Hs R RR covered (bh lx + i) (ly * N + j) mi (DV0 (lx + 1) ly) (D j i) (Wr0 (lx + 1) ly) (D j (i + 1))); auto.
            - lia.
            - unfold rows_left in Hj'. lia.
            - unfold covered. fold CC. apply Z.ltb_lt. lia.
            - intros a b. unfold D, done. lia.
            - intros a b. apply done_dec.
            - unfold D, done. lia.
            - intros a b Ha Hb P1 P2. unfold DV0, done. lia.
            - intros _. unfold Wr0. unfold bv in *. lia.
            - unfold Wr0. unfold bv in *. lia. }
          eapply inv_ext; [ | | | |exact K]; [intros; reflexivity|intros a b Pa Pb; unfold D, done; lia|auto|intros; apply done_dec]. }
      eapply inv_ext; [ | | | |exact K]; [intros; reflexivity|intros a b Pa Pb; unfold DH0, D, done, rows_left in *; lia|auto|intros; apply done_dec].
    Qed.
    Lemma lcu_inv m : skipped = false -> INV (DV0 lx ly) (DH0 lx ly) (Wr0 lx ly) m -> INV (DV0 (lx + 1) ly) (DH0 (lx + 1) ly) (Wr0 (lx + 1) ly) (lcu_pl lx ly m).
    Proof. intros SK I0. apply hor_inv, ver_inv, put_inv; assumption. Qed.
  End Lcu.

  Section All.
    Hypothesis RR : forall x y, 0 <= x < pw p c -> 0 <= y < ph p c -> 0 <= R x y < 2 ^ bits.
    Hypothesis SK : skipped = false.
    Lemma row_inv ly m : 0 <= ly < hl -> INV (DV0 0 ly) (DH0 0 ly) (Wr0 0 ly) m -> INV (DV0 0 (ly + 1)) (DH0 0 (ly + 1)) (Wr0 0 (ly + 1)) (row_pl ly m).
    Proof.
      intros Hy I0. unfold row_pl. pose proof N_pos as N0.
      pose proof (loop_inv _ (fun lx m => INV (DV0 lx ly) (DH0 lx ly) (Wr0 lx ly) m) (Z.to_nat wl) (fun lx m => lcu_pl lx ly m) m I0) as K. cbv beta in K.
      rewrite Z2Nat.id in K by lia. specialize (K ltac:(intros lx mx Hx Ix; apply lcu_inv; auto; lia)).
      assert (BV : bv wl = p_ws p) by (unfold bv; lia). assert (BH : bh wl = CC) by (unfold bh; destruct (Z.leb_spec wl 0); [lia|]; destruct (Z.ltb_spec wl wl); lia).
      assert (B0 : bv 0 = 0) by (unfold bv; lia). assert (B1 : bh 0 = 0) by reflexivity.
      eapply inv_ext; [ | | | |exact K].
      - intros a b Pa Pb. unfold DV0, done. rewrite BV, B0. lia.
      - intros a b Pa Pb. unfold DH0, done. rewrite BH, B1. lia.
      - intros a b Pa Pb. unfold Wr0. lia.
      - intros. apply done_dec.
    Qed.
    Theorem pic_ok m x y : 0 <= x < pw p c -> 0 <= y < ph p c -> pic_pl m (AD x y) = deblocked_plane p c al be covered R x y.
    Proof.
      intros Px Py. unfold pic_pl. pose proof N_pos as N0.
      pose proof (loop_inv _ (fun ly m => INV (DV0 0 ly) (DH0 0 ly) (Wr0 0 ly) m) (Z.to_nat hl) row_pl m) as K. cbv beta in K. rewrite Z2Nat.id in K by lia.
      specialize (K ltac:(intros x' y' Px' Py' H; exfalso; pose proof (unit_bound c _ _ Px'); pose proof (unit_bound c _ _ Py'); unfold Wr0 in H; lia)).
      specialize (K ltac:(intros ly my Hy Iy; apply row_inv; auto; lia)).
      pose proof (unit_bound c _ _ Px) as Ux. pose proof (unit_bound c _ _ Py) as Uy.
      destruct (K x y Px Py) as [A B C]; [unfold Wr0; lia|]. clear K. fold (S2 p c al be R covered x y).
      destruct (zone_dec (ph p c) y) as [Z0|NZ].
      - destruct (zone_edge c _ y Z0) as (E1 & E2 & E3 & E4). cbv zeta in *. set (v := edge_of y / per c) in *.
        destruct (Z.lt_ge_cases (x / per c) CC) as [L|G].
        + apply A. split; [exact Z0|]. fold v. unfold DH0, done. lia.
        + assert (NH : ~ hdone p c (DH0 0 hl) x y) by (intros [_ H]; fold v in H; unfold DH0, done in H; change (bh 0) with 0 in H; lia).
          assert (V : loop (Z.to_nat hl) row_pl m (AD x y) = S1 p c al be R x y).
          { destruct (done_dec (p_ws p) (hl * N) N (bv 0) (bv 0) 0 0 (edge_of x / per c) (y / per c)) as [D|D]; [apply B; assumption|]. rewrite C by assumption.
            destruct (zone_dec (pw p c) x) as [Zx|Nx]; [exfalso|symmetry; apply S1_off; exact Nx]. apply D. destruct (zone_edge c _ x Zx) as (_ & Q & _ & _). cbv zeta in Q. unfold done. lia. }
          rewrite V. replace y with (per c * v + (y - per c * v)) by lia. rewrite S2_on by assumption.
          assert (CF : covered (x / per c) = false) by (unfold covered; fold CC; apply Z.ltb_ge; lia). rewrite CF. cbn [andb]. rewrite filtered_off; [reflexivity|auto].
      - assert (NH : ~ hdone p c (DH0 0 hl) x y) by (intros [H _]; contradiction). rewrite S2_off by exact NZ.
        destruct (done_dec (p_ws p) (hl * N) N (bv 0) (bv 0) 0 0 (edge_of x / per c) (y / per c)) as [D|D]; [apply B; assumption|]. rewrite C by assumption.
        destruct (zone_dec (pw p c) x) as [Zx|Nx]; [exfalso|symmetry; apply S1_off; exact Nx]. apply D. destruct (zone_edge c _ x Zx) as (_ & Q & _ & _). cbv zeta in Q. unfold done. lia.
    Qed.
  End All.

  (** ** What a row touches. *)
  Definition local (X0 : Z -> Prop) (f : mem -> mem) : Prop :=
    (forall m q, ~ X0 q -> f m q = m q) /\
    (forall (X : Z -> Prop) m m', (forall q, X0 q -> X q) -> (forall q, X0 q \/ ~ X0 q) -> agree X m m' -> agree X (f m) (f m')).
  Lemma local_id X0 : local X0 (fun m => m).
  Proof. split; auto. Qed.
  Lemma local_seq X0 f g : local X0 f -> local X0 g -> local X0 (fun m => g (f m)).
  Proof. intros [A1 A2] [B1 B2]. split; [intros m q Hq; rewrite B1 by exact Hq; apply A1, Hq|]. intros X m m' Hs' Hd A. apply B2; auto. Qed.
  Lemma local_loop X0 n f : (forall k, 0 <= k < Z.of_nat n -> local X0 (f k)) -> local X0 (fun m => loop n f m).
  Proof.
    induction n as [|n IH]; intros H; [apply local_id|]. cbn [loop]. apply (local_seq X0 (fun m => loop n f m) (f (Z.of_nat n))); [apply IH; intros; apply H; lia|apply H; lia].
  Qed.
  Definition touched (ly q : Z) : Prop := exists x y, 0 <= x < pw p c /\ 0 <= y < ph p c /\ per c * (ly * N) - 3 <= y /\ q = AD x y.
  Lemma touched_dec ly q : 0 <= ly -> touched ly q \/ ~ touched ly q.
  Proof.
    intros Hy0. set (x := (q - base) mod st). set (y := (q - base) / st).
    assert (E : q = AD x y) by (unfold addr, x, y; pose proof (Z.div_mod (q - base) st ltac:(lia)); lia).
    assert (D : (0 <= x < pw p c /\ 0 <= y < ph p c /\ per c * (ly * N) - 3 <= y) \/ ~ (0 <= x < pw p c /\ 0 <= y < ph p c /\ per c * (ly * N) - 3 <= y)) by lia.
    destruct D as [(D1 & D2 & D3)|D]; [left; exists x, y; auto|right]. intros (x' & y' & D1 & D2 & D3 & E'). apply D.
    assert (X1 : x = x'). { unfold x. rewrite E'. unfold addr. replace (base + y' * st + x' - base) with (x' + y' * st) by lia. rewrite Z.mod_add, Z.mod_small by lia. reflexivity. }
    assert (Y1 : y = y'). { unfold y. rewrite E'. unfold addr. replace (base + y' * st + x' - base) with (x' + y' * st) by lia. rewrite Z.div_add, Z.div_small by lia. lia. }
    subst x' y'. auto.
  Qed.
  Lemma op_touched ly dir u v : (dir = 0 \/ dir = 1) -> 0 <= u < p_ws p -> 0 <= v < p_hs p -> ly * N <= v -> live c dir u v ->
    forall k j, 0 <= k < per c -> -3 <= j <= 2 -> touched ly (at_edge c base st dir u v k j).
  Proof.
    intros Hd Hu Hv Hly [L1 L2] k j Hk Hj. cbv zeta in *.
    assert (M : forall n a, 0 <= a < n -> 0 <= per c * a + k < per c * n).
    { intros n a Ha. pose proof (per_cases c). assert (per c * (a + 1) <= per c * n) by (apply Z.mul_le_mono_nonneg_l; lia). assert (0 <= per c * a) by (apply Z.mul_nonneg_nonneg; lia). lia. }
    assert (B : per c * (ly * N) <= per c * v) by (pose proof (per_cases c); apply Z.mul_le_mono_nonneg_l; lia).
    destruct Hd as [-> | ->]; cbn [Z.eqb] in *; unfold at_edge; cbn [Z.eqb].
    - destruct (zone_in c (p_ws p) u j ltac:(lia) L2 Hj) as [_ I1]. exists (per c * u + j), (per c * v + k). pose proof (M _ v Hv). unfold pw, ph. repeat split; lia.
    - destruct (zone_in c (p_hs p) v j ltac:(lia) L2 Hj) as [_ I1]. exists (per c * u + k), (per c * v + j). pose proof (M _ u Hu). unfold pw, ph. repeat split; lia.
  Qed.
  Lemma op_local ly dir u v : (dir = 0 \/ dir = 1) -> 0 <= u < p_ws p -> 0 <= v < p_hs p -> ly * N <= v -> local (touched ly) (OP dir u v).
  Proof.
    intros Hd Hu Hv Hly. split.
    - intros m q Hq. apply op_off; [exact Hd|lia|lia|]. intros L k j Hk Hj ->. apply Hq. apply op_touched; assumption.
    - intros X m m' Hs' _ A. apply op_agree; [exact Hd|lia|lia|exact A|]. intros L k j Hk Hj. apply Hs', op_touched; assumption.
  Qed.
  Lemma put_local lx ly : 0 <= lx < wl -> 0 <= ly < hl -> local (touched ly) (put lx ly).
  Proof.
    intros Hx Hy. destruct skipped eqn:SK.
    - unfold put. rewrite SK. apply local_id.
    - pose proof N_pos as N0.
      assert (T : forall x y, 0 <= x < pw p c -> 0 <= y < ph p c -> ly * N <= y / per c -> touched ly (AD x y)).
      { intros x y Px Py H. exists x, y. destruct (unit_of c y) as [Q _]. pose proof (per_cases c). assert (per c * (ly * N) <= per c * (y / per c)) by (apply Z.mul_le_mono_nonneg_l; lia). repeat split; lia. }
      split.
      + intros m q Hq. destruct (put_spec lx ly Hx Hy m SK) as [_ B]. apply B. intros x y Px Py Ux Uy ->. apply Hq, T; lia.
      + intros X m m' Hs' Hd A q Hq. destruct (put_spec lx ly Hx Hy m SK) as [A1 B1]. destruct (put_spec lx ly Hx Hy m' SK) as [A2 B2].
        destruct (Hd q) as [(x & y & Px & Py & Hy' & E)|NT].
        * destruct (unit_bound c _ _ Px) as [u1 u2].
          assert (D : (lx * N <= x / per c < lx * N + N /\ ly * N <= y / per c < ly * N + N) \/ ~ (lx * N <= x / per c < lx * N + N /\ ly * N <= y / per c < ly * N + N)) by lia.
          destruct D as [[D1 D2]|D]; [rewrite E, A1, A2 by assumption; reflexivity|].
          assert (K : forall x' y', 0 <= x' < pw p c -> 0 <= y' < ph p c -> lx * N <= x' / per c < lx * N + N -> ly * N <= y' / per c < ly * N + N -> q <> AD x' y').
          { intros x' y' Px' Py' H1 H2 E'. rewrite E in E'. apply (addr_inj p c base st St Wst) in E'; [|exact Px|exact Px']. destruct E' as [-> ->]. apply D. auto. }
          rewrite B1, B2 by exact K. apply A, Hq.
        * assert (K : forall x' y', 0 <= x' < pw p c -> 0 <= y' < ph p c -> lx * N <= x' / per c < lx * N + N -> ly * N <= y' / per c < ly * N + N -> q <> AD x' y').
          { intros x' y' Px' Py' H1 H2 ->. apply NT, T; lia. }
          rewrite B1, B2 by exact K. apply A, Hq.
  Qed.
  Lemma row_touches ly : 0 <= ly < hl -> local (touched ly) (row_pl ly).
  Proof.
    intros Hy. unfold row_pl. apply (local_loop (touched ly) (Z.to_nat wl) (fun lx m => lcu_pl lx ly m)). intros lx Hx. assert (Hx' : 0 <= lx < wl) by lia.
    pose proof (geo lx ly Hx' Hy) as (G1 & G2 & G3 & G4 & G5 & G6 & G7 & G8 & G9 & G10 & G11 & G12 & G13). unfold lcu_pl.
    apply (local_seq _ (fun m => ver_loop (lx * N) (ly * N) (cols_left lx) (rows_left ly) (put lx ly m))); [apply (local_seq _ (put lx ly)); [apply put_local; assumption|]|].
    - unfold ver_loop. apply (local_loop _ _ (fun j m => loop (Z.to_nat (cols_left lx)) (fun i m => OP 0 (lx * N + i) (ly * N + j) m) m)). intros j Hj. apply (local_loop _ _ (fun i m => OP 0 (lx * N + i) (ly * N + j) m)). intros i Hi.
      apply op_local; [auto| | |lia]; unfold cols_left, rows_left in *; lia.
    - unfold hor_loop. apply (local_loop _ _ (fun j m => loop (Z.to_nat (hor_count lx)) (fun i m => OP 1 (hor_from lx + i) (ly * N + j) m) m)). intros j Hj. apply (local_loop _ _ (fun i m => OP 1 (hor_from lx + i) (ly * N + j) m)). intros i Hi.
      apply op_local; [auto| | |lia]; [|unfold rows_left in *; lia]. assert (CC <= p_ws p) by (unfold CC; destruct (2 <=? wl); lia). lia.
  Qed.
  Theorem pic_outside m q : (forall x y, 0 <= x < pw p c -> 0 <= y < ph p c -> q <> AD x y) -> pic_pl m q = m q.
  Proof.
    intros H. unfold pic_pl. apply (loop_inv _ (fun _ (m' : mem) => m' q = m q)); [reflexivity|]. intros ly s Hy E.
    destruct (row_touches ly ltac:(lia)) as [A _]. rewrite A; [exact E|]. intros (x & y & Px & Py & _ & ->). exact (H x y Px Py eq_refl).
  Qed.
  (** As a function of the row number, for the later filters. *)
  Definition row_rec (ly : Z) (m : mem) : mem := if (0 <=? ly) && (ly <? hl) then row_pl ly m else m.
  Theorem rows_local : row_local (pw p c) (ph p c) (per c * N) base st row_rec.
  Proof.
    assert (S0 : forall ly, ly * (per c * N) = per c * (ly * N)) by (intros; lia).
    split.
    - intros ly m x y Px Py L. unfold row_rec. destruct ((0 <=? ly) && (ly <? hl)) eqn:E; [|reflexivity].
      destruct (row_touches ly ltac:(lia)) as [A _]. fold (AD x y). apply A. intros (x' & y' & Px' & Py' & H & E'). apply (addr_inj p c base st St Wst) in E'; [|exact Px|exact Px']. destruct E' as [-> ->]. rewrite S0 in L. lia.
    - intros ly m m' A x y Px Py L. unfold row_rec. destruct ((0 <=? ly) && (ly <? hl)) eqn:E; [|apply A; assumption].
      destruct (row_touches ly ltac:(lia)) as [_ B].
      apply (B (fun q => exists x y, 0 <= x < pw p c /\ 0 <= y < ph p c /\ per c * (ly * N) - 4 <= y /\ q = AD x y) m m').
      + intros q (x' & y' & Px' & Py' & H & E'). exists x', y'. repeat split; lia || assumption.
      + intros q. apply touched_dec. lia.
      + intros q (x' & y' & Px' & Py' & H & ->). apply A; [assumption|assumption|]. rewrite S0. lia.
      + exists x, y. rewrite S0 in L. repeat split; lia || reflexivity.
  Qed.
  Lemma rows_deblocked m : deblocked row_rec m (Z.to_nat hl) = pic_pl m.
  Proof.
    unfold pic_pl. assert (K : forall n, Z.of_nat n <= hl -> deblocked row_rec m n = loop n row_pl m).
    { induction n as [|n IH]; intros H; [reflexivity|]. cbn [deblocked loop]. rewrite IH by lia. unfold row_rec. replace ((0 <=? Z.of_nat n) && (Z.of_nat n <? hl)) with true by lia. reflexivity. }
    apply K. lia.
  Qed.
End Pl.
