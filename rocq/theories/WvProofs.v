(** Proofs about the threads of a picture. *)
From Coq Require Import ZArith List Bool Lia.
From Verif Require Import CBase WvModel.
Import ListNotations.
Open Scope Z_scope.

Lemma fupd_same {A} (f : Z -> A) k v : fupd f k v k = v.
Proof. unfold fupd. rewrite Z.eqb_refl. reflexivity. Qed.
Lemma fupd_other {A} (f : Z -> A) k v i : i <> k -> fupd f k v i = f i.
Proof. intros H. unfold fupd. destruct (Z.eqb_spec i k); [contradiction|reflexivity]. Qed.
Lemma fupd_cases {A} (f : Z -> A) k v i : (i = k /\ fupd f k v i = v) \/ (i <> k /\ fupd f k v i = f i).
Proof. unfold fupd. destruct (Z.eqb_spec i k); [left|right]; split; auto. Qed.

(** What the place of a worker says about the shared state.  [r]: reconstructed LCUs per row. *)
Definition place_ok (w h parsed : Z) (cnt rec : Z -> Z) (y : Z) (p : pc) : Prop :=
  match p with
  | Idle => rec y = 0 /\ cnt y = 0
  | ChkP x | WillP x | SlpP x => 0 <= x < w /\ rec y = x /\ cnt y = x
  | ChkA x | WillA x | SlpA x => 0 <= x < w /\ rec y = x /\ cnt y = x /\ 0 < y /\ y * w + x <= parsed
  | Work x => 0 <= x < w /\ rec y = x /\ cnt y = x /\ y * w + x <= parsed /\ (0 < y -> Z.min (x + 2) w <= cnt (y - 1))
  | Cnt x => 0 <= x < w /\ rec y = x + 1 /\ cnt y = x /\ (0 < y -> Z.min (x + 2) w <= cnt (y - 1))
  | Sig | SlpS => 0 < y /\ rec y = w /\ w <= cnt y /\ w <= cnt (y - 1)
  | SigLast | SlpL => y = h - 1 /\ rec y = w /\ w <= cnt y /\ (0 < y -> w <= cnt (y - 1))
  | Fin => rec y = w /\ w <= cnt y
  end.
Record inv (c : cfg) (s : st) : Prop := {
  i_place : forall y, 0 <= y < c_h c -> place_ok (c_w c) (c_h c) (s_parsed s) (s_cnt s) (s_rec s) y (s_pc s y);
  i_true : forall y, 0 <= y < c_h c -> s_rec s y <= c_w c /\ (s_cnt s y <= s_rec s y \/ s_rec s y = c_w c);
  i_next : s_parsed s <= s_next s /\ (s_pub s = false -> s_parsed s < s_next s);
  i_most : forall y, 0 <= y < c_h c -> s_cnt s y <= c_w c + 3 }.

Lemma place_other w h parsed cnt rec y p parsed' cnt' rec' :
  place_ok w h parsed cnt rec y p -> parsed <= parsed' -> rec' y = rec y -> (0 < y -> cnt (y - 1) <= cnt' (y - 1)) ->
  (cnt' y = cnt y \/ w <= cnt y /\ w <= cnt' y) -> 0 < w -> place_ok w h parsed' cnt' rec' y p.
Proof. intros H P R A C W. destruct p; cbn [place_ok] in *; lia. Qed.

Section Inv.
  Variable (c : cfg).
  Hypothesis Hw : 0 < c_w c.
  Lemma inv_init : inv c init.
  Proof. constructor; cbn; intros; try lia. Qed.

  Ltac others I y' := let Q := fresh "Q" in pose proof (i_place _ _ I y' ltac:(assumption)) as Q.
  Lemma wake_parsed_ok h parsed cnt rec y p : place_ok (c_w c) h parsed cnt rec y (p y) -> place_ok (c_w c) h parsed cnt rec y (wake_parsed p y).
  Proof. unfold wake_parsed. destruct (p y); auto. Qed.
  Lemma wake_row_ok j h parsed cnt rec y p : place_ok (c_w c) h parsed cnt rec y (p y) -> place_ok (c_w c) h parsed cnt rec y (wake_row j p y).
  Proof. unfold wake_row. destruct (p y); auto; [destruct (y - 1 =? j)|destruct (y - 2 =? j)|destruct (y - 1 =? j)]; auto. Qed.

  (** A step that changes only the place of one worker. *)
  Lemma inv_move s y p : inv c s -> place_ok (c_w c) (c_h c) (s_parsed s) (s_cnt s) (s_rec s) y p ->
    inv c (St (s_parsed s) (s_next s) (s_pub s) (s_cnt s) (fupd (s_pc s) y p) (s_rec s)).
  Proof.
    intros [I1 I2 I3 I4] H. constructor; cbn [s_parsed s_next s_pub s_cnt s_pc s_rec]; auto.
    intros y' Hy'. destruct (fupd_cases (s_pc s) y p y') as [[-> ->]|[_ ->]]; auto.
  Qed.
  Lemma inv_step s t : inv c s -> step c s t -> inv c t.
  Proof.
    intros I E. pose proof I as [I1 I2 I3 I4].
    destruct E as [s y Hy P L|s y x Hy P|s y x Hy P|s y x Hy P|s y x Hy P|s y x Hy P|s y x Hy P|s y Hy P L|s y Hy P L L'|s y Hy P L|s y Hy P L L'|s P L G|s P|s G P L].
    - apply inv_move; [exact I|]. pose proof (I1 y Hy) as Q. rewrite P in Q. cbn [place_ok] in *. lia.
    - apply inv_move; [exact I|]. pose proof (I1 y Hy) as Q. rewrite P in Q. cbn [place_ok] in Q.
      destruct (Z.ltb_spec (s_parsed s) (y * c_w c + x)) as [A|A]; [exact Q|].
      destruct (Z.ltb_spec 0 y) as [B|B]; cbn [place_ok]; lia.
    - apply inv_move; [exact I|]. pose proof (I1 y Hy) as Q. rewrite P in Q. exact Q.
    - apply inv_move; [exact I|]. pose proof (I1 y Hy) as Q. rewrite P in Q. cbn [place_ok] in Q.
      destruct (Z.ltb_spec (s_cnt s (y - 1)) (Z.min (x + 2) (c_w c))) as [A|A]; [exact Q|].
      cbn [place_ok]. pose proof (I2 (y - 1) ltac:(lia)). split; [lia|]. split; [lia|]. split; [lia|]. split; [lia|]. intros _. lia.
    - apply inv_move; [exact I|]. pose proof (I1 y Hy) as Q. rewrite P in Q. exact Q.
    - pose proof (I1 y Hy) as Q. rewrite P in Q. cbn [place_ok] in Q.
      constructor; cbn [s_parsed s_next s_pub s_cnt s_pc s_rec]; auto.
      + intros y' Hy'. destruct (fupd_cases (s_pc s) y (Cnt x) y') as [[-> ->]|[N ->]].
        * cbn [place_ok]. rewrite fupd_same. lia.
        * apply (place_other (c_w c) (c_h c) (s_parsed s) (s_cnt s) (s_rec s)); auto; try lia.
          rewrite fupd_other by lia. reflexivity.
      + intros y' Hy'. destruct (fupd_cases (s_rec s) y (x + 1) y') as [[-> ->]|[N ->]]; [|auto]. lia.
    - pose proof (I1 y Hy) as Q. rewrite P in Q. cbn [place_ok] in Q.
      constructor; cbn [s_parsed s_next s_pub s_cnt s_pc s_rec]; auto.
      + intros y' Hy'. destruct (fupd_cases (s_pc s) y (if x + 1 <? c_w c then ChkP (x + 1) else after_row (c_h c) y) y') as [[-> ->]|[N ->]].
        * destruct (Z.ltb_spec (x + 1) (c_w c)) as [A|A]; [cbn [place_ok]; rewrite fupd_same; lia|].
          unfold after_row. destruct (Z.ltb_spec 0 y) as [B|B]; [|destruct (Z.eqb_spec y (c_h c - 1)) as [B'|B']]; cbn [place_ok]; rewrite ?fupd_same, ?(fupd_other _ y _ (y - 1)) by lia; lia.
        * apply (place_other (c_w c) (c_h c) (s_parsed s) (s_cnt s) (s_rec s)); auto; try lia; [|left; rewrite fupd_other by lia; reflexivity].
          intros _. destruct (fupd_cases (s_cnt s) y (s_cnt s y + 1) (y' - 1)) as [[E ->]|[_ ->]]; [rewrite E; lia|lia].
      + intros y' Hy'. destruct (fupd_cases (s_cnt s) y (s_cnt s y + 1) y') as [[-> ->]|[N ->]]; [|auto]. lia.
      + intros y' Hy'. destruct (fupd_cases (s_cnt s) y (s_cnt s y + 1) y') as [[-> ->]|[N ->]]; [|auto]. lia.
    - pose proof (I1 y Hy) as Q. rewrite P in Q. cbn [place_ok] in Q. pose proof (I4 (y - 1) ltac:(lia)) as U.
      constructor; cbn [s_parsed s_next s_pub s_cnt s_pc s_rec]; auto.
      + intros y' Hy'. destruct (fupd_cases (wake_row (y - 1) (s_pc s)) y (if y =? c_h c - 1 then SigLast else Fin) y') as [[-> ->]|[N ->]].
        * destruct (Z.eqb_spec y (c_h c - 1)); cbn [place_ok]; rewrite ?fupd_same, ?(fupd_other _ (y - 1) _ y) by lia; lia.
        * apply wake_row_ok. apply (place_other (c_w c) (c_h c) (s_parsed s) (s_cnt s) (s_rec s)); auto; try lia.
          -- intros _. destruct (fupd_cases (s_cnt s) (y - 1) (c_w c + 3) (y' - 1)) as [[E ->]|[_ ->]]; [rewrite E; lia|lia].
          -- destruct (fupd_cases (s_cnt s) (y - 1) (c_w c + 3) y') as [[-> ->]|[_ ->]]; [right; lia|left; reflexivity].
      + intros y' Hy'. destruct (fupd_cases (s_cnt s) (y - 1) (c_w c + 3) y') as [[-> ->]|[N' ->]]; [|auto]. pose proof (I2 (y - 1) ltac:(lia)). lia.
      + intros y' Hy'. destruct (fupd_cases (s_cnt s) (y - 1) (c_w c + 3) y') as [[-> ->]|[N' ->]]; [|auto]. lia.
    - apply inv_move; [exact I|]. pose proof (I1 y Hy) as Q. rewrite P in Q. exact Q.
    - pose proof (I1 y Hy) as Q. rewrite P in Q. cbn [place_ok] in Q. pose proof (I4 y ltac:(lia)) as U.
      constructor; cbn [s_parsed s_next s_pub s_cnt s_pc s_rec]; auto.
      + intros y' Hy'. destruct (fupd_cases (wake_row y (s_pc s)) y Fin y') as [[-> ->]|[N ->]].
        * cbn [place_ok]. rewrite fupd_same. lia.
        * apply wake_row_ok. apply (place_other (c_w c) (c_h c) (s_parsed s) (s_cnt s) (s_rec s)); auto; try lia; [|left; rewrite fupd_other by lia; reflexivity].
          intros _. destruct (fupd_cases (s_cnt s) y (c_w c + 3) (y' - 1)) as [[E ->]|[_ ->]]; [rewrite E; lia|lia].
      + intros y' Hy'. destruct (fupd_cases (s_cnt s) y (c_w c + 3) y') as [[-> ->]|[N ->]]; [|auto]. lia.
      + intros y' Hy'. destruct (fupd_cases (s_cnt s) y (c_w c + 3) y') as [[-> ->]|[N' ->]]; [|auto]. lia.
    - apply inv_move; [exact I|]. pose proof (I1 y Hy) as Q. rewrite P in Q. exact Q.
    - constructor; cbn [s_parsed s_next s_pub s_cnt s_pc s_rec]; auto; [|lia].
      intros y' Hy'. apply (place_other (c_w c) (c_h c) (s_parsed s) (s_cnt s) (s_rec s)); auto; lia.
    - constructor; cbn [s_parsed s_next s_pub s_cnt s_pc s_rec]; auto; [|lia].
      intros y' Hy'. apply wake_parsed_ok. auto.
    - constructor; cbn [s_parsed s_next s_pub s_cnt s_pc s_rec]; auto.
      assert (s_next s < (s_next s / c_w c + 1) * c_w c). { pose proof (Z.mul_succ_div_gt (s_next s) (c_w c) Hw). lia. } lia.
  Qed.
End Inv.
