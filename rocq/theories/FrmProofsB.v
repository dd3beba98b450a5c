(** Reference padding. *)
From Coq Require Import ZArith List Bool Lia.
From Verif Require Import CBase CBaseProofs MemModel MemProofs QpModel UtilModel SaoModel SaoSpec SaoProofs AlfModel AlfSpec AlfProofsB FrmModel FrmSpec FrmProofs.
Import ListNotations.
Open Scope Z_scope.

Section Pad.
  Variables (base stride w n : Z).
  Hypothesis Hn : 0 <= n.
  Hypothesis Hw : 1 <= w.
  Hypothesis Hs : w + 2 * n <= stride.
  Let pos := at_ base stride.

  Lemma pad_line_at j m x y : - n <= x < w + n ->
    pad_line (base + j * stride) w n m (pos x y) = if y =? j then m (pos (clamp 0 (w - 1) x) j) else m (pos x y).
  Proof.
    intros X. unfold pos, at_. replace (base + y * stride + x) with (base + j * stride + (y - j) * stride + x) by ring.
    rewrite pad_line_spec by (try assumption; lia).
    destruct (Z.eqb_spec (y - j) 0), (Z.eqb_spec y j); try lia; f_equal; ring.
  Qed.

  (** A copied line. *)
  Lemma copy_line_at d s m x y : d <> s -> - n <= x < stride - n ->
    copy_line (base + d * stride - n) (base + s * stride - n) stride m (pos x y) = if y =? d then m (pos x s) else m (pos x y).
  Proof.
    intros D X. unfold copy_line.
    match goal with |- ?r _ = _ => set (res := r) end.
    assert (K : forall x y, - n <= x < stride - n ->
       res (pos x y) = if (y =? d) && (x <? - n + stride) then m (pos x s) else m (pos x y)).
    { unfold res.
      refine (proj2 (floop_inv (fun i (t : mem) => 0 <= i <= stride /\ forall x y, - n <= x < stride - n ->
         t (pos x y) = if (y =? d) && (x <? - n + i) then m (pos x s) else m (pos x y)) 0 stride _ m _ _ _)).
      - lia.
      - split; [lia|]. intros a b A. destruct (Z.ltb_spec a (- n + 0)); [lia|]. rewrite andb_false_r. reflexivity.
      - intros i t Hi [_ Ht]. split; [lia|]. intros a b A. unfold upd.
        assert (Es : t (base + s * stride - n + i) = m (pos (- n + i) s)).
        { replace (base + s * stride - n + i) with (pos (- n + i) s) by (unfold pos, at_; ring). rewrite Ht by lia.
          destruct (Z.eqb_spec s d); [congruence|]. reflexivity. }
        destruct (Z.eqb_spec (pos a b) (base + d * stride - n + i)) as [E|E].
        + unfold pos, at_ in E. assert (b = d) by nia. subst b. assert (a = - n + i) by lia. subst a. rewrite Es, Z.eqb_refl.
          destruct (Z.ltb_spec (- n + i) (- n + (i + 1))); [reflexivity|lia].
        + rewrite Ht by exact A. destruct (Z.eqb_spec b d) as [->|]; [|reflexivity]. cbn [andb].
          assert (a <> - n + i) by (intros ->; apply E; unfold pos, at_; ring).
          destruct (Z.ltb_spec a (- n + i)), (Z.ltb_spec a (- n + (i + 1))); try reflexivity; lia. }
    rewrite K by exact X. destruct (y =? d); [|reflexivity]. cbn [andb]. destruct (Z.ltb_spec x (- n + stride)); [reflexivity|lia].
  Qed.

  (** A run of padded lines. *)
  Lemma pad_lines_at a b m x y : - n <= x < w + n ->
    floop a b (fun j m => pad_line (base + j * stride) w n m) m (pos x y) =
    if (a <=? y) && (y <? b) then m (pos (clamp 0 (w - 1) x) y) else m (pos x y).
  Proof.
    intros X. destruct (Z.le_gt_cases a b) as [L|L].
    - match goal with |- ?r _ = _ => set (res := r) end.
      assert (K : forall x y, - n <= x < w + n -> res (pos x y) = if (a <=? y) && (y <? b) then m (pos (clamp 0 (w - 1) x) y) else m (pos x y)).
      { unfold res. refine (proj2 (floop_inv (fun i (t : mem) => a <= i <= b /\ forall x y, - n <= x < w + n ->
            t (pos x y) = if (a <=? y) && (y <? i) then m (pos (clamp 0 (w - 1) x) y) else m (pos x y)) a b _ m L _ _)).
        - split; [lia|]. intros u v U. destruct (Z.leb_spec a v), (Z.ltb_spec v a); try lia; reflexivity.
        - intros i t Hi [_ Ht]. split; [lia|]. intros u v U. rewrite pad_line_at by exact U.
          assert (U2 : - n <= clamp 0 (w - 1) u < w + n) by (unfold clamp; lia).
          rewrite !Ht by assumption.
          destruct (Z.eqb_spec v i) as [->|].
          + destruct (Z.leb_spec a i), (Z.ltb_spec i i), (Z.ltb_spec i (i + 1)); try lia. reflexivity.
          + destruct (Z.leb_spec a v), (Z.ltb_spec v i), (Z.ltb_spec v (i + 1)); try lia; reflexivity. }
      apply K. exact X.
    - rewrite floop_none by lia. destruct (Z.leb_spec a y), (Z.ltb_spec y b); try lia; reflexivity.
  Qed.

  (** Lines copied upwards from line 0. *)
  Lemma top_at k m x y : 0 <= k -> - n <= x < w + n ->
    floop 0 k (fun j m => copy_line (base - n - j * stride - stride) (base - n - j * stride) stride m) m (pos x y) =
    if (- k <=? y) && (y <? 0) then m (pos x 0) else m (pos x y).
  Proof.
    intros Hk X.
    match goal with |- ?r _ = _ => set (res := r) end.
    assert (K : forall x y, - n <= x < w + n -> res (pos x y) = if (- k <=? y) && (y <? 0) then m (pos x 0) else m (pos x y)).
    { unfold res. refine (proj2 (floop_inv (fun i (t : mem) => 0 <= i <= k /\ forall x y, - n <= x < w + n ->
          t (pos x y) = if (- i <=? y) && (y <? 0) then m (pos x 0) else m (pos x y)) 0 k _ m Hk _ _)).
      - split; [lia|]. intros u v U. destruct (Z.leb_spec (- 0) v), (Z.ltb_spec v 0); try lia; reflexivity.
      - intros i t Hi [_ Ht]. split; [lia|]. intros u v U.
        replace (base - n - i * stride - stride) with (base + (- (i + 1)) * stride - n) by ring.
        replace (base - n - i * stride) with (base + (- i) * stride - n) by ring.
        rewrite copy_line_at by lia.
        rewrite !Ht by assumption.
        destruct (Z.eqb_spec v (- (i + 1))) as [->|].
        + assert (E : (if (- i <=? - i) && (- i <? 0) then m (pos u 0) else m (pos u (- i))) = m (pos u 0)).
          { destruct (Z.leb_spec (- i) (- i)), (Z.ltb_spec (- i) 0); try lia; try reflexivity. cbn [andb]. replace (- i) with 0 by lia. reflexivity. }
          rewrite E. destruct (Z.leb_spec (- (i + 1)) (- (i + 1))), (Z.ltb_spec (- (i + 1)) 0); try lia. reflexivity.
        + destruct (Z.leb_spec (- i) v), (Z.leb_spec (- (i + 1)) v), (Z.ltb_spec v 0); try lia; reflexivity. }
    apply K. exact X.
  Qed.
  (** Lines copied downwards from line [l]. *)
  Lemma bottom_at l k m x y : 0 <= k -> - n <= x < w + n ->
    floop 0 k (fun j m => let pix := base + l * stride - n + j * stride in copy_line (pix + stride) pix stride m) m (pos x y) =
    if (l <? y) && (y <=? l + k) then m (pos x l) else m (pos x y).
  Proof.
    intros Hk X.
    match goal with |- ?r _ = _ => set (res := r) end.
    assert (K : forall x y, - n <= x < w + n -> res (pos x y) = if (l <? y) && (y <=? l + k) then m (pos x l) else m (pos x y)).
    { unfold res. refine (proj2 (floop_inv (fun i (t : mem) => 0 <= i <= k /\ forall x y, - n <= x < w + n ->
          t (pos x y) = if (l <? y) && (y <=? l + i) then m (pos x l) else m (pos x y)) 0 k _ m Hk _ _)).
      - split; [lia|]. intros u v U. destruct (Z.ltb_spec l v), (Z.leb_spec v (l + 0)); try lia; reflexivity.
      - intros i t Hi [_ Ht]. split; [lia|]. intros u v U. cbv zeta.
        replace (base + l * stride - n + i * stride + stride) with (base + (l + (i + 1)) * stride - n) by ring.
        replace (base + l * stride - n + i * stride) with (base + (l + i) * stride - n) by ring.
        rewrite copy_line_at by lia.
        rewrite !Ht by assumption.
        destruct (Z.eqb_spec v (l + (i + 1))) as [->|].
        + assert (E : (if (l <? l + i) && (l + i <=? l + i) then m (pos u l) else m (pos u (l + i))) = m (pos u l)).
          { destruct (Z.leb_spec (l + i) (l + i)), (Z.ltb_spec l (l + i)); try lia; try reflexivity. cbn [andb]. replace (l + i) with l by lia. reflexivity. }
          rewrite E. destruct (Z.ltb_spec l (l + (i + 1))), (Z.leb_spec (l + (i + 1)) (l + (i + 1))); try lia. reflexivity.
        + destruct (Z.ltb_spec l v), (Z.leb_spec v (l + i)), (Z.leb_spec v (l + (i + 1))); try lia; reflexivity. }
    apply K. exact X.
  Qed.

  (** One call of [pad_line_lcu] in terms of positions. *)
  Variables (chroma : bool) (lines lv nl : Z).
  Hypothesis Hn80 : n = if chroma then 40 else 80.
  Hypothesis Hlv : 4 <= lv <= 6.
  Hypothesis Hl : 1 <= lines.

  Let S (k : Z) : Z := fst (pad_rows chroma lv k nl).
  Let E (k : Z) : Z := snd (pad_rows chroma lv k nl).

  Lemma pad_call ly m x y : - n <= x < w + n ->
    pad_line_lcu chroma base stride w lines lv nl ly m (pos x y) =
    let y1 := if (ly =? nl - 1) && (lines - 1 <? y) && (y <=? lines - 1 + n) then lines - 1 else y in
    let y2 := if (ly =? 0) && (- n <=? y1) && (y1 <? 0) then 0 else y1 in
    m (pos (if (S ly <=? y2) && (y2 <? E ly) then clamp 0 (w - 1) x else x) y2).
  Proof.
    intros X. unfold pad_line_lcu. cbv zeta.
    assert (EN : Z.shiftr 80 (if chroma then 1 else 0) = n) by (rewrite Hn80; destruct chroma; reflexivity).
    rewrite EN. fold (S ly). fold (E ly).
    set (m1 := floop (S ly) (E ly) _ m).
    assert (K1 : forall u v, - n <= u < w + n -> m1 (pos u v) = m (pos (if (S ly <=? v) && (v <? E ly) then clamp 0 (w - 1) u else u) v)).
    { intros u v U. unfold m1. rewrite pad_lines_at by exact U. destruct ((S ly <=? v) && (v <? E ly)); reflexivity. }
    set (m2 := if ly =? 0 then _ else m1).
    assert (K2 : forall u v, - n <= u < w + n -> m2 (pos u v) =
       let y2 := if (ly =? 0) && (- n <=? v) && (v <? 0) then 0 else v in m1 (pos u y2)).
    { intros u v U. unfold m2. destruct (ly =? 0); [|reflexivity]. cbn [andb]. rewrite top_at by (try assumption; lia).
      cbv zeta. destruct ((- n <=? v) && (v <? 0)); reflexivity. }
    assert (K3 : (if ly =? nl - 1 then floop 0 n (fun j m3 => copy_line (base + (lines - 1) * stride - n + j * stride + stride) (base + (lines - 1) * stride - n + j * stride) stride m3) m2 else m2) (pos x y)
       = m2 (pos x (if (ly =? nl - 1) && (lines - 1 <? y) && (y <=? lines - 1 + n) then lines - 1 else y))).
    { destruct (ly =? nl - 1); [|reflexivity]. cbn [andb]. rewrite bottom_at by (try assumption; lia).
      destruct ((lines - 1 <? y) && (y <=? lines - 1 + n)); reflexivity. }
    rewrite K3, K2 by exact X. cbv zeta. rewrite K1 by exact X. reflexivity.
  Qed.

  (** Geometry of the rows. *)
  Hypothesis Hnl : 1 <= nl.
  Hypothesis Hcover : (nl - 1) * 2 ^ lv < lines * (if chroma then 2 else 1) <= nl * 2 ^ lv.

  Lemma rows_facts k : 0 <= k < nl ->
    S k = first_line chroma lv k /\ (k + 1 < nl -> E k = first_line chroma lv (k + 1)) /\
    (k = nl - 1 -> lines <= E k) /\ 0 <= S k < lines /\ S k < E k /\ (0 < k -> 4 <= S k).
  Proof.
    intros Hk. unfold S, E, pad_rows, first_line. cbn [fst snd].
    assert (P16 : exists q, 2 ^ lv = 16 * q /\ 1 <= q <= 4).
    { assert (lv = 4 \/ lv = 5 \/ lv = 6) as [-> | [-> | ->]] by lia; [exists 1|exists 2|exists 4]; split; try reflexivity; lia. }
    destruct P16 as (q & P & Hq). rewrite P in *. rewrite !Z.shiftl_mul_pow2 by lia. rewrite P.
    assert (Q : forall a, Z.shiftr (a * (16 * q)) (if chroma then 1 else 0) = a * (16 * q) / (if chroma then 2 else 1)).
    { intros a. rewrite shr1 by (destruct chroma; lia). destruct chroma; reflexivity. }
    rewrite !Q.
    assert (D : forall a, a * (16 * q) / (if chroma then 2 else 1) = a * ((if chroma then 8 else 16) * q)).
    { intros a. destruct chroma; [|rewrite Z.div_1_r; ring]. replace (a * (16 * q)) with (a * (8 * q) * 2) by ring. apply Z.div_mul. lia. }
    rewrite !D. rewrite Z.add_0_r.
    set (u := (if chroma then 8 else 16) * q) in *.
    assert (U : 8 <= u) by (unfold u; destruct chroma; lia).
    assert (C2 : (nl - 1) * u < lines <= nl * u) by (unfold u; destruct chroma; nia).
    assert (KU : 0 <= k * u) by nia.
    assert (KS : (k + 1) * u = k * u + u) by ring.
    assert (KN : k * u <= (nl - 1) * u) by nia.
    assert (K1 : 0 < k -> u <= k * u) by (intros; nia).
    destruct (Z.ltb_spec 0 k), (Z.eqb_spec k 0), (Z.ltb_spec k (nl - 1)), (Z.eqb_spec (k + 1) 0); try lia; repeat split; try lia;
      intros; subst; try lia.
  Qed.
  Lemma last_end k : 0 <= k < nl -> k < nl - 1 -> E k <= lines.
  Proof.
    intros Hk L. destruct (rows_facts k Hk) as (_ & A & _). rewrite A by lia. destruct (rows_facts (k + 1)) as (B & _ & _ & C & _); [lia|]. lia.
  Qed.
  Lemma end_bound k : 0 <= k < nl -> E k <= lines + n.
  Proof.
    intros Hk. destruct (Z.eq_dec k (nl - 1)) as [Ek|N]; [|pose proof (last_end k Hk); lia].
    unfold E, pad_rows. cbn [snd]. destruct (Z.ltb_spec k (nl - 1)); [lia|]. rewrite Z.shiftl_mul_pow2 by lia.
    rewrite shr1 by (destruct chroma; lia).
    assert (P16 : 1 <= 2 ^ lv <= 64) by (assert (lv = 4 \/ lv = 5 \/ lv = 6) as [-> | [-> | ->]] by lia; cbn; lia).
    replace (k + 1) with nl by lia. rewrite Hn80. destruct chroma.
    - change (2 ^ 1) with 2. Z.div_mod_to_equations. nia.
    - change (2 ^ 0) with 1. rewrite Z.div_1_r. nia.
  Qed.

  (** The samples of the plane are not changed. *)
  Lemma pad_call_inside ly m x y : 0 <= ly < nl -> 0 <= x < w -> 0 <= y < lines ->
    pad_line_lcu chroma base stride w lines lv nl ly m (pos x y) = m (pos x y).
  Proof.
    intros Hly X Y. rewrite pad_call by lia. cbv zeta.
    replace ((ly =? nl - 1) && (lines - 1 <? y) && (y <=? lines - 1 + n)) with false
      by (destruct (Z.ltb_spec (lines - 1) y); [lia|]; rewrite andb_false_r; reflexivity).
    replace ((ly =? 0) && (- n <=? y) && (y <? 0)) with false
      by (destruct (Z.ltb_spec y 0); [lia|]; rewrite andb_false_r; reflexivity).
    replace (clamp 0 (w - 1) x) with x by (unfold clamp; lia). destruct (_ && _); reflexivity.
  Qed.

  (** Lines above [b] are extended. *)
  Definition ext_to (b : Z) (m : mem) : Prop :=
    forall x y, - n <= x < w + n -> - n <= y < b -> m (pos x y) = m (pos (clamp 0 (w - 1) x) (clamp 0 (lines - 1) y)).

  Lemma pad_step ly m : 0 <= ly < nl -> (0 < ly -> ext_to (S ly) m) ->
    ext_to (if ly =? nl - 1 then lines + n else E ly) (pad_line_lcu chroma base stride w lines lv nl ly m).
  Proof.
    intros Hly Hm x y X Y. destruct (rows_facts ly Hly) as (F1 & F2 & F3 & F4 & F5 & F6).
    rewrite (pad_call_inside ly m (clamp 0 (w - 1) x) (clamp 0 (lines - 1) y) Hly) by (unfold clamp; lia).
    rewrite pad_call by exact X. cbv zeta.
    set (y1 := if (ly =? nl - 1) && (lines - 1 <? y) && (y <=? lines - 1 + n) then lines - 1 else y).
    assert (Y1 : - n <= y1 < E ly /\ y1 <= lines - 1 /\ clamp 0 (lines - 1) y1 = clamp 0 (lines - 1) y).
    { unfold y1. destruct (Z.eqb_spec ly (nl - 1)) as [L|L]; cbn [andb].
      - destruct (Z.ltb_spec (lines - 1) y), (Z.leb_spec y (lines - 1 + n)); cbn [andb]; unfold clamp; try lia.
      - pose proof (last_end ly Hly). unfold clamp. lia. }
    clearbody y1. destruct Y1 as (A1 & A2 & <-).
    set (y2 := if (ly =? 0) && (- n <=? y1) && (y1 <? 0) then 0 else y1).
    destruct (Z.eq_dec ly 0) as [L0|L0].
    - assert (Y2 : y2 = clamp 0 (lines - 1) y1).
      { unfold y2. rewrite L0. cbn [Z.eqb andb]. destruct (Z.leb_spec (- n) y1), (Z.ltb_spec y1 0); cbn [andb]; unfold clamp; lia. }
      rewrite <- Y2. assert (S ly = 0) by (rewrite F1, L0; reflexivity).
      assert (0 <= y2 < E ly) by (unfold clamp in Y2; lia).
      destruct (Z.leb_spec (S ly) y2), (Z.ltb_spec y2 (E ly)); try lia. cbn [andb]. reflexivity.
    - assert (Y2 : y2 = y1) by (unfold y2; destruct (Z.eqb_spec ly 0); [lia|]; reflexivity). rewrite Y2.
      destruct (Z.leb_spec (S ly) y1) as [G|G].
      + destruct (Z.ltb_spec y1 (E ly)); [|lia]. cbn [andb]. replace (clamp 0 (lines - 1) y1) with y1 by (unfold clamp; lia). reflexivity.
      + cbn [andb]. apply Hm; try lia.
  Qed.

  Lemma writes_keep y0 f m : y0 <= lines -> 1 <= y0 -> writes_below base stride w lines y0 f -> ext_to y0 m -> ext_to y0 (f m).
  Proof.
    intros L0 L1 W H x y X Y.
    assert (N : forall u v, - n <= u < w + n -> v < y0 -> f m (pos u v) = m (pos u v)).
    { intros u v U V. apply W. intros a b A B Eq. unfold pos, at_ in Eq. assert (v = b) by nia. lia. }
    rewrite (N x y) by lia. rewrite (N (clamp 0 (w - 1) x) (clamp 0 (lines - 1) y)) by (unfold clamp; lia).
    apply H; assumption.
  Qed.

  Lemma pad_run (f : Z -> mem -> mem) m :
    (forall ly, 0 <= ly < nl -> writes_below base stride w lines (first_line chroma lv ly) (f ly)) ->
    extended base stride w lines n (floop 0 nl (fun ly m => pad_line_lcu chroma base stride w lines lv nl ly (f ly m)) m).
  Proof.
    intros W.
    assert (K : 0 <= nl <= nl /\ (0 < nl -> ext_to (if nl =? nl then lines + n else S nl) (floop 0 nl (fun ly m => pad_line_lcu chroma base stride w lines lv nl ly (f ly m)) m))).
    { apply (floop_inv (fun k (t : mem) => 0 <= k <= nl /\ (0 < k -> ext_to (if k =? nl then lines + n else S k) t)) 0 nl); [lia|split; [lia|intros; lia]|].
      intros k t Hk [_ Ht]. split; [lia|]. intros _.
      destruct (rows_facts k Hk) as (F1 & F2 & F3 & F4 & F5 & F6).
      pose proof (pad_step k (f k t) Hk) as PS.
      assert (PRE : 0 < k -> ext_to (S k) (f k t)).
      { intros K0. apply writes_keep; [lia|pose proof (F6 K0); lia|rewrite F1; apply W; exact Hk|].
        specialize (Ht K0). destruct (Z.eqb_spec k nl); [lia|]. exact Ht. }
      specialize (PS PRE). destruct (Z.eqb_spec k (nl - 1)), (Z.eqb_spec (k + 1) nl); try lia; [exact PS|].
      assert (k + 1 < nl) by lia. destruct (rows_facts (k + 1)) as (G1 & _); [lia|]. rewrite G1. rewrite <- F2 by lia. exact PS. }
    destruct K as [_ K]. rewrite Z.eqb_refl in K. specialize (K ltac:(lia)). exact K.
  Qed.

  (** Nothing is written outside the plane with its border. *)
  Lemma floop_keep a b (f : Z -> mem -> mem) m q : (forall i t, a <= i < b -> f i t q = t q) -> floop a b f m q = m q.
  Proof.
    intros H. destruct (Z.le_gt_cases a b) as [L|L]; [|rewrite floop_none by lia; reflexivity].
    refine (floop_inv (fun i (t : mem) => t q = m q) a b f m L eq_refl _). intros i t Hi Ht. rewrite H by exact Hi. exact Ht.
  Qed.
  Lemma pad_call_area ly m q : 0 <= ly < nl ->
    (q < pos (- n) (- n) \/ pos (- n) (lines + n) <= q) ->
    pad_line_lcu chroma base stride w lines lv nl ly m q = m q.
  Proof.
    intros Hly Q. unfold pad_line_lcu. cbv zeta.
    assert (EN : Z.shiftr 80 (if chroma then 1 else 0) = n) by (rewrite Hn80; destruct chroma; reflexivity).
    rewrite EN. fold (S ly). fold (E ly).
    destruct (rows_facts ly Hly) as (_ & _ & _ & F4 & _). pose proof (end_bound ly Hly) as EB.
    assert (O : forall u v, - n <= u < stride - n -> - n <= v < lines + n -> q <> base + v * stride + u).
    { intros u v U V ->. unfold pos, at_ in Q. nia. }
    set (m1 := floop (S ly) (E ly) _ m).
    assert (K1 : m1 q = m q).
    { apply floop_keep. intros j t Hj. unfold pad_line. cbv zeta. apply floop_keep. intros i t' Hi.
      rewrite upd_other; [rewrite upd_other; [reflexivity|]|].
      - intros Eq. apply (O (- n + i) j); [lia|lia|]. rewrite Eq. ring.
      - intros Eq. apply (O (w + i) j); [lia|lia|]. rewrite Eq. ring. }
    set (m2 := if ly =? 0 then _ else m1).
    assert (K2 : m2 q = m1 q).
    { unfold m2. destruct (ly =? 0); [|reflexivity]. apply floop_keep. intros j t Hj. unfold copy_line. apply floop_keep. intros i t' Hi.
      apply upd_other. intros Eq. apply (O (- n + i) (- (j + 1))); [lia|lia|]. rewrite Eq. ring. }
    destruct (ly =? nl - 1); [|congruence].
    rewrite floop_keep; [congruence|]. intros j t Hj. unfold copy_line. apply floop_keep. intros i t' Hi.
    apply upd_other. intros Eq. apply (O (- n + i) (lines + j)); [lia|lia|]. rewrite Eq. ring.
  Qed.
End Pad.
