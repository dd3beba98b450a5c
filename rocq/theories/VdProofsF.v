(** A picture deblocked with the vector kernels. *)
From Coq Require Import ZArith List Bool Lia.
From Verif Require Import CBase MemModel MemProofs UtilModel QpModel SaoModel DbModel VxModelBase VdModel VdModelB LfModel LfSpec LfProofs DbSpec VdSpec VdProofsC VdProofsD VdProofsE.
Import ListNotations.
Open Scope Z_scope.

Lemma dec_range (P : Z -> Prop) : (forall k, P k \/ ~ P k) -> forall n a, (exists k, a <= k < a + Z.of_nat n /\ P k) \/ (forall k, a <= k < a + Z.of_nat n -> ~ P k).
Proof.
  intros D. induction n as [|n IH]; intros a; [right; intros; lia|].
  destruct (D a) as [H|H]; [left; exists a; split; [lia|exact H]|].
  destruct (IH (a + 1)) as [(k & Hk & Pk)|N]; [left; exists k; split; [lia|exact Pk]|].
  right. intros k Hk. destruct (Z.eq_dec k a) as [->|]; [exact H|]. apply N. lia.
Qed.
Lemma in_edge c ptr inc src q : (exists k j, 0 <= k < lines c /\ -3 <= j <= 2 /\ q = src + k * ptr + j * inc) \/
  (forall k j, 0 <= k < lines c -> -3 <= j <= 2 -> q <> src + k * ptr + j * inc).
Proof.
  destruct (dec_range (fun k => exists j, -3 <= j <= 2 /\ q = src + k * ptr + j * inc)) with (n := Z.to_nat (lines c)) (a := 0) as [(k & Hk & j & Hj & E)|N].
  - intros k. destruct (dec_range (fun j => q = src + k * ptr + j * inc)) with (n := 6%nat) (a := -3) as [(j & Hj & E)|N].
    + intros j. destruct (Z.eq_dec q (src + k * ptr + j * inc)); auto.
    + left. exists j. split; [lia|exact E].
    + right. intros (j & Hj & E). apply (N j ltac:(lia) E).
  - left. exists k, j. split; [destruct c; cbn in *; lia|]. split; [lia|exact E].
  - right. intros k j Hk Hj E. apply (N k); [destruct c; cbn in *; lia|]. exists j. split; assumption.
Qed.
Definition bytes_of (m : mem) : Prop := forall q, 0 <= m q <= 255.
Definition agree (m m' : mem) : Prop := forall q, m q = m' q.
Lemma edge_det c ptr inc alpha beta f0 f1 src m m' m1 m2 : agree m m' ->
  edge_filtered c ptr inc alpha beta f0 f1 src m m1 -> edge_filtered c ptr inc alpha beta f0 f1 src m' m2 -> agree m1 m2.
Proof.
  intros E [A B] [A' B'] q. destruct (in_edge c ptr inc src q) as [(k & j & Hk & Hj & ->)|N].
  - rewrite A, A' by assumption. apply filtered_ext; [exact Hj|]. intros; apply E.
  - rewrite B, B' by assumption. apply E.
Qed.
Lemma edge_bytes c ptr inc alpha beta f0 f1 src m m1 : bytes_of m -> edge_filtered c ptr inc alpha beta f0 f1 src m m1 -> bytes_of m1.
Proof.
  intros Hm [A B] q. destruct (in_edge c ptr inc src q) as [(k & j & Hk & Hj & ->)|N].
  - rewrite A by assumption. apply filtered_range; [exact Hj|]. intros; apply Hm.
  - rewrite B by assumption. apply Hm.
Qed.
Lemma c_edge c ptr inc alpha beta f0 f1 src m : layout ptr inc -> bytes_of m ->
  edge_filtered c ptr inc alpha beta f0 f1 src m (lf_edge 8 c ptr inc alpha beta f0 f1 src m).
Proof. intros L H. apply edge_ok; [exact L|]. intros k j _ _. specialize (H (src + k * ptr + j * inc)). change (2 ^ 8) with 256. lia. Qed.

(** Thresholds fit in a byte. *)
Lemma get_forall (P : Z -> Prop) l i v : Forall P l -> get l i = Some v -> P v.
Proof. intros F G. unfold get in G. rewrite Forall_forall in F. apply F. destruct (i <? 0); [discriminate|]. eapply nth_error_In, G. Qed.
Lemma table_alpha : Forall (fun v => 0 <= v <= 255) ALPHA_TABLE.
Proof. repeat (constructor; [lia|]). constructor. Qed.
Lemma table_beta : Forall (fun v => 0 <= v <= 255) BETA_TABLE.
Proof. repeat (constructor; [lia|]). constructor. Qed.
Lemma threshold_byte t qp off v : Forall (fun v => 0 <= v <= 255) t -> lf_threshold t 8 qp off = Done v -> 0 <= v <= 255.
Proof.
  intros F. unfold lf_threshold. destruct (int32 _) as [i| | |]; cbn [bindo]; try discriminate. unfold lut.
  destruct (get t (HdrModel.clip3 0 63 i)) as [w|] eqn:G; cbn [bindo]; [|discriminate]. intros E.
  change (Z.shiftl w (8 - 8)) with (Z.shiftl w 0) in E. rewrite Z.shiftl_0_r in E. assert (w = v) as <- by congruence.
  exact (get_forall _ _ _ _ F G).
Qed.
Lemma threshold_c_byte t qp delta off v : Forall (fun v => 0 <= v <= 255) t -> lf_threshold_c false t 8 qp delta off = Done v -> 0 <= v <= 255.
Proof. intros F. unfold lf_threshold_c. destruct (chroma_qp _ _ _ _) as [q| | |]; cbn [bindo]; try discriminate. apply threshold_byte, F. Qed.

(** Two runs side by side. *)
Local Opaque edge_ver_sse edge_hor_sse edge_ver_c_sse edge_hor_c_sse lf_edge lf_threshold lf_threshold_c need_filter.
Definition orel {A B} (R : A -> B -> Prop) (x : outcome A) (y : outcome B) : Prop :=
  match x, y with Done a, Done b => R a b | Fail, Fail => True | Undef, Undef => True | Hang, Hang => True | _, _ => False end.
Lemma orel_bind {A B C D} (R : A -> B -> Prop) (T : C -> D -> Prop) x y f g : orel R x y -> (forall a b, R a b -> orel T (f a) (g b)) -> orel T (bindo x f) (bindo y g).
Proof. destruct x, y; cbn [orel bindo]; intros; auto; contradiction. Qed.
Lemma orel_loop {A B} (R : A -> B -> Prop) f g n : (forall k a b, 0 <= k < Z.of_nat n -> R a b -> orel R (f k a) (g k b)) -> forall a b, R a b -> orel R (oloop n f a) (oloop n g b).
Proof.
  induction n as [|n IH]; intros H a b Hab; cbn [oloop]; [exact Hab|]. eapply orel_bind; [apply IH; [intros; apply H; [lia|assumption]|exact Hab]|].
  intros; apply H; [lia|assumption].
Qed.
Definition same (s s' : planes) : Prop :=
  (agree (pl_y s) (pl_y s') /\ agree (pl_u s) (pl_u s') /\ agree (pl_v s) (pl_v s')) /\ (bytes_of (pl_y s') /\ bytes_of (pl_u s') /\ bytes_of (pl_v s')).
Definition same_t (t t' : flags * planes) : Prop := fst t = fst t' /\ same (snd t) (snd t').

Section Pic.
  Context (p : pict) (a : lay).
  Hypothesis (Hd : p_depth p = 8) (Hh : p_hbd p = false) (Hb : l_bits a = 8) (Hs : 8 <= l_st a) (Hc : 8 <= l_stc a).

  Lemma bytes_agree m m' : agree m m' -> bytes_of m' -> bytes_of m.
  Proof. intros E H q. rewrite E. apply H. Qed.
  Lemma scu_same f dir x y s s' : dir = 0 \/ dir = 1 -> same s s' -> orel same (scu_deblock_sse p a f dir x y s) (scu_deblock p a f dir x y s').
  Proof.
    intros Hdir H. unfold scu_deblock_sse, scu_deblock. cbv zeta.
    destruct ((if dir =? 0 then f_ver f else f_hor f) (y * p_ws p + x) =? 0); [exact H|]. destruct (negb _ && negb _); [exact H|].
    rewrite Hd, Hh, Hb.
    set (qp := Z.shiftr _ 1). set (f0 := need_filter _ _ _ _ _ _). set (f1 := need_filter _ _ _ _ _ _).
    set (src := l_by a + _ + _). set (off := Z.shiftl y 2 * _ + _).
    destruct (lf_threshold ALPHA_TABLE 8 qp (p_offa p)) as [alpha| | |] eqn:EA; cbn [bindo orel]; auto.
    destruct (lf_threshold BETA_TABLE 8 qp (p_offb p)) as [beta| | |] eqn:EB; cbn [bindo orel]; auto.
    apply (threshold_byte _ _ _ _ table_alpha) in EA. apply (threshold_byte _ _ _ _ table_beta) in EB.
    destruct H as ((Ay & Au & Av) & (By & Bu & Bv)).
    assert (agree ((if dir =? 0 then edge_ver_sse else edge_hor_sse) (l_st a) alpha beta f0 f1 src (pl_y s))
       ((if dir =? 0 then edge_ver 8 false (l_st a) else edge_hor 8 false (l_st a)) alpha beta f0 f1 src (pl_y s')) /\
       bytes_of ((if dir =? 0 then edge_ver 8 false (l_st a) else edge_hor 8 false (l_st a)) alpha beta f0 f1 src (pl_y s'))) as [Gy Ty].
    { destruct Hdir as [-> | ->]; cbn [Z.eqb Pos.eqb].
      - assert (layout (l_st a) 1) as Ly by (right; lia). pose proof (c_edge false (l_st a) 1 alpha beta f0 f1 src _ Ly By) as C. split; [|exact (edge_bytes _ _ _ _ _ _ _ _ _ _ By C)].
        eapply edge_det; [exact Ay|apply ver_luma; auto; apply bytes_agree with (pl_y s'); assumption|exact C].
      - assert (layout 1 (l_st a)) as Ly by (left; lia). pose proof (c_edge false 1 (l_st a) alpha beta f0 f1 src _ Ly By) as C. split; [|exact (edge_bytes _ _ _ _ _ _ _ _ _ _ By C)].
        eapply edge_det; [exact Ay|apply hor_luma; auto; apply bytes_agree with (pl_y s'); assumption|exact C]. }
    destruct ((_ =? 2) && _ && _); [|cbn [orel]; exact (conj (conj Gy (conj Au Av)) (conj Ty (conj Bu Bv)))].
    destruct (lf_threshold_c false ALPHA_TABLE 8 qp (p_delta p) (p_offa p)) as [alpha'| | |] eqn:EA'; cbn [bindo orel]; auto.
    destruct (lf_threshold_c false BETA_TABLE 8 qp (p_delta p) (p_offb p)) as [beta'| | |] eqn:EB'; cbn [bindo orel]; auto.
    apply (threshold_c_byte _ _ _ _ _ table_alpha) in EA'. apply (threshold_c_byte _ _ _ _ _ table_beta) in EB'.
    cbn [pl_y pl_u pl_v].
    destruct Hdir as [-> | ->]; cbn [Z.eqb Pos.eqb].
    - pose proof (ver_chroma (l_stc a) alpha' beta' f0 f1 (l_bu a + off) (l_bv a + off) (pl_u s) (pl_v s) Hc EA' EB'
        (bytes_agree _ _ Au Bu) (bytes_agree _ _ Av Bv)) as K. cbv zeta in K.
      destruct (edge_ver_c_sse _ _ _ _ _ _ _ _ _) as [u v]. cbn [fst snd] in K. destruct K as [Ku Kv].
      assert (layout (l_stc a) 1) as Ly by (right; lia).
      pose proof (c_edge true (l_stc a) 1 alpha' beta' f0 f1 (l_bu a + off) _ Ly Bu) as Cu. pose proof (c_edge true (l_stc a) 1 alpha' beta' f0 f1 (l_bv a + off) _ Ly Bv) as Cv.
      split; cbn [pl_y pl_u pl_v].
      + split; [exact Gy|]. split; [exact (edge_det _ _ _ _ _ _ _ _ _ _ _ _ Au Ku Cu)|exact (edge_det _ _ _ _ _ _ _ _ _ _ _ _ Av Kv Cv)].
      + split; [exact Ty|]. split; [exact (edge_bytes _ _ _ _ _ _ _ _ _ _ Bu Cu)|exact (edge_bytes _ _ _ _ _ _ _ _ _ _ Bv Cv)].
    - pose proof (hor_chroma (l_stc a) alpha' beta' f0 f1 (l_bu a + off) (l_bv a + off) (pl_u s) (pl_v s) Hc EA' EB'
        (bytes_agree _ _ Au Bu) (bytes_agree _ _ Av Bv)) as K. cbv zeta in K.
      destruct (edge_hor_c_sse _ _ _ _ _ _ _ _ _) as [u v]. cbn [fst snd] in K. destruct K as [Ku Kv].
      assert (layout 1 (l_stc a)) as Ly by (left; lia).
      pose proof (c_edge true 1 (l_stc a) alpha' beta' f0 f1 (l_bu a + off) _ Ly Bu) as Cu. pose proof (c_edge true 1 (l_stc a) alpha' beta' f0 f1 (l_bv a + off) _ Ly Bv) as Cv.
      split; cbn [pl_y pl_u pl_v].
      + split; [exact Gy|]. split; [exact (edge_det _ _ _ _ _ _ _ _ _ _ _ _ Au Ku Cu)|exact (edge_det _ _ _ _ _ _ _ _ _ _ _ _ Av Kv Cv)].
      + split; [exact Ty|]. split; [exact (edge_bytes _ _ _ _ _ _ _ _ _ _ Bu Cu)|exact (edge_bytes _ _ _ _ _ _ _ _ _ _ Bv Cv)].
  Qed.
  Lemma lcu_same lx ly t t' : same_t t t' -> orel same_t (lcu_deblock_sse p a lx ly t) (lcu_deblock p a lx ly t').
  Proof.
    intros [E H]. unfold lcu_deblock_sse, lcu_deblock. cbv zeta. rewrite E.
    eapply orel_bind. { apply orel_loop; [|exact H]. intros j s s' _ Hss. apply orel_loop; [|exact Hss]. intros i s1 s2 _ H12. apply scu_same; auto. }
    intros s s' Hss. eapply orel_bind. { apply orel_loop; [|exact Hss]. intros j s1 s2 _ H12. apply orel_loop; [|exact H12]. intros i s3 s4 _ H34. apply scu_same; auto. }
    intros s1 s2 H12. cbn [orel]. split; [reflexivity|exact H12].
  Qed.
  Lemma store_same c base st lx ly r m m' : 0 <= lx -> 0 <= ly -> samples_ok p c 8 r -> agree m m' -> bytes_of m' ->
    agree (store_lcu p base st (if c then 1 else 0) lx ly r m) (store_lcu p base st (if c then 1 else 0) lx ly r m') /\ bytes_of (store_lcu p base st (if c then 1 else 0) lx ly r m').
  Proof.
    intros Hlx Hly Hr E B. unfold store_lcu, block_write. cbv zeta. set (sh := if c then 1 else 0).
    set (x0 := Z.shiftl lx (p_lv p - sh)). set (y0 := Z.shiftl ly (p_lv p - sh)).
    assert (0 <= x0) as X0 by (apply Z.shiftl_nonneg; exact Hlx). assert (0 <= y0) as Y0 by (apply Z.shiftl_nonneg; exact Hly).
    assert (forall v, Z.shiftl v (3 - sh) = per c * v) as P.
    { intros v. unfold sh, per. destruct c; [change (3 - 1) with 2|change (3 - 0) with 3]; rewrite Z.shiftl_mul_pow2 by lia; lia. }
    rewrite !P. set (w := Z.to_nat (Z.min _ (per c * p_ws p - x0))). set (h := Z.to_nat (Z.min _ (per c * p_hs p - y0))).
    assert (forall i j, 0 <= i < Z.of_nat w -> 0 <= j < Z.of_nat h -> 0 <= r (x0 + i) (y0 + j) <= 255) as V.
    { intros i j Hi Hj. specialize (Hr (x0 + i) (y0 + j)). change (2 ^ 8) with 256 in Hr. unfold plane_in in Hr. unfold w in Hi. unfold h in Hj. lia. }
    clearbody w h x0 y0. set (f := fun j m => loop _ _ m).
    assert (forall j m m', 0 <= j < Z.of_nat h -> agree m m' -> bytes_of m' -> agree (f j m) (f j m') /\ bytes_of (f j m')) as F.
    { intros j m1 m2 Hj E1 B1. unfold f. assert (forall n, (n <= w)%nat -> let g := fun x m3 => upd m3 (base + y0 * st + x0 + j * st + x) (r (x0 + x) (y0 + j)) in
        agree (loop n g m1) (loop n g m2) /\ bytes_of (loop n g m2)) as G; [|exact (G w (le_n w))].
      induction n as [|n IH]; intros Hn; cbv zeta; cbn [loop]; [split; assumption|]. destruct (IH ltac:(lia)) as [IE IB]. cbv zeta in IE, IB.
      split; intros q; unfold upd; destruct (q =? _); auto. apply V; lia. }
    assert (forall n, (n <= h)%nat -> agree (loop n f m) (loop n f m') /\ bytes_of (loop n f m')) as G; [|exact (G h (le_n h))].
    induction n as [|n IH]; intros Hn; cbn [loop]; [split; assumption|]. destruct (IH ltac:(lia)) as [IE IB]. apply F; [lia|assumption|assumption].
  Qed.
  Lemma picture_same ry ru rv wl hl s s' : samples_ok p false 8 ry -> (p_c400 p = false -> samples_ok p true 8 ru /\ samples_ok p true 8 rv) ->
    same s s' -> orel same_t (picture_sse p a ry ru rv wl hl s) (picture p a ry ru rv wl hl s').
  Proof.
    intros Ry Rc H. unfold picture_sse, picture, row_step.
    apply orel_loop; [|split; [reflexivity|exact H]]. intros j t1 t2 Hj H12. apply orel_loop; [|exact H12]. intros i t3 t4 Hi [E ((Ay & Au & Av) & (By & Bu & Bv))].
    unfold lcu_step_sse, lcu_step. cbv zeta. apply lcu_same. rewrite E. split; [reflexivity|]. cbn [snd].
    destruct (store_same false (l_by a) (l_st a) i j ry _ _ ltac:(lia) ltac:(lia) Ry Ay By) as [Y1 Y2].
    destruct (p_c400 p); [split; cbn [pl_y pl_u pl_v]; auto|]. destruct (Rc eq_refl) as [Ru Rv].
    destruct (store_same true (l_bu a) (l_stc a) i j ru _ _ ltac:(lia) ltac:(lia) Ru Au Bu) as [U1 U2].
    destruct (store_same true (l_bv a) (l_stc a) i j rv _ _ ltac:(lia) ltac:(lia) Rv Av Bv) as [V1 V2].
    split; cbn [pl_y pl_u pl_v]; auto.
  Qed.
End Pic.
