(** The readers of types, directions, references and coded-block patterns. *)
From Coq Require Import ZArith List Bool Lia.
From Verif Require Import CBase CBaseProofs AecModel AecSpec SynModel BinSpec BinProofs BinProofsB.
Import ListNotations.
Open Scope Z_scope.

Lemma wpm_read : forall nref w, 2 <= nref <= 4 -> 0 <= w <= nref - 1 -> reads (read_wpm nref) (wpm_bins nref w) w.
Proof. intros nref w Hn Hw. unfold read_wpm, wpm_bins. apply (reads_ext A_WSKIP 0 2 (nref - 1) w); cbn; lia. Qed.

(** A unary code whose last bin is read separately. *)
Lemma last_bin : forall c v max, 0 <= v <= max + 1 -> 0 <= max ->
  unary c v (max + 1) = unary c (Z.min v max) max ++ (if v <? max then [] else [c max (flag (v =? max))]).
Proof.
  intros c v max Hv Hm. destruct (Z.ltb_spec v max) as [C|C].
  - rewrite Z.min_l, app_nil_r by lia. unfold unary. replace (v <? max + 1) with true by lia. replace (v <? max) with true by lia. reflexivity.
  - rewrite Z.min_r by lia. unfold unary. replace (max <? max) with false by lia. rewrite app_nil_r. destruct (Z.eqb_spec v max) as [-> |E].
    + replace (max <? max + 1) with true by lia. reflexivity.
    + assert (v = max + 1) as -> by lia. replace (max + 1 <? max + 1) with false by lia. rewrite app_nil_r.
      replace (Z.to_nat (max + 1)) with (S (Z.to_nat max)) by lia. rewrite seq_S, map_app. cbn [map Nat.add flag]. rewrite Z2Nat.id by lia. reflexivity.
Qed.
Lemma ext_last : forall r i inc max v (f : Z -> syn Z), 0 <= i -> 0 <= max -> i + max < a_size r -> max <= inc -> 0 <= v <= max + 1 ->
  (forall x, x <> max -> f x = ret x) -> f max = (let! b := sym r (i + max) in ret (max + (if b =? 0 then 1 else 0))) ->
  reads (let! x := ext r i inc max in f x) (unary (fun j => at_ctx r (i + j)) v (max + 1)) v.
Proof.
  intros r i inc max v f Hi Hm Hs Hinc Hv F1 F2. rewrite last_bin by lia. eapply reads_bind with (x := Z.min v max).
  - eapply reads_eq; [apply (reads_ext r i inc max (Z.min v max)); lia| |reflexivity]. apply unary_ext; [lia|]. intros j b Hj. f_equal. lia.
  - cbv beta. destruct (Z.ltb_spec v max) as [C|C].
    + rewrite Z.min_l, F1 by lia. apply reads_ret.
    + rewrite Z.min_r, F2 by lia. destruct (Z.eqb_spec v max) as [-> |E]; cbn [flag].
      * rsym 1. cbn [Z.eqb]. rret. lia.
      * rsym 0. cbn [Z.eqb]. rret. lia.
Qed.
Lemma dir_skip_read : forall d, 0 <= d <= 4 -> reads read_dir_skip_mode (dir_skip_bins d) d.
Proof.
  intros d Hd. unfold read_dir_skip_mode, dir_skip_bins. apply (ext_last A_SUBTYPE 0 32768 3 d (fun v => if v =? 3 then let! b := sym A_SUBTYPE 3 in ret (v + (if b =? 0 then 1 else 0)) else ret v)); try (cbn; lia).
  - intros x Hx. replace (x =? 3) with false by lia. reflexivity.
  - reflexivity.
Qed.

(** ** Types. *)
Lemma type_unary : forall level max f n k, (Z.of_nat f = 7 - k) -> 0 <= k -> k + n <= max -> 0 <= n -> max = (if level =? 3 then 5 else 6) ->
  reads (cu_type_bins f level k (Z.min 5 k) k max)
    (unary (fun j b => if (j + k =? 5) && negb (level =? 3) then (Final, b) else at_ctx A_CUTYPE (j + k) b) n (max - k)) (k + n).
Proof.
  intros level max. induction f as [|f IH]; intros n k Hf Hk Hn Hn0 Hmax.
  - exfalso. destruct (level =? 3); lia.
  - cbn [cu_type_bins]. assert (M6: max <= 6) by (destruct (level =? 3); lia). destruct (Z.ltb_spec k max) as [C|C].
    + assert (Step: forall b, reads (if (k =? 5) && negb (level =? 3) then fin else sym A_CUTYPE (Z.min 5 k)) [if (0 + k =? 5) && negb (level =? 3) then (Final, b) else at_ctx A_CUTYPE (0 + k) b] b).
      { intros b. rewrite Z.add_0_l. destruct ((k =? 5) && negb (level =? 3)); [apply reads_fin|]. rewrite Z.min_r by lia. apply reads_sym. cbn. lia. }
      destruct (Z.eq_dec n 0) as [-> |N].
      * rewrite unary_zero by lia. eapply reads_next; [apply (Step 1)|]. cbv beta. rcheck. cbn [Z.eqb]. rret. lia.
      * rewrite unary_step by lia. eapply reads_next; [apply (Step 0)|]. cbv beta. rcheck. cbn [Z.eqb].
        replace (Z.min 5 (Z.min 5 k + 1)) with (Z.min 5 (k + 1)) by lia.
        eapply reads_eq; [apply (IH (n - 1) (k + 1)); lia| |lia]. replace (max - k - 1) with (max - (k + 1)) by lia. apply unary_ext; [lia|]. intros j b Hj.
        replace (j + 1 + k) with (j + (k + 1)) by lia. reflexivity.
    + assert (n = 0) as -> by lia. replace (max - k) with 0 by lia. rewrite unary_last. rret. lia.
Qed.
Definition type_ok (level : Z) (amp : bool) (ty : Z) : Prop :=
  -1 <= ty <= 3 \/ 4 <= ty <= 7 /\ level <> 3 /\ amp = true \/ ty = 9.
Lemma type_read : forall level amp ty, 3 <= level <= 6 -> type_ok level amp ty ->
  reads (let! s := cu_type_bins 7 level 0 0 0 (if level =? 3 then 5 else 6) in
         let! ty := lookup (if level =? 3 then [-1; 0; 1; 2; 3; 9; 0] else [-1; 0; 1; 2; 3; -1; 9]) s in
         if (4 <=? level) && amp && ((ty =? 2) || (ty =? 3)) then
           let! b := sym A_AMP 0 in
           if b =? 0 then let! c := sym A_AMP 1 in ret (ty * 2 + (if c =? 0 then 1 else 0)) else ret ty
         else ret ty) (type_bins level amp ty) ty.
Proof.
  intros level amp ty Hl Ht. unfold type_bins. set (max := if level =? 3 then 5 else 6). set (n := type_number level ty).
  assert (Hn: 0 <= n <= max).
  { unfold n, max, type_number. unfold type_ok in Ht. destruct (Z.leb_spec ty 1); [destruct (level =? 3); lia|]. destruct (Z.leb_spec 8 ty); [destruct (level =? 3); lia|].
    destruct ((ty =? 2) || (ty =? 4) || (ty =? 5)), (level =? 3); lia. }
  eapply reads_bind with (x := n).
  { eapply reads_eq; [apply (type_unary level max 7 n 0); try lia; reflexivity| |lia]. rewrite Z.sub_0_r. apply unary_ext; [lia|]. intros j b Hj. rewrite Z.add_0_r. reflexivity. }
  cbv beta. unfold type_ok in Ht. clear Hn. subst n max.
  assert (Cases: ty = -1 \/ ty = 0 \/ ty = 1 \/ ty = 2 \/ ty = 3 \/ (4 <= ty <= 7 /\ level <> 3 /\ amp = true) \/ ty = 9) by lia. clear Ht.
  destruct (Z.eqb_spec level 3) as [-> |L3].
  - destruct Cases as [-> | [-> | [-> | [-> | [-> | [(_ & C & _) | ->]]]]]]; [| | | | |lia|];
    (eapply reads_quiet; [apply reads_lookup; reflexivity|]); cbv beta; destruct amp; apply reads_ret.
  - assert (L4: (4 <=? level) = true) by lia. assert (L3': (level =? 3) = false) by lia. rewrite L4. unfold type_number. rewrite ?L3'. cbn [andb negb].
    destruct Cases as [-> | [-> | [-> | [-> | [-> | [(C & _ & ->) | ->]]]]]].
    1-3, 7: (eapply reads_quiet; [apply reads_lookup; reflexivity|]); cbv beta; destruct amp; apply reads_ret.
    + eapply reads_quiet; [apply reads_lookup; reflexivity|]. cbv beta. destruct amp; cbn; [rsym 1; cbn; apply reads_ret|apply reads_ret].
    + eapply reads_quiet; [apply reads_lookup; reflexivity|]. cbv beta. destruct amp; cbn; [rsym 1; cbn; apply reads_ret|apply reads_ret].
    + assert (ty = 4 \/ ty = 5 \/ ty = 6 \/ ty = 7) as [-> | [-> | [-> | ->]]] by lia; (eapply reads_quiet; [apply reads_lookup; reflexivity|]); cbv beta; cbn [andb orb Z.eqb Pos.eqb Z.leb Z.compare Pos.compare Pos.compare_cont];
      rsym 0; cbn [Z.eqb].
      * change (1 - 4 mod 2) with 1. rsym 1. cbn [Z.eqb]. apply reads_ret.
      * change (1 - 5 mod 2) with 0. rsym 0. cbn [Z.eqb]. apply reads_ret.
      * change (1 - 6 mod 2) with 1. rsym 1. cbn [Z.eqb]. apply reads_ret.
      * change (1 - 7 mod 2) with 0. rsym 0. cbn [Z.eqb]. apply reads_ret.
Qed.
Lemma cu_type_read : forall level slice amp mhp wsm nref ty, 3 <= level <= 6 -> slice <> I_SLICE -> type_ok level amp ty -> 0 < ty ->
  reads (read_cu_type level slice amp mhp wsm nref) (type_bins level amp ty) (ty, None).
Proof.
  intros level slice amp mhp wsm nref ty Hl Hs Ht Hp. unfold read_cu_type. replace (slice =? I_SLICE) with false by lia. cbn [negb]. apply reads_end.
  eapply reads_bind with (x := ty); [apply type_read; assumption|]. cbv beta. replace (ty <=? 0) with false by lia. apply reads_ret.
Qed.
Lemma cu_skip_read : forall level slice amp mhp wsm nref ty w d, 3 <= level <= 6 -> slice <> I_SLICE -> ty = -1 \/ ty = 0 -> nref <= 4 ->
  0 <= w <= nref - 1 \/ w = 0 -> (w <> 0 -> slice = F_SLICE /\ wsm = true /\ 1 < nref) ->
  0 <= d <= 4 -> (d <> 0 -> w = 0 /\ (mhp = true /\ slice = F_SLICE \/ slice = B_SLICE)) ->
  reads (read_cu_type level slice amp mhp wsm nref) (type_bins level amp ty ++ skip_bins slice mhp wsm nref w d) (ty, Some (w, d)).
Proof.
  intros level slice amp mhp wsm nref ty w d Hl Hs Ht Hn Hw Hw1 Hd Hd1. unfold read_cu_type. replace (slice =? I_SLICE) with false by lia. cbn [negb].
  eapply reads_bind with (x := ty); [apply type_read; auto; left; lia|]. cbv beta. replace (ty <=? 0) with true by lia. unfold skip_bins. eapply reads_bind with (x := w).
  - destruct (Z.eqb_spec slice F_SLICE) as [S1|S1], wsm, (Z.ltb_spec 1 nref) as [N|N]; cbn [andb]; try (apply wpm_read; lia);
    (eapply reads_eq; [apply reads_ret|reflexivity|]); destruct (Z.eq_dec w 0) as [E0|E0]; try exact E0; exfalso; destruct (Hw1 E0) as (A1 & A2 & A3); (congruence || lia).
  - cbv beta. apply reads_end. eapply reads_bind with (x := d).
    + destruct ((w =? 0) && (mhp && (slice =? F_SLICE) || (slice =? B_SLICE))) eqn:C; [apply dir_skip_read; lia|]. rret.
      destruct (Z.eq_dec d 0) as [E0|E0]; [exact E0|]. exfalso. destruct (Hd1 E0) as (A1 & A2). rewrite A1 in C. cbn in C.
      destruct A2 as [(A2 & A3)|A2]; [rewrite A2, A3 in C|rewrite A2 in C]; [discriminate|]. rewrite orb_true_r in C. discriminate.
    + cbv beta. rret. rewrite !to_i8_id by lia. reflexivity.
Qed.

(** ** Directions. *)
Lemma b_dirs : forall ty d e, 2 <= ty <= 7 -> 0 <= d <= 3 -> 0 <= e <= 3 -> exists v, nth_error (nth (Z.to_nat d) dir2offset []) (Z.to_nat e) = Some v /\
  (let! row := lookup dir2offset d in lookup row e) = ret v /\ forall dskip, set_pdir_b ty dskip v = ret ([d; e; d; e], [dir_refs d; dir_refs e; dir_refs d; dir_refs e]).
Proof.
  intros ty d e Ht Hd He. assert (d = 0 \/ d = 1 \/ d = 2 \/ d = 3) as D by lia. assert (e = 0 \/ e = 1 \/ e = 2 \/ e = 3) as E by lia.
  assert (T: (ty =? 0) = false /\ (ty =? 1) = false /\ (2 <=? ty) && (ty <=? 7) = true) by lia. destruct T as (T0 & T1 & T2).
  destruct D as [-> | [-> | [-> | ->]]], E as [-> | [-> | [-> | ->]]]; eexists; (split; [reflexivity|]); (split; [reflexivity|]); intros dskip; unfold set_pdir_b; rewrite T0, T1, T2; reflexivity.
Qed.

Lemma b_pdir_read : forall ty level dskip d e, 1 <= ty <= 7 -> 0 <= d <= 3 -> 0 <= e <= 3 -> (ty = 1 -> e = d) -> (ty <> 1 -> level = 3 -> d <= 1 /\ e <= 1) ->
  reads (let! v := read_b_pdir ty level in set_pdir_b ty dskip v) (pdir_bins ty level d e) ([d; e; d; e], map dir_refs [d; e; d; e]).
Proof.
  intros ty level dskip d e Ht Hd He H1 H3. unfold pdir_bins, read_b_pdir. destruct (Z.eq_dec ty 1) as [-> |T1].
  - rewrite H1 by reflexivity. change (1 =? 1) with true. cbv iota. apply reads_end. eapply reads_bind with (x := d).
    + unfold one_dir_bins. apply (ext_last A_PUTYPE 0 32768 2 d (fun v => if v =? 2 then let! b := sym A_PUTYPE 2 in ret (v + (if b =? 0 then 1 else 0)) else ret v)); try (cbn; lia).
      * intros x Hx. replace (x =? 2) with false by lia. reflexivity.
      * reflexivity.
    + cbv beta. assert (d = 0 \/ d = 1 \/ d = 2 \/ d = 3) as [-> | [-> | [-> | ->]]] by lia; apply reads_ret.
  - replace (ty =? 1) with false by lia. replace ((2 <=? ty) && (ty <=? 7)) with true by lia. destruct (b_dirs ty d e ltac:(lia) Hd He) as (v & _ & L & SP). apply reads_end.
    eapply reads_bind with (x := v); [|cbv beta; rewrite SP; apply reads_ret]. cbn [andb]. destruct (Z.eqb_spec level 3) as [L3|L3].
    + destruct (H3 T1 L3) as [D1 E1]. unfold two_dir_min_bins. rsym (1 - d). rsym (flag (d =? e)).
      replace (if 1 - d =? 0 then 1 else 0) with d by (destruct (Z.eqb_spec (1 - d) 0); lia).
      replace (if flag (d =? e) =? 0 then 1 - d else d) with e by (destruct (Z.eqb_spec d e); cbn [flag Z.eqb]; lia).
      unfold look2. rewrite L. apply reads_ret.
    + unfold two_dir_bins. assert (Hm: 0 <= dir_number d <= 3) by (assert (d = 0 \/ d = 1 \/ d = 2 \/ d = 3) as [-> | [-> | [-> | ->]]] by lia; unfold dir_number; vm_compute; split; discriminate).
      assert (Hn: 0 <= dir_number e <= 3) by (assert (e = 0 \/ e = 1 \/ e = 2 \/ e = 3) as [-> | [-> | [-> | ->]]] by lia; unfold dir_number; vm_compute; split; discriminate).
      assert (Lm: lookup [3; 1; 0; 2] (dir_number d) = ret d) by (assert (d = 0 \/ d = 1 \/ d = 2 \/ d = 3) as [-> | [-> | [-> | ->]]] by lia; reflexivity).
      assert (Ln: lookup [3; 1; 0; 2] (dir_number e) = ret e) by (assert (e = 0 \/ e = 1 \/ e = 2 \/ e = 3) as [-> | [-> | [-> | ->]]] by lia; reflexivity).
      set (m := dir_number d) in *. set (n := dir_number e) in *. clearbody m n.
      assert (Fin: reads (let! e0 := lookup [3; 1; 0; 2] m in let! e1 := lookup [3; 1; 0; 2] n in look2 dir2offset e0 e1) [] v).
      { rewrite Lm, Ln. unfold look2. eapply reads_quiet; [apply reads_ret|]. cbv beta. eapply reads_quiet; [apply reads_ret|]. cbv beta. rewrite L. apply reads_ret. }
      assert (First: reads (let! v := ext A_PUTYPE 3 32768 2 in if v =? 2 then let! b := sym A_PUTYPE 5 in ret (v + (if b =? 0 then 1 else 0)) else ret v) (one_dir_bins 3 m) m).
      { unfold one_dir_bins. apply (ext_last A_PUTYPE 3 32768 2 m (fun v => if v =? 2 then let! b := sym A_PUTYPE 5 in ret (v + (if b =? 0 then 1 else 0)) else ret v)); try (cbn; lia).
        - intros x Hx. replace (x =? 2) with false by lia. reflexivity.
        - reflexivity. }
      assert (Assoc: forall A B C (x : syn A) (f : A -> syn B) (g : B -> syn C) l w, reads (bind (bind x f) g) l w -> reads (let! y := x in bind (f y) g) l w).
      { intros A B C x f g l w H a cs cs' a1 cs1 V LG Q D E. destruct (H a cs cs' a1 cs1 V LG Q D E) as (c2 & M & R). exists c2. split; [|exact R]. rewrite <- M. unfold bind. destruct (x a cs') as [[[? ?] [?|]]| | |]; reflexivity. }
      apply Assoc. eapply reads_bind with (x := m); [exact First|]. cbv beta. destruct (Z.eqb_spec n m) as [E0|E0].
      * rsym 1. cbn [Z.eqb negb]. eapply reads_quiet with (x := n); [rret; exact E0|]. cbv beta. exact Fin.
      * rsym 0. cbn [Z.eqb negb]. apply reads_end. eapply reads_bind with (x := n); [|exact Fin]. destruct (Z_lt_ge_dec n m) as [C|C].
        -- replace (m <? n) with false by lia. cbn [flag]. rewrite Z.sub_0_r. destruct (Z.eq_dec n 0) as [-> |N0].
           { rewrite unary_zero by lia. rewrite Z.add_0_r. rsym 1. cbn [Z.eqb negb]. rret. replace (m =? 0) with false by lia. reflexivity. }
           rewrite unary_step by lia. rewrite Z.add_0_r. rsym 0. cbn [Z.eqb negb]. destruct (Z.eq_dec n 1) as [-> |N1].
           { rewrite unary_zero by lia. replace (7 + 2 * m + (0 + 1)) with (8 + 2 * m) by lia. rsym 1. cbn [Z.eqb negb]. rret. replace (m <=? 1) with false by lia. reflexivity. }
           assert (n = 2) as -> by lia. rewrite unary_step by lia. change (unary _ (2 - 1 - 1) (2 - 1 - 1)) with (@nil bin). replace (7 + 2 * m + (0 + 1)) with (8 + 2 * m) by lia. rsym 0. cbn [Z.eqb negb]. rret. replace (m =? 3) with true by lia. reflexivity.
        -- replace (m <? n) with true by lia. cbn [flag]. destruct (Z.eq_dec n 1) as [-> |N1].
           { rewrite unary_zero by lia. rewrite Z.add_0_r. rsym 1. cbn [Z.eqb negb]. rret. replace (m =? 0) with true by lia. reflexivity. }
           rewrite unary_step by lia. rewrite Z.add_0_r. rsym 0. cbn [Z.eqb negb]. destruct (Z.eq_dec n 2) as [-> |N2].
           { rewrite unary_zero by lia. replace (7 + 2 * m + (0 + 1)) with (8 + 2 * m) by lia. rsym 1. cbn [Z.eqb negb]. rret. replace (m <=? 1) with true by lia. reflexivity. }
           assert (n = 3) as -> by lia. rewrite unary_step by lia. change (unary _ (3 - 1 - 1 - 1) (2 - 1 - 1)) with (@nil bin). replace (7 + 2 * m + (0 + 1)) with (8 + 2 * m) by lia. rsym 0. cbn [Z.eqb negb]. rret. replace (m =? 3) with false by lia. reflexivity.
Qed.
Lemma dhp_read : forall ty d e, 1 <= ty <= 7 -> d = 0 \/ d = 4 -> e = 0 \/ e = 4 -> (ty = 1 -> e = d) ->
  reads (let! v := read_pdir_dhp ty in set_pdir_pf ty v) (dhp_bins ty d e) [d; e; d; e].
Proof.
  intros ty d e Ht Hd He H1. unfold dhp_bins, read_pdir_dhp, set_pdir_pf. destruct (Z.eq_dec ty 1) as [-> |T1].
  - rewrite H1 by reflexivity. change (1 =? 1) with true. cbv iota. rsym (flag (d =? 4)). destruct Hd as [-> | ->]; apply reads_ret.
  - replace (ty =? 1) with false by lia. replace ((2 <=? ty) && (ty <=? 7)) with true by lia. apply reads_end.
    eapply reads_bind with (x := 2 * flag (d =? 4) + flag (e =? 4)).
    + rsym (flag (d =? 4)). rsym (flag (d =? e)). destruct Hd as [-> | ->], He as [-> | ->]; apply reads_ret.
    + cbv beta. destruct Hd as [-> | ->], He as [-> | ->]; apply reads_ret.
Qed.

(** ** References. *)
Lemma ref_loop_read : forall nref f r k, 2 <= nref -> 1 <= k <= r -> r <= nref - 1 -> nref - 1 - k <= Z.of_nat f ->
  reads (ref_loop f k (Z.min 2 k) nref) (unary (fun j => at_ctx A_REF (Z.min (j + k) 2)) (r - k) (nref - 1 - k)) r.
Proof.
  intros nref. induction f as [|f IH]; intros r k Hn Hk Hr Hf; cbn [ref_loop]; destruct (Z.eqb_spec k (nref - 1)) as [E0|E0].
  1, 3: replace (r - k) with 0 by lia; replace (nref - 1 - k) with 0 by lia; rewrite unary_last; rret; lia.
  - exfalso. lia.
  - destruct (Z.eq_dec r k) as [-> |C].
    + rewrite Z.sub_diag, unary_zero by lia. rewrite Z.add_0_l, Z.min_comm. rsym 1. cbn [Z.eqb negb]. apply reads_ret.
    + rewrite unary_step by lia. rewrite Z.add_0_l, Z.min_comm. rsym 0. cbn [Z.eqb negb]. rewrite (Z.min_comm k 2). replace (Z.min 2 (Z.min 2 k + 1)) with (Z.min 2 (k + 1)) by lia.
      eapply reads_eq; [apply (IH r (k + 1)); lia| |reflexivity]. replace (r - k - 1) with (r - (k + 1)) by lia. replace (nref - 1 - k - 1) with (nref - 1 - (k + 1)) by lia.
      apply unary_ext; [lia|]. intros j b Hj. f_equal. f_equal. lia.
Qed.
Lemma ref_read : forall nref r, 2 <= nref -> 0 <= r <= nref - 1 -> reads (read_ref_frame nref) (ref_bins nref r) r.
Proof.
  intros nref r Hn Hr. unfold read_ref_frame, ref_bins. destruct (Z.eq_dec r 0) as [-> |C].
  - rewrite unary_zero by lia. change (Z.min 0 2) with 0. rsym 1. cbn [Z.eqb negb]. apply reads_ret.
  - rewrite unary_step by lia. change (Z.min 0 2) with 0. rsym 0. cbn [Z.eqb negb]. apply (ref_loop_read nref (Z.to_nat nref) r 1); lia.
Qed.
Lemma reference_read : forall nref d r, 1 <= nref <= 4 -> 0 <= r <= nref - 1 ->
  reads (read_reference nref d) (if 1 <? nref then ref_bins nref r else []) (r, if d =? 4 then 1 - Z.min r 1 else -1).
Proof.
  intros nref d r Hn Hr. unfold read_reference. apply reads_end. eapply reads_bind with (x := r).
  - destruct (Z.ltb_spec 1 nref) as [C|C]; [|rret; lia]. apply reads_end. eapply reads_bind with (x := r); [apply ref_read; lia|]. cbv beta. rcheck. rret. rewrite to_i8_id by lia. reflexivity.
  - cbv beta. rret. f_equal. destruct (d =? 4); [|reflexivity]. destruct (Z.eqb_spec r 0); lia.
Qed.
Lemma dmh_read : forall level m, 3 <= level <= 6 -> 0 <= m <= 8 -> reads (read_dmh_mode level) (dmh_bins level m) m.
Proof.
  intros level m Hl Hm. unfold read_dmh_mode, dmh_bins. cbv zeta. replace ((level - 3) * 3 + 3) with (3 * (level - 2)) by lia.
  assert (m = 0 \/ m = 1 \/ m = 2 \/ m = 3 \/ m = 4 \/ m = 5 \/ m = 6 \/ m = 7 \/ m = 8) as [-> | [-> | [-> | [-> | [-> | [-> | [-> | [-> | ->]]]]]]]] by lia;
  repeat (first [eapply reads_next; [apply reads_sym; in_array|]; cbv beta; cbn [Z.eqb] | eapply reads_next; [apply reads_byp|]; cbv beta]); apply reads_ret.
Qed.
