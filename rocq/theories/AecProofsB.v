From Coq Require Import ZArith List Bool Lia.
From Verif Require Import CBase CBaseProofs MemModel MemProofs AecModel AecSpec.
Import ListNotations.
Open Scope Z_scope.

Definition cv (l m c : Z) : Z := ctx_v {| lg := l; mps := m; cyc := c |}.
Lemma cv_inj : forall l m c l' m' c', 0 <= m <= 1 -> 0 <= m' <= 1 -> 0 <= c <= 3 -> 0 <= c' <= 3 ->
  cv l m c = cv l' m' c' -> l = l' /\ m = m' /\ c = c'.
Proof. unfold cv, ctx_v. cbn [lg mps cyc]. intros. lia. Qed.
Lemma cv_back : forall l m c, 0 <= l < 2048 -> 0 <= m <= 1 -> 0 <= c <= 3 -> ctx_of_v (cv l m c) = {| lg := l; mps := m; cyc := c |}.
Proof.
  intros l m c Hl Hm Hc. unfold ctx_of_v, cv, ctx_v. cbn [lg mps cyc]. rewrite !Z.shiftr_div_pow2 by lia. change (2 ^ 3) with 8. change (2 ^ 2) with 4.
  f_equal.
  - replace ((c + 4 * m + 8 * l) / 8) with l by (apply Z.div_unique with (c + 4 * m); lia). apply Z.mod_small; lia.
  - replace ((c + 4 * m + 8 * l) / 4) with (m + 2 * l) by (apply Z.div_unique with c; lia). symmetry. apply Z.mod_unique with l; lia.
  - symmetry. apply Z.mod_unique with (m + 2 * l); lia.
Qed.

(** A pass over the index writes exactly its own entries. *)
Lemma pass_spec : forall (F : Z -> Z) m c (t : mem) n, 0 <= m <= 1 -> 0 <= c <= 3 ->
  let t' := loop n (fun l t => upd t (cv l m c) (F l)) t in
  (forall l, 0 <= l < Z.of_nat n -> t' (cv l m c) = F l) /\
  (forall p, (forall l, 0 <= l < Z.of_nat n -> p <> cv l m c) -> t' p = t p).
Proof.
  intros F m c t n Hm Hc. cbv zeta.
  apply (loop_inv _ (fun i t' => (forall l, 0 <= l < i -> t' (cv l m c) = F l) /\ (forall p, (forall l, 0 <= l < i -> p <> cv l m c) -> t' p = t p))).
  - split; [intros; lia|reflexivity].
  - intros i s Hi [I1 I2]. split.
    + intros l Hl. destruct (Z.eq_dec l i) as [->|N]; [apply upd_same|]. rewrite upd_other by (unfold cv, ctx_v; cbn [lg mps cyc]; lia). apply I1. lia.
    + intros p Hp. rewrite upd_other by (apply Hp; lia). apply I2. intros. apply Hp. lia.
Qed.

Lemma table_spec : forall (F : Z -> Z -> Z -> Z) (t0 : mem) (pass : Z -> Z -> mem -> mem),
  (forall c m t, 0 <= c <= 3 -> 0 <= m <= 1 -> forall p, pass c m t p = loop 1025 (fun l t => upd t (cv l m c) (F c m l)) t p) ->
  forall c m l, 0 <= c <= 3 -> 0 <= m <= 1 -> 0 <= l <= 1024 ->
  loop 4 (fun c t => loop 2 (fun m t => pass c m t) t) t0 (cv l m c) = F c m l.
Proof.
  intros F t0 pass HP c m l Hc Hm Hl.
  set (t := loop 4 _ t0).
  assert (G: forall c', 0 <= c' < Z.of_nat 4 -> forall m', 0 <= m' < 2 -> forall l', 0 <= l' < 1025 -> t (cv l' m' c') = F c' m' l').
  2:{ apply G; lia. }
  unfold t.
  apply (loop_inv _ (fun k t => forall c', 0 <= c' < k -> forall m', 0 <= m' < 2 -> forall l', 0 <= l' < 1025 -> t (cv l' m' c') = F c' m' l')).
  - intros; lia.
  - intros i s Hi IHo. cbn [Z.of_nat] in Hi.
    assert (Q: forall c', 0 <= c' < i + 1 -> forall m', 0 <= m' < 2 -> (c' < i \/ m' < Z.of_nat 2) -> forall l', 0 <= l' < 1025 ->
      loop 2 (fun m t => pass i m t) s (cv l' m' c') = F c' m' l').
    { apply (loop_inv _ (fun j t => forall c', 0 <= c' < i + 1 -> forall m', 0 <= m' < 2 -> (c' < i \/ m' < j) -> forall l', 0 <= l' < 1025 -> t (cv l' m' c') = F c' m' l')).
      - intros c' Hc' m' Hm' [H|H] l' Hl'; [apply IHo; lia|lia].
      - intros j u Hj IHi c' Hc' m' Hm' H l' Hl'. rewrite HP by lia.
        destruct (pass_spec (F i j) j i u 1025 ltac:(lia) ltac:(lia)) as [S1 S2]. change (Z.of_nat 1025) with 1025 in S1, S2.
        destruct (Z.eq_dec c' i) as [->|Nc].
        + destruct (Z.eq_dec m' j) as [->|Nm]; [apply S1; lia|]. rewrite S2.
          * apply IHi; lia.
          * intros l2 Hl2 E. apply cv_inj in E; lia.
        + rewrite S2.
          * apply IHi; lia.
          * intros l2 Hl2 E. apply cv_inj in E; lia. }
    intros c' Hc' m' Hm' l' Hl'. apply Q; lia.
Qed.

Lemma tab_mps_at : forall c m l, 0 <= c <= 3 -> 0 <= m <= 1 -> 0 <= l <= 1024 ->
  tab_mps (cv l m c) = cv (to_u16 (to_u32 (l - (Z.shiftr l (tab_cwr c) + Z.shiftr l (tab_cwr c + 2)))) mod 2048) m (Z.max c 1).
Proof.
  unfold tab_mps. intros c m l Hc Hm Hl.
  apply (table_spec (fun c m l => cv (to_u16 (to_u32 (l - (Z.shiftr l (tab_cwr c) + Z.shiftr l (tab_cwr c + 2)))) mod 2048) m (Z.max c 1))
    (fun _ => 0) (fun c m t => loop 1025 (fun l t => upd t (cv l m c)
        (cv (to_u16 (to_u32 (l - (Z.shiftr l (tab_cwr c) + Z.shiftr l (tab_cwr c + 2)))) mod 2048) m (Z.max c 1))) t)); auto.
Qed.

Definition lps_l (c l : Z) : Z := let l' := l + tab_lg_pmps_offset (tab_cwr c) in if 1024 <=? l' then 2047 - l' else l'.
Definition lps_m (c m l : Z) : Z := if 1024 <=? l + tab_lg_pmps_offset (tab_cwr c) then 1 - m else m.

Lemma tab_lps_at : forall c m l, 0 <= c <= 3 -> 0 <= m <= 1 -> 0 <= l <= 1024 ->
  tab_lps (cv l m c) = cv (to_u16 (lps_l c l) mod 2048) (lps_m c m l) (Z.min (c + 1) 3).
Proof.
  unfold tab_lps. intros c m l Hc Hm Hl.
  set (G := fun c m l => cv (to_u16 (lps_l c l) mod 2048) (lps_m c m l) (Z.min (c + 1) 3)).
  change (cv (to_u16 (lps_l c l) mod 2048) (lps_m c m l) (Z.min (c + 1) 3)) with (G c m l).
  refine (table_spec G (fun _ => 0) (fun c m t =>
      fst (loop 1025 (fun l (s : mem * Z) =>
        let l' := l + tab_lg_pmps_offset (tab_cwr c) in
        let over := 1024 <=? l' in
        let l2 := if over then 2047 - l' else l' in
        let m2 := if over then 1 - m else snd s in
        (upd (fst s) (ctx_v {| lg := l; mps := m; cyc := c |})
             (ctx_v {| lg := to_u16 l2 mod 2048; mps := m2; cyc := Z.min (c + 1) 3 |}), m2)) (t, m))) _ c m l Hc Hm Hl).
  clear. intros c m t Hc Hm p.
  set (off := tab_lg_pmps_offset (tab_cwr c)).
  match goal with |- fst ?L p = _ => assert (Q: (forall p, fst L p = loop 1025 (fun l t => upd t (cv l m c) (G c m l)) t p) /\ True) end.
  2:{ apply Q. }
  split; [|trivial].
  generalize 1025%nat. intros n.
  match goal with |- forall p, fst ?L p = ?R p => assert (Q: (forall p, fst L p = R p) /\ (snd L = m \/ (snd L = 1 - m /\ 1024 <= Z.of_nat n - 1 + off))) end.
  2:{ apply Q. }
  induction n as [|n [IH1 IH2]].
  - cbn [loop fst snd]. auto.
  - cbn [loop]. match type of IH2 with snd ?L = _ \/ _ => remember L as LL eqn:HLL; clear HLL end. cbv zeta. cbn [fst snd]. split.
    + intros q. unfold upd. rewrite IH1. fold (cv (Z.of_nat n) m c). destruct (q =? cv (Z.of_nat n) m c) eqn:E; [|reflexivity].
      unfold G, lps_l, lps_m. fold off. cbv zeta. destruct (1024 <=? Z.of_nat n + off) eqn:O; [reflexivity|].
      destruct IH2 as [IH2|[_ IH2]]; [|lia]. rewrite IH2. reflexivity.
    + destruct (1024 <=? Z.of_nat n + off) eqn:O; [right; split; [reflexivity|lia]|].
      destruct IH2 as [IH2|[_ IH2]]; [left; exact IH2|lia].
Qed.

Lemma cyc_cases : forall c, 0 <= c <= 3 -> c = 0 \/ c = 1 \/ c = 2 \/ c = 3.
Proof. intros; lia. Qed.

Lemma update_mps_rule : forall c, 0 <= lg c <= 1024 -> (mps c = 0 \/ mps c = 1) -> 0 <= cyc c <= 3 -> update_ctx_mps c = after_mps c.
Proof.
  intros [l m c] Hl Hm Hc. cbn [lg mps cyc] in *. unfold update_ctx_mps. fold (cv l m c). rewrite tab_mps_at by lia.
  unfold after_mps. cbn [lg mps cyc].
  destruct (cyc_cases c Hc) as [-> | [-> | [-> | ->]]]; 
    repeat match goal with |- context [tab_cwr ?k] => let v := eval vm_compute in (tab_cwr k) in change (tab_cwr k) with v
      | |- context [rate ?k] => let v := eval vm_compute in (rate k) in change (rate k) with v
      | |- context [Z.max ?k 1] => let v := eval vm_compute in (Z.max k 1) in change (Z.max k 1) with v
      | |- context [?k =? 0] => let v := eval vm_compute in (k =? 0) in change (k =? 0) with v
      end; cbv iota;
    rewrite !Z.shiftr_div_pow2 by lia;
    repeat match goal with |- context [2 ^ ?k] => let v := eval vm_compute in (2 ^ k) in change (2 ^ k) with v end;
    repeat match goal with |- context [4 * ?k] => let v := eval vm_compute in (4 * k) in change (4 * k) with v end;
    match goal with |- context [to_u32 ?e] => replace (to_u32 e) with e by (unfold to_u32; symmetry; apply Z.mod_small; Z.div_mod_to_equations; lia) end;
    match goal with |- context [to_u16 ?e mod 2048] => replace (to_u16 e mod 2048) with e by (unfold to_u16; rewrite (Z.mod_small e 65536) by (Z.div_mod_to_equations; lia); symmetry; apply Z.mod_small; Z.div_mod_to_equations; lia) end;
    rewrite cv_back by (Z.div_mod_to_equations; lia); f_equal; lia.
Qed.

Lemma update_lps_rule : forall c, 0 <= lg c <= 1024 -> (mps c = 0 \/ mps c = 1) -> 0 <= cyc c <= 3 -> update_ctx_lps c = after_lps c.
Proof.
  intros [l m c] Hl Hm Hc. cbn [lg mps cyc] in *. unfold update_ctx_lps. fold (cv l m c). rewrite tab_lps_at by lia.
  unfold after_lps, lps_l, lps_m. cbn [lg mps cyc].
  assert (T: tab_lg_pmps_offset (tab_cwr c) = growth c) by (destruct (cyc_cases c Hc) as [-> | [-> | [-> | ->]]]; reflexivity).
  rewrite T. assert (46 <= growth c <= 197) by (unfold growth; destruct (c =? 2), (c =? 3); lia). cbv zeta.
  destruct (1024 <=? l + growth c) eqn:E; destruct (l + growth c <? 1024) eqn:F; try lia.
  - replace (to_u16 (2047 - (l + growth c)) mod 2048) with (2047 - (l + growth c)).
    2:{ unfold to_u16. rewrite (Z.mod_small _ 65536) by lia. rewrite Z.mod_small; lia. }
    rewrite cv_back by lia. f_equal. destruct (c =? 3) eqn:C; lia.
  - replace (to_u16 (l + growth c) mod 2048) with (l + growth c).
    2:{ unfold to_u16. rewrite (Z.mod_small _ 65536) by lia. rewrite Z.mod_small; lia. }
    rewrite cv_back by lia. f_equal. destruct (c =? 3) eqn:C; lia.
Qed.

Lemma legal_init : legal_ctx ctx_init.
Proof. unfold legal_ctx, ctx_init. cbn. lia. Qed.
Lemma legal_mps : forall c, legal_ctx c -> legal_ctx (update_ctx_mps c).
Proof.
  intros c (A & B & C). rewrite update_mps_rule by lia. unfold after_mps, legal_ctx. cbn [lg mps cyc].
  unfold rate. destruct (cyc_cases _ C) as [E | [E | [E | E]]]; rewrite E; cbn [Z.eqb Pos.eqb];
   repeat match goal with |- context [2 ^ ?k] => let v := eval vm_compute in (2 ^ k) in change (2 ^ k) with v end;
    repeat match goal with |- context [4 * ?k] => let v := eval vm_compute in (4 * k) in change (4 * k) with v end;
   repeat split; try assumption; try lia; Z.div_mod_to_equations; lia.
Qed.
Lemma legal_lps : forall c, legal_ctx c -> legal_ctx (update_ctx_lps c).
Proof.
  intros c (A & B & C). rewrite update_lps_rule by lia. unfold after_lps, legal_ctx. cbv zeta. cbn [lg mps cyc].
  assert (46 <= growth (cyc c) <= 197) by (unfold growth; destruct (cyc c =? 2), (cyc c =? 3); lia).
  destruct (lg c + growth (cyc c) <? 1024) eqn:E; destruct (cyc c =? 3) eqn:F; repeat split; try assumption; try lia.
Qed.

Global Opaque update_ctx_mps update_ctx_lps.

(** Any history of updates. *)
Lemma adapt_legal : forall h c, legal_ctx c -> legal_ctx (adapt h c).
Proof. induction h as [|[] t IH]; intros c H; cbn [adapt]; [exact H|apply IH, legal_mps, H|apply IH, legal_lps, H]. Qed.
Lemma adapt_is_rule : forall h c, legal_ctx c -> adapt h c = adapt_rule h c.
Proof.
  induction h as [|b t IH]; intros c H; [reflexivity|]. cbn [adapt adapt_rule]. pose proof H as (A & B & C). destruct b.
  - rewrite <- update_mps_rule by lia. apply IH. now apply legal_mps.
  - rewrite <- update_lps_rule by lia. apply IH. now apply legal_lps.
Qed.
