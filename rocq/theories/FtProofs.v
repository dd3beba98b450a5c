(** Proofs about the table of functions. *)
From Coq Require Import ZArith List Bool Lia.
From Verif Require Import CBase CpModel CpSpec CpProofs CpProofsB FtModel FtSpec.
Import ListNotations.
Open Scope Z_scope.

Definition same (s t : slot) : bool := if slot_eq s t then true else false.
Definition entries (s : slot) (l : list assign) : list assign := filter (fun a => same s (target a)) l.
Definition on (cpuid : Z) (a : assign) : bool := (guard a =? 0) || any cpuid (guard a).

Lemma fold_entries cpuid l : forall t s, fold_left (assign_one cpuid) l t s =
  match rev (filter (on cpuid) (entries s l)) with [] => t s | a :: _ => Some (value a) end.
Proof.
  induction l as [|a l IH]; intros t s; [reflexivity|]. cbn [fold_left]. rewrite IH. unfold assign_one, entries. cbn [filter]. unfold same at 2.
  fold (on cpuid a). fold (entries s l). destruct (on cpuid a) eqn:O, (slot_eq s (target a)) as [E|E]; cbn [filter]; rewrite ?O; cbn [rev];
    destruct (rev (filter (on cpuid) (entries s l))); cbn; reflexivity.
Qed.
Lemma pick cpuid t s : existsb (fun a => guard a =? 0) (entries s all_inits) = true ->
  exists a, In a all_inits /\ target a = s /\ on cpuid a = true /\ fill_table cpuid t s = Some (value a).
Proof.
  intros H. unfold fill_table. rewrite fold_entries. destruct (rev (filter (on cpuid) (entries s all_inits))) as [|a r] eqn:R.
  - apply existsb_exists in H as (a & Ia & Ga). assert (I : In a (rev (filter (on cpuid) (entries s all_inits)))).
    { apply -> in_rev. apply filter_In. split; [exact Ia|]. unfold on. rewrite Ga. reflexivity. }
    rewrite R in I. destruct I.
  - exists a. assert (I : In a (filter (on cpuid) (entries s all_inits))) by (apply in_rev; rewrite R; left; reflexivity).
    apply filter_In in I as (I & O). apply filter_In in I as (I & T). unfold same in T. destruct (slot_eq s (target a)) as [E|]; [|discriminate].
    repeat split; auto.
Qed.

(** What is checked by computation, call by call. *)
Definition good (c : call) : bool :=
  match called c with
  | Done s => let l := entries s all_inits in existsb (fun a => guard a =? 0) l && forallb (fun a => right c (fst (value a))) l
  | _ => false
  end.
Lemma between_In a x b : between a x b = true -> 0 <= a -> In x (upto (Z.to_nat a) (Z.to_nat (b + 1))).
Proof.
  unfold between. intros H Ha. apply andb_prop in H as (A & B). apply Z.leb_le in A. apply Z.leb_le in B. unfold upto. apply in_map_iff. exists (Z.to_nat x).
  split; [lia|]. apply in_seq. lia.
Qed.
Lemma inb_In x l : inb x l = true -> In x l.
Proof.
  unfold inb. intros H. apply existsb_exists in H as ([a b] & I & E). destruct x as [c d]. cbn in E. apply andb_prop in E as (E1 & E2).
  apply Z.eqb_eq in E1. apply Z.eqb_eq in E2. subst. exact I.
Qed.
Definition for_shapes (l : list (Z * Z)) (p : Z -> Z -> bool) : bool := forallb (fun x => p (fst x) (snd x)) l.
Definition for_range (n : nat) (p : Z -> bool) : bool := forallb p (upto 0 n).
Lemma shapes_at l p w h : for_shapes l p = true -> inb (w, h) l = true -> p w h = true.
Proof. intros H I. apply inb_In in I. unfold for_shapes in H. rewrite forallb_forall in H. exact (H _ I). Qed.
Lemma range_at n p x b : for_range n p = true -> between 0 x b = true -> n = Z.to_nat (b + 1) -> p x = true.
Proof. intros H I ->. apply between_In in I; [|lia]. unfold for_range in H. rewrite forallb_forall in H. exact (H _ I). Qed.

Lemma chk_luma : for_shapes pu_shapes (fun w h => for_range 4 (fun dx => for_range 4 (fun dy => good (c_luma w h dx dy)))) = true.
Proof. vm_compute. reflexivity. Qed.
Lemma chk_chroma : for_shapes chroma_shapes (fun w h => for_range 8 (fun dx => for_range 8 (fun dy => good (c_chroma w h dx dy)))) = true.
Proof. vm_compute. reflexivity. Qed.
Lemma chk_idct : for_shapes tu_shapes (fun w h => for_range 3 (fun p => good (c_idct w h p))) = true.
Proof. vm_compute. reflexivity. Qed.
Lemma chk_add : for_shapes tu_shapes (fun w h => good (c_add w h)) = true.
Proof. vm_compute. reflexivity. Qed.
Lemma chk_intra : for_range 33 (fun m => good (c_intra m)) = true.
Proof. vm_compute. reflexivity. Qed.
Lemma chk_small : for_range 4 (fun k => good (c_fill k)) && for_range 4 (fun a => good (c_sao_eo a)) && for_range 2 (fun d => good (c_deblock_luma d)) &&
  for_range 2 (fun d => good (c_deblock_chroma d)) && for_range 2 (fun i => good (c_alf i)) = true.
Proof. vm_compute. reflexivity. Qed.
Lemma chk_plain : forallb good [c_second_4x4; c_second; c_dequant; c_sao_bo; c_average; c_plane_copy; c_fast_memcpy; c_memcpy_aligned; c_fast_memzero] = true.
Proof. vm_compute. reflexivity. Qed.

Lemma made_good c : made c = true -> good c = true.
Proof.
  intros H. pose proof chk_small as S. apply andb_prop in S as (S & S5). apply andb_prop in S as (S & S4). apply andb_prop in S as (S & S3). apply andb_prop in S as (S1 & S2).
  pose proof chk_plain as P. rewrite forallb_forall in P.
  destruct c; cbn [made] in H; try (apply P; cbn; tauto).
  - apply andb_prop in H as (H & D). apply andb_prop in H as (H & C).
    exact (range_at _ _ _ _ (range_at _ _ _ _ (shapes_at _ _ _ _ chk_luma H) C eq_refl) D eq_refl).
  - apply andb_prop in H as (H & D). apply andb_prop in H as (H & C).
    exact (range_at _ _ _ _ (range_at _ _ _ _ (shapes_at _ _ _ _ chk_chroma H) C eq_refl) D eq_refl).
  - apply andb_prop in H as (H & C). exact (range_at _ _ _ _ (shapes_at _ _ _ _ chk_idct H) C eq_refl).
  - exact (shapes_at _ _ _ _ chk_add H).
  - exact (range_at _ _ _ _ chk_intra H eq_refl).
  - exact (range_at _ _ _ _ S1 H eq_refl).
  - exact (range_at _ _ _ _ S3 H eq_refl).
  - exact (range_at _ _ _ _ S4 H eq_refl).
  - exact (range_at _ _ _ _ S2 H eq_refl).
  - exact (range_at _ _ _ _ S5 H eq_refl).
Qed.

(** Every call reaches an assignment that was made and whose function does the work. *)
Lemma reached c : made c = true -> exists s, called c = Done s /\ forall cpuid t, exists a,
  In a all_inits /\ target a = s /\ on cpuid a = true /\ fill_table cpuid t s = Some (value a) /\ right c (fst (value a)) = true.
Proof.
  intros H. apply made_good in H. unfold good in H. destruct (called c) as [s| | |]; try discriminate. exists s. split; [reflexivity|]. intros cpuid t.
  apply andb_prop in H as (E & R). rewrite forallb_forall in R. destruct (pick cpuid t s E) as (a & I & T & O & F). exists a.
  repeat (split; [assumption|]). apply R. unfold entries. apply filter_In. split; [exact I|]. unfold same. rewrite T. destruct (slot_eq s s); [reflexivity|congruence].
Qed.

(** Guards and instruction sets. *)
Definition iset_eqb (a b : iset) : bool :=
  match a, b with MMX, MMX | SSE2, SSE2 | SSSE3, SSSE3 | SSE41, SSE41 | AVX, AVX | AVX2, AVX2 => true | _, _ => false end.
Definition grants (g : Z) : list iset :=
  if g =? F_MMX then [MMX] else if g =? F_SSE2 then [SSE2] else if g =? F_SSSE3 then [SSE2; SSSE3] else if g =? F_SSE4 then [SSE2; SSSE3; SSE41]
  else if g =? F_AVX then [SSE2; SSSE3; SSE41; AVX] else if g =? F_AVX2 then [SSE2; SSSE3; SSE41; AVX; AVX2] else [].
Definition fits (a : assign) : bool :=
  same (target a) s_inv_4x4_2nd || forallb (fun i => existsb (iset_eqb i) (grants (guard a))) (needs (value a)).
Lemma all_fit : forallb fits all_inits = true.
Proof. vm_compute. reflexivity. Qed.
Lemma iset_eqb_eq a b : iset_eqb a b = true -> a = b.
Proof. destruct a, b; cbn; congruence. Qed.

Lemma granted cpu xcr0 b g i : regular cpu -> (g =? 0) || any (chosen b (cpu_detect cpu xcr0)) g = true -> In i (grants g) -> usable cpu xcr0 i = true.
Proof.
  intros (R1 & R2 & R3) G I. destruct (detect_bits cpu xcr0) as (B1 & _ & B3 & _ & B5 & B6 & _ & B8 & B9 & _).
  assert (K : forall k, 0 <= k -> any (chosen b (cpu_detect cpu xcr0)) (2 ^ k) = true -> Z.testbit (cpu_detect cpu xcr0) k = true).
  { intros k Hk A. rewrite any_pow in A by exact Hk. rewrite chosen_bits in A. apply andb_prop in A as (A & _). exact A. }
  assert (U4 : Z.testbit (ecx (cpu 1)) 19 = true -> In i [SSE2; SSSE3; SSE41] -> usable cpu xcr0 i = true).
  { intros T [<-|[<-|[<-|[]]]]; cbn; auto. }
  assert (V : avx_usable cpu xcr0 = true -> Z.testbit (ecx (cpu 1)) 19 = true).
  { unfold avx_usable. intros A. apply R1. destruct (Z.testbit (ecx (cpu 1)) 28); [reflexivity|]. rewrite andb_false_r in A. discriminate. }
  unfold grants in I.
  destruct (Z.eqb_spec g F_MMX) as [->|]; [|destruct (Z.eqb_spec g F_SSE2) as [->|]; [|destruct (Z.eqb_spec g F_SSSE3) as [->|];
    [|destruct (Z.eqb_spec g F_SSE4) as [->|]; [|destruct (Z.eqb_spec g F_AVX) as [->|]; [|destruct (Z.eqb_spec g F_AVX2) as [->|]; [|destruct I]]]]]]; cbn [Z.eqb orb] in G.
  - apply (K 1) in G; [|lia]. change 1 with bit_mmx in G. rewrite B1 in G. destruct I as [<-|[]]. cbn. unfold works in G. apply andb_prop in G as (_ & G). exact G.
  - apply (K 4) in G; [|lia]. change 4 with bit_sse2 in G. rewrite B3 in G. destruct I as [<-|[]]. cbn. apply andb_prop in G as (G & _). apply andb_prop in G as (_ & G). exact G.
  - apply (K 6) in G; [|lia]. change 6 with bit_ssse3 in G. rewrite B5 in G. apply andb_prop in G as (_ & G). destruct I as [<-|[<-|[]]]; cbn; auto.
  - apply (K 7) in G; [|lia]. change 7 with bit_sse4 in G. rewrite B6 in G. apply andb_prop in G as (_ & G). auto.
  - apply (K 10) in G; [|lia]. change 10 with bit_avx in G. rewrite B8 in G. apply andb_prop in G as (_ & G). pose proof (V G).
    destruct I as [<-|[<-|[<-|[<-|[]]]]]; try (apply U4; cbn; tauto). exact G.
  - apply (K 13) in G; [|lia]. change 13 with bit_avx2 in G. rewrite B9 in G. apply andb_prop in G as (G & N). apply andb_prop in G as (_ & G). pose proof (V G).
    destruct I as [<-|[<-|[<-|[<-|[<-|[]]]]]]; try (apply U4; cbn; tauto); cbn; rewrite ?G, ?N; reflexivity.
Qed.
Lemma runs cpu xcr0 b a i : regular cpu -> In a all_inits -> target a <> s_inv_4x4_2nd -> on (chosen b (cpu_detect cpu xcr0)) a = true ->
  In i (needs (value a)) -> usable cpu xcr0 i = true.
Proof.
  intros R I T O N. pose proof all_fit as A. rewrite forallb_forall in A. specialize (A a I). unfold fits, same in A.
  destruct (slot_eq (target a) s_inv_4x4_2nd) as [|_]; [contradiction|]. cbn [orb] in A. rewrite forallb_forall in A. specialize (A i N).
  apply existsb_exists in A as (j & J & E). apply iset_eqb_eq in E. subst j. exact (granted cpu xcr0 b (guard a) i R O J).
Qed.

(** Opening decoders. *)
Lemma opens_step detected params g : count g <> 0 -> 0 < count g -> count g + Z.of_nat (length params) < 2 ^ 32 ->
  funcs (fold_left (open_one detected) params g) = funcs g.
Proof.
  revert g. induction params as [|b l IH]; intros g N P B; [reflexivity|]. cbn [fold_left length] in *. unfold open_one at 2, init_all.
  destruct (Z.eqb_spec (count g) 0); [contradiction|]. rewrite IH; cbn [count funcs]; rewrite ?Z.mod_small; try lia; reflexivity.
Qed.
Lemma init_first cpuid g : count g = 0 -> init_all cpuid g = Prims 1 (fill_table cpuid (funcs g)).
Proof. intros H. unfold init_all. rewrite H. reflexivity. Qed.
Lemma opens_rest detected l n t : 0 < n -> n + Z.of_nat (length l) < 2 ^ 32 -> funcs (fold_left (open_one detected) l (Prims n t)) = t.
Proof. intros N B. rewrite opens_step; cbn [count funcs]; try lia. reflexivity. Qed.
Lemma fold_cons (A B : Type) (f : A -> B -> A) b l a : fold_left f (b :: l) a = fold_left f l (f a b).
Proof. reflexivity. Qed.
Lemma opens_first detected b l : Z.of_nat (length l) + 1 < 2 ^ 32 -> funcs (opens detected (b :: l)) = fill_table (chosen b detected) (fun _ => None).
Proof.
  intros H. unfold opens. rewrite fold_cons. unfold open_one at 2. rewrite init_first by exact eq_refl. rewrite opens_rest; [exact eq_refl|lia|lia].
Qed.
Definition avx_guarded (a : assign) : bool :=
  negb (existsb (iset_eqb AVX) (needs (value a)) || existsb (iset_eqb AVX2) (needs (value a))) || (guard a =? F_AVX) || (guard a =? F_AVX2).
Lemma all_avx_guarded : forallb avx_guarded all_inits = true.
Proof. vm_compute. reflexivity. Qed.
Lemma no_avx detected a : In a all_inits -> on (chosen true detected) a = true -> ~ In AVX (needs (value a)) /\ ~ In AVX2 (needs (value a)).
Proof.
  intros I O. pose proof all_avx_guarded as A. rewrite forallb_forall in A. specialize (A a I). unfold avx_guarded in A.
  assert (G1 : any (chosen true detected) F_AVX = false) by (change F_AVX with (2 ^ 10); rewrite any_pow, chosen_bits by lia; apply andb_false_r).
  assert (G2 : any (chosen true detected) F_AVX2 = false) by (change F_AVX2 with (2 ^ 13); rewrite any_pow, chosen_bits by lia; apply andb_false_r).
  unfold on in O. destruct (Z.eqb_spec (guard a) F_AVX) as [E|_]; [rewrite E, G1 in O; discriminate|].
  destruct (Z.eqb_spec (guard a) F_AVX2) as [E|_]; [rewrite E, G2 in O; discriminate|]. rewrite !orb_false_r in A. apply negb_true_iff in A. apply orb_false_iff in A as (A1 & A2).
  split; intros N.
  - assert (T : existsb (iset_eqb AVX) (needs (value a)) = true) by (apply existsb_exists; exists AVX; split; [exact N|reflexivity]). congruence.
  - assert (T : existsb (iset_eqb AVX2) (needs (value a)) = true) by (apply existsb_exists; exists AVX2; split; [exact N|reflexivity]). congruence.
Qed.
Lemma called_second c : made c = true -> called c = Done s_inv_4x4_2nd -> c = c_second_4x4.
Proof.
  intros _. destruct c; cbn [called]; try congruence; unfold bindo; try (destruct (part_index w h); congruence).
  - destruct ((dx =? 0) && (dy =? 0)); [destruct (part_index w h); congruence|]. destruct (dx =? 0); [congruence|]. destruct (dy =? 0); congruence.
  - destruct ((dx =? 0) && (dy =? 0)); [destruct (negb (w =? 2) && negb (w =? 6) && negb (h =? 2) && negb (h =? 6)); [destruct (part_index w h); congruence|congruence]|].
    destruct (dx =? 0); [congruence|]. destruct (dy =? 0); congruence.
Qed.
