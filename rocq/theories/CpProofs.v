(** Proofs about processor features and threads. *)
From Coq Require Import ZArith List Bool Lia String.
From Verif Require Import CBase CpModel CpSpec.
Import ListNotations.
Open Scope Z_scope.

Lemma any_pow x k : 0 <= k -> any x (2 ^ k) = Z.testbit x k.
Proof.
  intros Hk. unfold any. assert (T : Z.testbit (Z.land x (2 ^ k)) k = Z.testbit x k) by (rewrite Z.land_spec, Z.pow2_bits_true, andb_true_r by exact Hk; reflexivity).
  destruct (Z.testbit x k) eqn:E.
  - destruct (Z.eqb_spec (Z.land x (2 ^ k)) 0) as [E0|]; [rewrite E0, Z.bits_0 in T; discriminate|reflexivity].
  - replace (Z.land x (2 ^ k)) with 0; [reflexivity|]. symmetry. apply Z.bits_inj'. intros n Hn. rewrite Z.land_spec, Z.bits_0, Z.pow2_bits_eqb by exact Hk.
    destruct (Z.eqb_spec k n) as [<-|]; [now rewrite E|apply andb_false_r].
Qed.
Lemma set_bit b f c k : Z.testbit (setif b f c) k = Z.testbit c k || (b && Z.testbit f k).
Proof. unfold setif. destruct b; [rewrite Z.lor_spec; reflexivity|now rewrite orb_false_r]. Qed.
Lemma clr_bit b f c k : Z.testbit (clrif b f c) k = Z.testbit c k && negb (b && Z.testbit f k).
Proof. unfold clrif. destruct b; [rewrite Z.ldiff_spec; reflexivity|now rewrite andb_true_r]. Qed.
Lemma if_bit (b : bool) x y k : Z.testbit (if b then x else y) k = if b then Z.testbit x k else Z.testbit y k.
Proof. now destruct b. Qed.
Lemma mask_bits x f k : Z.land x f = f -> Z.testbit f k = true -> Z.testbit x k = true.
Proof. intros E T. rewrite <- E, Z.land_spec in T. now apply andb_true_iff in T. Qed.
Lemma mask2 x a b : 0 <= a -> 0 <= b -> a <> b -> (Z.land x (2 ^ a + 2 ^ b) =? 2 ^ a + 2 ^ b) = Z.testbit x a && Z.testbit x b.
Proof.
  intros Ha Hb N. assert (S : 2 ^ a + 2 ^ b = Z.lor (2 ^ a) (2 ^ b)).
  { rewrite Z.add_nocarry_lxor, Z.lxor_lor; [reflexivity| |]; apply Z.bits_inj'; intros n Hn; rewrite Z.land_spec, Z.bits_0, !Z.pow2_bits_eqb by assumption;
      (destruct (Z.eqb_spec a n), (Z.eqb_spec b n); try reflexivity; congruence). }
  rewrite S. destruct (Z.testbit x a && Z.testbit x b) eqn:E.
  - apply andb_true_iff in E as [A B]. apply Z.eqb_eq. apply Z.bits_inj'. intros n Hn. rewrite Z.land_spec, Z.lor_spec, !Z.pow2_bits_eqb by assumption.
    destruct (Z.eqb_spec a n) as [<-|]; [now rewrite A|]. destruct (Z.eqb_spec b n) as [<-|]; [now rewrite B|]. apply andb_false_r.
  - apply Z.eqb_neq. intros L. apply andb_false_iff in E.
    assert (A := mask_bits x _ a L). assert (B := mask_bits x _ b L). rewrite !Z.lor_spec, !Z.pow2_bits_eqb, !Z.eqb_refl in A, B by assumption.
    rewrite orb_true_r in B. cbn [orb] in A. rewrite A, B in E by reflexivity. destruct E; discriminate.
Qed.

Ltac consts := repeat match goal with |- context [Z.testbit ?f ?k] =>
    first [is_const f | match f with _ + _ => idtac end];
    let v := eval vm_compute in (Z.testbit f k) in
    match v with true => change (Z.testbit f k) with true | false => change (Z.testbit f k) with false end end;
  rewrite ?andb_false_r, ?andb_true_r, ?orb_false_r, ?orb_true_r; cbn [negb]; rewrite ?andb_true_r, ?andb_false_r.
Ltac bits := repeat first [rewrite set_bit | rewrite clr_bit]; consts.
Ltac each H := cbn [In] in H; repeat (destruct H as [<-|H]; [|]); [..|destruct H].

Lemma ext_keeps cpu c k : In k [0; 1; 3; 4; 5; 6; 7; 8; 10; 13; 14; 15; 16; 17; 18; 21; 22; 24] -> Z.testbit (detect_extended cpu c) k = Z.testbit c k.
Proof.
  intros H. unfold detect_extended. cbv zeta. repeat first [rewrite set_bit | rewrite clr_bit].
  assert (E : Z.testbit F_LZCNT k = false /\ Z.testbit F_FAST k = false /\ Z.testbit F_SLOW k = false /\ Z.testbit F_PALIGNR k = false /\ Z.testbit F_PSHUFB k = false /\
    Z.testbit F_XOP k = false /\ Z.testbit F_FMA4 k = false /\ Z.testbit F_MMX2 k = false /\ Z.testbit F_CTZ k = false) by (clear - H; each H; repeat split).
  destruct E as (E1 & E2 & E3 & E4 & E5 & E6 & E7 & E8 & E9). rewrite E1, E2, E3, E4, E5, E6, E7, E8, E9. now rewrite !andb_false_r, !orb_false_r, andb_true_r. Qed.

Definition pm_model (cpu : Z -> regs) : bool :=
  let r := cpu 1 in
  let family := Z.land (Z.shiftr (eax r) 8) 15 + Z.land (Z.shiftr (eax r) 20) 255 in
  let model := Z.land (Z.shiftr (eax r) 4) 15 + Z.land (Z.shiftr (eax r) 12) 240 in
  intel (cpu 0) && (family =? 6) && ((model =? 9) || (model =? 13) || (model =? 14)).
Lemma nibble x : Z.land x 15 = x mod 16.
Proof. change 15 with (Z.ones 4). rewrite Z.land_ones by lia. reflexivity. Qed.
Lemma pm_is cpu : pm_model cpu = pentium_m cpu.
Proof.
  unfold pm_model, pentium_m, intel, vendor_is. cbv zeta. set (x := eax (cpu 1)).
  assert (E1 : Z.land (Z.shiftr x 8) 15 + Z.land (Z.shiftr x 20) 255 = (x / 2 ^ 8) mod 16 + (x / 2 ^ 20) mod 256).
  { rewrite nibble. change 255 with (Z.ones 8). rewrite Z.land_ones, !Z.shiftr_div_pow2 by lia. reflexivity. }
  assert (E2 : Z.land (Z.shiftr x 4) 15 + Z.land (Z.shiftr x 12) 240 = (x / 2 ^ 4) mod 16 + (x / 2 ^ 16) mod 16 * 16).
  { assert (Z.land (Z.shiftr x 12) 240 = Z.shiftl (Z.land (Z.shiftr x 16) 15) 4) as ->.
    { rewrite Z.shiftl_land. change (Z.shiftl 15 4) with 240. apply Z.bits_inj'. intros n Hn. rewrite !Z.land_spec. destruct (Z.lt_ge_cases n 4).
      - assert (n = 0 \/ n = 1 \/ n = 2 \/ n = 3) as C by lia. destruct C as [->|[->|[->| ->]]]; change (Z.testbit 240 _) with false; now rewrite !andb_false_r.
      - f_equal. rewrite Z.shiftl_spec, !Z.shiftr_spec by lia. f_equal. lia. }
    rewrite !nibble, Z.shiftl_mul_pow2, !Z.shiftr_div_pow2 by lia. reflexivity. }
  rewrite E1, E2. destruct (ebx (cpu 0) =? _), (edx (cpu 0) =? _), (ecx (cpu 0) =? _), (_ =? 6); reflexivity.
Qed.
Lemma intel_keeps cpu c k : In k [0; 1; 2; 3; 6; 7; 8; 9; 10; 11; 12; 13; 14; 15; 16; 17; 18; 19; 20; 22; 26] -> Z.testbit (detect_intel cpu c) k = Z.testbit c k.
Proof.
  intros H. unfold detect_intel. cbv zeta. destruct (negb _); [reflexivity|]. destruct (_ || _); [rewrite Z.ldiff_spec; each H; consts; reflexivity|].
  destruct (_ =? 28); [rewrite !Z.lor_spec; each H; consts; reflexivity|]. rewrite set_bit. each H; consts; reflexivity.
Qed.
Lemma intel_sse cpu c k : In k [4; 5] -> Z.testbit (detect_intel cpu c) k = Z.testbit c k && negb (pentium_m cpu).
Proof.
  intros H. rewrite <- pm_is. unfold detect_intel, pm_model. cbv zeta. destruct (intel (cpu 0) && _); cbn [negb andb]; [|now rewrite andb_true_r].
  destruct (_ || _); cbn [negb]; [rewrite Z.ldiff_spec; each H; consts; reflexivity|].
  destruct (_ =? 28); [rewrite !Z.lor_spec; each H; consts; reflexivity|]. rewrite set_bit. each H; consts; reflexivity.
Qed.
Lemma cache_keeps cpu a b c k : In k [0; 1; 2; 3; 4; 5; 6; 7; 8; 9; 10; 11; 12; 13; 14; 15; 16; 19; 20; 21; 22; 23; 24; 25; 26] ->
  Z.testbit (detect_cache cpu a b c) k = Z.testbit c k.
Proof.
  intros H. unfold detect_cache. destruct (_ && _); [|reflexivity]. cbv zeta.
  match goal with |- context [if ?b then leaf2_cache ?r ?y else ?z] => set (x := if b then leaf2_cache r y else z) end. clearbody x.
  destruct (x =? 32); [rewrite Z.lor_spec; each H; consts; reflexivity|]. destruct (x =? 64); [|reflexivity]. rewrite Z.lor_spec; each H; consts; reflexivity.
Qed.

(** The word before the extended leaf. *)
Definition word1 (cpu : Z -> regs) (xcr0 : Z) : Z :=
  let r := cpu 1 in
  let c := F_MMX in
  let c := setif (any (edx r) 33554432) (F_MMX2 + F_SSE) c in
  let c := Z.lor c F_CMOV in
  let c := setif (any (edx r) 67108864) F_SSE2 c in
  let c := setif (any (ecx r) 1) F_SSE3 c in
  let c := setif (any (ecx r) 512) F_SSSE3 c in
  let c := setif (any (ecx r) 524288) F_SSE4 c in
  let c := setif (any (ecx r) 1048576) F_SSE42 c in
  let avx := (Z.land (ecx r) 402653184 =? 402653184) && (Z.land xcr0 6 =? 6) in
  let c := setif avx F_AVX c in
  setif (avx && any (ecx r) 4096) F_FMA3 c.
Definition word2 (cpu : Z -> regs) (c : Z) : Z :=
  let r7 := cpu 7 in
  let ext7 := 7 <=? eax (cpu 0) in
  let c := setif (ext7 && (any c F_AVX && any (ebx r7) 32)) F_AVX2 c in
  let c := setif (ext7 && any (ebx r7) 8) F_BMI1 c in
  let c := setif (ext7 && (any (ebx r7) 8 && any (ebx r7) 256)) F_BMI2 c in
  setif (any c F_SSSE3) F_FAST c.
Definition word3 (cpu : Z -> regs) (c : Z) : Z := if 2147483649 <=? eax (cpu 2147483648) then detect_extended cpu c else c.
Definition word (cpu : Z -> regs) (xcr0 : Z) : Z :=
  detect_cache cpu (eax (cpu 0)) (eax (cpu 2147483648)) (detect_intel cpu (word3 cpu (word2 cpu (word1 cpu xcr0)))).
Lemma detect_is cpu xcr0 : cpu_detect cpu xcr0 =
  if full cpu then word cpu xcr0 else if works cpu then setif (Z.testbit (edx (cpu 1)) 25) (F_MMX2 + F_SSE) F_MMX else 0.
Proof.
  unfold full, works. rewrite <- !any_pow by lia. change (2 ^ 23) with 8388608. change (2 ^ 15) with 32768. change (2 ^ 25) with 33554432.
  unfold cpu_detect, word, word3, word2, word1. cbv zeta.
  destruct (eax (cpu 0) =? 0); [reflexivity|]. destruct (any (edx (cpu 1)) 8388608); [|reflexivity]. now destruct (any (edx (cpu 1)) 32768).
Qed.
Lemma avx_cond cpu xcr0 : (Z.land (ecx (cpu 1)) 402653184 =? 402653184) && (Z.land xcr0 6 =? 6) = avx_usable cpu xcr0.
Proof.
  change 402653184 with (2 ^ 27 + 2 ^ 28). change 6 with (2 ^ 1 + 2 ^ 2). rewrite !mask2 by lia. unfold avx_usable. now rewrite <- !andb_assoc.
Qed.
Lemma word1_bits cpu xcr0 : let w := word1 cpu xcr0 in let r := cpu 1 in
  Z.testbit w 1 = true /\ Z.testbit w 3 = Z.testbit (edx r) 25 /\ Z.testbit w 4 = Z.testbit (edx r) 26 /\ Z.testbit w 5 = Z.testbit (ecx r) 0 /\
  Z.testbit w 6 = Z.testbit (ecx r) 9 /\ Z.testbit w 7 = Z.testbit (ecx r) 19 /\ Z.testbit w 8 = Z.testbit (ecx r) 20 /\
  Z.testbit w 10 = avx_usable cpu xcr0 /\ Z.testbit w 13 = false /\ Z.testbit w 14 = avx_usable cpu xcr0 && Z.testbit (ecx r) 12.
Proof.
  cbv zeta. unfold word1. cbv zeta. rewrite avx_cond. set (v := avx_usable cpu xcr0). clearbody v.
  change 33554432 with (2 ^ 25). change 67108864 with (2 ^ 26). change (any (ecx (cpu 1)) 1) with (any (ecx (cpu 1)) (2 ^ 0)).
  change (any (ecx (cpu 1)) 512) with (any (ecx (cpu 1)) (2 ^ 9)). change (any (ecx (cpu 1)) 524288) with (any (ecx (cpu 1)) (2 ^ 19)).
  change (any (ecx (cpu 1)) 1048576) with (any (ecx (cpu 1)) (2 ^ 20)). change (any (ecx (cpu 1)) 4096) with (any (ecx (cpu 1)) (2 ^ 12)).
  rewrite !any_pow by lia.
  repeat split; rewrite ?set_bit, ?Z.lor_spec, ?set_bit; consts; reflexivity.
Qed.
Lemma word2_keeps cpu c k : In k [1; 3; 4; 5; 6; 7; 8; 10; 14] -> Z.testbit (word2 cpu c) k = Z.testbit c k.
Proof. intros H. unfold word2. cbv zeta. each H; bits; reflexivity. Qed.
Lemma word2_avx2 cpu c : Z.testbit (word2 cpu c) 13 = Z.testbit c 13 || (Z.testbit c 10 && avx2_named cpu).
Proof.
  unfold word2, avx2_named. cbv zeta. bits. change F_AVX with (2 ^ 10). change (any (ebx (cpu 7)) 32) with (any (ebx (cpu 7)) (2 ^ 5)).
  rewrite !any_pow by lia. f_equal. destruct (7 <=? eax (cpu 0)), (Z.testbit c 10); reflexivity.
Qed.
Lemma word3_keeps cpu c k : In k [0; 1; 3; 4; 5; 6; 7; 8; 10; 13; 14; 15; 16; 17; 18; 21; 22; 24] -> Z.testbit (word3 cpu c) k = Z.testbit c k.
Proof. intros H. unfold word3. destruct (_ <=? _); [now apply ext_keeps|reflexivity]. Qed.
Ltac inlist := cbn; repeat (first [left; reflexivity|right]).
Lemma word_low cpu xcr0 k : In k [1; 3; 6; 7; 8; 10; 14] -> Z.testbit (word cpu xcr0) k = Z.testbit (word1 cpu xcr0) k.
Proof. intros H. unfold word. each H; (rewrite cache_keeps, intel_keeps, word3_keeps, word2_keeps by inlist; reflexivity). Qed.
Lemma word_avx2 cpu xcr0 : Z.testbit (word cpu xcr0) 13 = avx_usable cpu xcr0 && avx2_named cpu.
Proof.
  unfold word. rewrite cache_keeps, intel_keeps, word3_keeps by inlist. rewrite word2_avx2. destruct (word1_bits cpu xcr0) as (_ & _ & _ & _ & _ & _ & _ & A & B & _). now rewrite A, B.
Qed.
Lemma word_sse cpu xcr0 k : In k [4; 5] -> Z.testbit (word cpu xcr0) k = Z.testbit (word1 cpu xcr0) k && negb (pentium_m cpu).
Proof. intros H. unfold word. each H; (rewrite cache_keeps, intel_sse, word3_keeps, word2_keeps by inlist; reflexivity). Qed.

Lemma detect_bits cpu xcr0 : let d := cpu_detect cpu xcr0 in let r := cpu 1 in
  Z.testbit d bit_mmx = works cpu /\
  Z.testbit d bit_sse = works cpu && Z.testbit (edx r) 25 /\
  Z.testbit d bit_sse2 = full cpu && Z.testbit (edx r) 26 && negb (pentium_m cpu) /\
  Z.testbit d bit_sse3 = full cpu && Z.testbit (ecx r) 0 && negb (pentium_m cpu) /\
  Z.testbit d bit_ssse3 = full cpu && Z.testbit (ecx r) 9 /\
  Z.testbit d bit_sse4 = full cpu && Z.testbit (ecx r) 19 /\
  Z.testbit d bit_sse42 = full cpu && Z.testbit (ecx r) 20 /\
  Z.testbit d bit_avx = full cpu && avx_usable cpu xcr0 /\
  Z.testbit d bit_avx2 = full cpu && avx_usable cpu xcr0 && avx2_named cpu /\
  Z.testbit d bit_fma3 = full cpu && avx_usable cpu xcr0 && Z.testbit (ecx r) 12.
Proof.
  cbv zeta. rewrite detect_is. destruct (full cpu) eqn:F.
  - assert (works cpu = true) as -> by (unfold full in F; now apply andb_true_iff in F).
    unfold bit_mmx, bit_sse, bit_sse2, bit_sse3, bit_ssse3, bit_sse4, bit_sse42, bit_avx, bit_avx2, bit_fma3.
    rewrite word_avx2, (word_sse _ _ 4), (word_sse _ _ 5), !word_low by inlist.
    destruct (word1_bits cpu xcr0) as (B1 & B3 & B4 & B5 & B6 & B7 & B8 & B10 & B13 & B14).
    rewrite B1, B3, B4, B5, B6, B7, B8, B10, B14. cbn [andb]. repeat split; reflexivity.
  - cbn [andb]. destruct (works cpu); [|repeat split; apply Z.testbit_0_l].
    repeat split; rewrite set_bit; consts; reflexivity.
Qed.

(** Flags that exclude each other. *)
Definition exclusive (c : Z) : Prop :=
  Z.testbit c 19 && Z.testbit c 20 = false /\ Z.testbit c 17 && Z.testbit c 18 = false /\
  (Z.testbit c 17 || Z.testbit c 18) && Z.testbit c 8 = false /\ Z.testbit c 22 = false /\ Z.testbit c 24 && Z.testbit c 21 = false.
Lemma fast_slow cpu c : Z.testbit c 19 = false -> Z.testbit (detect_extended cpu c) 19 && Z.testbit (detect_extended cpu c) 20 = false.
Proof.
  intros H. unfold detect_extended. cbv zeta.
  match goal with |- context [any ?w F_LZCNT] => set (c1 := w) end.
  match goal with |- context [setif ?b F_CTZ c1] => set (bc := b) end.
  change F_FAST with (2 ^ 20). rewrite !any_pow by lia.
  change F_SSE2 with (2 ^ 4). rewrite !any_pow by lia.
  set (c2 := setif bc F_CTZ c1).
  assert (A20 : Z.testbit c2 20 = Z.testbit c1 20) by (unfold c2; bits; reflexivity).
  assert (A19 : Z.testbit c2 19 = Z.testbit c1 19) by (unfold c2; bits; reflexivity).
  rewrite !set_bit. rewrite A20, A19. consts.
  assert (E : Z.testbit c1 19 && Z.testbit c1 20 = false).
  { unfold c1. bits. rewrite H. cbn [orb].
    match goal with |- ?x && _ = _ => destruct x end; [|reflexivity]. cbn [negb]. now rewrite andb_false_r. }
  destruct (Z.testbit c1 19), (Z.testbit c1 20); try discriminate E; cbn [orb andb negb]; rewrite ?andb_false_r; reflexivity.
Qed.
Lemma word1_high cpu xcr0 k : In k [17; 18; 19; 20; 21; 22; 24] -> Z.testbit (word1 cpu xcr0) k = false.
Proof. intros H. unfold word1. cbv zeta. repeat first [rewrite set_bit | rewrite Z.lor_spec]. each H; consts; reflexivity. Qed.
Lemma word2_high cpu c k : In k [17; 18; 19; 21; 22; 24] -> Z.testbit (word2 cpu c) k = Z.testbit c k.
Proof. intros H. unfold word2. cbv zeta. each H; bits; reflexivity. Qed.
Lemma intel_excl cpu c : Z.testbit c 24 = false -> Z.testbit c 21 = false -> Z.testbit (detect_intel cpu c) 24 && Z.testbit (detect_intel cpu c) 21 = false.
Proof.
  intros A B. unfold detect_intel. cbv zeta. destruct (negb _); [now rewrite A|]. destruct (_ || _); [now rewrite !Z.ldiff_spec, A|].
  destruct (_ =? 28); [rewrite !Z.lor_spec, A, B; consts; reflexivity|]. rewrite !set_bit, A, B. consts. reflexivity.
Qed.
Lemma cache_excl cpu a b c : Z.testbit c 17 = false -> Z.testbit c 18 = false ->
  Z.testbit (detect_cache cpu a b c) 17 && Z.testbit (detect_cache cpu a b c) 18 = false /\
  (Z.testbit (detect_cache cpu a b c) 17 || Z.testbit (detect_cache cpu a b c) 18) && Z.testbit (detect_cache cpu a b c) 8 = false.
Proof.
  intros A B. rewrite (cache_keeps cpu a b c 8) by inlist. unfold detect_cache. destruct ((intel (cpu 0) || cyrix (cpu 0)) && negb (any c F_SSE42)) eqn:G; [|now rewrite A, B].
  apply andb_true_iff in G as [_ G]. change F_SSE42 with (2 ^ 8) in G. rewrite any_pow, negb_true_iff in G by lia. rewrite G, andb_false_r. split; [|reflexivity].
  cbv zeta. match goal with |- context [if ?b then leaf2_cache ?r ?y else ?z] => set (x := if b then leaf2_cache r y else z) end. clearbody x.
  destruct (x =? 32); [rewrite !Z.lor_spec, A, B; consts; reflexivity|]. destruct (x =? 64); [|now rewrite A]. rewrite !Z.lor_spec, A, B; consts; reflexivity.
Qed.
Lemma detect_exclusive cpu xcr0 : exclusive (cpu_detect cpu xcr0).
Proof.
  rewrite detect_is. destruct (full cpu).
  - unfold exclusive, word. set (c2 := word2 cpu (word1 cpu xcr0)). set (c3 := word3 cpu c2).
    assert (H2 : forall k, In k [17; 18; 19; 21; 22; 24] -> Z.testbit c2 k = false).
    { intros k H. unfold c2. rewrite word2_high by exact H. apply word1_high. cbn in *. intuition. }
    assert (H3 : forall k, In k [17; 18; 21; 22; 24] -> Z.testbit c3 k = false).
    { intros k H. unfold c3. rewrite word3_keeps by (cbn in *; intuition). apply H2. cbn in *. intuition. }
    assert (HI : forall k, In k [17; 18; 22] -> Z.testbit (detect_intel cpu c3) k = false).
    { intros k H. rewrite intel_keeps by (cbn in *; intuition). apply H3. cbn in *. intuition. }
    rewrite (cache_keeps _ _ _ _ 19), (cache_keeps _ _ _ _ 20), (cache_keeps _ _ _ _ 22), (cache_keeps _ _ _ _ 24), (cache_keeps _ _ _ _ 21) by inlist.
    destruct (cache_excl cpu (eax (cpu 0)) (eax (cpu 2147483648)) (detect_intel cpu c3)) as [C1 C2]; [apply HI; inlist|apply HI; inlist|].
    split; [|split; [exact C1|split; [exact C2|split; [apply HI; inlist|apply intel_excl; apply H3; inlist]]]].
    rewrite (intel_keeps cpu c3 19), (intel_keeps cpu c3 20) by inlist. unfold c3, word3. destruct (_ <=? _); [apply fast_slow; apply H2; inlist|].
    rewrite (H2 19) by inlist. reflexivity.
  - destruct (works cpu); [|unfold exclusive; now rewrite !Z.testbit_0_l].
    unfold exclusive. rewrite !set_bit. consts. repeat split; reflexivity.
Qed.
