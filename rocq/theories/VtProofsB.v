(** The stores of a kernel against the cells of a block, and the check for inverse transforms. *)
From Coq Require Import ZArith List Bool Lia.
From Verif Require Import CBase MemModel MemProofs VxModelBase VtModel VxProofs ViProofs VtProofs AlfSpec McSpec TrSpec.
Import ListNotations.
Open Scope Z_scope.

(** ** Cells. *)
Section Cells.
  Variables (flat : bool) (bh bv : Z) (good : wsym -> Z -> Z -> bool).
  Definition cell (row col : Z) : Z * Z := if flat then let n := row * bh + col in (n mod bh, n / bh) else (col, row).
  Fixpoint chk_words (row col : Z) (ws : list wsym) : bool :=
    match ws with
    | [] => true
    | w :: t => let '(x, y) := cell row col in (0 <=? x) && (x <? bh) && (0 <=? y) && (y <? bv) && good w x y && chk_words row (col + 1) t end.
  Definition chk_log (log : list (Z * Z * list wsym)) : bool := forallb (fun e => let '(row, col, ws) := e in chk_words row col ws) log.
  Fixpoint mark (row col : Z) (n : nat) (t : trie unit) : trie unit :=
    match n with O => t | S k => let '(x, y) := cell row col in mark row (col + 1) k (tset (key (y * bh + x)) tt t) end.
  Fixpoint marks (log : list (Z * Z * list wsym)) (t : trie unit) : trie unit :=
    match log with [] => t | (row, col, ws) :: l => marks l (mark row col (length ws) t) end.
  Definition chk_cover (log : list (Z * Z * list wsym)) : bool :=
    let t := marks log Lf in
    forallb (fun i => match tget (key (Z.of_nat i)) t with Some _ => true | None => false end) (seq 0 (Z.to_nat (bh * bv))).

  Definition covers (e : Z * Z * list wsym) (x y : Z) : Prop := let '(row, col, ws) := e in exists i, 0 <= i < Z.of_nat (length ws) /\ cell row (col + i) = (x, y).
  Hypothesis bh0 : 0 < bh.
  Lemma chk_words_at ws : forall row col, chk_words row col ws = true -> forall i w, nth_error ws i = Some w ->
    let '(x, y) := cell row (col + Z.of_nat i) in 0 <= x < bh /\ 0 <= y < bv /\ good w x y = true.
  Proof.
    induction ws as [|w0 ws IH]; intros row col C i w N; [destruct i; discriminate|]. cbn [chk_words] in C.
    destruct i as [|i].
    - cbn in N. injection N as <-. rewrite Z.add_0_r. destruct (cell row col) as [x y].
      rewrite !andb_true_iff in C. destruct C as (((((C1 & C2) & C3) & C4) & C5) & C6). split; [lia|]. split; [lia|exact C5].
    - replace (col + Z.of_nat (S i)) with (col + 1 + Z.of_nat i) by lia. apply IH; [|exact N].
      destruct (cell row col) as [x y]. rewrite !andb_true_iff in C. tauto.
  Qed.
  Lemma mark_ok n : forall row col t k, 0 <= k -> tget (key k) (mark row col n t) = Some tt ->
    (forall i, 0 <= i < Z.of_nat n -> let '(x, y) := cell row (col + i) in 0 <= y * bh + x) ->
    tget (key k) t = Some tt \/ exists i, 0 <= i < Z.of_nat n /\ let '(x, y) := cell row (col + i) in k = y * bh + x.
  Proof.
    induction n as [|n IH]; intros row col t k Hk; cbn [mark]; [auto|].
    intros Ht Hp. pose proof (Hp 0 ltac:(lia)) as P0. rewrite Z.add_0_r in P0. destruct (cell row col) as [x y] eqn:E1.
    destruct (IH row (col + 1) _ k Hk Ht) as [F|(i & Hi & F)].
    - intros i Hi. specialize (Hp (i + 1) ltac:(lia)). replace (col + (i + 1)) with (col + 1 + i) in Hp by lia. exact Hp.
    - rewrite tget_tset, key_eqb in F by lia. destruct (Z.eqb_spec k (y * bh + x)) as [->|_]; [|left; exact F].
      right. exists 0. split; [lia|]. rewrite Z.add_0_r, E1. reflexivity.
    - right. exists (i + 1). split; [lia|]. replace (col + (i + 1)) with (col + 1 + i) by lia. exact F.
  Qed.
  Lemma marks_ok log : forall t k, 0 <= k -> chk_log log = true -> tget (key k) (marks log t) = Some tt ->
    tget (key k) t = Some tt \/ exists e x y, In e log /\ covers e x y /\ k = y * bh + x.
  Proof.
    induction log as [|[[row col] ws] log IH]; intros t k Hk C; cbn [marks]; [auto|]. cbn [chk_log forallb] in C. apply andb_true_iff in C. destruct C as [C1 C2].
    intros Ht. destruct (IH _ k Hk C2 Ht) as [F|(e & x & y & A1 & A2)].
    - assert (Hp : forall i, 0 <= i < Z.of_nat (length ws) -> let '(x, y) := cell row (col + i) in 0 <= y * bh + x).
      { intros i Hi. destruct (nth_error ws (Z.to_nat i)) as [w|] eqn:E1; [|apply nth_error_None in E1; lia].
        pose proof (chk_words_at ws row col C1 _ w E1) as P. rewrite Z2Nat.id in P by lia. destruct (cell row (col + i)) as [x y]. nia. }
      destruct (mark_ok _ row col t k Hk F Hp) as [G|(i & Hi & G)]; [left; exact G|].
      right. destruct (cell row (col + i)) as [x y] eqn:E1. exists (row, col, ws), x, y. split; [left; reflexivity|]. split; [|exact G]. exists i. split; [exact Hi|exact E1].
    - right. exists e, x, y. split; [right; exact A1|exact A2].
  Qed.
  Lemma cover_ok log x y : chk_log log = true -> chk_cover log = true -> 0 <= x < bh -> 0 <= y < bv -> exists e, In e log /\ covers e x y.
  Proof.
    intros C1 C2 Hx Hy. unfold chk_cover in C2. rewrite forallb_forall in C2.
    assert (R : 0 <= y * bh + x < bh * bv) by nia.
    specialize (C2 (Z.to_nat (y * bh + x))). rewrite Z2Nat.id in C2 by lia.
    assert (In (Z.to_nat (y * bh + x)) (seq 0 (Z.to_nat (bh * bv)))) as HI by (apply in_seq; lia). specialize (C2 HI).
    destruct (tget (key (y * bh + x)) (marks log Lf)) as [[]|] eqn:E1; [|discriminate].
    destruct (marks_ok log Lf (y * bh + x) ltac:(lia) C1 E1) as [F|(e & x' & y' & A1 & A2 & A3)]; [discriminate|].
    exists e. split; [exact A1|].
    assert (B : 0 <= x' < bh).
    { destruct e as [[row col] ws]. destruct A2 as (i & Hi & E2). unfold chk_log in C1. rewrite forallb_forall in C1. specialize (C1 _ A1). cbn in C1.
      destruct (nth_error ws (Z.to_nat i)) as [w|] eqn:E3; [|apply nth_error_None in E3; lia].
      pose proof (chk_words_at ws row col C1 _ w E3) as P. rewrite Z2Nat.id in P by lia. rewrite E2 in P. tauto. }
    assert (y' = y) by nia. assert (x' = x) by nia. subst. exact A2.
  Qed.

  Variables (v : Z -> Z) (dst stride : Z) (m0 : mem).
  Hypothesis Hs : if flat then stride = bh else bh <= stride.
  Lemma cell_addr row col x y : cell row col = (x, y) -> dst + row * stride + col = dst + y * stride + x.
  Proof.
    unfold cell. destruct flat.
    - intros C. injection C as <- <-. subst stride. pose proof (Z.div_mod (row * bh + col) bh ltac:(lia)). lia.
    - intros C. injection C as -> ->. lia.
  Qed.
  Lemma log_cases log q : chk_log log = true ->
    (log_mem v dst stride m0 log q = m0 q /\ forall e, In e log -> forall x y, covers e x y -> q <> dst + y * stride + x) \/
    (exists x y w, 0 <= x < bh /\ 0 <= y < bv /\ good w x y = true /\ q = dst + y * stride + x /\ log_mem v dst stride m0 log q = weval v w).
  Proof.
    induction log as [|[[row col] ws] log IH]; intros C.
    - left. split; [reflexivity|]. intros e [].
    - cbn [chk_log forallb] in C. apply andb_true_iff in C. destruct C as [C1 C2]. cbn [log_mem]. set (a := dst + row * stride + col).
      destruct ((a <=? q) && (q <? a + Z.of_nat (length ws))) eqn:E1.
      + right. destruct (nth_error ws (Z.to_nat (q - a))) as [w|] eqn:E2; [|apply nth_error_None in E2; lia].
        pose proof (chk_words_at ws row col C1 _ w E2) as P. rewrite Z2Nat.id in P by lia.
        destruct (cell row (col + (q - a))) as [x y] eqn:E3. exists x, y, w. destruct P as (P1 & P2 & P3). repeat split; try lia; try assumption.
        * apply cell_addr in E3. lia.
        * rewrite (nth_error_nth _ _ (K 0) E2). reflexivity.
      + destruct (IH C2) as [[A1 A2]|B1]; [left|right; exact B1]. split; [exact A1|].
        intros e [<-|He] x y Hc; [|exact (A2 e He x y Hc)]. destruct Hc as (i & Hi & E2). apply cell_addr in E2. lia.
  Qed.
  Lemma log_spec log : chk_log log = true -> chk_cover log = true ->
    (forall x y, 0 <= x < bh -> 0 <= y < bv -> exists w, good w x y = true /\ log_mem v dst stride m0 log (dst + y * stride + x) = weval v w) /\
    (forall q, ~ (exists x y, 0 <= x < bh /\ 0 <= y < bv /\ q = dst + y * stride + x) -> log_mem v dst stride m0 log q = m0 q).
  Proof.
    intros C1 C2. assert (S1 : bh <= stride) by (destruct flat; lia). split.
    - intros x y Hx Hy. destruct (cover_ok log x y C1 C2 Hx Hy) as (e & A1 & A2).
      destruct (log_cases log (dst + y * stride + x) C1) as [[_ B2]|(x' & y' & w & Hx' & Hy' & G & Q1 & M)].
      + exfalso. exact (B2 e A1 x y A2 eq_refl).
      + assert (y' = y) by nia. assert (x' = x) by nia. subst. exists w. auto.
    - intros q Nq. destruct (log_cases log q C1) as [[B1 _]|(x & y & w & Hx & Hy & G & Q1 & M)]; [exact B1|].
      exfalso. apply Nq. exists x, y. auto.
  Qed.
End Cells.
Definition rows0 (log : list (Z * Z * list wsym)) : bool := forallb (fun e => fst (fst e) =? 0) log.
Lemma rows0_ok v dst s s' m0 log q : rows0 log = true -> log_mem v dst s m0 log q = log_mem v dst s' m0 log q.
Proof.
  induction log as [|[[row col] ws] log IH]; intros R0; [reflexivity|]. cbn [rows0 forallb fst] in R0. apply andb_true_iff in R0. destruct R0 as [R1 R2].
  cbn [log_mem]. rewrite (IH R2). apply Z.eqb_eq in R1. subst row. rewrite !Z.mul_0_l. reflexivity.
Qed.

(** ** Recognition of the sums of an inverse transform. *)
Fixpoint matches (f : lin) (at_ step : Z) (cs : list Z) (last : Z * Z) : bool :=
  match cs with
  | [] => match f with [(i, x)] => (i =? fst last) && (x =? snd last) | _ => false end
  | c :: cs' => if c =? 0 then matches f (at_ + step) step cs' last
                else match f with (i, x) :: f' => (i =? at_) && (x =? c) && matches f' (at_ + step) step cs' last | [] => false end end.
Fixpoint search (f : lin) (at_ step : Z) (last : Z * Z) (rows : list (list Z)) (y : Z) : option Z :=
  match rows with [] => None | r :: rs => if matches f at_ step r last then Some y else search f at_ step last rs (y + 1) end.
Definition basis_row (n k y : nat) : list Z := map (fun v => basis (Z.of_nat n) (Z.of_nat v) (Z.of_nat y)) (seq 0 k).
Definition basis_rows (n k : nat) : list (list Z) := map (basis_row n k) (seq 0 n).
Definition recog (bh : Z) (ctab rtab : list (list Z)) (f : lin) (i : imm) : option Z :=
  match f with
  | [] => None
  | (id, _) :: _ =>
      if id <? 4096 then
        if (0 <=? id) && (id <? 64) then
          match i with I 5 => match search f id bh (ONE, 16) ctab 0 with Some y => Some (4096 + y * 64 + id) | None => None end | _ => None end
        else None
      else if (id <? 8192) && ((id - 4096) mod 64 =? 0) then
        match i with
        | Q q => if q =? SH2 then match search f id 1 (RND2, 1) rtab 0 with Some x => Some (8192 + (id - 4096) + x) | None => None end else None
        | _ => None end
      else None end.
Definition clampform (w : wsym) (id : Z) : bool :=
  match w with
  | Wmax (Wmin (V a) (V b)) (V c) => (a =? id) && (b =? HI2) && (c =? LO2)
  | _ => false end.
Definition idct_check (flat : bool) (bh bv kh kv : nat) (p : list ins) : bool :=
  match srun (recog (Z.of_nat bh) (basis_rows bv kv) (basis_rows bh kh)) p with
  | Some log => let good w x y := clampform w (8192 + y * 64 + x) in
                chk_log flat (Z.of_nat bh) (Z.of_nat bv) good log && chk_cover flat (Z.of_nat bh) (Z.of_nat bv) log
  | None => false end.
(** For kernels that do not use the stride. *)
Definition idct_check0 (bh bv kh kv : nat) (p : list ins) : bool :=
  match srun (recog (Z.of_nat bh) (basis_rows bv kv) (basis_rows bh kh)) p with
  | Some log => let good w x y := clampform w (8192 + y * 64 + x) in
                rows0 log && chk_log true (Z.of_nat bh) (Z.of_nat bv) good log && chk_cover true (Z.of_nat bh) (Z.of_nat bv) log
  | None => false end.

Definition dot (v : Z -> Z) (at_ step : Z) (cs : list Z) : Z := fold_right Z.add 0 (map (fun p => snd p * v (at_ + Z.of_nat (fst p) * step)) (combine (seq 0 (length cs)) cs)).
Lemma dot_cons v at_ step c cs : dot v at_ step (c :: cs) = c * v at_ + dot v (at_ + step) step cs.
Proof.
  unfold dot. cbn [length seq combine map fold_right fst snd]. f_equal; [f_equal; f_equal; lia|].
  rewrite <- seq_shift. f_equal. generalize (seq 0 (length cs)) as l. revert at_. induction cs as [|x cs IH]; intros at_ [|i l]; cbn [map combine]; try reflexivity.
  f_equal; [cbn [fst snd]; do 2 f_equal; lia|]. apply IH.
Qed.
Lemma matches_ok v f : forall cs at_ step last, matches f at_ step cs last = true -> leval v f = dot v at_ step cs + snd last * v (fst last).
Proof.
  intros cs. revert f. induction cs as [|c cs IH]; intros f at_ step last; cbn [matches].
  - destruct f as [|[i x] [|]]; try discriminate. rewrite andb_true_iff, !Z.eqb_eq. intros [-> ->]. rewrite leval_cons. cbn. lia.
  - rewrite dot_cons. destruct (Z.eqb_spec c 0) as [->|_].
    + intros M. rewrite (IH _ _ _ _ M). lia.
    + destruct f as [|[i x] f]; [discriminate|]. rewrite !andb_true_iff, !Z.eqb_eq. intros [[-> ->] M]. rewrite leval_cons, (IH _ _ _ _ M). lia.
Qed.
Lemma search_ok f at_ step last rows : forall y0 y, search f at_ step last rows y0 = Some y ->
  exists n r, y = y0 + Z.of_nat n /\ nth_error rows n = Some r /\ matches f at_ step r last = true.
Proof.
  induction rows as [|r rows IH]; intros y0 y; cbn [search]; [discriminate|]. destruct (matches f at_ step r last) eqn:E1.
  - intros Hs. injection Hs as <-. exists 0%nat, r. split; [lia|]. auto.
  - intros Hs. destruct (IH _ _ Hs) as (n & r' & A1 & A2 & A3). exists (S n), r'. split; [lia|]. auto.
Qed.
Lemma zsum_ext n f g : (forall i, 0 <= i < Z.of_nat n -> f i = g i) -> zsum n f = zsum n g.
Proof. induction n as [|n IH]; intros E1; [reflexivity|]. cbn [zsum]. rewrite IH by (intros; apply E1; lia). rewrite E1 by lia. reflexivity. Qed.
Lemma zsum_head n f : zsum (S n) f = f 0 + zsum n (fun i => f (i + 1)).
Proof. induction n as [|n IH]; [cbn; lia|]. cbn [zsum] in *. rewrite IH. replace (Z.of_nat n + 1) with (Z.of_nat (S n)) by lia. lia. Qed.
Lemma dot_sum v at_ step cs : dot v at_ step cs = zsum (length cs) (fun k => nth (Z.to_nat k) cs 0 * v (at_ + k * step)).
Proof.
  revert at_. induction cs as [|c cs IH]; intros at_; [reflexivity|]. rewrite dot_cons, IH. cbn [length]. rewrite zsum_head. f_equal.
  - cbn [Z.to_nat nth]. do 2 f_equal. lia.
  - apply zsum_ext. intros i Hi. replace (Z.to_nat (i + 1)) with (S (Z.to_nat i)) by lia. cbn [nth]. do 2 f_equal. lia.
Qed.
Lemma basis_row_len n k y : length (basis_row n k y) = k.
Proof. unfold basis_row. rewrite map_length, seq_length. reflexivity. Qed.
Lemma basis_row_nth n k y i : 0 <= i < Z.of_nat k -> nth (Z.to_nat i) (basis_row n k y) 0 = basis (Z.of_nat n) i (Z.of_nat y).
Proof.
  intros Hi. unfold basis_row. set (f := fun v : nat => basis (Z.of_nat n) (Z.of_nat v) (Z.of_nat y)).
  rewrite (nth_indep _ 0 (f 0%nat)) by (rewrite map_length, seq_length; lia). rewrite map_nth, seq_nth by lia. subst f. cbn beta. do 2 f_equal. lia.
Qed.
Lemma dot_basis v n k y at_ step : dot v at_ step (basis_row n k y) = zsum k (fun i => basis (Z.of_nat n) i (Z.of_nat y) * v (at_ + i * step)).
Proof. rewrite dot_sum, basis_row_len. apply zsum_ext. intros i Hi. rewrite basis_row_nth by lia. reflexivity. Qed.

(** ** The values the names stand for. *)
Section Idct.
  Variables (bh bv kh kv : nat) (d flag src : Z) (m0 : mem).
  Definition cin (u w : Z) : Z := to_i16 (m0 (src + (w * Z.of_nat bh + u))).
  Definition vcol (u y : Z) : Z := sat_i16 (Z.shiftr (zsum kv (fun w => basis (Z.of_nat bv) w y * cin u w) + 16) 5).
  Definition vres (x y : Z) : Z := sat_i16 (Z.shiftr (zsum kh (fun u => basis (Z.of_nat bh) u x * vcol u y) + kernel_params d flag RND2) (kernel_params d flag SH2)).
  Definition val (id : Z) : Z :=
    if id <? 4096 then to_i16 (m0 (src + id))
    else if id <? 8192 then vcol ((id - 4096) mod 64) ((id - 4096) / 64)
    else if id <? 12288 then vres ((id - 8192) mod 64) ((id - 8192) / 64)
    else if id =? ONE then 1 else kernel_params d flag id.
  Hypothesis Hd : mc_depth d.
  Hypothesis Hf : 0 <= flag <= 1.
  Hypothesis Bh : (0 < bh <= 64)%nat.
  Hypothesis Bv : (0 < bv <= 64)%nat.
  Hypothesis Kh : (kh <= bh)%nat.
  Hypothesis Kv : (kv <= bv)%nat.
  Lemma params_vals : kernel_params d flag SH2 = 20 - d - flag /\ kernel_params d flag RND2 = 2 ^ (20 - d - flag - 1) /\
    kernel_params d flag HI2 = 2 ^ (d + flag) - 1 /\ kernel_params d flag LO2 = - 2 ^ (d + flag) /\ 7 <= 20 - d - flag <= 12 /\ 8 <= d + flag <= 13.
  Proof using Hd Hf.
    clear - Hd Hf.
    unfold mc_depth in Hd. unfold kernel_params. cbn [Z.eqb Pos.eqb SH2 RND2 HI2 LO2]. rewrite !Z.shiftl_1_l. replace (d + 1 + flag - 1) with (d + flag) by lia. repeat split; lia.
  Qed.
  Lemma params_16 id : -32768 <= kernel_params d flag id <= 32767.
  Proof using Hd Hf.
    clear - Hd Hf.
    destruct params_vals as (_ & _ & _ & _ & B1 & B2). unfold kernel_params. cbv zeta. rewrite !Z.shiftl_1_l. replace (d + 1 + flag - 1) with (d + flag) by lia.
    assert (2 ^ (20 - d - flag - 1) <= 2 ^ 11) by (apply Z.pow_le_mono_r; lia). assert (2 ^ (d + flag) <= 2 ^ 13) by (apply Z.pow_le_mono_r; lia).
    assert (0 < 2 ^ (20 - d - flag - 1)) by (apply Z.pow_pos_nonneg; lia). assert (0 < 2 ^ (d + flag)) by (apply Z.pow_pos_nonneg; lia).
    change (2 ^ 11) with 2048 in *. change (2 ^ 13) with 8192 in *.
    destruct (id =? SH2); [lia|]. destruct (id =? RND2); [lia|]. destruct (id =? HI2); [lia|]. destruct (id =? LO2); lia.
  Qed.
  Lemma val_16 id : -32768 <= val id <= 32767.
  Proof using Hd Hf.
    clear - Hd Hf.
    unfold val. destruct (_ <? _); [apply to_i16_range|]. destruct (_ <? _); [apply sat_i16_range|]. destruct (_ <? _); [apply sat_i16_range|].
    destruct (_ =? _); [lia|]. apply params_16.
  Qed.
  Lemma val_par id : 12290 <= id -> val id = kernel_params d flag id.
  Proof using Type. clear. intros G. unfold val, ONE. destruct (Z.ltb_spec id 4096); [lia|]. destruct (Z.ltb_spec id 8192); [lia|]. destruct (Z.ltb_spec id 12288); [lia|]. destruct (Z.eqb_spec id 12289); [lia|reflexivity]. Qed.
  Lemma val_col u y : 0 <= u < 64 -> 0 <= y < 64 -> val (4096 + y * 64 + u) = vcol u y.
  Proof using Type. clear.
    intros Hu Hy. unfold val. destruct (Z.ltb_spec (4096 + y * 64 + u) 4096); [lia|]. destruct (Z.ltb_spec (4096 + y * 64 + u) 8192); [|lia].
    f_equal; [symmetry; apply Z.mod_unique with y; lia|symmetry; apply Z.div_unique with u; lia].
  Qed.
  Lemma val_res u y : 0 <= u < 64 -> 0 <= y < 64 -> val (8192 + y * 64 + u) = vres u y.
  Proof using Type. clear.
    intros Hu Hy. unfold val. destruct (Z.ltb_spec (8192 + y * 64 + u) 4096); [lia|]. destruct (Z.ltb_spec (8192 + y * 64 + u) 8192); [lia|].
    destruct (Z.ltb_spec (8192 + y * 64 + u) 12288); [|lia].
    f_equal; [symmetry; apply Z.mod_unique with y; lia|symmetry; apply Z.div_unique with u; lia].
  Qed.
  Lemma val_in u w : 0 <= u < 64 -> 0 <= w < Z.of_nat bv -> 0 <= u + w * Z.of_nat bh < 4096 -> val (u + w * Z.of_nat bh) = cin u w.
  Proof using Type. clear. intros Hu Hw Hr. unfold val, cin. destruct (Z.ltb_spec (u + w * Z.of_nat bh) 4096); [|lia]. do 2 f_equal. lia. Qed.
  Hypothesis Sz : (bh * bv <= 4096 - 64)%nat.
  Lemma recog_ok f i id : recog (Z.of_nat bh) (basis_rows bv kv) (basis_rows bh kh) f i = Some id ->
    val id = sat_i16 (Z.shiftr (leval val f) (ival (kernel_params d flag) i)).
  Proof using Hd Hf Bh Bv Kh Kv Sz. clear - Hd Hf Bh Bv Kh Kv Sz.
    unfold recog. destruct f as [|[a x] t]; [discriminate|]. set (f := (a, x) :: t). clearbody f. destruct (Z.ltb_spec a 4096).
    - destruct (Z.leb_spec 0 a); [|discriminate]. destruct (Z.ltb_spec a 64); [|discriminate]. cbn [andb].
      destruct i as [z|q|k]; try discriminate. destruct z as [|p|p]; try discriminate. destruct p as [p|p|]; try discriminate. destruct p as [p|p|]; try discriminate. destruct p; try discriminate.
      destruct (search f a (Z.of_nat bh) (ONE, 16) (basis_rows bv kv) 0) as [y|] eqn:E1; [|discriminate]. intros Hs. assert (Hid : id = 4096 + y * 64 + a) by congruence. clear Hs. subst id.
      destruct (search_ok _ _ _ _ _ _ _ E1) as (n & r & -> & N & M). unfold basis_rows in N. apply nth_error_seq_map in N. destruct N as [Hn ->]. cbn [Nat.add] in M.
      rewrite val_col by lia. unfold vcol. rewrite (matches_ok val _ _ _ _ _ M), dot_basis. cbn [fst snd ival].
      change (0 + n)%nat with n. do 3 f_equal. apply zsum_ext. intros w Hw. rewrite val_in; [reflexivity|lia|lia|nia].
    - destruct (Z.ltb_spec a 8192); [|discriminate]. destruct (Z.eqb_spec ((a - 4096) mod 64) 0) as [E0|]; [|discriminate]. cbn [andb].
      destruct i as [z|q|k]; try discriminate. destruct (Z.eqb_spec q SH2) as [->|]; [|discriminate].
      destruct (search f a 1 (RND2, 1) (basis_rows bh kh) 0) as [xx|] eqn:E1; [|discriminate]. intros Hs. assert (Hid : id = 8192 + (a - 4096) + xx) by congruence. clear Hs. subst id.
      destruct (search_ok _ _ _ _ _ _ _ E1) as (n & r & -> & N & M). unfold basis_rows in N. apply nth_error_seq_map in N. destruct N as [Hn ->].
      pose proof (Z.div_mod (a - 4096) 64 ltac:(lia)) as DM. set (y := (a - 4096) / 64) in *. assert (Hy : 0 <= y < 64) by (subst y; split; [apply Z.div_pos; lia|apply Z.div_lt_upper_bound; lia]).
      replace (8192 + (a - 4096) + (0 + Z.of_nat n)) with (8192 + y * 64 + Z.of_nat n) by lia. rewrite val_res by lia. unfold vres.
      rewrite (matches_ok val _ _ _ _ _ M), dot_basis. cbn [fst snd ival]. change (0 + n)%nat with n. do 2 f_equal. f_equal.
      + apply zsum_ext. intros u Hu. f_equal. rewrite <- val_col by lia. f_equal. lia.
      + rewrite val_par by (unfold RND2; lia). lia.
  Qed.

  (** The values and the specification. *)
  Hypothesis C16 : forall u w, 0 <= u < Z.of_nat bh -> 0 <= w < Z.of_nat bv -> -32768 <= m0 (src + w * Z.of_nat bh + u) <= 32767.
  Hypothesis C0 : forall u w, 0 <= u < Z.of_nat bh -> 0 <= w < Z.of_nat bv -> Z.of_nat kh <= u \/ Z.of_nat kv <= w -> m0 (src + w * Z.of_nat bh + u) = 0.
  Let c := fun u w => m0 (src + w * Z.of_nat bh + u).
  Lemma zsum_cut k n f : (k <= n)%nat -> (forall i, Z.of_nat k <= i < Z.of_nat n -> f i = 0) -> zsum n f = zsum k f.
  Proof using Type. clear.
    intros L1 Z1. induction n as [|n IH]; [replace k with 0%nat by lia; reflexivity|]. destruct (Nat.eq_dec k (S n)) as [->|]; [reflexivity|].
    cbn [zsum]. rewrite IH by (try lia; intros; apply Z1; lia). rewrite (Z1 (Z.of_nat n)) by lia. lia.
  Qed.
  Lemma cin_c u w : 0 <= u < Z.of_nat bh -> 0 <= w < Z.of_nat bv -> cin u w = c u w.
  Proof using C16. clear - C16. intros Hu Hw. unfold cin, c. replace (src + (w * Z.of_nat bh + u)) with (src + w * Z.of_nat bh + u) by lia. apply to_i16_id, C16; assumption. Qed.
  Lemma vcol_spec u y : 0 <= u < Z.of_nat bh -> vcol u y = col_pass bv c u y.
  Proof using C16 C0 Kv. clear - C16 C0 Kv.
    intros Hu. unfold vcol, col_pass, lim, rshift, clamp. cbn [Z.eqb]. change (2 ^ (5 - 1)) with 16. change (2 ^ 5) with 32. change (2 ^ (16 - 1)) with 32768.
    rewrite Z.shiftr_div_pow2 by lia. change (2 ^ 5) with 32. unfold sat_i16. change (32768 - 1) with 32767. do 4 f_equal.
    rewrite (zsum_cut kv bv) by (try assumption; intros i Hi; unfold c; rewrite C0 by lia; lia).
    apply zsum_ext. intros w Hw. rewrite cin_c by lia. reflexivity.
  Qed.
  Lemma col_pass_0 u y : 0 <= u < Z.of_nat bh -> Z.of_nat kh <= u -> col_pass bv c u y = 0.
  Proof using C0. clear - C0.
    intros Hu Hk. unfold col_pass. rewrite (zsum_cut 0 bv) by (try lia; intros i Hi; unfold c; rewrite C0 by lia; lia). reflexivity.
  Qed.
  Lemma clamp_res w x y : clampform w (8192 + y * 64 + x) = true -> 0 <= x < Z.of_nat bh -> 0 <= y < Z.of_nat bv ->
    weval val w = residual bh bv flag d c x y.
  Proof using C16 C0 Kv Kh Hd Hf Bh Bv. clear - C16 C0 Kv Kh Hd Hf Bh Bv.
    destruct w as [|?| | |[| | |[|a| | | | ] [|b| | | | ]| | ] [|e| | | | ]|]; cbn [clampform]; try discriminate. rewrite !andb_true_iff, !Z.eqb_eq. intros [[-> ->] ->] Hx Hy.
    cbn [weval]. rewrite val_res by lia. rewrite !val_par by (unfold HI2, LO2; lia). destruct params_vals as (A1 & A2 & A3 & A4 & B1 & B2).
    unfold vres. rewrite A1, A2, A3, A4. unfold residual, lim, clamp, rshift.
    destruct (Z.eqb_spec (20 - d - flag) 0); [lia|]. rewrite Z.shiftr_div_pow2 by lia. replace (d + 1 + flag - 1) with (d + flag) by lia.
    rewrite (zsum_cut kh bh _ Kh) by (intros i Hi; rewrite col_pass_0 by lia; lia).
    rewrite (zsum_ext kh (fun u => basis (Z.of_nat bh) u x * col_pass bv c u y) (fun u => basis (Z.of_nat bh) u x * vcol u y)) by (intros u Hu; rewrite vcol_spec by lia; reflexivity).
    set (z := (_ + _) / _). assert (2 ^ 8 <= 2 ^ (d + flag) <= 2 ^ 13) by (split; apply Z.pow_le_mono_r; lia). change (2 ^ 8) with 256 in *. change (2 ^ 13) with 8192 in *.
    unfold sat_i16. lia.
  Qed.
End Idct.

Lemma idct_check_ok flat bh bv kh kv p : idct_check flat bh bv kh kv p = true ->
  (0 < bh <= 64)%nat -> (0 < bv <= 64)%nat -> (kh <= bh)%nat -> (kv <= bv)%nat -> (bh * bv <= 4096 - 64)%nat ->
  forall d flag src dst stride regs ints m, mc_depth d -> 0 <= flag <= 1 -> (if flat then stride = Z.of_nat bh else Z.of_nat bh <= stride) ->
  (forall u v, 0 <= u < Z.of_nat bh -> 0 <= v < Z.of_nat bv -> -32768 <= m (src + v * Z.of_nat bh + u) <= 32767) ->
  (forall u v, 0 <= u < Z.of_nat bh -> 0 <= v < Z.of_nat bv -> Z.of_nat kh <= u \/ Z.of_nat kv <= v -> m (src + v * Z.of_nat bh + u) = 0) ->
  (forall x y, 0 <= x < Z.of_nat bh -> 0 <= y < Z.of_nat bv ->
     run p (kernel_params d flag) src dst stride regs ints m (dst + y * stride + x) = residual bh bv flag d (fun u v => m (src + v * Z.of_nat bh + u)) x y) /\
  (forall q, ~ in_block bh bv dst stride q -> run p (kernel_params d flag) src dst stride regs ints m q = m q).
Proof.
  intros Hc Bh Bv Kh Kv Sz d flag src dst stride regs ints m Hd Hf Hs C16 C0. unfold idct_check in Hc.
  destruct (srun _ p) as [log|] eqn:E1; [|discriminate]. apply andb_true_iff in Hc. destruct Hc as [H1 H2].
  pose proof (params_vals d flag Hd Hf) as PV.
  assert (SR : forall q, run p (kernel_params d flag) src dst stride regs ints m q = log_mem (val bh bv kh kv d flag src m) dst stride m log q).
  { refine (srun_ok _ (val bh bv kh kv d flag src m) (kernel_params d flag) src dst stride m _ _ _ _ _ _ p log regs ints E1).
    - apply val_16; assumption.
    - reflexivity.
    - apply val_par.
    - intros id Hi. unfold val. destruct (Z.ltb_spec id 4096); [reflexivity|lia].
    - lia.
    - apply recog_ok; assumption. }
  destruct (log_spec flat (Z.of_nat bh) (Z.of_nat bv) _ ltac:(lia) (val bh bv kh kv d flag src m) dst stride m Hs log H1 H2) as [L1 L2]. split.
  - intros x y Hx Hy. rewrite SR. destruct (L1 x y Hx Hy) as (w & G & ->). apply (clamp_res bh bv kh kv); assumption.
  - intros q Nq. rewrite SR. apply L2. intros (x & y & Hx & Hy & ->). apply Nq. exists x, y. auto.
Qed.
Lemma idct_check0_ok bh bv kh kv p : idct_check0 bh bv kh kv p = true ->
  (0 < bh <= 64)%nat -> (0 < bv <= 64)%nat -> (kh <= bh)%nat -> (kv <= bv)%nat -> (bh * bv <= 4096 - 64)%nat ->
  forall d flag src dst stride regs ints m, mc_depth d -> 0 <= flag <= 1 ->
  (forall u v, 0 <= u < Z.of_nat bh -> 0 <= v < Z.of_nat bv -> -32768 <= m (src + v * Z.of_nat bh + u) <= 32767) ->
  (forall u v, 0 <= u < Z.of_nat bh -> 0 <= v < Z.of_nat bv -> Z.of_nat kh <= u \/ Z.of_nat kv <= v -> m (src + v * Z.of_nat bh + u) = 0) ->
  (forall x y, 0 <= x < Z.of_nat bh -> 0 <= y < Z.of_nat bv ->
     run p (kernel_params d flag) src dst stride regs ints m (dst + y * Z.of_nat bh + x) = residual bh bv flag d (fun u v => m (src + v * Z.of_nat bh + u)) x y) /\
  (forall q, ~ in_block bh bv dst (Z.of_nat bh) q -> run p (kernel_params d flag) src dst stride regs ints m q = m q).
Proof.
  intros Hc Bh Bv Kh Kv Sz d flag src dst stride regs ints m Hd Hf C16 C0. unfold idct_check0 in Hc.
  destruct (srun _ p) as [log|] eqn:E1; [|discriminate]. rewrite !andb_true_iff in Hc. destruct Hc as [[R0 H1] H2].
  pose proof (params_vals d flag Hd Hf) as PV.
  assert (SR : forall q, run p (kernel_params d flag) src dst stride regs ints m q = log_mem (val bh bv kh kv d flag src m) dst stride m log q).
  { refine (srun_ok _ (val bh bv kh kv d flag src m) (kernel_params d flag) src dst stride m _ _ _ _ _ _ p log regs ints E1).
    - apply val_16; assumption.
    - reflexivity.
    - apply val_par.
    - intros id Hi. unfold val. destruct (Z.ltb_spec id 4096); [reflexivity|lia].
    - lia.
    - apply recog_ok; assumption. }
  destruct (log_spec true (Z.of_nat bh) (Z.of_nat bv) _ ltac:(lia) (val bh bv kh kv d flag src m) dst (Z.of_nat bh) m eq_refl log H1 H2) as [L1 L2]. split.
  - intros x y Hx Hy. rewrite SR, (rows0_ok _ _ _ (Z.of_nat bh)) by exact R0. destruct (L1 x y Hx Hy) as (w & G & ->). apply (clamp_res bh bv kh kv); assumption.
  - intros q Nq. rewrite SR, (rows0_ok _ _ _ (Z.of_nat bh)) by exact R0. apply L2. intros (x & y & Hx & Hy & ->). apply Nq. exists x, y. auto.
Qed.
