(** A symbolic evaluator for the machine of VtModel and its soundness. *)
From Coq Require Import ZArith List Bool Lia.
From Verif Require Import CBase MemModel VxModelBase VdModel ViModel VjModel VtModel VxProofs ViProofs.
Import ListNotations.
Open Scope Z_scope.

(** Finite maps by binary numbers. *)
Inductive trie (A : Type) := Lf | Nd (l : trie A) (x : option A) (r : trie A).
Arguments Lf {A}. Arguments Nd {A}.
Fixpoint tget {A} (p : positive) (t : trie A) {struct t} : option A :=
  match t with Lf => None | Nd l x r => match p with xH => x | xO q => tget q l | xI q => tget q r end end.
Fixpoint tset {A} (p : positive) (v : A) (t : trie A) : trie A :=
  match p, t with
  | xH, Lf => Nd Lf (Some v) Lf | xH, Nd l _ r => Nd l (Some v) r
  | xO q, Lf => Nd (tset q v Lf) None Lf | xO q, Nd l x r => Nd (tset q v l) x r
  | xI q, Lf => Nd Lf None (tset q v Lf) | xI q, Nd l x r => Nd l x (tset q v r) end.
Lemma tget_tset {A} p q (v : A) t : tget p (tset q v t) = if Pos.eqb p q then Some v else tget p t.
Proof.
  revert p t. induction q; intros [p|p|] [|l x r]; cbn [tset tget Pos.eqb]; try reflexivity; rewrite IHq; destruct (Pos.eqb p q); reflexivity.
Qed.
Definition key (z : Z) : positive := Z.to_pos (z + 1).
Lemma key_eqb a b : 0 <= a -> 0 <= b -> Pos.eqb (key a) (key b) = (a =? b).
Proof.
  intros A B. unfold key. destruct (Z.eqb_spec a b) as [->|N]; [apply Pos.eqb_refl|].
  apply Pos.eqb_neq. intros E. apply N. apply Z2Pos.inj in E; lia.
Qed.

(** Linear forms, words, double words, registers. *)
Definition lin := list (Z * Z).
Inductive wsym := K (z : Z) | V (id : Z) | Wadd (a b : wsym) | Wmin (a b : wsym) | Wmax (a b : wsym) | Wsra (a : wsym) (n : Z).
Inductive dsym := L (f : lin) | Sh (f : lin) (i : imm).
(** [U]: not known (a variable that has not been assigned, or computed from one). *)
Inductive areg := W (l : list wsym) | D (l : list dsym) | Cc (z : Z) (n : nat) | U.
Definition ONE : Z := 12289.

Fixpoint ladd (a : lin) : lin -> lin :=
  match a with
  | [] => fun b => b
  | (i, x) :: a' =>
      fix go (b : lin) : lin :=
        match b with
        | [] => (i, x) :: a'
        | (j, y) :: b' => if i <? j then (i, x) :: ladd a' b else if j <? i then (j, y) :: go b'
                          else if x + y =? 0 then ladd a' b' else (i, x + y) :: ladd a' b' end end.
Definition lscale (k : Z) (f : lin) : lin := if k =? 0 then [] else map (fun p => (fst p, k * snd p)) f.
Definition wlin (w : wsym) : option lin := match w with K z => Some (if z =? 0 then [] else [(ONE, z)]) | V id => Some [(id, 1)] | _ => None end.
Definition wmul (a b : wsym) : option lin :=
  match a, b with
  | K x, _ => match wlin b with Some f => Some (lscale x f) | None => None end
  | _, K y => match wlin a with Some f => Some (lscale y f) | None => None end
  | _, _ => None end.
Definition norm1 (f : lin) : Z := fold_right (fun p s => Z.abs (snd p) + s) 0 f.

Definition words (a : areg) : option (list wsym) :=
  match a with
  | W l => Some l
  | D _ | U => None
  | Cc z n => Some (flat_map (fun _ => [K (to_i16 z); K (to_i16 (z / 65536))]) (seq 0 (n / 2))) end.
Definition dwords (a : areg) : option (list dsym) :=
  match a with
  | W _ | U => None
  | D l => Some l
  | Cc z n => Some (map (fun _ => L (if z =? 0 then [] else [(ONE, z)])) (seq 0 (n / 2))) end.

Fixpoint map2 {A B C} (f : A -> B -> option C) (a : list A) (b : list B) : option (list C) :=
  match a, b with
  | [], [] => Some []
  | x :: a', y :: b' => match f x y, map2 f a' b' with Some z, Some l => Some (z :: l) | _, _ => None end
  | _, _ => None end.
Fixpoint omap {A C} (f : A -> option C) (a : list A) : option (list C) :=
  match a with [] => Some [] | x :: a' => match f x, omap f a' with Some z, Some l => Some (z :: l) | _, _ => None end end.
Fixpoint maddl (a b : list wsym) : option (list dsym) :=
  match a, b with
  | [], [] => Some []
  | x :: x' :: a', y :: y' :: b' =>
      match wmul x y, wmul x' y', maddl a' b' with Some f, Some g, Some l => Some (L (ladd f g) :: l) | _, _, _ => None end
  | _, _ => None end.
Definition dadd (sg : Z) (a b : dsym) : option dsym := match a, b with L f, L g => Some (L (ladd f (lscale sg g))) | _, _ => None end.
(** The words of a result: from which operand and which word. *)
Definition unpick (lo : bool) (wd : nat) : list (bool * nat) :=
  flat_map (fun h => flat_map (fun g =>
    let at_ := (8 * h + wd * g + if lo then 0 else 4)%nat in
    map (fun i => (true, (at_ + i)%nat)) (seq 0 wd) ++ map (fun i => (false, (at_ + i)%nat)) (seq 0 wd)) (seq 0 (4 / wd))) (seq 0 2).
Definition halfpick (hi : nat) : list (bool * nat) := map (fun i => (true, (8 * hi + i)%nat)) (seq 0 8) ++ map (fun i => (false, (8 * hi + i)%nat)) (seq 0 8).
Definition picks (o : bop) : option (list (bool * nat)) :=
  match o with
  | Lo16 => Some (unpick true 1) | Hi16 => Some (unpick false 1) | Lo32 => Some (unpick true 2) | Hi32 => Some (unpick false 2)
  | Lo64 => Some (unpick true 4) | Hi64 => Some (unpick false 4) | P20 => Some (halfpick 0) | P31 => Some (halfpick 1) | _ => None end.
Definition dpicks (o : bop) : list (bool * nat) :=
  match o with
  | P20 => map (fun i => (true, i)) (seq 0 4) ++ map (fun i => (false, i)) (seq 0 4)
  | P31 => map (fun i => (true, i)) (seq 4 4) ++ map (fun i => (false, i)) (seq 4 4)
  | _ => [] end.
Definition pick {A} (ps : list (bool * nat)) (a b : list A) : option (list A) :=
  omap (fun p : bool * nat => let (s, k) := p in nth_error (if s then a else b) k) ps.

(** Shifts by a number that is not negative. *)
Definition shok (j : imm) : bool := match j with I n => 0 <=? n | Q id => id =? SH2 | X _ => false end.
Definition is_perm (o : bop) : bool := match o with P20 | P31 => true | _ => false end.

Section Eval.
  (** The name of the value [sat (f >> i)]. *)
  Variable rec : lin -> imm -> option Z.
  Definition packd (d : dsym) : option wsym :=
    match d with Sh f i => match rec f i with Some id => Some (V id) | None => None end | L [] => Some (K 0) | L _ => None end.
  Definition packl (a b : list dsym) : option (list wsym) :=
    let lane k := omap packd (firstn 4 (skipn k a) ++ firstn 4 (skipn k b)) in
    if (length a =? length b)%nat then
      if (length a =? 4)%nat then lane 0%nat
      else if (length a =? 8)%nat then match lane 0%nat, lane 4%nat with Some l, Some h => Some (l ++ h) | _, _ => None end
      else None
    else None.
  Record sst := Sst { s_reg : trie areg; s_int : trie imm; s_log : list (Z * Z * list wsym) }.
  Definition simm (s : sst) (i : imm) : option imm :=
    match i with X k => if 0 <=? k then tget (key k) (s_int s) else None | _ => Some i end.
  Definition in16 (z : Z) : bool := (-32768 <=? z) && (z <=? 32767).
  Definition ldw (k : Z) (n : nat) : option (list wsym) :=
    if (0 <=? k) && (k + Z.of_nat n <=? 4096) then Some (map (fun i => V (k + Z.of_nat i)) (seq 0 n)) else None.
  Fixpoint sev (s : sst) (e : ex) : option areg :=
    match e with
    | R r => if 0 <=? r then match tget (key r) (s_reg s) with Some a => Some a | None => Some U end else None
    | Ld w k => match s_log s with [] => match ldw k (Z.to_nat w) with Some l => Some (W l) | None => None end | _ => None end
    | Ld2 hi lo => match s_log s with [] => match ldw lo 8, ldw hi 8 with Some l, Some h => Some (W (l ++ h)) | _, _ => None end | _ => None end
    | Cst l => if forallb in16 l then Some (W (map K l)) else None
    | S32 w i => match simm s i with
                 | Some (I z) => if (-2147483648 <=? z) && (z <=? 2147483647) then Some (Cc z w) else None
                 | Some (Q id) => if 12290 <=? id then Some (D (map (fun _ => L [(id, 1)]) (seq 0 (w / 2)))) else None
                 | _ => None end
    | S16 w i => match simm s i with
                 | Some (I z) => if in16 z then Some (W (map (fun _ => K z) (seq 0 w))) else None
                 | Some (Q id) => if 12290 <=? id then Some (W (map (fun _ => V id) (seq 0 w))) else None
                 | _ => None end
    | B o a b =>
        match sev s a, sev s b with
        | Some U, Some _ | Some _, Some U => Some U
        | Some x, Some y =>
            match o with
            | Add32 | Sub32 =>
                match dwords x, dwords y with
                | Some p, Some q => match map2 (dadd (match o with Sub32 => -1 | _ => 1 end)) p q with Some l => Some (D l) | None => None end
                | _, _ => None end
            | Packs32 =>
                match dwords x, dwords y with
                | Some p, Some q => match packl p q with Some l => Some (W l) | None => None end
                | _, _ => None end
            | _ =>
                match words x, words y with
                | None, None =>
                    match dwords x, dwords y with
                    | Some p, Some q =>
                        if is_perm o && (length p =? 8)%nat && (length q =? 8)%nat then match pick (dpicks o) p q with Some l => Some (D l) | None => None end else None
                    | _, _ => None end
                | Some p, Some q =>
                    match o with
                    | Madd => match maddl p q with Some l => Some (D l) | None => None end
                    | Add16 => match map2 (fun x y => Some (Wadd x y)) p q with Some l => Some (W l) | None => None end
                    | Min16 => match map2 (fun x y => Some (Wmin x y)) p q with Some l => Some (W l) | None => None end
                    | Max16 => match map2 (fun x y => Some (Wmax x y)) p q with Some l => Some (W l) | None => None end
                    | _ =>
                        match picks o with
                        | Some ps =>
                            if (length p =? length q)%nat then
                              match pick (if is_perm o then ps else firstn (length p) ps) p q with Some l => Some (W l) | None => None end
                            else None
                        | None => None end end
                | _, _ => None end end
        | _, _ => None end
    | Sra16 a i =>
        match sev s a, simm s i with
        | Some U, Some (I n) => Some U
        | Some x, Some (I n) => if 0 <=? n then match words x with Some l => Some (W (map (fun w => Wsra w n) l)) | None => None end else None
        | _, _ => None end
    | Sra32 a i =>
        match sev s a, simm s i with
        | Some x, Some j =>
            match dwords x with
            | Some l => match omap (fun d => match d with L f => if (norm1 f <=? 65535) && shok j then Some (Sh f j) else None | Sh _ _ => None end) l with
                        | Some r => Some (D r) | None => None end
            | None => None end
        | _, _ => None end
    end.
  Definition sexec1 (os : option sst) (c : ins) : option sst :=
    match os with
    | None => None
    | Some s =>
        match c with
        | Set_ r e => if 0 <=? r then match sev s e with Some v => Some (Sst (tset (key r) v (s_reg s)) (s_int s) (s_log s)) | None => None end else None
        | SetI k i => if 0 <=? k then match simm s i with Some j => Some (Sst (s_reg s) (tset (key k) j (s_int s)) (s_log s)) | None => None end else None
        | St w from row col e =>
            if (0 <=? w) && (0 <=? from) then
              match sev s e with
              | Some v => match words v with
                          | Some l => let ws := firstn (Z.to_nat w) (skipn (Z.to_nat from) l) in
                                      if (length ws =? Z.to_nat w)%nat then Some (Sst (s_reg s) (s_int s) ((row, col, ws) :: s_log s)) else None
                          | None => None end
              | None => None end
            else None end end.
  Definition srun (p : list ins) : option (list (Z * Z * list wsym)) :=
    match fold_left sexec1 p (Some (Sst Lf Lf [])) with Some s => Some (s_log s) | None => None end.
End Eval.

(** Meaning. *)
Definition leval (v : Z -> Z) (f : lin) : Z := fold_right (fun p s => snd p * v (fst p) + s) 0 f.
Fixpoint weval (v : Z -> Z) (w : wsym) : Z :=
  match w with
  | K z => z | V id => v id
  | Wadd a b => to_i16 (weval v a + weval v b)
  | Wmin a b => Z.min (weval v a) (weval v b)
  | Wmax a b => Z.max (weval v a) (weval v b)
  | Wsra a n => Z.shiftr (weval v a) n end.
Lemma leval_cons v i x f : leval v ((i, x) :: f) = x * v i + leval v f.
Proof. reflexivity. Qed.
Lemma leval_add v a b : leval v (ladd a b) = leval v a + leval v b.
Proof.
  revert b. induction a as [|[i x] a IH]; intros b; [reflexivity|].
  induction b as [|[j y] b IHb]; [cbn [ladd]; cbn; lia|].
  cbn [ladd]. destruct (Z.ltb_spec i j); [rewrite !leval_cons, IH, leval_cons; lia|].
  destruct (Z.ltb_spec j i).
  - rewrite !leval_cons. cbn [ladd] in IHb. rewrite IHb. rewrite leval_cons. lia.
  - assert (i = j) by lia. subst j. destruct (Z.eqb_spec (x + y) 0); rewrite ?leval_cons, IH; [replace y with (- x) by lia|]; lia.
Qed.
Lemma leval_scale v k f : leval v (lscale k f) = k * leval v f.
Proof.
  unfold lscale. destruct (Z.eqb_spec k 0) as [->|_]; [reflexivity|].
  induction f as [|[i x] f IH]; [cbn; lia|]. cbn [map]. rewrite !leval_cons, IH. cbn [fst snd]. lia.
Qed.
Lemma leval_bound v f : (forall id, -32768 <= v id <= 32767) -> Z.abs (leval v f) <= 32768 * norm1 f.
Proof.
  intros Hv. induction f as [|[i x] f IH]; [cbn; lia|]. rewrite leval_cons. cbn [norm1 fold_right snd]. fold (norm1 f).
  specialize (Hv i). assert (Z.abs (x * v i) <= 32768 * Z.abs x) by (rewrite Z.abs_mul, (Z.mul_comm 32768); apply Z.mul_le_mono_nonneg_l; lia). lia.
Qed.
Lemma to_i32_add a b : to_i32 (to_i32 a + to_i32 b) = to_i32 (a + b).
Proof.
  unfold to_i32. f_equal. replace ((a + 2147483648) mod 4294967296 - 2147483648 + ((b + 2147483648) mod 4294967296 - 2147483648) + 2147483648)
    with ((a + 2147483648) mod 4294967296 + ((b + 2147483648) mod 4294967296 - 2147483648)) by lia.
  rewrite Zplus_mod_idemp_l. replace (a + 2147483648 + ((b + 2147483648) mod 4294967296 - 2147483648)) with ((b + 2147483648) mod 4294967296 + a) by lia.
  rewrite Zplus_mod_idemp_l. f_equal. lia.
Qed.
Lemma to_i32_sub a b : to_i32 (to_i32 a - to_i32 b) = to_i32 (a - b).
Proof.
  unfold to_i32. f_equal. replace ((a + 2147483648) mod 4294967296 - 2147483648 - ((b + 2147483648) mod 4294967296 - 2147483648) + 2147483648)
    with ((a + 2147483648) mod 4294967296 + (2147483648 - (b + 2147483648) mod 4294967296)) by lia.
  rewrite Zplus_mod_idemp_l. replace (a + 2147483648 + (2147483648 - (b + 2147483648) mod 4294967296)) with (a + 4294967296 - (b + 2147483648) mod 4294967296) by lia.
  rewrite Zminus_mod_idemp_r. rewrite <- (Z_mod_plus_full (a - b + 2147483648) 0 4294967296). f_equal. lia.
Qed.

(** Words of the instructions that move words. *)
Lemma i16_pick o ps i s k a b : picks o = Some ps -> nth_error ps i = Some (s, k) ->
  i16_of (bop_sem o a b) (Z.of_nat i) = i16_of (if s : bool then a else b) (Z.of_nat k).
Proof.
  intros P N. destruct o; try discriminate; injection P as <-.
  all: do 16 (destruct i as [|i]; [cbv in N; injection N as <- <-; reflexivity|]); cbv in N; destruct i; discriminate.
Qed.
Lemma i32_dpick o i s k a b : nth_error (dpicks o) i = Some (s, k) ->
  i32_of (bop_sem o a b) (Z.of_nat i) = i32_of (if s : bool then a else b) (Z.of_nat k).
Proof.
  intros N. destruct o; try (destruct i; discriminate).
  all: do 8 (destruct i as [|i]; [cbv in N; injection N as <- <-; reflexivity|]); cbv in N; destruct i; discriminate.
Qed.
Lemma i16_set1_32 z i : i16_of (set1_epi32 z) i = if Z.even i then to_i16 z else to_i16 (z / 65536).
Proof.
  unfold set1_epi32, i16_of, u16_of. destruct (Z.even i) eqn:E.
  - apply Z.even_spec in E. destruct E as [j ->]. replace (2 * (2 * j)) with (4 * j + 0) by lia. rewrite <- Z.add_assoc. rewrite !mk32_at by lia.
    change (256 ^ 0) with 1. change (256 ^ (0 + 1)) with 256. rewrite Z.div_1_r. unfold to_u8. rewrite <- to_i16_u16.
    rewrite <- (to_i16_u16 z). f_equal. change 65536 with (256 * 256). rewrite (Z.rem_mul_r z) by lia.
    apply Z.mod_small. pose proof (Z.mod_pos_bound z 256). pose proof (Z.mod_pos_bound (z / 256) 256). lia.
  - assert (O : Z.odd i = true) by (rewrite <- Z.negb_even, E; reflexivity). apply Z.odd_spec in O. destruct O as [j ->].
    replace (2 * (2 * j + 1)) with (4 * j + 2) by lia. rewrite <- Z.add_assoc. rewrite !mk32_at by lia.
    change (2 + 1) with 3. change (256 ^ 2) with 65536. change (256 ^ 3) with (65536 * 256). rewrite <- Z.div_div by lia. unfold to_u8.
    rewrite <- (to_i16_u16 (z / 65536)). set (y := z / 65536). change 65536 with (256 * 256) at 1. rewrite (Z.rem_mul_r y) by lia. reflexivity.
Qed.
Lemma i16_loadw' m p i : i16_of (loadw m p) i = to_i16 (m (p + i)).
Proof. unfold loadw. rewrite i16_mk16. reflexivity. Qed.
Lemma i16_loadw2 m h l i : 0 <= i < 16 -> i16_of (loadw2 m h l) i = if i <? 8 then to_i16 (m (l + i)) else to_i16 (m (h + (i - 8))).
Proof.
  intros H. unfold loadw2, i16_of, u16_of, set_halves. destruct (Z.ltb_spec i 8).
  - destruct (Z.ltb_spec (2 * i) 16), (Z.ltb_spec (2 * i + 1) 16); try lia. exact (i16_loadw' m l i).
  - destruct (Z.ltb_spec (2 * i) 16), (Z.ltb_spec (2 * i + 1) 16); try lia. replace (2 * i - 16) with (2 * (i - 8)) by lia.
    replace (2 * i + 1 - 16) with (2 * (i - 8) + 1) by lia. exact (i16_loadw' m h (i - 8)).
Qed.
Lemma i32_sub a b i : i32_of (sub_epi32 a b) i = to_i32 (i32_of a i - i32_of b i).
Proof. unfold sub_epi32. rewrite i32_mk32. reflexivity. Qed.
Lemma i16_packs a b i : i16_of (packs_epi32 a b) i = sat_i16 (if i mod 8 <? 4 then i32_of a (4 * (i / 8) + i mod 8) else i32_of b (4 * (i / 8) + i mod 8 - 4)).
Proof. unfold packs_epi32. rewrite i16_mk16. cbv zeta. rewrite to_i16_id by (destruct (_ <? 4); apply sat_i16_range). destruct (_ <? 4); reflexivity. Qed.

(** Lists. *)
Lemma map2_nth {A B C} (f : A -> B -> option C) a b l : map2 f a b = Some l ->
  forall i z, nth_error l i = Some z -> exists x y, nth_error a i = Some x /\ nth_error b i = Some y /\ f x y = Some z.
Proof.
  revert b l. induction a as [|x a IH]; intros [|y b] l H; try discriminate; cbn in H.
  - injection H as <-. intros [|i] z N; discriminate.
  - destruct (f x y) eqn:F; [|discriminate]. destruct (map2 f a b) eqn:M; [|discriminate]. injection H as <-.
    intros [|i] z N; cbn in N; [injection N as <-; exists x, y; auto|]. exact (IH b l0 M i z N).
Qed.
Lemma omap_nth {A C} (f : A -> option C) a l : omap f a = Some l ->
  forall i z, nth_error l i = Some z -> exists x, nth_error a i = Some x /\ f x = Some z.
Proof.
  revert l. induction a as [|x a IH]; intros l H; cbn in H.
  - injection H as <-. intros [|i] z N; discriminate.
  - destruct (f x) eqn:F; [|discriminate]. destruct (omap f a) eqn:M; [|discriminate]. injection H as <-.
    intros [|i] z N; cbn in N; [injection N as <-; exists x; auto|]. exact (IH l0 eq_refl i z N).
Qed.
Lemma nth_error_const {A} (x : A) n : forall s i z, nth_error (map (fun _ => x) (seq s n)) i = Some z -> z = x.
Proof. induction n as [|n IH]; intros s [|i] z N; try discriminate; cbn in N; [injection N as <-; reflexivity|]. exact (IH _ i z N). Qed.
Lemma nth_error_pairs {A} (x y : A) n : forall s i z, nth_error (flat_map (fun _ => [x; y]) (seq s n)) i = Some z -> z = (if Nat.even i then x else y).
Proof.
  induction n as [|n IH]; intros s [|[|i]] z N; try discriminate; cbn in N; [injection N as <-; reflexivity..|]. exact (IH _ i z N).
Qed.
Lemma nth_error_seq_map {A} (f : nat -> A) n : forall s i z, nth_error (map f (seq s n)) i = Some z -> (i < n)%nat /\ z = f (s + i)%nat.
Proof.
  induction n as [|n IH]; intros s [|i] z N; try discriminate; cbn in N.
  - injection N as <-. split; [lia|f_equal; lia].
  - destruct (IH _ i z N) as [A1 A2]. split; [lia|]. rewrite A2. f_equal. lia.
Qed.
Lemma maddl_nth a b l : maddl a b = Some l -> forall i z, nth_error l i = Some z ->
  exists x x' y y' f g, nth_error a (2 * i) = Some x /\ nth_error a (2 * i + 1) = Some x' /\ nth_error b (2 * i) = Some y /\ nth_error b (2 * i + 1) = Some y' /\
    wmul x y = Some f /\ wmul x' y' = Some g /\ z = L (ladd f g).
Proof.
  assert (G : forall n a b l, (length a <= n)%nat -> maddl a b = Some l -> forall i z, nth_error l i = Some z ->
    exists x x' y y' f g, nth_error a (2 * i) = Some x /\ nth_error a (2 * i + 1) = Some x' /\ nth_error b (2 * i) = Some y /\ nth_error b (2 * i + 1) = Some y' /\
    wmul x y = Some f /\ wmul x' y' = Some g /\ z = L (ladd f g)).
  { clear. induction n as [|n IH]; intros a b l LN H i z N.
    - destruct a; [|cbn in LN; lia]. destruct b; [|discriminate]. injection H as <-. destruct i; discriminate.
    - destruct a as [|x [|x' a]]; destruct b as [|y [|y' b]]; try discriminate.
      + injection H as <-. destruct i; discriminate.
      + cbn [maddl] in H. destruct (wmul x y) eqn:F; [|discriminate]. destruct (wmul x' y') eqn:F'; [|discriminate].
        destruct (maddl a b) as [t|] eqn:M; [|discriminate]. injection H as <-. destruct i as [|i].
        * cbn in N. injection N as <-. exists x, x', y, y', l0, l1. repeat split; assumption.
        * destruct (IH a b t ltac:(cbn in LN; lia) M i z N) as (p & p' & q & q' & f & g & A1 & A2 & A3 & A4 & A5).
          exists p, p', q, q', f, g. replace (2 * S i)%nat with (S (S (2 * i))) by lia. replace (S (S (2 * i)) + 1)%nat with (S (S (2 * i + 1))) by lia.
          cbn [nth_error]. tauto. }
  exact (G (length a) a b l ltac:(lia)).
Qed.

Lemma even_of_nat i : Z.even (Z.of_nat i) = Nat.even i.
Proof. induction i as [|i IH]; [reflexivity|]. rewrite Nat2Z.inj_succ, Z.even_succ, <- Z.negb_even, IH, Nat.even_succ, <- Nat.negb_even. reflexivity. Qed.

Section Sound.
  Variables (rec : lin -> imm -> option Z) (v pv : Z -> Z) (src dst stride : Z) (m0 : mem).
  Definition ival (i : imm) : Z := match i with I z => z | Q id => pv id | X _ => 0 end.
  Hypothesis v16 : forall id, -32768 <= v id <= 32767.
  Hypothesis vone : v ONE = 1.
  Hypothesis vpar : forall id, 12290 <= id -> v id = pv id.
  Hypothesis vin : forall id, 0 <= id < 4096 -> v id = to_i16 (m0 (src + id)).
  Hypothesis sh2 : 0 <= pv SH2.
  Hypothesis rec_ok : forall f i id, rec f i = Some id -> v id = sat_i16 (Z.shiftr (leval v f) (ival i)).

  Definition dmean (d : dsym) (x : Z) : Prop := match d with L f => x = to_i32 (leval v f) | Sh f i => x = Z.shiftr (leval v f) (ival i) end.
  Definition wrepr (r : reg) (l : list wsym) : Prop := forall i w, nth_error l i = Some w -> i16_of r (Z.of_nat i) = weval v w.
  Definition drepr (r : reg) (l : list dsym) : Prop := forall i d, nth_error l i = Some d -> dmean d (i32_of r (Z.of_nat i)).
  Definition repr (r : reg) (a : areg) : Prop :=
    match a with W l => wrepr r l | D l => drepr r l | Cc z n => -2147483648 <= z <= 2147483647 /\ r = set1_epi32 z | U => True end.

  Lemma words_ok r a l : repr r a -> words a = Some l -> wrepr r l.
  Proof.
    destruct a as [k|k|z n|]; intros P Hw; try discriminate; injection Hw as <-; [exact P|].
    destruct P as [_ ->]. intros i w N. rewrite i16_set1_32. apply nth_error_pairs in N. subst w.
    rewrite even_of_nat. destruct (Nat.even i); reflexivity.
  Qed.
  Lemma dwords_ok r a l : repr r a -> dwords a = Some l -> drepr r l.
  Proof.
    destruct a as [k|k|z n|]; intros P Hw; try discriminate; injection Hw as <-; [exact P|].
    destruct P as [Hz ->]. intros i w N. apply nth_error_const in N. subst w. cbn [dmean]. rewrite i32_set1 by exact Hz.
    destruct (Z.eqb_spec z 0) as [->|_]; [reflexivity|]. rewrite leval_cons, vone. cbn [leval fold_right]. rewrite to_i32_id by lia. lia.
  Qed.
  Lemma wlin_ok w f : wlin w = Some f -> leval v f = weval v w.
  Proof.
    destruct w; try discriminate; intros Hw; injection Hw as <-; cbn [weval].
    - destruct (Z.eqb_spec z 0) as [->|_]; [reflexivity|]. rewrite leval_cons, vone. cbn [leval fold_right]. lia.
    - rewrite leval_cons. cbn [leval fold_right]. lia.
  Qed.
  Lemma wmul_ok a b f : wmul a b = Some f -> leval v f = weval v a * weval v b.
  Proof.
    unfold wmul. destruct a as [x|x| | | | ].
    - destruct (wlin b) eqn:E1; [|discriminate]. intros Hw. injection Hw as <-. rewrite leval_scale, (wlin_ok _ _ E1). reflexivity.
    - destruct b as [y|y| | | | ]; try discriminate. cbn [wlin]. intros Hw. injection Hw as <-. rewrite leval_scale, leval_cons. cbn [leval fold_right weval]. lia.
    - destruct b; try discriminate; cbn [wlin]; discriminate.
    - destruct b; try discriminate; cbn [wlin]; discriminate.
    - destruct b; try discriminate; cbn [wlin]; discriminate.
    - destruct b; try discriminate; cbn [wlin]; discriminate.
  Qed.

  Lemma madd_ok r s p q l : wrepr r p -> wrepr s q -> maddl p q = Some l -> drepr (madd_epi16 r s) l.
  Proof.
    intros P1 Q1 Hm i d N. destruct (maddl_nth p q l Hm i d N) as (x & x' & y & y' & f & g & A1 & A2 & A3 & A4 & A5 & A6 & ->).
    cbn [dmean]. rewrite i32_madd. pose proof (P1 _ _ A1) as B1. pose proof (P1 _ _ A2) as B2. pose proof (Q1 _ _ A3) as B3. pose proof (Q1 _ _ A4) as B4.
    rewrite Nat2Z.inj_mul in B1, B3. rewrite Nat2Z.inj_add, Nat2Z.inj_mul in B2, B4. change (Z.of_nat 2) with 2 in *. change (Z.of_nat 1) with 1 in *.
    rewrite B1, B2, B3, B4, leval_add, (wmul_ok _ _ _ A5), (wmul_ok _ _ _ A6). reflexivity.
  Qed.
  Lemma add32_ok r s p q l : drepr r p -> drepr s q -> map2 (dadd 1) p q = Some l -> drepr (add_epi32 r s) l.
  Proof.
    intros P1 Q1 Hm i d N. destruct (map2_nth _ _ _ _ Hm i d N) as (x & y & A1 & A2 & A3).
    pose proof (P1 _ _ A1) as B1. pose proof (Q1 _ _ A2) as B2. destruct x; [|discriminate]. destruct y; [|discriminate]. injection A3 as <-.
    cbn [dmean] in *. rewrite i32_add, B1, B2, leval_add, leval_scale, to_i32_add. f_equal. lia.
  Qed.
  Lemma sub32_ok r s p q l : drepr r p -> drepr s q -> map2 (dadd (-1)) p q = Some l -> drepr (sub_epi32 r s) l.
  Proof.
    intros P1 Q1 Hm i d N. destruct (map2_nth _ _ _ _ Hm i d N) as (x & y & A1 & A2 & A3).
    pose proof (P1 _ _ A1) as B1. pose proof (Q1 _ _ A2) as B2. destruct x; [|discriminate]. destruct y; [|discriminate]. injection A3 as <-.
    cbn [dmean] in *. rewrite i32_sub, B1, B2, leval_add, leval_scale, to_i32_sub. f_equal; lia.
  Qed.
  Lemma packd_ok d w x : packd rec d = Some w -> dmean d x -> sat_i16 x = weval v w.
  Proof.
    destruct d as [[|]|f i]; cbn [packd dmean]; try discriminate.
    - intros Hw ->. injection Hw as <-. reflexivity.
    - destruct (rec f i) eqn:E1; [|discriminate]. intros Hw ->. injection Hw as <-. cbn [weval]. symmetry. apply rec_ok, E1.
  Qed.
  Lemma lane_ok r s p q k l : drepr r p -> drepr s q -> omap (packd rec) (firstn 4 (skipn (4 * k) p) ++ firstn 4 (skipn (4 * k) q)) = Some l ->
    length (firstn 4 (skipn (4 * k) p)) = 4%nat ->
    forall i w, nth_error l i = Some w -> i16_of (packs_epi32 r s) (Z.of_nat (8 * k + i)) = weval v w.
  Proof.
    intros P1 Q1 Hm L4 i w N. destruct (omap_nth _ _ _ Hm i w N) as (d & A1 & A2).
    assert (I8 : (i < 8)%nat).
    { assert (i < length (firstn 4 (skipn (4 * k) p) ++ firstn 4 (skipn (4 * k) q)))%nat by (apply nth_error_Some; rewrite A1; discriminate).
      rewrite app_length, L4 in H. pose proof (firstn_le_length 4 (skipn (4 * k) q)). lia. }
    rewrite i16_packs. replace (Z.of_nat (8 * k + i) mod 8) with (Z.of_nat i) by (apply Z.mod_unique with (Z.of_nat k); lia).
    replace (Z.of_nat (8 * k + i) / 8) with (Z.of_nat k) by (apply Z.div_unique with (Z.of_nat i); lia).
    assert (NF : forall {A} (t : list A) j y, nth_error (firstn 4 (skipn (4 * k) t)) j = Some y -> nth_error t (4 * k + j) = Some y).
    { intros A t j y E1. assert (j < 4)%nat. { assert (j < length (firstn 4 (skipn (4 * k) t)))%nat by (apply nth_error_Some; rewrite E1; discriminate). pose proof (firstn_le_length 4 (skipn (4 * k) t)). lia. }
      assert (E2 : nth_error t (4 * k + j) = nth_error (skipn (4 * k) t) j).
      { clear. revert t. induction (4 * k)%nat as [|n IH]; intros t; [reflexivity|]. destruct t as [|x t]; [destruct j; reflexivity|]. exact (IH t). }
      rewrite E2, <- (firstn_skipn 4 (skipn (4 * k) t)). rewrite nth_error_app1; [exact E1|]. apply nth_error_Some. rewrite E1. discriminate. }
    destruct (Z.ltb_spec (Z.of_nat i) 4).
    - rewrite nth_error_app1 in A1 by lia. apply NF in A1. pose proof (P1 _ _ A1) as B1.
      replace (4 * Z.of_nat k + Z.of_nat i) with (Z.of_nat (4 * k + i)) by lia. exact (packd_ok d w _ A2 B1).
    - rewrite nth_error_app2 in A1 by lia. rewrite L4 in A1. apply NF in A1. pose proof (Q1 _ _ A1) as B1.
      replace (4 * Z.of_nat k + Z.of_nat i - 4) with (Z.of_nat (4 * k + (i - 4))) by lia. exact (packd_ok d w _ A2 B1).
  Qed.
  Lemma omap_length {A C} (f : A -> option C) a l : omap f a = Some l -> length l = length a.
  Proof. revert l. induction a as [|x a IH]; intros l Hm; cbn in Hm; [injection Hm as <-; reflexivity|]. destruct (f x), (omap f a); try discriminate. injection Hm as <-. cbn. f_equal. apply IH. reflexivity. Qed.
  Lemma pack_ok r s p q l : drepr r p -> drepr s q -> packl rec p q = Some l -> wrepr (packs_epi32 r s) l.
  Proof.
    intros P1 Q1. unfold packl. destruct (Nat.eqb_spec (length p) (length q)) as [LE|]; [|discriminate].
    destruct (Nat.eqb_spec (length p) 4) as [L4|_].
    - intros Hm i w N. refine (lane_ok r s p q 0 l P1 Q1 Hm _ i w N). change (4 * 0)%nat with 0%nat. rewrite skipn_O, firstn_length. lia.
    - destruct (Nat.eqb_spec (length p) 8) as [L8|]; [|discriminate].
      destruct (omap (packd rec) (firstn 4 (skipn 0 p) ++ firstn 4 (skipn 0 q))) as [l0|] eqn:M0; [|discriminate].
      destruct (omap (packd rec) (firstn 4 (skipn 4 p) ++ firstn 4 (skipn 4 q))) as [l1|] eqn:M1; [|discriminate].
      intros Hm. injection Hm as <-. intros i w N.
      assert (N0 : length l0 = 8%nat) by (rewrite (omap_length _ _ _ M0), app_length, !firstn_length, !skipn_length; lia).
      destruct (Nat.lt_ge_cases i 8).
      + rewrite nth_error_app1 in N by lia. refine (lane_ok r s p q 0 l0 P1 Q1 M0 _ i w N). change (4 * 0)%nat with 0%nat. rewrite skipn_O, firstn_length. lia.
      + rewrite nth_error_app2 in N by lia. rewrite N0 in N. replace i with (8 * 1 + (i - 8))%nat by lia.
        refine (lane_ok r s p q 1 l1 P1 Q1 M1 _ (i - 8) w N). rewrite firstn_length, skipn_length. lia.
  Qed.
  Lemma word2_ok (op : reg -> reg -> reg) (fw : wsym -> wsym -> wsym) :
    (forall r s i x y, i16_of r i = weval v x -> i16_of s i = weval v y -> i16_of (op r s) i = weval v (fw x y)) ->
    forall r s p q l, wrepr r p -> wrepr s q -> map2 (fun x y => Some (fw x y)) p q = Some l -> wrepr (op r s) l.
  Proof.
    intros Hop r s p q l P1 Q1 Hm i w N. destruct (map2_nth _ _ _ _ Hm i w N) as (x & y & A1 & A2 & A3). injection A3 as <-.
    apply Hop; [exact (P1 _ _ A1)|exact (Q1 _ _ A2)].
  Qed.
  Lemma pick_ok o ps qs r s p q l : picks o = Some ps -> (exists n, qs = firstn n ps) -> wrepr r p -> wrepr s q -> pick qs p q = Some l -> wrepr (bop_sem o r s) l.
  Proof.
    intros Hp [n ->] P1 Q1 Hm i w N. destruct (omap_nth _ _ _ Hm i w N) as ([t k] & A1 & A2).
    assert (A3 : nth_error ps i = Some (t, k)).
    { assert (i < length (firstn n ps))%nat by (apply nth_error_Some; rewrite A1; discriminate).
      rewrite <- (firstn_skipn n ps). rewrite nth_error_app1 by exact H. exact A1. }
    rewrite (i16_pick o ps i t k r s Hp A3). destruct t; [exact (P1 _ _ A2)|exact (Q1 _ _ A2)].
  Qed.
  Lemma dpick_ok o r s p q l : drepr r p -> drepr s q -> pick (dpicks o) p q = Some l -> drepr (bop_sem o r s) l.
  Proof.
    intros P1 Q1 Hm i w N. destruct (omap_nth _ _ _ Hm i w N) as ([t k] & A1 & A2).
    rewrite (i32_dpick o i t k r s A1). destruct t; [exact (P1 _ _ A2)|exact (Q1 _ _ A2)].
  Qed.
  Lemma shok_ok j : shok j = true -> 0 <= ival j.
  Proof. destruct j; cbn; intros Hs; try discriminate; [lia|]. apply Z.eqb_eq in Hs. subst id. exact sh2. Qed.
  Lemma sra32_ok r p l j : drepr r p ->
    omap (fun d => match d with L f => if (norm1 f <=? 65535) && shok j then Some (Sh f j) else None | Sh _ _ => None end) p = Some l ->
    drepr (srai_epi32 r (ival j)) l.
  Proof.
    intros P1 Hm i d N. destruct (omap_nth _ _ _ Hm i d N) as (x & A1 & A2). destruct x as [f|]; [|discriminate].
    destruct (norm1 f <=? 65535) eqn:B1; [|discriminate]. destruct (shok j) eqn:B2; [|discriminate]. injection A2 as <-. cbn [dmean].
    rewrite i32_srai by (apply shok_ok, B2). f_equal. pose proof (P1 _ _ A1) as B3. cbn [dmean] in B3. rewrite B3. apply to_i32_id.
    pose proof (leval_bound v f v16). lia.
  Qed.

  (** Memory after the stores, the last one first. *)
  Fixpoint log_mem (log : list (Z * Z * list wsym)) (q : Z) : Z :=
    match log with
    | [] => m0 q
    | (row, col, ws) :: t =>
        let a := dst + row * stride + col in
        if (a <=? q) && (q <? a + Z.of_nat (length ws)) then weval v (nth (Z.to_nat (q - a)) ws (K 0)) else log_mem t q end.
  Record ok (s : sst) (c : vst) : Prop := {
    ok_reg : forall r a, 0 <= r -> tget (key r) (s_reg s) = Some a -> repr (v_reg c r) a;
    ok_int : forall k j, 0 <= k -> tget (key k) (s_int s) = Some j -> v_int c k = ival j;
    ok_mem : forall q, v_mem c q = log_mem (s_log s) q }.
  Lemma simm_ok s c i j : ok s c -> simm s i = Some j -> imm_val pv (v_int c) i = ival j.
  Proof.
    intros O1. destruct i; cbn [simm imm_val]; [intros Hs; injection Hs as <-; reflexivity..|].
    destruct (Z.leb_spec 0 k); [|discriminate]. intros Hs. exact (ok_int s c O1 k j ltac:(lia) Hs).
  Qed.
  Lemma ldw_ok c k n l r : (forall q, v_mem c q = m0 q) -> ldw k n = Some l ->
    (forall i, 0 <= i < Z.of_nat n -> i16_of r i = to_i16 (v_mem c (src + k + i))) -> wrepr r l.
  Proof.
    intros Hm. unfold ldw. destruct (Z.leb_spec 0 k); [|discriminate]. destruct (Z.leb_spec (k + Z.of_nat n) 4096); [|discriminate].
    intros Hs Hr. injection Hs as <-. intros i w N. apply nth_error_seq_map in N. destruct N as [Hi ->]. rewrite Hr by lia. rewrite Hm. cbn [weval].
    change (0 + i)%nat with i. rewrite vin by lia. do 2 f_equal. lia.
  Qed.
  Lemma sev_ok s c e a : ok s c -> sev rec s e = Some a -> repr (ev pv src c e) a.
  Proof.
    intros O1. revert a. induction e as [r|w k|hi lo|l|w i|w i|o e1 IH1 e2 IH2|e IH i|e IH i]; intros a; cbn [sev ev].
    - destruct (Z.leb_spec 0 r); [|discriminate]. destruct (tget (key r) (s_reg s)) eqn:E1; intros Hs; injection Hs as <-; [|exact Logic.I].
      exact (ok_reg s c O1 r _ ltac:(lia) E1).
    - destruct (s_log s) as [|] eqn:E1; [|discriminate]. destruct (ldw k (Z.to_nat w)) eqn:E2; [|discriminate]. intros Hs. injection Hs as <-.
      apply (ldw_ok c k (Z.to_nat w)); [|exact E2|intros i Hi; apply i16_loadw'].
      intros q. rewrite (ok_mem s c O1 q), E1. reflexivity.
    - destruct (s_log s) as [|] eqn:E1; [|discriminate].
      destruct (ldw lo 8) as [l|] eqn:E2; [|discriminate]. destruct (ldw hi 8) as [h|] eqn:E3; [|discriminate]. intros Hs. injection Hs as <-.
      assert (Hm : forall q, v_mem c q = m0 q) by (intros q; rewrite (ok_mem s c O1 q), E1; reflexivity).
      assert (L8 : length l = 8%nat). { unfold ldw in E2. destruct (_ && _); [|discriminate]. injection E2 as <-. reflexivity. }
      assert (H8 : length h = 8%nat). { unfold ldw in E3. destruct (_ && _); [|discriminate]. injection E3 as <-. reflexivity. }
      intros i w N. destruct (Nat.lt_ge_cases i 8).
      + rewrite nth_error_app1 in N by lia. rewrite i16_loadw2 by lia. destruct (Z.ltb_spec (Z.of_nat i) 8); [|lia].
        rewrite <- (i16_loadw' (v_mem c) (src + lo)). apply (ldw_ok c lo 8 l _ Hm E2); [|exact N]. intros j Hj. apply i16_loadw'.
      + assert (i < 16)%nat. { assert (i < length (l ++ h))%nat by (apply nth_error_Some; rewrite N; discriminate). rewrite app_length in H0. lia. }
        rewrite nth_error_app2 in N by lia. rewrite L8 in N. rewrite i16_loadw2 by lia. destruct (Z.ltb_spec (Z.of_nat i) 8); [lia|].
        rewrite <- (i16_loadw' (v_mem c) (src + hi)). replace (Z.of_nat i - 8) with (Z.of_nat (i - 8)) by lia.
        apply (ldw_ok c hi 8 h _ Hm E3); [|exact N]. intros j Hj. apply i16_loadw'.
    - destruct (forallb in16 l) eqn:E1; [|discriminate]. intros Hs. injection Hs as <-. intros i w N. unfold setr_epi16. rewrite i16_mk16, Nat2Z.id.
      rewrite nth_error_map in N. destruct (nth_error l i) as [z|] eqn:E2; [|discriminate]. injection N as <-. cbn [weval].
      rewrite (nth_error_nth l i 0 E2). apply to_i16_id. apply nth_error_In in E2. rewrite forallb_forall in E1. specialize (E1 z E2). unfold in16 in E1. lia.
    - destruct (simm s i) as [j|] eqn:E1; [|discriminate]. rewrite (simm_ok s c i j O1 E1). destruct j as [z|id|k]; [| |discriminate].
      + destruct (_ && _) eqn:E2; [|discriminate]. intros Hs. injection Hs as <-. cbn [repr ival]. split; [lia|reflexivity].
      + destruct (Z.leb_spec 12290 id); [|discriminate]. intros Hs. injection Hs as <-. intros n d N. apply nth_error_const in N. subst d. cbn [dmean ival].
        pose proof (v16 id). rewrite leval_cons. cbn [leval fold_right]. rewrite <- (vpar id) by lia.
        rewrite i32_set1 by lia. rewrite to_i32_id by lia. lia.
    - destruct (simm s i) as [j|] eqn:E1; [|discriminate]. rewrite (simm_ok s c i j O1 E1). destruct j as [z|id|k]; [| |discriminate].
      + destruct (in16 z) eqn:E2; [|discriminate]. intros Hs. injection Hs as <-. intros n d N. apply nth_error_const in N. subst d. cbn [weval ival].
        apply i16_set1. unfold in16 in E2. lia.
      + destruct (Z.leb_spec 12290 id); [|discriminate]. intros Hs. injection Hs as <-. intros n d N. apply nth_error_const in N. subst d. cbn [weval ival].
        rewrite <- (vpar id) by lia. apply i16_set1, v16.
    - destruct (sev rec s e1) as [x|]; [|discriminate]. destruct (sev rec s e2) as [y|]; [|destruct x; discriminate].
      specialize (IH1 x eq_refl). specialize (IH2 y eq_refl). set (r1 := ev pv src c e1) in *. set (r2 := ev pv src c e2) in *. clearbody r1 r2.
      assert (UU : x = U \/ y = U \/ (x <> U /\ y <> U)) by (destruct x, y; auto; right; right; split; discriminate).
      destruct UU as [->|[->|[NX NY]]]; [intros Hs; injection Hs as <-; exact Logic.I|destruct x; intros Hs; injection Hs as <-; exact Logic.I|].
      intros Hs. set (body := match o with Add32 | Sub32 => _ | _ => _ end) in Hs. assert (Hb : body = Some a) by (destruct x, y; congruence). subst body. clear Hs NX NY.
      assert (DW : forall k, dwords x = Some k -> drepr r1 k) by (intros; eapply dwords_ok; eassumption).
      assert (DW2 : forall k, dwords y = Some k -> drepr r2 k) by (intros; eapply dwords_ok; eassumption).
      assert (WW : forall k, words x = Some k -> wrepr r1 k) by (intros; eapply words_ok; eassumption).
      assert (WW2 : forall k, words y = Some k -> wrepr r2 k) by (intros; eapply words_ok; eassumption).
      assert (PK : forall ps, picks o = Some ps ->
         match words x, words y with
         | None, None => match dwords x, dwords y with
                    | Some p, Some q =>
                        if is_perm o && (length p =? 8)%nat && (length q =? 8)%nat then match pick (dpicks o) p q with Some l => Some (D l) | None => None end else None
                    | _, _ => None end
         | Some p, Some q => if (length p =? length q)%nat then match pick (if is_perm o then ps else firstn (length p) ps) p q with Some l => Some (W l) | None => None end else None
         | _, _ => None end = Some a -> repr (bop_sem o r1 r2) a).
      { clear Hb. intros ps Hp. destruct (words x) as [p|] eqn:E1, (words y) as [q|] eqn:E2; try discriminate.
        - destruct (length p =? length q)%nat; [|discriminate]. destruct (pick _ p q) eqn:E3; [|discriminate]. intros Hs. injection Hs as <-.
          refine (pick_ok o ps _ r1 r2 p q l Hp _ (WW p eq_refl) (WW2 q eq_refl) E3). destruct (is_perm o); [exists (length ps); rewrite firstn_all; reflexivity|eexists; reflexivity].
        - destruct (dwords x) as [p|] eqn:E3, (dwords y) as [q|] eqn:E4; try discriminate. destruct (_ && _); [|discriminate].
          destruct (pick _ p q) eqn:E5; [|discriminate]. intros Hs. injection Hs as <-. exact (dpick_ok o r1 r2 p q l (DW p eq_refl) (DW2 q eq_refl) E5). }
      destruct o; try (exact (PK _ eq_refl Hb)); cbn [bop_sem]; clear PK.
      1-3,6: cbn [is_perm andb] in Hb; destruct (words x) as [p|] eqn:E1, (words y) as [q|] eqn:E2; try discriminate; try (match goal with Hq : words ?t = None, Ht : words ?u = None |- _ => destruct (dwords t), (dwords u); discriminate end).
      + destruct (map2 _ p q) as [lr|] eqn:E3; [|discriminate]. injection Hb as <-. refine (word2_ok add_epi16 Wadd _ r1 r2 p q lr (WW p eq_refl) (WW2 q eq_refl) E3).
        intros t u i x0 y0 B1 B2. rewrite i16_add, B1, B2. reflexivity.
      + destruct (map2 _ p q) as [lr|] eqn:E3; [|discriminate]. injection Hb as <-. refine (word2_ok min_epi16 Wmin _ r1 r2 p q lr (WW p eq_refl) (WW2 q eq_refl) E3).
        intros t u i x0 y0 B1 B2. rewrite i16_min, B1, B2. reflexivity.
      + destruct (map2 _ p q) as [lr|] eqn:E3; [|discriminate]. injection Hb as <-. refine (word2_ok max_epi16 Wmax _ r1 r2 p q lr (WW p eq_refl) (WW2 q eq_refl) E3).
        intros t u i x0 y0 B1 B2. rewrite i16_max, B1, B2. reflexivity.
      + destruct (maddl p q) as [lr|] eqn:E3; [|discriminate]. injection Hb as <-. exact (madd_ok r1 r2 p q lr (WW p eq_refl) (WW2 q eq_refl) E3).
      + destruct (dwords x) as [p|]; [|discriminate]. destruct (dwords y) as [q|]; [|discriminate]. destruct (map2 _ p q) as [lr|] eqn:E3; [|discriminate]. injection Hb as <-.
        exact (add32_ok r1 r2 p q lr (DW p eq_refl) (DW2 q eq_refl) E3).
      + destruct (dwords x) as [p|]; [|discriminate]. destruct (dwords y) as [q|]; [|discriminate]. destruct (map2 _ p q) as [lr|] eqn:E3; [|discriminate]. injection Hb as <-.
        exact (sub32_ok r1 r2 p q lr (DW p eq_refl) (DW2 q eq_refl) E3).
      + destruct (dwords x) as [p|]; [|discriminate]. destruct (dwords y) as [q|]; [|discriminate]. destruct (packl rec p q) as [lr|] eqn:E3; [|discriminate]. injection Hb as <-.
        exact (pack_ok r1 r2 p q lr (DW p eq_refl) (DW2 q eq_refl) E3).
    - destruct (sev rec s e) as [x|]; [|discriminate]. specialize (IH x eq_refl). destruct (simm s i) as [j|] eqn:E1; [|destruct x; discriminate].
      rewrite (simm_ok s c i j O1 E1). destruct j as [n|id|k]; [|destruct x; discriminate..]. cbn [ival].
      assert (UU : x = U \/ x <> U) by (destruct x; auto; right; discriminate). destruct UU as [->|NU]; [intros Hs; injection Hs as <-; exact Logic.I|].
      intros Hs. assert (Hb : (if 0 <=? n then match words x with Some l => Some (W (map (fun w => Wsra w n) l)) | None => None end else None) = Some a) by (destruct x; congruence).
      clear Hs. destruct (Z.leb_spec 0 n); [|discriminate]. destruct (words x) as [l|] eqn:E2; [|discriminate]. injection Hb as <-.
      pose proof (words_ok _ _ _ IH E2) as WR. intros k w N. rewrite nth_error_map in N. destruct (nth_error l k) as [w0|] eqn:E3; [|discriminate]. injection N as <-.
      rewrite i16_srai by lia. cbn [weval]. rewrite (WR _ _ E3). reflexivity.
    - destruct (sev rec s e) as [x|]; [|discriminate]. specialize (IH x eq_refl). destruct (simm s i) as [j|] eqn:E1; [|discriminate].
      rewrite (simm_ok s c i j O1 E1). destruct (dwords x) as [l|] eqn:E2; [|discriminate].
      destruct (omap _ l) as [r|] eqn:E3; [|discriminate]. intros Hs. injection Hs as <-. exact (sra32_ok _ l r j (dwords_ok _ _ _ IH E2) E3).
  Qed.
  Lemma sexec_ok s c p s' : ok s c -> sexec1 rec (Some s) p = Some s' -> ok s' (exec1 pv src dst stride c p).
  Proof.
    intros O1. destruct p as [r e|k i|w from row col e]; cbn [sexec1 exec1].
    - destruct (Z.leb_spec 0 r); [|discriminate]. destruct (sev rec s e) as [a|] eqn:E1; [|discriminate]. intros Hs. injection Hs as <-.
      split; cbn [s_reg s_int s_log v_reg v_int v_mem]; [|exact (ok_int s c O1)|exact (ok_mem s c O1)].
      intros r' a' Hr. rewrite tget_tset, key_eqb by lia. destruct (Z.eqb_spec r' r) as [->|N].
      + intros Hs. injection Hs as <-. exact (sev_ok s c e a O1 E1).
      + intros Hs. exact (ok_reg s c O1 r' a' Hr Hs).
    - destruct (Z.leb_spec 0 k); [|discriminate]. destruct (simm s i) as [j|] eqn:E1; [|discriminate]. intros Hs. injection Hs as <-.
      split; cbn [s_reg s_int s_log v_reg v_int v_mem]; [exact (ok_reg s c O1)| |exact (ok_mem s c O1)].
      intros k' j' Hk. rewrite tget_tset, key_eqb by lia. destruct (Z.eqb_spec k' k) as [->|N].
      + intros Hs. injection Hs as <-. exact (simm_ok s c i j O1 E1).
      + intros Hs. exact (ok_int s c O1 k' j' Hk Hs).
    - destruct (Z.leb_spec 0 w); [|discriminate]. destruct (Z.leb_spec 0 from); [|discriminate]. cbn [andb].
      destruct (sev rec s e) as [a|] eqn:E1; [|discriminate]. destruct (words a) as [l|] eqn:E2; [|discriminate].
      destruct (Nat.eqb_spec (length (firstn (Z.to_nat w) (skipn (Z.to_nat from) l))) (Z.to_nat w)) as [LE|]; [|discriminate].
      intros Hs. injection Hs as <-. split; cbn [s_reg s_int s_log v_reg v_int v_mem]; [exact (ok_reg s c O1)|exact (ok_int s c O1)|].
      intros q. cbn [log_mem]. unfold storew. rewrite LE. rewrite Z2Nat.id by lia. rewrite (ok_mem s c O1 q).
      set (b := dst + row * stride + col). destruct (Z.leb_spec b q); [|reflexivity]. destruct (Z.ltb_spec q (b + w)); [|reflexivity]. cbn [andb].
      pose proof (words_ok _ _ _ (sev_ok s c e a O1 E1) E2) as WR. set (r := ev pv src c e) in *. clearbody r.
      set (n := Z.to_nat (q - b)). assert (Hn : (n < length (firstn (Z.to_nat w) (skipn (Z.to_nat from) l)))%nat) by (rewrite LE; lia).
      destruct (nth_error (firstn (Z.to_nat w) (skipn (Z.to_nat from) l)) n) as [x|] eqn:E3; [|apply nth_error_None in E3; lia].
      rewrite (nth_error_nth _ _ (K 0) E3).
      assert (E4 : nth_error l (Z.to_nat from + n) = Some x).
      { assert (E5 : nth_error l (Z.to_nat from + n) = nth_error (skipn (Z.to_nat from) l) n).
        { clear. revert l. induction (Z.to_nat from) as [|k IH]; intros l; [reflexivity|]. destruct l as [|y l]; [destruct n; reflexivity|]. exact (IH l). }
        rewrite E5, <- (firstn_skipn (Z.to_nat w) (skipn (Z.to_nat from) l)). rewrite nth_error_app1 by lia. exact E3. }
      rewrite <- (WR _ _ E4). unfold i16_of, u16_of. subst n. do 2 f_equal; [f_equal; lia|f_equal; f_equal; lia].
  Qed.
  Lemma sexec_none p : fold_left (sexec1 rec) p None = None.
  Proof. induction p as [|x p IH]; [reflexivity|exact IH]. Qed.
  Lemma srun_ok p log regs ints : srun rec p = Some log -> forall q, run p pv src dst stride regs ints m0 q = log_mem log q.
  Proof.
    unfold srun, run. assert (O0 : ok (Sst Lf Lf []) (Vst regs ints m0)) by (split; [intros ? ? ? Hx; discriminate..|reflexivity]).
    revert O0. generalize (Sst Lf Lf []) as s, (Vst regs ints m0) as c. induction p as [|x p IH]; intros s c O0; cbn [fold_left].
    - intros Hs. injection Hs as <-. exact (ok_mem s c O0).
    - destruct (sexec1 rec (Some s) x) as [s'|] eqn:E1; [|rewrite sexec_none; discriminate]. apply IH. exact (sexec_ok s c x s' O0 E1).
  Qed.
End Sound.
