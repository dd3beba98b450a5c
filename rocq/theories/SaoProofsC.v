(** Band offset, the regions, and whole planes. *)
From Coq Require Import ZArith List Bool Lia.
From Verif Require Import CBase MemModel HdrModel MemProofs SaoModel SaoSpec SaoProofs SaoProofsB.
Import ListNotations.
Open Scope Z_scope.

Definition band_result (src : mem) (ps ss gdepth depth : Z) (off : Z -> Z) (x y : Z) : option Z :=
  let c := sample src ps ss x y in Some (saturate depth (c + off (Z.shiftr c (gdepth - 5)))).

Lemma bo_correct src pd ds ps ss w h gdepth depth off dst :
  0 <= w -> 0 <= h -> w <= ds -> 0 <= depth ->
  block_becomes w h pd ds dst (bo_block src pd ds ps ss w h gdepth depth off dst) (band_result src ps ss gdepth depth off).
Proof.
  intros W H D Dp. unfold bo_block. set (val := fun x y => saturate depth (sample src ps ss x y + off (Z.shiftr (sample src ps ss x y) (gdepth - 5)))).
  eapply wr_becomes with (val := val) (P := fun x y => true); [|reflexivity].
  apply (wr_ext w h pd ds dst val (fun x y => y <? h)).
  { intros x y X Y. apply Z.ltb_lt. lia. }
  apply (floop_inv (fun Y m => wr w h pd ds dst val (fun x y => y <? Y) m)); [lia|..].
  { eapply wr_ext; [|apply wr_none]. intros x y X Y. symmetry. apply Z.ltb_ge. lia. }
  intros Y m HY Hm. cbv zeta.
  apply (wr_ext w h pd ds dst val (rowP (fun x y => y <? Y) Y 0 w)).
  { intros x y X Y0. unfold rowP. destruct (Z.ltb_spec y Y), (Z.eqb_spec y Y), (Z.leb_spec 0 x), (Z.ltb_spec x w), (Z.ltb_spec y (Y + 1)); cbn; try reflexivity; lia. }
  apply (floop_inv (fun X m => wr w h pd ds dst val (rowP (fun x y => y <? Y) Y 0 X) m)); [lia|..].
  { apply wr_row_start; assumption. }
  intros X m' HX Hm'. apply wr_row_step; try assumption; try lia.
  rewrite clip_to_sat by exact Dp. reflexivity.
Qed.

(** ** Regions. *)
Lemma shr1 x : Z.shiftr x 1 = x / 2.
Proof. rewrite Z.shiftr_div_pow2 by lia. reflexivity. Qed.
Section Region.
  Variables (lv pw ph wl hl : Z) (cross : bool) (sl : Z -> Z -> Z).
  Hypothesis Sz : sizes_ok lv pw ph wl hl.
  Let L := 2 ^ lv.
  Definition rtop (lx ly : Z) : bool :=
    if cross then negb (ly =? 0) else if negb (ly =? 0) then sl (Z.shiftl lx (lv - 3)) (Z.shiftl ly (lv - 3)) =? sl (Z.shiftl lx (lv - 3)) (Z.shiftl ly (lv - 3) - 1) else false.
  Definition rdown (lx ly : Z) : bool := if ly <? hl - 1 then rtop lx (ly + 1) else false.

  Lemma L_cases : L = 16 \/ L = 32 \/ L = 64.
  Proof.
    unfold L. destruct Sz as (H & _). assert (lv = 4 \/ lv = 5 \/ lv = 6) as [E | [E | E]] by lia; rewrite E; cbn; lia.
  Qed.
  Definition x0 (k s : Z) (lx : Z) : Z := lx * (L / k) - (if lx =? 0 then 0 else s).
  Definition x1 (k s : Z) (lx : Z) : Z := if lx <? wl - 1 then (lx + 1) * (L / k) - s else pw / k.
  Definition y0 (k s : Z) (lx ly : Z) : Z := ly * (L / k) - (if rtop lx ly then s else 0).
  Definition y1 (k s : Z) (lx ly : Z) : Z := if ly <? hl - 1 then y0 k s lx (ly + 1) else ph / k.

  Lemma region_eq lx ly : 0 <= lx < wl -> 0 <= ly < hl ->
    sao_region lv pw ph wl hl true cross sl lx ly =
    Region (x0 1 4 lx) (y0 1 4 lx ly) (x1 1 4 lx - x0 1 4 lx) (y1 1 4 lx ly - y0 1 4 lx ly)
           (x0 2 4 lx) (y0 2 4 lx ly) (x1 2 4 lx - x0 2 4 lx) (y1 2 4 lx ly - y0 2 4 lx ly)
    (Avail (rtop lx ly) (rdown lx ly) (negb (lx =? 0)) (lx <? wl - 1)
      (rtop lx ly && negb (lx =? 0)) (rtop lx ly && (lx <? wl - 1)) (rdown lx ly && negb (lx =? 0)) (rdown lx ly && (lx <? wl - 1))).
  Proof.
    intros Hx Hy.
    assert (E : (if cross then ly <? hl - 1
                 else if ly <? hl - 1 then sl (Z.shiftl lx (lv - 3)) (Z.shiftl ly (lv - 3) + Z.shiftl 1 (lv - 3)) =? sl (Z.shiftl lx (lv - 3)) (Z.shiftl ly (lv - 3) + Z.shiftl 1 (lv - 3) - 1) else false)
                = rdown lx ly).
    { unfold rdown, rtop. replace (negb (ly + 1 =? 0)) with true by (symmetry; apply negb_true_iff, Z.eqb_neq; lia).
      destruct cross; [destruct (ly <? hl - 1); reflexivity|]. destruct (ly <? hl - 1); [|reflexivity].
      rewrite !Z.shiftl_mul_pow2 by (destruct Sz; lia).
      replace ((ly + 1) * 2 ^ (lv - 3)) with (ly * 2 ^ (lv - 3) + 1 * 2 ^ (lv - 3)) by lia. reflexivity. }
    unfold sao_region. cbv zeta. rewrite E. fold (rtop lx ly). unfold SHIFT_PIX.
    assert (Ed : rdown lx ly = true -> ly < hl - 1).
    { unfold rdown. destruct (Z.ltb_spec ly (hl - 1)); [auto|discriminate]. }
    assert (Et : rtop lx ly = true -> ly <> 0).
    { unfold rtop. destruct (Z.eqb_spec ly 0); [destruct cross; discriminate|auto]. }
    destruct Sz as (S1 & S2 & S3 & S4 & S5 & (S6 & S6') & S7 & S7').
    rewrite !Z.shiftl_mul_pow2 by lia. rewrite !shr1. fold L in S6, S6', S7, S7'.
    fold L. rewrite !Z.mul_1_l.
    assert (Y1 : forall k, y1 k 4 lx ly = if rdown lx ly then (ly + 1) * (L / k) - 4 else if ly <? hl - 1 then (ly + 1) * (L / k) else ph / k).
    { intros k. unfold y1, y0, rdown. destruct (ly <? hl - 1); [|reflexivity]. destruct (rtop lx (ly + 1)); lia. }
    rewrite !Y1. clear Y1.
    unfold x0, x1, y0. rewrite !Z.div_1_r.
    pose proof L_cases as LC. clear E. clearbody L.
    destruct (Z.eqb_spec lx 0) as [Elx|Elx]; cbn [negb];
      destruct (rtop lx ly); destruct (rdown lx ly);
      destruct (Z.ltb_spec lx (wl - 1)); destruct (Z.ltb_spec ly (hl - 1)); try (specialize (Ed eq_refl); lia); try (specialize (Et eq_refl));
      cbn [negb andb]; destruct LC as [El | [El | El]]; rewrite El in *; change (16 / 2) with 8; change (32 / 2) with 16; change (64 / 2) with 32; f_equal; Z.div_mod_to_equations; lia.
  Qed.

  Lemma y_order k lx ly : k = 1 \/ k = 2 -> 0 <= ly < hl -> y0 k 4 lx ly + 2 <= y1 k 4 lx ly.
  Proof.
    intros K Hy. destruct Sz as (S1 & S2 & S3 & S4 & S5 & (S6 & S6') & S7 & S7'). fold L in S6, S6', S7, S7'.
    unfold y1, y0. pose proof L_cases as LC. clearbody L.
    assert (0 <= (if rtop lx ly then 4 else 0)) by (destruct (rtop lx ly); lia).
    assert ((if rtop lx (ly + 1) then 4 else 0) <= 4) by (destruct (rtop lx (ly + 1)); lia).
    set (a := if rtop lx ly then 4 else 0) in *. set (b := if rtop lx (ly + 1) then 4 else 0) in *. clearbody a b.
    destruct (Z.ltb_spec ly (hl - 1)); destruct K as [-> | ->]; rewrite ?Z.div_1_r;
      destruct LC as [El | [El | El]]; rewrite El in *; try change (16 / 2) with 8; try change (32 / 2) with 16; try change (64 / 2) with 32;
      Z.div_mod_to_equations; lia.
  Qed.
  Lemma x_order k lx : k = 1 \/ k = 2 -> 0 <= lx < wl -> x0 k 4 lx + 2 <= x1 k 4 lx.
  Proof.
    intros K Hy. destruct Sz as (S1 & S2 & S3 & S4 & S5 & (S6 & S6') & S7 & S7'). fold L in S6, S6', S7, S7'.
    unfold x1, x0. pose proof L_cases as LC. clearbody L.
    assert (0 <= (if lx =? 0 then 0 else 4)) by (destruct (lx =? 0); lia).
    set (a := if lx =? 0 then 0 else 4) in *. clearbody a.
    destruct (Z.ltb_spec lx (wl - 1)); destruct K as [-> | ->]; rewrite ?Z.div_1_r;
      destruct LC as [El | [El | El]]; rewrite El in *; try change (16 / 2) with 8; try change (32 / 2) with 16; try change (64 / 2) with 32;
      Z.div_mod_to_equations; lia.
  Qed.
  Lemma grid_pos : 1 <= wl /\ 1 <= hl.
  Proof.
    destruct Sz as (S1 & S2 & S3 & S4 & S5 & (S6 & S6') & S7 & S7'). fold L in S6, S6', S7, S7'. pose proof L_cases. nia.
  Qed.
End Region.

(** ** Intervals. *)
Section Cut.
  Variables (n N : Z) (b : Z -> Z).
  Hypothesis n1 : 1 <= n.
  Hypothesis b0 : b 0 = 0.
  Hypothesis bn : b n = N.
  Hypothesis step : forall i, 0 <= i < n -> b i < b (i + 1).
  Lemma cut_mono i j : 0 <= i -> i <= j -> j <= n -> b i <= b j.
  Proof.
    intros Hi Hij Hj. replace j with (i + Z.of_nat (Z.to_nat (j - i))) in * by lia.
    induction (Z.to_nat (j - i)) as [|k IH]; [rewrite Z.add_0_r; lia|].
    rewrite Nat2Z.inj_succ in *. specialize (IH ltac:(lia) ltac:(lia)). pose proof (step (i + Z.of_nat k) ltac:(lia)) as E.
    replace (i + Z.of_nat k + 1) with (i + Z.succ (Z.of_nat k)) in E by lia. lia.
  Qed.
  Lemma cut_find x : 0 <= x < N -> exists i, 0 <= i < n /\ b i <= x < b (i + 1).
  Proof.
    intros Hx.
    assert (G : forall k : nat, Z.of_nat k <= n -> x < b (Z.of_nat k) -> exists i, 0 <= i < n /\ b i <= x < b (i + 1)).
    { induction k as [|k IH]; intros Hk Hb; [cbn in Hb; lia|].
      destruct (Z.lt_ge_cases x (b (Z.of_nat k))) as [Lt|Ge]; [apply IH; [lia|exact Lt]|].
      exists (Z.of_nat k). rewrite Nat2Z.inj_succ in *. unfold Z.succ in *. split; lia. }
    apply (G (Z.to_nat n)); rewrite Z2Nat.id by lia; [lia|]. rewrite bn. lia.
  Qed.
  Lemma cut_unique x i j : 0 <= i < n -> 0 <= j < n -> b i <= x < b (i + 1) -> b j <= x < b (j + 1) -> i = j.
  Proof.
    intros Hi Hj A B. destruct (Z.lt_trichotomy i j) as [C | [C | C]]; [|exact C|].
    - pose proof (cut_mono (i + 1) j ltac:(lia) ltac:(lia) ltac:(lia)). lia.
    - pose proof (cut_mono (j + 1) i ltac:(lia) ltac:(lia) ltac:(lia)). lia.
  Qed.
  Lemma cut_bounds i x : 0 <= i < n -> b i <= x < b (i + 1) -> 0 <= x < N.
  Proof.
    intros Hi A. pose proof (cut_mono 0 i ltac:(lia) ltac:(lia) ltac:(lia)). pose proof (cut_mono (i + 1) n ltac:(lia) ltac:(lia) ltac:(lia)). lia.
  Qed.
End Cut.

Lemma tiles_regions lv pw ph wl hl cross sl k : sizes_ok lv pw ph wl hl -> k = 1 \/ k = 2 ->
  tiles wl hl (pw / k) (ph / k) (fun lx ly x y => x0 lv k 4 lx <= x < x1 lv pw wl k 4 lx /\ y0 lv cross sl k 4 lx ly <= y < y1 lv ph hl cross sl k 4 lx ly).
Proof.
  intros Sz K. destruct (grid_pos lv pw ph wl hl Sz) as [W1 H1].
  set (bx := fun i => if i <? wl then x0 lv k 4 i else pw / k).
  set (by_ := fun lx i => if i <? hl then y0 lv cross sl k 4 lx i else ph / k).
  assert (EX : forall lx, 0 <= lx < wl -> x0 lv k 4 lx = bx lx /\ x1 lv pw wl k 4 lx = bx (lx + 1)).
  { intros lx Hx. unfold bx, x1. replace (lx <? wl) with true by (symmetry; apply Z.ltb_lt; lia). split; [reflexivity|].
    destruct (Z.ltb_spec lx (wl - 1)), (Z.ltb_spec (lx + 1) wl); try lia.
    unfold x0. replace (lx + 1 =? 0) with false by (symmetry; apply Z.eqb_neq; lia). reflexivity. }
  assert (EY : forall lx ly, 0 <= ly < hl -> y0 lv cross sl k 4 lx ly = by_ lx ly /\ y1 lv ph hl cross sl k 4 lx ly = by_ lx (ly + 1)).
  { intros lx ly Hy. unfold by_, y1. replace (ly <? hl) with true by (symmetry; apply Z.ltb_lt; lia). split; [reflexivity|].
    destruct (Z.ltb_spec ly (hl - 1)), (Z.ltb_spec (ly + 1) hl); try lia; reflexivity. }
  assert (BX0 : bx 0 = 0). { unfold bx. replace (0 <? wl) with true by (symmetry; apply Z.ltb_lt; lia). reflexivity. }
  assert (BXn : bx wl = pw / k). { unfold bx. rewrite Z.ltb_irrefl. reflexivity. }
  assert (BXs : forall i, 0 <= i < wl -> bx i < bx (i + 1)).
  { intros i Hi. destruct (EX i Hi) as [<- <-]. pose proof (x_order lv pw ph wl hl sl Sz k i K Hi). lia. }
  assert (BY0 : forall lx, by_ lx 0 = 0).
  { intros lx. unfold by_. replace (0 <? hl) with true by (symmetry; apply Z.ltb_lt; lia). unfold y0, rtop. cbn. destruct cross; reflexivity. }
  assert (BYn : forall lx, by_ lx hl = ph / k). { intros lx. unfold by_. rewrite Z.ltb_irrefl. reflexivity. }
  assert (BYs : forall lx i, 0 <= i < hl -> by_ lx i < by_ lx (i + 1)).
  { intros lx i Hi. destruct (EY lx i Hi) as [<- <-]. pose proof (y_order lv pw ph wl hl cross sl Sz k lx i K Hi). lia. }
  split.
  - intros x y Hx Hy. destruct (cut_find wl _ bx W1 BX0 BXn x Hx) as (lx & Rx & Ix).
    destruct (cut_find hl _ (by_ lx) H1 (BY0 lx) (BYn lx) y Hy) as (ly & Ry & Iy).
    exists lx, ly. split; [exact Rx|]. split; [exact Ry|].
    destruct (EX lx Rx) as [-> ->]. destruct (EY lx ly Ry) as [-> ->]. split; [split; assumption|].
    intros lx' ly' Rx' Ry'. destruct (EX lx' Rx') as [-> ->]. destruct (EY lx' ly' Ry') as [-> ->]. intros [Ax Ay].
    assert (E : lx' = lx) by (apply (cut_unique wl bx BXs x); assumption). subst lx'. split; [reflexivity|].
    apply (cut_unique hl (by_ lx) (BYs lx) y); assumption.
  - intros lx ly x y Rx Ry. destruct (EX lx Rx) as [-> ->]. destruct (EY lx ly Ry) as [-> ->]. intros [Ax Ay]. split.
    + apply (cut_bounds wl _ bx BX0 BXn BXs lx); assumption.
    + apply (cut_bounds hl _ (by_ lx) (BY0 lx) (BYn lx) (BYs lx) ly); assumption.
Qed.

Lemma tiles_luma lv pw ph wl hl cross sl : sizes_ok lv pw ph wl hl ->
  tiles wl hl pw ph (fun lx ly => in_luma (sao_region lv pw ph wl hl true cross sl lx ly)).
Proof.
  intros Sz. pose proof (tiles_regions lv pw ph wl hl cross sl 1 Sz (or_introl eq_refl)) as [A B]. rewrite !Z.div_1_r in A, B.
  assert (E : forall lx ly x y, 0 <= lx < wl -> 0 <= ly < hl -> in_luma (sao_region lv pw ph wl hl true cross sl lx ly) x y <->
    (x0 lv 1 4 lx <= x < x1 lv pw wl 1 4 lx /\ y0 lv cross sl 1 4 lx ly <= y < y1 lv ph hl cross sl 1 4 lx ly)).
  { intros. rewrite (region_eq lv pw ph wl hl cross sl Sz lx ly) by assumption. unfold in_luma. cbn [g_x g_y g_w g_h]. lia. }
  split.
  - intros x y X Y. destruct (A x y X Y) as (lx & ly & Rx & Ry & I & U). exists lx, ly.
    split; [exact Rx|]. split; [exact Ry|]. split; [apply E; assumption|]. intros. apply U; try assumption. apply E; assumption.
  - intros lx ly x y Rx Ry I. apply (B lx ly x y Rx Ry). apply E; assumption.
Qed.
Lemma tiles_chroma lv pw ph wl hl cross sl : sizes_ok lv pw ph wl hl ->
  tiles wl hl (pw / 2) (ph / 2) (fun lx ly => in_chroma (sao_region lv pw ph wl hl true cross sl lx ly)).
Proof.
  intros Sz. pose proof (tiles_regions lv pw ph wl hl cross sl 2 Sz (or_intror eq_refl)) as [A B].
  assert (E : forall lx ly x y, 0 <= lx < wl -> 0 <= ly < hl -> in_chroma (sao_region lv pw ph wl hl true cross sl lx ly) x y <->
    (x0 lv 2 4 lx <= x < x1 lv pw wl 2 4 lx /\ y0 lv cross sl 2 4 lx ly <= y < y1 lv ph hl cross sl 2 4 lx ly)).
  { intros. rewrite (region_eq lv pw ph wl hl cross sl Sz lx ly) by assumption. unfold in_chroma. cbn [c_x c_y c_w c_h]. lia. }
  split.
  - intros x y X Y. destruct (A x y X Y) as (lx & ly & Rx & Ry & I & U). exists lx, ly.
    split; [exact Rx|]. split; [exact Ry|]. split; [apply E; assumption|]. intros. apply U; try assumption. apply E; assumption.
  - intros lx ly x y Rx Ry I. apply (B lx ly x y Rx Ry). apply E; assumption.
Qed.

(** A table that still holds the previous picture's numbers below the current row. *)
Lemma stale_gap : exists lv pw ph wl hl old new x y,
  sizes_ok lv pw ph wl hl /\ 0 <= x < pw /\ 0 <= y < ph /\
  forall lx ly, 0 <= lx < wl -> 0 <= ly < hl ->
    ~ in_luma (sao_region lv pw ph wl hl true false (seen old new lv ly) lx ly) x y.
Proof.
  exists 4, 16, 32, 1, 2, (fun _ _ => 0), (fun _ y => y / 2), 3, 13.
  split; [unfold sizes_ok; cbn; lia|]. split; [lia|]. split; [lia|].
  intros lx ly Hx Hy. assert (lx = 0) by lia. assert (ly = 0 \/ ly = 1) as [-> | ->] by lia; subst lx;
    intros [A B]; vm_compute in A, B; destruct A as [A1 A2], B as [B1 B2]; congruence || discriminate || (apply B1; reflexivity).
Qed.

Lemma region_fit lv pw ph wl hl cross sl lx ly : sizes_ok lv pw ph wl hl -> 0 <= lx < wl -> 0 <= ly < hl ->
  let r := sao_region lv pw ph wl hl true cross sl lx ly in
  2 <= g_w r /\ 2 <= g_h r /\ 2 <= c_w r /\ 2 <= c_h r /\ corners (g_av r).
Proof.
  intros Sz Hx Hy r. unfold r. rewrite (region_eq lv pw ph wl hl cross sl Sz lx ly Hx Hy). cbn [g_w g_h c_w c_h g_av].
  pose proof (x_order lv pw ph wl hl sl Sz 1 lx (or_introl eq_refl) Hx). pose proof (x_order lv pw ph wl hl sl Sz 2 lx (or_intror eq_refl) Hx).
  pose proof (y_order lv pw ph wl hl cross sl Sz 1 lx ly (or_introl eq_refl) Hy). pose proof (y_order lv pw ph wl hl cross sl Sz 2 lx ly (or_intror eq_refl) Hy).
  split; [lia|]. split; [lia|]. split; [lia|]. split; [lia|]. unfold corners. cbn. auto.
Qed.
