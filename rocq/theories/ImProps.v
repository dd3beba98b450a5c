(** Properties of intra prediction modes. *)
From Coq Require Import ZArith List Bool Lia.
From Verif Require Import CBase SynModel SynSpec SynProofsA MemModel ImModel ImSpec ImProofs ImProofsB.
Import ListNotations.
Open Scope Z_scope.

(** C50: luma. The first two codes are the most probable modes, the codes 0 to 30 number the
    remaining 31 modes in increasing order, and the one code left (31) gives mode 32. *)
Theorem C50_luma : forall top lf, 0 <= top <= 32 -> 0 <= lf <= 32 ->
  exists m0 m1 ms, is_mpm top lf m0 m1 /\ others m0 m1 ms /\ length ms = 31%nat /\
    luma_mode top lf (-2) = m0 /\ luma_mode top lf (-1) = m1 /\
    (forall code, 0 <= code <= 30 -> nth_error ms (Z.to_nat code) = Some (luma_mode top lf code)) /\
    luma_mode top lf 31 = 32.
Proof. exact luma_codes. Qed.
Print Assumptions C50_luma.
(** The reader gives nothing but the modes of these codes, whatever the stream. *)
Theorem C50_luma_read : forall top lf, 0 <= top <= 32 -> 0 <= lf <= 32 ->
  safe (read_luma_mode top lf) (fun v => exists code, -2 <= code <= 31 /\ v = luma_mode top lf code).
Proof. exact (read_luma_code False). Qed.
Print Assumptions C50_luma_read.
(** C50: chroma. The symbols correspond one to one to the different ways of predicting: four
    when the luma mode is one of them, five otherwise. *)
Theorem C50_chroma : forall luma, 0 <= luma <= 32 ->
  let n := if existsb (Z.eqb luma) [0; 24; 12; 2] then 4%nat else 5%nat in
  let real s := real_chroma luma (chroma_mode (nth (Z.to_nat luma) luma2chroma 0) (Z.of_nat s)) in
  NoDup (map real (seq 0 n)) /\ (forall m, In m (map real (seq 0 n)) <-> In m (chroma_choices luma)).
Proof. exact chroma_codes. Qed.
Print Assumptions C50_chroma.
Theorem C50_chroma_read : forall ctx luma, 0 <= ctx <= 1 -> 0 <= luma <= 32 ->
  safe (read_intra_pmode_c ctx luma) (fun v => exists s, 0 <= s <= 4 /\ v = chroma_mode (nth (Z.to_nat luma) luma2chroma 0) s).
Proof. exact (read_chroma_code False). Qed.
Print Assumptions C50_chroma_read.

(** C50: the modes taken for the neighbours. In a picture of [wu] by [hu] units, after any
    intra units and slice starts, the mode to the left is the mode of the unit that ends
    there and DC when there is none; the mode above likewise, and DC at the top of a slice. *)
Theorem C50_neighbours : forall st wu hu lv, st = wu + 16 -> 0 < wu -> 0 < hu -> 2 <= lv ->
  forall ops, events_ok wu hu (map (op_event lv) ops) ->
  forall g x y, 0 <= x < wu -> 0 <= y < hu -> slices_upto (map (op_event lv) ops) y ->
  (forall x1 y1 w1 h1 md, In (Unit x1 y1 w1 h1 md) ops -> on_right x1 y1 w1 h1 (x - 1) y -> mode_left st x y (mode_grid st lv hu ops g) = md) /\
  (~ covered (map (op_event lv) ops) (x - 1) y -> mode_left st x y (mode_grid st lv hu ops g) = 0) /\
  (forall x1 y1 w1 h1 md, slices_upto (map (op_event lv) ops) (y - 1) -> In (Unit x1 y1 w1 h1 md) ops -> on_bottom x1 y1 w1 h1 x (y - 1) ->
     mode_top st x y (mode_grid st lv hu ops g) = md) /\
  (~ covered (map (op_event lv) ops) x (y - 1) -> mode_top st x y (mode_grid st lv hu ops g) = 0) /\
  (forall r, In (Slice r) ops -> r * 2 ^ (lv - 2) = y -> mode_top st x y (mode_grid st lv hu ops g) = 0).
Proof. exact left_top_modes. Qed.
Print Assumptions C50_neighbours.
(** C50: the units a mode is read for fill the coding unit and do not overlap. *)
Theorem C50_units : forall level split x y, 3 <= level <= 6 -> (split = 0 \/ split = 3 \/ (level = 4 \/ level = 5) /\ (split = 1 \/ split = 2)) ->
  let w := fst (unit_size level split) in
  let h := snd (unit_size level split) in
  let n := 2 ^ (level - 2) in
  0 < w /\ 0 < h /\
  (forall cx cy, (exists p, In p (unit_places level split x y) /\ cell_in (fst p) (snd p) w h cx cy) <-> cell_in x y n n cx cy) /\
  ForallOrdPairs (fun p q => forall cx cy, ~ (cell_in (fst p) (snd p) w h cx cy /\ cell_in (fst q) (snd q) w h cx cy)) (unit_places level split x y).
Proof. exact units_tile. Qed.
Print Assumptions C50_units.

(** Neighbours 12 and 24: code 11 is mode 11, code 12 is mode 13, code 30 mode 32. A grid of
    two slices in which a unit of mode 7 is seen from its right but not from the next slice. *)
Example C50_case_luma : map (luma_mode 24 12) [-2; -1; 11; 12; 30] = [12; 24; 11; 13; 32].
Proof. reflexivity. Qed.
Example C50_case_chroma : map (fun s => real_chroma 12 (chroma_mode (nth 12 luma2chroma 0) s)) [0; 1; 2; 3] = [12; 0; 24; 2]
  /\ map (fun s => real_chroma 7 (chroma_mode (nth 7 luma2chroma 0) s)) [0; 1; 2; 3; 4] = [7; 0; 24; 12; 2].
Proof. split; reflexivity. Qed.
Definition C50_ops : list mode_op := [Slice 0; Unit 0 0 4 4 7; Unit 4 0 2 2 9; Slice 1].
Example C50_case_ok : events_ok 8 8 (map (op_event 4) C50_ops).
Proof.
  split; [repeat constructor; cbn; lia|].
  repeat (apply FOP_cons; [repeat (apply Forall_cons; [cbn; unfold cell_in; intros; try lia; auto|]); apply Forall_nil|]). apply FOP_nil.
Qed.
Example C50_case_grid : let g := mode_grid 24 4 8 C50_ops (fun _ => 99) in
  (mode_left 24 4 2 g, mode_left 24 6 1 g, mode_left 24 0 3 g, mode_top 24 4 2 g, mode_top 24 2 4 g) = (7, 9, 0, 9, 0).
Proof. vm_compute. reflexivity. Qed.
