(** Adaptive loop filter, independent specification. *)
From Coq Require Import ZArith List Bool.
From Verif Require Import CBase VlcModel VlcSpec HdrModel MemModel SaoModel SaoSpec AlfModel.
Import ListNotations.
Open Scope Z_scope.

(** The filter support: index of the coefficient, column and row distance. *)
Definition support : list (Z * Z * Z) :=
  [(0, 0, -3); (0, 0, 3); (1, 0, -2); (1, 0, 2);
   (2, -1, -1); (2, 1, 1); (3, 0, -1); (3, 0, 1); (4, 1, -1); (4, -1, 1);
   (5, -3, 0); (5, 3, 0); (6, -2, 0); (6, 2, 0); (7, -1, 0); (7, 1, 0); (8, 0, 0)].
Definition clamp (lo hi v : Z) : Z := Z.max lo (Z.min hi v).
Definition outside (lo hi v : Z) : bool := (v <? lo) || (hi <? v).
(** A tap at column [x], row [y] for an LCU of columns [x0 .. x1] filtered in the rows [y0 .. y1]
    of a plane of [W] columns: rows are limited to the filtered rows, columns to the plane; a
    tap that leaves both the rows and the columns of the LCU is moved to the column of the LCU. *)
Definition tap (W x0 x1 y0 y1 : Z) (D : Z -> Z -> Z) (x y : Z) : Z :=
  D (if outside y0 y1 y && outside x0 x1 x then clamp x0 x1 x else clamp 0 (W - 1) x) (clamp y0 y1 y).
Definition alf_value (W x0 x1 y0 y1 depth : Z) (co : list Z) (D : Z -> Z -> Z) (x y : Z) : Z :=
  saturate depth ((fold_right Z.add 0 (map (fun t => let '(i, dx, dy) := t in cf co i * tap W x0 x1 y0 y1 D (x + dx) (y + dy)) support) + 32) / 64).

(** A whole plane: LCU [i] of [n] filters the rows (columns) from [row_start] to before
    [row_start (i + 1)]; columns are not shifted. *)
Definition row_start (side n N i : Z) : Z := if i <=? 0 then 0 else if i <? n then i * side - 4 else N.
Definition col_start (side n N i : Z) : Z := if i <? n then i * side else N.
Definition plane_alf (W H side wl hl depth : Z) (par : Z -> Z -> option (list Z)) (D : Z -> Z -> Z) (x y : Z) : Z :=
  let lx := x / side in
  let ly := owner side hl y in
  match par lx ly with
  | None => D x y
  | Some co => alf_value W (col_start side wl W lx) (col_start side wl W (lx + 1) - 1)
                 (row_start side hl H ly) (row_start side hl H (ly + 1) - 1) depth co D x y
  end.

(** What an encoder transmits for luma: the coefficient rows of the filters and the first
    region (1 .. 15, increasing) of each filter after the first. *)
Record alf_set := AlfSet { as_first : list Z; as_rest : list (Z * list Z) }.
Fixpoint rest_ok (pre : Z) (l : list (Z * list Z)) : Prop :=
  match l with
  | [] => True
  | (start, c) :: t => pre < start <= 15 /\ length c = 9%nat /\ Forall (fun v => -1073741823 <= v <= 1073741823) c /\ rest_ok start t
  end.
Definition alf_set_ok (a : alf_set) : Prop :=
  length (as_first a) = 9%nat /\ Forall (fun v => -1073741823 <= v <= 1073741823) (as_first a) /\ rest_ok 0 (as_rest a).
Definition coef_code (c : list Z) : list bool := flat_map se_code c.
Fixpoint rest_code (all16 : bool) (pre : Z) (l : list (Z * list Z)) : list bool :=
  match l with
  | [] => []
  | (start, c) :: t => (if all16 then [] else ue_code (start - pre)) ++ coef_code c ++ rest_code all16 start t
  end.
Definition alf_code (a : alf_set) : list bool :=
  ue_code (Z.of_nat (length (as_rest a))) ++ coef_code (as_first a) ++
  rest_code (Nat.eqb (length (as_rest a)) 15) 0 (as_rest a).
(** The filter of a region: the last one that starts at or before it. *)
Fixpoint filter_of (cur : list Z) (l : list (Z * list Z)) (region : Z) : list Z :=
  match l with
  | [] => cur
  | (start, c) :: t => if start <=? region then filter_of c t region else cur
  end.

(** The parameters of a picture: one set for luma, nine coefficients for each chroma plane,
    each optional. *)
Record alf_pic := AlfPic { ap_y : option alf_set; ap_u : option (list Z); ap_v : option (list Z) }.
Definition chroma_ok (c : list Z) : Prop := length c = 9%nat /\ Forall (fun v => -1073741823 <= v <= 1073741823) c.
Definition whenp {A : Type} (p : A -> Prop) (o : option A) : Prop := match o with Some a => p a | None => True end.
Definition present {A : Type} (o : option A) : Z := match o with Some _ => 1 | None => 0 end.
Definition bits_if {A : Type} (enc : A -> list bool) (o : option A) : list bool := match o with Some a => enc a | None => [] end.
Definition alf_pic_ok (p : alf_pic) : Prop := whenp alf_set_ok (ap_y p) /\ whenp chroma_ok (ap_u p) /\ whenp chroma_ok (ap_v p).
Definition alf_pic_code (p : alf_pic) : list bool :=
  low_bits 1 (present (ap_y p)) ++ low_bits 1 (present (ap_u p)) ++ low_bits 1 (present (ap_v p)) ++
  bits_if alf_code (ap_y p) ++ bits_if coef_code (ap_u p) ++ bits_if coef_code (ap_v p).

(** Coefficients in the ranges the standard allows (-64 .. 63, the last -1088 .. 1071). *)
Definition conforming (c : list Z) : Prop :=
  length c = 9%nat /\ (forall i, 0 <= i < 8 -> -64 <= cf c i <= 63) /\ -1088 <= cf c 8 <= 1071.
(** The sum of the magnitudes of the products: bounds every partial sum, in any order. *)
Definition magnitude (co : list Z) (smp : Z -> Z -> Z) : Z :=
  fold_right Z.add 0 (map (fun t => let '(i, dx, dy) := t in Z.abs (cf co i * smp dx dy)) support).
(** The rows an LCU row filters when slices are filtered separately. *)
Definition alf_rows (g : geom) (lx ly y : Z) : Prop :=
  let '(top, down) := alf_avail (q_lv g) (q_wl g) (q_hl g) (q_cross g) (q_sl g) lx ly in
  let last := Z.min (plane_h g) ((ly + 1) * lcu_lines g) in
  (if top then ly * lcu_lines g - 4 else ly * lcu_lines g) <= y < (if down then last - 4 else last).
