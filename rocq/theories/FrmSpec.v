(** What the buffers, the padding and the output pictures should be. *)
From Coq Require Import ZArith List Bool.
From Verif Require Import CBase MemModel FrmModel AlfSpec.
Import ListNotations.
Open Scope Z_scope.

(** A piece of memory: first byte and number of bytes. *)
Definition area := (Z * Z)%type.
Definition disjoint (a b : area) : Prop := fst a + snd a <= fst b \/ fst b + snd b <= fst a.
Definition inside (lo hi : Z) (a : area) : Prop := lo <= fst a /\ fst a + snd a <= hi.
(** All pieces inside the block and no two of them overlapping. *)
Definition carved (lo hi : Z) (l : list area) : Prop := ForallOrdPairs disjoint l /\ Forall (inside lo hi) l.

(** Sizes a sequence header can ask for, after rounding up to the minimum coding unit. *)
Definition frame_size_ok (w h fmt : Z) : Prop :=
  16 <= w <= 16384 /\ 16 <= h <= 16384 /\ w mod 8 = 0 /\ h mod 8 = 0 /\ (fmt = 0 \/ fmt = 1).
Definition plat_ok (P : plat) : Prop :=
  (sz_pel P = 1 \/ sz_pel P = 2) /\ 0 <= sz_frame P <= 65536 /\ 0 <= sz_cond P <= 65536 /\
  0 <= sz_ref P <= 65536 /\ 0 <= sz_lcu P <= 65536 /\ 0 <= sz_cu P <= 65536 /\ 0 <= sz_ptr P <= 65536.

(** The bytes of a plane with [pad] extra samples on each side: from sample (-pad, -pad) to the
    last sample of the line [lines + pad - 1]. *)
Definition plane_area (pel p stride lines pad : Z) : area :=
  (p - pel * (pad * stride + pad), pel * (stride * (lines + 2 * pad))).
(** Lines of a chroma plane: half as many only in 4:2:0. *)
Definition chroma_lines (h fmt : Z) : Z := if fmt =? 1 then h / 2 else h.
(** The pieces of one frame: handle, planes, reference indices and vectors (one byte and four bytes
    for every 4x4 unit), condition variables and counters (one for every 16 lines). *)
Definition frame_areas (P : plat) (w h fmt : Z) (extra : bool) (l : flay) : list area :=
  [(l_hdr l, sz_frame P);
   plane_area (sz_pel P) (l_y l) (g_sl (l_geo l)) h 80;
   plane_area (sz_pel P) (l_u l) (g_sc (l_geo l)) (chroma_lines h fmt) 40;
   plane_area (sz_pel P) (l_v l) (g_sc (l_geo l)) (chroma_lines h fmt) 40] ++
  (if extra then [(l_refs l, (w / 4) * (h / 4)); (l_mvs l, 4 * ((w / 4) * (h / 4)))] else []) ++
  [(l_cond l, sz_cond P * ((h + 15) / 16)); (l_cnt l, 4 * ((h + 15) / 16))].
(** Lines do not run into each other, and lines and arrays start at multiples of 32. *)
Definition frame_aligned (P : plat) (w : Z) (l : flay) : Prop :=
  w + 160 <= g_sl (l_geo l) /\ w / 2 + 80 <= g_sc (l_geo l) /\
  (sz_pel P * g_sl (l_geo l)) mod 32 = 0 /\ (sz_pel P * g_sc (l_geo l)) mod 32 = 0 /\
  l_y l mod 32 = 0 /\ l_u l mod 32 = 0 /\ l_v l mod 32 = 0 /\
  l_mvs l mod 32 = 0 /\ l_cond l mod 32 = 0 /\ l_cnt l mod 32 = 0.

(** The arrays of the extra buffer in bytes: intra modes of the 4x4 units with a border of 16
    columns and one row, prediction directions, reference indices, two vectors, two loop
    filter flags for every 8x8 unit, LCU and CU data, three lines of samples, filter data. *)
Definition extra_bytes (P : plat) (alf_bytes w h lv : Z) : list Z :=
  [(w / 4 + 16) * (h / 4 + 1); (w / 4) * (h / 4); sz_ref P * ((w / 4) * (h / 4)); 4 * ((w / 4) * (h / 4)); 4 * ((w / 4) * (h / 4));
   2 * ((w / 8) * (h / 8)); sz_lcu P * (((w + (2 ^ lv - 1)) / 2 ^ lv) * ((h + (2 ^ lv - 1)) / 2 ^ lv)); sz_cu P * ((w / 8) * (h / 8));
   w * sz_pel P; w * sz_pel P; w * sz_pel P; alf_bytes].
(** The bytes requested for them, two pictures with motion data and one each for the two
    filters, plus slack. *)
Definition extra_size (P : plat) (alf_bytes w h lv s1 s0 : Z) (alf sao : bool) : Z :=
  fold_right Z.add 0 (extra_bytes P alf_bytes w h lv) + 2 * s1 + (if alf then s0 else 0) + (if sao then s0 else 0) + 640.

(** Reference padding: sample (x, y), up to [n] samples outside, is the nearest sample of the
    plane. *)
Definition at_ (base stride x y : Z) : Z := base + y * stride + x.
Definition extended (base stride w lines n : Z) (m : mem) : Prop :=
  forall x y, - n <= x < w + n -> - n <= y < lines + n ->
    m (at_ base stride x y) = m (at_ base stride (clamp 0 (w - 1) x) (clamp 0 (lines - 1) y)).
(** The first line of LCU row [ly] that may still change when the row is decoded and filtered:
    four lines above its first line. *)
Definition first_line (chroma : bool) (lv ly : Z) : Z :=
  if ly =? 0 then 0 else ly * 2 ^ lv / (if chroma then 2 else 1) - 4.
(** [f] changes samples of the plane only, in line [y0] and below. *)
Definition writes_below (base stride w lines y0 : Z) (f : mem -> mem) : Prop :=
  forall m p, (forall x y, 0 <= x < w -> y0 <= y < lines -> p <> at_ base stride x y) -> f m p = m p.

(** Output: the sample a viewer reads at (x, y) of plane [i]. *)
Definition shown (st : store) (p : opic) (i x y : Z) : Z :=
  st (o_buf p) i (o_org p i + y * (o_stride p i / o_bytes p) + x).
Definition decoded (st : store) (f : frm) (i x y : Z) : Z :=
  st (Frame (f_id f)) i (f_org f i + y * f_stride f i + x).
(** The planes and their sizes. *)
Definition in_plane (f : frm) (p : opic) (i x y : Z) : Prop :=
  0 <= x /\ 0 <= y /\
  ((i = 0 /\ x < o_w p 0 /\ y < o_h p 0) \/
   ((i = 1 \/ i = 2) /\ f_fmt f = 1 /\ x < o_w p 0 / 2 /\ y < o_h p 0 / 2)).
(** A picture from the pool: plane widths as made by the allocator. *)
Definition pool_pic (p : opic) : Prop :=
  0 <= o_w p 0 /\ 0 <= o_h p 0 /\ o_w p 1 = o_w p 0 / 2 /\ o_w p 2 = o_w p 0 / 2.
(** Depth reduction by [s] bits with rounding, limited to eight bits. *)
Definition reduced (s v : Z) : Z := Z.min 255 ((v + 2 ^ (s - 1)) / 2 ^ s).
