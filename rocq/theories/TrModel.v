(** Model of the inverse transforms (transform.cc, C versions). Arrays of 16-bit coefficients are
    memories indexed by element; local arrays are separate memories with arbitrary initial
    contents. Definitions only. *)
From Coq Require Import ZArith List Bool.
From Verif Require Import CBase HdrModel MemModel SaoModel.
Import ListNotations.
Open Scope Z_scope.

(** transform.cc:56-61 [g_T4]. *)
Definition g_T4 : list (list Z) :=
  [[32; 32; 32; 32];
   [42; 17; -17; -42];
   [32; -32; -32; 32];
   [17; -42; 42; -17]].
(** transform.cc:65-74 [g_T8]. *)
Definition g_T8 : list (list Z) :=
  [[32; 32; 32; 32; 32; 32; 32; 32];
   [44; 38; 25; 9; -9; -25; -38; -44];
   [42; 17; -17; -42; -42; -17; 17; 42];
   [38; -9; -44; -25; 25; 44; 9; -38];
   [32; -32; -32; 32; 32; -32; -32; 32];
   [25; -44; 9; 38; -38; -9; 44; -25];
   [17; -42; 42; -17; -17; 42; -42; 17];
   [9; -25; 38; -44; 44; -38; 25; -9]].
(** transform.cc:78-95 [g_T16]. *)
Definition g_T16 : list (list Z) :=
  [[32; 32; 32; 32; 32; 32; 32; 32; 32; 32; 32; 32; 32; 32; 32; 32];
   [45; 43; 40; 35; 29; 21; 13; 4; -4; -13; -21; -29; -35; -40; -43; -45];
   [44; 38; 25; 9; -9; -25; -38; -44; -44; -38; -25; -9; 9; 25; 38; 44];
   [43; 29; 4; -21; -40; -45; -35; -13; 13; 35; 45; 40; 21; -4; -29; -43];
   [42; 17; -17; -42; -42; -17; 17; 42; 42; 17; -17; -42; -42; -17; 17; 42];
   [40; 4; -35; -43; -13; 29; 45; 21; -21; -45; -29; 13; 43; 35; -4; -40];
   [38; -9; -44; -25; 25; 44; 9; -38; -38; 9; 44; 25; -25; -44; -9; 38];
   [35; -21; -43; 4; 45; 13; -40; -29; 29; 40; -13; -45; -4; 43; 21; -35];
   [32; -32; -32; 32; 32; -32; -32; 32; 32; -32; -32; 32; 32; -32; -32; 32];
   [29; -40; -13; 45; -4; -43; 21; 35; -35; -21; 43; 4; -45; 13; 40; -29];
   [25; -44; 9; 38; -38; -9; 44; -25; -25; 44; -9; -38; 38; 9; -44; 25];
   [21; -45; 29; 13; -43; 35; 4; -40; 40; -4; -35; 43; -13; -29; 45; -21];
   [17; -42; 42; -17; -17; 42; -42; 17; 17; -42; 42; -17; -17; 42; -42; 17];
   [13; -35; 45; -40; 21; 4; -29; 43; -43; 29; -4; -21; 40; -45; 35; -13];
   [9; -25; 38; -44; 44; -38; 25; -9; -9; 25; -38; 44; -44; 38; -25; 9];
   [4; -13; 21; -29; 35; -40; 43; -45; 45; -43; 40; -35; 29; -21; 13; -4]].
(** transform.cc:99-132 [g_T32]. *)
Definition g_T32 : list (list Z) :=
  [[32; 32; 32; 32; 32; 32; 32; 32; 32; 32; 32; 32; 32; 32; 32; 32; 32; 32; 32; 32; 32; 32; 32; 32; 32; 32; 32; 32; 32; 32; 32; 32];
   [45; 45; 44; 43; 41; 39; 36; 34; 30; 27; 23; 19; 15; 11; 7; 2; -2; -7; -11; -15; -19; -23; -27; -30; -34; -36; -39; -41; -43; -44; -45; -45];
   [45; 43; 40; 35; 29; 21; 13; 4; -4; -13; -21; -29; -35; -40; -43; -45; -45; -43; -40; -35; -29; -21; -13; -4; 4; 13; 21; 29; 35; 40; 43; 45];
   [45; 41; 34; 23; 11; -2; -15; -27; -36; -43; -45; -44; -39; -30; -19; -7; 7; 19; 30; 39; 44; 45; 43; 36; 27; 15; 2; -11; -23; -34; -41; -45];
   [44; 38; 25; 9; -9; -25; -38; -44; -44; -38; -25; -9; 9; 25; 38; 44; 44; 38; 25; 9; -9; -25; -38; -44; -44; -38; -25; -9; 9; 25; 38; 44];
   [44; 34; 15; -7; -27; -41; -45; -39; -23; -2; 19; 36; 45; 43; 30; 11; -11; -30; -43; -45; -36; -19; 2; 23; 39; 45; 41; 27; 7; -15; -34; -44];
   [43; 29; 4; -21; -40; -45; -35; -13; 13; 35; 45; 40; 21; -4; -29; -43; -43; -29; -4; 21; 40; 45; 35; 13; -13; -35; -45; -40; -21; 4; 29; 43];
   [43; 23; -7; -34; -45; -36; -11; 19; 41; 44; 27; -2; -30; -45; -39; -15; 15; 39; 45; 30; 2; -27; -44; -41; -19; 11; 36; 45; 34; 7; -23; -43];
   [42; 17; -17; -42; -42; -17; 17; 42; 42; 17; -17; -42; -42; -17; 17; 42; 42; 17; -17; -42; -42; -17; 17; 42; 42; 17; -17; -42; -42; -17; 17; 42];
   [41; 11; -27; -45; -30; 7; 39; 43; 15; -23; -45; -34; 2; 36; 44; 19; -19; -44; -36; -2; 34; 45; 23; -15; -43; -39; -7; 30; 45; 27; -11; -41];
   [40; 4; -35; -43; -13; 29; 45; 21; -21; -45; -29; 13; 43; 35; -4; -40; -40; -4; 35; 43; 13; -29; -45; -21; 21; 45; 29; -13; -43; -35; 4; 40];
   [39; -2; -41; -36; 7; 43; 34; -11; -44; -30; 15; 45; 27; -19; -45; -23; 23; 45; 19; -27; -45; -15; 30; 44; 11; -34; -43; -7; 36; 41; 2; -39];
   [38; -9; -44; -25; 25; 44; 9; -38; -38; 9; 44; 25; -25; -44; -9; 38; 38; -9; -44; -25; 25; 44; 9; -38; -38; 9; 44; 25; -25; -44; -9; 38];
   [36; -15; -45; -11; 39; 34; -19; -45; -7; 41; 30; -23; -44; -2; 43; 27; -27; -43; 2; 44; 23; -30; -41; 7; 45; 19; -34; -39; 11; 45; 15; -36];
   [35; -21; -43; 4; 45; 13; -40; -29; 29; 40; -13; -45; -4; 43; 21; -35; -35; 21; 43; -4; -45; -13; 40; 29; -29; -40; 13; 45; 4; -43; -21; 35];
   [34; -27; -39; 19; 43; -11; -45; 2; 45; 7; -44; -15; 41; 23; -36; -30; 30; 36; -23; -41; 15; 44; -7; -45; -2; 45; 11; -43; -19; 39; 27; -34];
   [32; -32; -32; 32; 32; -32; -32; 32; 32; -32; -32; 32; 32; -32; -32; 32; 32; -32; -32; 32; 32; -32; -32; 32; 32; -32; -32; 32; 32; -32; -32; 32];
   [30; -36; -23; 41; 15; -44; -7; 45; -2; -45; 11; 43; -19; -39; 27; 34; -34; -27; 39; 19; -43; -11; 45; 2; -45; 7; 44; -15; -41; 23; 36; -30];
   [29; -40; -13; 45; -4; -43; 21; 35; -35; -21; 43; 4; -45; 13; 40; -29; -29; 40; 13; -45; 4; 43; -21; -35; 35; 21; -43; -4; 45; -13; -40; 29];
   [27; -43; -2; 44; -23; -30; 41; 7; -45; 19; 34; -39; -11; 45; -15; -36; 36; 15; -45; 11; 39; -34; -19; 45; -7; -41; 30; 23; -44; 2; 43; -27];
   [25; -44; 9; 38; -38; -9; 44; -25; -25; 44; -9; -38; 38; 9; -44; 25; 25; -44; 9; 38; -38; -9; 44; -25; -25; 44; -9; -38; 38; 9; -44; 25];
   [23; -45; 19; 27; -45; 15; 30; -44; 11; 34; -43; 7; 36; -41; 2; 39; -39; -2; 41; -36; -7; 43; -34; -11; 44; -30; -15; 45; -27; -19; 45; -23];
   [21; -45; 29; 13; -43; 35; 4; -40; 40; -4; -35; 43; -13; -29; 45; -21; -21; 45; -29; -13; 43; -35; -4; 40; -40; 4; 35; -43; 13; 29; -45; 21];
   [19; -44; 36; -2; -34; 45; -23; -15; 43; -39; 7; 30; -45; 27; 11; -41; 41; -11; -27; 45; -30; -7; 39; -43; 15; 23; -45; 34; 2; -36; 44; -19];
   [17; -42; 42; -17; -17; 42; -42; 17; 17; -42; 42; -17; -17; 42; -42; 17; 17; -42; 42; -17; -17; 42; -42; 17; 17; -42; 42; -17; -17; 42; -42; 17];
   [15; -39; 45; -30; 2; 27; -44; 41; -19; -11; 36; -45; 34; -7; -23; 43; -43; 23; 7; -34; 45; -36; 11; 19; -41; 44; -27; -2; 30; -45; 39; -15];
   [13; -35; 45; -40; 21; 4; -29; 43; -43; 29; -4; -21; 40; -45; 35; -13; -13; 35; -45; 40; -21; -4; 29; -43; 43; -29; 4; 21; -40; 45; -35; 13];
   [11; -30; 43; -45; 36; -19; -2; 23; -39; 45; -41; 27; -7; -15; 34; -44; 44; -34; 15; 7; -27; 41; -45; 39; -23; 2; 19; -36; 45; -43; 30; -11];
   [9; -25; 38; -44; 44; -38; 25; -9; -9; 25; -38; 44; -44; 38; -25; 9; 9; -25; 38; -44; 44; -38; 25; -9; -9; 25; -38; 44; -44; 38; -25; 9];
   [7; -19; 30; -39; 44; -45; 43; -36; 27; -15; 2; 11; -23; 34; -41; 45; -45; 41; -34; 23; -11; -2; 15; -27; 36; -43; 45; -44; 39; -30; 19; -7];
   [4; -13; 21; -29; 35; -40; 43; -45; 45; -43; 40; -35; 29; -21; 13; -4; -4; 13; -21; 29; -35; 40; -43; 45; -45; 43; -40; 35; -29; 21; -13; 4];
   [2; -7; 11; -15; 19; -23; 27; -30; 34; -36; 39; -41; 43; -44; 45; -45; 45; -45; 44; -43; 41; -39; 36; -34; 30; -27; 23; -19; 15; -11; 7; -2]].
(** transform.cc:136-141 [g_2T]. *)
Definition g_2T : list Z := [123; -35; -8; -3; -32; -120; 30; 10; 14; 25; 123; -22; 8; 13; 19; 126].
(** transform.cc:145-150 [g_2T_C]. *)
Definition g_2T_C : list Z := [34; 58; 72; 81; 77; 69; -7; -75; 79; -33; -75; 58; 55; -84; 73; -28].

Definition tab (T : list (list Z)) (i k : Z) : Z := nth (Z.to_nat k) (nth (Z.to_nat i) T []) 0.
Definition at_l (l : list Z) (k : Z) : Z := nth (Z.to_nat k) l 0.
(** [T[i0][k] * src[i0 * line] + T[i1][k] * src[i1 * line] + ...]; [s i] stands for [src[i * line]]. *)
Definition dot (T : list (list Z)) (rows : list Z) (s : Z -> Z) (k : Z) : Z :=
  fold_right (fun i a => tab T i k * s i + a) 0 rows.
(** [for (k = 0; k < n; k++) { r[k] = E[k] + O[k]; r[k + n] = E[n - 1 - k] - O[n - 1 - k]; }]. *)
Definition join (ks : list Z) (E O : list Z) : list Z :=
  let n := Z.of_nat (length ks) in
  map (fun k => at_l E k + at_l O k) ks ++ map (fun k => at_l E (n - 1 - k) - at_l O (n - 1 - k)) ks.
Definition k2 : list Z := [0; 1].
Definition k4 : list Z := [0; 1; 2; 3].
Definition k8 : list Z := [0; 1; 2; 3; 4; 5; 6; 7].
Definition k16 : list Z := [0; 1; 2; 3; 4; 5; 6; 7; 8; 9; 10; 11; 12; 13; 14; 15].

(** One column of a butterfly: all int values computed on the way, and the sums before rounding. *)
(** transform.cc:161-187 [partialButterflyInverse4_c], loop body. *)
Definition bf4 (s : Z -> Z) : list Z * list Z :=
  let O := map (dot g_T4 [1; 3] s) k2 in
  let E := map (dot g_T4 [0; 2] s) k2 in
  (O ++ E, join k2 E O).
(** transform.cc:214-253 [partialButterflyInverse8_c], loop body. *)
Definition bf8 (s : Z -> Z) : list Z * list Z :=
  let O := map (dot g_T8 [1; 3; 5; 7] s) k4 in
  let EO := map (dot g_T8 [2; 6] s) k2 in
  let EE := map (dot g_T8 [0; 4] s) k2 in
  let E := join k2 EE EO in
  (O ++ EO ++ EE ++ E, join k4 E O).
(** transform.cc:280-336 [partialButterflyInverse16_c], loop body. *)
Definition bf16 (s : Z -> Z) : list Z * list Z :=
  let O := map (dot g_T16 [1; 3; 5; 7; 9; 11; 13; 15] s) k8 in
  let EO := map (dot g_T16 [2; 6; 10; 14] s) k4 in
  let EEO := map (dot g_T16 [4; 12] s) k2 in
  let EEE := map (dot g_T16 [0; 8] s) k2 in
  let EE := join k2 EEE EEO in
  let E := join k4 EE EO in
  (O ++ EO ++ EEO ++ EEE ++ EE ++ E, join k8 E O).
(** transform.cc:364-444 [partialButterflyInverse32_c], loop body. *)
Definition bf32 (s : Z -> Z) : list Z * list Z :=
  let O := map (dot g_T32 [1; 3; 5; 7; 9; 11; 13; 15; 17; 19; 21; 23; 25; 27; 29; 31] s) k16 in
  let EO := map (dot g_T32 [2; 6; 10; 14; 18; 22; 26; 30] s) k8 in
  let EEO := map (dot g_T32 [4; 12; 20; 28] s) k4 in
  let EEEO := map (dot g_T32 [8; 24] s) k2 in
  let EEEE := map (dot g_T32 [0; 16] s) k2 in
  let EEE := join k2 EEEE EEEO in
  let EE := join k4 EEE EEO in
  let E := join k8 EE EO in
  (O ++ EO ++ EEO ++ EEEO ++ EEEE ++ EEE ++ EE ++ E, join k16 E O).
(** The butterfly of [n] points. *)
Definition bf (n : nat) : (Z -> Z) -> list Z * list Z :=
  match n with 4%nat => bf4 | 8%nat => bf8 | 16%nat => bf16 | _ => bf32 end.

(** The common loop of the four functions: column [j] of the source (lines of [line] values) is
    transformed and stored as line [j] of the destination (lines of [n] values). *)
Definition pbi (n line : nat) (src : mem) (ps shift clip_depth : Z) (t0 : mem) : mem :=
  let max_val := Z.shiftl 1 (clip_depth - 1) - 1 in
  let min_val := - max_val - 1 in
  let add := Z.shiftl 1 (shift - 1) in
  block_write n line 0 (Z.of_nat n) (fun k j _ =>
    to_i16 (clip3 min_val max_val (Z.shiftr (at_l (snd (bf n (fun i => src (ps + j + i * Z.of_nat line)))) k + add) shift))) t0.

(** The common shape of the inverse transforms of [bh] columns and [bv] lines: columns first, then
    lines, then the copy to the destination, which is the place the coefficients came from.
    [flag] is the additional wavelet flag in the lowest bit of the stride. *)
Definition idct_hv (bh bv : nat) (flag d : Z) (p stride : Z) (t0 m : mem) : mem :=
  let coeff := pbi bv bh m p 5 16 t0 in
  let block := pbi bh bv coeff 0 (20 - d - flag) (d + 1 + flag) t0 in
  block_write bh bv p stride (fun x y _ => block (y * Z.of_nat bh + x)) m.
(** transform.cc:191-210 [idct_4x4_c]. *)
Definition idct_4x4 (d p i_dst : Z) (t0 m : mem) : mem := idct_hv 4 4 0 d p i_dst t0 m.
(** transform.cc:257-276 [idct_8x8_c]. *)
Definition idct_8x8 (d p i_dst : Z) (t0 m : mem) : mem := idct_hv 8 8 0 d p i_dst t0 m.
(** transform.cc:341-360 [idct_16x16_c]. *)
Definition idct_16x16 (d p i_dst : Z) (t0 m : mem) : mem := idct_hv 16 16 0 d p i_dst t0 m.
(** transform.cc:451-473 [idct_32x32_c]. *)
Definition idct_32x32 (d p i_dst : Z) (t0 m : mem) : mem := idct_hv 32 32 (Z.land i_dst 1) d p (Z.land i_dst 254) t0 m.
(** transform.cc:537-557 [idct_16x4_c]. *)
Definition idct_16x4 (d p i_dst : Z) (t0 m : mem) : mem := idct_hv 16 4 0 d p i_dst t0 m.
(** transform.cc:561-581 [idct_4x16_c]. *)
Definition idct_4x16 (d p i_dst : Z) (t0 m : mem) : mem := idct_hv 4 16 0 d p i_dst t0 m.
(** transform.cc:587-608 [idct_32x8_c]. *)
Definition idct_32x8 (d p i_dst : Z) (t0 m : mem) : mem := idct_hv 32 8 (Z.land i_dst 1) d p (Z.land i_dst 254) t0 m.
(** transform.cc:615-636 [idct_8x32_c]. *)
Definition idct_8x32 (d p i_dst : Z) (t0 m : mem) : mem := idct_hv 8 32 (Z.land i_dst 1) d p (Z.land i_dst 254) t0 m.

(** The odd positions of a line of [n] values: transform.cc:504-506, 524-526 and the same loops of
    the other two functions. *)
Definition odd_pels (n : Z) (pe : mem) : mem :=
  floop 0 (n / 2) (fun t pe => upd pe (2 * t + 1) (to_i16 (Z.shiftr (pe (2 * t) + pe (2 * t + 2)) 1))) pe.
(** Step 1 for one column, transform.cc:489-512 (641-676, 700-735): [n0] is the width of the
    result, [n1] its height; the column has [n1 / 2] values with lines of [n0 / 2]. *)
Definition wlt_col (p n0 n1 x : Z) (st : mem * mem) : mem * mem :=
  let '(pe, dst) := st in
  let pe := floop 0 (n1 / 2) (fun y pe => upd pe (2 * y) (dst (p + x + y * (n0 / 2)))) pe in
  let pe := upd pe n1 (pe (n1 - 2)) in
  let pe := floop 0 (n1 / 2 + 1) (fun t pe => upd pe (2 * t) (Z.shiftr (pe (2 * t)) 1)) pe in
  let pe := odd_pels n1 pe in
  (pe, floop 0 n1 (fun y dst => upd dst (p + x + y * n0) (pe y)) dst).
(** Step 2 for one line, transform.cc:515-531 (678-694, 737-753). *)
Definition wlt_row (p n0 y : Z) (st : mem * mem) : mem * mem :=
  let '(pe, dst) := st in
  let pe := floop 0 (n0 / 2) (fun x pe => upd pe (2 * x) (dst (p + y * n0 + x))) pe in
  let pe := upd pe n0 (pe (n0 - 2)) in
  let pe := odd_pels n0 pe in
  (pe, floop 0 n0 (fun x dst => upd dst (p + y * n0 + x) (pe x)) dst).
(** Both steps; [cols] columns are processed in step 1. *)
Definition wavelet (cols p n0 n1 : Z) (pe dst : mem) : mem :=
  snd (floop 0 n1 (wlt_row p n0) (floop 0 cols (wlt_col p n0 n1) (pe, dst))).
(** transform.cc:477-532 [idct_64x64_c]; step 1 runs over 64 columns although only 32 hold
    coefficients. *)
Definition idct_64x64 (d p i_dst : Z) (t0 m : mem) : mem :=
  wavelet 64 p 64 64 t0 (idct_32x32 d p (Z.lor i_dst 1) t0 m).
(** transform.cc:640-695 [idct_64x16_c]. *)
Definition idct_64x16 (d p i_dst : Z) (t0 m : mem) : mem :=
  wavelet 32 p 64 16 t0 (idct_32x8 d p (Z.lor i_dst 1) t0 m).
(** transform.cc:699-754 [idct_16x64_c]. *)
Definition idct_16x64 (d p i_dst : Z) (t0 m : mem) : mem :=
  wavelet 8 p 16 64 t0 (idct_8x32 d p (Z.lor i_dst 1) t0 m).

(** transform.cc:758-779 [xTr2nd_4_1d_Inv_Ver]. All sums read the copy [tmp_dct], here [m]. *)
Definition tr2nd_ver (tc : list Z) (shift p ic : Z) (m : mem) : mem :=
  block_write 4 4 p ic (fun j i _ =>
    to_i16 (clip3 (-32768) 32767 (Z.shiftr (Z.shiftl 1 (shift - 1) +
      (at_l tc (0 * 4 + i) * m (p + 0 * ic + j) + at_l tc (1 * 4 + i) * m (p + 1 * ic + j) +
       at_l tc (2 * 4 + i) * m (p + 2 * ic + j) + at_l tc (3 * 4 + i) * m (p + 3 * ic + j))) shift))) m.
(** transform.cc:783-806 [xTr2nd_4_1d_Inv_Hor]; the order of the sixteen stores does not matter, as
    all sums read the copy. *)
Definition tr2nd_hor (tc : list Z) (shift clip_depth p ic : Z) (m : mem) : mem :=
  let max_val := Z.shiftl 1 (clip_depth - 1) - 1 in
  block_write 4 4 p ic (fun i j _ =>
    to_i16 (clip3 (- max_val - 1) max_val (Z.shiftr (Z.shiftl 1 (shift - 1) +
      (at_l tc (0 * 4 + i) * m (p + j * ic + 0) + at_l tc (1 * 4 + i) * m (p + j * ic + 1) +
       at_l tc (2 * 4 + i) * m (p + j * ic + 2) + at_l tc (3 * 4 + i) * m (p + j * ic + 3))) shift))) m.
(** transform.cc:810-818 [inv_transform_4x4_2nd_c]. *)
Definition inv_4x4_2nd (d p ic : Z) (m : mem) : mem :=
  tr2nd_hor g_2T_C (20 - d + 2) (d + 1) p ic (tr2nd_ver g_2T_C 5 p ic m).
(** transform.cc:826-837 [inv_transform_2nd_c]. *)
Definition inv_2nd (p ic mode : Z) (b_top b_left : bool) (m : mem) : mem :=
  let vt := (0 <=? mode) && (mode <=? 23) in
  let ht := ((13 <=? mode) && (mode <=? 32)) || ((0 <=? mode) && (mode <=? 2)) in
  let m := if ht && b_left then tr2nd_hor g_2T 7 16 p ic m else m in
  if vt && b_top then tr2nd_ver g_2T 7 p ic m else m.
(** transform.cc:842-863 [inv_transform] with the table of transform.cc:941-955: other sizes have
    no function (a null pointer is called). *)
Definition idct_of (bsx bsy : Z) : option (Z -> Z -> Z -> mem -> mem -> mem) :=
  if bsx =? 4 then if bsy =? 4 then Some idct_4x4 else if bsy =? 16 then Some idct_4x16 else None
  else if bsx =? 8 then if bsy =? 8 then Some idct_8x8 else if bsy =? 32 then Some idct_8x32 else None
  else if bsx =? 16 then
    if bsy =? 16 then Some idct_16x16 else if bsy =? 4 then Some idct_16x4 else if bsy =? 64 then Some idct_16x64 else None
  else if bsx =? 32 then if bsy =? 32 then Some idct_32x32 else if bsy =? 8 then Some idct_32x8 else None
  else if bsx =? 64 then if bsy =? 64 then Some idct_64x64 else if bsy =? 16 then Some idct_64x16 else None
  else None.
Definition inv_transform (d p ic bsx bsy : Z) (sec intra luma : bool) (mode : Z) (b_top b_left : bool) (t0 m : mem) : outcome mem :=
  let secT := sec && intra && luma in
  match idct_of bsx bsy with
  | None => Undef
  | Some f =>
      if (bsx =? 4) && (bsy =? 4)
      then Done (if secT then inv_4x4_2nd d p ic m else f d p ic t0 m)
      else Done (f d p ic t0 (if secT then inv_2nd p ic mode b_top b_left m else m))
  end.
