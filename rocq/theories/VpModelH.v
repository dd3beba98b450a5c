(** The tables of predictors with vector instructions. *)
From Coq Require Import ZArith List.
From Verif Require Import VpModel VpModelB VpModelC VpModelD VpModelE VpModelF VpModelG.
Import ListNotations.
Open Scope Z_scope.

(** intra.cc:2640-2668, modes 3 to 32; the entries for modes 7, 9 and 11 are commented out and those for
    15, 17, 19, 21, 27 and 29 do not exist. *)
Definition sse_x : list (Z * list stm) := [(3, k_ang_x_3_sse128); (4, k_ang_x_4_sse128); (5, k_ang_x_5_sse128); (6, k_ang_x_6_sse128); (8, k_ang_x_8_sse128); (10, k_ang_x_10_sse128); (12, k_ver_sse128); (24, k_hor_sse128)].
Definition sse_y : list (Z * list stm) := [(25, k_ang_y_25_sse128); (26, k_ang_y_26_sse128); (28, k_ang_y_28_sse128); (30, k_ang_y_30_sse128); (31, k_ang_y_31_sse128); (32, k_ang_y_32_sse128)].
Definition sse_xy : list (Z * list stm) := [(13, k_ang_xy_13_sse128); (14, k_ang_xy_14_sse128); (16, k_ang_xy_16_sse128); (18, k_ang_xy_18_sse128); (20, k_ang_xy_20_sse128); (22, k_ang_xy_22_sse128); (23, k_ang_xy_23_sse128)].
Definition sse_table : list (Z * list stm) := sse_x ++ sse_y ++ sse_xy.
(** intra.cc:2681-2712; the entry for mode 22 is compiled by MSVC only. *)
Definition avx_x : list (Z * list stm) := [(3, k_ang_x_3_avx); (4, k_ang_x_4_avx); (5, k_ang_x_5_avx); (6, k_ang_x_6_avx); (8, k_ang_x_8_avx); (10, k_ang_x_10_avx); (12, k_ver_avx); (24, k_hor_avx)].
Definition avx_y : list (Z * list stm) := [(25, k_ang_y_25_avx); (26, k_ang_y_26_avx); (28, k_ang_y_28_avx); (30, k_ang_y_30_avx); (31, k_ang_y_31_avx); (32, k_ang_y_32_avx)].
Definition avx_xy : list (Z * list stm) := [(13, k_ang_xy_13_avx); (14, k_ang_xy_14_avx); (16, k_ang_xy_16_avx); (18, k_ang_xy_18_avx); (20, k_ang_xy_20_avx); (22, k_ang_xy_22_avx); (23, k_ang_xy_23_avx)].
Definition avx_table : list (Z * list stm) := avx_x ++ avx_y ++ avx_xy.
