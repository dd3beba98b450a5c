(** The vector kernels of the inverse transforms, sizes 4 to 16, SSE. Definitions only, for the machine of
    VtModel. Each is the text of the function: the names of its vector variables (an array takes as
    many numbers as it has elements; a name declared again in another block has a number added), its
    macros expanded, its statements in order. *)
From Coq Require Import ZArith List Bool.
From Verif Require Import VtModel.
Import ListNotations.
Open Scope Z_scope.

(** vec/intrinsic_idct.cc:78-154 [idct_4x4_sse128], the branch for a stride of 4. *)
Definition idct_4x4_sse128_flat : list ins :=
  let c16_p17_p42 := 1 in let c16_n42_p17 := 2 in let c16_n32_p32 := 3 in let c16_p32_p32 := 4 in let c32_rnd := 5 in let S0 := 6 in let S1 := 7 in
  let T0 := 8 in let T1 := 9 in let E0 := 10 in let E1 := 11 in let O0 := 12 in let O1 := 13 in let max_val := 14 in let min_val := 15 in
  [Set_ c16_p17_p42 (S32 8 (I 1114154));
   Set_ c16_n42_p17 (S32 8 (I (-2752495)));
   Set_ c16_n32_p32 (S32 8 (I (-2097120)));
   Set_ c16_p32_p32 (S32 8 (I 2097184));
   Set_ c32_rnd (S32 8 (I 16));
   Set_ S0 (Ld 8 0);
   Set_ S1 (Ld 8 8);
   Set_ T0 (lo16 (R S0) (R S1));
   Set_ E0 (add32 (madd (R T0) (R c16_p32_p32)) (R c32_rnd));
   Set_ E1 (add32 (madd (R T0) (R c16_n32_p32)) (R c32_rnd));
   Set_ T1 (hi16 (R S0) (R S1));
   Set_ O0 (madd (R T1) (R c16_p17_p42));
   Set_ O1 (madd (R T1) (R c16_n42_p17));
   Set_ S0 (packs32 (Sra32 (add32 (R E0) (R O0)) (I 5)) (Sra32 (sub32 (R E1) (R O1)) (I 5)));
   Set_ S1 (packs32 (Sra32 (add32 (R E1) (R O1)) (I 5)) (Sra32 (sub32 (R E0) (R O0)) (I 5)));
   Set_ T0 (lo16 (R S0) (R S1));
   Set_ T1 (hi16 (R S0) (R S1));
   Set_ S0 (lo32 (R T0) (R T1));
   Set_ S1 (hi32 (R T0) (R T1));
   Set_ c32_rnd (S32 8 (Q RND2));
   Set_ T0 (lo16 (R S0) (R S1));
   Set_ E0 (add32 (madd (R T0) (R c16_p32_p32)) (R c32_rnd));
   Set_ E1 (add32 (madd (R T0) (R c16_n32_p32)) (R c32_rnd));
   Set_ T1 (hi16 (R S0) (R S1));
   Set_ O0 (madd (R T1) (R c16_p17_p42));
   Set_ O1 (madd (R T1) (R c16_n42_p17));
   Set_ S0 (packs32 (Sra32 (add32 (R E0) (R O0)) (Q SH2)) (Sra32 (sub32 (R E1) (R O1)) (Q SH2)));
   Set_ S1 (packs32 (Sra32 (add32 (R E1) (R O1)) (Q SH2)) (Sra32 (sub32 (R E0) (R O0)) (Q SH2)));
   Set_ T0 (lo16 (R S0) (R S1));
   Set_ T1 (hi16 (R S0) (R S1));
   Set_ S0 (lo32 (R T0) (R T1));
   Set_ S1 (hi32 (R T0) (R T1));
   Set_ max_val (S16 8 (Q HI2));
   Set_ min_val (S16 8 (Q LO2));
   Set_ S0 (max16 (min16 (R S0) (R max_val)) (R min_val));
   Set_ S1 (max16 (min16 (R S1) (R max_val)) (R min_val));
   St 8 0 0 0 (R S0);
   St 8 0 0 8 (R S1)].

(** vec/intrinsic_idct.cc:78-154 [idct_4x4_sse128], the branch for any other stride. *)
Definition idct_4x4_sse128 : list ins :=
  let c16_p17_p42 := 1 in let c16_n42_p17 := 2 in let c16_n32_p32 := 3 in let c16_p32_p32 := 4 in let c32_rnd := 5 in let S0 := 6 in let S1 := 7 in
  let T0 := 8 in let T1 := 9 in let E0 := 10 in let E1 := 11 in let O0 := 12 in let O1 := 13 in let max_val := 14 in let min_val := 15 in
  [Set_ c16_p17_p42 (S32 8 (I 1114154));
   Set_ c16_n42_p17 (S32 8 (I (-2752495)));
   Set_ c16_n32_p32 (S32 8 (I (-2097120)));
   Set_ c16_p32_p32 (S32 8 (I 2097184));
   Set_ c32_rnd (S32 8 (I 16));
   Set_ S0 (Ld 8 0);
   Set_ S1 (Ld 8 8);
   Set_ T0 (lo16 (R S0) (R S1));
   Set_ E0 (add32 (madd (R T0) (R c16_p32_p32)) (R c32_rnd));
   Set_ E1 (add32 (madd (R T0) (R c16_n32_p32)) (R c32_rnd));
   Set_ T1 (hi16 (R S0) (R S1));
   Set_ O0 (madd (R T1) (R c16_p17_p42));
   Set_ O1 (madd (R T1) (R c16_n42_p17));
   Set_ S0 (packs32 (Sra32 (add32 (R E0) (R O0)) (I 5)) (Sra32 (sub32 (R E1) (R O1)) (I 5)));
   Set_ S1 (packs32 (Sra32 (add32 (R E1) (R O1)) (I 5)) (Sra32 (sub32 (R E0) (R O0)) (I 5)));
   Set_ T0 (lo16 (R S0) (R S1));
   Set_ T1 (hi16 (R S0) (R S1));
   Set_ S0 (lo32 (R T0) (R T1));
   Set_ S1 (hi32 (R T0) (R T1));
   Set_ c32_rnd (S32 8 (Q RND2));
   Set_ T0 (lo16 (R S0) (R S1));
   Set_ E0 (add32 (madd (R T0) (R c16_p32_p32)) (R c32_rnd));
   Set_ E1 (add32 (madd (R T0) (R c16_n32_p32)) (R c32_rnd));
   Set_ T1 (hi16 (R S0) (R S1));
   Set_ O0 (madd (R T1) (R c16_p17_p42));
   Set_ O1 (madd (R T1) (R c16_n42_p17));
   Set_ S0 (packs32 (Sra32 (add32 (R E0) (R O0)) (Q SH2)) (Sra32 (sub32 (R E1) (R O1)) (Q SH2)));
   Set_ S1 (packs32 (Sra32 (add32 (R E1) (R O1)) (Q SH2)) (Sra32 (sub32 (R E0) (R O0)) (Q SH2)));
   Set_ T0 (lo16 (R S0) (R S1));
   Set_ T1 (hi16 (R S0) (R S1));
   Set_ S0 (lo32 (R T0) (R T1));
   Set_ S1 (hi32 (R T0) (R T1));
   Set_ max_val (S16 8 (Q HI2));
   Set_ min_val (S16 8 (Q LO2));
   Set_ S0 (max16 (min16 (R S0) (R max_val)) (R min_val));
   Set_ S1 (max16 (min16 (R S1) (R max_val)) (R min_val));
   St 4 0 0 0 (R S0);
   St 4 4 1 0 (R S0);
   St 4 0 2 0 (R S1);
   St 4 4 3 0 (R S1)].

(** vec/intrinsic_idct.cc:158-458 [idct_4x16_sse128], the branch for a stride of 4. *)
Definition idct_4x16_sse128_flat : list ins :=
  let c16_p43_p45 := 1 in let c16_p35_p40 := 2 in let c16_p21_p29 := 3 in let c16_p04_p13 := 4 in let c16_p29_p43 := 5 in let c16_n21_p04 := 6 in
  let c16_n45_n40 := 7 in let c16_n13_n35 := 8 in let c16_p04_p40 := 9 in let c16_n43_n35 := 10 in let c16_p29_n13 := 11 in let c16_p21_p45 := 12 in
  let c16_n21_p35 := 13 in let c16_p04_n43 := 14 in let c16_p13_p45 := 15 in let c16_n29_n40 := 16 in let c16_n40_p29 := 17 in
  let c16_p45_n13 := 18 in let c16_n43_n04 := 19 in let c16_p35_p21 := 20 in let c16_n45_p21 := 21 in let c16_p13_p29 := 22 in
  let c16_p35_n43 := 23 in let c16_n40_p04 := 24 in let c16_n35_p13 := 25 in let c16_n40_p45 := 26 in let c16_p04_p21 := 27 in
  let c16_p43_n29 := 28 in let c16_n13_p04 := 29 in let c16_n29_p21 := 30 in let c16_n40_p35 := 31 in let c16_n45_p43 := 32 in
  let c16_p38_p44 := 33 in let c16_p09_p25 := 34 in let c16_n09_p38 := 35 in let c16_n25_n44 := 36 in let c16_n44_p25 := 37 in
  let c16_p38_p09 := 38 in let c16_n25_p09 := 39 in let c16_n44_p38 := 40 in let c16_p17_p42 := 41 in let c16_n42_p17 := 42 in
  let c16_n32_p32 := 43 in let c16_p32_p32 := 44 in let c32_rnd := 45 in let in00 := 46 in let in01 := 47 in let in02 := 48 in let in03 := 49 in
  let in04 := 50 in let in05 := 51 in let in06 := 52 in let in07 := 53 in let res00 := 54 in let res01 := 55 in let res02 := 56 in let res03 := 57 in
  let res04 := 58 in let res05 := 59 in let res06 := 60 in let res07 := 61 in let T_00_00A := 62 in let T_00_01A := 63 in let T_00_02A := 64 in
  let T_00_03A := 65 in let T_00_04A := 66 in let T_00_05A := 67 in let T_00_06A := 68 in let T_00_07A := 69 in let O0A := 70 in let O1A := 71 in
  let O2A := 72 in let O3A := 73 in let O4A := 74 in let O5A := 75 in let O6A := 76 in let O7A := 77 in let EO0A := 78 in let EO1A := 79 in
  let EO2A := 80 in let EO3A := 81 in let EEO0A := 82 in let EEO1A := 83 in let EEE0A := 84 in let EEE1A := 85 in let EE0A := 86 in let EE1A := 87 in
  let EE3A := 88 in let EE2A := 89 in let T10A := 90 in let T11A := 91 in let T12A := 92 in let T13A := 93 in let T14A := 94 in let T15A := 95 in
  let T16A := 96 in let T17A := 97 in let T30A := 98 in let T31A := 99 in let T32A := 100 in let T33A := 101 in let T34A := 102 in let T35A := 103 in
  let T36A := 104 in let T37A := 105 in let T38A := 106 in let T39A := 107 in let T3AA := 108 in let T3BA := 109 in let T3CA := 110 in
  let T3DA := 111 in let T3EA := 112 in let T3FA := 113 in let tr0_0 := 114 in let tr0_1 := 115 in let tr0_2 := 116 in let tr0_3 := 117 in
  let tr0_4 := 118 in let tr0_5 := 119 in let tr0_6 := 120 in let tr0_7 := 121 in let tr1_0 := 122 in let tr1_1 := 123 in let tr1_2 := 124 in
  let tr1_3 := 125 in let tr1_4 := 126 in let tr1_5 := 127 in let tr1_6 := 128 in let tr1_7 := 129 in let E01 := 130 in let E02 := 131 in
  let E03 := 132 in let E04 := 133 in let E11 := 134 in let E12 := 135 in let E13 := 136 in let E14 := 137 in let O01 := 138 in let O02 := 139 in
  let O03 := 140 in let O04 := 141 in let O11 := 142 in let O12 := 143 in let O13 := 144 in let O14 := 145 in let T0 := 146 in let T1 := 147 in
  let T2 := 148 in let T3 := 149 in let max_val := 150 in let min_val := 151 in
  [Set_ c16_p43_p45 (S32 8 (I 2818093));
   Set_ c16_p35_p40 (S32 8 (I 2293800));
   Set_ c16_p21_p29 (S32 8 (I 1376285));
   Set_ c16_p04_p13 (S32 8 (I 262157));
   Set_ c16_p29_p43 (S32 8 (I 1900587));
   Set_ c16_n21_p04 (S32 8 (I (-1376252)));
   Set_ c16_n45_n40 (S32 8 (I (-2883624)));
   Set_ c16_n13_n35 (S32 8 (I (-786467)));
   Set_ c16_p04_p40 (S32 8 (I 262184));
   Set_ c16_n43_n35 (S32 8 (I (-2752547)));
   Set_ c16_p29_n13 (S32 8 (I 1966067));
   Set_ c16_p21_p45 (S32 8 (I 1376301));
   Set_ c16_n21_p35 (S32 8 (I (-1376221)));
   Set_ c16_p04_n43 (S32 8 (I 327637));
   Set_ c16_p13_p45 (S32 8 (I 852013));
   Set_ c16_n29_n40 (S32 8 (I (-1835048)));
   Set_ c16_n40_p29 (S32 8 (I (-2621411)));
   Set_ c16_p45_n13 (S32 8 (I 3014643));
   Set_ c16_n43_n04 (S32 8 (I (-2752516)));
   Set_ c16_p35_p21 (S32 8 (I 2293781));
   Set_ c16_n45_p21 (S32 8 (I (-2949099)));
   Set_ c16_p13_p29 (S32 8 (I 851997));
   Set_ c16_p35_n43 (S32 8 (I 2359253));
   Set_ c16_n40_p04 (S32 8 (I (-2621436)));
   Set_ c16_n35_p13 (S32 8 (I (-2293747)));
   Set_ c16_n40_p45 (S32 8 (I (-2621395)));
   Set_ c16_p04_p21 (S32 8 (I 262165));
   Set_ c16_p43_n29 (S32 8 (I 2883555));
   Set_ c16_n13_p04 (S32 8 (I (-851964)));
   Set_ c16_n29_p21 (S32 8 (I (-1900523)));
   Set_ c16_n40_p35 (S32 8 (I (-2621405)));
   Set_ c16_n45_p43 (S32 8 (I (-2949077)));
   Set_ c16_p38_p44 (S32 8 (I 2490412));
   Set_ c16_p09_p25 (S32 8 (I 589849));
   Set_ c16_n09_p38 (S32 8 (I (-589786)));
   Set_ c16_n25_n44 (S32 8 (I (-1572908)));
   Set_ c16_n44_p25 (S32 8 (I (-2883559)));
   Set_ c16_p38_p09 (S32 8 (I 2490377));
   Set_ c16_n25_p09 (S32 8 (I (-1638391)));
   Set_ c16_n44_p38 (S32 8 (I (-2883546)));
   Set_ c16_p17_p42 (S32 8 (I 1114154));
   Set_ c16_n42_p17 (S32 8 (I (-2752495)));
   Set_ c16_n32_p32 (S32 8 (I (-2097120)));
   Set_ c16_p32_p32 (S32 8 (I 2097184));
   Set_ c32_rnd (S32 8 (I 16));
   Set_ in00 (Ld 8 0);
   Set_ in01 (Ld 8 8);
   Set_ in02 (Ld 8 16);
   Set_ in03 (Ld 8 24);
   Set_ in04 (Ld 8 32);
   Set_ in05 (Ld 8 40);
   Set_ in06 (Ld 8 48);
   Set_ in07 (Ld 8 56);
   Set_ T_00_00A (hi16 (R in00) (R in01));
   Set_ T_00_01A (hi16 (R in02) (R in03));
   Set_ T_00_02A (hi16 (R in04) (R in05));
   Set_ T_00_03A (hi16 (R in06) (R in07));
   Set_ T_00_04A (lo16 (R in01) (R in03));
   Set_ T_00_05A (lo16 (R in05) (R in07));
   Set_ T_00_06A (lo16 (R in02) (R in06));
   Set_ T_00_07A (lo16 (R in00) (R in04));
   Set_ O0A (add32 (add32 (madd (R T_00_00A) (R c16_p43_p45)) (madd (R T_00_01A) (R c16_p35_p40))) (add32 (madd (R T_00_02A) (R c16_p21_p29)) (madd (R T_00_03A) (R c16_p04_p13))));
   Set_ O1A (add32 (add32 (madd (R T_00_00A) (R c16_p29_p43)) (madd (R T_00_01A) (R c16_n21_p04))) (add32 (madd (R T_00_02A) (R c16_n45_n40)) (madd (R T_00_03A) (R c16_n13_n35))));
   Set_ O2A (add32 (add32 (madd (R T_00_00A) (R c16_p04_p40)) (madd (R T_00_01A) (R c16_n43_n35))) (add32 (madd (R T_00_02A) (R c16_p29_n13)) (madd (R T_00_03A) (R c16_p21_p45))))]
  ++ [Set_ O3A (add32 (add32 (madd (R T_00_00A) (R c16_n21_p35)) (madd (R T_00_01A) (R c16_p04_n43))) (add32 (madd (R T_00_02A) (R c16_p13_p45)) (madd (R T_00_03A) (R c16_n29_n40))));
   Set_ O4A (add32 (add32 (madd (R T_00_00A) (R c16_n40_p29)) (madd (R T_00_01A) (R c16_p45_n13))) (add32 (madd (R T_00_02A) (R c16_n43_n04)) (madd (R T_00_03A) (R c16_p35_p21))));
   Set_ O5A (add32 (add32 (madd (R T_00_00A) (R c16_n45_p21)) (madd (R T_00_01A) (R c16_p13_p29))) (add32 (madd (R T_00_02A) (R c16_p35_n43)) (madd (R T_00_03A) (R c16_n40_p04))));
   Set_ O6A (add32 (add32 (madd (R T_00_00A) (R c16_n35_p13)) (madd (R T_00_01A) (R c16_n40_p45))) (add32 (madd (R T_00_02A) (R c16_p04_p21)) (madd (R T_00_03A) (R c16_p43_n29))));
   Set_ O7A (add32 (add32 (madd (R T_00_00A) (R c16_n13_p04)) (madd (R T_00_01A) (R c16_n29_p21))) (add32 (madd (R T_00_02A) (R c16_n40_p35)) (madd (R T_00_03A) (R c16_n45_p43))));
   Set_ EO0A (add32 (madd (R T_00_04A) (R c16_p38_p44)) (madd (R T_00_05A) (R c16_p09_p25)));
   Set_ EO1A (add32 (madd (R T_00_04A) (R c16_n09_p38)) (madd (R T_00_05A) (R c16_n25_n44)));
   Set_ EO2A (add32 (madd (R T_00_04A) (R c16_n44_p25)) (madd (R T_00_05A) (R c16_p38_p09)));
   Set_ EO3A (add32 (madd (R T_00_04A) (R c16_n25_p09)) (madd (R T_00_05A) (R c16_n44_p38)));
   Set_ EEO0A (madd (R T_00_06A) (R c16_p17_p42));
   Set_ EEO1A (madd (R T_00_06A) (R c16_n42_p17));
   Set_ EEE0A (madd (R T_00_07A) (R c16_p32_p32));
   Set_ EEE1A (madd (R T_00_07A) (R c16_n32_p32));
   Set_ EE0A (add32 (R EEE0A) (R EEO0A));
   Set_ EE1A (add32 (R EEE1A) (R EEO1A));
   Set_ EE3A (sub32 (R EEE0A) (R EEO0A));
   Set_ EE2A (sub32 (R EEE1A) (R EEO1A));
   Set_ T10A (add32 (add32 (R EE0A) (R EO0A)) (R c32_rnd));
   Set_ T11A (add32 (add32 (R EE1A) (R EO1A)) (R c32_rnd));
   Set_ T12A (add32 (add32 (R EE2A) (R EO2A)) (R c32_rnd));
   Set_ T13A (add32 (add32 (R EE3A) (R EO3A)) (R c32_rnd));
   Set_ T14A (add32 (sub32 (R EE3A) (R EO3A)) (R c32_rnd));
   Set_ T15A (add32 (sub32 (R EE2A) (R EO2A)) (R c32_rnd));
   Set_ T16A (add32 (sub32 (R EE1A) (R EO1A)) (R c32_rnd));
   Set_ T17A (add32 (sub32 (R EE0A) (R EO0A)) (R c32_rnd));
   Set_ T30A (Sra32 (add32 (R T10A) (R O0A)) (I 5));
   Set_ T31A (Sra32 (add32 (R T11A) (R O1A)) (I 5));
   Set_ T32A (Sra32 (add32 (R T12A) (R O2A)) (I 5));
   Set_ T33A (Sra32 (add32 (R T13A) (R O3A)) (I 5));
   Set_ T34A (Sra32 (add32 (R T14A) (R O4A)) (I 5));
   Set_ T35A (Sra32 (add32 (R T15A) (R O5A)) (I 5));
   Set_ T36A (Sra32 (add32 (R T16A) (R O6A)) (I 5));
   Set_ T37A (Sra32 (add32 (R T17A) (R O7A)) (I 5));
   Set_ T38A (Sra32 (sub32 (R T17A) (R O7A)) (I 5));
   Set_ T39A (Sra32 (sub32 (R T16A) (R O6A)) (I 5));
   Set_ T3AA (Sra32 (sub32 (R T15A) (R O5A)) (I 5));
   Set_ T3BA (Sra32 (sub32 (R T14A) (R O4A)) (I 5));
   Set_ T3CA (Sra32 (sub32 (R T13A) (R O3A)) (I 5));
   Set_ T3DA (Sra32 (sub32 (R T12A) (R O2A)) (I 5));
   Set_ T3EA (Sra32 (sub32 (R T11A) (R O1A)) (I 5));
   Set_ T3FA (Sra32 (sub32 (R T10A) (R O0A)) (I 5));
   Set_ res00 (packs32 (R T30A) (R T38A));
   Set_ res01 (packs32 (R T31A) (R T39A));
   Set_ res02 (packs32 (R T32A) (R T3AA));
   Set_ res03 (packs32 (R T33A) (R T3BA));
   Set_ res04 (packs32 (R T34A) (R T3CA));
   Set_ res05 (packs32 (R T35A) (R T3DA));
   Set_ res06 (packs32 (R T36A) (R T3EA));
   Set_ res07 (packs32 (R T37A) (R T3FA));
   Set_ tr0_0 (lo16 (R res00) (R res01));
   Set_ tr0_1 (hi16 (R res00) (R res01));
   Set_ tr0_2 (lo16 (R res02) (R res03));
   Set_ tr0_3 (hi16 (R res02) (R res03));
   Set_ tr0_4 (lo16 (R res04) (R res05));
   Set_ tr0_5 (hi16 (R res04) (R res05));
   Set_ tr0_6 (lo16 (R res06) (R res07));
   Set_ tr0_7 (hi16 (R res06) (R res07));
   Set_ tr1_0 (lo32 (R tr0_0) (R tr0_2));
   Set_ tr1_1 (hi32 (R tr0_0) (R tr0_2));
   Set_ tr1_2 (lo32 (R tr0_1) (R tr0_3));
   Set_ tr1_3 (hi32 (R tr0_1) (R tr0_3));
   Set_ tr1_4 (lo32 (R tr0_4) (R tr0_6));
   Set_ tr1_5 (hi32 (R tr0_4) (R tr0_6));
   Set_ tr1_6 (lo32 (R tr0_5) (R tr0_7))]
  ++ [Set_ tr1_7 (hi32 (R tr0_5) (R tr0_7));
   Set_ res00 (lo64 (R tr1_0) (R tr1_4));
   Set_ res02 (hi64 (R tr1_0) (R tr1_4));
   Set_ res04 (lo64 (R tr1_1) (R tr1_5));
   Set_ res06 (hi64 (R tr1_1) (R tr1_5));
   Set_ res01 (lo64 (R tr1_2) (R tr1_6));
   Set_ res03 (hi64 (R tr1_2) (R tr1_6));
   Set_ res05 (lo64 (R tr1_3) (R tr1_7));
   Set_ res07 (hi64 (R tr1_3) (R tr1_7));
   Set_ c32_rnd (S32 8 (Q RND2));
   Set_ T0 (lo16 (R res00) (R res04));
   Set_ E01 (add32 (madd (R T0) (R c16_p32_p32)) (R c32_rnd));
   Set_ E11 (add32 (madd (R T0) (R c16_n32_p32)) (R c32_rnd));
   Set_ T1 (hi16 (R res00) (R res04));
   Set_ E02 (add32 (madd (R T1) (R c16_p32_p32)) (R c32_rnd));
   Set_ E12 (add32 (madd (R T1) (R c16_n32_p32)) (R c32_rnd));
   Set_ T0 (lo16 (R res01) (R res05));
   Set_ E03 (add32 (madd (R T0) (R c16_p32_p32)) (R c32_rnd));
   Set_ E13 (add32 (madd (R T0) (R c16_n32_p32)) (R c32_rnd));
   Set_ T1 (hi16 (R res01) (R res05));
   Set_ E04 (add32 (madd (R T1) (R c16_p32_p32)) (R c32_rnd));
   Set_ E14 (add32 (madd (R T1) (R c16_n32_p32)) (R c32_rnd));
   Set_ T0 (lo16 (R res02) (R res06));
   Set_ O01 (madd (R T0) (R c16_p17_p42));
   Set_ O11 (madd (R T0) (R c16_n42_p17));
   Set_ T1 (hi16 (R res02) (R res06));
   Set_ O02 (madd (R T1) (R c16_p17_p42));
   Set_ O12 (madd (R T1) (R c16_n42_p17));
   Set_ T0 (lo16 (R res03) (R res07));
   Set_ O03 (madd (R T0) (R c16_p17_p42));
   Set_ O13 (madd (R T0) (R c16_n42_p17));
   Set_ T1 (hi16 (R res03) (R res07));
   Set_ O04 (madd (R T1) (R c16_p17_p42));
   Set_ O14 (madd (R T1) (R c16_n42_p17));
   Set_ res00 (packs32 (Sra32 (add32 (R E01) (R O01)) (Q SH2)) (Sra32 (add32 (R E02) (R O02)) (Q SH2)));
   Set_ res01 (packs32 (Sra32 (add32 (R E03) (R O03)) (Q SH2)) (Sra32 (add32 (R E04) (R O04)) (Q SH2)));
   Set_ res06 (packs32 (Sra32 (sub32 (R E01) (R O01)) (Q SH2)) (Sra32 (sub32 (R E02) (R O02)) (Q SH2)));
   Set_ res07 (packs32 (Sra32 (sub32 (R E03) (R O03)) (Q SH2)) (Sra32 (sub32 (R E04) (R O04)) (Q SH2)));
   Set_ res02 (packs32 (Sra32 (add32 (R E11) (R O11)) (Q SH2)) (Sra32 (add32 (R E12) (R O12)) (Q SH2)));
   Set_ res03 (packs32 (Sra32 (add32 (R E13) (R O13)) (Q SH2)) (Sra32 (add32 (R E14) (R O14)) (Q SH2)));
   Set_ res04 (packs32 (Sra32 (sub32 (R E11) (R O11)) (Q SH2)) (Sra32 (sub32 (R E12) (R O12)) (Q SH2)));
   Set_ res05 (packs32 (Sra32 (sub32 (R E13) (R O13)) (Q SH2)) (Sra32 (sub32 (R E14) (R O14)) (Q SH2)));
   Set_ T0 (lo16 (R res00) (R res02));
   Set_ T1 (hi16 (R res00) (R res02));
   Set_ T2 (lo16 (R res04) (R res06));
   Set_ T3 (hi16 (R res04) (R res06));
   Set_ res00 (lo32 (R T0) (R T2));
   Set_ res02 (hi32 (R T0) (R T2));
   Set_ res04 (lo32 (R T1) (R T3));
   Set_ res06 (hi32 (R T1) (R T3));
   Set_ T0 (lo16 (R res01) (R res03));
   Set_ T1 (hi16 (R res01) (R res03));
   Set_ T2 (lo16 (R res05) (R res07));
   Set_ T3 (hi16 (R res05) (R res07));
   Set_ res01 (lo32 (R T0) (R T2));
   Set_ res03 (hi32 (R T0) (R T2));
   Set_ res05 (lo32 (R T1) (R T3));
   Set_ res07 (hi32 (R T1) (R T3));
   Set_ max_val (S16 8 (Q HI2));
   Set_ min_val (S16 8 (Q LO2));
   Set_ res00 (max16 (min16 (R res00) (R max_val)) (R min_val));
   Set_ res02 (max16 (min16 (R res02) (R max_val)) (R min_val));
   Set_ res04 (max16 (min16 (R res04) (R max_val)) (R min_val));
   Set_ res06 (max16 (min16 (R res06) (R max_val)) (R min_val))]
  ++ [Set_ res01 (max16 (min16 (R res01) (R max_val)) (R min_val));
   Set_ res03 (max16 (min16 (R res03) (R max_val)) (R min_val));
   Set_ res05 (max16 (min16 (R res05) (R max_val)) (R min_val));
   Set_ res07 (max16 (min16 (R res07) (R max_val)) (R min_val));
   St 8 0 0 0 (R res00);
   St 8 0 0 8 (R res02);
   St 8 0 0 16 (R res04);
   St 8 0 0 24 (R res06);
   St 8 0 0 32 (R res01);
   St 8 0 0 40 (R res03);
   St 8 0 0 48 (R res05);
   St 8 0 0 56 (R res07)].

(** vec/intrinsic_idct.cc:158-458 [idct_4x16_sse128], the branch for any other stride. *)
Definition idct_4x16_sse128 : list ins :=
  let c16_p43_p45 := 1 in let c16_p35_p40 := 2 in let c16_p21_p29 := 3 in let c16_p04_p13 := 4 in let c16_p29_p43 := 5 in let c16_n21_p04 := 6 in
  let c16_n45_n40 := 7 in let c16_n13_n35 := 8 in let c16_p04_p40 := 9 in let c16_n43_n35 := 10 in let c16_p29_n13 := 11 in let c16_p21_p45 := 12 in
  let c16_n21_p35 := 13 in let c16_p04_n43 := 14 in let c16_p13_p45 := 15 in let c16_n29_n40 := 16 in let c16_n40_p29 := 17 in
  let c16_p45_n13 := 18 in let c16_n43_n04 := 19 in let c16_p35_p21 := 20 in let c16_n45_p21 := 21 in let c16_p13_p29 := 22 in
  let c16_p35_n43 := 23 in let c16_n40_p04 := 24 in let c16_n35_p13 := 25 in let c16_n40_p45 := 26 in let c16_p04_p21 := 27 in
  let c16_p43_n29 := 28 in let c16_n13_p04 := 29 in let c16_n29_p21 := 30 in let c16_n40_p35 := 31 in let c16_n45_p43 := 32 in
  let c16_p38_p44 := 33 in let c16_p09_p25 := 34 in let c16_n09_p38 := 35 in let c16_n25_n44 := 36 in let c16_n44_p25 := 37 in
  let c16_p38_p09 := 38 in let c16_n25_p09 := 39 in let c16_n44_p38 := 40 in let c16_p17_p42 := 41 in let c16_n42_p17 := 42 in
  let c16_n32_p32 := 43 in let c16_p32_p32 := 44 in let c32_rnd := 45 in let in00 := 46 in let in01 := 47 in let in02 := 48 in let in03 := 49 in
  let in04 := 50 in let in05 := 51 in let in06 := 52 in let in07 := 53 in let res00 := 54 in let res01 := 55 in let res02 := 56 in let res03 := 57 in
  let res04 := 58 in let res05 := 59 in let res06 := 60 in let res07 := 61 in let T_00_00A := 62 in let T_00_01A := 63 in let T_00_02A := 64 in
  let T_00_03A := 65 in let T_00_04A := 66 in let T_00_05A := 67 in let T_00_06A := 68 in let T_00_07A := 69 in let O0A := 70 in let O1A := 71 in
  let O2A := 72 in let O3A := 73 in let O4A := 74 in let O5A := 75 in let O6A := 76 in let O7A := 77 in let EO0A := 78 in let EO1A := 79 in
  let EO2A := 80 in let EO3A := 81 in let EEO0A := 82 in let EEO1A := 83 in let EEE0A := 84 in let EEE1A := 85 in let EE0A := 86 in let EE1A := 87 in
  let EE3A := 88 in let EE2A := 89 in let T10A := 90 in let T11A := 91 in let T12A := 92 in let T13A := 93 in let T14A := 94 in let T15A := 95 in
  let T16A := 96 in let T17A := 97 in let T30A := 98 in let T31A := 99 in let T32A := 100 in let T33A := 101 in let T34A := 102 in let T35A := 103 in
  let T36A := 104 in let T37A := 105 in let T38A := 106 in let T39A := 107 in let T3AA := 108 in let T3BA := 109 in let T3CA := 110 in
  let T3DA := 111 in let T3EA := 112 in let T3FA := 113 in let tr0_0 := 114 in let tr0_1 := 115 in let tr0_2 := 116 in let tr0_3 := 117 in
  let tr0_4 := 118 in let tr0_5 := 119 in let tr0_6 := 120 in let tr0_7 := 121 in let tr1_0 := 122 in let tr1_1 := 123 in let tr1_2 := 124 in
  let tr1_3 := 125 in let tr1_4 := 126 in let tr1_5 := 127 in let tr1_6 := 128 in let tr1_7 := 129 in let E01 := 130 in let E02 := 131 in
  let E03 := 132 in let E04 := 133 in let E11 := 134 in let E12 := 135 in let E13 := 136 in let E14 := 137 in let O01 := 138 in let O02 := 139 in
  let O03 := 140 in let O04 := 141 in let O11 := 142 in let O12 := 143 in let O13 := 144 in let O14 := 145 in let T0 := 146 in let T1 := 147 in
  let T2 := 148 in let T3 := 149 in let max_val := 150 in let min_val := 151 in
  [Set_ c16_p43_p45 (S32 8 (I 2818093));
   Set_ c16_p35_p40 (S32 8 (I 2293800));
   Set_ c16_p21_p29 (S32 8 (I 1376285));
   Set_ c16_p04_p13 (S32 8 (I 262157));
   Set_ c16_p29_p43 (S32 8 (I 1900587));
   Set_ c16_n21_p04 (S32 8 (I (-1376252)));
   Set_ c16_n45_n40 (S32 8 (I (-2883624)));
   Set_ c16_n13_n35 (S32 8 (I (-786467)));
   Set_ c16_p04_p40 (S32 8 (I 262184));
   Set_ c16_n43_n35 (S32 8 (I (-2752547)));
   Set_ c16_p29_n13 (S32 8 (I 1966067));
   Set_ c16_p21_p45 (S32 8 (I 1376301));
   Set_ c16_n21_p35 (S32 8 (I (-1376221)));
   Set_ c16_p04_n43 (S32 8 (I 327637));
   Set_ c16_p13_p45 (S32 8 (I 852013));
   Set_ c16_n29_n40 (S32 8 (I (-1835048)));
   Set_ c16_n40_p29 (S32 8 (I (-2621411)));
   Set_ c16_p45_n13 (S32 8 (I 3014643));
   Set_ c16_n43_n04 (S32 8 (I (-2752516)));
   Set_ c16_p35_p21 (S32 8 (I 2293781));
   Set_ c16_n45_p21 (S32 8 (I (-2949099)));
   Set_ c16_p13_p29 (S32 8 (I 851997));
   Set_ c16_p35_n43 (S32 8 (I 2359253));
   Set_ c16_n40_p04 (S32 8 (I (-2621436)));
   Set_ c16_n35_p13 (S32 8 (I (-2293747)));
   Set_ c16_n40_p45 (S32 8 (I (-2621395)));
   Set_ c16_p04_p21 (S32 8 (I 262165));
   Set_ c16_p43_n29 (S32 8 (I 2883555));
   Set_ c16_n13_p04 (S32 8 (I (-851964)));
   Set_ c16_n29_p21 (S32 8 (I (-1900523)));
   Set_ c16_n40_p35 (S32 8 (I (-2621405)));
   Set_ c16_n45_p43 (S32 8 (I (-2949077)));
   Set_ c16_p38_p44 (S32 8 (I 2490412));
   Set_ c16_p09_p25 (S32 8 (I 589849));
   Set_ c16_n09_p38 (S32 8 (I (-589786)));
   Set_ c16_n25_n44 (S32 8 (I (-1572908)));
   Set_ c16_n44_p25 (S32 8 (I (-2883559)));
   Set_ c16_p38_p09 (S32 8 (I 2490377));
   Set_ c16_n25_p09 (S32 8 (I (-1638391)));
   Set_ c16_n44_p38 (S32 8 (I (-2883546)));
   Set_ c16_p17_p42 (S32 8 (I 1114154));
   Set_ c16_n42_p17 (S32 8 (I (-2752495)));
   Set_ c16_n32_p32 (S32 8 (I (-2097120)));
   Set_ c16_p32_p32 (S32 8 (I 2097184));
   Set_ c32_rnd (S32 8 (I 16));
   Set_ in00 (Ld 8 0);
   Set_ in01 (Ld 8 8);
   Set_ in02 (Ld 8 16);
   Set_ in03 (Ld 8 24);
   Set_ in04 (Ld 8 32);
   Set_ in05 (Ld 8 40);
   Set_ in06 (Ld 8 48);
   Set_ in07 (Ld 8 56);
   Set_ T_00_00A (hi16 (R in00) (R in01));
   Set_ T_00_01A (hi16 (R in02) (R in03));
   Set_ T_00_02A (hi16 (R in04) (R in05));
   Set_ T_00_03A (hi16 (R in06) (R in07));
   Set_ T_00_04A (lo16 (R in01) (R in03));
   Set_ T_00_05A (lo16 (R in05) (R in07));
   Set_ T_00_06A (lo16 (R in02) (R in06));
   Set_ T_00_07A (lo16 (R in00) (R in04));
   Set_ O0A (add32 (add32 (madd (R T_00_00A) (R c16_p43_p45)) (madd (R T_00_01A) (R c16_p35_p40))) (add32 (madd (R T_00_02A) (R c16_p21_p29)) (madd (R T_00_03A) (R c16_p04_p13))));
   Set_ O1A (add32 (add32 (madd (R T_00_00A) (R c16_p29_p43)) (madd (R T_00_01A) (R c16_n21_p04))) (add32 (madd (R T_00_02A) (R c16_n45_n40)) (madd (R T_00_03A) (R c16_n13_n35))));
   Set_ O2A (add32 (add32 (madd (R T_00_00A) (R c16_p04_p40)) (madd (R T_00_01A) (R c16_n43_n35))) (add32 (madd (R T_00_02A) (R c16_p29_n13)) (madd (R T_00_03A) (R c16_p21_p45))))]
  ++ [Set_ O3A (add32 (add32 (madd (R T_00_00A) (R c16_n21_p35)) (madd (R T_00_01A) (R c16_p04_n43))) (add32 (madd (R T_00_02A) (R c16_p13_p45)) (madd (R T_00_03A) (R c16_n29_n40))));
   Set_ O4A (add32 (add32 (madd (R T_00_00A) (R c16_n40_p29)) (madd (R T_00_01A) (R c16_p45_n13))) (add32 (madd (R T_00_02A) (R c16_n43_n04)) (madd (R T_00_03A) (R c16_p35_p21))));
   Set_ O5A (add32 (add32 (madd (R T_00_00A) (R c16_n45_p21)) (madd (R T_00_01A) (R c16_p13_p29))) (add32 (madd (R T_00_02A) (R c16_p35_n43)) (madd (R T_00_03A) (R c16_n40_p04))));
   Set_ O6A (add32 (add32 (madd (R T_00_00A) (R c16_n35_p13)) (madd (R T_00_01A) (R c16_n40_p45))) (add32 (madd (R T_00_02A) (R c16_p04_p21)) (madd (R T_00_03A) (R c16_p43_n29))));
   Set_ O7A (add32 (add32 (madd (R T_00_00A) (R c16_n13_p04)) (madd (R T_00_01A) (R c16_n29_p21))) (add32 (madd (R T_00_02A) (R c16_n40_p35)) (madd (R T_00_03A) (R c16_n45_p43))));
   Set_ EO0A (add32 (madd (R T_00_04A) (R c16_p38_p44)) (madd (R T_00_05A) (R c16_p09_p25)));
   Set_ EO1A (add32 (madd (R T_00_04A) (R c16_n09_p38)) (madd (R T_00_05A) (R c16_n25_n44)));
   Set_ EO2A (add32 (madd (R T_00_04A) (R c16_n44_p25)) (madd (R T_00_05A) (R c16_p38_p09)));
   Set_ EO3A (add32 (madd (R T_00_04A) (R c16_n25_p09)) (madd (R T_00_05A) (R c16_n44_p38)));
   Set_ EEO0A (madd (R T_00_06A) (R c16_p17_p42));
   Set_ EEO1A (madd (R T_00_06A) (R c16_n42_p17));
   Set_ EEE0A (madd (R T_00_07A) (R c16_p32_p32));
   Set_ EEE1A (madd (R T_00_07A) (R c16_n32_p32));
   Set_ EE0A (add32 (R EEE0A) (R EEO0A));
   Set_ EE1A (add32 (R EEE1A) (R EEO1A));
   Set_ EE3A (sub32 (R EEE0A) (R EEO0A));
   Set_ EE2A (sub32 (R EEE1A) (R EEO1A));
   Set_ T10A (add32 (add32 (R EE0A) (R EO0A)) (R c32_rnd));
   Set_ T11A (add32 (add32 (R EE1A) (R EO1A)) (R c32_rnd));
   Set_ T12A (add32 (add32 (R EE2A) (R EO2A)) (R c32_rnd));
   Set_ T13A (add32 (add32 (R EE3A) (R EO3A)) (R c32_rnd));
   Set_ T14A (add32 (sub32 (R EE3A) (R EO3A)) (R c32_rnd));
   Set_ T15A (add32 (sub32 (R EE2A) (R EO2A)) (R c32_rnd));
   Set_ T16A (add32 (sub32 (R EE1A) (R EO1A)) (R c32_rnd));
   Set_ T17A (add32 (sub32 (R EE0A) (R EO0A)) (R c32_rnd));
   Set_ T30A (Sra32 (add32 (R T10A) (R O0A)) (I 5));
   Set_ T31A (Sra32 (add32 (R T11A) (R O1A)) (I 5));
   Set_ T32A (Sra32 (add32 (R T12A) (R O2A)) (I 5));
   Set_ T33A (Sra32 (add32 (R T13A) (R O3A)) (I 5));
   Set_ T34A (Sra32 (add32 (R T14A) (R O4A)) (I 5));
   Set_ T35A (Sra32 (add32 (R T15A) (R O5A)) (I 5));
   Set_ T36A (Sra32 (add32 (R T16A) (R O6A)) (I 5));
   Set_ T37A (Sra32 (add32 (R T17A) (R O7A)) (I 5));
   Set_ T38A (Sra32 (sub32 (R T17A) (R O7A)) (I 5));
   Set_ T39A (Sra32 (sub32 (R T16A) (R O6A)) (I 5));
   Set_ T3AA (Sra32 (sub32 (R T15A) (R O5A)) (I 5));
   Set_ T3BA (Sra32 (sub32 (R T14A) (R O4A)) (I 5));
   Set_ T3CA (Sra32 (sub32 (R T13A) (R O3A)) (I 5));
   Set_ T3DA (Sra32 (sub32 (R T12A) (R O2A)) (I 5));
   Set_ T3EA (Sra32 (sub32 (R T11A) (R O1A)) (I 5));
   Set_ T3FA (Sra32 (sub32 (R T10A) (R O0A)) (I 5));
   Set_ res00 (packs32 (R T30A) (R T38A));
   Set_ res01 (packs32 (R T31A) (R T39A));
   Set_ res02 (packs32 (R T32A) (R T3AA));
   Set_ res03 (packs32 (R T33A) (R T3BA));
   Set_ res04 (packs32 (R T34A) (R T3CA));
   Set_ res05 (packs32 (R T35A) (R T3DA));
   Set_ res06 (packs32 (R T36A) (R T3EA));
   Set_ res07 (packs32 (R T37A) (R T3FA));
   Set_ tr0_0 (lo16 (R res00) (R res01));
   Set_ tr0_1 (hi16 (R res00) (R res01));
   Set_ tr0_2 (lo16 (R res02) (R res03));
   Set_ tr0_3 (hi16 (R res02) (R res03));
   Set_ tr0_4 (lo16 (R res04) (R res05));
   Set_ tr0_5 (hi16 (R res04) (R res05));
   Set_ tr0_6 (lo16 (R res06) (R res07));
   Set_ tr0_7 (hi16 (R res06) (R res07));
   Set_ tr1_0 (lo32 (R tr0_0) (R tr0_2));
   Set_ tr1_1 (hi32 (R tr0_0) (R tr0_2));
   Set_ tr1_2 (lo32 (R tr0_1) (R tr0_3));
   Set_ tr1_3 (hi32 (R tr0_1) (R tr0_3));
   Set_ tr1_4 (lo32 (R tr0_4) (R tr0_6));
   Set_ tr1_5 (hi32 (R tr0_4) (R tr0_6));
   Set_ tr1_6 (lo32 (R tr0_5) (R tr0_7))]
  ++ [Set_ tr1_7 (hi32 (R tr0_5) (R tr0_7));
   Set_ res00 (lo64 (R tr1_0) (R tr1_4));
   Set_ res02 (hi64 (R tr1_0) (R tr1_4));
   Set_ res04 (lo64 (R tr1_1) (R tr1_5));
   Set_ res06 (hi64 (R tr1_1) (R tr1_5));
   Set_ res01 (lo64 (R tr1_2) (R tr1_6));
   Set_ res03 (hi64 (R tr1_2) (R tr1_6));
   Set_ res05 (lo64 (R tr1_3) (R tr1_7));
   Set_ res07 (hi64 (R tr1_3) (R tr1_7));
   Set_ c32_rnd (S32 8 (Q RND2));
   Set_ T0 (lo16 (R res00) (R res04));
   Set_ E01 (add32 (madd (R T0) (R c16_p32_p32)) (R c32_rnd));
   Set_ E11 (add32 (madd (R T0) (R c16_n32_p32)) (R c32_rnd));
   Set_ T1 (hi16 (R res00) (R res04));
   Set_ E02 (add32 (madd (R T1) (R c16_p32_p32)) (R c32_rnd));
   Set_ E12 (add32 (madd (R T1) (R c16_n32_p32)) (R c32_rnd));
   Set_ T0 (lo16 (R res01) (R res05));
   Set_ E03 (add32 (madd (R T0) (R c16_p32_p32)) (R c32_rnd));
   Set_ E13 (add32 (madd (R T0) (R c16_n32_p32)) (R c32_rnd));
   Set_ T1 (hi16 (R res01) (R res05));
   Set_ E04 (add32 (madd (R T1) (R c16_p32_p32)) (R c32_rnd));
   Set_ E14 (add32 (madd (R T1) (R c16_n32_p32)) (R c32_rnd));
   Set_ T0 (lo16 (R res02) (R res06));
   Set_ O01 (madd (R T0) (R c16_p17_p42));
   Set_ O11 (madd (R T0) (R c16_n42_p17));
   Set_ T1 (hi16 (R res02) (R res06));
   Set_ O02 (madd (R T1) (R c16_p17_p42));
   Set_ O12 (madd (R T1) (R c16_n42_p17));
   Set_ T0 (lo16 (R res03) (R res07));
   Set_ O03 (madd (R T0) (R c16_p17_p42));
   Set_ O13 (madd (R T0) (R c16_n42_p17));
   Set_ T1 (hi16 (R res03) (R res07));
   Set_ O04 (madd (R T1) (R c16_p17_p42));
   Set_ O14 (madd (R T1) (R c16_n42_p17));
   Set_ res00 (packs32 (Sra32 (add32 (R E01) (R O01)) (Q SH2)) (Sra32 (add32 (R E02) (R O02)) (Q SH2)));
   Set_ res01 (packs32 (Sra32 (add32 (R E03) (R O03)) (Q SH2)) (Sra32 (add32 (R E04) (R O04)) (Q SH2)));
   Set_ res06 (packs32 (Sra32 (sub32 (R E01) (R O01)) (Q SH2)) (Sra32 (sub32 (R E02) (R O02)) (Q SH2)));
   Set_ res07 (packs32 (Sra32 (sub32 (R E03) (R O03)) (Q SH2)) (Sra32 (sub32 (R E04) (R O04)) (Q SH2)));
   Set_ res02 (packs32 (Sra32 (add32 (R E11) (R O11)) (Q SH2)) (Sra32 (add32 (R E12) (R O12)) (Q SH2)));
   Set_ res03 (packs32 (Sra32 (add32 (R E13) (R O13)) (Q SH2)) (Sra32 (add32 (R E14) (R O14)) (Q SH2)));
   Set_ res04 (packs32 (Sra32 (sub32 (R E11) (R O11)) (Q SH2)) (Sra32 (sub32 (R E12) (R O12)) (Q SH2)));
   Set_ res05 (packs32 (Sra32 (sub32 (R E13) (R O13)) (Q SH2)) (Sra32 (sub32 (R E14) (R O14)) (Q SH2)));
   Set_ T0 (lo16 (R res00) (R res02));
   Set_ T1 (hi16 (R res00) (R res02));
   Set_ T2 (lo16 (R res04) (R res06));
   Set_ T3 (hi16 (R res04) (R res06));
   Set_ res00 (lo32 (R T0) (R T2));
   Set_ res02 (hi32 (R T0) (R T2));
   Set_ res04 (lo32 (R T1) (R T3));
   Set_ res06 (hi32 (R T1) (R T3));
   Set_ T0 (lo16 (R res01) (R res03));
   Set_ T1 (hi16 (R res01) (R res03));
   Set_ T2 (lo16 (R res05) (R res07));
   Set_ T3 (hi16 (R res05) (R res07));
   Set_ res01 (lo32 (R T0) (R T2));
   Set_ res03 (hi32 (R T0) (R T2));
   Set_ res05 (lo32 (R T1) (R T3));
   Set_ res07 (hi32 (R T1) (R T3));
   Set_ max_val (S16 8 (Q HI2));
   Set_ min_val (S16 8 (Q LO2));
   Set_ res00 (max16 (min16 (R res00) (R max_val)) (R min_val));
   Set_ res02 (max16 (min16 (R res02) (R max_val)) (R min_val));
   Set_ res04 (max16 (min16 (R res04) (R max_val)) (R min_val));
   Set_ res06 (max16 (min16 (R res06) (R max_val)) (R min_val))]
  ++ [Set_ res01 (max16 (min16 (R res01) (R max_val)) (R min_val));
   Set_ res03 (max16 (min16 (R res03) (R max_val)) (R min_val));
   Set_ res05 (max16 (min16 (R res05) (R max_val)) (R min_val));
   Set_ res07 (max16 (min16 (R res07) (R max_val)) (R min_val));
   St 4 0 0 0 (R res00);
   St 4 4 1 0 (R res00);
   St 4 0 2 0 (R res02);
   St 4 4 3 0 (R res02);
   St 4 0 4 0 (R res04);
   St 4 4 5 0 (R res04);
   St 4 0 6 0 (R res06);
   St 4 4 7 0 (R res06);
   St 4 0 8 0 (R res01);
   St 4 4 9 0 (R res01);
   St 4 0 10 0 (R res03);
   St 4 4 11 0 (R res03);
   St 4 0 12 0 (R res05);
   St 4 4 13 0 (R res05);
   St 4 0 14 0 (R res07);
   St 4 4 15 0 (R res07)].

(** vec/intrinsic_idct.cc:480-743 [idct_16x4_sse128]. *)
Definition idct_16x4_sse128 : list ins :=
  let c16_p43_p45 := 1 in let c16_p35_p40 := 2 in let c16_p21_p29 := 3 in let c16_p04_p13 := 4 in let c16_p29_p43 := 5 in let c16_n21_p04 := 6 in
  let c16_n45_n40 := 7 in let c16_n13_n35 := 8 in let c16_p04_p40 := 9 in let c16_n43_n35 := 10 in let c16_p29_n13 := 11 in let c16_p21_p45 := 12 in
  let c16_n21_p35 := 13 in let c16_p04_n43 := 14 in let c16_p13_p45 := 15 in let c16_n29_n40 := 16 in let c16_n40_p29 := 17 in
  let c16_p45_n13 := 18 in let c16_n43_n04 := 19 in let c16_p35_p21 := 20 in let c16_n45_p21 := 21 in let c16_p13_p29 := 22 in
  let c16_p35_n43 := 23 in let c16_n40_p04 := 24 in let c16_n35_p13 := 25 in let c16_n40_p45 := 26 in let c16_p04_p21 := 27 in
  let c16_p43_n29 := 28 in let c16_n13_p04 := 29 in let c16_n29_p21 := 30 in let c16_n40_p35 := 31 in let c16_n45_p43 := 32 in
  let c16_p38_p44 := 33 in let c16_p09_p25 := 34 in let c16_n09_p38 := 35 in let c16_n25_n44 := 36 in let c16_n44_p25 := 37 in
  let c16_p38_p09 := 38 in let c16_n25_p09 := 39 in let c16_n44_p38 := 40 in let c16_p17_p42 := 41 in let c16_n42_p17 := 42 in
  let c16_n32_p32 := 43 in let c16_p32_p32 := 44 in let c32_rnd := 45 in let in00 := 46 in let in01 := 48 in let in02 := 50 in let in03 := 52 in
  let res00 := 54 in let res01 := 56 in let res02 := 58 in let res03 := 60 in let T_00_00A := 62 in let T_00_00B := 63 in let T_00_01A := 64 in
  let T_00_01B := 65 in let E0A := 66 in let E0B := 67 in let E1A := 68 in let E1B := 69 in let O0A := 70 in let O0B := 71 in let O1A := 72 in
  let O1B := 73 in let tr0_0 := 74 in let tr0_1 := 75 in let tr0_2 := 76 in let tr0_3 := 77 in let tr0_4 := 78 in let tr0_5 := 79 in
  let tr0_6 := 80 in let tr0_7 := 81 in let tr1_0 := 82 in let tr1_1 := 83 in let tr1_2 := 84 in let tr1_3 := 85 in let tr1_4 := 86 in
  let tr1_5 := 87 in let tr1_6 := 88 in let tr1_7 := 89 in let T_00_00A_2 := 90 in let T_00_01A_2 := 91 in let T_00_02A := 92 in let T_00_03A := 93 in
  let T_00_04A := 94 in let T_00_05A := 95 in let T_00_06A := 96 in let T_00_07A := 97 in let O0A_2 := 98 in let O1A_2 := 99 in let O2A := 100 in
  let O3A := 101 in let O4A := 102 in let O5A := 103 in let O6A := 104 in let O7A := 105 in let EO0A := 106 in let EO1A := 107 in let EO2A := 108 in
  let EO3A := 109 in let EEO0A := 110 in let EEO1A := 111 in let EEE0A := 112 in let EEE1A := 113 in let EE0A := 114 in let EE1A := 115 in
  let EE3A := 116 in let EE2A := 117 in let T10A := 118 in let T11A := 119 in let T12A := 120 in let T13A := 121 in let T14A := 122 in
  let T15A := 123 in let T16A := 124 in let T17A := 125 in let T30A := 126 in let T31A := 127 in let T32A := 128 in let T33A := 129 in
  let T34A := 130 in let T35A := 131 in let T36A := 132 in let T37A := 133 in let T38A := 134 in let T39A := 135 in let T3AA := 136 in
  let T3BA := 137 in let T3CA := 138 in let T3DA := 139 in let T3EA := 140 in let T3FA := 141 in let max_val := 142 in let min_val := 143 in
  [Set_ c16_p43_p45 (S32 8 (I 2818093));
   Set_ c16_p35_p40 (S32 8 (I 2293800));
   Set_ c16_p21_p29 (S32 8 (I 1376285));
   Set_ c16_p04_p13 (S32 8 (I 262157));
   Set_ c16_p29_p43 (S32 8 (I 1900587));
   Set_ c16_n21_p04 (S32 8 (I (-1376252)));
   Set_ c16_n45_n40 (S32 8 (I (-2883624)));
   Set_ c16_n13_n35 (S32 8 (I (-786467)));
   Set_ c16_p04_p40 (S32 8 (I 262184));
   Set_ c16_n43_n35 (S32 8 (I (-2752547)));
   Set_ c16_p29_n13 (S32 8 (I 1966067));
   Set_ c16_p21_p45 (S32 8 (I 1376301));
   Set_ c16_n21_p35 (S32 8 (I (-1376221)));
   Set_ c16_p04_n43 (S32 8 (I 327637));
   Set_ c16_p13_p45 (S32 8 (I 852013));
   Set_ c16_n29_n40 (S32 8 (I (-1835048)));
   Set_ c16_n40_p29 (S32 8 (I (-2621411)));
   Set_ c16_p45_n13 (S32 8 (I 3014643));
   Set_ c16_n43_n04 (S32 8 (I (-2752516)));
   Set_ c16_p35_p21 (S32 8 (I 2293781));
   Set_ c16_n45_p21 (S32 8 (I (-2949099)));
   Set_ c16_p13_p29 (S32 8 (I 851997));
   Set_ c16_p35_n43 (S32 8 (I 2359253));
   Set_ c16_n40_p04 (S32 8 (I (-2621436)));
   Set_ c16_n35_p13 (S32 8 (I (-2293747)));
   Set_ c16_n40_p45 (S32 8 (I (-2621395)));
   Set_ c16_p04_p21 (S32 8 (I 262165));
   Set_ c16_p43_n29 (S32 8 (I 2883555));
   Set_ c16_n13_p04 (S32 8 (I (-851964)));
   Set_ c16_n29_p21 (S32 8 (I (-1900523)));
   Set_ c16_n40_p35 (S32 8 (I (-2621405)));
   Set_ c16_n45_p43 (S32 8 (I (-2949077)));
   Set_ c16_p38_p44 (S32 8 (I 2490412));
   Set_ c16_p09_p25 (S32 8 (I 589849));
   Set_ c16_n09_p38 (S32 8 (I (-589786)));
   Set_ c16_n25_n44 (S32 8 (I (-1572908)));
   Set_ c16_n44_p25 (S32 8 (I (-2883559)));
   Set_ c16_p38_p09 (S32 8 (I 2490377));
   Set_ c16_n25_p09 (S32 8 (I (-1638391)));
   Set_ c16_n44_p38 (S32 8 (I (-2883546)));
   Set_ c16_p17_p42 (S32 8 (I 1114154));
   Set_ c16_n42_p17 (S32 8 (I (-2752495)));
   Set_ c16_n32_p32 (S32 8 (I (-2097120)));
   Set_ c16_p32_p32 (S32 8 (I 2097184));
   Set_ c32_rnd (S32 8 (I 16))]
  ++ loop 2 (fun i =>
    [Set_ (in00 + i) (Ld 8 (8 * i));
     Set_ (in01 + i) (Ld 8 (8 * i + 16));
     Set_ (in02 + i) (Ld 8 (8 * i + 32));
     Set_ (in03 + i) (Ld 8 (8 * i + 48))])
  ++ loop 2 (fun part =>
    [Set_ T_00_00A (lo16 (R (in01 + part)) (R (in03 + part)));
     Set_ T_00_00B (hi16 (R (in01 + part)) (R (in03 + part)));
     Set_ T_00_01A (lo16 (R (in00 + part)) (R (in02 + part)));
     Set_ T_00_01B (hi16 (R (in00 + part)) (R (in02 + part)));
     Set_ E0A (add32 (madd (R T_00_01A) (R c16_p32_p32)) (R c32_rnd));
     Set_ E1A (add32 (madd (R T_00_01A) (R c16_n32_p32)) (R c32_rnd));
     Set_ E0B (add32 (madd (R T_00_01B) (R c16_p32_p32)) (R c32_rnd));
     Set_ E1B (add32 (madd (R T_00_01B) (R c16_n32_p32)) (R c32_rnd));
     Set_ O0A (madd (R T_00_00A) (R c16_p17_p42));
     Set_ O1A (madd (R T_00_00A) (R c16_n42_p17));
     Set_ O0B (madd (R T_00_00B) (R c16_p17_p42));
     Set_ O1B (madd (R T_00_00B) (R c16_n42_p17));
     Set_ (res00 + part) (packs32 (Sra32 (add32 (R E0A) (R O0A)) (I 5)) (Sra32 (add32 (R E0B) (R O0B)) (I 5)));
     Set_ (res03 + part) (packs32 (Sra32 (sub32 (R E0A) (R O0A)) (I 5)) (Sra32 (sub32 (R E0B) (R O0B)) (I 5)));
     Set_ (res01 + part) (packs32 (Sra32 (add32 (R E1A) (R O1A)) (I 5)) (Sra32 (add32 (R E1B) (R O1B)) (I 5)));
     Set_ (res02 + part) (packs32 (Sra32 (sub32 (R E1A) (R O1A)) (I 5)) (Sra32 (sub32 (R E1B) (R O1B)) (I 5)))])
  ++ [Set_ tr0_0 (lo16 (R res00) (R res01));
   Set_ tr0_1 (lo16 (R res02) (R res03));
   Set_ tr0_2 (hi16 (R res00) (R res01));
   Set_ tr0_3 (hi16 (R res02) (R res03));
   Set_ tr0_4 (lo16 (R (res00 + 1)) (R (res01 + 1)));
   Set_ tr0_5 (lo16 (R (res02 + 1)) (R (res03 + 1)));
   Set_ tr0_6 (hi16 (R (res00 + 1)) (R (res01 + 1)));
   Set_ tr0_7 (hi16 (R (res02 + 1)) (R (res03 + 1)));
   Set_ tr1_0 (lo32 (R tr0_0) (R tr0_1));
   Set_ tr1_1 (lo32 (R tr0_2) (R tr0_3));
   Set_ tr1_2 (hi32 (R tr0_0) (R tr0_1));
   Set_ tr1_3 (hi32 (R tr0_2) (R tr0_3));
   Set_ tr1_4 (lo32 (R tr0_4) (R tr0_5));
   Set_ tr1_5 (lo32 (R tr0_6) (R tr0_7));
   Set_ tr1_6 (hi32 (R tr0_4) (R tr0_5));
   Set_ tr1_7 (hi32 (R tr0_6) (R tr0_7));
   Set_ c32_rnd (S32 8 (Q RND2));
   Set_ T_00_00A_2 (hi16 (R tr1_0) (R tr1_2));
   Set_ T_00_01A_2 (hi16 (R tr1_1) (R tr1_3));
   Set_ T_00_02A (hi16 (R tr1_4) (R tr1_6));
   Set_ T_00_03A (hi16 (R tr1_5) (R tr1_7));
   Set_ T_00_04A (lo16 (R tr1_2) (R tr1_3));
   Set_ T_00_05A (lo16 (R tr1_6) (R tr1_7));
   Set_ T_00_06A (lo16 (R tr1_1) (R tr1_5));
   Set_ T_00_07A (lo16 (R tr1_0) (R tr1_4));
   Set_ O0A_2 (add32 (add32 (madd (R T_00_00A_2) (R c16_p43_p45)) (madd (R T_00_01A_2) (R c16_p35_p40))) (add32 (madd (R T_00_02A) (R c16_p21_p29)) (madd (R T_00_03A) (R c16_p04_p13))));
   Set_ O1A_2 (add32 (add32 (madd (R T_00_00A_2) (R c16_p29_p43)) (madd (R T_00_01A_2) (R c16_n21_p04))) (add32 (madd (R T_00_02A) (R c16_n45_n40)) (madd (R T_00_03A) (R c16_n13_n35))));
   Set_ O2A (add32 (add32 (madd (R T_00_00A_2) (R c16_p04_p40)) (madd (R T_00_01A_2) (R c16_n43_n35))) (add32 (madd (R T_00_02A) (R c16_p29_n13)) (madd (R T_00_03A) (R c16_p21_p45))));
   Set_ O3A (add32 (add32 (madd (R T_00_00A_2) (R c16_n21_p35)) (madd (R T_00_01A_2) (R c16_p04_n43))) (add32 (madd (R T_00_02A) (R c16_p13_p45)) (madd (R T_00_03A) (R c16_n29_n40))));
   Set_ O4A (add32 (add32 (madd (R T_00_00A_2) (R c16_n40_p29)) (madd (R T_00_01A_2) (R c16_p45_n13))) (add32 (madd (R T_00_02A) (R c16_n43_n04)) (madd (R T_00_03A) (R c16_p35_p21))));
   Set_ O5A (add32 (add32 (madd (R T_00_00A_2) (R c16_n45_p21)) (madd (R T_00_01A_2) (R c16_p13_p29))) (add32 (madd (R T_00_02A) (R c16_p35_n43)) (madd (R T_00_03A) (R c16_n40_p04))));
   Set_ O6A (add32 (add32 (madd (R T_00_00A_2) (R c16_n35_p13)) (madd (R T_00_01A_2) (R c16_n40_p45))) (add32 (madd (R T_00_02A) (R c16_p04_p21)) (madd (R T_00_03A) (R c16_p43_n29))));
   Set_ O7A (add32 (add32 (madd (R T_00_00A_2) (R c16_n13_p04)) (madd (R T_00_01A_2) (R c16_n29_p21))) (add32 (madd (R T_00_02A) (R c16_n40_p35)) (madd (R T_00_03A) (R c16_n45_p43))));
   Set_ EO0A (add32 (madd (R T_00_04A) (R c16_p38_p44)) (madd (R T_00_05A) (R c16_p09_p25)));
   Set_ EO1A (add32 (madd (R T_00_04A) (R c16_n09_p38)) (madd (R T_00_05A) (R c16_n25_n44)));
   Set_ EO2A (add32 (madd (R T_00_04A) (R c16_n44_p25)) (madd (R T_00_05A) (R c16_p38_p09)));
   Set_ EO3A (add32 (madd (R T_00_04A) (R c16_n25_p09)) (madd (R T_00_05A) (R c16_n44_p38)));
   Set_ EEO0A (madd (R T_00_06A) (R c16_p17_p42));
   Set_ EEO1A (madd (R T_00_06A) (R c16_n42_p17));
   Set_ EEE0A (madd (R T_00_07A) (R c16_p32_p32));
   Set_ EEE1A (madd (R T_00_07A) (R c16_n32_p32));
   Set_ EE0A (add32 (R EEE0A) (R EEO0A));
   Set_ EE1A (add32 (R EEE1A) (R EEO1A));
   Set_ EE3A (sub32 (R EEE0A) (R EEO0A));
   Set_ EE2A (sub32 (R EEE1A) (R EEO1A));
   Set_ T10A (add32 (add32 (R EE0A) (R EO0A)) (R c32_rnd));
   Set_ T11A (add32 (add32 (R EE1A) (R EO1A)) (R c32_rnd));
   Set_ T12A (add32 (add32 (R EE2A) (R EO2A)) (R c32_rnd));
   Set_ T13A (add32 (add32 (R EE3A) (R EO3A)) (R c32_rnd));
   Set_ T14A (add32 (sub32 (R EE3A) (R EO3A)) (R c32_rnd));
   Set_ T15A (add32 (sub32 (R EE2A) (R EO2A)) (R c32_rnd));
   Set_ T16A (add32 (sub32 (R EE1A) (R EO1A)) (R c32_rnd));
   Set_ T17A (add32 (sub32 (R EE0A) (R EO0A)) (R c32_rnd));
   Set_ T30A (Sra32 (add32 (R T10A) (R O0A_2)) (Q SH2));
   Set_ T31A (Sra32 (add32 (R T11A) (R O1A_2)) (Q SH2));
   Set_ T32A (Sra32 (add32 (R T12A) (R O2A)) (Q SH2));
   Set_ T33A (Sra32 (add32 (R T13A) (R O3A)) (Q SH2));
   Set_ T34A (Sra32 (add32 (R T14A) (R O4A)) (Q SH2));
   Set_ T35A (Sra32 (add32 (R T15A) (R O5A)) (Q SH2));
   Set_ T36A (Sra32 (add32 (R T16A) (R O6A)) (Q SH2));
   Set_ T37A (Sra32 (add32 (R T17A) (R O7A)) (Q SH2));
   Set_ T38A (Sra32 (sub32 (R T17A) (R O7A)) (Q SH2));
   Set_ T39A (Sra32 (sub32 (R T16A) (R O6A)) (Q SH2));
   Set_ T3AA (Sra32 (sub32 (R T15A) (R O5A)) (Q SH2))]
  ++ [Set_ T3BA (Sra32 (sub32 (R T14A) (R O4A)) (Q SH2));
   Set_ T3CA (Sra32 (sub32 (R T13A) (R O3A)) (Q SH2));
   Set_ T3DA (Sra32 (sub32 (R T12A) (R O2A)) (Q SH2));
   Set_ T3EA (Sra32 (sub32 (R T11A) (R O1A_2)) (Q SH2));
   Set_ T3FA (Sra32 (sub32 (R T10A) (R O0A_2)) (Q SH2));
   Set_ res00 (packs32 (R T30A) (R T38A));
   Set_ res01 (packs32 (R T31A) (R T39A));
   Set_ res02 (packs32 (R T32A) (R T3AA));
   Set_ res03 (packs32 (R T33A) (R T3BA));
   Set_ (res00 + 1) (packs32 (R T34A) (R T3CA));
   Set_ (res01 + 1) (packs32 (R T35A) (R T3DA));
   Set_ (res02 + 1) (packs32 (R T36A) (R T3EA));
   Set_ (res03 + 1) (packs32 (R T37A) (R T3FA));
   Set_ tr0_0 (lo16 (R res00) (R res01));
   Set_ tr0_1 (lo16 (R res02) (R res03));
   Set_ tr0_2 (hi16 (R res00) (R res01));
   Set_ tr0_3 (hi16 (R res02) (R res03));
   Set_ tr0_4 (lo16 (R (res00 + 1)) (R (res01 + 1)));
   Set_ tr0_5 (lo16 (R (res02 + 1)) (R (res03 + 1)));
   Set_ tr0_6 (hi16 (R (res00 + 1)) (R (res01 + 1)));
   Set_ tr0_7 (hi16 (R (res02 + 1)) (R (res03 + 1)));
   Set_ tr1_0 (lo32 (R tr0_0) (R tr0_1));
   Set_ tr1_1 (lo32 (R tr0_2) (R tr0_3));
   Set_ tr1_2 (hi32 (R tr0_0) (R tr0_1));
   Set_ tr1_3 (hi32 (R tr0_2) (R tr0_3));
   Set_ tr1_4 (lo32 (R tr0_4) (R tr0_5));
   Set_ tr1_5 (lo32 (R tr0_6) (R tr0_7));
   Set_ tr1_6 (hi32 (R tr0_4) (R tr0_5));
   Set_ tr1_7 (hi32 (R tr0_6) (R tr0_7));
   Set_ res00 (lo64 (R tr1_0) (R tr1_4));
   Set_ res01 (hi64 (R tr1_0) (R tr1_4));
   Set_ res02 (lo64 (R tr1_2) (R tr1_6));
   Set_ res03 (hi64 (R tr1_2) (R tr1_6));
   Set_ (res00 + 1) (lo64 (R tr1_1) (R tr1_5));
   Set_ (res01 + 1) (hi64 (R tr1_1) (R tr1_5));
   Set_ (res02 + 1) (lo64 (R tr1_3) (R tr1_7));
   Set_ (res03 + 1) (hi64 (R tr1_3) (R tr1_7));
   Set_ max_val (S16 8 (Q HI2));
   Set_ min_val (S16 8 (Q LO2));
   Set_ res00 (max16 (min16 (R res00) (R max_val)) (R min_val));
   Set_ res01 (max16 (min16 (R res01) (R max_val)) (R min_val));
   Set_ res02 (max16 (min16 (R res02) (R max_val)) (R min_val));
   Set_ res03 (max16 (min16 (R res03) (R max_val)) (R min_val));
   Set_ (res00 + 1) (max16 (min16 (R (res00 + 1)) (R max_val)) (R min_val));
   Set_ (res01 + 1) (max16 (min16 (R (res01 + 1)) (R max_val)) (R min_val));
   Set_ (res02 + 1) (max16 (min16 (R (res02 + 1)) (R max_val)) (R min_val));
   Set_ (res03 + 1) (max16 (min16 (R (res03 + 1)) (R max_val)) (R min_val));
   St 8 0 0 0 (R res00);
   St 8 0 0 8 (R (res00 + 1));
   St 8 0 1 0 (R res01);
   St 8 0 1 8 (R (res01 + 1));
   St 8 0 2 0 (R res02);
   St 8 0 2 8 (R (res02 + 1));
   St 8 0 3 0 (R res03);
   St 8 0 3 8 (R (res03 + 1))].

(** vec/intrinsic_idct.cc:765-1030 [idct_8x8_sse128]. *)
Definition idct_8x8_sse128 : list ins :=
  let S0 := 1 in let S1 := 2 in let S2 := 3 in let S3 := 4 in let S4 := 5 in let S5 := 6 in let S6 := 7 in let S7 := 8 in let mAdd := 9 in
  let T0 := 10 in let T1 := 11 in let T2 := 12 in let T3 := 13 in let E0h := 14 in let E1h := 15 in let E2h := 16 in let E3h := 17 in let E0l := 18 in
  let E1l := 19 in let E2l := 20 in let E3l := 21 in let O0h := 22 in let O1h := 23 in let O2h := 24 in let O3h := 25 in let O0l := 26 in
  let O1l := 27 in let O2l := 28 in let O3l := 29 in let EE0l := 30 in let EE1l := 31 in let E00l := 32 in let E01l := 33 in let EE0h := 34 in
  let EE1h := 35 in let E00h := 36 in let E01h := 37 in let T00 := 38 in let T01 := 39 in let T02 := 40 in let T03 := 41 in let T04 := 42 in
  let T05 := 43 in let T06 := 44 in let T07 := 45 in let max_val := 46 in let min_val := 47 in let T10 := 48 in let T11 := 49 in let T12 := 50 in
  let T13 := 51 in
  [Set_ mAdd (S32 8 (I 16));
   Set_ S1 (Ld 8 8);
   Set_ S3 (Ld 8 24);
   Set_ T0 (lo16 (R S1) (R S3));
   Set_ E1l (madd (R T0) (Cst [44; 38; 44; 38; 44; 38; 44; 38]));
   Set_ T1 (hi16 (R S1) (R S3));
   Set_ E1h (madd (R T1) (Cst [44; 38; 44; 38; 44; 38; 44; 38]));
   Set_ S5 (Ld 8 40);
   Set_ S7 (Ld 8 56);
   Set_ T2 (lo16 (R S5) (R S7));
   Set_ E2l (madd (R T2) (Cst [25; 9; 25; 9; 25; 9; 25; 9]));
   Set_ T3 (hi16 (R S5) (R S7));
   Set_ E2h (madd (R T3) (Cst [25; 9; 25; 9; 25; 9; 25; 9]));
   Set_ O0l (add32 (R E1l) (R E2l));
   Set_ O0h (add32 (R E1h) (R E2h));
   Set_ E1l (madd (R T0) (Cst [38; (-9); 38; (-9); 38; (-9); 38; (-9)]));
   Set_ E1h (madd (R T1) (Cst [38; (-9); 38; (-9); 38; (-9); 38; (-9)]));
   Set_ E2l (madd (R T2) (Cst [(-44); (-25); (-44); (-25); (-44); (-25); (-44); (-25)]));
   Set_ E2h (madd (R T3) (Cst [(-44); (-25); (-44); (-25); (-44); (-25); (-44); (-25)]));
   Set_ O1l (add32 (R E1l) (R E2l));
   Set_ O1h (add32 (R E1h) (R E2h));
   Set_ E1l (madd (R T0) (Cst [25; (-44); 25; (-44); 25; (-44); 25; (-44)]));
   Set_ E1h (madd (R T1) (Cst [25; (-44); 25; (-44); 25; (-44); 25; (-44)]));
   Set_ E2l (madd (R T2) (Cst [9; 38; 9; 38; 9; 38; 9; 38]));
   Set_ E2h (madd (R T3) (Cst [9; 38; 9; 38; 9; 38; 9; 38]));
   Set_ O2l (add32 (R E1l) (R E2l));
   Set_ O2h (add32 (R E1h) (R E2h));
   Set_ E1l (madd (R T0) (Cst [9; (-25); 9; (-25); 9; (-25); 9; (-25)]));
   Set_ E1h (madd (R T1) (Cst [9; (-25); 9; (-25); 9; (-25); 9; (-25)]));
   Set_ E2l (madd (R T2) (Cst [38; (-44); 38; (-44); 38; (-44); 38; (-44)]));
   Set_ E2h (madd (R T3) (Cst [38; (-44); 38; (-44); 38; (-44); 38; (-44)]));
   Set_ O3h (add32 (R E1h) (R E2h));
   Set_ O3l (add32 (R E1l) (R E2l));
   Set_ S0 (Ld 8 0);
   Set_ S4 (Ld 8 32);
   Set_ T0 (lo16 (R S0) (R S4));
   Set_ EE0l (madd (R T0) (Cst [32; 32; 32; 32; 32; 32; 32; 32]));
   Set_ T1 (hi16 (R S0) (R S4));
   Set_ EE0h (madd (R T1) (Cst [32; 32; 32; 32; 32; 32; 32; 32]));
   Set_ EE1l (madd (R T0) (Cst [32; (-32); 32; (-32); 32; (-32); 32; (-32)]));
   Set_ EE1h (madd (R T1) (Cst [32; (-32); 32; (-32); 32; (-32); 32; (-32)]));
   Set_ S2 (Ld 8 16);
   Set_ S6 (Ld 8 48);
   Set_ T0 (lo16 (R S2) (R S6));
   Set_ E00l (madd (R T0) (Cst [42; 17; 42; 17; 42; 17; 42; 17]));
   Set_ T1 (hi16 (R S2) (R S6));
   Set_ E00h (madd (R T1) (Cst [42; 17; 42; 17; 42; 17; 42; 17]));
   Set_ E01l (madd (R T0) (Cst [17; (-42); 17; (-42); 17; (-42); 17; (-42)]));
   Set_ E01h (madd (R T1) (Cst [17; (-42); 17; (-42); 17; (-42); 17; (-42)]));
   Set_ E0l (add32 (R EE0l) (R E00l));
   Set_ E0l (add32 (R E0l) (R mAdd));
   Set_ E0h (add32 (R EE0h) (R E00h));
   Set_ E0h (add32 (R E0h) (R mAdd));
   Set_ E3l (sub32 (R EE0l) (R E00l));
   Set_ E3l (add32 (R E3l) (R mAdd));
   Set_ E3h (sub32 (R EE0h) (R E00h));
   Set_ E3h (add32 (R E3h) (R mAdd));
   Set_ E1l (add32 (R EE1l) (R E01l));
   Set_ E1l (add32 (R E1l) (R mAdd));
   Set_ E1h (add32 (R EE1h) (R E01h));
   Set_ E1h (add32 (R E1h) (R mAdd));
   Set_ E2l (sub32 (R EE1l) (R E01l));
   Set_ E2l (add32 (R E2l) (R mAdd));
   Set_ E2h (sub32 (R EE1h) (R E01h))]
  ++ [Set_ E2h (add32 (R E2h) (R mAdd));
   Set_ S0 (packs32 (Sra32 (add32 (R E0l) (R O0l)) (I 5)) (Sra32 (add32 (R E0h) (R O0h)) (I 5)));
   Set_ S7 (packs32 (Sra32 (sub32 (R E0l) (R O0l)) (I 5)) (Sra32 (sub32 (R E0h) (R O0h)) (I 5)));
   Set_ S1 (packs32 (Sra32 (add32 (R E1l) (R O1l)) (I 5)) (Sra32 (add32 (R E1h) (R O1h)) (I 5)));
   Set_ S6 (packs32 (Sra32 (sub32 (R E1l) (R O1l)) (I 5)) (Sra32 (sub32 (R E1h) (R O1h)) (I 5)));
   Set_ S2 (packs32 (Sra32 (add32 (R E2l) (R O2l)) (I 5)) (Sra32 (add32 (R E2h) (R O2h)) (I 5)));
   Set_ S5 (packs32 (Sra32 (sub32 (R E2l) (R O2l)) (I 5)) (Sra32 (sub32 (R E2h) (R O2h)) (I 5)));
   Set_ S3 (packs32 (Sra32 (add32 (R E3l) (R O3l)) (I 5)) (Sra32 (add32 (R E3h) (R O3h)) (I 5)));
   Set_ S4 (packs32 (Sra32 (sub32 (R E3l) (R O3l)) (I 5)) (Sra32 (sub32 (R E3h) (R O3h)) (I 5)));
   Set_ E0l (lo16 (R S0) (R S4));
   Set_ E1l (lo16 (R S1) (R S5));
   Set_ E2l (lo16 (R S2) (R S6));
   Set_ E3l (lo16 (R S3) (R S7));
   Set_ O0l (hi16 (R S0) (R S4));
   Set_ O1l (hi16 (R S1) (R S5));
   Set_ O2l (hi16 (R S2) (R S6));
   Set_ O3l (hi16 (R S3) (R S7));
   Set_ T0 (lo16 (R E0l) (R E2l));
   Set_ T1 (lo16 (R E1l) (R E3l));
   Set_ S0 (lo16 (R T0) (R T1));
   Set_ S1 (hi16 (R T0) (R T1));
   Set_ T2 (hi16 (R E0l) (R E2l));
   Set_ T3 (hi16 (R E1l) (R E3l));
   Set_ S2 (lo16 (R T2) (R T3));
   Set_ S3 (hi16 (R T2) (R T3));
   Set_ T0 (lo16 (R O0l) (R O2l));
   Set_ T1 (lo16 (R O1l) (R O3l));
   Set_ S4 (lo16 (R T0) (R T1));
   Set_ S5 (hi16 (R T0) (R T1));
   Set_ T2 (hi16 (R O0l) (R O2l));
   Set_ T3 (hi16 (R O1l) (R O3l));
   Set_ S6 (lo16 (R T2) (R T3));
   Set_ S7 (hi16 (R T2) (R T3));
   Set_ mAdd (S32 8 (Q RND2));
   Set_ T0 (lo16 (R S1) (R S3));
   Set_ E1l (madd (R T0) (Cst [44; 38; 44; 38; 44; 38; 44; 38]));
   Set_ T1 (hi16 (R S1) (R S3));
   Set_ E1h (madd (R T1) (Cst [44; 38; 44; 38; 44; 38; 44; 38]));
   Set_ T2 (lo16 (R S5) (R S7));
   Set_ E2l (madd (R T2) (Cst [25; 9; 25; 9; 25; 9; 25; 9]));
   Set_ T3 (hi16 (R S5) (R S7));
   Set_ E2h (madd (R T3) (Cst [25; 9; 25; 9; 25; 9; 25; 9]));
   Set_ O0l (add32 (R E1l) (R E2l));
   Set_ O0h (add32 (R E1h) (R E2h));
   Set_ E1l (madd (R T0) (Cst [38; (-9); 38; (-9); 38; (-9); 38; (-9)]));
   Set_ E1h (madd (R T1) (Cst [38; (-9); 38; (-9); 38; (-9); 38; (-9)]));
   Set_ E2l (madd (R T2) (Cst [(-44); (-25); (-44); (-25); (-44); (-25); (-44); (-25)]));
   Set_ E2h (madd (R T3) (Cst [(-44); (-25); (-44); (-25); (-44); (-25); (-44); (-25)]));
   Set_ O1l (add32 (R E1l) (R E2l));
   Set_ O1h (add32 (R E1h) (R E2h));
   Set_ E1l (madd (R T0) (Cst [25; (-44); 25; (-44); 25; (-44); 25; (-44)]));
   Set_ E1h (madd (R T1) (Cst [25; (-44); 25; (-44); 25; (-44); 25; (-44)]));
   Set_ E2l (madd (R T2) (Cst [9; 38; 9; 38; 9; 38; 9; 38]));
   Set_ E2h (madd (R T3) (Cst [9; 38; 9; 38; 9; 38; 9; 38]));
   Set_ O2l (add32 (R E1l) (R E2l));
   Set_ O2h (add32 (R E1h) (R E2h));
   Set_ E1l (madd (R T0) (Cst [9; (-25); 9; (-25); 9; (-25); 9; (-25)]));
   Set_ E1h (madd (R T1) (Cst [9; (-25); 9; (-25); 9; (-25); 9; (-25)]));
   Set_ E2l (madd (R T2) (Cst [38; (-44); 38; (-44); 38; (-44); 38; (-44)]));
   Set_ E2h (madd (R T3) (Cst [38; (-44); 38; (-44); 38; (-44); 38; (-44)]));
   Set_ O3h (add32 (R E1h) (R E2h));
   Set_ O3l (add32 (R E1l) (R E2l));
   Set_ T0 (lo16 (R S0) (R S4));
   Set_ T1 (hi16 (R S0) (R S4))]
  ++ [Set_ EE0l (madd (R T0) (Cst [32; 32; 32; 32; 32; 32; 32; 32]));
   Set_ EE0h (madd (R T1) (Cst [32; 32; 32; 32; 32; 32; 32; 32]));
   Set_ EE1l (madd (R T0) (Cst [32; (-32); 32; (-32); 32; (-32); 32; (-32)]));
   Set_ EE1h (madd (R T1) (Cst [32; (-32); 32; (-32); 32; (-32); 32; (-32)]));
   Set_ T0 (lo16 (R S2) (R S6));
   Set_ T1 (hi16 (R S2) (R S6));
   Set_ E00l (madd (R T0) (Cst [42; 17; 42; 17; 42; 17; 42; 17]));
   Set_ E00h (madd (R T1) (Cst [42; 17; 42; 17; 42; 17; 42; 17]));
   Set_ E01l (madd (R T0) (Cst [17; (-42); 17; (-42); 17; (-42); 17; (-42)]));
   Set_ E01h (madd (R T1) (Cst [17; (-42); 17; (-42); 17; (-42); 17; (-42)]));
   Set_ E0l (add32 (R EE0l) (R E00l));
   Set_ E0l (add32 (R E0l) (R mAdd));
   Set_ E0h (add32 (R EE0h) (R E00h));
   Set_ E0h (add32 (R E0h) (R mAdd));
   Set_ E3l (sub32 (R EE0l) (R E00l));
   Set_ E3l (add32 (R E3l) (R mAdd));
   Set_ E3h (sub32 (R EE0h) (R E00h));
   Set_ E3h (add32 (R E3h) (R mAdd));
   Set_ E1l (add32 (R EE1l) (R E01l));
   Set_ E1l (add32 (R E1l) (R mAdd));
   Set_ E1h (add32 (R EE1h) (R E01h));
   Set_ E1h (add32 (R E1h) (R mAdd));
   Set_ E2l (sub32 (R EE1l) (R E01l));
   Set_ E2l (add32 (R E2l) (R mAdd));
   Set_ E2h (sub32 (R EE1h) (R E01h));
   Set_ E2h (add32 (R E2h) (R mAdd));
   Set_ S0 (packs32 (Sra32 (add32 (R E0l) (R O0l)) (Q SH2)) (Sra32 (add32 (R E0h) (R O0h)) (Q SH2)));
   Set_ S7 (packs32 (Sra32 (sub32 (R E0l) (R O0l)) (Q SH2)) (Sra32 (sub32 (R E0h) (R O0h)) (Q SH2)));
   Set_ S1 (packs32 (Sra32 (add32 (R E1l) (R O1l)) (Q SH2)) (Sra32 (add32 (R E1h) (R O1h)) (Q SH2)));
   Set_ S6 (packs32 (Sra32 (sub32 (R E1l) (R O1l)) (Q SH2)) (Sra32 (sub32 (R E1h) (R O1h)) (Q SH2)));
   Set_ S2 (packs32 (Sra32 (add32 (R E2l) (R O2l)) (Q SH2)) (Sra32 (add32 (R E2h) (R O2h)) (Q SH2)));
   Set_ S5 (packs32 (Sra32 (sub32 (R E2l) (R O2l)) (Q SH2)) (Sra32 (sub32 (R E2h) (R O2h)) (Q SH2)));
   Set_ S3 (packs32 (Sra32 (add32 (R E3l) (R O3l)) (Q SH2)) (Sra32 (add32 (R E3h) (R O3h)) (Q SH2)));
   Set_ S4 (packs32 (Sra32 (sub32 (R E3l) (R O3l)) (Q SH2)) (Sra32 (sub32 (R E3h) (R O3h)) (Q SH2)));
   Set_ T00 (lo16 (R S0) (R S1));
   Set_ T01 (hi16 (R S0) (R S1));
   Set_ T02 (lo16 (R S2) (R S3));
   Set_ T03 (hi16 (R S2) (R S3));
   Set_ T04 (lo16 (R S4) (R S5));
   Set_ T05 (hi16 (R S4) (R S5));
   Set_ T06 (lo16 (R S6) (R S7));
   Set_ T07 (hi16 (R S6) (R S7));
   Set_ max_val (S16 8 (Q HI2));
   Set_ min_val (S16 8 (Q LO2));
   Set_ T00 (max16 (min16 (R T00) (R max_val)) (R min_val));
   Set_ T01 (max16 (min16 (R T01) (R max_val)) (R min_val));
   Set_ T02 (max16 (min16 (R T02) (R max_val)) (R min_val));
   Set_ T03 (max16 (min16 (R T03) (R max_val)) (R min_val));
   Set_ T04 (max16 (min16 (R T04) (R max_val)) (R min_val));
   Set_ T05 (max16 (min16 (R T05) (R max_val)) (R min_val));
   Set_ T06 (max16 (min16 (R T06) (R max_val)) (R min_val));
   Set_ T07 (max16 (min16 (R T07) (R max_val)) (R min_val));
   Set_ T10 (lo32 (R T00) (R T02));
   Set_ T11 (hi32 (R T00) (R T02));
   Set_ T12 (lo32 (R T04) (R T06));
   Set_ T13 (hi32 (R T04) (R T06));
   St 8 0 0 0 (lo64 (R T10) (R T12));
   St 8 0 1 0 (hi64 (R T10) (R T12));
   St 8 0 2 0 (lo64 (R T11) (R T13));
   St 8 0 3 0 (hi64 (R T11) (R T13));
   Set_ T10 (lo32 (R T01) (R T03));
   Set_ T12 (lo32 (R T05) (R T07));
   Set_ T11 (hi32 (R T01) (R T03));
   Set_ T13 (hi32 (R T05) (R T07))]
  ++ [St 8 0 4 0 (lo64 (R T10) (R T12));
   St 8 0 5 0 (hi64 (R T10) (R T12));
   St 8 0 6 0 (lo64 (R T11) (R T13));
   St 8 0 7 0 (hi64 (R T11) (R T13))].

(** vec/intrinsic_idct.cc:1052-1425 [idct_16x16_sse128]. *)
Definition idct_16x16_sse128 : list ins :=
  let c16_p43_p45 := 1 in let c16_p35_p40 := 2 in let c16_p21_p29 := 3 in let c16_p04_p13 := 4 in let c16_p29_p43 := 5 in let c16_n21_p04 := 6 in
  let c16_n45_n40 := 7 in let c16_n13_n35 := 8 in let c16_p04_p40 := 9 in let c16_n43_n35 := 10 in let c16_p29_n13 := 11 in let c16_p21_p45 := 12 in
  let c16_n21_p35 := 13 in let c16_p04_n43 := 14 in let c16_p13_p45 := 15 in let c16_n29_n40 := 16 in let c16_n40_p29 := 17 in
  let c16_p45_n13 := 18 in let c16_n43_n04 := 19 in let c16_p35_p21 := 20 in let c16_n45_p21 := 21 in let c16_p13_p29 := 22 in
  let c16_p35_n43 := 23 in let c16_n40_p04 := 24 in let c16_n35_p13 := 25 in let c16_n40_p45 := 26 in let c16_p04_p21 := 27 in
  let c16_p43_n29 := 28 in let c16_n13_p04 := 29 in let c16_n29_p21 := 30 in let c16_n40_p35 := 31 in let c16_n45_p43 := 32 in
  let c16_p38_p44 := 33 in let c16_p09_p25 := 34 in let c16_n09_p38 := 35 in let c16_n25_n44 := 36 in let c16_n44_p25 := 37 in
  let c16_p38_p09 := 38 in let c16_n25_p09 := 39 in let c16_n44_p38 := 40 in let c16_p17_p42 := 41 in let c16_n42_p17 := 42 in
  let c16_n32_p32 := 43 in let c16_p32_p32 := 44 in let c32_rnd := 45 in let in00 := 46 in let in01 := 48 in let in02 := 50 in let in03 := 52 in
  let in04 := 54 in let in05 := 56 in let in06 := 58 in let in07 := 60 in let in08 := 62 in let in09 := 64 in let in10 := 66 in let in11 := 68 in
  let in12 := 70 in let in13 := 72 in let in14 := 74 in let in15 := 76 in let res00 := 78 in let res01 := 80 in let res02 := 82 in let res03 := 84 in
  let res04 := 86 in let res05 := 88 in let res06 := 90 in let res07 := 92 in let res08 := 94 in let res09 := 96 in let res10 := 98 in
  let res11 := 100 in let res12 := 102 in let res13 := 104 in let res14 := 106 in let res15 := 108 in let T_00_00A := 110 in let T_00_00B := 111 in
  let T_00_01A := 112 in let T_00_01B := 113 in let T_00_02A := 114 in let T_00_02B := 115 in let T_00_03A := 116 in let T_00_03B := 117 in
  let T_00_04A := 118 in let T_00_04B := 119 in let T_00_05A := 120 in let T_00_05B := 121 in let T_00_06A := 122 in let T_00_06B := 123 in
  let T_00_07A := 124 in let T_00_07B := 125 in let O0A := 126 in let O1A := 127 in let O2A := 128 in let O3A := 129 in let O4A := 130 in
  let O5A := 131 in let O6A := 132 in let O7A := 133 in let O0B := 134 in let O1B := 135 in let O2B := 136 in let O3B := 137 in let O4B := 138 in
  let O5B := 139 in let O6B := 140 in let O7B := 141 in let EO0A := 142 in let EO1A := 143 in let EO2A := 144 in let EO3A := 145 in let EO0B := 146 in
  let EO1B := 147 in let EO2B := 148 in let EO3B := 149 in let EEO0A := 150 in let EEO1A := 151 in let EEO0B := 152 in let EEO1B := 153 in
  let EEE0A := 154 in let EEE1A := 155 in let EEE0B := 156 in let EEE1B := 157 in let T00 := 158 in let T01 := 159 in let EE0A := 160 in
  let EE0B := 161 in let EE1A := 162 in let EE1B := 163 in let EE3A := 164 in let EE3B := 165 in let EE2A := 166 in let EE2B := 167 in
  let T10A := 168 in let T10B := 169 in let T11A := 170 in let T11B := 171 in let T12A := 172 in let T12B := 173 in let T13A := 174 in
  let T13B := 175 in let T14A := 176 in let T14B := 177 in let T15A := 178 in let T15B := 179 in let T16A := 180 in let T16B := 181 in
  let T17A := 182 in let T17B := 183 in let T30A := 184 in let T30B := 185 in let T31A := 186 in let T31B := 187 in let T32A := 188 in
  let T32B := 189 in let T33A := 190 in let T33B := 191 in let T34A := 192 in let T34B := 193 in let T35A := 194 in let T35B := 195 in
  let T36A := 196 in let T36B := 197 in let T37A := 198 in let T37B := 199 in let T38A := 200 in let T38B := 201 in let T39A := 202 in
  let T39B := 203 in let T3AA := 204 in let T3AB := 205 in let T3BA := 206 in let T3BB := 207 in let T3CA := 208 in let T3CB := 209 in
  let T3DA := 210 in let T3DB := 211 in let T3EA := 212 in let T3EB := 213 in let T3FA := 214 in let T3FB := 215 in let tr0_0 := 216 in
  let tr0_1 := 217 in let tr0_2 := 218 in let tr0_3 := 219 in let tr0_4 := 220 in let tr0_5 := 221 in let tr0_6 := 222 in let tr0_7 := 223 in
  let tr1_0 := 224 in let tr1_1 := 225 in let tr1_2 := 226 in let tr1_3 := 227 in let tr1_4 := 228 in let tr1_5 := 229 in let tr1_6 := 230 in
  let tr1_7 := 231 in let max_val := 232 in let min_val := 233 in
  [Set_ c16_p43_p45 (S32 8 (I 2818093));
   Set_ c16_p35_p40 (S32 8 (I 2293800));
   Set_ c16_p21_p29 (S32 8 (I 1376285));
   Set_ c16_p04_p13 (S32 8 (I 262157));
   Set_ c16_p29_p43 (S32 8 (I 1900587));
   Set_ c16_n21_p04 (S32 8 (I (-1376252)));
   Set_ c16_n45_n40 (S32 8 (I (-2883624)));
   Set_ c16_n13_n35 (S32 8 (I (-786467)));
   Set_ c16_p04_p40 (S32 8 (I 262184));
   Set_ c16_n43_n35 (S32 8 (I (-2752547)));
   Set_ c16_p29_n13 (S32 8 (I 1966067));
   Set_ c16_p21_p45 (S32 8 (I 1376301));
   Set_ c16_n21_p35 (S32 8 (I (-1376221)));
   Set_ c16_p04_n43 (S32 8 (I 327637));
   Set_ c16_p13_p45 (S32 8 (I 852013));
   Set_ c16_n29_n40 (S32 8 (I (-1835048)));
   Set_ c16_n40_p29 (S32 8 (I (-2621411)));
   Set_ c16_p45_n13 (S32 8 (I 3014643));
   Set_ c16_n43_n04 (S32 8 (I (-2752516)));
   Set_ c16_p35_p21 (S32 8 (I 2293781));
   Set_ c16_n45_p21 (S32 8 (I (-2949099)));
   Set_ c16_p13_p29 (S32 8 (I 851997));
   Set_ c16_p35_n43 (S32 8 (I 2359253));
   Set_ c16_n40_p04 (S32 8 (I (-2621436)));
   Set_ c16_n35_p13 (S32 8 (I (-2293747)));
   Set_ c16_n40_p45 (S32 8 (I (-2621395)));
   Set_ c16_p04_p21 (S32 8 (I 262165));
   Set_ c16_p43_n29 (S32 8 (I 2883555));
   Set_ c16_n13_p04 (S32 8 (I (-851964)));
   Set_ c16_n29_p21 (S32 8 (I (-1900523)));
   Set_ c16_n40_p35 (S32 8 (I (-2621405)));
   Set_ c16_n45_p43 (S32 8 (I (-2949077)));
   Set_ c16_p38_p44 (S32 8 (I 2490412));
   Set_ c16_p09_p25 (S32 8 (I 589849));
   Set_ c16_n09_p38 (S32 8 (I (-589786)));
   Set_ c16_n25_n44 (S32 8 (I (-1572908)));
   Set_ c16_n44_p25 (S32 8 (I (-2883559)));
   Set_ c16_p38_p09 (S32 8 (I 2490377));
   Set_ c16_n25_p09 (S32 8 (I (-1638391)));
   Set_ c16_n44_p38 (S32 8 (I (-2883546)));
   Set_ c16_p17_p42 (S32 8 (I 1114154));
   Set_ c16_n42_p17 (S32 8 (I (-2752495)));
   Set_ c16_n32_p32 (S32 8 (I (-2097120)));
   Set_ c16_p32_p32 (S32 8 (I 2097184));
   SetI 0 (I 5);
   Set_ c32_rnd (S32 8 (I 16))]
  ++ loop 2 (fun i =>
    [Set_ (in00 + i) (Ld 8 (8 * i));
     Set_ (in01 + i) (Ld 8 (8 * i + 16));
     Set_ (in02 + i) (Ld 8 (8 * i + 32));
     Set_ (in03 + i) (Ld 8 (8 * i + 48));
     Set_ (in04 + i) (Ld 8 (8 * i + 64));
     Set_ (in05 + i) (Ld 8 (8 * i + 80));
     Set_ (in06 + i) (Ld 8 (8 * i + 96));
     Set_ (in07 + i) (Ld 8 (8 * i + 112));
     Set_ (in08 + i) (Ld 8 (8 * i + 128));
     Set_ (in09 + i) (Ld 8 (8 * i + 144));
     Set_ (in10 + i) (Ld 8 (8 * i + 160));
     Set_ (in11 + i) (Ld 8 (8 * i + 176));
     Set_ (in12 + i) (Ld 8 (8 * i + 192));
     Set_ (in13 + i) (Ld 8 (8 * i + 208));
     Set_ (in14 + i) (Ld 8 (8 * i + 224));
     Set_ (in15 + i) (Ld 8 (8 * i + 240))])
  ++ loop 2 (fun pass =>
    loop 2 (fun part =>
      [Set_ T_00_00A (lo16 (R (in01 + part)) (R (in03 + part)));
       Set_ T_00_00B (hi16 (R (in01 + part)) (R (in03 + part)));
       Set_ T_00_01A (lo16 (R (in05 + part)) (R (in07 + part)));
       Set_ T_00_01B (hi16 (R (in05 + part)) (R (in07 + part)));
       Set_ T_00_02A (lo16 (R (in09 + part)) (R (in11 + part)));
       Set_ T_00_02B (hi16 (R (in09 + part)) (R (in11 + part)));
       Set_ T_00_03A (lo16 (R (in13 + part)) (R (in15 + part)));
       Set_ T_00_03B (hi16 (R (in13 + part)) (R (in15 + part)));
       Set_ T_00_04A (lo16 (R (in02 + part)) (R (in06 + part)));
       Set_ T_00_04B (hi16 (R (in02 + part)) (R (in06 + part)));
       Set_ T_00_05A (lo16 (R (in10 + part)) (R (in14 + part)));
       Set_ T_00_05B (hi16 (R (in10 + part)) (R (in14 + part)));
       Set_ T_00_06A (lo16 (R (in04 + part)) (R (in12 + part)));
       Set_ T_00_06B (hi16 (R (in04 + part)) (R (in12 + part)));
       Set_ T_00_07A (lo16 (R (in00 + part)) (R (in08 + part)));
       Set_ T_00_07B (hi16 (R (in00 + part)) (R (in08 + part)));
       Set_ T00 (add32 (madd (R T_00_00A) (R c16_p43_p45)) (madd (R T_00_01A) (R c16_p35_p40)));
       Set_ T01 (add32 (madd (R T_00_02A) (R c16_p21_p29)) (madd (R T_00_03A) (R c16_p04_p13)));
       Set_ O0A (add32 (R T00) (R T01));
       Set_ T00 (add32 (madd (R T_00_00A) (R c16_p29_p43)) (madd (R T_00_01A) (R c16_n21_p04)));
       Set_ T01 (add32 (madd (R T_00_02A) (R c16_n45_n40)) (madd (R T_00_03A) (R c16_n13_n35)));
       Set_ O1A (add32 (R T00) (R T01));
       Set_ T00 (add32 (madd (R T_00_00A) (R c16_p04_p40)) (madd (R T_00_01A) (R c16_n43_n35)));
       Set_ T01 (add32 (madd (R T_00_02A) (R c16_p29_n13)) (madd (R T_00_03A) (R c16_p21_p45)));
       Set_ O2A (add32 (R T00) (R T01));
       Set_ T00 (add32 (madd (R T_00_00A) (R c16_n21_p35)) (madd (R T_00_01A) (R c16_p04_n43)));
       Set_ T01 (add32 (madd (R T_00_02A) (R c16_p13_p45)) (madd (R T_00_03A) (R c16_n29_n40)));
       Set_ O3A (add32 (R T00) (R T01));
       Set_ T00 (add32 (madd (R T_00_00A) (R c16_n40_p29)) (madd (R T_00_01A) (R c16_p45_n13)));
       Set_ T01 (add32 (madd (R T_00_02A) (R c16_n43_n04)) (madd (R T_00_03A) (R c16_p35_p21)));
       Set_ O4A (add32 (R T00) (R T01));
       Set_ T00 (add32 (madd (R T_00_00A) (R c16_n45_p21)) (madd (R T_00_01A) (R c16_p13_p29)));
       Set_ T01 (add32 (madd (R T_00_02A) (R c16_p35_n43)) (madd (R T_00_03A) (R c16_n40_p04)));
       Set_ O5A (add32 (R T00) (R T01));
       Set_ T00 (add32 (madd (R T_00_00A) (R c16_n35_p13)) (madd (R T_00_01A) (R c16_n40_p45)));
       Set_ T01 (add32 (madd (R T_00_02A) (R c16_p04_p21)) (madd (R T_00_03A) (R c16_p43_n29)));
       Set_ O6A (add32 (R T00) (R T01));
       Set_ T00 (add32 (madd (R T_00_00A) (R c16_n13_p04)) (madd (R T_00_01A) (R c16_n29_p21)));
       Set_ T01 (add32 (madd (R T_00_02A) (R c16_n40_p35)) (madd (R T_00_03A) (R c16_n45_p43)));
       Set_ O7A (add32 (R T00) (R T01));
       Set_ T00 (add32 (madd (R T_00_00B) (R c16_p43_p45)) (madd (R T_00_01B) (R c16_p35_p40)));
       Set_ T01 (add32 (madd (R T_00_02B) (R c16_p21_p29)) (madd (R T_00_03B) (R c16_p04_p13)));
       Set_ O0B (add32 (R T00) (R T01));
       Set_ T00 (add32 (madd (R T_00_00B) (R c16_p29_p43)) (madd (R T_00_01B) (R c16_n21_p04)));
       Set_ T01 (add32 (madd (R T_00_02B) (R c16_n45_n40)) (madd (R T_00_03B) (R c16_n13_n35)));
       Set_ O1B (add32 (R T00) (R T01));
       Set_ T00 (add32 (madd (R T_00_00B) (R c16_p04_p40)) (madd (R T_00_01B) (R c16_n43_n35)));
       Set_ T01 (add32 (madd (R T_00_02B) (R c16_p29_n13)) (madd (R T_00_03B) (R c16_p21_p45)));
       Set_ O2B (add32 (R T00) (R T01));
       Set_ T00 (add32 (madd (R T_00_00B) (R c16_n21_p35)) (madd (R T_00_01B) (R c16_p04_n43)));
       Set_ T01 (add32 (madd (R T_00_02B) (R c16_p13_p45)) (madd (R T_00_03B) (R c16_n29_n40)));
       Set_ O3B (add32 (R T00) (R T01));
       Set_ T00 (add32 (madd (R T_00_00B) (R c16_n40_p29)) (madd (R T_00_01B) (R c16_p45_n13)));
       Set_ T01 (add32 (madd (R T_00_02B) (R c16_n43_n04)) (madd (R T_00_03B) (R c16_p35_p21)));
       Set_ O4B (add32 (R T00) (R T01));
       Set_ T00 (add32 (madd (R T_00_00B) (R c16_n45_p21)) (madd (R T_00_01B) (R c16_p13_p29)));
       Set_ T01 (add32 (madd (R T_00_02B) (R c16_p35_n43)) (madd (R T_00_03B) (R c16_n40_p04)));
       Set_ O5B (add32 (R T00) (R T01));
       Set_ T00 (add32 (madd (R T_00_00B) (R c16_n35_p13)) (madd (R T_00_01B) (R c16_n40_p45)));
       Set_ T01 (add32 (madd (R T_00_02B) (R c16_p04_p21)) (madd (R T_00_03B) (R c16_p43_n29)));
       Set_ O6B (add32 (R T00) (R T01));
       Set_ T00 (add32 (madd (R T_00_00B) (R c16_n13_p04)) (madd (R T_00_01B) (R c16_n29_p21)));
       Set_ T01 (add32 (madd (R T_00_02B) (R c16_n40_p35)) (madd (R T_00_03B) (R c16_n45_p43)));
       Set_ O7B (add32 (R T00) (R T01))]
      ++ [Set_ EO0A (add32 (madd (R T_00_04A) (R c16_p38_p44)) (madd (R T_00_05A) (R c16_p09_p25)));
       Set_ EO0B (add32 (madd (R T_00_04B) (R c16_p38_p44)) (madd (R T_00_05B) (R c16_p09_p25)));
       Set_ EO1A (add32 (madd (R T_00_04A) (R c16_n09_p38)) (madd (R T_00_05A) (R c16_n25_n44)));
       Set_ EO1B (add32 (madd (R T_00_04B) (R c16_n09_p38)) (madd (R T_00_05B) (R c16_n25_n44)));
       Set_ EO2A (add32 (madd (R T_00_04A) (R c16_n44_p25)) (madd (R T_00_05A) (R c16_p38_p09)));
       Set_ EO2B (add32 (madd (R T_00_04B) (R c16_n44_p25)) (madd (R T_00_05B) (R c16_p38_p09)));
       Set_ EO3A (add32 (madd (R T_00_04A) (R c16_n25_p09)) (madd (R T_00_05A) (R c16_n44_p38)));
       Set_ EO3B (add32 (madd (R T_00_04B) (R c16_n25_p09)) (madd (R T_00_05B) (R c16_n44_p38)));
       Set_ EEO0A (madd (R T_00_06A) (R c16_p17_p42));
       Set_ EEO0B (madd (R T_00_06B) (R c16_p17_p42));
       Set_ EEO1A (madd (R T_00_06A) (R c16_n42_p17));
       Set_ EEO1B (madd (R T_00_06B) (R c16_n42_p17));
       Set_ EEE0A (madd (R T_00_07A) (R c16_p32_p32));
       Set_ EEE0B (madd (R T_00_07B) (R c16_p32_p32));
       Set_ EEE1A (madd (R T_00_07A) (R c16_n32_p32));
       Set_ EEE1B (madd (R T_00_07B) (R c16_n32_p32));
       Set_ EE0A (add32 (R EEE0A) (R EEO0A));
       Set_ EE0B (add32 (R EEE0B) (R EEO0B));
       Set_ EE1A (add32 (R EEE1A) (R EEO1A));
       Set_ EE1B (add32 (R EEE1B) (R EEO1B));
       Set_ EE3A (sub32 (R EEE0A) (R EEO0A));
       Set_ EE3B (sub32 (R EEE0B) (R EEO0B));
       Set_ EE2A (sub32 (R EEE1A) (R EEO1A));
       Set_ EE2B (sub32 (R EEE1B) (R EEO1B));
       Set_ T10A (add32 (add32 (R EE0A) (R EO0A)) (R c32_rnd));
       Set_ T10B (add32 (add32 (R EE0B) (R EO0B)) (R c32_rnd));
       Set_ T11A (add32 (add32 (R EE1A) (R EO1A)) (R c32_rnd));
       Set_ T11B (add32 (add32 (R EE1B) (R EO1B)) (R c32_rnd));
       Set_ T12A (add32 (add32 (R EE2A) (R EO2A)) (R c32_rnd));
       Set_ T12B (add32 (add32 (R EE2B) (R EO2B)) (R c32_rnd));
       Set_ T13A (add32 (add32 (R EE3A) (R EO3A)) (R c32_rnd));
       Set_ T13B (add32 (add32 (R EE3B) (R EO3B)) (R c32_rnd));
       Set_ T14A (add32 (sub32 (R EE3A) (R EO3A)) (R c32_rnd));
       Set_ T14B (add32 (sub32 (R EE3B) (R EO3B)) (R c32_rnd));
       Set_ T15A (add32 (sub32 (R EE2A) (R EO2A)) (R c32_rnd));
       Set_ T15B (add32 (sub32 (R EE2B) (R EO2B)) (R c32_rnd));
       Set_ T16A (add32 (sub32 (R EE1A) (R EO1A)) (R c32_rnd));
       Set_ T16B (add32 (sub32 (R EE1B) (R EO1B)) (R c32_rnd));
       Set_ T17A (add32 (sub32 (R EE0A) (R EO0A)) (R c32_rnd));
       Set_ T17B (add32 (sub32 (R EE0B) (R EO0B)) (R c32_rnd));
       Set_ T30A (Sra32 (add32 (R T10A) (R O0A)) (X 0));
       Set_ T30B (Sra32 (add32 (R T10B) (R O0B)) (X 0));
       Set_ T31A (Sra32 (add32 (R T11A) (R O1A)) (X 0));
       Set_ T31B (Sra32 (add32 (R T11B) (R O1B)) (X 0));
       Set_ T32A (Sra32 (add32 (R T12A) (R O2A)) (X 0));
       Set_ T32B (Sra32 (add32 (R T12B) (R O2B)) (X 0));
       Set_ T33A (Sra32 (add32 (R T13A) (R O3A)) (X 0));
       Set_ T33B (Sra32 (add32 (R T13B) (R O3B)) (X 0));
       Set_ T34A (Sra32 (add32 (R T14A) (R O4A)) (X 0));
       Set_ T34B (Sra32 (add32 (R T14B) (R O4B)) (X 0));
       Set_ T35A (Sra32 (add32 (R T15A) (R O5A)) (X 0));
       Set_ T35B (Sra32 (add32 (R T15B) (R O5B)) (X 0));
       Set_ T36A (Sra32 (add32 (R T16A) (R O6A)) (X 0));
       Set_ T36B (Sra32 (add32 (R T16B) (R O6B)) (X 0));
       Set_ T37A (Sra32 (add32 (R T17A) (R O7A)) (X 0));
       Set_ T37B (Sra32 (add32 (R T17B) (R O7B)) (X 0));
       Set_ T38A (Sra32 (sub32 (R T17A) (R O7A)) (X 0));
       Set_ T38B (Sra32 (sub32 (R T17B) (R O7B)) (X 0));
       Set_ T39A (Sra32 (sub32 (R T16A) (R O6A)) (X 0));
       Set_ T39B (Sra32 (sub32 (R T16B) (R O6B)) (X 0));
       Set_ T3AA (Sra32 (sub32 (R T15A) (R O5A)) (X 0));
       Set_ T3AB (Sra32 (sub32 (R T15B) (R O5B)) (X 0));
       Set_ T3BA (Sra32 (sub32 (R T14A) (R O4A)) (X 0));
       Set_ T3BB (Sra32 (sub32 (R T14B) (R O4B)) (X 0))]
      ++ [Set_ T3CA (Sra32 (sub32 (R T13A) (R O3A)) (X 0));
       Set_ T3CB (Sra32 (sub32 (R T13B) (R O3B)) (X 0));
       Set_ T3DA (Sra32 (sub32 (R T12A) (R O2A)) (X 0));
       Set_ T3DB (Sra32 (sub32 (R T12B) (R O2B)) (X 0));
       Set_ T3EA (Sra32 (sub32 (R T11A) (R O1A)) (X 0));
       Set_ T3EB (Sra32 (sub32 (R T11B) (R O1B)) (X 0));
       Set_ T3FA (Sra32 (sub32 (R T10A) (R O0A)) (X 0));
       Set_ T3FB (Sra32 (sub32 (R T10B) (R O0B)) (X 0));
       Set_ (res00 + part) (packs32 (R T30A) (R T30B));
       Set_ (res01 + part) (packs32 (R T31A) (R T31B));
       Set_ (res02 + part) (packs32 (R T32A) (R T32B));
       Set_ (res03 + part) (packs32 (R T33A) (R T33B));
       Set_ (res04 + part) (packs32 (R T34A) (R T34B));
       Set_ (res05 + part) (packs32 (R T35A) (R T35B));
       Set_ (res06 + part) (packs32 (R T36A) (R T36B));
       Set_ (res07 + part) (packs32 (R T37A) (R T37B));
       Set_ (res08 + part) (packs32 (R T38A) (R T38B));
       Set_ (res09 + part) (packs32 (R T39A) (R T39B));
       Set_ (res10 + part) (packs32 (R T3AA) (R T3AB));
       Set_ (res11 + part) (packs32 (R T3BA) (R T3BB));
       Set_ (res12 + part) (packs32 (R T3CA) (R T3CB));
       Set_ (res13 + part) (packs32 (R T3DA) (R T3DB));
       Set_ (res14 + part) (packs32 (R T3EA) (R T3EB));
       Set_ (res15 + part) (packs32 (R T3FA) (R T3FB))])
    ++ [Set_ tr0_0 (lo16 (R res00) (R res01));
     Set_ tr0_1 (lo16 (R res02) (R res03));
     Set_ tr0_2 (hi16 (R res00) (R res01));
     Set_ tr0_3 (hi16 (R res02) (R res03));
     Set_ tr0_4 (lo16 (R res04) (R res05));
     Set_ tr0_5 (lo16 (R res06) (R res07));
     Set_ tr0_6 (hi16 (R res04) (R res05));
     Set_ tr0_7 (hi16 (R res06) (R res07));
     Set_ tr1_0 (lo32 (R tr0_0) (R tr0_1));
     Set_ tr1_1 (lo32 (R tr0_2) (R tr0_3));
     Set_ tr1_2 (hi32 (R tr0_0) (R tr0_1));
     Set_ tr1_3 (hi32 (R tr0_2) (R tr0_3));
     Set_ tr1_4 (lo32 (R tr0_4) (R tr0_5));
     Set_ tr1_5 (lo32 (R tr0_6) (R tr0_7));
     Set_ tr1_6 (hi32 (R tr0_4) (R tr0_5));
     Set_ tr1_7 (hi32 (R tr0_6) (R tr0_7));
     Set_ in00 (lo64 (R tr1_0) (R tr1_4));
     Set_ in01 (hi64 (R tr1_0) (R tr1_4));
     Set_ in02 (lo64 (R tr1_2) (R tr1_6));
     Set_ in03 (hi64 (R tr1_2) (R tr1_6));
     Set_ in04 (lo64 (R tr1_1) (R tr1_5));
     Set_ in05 (hi64 (R tr1_1) (R tr1_5));
     Set_ in06 (lo64 (R tr1_3) (R tr1_7));
     Set_ in07 (hi64 (R tr1_3) (R tr1_7));
     Set_ tr0_0 (lo16 (R res08) (R res09));
     Set_ tr0_1 (lo16 (R res10) (R res11));
     Set_ tr0_2 (hi16 (R res08) (R res09));
     Set_ tr0_3 (hi16 (R res10) (R res11));
     Set_ tr0_4 (lo16 (R res12) (R res13));
     Set_ tr0_5 (lo16 (R res14) (R res15));
     Set_ tr0_6 (hi16 (R res12) (R res13));
     Set_ tr0_7 (hi16 (R res14) (R res15));
     Set_ tr1_0 (lo32 (R tr0_0) (R tr0_1));
     Set_ tr1_1 (lo32 (R tr0_2) (R tr0_3));
     Set_ tr1_2 (hi32 (R tr0_0) (R tr0_1));
     Set_ tr1_3 (hi32 (R tr0_2) (R tr0_3));
     Set_ tr1_4 (lo32 (R tr0_4) (R tr0_5));
     Set_ tr1_5 (lo32 (R tr0_6) (R tr0_7));
     Set_ tr1_6 (hi32 (R tr0_4) (R tr0_5));
     Set_ tr1_7 (hi32 (R tr0_6) (R tr0_7));
     Set_ (in00 + 1) (lo64 (R tr1_0) (R tr1_4));
     Set_ (in01 + 1) (hi64 (R tr1_0) (R tr1_4));
     Set_ (in02 + 1) (lo64 (R tr1_2) (R tr1_6));
     Set_ (in03 + 1) (hi64 (R tr1_2) (R tr1_6));
     Set_ (in04 + 1) (lo64 (R tr1_1) (R tr1_5));
     Set_ (in05 + 1) (hi64 (R tr1_1) (R tr1_5));
     Set_ (in06 + 1) (lo64 (R tr1_3) (R tr1_7));
     Set_ (in07 + 1) (hi64 (R tr1_3) (R tr1_7));
     Set_ tr0_0 (lo16 (R (res00 + 1)) (R (res01 + 1)));
     Set_ tr0_1 (lo16 (R (res02 + 1)) (R (res03 + 1)));
     Set_ tr0_2 (hi16 (R (res00 + 1)) (R (res01 + 1)));
     Set_ tr0_3 (hi16 (R (res02 + 1)) (R (res03 + 1)));
     Set_ tr0_4 (lo16 (R (res04 + 1)) (R (res05 + 1)));
     Set_ tr0_5 (lo16 (R (res06 + 1)) (R (res07 + 1)));
     Set_ tr0_6 (hi16 (R (res04 + 1)) (R (res05 + 1)));
     Set_ tr0_7 (hi16 (R (res06 + 1)) (R (res07 + 1)));
     Set_ tr1_0 (lo32 (R tr0_0) (R tr0_1));
     Set_ tr1_1 (lo32 (R tr0_2) (R tr0_3));
     Set_ tr1_2 (hi32 (R tr0_0) (R tr0_1));
     Set_ tr1_3 (hi32 (R tr0_2) (R tr0_3));
     Set_ tr1_4 (lo32 (R tr0_4) (R tr0_5));
     Set_ tr1_5 (lo32 (R tr0_6) (R tr0_7));
     Set_ tr1_6 (hi32 (R tr0_4) (R tr0_5));
     Set_ tr1_7 (hi32 (R tr0_6) (R tr0_7))]
    ++ [Set_ in08 (lo64 (R tr1_0) (R tr1_4));
     Set_ in09 (hi64 (R tr1_0) (R tr1_4));
     Set_ in10 (lo64 (R tr1_2) (R tr1_6));
     Set_ in11 (hi64 (R tr1_2) (R tr1_6));
     Set_ in12 (lo64 (R tr1_1) (R tr1_5));
     Set_ in13 (hi64 (R tr1_1) (R tr1_5));
     Set_ in14 (lo64 (R tr1_3) (R tr1_7));
     Set_ in15 (hi64 (R tr1_3) (R tr1_7));
     Set_ tr0_0 (lo16 (R (res08 + 1)) (R (res09 + 1)));
     Set_ tr0_1 (lo16 (R (res10 + 1)) (R (res11 + 1)));
     Set_ tr0_2 (hi16 (R (res08 + 1)) (R (res09 + 1)));
     Set_ tr0_3 (hi16 (R (res10 + 1)) (R (res11 + 1)));
     Set_ tr0_4 (lo16 (R (res12 + 1)) (R (res13 + 1)));
     Set_ tr0_5 (lo16 (R (res14 + 1)) (R (res15 + 1)));
     Set_ tr0_6 (hi16 (R (res12 + 1)) (R (res13 + 1)));
     Set_ tr0_7 (hi16 (R (res14 + 1)) (R (res15 + 1)));
     Set_ tr1_0 (lo32 (R tr0_0) (R tr0_1));
     Set_ tr1_1 (lo32 (R tr0_2) (R tr0_3));
     Set_ tr1_2 (hi32 (R tr0_0) (R tr0_1));
     Set_ tr1_3 (hi32 (R tr0_2) (R tr0_3));
     Set_ tr1_4 (lo32 (R tr0_4) (R tr0_5));
     Set_ tr1_5 (lo32 (R tr0_6) (R tr0_7));
     Set_ tr1_6 (hi32 (R tr0_4) (R tr0_5));
     Set_ tr1_7 (hi32 (R tr0_6) (R tr0_7));
     Set_ (in08 + 1) (lo64 (R tr1_0) (R tr1_4));
     Set_ (in09 + 1) (hi64 (R tr1_0) (R tr1_4));
     Set_ (in10 + 1) (lo64 (R tr1_2) (R tr1_6));
     Set_ (in11 + 1) (hi64 (R tr1_2) (R tr1_6));
     Set_ (in12 + 1) (lo64 (R tr1_1) (R tr1_5));
     Set_ (in13 + 1) (hi64 (R tr1_1) (R tr1_5));
     Set_ (in14 + 1) (lo64 (R tr1_3) (R tr1_7));
     Set_ (in15 + 1) (hi64 (R tr1_3) (R tr1_7));
     SetI 0 (Q SH2);
     Set_ c32_rnd (S32 8 (Q RND2))])
  ++ [Set_ max_val (S16 8 (Q HI2));
   Set_ min_val (S16 8 (Q LO2));
   Set_ in00 (max16 (min16 (R in00) (R max_val)) (R min_val));
   Set_ (in00 + 1) (max16 (min16 (R (in00 + 1)) (R max_val)) (R min_val));
   Set_ in01 (max16 (min16 (R in01) (R max_val)) (R min_val));
   Set_ (in01 + 1) (max16 (min16 (R (in01 + 1)) (R max_val)) (R min_val));
   Set_ in02 (max16 (min16 (R in02) (R max_val)) (R min_val));
   Set_ (in02 + 1) (max16 (min16 (R (in02 + 1)) (R max_val)) (R min_val));
   Set_ in03 (max16 (min16 (R in03) (R max_val)) (R min_val));
   Set_ (in03 + 1) (max16 (min16 (R (in03 + 1)) (R max_val)) (R min_val));
   Set_ in04 (max16 (min16 (R in04) (R max_val)) (R min_val));
   Set_ (in04 + 1) (max16 (min16 (R (in04 + 1)) (R max_val)) (R min_val));
   Set_ in05 (max16 (min16 (R in05) (R max_val)) (R min_val));
   Set_ (in05 + 1) (max16 (min16 (R (in05 + 1)) (R max_val)) (R min_val));
   Set_ in06 (max16 (min16 (R in06) (R max_val)) (R min_val));
   Set_ (in06 + 1) (max16 (min16 (R (in06 + 1)) (R max_val)) (R min_val));
   Set_ in07 (max16 (min16 (R in07) (R max_val)) (R min_val));
   Set_ (in07 + 1) (max16 (min16 (R (in07 + 1)) (R max_val)) (R min_val));
   Set_ in08 (max16 (min16 (R in08) (R max_val)) (R min_val));
   Set_ (in08 + 1) (max16 (min16 (R (in08 + 1)) (R max_val)) (R min_val));
   Set_ in09 (max16 (min16 (R in09) (R max_val)) (R min_val));
   Set_ (in09 + 1) (max16 (min16 (R (in09 + 1)) (R max_val)) (R min_val));
   Set_ in10 (max16 (min16 (R in10) (R max_val)) (R min_val));
   Set_ (in10 + 1) (max16 (min16 (R (in10 + 1)) (R max_val)) (R min_val));
   Set_ in11 (max16 (min16 (R in11) (R max_val)) (R min_val));
   Set_ (in11 + 1) (max16 (min16 (R (in11 + 1)) (R max_val)) (R min_val));
   Set_ in12 (max16 (min16 (R in12) (R max_val)) (R min_val));
   Set_ (in12 + 1) (max16 (min16 (R (in12 + 1)) (R max_val)) (R min_val));
   Set_ in13 (max16 (min16 (R in13) (R max_val)) (R min_val));
   Set_ (in13 + 1) (max16 (min16 (R (in13 + 1)) (R max_val)) (R min_val));
   Set_ in14 (max16 (min16 (R in14) (R max_val)) (R min_val));
   Set_ (in14 + 1) (max16 (min16 (R (in14 + 1)) (R max_val)) (R min_val));
   Set_ in15 (max16 (min16 (R in15) (R max_val)) (R min_val));
   Set_ (in15 + 1) (max16 (min16 (R (in15 + 1)) (R max_val)) (R min_val));
   St 8 0 0 0 (R in00);
   St 8 0 0 8 (R (in00 + 1));
   St 8 0 1 0 (R in01);
   St 8 0 1 8 (R (in01 + 1));
   St 8 0 2 0 (R in02);
   St 8 0 2 8 (R (in02 + 1));
   St 8 0 3 0 (R in03);
   St 8 0 3 8 (R (in03 + 1));
   St 8 0 4 0 (R in04);
   St 8 0 4 8 (R (in04 + 1));
   St 8 0 5 0 (R in05);
   St 8 0 5 8 (R (in05 + 1));
   St 8 0 6 0 (R in06);
   St 8 0 6 8 (R (in06 + 1));
   St 8 0 7 0 (R in07);
   St 8 0 7 8 (R (in07 + 1));
   St 8 0 8 0 (R in08);
   St 8 0 8 8 (R (in08 + 1));
   St 8 0 9 0 (R in09);
   St 8 0 9 8 (R (in09 + 1));
   St 8 0 10 0 (R in10);
   St 8 0 10 8 (R (in10 + 1));
   St 8 0 11 0 (R in11);
   St 8 0 11 8 (R (in11 + 1));
   St 8 0 12 0 (R in12);
   St 8 0 12 8 (R (in12 + 1));
   St 8 0 13 0 (R in13);
   St 8 0 13 8 (R (in13 + 1));
   St 8 0 14 0 (R in14);
   St 8 0 14 8 (R (in14 + 1))]
  ++ [St 8 0 15 0 (R in15);
   St 8 0 15 8 (R (in15 + 1))].

(** vec/intrinsic_idct.cc:1429-1981 [idct_16x16_half_sse128]. *)
Definition idct_16x16_half_sse128 : list ins :=
  let c16_p43_p45 := 1 in let c16_p35_p40 := 2 in let c16_p29_p43 := 3 in let c16_n21_p04 := 4 in let c16_p04_p40 := 5 in let c16_n43_n35 := 6 in
  let c16_n21_p35 := 7 in let c16_p04_n43 := 8 in let c16_n40_p29 := 9 in let c16_p45_n13 := 10 in let c16_n45_p21 := 11 in let c16_p13_p29 := 12 in
  let c16_n35_p13 := 13 in let c16_n40_p45 := 14 in let c16_n13_p04 := 15 in let c16_n29_p21 := 16 in let c16_p38_p44 := 17 in
  let c16_n09_p38 := 18 in let c16_n44_p25 := 19 in let c16_n25_p09 := 20 in let c16_p17_p42 := 21 in let c16_n42_p17 := 22 in
  let c16_n32_p32 := 23 in let c16_p32_p32 := 24 in let c32_rnd := 25 in let Zero_8 := 26 in let in00 := 27 in let in01 := 29 in let in02 := 31 in
  let in03 := 33 in let in04 := 35 in let in05 := 37 in let in06 := 39 in let in07 := 41 in let in08 := 43 in let in09 := 45 in let in10 := 47 in
  let in11 := 49 in let in12 := 51 in let in13 := 53 in let in14 := 55 in let in15 := 57 in let res00 := 59 in let res01 := 61 in let res02 := 63 in
  let res03 := 65 in let res04 := 67 in let res05 := 69 in let res06 := 71 in let res07 := 73 in let res08 := 75 in let res09 := 77 in
  let res10 := 79 in let res11 := 81 in let res12 := 83 in let res13 := 85 in let res14 := 87 in let res15 := 89 in let T_00_00A := 91 in
  let T_00_00B := 92 in let T_00_01A := 93 in let T_00_01B := 94 in let T_00_04A := 95 in let T_00_04B := 96 in let T_00_06A := 97 in
  let T_00_06B := 98 in let T_00_07A := 99 in let T_00_07B := 100 in let O0A := 101 in let O1A := 102 in let O2A := 103 in let O3A := 104 in
  let O4A := 105 in let O5A := 106 in let O6A := 107 in let O7A := 108 in let O0B := 109 in let O1B := 110 in let O2B := 111 in let O3B := 112 in
  let O4B := 113 in let O5B := 114 in let O6B := 115 in let O7B := 116 in let EO0A := 117 in let EO1A := 118 in let EO2A := 119 in let EO3A := 120 in
  let EO0B := 121 in let EO1B := 122 in let EO2B := 123 in let EO3B := 124 in let EEO0A := 125 in let EEO1A := 126 in let EEO0B := 127 in
  let EEO1B := 128 in let EEE0A := 129 in let EEE1A := 130 in let EEE0B := 131 in let EEE1B := 132 in let EE0A := 133 in let EE0B := 134 in
  let EE1A := 135 in let EE1B := 136 in let EE3A := 137 in let EE3B := 138 in let EE2A := 139 in let EE2B := 140 in let T10A := 141 in
  let T10B := 142 in let T11A := 143 in let T11B := 144 in let T12A := 145 in let T12B := 146 in let T13A := 147 in let T13B := 148 in
  let T14A := 149 in let T14B := 150 in let T15A := 151 in let T15B := 152 in let T16A := 153 in let T16B := 154 in let T17A := 155 in
  let T17B := 156 in let T30A := 157 in let T30B := 158 in let T31A := 159 in let T31B := 160 in let T32A := 161 in let T32B := 162 in
  let T33A := 163 in let T33B := 164 in let T34A := 165 in let T34B := 166 in let T35A := 167 in let T35B := 168 in let T36A := 169 in
  let T36B := 170 in let T37A := 171 in let T37B := 172 in let T38A := 173 in let T38B := 174 in let T39A := 175 in let T39B := 176 in
  let T3AA := 177 in let T3AB := 178 in let T3BA := 179 in let T3BB := 180 in let T3CA := 181 in let T3CB := 182 in let T3DA := 183 in
  let T3DB := 184 in let T3EA := 185 in let T3EB := 186 in let T3FA := 187 in let T3FB := 188 in let tr0_0 := 189 in let tr0_1 := 190 in
  let tr0_2 := 191 in let tr0_3 := 192 in let tr0_4 := 193 in let tr0_5 := 194 in let tr0_6 := 195 in let tr0_7 := 196 in let tr1_0 := 197 in
  let tr1_1 := 198 in let tr1_2 := 199 in let tr1_3 := 200 in let tr1_4 := 201 in let tr1_5 := 202 in let tr1_6 := 203 in let tr1_7 := 204 in
  let T_00_00A_2 := 205 in let T_00_00B_2 := 206 in let T_00_01A_2 := 207 in let T_00_01B_2 := 208 in let T_00_04A_2 := 209 in
  let T_00_04B_2 := 210 in let T_00_06A_2 := 211 in let T_00_06B_2 := 212 in let T_00_07A_2 := 213 in let T_00_07B_2 := 214 in let O0A_2 := 215 in
  let O1A_2 := 216 in let O2A_2 := 217 in let O3A_2 := 218 in let O4A_2 := 219 in let O5A_2 := 220 in let O6A_2 := 221 in let O7A_2 := 222 in
  let O0B_2 := 223 in let O1B_2 := 224 in let O2B_2 := 225 in let O3B_2 := 226 in let O4B_2 := 227 in let O5B_2 := 228 in let O6B_2 := 229 in
  let O7B_2 := 230 in let EO0A_2 := 231 in let EO1A_2 := 232 in let EO2A_2 := 233 in let EO3A_2 := 234 in let EO0B_2 := 235 in let EO1B_2 := 236 in
  let EO2B_2 := 237 in let EO3B_2 := 238 in let EEO0A_2 := 239 in let EEO1A_2 := 240 in let EEO0B_2 := 241 in let EEO1B_2 := 242 in
  let EEE0A_2 := 243 in let EEE1A_2 := 244 in let EEE0B_2 := 245 in let EEE1B_2 := 246 in let EE0A_2 := 247 in let EE0B_2 := 248 in
  let EE1A_2 := 249 in let EE1B_2 := 250 in let EE3A_2 := 251 in let EE3B_2 := 252 in let EE2A_2 := 253 in let EE2B_2 := 254 in let T10A_2 := 255 in
  let T10B_2 := 256 in let T11A_2 := 257 in let T11B_2 := 258 in let T12A_2 := 259 in let T12B_2 := 260 in let T13A_2 := 261 in let T13B_2 := 262 in
  let T14A_2 := 263 in let T14B_2 := 264 in let T15A_2 := 265 in let T15B_2 := 266 in let T16A_2 := 267 in let T16B_2 := 268 in let T17A_2 := 269 in
  let T17B_2 := 270 in let T30A_2 := 271 in let T30B_2 := 272 in let T31A_2 := 273 in let T31B_2 := 274 in let T32A_2 := 275 in let T32B_2 := 276 in
  let T33A_2 := 277 in let T33B_2 := 278 in let T34A_2 := 279 in let T34B_2 := 280 in let T35A_2 := 281 in let T35B_2 := 282 in let T36A_2 := 283 in
  let T36B_2 := 284 in let T37A_2 := 285 in let T37B_2 := 286 in let T38A_2 := 287 in let T38B_2 := 288 in let T39A_2 := 289 in let T39B_2 := 290 in
  let T3AA_2 := 291 in let T3AB_2 := 292 in let T3BA_2 := 293 in let T3BB_2 := 294 in let T3CA_2 := 295 in let T3CB_2 := 296 in let T3DA_2 := 297 in
  let T3DB_2 := 298 in let T3EA_2 := 299 in let T3EB_2 := 300 in let T3FA_2 := 301 in let T3FB_2 := 302 in let tr0_0_2 := 303 in let tr0_1_2 := 304 in
  let tr0_2_2 := 305 in let tr0_3_2 := 306 in let tr0_4_2 := 307 in let tr0_5_2 := 308 in let tr0_6_2 := 309 in let tr0_7_2 := 310 in
  let tr1_0_2 := 311 in let tr1_1_2 := 312 in let tr1_2_2 := 313 in let tr1_3_2 := 314 in let tr1_4_2 := 315 in let tr1_5_2 := 316 in
  let tr1_6_2 := 317 in let tr1_7_2 := 318 in let max_val := 319 in let min_val := 320 in
  [Set_ c16_p43_p45 (S32 8 (I 2818093));
   Set_ c16_p35_p40 (S32 8 (I 2293800));
   Set_ c16_p29_p43 (S32 8 (I 1900587));
   Set_ c16_n21_p04 (S32 8 (I (-1376252)));
   Set_ c16_p04_p40 (S32 8 (I 262184));
   Set_ c16_n43_n35 (S32 8 (I (-2752547)));
   Set_ c16_n21_p35 (S32 8 (I (-1376221)));
   Set_ c16_p04_n43 (S32 8 (I 327637));
   Set_ c16_n40_p29 (S32 8 (I (-2621411)));
   Set_ c16_p45_n13 (S32 8 (I 3014643));
   Set_ c16_n45_p21 (S32 8 (I (-2949099)));
   Set_ c16_p13_p29 (S32 8 (I 851997));
   Set_ c16_n35_p13 (S32 8 (I (-2293747)));
   Set_ c16_n40_p45 (S32 8 (I (-2621395)));
   Set_ c16_n13_p04 (S32 8 (I (-851964)));
   Set_ c16_n29_p21 (S32 8 (I (-1900523)));
   Set_ c16_p38_p44 (S32 8 (I 2490412));
   Set_ c16_n09_p38 (S32 8 (I (-589786)));
   Set_ c16_n44_p25 (S32 8 (I (-2883559)));
   Set_ c16_n25_p09 (S32 8 (I (-1638391)));
   Set_ c16_p17_p42 (S32 8 (I 1114154));
   Set_ c16_n42_p17 (S32 8 (I (-2752495)));
   Set_ c16_n32_p32 (S32 8 (I (-2097120)));
   Set_ c16_p32_p32 (S32 8 (I 2097184));
   SetI 0 (I 5);
   Set_ c32_rnd (S32 8 (I 16));
   Set_ Zero_8 (S16 8 (I 0));
   Set_ in00 (Ld 8 0);
   Set_ in01 (Ld 8 16);
   Set_ in02 (Ld 8 32);
   Set_ in03 (Ld 8 48);
   Set_ in04 (Ld 8 64);
   Set_ in05 (Ld 8 80);
   Set_ in06 (Ld 8 96);
   Set_ in07 (Ld 8 112);
   Set_ T_00_00A (lo16 (R in01) (R in03));
   Set_ T_00_00B (hi16 (R in01) (R in03));
   Set_ T_00_01A (lo16 (R in05) (R in07));
   Set_ T_00_01B (hi16 (R in05) (R in07));
   Set_ T_00_04A (lo16 (R in02) (R in06));
   Set_ T_00_04B (hi16 (R in02) (R in06));
   Set_ T_00_06A (lo16 (R in04) (R Zero_8));
   Set_ T_00_06B (hi16 (R in04) (R Zero_8));
   Set_ T_00_07A (lo16 (R in00) (R Zero_8));
   Set_ T_00_07B (hi16 (R in00) (R Zero_8));
   Set_ O0A (add32 (madd (R T_00_00A) (R c16_p43_p45)) (madd (R T_00_01A) (R c16_p35_p40)));
   Set_ O1A (add32 (madd (R T_00_00A) (R c16_p29_p43)) (madd (R T_00_01A) (R c16_n21_p04)));
   Set_ O2A (add32 (madd (R T_00_00A) (R c16_p04_p40)) (madd (R T_00_01A) (R c16_n43_n35)));
   Set_ O3A (add32 (madd (R T_00_00A) (R c16_n21_p35)) (madd (R T_00_01A) (R c16_p04_n43)));
   Set_ O4A (add32 (madd (R T_00_00A) (R c16_n40_p29)) (madd (R T_00_01A) (R c16_p45_n13)));
   Set_ O5A (add32 (madd (R T_00_00A) (R c16_n45_p21)) (madd (R T_00_01A) (R c16_p13_p29)));
   Set_ O6A (add32 (madd (R T_00_00A) (R c16_n35_p13)) (madd (R T_00_01A) (R c16_n40_p45)));
   Set_ O7A (add32 (madd (R T_00_00A) (R c16_n13_p04)) (madd (R T_00_01A) (R c16_n29_p21)));
   Set_ O0B (add32 (madd (R T_00_00B) (R c16_p43_p45)) (madd (R T_00_01B) (R c16_p35_p40)));
   Set_ O1B (add32 (madd (R T_00_00B) (R c16_p29_p43)) (madd (R T_00_01B) (R c16_n21_p04)));
   Set_ O2B (add32 (madd (R T_00_00B) (R c16_p04_p40)) (madd (R T_00_01B) (R c16_n43_n35)));
   Set_ O3B (add32 (madd (R T_00_00B) (R c16_n21_p35)) (madd (R T_00_01B) (R c16_p04_n43)));
   Set_ O4B (add32 (madd (R T_00_00B) (R c16_n40_p29)) (madd (R T_00_01B) (R c16_p45_n13)));
   Set_ O5B (add32 (madd (R T_00_00B) (R c16_n45_p21)) (madd (R T_00_01B) (R c16_p13_p29)));
   Set_ O6B (add32 (madd (R T_00_00B) (R c16_n35_p13)) (madd (R T_00_01B) (R c16_n40_p45)));
   Set_ O7B (add32 (madd (R T_00_00B) (R c16_n13_p04)) (madd (R T_00_01B) (R c16_n29_p21)));
   Set_ EO0A (madd (R T_00_04A) (R c16_p38_p44));
   Set_ EO0B (madd (R T_00_04B) (R c16_p38_p44));
   Set_ EO1A (madd (R T_00_04A) (R c16_n09_p38))]
  ++ [Set_ EO1B (madd (R T_00_04B) (R c16_n09_p38));
   Set_ EO2A (madd (R T_00_04A) (R c16_n44_p25));
   Set_ EO2B (madd (R T_00_04B) (R c16_n44_p25));
   Set_ EO3A (madd (R T_00_04A) (R c16_n25_p09));
   Set_ EO3B (madd (R T_00_04B) (R c16_n25_p09));
   Set_ EEO0A (madd (R T_00_06A) (R c16_p17_p42));
   Set_ EEO0B (madd (R T_00_06B) (R c16_p17_p42));
   Set_ EEO1A (madd (R T_00_06A) (R c16_n42_p17));
   Set_ EEO1B (madd (R T_00_06B) (R c16_n42_p17));
   Set_ EEE0A (madd (R T_00_07A) (R c16_p32_p32));
   Set_ EEE0B (madd (R T_00_07B) (R c16_p32_p32));
   Set_ EEE1A (madd (R T_00_07A) (R c16_n32_p32));
   Set_ EEE1B (madd (R T_00_07B) (R c16_n32_p32));
   Set_ EE0A (add32 (R EEE0A) (R EEO0A));
   Set_ EE0B (add32 (R EEE0B) (R EEO0B));
   Set_ EE1A (add32 (R EEE1A) (R EEO1A));
   Set_ EE1B (add32 (R EEE1B) (R EEO1B));
   Set_ EE3A (sub32 (R EEE0A) (R EEO0A));
   Set_ EE3B (sub32 (R EEE0B) (R EEO0B));
   Set_ EE2A (sub32 (R EEE1A) (R EEO1A));
   Set_ EE2B (sub32 (R EEE1B) (R EEO1B));
   Set_ T10A (add32 (add32 (R EE0A) (R EO0A)) (R c32_rnd));
   Set_ T10B (add32 (add32 (R EE0B) (R EO0B)) (R c32_rnd));
   Set_ T11A (add32 (add32 (R EE1A) (R EO1A)) (R c32_rnd));
   Set_ T11B (add32 (add32 (R EE1B) (R EO1B)) (R c32_rnd));
   Set_ T12A (add32 (add32 (R EE2A) (R EO2A)) (R c32_rnd));
   Set_ T12B (add32 (add32 (R EE2B) (R EO2B)) (R c32_rnd));
   Set_ T13A (add32 (add32 (R EE3A) (R EO3A)) (R c32_rnd));
   Set_ T13B (add32 (add32 (R EE3B) (R EO3B)) (R c32_rnd));
   Set_ T14A (add32 (sub32 (R EE3A) (R EO3A)) (R c32_rnd));
   Set_ T14B (add32 (sub32 (R EE3B) (R EO3B)) (R c32_rnd));
   Set_ T15A (add32 (sub32 (R EE2A) (R EO2A)) (R c32_rnd));
   Set_ T15B (add32 (sub32 (R EE2B) (R EO2B)) (R c32_rnd));
   Set_ T16A (add32 (sub32 (R EE1A) (R EO1A)) (R c32_rnd));
   Set_ T16B (add32 (sub32 (R EE1B) (R EO1B)) (R c32_rnd));
   Set_ T17A (add32 (sub32 (R EE0A) (R EO0A)) (R c32_rnd));
   Set_ T17B (add32 (sub32 (R EE0B) (R EO0B)) (R c32_rnd));
   Set_ T30A (Sra32 (add32 (R T10A) (R O0A)) (X 0));
   Set_ T30B (Sra32 (add32 (R T10B) (R O0B)) (X 0));
   Set_ T31A (Sra32 (add32 (R T11A) (R O1A)) (X 0));
   Set_ T31B (Sra32 (add32 (R T11B) (R O1B)) (X 0));
   Set_ T32A (Sra32 (add32 (R T12A) (R O2A)) (X 0));
   Set_ T32B (Sra32 (add32 (R T12B) (R O2B)) (X 0));
   Set_ T33A (Sra32 (add32 (R T13A) (R O3A)) (X 0));
   Set_ T33B (Sra32 (add32 (R T13B) (R O3B)) (X 0));
   Set_ T34A (Sra32 (add32 (R T14A) (R O4A)) (X 0));
   Set_ T34B (Sra32 (add32 (R T14B) (R O4B)) (X 0));
   Set_ T35A (Sra32 (add32 (R T15A) (R O5A)) (X 0));
   Set_ T35B (Sra32 (add32 (R T15B) (R O5B)) (X 0));
   Set_ T36A (Sra32 (add32 (R T16A) (R O6A)) (X 0));
   Set_ T36B (Sra32 (add32 (R T16B) (R O6B)) (X 0));
   Set_ T37A (Sra32 (add32 (R T17A) (R O7A)) (X 0));
   Set_ T37B (Sra32 (add32 (R T17B) (R O7B)) (X 0));
   Set_ T38A (Sra32 (sub32 (R T17A) (R O7A)) (X 0));
   Set_ T38B (Sra32 (sub32 (R T17B) (R O7B)) (X 0));
   Set_ T39A (Sra32 (sub32 (R T16A) (R O6A)) (X 0));
   Set_ T39B (Sra32 (sub32 (R T16B) (R O6B)) (X 0));
   Set_ T3AA (Sra32 (sub32 (R T15A) (R O5A)) (X 0));
   Set_ T3AB (Sra32 (sub32 (R T15B) (R O5B)) (X 0));
   Set_ T3BA (Sra32 (sub32 (R T14A) (R O4A)) (X 0));
   Set_ T3BB (Sra32 (sub32 (R T14B) (R O4B)) (X 0));
   Set_ T3CA (Sra32 (sub32 (R T13A) (R O3A)) (X 0));
   Set_ T3CB (Sra32 (sub32 (R T13B) (R O3B)) (X 0));
   Set_ T3DA (Sra32 (sub32 (R T12A) (R O2A)) (X 0))]
  ++ [Set_ T3DB (Sra32 (sub32 (R T12B) (R O2B)) (X 0));
   Set_ T3EA (Sra32 (sub32 (R T11A) (R O1A)) (X 0));
   Set_ T3EB (Sra32 (sub32 (R T11B) (R O1B)) (X 0));
   Set_ T3FA (Sra32 (sub32 (R T10A) (R O0A)) (X 0));
   Set_ T3FB (Sra32 (sub32 (R T10B) (R O0B)) (X 0));
   Set_ res00 (packs32 (R T30A) (R T30B));
   Set_ res01 (packs32 (R T31A) (R T31B));
   Set_ res02 (packs32 (R T32A) (R T32B));
   Set_ res03 (packs32 (R T33A) (R T33B));
   Set_ res04 (packs32 (R T34A) (R T34B));
   Set_ res05 (packs32 (R T35A) (R T35B));
   Set_ res06 (packs32 (R T36A) (R T36B));
   Set_ res07 (packs32 (R T37A) (R T37B));
   Set_ res08 (packs32 (R T38A) (R T38B));
   Set_ res09 (packs32 (R T39A) (R T39B));
   Set_ res10 (packs32 (R T3AA) (R T3AB));
   Set_ res11 (packs32 (R T3BA) (R T3BB));
   Set_ res12 (packs32 (R T3CA) (R T3CB));
   Set_ res13 (packs32 (R T3DA) (R T3DB));
   Set_ res14 (packs32 (R T3EA) (R T3EB));
   Set_ res15 (packs32 (R T3FA) (R T3FB));
   Set_ tr0_0 (lo16 (R res00) (R res01));
   Set_ tr0_1 (lo16 (R res02) (R res03));
   Set_ tr0_2 (hi16 (R res00) (R res01));
   Set_ tr0_3 (hi16 (R res02) (R res03));
   Set_ tr0_4 (lo16 (R res04) (R res05));
   Set_ tr0_5 (lo16 (R res06) (R res07));
   Set_ tr0_6 (hi16 (R res04) (R res05));
   Set_ tr0_7 (hi16 (R res06) (R res07));
   Set_ tr1_0 (lo32 (R tr0_0) (R tr0_1));
   Set_ tr1_1 (lo32 (R tr0_2) (R tr0_3));
   Set_ tr1_2 (hi32 (R tr0_0) (R tr0_1));
   Set_ tr1_3 (hi32 (R tr0_2) (R tr0_3));
   Set_ tr1_4 (lo32 (R tr0_4) (R tr0_5));
   Set_ tr1_5 (lo32 (R tr0_6) (R tr0_7));
   Set_ tr1_6 (hi32 (R tr0_4) (R tr0_5));
   Set_ tr1_7 (hi32 (R tr0_6) (R tr0_7));
   Set_ in00 (lo64 (R tr1_0) (R tr1_4));
   Set_ in01 (hi64 (R tr1_0) (R tr1_4));
   Set_ in02 (lo64 (R tr1_2) (R tr1_6));
   Set_ in03 (hi64 (R tr1_2) (R tr1_6));
   Set_ in04 (lo64 (R tr1_1) (R tr1_5));
   Set_ in05 (hi64 (R tr1_1) (R tr1_5));
   Set_ in06 (lo64 (R tr1_3) (R tr1_7));
   Set_ in07 (hi64 (R tr1_3) (R tr1_7));
   Set_ tr0_0 (lo16 (R res08) (R res09));
   Set_ tr0_1 (lo16 (R res10) (R res11));
   Set_ tr0_2 (hi16 (R res08) (R res09));
   Set_ tr0_3 (hi16 (R res10) (R res11));
   Set_ tr0_4 (lo16 (R res12) (R res13));
   Set_ tr0_5 (lo16 (R res14) (R res15));
   Set_ tr0_6 (hi16 (R res12) (R res13));
   Set_ tr0_7 (hi16 (R res14) (R res15));
   Set_ tr1_0 (lo32 (R tr0_0) (R tr0_1));
   Set_ tr1_1 (lo32 (R tr0_2) (R tr0_3));
   Set_ tr1_2 (hi32 (R tr0_0) (R tr0_1));
   Set_ tr1_3 (hi32 (R tr0_2) (R tr0_3));
   Set_ tr1_4 (lo32 (R tr0_4) (R tr0_5));
   Set_ tr1_5 (lo32 (R tr0_6) (R tr0_7));
   Set_ tr1_6 (hi32 (R tr0_4) (R tr0_5));
   Set_ tr1_7 (hi32 (R tr0_6) (R tr0_7));
   Set_ (in00 + 1) (lo64 (R tr1_0) (R tr1_4));
   Set_ (in01 + 1) (hi64 (R tr1_0) (R tr1_4));
   Set_ (in02 + 1) (lo64 (R tr1_2) (R tr1_6))]
  ++ [Set_ (in03 + 1) (hi64 (R tr1_2) (R tr1_6));
   Set_ (in04 + 1) (lo64 (R tr1_1) (R tr1_5));
   Set_ (in05 + 1) (hi64 (R tr1_1) (R tr1_5));
   Set_ (in06 + 1) (lo64 (R tr1_3) (R tr1_7));
   Set_ (in07 + 1) (hi64 (R tr1_3) (R tr1_7));
   SetI 0 (Q SH2);
   Set_ c32_rnd (S32 8 (Q RND2))]
  ++ loop 2 (fun part =>
    [Set_ T_00_00A_2 (lo16 (R (in01 + part)) (R (in03 + part)));
     Set_ T_00_00B_2 (hi16 (R (in01 + part)) (R (in03 + part)));
     Set_ T_00_01A_2 (lo16 (R (in05 + part)) (R (in07 + part)));
     Set_ T_00_01B_2 (hi16 (R (in05 + part)) (R (in07 + part)));
     Set_ T_00_04A_2 (lo16 (R (in02 + part)) (R (in06 + part)));
     Set_ T_00_04B_2 (hi16 (R (in02 + part)) (R (in06 + part)));
     Set_ T_00_06A_2 (lo16 (R (in04 + part)) (R Zero_8));
     Set_ T_00_06B_2 (hi16 (R (in04 + part)) (R Zero_8));
     Set_ T_00_07A_2 (lo16 (R (in00 + part)) (R Zero_8));
     Set_ T_00_07B_2 (hi16 (R (in00 + part)) (R Zero_8));
     Set_ O0A_2 (add32 (madd (R T_00_00A_2) (R c16_p43_p45)) (madd (R T_00_01A_2) (R c16_p35_p40)));
     Set_ O1A_2 (add32 (madd (R T_00_00A_2) (R c16_p29_p43)) (madd (R T_00_01A_2) (R c16_n21_p04)));
     Set_ O2A_2 (add32 (madd (R T_00_00A_2) (R c16_p04_p40)) (madd (R T_00_01A_2) (R c16_n43_n35)));
     Set_ O3A_2 (add32 (madd (R T_00_00A_2) (R c16_n21_p35)) (madd (R T_00_01A_2) (R c16_p04_n43)));
     Set_ O4A_2 (add32 (madd (R T_00_00A_2) (R c16_n40_p29)) (madd (R T_00_01A_2) (R c16_p45_n13)));
     Set_ O5A_2 (add32 (madd (R T_00_00A_2) (R c16_n45_p21)) (madd (R T_00_01A_2) (R c16_p13_p29)));
     Set_ O6A_2 (add32 (madd (R T_00_00A_2) (R c16_n35_p13)) (madd (R T_00_01A_2) (R c16_n40_p45)));
     Set_ O7A_2 (add32 (madd (R T_00_00A_2) (R c16_n13_p04)) (madd (R T_00_01A_2) (R c16_n29_p21)));
     Set_ O0B_2 (add32 (madd (R T_00_00B_2) (R c16_p43_p45)) (madd (R T_00_01B_2) (R c16_p35_p40)));
     Set_ O1B_2 (add32 (madd (R T_00_00B_2) (R c16_p29_p43)) (madd (R T_00_01B_2) (R c16_n21_p04)));
     Set_ O2B_2 (add32 (madd (R T_00_00B_2) (R c16_p04_p40)) (madd (R T_00_01B_2) (R c16_n43_n35)));
     Set_ O3B_2 (add32 (madd (R T_00_00B_2) (R c16_n21_p35)) (madd (R T_00_01B_2) (R c16_p04_n43)));
     Set_ O4B_2 (add32 (madd (R T_00_00B_2) (R c16_n40_p29)) (madd (R T_00_01B_2) (R c16_p45_n13)));
     Set_ O5B_2 (add32 (madd (R T_00_00B_2) (R c16_n45_p21)) (madd (R T_00_01B_2) (R c16_p13_p29)));
     Set_ O6B_2 (add32 (madd (R T_00_00B_2) (R c16_n35_p13)) (madd (R T_00_01B_2) (R c16_n40_p45)));
     Set_ O7B_2 (add32 (madd (R T_00_00B_2) (R c16_n13_p04)) (madd (R T_00_01B_2) (R c16_n29_p21)));
     Set_ EO0A_2 (madd (R T_00_04A_2) (R c16_p38_p44));
     Set_ EO0B_2 (madd (R T_00_04B_2) (R c16_p38_p44));
     Set_ EO1A_2 (madd (R T_00_04A_2) (R c16_n09_p38));
     Set_ EO1B_2 (madd (R T_00_04B_2) (R c16_n09_p38));
     Set_ EO2A_2 (madd (R T_00_04A_2) (R c16_n44_p25));
     Set_ EO2B_2 (madd (R T_00_04B_2) (R c16_n44_p25));
     Set_ EO3A_2 (madd (R T_00_04A_2) (R c16_n25_p09));
     Set_ EO3B_2 (madd (R T_00_04B_2) (R c16_n25_p09));
     Set_ EEO0A_2 (madd (R T_00_06A_2) (R c16_p17_p42));
     Set_ EEO0B_2 (madd (R T_00_06B_2) (R c16_p17_p42));
     Set_ EEO1A_2 (madd (R T_00_06A_2) (R c16_n42_p17));
     Set_ EEO1B_2 (madd (R T_00_06B_2) (R c16_n42_p17));
     Set_ EEE0A_2 (madd (R T_00_07A_2) (R c16_p32_p32));
     Set_ EEE0B_2 (madd (R T_00_07B_2) (R c16_p32_p32));
     Set_ EEE1A_2 (madd (R T_00_07A_2) (R c16_n32_p32));
     Set_ EEE1B_2 (madd (R T_00_07B_2) (R c16_n32_p32));
     Set_ EE0A_2 (add32 (R EEE0A_2) (R EEO0A_2));
     Set_ EE0B_2 (add32 (R EEE0B_2) (R EEO0B_2));
     Set_ EE1A_2 (add32 (R EEE1A_2) (R EEO1A_2));
     Set_ EE1B_2 (add32 (R EEE1B_2) (R EEO1B_2));
     Set_ EE3A_2 (sub32 (R EEE0A_2) (R EEO0A_2));
     Set_ EE3B_2 (sub32 (R EEE0B_2) (R EEO0B_2));
     Set_ EE2A_2 (sub32 (R EEE1A_2) (R EEO1A_2));
     Set_ EE2B_2 (sub32 (R EEE1B_2) (R EEO1B_2));
     Set_ T10A_2 (add32 (add32 (R EE0A_2) (R EO0A_2)) (R c32_rnd));
     Set_ T10B_2 (add32 (add32 (R EE0B_2) (R EO0B_2)) (R c32_rnd));
     Set_ T11A_2 (add32 (add32 (R EE1A_2) (R EO1A_2)) (R c32_rnd));
     Set_ T11B_2 (add32 (add32 (R EE1B_2) (R EO1B_2)) (R c32_rnd));
     Set_ T12A_2 (add32 (add32 (R EE2A_2) (R EO2A_2)) (R c32_rnd));
     Set_ T12B_2 (add32 (add32 (R EE2B_2) (R EO2B_2)) (R c32_rnd));
     Set_ T13A_2 (add32 (add32 (R EE3A_2) (R EO3A_2)) (R c32_rnd));
     Set_ T13B_2 (add32 (add32 (R EE3B_2) (R EO3B_2)) (R c32_rnd));
     Set_ T14A_2 (add32 (sub32 (R EE3A_2) (R EO3A_2)) (R c32_rnd));
     Set_ T14B_2 (add32 (sub32 (R EE3B_2) (R EO3B_2)) (R c32_rnd));
     Set_ T15A_2 (add32 (sub32 (R EE2A_2) (R EO2A_2)) (R c32_rnd));
     Set_ T15B_2 (add32 (sub32 (R EE2B_2) (R EO2B_2)) (R c32_rnd));
     Set_ T16A_2 (add32 (sub32 (R EE1A_2) (R EO1A_2)) (R c32_rnd));
     Set_ T16B_2 (add32 (sub32 (R EE1B_2) (R EO1B_2)) (R c32_rnd))]
    ++ [Set_ T17A_2 (add32 (sub32 (R EE0A_2) (R EO0A_2)) (R c32_rnd));
     Set_ T17B_2 (add32 (sub32 (R EE0B_2) (R EO0B_2)) (R c32_rnd));
     Set_ T30A_2 (Sra32 (add32 (R T10A_2) (R O0A_2)) (X 0));
     Set_ T30B_2 (Sra32 (add32 (R T10B_2) (R O0B_2)) (X 0));
     Set_ T31A_2 (Sra32 (add32 (R T11A_2) (R O1A_2)) (X 0));
     Set_ T31B_2 (Sra32 (add32 (R T11B_2) (R O1B_2)) (X 0));
     Set_ T32A_2 (Sra32 (add32 (R T12A_2) (R O2A_2)) (X 0));
     Set_ T32B_2 (Sra32 (add32 (R T12B_2) (R O2B_2)) (X 0));
     Set_ T33A_2 (Sra32 (add32 (R T13A_2) (R O3A_2)) (X 0));
     Set_ T33B_2 (Sra32 (add32 (R T13B_2) (R O3B_2)) (X 0));
     Set_ T34A_2 (Sra32 (add32 (R T14A_2) (R O4A_2)) (X 0));
     Set_ T34B_2 (Sra32 (add32 (R T14B_2) (R O4B_2)) (X 0));
     Set_ T35A_2 (Sra32 (add32 (R T15A_2) (R O5A_2)) (X 0));
     Set_ T35B_2 (Sra32 (add32 (R T15B_2) (R O5B_2)) (X 0));
     Set_ T36A_2 (Sra32 (add32 (R T16A_2) (R O6A_2)) (X 0));
     Set_ T36B_2 (Sra32 (add32 (R T16B_2) (R O6B_2)) (X 0));
     Set_ T37A_2 (Sra32 (add32 (R T17A_2) (R O7A_2)) (X 0));
     Set_ T37B_2 (Sra32 (add32 (R T17B_2) (R O7B_2)) (X 0));
     Set_ T38A_2 (Sra32 (sub32 (R T17A_2) (R O7A_2)) (X 0));
     Set_ T38B_2 (Sra32 (sub32 (R T17B_2) (R O7B_2)) (X 0));
     Set_ T39A_2 (Sra32 (sub32 (R T16A_2) (R O6A_2)) (X 0));
     Set_ T39B_2 (Sra32 (sub32 (R T16B_2) (R O6B_2)) (X 0));
     Set_ T3AA_2 (Sra32 (sub32 (R T15A_2) (R O5A_2)) (X 0));
     Set_ T3AB_2 (Sra32 (sub32 (R T15B_2) (R O5B_2)) (X 0));
     Set_ T3BA_2 (Sra32 (sub32 (R T14A_2) (R O4A_2)) (X 0));
     Set_ T3BB_2 (Sra32 (sub32 (R T14B_2) (R O4B_2)) (X 0));
     Set_ T3CA_2 (Sra32 (sub32 (R T13A_2) (R O3A_2)) (X 0));
     Set_ T3CB_2 (Sra32 (sub32 (R T13B_2) (R O3B_2)) (X 0));
     Set_ T3DA_2 (Sra32 (sub32 (R T12A_2) (R O2A_2)) (X 0));
     Set_ T3DB_2 (Sra32 (sub32 (R T12B_2) (R O2B_2)) (X 0));
     Set_ T3EA_2 (Sra32 (sub32 (R T11A_2) (R O1A_2)) (X 0));
     Set_ T3EB_2 (Sra32 (sub32 (R T11B_2) (R O1B_2)) (X 0));
     Set_ T3FA_2 (Sra32 (sub32 (R T10A_2) (R O0A_2)) (X 0));
     Set_ T3FB_2 (Sra32 (sub32 (R T10B_2) (R O0B_2)) (X 0));
     Set_ (res00 + part) (packs32 (R T30A_2) (R T30B_2));
     Set_ (res01 + part) (packs32 (R T31A_2) (R T31B_2));
     Set_ (res02 + part) (packs32 (R T32A_2) (R T32B_2));
     Set_ (res03 + part) (packs32 (R T33A_2) (R T33B_2));
     Set_ (res04 + part) (packs32 (R T34A_2) (R T34B_2));
     Set_ (res05 + part) (packs32 (R T35A_2) (R T35B_2));
     Set_ (res06 + part) (packs32 (R T36A_2) (R T36B_2));
     Set_ (res07 + part) (packs32 (R T37A_2) (R T37B_2));
     Set_ (res08 + part) (packs32 (R T38A_2) (R T38B_2));
     Set_ (res09 + part) (packs32 (R T39A_2) (R T39B_2));
     Set_ (res10 + part) (packs32 (R T3AA_2) (R T3AB_2));
     Set_ (res11 + part) (packs32 (R T3BA_2) (R T3BB_2));
     Set_ (res12 + part) (packs32 (R T3CA_2) (R T3CB_2));
     Set_ (res13 + part) (packs32 (R T3DA_2) (R T3DB_2));
     Set_ (res14 + part) (packs32 (R T3EA_2) (R T3EB_2));
     Set_ (res15 + part) (packs32 (R T3FA_2) (R T3FB_2))])
  ++ [Set_ tr0_0_2 (lo16 (R res00) (R res01));
   Set_ tr0_1_2 (lo16 (R res02) (R res03));
   Set_ tr0_2_2 (hi16 (R res00) (R res01));
   Set_ tr0_3_2 (hi16 (R res02) (R res03));
   Set_ tr0_4_2 (lo16 (R res04) (R res05));
   Set_ tr0_5_2 (lo16 (R res06) (R res07));
   Set_ tr0_6_2 (hi16 (R res04) (R res05));
   Set_ tr0_7_2 (hi16 (R res06) (R res07));
   Set_ tr1_0_2 (lo32 (R tr0_0_2) (R tr0_1_2));
   Set_ tr1_1_2 (lo32 (R tr0_2_2) (R tr0_3_2));
   Set_ tr1_2_2 (hi32 (R tr0_0_2) (R tr0_1_2));
   Set_ tr1_3_2 (hi32 (R tr0_2_2) (R tr0_3_2));
   Set_ tr1_4_2 (lo32 (R tr0_4_2) (R tr0_5_2));
   Set_ tr1_5_2 (lo32 (R tr0_6_2) (R tr0_7_2));
   Set_ tr1_6_2 (hi32 (R tr0_4_2) (R tr0_5_2));
   Set_ tr1_7_2 (hi32 (R tr0_6_2) (R tr0_7_2));
   Set_ in00 (lo64 (R tr1_0_2) (R tr1_4_2));
   Set_ in01 (hi64 (R tr1_0_2) (R tr1_4_2));
   Set_ in02 (lo64 (R tr1_2_2) (R tr1_6_2));
   Set_ in03 (hi64 (R tr1_2_2) (R tr1_6_2));
   Set_ in04 (lo64 (R tr1_1_2) (R tr1_5_2));
   Set_ in05 (hi64 (R tr1_1_2) (R tr1_5_2));
   Set_ in06 (lo64 (R tr1_3_2) (R tr1_7_2));
   Set_ in07 (hi64 (R tr1_3_2) (R tr1_7_2));
   Set_ tr0_0_2 (lo16 (R res08) (R res09));
   Set_ tr0_1_2 (lo16 (R res10) (R res11));
   Set_ tr0_2_2 (hi16 (R res08) (R res09));
   Set_ tr0_3_2 (hi16 (R res10) (R res11));
   Set_ tr0_4_2 (lo16 (R res12) (R res13));
   Set_ tr0_5_2 (lo16 (R res14) (R res15));
   Set_ tr0_6_2 (hi16 (R res12) (R res13));
   Set_ tr0_7_2 (hi16 (R res14) (R res15));
   Set_ tr1_0_2 (lo32 (R tr0_0_2) (R tr0_1_2));
   Set_ tr1_1_2 (lo32 (R tr0_2_2) (R tr0_3_2));
   Set_ tr1_2_2 (hi32 (R tr0_0_2) (R tr0_1_2));
   Set_ tr1_3_2 (hi32 (R tr0_2_2) (R tr0_3_2));
   Set_ tr1_4_2 (lo32 (R tr0_4_2) (R tr0_5_2));
   Set_ tr1_5_2 (lo32 (R tr0_6_2) (R tr0_7_2));
   Set_ tr1_6_2 (hi32 (R tr0_4_2) (R tr0_5_2));
   Set_ tr1_7_2 (hi32 (R tr0_6_2) (R tr0_7_2));
   Set_ (in00 + 1) (lo64 (R tr1_0_2) (R tr1_4_2));
   Set_ (in01 + 1) (hi64 (R tr1_0_2) (R tr1_4_2));
   Set_ (in02 + 1) (lo64 (R tr1_2_2) (R tr1_6_2));
   Set_ (in03 + 1) (hi64 (R tr1_2_2) (R tr1_6_2));
   Set_ (in04 + 1) (lo64 (R tr1_1_2) (R tr1_5_2));
   Set_ (in05 + 1) (hi64 (R tr1_1_2) (R tr1_5_2));
   Set_ (in06 + 1) (lo64 (R tr1_3_2) (R tr1_7_2));
   Set_ (in07 + 1) (hi64 (R tr1_3_2) (R tr1_7_2));
   Set_ tr0_0_2 (lo16 (R (res00 + 1)) (R (res01 + 1)));
   Set_ tr0_1_2 (lo16 (R (res02 + 1)) (R (res03 + 1)));
   Set_ tr0_2_2 (hi16 (R (res00 + 1)) (R (res01 + 1)));
   Set_ tr0_3_2 (hi16 (R (res02 + 1)) (R (res03 + 1)));
   Set_ tr0_4_2 (lo16 (R (res04 + 1)) (R (res05 + 1)));
   Set_ tr0_5_2 (lo16 (R (res06 + 1)) (R (res07 + 1)));
   Set_ tr0_6_2 (hi16 (R (res04 + 1)) (R (res05 + 1)));
   Set_ tr0_7_2 (hi16 (R (res06 + 1)) (R (res07 + 1)));
   Set_ tr1_0_2 (lo32 (R tr0_0_2) (R tr0_1_2));
   Set_ tr1_1_2 (lo32 (R tr0_2_2) (R tr0_3_2));
   Set_ tr1_2_2 (hi32 (R tr0_0_2) (R tr0_1_2));
   Set_ tr1_3_2 (hi32 (R tr0_2_2) (R tr0_3_2));
   Set_ tr1_4_2 (lo32 (R tr0_4_2) (R tr0_5_2));
   Set_ tr1_5_2 (lo32 (R tr0_6_2) (R tr0_7_2));
   Set_ tr1_6_2 (hi32 (R tr0_4_2) (R tr0_5_2));
   Set_ tr1_7_2 (hi32 (R tr0_6_2) (R tr0_7_2))]
  ++ [Set_ in08 (lo64 (R tr1_0_2) (R tr1_4_2));
   Set_ in09 (hi64 (R tr1_0_2) (R tr1_4_2));
   Set_ in10 (lo64 (R tr1_2_2) (R tr1_6_2));
   Set_ in11 (hi64 (R tr1_2_2) (R tr1_6_2));
   Set_ in12 (lo64 (R tr1_1_2) (R tr1_5_2));
   Set_ in13 (hi64 (R tr1_1_2) (R tr1_5_2));
   Set_ in14 (lo64 (R tr1_3_2) (R tr1_7_2));
   Set_ in15 (hi64 (R tr1_3_2) (R tr1_7_2));
   Set_ tr0_0_2 (lo16 (R (res08 + 1)) (R (res09 + 1)));
   Set_ tr0_1_2 (lo16 (R (res10 + 1)) (R (res11 + 1)));
   Set_ tr0_2_2 (hi16 (R (res08 + 1)) (R (res09 + 1)));
   Set_ tr0_3_2 (hi16 (R (res10 + 1)) (R (res11 + 1)));
   Set_ tr0_4_2 (lo16 (R (res12 + 1)) (R (res13 + 1)));
   Set_ tr0_5_2 (lo16 (R (res14 + 1)) (R (res15 + 1)));
   Set_ tr0_6_2 (hi16 (R (res12 + 1)) (R (res13 + 1)));
   Set_ tr0_7_2 (hi16 (R (res14 + 1)) (R (res15 + 1)));
   Set_ tr1_0_2 (lo32 (R tr0_0_2) (R tr0_1_2));
   Set_ tr1_1_2 (lo32 (R tr0_2_2) (R tr0_3_2));
   Set_ tr1_2_2 (hi32 (R tr0_0_2) (R tr0_1_2));
   Set_ tr1_3_2 (hi32 (R tr0_2_2) (R tr0_3_2));
   Set_ tr1_4_2 (lo32 (R tr0_4_2) (R tr0_5_2));
   Set_ tr1_5_2 (lo32 (R tr0_6_2) (R tr0_7_2));
   Set_ tr1_6_2 (hi32 (R tr0_4_2) (R tr0_5_2));
   Set_ tr1_7_2 (hi32 (R tr0_6_2) (R tr0_7_2));
   Set_ (in08 + 1) (lo64 (R tr1_0_2) (R tr1_4_2));
   Set_ (in09 + 1) (hi64 (R tr1_0_2) (R tr1_4_2));
   Set_ (in10 + 1) (lo64 (R tr1_2_2) (R tr1_6_2));
   Set_ (in11 + 1) (hi64 (R tr1_2_2) (R tr1_6_2));
   Set_ (in12 + 1) (lo64 (R tr1_1_2) (R tr1_5_2));
   Set_ (in13 + 1) (hi64 (R tr1_1_2) (R tr1_5_2));
   Set_ (in14 + 1) (lo64 (R tr1_3_2) (R tr1_7_2));
   Set_ (in15 + 1) (hi64 (R tr1_3_2) (R tr1_7_2));
   Set_ max_val (S16 8 (Q HI2));
   Set_ min_val (S16 8 (Q LO2));
   Set_ in00 (max16 (min16 (R in00) (R max_val)) (R min_val));
   Set_ (in00 + 1) (max16 (min16 (R (in00 + 1)) (R max_val)) (R min_val));
   Set_ in01 (max16 (min16 (R in01) (R max_val)) (R min_val));
   Set_ (in01 + 1) (max16 (min16 (R (in01 + 1)) (R max_val)) (R min_val));
   Set_ in02 (max16 (min16 (R in02) (R max_val)) (R min_val));
   Set_ (in02 + 1) (max16 (min16 (R (in02 + 1)) (R max_val)) (R min_val));
   Set_ in03 (max16 (min16 (R in03) (R max_val)) (R min_val));
   Set_ (in03 + 1) (max16 (min16 (R (in03 + 1)) (R max_val)) (R min_val));
   Set_ in04 (max16 (min16 (R in04) (R max_val)) (R min_val));
   Set_ (in04 + 1) (max16 (min16 (R (in04 + 1)) (R max_val)) (R min_val));
   Set_ in05 (max16 (min16 (R in05) (R max_val)) (R min_val));
   Set_ (in05 + 1) (max16 (min16 (R (in05 + 1)) (R max_val)) (R min_val));
   Set_ in06 (max16 (min16 (R in06) (R max_val)) (R min_val));
   Set_ (in06 + 1) (max16 (min16 (R (in06 + 1)) (R max_val)) (R min_val));
   Set_ in07 (max16 (min16 (R in07) (R max_val)) (R min_val));
   Set_ (in07 + 1) (max16 (min16 (R (in07 + 1)) (R max_val)) (R min_val));
   Set_ in08 (max16 (min16 (R in08) (R max_val)) (R min_val));
   Set_ (in08 + 1) (max16 (min16 (R (in08 + 1)) (R max_val)) (R min_val));
   Set_ in09 (max16 (min16 (R in09) (R max_val)) (R min_val));
   Set_ (in09 + 1) (max16 (min16 (R (in09 + 1)) (R max_val)) (R min_val));
   Set_ in10 (max16 (min16 (R in10) (R max_val)) (R min_val));
   Set_ (in10 + 1) (max16 (min16 (R (in10 + 1)) (R max_val)) (R min_val));
   Set_ in11 (max16 (min16 (R in11) (R max_val)) (R min_val));
   Set_ (in11 + 1) (max16 (min16 (R (in11 + 1)) (R max_val)) (R min_val));
   Set_ in12 (max16 (min16 (R in12) (R max_val)) (R min_val));
   Set_ (in12 + 1) (max16 (min16 (R (in12 + 1)) (R max_val)) (R min_val));
   Set_ in13 (max16 (min16 (R in13) (R max_val)) (R min_val));
   Set_ (in13 + 1) (max16 (min16 (R (in13 + 1)) (R max_val)) (R min_val));
   Set_ in14 (max16 (min16 (R in14) (R max_val)) (R min_val));
   Set_ (in14 + 1) (max16 (min16 (R (in14 + 1)) (R max_val)) (R min_val))]
  ++ [Set_ in15 (max16 (min16 (R in15) (R max_val)) (R min_val));
   Set_ (in15 + 1) (max16 (min16 (R (in15 + 1)) (R max_val)) (R min_val));
   St 8 0 0 0 (R in00);
   St 8 0 0 8 (R (in00 + 1));
   St 8 0 1 0 (R in01);
   St 8 0 1 8 (R (in01 + 1));
   St 8 0 2 0 (R in02);
   St 8 0 2 8 (R (in02 + 1));
   St 8 0 3 0 (R in03);
   St 8 0 3 8 (R (in03 + 1));
   St 8 0 4 0 (R in04);
   St 8 0 4 8 (R (in04 + 1));
   St 8 0 5 0 (R in05);
   St 8 0 5 8 (R (in05 + 1));
   St 8 0 6 0 (R in06);
   St 8 0 6 8 (R (in06 + 1));
   St 8 0 7 0 (R in07);
   St 8 0 7 8 (R (in07 + 1));
   St 8 0 8 0 (R in08);
   St 8 0 8 8 (R (in08 + 1));
   St 8 0 9 0 (R in09);
   St 8 0 9 8 (R (in09 + 1));
   St 8 0 10 0 (R in10);
   St 8 0 10 8 (R (in10 + 1));
   St 8 0 11 0 (R in11);
   St 8 0 11 8 (R (in11 + 1));
   St 8 0 12 0 (R in12);
   St 8 0 12 8 (R (in12 + 1));
   St 8 0 13 0 (R in13);
   St 8 0 13 8 (R (in13 + 1));
   St 8 0 14 0 (R in14);
   St 8 0 14 8 (R (in14 + 1));
   St 8 0 15 0 (R in15);
   St 8 0 15 8 (R (in15 + 1))].

(** vec/intrinsic_idct.cc:1985-2444 [idct_16x16_quad_sse128]. *)
Definition idct_16x16_quad_sse128 : list ins :=
  let c16_p43_p45 := 1 in let c16_p29_p43 := 2 in let c16_p04_p40 := 3 in let c16_n21_p35 := 4 in let c16_n40_p29 := 5 in let c16_n45_p21 := 6 in
  let c16_n35_p13 := 7 in let c16_n13_p04 := 8 in let c16_p38_p44 := 9 in let c16_n09_p38 := 10 in let c16_n44_p25 := 11 in let c16_n25_p09 := 12 in
  let c16_n32_p32 := 13 in let c16_p32_p32 := 14 in let c32_rnd := 15 in let Zero_8 := 16 in let add_zero := 17 in let in00 := 18 in let in01 := 20 in
  let in02 := 22 in let in03 := 24 in let in04 := 26 in let in05 := 28 in let in06 := 30 in let in07 := 32 in let in08 := 34 in let in09 := 36 in
  let in10 := 38 in let in11 := 40 in let in12 := 42 in let in13 := 44 in let in14 := 46 in let in15 := 48 in let res00 := 50 in let res01 := 52 in
  let res02 := 54 in let res03 := 56 in let res04 := 58 in let res05 := 60 in let res06 := 62 in let res07 := 64 in let res08 := 66 in
  let res09 := 68 in let res10 := 70 in let res11 := 72 in let res12 := 74 in let res13 := 76 in let res14 := 78 in let res15 := 80 in
  let T_00_00A := 82 in let T_00_04A := 83 in let T_00_07A := 84 in let O0A := 85 in let O1A := 86 in let O2A := 87 in let O3A := 88 in
  let O4A := 89 in let O5A := 90 in let O6A := 91 in let O7A := 92 in let EO0A := 93 in let EO1A := 94 in let EO2A := 95 in let EO3A := 96 in
  let EEE0A := 97 in let EEE1A := 98 in let EE0A := 99 in let EE1A := 100 in let EE3A := 101 in let EE2A := 102 in let T10A := 103 in
  let T11A := 104 in let T12A := 105 in let T13A := 106 in let T14A := 107 in let T15A := 108 in let T16A := 109 in let T17A := 110 in
  let T30A := 111 in let T31A := 112 in let T32A := 113 in let T33A := 114 in let T34A := 115 in let T35A := 116 in let T36A := 117 in
  let T37A := 118 in let T38A := 119 in let T39A := 120 in let T3AA := 121 in let T3BA := 122 in let T3CA := 123 in let T3DA := 124 in
  let T3EA := 125 in let T3FA := 126 in let tr0_0 := 127 in let tr0_1 := 128 in let tr0_2 := 129 in let tr0_3 := 130 in let tr0_4 := 131 in
  let tr0_5 := 132 in let tr0_6 := 133 in let tr0_7 := 134 in let tr1_0 := 135 in let tr1_1 := 136 in let tr1_2 := 137 in let tr1_3 := 138 in
  let tr1_4 := 139 in let tr1_5 := 140 in let tr1_6 := 141 in let tr1_7 := 142 in let T_00_00A_2 := 143 in let T_00_00B := 144 in
  let T_00_04A_2 := 145 in let T_00_04B := 146 in let T_00_07A_2 := 147 in let T_00_07B := 148 in let O0A_2 := 149 in let O1A_2 := 150 in
  let O2A_2 := 151 in let O3A_2 := 152 in let O4A_2 := 153 in let O5A_2 := 154 in let O6A_2 := 155 in let O7A_2 := 156 in let O0B := 157 in
  let O1B := 158 in let O2B := 159 in let O3B := 160 in let O4B := 161 in let O5B := 162 in let O6B := 163 in let O7B := 164 in let EO0A_2 := 165 in
  let EO1A_2 := 166 in let EO2A_2 := 167 in let EO3A_2 := 168 in let EO0B := 169 in let EO1B := 170 in let EO2B := 171 in let EO3B := 172 in
  let EEE0A_2 := 173 in let EEE1A_2 := 174 in let EEE0B := 175 in let EEE1B := 176 in let EE0A_2 := 177 in let EE0B := 178 in let EE1A_2 := 179 in
  let EE1B := 180 in let EE3A_2 := 181 in let EE3B := 182 in let EE2A_2 := 183 in let EE2B := 184 in let T10A_2 := 185 in let T10B := 186 in
  let T11A_2 := 187 in let T11B := 188 in let T12A_2 := 189 in let T12B := 190 in let T13A_2 := 191 in let T13B := 192 in let T14A_2 := 193 in
  let T14B := 194 in let T15A_2 := 195 in let T15B := 196 in let T16A_2 := 197 in let T16B := 198 in let T17A_2 := 199 in let T17B := 200 in
  let T30A_2 := 201 in let T30B := 202 in let T31A_2 := 203 in let T31B := 204 in let T32A_2 := 205 in let T32B := 206 in let T33A_2 := 207 in
  let T33B := 208 in let T34A_2 := 209 in let T34B := 210 in let T35A_2 := 211 in let T35B := 212 in let T36A_2 := 213 in let T36B := 214 in
  let T37A_2 := 215 in let T37B := 216 in let T38A_2 := 217 in let T38B := 218 in let T39A_2 := 219 in let T39B := 220 in let T3AA_2 := 221 in
  let T3AB := 222 in let T3BA_2 := 223 in let T3BB := 224 in let T3CA_2 := 225 in let T3CB := 226 in let T3DA_2 := 227 in let T3DB := 228 in
  let T3EA_2 := 229 in let T3EB := 230 in let T3FA_2 := 231 in let T3FB := 232 in let tr0_0_2 := 233 in let tr0_1_2 := 234 in let tr0_2_2 := 235 in
  let tr0_3_2 := 236 in let tr0_4_2 := 237 in let tr0_5_2 := 238 in let tr0_6_2 := 239 in let tr0_7_2 := 240 in let tr1_0_2 := 241 in
  let tr1_1_2 := 242 in let tr1_2_2 := 243 in let tr1_3_2 := 244 in let tr1_4_2 := 245 in let tr1_5_2 := 246 in let tr1_6_2 := 247 in
  let tr1_7_2 := 248 in let max_val := 249 in let min_val := 250 in
  [Set_ c16_p43_p45 (S32 8 (I 2818093));
   Set_ c16_p29_p43 (S32 8 (I 1900587));
   Set_ c16_p04_p40 (S32 8 (I 262184));
   Set_ c16_n21_p35 (S32 8 (I (-1376221)));
   Set_ c16_n40_p29 (S32 8 (I (-2621411)));
   Set_ c16_n45_p21 (S32 8 (I (-2949099)));
   Set_ c16_n35_p13 (S32 8 (I (-2293747)));
   Set_ c16_n13_p04 (S32 8 (I (-851964)));
   Set_ c16_p38_p44 (S32 8 (I 2490412));
   Set_ c16_n09_p38 (S32 8 (I (-589786)));
   Set_ c16_n44_p25 (S32 8 (I (-2883559)));
   Set_ c16_n25_p09 (S32 8 (I (-1638391)));
   Set_ c16_n32_p32 (S32 8 (I (-2097120)));
   Set_ c16_p32_p32 (S32 8 (I 2097184));
   SetI 0 (I 5);
   Set_ c32_rnd (S32 8 (I 16));
   Set_ Zero_8 (S16 8 (I 0));
   Set_ add_zero (S32 8 (I 0));
   Set_ in00 (Ld 8 0);
   Set_ in01 (Ld 8 16);
   Set_ in02 (Ld 8 32);
   Set_ in03 (Ld 8 48);
   Set_ T_00_00A (lo16 (R in01) (R in03));
   Set_ T_00_04A (lo16 (R in02) (R Zero_8));
   Set_ T_00_07A (lo16 (R in00) (R Zero_8));
   Set_ O0A (madd (R T_00_00A) (R c16_p43_p45));
   Set_ O1A (madd (R T_00_00A) (R c16_p29_p43));
   Set_ O2A (madd (R T_00_00A) (R c16_p04_p40));
   Set_ O3A (madd (R T_00_00A) (R c16_n21_p35));
   Set_ O4A (madd (R T_00_00A) (R c16_n40_p29));
   Set_ O5A (madd (R T_00_00A) (R c16_n45_p21));
   Set_ O6A (madd (R T_00_00A) (R c16_n35_p13));
   Set_ O7A (madd (R T_00_00A) (R c16_n13_p04));
   Set_ EO0A (madd (R T_00_04A) (R c16_p38_p44));
   Set_ EO1A (madd (R T_00_04A) (R c16_n09_p38));
   Set_ EO2A (madd (R T_00_04A) (R c16_n44_p25));
   Set_ EO3A (madd (R T_00_04A) (R c16_n25_p09));
   Set_ EEE0A (madd (R T_00_07A) (R c16_p32_p32));
   Set_ EEE1A (madd (R T_00_07A) (R c16_n32_p32));
   Set_ EE0A (add32 (R EEE0A) (R add_zero));
   Set_ EE1A (add32 (R EEE1A) (R add_zero));
   Set_ EE3A (sub32 (R EEE0A) (R add_zero));
   Set_ EE2A (sub32 (R EEE1A) (R add_zero));
   Set_ T10A (add32 (add32 (R EE0A) (R EO0A)) (R c32_rnd));
   Set_ T11A (add32 (add32 (R EE1A) (R EO1A)) (R c32_rnd));
   Set_ T12A (add32 (add32 (R EE2A) (R EO2A)) (R c32_rnd));
   Set_ T13A (add32 (add32 (R EE3A) (R EO3A)) (R c32_rnd));
   Set_ T14A (add32 (sub32 (R EE3A) (R EO3A)) (R c32_rnd));
   Set_ T15A (add32 (sub32 (R EE2A) (R EO2A)) (R c32_rnd));
   Set_ T16A (add32 (sub32 (R EE1A) (R EO1A)) (R c32_rnd));
   Set_ T17A (add32 (sub32 (R EE0A) (R EO0A)) (R c32_rnd));
   Set_ T30A (Sra32 (add32 (R T10A) (R O0A)) (X 0));
   Set_ T31A (Sra32 (add32 (R T11A) (R O1A)) (X 0));
   Set_ T32A (Sra32 (add32 (R T12A) (R O2A)) (X 0));
   Set_ T33A (Sra32 (add32 (R T13A) (R O3A)) (X 0));
   Set_ T34A (Sra32 (add32 (R T14A) (R O4A)) (X 0));
   Set_ T35A (Sra32 (add32 (R T15A) (R O5A)) (X 0));
   Set_ T36A (Sra32 (add32 (R T16A) (R O6A)) (X 0));
   Set_ T37A (Sra32 (add32 (R T17A) (R O7A)) (X 0));
   Set_ T38A (Sra32 (sub32 (R T17A) (R O7A)) (X 0));
   Set_ T39A (Sra32 (sub32 (R T16A) (R O6A)) (X 0));
   Set_ T3AA (Sra32 (sub32 (R T15A) (R O5A)) (X 0));
   Set_ T3BA (Sra32 (sub32 (R T14A) (R O4A)) (X 0));
   Set_ T3CA (Sra32 (sub32 (R T13A) (R O3A)) (X 0))]
  ++ [Set_ T3DA (Sra32 (sub32 (R T12A) (R O2A)) (X 0));
   Set_ T3EA (Sra32 (sub32 (R T11A) (R O1A)) (X 0));
   Set_ T3FA (Sra32 (sub32 (R T10A) (R O0A)) (X 0));
   Set_ res00 (packs32 (R T30A) (R add_zero));
   Set_ res01 (packs32 (R T31A) (R add_zero));
   Set_ res02 (packs32 (R T32A) (R add_zero));
   Set_ res03 (packs32 (R T33A) (R add_zero));
   Set_ res04 (packs32 (R T34A) (R add_zero));
   Set_ res05 (packs32 (R T35A) (R add_zero));
   Set_ res06 (packs32 (R T36A) (R add_zero));
   Set_ res07 (packs32 (R T37A) (R add_zero));
   Set_ res08 (packs32 (R T38A) (R add_zero));
   Set_ res09 (packs32 (R T39A) (R add_zero));
   Set_ res10 (packs32 (R T3AA) (R add_zero));
   Set_ res11 (packs32 (R T3BA) (R add_zero));
   Set_ res12 (packs32 (R T3CA) (R add_zero));
   Set_ res13 (packs32 (R T3DA) (R add_zero));
   Set_ res14 (packs32 (R T3EA) (R add_zero));
   Set_ res15 (packs32 (R T3FA) (R add_zero));
   Set_ tr0_0 (lo16 (R res00) (R res01));
   Set_ tr0_1 (lo16 (R res02) (R res03));
   Set_ tr0_2 (hi16 (R res00) (R res01));
   Set_ tr0_3 (hi16 (R res02) (R res03));
   Set_ tr0_4 (lo16 (R res04) (R res05));
   Set_ tr0_5 (lo16 (R res06) (R res07));
   Set_ tr0_6 (hi16 (R res04) (R res05));
   Set_ tr0_7 (hi16 (R res06) (R res07));
   Set_ tr1_0 (lo32 (R tr0_0) (R tr0_1));
   Set_ tr1_1 (lo32 (R tr0_2) (R tr0_3));
   Set_ tr1_2 (hi32 (R tr0_0) (R tr0_1));
   Set_ tr1_3 (hi32 (R tr0_2) (R tr0_3));
   Set_ tr1_4 (lo32 (R tr0_4) (R tr0_5));
   Set_ tr1_5 (lo32 (R tr0_6) (R tr0_7));
   Set_ tr1_6 (hi32 (R tr0_4) (R tr0_5));
   Set_ tr1_7 (hi32 (R tr0_6) (R tr0_7));
   Set_ in00 (lo64 (R tr1_0) (R tr1_4));
   Set_ in01 (hi64 (R tr1_0) (R tr1_4));
   Set_ in02 (lo64 (R tr1_2) (R tr1_6));
   Set_ in03 (hi64 (R tr1_2) (R tr1_6));
   Set_ in04 (lo64 (R tr1_1) (R tr1_5));
   Set_ in05 (hi64 (R tr1_1) (R tr1_5));
   Set_ in06 (lo64 (R tr1_3) (R tr1_7));
   Set_ in07 (hi64 (R tr1_3) (R tr1_7));
   Set_ tr0_0 (lo16 (R res08) (R res09));
   Set_ tr0_1 (lo16 (R res10) (R res11));
   Set_ tr0_2 (hi16 (R res08) (R res09));
   Set_ tr0_3 (hi16 (R res10) (R res11));
   Set_ tr0_4 (lo16 (R res12) (R res13));
   Set_ tr0_5 (lo16 (R res14) (R res15));
   Set_ tr0_6 (hi16 (R res12) (R res13));
   Set_ tr0_7 (hi16 (R res14) (R res15));
   Set_ tr1_0 (lo32 (R tr0_0) (R tr0_1));
   Set_ tr1_1 (lo32 (R tr0_2) (R tr0_3));
   Set_ tr1_2 (hi32 (R tr0_0) (R tr0_1));
   Set_ tr1_3 (hi32 (R tr0_2) (R tr0_3));
   Set_ tr1_4 (lo32 (R tr0_4) (R tr0_5));
   Set_ tr1_5 (lo32 (R tr0_6) (R tr0_7));
   Set_ tr1_6 (hi32 (R tr0_4) (R tr0_5));
   Set_ tr1_7 (hi32 (R tr0_6) (R tr0_7));
   Set_ (in00 + 1) (lo64 (R tr1_0) (R tr1_4));
   Set_ (in01 + 1) (hi64 (R tr1_0) (R tr1_4));
   Set_ (in02 + 1) (lo64 (R tr1_2) (R tr1_6));
   Set_ (in03 + 1) (hi64 (R tr1_2) (R tr1_6));
   Set_ (in04 + 1) (lo64 (R tr1_1) (R tr1_5))]
  ++ [Set_ (in05 + 1) (hi64 (R tr1_1) (R tr1_5));
   Set_ (in06 + 1) (lo64 (R tr1_3) (R tr1_7));
   Set_ (in07 + 1) (hi64 (R tr1_3) (R tr1_7));
   SetI 0 (Q SH2);
   Set_ c32_rnd (S32 8 (Q RND2))]
  ++ loop 2 (fun part =>
    [Set_ T_00_00A_2 (lo16 (R (in01 + part)) (R (in03 + part)));
     Set_ T_00_00B (hi16 (R (in01 + part)) (R (in03 + part)));
     Set_ T_00_04A_2 (lo16 (R (in02 + part)) (R Zero_8));
     Set_ T_00_04B (hi16 (R (in02 + part)) (R Zero_8));
     Set_ T_00_07A_2 (lo16 (R (in00 + part)) (R Zero_8));
     Set_ T_00_07B (hi16 (R (in00 + part)) (R Zero_8));
     Set_ O0A_2 (madd (R T_00_00A_2) (R c16_p43_p45));
     Set_ O1A_2 (madd (R T_00_00A_2) (R c16_p29_p43));
     Set_ O2A_2 (madd (R T_00_00A_2) (R c16_p04_p40));
     Set_ O3A_2 (madd (R T_00_00A_2) (R c16_n21_p35));
     Set_ O4A_2 (madd (R T_00_00A_2) (R c16_n40_p29));
     Set_ O5A_2 (madd (R T_00_00A_2) (R c16_n45_p21));
     Set_ O6A_2 (madd (R T_00_00A_2) (R c16_n35_p13));
     Set_ O7A_2 (madd (R T_00_00A_2) (R c16_n13_p04));
     Set_ O0B (madd (R T_00_00B) (R c16_p43_p45));
     Set_ O1B (madd (R T_00_00B) (R c16_p29_p43));
     Set_ O2B (madd (R T_00_00B) (R c16_p04_p40));
     Set_ O3B (madd (R T_00_00B) (R c16_n21_p35));
     Set_ O4B (madd (R T_00_00B) (R c16_n40_p29));
     Set_ O5B (madd (R T_00_00B) (R c16_n45_p21));
     Set_ O6B (madd (R T_00_00B) (R c16_n35_p13));
     Set_ O7B (madd (R T_00_00B) (R c16_n13_p04));
     Set_ EO0A_2 (madd (R T_00_04A_2) (R c16_p38_p44));
     Set_ EO0B (madd (R T_00_04B) (R c16_p38_p44));
     Set_ EO1A_2 (madd (R T_00_04A_2) (R c16_n09_p38));
     Set_ EO1B (madd (R T_00_04B) (R c16_n09_p38));
     Set_ EO2A_2 (madd (R T_00_04A_2) (R c16_n44_p25));
     Set_ EO2B (madd (R T_00_04B) (R c16_n44_p25));
     Set_ EO3A_2 (madd (R T_00_04A_2) (R c16_n25_p09));
     Set_ EO3B (madd (R T_00_04B) (R c16_n25_p09));
     Set_ EEE0A_2 (madd (R T_00_07A_2) (R c16_p32_p32));
     Set_ EEE0B (madd (R T_00_07B) (R c16_p32_p32));
     Set_ EEE1A_2 (madd (R T_00_07A_2) (R c16_n32_p32));
     Set_ EEE1B (madd (R T_00_07B) (R c16_n32_p32));
     Set_ EE0A_2 (add32 (R EEE0A_2) (R add_zero));
     Set_ EE0B (add32 (R EEE0B) (R add_zero));
     Set_ EE1A_2 (add32 (R EEE1A_2) (R add_zero));
     Set_ EE1B (add32 (R EEE1B) (R add_zero));
     Set_ EE3A_2 (sub32 (R EEE0A_2) (R add_zero));
     Set_ EE3B (sub32 (R EEE0B) (R add_zero));
     Set_ EE2A_2 (sub32 (R EEE1A_2) (R add_zero));
     Set_ EE2B (sub32 (R EEE1B) (R add_zero));
     Set_ T10A_2 (add32 (add32 (R EE0A_2) (R EO0A_2)) (R c32_rnd));
     Set_ T10B (add32 (add32 (R EE0B) (R EO0B)) (R c32_rnd));
     Set_ T11A_2 (add32 (add32 (R EE1A_2) (R EO1A_2)) (R c32_rnd));
     Set_ T11B (add32 (add32 (R EE1B) (R EO1B)) (R c32_rnd));
     Set_ T12A_2 (add32 (add32 (R EE2A_2) (R EO2A_2)) (R c32_rnd));
     Set_ T12B (add32 (add32 (R EE2B) (R EO2B)) (R c32_rnd));
     Set_ T13A_2 (add32 (add32 (R EE3A_2) (R EO3A_2)) (R c32_rnd));
     Set_ T13B (add32 (add32 (R EE3B) (R EO3B)) (R c32_rnd));
     Set_ T14A_2 (add32 (sub32 (R EE3A_2) (R EO3A_2)) (R c32_rnd));
     Set_ T14B (add32 (sub32 (R EE3B) (R EO3B)) (R c32_rnd));
     Set_ T15A_2 (add32 (sub32 (R EE2A_2) (R EO2A_2)) (R c32_rnd));
     Set_ T15B (add32 (sub32 (R EE2B) (R EO2B)) (R c32_rnd));
     Set_ T16A_2 (add32 (sub32 (R EE1A_2) (R EO1A_2)) (R c32_rnd));
     Set_ T16B (add32 (sub32 (R EE1B) (R EO1B)) (R c32_rnd));
     Set_ T17A_2 (add32 (sub32 (R EE0A_2) (R EO0A_2)) (R c32_rnd));
     Set_ T17B (add32 (sub32 (R EE0B) (R EO0B)) (R c32_rnd));
     Set_ T30A_2 (Sra32 (add32 (R T10A_2) (R O0A_2)) (X 0));
     Set_ T30B (Sra32 (add32 (R T10B) (R O0B)) (X 0));
     Set_ T31A_2 (Sra32 (add32 (R T11A_2) (R O1A_2)) (X 0));
     Set_ T31B (Sra32 (add32 (R T11B) (R O1B)) (X 0));
     Set_ T32A_2 (Sra32 (add32 (R T12A_2) (R O2A_2)) (X 0));
     Set_ T32B (Sra32 (add32 (R T12B) (R O2B)) (X 0))]
    ++ [Set_ T33A_2 (Sra32 (add32 (R T13A_2) (R O3A_2)) (X 0));
     Set_ T33B (Sra32 (add32 (R T13B) (R O3B)) (X 0));
     Set_ T34A_2 (Sra32 (add32 (R T14A_2) (R O4A_2)) (X 0));
     Set_ T34B (Sra32 (add32 (R T14B) (R O4B)) (X 0));
     Set_ T35A_2 (Sra32 (add32 (R T15A_2) (R O5A_2)) (X 0));
     Set_ T35B (Sra32 (add32 (R T15B) (R O5B)) (X 0));
     Set_ T36A_2 (Sra32 (add32 (R T16A_2) (R O6A_2)) (X 0));
     Set_ T36B (Sra32 (add32 (R T16B) (R O6B)) (X 0));
     Set_ T37A_2 (Sra32 (add32 (R T17A_2) (R O7A_2)) (X 0));
     Set_ T37B (Sra32 (add32 (R T17B) (R O7B)) (X 0));
     Set_ T38A_2 (Sra32 (sub32 (R T17A_2) (R O7A_2)) (X 0));
     Set_ T38B (Sra32 (sub32 (R T17B) (R O7B)) (X 0));
     Set_ T39A_2 (Sra32 (sub32 (R T16A_2) (R O6A_2)) (X 0));
     Set_ T39B (Sra32 (sub32 (R T16B) (R O6B)) (X 0));
     Set_ T3AA_2 (Sra32 (sub32 (R T15A_2) (R O5A_2)) (X 0));
     Set_ T3AB (Sra32 (sub32 (R T15B) (R O5B)) (X 0));
     Set_ T3BA_2 (Sra32 (sub32 (R T14A_2) (R O4A_2)) (X 0));
     Set_ T3BB (Sra32 (sub32 (R T14B) (R O4B)) (X 0));
     Set_ T3CA_2 (Sra32 (sub32 (R T13A_2) (R O3A_2)) (X 0));
     Set_ T3CB (Sra32 (sub32 (R T13B) (R O3B)) (X 0));
     Set_ T3DA_2 (Sra32 (sub32 (R T12A_2) (R O2A_2)) (X 0));
     Set_ T3DB (Sra32 (sub32 (R T12B) (R O2B)) (X 0));
     Set_ T3EA_2 (Sra32 (sub32 (R T11A_2) (R O1A_2)) (X 0));
     Set_ T3EB (Sra32 (sub32 (R T11B) (R O1B)) (X 0));
     Set_ T3FA_2 (Sra32 (sub32 (R T10A_2) (R O0A_2)) (X 0));
     Set_ T3FB (Sra32 (sub32 (R T10B) (R O0B)) (X 0));
     Set_ (res00 + part) (packs32 (R T30A_2) (R T30B));
     Set_ (res01 + part) (packs32 (R T31A_2) (R T31B));
     Set_ (res02 + part) (packs32 (R T32A_2) (R T32B));
     Set_ (res03 + part) (packs32 (R T33A_2) (R T33B));
     Set_ (res04 + part) (packs32 (R T34A_2) (R T34B));
     Set_ (res05 + part) (packs32 (R T35A_2) (R T35B));
     Set_ (res06 + part) (packs32 (R T36A_2) (R T36B));
     Set_ (res07 + part) (packs32 (R T37A_2) (R T37B));
     Set_ (res08 + part) (packs32 (R T38A_2) (R T38B));
     Set_ (res09 + part) (packs32 (R T39A_2) (R T39B));
     Set_ (res10 + part) (packs32 (R T3AA_2) (R T3AB));
     Set_ (res11 + part) (packs32 (R T3BA_2) (R T3BB));
     Set_ (res12 + part) (packs32 (R T3CA_2) (R T3CB));
     Set_ (res13 + part) (packs32 (R T3DA_2) (R T3DB));
     Set_ (res14 + part) (packs32 (R T3EA_2) (R T3EB));
     Set_ (res15 + part) (packs32 (R T3FA_2) (R T3FB))])
  ++ [Set_ tr0_0_2 (lo16 (R res00) (R res01));
   Set_ tr0_1_2 (lo16 (R res02) (R res03));
   Set_ tr0_2_2 (hi16 (R res00) (R res01));
   Set_ tr0_3_2 (hi16 (R res02) (R res03));
   Set_ tr0_4_2 (lo16 (R res04) (R res05));
   Set_ tr0_5_2 (lo16 (R res06) (R res07));
   Set_ tr0_6_2 (hi16 (R res04) (R res05));
   Set_ tr0_7_2 (hi16 (R res06) (R res07));
   Set_ tr1_0_2 (lo32 (R tr0_0_2) (R tr0_1_2));
   Set_ tr1_1_2 (lo32 (R tr0_2_2) (R tr0_3_2));
   Set_ tr1_2_2 (hi32 (R tr0_0_2) (R tr0_1_2));
   Set_ tr1_3_2 (hi32 (R tr0_2_2) (R tr0_3_2));
   Set_ tr1_4_2 (lo32 (R tr0_4_2) (R tr0_5_2));
   Set_ tr1_5_2 (lo32 (R tr0_6_2) (R tr0_7_2));
   Set_ tr1_6_2 (hi32 (R tr0_4_2) (R tr0_5_2));
   Set_ tr1_7_2 (hi32 (R tr0_6_2) (R tr0_7_2));
   Set_ in00 (lo64 (R tr1_0_2) (R tr1_4_2));
   Set_ in01 (hi64 (R tr1_0_2) (R tr1_4_2));
   Set_ in02 (lo64 (R tr1_2_2) (R tr1_6_2));
   Set_ in03 (hi64 (R tr1_2_2) (R tr1_6_2));
   Set_ in04 (lo64 (R tr1_1_2) (R tr1_5_2));
   Set_ in05 (hi64 (R tr1_1_2) (R tr1_5_2));
   Set_ in06 (lo64 (R tr1_3_2) (R tr1_7_2));
   Set_ in07 (hi64 (R tr1_3_2) (R tr1_7_2));
   Set_ tr0_0_2 (lo16 (R res08) (R res09));
   Set_ tr0_1_2 (lo16 (R res10) (R res11));
   Set_ tr0_2_2 (hi16 (R res08) (R res09));
   Set_ tr0_3_2 (hi16 (R res10) (R res11));
   Set_ tr0_4_2 (lo16 (R res12) (R res13));
   Set_ tr0_5_2 (lo16 (R res14) (R res15));
   Set_ tr0_6_2 (hi16 (R res12) (R res13));
   Set_ tr0_7_2 (hi16 (R res14) (R res15));
   Set_ tr1_0_2 (lo32 (R tr0_0_2) (R tr0_1_2));
   Set_ tr1_1_2 (lo32 (R tr0_2_2) (R tr0_3_2));
   Set_ tr1_2_2 (hi32 (R tr0_0_2) (R tr0_1_2));
   Set_ tr1_3_2 (hi32 (R tr0_2_2) (R tr0_3_2));
   Set_ tr1_4_2 (lo32 (R tr0_4_2) (R tr0_5_2));
   Set_ tr1_5_2 (lo32 (R tr0_6_2) (R tr0_7_2));
   Set_ tr1_6_2 (hi32 (R tr0_4_2) (R tr0_5_2));
   Set_ tr1_7_2 (hi32 (R tr0_6_2) (R tr0_7_2));
   Set_ (in00 + 1) (lo64 (R tr1_0_2) (R tr1_4_2));
   Set_ (in01 + 1) (hi64 (R tr1_0_2) (R tr1_4_2));
   Set_ (in02 + 1) (lo64 (R tr1_2_2) (R tr1_6_2));
   Set_ (in03 + 1) (hi64 (R tr1_2_2) (R tr1_6_2));
   Set_ (in04 + 1) (lo64 (R tr1_1_2) (R tr1_5_2));
   Set_ (in05 + 1) (hi64 (R tr1_1_2) (R tr1_5_2));
   Set_ (in06 + 1) (lo64 (R tr1_3_2) (R tr1_7_2));
   Set_ (in07 + 1) (hi64 (R tr1_3_2) (R tr1_7_2));
   Set_ tr0_0_2 (lo16 (R (res00 + 1)) (R (res01 + 1)));
   Set_ tr0_1_2 (lo16 (R (res02 + 1)) (R (res03 + 1)));
   Set_ tr0_2_2 (hi16 (R (res00 + 1)) (R (res01 + 1)));
   Set_ tr0_3_2 (hi16 (R (res02 + 1)) (R (res03 + 1)));
   Set_ tr0_4_2 (lo16 (R (res04 + 1)) (R (res05 + 1)));
   Set_ tr0_5_2 (lo16 (R (res06 + 1)) (R (res07 + 1)));
   Set_ tr0_6_2 (hi16 (R (res04 + 1)) (R (res05 + 1)));
   Set_ tr0_7_2 (hi16 (R (res06 + 1)) (R (res07 + 1)));
   Set_ tr1_0_2 (lo32 (R tr0_0_2) (R tr0_1_2));
   Set_ tr1_1_2 (lo32 (R tr0_2_2) (R tr0_3_2));
   Set_ tr1_2_2 (hi32 (R tr0_0_2) (R tr0_1_2));
   Set_ tr1_3_2 (hi32 (R tr0_2_2) (R tr0_3_2));
   Set_ tr1_4_2 (lo32 (R tr0_4_2) (R tr0_5_2));
   Set_ tr1_5_2 (lo32 (R tr0_6_2) (R tr0_7_2));
   Set_ tr1_6_2 (hi32 (R tr0_4_2) (R tr0_5_2));
   Set_ tr1_7_2 (hi32 (R tr0_6_2) (R tr0_7_2))]
  ++ [Set_ in08 (lo64 (R tr1_0_2) (R tr1_4_2));
   Set_ in09 (hi64 (R tr1_0_2) (R tr1_4_2));
   Set_ in10 (lo64 (R tr1_2_2) (R tr1_6_2));
   Set_ in11 (hi64 (R tr1_2_2) (R tr1_6_2));
   Set_ in12 (lo64 (R tr1_1_2) (R tr1_5_2));
   Set_ in13 (hi64 (R tr1_1_2) (R tr1_5_2));
   Set_ in14 (lo64 (R tr1_3_2) (R tr1_7_2));
   Set_ in15 (hi64 (R tr1_3_2) (R tr1_7_2));
   Set_ tr0_0_2 (lo16 (R (res08 + 1)) (R (res09 + 1)));
   Set_ tr0_1_2 (lo16 (R (res10 + 1)) (R (res11 + 1)));
   Set_ tr0_2_2 (hi16 (R (res08 + 1)) (R (res09 + 1)));
   Set_ tr0_3_2 (hi16 (R (res10 + 1)) (R (res11 + 1)));
   Set_ tr0_4_2 (lo16 (R (res12 + 1)) (R (res13 + 1)));
   Set_ tr0_5_2 (lo16 (R (res14 + 1)) (R (res15 + 1)));
   Set_ tr0_6_2 (hi16 (R (res12 + 1)) (R (res13 + 1)));
   Set_ tr0_7_2 (hi16 (R (res14 + 1)) (R (res15 + 1)));
   Set_ tr1_0_2 (lo32 (R tr0_0_2) (R tr0_1_2));
   Set_ tr1_1_2 (lo32 (R tr0_2_2) (R tr0_3_2));
   Set_ tr1_2_2 (hi32 (R tr0_0_2) (R tr0_1_2));
   Set_ tr1_3_2 (hi32 (R tr0_2_2) (R tr0_3_2));
   Set_ tr1_4_2 (lo32 (R tr0_4_2) (R tr0_5_2));
   Set_ tr1_5_2 (lo32 (R tr0_6_2) (R tr0_7_2));
   Set_ tr1_6_2 (hi32 (R tr0_4_2) (R tr0_5_2));
   Set_ tr1_7_2 (hi32 (R tr0_6_2) (R tr0_7_2));
   Set_ (in08 + 1) (lo64 (R tr1_0_2) (R tr1_4_2));
   Set_ (in09 + 1) (hi64 (R tr1_0_2) (R tr1_4_2));
   Set_ (in10 + 1) (lo64 (R tr1_2_2) (R tr1_6_2));
   Set_ (in11 + 1) (hi64 (R tr1_2_2) (R tr1_6_2));
   Set_ (in12 + 1) (lo64 (R tr1_1_2) (R tr1_5_2));
   Set_ (in13 + 1) (hi64 (R tr1_1_2) (R tr1_5_2));
   Set_ (in14 + 1) (lo64 (R tr1_3_2) (R tr1_7_2));
   Set_ (in15 + 1) (hi64 (R tr1_3_2) (R tr1_7_2));
   Set_ max_val (S16 8 (Q HI2));
   Set_ min_val (S16 8 (Q LO2));
   Set_ in00 (max16 (min16 (R in00) (R max_val)) (R min_val));
   Set_ (in00 + 1) (max16 (min16 (R (in00 + 1)) (R max_val)) (R min_val));
   Set_ in01 (max16 (min16 (R in01) (R max_val)) (R min_val));
   Set_ (in01 + 1) (max16 (min16 (R (in01 + 1)) (R max_val)) (R min_val));
   Set_ in02 (max16 (min16 (R in02) (R max_val)) (R min_val));
   Set_ (in02 + 1) (max16 (min16 (R (in02 + 1)) (R max_val)) (R min_val));
   Set_ in03 (max16 (min16 (R in03) (R max_val)) (R min_val));
   Set_ (in03 + 1) (max16 (min16 (R (in03 + 1)) (R max_val)) (R min_val));
   Set_ in04 (max16 (min16 (R in04) (R max_val)) (R min_val));
   Set_ (in04 + 1) (max16 (min16 (R (in04 + 1)) (R max_val)) (R min_val));
   Set_ in05 (max16 (min16 (R in05) (R max_val)) (R min_val));
   Set_ (in05 + 1) (max16 (min16 (R (in05 + 1)) (R max_val)) (R min_val));
   Set_ in06 (max16 (min16 (R in06) (R max_val)) (R min_val));
   Set_ (in06 + 1) (max16 (min16 (R (in06 + 1)) (R max_val)) (R min_val));
   Set_ in07 (max16 (min16 (R in07) (R max_val)) (R min_val));
   Set_ (in07 + 1) (max16 (min16 (R (in07 + 1)) (R max_val)) (R min_val));
   Set_ in08 (max16 (min16 (R in08) (R max_val)) (R min_val));
   Set_ (in08 + 1) (max16 (min16 (R (in08 + 1)) (R max_val)) (R min_val));
   Set_ in09 (max16 (min16 (R in09) (R max_val)) (R min_val));
   Set_ (in09 + 1) (max16 (min16 (R (in09 + 1)) (R max_val)) (R min_val));
   Set_ in10 (max16 (min16 (R in10) (R max_val)) (R min_val));
   Set_ (in10 + 1) (max16 (min16 (R (in10 + 1)) (R max_val)) (R min_val));
   Set_ in11 (max16 (min16 (R in11) (R max_val)) (R min_val));
   Set_ (in11 + 1) (max16 (min16 (R (in11 + 1)) (R max_val)) (R min_val));
   Set_ in12 (max16 (min16 (R in12) (R max_val)) (R min_val));
   Set_ (in12 + 1) (max16 (min16 (R (in12 + 1)) (R max_val)) (R min_val));
   Set_ in13 (max16 (min16 (R in13) (R max_val)) (R min_val));
   Set_ (in13 + 1) (max16 (min16 (R (in13 + 1)) (R max_val)) (R min_val));
   Set_ in14 (max16 (min16 (R in14) (R max_val)) (R min_val));
   Set_ (in14 + 1) (max16 (min16 (R (in14 + 1)) (R max_val)) (R min_val))]
  ++ [Set_ in15 (max16 (min16 (R in15) (R max_val)) (R min_val));
   Set_ (in15 + 1) (max16 (min16 (R (in15 + 1)) (R max_val)) (R min_val));
   St 8 0 0 0 (R in00);
   St 8 0 0 8 (R (in00 + 1));
   St 8 0 1 0 (R in01);
   St 8 0 1 8 (R (in01 + 1));
   St 8 0 2 0 (R in02);
   St 8 0 2 8 (R (in02 + 1));
   St 8 0 3 0 (R in03);
   St 8 0 3 8 (R (in03 + 1));
   St 8 0 4 0 (R in04);
   St 8 0 4 8 (R (in04 + 1));
   St 8 0 5 0 (R in05);
   St 8 0 5 8 (R (in05 + 1));
   St 8 0 6 0 (R in06);
   St 8 0 6 8 (R (in06 + 1));
   St 8 0 7 0 (R in07);
   St 8 0 7 8 (R (in07 + 1));
   St 8 0 8 0 (R in08);
   St 8 0 8 8 (R (in08 + 1));
   St 8 0 9 0 (R in09);
   St 8 0 9 8 (R (in09 + 1));
   St 8 0 10 0 (R in10);
   St 8 0 10 8 (R (in10 + 1));
   St 8 0 11 0 (R in11);
   St 8 0 11 8 (R (in11 + 1));
   St 8 0 12 0 (R in12);
   St 8 0 12 8 (R (in12 + 1));
   St 8 0 13 0 (R in13);
   St 8 0 13 8 (R (in13 + 1));
   St 8 0 14 0 (R in14);
   St 8 0 14 8 (R (in14 + 1));
   St 8 0 15 0 (R in15);
   St 8 0 15 8 (R (in15 + 1))].

