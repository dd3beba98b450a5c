(** The vector kernels of the inverse transforms, AVX2. Definitions only, for the machine of
    VtModel. Each is the text of the function: the names of its vector variables (an array takes as
    many numbers as it has elements; a name declared again in another block has a number added), its
    macros expanded, its statements in order. *)
From Coq Require Import ZArith List Bool.
From Verif Require Import VtModel.
Import ListNotations.
Open Scope Z_scope.

(** vec/intrinsic_idct_avx2.cc:64-276 [idct_8x8_avx2]. *)
Definition idct_8x8_avx2 : list ins :=
  let mAdd := 1 in let S1S5 := 2 in let S3S7 := 3 in let T0 := 4 in let T1 := 5 in let T2 := 6 in let T3 := 7 in let E0 := 8 in let E1 := 9 in
  let E2 := 10 in let E3 := 11 in let O0 := 12 in let O1 := 13 in let O2 := 14 in let O3 := 15 in let EE0 := 16 in let EE1 := 17 in let EO0 := 18 in
  let EO1 := 19 in let S0 := 20 in let S1 := 21 in let S2 := 22 in let S3 := 23 in let S4 := 24 in let S5 := 25 in let S6 := 26 in let S7 := 27 in
  let C00 := 28 in let C01 := 29 in let C02 := 30 in let C03 := 31 in let C04 := 32 in let C05 := 33 in let C06 := 34 in let C07 := 35 in
  let max_val := 36 in let min_val := 37 in
  [Set_ S1S5 (Ld2 40 8);
   Set_ S3S7 (Ld2 56 24);
   Set_ T0 (lo16 (R S1S5) (R S3S7));
   Set_ T1 (hi16 (R S1S5) (R S3S7));
   Set_ T2 (p20 (R T0) (R T1));
   Set_ T3 (p31 (R T0) (R T1));
   Set_ O0 (add32 (madd (R T2) (Cst [44; 38; 44; 38; 44; 38; 44; 38; 44; 38; 44; 38; 44; 38; 44; 38])) (madd (R T3) (Cst [25; 9; 25; 9; 25; 9; 25; 9; 25; 9; 25; 9; 25; 9; 25; 9])));
   Set_ O1 (add32 (madd (R T2) (Cst [38; (-9); 38; (-9); 38; (-9); 38; (-9); 38; (-9); 38; (-9); 38; (-9); 38; (-9)])) (madd (R T3) (Cst [(-44); (-25); (-44); (-25); (-44); (-25); (-44); (-25); (-44); (-25); (-44); (-25); (-44); (-25); (-44); (-25)])));
   Set_ O2 (add32 (madd (R T2) (Cst [25; (-44); 25; (-44); 25; (-44); 25; (-44); 25; (-44); 25; (-44); 25; (-44); 25; (-44)])) (madd (R T3) (Cst [9; 38; 9; 38; 9; 38; 9; 38; 9; 38; 9; 38; 9; 38; 9; 38])));
   Set_ O3 (add32 (madd (R T2) (Cst [9; (-25); 9; (-25); 9; (-25); 9; (-25); 9; (-25); 9; (-25); 9; (-25); 9; (-25)])) (madd (R T3) (Cst [38; (-44); 38; (-44); 38; (-44); 38; (-44); 38; (-44); 38; (-44); 38; (-44); 38; (-44)])));
   Set_ S1S5 (Ld2 16 0);
   Set_ S3S7 (Ld2 48 32);
   Set_ T0 (lo16 (R S1S5) (R S3S7));
   Set_ T1 (hi16 (R S1S5) (R S3S7));
   Set_ T2 (p20 (R T0) (R T1));
   Set_ T3 (p31 (R T0) (R T1));
   Set_ EE0 (madd (R T2) (Cst [32; 32; 32; 32; 32; 32; 32; 32; 32; 32; 32; 32; 32; 32; 32; 32]));
   Set_ EE1 (madd (R T2) (Cst [32; (-32); 32; (-32); 32; (-32); 32; (-32); 32; (-32); 32; (-32); 32; (-32); 32; (-32)]));
   Set_ EO0 (madd (R T3) (Cst [42; 17; 42; 17; 42; 17; 42; 17; 42; 17; 42; 17; 42; 17; 42; 17]));
   Set_ EO1 (madd (R T3) (Cst [17; (-42); 17; (-42); 17; (-42); 17; (-42); 17; (-42); 17; (-42); 17; (-42); 17; (-42)]));
   Set_ mAdd (S32 16 (I 16));
   Set_ E0 (add32 (R EE0) (R EO0));
   Set_ E1 (add32 (R EE1) (R EO1));
   Set_ E3 (sub32 (R EE0) (R EO0));
   Set_ E2 (sub32 (R EE1) (R EO1));
   Set_ E0 (add32 (R E0) (R mAdd));
   Set_ E1 (add32 (R E1) (R mAdd));
   Set_ E2 (add32 (R E2) (R mAdd));
   Set_ E3 (add32 (R E3) (R mAdd));
   Set_ S0 (Sra32 (add32 (R E0) (R O0)) (I 5));
   Set_ S7 (Sra32 (sub32 (R E0) (R O0)) (I 5));
   Set_ S1 (Sra32 (add32 (R E1) (R O1)) (I 5));
   Set_ S6 (Sra32 (sub32 (R E1) (R O1)) (I 5));
   Set_ S2 (Sra32 (add32 (R E2) (R O2)) (I 5));
   Set_ S5 (Sra32 (sub32 (R E2) (R O2)) (I 5));
   Set_ S3 (Sra32 (add32 (R E3) (R O3)) (I 5));
   Set_ S4 (Sra32 (sub32 (R E3) (R O3)) (I 5));
   Set_ C00 (p20 (R S0) (R S4));
   Set_ C01 (p31 (R S0) (R S4));
   Set_ C02 (p20 (R S1) (R S5));
   Set_ C03 (p31 (R S1) (R S5));
   Set_ C04 (p20 (R S2) (R S6));
   Set_ C05 (p31 (R S2) (R S6));
   Set_ C06 (p20 (R S3) (R S7));
   Set_ C07 (p31 (R S3) (R S7));
   Set_ S0 (packs32 (R C00) (R C01));
   Set_ S1 (packs32 (R C02) (R C03));
   Set_ S2 (packs32 (R C04) (R C05));
   Set_ S3 (packs32 (R C06) (R C07));
   Set_ S4 (lo16 (R S0) (R S1));
   Set_ S5 (lo16 (R S2) (R S3));
   Set_ S6 (hi16 (R S0) (R S1));
   Set_ S7 (hi16 (R S2) (R S3));
   Set_ C00 (lo32 (R S4) (R S5));
   Set_ C01 (lo32 (R S6) (R S7));
   Set_ C02 (hi32 (R S4) (R S5));
   Set_ C03 (hi32 (R S6) (R S7));
   Set_ C04 (p20 (R C00) (R C02));
   Set_ C05 (p31 (R C00) (R C02));
   Set_ C06 (p20 (R C01) (R C03));
   Set_ C07 (p31 (R C01) (R C03));
   Set_ S0 (lo64 (R C04) (R C05));
   Set_ S1 (lo64 (R C06) (R C07));
   Set_ S2 (hi64 (R C04) (R C05))]
  ++ [Set_ S3 (hi64 (R C06) (R C07));
   Set_ S4 (p20 (R S2) (R S3));
   Set_ S5 (p31 (R S2) (R S3));
   Set_ T0 (lo16 (R S4) (R S5));
   Set_ T1 (hi16 (R S4) (R S5));
   Set_ T2 (p20 (R T0) (R T1));
   Set_ T3 (p31 (R T0) (R T1));
   Set_ O0 (add32 (madd (R T2) (Cst [44; 38; 44; 38; 44; 38; 44; 38; 44; 38; 44; 38; 44; 38; 44; 38])) (madd (R T3) (Cst [25; 9; 25; 9; 25; 9; 25; 9; 25; 9; 25; 9; 25; 9; 25; 9])));
   Set_ O1 (add32 (madd (R T2) (Cst [38; (-9); 38; (-9); 38; (-9); 38; (-9); 38; (-9); 38; (-9); 38; (-9); 38; (-9)])) (madd (R T3) (Cst [(-44); (-25); (-44); (-25); (-44); (-25); (-44); (-25); (-44); (-25); (-44); (-25); (-44); (-25); (-44); (-25)])));
   Set_ O2 (add32 (madd (R T2) (Cst [25; (-44); 25; (-44); 25; (-44); 25; (-44); 25; (-44); 25; (-44); 25; (-44); 25; (-44)])) (madd (R T3) (Cst [9; 38; 9; 38; 9; 38; 9; 38; 9; 38; 9; 38; 9; 38; 9; 38])));
   Set_ O3 (add32 (madd (R T2) (Cst [9; (-25); 9; (-25); 9; (-25); 9; (-25); 9; (-25); 9; (-25); 9; (-25); 9; (-25)])) (madd (R T3) (Cst [38; (-44); 38; (-44); 38; (-44); 38; (-44); 38; (-44); 38; (-44); 38; (-44); 38; (-44)])));
   Set_ T0 (lo16 (R S0) (R S1));
   Set_ T1 (hi16 (R S0) (R S1));
   Set_ T2 (p20 (R T0) (R T1));
   Set_ T3 (p31 (R T0) (R T1));
   Set_ EE0 (madd (R T2) (Cst [32; 32; 32; 32; 32; 32; 32; 32; 32; 32; 32; 32; 32; 32; 32; 32]));
   Set_ EE1 (madd (R T2) (Cst [32; (-32); 32; (-32); 32; (-32); 32; (-32); 32; (-32); 32; (-32); 32; (-32); 32; (-32)]));
   Set_ EO0 (madd (R T3) (Cst [42; 17; 42; 17; 42; 17; 42; 17; 42; 17; 42; 17; 42; 17; 42; 17]));
   Set_ EO1 (madd (R T3) (Cst [17; (-42); 17; (-42); 17; (-42); 17; (-42); 17; (-42); 17; (-42); 17; (-42); 17; (-42)]));
   Set_ mAdd (S32 16 (Q RND2));
   Set_ E0 (add32 (R EE0) (R EO0));
   Set_ E1 (add32 (R EE1) (R EO1));
   Set_ E3 (sub32 (R EE0) (R EO0));
   Set_ E2 (sub32 (R EE1) (R EO1));
   Set_ E0 (add32 (R E0) (R mAdd));
   Set_ E1 (add32 (R E1) (R mAdd));
   Set_ E2 (add32 (R E2) (R mAdd));
   Set_ E3 (add32 (R E3) (R mAdd));
   Set_ S0 (Sra32 (add32 (R E0) (R O0)) (Q SH2));
   Set_ S7 (Sra32 (sub32 (R E0) (R O0)) (Q SH2));
   Set_ S1 (Sra32 (add32 (R E1) (R O1)) (Q SH2));
   Set_ S6 (Sra32 (sub32 (R E1) (R O1)) (Q SH2));
   Set_ S2 (Sra32 (add32 (R E2) (R O2)) (Q SH2));
   Set_ S5 (Sra32 (sub32 (R E2) (R O2)) (Q SH2));
   Set_ S3 (Sra32 (add32 (R E3) (R O3)) (Q SH2));
   Set_ S4 (Sra32 (sub32 (R E3) (R O3)) (Q SH2));
   Set_ C00 (p20 (R S0) (R S4));
   Set_ C01 (p31 (R S0) (R S4));
   Set_ C02 (p20 (R S1) (R S5));
   Set_ C03 (p31 (R S1) (R S5));
   Set_ C04 (p20 (R S2) (R S6));
   Set_ C05 (p31 (R S2) (R S6));
   Set_ C06 (p20 (R S3) (R S7));
   Set_ C07 (p31 (R S3) (R S7));
   Set_ S0 (packs32 (R C00) (R C01));
   Set_ S1 (packs32 (R C02) (R C03));
   Set_ S2 (packs32 (R C04) (R C05));
   Set_ S3 (packs32 (R C06) (R C07));
   Set_ S4 (lo16 (R S0) (R S1));
   Set_ S5 (lo16 (R S2) (R S3));
   Set_ S6 (hi16 (R S0) (R S1));
   Set_ S7 (hi16 (R S2) (R S3));
   Set_ C00 (lo32 (R S4) (R S5));
   Set_ C01 (lo32 (R S6) (R S7));
   Set_ C02 (hi32 (R S4) (R S5));
   Set_ C03 (hi32 (R S6) (R S7));
   Set_ C04 (p20 (R C00) (R C02));
   Set_ C05 (p31 (R C00) (R C02));
   Set_ C06 (p20 (R C01) (R C03));
   Set_ C07 (p31 (R C01) (R C03));
   Set_ S0 (lo64 (R C04) (R C05));
   Set_ S1 (lo64 (R C06) (R C07));
   Set_ S2 (hi64 (R C04) (R C05));
   Set_ S3 (hi64 (R C06) (R C07))]
  ++ [Set_ max_val (S16 16 (Q HI2));
   Set_ min_val (S16 16 (Q LO2));
   Set_ S0 (max16 (min16 (R S0) (R max_val)) (R min_val));
   Set_ S1 (max16 (min16 (R S1) (R max_val)) (R min_val));
   Set_ S2 (max16 (min16 (R S2) (R max_val)) (R min_val));
   Set_ S3 (max16 (min16 (R S3) (R max_val)) (R min_val));
   St 8 0 0 0 (R S0);
   St 8 8 0 16 (R S0);
   St 8 0 0 32 (R S1);
   St 8 8 0 48 (R S1);
   St 8 0 0 8 (R S2);
   St 8 8 0 24 (R S2);
   St 8 0 0 40 (R S3);
   St 8 8 0 56 (R S3)].

(** vec/intrinsic_idct_avx2.cc:279-681 [idct_16x16_avx2]. *)
Definition idct_16x16_avx2 : list ins :=
  let c16_p43_p45 := 1 in let c16_p35_p40 := 2 in let c16_p21_p29 := 3 in let c16_p04_p13 := 4 in let c16_p29_p43 := 5 in let c16_n21_p04 := 6 in
  let c16_n45_n40 := 7 in let c16_n13_n35 := 8 in let c16_p04_p40 := 9 in let c16_n43_n35 := 10 in let c16_p29_n13 := 11 in let c16_p21_p45 := 12 in
  let c16_n21_p35 := 13 in let c16_p04_n43 := 14 in let c16_p13_p45 := 15 in let c16_n29_n40 := 16 in let c16_n40_p29 := 17 in
  let c16_p45_n13 := 18 in let c16_n43_n04 := 19 in let c16_p35_p21 := 20 in let c16_n45_p21 := 21 in let c16_p13_p29 := 22 in
  let c16_p35_n43 := 23 in let c16_n40_p04 := 24 in let c16_n35_p13 := 25 in let c16_n40_p45 := 26 in let c16_p04_p21 := 27 in
  let c16_p43_n29 := 28 in let c16_n13_p04 := 29 in let c16_n29_p21 := 30 in let c16_n40_p35 := 31 in let c16_n45_p43 := 32 in
  let c16_p38_p44 := 33 in let c16_p09_p25 := 34 in let c16_n09_p38 := 35 in let c16_n25_n44 := 36 in let c16_n44_p25 := 37 in
  let c16_p38_p09 := 38 in let c16_n25_p09 := 39 in let c16_n44_p38 := 40 in let c16_p17_p42 := 41 in let c16_n42_p17 := 42 in
  let c16_n32_p32 := 43 in let c16_p32_p32 := 44 in let max_val := 45 in let min_val := 46 in let c32_rnd := 47 in let in00 := 48 in let in01 := 49 in
  let in02 := 50 in let in03 := 51 in let in04 := 52 in let in05 := 53 in let in06 := 54 in let in07 := 55 in let in08 := 56 in let in09 := 57 in
  let in10 := 58 in let in11 := 59 in let in12 := 60 in let in13 := 61 in let in14 := 62 in let in15 := 63 in let res00 := 64 in let res01 := 65 in
  let res02 := 66 in let res03 := 67 in let res04 := 68 in let res05 := 69 in let res06 := 70 in let res07 := 71 in let res08 := 72 in
  let res09 := 73 in let res10 := 74 in let res11 := 75 in let res12 := 76 in let res13 := 77 in let res14 := 78 in let res15 := 79 in
  let T_00_00A := 80 in let T_00_00B := 81 in let T_00_01A := 82 in let T_00_01B := 83 in let T_00_02A := 84 in let T_00_02B := 85 in
  let T_00_03A := 86 in let T_00_03B := 87 in let T_00_04A := 88 in let T_00_04B := 89 in let T_00_05A := 90 in let T_00_05B := 91 in
  let T_00_06A := 92 in let T_00_06B := 93 in let T_00_07A := 94 in let T_00_07B := 95 in let O0A := 96 in let O1A := 97 in let O2A := 98 in
  let O3A := 99 in let O4A := 100 in let O5A := 101 in let O6A := 102 in let O7A := 103 in let O0B := 104 in let O1B := 105 in let O2B := 106 in
  let O3B := 107 in let O4B := 108 in let O5B := 109 in let O6B := 110 in let O7B := 111 in let EO0A := 112 in let EO1A := 113 in let EO2A := 114 in
  let EO3A := 115 in let EO0B := 116 in let EO1B := 117 in let EO2B := 118 in let EO3B := 119 in let EEO0A := 120 in let EEO1A := 121 in
  let EEO0B := 122 in let EEO1B := 123 in let EEE0A := 124 in let EEE1A := 125 in let EEE0B := 126 in let EEE1B := 127 in let T00 := 128 in
  let T01 := 129 in let EE0A := 130 in let EE0B := 131 in let EE1A := 132 in let EE1B := 133 in let EE3A := 134 in let EE3B := 135 in
  let EE2A := 136 in let EE2B := 137 in let E0A := 138 in let E0B := 139 in let E1A := 140 in let E1B := 141 in let E2A := 142 in let E2B := 143 in
  let E3A := 144 in let E3B := 145 in let E7A := 146 in let E7B := 147 in let E6A := 148 in let E6B := 149 in let E5A := 150 in let E5B := 151 in
  let E4A := 152 in let E4B := 153 in let T10A := 154 in let T10B := 155 in let T11A := 156 in let T11B := 157 in let T12A := 158 in
  let T12B := 159 in let T13A := 160 in let T13B := 161 in let T14A := 162 in let T14B := 163 in let T15A := 164 in let T15B := 165 in
  let T16A := 166 in let T16B := 167 in let T17A := 168 in let T17B := 169 in let T20A := 170 in let T20B := 171 in let T21A := 172 in
  let T21B := 173 in let T22A := 174 in let T22B := 175 in let T23A := 176 in let T23B := 177 in let T24A := 178 in let T24B := 179 in
  let T25A := 180 in let T25B := 181 in let T26A := 182 in let T26B := 183 in let T27A := 184 in let T27B := 185 in let T2FA := 186 in
  let T2FB := 187 in let T2EA := 188 in let T2EB := 189 in let T2DA := 190 in let T2DB := 191 in let T2CA := 192 in let T2CB := 193 in
  let T2BA := 194 in let T2BB := 195 in let T2AA := 196 in let T2AB := 197 in let T29A := 198 in let T29B := 199 in let T28A := 200 in
  let T28B := 201 in let T30A := 202 in let T30B := 203 in let T31A := 204 in let T31B := 205 in let T32A := 206 in let T32B := 207 in
  let T33A := 208 in let T33B := 209 in let T34A := 210 in let T34B := 211 in let T35A := 212 in let T35B := 213 in let T36A := 214 in
  let T36B := 215 in let T37A := 216 in let T37B := 217 in let T38A := 218 in let T38B := 219 in let T39A := 220 in let T39B := 221 in
  let T3AA := 222 in let T3AB := 223 in let T3BA := 224 in let T3BB := 225 in let T3CA := 226 in let T3CB := 227 in let T3DA := 228 in
  let T3DB := 229 in let T3EA := 230 in let T3EB := 231 in let T3FA := 232 in let T3FB := 233 in let tr0_0 := 234 in let tr0_1 := 235 in
  let tr0_2 := 236 in let tr0_3 := 237 in let tr0_4 := 238 in let tr0_5 := 239 in let tr0_6 := 240 in let tr0_7 := 241 in let tr0_8 := 242 in
  let tr0_9 := 243 in let tr0_10 := 244 in let tr0_11 := 245 in let tr0_12 := 246 in let tr0_13 := 247 in let tr0_14 := 248 in let tr0_15 := 249 in
  [Set_ c16_p43_p45 (S32 16 (I 2818093));
   Set_ c16_p35_p40 (S32 16 (I 2293800));
   Set_ c16_p21_p29 (S32 16 (I 1376285));
   Set_ c16_p04_p13 (S32 16 (I 262157));
   Set_ c16_p29_p43 (S32 16 (I 1900587));
   Set_ c16_n21_p04 (S32 16 (I (-1376252)));
   Set_ c16_n45_n40 (S32 16 (I (-2883624)));
   Set_ c16_n13_n35 (S32 16 (I (-786467)));
   Set_ c16_p04_p40 (S32 16 (I 262184));
   Set_ c16_n43_n35 (S32 16 (I (-2752547)));
   Set_ c16_p29_n13 (S32 16 (I 1966067));
   Set_ c16_p21_p45 (S32 16 (I 1376301));
   Set_ c16_n21_p35 (S32 16 (I (-1376221)));
   Set_ c16_p04_n43 (S32 16 (I 327637));
   Set_ c16_p13_p45 (S32 16 (I 852013));
   Set_ c16_n29_n40 (S32 16 (I (-1835048)));
   Set_ c16_n40_p29 (S32 16 (I (-2621411)));
   Set_ c16_p45_n13 (S32 16 (I 3014643));
   Set_ c16_n43_n04 (S32 16 (I (-2752516)));
   Set_ c16_p35_p21 (S32 16 (I 2293781));
   Set_ c16_n45_p21 (S32 16 (I (-2949099)));
   Set_ c16_p13_p29 (S32 16 (I 851997));
   Set_ c16_p35_n43 (S32 16 (I 2359253));
   Set_ c16_n40_p04 (S32 16 (I (-2621436)));
   Set_ c16_n35_p13 (S32 16 (I (-2293747)));
   Set_ c16_n40_p45 (S32 16 (I (-2621395)));
   Set_ c16_p04_p21 (S32 16 (I 262165));
   Set_ c16_p43_n29 (S32 16 (I 2883555));
   Set_ c16_n13_p04 (S32 16 (I (-851964)));
   Set_ c16_n29_p21 (S32 16 (I (-1900523)));
   Set_ c16_n40_p35 (S32 16 (I (-2621405)));
   Set_ c16_n45_p43 (S32 16 (I (-2949077)));
   Set_ c16_p38_p44 (S32 16 (I 2490412));
   Set_ c16_p09_p25 (S32 16 (I 589849));
   Set_ c16_n09_p38 (S32 16 (I (-589786)));
   Set_ c16_n25_n44 (S32 16 (I (-1572908)));
   Set_ c16_n44_p25 (S32 16 (I (-2883559)));
   Set_ c16_p38_p09 (S32 16 (I 2490377));
   Set_ c16_n25_p09 (S32 16 (I (-1638391)));
   Set_ c16_n44_p38 (S32 16 (I (-2883546)));
   Set_ c16_p17_p42 (S32 16 (I 1114154));
   Set_ c16_n42_p17 (S32 16 (I (-2752495)));
   Set_ c16_n32_p32 (S32 16 (I (-2097120)));
   Set_ c16_p32_p32 (S32 16 (I 2097184));
   Set_ c32_rnd (S32 16 (I 16));
   SetI 0 (I 5);
   Set_ in00 (Ld 16 0);
   Set_ in01 (Ld 16 16);
   Set_ in02 (Ld 16 32);
   Set_ in03 (Ld 16 48);
   Set_ in04 (Ld 16 64);
   Set_ in05 (Ld 16 80);
   Set_ in06 (Ld 16 96);
   Set_ in07 (Ld 16 112);
   Set_ in08 (Ld 16 128);
   Set_ in09 (Ld 16 144);
   Set_ in10 (Ld 16 160);
   Set_ in11 (Ld 16 176);
   Set_ in12 (Ld 16 192);
   Set_ in13 (Ld 16 208);
   Set_ in14 (Ld 16 224);
   Set_ in15 (Ld 16 240)]
  ++ loop 2 (fun pass =>
    [Set_ T_00_00A (lo16 (R in01) (R in03));
     Set_ T_00_00B (hi16 (R in01) (R in03));
     Set_ T_00_01A (lo16 (R in05) (R in07));
     Set_ T_00_01B (hi16 (R in05) (R in07));
     Set_ T_00_02A (lo16 (R in09) (R in11));
     Set_ T_00_02B (hi16 (R in09) (R in11));
     Set_ T_00_03A (lo16 (R in13) (R in15));
     Set_ T_00_03B (hi16 (R in13) (R in15));
     Set_ T_00_04A (lo16 (R in02) (R in06));
     Set_ T_00_04B (hi16 (R in02) (R in06));
     Set_ T_00_05A (lo16 (R in10) (R in14));
     Set_ T_00_05B (hi16 (R in10) (R in14));
     Set_ T_00_06A (lo16 (R in04) (R in12));
     Set_ T_00_06B (hi16 (R in04) (R in12));
     Set_ T_00_07A (lo16 (R in00) (R in08));
     Set_ T_00_07B (hi16 (R in00) (R in08));
     Set_ T00 (add32 (madd (R T_00_00A) (R c16_p43_p45)) (madd (R T_00_01A) (R c16_p35_p40)));
     Set_ T01 (add32 (madd (R T_00_02A) (R c16_p21_p29)) (madd (R T_00_03A) (R c16_p04_p13)));
     Set_ O0A (add32 (R T00) (R T01));
     Set_ T00 (add32 (madd (R T_00_00A) (R c16_p29_p43)) (madd (R T_00_01A) (R c16_n21_p04)));
     Set_ T01 (add32 (madd (R T_00_02A) (R c16_n45_n40)) (madd (R T_00_03A) (R c16_n13_n35)));
     Set_ O1A (add32 (R T00) (R T01));
     Set_ T00 (add32 (madd (R T_00_00A) (R c16_p04_p40)) (madd (R T_00_01A) (R c16_n43_n35)));
     Set_ T01 (add32 (madd (R T_00_02A) (R c16_p29_n13)) (madd (R T_00_03A) (R c16_p21_p45)));
     Set_ O2A (add32 (R T00) (R T01));
     Set_ T00 (add32 (madd (R T_00_00A) (R c16_n21_p35)) (madd (R T_00_01A) (R c16_p04_n43)));
     Set_ T01 (add32 (madd (R T_00_02A) (R c16_p13_p45)) (madd (R T_00_03A) (R c16_n29_n40)));
     Set_ O3A (add32 (R T00) (R T01));
     Set_ T00 (add32 (madd (R T_00_00A) (R c16_n40_p29)) (madd (R T_00_01A) (R c16_p45_n13)));
     Set_ T01 (add32 (madd (R T_00_02A) (R c16_n43_n04)) (madd (R T_00_03A) (R c16_p35_p21)));
     Set_ O4A (add32 (R T00) (R T01));
     Set_ T00 (add32 (madd (R T_00_00A) (R c16_n45_p21)) (madd (R T_00_01A) (R c16_p13_p29)));
     Set_ T01 (add32 (madd (R T_00_02A) (R c16_p35_n43)) (madd (R T_00_03A) (R c16_n40_p04)));
     Set_ O5A (add32 (R T00) (R T01));
     Set_ T00 (add32 (madd (R T_00_00A) (R c16_n35_p13)) (madd (R T_00_01A) (R c16_n40_p45)));
     Set_ T01 (add32 (madd (R T_00_02A) (R c16_p04_p21)) (madd (R T_00_03A) (R c16_p43_n29)));
     Set_ O6A (add32 (R T00) (R T01));
     Set_ T00 (add32 (madd (R T_00_00A) (R c16_n13_p04)) (madd (R T_00_01A) (R c16_n29_p21)));
     Set_ T01 (add32 (madd (R T_00_02A) (R c16_n40_p35)) (madd (R T_00_03A) (R c16_n45_p43)));
     Set_ O7A (add32 (R T00) (R T01));
     Set_ T00 (add32 (madd (R T_00_00B) (R c16_p43_p45)) (madd (R T_00_01B) (R c16_p35_p40)));
     Set_ T01 (add32 (madd (R T_00_02B) (R c16_p21_p29)) (madd (R T_00_03B) (R c16_p04_p13)));
     Set_ O0B (add32 (R T00) (R T01));
     Set_ T00 (add32 (madd (R T_00_00B) (R c16_p29_p43)) (madd (R T_00_01B) (R c16_n21_p04)));
     Set_ T01 (add32 (madd (R T_00_02B) (R c16_n45_n40)) (madd (R T_00_03B) (R c16_n13_n35)));
     Set_ O1B (add32 (R T00) (R T01));
     Set_ T00 (add32 (madd (R T_00_00B) (R c16_p04_p40)) (madd (R T_00_01B) (R c16_n43_n35)));
     Set_ T01 (add32 (madd (R T_00_02B) (R c16_p29_n13)) (madd (R T_00_03B) (R c16_p21_p45)));
     Set_ O2B (add32 (R T00) (R T01));
     Set_ T00 (add32 (madd (R T_00_00B) (R c16_n21_p35)) (madd (R T_00_01B) (R c16_p04_n43)));
     Set_ T01 (add32 (madd (R T_00_02B) (R c16_p13_p45)) (madd (R T_00_03B) (R c16_n29_n40)));
     Set_ O3B (add32 (R T00) (R T01));
     Set_ T00 (add32 (madd (R T_00_00B) (R c16_n40_p29)) (madd (R T_00_01B) (R c16_p45_n13)));
     Set_ T01 (add32 (madd (R T_00_02B) (R c16_n43_n04)) (madd (R T_00_03B) (R c16_p35_p21)));
     Set_ O4B (add32 (R T00) (R T01));
     Set_ T00 (add32 (madd (R T_00_00B) (R c16_n45_p21)) (madd (R T_00_01B) (R c16_p13_p29)));
     Set_ T01 (add32 (madd (R T_00_02B) (R c16_p35_n43)) (madd (R T_00_03B) (R c16_n40_p04)));
     Set_ O5B (add32 (R T00) (R T01));
     Set_ T00 (add32 (madd (R T_00_00B) (R c16_n35_p13)) (madd (R T_00_01B) (R c16_n40_p45)));
     Set_ T01 (add32 (madd (R T_00_02B) (R c16_p04_p21)) (madd (R T_00_03B) (R c16_p43_n29)));
     Set_ O6B (add32 (R T00) (R T01));
     Set_ T00 (add32 (madd (R T_00_00B) (R c16_n13_p04)) (madd (R T_00_01B) (R c16_n29_p21)));
     Set_ T01 (add32 (madd (R T_00_02B) (R c16_n40_p35)) (madd (R T_00_03B) (R c16_n45_p43)));
     Set_ O7B (add32 (R T00) (R T01))]
    ++ [Set_ EO0A (add32 (madd (R T_00_04A) (R c16_p38_p44)) (madd (R T_00_05A) (R c16_p09_p25)));
     Set_ EO0B (add32 (madd (R T_00_04B) (R c16_p38_p44)) (madd (R T_00_05B) (R c16_p09_p25)));
     Set_ EO1A (add32 (madd (R T_00_04A) (R c16_n09_p38)) (madd (R T_00_05A) (R c16_n25_n44)));
     Set_ EO1B (add32 (madd (R T_00_04B) (R c16_n09_p38)) (madd (R T_00_05B) (R c16_n25_n44)));
     Set_ EO2A (add32 (madd (R T_00_04A) (R c16_n44_p25)) (madd (R T_00_05A) (R c16_p38_p09)));
     Set_ EO2B (add32 (madd (R T_00_04B) (R c16_n44_p25)) (madd (R T_00_05B) (R c16_p38_p09)));
     Set_ EO3A (add32 (madd (R T_00_04A) (R c16_n25_p09)) (madd (R T_00_05A) (R c16_n44_p38)));
     Set_ EO3B (add32 (madd (R T_00_04B) (R c16_n25_p09)) (madd (R T_00_05B) (R c16_n44_p38)));
     Set_ EEO0A (madd (R T_00_06A) (R c16_p17_p42));
     Set_ EEO0B (madd (R T_00_06B) (R c16_p17_p42));
     Set_ EEO1A (madd (R T_00_06A) (R c16_n42_p17));
     Set_ EEO1B (madd (R T_00_06B) (R c16_n42_p17));
     Set_ EEE0A (madd (R T_00_07A) (R c16_p32_p32));
     Set_ EEE0B (madd (R T_00_07B) (R c16_p32_p32));
     Set_ EEE1A (madd (R T_00_07A) (R c16_n32_p32));
     Set_ EEE1B (madd (R T_00_07B) (R c16_n32_p32));
     Set_ EE0A (add32 (R EEE0A) (R EEO0A));
     Set_ EE0B (add32 (R EEE0B) (R EEO0B));
     Set_ EE1A (add32 (R EEE1A) (R EEO1A));
     Set_ EE1B (add32 (R EEE1B) (R EEO1B));
     Set_ EE3A (sub32 (R EEE0A) (R EEO0A));
     Set_ EE3B (sub32 (R EEE0B) (R EEO0B));
     Set_ EE2A (sub32 (R EEE1A) (R EEO1A));
     Set_ EE2B (sub32 (R EEE1B) (R EEO1B));
     Set_ E0A (add32 (R EE0A) (R EO0A));
     Set_ E0B (add32 (R EE0B) (R EO0B));
     Set_ E1A (add32 (R EE1A) (R EO1A));
     Set_ E1B (add32 (R EE1B) (R EO1B));
     Set_ E2A (add32 (R EE2A) (R EO2A));
     Set_ E2B (add32 (R EE2B) (R EO2B));
     Set_ E3A (add32 (R EE3A) (R EO3A));
     Set_ E3B (add32 (R EE3B) (R EO3B));
     Set_ E7A (sub32 (R EE0A) (R EO0A));
     Set_ E7B (sub32 (R EE0B) (R EO0B));
     Set_ E6A (sub32 (R EE1A) (R EO1A));
     Set_ E6B (sub32 (R EE1B) (R EO1B));
     Set_ E5A (sub32 (R EE2A) (R EO2A));
     Set_ E5B (sub32 (R EE2B) (R EO2B));
     Set_ E4A (sub32 (R EE3A) (R EO3A));
     Set_ E4B (sub32 (R EE3B) (R EO3B));
     Set_ T10A (add32 (R E0A) (R c32_rnd));
     Set_ T10B (add32 (R E0B) (R c32_rnd));
     Set_ T11A (add32 (R E1A) (R c32_rnd));
     Set_ T11B (add32 (R E1B) (R c32_rnd));
     Set_ T12A (add32 (R E2A) (R c32_rnd));
     Set_ T12B (add32 (R E2B) (R c32_rnd));
     Set_ T13A (add32 (R E3A) (R c32_rnd));
     Set_ T13B (add32 (R E3B) (R c32_rnd));
     Set_ T14A (add32 (R E4A) (R c32_rnd));
     Set_ T14B (add32 (R E4B) (R c32_rnd));
     Set_ T15A (add32 (R E5A) (R c32_rnd));
     Set_ T15B (add32 (R E5B) (R c32_rnd));
     Set_ T16A (add32 (R E6A) (R c32_rnd));
     Set_ T16B (add32 (R E6B) (R c32_rnd));
     Set_ T17A (add32 (R E7A) (R c32_rnd));
     Set_ T17B (add32 (R E7B) (R c32_rnd));
     Set_ T20A (add32 (R T10A) (R O0A));
     Set_ T20B (add32 (R T10B) (R O0B));
     Set_ T21A (add32 (R T11A) (R O1A));
     Set_ T21B (add32 (R T11B) (R O1B));
     Set_ T22A (add32 (R T12A) (R O2A));
     Set_ T22B (add32 (R T12B) (R O2B));
     Set_ T23A (add32 (R T13A) (R O3A));
     Set_ T23B (add32 (R T13B) (R O3B))]
    ++ [Set_ T24A (add32 (R T14A) (R O4A));
     Set_ T24B (add32 (R T14B) (R O4B));
     Set_ T25A (add32 (R T15A) (R O5A));
     Set_ T25B (add32 (R T15B) (R O5B));
     Set_ T26A (add32 (R T16A) (R O6A));
     Set_ T26B (add32 (R T16B) (R O6B));
     Set_ T27A (add32 (R T17A) (R O7A));
     Set_ T27B (add32 (R T17B) (R O7B));
     Set_ T2FA (sub32 (R T10A) (R O0A));
     Set_ T2FB (sub32 (R T10B) (R O0B));
     Set_ T2EA (sub32 (R T11A) (R O1A));
     Set_ T2EB (sub32 (R T11B) (R O1B));
     Set_ T2DA (sub32 (R T12A) (R O2A));
     Set_ T2DB (sub32 (R T12B) (R O2B));
     Set_ T2CA (sub32 (R T13A) (R O3A));
     Set_ T2CB (sub32 (R T13B) (R O3B));
     Set_ T2BA (sub32 (R T14A) (R O4A));
     Set_ T2BB (sub32 (R T14B) (R O4B));
     Set_ T2AA (sub32 (R T15A) (R O5A));
     Set_ T2AB (sub32 (R T15B) (R O5B));
     Set_ T29A (sub32 (R T16A) (R O6A));
     Set_ T29B (sub32 (R T16B) (R O6B));
     Set_ T28A (sub32 (R T17A) (R O7A));
     Set_ T28B (sub32 (R T17B) (R O7B));
     Set_ T30A (Sra32 (R T20A) (X 0));
     Set_ T30B (Sra32 (R T20B) (X 0));
     Set_ T31A (Sra32 (R T21A) (X 0));
     Set_ T31B (Sra32 (R T21B) (X 0));
     Set_ T32A (Sra32 (R T22A) (X 0));
     Set_ T32B (Sra32 (R T22B) (X 0));
     Set_ T33A (Sra32 (R T23A) (X 0));
     Set_ T33B (Sra32 (R T23B) (X 0));
     Set_ T34A (Sra32 (R T24A) (X 0));
     Set_ T34B (Sra32 (R T24B) (X 0));
     Set_ T35A (Sra32 (R T25A) (X 0));
     Set_ T35B (Sra32 (R T25B) (X 0));
     Set_ T36A (Sra32 (R T26A) (X 0));
     Set_ T36B (Sra32 (R T26B) (X 0));
     Set_ T37A (Sra32 (R T27A) (X 0));
     Set_ T37B (Sra32 (R T27B) (X 0));
     Set_ T38A (Sra32 (R T28A) (X 0));
     Set_ T38B (Sra32 (R T28B) (X 0));
     Set_ T39A (Sra32 (R T29A) (X 0));
     Set_ T39B (Sra32 (R T29B) (X 0));
     Set_ T3AA (Sra32 (R T2AA) (X 0));
     Set_ T3AB (Sra32 (R T2AB) (X 0));
     Set_ T3BA (Sra32 (R T2BA) (X 0));
     Set_ T3BB (Sra32 (R T2BB) (X 0));
     Set_ T3CA (Sra32 (R T2CA) (X 0));
     Set_ T3CB (Sra32 (R T2CB) (X 0));
     Set_ T3DA (Sra32 (R T2DA) (X 0));
     Set_ T3DB (Sra32 (R T2DB) (X 0));
     Set_ T3EA (Sra32 (R T2EA) (X 0));
     Set_ T3EB (Sra32 (R T2EB) (X 0));
     Set_ T3FA (Sra32 (R T2FA) (X 0));
     Set_ T3FB (Sra32 (R T2FB) (X 0));
     Set_ res00 (packs32 (R T30A) (R T30B));
     Set_ res01 (packs32 (R T31A) (R T31B));
     Set_ res02 (packs32 (R T32A) (R T32B));
     Set_ res03 (packs32 (R T33A) (R T33B));
     Set_ res04 (packs32 (R T34A) (R T34B));
     Set_ res05 (packs32 (R T35A) (R T35B));
     Set_ res06 (packs32 (R T36A) (R T36B));
     Set_ res07 (packs32 (R T37A) (R T37B))]
    ++ [Set_ res08 (packs32 (R T38A) (R T38B));
     Set_ res09 (packs32 (R T39A) (R T39B));
     Set_ res10 (packs32 (R T3AA) (R T3AB));
     Set_ res11 (packs32 (R T3BA) (R T3BB));
     Set_ res12 (packs32 (R T3CA) (R T3CB));
     Set_ res13 (packs32 (R T3DA) (R T3DB));
     Set_ res14 (packs32 (R T3EA) (R T3EB));
     Set_ res15 (packs32 (R T3FA) (R T3FB));
     Set_ tr0_0 (lo16 (R res00) (R res01));
     Set_ tr0_1 (lo16 (R res02) (R res03));
     Set_ tr0_2 (lo16 (R res04) (R res05));
     Set_ tr0_3 (lo16 (R res06) (R res07));
     Set_ tr0_4 (lo16 (R res08) (R res09));
     Set_ tr0_5 (lo16 (R res10) (R res11));
     Set_ tr0_6 (lo16 (R res12) (R res13));
     Set_ tr0_7 (lo16 (R res14) (R res15));
     Set_ tr0_8 (hi16 (R res00) (R res01));
     Set_ tr0_9 (hi16 (R res02) (R res03));
     Set_ tr0_10 (hi16 (R res04) (R res05));
     Set_ tr0_11 (hi16 (R res06) (R res07));
     Set_ tr0_12 (hi16 (R res08) (R res09));
     Set_ tr0_13 (hi16 (R res10) (R res11));
     Set_ tr0_14 (hi16 (R res12) (R res13));
     Set_ tr0_15 (hi16 (R res14) (R res15));
     Set_ in00 (lo32 (R tr0_0) (R tr0_1));
     Set_ in01 (lo32 (R tr0_2) (R tr0_3));
     Set_ in02 (lo32 (R tr0_4) (R tr0_5));
     Set_ in03 (lo32 (R tr0_6) (R tr0_7));
     Set_ in04 (hi32 (R tr0_0) (R tr0_1));
     Set_ in05 (hi32 (R tr0_2) (R tr0_3));
     Set_ in06 (hi32 (R tr0_4) (R tr0_5));
     Set_ in07 (hi32 (R tr0_6) (R tr0_7));
     Set_ in08 (lo32 (R tr0_8) (R tr0_9));
     Set_ in09 (lo32 (R tr0_10) (R tr0_11));
     Set_ in10 (lo32 (R tr0_12) (R tr0_13));
     Set_ in11 (lo32 (R tr0_14) (R tr0_15));
     Set_ in12 (hi32 (R tr0_8) (R tr0_9));
     Set_ in13 (hi32 (R tr0_10) (R tr0_11));
     Set_ in14 (hi32 (R tr0_12) (R tr0_13));
     Set_ in15 (hi32 (R tr0_14) (R tr0_15));
     Set_ tr0_0 (lo64 (R in00) (R in01));
     Set_ tr0_1 (lo64 (R in02) (R in03));
     Set_ tr0_2 (hi64 (R in00) (R in01));
     Set_ tr0_3 (hi64 (R in02) (R in03));
     Set_ tr0_4 (lo64 (R in04) (R in05));
     Set_ tr0_5 (lo64 (R in06) (R in07));
     Set_ tr0_6 (hi64 (R in04) (R in05));
     Set_ tr0_7 (hi64 (R in06) (R in07));
     Set_ tr0_8 (lo64 (R in08) (R in09));
     Set_ tr0_9 (lo64 (R in10) (R in11));
     Set_ tr0_10 (hi64 (R in08) (R in09));
     Set_ tr0_11 (hi64 (R in10) (R in11));
     Set_ tr0_12 (lo64 (R in12) (R in13));
     Set_ tr0_13 (lo64 (R in14) (R in15));
     Set_ tr0_14 (hi64 (R in12) (R in13));
     Set_ tr0_15 (hi64 (R in14) (R in15));
     Set_ in00 (p20 (R tr0_0) (R tr0_1));
     Set_ in01 (p20 (R tr0_2) (R tr0_3));
     Set_ in02 (p20 (R tr0_4) (R tr0_5));
     Set_ in03 (p20 (R tr0_6) (R tr0_7));
     Set_ in04 (p20 (R tr0_8) (R tr0_9));
     Set_ in05 (p20 (R tr0_10) (R tr0_11));
     Set_ in06 (p20 (R tr0_12) (R tr0_13));
     Set_ in07 (p20 (R tr0_14) (R tr0_15))]
    ++ [Set_ in08 (p31 (R tr0_0) (R tr0_1));
     Set_ in09 (p31 (R tr0_2) (R tr0_3));
     Set_ in10 (p31 (R tr0_4) (R tr0_5));
     Set_ in11 (p31 (R tr0_6) (R tr0_7));
     Set_ in12 (p31 (R tr0_8) (R tr0_9));
     Set_ in13 (p31 (R tr0_10) (R tr0_11));
     Set_ in14 (p31 (R tr0_12) (R tr0_13));
     Set_ in15 (p31 (R tr0_14) (R tr0_15));
     SetI 0 (Q SH2);
     Set_ c32_rnd (S32 16 (Q RND2))])
  ++ [Set_ max_val (S16 16 (Q HI2));
   Set_ min_val (S16 16 (Q LO2));
   Set_ in00 (max16 (min16 (R in00) (R max_val)) (R min_val));
   Set_ in01 (max16 (min16 (R in01) (R max_val)) (R min_val));
   Set_ in02 (max16 (min16 (R in02) (R max_val)) (R min_val));
   Set_ in03 (max16 (min16 (R in03) (R max_val)) (R min_val));
   Set_ in04 (max16 (min16 (R in04) (R max_val)) (R min_val));
   Set_ in05 (max16 (min16 (R in05) (R max_val)) (R min_val));
   Set_ in06 (max16 (min16 (R in06) (R max_val)) (R min_val));
   Set_ in07 (max16 (min16 (R in07) (R max_val)) (R min_val));
   Set_ in08 (max16 (min16 (R in08) (R max_val)) (R min_val));
   Set_ in09 (max16 (min16 (R in09) (R max_val)) (R min_val));
   Set_ in10 (max16 (min16 (R in10) (R max_val)) (R min_val));
   Set_ in11 (max16 (min16 (R in11) (R max_val)) (R min_val));
   Set_ in12 (max16 (min16 (R in12) (R max_val)) (R min_val));
   Set_ in13 (max16 (min16 (R in13) (R max_val)) (R min_val));
   Set_ in14 (max16 (min16 (R in14) (R max_val)) (R min_val));
   Set_ in15 (max16 (min16 (R in15) (R max_val)) (R min_val));
   St 16 0 0 0 (R in00);
   St 16 0 0 16 (R in01);
   St 16 0 0 32 (R in02);
   St 16 0 0 48 (R in03);
   St 16 0 0 64 (R in04);
   St 16 0 0 80 (R in05);
   St 16 0 0 96 (R in06);
   St 16 0 0 112 (R in07);
   St 16 0 0 128 (R in08);
   St 16 0 0 144 (R in09);
   St 16 0 0 160 (R in10);
   St 16 0 0 176 (R in11);
   St 16 0 0 192 (R in12);
   St 16 0 0 208 (R in13);
   St 16 0 0 224 (R in14);
   St 16 0 0 240 (R in15)].

(** vec/intrinsic_idct_avx2.cc:684-1511 [idct_32x32_avx2]. The lowest bit of [i_dst] is a flag that changes shift and limits. *)
Definition idct_32x32_avx2 : list ins :=
  let max_val := 1 in let min_val := 2 in let EEO0A := 3 in let EEO1A := 4 in let EEO2A := 5 in let EEO3A := 6 in let EEO0B := 7 in let EEO1B := 8 in
  let EEO2B := 9 in let EEO3B := 10 in let EEEO0A := 11 in let EEEO0B := 12 in let EEEO1A := 13 in let EEEO1B := 14 in let EEEE0A := 15 in
  let EEEE0B := 16 in let EEEE1A := 17 in let EEEE1B := 18 in let EEE0A := 19 in let EEE0B := 20 in let EEE1A := 21 in let EEE1B := 22 in
  let EEE3A := 23 in let EEE3B := 24 in let EEE2A := 25 in let EEE2B := 26 in let EE0A := 27 in let EE0B := 28 in let EE1A := 29 in let EE1B := 30 in
  let EE2A := 31 in let EE2B := 32 in let EE3A := 33 in let EE3B := 34 in let EE7A := 35 in let EE7B := 36 in let EE6A := 37 in let EE6B := 38 in
  let EE5A := 39 in let EE5B := 40 in let EE4A := 41 in let EE4B := 42 in let E0A := 43 in let E0B := 44 in let E1A := 45 in let E1B := 46 in
  let E2A := 47 in let E2B := 48 in let E3A := 49 in let E3B := 50 in let E4A := 51 in let E4B := 52 in let E5A := 53 in let E5B := 54 in
  let E6A := 55 in let E6B := 56 in let E7A := 57 in let E7B := 58 in let EFA := 59 in let EFB := 60 in let EEA := 61 in let EEB := 62 in
  let EDA := 63 in let EDB := 64 in let ECA := 65 in let ECB := 66 in let EBA := 67 in let EBB := 68 in let EAA := 69 in let EAB := 70 in
  let E9A := 71 in let E9B := 72 in let E8A := 73 in let E8B := 74 in let T10A := 75 in let T10B := 76 in let T11A := 77 in let T11B := 78 in
  let T12A := 79 in let T12B := 80 in let T13A := 81 in let T13B := 82 in let T14A := 83 in let T14B := 84 in let T15A := 85 in let T15B := 86 in
  let T16A := 87 in let T16B := 88 in let T17A := 89 in let T17B := 90 in let T18A := 91 in let T18B := 92 in let T19A := 93 in let T19B := 94 in
  let T1AA := 95 in let T1AB := 96 in let T1BA := 97 in let T1BB := 98 in let T1CA := 99 in let T1CB := 100 in let T1DA := 101 in let T1DB := 102 in
  let T1EA := 103 in let T1EB := 104 in let T1FA := 105 in let T1FB := 106 in let T2_00A := 107 in let T2_00B := 108 in let T2_01A := 109 in
  let T2_01B := 110 in let T2_02A := 111 in let T2_02B := 112 in let T2_03A := 113 in let T2_03B := 114 in let T2_04A := 115 in let T2_04B := 116 in
  let T2_05A := 117 in let T2_05B := 118 in let T2_06A := 119 in let T2_06B := 120 in let T2_07A := 121 in let T2_07B := 122 in let T2_08A := 123 in
  let T2_08B := 124 in let T2_09A := 125 in let T2_09B := 126 in let T2_10A := 127 in let T2_10B := 128 in let T2_11A := 129 in let T2_11B := 130 in
  let T2_12A := 131 in let T2_12B := 132 in let T2_13A := 133 in let T2_13B := 134 in let T2_14A := 135 in let T2_14B := 136 in let T2_15A := 137 in
  let T2_15B := 138 in let T2_31A := 139 in let T2_31B := 140 in let T2_30A := 141 in let T2_30B := 142 in let T2_29A := 143 in let T2_29B := 144 in
  let T2_28A := 145 in let T2_28B := 146 in let T2_27A := 147 in let T2_27B := 148 in let T2_26A := 149 in let T2_26B := 150 in let T2_25A := 151 in
  let T2_25B := 152 in let T2_24A := 153 in let T2_24B := 154 in let T2_23A := 155 in let T2_23B := 156 in let T2_22A := 157 in let T2_22B := 158 in
  let T2_21A := 159 in let T2_21B := 160 in let T2_20A := 161 in let T2_20B := 162 in let T2_19A := 163 in let T2_19B := 164 in let T2_18A := 165 in
  let T2_18B := 166 in let T2_17A := 167 in let T2_17B := 168 in let T2_16A := 169 in let T2_16B := 170 in let T3_00A := 171 in let T3_00B := 172 in
  let T3_01A := 173 in let T3_01B := 174 in let T3_02A := 175 in let T3_02B := 176 in let T3_03A := 177 in let T3_03B := 178 in let T3_04A := 179 in
  let T3_04B := 180 in let T3_05A := 181 in let T3_05B := 182 in let T3_06A := 183 in let T3_06B := 184 in let T3_07A := 185 in let T3_07B := 186 in
  let T3_08A := 187 in let T3_08B := 188 in let T3_09A := 189 in let T3_09B := 190 in let T3_10A := 191 in let T3_10B := 192 in let T3_11A := 193 in
  let T3_11B := 194 in let T3_12A := 195 in let T3_12B := 196 in let T3_13A := 197 in let T3_13B := 198 in let T3_14A := 199 in let T3_14B := 200 in
  let T3_15A := 201 in let T3_15B := 202 in let T3_16A := 203 in let T3_16B := 204 in let T3_17A := 205 in let T3_17B := 206 in let T3_18A := 207 in
  let T3_18B := 208 in let T3_19A := 209 in let T3_19B := 210 in let T3_20A := 211 in let T3_20B := 212 in let T3_21A := 213 in let T3_21B := 214 in
  let T3_22A := 215 in let T3_22B := 216 in let T3_23A := 217 in let T3_23B := 218 in let T3_24A := 219 in let T3_24B := 220 in let T3_25A := 221 in
  let T3_25B := 222 in let T3_26A := 223 in let T3_26B := 224 in let T3_27A := 225 in let T3_27B := 226 in let T3_28A := 227 in let T3_28B := 228 in
  let T3_29A := 229 in let T3_29B := 230 in let T3_30A := 231 in let T3_30B := 232 in let T3_31A := 233 in let T3_31B := 234 in
  let c16_p45_p45 := 235 in let c16_p43_p44 := 236 in let c16_p39_p41 := 237 in let c16_p34_p36 := 238 in let c16_p27_p30 := 239 in
  let c16_p19_p23 := 240 in let c16_p11_p15 := 241 in let c16_p02_p07 := 242 in let c16_p41_p45 := 243 in let c16_p23_p34 := 244 in
  let c16_n02_p11 := 245 in let c16_n27_n15 := 246 in let c16_n43_n36 := 247 in let c16_n44_n45 := 248 in let c16_n30_n39 := 249 in
  let c16_n07_n19 := 250 in let c16_p34_p44 := 251 in let c16_n07_p15 := 252 in let c16_n41_n27 := 253 in let c16_n39_n45 := 254 in
  let c16_n02_n23 := 255 in let c16_p36_p19 := 256 in let c16_p43_p45 := 257 in let c16_p11_p30 := 258 in let c16_p23_p43 := 259 in
  let c16_n34_n07 := 260 in let c16_n36_n45 := 261 in let c16_p19_n11 := 262 in let c16_p44_p41 := 263 in let c16_n02_p27 := 264 in
  let c16_n45_n30 := 265 in let c16_n15_n39 := 266 in let c16_p11_p41 := 267 in let c16_n45_n27 := 268 in let c16_p07_n30 := 269 in
  let c16_p43_p39 := 270 in let c16_n23_p15 := 271 in let c16_n34_n45 := 272 in let c16_p36_p02 := 273 in let c16_p19_p44 := 274 in
  let c16_n02_p39 := 275 in let c16_n36_n41 := 276 in let c16_p43_p07 := 277 in let c16_n11_p34 := 278 in let c16_n30_n44 := 279 in
  let c16_p45_p15 := 280 in let c16_n19_p27 := 281 in let c16_n23_n45 := 282 in let c16_n15_p36 := 283 in let c16_n11_n45 := 284 in
  let c16_p34_p39 := 285 in let c16_n45_n19 := 286 in let c16_p41_n07 := 287 in let c16_n23_p30 := 288 in let c16_n02_n44 := 289 in
  let c16_p27_p43 := 290 in let c16_n27_p34 := 291 in let c16_p19_n39 := 292 in let c16_n11_p43 := 293 in let c16_p02_n45 := 294 in
  let c16_p07_p45 := 295 in let c16_n15_n44 := 296 in let c16_p23_p41 := 297 in let c16_n30_n36 := 298 in let c16_n36_p30 := 299 in
  let c16_p41_n23 := 300 in let c16_n44_p15 := 301 in let c16_p45_n07 := 302 in let c16_n45_n02 := 303 in let c16_p43_p11 := 304 in
  let c16_n39_n19 := 305 in let c16_p34_p27 := 306 in let c16_n43_p27 := 307 in let c16_p44_n02 := 308 in let c16_n30_n23 := 309 in
  let c16_p07_p41 := 310 in let c16_p19_n45 := 311 in let c16_n39_p34 := 312 in let c16_p45_n11 := 313 in let c16_n36_n15 := 314 in
  let c16_n45_p23 := 315 in let c16_p27_p19 := 316 in let c16_p15_n45 := 317 in let c16_n44_p30 := 318 in let c16_p34_p11 := 319 in
  let c16_p07_n43 := 320 in let c16_n41_p36 := 321 in let c16_p39_p02 := 322 in let c16_n44_p19 := 323 in let c16_n02_p36 := 324 in
  let c16_p45_n34 := 325 in let c16_n15_n23 := 326 in let c16_n39_p43 := 327 in let c16_p30_p07 := 328 in let c16_p27_n45 := 329 in
  let c16_n41_p11 := 330 in let c16_n39_p15 := 331 in let c16_n30_p45 := 332 in let c16_p27_p02 := 333 in let c16_p41_n44 := 334 in
  let c16_n11_n19 := 335 in let c16_n45_p36 := 336 in let c16_n07_p34 := 337 in let c16_p43_n23 := 338 in let c16_n30_p11 := 339 in
  let c16_n45_p43 := 340 in let c16_n19_p36 := 341 in let c16_p23_n02 := 342 in let c16_p45_n39 := 343 in let c16_p27_n41 := 344 in
  let c16_n15_n07 := 345 in let c16_n44_p34 := 346 in let c16_n19_p07 := 347 in let c16_n39_p30 := 348 in let c16_n45_p44 := 349 in
  let c16_n36_p43 := 350 in let c16_n15_p27 := 351 in let c16_p11_p02 := 352 in let c16_p34_n23 := 353 in let c16_p45_n41 := 354 in
  let c16_n07_p02 := 355 in let c16_n15_p11 := 356 in let c16_n23_p19 := 357 in let c16_n30_p27 := 358 in let c16_n36_p34 := 359 in
  let c16_n41_p39 := 360 in let c16_n44_p43 := 361 in let c16_n45_p45 := 362 in let c16_p35_p40 := 363 in let c16_p21_p29 := 364 in
  let c16_p04_p13 := 365 in let c16_p29_p43 := 366 in let c16_n21_p04 := 367 in let c16_n45_n40 := 368 in let c16_n13_n35 := 369 in
  let c16_p04_p40 := 370 in let c16_n43_n35 := 371 in let c16_p29_n13 := 372 in let c16_p21_p45 := 373 in let c16_n21_p35 := 374 in
  let c16_p04_n43 := 375 in let c16_p13_p45 := 376 in let c16_n29_n40 := 377 in let c16_n40_p29 := 378 in let c16_p45_n13 := 379 in
  let c16_n43_n04 := 380 in let c16_p35_p21 := 381 in let c16_n45_p21 := 382 in let c16_p13_p29 := 383 in let c16_p35_n43 := 384 in
  let c16_n40_p04 := 385 in let c16_n35_p13 := 386 in let c16_n40_p45 := 387 in let c16_p04_p21 := 388 in let c16_p43_n29 := 389 in
  let c16_n13_p04 := 390 in let c16_n29_p21 := 391 in let c16_n40_p35 := 392 in let c16_p38_p44 := 393 in let c16_p09_p25 := 394 in
  let c16_n09_p38 := 395 in let c16_n25_n44 := 396 in let c16_n44_p25 := 397 in let c16_p38_p09 := 398 in let c16_n25_p09 := 399 in
  let c16_n44_p38 := 400 in let c16_p17_p42 := 401 in let c16_n42_p17 := 402 in let c16_p32_p32 := 403 in let c16_n32_p32 := 404 in
  let c32_rnd := 405 in let in00 := 406 in let in01 := 408 in let in02 := 410 in let in03 := 412 in let in04 := 414 in let in05 := 416 in
  let in06 := 418 in let in07 := 420 in let in08 := 422 in let in09 := 424 in let in10 := 426 in let in11 := 428 in let in12 := 430 in
  let in13 := 432 in let in14 := 434 in let in15 := 436 in let in16 := 438 in let in17 := 440 in let in18 := 442 in let in19 := 444 in
  let in20 := 446 in let in21 := 448 in let in22 := 450 in let in23 := 452 in let in24 := 454 in let in25 := 456 in let in26 := 458 in
  let in27 := 460 in let in28 := 462 in let in29 := 464 in let in30 := 466 in let in31 := 468 in let res00 := 470 in let res01 := 472 in
  let res02 := 474 in let res03 := 476 in let res04 := 478 in let res05 := 480 in let res06 := 482 in let res07 := 484 in let res08 := 486 in
  let res09 := 488 in let res10 := 490 in let res11 := 492 in let res12 := 494 in let res13 := 496 in let res14 := 498 in let res15 := 500 in
  let res16 := 502 in let res17 := 504 in let res18 := 506 in let res19 := 508 in let res20 := 510 in let res21 := 512 in let res22 := 514 in
  let res23 := 516 in let res24 := 518 in let res25 := 520 in let res26 := 522 in let res27 := 524 in let res28 := 526 in let res29 := 528 in
  let res30 := 530 in let res31 := 532 in let T_00_00A := 534 in let T_00_00B := 535 in let T_00_01A := 536 in let T_00_01B := 537 in
  let T_00_02A := 538 in let T_00_02B := 539 in let T_00_03A := 540 in let T_00_03B := 541 in let T_00_04A := 542 in let T_00_04B := 543 in
  let T_00_05A := 544 in let T_00_05B := 545 in let T_00_06A := 546 in let T_00_06B := 547 in let T_00_07A := 548 in let T_00_07B := 549 in
  let T_00_08A := 550 in let T_00_08B := 551 in let T_00_09A := 552 in let T_00_09B := 553 in let T_00_10A := 554 in let T_00_10B := 555 in
  let T_00_11A := 556 in let T_00_11B := 557 in let T_00_12A := 558 in let T_00_12B := 559 in let T_00_13A := 560 in let T_00_13B := 561 in
  let T_00_14A := 562 in let T_00_14B := 563 in let T_00_15A := 564 in let T_00_15B := 565 in let O00A := 566 in let O01A := 567 in let O02A := 568 in
  let O03A := 569 in let O04A := 570 in let O05A := 571 in let O06A := 572 in let O07A := 573 in let O08A := 574 in let O09A := 575 in
  let O10A := 576 in let O11A := 577 in let O12A := 578 in let O13A := 579 in let O14A := 580 in let O15A := 581 in let O00B := 582 in
  let O01B := 583 in let O02B := 584 in let O03B := 585 in let O04B := 586 in let O05B := 587 in let O06B := 588 in let O07B := 589 in
  let O08B := 590 in let O09B := 591 in let O10B := 592 in let O11B := 593 in let O12B := 594 in let O13B := 595 in let O14B := 596 in
  let O15B := 597 in let EO0A := 598 in let EO1A := 599 in let EO2A := 600 in let EO3A := 601 in let EO4A := 602 in let EO5A := 603 in
  let EO6A := 604 in let EO7A := 605 in let EO0B := 606 in let EO1B := 607 in let EO2B := 608 in let EO3B := 609 in let EO4B := 610 in
  let EO5B := 611 in let EO6B := 612 in let EO7B := 613 in let T00 := 614 in let T01 := 615 in let T02 := 616 in let T03 := 617 in let T00_2 := 618 in
  let T01_2 := 619 in let tr0_0 := 620 in let tr0_1 := 621 in let tr0_2 := 622 in let tr0_3 := 623 in let tr0_4 := 624 in let tr0_5 := 625 in
  let tr0_6 := 626 in let tr0_7 := 627 in let tr0_8 := 628 in let tr0_9 := 629 in let tr0_10 := 630 in let tr0_11 := 631 in let tr0_12 := 632 in
  let tr0_13 := 633 in let tr0_14 := 634 in let tr0_15 := 635 in
  [Set_ c16_p45_p45 (S32 16 (I 2949165));
   Set_ c16_p43_p44 (S32 16 (I 2818092));
   Set_ c16_p39_p41 (S32 16 (I 2555945));
   Set_ c16_p34_p36 (S32 16 (I 2228260));
   Set_ c16_p27_p30 (S32 16 (I 1769502));
   Set_ c16_p19_p23 (S32 16 (I 1245207));
   Set_ c16_p11_p15 (S32 16 (I 720911));
   Set_ c16_p02_p07 (S32 16 (I 131079));
   Set_ c16_p41_p45 (S32 16 (I 2687021));
   Set_ c16_p23_p34 (S32 16 (I 1507362));
   Set_ c16_n02_p11 (S32 16 (I (-131061)));
   Set_ c16_n27_n15 (S32 16 (I (-1703951)));
   Set_ c16_n43_n36 (S32 16 (I (-2752548)));
   Set_ c16_n44_n45 (S32 16 (I (-2818093)));
   Set_ c16_n30_n39 (S32 16 (I (-1900583)));
   Set_ c16_n07_n19 (S32 16 (I (-393235)));
   Set_ c16_p34_p44 (S32 16 (I 2228268));
   Set_ c16_n07_p15 (S32 16 (I (-458737)));
   Set_ c16_n41_n27 (S32 16 (I (-2621467)));
   Set_ c16_n39_n45 (S32 16 (I (-2490413)));
   Set_ c16_n02_n23 (S32 16 (I (-65559)));
   Set_ c16_p36_p19 (S32 16 (I 2359315));
   Set_ c16_p43_p45 (S32 16 (I 2818093));
   Set_ c16_p11_p30 (S32 16 (I 720926));
   Set_ c16_p23_p43 (S32 16 (I 1507371));
   Set_ c16_n34_n07 (S32 16 (I (-2162695)));
   Set_ c16_n36_n45 (S32 16 (I (-2293805)));
   Set_ c16_p19_n11 (S32 16 (I 1310709));
   Set_ c16_p44_p41 (S32 16 (I 2883625));
   Set_ c16_n02_p27 (S32 16 (I (-131045)));
   Set_ c16_n45_n30 (S32 16 (I (-2883614)));
   Set_ c16_n15_n39 (S32 16 (I (-917543)));
   Set_ c16_p11_p41 (S32 16 (I 720937));
   Set_ c16_n45_n27 (S32 16 (I (-2883611)));
   Set_ c16_p07_n30 (S32 16 (I 524258));
   Set_ c16_p43_p39 (S32 16 (I 2818087));
   Set_ c16_n23_p15 (S32 16 (I (-1507313)));
   Set_ c16_n34_n45 (S32 16 (I (-2162733)));
   Set_ c16_p36_p02 (S32 16 (I 2359298));
   Set_ c16_p19_p44 (S32 16 (I 1245228));
   Set_ c16_n02_p39 (S32 16 (I (-131033)));
   Set_ c16_n36_n41 (S32 16 (I (-2293801)));
   Set_ c16_p43_p07 (S32 16 (I 2818055));
   Set_ c16_n11_p34 (S32 16 (I (-720862)));
   Set_ c16_n30_n44 (S32 16 (I (-1900588)));
   Set_ c16_p45_p15 (S32 16 (I 2949135));
   Set_ c16_n19_p27 (S32 16 (I (-1245157)));
   Set_ c16_n23_n45 (S32 16 (I (-1441837)));
   Set_ c16_n15_p36 (S32 16 (I (-983004)));
   Set_ c16_n11_n45 (S32 16 (I (-655405)));
   Set_ c16_p34_p39 (S32 16 (I 2228263));
   Set_ c16_n45_n19 (S32 16 (I (-2883603)));
   Set_ c16_p41_n07 (S32 16 (I 2752505));
   Set_ c16_n23_p30 (S32 16 (I (-1507298)));
   Set_ c16_n02_n44 (S32 16 (I (-65580)));
   Set_ c16_p27_p43 (S32 16 (I 1769515));
   Set_ c16_n27_p34 (S32 16 (I (-1769438)));
   Set_ c16_p19_n39 (S32 16 (I 1310681));
   Set_ c16_n11_p43 (S32 16 (I (-720853)));
   Set_ c16_p02_n45 (S32 16 (I 196563));
   Set_ c16_p07_p45 (S32 16 (I 458797));
   Set_ c16_n15_n44 (S32 16 (I (-917548)));
   Set_ c16_p23_p41 (S32 16 (I 1507369));
   Set_ c16_n30_n36 (S32 16 (I (-1900580)))]
  ++ [Set_ c16_n36_p30 (S32 16 (I (-2359266)));
   Set_ c16_p41_n23 (S32 16 (I 2752489));
   Set_ c16_n44_p15 (S32 16 (I (-2883569)));
   Set_ c16_p45_n07 (S32 16 (I 3014649));
   Set_ c16_n45_n02 (S32 16 (I (-2883586)));
   Set_ c16_p43_p11 (S32 16 (I 2818059));
   Set_ c16_n39_n19 (S32 16 (I (-2490387)));
   Set_ c16_p34_p27 (S32 16 (I 2228251));
   Set_ c16_n43_p27 (S32 16 (I (-2818021)));
   Set_ c16_p44_n02 (S32 16 (I 2949118));
   Set_ c16_n30_n23 (S32 16 (I (-1900567)));
   Set_ c16_p07_p41 (S32 16 (I 458793));
   Set_ c16_p19_n45 (S32 16 (I 1310675));
   Set_ c16_n39_p34 (S32 16 (I (-2555870)));
   Set_ c16_p45_n11 (S32 16 (I 3014645));
   Set_ c16_n36_n15 (S32 16 (I (-2293775)));
   Set_ c16_n45_p23 (S32 16 (I (-2949097)));
   Set_ c16_p27_p19 (S32 16 (I 1769491));
   Set_ c16_p15_n45 (S32 16 (I 1048531));
   Set_ c16_n44_p30 (S32 16 (I (-2883554)));
   Set_ c16_p34_p11 (S32 16 (I 2228235));
   Set_ c16_p07_n43 (S32 16 (I 524245));
   Set_ c16_n41_p36 (S32 16 (I (-2686940)));
   Set_ c16_p39_p02 (S32 16 (I 2555906));
   Set_ c16_n44_p19 (S32 16 (I (-2883565)));
   Set_ c16_n02_p36 (S32 16 (I (-131036)));
   Set_ c16_p45_n34 (S32 16 (I 3014622));
   Set_ c16_n15_n23 (S32 16 (I (-917527)));
   Set_ c16_n39_p43 (S32 16 (I (-2555861)));
   Set_ c16_p30_p07 (S32 16 (I 1966087));
   Set_ c16_p27_n45 (S32 16 (I 1834963));
   Set_ c16_n41_p11 (S32 16 (I (-2686965)));
   Set_ c16_n39_p15 (S32 16 (I (-2555889)));
   Set_ c16_n30_p45 (S32 16 (I (-1966035)));
   Set_ c16_p27_p02 (S32 16 (I 1769474));
   Set_ c16_p41_n44 (S32 16 (I 2752468));
   Set_ c16_n11_n19 (S32 16 (I (-655379)));
   Set_ c16_n45_p36 (S32 16 (I (-2949084)));
   Set_ c16_n07_p34 (S32 16 (I (-458718)));
   Set_ c16_p43_n23 (S32 16 (I 2883561));
   Set_ c16_n30_p11 (S32 16 (I (-1966069)));
   Set_ c16_n45_p43 (S32 16 (I (-2949077)));
   Set_ c16_n19_p36 (S32 16 (I (-1245148)));
   Set_ c16_p23_n02 (S32 16 (I 1572862));
   Set_ c16_p45_n39 (S32 16 (I 3014617));
   Set_ c16_p27_n41 (S32 16 (I 1834967));
   Set_ c16_n15_n07 (S32 16 (I (-917511)));
   Set_ c16_n44_p34 (S32 16 (I (-2883550)));
   Set_ c16_n19_p07 (S32 16 (I (-1245177)));
   Set_ c16_n39_p30 (S32 16 (I (-2555874)));
   Set_ c16_n45_p44 (S32 16 (I (-2949076)));
   Set_ c16_n36_p43 (S32 16 (I (-2359253)));
   Set_ c16_n15_p27 (S32 16 (I (-983013)));
   Set_ c16_p11_p02 (S32 16 (I 720898));
   Set_ c16_p34_n23 (S32 16 (I 2293737));
   Set_ c16_p45_n41 (S32 16 (I 3014615));
   Set_ c16_n07_p02 (S32 16 (I (-458750)));
   Set_ c16_n15_p11 (S32 16 (I (-983029)));
   Set_ c16_n23_p19 (S32 16 (I (-1507309)));
   Set_ c16_n30_p27 (S32 16 (I (-1966053)));
   Set_ c16_n36_p34 (S32 16 (I (-2359262)));
   Set_ c16_n41_p39 (S32 16 (I (-2686937)));
   Set_ c16_n44_p43 (S32 16 (I (-2883541)));
   Set_ c16_n45_p45 (S32 16 (I (-2949075)))]
  ++ [Set_ c16_p35_p40 (S32 16 (I 2293800));
   Set_ c16_p21_p29 (S32 16 (I 1376285));
   Set_ c16_p04_p13 (S32 16 (I 262157));
   Set_ c16_p29_p43 (S32 16 (I 1900587));
   Set_ c16_n21_p04 (S32 16 (I (-1376252)));
   Set_ c16_n45_n40 (S32 16 (I (-2883624)));
   Set_ c16_n13_n35 (S32 16 (I (-786467)));
   Set_ c16_p04_p40 (S32 16 (I 262184));
   Set_ c16_n43_n35 (S32 16 (I (-2752547)));
   Set_ c16_p29_n13 (S32 16 (I 1966067));
   Set_ c16_p21_p45 (S32 16 (I 1376301));
   Set_ c16_n21_p35 (S32 16 (I (-1376221)));
   Set_ c16_p04_n43 (S32 16 (I 327637));
   Set_ c16_p13_p45 (S32 16 (I 852013));
   Set_ c16_n29_n40 (S32 16 (I (-1835048)));
   Set_ c16_n40_p29 (S32 16 (I (-2621411)));
   Set_ c16_p45_n13 (S32 16 (I 3014643));
   Set_ c16_n43_n04 (S32 16 (I (-2752516)));
   Set_ c16_p35_p21 (S32 16 (I 2293781));
   Set_ c16_n45_p21 (S32 16 (I (-2949099)));
   Set_ c16_p13_p29 (S32 16 (I 851997));
   Set_ c16_p35_n43 (S32 16 (I 2359253));
   Set_ c16_n40_p04 (S32 16 (I (-2621436)));
   Set_ c16_n35_p13 (S32 16 (I (-2293747)));
   Set_ c16_n40_p45 (S32 16 (I (-2621395)));
   Set_ c16_p04_p21 (S32 16 (I 262165));
   Set_ c16_p43_n29 (S32 16 (I 2883555));
   Set_ c16_n13_p04 (S32 16 (I (-851964)));
   Set_ c16_n29_p21 (S32 16 (I (-1900523)));
   Set_ c16_n40_p35 (S32 16 (I (-2621405)));
   Set_ c16_p38_p44 (S32 16 (I 2490412));
   Set_ c16_p09_p25 (S32 16 (I 589849));
   Set_ c16_n09_p38 (S32 16 (I (-589786)));
   Set_ c16_n25_n44 (S32 16 (I (-1572908)));
   Set_ c16_n44_p25 (S32 16 (I (-2883559)));
   Set_ c16_p38_p09 (S32 16 (I 2490377));
   Set_ c16_n25_p09 (S32 16 (I (-1638391)));
   Set_ c16_n44_p38 (S32 16 (I (-2883546)));
   Set_ c16_p17_p42 (S32 16 (I 1114154));
   Set_ c16_n42_p17 (S32 16 (I (-2752495)));
   Set_ c16_p32_p32 (S32 16 (I 2097184));
   Set_ c16_n32_p32 (S32 16 (I (-2097120)));
   Set_ c32_rnd (S32 16 (I 16));
   SetI 0 (I 5)]
  ++ loop 2 (fun i =>
    [Set_ (in00 + i) (Ld 16 (16 * i));
     Set_ (in01 + i) (Ld 16 (16 * i + 32));
     Set_ (in02 + i) (Ld 16 (16 * i + 64));
     Set_ (in03 + i) (Ld 16 (16 * i + 96));
     Set_ (in04 + i) (Ld 16 (16 * i + 128));
     Set_ (in05 + i) (Ld 16 (16 * i + 160));
     Set_ (in06 + i) (Ld 16 (16 * i + 192));
     Set_ (in07 + i) (Ld 16 (16 * i + 224));
     Set_ (in08 + i) (Ld 16 (16 * i + 256));
     Set_ (in09 + i) (Ld 16 (16 * i + 288));
     Set_ (in10 + i) (Ld 16 (16 * i + 320));
     Set_ (in11 + i) (Ld 16 (16 * i + 352));
     Set_ (in12 + i) (Ld 16 (16 * i + 384));
     Set_ (in13 + i) (Ld 16 (16 * i + 416));
     Set_ (in14 + i) (Ld 16 (16 * i + 448));
     Set_ (in15 + i) (Ld 16 (16 * i + 480));
     Set_ (in16 + i) (Ld 16 (16 * i + 512));
     Set_ (in17 + i) (Ld 16 (16 * i + 544));
     Set_ (in18 + i) (Ld 16 (16 * i + 576));
     Set_ (in19 + i) (Ld 16 (16 * i + 608));
     Set_ (in20 + i) (Ld 16 (16 * i + 640));
     Set_ (in21 + i) (Ld 16 (16 * i + 672));
     Set_ (in22 + i) (Ld 16 (16 * i + 704));
     Set_ (in23 + i) (Ld 16 (16 * i + 736));
     Set_ (in24 + i) (Ld 16 (16 * i + 768));
     Set_ (in25 + i) (Ld 16 (16 * i + 800));
     Set_ (in26 + i) (Ld 16 (16 * i + 832));
     Set_ (in27 + i) (Ld 16 (16 * i + 864));
     Set_ (in28 + i) (Ld 16 (16 * i + 896));
     Set_ (in29 + i) (Ld 16 (16 * i + 928));
     Set_ (in30 + i) (Ld 16 (16 * i + 960));
     Set_ (in31 + i) (Ld 16 (16 * i + 992))])
  ++ loop 2 (fun pass =>
    loop 2 (fun part =>
      [Set_ T_00_00A (lo16 (R (in01 + part)) (R (in03 + part)));
       Set_ T_00_00B (hi16 (R (in01 + part)) (R (in03 + part)));
       Set_ T_00_01A (lo16 (R (in05 + part)) (R (in07 + part)));
       Set_ T_00_01B (hi16 (R (in05 + part)) (R (in07 + part)));
       Set_ T_00_02A (lo16 (R (in09 + part)) (R (in11 + part)));
       Set_ T_00_02B (hi16 (R (in09 + part)) (R (in11 + part)));
       Set_ T_00_03A (lo16 (R (in13 + part)) (R (in15 + part)));
       Set_ T_00_03B (hi16 (R (in13 + part)) (R (in15 + part)));
       Set_ T_00_04A (lo16 (R (in17 + part)) (R (in19 + part)));
       Set_ T_00_04B (hi16 (R (in17 + part)) (R (in19 + part)));
       Set_ T_00_05A (lo16 (R (in21 + part)) (R (in23 + part)));
       Set_ T_00_05B (hi16 (R (in21 + part)) (R (in23 + part)));
       Set_ T_00_06A (lo16 (R (in25 + part)) (R (in27 + part)));
       Set_ T_00_06B (hi16 (R (in25 + part)) (R (in27 + part)));
       Set_ T_00_07A (lo16 (R (in29 + part)) (R (in31 + part)));
       Set_ T_00_07B (hi16 (R (in29 + part)) (R (in31 + part)));
       Set_ T_00_08A (lo16 (R (in02 + part)) (R (in06 + part)));
       Set_ T_00_08B (hi16 (R (in02 + part)) (R (in06 + part)));
       Set_ T_00_09A (lo16 (R (in10 + part)) (R (in14 + part)));
       Set_ T_00_09B (hi16 (R (in10 + part)) (R (in14 + part)));
       Set_ T_00_10A (lo16 (R (in18 + part)) (R (in22 + part)));
       Set_ T_00_10B (hi16 (R (in18 + part)) (R (in22 + part)));
       Set_ T_00_11A (lo16 (R (in26 + part)) (R (in30 + part)));
       Set_ T_00_11B (hi16 (R (in26 + part)) (R (in30 + part)));
       Set_ T_00_12A (lo16 (R (in04 + part)) (R (in12 + part)));
       Set_ T_00_12B (hi16 (R (in04 + part)) (R (in12 + part)));
       Set_ T_00_13A (lo16 (R (in20 + part)) (R (in28 + part)));
       Set_ T_00_13B (hi16 (R (in20 + part)) (R (in28 + part)));
       Set_ T_00_14A (lo16 (R (in08 + part)) (R (in24 + part)));
       Set_ T_00_14B (hi16 (R (in08 + part)) (R (in24 + part)));
       Set_ T_00_15A (lo16 (R (in00 + part)) (R (in16 + part)));
       Set_ T_00_15B (hi16 (R (in00 + part)) (R (in16 + part)));
       Set_ T00 (add32 (madd (R T_00_00A) (R c16_p45_p45)) (madd (R T_00_01A) (R c16_p43_p44)));
       Set_ T01 (add32 (madd (R T_00_02A) (R c16_p39_p41)) (madd (R T_00_03A) (R c16_p34_p36)));
       Set_ T02 (add32 (madd (R T_00_04A) (R c16_p27_p30)) (madd (R T_00_05A) (R c16_p19_p23)));
       Set_ T03 (add32 (madd (R T_00_06A) (R c16_p11_p15)) (madd (R T_00_07A) (R c16_p02_p07)));
       Set_ O00A (add32 (add32 (R T00) (R T01)) (add32 (R T02) (R T03)));
       Set_ T00 (add32 (madd (R T_00_00A) (R c16_p41_p45)) (madd (R T_00_01A) (R c16_p23_p34)));
       Set_ T01 (add32 (madd (R T_00_02A) (R c16_n02_p11)) (madd (R T_00_03A) (R c16_n27_n15)));
       Set_ T02 (add32 (madd (R T_00_04A) (R c16_n43_n36)) (madd (R T_00_05A) (R c16_n44_n45)));
       Set_ T03 (add32 (madd (R T_00_06A) (R c16_n30_n39)) (madd (R T_00_07A) (R c16_n07_n19)));
       Set_ O01A (add32 (add32 (R T00) (R T01)) (add32 (R T02) (R T03)));
       Set_ T00 (add32 (madd (R T_00_00A) (R c16_p34_p44)) (madd (R T_00_01A) (R c16_n07_p15)));
       Set_ T01 (add32 (madd (R T_00_02A) (R c16_n41_n27)) (madd (R T_00_03A) (R c16_n39_n45)));
       Set_ T02 (add32 (madd (R T_00_04A) (R c16_n02_n23)) (madd (R T_00_05A) (R c16_p36_p19)));
       Set_ T03 (add32 (madd (R T_00_06A) (R c16_p43_p45)) (madd (R T_00_07A) (R c16_p11_p30)));
       Set_ O02A (add32 (add32 (R T00) (R T01)) (add32 (R T02) (R T03)));
       Set_ T00 (add32 (madd (R T_00_00A) (R c16_p23_p43)) (madd (R T_00_01A) (R c16_n34_n07)));
       Set_ T01 (add32 (madd (R T_00_02A) (R c16_n36_n45)) (madd (R T_00_03A) (R c16_p19_n11)));
       Set_ T02 (add32 (madd (R T_00_04A) (R c16_p44_p41)) (madd (R T_00_05A) (R c16_n02_p27)));
       Set_ T03 (add32 (madd (R T_00_06A) (R c16_n45_n30)) (madd (R T_00_07A) (R c16_n15_n39)));
       Set_ O03A (add32 (add32 (R T00) (R T01)) (add32 (R T02) (R T03)));
       Set_ T00 (add32 (madd (R T_00_00A) (R c16_p11_p41)) (madd (R T_00_01A) (R c16_n45_n27)));
       Set_ T01 (add32 (madd (R T_00_02A) (R c16_p07_n30)) (madd (R T_00_03A) (R c16_p43_p39)));
       Set_ T02 (add32 (madd (R T_00_04A) (R c16_n23_p15)) (madd (R T_00_05A) (R c16_n34_n45)));
       Set_ T03 (add32 (madd (R T_00_06A) (R c16_p36_p02)) (madd (R T_00_07A) (R c16_p19_p44)));
       Set_ O04A (add32 (add32 (R T00) (R T01)) (add32 (R T02) (R T03)));
       Set_ T00 (add32 (madd (R T_00_00A) (R c16_n02_p39)) (madd (R T_00_01A) (R c16_n36_n41)));
       Set_ T01 (add32 (madd (R T_00_02A) (R c16_p43_p07)) (madd (R T_00_03A) (R c16_n11_p34)));
       Set_ T02 (add32 (madd (R T_00_04A) (R c16_n30_n44)) (madd (R T_00_05A) (R c16_p45_p15)));
       Set_ T03 (add32 (madd (R T_00_06A) (R c16_n19_p27)) (madd (R T_00_07A) (R c16_n23_n45)));
       Set_ O05A (add32 (add32 (R T00) (R T01)) (add32 (R T02) (R T03)));
       Set_ T00 (add32 (madd (R T_00_00A) (R c16_n15_p36)) (madd (R T_00_01A) (R c16_n11_n45)));
       Set_ T01 (add32 (madd (R T_00_02A) (R c16_p34_p39)) (madd (R T_00_03A) (R c16_n45_n19)))]
      ++ [Set_ T02 (add32 (madd (R T_00_04A) (R c16_p41_n07)) (madd (R T_00_05A) (R c16_n23_p30)));
       Set_ T03 (add32 (madd (R T_00_06A) (R c16_n02_n44)) (madd (R T_00_07A) (R c16_p27_p43)));
       Set_ O06A (add32 (add32 (R T00) (R T01)) (add32 (R T02) (R T03)));
       Set_ T00 (add32 (madd (R T_00_00A) (R c16_n27_p34)) (madd (R T_00_01A) (R c16_p19_n39)));
       Set_ T01 (add32 (madd (R T_00_02A) (R c16_n11_p43)) (madd (R T_00_03A) (R c16_p02_n45)));
       Set_ T02 (add32 (madd (R T_00_04A) (R c16_p07_p45)) (madd (R T_00_05A) (R c16_n15_n44)));
       Set_ T03 (add32 (madd (R T_00_06A) (R c16_p23_p41)) (madd (R T_00_07A) (R c16_n30_n36)));
       Set_ O07A (add32 (add32 (R T00) (R T01)) (add32 (R T02) (R T03)));
       Set_ T00 (add32 (madd (R T_00_00A) (R c16_n36_p30)) (madd (R T_00_01A) (R c16_p41_n23)));
       Set_ T01 (add32 (madd (R T_00_02A) (R c16_n44_p15)) (madd (R T_00_03A) (R c16_p45_n07)));
       Set_ T02 (add32 (madd (R T_00_04A) (R c16_n45_n02)) (madd (R T_00_05A) (R c16_p43_p11)));
       Set_ T03 (add32 (madd (R T_00_06A) (R c16_n39_n19)) (madd (R T_00_07A) (R c16_p34_p27)));
       Set_ O08A (add32 (add32 (R T00) (R T01)) (add32 (R T02) (R T03)));
       Set_ T00 (add32 (madd (R T_00_00A) (R c16_n43_p27)) (madd (R T_00_01A) (R c16_p44_n02)));
       Set_ T01 (add32 (madd (R T_00_02A) (R c16_n30_n23)) (madd (R T_00_03A) (R c16_p07_p41)));
       Set_ T02 (add32 (madd (R T_00_04A) (R c16_p19_n45)) (madd (R T_00_05A) (R c16_n39_p34)));
       Set_ T03 (add32 (madd (R T_00_06A) (R c16_p45_n11)) (madd (R T_00_07A) (R c16_n36_n15)));
       Set_ O09A (add32 (add32 (R T00) (R T01)) (add32 (R T02) (R T03)));
       Set_ T00 (add32 (madd (R T_00_00A) (R c16_n45_p23)) (madd (R T_00_01A) (R c16_p27_p19)));
       Set_ T01 (add32 (madd (R T_00_02A) (R c16_p15_n45)) (madd (R T_00_03A) (R c16_n44_p30)));
       Set_ T02 (add32 (madd (R T_00_04A) (R c16_p34_p11)) (madd (R T_00_05A) (R c16_p07_n43)));
       Set_ T03 (add32 (madd (R T_00_06A) (R c16_n41_p36)) (madd (R T_00_07A) (R c16_p39_p02)));
       Set_ O10A (add32 (add32 (R T00) (R T01)) (add32 (R T02) (R T03)));
       Set_ T00 (add32 (madd (R T_00_00A) (R c16_n44_p19)) (madd (R T_00_01A) (R c16_n02_p36)));
       Set_ T01 (add32 (madd (R T_00_02A) (R c16_p45_n34)) (madd (R T_00_03A) (R c16_n15_n23)));
       Set_ T02 (add32 (madd (R T_00_04A) (R c16_n39_p43)) (madd (R T_00_05A) (R c16_p30_p07)));
       Set_ T03 (add32 (madd (R T_00_06A) (R c16_p27_n45)) (madd (R T_00_07A) (R c16_n41_p11)));
       Set_ O11A (add32 (add32 (R T00) (R T01)) (add32 (R T02) (R T03)));
       Set_ T00 (add32 (madd (R T_00_00A) (R c16_n39_p15)) (madd (R T_00_01A) (R c16_n30_p45)));
       Set_ T01 (add32 (madd (R T_00_02A) (R c16_p27_p02)) (madd (R T_00_03A) (R c16_p41_n44)));
       Set_ T02 (add32 (madd (R T_00_04A) (R c16_n11_n19)) (madd (R T_00_05A) (R c16_n45_p36)));
       Set_ T03 (add32 (madd (R T_00_06A) (R c16_n07_p34)) (madd (R T_00_07A) (R c16_p43_n23)));
       Set_ O12A (add32 (add32 (R T00) (R T01)) (add32 (R T02) (R T03)));
       Set_ T00 (add32 (madd (R T_00_00A) (R c16_n30_p11)) (madd (R T_00_01A) (R c16_n45_p43)));
       Set_ T01 (add32 (madd (R T_00_02A) (R c16_n19_p36)) (madd (R T_00_03A) (R c16_p23_n02)));
       Set_ T02 (add32 (madd (R T_00_04A) (R c16_p45_n39)) (madd (R T_00_05A) (R c16_p27_n41)));
       Set_ T03 (add32 (madd (R T_00_06A) (R c16_n15_n07)) (madd (R T_00_07A) (R c16_n44_p34)));
       Set_ O13A (add32 (add32 (R T00) (R T01)) (add32 (R T02) (R T03)));
       Set_ T00 (add32 (madd (R T_00_00A) (R c16_n19_p07)) (madd (R T_00_01A) (R c16_n39_p30)));
       Set_ T01 (add32 (madd (R T_00_02A) (R c16_n45_p44)) (madd (R T_00_03A) (R c16_n36_p43)));
       Set_ T02 (add32 (madd (R T_00_04A) (R c16_n15_p27)) (madd (R T_00_05A) (R c16_p11_p02)));
       Set_ T03 (add32 (madd (R T_00_06A) (R c16_p34_n23)) (madd (R T_00_07A) (R c16_p45_n41)));
       Set_ O14A (add32 (add32 (R T00) (R T01)) (add32 (R T02) (R T03)));
       Set_ T00 (add32 (madd (R T_00_00A) (R c16_n07_p02)) (madd (R T_00_01A) (R c16_n15_p11)));
       Set_ T01 (add32 (madd (R T_00_02A) (R c16_n23_p19)) (madd (R T_00_03A) (R c16_n30_p27)));
       Set_ T02 (add32 (madd (R T_00_04A) (R c16_n36_p34)) (madd (R T_00_05A) (R c16_n41_p39)));
       Set_ T03 (add32 (madd (R T_00_06A) (R c16_n44_p43)) (madd (R T_00_07A) (R c16_n45_p45)));
       Set_ O15A (add32 (add32 (R T00) (R T01)) (add32 (R T02) (R T03)));
       Set_ T00 (add32 (madd (R T_00_00B) (R c16_p45_p45)) (madd (R T_00_01B) (R c16_p43_p44)));
       Set_ T01 (add32 (madd (R T_00_02B) (R c16_p39_p41)) (madd (R T_00_03B) (R c16_p34_p36)));
       Set_ T02 (add32 (madd (R T_00_04B) (R c16_p27_p30)) (madd (R T_00_05B) (R c16_p19_p23)));
       Set_ T03 (add32 (madd (R T_00_06B) (R c16_p11_p15)) (madd (R T_00_07B) (R c16_p02_p07)));
       Set_ O00B (add32 (add32 (R T00) (R T01)) (add32 (R T02) (R T03)));
       Set_ T00 (add32 (madd (R T_00_00B) (R c16_p41_p45)) (madd (R T_00_01B) (R c16_p23_p34)));
       Set_ T01 (add32 (madd (R T_00_02B) (R c16_n02_p11)) (madd (R T_00_03B) (R c16_n27_n15)));
       Set_ T02 (add32 (madd (R T_00_04B) (R c16_n43_n36)) (madd (R T_00_05B) (R c16_n44_n45)));
       Set_ T03 (add32 (madd (R T_00_06B) (R c16_n30_n39)) (madd (R T_00_07B) (R c16_n07_n19)));
       Set_ O01B (add32 (add32 (R T00) (R T01)) (add32 (R T02) (R T03)));
       Set_ T00 (add32 (madd (R T_00_00B) (R c16_p34_p44)) (madd (R T_00_01B) (R c16_n07_p15)));
       Set_ T01 (add32 (madd (R T_00_02B) (R c16_n41_n27)) (madd (R T_00_03B) (R c16_n39_n45)));
       Set_ T02 (add32 (madd (R T_00_04B) (R c16_n02_n23)) (madd (R T_00_05B) (R c16_p36_p19)));
       Set_ T03 (add32 (madd (R T_00_06B) (R c16_p43_p45)) (madd (R T_00_07B) (R c16_p11_p30)));
       Set_ O02B (add32 (add32 (R T00) (R T01)) (add32 (R T02) (R T03)));
       Set_ T00 (add32 (madd (R T_00_00B) (R c16_p23_p43)) (madd (R T_00_01B) (R c16_n34_n07)))]
      ++ [Set_ T01 (add32 (madd (R T_00_02B) (R c16_n36_n45)) (madd (R T_00_03B) (R c16_p19_n11)));
       Set_ T02 (add32 (madd (R T_00_04B) (R c16_p44_p41)) (madd (R T_00_05B) (R c16_n02_p27)));
       Set_ T03 (add32 (madd (R T_00_06B) (R c16_n45_n30)) (madd (R T_00_07B) (R c16_n15_n39)));
       Set_ O03B (add32 (add32 (R T00) (R T01)) (add32 (R T02) (R T03)));
       Set_ T00 (add32 (madd (R T_00_00B) (R c16_p11_p41)) (madd (R T_00_01B) (R c16_n45_n27)));
       Set_ T01 (add32 (madd (R T_00_02B) (R c16_p07_n30)) (madd (R T_00_03B) (R c16_p43_p39)));
       Set_ T02 (add32 (madd (R T_00_04B) (R c16_n23_p15)) (madd (R T_00_05B) (R c16_n34_n45)));
       Set_ T03 (add32 (madd (R T_00_06B) (R c16_p36_p02)) (madd (R T_00_07B) (R c16_p19_p44)));
       Set_ O04B (add32 (add32 (R T00) (R T01)) (add32 (R T02) (R T03)));
       Set_ T00 (add32 (madd (R T_00_00B) (R c16_n02_p39)) (madd (R T_00_01B) (R c16_n36_n41)));
       Set_ T01 (add32 (madd (R T_00_02B) (R c16_p43_p07)) (madd (R T_00_03B) (R c16_n11_p34)));
       Set_ T02 (add32 (madd (R T_00_04B) (R c16_n30_n44)) (madd (R T_00_05B) (R c16_p45_p15)));
       Set_ T03 (add32 (madd (R T_00_06B) (R c16_n19_p27)) (madd (R T_00_07B) (R c16_n23_n45)));
       Set_ O05B (add32 (add32 (R T00) (R T01)) (add32 (R T02) (R T03)));
       Set_ T00 (add32 (madd (R T_00_00B) (R c16_n15_p36)) (madd (R T_00_01B) (R c16_n11_n45)));
       Set_ T01 (add32 (madd (R T_00_02B) (R c16_p34_p39)) (madd (R T_00_03B) (R c16_n45_n19)));
       Set_ T02 (add32 (madd (R T_00_04B) (R c16_p41_n07)) (madd (R T_00_05B) (R c16_n23_p30)));
       Set_ T03 (add32 (madd (R T_00_06B) (R c16_n02_n44)) (madd (R T_00_07B) (R c16_p27_p43)));
       Set_ O06B (add32 (add32 (R T00) (R T01)) (add32 (R T02) (R T03)));
       Set_ T00 (add32 (madd (R T_00_00B) (R c16_n27_p34)) (madd (R T_00_01B) (R c16_p19_n39)));
       Set_ T01 (add32 (madd (R T_00_02B) (R c16_n11_p43)) (madd (R T_00_03B) (R c16_p02_n45)));
       Set_ T02 (add32 (madd (R T_00_04B) (R c16_p07_p45)) (madd (R T_00_05B) (R c16_n15_n44)));
       Set_ T03 (add32 (madd (R T_00_06B) (R c16_p23_p41)) (madd (R T_00_07B) (R c16_n30_n36)));
       Set_ O07B (add32 (add32 (R T00) (R T01)) (add32 (R T02) (R T03)));
       Set_ T00 (add32 (madd (R T_00_00B) (R c16_n36_p30)) (madd (R T_00_01B) (R c16_p41_n23)));
       Set_ T01 (add32 (madd (R T_00_02B) (R c16_n44_p15)) (madd (R T_00_03B) (R c16_p45_n07)));
       Set_ T02 (add32 (madd (R T_00_04B) (R c16_n45_n02)) (madd (R T_00_05B) (R c16_p43_p11)));
       Set_ T03 (add32 (madd (R T_00_06B) (R c16_n39_n19)) (madd (R T_00_07B) (R c16_p34_p27)));
       Set_ O08B (add32 (add32 (R T00) (R T01)) (add32 (R T02) (R T03)));
       Set_ T00 (add32 (madd (R T_00_00B) (R c16_n43_p27)) (madd (R T_00_01B) (R c16_p44_n02)));
       Set_ T01 (add32 (madd (R T_00_02B) (R c16_n30_n23)) (madd (R T_00_03B) (R c16_p07_p41)));
       Set_ T02 (add32 (madd (R T_00_04B) (R c16_p19_n45)) (madd (R T_00_05B) (R c16_n39_p34)));
       Set_ T03 (add32 (madd (R T_00_06B) (R c16_p45_n11)) (madd (R T_00_07B) (R c16_n36_n15)));
       Set_ O09B (add32 (add32 (R T00) (R T01)) (add32 (R T02) (R T03)));
       Set_ T00 (add32 (madd (R T_00_00B) (R c16_n45_p23)) (madd (R T_00_01B) (R c16_p27_p19)));
       Set_ T01 (add32 (madd (R T_00_02B) (R c16_p15_n45)) (madd (R T_00_03B) (R c16_n44_p30)));
       Set_ T02 (add32 (madd (R T_00_04B) (R c16_p34_p11)) (madd (R T_00_05B) (R c16_p07_n43)));
       Set_ T03 (add32 (madd (R T_00_06B) (R c16_n41_p36)) (madd (R T_00_07B) (R c16_p39_p02)));
       Set_ O10B (add32 (add32 (R T00) (R T01)) (add32 (R T02) (R T03)));
       Set_ T00 (add32 (madd (R T_00_00B) (R c16_n44_p19)) (madd (R T_00_01B) (R c16_n02_p36)));
       Set_ T01 (add32 (madd (R T_00_02B) (R c16_p45_n34)) (madd (R T_00_03B) (R c16_n15_n23)));
       Set_ T02 (add32 (madd (R T_00_04B) (R c16_n39_p43)) (madd (R T_00_05B) (R c16_p30_p07)));
       Set_ T03 (add32 (madd (R T_00_06B) (R c16_p27_n45)) (madd (R T_00_07B) (R c16_n41_p11)));
       Set_ O11B (add32 (add32 (R T00) (R T01)) (add32 (R T02) (R T03)));
       Set_ T00 (add32 (madd (R T_00_00B) (R c16_n39_p15)) (madd (R T_00_01B) (R c16_n30_p45)));
       Set_ T01 (add32 (madd (R T_00_02B) (R c16_p27_p02)) (madd (R T_00_03B) (R c16_p41_n44)));
       Set_ T02 (add32 (madd (R T_00_04B) (R c16_n11_n19)) (madd (R T_00_05B) (R c16_n45_p36)));
       Set_ T03 (add32 (madd (R T_00_06B) (R c16_n07_p34)) (madd (R T_00_07B) (R c16_p43_n23)));
       Set_ O12B (add32 (add32 (R T00) (R T01)) (add32 (R T02) (R T03)));
       Set_ T00 (add32 (madd (R T_00_00B) (R c16_n30_p11)) (madd (R T_00_01B) (R c16_n45_p43)));
       Set_ T01 (add32 (madd (R T_00_02B) (R c16_n19_p36)) (madd (R T_00_03B) (R c16_p23_n02)));
       Set_ T02 (add32 (madd (R T_00_04B) (R c16_p45_n39)) (madd (R T_00_05B) (R c16_p27_n41)));
       Set_ T03 (add32 (madd (R T_00_06B) (R c16_n15_n07)) (madd (R T_00_07B) (R c16_n44_p34)));
       Set_ O13B (add32 (add32 (R T00) (R T01)) (add32 (R T02) (R T03)));
       Set_ T00 (add32 (madd (R T_00_00B) (R c16_n19_p07)) (madd (R T_00_01B) (R c16_n39_p30)));
       Set_ T01 (add32 (madd (R T_00_02B) (R c16_n45_p44)) (madd (R T_00_03B) (R c16_n36_p43)));
       Set_ T02 (add32 (madd (R T_00_04B) (R c16_n15_p27)) (madd (R T_00_05B) (R c16_p11_p02)));
       Set_ T03 (add32 (madd (R T_00_06B) (R c16_p34_n23)) (madd (R T_00_07B) (R c16_p45_n41)));
       Set_ O14B (add32 (add32 (R T00) (R T01)) (add32 (R T02) (R T03)));
       Set_ T00 (add32 (madd (R T_00_00B) (R c16_n07_p02)) (madd (R T_00_01B) (R c16_n15_p11)));
       Set_ T01 (add32 (madd (R T_00_02B) (R c16_n23_p19)) (madd (R T_00_03B) (R c16_n30_p27)));
       Set_ T02 (add32 (madd (R T_00_04B) (R c16_n36_p34)) (madd (R T_00_05B) (R c16_n41_p39)));
       Set_ T03 (add32 (madd (R T_00_06B) (R c16_n44_p43)) (madd (R T_00_07B) (R c16_n45_p45)));
       Set_ O15B (add32 (add32 (R T00) (R T01)) (add32 (R T02) (R T03)))]
      ++ [Set_ T00_2 (add32 (madd (R T_00_08A) (R c16_p43_p45)) (madd (R T_00_09A) (R c16_p35_p40)));
       Set_ T01_2 (add32 (madd (R T_00_10A) (R c16_p21_p29)) (madd (R T_00_11A) (R c16_p04_p13)));
       Set_ EO0A (add32 (R T00_2) (R T01_2));
       Set_ T00_2 (add32 (madd (R T_00_08A) (R c16_p29_p43)) (madd (R T_00_09A) (R c16_n21_p04)));
       Set_ T01_2 (add32 (madd (R T_00_10A) (R c16_n45_n40)) (madd (R T_00_11A) (R c16_n13_n35)));
       Set_ EO1A (add32 (R T00_2) (R T01_2));
       Set_ T00_2 (add32 (madd (R T_00_08A) (R c16_p04_p40)) (madd (R T_00_09A) (R c16_n43_n35)));
       Set_ T01_2 (add32 (madd (R T_00_10A) (R c16_p29_n13)) (madd (R T_00_11A) (R c16_p21_p45)));
       Set_ EO2A (add32 (R T00_2) (R T01_2));
       Set_ T00_2 (add32 (madd (R T_00_08A) (R c16_n21_p35)) (madd (R T_00_09A) (R c16_p04_n43)));
       Set_ T01_2 (add32 (madd (R T_00_10A) (R c16_p13_p45)) (madd (R T_00_11A) (R c16_n29_n40)));
       Set_ EO3A (add32 (R T00_2) (R T01_2));
       Set_ T00_2 (add32 (madd (R T_00_08A) (R c16_n40_p29)) (madd (R T_00_09A) (R c16_p45_n13)));
       Set_ T01_2 (add32 (madd (R T_00_10A) (R c16_n43_n04)) (madd (R T_00_11A) (R c16_p35_p21)));
       Set_ EO4A (add32 (R T00_2) (R T01_2));
       Set_ T00_2 (add32 (madd (R T_00_08A) (R c16_n45_p21)) (madd (R T_00_09A) (R c16_p13_p29)));
       Set_ T01_2 (add32 (madd (R T_00_10A) (R c16_p35_n43)) (madd (R T_00_11A) (R c16_n40_p04)));
       Set_ EO5A (add32 (R T00_2) (R T01_2));
       Set_ T00_2 (add32 (madd (R T_00_08A) (R c16_n35_p13)) (madd (R T_00_09A) (R c16_n40_p45)));
       Set_ T01_2 (add32 (madd (R T_00_10A) (R c16_p04_p21)) (madd (R T_00_11A) (R c16_p43_n29)));
       Set_ EO6A (add32 (R T00_2) (R T01_2));
       Set_ T00_2 (add32 (madd (R T_00_08A) (R c16_n13_p04)) (madd (R T_00_09A) (R c16_n29_p21)));
       Set_ T01_2 (add32 (madd (R T_00_10A) (R c16_n40_p35)) (madd (R T_00_11A) (R c16_n45_p43)));
       Set_ EO7A (add32 (R T00_2) (R T01_2));
       Set_ T00_2 (add32 (madd (R T_00_08B) (R c16_p43_p45)) (madd (R T_00_09B) (R c16_p35_p40)));
       Set_ T01_2 (add32 (madd (R T_00_10B) (R c16_p21_p29)) (madd (R T_00_11B) (R c16_p04_p13)));
       Set_ EO0B (add32 (R T00_2) (R T01_2));
       Set_ T00_2 (add32 (madd (R T_00_08B) (R c16_p29_p43)) (madd (R T_00_09B) (R c16_n21_p04)));
       Set_ T01_2 (add32 (madd (R T_00_10B) (R c16_n45_n40)) (madd (R T_00_11B) (R c16_n13_n35)));
       Set_ EO1B (add32 (R T00_2) (R T01_2));
       Set_ T00_2 (add32 (madd (R T_00_08B) (R c16_p04_p40)) (madd (R T_00_09B) (R c16_n43_n35)));
       Set_ T01_2 (add32 (madd (R T_00_10B) (R c16_p29_n13)) (madd (R T_00_11B) (R c16_p21_p45)));
       Set_ EO2B (add32 (R T00_2) (R T01_2));
       Set_ T00_2 (add32 (madd (R T_00_08B) (R c16_n21_p35)) (madd (R T_00_09B) (R c16_p04_n43)));
       Set_ T01_2 (add32 (madd (R T_00_10B) (R c16_p13_p45)) (madd (R T_00_11B) (R c16_n29_n40)));
       Set_ EO3B (add32 (R T00_2) (R T01_2));
       Set_ T00_2 (add32 (madd (R T_00_08B) (R c16_n40_p29)) (madd (R T_00_09B) (R c16_p45_n13)));
       Set_ T01_2 (add32 (madd (R T_00_10B) (R c16_n43_n04)) (madd (R T_00_11B) (R c16_p35_p21)));
       Set_ EO4B (add32 (R T00_2) (R T01_2));
       Set_ T00_2 (add32 (madd (R T_00_08B) (R c16_n45_p21)) (madd (R T_00_09B) (R c16_p13_p29)));
       Set_ T01_2 (add32 (madd (R T_00_10B) (R c16_p35_n43)) (madd (R T_00_11B) (R c16_n40_p04)));
       Set_ EO5B (add32 (R T00_2) (R T01_2));
       Set_ T00_2 (add32 (madd (R T_00_08B) (R c16_n35_p13)) (madd (R T_00_09B) (R c16_n40_p45)));
       Set_ T01_2 (add32 (madd (R T_00_10B) (R c16_p04_p21)) (madd (R T_00_11B) (R c16_p43_n29)));
       Set_ EO6B (add32 (R T00_2) (R T01_2));
       Set_ T00_2 (add32 (madd (R T_00_08B) (R c16_n13_p04)) (madd (R T_00_09B) (R c16_n29_p21)));
       Set_ T01_2 (add32 (madd (R T_00_10B) (R c16_n40_p35)) (madd (R T_00_11B) (R c16_n45_p43)));
       Set_ EO7B (add32 (R T00_2) (R T01_2));
       Set_ EEO0A (add32 (madd (R T_00_12A) (R c16_p38_p44)) (madd (R T_00_13A) (R c16_p09_p25)));
       Set_ EEO1A (add32 (madd (R T_00_12A) (R c16_n09_p38)) (madd (R T_00_13A) (R c16_n25_n44)));
       Set_ EEO2A (add32 (madd (R T_00_12A) (R c16_n44_p25)) (madd (R T_00_13A) (R c16_p38_p09)));
       Set_ EEO3A (add32 (madd (R T_00_12A) (R c16_n25_p09)) (madd (R T_00_13A) (R c16_n44_p38)));
       Set_ EEO0B (add32 (madd (R T_00_12B) (R c16_p38_p44)) (madd (R T_00_13B) (R c16_p09_p25)));
       Set_ EEO1B (add32 (madd (R T_00_12B) (R c16_n09_p38)) (madd (R T_00_13B) (R c16_n25_n44)));
       Set_ EEO2B (add32 (madd (R T_00_12B) (R c16_n44_p25)) (madd (R T_00_13B) (R c16_p38_p09)));
       Set_ EEO3B (add32 (madd (R T_00_12B) (R c16_n25_p09)) (madd (R T_00_13B) (R c16_n44_p38)));
       Set_ EEEO0A (madd (R T_00_14A) (R c16_p17_p42));
       Set_ EEEO0B (madd (R T_00_14B) (R c16_p17_p42));
       Set_ EEEO1A (madd (R T_00_14A) (R c16_n42_p17));
       Set_ EEEO1B (madd (R T_00_14B) (R c16_n42_p17));
       Set_ EEEE0A (madd (R T_00_15A) (R c16_p32_p32));
       Set_ EEEE0B (madd (R T_00_15B) (R c16_p32_p32));
       Set_ EEEE1A (madd (R T_00_15A) (R c16_n32_p32));
       Set_ EEEE1B (madd (R T_00_15B) (R c16_n32_p32))]
      ++ [Set_ EEE0A (add32 (R EEEE0A) (R EEEO0A));
       Set_ EEE0B (add32 (R EEEE0B) (R EEEO0B));
       Set_ EEE1A (add32 (R EEEE1A) (R EEEO1A));
       Set_ EEE1B (add32 (R EEEE1B) (R EEEO1B));
       Set_ EEE3A (sub32 (R EEEE0A) (R EEEO0A));
       Set_ EEE3B (sub32 (R EEEE0B) (R EEEO0B));
       Set_ EEE2A (sub32 (R EEEE1A) (R EEEO1A));
       Set_ EEE2B (sub32 (R EEEE1B) (R EEEO1B));
       Set_ EE0A (add32 (R EEE0A) (R EEO0A));
       Set_ EE0B (add32 (R EEE0B) (R EEO0B));
       Set_ EE1A (add32 (R EEE1A) (R EEO1A));
       Set_ EE1B (add32 (R EEE1B) (R EEO1B));
       Set_ EE2A (add32 (R EEE2A) (R EEO2A));
       Set_ EE2B (add32 (R EEE2B) (R EEO2B));
       Set_ EE3A (add32 (R EEE3A) (R EEO3A));
       Set_ EE3B (add32 (R EEE3B) (R EEO3B));
       Set_ EE7A (sub32 (R EEE0A) (R EEO0A));
       Set_ EE7B (sub32 (R EEE0B) (R EEO0B));
       Set_ EE6A (sub32 (R EEE1A) (R EEO1A));
       Set_ EE6B (sub32 (R EEE1B) (R EEO1B));
       Set_ EE5A (sub32 (R EEE2A) (R EEO2A));
       Set_ EE5B (sub32 (R EEE2B) (R EEO2B));
       Set_ EE4A (sub32 (R EEE3A) (R EEO3A));
       Set_ EE4B (sub32 (R EEE3B) (R EEO3B));
       Set_ E0A (add32 (R EE0A) (R EO0A));
       Set_ E0B (add32 (R EE0B) (R EO0B));
       Set_ E1A (add32 (R EE1A) (R EO1A));
       Set_ E1B (add32 (R EE1B) (R EO1B));
       Set_ E2A (add32 (R EE2A) (R EO2A));
       Set_ E2B (add32 (R EE2B) (R EO2B));
       Set_ E3A (add32 (R EE3A) (R EO3A));
       Set_ E3B (add32 (R EE3B) (R EO3B));
       Set_ E4A (add32 (R EE4A) (R EO4A));
       Set_ E4B (add32 (R EE4B) (R EO4B));
       Set_ E5A (add32 (R EE5A) (R EO5A));
       Set_ E5B (add32 (R EE5B) (R EO5B));
       Set_ E6A (add32 (R EE6A) (R EO6A));
       Set_ E6B (add32 (R EE6B) (R EO6B));
       Set_ E7A (add32 (R EE7A) (R EO7A));
       Set_ E7B (add32 (R EE7B) (R EO7B));
       Set_ EFA (sub32 (R EE0A) (R EO0A));
       Set_ EFB (sub32 (R EE0B) (R EO0B));
       Set_ EEA (sub32 (R EE1A) (R EO1A));
       Set_ EEB (sub32 (R EE1B) (R EO1B));
       Set_ EDA (sub32 (R EE2A) (R EO2A));
       Set_ EDB (sub32 (R EE2B) (R EO2B));
       Set_ ECA (sub32 (R EE3A) (R EO3A));
       Set_ ECB (sub32 (R EE3B) (R EO3B));
       Set_ EBA (sub32 (R EE4A) (R EO4A));
       Set_ EBB (sub32 (R EE4B) (R EO4B));
       Set_ EAA (sub32 (R EE5A) (R EO5A));
       Set_ EAB (sub32 (R EE5B) (R EO5B));
       Set_ E9A (sub32 (R EE6A) (R EO6A));
       Set_ E9B (sub32 (R EE6B) (R EO6B));
       Set_ E8A (sub32 (R EE7A) (R EO7A));
       Set_ E8B (sub32 (R EE7B) (R EO7B));
       Set_ T10A (add32 (R E0A) (R c32_rnd));
       Set_ T10B (add32 (R E0B) (R c32_rnd));
       Set_ T11A (add32 (R E1A) (R c32_rnd));
       Set_ T11B (add32 (R E1B) (R c32_rnd));
       Set_ T12A (add32 (R E2A) (R c32_rnd));
       Set_ T12B (add32 (R E2B) (R c32_rnd));
       Set_ T13A (add32 (R E3A) (R c32_rnd));
       Set_ T13B (add32 (R E3B) (R c32_rnd))]
      ++ [Set_ T14A (add32 (R E4A) (R c32_rnd));
       Set_ T14B (add32 (R E4B) (R c32_rnd));
       Set_ T15A (add32 (R E5A) (R c32_rnd));
       Set_ T15B (add32 (R E5B) (R c32_rnd));
       Set_ T16A (add32 (R E6A) (R c32_rnd));
       Set_ T16B (add32 (R E6B) (R c32_rnd));
       Set_ T17A (add32 (R E7A) (R c32_rnd));
       Set_ T17B (add32 (R E7B) (R c32_rnd));
       Set_ T18A (add32 (R E8A) (R c32_rnd));
       Set_ T18B (add32 (R E8B) (R c32_rnd));
       Set_ T19A (add32 (R E9A) (R c32_rnd));
       Set_ T19B (add32 (R E9B) (R c32_rnd));
       Set_ T1AA (add32 (R EAA) (R c32_rnd));
       Set_ T1AB (add32 (R EAB) (R c32_rnd));
       Set_ T1BA (add32 (R EBA) (R c32_rnd));
       Set_ T1BB (add32 (R EBB) (R c32_rnd));
       Set_ T1CA (add32 (R ECA) (R c32_rnd));
       Set_ T1CB (add32 (R ECB) (R c32_rnd));
       Set_ T1DA (add32 (R EDA) (R c32_rnd));
       Set_ T1DB (add32 (R EDB) (R c32_rnd));
       Set_ T1EA (add32 (R EEA) (R c32_rnd));
       Set_ T1EB (add32 (R EEB) (R c32_rnd));
       Set_ T1FA (add32 (R EFA) (R c32_rnd));
       Set_ T1FB (add32 (R EFB) (R c32_rnd));
       Set_ T2_00A (add32 (R T10A) (R O00A));
       Set_ T2_00B (add32 (R T10B) (R O00B));
       Set_ T2_01A (add32 (R T11A) (R O01A));
       Set_ T2_01B (add32 (R T11B) (R O01B));
       Set_ T2_02A (add32 (R T12A) (R O02A));
       Set_ T2_02B (add32 (R T12B) (R O02B));
       Set_ T2_03A (add32 (R T13A) (R O03A));
       Set_ T2_03B (add32 (R T13B) (R O03B));
       Set_ T2_04A (add32 (R T14A) (R O04A));
       Set_ T2_04B (add32 (R T14B) (R O04B));
       Set_ T2_05A (add32 (R T15A) (R O05A));
       Set_ T2_05B (add32 (R T15B) (R O05B));
       Set_ T2_06A (add32 (R T16A) (R O06A));
       Set_ T2_06B (add32 (R T16B) (R O06B));
       Set_ T2_07A (add32 (R T17A) (R O07A));
       Set_ T2_07B (add32 (R T17B) (R O07B));
       Set_ T2_08A (add32 (R T18A) (R O08A));
       Set_ T2_08B (add32 (R T18B) (R O08B));
       Set_ T2_09A (add32 (R T19A) (R O09A));
       Set_ T2_09B (add32 (R T19B) (R O09B));
       Set_ T2_10A (add32 (R T1AA) (R O10A));
       Set_ T2_10B (add32 (R T1AB) (R O10B));
       Set_ T2_11A (add32 (R T1BA) (R O11A));
       Set_ T2_11B (add32 (R T1BB) (R O11B));
       Set_ T2_12A (add32 (R T1CA) (R O12A));
       Set_ T2_12B (add32 (R T1CB) (R O12B));
       Set_ T2_13A (add32 (R T1DA) (R O13A));
       Set_ T2_13B (add32 (R T1DB) (R O13B));
       Set_ T2_14A (add32 (R T1EA) (R O14A));
       Set_ T2_14B (add32 (R T1EB) (R O14B));
       Set_ T2_15A (add32 (R T1FA) (R O15A));
       Set_ T2_15B (add32 (R T1FB) (R O15B));
       Set_ T2_31A (sub32 (R T10A) (R O00A));
       Set_ T2_31B (sub32 (R T10B) (R O00B));
       Set_ T2_30A (sub32 (R T11A) (R O01A));
       Set_ T2_30B (sub32 (R T11B) (R O01B));
       Set_ T2_29A (sub32 (R T12A) (R O02A));
       Set_ T2_29B (sub32 (R T12B) (R O02B));
       Set_ T2_28A (sub32 (R T13A) (R O03A));
       Set_ T2_28B (sub32 (R T13B) (R O03B))]
      ++ [Set_ T2_27A (sub32 (R T14A) (R O04A));
       Set_ T2_27B (sub32 (R T14B) (R O04B));
       Set_ T2_26A (sub32 (R T15A) (R O05A));
       Set_ T2_26B (sub32 (R T15B) (R O05B));
       Set_ T2_25A (sub32 (R T16A) (R O06A));
       Set_ T2_25B (sub32 (R T16B) (R O06B));
       Set_ T2_24A (sub32 (R T17A) (R O07A));
       Set_ T2_24B (sub32 (R T17B) (R O07B));
       Set_ T2_23A (sub32 (R T18A) (R O08A));
       Set_ T2_23B (sub32 (R T18B) (R O08B));
       Set_ T2_22A (sub32 (R T19A) (R O09A));
       Set_ T2_22B (sub32 (R T19B) (R O09B));
       Set_ T2_21A (sub32 (R T1AA) (R O10A));
       Set_ T2_21B (sub32 (R T1AB) (R O10B));
       Set_ T2_20A (sub32 (R T1BA) (R O11A));
       Set_ T2_20B (sub32 (R T1BB) (R O11B));
       Set_ T2_19A (sub32 (R T1CA) (R O12A));
       Set_ T2_19B (sub32 (R T1CB) (R O12B));
       Set_ T2_18A (sub32 (R T1DA) (R O13A));
       Set_ T2_18B (sub32 (R T1DB) (R O13B));
       Set_ T2_17A (sub32 (R T1EA) (R O14A));
       Set_ T2_17B (sub32 (R T1EB) (R O14B));
       Set_ T2_16A (sub32 (R T1FA) (R O15A));
       Set_ T2_16B (sub32 (R T1FB) (R O15B));
       Set_ T3_00A (Sra32 (R T2_00A) (X 0));
       Set_ T3_00B (Sra32 (R T2_00B) (X 0));
       Set_ T3_01A (Sra32 (R T2_01A) (X 0));
       Set_ T3_01B (Sra32 (R T2_01B) (X 0));
       Set_ T3_02A (Sra32 (R T2_02A) (X 0));
       Set_ T3_02B (Sra32 (R T2_02B) (X 0));
       Set_ T3_03A (Sra32 (R T2_03A) (X 0));
       Set_ T3_03B (Sra32 (R T2_03B) (X 0));
       Set_ T3_04A (Sra32 (R T2_04A) (X 0));
       Set_ T3_04B (Sra32 (R T2_04B) (X 0));
       Set_ T3_05A (Sra32 (R T2_05A) (X 0));
       Set_ T3_05B (Sra32 (R T2_05B) (X 0));
       Set_ T3_06A (Sra32 (R T2_06A) (X 0));
       Set_ T3_06B (Sra32 (R T2_06B) (X 0));
       Set_ T3_07A (Sra32 (R T2_07A) (X 0));
       Set_ T3_07B (Sra32 (R T2_07B) (X 0));
       Set_ T3_08A (Sra32 (R T2_08A) (X 0));
       Set_ T3_08B (Sra32 (R T2_08B) (X 0));
       Set_ T3_09A (Sra32 (R T2_09A) (X 0));
       Set_ T3_09B (Sra32 (R T2_09B) (X 0));
       Set_ T3_10A (Sra32 (R T2_10A) (X 0));
       Set_ T3_10B (Sra32 (R T2_10B) (X 0));
       Set_ T3_11A (Sra32 (R T2_11A) (X 0));
       Set_ T3_11B (Sra32 (R T2_11B) (X 0));
       Set_ T3_12A (Sra32 (R T2_12A) (X 0));
       Set_ T3_12B (Sra32 (R T2_12B) (X 0));
       Set_ T3_13A (Sra32 (R T2_13A) (X 0));
       Set_ T3_13B (Sra32 (R T2_13B) (X 0));
       Set_ T3_14A (Sra32 (R T2_14A) (X 0));
       Set_ T3_14B (Sra32 (R T2_14B) (X 0));
       Set_ T3_15A (Sra32 (R T2_15A) (X 0));
       Set_ T3_15B (Sra32 (R T2_15B) (X 0));
       Set_ T3_16A (Sra32 (R T2_16A) (X 0));
       Set_ T3_16B (Sra32 (R T2_16B) (X 0));
       Set_ T3_17A (Sra32 (R T2_17A) (X 0));
       Set_ T3_17B (Sra32 (R T2_17B) (X 0));
       Set_ T3_18A (Sra32 (R T2_18A) (X 0));
       Set_ T3_18B (Sra32 (R T2_18B) (X 0));
       Set_ T3_19A (Sra32 (R T2_19A) (X 0));
       Set_ T3_19B (Sra32 (R T2_19B) (X 0))]
      ++ [Set_ T3_20A (Sra32 (R T2_20A) (X 0));
       Set_ T3_20B (Sra32 (R T2_20B) (X 0));
       Set_ T3_21A (Sra32 (R T2_21A) (X 0));
       Set_ T3_21B (Sra32 (R T2_21B) (X 0));
       Set_ T3_22A (Sra32 (R T2_22A) (X 0));
       Set_ T3_22B (Sra32 (R T2_22B) (X 0));
       Set_ T3_23A (Sra32 (R T2_23A) (X 0));
       Set_ T3_23B (Sra32 (R T2_23B) (X 0));
       Set_ T3_24A (Sra32 (R T2_24A) (X 0));
       Set_ T3_24B (Sra32 (R T2_24B) (X 0));
       Set_ T3_25A (Sra32 (R T2_25A) (X 0));
       Set_ T3_25B (Sra32 (R T2_25B) (X 0));
       Set_ T3_26A (Sra32 (R T2_26A) (X 0));
       Set_ T3_26B (Sra32 (R T2_26B) (X 0));
       Set_ T3_27A (Sra32 (R T2_27A) (X 0));
       Set_ T3_27B (Sra32 (R T2_27B) (X 0));
       Set_ T3_28A (Sra32 (R T2_28A) (X 0));
       Set_ T3_28B (Sra32 (R T2_28B) (X 0));
       Set_ T3_29A (Sra32 (R T2_29A) (X 0));
       Set_ T3_29B (Sra32 (R T2_29B) (X 0));
       Set_ T3_30A (Sra32 (R T2_30A) (X 0));
       Set_ T3_30B (Sra32 (R T2_30B) (X 0));
       Set_ T3_31A (Sra32 (R T2_31A) (X 0));
       Set_ T3_31B (Sra32 (R T2_31B) (X 0));
       Set_ (res00 + part) (packs32 (R T3_00A) (R T3_00B));
       Set_ (res01 + part) (packs32 (R T3_01A) (R T3_01B));
       Set_ (res02 + part) (packs32 (R T3_02A) (R T3_02B));
       Set_ (res03 + part) (packs32 (R T3_03A) (R T3_03B));
       Set_ (res04 + part) (packs32 (R T3_04A) (R T3_04B));
       Set_ (res05 + part) (packs32 (R T3_05A) (R T3_05B));
       Set_ (res06 + part) (packs32 (R T3_06A) (R T3_06B));
       Set_ (res07 + part) (packs32 (R T3_07A) (R T3_07B));
       Set_ (res08 + part) (packs32 (R T3_08A) (R T3_08B));
       Set_ (res09 + part) (packs32 (R T3_09A) (R T3_09B));
       Set_ (res10 + part) (packs32 (R T3_10A) (R T3_10B));
       Set_ (res11 + part) (packs32 (R T3_11A) (R T3_11B));
       Set_ (res12 + part) (packs32 (R T3_12A) (R T3_12B));
       Set_ (res13 + part) (packs32 (R T3_13A) (R T3_13B));
       Set_ (res14 + part) (packs32 (R T3_14A) (R T3_14B));
       Set_ (res15 + part) (packs32 (R T3_15A) (R T3_15B));
       Set_ (res16 + part) (packs32 (R T3_16A) (R T3_16B));
       Set_ (res17 + part) (packs32 (R T3_17A) (R T3_17B));
       Set_ (res18 + part) (packs32 (R T3_18A) (R T3_18B));
       Set_ (res19 + part) (packs32 (R T3_19A) (R T3_19B));
       Set_ (res20 + part) (packs32 (R T3_20A) (R T3_20B));
       Set_ (res21 + part) (packs32 (R T3_21A) (R T3_21B));
       Set_ (res22 + part) (packs32 (R T3_22A) (R T3_22B));
       Set_ (res23 + part) (packs32 (R T3_23A) (R T3_23B));
       Set_ (res24 + part) (packs32 (R T3_24A) (R T3_24B));
       Set_ (res25 + part) (packs32 (R T3_25A) (R T3_25B));
       Set_ (res26 + part) (packs32 (R T3_26A) (R T3_26B));
       Set_ (res27 + part) (packs32 (R T3_27A) (R T3_27B));
       Set_ (res28 + part) (packs32 (R T3_28A) (R T3_28B));
       Set_ (res29 + part) (packs32 (R T3_29A) (R T3_29B));
       Set_ (res30 + part) (packs32 (R T3_30A) (R T3_30B));
       Set_ (res31 + part) (packs32 (R T3_31A) (R T3_31B))])
    ++ [Set_ tr0_0 (lo16 (R res00) (R res01));
     Set_ tr0_1 (lo16 (R res02) (R res03));
     Set_ tr0_2 (lo16 (R res04) (R res05));
     Set_ tr0_3 (lo16 (R res06) (R res07));
     Set_ tr0_4 (lo16 (R res08) (R res09));
     Set_ tr0_5 (lo16 (R res10) (R res11));
     Set_ tr0_6 (lo16 (R res12) (R res13));
     Set_ tr0_7 (lo16 (R res14) (R res15));
     Set_ tr0_8 (hi16 (R res00) (R res01));
     Set_ tr0_9 (hi16 (R res02) (R res03));
     Set_ tr0_10 (hi16 (R res04) (R res05));
     Set_ tr0_11 (hi16 (R res06) (R res07));
     Set_ tr0_12 (hi16 (R res08) (R res09));
     Set_ tr0_13 (hi16 (R res10) (R res11));
     Set_ tr0_14 (hi16 (R res12) (R res13));
     Set_ tr0_15 (hi16 (R res14) (R res15));
     Set_ in00 (lo32 (R tr0_0) (R tr0_1));
     Set_ in01 (lo32 (R tr0_2) (R tr0_3));
     Set_ in02 (lo32 (R tr0_4) (R tr0_5));
     Set_ in03 (lo32 (R tr0_6) (R tr0_7));
     Set_ in04 (hi32 (R tr0_0) (R tr0_1));
     Set_ in05 (hi32 (R tr0_2) (R tr0_3));
     Set_ in06 (hi32 (R tr0_4) (R tr0_5));
     Set_ in07 (hi32 (R tr0_6) (R tr0_7));
     Set_ in08 (lo32 (R tr0_8) (R tr0_9));
     Set_ in09 (lo32 (R tr0_10) (R tr0_11));
     Set_ in10 (lo32 (R tr0_12) (R tr0_13));
     Set_ in11 (lo32 (R tr0_14) (R tr0_15));
     Set_ in12 (hi32 (R tr0_8) (R tr0_9));
     Set_ in13 (hi32 (R tr0_10) (R tr0_11));
     Set_ in14 (hi32 (R tr0_12) (R tr0_13));
     Set_ in15 (hi32 (R tr0_14) (R tr0_15));
     Set_ tr0_0 (lo64 (R in00) (R in01));
     Set_ tr0_1 (lo64 (R in02) (R in03));
     Set_ tr0_2 (hi64 (R in00) (R in01));
     Set_ tr0_3 (hi64 (R in02) (R in03));
     Set_ tr0_4 (lo64 (R in04) (R in05));
     Set_ tr0_5 (lo64 (R in06) (R in07));
     Set_ tr0_6 (hi64 (R in04) (R in05));
     Set_ tr0_7 (hi64 (R in06) (R in07));
     Set_ tr0_8 (lo64 (R in08) (R in09));
     Set_ tr0_9 (lo64 (R in10) (R in11));
     Set_ tr0_10 (hi64 (R in08) (R in09));
     Set_ tr0_11 (hi64 (R in10) (R in11));
     Set_ tr0_12 (lo64 (R in12) (R in13));
     Set_ tr0_13 (lo64 (R in14) (R in15));
     Set_ tr0_14 (hi64 (R in12) (R in13));
     Set_ tr0_15 (hi64 (R in14) (R in15));
     Set_ in00 (p20 (R tr0_0) (R tr0_1));
     Set_ in01 (p20 (R tr0_2) (R tr0_3));
     Set_ in02 (p20 (R tr0_4) (R tr0_5));
     Set_ in03 (p20 (R tr0_6) (R tr0_7));
     Set_ in04 (p20 (R tr0_8) (R tr0_9));
     Set_ in05 (p20 (R tr0_10) (R tr0_11));
     Set_ in06 (p20 (R tr0_12) (R tr0_13));
     Set_ in07 (p20 (R tr0_14) (R tr0_15));
     Set_ in08 (p31 (R tr0_0) (R tr0_1));
     Set_ in09 (p31 (R tr0_2) (R tr0_3));
     Set_ in10 (p31 (R tr0_4) (R tr0_5));
     Set_ in11 (p31 (R tr0_6) (R tr0_7));
     Set_ in12 (p31 (R tr0_8) (R tr0_9));
     Set_ in13 (p31 (R tr0_10) (R tr0_11));
     Set_ in14 (p31 (R tr0_12) (R tr0_13));
     Set_ in15 (p31 (R tr0_14) (R tr0_15))]
    ++ [Set_ tr0_0 (lo16 (R res16) (R res17));
     Set_ tr0_1 (lo16 (R res18) (R res19));
     Set_ tr0_2 (lo16 (R res20) (R res21));
     Set_ tr0_3 (lo16 (R res22) (R res23));
     Set_ tr0_4 (lo16 (R res24) (R res25));
     Set_ tr0_5 (lo16 (R res26) (R res27));
     Set_ tr0_6 (lo16 (R res28) (R res29));
     Set_ tr0_7 (lo16 (R res30) (R res31));
     Set_ tr0_8 (hi16 (R res16) (R res17));
     Set_ tr0_9 (hi16 (R res18) (R res19));
     Set_ tr0_10 (hi16 (R res20) (R res21));
     Set_ tr0_11 (hi16 (R res22) (R res23));
     Set_ tr0_12 (hi16 (R res24) (R res25));
     Set_ tr0_13 (hi16 (R res26) (R res27));
     Set_ tr0_14 (hi16 (R res28) (R res29));
     Set_ tr0_15 (hi16 (R res30) (R res31));
     Set_ (in00 + 1) (lo32 (R tr0_0) (R tr0_1));
     Set_ (in01 + 1) (lo32 (R tr0_2) (R tr0_3));
     Set_ (in02 + 1) (lo32 (R tr0_4) (R tr0_5));
     Set_ (in03 + 1) (lo32 (R tr0_6) (R tr0_7));
     Set_ (in04 + 1) (hi32 (R tr0_0) (R tr0_1));
     Set_ (in05 + 1) (hi32 (R tr0_2) (R tr0_3));
     Set_ (in06 + 1) (hi32 (R tr0_4) (R tr0_5));
     Set_ (in07 + 1) (hi32 (R tr0_6) (R tr0_7));
     Set_ (in08 + 1) (lo32 (R tr0_8) (R tr0_9));
     Set_ (in09 + 1) (lo32 (R tr0_10) (R tr0_11));
     Set_ (in10 + 1) (lo32 (R tr0_12) (R tr0_13));
     Set_ (in11 + 1) (lo32 (R tr0_14) (R tr0_15));
     Set_ (in12 + 1) (hi32 (R tr0_8) (R tr0_9));
     Set_ (in13 + 1) (hi32 (R tr0_10) (R tr0_11));
     Set_ (in14 + 1) (hi32 (R tr0_12) (R tr0_13));
     Set_ (in15 + 1) (hi32 (R tr0_14) (R tr0_15));
     Set_ tr0_0 (lo64 (R (in00 + 1)) (R (in01 + 1)));
     Set_ tr0_1 (lo64 (R (in02 + 1)) (R (in03 + 1)));
     Set_ tr0_2 (hi64 (R (in00 + 1)) (R (in01 + 1)));
     Set_ tr0_3 (hi64 (R (in02 + 1)) (R (in03 + 1)));
     Set_ tr0_4 (lo64 (R (in04 + 1)) (R (in05 + 1)));
     Set_ tr0_5 (lo64 (R (in06 + 1)) (R (in07 + 1)));
     Set_ tr0_6 (hi64 (R (in04 + 1)) (R (in05 + 1)));
     Set_ tr0_7 (hi64 (R (in06 + 1)) (R (in07 + 1)));
     Set_ tr0_8 (lo64 (R (in08 + 1)) (R (in09 + 1)));
     Set_ tr0_9 (lo64 (R (in10 + 1)) (R (in11 + 1)));
     Set_ tr0_10 (hi64 (R (in08 + 1)) (R (in09 + 1)));
     Set_ tr0_11 (hi64 (R (in10 + 1)) (R (in11 + 1)));
     Set_ tr0_12 (lo64 (R (in12 + 1)) (R (in13 + 1)));
     Set_ tr0_13 (lo64 (R (in14 + 1)) (R (in15 + 1)));
     Set_ tr0_14 (hi64 (R (in12 + 1)) (R (in13 + 1)));
     Set_ tr0_15 (hi64 (R (in14 + 1)) (R (in15 + 1)));
     Set_ (in00 + 1) (p20 (R tr0_0) (R tr0_1));
     Set_ (in01 + 1) (p20 (R tr0_2) (R tr0_3));
     Set_ (in02 + 1) (p20 (R tr0_4) (R tr0_5));
     Set_ (in03 + 1) (p20 (R tr0_6) (R tr0_7));
     Set_ (in04 + 1) (p20 (R tr0_8) (R tr0_9));
     Set_ (in05 + 1) (p20 (R tr0_10) (R tr0_11));
     Set_ (in06 + 1) (p20 (R tr0_12) (R tr0_13));
     Set_ (in07 + 1) (p20 (R tr0_14) (R tr0_15));
     Set_ (in08 + 1) (p31 (R tr0_0) (R tr0_1));
     Set_ (in09 + 1) (p31 (R tr0_2) (R tr0_3));
     Set_ (in10 + 1) (p31 (R tr0_4) (R tr0_5));
     Set_ (in11 + 1) (p31 (R tr0_6) (R tr0_7));
     Set_ (in12 + 1) (p31 (R tr0_8) (R tr0_9));
     Set_ (in13 + 1) (p31 (R tr0_10) (R tr0_11));
     Set_ (in14 + 1) (p31 (R tr0_12) (R tr0_13));
     Set_ (in15 + 1) (p31 (R tr0_14) (R tr0_15))]
    ++ [Set_ tr0_0 (lo16 (R (res00 + 1)) (R (res01 + 1)));
     Set_ tr0_1 (lo16 (R (res02 + 1)) (R (res03 + 1)));
     Set_ tr0_2 (lo16 (R (res04 + 1)) (R (res05 + 1)));
     Set_ tr0_3 (lo16 (R (res06 + 1)) (R (res07 + 1)));
     Set_ tr0_4 (lo16 (R (res08 + 1)) (R (res09 + 1)));
     Set_ tr0_5 (lo16 (R (res10 + 1)) (R (res11 + 1)));
     Set_ tr0_6 (lo16 (R (res12 + 1)) (R (res13 + 1)));
     Set_ tr0_7 (lo16 (R (res14 + 1)) (R (res15 + 1)));
     Set_ tr0_8 (hi16 (R (res00 + 1)) (R (res01 + 1)));
     Set_ tr0_9 (hi16 (R (res02 + 1)) (R (res03 + 1)));
     Set_ tr0_10 (hi16 (R (res04 + 1)) (R (res05 + 1)));
     Set_ tr0_11 (hi16 (R (res06 + 1)) (R (res07 + 1)));
     Set_ tr0_12 (hi16 (R (res08 + 1)) (R (res09 + 1)));
     Set_ tr0_13 (hi16 (R (res10 + 1)) (R (res11 + 1)));
     Set_ tr0_14 (hi16 (R (res12 + 1)) (R (res13 + 1)));
     Set_ tr0_15 (hi16 (R (res14 + 1)) (R (res15 + 1)));
     Set_ in16 (lo32 (R tr0_0) (R tr0_1));
     Set_ in17 (lo32 (R tr0_2) (R tr0_3));
     Set_ in18 (lo32 (R tr0_4) (R tr0_5));
     Set_ in19 (lo32 (R tr0_6) (R tr0_7));
     Set_ in20 (hi32 (R tr0_0) (R tr0_1));
     Set_ in21 (hi32 (R tr0_2) (R tr0_3));
     Set_ in22 (hi32 (R tr0_4) (R tr0_5));
     Set_ in23 (hi32 (R tr0_6) (R tr0_7));
     Set_ in24 (lo32 (R tr0_8) (R tr0_9));
     Set_ in25 (lo32 (R tr0_10) (R tr0_11));
     Set_ in26 (lo32 (R tr0_12) (R tr0_13));
     Set_ in27 (lo32 (R tr0_14) (R tr0_15));
     Set_ in28 (hi32 (R tr0_8) (R tr0_9));
     Set_ in29 (hi32 (R tr0_10) (R tr0_11));
     Set_ in30 (hi32 (R tr0_12) (R tr0_13));
     Set_ in31 (hi32 (R tr0_14) (R tr0_15));
     Set_ tr0_0 (lo64 (R in16) (R in17));
     Set_ tr0_1 (lo64 (R in18) (R in19));
     Set_ tr0_2 (hi64 (R in16) (R in17));
     Set_ tr0_3 (hi64 (R in18) (R in19));
     Set_ tr0_4 (lo64 (R in20) (R in21));
     Set_ tr0_5 (lo64 (R in22) (R in23));
     Set_ tr0_6 (hi64 (R in20) (R in21));
     Set_ tr0_7 (hi64 (R in22) (R in23));
     Set_ tr0_8 (lo64 (R in24) (R in25));
     Set_ tr0_9 (lo64 (R in26) (R in27));
     Set_ tr0_10 (hi64 (R in24) (R in25));
     Set_ tr0_11 (hi64 (R in26) (R in27));
     Set_ tr0_12 (lo64 (R in28) (R in29));
     Set_ tr0_13 (lo64 (R in30) (R in31));
     Set_ tr0_14 (hi64 (R in28) (R in29));
     Set_ tr0_15 (hi64 (R in30) (R in31));
     Set_ in16 (p20 (R tr0_0) (R tr0_1));
     Set_ in17 (p20 (R tr0_2) (R tr0_3));
     Set_ in18 (p20 (R tr0_4) (R tr0_5));
     Set_ in19 (p20 (R tr0_6) (R tr0_7));
     Set_ in20 (p20 (R tr0_8) (R tr0_9));
     Set_ in21 (p20 (R tr0_10) (R tr0_11));
     Set_ in22 (p20 (R tr0_12) (R tr0_13));
     Set_ in23 (p20 (R tr0_14) (R tr0_15));
     Set_ in24 (p31 (R tr0_0) (R tr0_1));
     Set_ in25 (p31 (R tr0_2) (R tr0_3));
     Set_ in26 (p31 (R tr0_4) (R tr0_5));
     Set_ in27 (p31 (R tr0_6) (R tr0_7));
     Set_ in28 (p31 (R tr0_8) (R tr0_9));
     Set_ in29 (p31 (R tr0_10) (R tr0_11));
     Set_ in30 (p31 (R tr0_12) (R tr0_13));
     Set_ in31 (p31 (R tr0_14) (R tr0_15))]
    ++ [Set_ tr0_0 (lo16 (R (res16 + 1)) (R (res17 + 1)));
     Set_ tr0_1 (lo16 (R (res18 + 1)) (R (res19 + 1)));
     Set_ tr0_2 (lo16 (R (res20 + 1)) (R (res21 + 1)));
     Set_ tr0_3 (lo16 (R (res22 + 1)) (R (res23 + 1)));
     Set_ tr0_4 (lo16 (R (res24 + 1)) (R (res25 + 1)));
     Set_ tr0_5 (lo16 (R (res26 + 1)) (R (res27 + 1)));
     Set_ tr0_6 (lo16 (R (res28 + 1)) (R (res29 + 1)));
     Set_ tr0_7 (lo16 (R (res30 + 1)) (R (res31 + 1)));
     Set_ tr0_8 (hi16 (R (res16 + 1)) (R (res17 + 1)));
     Set_ tr0_9 (hi16 (R (res18 + 1)) (R (res19 + 1)));
     Set_ tr0_10 (hi16 (R (res20 + 1)) (R (res21 + 1)));
     Set_ tr0_11 (hi16 (R (res22 + 1)) (R (res23 + 1)));
     Set_ tr0_12 (hi16 (R (res24 + 1)) (R (res25 + 1)));
     Set_ tr0_13 (hi16 (R (res26 + 1)) (R (res27 + 1)));
     Set_ tr0_14 (hi16 (R (res28 + 1)) (R (res29 + 1)));
     Set_ tr0_15 (hi16 (R (res30 + 1)) (R (res31 + 1)));
     Set_ (in16 + 1) (lo32 (R tr0_0) (R tr0_1));
     Set_ (in17 + 1) (lo32 (R tr0_2) (R tr0_3));
     Set_ (in18 + 1) (lo32 (R tr0_4) (R tr0_5));
     Set_ (in19 + 1) (lo32 (R tr0_6) (R tr0_7));
     Set_ (in20 + 1) (hi32 (R tr0_0) (R tr0_1));
     Set_ (in21 + 1) (hi32 (R tr0_2) (R tr0_3));
     Set_ (in22 + 1) (hi32 (R tr0_4) (R tr0_5));
     Set_ (in23 + 1) (hi32 (R tr0_6) (R tr0_7));
     Set_ (in24 + 1) (lo32 (R tr0_8) (R tr0_9));
     Set_ (in25 + 1) (lo32 (R tr0_10) (R tr0_11));
     Set_ (in26 + 1) (lo32 (R tr0_12) (R tr0_13));
     Set_ (in27 + 1) (lo32 (R tr0_14) (R tr0_15));
     Set_ (in28 + 1) (hi32 (R tr0_8) (R tr0_9));
     Set_ (in29 + 1) (hi32 (R tr0_10) (R tr0_11));
     Set_ (in30 + 1) (hi32 (R tr0_12) (R tr0_13));
     Set_ (in31 + 1) (hi32 (R tr0_14) (R tr0_15));
     Set_ tr0_0 (lo64 (R (in16 + 1)) (R (in17 + 1)));
     Set_ tr0_1 (lo64 (R (in18 + 1)) (R (in19 + 1)));
     Set_ tr0_2 (hi64 (R (in16 + 1)) (R (in17 + 1)));
     Set_ tr0_3 (hi64 (R (in18 + 1)) (R (in19 + 1)));
     Set_ tr0_4 (lo64 (R (in20 + 1)) (R (in21 + 1)));
     Set_ tr0_5 (lo64 (R (in22 + 1)) (R (in23 + 1)));
     Set_ tr0_6 (hi64 (R (in20 + 1)) (R (in21 + 1)));
     Set_ tr0_7 (hi64 (R (in22 + 1)) (R (in23 + 1)));
     Set_ tr0_8 (lo64 (R (in24 + 1)) (R (in25 + 1)));
     Set_ tr0_9 (lo64 (R (in26 + 1)) (R (in27 + 1)));
     Set_ tr0_10 (hi64 (R (in24 + 1)) (R (in25 + 1)));
     Set_ tr0_11 (hi64 (R (in26 + 1)) (R (in27 + 1)));
     Set_ tr0_12 (lo64 (R (in28 + 1)) (R (in29 + 1)));
     Set_ tr0_13 (lo64 (R (in30 + 1)) (R (in31 + 1)));
     Set_ tr0_14 (hi64 (R (in28 + 1)) (R (in29 + 1)));
     Set_ tr0_15 (hi64 (R (in30 + 1)) (R (in31 + 1)));
     Set_ (in16 + 1) (p20 (R tr0_0) (R tr0_1));
     Set_ (in17 + 1) (p20 (R tr0_2) (R tr0_3));
     Set_ (in18 + 1) (p20 (R tr0_4) (R tr0_5));
     Set_ (in19 + 1) (p20 (R tr0_6) (R tr0_7));
     Set_ (in20 + 1) (p20 (R tr0_8) (R tr0_9));
     Set_ (in21 + 1) (p20 (R tr0_10) (R tr0_11));
     Set_ (in22 + 1) (p20 (R tr0_12) (R tr0_13));
     Set_ (in23 + 1) (p20 (R tr0_14) (R tr0_15));
     Set_ (in24 + 1) (p31 (R tr0_0) (R tr0_1));
     Set_ (in25 + 1) (p31 (R tr0_2) (R tr0_3));
     Set_ (in26 + 1) (p31 (R tr0_4) (R tr0_5));
     Set_ (in27 + 1) (p31 (R tr0_6) (R tr0_7));
     Set_ (in28 + 1) (p31 (R tr0_8) (R tr0_9));
     Set_ (in29 + 1) (p31 (R tr0_10) (R tr0_11));
     Set_ (in30 + 1) (p31 (R tr0_12) (R tr0_13));
     Set_ (in31 + 1) (p31 (R tr0_14) (R tr0_15))]
    ++ [Set_ c32_rnd (S32 16 (Q RND2));
     SetI 0 (Q SH2)])
  ++ [Set_ max_val (S16 16 (Q HI2));
   Set_ min_val (S16 16 (Q LO2))]
  ++ loop 2 (fun k =>
    [Set_ (in00 + k) (max16 (min16 (R (in00 + k)) (R max_val)) (R min_val));
     Set_ (in01 + k) (max16 (min16 (R (in01 + k)) (R max_val)) (R min_val));
     Set_ (in02 + k) (max16 (min16 (R (in02 + k)) (R max_val)) (R min_val));
     Set_ (in03 + k) (max16 (min16 (R (in03 + k)) (R max_val)) (R min_val));
     Set_ (in04 + k) (max16 (min16 (R (in04 + k)) (R max_val)) (R min_val));
     Set_ (in05 + k) (max16 (min16 (R (in05 + k)) (R max_val)) (R min_val));
     Set_ (in06 + k) (max16 (min16 (R (in06 + k)) (R max_val)) (R min_val));
     Set_ (in07 + k) (max16 (min16 (R (in07 + k)) (R max_val)) (R min_val));
     Set_ (in08 + k) (max16 (min16 (R (in08 + k)) (R max_val)) (R min_val));
     Set_ (in09 + k) (max16 (min16 (R (in09 + k)) (R max_val)) (R min_val));
     Set_ (in10 + k) (max16 (min16 (R (in10 + k)) (R max_val)) (R min_val));
     Set_ (in11 + k) (max16 (min16 (R (in11 + k)) (R max_val)) (R min_val));
     Set_ (in12 + k) (max16 (min16 (R (in12 + k)) (R max_val)) (R min_val));
     Set_ (in13 + k) (max16 (min16 (R (in13 + k)) (R max_val)) (R min_val));
     Set_ (in14 + k) (max16 (min16 (R (in14 + k)) (R max_val)) (R min_val));
     Set_ (in15 + k) (max16 (min16 (R (in15 + k)) (R max_val)) (R min_val));
     Set_ (in16 + k) (max16 (min16 (R (in16 + k)) (R max_val)) (R min_val));
     Set_ (in17 + k) (max16 (min16 (R (in17 + k)) (R max_val)) (R min_val));
     Set_ (in18 + k) (max16 (min16 (R (in18 + k)) (R max_val)) (R min_val));
     Set_ (in19 + k) (max16 (min16 (R (in19 + k)) (R max_val)) (R min_val));
     Set_ (in20 + k) (max16 (min16 (R (in20 + k)) (R max_val)) (R min_val));
     Set_ (in21 + k) (max16 (min16 (R (in21 + k)) (R max_val)) (R min_val));
     Set_ (in22 + k) (max16 (min16 (R (in22 + k)) (R max_val)) (R min_val));
     Set_ (in23 + k) (max16 (min16 (R (in23 + k)) (R max_val)) (R min_val));
     Set_ (in24 + k) (max16 (min16 (R (in24 + k)) (R max_val)) (R min_val));
     Set_ (in25 + k) (max16 (min16 (R (in25 + k)) (R max_val)) (R min_val));
     Set_ (in26 + k) (max16 (min16 (R (in26 + k)) (R max_val)) (R min_val));
     Set_ (in27 + k) (max16 (min16 (R (in27 + k)) (R max_val)) (R min_val));
     Set_ (in28 + k) (max16 (min16 (R (in28 + k)) (R max_val)) (R min_val));
     Set_ (in29 + k) (max16 (min16 (R (in29 + k)) (R max_val)) (R min_val));
     Set_ (in30 + k) (max16 (min16 (R (in30 + k)) (R max_val)) (R min_val));
     Set_ (in31 + k) (max16 (min16 (R (in31 + k)) (R max_val)) (R min_val))])
  ++ loop 2 (fun i =>
    [St 16 0 0 (16 * i) (R (in00 + i));
     St 16 0 0 (16 * i + 32) (R (in01 + i));
     St 16 0 0 (16 * i + 64) (R (in02 + i));
     St 16 0 0 (16 * i + 96) (R (in03 + i));
     St 16 0 0 (16 * i + 128) (R (in04 + i));
     St 16 0 0 (16 * i + 160) (R (in05 + i));
     St 16 0 0 (16 * i + 192) (R (in06 + i));
     St 16 0 0 (16 * i + 224) (R (in07 + i));
     St 16 0 0 (16 * i + 256) (R (in08 + i));
     St 16 0 0 (16 * i + 288) (R (in09 + i));
     St 16 0 0 (16 * i + 320) (R (in10 + i));
     St 16 0 0 (16 * i + 352) (R (in11 + i));
     St 16 0 0 (16 * i + 384) (R (in12 + i));
     St 16 0 0 (16 * i + 416) (R (in13 + i));
     St 16 0 0 (16 * i + 448) (R (in14 + i));
     St 16 0 0 (16 * i + 480) (R (in15 + i));
     St 16 0 0 (16 * i + 512) (R (in16 + i));
     St 16 0 0 (16 * i + 544) (R (in17 + i));
     St 16 0 0 (16 * i + 576) (R (in18 + i));
     St 16 0 0 (16 * i + 608) (R (in19 + i));
     St 16 0 0 (16 * i + 640) (R (in20 + i));
     St 16 0 0 (16 * i + 672) (R (in21 + i));
     St 16 0 0 (16 * i + 704) (R (in22 + i));
     St 16 0 0 (16 * i + 736) (R (in23 + i));
     St 16 0 0 (16 * i + 768) (R (in24 + i));
     St 16 0 0 (16 * i + 800) (R (in25 + i));
     St 16 0 0 (16 * i + 832) (R (in26 + i));
     St 16 0 0 (16 * i + 864) (R (in27 + i));
     St 16 0 0 (16 * i + 896) (R (in28 + i));
     St 16 0 0 (16 * i + 928) (R (in29 + i));
     St 16 0 0 (16 * i + 960) (R (in30 + i));
     St 16 0 0 (16 * i + 992) (R (in31 + i))]).

