(** The vector kernels of the inverse transforms, doubling, AVX2. Definitions only, for the machine of
    VtModel. Each is the text of the function: the names of its vector variables (an array takes as
    many numbers as it has elements; a name declared again in another block has a number added), its
    macros expanded, its statements in order. *)
From Coq Require Import ZArith List Bool.
From Verif Require Import VtModel.
Import ListNotations.
Open Scope Z_scope.

(** vec/intrinsic_idct_avx2.cc:1562-1682 [inv_wavelet_64x16_avx2]. *)
Definition inv_wavelet_64x16_avx2 : list ins :=
  let tr0_0 := 1 in let tr0_1 := 2 in let tr0_2 := 3 in let tr0_3 := 4 in let tr0_4 := 5 in let tr0_5 := 6 in let tr0_6 := 7 in let tr0_7 := 8 in
  let tr1_0 := 9 in let tr1_1 := 10 in let tr1_2 := 11 in let tr1_3 := 12 in let tr1_4 := 13 in let tr1_5 := 14 in let tr1_6 := 15 in
  let tr1_7 := 16 in let t0 := 17 in let t1 := 18 in let t2 := 19 in let t3 := 20 in let t4 := 21 in let t5 := 22 in let t6 := 23 in let t7 := 24 in
  let t8 := 25 in let t9 := 26 in let t10 := 27 in let t11 := 28 in let t12 := 29 in let t13 := 30 in let t14 := 31 in let t15 := 32 in
  let T00 := 33 in let T01 := 37 in let T02 := 41 in let T03 := 45 in let T04 := 49 in let T05 := 53 in let T06 := 57 in let T07 := 61 in
  let T08 := 65 in let T09 := 69 in let T10 := 73 in let T11 := 77 in let T12 := 81 in let T13 := 85 in let T14 := 89 in let T15 := 93 in
  let V00 := 97 in let V01 := 98 in let V02 := 99 in let V03 := 100 in let V04 := 101 in let V05 := 102 in let V06 := 103 in let V07 := 104 in
  let V08 := 105 in let V09 := 106 in let V10 := 107 in let V11 := 108 in let V12 := 109 in let V13 := 110 in let V14 := 111 in let V15 := 112 in
  let V16 := 113 in let V17 := 114 in let V18 := 115 in let V19 := 116 in let V20 := 117 in let V21 := 118 in let V22 := 119 in let V23 := 120 in
  let V24 := 121 in let V25 := 122 in let V26 := 123 in let V27 := 124 in let V28 := 125 in let V29 := 126 in let V30 := 127 in let V31 := 128 in
  let V32 := 129 in let V33 := 130 in let V34 := 131 in let V35 := 132 in let V36 := 133 in let V37 := 134 in let V38 := 135 in let V39 := 136 in
  let V40 := 137 in let V41 := 138 in let V42 := 139 in let V43 := 140 in let V44 := 141 in let V45 := 142 in let V46 := 143 in let V47 := 144 in
  let V48 := 145 in let V49 := 146 in let V50 := 147 in let V51 := 148 in let V52 := 149 in let V53 := 150 in let V54 := 151 in let V55 := 152 in
  let V56 := 153 in let V57 := 154 in let V58 := 155 in let V59 := 156 in let V60 := 157 in let V61 := 158 in let V62 := 159 in let V63 := 160 in
  [Set_ T00 (Sra16 (Ld 16 0) (I 1));
   Set_ T01 (Sra16 (Ld 16 32) (I 1));
   Set_ T02 (Sra16 (Ld 16 64) (I 1));
   Set_ T03 (Sra16 (Ld 16 96) (I 1));
   Set_ T04 (Sra16 (Ld 16 128) (I 1));
   Set_ T05 (Sra16 (Ld 16 160) (I 1));
   Set_ T06 (Sra16 (Ld 16 192) (I 1));
   Set_ T07 (Sra16 (Ld 16 224) (I 1));
   Set_ (T00 + 1) (Sra16 (Ld 16 16) (I 1));
   Set_ (T01 + 1) (Sra16 (Ld 16 48) (I 1));
   Set_ (T02 + 1) (Sra16 (Ld 16 80) (I 1));
   Set_ (T03 + 1) (Sra16 (Ld 16 112) (I 1));
   Set_ (T04 + 1) (Sra16 (Ld 16 144) (I 1));
   Set_ (T05 + 1) (Sra16 (Ld 16 176) (I 1));
   Set_ (T06 + 1) (Sra16 (Ld 16 208) (I 1));
   Set_ (T07 + 1) (Sra16 (Ld 16 240) (I 1));
   Set_ T08 (Sra16 (add16 (R T00) (R T01)) (I 1));
   Set_ T09 (Sra16 (add16 (R T01) (R T02)) (I 1));
   Set_ T10 (Sra16 (add16 (R T02) (R T03)) (I 1));
   Set_ T11 (Sra16 (add16 (R T03) (R T04)) (I 1));
   Set_ T12 (Sra16 (add16 (R T04) (R T05)) (I 1));
   Set_ T13 (Sra16 (add16 (R T05) (R T06)) (I 1));
   Set_ T14 (Sra16 (add16 (R T06) (R T07)) (I 1));
   Set_ T15 (Sra16 (add16 (R T07) (R T07)) (I 1));
   Set_ (T08 + 1) (Sra16 (add16 (R (T00 + 1)) (R (T01 + 1))) (I 1));
   Set_ (T09 + 1) (Sra16 (add16 (R (T01 + 1)) (R (T02 + 1))) (I 1));
   Set_ (T10 + 1) (Sra16 (add16 (R (T02 + 1)) (R (T03 + 1))) (I 1));
   Set_ (T11 + 1) (Sra16 (add16 (R (T03 + 1)) (R (T04 + 1))) (I 1));
   Set_ (T12 + 1) (Sra16 (add16 (R (T04 + 1)) (R (T05 + 1))) (I 1));
   Set_ (T13 + 1) (Sra16 (add16 (R (T05 + 1)) (R (T06 + 1))) (I 1));
   Set_ (T14 + 1) (Sra16 (add16 (R (T06 + 1)) (R (T07 + 1))) (I 1));
   Set_ (T15 + 1) (Sra16 (add16 (R (T07 + 1)) (R (T07 + 1))) (I 1));
   Set_ tr0_0 (lo16 (R T00) (R T08));
   Set_ tr0_1 (lo16 (R T01) (R T09));
   Set_ tr0_2 (hi16 (R T00) (R T08));
   Set_ tr0_3 (hi16 (R T01) (R T09));
   Set_ tr0_4 (lo16 (R T02) (R T10));
   Set_ tr0_5 (lo16 (R T03) (R T11));
   Set_ tr0_6 (hi16 (R T02) (R T10));
   Set_ tr0_7 (hi16 (R T03) (R T11));
   Set_ tr1_0 (lo32 (R tr0_0) (R tr0_1));
   Set_ tr1_1 (lo32 (R tr0_2) (R tr0_3));
   Set_ tr1_2 (hi32 (R tr0_0) (R tr0_1));
   Set_ tr1_3 (hi32 (R tr0_2) (R tr0_3));
   Set_ tr1_4 (lo32 (R tr0_4) (R tr0_5));
   Set_ tr1_5 (lo32 (R tr0_6) (R tr0_7));
   Set_ tr1_6 (hi32 (R tr0_4) (R tr0_5));
   Set_ tr1_7 (hi32 (R tr0_6) (R tr0_7));
   Set_ t0 (lo64 (R tr1_0) (R tr1_4));
   Set_ t1 (hi64 (R tr1_0) (R tr1_4));
   Set_ t2 (lo64 (R tr1_2) (R tr1_6));
   Set_ t3 (hi64 (R tr1_2) (R tr1_6));
   Set_ t4 (lo64 (R tr1_1) (R tr1_5));
   Set_ t5 (hi64 (R tr1_1) (R tr1_5));
   Set_ t6 (lo64 (R tr1_3) (R tr1_7));
   Set_ t7 (hi64 (R tr1_3) (R tr1_7));
   Set_ tr0_0 (lo16 (R T04) (R T12));
   Set_ tr0_1 (lo16 (R T05) (R T13));
   Set_ tr0_2 (hi16 (R T04) (R T12));
   Set_ tr0_3 (hi16 (R T05) (R T13));
   Set_ tr0_4 (lo16 (R T06) (R T14));
   Set_ tr0_5 (lo16 (R T07) (R T15));
   Set_ tr0_6 (hi16 (R T06) (R T14));
   Set_ tr0_7 (hi16 (R T07) (R T15))]
  ++ [Set_ tr1_0 (lo32 (R tr0_0) (R tr0_1));
   Set_ tr1_1 (lo32 (R tr0_2) (R tr0_3));
   Set_ tr1_2 (hi32 (R tr0_0) (R tr0_1));
   Set_ tr1_3 (hi32 (R tr0_2) (R tr0_3));
   Set_ tr1_4 (lo32 (R tr0_4) (R tr0_5));
   Set_ tr1_5 (lo32 (R tr0_6) (R tr0_7));
   Set_ tr1_6 (hi32 (R tr0_4) (R tr0_5));
   Set_ tr1_7 (hi32 (R tr0_6) (R tr0_7));
   Set_ t8 (lo64 (R tr1_0) (R tr1_4));
   Set_ t9 (hi64 (R tr1_0) (R tr1_4));
   Set_ t10 (lo64 (R tr1_2) (R tr1_6));
   Set_ t11 (hi64 (R tr1_2) (R tr1_6));
   Set_ t12 (lo64 (R tr1_1) (R tr1_5));
   Set_ t13 (hi64 (R tr1_1) (R tr1_5));
   Set_ t14 (lo64 (R tr1_3) (R tr1_7));
   Set_ t15 (hi64 (R tr1_3) (R tr1_7));
   Set_ V00 (p20 (R t0) (R t8));
   Set_ V01 (p20 (R t1) (R t9));
   Set_ V02 (p20 (R t2) (R t10));
   Set_ V03 (p20 (R t3) (R t11));
   Set_ V04 (p20 (R t4) (R t12));
   Set_ V05 (p20 (R t5) (R t13));
   Set_ V06 (p20 (R t6) (R t14));
   Set_ V07 (p20 (R t7) (R t15));
   Set_ V08 (p31 (R t0) (R t8));
   Set_ V09 (p31 (R t1) (R t9));
   Set_ V10 (p31 (R t2) (R t10));
   Set_ V11 (p31 (R t3) (R t11));
   Set_ V12 (p31 (R t4) (R t12));
   Set_ V13 (p31 (R t5) (R t13));
   Set_ V14 (p31 (R t6) (R t14));
   Set_ V15 (p31 (R t7) (R t15));
   Set_ tr0_0 (lo16 (R (T00 + 1)) (R (T08 + 1)));
   Set_ tr0_1 (lo16 (R (T01 + 1)) (R (T09 + 1)));
   Set_ tr0_2 (hi16 (R (T00 + 1)) (R (T08 + 1)));
   Set_ tr0_3 (hi16 (R (T01 + 1)) (R (T09 + 1)));
   Set_ tr0_4 (lo16 (R (T02 + 1)) (R (T10 + 1)));
   Set_ tr0_5 (lo16 (R (T03 + 1)) (R (T11 + 1)));
   Set_ tr0_6 (hi16 (R (T02 + 1)) (R (T10 + 1)));
   Set_ tr0_7 (hi16 (R (T03 + 1)) (R (T11 + 1)));
   Set_ tr1_0 (lo32 (R tr0_0) (R tr0_1));
   Set_ tr1_1 (lo32 (R tr0_2) (R tr0_3));
   Set_ tr1_2 (hi32 (R tr0_0) (R tr0_1));
   Set_ tr1_3 (hi32 (R tr0_2) (R tr0_3));
   Set_ tr1_4 (lo32 (R tr0_4) (R tr0_5));
   Set_ tr1_5 (lo32 (R tr0_6) (R tr0_7));
   Set_ tr1_6 (hi32 (R tr0_4) (R tr0_5));
   Set_ tr1_7 (hi32 (R tr0_6) (R tr0_7));
   Set_ t0 (lo64 (R tr1_0) (R tr1_4));
   Set_ t1 (hi64 (R tr1_0) (R tr1_4));
   Set_ t2 (lo64 (R tr1_2) (R tr1_6));
   Set_ t3 (hi64 (R tr1_2) (R tr1_6));
   Set_ t4 (lo64 (R tr1_1) (R tr1_5));
   Set_ t5 (hi64 (R tr1_1) (R tr1_5));
   Set_ t6 (lo64 (R tr1_3) (R tr1_7));
   Set_ t7 (hi64 (R tr1_3) (R tr1_7));
   Set_ tr0_0 (lo16 (R (T04 + 1)) (R (T12 + 1)));
   Set_ tr0_1 (lo16 (R (T05 + 1)) (R (T13 + 1)));
   Set_ tr0_2 (hi16 (R (T04 + 1)) (R (T12 + 1)));
   Set_ tr0_3 (hi16 (R (T05 + 1)) (R (T13 + 1)));
   Set_ tr0_4 (lo16 (R (T06 + 1)) (R (T14 + 1)));
   Set_ tr0_5 (lo16 (R (T07 + 1)) (R (T15 + 1)));
   Set_ tr0_6 (hi16 (R (T06 + 1)) (R (T14 + 1)));
   Set_ tr0_7 (hi16 (R (T07 + 1)) (R (T15 + 1)))]
  ++ [Set_ tr1_0 (lo32 (R tr0_0) (R tr0_1));
   Set_ tr1_1 (lo32 (R tr0_2) (R tr0_3));
   Set_ tr1_2 (hi32 (R tr0_0) (R tr0_1));
   Set_ tr1_3 (hi32 (R tr0_2) (R tr0_3));
   Set_ tr1_4 (lo32 (R tr0_4) (R tr0_5));
   Set_ tr1_5 (lo32 (R tr0_6) (R tr0_7));
   Set_ tr1_6 (hi32 (R tr0_4) (R tr0_5));
   Set_ tr1_7 (hi32 (R tr0_6) (R tr0_7));
   Set_ t8 (lo64 (R tr1_0) (R tr1_4));
   Set_ t9 (hi64 (R tr1_0) (R tr1_4));
   Set_ t10 (lo64 (R tr1_2) (R tr1_6));
   Set_ t11 (hi64 (R tr1_2) (R tr1_6));
   Set_ t12 (lo64 (R tr1_1) (R tr1_5));
   Set_ t13 (hi64 (R tr1_1) (R tr1_5));
   Set_ t14 (lo64 (R tr1_3) (R tr1_7));
   Set_ t15 (hi64 (R tr1_3) (R tr1_7));
   Set_ V16 (p20 (R t0) (R t8));
   Set_ V17 (p20 (R t1) (R t9));
   Set_ V18 (p20 (R t2) (R t10));
   Set_ V19 (p20 (R t3) (R t11));
   Set_ V20 (p20 (R t4) (R t12));
   Set_ V21 (p20 (R t5) (R t13));
   Set_ V22 (p20 (R t6) (R t14));
   Set_ V23 (p20 (R t7) (R t15));
   Set_ V24 (p31 (R t0) (R t8));
   Set_ V25 (p31 (R t1) (R t9));
   Set_ V26 (p31 (R t2) (R t10));
   Set_ V27 (p31 (R t3) (R t11));
   Set_ V28 (p31 (R t4) (R t12));
   Set_ V29 (p31 (R t5) (R t13));
   Set_ V30 (p31 (R t6) (R t14));
   Set_ V31 (p31 (R t7) (R t15));
   Set_ V32 (Sra16 (add16 (R V00) (R V01)) (I 1));
   Set_ V33 (Sra16 (add16 (R V01) (R V02)) (I 1));
   Set_ V34 (Sra16 (add16 (R V02) (R V03)) (I 1));
   Set_ V35 (Sra16 (add16 (R V03) (R V04)) (I 1));
   Set_ V36 (Sra16 (add16 (R V04) (R V05)) (I 1));
   Set_ V37 (Sra16 (add16 (R V05) (R V06)) (I 1));
   Set_ V38 (Sra16 (add16 (R V06) (R V07)) (I 1));
   Set_ V39 (Sra16 (add16 (R V07) (R V08)) (I 1));
   Set_ V40 (Sra16 (add16 (R V08) (R V09)) (I 1));
   Set_ V41 (Sra16 (add16 (R V09) (R V10)) (I 1));
   Set_ V42 (Sra16 (add16 (R V10) (R V11)) (I 1));
   Set_ V43 (Sra16 (add16 (R V11) (R V12)) (I 1));
   Set_ V44 (Sra16 (add16 (R V12) (R V13)) (I 1));
   Set_ V45 (Sra16 (add16 (R V13) (R V14)) (I 1));
   Set_ V46 (Sra16 (add16 (R V14) (R V15)) (I 1));
   Set_ V47 (Sra16 (add16 (R V15) (R V16)) (I 1));
   Set_ V48 (Sra16 (add16 (R V16) (R V17)) (I 1));
   Set_ V49 (Sra16 (add16 (R V17) (R V18)) (I 1));
   Set_ V50 (Sra16 (add16 (R V18) (R V19)) (I 1));
   Set_ V51 (Sra16 (add16 (R V19) (R V20)) (I 1));
   Set_ V52 (Sra16 (add16 (R V20) (R V21)) (I 1));
   Set_ V53 (Sra16 (add16 (R V21) (R V22)) (I 1));
   Set_ V54 (Sra16 (add16 (R V22) (R V23)) (I 1));
   Set_ V55 (Sra16 (add16 (R V23) (R V24)) (I 1));
   Set_ V56 (Sra16 (add16 (R V24) (R V25)) (I 1));
   Set_ V57 (Sra16 (add16 (R V25) (R V26)) (I 1));
   Set_ V58 (Sra16 (add16 (R V26) (R V27)) (I 1));
   Set_ V59 (Sra16 (add16 (R V27) (R V28)) (I 1));
   Set_ V60 (Sra16 (add16 (R V28) (R V29)) (I 1));
   Set_ V61 (Sra16 (add16 (R V29) (R V30)) (I 1));
   Set_ V62 (Sra16 (add16 (R V30) (R V31)) (I 1));
   Set_ V63 (Sra16 (add16 (R V31) (R V31)) (I 1))]
  ++ [Set_ tr0_0 (lo16 (R V00) (R V32));
   Set_ tr0_1 (lo16 (R V01) (R V33));
   Set_ tr0_2 (hi16 (R V00) (R V32));
   Set_ tr0_3 (hi16 (R V01) (R V33));
   Set_ tr0_4 (lo16 (R V02) (R V34));
   Set_ tr0_5 (lo16 (R V03) (R V35));
   Set_ tr0_6 (hi16 (R V02) (R V34));
   Set_ tr0_7 (hi16 (R V03) (R V35));
   Set_ tr1_0 (lo32 (R tr0_0) (R tr0_1));
   Set_ tr1_1 (lo32 (R tr0_2) (R tr0_3));
   Set_ tr1_2 (hi32 (R tr0_0) (R tr0_1));
   Set_ tr1_3 (hi32 (R tr0_2) (R tr0_3));
   Set_ tr1_4 (lo32 (R tr0_4) (R tr0_5));
   Set_ tr1_5 (lo32 (R tr0_6) (R tr0_7));
   Set_ tr1_6 (hi32 (R tr0_4) (R tr0_5));
   Set_ tr1_7 (hi32 (R tr0_6) (R tr0_7));
   Set_ t0 (lo64 (R tr1_0) (R tr1_4));
   Set_ t1 (hi64 (R tr1_0) (R tr1_4));
   Set_ t2 (lo64 (R tr1_2) (R tr1_6));
   Set_ t3 (hi64 (R tr1_2) (R tr1_6));
   Set_ t4 (lo64 (R tr1_1) (R tr1_5));
   Set_ t5 (hi64 (R tr1_1) (R tr1_5));
   Set_ t6 (lo64 (R tr1_3) (R tr1_7));
   Set_ t7 (hi64 (R tr1_3) (R tr1_7));
   Set_ tr0_0 (lo16 (R V04) (R V36));
   Set_ tr0_1 (lo16 (R V05) (R V37));
   Set_ tr0_2 (hi16 (R V04) (R V36));
   Set_ tr0_3 (hi16 (R V05) (R V37));
   Set_ tr0_4 (lo16 (R V06) (R V38));
   Set_ tr0_5 (lo16 (R V07) (R V39));
   Set_ tr0_6 (hi16 (R V06) (R V38));
   Set_ tr0_7 (hi16 (R V07) (R V39));
   Set_ tr1_0 (lo32 (R tr0_0) (R tr0_1));
   Set_ tr1_1 (lo32 (R tr0_2) (R tr0_3));
   Set_ tr1_2 (hi32 (R tr0_0) (R tr0_1));
   Set_ tr1_3 (hi32 (R tr0_2) (R tr0_3));
   Set_ tr1_4 (lo32 (R tr0_4) (R tr0_5));
   Set_ tr1_5 (lo32 (R tr0_6) (R tr0_7));
   Set_ tr1_6 (hi32 (R tr0_4) (R tr0_5));
   Set_ tr1_7 (hi32 (R tr0_6) (R tr0_7));
   Set_ t8 (lo64 (R tr1_0) (R tr1_4));
   Set_ t9 (hi64 (R tr1_0) (R tr1_4));
   Set_ t10 (lo64 (R tr1_2) (R tr1_6));
   Set_ t11 (hi64 (R tr1_2) (R tr1_6));
   Set_ t12 (lo64 (R tr1_1) (R tr1_5));
   Set_ t13 (hi64 (R tr1_1) (R tr1_5));
   Set_ t14 (lo64 (R tr1_3) (R tr1_7));
   Set_ t15 (hi64 (R tr1_3) (R tr1_7));
   Set_ T00 (p20 (R t0) (R t8));
   Set_ T01 (p20 (R t1) (R t9));
   Set_ T02 (p20 (R t2) (R t10));
   Set_ T03 (p20 (R t3) (R t11));
   Set_ T04 (p20 (R t4) (R t12));
   Set_ T05 (p20 (R t5) (R t13));
   Set_ T06 (p20 (R t6) (R t14));
   Set_ T07 (p20 (R t7) (R t15));
   Set_ T08 (p31 (R t0) (R t8));
   Set_ T09 (p31 (R t1) (R t9));
   Set_ T10 (p31 (R t2) (R t10));
   Set_ T11 (p31 (R t3) (R t11));
   Set_ T12 (p31 (R t4) (R t12));
   Set_ T13 (p31 (R t5) (R t13));
   Set_ T14 (p31 (R t6) (R t14));
   Set_ T15 (p31 (R t7) (R t15))]
  ++ [Set_ tr0_0 (lo16 (R V08) (R V40));
   Set_ tr0_1 (lo16 (R V09) (R V41));
   Set_ tr0_2 (hi16 (R V08) (R V40));
   Set_ tr0_3 (hi16 (R V09) (R V41));
   Set_ tr0_4 (lo16 (R V10) (R V42));
   Set_ tr0_5 (lo16 (R V11) (R V43));
   Set_ tr0_6 (hi16 (R V10) (R V42));
   Set_ tr0_7 (hi16 (R V11) (R V43));
   Set_ tr1_0 (lo32 (R tr0_0) (R tr0_1));
   Set_ tr1_1 (lo32 (R tr0_2) (R tr0_3));
   Set_ tr1_2 (hi32 (R tr0_0) (R tr0_1));
   Set_ tr1_3 (hi32 (R tr0_2) (R tr0_3));
   Set_ tr1_4 (lo32 (R tr0_4) (R tr0_5));
   Set_ tr1_5 (lo32 (R tr0_6) (R tr0_7));
   Set_ tr1_6 (hi32 (R tr0_4) (R tr0_5));
   Set_ tr1_7 (hi32 (R tr0_6) (R tr0_7));
   Set_ t0 (lo64 (R tr1_0) (R tr1_4));
   Set_ t1 (hi64 (R tr1_0) (R tr1_4));
   Set_ t2 (lo64 (R tr1_2) (R tr1_6));
   Set_ t3 (hi64 (R tr1_2) (R tr1_6));
   Set_ t4 (lo64 (R tr1_1) (R tr1_5));
   Set_ t5 (hi64 (R tr1_1) (R tr1_5));
   Set_ t6 (lo64 (R tr1_3) (R tr1_7));
   Set_ t7 (hi64 (R tr1_3) (R tr1_7));
   Set_ tr0_0 (lo16 (R V12) (R V44));
   Set_ tr0_1 (lo16 (R V13) (R V45));
   Set_ tr0_2 (hi16 (R V12) (R V44));
   Set_ tr0_3 (hi16 (R V13) (R V45));
   Set_ tr0_4 (lo16 (R V14) (R V46));
   Set_ tr0_5 (lo16 (R V15) (R V47));
   Set_ tr0_6 (hi16 (R V14) (R V46));
   Set_ tr0_7 (hi16 (R V15) (R V47));
   Set_ tr1_0 (lo32 (R tr0_0) (R tr0_1));
   Set_ tr1_1 (lo32 (R tr0_2) (R tr0_3));
   Set_ tr1_2 (hi32 (R tr0_0) (R tr0_1));
   Set_ tr1_3 (hi32 (R tr0_2) (R tr0_3));
   Set_ tr1_4 (lo32 (R tr0_4) (R tr0_5));
   Set_ tr1_5 (lo32 (R tr0_6) (R tr0_7));
   Set_ tr1_6 (hi32 (R tr0_4) (R tr0_5));
   Set_ tr1_7 (hi32 (R tr0_6) (R tr0_7));
   Set_ t8 (lo64 (R tr1_0) (R tr1_4));
   Set_ t9 (hi64 (R tr1_0) (R tr1_4));
   Set_ t10 (lo64 (R tr1_2) (R tr1_6));
   Set_ t11 (hi64 (R tr1_2) (R tr1_6));
   Set_ t12 (lo64 (R tr1_1) (R tr1_5));
   Set_ t13 (hi64 (R tr1_1) (R tr1_5));
   Set_ t14 (lo64 (R tr1_3) (R tr1_7));
   Set_ t15 (hi64 (R tr1_3) (R tr1_7));
   Set_ (T00 + 1) (p20 (R t0) (R t8));
   Set_ (T01 + 1) (p20 (R t1) (R t9));
   Set_ (T02 + 1) (p20 (R t2) (R t10));
   Set_ (T03 + 1) (p20 (R t3) (R t11));
   Set_ (T04 + 1) (p20 (R t4) (R t12));
   Set_ (T05 + 1) (p20 (R t5) (R t13));
   Set_ (T06 + 1) (p20 (R t6) (R t14));
   Set_ (T07 + 1) (p20 (R t7) (R t15));
   Set_ (T08 + 1) (p31 (R t0) (R t8));
   Set_ (T09 + 1) (p31 (R t1) (R t9));
   Set_ (T10 + 1) (p31 (R t2) (R t10));
   Set_ (T11 + 1) (p31 (R t3) (R t11));
   Set_ (T12 + 1) (p31 (R t4) (R t12));
   Set_ (T13 + 1) (p31 (R t5) (R t13));
   Set_ (T14 + 1) (p31 (R t6) (R t14));
   Set_ (T15 + 1) (p31 (R t7) (R t15))]
  ++ [Set_ tr0_0 (lo16 (R V16) (R V48));
   Set_ tr0_1 (lo16 (R V17) (R V49));
   Set_ tr0_2 (hi16 (R V16) (R V48));
   Set_ tr0_3 (hi16 (R V17) (R V49));
   Set_ tr0_4 (lo16 (R V18) (R V50));
   Set_ tr0_5 (lo16 (R V19) (R V51));
   Set_ tr0_6 (hi16 (R V18) (R V50));
   Set_ tr0_7 (hi16 (R V19) (R V51));
   Set_ tr1_0 (lo32 (R tr0_0) (R tr0_1));
   Set_ tr1_1 (lo32 (R tr0_2) (R tr0_3));
   Set_ tr1_2 (hi32 (R tr0_0) (R tr0_1));
   Set_ tr1_3 (hi32 (R tr0_2) (R tr0_3));
   Set_ tr1_4 (lo32 (R tr0_4) (R tr0_5));
   Set_ tr1_5 (lo32 (R tr0_6) (R tr0_7));
   Set_ tr1_6 (hi32 (R tr0_4) (R tr0_5));
   Set_ tr1_7 (hi32 (R tr0_6) (R tr0_7));
   Set_ t0 (lo64 (R tr1_0) (R tr1_4));
   Set_ t1 (hi64 (R tr1_0) (R tr1_4));
   Set_ t2 (lo64 (R tr1_2) (R tr1_6));
   Set_ t3 (hi64 (R tr1_2) (R tr1_6));
   Set_ t4 (lo64 (R tr1_1) (R tr1_5));
   Set_ t5 (hi64 (R tr1_1) (R tr1_5));
   Set_ t6 (lo64 (R tr1_3) (R tr1_7));
   Set_ t7 (hi64 (R tr1_3) (R tr1_7));
   Set_ tr0_0 (lo16 (R V20) (R V52));
   Set_ tr0_1 (lo16 (R V21) (R V53));
   Set_ tr0_2 (hi16 (R V20) (R V52));
   Set_ tr0_3 (hi16 (R V21) (R V53));
   Set_ tr0_4 (lo16 (R V22) (R V54));
   Set_ tr0_5 (lo16 (R V23) (R V55));
   Set_ tr0_6 (hi16 (R V22) (R V54));
   Set_ tr0_7 (hi16 (R V23) (R V55));
   Set_ tr1_0 (lo32 (R tr0_0) (R tr0_1));
   Set_ tr1_1 (lo32 (R tr0_2) (R tr0_3));
   Set_ tr1_2 (hi32 (R tr0_0) (R tr0_1));
   Set_ tr1_3 (hi32 (R tr0_2) (R tr0_3));
   Set_ tr1_4 (lo32 (R tr0_4) (R tr0_5));
   Set_ tr1_5 (lo32 (R tr0_6) (R tr0_7));
   Set_ tr1_6 (hi32 (R tr0_4) (R tr0_5));
   Set_ tr1_7 (hi32 (R tr0_6) (R tr0_7));
   Set_ t8 (lo64 (R tr1_0) (R tr1_4));
   Set_ t9 (hi64 (R tr1_0) (R tr1_4));
   Set_ t10 (lo64 (R tr1_2) (R tr1_6));
   Set_ t11 (hi64 (R tr1_2) (R tr1_6));
   Set_ t12 (lo64 (R tr1_1) (R tr1_5));
   Set_ t13 (hi64 (R tr1_1) (R tr1_5));
   Set_ t14 (lo64 (R tr1_3) (R tr1_7));
   Set_ t15 (hi64 (R tr1_3) (R tr1_7));
   Set_ (T00 + 2) (p20 (R t0) (R t8));
   Set_ (T01 + 2) (p20 (R t1) (R t9));
   Set_ (T02 + 2) (p20 (R t2) (R t10));
   Set_ (T03 + 2) (p20 (R t3) (R t11));
   Set_ (T04 + 2) (p20 (R t4) (R t12));
   Set_ (T05 + 2) (p20 (R t5) (R t13));
   Set_ (T06 + 2) (p20 (R t6) (R t14));
   Set_ (T07 + 2) (p20 (R t7) (R t15));
   Set_ (T08 + 2) (p31 (R t0) (R t8));
   Set_ (T09 + 2) (p31 (R t1) (R t9));
   Set_ (T10 + 2) (p31 (R t2) (R t10));
   Set_ (T11 + 2) (p31 (R t3) (R t11));
   Set_ (T12 + 2) (p31 (R t4) (R t12));
   Set_ (T13 + 2) (p31 (R t5) (R t13));
   Set_ (T14 + 2) (p31 (R t6) (R t14));
   Set_ (T15 + 2) (p31 (R t7) (R t15))]
  ++ [Set_ tr0_0 (lo16 (R V24) (R V56));
   Set_ tr0_1 (lo16 (R V25) (R V57));
   Set_ tr0_2 (hi16 (R V24) (R V56));
   Set_ tr0_3 (hi16 (R V25) (R V57));
   Set_ tr0_4 (lo16 (R V26) (R V58));
   Set_ tr0_5 (lo16 (R V27) (R V59));
   Set_ tr0_6 (hi16 (R V26) (R V58));
   Set_ tr0_7 (hi16 (R V27) (R V59));
   Set_ tr1_0 (lo32 (R tr0_0) (R tr0_1));
   Set_ tr1_1 (lo32 (R tr0_2) (R tr0_3));
   Set_ tr1_2 (hi32 (R tr0_0) (R tr0_1));
   Set_ tr1_3 (hi32 (R tr0_2) (R tr0_3));
   Set_ tr1_4 (lo32 (R tr0_4) (R tr0_5));
   Set_ tr1_5 (lo32 (R tr0_6) (R tr0_7));
   Set_ tr1_6 (hi32 (R tr0_4) (R tr0_5));
   Set_ tr1_7 (hi32 (R tr0_6) (R tr0_7));
   Set_ t0 (lo64 (R tr1_0) (R tr1_4));
   Set_ t1 (hi64 (R tr1_0) (R tr1_4));
   Set_ t2 (lo64 (R tr1_2) (R tr1_6));
   Set_ t3 (hi64 (R tr1_2) (R tr1_6));
   Set_ t4 (lo64 (R tr1_1) (R tr1_5));
   Set_ t5 (hi64 (R tr1_1) (R tr1_5));
   Set_ t6 (lo64 (R tr1_3) (R tr1_7));
   Set_ t7 (hi64 (R tr1_3) (R tr1_7));
   Set_ tr0_0 (lo16 (R V28) (R V60));
   Set_ tr0_1 (lo16 (R V29) (R V61));
   Set_ tr0_2 (hi16 (R V28) (R V60));
   Set_ tr0_3 (hi16 (R V29) (R V61));
   Set_ tr0_4 (lo16 (R V30) (R V62));
   Set_ tr0_5 (lo16 (R V31) (R V63));
   Set_ tr0_6 (hi16 (R V30) (R V62));
   Set_ tr0_7 (hi16 (R V31) (R V63));
   Set_ tr1_0 (lo32 (R tr0_0) (R tr0_1));
   Set_ tr1_1 (lo32 (R tr0_2) (R tr0_3));
   Set_ tr1_2 (hi32 (R tr0_0) (R tr0_1));
   Set_ tr1_3 (hi32 (R tr0_2) (R tr0_3));
   Set_ tr1_4 (lo32 (R tr0_4) (R tr0_5));
   Set_ tr1_5 (lo32 (R tr0_6) (R tr0_7));
   Set_ tr1_6 (hi32 (R tr0_4) (R tr0_5));
   Set_ tr1_7 (hi32 (R tr0_6) (R tr0_7));
   Set_ t8 (lo64 (R tr1_0) (R tr1_4));
   Set_ t9 (hi64 (R tr1_0) (R tr1_4));
   Set_ t10 (lo64 (R tr1_2) (R tr1_6));
   Set_ t11 (hi64 (R tr1_2) (R tr1_6));
   Set_ t12 (lo64 (R tr1_1) (R tr1_5));
   Set_ t13 (hi64 (R tr1_1) (R tr1_5));
   Set_ t14 (lo64 (R tr1_3) (R tr1_7));
   Set_ t15 (hi64 (R tr1_3) (R tr1_7));
   Set_ (T00 + 3) (p20 (R t0) (R t8));
   Set_ (T01 + 3) (p20 (R t1) (R t9));
   Set_ (T02 + 3) (p20 (R t2) (R t10));
   Set_ (T03 + 3) (p20 (R t3) (R t11));
   Set_ (T04 + 3) (p20 (R t4) (R t12));
   Set_ (T05 + 3) (p20 (R t5) (R t13));
   Set_ (T06 + 3) (p20 (R t6) (R t14));
   Set_ (T07 + 3) (p20 (R t7) (R t15));
   Set_ (T08 + 3) (p31 (R t0) (R t8));
   Set_ (T09 + 3) (p31 (R t1) (R t9));
   Set_ (T10 + 3) (p31 (R t2) (R t10));
   Set_ (T11 + 3) (p31 (R t3) (R t11));
   Set_ (T12 + 3) (p31 (R t4) (R t12));
   Set_ (T13 + 3) (p31 (R t5) (R t13));
   Set_ (T14 + 3) (p31 (R t6) (R t14));
   Set_ (T15 + 3) (p31 (R t7) (R t15))]
  ++ loop 4 (fun i =>
    [St 16 0 0 (16 * i) (R (T00 + i));
     St 16 0 0 (16 * i + 64) (R (T01 + i));
     St 16 0 0 (16 * i + 128) (R (T02 + i));
     St 16 0 0 (16 * i + 192) (R (T03 + i));
     St 16 0 0 (16 * i + 256) (R (T04 + i));
     St 16 0 0 (16 * i + 320) (R (T05 + i));
     St 16 0 0 (16 * i + 384) (R (T06 + i));
     St 16 0 0 (16 * i + 448) (R (T07 + i));
     St 16 0 0 (16 * i + 512) (R (T08 + i));
     St 16 0 0 (16 * i + 576) (R (T09 + i));
     St 16 0 0 (16 * i + 640) (R (T10 + i));
     St 16 0 0 (16 * i + 704) (R (T11 + i));
     St 16 0 0 (16 * i + 768) (R (T12 + i));
     St 16 0 0 (16 * i + 832) (R (T13 + i));
     St 16 0 0 (16 * i + 896) (R (T14 + i));
     St 16 0 0 (16 * i + 960) (R (T15 + i))]).

(** vec/intrinsic_idct_avx2.cc:1685-1903 [inv_wavelet_16x64_avx2]. *)
Definition inv_wavelet_16x64_avx2 : list ins :=
  let tr0_0 := 1 in let tr0_1 := 2 in let tr0_2 := 3 in let tr0_3 := 4 in let tr0_4 := 5 in let tr0_5 := 6 in let tr0_6 := 7 in let tr0_7 := 8 in
  let tr1_0 := 9 in let tr1_1 := 10 in let tr1_2 := 11 in let tr1_3 := 12 in let tr1_4 := 13 in let tr1_5 := 14 in let tr1_6 := 15 in
  let tr1_7 := 16 in let t0 := 17 in let t1 := 18 in let t2 := 19 in let t3 := 20 in let t4 := 21 in let t5 := 22 in let t6 := 23 in let t7 := 24 in
  let t8 := 25 in let t9 := 26 in let t10 := 27 in let t11 := 28 in let t12 := 29 in let t13 := 30 in let t14 := 31 in let t15 := 32 in
  let S00 := 33 in let S01 := 34 in let S02 := 35 in let S03 := 36 in let S04 := 37 in let S05 := 38 in let S06 := 39 in let S07 := 40 in
  let S08 := 41 in let S09 := 42 in let S10 := 43 in let S11 := 44 in let S12 := 45 in let S13 := 46 in let S14 := 47 in let S15 := 48 in
  let S16 := 49 in let S17 := 50 in let S18 := 51 in let S19 := 52 in let S20 := 53 in let S21 := 54 in let S22 := 55 in let S23 := 56 in
  let S24 := 57 in let S25 := 58 in let S26 := 59 in let S27 := 60 in let S28 := 61 in let S29 := 62 in let S30 := 63 in let S31 := 64 in
  let S32 := 65 in let S33 := 66 in let S34 := 67 in let S35 := 68 in let S36 := 69 in let S37 := 70 in let S38 := 71 in let S39 := 72 in
  let S40 := 73 in let S41 := 74 in let S42 := 75 in let S43 := 76 in let S44 := 77 in let S45 := 78 in let S46 := 79 in let S47 := 80 in
  let S48 := 81 in let S49 := 82 in let S50 := 83 in let S51 := 84 in let S52 := 85 in let S53 := 86 in let S54 := 87 in let S55 := 88 in
  let S56 := 89 in let S57 := 90 in let S58 := 91 in let S59 := 92 in let S60 := 93 in let S61 := 94 in let S62 := 95 in let S63 := 96 in
  let TT00 := 97 in let TT01 := 105 in let TT02 := 113 in let TT03 := 121 in let TT04 := 129 in let TT05 := 137 in let TT06 := 145 in
  let TT07 := 153 in let T00 := 161 in let T01 := 165 in let T02 := 169 in let T03 := 173 in let T04 := 177 in let T05 := 181 in let T06 := 185 in
  let T07 := 189 in let T08 := 193 in let T09 := 197 in let T10 := 201 in let T11 := 205 in let T12 := 209 in let T13 := 213 in let T14 := 217 in
  let T15 := 221 in let V00 := 225 in let V01 := 226 in let V02 := 227 in let V03 := 228 in let V04 := 229 in let V05 := 230 in let V06 := 231 in
  let V07 := 232 in let V08 := 233 in let V09 := 234 in let V10 := 235 in let V11 := 236 in let V12 := 237 in let V13 := 238 in let V14 := 239 in
  let V15 := 240 in let V16 := 241 in let V17 := 242 in let V18 := 243 in let V19 := 244 in let V20 := 245 in let V21 := 246 in let V22 := 247 in
  let V23 := 248 in let V24 := 249 in let V25 := 250 in let V26 := 251 in let V27 := 252 in let V28 := 253 in let V29 := 254 in let V30 := 255 in
  let V31 := 256 in let V32 := 257 in let V33 := 258 in let V34 := 259 in let V35 := 260 in let V36 := 261 in let V37 := 262 in let V38 := 263 in
  let V39 := 264 in let V40 := 265 in let V41 := 266 in let V42 := 267 in let V43 := 268 in let V44 := 269 in let V45 := 270 in let V46 := 271 in
  let V47 := 272 in let V48 := 273 in let V49 := 274 in let V50 := 275 in let V51 := 276 in let V52 := 277 in let V53 := 278 in let V54 := 279 in
  let V55 := 280 in let V56 := 281 in let V57 := 282 in let V58 := 283 in let V59 := 284 in let V60 := 285 in let V61 := 286 in let V62 := 287 in
  let V63 := 288 in
  [Set_ S00 (Sra16 (Ld 16 0) (I 1));
   Set_ S01 (Sra16 (Ld 16 8) (I 1));
   Set_ S02 (Sra16 (Ld 16 16) (I 1));
   Set_ S03 (Sra16 (Ld 16 24) (I 1));
   Set_ S04 (Sra16 (Ld 16 32) (I 1));
   Set_ S05 (Sra16 (Ld 16 40) (I 1));
   Set_ S06 (Sra16 (Ld 16 48) (I 1));
   Set_ S07 (Sra16 (Ld 16 56) (I 1));
   Set_ S08 (Sra16 (Ld 16 64) (I 1));
   Set_ S09 (Sra16 (Ld 16 72) (I 1));
   Set_ S10 (Sra16 (Ld 16 80) (I 1));
   Set_ S11 (Sra16 (Ld 16 88) (I 1));
   Set_ S12 (Sra16 (Ld 16 96) (I 1));
   Set_ S13 (Sra16 (Ld 16 104) (I 1));
   Set_ S14 (Sra16 (Ld 16 112) (I 1));
   Set_ S15 (Sra16 (Ld 16 120) (I 1));
   Set_ S16 (Sra16 (Ld 16 128) (I 1));
   Set_ S17 (Sra16 (Ld 16 136) (I 1));
   Set_ S18 (Sra16 (Ld 16 144) (I 1));
   Set_ S19 (Sra16 (Ld 16 152) (I 1));
   Set_ S20 (Sra16 (Ld 16 160) (I 1));
   Set_ S21 (Sra16 (Ld 16 168) (I 1));
   Set_ S22 (Sra16 (Ld 16 176) (I 1));
   Set_ S23 (Sra16 (Ld 16 184) (I 1));
   Set_ S24 (Sra16 (Ld 16 192) (I 1));
   Set_ S25 (Sra16 (Ld 16 200) (I 1));
   Set_ S26 (Sra16 (Ld 16 208) (I 1));
   Set_ S27 (Sra16 (Ld 16 216) (I 1));
   Set_ S28 (Sra16 (Ld 16 224) (I 1));
   Set_ S29 (Sra16 (Ld 16 232) (I 1));
   Set_ S30 (Sra16 (Ld 16 240) (I 1));
   Set_ S31 (Sra16 (Ld 16 248) (I 1));
   Set_ S32 (Sra16 (add16 (R S00) (R S01)) (I 1));
   Set_ S33 (Sra16 (add16 (R S01) (R S02)) (I 1));
   Set_ S34 (Sra16 (add16 (R S02) (R S03)) (I 1));
   Set_ S35 (Sra16 (add16 (R S03) (R S04)) (I 1));
   Set_ S36 (Sra16 (add16 (R S04) (R S05)) (I 1));
   Set_ S37 (Sra16 (add16 (R S05) (R S06)) (I 1));
   Set_ S38 (Sra16 (add16 (R S06) (R S07)) (I 1));
   Set_ S39 (Sra16 (add16 (R S07) (R S08)) (I 1));
   Set_ S40 (Sra16 (add16 (R S08) (R S09)) (I 1));
   Set_ S41 (Sra16 (add16 (R S09) (R S10)) (I 1));
   Set_ S42 (Sra16 (add16 (R S10) (R S11)) (I 1));
   Set_ S43 (Sra16 (add16 (R S11) (R S12)) (I 1));
   Set_ S44 (Sra16 (add16 (R S12) (R S13)) (I 1));
   Set_ S45 (Sra16 (add16 (R S13) (R S14)) (I 1));
   Set_ S46 (Sra16 (add16 (R S14) (R S15)) (I 1));
   Set_ S47 (Sra16 (add16 (R S15) (R S16)) (I 1));
   Set_ S48 (Sra16 (add16 (R S16) (R S17)) (I 1));
   Set_ S49 (Sra16 (add16 (R S17) (R S18)) (I 1));
   Set_ S50 (Sra16 (add16 (R S18) (R S19)) (I 1));
   Set_ S51 (Sra16 (add16 (R S19) (R S20)) (I 1));
   Set_ S52 (Sra16 (add16 (R S20) (R S21)) (I 1));
   Set_ S53 (Sra16 (add16 (R S21) (R S22)) (I 1));
   Set_ S54 (Sra16 (add16 (R S22) (R S23)) (I 1));
   Set_ S55 (Sra16 (add16 (R S23) (R S24)) (I 1));
   Set_ S56 (Sra16 (add16 (R S24) (R S25)) (I 1));
   Set_ S57 (Sra16 (add16 (R S25) (R S26)) (I 1));
   Set_ S58 (Sra16 (add16 (R S26) (R S27)) (I 1));
   Set_ S59 (Sra16 (add16 (R S27) (R S28)) (I 1));
   Set_ S60 (Sra16 (add16 (R S28) (R S29)) (I 1));
   Set_ S61 (Sra16 (add16 (R S29) (R S30)) (I 1));
   Set_ S62 (Sra16 (add16 (R S30) (R S31)) (I 1));
   Set_ S63 (Sra16 (add16 (R S31) (R S31)) (I 1))]
  ++ [Set_ tr0_0 (lo16 (R S00) (R S32));
   Set_ tr0_1 (lo16 (R S01) (R S33));
   Set_ tr0_2 (hi16 (R S00) (R S32));
   Set_ tr0_3 (hi16 (R S01) (R S33));
   Set_ tr0_4 (lo16 (R S02) (R S34));
   Set_ tr0_5 (lo16 (R S03) (R S35));
   Set_ tr0_6 (hi16 (R S02) (R S34));
   Set_ tr0_7 (hi16 (R S03) (R S35));
   Set_ tr1_0 (lo32 (R tr0_0) (R tr0_1));
   Set_ tr1_1 (lo32 (R tr0_2) (R tr0_3));
   Set_ tr1_2 (hi32 (R tr0_0) (R tr0_1));
   Set_ tr1_3 (hi32 (R tr0_2) (R tr0_3));
   Set_ tr1_4 (lo32 (R tr0_4) (R tr0_5));
   Set_ tr1_5 (lo32 (R tr0_6) (R tr0_7));
   Set_ tr1_6 (hi32 (R tr0_4) (R tr0_5));
   Set_ tr1_7 (hi32 (R tr0_6) (R tr0_7));
   Set_ TT00 (lo64 (R tr1_0) (R tr1_4));
   Set_ TT01 (hi64 (R tr1_0) (R tr1_4));
   Set_ TT02 (lo64 (R tr1_2) (R tr1_6));
   Set_ TT03 (hi64 (R tr1_2) (R tr1_6));
   Set_ TT04 (lo64 (R tr1_1) (R tr1_5));
   Set_ TT05 (hi64 (R tr1_1) (R tr1_5));
   Set_ TT06 (lo64 (R tr1_3) (R tr1_7));
   Set_ TT07 (hi64 (R tr1_3) (R tr1_7));
   Set_ tr0_0 (lo16 (R S04) (R S36));
   Set_ tr0_1 (lo16 (R S05) (R S37));
   Set_ tr0_2 (hi16 (R S04) (R S36));
   Set_ tr0_3 (hi16 (R S05) (R S37));
   Set_ tr0_4 (lo16 (R S06) (R S38));
   Set_ tr0_5 (lo16 (R S07) (R S39));
   Set_ tr0_6 (hi16 (R S06) (R S38));
   Set_ tr0_7 (hi16 (R S07) (R S39));
   Set_ tr1_0 (lo32 (R tr0_0) (R tr0_1));
   Set_ tr1_1 (lo32 (R tr0_2) (R tr0_3));
   Set_ tr1_2 (hi32 (R tr0_0) (R tr0_1));
   Set_ tr1_3 (hi32 (R tr0_2) (R tr0_3));
   Set_ tr1_4 (lo32 (R tr0_4) (R tr0_5));
   Set_ tr1_5 (lo32 (R tr0_6) (R tr0_7));
   Set_ tr1_6 (hi32 (R tr0_4) (R tr0_5));
   Set_ tr1_7 (hi32 (R tr0_6) (R tr0_7));
   Set_ (TT00 + 1) (lo64 (R tr1_0) (R tr1_4));
   Set_ (TT01 + 1) (hi64 (R tr1_0) (R tr1_4));
   Set_ (TT02 + 1) (lo64 (R tr1_2) (R tr1_6));
   Set_ (TT03 + 1) (hi64 (R tr1_2) (R tr1_6));
   Set_ (TT04 + 1) (lo64 (R tr1_1) (R tr1_5));
   Set_ (TT05 + 1) (hi64 (R tr1_1) (R tr1_5));
   Set_ (TT06 + 1) (lo64 (R tr1_3) (R tr1_7));
   Set_ (TT07 + 1) (hi64 (R tr1_3) (R tr1_7));
   Set_ tr0_0 (lo16 (R S08) (R S40));
   Set_ tr0_1 (lo16 (R S09) (R S41));
   Set_ tr0_2 (hi16 (R S08) (R S40));
   Set_ tr0_3 (hi16 (R S09) (R S41));
   Set_ tr0_4 (lo16 (R S10) (R S42));
   Set_ tr0_5 (lo16 (R S11) (R S43));
   Set_ tr0_6 (hi16 (R S10) (R S42));
   Set_ tr0_7 (hi16 (R S11) (R S43));
   Set_ tr1_0 (lo32 (R tr0_0) (R tr0_1));
   Set_ tr1_1 (lo32 (R tr0_2) (R tr0_3));
   Set_ tr1_2 (hi32 (R tr0_0) (R tr0_1));
   Set_ tr1_3 (hi32 (R tr0_2) (R tr0_3));
   Set_ tr1_4 (lo32 (R tr0_4) (R tr0_5));
   Set_ tr1_5 (lo32 (R tr0_6) (R tr0_7));
   Set_ tr1_6 (hi32 (R tr0_4) (R tr0_5));
   Set_ tr1_7 (hi32 (R tr0_6) (R tr0_7))]
  ++ [Set_ (TT00 + 2) (lo64 (R tr1_0) (R tr1_4));
   Set_ (TT01 + 2) (hi64 (R tr1_0) (R tr1_4));
   Set_ (TT02 + 2) (lo64 (R tr1_2) (R tr1_6));
   Set_ (TT03 + 2) (hi64 (R tr1_2) (R tr1_6));
   Set_ (TT04 + 2) (lo64 (R tr1_1) (R tr1_5));
   Set_ (TT05 + 2) (hi64 (R tr1_1) (R tr1_5));
   Set_ (TT06 + 2) (lo64 (R tr1_3) (R tr1_7));
   Set_ (TT07 + 2) (hi64 (R tr1_3) (R tr1_7));
   Set_ tr0_0 (lo16 (R S12) (R S44));
   Set_ tr0_1 (lo16 (R S13) (R S45));
   Set_ tr0_2 (hi16 (R S12) (R S44));
   Set_ tr0_3 (hi16 (R S13) (R S45));
   Set_ tr0_4 (lo16 (R S14) (R S46));
   Set_ tr0_5 (lo16 (R S15) (R S47));
   Set_ tr0_6 (hi16 (R S14) (R S46));
   Set_ tr0_7 (hi16 (R S15) (R S47));
   Set_ tr1_0 (lo32 (R tr0_0) (R tr0_1));
   Set_ tr1_1 (lo32 (R tr0_2) (R tr0_3));
   Set_ tr1_2 (hi32 (R tr0_0) (R tr0_1));
   Set_ tr1_3 (hi32 (R tr0_2) (R tr0_3));
   Set_ tr1_4 (lo32 (R tr0_4) (R tr0_5));
   Set_ tr1_5 (lo32 (R tr0_6) (R tr0_7));
   Set_ tr1_6 (hi32 (R tr0_4) (R tr0_5));
   Set_ tr1_7 (hi32 (R tr0_6) (R tr0_7));
   Set_ (TT00 + 3) (lo64 (R tr1_0) (R tr1_4));
   Set_ (TT01 + 3) (hi64 (R tr1_0) (R tr1_4));
   Set_ (TT02 + 3) (lo64 (R tr1_2) (R tr1_6));
   Set_ (TT03 + 3) (hi64 (R tr1_2) (R tr1_6));
   Set_ (TT04 + 3) (lo64 (R tr1_1) (R tr1_5));
   Set_ (TT05 + 3) (hi64 (R tr1_1) (R tr1_5));
   Set_ (TT06 + 3) (lo64 (R tr1_3) (R tr1_7));
   Set_ (TT07 + 3) (hi64 (R tr1_3) (R tr1_7));
   Set_ tr0_0 (lo16 (R S16) (R S48));
   Set_ tr0_1 (lo16 (R S17) (R S49));
   Set_ tr0_2 (hi16 (R S16) (R S48));
   Set_ tr0_3 (hi16 (R S17) (R S49));
   Set_ tr0_4 (lo16 (R S18) (R S50));
   Set_ tr0_5 (lo16 (R S19) (R S51));
   Set_ tr0_6 (hi16 (R S18) (R S50));
   Set_ tr0_7 (hi16 (R S19) (R S51));
   Set_ tr1_0 (lo32 (R tr0_0) (R tr0_1));
   Set_ tr1_1 (lo32 (R tr0_2) (R tr0_3));
   Set_ tr1_2 (hi32 (R tr0_0) (R tr0_1));
   Set_ tr1_3 (hi32 (R tr0_2) (R tr0_3));
   Set_ tr1_4 (lo32 (R tr0_4) (R tr0_5));
   Set_ tr1_5 (lo32 (R tr0_6) (R tr0_7));
   Set_ tr1_6 (hi32 (R tr0_4) (R tr0_5));
   Set_ tr1_7 (hi32 (R tr0_6) (R tr0_7));
   Set_ (TT00 + 4) (lo64 (R tr1_0) (R tr1_4));
   Set_ (TT01 + 4) (hi64 (R tr1_0) (R tr1_4));
   Set_ (TT02 + 4) (lo64 (R tr1_2) (R tr1_6));
   Set_ (TT03 + 4) (hi64 (R tr1_2) (R tr1_6));
   Set_ (TT04 + 4) (lo64 (R tr1_1) (R tr1_5));
   Set_ (TT05 + 4) (hi64 (R tr1_1) (R tr1_5));
   Set_ (TT06 + 4) (lo64 (R tr1_3) (R tr1_7));
   Set_ (TT07 + 4) (hi64 (R tr1_3) (R tr1_7));
   Set_ tr0_0 (lo16 (R S20) (R S52));
   Set_ tr0_1 (lo16 (R S21) (R S53));
   Set_ tr0_2 (hi16 (R S20) (R S52));
   Set_ tr0_3 (hi16 (R S21) (R S53));
   Set_ tr0_4 (lo16 (R S22) (R S54));
   Set_ tr0_5 (lo16 (R S23) (R S55));
   Set_ tr0_6 (hi16 (R S22) (R S54));
   Set_ tr0_7 (hi16 (R S23) (R S55))]
  ++ [Set_ tr1_0 (lo32 (R tr0_0) (R tr0_1));
   Set_ tr1_1 (lo32 (R tr0_2) (R tr0_3));
   Set_ tr1_2 (hi32 (R tr0_0) (R tr0_1));
   Set_ tr1_3 (hi32 (R tr0_2) (R tr0_3));
   Set_ tr1_4 (lo32 (R tr0_4) (R tr0_5));
   Set_ tr1_5 (lo32 (R tr0_6) (R tr0_7));
   Set_ tr1_6 (hi32 (R tr0_4) (R tr0_5));
   Set_ tr1_7 (hi32 (R tr0_6) (R tr0_7));
   Set_ (TT00 + 5) (lo64 (R tr1_0) (R tr1_4));
   Set_ (TT01 + 5) (hi64 (R tr1_0) (R tr1_4));
   Set_ (TT02 + 5) (lo64 (R tr1_2) (R tr1_6));
   Set_ (TT03 + 5) (hi64 (R tr1_2) (R tr1_6));
   Set_ (TT04 + 5) (lo64 (R tr1_1) (R tr1_5));
   Set_ (TT05 + 5) (hi64 (R tr1_1) (R tr1_5));
   Set_ (TT06 + 5) (lo64 (R tr1_3) (R tr1_7));
   Set_ (TT07 + 5) (hi64 (R tr1_3) (R tr1_7));
   Set_ tr0_0 (lo16 (R S24) (R S56));
   Set_ tr0_1 (lo16 (R S25) (R S57));
   Set_ tr0_2 (hi16 (R S24) (R S56));
   Set_ tr0_3 (hi16 (R S25) (R S57));
   Set_ tr0_4 (lo16 (R S26) (R S58));
   Set_ tr0_5 (lo16 (R S27) (R S59));
   Set_ tr0_6 (hi16 (R S26) (R S58));
   Set_ tr0_7 (hi16 (R S27) (R S59));
   Set_ tr1_0 (lo32 (R tr0_0) (R tr0_1));
   Set_ tr1_1 (lo32 (R tr0_2) (R tr0_3));
   Set_ tr1_2 (hi32 (R tr0_0) (R tr0_1));
   Set_ tr1_3 (hi32 (R tr0_2) (R tr0_3));
   Set_ tr1_4 (lo32 (R tr0_4) (R tr0_5));
   Set_ tr1_5 (lo32 (R tr0_6) (R tr0_7));
   Set_ tr1_6 (hi32 (R tr0_4) (R tr0_5));
   Set_ tr1_7 (hi32 (R tr0_6) (R tr0_7));
   Set_ (TT00 + 6) (lo64 (R tr1_0) (R tr1_4));
   Set_ (TT01 + 6) (hi64 (R tr1_0) (R tr1_4));
   Set_ (TT02 + 6) (lo64 (R tr1_2) (R tr1_6));
   Set_ (TT03 + 6) (hi64 (R tr1_2) (R tr1_6));
   Set_ (TT04 + 6) (lo64 (R tr1_1) (R tr1_5));
   Set_ (TT05 + 6) (hi64 (R tr1_1) (R tr1_5));
   Set_ (TT06 + 6) (lo64 (R tr1_3) (R tr1_7));
   Set_ (TT07 + 6) (hi64 (R tr1_3) (R tr1_7));
   Set_ tr0_0 (lo16 (R S28) (R S60));
   Set_ tr0_1 (lo16 (R S29) (R S61));
   Set_ tr0_2 (hi16 (R S28) (R S60));
   Set_ tr0_3 (hi16 (R S29) (R S61));
   Set_ tr0_4 (lo16 (R S30) (R S62));
   Set_ tr0_5 (lo16 (R S31) (R S63));
   Set_ tr0_6 (hi16 (R S30) (R S62));
   Set_ tr0_7 (hi16 (R S31) (R S63));
   Set_ tr1_0 (lo32 (R tr0_0) (R tr0_1));
   Set_ tr1_1 (lo32 (R tr0_2) (R tr0_3));
   Set_ tr1_2 (hi32 (R tr0_0) (R tr0_1));
   Set_ tr1_3 (hi32 (R tr0_2) (R tr0_3));
   Set_ tr1_4 (lo32 (R tr0_4) (R tr0_5));
   Set_ tr1_5 (lo32 (R tr0_6) (R tr0_7));
   Set_ tr1_6 (hi32 (R tr0_4) (R tr0_5));
   Set_ tr1_7 (hi32 (R tr0_6) (R tr0_7));
   Set_ (TT00 + 7) (lo64 (R tr1_0) (R tr1_4));
   Set_ (TT01 + 7) (hi64 (R tr1_0) (R tr1_4));
   Set_ (TT02 + 7) (lo64 (R tr1_2) (R tr1_6));
   Set_ (TT03 + 7) (hi64 (R tr1_2) (R tr1_6));
   Set_ (TT04 + 7) (lo64 (R tr1_1) (R tr1_5));
   Set_ (TT05 + 7) (hi64 (R tr1_1) (R tr1_5));
   Set_ (TT06 + 7) (lo64 (R tr1_3) (R tr1_7));
   Set_ (TT07 + 7) (hi64 (R tr1_3) (R tr1_7))]
  ++ [Set_ T00 (p20 (R TT00) (R (TT00 + 1)));
   Set_ (T00 + 1) (p20 (R (TT00 + 2)) (R (TT00 + 3)));
   Set_ (T00 + 2) (p20 (R (TT00 + 4)) (R (TT00 + 5)));
   Set_ (T00 + 3) (p20 (R (TT00 + 6)) (R (TT00 + 7)));
   Set_ T01 (p20 (R TT01) (R (TT01 + 1)));
   Set_ (T01 + 1) (p20 (R (TT01 + 2)) (R (TT01 + 3)));
   Set_ (T01 + 2) (p20 (R (TT01 + 4)) (R (TT01 + 5)));
   Set_ (T01 + 3) (p20 (R (TT01 + 6)) (R (TT01 + 7)));
   Set_ T02 (p20 (R TT02) (R (TT02 + 1)));
   Set_ (T02 + 1) (p20 (R (TT02 + 2)) (R (TT02 + 3)));
   Set_ (T02 + 2) (p20 (R (TT02 + 4)) (R (TT02 + 5)));
   Set_ (T02 + 3) (p20 (R (TT02 + 6)) (R (TT02 + 7)));
   Set_ T03 (p20 (R TT03) (R (TT03 + 1)));
   Set_ (T03 + 1) (p20 (R (TT03 + 2)) (R (TT03 + 3)));
   Set_ (T03 + 2) (p20 (R (TT03 + 4)) (R (TT03 + 5)));
   Set_ (T03 + 3) (p20 (R (TT03 + 6)) (R (TT03 + 7)));
   Set_ T04 (p20 (R TT04) (R (TT04 + 1)));
   Set_ (T04 + 1) (p20 (R (TT04 + 2)) (R (TT04 + 3)));
   Set_ (T04 + 2) (p20 (R (TT04 + 4)) (R (TT04 + 5)));
   Set_ (T04 + 3) (p20 (R (TT04 + 6)) (R (TT04 + 7)));
   Set_ T05 (p20 (R TT05) (R (TT05 + 1)));
   Set_ (T05 + 1) (p20 (R (TT05 + 2)) (R (TT05 + 3)));
   Set_ (T05 + 2) (p20 (R (TT05 + 4)) (R (TT05 + 5)));
   Set_ (T05 + 3) (p20 (R (TT05 + 6)) (R (TT05 + 7)));
   Set_ T06 (p20 (R TT06) (R (TT06 + 1)));
   Set_ (T06 + 1) (p20 (R (TT06 + 2)) (R (TT06 + 3)));
   Set_ (T06 + 2) (p20 (R (TT06 + 4)) (R (TT06 + 5)));
   Set_ (T06 + 3) (p20 (R (TT06 + 6)) (R (TT06 + 7)));
   Set_ T07 (p20 (R TT07) (R (TT07 + 1)));
   Set_ (T07 + 1) (p20 (R (TT07 + 2)) (R (TT07 + 3)));
   Set_ (T07 + 2) (p20 (R (TT07 + 4)) (R (TT07 + 5)));
   Set_ (T07 + 3) (p20 (R (TT07 + 6)) (R (TT07 + 7)))]
  ++ loop 4 (fun i =>
    [Set_ (T08 + i) (Sra16 (add16 (R (T00 + i)) (R (T01 + i))) (I 1));
     Set_ (T09 + i) (Sra16 (add16 (R (T01 + i)) (R (T02 + i))) (I 1));
     Set_ (T10 + i) (Sra16 (add16 (R (T02 + i)) (R (T03 + i))) (I 1));
     Set_ (T11 + i) (Sra16 (add16 (R (T03 + i)) (R (T04 + i))) (I 1));
     Set_ (T12 + i) (Sra16 (add16 (R (T04 + i)) (R (T05 + i))) (I 1));
     Set_ (T13 + i) (Sra16 (add16 (R (T05 + i)) (R (T06 + i))) (I 1));
     Set_ (T14 + i) (Sra16 (add16 (R (T06 + i)) (R (T07 + i))) (I 1));
     Set_ (T15 + i) (Sra16 (add16 (R (T07 + i)) (R (T07 + i))) (I 1))])
  ++ [Set_ tr0_0 (lo16 (R T00) (R T08));
   Set_ tr0_1 (lo16 (R T01) (R T09));
   Set_ tr0_2 (hi16 (R T00) (R T08));
   Set_ tr0_3 (hi16 (R T01) (R T09));
   Set_ tr0_4 (lo16 (R T02) (R T10));
   Set_ tr0_5 (lo16 (R T03) (R T11));
   Set_ tr0_6 (hi16 (R T02) (R T10));
   Set_ tr0_7 (hi16 (R T03) (R T11));
   Set_ tr1_0 (lo32 (R tr0_0) (R tr0_1));
   Set_ tr1_1 (lo32 (R tr0_2) (R tr0_3));
   Set_ tr1_2 (hi32 (R tr0_0) (R tr0_1));
   Set_ tr1_3 (hi32 (R tr0_2) (R tr0_3));
   Set_ tr1_4 (lo32 (R tr0_4) (R tr0_5));
   Set_ tr1_5 (lo32 (R tr0_6) (R tr0_7));
   Set_ tr1_6 (hi32 (R tr0_4) (R tr0_5));
   Set_ tr1_7 (hi32 (R tr0_6) (R tr0_7));
   Set_ t0 (lo64 (R tr1_0) (R tr1_4));
   Set_ t1 (hi64 (R tr1_0) (R tr1_4));
   Set_ t2 (lo64 (R tr1_2) (R tr1_6));
   Set_ t3 (hi64 (R tr1_2) (R tr1_6));
   Set_ t4 (lo64 (R tr1_1) (R tr1_5));
   Set_ t5 (hi64 (R tr1_1) (R tr1_5));
   Set_ t6 (lo64 (R tr1_3) (R tr1_7));
   Set_ t7 (hi64 (R tr1_3) (R tr1_7));
   Set_ tr0_0 (lo16 (R T04) (R T12));
   Set_ tr0_1 (lo16 (R T05) (R T13));
   Set_ tr0_2 (hi16 (R T04) (R T12));
   Set_ tr0_3 (hi16 (R T05) (R T13));
   Set_ tr0_4 (lo16 (R T06) (R T14));
   Set_ tr0_5 (lo16 (R T07) (R T15));
   Set_ tr0_6 (hi16 (R T06) (R T14));
   Set_ tr0_7 (hi16 (R T07) (R T15));
   Set_ tr1_0 (lo32 (R tr0_0) (R tr0_1));
   Set_ tr1_1 (lo32 (R tr0_2) (R tr0_3));
   Set_ tr1_2 (hi32 (R tr0_0) (R tr0_1));
   Set_ tr1_3 (hi32 (R tr0_2) (R tr0_3));
   Set_ tr1_4 (lo32 (R tr0_4) (R tr0_5));
   Set_ tr1_5 (lo32 (R tr0_6) (R tr0_7));
   Set_ tr1_6 (hi32 (R tr0_4) (R tr0_5));
   Set_ tr1_7 (hi32 (R tr0_6) (R tr0_7));
   Set_ t8 (lo64 (R tr1_0) (R tr1_4));
   Set_ t9 (hi64 (R tr1_0) (R tr1_4));
   Set_ t10 (lo64 (R tr1_2) (R tr1_6));
   Set_ t11 (hi64 (R tr1_2) (R tr1_6));
   Set_ t12 (lo64 (R tr1_1) (R tr1_5));
   Set_ t13 (hi64 (R tr1_1) (R tr1_5));
   Set_ t14 (lo64 (R tr1_3) (R tr1_7));
   Set_ t15 (hi64 (R tr1_3) (R tr1_7));
   Set_ V00 (p20 (R t0) (R t8));
   Set_ V01 (p20 (R t1) (R t9));
   Set_ V02 (p20 (R t2) (R t10));
   Set_ V03 (p20 (R t3) (R t11));
   Set_ V04 (p20 (R t4) (R t12));
   Set_ V05 (p20 (R t5) (R t13));
   Set_ V06 (p20 (R t6) (R t14));
   Set_ V07 (p20 (R t7) (R t15));
   Set_ V08 (p31 (R t0) (R t8));
   Set_ V09 (p31 (R t1) (R t9));
   Set_ V10 (p31 (R t2) (R t10));
   Set_ V11 (p31 (R t3) (R t11));
   Set_ V12 (p31 (R t4) (R t12));
   Set_ V13 (p31 (R t5) (R t13));
   Set_ V14 (p31 (R t6) (R t14));
   Set_ V15 (p31 (R t7) (R t15))]
  ++ [Set_ tr0_0 (lo16 (R (T00 + 1)) (R (T08 + 1)));
   Set_ tr0_1 (lo16 (R (T01 + 1)) (R (T09 + 1)));
   Set_ tr0_2 (hi16 (R (T00 + 1)) (R (T08 + 1)));
   Set_ tr0_3 (hi16 (R (T01 + 1)) (R (T09 + 1)));
   Set_ tr0_4 (lo16 (R (T02 + 1)) (R (T10 + 1)));
   Set_ tr0_5 (lo16 (R (T03 + 1)) (R (T11 + 1)));
   Set_ tr0_6 (hi16 (R (T02 + 1)) (R (T10 + 1)));
   Set_ tr0_7 (hi16 (R (T03 + 1)) (R (T11 + 1)));
   Set_ tr1_0 (lo32 (R tr0_0) (R tr0_1));
   Set_ tr1_1 (lo32 (R tr0_2) (R tr0_3));
   Set_ tr1_2 (hi32 (R tr0_0) (R tr0_1));
   Set_ tr1_3 (hi32 (R tr0_2) (R tr0_3));
   Set_ tr1_4 (lo32 (R tr0_4) (R tr0_5));
   Set_ tr1_5 (lo32 (R tr0_6) (R tr0_7));
   Set_ tr1_6 (hi32 (R tr0_4) (R tr0_5));
   Set_ tr1_7 (hi32 (R tr0_6) (R tr0_7));
   Set_ t0 (lo64 (R tr1_0) (R tr1_4));
   Set_ t1 (hi64 (R tr1_0) (R tr1_4));
   Set_ t2 (lo64 (R tr1_2) (R tr1_6));
   Set_ t3 (hi64 (R tr1_2) (R tr1_6));
   Set_ t4 (lo64 (R tr1_1) (R tr1_5));
   Set_ t5 (hi64 (R tr1_1) (R tr1_5));
   Set_ t6 (lo64 (R tr1_3) (R tr1_7));
   Set_ t7 (hi64 (R tr1_3) (R tr1_7));
   Set_ tr0_0 (lo16 (R (T04 + 1)) (R (T12 + 1)));
   Set_ tr0_1 (lo16 (R (T05 + 1)) (R (T13 + 1)));
   Set_ tr0_2 (hi16 (R (T04 + 1)) (R (T12 + 1)));
   Set_ tr0_3 (hi16 (R (T05 + 1)) (R (T13 + 1)));
   Set_ tr0_4 (lo16 (R (T06 + 1)) (R (T14 + 1)));
   Set_ tr0_5 (lo16 (R (T07 + 1)) (R (T15 + 1)));
   Set_ tr0_6 (hi16 (R (T06 + 1)) (R (T14 + 1)));
   Set_ tr0_7 (hi16 (R (T07 + 1)) (R (T15 + 1)));
   Set_ tr1_0 (lo32 (R tr0_0) (R tr0_1));
   Set_ tr1_1 (lo32 (R tr0_2) (R tr0_3));
   Set_ tr1_2 (hi32 (R tr0_0) (R tr0_1));
   Set_ tr1_3 (hi32 (R tr0_2) (R tr0_3));
   Set_ tr1_4 (lo32 (R tr0_4) (R tr0_5));
   Set_ tr1_5 (lo32 (R tr0_6) (R tr0_7));
   Set_ tr1_6 (hi32 (R tr0_4) (R tr0_5));
   Set_ tr1_7 (hi32 (R tr0_6) (R tr0_7));
   Set_ t8 (lo64 (R tr1_0) (R tr1_4));
   Set_ t9 (hi64 (R tr1_0) (R tr1_4));
   Set_ t10 (lo64 (R tr1_2) (R tr1_6));
   Set_ t11 (hi64 (R tr1_2) (R tr1_6));
   Set_ t12 (lo64 (R tr1_1) (R tr1_5));
   Set_ t13 (hi64 (R tr1_1) (R tr1_5));
   Set_ t14 (lo64 (R tr1_3) (R tr1_7));
   Set_ t15 (hi64 (R tr1_3) (R tr1_7));
   Set_ V16 (p20 (R t0) (R t8));
   Set_ V17 (p20 (R t1) (R t9));
   Set_ V18 (p20 (R t2) (R t10));
   Set_ V19 (p20 (R t3) (R t11));
   Set_ V20 (p20 (R t4) (R t12));
   Set_ V21 (p20 (R t5) (R t13));
   Set_ V22 (p20 (R t6) (R t14));
   Set_ V23 (p20 (R t7) (R t15));
   Set_ V24 (p31 (R t0) (R t8));
   Set_ V25 (p31 (R t1) (R t9));
   Set_ V26 (p31 (R t2) (R t10));
   Set_ V27 (p31 (R t3) (R t11));
   Set_ V28 (p31 (R t4) (R t12));
   Set_ V29 (p31 (R t5) (R t13));
   Set_ V30 (p31 (R t6) (R t14));
   Set_ V31 (p31 (R t7) (R t15))]
  ++ [Set_ tr0_0 (lo16 (R (T00 + 2)) (R (T08 + 2)));
   Set_ tr0_1 (lo16 (R (T01 + 2)) (R (T09 + 2)));
   Set_ tr0_2 (hi16 (R (T00 + 2)) (R (T08 + 2)));
   Set_ tr0_3 (hi16 (R (T01 + 2)) (R (T09 + 2)));
   Set_ tr0_4 (lo16 (R (T02 + 2)) (R (T10 + 2)));
   Set_ tr0_5 (lo16 (R (T03 + 2)) (R (T11 + 2)));
   Set_ tr0_6 (hi16 (R (T02 + 2)) (R (T10 + 2)));
   Set_ tr0_7 (hi16 (R (T03 + 2)) (R (T11 + 2)));
   Set_ tr1_0 (lo32 (R tr0_0) (R tr0_1));
   Set_ tr1_1 (lo32 (R tr0_2) (R tr0_3));
   Set_ tr1_2 (hi32 (R tr0_0) (R tr0_1));
   Set_ tr1_3 (hi32 (R tr0_2) (R tr0_3));
   Set_ tr1_4 (lo32 (R tr0_4) (R tr0_5));
   Set_ tr1_5 (lo32 (R tr0_6) (R tr0_7));
   Set_ tr1_6 (hi32 (R tr0_4) (R tr0_5));
   Set_ tr1_7 (hi32 (R tr0_6) (R tr0_7));
   Set_ t0 (lo64 (R tr1_0) (R tr1_4));
   Set_ t1 (hi64 (R tr1_0) (R tr1_4));
   Set_ t2 (lo64 (R tr1_2) (R tr1_6));
   Set_ t3 (hi64 (R tr1_2) (R tr1_6));
   Set_ t4 (lo64 (R tr1_1) (R tr1_5));
   Set_ t5 (hi64 (R tr1_1) (R tr1_5));
   Set_ t6 (lo64 (R tr1_3) (R tr1_7));
   Set_ t7 (hi64 (R tr1_3) (R tr1_7));
   Set_ tr0_0 (lo16 (R (T04 + 2)) (R (T12 + 2)));
   Set_ tr0_1 (lo16 (R (T05 + 2)) (R (T13 + 2)));
   Set_ tr0_2 (hi16 (R (T04 + 2)) (R (T12 + 2)));
   Set_ tr0_3 (hi16 (R (T05 + 2)) (R (T13 + 2)));
   Set_ tr0_4 (lo16 (R (T06 + 2)) (R (T14 + 2)));
   Set_ tr0_5 (lo16 (R (T07 + 2)) (R (T15 + 2)));
   Set_ tr0_6 (hi16 (R (T06 + 2)) (R (T14 + 2)));
   Set_ tr0_7 (hi16 (R (T07 + 2)) (R (T15 + 2)));
   Set_ tr1_0 (lo32 (R tr0_0) (R tr0_1));
   Set_ tr1_1 (lo32 (R tr0_2) (R tr0_3));
   Set_ tr1_2 (hi32 (R tr0_0) (R tr0_1));
   Set_ tr1_3 (hi32 (R tr0_2) (R tr0_3));
   Set_ tr1_4 (lo32 (R tr0_4) (R tr0_5));
   Set_ tr1_5 (lo32 (R tr0_6) (R tr0_7));
   Set_ tr1_6 (hi32 (R tr0_4) (R tr0_5));
   Set_ tr1_7 (hi32 (R tr0_6) (R tr0_7));
   Set_ t8 (lo64 (R tr1_0) (R tr1_4));
   Set_ t9 (hi64 (R tr1_0) (R tr1_4));
   Set_ t10 (lo64 (R tr1_2) (R tr1_6));
   Set_ t11 (hi64 (R tr1_2) (R tr1_6));
   Set_ t12 (lo64 (R tr1_1) (R tr1_5));
   Set_ t13 (hi64 (R tr1_1) (R tr1_5));
   Set_ t14 (lo64 (R tr1_3) (R tr1_7));
   Set_ t15 (hi64 (R tr1_3) (R tr1_7));
   Set_ V32 (p20 (R t0) (R t8));
   Set_ V33 (p20 (R t1) (R t9));
   Set_ V34 (p20 (R t2) (R t10));
   Set_ V35 (p20 (R t3) (R t11));
   Set_ V36 (p20 (R t4) (R t12));
   Set_ V37 (p20 (R t5) (R t13));
   Set_ V38 (p20 (R t6) (R t14));
   Set_ V39 (p20 (R t7) (R t15));
   Set_ V40 (p31 (R t0) (R t8));
   Set_ V41 (p31 (R t1) (R t9));
   Set_ V42 (p31 (R t2) (R t10));
   Set_ V43 (p31 (R t3) (R t11));
   Set_ V44 (p31 (R t4) (R t12));
   Set_ V45 (p31 (R t5) (R t13));
   Set_ V46 (p31 (R t6) (R t14));
   Set_ V47 (p31 (R t7) (R t15))]
  ++ [Set_ tr0_0 (lo16 (R (T00 + 3)) (R (T08 + 3)));
   Set_ tr0_1 (lo16 (R (T01 + 3)) (R (T09 + 3)));
   Set_ tr0_2 (hi16 (R (T00 + 3)) (R (T08 + 3)));
   Set_ tr0_3 (hi16 (R (T01 + 3)) (R (T09 + 3)));
   Set_ tr0_4 (lo16 (R (T02 + 3)) (R (T10 + 3)));
   Set_ tr0_5 (lo16 (R (T03 + 3)) (R (T11 + 3)));
   Set_ tr0_6 (hi16 (R (T02 + 3)) (R (T10 + 3)));
   Set_ tr0_7 (hi16 (R (T03 + 3)) (R (T11 + 3)));
   Set_ tr1_0 (lo32 (R tr0_0) (R tr0_1));
   Set_ tr1_1 (lo32 (R tr0_2) (R tr0_3));
   Set_ tr1_2 (hi32 (R tr0_0) (R tr0_1));
   Set_ tr1_3 (hi32 (R tr0_2) (R tr0_3));
   Set_ tr1_4 (lo32 (R tr0_4) (R tr0_5));
   Set_ tr1_5 (lo32 (R tr0_6) (R tr0_7));
   Set_ tr1_6 (hi32 (R tr0_4) (R tr0_5));
   Set_ tr1_7 (hi32 (R tr0_6) (R tr0_7));
   Set_ t0 (lo64 (R tr1_0) (R tr1_4));
   Set_ t1 (hi64 (R tr1_0) (R tr1_4));
   Set_ t2 (lo64 (R tr1_2) (R tr1_6));
   Set_ t3 (hi64 (R tr1_2) (R tr1_6));
   Set_ t4 (lo64 (R tr1_1) (R tr1_5));
   Set_ t5 (hi64 (R tr1_1) (R tr1_5));
   Set_ t6 (lo64 (R tr1_3) (R tr1_7));
   Set_ t7 (hi64 (R tr1_3) (R tr1_7));
   Set_ tr0_0 (lo16 (R (T04 + 3)) (R (T12 + 3)));
   Set_ tr0_1 (lo16 (R (T05 + 3)) (R (T13 + 3)));
   Set_ tr0_2 (hi16 (R (T04 + 3)) (R (T12 + 3)));
   Set_ tr0_3 (hi16 (R (T05 + 3)) (R (T13 + 3)));
   Set_ tr0_4 (lo16 (R (T06 + 3)) (R (T14 + 3)));
   Set_ tr0_5 (lo16 (R (T07 + 3)) (R (T15 + 3)));
   Set_ tr0_6 (hi16 (R (T06 + 3)) (R (T14 + 3)));
   Set_ tr0_7 (hi16 (R (T07 + 3)) (R (T15 + 3)));
   Set_ tr1_0 (lo32 (R tr0_0) (R tr0_1));
   Set_ tr1_1 (lo32 (R tr0_2) (R tr0_3));
   Set_ tr1_2 (hi32 (R tr0_0) (R tr0_1));
   Set_ tr1_3 (hi32 (R tr0_2) (R tr0_3));
   Set_ tr1_4 (lo32 (R tr0_4) (R tr0_5));
   Set_ tr1_5 (lo32 (R tr0_6) (R tr0_7));
   Set_ tr1_6 (hi32 (R tr0_4) (R tr0_5));
   Set_ tr1_7 (hi32 (R tr0_6) (R tr0_7));
   Set_ t8 (lo64 (R tr1_0) (R tr1_4));
   Set_ t9 (hi64 (R tr1_0) (R tr1_4));
   Set_ t10 (lo64 (R tr1_2) (R tr1_6));
   Set_ t11 (hi64 (R tr1_2) (R tr1_6));
   Set_ t12 (lo64 (R tr1_1) (R tr1_5));
   Set_ t13 (hi64 (R tr1_1) (R tr1_5));
   Set_ t14 (lo64 (R tr1_3) (R tr1_7));
   Set_ t15 (hi64 (R tr1_3) (R tr1_7));
   Set_ V48 (p20 (R t0) (R t8));
   Set_ V49 (p20 (R t1) (R t9));
   Set_ V50 (p20 (R t2) (R t10));
   Set_ V51 (p20 (R t3) (R t11));
   Set_ V52 (p20 (R t4) (R t12));
   Set_ V53 (p20 (R t5) (R t13));
   Set_ V54 (p20 (R t6) (R t14));
   Set_ V55 (p20 (R t7) (R t15));
   Set_ V56 (p31 (R t0) (R t8));
   Set_ V57 (p31 (R t1) (R t9));
   Set_ V58 (p31 (R t2) (R t10));
   Set_ V59 (p31 (R t3) (R t11));
   Set_ V60 (p31 (R t4) (R t12));
   Set_ V61 (p31 (R t5) (R t13));
   Set_ V62 (p31 (R t6) (R t14));
   Set_ V63 (p31 (R t7) (R t15))]
  ++ [St 16 0 0 0 (R V00);
   St 16 0 0 16 (R V01);
   St 16 0 0 32 (R V02);
   St 16 0 0 48 (R V03);
   St 16 0 0 64 (R V04);
   St 16 0 0 80 (R V05);
   St 16 0 0 96 (R V06);
   St 16 0 0 112 (R V07);
   St 16 0 0 128 (R V08);
   St 16 0 0 144 (R V09);
   St 16 0 0 160 (R V10);
   St 16 0 0 176 (R V11);
   St 16 0 0 192 (R V12);
   St 16 0 0 208 (R V13);
   St 16 0 0 224 (R V14);
   St 16 0 0 240 (R V15);
   St 16 0 0 256 (R V16);
   St 16 0 0 272 (R V17);
   St 16 0 0 288 (R V18);
   St 16 0 0 304 (R V19);
   St 16 0 0 320 (R V20);
   St 16 0 0 336 (R V21);
   St 16 0 0 352 (R V22);
   St 16 0 0 368 (R V23);
   St 16 0 0 384 (R V24);
   St 16 0 0 400 (R V25);
   St 16 0 0 416 (R V26);
   St 16 0 0 432 (R V27);
   St 16 0 0 448 (R V28);
   St 16 0 0 464 (R V29);
   St 16 0 0 480 (R V30);
   St 16 0 0 496 (R V31);
   St 16 0 0 512 (R V32);
   St 16 0 0 528 (R V33);
   St 16 0 0 544 (R V34);
   St 16 0 0 560 (R V35);
   St 16 0 0 576 (R V36);
   St 16 0 0 592 (R V37);
   St 16 0 0 608 (R V38);
   St 16 0 0 624 (R V39);
   St 16 0 0 640 (R V40);
   St 16 0 0 656 (R V41);
   St 16 0 0 672 (R V42);
   St 16 0 0 688 (R V43);
   St 16 0 0 704 (R V44);
   St 16 0 0 720 (R V45);
   St 16 0 0 736 (R V46);
   St 16 0 0 752 (R V47);
   St 16 0 0 768 (R V48);
   St 16 0 0 784 (R V49);
   St 16 0 0 800 (R V50);
   St 16 0 0 816 (R V51);
   St 16 0 0 832 (R V52);
   St 16 0 0 848 (R V53);
   St 16 0 0 864 (R V54);
   St 16 0 0 880 (R V55);
   St 16 0 0 896 (R V56);
   St 16 0 0 912 (R V57);
   St 16 0 0 928 (R V58);
   St 16 0 0 944 (R V59);
   St 16 0 0 960 (R V60);
   St 16 0 0 976 (R V61);
   St 16 0 0 992 (R V62);
   St 16 0 0 1008 (R V63)].

(** vec/intrinsic_idct_avx2.cc:1906-2139 [inv_wavelet_64x64_avx2]. *)
Definition inv_wavelet_64x64_avx2 : list ins :=
  let tr0_0 := 1 in let tr0_1 := 2 in let tr0_2 := 3 in let tr0_3 := 4 in let tr0_4 := 5 in let tr0_5 := 6 in let tr0_6 := 7 in let tr0_7 := 8 in
  let tr1_0 := 9 in let tr1_1 := 10 in let tr1_2 := 11 in let tr1_3 := 12 in let tr1_4 := 13 in let tr1_5 := 14 in let tr1_6 := 15 in
  let tr1_7 := 16 in let t0 := 17 in let t1 := 18 in let t2 := 19 in let t3 := 20 in let t4 := 21 in let t5 := 22 in let t6 := 23 in let t7 := 24 in
  let t8 := 25 in let t9 := 26 in let t10 := 27 in let t11 := 28 in let t12 := 29 in let t13 := 30 in let t14 := 31 in let t15 := 32 in
  let T00 := 33 in let T01 := 37 in let T02 := 41 in let T03 := 45 in let T04 := 49 in let T05 := 53 in let T06 := 57 in let T07 := 61 in
  let T08 := 65 in let T09 := 69 in let T10 := 73 in let T11 := 77 in let T12 := 81 in let T13 := 85 in let T14 := 89 in let T15 := 93 in
  let T16 := 97 in let T17 := 101 in let T18 := 105 in let T19 := 109 in let T20 := 113 in let T21 := 117 in let T22 := 121 in let T23 := 125 in
  let T24 := 129 in let T25 := 133 in let T26 := 137 in let T27 := 141 in let T28 := 145 in let T29 := 149 in let T30 := 153 in let T31 := 157 in
  let T32 := 161 in let T33 := 165 in let T34 := 169 in let T35 := 173 in let T36 := 177 in let T37 := 181 in let T38 := 185 in let T39 := 189 in
  let T40 := 193 in let T41 := 197 in let T42 := 201 in let T43 := 205 in let T44 := 209 in let T45 := 213 in let T46 := 217 in let T47 := 221 in
  let T48 := 225 in let T49 := 229 in let T50 := 233 in let T51 := 237 in let T52 := 241 in let T53 := 245 in let T54 := 249 in let T55 := 253 in
  let T56 := 257 in let T57 := 261 in let T58 := 265 in let T59 := 269 in let T60 := 273 in let T61 := 277 in let T62 := 281 in let T63 := 285 in
  let V00 := 289 in let V01 := 293 in let V02 := 297 in let V03 := 301 in let V04 := 305 in let V05 := 309 in let V06 := 313 in let V07 := 317 in
  let V08 := 321 in let V09 := 325 in let V10 := 329 in let V11 := 333 in let V12 := 337 in let V13 := 341 in let V14 := 345 in let V15 := 349 in
  let V16 := 353 in let V17 := 357 in let V18 := 361 in let V19 := 365 in let V20 := 369 in let V21 := 373 in let V22 := 377 in let V23 := 381 in
  let V24 := 385 in let V25 := 389 in let V26 := 393 in let V27 := 397 in let V28 := 401 in let V29 := 405 in let V30 := 409 in let V31 := 413 in
  let V32 := 417 in let V33 := 421 in let V34 := 425 in let V35 := 429 in let V36 := 433 in let V37 := 437 in let V38 := 441 in let V39 := 445 in
  let V40 := 449 in let V41 := 453 in let V42 := 457 in let V43 := 461 in let V44 := 465 in let V45 := 469 in let V46 := 473 in let V47 := 477 in
  let V48 := 481 in let V49 := 485 in let V50 := 489 in let V51 := 493 in let V52 := 497 in let V53 := 501 in let V54 := 505 in let V55 := 509 in
  let V56 := 513 in let V57 := 517 in let V58 := 521 in let V59 := 525 in let V60 := 529 in let V61 := 533 in let V62 := 537 in let V63 := 541 in
  loop 2 (fun i =>
    [Set_ (T00 + i) (Sra16 (Ld 16 (16 * i)) (I 1));
     Set_ (T01 + i) (Sra16 (Ld 16 (16 * i + 32)) (I 1));
     Set_ (T02 + i) (Sra16 (Ld 16 (16 * i + 64)) (I 1));
     Set_ (T03 + i) (Sra16 (Ld 16 (16 * i + 96)) (I 1));
     Set_ (T04 + i) (Sra16 (Ld 16 (16 * i + 128)) (I 1));
     Set_ (T05 + i) (Sra16 (Ld 16 (16 * i + 160)) (I 1));
     Set_ (T06 + i) (Sra16 (Ld 16 (16 * i + 192)) (I 1));
     Set_ (T07 + i) (Sra16 (Ld 16 (16 * i + 224)) (I 1));
     Set_ (T08 + i) (Sra16 (Ld 16 (16 * i + 256)) (I 1));
     Set_ (T09 + i) (Sra16 (Ld 16 (16 * i + 288)) (I 1));
     Set_ (T10 + i) (Sra16 (Ld 16 (16 * i + 320)) (I 1));
     Set_ (T11 + i) (Sra16 (Ld 16 (16 * i + 352)) (I 1));
     Set_ (T12 + i) (Sra16 (Ld 16 (16 * i + 384)) (I 1));
     Set_ (T13 + i) (Sra16 (Ld 16 (16 * i + 416)) (I 1));
     Set_ (T14 + i) (Sra16 (Ld 16 (16 * i + 448)) (I 1));
     Set_ (T15 + i) (Sra16 (Ld 16 (16 * i + 480)) (I 1));
     Set_ (T16 + i) (Sra16 (Ld 16 (16 * i + 512)) (I 1));
     Set_ (T17 + i) (Sra16 (Ld 16 (16 * i + 544)) (I 1));
     Set_ (T18 + i) (Sra16 (Ld 16 (16 * i + 576)) (I 1));
     Set_ (T19 + i) (Sra16 (Ld 16 (16 * i + 608)) (I 1));
     Set_ (T20 + i) (Sra16 (Ld 16 (16 * i + 640)) (I 1));
     Set_ (T21 + i) (Sra16 (Ld 16 (16 * i + 672)) (I 1));
     Set_ (T22 + i) (Sra16 (Ld 16 (16 * i + 704)) (I 1));
     Set_ (T23 + i) (Sra16 (Ld 16 (16 * i + 736)) (I 1));
     Set_ (T24 + i) (Sra16 (Ld 16 (16 * i + 768)) (I 1));
     Set_ (T25 + i) (Sra16 (Ld 16 (16 * i + 800)) (I 1));
     Set_ (T26 + i) (Sra16 (Ld 16 (16 * i + 832)) (I 1));
     Set_ (T27 + i) (Sra16 (Ld 16 (16 * i + 864)) (I 1));
     Set_ (T28 + i) (Sra16 (Ld 16 (16 * i + 896)) (I 1));
     Set_ (T29 + i) (Sra16 (Ld 16 (16 * i + 928)) (I 1));
     Set_ (T30 + i) (Sra16 (Ld 16 (16 * i + 960)) (I 1));
     Set_ (T31 + i) (Sra16 (Ld 16 (16 * i + 992)) (I 1))])
  ++ loop 4 (fun i =>
    [Set_ (T32 + i) (Sra16 (add16 (R (T00 + i)) (R (T01 + i))) (I 1));
     Set_ (T33 + i) (Sra16 (add16 (R (T01 + i)) (R (T02 + i))) (I 1));
     Set_ (T34 + i) (Sra16 (add16 (R (T02 + i)) (R (T03 + i))) (I 1));
     Set_ (T35 + i) (Sra16 (add16 (R (T03 + i)) (R (T04 + i))) (I 1));
     Set_ (T36 + i) (Sra16 (add16 (R (T04 + i)) (R (T05 + i))) (I 1));
     Set_ (T37 + i) (Sra16 (add16 (R (T05 + i)) (R (T06 + i))) (I 1));
     Set_ (T38 + i) (Sra16 (add16 (R (T06 + i)) (R (T07 + i))) (I 1));
     Set_ (T39 + i) (Sra16 (add16 (R (T07 + i)) (R (T08 + i))) (I 1));
     Set_ (T40 + i) (Sra16 (add16 (R (T08 + i)) (R (T09 + i))) (I 1));
     Set_ (T41 + i) (Sra16 (add16 (R (T09 + i)) (R (T10 + i))) (I 1));
     Set_ (T42 + i) (Sra16 (add16 (R (T10 + i)) (R (T11 + i))) (I 1));
     Set_ (T43 + i) (Sra16 (add16 (R (T11 + i)) (R (T12 + i))) (I 1));
     Set_ (T44 + i) (Sra16 (add16 (R (T12 + i)) (R (T13 + i))) (I 1));
     Set_ (T45 + i) (Sra16 (add16 (R (T13 + i)) (R (T14 + i))) (I 1));
     Set_ (T46 + i) (Sra16 (add16 (R (T14 + i)) (R (T15 + i))) (I 1));
     Set_ (T47 + i) (Sra16 (add16 (R (T15 + i)) (R (T16 + i))) (I 1));
     Set_ (T48 + i) (Sra16 (add16 (R (T16 + i)) (R (T17 + i))) (I 1));
     Set_ (T49 + i) (Sra16 (add16 (R (T17 + i)) (R (T18 + i))) (I 1));
     Set_ (T50 + i) (Sra16 (add16 (R (T18 + i)) (R (T19 + i))) (I 1));
     Set_ (T51 + i) (Sra16 (add16 (R (T19 + i)) (R (T20 + i))) (I 1));
     Set_ (T52 + i) (Sra16 (add16 (R (T20 + i)) (R (T21 + i))) (I 1));
     Set_ (T53 + i) (Sra16 (add16 (R (T21 + i)) (R (T22 + i))) (I 1));
     Set_ (T54 + i) (Sra16 (add16 (R (T22 + i)) (R (T23 + i))) (I 1));
     Set_ (T55 + i) (Sra16 (add16 (R (T23 + i)) (R (T24 + i))) (I 1));
     Set_ (T56 + i) (Sra16 (add16 (R (T24 + i)) (R (T25 + i))) (I 1));
     Set_ (T57 + i) (Sra16 (add16 (R (T25 + i)) (R (T26 + i))) (I 1));
     Set_ (T58 + i) (Sra16 (add16 (R (T26 + i)) (R (T27 + i))) (I 1));
     Set_ (T59 + i) (Sra16 (add16 (R (T27 + i)) (R (T28 + i))) (I 1));
     Set_ (T60 + i) (Sra16 (add16 (R (T28 + i)) (R (T29 + i))) (I 1));
     Set_ (T61 + i) (Sra16 (add16 (R (T29 + i)) (R (T30 + i))) (I 1));
     Set_ (T62 + i) (Sra16 (add16 (R (T30 + i)) (R (T31 + i))) (I 1));
     Set_ (T63 + i) (Sra16 (add16 (R (T31 + i)) (R (T31 + i))) (I 1))])
  ++ [Set_ tr0_0 (lo16 (R T00) (R T32));
   Set_ tr0_1 (lo16 (R T01) (R T33));
   Set_ tr0_2 (hi16 (R T00) (R T32));
   Set_ tr0_3 (hi16 (R T01) (R T33));
   Set_ tr0_4 (lo16 (R T02) (R T34));
   Set_ tr0_5 (lo16 (R T03) (R T35));
   Set_ tr0_6 (hi16 (R T02) (R T34));
   Set_ tr0_7 (hi16 (R T03) (R T35));
   Set_ tr1_0 (lo32 (R tr0_0) (R tr0_1));
   Set_ tr1_1 (lo32 (R tr0_2) (R tr0_3));
   Set_ tr1_2 (hi32 (R tr0_0) (R tr0_1));
   Set_ tr1_3 (hi32 (R tr0_2) (R tr0_3));
   Set_ tr1_4 (lo32 (R tr0_4) (R tr0_5));
   Set_ tr1_5 (lo32 (R tr0_6) (R tr0_7));
   Set_ tr1_6 (hi32 (R tr0_4) (R tr0_5));
   Set_ tr1_7 (hi32 (R tr0_6) (R tr0_7));
   Set_ t0 (lo64 (R tr1_0) (R tr1_4));
   Set_ t1 (hi64 (R tr1_0) (R tr1_4));
   Set_ t2 (lo64 (R tr1_2) (R tr1_6));
   Set_ t3 (hi64 (R tr1_2) (R tr1_6));
   Set_ t4 (lo64 (R tr1_1) (R tr1_5));
   Set_ t5 (hi64 (R tr1_1) (R tr1_5));
   Set_ t6 (lo64 (R tr1_3) (R tr1_7));
   Set_ t7 (hi64 (R tr1_3) (R tr1_7));
   Set_ tr0_0 (lo16 (R T04) (R T36));
   Set_ tr0_1 (lo16 (R T05) (R T37));
   Set_ tr0_2 (hi16 (R T04) (R T36));
   Set_ tr0_3 (hi16 (R T05) (R T37));
   Set_ tr0_4 (lo16 (R T06) (R T38));
   Set_ tr0_5 (lo16 (R T07) (R T39));
   Set_ tr0_6 (hi16 (R T06) (R T38));
   Set_ tr0_7 (hi16 (R T07) (R T39));
   Set_ tr1_0 (lo32 (R tr0_0) (R tr0_1));
   Set_ tr1_1 (lo32 (R tr0_2) (R tr0_3));
   Set_ tr1_2 (hi32 (R tr0_0) (R tr0_1));
   Set_ tr1_3 (hi32 (R tr0_2) (R tr0_3));
   Set_ tr1_4 (lo32 (R tr0_4) (R tr0_5));
   Set_ tr1_5 (lo32 (R tr0_6) (R tr0_7));
   Set_ tr1_6 (hi32 (R tr0_4) (R tr0_5));
   Set_ tr1_7 (hi32 (R tr0_6) (R tr0_7));
   Set_ t8 (lo64 (R tr1_0) (R tr1_4));
   Set_ t9 (hi64 (R tr1_0) (R tr1_4));
   Set_ t10 (lo64 (R tr1_2) (R tr1_6));
   Set_ t11 (hi64 (R tr1_2) (R tr1_6));
   Set_ t12 (lo64 (R tr1_1) (R tr1_5));
   Set_ t13 (hi64 (R tr1_1) (R tr1_5));
   Set_ t14 (lo64 (R tr1_3) (R tr1_7));
   Set_ t15 (hi64 (R tr1_3) (R tr1_7));
   Set_ V00 (p20 (R t0) (R t8));
   Set_ V01 (p20 (R t1) (R t9));
   Set_ V02 (p20 (R t2) (R t10));
   Set_ V03 (p20 (R t3) (R t11));
   Set_ V04 (p20 (R t4) (R t12));
   Set_ V05 (p20 (R t5) (R t13));
   Set_ V06 (p20 (R t6) (R t14));
   Set_ V07 (p20 (R t7) (R t15));
   Set_ V08 (p31 (R t0) (R t8));
   Set_ V09 (p31 (R t1) (R t9));
   Set_ V10 (p31 (R t2) (R t10));
   Set_ V11 (p31 (R t3) (R t11));
   Set_ V12 (p31 (R t4) (R t12));
   Set_ V13 (p31 (R t5) (R t13));
   Set_ V14 (p31 (R t6) (R t14));
   Set_ V15 (p31 (R t7) (R t15))]
  ++ [Set_ tr0_0 (lo16 (R T08) (R T40));
   Set_ tr0_1 (lo16 (R T09) (R T41));
   Set_ tr0_2 (hi16 (R T08) (R T40));
   Set_ tr0_3 (hi16 (R T09) (R T41));
   Set_ tr0_4 (lo16 (R T10) (R T42));
   Set_ tr0_5 (lo16 (R T11) (R T43));
   Set_ tr0_6 (hi16 (R T10) (R T42));
   Set_ tr0_7 (hi16 (R T11) (R T43));
   Set_ tr1_0 (lo32 (R tr0_0) (R tr0_1));
   Set_ tr1_1 (lo32 (R tr0_2) (R tr0_3));
   Set_ tr1_2 (hi32 (R tr0_0) (R tr0_1));
   Set_ tr1_3 (hi32 (R tr0_2) (R tr0_3));
   Set_ tr1_4 (lo32 (R tr0_4) (R tr0_5));
   Set_ tr1_5 (lo32 (R tr0_6) (R tr0_7));
   Set_ tr1_6 (hi32 (R tr0_4) (R tr0_5));
   Set_ tr1_7 (hi32 (R tr0_6) (R tr0_7));
   Set_ t0 (lo64 (R tr1_0) (R tr1_4));
   Set_ t1 (hi64 (R tr1_0) (R tr1_4));
   Set_ t2 (lo64 (R tr1_2) (R tr1_6));
   Set_ t3 (hi64 (R tr1_2) (R tr1_6));
   Set_ t4 (lo64 (R tr1_1) (R tr1_5));
   Set_ t5 (hi64 (R tr1_1) (R tr1_5));
   Set_ t6 (lo64 (R tr1_3) (R tr1_7));
   Set_ t7 (hi64 (R tr1_3) (R tr1_7));
   Set_ tr0_0 (lo16 (R T12) (R T44));
   Set_ tr0_1 (lo16 (R T13) (R T45));
   Set_ tr0_2 (hi16 (R T12) (R T44));
   Set_ tr0_3 (hi16 (R T13) (R T45));
   Set_ tr0_4 (lo16 (R T14) (R T46));
   Set_ tr0_5 (lo16 (R T15) (R T47));
   Set_ tr0_6 (hi16 (R T14) (R T46));
   Set_ tr0_7 (hi16 (R T15) (R T47));
   Set_ tr1_0 (lo32 (R tr0_0) (R tr0_1));
   Set_ tr1_1 (lo32 (R tr0_2) (R tr0_3));
   Set_ tr1_2 (hi32 (R tr0_0) (R tr0_1));
   Set_ tr1_3 (hi32 (R tr0_2) (R tr0_3));
   Set_ tr1_4 (lo32 (R tr0_4) (R tr0_5));
   Set_ tr1_5 (lo32 (R tr0_6) (R tr0_7));
   Set_ tr1_6 (hi32 (R tr0_4) (R tr0_5));
   Set_ tr1_7 (hi32 (R tr0_6) (R tr0_7));
   Set_ t8 (lo64 (R tr1_0) (R tr1_4));
   Set_ t9 (hi64 (R tr1_0) (R tr1_4));
   Set_ t10 (lo64 (R tr1_2) (R tr1_6));
   Set_ t11 (hi64 (R tr1_2) (R tr1_6));
   Set_ t12 (lo64 (R tr1_1) (R tr1_5));
   Set_ t13 (hi64 (R tr1_1) (R tr1_5));
   Set_ t14 (lo64 (R tr1_3) (R tr1_7));
   Set_ t15 (hi64 (R tr1_3) (R tr1_7));
   Set_ (V00 + 1) (p20 (R t0) (R t8));
   Set_ (V01 + 1) (p20 (R t1) (R t9));
   Set_ (V02 + 1) (p20 (R t2) (R t10));
   Set_ (V03 + 1) (p20 (R t3) (R t11));
   Set_ (V04 + 1) (p20 (R t4) (R t12));
   Set_ (V05 + 1) (p20 (R t5) (R t13));
   Set_ (V06 + 1) (p20 (R t6) (R t14));
   Set_ (V07 + 1) (p20 (R t7) (R t15));
   Set_ (V08 + 1) (p31 (R t0) (R t8));
   Set_ (V09 + 1) (p31 (R t1) (R t9));
   Set_ (V10 + 1) (p31 (R t2) (R t10));
   Set_ (V11 + 1) (p31 (R t3) (R t11));
   Set_ (V12 + 1) (p31 (R t4) (R t12));
   Set_ (V13 + 1) (p31 (R t5) (R t13));
   Set_ (V14 + 1) (p31 (R t6) (R t14));
   Set_ (V15 + 1) (p31 (R t7) (R t15))]
  ++ [Set_ tr0_0 (lo16 (R T16) (R T48));
   Set_ tr0_1 (lo16 (R T17) (R T49));
   Set_ tr0_2 (hi16 (R T16) (R T48));
   Set_ tr0_3 (hi16 (R T17) (R T49));
   Set_ tr0_4 (lo16 (R T18) (R T50));
   Set_ tr0_5 (lo16 (R T19) (R T51));
   Set_ tr0_6 (hi16 (R T18) (R T50));
   Set_ tr0_7 (hi16 (R T19) (R T51));
   Set_ tr1_0 (lo32 (R tr0_0) (R tr0_1));
   Set_ tr1_1 (lo32 (R tr0_2) (R tr0_3));
   Set_ tr1_2 (hi32 (R tr0_0) (R tr0_1));
   Set_ tr1_3 (hi32 (R tr0_2) (R tr0_3));
   Set_ tr1_4 (lo32 (R tr0_4) (R tr0_5));
   Set_ tr1_5 (lo32 (R tr0_6) (R tr0_7));
   Set_ tr1_6 (hi32 (R tr0_4) (R tr0_5));
   Set_ tr1_7 (hi32 (R tr0_6) (R tr0_7));
   Set_ t0 (lo64 (R tr1_0) (R tr1_4));
   Set_ t1 (hi64 (R tr1_0) (R tr1_4));
   Set_ t2 (lo64 (R tr1_2) (R tr1_6));
   Set_ t3 (hi64 (R tr1_2) (R tr1_6));
   Set_ t4 (lo64 (R tr1_1) (R tr1_5));
   Set_ t5 (hi64 (R tr1_1) (R tr1_5));
   Set_ t6 (lo64 (R tr1_3) (R tr1_7));
   Set_ t7 (hi64 (R tr1_3) (R tr1_7));
   Set_ tr0_0 (lo16 (R T20) (R T52));
   Set_ tr0_1 (lo16 (R T21) (R T53));
   Set_ tr0_2 (hi16 (R T20) (R T52));
   Set_ tr0_3 (hi16 (R T21) (R T53));
   Set_ tr0_4 (lo16 (R T22) (R T54));
   Set_ tr0_5 (lo16 (R T23) (R T55));
   Set_ tr0_6 (hi16 (R T22) (R T54));
   Set_ tr0_7 (hi16 (R T23) (R T55));
   Set_ tr1_0 (lo32 (R tr0_0) (R tr0_1));
   Set_ tr1_1 (lo32 (R tr0_2) (R tr0_3));
   Set_ tr1_2 (hi32 (R tr0_0) (R tr0_1));
   Set_ tr1_3 (hi32 (R tr0_2) (R tr0_3));
   Set_ tr1_4 (lo32 (R tr0_4) (R tr0_5));
   Set_ tr1_5 (lo32 (R tr0_6) (R tr0_7));
   Set_ tr1_6 (hi32 (R tr0_4) (R tr0_5));
   Set_ tr1_7 (hi32 (R tr0_6) (R tr0_7));
   Set_ t8 (lo64 (R tr1_0) (R tr1_4));
   Set_ t9 (hi64 (R tr1_0) (R tr1_4));
   Set_ t10 (lo64 (R tr1_2) (R tr1_6));
   Set_ t11 (hi64 (R tr1_2) (R tr1_6));
   Set_ t12 (lo64 (R tr1_1) (R tr1_5));
   Set_ t13 (hi64 (R tr1_1) (R tr1_5));
   Set_ t14 (lo64 (R tr1_3) (R tr1_7));
   Set_ t15 (hi64 (R tr1_3) (R tr1_7));
   Set_ (V00 + 2) (p20 (R t0) (R t8));
   Set_ (V01 + 2) (p20 (R t1) (R t9));
   Set_ (V02 + 2) (p20 (R t2) (R t10));
   Set_ (V03 + 2) (p20 (R t3) (R t11));
   Set_ (V04 + 2) (p20 (R t4) (R t12));
   Set_ (V05 + 2) (p20 (R t5) (R t13));
   Set_ (V06 + 2) (p20 (R t6) (R t14));
   Set_ (V07 + 2) (p20 (R t7) (R t15));
   Set_ (V08 + 2) (p31 (R t0) (R t8));
   Set_ (V09 + 2) (p31 (R t1) (R t9));
   Set_ (V10 + 2) (p31 (R t2) (R t10));
   Set_ (V11 + 2) (p31 (R t3) (R t11));
   Set_ (V12 + 2) (p31 (R t4) (R t12));
   Set_ (V13 + 2) (p31 (R t5) (R t13));
   Set_ (V14 + 2) (p31 (R t6) (R t14));
   Set_ (V15 + 2) (p31 (R t7) (R t15))]
  ++ [Set_ tr0_0 (lo16 (R T24) (R T56));
   Set_ tr0_1 (lo16 (R T25) (R T57));
   Set_ tr0_2 (hi16 (R T24) (R T56));
   Set_ tr0_3 (hi16 (R T25) (R T57));
   Set_ tr0_4 (lo16 (R T26) (R T58));
   Set_ tr0_5 (lo16 (R T27) (R T59));
   Set_ tr0_6 (hi16 (R T26) (R T58));
   Set_ tr0_7 (hi16 (R T27) (R T59));
   Set_ tr1_0 (lo32 (R tr0_0) (R tr0_1));
   Set_ tr1_1 (lo32 (R tr0_2) (R tr0_3));
   Set_ tr1_2 (hi32 (R tr0_0) (R tr0_1));
   Set_ tr1_3 (hi32 (R tr0_2) (R tr0_3));
   Set_ tr1_4 (lo32 (R tr0_4) (R tr0_5));
   Set_ tr1_5 (lo32 (R tr0_6) (R tr0_7));
   Set_ tr1_6 (hi32 (R tr0_4) (R tr0_5));
   Set_ tr1_7 (hi32 (R tr0_6) (R tr0_7));
   Set_ t0 (lo64 (R tr1_0) (R tr1_4));
   Set_ t1 (hi64 (R tr1_0) (R tr1_4));
   Set_ t2 (lo64 (R tr1_2) (R tr1_6));
   Set_ t3 (hi64 (R tr1_2) (R tr1_6));
   Set_ t4 (lo64 (R tr1_1) (R tr1_5));
   Set_ t5 (hi64 (R tr1_1) (R tr1_5));
   Set_ t6 (lo64 (R tr1_3) (R tr1_7));
   Set_ t7 (hi64 (R tr1_3) (R tr1_7));
   Set_ tr0_0 (lo16 (R T28) (R T60));
   Set_ tr0_1 (lo16 (R T29) (R T61));
   Set_ tr0_2 (hi16 (R T28) (R T60));
   Set_ tr0_3 (hi16 (R T29) (R T61));
   Set_ tr0_4 (lo16 (R T30) (R T62));
   Set_ tr0_5 (lo16 (R T31) (R T63));
   Set_ tr0_6 (hi16 (R T30) (R T62));
   Set_ tr0_7 (hi16 (R T31) (R T63));
   Set_ tr1_0 (lo32 (R tr0_0) (R tr0_1));
   Set_ tr1_1 (lo32 (R tr0_2) (R tr0_3));
   Set_ tr1_2 (hi32 (R tr0_0) (R tr0_1));
   Set_ tr1_3 (hi32 (R tr0_2) (R tr0_3));
   Set_ tr1_4 (lo32 (R tr0_4) (R tr0_5));
   Set_ tr1_5 (lo32 (R tr0_6) (R tr0_7));
   Set_ tr1_6 (hi32 (R tr0_4) (R tr0_5));
   Set_ tr1_7 (hi32 (R tr0_6) (R tr0_7));
   Set_ t8 (lo64 (R tr1_0) (R tr1_4));
   Set_ t9 (hi64 (R tr1_0) (R tr1_4));
   Set_ t10 (lo64 (R tr1_2) (R tr1_6));
   Set_ t11 (hi64 (R tr1_2) (R tr1_6));
   Set_ t12 (lo64 (R tr1_1) (R tr1_5));
   Set_ t13 (hi64 (R tr1_1) (R tr1_5));
   Set_ t14 (lo64 (R tr1_3) (R tr1_7));
   Set_ t15 (hi64 (R tr1_3) (R tr1_7));
   Set_ (V00 + 3) (p20 (R t0) (R t8));
   Set_ (V01 + 3) (p20 (R t1) (R t9));
   Set_ (V02 + 3) (p20 (R t2) (R t10));
   Set_ (V03 + 3) (p20 (R t3) (R t11));
   Set_ (V04 + 3) (p20 (R t4) (R t12));
   Set_ (V05 + 3) (p20 (R t5) (R t13));
   Set_ (V06 + 3) (p20 (R t6) (R t14));
   Set_ (V07 + 3) (p20 (R t7) (R t15));
   Set_ (V08 + 3) (p31 (R t0) (R t8));
   Set_ (V09 + 3) (p31 (R t1) (R t9));
   Set_ (V10 + 3) (p31 (R t2) (R t10));
   Set_ (V11 + 3) (p31 (R t3) (R t11));
   Set_ (V12 + 3) (p31 (R t4) (R t12));
   Set_ (V13 + 3) (p31 (R t5) (R t13));
   Set_ (V14 + 3) (p31 (R t6) (R t14));
   Set_ (V15 + 3) (p31 (R t7) (R t15))]
  ++ [Set_ tr0_0 (lo16 (R (T00 + 1)) (R (T32 + 1)));
   Set_ tr0_1 (lo16 (R (T01 + 1)) (R (T33 + 1)));
   Set_ tr0_2 (hi16 (R (T00 + 1)) (R (T32 + 1)));
   Set_ tr0_3 (hi16 (R (T01 + 1)) (R (T33 + 1)));
   Set_ tr0_4 (lo16 (R (T02 + 1)) (R (T34 + 1)));
   Set_ tr0_5 (lo16 (R (T03 + 1)) (R (T35 + 1)));
   Set_ tr0_6 (hi16 (R (T02 + 1)) (R (T34 + 1)));
   Set_ tr0_7 (hi16 (R (T03 + 1)) (R (T35 + 1)));
   Set_ tr1_0 (lo32 (R tr0_0) (R tr0_1));
   Set_ tr1_1 (lo32 (R tr0_2) (R tr0_3));
   Set_ tr1_2 (hi32 (R tr0_0) (R tr0_1));
   Set_ tr1_3 (hi32 (R tr0_2) (R tr0_3));
   Set_ tr1_4 (lo32 (R tr0_4) (R tr0_5));
   Set_ tr1_5 (lo32 (R tr0_6) (R tr0_7));
   Set_ tr1_6 (hi32 (R tr0_4) (R tr0_5));
   Set_ tr1_7 (hi32 (R tr0_6) (R tr0_7));
   Set_ t0 (lo64 (R tr1_0) (R tr1_4));
   Set_ t1 (hi64 (R tr1_0) (R tr1_4));
   Set_ t2 (lo64 (R tr1_2) (R tr1_6));
   Set_ t3 (hi64 (R tr1_2) (R tr1_6));
   Set_ t4 (lo64 (R tr1_1) (R tr1_5));
   Set_ t5 (hi64 (R tr1_1) (R tr1_5));
   Set_ t6 (lo64 (R tr1_3) (R tr1_7));
   Set_ t7 (hi64 (R tr1_3) (R tr1_7));
   Set_ tr0_0 (lo16 (R (T04 + 1)) (R (T36 + 1)));
   Set_ tr0_1 (lo16 (R (T05 + 1)) (R (T37 + 1)));
   Set_ tr0_2 (hi16 (R (T04 + 1)) (R (T36 + 1)));
   Set_ tr0_3 (hi16 (R (T05 + 1)) (R (T37 + 1)));
   Set_ tr0_4 (lo16 (R (T06 + 1)) (R (T38 + 1)));
   Set_ tr0_5 (lo16 (R (T07 + 1)) (R (T39 + 1)));
   Set_ tr0_6 (hi16 (R (T06 + 1)) (R (T38 + 1)));
   Set_ tr0_7 (hi16 (R (T07 + 1)) (R (T39 + 1)));
   Set_ tr1_0 (lo32 (R tr0_0) (R tr0_1));
   Set_ tr1_1 (lo32 (R tr0_2) (R tr0_3));
   Set_ tr1_2 (hi32 (R tr0_0) (R tr0_1));
   Set_ tr1_3 (hi32 (R tr0_2) (R tr0_3));
   Set_ tr1_4 (lo32 (R tr0_4) (R tr0_5));
   Set_ tr1_5 (lo32 (R tr0_6) (R tr0_7));
   Set_ tr1_6 (hi32 (R tr0_4) (R tr0_5));
   Set_ tr1_7 (hi32 (R tr0_6) (R tr0_7));
   Set_ t8 (lo64 (R tr1_0) (R tr1_4));
   Set_ t9 (hi64 (R tr1_0) (R tr1_4));
   Set_ t10 (lo64 (R tr1_2) (R tr1_6));
   Set_ t11 (hi64 (R tr1_2) (R tr1_6));
   Set_ t12 (lo64 (R tr1_1) (R tr1_5));
   Set_ t13 (hi64 (R tr1_1) (R tr1_5));
   Set_ t14 (lo64 (R tr1_3) (R tr1_7));
   Set_ t15 (hi64 (R tr1_3) (R tr1_7));
   Set_ V16 (p20 (R t0) (R t8));
   Set_ V17 (p20 (R t1) (R t9));
   Set_ V18 (p20 (R t2) (R t10));
   Set_ V19 (p20 (R t3) (R t11));
   Set_ V20 (p20 (R t4) (R t12));
   Set_ V21 (p20 (R t5) (R t13));
   Set_ V22 (p20 (R t6) (R t14));
   Set_ V23 (p20 (R t7) (R t15));
   Set_ V24 (p31 (R t0) (R t8));
   Set_ V25 (p31 (R t1) (R t9));
   Set_ V26 (p31 (R t2) (R t10));
   Set_ V27 (p31 (R t3) (R t11));
   Set_ V28 (p31 (R t4) (R t12));
   Set_ V29 (p31 (R t5) (R t13));
   Set_ V30 (p31 (R t6) (R t14));
   Set_ V31 (p31 (R t7) (R t15))]
  ++ [Set_ tr0_0 (lo16 (R (T08 + 1)) (R (T40 + 1)));
   Set_ tr0_1 (lo16 (R (T09 + 1)) (R (T41 + 1)));
   Set_ tr0_2 (hi16 (R (T08 + 1)) (R (T40 + 1)));
   Set_ tr0_3 (hi16 (R (T09 + 1)) (R (T41 + 1)));
   Set_ tr0_4 (lo16 (R (T10 + 1)) (R (T42 + 1)));
   Set_ tr0_5 (lo16 (R (T11 + 1)) (R (T43 + 1)));
   Set_ tr0_6 (hi16 (R (T10 + 1)) (R (T42 + 1)));
   Set_ tr0_7 (hi16 (R (T11 + 1)) (R (T43 + 1)));
   Set_ tr1_0 (lo32 (R tr0_0) (R tr0_1));
   Set_ tr1_1 (lo32 (R tr0_2) (R tr0_3));
   Set_ tr1_2 (hi32 (R tr0_0) (R tr0_1));
   Set_ tr1_3 (hi32 (R tr0_2) (R tr0_3));
   Set_ tr1_4 (lo32 (R tr0_4) (R tr0_5));
   Set_ tr1_5 (lo32 (R tr0_6) (R tr0_7));
   Set_ tr1_6 (hi32 (R tr0_4) (R tr0_5));
   Set_ tr1_7 (hi32 (R tr0_6) (R tr0_7));
   Set_ t0 (lo64 (R tr1_0) (R tr1_4));
   Set_ t1 (hi64 (R tr1_0) (R tr1_4));
   Set_ t2 (lo64 (R tr1_2) (R tr1_6));
   Set_ t3 (hi64 (R tr1_2) (R tr1_6));
   Set_ t4 (lo64 (R tr1_1) (R tr1_5));
   Set_ t5 (hi64 (R tr1_1) (R tr1_5));
   Set_ t6 (lo64 (R tr1_3) (R tr1_7));
   Set_ t7 (hi64 (R tr1_3) (R tr1_7));
   Set_ tr0_0 (lo16 (R (T12 + 1)) (R (T44 + 1)));
   Set_ tr0_1 (lo16 (R (T13 + 1)) (R (T45 + 1)));
   Set_ tr0_2 (hi16 (R (T12 + 1)) (R (T44 + 1)));
   Set_ tr0_3 (hi16 (R (T13 + 1)) (R (T45 + 1)));
   Set_ tr0_4 (lo16 (R (T14 + 1)) (R (T46 + 1)));
   Set_ tr0_5 (lo16 (R (T15 + 1)) (R (T47 + 1)));
   Set_ tr0_6 (hi16 (R (T14 + 1)) (R (T46 + 1)));
   Set_ tr0_7 (hi16 (R (T15 + 1)) (R (T47 + 1)));
   Set_ tr1_0 (lo32 (R tr0_0) (R tr0_1));
   Set_ tr1_1 (lo32 (R tr0_2) (R tr0_3));
   Set_ tr1_2 (hi32 (R tr0_0) (R tr0_1));
   Set_ tr1_3 (hi32 (R tr0_2) (R tr0_3));
   Set_ tr1_4 (lo32 (R tr0_4) (R tr0_5));
   Set_ tr1_5 (lo32 (R tr0_6) (R tr0_7));
   Set_ tr1_6 (hi32 (R tr0_4) (R tr0_5));
   Set_ tr1_7 (hi32 (R tr0_6) (R tr0_7));
   Set_ t8 (lo64 (R tr1_0) (R tr1_4));
   Set_ t9 (hi64 (R tr1_0) (R tr1_4));
   Set_ t10 (lo64 (R tr1_2) (R tr1_6));
   Set_ t11 (hi64 (R tr1_2) (R tr1_6));
   Set_ t12 (lo64 (R tr1_1) (R tr1_5));
   Set_ t13 (hi64 (R tr1_1) (R tr1_5));
   Set_ t14 (lo64 (R tr1_3) (R tr1_7));
   Set_ t15 (hi64 (R tr1_3) (R tr1_7));
   Set_ (V16 + 1) (p20 (R t0) (R t8));
   Set_ (V17 + 1) (p20 (R t1) (R t9));
   Set_ (V18 + 1) (p20 (R t2) (R t10));
   Set_ (V19 + 1) (p20 (R t3) (R t11));
   Set_ (V20 + 1) (p20 (R t4) (R t12));
   Set_ (V21 + 1) (p20 (R t5) (R t13));
   Set_ (V22 + 1) (p20 (R t6) (R t14));
   Set_ (V23 + 1) (p20 (R t7) (R t15));
   Set_ (V24 + 1) (p31 (R t0) (R t8));
   Set_ (V25 + 1) (p31 (R t1) (R t9));
   Set_ (V26 + 1) (p31 (R t2) (R t10));
   Set_ (V27 + 1) (p31 (R t3) (R t11));
   Set_ (V28 + 1) (p31 (R t4) (R t12));
   Set_ (V29 + 1) (p31 (R t5) (R t13));
   Set_ (V30 + 1) (p31 (R t6) (R t14));
   Set_ (V31 + 1) (p31 (R t7) (R t15))]
  ++ [Set_ tr0_0 (lo16 (R (T16 + 1)) (R (T48 + 1)));
   Set_ tr0_1 (lo16 (R (T17 + 1)) (R (T49 + 1)));
   Set_ tr0_2 (hi16 (R (T16 + 1)) (R (T48 + 1)));
   Set_ tr0_3 (hi16 (R (T17 + 1)) (R (T49 + 1)));
   Set_ tr0_4 (lo16 (R (T18 + 1)) (R (T50 + 1)));
   Set_ tr0_5 (lo16 (R (T19 + 1)) (R (T51 + 1)));
   Set_ tr0_6 (hi16 (R (T18 + 1)) (R (T50 + 1)));
   Set_ tr0_7 (hi16 (R (T19 + 1)) (R (T51 + 1)));
   Set_ tr1_0 (lo32 (R tr0_0) (R tr0_1));
   Set_ tr1_1 (lo32 (R tr0_2) (R tr0_3));
   Set_ tr1_2 (hi32 (R tr0_0) (R tr0_1));
   Set_ tr1_3 (hi32 (R tr0_2) (R tr0_3));
   Set_ tr1_4 (lo32 (R tr0_4) (R tr0_5));
   Set_ tr1_5 (lo32 (R tr0_6) (R tr0_7));
   Set_ tr1_6 (hi32 (R tr0_4) (R tr0_5));
   Set_ tr1_7 (hi32 (R tr0_6) (R tr0_7));
   Set_ t0 (lo64 (R tr1_0) (R tr1_4));
   Set_ t1 (hi64 (R tr1_0) (R tr1_4));
   Set_ t2 (lo64 (R tr1_2) (R tr1_6));
   Set_ t3 (hi64 (R tr1_2) (R tr1_6));
   Set_ t4 (lo64 (R tr1_1) (R tr1_5));
   Set_ t5 (hi64 (R tr1_1) (R tr1_5));
   Set_ t6 (lo64 (R tr1_3) (R tr1_7));
   Set_ t7 (hi64 (R tr1_3) (R tr1_7));
   Set_ tr0_0 (lo16 (R (T20 + 1)) (R (T52 + 1)));
   Set_ tr0_1 (lo16 (R (T21 + 1)) (R (T53 + 1)));
   Set_ tr0_2 (hi16 (R (T20 + 1)) (R (T52 + 1)));
   Set_ tr0_3 (hi16 (R (T21 + 1)) (R (T53 + 1)));
   Set_ tr0_4 (lo16 (R (T22 + 1)) (R (T54 + 1)));
   Set_ tr0_5 (lo16 (R (T23 + 1)) (R (T55 + 1)));
   Set_ tr0_6 (hi16 (R (T22 + 1)) (R (T54 + 1)));
   Set_ tr0_7 (hi16 (R (T23 + 1)) (R (T55 + 1)));
   Set_ tr1_0 (lo32 (R tr0_0) (R tr0_1));
   Set_ tr1_1 (lo32 (R tr0_2) (R tr0_3));
   Set_ tr1_2 (hi32 (R tr0_0) (R tr0_1));
   Set_ tr1_3 (hi32 (R tr0_2) (R tr0_3));
   Set_ tr1_4 (lo32 (R tr0_4) (R tr0_5));
   Set_ tr1_5 (lo32 (R tr0_6) (R tr0_7));
   Set_ tr1_6 (hi32 (R tr0_4) (R tr0_5));
   Set_ tr1_7 (hi32 (R tr0_6) (R tr0_7));
   Set_ t8 (lo64 (R tr1_0) (R tr1_4));
   Set_ t9 (hi64 (R tr1_0) (R tr1_4));
   Set_ t10 (lo64 (R tr1_2) (R tr1_6));
   Set_ t11 (hi64 (R tr1_2) (R tr1_6));
   Set_ t12 (lo64 (R tr1_1) (R tr1_5));
   Set_ t13 (hi64 (R tr1_1) (R tr1_5));
   Set_ t14 (lo64 (R tr1_3) (R tr1_7));
   Set_ t15 (hi64 (R tr1_3) (R tr1_7));
   Set_ (V16 + 2) (p20 (R t0) (R t8));
   Set_ (V17 + 2) (p20 (R t1) (R t9));
   Set_ (V18 + 2) (p20 (R t2) (R t10));
   Set_ (V19 + 2) (p20 (R t3) (R t11));
   Set_ (V20 + 2) (p20 (R t4) (R t12));
   Set_ (V21 + 2) (p20 (R t5) (R t13));
   Set_ (V22 + 2) (p20 (R t6) (R t14));
   Set_ (V23 + 2) (p20 (R t7) (R t15));
   Set_ (V24 + 2) (p31 (R t0) (R t8));
   Set_ (V25 + 2) (p31 (R t1) (R t9));
   Set_ (V26 + 2) (p31 (R t2) (R t10));
   Set_ (V27 + 2) (p31 (R t3) (R t11));
   Set_ (V28 + 2) (p31 (R t4) (R t12));
   Set_ (V29 + 2) (p31 (R t5) (R t13));
   Set_ (V30 + 2) (p31 (R t6) (R t14));
   Set_ (V31 + 2) (p31 (R t7) (R t15))]
  ++ [Set_ tr0_0 (lo16 (R (T24 + 1)) (R (T56 + 1)));
   Set_ tr0_1 (lo16 (R (T25 + 1)) (R (T57 + 1)));
   Set_ tr0_2 (hi16 (R (T24 + 1)) (R (T56 + 1)));
   Set_ tr0_3 (hi16 (R (T25 + 1)) (R (T57 + 1)));
   Set_ tr0_4 (lo16 (R (T26 + 1)) (R (T58 + 1)));
   Set_ tr0_5 (lo16 (R (T27 + 1)) (R (T59 + 1)));
   Set_ tr0_6 (hi16 (R (T26 + 1)) (R (T58 + 1)));
   Set_ tr0_7 (hi16 (R (T27 + 1)) (R (T59 + 1)));
   Set_ tr1_0 (lo32 (R tr0_0) (R tr0_1));
   Set_ tr1_1 (lo32 (R tr0_2) (R tr0_3));
   Set_ tr1_2 (hi32 (R tr0_0) (R tr0_1));
   Set_ tr1_3 (hi32 (R tr0_2) (R tr0_3));
   Set_ tr1_4 (lo32 (R tr0_4) (R tr0_5));
   Set_ tr1_5 (lo32 (R tr0_6) (R tr0_7));
   Set_ tr1_6 (hi32 (R tr0_4) (R tr0_5));
   Set_ tr1_7 (hi32 (R tr0_6) (R tr0_7));
   Set_ t0 (lo64 (R tr1_0) (R tr1_4));
   Set_ t1 (hi64 (R tr1_0) (R tr1_4));
   Set_ t2 (lo64 (R tr1_2) (R tr1_6));
   Set_ t3 (hi64 (R tr1_2) (R tr1_6));
   Set_ t4 (lo64 (R tr1_1) (R tr1_5));
   Set_ t5 (hi64 (R tr1_1) (R tr1_5));
   Set_ t6 (lo64 (R tr1_3) (R tr1_7));
   Set_ t7 (hi64 (R tr1_3) (R tr1_7));
   Set_ tr0_0 (lo16 (R (T28 + 1)) (R (T60 + 1)));
   Set_ tr0_1 (lo16 (R (T29 + 1)) (R (T61 + 1)));
   Set_ tr0_2 (hi16 (R (T28 + 1)) (R (T60 + 1)));
   Set_ tr0_3 (hi16 (R (T29 + 1)) (R (T61 + 1)));
   Set_ tr0_4 (lo16 (R (T30 + 1)) (R (T62 + 1)));
   Set_ tr0_5 (lo16 (R (T31 + 1)) (R (T63 + 1)));
   Set_ tr0_6 (hi16 (R (T30 + 1)) (R (T62 + 1)));
   Set_ tr0_7 (hi16 (R (T31 + 1)) (R (T63 + 1)));
   Set_ tr1_0 (lo32 (R tr0_0) (R tr0_1));
   Set_ tr1_1 (lo32 (R tr0_2) (R tr0_3));
   Set_ tr1_2 (hi32 (R tr0_0) (R tr0_1));
   Set_ tr1_3 (hi32 (R tr0_2) (R tr0_3));
   Set_ tr1_4 (lo32 (R tr0_4) (R tr0_5));
   Set_ tr1_5 (lo32 (R tr0_6) (R tr0_7));
   Set_ tr1_6 (hi32 (R tr0_4) (R tr0_5));
   Set_ tr1_7 (hi32 (R tr0_6) (R tr0_7));
   Set_ t8 (lo64 (R tr1_0) (R tr1_4));
   Set_ t9 (hi64 (R tr1_0) (R tr1_4));
   Set_ t10 (lo64 (R tr1_2) (R tr1_6));
   Set_ t11 (hi64 (R tr1_2) (R tr1_6));
   Set_ t12 (lo64 (R tr1_1) (R tr1_5));
   Set_ t13 (hi64 (R tr1_1) (R tr1_5));
   Set_ t14 (lo64 (R tr1_3) (R tr1_7));
   Set_ t15 (hi64 (R tr1_3) (R tr1_7));
   Set_ (V16 + 3) (p20 (R t0) (R t8));
   Set_ (V17 + 3) (p20 (R t1) (R t9));
   Set_ (V18 + 3) (p20 (R t2) (R t10));
   Set_ (V19 + 3) (p20 (R t3) (R t11));
   Set_ (V20 + 3) (p20 (R t4) (R t12));
   Set_ (V21 + 3) (p20 (R t5) (R t13));
   Set_ (V22 + 3) (p20 (R t6) (R t14));
   Set_ (V23 + 3) (p20 (R t7) (R t15));
   Set_ (V24 + 3) (p31 (R t0) (R t8));
   Set_ (V25 + 3) (p31 (R t1) (R t9));
   Set_ (V26 + 3) (p31 (R t2) (R t10));
   Set_ (V27 + 3) (p31 (R t3) (R t11));
   Set_ (V28 + 3) (p31 (R t4) (R t12));
   Set_ (V29 + 3) (p31 (R t5) (R t13));
   Set_ (V30 + 3) (p31 (R t6) (R t14));
   Set_ (V31 + 3) (p31 (R t7) (R t15))]
  ++ loop 4 (fun i =>
    [Set_ (V32 + i) (Sra16 (add16 (R (V00 + i)) (R (V01 + i))) (I 1));
     Set_ (V33 + i) (Sra16 (add16 (R (V01 + i)) (R (V02 + i))) (I 1));
     Set_ (V34 + i) (Sra16 (add16 (R (V02 + i)) (R (V03 + i))) (I 1));
     Set_ (V35 + i) (Sra16 (add16 (R (V03 + i)) (R (V04 + i))) (I 1));
     Set_ (V36 + i) (Sra16 (add16 (R (V04 + i)) (R (V05 + i))) (I 1));
     Set_ (V37 + i) (Sra16 (add16 (R (V05 + i)) (R (V06 + i))) (I 1));
     Set_ (V38 + i) (Sra16 (add16 (R (V06 + i)) (R (V07 + i))) (I 1));
     Set_ (V39 + i) (Sra16 (add16 (R (V07 + i)) (R (V08 + i))) (I 1));
     Set_ (V40 + i) (Sra16 (add16 (R (V08 + i)) (R (V09 + i))) (I 1));
     Set_ (V41 + i) (Sra16 (add16 (R (V09 + i)) (R (V10 + i))) (I 1));
     Set_ (V42 + i) (Sra16 (add16 (R (V10 + i)) (R (V11 + i))) (I 1));
     Set_ (V43 + i) (Sra16 (add16 (R (V11 + i)) (R (V12 + i))) (I 1));
     Set_ (V44 + i) (Sra16 (add16 (R (V12 + i)) (R (V13 + i))) (I 1));
     Set_ (V45 + i) (Sra16 (add16 (R (V13 + i)) (R (V14 + i))) (I 1));
     Set_ (V46 + i) (Sra16 (add16 (R (V14 + i)) (R (V15 + i))) (I 1));
     Set_ (V47 + i) (Sra16 (add16 (R (V15 + i)) (R (V16 + i))) (I 1));
     Set_ (V48 + i) (Sra16 (add16 (R (V16 + i)) (R (V17 + i))) (I 1));
     Set_ (V49 + i) (Sra16 (add16 (R (V17 + i)) (R (V18 + i))) (I 1));
     Set_ (V50 + i) (Sra16 (add16 (R (V18 + i)) (R (V19 + i))) (I 1));
     Set_ (V51 + i) (Sra16 (add16 (R (V19 + i)) (R (V20 + i))) (I 1));
     Set_ (V52 + i) (Sra16 (add16 (R (V20 + i)) (R (V21 + i))) (I 1));
     Set_ (V53 + i) (Sra16 (add16 (R (V21 + i)) (R (V22 + i))) (I 1));
     Set_ (V54 + i) (Sra16 (add16 (R (V22 + i)) (R (V23 + i))) (I 1));
     Set_ (V55 + i) (Sra16 (add16 (R (V23 + i)) (R (V24 + i))) (I 1));
     Set_ (V56 + i) (Sra16 (add16 (R (V24 + i)) (R (V25 + i))) (I 1));
     Set_ (V57 + i) (Sra16 (add16 (R (V25 + i)) (R (V26 + i))) (I 1));
     Set_ (V58 + i) (Sra16 (add16 (R (V26 + i)) (R (V27 + i))) (I 1));
     Set_ (V59 + i) (Sra16 (add16 (R (V27 + i)) (R (V28 + i))) (I 1));
     Set_ (V60 + i) (Sra16 (add16 (R (V28 + i)) (R (V29 + i))) (I 1));
     Set_ (V61 + i) (Sra16 (add16 (R (V29 + i)) (R (V30 + i))) (I 1));
     Set_ (V62 + i) (Sra16 (add16 (R (V30 + i)) (R (V31 + i))) (I 1));
     Set_ (V63 + i) (Sra16 (add16 (R (V31 + i)) (R (V31 + i))) (I 1))])
  ++ [Set_ tr0_0 (lo16 (R V00) (R V32));
   Set_ tr0_1 (lo16 (R V01) (R V33));
   Set_ tr0_2 (hi16 (R V00) (R V32));
   Set_ tr0_3 (hi16 (R V01) (R V33));
   Set_ tr0_4 (lo16 (R V02) (R V34));
   Set_ tr0_5 (lo16 (R V03) (R V35));
   Set_ tr0_6 (hi16 (R V02) (R V34));
   Set_ tr0_7 (hi16 (R V03) (R V35));
   Set_ tr1_0 (lo32 (R tr0_0) (R tr0_1));
   Set_ tr1_1 (lo32 (R tr0_2) (R tr0_3));
   Set_ tr1_2 (hi32 (R tr0_0) (R tr0_1));
   Set_ tr1_3 (hi32 (R tr0_2) (R tr0_3));
   Set_ tr1_4 (lo32 (R tr0_4) (R tr0_5));
   Set_ tr1_5 (lo32 (R tr0_6) (R tr0_7));
   Set_ tr1_6 (hi32 (R tr0_4) (R tr0_5));
   Set_ tr1_7 (hi32 (R tr0_6) (R tr0_7));
   Set_ t0 (lo64 (R tr1_0) (R tr1_4));
   Set_ t1 (hi64 (R tr1_0) (R tr1_4));
   Set_ t2 (lo64 (R tr1_2) (R tr1_6));
   Set_ t3 (hi64 (R tr1_2) (R tr1_6));
   Set_ t4 (lo64 (R tr1_1) (R tr1_5));
   Set_ t5 (hi64 (R tr1_1) (R tr1_5));
   Set_ t6 (lo64 (R tr1_3) (R tr1_7));
   Set_ t7 (hi64 (R tr1_3) (R tr1_7));
   Set_ tr0_0 (lo16 (R V04) (R V36));
   Set_ tr0_1 (lo16 (R V05) (R V37));
   Set_ tr0_2 (hi16 (R V04) (R V36));
   Set_ tr0_3 (hi16 (R V05) (R V37));
   Set_ tr0_4 (lo16 (R V06) (R V38));
   Set_ tr0_5 (lo16 (R V07) (R V39));
   Set_ tr0_6 (hi16 (R V06) (R V38));
   Set_ tr0_7 (hi16 (R V07) (R V39));
   Set_ tr1_0 (lo32 (R tr0_0) (R tr0_1));
   Set_ tr1_1 (lo32 (R tr0_2) (R tr0_3));
   Set_ tr1_2 (hi32 (R tr0_0) (R tr0_1));
   Set_ tr1_3 (hi32 (R tr0_2) (R tr0_3));
   Set_ tr1_4 (lo32 (R tr0_4) (R tr0_5));
   Set_ tr1_5 (lo32 (R tr0_6) (R tr0_7));
   Set_ tr1_6 (hi32 (R tr0_4) (R tr0_5));
   Set_ tr1_7 (hi32 (R tr0_6) (R tr0_7));
   Set_ t8 (lo64 (R tr1_0) (R tr1_4));
   Set_ t9 (hi64 (R tr1_0) (R tr1_4));
   Set_ t10 (lo64 (R tr1_2) (R tr1_6));
   Set_ t11 (hi64 (R tr1_2) (R tr1_6));
   Set_ t12 (lo64 (R tr1_1) (R tr1_5));
   Set_ t13 (hi64 (R tr1_1) (R tr1_5));
   Set_ t14 (lo64 (R tr1_3) (R tr1_7));
   Set_ t15 (hi64 (R tr1_3) (R tr1_7));
   Set_ T00 (p20 (R t0) (R t8));
   Set_ T01 (p20 (R t1) (R t9));
   Set_ T02 (p20 (R t2) (R t10));
   Set_ T03 (p20 (R t3) (R t11));
   Set_ T04 (p20 (R t4) (R t12));
   Set_ T05 (p20 (R t5) (R t13));
   Set_ T06 (p20 (R t6) (R t14));
   Set_ T07 (p20 (R t7) (R t15));
   Set_ T08 (p31 (R t0) (R t8));
   Set_ T09 (p31 (R t1) (R t9));
   Set_ T10 (p31 (R t2) (R t10));
   Set_ T11 (p31 (R t3) (R t11));
   Set_ T12 (p31 (R t4) (R t12));
   Set_ T13 (p31 (R t5) (R t13));
   Set_ T14 (p31 (R t6) (R t14));
   Set_ T15 (p31 (R t7) (R t15))]
  ++ [Set_ tr0_0 (lo16 (R (V00 + 1)) (R (V32 + 1)));
   Set_ tr0_1 (lo16 (R (V01 + 1)) (R (V33 + 1)));
   Set_ tr0_2 (hi16 (R (V00 + 1)) (R (V32 + 1)));
   Set_ tr0_3 (hi16 (R (V01 + 1)) (R (V33 + 1)));
   Set_ tr0_4 (lo16 (R (V02 + 1)) (R (V34 + 1)));
   Set_ tr0_5 (lo16 (R (V03 + 1)) (R (V35 + 1)));
   Set_ tr0_6 (hi16 (R (V02 + 1)) (R (V34 + 1)));
   Set_ tr0_7 (hi16 (R (V03 + 1)) (R (V35 + 1)));
   Set_ tr1_0 (lo32 (R tr0_0) (R tr0_1));
   Set_ tr1_1 (lo32 (R tr0_2) (R tr0_3));
   Set_ tr1_2 (hi32 (R tr0_0) (R tr0_1));
   Set_ tr1_3 (hi32 (R tr0_2) (R tr0_3));
   Set_ tr1_4 (lo32 (R tr0_4) (R tr0_5));
   Set_ tr1_5 (lo32 (R tr0_6) (R tr0_7));
   Set_ tr1_6 (hi32 (R tr0_4) (R tr0_5));
   Set_ tr1_7 (hi32 (R tr0_6) (R tr0_7));
   Set_ t0 (lo64 (R tr1_0) (R tr1_4));
   Set_ t1 (hi64 (R tr1_0) (R tr1_4));
   Set_ t2 (lo64 (R tr1_2) (R tr1_6));
   Set_ t3 (hi64 (R tr1_2) (R tr1_6));
   Set_ t4 (lo64 (R tr1_1) (R tr1_5));
   Set_ t5 (hi64 (R tr1_1) (R tr1_5));
   Set_ t6 (lo64 (R tr1_3) (R tr1_7));
   Set_ t7 (hi64 (R tr1_3) (R tr1_7));
   Set_ tr0_0 (lo16 (R (V04 + 1)) (R (V36 + 1)));
   Set_ tr0_1 (lo16 (R (V05 + 1)) (R (V37 + 1)));
   Set_ tr0_2 (hi16 (R (V04 + 1)) (R (V36 + 1)));
   Set_ tr0_3 (hi16 (R (V05 + 1)) (R (V37 + 1)));
   Set_ tr0_4 (lo16 (R (V06 + 1)) (R (V38 + 1)));
   Set_ tr0_5 (lo16 (R (V07 + 1)) (R (V39 + 1)));
   Set_ tr0_6 (hi16 (R (V06 + 1)) (R (V38 + 1)));
   Set_ tr0_7 (hi16 (R (V07 + 1)) (R (V39 + 1)));
   Set_ tr1_0 (lo32 (R tr0_0) (R tr0_1));
   Set_ tr1_1 (lo32 (R tr0_2) (R tr0_3));
   Set_ tr1_2 (hi32 (R tr0_0) (R tr0_1));
   Set_ tr1_3 (hi32 (R tr0_2) (R tr0_3));
   Set_ tr1_4 (lo32 (R tr0_4) (R tr0_5));
   Set_ tr1_5 (lo32 (R tr0_6) (R tr0_7));
   Set_ tr1_6 (hi32 (R tr0_4) (R tr0_5));
   Set_ tr1_7 (hi32 (R tr0_6) (R tr0_7));
   Set_ t8 (lo64 (R tr1_0) (R tr1_4));
   Set_ t9 (hi64 (R tr1_0) (R tr1_4));
   Set_ t10 (lo64 (R tr1_2) (R tr1_6));
   Set_ t11 (hi64 (R tr1_2) (R tr1_6));
   Set_ t12 (lo64 (R tr1_1) (R tr1_5));
   Set_ t13 (hi64 (R tr1_1) (R tr1_5));
   Set_ t14 (lo64 (R tr1_3) (R tr1_7));
   Set_ t15 (hi64 (R tr1_3) (R tr1_7));
   Set_ T16 (p20 (R t0) (R t8));
   Set_ T17 (p20 (R t1) (R t9));
   Set_ T18 (p20 (R t2) (R t10));
   Set_ T19 (p20 (R t3) (R t11));
   Set_ T20 (p20 (R t4) (R t12));
   Set_ T21 (p20 (R t5) (R t13));
   Set_ T22 (p20 (R t6) (R t14));
   Set_ T23 (p20 (R t7) (R t15));
   Set_ T24 (p31 (R t0) (R t8));
   Set_ T25 (p31 (R t1) (R t9));
   Set_ T26 (p31 (R t2) (R t10));
   Set_ T27 (p31 (R t3) (R t11));
   Set_ T28 (p31 (R t4) (R t12));
   Set_ T29 (p31 (R t5) (R t13));
   Set_ T30 (p31 (R t6) (R t14));
   Set_ T31 (p31 (R t7) (R t15))]
  ++ [Set_ tr0_0 (lo16 (R (V00 + 2)) (R (V32 + 2)));
   Set_ tr0_1 (lo16 (R (V01 + 2)) (R (V33 + 2)));
   Set_ tr0_2 (hi16 (R (V00 + 2)) (R (V32 + 2)));
   Set_ tr0_3 (hi16 (R (V01 + 2)) (R (V33 + 2)));
   Set_ tr0_4 (lo16 (R (V02 + 2)) (R (V34 + 2)));
   Set_ tr0_5 (lo16 (R (V03 + 2)) (R (V35 + 2)));
   Set_ tr0_6 (hi16 (R (V02 + 2)) (R (V34 + 2)));
   Set_ tr0_7 (hi16 (R (V03 + 2)) (R (V35 + 2)));
   Set_ tr1_0 (lo32 (R tr0_0) (R tr0_1));
   Set_ tr1_1 (lo32 (R tr0_2) (R tr0_3));
   Set_ tr1_2 (hi32 (R tr0_0) (R tr0_1));
   Set_ tr1_3 (hi32 (R tr0_2) (R tr0_3));
   Set_ tr1_4 (lo32 (R tr0_4) (R tr0_5));
   Set_ tr1_5 (lo32 (R tr0_6) (R tr0_7));
   Set_ tr1_6 (hi32 (R tr0_4) (R tr0_5));
   Set_ tr1_7 (hi32 (R tr0_6) (R tr0_7));
   Set_ t0 (lo64 (R tr1_0) (R tr1_4));
   Set_ t1 (hi64 (R tr1_0) (R tr1_4));
   Set_ t2 (lo64 (R tr1_2) (R tr1_6));
   Set_ t3 (hi64 (R tr1_2) (R tr1_6));
   Set_ t4 (lo64 (R tr1_1) (R tr1_5));
   Set_ t5 (hi64 (R tr1_1) (R tr1_5));
   Set_ t6 (lo64 (R tr1_3) (R tr1_7));
   Set_ t7 (hi64 (R tr1_3) (R tr1_7));
   Set_ tr0_0 (lo16 (R (V04 + 2)) (R (V36 + 2)));
   Set_ tr0_1 (lo16 (R (V05 + 2)) (R (V37 + 2)));
   Set_ tr0_2 (hi16 (R (V04 + 2)) (R (V36 + 2)));
   Set_ tr0_3 (hi16 (R (V05 + 2)) (R (V37 + 2)));
   Set_ tr0_4 (lo16 (R (V06 + 2)) (R (V38 + 2)));
   Set_ tr0_5 (lo16 (R (V07 + 2)) (R (V39 + 2)));
   Set_ tr0_6 (hi16 (R (V06 + 2)) (R (V38 + 2)));
   Set_ tr0_7 (hi16 (R (V07 + 2)) (R (V39 + 2)));
   Set_ tr1_0 (lo32 (R tr0_0) (R tr0_1));
   Set_ tr1_1 (lo32 (R tr0_2) (R tr0_3));
   Set_ tr1_2 (hi32 (R tr0_0) (R tr0_1));
   Set_ tr1_3 (hi32 (R tr0_2) (R tr0_3));
   Set_ tr1_4 (lo32 (R tr0_4) (R tr0_5));
   Set_ tr1_5 (lo32 (R tr0_6) (R tr0_7));
   Set_ tr1_6 (hi32 (R tr0_4) (R tr0_5));
   Set_ tr1_7 (hi32 (R tr0_6) (R tr0_7));
   Set_ t8 (lo64 (R tr1_0) (R tr1_4));
   Set_ t9 (hi64 (R tr1_0) (R tr1_4));
   Set_ t10 (lo64 (R tr1_2) (R tr1_6));
   Set_ t11 (hi64 (R tr1_2) (R tr1_6));
   Set_ t12 (lo64 (R tr1_1) (R tr1_5));
   Set_ t13 (hi64 (R tr1_1) (R tr1_5));
   Set_ t14 (lo64 (R tr1_3) (R tr1_7));
   Set_ t15 (hi64 (R tr1_3) (R tr1_7));
   Set_ T32 (p20 (R t0) (R t8));
   Set_ T33 (p20 (R t1) (R t9));
   Set_ T34 (p20 (R t2) (R t10));
   Set_ T35 (p20 (R t3) (R t11));
   Set_ T36 (p20 (R t4) (R t12));
   Set_ T37 (p20 (R t5) (R t13));
   Set_ T38 (p20 (R t6) (R t14));
   Set_ T39 (p20 (R t7) (R t15));
   Set_ T40 (p31 (R t0) (R t8));
   Set_ T41 (p31 (R t1) (R t9));
   Set_ T42 (p31 (R t2) (R t10));
   Set_ T43 (p31 (R t3) (R t11));
   Set_ T44 (p31 (R t4) (R t12));
   Set_ T45 (p31 (R t5) (R t13));
   Set_ T46 (p31 (R t6) (R t14));
   Set_ T47 (p31 (R t7) (R t15))]
  ++ [Set_ tr0_0 (lo16 (R (V00 + 3)) (R (V32 + 3)));
   Set_ tr0_1 (lo16 (R (V01 + 3)) (R (V33 + 3)));
   Set_ tr0_2 (hi16 (R (V00 + 3)) (R (V32 + 3)));
   Set_ tr0_3 (hi16 (R (V01 + 3)) (R (V33 + 3)));
   Set_ tr0_4 (lo16 (R (V02 + 3)) (R (V34 + 3)));
   Set_ tr0_5 (lo16 (R (V03 + 3)) (R (V35 + 3)));
   Set_ tr0_6 (hi16 (R (V02 + 3)) (R (V34 + 3)));
   Set_ tr0_7 (hi16 (R (V03 + 3)) (R (V35 + 3)));
   Set_ tr1_0 (lo32 (R tr0_0) (R tr0_1));
   Set_ tr1_1 (lo32 (R tr0_2) (R tr0_3));
   Set_ tr1_2 (hi32 (R tr0_0) (R tr0_1));
   Set_ tr1_3 (hi32 (R tr0_2) (R tr0_3));
   Set_ tr1_4 (lo32 (R tr0_4) (R tr0_5));
   Set_ tr1_5 (lo32 (R tr0_6) (R tr0_7));
   Set_ tr1_6 (hi32 (R tr0_4) (R tr0_5));
   Set_ tr1_7 (hi32 (R tr0_6) (R tr0_7));
   Set_ t0 (lo64 (R tr1_0) (R tr1_4));
   Set_ t1 (hi64 (R tr1_0) (R tr1_4));
   Set_ t2 (lo64 (R tr1_2) (R tr1_6));
   Set_ t3 (hi64 (R tr1_2) (R tr1_6));
   Set_ t4 (lo64 (R tr1_1) (R tr1_5));
   Set_ t5 (hi64 (R tr1_1) (R tr1_5));
   Set_ t6 (lo64 (R tr1_3) (R tr1_7));
   Set_ t7 (hi64 (R tr1_3) (R tr1_7));
   Set_ tr0_0 (lo16 (R (V04 + 3)) (R (V36 + 3)));
   Set_ tr0_1 (lo16 (R (V05 + 3)) (R (V37 + 3)));
   Set_ tr0_2 (hi16 (R (V04 + 3)) (R (V36 + 3)));
   Set_ tr0_3 (hi16 (R (V05 + 3)) (R (V37 + 3)));
   Set_ tr0_4 (lo16 (R (V06 + 3)) (R (V38 + 3)));
   Set_ tr0_5 (lo16 (R (V07 + 3)) (R (V39 + 3)));
   Set_ tr0_6 (hi16 (R (V06 + 3)) (R (V38 + 3)));
   Set_ tr0_7 (hi16 (R (V07 + 3)) (R (V39 + 3)));
   Set_ tr1_0 (lo32 (R tr0_0) (R tr0_1));
   Set_ tr1_1 (lo32 (R tr0_2) (R tr0_3));
   Set_ tr1_2 (hi32 (R tr0_0) (R tr0_1));
   Set_ tr1_3 (hi32 (R tr0_2) (R tr0_3));
   Set_ tr1_4 (lo32 (R tr0_4) (R tr0_5));
   Set_ tr1_5 (lo32 (R tr0_6) (R tr0_7));
   Set_ tr1_6 (hi32 (R tr0_4) (R tr0_5));
   Set_ tr1_7 (hi32 (R tr0_6) (R tr0_7));
   Set_ t8 (lo64 (R tr1_0) (R tr1_4));
   Set_ t9 (hi64 (R tr1_0) (R tr1_4));
   Set_ t10 (lo64 (R tr1_2) (R tr1_6));
   Set_ t11 (hi64 (R tr1_2) (R tr1_6));
   Set_ t12 (lo64 (R tr1_1) (R tr1_5));
   Set_ t13 (hi64 (R tr1_1) (R tr1_5));
   Set_ t14 (lo64 (R tr1_3) (R tr1_7));
   Set_ t15 (hi64 (R tr1_3) (R tr1_7));
   Set_ T48 (p20 (R t0) (R t8));
   Set_ T49 (p20 (R t1) (R t9));
   Set_ T50 (p20 (R t2) (R t10));
   Set_ T51 (p20 (R t3) (R t11));
   Set_ T52 (p20 (R t4) (R t12));
   Set_ T53 (p20 (R t5) (R t13));
   Set_ T54 (p20 (R t6) (R t14));
   Set_ T55 (p20 (R t7) (R t15));
   Set_ T56 (p31 (R t0) (R t8));
   Set_ T57 (p31 (R t1) (R t9));
   Set_ T58 (p31 (R t2) (R t10));
   Set_ T59 (p31 (R t3) (R t11));
   Set_ T60 (p31 (R t4) (R t12));
   Set_ T61 (p31 (R t5) (R t13));
   Set_ T62 (p31 (R t6) (R t14));
   Set_ T63 (p31 (R t7) (R t15))]
  ++ [Set_ tr0_0 (lo16 (R V08) (R V40));
   Set_ tr0_1 (lo16 (R V09) (R V41));
   Set_ tr0_2 (hi16 (R V08) (R V40));
   Set_ tr0_3 (hi16 (R V09) (R V41));
   Set_ tr0_4 (lo16 (R V10) (R V42));
   Set_ tr0_5 (lo16 (R V11) (R V43));
   Set_ tr0_6 (hi16 (R V10) (R V42));
   Set_ tr0_7 (hi16 (R V11) (R V43));
   Set_ tr1_0 (lo32 (R tr0_0) (R tr0_1));
   Set_ tr1_1 (lo32 (R tr0_2) (R tr0_3));
   Set_ tr1_2 (hi32 (R tr0_0) (R tr0_1));
   Set_ tr1_3 (hi32 (R tr0_2) (R tr0_3));
   Set_ tr1_4 (lo32 (R tr0_4) (R tr0_5));
   Set_ tr1_5 (lo32 (R tr0_6) (R tr0_7));
   Set_ tr1_6 (hi32 (R tr0_4) (R tr0_5));
   Set_ tr1_7 (hi32 (R tr0_6) (R tr0_7));
   Set_ t0 (lo64 (R tr1_0) (R tr1_4));
   Set_ t1 (hi64 (R tr1_0) (R tr1_4));
   Set_ t2 (lo64 (R tr1_2) (R tr1_6));
   Set_ t3 (hi64 (R tr1_2) (R tr1_6));
   Set_ t4 (lo64 (R tr1_1) (R tr1_5));
   Set_ t5 (hi64 (R tr1_1) (R tr1_5));
   Set_ t6 (lo64 (R tr1_3) (R tr1_7));
   Set_ t7 (hi64 (R tr1_3) (R tr1_7));
   Set_ tr0_0 (lo16 (R V12) (R V44));
   Set_ tr0_1 (lo16 (R V13) (R V45));
   Set_ tr0_2 (hi16 (R V12) (R V44));
   Set_ tr0_3 (hi16 (R V13) (R V45));
   Set_ tr0_4 (lo16 (R V14) (R V46));
   Set_ tr0_5 (lo16 (R V15) (R V47));
   Set_ tr0_6 (hi16 (R V14) (R V46));
   Set_ tr0_7 (hi16 (R V15) (R V47));
   Set_ tr1_0 (lo32 (R tr0_0) (R tr0_1));
   Set_ tr1_1 (lo32 (R tr0_2) (R tr0_3));
   Set_ tr1_2 (hi32 (R tr0_0) (R tr0_1));
   Set_ tr1_3 (hi32 (R tr0_2) (R tr0_3));
   Set_ tr1_4 (lo32 (R tr0_4) (R tr0_5));
   Set_ tr1_5 (lo32 (R tr0_6) (R tr0_7));
   Set_ tr1_6 (hi32 (R tr0_4) (R tr0_5));
   Set_ tr1_7 (hi32 (R tr0_6) (R tr0_7));
   Set_ t8 (lo64 (R tr1_0) (R tr1_4));
   Set_ t9 (hi64 (R tr1_0) (R tr1_4));
   Set_ t10 (lo64 (R tr1_2) (R tr1_6));
   Set_ t11 (hi64 (R tr1_2) (R tr1_6));
   Set_ t12 (lo64 (R tr1_1) (R tr1_5));
   Set_ t13 (hi64 (R tr1_1) (R tr1_5));
   Set_ t14 (lo64 (R tr1_3) (R tr1_7));
   Set_ t15 (hi64 (R tr1_3) (R tr1_7));
   Set_ (T00 + 1) (p20 (R t0) (R t8));
   Set_ (T01 + 1) (p20 (R t1) (R t9));
   Set_ (T02 + 1) (p20 (R t2) (R t10));
   Set_ (T03 + 1) (p20 (R t3) (R t11));
   Set_ (T04 + 1) (p20 (R t4) (R t12));
   Set_ (T05 + 1) (p20 (R t5) (R t13));
   Set_ (T06 + 1) (p20 (R t6) (R t14));
   Set_ (T07 + 1) (p20 (R t7) (R t15));
   Set_ (T08 + 1) (p31 (R t0) (R t8));
   Set_ (T09 + 1) (p31 (R t1) (R t9));
   Set_ (T10 + 1) (p31 (R t2) (R t10));
   Set_ (T11 + 1) (p31 (R t3) (R t11));
   Set_ (T12 + 1) (p31 (R t4) (R t12));
   Set_ (T13 + 1) (p31 (R t5) (R t13));
   Set_ (T14 + 1) (p31 (R t6) (R t14));
   Set_ (T15 + 1) (p31 (R t7) (R t15))]
  ++ [Set_ tr0_0 (lo16 (R (V08 + 1)) (R (V40 + 1)));
   Set_ tr0_1 (lo16 (R (V09 + 1)) (R (V41 + 1)));
   Set_ tr0_2 (hi16 (R (V08 + 1)) (R (V40 + 1)));
   Set_ tr0_3 (hi16 (R (V09 + 1)) (R (V41 + 1)));
   Set_ tr0_4 (lo16 (R (V10 + 1)) (R (V42 + 1)));
   Set_ tr0_5 (lo16 (R (V11 + 1)) (R (V43 + 1)));
   Set_ tr0_6 (hi16 (R (V10 + 1)) (R (V42 + 1)));
   Set_ tr0_7 (hi16 (R (V11 + 1)) (R (V43 + 1)));
   Set_ tr1_0 (lo32 (R tr0_0) (R tr0_1));
   Set_ tr1_1 (lo32 (R tr0_2) (R tr0_3));
   Set_ tr1_2 (hi32 (R tr0_0) (R tr0_1));
   Set_ tr1_3 (hi32 (R tr0_2) (R tr0_3));
   Set_ tr1_4 (lo32 (R tr0_4) (R tr0_5));
   Set_ tr1_5 (lo32 (R tr0_6) (R tr0_7));
   Set_ tr1_6 (hi32 (R tr0_4) (R tr0_5));
   Set_ tr1_7 (hi32 (R tr0_6) (R tr0_7));
   Set_ t0 (lo64 (R tr1_0) (R tr1_4));
   Set_ t1 (hi64 (R tr1_0) (R tr1_4));
   Set_ t2 (lo64 (R tr1_2) (R tr1_6));
   Set_ t3 (hi64 (R tr1_2) (R tr1_6));
   Set_ t4 (lo64 (R tr1_1) (R tr1_5));
   Set_ t5 (hi64 (R tr1_1) (R tr1_5));
   Set_ t6 (lo64 (R tr1_3) (R tr1_7));
   Set_ t7 (hi64 (R tr1_3) (R tr1_7));
   Set_ tr0_0 (lo16 (R (V12 + 1)) (R (V44 + 1)));
   Set_ tr0_1 (lo16 (R (V13 + 1)) (R (V45 + 1)));
   Set_ tr0_2 (hi16 (R (V12 + 1)) (R (V44 + 1)));
   Set_ tr0_3 (hi16 (R (V13 + 1)) (R (V45 + 1)));
   Set_ tr0_4 (lo16 (R (V14 + 1)) (R (V46 + 1)));
   Set_ tr0_5 (lo16 (R (V15 + 1)) (R (V47 + 1)));
   Set_ tr0_6 (hi16 (R (V14 + 1)) (R (V46 + 1)));
   Set_ tr0_7 (hi16 (R (V15 + 1)) (R (V47 + 1)));
   Set_ tr1_0 (lo32 (R tr0_0) (R tr0_1));
   Set_ tr1_1 (lo32 (R tr0_2) (R tr0_3));
   Set_ tr1_2 (hi32 (R tr0_0) (R tr0_1));
   Set_ tr1_3 (hi32 (R tr0_2) (R tr0_3));
   Set_ tr1_4 (lo32 (R tr0_4) (R tr0_5));
   Set_ tr1_5 (lo32 (R tr0_6) (R tr0_7));
   Set_ tr1_6 (hi32 (R tr0_4) (R tr0_5));
   Set_ tr1_7 (hi32 (R tr0_6) (R tr0_7));
   Set_ t8 (lo64 (R tr1_0) (R tr1_4));
   Set_ t9 (hi64 (R tr1_0) (R tr1_4));
   Set_ t10 (lo64 (R tr1_2) (R tr1_6));
   Set_ t11 (hi64 (R tr1_2) (R tr1_6));
   Set_ t12 (lo64 (R tr1_1) (R tr1_5));
   Set_ t13 (hi64 (R tr1_1) (R tr1_5));
   Set_ t14 (lo64 (R tr1_3) (R tr1_7));
   Set_ t15 (hi64 (R tr1_3) (R tr1_7));
   Set_ (T16 + 1) (p20 (R t0) (R t8));
   Set_ (T17 + 1) (p20 (R t1) (R t9));
   Set_ (T18 + 1) (p20 (R t2) (R t10));
   Set_ (T19 + 1) (p20 (R t3) (R t11));
   Set_ (T20 + 1) (p20 (R t4) (R t12));
   Set_ (T21 + 1) (p20 (R t5) (R t13));
   Set_ (T22 + 1) (p20 (R t6) (R t14));
   Set_ (T23 + 1) (p20 (R t7) (R t15));
   Set_ (T24 + 1) (p31 (R t0) (R t8));
   Set_ (T25 + 1) (p31 (R t1) (R t9));
   Set_ (T26 + 1) (p31 (R t2) (R t10));
   Set_ (T27 + 1) (p31 (R t3) (R t11));
   Set_ (T28 + 1) (p31 (R t4) (R t12));
   Set_ (T29 + 1) (p31 (R t5) (R t13));
   Set_ (T30 + 1) (p31 (R t6) (R t14));
   Set_ (T31 + 1) (p31 (R t7) (R t15))]
  ++ [Set_ tr0_0 (lo16 (R (V08 + 2)) (R (V40 + 2)));
   Set_ tr0_1 (lo16 (R (V09 + 2)) (R (V41 + 2)));
   Set_ tr0_2 (hi16 (R (V08 + 2)) (R (V40 + 2)));
   Set_ tr0_3 (hi16 (R (V09 + 2)) (R (V41 + 2)));
   Set_ tr0_4 (lo16 (R (V10 + 2)) (R (V42 + 2)));
   Set_ tr0_5 (lo16 (R (V11 + 2)) (R (V43 + 2)));
   Set_ tr0_6 (hi16 (R (V10 + 2)) (R (V42 + 2)));
   Set_ tr0_7 (hi16 (R (V11 + 2)) (R (V43 + 2)));
   Set_ tr1_0 (lo32 (R tr0_0) (R tr0_1));
   Set_ tr1_1 (lo32 (R tr0_2) (R tr0_3));
   Set_ tr1_2 (hi32 (R tr0_0) (R tr0_1));
   Set_ tr1_3 (hi32 (R tr0_2) (R tr0_3));
   Set_ tr1_4 (lo32 (R tr0_4) (R tr0_5));
   Set_ tr1_5 (lo32 (R tr0_6) (R tr0_7));
   Set_ tr1_6 (hi32 (R tr0_4) (R tr0_5));
   Set_ tr1_7 (hi32 (R tr0_6) (R tr0_7));
   Set_ t0 (lo64 (R tr1_0) (R tr1_4));
   Set_ t1 (hi64 (R tr1_0) (R tr1_4));
   Set_ t2 (lo64 (R tr1_2) (R tr1_6));
   Set_ t3 (hi64 (R tr1_2) (R tr1_6));
   Set_ t4 (lo64 (R tr1_1) (R tr1_5));
   Set_ t5 (hi64 (R tr1_1) (R tr1_5));
   Set_ t6 (lo64 (R tr1_3) (R tr1_7));
   Set_ t7 (hi64 (R tr1_3) (R tr1_7));
   Set_ tr0_0 (lo16 (R (V12 + 2)) (R (V44 + 2)));
   Set_ tr0_1 (lo16 (R (V13 + 2)) (R (V45 + 2)));
   Set_ tr0_2 (hi16 (R (V12 + 2)) (R (V44 + 2)));
   Set_ tr0_3 (hi16 (R (V13 + 2)) (R (V45 + 2)));
   Set_ tr0_4 (lo16 (R (V14 + 2)) (R (V46 + 2)));
   Set_ tr0_5 (lo16 (R (V15 + 2)) (R (V47 + 2)));
   Set_ tr0_6 (hi16 (R (V14 + 2)) (R (V46 + 2)));
   Set_ tr0_7 (hi16 (R (V15 + 2)) (R (V47 + 2)));
   Set_ tr1_0 (lo32 (R tr0_0) (R tr0_1));
   Set_ tr1_1 (lo32 (R tr0_2) (R tr0_3));
   Set_ tr1_2 (hi32 (R tr0_0) (R tr0_1));
   Set_ tr1_3 (hi32 (R tr0_2) (R tr0_3));
   Set_ tr1_4 (lo32 (R tr0_4) (R tr0_5));
   Set_ tr1_5 (lo32 (R tr0_6) (R tr0_7));
   Set_ tr1_6 (hi32 (R tr0_4) (R tr0_5));
   Set_ tr1_7 (hi32 (R tr0_6) (R tr0_7));
   Set_ t8 (lo64 (R tr1_0) (R tr1_4));
   Set_ t9 (hi64 (R tr1_0) (R tr1_4));
   Set_ t10 (lo64 (R tr1_2) (R tr1_6));
   Set_ t11 (hi64 (R tr1_2) (R tr1_6));
   Set_ t12 (lo64 (R tr1_1) (R tr1_5));
   Set_ t13 (hi64 (R tr1_1) (R tr1_5));
   Set_ t14 (lo64 (R tr1_3) (R tr1_7));
   Set_ t15 (hi64 (R tr1_3) (R tr1_7));
   Set_ (T32 + 1) (p20 (R t0) (R t8));
   Set_ (T33 + 1) (p20 (R t1) (R t9));
   Set_ (T34 + 1) (p20 (R t2) (R t10));
   Set_ (T35 + 1) (p20 (R t3) (R t11));
   Set_ (T36 + 1) (p20 (R t4) (R t12));
   Set_ (T37 + 1) (p20 (R t5) (R t13));
   Set_ (T38 + 1) (p20 (R t6) (R t14));
   Set_ (T39 + 1) (p20 (R t7) (R t15));
   Set_ (T40 + 1) (p31 (R t0) (R t8));
   Set_ (T41 + 1) (p31 (R t1) (R t9));
   Set_ (T42 + 1) (p31 (R t2) (R t10));
   Set_ (T43 + 1) (p31 (R t3) (R t11));
   Set_ (T44 + 1) (p31 (R t4) (R t12));
   Set_ (T45 + 1) (p31 (R t5) (R t13));
   Set_ (T46 + 1) (p31 (R t6) (R t14));
   Set_ (T47 + 1) (p31 (R t7) (R t15))]
  ++ [Set_ tr0_0 (lo16 (R (V08 + 3)) (R (V40 + 3)));
   Set_ tr0_1 (lo16 (R (V09 + 3)) (R (V41 + 3)));
   Set_ tr0_2 (hi16 (R (V08 + 3)) (R (V40 + 3)));
   Set_ tr0_3 (hi16 (R (V09 + 3)) (R (V41 + 3)));
   Set_ tr0_4 (lo16 (R (V10 + 3)) (R (V42 + 3)));
   Set_ tr0_5 (lo16 (R (V11 + 3)) (R (V43 + 3)));
   Set_ tr0_6 (hi16 (R (V10 + 3)) (R (V42 + 3)));
   Set_ tr0_7 (hi16 (R (V11 + 3)) (R (V43 + 3)));
   Set_ tr1_0 (lo32 (R tr0_0) (R tr0_1));
   Set_ tr1_1 (lo32 (R tr0_2) (R tr0_3));
   Set_ tr1_2 (hi32 (R tr0_0) (R tr0_1));
   Set_ tr1_3 (hi32 (R tr0_2) (R tr0_3));
   Set_ tr1_4 (lo32 (R tr0_4) (R tr0_5));
   Set_ tr1_5 (lo32 (R tr0_6) (R tr0_7));
   Set_ tr1_6 (hi32 (R tr0_4) (R tr0_5));
   Set_ tr1_7 (hi32 (R tr0_6) (R tr0_7));
   Set_ t0 (lo64 (R tr1_0) (R tr1_4));
   Set_ t1 (hi64 (R tr1_0) (R tr1_4));
   Set_ t2 (lo64 (R tr1_2) (R tr1_6));
   Set_ t3 (hi64 (R tr1_2) (R tr1_6));
   Set_ t4 (lo64 (R tr1_1) (R tr1_5));
   Set_ t5 (hi64 (R tr1_1) (R tr1_5));
   Set_ t6 (lo64 (R tr1_3) (R tr1_7));
   Set_ t7 (hi64 (R tr1_3) (R tr1_7));
   Set_ tr0_0 (lo16 (R (V12 + 3)) (R (V44 + 3)));
   Set_ tr0_1 (lo16 (R (V13 + 3)) (R (V45 + 3)));
   Set_ tr0_2 (hi16 (R (V12 + 3)) (R (V44 + 3)));
   Set_ tr0_3 (hi16 (R (V13 + 3)) (R (V45 + 3)));
   Set_ tr0_4 (lo16 (R (V14 + 3)) (R (V46 + 3)));
   Set_ tr0_5 (lo16 (R (V15 + 3)) (R (V47 + 3)));
   Set_ tr0_6 (hi16 (R (V14 + 3)) (R (V46 + 3)));
   Set_ tr0_7 (hi16 (R (V15 + 3)) (R (V47 + 3)));
   Set_ tr1_0 (lo32 (R tr0_0) (R tr0_1));
   Set_ tr1_1 (lo32 (R tr0_2) (R tr0_3));
   Set_ tr1_2 (hi32 (R tr0_0) (R tr0_1));
   Set_ tr1_3 (hi32 (R tr0_2) (R tr0_3));
   Set_ tr1_4 (lo32 (R tr0_4) (R tr0_5));
   Set_ tr1_5 (lo32 (R tr0_6) (R tr0_7));
   Set_ tr1_6 (hi32 (R tr0_4) (R tr0_5));
   Set_ tr1_7 (hi32 (R tr0_6) (R tr0_7));
   Set_ t8 (lo64 (R tr1_0) (R tr1_4));
   Set_ t9 (hi64 (R tr1_0) (R tr1_4));
   Set_ t10 (lo64 (R tr1_2) (R tr1_6));
   Set_ t11 (hi64 (R tr1_2) (R tr1_6));
   Set_ t12 (lo64 (R tr1_1) (R tr1_5));
   Set_ t13 (hi64 (R tr1_1) (R tr1_5));
   Set_ t14 (lo64 (R tr1_3) (R tr1_7));
   Set_ t15 (hi64 (R tr1_3) (R tr1_7));
   Set_ (T48 + 1) (p20 (R t0) (R t8));
   Set_ (T49 + 1) (p20 (R t1) (R t9));
   Set_ (T50 + 1) (p20 (R t2) (R t10));
   Set_ (T51 + 1) (p20 (R t3) (R t11));
   Set_ (T52 + 1) (p20 (R t4) (R t12));
   Set_ (T53 + 1) (p20 (R t5) (R t13));
   Set_ (T54 + 1) (p20 (R t6) (R t14));
   Set_ (T55 + 1) (p20 (R t7) (R t15));
   Set_ (T56 + 1) (p31 (R t0) (R t8));
   Set_ (T57 + 1) (p31 (R t1) (R t9));
   Set_ (T58 + 1) (p31 (R t2) (R t10));
   Set_ (T59 + 1) (p31 (R t3) (R t11));
   Set_ (T60 + 1) (p31 (R t4) (R t12));
   Set_ (T61 + 1) (p31 (R t5) (R t13));
   Set_ (T62 + 1) (p31 (R t6) (R t14));
   Set_ (T63 + 1) (p31 (R t7) (R t15))]
  ++ [Set_ tr0_0 (lo16 (R V16) (R V48));
   Set_ tr0_1 (lo16 (R V17) (R V49));
   Set_ tr0_2 (hi16 (R V16) (R V48));
   Set_ tr0_3 (hi16 (R V17) (R V49));
   Set_ tr0_4 (lo16 (R V18) (R V50));
   Set_ tr0_5 (lo16 (R V19) (R V51));
   Set_ tr0_6 (hi16 (R V18) (R V50));
   Set_ tr0_7 (hi16 (R V19) (R V51));
   Set_ tr1_0 (lo32 (R tr0_0) (R tr0_1));
   Set_ tr1_1 (lo32 (R tr0_2) (R tr0_3));
   Set_ tr1_2 (hi32 (R tr0_0) (R tr0_1));
   Set_ tr1_3 (hi32 (R tr0_2) (R tr0_3));
   Set_ tr1_4 (lo32 (R tr0_4) (R tr0_5));
   Set_ tr1_5 (lo32 (R tr0_6) (R tr0_7));
   Set_ tr1_6 (hi32 (R tr0_4) (R tr0_5));
   Set_ tr1_7 (hi32 (R tr0_6) (R tr0_7));
   Set_ t0 (lo64 (R tr1_0) (R tr1_4));
   Set_ t1 (hi64 (R tr1_0) (R tr1_4));
   Set_ t2 (lo64 (R tr1_2) (R tr1_6));
   Set_ t3 (hi64 (R tr1_2) (R tr1_6));
   Set_ t4 (lo64 (R tr1_1) (R tr1_5));
   Set_ t5 (hi64 (R tr1_1) (R tr1_5));
   Set_ t6 (lo64 (R tr1_3) (R tr1_7));
   Set_ t7 (hi64 (R tr1_3) (R tr1_7));
   Set_ tr0_0 (lo16 (R V20) (R V52));
   Set_ tr0_1 (lo16 (R V21) (R V53));
   Set_ tr0_2 (hi16 (R V20) (R V52));
   Set_ tr0_3 (hi16 (R V21) (R V53));
   Set_ tr0_4 (lo16 (R V22) (R V54));
   Set_ tr0_5 (lo16 (R V23) (R V55));
   Set_ tr0_6 (hi16 (R V22) (R V54));
   Set_ tr0_7 (hi16 (R V23) (R V55));
   Set_ tr1_0 (lo32 (R tr0_0) (R tr0_1));
   Set_ tr1_1 (lo32 (R tr0_2) (R tr0_3));
   Set_ tr1_2 (hi32 (R tr0_0) (R tr0_1));
   Set_ tr1_3 (hi32 (R tr0_2) (R tr0_3));
   Set_ tr1_4 (lo32 (R tr0_4) (R tr0_5));
   Set_ tr1_5 (lo32 (R tr0_6) (R tr0_7));
   Set_ tr1_6 (hi32 (R tr0_4) (R tr0_5));
   Set_ tr1_7 (hi32 (R tr0_6) (R tr0_7));
   Set_ t8 (lo64 (R tr1_0) (R tr1_4));
   Set_ t9 (hi64 (R tr1_0) (R tr1_4));
   Set_ t10 (lo64 (R tr1_2) (R tr1_6));
   Set_ t11 (hi64 (R tr1_2) (R tr1_6));
   Set_ t12 (lo64 (R tr1_1) (R tr1_5));
   Set_ t13 (hi64 (R tr1_1) (R tr1_5));
   Set_ t14 (lo64 (R tr1_3) (R tr1_7));
   Set_ t15 (hi64 (R tr1_3) (R tr1_7));
   Set_ (T00 + 2) (p20 (R t0) (R t8));
   Set_ (T01 + 2) (p20 (R t1) (R t9));
   Set_ (T02 + 2) (p20 (R t2) (R t10));
   Set_ (T03 + 2) (p20 (R t3) (R t11));
   Set_ (T04 + 2) (p20 (R t4) (R t12));
   Set_ (T05 + 2) (p20 (R t5) (R t13));
   Set_ (T06 + 2) (p20 (R t6) (R t14));
   Set_ (T07 + 2) (p20 (R t7) (R t15));
   Set_ (T08 + 2) (p31 (R t0) (R t8));
   Set_ (T09 + 2) (p31 (R t1) (R t9));
   Set_ (T10 + 2) (p31 (R t2) (R t10));
   Set_ (T11 + 2) (p31 (R t3) (R t11));
   Set_ (T12 + 2) (p31 (R t4) (R t12));
   Set_ (T13 + 2) (p31 (R t5) (R t13));
   Set_ (T14 + 2) (p31 (R t6) (R t14));
   Set_ (T15 + 2) (p31 (R t7) (R t15))]
  ++ [Set_ tr0_0 (lo16 (R (V16 + 1)) (R (V48 + 1)));
   Set_ tr0_1 (lo16 (R (V17 + 1)) (R (V49 + 1)));
   Set_ tr0_2 (hi16 (R (V16 + 1)) (R (V48 + 1)));
   Set_ tr0_3 (hi16 (R (V17 + 1)) (R (V49 + 1)));
   Set_ tr0_4 (lo16 (R (V18 + 1)) (R (V50 + 1)));
   Set_ tr0_5 (lo16 (R (V19 + 1)) (R (V51 + 1)));
   Set_ tr0_6 (hi16 (R (V18 + 1)) (R (V50 + 1)));
   Set_ tr0_7 (hi16 (R (V19 + 1)) (R (V51 + 1)));
   Set_ tr1_0 (lo32 (R tr0_0) (R tr0_1));
   Set_ tr1_1 (lo32 (R tr0_2) (R tr0_3));
   Set_ tr1_2 (hi32 (R tr0_0) (R tr0_1));
   Set_ tr1_3 (hi32 (R tr0_2) (R tr0_3));
   Set_ tr1_4 (lo32 (R tr0_4) (R tr0_5));
   Set_ tr1_5 (lo32 (R tr0_6) (R tr0_7));
   Set_ tr1_6 (hi32 (R tr0_4) (R tr0_5));
   Set_ tr1_7 (hi32 (R tr0_6) (R tr0_7));
   Set_ t0 (lo64 (R tr1_0) (R tr1_4));
   Set_ t1 (hi64 (R tr1_0) (R tr1_4));
   Set_ t2 (lo64 (R tr1_2) (R tr1_6));
   Set_ t3 (hi64 (R tr1_2) (R tr1_6));
   Set_ t4 (lo64 (R tr1_1) (R tr1_5));
   Set_ t5 (hi64 (R tr1_1) (R tr1_5));
   Set_ t6 (lo64 (R tr1_3) (R tr1_7));
   Set_ t7 (hi64 (R tr1_3) (R tr1_7));
   Set_ tr0_0 (lo16 (R (V20 + 1)) (R (V52 + 1)));
   Set_ tr0_1 (lo16 (R (V21 + 1)) (R (V53 + 1)));
   Set_ tr0_2 (hi16 (R (V20 + 1)) (R (V52 + 1)));
   Set_ tr0_3 (hi16 (R (V21 + 1)) (R (V53 + 1)));
   Set_ tr0_4 (lo16 (R (V22 + 1)) (R (V54 + 1)));
   Set_ tr0_5 (lo16 (R (V23 + 1)) (R (V55 + 1)));
   Set_ tr0_6 (hi16 (R (V22 + 1)) (R (V54 + 1)));
   Set_ tr0_7 (hi16 (R (V23 + 1)) (R (V55 + 1)));
   Set_ tr1_0 (lo32 (R tr0_0) (R tr0_1));
   Set_ tr1_1 (lo32 (R tr0_2) (R tr0_3));
   Set_ tr1_2 (hi32 (R tr0_0) (R tr0_1));
   Set_ tr1_3 (hi32 (R tr0_2) (R tr0_3));
   Set_ tr1_4 (lo32 (R tr0_4) (R tr0_5));
   Set_ tr1_5 (lo32 (R tr0_6) (R tr0_7));
   Set_ tr1_6 (hi32 (R tr0_4) (R tr0_5));
   Set_ tr1_7 (hi32 (R tr0_6) (R tr0_7));
   Set_ t8 (lo64 (R tr1_0) (R tr1_4));
   Set_ t9 (hi64 (R tr1_0) (R tr1_4));
   Set_ t10 (lo64 (R tr1_2) (R tr1_6));
   Set_ t11 (hi64 (R tr1_2) (R tr1_6));
   Set_ t12 (lo64 (R tr1_1) (R tr1_5));
   Set_ t13 (hi64 (R tr1_1) (R tr1_5));
   Set_ t14 (lo64 (R tr1_3) (R tr1_7));
   Set_ t15 (hi64 (R tr1_3) (R tr1_7));
   Set_ (T16 + 2) (p20 (R t0) (R t8));
   Set_ (T17 + 2) (p20 (R t1) (R t9));
   Set_ (T18 + 2) (p20 (R t2) (R t10));
   Set_ (T19 + 2) (p20 (R t3) (R t11));
   Set_ (T20 + 2) (p20 (R t4) (R t12));
   Set_ (T21 + 2) (p20 (R t5) (R t13));
   Set_ (T22 + 2) (p20 (R t6) (R t14));
   Set_ (T23 + 2) (p20 (R t7) (R t15));
   Set_ (T24 + 2) (p31 (R t0) (R t8));
   Set_ (T25 + 2) (p31 (R t1) (R t9));
   Set_ (T26 + 2) (p31 (R t2) (R t10));
   Set_ (T27 + 2) (p31 (R t3) (R t11));
   Set_ (T28 + 2) (p31 (R t4) (R t12));
   Set_ (T29 + 2) (p31 (R t5) (R t13));
   Set_ (T30 + 2) (p31 (R t6) (R t14));
   Set_ (T31 + 2) (p31 (R t7) (R t15))]
  ++ [Set_ tr0_0 (lo16 (R (V16 + 2)) (R (V48 + 2)));
   Set_ tr0_1 (lo16 (R (V17 + 2)) (R (V49 + 2)));
   Set_ tr0_2 (hi16 (R (V16 + 2)) (R (V48 + 2)));
   Set_ tr0_3 (hi16 (R (V17 + 2)) (R (V49 + 2)));
   Set_ tr0_4 (lo16 (R (V18 + 2)) (R (V50 + 2)));
   Set_ tr0_5 (lo16 (R (V19 + 2)) (R (V51 + 2)));
   Set_ tr0_6 (hi16 (R (V18 + 2)) (R (V50 + 2)));
   Set_ tr0_7 (hi16 (R (V19 + 2)) (R (V51 + 2)));
   Set_ tr1_0 (lo32 (R tr0_0) (R tr0_1));
   Set_ tr1_1 (lo32 (R tr0_2) (R tr0_3));
   Set_ tr1_2 (hi32 (R tr0_0) (R tr0_1));
   Set_ tr1_3 (hi32 (R tr0_2) (R tr0_3));
   Set_ tr1_4 (lo32 (R tr0_4) (R tr0_5));
   Set_ tr1_5 (lo32 (R tr0_6) (R tr0_7));
   Set_ tr1_6 (hi32 (R tr0_4) (R tr0_5));
   Set_ tr1_7 (hi32 (R tr0_6) (R tr0_7));
   Set_ t0 (lo64 (R tr1_0) (R tr1_4));
   Set_ t1 (hi64 (R tr1_0) (R tr1_4));
   Set_ t2 (lo64 (R tr1_2) (R tr1_6));
   Set_ t3 (hi64 (R tr1_2) (R tr1_6));
   Set_ t4 (lo64 (R tr1_1) (R tr1_5));
   Set_ t5 (hi64 (R tr1_1) (R tr1_5));
   Set_ t6 (lo64 (R tr1_3) (R tr1_7));
   Set_ t7 (hi64 (R tr1_3) (R tr1_7));
   Set_ tr0_0 (lo16 (R (V20 + 2)) (R (V52 + 2)));
   Set_ tr0_1 (lo16 (R (V21 + 2)) (R (V53 + 2)));
   Set_ tr0_2 (hi16 (R (V20 + 2)) (R (V52 + 2)));
   Set_ tr0_3 (hi16 (R (V21 + 2)) (R (V53 + 2)));
   Set_ tr0_4 (lo16 (R (V22 + 2)) (R (V54 + 2)));
   Set_ tr0_5 (lo16 (R (V23 + 2)) (R (V55 + 2)));
   Set_ tr0_6 (hi16 (R (V22 + 2)) (R (V54 + 2)));
   Set_ tr0_7 (hi16 (R (V23 + 2)) (R (V55 + 2)));
   Set_ tr1_0 (lo32 (R tr0_0) (R tr0_1));
   Set_ tr1_1 (lo32 (R tr0_2) (R tr0_3));
   Set_ tr1_2 (hi32 (R tr0_0) (R tr0_1));
   Set_ tr1_3 (hi32 (R tr0_2) (R tr0_3));
   Set_ tr1_4 (lo32 (R tr0_4) (R tr0_5));
   Set_ tr1_5 (lo32 (R tr0_6) (R tr0_7));
   Set_ tr1_6 (hi32 (R tr0_4) (R tr0_5));
   Set_ tr1_7 (hi32 (R tr0_6) (R tr0_7));
   Set_ t8 (lo64 (R tr1_0) (R tr1_4));
   Set_ t9 (hi64 (R tr1_0) (R tr1_4));
   Set_ t10 (lo64 (R tr1_2) (R tr1_6));
   Set_ t11 (hi64 (R tr1_2) (R tr1_6));
   Set_ t12 (lo64 (R tr1_1) (R tr1_5));
   Set_ t13 (hi64 (R tr1_1) (R tr1_5));
   Set_ t14 (lo64 (R tr1_3) (R tr1_7));
   Set_ t15 (hi64 (R tr1_3) (R tr1_7));
   Set_ (T32 + 2) (p20 (R t0) (R t8));
   Set_ (T33 + 2) (p20 (R t1) (R t9));
   Set_ (T34 + 2) (p20 (R t2) (R t10));
   Set_ (T35 + 2) (p20 (R t3) (R t11));
   Set_ (T36 + 2) (p20 (R t4) (R t12));
   Set_ (T37 + 2) (p20 (R t5) (R t13));
   Set_ (T38 + 2) (p20 (R t6) (R t14));
   Set_ (T39 + 2) (p20 (R t7) (R t15));
   Set_ (T40 + 2) (p31 (R t0) (R t8));
   Set_ (T41 + 2) (p31 (R t1) (R t9));
   Set_ (T42 + 2) (p31 (R t2) (R t10));
   Set_ (T43 + 2) (p31 (R t3) (R t11));
   Set_ (T44 + 2) (p31 (R t4) (R t12));
   Set_ (T45 + 2) (p31 (R t5) (R t13));
   Set_ (T46 + 2) (p31 (R t6) (R t14));
   Set_ (T47 + 2) (p31 (R t7) (R t15))]
  ++ [Set_ tr0_0 (lo16 (R (V16 + 3)) (R (V48 + 3)));
   Set_ tr0_1 (lo16 (R (V17 + 3)) (R (V49 + 3)));
   Set_ tr0_2 (hi16 (R (V16 + 3)) (R (V48 + 3)));
   Set_ tr0_3 (hi16 (R (V17 + 3)) (R (V49 + 3)));
   Set_ tr0_4 (lo16 (R (V18 + 3)) (R (V50 + 3)));
   Set_ tr0_5 (lo16 (R (V19 + 3)) (R (V51 + 3)));
   Set_ tr0_6 (hi16 (R (V18 + 3)) (R (V50 + 3)));
   Set_ tr0_7 (hi16 (R (V19 + 3)) (R (V51 + 3)));
   Set_ tr1_0 (lo32 (R tr0_0) (R tr0_1));
   Set_ tr1_1 (lo32 (R tr0_2) (R tr0_3));
   Set_ tr1_2 (hi32 (R tr0_0) (R tr0_1));
   Set_ tr1_3 (hi32 (R tr0_2) (R tr0_3));
   Set_ tr1_4 (lo32 (R tr0_4) (R tr0_5));
   Set_ tr1_5 (lo32 (R tr0_6) (R tr0_7));
   Set_ tr1_6 (hi32 (R tr0_4) (R tr0_5));
   Set_ tr1_7 (hi32 (R tr0_6) (R tr0_7));
   Set_ t0 (lo64 (R tr1_0) (R tr1_4));
   Set_ t1 (hi64 (R tr1_0) (R tr1_4));
   Set_ t2 (lo64 (R tr1_2) (R tr1_6));
   Set_ t3 (hi64 (R tr1_2) (R tr1_6));
   Set_ t4 (lo64 (R tr1_1) (R tr1_5));
   Set_ t5 (hi64 (R tr1_1) (R tr1_5));
   Set_ t6 (lo64 (R tr1_3) (R tr1_7));
   Set_ t7 (hi64 (R tr1_3) (R tr1_7));
   Set_ tr0_0 (lo16 (R (V20 + 3)) (R (V52 + 3)));
   Set_ tr0_1 (lo16 (R (V21 + 3)) (R (V53 + 3)));
   Set_ tr0_2 (hi16 (R (V20 + 3)) (R (V52 + 3)));
   Set_ tr0_3 (hi16 (R (V21 + 3)) (R (V53 + 3)));
   Set_ tr0_4 (lo16 (R (V22 + 3)) (R (V54 + 3)));
   Set_ tr0_5 (lo16 (R (V23 + 3)) (R (V55 + 3)));
   Set_ tr0_6 (hi16 (R (V22 + 3)) (R (V54 + 3)));
   Set_ tr0_7 (hi16 (R (V23 + 3)) (R (V55 + 3)));
   Set_ tr1_0 (lo32 (R tr0_0) (R tr0_1));
   Set_ tr1_1 (lo32 (R tr0_2) (R tr0_3));
   Set_ tr1_2 (hi32 (R tr0_0) (R tr0_1));
   Set_ tr1_3 (hi32 (R tr0_2) (R tr0_3));
   Set_ tr1_4 (lo32 (R tr0_4) (R tr0_5));
   Set_ tr1_5 (lo32 (R tr0_6) (R tr0_7));
   Set_ tr1_6 (hi32 (R tr0_4) (R tr0_5));
   Set_ tr1_7 (hi32 (R tr0_6) (R tr0_7));
   Set_ t8 (lo64 (R tr1_0) (R tr1_4));
   Set_ t9 (hi64 (R tr1_0) (R tr1_4));
   Set_ t10 (lo64 (R tr1_2) (R tr1_6));
   Set_ t11 (hi64 (R tr1_2) (R tr1_6));
   Set_ t12 (lo64 (R tr1_1) (R tr1_5));
   Set_ t13 (hi64 (R tr1_1) (R tr1_5));
   Set_ t14 (lo64 (R tr1_3) (R tr1_7));
   Set_ t15 (hi64 (R tr1_3) (R tr1_7));
   Set_ (T48 + 2) (p20 (R t0) (R t8));
   Set_ (T49 + 2) (p20 (R t1) (R t9));
   Set_ (T50 + 2) (p20 (R t2) (R t10));
   Set_ (T51 + 2) (p20 (R t3) (R t11));
   Set_ (T52 + 2) (p20 (R t4) (R t12));
   Set_ (T53 + 2) (p20 (R t5) (R t13));
   Set_ (T54 + 2) (p20 (R t6) (R t14));
   Set_ (T55 + 2) (p20 (R t7) (R t15));
   Set_ (T56 + 2) (p31 (R t0) (R t8));
   Set_ (T57 + 2) (p31 (R t1) (R t9));
   Set_ (T58 + 2) (p31 (R t2) (R t10));
   Set_ (T59 + 2) (p31 (R t3) (R t11));
   Set_ (T60 + 2) (p31 (R t4) (R t12));
   Set_ (T61 + 2) (p31 (R t5) (R t13));
   Set_ (T62 + 2) (p31 (R t6) (R t14));
   Set_ (T63 + 2) (p31 (R t7) (R t15))]
  ++ [Set_ tr0_0 (lo16 (R V24) (R V56));
   Set_ tr0_1 (lo16 (R V25) (R V57));
   Set_ tr0_2 (hi16 (R V24) (R V56));
   Set_ tr0_3 (hi16 (R V25) (R V57));
   Set_ tr0_4 (lo16 (R V26) (R V58));
   Set_ tr0_5 (lo16 (R V27) (R V59));
   Set_ tr0_6 (hi16 (R V26) (R V58));
   Set_ tr0_7 (hi16 (R V27) (R V59));
   Set_ tr1_0 (lo32 (R tr0_0) (R tr0_1));
   Set_ tr1_1 (lo32 (R tr0_2) (R tr0_3));
   Set_ tr1_2 (hi32 (R tr0_0) (R tr0_1));
   Set_ tr1_3 (hi32 (R tr0_2) (R tr0_3));
   Set_ tr1_4 (lo32 (R tr0_4) (R tr0_5));
   Set_ tr1_5 (lo32 (R tr0_6) (R tr0_7));
   Set_ tr1_6 (hi32 (R tr0_4) (R tr0_5));
   Set_ tr1_7 (hi32 (R tr0_6) (R tr0_7));
   Set_ t0 (lo64 (R tr1_0) (R tr1_4));
   Set_ t1 (hi64 (R tr1_0) (R tr1_4));
   Set_ t2 (lo64 (R tr1_2) (R tr1_6));
   Set_ t3 (hi64 (R tr1_2) (R tr1_6));
   Set_ t4 (lo64 (R tr1_1) (R tr1_5));
   Set_ t5 (hi64 (R tr1_1) (R tr1_5));
   Set_ t6 (lo64 (R tr1_3) (R tr1_7));
   Set_ t7 (hi64 (R tr1_3) (R tr1_7));
   Set_ tr0_0 (lo16 (R V28) (R V60));
   Set_ tr0_1 (lo16 (R V29) (R V61));
   Set_ tr0_2 (hi16 (R V28) (R V60));
   Set_ tr0_3 (hi16 (R V29) (R V61));
   Set_ tr0_4 (lo16 (R V30) (R V62));
   Set_ tr0_5 (lo16 (R V31) (R V63));
   Set_ tr0_6 (hi16 (R V30) (R V62));
   Set_ tr0_7 (hi16 (R V31) (R V63));
   Set_ tr1_0 (lo32 (R tr0_0) (R tr0_1));
   Set_ tr1_1 (lo32 (R tr0_2) (R tr0_3));
   Set_ tr1_2 (hi32 (R tr0_0) (R tr0_1));
   Set_ tr1_3 (hi32 (R tr0_2) (R tr0_3));
   Set_ tr1_4 (lo32 (R tr0_4) (R tr0_5));
   Set_ tr1_5 (lo32 (R tr0_6) (R tr0_7));
   Set_ tr1_6 (hi32 (R tr0_4) (R tr0_5));
   Set_ tr1_7 (hi32 (R tr0_6) (R tr0_7));
   Set_ t8 (lo64 (R tr1_0) (R tr1_4));
   Set_ t9 (hi64 (R tr1_0) (R tr1_4));
   Set_ t10 (lo64 (R tr1_2) (R tr1_6));
   Set_ t11 (hi64 (R tr1_2) (R tr1_6));
   Set_ t12 (lo64 (R tr1_1) (R tr1_5));
   Set_ t13 (hi64 (R tr1_1) (R tr1_5));
   Set_ t14 (lo64 (R tr1_3) (R tr1_7));
   Set_ t15 (hi64 (R tr1_3) (R tr1_7));
   Set_ (T00 + 3) (p20 (R t0) (R t8));
   Set_ (T01 + 3) (p20 (R t1) (R t9));
   Set_ (T02 + 3) (p20 (R t2) (R t10));
   Set_ (T03 + 3) (p20 (R t3) (R t11));
   Set_ (T04 + 3) (p20 (R t4) (R t12));
   Set_ (T05 + 3) (p20 (R t5) (R t13));
   Set_ (T06 + 3) (p20 (R t6) (R t14));
   Set_ (T07 + 3) (p20 (R t7) (R t15));
   Set_ (T08 + 3) (p31 (R t0) (R t8));
   Set_ (T09 + 3) (p31 (R t1) (R t9));
   Set_ (T10 + 3) (p31 (R t2) (R t10));
   Set_ (T11 + 3) (p31 (R t3) (R t11));
   Set_ (T12 + 3) (p31 (R t4) (R t12));
   Set_ (T13 + 3) (p31 (R t5) (R t13));
   Set_ (T14 + 3) (p31 (R t6) (R t14));
   Set_ (T15 + 3) (p31 (R t7) (R t15))]
  ++ [Set_ tr0_0 (lo16 (R (V24 + 1)) (R (V56 + 1)));
   Set_ tr0_1 (lo16 (R (V25 + 1)) (R (V57 + 1)));
   Set_ tr0_2 (hi16 (R (V24 + 1)) (R (V56 + 1)));
   Set_ tr0_3 (hi16 (R (V25 + 1)) (R (V57 + 1)));
   Set_ tr0_4 (lo16 (R (V26 + 1)) (R (V58 + 1)));
   Set_ tr0_5 (lo16 (R (V27 + 1)) (R (V59 + 1)));
   Set_ tr0_6 (hi16 (R (V26 + 1)) (R (V58 + 1)));
   Set_ tr0_7 (hi16 (R (V27 + 1)) (R (V59 + 1)));
   Set_ tr1_0 (lo32 (R tr0_0) (R tr0_1));
   Set_ tr1_1 (lo32 (R tr0_2) (R tr0_3));
   Set_ tr1_2 (hi32 (R tr0_0) (R tr0_1));
   Set_ tr1_3 (hi32 (R tr0_2) (R tr0_3));
   Set_ tr1_4 (lo32 (R tr0_4) (R tr0_5));
   Set_ tr1_5 (lo32 (R tr0_6) (R tr0_7));
   Set_ tr1_6 (hi32 (R tr0_4) (R tr0_5));
   Set_ tr1_7 (hi32 (R tr0_6) (R tr0_7));
   Set_ t0 (lo64 (R tr1_0) (R tr1_4));
   Set_ t1 (hi64 (R tr1_0) (R tr1_4));
   Set_ t2 (lo64 (R tr1_2) (R tr1_6));
   Set_ t3 (hi64 (R tr1_2) (R tr1_6));
   Set_ t4 (lo64 (R tr1_1) (R tr1_5));
   Set_ t5 (hi64 (R tr1_1) (R tr1_5));
   Set_ t6 (lo64 (R tr1_3) (R tr1_7));
   Set_ t7 (hi64 (R tr1_3) (R tr1_7));
   Set_ tr0_0 (lo16 (R (V28 + 1)) (R (V60 + 1)));
   Set_ tr0_1 (lo16 (R (V29 + 1)) (R (V61 + 1)));
   Set_ tr0_2 (hi16 (R (V28 + 1)) (R (V60 + 1)));
   Set_ tr0_3 (hi16 (R (V29 + 1)) (R (V61 + 1)));
   Set_ tr0_4 (lo16 (R (V30 + 1)) (R (V62 + 1)));
   Set_ tr0_5 (lo16 (R (V31 + 1)) (R (V63 + 1)));
   Set_ tr0_6 (hi16 (R (V30 + 1)) (R (V62 + 1)));
   Set_ tr0_7 (hi16 (R (V31 + 1)) (R (V63 + 1)));
   Set_ tr1_0 (lo32 (R tr0_0) (R tr0_1));
   Set_ tr1_1 (lo32 (R tr0_2) (R tr0_3));
   Set_ tr1_2 (hi32 (R tr0_0) (R tr0_1));
   Set_ tr1_3 (hi32 (R tr0_2) (R tr0_3));
   Set_ tr1_4 (lo32 (R tr0_4) (R tr0_5));
   Set_ tr1_5 (lo32 (R tr0_6) (R tr0_7));
   Set_ tr1_6 (hi32 (R tr0_4) (R tr0_5));
   Set_ tr1_7 (hi32 (R tr0_6) (R tr0_7));
   Set_ t8 (lo64 (R tr1_0) (R tr1_4));
   Set_ t9 (hi64 (R tr1_0) (R tr1_4));
   Set_ t10 (lo64 (R tr1_2) (R tr1_6));
   Set_ t11 (hi64 (R tr1_2) (R tr1_6));
   Set_ t12 (lo64 (R tr1_1) (R tr1_5));
   Set_ t13 (hi64 (R tr1_1) (R tr1_5));
   Set_ t14 (lo64 (R tr1_3) (R tr1_7));
   Set_ t15 (hi64 (R tr1_3) (R tr1_7));
   Set_ (T16 + 3) (p20 (R t0) (R t8));
   Set_ (T17 + 3) (p20 (R t1) (R t9));
   Set_ (T18 + 3) (p20 (R t2) (R t10));
   Set_ (T19 + 3) (p20 (R t3) (R t11));
   Set_ (T20 + 3) (p20 (R t4) (R t12));
   Set_ (T21 + 3) (p20 (R t5) (R t13));
   Set_ (T22 + 3) (p20 (R t6) (R t14));
   Set_ (T23 + 3) (p20 (R t7) (R t15));
   Set_ (T24 + 3) (p31 (R t0) (R t8));
   Set_ (T25 + 3) (p31 (R t1) (R t9));
   Set_ (T26 + 3) (p31 (R t2) (R t10));
   Set_ (T27 + 3) (p31 (R t3) (R t11));
   Set_ (T28 + 3) (p31 (R t4) (R t12));
   Set_ (T29 + 3) (p31 (R t5) (R t13));
   Set_ (T30 + 3) (p31 (R t6) (R t14));
   Set_ (T31 + 3) (p31 (R t7) (R t15))]
  ++ [Set_ tr0_0 (lo16 (R (V24 + 2)) (R (V56 + 2)));
   Set_ tr0_1 (lo16 (R (V25 + 2)) (R (V57 + 2)));
   Set_ tr0_2 (hi16 (R (V24 + 2)) (R (V56 + 2)));
   Set_ tr0_3 (hi16 (R (V25 + 2)) (R (V57 + 2)));
   Set_ tr0_4 (lo16 (R (V26 + 2)) (R (V58 + 2)));
   Set_ tr0_5 (lo16 (R (V27 + 2)) (R (V59 + 2)));
   Set_ tr0_6 (hi16 (R (V26 + 2)) (R (V58 + 2)));
   Set_ tr0_7 (hi16 (R (V27 + 2)) (R (V59 + 2)));
   Set_ tr1_0 (lo32 (R tr0_0) (R tr0_1));
   Set_ tr1_1 (lo32 (R tr0_2) (R tr0_3));
   Set_ tr1_2 (hi32 (R tr0_0) (R tr0_1));
   Set_ tr1_3 (hi32 (R tr0_2) (R tr0_3));
   Set_ tr1_4 (lo32 (R tr0_4) (R tr0_5));
   Set_ tr1_5 (lo32 (R tr0_6) (R tr0_7));
   Set_ tr1_6 (hi32 (R tr0_4) (R tr0_5));
   Set_ tr1_7 (hi32 (R tr0_6) (R tr0_7));
   Set_ t0 (lo64 (R tr1_0) (R tr1_4));
   Set_ t1 (hi64 (R tr1_0) (R tr1_4));
   Set_ t2 (lo64 (R tr1_2) (R tr1_6));
   Set_ t3 (hi64 (R tr1_2) (R tr1_6));
   Set_ t4 (lo64 (R tr1_1) (R tr1_5));
   Set_ t5 (hi64 (R tr1_1) (R tr1_5));
   Set_ t6 (lo64 (R tr1_3) (R tr1_7));
   Set_ t7 (hi64 (R tr1_3) (R tr1_7));
   Set_ tr0_0 (lo16 (R (V28 + 2)) (R (V60 + 2)));
   Set_ tr0_1 (lo16 (R (V29 + 2)) (R (V61 + 2)));
   Set_ tr0_2 (hi16 (R (V28 + 2)) (R (V60 + 2)));
   Set_ tr0_3 (hi16 (R (V29 + 2)) (R (V61 + 2)));
   Set_ tr0_4 (lo16 (R (V30 + 2)) (R (V62 + 2)));
   Set_ tr0_5 (lo16 (R (V31 + 2)) (R (V63 + 2)));
   Set_ tr0_6 (hi16 (R (V30 + 2)) (R (V62 + 2)));
   Set_ tr0_7 (hi16 (R (V31 + 2)) (R (V63 + 2)));
   Set_ tr1_0 (lo32 (R tr0_0) (R tr0_1));
   Set_ tr1_1 (lo32 (R tr0_2) (R tr0_3));
   Set_ tr1_2 (hi32 (R tr0_0) (R tr0_1));
   Set_ tr1_3 (hi32 (R tr0_2) (R tr0_3));
   Set_ tr1_4 (lo32 (R tr0_4) (R tr0_5));
   Set_ tr1_5 (lo32 (R tr0_6) (R tr0_7));
   Set_ tr1_6 (hi32 (R tr0_4) (R tr0_5));
   Set_ tr1_7 (hi32 (R tr0_6) (R tr0_7));
   Set_ t8 (lo64 (R tr1_0) (R tr1_4));
   Set_ t9 (hi64 (R tr1_0) (R tr1_4));
   Set_ t10 (lo64 (R tr1_2) (R tr1_6));
   Set_ t11 (hi64 (R tr1_2) (R tr1_6));
   Set_ t12 (lo64 (R tr1_1) (R tr1_5));
   Set_ t13 (hi64 (R tr1_1) (R tr1_5));
   Set_ t14 (lo64 (R tr1_3) (R tr1_7));
   Set_ t15 (hi64 (R tr1_3) (R tr1_7));
   Set_ (T32 + 3) (p20 (R t0) (R t8));
   Set_ (T33 + 3) (p20 (R t1) (R t9));
   Set_ (T34 + 3) (p20 (R t2) (R t10));
   Set_ (T35 + 3) (p20 (R t3) (R t11));
   Set_ (T36 + 3) (p20 (R t4) (R t12));
   Set_ (T37 + 3) (p20 (R t5) (R t13));
   Set_ (T38 + 3) (p20 (R t6) (R t14));
   Set_ (T39 + 3) (p20 (R t7) (R t15));
   Set_ (T40 + 3) (p31 (R t0) (R t8));
   Set_ (T41 + 3) (p31 (R t1) (R t9));
   Set_ (T42 + 3) (p31 (R t2) (R t10));
   Set_ (T43 + 3) (p31 (R t3) (R t11));
   Set_ (T44 + 3) (p31 (R t4) (R t12));
   Set_ (T45 + 3) (p31 (R t5) (R t13));
   Set_ (T46 + 3) (p31 (R t6) (R t14));
   Set_ (T47 + 3) (p31 (R t7) (R t15))]
  ++ [Set_ tr0_0 (lo16 (R (V24 + 3)) (R (V56 + 3)));
   Set_ tr0_1 (lo16 (R (V25 + 3)) (R (V57 + 3)));
   Set_ tr0_2 (hi16 (R (V24 + 3)) (R (V56 + 3)));
   Set_ tr0_3 (hi16 (R (V25 + 3)) (R (V57 + 3)));
   Set_ tr0_4 (lo16 (R (V26 + 3)) (R (V58 + 3)));
   Set_ tr0_5 (lo16 (R (V27 + 3)) (R (V59 + 3)));
   Set_ tr0_6 (hi16 (R (V26 + 3)) (R (V58 + 3)));
   Set_ tr0_7 (hi16 (R (V27 + 3)) (R (V59 + 3)));
   Set_ tr1_0 (lo32 (R tr0_0) (R tr0_1));
   Set_ tr1_1 (lo32 (R tr0_2) (R tr0_3));
   Set_ tr1_2 (hi32 (R tr0_0) (R tr0_1));
   Set_ tr1_3 (hi32 (R tr0_2) (R tr0_3));
   Set_ tr1_4 (lo32 (R tr0_4) (R tr0_5));
   Set_ tr1_5 (lo32 (R tr0_6) (R tr0_7));
   Set_ tr1_6 (hi32 (R tr0_4) (R tr0_5));
   Set_ tr1_7 (hi32 (R tr0_6) (R tr0_7));
   Set_ t0 (lo64 (R tr1_0) (R tr1_4));
   Set_ t1 (hi64 (R tr1_0) (R tr1_4));
   Set_ t2 (lo64 (R tr1_2) (R tr1_6));
   Set_ t3 (hi64 (R tr1_2) (R tr1_6));
   Set_ t4 (lo64 (R tr1_1) (R tr1_5));
   Set_ t5 (hi64 (R tr1_1) (R tr1_5));
   Set_ t6 (lo64 (R tr1_3) (R tr1_7));
   Set_ t7 (hi64 (R tr1_3) (R tr1_7));
   Set_ tr0_0 (lo16 (R (V28 + 3)) (R (V60 + 3)));
   Set_ tr0_1 (lo16 (R (V29 + 3)) (R (V61 + 3)));
   Set_ tr0_2 (hi16 (R (V28 + 3)) (R (V60 + 3)));
   Set_ tr0_3 (hi16 (R (V29 + 3)) (R (V61 + 3)));
   Set_ tr0_4 (lo16 (R (V30 + 3)) (R (V62 + 3)));
   Set_ tr0_5 (lo16 (R (V31 + 3)) (R (V63 + 3)));
   Set_ tr0_6 (hi16 (R (V30 + 3)) (R (V62 + 3)));
   Set_ tr0_7 (hi16 (R (V31 + 3)) (R (V63 + 3)));
   Set_ tr1_0 (lo32 (R tr0_0) (R tr0_1));
   Set_ tr1_1 (lo32 (R tr0_2) (R tr0_3));
   Set_ tr1_2 (hi32 (R tr0_0) (R tr0_1));
   Set_ tr1_3 (hi32 (R tr0_2) (R tr0_3));
   Set_ tr1_4 (lo32 (R tr0_4) (R tr0_5));
   Set_ tr1_5 (lo32 (R tr0_6) (R tr0_7));
   Set_ tr1_6 (hi32 (R tr0_4) (R tr0_5));
   Set_ tr1_7 (hi32 (R tr0_6) (R tr0_7));
   Set_ t8 (lo64 (R tr1_0) (R tr1_4));
   Set_ t9 (hi64 (R tr1_0) (R tr1_4));
   Set_ t10 (lo64 (R tr1_2) (R tr1_6));
   Set_ t11 (hi64 (R tr1_2) (R tr1_6));
   Set_ t12 (lo64 (R tr1_1) (R tr1_5));
   Set_ t13 (hi64 (R tr1_1) (R tr1_5));
   Set_ t14 (lo64 (R tr1_3) (R tr1_7));
   Set_ t15 (hi64 (R tr1_3) (R tr1_7));
   Set_ (T48 + 3) (p20 (R t0) (R t8));
   Set_ (T49 + 3) (p20 (R t1) (R t9));
   Set_ (T50 + 3) (p20 (R t2) (R t10));
   Set_ (T51 + 3) (p20 (R t3) (R t11));
   Set_ (T52 + 3) (p20 (R t4) (R t12));
   Set_ (T53 + 3) (p20 (R t5) (R t13));
   Set_ (T54 + 3) (p20 (R t6) (R t14));
   Set_ (T55 + 3) (p20 (R t7) (R t15));
   Set_ (T56 + 3) (p31 (R t0) (R t8));
   Set_ (T57 + 3) (p31 (R t1) (R t9));
   Set_ (T58 + 3) (p31 (R t2) (R t10));
   Set_ (T59 + 3) (p31 (R t3) (R t11));
   Set_ (T60 + 3) (p31 (R t4) (R t12));
   Set_ (T61 + 3) (p31 (R t5) (R t13));
   Set_ (T62 + 3) (p31 (R t6) (R t14));
   Set_ (T63 + 3) (p31 (R t7) (R t15))]
  ++ loop 4 (fun i =>
    [St 16 0 0 (16 * i) (R (T00 + i));
     St 16 0 0 (16 * i + 64) (R (T01 + i));
     St 16 0 0 (16 * i + 128) (R (T02 + i));
     St 16 0 0 (16 * i + 192) (R (T03 + i));
     St 16 0 0 (16 * i + 256) (R (T04 + i));
     St 16 0 0 (16 * i + 320) (R (T05 + i));
     St 16 0 0 (16 * i + 384) (R (T06 + i));
     St 16 0 0 (16 * i + 448) (R (T07 + i));
     St 16 0 0 (16 * i + 512) (R (T08 + i));
     St 16 0 0 (16 * i + 576) (R (T09 + i));
     St 16 0 0 (16 * i + 640) (R (T10 + i));
     St 16 0 0 (16 * i + 704) (R (T11 + i));
     St 16 0 0 (16 * i + 768) (R (T12 + i));
     St 16 0 0 (16 * i + 832) (R (T13 + i));
     St 16 0 0 (16 * i + 896) (R (T14 + i));
     St 16 0 0 (16 * i + 960) (R (T15 + i));
     St 16 0 0 (16 * i + 1024) (R (T16 + i));
     St 16 0 0 (16 * i + 1088) (R (T17 + i));
     St 16 0 0 (16 * i + 1152) (R (T18 + i));
     St 16 0 0 (16 * i + 1216) (R (T19 + i));
     St 16 0 0 (16 * i + 1280) (R (T20 + i));
     St 16 0 0 (16 * i + 1344) (R (T21 + i));
     St 16 0 0 (16 * i + 1408) (R (T22 + i));
     St 16 0 0 (16 * i + 1472) (R (T23 + i));
     St 16 0 0 (16 * i + 1536) (R (T24 + i));
     St 16 0 0 (16 * i + 1600) (R (T25 + i));
     St 16 0 0 (16 * i + 1664) (R (T26 + i));
     St 16 0 0 (16 * i + 1728) (R (T27 + i));
     St 16 0 0 (16 * i + 1792) (R (T28 + i));
     St 16 0 0 (16 * i + 1856) (R (T29 + i));
     St 16 0 0 (16 * i + 1920) (R (T30 + i));
     St 16 0 0 (16 * i + 1984) (R (T31 + i));
     St 16 0 0 (16 * i + 2048) (R (T32 + i));
     St 16 0 0 (16 * i + 2112) (R (T33 + i));
     St 16 0 0 (16 * i + 2176) (R (T34 + i));
     St 16 0 0 (16 * i + 2240) (R (T35 + i));
     St 16 0 0 (16 * i + 2304) (R (T36 + i));
     St 16 0 0 (16 * i + 2368) (R (T37 + i));
     St 16 0 0 (16 * i + 2432) (R (T38 + i));
     St 16 0 0 (16 * i + 2496) (R (T39 + i));
     St 16 0 0 (16 * i + 2560) (R (T40 + i));
     St 16 0 0 (16 * i + 2624) (R (T41 + i));
     St 16 0 0 (16 * i + 2688) (R (T42 + i));
     St 16 0 0 (16 * i + 2752) (R (T43 + i));
     St 16 0 0 (16 * i + 2816) (R (T44 + i));
     St 16 0 0 (16 * i + 2880) (R (T45 + i));
     St 16 0 0 (16 * i + 2944) (R (T46 + i));
     St 16 0 0 (16 * i + 3008) (R (T47 + i));
     St 16 0 0 (16 * i + 3072) (R (T48 + i));
     St 16 0 0 (16 * i + 3136) (R (T49 + i));
     St 16 0 0 (16 * i + 3200) (R (T50 + i));
     St 16 0 0 (16 * i + 3264) (R (T51 + i));
     St 16 0 0 (16 * i + 3328) (R (T52 + i));
     St 16 0 0 (16 * i + 3392) (R (T53 + i));
     St 16 0 0 (16 * i + 3456) (R (T54 + i));
     St 16 0 0 (16 * i + 3520) (R (T55 + i));
     St 16 0 0 (16 * i + 3584) (R (T56 + i));
     St 16 0 0 (16 * i + 3648) (R (T57 + i));
     St 16 0 0 (16 * i + 3712) (R (T58 + i));
     St 16 0 0 (16 * i + 3776) (R (T59 + i));
     St 16 0 0 (16 * i + 3840) (R (T60 + i));
     St 16 0 0 (16 * i + 3904) (R (T61 + i));
     St 16 0 0 (16 * i + 3968) (R (T62 + i));
     St 16 0 0 (16 * i + 4032) (R (T63 + i))]).

