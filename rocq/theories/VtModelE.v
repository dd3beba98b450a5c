(** The vector kernels of the inverse transforms, doubling, SSE. Definitions only, for the machine of
    VtModel. Each is the text of the function: the names of its vector variables (an array takes as
    many numbers as it has elements; a name declared again in another block has a number added), its
    macros expanded, its statements in order. *)
From Coq Require Import ZArith List Bool.
From Verif Require Import VtModel.
Import ListNotations.
Open Scope Z_scope.

(** vec/intrinsic_idct.cc:7396-7604 [inv_wavelet_64x16_sse128]. *)
Definition inv_wavelet_64x16_sse128 : list ins :=
  let T00 := 1 in let T01 := 9 in let T02 := 17 in let T03 := 25 in let T04 := 33 in let T05 := 41 in let T06 := 49 in let T07 := 57 in
  let T08 := 65 in let T09 := 73 in let T10 := 81 in let T11 := 89 in let T12 := 97 in let T13 := 105 in let T14 := 113 in let T15 := 121 in
  let V00 := 129 in let V01 := 131 in let V02 := 133 in let V03 := 135 in let V04 := 137 in let V05 := 139 in let V06 := 141 in let V07 := 143 in
  let V08 := 145 in let V09 := 147 in let V10 := 149 in let V11 := 151 in let V12 := 153 in let V13 := 155 in let V14 := 157 in let V15 := 159 in
  let V16 := 161 in let V17 := 163 in let V18 := 165 in let V19 := 167 in let V20 := 169 in let V21 := 171 in let V22 := 173 in let V23 := 175 in
  let V24 := 177 in let V25 := 179 in let V26 := 181 in let V27 := 183 in let V28 := 185 in let V29 := 187 in let V30 := 189 in let V31 := 191 in
  let V32 := 193 in let V33 := 195 in let V34 := 197 in let V35 := 199 in let V36 := 201 in let V37 := 203 in let V38 := 205 in let V39 := 207 in
  let V40 := 209 in let V41 := 211 in let V42 := 213 in let V43 := 215 in let V44 := 217 in let V45 := 219 in let V46 := 221 in let V47 := 223 in
  let V48 := 225 in let V49 := 227 in let V50 := 229 in let V51 := 231 in let V52 := 233 in let V53 := 235 in let V54 := 237 in let V55 := 239 in
  let V56 := 241 in let V57 := 243 in let V58 := 245 in let V59 := 247 in let V60 := 249 in let V61 := 251 in let V62 := 253 in let V63 := 255 in
  let tr0_0 := 257 in let tr0_1 := 258 in let tr0_2 := 259 in let tr0_3 := 260 in let tr0_4 := 261 in let tr0_5 := 262 in let tr0_6 := 263 in
  let tr0_7 := 264 in let tr1_0 := 265 in let tr1_1 := 266 in let tr1_2 := 267 in let tr1_3 := 268 in let tr1_4 := 269 in let tr1_5 := 270 in
  let tr1_6 := 271 in let tr1_7 := 272 in
  [Set_ T00 (Sra16 (Ld 8 0) (I 1));
   Set_ T01 (Sra16 (Ld 8 32) (I 1));
   Set_ T02 (Sra16 (Ld 8 64) (I 1));
   Set_ T03 (Sra16 (Ld 8 96) (I 1));
   Set_ T04 (Sra16 (Ld 8 128) (I 1));
   Set_ T05 (Sra16 (Ld 8 160) (I 1));
   Set_ T06 (Sra16 (Ld 8 192) (I 1));
   Set_ T07 (Sra16 (Ld 8 224) (I 1));
   Set_ (T00 + 1) (Sra16 (Ld 8 8) (I 1));
   Set_ (T01 + 1) (Sra16 (Ld 8 40) (I 1));
   Set_ (T02 + 1) (Sra16 (Ld 8 72) (I 1));
   Set_ (T03 + 1) (Sra16 (Ld 8 104) (I 1));
   Set_ (T04 + 1) (Sra16 (Ld 8 136) (I 1));
   Set_ (T05 + 1) (Sra16 (Ld 8 168) (I 1));
   Set_ (T06 + 1) (Sra16 (Ld 8 200) (I 1));
   Set_ (T07 + 1) (Sra16 (Ld 8 232) (I 1));
   Set_ (T00 + 2) (Sra16 (Ld 8 16) (I 1));
   Set_ (T01 + 2) (Sra16 (Ld 8 48) (I 1));
   Set_ (T02 + 2) (Sra16 (Ld 8 80) (I 1));
   Set_ (T03 + 2) (Sra16 (Ld 8 112) (I 1));
   Set_ (T04 + 2) (Sra16 (Ld 8 144) (I 1));
   Set_ (T05 + 2) (Sra16 (Ld 8 176) (I 1));
   Set_ (T06 + 2) (Sra16 (Ld 8 208) (I 1));
   Set_ (T07 + 2) (Sra16 (Ld 8 240) (I 1));
   Set_ (T00 + 3) (Sra16 (Ld 8 24) (I 1));
   Set_ (T01 + 3) (Sra16 (Ld 8 56) (I 1));
   Set_ (T02 + 3) (Sra16 (Ld 8 88) (I 1));
   Set_ (T03 + 3) (Sra16 (Ld 8 120) (I 1));
   Set_ (T04 + 3) (Sra16 (Ld 8 152) (I 1));
   Set_ (T05 + 3) (Sra16 (Ld 8 184) (I 1));
   Set_ (T06 + 3) (Sra16 (Ld 8 216) (I 1));
   Set_ (T07 + 3) (Sra16 (Ld 8 248) (I 1));
   Set_ T08 (Sra16 (add16 (R T00) (R T01)) (I 1));
   Set_ T09 (Sra16 (add16 (R T01) (R T02)) (I 1));
   Set_ T10 (Sra16 (add16 (R T02) (R T03)) (I 1));
   Set_ T11 (Sra16 (add16 (R T03) (R T04)) (I 1));
   Set_ T12 (Sra16 (add16 (R T04) (R T05)) (I 1));
   Set_ T13 (Sra16 (add16 (R T05) (R T06)) (I 1));
   Set_ T14 (Sra16 (add16 (R T06) (R T07)) (I 1));
   Set_ T15 (Sra16 (add16 (R T07) (R T07)) (I 1));
   Set_ (T08 + 1) (Sra16 (add16 (R (T00 + 1)) (R (T01 + 1))) (I 1));
   Set_ (T09 + 1) (Sra16 (add16 (R (T01 + 1)) (R (T02 + 1))) (I 1));
   Set_ (T10 + 1) (Sra16 (add16 (R (T02 + 1)) (R (T03 + 1))) (I 1));
   Set_ (T11 + 1) (Sra16 (add16 (R (T03 + 1)) (R (T04 + 1))) (I 1));
   Set_ (T12 + 1) (Sra16 (add16 (R (T04 + 1)) (R (T05 + 1))) (I 1));
   Set_ (T13 + 1) (Sra16 (add16 (R (T05 + 1)) (R (T06 + 1))) (I 1));
   Set_ (T14 + 1) (Sra16 (add16 (R (T06 + 1)) (R (T07 + 1))) (I 1));
   Set_ (T15 + 1) (Sra16 (add16 (R (T07 + 1)) (R (T07 + 1))) (I 1));
   Set_ (T08 + 2) (Sra16 (add16 (R (T00 + 2)) (R (T01 + 2))) (I 1));
   Set_ (T09 + 2) (Sra16 (add16 (R (T01 + 2)) (R (T02 + 2))) (I 1));
   Set_ (T10 + 2) (Sra16 (add16 (R (T02 + 2)) (R (T03 + 2))) (I 1));
   Set_ (T11 + 2) (Sra16 (add16 (R (T03 + 2)) (R (T04 + 2))) (I 1));
   Set_ (T12 + 2) (Sra16 (add16 (R (T04 + 2)) (R (T05 + 2))) (I 1));
   Set_ (T13 + 2) (Sra16 (add16 (R (T05 + 2)) (R (T06 + 2))) (I 1));
   Set_ (T14 + 2) (Sra16 (add16 (R (T06 + 2)) (R (T07 + 2))) (I 1));
   Set_ (T15 + 2) (Sra16 (add16 (R (T07 + 2)) (R (T07 + 2))) (I 1));
   Set_ (T08 + 3) (Sra16 (add16 (R (T00 + 3)) (R (T01 + 3))) (I 1));
   Set_ (T09 + 3) (Sra16 (add16 (R (T01 + 3)) (R (T02 + 3))) (I 1));
   Set_ (T10 + 3) (Sra16 (add16 (R (T02 + 3)) (R (T03 + 3))) (I 1));
   Set_ (T11 + 3) (Sra16 (add16 (R (T03 + 3)) (R (T04 + 3))) (I 1));
   Set_ (T12 + 3) (Sra16 (add16 (R (T04 + 3)) (R (T05 + 3))) (I 1));
   Set_ (T13 + 3) (Sra16 (add16 (R (T05 + 3)) (R (T06 + 3))) (I 1));
   Set_ (T14 + 3) (Sra16 (add16 (R (T06 + 3)) (R (T07 + 3))) (I 1));
   Set_ (T15 + 3) (Sra16 (add16 (R (T07 + 3)) (R (T07 + 3))) (I 1))]
  ++ [Set_ tr0_0 (lo16 (R T00) (R T08));
   Set_ tr0_1 (lo16 (R T01) (R T09));
   Set_ tr0_2 (hi16 (R T00) (R T08));
   Set_ tr0_3 (hi16 (R T01) (R T09));
   Set_ tr0_4 (lo16 (R T02) (R T10));
   Set_ tr0_5 (lo16 (R T03) (R T11));
   Set_ tr0_6 (hi16 (R T02) (R T10));
   Set_ tr0_7 (hi16 (R T03) (R T11));
   Set_ tr1_0 (lo32 (R tr0_0) (R tr0_1));
   Set_ tr1_1 (lo32 (R tr0_2) (R tr0_3));
   Set_ tr1_2 (hi32 (R tr0_0) (R tr0_1));
   Set_ tr1_3 (hi32 (R tr0_2) (R tr0_3));
   Set_ tr1_4 (lo32 (R tr0_4) (R tr0_5));
   Set_ tr1_5 (lo32 (R tr0_6) (R tr0_7));
   Set_ tr1_6 (hi32 (R tr0_4) (R tr0_5));
   Set_ tr1_7 (hi32 (R tr0_6) (R tr0_7));
   Set_ V00 (lo64 (R tr1_0) (R tr1_4));
   Set_ V01 (hi64 (R tr1_0) (R tr1_4));
   Set_ V02 (lo64 (R tr1_2) (R tr1_6));
   Set_ V03 (hi64 (R tr1_2) (R tr1_6));
   Set_ V04 (lo64 (R tr1_1) (R tr1_5));
   Set_ V05 (hi64 (R tr1_1) (R tr1_5));
   Set_ V06 (lo64 (R tr1_3) (R tr1_7));
   Set_ V07 (hi64 (R tr1_3) (R tr1_7));
   Set_ tr0_0 (lo16 (R (T00 + 1)) (R (T08 + 1)));
   Set_ tr0_1 (lo16 (R (T01 + 1)) (R (T09 + 1)));
   Set_ tr0_2 (hi16 (R (T00 + 1)) (R (T08 + 1)));
   Set_ tr0_3 (hi16 (R (T01 + 1)) (R (T09 + 1)));
   Set_ tr0_4 (lo16 (R (T02 + 1)) (R (T10 + 1)));
   Set_ tr0_5 (lo16 (R (T03 + 1)) (R (T11 + 1)));
   Set_ tr0_6 (hi16 (R (T02 + 1)) (R (T10 + 1)));
   Set_ tr0_7 (hi16 (R (T03 + 1)) (R (T11 + 1)));
   Set_ tr1_0 (lo32 (R tr0_0) (R tr0_1));
   Set_ tr1_1 (lo32 (R tr0_2) (R tr0_3));
   Set_ tr1_2 (hi32 (R tr0_0) (R tr0_1));
   Set_ tr1_3 (hi32 (R tr0_2) (R tr0_3));
   Set_ tr1_4 (lo32 (R tr0_4) (R tr0_5));
   Set_ tr1_5 (lo32 (R tr0_6) (R tr0_7));
   Set_ tr1_6 (hi32 (R tr0_4) (R tr0_5));
   Set_ tr1_7 (hi32 (R tr0_6) (R tr0_7));
   Set_ V08 (lo64 (R tr1_0) (R tr1_4));
   Set_ V09 (hi64 (R tr1_0) (R tr1_4));
   Set_ V10 (lo64 (R tr1_2) (R tr1_6));
   Set_ V11 (hi64 (R tr1_2) (R tr1_6));
   Set_ V12 (lo64 (R tr1_1) (R tr1_5));
   Set_ V13 (hi64 (R tr1_1) (R tr1_5));
   Set_ V14 (lo64 (R tr1_3) (R tr1_7));
   Set_ V15 (hi64 (R tr1_3) (R tr1_7));
   Set_ tr0_0 (lo16 (R (T00 + 2)) (R (T08 + 2)));
   Set_ tr0_1 (lo16 (R (T01 + 2)) (R (T09 + 2)));
   Set_ tr0_2 (hi16 (R (T00 + 2)) (R (T08 + 2)));
   Set_ tr0_3 (hi16 (R (T01 + 2)) (R (T09 + 2)));
   Set_ tr0_4 (lo16 (R (T02 + 2)) (R (T10 + 2)));
   Set_ tr0_5 (lo16 (R (T03 + 2)) (R (T11 + 2)));
   Set_ tr0_6 (hi16 (R (T02 + 2)) (R (T10 + 2)));
   Set_ tr0_7 (hi16 (R (T03 + 2)) (R (T11 + 2)));
   Set_ tr1_0 (lo32 (R tr0_0) (R tr0_1));
   Set_ tr1_1 (lo32 (R tr0_2) (R tr0_3));
   Set_ tr1_2 (hi32 (R tr0_0) (R tr0_1));
   Set_ tr1_3 (hi32 (R tr0_2) (R tr0_3));
   Set_ tr1_4 (lo32 (R tr0_4) (R tr0_5));
   Set_ tr1_5 (lo32 (R tr0_6) (R tr0_7));
   Set_ tr1_6 (hi32 (R tr0_4) (R tr0_5));
   Set_ tr1_7 (hi32 (R tr0_6) (R tr0_7))]
  ++ [Set_ V16 (lo64 (R tr1_0) (R tr1_4));
   Set_ V17 (hi64 (R tr1_0) (R tr1_4));
   Set_ V18 (lo64 (R tr1_2) (R tr1_6));
   Set_ V19 (hi64 (R tr1_2) (R tr1_6));
   Set_ V20 (lo64 (R tr1_1) (R tr1_5));
   Set_ V21 (hi64 (R tr1_1) (R tr1_5));
   Set_ V22 (lo64 (R tr1_3) (R tr1_7));
   Set_ V23 (hi64 (R tr1_3) (R tr1_7));
   Set_ tr0_0 (lo16 (R (T00 + 3)) (R (T08 + 3)));
   Set_ tr0_1 (lo16 (R (T01 + 3)) (R (T09 + 3)));
   Set_ tr0_2 (hi16 (R (T00 + 3)) (R (T08 + 3)));
   Set_ tr0_3 (hi16 (R (T01 + 3)) (R (T09 + 3)));
   Set_ tr0_4 (lo16 (R (T02 + 3)) (R (T10 + 3)));
   Set_ tr0_5 (lo16 (R (T03 + 3)) (R (T11 + 3)));
   Set_ tr0_6 (hi16 (R (T02 + 3)) (R (T10 + 3)));
   Set_ tr0_7 (hi16 (R (T03 + 3)) (R (T11 + 3)));
   Set_ tr1_0 (lo32 (R tr0_0) (R tr0_1));
   Set_ tr1_1 (lo32 (R tr0_2) (R tr0_3));
   Set_ tr1_2 (hi32 (R tr0_0) (R tr0_1));
   Set_ tr1_3 (hi32 (R tr0_2) (R tr0_3));
   Set_ tr1_4 (lo32 (R tr0_4) (R tr0_5));
   Set_ tr1_5 (lo32 (R tr0_6) (R tr0_7));
   Set_ tr1_6 (hi32 (R tr0_4) (R tr0_5));
   Set_ tr1_7 (hi32 (R tr0_6) (R tr0_7));
   Set_ V24 (lo64 (R tr1_0) (R tr1_4));
   Set_ V25 (hi64 (R tr1_0) (R tr1_4));
   Set_ V26 (lo64 (R tr1_2) (R tr1_6));
   Set_ V27 (hi64 (R tr1_2) (R tr1_6));
   Set_ V28 (lo64 (R tr1_1) (R tr1_5));
   Set_ V29 (hi64 (R tr1_1) (R tr1_5));
   Set_ V30 (lo64 (R tr1_3) (R tr1_7));
   Set_ V31 (hi64 (R tr1_3) (R tr1_7));
   Set_ tr0_0 (lo16 (R T04) (R T12));
   Set_ tr0_1 (lo16 (R T05) (R T13));
   Set_ tr0_2 (hi16 (R T04) (R T12));
   Set_ tr0_3 (hi16 (R T05) (R T13));
   Set_ tr0_4 (lo16 (R T06) (R T14));
   Set_ tr0_5 (lo16 (R T07) (R T15));
   Set_ tr0_6 (hi16 (R T06) (R T14));
   Set_ tr0_7 (hi16 (R T07) (R T15));
   Set_ tr1_0 (lo32 (R tr0_0) (R tr0_1));
   Set_ tr1_1 (lo32 (R tr0_2) (R tr0_3));
   Set_ tr1_2 (hi32 (R tr0_0) (R tr0_1));
   Set_ tr1_3 (hi32 (R tr0_2) (R tr0_3));
   Set_ tr1_4 (lo32 (R tr0_4) (R tr0_5));
   Set_ tr1_5 (lo32 (R tr0_6) (R tr0_7));
   Set_ tr1_6 (hi32 (R tr0_4) (R tr0_5));
   Set_ tr1_7 (hi32 (R tr0_6) (R tr0_7));
   Set_ (V00 + 1) (lo64 (R tr1_0) (R tr1_4));
   Set_ (V01 + 1) (hi64 (R tr1_0) (R tr1_4));
   Set_ (V02 + 1) (lo64 (R tr1_2) (R tr1_6));
   Set_ (V03 + 1) (hi64 (R tr1_2) (R tr1_6));
   Set_ (V04 + 1) (lo64 (R tr1_1) (R tr1_5));
   Set_ (V05 + 1) (hi64 (R tr1_1) (R tr1_5));
   Set_ (V06 + 1) (lo64 (R tr1_3) (R tr1_7));
   Set_ (V07 + 1) (hi64 (R tr1_3) (R tr1_7));
   Set_ tr0_0 (lo16 (R (T04 + 1)) (R (T12 + 1)));
   Set_ tr0_1 (lo16 (R (T05 + 1)) (R (T13 + 1)));
   Set_ tr0_2 (hi16 (R (T04 + 1)) (R (T12 + 1)));
   Set_ tr0_3 (hi16 (R (T05 + 1)) (R (T13 + 1)));
   Set_ tr0_4 (lo16 (R (T06 + 1)) (R (T14 + 1)));
   Set_ tr0_5 (lo16 (R (T07 + 1)) (R (T15 + 1)));
   Set_ tr0_6 (hi16 (R (T06 + 1)) (R (T14 + 1)));
   Set_ tr0_7 (hi16 (R (T07 + 1)) (R (T15 + 1)))]
  ++ [Set_ tr1_0 (lo32 (R tr0_0) (R tr0_1));
   Set_ tr1_1 (lo32 (R tr0_2) (R tr0_3));
   Set_ tr1_2 (hi32 (R tr0_0) (R tr0_1));
   Set_ tr1_3 (hi32 (R tr0_2) (R tr0_3));
   Set_ tr1_4 (lo32 (R tr0_4) (R tr0_5));
   Set_ tr1_5 (lo32 (R tr0_6) (R tr0_7));
   Set_ tr1_6 (hi32 (R tr0_4) (R tr0_5));
   Set_ tr1_7 (hi32 (R tr0_6) (R tr0_7));
   Set_ (V08 + 1) (lo64 (R tr1_0) (R tr1_4));
   Set_ (V09 + 1) (hi64 (R tr1_0) (R tr1_4));
   Set_ (V10 + 1) (lo64 (R tr1_2) (R tr1_6));
   Set_ (V11 + 1) (hi64 (R tr1_2) (R tr1_6));
   Set_ (V12 + 1) (lo64 (R tr1_1) (R tr1_5));
   Set_ (V13 + 1) (hi64 (R tr1_1) (R tr1_5));
   Set_ (V14 + 1) (lo64 (R tr1_3) (R tr1_7));
   Set_ (V15 + 1) (hi64 (R tr1_3) (R tr1_7));
   Set_ tr0_0 (lo16 (R (T04 + 2)) (R (T12 + 2)));
   Set_ tr0_1 (lo16 (R (T05 + 2)) (R (T13 + 2)));
   Set_ tr0_2 (hi16 (R (T04 + 2)) (R (T12 + 2)));
   Set_ tr0_3 (hi16 (R (T05 + 2)) (R (T13 + 2)));
   Set_ tr0_4 (lo16 (R (T06 + 2)) (R (T14 + 2)));
   Set_ tr0_5 (lo16 (R (T07 + 2)) (R (T15 + 2)));
   Set_ tr0_6 (hi16 (R (T06 + 2)) (R (T14 + 2)));
   Set_ tr0_7 (hi16 (R (T07 + 2)) (R (T15 + 2)));
   Set_ tr1_0 (lo32 (R tr0_0) (R tr0_1));
   Set_ tr1_1 (lo32 (R tr0_2) (R tr0_3));
   Set_ tr1_2 (hi32 (R tr0_0) (R tr0_1));
   Set_ tr1_3 (hi32 (R tr0_2) (R tr0_3));
   Set_ tr1_4 (lo32 (R tr0_4) (R tr0_5));
   Set_ tr1_5 (lo32 (R tr0_6) (R tr0_7));
   Set_ tr1_6 (hi32 (R tr0_4) (R tr0_5));
   Set_ tr1_7 (hi32 (R tr0_6) (R tr0_7));
   Set_ (V16 + 1) (lo64 (R tr1_0) (R tr1_4));
   Set_ (V17 + 1) (hi64 (R tr1_0) (R tr1_4));
   Set_ (V18 + 1) (lo64 (R tr1_2) (R tr1_6));
   Set_ (V19 + 1) (hi64 (R tr1_2) (R tr1_6));
   Set_ (V20 + 1) (lo64 (R tr1_1) (R tr1_5));
   Set_ (V21 + 1) (hi64 (R tr1_1) (R tr1_5));
   Set_ (V22 + 1) (lo64 (R tr1_3) (R tr1_7));
   Set_ (V23 + 1) (hi64 (R tr1_3) (R tr1_7));
   Set_ tr0_0 (lo16 (R (T04 + 3)) (R (T12 + 3)));
   Set_ tr0_1 (lo16 (R (T05 + 3)) (R (T13 + 3)));
   Set_ tr0_2 (hi16 (R (T04 + 3)) (R (T12 + 3)));
   Set_ tr0_3 (hi16 (R (T05 + 3)) (R (T13 + 3)));
   Set_ tr0_4 (lo16 (R (T06 + 3)) (R (T14 + 3)));
   Set_ tr0_5 (lo16 (R (T07 + 3)) (R (T15 + 3)));
   Set_ tr0_6 (hi16 (R (T06 + 3)) (R (T14 + 3)));
   Set_ tr0_7 (hi16 (R (T07 + 3)) (R (T15 + 3)));
   Set_ tr1_0 (lo32 (R tr0_0) (R tr0_1));
   Set_ tr1_1 (lo32 (R tr0_2) (R tr0_3));
   Set_ tr1_2 (hi32 (R tr0_0) (R tr0_1));
   Set_ tr1_3 (hi32 (R tr0_2) (R tr0_3));
   Set_ tr1_4 (lo32 (R tr0_4) (R tr0_5));
   Set_ tr1_5 (lo32 (R tr0_6) (R tr0_7));
   Set_ tr1_6 (hi32 (R tr0_4) (R tr0_5));
   Set_ tr1_7 (hi32 (R tr0_6) (R tr0_7));
   Set_ (V24 + 1) (lo64 (R tr1_0) (R tr1_4));
   Set_ (V25 + 1) (hi64 (R tr1_0) (R tr1_4));
   Set_ (V26 + 1) (lo64 (R tr1_2) (R tr1_6));
   Set_ (V27 + 1) (hi64 (R tr1_2) (R tr1_6));
   Set_ (V28 + 1) (lo64 (R tr1_1) (R tr1_5));
   Set_ (V29 + 1) (hi64 (R tr1_1) (R tr1_5));
   Set_ (V30 + 1) (lo64 (R tr1_3) (R tr1_7));
   Set_ (V31 + 1) (hi64 (R tr1_3) (R tr1_7))]
  ++ [Set_ V32 (Sra16 (add16 (R V00) (R V01)) (I 1));
   Set_ V33 (Sra16 (add16 (R V01) (R V02)) (I 1));
   Set_ V34 (Sra16 (add16 (R V02) (R V03)) (I 1));
   Set_ V35 (Sra16 (add16 (R V03) (R V04)) (I 1));
   Set_ V36 (Sra16 (add16 (R V04) (R V05)) (I 1));
   Set_ V37 (Sra16 (add16 (R V05) (R V06)) (I 1));
   Set_ V38 (Sra16 (add16 (R V06) (R V07)) (I 1));
   Set_ V39 (Sra16 (add16 (R V07) (R V08)) (I 1));
   Set_ V40 (Sra16 (add16 (R V08) (R V09)) (I 1));
   Set_ V41 (Sra16 (add16 (R V09) (R V10)) (I 1));
   Set_ V42 (Sra16 (add16 (R V10) (R V11)) (I 1));
   Set_ V43 (Sra16 (add16 (R V11) (R V12)) (I 1));
   Set_ V44 (Sra16 (add16 (R V12) (R V13)) (I 1));
   Set_ V45 (Sra16 (add16 (R V13) (R V14)) (I 1));
   Set_ V46 (Sra16 (add16 (R V14) (R V15)) (I 1));
   Set_ V47 (Sra16 (add16 (R V15) (R V16)) (I 1));
   Set_ V48 (Sra16 (add16 (R V16) (R V17)) (I 1));
   Set_ V49 (Sra16 (add16 (R V17) (R V18)) (I 1));
   Set_ V50 (Sra16 (add16 (R V18) (R V19)) (I 1));
   Set_ V51 (Sra16 (add16 (R V19) (R V20)) (I 1));
   Set_ V52 (Sra16 (add16 (R V20) (R V21)) (I 1));
   Set_ V53 (Sra16 (add16 (R V21) (R V22)) (I 1));
   Set_ V54 (Sra16 (add16 (R V22) (R V23)) (I 1));
   Set_ V55 (Sra16 (add16 (R V23) (R V24)) (I 1));
   Set_ V56 (Sra16 (add16 (R V24) (R V25)) (I 1));
   Set_ V57 (Sra16 (add16 (R V25) (R V26)) (I 1));
   Set_ V58 (Sra16 (add16 (R V26) (R V27)) (I 1));
   Set_ V59 (Sra16 (add16 (R V27) (R V28)) (I 1));
   Set_ V60 (Sra16 (add16 (R V28) (R V29)) (I 1));
   Set_ V61 (Sra16 (add16 (R V29) (R V30)) (I 1));
   Set_ V62 (Sra16 (add16 (R V30) (R V31)) (I 1));
   Set_ V63 (Sra16 (add16 (R V31) (R V31)) (I 1));
   Set_ (V32 + 1) (Sra16 (add16 (R (V00 + 1)) (R (V01 + 1))) (I 1));
   Set_ (V33 + 1) (Sra16 (add16 (R (V01 + 1)) (R (V02 + 1))) (I 1));
   Set_ (V34 + 1) (Sra16 (add16 (R (V02 + 1)) (R (V03 + 1))) (I 1));
   Set_ (V35 + 1) (Sra16 (add16 (R (V03 + 1)) (R (V04 + 1))) (I 1));
   Set_ (V36 + 1) (Sra16 (add16 (R (V04 + 1)) (R (V05 + 1))) (I 1));
   Set_ (V37 + 1) (Sra16 (add16 (R (V05 + 1)) (R (V06 + 1))) (I 1));
   Set_ (V38 + 1) (Sra16 (add16 (R (V06 + 1)) (R (V07 + 1))) (I 1));
   Set_ (V39 + 1) (Sra16 (add16 (R (V07 + 1)) (R (V08 + 1))) (I 1));
   Set_ (V40 + 1) (Sra16 (add16 (R (V08 + 1)) (R (V09 + 1))) (I 1));
   Set_ (V41 + 1) (Sra16 (add16 (R (V09 + 1)) (R (V10 + 1))) (I 1));
   Set_ (V42 + 1) (Sra16 (add16 (R (V10 + 1)) (R (V11 + 1))) (I 1));
   Set_ (V43 + 1) (Sra16 (add16 (R (V11 + 1)) (R (V12 + 1))) (I 1));
   Set_ (V44 + 1) (Sra16 (add16 (R (V12 + 1)) (R (V13 + 1))) (I 1));
   Set_ (V45 + 1) (Sra16 (add16 (R (V13 + 1)) (R (V14 + 1))) (I 1));
   Set_ (V46 + 1) (Sra16 (add16 (R (V14 + 1)) (R (V15 + 1))) (I 1));
   Set_ (V47 + 1) (Sra16 (add16 (R (V15 + 1)) (R (V16 + 1))) (I 1));
   Set_ (V48 + 1) (Sra16 (add16 (R (V16 + 1)) (R (V17 + 1))) (I 1));
   Set_ (V49 + 1) (Sra16 (add16 (R (V17 + 1)) (R (V18 + 1))) (I 1));
   Set_ (V50 + 1) (Sra16 (add16 (R (V18 + 1)) (R (V19 + 1))) (I 1));
   Set_ (V51 + 1) (Sra16 (add16 (R (V19 + 1)) (R (V20 + 1))) (I 1));
   Set_ (V52 + 1) (Sra16 (add16 (R (V20 + 1)) (R (V21 + 1))) (I 1));
   Set_ (V53 + 1) (Sra16 (add16 (R (V21 + 1)) (R (V22 + 1))) (I 1));
   Set_ (V54 + 1) (Sra16 (add16 (R (V22 + 1)) (R (V23 + 1))) (I 1));
   Set_ (V55 + 1) (Sra16 (add16 (R (V23 + 1)) (R (V24 + 1))) (I 1));
   Set_ (V56 + 1) (Sra16 (add16 (R (V24 + 1)) (R (V25 + 1))) (I 1));
   Set_ (V57 + 1) (Sra16 (add16 (R (V25 + 1)) (R (V26 + 1))) (I 1));
   Set_ (V58 + 1) (Sra16 (add16 (R (V26 + 1)) (R (V27 + 1))) (I 1));
   Set_ (V59 + 1) (Sra16 (add16 (R (V27 + 1)) (R (V28 + 1))) (I 1));
   Set_ (V60 + 1) (Sra16 (add16 (R (V28 + 1)) (R (V29 + 1))) (I 1));
   Set_ (V61 + 1) (Sra16 (add16 (R (V29 + 1)) (R (V30 + 1))) (I 1));
   Set_ (V62 + 1) (Sra16 (add16 (R (V30 + 1)) (R (V31 + 1))) (I 1));
   Set_ (V63 + 1) (Sra16 (add16 (R (V31 + 1)) (R (V31 + 1))) (I 1))]
  ++ [Set_ tr0_0 (lo16 (R V00) (R V32));
   Set_ tr0_1 (lo16 (R V01) (R V33));
   Set_ tr0_2 (hi16 (R V00) (R V32));
   Set_ tr0_3 (hi16 (R V01) (R V33));
   Set_ tr0_4 (lo16 (R V02) (R V34));
   Set_ tr0_5 (lo16 (R V03) (R V35));
   Set_ tr0_6 (hi16 (R V02) (R V34));
   Set_ tr0_7 (hi16 (R V03) (R V35));
   Set_ tr1_0 (lo32 (R tr0_0) (R tr0_1));
   Set_ tr1_1 (lo32 (R tr0_2) (R tr0_3));
   Set_ tr1_2 (hi32 (R tr0_0) (R tr0_1));
   Set_ tr1_3 (hi32 (R tr0_2) (R tr0_3));
   Set_ tr1_4 (lo32 (R tr0_4) (R tr0_5));
   Set_ tr1_5 (lo32 (R tr0_6) (R tr0_7));
   Set_ tr1_6 (hi32 (R tr0_4) (R tr0_5));
   Set_ tr1_7 (hi32 (R tr0_6) (R tr0_7));
   Set_ T00 (lo64 (R tr1_0) (R tr1_4));
   Set_ T01 (hi64 (R tr1_0) (R tr1_4));
   Set_ T02 (lo64 (R tr1_2) (R tr1_6));
   Set_ T03 (hi64 (R tr1_2) (R tr1_6));
   Set_ T04 (lo64 (R tr1_1) (R tr1_5));
   Set_ T05 (hi64 (R tr1_1) (R tr1_5));
   Set_ T06 (lo64 (R tr1_3) (R tr1_7));
   Set_ T07 (hi64 (R tr1_3) (R tr1_7));
   Set_ tr0_0 (lo16 (R V04) (R V36));
   Set_ tr0_1 (lo16 (R V05) (R V37));
   Set_ tr0_2 (hi16 (R V04) (R V36));
   Set_ tr0_3 (hi16 (R V05) (R V37));
   Set_ tr0_4 (lo16 (R V06) (R V38));
   Set_ tr0_5 (lo16 (R V07) (R V39));
   Set_ tr0_6 (hi16 (R V06) (R V38));
   Set_ tr0_7 (hi16 (R V07) (R V39));
   Set_ tr1_0 (lo32 (R tr0_0) (R tr0_1));
   Set_ tr1_1 (lo32 (R tr0_2) (R tr0_3));
   Set_ tr1_2 (hi32 (R tr0_0) (R tr0_1));
   Set_ tr1_3 (hi32 (R tr0_2) (R tr0_3));
   Set_ tr1_4 (lo32 (R tr0_4) (R tr0_5));
   Set_ tr1_5 (lo32 (R tr0_6) (R tr0_7));
   Set_ tr1_6 (hi32 (R tr0_4) (R tr0_5));
   Set_ tr1_7 (hi32 (R tr0_6) (R tr0_7));
   Set_ (T00 + 1) (lo64 (R tr1_0) (R tr1_4));
   Set_ (T01 + 1) (hi64 (R tr1_0) (R tr1_4));
   Set_ (T02 + 1) (lo64 (R tr1_2) (R tr1_6));
   Set_ (T03 + 1) (hi64 (R tr1_2) (R tr1_6));
   Set_ (T04 + 1) (lo64 (R tr1_1) (R tr1_5));
   Set_ (T05 + 1) (hi64 (R tr1_1) (R tr1_5));
   Set_ (T06 + 1) (lo64 (R tr1_3) (R tr1_7));
   Set_ (T07 + 1) (hi64 (R tr1_3) (R tr1_7));
   Set_ tr0_0 (lo16 (R V08) (R V40));
   Set_ tr0_1 (lo16 (R V09) (R V41));
   Set_ tr0_2 (hi16 (R V08) (R V40));
   Set_ tr0_3 (hi16 (R V09) (R V41));
   Set_ tr0_4 (lo16 (R V10) (R V42));
   Set_ tr0_5 (lo16 (R V11) (R V43));
   Set_ tr0_6 (hi16 (R V10) (R V42));
   Set_ tr0_7 (hi16 (R V11) (R V43));
   Set_ tr1_0 (lo32 (R tr0_0) (R tr0_1));
   Set_ tr1_1 (lo32 (R tr0_2) (R tr0_3));
   Set_ tr1_2 (hi32 (R tr0_0) (R tr0_1));
   Set_ tr1_3 (hi32 (R tr0_2) (R tr0_3));
   Set_ tr1_4 (lo32 (R tr0_4) (R tr0_5));
   Set_ tr1_5 (lo32 (R tr0_6) (R tr0_7));
   Set_ tr1_6 (hi32 (R tr0_4) (R tr0_5));
   Set_ tr1_7 (hi32 (R tr0_6) (R tr0_7))]
  ++ [Set_ (T00 + 2) (lo64 (R tr1_0) (R tr1_4));
   Set_ (T01 + 2) (hi64 (R tr1_0) (R tr1_4));
   Set_ (T02 + 2) (lo64 (R tr1_2) (R tr1_6));
   Set_ (T03 + 2) (hi64 (R tr1_2) (R tr1_6));
   Set_ (T04 + 2) (lo64 (R tr1_1) (R tr1_5));
   Set_ (T05 + 2) (hi64 (R tr1_1) (R tr1_5));
   Set_ (T06 + 2) (lo64 (R tr1_3) (R tr1_7));
   Set_ (T07 + 2) (hi64 (R tr1_3) (R tr1_7));
   Set_ tr0_0 (lo16 (R V12) (R V44));
   Set_ tr0_1 (lo16 (R V13) (R V45));
   Set_ tr0_2 (hi16 (R V12) (R V44));
   Set_ tr0_3 (hi16 (R V13) (R V45));
   Set_ tr0_4 (lo16 (R V14) (R V46));
   Set_ tr0_5 (lo16 (R V15) (R V47));
   Set_ tr0_6 (hi16 (R V14) (R V46));
   Set_ tr0_7 (hi16 (R V15) (R V47));
   Set_ tr1_0 (lo32 (R tr0_0) (R tr0_1));
   Set_ tr1_1 (lo32 (R tr0_2) (R tr0_3));
   Set_ tr1_2 (hi32 (R tr0_0) (R tr0_1));
   Set_ tr1_3 (hi32 (R tr0_2) (R tr0_3));
   Set_ tr1_4 (lo32 (R tr0_4) (R tr0_5));
   Set_ tr1_5 (lo32 (R tr0_6) (R tr0_7));
   Set_ tr1_6 (hi32 (R tr0_4) (R tr0_5));
   Set_ tr1_7 (hi32 (R tr0_6) (R tr0_7));
   Set_ (T00 + 3) (lo64 (R tr1_0) (R tr1_4));
   Set_ (T01 + 3) (hi64 (R tr1_0) (R tr1_4));
   Set_ (T02 + 3) (lo64 (R tr1_2) (R tr1_6));
   Set_ (T03 + 3) (hi64 (R tr1_2) (R tr1_6));
   Set_ (T04 + 3) (lo64 (R tr1_1) (R tr1_5));
   Set_ (T05 + 3) (hi64 (R tr1_1) (R tr1_5));
   Set_ (T06 + 3) (lo64 (R tr1_3) (R tr1_7));
   Set_ (T07 + 3) (hi64 (R tr1_3) (R tr1_7));
   Set_ tr0_0 (lo16 (R V16) (R V48));
   Set_ tr0_1 (lo16 (R V17) (R V49));
   Set_ tr0_2 (hi16 (R V16) (R V48));
   Set_ tr0_3 (hi16 (R V17) (R V49));
   Set_ tr0_4 (lo16 (R V18) (R V50));
   Set_ tr0_5 (lo16 (R V19) (R V51));
   Set_ tr0_6 (hi16 (R V18) (R V50));
   Set_ tr0_7 (hi16 (R V19) (R V51));
   Set_ tr1_0 (lo32 (R tr0_0) (R tr0_1));
   Set_ tr1_1 (lo32 (R tr0_2) (R tr0_3));
   Set_ tr1_2 (hi32 (R tr0_0) (R tr0_1));
   Set_ tr1_3 (hi32 (R tr0_2) (R tr0_3));
   Set_ tr1_4 (lo32 (R tr0_4) (R tr0_5));
   Set_ tr1_5 (lo32 (R tr0_6) (R tr0_7));
   Set_ tr1_6 (hi32 (R tr0_4) (R tr0_5));
   Set_ tr1_7 (hi32 (R tr0_6) (R tr0_7));
   Set_ (T00 + 4) (lo64 (R tr1_0) (R tr1_4));
   Set_ (T01 + 4) (hi64 (R tr1_0) (R tr1_4));
   Set_ (T02 + 4) (lo64 (R tr1_2) (R tr1_6));
   Set_ (T03 + 4) (hi64 (R tr1_2) (R tr1_6));
   Set_ (T04 + 4) (lo64 (R tr1_1) (R tr1_5));
   Set_ (T05 + 4) (hi64 (R tr1_1) (R tr1_5));
   Set_ (T06 + 4) (lo64 (R tr1_3) (R tr1_7));
   Set_ (T07 + 4) (hi64 (R tr1_3) (R tr1_7));
   Set_ tr0_0 (lo16 (R V20) (R V52));
   Set_ tr0_1 (lo16 (R V21) (R V53));
   Set_ tr0_2 (hi16 (R V20) (R V52));
   Set_ tr0_3 (hi16 (R V21) (R V53));
   Set_ tr0_4 (lo16 (R V22) (R V54));
   Set_ tr0_5 (lo16 (R V23) (R V55));
   Set_ tr0_6 (hi16 (R V22) (R V54));
   Set_ tr0_7 (hi16 (R V23) (R V55))]
  ++ [Set_ tr1_0 (lo32 (R tr0_0) (R tr0_1));
   Set_ tr1_1 (lo32 (R tr0_2) (R tr0_3));
   Set_ tr1_2 (hi32 (R tr0_0) (R tr0_1));
   Set_ tr1_3 (hi32 (R tr0_2) (R tr0_3));
   Set_ tr1_4 (lo32 (R tr0_4) (R tr0_5));
   Set_ tr1_5 (lo32 (R tr0_6) (R tr0_7));
   Set_ tr1_6 (hi32 (R tr0_4) (R tr0_5));
   Set_ tr1_7 (hi32 (R tr0_6) (R tr0_7));
   Set_ (T00 + 5) (lo64 (R tr1_0) (R tr1_4));
   Set_ (T01 + 5) (hi64 (R tr1_0) (R tr1_4));
   Set_ (T02 + 5) (lo64 (R tr1_2) (R tr1_6));
   Set_ (T03 + 5) (hi64 (R tr1_2) (R tr1_6));
   Set_ (T04 + 5) (lo64 (R tr1_1) (R tr1_5));
   Set_ (T05 + 5) (hi64 (R tr1_1) (R tr1_5));
   Set_ (T06 + 5) (lo64 (R tr1_3) (R tr1_7));
   Set_ (T07 + 5) (hi64 (R tr1_3) (R tr1_7));
   Set_ tr0_0 (lo16 (R V24) (R V56));
   Set_ tr0_1 (lo16 (R V25) (R V57));
   Set_ tr0_2 (hi16 (R V24) (R V56));
   Set_ tr0_3 (hi16 (R V25) (R V57));
   Set_ tr0_4 (lo16 (R V26) (R V58));
   Set_ tr0_5 (lo16 (R V27) (R V59));
   Set_ tr0_6 (hi16 (R V26) (R V58));
   Set_ tr0_7 (hi16 (R V27) (R V59));
   Set_ tr1_0 (lo32 (R tr0_0) (R tr0_1));
   Set_ tr1_1 (lo32 (R tr0_2) (R tr0_3));
   Set_ tr1_2 (hi32 (R tr0_0) (R tr0_1));
   Set_ tr1_3 (hi32 (R tr0_2) (R tr0_3));
   Set_ tr1_4 (lo32 (R tr0_4) (R tr0_5));
   Set_ tr1_5 (lo32 (R tr0_6) (R tr0_7));
   Set_ tr1_6 (hi32 (R tr0_4) (R tr0_5));
   Set_ tr1_7 (hi32 (R tr0_6) (R tr0_7));
   Set_ (T00 + 6) (lo64 (R tr1_0) (R tr1_4));
   Set_ (T01 + 6) (hi64 (R tr1_0) (R tr1_4));
   Set_ (T02 + 6) (lo64 (R tr1_2) (R tr1_6));
   Set_ (T03 + 6) (hi64 (R tr1_2) (R tr1_6));
   Set_ (T04 + 6) (lo64 (R tr1_1) (R tr1_5));
   Set_ (T05 + 6) (hi64 (R tr1_1) (R tr1_5));
   Set_ (T06 + 6) (lo64 (R tr1_3) (R tr1_7));
   Set_ (T07 + 6) (hi64 (R tr1_3) (R tr1_7));
   Set_ tr0_0 (lo16 (R V28) (R V60));
   Set_ tr0_1 (lo16 (R V29) (R V61));
   Set_ tr0_2 (hi16 (R V28) (R V60));
   Set_ tr0_3 (hi16 (R V29) (R V61));
   Set_ tr0_4 (lo16 (R V30) (R V62));
   Set_ tr0_5 (lo16 (R V31) (R V63));
   Set_ tr0_6 (hi16 (R V30) (R V62));
   Set_ tr0_7 (hi16 (R V31) (R V63));
   Set_ tr1_0 (lo32 (R tr0_0) (R tr0_1));
   Set_ tr1_1 (lo32 (R tr0_2) (R tr0_3));
   Set_ tr1_2 (hi32 (R tr0_0) (R tr0_1));
   Set_ tr1_3 (hi32 (R tr0_2) (R tr0_3));
   Set_ tr1_4 (lo32 (R tr0_4) (R tr0_5));
   Set_ tr1_5 (lo32 (R tr0_6) (R tr0_7));
   Set_ tr1_6 (hi32 (R tr0_4) (R tr0_5));
   Set_ tr1_7 (hi32 (R tr0_6) (R tr0_7));
   Set_ (T00 + 7) (lo64 (R tr1_0) (R tr1_4));
   Set_ (T01 + 7) (hi64 (R tr1_0) (R tr1_4));
   Set_ (T02 + 7) (lo64 (R tr1_2) (R tr1_6));
   Set_ (T03 + 7) (hi64 (R tr1_2) (R tr1_6));
   Set_ (T04 + 7) (lo64 (R tr1_1) (R tr1_5));
   Set_ (T05 + 7) (hi64 (R tr1_1) (R tr1_5));
   Set_ (T06 + 7) (lo64 (R tr1_3) (R tr1_7));
   Set_ (T07 + 7) (hi64 (R tr1_3) (R tr1_7))]
  ++ [Set_ tr0_0 (lo16 (R (V00 + 1)) (R (V32 + 1)));
   Set_ tr0_1 (lo16 (R (V01 + 1)) (R (V33 + 1)));
   Set_ tr0_2 (hi16 (R (V00 + 1)) (R (V32 + 1)));
   Set_ tr0_3 (hi16 (R (V01 + 1)) (R (V33 + 1)));
   Set_ tr0_4 (lo16 (R (V02 + 1)) (R (V34 + 1)));
   Set_ tr0_5 (lo16 (R (V03 + 1)) (R (V35 + 1)));
   Set_ tr0_6 (hi16 (R (V02 + 1)) (R (V34 + 1)));
   Set_ tr0_7 (hi16 (R (V03 + 1)) (R (V35 + 1)));
   Set_ tr1_0 (lo32 (R tr0_0) (R tr0_1));
   Set_ tr1_1 (lo32 (R tr0_2) (R tr0_3));
   Set_ tr1_2 (hi32 (R tr0_0) (R tr0_1));
   Set_ tr1_3 (hi32 (R tr0_2) (R tr0_3));
   Set_ tr1_4 (lo32 (R tr0_4) (R tr0_5));
   Set_ tr1_5 (lo32 (R tr0_6) (R tr0_7));
   Set_ tr1_6 (hi32 (R tr0_4) (R tr0_5));
   Set_ tr1_7 (hi32 (R tr0_6) (R tr0_7));
   Set_ T08 (lo64 (R tr1_0) (R tr1_4));
   Set_ T09 (hi64 (R tr1_0) (R tr1_4));
   Set_ T10 (lo64 (R tr1_2) (R tr1_6));
   Set_ T11 (hi64 (R tr1_2) (R tr1_6));
   Set_ T12 (lo64 (R tr1_1) (R tr1_5));
   Set_ T13 (hi64 (R tr1_1) (R tr1_5));
   Set_ T14 (lo64 (R tr1_3) (R tr1_7));
   Set_ T15 (hi64 (R tr1_3) (R tr1_7));
   Set_ tr0_0 (lo16 (R (V04 + 1)) (R (V36 + 1)));
   Set_ tr0_1 (lo16 (R (V05 + 1)) (R (V37 + 1)));
   Set_ tr0_2 (hi16 (R (V04 + 1)) (R (V36 + 1)));
   Set_ tr0_3 (hi16 (R (V05 + 1)) (R (V37 + 1)));
   Set_ tr0_4 (lo16 (R (V06 + 1)) (R (V38 + 1)));
   Set_ tr0_5 (lo16 (R (V07 + 1)) (R (V39 + 1)));
   Set_ tr0_6 (hi16 (R (V06 + 1)) (R (V38 + 1)));
   Set_ tr0_7 (hi16 (R (V07 + 1)) (R (V39 + 1)));
   Set_ tr1_0 (lo32 (R tr0_0) (R tr0_1));
   Set_ tr1_1 (lo32 (R tr0_2) (R tr0_3));
   Set_ tr1_2 (hi32 (R tr0_0) (R tr0_1));
   Set_ tr1_3 (hi32 (R tr0_2) (R tr0_3));
   Set_ tr1_4 (lo32 (R tr0_4) (R tr0_5));
   Set_ tr1_5 (lo32 (R tr0_6) (R tr0_7));
   Set_ tr1_6 (hi32 (R tr0_4) (R tr0_5));
   Set_ tr1_7 (hi32 (R tr0_6) (R tr0_7));
   Set_ (T08 + 1) (lo64 (R tr1_0) (R tr1_4));
   Set_ (T09 + 1) (hi64 (R tr1_0) (R tr1_4));
   Set_ (T10 + 1) (lo64 (R tr1_2) (R tr1_6));
   Set_ (T11 + 1) (hi64 (R tr1_2) (R tr1_6));
   Set_ (T12 + 1) (lo64 (R tr1_1) (R tr1_5));
   Set_ (T13 + 1) (hi64 (R tr1_1) (R tr1_5));
   Set_ (T14 + 1) (lo64 (R tr1_3) (R tr1_7));
   Set_ (T15 + 1) (hi64 (R tr1_3) (R tr1_7));
   Set_ tr0_0 (lo16 (R (V08 + 1)) (R (V40 + 1)));
   Set_ tr0_1 (lo16 (R (V09 + 1)) (R (V41 + 1)));
   Set_ tr0_2 (hi16 (R (V08 + 1)) (R (V40 + 1)));
   Set_ tr0_3 (hi16 (R (V09 + 1)) (R (V41 + 1)));
   Set_ tr0_4 (lo16 (R (V10 + 1)) (R (V42 + 1)));
   Set_ tr0_5 (lo16 (R (V11 + 1)) (R (V43 + 1)));
   Set_ tr0_6 (hi16 (R (V10 + 1)) (R (V42 + 1)));
   Set_ tr0_7 (hi16 (R (V11 + 1)) (R (V43 + 1)));
   Set_ tr1_0 (lo32 (R tr0_0) (R tr0_1));
   Set_ tr1_1 (lo32 (R tr0_2) (R tr0_3));
   Set_ tr1_2 (hi32 (R tr0_0) (R tr0_1));
   Set_ tr1_3 (hi32 (R tr0_2) (R tr0_3));
   Set_ tr1_4 (lo32 (R tr0_4) (R tr0_5));
   Set_ tr1_5 (lo32 (R tr0_6) (R tr0_7));
   Set_ tr1_6 (hi32 (R tr0_4) (R tr0_5));
   Set_ tr1_7 (hi32 (R tr0_6) (R tr0_7))]
  ++ [Set_ (T08 + 2) (lo64 (R tr1_0) (R tr1_4));
   Set_ (T09 + 2) (hi64 (R tr1_0) (R tr1_4));
   Set_ (T10 + 2) (lo64 (R tr1_2) (R tr1_6));
   Set_ (T11 + 2) (hi64 (R tr1_2) (R tr1_6));
   Set_ (T12 + 2) (lo64 (R tr1_1) (R tr1_5));
   Set_ (T13 + 2) (hi64 (R tr1_1) (R tr1_5));
   Set_ (T14 + 2) (lo64 (R tr1_3) (R tr1_7));
   Set_ (T15 + 2) (hi64 (R tr1_3) (R tr1_7));
   Set_ tr0_0 (lo16 (R (V12 + 1)) (R (V44 + 1)));
   Set_ tr0_1 (lo16 (R (V13 + 1)) (R (V45 + 1)));
   Set_ tr0_2 (hi16 (R (V12 + 1)) (R (V44 + 1)));
   Set_ tr0_3 (hi16 (R (V13 + 1)) (R (V45 + 1)));
   Set_ tr0_4 (lo16 (R (V14 + 1)) (R (V46 + 1)));
   Set_ tr0_5 (lo16 (R (V15 + 1)) (R (V47 + 1)));
   Set_ tr0_6 (hi16 (R (V14 + 1)) (R (V46 + 1)));
   Set_ tr0_7 (hi16 (R (V15 + 1)) (R (V47 + 1)));
   Set_ tr1_0 (lo32 (R tr0_0) (R tr0_1));
   Set_ tr1_1 (lo32 (R tr0_2) (R tr0_3));
   Set_ tr1_2 (hi32 (R tr0_0) (R tr0_1));
   Set_ tr1_3 (hi32 (R tr0_2) (R tr0_3));
   Set_ tr1_4 (lo32 (R tr0_4) (R tr0_5));
   Set_ tr1_5 (lo32 (R tr0_6) (R tr0_7));
   Set_ tr1_6 (hi32 (R tr0_4) (R tr0_5));
   Set_ tr1_7 (hi32 (R tr0_6) (R tr0_7));
   Set_ (T08 + 3) (lo64 (R tr1_0) (R tr1_4));
   Set_ (T09 + 3) (hi64 (R tr1_0) (R tr1_4));
   Set_ (T10 + 3) (lo64 (R tr1_2) (R tr1_6));
   Set_ (T11 + 3) (hi64 (R tr1_2) (R tr1_6));
   Set_ (T12 + 3) (lo64 (R tr1_1) (R tr1_5));
   Set_ (T13 + 3) (hi64 (R tr1_1) (R tr1_5));
   Set_ (T14 + 3) (lo64 (R tr1_3) (R tr1_7));
   Set_ (T15 + 3) (hi64 (R tr1_3) (R tr1_7));
   Set_ tr0_0 (lo16 (R (V16 + 1)) (R (V48 + 1)));
   Set_ tr0_1 (lo16 (R (V17 + 1)) (R (V49 + 1)));
   Set_ tr0_2 (hi16 (R (V16 + 1)) (R (V48 + 1)));
   Set_ tr0_3 (hi16 (R (V17 + 1)) (R (V49 + 1)));
   Set_ tr0_4 (lo16 (R (V18 + 1)) (R (V50 + 1)));
   Set_ tr0_5 (lo16 (R (V19 + 1)) (R (V51 + 1)));
   Set_ tr0_6 (hi16 (R (V18 + 1)) (R (V50 + 1)));
   Set_ tr0_7 (hi16 (R (V19 + 1)) (R (V51 + 1)));
   Set_ tr1_0 (lo32 (R tr0_0) (R tr0_1));
   Set_ tr1_1 (lo32 (R tr0_2) (R tr0_3));
   Set_ tr1_2 (hi32 (R tr0_0) (R tr0_1));
   Set_ tr1_3 (hi32 (R tr0_2) (R tr0_3));
   Set_ tr1_4 (lo32 (R tr0_4) (R tr0_5));
   Set_ tr1_5 (lo32 (R tr0_6) (R tr0_7));
   Set_ tr1_6 (hi32 (R tr0_4) (R tr0_5));
   Set_ tr1_7 (hi32 (R tr0_6) (R tr0_7));
   Set_ (T08 + 4) (lo64 (R tr1_0) (R tr1_4));
   Set_ (T09 + 4) (hi64 (R tr1_0) (R tr1_4));
   Set_ (T10 + 4) (lo64 (R tr1_2) (R tr1_6));
   Set_ (T11 + 4) (hi64 (R tr1_2) (R tr1_6));
   Set_ (T12 + 4) (lo64 (R tr1_1) (R tr1_5));
   Set_ (T13 + 4) (hi64 (R tr1_1) (R tr1_5));
   Set_ (T14 + 4) (lo64 (R tr1_3) (R tr1_7));
   Set_ (T15 + 4) (hi64 (R tr1_3) (R tr1_7));
   Set_ tr0_0 (lo16 (R (V20 + 1)) (R (V52 + 1)));
   Set_ tr0_1 (lo16 (R (V21 + 1)) (R (V53 + 1)));
   Set_ tr0_2 (hi16 (R (V20 + 1)) (R (V52 + 1)));
   Set_ tr0_3 (hi16 (R (V21 + 1)) (R (V53 + 1)));
   Set_ tr0_4 (lo16 (R (V22 + 1)) (R (V54 + 1)));
   Set_ tr0_5 (lo16 (R (V23 + 1)) (R (V55 + 1)));
   Set_ tr0_6 (hi16 (R (V22 + 1)) (R (V54 + 1)));
   Set_ tr0_7 (hi16 (R (V23 + 1)) (R (V55 + 1)))]
  ++ [Set_ tr1_0 (lo32 (R tr0_0) (R tr0_1));
   Set_ tr1_1 (lo32 (R tr0_2) (R tr0_3));
   Set_ tr1_2 (hi32 (R tr0_0) (R tr0_1));
   Set_ tr1_3 (hi32 (R tr0_2) (R tr0_3));
   Set_ tr1_4 (lo32 (R tr0_4) (R tr0_5));
   Set_ tr1_5 (lo32 (R tr0_6) (R tr0_7));
   Set_ tr1_6 (hi32 (R tr0_4) (R tr0_5));
   Set_ tr1_7 (hi32 (R tr0_6) (R tr0_7));
   Set_ (T08 + 5) (lo64 (R tr1_0) (R tr1_4));
   Set_ (T09 + 5) (hi64 (R tr1_0) (R tr1_4));
   Set_ (T10 + 5) (lo64 (R tr1_2) (R tr1_6));
   Set_ (T11 + 5) (hi64 (R tr1_2) (R tr1_6));
   Set_ (T12 + 5) (lo64 (R tr1_1) (R tr1_5));
   Set_ (T13 + 5) (hi64 (R tr1_1) (R tr1_5));
   Set_ (T14 + 5) (lo64 (R tr1_3) (R tr1_7));
   Set_ (T15 + 5) (hi64 (R tr1_3) (R tr1_7));
   Set_ tr0_0 (lo16 (R (V24 + 1)) (R (V56 + 1)));
   Set_ tr0_1 (lo16 (R (V25 + 1)) (R (V57 + 1)));
   Set_ tr0_2 (hi16 (R (V24 + 1)) (R (V56 + 1)));
   Set_ tr0_3 (hi16 (R (V25 + 1)) (R (V57 + 1)));
   Set_ tr0_4 (lo16 (R (V26 + 1)) (R (V58 + 1)));
   Set_ tr0_5 (lo16 (R (V27 + 1)) (R (V59 + 1)));
   Set_ tr0_6 (hi16 (R (V26 + 1)) (R (V58 + 1)));
   Set_ tr0_7 (hi16 (R (V27 + 1)) (R (V59 + 1)));
   Set_ tr1_0 (lo32 (R tr0_0) (R tr0_1));
   Set_ tr1_1 (lo32 (R tr0_2) (R tr0_3));
   Set_ tr1_2 (hi32 (R tr0_0) (R tr0_1));
   Set_ tr1_3 (hi32 (R tr0_2) (R tr0_3));
   Set_ tr1_4 (lo32 (R tr0_4) (R tr0_5));
   Set_ tr1_5 (lo32 (R tr0_6) (R tr0_7));
   Set_ tr1_6 (hi32 (R tr0_4) (R tr0_5));
   Set_ tr1_7 (hi32 (R tr0_6) (R tr0_7));
   Set_ (T08 + 6) (lo64 (R tr1_0) (R tr1_4));
   Set_ (T09 + 6) (hi64 (R tr1_0) (R tr1_4));
   Set_ (T10 + 6) (lo64 (R tr1_2) (R tr1_6));
   Set_ (T11 + 6) (hi64 (R tr1_2) (R tr1_6));
   Set_ (T12 + 6) (lo64 (R tr1_1) (R tr1_5));
   Set_ (T13 + 6) (hi64 (R tr1_1) (R tr1_5));
   Set_ (T14 + 6) (lo64 (R tr1_3) (R tr1_7));
   Set_ (T15 + 6) (hi64 (R tr1_3) (R tr1_7));
   Set_ tr0_0 (lo16 (R (V28 + 1)) (R (V60 + 1)));
   Set_ tr0_1 (lo16 (R (V29 + 1)) (R (V61 + 1)));
   Set_ tr0_2 (hi16 (R (V28 + 1)) (R (V60 + 1)));
   Set_ tr0_3 (hi16 (R (V29 + 1)) (R (V61 + 1)));
   Set_ tr0_4 (lo16 (R (V30 + 1)) (R (V62 + 1)));
   Set_ tr0_5 (lo16 (R (V31 + 1)) (R (V63 + 1)));
   Set_ tr0_6 (hi16 (R (V30 + 1)) (R (V62 + 1)));
   Set_ tr0_7 (hi16 (R (V31 + 1)) (R (V63 + 1)));
   Set_ tr1_0 (lo32 (R tr0_0) (R tr0_1));
   Set_ tr1_1 (lo32 (R tr0_2) (R tr0_3));
   Set_ tr1_2 (hi32 (R tr0_0) (R tr0_1));
   Set_ tr1_3 (hi32 (R tr0_2) (R tr0_3));
   Set_ tr1_4 (lo32 (R tr0_4) (R tr0_5));
   Set_ tr1_5 (lo32 (R tr0_6) (R tr0_7));
   Set_ tr1_6 (hi32 (R tr0_4) (R tr0_5));
   Set_ tr1_7 (hi32 (R tr0_6) (R tr0_7));
   Set_ (T08 + 7) (lo64 (R tr1_0) (R tr1_4));
   Set_ (T09 + 7) (hi64 (R tr1_0) (R tr1_4));
   Set_ (T10 + 7) (lo64 (R tr1_2) (R tr1_6));
   Set_ (T11 + 7) (hi64 (R tr1_2) (R tr1_6));
   Set_ (T12 + 7) (lo64 (R tr1_1) (R tr1_5));
   Set_ (T13 + 7) (hi64 (R tr1_1) (R tr1_5));
   Set_ (T14 + 7) (lo64 (R tr1_3) (R tr1_7));
   Set_ (T15 + 7) (hi64 (R tr1_3) (R tr1_7))]
  ++ loop 8 (fun i =>
    [St 8 0 0 (8 * i) (R (T00 + i));
     St 8 0 0 (8 * i + 64) (R (T01 + i));
     St 8 0 0 (8 * i + 128) (R (T02 + i));
     St 8 0 0 (8 * i + 192) (R (T03 + i));
     St 8 0 0 (8 * i + 256) (R (T04 + i));
     St 8 0 0 (8 * i + 320) (R (T05 + i));
     St 8 0 0 (8 * i + 384) (R (T06 + i));
     St 8 0 0 (8 * i + 448) (R (T07 + i));
     St 8 0 0 (8 * i + 512) (R (T08 + i));
     St 8 0 0 (8 * i + 576) (R (T09 + i));
     St 8 0 0 (8 * i + 640) (R (T10 + i));
     St 8 0 0 (8 * i + 704) (R (T11 + i));
     St 8 0 0 (8 * i + 768) (R (T12 + i));
     St 8 0 0 (8 * i + 832) (R (T13 + i));
     St 8 0 0 (8 * i + 896) (R (T14 + i));
     St 8 0 0 (8 * i + 960) (R (T15 + i))]).

(** vec/intrinsic_idct.cc:7609-7805 [inv_wavelet_16x64_sse128]. *)
Definition inv_wavelet_16x64_sse128 : list ins :=
  let S00 := 1 in let S01 := 2 in let S02 := 3 in let S03 := 4 in let S04 := 5 in let S05 := 6 in let S06 := 7 in let S07 := 8 in let S08 := 9 in
  let S09 := 10 in let S10 := 11 in let S11 := 12 in let S12 := 13 in let S13 := 14 in let S14 := 15 in let S15 := 16 in let S16 := 17 in
  let S17 := 18 in let S18 := 19 in let S19 := 20 in let S20 := 21 in let S21 := 22 in let S22 := 23 in let S23 := 24 in let S24 := 25 in
  let S25 := 26 in let S26 := 27 in let S27 := 28 in let S28 := 29 in let S29 := 30 in let S30 := 31 in let S31 := 32 in let S32 := 33 in
  let S33 := 34 in let S34 := 35 in let S35 := 36 in let S36 := 37 in let S37 := 38 in let S38 := 39 in let S39 := 40 in let S40 := 41 in
  let S41 := 42 in let S42 := 43 in let S43 := 44 in let S44 := 45 in let S45 := 46 in let S46 := 47 in let S47 := 48 in let S48 := 49 in
  let S49 := 50 in let S50 := 51 in let S51 := 52 in let S52 := 53 in let S53 := 54 in let S54 := 55 in let S55 := 56 in let S56 := 57 in
  let S57 := 58 in let S58 := 59 in let S59 := 60 in let S60 := 61 in let S61 := 62 in let S62 := 63 in let S63 := 64 in let T00 := 65 in
  let T01 := 73 in let T02 := 81 in let T03 := 89 in let T04 := 97 in let T05 := 105 in let T06 := 113 in let T07 := 121 in let T08 := 129 in
  let T09 := 137 in let T10 := 145 in let T11 := 153 in let T12 := 161 in let T13 := 169 in let T14 := 177 in let T15 := 185 in let V00 := 193 in
  let V01 := 195 in let V02 := 197 in let V03 := 199 in let V04 := 201 in let V05 := 203 in let V06 := 205 in let V07 := 207 in let V08 := 209 in
  let V09 := 211 in let V10 := 213 in let V11 := 215 in let V12 := 217 in let V13 := 219 in let V14 := 221 in let V15 := 223 in let V16 := 225 in
  let V17 := 227 in let V18 := 229 in let V19 := 231 in let V20 := 233 in let V21 := 235 in let V22 := 237 in let V23 := 239 in let V24 := 241 in
  let V25 := 243 in let V26 := 245 in let V27 := 247 in let V28 := 249 in let V29 := 251 in let V30 := 253 in let V31 := 255 in let V32 := 257 in
  let V33 := 259 in let V34 := 261 in let V35 := 263 in let V36 := 265 in let V37 := 267 in let V38 := 269 in let V39 := 271 in let V40 := 273 in
  let V41 := 275 in let V42 := 277 in let V43 := 279 in let V44 := 281 in let V45 := 283 in let V46 := 285 in let V47 := 287 in let V48 := 289 in
  let V49 := 291 in let V50 := 293 in let V51 := 295 in let V52 := 297 in let V53 := 299 in let V54 := 301 in let V55 := 303 in let V56 := 305 in
  let V57 := 307 in let V58 := 309 in let V59 := 311 in let V60 := 313 in let V61 := 315 in let V62 := 317 in let V63 := 319 in let tr0_0 := 321 in
  let tr0_1 := 322 in let tr0_2 := 323 in let tr0_3 := 324 in let tr0_4 := 325 in let tr0_5 := 326 in let tr0_6 := 327 in let tr0_7 := 328 in
  let tr1_0 := 329 in let tr1_1 := 330 in let tr1_2 := 331 in let tr1_3 := 332 in let tr1_4 := 333 in let tr1_5 := 334 in let tr1_6 := 335 in
  let tr1_7 := 336 in
  [Set_ S00 (Sra16 (Ld 8 0) (I 1));
   Set_ S01 (Sra16 (Ld 8 8) (I 1));
   Set_ S02 (Sra16 (Ld 8 16) (I 1));
   Set_ S03 (Sra16 (Ld 8 24) (I 1));
   Set_ S04 (Sra16 (Ld 8 32) (I 1));
   Set_ S05 (Sra16 (Ld 8 40) (I 1));
   Set_ S06 (Sra16 (Ld 8 48) (I 1));
   Set_ S07 (Sra16 (Ld 8 56) (I 1));
   Set_ S08 (Sra16 (Ld 8 64) (I 1));
   Set_ S09 (Sra16 (Ld 8 72) (I 1));
   Set_ S10 (Sra16 (Ld 8 80) (I 1));
   Set_ S11 (Sra16 (Ld 8 88) (I 1));
   Set_ S12 (Sra16 (Ld 8 96) (I 1));
   Set_ S13 (Sra16 (Ld 8 104) (I 1));
   Set_ S14 (Sra16 (Ld 8 112) (I 1));
   Set_ S15 (Sra16 (Ld 8 120) (I 1));
   Set_ S16 (Sra16 (Ld 8 128) (I 1));
   Set_ S17 (Sra16 (Ld 8 136) (I 1));
   Set_ S18 (Sra16 (Ld 8 144) (I 1));
   Set_ S19 (Sra16 (Ld 8 152) (I 1));
   Set_ S20 (Sra16 (Ld 8 160) (I 1));
   Set_ S21 (Sra16 (Ld 8 168) (I 1));
   Set_ S22 (Sra16 (Ld 8 176) (I 1));
   Set_ S23 (Sra16 (Ld 8 184) (I 1));
   Set_ S24 (Sra16 (Ld 8 192) (I 1));
   Set_ S25 (Sra16 (Ld 8 200) (I 1));
   Set_ S26 (Sra16 (Ld 8 208) (I 1));
   Set_ S27 (Sra16 (Ld 8 216) (I 1));
   Set_ S28 (Sra16 (Ld 8 224) (I 1));
   Set_ S29 (Sra16 (Ld 8 232) (I 1));
   Set_ S30 (Sra16 (Ld 8 240) (I 1));
   Set_ S31 (Sra16 (Ld 8 248) (I 1));
   Set_ S32 (Sra16 (add16 (R S00) (R S01)) (I 1));
   Set_ S33 (Sra16 (add16 (R S01) (R S02)) (I 1));
   Set_ S34 (Sra16 (add16 (R S02) (R S03)) (I 1));
   Set_ S35 (Sra16 (add16 (R S03) (R S04)) (I 1));
   Set_ S36 (Sra16 (add16 (R S04) (R S05)) (I 1));
   Set_ S37 (Sra16 (add16 (R S05) (R S06)) (I 1));
   Set_ S38 (Sra16 (add16 (R S06) (R S07)) (I 1));
   Set_ S39 (Sra16 (add16 (R S07) (R S08)) (I 1));
   Set_ S40 (Sra16 (add16 (R S08) (R S09)) (I 1));
   Set_ S41 (Sra16 (add16 (R S09) (R S10)) (I 1));
   Set_ S42 (Sra16 (add16 (R S10) (R S11)) (I 1));
   Set_ S43 (Sra16 (add16 (R S11) (R S12)) (I 1));
   Set_ S44 (Sra16 (add16 (R S12) (R S13)) (I 1));
   Set_ S45 (Sra16 (add16 (R S13) (R S14)) (I 1));
   Set_ S46 (Sra16 (add16 (R S14) (R S15)) (I 1));
   Set_ S47 (Sra16 (add16 (R S15) (R S16)) (I 1));
   Set_ S48 (Sra16 (add16 (R S16) (R S17)) (I 1));
   Set_ S49 (Sra16 (add16 (R S17) (R S18)) (I 1));
   Set_ S50 (Sra16 (add16 (R S18) (R S19)) (I 1));
   Set_ S51 (Sra16 (add16 (R S19) (R S20)) (I 1));
   Set_ S52 (Sra16 (add16 (R S20) (R S21)) (I 1));
   Set_ S53 (Sra16 (add16 (R S21) (R S22)) (I 1));
   Set_ S54 (Sra16 (add16 (R S22) (R S23)) (I 1));
   Set_ S55 (Sra16 (add16 (R S23) (R S24)) (I 1));
   Set_ S56 (Sra16 (add16 (R S24) (R S25)) (I 1));
   Set_ S57 (Sra16 (add16 (R S25) (R S26)) (I 1));
   Set_ S58 (Sra16 (add16 (R S26) (R S27)) (I 1));
   Set_ S59 (Sra16 (add16 (R S27) (R S28)) (I 1));
   Set_ S60 (Sra16 (add16 (R S28) (R S29)) (I 1));
   Set_ S61 (Sra16 (add16 (R S29) (R S30)) (I 1));
   Set_ S62 (Sra16 (add16 (R S30) (R S31)) (I 1));
   Set_ S63 (Sra16 (add16 (R S31) (R S31)) (I 1))]
  ++ [Set_ tr0_0 (lo16 (R S00) (R S32));
   Set_ tr0_1 (lo16 (R S01) (R S33));
   Set_ tr0_2 (hi16 (R S00) (R S32));
   Set_ tr0_3 (hi16 (R S01) (R S33));
   Set_ tr0_4 (lo16 (R S02) (R S34));
   Set_ tr0_5 (lo16 (R S03) (R S35));
   Set_ tr0_6 (hi16 (R S02) (R S34));
   Set_ tr0_7 (hi16 (R S03) (R S35));
   Set_ tr1_0 (lo32 (R tr0_0) (R tr0_1));
   Set_ tr1_1 (lo32 (R tr0_2) (R tr0_3));
   Set_ tr1_2 (hi32 (R tr0_0) (R tr0_1));
   Set_ tr1_3 (hi32 (R tr0_2) (R tr0_3));
   Set_ tr1_4 (lo32 (R tr0_4) (R tr0_5));
   Set_ tr1_5 (lo32 (R tr0_6) (R tr0_7));
   Set_ tr1_6 (hi32 (R tr0_4) (R tr0_5));
   Set_ tr1_7 (hi32 (R tr0_6) (R tr0_7));
   Set_ T00 (lo64 (R tr1_0) (R tr1_4));
   Set_ T01 (hi64 (R tr1_0) (R tr1_4));
   Set_ T02 (lo64 (R tr1_2) (R tr1_6));
   Set_ T03 (hi64 (R tr1_2) (R tr1_6));
   Set_ T04 (lo64 (R tr1_1) (R tr1_5));
   Set_ T05 (hi64 (R tr1_1) (R tr1_5));
   Set_ T06 (lo64 (R tr1_3) (R tr1_7));
   Set_ T07 (hi64 (R tr1_3) (R tr1_7));
   Set_ tr0_0 (lo16 (R S04) (R S36));
   Set_ tr0_1 (lo16 (R S05) (R S37));
   Set_ tr0_2 (hi16 (R S04) (R S36));
   Set_ tr0_3 (hi16 (R S05) (R S37));
   Set_ tr0_4 (lo16 (R S06) (R S38));
   Set_ tr0_5 (lo16 (R S07) (R S39));
   Set_ tr0_6 (hi16 (R S06) (R S38));
   Set_ tr0_7 (hi16 (R S07) (R S39));
   Set_ tr1_0 (lo32 (R tr0_0) (R tr0_1));
   Set_ tr1_1 (lo32 (R tr0_2) (R tr0_3));
   Set_ tr1_2 (hi32 (R tr0_0) (R tr0_1));
   Set_ tr1_3 (hi32 (R tr0_2) (R tr0_3));
   Set_ tr1_4 (lo32 (R tr0_4) (R tr0_5));
   Set_ tr1_5 (lo32 (R tr0_6) (R tr0_7));
   Set_ tr1_6 (hi32 (R tr0_4) (R tr0_5));
   Set_ tr1_7 (hi32 (R tr0_6) (R tr0_7));
   Set_ (T00 + 1) (lo64 (R tr1_0) (R tr1_4));
   Set_ (T01 + 1) (hi64 (R tr1_0) (R tr1_4));
   Set_ (T02 + 1) (lo64 (R tr1_2) (R tr1_6));
   Set_ (T03 + 1) (hi64 (R tr1_2) (R tr1_6));
   Set_ (T04 + 1) (lo64 (R tr1_1) (R tr1_5));
   Set_ (T05 + 1) (hi64 (R tr1_1) (R tr1_5));
   Set_ (T06 + 1) (lo64 (R tr1_3) (R tr1_7));
   Set_ (T07 + 1) (hi64 (R tr1_3) (R tr1_7));
   Set_ tr0_0 (lo16 (R S08) (R S40));
   Set_ tr0_1 (lo16 (R S09) (R S41));
   Set_ tr0_2 (hi16 (R S08) (R S40));
   Set_ tr0_3 (hi16 (R S09) (R S41));
   Set_ tr0_4 (lo16 (R S10) (R S42));
   Set_ tr0_5 (lo16 (R S11) (R S43));
   Set_ tr0_6 (hi16 (R S10) (R S42));
   Set_ tr0_7 (hi16 (R S11) (R S43));
   Set_ tr1_0 (lo32 (R tr0_0) (R tr0_1));
   Set_ tr1_1 (lo32 (R tr0_2) (R tr0_3));
   Set_ tr1_2 (hi32 (R tr0_0) (R tr0_1));
   Set_ tr1_3 (hi32 (R tr0_2) (R tr0_3));
   Set_ tr1_4 (lo32 (R tr0_4) (R tr0_5));
   Set_ tr1_5 (lo32 (R tr0_6) (R tr0_7));
   Set_ tr1_6 (hi32 (R tr0_4) (R tr0_5));
   Set_ tr1_7 (hi32 (R tr0_6) (R tr0_7))]
  ++ [Set_ (T00 + 2) (lo64 (R tr1_0) (R tr1_4));
   Set_ (T01 + 2) (hi64 (R tr1_0) (R tr1_4));
   Set_ (T02 + 2) (lo64 (R tr1_2) (R tr1_6));
   Set_ (T03 + 2) (hi64 (R tr1_2) (R tr1_6));
   Set_ (T04 + 2) (lo64 (R tr1_1) (R tr1_5));
   Set_ (T05 + 2) (hi64 (R tr1_1) (R tr1_5));
   Set_ (T06 + 2) (lo64 (R tr1_3) (R tr1_7));
   Set_ (T07 + 2) (hi64 (R tr1_3) (R tr1_7));
   Set_ tr0_0 (lo16 (R S12) (R S44));
   Set_ tr0_1 (lo16 (R S13) (R S45));
   Set_ tr0_2 (hi16 (R S12) (R S44));
   Set_ tr0_3 (hi16 (R S13) (R S45));
   Set_ tr0_4 (lo16 (R S14) (R S46));
   Set_ tr0_5 (lo16 (R S15) (R S47));
   Set_ tr0_6 (hi16 (R S14) (R S46));
   Set_ tr0_7 (hi16 (R S15) (R S47));
   Set_ tr1_0 (lo32 (R tr0_0) (R tr0_1));
   Set_ tr1_1 (lo32 (R tr0_2) (R tr0_3));
   Set_ tr1_2 (hi32 (R tr0_0) (R tr0_1));
   Set_ tr1_3 (hi32 (R tr0_2) (R tr0_3));
   Set_ tr1_4 (lo32 (R tr0_4) (R tr0_5));
   Set_ tr1_5 (lo32 (R tr0_6) (R tr0_7));
   Set_ tr1_6 (hi32 (R tr0_4) (R tr0_5));
   Set_ tr1_7 (hi32 (R tr0_6) (R tr0_7));
   Set_ (T00 + 3) (lo64 (R tr1_0) (R tr1_4));
   Set_ (T01 + 3) (hi64 (R tr1_0) (R tr1_4));
   Set_ (T02 + 3) (lo64 (R tr1_2) (R tr1_6));
   Set_ (T03 + 3) (hi64 (R tr1_2) (R tr1_6));
   Set_ (T04 + 3) (lo64 (R tr1_1) (R tr1_5));
   Set_ (T05 + 3) (hi64 (R tr1_1) (R tr1_5));
   Set_ (T06 + 3) (lo64 (R tr1_3) (R tr1_7));
   Set_ (T07 + 3) (hi64 (R tr1_3) (R tr1_7));
   Set_ tr0_0 (lo16 (R S16) (R S48));
   Set_ tr0_1 (lo16 (R S17) (R S49));
   Set_ tr0_2 (hi16 (R S16) (R S48));
   Set_ tr0_3 (hi16 (R S17) (R S49));
   Set_ tr0_4 (lo16 (R S18) (R S50));
   Set_ tr0_5 (lo16 (R S19) (R S51));
   Set_ tr0_6 (hi16 (R S18) (R S50));
   Set_ tr0_7 (hi16 (R S19) (R S51));
   Set_ tr1_0 (lo32 (R tr0_0) (R tr0_1));
   Set_ tr1_1 (lo32 (R tr0_2) (R tr0_3));
   Set_ tr1_2 (hi32 (R tr0_0) (R tr0_1));
   Set_ tr1_3 (hi32 (R tr0_2) (R tr0_3));
   Set_ tr1_4 (lo32 (R tr0_4) (R tr0_5));
   Set_ tr1_5 (lo32 (R tr0_6) (R tr0_7));
   Set_ tr1_6 (hi32 (R tr0_4) (R tr0_5));
   Set_ tr1_7 (hi32 (R tr0_6) (R tr0_7));
   Set_ (T00 + 4) (lo64 (R tr1_0) (R tr1_4));
   Set_ (T01 + 4) (hi64 (R tr1_0) (R tr1_4));
   Set_ (T02 + 4) (lo64 (R tr1_2) (R tr1_6));
   Set_ (T03 + 4) (hi64 (R tr1_2) (R tr1_6));
   Set_ (T04 + 4) (lo64 (R tr1_1) (R tr1_5));
   Set_ (T05 + 4) (hi64 (R tr1_1) (R tr1_5));
   Set_ (T06 + 4) (lo64 (R tr1_3) (R tr1_7));
   Set_ (T07 + 4) (hi64 (R tr1_3) (R tr1_7));
   Set_ tr0_0 (lo16 (R S20) (R S52));
   Set_ tr0_1 (lo16 (R S21) (R S53));
   Set_ tr0_2 (hi16 (R S20) (R S52));
   Set_ tr0_3 (hi16 (R S21) (R S53));
   Set_ tr0_4 (lo16 (R S22) (R S54));
   Set_ tr0_5 (lo16 (R S23) (R S55));
   Set_ tr0_6 (hi16 (R S22) (R S54));
   Set_ tr0_7 (hi16 (R S23) (R S55))]
  ++ [Set_ tr1_0 (lo32 (R tr0_0) (R tr0_1));
   Set_ tr1_1 (lo32 (R tr0_2) (R tr0_3));
   Set_ tr1_2 (hi32 (R tr0_0) (R tr0_1));
   Set_ tr1_3 (hi32 (R tr0_2) (R tr0_3));
   Set_ tr1_4 (lo32 (R tr0_4) (R tr0_5));
   Set_ tr1_5 (lo32 (R tr0_6) (R tr0_7));
   Set_ tr1_6 (hi32 (R tr0_4) (R tr0_5));
   Set_ tr1_7 (hi32 (R tr0_6) (R tr0_7));
   Set_ (T00 + 5) (lo64 (R tr1_0) (R tr1_4));
   Set_ (T01 + 5) (hi64 (R tr1_0) (R tr1_4));
   Set_ (T02 + 5) (lo64 (R tr1_2) (R tr1_6));
   Set_ (T03 + 5) (hi64 (R tr1_2) (R tr1_6));
   Set_ (T04 + 5) (lo64 (R tr1_1) (R tr1_5));
   Set_ (T05 + 5) (hi64 (R tr1_1) (R tr1_5));
   Set_ (T06 + 5) (lo64 (R tr1_3) (R tr1_7));
   Set_ (T07 + 5) (hi64 (R tr1_3) (R tr1_7));
   Set_ tr0_0 (lo16 (R S24) (R S56));
   Set_ tr0_1 (lo16 (R S25) (R S57));
   Set_ tr0_2 (hi16 (R S24) (R S56));
   Set_ tr0_3 (hi16 (R S25) (R S57));
   Set_ tr0_4 (lo16 (R S26) (R S58));
   Set_ tr0_5 (lo16 (R S27) (R S59));
   Set_ tr0_6 (hi16 (R S26) (R S58));
   Set_ tr0_7 (hi16 (R S27) (R S59));
   Set_ tr1_0 (lo32 (R tr0_0) (R tr0_1));
   Set_ tr1_1 (lo32 (R tr0_2) (R tr0_3));
   Set_ tr1_2 (hi32 (R tr0_0) (R tr0_1));
   Set_ tr1_3 (hi32 (R tr0_2) (R tr0_3));
   Set_ tr1_4 (lo32 (R tr0_4) (R tr0_5));
   Set_ tr1_5 (lo32 (R tr0_6) (R tr0_7));
   Set_ tr1_6 (hi32 (R tr0_4) (R tr0_5));
   Set_ tr1_7 (hi32 (R tr0_6) (R tr0_7));
   Set_ (T00 + 6) (lo64 (R tr1_0) (R tr1_4));
   Set_ (T01 + 6) (hi64 (R tr1_0) (R tr1_4));
   Set_ (T02 + 6) (lo64 (R tr1_2) (R tr1_6));
   Set_ (T03 + 6) (hi64 (R tr1_2) (R tr1_6));
   Set_ (T04 + 6) (lo64 (R tr1_1) (R tr1_5));
   Set_ (T05 + 6) (hi64 (R tr1_1) (R tr1_5));
   Set_ (T06 + 6) (lo64 (R tr1_3) (R tr1_7));
   Set_ (T07 + 6) (hi64 (R tr1_3) (R tr1_7));
   Set_ tr0_0 (lo16 (R S28) (R S60));
   Set_ tr0_1 (lo16 (R S29) (R S61));
   Set_ tr0_2 (hi16 (R S28) (R S60));
   Set_ tr0_3 (hi16 (R S29) (R S61));
   Set_ tr0_4 (lo16 (R S30) (R S62));
   Set_ tr0_5 (lo16 (R S31) (R S63));
   Set_ tr0_6 (hi16 (R S30) (R S62));
   Set_ tr0_7 (hi16 (R S31) (R S63));
   Set_ tr1_0 (lo32 (R tr0_0) (R tr0_1));
   Set_ tr1_1 (lo32 (R tr0_2) (R tr0_3));
   Set_ tr1_2 (hi32 (R tr0_0) (R tr0_1));
   Set_ tr1_3 (hi32 (R tr0_2) (R tr0_3));
   Set_ tr1_4 (lo32 (R tr0_4) (R tr0_5));
   Set_ tr1_5 (lo32 (R tr0_6) (R tr0_7));
   Set_ tr1_6 (hi32 (R tr0_4) (R tr0_5));
   Set_ tr1_7 (hi32 (R tr0_6) (R tr0_7));
   Set_ (T00 + 7) (lo64 (R tr1_0) (R tr1_4));
   Set_ (T01 + 7) (hi64 (R tr1_0) (R tr1_4));
   Set_ (T02 + 7) (lo64 (R tr1_2) (R tr1_6));
   Set_ (T03 + 7) (hi64 (R tr1_2) (R tr1_6));
   Set_ (T04 + 7) (lo64 (R tr1_1) (R tr1_5));
   Set_ (T05 + 7) (hi64 (R tr1_1) (R tr1_5));
   Set_ (T06 + 7) (lo64 (R tr1_3) (R tr1_7));
   Set_ (T07 + 7) (hi64 (R tr1_3) (R tr1_7))]
  ++ loop 8 (fun i =>
    [Set_ (T08 + i) (Sra16 (add16 (R (T00 + i)) (R (T01 + i))) (I 1));
     Set_ (T09 + i) (Sra16 (add16 (R (T01 + i)) (R (T02 + i))) (I 1));
     Set_ (T10 + i) (Sra16 (add16 (R (T02 + i)) (R (T03 + i))) (I 1));
     Set_ (T11 + i) (Sra16 (add16 (R (T03 + i)) (R (T04 + i))) (I 1));
     Set_ (T12 + i) (Sra16 (add16 (R (T04 + i)) (R (T05 + i))) (I 1));
     Set_ (T13 + i) (Sra16 (add16 (R (T05 + i)) (R (T06 + i))) (I 1));
     Set_ (T14 + i) (Sra16 (add16 (R (T06 + i)) (R (T07 + i))) (I 1));
     Set_ (T15 + i) (Sra16 (add16 (R (T07 + i)) (R (T07 + i))) (I 1))])
  ++ [Set_ tr0_0 (lo16 (R T00) (R T08));
   Set_ tr0_1 (lo16 (R T01) (R T09));
   Set_ tr0_2 (hi16 (R T00) (R T08));
   Set_ tr0_3 (hi16 (R T01) (R T09));
   Set_ tr0_4 (lo16 (R T02) (R T10));
   Set_ tr0_5 (lo16 (R T03) (R T11));
   Set_ tr0_6 (hi16 (R T02) (R T10));
   Set_ tr0_7 (hi16 (R T03) (R T11));
   Set_ tr1_0 (lo32 (R tr0_0) (R tr0_1));
   Set_ tr1_1 (lo32 (R tr0_2) (R tr0_3));
   Set_ tr1_2 (hi32 (R tr0_0) (R tr0_1));
   Set_ tr1_3 (hi32 (R tr0_2) (R tr0_3));
   Set_ tr1_4 (lo32 (R tr0_4) (R tr0_5));
   Set_ tr1_5 (lo32 (R tr0_6) (R tr0_7));
   Set_ tr1_6 (hi32 (R tr0_4) (R tr0_5));
   Set_ tr1_7 (hi32 (R tr0_6) (R tr0_7));
   Set_ V00 (lo64 (R tr1_0) (R tr1_4));
   Set_ V01 (hi64 (R tr1_0) (R tr1_4));
   Set_ V02 (lo64 (R tr1_2) (R tr1_6));
   Set_ V03 (hi64 (R tr1_2) (R tr1_6));
   Set_ V04 (lo64 (R tr1_1) (R tr1_5));
   Set_ V05 (hi64 (R tr1_1) (R tr1_5));
   Set_ V06 (lo64 (R tr1_3) (R tr1_7));
   Set_ V07 (hi64 (R tr1_3) (R tr1_7));
   Set_ tr0_0 (lo16 (R (T00 + 1)) (R (T08 + 1)));
   Set_ tr0_1 (lo16 (R (T01 + 1)) (R (T09 + 1)));
   Set_ tr0_2 (hi16 (R (T00 + 1)) (R (T08 + 1)));
   Set_ tr0_3 (hi16 (R (T01 + 1)) (R (T09 + 1)));
   Set_ tr0_4 (lo16 (R (T02 + 1)) (R (T10 + 1)));
   Set_ tr0_5 (lo16 (R (T03 + 1)) (R (T11 + 1)));
   Set_ tr0_6 (hi16 (R (T02 + 1)) (R (T10 + 1)));
   Set_ tr0_7 (hi16 (R (T03 + 1)) (R (T11 + 1)));
   Set_ tr1_0 (lo32 (R tr0_0) (R tr0_1));
   Set_ tr1_1 (lo32 (R tr0_2) (R tr0_3));
   Set_ tr1_2 (hi32 (R tr0_0) (R tr0_1));
   Set_ tr1_3 (hi32 (R tr0_2) (R tr0_3));
   Set_ tr1_4 (lo32 (R tr0_4) (R tr0_5));
   Set_ tr1_5 (lo32 (R tr0_6) (R tr0_7));
   Set_ tr1_6 (hi32 (R tr0_4) (R tr0_5));
   Set_ tr1_7 (hi32 (R tr0_6) (R tr0_7));
   Set_ V08 (lo64 (R tr1_0) (R tr1_4));
   Set_ V09 (hi64 (R tr1_0) (R tr1_4));
   Set_ V10 (lo64 (R tr1_2) (R tr1_6));
   Set_ V11 (hi64 (R tr1_2) (R tr1_6));
   Set_ V12 (lo64 (R tr1_1) (R tr1_5));
   Set_ V13 (hi64 (R tr1_1) (R tr1_5));
   Set_ V14 (lo64 (R tr1_3) (R tr1_7));
   Set_ V15 (hi64 (R tr1_3) (R tr1_7));
   Set_ tr0_0 (lo16 (R (T00 + 2)) (R (T08 + 2)));
   Set_ tr0_1 (lo16 (R (T01 + 2)) (R (T09 + 2)));
   Set_ tr0_2 (hi16 (R (T00 + 2)) (R (T08 + 2)));
   Set_ tr0_3 (hi16 (R (T01 + 2)) (R (T09 + 2)));
   Set_ tr0_4 (lo16 (R (T02 + 2)) (R (T10 + 2)));
   Set_ tr0_5 (lo16 (R (T03 + 2)) (R (T11 + 2)));
   Set_ tr0_6 (hi16 (R (T02 + 2)) (R (T10 + 2)));
   Set_ tr0_7 (hi16 (R (T03 + 2)) (R (T11 + 2)));
   Set_ tr1_0 (lo32 (R tr0_0) (R tr0_1));
   Set_ tr1_1 (lo32 (R tr0_2) (R tr0_3));
   Set_ tr1_2 (hi32 (R tr0_0) (R tr0_1));
   Set_ tr1_3 (hi32 (R tr0_2) (R tr0_3));
   Set_ tr1_4 (lo32 (R tr0_4) (R tr0_5));
   Set_ tr1_5 (lo32 (R tr0_6) (R tr0_7));
   Set_ tr1_6 (hi32 (R tr0_4) (R tr0_5));
   Set_ tr1_7 (hi32 (R tr0_6) (R tr0_7))]
  ++ [Set_ V16 (lo64 (R tr1_0) (R tr1_4));
   Set_ V17 (hi64 (R tr1_0) (R tr1_4));
   Set_ V18 (lo64 (R tr1_2) (R tr1_6));
   Set_ V19 (hi64 (R tr1_2) (R tr1_6));
   Set_ V20 (lo64 (R tr1_1) (R tr1_5));
   Set_ V21 (hi64 (R tr1_1) (R tr1_5));
   Set_ V22 (lo64 (R tr1_3) (R tr1_7));
   Set_ V23 (hi64 (R tr1_3) (R tr1_7));
   Set_ tr0_0 (lo16 (R (T00 + 3)) (R (T08 + 3)));
   Set_ tr0_1 (lo16 (R (T01 + 3)) (R (T09 + 3)));
   Set_ tr0_2 (hi16 (R (T00 + 3)) (R (T08 + 3)));
   Set_ tr0_3 (hi16 (R (T01 + 3)) (R (T09 + 3)));
   Set_ tr0_4 (lo16 (R (T02 + 3)) (R (T10 + 3)));
   Set_ tr0_5 (lo16 (R (T03 + 3)) (R (T11 + 3)));
   Set_ tr0_6 (hi16 (R (T02 + 3)) (R (T10 + 3)));
   Set_ tr0_7 (hi16 (R (T03 + 3)) (R (T11 + 3)));
   Set_ tr1_0 (lo32 (R tr0_0) (R tr0_1));
   Set_ tr1_1 (lo32 (R tr0_2) (R tr0_3));
   Set_ tr1_2 (hi32 (R tr0_0) (R tr0_1));
   Set_ tr1_3 (hi32 (R tr0_2) (R tr0_3));
   Set_ tr1_4 (lo32 (R tr0_4) (R tr0_5));
   Set_ tr1_5 (lo32 (R tr0_6) (R tr0_7));
   Set_ tr1_6 (hi32 (R tr0_4) (R tr0_5));
   Set_ tr1_7 (hi32 (R tr0_6) (R tr0_7));
   Set_ V24 (lo64 (R tr1_0) (R tr1_4));
   Set_ V25 (hi64 (R tr1_0) (R tr1_4));
   Set_ V26 (lo64 (R tr1_2) (R tr1_6));
   Set_ V27 (hi64 (R tr1_2) (R tr1_6));
   Set_ V28 (lo64 (R tr1_1) (R tr1_5));
   Set_ V29 (hi64 (R tr1_1) (R tr1_5));
   Set_ V30 (lo64 (R tr1_3) (R tr1_7));
   Set_ V31 (hi64 (R tr1_3) (R tr1_7));
   Set_ tr0_0 (lo16 (R (T00 + 4)) (R (T08 + 4)));
   Set_ tr0_1 (lo16 (R (T01 + 4)) (R (T09 + 4)));
   Set_ tr0_2 (hi16 (R (T00 + 4)) (R (T08 + 4)));
   Set_ tr0_3 (hi16 (R (T01 + 4)) (R (T09 + 4)));
   Set_ tr0_4 (lo16 (R (T02 + 4)) (R (T10 + 4)));
   Set_ tr0_5 (lo16 (R (T03 + 4)) (R (T11 + 4)));
   Set_ tr0_6 (hi16 (R (T02 + 4)) (R (T10 + 4)));
   Set_ tr0_7 (hi16 (R (T03 + 4)) (R (T11 + 4)));
   Set_ tr1_0 (lo32 (R tr0_0) (R tr0_1));
   Set_ tr1_1 (lo32 (R tr0_2) (R tr0_3));
   Set_ tr1_2 (hi32 (R tr0_0) (R tr0_1));
   Set_ tr1_3 (hi32 (R tr0_2) (R tr0_3));
   Set_ tr1_4 (lo32 (R tr0_4) (R tr0_5));
   Set_ tr1_5 (lo32 (R tr0_6) (R tr0_7));
   Set_ tr1_6 (hi32 (R tr0_4) (R tr0_5));
   Set_ tr1_7 (hi32 (R tr0_6) (R tr0_7));
   Set_ V32 (lo64 (R tr1_0) (R tr1_4));
   Set_ V33 (hi64 (R tr1_0) (R tr1_4));
   Set_ V34 (lo64 (R tr1_2) (R tr1_6));
   Set_ V35 (hi64 (R tr1_2) (R tr1_6));
   Set_ V36 (lo64 (R tr1_1) (R tr1_5));
   Set_ V37 (hi64 (R tr1_1) (R tr1_5));
   Set_ V38 (lo64 (R tr1_3) (R tr1_7));
   Set_ V39 (hi64 (R tr1_3) (R tr1_7));
   Set_ tr0_0 (lo16 (R (T00 + 5)) (R (T08 + 5)));
   Set_ tr0_1 (lo16 (R (T01 + 5)) (R (T09 + 5)));
   Set_ tr0_2 (hi16 (R (T00 + 5)) (R (T08 + 5)));
   Set_ tr0_3 (hi16 (R (T01 + 5)) (R (T09 + 5)));
   Set_ tr0_4 (lo16 (R (T02 + 5)) (R (T10 + 5)));
   Set_ tr0_5 (lo16 (R (T03 + 5)) (R (T11 + 5)));
   Set_ tr0_6 (hi16 (R (T02 + 5)) (R (T10 + 5)));
   Set_ tr0_7 (hi16 (R (T03 + 5)) (R (T11 + 5)))]
  ++ [Set_ tr1_0 (lo32 (R tr0_0) (R tr0_1));
   Set_ tr1_1 (lo32 (R tr0_2) (R tr0_3));
   Set_ tr1_2 (hi32 (R tr0_0) (R tr0_1));
   Set_ tr1_3 (hi32 (R tr0_2) (R tr0_3));
   Set_ tr1_4 (lo32 (R tr0_4) (R tr0_5));
   Set_ tr1_5 (lo32 (R tr0_6) (R tr0_7));
   Set_ tr1_6 (hi32 (R tr0_4) (R tr0_5));
   Set_ tr1_7 (hi32 (R tr0_6) (R tr0_7));
   Set_ V40 (lo64 (R tr1_0) (R tr1_4));
   Set_ V41 (hi64 (R tr1_0) (R tr1_4));
   Set_ V42 (lo64 (R tr1_2) (R tr1_6));
   Set_ V43 (hi64 (R tr1_2) (R tr1_6));
   Set_ V44 (lo64 (R tr1_1) (R tr1_5));
   Set_ V45 (hi64 (R tr1_1) (R tr1_5));
   Set_ V46 (lo64 (R tr1_3) (R tr1_7));
   Set_ V47 (hi64 (R tr1_3) (R tr1_7));
   Set_ tr0_0 (lo16 (R (T00 + 6)) (R (T08 + 6)));
   Set_ tr0_1 (lo16 (R (T01 + 6)) (R (T09 + 6)));
   Set_ tr0_2 (hi16 (R (T00 + 6)) (R (T08 + 6)));
   Set_ tr0_3 (hi16 (R (T01 + 6)) (R (T09 + 6)));
   Set_ tr0_4 (lo16 (R (T02 + 6)) (R (T10 + 6)));
   Set_ tr0_5 (lo16 (R (T03 + 6)) (R (T11 + 6)));
   Set_ tr0_6 (hi16 (R (T02 + 6)) (R (T10 + 6)));
   Set_ tr0_7 (hi16 (R (T03 + 6)) (R (T11 + 6)));
   Set_ tr1_0 (lo32 (R tr0_0) (R tr0_1));
   Set_ tr1_1 (lo32 (R tr0_2) (R tr0_3));
   Set_ tr1_2 (hi32 (R tr0_0) (R tr0_1));
   Set_ tr1_3 (hi32 (R tr0_2) (R tr0_3));
   Set_ tr1_4 (lo32 (R tr0_4) (R tr0_5));
   Set_ tr1_5 (lo32 (R tr0_6) (R tr0_7));
   Set_ tr1_6 (hi32 (R tr0_4) (R tr0_5));
   Set_ tr1_7 (hi32 (R tr0_6) (R tr0_7));
   Set_ V48 (lo64 (R tr1_0) (R tr1_4));
   Set_ V49 (hi64 (R tr1_0) (R tr1_4));
   Set_ V50 (lo64 (R tr1_2) (R tr1_6));
   Set_ V51 (hi64 (R tr1_2) (R tr1_6));
   Set_ V52 (lo64 (R tr1_1) (R tr1_5));
   Set_ V53 (hi64 (R tr1_1) (R tr1_5));
   Set_ V54 (lo64 (R tr1_3) (R tr1_7));
   Set_ V55 (hi64 (R tr1_3) (R tr1_7));
   Set_ tr0_0 (lo16 (R (T00 + 7)) (R (T08 + 7)));
   Set_ tr0_1 (lo16 (R (T01 + 7)) (R (T09 + 7)));
   Set_ tr0_2 (hi16 (R (T00 + 7)) (R (T08 + 7)));
   Set_ tr0_3 (hi16 (R (T01 + 7)) (R (T09 + 7)));
   Set_ tr0_4 (lo16 (R (T02 + 7)) (R (T10 + 7)));
   Set_ tr0_5 (lo16 (R (T03 + 7)) (R (T11 + 7)));
   Set_ tr0_6 (hi16 (R (T02 + 7)) (R (T10 + 7)));
   Set_ tr0_7 (hi16 (R (T03 + 7)) (R (T11 + 7)));
   Set_ tr1_0 (lo32 (R tr0_0) (R tr0_1));
   Set_ tr1_1 (lo32 (R tr0_2) (R tr0_3));
   Set_ tr1_2 (hi32 (R tr0_0) (R tr0_1));
   Set_ tr1_3 (hi32 (R tr0_2) (R tr0_3));
   Set_ tr1_4 (lo32 (R tr0_4) (R tr0_5));
   Set_ tr1_5 (lo32 (R tr0_6) (R tr0_7));
   Set_ tr1_6 (hi32 (R tr0_4) (R tr0_5));
   Set_ tr1_7 (hi32 (R tr0_6) (R tr0_7));
   Set_ V56 (lo64 (R tr1_0) (R tr1_4));
   Set_ V57 (hi64 (R tr1_0) (R tr1_4));
   Set_ V58 (lo64 (R tr1_2) (R tr1_6));
   Set_ V59 (hi64 (R tr1_2) (R tr1_6));
   Set_ V60 (lo64 (R tr1_1) (R tr1_5));
   Set_ V61 (hi64 (R tr1_1) (R tr1_5));
   Set_ V62 (lo64 (R tr1_3) (R tr1_7));
   Set_ V63 (hi64 (R tr1_3) (R tr1_7))]
  ++ [Set_ tr0_0 (lo16 (R T04) (R T12));
   Set_ tr0_1 (lo16 (R T05) (R T13));
   Set_ tr0_2 (hi16 (R T04) (R T12));
   Set_ tr0_3 (hi16 (R T05) (R T13));
   Set_ tr0_4 (lo16 (R T06) (R T14));
   Set_ tr0_5 (lo16 (R T07) (R T15));
   Set_ tr0_6 (hi16 (R T06) (R T14));
   Set_ tr0_7 (hi16 (R T07) (R T15));
   Set_ tr1_0 (lo32 (R tr0_0) (R tr0_1));
   Set_ tr1_1 (lo32 (R tr0_2) (R tr0_3));
   Set_ tr1_2 (hi32 (R tr0_0) (R tr0_1));
   Set_ tr1_3 (hi32 (R tr0_2) (R tr0_3));
   Set_ tr1_4 (lo32 (R tr0_4) (R tr0_5));
   Set_ tr1_5 (lo32 (R tr0_6) (R tr0_7));
   Set_ tr1_6 (hi32 (R tr0_4) (R tr0_5));
   Set_ tr1_7 (hi32 (R tr0_6) (R tr0_7));
   Set_ (V00 + 1) (lo64 (R tr1_0) (R tr1_4));
   Set_ (V01 + 1) (hi64 (R tr1_0) (R tr1_4));
   Set_ (V02 + 1) (lo64 (R tr1_2) (R tr1_6));
   Set_ (V03 + 1) (hi64 (R tr1_2) (R tr1_6));
   Set_ (V04 + 1) (lo64 (R tr1_1) (R tr1_5));
   Set_ (V05 + 1) (hi64 (R tr1_1) (R tr1_5));
   Set_ (V06 + 1) (lo64 (R tr1_3) (R tr1_7));
   Set_ (V07 + 1) (hi64 (R tr1_3) (R tr1_7));
   Set_ tr0_0 (lo16 (R (T04 + 1)) (R (T12 + 1)));
   Set_ tr0_1 (lo16 (R (T05 + 1)) (R (T13 + 1)));
   Set_ tr0_2 (hi16 (R (T04 + 1)) (R (T12 + 1)));
   Set_ tr0_3 (hi16 (R (T05 + 1)) (R (T13 + 1)));
   Set_ tr0_4 (lo16 (R (T06 + 1)) (R (T14 + 1)));
   Set_ tr0_5 (lo16 (R (T07 + 1)) (R (T15 + 1)));
   Set_ tr0_6 (hi16 (R (T06 + 1)) (R (T14 + 1)));
   Set_ tr0_7 (hi16 (R (T07 + 1)) (R (T15 + 1)));
   Set_ tr1_0 (lo32 (R tr0_0) (R tr0_1));
   Set_ tr1_1 (lo32 (R tr0_2) (R tr0_3));
   Set_ tr1_2 (hi32 (R tr0_0) (R tr0_1));
   Set_ tr1_3 (hi32 (R tr0_2) (R tr0_3));
   Set_ tr1_4 (lo32 (R tr0_4) (R tr0_5));
   Set_ tr1_5 (lo32 (R tr0_6) (R tr0_7));
   Set_ tr1_6 (hi32 (R tr0_4) (R tr0_5));
   Set_ tr1_7 (hi32 (R tr0_6) (R tr0_7));
   Set_ (V08 + 1) (lo64 (R tr1_0) (R tr1_4));
   Set_ (V09 + 1) (hi64 (R tr1_0) (R tr1_4));
   Set_ (V10 + 1) (lo64 (R tr1_2) (R tr1_6));
   Set_ (V11 + 1) (hi64 (R tr1_2) (R tr1_6));
   Set_ (V12 + 1) (lo64 (R tr1_1) (R tr1_5));
   Set_ (V13 + 1) (hi64 (R tr1_1) (R tr1_5));
   Set_ (V14 + 1) (lo64 (R tr1_3) (R tr1_7));
   Set_ (V15 + 1) (hi64 (R tr1_3) (R tr1_7));
   Set_ tr0_0 (lo16 (R (T04 + 2)) (R (T12 + 2)));
   Set_ tr0_1 (lo16 (R (T05 + 2)) (R (T13 + 2)));
   Set_ tr0_2 (hi16 (R (T04 + 2)) (R (T12 + 2)));
   Set_ tr0_3 (hi16 (R (T05 + 2)) (R (T13 + 2)));
   Set_ tr0_4 (lo16 (R (T06 + 2)) (R (T14 + 2)));
   Set_ tr0_5 (lo16 (R (T07 + 2)) (R (T15 + 2)));
   Set_ tr0_6 (hi16 (R (T06 + 2)) (R (T14 + 2)));
   Set_ tr0_7 (hi16 (R (T07 + 2)) (R (T15 + 2)));
   Set_ tr1_0 (lo32 (R tr0_0) (R tr0_1));
   Set_ tr1_1 (lo32 (R tr0_2) (R tr0_3));
   Set_ tr1_2 (hi32 (R tr0_0) (R tr0_1));
   Set_ tr1_3 (hi32 (R tr0_2) (R tr0_3));
   Set_ tr1_4 (lo32 (R tr0_4) (R tr0_5));
   Set_ tr1_5 (lo32 (R tr0_6) (R tr0_7));
   Set_ tr1_6 (hi32 (R tr0_4) (R tr0_5));
   Set_ tr1_7 (hi32 (R tr0_6) (R tr0_7))]
  ++ [Set_ (V16 + 1) (lo64 (R tr1_0) (R tr1_4));
   Set_ (V17 + 1) (hi64 (R tr1_0) (R tr1_4));
   Set_ (V18 + 1) (lo64 (R tr1_2) (R tr1_6));
   Set_ (V19 + 1) (hi64 (R tr1_2) (R tr1_6));
   Set_ (V20 + 1) (lo64 (R tr1_1) (R tr1_5));
   Set_ (V21 + 1) (hi64 (R tr1_1) (R tr1_5));
   Set_ (V22 + 1) (lo64 (R tr1_3) (R tr1_7));
   Set_ (V23 + 1) (hi64 (R tr1_3) (R tr1_7));
   Set_ tr0_0 (lo16 (R (T04 + 3)) (R (T12 + 3)));
   Set_ tr0_1 (lo16 (R (T05 + 3)) (R (T13 + 3)));
   Set_ tr0_2 (hi16 (R (T04 + 3)) (R (T12 + 3)));
   Set_ tr0_3 (hi16 (R (T05 + 3)) (R (T13 + 3)));
   Set_ tr0_4 (lo16 (R (T06 + 3)) (R (T14 + 3)));
   Set_ tr0_5 (lo16 (R (T07 + 3)) (R (T15 + 3)));
   Set_ tr0_6 (hi16 (R (T06 + 3)) (R (T14 + 3)));
   Set_ tr0_7 (hi16 (R (T07 + 3)) (R (T15 + 3)));
   Set_ tr1_0 (lo32 (R tr0_0) (R tr0_1));
   Set_ tr1_1 (lo32 (R tr0_2) (R tr0_3));
   Set_ tr1_2 (hi32 (R tr0_0) (R tr0_1));
   Set_ tr1_3 (hi32 (R tr0_2) (R tr0_3));
   Set_ tr1_4 (lo32 (R tr0_4) (R tr0_5));
   Set_ tr1_5 (lo32 (R tr0_6) (R tr0_7));
   Set_ tr1_6 (hi32 (R tr0_4) (R tr0_5));
   Set_ tr1_7 (hi32 (R tr0_6) (R tr0_7));
   Set_ (V24 + 1) (lo64 (R tr1_0) (R tr1_4));
   Set_ (V25 + 1) (hi64 (R tr1_0) (R tr1_4));
   Set_ (V26 + 1) (lo64 (R tr1_2) (R tr1_6));
   Set_ (V27 + 1) (hi64 (R tr1_2) (R tr1_6));
   Set_ (V28 + 1) (lo64 (R tr1_1) (R tr1_5));
   Set_ (V29 + 1) (hi64 (R tr1_1) (R tr1_5));
   Set_ (V30 + 1) (lo64 (R tr1_3) (R tr1_7));
   Set_ (V31 + 1) (hi64 (R tr1_3) (R tr1_7));
   Set_ tr0_0 (lo16 (R (T04 + 4)) (R (T12 + 4)));
   Set_ tr0_1 (lo16 (R (T05 + 4)) (R (T13 + 4)));
   Set_ tr0_2 (hi16 (R (T04 + 4)) (R (T12 + 4)));
   Set_ tr0_3 (hi16 (R (T05 + 4)) (R (T13 + 4)));
   Set_ tr0_4 (lo16 (R (T06 + 4)) (R (T14 + 4)));
   Set_ tr0_5 (lo16 (R (T07 + 4)) (R (T15 + 4)));
   Set_ tr0_6 (hi16 (R (T06 + 4)) (R (T14 + 4)));
   Set_ tr0_7 (hi16 (R (T07 + 4)) (R (T15 + 4)));
   Set_ tr1_0 (lo32 (R tr0_0) (R tr0_1));
   Set_ tr1_1 (lo32 (R tr0_2) (R tr0_3));
   Set_ tr1_2 (hi32 (R tr0_0) (R tr0_1));
   Set_ tr1_3 (hi32 (R tr0_2) (R tr0_3));
   Set_ tr1_4 (lo32 (R tr0_4) (R tr0_5));
   Set_ tr1_5 (lo32 (R tr0_6) (R tr0_7));
   Set_ tr1_6 (hi32 (R tr0_4) (R tr0_5));
   Set_ tr1_7 (hi32 (R tr0_6) (R tr0_7));
   Set_ (V32 + 1) (lo64 (R tr1_0) (R tr1_4));
   Set_ (V33 + 1) (hi64 (R tr1_0) (R tr1_4));
   Set_ (V34 + 1) (lo64 (R tr1_2) (R tr1_6));
   Set_ (V35 + 1) (hi64 (R tr1_2) (R tr1_6));
   Set_ (V36 + 1) (lo64 (R tr1_1) (R tr1_5));
   Set_ (V37 + 1) (hi64 (R tr1_1) (R tr1_5));
   Set_ (V38 + 1) (lo64 (R tr1_3) (R tr1_7));
   Set_ (V39 + 1) (hi64 (R tr1_3) (R tr1_7));
   Set_ tr0_0 (lo16 (R (T04 + 5)) (R (T12 + 5)));
   Set_ tr0_1 (lo16 (R (T05 + 5)) (R (T13 + 5)));
   Set_ tr0_2 (hi16 (R (T04 + 5)) (R (T12 + 5)));
   Set_ tr0_3 (hi16 (R (T05 + 5)) (R (T13 + 5)));
   Set_ tr0_4 (lo16 (R (T06 + 5)) (R (T14 + 5)));
   Set_ tr0_5 (lo16 (R (T07 + 5)) (R (T15 + 5)));
   Set_ tr0_6 (hi16 (R (T06 + 5)) (R (T14 + 5)));
   Set_ tr0_7 (hi16 (R (T07 + 5)) (R (T15 + 5)))]
  ++ [Set_ tr1_0 (lo32 (R tr0_0) (R tr0_1));
   Set_ tr1_1 (lo32 (R tr0_2) (R tr0_3));
   Set_ tr1_2 (hi32 (R tr0_0) (R tr0_1));
   Set_ tr1_3 (hi32 (R tr0_2) (R tr0_3));
   Set_ tr1_4 (lo32 (R tr0_4) (R tr0_5));
   Set_ tr1_5 (lo32 (R tr0_6) (R tr0_7));
   Set_ tr1_6 (hi32 (R tr0_4) (R tr0_5));
   Set_ tr1_7 (hi32 (R tr0_6) (R tr0_7));
   Set_ (V40 + 1) (lo64 (R tr1_0) (R tr1_4));
   Set_ (V41 + 1) (hi64 (R tr1_0) (R tr1_4));
   Set_ (V42 + 1) (lo64 (R tr1_2) (R tr1_6));
   Set_ (V43 + 1) (hi64 (R tr1_2) (R tr1_6));
   Set_ (V44 + 1) (lo64 (R tr1_1) (R tr1_5));
   Set_ (V45 + 1) (hi64 (R tr1_1) (R tr1_5));
   Set_ (V46 + 1) (lo64 (R tr1_3) (R tr1_7));
   Set_ (V47 + 1) (hi64 (R tr1_3) (R tr1_7));
   Set_ tr0_0 (lo16 (R (T04 + 6)) (R (T12 + 6)));
   Set_ tr0_1 (lo16 (R (T05 + 6)) (R (T13 + 6)));
   Set_ tr0_2 (hi16 (R (T04 + 6)) (R (T12 + 6)));
   Set_ tr0_3 (hi16 (R (T05 + 6)) (R (T13 + 6)));
   Set_ tr0_4 (lo16 (R (T06 + 6)) (R (T14 + 6)));
   Set_ tr0_5 (lo16 (R (T07 + 6)) (R (T15 + 6)));
   Set_ tr0_6 (hi16 (R (T06 + 6)) (R (T14 + 6)));
   Set_ tr0_7 (hi16 (R (T07 + 6)) (R (T15 + 6)));
   Set_ tr1_0 (lo32 (R tr0_0) (R tr0_1));
   Set_ tr1_1 (lo32 (R tr0_2) (R tr0_3));
   Set_ tr1_2 (hi32 (R tr0_0) (R tr0_1));
   Set_ tr1_3 (hi32 (R tr0_2) (R tr0_3));
   Set_ tr1_4 (lo32 (R tr0_4) (R tr0_5));
   Set_ tr1_5 (lo32 (R tr0_6) (R tr0_7));
   Set_ tr1_6 (hi32 (R tr0_4) (R tr0_5));
   Set_ tr1_7 (hi32 (R tr0_6) (R tr0_7));
   Set_ (V48 + 1) (lo64 (R tr1_0) (R tr1_4));
   Set_ (V49 + 1) (hi64 (R tr1_0) (R tr1_4));
   Set_ (V50 + 1) (lo64 (R tr1_2) (R tr1_6));
   Set_ (V51 + 1) (hi64 (R tr1_2) (R tr1_6));
   Set_ (V52 + 1) (lo64 (R tr1_1) (R tr1_5));
   Set_ (V53 + 1) (hi64 (R tr1_1) (R tr1_5));
   Set_ (V54 + 1) (lo64 (R tr1_3) (R tr1_7));
   Set_ (V55 + 1) (hi64 (R tr1_3) (R tr1_7));
   Set_ tr0_0 (lo16 (R (T04 + 7)) (R (T12 + 7)));
   Set_ tr0_1 (lo16 (R (T05 + 7)) (R (T13 + 7)));
   Set_ tr0_2 (hi16 (R (T04 + 7)) (R (T12 + 7)));
   Set_ tr0_3 (hi16 (R (T05 + 7)) (R (T13 + 7)));
   Set_ tr0_4 (lo16 (R (T06 + 7)) (R (T14 + 7)));
   Set_ tr0_5 (lo16 (R (T07 + 7)) (R (T15 + 7)));
   Set_ tr0_6 (hi16 (R (T06 + 7)) (R (T14 + 7)));
   Set_ tr0_7 (hi16 (R (T07 + 7)) (R (T15 + 7)));
   Set_ tr1_0 (lo32 (R tr0_0) (R tr0_1));
   Set_ tr1_1 (lo32 (R tr0_2) (R tr0_3));
   Set_ tr1_2 (hi32 (R tr0_0) (R tr0_1));
   Set_ tr1_3 (hi32 (R tr0_2) (R tr0_3));
   Set_ tr1_4 (lo32 (R tr0_4) (R tr0_5));
   Set_ tr1_5 (lo32 (R tr0_6) (R tr0_7));
   Set_ tr1_6 (hi32 (R tr0_4) (R tr0_5));
   Set_ tr1_7 (hi32 (R tr0_6) (R tr0_7));
   Set_ (V56 + 1) (lo64 (R tr1_0) (R tr1_4));
   Set_ (V57 + 1) (hi64 (R tr1_0) (R tr1_4));
   Set_ (V58 + 1) (lo64 (R tr1_2) (R tr1_6));
   Set_ (V59 + 1) (hi64 (R tr1_2) (R tr1_6));
   Set_ (V60 + 1) (lo64 (R tr1_1) (R tr1_5));
   Set_ (V61 + 1) (hi64 (R tr1_1) (R tr1_5));
   Set_ (V62 + 1) (lo64 (R tr1_3) (R tr1_7));
   Set_ (V63 + 1) (hi64 (R tr1_3) (R tr1_7))]
  ++ loop 2 (fun i =>
    [St 8 0 0 (8 * i) (R (V00 + i));
     St 8 0 0 (8 * i + 16) (R (V01 + i));
     St 8 0 0 (8 * i + 32) (R (V02 + i));
     St 8 0 0 (8 * i + 48) (R (V03 + i));
     St 8 0 0 (8 * i + 64) (R (V04 + i));
     St 8 0 0 (8 * i + 80) (R (V05 + i));
     St 8 0 0 (8 * i + 96) (R (V06 + i));
     St 8 0 0 (8 * i + 112) (R (V07 + i));
     St 8 0 0 (8 * i + 128) (R (V08 + i));
     St 8 0 0 (8 * i + 144) (R (V09 + i));
     St 8 0 0 (8 * i + 160) (R (V10 + i));
     St 8 0 0 (8 * i + 176) (R (V11 + i));
     St 8 0 0 (8 * i + 192) (R (V12 + i));
     St 8 0 0 (8 * i + 208) (R (V13 + i));
     St 8 0 0 (8 * i + 224) (R (V14 + i));
     St 8 0 0 (8 * i + 240) (R (V15 + i));
     St 8 0 0 (8 * i + 256) (R (V16 + i));
     St 8 0 0 (8 * i + 272) (R (V17 + i));
     St 8 0 0 (8 * i + 288) (R (V18 + i));
     St 8 0 0 (8 * i + 304) (R (V19 + i));
     St 8 0 0 (8 * i + 320) (R (V20 + i));
     St 8 0 0 (8 * i + 336) (R (V21 + i));
     St 8 0 0 (8 * i + 352) (R (V22 + i));
     St 8 0 0 (8 * i + 368) (R (V23 + i));
     St 8 0 0 (8 * i + 384) (R (V24 + i));
     St 8 0 0 (8 * i + 400) (R (V25 + i));
     St 8 0 0 (8 * i + 416) (R (V26 + i));
     St 8 0 0 (8 * i + 432) (R (V27 + i));
     St 8 0 0 (8 * i + 448) (R (V28 + i));
     St 8 0 0 (8 * i + 464) (R (V29 + i));
     St 8 0 0 (8 * i + 480) (R (V30 + i));
     St 8 0 0 (8 * i + 496) (R (V31 + i));
     St 8 0 0 (8 * i + 512) (R (V32 + i));
     St 8 0 0 (8 * i + 528) (R (V33 + i));
     St 8 0 0 (8 * i + 544) (R (V34 + i));
     St 8 0 0 (8 * i + 560) (R (V35 + i));
     St 8 0 0 (8 * i + 576) (R (V36 + i));
     St 8 0 0 (8 * i + 592) (R (V37 + i));
     St 8 0 0 (8 * i + 608) (R (V38 + i));
     St 8 0 0 (8 * i + 624) (R (V39 + i));
     St 8 0 0 (8 * i + 640) (R (V40 + i));
     St 8 0 0 (8 * i + 656) (R (V41 + i));
     St 8 0 0 (8 * i + 672) (R (V42 + i));
     St 8 0 0 (8 * i + 688) (R (V43 + i));
     St 8 0 0 (8 * i + 704) (R (V44 + i));
     St 8 0 0 (8 * i + 720) (R (V45 + i));
     St 8 0 0 (8 * i + 736) (R (V46 + i));
     St 8 0 0 (8 * i + 752) (R (V47 + i));
     St 8 0 0 (8 * i + 768) (R (V48 + i));
     St 8 0 0 (8 * i + 784) (R (V49 + i));
     St 8 0 0 (8 * i + 800) (R (V50 + i));
     St 8 0 0 (8 * i + 816) (R (V51 + i));
     St 8 0 0 (8 * i + 832) (R (V52 + i));
     St 8 0 0 (8 * i + 848) (R (V53 + i));
     St 8 0 0 (8 * i + 864) (R (V54 + i));
     St 8 0 0 (8 * i + 880) (R (V55 + i));
     St 8 0 0 (8 * i + 896) (R (V56 + i));
     St 8 0 0 (8 * i + 912) (R (V57 + i));
     St 8 0 0 (8 * i + 928) (R (V58 + i));
     St 8 0 0 (8 * i + 944) (R (V59 + i));
     St 8 0 0 (8 * i + 960) (R (V60 + i));
     St 8 0 0 (8 * i + 976) (R (V61 + i));
     St 8 0 0 (8 * i + 992) (R (V62 + i));
     St 8 0 0 (8 * i + 1008) (R (V63 + i))]).

(** vec/intrinsic_idct.cc:7114-7391 [inv_wavelet_64x64_sse128]. *)
Definition inv_wavelet_64x64_sse128 : list ins :=
  let T00 := 1 in let T01 := 9 in let T02 := 17 in let T03 := 25 in let T04 := 33 in let T05 := 41 in let T06 := 49 in let T07 := 57 in
  let T08 := 65 in let T09 := 73 in let T10 := 81 in let T11 := 89 in let T12 := 97 in let T13 := 105 in let T14 := 113 in let T15 := 121 in
  let T16 := 129 in let T17 := 137 in let T18 := 145 in let T19 := 153 in let T20 := 161 in let T21 := 169 in let T22 := 177 in let T23 := 185 in
  let T24 := 193 in let T25 := 201 in let T26 := 209 in let T27 := 217 in let T28 := 225 in let T29 := 233 in let T30 := 241 in let T31 := 249 in
  let T32 := 257 in let T33 := 265 in let T34 := 273 in let T35 := 281 in let T36 := 289 in let T37 := 297 in let T38 := 305 in let T39 := 313 in
  let T40 := 321 in let T41 := 329 in let T42 := 337 in let T43 := 345 in let T44 := 353 in let T45 := 361 in let T46 := 369 in let T47 := 377 in
  let T48 := 385 in let T49 := 393 in let T50 := 401 in let T51 := 409 in let T52 := 417 in let T53 := 425 in let T54 := 433 in let T55 := 441 in
  let T56 := 449 in let T57 := 457 in let T58 := 465 in let T59 := 473 in let T60 := 481 in let T61 := 489 in let T62 := 497 in let T63 := 505 in
  let V00 := 513 in let V01 := 521 in let V02 := 529 in let V03 := 537 in let V04 := 545 in let V05 := 553 in let V06 := 561 in let V07 := 569 in
  let V08 := 577 in let V09 := 585 in let V10 := 593 in let V11 := 601 in let V12 := 609 in let V13 := 617 in let V14 := 625 in let V15 := 633 in
  let V16 := 641 in let V17 := 649 in let V18 := 657 in let V19 := 665 in let V20 := 673 in let V21 := 681 in let V22 := 689 in let V23 := 697 in
  let V24 := 705 in let V25 := 713 in let V26 := 721 in let V27 := 729 in let V28 := 737 in let V29 := 745 in let V30 := 753 in let V31 := 761 in
  let V32 := 769 in let V33 := 777 in let V34 := 785 in let V35 := 793 in let V36 := 801 in let V37 := 809 in let V38 := 817 in let V39 := 825 in
  let V40 := 833 in let V41 := 841 in let V42 := 849 in let V43 := 857 in let V44 := 865 in let V45 := 873 in let V46 := 881 in let V47 := 889 in
  let V48 := 897 in let V49 := 905 in let V50 := 913 in let V51 := 921 in let V52 := 929 in let V53 := 937 in let V54 := 945 in let V55 := 953 in
  let V56 := 961 in let V57 := 969 in let V58 := 977 in let V59 := 985 in let V60 := 993 in let V61 := 1001 in let V62 := 1009 in let V63 := 1017 in
  let tr0_0 := 1025 in let tr0_1 := 1026 in let tr0_2 := 1027 in let tr0_3 := 1028 in let tr0_4 := 1029 in let tr0_5 := 1030 in let tr0_6 := 1031 in
  let tr0_7 := 1032 in let tr1_0 := 1033 in let tr1_1 := 1034 in let tr1_2 := 1035 in let tr1_3 := 1036 in let tr1_4 := 1037 in let tr1_5 := 1038 in
  let tr1_6 := 1039 in let tr1_7 := 1040 in
  loop 4 (fun i =>
    [Set_ (T00 + i) (Sra16 (Ld 8 (8 * i)) (I 1));
     Set_ (T01 + i) (Sra16 (Ld 8 (8 * i + 32)) (I 1));
     Set_ (T02 + i) (Sra16 (Ld 8 (8 * i + 64)) (I 1));
     Set_ (T03 + i) (Sra16 (Ld 8 (8 * i + 96)) (I 1));
     Set_ (T04 + i) (Sra16 (Ld 8 (8 * i + 128)) (I 1));
     Set_ (T05 + i) (Sra16 (Ld 8 (8 * i + 160)) (I 1));
     Set_ (T06 + i) (Sra16 (Ld 8 (8 * i + 192)) (I 1));
     Set_ (T07 + i) (Sra16 (Ld 8 (8 * i + 224)) (I 1));
     Set_ (T08 + i) (Sra16 (Ld 8 (8 * i + 256)) (I 1));
     Set_ (T09 + i) (Sra16 (Ld 8 (8 * i + 288)) (I 1));
     Set_ (T10 + i) (Sra16 (Ld 8 (8 * i + 320)) (I 1));
     Set_ (T11 + i) (Sra16 (Ld 8 (8 * i + 352)) (I 1));
     Set_ (T12 + i) (Sra16 (Ld 8 (8 * i + 384)) (I 1));
     Set_ (T13 + i) (Sra16 (Ld 8 (8 * i + 416)) (I 1));
     Set_ (T14 + i) (Sra16 (Ld 8 (8 * i + 448)) (I 1));
     Set_ (T15 + i) (Sra16 (Ld 8 (8 * i + 480)) (I 1));
     Set_ (T16 + i) (Sra16 (Ld 8 (8 * i + 512)) (I 1));
     Set_ (T17 + i) (Sra16 (Ld 8 (8 * i + 544)) (I 1));
     Set_ (T18 + i) (Sra16 (Ld 8 (8 * i + 576)) (I 1));
     Set_ (T19 + i) (Sra16 (Ld 8 (8 * i + 608)) (I 1));
     Set_ (T20 + i) (Sra16 (Ld 8 (8 * i + 640)) (I 1));
     Set_ (T21 + i) (Sra16 (Ld 8 (8 * i + 672)) (I 1));
     Set_ (T22 + i) (Sra16 (Ld 8 (8 * i + 704)) (I 1));
     Set_ (T23 + i) (Sra16 (Ld 8 (8 * i + 736)) (I 1));
     Set_ (T24 + i) (Sra16 (Ld 8 (8 * i + 768)) (I 1));
     Set_ (T25 + i) (Sra16 (Ld 8 (8 * i + 800)) (I 1));
     Set_ (T26 + i) (Sra16 (Ld 8 (8 * i + 832)) (I 1));
     Set_ (T27 + i) (Sra16 (Ld 8 (8 * i + 864)) (I 1));
     Set_ (T28 + i) (Sra16 (Ld 8 (8 * i + 896)) (I 1));
     Set_ (T29 + i) (Sra16 (Ld 8 (8 * i + 928)) (I 1));
     Set_ (T30 + i) (Sra16 (Ld 8 (8 * i + 960)) (I 1));
     Set_ (T31 + i) (Sra16 (Ld 8 (8 * i + 992)) (I 1))])
  ++ loop 4 (fun i =>
    [Set_ (T32 + i) (Sra16 (add16 (R (T00 + i)) (R (T01 + i))) (I 1));
     Set_ (T33 + i) (Sra16 (add16 (R (T01 + i)) (R (T02 + i))) (I 1));
     Set_ (T34 + i) (Sra16 (add16 (R (T02 + i)) (R (T03 + i))) (I 1));
     Set_ (T35 + i) (Sra16 (add16 (R (T03 + i)) (R (T04 + i))) (I 1));
     Set_ (T36 + i) (Sra16 (add16 (R (T04 + i)) (R (T05 + i))) (I 1));
     Set_ (T37 + i) (Sra16 (add16 (R (T05 + i)) (R (T06 + i))) (I 1));
     Set_ (T38 + i) (Sra16 (add16 (R (T06 + i)) (R (T07 + i))) (I 1));
     Set_ (T39 + i) (Sra16 (add16 (R (T07 + i)) (R (T08 + i))) (I 1));
     Set_ (T40 + i) (Sra16 (add16 (R (T08 + i)) (R (T09 + i))) (I 1));
     Set_ (T41 + i) (Sra16 (add16 (R (T09 + i)) (R (T10 + i))) (I 1));
     Set_ (T42 + i) (Sra16 (add16 (R (T10 + i)) (R (T11 + i))) (I 1));
     Set_ (T43 + i) (Sra16 (add16 (R (T11 + i)) (R (T12 + i))) (I 1));
     Set_ (T44 + i) (Sra16 (add16 (R (T12 + i)) (R (T13 + i))) (I 1));
     Set_ (T45 + i) (Sra16 (add16 (R (T13 + i)) (R (T14 + i))) (I 1));
     Set_ (T46 + i) (Sra16 (add16 (R (T14 + i)) (R (T15 + i))) (I 1));
     Set_ (T47 + i) (Sra16 (add16 (R (T15 + i)) (R (T16 + i))) (I 1));
     Set_ (T48 + i) (Sra16 (add16 (R (T16 + i)) (R (T17 + i))) (I 1));
     Set_ (T49 + i) (Sra16 (add16 (R (T17 + i)) (R (T18 + i))) (I 1));
     Set_ (T50 + i) (Sra16 (add16 (R (T18 + i)) (R (T19 + i))) (I 1));
     Set_ (T51 + i) (Sra16 (add16 (R (T19 + i)) (R (T20 + i))) (I 1));
     Set_ (T52 + i) (Sra16 (add16 (R (T20 + i)) (R (T21 + i))) (I 1));
     Set_ (T53 + i) (Sra16 (add16 (R (T21 + i)) (R (T22 + i))) (I 1));
     Set_ (T54 + i) (Sra16 (add16 (R (T22 + i)) (R (T23 + i))) (I 1));
     Set_ (T55 + i) (Sra16 (add16 (R (T23 + i)) (R (T24 + i))) (I 1));
     Set_ (T56 + i) (Sra16 (add16 (R (T24 + i)) (R (T25 + i))) (I 1));
     Set_ (T57 + i) (Sra16 (add16 (R (T25 + i)) (R (T26 + i))) (I 1));
     Set_ (T58 + i) (Sra16 (add16 (R (T26 + i)) (R (T27 + i))) (I 1));
     Set_ (T59 + i) (Sra16 (add16 (R (T27 + i)) (R (T28 + i))) (I 1));
     Set_ (T60 + i) (Sra16 (add16 (R (T28 + i)) (R (T29 + i))) (I 1));
     Set_ (T61 + i) (Sra16 (add16 (R (T29 + i)) (R (T30 + i))) (I 1));
     Set_ (T62 + i) (Sra16 (add16 (R (T30 + i)) (R (T31 + i))) (I 1));
     Set_ (T63 + i) (Sra16 (add16 (R (T31 + i)) (R (T31 + i))) (I 1))])
  ++ [Set_ tr0_0 (lo16 (R T00) (R T32));
   Set_ tr0_1 (lo16 (R T01) (R T33));
   Set_ tr0_2 (hi16 (R T00) (R T32));
   Set_ tr0_3 (hi16 (R T01) (R T33));
   Set_ tr0_4 (lo16 (R T02) (R T34));
   Set_ tr0_5 (lo16 (R T03) (R T35));
   Set_ tr0_6 (hi16 (R T02) (R T34));
   Set_ tr0_7 (hi16 (R T03) (R T35));
   Set_ tr1_0 (lo32 (R tr0_0) (R tr0_1));
   Set_ tr1_1 (lo32 (R tr0_2) (R tr0_3));
   Set_ tr1_2 (hi32 (R tr0_0) (R tr0_1));
   Set_ tr1_3 (hi32 (R tr0_2) (R tr0_3));
   Set_ tr1_4 (lo32 (R tr0_4) (R tr0_5));
   Set_ tr1_5 (lo32 (R tr0_6) (R tr0_7));
   Set_ tr1_6 (hi32 (R tr0_4) (R tr0_5));
   Set_ tr1_7 (hi32 (R tr0_6) (R tr0_7));
   Set_ V00 (lo64 (R tr1_0) (R tr1_4));
   Set_ V01 (hi64 (R tr1_0) (R tr1_4));
   Set_ V02 (lo64 (R tr1_2) (R tr1_6));
   Set_ V03 (hi64 (R tr1_2) (R tr1_6));
   Set_ V04 (lo64 (R tr1_1) (R tr1_5));
   Set_ V05 (hi64 (R tr1_1) (R tr1_5));
   Set_ V06 (lo64 (R tr1_3) (R tr1_7));
   Set_ V07 (hi64 (R tr1_3) (R tr1_7));
   Set_ tr0_0 (lo16 (R T04) (R T36));
   Set_ tr0_1 (lo16 (R T05) (R T37));
   Set_ tr0_2 (hi16 (R T04) (R T36));
   Set_ tr0_3 (hi16 (R T05) (R T37));
   Set_ tr0_4 (lo16 (R T06) (R T38));
   Set_ tr0_5 (lo16 (R T07) (R T39));
   Set_ tr0_6 (hi16 (R T06) (R T38));
   Set_ tr0_7 (hi16 (R T07) (R T39));
   Set_ tr1_0 (lo32 (R tr0_0) (R tr0_1));
   Set_ tr1_1 (lo32 (R tr0_2) (R tr0_3));
   Set_ tr1_2 (hi32 (R tr0_0) (R tr0_1));
   Set_ tr1_3 (hi32 (R tr0_2) (R tr0_3));
   Set_ tr1_4 (lo32 (R tr0_4) (R tr0_5));
   Set_ tr1_5 (lo32 (R tr0_6) (R tr0_7));
   Set_ tr1_6 (hi32 (R tr0_4) (R tr0_5));
   Set_ tr1_7 (hi32 (R tr0_6) (R tr0_7));
   Set_ (V00 + 1) (lo64 (R tr1_0) (R tr1_4));
   Set_ (V01 + 1) (hi64 (R tr1_0) (R tr1_4));
   Set_ (V02 + 1) (lo64 (R tr1_2) (R tr1_6));
   Set_ (V03 + 1) (hi64 (R tr1_2) (R tr1_6));
   Set_ (V04 + 1) (lo64 (R tr1_1) (R tr1_5));
   Set_ (V05 + 1) (hi64 (R tr1_1) (R tr1_5));
   Set_ (V06 + 1) (lo64 (R tr1_3) (R tr1_7));
   Set_ (V07 + 1) (hi64 (R tr1_3) (R tr1_7));
   Set_ tr0_0 (lo16 (R (T00 + 1)) (R (T32 + 1)));
   Set_ tr0_1 (lo16 (R (T01 + 1)) (R (T33 + 1)));
   Set_ tr0_2 (hi16 (R (T00 + 1)) (R (T32 + 1)));
   Set_ tr0_3 (hi16 (R (T01 + 1)) (R (T33 + 1)));
   Set_ tr0_4 (lo16 (R (T02 + 1)) (R (T34 + 1)));
   Set_ tr0_5 (lo16 (R (T03 + 1)) (R (T35 + 1)));
   Set_ tr0_6 (hi16 (R (T02 + 1)) (R (T34 + 1)));
   Set_ tr0_7 (hi16 (R (T03 + 1)) (R (T35 + 1)));
   Set_ tr1_0 (lo32 (R tr0_0) (R tr0_1));
   Set_ tr1_1 (lo32 (R tr0_2) (R tr0_3));
   Set_ tr1_2 (hi32 (R tr0_0) (R tr0_1));
   Set_ tr1_3 (hi32 (R tr0_2) (R tr0_3));
   Set_ tr1_4 (lo32 (R tr0_4) (R tr0_5));
   Set_ tr1_5 (lo32 (R tr0_6) (R tr0_7));
   Set_ tr1_6 (hi32 (R tr0_4) (R tr0_5));
   Set_ tr1_7 (hi32 (R tr0_6) (R tr0_7))]
  ++ [Set_ V08 (lo64 (R tr1_0) (R tr1_4));
   Set_ V09 (hi64 (R tr1_0) (R tr1_4));
   Set_ V10 (lo64 (R tr1_2) (R tr1_6));
   Set_ V11 (hi64 (R tr1_2) (R tr1_6));
   Set_ V12 (lo64 (R tr1_1) (R tr1_5));
   Set_ V13 (hi64 (R tr1_1) (R tr1_5));
   Set_ V14 (lo64 (R tr1_3) (R tr1_7));
   Set_ V15 (hi64 (R tr1_3) (R tr1_7));
   Set_ tr0_0 (lo16 (R (T04 + 1)) (R (T36 + 1)));
   Set_ tr0_1 (lo16 (R (T05 + 1)) (R (T37 + 1)));
   Set_ tr0_2 (hi16 (R (T04 + 1)) (R (T36 + 1)));
   Set_ tr0_3 (hi16 (R (T05 + 1)) (R (T37 + 1)));
   Set_ tr0_4 (lo16 (R (T06 + 1)) (R (T38 + 1)));
   Set_ tr0_5 (lo16 (R (T07 + 1)) (R (T39 + 1)));
   Set_ tr0_6 (hi16 (R (T06 + 1)) (R (T38 + 1)));
   Set_ tr0_7 (hi16 (R (T07 + 1)) (R (T39 + 1)));
   Set_ tr1_0 (lo32 (R tr0_0) (R tr0_1));
   Set_ tr1_1 (lo32 (R tr0_2) (R tr0_3));
   Set_ tr1_2 (hi32 (R tr0_0) (R tr0_1));
   Set_ tr1_3 (hi32 (R tr0_2) (R tr0_3));
   Set_ tr1_4 (lo32 (R tr0_4) (R tr0_5));
   Set_ tr1_5 (lo32 (R tr0_6) (R tr0_7));
   Set_ tr1_6 (hi32 (R tr0_4) (R tr0_5));
   Set_ tr1_7 (hi32 (R tr0_6) (R tr0_7));
   Set_ (V08 + 1) (lo64 (R tr1_0) (R tr1_4));
   Set_ (V09 + 1) (hi64 (R tr1_0) (R tr1_4));
   Set_ (V10 + 1) (lo64 (R tr1_2) (R tr1_6));
   Set_ (V11 + 1) (hi64 (R tr1_2) (R tr1_6));
   Set_ (V12 + 1) (lo64 (R tr1_1) (R tr1_5));
   Set_ (V13 + 1) (hi64 (R tr1_1) (R tr1_5));
   Set_ (V14 + 1) (lo64 (R tr1_3) (R tr1_7));
   Set_ (V15 + 1) (hi64 (R tr1_3) (R tr1_7));
   Set_ tr0_0 (lo16 (R (T00 + 2)) (R (T32 + 2)));
   Set_ tr0_1 (lo16 (R (T01 + 2)) (R (T33 + 2)));
   Set_ tr0_2 (hi16 (R (T00 + 2)) (R (T32 + 2)));
   Set_ tr0_3 (hi16 (R (T01 + 2)) (R (T33 + 2)));
   Set_ tr0_4 (lo16 (R (T02 + 2)) (R (T34 + 2)));
   Set_ tr0_5 (lo16 (R (T03 + 2)) (R (T35 + 2)));
   Set_ tr0_6 (hi16 (R (T02 + 2)) (R (T34 + 2)));
   Set_ tr0_7 (hi16 (R (T03 + 2)) (R (T35 + 2)));
   Set_ tr1_0 (lo32 (R tr0_0) (R tr0_1));
   Set_ tr1_1 (lo32 (R tr0_2) (R tr0_3));
   Set_ tr1_2 (hi32 (R tr0_0) (R tr0_1));
   Set_ tr1_3 (hi32 (R tr0_2) (R tr0_3));
   Set_ tr1_4 (lo32 (R tr0_4) (R tr0_5));
   Set_ tr1_5 (lo32 (R tr0_6) (R tr0_7));
   Set_ tr1_6 (hi32 (R tr0_4) (R tr0_5));
   Set_ tr1_7 (hi32 (R tr0_6) (R tr0_7));
   Set_ V16 (lo64 (R tr1_0) (R tr1_4));
   Set_ V17 (hi64 (R tr1_0) (R tr1_4));
   Set_ V18 (lo64 (R tr1_2) (R tr1_6));
   Set_ V19 (hi64 (R tr1_2) (R tr1_6));
   Set_ V20 (lo64 (R tr1_1) (R tr1_5));
   Set_ V21 (hi64 (R tr1_1) (R tr1_5));
   Set_ V22 (lo64 (R tr1_3) (R tr1_7));
   Set_ V23 (hi64 (R tr1_3) (R tr1_7));
   Set_ tr0_0 (lo16 (R (T04 + 2)) (R (T36 + 2)));
   Set_ tr0_1 (lo16 (R (T05 + 2)) (R (T37 + 2)));
   Set_ tr0_2 (hi16 (R (T04 + 2)) (R (T36 + 2)));
   Set_ tr0_3 (hi16 (R (T05 + 2)) (R (T37 + 2)));
   Set_ tr0_4 (lo16 (R (T06 + 2)) (R (T38 + 2)));
   Set_ tr0_5 (lo16 (R (T07 + 2)) (R (T39 + 2)));
   Set_ tr0_6 (hi16 (R (T06 + 2)) (R (T38 + 2)));
   Set_ tr0_7 (hi16 (R (T07 + 2)) (R (T39 + 2)))]
  ++ [Set_ tr1_0 (lo32 (R tr0_0) (R tr0_1));
   Set_ tr1_1 (lo32 (R tr0_2) (R tr0_3));
   Set_ tr1_2 (hi32 (R tr0_0) (R tr0_1));
   Set_ tr1_3 (hi32 (R tr0_2) (R tr0_3));
   Set_ tr1_4 (lo32 (R tr0_4) (R tr0_5));
   Set_ tr1_5 (lo32 (R tr0_6) (R tr0_7));
   Set_ tr1_6 (hi32 (R tr0_4) (R tr0_5));
   Set_ tr1_7 (hi32 (R tr0_6) (R tr0_7));
   Set_ (V16 + 1) (lo64 (R tr1_0) (R tr1_4));
   Set_ (V17 + 1) (hi64 (R tr1_0) (R tr1_4));
   Set_ (V18 + 1) (lo64 (R tr1_2) (R tr1_6));
   Set_ (V19 + 1) (hi64 (R tr1_2) (R tr1_6));
   Set_ (V20 + 1) (lo64 (R tr1_1) (R tr1_5));
   Set_ (V21 + 1) (hi64 (R tr1_1) (R tr1_5));
   Set_ (V22 + 1) (lo64 (R tr1_3) (R tr1_7));
   Set_ (V23 + 1) (hi64 (R tr1_3) (R tr1_7));
   Set_ tr0_0 (lo16 (R (T00 + 3)) (R (T32 + 3)));
   Set_ tr0_1 (lo16 (R (T01 + 3)) (R (T33 + 3)));
   Set_ tr0_2 (hi16 (R (T00 + 3)) (R (T32 + 3)));
   Set_ tr0_3 (hi16 (R (T01 + 3)) (R (T33 + 3)));
   Set_ tr0_4 (lo16 (R (T02 + 3)) (R (T34 + 3)));
   Set_ tr0_5 (lo16 (R (T03 + 3)) (R (T35 + 3)));
   Set_ tr0_6 (hi16 (R (T02 + 3)) (R (T34 + 3)));
   Set_ tr0_7 (hi16 (R (T03 + 3)) (R (T35 + 3)));
   Set_ tr1_0 (lo32 (R tr0_0) (R tr0_1));
   Set_ tr1_1 (lo32 (R tr0_2) (R tr0_3));
   Set_ tr1_2 (hi32 (R tr0_0) (R tr0_1));
   Set_ tr1_3 (hi32 (R tr0_2) (R tr0_3));
   Set_ tr1_4 (lo32 (R tr0_4) (R tr0_5));
   Set_ tr1_5 (lo32 (R tr0_6) (R tr0_7));
   Set_ tr1_6 (hi32 (R tr0_4) (R tr0_5));
   Set_ tr1_7 (hi32 (R tr0_6) (R tr0_7));
   Set_ V24 (lo64 (R tr1_0) (R tr1_4));
   Set_ V25 (hi64 (R tr1_0) (R tr1_4));
   Set_ V26 (lo64 (R tr1_2) (R tr1_6));
   Set_ V27 (hi64 (R tr1_2) (R tr1_6));
   Set_ V28 (lo64 (R tr1_1) (R tr1_5));
   Set_ V29 (hi64 (R tr1_1) (R tr1_5));
   Set_ V30 (lo64 (R tr1_3) (R tr1_7));
   Set_ V31 (hi64 (R tr1_3) (R tr1_7));
   Set_ tr0_0 (lo16 (R (T04 + 3)) (R (T36 + 3)));
   Set_ tr0_1 (lo16 (R (T05 + 3)) (R (T37 + 3)));
   Set_ tr0_2 (hi16 (R (T04 + 3)) (R (T36 + 3)));
   Set_ tr0_3 (hi16 (R (T05 + 3)) (R (T37 + 3)));
   Set_ tr0_4 (lo16 (R (T06 + 3)) (R (T38 + 3)));
   Set_ tr0_5 (lo16 (R (T07 + 3)) (R (T39 + 3)));
   Set_ tr0_6 (hi16 (R (T06 + 3)) (R (T38 + 3)));
   Set_ tr0_7 (hi16 (R (T07 + 3)) (R (T39 + 3)));
   Set_ tr1_0 (lo32 (R tr0_0) (R tr0_1));
   Set_ tr1_1 (lo32 (R tr0_2) (R tr0_3));
   Set_ tr1_2 (hi32 (R tr0_0) (R tr0_1));
   Set_ tr1_3 (hi32 (R tr0_2) (R tr0_3));
   Set_ tr1_4 (lo32 (R tr0_4) (R tr0_5));
   Set_ tr1_5 (lo32 (R tr0_6) (R tr0_7));
   Set_ tr1_6 (hi32 (R tr0_4) (R tr0_5));
   Set_ tr1_7 (hi32 (R tr0_6) (R tr0_7));
   Set_ (V24 + 1) (lo64 (R tr1_0) (R tr1_4));
   Set_ (V25 + 1) (hi64 (R tr1_0) (R tr1_4));
   Set_ (V26 + 1) (lo64 (R tr1_2) (R tr1_6));
   Set_ (V27 + 1) (hi64 (R tr1_2) (R tr1_6));
   Set_ (V28 + 1) (lo64 (R tr1_1) (R tr1_5));
   Set_ (V29 + 1) (hi64 (R tr1_1) (R tr1_5));
   Set_ (V30 + 1) (lo64 (R tr1_3) (R tr1_7));
   Set_ (V31 + 1) (hi64 (R tr1_3) (R tr1_7))]
  ++ [Set_ tr0_0 (lo16 (R T08) (R T40));
   Set_ tr0_1 (lo16 (R T09) (R T41));
   Set_ tr0_2 (hi16 (R T08) (R T40));
   Set_ tr0_3 (hi16 (R T09) (R T41));
   Set_ tr0_4 (lo16 (R T10) (R T42));
   Set_ tr0_5 (lo16 (R T11) (R T43));
   Set_ tr0_6 (hi16 (R T10) (R T42));
   Set_ tr0_7 (hi16 (R T11) (R T43));
   Set_ tr1_0 (lo32 (R tr0_0) (R tr0_1));
   Set_ tr1_1 (lo32 (R tr0_2) (R tr0_3));
   Set_ tr1_2 (hi32 (R tr0_0) (R tr0_1));
   Set_ tr1_3 (hi32 (R tr0_2) (R tr0_3));
   Set_ tr1_4 (lo32 (R tr0_4) (R tr0_5));
   Set_ tr1_5 (lo32 (R tr0_6) (R tr0_7));
   Set_ tr1_6 (hi32 (R tr0_4) (R tr0_5));
   Set_ tr1_7 (hi32 (R tr0_6) (R tr0_7));
   Set_ (V00 + 2) (lo64 (R tr1_0) (R tr1_4));
   Set_ (V01 + 2) (hi64 (R tr1_0) (R tr1_4));
   Set_ (V02 + 2) (lo64 (R tr1_2) (R tr1_6));
   Set_ (V03 + 2) (hi64 (R tr1_2) (R tr1_6));
   Set_ (V04 + 2) (lo64 (R tr1_1) (R tr1_5));
   Set_ (V05 + 2) (hi64 (R tr1_1) (R tr1_5));
   Set_ (V06 + 2) (lo64 (R tr1_3) (R tr1_7));
   Set_ (V07 + 2) (hi64 (R tr1_3) (R tr1_7));
   Set_ tr0_0 (lo16 (R T12) (R T44));
   Set_ tr0_1 (lo16 (R T13) (R T45));
   Set_ tr0_2 (hi16 (R T12) (R T44));
   Set_ tr0_3 (hi16 (R T13) (R T45));
   Set_ tr0_4 (lo16 (R T14) (R T46));
   Set_ tr0_5 (lo16 (R T15) (R T47));
   Set_ tr0_6 (hi16 (R T14) (R T46));
   Set_ tr0_7 (hi16 (R T15) (R T47));
   Set_ tr1_0 (lo32 (R tr0_0) (R tr0_1));
   Set_ tr1_1 (lo32 (R tr0_2) (R tr0_3));
   Set_ tr1_2 (hi32 (R tr0_0) (R tr0_1));
   Set_ tr1_3 (hi32 (R tr0_2) (R tr0_3));
   Set_ tr1_4 (lo32 (R tr0_4) (R tr0_5));
   Set_ tr1_5 (lo32 (R tr0_6) (R tr0_7));
   Set_ tr1_6 (hi32 (R tr0_4) (R tr0_5));
   Set_ tr1_7 (hi32 (R tr0_6) (R tr0_7));
   Set_ (V00 + 3) (lo64 (R tr1_0) (R tr1_4));
   Set_ (V01 + 3) (hi64 (R tr1_0) (R tr1_4));
   Set_ (V02 + 3) (lo64 (R tr1_2) (R tr1_6));
   Set_ (V03 + 3) (hi64 (R tr1_2) (R tr1_6));
   Set_ (V04 + 3) (lo64 (R tr1_1) (R tr1_5));
   Set_ (V05 + 3) (hi64 (R tr1_1) (R tr1_5));
   Set_ (V06 + 3) (lo64 (R tr1_3) (R tr1_7));
   Set_ (V07 + 3) (hi64 (R tr1_3) (R tr1_7));
   Set_ tr0_0 (lo16 (R (T08 + 1)) (R (T40 + 1)));
   Set_ tr0_1 (lo16 (R (T09 + 1)) (R (T41 + 1)));
   Set_ tr0_2 (hi16 (R (T08 + 1)) (R (T40 + 1)));
   Set_ tr0_3 (hi16 (R (T09 + 1)) (R (T41 + 1)));
   Set_ tr0_4 (lo16 (R (T10 + 1)) (R (T42 + 1)));
   Set_ tr0_5 (lo16 (R (T11 + 1)) (R (T43 + 1)));
   Set_ tr0_6 (hi16 (R (T10 + 1)) (R (T42 + 1)));
   Set_ tr0_7 (hi16 (R (T11 + 1)) (R (T43 + 1)));
   Set_ tr1_0 (lo32 (R tr0_0) (R tr0_1));
   Set_ tr1_1 (lo32 (R tr0_2) (R tr0_3));
   Set_ tr1_2 (hi32 (R tr0_0) (R tr0_1));
   Set_ tr1_3 (hi32 (R tr0_2) (R tr0_3));
   Set_ tr1_4 (lo32 (R tr0_4) (R tr0_5));
   Set_ tr1_5 (lo32 (R tr0_6) (R tr0_7));
   Set_ tr1_6 (hi32 (R tr0_4) (R tr0_5));
   Set_ tr1_7 (hi32 (R tr0_6) (R tr0_7))]
  ++ [Set_ (V08 + 2) (lo64 (R tr1_0) (R tr1_4));
   Set_ (V09 + 2) (hi64 (R tr1_0) (R tr1_4));
   Set_ (V10 + 2) (lo64 (R tr1_2) (R tr1_6));
   Set_ (V11 + 2) (hi64 (R tr1_2) (R tr1_6));
   Set_ (V12 + 2) (lo64 (R tr1_1) (R tr1_5));
   Set_ (V13 + 2) (hi64 (R tr1_1) (R tr1_5));
   Set_ (V14 + 2) (lo64 (R tr1_3) (R tr1_7));
   Set_ (V15 + 2) (hi64 (R tr1_3) (R tr1_7));
   Set_ tr0_0 (lo16 (R (T12 + 1)) (R (T44 + 1)));
   Set_ tr0_1 (lo16 (R (T13 + 1)) (R (T45 + 1)));
   Set_ tr0_2 (hi16 (R (T12 + 1)) (R (T44 + 1)));
   Set_ tr0_3 (hi16 (R (T13 + 1)) (R (T45 + 1)));
   Set_ tr0_4 (lo16 (R (T14 + 1)) (R (T46 + 1)));
   Set_ tr0_5 (lo16 (R (T15 + 1)) (R (T47 + 1)));
   Set_ tr0_6 (hi16 (R (T14 + 1)) (R (T46 + 1)));
   Set_ tr0_7 (hi16 (R (T15 + 1)) (R (T47 + 1)));
   Set_ tr1_0 (lo32 (R tr0_0) (R tr0_1));
   Set_ tr1_1 (lo32 (R tr0_2) (R tr0_3));
   Set_ tr1_2 (hi32 (R tr0_0) (R tr0_1));
   Set_ tr1_3 (hi32 (R tr0_2) (R tr0_3));
   Set_ tr1_4 (lo32 (R tr0_4) (R tr0_5));
   Set_ tr1_5 (lo32 (R tr0_6) (R tr0_7));
   Set_ tr1_6 (hi32 (R tr0_4) (R tr0_5));
   Set_ tr1_7 (hi32 (R tr0_6) (R tr0_7));
   Set_ (V08 + 3) (lo64 (R tr1_0) (R tr1_4));
   Set_ (V09 + 3) (hi64 (R tr1_0) (R tr1_4));
   Set_ (V10 + 3) (lo64 (R tr1_2) (R tr1_6));
   Set_ (V11 + 3) (hi64 (R tr1_2) (R tr1_6));
   Set_ (V12 + 3) (lo64 (R tr1_1) (R tr1_5));
   Set_ (V13 + 3) (hi64 (R tr1_1) (R tr1_5));
   Set_ (V14 + 3) (lo64 (R tr1_3) (R tr1_7));
   Set_ (V15 + 3) (hi64 (R tr1_3) (R tr1_7));
   Set_ tr0_0 (lo16 (R (T08 + 2)) (R (T40 + 2)));
   Set_ tr0_1 (lo16 (R (T09 + 2)) (R (T41 + 2)));
   Set_ tr0_2 (hi16 (R (T08 + 2)) (R (T40 + 2)));
   Set_ tr0_3 (hi16 (R (T09 + 2)) (R (T41 + 2)));
   Set_ tr0_4 (lo16 (R (T10 + 2)) (R (T42 + 2)));
   Set_ tr0_5 (lo16 (R (T11 + 2)) (R (T43 + 2)));
   Set_ tr0_6 (hi16 (R (T10 + 2)) (R (T42 + 2)));
   Set_ tr0_7 (hi16 (R (T11 + 2)) (R (T43 + 2)));
   Set_ tr1_0 (lo32 (R tr0_0) (R tr0_1));
   Set_ tr1_1 (lo32 (R tr0_2) (R tr0_3));
   Set_ tr1_2 (hi32 (R tr0_0) (R tr0_1));
   Set_ tr1_3 (hi32 (R tr0_2) (R tr0_3));
   Set_ tr1_4 (lo32 (R tr0_4) (R tr0_5));
   Set_ tr1_5 (lo32 (R tr0_6) (R tr0_7));
   Set_ tr1_6 (hi32 (R tr0_4) (R tr0_5));
   Set_ tr1_7 (hi32 (R tr0_6) (R tr0_7));
   Set_ (V16 + 2) (lo64 (R tr1_0) (R tr1_4));
   Set_ (V17 + 2) (hi64 (R tr1_0) (R tr1_4));
   Set_ (V18 + 2) (lo64 (R tr1_2) (R tr1_6));
   Set_ (V19 + 2) (hi64 (R tr1_2) (R tr1_6));
   Set_ (V20 + 2) (lo64 (R tr1_1) (R tr1_5));
   Set_ (V21 + 2) (hi64 (R tr1_1) (R tr1_5));
   Set_ (V22 + 2) (lo64 (R tr1_3) (R tr1_7));
   Set_ (V23 + 2) (hi64 (R tr1_3) (R tr1_7));
   Set_ tr0_0 (lo16 (R (T12 + 2)) (R (T44 + 2)));
   Set_ tr0_1 (lo16 (R (T13 + 2)) (R (T45 + 2)));
   Set_ tr0_2 (hi16 (R (T12 + 2)) (R (T44 + 2)));
   Set_ tr0_3 (hi16 (R (T13 + 2)) (R (T45 + 2)));
   Set_ tr0_4 (lo16 (R (T14 + 2)) (R (T46 + 2)));
   Set_ tr0_5 (lo16 (R (T15 + 2)) (R (T47 + 2)));
   Set_ tr0_6 (hi16 (R (T14 + 2)) (R (T46 + 2)));
   Set_ tr0_7 (hi16 (R (T15 + 2)) (R (T47 + 2)))]
  ++ [Set_ tr1_0 (lo32 (R tr0_0) (R tr0_1));
   Set_ tr1_1 (lo32 (R tr0_2) (R tr0_3));
   Set_ tr1_2 (hi32 (R tr0_0) (R tr0_1));
   Set_ tr1_3 (hi32 (R tr0_2) (R tr0_3));
   Set_ tr1_4 (lo32 (R tr0_4) (R tr0_5));
   Set_ tr1_5 (lo32 (R tr0_6) (R tr0_7));
   Set_ tr1_6 (hi32 (R tr0_4) (R tr0_5));
   Set_ tr1_7 (hi32 (R tr0_6) (R tr0_7));
   Set_ (V16 + 3) (lo64 (R tr1_0) (R tr1_4));
   Set_ (V17 + 3) (hi64 (R tr1_0) (R tr1_4));
   Set_ (V18 + 3) (lo64 (R tr1_2) (R tr1_6));
   Set_ (V19 + 3) (hi64 (R tr1_2) (R tr1_6));
   Set_ (V20 + 3) (lo64 (R tr1_1) (R tr1_5));
   Set_ (V21 + 3) (hi64 (R tr1_1) (R tr1_5));
   Set_ (V22 + 3) (lo64 (R tr1_3) (R tr1_7));
   Set_ (V23 + 3) (hi64 (R tr1_3) (R tr1_7));
   Set_ tr0_0 (lo16 (R (T08 + 3)) (R (T40 + 3)));
   Set_ tr0_1 (lo16 (R (T09 + 3)) (R (T41 + 3)));
   Set_ tr0_2 (hi16 (R (T08 + 3)) (R (T40 + 3)));
   Set_ tr0_3 (hi16 (R (T09 + 3)) (R (T41 + 3)));
   Set_ tr0_4 (lo16 (R (T10 + 3)) (R (T42 + 3)));
   Set_ tr0_5 (lo16 (R (T11 + 3)) (R (T43 + 3)));
   Set_ tr0_6 (hi16 (R (T10 + 3)) (R (T42 + 3)));
   Set_ tr0_7 (hi16 (R (T11 + 3)) (R (T43 + 3)));
   Set_ tr1_0 (lo32 (R tr0_0) (R tr0_1));
   Set_ tr1_1 (lo32 (R tr0_2) (R tr0_3));
   Set_ tr1_2 (hi32 (R tr0_0) (R tr0_1));
   Set_ tr1_3 (hi32 (R tr0_2) (R tr0_3));
   Set_ tr1_4 (lo32 (R tr0_4) (R tr0_5));
   Set_ tr1_5 (lo32 (R tr0_6) (R tr0_7));
   Set_ tr1_6 (hi32 (R tr0_4) (R tr0_5));
   Set_ tr1_7 (hi32 (R tr0_6) (R tr0_7));
   Set_ (V24 + 2) (lo64 (R tr1_0) (R tr1_4));
   Set_ (V25 + 2) (hi64 (R tr1_0) (R tr1_4));
   Set_ (V26 + 2) (lo64 (R tr1_2) (R tr1_6));
   Set_ (V27 + 2) (hi64 (R tr1_2) (R tr1_6));
   Set_ (V28 + 2) (lo64 (R tr1_1) (R tr1_5));
   Set_ (V29 + 2) (hi64 (R tr1_1) (R tr1_5));
   Set_ (V30 + 2) (lo64 (R tr1_3) (R tr1_7));
   Set_ (V31 + 2) (hi64 (R tr1_3) (R tr1_7));
   Set_ tr0_0 (lo16 (R (T12 + 3)) (R (T44 + 3)));
   Set_ tr0_1 (lo16 (R (T13 + 3)) (R (T45 + 3)));
   Set_ tr0_2 (hi16 (R (T12 + 3)) (R (T44 + 3)));
   Set_ tr0_3 (hi16 (R (T13 + 3)) (R (T45 + 3)));
   Set_ tr0_4 (lo16 (R (T14 + 3)) (R (T46 + 3)));
   Set_ tr0_5 (lo16 (R (T15 + 3)) (R (T47 + 3)));
   Set_ tr0_6 (hi16 (R (T14 + 3)) (R (T46 + 3)));
   Set_ tr0_7 (hi16 (R (T15 + 3)) (R (T47 + 3)));
   Set_ tr1_0 (lo32 (R tr0_0) (R tr0_1));
   Set_ tr1_1 (lo32 (R tr0_2) (R tr0_3));
   Set_ tr1_2 (hi32 (R tr0_0) (R tr0_1));
   Set_ tr1_3 (hi32 (R tr0_2) (R tr0_3));
   Set_ tr1_4 (lo32 (R tr0_4) (R tr0_5));
   Set_ tr1_5 (lo32 (R tr0_6) (R tr0_7));
   Set_ tr1_6 (hi32 (R tr0_4) (R tr0_5));
   Set_ tr1_7 (hi32 (R tr0_6) (R tr0_7));
   Set_ (V24 + 3) (lo64 (R tr1_0) (R tr1_4));
   Set_ (V25 + 3) (hi64 (R tr1_0) (R tr1_4));
   Set_ (V26 + 3) (lo64 (R tr1_2) (R tr1_6));
   Set_ (V27 + 3) (hi64 (R tr1_2) (R tr1_6));
   Set_ (V28 + 3) (lo64 (R tr1_1) (R tr1_5));
   Set_ (V29 + 3) (hi64 (R tr1_1) (R tr1_5));
   Set_ (V30 + 3) (lo64 (R tr1_3) (R tr1_7));
   Set_ (V31 + 3) (hi64 (R tr1_3) (R tr1_7))]
  ++ [Set_ tr0_0 (lo16 (R T16) (R T48));
   Set_ tr0_1 (lo16 (R T17) (R T49));
   Set_ tr0_2 (hi16 (R T16) (R T48));
   Set_ tr0_3 (hi16 (R T17) (R T49));
   Set_ tr0_4 (lo16 (R T18) (R T50));
   Set_ tr0_5 (lo16 (R T19) (R T51));
   Set_ tr0_6 (hi16 (R T18) (R T50));
   Set_ tr0_7 (hi16 (R T19) (R T51));
   Set_ tr1_0 (lo32 (R tr0_0) (R tr0_1));
   Set_ tr1_1 (lo32 (R tr0_2) (R tr0_3));
   Set_ tr1_2 (hi32 (R tr0_0) (R tr0_1));
   Set_ tr1_3 (hi32 (R tr0_2) (R tr0_3));
   Set_ tr1_4 (lo32 (R tr0_4) (R tr0_5));
   Set_ tr1_5 (lo32 (R tr0_6) (R tr0_7));
   Set_ tr1_6 (hi32 (R tr0_4) (R tr0_5));
   Set_ tr1_7 (hi32 (R tr0_6) (R tr0_7));
   Set_ (V00 + 4) (lo64 (R tr1_0) (R tr1_4));
   Set_ (V01 + 4) (hi64 (R tr1_0) (R tr1_4));
   Set_ (V02 + 4) (lo64 (R tr1_2) (R tr1_6));
   Set_ (V03 + 4) (hi64 (R tr1_2) (R tr1_6));
   Set_ (V04 + 4) (lo64 (R tr1_1) (R tr1_5));
   Set_ (V05 + 4) (hi64 (R tr1_1) (R tr1_5));
   Set_ (V06 + 4) (lo64 (R tr1_3) (R tr1_7));
   Set_ (V07 + 4) (hi64 (R tr1_3) (R tr1_7));
   Set_ tr0_0 (lo16 (R T20) (R T52));
   Set_ tr0_1 (lo16 (R T21) (R T53));
   Set_ tr0_2 (hi16 (R T20) (R T52));
   Set_ tr0_3 (hi16 (R T21) (R T53));
   Set_ tr0_4 (lo16 (R T22) (R T54));
   Set_ tr0_5 (lo16 (R T23) (R T55));
   Set_ tr0_6 (hi16 (R T22) (R T54));
   Set_ tr0_7 (hi16 (R T23) (R T55));
   Set_ tr1_0 (lo32 (R tr0_0) (R tr0_1));
   Set_ tr1_1 (lo32 (R tr0_2) (R tr0_3));
   Set_ tr1_2 (hi32 (R tr0_0) (R tr0_1));
   Set_ tr1_3 (hi32 (R tr0_2) (R tr0_3));
   Set_ tr1_4 (lo32 (R tr0_4) (R tr0_5));
   Set_ tr1_5 (lo32 (R tr0_6) (R tr0_7));
   Set_ tr1_6 (hi32 (R tr0_4) (R tr0_5));
   Set_ tr1_7 (hi32 (R tr0_6) (R tr0_7));
   Set_ (V00 + 5) (lo64 (R tr1_0) (R tr1_4));
   Set_ (V01 + 5) (hi64 (R tr1_0) (R tr1_4));
   Set_ (V02 + 5) (lo64 (R tr1_2) (R tr1_6));
   Set_ (V03 + 5) (hi64 (R tr1_2) (R tr1_6));
   Set_ (V04 + 5) (lo64 (R tr1_1) (R tr1_5));
   Set_ (V05 + 5) (hi64 (R tr1_1) (R tr1_5));
   Set_ (V06 + 5) (lo64 (R tr1_3) (R tr1_7));
   Set_ (V07 + 5) (hi64 (R tr1_3) (R tr1_7));
   Set_ tr0_0 (lo16 (R (T16 + 1)) (R (T48 + 1)));
   Set_ tr0_1 (lo16 (R (T17 + 1)) (R (T49 + 1)));
   Set_ tr0_2 (hi16 (R (T16 + 1)) (R (T48 + 1)));
   Set_ tr0_3 (hi16 (R (T17 + 1)) (R (T49 + 1)));
   Set_ tr0_4 (lo16 (R (T18 + 1)) (R (T50 + 1)));
   Set_ tr0_5 (lo16 (R (T19 + 1)) (R (T51 + 1)));
   Set_ tr0_6 (hi16 (R (T18 + 1)) (R (T50 + 1)));
   Set_ tr0_7 (hi16 (R (T19 + 1)) (R (T51 + 1)));
   Set_ tr1_0 (lo32 (R tr0_0) (R tr0_1));
   Set_ tr1_1 (lo32 (R tr0_2) (R tr0_3));
   Set_ tr1_2 (hi32 (R tr0_0) (R tr0_1));
   Set_ tr1_3 (hi32 (R tr0_2) (R tr0_3));
   Set_ tr1_4 (lo32 (R tr0_4) (R tr0_5));
   Set_ tr1_5 (lo32 (R tr0_6) (R tr0_7));
   Set_ tr1_6 (hi32 (R tr0_4) (R tr0_5));
   Set_ tr1_7 (hi32 (R tr0_6) (R tr0_7))]
  ++ [Set_ (V08 + 4) (lo64 (R tr1_0) (R tr1_4));
   Set_ (V09 + 4) (hi64 (R tr1_0) (R tr1_4));
   Set_ (V10 + 4) (lo64 (R tr1_2) (R tr1_6));
   Set_ (V11 + 4) (hi64 (R tr1_2) (R tr1_6));
   Set_ (V12 + 4) (lo64 (R tr1_1) (R tr1_5));
   Set_ (V13 + 4) (hi64 (R tr1_1) (R tr1_5));
   Set_ (V14 + 4) (lo64 (R tr1_3) (R tr1_7));
   Set_ (V15 + 4) (hi64 (R tr1_3) (R tr1_7));
   Set_ tr0_0 (lo16 (R (T20 + 1)) (R (T52 + 1)));
   Set_ tr0_1 (lo16 (R (T21 + 1)) (R (T53 + 1)));
   Set_ tr0_2 (hi16 (R (T20 + 1)) (R (T52 + 1)));
   Set_ tr0_3 (hi16 (R (T21 + 1)) (R (T53 + 1)));
   Set_ tr0_4 (lo16 (R (T22 + 1)) (R (T54 + 1)));
   Set_ tr0_5 (lo16 (R (T23 + 1)) (R (T55 + 1)));
   Set_ tr0_6 (hi16 (R (T22 + 1)) (R (T54 + 1)));
   Set_ tr0_7 (hi16 (R (T23 + 1)) (R (T55 + 1)));
   Set_ tr1_0 (lo32 (R tr0_0) (R tr0_1));
   Set_ tr1_1 (lo32 (R tr0_2) (R tr0_3));
   Set_ tr1_2 (hi32 (R tr0_0) (R tr0_1));
   Set_ tr1_3 (hi32 (R tr0_2) (R tr0_3));
   Set_ tr1_4 (lo32 (R tr0_4) (R tr0_5));
   Set_ tr1_5 (lo32 (R tr0_6) (R tr0_7));
   Set_ tr1_6 (hi32 (R tr0_4) (R tr0_5));
   Set_ tr1_7 (hi32 (R tr0_6) (R tr0_7));
   Set_ (V08 + 5) (lo64 (R tr1_0) (R tr1_4));
   Set_ (V09 + 5) (hi64 (R tr1_0) (R tr1_4));
   Set_ (V10 + 5) (lo64 (R tr1_2) (R tr1_6));
   Set_ (V11 + 5) (hi64 (R tr1_2) (R tr1_6));
   Set_ (V12 + 5) (lo64 (R tr1_1) (R tr1_5));
   Set_ (V13 + 5) (hi64 (R tr1_1) (R tr1_5));
   Set_ (V14 + 5) (lo64 (R tr1_3) (R tr1_7));
   Set_ (V15 + 5) (hi64 (R tr1_3) (R tr1_7));
   Set_ tr0_0 (lo16 (R (T16 + 2)) (R (T48 + 2)));
   Set_ tr0_1 (lo16 (R (T17 + 2)) (R (T49 + 2)));
   Set_ tr0_2 (hi16 (R (T16 + 2)) (R (T48 + 2)));
   Set_ tr0_3 (hi16 (R (T17 + 2)) (R (T49 + 2)));
   Set_ tr0_4 (lo16 (R (T18 + 2)) (R (T50 + 2)));
   Set_ tr0_5 (lo16 (R (T19 + 2)) (R (T51 + 2)));
   Set_ tr0_6 (hi16 (R (T18 + 2)) (R (T50 + 2)));
   Set_ tr0_7 (hi16 (R (T19 + 2)) (R (T51 + 2)));
   Set_ tr1_0 (lo32 (R tr0_0) (R tr0_1));
   Set_ tr1_1 (lo32 (R tr0_2) (R tr0_3));
   Set_ tr1_2 (hi32 (R tr0_0) (R tr0_1));
   Set_ tr1_3 (hi32 (R tr0_2) (R tr0_3));
   Set_ tr1_4 (lo32 (R tr0_4) (R tr0_5));
   Set_ tr1_5 (lo32 (R tr0_6) (R tr0_7));
   Set_ tr1_6 (hi32 (R tr0_4) (R tr0_5));
   Set_ tr1_7 (hi32 (R tr0_6) (R tr0_7));
   Set_ (V16 + 4) (lo64 (R tr1_0) (R tr1_4));
   Set_ (V17 + 4) (hi64 (R tr1_0) (R tr1_4));
   Set_ (V18 + 4) (lo64 (R tr1_2) (R tr1_6));
   Set_ (V19 + 4) (hi64 (R tr1_2) (R tr1_6));
   Set_ (V20 + 4) (lo64 (R tr1_1) (R tr1_5));
   Set_ (V21 + 4) (hi64 (R tr1_1) (R tr1_5));
   Set_ (V22 + 4) (lo64 (R tr1_3) (R tr1_7));
   Set_ (V23 + 4) (hi64 (R tr1_3) (R tr1_7));
   Set_ tr0_0 (lo16 (R (T20 + 2)) (R (T52 + 2)));
   Set_ tr0_1 (lo16 (R (T21 + 2)) (R (T53 + 2)));
   Set_ tr0_2 (hi16 (R (T20 + 2)) (R (T52 + 2)));
   Set_ tr0_3 (hi16 (R (T21 + 2)) (R (T53 + 2)));
   Set_ tr0_4 (lo16 (R (T22 + 2)) (R (T54 + 2)));
   Set_ tr0_5 (lo16 (R (T23 + 2)) (R (T55 + 2)));
   Set_ tr0_6 (hi16 (R (T22 + 2)) (R (T54 + 2)));
   Set_ tr0_7 (hi16 (R (T23 + 2)) (R (T55 + 2)))]
  ++ [Set_ tr1_0 (lo32 (R tr0_0) (R tr0_1));
   Set_ tr1_1 (lo32 (R tr0_2) (R tr0_3));
   Set_ tr1_2 (hi32 (R tr0_0) (R tr0_1));
   Set_ tr1_3 (hi32 (R tr0_2) (R tr0_3));
   Set_ tr1_4 (lo32 (R tr0_4) (R tr0_5));
   Set_ tr1_5 (lo32 (R tr0_6) (R tr0_7));
   Set_ tr1_6 (hi32 (R tr0_4) (R tr0_5));
   Set_ tr1_7 (hi32 (R tr0_6) (R tr0_7));
   Set_ (V16 + 5) (lo64 (R tr1_0) (R tr1_4));
   Set_ (V17 + 5) (hi64 (R tr1_0) (R tr1_4));
   Set_ (V18 + 5) (lo64 (R tr1_2) (R tr1_6));
   Set_ (V19 + 5) (hi64 (R tr1_2) (R tr1_6));
   Set_ (V20 + 5) (lo64 (R tr1_1) (R tr1_5));
   Set_ (V21 + 5) (hi64 (R tr1_1) (R tr1_5));
   Set_ (V22 + 5) (lo64 (R tr1_3) (R tr1_7));
   Set_ (V23 + 5) (hi64 (R tr1_3) (R tr1_7));
   Set_ tr0_0 (lo16 (R (T16 + 3)) (R (T48 + 3)));
   Set_ tr0_1 (lo16 (R (T17 + 3)) (R (T49 + 3)));
   Set_ tr0_2 (hi16 (R (T16 + 3)) (R (T48 + 3)));
   Set_ tr0_3 (hi16 (R (T17 + 3)) (R (T49 + 3)));
   Set_ tr0_4 (lo16 (R (T18 + 3)) (R (T50 + 3)));
   Set_ tr0_5 (lo16 (R (T19 + 3)) (R (T51 + 3)));
   Set_ tr0_6 (hi16 (R (T18 + 3)) (R (T50 + 3)));
   Set_ tr0_7 (hi16 (R (T19 + 3)) (R (T51 + 3)));
   Set_ tr1_0 (lo32 (R tr0_0) (R tr0_1));
   Set_ tr1_1 (lo32 (R tr0_2) (R tr0_3));
   Set_ tr1_2 (hi32 (R tr0_0) (R tr0_1));
   Set_ tr1_3 (hi32 (R tr0_2) (R tr0_3));
   Set_ tr1_4 (lo32 (R tr0_4) (R tr0_5));
   Set_ tr1_5 (lo32 (R tr0_6) (R tr0_7));
   Set_ tr1_6 (hi32 (R tr0_4) (R tr0_5));
   Set_ tr1_7 (hi32 (R tr0_6) (R tr0_7));
   Set_ (V24 + 4) (lo64 (R tr1_0) (R tr1_4));
   Set_ (V25 + 4) (hi64 (R tr1_0) (R tr1_4));
   Set_ (V26 + 4) (lo64 (R tr1_2) (R tr1_6));
   Set_ (V27 + 4) (hi64 (R tr1_2) (R tr1_6));
   Set_ (V28 + 4) (lo64 (R tr1_1) (R tr1_5));
   Set_ (V29 + 4) (hi64 (R tr1_1) (R tr1_5));
   Set_ (V30 + 4) (lo64 (R tr1_3) (R tr1_7));
   Set_ (V31 + 4) (hi64 (R tr1_3) (R tr1_7));
   Set_ tr0_0 (lo16 (R (T20 + 3)) (R (T52 + 3)));
   Set_ tr0_1 (lo16 (R (T21 + 3)) (R (T53 + 3)));
   Set_ tr0_2 (hi16 (R (T20 + 3)) (R (T52 + 3)));
   Set_ tr0_3 (hi16 (R (T21 + 3)) (R (T53 + 3)));
   Set_ tr0_4 (lo16 (R (T22 + 3)) (R (T54 + 3)));
   Set_ tr0_5 (lo16 (R (T23 + 3)) (R (T55 + 3)));
   Set_ tr0_6 (hi16 (R (T22 + 3)) (R (T54 + 3)));
   Set_ tr0_7 (hi16 (R (T23 + 3)) (R (T55 + 3)));
   Set_ tr1_0 (lo32 (R tr0_0) (R tr0_1));
   Set_ tr1_1 (lo32 (R tr0_2) (R tr0_3));
   Set_ tr1_2 (hi32 (R tr0_0) (R tr0_1));
   Set_ tr1_3 (hi32 (R tr0_2) (R tr0_3));
   Set_ tr1_4 (lo32 (R tr0_4) (R tr0_5));
   Set_ tr1_5 (lo32 (R tr0_6) (R tr0_7));
   Set_ tr1_6 (hi32 (R tr0_4) (R tr0_5));
   Set_ tr1_7 (hi32 (R tr0_6) (R tr0_7));
   Set_ (V24 + 5) (lo64 (R tr1_0) (R tr1_4));
   Set_ (V25 + 5) (hi64 (R tr1_0) (R tr1_4));
   Set_ (V26 + 5) (lo64 (R tr1_2) (R tr1_6));
   Set_ (V27 + 5) (hi64 (R tr1_2) (R tr1_6));
   Set_ (V28 + 5) (lo64 (R tr1_1) (R tr1_5));
   Set_ (V29 + 5) (hi64 (R tr1_1) (R tr1_5));
   Set_ (V30 + 5) (lo64 (R tr1_3) (R tr1_7));
   Set_ (V31 + 5) (hi64 (R tr1_3) (R tr1_7))]
  ++ [Set_ tr0_0 (lo16 (R T24) (R T56));
   Set_ tr0_1 (lo16 (R T25) (R T57));
   Set_ tr0_2 (hi16 (R T24) (R T56));
   Set_ tr0_3 (hi16 (R T25) (R T57));
   Set_ tr0_4 (lo16 (R T26) (R T58));
   Set_ tr0_5 (lo16 (R T27) (R T59));
   Set_ tr0_6 (hi16 (R T26) (R T58));
   Set_ tr0_7 (hi16 (R T27) (R T59));
   Set_ tr1_0 (lo32 (R tr0_0) (R tr0_1));
   Set_ tr1_1 (lo32 (R tr0_2) (R tr0_3));
   Set_ tr1_2 (hi32 (R tr0_0) (R tr0_1));
   Set_ tr1_3 (hi32 (R tr0_2) (R tr0_3));
   Set_ tr1_4 (lo32 (R tr0_4) (R tr0_5));
   Set_ tr1_5 (lo32 (R tr0_6) (R tr0_7));
   Set_ tr1_6 (hi32 (R tr0_4) (R tr0_5));
   Set_ tr1_7 (hi32 (R tr0_6) (R tr0_7));
   Set_ (V00 + 6) (lo64 (R tr1_0) (R tr1_4));
   Set_ (V01 + 6) (hi64 (R tr1_0) (R tr1_4));
   Set_ (V02 + 6) (lo64 (R tr1_2) (R tr1_6));
   Set_ (V03 + 6) (hi64 (R tr1_2) (R tr1_6));
   Set_ (V04 + 6) (lo64 (R tr1_1) (R tr1_5));
   Set_ (V05 + 6) (hi64 (R tr1_1) (R tr1_5));
   Set_ (V06 + 6) (lo64 (R tr1_3) (R tr1_7));
   Set_ (V07 + 6) (hi64 (R tr1_3) (R tr1_7));
   Set_ tr0_0 (lo16 (R T28) (R T60));
   Set_ tr0_1 (lo16 (R T29) (R T61));
   Set_ tr0_2 (hi16 (R T28) (R T60));
   Set_ tr0_3 (hi16 (R T29) (R T61));
   Set_ tr0_4 (lo16 (R T30) (R T62));
   Set_ tr0_5 (lo16 (R T31) (R T63));
   Set_ tr0_6 (hi16 (R T30) (R T62));
   Set_ tr0_7 (hi16 (R T31) (R T63));
   Set_ tr1_0 (lo32 (R tr0_0) (R tr0_1));
   Set_ tr1_1 (lo32 (R tr0_2) (R tr0_3));
   Set_ tr1_2 (hi32 (R tr0_0) (R tr0_1));
   Set_ tr1_3 (hi32 (R tr0_2) (R tr0_3));
   Set_ tr1_4 (lo32 (R tr0_4) (R tr0_5));
   Set_ tr1_5 (lo32 (R tr0_6) (R tr0_7));
   Set_ tr1_6 (hi32 (R tr0_4) (R tr0_5));
   Set_ tr1_7 (hi32 (R tr0_6) (R tr0_7));
   Set_ (V00 + 7) (lo64 (R tr1_0) (R tr1_4));
   Set_ (V01 + 7) (hi64 (R tr1_0) (R tr1_4));
   Set_ (V02 + 7) (lo64 (R tr1_2) (R tr1_6));
   Set_ (V03 + 7) (hi64 (R tr1_2) (R tr1_6));
   Set_ (V04 + 7) (lo64 (R tr1_1) (R tr1_5));
   Set_ (V05 + 7) (hi64 (R tr1_1) (R tr1_5));
   Set_ (V06 + 7) (lo64 (R tr1_3) (R tr1_7));
   Set_ (V07 + 7) (hi64 (R tr1_3) (R tr1_7));
   Set_ tr0_0 (lo16 (R (T24 + 1)) (R (T56 + 1)));
   Set_ tr0_1 (lo16 (R (T25 + 1)) (R (T57 + 1)));
   Set_ tr0_2 (hi16 (R (T24 + 1)) (R (T56 + 1)));
   Set_ tr0_3 (hi16 (R (T25 + 1)) (R (T57 + 1)));
   Set_ tr0_4 (lo16 (R (T26 + 1)) (R (T58 + 1)));
   Set_ tr0_5 (lo16 (R (T27 + 1)) (R (T59 + 1)));
   Set_ tr0_6 (hi16 (R (T26 + 1)) (R (T58 + 1)));
   Set_ tr0_7 (hi16 (R (T27 + 1)) (R (T59 + 1)));
   Set_ tr1_0 (lo32 (R tr0_0) (R tr0_1));
   Set_ tr1_1 (lo32 (R tr0_2) (R tr0_3));
   Set_ tr1_2 (hi32 (R tr0_0) (R tr0_1));
   Set_ tr1_3 (hi32 (R tr0_2) (R tr0_3));
   Set_ tr1_4 (lo32 (R tr0_4) (R tr0_5));
   Set_ tr1_5 (lo32 (R tr0_6) (R tr0_7));
   Set_ tr1_6 (hi32 (R tr0_4) (R tr0_5));
   Set_ tr1_7 (hi32 (R tr0_6) (R tr0_7))]
  ++ [Set_ (V08 + 6) (lo64 (R tr1_0) (R tr1_4));
   Set_ (V09 + 6) (hi64 (R tr1_0) (R tr1_4));
   Set_ (V10 + 6) (lo64 (R tr1_2) (R tr1_6));
   Set_ (V11 + 6) (hi64 (R tr1_2) (R tr1_6));
   Set_ (V12 + 6) (lo64 (R tr1_1) (R tr1_5));
   Set_ (V13 + 6) (hi64 (R tr1_1) (R tr1_5));
   Set_ (V14 + 6) (lo64 (R tr1_3) (R tr1_7));
   Set_ (V15 + 6) (hi64 (R tr1_3) (R tr1_7));
   Set_ tr0_0 (lo16 (R (T28 + 1)) (R (T60 + 1)));
   Set_ tr0_1 (lo16 (R (T29 + 1)) (R (T61 + 1)));
   Set_ tr0_2 (hi16 (R (T28 + 1)) (R (T60 + 1)));
   Set_ tr0_3 (hi16 (R (T29 + 1)) (R (T61 + 1)));
   Set_ tr0_4 (lo16 (R (T30 + 1)) (R (T62 + 1)));
   Set_ tr0_5 (lo16 (R (T31 + 1)) (R (T63 + 1)));
   Set_ tr0_6 (hi16 (R (T30 + 1)) (R (T62 + 1)));
   Set_ tr0_7 (hi16 (R (T31 + 1)) (R (T63 + 1)));
   Set_ tr1_0 (lo32 (R tr0_0) (R tr0_1));
   Set_ tr1_1 (lo32 (R tr0_2) (R tr0_3));
   Set_ tr1_2 (hi32 (R tr0_0) (R tr0_1));
   Set_ tr1_3 (hi32 (R tr0_2) (R tr0_3));
   Set_ tr1_4 (lo32 (R tr0_4) (R tr0_5));
   Set_ tr1_5 (lo32 (R tr0_6) (R tr0_7));
   Set_ tr1_6 (hi32 (R tr0_4) (R tr0_5));
   Set_ tr1_7 (hi32 (R tr0_6) (R tr0_7));
   Set_ (V08 + 7) (lo64 (R tr1_0) (R tr1_4));
   Set_ (V09 + 7) (hi64 (R tr1_0) (R tr1_4));
   Set_ (V10 + 7) (lo64 (R tr1_2) (R tr1_6));
   Set_ (V11 + 7) (hi64 (R tr1_2) (R tr1_6));
   Set_ (V12 + 7) (lo64 (R tr1_1) (R tr1_5));
   Set_ (V13 + 7) (hi64 (R tr1_1) (R tr1_5));
   Set_ (V14 + 7) (lo64 (R tr1_3) (R tr1_7));
   Set_ (V15 + 7) (hi64 (R tr1_3) (R tr1_7));
   Set_ tr0_0 (lo16 (R (T24 + 2)) (R (T56 + 2)));
   Set_ tr0_1 (lo16 (R (T25 + 2)) (R (T57 + 2)));
   Set_ tr0_2 (hi16 (R (T24 + 2)) (R (T56 + 2)));
   Set_ tr0_3 (hi16 (R (T25 + 2)) (R (T57 + 2)));
   Set_ tr0_4 (lo16 (R (T26 + 2)) (R (T58 + 2)));
   Set_ tr0_5 (lo16 (R (T27 + 2)) (R (T59 + 2)));
   Set_ tr0_6 (hi16 (R (T26 + 2)) (R (T58 + 2)));
   Set_ tr0_7 (hi16 (R (T27 + 2)) (R (T59 + 2)));
   Set_ tr1_0 (lo32 (R tr0_0) (R tr0_1));
   Set_ tr1_1 (lo32 (R tr0_2) (R tr0_3));
   Set_ tr1_2 (hi32 (R tr0_0) (R tr0_1));
   Set_ tr1_3 (hi32 (R tr0_2) (R tr0_3));
   Set_ tr1_4 (lo32 (R tr0_4) (R tr0_5));
   Set_ tr1_5 (lo32 (R tr0_6) (R tr0_7));
   Set_ tr1_6 (hi32 (R tr0_4) (R tr0_5));
   Set_ tr1_7 (hi32 (R tr0_6) (R tr0_7));
   Set_ (V16 + 6) (lo64 (R tr1_0) (R tr1_4));
   Set_ (V17 + 6) (hi64 (R tr1_0) (R tr1_4));
   Set_ (V18 + 6) (lo64 (R tr1_2) (R tr1_6));
   Set_ (V19 + 6) (hi64 (R tr1_2) (R tr1_6));
   Set_ (V20 + 6) (lo64 (R tr1_1) (R tr1_5));
   Set_ (V21 + 6) (hi64 (R tr1_1) (R tr1_5));
   Set_ (V22 + 6) (lo64 (R tr1_3) (R tr1_7));
   Set_ (V23 + 6) (hi64 (R tr1_3) (R tr1_7));
   Set_ tr0_0 (lo16 (R (T28 + 2)) (R (T60 + 2)));
   Set_ tr0_1 (lo16 (R (T29 + 2)) (R (T61 + 2)));
   Set_ tr0_2 (hi16 (R (T28 + 2)) (R (T60 + 2)));
   Set_ tr0_3 (hi16 (R (T29 + 2)) (R (T61 + 2)));
   Set_ tr0_4 (lo16 (R (T30 + 2)) (R (T62 + 2)));
   Set_ tr0_5 (lo16 (R (T31 + 2)) (R (T63 + 2)));
   Set_ tr0_6 (hi16 (R (T30 + 2)) (R (T62 + 2)));
   Set_ tr0_7 (hi16 (R (T31 + 2)) (R (T63 + 2)))]
  ++ [Set_ tr1_0 (lo32 (R tr0_0) (R tr0_1));
   Set_ tr1_1 (lo32 (R tr0_2) (R tr0_3));
   Set_ tr1_2 (hi32 (R tr0_0) (R tr0_1));
   Set_ tr1_3 (hi32 (R tr0_2) (R tr0_3));
   Set_ tr1_4 (lo32 (R tr0_4) (R tr0_5));
   Set_ tr1_5 (lo32 (R tr0_6) (R tr0_7));
   Set_ tr1_6 (hi32 (R tr0_4) (R tr0_5));
   Set_ tr1_7 (hi32 (R tr0_6) (R tr0_7));
   Set_ (V16 + 7) (lo64 (R tr1_0) (R tr1_4));
   Set_ (V17 + 7) (hi64 (R tr1_0) (R tr1_4));
   Set_ (V18 + 7) (lo64 (R tr1_2) (R tr1_6));
   Set_ (V19 + 7) (hi64 (R tr1_2) (R tr1_6));
   Set_ (V20 + 7) (lo64 (R tr1_1) (R tr1_5));
   Set_ (V21 + 7) (hi64 (R tr1_1) (R tr1_5));
   Set_ (V22 + 7) (lo64 (R tr1_3) (R tr1_7));
   Set_ (V23 + 7) (hi64 (R tr1_3) (R tr1_7));
   Set_ tr0_0 (lo16 (R (T24 + 3)) (R (T56 + 3)));
   Set_ tr0_1 (lo16 (R (T25 + 3)) (R (T57 + 3)));
   Set_ tr0_2 (hi16 (R (T24 + 3)) (R (T56 + 3)));
   Set_ tr0_3 (hi16 (R (T25 + 3)) (R (T57 + 3)));
   Set_ tr0_4 (lo16 (R (T26 + 3)) (R (T58 + 3)));
   Set_ tr0_5 (lo16 (R (T27 + 3)) (R (T59 + 3)));
   Set_ tr0_6 (hi16 (R (T26 + 3)) (R (T58 + 3)));
   Set_ tr0_7 (hi16 (R (T27 + 3)) (R (T59 + 3)));
   Set_ tr1_0 (lo32 (R tr0_0) (R tr0_1));
   Set_ tr1_1 (lo32 (R tr0_2) (R tr0_3));
   Set_ tr1_2 (hi32 (R tr0_0) (R tr0_1));
   Set_ tr1_3 (hi32 (R tr0_2) (R tr0_3));
   Set_ tr1_4 (lo32 (R tr0_4) (R tr0_5));
   Set_ tr1_5 (lo32 (R tr0_6) (R tr0_7));
   Set_ tr1_6 (hi32 (R tr0_4) (R tr0_5));
   Set_ tr1_7 (hi32 (R tr0_6) (R tr0_7));
   Set_ (V24 + 6) (lo64 (R tr1_0) (R tr1_4));
   Set_ (V25 + 6) (hi64 (R tr1_0) (R tr1_4));
   Set_ (V26 + 6) (lo64 (R tr1_2) (R tr1_6));
   Set_ (V27 + 6) (hi64 (R tr1_2) (R tr1_6));
   Set_ (V28 + 6) (lo64 (R tr1_1) (R tr1_5));
   Set_ (V29 + 6) (hi64 (R tr1_1) (R tr1_5));
   Set_ (V30 + 6) (lo64 (R tr1_3) (R tr1_7));
   Set_ (V31 + 6) (hi64 (R tr1_3) (R tr1_7));
   Set_ tr0_0 (lo16 (R (T28 + 3)) (R (T60 + 3)));
   Set_ tr0_1 (lo16 (R (T29 + 3)) (R (T61 + 3)));
   Set_ tr0_2 (hi16 (R (T28 + 3)) (R (T60 + 3)));
   Set_ tr0_3 (hi16 (R (T29 + 3)) (R (T61 + 3)));
   Set_ tr0_4 (lo16 (R (T30 + 3)) (R (T62 + 3)));
   Set_ tr0_5 (lo16 (R (T31 + 3)) (R (T63 + 3)));
   Set_ tr0_6 (hi16 (R (T30 + 3)) (R (T62 + 3)));
   Set_ tr0_7 (hi16 (R (T31 + 3)) (R (T63 + 3)));
   Set_ tr1_0 (lo32 (R tr0_0) (R tr0_1));
   Set_ tr1_1 (lo32 (R tr0_2) (R tr0_3));
   Set_ tr1_2 (hi32 (R tr0_0) (R tr0_1));
   Set_ tr1_3 (hi32 (R tr0_2) (R tr0_3));
   Set_ tr1_4 (lo32 (R tr0_4) (R tr0_5));
   Set_ tr1_5 (lo32 (R tr0_6) (R tr0_7));
   Set_ tr1_6 (hi32 (R tr0_4) (R tr0_5));
   Set_ tr1_7 (hi32 (R tr0_6) (R tr0_7));
   Set_ (V24 + 7) (lo64 (R tr1_0) (R tr1_4));
   Set_ (V25 + 7) (hi64 (R tr1_0) (R tr1_4));
   Set_ (V26 + 7) (lo64 (R tr1_2) (R tr1_6));
   Set_ (V27 + 7) (hi64 (R tr1_2) (R tr1_6));
   Set_ (V28 + 7) (lo64 (R tr1_1) (R tr1_5));
   Set_ (V29 + 7) (hi64 (R tr1_1) (R tr1_5));
   Set_ (V30 + 7) (lo64 (R tr1_3) (R tr1_7));
   Set_ (V31 + 7) (hi64 (R tr1_3) (R tr1_7))]
  ++ loop 8 (fun i =>
    [Set_ (V32 + i) (Sra16 (add16 (R (V00 + i)) (R (V01 + i))) (I 1));
     Set_ (V33 + i) (Sra16 (add16 (R (V01 + i)) (R (V02 + i))) (I 1));
     Set_ (V34 + i) (Sra16 (add16 (R (V02 + i)) (R (V03 + i))) (I 1));
     Set_ (V35 + i) (Sra16 (add16 (R (V03 + i)) (R (V04 + i))) (I 1));
     Set_ (V36 + i) (Sra16 (add16 (R (V04 + i)) (R (V05 + i))) (I 1));
     Set_ (V37 + i) (Sra16 (add16 (R (V05 + i)) (R (V06 + i))) (I 1));
     Set_ (V38 + i) (Sra16 (add16 (R (V06 + i)) (R (V07 + i))) (I 1));
     Set_ (V39 + i) (Sra16 (add16 (R (V07 + i)) (R (V08 + i))) (I 1));
     Set_ (V40 + i) (Sra16 (add16 (R (V08 + i)) (R (V09 + i))) (I 1));
     Set_ (V41 + i) (Sra16 (add16 (R (V09 + i)) (R (V10 + i))) (I 1));
     Set_ (V42 + i) (Sra16 (add16 (R (V10 + i)) (R (V11 + i))) (I 1));
     Set_ (V43 + i) (Sra16 (add16 (R (V11 + i)) (R (V12 + i))) (I 1));
     Set_ (V44 + i) (Sra16 (add16 (R (V12 + i)) (R (V13 + i))) (I 1));
     Set_ (V45 + i) (Sra16 (add16 (R (V13 + i)) (R (V14 + i))) (I 1));
     Set_ (V46 + i) (Sra16 (add16 (R (V14 + i)) (R (V15 + i))) (I 1));
     Set_ (V47 + i) (Sra16 (add16 (R (V15 + i)) (R (V16 + i))) (I 1));
     Set_ (V48 + i) (Sra16 (add16 (R (V16 + i)) (R (V17 + i))) (I 1));
     Set_ (V49 + i) (Sra16 (add16 (R (V17 + i)) (R (V18 + i))) (I 1));
     Set_ (V50 + i) (Sra16 (add16 (R (V18 + i)) (R (V19 + i))) (I 1));
     Set_ (V51 + i) (Sra16 (add16 (R (V19 + i)) (R (V20 + i))) (I 1));
     Set_ (V52 + i) (Sra16 (add16 (R (V20 + i)) (R (V21 + i))) (I 1));
     Set_ (V53 + i) (Sra16 (add16 (R (V21 + i)) (R (V22 + i))) (I 1));
     Set_ (V54 + i) (Sra16 (add16 (R (V22 + i)) (R (V23 + i))) (I 1));
     Set_ (V55 + i) (Sra16 (add16 (R (V23 + i)) (R (V24 + i))) (I 1));
     Set_ (V56 + i) (Sra16 (add16 (R (V24 + i)) (R (V25 + i))) (I 1));
     Set_ (V57 + i) (Sra16 (add16 (R (V25 + i)) (R (V26 + i))) (I 1));
     Set_ (V58 + i) (Sra16 (add16 (R (V26 + i)) (R (V27 + i))) (I 1));
     Set_ (V59 + i) (Sra16 (add16 (R (V27 + i)) (R (V28 + i))) (I 1));
     Set_ (V60 + i) (Sra16 (add16 (R (V28 + i)) (R (V29 + i))) (I 1));
     Set_ (V61 + i) (Sra16 (add16 (R (V29 + i)) (R (V30 + i))) (I 1));
     Set_ (V62 + i) (Sra16 (add16 (R (V30 + i)) (R (V31 + i))) (I 1));
     Set_ (V63 + i) (Sra16 (add16 (R (V31 + i)) (R (V31 + i))) (I 1))])
  ++ [Set_ tr0_0 (lo16 (R V00) (R V32));
   Set_ tr0_1 (lo16 (R V01) (R V33));
   Set_ tr0_2 (hi16 (R V00) (R V32));
   Set_ tr0_3 (hi16 (R V01) (R V33));
   Set_ tr0_4 (lo16 (R V02) (R V34));
   Set_ tr0_5 (lo16 (R V03) (R V35));
   Set_ tr0_6 (hi16 (R V02) (R V34));
   Set_ tr0_7 (hi16 (R V03) (R V35));
   Set_ tr1_0 (lo32 (R tr0_0) (R tr0_1));
   Set_ tr1_1 (lo32 (R tr0_2) (R tr0_3));
   Set_ tr1_2 (hi32 (R tr0_0) (R tr0_1));
   Set_ tr1_3 (hi32 (R tr0_2) (R tr0_3));
   Set_ tr1_4 (lo32 (R tr0_4) (R tr0_5));
   Set_ tr1_5 (lo32 (R tr0_6) (R tr0_7));
   Set_ tr1_6 (hi32 (R tr0_4) (R tr0_5));
   Set_ tr1_7 (hi32 (R tr0_6) (R tr0_7));
   Set_ T00 (lo64 (R tr1_0) (R tr1_4));
   Set_ T01 (hi64 (R tr1_0) (R tr1_4));
   Set_ T02 (lo64 (R tr1_2) (R tr1_6));
   Set_ T03 (hi64 (R tr1_2) (R tr1_6));
   Set_ T04 (lo64 (R tr1_1) (R tr1_5));
   Set_ T05 (hi64 (R tr1_1) (R tr1_5));
   Set_ T06 (lo64 (R tr1_3) (R tr1_7));
   Set_ T07 (hi64 (R tr1_3) (R tr1_7));
   Set_ tr0_0 (lo16 (R V04) (R V36));
   Set_ tr0_1 (lo16 (R V05) (R V37));
   Set_ tr0_2 (hi16 (R V04) (R V36));
   Set_ tr0_3 (hi16 (R V05) (R V37));
   Set_ tr0_4 (lo16 (R V06) (R V38));
   Set_ tr0_5 (lo16 (R V07) (R V39));
   Set_ tr0_6 (hi16 (R V06) (R V38));
   Set_ tr0_7 (hi16 (R V07) (R V39));
   Set_ tr1_0 (lo32 (R tr0_0) (R tr0_1));
   Set_ tr1_1 (lo32 (R tr0_2) (R tr0_3));
   Set_ tr1_2 (hi32 (R tr0_0) (R tr0_1));
   Set_ tr1_3 (hi32 (R tr0_2) (R tr0_3));
   Set_ tr1_4 (lo32 (R tr0_4) (R tr0_5));
   Set_ tr1_5 (lo32 (R tr0_6) (R tr0_7));
   Set_ tr1_6 (hi32 (R tr0_4) (R tr0_5));
   Set_ tr1_7 (hi32 (R tr0_6) (R tr0_7));
   Set_ (T00 + 1) (lo64 (R tr1_0) (R tr1_4));
   Set_ (T01 + 1) (hi64 (R tr1_0) (R tr1_4));
   Set_ (T02 + 1) (lo64 (R tr1_2) (R tr1_6));
   Set_ (T03 + 1) (hi64 (R tr1_2) (R tr1_6));
   Set_ (T04 + 1) (lo64 (R tr1_1) (R tr1_5));
   Set_ (T05 + 1) (hi64 (R tr1_1) (R tr1_5));
   Set_ (T06 + 1) (lo64 (R tr1_3) (R tr1_7));
   Set_ (T07 + 1) (hi64 (R tr1_3) (R tr1_7));
   Set_ tr0_0 (lo16 (R (V00 + 1)) (R (V32 + 1)));
   Set_ tr0_1 (lo16 (R (V01 + 1)) (R (V33 + 1)));
   Set_ tr0_2 (hi16 (R (V00 + 1)) (R (V32 + 1)));
   Set_ tr0_3 (hi16 (R (V01 + 1)) (R (V33 + 1)));
   Set_ tr0_4 (lo16 (R (V02 + 1)) (R (V34 + 1)));
   Set_ tr0_5 (lo16 (R (V03 + 1)) (R (V35 + 1)));
   Set_ tr0_6 (hi16 (R (V02 + 1)) (R (V34 + 1)));
   Set_ tr0_7 (hi16 (R (V03 + 1)) (R (V35 + 1)));
   Set_ tr1_0 (lo32 (R tr0_0) (R tr0_1));
   Set_ tr1_1 (lo32 (R tr0_2) (R tr0_3));
   Set_ tr1_2 (hi32 (R tr0_0) (R tr0_1));
   Set_ tr1_3 (hi32 (R tr0_2) (R tr0_3));
   Set_ tr1_4 (lo32 (R tr0_4) (R tr0_5));
   Set_ tr1_5 (lo32 (R tr0_6) (R tr0_7));
   Set_ tr1_6 (hi32 (R tr0_4) (R tr0_5));
   Set_ tr1_7 (hi32 (R tr0_6) (R tr0_7))]
  ++ [Set_ T08 (lo64 (R tr1_0) (R tr1_4));
   Set_ T09 (hi64 (R tr1_0) (R tr1_4));
   Set_ T10 (lo64 (R tr1_2) (R tr1_6));
   Set_ T11 (hi64 (R tr1_2) (R tr1_6));
   Set_ T12 (lo64 (R tr1_1) (R tr1_5));
   Set_ T13 (hi64 (R tr1_1) (R tr1_5));
   Set_ T14 (lo64 (R tr1_3) (R tr1_7));
   Set_ T15 (hi64 (R tr1_3) (R tr1_7));
   Set_ tr0_0 (lo16 (R (V04 + 1)) (R (V36 + 1)));
   Set_ tr0_1 (lo16 (R (V05 + 1)) (R (V37 + 1)));
   Set_ tr0_2 (hi16 (R (V04 + 1)) (R (V36 + 1)));
   Set_ tr0_3 (hi16 (R (V05 + 1)) (R (V37 + 1)));
   Set_ tr0_4 (lo16 (R (V06 + 1)) (R (V38 + 1)));
   Set_ tr0_5 (lo16 (R (V07 + 1)) (R (V39 + 1)));
   Set_ tr0_6 (hi16 (R (V06 + 1)) (R (V38 + 1)));
   Set_ tr0_7 (hi16 (R (V07 + 1)) (R (V39 + 1)));
   Set_ tr1_0 (lo32 (R tr0_0) (R tr0_1));
   Set_ tr1_1 (lo32 (R tr0_2) (R tr0_3));
   Set_ tr1_2 (hi32 (R tr0_0) (R tr0_1));
   Set_ tr1_3 (hi32 (R tr0_2) (R tr0_3));
   Set_ tr1_4 (lo32 (R tr0_4) (R tr0_5));
   Set_ tr1_5 (lo32 (R tr0_6) (R tr0_7));
   Set_ tr1_6 (hi32 (R tr0_4) (R tr0_5));
   Set_ tr1_7 (hi32 (R tr0_6) (R tr0_7));
   Set_ (T08 + 1) (lo64 (R tr1_0) (R tr1_4));
   Set_ (T09 + 1) (hi64 (R tr1_0) (R tr1_4));
   Set_ (T10 + 1) (lo64 (R tr1_2) (R tr1_6));
   Set_ (T11 + 1) (hi64 (R tr1_2) (R tr1_6));
   Set_ (T12 + 1) (lo64 (R tr1_1) (R tr1_5));
   Set_ (T13 + 1) (hi64 (R tr1_1) (R tr1_5));
   Set_ (T14 + 1) (lo64 (R tr1_3) (R tr1_7));
   Set_ (T15 + 1) (hi64 (R tr1_3) (R tr1_7));
   Set_ tr0_0 (lo16 (R (V00 + 2)) (R (V32 + 2)));
   Set_ tr0_1 (lo16 (R (V01 + 2)) (R (V33 + 2)));
   Set_ tr0_2 (hi16 (R (V00 + 2)) (R (V32 + 2)));
   Set_ tr0_3 (hi16 (R (V01 + 2)) (R (V33 + 2)));
   Set_ tr0_4 (lo16 (R (V02 + 2)) (R (V34 + 2)));
   Set_ tr0_5 (lo16 (R (V03 + 2)) (R (V35 + 2)));
   Set_ tr0_6 (hi16 (R (V02 + 2)) (R (V34 + 2)));
   Set_ tr0_7 (hi16 (R (V03 + 2)) (R (V35 + 2)));
   Set_ tr1_0 (lo32 (R tr0_0) (R tr0_1));
   Set_ tr1_1 (lo32 (R tr0_2) (R tr0_3));
   Set_ tr1_2 (hi32 (R tr0_0) (R tr0_1));
   Set_ tr1_3 (hi32 (R tr0_2) (R tr0_3));
   Set_ tr1_4 (lo32 (R tr0_4) (R tr0_5));
   Set_ tr1_5 (lo32 (R tr0_6) (R tr0_7));
   Set_ tr1_6 (hi32 (R tr0_4) (R tr0_5));
   Set_ tr1_7 (hi32 (R tr0_6) (R tr0_7));
   Set_ T16 (lo64 (R tr1_0) (R tr1_4));
   Set_ T17 (hi64 (R tr1_0) (R tr1_4));
   Set_ T18 (lo64 (R tr1_2) (R tr1_6));
   Set_ T19 (hi64 (R tr1_2) (R tr1_6));
   Set_ T20 (lo64 (R tr1_1) (R tr1_5));
   Set_ T21 (hi64 (R tr1_1) (R tr1_5));
   Set_ T22 (lo64 (R tr1_3) (R tr1_7));
   Set_ T23 (hi64 (R tr1_3) (R tr1_7));
   Set_ tr0_0 (lo16 (R (V04 + 2)) (R (V36 + 2)));
   Set_ tr0_1 (lo16 (R (V05 + 2)) (R (V37 + 2)));
   Set_ tr0_2 (hi16 (R (V04 + 2)) (R (V36 + 2)));
   Set_ tr0_3 (hi16 (R (V05 + 2)) (R (V37 + 2)));
   Set_ tr0_4 (lo16 (R (V06 + 2)) (R (V38 + 2)));
   Set_ tr0_5 (lo16 (R (V07 + 2)) (R (V39 + 2)));
   Set_ tr0_6 (hi16 (R (V06 + 2)) (R (V38 + 2)));
   Set_ tr0_7 (hi16 (R (V07 + 2)) (R (V39 + 2)))]
  ++ [Set_ tr1_0 (lo32 (R tr0_0) (R tr0_1));
   Set_ tr1_1 (lo32 (R tr0_2) (R tr0_3));
   Set_ tr1_2 (hi32 (R tr0_0) (R tr0_1));
   Set_ tr1_3 (hi32 (R tr0_2) (R tr0_3));
   Set_ tr1_4 (lo32 (R tr0_4) (R tr0_5));
   Set_ tr1_5 (lo32 (R tr0_6) (R tr0_7));
   Set_ tr1_6 (hi32 (R tr0_4) (R tr0_5));
   Set_ tr1_7 (hi32 (R tr0_6) (R tr0_7));
   Set_ (T16 + 1) (lo64 (R tr1_0) (R tr1_4));
   Set_ (T17 + 1) (hi64 (R tr1_0) (R tr1_4));
   Set_ (T18 + 1) (lo64 (R tr1_2) (R tr1_6));
   Set_ (T19 + 1) (hi64 (R tr1_2) (R tr1_6));
   Set_ (T20 + 1) (lo64 (R tr1_1) (R tr1_5));
   Set_ (T21 + 1) (hi64 (R tr1_1) (R tr1_5));
   Set_ (T22 + 1) (lo64 (R tr1_3) (R tr1_7));
   Set_ (T23 + 1) (hi64 (R tr1_3) (R tr1_7));
   Set_ tr0_0 (lo16 (R (V00 + 3)) (R (V32 + 3)));
   Set_ tr0_1 (lo16 (R (V01 + 3)) (R (V33 + 3)));
   Set_ tr0_2 (hi16 (R (V00 + 3)) (R (V32 + 3)));
   Set_ tr0_3 (hi16 (R (V01 + 3)) (R (V33 + 3)));
   Set_ tr0_4 (lo16 (R (V02 + 3)) (R (V34 + 3)));
   Set_ tr0_5 (lo16 (R (V03 + 3)) (R (V35 + 3)));
   Set_ tr0_6 (hi16 (R (V02 + 3)) (R (V34 + 3)));
   Set_ tr0_7 (hi16 (R (V03 + 3)) (R (V35 + 3)));
   Set_ tr1_0 (lo32 (R tr0_0) (R tr0_1));
   Set_ tr1_1 (lo32 (R tr0_2) (R tr0_3));
   Set_ tr1_2 (hi32 (R tr0_0) (R tr0_1));
   Set_ tr1_3 (hi32 (R tr0_2) (R tr0_3));
   Set_ tr1_4 (lo32 (R tr0_4) (R tr0_5));
   Set_ tr1_5 (lo32 (R tr0_6) (R tr0_7));
   Set_ tr1_6 (hi32 (R tr0_4) (R tr0_5));
   Set_ tr1_7 (hi32 (R tr0_6) (R tr0_7));
   Set_ T24 (lo64 (R tr1_0) (R tr1_4));
   Set_ T25 (hi64 (R tr1_0) (R tr1_4));
   Set_ T26 (lo64 (R tr1_2) (R tr1_6));
   Set_ T27 (hi64 (R tr1_2) (R tr1_6));
   Set_ T28 (lo64 (R tr1_1) (R tr1_5));
   Set_ T29 (hi64 (R tr1_1) (R tr1_5));
   Set_ T30 (lo64 (R tr1_3) (R tr1_7));
   Set_ T31 (hi64 (R tr1_3) (R tr1_7));
   Set_ tr0_0 (lo16 (R (V04 + 3)) (R (V36 + 3)));
   Set_ tr0_1 (lo16 (R (V05 + 3)) (R (V37 + 3)));
   Set_ tr0_2 (hi16 (R (V04 + 3)) (R (V36 + 3)));
   Set_ tr0_3 (hi16 (R (V05 + 3)) (R (V37 + 3)));
   Set_ tr0_4 (lo16 (R (V06 + 3)) (R (V38 + 3)));
   Set_ tr0_5 (lo16 (R (V07 + 3)) (R (V39 + 3)));
   Set_ tr0_6 (hi16 (R (V06 + 3)) (R (V38 + 3)));
   Set_ tr0_7 (hi16 (R (V07 + 3)) (R (V39 + 3)));
   Set_ tr1_0 (lo32 (R tr0_0) (R tr0_1));
   Set_ tr1_1 (lo32 (R tr0_2) (R tr0_3));
   Set_ tr1_2 (hi32 (R tr0_0) (R tr0_1));
   Set_ tr1_3 (hi32 (R tr0_2) (R tr0_3));
   Set_ tr1_4 (lo32 (R tr0_4) (R tr0_5));
   Set_ tr1_5 (lo32 (R tr0_6) (R tr0_7));
   Set_ tr1_6 (hi32 (R tr0_4) (R tr0_5));
   Set_ tr1_7 (hi32 (R tr0_6) (R tr0_7));
   Set_ (T24 + 1) (lo64 (R tr1_0) (R tr1_4));
   Set_ (T25 + 1) (hi64 (R tr1_0) (R tr1_4));
   Set_ (T26 + 1) (lo64 (R tr1_2) (R tr1_6));
   Set_ (T27 + 1) (hi64 (R tr1_2) (R tr1_6));
   Set_ (T28 + 1) (lo64 (R tr1_1) (R tr1_5));
   Set_ (T29 + 1) (hi64 (R tr1_1) (R tr1_5));
   Set_ (T30 + 1) (lo64 (R tr1_3) (R tr1_7));
   Set_ (T31 + 1) (hi64 (R tr1_3) (R tr1_7))]
  ++ [Set_ tr0_0 (lo16 (R (V00 + 4)) (R (V32 + 4)));
   Set_ tr0_1 (lo16 (R (V01 + 4)) (R (V33 + 4)));
   Set_ tr0_2 (hi16 (R (V00 + 4)) (R (V32 + 4)));
   Set_ tr0_3 (hi16 (R (V01 + 4)) (R (V33 + 4)));
   Set_ tr0_4 (lo16 (R (V02 + 4)) (R (V34 + 4)));
   Set_ tr0_5 (lo16 (R (V03 + 4)) (R (V35 + 4)));
   Set_ tr0_6 (hi16 (R (V02 + 4)) (R (V34 + 4)));
   Set_ tr0_7 (hi16 (R (V03 + 4)) (R (V35 + 4)));
   Set_ tr1_0 (lo32 (R tr0_0) (R tr0_1));
   Set_ tr1_1 (lo32 (R tr0_2) (R tr0_3));
   Set_ tr1_2 (hi32 (R tr0_0) (R tr0_1));
   Set_ tr1_3 (hi32 (R tr0_2) (R tr0_3));
   Set_ tr1_4 (lo32 (R tr0_4) (R tr0_5));
   Set_ tr1_5 (lo32 (R tr0_6) (R tr0_7));
   Set_ tr1_6 (hi32 (R tr0_4) (R tr0_5));
   Set_ tr1_7 (hi32 (R tr0_6) (R tr0_7));
   Set_ T32 (lo64 (R tr1_0) (R tr1_4));
   Set_ T33 (hi64 (R tr1_0) (R tr1_4));
   Set_ T34 (lo64 (R tr1_2) (R tr1_6));
   Set_ T35 (hi64 (R tr1_2) (R tr1_6));
   Set_ T36 (lo64 (R tr1_1) (R tr1_5));
   Set_ T37 (hi64 (R tr1_1) (R tr1_5));
   Set_ T38 (lo64 (R tr1_3) (R tr1_7));
   Set_ T39 (hi64 (R tr1_3) (R tr1_7));
   Set_ tr0_0 (lo16 (R (V04 + 4)) (R (V36 + 4)));
   Set_ tr0_1 (lo16 (R (V05 + 4)) (R (V37 + 4)));
   Set_ tr0_2 (hi16 (R (V04 + 4)) (R (V36 + 4)));
   Set_ tr0_3 (hi16 (R (V05 + 4)) (R (V37 + 4)));
   Set_ tr0_4 (lo16 (R (V06 + 4)) (R (V38 + 4)));
   Set_ tr0_5 (lo16 (R (V07 + 4)) (R (V39 + 4)));
   Set_ tr0_6 (hi16 (R (V06 + 4)) (R (V38 + 4)));
   Set_ tr0_7 (hi16 (R (V07 + 4)) (R (V39 + 4)));
   Set_ tr1_0 (lo32 (R tr0_0) (R tr0_1));
   Set_ tr1_1 (lo32 (R tr0_2) (R tr0_3));
   Set_ tr1_2 (hi32 (R tr0_0) (R tr0_1));
   Set_ tr1_3 (hi32 (R tr0_2) (R tr0_3));
   Set_ tr1_4 (lo32 (R tr0_4) (R tr0_5));
   Set_ tr1_5 (lo32 (R tr0_6) (R tr0_7));
   Set_ tr1_6 (hi32 (R tr0_4) (R tr0_5));
   Set_ tr1_7 (hi32 (R tr0_6) (R tr0_7));
   Set_ (T32 + 1) (lo64 (R tr1_0) (R tr1_4));
   Set_ (T33 + 1) (hi64 (R tr1_0) (R tr1_4));
   Set_ (T34 + 1) (lo64 (R tr1_2) (R tr1_6));
   Set_ (T35 + 1) (hi64 (R tr1_2) (R tr1_6));
   Set_ (T36 + 1) (lo64 (R tr1_1) (R tr1_5));
   Set_ (T37 + 1) (hi64 (R tr1_1) (R tr1_5));
   Set_ (T38 + 1) (lo64 (R tr1_3) (R tr1_7));
   Set_ (T39 + 1) (hi64 (R tr1_3) (R tr1_7));
   Set_ tr0_0 (lo16 (R (V00 + 5)) (R (V32 + 5)));
   Set_ tr0_1 (lo16 (R (V01 + 5)) (R (V33 + 5)));
   Set_ tr0_2 (hi16 (R (V00 + 5)) (R (V32 + 5)));
   Set_ tr0_3 (hi16 (R (V01 + 5)) (R (V33 + 5)));
   Set_ tr0_4 (lo16 (R (V02 + 5)) (R (V34 + 5)));
   Set_ tr0_5 (lo16 (R (V03 + 5)) (R (V35 + 5)));
   Set_ tr0_6 (hi16 (R (V02 + 5)) (R (V34 + 5)));
   Set_ tr0_7 (hi16 (R (V03 + 5)) (R (V35 + 5)));
   Set_ tr1_0 (lo32 (R tr0_0) (R tr0_1));
   Set_ tr1_1 (lo32 (R tr0_2) (R tr0_3));
   Set_ tr1_2 (hi32 (R tr0_0) (R tr0_1));
   Set_ tr1_3 (hi32 (R tr0_2) (R tr0_3));
   Set_ tr1_4 (lo32 (R tr0_4) (R tr0_5));
   Set_ tr1_5 (lo32 (R tr0_6) (R tr0_7));
   Set_ tr1_6 (hi32 (R tr0_4) (R tr0_5));
   Set_ tr1_7 (hi32 (R tr0_6) (R tr0_7))]
  ++ [Set_ T40 (lo64 (R tr1_0) (R tr1_4));
   Set_ T41 (hi64 (R tr1_0) (R tr1_4));
   Set_ T42 (lo64 (R tr1_2) (R tr1_6));
   Set_ T43 (hi64 (R tr1_2) (R tr1_6));
   Set_ T44 (lo64 (R tr1_1) (R tr1_5));
   Set_ T45 (hi64 (R tr1_1) (R tr1_5));
   Set_ T46 (lo64 (R tr1_3) (R tr1_7));
   Set_ T47 (hi64 (R tr1_3) (R tr1_7));
   Set_ tr0_0 (lo16 (R (V04 + 5)) (R (V36 + 5)));
   Set_ tr0_1 (lo16 (R (V05 + 5)) (R (V37 + 5)));
   Set_ tr0_2 (hi16 (R (V04 + 5)) (R (V36 + 5)));
   Set_ tr0_3 (hi16 (R (V05 + 5)) (R (V37 + 5)));
   Set_ tr0_4 (lo16 (R (V06 + 5)) (R (V38 + 5)));
   Set_ tr0_5 (lo16 (R (V07 + 5)) (R (V39 + 5)));
   Set_ tr0_6 (hi16 (R (V06 + 5)) (R (V38 + 5)));
   Set_ tr0_7 (hi16 (R (V07 + 5)) (R (V39 + 5)));
   Set_ tr1_0 (lo32 (R tr0_0) (R tr0_1));
   Set_ tr1_1 (lo32 (R tr0_2) (R tr0_3));
   Set_ tr1_2 (hi32 (R tr0_0) (R tr0_1));
   Set_ tr1_3 (hi32 (R tr0_2) (R tr0_3));
   Set_ tr1_4 (lo32 (R tr0_4) (R tr0_5));
   Set_ tr1_5 (lo32 (R tr0_6) (R tr0_7));
   Set_ tr1_6 (hi32 (R tr0_4) (R tr0_5));
   Set_ tr1_7 (hi32 (R tr0_6) (R tr0_7));
   Set_ (T40 + 1) (lo64 (R tr1_0) (R tr1_4));
   Set_ (T41 + 1) (hi64 (R tr1_0) (R tr1_4));
   Set_ (T42 + 1) (lo64 (R tr1_2) (R tr1_6));
   Set_ (T43 + 1) (hi64 (R tr1_2) (R tr1_6));
   Set_ (T44 + 1) (lo64 (R tr1_1) (R tr1_5));
   Set_ (T45 + 1) (hi64 (R tr1_1) (R tr1_5));
   Set_ (T46 + 1) (lo64 (R tr1_3) (R tr1_7));
   Set_ (T47 + 1) (hi64 (R tr1_3) (R tr1_7));
   Set_ tr0_0 (lo16 (R (V00 + 6)) (R (V32 + 6)));
   Set_ tr0_1 (lo16 (R (V01 + 6)) (R (V33 + 6)));
   Set_ tr0_2 (hi16 (R (V00 + 6)) (R (V32 + 6)));
   Set_ tr0_3 (hi16 (R (V01 + 6)) (R (V33 + 6)));
   Set_ tr0_4 (lo16 (R (V02 + 6)) (R (V34 + 6)));
   Set_ tr0_5 (lo16 (R (V03 + 6)) (R (V35 + 6)));
   Set_ tr0_6 (hi16 (R (V02 + 6)) (R (V34 + 6)));
   Set_ tr0_7 (hi16 (R (V03 + 6)) (R (V35 + 6)));
   Set_ tr1_0 (lo32 (R tr0_0) (R tr0_1));
   Set_ tr1_1 (lo32 (R tr0_2) (R tr0_3));
   Set_ tr1_2 (hi32 (R tr0_0) (R tr0_1));
   Set_ tr1_3 (hi32 (R tr0_2) (R tr0_3));
   Set_ tr1_4 (lo32 (R tr0_4) (R tr0_5));
   Set_ tr1_5 (lo32 (R tr0_6) (R tr0_7));
   Set_ tr1_6 (hi32 (R tr0_4) (R tr0_5));
   Set_ tr1_7 (hi32 (R tr0_6) (R tr0_7));
   Set_ T48 (lo64 (R tr1_0) (R tr1_4));
   Set_ T49 (hi64 (R tr1_0) (R tr1_4));
   Set_ T50 (lo64 (R tr1_2) (R tr1_6));
   Set_ T51 (hi64 (R tr1_2) (R tr1_6));
   Set_ T52 (lo64 (R tr1_1) (R tr1_5));
   Set_ T53 (hi64 (R tr1_1) (R tr1_5));
   Set_ T54 (lo64 (R tr1_3) (R tr1_7));
   Set_ T55 (hi64 (R tr1_3) (R tr1_7));
   Set_ tr0_0 (lo16 (R (V04 + 6)) (R (V36 + 6)));
   Set_ tr0_1 (lo16 (R (V05 + 6)) (R (V37 + 6)));
   Set_ tr0_2 (hi16 (R (V04 + 6)) (R (V36 + 6)));
   Set_ tr0_3 (hi16 (R (V05 + 6)) (R (V37 + 6)));
   Set_ tr0_4 (lo16 (R (V06 + 6)) (R (V38 + 6)));
   Set_ tr0_5 (lo16 (R (V07 + 6)) (R (V39 + 6)));
   Set_ tr0_6 (hi16 (R (V06 + 6)) (R (V38 + 6)));
   Set_ tr0_7 (hi16 (R (V07 + 6)) (R (V39 + 6)))]
  ++ [Set_ tr1_0 (lo32 (R tr0_0) (R tr0_1));
   Set_ tr1_1 (lo32 (R tr0_2) (R tr0_3));
   Set_ tr1_2 (hi32 (R tr0_0) (R tr0_1));
   Set_ tr1_3 (hi32 (R tr0_2) (R tr0_3));
   Set_ tr1_4 (lo32 (R tr0_4) (R tr0_5));
   Set_ tr1_5 (lo32 (R tr0_6) (R tr0_7));
   Set_ tr1_6 (hi32 (R tr0_4) (R tr0_5));
   Set_ tr1_7 (hi32 (R tr0_6) (R tr0_7));
   Set_ (T48 + 1) (lo64 (R tr1_0) (R tr1_4));
   Set_ (T49 + 1) (hi64 (R tr1_0) (R tr1_4));
   Set_ (T50 + 1) (lo64 (R tr1_2) (R tr1_6));
   Set_ (T51 + 1) (hi64 (R tr1_2) (R tr1_6));
   Set_ (T52 + 1) (lo64 (R tr1_1) (R tr1_5));
   Set_ (T53 + 1) (hi64 (R tr1_1) (R tr1_5));
   Set_ (T54 + 1) (lo64 (R tr1_3) (R tr1_7));
   Set_ (T55 + 1) (hi64 (R tr1_3) (R tr1_7));
   Set_ tr0_0 (lo16 (R (V00 + 7)) (R (V32 + 7)));
   Set_ tr0_1 (lo16 (R (V01 + 7)) (R (V33 + 7)));
   Set_ tr0_2 (hi16 (R (V00 + 7)) (R (V32 + 7)));
   Set_ tr0_3 (hi16 (R (V01 + 7)) (R (V33 + 7)));
   Set_ tr0_4 (lo16 (R (V02 + 7)) (R (V34 + 7)));
   Set_ tr0_5 (lo16 (R (V03 + 7)) (R (V35 + 7)));
   Set_ tr0_6 (hi16 (R (V02 + 7)) (R (V34 + 7)));
   Set_ tr0_7 (hi16 (R (V03 + 7)) (R (V35 + 7)));
   Set_ tr1_0 (lo32 (R tr0_0) (R tr0_1));
   Set_ tr1_1 (lo32 (R tr0_2) (R tr0_3));
   Set_ tr1_2 (hi32 (R tr0_0) (R tr0_1));
   Set_ tr1_3 (hi32 (R tr0_2) (R tr0_3));
   Set_ tr1_4 (lo32 (R tr0_4) (R tr0_5));
   Set_ tr1_5 (lo32 (R tr0_6) (R tr0_7));
   Set_ tr1_6 (hi32 (R tr0_4) (R tr0_5));
   Set_ tr1_7 (hi32 (R tr0_6) (R tr0_7));
   Set_ T56 (lo64 (R tr1_0) (R tr1_4));
   Set_ T57 (hi64 (R tr1_0) (R tr1_4));
   Set_ T58 (lo64 (R tr1_2) (R tr1_6));
   Set_ T59 (hi64 (R tr1_2) (R tr1_6));
   Set_ T60 (lo64 (R tr1_1) (R tr1_5));
   Set_ T61 (hi64 (R tr1_1) (R tr1_5));
   Set_ T62 (lo64 (R tr1_3) (R tr1_7));
   Set_ T63 (hi64 (R tr1_3) (R tr1_7));
   Set_ tr0_0 (lo16 (R (V04 + 7)) (R (V36 + 7)));
   Set_ tr0_1 (lo16 (R (V05 + 7)) (R (V37 + 7)));
   Set_ tr0_2 (hi16 (R (V04 + 7)) (R (V36 + 7)));
   Set_ tr0_3 (hi16 (R (V05 + 7)) (R (V37 + 7)));
   Set_ tr0_4 (lo16 (R (V06 + 7)) (R (V38 + 7)));
   Set_ tr0_5 (lo16 (R (V07 + 7)) (R (V39 + 7)));
   Set_ tr0_6 (hi16 (R (V06 + 7)) (R (V38 + 7)));
   Set_ tr0_7 (hi16 (R (V07 + 7)) (R (V39 + 7)));
   Set_ tr1_0 (lo32 (R tr0_0) (R tr0_1));
   Set_ tr1_1 (lo32 (R tr0_2) (R tr0_3));
   Set_ tr1_2 (hi32 (R tr0_0) (R tr0_1));
   Set_ tr1_3 (hi32 (R tr0_2) (R tr0_3));
   Set_ tr1_4 (lo32 (R tr0_4) (R tr0_5));
   Set_ tr1_5 (lo32 (R tr0_6) (R tr0_7));
   Set_ tr1_6 (hi32 (R tr0_4) (R tr0_5));
   Set_ tr1_7 (hi32 (R tr0_6) (R tr0_7));
   Set_ (T56 + 1) (lo64 (R tr1_0) (R tr1_4));
   Set_ (T57 + 1) (hi64 (R tr1_0) (R tr1_4));
   Set_ (T58 + 1) (lo64 (R tr1_2) (R tr1_6));
   Set_ (T59 + 1) (hi64 (R tr1_2) (R tr1_6));
   Set_ (T60 + 1) (lo64 (R tr1_1) (R tr1_5));
   Set_ (T61 + 1) (hi64 (R tr1_1) (R tr1_5));
   Set_ (T62 + 1) (lo64 (R tr1_3) (R tr1_7));
   Set_ (T63 + 1) (hi64 (R tr1_3) (R tr1_7))]
  ++ [Set_ tr0_0 (lo16 (R V08) (R V40));
   Set_ tr0_1 (lo16 (R V09) (R V41));
   Set_ tr0_2 (hi16 (R V08) (R V40));
   Set_ tr0_3 (hi16 (R V09) (R V41));
   Set_ tr0_4 (lo16 (R V10) (R V42));
   Set_ tr0_5 (lo16 (R V11) (R V43));
   Set_ tr0_6 (hi16 (R V10) (R V42));
   Set_ tr0_7 (hi16 (R V11) (R V43));
   Set_ tr1_0 (lo32 (R tr0_0) (R tr0_1));
   Set_ tr1_1 (lo32 (R tr0_2) (R tr0_3));
   Set_ tr1_2 (hi32 (R tr0_0) (R tr0_1));
   Set_ tr1_3 (hi32 (R tr0_2) (R tr0_3));
   Set_ tr1_4 (lo32 (R tr0_4) (R tr0_5));
   Set_ tr1_5 (lo32 (R tr0_6) (R tr0_7));
   Set_ tr1_6 (hi32 (R tr0_4) (R tr0_5));
   Set_ tr1_7 (hi32 (R tr0_6) (R tr0_7));
   Set_ (T00 + 2) (lo64 (R tr1_0) (R tr1_4));
   Set_ (T01 + 2) (hi64 (R tr1_0) (R tr1_4));
   Set_ (T02 + 2) (lo64 (R tr1_2) (R tr1_6));
   Set_ (T03 + 2) (hi64 (R tr1_2) (R tr1_6));
   Set_ (T04 + 2) (lo64 (R tr1_1) (R tr1_5));
   Set_ (T05 + 2) (hi64 (R tr1_1) (R tr1_5));
   Set_ (T06 + 2) (lo64 (R tr1_3) (R tr1_7));
   Set_ (T07 + 2) (hi64 (R tr1_3) (R tr1_7));
   Set_ tr0_0 (lo16 (R V12) (R V44));
   Set_ tr0_1 (lo16 (R V13) (R V45));
   Set_ tr0_2 (hi16 (R V12) (R V44));
   Set_ tr0_3 (hi16 (R V13) (R V45));
   Set_ tr0_4 (lo16 (R V14) (R V46));
   Set_ tr0_5 (lo16 (R V15) (R V47));
   Set_ tr0_6 (hi16 (R V14) (R V46));
   Set_ tr0_7 (hi16 (R V15) (R V47));
   Set_ tr1_0 (lo32 (R tr0_0) (R tr0_1));
   Set_ tr1_1 (lo32 (R tr0_2) (R tr0_3));
   Set_ tr1_2 (hi32 (R tr0_0) (R tr0_1));
   Set_ tr1_3 (hi32 (R tr0_2) (R tr0_3));
   Set_ tr1_4 (lo32 (R tr0_4) (R tr0_5));
   Set_ tr1_5 (lo32 (R tr0_6) (R tr0_7));
   Set_ tr1_6 (hi32 (R tr0_4) (R tr0_5));
   Set_ tr1_7 (hi32 (R tr0_6) (R tr0_7));
   Set_ (T00 + 3) (lo64 (R tr1_0) (R tr1_4));
   Set_ (T01 + 3) (hi64 (R tr1_0) (R tr1_4));
   Set_ (T02 + 3) (lo64 (R tr1_2) (R tr1_6));
   Set_ (T03 + 3) (hi64 (R tr1_2) (R tr1_6));
   Set_ (T04 + 3) (lo64 (R tr1_1) (R tr1_5));
   Set_ (T05 + 3) (hi64 (R tr1_1) (R tr1_5));
   Set_ (T06 + 3) (lo64 (R tr1_3) (R tr1_7));
   Set_ (T07 + 3) (hi64 (R tr1_3) (R tr1_7));
   Set_ tr0_0 (lo16 (R (V08 + 1)) (R (V40 + 1)));
   Set_ tr0_1 (lo16 (R (V09 + 1)) (R (V41 + 1)));
   Set_ tr0_2 (hi16 (R (V08 + 1)) (R (V40 + 1)));
   Set_ tr0_3 (hi16 (R (V09 + 1)) (R (V41 + 1)));
   Set_ tr0_4 (lo16 (R (V10 + 1)) (R (V42 + 1)));
   Set_ tr0_5 (lo16 (R (V11 + 1)) (R (V43 + 1)));
   Set_ tr0_6 (hi16 (R (V10 + 1)) (R (V42 + 1)));
   Set_ tr0_7 (hi16 (R (V11 + 1)) (R (V43 + 1)));
   Set_ tr1_0 (lo32 (R tr0_0) (R tr0_1));
   Set_ tr1_1 (lo32 (R tr0_2) (R tr0_3));
   Set_ tr1_2 (hi32 (R tr0_0) (R tr0_1));
   Set_ tr1_3 (hi32 (R tr0_2) (R tr0_3));
   Set_ tr1_4 (lo32 (R tr0_4) (R tr0_5));
   Set_ tr1_5 (lo32 (R tr0_6) (R tr0_7));
   Set_ tr1_6 (hi32 (R tr0_4) (R tr0_5));
   Set_ tr1_7 (hi32 (R tr0_6) (R tr0_7))]
  ++ [Set_ (T08 + 2) (lo64 (R tr1_0) (R tr1_4));
   Set_ (T09 + 2) (hi64 (R tr1_0) (R tr1_4));
   Set_ (T10 + 2) (lo64 (R tr1_2) (R tr1_6));
   Set_ (T11 + 2) (hi64 (R tr1_2) (R tr1_6));
   Set_ (T12 + 2) (lo64 (R tr1_1) (R tr1_5));
   Set_ (T13 + 2) (hi64 (R tr1_1) (R tr1_5));
   Set_ (T14 + 2) (lo64 (R tr1_3) (R tr1_7));
   Set_ (T15 + 2) (hi64 (R tr1_3) (R tr1_7));
   Set_ tr0_0 (lo16 (R (V12 + 1)) (R (V44 + 1)));
   Set_ tr0_1 (lo16 (R (V13 + 1)) (R (V45 + 1)));
   Set_ tr0_2 (hi16 (R (V12 + 1)) (R (V44 + 1)));
   Set_ tr0_3 (hi16 (R (V13 + 1)) (R (V45 + 1)));
   Set_ tr0_4 (lo16 (R (V14 + 1)) (R (V46 + 1)));
   Set_ tr0_5 (lo16 (R (V15 + 1)) (R (V47 + 1)));
   Set_ tr0_6 (hi16 (R (V14 + 1)) (R (V46 + 1)));
   Set_ tr0_7 (hi16 (R (V15 + 1)) (R (V47 + 1)));
   Set_ tr1_0 (lo32 (R tr0_0) (R tr0_1));
   Set_ tr1_1 (lo32 (R tr0_2) (R tr0_3));
   Set_ tr1_2 (hi32 (R tr0_0) (R tr0_1));
   Set_ tr1_3 (hi32 (R tr0_2) (R tr0_3));
   Set_ tr1_4 (lo32 (R tr0_4) (R tr0_5));
   Set_ tr1_5 (lo32 (R tr0_6) (R tr0_7));
   Set_ tr1_6 (hi32 (R tr0_4) (R tr0_5));
   Set_ tr1_7 (hi32 (R tr0_6) (R tr0_7));
   Set_ (T08 + 3) (lo64 (R tr1_0) (R tr1_4));
   Set_ (T09 + 3) (hi64 (R tr1_0) (R tr1_4));
   Set_ (T10 + 3) (lo64 (R tr1_2) (R tr1_6));
   Set_ (T11 + 3) (hi64 (R tr1_2) (R tr1_6));
   Set_ (T12 + 3) (lo64 (R tr1_1) (R tr1_5));
   Set_ (T13 + 3) (hi64 (R tr1_1) (R tr1_5));
   Set_ (T14 + 3) (lo64 (R tr1_3) (R tr1_7));
   Set_ (T15 + 3) (hi64 (R tr1_3) (R tr1_7));
   Set_ tr0_0 (lo16 (R (V08 + 2)) (R (V40 + 2)));
   Set_ tr0_1 (lo16 (R (V09 + 2)) (R (V41 + 2)));
   Set_ tr0_2 (hi16 (R (V08 + 2)) (R (V40 + 2)));
   Set_ tr0_3 (hi16 (R (V09 + 2)) (R (V41 + 2)));
   Set_ tr0_4 (lo16 (R (V10 + 2)) (R (V42 + 2)));
   Set_ tr0_5 (lo16 (R (V11 + 2)) (R (V43 + 2)));
   Set_ tr0_6 (hi16 (R (V10 + 2)) (R (V42 + 2)));
   Set_ tr0_7 (hi16 (R (V11 + 2)) (R (V43 + 2)));
   Set_ tr1_0 (lo32 (R tr0_0) (R tr0_1));
   Set_ tr1_1 (lo32 (R tr0_2) (R tr0_3));
   Set_ tr1_2 (hi32 (R tr0_0) (R tr0_1));
   Set_ tr1_3 (hi32 (R tr0_2) (R tr0_3));
   Set_ tr1_4 (lo32 (R tr0_4) (R tr0_5));
   Set_ tr1_5 (lo32 (R tr0_6) (R tr0_7));
   Set_ tr1_6 (hi32 (R tr0_4) (R tr0_5));
   Set_ tr1_7 (hi32 (R tr0_6) (R tr0_7));
   Set_ (T16 + 2) (lo64 (R tr1_0) (R tr1_4));
   Set_ (T17 + 2) (hi64 (R tr1_0) (R tr1_4));
   Set_ (T18 + 2) (lo64 (R tr1_2) (R tr1_6));
   Set_ (T19 + 2) (hi64 (R tr1_2) (R tr1_6));
   Set_ (T20 + 2) (lo64 (R tr1_1) (R tr1_5));
   Set_ (T21 + 2) (hi64 (R tr1_1) (R tr1_5));
   Set_ (T22 + 2) (lo64 (R tr1_3) (R tr1_7));
   Set_ (T23 + 2) (hi64 (R tr1_3) (R tr1_7));
   Set_ tr0_0 (lo16 (R (V12 + 2)) (R (V44 + 2)));
   Set_ tr0_1 (lo16 (R (V13 + 2)) (R (V45 + 2)));
   Set_ tr0_2 (hi16 (R (V12 + 2)) (R (V44 + 2)));
   Set_ tr0_3 (hi16 (R (V13 + 2)) (R (V45 + 2)));
   Set_ tr0_4 (lo16 (R (V14 + 2)) (R (V46 + 2)));
   Set_ tr0_5 (lo16 (R (V15 + 2)) (R (V47 + 2)));
   Set_ tr0_6 (hi16 (R (V14 + 2)) (R (V46 + 2)));
   Set_ tr0_7 (hi16 (R (V15 + 2)) (R (V47 + 2)))]
  ++ [Set_ tr1_0 (lo32 (R tr0_0) (R tr0_1));
   Set_ tr1_1 (lo32 (R tr0_2) (R tr0_3));
   Set_ tr1_2 (hi32 (R tr0_0) (R tr0_1));
   Set_ tr1_3 (hi32 (R tr0_2) (R tr0_3));
   Set_ tr1_4 (lo32 (R tr0_4) (R tr0_5));
   Set_ tr1_5 (lo32 (R tr0_6) (R tr0_7));
   Set_ tr1_6 (hi32 (R tr0_4) (R tr0_5));
   Set_ tr1_7 (hi32 (R tr0_6) (R tr0_7));
   Set_ (T16 + 3) (lo64 (R tr1_0) (R tr1_4));
   Set_ (T17 + 3) (hi64 (R tr1_0) (R tr1_4));
   Set_ (T18 + 3) (lo64 (R tr1_2) (R tr1_6));
   Set_ (T19 + 3) (hi64 (R tr1_2) (R tr1_6));
   Set_ (T20 + 3) (lo64 (R tr1_1) (R tr1_5));
   Set_ (T21 + 3) (hi64 (R tr1_1) (R tr1_5));
   Set_ (T22 + 3) (lo64 (R tr1_3) (R tr1_7));
   Set_ (T23 + 3) (hi64 (R tr1_3) (R tr1_7));
   Set_ tr0_0 (lo16 (R (V08 + 3)) (R (V40 + 3)));
   Set_ tr0_1 (lo16 (R (V09 + 3)) (R (V41 + 3)));
   Set_ tr0_2 (hi16 (R (V08 + 3)) (R (V40 + 3)));
   Set_ tr0_3 (hi16 (R (V09 + 3)) (R (V41 + 3)));
   Set_ tr0_4 (lo16 (R (V10 + 3)) (R (V42 + 3)));
   Set_ tr0_5 (lo16 (R (V11 + 3)) (R (V43 + 3)));
   Set_ tr0_6 (hi16 (R (V10 + 3)) (R (V42 + 3)));
   Set_ tr0_7 (hi16 (R (V11 + 3)) (R (V43 + 3)));
   Set_ tr1_0 (lo32 (R tr0_0) (R tr0_1));
   Set_ tr1_1 (lo32 (R tr0_2) (R tr0_3));
   Set_ tr1_2 (hi32 (R tr0_0) (R tr0_1));
   Set_ tr1_3 (hi32 (R tr0_2) (R tr0_3));
   Set_ tr1_4 (lo32 (R tr0_4) (R tr0_5));
   Set_ tr1_5 (lo32 (R tr0_6) (R tr0_7));
   Set_ tr1_6 (hi32 (R tr0_4) (R tr0_5));
   Set_ tr1_7 (hi32 (R tr0_6) (R tr0_7));
   Set_ (T24 + 2) (lo64 (R tr1_0) (R tr1_4));
   Set_ (T25 + 2) (hi64 (R tr1_0) (R tr1_4));
   Set_ (T26 + 2) (lo64 (R tr1_2) (R tr1_6));
   Set_ (T27 + 2) (hi64 (R tr1_2) (R tr1_6));
   Set_ (T28 + 2) (lo64 (R tr1_1) (R tr1_5));
   Set_ (T29 + 2) (hi64 (R tr1_1) (R tr1_5));
   Set_ (T30 + 2) (lo64 (R tr1_3) (R tr1_7));
   Set_ (T31 + 2) (hi64 (R tr1_3) (R tr1_7));
   Set_ tr0_0 (lo16 (R (V12 + 3)) (R (V44 + 3)));
   Set_ tr0_1 (lo16 (R (V13 + 3)) (R (V45 + 3)));
   Set_ tr0_2 (hi16 (R (V12 + 3)) (R (V44 + 3)));
   Set_ tr0_3 (hi16 (R (V13 + 3)) (R (V45 + 3)));
   Set_ tr0_4 (lo16 (R (V14 + 3)) (R (V46 + 3)));
   Set_ tr0_5 (lo16 (R (V15 + 3)) (R (V47 + 3)));
   Set_ tr0_6 (hi16 (R (V14 + 3)) (R (V46 + 3)));
   Set_ tr0_7 (hi16 (R (V15 + 3)) (R (V47 + 3)));
   Set_ tr1_0 (lo32 (R tr0_0) (R tr0_1));
   Set_ tr1_1 (lo32 (R tr0_2) (R tr0_3));
   Set_ tr1_2 (hi32 (R tr0_0) (R tr0_1));
   Set_ tr1_3 (hi32 (R tr0_2) (R tr0_3));
   Set_ tr1_4 (lo32 (R tr0_4) (R tr0_5));
   Set_ tr1_5 (lo32 (R tr0_6) (R tr0_7));
   Set_ tr1_6 (hi32 (R tr0_4) (R tr0_5));
   Set_ tr1_7 (hi32 (R tr0_6) (R tr0_7));
   Set_ (T24 + 3) (lo64 (R tr1_0) (R tr1_4));
   Set_ (T25 + 3) (hi64 (R tr1_0) (R tr1_4));
   Set_ (T26 + 3) (lo64 (R tr1_2) (R tr1_6));
   Set_ (T27 + 3) (hi64 (R tr1_2) (R tr1_6));
   Set_ (T28 + 3) (lo64 (R tr1_1) (R tr1_5));
   Set_ (T29 + 3) (hi64 (R tr1_1) (R tr1_5));
   Set_ (T30 + 3) (lo64 (R tr1_3) (R tr1_7));
   Set_ (T31 + 3) (hi64 (R tr1_3) (R tr1_7))]
  ++ [Set_ tr0_0 (lo16 (R (V08 + 4)) (R (V40 + 4)));
   Set_ tr0_1 (lo16 (R (V09 + 4)) (R (V41 + 4)));
   Set_ tr0_2 (hi16 (R (V08 + 4)) (R (V40 + 4)));
   Set_ tr0_3 (hi16 (R (V09 + 4)) (R (V41 + 4)));
   Set_ tr0_4 (lo16 (R (V10 + 4)) (R (V42 + 4)));
   Set_ tr0_5 (lo16 (R (V11 + 4)) (R (V43 + 4)));
   Set_ tr0_6 (hi16 (R (V10 + 4)) (R (V42 + 4)));
   Set_ tr0_7 (hi16 (R (V11 + 4)) (R (V43 + 4)));
   Set_ tr1_0 (lo32 (R tr0_0) (R tr0_1));
   Set_ tr1_1 (lo32 (R tr0_2) (R tr0_3));
   Set_ tr1_2 (hi32 (R tr0_0) (R tr0_1));
   Set_ tr1_3 (hi32 (R tr0_2) (R tr0_3));
   Set_ tr1_4 (lo32 (R tr0_4) (R tr0_5));
   Set_ tr1_5 (lo32 (R tr0_6) (R tr0_7));
   Set_ tr1_6 (hi32 (R tr0_4) (R tr0_5));
   Set_ tr1_7 (hi32 (R tr0_6) (R tr0_7));
   Set_ (T32 + 2) (lo64 (R tr1_0) (R tr1_4));
   Set_ (T33 + 2) (hi64 (R tr1_0) (R tr1_4));
   Set_ (T34 + 2) (lo64 (R tr1_2) (R tr1_6));
   Set_ (T35 + 2) (hi64 (R tr1_2) (R tr1_6));
   Set_ (T36 + 2) (lo64 (R tr1_1) (R tr1_5));
   Set_ (T37 + 2) (hi64 (R tr1_1) (R tr1_5));
   Set_ (T38 + 2) (lo64 (R tr1_3) (R tr1_7));
   Set_ (T39 + 2) (hi64 (R tr1_3) (R tr1_7));
   Set_ tr0_0 (lo16 (R (V12 + 4)) (R (V44 + 4)));
   Set_ tr0_1 (lo16 (R (V13 + 4)) (R (V45 + 4)));
   Set_ tr0_2 (hi16 (R (V12 + 4)) (R (V44 + 4)));
   Set_ tr0_3 (hi16 (R (V13 + 4)) (R (V45 + 4)));
   Set_ tr0_4 (lo16 (R (V14 + 4)) (R (V46 + 4)));
   Set_ tr0_5 (lo16 (R (V15 + 4)) (R (V47 + 4)));
   Set_ tr0_6 (hi16 (R (V14 + 4)) (R (V46 + 4)));
   Set_ tr0_7 (hi16 (R (V15 + 4)) (R (V47 + 4)));
   Set_ tr1_0 (lo32 (R tr0_0) (R tr0_1));
   Set_ tr1_1 (lo32 (R tr0_2) (R tr0_3));
   Set_ tr1_2 (hi32 (R tr0_0) (R tr0_1));
   Set_ tr1_3 (hi32 (R tr0_2) (R tr0_3));
   Set_ tr1_4 (lo32 (R tr0_4) (R tr0_5));
   Set_ tr1_5 (lo32 (R tr0_6) (R tr0_7));
   Set_ tr1_6 (hi32 (R tr0_4) (R tr0_5));
   Set_ tr1_7 (hi32 (R tr0_6) (R tr0_7));
   Set_ (T32 + 3) (lo64 (R tr1_0) (R tr1_4));
   Set_ (T33 + 3) (hi64 (R tr1_0) (R tr1_4));
   Set_ (T34 + 3) (lo64 (R tr1_2) (R tr1_6));
   Set_ (T35 + 3) (hi64 (R tr1_2) (R tr1_6));
   Set_ (T36 + 3) (lo64 (R tr1_1) (R tr1_5));
   Set_ (T37 + 3) (hi64 (R tr1_1) (R tr1_5));
   Set_ (T38 + 3) (lo64 (R tr1_3) (R tr1_7));
   Set_ (T39 + 3) (hi64 (R tr1_3) (R tr1_7));
   Set_ tr0_0 (lo16 (R (V08 + 5)) (R (V40 + 5)));
   Set_ tr0_1 (lo16 (R (V09 + 5)) (R (V41 + 5)));
   Set_ tr0_2 (hi16 (R (V08 + 5)) (R (V40 + 5)));
   Set_ tr0_3 (hi16 (R (V09 + 5)) (R (V41 + 5)));
   Set_ tr0_4 (lo16 (R (V10 + 5)) (R (V42 + 5)));
   Set_ tr0_5 (lo16 (R (V11 + 5)) (R (V43 + 5)));
   Set_ tr0_6 (hi16 (R (V10 + 5)) (R (V42 + 5)));
   Set_ tr0_7 (hi16 (R (V11 + 5)) (R (V43 + 5)));
   Set_ tr1_0 (lo32 (R tr0_0) (R tr0_1));
   Set_ tr1_1 (lo32 (R tr0_2) (R tr0_3));
   Set_ tr1_2 (hi32 (R tr0_0) (R tr0_1));
   Set_ tr1_3 (hi32 (R tr0_2) (R tr0_3));
   Set_ tr1_4 (lo32 (R tr0_4) (R tr0_5));
   Set_ tr1_5 (lo32 (R tr0_6) (R tr0_7));
   Set_ tr1_6 (hi32 (R tr0_4) (R tr0_5));
   Set_ tr1_7 (hi32 (R tr0_6) (R tr0_7))]
  ++ [Set_ (T40 + 2) (lo64 (R tr1_0) (R tr1_4));
   Set_ (T41 + 2) (hi64 (R tr1_0) (R tr1_4));
   Set_ (T42 + 2) (lo64 (R tr1_2) (R tr1_6));
   Set_ (T43 + 2) (hi64 (R tr1_2) (R tr1_6));
   Set_ (T44 + 2) (lo64 (R tr1_1) (R tr1_5));
   Set_ (T45 + 2) (hi64 (R tr1_1) (R tr1_5));
   Set_ (T46 + 2) (lo64 (R tr1_3) (R tr1_7));
   Set_ (T47 + 2) (hi64 (R tr1_3) (R tr1_7));
   Set_ tr0_0 (lo16 (R (V12 + 5)) (R (V44 + 5)));
   Set_ tr0_1 (lo16 (R (V13 + 5)) (R (V45 + 5)));
   Set_ tr0_2 (hi16 (R (V12 + 5)) (R (V44 + 5)));
   Set_ tr0_3 (hi16 (R (V13 + 5)) (R (V45 + 5)));
   Set_ tr0_4 (lo16 (R (V14 + 5)) (R (V46 + 5)));
   Set_ tr0_5 (lo16 (R (V15 + 5)) (R (V47 + 5)));
   Set_ tr0_6 (hi16 (R (V14 + 5)) (R (V46 + 5)));
   Set_ tr0_7 (hi16 (R (V15 + 5)) (R (V47 + 5)));
   Set_ tr1_0 (lo32 (R tr0_0) (R tr0_1));
   Set_ tr1_1 (lo32 (R tr0_2) (R tr0_3));
   Set_ tr1_2 (hi32 (R tr0_0) (R tr0_1));
   Set_ tr1_3 (hi32 (R tr0_2) (R tr0_3));
   Set_ tr1_4 (lo32 (R tr0_4) (R tr0_5));
   Set_ tr1_5 (lo32 (R tr0_6) (R tr0_7));
   Set_ tr1_6 (hi32 (R tr0_4) (R tr0_5));
   Set_ tr1_7 (hi32 (R tr0_6) (R tr0_7));
   Set_ (T40 + 3) (lo64 (R tr1_0) (R tr1_4));
   Set_ (T41 + 3) (hi64 (R tr1_0) (R tr1_4));
   Set_ (T42 + 3) (lo64 (R tr1_2) (R tr1_6));
   Set_ (T43 + 3) (hi64 (R tr1_2) (R tr1_6));
   Set_ (T44 + 3) (lo64 (R tr1_1) (R tr1_5));
   Set_ (T45 + 3) (hi64 (R tr1_1) (R tr1_5));
   Set_ (T46 + 3) (lo64 (R tr1_3) (R tr1_7));
   Set_ (T47 + 3) (hi64 (R tr1_3) (R tr1_7));
   Set_ tr0_0 (lo16 (R (V08 + 6)) (R (V40 + 6)));
   Set_ tr0_1 (lo16 (R (V09 + 6)) (R (V41 + 6)));
   Set_ tr0_2 (hi16 (R (V08 + 6)) (R (V40 + 6)));
   Set_ tr0_3 (hi16 (R (V09 + 6)) (R (V41 + 6)));
   Set_ tr0_4 (lo16 (R (V10 + 6)) (R (V42 + 6)));
   Set_ tr0_5 (lo16 (R (V11 + 6)) (R (V43 + 6)));
   Set_ tr0_6 (hi16 (R (V10 + 6)) (R (V42 + 6)));
   Set_ tr0_7 (hi16 (R (V11 + 6)) (R (V43 + 6)));
   Set_ tr1_0 (lo32 (R tr0_0) (R tr0_1));
   Set_ tr1_1 (lo32 (R tr0_2) (R tr0_3));
   Set_ tr1_2 (hi32 (R tr0_0) (R tr0_1));
   Set_ tr1_3 (hi32 (R tr0_2) (R tr0_3));
   Set_ tr1_4 (lo32 (R tr0_4) (R tr0_5));
   Set_ tr1_5 (lo32 (R tr0_6) (R tr0_7));
   Set_ tr1_6 (hi32 (R tr0_4) (R tr0_5));
   Set_ tr1_7 (hi32 (R tr0_6) (R tr0_7));
   Set_ (T48 + 2) (lo64 (R tr1_0) (R tr1_4));
   Set_ (T49 + 2) (hi64 (R tr1_0) (R tr1_4));
   Set_ (T50 + 2) (lo64 (R tr1_2) (R tr1_6));
   Set_ (T51 + 2) (hi64 (R tr1_2) (R tr1_6));
   Set_ (T52 + 2) (lo64 (R tr1_1) (R tr1_5));
   Set_ (T53 + 2) (hi64 (R tr1_1) (R tr1_5));
   Set_ (T54 + 2) (lo64 (R tr1_3) (R tr1_7));
   Set_ (T55 + 2) (hi64 (R tr1_3) (R tr1_7));
   Set_ tr0_0 (lo16 (R (V12 + 6)) (R (V44 + 6)));
   Set_ tr0_1 (lo16 (R (V13 + 6)) (R (V45 + 6)));
   Set_ tr0_2 (hi16 (R (V12 + 6)) (R (V44 + 6)));
   Set_ tr0_3 (hi16 (R (V13 + 6)) (R (V45 + 6)));
   Set_ tr0_4 (lo16 (R (V14 + 6)) (R (V46 + 6)));
   Set_ tr0_5 (lo16 (R (V15 + 6)) (R (V47 + 6)));
   Set_ tr0_6 (hi16 (R (V14 + 6)) (R (V46 + 6)));
   Set_ tr0_7 (hi16 (R (V15 + 6)) (R (V47 + 6)))]
  ++ [Set_ tr1_0 (lo32 (R tr0_0) (R tr0_1));
   Set_ tr1_1 (lo32 (R tr0_2) (R tr0_3));
   Set_ tr1_2 (hi32 (R tr0_0) (R tr0_1));
   Set_ tr1_3 (hi32 (R tr0_2) (R tr0_3));
   Set_ tr1_4 (lo32 (R tr0_4) (R tr0_5));
   Set_ tr1_5 (lo32 (R tr0_6) (R tr0_7));
   Set_ tr1_6 (hi32 (R tr0_4) (R tr0_5));
   Set_ tr1_7 (hi32 (R tr0_6) (R tr0_7));
   Set_ (T48 + 3) (lo64 (R tr1_0) (R tr1_4));
   Set_ (T49 + 3) (hi64 (R tr1_0) (R tr1_4));
   Set_ (T50 + 3) (lo64 (R tr1_2) (R tr1_6));
   Set_ (T51 + 3) (hi64 (R tr1_2) (R tr1_6));
   Set_ (T52 + 3) (lo64 (R tr1_1) (R tr1_5));
   Set_ (T53 + 3) (hi64 (R tr1_1) (R tr1_5));
   Set_ (T54 + 3) (lo64 (R tr1_3) (R tr1_7));
   Set_ (T55 + 3) (hi64 (R tr1_3) (R tr1_7));
   Set_ tr0_0 (lo16 (R (V08 + 7)) (R (V40 + 7)));
   Set_ tr0_1 (lo16 (R (V09 + 7)) (R (V41 + 7)));
   Set_ tr0_2 (hi16 (R (V08 + 7)) (R (V40 + 7)));
   Set_ tr0_3 (hi16 (R (V09 + 7)) (R (V41 + 7)));
   Set_ tr0_4 (lo16 (R (V10 + 7)) (R (V42 + 7)));
   Set_ tr0_5 (lo16 (R (V11 + 7)) (R (V43 + 7)));
   Set_ tr0_6 (hi16 (R (V10 + 7)) (R (V42 + 7)));
   Set_ tr0_7 (hi16 (R (V11 + 7)) (R (V43 + 7)));
   Set_ tr1_0 (lo32 (R tr0_0) (R tr0_1));
   Set_ tr1_1 (lo32 (R tr0_2) (R tr0_3));
   Set_ tr1_2 (hi32 (R tr0_0) (R tr0_1));
   Set_ tr1_3 (hi32 (R tr0_2) (R tr0_3));
   Set_ tr1_4 (lo32 (R tr0_4) (R tr0_5));
   Set_ tr1_5 (lo32 (R tr0_6) (R tr0_7));
   Set_ tr1_6 (hi32 (R tr0_4) (R tr0_5));
   Set_ tr1_7 (hi32 (R tr0_6) (R tr0_7));
   Set_ (T56 + 2) (lo64 (R tr1_0) (R tr1_4));
   Set_ (T57 + 2) (hi64 (R tr1_0) (R tr1_4));
   Set_ (T58 + 2) (lo64 (R tr1_2) (R tr1_6));
   Set_ (T59 + 2) (hi64 (R tr1_2) (R tr1_6));
   Set_ (T60 + 2) (lo64 (R tr1_1) (R tr1_5));
   Set_ (T61 + 2) (hi64 (R tr1_1) (R tr1_5));
   Set_ (T62 + 2) (lo64 (R tr1_3) (R tr1_7));
   Set_ (T63 + 2) (hi64 (R tr1_3) (R tr1_7));
   Set_ tr0_0 (lo16 (R (V12 + 7)) (R (V44 + 7)));
   Set_ tr0_1 (lo16 (R (V13 + 7)) (R (V45 + 7)));
   Set_ tr0_2 (hi16 (R (V12 + 7)) (R (V44 + 7)));
   Set_ tr0_3 (hi16 (R (V13 + 7)) (R (V45 + 7)));
   Set_ tr0_4 (lo16 (R (V14 + 7)) (R (V46 + 7)));
   Set_ tr0_5 (lo16 (R (V15 + 7)) (R (V47 + 7)));
   Set_ tr0_6 (hi16 (R (V14 + 7)) (R (V46 + 7)));
   Set_ tr0_7 (hi16 (R (V15 + 7)) (R (V47 + 7)));
   Set_ tr1_0 (lo32 (R tr0_0) (R tr0_1));
   Set_ tr1_1 (lo32 (R tr0_2) (R tr0_3));
   Set_ tr1_2 (hi32 (R tr0_0) (R tr0_1));
   Set_ tr1_3 (hi32 (R tr0_2) (R tr0_3));
   Set_ tr1_4 (lo32 (R tr0_4) (R tr0_5));
   Set_ tr1_5 (lo32 (R tr0_6) (R tr0_7));
   Set_ tr1_6 (hi32 (R tr0_4) (R tr0_5));
   Set_ tr1_7 (hi32 (R tr0_6) (R tr0_7));
   Set_ (T56 + 3) (lo64 (R tr1_0) (R tr1_4));
   Set_ (T57 + 3) (hi64 (R tr1_0) (R tr1_4));
   Set_ (T58 + 3) (lo64 (R tr1_2) (R tr1_6));
   Set_ (T59 + 3) (hi64 (R tr1_2) (R tr1_6));
   Set_ (T60 + 3) (lo64 (R tr1_1) (R tr1_5));
   Set_ (T61 + 3) (hi64 (R tr1_1) (R tr1_5));
   Set_ (T62 + 3) (lo64 (R tr1_3) (R tr1_7));
   Set_ (T63 + 3) (hi64 (R tr1_3) (R tr1_7))]
  ++ [Set_ tr0_0 (lo16 (R V16) (R V48));
   Set_ tr0_1 (lo16 (R V17) (R V49));
   Set_ tr0_2 (hi16 (R V16) (R V48));
   Set_ tr0_3 (hi16 (R V17) (R V49));
   Set_ tr0_4 (lo16 (R V18) (R V50));
   Set_ tr0_5 (lo16 (R V19) (R V51));
   Set_ tr0_6 (hi16 (R V18) (R V50));
   Set_ tr0_7 (hi16 (R V19) (R V51));
   Set_ tr1_0 (lo32 (R tr0_0) (R tr0_1));
   Set_ tr1_1 (lo32 (R tr0_2) (R tr0_3));
   Set_ tr1_2 (hi32 (R tr0_0) (R tr0_1));
   Set_ tr1_3 (hi32 (R tr0_2) (R tr0_3));
   Set_ tr1_4 (lo32 (R tr0_4) (R tr0_5));
   Set_ tr1_5 (lo32 (R tr0_6) (R tr0_7));
   Set_ tr1_6 (hi32 (R tr0_4) (R tr0_5));
   Set_ tr1_7 (hi32 (R tr0_6) (R tr0_7));
   Set_ (T00 + 4) (lo64 (R tr1_0) (R tr1_4));
   Set_ (T01 + 4) (hi64 (R tr1_0) (R tr1_4));
   Set_ (T02 + 4) (lo64 (R tr1_2) (R tr1_6));
   Set_ (T03 + 4) (hi64 (R tr1_2) (R tr1_6));
   Set_ (T04 + 4) (lo64 (R tr1_1) (R tr1_5));
   Set_ (T05 + 4) (hi64 (R tr1_1) (R tr1_5));
   Set_ (T06 + 4) (lo64 (R tr1_3) (R tr1_7));
   Set_ (T07 + 4) (hi64 (R tr1_3) (R tr1_7));
   Set_ tr0_0 (lo16 (R V20) (R V52));
   Set_ tr0_1 (lo16 (R V21) (R V53));
   Set_ tr0_2 (hi16 (R V20) (R V52));
   Set_ tr0_3 (hi16 (R V21) (R V53));
   Set_ tr0_4 (lo16 (R V22) (R V54));
   Set_ tr0_5 (lo16 (R V23) (R V55));
   Set_ tr0_6 (hi16 (R V22) (R V54));
   Set_ tr0_7 (hi16 (R V23) (R V55));
   Set_ tr1_0 (lo32 (R tr0_0) (R tr0_1));
   Set_ tr1_1 (lo32 (R tr0_2) (R tr0_3));
   Set_ tr1_2 (hi32 (R tr0_0) (R tr0_1));
   Set_ tr1_3 (hi32 (R tr0_2) (R tr0_3));
   Set_ tr1_4 (lo32 (R tr0_4) (R tr0_5));
   Set_ tr1_5 (lo32 (R tr0_6) (R tr0_7));
   Set_ tr1_6 (hi32 (R tr0_4) (R tr0_5));
   Set_ tr1_7 (hi32 (R tr0_6) (R tr0_7));
   Set_ (T00 + 5) (lo64 (R tr1_0) (R tr1_4));
   Set_ (T01 + 5) (hi64 (R tr1_0) (R tr1_4));
   Set_ (T02 + 5) (lo64 (R tr1_2) (R tr1_6));
   Set_ (T03 + 5) (hi64 (R tr1_2) (R tr1_6));
   Set_ (T04 + 5) (lo64 (R tr1_1) (R tr1_5));
   Set_ (T05 + 5) (hi64 (R tr1_1) (R tr1_5));
   Set_ (T06 + 5) (lo64 (R tr1_3) (R tr1_7));
   Set_ (T07 + 5) (hi64 (R tr1_3) (R tr1_7));
   Set_ tr0_0 (lo16 (R (V16 + 1)) (R (V48 + 1)));
   Set_ tr0_1 (lo16 (R (V17 + 1)) (R (V49 + 1)));
   Set_ tr0_2 (hi16 (R (V16 + 1)) (R (V48 + 1)));
   Set_ tr0_3 (hi16 (R (V17 + 1)) (R (V49 + 1)));
   Set_ tr0_4 (lo16 (R (V18 + 1)) (R (V50 + 1)));
   Set_ tr0_5 (lo16 (R (V19 + 1)) (R (V51 + 1)));
   Set_ tr0_6 (hi16 (R (V18 + 1)) (R (V50 + 1)));
   Set_ tr0_7 (hi16 (R (V19 + 1)) (R (V51 + 1)));
   Set_ tr1_0 (lo32 (R tr0_0) (R tr0_1));
   Set_ tr1_1 (lo32 (R tr0_2) (R tr0_3));
   Set_ tr1_2 (hi32 (R tr0_0) (R tr0_1));
   Set_ tr1_3 (hi32 (R tr0_2) (R tr0_3));
   Set_ tr1_4 (lo32 (R tr0_4) (R tr0_5));
   Set_ tr1_5 (lo32 (R tr0_6) (R tr0_7));
   Set_ tr1_6 (hi32 (R tr0_4) (R tr0_5));
   Set_ tr1_7 (hi32 (R tr0_6) (R tr0_7))]
  ++ [Set_ (T08 + 4) (lo64 (R tr1_0) (R tr1_4));
   Set_ (T09 + 4) (hi64 (R tr1_0) (R tr1_4));
   Set_ (T10 + 4) (lo64 (R tr1_2) (R tr1_6));
   Set_ (T11 + 4) (hi64 (R tr1_2) (R tr1_6));
   Set_ (T12 + 4) (lo64 (R tr1_1) (R tr1_5));
   Set_ (T13 + 4) (hi64 (R tr1_1) (R tr1_5));
   Set_ (T14 + 4) (lo64 (R tr1_3) (R tr1_7));
   Set_ (T15 + 4) (hi64 (R tr1_3) (R tr1_7));
   Set_ tr0_0 (lo16 (R (V20 + 1)) (R (V52 + 1)));
   Set_ tr0_1 (lo16 (R (V21 + 1)) (R (V53 + 1)));
   Set_ tr0_2 (hi16 (R (V20 + 1)) (R (V52 + 1)));
   Set_ tr0_3 (hi16 (R (V21 + 1)) (R (V53 + 1)));
   Set_ tr0_4 (lo16 (R (V22 + 1)) (R (V54 + 1)));
   Set_ tr0_5 (lo16 (R (V23 + 1)) (R (V55 + 1)));
   Set_ tr0_6 (hi16 (R (V22 + 1)) (R (V54 + 1)));
   Set_ tr0_7 (hi16 (R (V23 + 1)) (R (V55 + 1)));
   Set_ tr1_0 (lo32 (R tr0_0) (R tr0_1));
   Set_ tr1_1 (lo32 (R tr0_2) (R tr0_3));
   Set_ tr1_2 (hi32 (R tr0_0) (R tr0_1));
   Set_ tr1_3 (hi32 (R tr0_2) (R tr0_3));
   Set_ tr1_4 (lo32 (R tr0_4) (R tr0_5));
   Set_ tr1_5 (lo32 (R tr0_6) (R tr0_7));
   Set_ tr1_6 (hi32 (R tr0_4) (R tr0_5));
   Set_ tr1_7 (hi32 (R tr0_6) (R tr0_7));
   Set_ (T08 + 5) (lo64 (R tr1_0) (R tr1_4));
   Set_ (T09 + 5) (hi64 (R tr1_0) (R tr1_4));
   Set_ (T10 + 5) (lo64 (R tr1_2) (R tr1_6));
   Set_ (T11 + 5) (hi64 (R tr1_2) (R tr1_6));
   Set_ (T12 + 5) (lo64 (R tr1_1) (R tr1_5));
   Set_ (T13 + 5) (hi64 (R tr1_1) (R tr1_5));
   Set_ (T14 + 5) (lo64 (R tr1_3) (R tr1_7));
   Set_ (T15 + 5) (hi64 (R tr1_3) (R tr1_7));
   Set_ tr0_0 (lo16 (R (V16 + 2)) (R (V48 + 2)));
   Set_ tr0_1 (lo16 (R (V17 + 2)) (R (V49 + 2)));
   Set_ tr0_2 (hi16 (R (V16 + 2)) (R (V48 + 2)));
   Set_ tr0_3 (hi16 (R (V17 + 2)) (R (V49 + 2)));
   Set_ tr0_4 (lo16 (R (V18 + 2)) (R (V50 + 2)));
   Set_ tr0_5 (lo16 (R (V19 + 2)) (R (V51 + 2)));
   Set_ tr0_6 (hi16 (R (V18 + 2)) (R (V50 + 2)));
   Set_ tr0_7 (hi16 (R (V19 + 2)) (R (V51 + 2)));
   Set_ tr1_0 (lo32 (R tr0_0) (R tr0_1));
   Set_ tr1_1 (lo32 (R tr0_2) (R tr0_3));
   Set_ tr1_2 (hi32 (R tr0_0) (R tr0_1));
   Set_ tr1_3 (hi32 (R tr0_2) (R tr0_3));
   Set_ tr1_4 (lo32 (R tr0_4) (R tr0_5));
   Set_ tr1_5 (lo32 (R tr0_6) (R tr0_7));
   Set_ tr1_6 (hi32 (R tr0_4) (R tr0_5));
   Set_ tr1_7 (hi32 (R tr0_6) (R tr0_7));
   Set_ (T16 + 4) (lo64 (R tr1_0) (R tr1_4));
   Set_ (T17 + 4) (hi64 (R tr1_0) (R tr1_4));
   Set_ (T18 + 4) (lo64 (R tr1_2) (R tr1_6));
   Set_ (T19 + 4) (hi64 (R tr1_2) (R tr1_6));
   Set_ (T20 + 4) (lo64 (R tr1_1) (R tr1_5));
   Set_ (T21 + 4) (hi64 (R tr1_1) (R tr1_5));
   Set_ (T22 + 4) (lo64 (R tr1_3) (R tr1_7));
   Set_ (T23 + 4) (hi64 (R tr1_3) (R tr1_7));
   Set_ tr0_0 (lo16 (R (V20 + 2)) (R (V52 + 2)));
   Set_ tr0_1 (lo16 (R (V21 + 2)) (R (V53 + 2)));
   Set_ tr0_2 (hi16 (R (V20 + 2)) (R (V52 + 2)));
   Set_ tr0_3 (hi16 (R (V21 + 2)) (R (V53 + 2)));
   Set_ tr0_4 (lo16 (R (V22 + 2)) (R (V54 + 2)));
   Set_ tr0_5 (lo16 (R (V23 + 2)) (R (V55 + 2)));
   Set_ tr0_6 (hi16 (R (V22 + 2)) (R (V54 + 2)));
   Set_ tr0_7 (hi16 (R (V23 + 2)) (R (V55 + 2)))]
  ++ [Set_ tr1_0 (lo32 (R tr0_0) (R tr0_1));
   Set_ tr1_1 (lo32 (R tr0_2) (R tr0_3));
   Set_ tr1_2 (hi32 (R tr0_0) (R tr0_1));
   Set_ tr1_3 (hi32 (R tr0_2) (R tr0_3));
   Set_ tr1_4 (lo32 (R tr0_4) (R tr0_5));
   Set_ tr1_5 (lo32 (R tr0_6) (R tr0_7));
   Set_ tr1_6 (hi32 (R tr0_4) (R tr0_5));
   Set_ tr1_7 (hi32 (R tr0_6) (R tr0_7));
   Set_ (T16 + 5) (lo64 (R tr1_0) (R tr1_4));
   Set_ (T17 + 5) (hi64 (R tr1_0) (R tr1_4));
   Set_ (T18 + 5) (lo64 (R tr1_2) (R tr1_6));
   Set_ (T19 + 5) (hi64 (R tr1_2) (R tr1_6));
   Set_ (T20 + 5) (lo64 (R tr1_1) (R tr1_5));
   Set_ (T21 + 5) (hi64 (R tr1_1) (R tr1_5));
   Set_ (T22 + 5) (lo64 (R tr1_3) (R tr1_7));
   Set_ (T23 + 5) (hi64 (R tr1_3) (R tr1_7));
   Set_ tr0_0 (lo16 (R (V16 + 3)) (R (V48 + 3)));
   Set_ tr0_1 (lo16 (R (V17 + 3)) (R (V49 + 3)));
   Set_ tr0_2 (hi16 (R (V16 + 3)) (R (V48 + 3)));
   Set_ tr0_3 (hi16 (R (V17 + 3)) (R (V49 + 3)));
   Set_ tr0_4 (lo16 (R (V18 + 3)) (R (V50 + 3)));
   Set_ tr0_5 (lo16 (R (V19 + 3)) (R (V51 + 3)));
   Set_ tr0_6 (hi16 (R (V18 + 3)) (R (V50 + 3)));
   Set_ tr0_7 (hi16 (R (V19 + 3)) (R (V51 + 3)));
   Set_ tr1_0 (lo32 (R tr0_0) (R tr0_1));
   Set_ tr1_1 (lo32 (R tr0_2) (R tr0_3));
   Set_ tr1_2 (hi32 (R tr0_0) (R tr0_1));
   Set_ tr1_3 (hi32 (R tr0_2) (R tr0_3));
   Set_ tr1_4 (lo32 (R tr0_4) (R tr0_5));
   Set_ tr1_5 (lo32 (R tr0_6) (R tr0_7));
   Set_ tr1_6 (hi32 (R tr0_4) (R tr0_5));
   Set_ tr1_7 (hi32 (R tr0_6) (R tr0_7));
   Set_ (T24 + 4) (lo64 (R tr1_0) (R tr1_4));
   Set_ (T25 + 4) (hi64 (R tr1_0) (R tr1_4));
   Set_ (T26 + 4) (lo64 (R tr1_2) (R tr1_6));
   Set_ (T27 + 4) (hi64 (R tr1_2) (R tr1_6));
   Set_ (T28 + 4) (lo64 (R tr1_1) (R tr1_5));
   Set_ (T29 + 4) (hi64 (R tr1_1) (R tr1_5));
   Set_ (T30 + 4) (lo64 (R tr1_3) (R tr1_7));
   Set_ (T31 + 4) (hi64 (R tr1_3) (R tr1_7));
   Set_ tr0_0 (lo16 (R (V20 + 3)) (R (V52 + 3)));
   Set_ tr0_1 (lo16 (R (V21 + 3)) (R (V53 + 3)));
   Set_ tr0_2 (hi16 (R (V20 + 3)) (R (V52 + 3)));
   Set_ tr0_3 (hi16 (R (V21 + 3)) (R (V53 + 3)));
   Set_ tr0_4 (lo16 (R (V22 + 3)) (R (V54 + 3)));
   Set_ tr0_5 (lo16 (R (V23 + 3)) (R (V55 + 3)));
   Set_ tr0_6 (hi16 (R (V22 + 3)) (R (V54 + 3)));
   Set_ tr0_7 (hi16 (R (V23 + 3)) (R (V55 + 3)));
   Set_ tr1_0 (lo32 (R tr0_0) (R tr0_1));
   Set_ tr1_1 (lo32 (R tr0_2) (R tr0_3));
   Set_ tr1_2 (hi32 (R tr0_0) (R tr0_1));
   Set_ tr1_3 (hi32 (R tr0_2) (R tr0_3));
   Set_ tr1_4 (lo32 (R tr0_4) (R tr0_5));
   Set_ tr1_5 (lo32 (R tr0_6) (R tr0_7));
   Set_ tr1_6 (hi32 (R tr0_4) (R tr0_5));
   Set_ tr1_7 (hi32 (R tr0_6) (R tr0_7));
   Set_ (T24 + 5) (lo64 (R tr1_0) (R tr1_4));
   Set_ (T25 + 5) (hi64 (R tr1_0) (R tr1_4));
   Set_ (T26 + 5) (lo64 (R tr1_2) (R tr1_6));
   Set_ (T27 + 5) (hi64 (R tr1_2) (R tr1_6));
   Set_ (T28 + 5) (lo64 (R tr1_1) (R tr1_5));
   Set_ (T29 + 5) (hi64 (R tr1_1) (R tr1_5));
   Set_ (T30 + 5) (lo64 (R tr1_3) (R tr1_7));
   Set_ (T31 + 5) (hi64 (R tr1_3) (R tr1_7))]
  ++ [Set_ tr0_0 (lo16 (R (V16 + 4)) (R (V48 + 4)));
   Set_ tr0_1 (lo16 (R (V17 + 4)) (R (V49 + 4)));
   Set_ tr0_2 (hi16 (R (V16 + 4)) (R (V48 + 4)));
   Set_ tr0_3 (hi16 (R (V17 + 4)) (R (V49 + 4)));
   Set_ tr0_4 (lo16 (R (V18 + 4)) (R (V50 + 4)));
   Set_ tr0_5 (lo16 (R (V19 + 4)) (R (V51 + 4)));
   Set_ tr0_6 (hi16 (R (V18 + 4)) (R (V50 + 4)));
   Set_ tr0_7 (hi16 (R (V19 + 4)) (R (V51 + 4)));
   Set_ tr1_0 (lo32 (R tr0_0) (R tr0_1));
   Set_ tr1_1 (lo32 (R tr0_2) (R tr0_3));
   Set_ tr1_2 (hi32 (R tr0_0) (R tr0_1));
   Set_ tr1_3 (hi32 (R tr0_2) (R tr0_3));
   Set_ tr1_4 (lo32 (R tr0_4) (R tr0_5));
   Set_ tr1_5 (lo32 (R tr0_6) (R tr0_7));
   Set_ tr1_6 (hi32 (R tr0_4) (R tr0_5));
   Set_ tr1_7 (hi32 (R tr0_6) (R tr0_7));
   Set_ (T32 + 4) (lo64 (R tr1_0) (R tr1_4));
   Set_ (T33 + 4) (hi64 (R tr1_0) (R tr1_4));
   Set_ (T34 + 4) (lo64 (R tr1_2) (R tr1_6));
   Set_ (T35 + 4) (hi64 (R tr1_2) (R tr1_6));
   Set_ (T36 + 4) (lo64 (R tr1_1) (R tr1_5));
   Set_ (T37 + 4) (hi64 (R tr1_1) (R tr1_5));
   Set_ (T38 + 4) (lo64 (R tr1_3) (R tr1_7));
   Set_ (T39 + 4) (hi64 (R tr1_3) (R tr1_7));
   Set_ tr0_0 (lo16 (R (V20 + 4)) (R (V52 + 4)));
   Set_ tr0_1 (lo16 (R (V21 + 4)) (R (V53 + 4)));
   Set_ tr0_2 (hi16 (R (V20 + 4)) (R (V52 + 4)));
   Set_ tr0_3 (hi16 (R (V21 + 4)) (R (V53 + 4)));
   Set_ tr0_4 (lo16 (R (V22 + 4)) (R (V54 + 4)));
   Set_ tr0_5 (lo16 (R (V23 + 4)) (R (V55 + 4)));
   Set_ tr0_6 (hi16 (R (V22 + 4)) (R (V54 + 4)));
   Set_ tr0_7 (hi16 (R (V23 + 4)) (R (V55 + 4)));
   Set_ tr1_0 (lo32 (R tr0_0) (R tr0_1));
   Set_ tr1_1 (lo32 (R tr0_2) (R tr0_3));
   Set_ tr1_2 (hi32 (R tr0_0) (R tr0_1));
   Set_ tr1_3 (hi32 (R tr0_2) (R tr0_3));
   Set_ tr1_4 (lo32 (R tr0_4) (R tr0_5));
   Set_ tr1_5 (lo32 (R tr0_6) (R tr0_7));
   Set_ tr1_6 (hi32 (R tr0_4) (R tr0_5));
   Set_ tr1_7 (hi32 (R tr0_6) (R tr0_7));
   Set_ (T32 + 5) (lo64 (R tr1_0) (R tr1_4));
   Set_ (T33 + 5) (hi64 (R tr1_0) (R tr1_4));
   Set_ (T34 + 5) (lo64 (R tr1_2) (R tr1_6));
   Set_ (T35 + 5) (hi64 (R tr1_2) (R tr1_6));
   Set_ (T36 + 5) (lo64 (R tr1_1) (R tr1_5));
   Set_ (T37 + 5) (hi64 (R tr1_1) (R tr1_5));
   Set_ (T38 + 5) (lo64 (R tr1_3) (R tr1_7));
   Set_ (T39 + 5) (hi64 (R tr1_3) (R tr1_7));
   Set_ tr0_0 (lo16 (R (V16 + 5)) (R (V48 + 5)));
   Set_ tr0_1 (lo16 (R (V17 + 5)) (R (V49 + 5)));
   Set_ tr0_2 (hi16 (R (V16 + 5)) (R (V48 + 5)));
   Set_ tr0_3 (hi16 (R (V17 + 5)) (R (V49 + 5)));
   Set_ tr0_4 (lo16 (R (V18 + 5)) (R (V50 + 5)));
   Set_ tr0_5 (lo16 (R (V19 + 5)) (R (V51 + 5)));
   Set_ tr0_6 (hi16 (R (V18 + 5)) (R (V50 + 5)));
   Set_ tr0_7 (hi16 (R (V19 + 5)) (R (V51 + 5)));
   Set_ tr1_0 (lo32 (R tr0_0) (R tr0_1));
   Set_ tr1_1 (lo32 (R tr0_2) (R tr0_3));
   Set_ tr1_2 (hi32 (R tr0_0) (R tr0_1));
   Set_ tr1_3 (hi32 (R tr0_2) (R tr0_3));
   Set_ tr1_4 (lo32 (R tr0_4) (R tr0_5));
   Set_ tr1_5 (lo32 (R tr0_6) (R tr0_7));
   Set_ tr1_6 (hi32 (R tr0_4) (R tr0_5));
   Set_ tr1_7 (hi32 (R tr0_6) (R tr0_7))]
  ++ [Set_ (T40 + 4) (lo64 (R tr1_0) (R tr1_4));
   Set_ (T41 + 4) (hi64 (R tr1_0) (R tr1_4));
   Set_ (T42 + 4) (lo64 (R tr1_2) (R tr1_6));
   Set_ (T43 + 4) (hi64 (R tr1_2) (R tr1_6));
   Set_ (T44 + 4) (lo64 (R tr1_1) (R tr1_5));
   Set_ (T45 + 4) (hi64 (R tr1_1) (R tr1_5));
   Set_ (T46 + 4) (lo64 (R tr1_3) (R tr1_7));
   Set_ (T47 + 4) (hi64 (R tr1_3) (R tr1_7));
   Set_ tr0_0 (lo16 (R (V20 + 5)) (R (V52 + 5)));
   Set_ tr0_1 (lo16 (R (V21 + 5)) (R (V53 + 5)));
   Set_ tr0_2 (hi16 (R (V20 + 5)) (R (V52 + 5)));
   Set_ tr0_3 (hi16 (R (V21 + 5)) (R (V53 + 5)));
   Set_ tr0_4 (lo16 (R (V22 + 5)) (R (V54 + 5)));
   Set_ tr0_5 (lo16 (R (V23 + 5)) (R (V55 + 5)));
   Set_ tr0_6 (hi16 (R (V22 + 5)) (R (V54 + 5)));
   Set_ tr0_7 (hi16 (R (V23 + 5)) (R (V55 + 5)));
   Set_ tr1_0 (lo32 (R tr0_0) (R tr0_1));
   Set_ tr1_1 (lo32 (R tr0_2) (R tr0_3));
   Set_ tr1_2 (hi32 (R tr0_0) (R tr0_1));
   Set_ tr1_3 (hi32 (R tr0_2) (R tr0_3));
   Set_ tr1_4 (lo32 (R tr0_4) (R tr0_5));
   Set_ tr1_5 (lo32 (R tr0_6) (R tr0_7));
   Set_ tr1_6 (hi32 (R tr0_4) (R tr0_5));
   Set_ tr1_7 (hi32 (R tr0_6) (R tr0_7));
   Set_ (T40 + 5) (lo64 (R tr1_0) (R tr1_4));
   Set_ (T41 + 5) (hi64 (R tr1_0) (R tr1_4));
   Set_ (T42 + 5) (lo64 (R tr1_2) (R tr1_6));
   Set_ (T43 + 5) (hi64 (R tr1_2) (R tr1_6));
   Set_ (T44 + 5) (lo64 (R tr1_1) (R tr1_5));
   Set_ (T45 + 5) (hi64 (R tr1_1) (R tr1_5));
   Set_ (T46 + 5) (lo64 (R tr1_3) (R tr1_7));
   Set_ (T47 + 5) (hi64 (R tr1_3) (R tr1_7));
   Set_ tr0_0 (lo16 (R (V16 + 6)) (R (V48 + 6)));
   Set_ tr0_1 (lo16 (R (V17 + 6)) (R (V49 + 6)));
   Set_ tr0_2 (hi16 (R (V16 + 6)) (R (V48 + 6)));
   Set_ tr0_3 (hi16 (R (V17 + 6)) (R (V49 + 6)));
   Set_ tr0_4 (lo16 (R (V18 + 6)) (R (V50 + 6)));
   Set_ tr0_5 (lo16 (R (V19 + 6)) (R (V51 + 6)));
   Set_ tr0_6 (hi16 (R (V18 + 6)) (R (V50 + 6)));
   Set_ tr0_7 (hi16 (R (V19 + 6)) (R (V51 + 6)));
   Set_ tr1_0 (lo32 (R tr0_0) (R tr0_1));
   Set_ tr1_1 (lo32 (R tr0_2) (R tr0_3));
   Set_ tr1_2 (hi32 (R tr0_0) (R tr0_1));
   Set_ tr1_3 (hi32 (R tr0_2) (R tr0_3));
   Set_ tr1_4 (lo32 (R tr0_4) (R tr0_5));
   Set_ tr1_5 (lo32 (R tr0_6) (R tr0_7));
   Set_ tr1_6 (hi32 (R tr0_4) (R tr0_5));
   Set_ tr1_7 (hi32 (R tr0_6) (R tr0_7));
   Set_ (T48 + 4) (lo64 (R tr1_0) (R tr1_4));
   Set_ (T49 + 4) (hi64 (R tr1_0) (R tr1_4));
   Set_ (T50 + 4) (lo64 (R tr1_2) (R tr1_6));
   Set_ (T51 + 4) (hi64 (R tr1_2) (R tr1_6));
   Set_ (T52 + 4) (lo64 (R tr1_1) (R tr1_5));
   Set_ (T53 + 4) (hi64 (R tr1_1) (R tr1_5));
   Set_ (T54 + 4) (lo64 (R tr1_3) (R tr1_7));
   Set_ (T55 + 4) (hi64 (R tr1_3) (R tr1_7));
   Set_ tr0_0 (lo16 (R (V20 + 6)) (R (V52 + 6)));
   Set_ tr0_1 (lo16 (R (V21 + 6)) (R (V53 + 6)));
   Set_ tr0_2 (hi16 (R (V20 + 6)) (R (V52 + 6)));
   Set_ tr0_3 (hi16 (R (V21 + 6)) (R (V53 + 6)));
   Set_ tr0_4 (lo16 (R (V22 + 6)) (R (V54 + 6)));
   Set_ tr0_5 (lo16 (R (V23 + 6)) (R (V55 + 6)));
   Set_ tr0_6 (hi16 (R (V22 + 6)) (R (V54 + 6)));
   Set_ tr0_7 (hi16 (R (V23 + 6)) (R (V55 + 6)))]
  ++ [Set_ tr1_0 (lo32 (R tr0_0) (R tr0_1));
   Set_ tr1_1 (lo32 (R tr0_2) (R tr0_3));
   Set_ tr1_2 (hi32 (R tr0_0) (R tr0_1));
   Set_ tr1_3 (hi32 (R tr0_2) (R tr0_3));
   Set_ tr1_4 (lo32 (R tr0_4) (R tr0_5));
   Set_ tr1_5 (lo32 (R tr0_6) (R tr0_7));
   Set_ tr1_6 (hi32 (R tr0_4) (R tr0_5));
   Set_ tr1_7 (hi32 (R tr0_6) (R tr0_7));
   Set_ (T48 + 5) (lo64 (R tr1_0) (R tr1_4));
   Set_ (T49 + 5) (hi64 (R tr1_0) (R tr1_4));
   Set_ (T50 + 5) (lo64 (R tr1_2) (R tr1_6));
   Set_ (T51 + 5) (hi64 (R tr1_2) (R tr1_6));
   Set_ (T52 + 5) (lo64 (R tr1_1) (R tr1_5));
   Set_ (T53 + 5) (hi64 (R tr1_1) (R tr1_5));
   Set_ (T54 + 5) (lo64 (R tr1_3) (R tr1_7));
   Set_ (T55 + 5) (hi64 (R tr1_3) (R tr1_7));
   Set_ tr0_0 (lo16 (R (V16 + 7)) (R (V48 + 7)));
   Set_ tr0_1 (lo16 (R (V17 + 7)) (R (V49 + 7)));
   Set_ tr0_2 (hi16 (R (V16 + 7)) (R (V48 + 7)));
   Set_ tr0_3 (hi16 (R (V17 + 7)) (R (V49 + 7)));
   Set_ tr0_4 (lo16 (R (V18 + 7)) (R (V50 + 7)));
   Set_ tr0_5 (lo16 (R (V19 + 7)) (R (V51 + 7)));
   Set_ tr0_6 (hi16 (R (V18 + 7)) (R (V50 + 7)));
   Set_ tr0_7 (hi16 (R (V19 + 7)) (R (V51 + 7)));
   Set_ tr1_0 (lo32 (R tr0_0) (R tr0_1));
   Set_ tr1_1 (lo32 (R tr0_2) (R tr0_3));
   Set_ tr1_2 (hi32 (R tr0_0) (R tr0_1));
   Set_ tr1_3 (hi32 (R tr0_2) (R tr0_3));
   Set_ tr1_4 (lo32 (R tr0_4) (R tr0_5));
   Set_ tr1_5 (lo32 (R tr0_6) (R tr0_7));
   Set_ tr1_6 (hi32 (R tr0_4) (R tr0_5));
   Set_ tr1_7 (hi32 (R tr0_6) (R tr0_7));
   Set_ (T56 + 4) (lo64 (R tr1_0) (R tr1_4));
   Set_ (T57 + 4) (hi64 (R tr1_0) (R tr1_4));
   Set_ (T58 + 4) (lo64 (R tr1_2) (R tr1_6));
   Set_ (T59 + 4) (hi64 (R tr1_2) (R tr1_6));
   Set_ (T60 + 4) (lo64 (R tr1_1) (R tr1_5));
   Set_ (T61 + 4) (hi64 (R tr1_1) (R tr1_5));
   Set_ (T62 + 4) (lo64 (R tr1_3) (R tr1_7));
   Set_ (T63 + 4) (hi64 (R tr1_3) (R tr1_7));
   Set_ tr0_0 (lo16 (R (V20 + 7)) (R (V52 + 7)));
   Set_ tr0_1 (lo16 (R (V21 + 7)) (R (V53 + 7)));
   Set_ tr0_2 (hi16 (R (V20 + 7)) (R (V52 + 7)));
   Set_ tr0_3 (hi16 (R (V21 + 7)) (R (V53 + 7)));
   Set_ tr0_4 (lo16 (R (V22 + 7)) (R (V54 + 7)));
   Set_ tr0_5 (lo16 (R (V23 + 7)) (R (V55 + 7)));
   Set_ tr0_6 (hi16 (R (V22 + 7)) (R (V54 + 7)));
   Set_ tr0_7 (hi16 (R (V23 + 7)) (R (V55 + 7)));
   Set_ tr1_0 (lo32 (R tr0_0) (R tr0_1));
   Set_ tr1_1 (lo32 (R tr0_2) (R tr0_3));
   Set_ tr1_2 (hi32 (R tr0_0) (R tr0_1));
   Set_ tr1_3 (hi32 (R tr0_2) (R tr0_3));
   Set_ tr1_4 (lo32 (R tr0_4) (R tr0_5));
   Set_ tr1_5 (lo32 (R tr0_6) (R tr0_7));
   Set_ tr1_6 (hi32 (R tr0_4) (R tr0_5));
   Set_ tr1_7 (hi32 (R tr0_6) (R tr0_7));
   Set_ (T56 + 5) (lo64 (R tr1_0) (R tr1_4));
   Set_ (T57 + 5) (hi64 (R tr1_0) (R tr1_4));
   Set_ (T58 + 5) (lo64 (R tr1_2) (R tr1_6));
   Set_ (T59 + 5) (hi64 (R tr1_2) (R tr1_6));
   Set_ (T60 + 5) (lo64 (R tr1_1) (R tr1_5));
   Set_ (T61 + 5) (hi64 (R tr1_1) (R tr1_5));
   Set_ (T62 + 5) (lo64 (R tr1_3) (R tr1_7));
   Set_ (T63 + 5) (hi64 (R tr1_3) (R tr1_7))]
  ++ [Set_ tr0_0 (lo16 (R V24) (R V56));
   Set_ tr0_1 (lo16 (R V25) (R V57));
   Set_ tr0_2 (hi16 (R V24) (R V56));
   Set_ tr0_3 (hi16 (R V25) (R V57));
   Set_ tr0_4 (lo16 (R V26) (R V58));
   Set_ tr0_5 (lo16 (R V27) (R V59));
   Set_ tr0_6 (hi16 (R V26) (R V58));
   Set_ tr0_7 (hi16 (R V27) (R V59));
   Set_ tr1_0 (lo32 (R tr0_0) (R tr0_1));
   Set_ tr1_1 (lo32 (R tr0_2) (R tr0_3));
   Set_ tr1_2 (hi32 (R tr0_0) (R tr0_1));
   Set_ tr1_3 (hi32 (R tr0_2) (R tr0_3));
   Set_ tr1_4 (lo32 (R tr0_4) (R tr0_5));
   Set_ tr1_5 (lo32 (R tr0_6) (R tr0_7));
   Set_ tr1_6 (hi32 (R tr0_4) (R tr0_5));
   Set_ tr1_7 (hi32 (R tr0_6) (R tr0_7));
   Set_ (T00 + 6) (lo64 (R tr1_0) (R tr1_4));
   Set_ (T01 + 6) (hi64 (R tr1_0) (R tr1_4));
   Set_ (T02 + 6) (lo64 (R tr1_2) (R tr1_6));
   Set_ (T03 + 6) (hi64 (R tr1_2) (R tr1_6));
   Set_ (T04 + 6) (lo64 (R tr1_1) (R tr1_5));
   Set_ (T05 + 6) (hi64 (R tr1_1) (R tr1_5));
   Set_ (T06 + 6) (lo64 (R tr1_3) (R tr1_7));
   Set_ (T07 + 6) (hi64 (R tr1_3) (R tr1_7));
   Set_ tr0_0 (lo16 (R V28) (R V60));
   Set_ tr0_1 (lo16 (R V29) (R V61));
   Set_ tr0_2 (hi16 (R V28) (R V60));
   Set_ tr0_3 (hi16 (R V29) (R V61));
   Set_ tr0_4 (lo16 (R V30) (R V62));
   Set_ tr0_5 (lo16 (R V31) (R V63));
   Set_ tr0_6 (hi16 (R V30) (R V62));
   Set_ tr0_7 (hi16 (R V31) (R V63));
   Set_ tr1_0 (lo32 (R tr0_0) (R tr0_1));
   Set_ tr1_1 (lo32 (R tr0_2) (R tr0_3));
   Set_ tr1_2 (hi32 (R tr0_0) (R tr0_1));
   Set_ tr1_3 (hi32 (R tr0_2) (R tr0_3));
   Set_ tr1_4 (lo32 (R tr0_4) (R tr0_5));
   Set_ tr1_5 (lo32 (R tr0_6) (R tr0_7));
   Set_ tr1_6 (hi32 (R tr0_4) (R tr0_5));
   Set_ tr1_7 (hi32 (R tr0_6) (R tr0_7));
   Set_ (T00 + 7) (lo64 (R tr1_0) (R tr1_4));
   Set_ (T01 + 7) (hi64 (R tr1_0) (R tr1_4));
   Set_ (T02 + 7) (lo64 (R tr1_2) (R tr1_6));
   Set_ (T03 + 7) (hi64 (R tr1_2) (R tr1_6));
   Set_ (T04 + 7) (lo64 (R tr1_1) (R tr1_5));
   Set_ (T05 + 7) (hi64 (R tr1_1) (R tr1_5));
   Set_ (T06 + 7) (lo64 (R tr1_3) (R tr1_7));
   Set_ (T07 + 7) (hi64 (R tr1_3) (R tr1_7));
   Set_ tr0_0 (lo16 (R (V24 + 1)) (R (V56 + 1)));
   Set_ tr0_1 (lo16 (R (V25 + 1)) (R (V57 + 1)));
   Set_ tr0_2 (hi16 (R (V24 + 1)) (R (V56 + 1)));
   Set_ tr0_3 (hi16 (R (V25 + 1)) (R (V57 + 1)));
   Set_ tr0_4 (lo16 (R (V26 + 1)) (R (V58 + 1)));
   Set_ tr0_5 (lo16 (R (V27 + 1)) (R (V59 + 1)));
   Set_ tr0_6 (hi16 (R (V26 + 1)) (R (V58 + 1)));
   Set_ tr0_7 (hi16 (R (V27 + 1)) (R (V59 + 1)));
   Set_ tr1_0 (lo32 (R tr0_0) (R tr0_1));
   Set_ tr1_1 (lo32 (R tr0_2) (R tr0_3));
   Set_ tr1_2 (hi32 (R tr0_0) (R tr0_1));
   Set_ tr1_3 (hi32 (R tr0_2) (R tr0_3));
   Set_ tr1_4 (lo32 (R tr0_4) (R tr0_5));
   Set_ tr1_5 (lo32 (R tr0_6) (R tr0_7));
   Set_ tr1_6 (hi32 (R tr0_4) (R tr0_5));
   Set_ tr1_7 (hi32 (R tr0_6) (R tr0_7))]
  ++ [Set_ (T08 + 6) (lo64 (R tr1_0) (R tr1_4));
   Set_ (T09 + 6) (hi64 (R tr1_0) (R tr1_4));
   Set_ (T10 + 6) (lo64 (R tr1_2) (R tr1_6));
   Set_ (T11 + 6) (hi64 (R tr1_2) (R tr1_6));
   Set_ (T12 + 6) (lo64 (R tr1_1) (R tr1_5));
   Set_ (T13 + 6) (hi64 (R tr1_1) (R tr1_5));
   Set_ (T14 + 6) (lo64 (R tr1_3) (R tr1_7));
   Set_ (T15 + 6) (hi64 (R tr1_3) (R tr1_7));
   Set_ tr0_0 (lo16 (R (V28 + 1)) (R (V60 + 1)));
   Set_ tr0_1 (lo16 (R (V29 + 1)) (R (V61 + 1)));
   Set_ tr0_2 (hi16 (R (V28 + 1)) (R (V60 + 1)));
   Set_ tr0_3 (hi16 (R (V29 + 1)) (R (V61 + 1)));
   Set_ tr0_4 (lo16 (R (V30 + 1)) (R (V62 + 1)));
   Set_ tr0_5 (lo16 (R (V31 + 1)) (R (V63 + 1)));
   Set_ tr0_6 (hi16 (R (V30 + 1)) (R (V62 + 1)));
   Set_ tr0_7 (hi16 (R (V31 + 1)) (R (V63 + 1)));
   Set_ tr1_0 (lo32 (R tr0_0) (R tr0_1));
   Set_ tr1_1 (lo32 (R tr0_2) (R tr0_3));
   Set_ tr1_2 (hi32 (R tr0_0) (R tr0_1));
   Set_ tr1_3 (hi32 (R tr0_2) (R tr0_3));
   Set_ tr1_4 (lo32 (R tr0_4) (R tr0_5));
   Set_ tr1_5 (lo32 (R tr0_6) (R tr0_7));
   Set_ tr1_6 (hi32 (R tr0_4) (R tr0_5));
   Set_ tr1_7 (hi32 (R tr0_6) (R tr0_7));
   Set_ (T08 + 7) (lo64 (R tr1_0) (R tr1_4));
   Set_ (T09 + 7) (hi64 (R tr1_0) (R tr1_4));
   Set_ (T10 + 7) (lo64 (R tr1_2) (R tr1_6));
   Set_ (T11 + 7) (hi64 (R tr1_2) (R tr1_6));
   Set_ (T12 + 7) (lo64 (R tr1_1) (R tr1_5));
   Set_ (T13 + 7) (hi64 (R tr1_1) (R tr1_5));
   Set_ (T14 + 7) (lo64 (R tr1_3) (R tr1_7));
   Set_ (T15 + 7) (hi64 (R tr1_3) (R tr1_7));
   Set_ tr0_0 (lo16 (R (V24 + 2)) (R (V56 + 2)));
   Set_ tr0_1 (lo16 (R (V25 + 2)) (R (V57 + 2)));
   Set_ tr0_2 (hi16 (R (V24 + 2)) (R (V56 + 2)));
   Set_ tr0_3 (hi16 (R (V25 + 2)) (R (V57 + 2)));
   Set_ tr0_4 (lo16 (R (V26 + 2)) (R (V58 + 2)));
   Set_ tr0_5 (lo16 (R (V27 + 2)) (R (V59 + 2)));
   Set_ tr0_6 (hi16 (R (V26 + 2)) (R (V58 + 2)));
   Set_ tr0_7 (hi16 (R (V27 + 2)) (R (V59 + 2)));
   Set_ tr1_0 (lo32 (R tr0_0) (R tr0_1));
   Set_ tr1_1 (lo32 (R tr0_2) (R tr0_3));
   Set_ tr1_2 (hi32 (R tr0_0) (R tr0_1));
   Set_ tr1_3 (hi32 (R tr0_2) (R tr0_3));
   Set_ tr1_4 (lo32 (R tr0_4) (R tr0_5));
   Set_ tr1_5 (lo32 (R tr0_6) (R tr0_7));
   Set_ tr1_6 (hi32 (R tr0_4) (R tr0_5));
   Set_ tr1_7 (hi32 (R tr0_6) (R tr0_7));
   Set_ (T16 + 6) (lo64 (R tr1_0) (R tr1_4));
   Set_ (T17 + 6) (hi64 (R tr1_0) (R tr1_4));
   Set_ (T18 + 6) (lo64 (R tr1_2) (R tr1_6));
   Set_ (T19 + 6) (hi64 (R tr1_2) (R tr1_6));
   Set_ (T20 + 6) (lo64 (R tr1_1) (R tr1_5));
   Set_ (T21 + 6) (hi64 (R tr1_1) (R tr1_5));
   Set_ (T22 + 6) (lo64 (R tr1_3) (R tr1_7));
   Set_ (T23 + 6) (hi64 (R tr1_3) (R tr1_7));
   Set_ tr0_0 (lo16 (R (V28 + 2)) (R (V60 + 2)));
   Set_ tr0_1 (lo16 (R (V29 + 2)) (R (V61 + 2)));
   Set_ tr0_2 (hi16 (R (V28 + 2)) (R (V60 + 2)));
   Set_ tr0_3 (hi16 (R (V29 + 2)) (R (V61 + 2)));
   Set_ tr0_4 (lo16 (R (V30 + 2)) (R (V62 + 2)));
   Set_ tr0_5 (lo16 (R (V31 + 2)) (R (V63 + 2)));
   Set_ tr0_6 (hi16 (R (V30 + 2)) (R (V62 + 2)));
   Set_ tr0_7 (hi16 (R (V31 + 2)) (R (V63 + 2)))]
  ++ [Set_ tr1_0 (lo32 (R tr0_0) (R tr0_1));
   Set_ tr1_1 (lo32 (R tr0_2) (R tr0_3));
   Set_ tr1_2 (hi32 (R tr0_0) (R tr0_1));
   Set_ tr1_3 (hi32 (R tr0_2) (R tr0_3));
   Set_ tr1_4 (lo32 (R tr0_4) (R tr0_5));
   Set_ tr1_5 (lo32 (R tr0_6) (R tr0_7));
   Set_ tr1_6 (hi32 (R tr0_4) (R tr0_5));
   Set_ tr1_7 (hi32 (R tr0_6) (R tr0_7));
   Set_ (T16 + 7) (lo64 (R tr1_0) (R tr1_4));
   Set_ (T17 + 7) (hi64 (R tr1_0) (R tr1_4));
   Set_ (T18 + 7) (lo64 (R tr1_2) (R tr1_6));
   Set_ (T19 + 7) (hi64 (R tr1_2) (R tr1_6));
   Set_ (T20 + 7) (lo64 (R tr1_1) (R tr1_5));
   Set_ (T21 + 7) (hi64 (R tr1_1) (R tr1_5));
   Set_ (T22 + 7) (lo64 (R tr1_3) (R tr1_7));
   Set_ (T23 + 7) (hi64 (R tr1_3) (R tr1_7));
   Set_ tr0_0 (lo16 (R (V24 + 3)) (R (V56 + 3)));
   Set_ tr0_1 (lo16 (R (V25 + 3)) (R (V57 + 3)));
   Set_ tr0_2 (hi16 (R (V24 + 3)) (R (V56 + 3)));
   Set_ tr0_3 (hi16 (R (V25 + 3)) (R (V57 + 3)));
   Set_ tr0_4 (lo16 (R (V26 + 3)) (R (V58 + 3)));
   Set_ tr0_5 (lo16 (R (V27 + 3)) (R (V59 + 3)));
   Set_ tr0_6 (hi16 (R (V26 + 3)) (R (V58 + 3)));
   Set_ tr0_7 (hi16 (R (V27 + 3)) (R (V59 + 3)));
   Set_ tr1_0 (lo32 (R tr0_0) (R tr0_1));
   Set_ tr1_1 (lo32 (R tr0_2) (R tr0_3));
   Set_ tr1_2 (hi32 (R tr0_0) (R tr0_1));
   Set_ tr1_3 (hi32 (R tr0_2) (R tr0_3));
   Set_ tr1_4 (lo32 (R tr0_4) (R tr0_5));
   Set_ tr1_5 (lo32 (R tr0_6) (R tr0_7));
   Set_ tr1_6 (hi32 (R tr0_4) (R tr0_5));
   Set_ tr1_7 (hi32 (R tr0_6) (R tr0_7));
   Set_ (T24 + 6) (lo64 (R tr1_0) (R tr1_4));
   Set_ (T25 + 6) (hi64 (R tr1_0) (R tr1_4));
   Set_ (T26 + 6) (lo64 (R tr1_2) (R tr1_6));
   Set_ (T27 + 6) (hi64 (R tr1_2) (R tr1_6));
   Set_ (T28 + 6) (lo64 (R tr1_1) (R tr1_5));
   Set_ (T29 + 6) (hi64 (R tr1_1) (R tr1_5));
   Set_ (T30 + 6) (lo64 (R tr1_3) (R tr1_7));
   Set_ (T31 + 6) (hi64 (R tr1_3) (R tr1_7));
   Set_ tr0_0 (lo16 (R (V28 + 3)) (R (V60 + 3)));
   Set_ tr0_1 (lo16 (R (V29 + 3)) (R (V61 + 3)));
   Set_ tr0_2 (hi16 (R (V28 + 3)) (R (V60 + 3)));
   Set_ tr0_3 (hi16 (R (V29 + 3)) (R (V61 + 3)));
   Set_ tr0_4 (lo16 (R (V30 + 3)) (R (V62 + 3)));
   Set_ tr0_5 (lo16 (R (V31 + 3)) (R (V63 + 3)));
   Set_ tr0_6 (hi16 (R (V30 + 3)) (R (V62 + 3)));
   Set_ tr0_7 (hi16 (R (V31 + 3)) (R (V63 + 3)));
   Set_ tr1_0 (lo32 (R tr0_0) (R tr0_1));
   Set_ tr1_1 (lo32 (R tr0_2) (R tr0_3));
   Set_ tr1_2 (hi32 (R tr0_0) (R tr0_1));
   Set_ tr1_3 (hi32 (R tr0_2) (R tr0_3));
   Set_ tr1_4 (lo32 (R tr0_4) (R tr0_5));
   Set_ tr1_5 (lo32 (R tr0_6) (R tr0_7));
   Set_ tr1_6 (hi32 (R tr0_4) (R tr0_5));
   Set_ tr1_7 (hi32 (R tr0_6) (R tr0_7));
   Set_ (T24 + 7) (lo64 (R tr1_0) (R tr1_4));
   Set_ (T25 + 7) (hi64 (R tr1_0) (R tr1_4));
   Set_ (T26 + 7) (lo64 (R tr1_2) (R tr1_6));
   Set_ (T27 + 7) (hi64 (R tr1_2) (R tr1_6));
   Set_ (T28 + 7) (lo64 (R tr1_1) (R tr1_5));
   Set_ (T29 + 7) (hi64 (R tr1_1) (R tr1_5));
   Set_ (T30 + 7) (lo64 (R tr1_3) (R tr1_7));
   Set_ (T31 + 7) (hi64 (R tr1_3) (R tr1_7))]
  ++ [Set_ tr0_0 (lo16 (R (V24 + 4)) (R (V56 + 4)));
   Set_ tr0_1 (lo16 (R (V25 + 4)) (R (V57 + 4)));
   Set_ tr0_2 (hi16 (R (V24 + 4)) (R (V56 + 4)));
   Set_ tr0_3 (hi16 (R (V25 + 4)) (R (V57 + 4)));
   Set_ tr0_4 (lo16 (R (V26 + 4)) (R (V58 + 4)));
   Set_ tr0_5 (lo16 (R (V27 + 4)) (R (V59 + 4)));
   Set_ tr0_6 (hi16 (R (V26 + 4)) (R (V58 + 4)));
   Set_ tr0_7 (hi16 (R (V27 + 4)) (R (V59 + 4)));
   Set_ tr1_0 (lo32 (R tr0_0) (R tr0_1));
   Set_ tr1_1 (lo32 (R tr0_2) (R tr0_3));
   Set_ tr1_2 (hi32 (R tr0_0) (R tr0_1));
   Set_ tr1_3 (hi32 (R tr0_2) (R tr0_3));
   Set_ tr1_4 (lo32 (R tr0_4) (R tr0_5));
   Set_ tr1_5 (lo32 (R tr0_6) (R tr0_7));
   Set_ tr1_6 (hi32 (R tr0_4) (R tr0_5));
   Set_ tr1_7 (hi32 (R tr0_6) (R tr0_7));
   Set_ (T32 + 6) (lo64 (R tr1_0) (R tr1_4));
   Set_ (T33 + 6) (hi64 (R tr1_0) (R tr1_4));
   Set_ (T34 + 6) (lo64 (R tr1_2) (R tr1_6));
   Set_ (T35 + 6) (hi64 (R tr1_2) (R tr1_6));
   Set_ (T36 + 6) (lo64 (R tr1_1) (R tr1_5));
   Set_ (T37 + 6) (hi64 (R tr1_1) (R tr1_5));
   Set_ (T38 + 6) (lo64 (R tr1_3) (R tr1_7));
   Set_ (T39 + 6) (hi64 (R tr1_3) (R tr1_7));
   Set_ tr0_0 (lo16 (R (V28 + 4)) (R (V60 + 4)));
   Set_ tr0_1 (lo16 (R (V29 + 4)) (R (V61 + 4)));
   Set_ tr0_2 (hi16 (R (V28 + 4)) (R (V60 + 4)));
   Set_ tr0_3 (hi16 (R (V29 + 4)) (R (V61 + 4)));
   Set_ tr0_4 (lo16 (R (V30 + 4)) (R (V62 + 4)));
   Set_ tr0_5 (lo16 (R (V31 + 4)) (R (V63 + 4)));
   Set_ tr0_6 (hi16 (R (V30 + 4)) (R (V62 + 4)));
   Set_ tr0_7 (hi16 (R (V31 + 4)) (R (V63 + 4)));
   Set_ tr1_0 (lo32 (R tr0_0) (R tr0_1));
   Set_ tr1_1 (lo32 (R tr0_2) (R tr0_3));
   Set_ tr1_2 (hi32 (R tr0_0) (R tr0_1));
   Set_ tr1_3 (hi32 (R tr0_2) (R tr0_3));
   Set_ tr1_4 (lo32 (R tr0_4) (R tr0_5));
   Set_ tr1_5 (lo32 (R tr0_6) (R tr0_7));
   Set_ tr1_6 (hi32 (R tr0_4) (R tr0_5));
   Set_ tr1_7 (hi32 (R tr0_6) (R tr0_7));
   Set_ (T32 + 7) (lo64 (R tr1_0) (R tr1_4));
   Set_ (T33 + 7) (hi64 (R tr1_0) (R tr1_4));
   Set_ (T34 + 7) (lo64 (R tr1_2) (R tr1_6));
   Set_ (T35 + 7) (hi64 (R tr1_2) (R tr1_6));
   Set_ (T36 + 7) (lo64 (R tr1_1) (R tr1_5));
   Set_ (T37 + 7) (hi64 (R tr1_1) (R tr1_5));
   Set_ (T38 + 7) (lo64 (R tr1_3) (R tr1_7));
   Set_ (T39 + 7) (hi64 (R tr1_3) (R tr1_7));
   Set_ tr0_0 (lo16 (R (V24 + 5)) (R (V56 + 5)));
   Set_ tr0_1 (lo16 (R (V25 + 5)) (R (V57 + 5)));
   Set_ tr0_2 (hi16 (R (V24 + 5)) (R (V56 + 5)));
   Set_ tr0_3 (hi16 (R (V25 + 5)) (R (V57 + 5)));
   Set_ tr0_4 (lo16 (R (V26 + 5)) (R (V58 + 5)));
   Set_ tr0_5 (lo16 (R (V27 + 5)) (R (V59 + 5)));
   Set_ tr0_6 (hi16 (R (V26 + 5)) (R (V58 + 5)));
   Set_ tr0_7 (hi16 (R (V27 + 5)) (R (V59 + 5)));
   Set_ tr1_0 (lo32 (R tr0_0) (R tr0_1));
   Set_ tr1_1 (lo32 (R tr0_2) (R tr0_3));
   Set_ tr1_2 (hi32 (R tr0_0) (R tr0_1));
   Set_ tr1_3 (hi32 (R tr0_2) (R tr0_3));
   Set_ tr1_4 (lo32 (R tr0_4) (R tr0_5));
   Set_ tr1_5 (lo32 (R tr0_6) (R tr0_7));
   Set_ tr1_6 (hi32 (R tr0_4) (R tr0_5));
   Set_ tr1_7 (hi32 (R tr0_6) (R tr0_7))]
  ++ [Set_ (T40 + 6) (lo64 (R tr1_0) (R tr1_4));
   Set_ (T41 + 6) (hi64 (R tr1_0) (R tr1_4));
   Set_ (T42 + 6) (lo64 (R tr1_2) (R tr1_6));
   Set_ (T43 + 6) (hi64 (R tr1_2) (R tr1_6));
   Set_ (T44 + 6) (lo64 (R tr1_1) (R tr1_5));
   Set_ (T45 + 6) (hi64 (R tr1_1) (R tr1_5));
   Set_ (T46 + 6) (lo64 (R tr1_3) (R tr1_7));
   Set_ (T47 + 6) (hi64 (R tr1_3) (R tr1_7));
   Set_ tr0_0 (lo16 (R (V28 + 5)) (R (V60 + 5)));
   Set_ tr0_1 (lo16 (R (V29 + 5)) (R (V61 + 5)));
   Set_ tr0_2 (hi16 (R (V28 + 5)) (R (V60 + 5)));
   Set_ tr0_3 (hi16 (R (V29 + 5)) (R (V61 + 5)));
   Set_ tr0_4 (lo16 (R (V30 + 5)) (R (V62 + 5)));
   Set_ tr0_5 (lo16 (R (V31 + 5)) (R (V63 + 5)));
   Set_ tr0_6 (hi16 (R (V30 + 5)) (R (V62 + 5)));
   Set_ tr0_7 (hi16 (R (V31 + 5)) (R (V63 + 5)));
   Set_ tr1_0 (lo32 (R tr0_0) (R tr0_1));
   Set_ tr1_1 (lo32 (R tr0_2) (R tr0_3));
   Set_ tr1_2 (hi32 (R tr0_0) (R tr0_1));
   Set_ tr1_3 (hi32 (R tr0_2) (R tr0_3));
   Set_ tr1_4 (lo32 (R tr0_4) (R tr0_5));
   Set_ tr1_5 (lo32 (R tr0_6) (R tr0_7));
   Set_ tr1_6 (hi32 (R tr0_4) (R tr0_5));
   Set_ tr1_7 (hi32 (R tr0_6) (R tr0_7));
   Set_ (T40 + 7) (lo64 (R tr1_0) (R tr1_4));
   Set_ (T41 + 7) (hi64 (R tr1_0) (R tr1_4));
   Set_ (T42 + 7) (lo64 (R tr1_2) (R tr1_6));
   Set_ (T43 + 7) (hi64 (R tr1_2) (R tr1_6));
   Set_ (T44 + 7) (lo64 (R tr1_1) (R tr1_5));
   Set_ (T45 + 7) (hi64 (R tr1_1) (R tr1_5));
   Set_ (T46 + 7) (lo64 (R tr1_3) (R tr1_7));
   Set_ (T47 + 7) (hi64 (R tr1_3) (R tr1_7));
   Set_ tr0_0 (lo16 (R (V24 + 6)) (R (V56 + 6)));
   Set_ tr0_1 (lo16 (R (V25 + 6)) (R (V57 + 6)));
   Set_ tr0_2 (hi16 (R (V24 + 6)) (R (V56 + 6)));
   Set_ tr0_3 (hi16 (R (V25 + 6)) (R (V57 + 6)));
   Set_ tr0_4 (lo16 (R (V26 + 6)) (R (V58 + 6)));
   Set_ tr0_5 (lo16 (R (V27 + 6)) (R (V59 + 6)));
   Set_ tr0_6 (hi16 (R (V26 + 6)) (R (V58 + 6)));
   Set_ tr0_7 (hi16 (R (V27 + 6)) (R (V59 + 6)));
   Set_ tr1_0 (lo32 (R tr0_0) (R tr0_1));
   Set_ tr1_1 (lo32 (R tr0_2) (R tr0_3));
   Set_ tr1_2 (hi32 (R tr0_0) (R tr0_1));
   Set_ tr1_3 (hi32 (R tr0_2) (R tr0_3));
   Set_ tr1_4 (lo32 (R tr0_4) (R tr0_5));
   Set_ tr1_5 (lo32 (R tr0_6) (R tr0_7));
   Set_ tr1_6 (hi32 (R tr0_4) (R tr0_5));
   Set_ tr1_7 (hi32 (R tr0_6) (R tr0_7));
   Set_ (T48 + 6) (lo64 (R tr1_0) (R tr1_4));
   Set_ (T49 + 6) (hi64 (R tr1_0) (R tr1_4));
   Set_ (T50 + 6) (lo64 (R tr1_2) (R tr1_6));
   Set_ (T51 + 6) (hi64 (R tr1_2) (R tr1_6));
   Set_ (T52 + 6) (lo64 (R tr1_1) (R tr1_5));
   Set_ (T53 + 6) (hi64 (R tr1_1) (R tr1_5));
   Set_ (T54 + 6) (lo64 (R tr1_3) (R tr1_7));
   Set_ (T55 + 6) (hi64 (R tr1_3) (R tr1_7));
   Set_ tr0_0 (lo16 (R (V28 + 6)) (R (V60 + 6)));
   Set_ tr0_1 (lo16 (R (V29 + 6)) (R (V61 + 6)));
   Set_ tr0_2 (hi16 (R (V28 + 6)) (R (V60 + 6)));
   Set_ tr0_3 (hi16 (R (V29 + 6)) (R (V61 + 6)));
   Set_ tr0_4 (lo16 (R (V30 + 6)) (R (V62 + 6)));
   Set_ tr0_5 (lo16 (R (V31 + 6)) (R (V63 + 6)));
   Set_ tr0_6 (hi16 (R (V30 + 6)) (R (V62 + 6)));
   Set_ tr0_7 (hi16 (R (V31 + 6)) (R (V63 + 6)))]
  ++ [Set_ tr1_0 (lo32 (R tr0_0) (R tr0_1));
   Set_ tr1_1 (lo32 (R tr0_2) (R tr0_3));
   Set_ tr1_2 (hi32 (R tr0_0) (R tr0_1));
   Set_ tr1_3 (hi32 (R tr0_2) (R tr0_3));
   Set_ tr1_4 (lo32 (R tr0_4) (R tr0_5));
   Set_ tr1_5 (lo32 (R tr0_6) (R tr0_7));
   Set_ tr1_6 (hi32 (R tr0_4) (R tr0_5));
   Set_ tr1_7 (hi32 (R tr0_6) (R tr0_7));
   Set_ (T48 + 7) (lo64 (R tr1_0) (R tr1_4));
   Set_ (T49 + 7) (hi64 (R tr1_0) (R tr1_4));
   Set_ (T50 + 7) (lo64 (R tr1_2) (R tr1_6));
   Set_ (T51 + 7) (hi64 (R tr1_2) (R tr1_6));
   Set_ (T52 + 7) (lo64 (R tr1_1) (R tr1_5));
   Set_ (T53 + 7) (hi64 (R tr1_1) (R tr1_5));
   Set_ (T54 + 7) (lo64 (R tr1_3) (R tr1_7));
   Set_ (T55 + 7) (hi64 (R tr1_3) (R tr1_7));
   Set_ tr0_0 (lo16 (R (V24 + 7)) (R (V56 + 7)));
   Set_ tr0_1 (lo16 (R (V25 + 7)) (R (V57 + 7)));
   Set_ tr0_2 (hi16 (R (V24 + 7)) (R (V56 + 7)));
   Set_ tr0_3 (hi16 (R (V25 + 7)) (R (V57 + 7)));
   Set_ tr0_4 (lo16 (R (V26 + 7)) (R (V58 + 7)));
   Set_ tr0_5 (lo16 (R (V27 + 7)) (R (V59 + 7)));
   Set_ tr0_6 (hi16 (R (V26 + 7)) (R (V58 + 7)));
   Set_ tr0_7 (hi16 (R (V27 + 7)) (R (V59 + 7)));
   Set_ tr1_0 (lo32 (R tr0_0) (R tr0_1));
   Set_ tr1_1 (lo32 (R tr0_2) (R tr0_3));
   Set_ tr1_2 (hi32 (R tr0_0) (R tr0_1));
   Set_ tr1_3 (hi32 (R tr0_2) (R tr0_3));
   Set_ tr1_4 (lo32 (R tr0_4) (R tr0_5));
   Set_ tr1_5 (lo32 (R tr0_6) (R tr0_7));
   Set_ tr1_6 (hi32 (R tr0_4) (R tr0_5));
   Set_ tr1_7 (hi32 (R tr0_6) (R tr0_7));
   Set_ (T56 + 6) (lo64 (R tr1_0) (R tr1_4));
   Set_ (T57 + 6) (hi64 (R tr1_0) (R tr1_4));
   Set_ (T58 + 6) (lo64 (R tr1_2) (R tr1_6));
   Set_ (T59 + 6) (hi64 (R tr1_2) (R tr1_6));
   Set_ (T60 + 6) (lo64 (R tr1_1) (R tr1_5));
   Set_ (T61 + 6) (hi64 (R tr1_1) (R tr1_5));
   Set_ (T62 + 6) (lo64 (R tr1_3) (R tr1_7));
   Set_ (T63 + 6) (hi64 (R tr1_3) (R tr1_7));
   Set_ tr0_0 (lo16 (R (V28 + 7)) (R (V60 + 7)));
   Set_ tr0_1 (lo16 (R (V29 + 7)) (R (V61 + 7)));
   Set_ tr0_2 (hi16 (R (V28 + 7)) (R (V60 + 7)));
   Set_ tr0_3 (hi16 (R (V29 + 7)) (R (V61 + 7)));
   Set_ tr0_4 (lo16 (R (V30 + 7)) (R (V62 + 7)));
   Set_ tr0_5 (lo16 (R (V31 + 7)) (R (V63 + 7)));
   Set_ tr0_6 (hi16 (R (V30 + 7)) (R (V62 + 7)));
   Set_ tr0_7 (hi16 (R (V31 + 7)) (R (V63 + 7)));
   Set_ tr1_0 (lo32 (R tr0_0) (R tr0_1));
   Set_ tr1_1 (lo32 (R tr0_2) (R tr0_3));
   Set_ tr1_2 (hi32 (R tr0_0) (R tr0_1));
   Set_ tr1_3 (hi32 (R tr0_2) (R tr0_3));
   Set_ tr1_4 (lo32 (R tr0_4) (R tr0_5));
   Set_ tr1_5 (lo32 (R tr0_6) (R tr0_7));
   Set_ tr1_6 (hi32 (R tr0_4) (R tr0_5));
   Set_ tr1_7 (hi32 (R tr0_6) (R tr0_7));
   Set_ (T56 + 7) (lo64 (R tr1_0) (R tr1_4));
   Set_ (T57 + 7) (hi64 (R tr1_0) (R tr1_4));
   Set_ (T58 + 7) (lo64 (R tr1_2) (R tr1_6));
   Set_ (T59 + 7) (hi64 (R tr1_2) (R tr1_6));
   Set_ (T60 + 7) (lo64 (R tr1_1) (R tr1_5));
   Set_ (T61 + 7) (hi64 (R tr1_1) (R tr1_5));
   Set_ (T62 + 7) (lo64 (R tr1_3) (R tr1_7));
   Set_ (T63 + 7) (hi64 (R tr1_3) (R tr1_7))]
  ++ loop 8 (fun i =>
    [St 8 0 0 (8 * i) (R (T00 + i));
     St 8 0 0 (8 * i + 64) (R (T01 + i));
     St 8 0 0 (8 * i + 128) (R (T02 + i));
     St 8 0 0 (8 * i + 192) (R (T03 + i));
     St 8 0 0 (8 * i + 256) (R (T04 + i));
     St 8 0 0 (8 * i + 320) (R (T05 + i));
     St 8 0 0 (8 * i + 384) (R (T06 + i));
     St 8 0 0 (8 * i + 448) (R (T07 + i));
     St 8 0 0 (8 * i + 512) (R (T08 + i));
     St 8 0 0 (8 * i + 576) (R (T09 + i));
     St 8 0 0 (8 * i + 640) (R (T10 + i));
     St 8 0 0 (8 * i + 704) (R (T11 + i));
     St 8 0 0 (8 * i + 768) (R (T12 + i));
     St 8 0 0 (8 * i + 832) (R (T13 + i));
     St 8 0 0 (8 * i + 896) (R (T14 + i));
     St 8 0 0 (8 * i + 960) (R (T15 + i));
     St 8 0 0 (8 * i + 1024) (R (T16 + i));
     St 8 0 0 (8 * i + 1088) (R (T17 + i));
     St 8 0 0 (8 * i + 1152) (R (T18 + i));
     St 8 0 0 (8 * i + 1216) (R (T19 + i));
     St 8 0 0 (8 * i + 1280) (R (T20 + i));
     St 8 0 0 (8 * i + 1344) (R (T21 + i));
     St 8 0 0 (8 * i + 1408) (R (T22 + i));
     St 8 0 0 (8 * i + 1472) (R (T23 + i));
     St 8 0 0 (8 * i + 1536) (R (T24 + i));
     St 8 0 0 (8 * i + 1600) (R (T25 + i));
     St 8 0 0 (8 * i + 1664) (R (T26 + i));
     St 8 0 0 (8 * i + 1728) (R (T27 + i));
     St 8 0 0 (8 * i + 1792) (R (T28 + i));
     St 8 0 0 (8 * i + 1856) (R (T29 + i));
     St 8 0 0 (8 * i + 1920) (R (T30 + i));
     St 8 0 0 (8 * i + 1984) (R (T31 + i));
     St 8 0 0 (8 * i + 2048) (R (T32 + i));
     St 8 0 0 (8 * i + 2112) (R (T33 + i));
     St 8 0 0 (8 * i + 2176) (R (T34 + i));
     St 8 0 0 (8 * i + 2240) (R (T35 + i));
     St 8 0 0 (8 * i + 2304) (R (T36 + i));
     St 8 0 0 (8 * i + 2368) (R (T37 + i));
     St 8 0 0 (8 * i + 2432) (R (T38 + i));
     St 8 0 0 (8 * i + 2496) (R (T39 + i));
     St 8 0 0 (8 * i + 2560) (R (T40 + i));
     St 8 0 0 (8 * i + 2624) (R (T41 + i));
     St 8 0 0 (8 * i + 2688) (R (T42 + i));
     St 8 0 0 (8 * i + 2752) (R (T43 + i));
     St 8 0 0 (8 * i + 2816) (R (T44 + i));
     St 8 0 0 (8 * i + 2880) (R (T45 + i));
     St 8 0 0 (8 * i + 2944) (R (T46 + i));
     St 8 0 0 (8 * i + 3008) (R (T47 + i));
     St 8 0 0 (8 * i + 3072) (R (T48 + i));
     St 8 0 0 (8 * i + 3136) (R (T49 + i));
     St 8 0 0 (8 * i + 3200) (R (T50 + i));
     St 8 0 0 (8 * i + 3264) (R (T51 + i));
     St 8 0 0 (8 * i + 3328) (R (T52 + i));
     St 8 0 0 (8 * i + 3392) (R (T53 + i));
     St 8 0 0 (8 * i + 3456) (R (T54 + i));
     St 8 0 0 (8 * i + 3520) (R (T55 + i));
     St 8 0 0 (8 * i + 3584) (R (T56 + i));
     St 8 0 0 (8 * i + 3648) (R (T57 + i));
     St 8 0 0 (8 * i + 3712) (R (T58 + i));
     St 8 0 0 (8 * i + 3776) (R (T59 + i));
     St 8 0 0 (8 * i + 3840) (R (T60 + i));
     St 8 0 0 (8 * i + 3904) (R (T61 + i));
     St 8 0 0 (8 * i + 3968) (R (T62 + i));
     St 8 0 0 (8 * i + 4032) (R (T63 + i))]).

