(** Names of the variables of the vector intra predictors, and vec/intrinsic.cc:61-102
    [intrinsic_mask] (the version for 8 bit samples) and [intrinsic_mask_256_8bit]. *)
From Coq Require Import ZArith List.
From Verif Require Import VpModel.
Import ListNotations.
Open Scope Z_scope.

Definition v_H0 : var := 6%positive.
Definition v_H1 : var := 7%positive.
Definition v_H10 : var := 8%positive.
Definition v_H11 : var := 9%positive.
Definition v_H12 : var := 10%positive.
Definition v_H13 : var := 11%positive.
Definition v_H2 : var := 12%positive.
Definition v_H3 : var := 13%positive.
Definition v_H4 : var := 14%positive.
Definition v_H5 : var := 15%positive.
Definition v_H6 : var := 16%positive.
Definition v_H7 : var := 17%positive.
Definition v_H8 : var := 18%positive.
Definition v_H9 : var := 19%positive.
Definition v_L0 : var := 20%positive.
Definition v_L1 : var := 21%positive.
Definition v_L10 : var := 22%positive.
Definition v_L11 : var := 23%positive.
Definition v_L12 : var := 24%positive.
Definition v_L13 : var := 25%positive.
Definition v_L2 : var := 26%positive.
Definition v_L3 : var := 27%positive.
Definition v_L4 : var := 28%positive.
Definition v_L5 : var := 29%positive.
Definition v_L6 : var := 30%positive.
Definition v_L7 : var := 31%positive.
Definition v_L8 : var := 32%positive.
Definition v_L9 : var := 33%positive.
Definition v_L_0 : var := 34%positive.
Definition v_L_1 : var := 35%positive.
Definition v_L_2 : var := 36%positive.
Definition v_M : var := 37%positive.
Definition v_M1 : var := 38%positive.
Definition v_M2 : var := 39%positive.
Definition v_M3 : var := 40%positive.
Definition v_M4 : var := 41%positive.
Definition v_M5 : var := 42%positive.
Definition v_M6 : var := 43%positive.
Definition v_M7 : var := 44%positive.
Definition v_M8 : var := 45%positive.
Definition v_Org_8_0 : var := 46%positive.
Definition v_Org_8_1 : var := 47%positive.
Definition v_Org_8_2 : var := 48%positive.
Definition v_Org_8_3 : var := 49%positive.
Definition v_Org_8_4 : var := 50%positive.
Definition v_Org_8_5 : var := 51%positive.
Definition v_Org_8_6 : var := 52%positive.
Definition v_Org_8_7 : var := 53%positive.
Definition v_S0 : var := 54%positive.
Definition v_S1 : var := 55%positive.
Definition v_S2 : var := 56%positive.
Definition v_S3 : var := 57%positive.
Definition v_SS1 : var := 58%positive.
Definition v_SS10 : var := 59%positive.
Definition v_SS11 : var := 60%positive.
Definition v_SS19 : var := 61%positive.
Definition v_SS2 : var := 62%positive.
Definition v_SS20 : var := 63%positive.
Definition v_S_0 : var := 64%positive.
Definition v_S_1 : var := 65%positive.
Definition v_S_2 : var := 66%positive.
Definition v_T : var := 67%positive.
Definition v_T1 : var := 68%positive.
Definition v_T2 : var := 69%positive.
Definition v_T3 : var := 70%positive.
Definition v_T4 : var := 71%positive.
Definition v_aligned_line_size : var := 72%positive.
Definition v_coeff : var := 73%positive.
Definition v_coeff0 : var := 74%positive.
Definition v_coeff1 : var := 75%positive.
Definition v_coeff11 : var := 76%positive.
Definition v_coeff13 : var := 77%positive.
Definition v_coeff15 : var := 78%positive.
Definition v_coeff16 : var := 79%positive.
Definition v_coeff2 : var := 80%positive.
Definition v_coeff3 : var := 81%positive.
Definition v_coeff4 : var := 82%positive.
Definition v_coeff5 : var := 83%positive.
Definition v_coeff7 : var := 84%positive.
Definition v_coeff8 : var := 85%positive.
Definition v_coeff9 : var := 86%positive.
Definition v_coeff_2 : var := 87%positive.
Definition v_coeff_3 : var := 88%positive.
Definition v_coeff_4 : var := 89%positive.
Definition v_coeff_5 : var := 90%positive.
Definition v_coeff_7 : var := 91%positive.
Definition v_coeff_8 : var := 92%positive.
Definition v_dst1 : var := 93%positive.
Definition v_dst2 : var := 94%positive.
Definition v_dst3 : var := 95%positive.
Definition v_dst4 : var := 96%positive.
Definition v_dst5 : var := 97%positive.
Definition v_dst6 : var := 98%positive.
Definition v_dst7 : var := 99%positive.
Definition v_dst8 : var := 100%positive.
Definition v_dst_tran : var := 101%positive.
Definition v_dst_tran_org : var := 102%positive.
Definition v_first_line : var := 103%positive.
Definition v_i : var := 104%positive.
Definition v_iHeight2 : var := 105%positive.
Definition v_iHeight4 : var := 106%positive.
Definition v_iHeight8 : var := 107%positive.
Definition v_iSize : var := 108%positive.
Definition v_iSize_x : var := 109%positive.
Definition v_iSize_y : var := 110%positive.
Definition v_i_dst2 : var := 111%positive.
Definition v_i_dstx4 : var := 112%positive.
Definition v_index : var := 113%positive.
Definition v_j : var := 114%positive.
Definition v_left_size : var := 115%positive.
Definition v_line_size : var := 116%positive.
Definition v_mask : var := 117%positive.
Definition v_mask0 : var := 118%positive.
Definition v_mask1 : var := 119%positive.
Definition v_mask2 : var := 120%positive.
Definition v_mask3 : var := 121%positive.
Definition v_offset : var := 122%positive.
Definition v_offset1 : var := 123%positive.
Definition v_offset2 : var := 124%positive.
Definition v_p00 : var := 125%positive.
Definition v_p01 : var := 126%positive.
Definition v_p02 : var := 127%positive.
Definition v_p10 : var := 128%positive.
Definition v_p11 : var := 129%positive.
Definition v_p12 : var := 130%positive.
Definition v_p20 : var := 131%positive.
Definition v_p21 : var := 132%positive.
Definition v_p22 : var := 133%positive.
Definition v_p30 : var := 134%positive.
Definition v_p31 : var := 135%positive.
Definition v_p32 : var := 136%positive.
Definition v_pDst_128 : var := 137%positive.
Definition v_pSrc1 : var := 138%positive.
Definition v_pTra_128 : var := 139%positive.
Definition v_p_00 : var := 140%positive.
Definition v_p_01 : var := 141%positive.
Definition v_pad1 : var := 142%positive.
Definition v_pfirst : var := 143%positive.
Definition v_pfirst1 : var := 144%positive.
Definition v_res1 : var := 145%positive.
Definition v_res2 : var := 146%positive.
Definition v_rpSrc : var := 147%positive.
Definition v_rsrc : var := 148%positive.
Definition v_shuffle : var := 149%positive.
Definition v_shuffle1 : var := 150%positive.
Definition v_shuffle2 : var := 151%positive.
Definition v_shuffle3 : var := 152%positive.
Definition v_shuffle4 : var := 153%positive.
Definition v_src_org : var := 154%positive.
Definition v_src_tran : var := 155%positive.
Definition v_sum1 : var := 156%positive.
Definition v_sum2 : var := 157%positive.
Definition v_sum3 : var := 158%positive.
Definition v_sum4 : var := 159%positive.
Definition v_t00 : var := 160%positive.
Definition v_t10 : var := 161%positive.
Definition v_t20 : var := 162%positive.
Definition v_t30 : var := 163%positive.
Definition v_tmp0 : var := 164%positive.
Definition v_tmp1 : var := 165%positive.
Definition v_tmp2 : var := 166%positive.
Definition v_tmp3 : var := 167%positive.
Definition v_tmpH0 : var := 168%positive.
Definition v_tmpH1 : var := 169%positive.
Definition v_tmpH2 : var := 170%positive.
Definition v_tmpH3 : var := 171%positive.
Definition v_tmpL0 : var := 172%positive.
Definition v_tmpL1 : var := 173%positive.
Definition v_tmpL2 : var := 174%positive.
Definition v_tmpL3 : var := 175%positive.
Definition v_top_size : var := 176%positive.
Definition v_x : var := 177%positive.
Definition v_y : var := 178%positive.
Definition v_zero : var := 179%positive.

Definition intrinsic_mask : list (list Z) :=
  [[255; 0; 0; 0; 0; 0; 0; 0; 0; 0; 0; 0; 0; 0; 0; 0];
   [255; 255; 0; 0; 0; 0; 0; 0; 0; 0; 0; 0; 0; 0; 0; 0];
   [255; 255; 255; 0; 0; 0; 0; 0; 0; 0; 0; 0; 0; 0; 0; 0];
   [255; 255; 255; 255; 0; 0; 0; 0; 0; 0; 0; 0; 0; 0; 0; 0];
   [255; 255; 255; 255; 255; 0; 0; 0; 0; 0; 0; 0; 0; 0; 0; 0];
   [255; 255; 255; 255; 255; 255; 0; 0; 0; 0; 0; 0; 0; 0; 0; 0];
   [255; 255; 255; 255; 255; 255; 255; 0; 0; 0; 0; 0; 0; 0; 0; 0];
   [255; 255; 255; 255; 255; 255; 255; 255; 0; 0; 0; 0; 0; 0; 0; 0];
   [255; 255; 255; 255; 255; 255; 255; 255; 255; 0; 0; 0; 0; 0; 0; 0];
   [255; 255; 255; 255; 255; 255; 255; 255; 255; 255; 0; 0; 0; 0; 0; 0];
   [255; 255; 255; 255; 255; 255; 255; 255; 255; 255; 255; 0; 0; 0; 0; 0];
   [255; 255; 255; 255; 255; 255; 255; 255; 255; 255; 255; 255; 0; 0; 0; 0];
   [255; 255; 255; 255; 255; 255; 255; 255; 255; 255; 255; 255; 255; 0; 0; 0];
   [255; 255; 255; 255; 255; 255; 255; 255; 255; 255; 255; 255; 255; 255; 0; 0];
   [255; 255; 255; 255; 255; 255; 255; 255; 255; 255; 255; 255; 255; 255; 255; 0]].
Definition intrinsic_mask_256_8bit : list (list Z) :=
  [[255; 0; 0; 0; 0; 0; 0; 0; 0; 0; 0; 0; 0; 0; 0; 0; 0; 0; 0; 0; 0; 0; 0; 0; 0; 0; 0; 0; 0; 0; 0; 0];
   [255; 255; 0; 0; 0; 0; 0; 0; 0; 0; 0; 0; 0; 0; 0; 0; 0; 0; 0; 0; 0; 0; 0; 0; 0; 0; 0; 0; 0; 0; 0; 0];
   [255; 255; 255; 0; 0; 0; 0; 0; 0; 0; 0; 0; 0; 0; 0; 0; 0; 0; 0; 0; 0; 0; 0; 0; 0; 0; 0; 0; 0; 0; 0; 0];
   [255; 255; 255; 255; 0; 0; 0; 0; 0; 0; 0; 0; 0; 0; 0; 0; 0; 0; 0; 0; 0; 0; 0; 0; 0; 0; 0; 0; 0; 0; 0; 0];
   [255; 255; 255; 255; 255; 0; 0; 0; 0; 0; 0; 0; 0; 0; 0; 0; 0; 0; 0; 0; 0; 0; 0; 0; 0; 0; 0; 0; 0; 0; 0; 0];
   [255; 255; 255; 255; 255; 255; 0; 0; 0; 0; 0; 0; 0; 0; 0; 0; 0; 0; 0; 0; 0; 0; 0; 0; 0; 0; 0; 0; 0; 0; 0; 0];
   [255; 255; 255; 255; 255; 255; 255; 0; 0; 0; 0; 0; 0; 0; 0; 0; 0; 0; 0; 0; 0; 0; 0; 0; 0; 0; 0; 0; 0; 0; 0; 0];
   [255; 255; 255; 255; 255; 255; 255; 255; 0; 0; 0; 0; 0; 0; 0; 0; 0; 0; 0; 0; 0; 0; 0; 0; 0; 0; 0; 0; 0; 0; 0; 0];
   [255; 255; 255; 255; 255; 255; 255; 255; 255; 0; 0; 0; 0; 0; 0; 0; 0; 0; 0; 0; 0; 0; 0; 0; 0; 0; 0; 0; 0; 0; 0; 0];
   [255; 255; 255; 255; 255; 255; 255; 255; 255; 255; 0; 0; 0; 0; 0; 0; 0; 0; 0; 0; 0; 0; 0; 0; 0; 0; 0; 0; 0; 0; 0; 0];
   [255; 255; 255; 255; 255; 255; 255; 255; 255; 255; 255; 0; 0; 0; 0; 0; 0; 0; 0; 0; 0; 0; 0; 0; 0; 0; 0; 0; 0; 0; 0; 0];
   [255; 255; 255; 255; 255; 255; 255; 255; 255; 255; 255; 255; 0; 0; 0; 0; 0; 0; 0; 0; 0; 0; 0; 0; 0; 0; 0; 0; 0; 0; 0; 0];
   [255; 255; 255; 255; 255; 255; 255; 255; 255; 255; 255; 255; 255; 0; 0; 0; 0; 0; 0; 0; 0; 0; 0; 0; 0; 0; 0; 0; 0; 0; 0; 0];
   [255; 255; 255; 255; 255; 255; 255; 255; 255; 255; 255; 255; 255; 255; 0; 0; 0; 0; 0; 0; 0; 0; 0; 0; 0; 0; 0; 0; 0; 0; 0; 0];
   [255; 255; 255; 255; 255; 255; 255; 255; 255; 255; 255; 255; 255; 255; 255; 0; 0; 0; 0; 0; 0; 0; 0; 0; 0; 0; 0; 0; 0; 0; 0; 0];
   [255; 255; 255; 255; 255; 255; 255; 255; 255; 255; 255; 255; 255; 255; 255; 255; 0; 0; 0; 0; 0; 0; 0; 0; 0; 0; 0; 0; 0; 0; 0; 0]].
