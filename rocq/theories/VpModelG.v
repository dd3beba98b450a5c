(** The predictors of vec/intrinsic_intra-pred_avx2.cc for upward left modes, as trees (see VpModel). *)
From Coq Require Import ZArith List.
From Verif Require Import VpModel VpModelA VpModelD.
Import ListNotations.
Open Scope Z_scope.

(** vec/intrinsic_intra-pred_avx2.cc:4836-5420 [intra_pred_ang_xy_13_avx].  Line 5079 loads row
    [bsx - 1] of a table of 16 rows; [beyond] are the rows that would follow. *)
Definition k_ang_xy_13_avx_with (beyond : list (list Z)) : list stm := [
  SIf (ILt (IC 4) (IV v_bsy)) [
    SVec v_coeff2 (VSet1 2 16 (XC 2));
    SVec v_coeff3 (VSet1 2 16 (XC 3));
    SVec v_coeff4 (VSet1 2 16 (XC 4));
    SVec v_coeff5 (VSet1 2 16 (XC 5));
    SVec v_coeff7 (VSet1 2 16 (XC 7));
    SVec v_coeff8 (VSet1 2 16 (XC 8));
    SVec v_coeff9 (VSet1 2 16 (XC 9));
    SVec v_coeff11 (VSet1 2 16 (XC 11));
    SVec v_coeff13 (VSet1 2 16 (XC 13));
    SVec v_coeff15 (VSet1 2 16 (XC 15));
    SVec v_coeff16 (VSet1 2 16 (XC 16));
    SArr v_first_line (IShl (IAdd (IC 64) (IC 16)) (IC 3));
    SInt v_line_size (ISub (IAdd (IV v_bsx) (IShr (IV v_bsy) (IC 3))) (IC 1));
    SInt v_left_size (ISub (IV v_line_size) (IV v_bsx));
    SInt v_aligned_line_size (IShl (IShr (IAdd (IV v_line_size) (IC 15)) (IC 4)) (IC 4));
    SPtr v_pfirst (IC 0) (PV v_first_line (IC 0));
    SPtr v_pfirst (IC 1) (PAdd (PV v_pfirst (IC 0)) (IV v_aligned_line_size));
    SPtr v_pfirst (IC 2) (PAdd (PV v_pfirst (IC 1)) (IV v_aligned_line_size));
    SPtr v_pfirst (IC 3) (PAdd (PV v_pfirst (IC 2)) (IV v_aligned_line_size));
    SPtr v_pfirst (IC 4) (PAdd (PV v_pfirst (IC 3)) (IV v_aligned_line_size));
    SPtr v_pfirst (IC 5) (PAdd (PV v_pfirst (IC 4)) (IV v_aligned_line_size));
    SPtr v_pfirst (IC 6) (PAdd (PV v_pfirst (IC 5)) (IV v_aligned_line_size));
    SPtr v_pfirst (IC 7) (PAdd (PV v_pfirst (IC 6)) (IV v_aligned_line_size));
    SPtr v_src (IC 0) (PAdd (PV v_src (IC 0)) (ISub (IC 0) (ISub (IV v_bsy) (IC 8))));
    SInt v_i (IC 0);
    SLoop (ILt (IV v_i) (IV v_left_size)) [
      SPut (PAdd (PV v_pfirst (IC 0)) (IV v_i)) (XShr (XAdd (XAdd (XAdd (XLd (PAdd (PV v_src (IC 0)) (IC 6))) (XShl (XLd (PAdd (PV v_src (IC 0)) (IC 7))) 1)) (XLd (PAdd (PV v_src (IC 0)) (IC 8)))) (XC 2)) 2);
      SPut (PAdd (PV v_pfirst (IC 1)) (IV v_i)) (XShr (XAdd (XAdd (XAdd (XLd (PAdd (PV v_src (IC 0)) (IC 5))) (XShl (XLd (PAdd (PV v_src (IC 0)) (IC 6))) 1)) (XLd (PAdd (PV v_src (IC 0)) (IC 7)))) (XC 2)) 2);
      SPut (PAdd (PV v_pfirst (IC 2)) (IV v_i)) (XShr (XAdd (XAdd (XAdd (XLd (PAdd (PV v_src (IC 0)) (IC 4))) (XShl (XLd (PAdd (PV v_src (IC 0)) (IC 5))) 1)) (XLd (PAdd (PV v_src (IC 0)) (IC 6)))) (XC 2)) 2);
      SPut (PAdd (PV v_pfirst (IC 3)) (IV v_i)) (XShr (XAdd (XAdd (XAdd (XLd (PAdd (PV v_src (IC 0)) (IC 3))) (XShl (XLd (PAdd (PV v_src (IC 0)) (IC 4))) 1)) (XLd (PAdd (PV v_src (IC 0)) (IC 5)))) (XC 2)) 2);
      SPut (PAdd (PV v_pfirst (IC 4)) (IV v_i)) (XShr (XAdd (XAdd (XAdd (XLd (PAdd (PV v_src (IC 0)) (IC 2))) (XShl (XLd (PAdd (PV v_src (IC 0)) (IC 3))) 1)) (XLd (PAdd (PV v_src (IC 0)) (IC 4)))) (XC 2)) 2);
      SPut (PAdd (PV v_pfirst (IC 5)) (IV v_i)) (XShr (XAdd (XAdd (XAdd (XLd (PAdd (PV v_src (IC 0)) (IC 1))) (XShl (XLd (PAdd (PV v_src (IC 0)) (IC 2))) 1)) (XLd (PAdd (PV v_src (IC 0)) (IC 3)))) (XC 2)) 2);
      SPut (PAdd (PV v_pfirst (IC 6)) (IV v_i)) (XShr (XAdd (XAdd (XAdd (XLd (PV v_src (IC 0))) (XShl (XLd (PAdd (PV v_src (IC 0)) (IC 1))) 1)) (XLd (PAdd (PV v_src (IC 0)) (IC 2)))) (XC 2)) 2);
      SPut (PAdd (PV v_pfirst (IC 7)) (IV v_i)) (XShr (XAdd (XAdd (XAdd (XLd (PAdd (PV v_src (IC 0)) (IC (-1)))) (XShl (XLd (PV v_src (IC 0))) 1)) (XLd (PAdd (PV v_src (IC 0)) (IC 1)))) (XC 2)) 2);
      SInt v_i (IAdd (IV v_i) (IC 1));
      SPtr v_src (IC 0) (PAdd (PV v_src (IC 0)) (IC 8))];
    SLoop (ILt (IV v_i) (ISub (IV v_line_size) (IC 16))) [
      SVec v_S0 (VLoad 32 0 (PAdd (PV v_src (IC 0)) (IC 2)));
      SVec v_S1 (VLoad 32 0 (PAdd (PV v_src (IC 0)) (IC 1)));
      SVec v_S2 (VLoad 32 0 (PV v_src (IC 0)));
      SVec v_S3 (VLoad 32 0 (PAdd (PV v_src (IC 0)) (ISub (IC 0) (IC 1))));
      SVec v_L0 (VOp1 Cvt8 (VOp1 (Ext 0) (VV v_S0)));
      SVec v_L1 (VOp1 Cvt8 (VOp1 (Ext 0) (VV v_S1)));
      SVec v_L2 (VOp1 Cvt8 (VOp1 (Ext 0) (VV v_S2)));
      SVec v_L3 (VOp1 Cvt8 (VOp1 (Ext 0) (VV v_S3)));
      SVec v_H0 (VOp1 Cvt8 (VOp1 (Ext 1) (VV v_S0)));
      SVec v_H1 (VOp1 Cvt8 (VOp1 (Ext 1) (VV v_S1)));
      SVec v_H2 (VOp1 Cvt8 (VOp1 (Ext 1) (VV v_S2)));
      SVec v_H3 (VOp1 Cvt8 (VOp1 (Ext 1) (VV v_S3)));
      SVec v_p00 (VOp2 (Mul16) (VV v_L0) (VV v_coeff7));
      SVec v_p10 (VOp2 (Mul16) (VV v_L1) (VV v_coeff15));
      SVec v_p20 (VOp2 (Mul16) (VV v_L2) (VV v_coeff9));
      SVec v_p30 (VOp2 (Add16) (VV v_L3) (VV v_coeff16));
      SVec v_p00 (VOp2 (Add16) (VV v_p00) (VV v_p10));
      SVec v_p00 (VOp2 (Add16) (VV v_p00) (VV v_p20));
      SVec v_p00 (VOp2 (Add16) (VV v_p00) (VV v_p30));
      SVec v_p00 (VOp1 (Srl16 5) (VV v_p00));
      SVec v_p01 (VOp2 (Mul16) (VV v_H0) (VV v_coeff7));
      SVec v_p11 (VOp2 (Mul16) (VV v_H1) (VV v_coeff15));
      SVec v_p21 (VOp2 (Mul16) (VV v_H2) (VV v_coeff9));
      SVec v_p31 (VOp2 (Add16) (VV v_H3) (VV v_coeff16));
      SVec v_p01 (VOp2 (Add16) (VV v_p01) (VV v_p11));
      SVec v_p01 (VOp2 (Add16) (VV v_p01) (VV v_p21));
      SVec v_p01 (VOp2 (Add16) (VV v_p01) (VV v_p31));
      SVec v_p01 (VOp1 (Srl16 5) (VV v_p01));
      SVec v_p00 (VOp2 (Pack16) (VV v_p00) (VV v_p01));
      SVec v_p00 (VOp1 (Perm64 216) (VV v_p00));
      SStore 32 (PAdd (PV v_pfirst (IC 0)) (IV v_i)) (VV v_p00);
      SVec v_p00 (VOp2 (Mul16) (VV v_L0) (VV v_coeff3));
      SVec v_p10 (VOp2 (Mul16) (VV v_L1) (VV v_coeff7));
      SVec v_p20 (VOp2 (Mul16) (VV v_L2) (VV v_coeff5));
      SVec v_p30 (VOp2 (Add16) (VV v_L3) (VV v_coeff8));
      SVec v_p00 (VOp2 (Add16) (VV v_p00) (VV v_p10));
      SVec v_p00 (VOp2 (Add16) (VV v_p00) (VV v_p20));
      SVec v_p00 (VOp2 (Add16) (VV v_p00) (VV v_p30));
      SVec v_p00 (VOp1 (Srl16 4) (VV v_p00));
      SVec v_p01 (VOp2 (Mul16) (VV v_H0) (VV v_coeff3));
      SVec v_p11 (VOp2 (Mul16) (VV v_H1) (VV v_coeff7));
      SVec v_p21 (VOp2 (Mul16) (VV v_H2) (VV v_coeff5));
      SVec v_p31 (VOp2 (Add16) (VV v_H3) (VV v_coeff8));
      SVec v_p01 (VOp2 (Add16) (VV v_p01) (VV v_p11));
      SVec v_p01 (VOp2 (Add16) (VV v_p01) (VV v_p21));
      SVec v_p01 (VOp2 (Add16) (VV v_p01) (VV v_p31));
      SVec v_p01 (VOp1 (Srl16 4) (VV v_p01));
      SVec v_p00 (VOp2 (Pack16) (VV v_p00) (VV v_p01));
      SVec v_p00 (VOp1 (Perm64 216) (VV v_p00));
      SStore 32 (PAdd (PV v_pfirst (IC 1)) (IV v_i)) (VV v_p00);
      SVec v_p00 (VOp2 (Mul16) (VV v_L0) (VV v_coeff5));
      SVec v_p10 (VOp2 (Mul16) (VV v_L1) (VV v_coeff13));
      SVec v_p20 (VOp2 (Mul16) (VV v_L2) (VV v_coeff11));
      SVec v_p30 (VOp2 (Mul16) (VV v_L3) (VV v_coeff3));
      SVec v_p00 (VOp2 (Add16) (VV v_p00) (VV v_coeff16));
      SVec v_p00 (VOp2 (Add16) (VV v_p00) (VV v_p10));
      SVec v_p00 (VOp2 (Add16) (VV v_p00) (VV v_p20));
      SVec v_p00 (VOp2 (Add16) (VV v_p00) (VV v_p30));
      SVec v_p00 (VOp1 (Srl16 5) (VV v_p00));
      SVec v_p01 (VOp2 (Mul16) (VV v_H0) (VV v_coeff5));
      SVec v_p11 (VOp2 (Mul16) (VV v_H1) (VV v_coeff13));
      SVec v_p21 (VOp2 (Mul16) (VV v_H2) (VV v_coeff11));
      SVec v_p31 (VOp2 (Mul16) (VV v_H3) (VV v_coeff3));
      SVec v_p01 (VOp2 (Add16) (VV v_p01) (VV v_coeff16));
      SVec v_p01 (VOp2 (Add16) (VV v_p01) (VV v_p11));
      SVec v_p01 (VOp2 (Add16) (VV v_p01) (VV v_p21));
      SVec v_p01 (VOp2 (Add16) (VV v_p01) (VV v_p31));
      SVec v_p01 (VOp1 (Srl16 5) (VV v_p01));
      SVec v_p00 (VOp2 (Pack16) (VV v_p00) (VV v_p01));
      SVec v_p00 (VOp1 (Perm64 216) (VV v_p00));
      SStore 32 (PAdd (PV v_pfirst (IC 2)) (IV v_i)) (VV v_p00);
      SVec v_p00 (VOp2 (Add16) (VV v_L0) (VV v_L3));
      SVec v_p10 (VOp2 (Add16) (VV v_L1) (VV v_L2));
      SVec v_p10 (VOp2 (Mul16) (VV v_p10) (VV v_coeff3));
      SVec v_p00 (VOp2 (Add16) (VV v_p00) (VV v_p10));
      SVec v_p00 (VOp2 (Add16) (VV v_p00) (VV v_coeff4));
      SVec v_p00 (VOp1 (Srl16 3) (VV v_p00));
      SVec v_p01 (VOp2 (Add16) (VV v_H0) (VV v_H3));
      SVec v_p11 (VOp2 (Add16) (VV v_H1) (VV v_H2));
      SVec v_p11 (VOp2 (Mul16) (VV v_p11) (VV v_coeff3));
      SVec v_p01 (VOp2 (Add16) (VV v_p01) (VV v_p11));
      SVec v_p01 (VOp2 (Add16) (VV v_p01) (VV v_coeff4));
      SVec v_p01 (VOp1 (Srl16 3) (VV v_p01));
      SVec v_p00 (VOp2 (Pack16) (VV v_p00) (VV v_p01));
      SVec v_p00 (VOp1 (Perm64 216) (VV v_p00));
      SStore 32 (PAdd (PV v_pfirst (IC 3)) (IV v_i)) (VV v_p00);
      SVec v_p00 (VOp2 (Mul16) (VV v_L0) (VV v_coeff3));
      SVec v_p10 (VOp2 (Mul16) (VV v_L1) (VV v_coeff11));
      SVec v_p20 (VOp2 (Mul16) (VV v_L2) (VV v_coeff13));
      SVec v_p30 (VOp2 (Mul16) (VV v_L3) (VV v_coeff5));
      SVec v_p00 (VOp2 (Add16) (VV v_p00) (VV v_coeff16));
      SVec v_p00 (VOp2 (Add16) (VV v_p00) (VV v_p10));
      SVec v_p00 (VOp2 (Add16) (VV v_p00) (VV v_p20));
      SVec v_p00 (VOp2 (Add16) (VV v_p00) (VV v_p30));
      SVec v_p00 (VOp1 (Srl16 5) (VV v_p00));
      SVec v_p01 (VOp2 (Mul16) (VV v_H0) (VV v_coeff3));
      SVec v_p11 (VOp2 (Mul16) (VV v_H1) (VV v_coeff11));
      SVec v_p21 (VOp2 (Mul16) (VV v_H2) (VV v_coeff13));
      SVec v_p31 (VOp2 (Mul16) (VV v_H3) (VV v_coeff5));
      SVec v_p01 (VOp2 (Add16) (VV v_p01) (VV v_coeff16));
      SVec v_p01 (VOp2 (Add16) (VV v_p01) (VV v_p11));
      SVec v_p01 (VOp2 (Add16) (VV v_p01) (VV v_p21));
      SVec v_p01 (VOp2 (Add16) (VV v_p01) (VV v_p31));
      SVec v_p01 (VOp1 (Srl16 5) (VV v_p01));
      SVec v_p00 (VOp2 (Pack16) (VV v_p00) (VV v_p01));
      SVec v_p00 (VOp1 (Perm64 216) (VV v_p00));
      SStore 32 (PAdd (PV v_pfirst (IC 4)) (IV v_i)) (VV v_p00);
      SVec v_p10 (VOp2 (Mul16) (VV v_L1) (VV v_coeff5));
      SVec v_p20 (VOp2 (Mul16) (VV v_L2) (VV v_coeff7));
      SVec v_p30 (VOp2 (Mul16) (VV v_L3) (VV v_coeff3));
      SVec v_p00 (VOp2 (Add16) (VV v_L0) (VV v_coeff8));
      SVec v_p00 (VOp2 (Add16) (VV v_p00) (VV v_p10));
      SVec v_p00 (VOp2 (Add16) (VV v_p00) (VV v_p20));
      SVec v_p00 (VOp2 (Add16) (VV v_p00) (VV v_p30));
      SVec v_p00 (VOp1 (Srl16 4) (VV v_p00));
      SVec v_p11 (VOp2 (Mul16) (VV v_H1) (VV v_coeff5));
      SVec v_p21 (VOp2 (Mul16) (VV v_H2) (VV v_coeff7));
      SVec v_p31 (VOp2 (Mul16) (VV v_H3) (VV v_coeff3));
      SVec v_p01 (VOp2 (Add16) (VV v_H0) (VV v_coeff8));
      SVec v_p01 (VOp2 (Add16) (VV v_p01) (VV v_p11));
      SVec v_p01 (VOp2 (Add16) (VV v_p01) (VV v_p21));
      SVec v_p01 (VOp2 (Add16) (VV v_p01) (VV v_p31));
      SVec v_p01 (VOp1 (Srl16 4) (VV v_p01));
      SVec v_p00 (VOp2 (Pack16) (VV v_p00) (VV v_p01));
      SVec v_p00 (VOp1 (Perm64 216) (VV v_p00));
      SStore 32 (PAdd (PV v_pfirst (IC 5)) (IV v_i)) (VV v_p00);
      SVec v_p10 (VOp2 (Mul16) (VV v_L1) (VV v_coeff9));
      SVec v_p20 (VOp2 (Mul16) (VV v_L2) (VV v_coeff15));
      SVec v_p30 (VOp2 (Mul16) (VV v_L3) (VV v_coeff7));
      SVec v_p00 (VOp2 (Add16) (VV v_L0) (VV v_coeff16));
      SVec v_p00 (VOp2 (Add16) (VV v_p00) (VV v_p10));
      SVec v_p00 (VOp2 (Add16) (VV v_p00) (VV v_p20));
      SVec v_p00 (VOp2 (Add16) (VV v_p00) (VV v_p30));
      SVec v_p00 (VOp1 (Srl16 5) (VV v_p00));
      SVec v_p11 (VOp2 (Mul16) (VV v_H1) (VV v_coeff9));
      SVec v_p21 (VOp2 (Mul16) (VV v_H2) (VV v_coeff15));
      SVec v_p31 (VOp2 (Mul16) (VV v_H3) (VV v_coeff7));
      SVec v_p01 (VOp2 (Add16) (VV v_H0) (VV v_coeff16));
      SVec v_p01 (VOp2 (Add16) (VV v_p01) (VV v_p11));
      SVec v_p01 (VOp2 (Add16) (VV v_p01) (VV v_p21));
      SVec v_p01 (VOp2 (Add16) (VV v_p01) (VV v_p31));
      SVec v_p01 (VOp1 (Srl16 5) (VV v_p01));
      SVec v_p00 (VOp2 (Pack16) (VV v_p00) (VV v_p01));
      SVec v_p00 (VOp1 (Perm64 216) (VV v_p00));
      SStore 32 (PAdd (PV v_pfirst (IC 6)) (IV v_i)) (VV v_p00);
      SVec v_p10 (VOp2 (Mul16) (VV v_L2) (VV v_coeff2));
      SVec v_p00 (VOp2 (Add16) (VV v_L1) (VV v_L3));
      SVec v_p00 (VOp2 (Add16) (VV v_p00) (VV v_coeff2));
      SVec v_p00 (VOp2 (Add16) (VV v_p00) (VV v_p10));
      SVec v_p00 (VOp1 (Srl16 2) (VV v_p00));
      SVec v_p11 (VOp2 (Mul16) (VV v_H2) (VV v_coeff2));
      SVec v_p01 (VOp2 (Add16) (VV v_H1) (VV v_H3));
      SVec v_p01 (VOp2 (Add16) (VV v_p01) (VV v_coeff2));
      SVec v_p01 (VOp2 (Add16) (VV v_p01) (VV v_p11));
      SVec v_p01 (VOp1 (Srl16 2) (VV v_p01));
      SVec v_p00 (VOp2 (Pack16) (VV v_p00) (VV v_p01));
      SVec v_p00 (VOp1 (Perm64 216) (VV v_p00));
      SStore 32 (PAdd (PV v_pfirst (IC 7)) (IV v_i)) (VV v_p00);
      SInt v_i (IAdd (IV v_i) (IC 32));
      SPtr v_src (IC 0) (PAdd (PV v_src (IC 0)) (IC 32))];
    SVec v_mask (VTab (intrinsic_mask_256_8bit ++ beyond) (ISub (IV v_bsx) (IC 1)));
    SIf (ILt (IV v_i) (IV v_line_size)) [
      SVec v_S0 (VLoad 32 0 (PAdd (PV v_src (IC 0)) (IC 2)));
      SVec v_S1 (VLoad 32 0 (PAdd (PV v_src (IC 0)) (IC 1)));
      SVec v_S2 (VLoad 32 0 (PV v_src (IC 0)));
      SVec v_S3 (VLoad 32 0 (PAdd (PV v_src (IC 0)) (ISub (IC 0) (IC 1))));
      SVec v_L0 (VOp1 Cvt8 (VOp1 (Ext 0) (VV v_S0)));
      SVec v_L1 (VOp1 Cvt8 (VOp1 (Ext 0) (VV v_S1)));
      SVec v_L2 (VOp1 Cvt8 (VOp1 (Ext 0) (VV v_S2)));
      SVec v_L3 (VOp1 Cvt8 (VOp1 (Ext 0) (VV v_S3)));
      SVec v_p00 (VOp2 (Mul16) (VV v_L0) (VV v_coeff7));
      SVec v_p10 (VOp2 (Mul16) (VV v_L1) (VV v_coeff15));
      SVec v_p20 (VOp2 (Mul16) (VV v_L2) (VV v_coeff9));
      SVec v_p30 (VOp2 (Add16) (VV v_L3) (VV v_coeff16));
      SVec v_p00 (VOp2 (Add16) (VV v_p00) (VV v_p10));
      SVec v_p00 (VOp2 (Add16) (VV v_p00) (VV v_p20));
      SVec v_p00 (VOp2 (Add16) (VV v_p00) (VV v_p30));
      SVec v_p00 (VOp1 (Srl16 5) (VV v_p00));
      SVec v_p00 (VOp2 (Pack16) (VV v_p00) (VV v_p00));
      SVec v_p00 (VOp1 (Perm64 216) (VV v_p00));
      SMask 4 (PAdd (PV v_pfirst (IC 0)) (IV v_i)) (VV v_mask) (VV v_p00);
      SVec v_p00 (VOp2 (Mul16) (VV v_L0) (VV v_coeff3));
      SVec v_p10 (VOp2 (Mul16) (VV v_L1) (VV v_coeff7));
      SVec v_p20 (VOp2 (Mul16) (VV v_L2) (VV v_coeff5));
      SVec v_p30 (VOp2 (Add16) (VV v_L3) (VV v_coeff8));
      SVec v_p00 (VOp2 (Add16) (VV v_p00) (VV v_p10));
      SVec v_p00 (VOp2 (Add16) (VV v_p00) (VV v_p20));
      SVec v_p00 (VOp2 (Add16) (VV v_p00) (VV v_p30));
      SVec v_p00 (VOp1 (Srl16 4) (VV v_p00));
      SVec v_p00 (VOp2 (Pack16) (VV v_p00) (VV v_p00));
      SVec v_p00 (VOp1 (Perm64 216) (VV v_p00));
      SMask 4 (PAdd (PV v_pfirst (IC 1)) (IV v_i)) (VV v_mask) (VV v_p00);
      SVec v_p00 (VOp2 (Mul16) (VV v_L0) (VV v_coeff5));
      SVec v_p10 (VOp2 (Mul16) (VV v_L1) (VV v_coeff13));
      SVec v_p20 (VOp2 (Mul16) (VV v_L2) (VV v_coeff11));
      SVec v_p30 (VOp2 (Mul16) (VV v_L3) (VV v_coeff3));
      SVec v_p00 (VOp2 (Add16) (VV v_p00) (VV v_coeff16));
      SVec v_p00 (VOp2 (Add16) (VV v_p00) (VV v_p10));
      SVec v_p00 (VOp2 (Add16) (VV v_p00) (VV v_p20));
      SVec v_p00 (VOp2 (Add16) (VV v_p00) (VV v_p30));
      SVec v_p00 (VOp1 (Srl16 5) (VV v_p00));
      SVec v_p00 (VOp2 (Pack16) (VV v_p00) (VV v_p00));
      SVec v_p00 (VOp1 (Perm64 216) (VV v_p00));
      SMask 4 (PAdd (PV v_pfirst (IC 2)) (IV v_i)) (VV v_mask) (VV v_p00);
      SVec v_p00 (VOp2 (Add16) (VV v_L0) (VV v_L3));
      SVec v_p10 (VOp2 (Add16) (VV v_L1) (VV v_L2));
      SVec v_p10 (VOp2 (Mul16) (VV v_p10) (VV v_coeff3));
      SVec v_p00 (VOp2 (Add16) (VV v_p00) (VV v_p10));
      SVec v_p00 (VOp2 (Add16) (VV v_p00) (VV v_coeff4));
      SVec v_p00 (VOp1 (Srl16 3) (VV v_p00));
      SVec v_p00 (VOp2 (Pack16) (VV v_p00) (VV v_p00));
      SVec v_p00 (VOp1 (Perm64 216) (VV v_p00));
      SMask 4 (PAdd (PV v_pfirst (IC 3)) (IV v_i)) (VV v_mask) (VV v_p00);
      SVec v_p00 (VOp2 (Mul16) (VV v_L0) (VV v_coeff3));
      SVec v_p10 (VOp2 (Mul16) (VV v_L1) (VV v_coeff11));
      SVec v_p20 (VOp2 (Mul16) (VV v_L2) (VV v_coeff13));
      SVec v_p30 (VOp2 (Mul16) (VV v_L3) (VV v_coeff5));
      SVec v_p00 (VOp2 (Add16) (VV v_p00) (VV v_coeff16));
      SVec v_p00 (VOp2 (Add16) (VV v_p00) (VV v_p10));
      SVec v_p00 (VOp2 (Add16) (VV v_p00) (VV v_p20));
      SVec v_p00 (VOp2 (Add16) (VV v_p00) (VV v_p30));
      SVec v_p00 (VOp1 (Srl16 5) (VV v_p00));
      SVec v_p00 (VOp2 (Pack16) (VV v_p00) (VV v_p00));
      SVec v_p00 (VOp1 (Perm64 216) (VV v_p00));
      SMask 4 (PAdd (PV v_pfirst (IC 4)) (IV v_i)) (VV v_mask) (VV v_p00);
      SVec v_p10 (VOp2 (Mul16) (VV v_L1) (VV v_coeff5));
      SVec v_p20 (VOp2 (Mul16) (VV v_L2) (VV v_coeff7));
      SVec v_p30 (VOp2 (Mul16) (VV v_L3) (VV v_coeff3));
      SVec v_p00 (VOp2 (Add16) (VV v_L0) (VV v_coeff8));
      SVec v_p00 (VOp2 (Add16) (VV v_p00) (VV v_p10));
      SVec v_p00 (VOp2 (Add16) (VV v_p00) (VV v_p20));
      SVec v_p00 (VOp2 (Add16) (VV v_p00) (VV v_p30));
      SVec v_p00 (VOp1 (Srl16 4) (VV v_p00));
      SVec v_p00 (VOp2 (Pack16) (VV v_p00) (VV v_p00));
      SVec v_p00 (VOp1 (Perm64 216) (VV v_p00));
      SMask 4 (PAdd (PV v_pfirst (IC 5)) (IV v_i)) (VV v_mask) (VV v_p00);
      SVec v_p10 (VOp2 (Mul16) (VV v_L1) (VV v_coeff9));
      SVec v_p20 (VOp2 (Mul16) (VV v_L2) (VV v_coeff15));
      SVec v_p30 (VOp2 (Mul16) (VV v_L3) (VV v_coeff7));
      SVec v_p00 (VOp2 (Add16) (VV v_L0) (VV v_coeff16));
      SVec v_p00 (VOp2 (Add16) (VV v_p00) (VV v_p10));
      SVec v_p00 (VOp2 (Add16) (VV v_p00) (VV v_p20));
      SVec v_p00 (VOp2 (Add16) (VV v_p00) (VV v_p30));
      SVec v_p00 (VOp1 (Srl16 5) (VV v_p00));
      SVec v_p00 (VOp2 (Pack16) (VV v_p00) (VV v_p00));
      SVec v_p00 (VOp1 (Perm64 216) (VV v_p00));
      SMask 4 (PAdd (PV v_pfirst (IC 6)) (IV v_i)) (VV v_mask) (VV v_p00);
      SVec v_p10 (VOp2 (Mul16) (VV v_L2) (VV v_coeff2));
      SVec v_p00 (VOp2 (Add16) (VV v_L1) (VV v_L3));
      SVec v_p00 (VOp2 (Add16) (VV v_p00) (VV v_coeff2));
      SVec v_p00 (VOp2 (Add16) (VV v_p00) (VV v_p10));
      SVec v_p00 (VOp1 (Srl16 2) (VV v_p00));
      SVec v_p00 (VOp2 (Pack16) (VV v_p00) (VV v_p00));
      SVec v_p00 (VOp1 (Perm64 216) (VV v_p00));
      SMask 4 (PAdd (PV v_pfirst (IC 7)) (IV v_i)) (VV v_mask) (VV v_p00)] [];
    SPtr v_pfirst (IC 0) (PAdd (PV v_pfirst (IC 0)) (IV v_left_size));
    SPtr v_pfirst (IC 1) (PAdd (PV v_pfirst (IC 1)) (IV v_left_size));
    SPtr v_pfirst (IC 2) (PAdd (PV v_pfirst (IC 2)) (IV v_left_size));
    SPtr v_pfirst (IC 3) (PAdd (PV v_pfirst (IC 3)) (IV v_left_size));
    SPtr v_pfirst (IC 4) (PAdd (PV v_pfirst (IC 4)) (IV v_left_size));
    SPtr v_pfirst (IC 5) (PAdd (PV v_pfirst (IC 5)) (IV v_left_size));
    SPtr v_pfirst (IC 6) (PAdd (PV v_pfirst (IC 6)) (IV v_left_size));
    SPtr v_pfirst (IC 7) (PAdd (PV v_pfirst (IC 7)) (IV v_left_size));
    SInt v_bsy (IShr (IV v_bsy) (IC 3));
    SIf (IEq (IV v_bsx) (IC 64)) [
      SInt v_i (IC 0);
      SLoop (ILt (IV v_i) (IV v_bsy)) [
        SVec v_M (VLoad 32 0 (PAdd (PV v_pfirst (IC 0)) (ISub (IC 0) (IV v_i))));
        SStore 32 (PV v_dst (IC 0)) (VV v_M);
        SVec v_M (VLoad 32 0 (PAdd (PAdd (PV v_pfirst (IC 0)) (ISub (IC 0) (IV v_i))) (IC 32)));
        SStore 32 (PAdd (PV v_dst (IC 0)) (IC 32)) (VV v_M);
        SPtr v_dst (IC 0) (PAdd (PV v_dst (IC 0)) (IV v_i_dst));
        SVec v_M (VLoad 32 0 (PAdd (PV v_pfirst (IC 1)) (ISub (IC 0) (IV v_i))));
        SStore 32 (PV v_dst (IC 0)) (VV v_M);
        SVec v_M (VLoad 32 0 (PAdd (PAdd (PV v_pfirst (IC 1)) (ISub (IC 0) (IV v_i))) (IC 32)));
        SStore 32 (PAdd (PV v_dst (IC 0)) (IC 32)) (VV v_M);
        SPtr v_dst (IC 0) (PAdd (PV v_dst (IC 0)) (IV v_i_dst));
        SVec v_M (VLoad 32 0 (PAdd (PV v_pfirst (IC 2)) (ISub (IC 0) (IV v_i))));
        SStore 32 (PV v_dst (IC 0)) (VV v_M);
        SVec v_M (VLoad 32 0 (PAdd (PAdd (PV v_pfirst (IC 2)) (ISub (IC 0) (IV v_i))) (IC 32)));
        SStore 32 (PAdd (PV v_dst (IC 0)) (IC 32)) (VV v_M);
        SPtr v_dst (IC 0) (PAdd (PV v_dst (IC 0)) (IV v_i_dst));
        SVec v_M (VLoad 32 0 (PAdd (PV v_pfirst (IC 3)) (ISub (IC 0) (IV v_i))));
        SStore 32 (PV v_dst (IC 0)) (VV v_M);
        SVec v_M (VLoad 32 0 (PAdd (PAdd (PV v_pfirst (IC 3)) (ISub (IC 0) (IV v_i))) (IC 32)));
        SStore 32 (PAdd (PV v_dst (IC 0)) (IC 32)) (VV v_M);
        SPtr v_dst (IC 0) (PAdd (PV v_dst (IC 0)) (IV v_i_dst));
        SVec v_M (VLoad 32 0 (PAdd (PV v_pfirst (IC 4)) (ISub (IC 0) (IV v_i))));
        SStore 32 (PV v_dst (IC 0)) (VV v_M);
        SVec v_M (VLoad 32 0 (PAdd (PAdd (PV v_pfirst (IC 4)) (ISub (IC 0) (IV v_i))) (IC 32)));
        SStore 32 (PAdd (PV v_dst (IC 0)) (IC 32)) (VV v_M);
        SPtr v_dst (IC 0) (PAdd (PV v_dst (IC 0)) (IV v_i_dst));
        SVec v_M (VLoad 32 0 (PAdd (PV v_pfirst (IC 5)) (ISub (IC 0) (IV v_i))));
        SStore 32 (PV v_dst (IC 0)) (VV v_M);
        SVec v_M (VLoad 32 0 (PAdd (PAdd (PV v_pfirst (IC 5)) (ISub (IC 0) (IV v_i))) (IC 32)));
        SStore 32 (PAdd (PV v_dst (IC 0)) (IC 32)) (VV v_M);
        SPtr v_dst (IC 0) (PAdd (PV v_dst (IC 0)) (IV v_i_dst));
        SVec v_M (VLoad 32 0 (PAdd (PV v_pfirst (IC 6)) (ISub (IC 0) (IV v_i))));
        SStore 32 (PV v_dst (IC 0)) (VV v_M);
        SVec v_M (VLoad 32 0 (PAdd (PAdd (PV v_pfirst (IC 6)) (ISub (IC 0) (IV v_i))) (IC 32)));
        SStore 32 (PAdd (PV v_dst (IC 0)) (IC 32)) (VV v_M);
        SPtr v_dst (IC 0) (PAdd (PV v_dst (IC 0)) (IV v_i_dst));
        SVec v_M (VLoad 32 0 (PAdd (PV v_pfirst (IC 7)) (ISub (IC 0) (IV v_i))));
        SStore 32 (PV v_dst (IC 0)) (VV v_M);
        SVec v_M (VLoad 32 0 (PAdd (PAdd (PV v_pfirst (IC 7)) (ISub (IC 0) (IV v_i))) (IC 32)));
        SStore 32 (PAdd (PV v_dst (IC 0)) (IC 32)) (VV v_M);
        SPtr v_dst (IC 0) (PAdd (PV v_dst (IC 0)) (IV v_i_dst));
        SInt v_i (IAdd (IV v_i) (IC 1))]] [
      SIf (IEq (IV v_bsx) (IC 32)) [
        SInt v_i (IC 0);
        SLoop (ILt (IV v_i) (IV v_bsy)) [
          SVec v_M (VLoad 32 0 (PAdd (PV v_pfirst (IC 0)) (ISub (IC 0) (IV v_i))));
          SStore 32 (PV v_dst (IC 0)) (VV v_M);
          SPtr v_dst (IC 0) (PAdd (PV v_dst (IC 0)) (IV v_i_dst));
          SVec v_M (VLoad 32 0 (PAdd (PV v_pfirst (IC 1)) (ISub (IC 0) (IV v_i))));
          SStore 32 (PV v_dst (IC 0)) (VV v_M);
          SPtr v_dst (IC 0) (PAdd (PV v_dst (IC 0)) (IV v_i_dst));
          SVec v_M (VLoad 32 0 (PAdd (PV v_pfirst (IC 2)) (ISub (IC 0) (IV v_i))));
          SStore 32 (PV v_dst (IC 0)) (VV v_M);
          SPtr v_dst (IC 0) (PAdd (PV v_dst (IC 0)) (IV v_i_dst));
          SVec v_M (VLoad 32 0 (PAdd (PV v_pfirst (IC 3)) (ISub (IC 0) (IV v_i))));
          SStore 32 (PV v_dst (IC 0)) (VV v_M);
          SPtr v_dst (IC 0) (PAdd (PV v_dst (IC 0)) (IV v_i_dst));
          SVec v_M (VLoad 32 0 (PAdd (PV v_pfirst (IC 4)) (ISub (IC 0) (IV v_i))));
          SStore 32 (PV v_dst (IC 0)) (VV v_M);
          SPtr v_dst (IC 0) (PAdd (PV v_dst (IC 0)) (IV v_i_dst));
          SVec v_M (VLoad 32 0 (PAdd (PV v_pfirst (IC 5)) (ISub (IC 0) (IV v_i))));
          SStore 32 (PV v_dst (IC 0)) (VV v_M);
          SPtr v_dst (IC 0) (PAdd (PV v_dst (IC 0)) (IV v_i_dst));
          SVec v_M (VLoad 32 0 (PAdd (PV v_pfirst (IC 6)) (ISub (IC 0) (IV v_i))));
          SStore 32 (PV v_dst (IC 0)) (VV v_M);
          SPtr v_dst (IC 0) (PAdd (PV v_dst (IC 0)) (IV v_i_dst));
          SVec v_M (VLoad 32 0 (PAdd (PV v_pfirst (IC 7)) (ISub (IC 0) (IV v_i))));
          SStore 32 (PV v_dst (IC 0)) (VV v_M);
          SPtr v_dst (IC 0) (PAdd (PV v_dst (IC 0)) (IV v_i_dst));
          SInt v_i (IAdd (IV v_i) (IC 1))]] [
        SIf (IEq (IV v_bsx) (IC 16)) [
          SVec v_mask (VTab intrinsic_mask_256_8bit (IC 15));
          SInt v_i (IC 0);
          SLoop (ILt (IV v_i) (IV v_bsy)) [
            SVec v_M (VLoad 32 0 (PAdd (PV v_pfirst (IC 0)) (ISub (IC 0) (IV v_i))));
            SMask 8 (PV v_dst (IC 0)) (VV v_mask) (VV v_M);
            SPtr v_dst (IC 0) (PAdd (PV v_dst (IC 0)) (IV v_i_dst));
            SVec v_M (VLoad 32 0 (PAdd (PV v_pfirst (IC 1)) (ISub (IC 0) (IV v_i))));
            SMask 8 (PV v_dst (IC 0)) (VV v_mask) (VV v_M);
            SPtr v_dst (IC 0) (PAdd (PV v_dst (IC 0)) (IV v_i_dst));
            SVec v_M (VLoad 32 0 (PAdd (PV v_pfirst (IC 2)) (ISub (IC 0) (IV v_i))));
            SMask 8 (PV v_dst (IC 0)) (VV v_mask) (VV v_M);
            SPtr v_dst (IC 0) (PAdd (PV v_dst (IC 0)) (IV v_i_dst));
            SVec v_M (VLoad 32 0 (PAdd (PV v_pfirst (IC 3)) (ISub (IC 0) (IV v_i))));
            SMask 8 (PV v_dst (IC 0)) (VV v_mask) (VV v_M);
            SPtr v_dst (IC 0) (PAdd (PV v_dst (IC 0)) (IV v_i_dst));
            SVec v_M (VLoad 32 0 (PAdd (PV v_pfirst (IC 4)) (ISub (IC 0) (IV v_i))));
            SMask 8 (PV v_dst (IC 0)) (VV v_mask) (VV v_M);
            SPtr v_dst (IC 0) (PAdd (PV v_dst (IC 0)) (IV v_i_dst));
            SVec v_M (VLoad 32 0 (PAdd (PV v_pfirst (IC 5)) (ISub (IC 0) (IV v_i))));
            SMask 8 (PV v_dst (IC 0)) (VV v_mask) (VV v_M);
            SPtr v_dst (IC 0) (PAdd (PV v_dst (IC 0)) (IV v_i_dst));
            SVec v_M (VLoad 32 0 (PAdd (PV v_pfirst (IC 6)) (ISub (IC 0) (IV v_i))));
            SMask 8 (PV v_dst (IC 0)) (VV v_mask) (VV v_M);
            SPtr v_dst (IC 0) (PAdd (PV v_dst (IC 0)) (IV v_i_dst));
            SVec v_M (VLoad 32 0 (PAdd (PV v_pfirst (IC 7)) (ISub (IC 0) (IV v_i))));
            SMask 8 (PV v_dst (IC 0)) (VV v_mask) (VV v_M);
            SPtr v_dst (IC 0) (PAdd (PV v_dst (IC 0)) (IV v_i_dst));
            SInt v_i (IAdd (IV v_i) (IC 1))]] [
          SIf (IEq (IV v_bsx) (IC 8)) [
            SVec v_mask (VTab intrinsic_mask_256_8bit (IC 7));
            SInt v_i (IC 0);
            SLoop (ILt (IV v_i) (IV v_bsy)) [
              SVec v_M (VLoad 32 0 (PAdd (PV v_pfirst (IC 0)) (ISub (IC 0) (IV v_i))));
              SMask 8 (PV v_dst (IC 0)) (VV v_mask) (VV v_M);
              SPtr v_dst (IC 0) (PAdd (PV v_dst (IC 0)) (IV v_i_dst));
              SVec v_M (VLoad 32 0 (PAdd (PV v_pfirst (IC 1)) (ISub (IC 0) (IV v_i))));
              SMask 8 (PV v_dst (IC 0)) (VV v_mask) (VV v_M);
              SPtr v_dst (IC 0) (PAdd (PV v_dst (IC 0)) (IV v_i_dst));
              SVec v_M (VLoad 32 0 (PAdd (PV v_pfirst (IC 2)) (ISub (IC 0) (IV v_i))));
              SMask 8 (PV v_dst (IC 0)) (VV v_mask) (VV v_M);
              SPtr v_dst (IC 0) (PAdd (PV v_dst (IC 0)) (IV v_i_dst));
              SVec v_M (VLoad 32 0 (PAdd (PV v_pfirst (IC 3)) (ISub (IC 0) (IV v_i))));
              SMask 8 (PV v_dst (IC 0)) (VV v_mask) (VV v_M);
              SPtr v_dst (IC 0) (PAdd (PV v_dst (IC 0)) (IV v_i_dst));
              SVec v_M (VLoad 32 0 (PAdd (PV v_pfirst (IC 4)) (ISub (IC 0) (IV v_i))));
              SMask 8 (PV v_dst (IC 0)) (VV v_mask) (VV v_M);
              SPtr v_dst (IC 0) (PAdd (PV v_dst (IC 0)) (IV v_i_dst));
              SVec v_M (VLoad 32 0 (PAdd (PV v_pfirst (IC 5)) (ISub (IC 0) (IV v_i))));
              SMask 8 (PV v_dst (IC 0)) (VV v_mask) (VV v_M);
              SPtr v_dst (IC 0) (PAdd (PV v_dst (IC 0)) (IV v_i_dst));
              SVec v_M (VLoad 32 0 (PAdd (PV v_pfirst (IC 6)) (ISub (IC 0) (IV v_i))));
              SMask 8 (PV v_dst (IC 0)) (VV v_mask) (VV v_M);
              SPtr v_dst (IC 0) (PAdd (PV v_dst (IC 0)) (IV v_i_dst));
              SVec v_M (VLoad 32 0 (PAdd (PV v_pfirst (IC 7)) (ISub (IC 0) (IV v_i))));
              SMask 8 (PV v_dst (IC 0)) (VV v_mask) (VV v_M);
              SPtr v_dst (IC 0) (PAdd (PV v_dst (IC 0)) (IV v_i_dst));
              SInt v_i (IAdd (IV v_i) (IC 1))]] [
            SVec v_mask (VTab intrinsic_mask_256_8bit (IC 3));
            SInt v_i (IC 0);
            SLoop (ILt (IV v_i) (IV v_bsy)) [
              SVec v_M (VLoad 32 0 (PAdd (PV v_pfirst (IC 0)) (ISub (IC 0) (IV v_i))));
              SMask 4 (PV v_dst (IC 0)) (VV v_mask) (VV v_M);
              SPtr v_dst (IC 0) (PAdd (PV v_dst (IC 0)) (IV v_i_dst));
              SVec v_M (VLoad 32 0 (PAdd (PV v_pfirst (IC 1)) (ISub (IC 0) (IV v_i))));
              SMask 4 (PV v_dst (IC 0)) (VV v_mask) (VV v_M);
              SPtr v_dst (IC 0) (PAdd (PV v_dst (IC 0)) (IV v_i_dst));
              SVec v_M (VLoad 32 0 (PAdd (PV v_pfirst (IC 2)) (ISub (IC 0) (IV v_i))));
              SMask 4 (PV v_dst (IC 0)) (VV v_mask) (VV v_M);
              SPtr v_dst (IC 0) (PAdd (PV v_dst (IC 0)) (IV v_i_dst));
              SVec v_M (VLoad 32 0 (PAdd (PV v_pfirst (IC 3)) (ISub (IC 0) (IV v_i))));
              SMask 4 (PV v_dst (IC 0)) (VV v_mask) (VV v_M);
              SPtr v_dst (IC 0) (PAdd (PV v_dst (IC 0)) (IV v_i_dst));
              SVec v_M (VLoad 32 0 (PAdd (PV v_pfirst (IC 4)) (ISub (IC 0) (IV v_i))));
              SMask 4 (PV v_dst (IC 0)) (VV v_mask) (VV v_M);
              SPtr v_dst (IC 0) (PAdd (PV v_dst (IC 0)) (IV v_i_dst));
              SVec v_M (VLoad 32 0 (PAdd (PV v_pfirst (IC 5)) (ISub (IC 0) (IV v_i))));
              SMask 4 (PV v_dst (IC 0)) (VV v_mask) (VV v_M);
              SPtr v_dst (IC 0) (PAdd (PV v_dst (IC 0)) (IV v_i_dst));
              SVec v_M (VLoad 32 0 (PAdd (PV v_pfirst (IC 6)) (ISub (IC 0) (IV v_i))));
              SMask 4 (PV v_dst (IC 0)) (VV v_mask) (VV v_M);
              SPtr v_dst (IC 0) (PAdd (PV v_dst (IC 0)) (IV v_i_dst));
              SVec v_M (VLoad 32 0 (PAdd (PV v_pfirst (IC 7)) (ISub (IC 0) (IV v_i))));
              SMask 4 (PV v_dst (IC 0)) (VV v_mask) (VV v_M);
              SPtr v_dst (IC 0) (PAdd (PV v_dst (IC 0)) (IV v_i_dst));
              SInt v_i (IAdd (IV v_i) (IC 1))]]]]]] [
    SCall k_ang_xy_13_sse128 (PV v_src (IC 0)) (PV v_dst (IC 0)) (IV v_i_dst) (IV v_bsx) (IV v_bsy);
    SRet]].
Definition k_ang_xy_13_avx : list stm := k_ang_xy_13_avx_with [].

(** vec/intrinsic_intra-pred_avx2.cc:5422-5952 [intra_pred_ang_xy_14_avx] *)
Definition k_ang_xy_14_avx : list stm := [
  SVec v_coeff2 (VSet1 2 16 (XC 2));
  SVec v_coeff3 (VSet1 2 16 (XC 3));
  SVec v_coeff4 (VSet1 2 16 (XC 4));
  SVec v_coeff5 (VSet1 2 16 (XC 5));
  SVec v_coeff7 (VSet1 2 16 (XC 7));
  SVec v_coeff8 (VSet1 2 16 (XC 8));
  SIf (INot (IEq (IV v_bsy) (IC 4))) [
    SArr v_first_line (IMul (IC 4) (IAdd (IC 64) (IC 32)));
    SInt v_line_size (ISub (IAdd (IV v_bsx) (IDiv (IV v_bsy) (IC 4))) (IC 1));
    SInt v_left_size (ISub (IV v_line_size) (IV v_bsx));
    SInt v_aligned_line_size (IShl (IShr (IAdd (IV v_line_size) (IC 31)) (IC 4)) (IC 4));
    SVec v_shuffle (VConst [0;4;8;12;1;5;9;13;2;6;10;14;3;7;11;15;0;4;8;12;1;5;9;13;2;6;10;14;3;7;11;15]);
    SVec v_index (VConst [0;0;0;0;4;0;0;0;1;0;0;0;5;0;0;0;2;0;0;0;6;0;0;0;3;0;0;0;7;0;0;0]);
    SPtr v_pSrc1 (IC 0) (PV v_src (IC 0));
    SPtr v_pfirst (IC 0) (PV v_first_line (IC 0));
    SPtr v_pfirst (IC 1) (PAdd (PV v_first_line (IC 0)) (IV v_aligned_line_size));
    SPtr v_pfirst (IC 2) (PAdd (PV v_first_line (IC 0)) (IMul (IV v_aligned_line_size) (IC 2)));
    SPtr v_pfirst (IC 3) (PAdd (PV v_first_line (IC 0)) (IMul (IV v_aligned_line_size) (IC 3)));
    SPtr v_src (IC 0) (PAdd (PV v_src (IC 0)) (ISub (IC 0) (ISub (IV v_bsy) (IC 4))));
    SVec v_mask0 (VConst [255;255;255;255;255;255;255;255;0;0;0;0;0;0;0;0;0;0;0;0;0;0;0;0;0;0;0;0;0;0;0;0]);
    SVec v_mask1 (VConst [0;0;0;0;0;0;0;0;255;255;255;255;255;255;255;255;0;0;0;0;0;0;0;0;0;0;0;0;0;0;0;0]);
    SVec v_mask2 (VConst [0;0;0;0;0;0;0;0;0;0;0;0;0;0;0;0;255;255;255;255;255;255;255;255;0;0;0;0;0;0;0;0]);
    SVec v_mask3 (VConst [0;0;0;0;0;0;0;0;0;0;0;0;0;0;0;0;0;0;0;0;0;0;0;0;255;255;255;255;255;255;255;255]);
    SInt v_i (IC 0);
    SLoop (ILt (IV v_i) (ISub (IV v_left_size) (IC 1))) [
      SVec v_S0 (VLoad 32 0 (PAdd (PV v_src (IC 0)) (ISub (IC 0) (IC 1))));
      SVec v_S1 (VLoad 32 0 (PV v_src (IC 0)));
      SVec v_S2 (VLoad 32 0 (PAdd (PV v_src (IC 0)) (IC 1)));
      SVec v_L0 (VOp1 Cvt8 (VOp1 (Ext 0) (VV v_S0)));
      SVec v_L1 (VOp1 Cvt8 (VOp1 (Ext 0) (VV v_S1)));
      SVec v_L2 (VOp1 Cvt8 (VOp1 (Ext 0) (VV v_S2)));
      SVec v_H0 (VOp1 Cvt8 (VOp1 (Ext 1) (VV v_S0)));
      SVec v_H1 (VOp1 Cvt8 (VOp1 (Ext 1) (VV v_S1)));
      SVec v_H2 (VOp1 Cvt8 (VOp1 (Ext 1) (VV v_S2)));
      SVec v_p00 (VOp2 (Add16) (VV v_L0) (VV v_L1));
      SVec v_p01 (VOp2 (Add16) (VV v_L1) (VV v_L2));
      SVec v_p10 (VOp2 (Add16) (VV v_H0) (VV v_H1));
      SVec v_p11 (VOp2 (Add16) (VV v_H1) (VV v_H2));
      SVec v_p00 (VOp2 (Add16) (VV v_p00) (VV v_coeff2));
      SVec v_p10 (VOp2 (Add16) (VV v_p10) (VV v_coeff2));
      SVec v_p00 (VOp2 (Add16) (VV v_p00) (VV v_p01));
      SVec v_p10 (VOp2 (Add16) (VV v_p10) (VV v_p11));
      SVec v_p00 (VOp1 (Srl16 2) (VV v_p00));
      SVec v_p10 (VOp1 (Srl16 2) (VV v_p10));
      SVec v_p00 (VOp2 (Pack16) (VV v_p00) (VV v_p10));
      SVec v_p00 (VOp1 (Perm64 216) (VV v_p00));
      SVec v_p10 (VOp2 (Shuf8) (VV v_p00) (VV v_shuffle));
      SVec v_p10 (VOp2 Perm32 (VV v_p10) (VV v_index));
      SMask 8 (PAdd (PAdd (PV v_pfirst (IC 0)) (IV v_i)) (ISub (IC 0) (IC 24))) (VV v_mask3) (VV v_p10);
      SMask 8 (PAdd (PAdd (PV v_pfirst (IC 1)) (IV v_i)) (ISub (IC 0) (IC 16))) (VV v_mask2) (VV v_p10);
      SMask 8 (PAdd (PAdd (PV v_pfirst (IC 2)) (IV v_i)) (ISub (IC 0) (IC 8))) (VV v_mask1) (VV v_p10);
      SMask 8 (PAdd (PV v_pfirst (IC 3)) (IV v_i)) (VV v_mask0) (VV v_p10);
      SInt v_i (IAdd (IV v_i) (IC 8));
      SPtr v_src (IC 0) (PAdd (PV v_src (IC 0)) (IC 32))];
    SIf (ILt (IV v_i) (IV v_left_size)) [
      SVec v_shuffle1 (VConst [0;4;1;5;2;6;3;7;0;4;1;5;2;6;3;7]);
      SVec v_coeff_2 (VSet1 2 8 (XC 2));
      SVec v_zero (VConst [0;0;0;0;0;0;0;0;0;0;0;0;0;0;0;0]);
      SVec v_S_0 (VLoad 16 0 (PAdd (PV v_src (IC 0)) (ISub (IC 0) (IC 1))));
      SVec v_S_2 (VLoad 16 0 (PAdd (PV v_src (IC 0)) (IC 1)));
      SVec v_S_1 (VLoad 16 0 (PV v_src (IC 0)));
      SVec v_L_0 (VOp2 (UnpL 1) (VV v_S_0) (VV v_zero));
      SVec v_L_1 (VOp2 (UnpL 1) (VV v_S_1) (VV v_zero));
      SVec v_L_2 (VOp2 (UnpL 1) (VV v_S_2) (VV v_zero));
      SVec v_p_00 (VOp2 (Add16) (VV v_L_0) (VV v_L_1));
      SVec v_p_01 (VOp2 (Add16) (VV v_L_1) (VV v_L_2));
      SVec v_p_00 (VOp2 (Add16) (VV v_p_00) (VV v_coeff_2));
      SVec v_p_00 (VOp2 (Add16) (VV v_p_00) (VV v_p_01));
      SVec v_p_00 (VOp1 (Srl16 2) (VV v_p_00));
      SVec v_p_00 (VOp2 (Pack16) (VV v_p_00) (VV v_p_00));
      SVec v_p_00 (VOp2 (Shuf8) (VV v_p_00) (VV v_shuffle1));
      SStore 4 (PAdd (PV v_pfirst (IC 0)) (IV v_i)) (VOp1 (Ext16 3) (VV v_p_00));
      SStore 4 (PAdd (PV v_pfirst (IC 1)) (IV v_i)) (VOp1 (Ext16 2) (VV v_p_00));
      SStore 4 (PAdd (PV v_pfirst (IC 2)) (IV v_i)) (VOp1 (Ext16 1) (VV v_p_00));
      SStore 4 (PAdd (PV v_pfirst (IC 3)) (IV v_i)) (VOp1 (Ext16 0) (VV v_p_00))] [];
    SPtr v_src (IC 0) (PV v_pSrc1 (IC 0));
    SInt v_i (IV v_left_size);
    SLoop (ILt (IV v_i) (ISub (IV v_line_size) (IC 16))) [
      SVec v_S0 (VLoad 32 0 (PAdd (PV v_src (IC 0)) (ISub (IC 0) (IC 1))));
      SVec v_S1 (VLoad 32 0 (PV v_src (IC 0)));
      SVec v_S2 (VLoad 32 0 (PAdd (PV v_src (IC 0)) (IC 1)));
      SVec v_S3 (VLoad 32 0 (PAdd (PV v_src (IC 0)) (IC 2)));
      SVec v_L0 (VOp1 Cvt8 (VOp1 (Ext 0) (VV v_S0)));
      SVec v_L1 (VOp1 Cvt8 (VOp1 (Ext 0) (VV v_S1)));
      SVec v_L2 (VOp1 Cvt8 (VOp1 (Ext 0) (VV v_S2)));
      SVec v_L3 (VOp1 Cvt8 (VOp1 (Ext 0) (VV v_S3)));
      SVec v_H0 (VOp1 Cvt8 (VOp1 (Ext 1) (VV v_S0)));
      SVec v_H1 (VOp1 Cvt8 (VOp1 (Ext 1) (VV v_S1)));
      SVec v_H2 (VOp1 Cvt8 (VOp1 (Ext 1) (VV v_S2)));
      SVec v_H3 (VOp1 Cvt8 (VOp1 (Ext 1) (VV v_S3)));
      SVec v_p00 (VOp2 (Mul16) (VV v_L0) (VV v_coeff3));
      SVec v_p10 (VOp2 (Mul16) (VV v_L1) (VV v_coeff7));
      SVec v_p20 (VOp2 (Mul16) (VV v_L2) (VV v_coeff5));
      SVec v_p30 (VOp2 (Add16) (VV v_L3) (VV v_coeff8));
      SVec v_p00 (VOp2 (Add16) (VV v_p00) (VV v_p30));
      SVec v_p00 (VOp2 (Add16) (VV v_p00) (VV v_p10));
      SVec v_p00 (VOp2 (Add16) (VV v_p00) (VV v_p20));
      SVec v_p00 (VOp1 (Srl16 4) (VV v_p00));
      SVec v_p01 (VOp2 (Mul16) (VV v_H0) (VV v_coeff3));
      SVec v_p11 (VOp2 (Mul16) (VV v_H1) (VV v_coeff7));
      SVec v_p21 (VOp2 (Mul16) (VV v_H2) (VV v_coeff5));
      SVec v_p31 (VOp2 (Add16) (VV v_H3) (VV v_coeff8));
      SVec v_p01 (VOp2 (Add16) (VV v_p01) (VV v_p31));
      SVec v_p01 (VOp2 (Add16) (VV v_p01) (VV v_p11));
      SVec v_p01 (VOp2 (Add16) (VV v_p01) (VV v_p21));
      SVec v_p01 (VOp1 (Srl16 4) (VV v_p01));
      SVec v_p00 (VOp2 (Pack16) (VV v_p00) (VV v_p01));
      SVec v_p00 (VOp1 (Perm64 216) (VV v_p00));
      SStore 32 (PAdd (PV v_pfirst (IC 2)) (IV v_i)) (VV v_p00);
      SVec v_p00 (VOp2 (Add16) (VV v_L1) (VV v_L2));
      SVec v_p00 (VOp2 (Mul16) (VV v_p00) (VV v_coeff3));
      SVec v_p10 (VOp2 (Add16) (VV v_L0) (VV v_L3));
      SVec v_p10 (VOp2 (Add16) (VV v_p10) (VV v_coeff4));
      SVec v_p00 (VOp2 (Add16) (VV v_p10) (VV v_p00));
      SVec v_p00 (VOp1 (Srl16 3) (VV v_p00));
      SVec v_p01 (VOp2 (Add16) (VV v_H1) (VV v_H2));
      SVec v_p01 (VOp2 (Mul16) (VV v_p01) (VV v_coeff3));
      SVec v_p11 (VOp2 (Add16) (VV v_H0) (VV v_H3));
      SVec v_p11 (VOp2 (Add16) (VV v_p11) (VV v_coeff4));
      SVec v_p01 (VOp2 (Add16) (VV v_p11) (VV v_p01));
      SVec v_p01 (VOp1 (Srl16 3) (VV v_p01));
      SVec v_p00 (VOp2 (Pack16) (VV v_p00) (VV v_p01));
      SVec v_p00 (VOp1 (Perm64 216) (VV v_p00));
      SStore 32 (PAdd (PV v_pfirst (IC 1)) (IV v_i)) (VV v_p00);
      SVec v_p10 (VOp2 (Mul16) (VV v_L1) (VV v_coeff5));
      SVec v_p20 (VOp2 (Mul16) (VV v_L2) (VV v_coeff7));
      SVec v_p30 (VOp2 (Mul16) (VV v_L3) (VV v_coeff3));
      SVec v_p00 (VOp2 (Add16) (VV v_L0) (VV v_coeff8));
      SVec v_p00 (VOp2 (Add16) (VV v_p00) (VV v_p10));
      SVec v_p00 (VOp2 (Add16) (VV v_p00) (VV v_p20));
      SVec v_p00 (VOp2 (Add16) (VV v_p00) (VV v_p30));
      SVec v_p00 (VOp1 (Srl16 4) (VV v_p00));
      SVec v_p11 (VOp2 (Mul16) (VV v_H1) (VV v_coeff5));
      SVec v_p21 (VOp2 (Mul16) (VV v_H2) (VV v_coeff7));
      SVec v_p31 (VOp2 (Mul16) (VV v_H3) (VV v_coeff3));
      SVec v_p01 (VOp2 (Add16) (VV v_H0) (VV v_coeff8));
      SVec v_p01 (VOp2 (Add16) (VV v_p01) (VV v_p11));
      SVec v_p01 (VOp2 (Add16) (VV v_p01) (VV v_p21));
      SVec v_p01 (VOp2 (Add16) (VV v_p01) (VV v_p31));
      SVec v_p01 (VOp1 (Srl16 4) (VV v_p01));
      SVec v_p00 (VOp2 (Pack16) (VV v_p00) (VV v_p01));
      SVec v_p00 (VOp1 (Perm64 216) (VV v_p00));
      SStore 32 (PAdd (PV v_pfirst (IC 0)) (IV v_i)) (VV v_p00);
      SVec v_p00 (VOp2 (Add16) (VV v_L0) (VV v_L1));
      SVec v_p10 (VOp2 (Add16) (VV v_L1) (VV v_L2));
      SVec v_p00 (VOp2 (Add16) (VV v_p00) (VV v_p10));
      SVec v_p00 (VOp2 (Add16) (VV v_p00) (VV v_coeff2));
      SVec v_p00 (VOp1 (Srl16 2) (VV v_p00));
      SVec v_p01 (VOp2 (Add16) (VV v_H0) (VV v_H1));
      SVec v_p11 (VOp2 (Add16) (VV v_H1) (VV v_H2));
      SVec v_p01 (VOp2 (Add16) (VV v_p01) (VV v_p11));
      SVec v_p01 (VOp2 (Add16) (VV v_p01) (VV v_coeff2));
      SVec v_p01 (VOp1 (Srl16 2) (VV v_p01));
      SVec v_p00 (VOp2 (Pack16) (VV v_p00) (VV v_p01));
      SVec v_p00 (VOp1 (Perm64 216) (VV v_p00));
      SStore 32 (PAdd (PV v_pfirst (IC 3)) (IV v_i)) (VV v_p00);
      SInt v_i (IAdd (IV v_i) (IC 32));
      SPtr v_src (IC 0) (PAdd (PV v_src (IC 0)) (IC 32))];
    SIf (ILt (IV v_i) (IV v_line_size)) [
      SVec v_mask (VTab intrinsic_mask_256_8bit (IC 15));
      SVec v_S0 (VLoad 32 0 (PAdd (PV v_src (IC 0)) (ISub (IC 0) (IC 1))));
      SVec v_S1 (VLoad 32 0 (PV v_src (IC 0)));
      SVec v_S2 (VLoad 32 0 (PAdd (PV v_src (IC 0)) (IC 1)));
      SVec v_S3 (VLoad 32 0 (PAdd (PV v_src (IC 0)) (IC 2)));
      SVec v_L0 (VOp1 Cvt8 (VOp1 (Ext 0) (VV v_S0)));
      SVec v_L1 (VOp1 Cvt8 (VOp1 (Ext 0) (VV v_S1)));
      SVec v_L2 (VOp1 Cvt8 (VOp1 (Ext 0) (VV v_S2)));
      SVec v_L3 (VOp1 Cvt8 (VOp1 (Ext 0) (VV v_S3)));
      SVec v_p00 (VOp2 (Mul16) (VV v_L0) (VV v_coeff3));
      SVec v_p10 (VOp2 (Mul16) (VV v_L1) (VV v_coeff7));
      SVec v_p20 (VOp2 (Mul16) (VV v_L2) (VV v_coeff5));
      SVec v_p30 (VOp2 (Add16) (VV v_L3) (VV v_coeff8));
      SVec v_p00 (VOp2 (Add16) (VV v_p00) (VV v_p30));
      SVec v_p00 (VOp2 (Add16) (VV v_p00) (VV v_p10));
      SVec v_p00 (VOp2 (Add16) (VV v_p00) (VV v_p20));
      SVec v_p00 (VOp1 (Srl16 4) (VV v_p00));
      SVec v_p00 (VOp2 (Pack16) (VV v_p00) (VV v_p00));
      SVec v_p00 (VOp1 (Perm64 8) (VV v_p00));
      SMask 8 (PAdd (PV v_pfirst (IC 2)) (IV v_i)) (VV v_mask) (VV v_p00);
      SVec v_p00 (VOp2 (Add16) (VV v_L1) (VV v_L2));
      SVec v_p00 (VOp2 (Mul16) (VV v_p00) (VV v_coeff3));
      SVec v_p10 (VOp2 (Add16) (VV v_L0) (VV v_L3));
      SVec v_p10 (VOp2 (Add16) (VV v_p10) (VV v_coeff4));
      SVec v_p00 (VOp2 (Add16) (VV v_p10) (VV v_p00));
      SVec v_p00 (VOp1 (Srl16 3) (VV v_p00));
      SVec v_p00 (VOp2 (Pack16) (VV v_p00) (VV v_p00));
      SVec v_p00 (VOp1 (Perm64 8) (VV v_p00));
      SMask 8 (PAdd (PV v_pfirst (IC 1)) (IV v_i)) (VV v_mask) (VV v_p00);
      SVec v_p10 (VOp2 (Mul16) (VV v_L1) (VV v_coeff5));
      SVec v_p20 (VOp2 (Mul16) (VV v_L2) (VV v_coeff7));
      SVec v_p30 (VOp2 (Mul16) (VV v_L3) (VV v_coeff3));
      SVec v_p00 (VOp2 (Add16) (VV v_L0) (VV v_coeff8));
      SVec v_p00 (VOp2 (Add16) (VV v_p00) (VV v_p10));
      SVec v_p00 (VOp2 (Add16) (VV v_p00) (VV v_p20));
      SVec v_p00 (VOp2 (Add16) (VV v_p00) (VV v_p30));
      SVec v_p00 (VOp1 (Srl16 4) (VV v_p00));
      SVec v_p00 (VOp2 (Pack16) (VV v_p00) (VV v_p00));
      SVec v_p00 (VOp1 (Perm64 8) (VV v_p00));
      SMask 8 (PAdd (PV v_pfirst (IC 0)) (IV v_i)) (VV v_mask) (VV v_p00);
      SVec v_p00 (VOp2 (Add16) (VV v_L0) (VV v_L1));
      SVec v_p10 (VOp2 (Add16) (VV v_L1) (VV v_L2));
      SVec v_p00 (VOp2 (Add16) (VV v_p00) (VV v_p10));
      SVec v_p00 (VOp2 (Add16) (VV v_p00) (VV v_coeff2));
      SVec v_p00 (VOp1 (Srl16 2) (VV v_p00));
      SVec v_p00 (VOp2 (Pack16) (VV v_p00) (VV v_p00));
      SVec v_p00 (VOp1 (Perm64 8) (VV v_p00));
      SMask 8 (PAdd (PV v_pfirst (IC 3)) (IV v_i)) (VV v_mask) (VV v_p00)] [];
    SPtr v_pfirst (IC 0) (PAdd (PV v_pfirst (IC 0)) (IV v_left_size));
    SPtr v_pfirst (IC 1) (PAdd (PV v_pfirst (IC 1)) (IV v_left_size));
    SPtr v_pfirst (IC 2) (PAdd (PV v_pfirst (IC 2)) (IV v_left_size));
    SPtr v_pfirst (IC 3) (PAdd (PV v_pfirst (IC 3)) (IV v_left_size));
    SInt v_bsy (IShr (IV v_bsy) (IC 2));
    SIf (IEq (IV v_bsx) (IC 64)) [
      SInt v_i (IC 0);
      SLoop (ILt (IV v_i) (IV v_bsy)) [
        SVec v_M (VLoad 32 0 (PAdd (PV v_pfirst (IC 0)) (ISub (IC 0) (IV v_i))));
        SStore 32 (PV v_dst (IC 0)) (VV v_M);
        SVec v_M (VLoad 32 0 (PAdd (PAdd (PV v_pfirst (IC 0)) (ISub (IC 0) (IV v_i))) (IC 32)));
        SStore 32 (PAdd (PV v_dst (IC 0)) (IC 32)) (VV v_M);
        SPtr v_dst (IC 0) (PAdd (PV v_dst (IC 0)) (IV v_i_dst));
        SVec v_M (VLoad 32 0 (PAdd (PV v_pfirst (IC 1)) (ISub (IC 0) (IV v_i))));
        SStore 32 (PV v_dst (IC 0)) (VV v_M);
        SVec v_M (VLoad 32 0 (PAdd (PAdd (PV v_pfirst (IC 1)) (ISub (IC 0) (IV v_i))) (IC 32)));
        SStore 32 (PAdd (PV v_dst (IC 0)) (IC 32)) (VV v_M);
        SPtr v_dst (IC 0) (PAdd (PV v_dst (IC 0)) (IV v_i_dst));
        SVec v_M (VLoad 32 0 (PAdd (PV v_pfirst (IC 2)) (ISub (IC 0) (IV v_i))));
        SStore 32 (PV v_dst (IC 0)) (VV v_M);
        SVec v_M (VLoad 32 0 (PAdd (PAdd (PV v_pfirst (IC 2)) (ISub (IC 0) (IV v_i))) (IC 32)));
        SStore 32 (PAdd (PV v_dst (IC 0)) (IC 32)) (VV v_M);
        SPtr v_dst (IC 0) (PAdd (PV v_dst (IC 0)) (IV v_i_dst));
        SVec v_M (VLoad 32 0 (PAdd (PV v_pfirst (IC 3)) (ISub (IC 0) (IV v_i))));
        SStore 32 (PV v_dst (IC 0)) (VV v_M);
        SVec v_M (VLoad 32 0 (PAdd (PAdd (PV v_pfirst (IC 3)) (ISub (IC 0) (IV v_i))) (IC 32)));
        SStore 32 (PAdd (PV v_dst (IC 0)) (IC 32)) (VV v_M);
        SPtr v_dst (IC 0) (PAdd (PV v_dst (IC 0)) (IV v_i_dst));
        SInt v_i (IAdd (IV v_i) (IC 1))]] [
      SIf (IEq (IV v_bsx) (IC 32)) [
        SInt v_i (IC 0);
        SLoop (ILt (IV v_i) (IV v_bsy)) [
          SVec v_M (VLoad 32 0 (PAdd (PV v_pfirst (IC 0)) (ISub (IC 0) (IV v_i))));
          SStore 32 (PV v_dst (IC 0)) (VV v_M);
          SPtr v_dst (IC 0) (PAdd (PV v_dst (IC 0)) (IV v_i_dst));
          SVec v_M (VLoad 32 0 (PAdd (PV v_pfirst (IC 1)) (ISub (IC 0) (IV v_i))));
          SStore 32 (PV v_dst (IC 0)) (VV v_M);
          SPtr v_dst (IC 0) (PAdd (PV v_dst (IC 0)) (IV v_i_dst));
          SVec v_M (VLoad 32 0 (PAdd (PV v_pfirst (IC 2)) (ISub (IC 0) (IV v_i))));
          SStore 32 (PV v_dst (IC 0)) (VV v_M);
          SPtr v_dst (IC 0) (PAdd (PV v_dst (IC 0)) (IV v_i_dst));
          SVec v_M (VLoad 32 0 (PAdd (PV v_pfirst (IC 3)) (ISub (IC 0) (IV v_i))));
          SStore 32 (PV v_dst (IC 0)) (VV v_M);
          SPtr v_dst (IC 0) (PAdd (PV v_dst (IC 0)) (IV v_i_dst));
          SInt v_i (IAdd (IV v_i) (IC 1))]] [
        SIf (IEq (IV v_bsx) (IC 16)) [
          SVec v_mask (VTab intrinsic_mask_256_8bit (IC 15));
          SInt v_i (IC 0);
          SLoop (ILt (IV v_i) (IV v_bsy)) [
            SVec v_M (VLoad 32 0 (PAdd (PV v_pfirst (IC 0)) (ISub (IC 0) (IV v_i))));
            SMask 8 (PV v_dst (IC 0)) (VV v_mask) (VV v_M);
            SPtr v_dst (IC 0) (PAdd (PV v_dst (IC 0)) (IV v_i_dst));
            SVec v_M (VLoad 32 0 (PAdd (PV v_pfirst (IC 1)) (ISub (IC 0) (IV v_i))));
            SMask 8 (PV v_dst (IC 0)) (VV v_mask) (VV v_M);
            SPtr v_dst (IC 0) (PAdd (PV v_dst (IC 0)) (IV v_i_dst));
            SVec v_M (VLoad 32 0 (PAdd (PV v_pfirst (IC 2)) (ISub (IC 0) (IV v_i))));
            SMask 8 (PV v_dst (IC 0)) (VV v_mask) (VV v_M);
            SPtr v_dst (IC 0) (PAdd (PV v_dst (IC 0)) (IV v_i_dst));
            SVec v_M (VLoad 32 0 (PAdd (PV v_pfirst (IC 3)) (ISub (IC 0) (IV v_i))));
            SMask 8 (PV v_dst (IC 0)) (VV v_mask) (VV v_M);
            SPtr v_dst (IC 0) (PAdd (PV v_dst (IC 0)) (IV v_i_dst));
            SInt v_i (IAdd (IV v_i) (IC 1))]] [
          SIf (IEq (IV v_bsx) (IC 8)) [
            SVec v_mask (VTab intrinsic_mask_256_8bit (IC 7));
            SInt v_i (IC 0);
            SLoop (ILt (IV v_i) (IV v_bsy)) [
              SVec v_M (VLoad 32 0 (PAdd (PV v_pfirst (IC 0)) (ISub (IC 0) (IV v_i))));
              SMask 8 (PV v_dst (IC 0)) (VV v_mask) (VV v_M);
              SPtr v_dst (IC 0) (PAdd (PV v_dst (IC 0)) (IV v_i_dst));
              SVec v_M (VLoad 32 0 (PAdd (PV v_pfirst (IC 1)) (ISub (IC 0) (IV v_i))));
              SMask 8 (PV v_dst (IC 0)) (VV v_mask) (VV v_M);
              SPtr v_dst (IC 0) (PAdd (PV v_dst (IC 0)) (IV v_i_dst));
              SVec v_M (VLoad 32 0 (PAdd (PV v_pfirst (IC 2)) (ISub (IC 0) (IV v_i))));
              SMask 8 (PV v_dst (IC 0)) (VV v_mask) (VV v_M);
              SPtr v_dst (IC 0) (PAdd (PV v_dst (IC 0)) (IV v_i_dst));
              SVec v_M (VLoad 32 0 (PAdd (PV v_pfirst (IC 3)) (ISub (IC 0) (IV v_i))));
              SMask 8 (PV v_dst (IC 0)) (VV v_mask) (VV v_M);
              SPtr v_dst (IC 0) (PAdd (PV v_dst (IC 0)) (IV v_i_dst));
              SInt v_i (IAdd (IV v_i) (IC 1))]] [
            SVec v_mask (VTab intrinsic_mask_256_8bit (IC 3));
            SInt v_i (IC 0);
            SLoop (ILt (IV v_i) (IV v_bsy)) [
              SVec v_M (VLoad 32 0 (PAdd (PV v_pfirst (IC 0)) (ISub (IC 0) (IV v_i))));
              SMask 4 (PV v_dst (IC 0)) (VV v_mask) (VV v_M);
              SPtr v_dst (IC 0) (PAdd (PV v_dst (IC 0)) (IV v_i_dst));
              SVec v_M (VLoad 32 0 (PAdd (PV v_pfirst (IC 1)) (ISub (IC 0) (IV v_i))));
              SMask 4 (PV v_dst (IC 0)) (VV v_mask) (VV v_M);
              SPtr v_dst (IC 0) (PAdd (PV v_dst (IC 0)) (IV v_i_dst));
              SVec v_M (VLoad 32 0 (PAdd (PV v_pfirst (IC 2)) (ISub (IC 0) (IV v_i))));
              SMask 4 (PV v_dst (IC 0)) (VV v_mask) (VV v_M);
              SPtr v_dst (IC 0) (PAdd (PV v_dst (IC 0)) (IV v_i_dst));
              SVec v_M (VLoad 32 0 (PAdd (PV v_pfirst (IC 3)) (ISub (IC 0) (IV v_i))));
              SMask 4 (PV v_dst (IC 0)) (VV v_mask) (VV v_M);
              SPtr v_dst (IC 0) (PAdd (PV v_dst (IC 0)) (IV v_i_dst));
              SInt v_i (IAdd (IV v_i) (IC 1))]]]]]] [
    SIf (IEq (IV v_bsx) (IC 16)) [
      SVec v_mask (VTab intrinsic_mask_256_8bit (IC 15));
      SPtr v_dst2 (IC 0) (PAdd (PV v_dst (IC 0)) (IV v_i_dst));
      SPtr v_dst3 (IC 0) (PAdd (PV v_dst2 (IC 0)) (IV v_i_dst));
      SPtr v_dst4 (IC 0) (PAdd (PV v_dst3 (IC 0)) (IV v_i_dst));
      SVec v_S0 (VLoad 32 0 (PAdd (PV v_src (IC 0)) (ISub (IC 0) (IC 1))));
      SVec v_S3 (VLoad 32 0 (PAdd (PV v_src (IC 0)) (IC 2)));
      SVec v_S1 (VLoad 32 0 (PV v_src (IC 0)));
      SVec v_S2 (VLoad 32 0 (PAdd (PV v_src (IC 0)) (IC 1)));
      SVec v_L0 (VOp1 Cvt8 (VOp1 (Ext 0) (VV v_S0)));
      SVec v_L1 (VOp1 Cvt8 (VOp1 (Ext 0) (VV v_S1)));
      SVec v_L2 (VOp1 Cvt8 (VOp1 (Ext 0) (VV v_S2)));
      SVec v_L3 (VOp1 Cvt8 (VOp1 (Ext 0) (VV v_S3)));
      SVec v_p00 (VOp2 (Mul16) (VV v_L0) (VV v_coeff3));
      SVec v_p10 (VOp2 (Mul16) (VV v_L1) (VV v_coeff7));
      SVec v_p20 (VOp2 (Mul16) (VV v_L2) (VV v_coeff5));
      SVec v_p30 (VOp2 (Add16) (VV v_L3) (VV v_coeff8));
      SVec v_p00 (VOp2 (Add16) (VV v_p00) (VV v_p30));
      SVec v_p00 (VOp2 (Add16) (VV v_p00) (VV v_p10));
      SVec v_p00 (VOp2 (Add16) (VV v_p00) (VV v_p20));
      SVec v_p00 (VOp1 (Srl16 4) (VV v_p00));
      SVec v_p00 (VOp2 (Pack16) (VV v_p00) (VV v_p00));
      SVec v_p00 (VOp1 (Perm64 8) (VV v_p00));
      SMask 8 (PV v_dst3 (IC 0)) (VV v_mask) (VV v_p00);
      SVec v_p00 (VOp2 (Add16) (VV v_L1) (VV v_L2));
      SVec v_p00 (VOp2 (Mul16) (VV v_p00) (VV v_coeff3));
      SVec v_p10 (VOp2 (Add16) (VV v_L0) (VV v_L3));
      SVec v_p10 (VOp2 (Add16) (VV v_p10) (VV v_coeff4));
      SVec v_p00 (VOp2 (Add16) (VV v_p10) (VV v_p00));
      SVec v_p00 (VOp1 (Srl16 3) (VV v_p00));
      SVec v_p00 (VOp2 (Pack16) (VV v_p00) (VV v_p00));
      SVec v_p00 (VOp1 (Perm64 8) (VV v_p00));
      SMask 8 (PV v_dst2 (IC 0)) (VV v_mask) (VV v_p00);
      SVec v_p10 (VOp2 (Mul16) (VV v_L1) (VV v_coeff5));
      SVec v_p20 (VOp2 (Mul16) (VV v_L2) (VV v_coeff7));
      SVec v_p30 (VOp2 (Mul16) (VV v_L3) (VV v_coeff3));
      SVec v_p00 (VOp2 (Add16) (VV v_L0) (VV v_coeff8));
      SVec v_p00 (VOp2 (Add16) (VV v_p00) (VV v_p10));
      SVec v_p00 (VOp2 (Add16) (VV v_p00) (VV v_p20));
      SVec v_p00 (VOp2 (Add16) (VV v_p00) (VV v_p30));
      SVec v_p00 (VOp1 (Srl16 4) (VV v_p00));
      SVec v_p00 (VOp2 (Pack16) (VV v_p00) (VV v_p00));
      SVec v_p00 (VOp1 (Perm64 8) (VV v_p00));
      SMask 8 (PV v_dst (IC 0)) (VV v_mask) (VV v_p00);
      SVec v_p00 (VOp2 (Add16) (VV v_L0) (VV v_L1));
      SVec v_p10 (VOp2 (Add16) (VV v_L1) (VV v_L2));
      SVec v_p00 (VOp2 (Add16) (VV v_p00) (VV v_p10));
      SVec v_p00 (VOp2 (Add16) (VV v_p00) (VV v_coeff2));
      SVec v_p00 (VOp1 (Srl16 2) (VV v_p00));
      SVec v_p00 (VOp2 (Pack16) (VV v_p00) (VV v_p00));
      SVec v_p00 (VOp1 (Perm64 8) (VV v_p00));
      SMask 8 (PV v_dst4 (IC 0)) (VV v_mask) (VV v_p00)] [
      SPtr v_dst2 (IC 0) (PAdd (PV v_dst (IC 0)) (IV v_i_dst));
      SPtr v_dst3 (IC 0) (PAdd (PV v_dst2 (IC 0)) (IV v_i_dst));
      SPtr v_dst4 (IC 0) (PAdd (PV v_dst3 (IC 0)) (IV v_i_dst));
      SVec v_coeff_2 (VSet1 2 8 (XC 2));
      SVec v_coeff_3 (VSet1 2 8 (XC 3));
      SVec v_coeff_4 (VSet1 2 8 (XC 4));
      SVec v_coeff_5 (VSet1 2 8 (XC 5));
      SVec v_coeff_7 (VSet1 2 8 (XC 7));
      SVec v_coeff_8 (VSet1 2 8 (XC 8));
      SVec v_zero (VConst [0;0;0;0;0;0;0;0;0;0;0;0;0;0;0;0]);
      SVec v_S0 (VLoad 16 0 (PAdd (PV v_src (IC 0)) (ISub (IC 0) (IC 1))));
      SVec v_S3 (VLoad 16 0 (PAdd (PV v_src (IC 0)) (IC 2)));
      SVec v_S1 (VLoad 16 0 (PV v_src (IC 0)));
      SVec v_S2 (VLoad 16 0 (PAdd (PV v_src (IC 0)) (IC 1)));
      SVec v_L0 (VOp2 (UnpL 1) (VV v_S0) (VV v_zero));
      SVec v_L1 (VOp2 (UnpL 1) (VV v_S1) (VV v_zero));
      SVec v_L2 (VOp2 (UnpL 1) (VV v_S2) (VV v_zero));
      SVec v_L3 (VOp2 (UnpL 1) (VV v_S3) (VV v_zero));
      SVec v_p00 (VOp2 (Mul16) (VV v_L0) (VV v_coeff_3));
      SVec v_p10 (VOp2 (Mul16) (VV v_L1) (VV v_coeff_7));
      SVec v_p20 (VOp2 (Mul16) (VV v_L2) (VV v_coeff_5));
      SVec v_p30 (VOp2 (Add16) (VV v_L3) (VV v_coeff_8));
      SVec v_p00 (VOp2 (Add16) (VV v_p00) (VV v_p30));
      SVec v_p00 (VOp2 (Add16) (VV v_p00) (VV v_p10));
      SVec v_p00 (VOp2 (Add16) (VV v_p00) (VV v_p20));
      SVec v_p00 (VOp1 (Srl16 4) (VV v_p00));
      SVec v_p00 (VOp2 (Pack16) (VV v_p00) (VV v_p00));
      SStore 4 (PV v_dst3 (IC 0)) (VV v_p00);
      SVec v_p00 (VOp2 (Add16) (VV v_L1) (VV v_L2));
      SVec v_p00 (VOp2 (Mul16) (VV v_p00) (VV v_coeff_3));
      SVec v_p10 (VOp2 (Add16) (VV v_L0) (VV v_L3));
      SVec v_p10 (VOp2 (Add16) (VV v_p10) (VV v_coeff_4));
      SVec v_p00 (VOp2 (Add16) (VV v_p10) (VV v_p00));
      SVec v_p00 (VOp1 (Srl16 3) (VV v_p00));
      SVec v_p00 (VOp2 (Pack16) (VV v_p00) (VV v_p00));
      SStore 4 (PV v_dst2 (IC 0)) (VV v_p00);
      SVec v_p10 (VOp2 (Mul16) (VV v_L1) (VV v_coeff_5));
      SVec v_p20 (VOp2 (Mul16) (VV v_L2) (VV v_coeff_7));
      SVec v_p30 (VOp2 (Mul16) (VV v_L3) (VV v_coeff_3));
      SVec v_p00 (VOp2 (Add16) (VV v_L0) (VV v_coeff_8));
      SVec v_p00 (VOp2 (Add16) (VV v_p00) (VV v_p10));
      SVec v_p00 (VOp2 (Add16) (VV v_p00) (VV v_p20));
      SVec v_p00 (VOp2 (Add16) (VV v_p00) (VV v_p30));
      SVec v_p00 (VOp1 (Srl16 4) (VV v_p00));
      SVec v_p00 (VOp2 (Pack16) (VV v_p00) (VV v_p00));
      SStore 4 (PV v_dst (IC 0)) (VV v_p00);
      SVec v_p00 (VOp2 (Add16) (VV v_L0) (VV v_L1));
      SVec v_p10 (VOp2 (Add16) (VV v_L1) (VV v_L2));
      SVec v_p00 (VOp2 (Add16) (VV v_p00) (VV v_p10));
      SVec v_p00 (VOp2 (Add16) (VV v_p00) (VV v_coeff_2));
      SVec v_p00 (VOp1 (Srl16 2) (VV v_p00));
      SVec v_p00 (VOp2 (Pack16) (VV v_p00) (VV v_p00));
      SStore 4 (PV v_dst4 (IC 0)) (VV v_p00)]]].

(** vec/intrinsic_intra-pred_avx2.cc:5954-6357 [intra_pred_ang_xy_16_avx] *)
Definition k_ang_xy_16_avx : list stm := [
  SArr v_first_line (IMul (IC 2) (IAdd (IC 64) (IC 48)));
  SInt v_line_size (ISub (IAdd (IV v_bsx) (IDiv (IV v_bsy) (IC 2))) (IC 1));
  SInt v_left_size (ISub (IV v_line_size) (IV v_bsx));
  SInt v_aligned_line_size (IShl (IShr (IAdd (IV v_line_size) (IC 31)) (IC 4)) (IC 4));
  SVec v_coeff2 (VSet1 2 16 (XC 2));
  SVec v_coeff3 (VSet1 2 16 (XC 3));
  SVec v_coeff4 (VSet1 2 16 (XC 4));
  SVec v_shuffle (VConst [0;2;4;6;8;10;12;14;1;3;5;7;9;11;13;15;0;2;4;6;8;10;12;14;1;3;5;7;9;11;13;15]);
  SPtr v_pfirst (IC 0) (PV v_first_line (IC 0));
  SPtr v_pfirst (IC 1) (PAdd (PV v_first_line (IC 0)) (IV v_aligned_line_size));
  SPtr v_src (IC 0) (PAdd (PV v_src (IC 0)) (ISub (IC 0) (ISub (IV v_bsy) (IC 2))));
  SPtr v_pSrc1 (IC 0) (PV v_src (IC 0));
  SVec v_mask1 (VTab intrinsic_mask_256_8bit (IC 15));
  SInt v_i (IC 0);
  SLoop (ILt (IV v_i) (ISub (IV v_left_size) (IC 8))) [
    SVec v_S0 (VLoad 32 0 (PAdd (PV v_src (IC 0)) (ISub (IC 0) (IC 1))));
    SVec v_S2 (VLoad 32 0 (PAdd (PV v_src (IC 0)) (IC 1)));
    SVec v_S1 (VLoad 32 0 (PV v_src (IC 0)));
    SVec v_L0 (VOp1 Cvt8 (VOp1 (Ext 0) (VV v_S0)));
    SVec v_L1 (VOp1 Cvt8 (VOp1 (Ext 0) (VV v_S1)));
    SVec v_L2 (VOp1 Cvt8 (VOp1 (Ext 0) (VV v_S2)));
    SVec v_H0 (VOp1 Cvt8 (VOp1 (Ext 1) (VV v_S0)));
    SVec v_H1 (VOp1 Cvt8 (VOp1 (Ext 1) (VV v_S1)));
    SVec v_H2 (VOp1 Cvt8 (VOp1 (Ext 1) (VV v_S2)));
    SVec v_p00 (VOp2 (Add16) (VV v_L0) (VV v_L1));
    SVec v_p01 (VOp2 (Add16) (VV v_L1) (VV v_L2));
    SVec v_p10 (VOp2 (Add16) (VV v_H0) (VV v_H1));
    SVec v_p11 (VOp2 (Add16) (VV v_H1) (VV v_H2));
    SVec v_p00 (VOp2 (Add16) (VV v_p00) (VV v_coeff2));
    SVec v_p10 (VOp2 (Add16) (VV v_p10) (VV v_coeff2));
    SVec v_p00 (VOp2 (Add16) (VV v_p00) (VV v_p01));
    SVec v_p10 (VOp2 (Add16) (VV v_p10) (VV v_p11));
    SVec v_p00 (VOp1 (Srl16 2) (VV v_p00));
    SVec v_p10 (VOp1 (Srl16 2) (VV v_p10));
    SVec v_p00 (VOp2 (Pack16) (VV v_p00) (VV v_p10));
    SVec v_p00 (VOp1 (Perm64 216) (VV v_p00));
    SVec v_p00 (VOp2 (Shuf8) (VV v_p00) (VV v_shuffle));
    SVec v_p10 (VOp1 (Perm64 8) (VV v_p00));
    SVec v_p00 (VOp1 (Perm64 13) (VV v_p00));
    SMask 8 (PAdd (PV v_pfirst (IC 0)) (IV v_i)) (VV v_mask1) (VV v_p00);
    SMask 8 (PAdd (PV v_pfirst (IC 1)) (IV v_i)) (VV v_mask1) (VV v_p10);
    SInt v_i (IAdd (IV v_i) (IC 16));
    SPtr v_src (IC 0) (PAdd (PV v_src (IC 0)) (IC 32))];
  SVec v_mask2 (VTab intrinsic_mask_256_8bit (IC 7));
  SIf (ILt (IV v_i) (IV v_left_size)) [
    SVec v_S0 (VLoad 32 0 (PAdd (PV v_src (IC 0)) (ISub (IC 0) (IC 1))));
    SVec v_S2 (VLoad 32 0 (PAdd (PV v_src (IC 0)) (IC 1)));
    SVec v_S1 (VLoad 32 0 (PV v_src (IC 0)));
    SVec v_L0 (VOp1 Cvt8 (VOp1 (Ext 0) (VV v_S0)));
    SVec v_L1 (VOp1 Cvt8 (VOp1 (Ext 0) (VV v_S1)));
    SVec v_L2 (VOp1 Cvt8 (VOp1 (Ext 0) (VV v_S2)));
    SVec v_p00 (VOp2 (Add16) (VV v_L0) (VV v_L1));
    SVec v_p01 (VOp2 (Add16) (VV v_L1) (VV v_L2));
    SVec v_p00 (VOp2 (Add16) (VV v_p00) (VV v_coeff2));
    SVec v_p00 (VOp2 (Add16) (VV v_p00) (VV v_p01));
    SVec v_p00 (VOp1 (Srl16 2) (VV v_p00));
    SVec v_p00 (VOp2 (Pack16) (VV v_p00) (VV v_p00));
    SVec v_p00 (VOp1 (Perm64 8) (VV v_p00));
    SVec v_p01 (VOp2 (Shuf8) (VV v_p00) (VV v_shuffle));
    SVec v_p10 (VOp1 (Perm64 1) (VV v_p01));
    SMask 8 (PAdd (PV v_pfirst (IC 0)) (IV v_i)) (VV v_mask2) (VV v_p10);
    SMask 8 (PAdd (PV v_pfirst (IC 1)) (IV v_i)) (VV v_mask2) (VV v_p01)] [];
  SPtr v_src (IC 0) (PAdd (PAdd (PV v_pSrc1 (IC 0)) (IV v_left_size)) (IV v_left_size));
  SInt v_i (IV v_left_size);
  SLoop (ILt (IV v_i) (ISub (IV v_line_size) (IC 16))) [
    SVec v_S0 (VLoad 32 0 (PAdd (PV v_src (IC 0)) (ISub (IC 0) (IC 1))));
    SVec v_S3 (VLoad 32 0 (PAdd (PV v_src (IC 0)) (IC 2)));
    SVec v_S1 (VLoad 32 0 (PV v_src (IC 0)));
    SVec v_S2 (VLoad 32 0 (PAdd (PV v_src (IC 0)) (IC 1)));
    SVec v_L0 (VOp1 Cvt8 (VOp1 (Ext 0) (VV v_S0)));
    SVec v_L1 (VOp1 Cvt8 (VOp1 (Ext 0) (VV v_S1)));
    SVec v_L2 (VOp1 Cvt8 (VOp1 (Ext 0) (VV v_S2)));
    SVec v_L3 (VOp1 Cvt8 (VOp1 (Ext 0) (VV v_S3)));
    SVec v_H0 (VOp1 Cvt8 (VOp1 (Ext 1) (VV v_S0)));
    SVec v_H1 (VOp1 Cvt8 (VOp1 (Ext 1) (VV v_S1)));
    SVec v_H2 (VOp1 Cvt8 (VOp1 (Ext 1) (VV v_S2)));
    SVec v_H3 (VOp1 Cvt8 (VOp1 (Ext 1) (VV v_S3)));
    SVec v_p00 (VOp2 (Add16) (VV v_L1) (VV v_L2));
    SVec v_p01 (VOp2 (Add16) (VV v_L0) (VV v_L3));
    SVec v_p00 (VOp2 (Mul16) (VV v_p00) (VV v_coeff3));
    SVec v_p00 (VOp2 (Add16) (VV v_p00) (VV v_coeff4));
    SVec v_p00 (VOp2 (Add16) (VV v_p00) (VV v_p01));
    SVec v_p00 (VOp1 (Srl16 3) (VV v_p00));
    SVec v_p10 (VOp2 (Add16) (VV v_H1) (VV v_H2));
    SVec v_p11 (VOp2 (Add16) (VV v_H0) (VV v_H3));
    SVec v_p10 (VOp2 (Mul16) (VV v_p10) (VV v_coeff3));
    SVec v_p10 (VOp2 (Add16) (VV v_p10) (VV v_coeff4));
    SVec v_p10 (VOp2 (Add16) (VV v_p10) (VV v_p11));
    SVec v_p10 (VOp1 (Srl16 3) (VV v_p10));
    SVec v_p00 (VOp2 (Pack16) (VV v_p00) (VV v_p10));
    SVec v_p00 (VOp1 (Perm64 216) (VV v_p00));
    SStore 32 (PAdd (PV v_pfirst (IC 0)) (IV v_i)) (VV v_p00);
    SVec v_p00 (VOp2 (Add16) (VV v_L0) (VV v_L1));
    SVec v_p01 (VOp2 (Add16) (VV v_L1) (VV v_L2));
    SVec v_p10 (VOp2 (Add16) (VV v_H0) (VV v_H1));
    SVec v_p11 (VOp2 (Add16) (VV v_H1) (VV v_H2));
    SVec v_p00 (VOp2 (Add16) (VV v_p00) (VV v_coeff2));
    SVec v_p10 (VOp2 (Add16) (VV v_p10) (VV v_coeff2));
    SVec v_p00 (VOp2 (Add16) (VV v_p00) (VV v_p01));
    SVec v_p10 (VOp2 (Add16) (VV v_p10) (VV v_p11));
    SVec v_p00 (VOp1 (Srl16 2) (VV v_p00));
    SVec v_p10 (VOp1 (Srl16 2) (VV v_p10));
    SVec v_p00 (VOp2 (Pack16) (VV v_p00) (VV v_p10));
    SVec v_p00 (VOp1 (Perm64 216) (VV v_p00));
    SStore 32 (PAdd (PV v_pfirst (IC 1)) (IV v_i)) (VV v_p00);
    SInt v_i (IAdd (IV v_i) (IC 32));
    SPtr v_src (IC 0) (PAdd (PV v_src (IC 0)) (IC 32))];
  SIf (ILt (IV v_i) (IV v_line_size)) [
    SVec v_S0 (VLoad 32 0 (PAdd (PV v_src (IC 0)) (ISub (IC 0) (IC 1))));
    SVec v_S3 (VLoad 32 0 (PAdd (PV v_src (IC 0)) (IC 2)));
    SVec v_S1 (VLoad 32 0 (PV v_src (IC 0)));
    SVec v_S2 (VLoad 32 0 (PAdd (PV v_src (IC 0)) (IC 1)));
    SVec v_L0 (VOp1 Cvt8 (VOp1 (Ext 0) (VV v_S0)));
    SVec v_L1 (VOp1 Cvt8 (VOp1 (Ext 0) (VV v_S1)));
    SVec v_L2 (VOp1 Cvt8 (VOp1 (Ext 0) (VV v_S2)));
    SVec v_L3 (VOp1 Cvt8 (VOp1 (Ext 0) (VV v_S3)));
    SVec v_p00 (VOp2 (Add16) (VV v_L1) (VV v_L2));
    SVec v_p01 (VOp2 (Add16) (VV v_L0) (VV v_L3));
    SVec v_p00 (VOp2 (Mul16) (VV v_p00) (VV v_coeff3));
    SVec v_p00 (VOp2 (Add16) (VV v_p00) (VV v_coeff4));
    SVec v_p00 (VOp2 (Add16) (VV v_p00) (VV v_p01));
    SVec v_p00 (VOp1 (Srl16 3) (VV v_p00));
    SVec v_p00 (VOp2 (Pack16) (VV v_p00) (VV v_p00));
    SVec v_p00 (VOp1 (Perm64 8) (VV v_p00));
    SMask 8 (PAdd (PV v_pfirst (IC 0)) (IV v_i)) (VV v_mask1) (VV v_p00);
    SVec v_p00 (VOp2 (Add16) (VV v_L0) (VV v_L1));
    SVec v_p01 (VOp2 (Add16) (VV v_L1) (VV v_L2));
    SVec v_p00 (VOp2 (Add16) (VV v_p00) (VV v_coeff2));
    SVec v_p00 (VOp2 (Add16) (VV v_p00) (VV v_p01));
    SVec v_p00 (VOp1 (Srl16 2) (VV v_p00));
    SVec v_p00 (VOp2 (Pack16) (VV v_p00) (VV v_p00));
    SVec v_p00 (VOp1 (Perm64 8) (VV v_p00));
    SMask 8 (PAdd (PV v_pfirst (IC 1)) (IV v_i)) (VV v_mask1) (VV v_p00)] [];
  SPtr v_pfirst (IC 0) (PAdd (PV v_pfirst (IC 0)) (IV v_left_size));
  SPtr v_pfirst (IC 1) (PAdd (PV v_pfirst (IC 1)) (IV v_left_size));
  SInt v_bsy (IShr (IV v_bsy) (IC 1));
  SIf (IEq (IV v_bsx) (IC 64)) [
    SInt v_i (IC 0);
    SLoop (ILt (IV v_i) (IV v_bsy)) [
      SVec v_M (VLoad 32 0 (PAdd (PV v_pfirst (IC 0)) (ISub (IC 0) (IV v_i))));
      SStore 32 (PV v_dst (IC 0)) (VV v_M);
      SVec v_M (VLoad 32 0 (PAdd (PAdd (PV v_pfirst (IC 0)) (ISub (IC 0) (IV v_i))) (IC 32)));
      SStore 32 (PAdd (PV v_dst (IC 0)) (IC 32)) (VV v_M);
      SPtr v_dst (IC 0) (PAdd (PV v_dst (IC 0)) (IV v_i_dst));
      SVec v_M (VLoad 32 0 (PAdd (PV v_pfirst (IC 1)) (ISub (IC 0) (IV v_i))));
      SStore 32 (PV v_dst (IC 0)) (VV v_M);
      SVec v_M (VLoad 32 0 (PAdd (PAdd (PV v_pfirst (IC 1)) (ISub (IC 0) (IV v_i))) (IC 32)));
      SStore 32 (PAdd (PV v_dst (IC 0)) (IC 32)) (VV v_M);
      SPtr v_dst (IC 0) (PAdd (PV v_dst (IC 0)) (IV v_i_dst));
      SVec v_M (VLoad 32 0 (PAdd (PAdd (PV v_pfirst (IC 0)) (ISub (IC 0) (IV v_i))) (ISub (IC 0) (IC 1))));
      SStore 32 (PV v_dst (IC 0)) (VV v_M);
      SVec v_M (VLoad 32 0 (PAdd (PAdd (PAdd (PV v_pfirst (IC 0)) (ISub (IC 0) (IV v_i))) (ISub (IC 0) (IC 1))) (IC 32)));
      SStore 32 (PAdd (PV v_dst (IC 0)) (IC 32)) (VV v_M);
      SPtr v_dst (IC 0) (PAdd (PV v_dst (IC 0)) (IV v_i_dst));
      SVec v_M (VLoad 32 0 (PAdd (PAdd (PV v_pfirst (IC 1)) (ISub (IC 0) (IV v_i))) (ISub (IC 0) (IC 1))));
      SStore 32 (PV v_dst (IC 0)) (VV v_M);
      SVec v_M (VLoad 32 0 (PAdd (PAdd (PAdd (PV v_pfirst (IC 1)) (ISub (IC 0) (IV v_i))) (ISub (IC 0) (IC 1))) (IC 32)));
      SStore 32 (PAdd (PV v_dst (IC 0)) (IC 32)) (VV v_M);
      SPtr v_dst (IC 0) (PAdd (PV v_dst (IC 0)) (IV v_i_dst));
      SVec v_M (VLoad 32 0 (PAdd (PAdd (PV v_pfirst (IC 0)) (ISub (IC 0) (IV v_i))) (ISub (IC 0) (IC 2))));
      SStore 32 (PV v_dst (IC 0)) (VV v_M);
      SVec v_M (VLoad 32 0 (PAdd (PAdd (PAdd (PV v_pfirst (IC 0)) (ISub (IC 0) (IV v_i))) (ISub (IC 0) (IC 2))) (IC 32)));
      SStore 32 (PAdd (PV v_dst (IC 0)) (IC 32)) (VV v_M);
      SPtr v_dst (IC 0) (PAdd (PV v_dst (IC 0)) (IV v_i_dst));
      SVec v_M (VLoad 32 0 (PAdd (PAdd (PV v_pfirst (IC 1)) (ISub (IC 0) (IV v_i))) (ISub (IC 0) (IC 2))));
      SStore 32 (PV v_dst (IC 0)) (VV v_M);
      SVec v_M (VLoad 32 0 (PAdd (PAdd (PAdd (PV v_pfirst (IC 1)) (ISub (IC 0) (IV v_i))) (ISub (IC 0) (IC 2))) (IC 32)));
      SStore 32 (PAdd (PV v_dst (IC 0)) (IC 32)) (VV v_M);
      SPtr v_dst (IC 0) (PAdd (PV v_dst (IC 0)) (IV v_i_dst));
      SVec v_M (VLoad 32 0 (PAdd (PAdd (PV v_pfirst (IC 0)) (ISub (IC 0) (IV v_i))) (ISub (IC 0) (IC 3))));
      SStore 32 (PV v_dst (IC 0)) (VV v_M);
      SVec v_M (VLoad 32 0 (PAdd (PAdd (PAdd (PV v_pfirst (IC 0)) (ISub (IC 0) (IV v_i))) (ISub (IC 0) (IC 3))) (IC 32)));
      SStore 32 (PAdd (PV v_dst (IC 0)) (IC 32)) (VV v_M);
      SPtr v_dst (IC 0) (PAdd (PV v_dst (IC 0)) (IV v_i_dst));
      SVec v_M (VLoad 32 0 (PAdd (PAdd (PV v_pfirst (IC 1)) (ISub (IC 0) (IV v_i))) (ISub (IC 0) (IC 3))));
      SStore 32 (PV v_dst (IC 0)) (VV v_M);
      SVec v_M (VLoad 32 0 (PAdd (PAdd (PAdd (PV v_pfirst (IC 1)) (ISub (IC 0) (IV v_i))) (ISub (IC 0) (IC 3))) (IC 32)));
      SStore 32 (PAdd (PV v_dst (IC 0)) (IC 32)) (VV v_M);
      SPtr v_dst (IC 0) (PAdd (PV v_dst (IC 0)) (IV v_i_dst));
      SInt v_i (IAdd (IV v_i) (IC 4))]] [
    SIf (IEq (IV v_bsx) (IC 32)) [
      SInt v_i (IC 0);
      SLoop (ILt (IV v_i) (IV v_bsy)) [
        SVec v_M (VLoad 32 0 (PAdd (PV v_pfirst (IC 0)) (ISub (IC 0) (IV v_i))));
        SStore 32 (PV v_dst (IC 0)) (VV v_M);
        SPtr v_dst (IC 0) (PAdd (PV v_dst (IC 0)) (IV v_i_dst));
        SVec v_M (VLoad 32 0 (PAdd (PV v_pfirst (IC 1)) (ISub (IC 0) (IV v_i))));
        SStore 32 (PV v_dst (IC 0)) (VV v_M);
        SPtr v_dst (IC 0) (PAdd (PV v_dst (IC 0)) (IV v_i_dst));
        SVec v_M (VLoad 32 0 (PAdd (PAdd (PV v_pfirst (IC 0)) (ISub (IC 0) (IV v_i))) (ISub (IC 0) (IC 1))));
        SStore 32 (PV v_dst (IC 0)) (VV v_M);
        SPtr v_dst (IC 0) (PAdd (PV v_dst (IC 0)) (IV v_i_dst));
        SVec v_M (VLoad 32 0 (PAdd (PAdd (PV v_pfirst (IC 1)) (ISub (IC 0) (IV v_i))) (ISub (IC 0) (IC 1))));
        SStore 32 (PV v_dst (IC 0)) (VV v_M);
        SPtr v_dst (IC 0) (PAdd (PV v_dst (IC 0)) (IV v_i_dst));
        SVec v_M (VLoad 32 0 (PAdd (PAdd (PV v_pfirst (IC 0)) (ISub (IC 0) (IV v_i))) (ISub (IC 0) (IC 2))));
        SStore 32 (PV v_dst (IC 0)) (VV v_M);
        SPtr v_dst (IC 0) (PAdd (PV v_dst (IC 0)) (IV v_i_dst));
        SVec v_M (VLoad 32 0 (PAdd (PAdd (PV v_pfirst (IC 1)) (ISub (IC 0) (IV v_i))) (ISub (IC 0) (IC 2))));
        SStore 32 (PV v_dst (IC 0)) (VV v_M);
        SPtr v_dst (IC 0) (PAdd (PV v_dst (IC 0)) (IV v_i_dst));
        SVec v_M (VLoad 32 0 (PAdd (PAdd (PV v_pfirst (IC 0)) (ISub (IC 0) (IV v_i))) (ISub (IC 0) (IC 3))));
        SStore 32 (PV v_dst (IC 0)) (VV v_M);
        SPtr v_dst (IC 0) (PAdd (PV v_dst (IC 0)) (IV v_i_dst));
        SVec v_M (VLoad 32 0 (PAdd (PAdd (PV v_pfirst (IC 1)) (ISub (IC 0) (IV v_i))) (ISub (IC 0) (IC 3))));
        SStore 32 (PV v_dst (IC 0)) (VV v_M);
        SPtr v_dst (IC 0) (PAdd (PV v_dst (IC 0)) (IV v_i_dst));
        SInt v_i (IAdd (IV v_i) (IC 4))]] [
      SIf (IEq (IV v_bsx) (IC 16)) [
        SVec v_mask (VTab intrinsic_mask_256_8bit (ISub (IV v_bsx) (IC 1)));
        SInt v_i (IC 0);
        SLoop (ILt (IV v_i) (IV v_bsy)) [
          SVec v_M (VLoad 32 0 (PAdd (PV v_pfirst (IC 0)) (ISub (IC 0) (IV v_i))));
          SMask 8 (PV v_dst (IC 0)) (VV v_mask) (VV v_M);
          SPtr v_dst (IC 0) (PAdd (PV v_dst (IC 0)) (IV v_i_dst));
          SVec v_M (VLoad 32 0 (PAdd (PV v_pfirst (IC 1)) (ISub (IC 0) (IV v_i))));
          SMask 8 (PV v_dst (IC 0)) (VV v_mask) (VV v_M);
          SPtr v_dst (IC 0) (PAdd (PV v_dst (IC 0)) (IV v_i_dst));
          SVec v_M (VLoad 32 0 (PAdd (PAdd (PV v_pfirst (IC 0)) (ISub (IC 0) (IV v_i))) (ISub (IC 0) (IC 1))));
          SMask 8 (PV v_dst (IC 0)) (VV v_mask) (VV v_M);
          SPtr v_dst (IC 0) (PAdd (PV v_dst (IC 0)) (IV v_i_dst));
          SVec v_M (VLoad 32 0 (PAdd (PAdd (PV v_pfirst (IC 1)) (ISub (IC 0) (IV v_i))) (ISub (IC 0) (IC 1))));
          SMask 8 (PV v_dst (IC 0)) (VV v_mask) (VV v_M);
          SPtr v_dst (IC 0) (PAdd (PV v_dst (IC 0)) (IV v_i_dst));
          SVec v_M (VLoad 32 0 (PAdd (PAdd (PV v_pfirst (IC 0)) (ISub (IC 0) (IV v_i))) (ISub (IC 0) (IC 2))));
          SMask 8 (PV v_dst (IC 0)) (VV v_mask) (VV v_M);
          SPtr v_dst (IC 0) (PAdd (PV v_dst (IC 0)) (IV v_i_dst));
          SVec v_M (VLoad 32 0 (PAdd (PAdd (PV v_pfirst (IC 1)) (ISub (IC 0) (IV v_i))) (ISub (IC 0) (IC 2))));
          SMask 8 (PV v_dst (IC 0)) (VV v_mask) (VV v_M);
          SPtr v_dst (IC 0) (PAdd (PV v_dst (IC 0)) (IV v_i_dst));
          SVec v_M (VLoad 32 0 (PAdd (PAdd (PV v_pfirst (IC 0)) (ISub (IC 0) (IV v_i))) (ISub (IC 0) (IC 3))));
          SMask 8 (PV v_dst (IC 0)) (VV v_mask) (VV v_M);
          SPtr v_dst (IC 0) (PAdd (PV v_dst (IC 0)) (IV v_i_dst));
          SVec v_M (VLoad 32 0 (PAdd (PAdd (PV v_pfirst (IC 1)) (ISub (IC 0) (IV v_i))) (ISub (IC 0) (IC 3))));
          SMask 8 (PV v_dst (IC 0)) (VV v_mask) (VV v_M);
          SPtr v_dst (IC 0) (PAdd (PV v_dst (IC 0)) (IV v_i_dst));
          SInt v_i (IAdd (IV v_i) (IC 4))]] [
        SIf (IEq (IV v_bsx) (IC 8)) [
          SVec v_mask (VTab intrinsic_mask_256_8bit (ISub (IV v_bsx) (IC 1)));
          SInt v_i (IC 0);
          SLoop (ILt (IV v_i) (IV v_bsy)) [
            SVec v_M (VLoad 32 0 (PAdd (PV v_pfirst (IC 0)) (ISub (IC 0) (IV v_i))));
            SMask 8 (PV v_dst (IC 0)) (VV v_mask) (VV v_M);
            SPtr v_dst (IC 0) (PAdd (PV v_dst (IC 0)) (IV v_i_dst));
            SVec v_M (VLoad 32 0 (PAdd (PV v_pfirst (IC 1)) (ISub (IC 0) (IV v_i))));
            SMask 8 (PV v_dst (IC 0)) (VV v_mask) (VV v_M);
            SPtr v_dst (IC 0) (PAdd (PV v_dst (IC 0)) (IV v_i_dst));
            SVec v_M (VLoad 32 0 (PAdd (PAdd (PV v_pfirst (IC 0)) (ISub (IC 0) (IV v_i))) (ISub (IC 0) (IC 1))));
            SMask 8 (PV v_dst (IC 0)) (VV v_mask) (VV v_M);
            SPtr v_dst (IC 0) (PAdd (PV v_dst (IC 0)) (IV v_i_dst));
            SVec v_M (VLoad 32 0 (PAdd (PAdd (PV v_pfirst (IC 1)) (ISub (IC 0) (IV v_i))) (ISub (IC 0) (IC 1))));
            SMask 8 (PV v_dst (IC 0)) (VV v_mask) (VV v_M);
            SPtr v_dst (IC 0) (PAdd (PV v_dst (IC 0)) (IV v_i_dst));
            SVec v_M (VLoad 32 0 (PAdd (PAdd (PV v_pfirst (IC 0)) (ISub (IC 0) (IV v_i))) (ISub (IC 0) (IC 2))));
            SMask 8 (PV v_dst (IC 0)) (VV v_mask) (VV v_M);
            SPtr v_dst (IC 0) (PAdd (PV v_dst (IC 0)) (IV v_i_dst));
            SVec v_M (VLoad 32 0 (PAdd (PAdd (PV v_pfirst (IC 1)) (ISub (IC 0) (IV v_i))) (ISub (IC 0) (IC 2))));
            SMask 8 (PV v_dst (IC 0)) (VV v_mask) (VV v_M);
            SPtr v_dst (IC 0) (PAdd (PV v_dst (IC 0)) (IV v_i_dst));
            SVec v_M (VLoad 32 0 (PAdd (PAdd (PV v_pfirst (IC 0)) (ISub (IC 0) (IV v_i))) (ISub (IC 0) (IC 3))));
            SMask 8 (PV v_dst (IC 0)) (VV v_mask) (VV v_M);
            SPtr v_dst (IC 0) (PAdd (PV v_dst (IC 0)) (IV v_i_dst));
            SVec v_M (VLoad 32 0 (PAdd (PAdd (PV v_pfirst (IC 1)) (ISub (IC 0) (IV v_i))) (ISub (IC 0) (IC 3))));
            SMask 8 (PV v_dst (IC 0)) (VV v_mask) (VV v_M);
            SPtr v_dst (IC 0) (PAdd (PV v_dst (IC 0)) (IV v_i_dst));
            SInt v_i (IAdd (IV v_i) (IC 4))]] [
          SVec v_mask (VTab intrinsic_mask_256_8bit (ISub (IV v_bsx) (IC 1)));
          SInt v_i (IC 0);
          SLoop (ILt (IV v_i) (IV v_bsy)) [
            SVec v_M (VLoad 32 0 (PAdd (PV v_pfirst (IC 0)) (ISub (IC 0) (IV v_i))));
            SMask 4 (PV v_dst (IC 0)) (VV v_mask) (VV v_M);
            SPtr v_dst (IC 0) (PAdd (PV v_dst (IC 0)) (IV v_i_dst));
            SVec v_M (VLoad 32 0 (PAdd (PV v_pfirst (IC 1)) (ISub (IC 0) (IV v_i))));
            SMask 4 (PV v_dst (IC 0)) (VV v_mask) (VV v_M);
            SPtr v_dst (IC 0) (PAdd (PV v_dst (IC 0)) (IV v_i_dst));
            SVec v_M (VLoad 32 0 (PAdd (PAdd (PV v_pfirst (IC 0)) (ISub (IC 0) (IV v_i))) (ISub (IC 0) (IC 1))));
            SMask 4 (PV v_dst (IC 0)) (VV v_mask) (VV v_M);
            SPtr v_dst (IC 0) (PAdd (PV v_dst (IC 0)) (IV v_i_dst));
            SVec v_M (VLoad 32 0 (PAdd (PAdd (PV v_pfirst (IC 1)) (ISub (IC 0) (IV v_i))) (ISub (IC 0) (IC 1))));
            SMask 4 (PV v_dst (IC 0)) (VV v_mask) (VV v_M);
            SPtr v_dst (IC 0) (PAdd (PV v_dst (IC 0)) (IV v_i_dst));
            SVec v_M (VLoad 32 0 (PAdd (PAdd (PV v_pfirst (IC 0)) (ISub (IC 0) (IV v_i))) (ISub (IC 0) (IC 2))));
            SMask 4 (PV v_dst (IC 0)) (VV v_mask) (VV v_M);
            SPtr v_dst (IC 0) (PAdd (PV v_dst (IC 0)) (IV v_i_dst));
            SVec v_M (VLoad 32 0 (PAdd (PAdd (PV v_pfirst (IC 1)) (ISub (IC 0) (IV v_i))) (ISub (IC 0) (IC 2))));
            SMask 4 (PV v_dst (IC 0)) (VV v_mask) (VV v_M);
            SPtr v_dst (IC 0) (PAdd (PV v_dst (IC 0)) (IV v_i_dst));
            SVec v_M (VLoad 32 0 (PAdd (PAdd (PV v_pfirst (IC 0)) (ISub (IC 0) (IV v_i))) (ISub (IC 0) (IC 3))));
            SMask 4 (PV v_dst (IC 0)) (VV v_mask) (VV v_M);
            SPtr v_dst (IC 0) (PAdd (PV v_dst (IC 0)) (IV v_i_dst));
            SVec v_M (VLoad 32 0 (PAdd (PAdd (PV v_pfirst (IC 1)) (ISub (IC 0) (IV v_i))) (ISub (IC 0) (IC 3))));
            SMask 4 (PV v_dst (IC 0)) (VV v_mask) (VV v_M);
            SPtr v_dst (IC 0) (PAdd (PV v_dst (IC 0)) (IV v_i_dst));
            SInt v_i (IAdd (IV v_i) (IC 4))]]]]]].

(** vec/intrinsic_intra-pred_avx2.cc:6359-6577 [intra_pred_ang_xy_18_avx] *)
Definition k_ang_xy_18_avx : list stm := [
  SArr v_first_line (IAdd (IC 64) (IC 64));
  SInt v_line_size (ISub (IAdd (IV v_bsx) (IV v_bsy)) (IC 1));
  SPtr v_pfirst (IC 0) (PAdd (PAdd (PV v_first_line (IC 0)) (IV v_bsy)) (ISub (IC 0) (IC 1)));
  SVec v_coeff2 (VSet1 2 16 (XC 2));
  SPtr v_src (IC 0) (PAdd (PV v_src (IC 0)) (ISub (IC 0) (ISub (IV v_bsy) (IC 1))));
  SInt v_i (IC 0);
  SLoop (ILt (IV v_i) (ISub (IV v_line_size) (IC 16))) [
    SVec v_S0 (VLoad 32 0 (PAdd (PV v_src (IC 0)) (ISub (IC 0) (IC 1))));
    SVec v_S2 (VLoad 32 0 (PAdd (PV v_src (IC 0)) (IC 1)));
    SVec v_S1 (VLoad 32 0 (PV v_src (IC 0)));
    SVec v_L0 (VOp1 Cvt8 (VOp1 (Ext 0) (VV v_S0)));
    SVec v_L1 (VOp1 Cvt8 (VOp1 (Ext 0) (VV v_S1)));
    SVec v_L2 (VOp1 Cvt8 (VOp1 (Ext 0) (VV v_S2)));
    SVec v_H0 (VOp1 Cvt8 (VOp1 (Ext 1) (VV v_S0)));
    SVec v_H1 (VOp1 Cvt8 (VOp1 (Ext 1) (VV v_S1)));
    SVec v_H2 (VOp1 Cvt8 (VOp1 (Ext 1) (VV v_S2)));
    SVec v_sum1 (VOp2 (Add16) (VV v_L0) (VV v_L1));
    SVec v_sum2 (VOp2 (Add16) (VV v_L1) (VV v_L2));
    SVec v_sum3 (VOp2 (Add16) (VV v_H0) (VV v_H1));
    SVec v_sum4 (VOp2 (Add16) (VV v_H1) (VV v_H2));
    SVec v_sum1 (VOp2 (Add16) (VV v_sum1) (VV v_sum2));
    SVec v_sum3 (VOp2 (Add16) (VV v_sum3) (VV v_sum4));
    SVec v_sum1 (VOp2 (Add16) (VV v_sum1) (VV v_coeff2));
    SVec v_sum3 (VOp2 (Add16) (VV v_sum3) (VV v_coeff2));
    SVec v_sum1 (VOp1 (Srl16 2) (VV v_sum1));
    SVec v_sum3 (VOp1 (Srl16 2) (VV v_sum3));
    SVec v_sum1 (VOp2 (Pack16) (VV v_sum1) (VV v_sum3));
    SVec v_sum1 (VOp1 (Perm64 216) (VV v_sum1));
    SStore 32 (PAdd (PV v_first_line (IC 0)) (IV v_i)) (VV v_sum1);
    SInt v_i (IAdd (IV v_i) (IC 32));
    SPtr v_src (IC 0) (PAdd (PV v_src (IC 0)) (IC 32))];
  SIf (ILt (IV v_i) (IV v_line_size)) [
    SVec v_mask (VTab intrinsic_mask_256_8bit (IC 15));
    SVec v_S0 (VLoad 32 0 (PAdd (PV v_src (IC 0)) (ISub (IC 0) (IC 1))));
    SVec v_S2 (VLoad 32 0 (PAdd (PV v_src (IC 0)) (IC 1)));
    SVec v_S1 (VLoad 32 0 (PV v_src (IC 0)));
    SVec v_L0 (VOp1 Cvt8 (VOp1 (Ext 0) (VV v_S0)));
    SVec v_L1 (VOp1 Cvt8 (VOp1 (Ext 0) (VV v_S1)));
    SVec v_L2 (VOp1 Cvt8 (VOp1 (Ext 0) (VV v_S2)));
    SVec v_sum1 (VOp2 (Add16) (VV v_L0) (VV v_L1));
    SVec v_sum2 (VOp2 (Add16) (VV v_L1) (VV v_L2));
    SVec v_sum1 (VOp2 (Add16) (VV v_sum1) (VV v_sum2));
    SVec v_sum1 (VOp2 (Add16) (VV v_sum1) (VV v_coeff2));
    SVec v_sum1 (VOp1 (Srl16 2) (VV v_sum1));
    SVec v_sum1 (VOp2 (Pack16) (VV v_sum1) (VV v_sum1));
    SVec v_sum1 (VOp1 (Perm64 216) (VV v_sum1));
    SMask 8 (PAdd (PV v_first_line (IC 0)) (IV v_i)) (VV v_mask) (VV v_sum1)] [];
  SIf (IEq (IV v_bsx) (IC 64)) [
    SInt v_i (IC 0);
    SLoop (ILt (IV v_i) (IV v_bsy)) [
      SVec v_M (VLoad 32 0 (PV v_pfirst (IC 0)));
      SStore 32 (PV v_dst (IC 0)) (VV v_M);
      SVec v_M (VLoad 32 0 (PAdd (PV v_pfirst (IC 0)) (IC 32)));
      SStore 32 (PAdd (PV v_dst (IC 0)) (IC 32)) (VV v_M);
      SPtr v_dst (IC 0) (PAdd (PV v_dst (IC 0)) (IV v_i_dst));
      SPtr v_pfirst (IC 0) (PAdd (PV v_pfirst (IC 0)) (ISub (IC 0) (IC 1)));
      SVec v_M (VLoad 32 0 (PV v_pfirst (IC 0)));
      SStore 32 (PV v_dst (IC 0)) (VV v_M);
      SVec v_M (VLoad 32 0 (PAdd (PV v_pfirst (IC 0)) (IC 32)));
      SStore 32 (PAdd (PV v_dst (IC 0)) (IC 32)) (VV v_M);
      SPtr v_dst (IC 0) (PAdd (PV v_dst (IC 0)) (IV v_i_dst));
      SPtr v_pfirst (IC 0) (PAdd (PV v_pfirst (IC 0)) (ISub (IC 0) (IC 1)));
      SVec v_M (VLoad 32 0 (PV v_pfirst (IC 0)));
      SStore 32 (PV v_dst (IC 0)) (VV v_M);
      SVec v_M (VLoad 32 0 (PAdd (PV v_pfirst (IC 0)) (IC 32)));
      SStore 32 (PAdd (PV v_dst (IC 0)) (IC 32)) (VV v_M);
      SPtr v_dst (IC 0) (PAdd (PV v_dst (IC 0)) (IV v_i_dst));
      SPtr v_pfirst (IC 0) (PAdd (PV v_pfirst (IC 0)) (ISub (IC 0) (IC 1)));
      SVec v_M (VLoad 32 0 (PV v_pfirst (IC 0)));
      SStore 32 (PV v_dst (IC 0)) (VV v_M);
      SVec v_M (VLoad 32 0 (PAdd (PV v_pfirst (IC 0)) (IC 32)));
      SStore 32 (PAdd (PV v_dst (IC 0)) (IC 32)) (VV v_M);
      SPtr v_dst (IC 0) (PAdd (PV v_dst (IC 0)) (IV v_i_dst));
      SPtr v_pfirst (IC 0) (PAdd (PV v_pfirst (IC 0)) (ISub (IC 0) (IC 1)));
      SInt v_i (IAdd (IV v_i) (IC 4))]] [
    SIf (IEq (IV v_bsx) (IC 32)) [
      SInt v_i (IC 0);
      SLoop (ILt (IV v_i) (IV v_bsy)) [
        SVec v_M (VLoad 32 0 (PV v_pfirst (IC 0)));
        SStore 32 (PV v_dst (IC 0)) (VV v_M);
        SPtr v_dst (IC 0) (PAdd (PV v_dst (IC 0)) (IV v_i_dst));
        SPtr v_pfirst (IC 0) (PAdd (PV v_pfirst (IC 0)) (ISub (IC 0) (IC 1)));
        SVec v_M (VLoad 32 0 (PV v_pfirst (IC 0)));
        SStore 32 (PV v_dst (IC 0)) (VV v_M);
        SPtr v_dst (IC 0) (PAdd (PV v_dst (IC 0)) (IV v_i_dst));
        SPtr v_pfirst (IC 0) (PAdd (PV v_pfirst (IC 0)) (ISub (IC 0) (IC 1)));
        SVec v_M (VLoad 32 0 (PV v_pfirst (IC 0)));
        SStore 32 (PV v_dst (IC 0)) (VV v_M);
        SPtr v_dst (IC 0) (PAdd (PV v_dst (IC 0)) (IV v_i_dst));
        SPtr v_pfirst (IC 0) (PAdd (PV v_pfirst (IC 0)) (ISub (IC 0) (IC 1)));
        SVec v_M (VLoad 32 0 (PV v_pfirst (IC 0)));
        SStore 32 (PV v_dst (IC 0)) (VV v_M);
        SPtr v_dst (IC 0) (PAdd (PV v_dst (IC 0)) (IV v_i_dst));
        SPtr v_pfirst (IC 0) (PAdd (PV v_pfirst (IC 0)) (ISub (IC 0) (IC 1)));
        SInt v_i (IAdd (IV v_i) (IC 4))]] [
      SIf (IEq (IV v_bsx) (IC 16)) [
        SVec v_mask (VTab intrinsic_mask_256_8bit (IC 15));
        SInt v_i (IC 0);
        SLoop (ILt (IV v_i) (IV v_bsy)) [
          SVec v_M (VLoad 32 0 (PV v_pfirst (IC 0)));
          SMask 8 (PV v_dst (IC 0)) (VV v_mask) (VV v_M);
          SPtr v_dst (IC 0) (PAdd (PV v_dst (IC 0)) (IV v_i_dst));
          SPtr v_pfirst (IC 0) (PAdd (PV v_pfirst (IC 0)) (ISub (IC 0) (IC 1)));
          SVec v_M (VLoad 32 0 (PV v_pfirst (IC 0)));
          SMask 8 (PV v_dst (IC 0)) (VV v_mask) (VV v_M);
          SPtr v_dst (IC 0) (PAdd (PV v_dst (IC 0)) (IV v_i_dst));
          SPtr v_pfirst (IC 0) (PAdd (PV v_pfirst (IC 0)) (ISub (IC 0) (IC 1)));
          SVec v_M (VLoad 32 0 (PV v_pfirst (IC 0)));
          SMask 8 (PV v_dst (IC 0)) (VV v_mask) (VV v_M);
          SPtr v_dst (IC 0) (PAdd (PV v_dst (IC 0)) (IV v_i_dst));
          SPtr v_pfirst (IC 0) (PAdd (PV v_pfirst (IC 0)) (ISub (IC 0) (IC 1)));
          SVec v_M (VLoad 32 0 (PV v_pfirst (IC 0)));
          SMask 8 (PV v_dst (IC 0)) (VV v_mask) (VV v_M);
          SPtr v_dst (IC 0) (PAdd (PV v_dst (IC 0)) (IV v_i_dst));
          SPtr v_pfirst (IC 0) (PAdd (PV v_pfirst (IC 0)) (ISub (IC 0) (IC 1)));
          SInt v_i (IAdd (IV v_i) (IC 4))]] [
        SIf (IEq (IV v_bsx) (IC 8)) [
          SVec v_mask (VTab intrinsic_mask_256_8bit (IC 7));
          SInt v_i (IC 0);
          SLoop (ILt (IV v_i) (IV v_bsy)) [
            SVec v_M (VLoad 32 0 (PV v_pfirst (IC 0)));
            SMask 8 (PV v_dst (IC 0)) (VV v_mask) (VV v_M);
            SPtr v_dst (IC 0) (PAdd (PV v_dst (IC 0)) (IV v_i_dst));
            SPtr v_pfirst (IC 0) (PAdd (PV v_pfirst (IC 0)) (ISub (IC 0) (IC 1)));
            SVec v_M (VLoad 32 0 (PV v_pfirst (IC 0)));
            SMask 8 (PV v_dst (IC 0)) (VV v_mask) (VV v_M);
            SPtr v_dst (IC 0) (PAdd (PV v_dst (IC 0)) (IV v_i_dst));
            SPtr v_pfirst (IC 0) (PAdd (PV v_pfirst (IC 0)) (ISub (IC 0) (IC 1)));
            SVec v_M (VLoad 32 0 (PV v_pfirst (IC 0)));
            SMask 8 (PV v_dst (IC 0)) (VV v_mask) (VV v_M);
            SPtr v_dst (IC 0) (PAdd (PV v_dst (IC 0)) (IV v_i_dst));
            SPtr v_pfirst (IC 0) (PAdd (PV v_pfirst (IC 0)) (ISub (IC 0) (IC 1)));
            SVec v_M (VLoad 32 0 (PV v_pfirst (IC 0)));
            SMask 8 (PV v_dst (IC 0)) (VV v_mask) (VV v_M);
            SPtr v_dst (IC 0) (PAdd (PV v_dst (IC 0)) (IV v_i_dst));
            SPtr v_pfirst (IC 0) (PAdd (PV v_pfirst (IC 0)) (ISub (IC 0) (IC 1)));
            SInt v_i (IAdd (IV v_i) (IC 4))]] [
          SVec v_mask (VTab intrinsic_mask_256_8bit (IC 3));
          SInt v_i (IC 0);
          SLoop (ILt (IV v_i) (IV v_bsy)) [
            SVec v_M (VLoad 32 0 (PV v_pfirst (IC 0)));
            SMask 4 (PV v_dst (IC 0)) (VV v_mask) (VV v_M);
            SPtr v_dst (IC 0) (PAdd (PV v_dst (IC 0)) (IV v_i_dst));
            SPtr v_pfirst (IC 0) (PAdd (PV v_pfirst (IC 0)) (ISub (IC 0) (IC 1)));
            SVec v_M (VLoad 32 0 (PV v_pfirst (IC 0)));
            SMask 4 (PV v_dst (IC 0)) (VV v_mask) (VV v_M);
            SPtr v_dst (IC 0) (PAdd (PV v_dst (IC 0)) (IV v_i_dst));
            SPtr v_pfirst (IC 0) (PAdd (PV v_pfirst (IC 0)) (ISub (IC 0) (IC 1)));
            SVec v_M (VLoad 32 0 (PV v_pfirst (IC 0)));
            SMask 4 (PV v_dst (IC 0)) (VV v_mask) (VV v_M);
            SPtr v_dst (IC 0) (PAdd (PV v_dst (IC 0)) (IV v_i_dst));
            SPtr v_pfirst (IC 0) (PAdd (PV v_pfirst (IC 0)) (ISub (IC 0) (IC 1)));
            SVec v_M (VLoad 32 0 (PV v_pfirst (IC 0)));
            SMask 4 (PV v_dst (IC 0)) (VV v_mask) (VV v_M);
            SPtr v_dst (IC 0) (PAdd (PV v_dst (IC 0)) (IV v_i_dst));
            SPtr v_pfirst (IC 0) (PAdd (PV v_pfirst (IC 0)) (ISub (IC 0) (IC 1)));
            SInt v_i (IAdd (IV v_i) (IC 4))]]]]]].

(** vec/intrinsic_intra-pred_avx2.cc:6579-6923 [intra_pred_ang_xy_20_avx] *)
Definition k_ang_xy_20_avx : list stm := [
  SArr v_first_line (IAdd (IC 64) (IC 128));
  SInt v_left_size (IAdd (IMul (ISub (IV v_bsy) (IC 1)) (IC 2)) (IC 1));
  SInt v_top_size (ISub (IV v_bsx) (IC 1));
  SInt v_line_size (IAdd (IV v_left_size) (IV v_top_size));
  SPtr v_pfirst (IC 0) (PAdd (PAdd (PV v_first_line (IC 0)) (IV v_left_size)) (ISub (IC 0) (IC 1)));
  SVec v_coeff2 (VSet1 2 16 (XC 2));
  SVec v_coeff3 (VSet1 2 16 (XC 3));
  SVec v_coeff4 (VSet1 2 16 (XC 4));
  SVec v_shuffle (VConst [0;8;1;9;2;10;3;11;4;12;5;13;6;14;7;15;0;8;1;9;2;10;3;11;4;12;5;13;6;14;7;15]);
  SPtr v_pSrc1 (IC 0) (PV v_src (IC 0));
  SPtr v_src (IC 0) (PAdd (PV v_src (IC 0)) (ISub (IC 0) (IV v_bsy)));
  SInt v_i (IC 0);
  SLoop (ILt (IV v_i) (ISub (IV v_left_size) (IC 32))) [
    SVec v_S0 (VLoad 32 0 (PAdd (PV v_src (IC 0)) (ISub (IC 0) (IC 1))));
    SVec v_S1 (VLoad 32 0 (PV v_src (IC 0)));
    SVec v_S2 (VLoad 32 0 (PAdd (PV v_src (IC 0)) (IC 1)));
    SVec v_S3 (VLoad 32 0 (PAdd (PV v_src (IC 0)) (IC 2)));
    SVec v_L0 (VOp1 Cvt8 (VOp1 (Ext 0) (VV v_S0)));
    SVec v_L1 (VOp1 Cvt8 (VOp1 (Ext 0) (VV v_S1)));
    SVec v_L2 (VOp1 Cvt8 (VOp1 (Ext 0) (VV v_S2)));
    SVec v_L3 (VOp1 Cvt8 (VOp1 (Ext 0) (VV v_S3)));
    SVec v_H0 (VOp1 Cvt8 (VOp1 (Ext 1) (VV v_S0)));
    SVec v_H1 (VOp1 Cvt8 (VOp1 (Ext 1) (VV v_S1)));
    SVec v_H2 (VOp1 Cvt8 (VOp1 (Ext 1) (VV v_S2)));
    SVec v_H3 (VOp1 Cvt8 (VOp1 (Ext 1) (VV v_S3)));
    SVec v_p00 (VOp2 (Add16) (VV v_L1) (VV v_L2));
    SVec v_p01 (VOp2 (Add16) (VV v_L0) (VV v_L3));
    SVec v_p00 (VOp2 (Mul16) (VV v_p00) (VV v_coeff3));
    SVec v_p00 (VOp2 (Add16) (VV v_p00) (VV v_coeff4));
    SVec v_p00 (VOp2 (Add16) (VV v_p00) (VV v_p01));
    SVec v_p00 (VOp1 (Srl16 3) (VV v_p00));
    SVec v_p10 (VOp2 (Add16) (VV v_H1) (VV v_H2));
    SVec v_p11 (VOp2 (Add16) (VV v_H0) (VV v_H3));
    SVec v_p10 (VOp2 (Mul16) (VV v_p10) (VV v_coeff3));
    SVec v_p10 (VOp2 (Add16) (VV v_p10) (VV v_coeff4));
    SVec v_p10 (VOp2 (Add16) (VV v_p10) (VV v_p11));
    SVec v_p10 (VOp1 (Srl16 3) (VV v_p10));
    SVec v_p20 (VOp2 (Add16) (VV v_L1) (VV v_L2));
    SVec v_p21 (VOp2 (Add16) (VV v_L2) (VV v_L3));
    SVec v_p20 (VOp2 (Add16) (VV v_p20) (VV v_coeff2));
    SVec v_p20 (VOp2 (Add16) (VV v_p20) (VV v_p21));
    SVec v_p20 (VOp1 (Srl16 2) (VV v_p20));
    SVec v_p30 (VOp2 (Add16) (VV v_H1) (VV v_H2));
    SVec v_p31 (VOp2 (Add16) (VV v_H2) (VV v_H3));
    SVec v_p30 (VOp2 (Add16) (VV v_p30) (VV v_coeff2));
    SVec v_p30 (VOp2 (Add16) (VV v_p30) (VV v_p31));
    SVec v_p30 (VOp1 (Srl16 2) (VV v_p30));
    SVec v_p00 (VOp2 (Pack16) (VV v_p00) (VV v_p20));
    SVec v_p10 (VOp2 (Pack16) (VV v_p10) (VV v_p30));
    SVec v_p00 (VOp2 (Shuf8) (VV v_p00) (VV v_shuffle));
    SVec v_p10 (VOp2 (Shuf8) (VV v_p10) (VV v_shuffle));
    SStore 32 (PAdd (PV v_first_line (IC 0)) (IV v_i)) (VV v_p00);
    SStore 32 (PAdd (PV v_first_line (IC 0)) (IAdd (IV v_i) (IC 32))) (VV v_p10);
    SInt v_i (IAdd (IV v_i) (IC 64));
    SPtr v_src (IC 0) (PAdd (PV v_src (IC 0)) (IC 32))];
  SIf (ILt (IV v_i) (IV v_left_size)) [
    SVec v_S0 (VLoad 32 0 (PAdd (PV v_src (IC 0)) (ISub (IC 0) (IC 1))));
    SVec v_S1 (VLoad 32 0 (PV v_src (IC 0)));
    SVec v_S2 (VLoad 32 0 (PAdd (PV v_src (IC 0)) (IC 1)));
    SVec v_S3 (VLoad 32 0 (PAdd (PV v_src (IC 0)) (IC 2)));
    SVec v_L0 (VOp1 Cvt8 (VOp1 (Ext 0) (VV v_S0)));
    SVec v_L1 (VOp1 Cvt8 (VOp1 (Ext 0) (VV v_S1)));
    SVec v_L2 (VOp1 Cvt8 (VOp1 (Ext 0) (VV v_S2)));
    SVec v_L3 (VOp1 Cvt8 (VOp1 (Ext 0) (VV v_S3)));
    SVec v_p00 (VOp2 (Add16) (VV v_L1) (VV v_L2));
    SVec v_p00 (VOp2 (Mul16) (VV v_p00) (VV v_coeff3));
    SVec v_p01 (VOp2 (Add16) (VV v_L0) (VV v_L3));
    SVec v_p00 (VOp2 (Add16) (VV v_p00) (VV v_coeff4));
    SVec v_p00 (VOp2 (Add16) (VV v_p00) (VV v_p01));
    SVec v_p00 (VOp1 (Srl16 3) (VV v_p00));
    SVec v_p20 (VOp2 (Add16) (VV v_L1) (VV v_L2));
    SVec v_p21 (VOp2 (Add16) (VV v_L2) (VV v_L3));
    SVec v_p20 (VOp2 (Add16) (VV v_p20) (VV v_coeff2));
    SVec v_p20 (VOp2 (Add16) (VV v_p20) (VV v_p21));
    SVec v_p20 (VOp1 (Srl16 2) (VV v_p20));
    SVec v_p00 (VOp2 (Pack16) (VV v_p00) (VV v_p20));
    SVec v_p00 (VOp2 (Shuf8) (VV v_p00) (VV v_shuffle));
    SStore 32 (PAdd (PV v_first_line (IC 0)) (IV v_i)) (VV v_p00)] [];
  SPtr v_src (IC 0) (PV v_pSrc1 (IC 0));
  SInt v_i (IV v_left_size);
  SLoop (ILt (IV v_i) (ISub (IV v_line_size) (IC 16))) [
    SVec v_S2 (VLoad 32 0 (PAdd (PV v_src (IC 0)) (IC 1)));
    SVec v_S0 (VLoad 32 0 (PAdd (PV v_src (IC 0)) (ISub (IC 0) (IC 1))));
    SVec v_S1 (VLoad 32 0 (PV v_src (IC 0)));
    SVec v_L0 (VOp1 Cvt8 (VOp1 (Ext 0) (VV v_S0)));
    SVec v_L1 (VOp1 Cvt8 (VOp1 (Ext 0) (VV v_S1)));
    SVec v_L2 (VOp1 Cvt8 (VOp1 (Ext 0) (VV v_S2)));
    SVec v_H0 (VOp1 Cvt8 (VOp1 (Ext 1) (VV v_S0)));
    SVec v_H1 (VOp1 Cvt8 (VOp1 (Ext 1) (VV v_S1)));
    SVec v_H2 (VOp1 Cvt8 (VOp1 (Ext 1) (VV v_S2)));
    SVec v_sum1 (VOp2 (Add16) (VV v_L0) (VV v_L1));
    SVec v_sum2 (VOp2 (Add16) (VV v_L1) (VV v_L2));
    SVec v_sum3 (VOp2 (Add16) (VV v_H0) (VV v_H1));
    SVec v_sum4 (VOp2 (Add16) (VV v_H1) (VV v_H2));
    SVec v_sum1 (VOp2 (Add16) (VV v_sum1) (VV v_sum2));
    SVec v_sum3 (VOp2 (Add16) (VV v_sum3) (VV v_sum4));
    SVec v_sum1 (VOp2 (Add16) (VV v_sum1) (VV v_coeff2));
    SVec v_sum3 (VOp2 (Add16) (VV v_sum3) (VV v_coeff2));
    SVec v_sum1 (VOp1 (Srl16 2) (VV v_sum1));
    SVec v_sum3 (VOp1 (Srl16 2) (VV v_sum3));
    SVec v_sum1 (VOp2 (Pack16) (VV v_sum1) (VV v_sum3));
    SVec v_sum1 (VOp1 (Perm64 216) (VV v_sum1));
    SStore 32 (PAdd (PV v_first_line (IC 0)) (IV v_i)) (VV v_sum1);
    SInt v_i (IAdd (IV v_i) (IC 32));
    SPtr v_src (IC 0) (PAdd (PV v_src (IC 0)) (IC 32))];
  SVec v_mask (VTab intrinsic_mask_256_8bit (IC 15));
  SIf (ILt (IV v_i) (IV v_line_size)) [
    SVec v_S0 (VLoad 32 0 (PAdd (PV v_src (IC 0)) (ISub (IC 0) (IC 1))));
    SVec v_S2 (VLoad 32 0 (PAdd (PV v_src (IC 0)) (IC 1)));
    SVec v_S1 (VLoad 32 0 (PV v_src (IC 0)));
    SVec v_L0 (VOp1 Cvt8 (VOp1 (Ext 0) (VV v_S0)));
    SVec v_L1 (VOp1 Cvt8 (VOp1 (Ext 0) (VV v_S1)));
    SVec v_L2 (VOp1 Cvt8 (VOp1 (Ext 0) (VV v_S2)));
    SVec v_sum1 (VOp2 (Add16) (VV v_L0) (VV v_L1));
    SVec v_sum2 (VOp2 (Add16) (VV v_L1) (VV v_L2));
    SVec v_sum1 (VOp2 (Add16) (VV v_sum1) (VV v_sum2));
    SVec v_sum1 (VOp2 (Add16) (VV v_sum1) (VV v_coeff2));
    SVec v_sum1 (VOp1 (Srl16 2) (VV v_sum1));
    SVec v_sum1 (VOp2 (Pack16) (VV v_sum1) (VV v_sum1));
    SVec v_sum1 (VOp1 (Perm64 216) (VV v_sum1));
    SMask 8 (PAdd (PV v_first_line (IC 0)) (IV v_i)) (VV v_mask) (VV v_sum1)] [];
  SIf (IEq (IV v_bsx) (IC 64)) [
    SInt v_i (IC 0);
    SLoop (ILt (IV v_i) (IV v_bsy)) [
      SVec v_M (VLoad 32 0 (PV v_pfirst (IC 0)));
      SStore 32 (PV v_dst (IC 0)) (VV v_M);
      SVec v_M (VLoad 32 0 (PAdd (PV v_pfirst (IC 0)) (IC 32)));
      SStore 32 (PAdd (PV v_dst (IC 0)) (IC 32)) (VV v_M);
      SPtr v_dst (IC 0) (PAdd (PV v_dst (IC 0)) (IV v_i_dst));
      SPtr v_pfirst (IC 0) (PAdd (PV v_pfirst (IC 0)) (ISub (IC 0) (IC 2)));
      SVec v_M (VLoad 32 0 (PV v_pfirst (IC 0)));
      SStore 32 (PV v_dst (IC 0)) (VV v_M);
      SVec v_M (VLoad 32 0 (PAdd (PV v_pfirst (IC 0)) (IC 32)));
      SStore 32 (PAdd (PV v_dst (IC 0)) (IC 32)) (VV v_M);
      SPtr v_dst (IC 0) (PAdd (PV v_dst (IC 0)) (IV v_i_dst));
      SPtr v_pfirst (IC 0) (PAdd (PV v_pfirst (IC 0)) (ISub (IC 0) (IC 2)));
      SVec v_M (VLoad 32 0 (PV v_pfirst (IC 0)));
      SStore 32 (PV v_dst (IC 0)) (VV v_M);
      SVec v_M (VLoad 32 0 (PAdd (PV v_pfirst (IC 0)) (IC 32)));
      SStore 32 (PAdd (PV v_dst (IC 0)) (IC 32)) (VV v_M);
      SPtr v_dst (IC 0) (PAdd (PV v_dst (IC 0)) (IV v_i_dst));
      SPtr v_pfirst (IC 0) (PAdd (PV v_pfirst (IC 0)) (ISub (IC 0) (IC 2)));
      SVec v_M (VLoad 32 0 (PV v_pfirst (IC 0)));
      SStore 32 (PV v_dst (IC 0)) (VV v_M);
      SVec v_M (VLoad 32 0 (PAdd (PV v_pfirst (IC 0)) (IC 32)));
      SStore 32 (PAdd (PV v_dst (IC 0)) (IC 32)) (VV v_M);
      SPtr v_dst (IC 0) (PAdd (PV v_dst (IC 0)) (IV v_i_dst));
      SPtr v_pfirst (IC 0) (PAdd (PV v_pfirst (IC 0)) (ISub (IC 0) (IC 2)));
      SVec v_M (VLoad 32 0 (PV v_pfirst (IC 0)));
      SStore 32 (PV v_dst (IC 0)) (VV v_M);
      SVec v_M (VLoad 32 0 (PAdd (PV v_pfirst (IC 0)) (IC 32)));
      SStore 32 (PAdd (PV v_dst (IC 0)) (IC 32)) (VV v_M);
      SPtr v_dst (IC 0) (PAdd (PV v_dst (IC 0)) (IV v_i_dst));
      SPtr v_pfirst (IC 0) (PAdd (PV v_pfirst (IC 0)) (ISub (IC 0) (IC 2)));
      SVec v_M (VLoad 32 0 (PV v_pfirst (IC 0)));
      SStore 32 (PV v_dst (IC 0)) (VV v_M);
      SVec v_M (VLoad 32 0 (PAdd (PV v_pfirst (IC 0)) (IC 32)));
      SStore 32 (PAdd (PV v_dst (IC 0)) (IC 32)) (VV v_M);
      SPtr v_dst (IC 0) (PAdd (PV v_dst (IC 0)) (IV v_i_dst));
      SPtr v_pfirst (IC 0) (PAdd (PV v_pfirst (IC 0)) (ISub (IC 0) (IC 2)));
      SVec v_M (VLoad 32 0 (PV v_pfirst (IC 0)));
      SStore 32 (PV v_dst (IC 0)) (VV v_M);
      SVec v_M (VLoad 32 0 (PAdd (PV v_pfirst (IC 0)) (IC 32)));
      SStore 32 (PAdd (PV v_dst (IC 0)) (IC 32)) (VV v_M);
      SPtr v_dst (IC 0) (PAdd (PV v_dst (IC 0)) (IV v_i_dst));
      SPtr v_pfirst (IC 0) (PAdd (PV v_pfirst (IC 0)) (ISub (IC 0) (IC 2)));
      SVec v_M (VLoad 32 0 (PV v_pfirst (IC 0)));
      SStore 32 (PV v_dst (IC 0)) (VV v_M);
      SVec v_M (VLoad 32 0 (PAdd (PV v_pfirst (IC 0)) (IC 32)));
      SStore 32 (PAdd (PV v_dst (IC 0)) (IC 32)) (VV v_M);
      SPtr v_dst (IC 0) (PAdd (PV v_dst (IC 0)) (IV v_i_dst));
      SPtr v_pfirst (IC 0) (PAdd (PV v_pfirst (IC 0)) (ISub (IC 0) (IC 2)));
      SInt v_i (IAdd (IV v_i) (IC 8))]] [
    SIf (IEq (IV v_bsx) (IC 32)) [
      SInt v_i (IC 0);
      SLoop (ILt (IV v_i) (IV v_bsy)) [
        SVec v_M (VLoad 32 0 (PV v_pfirst (IC 0)));
        SStore 32 (PV v_dst (IC 0)) (VV v_M);
        SPtr v_dst (IC 0) (PAdd (PV v_dst (IC 0)) (IV v_i_dst));
        SPtr v_pfirst (IC 0) (PAdd (PV v_pfirst (IC 0)) (ISub (IC 0) (IC 2)));
        SVec v_M (VLoad 32 0 (PV v_pfirst (IC 0)));
        SStore 32 (PV v_dst (IC 0)) (VV v_M);
        SPtr v_dst (IC 0) (PAdd (PV v_dst (IC 0)) (IV v_i_dst));
        SPtr v_pfirst (IC 0) (PAdd (PV v_pfirst (IC 0)) (ISub (IC 0) (IC 2)));
        SVec v_M (VLoad 32 0 (PV v_pfirst (IC 0)));
        SStore 32 (PV v_dst (IC 0)) (VV v_M);
        SPtr v_dst (IC 0) (PAdd (PV v_dst (IC 0)) (IV v_i_dst));
        SPtr v_pfirst (IC 0) (PAdd (PV v_pfirst (IC 0)) (ISub (IC 0) (IC 2)));
        SVec v_M (VLoad 32 0 (PV v_pfirst (IC 0)));
        SStore 32 (PV v_dst (IC 0)) (VV v_M);
        SPtr v_dst (IC 0) (PAdd (PV v_dst (IC 0)) (IV v_i_dst));
        SPtr v_pfirst (IC 0) (PAdd (PV v_pfirst (IC 0)) (ISub (IC 0) (IC 2)));
        SVec v_M (VLoad 32 0 (PV v_pfirst (IC 0)));
        SStore 32 (PV v_dst (IC 0)) (VV v_M);
        SPtr v_dst (IC 0) (PAdd (PV v_dst (IC 0)) (IV v_i_dst));
        SPtr v_pfirst (IC 0) (PAdd (PV v_pfirst (IC 0)) (ISub (IC 0) (IC 2)));
        SVec v_M (VLoad 32 0 (PV v_pfirst (IC 0)));
        SStore 32 (PV v_dst (IC 0)) (VV v_M);
        SPtr v_dst (IC 0) (PAdd (PV v_dst (IC 0)) (IV v_i_dst));
        SPtr v_pfirst (IC 0) (PAdd (PV v_pfirst (IC 0)) (ISub (IC 0) (IC 2)));
        SVec v_M (VLoad 32 0 (PV v_pfirst (IC 0)));
        SStore 32 (PV v_dst (IC 0)) (VV v_M);
        SPtr v_dst (IC 0) (PAdd (PV v_dst (IC 0)) (IV v_i_dst));
        SPtr v_pfirst (IC 0) (PAdd (PV v_pfirst (IC 0)) (ISub (IC 0) (IC 2)));
        SVec v_M (VLoad 32 0 (PV v_pfirst (IC 0)));
        SStore 32 (PV v_dst (IC 0)) (VV v_M);
        SPtr v_dst (IC 0) (PAdd (PV v_dst (IC 0)) (IV v_i_dst));
        SPtr v_pfirst (IC 0) (PAdd (PV v_pfirst (IC 0)) (ISub (IC 0) (IC 2)));
        SInt v_i (IAdd (IV v_i) (IC 8))]] [
      SIf (IEq (IV v_bsx) (IC 16)) [
        SVec v_mask (VTab intrinsic_mask_256_8bit (ISub (IV v_bsx) (IC 1)));
        SInt v_i (IC 0);
        SLoop (ILt (IV v_i) (IV v_bsy)) [
          SVec v_M (VLoad 32 0 (PV v_pfirst (IC 0)));
          SMask 8 (PV v_dst (IC 0)) (VV v_mask) (VV v_M);
          SPtr v_dst (IC 0) (PAdd (PV v_dst (IC 0)) (IV v_i_dst));
          SPtr v_pfirst (IC 0) (PAdd (PV v_pfirst (IC 0)) (ISub (IC 0) (IC 2)));
          SVec v_M (VLoad 32 0 (PV v_pfirst (IC 0)));
          SMask 8 (PV v_dst (IC 0)) (VV v_mask) (VV v_M);
          SPtr v_dst (IC 0) (PAdd (PV v_dst (IC 0)) (IV v_i_dst));
          SPtr v_pfirst (IC 0) (PAdd (PV v_pfirst (IC 0)) (ISub (IC 0) (IC 2)));
          SVec v_M (VLoad 32 0 (PV v_pfirst (IC 0)));
          SMask 8 (PV v_dst (IC 0)) (VV v_mask) (VV v_M);
          SPtr v_dst (IC 0) (PAdd (PV v_dst (IC 0)) (IV v_i_dst));
          SPtr v_pfirst (IC 0) (PAdd (PV v_pfirst (IC 0)) (ISub (IC 0) (IC 2)));
          SVec v_M (VLoad 32 0 (PV v_pfirst (IC 0)));
          SMask 8 (PV v_dst (IC 0)) (VV v_mask) (VV v_M);
          SPtr v_dst (IC 0) (PAdd (PV v_dst (IC 0)) (IV v_i_dst));
          SPtr v_pfirst (IC 0) (PAdd (PV v_pfirst (IC 0)) (ISub (IC 0) (IC 2)));
          SInt v_i (IAdd (IV v_i) (IC 4))]] [
        SIf (IEq (IV v_bsx) (IC 8)) [
          SVec v_mask (VTab intrinsic_mask_256_8bit (ISub (IV v_bsx) (IC 1)));
          SInt v_i (IC 0);
          SLoop (ILt (IV v_i) (IV v_bsy)) [
            SVec v_M (VLoad 32 0 (PV v_pfirst (IC 0)));
            SMask 8 (PV v_dst (IC 0)) (VV v_mask) (VV v_M);
            SPtr v_dst (IC 0) (PAdd (PV v_dst (IC 0)) (IV v_i_dst));
            SPtr v_pfirst (IC 0) (PAdd (PV v_pfirst (IC 0)) (ISub (IC 0) (IC 2)));
            SVec v_M (VLoad 32 0 (PV v_pfirst (IC 0)));
            SMask 8 (PV v_dst (IC 0)) (VV v_mask) (VV v_M);
            SPtr v_dst (IC 0) (PAdd (PV v_dst (IC 0)) (IV v_i_dst));
            SPtr v_pfirst (IC 0) (PAdd (PV v_pfirst (IC 0)) (ISub (IC 0) (IC 2)));
            SVec v_M (VLoad 32 0 (PV v_pfirst (IC 0)));
            SMask 8 (PV v_dst (IC 0)) (VV v_mask) (VV v_M);
            SPtr v_dst (IC 0) (PAdd (PV v_dst (IC 0)) (IV v_i_dst));
            SPtr v_pfirst (IC 0) (PAdd (PV v_pfirst (IC 0)) (ISub (IC 0) (IC 2)));
            SVec v_M (VLoad 32 0 (PV v_pfirst (IC 0)));
            SMask 8 (PV v_dst (IC 0)) (VV v_mask) (VV v_M);
            SPtr v_dst (IC 0) (PAdd (PV v_dst (IC 0)) (IV v_i_dst));
            SPtr v_pfirst (IC 0) (PAdd (PV v_pfirst (IC 0)) (ISub (IC 0) (IC 2)));
            SVec v_M (VLoad 32 0 (PV v_pfirst (IC 0)));
            SMask 8 (PV v_dst (IC 0)) (VV v_mask) (VV v_M);
            SPtr v_dst (IC 0) (PAdd (PV v_dst (IC 0)) (IV v_i_dst));
            SPtr v_pfirst (IC 0) (PAdd (PV v_pfirst (IC 0)) (ISub (IC 0) (IC 2)));
            SVec v_M (VLoad 32 0 (PV v_pfirst (IC 0)));
            SMask 8 (PV v_dst (IC 0)) (VV v_mask) (VV v_M);
            SPtr v_dst (IC 0) (PAdd (PV v_dst (IC 0)) (IV v_i_dst));
            SPtr v_pfirst (IC 0) (PAdd (PV v_pfirst (IC 0)) (ISub (IC 0) (IC 2)));
            SVec v_M (VLoad 32 0 (PV v_pfirst (IC 0)));
            SMask 8 (PV v_dst (IC 0)) (VV v_mask) (VV v_M);
            SPtr v_dst (IC 0) (PAdd (PV v_dst (IC 0)) (IV v_i_dst));
            SPtr v_pfirst (IC 0) (PAdd (PV v_pfirst (IC 0)) (ISub (IC 0) (IC 2)));
            SVec v_M (VLoad 32 0 (PV v_pfirst (IC 0)));
            SMask 8 (PV v_dst (IC 0)) (VV v_mask) (VV v_M);
            SPtr v_dst (IC 0) (PAdd (PV v_dst (IC 0)) (IV v_i_dst));
            SPtr v_pfirst (IC 0) (PAdd (PV v_pfirst (IC 0)) (ISub (IC 0) (IC 2)));
            SInt v_i (IAdd (IV v_i) (IC 8))]] [
          SVec v_mask (VTab intrinsic_mask_256_8bit (ISub (IV v_bsx) (IC 1)));
          SInt v_i (IC 0);
          SLoop (ILt (IV v_i) (IV v_bsy)) [
            SVec v_M (VLoad 32 0 (PV v_pfirst (IC 0)));
            SMask 4 (PV v_dst (IC 0)) (VV v_mask) (VV v_M);
            SPtr v_dst (IC 0) (PAdd (PV v_dst (IC 0)) (IV v_i_dst));
            SPtr v_pfirst (IC 0) (PAdd (PV v_pfirst (IC 0)) (ISub (IC 0) (IC 2)));
            SVec v_M (VLoad 32 0 (PV v_pfirst (IC 0)));
            SMask 4 (PV v_dst (IC 0)) (VV v_mask) (VV v_M);
            SPtr v_dst (IC 0) (PAdd (PV v_dst (IC 0)) (IV v_i_dst));
            SPtr v_pfirst (IC 0) (PAdd (PV v_pfirst (IC 0)) (ISub (IC 0) (IC 2)));
            SVec v_M (VLoad 32 0 (PV v_pfirst (IC 0)));
            SMask 4 (PV v_dst (IC 0)) (VV v_mask) (VV v_M);
            SPtr v_dst (IC 0) (PAdd (PV v_dst (IC 0)) (IV v_i_dst));
            SPtr v_pfirst (IC 0) (PAdd (PV v_pfirst (IC 0)) (ISub (IC 0) (IC 2)));
            SVec v_M (VLoad 32 0 (PV v_pfirst (IC 0)));
            SMask 4 (PV v_dst (IC 0)) (VV v_mask) (VV v_M);
            SPtr v_dst (IC 0) (PAdd (PV v_dst (IC 0)) (IV v_i_dst));
            SPtr v_pfirst (IC 0) (PAdd (PV v_pfirst (IC 0)) (ISub (IC 0) (IC 2)));
            SInt v_i (IAdd (IV v_i) (IC 4))]]]]]].

(** vec/intrinsic_intra-pred_avx2.cc:6925-7318 [intra_pred_ang_xy_22_avx] *)
Definition k_ang_xy_22_avx : list stm := [
  SIf (INot (IEq (IV v_bsx) (IC 4))) [
    SPtr v_src (IC 0) (PAdd (PV v_src (IC 0)) (ISub (IC 0) (IV v_bsy)));
    SArr v_first_line (IAdd (IC 64) (IC 256));
    SInt v_left_size (IAdd (IMul (ISub (IV v_bsy) (IC 1)) (IC 4)) (IC 3));
    SInt v_top_size (ISub (IV v_bsx) (IC 3));
    SInt v_line_size (IAdd (IV v_left_size) (IV v_top_size));
    SPtr v_pfirst (IC 0) (PAdd (PAdd (PV v_first_line (IC 0)) (IV v_left_size)) (ISub (IC 0) (IC 3)));
    SPtr v_pSrc1 (IC 0) (PV v_src (IC 0));
    SVec v_coeff2 (VSet1 2 16 (XC 2));
    SVec v_coeff3 (VSet1 2 16 (XC 3));
    SVec v_coeff4 (VSet1 2 16 (XC 4));
    SVec v_coeff5 (VSet1 2 16 (XC 5));
    SVec v_coeff7 (VSet1 2 16 (XC 7));
    SVec v_coeff8 (VSet1 2 16 (XC 8));
    SVec v_shuffle (VConst [0;8;1;9;2;10;3;11;4;12;5;13;6;14;7;15;0;8;1;9;2;10;3;11;4;12;5;13;6;14;7;15]);
    SInt v_i (IC 0);
    SLoop (ILt (IV v_i) (ISub (IV v_line_size) (IC 64))) [
      SVec v_S0 (VLoad 32 0 (PAdd (PV v_src (IC 0)) (ISub (IC 0) (IC 1))));
      SVec v_S3 (VLoad 32 0 (PAdd (PV v_src (IC 0)) (IC 2)));
      SVec v_S1 (VLoad 32 0 (PV v_src (IC 0)));
      SVec v_S2 (VLoad 32 0 (PAdd (PV v_src (IC 0)) (IC 1)));
      SVec v_L0 (VOp1 Cvt8 (VOp1 (Ext 0) (VV v_S0)));
      SVec v_L1 (VOp1 Cvt8 (VOp1 (Ext 0) (VV v_S1)));
      SVec v_L2 (VOp1 Cvt8 (VOp1 (Ext 0) (VV v_S2)));
      SVec v_L3 (VOp1 Cvt8 (VOp1 (Ext 0) (VV v_S3)));
      SVec v_H0 (VOp1 Cvt8 (VOp1 (Ext 1) (VV v_S0)));
      SVec v_H1 (VOp1 Cvt8 (VOp1 (Ext 1) (VV v_S1)));
      SVec v_H2 (VOp1 Cvt8 (VOp1 (Ext 1) (VV v_S2)));
      SVec v_H3 (VOp1 Cvt8 (VOp1 (Ext 1) (VV v_S3)));
      SVec v_p00 (VOp2 (Mul16) (VV v_L0) (VV v_coeff3));
      SVec v_p10 (VOp2 (Mul16) (VV v_L1) (VV v_coeff7));
      SVec v_p20 (VOp2 (Mul16) (VV v_L2) (VV v_coeff5));
      SVec v_p30 (VOp2 (Add16) (VV v_L3) (VV v_coeff8));
      SVec v_p00 (VOp2 (Add16) (VV v_p00) (VV v_p30));
      SVec v_p00 (VOp2 (Add16) (VV v_p00) (VV v_p10));
      SVec v_p00 (VOp2 (Add16) (VV v_p00) (VV v_p20));
      SVec v_M1 (VOp1 (Srl16 4) (VV v_p00));
      SVec v_p01 (VOp2 (Mul16) (VV v_H0) (VV v_coeff3));
      SVec v_p11 (VOp2 (Mul16) (VV v_H1) (VV v_coeff7));
      SVec v_p21 (VOp2 (Mul16) (VV v_H2) (VV v_coeff5));
      SVec v_p31 (VOp2 (Add16) (VV v_H3) (VV v_coeff8));
      SVec v_p01 (VOp2 (Add16) (VV v_p01) (VV v_p31));
      SVec v_p01 (VOp2 (Add16) (VV v_p01) (VV v_p11));
      SVec v_p01 (VOp2 (Add16) (VV v_p01) (VV v_p21));
      SVec v_M2 (VOp1 (Srl16 4) (VV v_p01));
      SVec v_p00 (VOp2 (Add16) (VV v_L1) (VV v_L2));
      SVec v_p00 (VOp2 (Mul16) (VV v_p00) (VV v_coeff3));
      SVec v_p10 (VOp2 (Add16) (VV v_L0) (VV v_L3));
      SVec v_p10 (VOp2 (Add16) (VV v_p10) (VV v_coeff4));
      SVec v_p00 (VOp2 (Add16) (VV v_p10) (VV v_p00));
      SVec v_M3 (VOp1 (Srl16 3) (VV v_p00));
      SVec v_p01 (VOp2 (Add16) (VV v_H1) (VV v_H2));
      SVec v_p01 (VOp2 (Mul16) (VV v_p01) (VV v_coeff3));
      SVec v_p11 (VOp2 (Add16) (VV v_H0) (VV v_H3));
      SVec v_p11 (VOp2 (Add16) (VV v_p11) (VV v_coeff4));
      SVec v_p01 (VOp2 (Add16) (VV v_p11) (VV v_p01));
      SVec v_M4 (VOp1 (Srl16 3) (VV v_p01));
      SVec v_p10 (VOp2 (Mul16) (VV v_L1) (VV v_coeff5));
      SVec v_p20 (VOp2 (Mul16) (VV v_L2) (VV v_coeff7));
      SVec v_p30 (VOp2 (Mul16) (VV v_L3) (VV v_coeff3));
      SVec v_p00 (VOp2 (Add16) (VV v_L0) (VV v_coeff8));
      SVec v_p00 (VOp2 (Add16) (VV v_p00) (VV v_p10));
      SVec v_p00 (VOp2 (Add16) (VV v_p00) (VV v_p20));
      SVec v_p00 (VOp2 (Add16) (VV v_p00) (VV v_p30));
      SVec v_M5 (VOp1 (Srl16 4) (VV v_p00));
      SVec v_p11 (VOp2 (Mul16) (VV v_H1) (VV v_coeff5));
      SVec v_p21 (VOp2 (Mul16) (VV v_H2) (VV v_coeff7));
      SVec v_p31 (VOp2 (Mul16) (VV v_H3) (VV v_coeff3));
      SVec v_p01 (VOp2 (Add16) (VV v_H0) (VV v_coeff8));
      SVec v_p01 (VOp2 (Add16) (VV v_p01) (VV v_p11));
      SVec v_p01 (VOp2 (Add16) (VV v_p01) (VV v_p21));
      SVec v_p01 (VOp2 (Add16) (VV v_p01) (VV v_p31));
      SVec v_M6 (VOp1 (Srl16 4) (VV v_p01));
      SVec v_p00 (VOp2 (Add16) (VV v_L1) (VV v_L2));
      SVec v_p10 (VOp2 (Add16) (VV v_L2) (VV v_L3));
      SVec v_p00 (VOp2 (Add16) (VV v_p00) (VV v_p10));
      SVec v_p00 (VOp2 (Add16) (VV v_p00) (VV v_coeff2));
      SVec v_M7 (VOp1 (Srl16 2) (VV v_p00));
      SVec v_p01 (VOp2 (Add16) (VV v_H1) (VV v_H2));
      SVec v_p11 (VOp2 (Add16) (VV v_H2) (VV v_H3));
      SVec v_p01 (VOp2 (Add16) (VV v_p01) (VV v_p11));
      SVec v_p01 (VOp2 (Add16) (VV v_p01) (VV v_coeff2));
      SVec v_M8 (VOp1 (Srl16 2) (VV v_p01));
      SVec v_M1 (VOp2 (Pack16) (VV v_M1) (VV v_M3));
      SVec v_M5 (VOp2 (Pack16) (VV v_M5) (VV v_M7));
      SVec v_M1 (VOp2 (Shuf8) (VV v_M1) (VV v_shuffle));
      SVec v_M5 (VOp2 (Shuf8) (VV v_M5) (VV v_shuffle));
      SVec v_M2 (VOp2 (Pack16) (VV v_M2) (VV v_M4));
      SVec v_M6 (VOp2 (Pack16) (VV v_M6) (VV v_M8));
      SVec v_M2 (VOp2 (Shuf8) (VV v_M2) (VV v_shuffle));
      SVec v_M6 (VOp2 (Shuf8) (VV v_M6) (VV v_shuffle));
      SVec v_M1 (VOp1 (Perm64 216) (VV v_M1));
      SVec v_M5 (VOp1 (Perm64 216) (VV v_M5));
      SVec v_M2 (VOp1 (Perm64 216) (VV v_M2));
      SVec v_M6 (VOp1 (Perm64 216) (VV v_M6));
      SVec v_M3 (VOp2 (UnpL 2) (VV v_M1) (VV v_M5));
      SVec v_M7 (VOp2 (UnpH 2) (VV v_M1) (VV v_M5));
      SVec v_M4 (VOp2 (UnpL 2) (VV v_M2) (VV v_M6));
      SVec v_M8 (VOp2 (UnpH 2) (VV v_M2) (VV v_M6));
      SStore 32 (PAdd (PV v_first_line (IC 0)) (IV v_i)) (VV v_M3);
      SStore 32 (PAdd (PV v_first_line (IC 0)) (IAdd (IC 32) (IV v_i))) (VV v_M7);
      SStore 32 (PAdd (PV v_first_line (IC 0)) (IAdd (IC 64) (IV v_i))) (VV v_M4);
      SStore 32 (PAdd (PV v_first_line (IC 0)) (IAdd (IC 96) (IV v_i))) (VV v_M8);
      SInt v_i (IAdd (IV v_i) (IC 128));
      SPtr v_src (IC 0) (PAdd (PV v_src (IC 0)) (IC 32))];
    SIf (ILt (IV v_i) (IV v_left_size)) [
      SVec v_S0 (VLoad 32 0 (PAdd (PV v_src (IC 0)) (ISub (IC 0) (IC 1))));
      SVec v_S3 (VLoad 32 0 (PAdd (PV v_src (IC 0)) (IC 2)));
      SVec v_S1 (VLoad 32 0 (PV v_src (IC 0)));
      SVec v_S2 (VLoad 32 0 (PAdd (PV v_src (IC 0)) (IC 1)));
      SVec v_L0 (VOp1 Cvt8 (VOp1 (Ext 0) (VV v_S0)));
      SVec v_L1 (VOp1 Cvt8 (VOp1 (Ext 0) (VV v_S1)));
      SVec v_L2 (VOp1 Cvt8 (VOp1 (Ext 0) (VV v_S2)));
      SVec v_L3 (VOp1 Cvt8 (VOp1 (Ext 0) (VV v_S3)));
      SVec v_p00 (VOp2 (Mul16) (VV v_L0) (VV v_coeff3));
      SVec v_p10 (VOp2 (Mul16) (VV v_L1) (VV v_coeff7));
      SVec v_p20 (VOp2 (Mul16) (VV v_L2) (VV v_coeff5));
      SVec v_p30 (VOp2 (Add16) (VV v_L3) (VV v_coeff8));
      SVec v_p00 (VOp2 (Add16) (VV v_p00) (VV v_p30));
      SVec v_p00 (VOp2 (Add16) (VV v_p00) (VV v_p10));
      SVec v_p00 (VOp2 (Add16) (VV v_p00) (VV v_p20));
      SVec v_M1 (VOp1 (Srl16 4) (VV v_p00));
      SVec v_p00 (VOp2 (Add16) (VV v_L1) (VV v_L2));
      SVec v_p00 (VOp2 (Mul16) (VV v_p00) (VV v_coeff3));
      SVec v_p10 (VOp2 (Add16) (VV v_L0) (VV v_L3));
      SVec v_p10 (VOp2 (Add16) (VV v_p10) (VV v_coeff4));
      SVec v_p00 (VOp2 (Add16) (VV v_p10) (VV v_p00));
      SVec v_M3 (VOp1 (Srl16 3) (VV v_p00));
      SVec v_p10 (VOp2 (Mul16) (VV v_L1) (VV v_coeff5));
      SVec v_p20 (VOp2 (Mul16) (VV v_L2) (VV v_coeff7));
      SVec v_p30 (VOp2 (Mul16) (VV v_L3) (VV v_coeff3));
      SVec v_p00 (VOp2 (Add16) (VV v_L0) (VV v_coeff8));
      SVec v_p00 (VOp2 (Add16) (VV v_p00) (VV v_p10));
      SVec v_p00 (VOp2 (Add16) (VV v_p00) (VV v_p20));
      SVec v_p00 (VOp2 (Add16) (VV v_p00) (VV v_p30));
      SVec v_M5 (VOp1 (Srl16 4) (VV v_p00));
      SVec v_p10 (VOp2 (Add16) (VV v_L2) (VV v_L3));
      SVec v_p00 (VOp2 (Add16) (VV v_L1) (VV v_L2));
      SVec v_p00 (VOp2 (Add16) (VV v_p00) (VV v_p10));
      SVec v_p00 (VOp2 (Add16) (VV v_p00) (VV v_coeff2));
      SVec v_M7 (VOp1 (Srl16 2) (VV v_p00));
      SVec v_M1 (VOp2 (Pack16) (VV v_M1) (VV v_M3));
      SVec v_M5 (VOp2 (Pack16) (VV v_M5) (VV v_M7));
      SVec v_M1 (VOp2 (Shuf8) (VV v_M1) (VV v_shuffle));
      SVec v_M5 (VOp2 (Shuf8) (VV v_M5) (VV v_shuffle));
      SVec v_M1 (VOp1 (Perm64 216) (VV v_M1));
      SVec v_M5 (VOp1 (Perm64 216) (VV v_M5));
      SVec v_M3 (VOp2 (UnpL 2) (VV v_M1) (VV v_M5));
      SVec v_M7 (VOp2 (UnpH 2) (VV v_M1) (VV v_M5));
      SStore 32 (PAdd (PV v_first_line (IC 0)) (IV v_i)) (VV v_M3);
      SStore 32 (PAdd (PV v_first_line (IC 0)) (IAdd (IC 32) (IV v_i))) (VV v_M7)] [];
    SPtr v_src (IC 0) (PAdd (PV v_pSrc1 (IC 0)) (IV v_bsy));
    SInt v_i (IV v_left_size);
    SLoop (ILt (IV v_i) (ISub (IV v_line_size) (IC 16))) [
      SVec v_S0 (VLoad 32 0 (PAdd (PV v_src (IC 0)) (ISub (IC 0) (IC 1))));
      SVec v_S2 (VLoad 32 0 (PAdd (PV v_src (IC 0)) (IC 1)));
      SVec v_S1 (VLoad 32 0 (PV v_src (IC 0)));
      SVec v_L0 (VOp1 Cvt8 (VOp1 (Ext 0) (VV v_S0)));
      SVec v_L1 (VOp1 Cvt8 (VOp1 (Ext 0) (VV v_S1)));
      SVec v_L2 (VOp1 Cvt8 (VOp1 (Ext 0) (VV v_S2)));
      SVec v_H0 (VOp1 Cvt8 (VOp1 (Ext 1) (VV v_S0)));
      SVec v_H1 (VOp1 Cvt8 (VOp1 (Ext 1) (VV v_S1)));
      SVec v_H2 (VOp1 Cvt8 (VOp1 (Ext 1) (VV v_S2)));
      SVec v_sum1 (VOp2 (Add16) (VV v_L0) (VV v_L1));
      SVec v_sum2 (VOp2 (Add16) (VV v_L1) (VV v_L2));
      SVec v_sum3 (VOp2 (Add16) (VV v_H0) (VV v_H1));
      SVec v_sum4 (VOp2 (Add16) (VV v_H1) (VV v_H2));
      SVec v_sum1 (VOp2 (Add16) (VV v_sum1) (VV v_sum2));
      SVec v_sum3 (VOp2 (Add16) (VV v_sum3) (VV v_sum4));
      SVec v_sum1 (VOp2 (Add16) (VV v_sum1) (VV v_coeff2));
      SVec v_sum3 (VOp2 (Add16) (VV v_sum3) (VV v_coeff2));
      SVec v_sum1 (VOp1 (Srl16 2) (VV v_sum1));
      SVec v_sum3 (VOp1 (Srl16 2) (VV v_sum3));
      SVec v_sum1 (VOp2 (Pack16) (VV v_sum1) (VV v_sum3));
      SVec v_sum1 (VOp1 (Perm64 216) (VV v_sum1));
      SStore 32 (PAdd (PV v_first_line (IC 0)) (IV v_i)) (VV v_sum1);
      SInt v_i (IAdd (IV v_i) (IC 32));
      SPtr v_src (IC 0) (PAdd (PV v_src (IC 0)) (IC 32))];
    SIf (ILt (IV v_i) (IV v_line_size)) [
      SVec v_mask (VTab intrinsic_mask_256_8bit (IC 15));
      SVec v_S0 (VLoad 32 0 (PAdd (PV v_src (IC 0)) (ISub (IC 0) (IC 1))));
      SVec v_S2 (VLoad 32 0 (PAdd (PV v_src (IC 0)) (IC 1)));
      SVec v_S1 (VLoad 32 0 (PV v_src (IC 0)));
      SVec v_L0 (VOp1 Cvt8 (VOp1 (Ext 0) (VV v_S0)));
      SVec v_L1 (VOp1 Cvt8 (VOp1 (Ext 0) (VV v_S1)));
      SVec v_L2 (VOp1 Cvt8 (VOp1 (Ext 0) (VV v_S2)));
      SVec v_sum1 (VOp2 (Add16) (VV v_L0) (VV v_L1));
      SVec v_sum2 (VOp2 (Add16) (VV v_L1) (VV v_L2));
      SVec v_sum1 (VOp2 (Add16) (VV v_sum1) (VV v_sum2));
      SVec v_sum1 (VOp2 (Add16) (VV v_sum1) (VV v_coeff2));
      SVec v_sum1 (VOp1 (Srl16 2) (VV v_sum1));
      SVec v_sum1 (VOp2 (Pack16) (VV v_sum1) (VV v_sum1));
      SVec v_sum1 (VOp1 (Perm64 216) (VV v_sum1));
      SMask 8 (PAdd (PV v_first_line (IC 0)) (IV v_i)) (VV v_mask) (VV v_sum1)] [];
    SIf (IEq (IV v_bsx) (IC 64)) [
      SInt v_i (IC 0);
      SLoop (ILt (IV v_i) (IV v_bsy)) [
        SVec v_M (VLoad 32 0 (PV v_pfirst (IC 0)));
        SStore 32 (PV v_dst (IC 0)) (VV v_M);
        SVec v_M (VLoad 32 0 (PAdd (PV v_pfirst (IC 0)) (IC 32)));
        SStore 32 (PAdd (PV v_dst (IC 0)) (IC 32)) (VV v_M);
        SPtr v_dst (IC 0) (PAdd (PV v_dst (IC 0)) (IV v_i_dst));
        SPtr v_pfirst (IC 0) (PAdd (PV v_pfirst (IC 0)) (ISub (IC 0) (IC 4)));
        SVec v_M (VLoad 32 0 (PV v_pfirst (IC 0)));
        SStore 32 (PV v_dst (IC 0)) (VV v_M);
        SVec v_M (VLoad 32 0 (PAdd (PV v_pfirst (IC 0)) (IC 32)));
        SStore 32 (PAdd (PV v_dst (IC 0)) (IC 32)) (VV v_M);
        SPtr v_dst (IC 0) (PAdd (PV v_dst (IC 0)) (IV v_i_dst));
        SPtr v_pfirst (IC 0) (PAdd (PV v_pfirst (IC 0)) (ISub (IC 0) (IC 4)));
        SVec v_M (VLoad 32 0 (PV v_pfirst (IC 0)));
        SStore 32 (PV v_dst (IC 0)) (VV v_M);
        SVec v_M (VLoad 32 0 (PAdd (PV v_pfirst (IC 0)) (IC 32)));
        SStore 32 (PAdd (PV v_dst (IC 0)) (IC 32)) (VV v_M);
        SPtr v_dst (IC 0) (PAdd (PV v_dst (IC 0)) (IV v_i_dst));
        SPtr v_pfirst (IC 0) (PAdd (PV v_pfirst (IC 0)) (ISub (IC 0) (IC 4)));
        SVec v_M (VLoad 32 0 (PV v_pfirst (IC 0)));
        SStore 32 (PV v_dst (IC 0)) (VV v_M);
        SVec v_M (VLoad 32 0 (PAdd (PV v_pfirst (IC 0)) (IC 32)));
        SStore 32 (PAdd (PV v_dst (IC 0)) (IC 32)) (VV v_M);
        SPtr v_dst (IC 0) (PAdd (PV v_dst (IC 0)) (IV v_i_dst));
        SPtr v_pfirst (IC 0) (PAdd (PV v_pfirst (IC 0)) (ISub (IC 0) (IC 4)));
        SInt v_i (IAdd (IV v_i) (IC 4))]] [
      SIf (IEq (IV v_bsx) (IC 32)) [
        SInt v_i (IC 0);
        SLoop (ILt (IV v_i) (IV v_bsy)) [
          SVec v_M (VLoad 32 0 (PV v_pfirst (IC 0)));
          SStore 32 (PV v_dst (IC 0)) (VV v_M);
          SPtr v_dst (IC 0) (PAdd (PV v_dst (IC 0)) (IV v_i_dst));
          SPtr v_pfirst (IC 0) (PAdd (PV v_pfirst (IC 0)) (ISub (IC 0) (IC 4)));
          SVec v_M (VLoad 32 0 (PV v_pfirst (IC 0)));
          SStore 32 (PV v_dst (IC 0)) (VV v_M);
          SPtr v_dst (IC 0) (PAdd (PV v_dst (IC 0)) (IV v_i_dst));
          SPtr v_pfirst (IC 0) (PAdd (PV v_pfirst (IC 0)) (ISub (IC 0) (IC 4)));
          SVec v_M (VLoad 32 0 (PV v_pfirst (IC 0)));
          SStore 32 (PV v_dst (IC 0)) (VV v_M);
          SPtr v_dst (IC 0) (PAdd (PV v_dst (IC 0)) (IV v_i_dst));
          SPtr v_pfirst (IC 0) (PAdd (PV v_pfirst (IC 0)) (ISub (IC 0) (IC 4)));
          SVec v_M (VLoad 32 0 (PV v_pfirst (IC 0)));
          SStore 32 (PV v_dst (IC 0)) (VV v_M);
          SPtr v_dst (IC 0) (PAdd (PV v_dst (IC 0)) (IV v_i_dst));
          SPtr v_pfirst (IC 0) (PAdd (PV v_pfirst (IC 0)) (ISub (IC 0) (IC 4)));
          SInt v_i (IAdd (IV v_i) (IC 4))]] [
        SIf (IEq (IV v_bsx) (IC 16)) [
          SVec v_mask (VTab intrinsic_mask_256_8bit (IC 15));
          SInt v_i (IC 0);
          SLoop (ILt (IV v_i) (IV v_bsy)) [
            SVec v_M (VLoad 32 0 (PV v_pfirst (IC 0)));
            SMask 8 (PV v_dst (IC 0)) (VV v_mask) (VV v_M);
            SPtr v_dst (IC 0) (PAdd (PV v_dst (IC 0)) (IV v_i_dst));
            SPtr v_pfirst (IC 0) (PAdd (PV v_pfirst (IC 0)) (ISub (IC 0) (IC 4)));
            SVec v_M (VLoad 32 0 (PV v_pfirst (IC 0)));
            SMask 8 (PV v_dst (IC 0)) (VV v_mask) (VV v_M);
            SPtr v_dst (IC 0) (PAdd (PV v_dst (IC 0)) (IV v_i_dst));
            SPtr v_pfirst (IC 0) (PAdd (PV v_pfirst (IC 0)) (ISub (IC 0) (IC 4)));
            SVec v_M (VLoad 32 0 (PV v_pfirst (IC 0)));
            SMask 8 (PV v_dst (IC 0)) (VV v_mask) (VV v_M);
            SPtr v_dst (IC 0) (PAdd (PV v_dst (IC 0)) (IV v_i_dst));
            SPtr v_pfirst (IC 0) (PAdd (PV v_pfirst (IC 0)) (ISub (IC 0) (IC 4)));
            SVec v_M (VLoad 32 0 (PV v_pfirst (IC 0)));
            SMask 8 (PV v_dst (IC 0)) (VV v_mask) (VV v_M);
            SPtr v_dst (IC 0) (PAdd (PV v_dst (IC 0)) (IV v_i_dst));
            SPtr v_pfirst (IC 0) (PAdd (PV v_pfirst (IC 0)) (ISub (IC 0) (IC 4)));
            SInt v_i (IAdd (IV v_i) (IC 4))]] [
          SVec v_mask (VTab intrinsic_mask_256_8bit (IC 7));
          SInt v_i (IC 0);
          SLoop (ILt (IV v_i) (IV v_bsy)) [
            SVec v_M (VLoad 32 0 (PV v_pfirst (IC 0)));
            SMask 8 (PV v_dst (IC 0)) (VV v_mask) (VV v_M);
            SPtr v_dst (IC 0) (PAdd (PV v_dst (IC 0)) (IV v_i_dst));
            SPtr v_pfirst (IC 0) (PAdd (PV v_pfirst (IC 0)) (ISub (IC 0) (IC 4)));
            SVec v_M (VLoad 32 0 (PV v_pfirst (IC 0)));
            SMask 8 (PV v_dst (IC 0)) (VV v_mask) (VV v_M);
            SPtr v_dst (IC 0) (PAdd (PV v_dst (IC 0)) (IV v_i_dst));
            SPtr v_pfirst (IC 0) (PAdd (PV v_pfirst (IC 0)) (ISub (IC 0) (IC 4)));
            SVec v_M (VLoad 32 0 (PV v_pfirst (IC 0)));
            SMask 8 (PV v_dst (IC 0)) (VV v_mask) (VV v_M);
            SPtr v_dst (IC 0) (PAdd (PV v_dst (IC 0)) (IV v_i_dst));
            SPtr v_pfirst (IC 0) (PAdd (PV v_pfirst (IC 0)) (ISub (IC 0) (IC 4)));
            SVec v_M (VLoad 32 0 (PV v_pfirst (IC 0)));
            SMask 8 (PV v_dst (IC 0)) (VV v_mask) (VV v_M);
            SPtr v_dst (IC 0) (PAdd (PV v_dst (IC 0)) (IV v_i_dst));
            SPtr v_pfirst (IC 0) (PAdd (PV v_pfirst (IC 0)) (ISub (IC 0) (IC 4)));
            SInt v_i (IAdd (IV v_i) (IC 4))]]]]] [
    SInt v_i (IC 0);
    SLoop (ILt (IV v_i) (IV v_bsy)) [
      SPut (PV v_dst (IC 0)) (XShr (XAdd (XAdd (XAdd (XAdd (XMul (XLd (PAdd (PV v_src (IC 0)) (IC (-2)))) (XC 3)) (XMul (XLd (PAdd (PV v_src (IC 0)) (IC (-1)))) (XC 7))) (XMul (XLd (PV v_src (IC 0))) (XC 5))) (XLd (PAdd (PV v_src (IC 0)) (IC 1)))) (XC 8)) 4);
      SPut (PAdd (PV v_dst (IC 0)) (IC 1)) (XShr (XAdd (XAdd (XAdd (XLd (PAdd (PV v_src (IC 0)) (IC (-2)))) (XMul (XAdd (XLd (PAdd (PV v_src (IC 0)) (IC (-1)))) (XLd (PV v_src (IC 0)))) (XC 3))) (XLd (PAdd (PV v_src (IC 0)) (IC 1)))) (XC 4)) 3);
      SPut (PAdd (PV v_dst (IC 0)) (IC 2)) (XShr (XAdd (XAdd (XAdd (XAdd (XLd (PAdd (PV v_src (IC 0)) (IC (-2)))) (XMul (XLd (PAdd (PV v_src (IC 0)) (IC (-1)))) (XC 5))) (XMul (XLd (PV v_src (IC 0))) (XC 7))) (XMul (XLd (PAdd (PV v_src (IC 0)) (IC 1))) (XC 3))) (XC 8)) 4);
      SPut (PAdd (PV v_dst (IC 0)) (IC 3)) (XShr (XAdd (XAdd (XAdd (XLd (PAdd (PV v_src (IC 0)) (IC (-1)))) (XMul (XLd (PV v_src (IC 0))) (XC 2))) (XLd (PAdd (PV v_src (IC 0)) (IC 1)))) (XC 2)) 2);
      SPtr v_dst (IC 0) (PAdd (PV v_dst (IC 0)) (IV v_i_dst));
      SInt v_i (IAdd (IV v_i) (IC 1));
      SPtr v_src (IC 0) (PAdd (PV v_src (IC 0)) (ISub (IC 0) (IC 1)))]]].

(** vec/intrinsic_intra-pred_avx2.cc:7320-7616 [intra_pred_ang_xy_23_avx] *)
Definition k_ang_xy_23_avx : list stm := [
  SIf (ILt (IC 8) (IV v_bsx)) [
    SArr v_first_line (IAdd (IC 64) (IC 512));
    SInt v_left_size (ISub (IShl (IV v_bsy) (IC 3)) (IC 1));
    SInt v_top_size (ISub (IV v_bsx) (IC 7));
    SInt v_line_size (IAdd (IV v_left_size) (IV v_top_size));
    SPtr v_pfirst (IC 0) (PAdd (PAdd (PV v_first_line (IC 0)) (IV v_left_size)) (ISub (IC 0) (IC 7)));
    SPtr v_pfirst1 (IC 0) (PV v_first_line (IC 0));
    SPtr v_src_org (IC 0) (PV v_src (IC 0));
    SPtr v_src (IC 0) (PAdd (PV v_src (IC 0)) (ISub (IC 0) (IV v_bsy)));
    SVec v_coeff0 (VConst [7;0;3;0;5;0;1;0;3;0;1;0;1;0;0;0;7;0;3;0;5;0;1;0;3;0;1;0;1;0;0;0]);
    SVec v_coeff1 (VConst [15;0;7;0;13;0;3;0;11;0;5;0;9;0;1;0;15;0;7;0;13;0;3;0;11;0;5;0;9;0;1;0]);
    SVec v_coeff2 (VConst [9;0;5;0;11;0;3;0;13;0;7;0;15;0;2;0;9;0;5;0;11;0;3;0;13;0;7;0;15;0;2;0]);
    SVec v_coeff3 (VConst [1;0;1;0;3;0;1;0;5;0;3;0;7;0;1;0;1;0;1;0;3;0;1;0;5;0;3;0;7;0;1;0]);
    SVec v_coeff4 (VConst [16;0;8;0;16;0;4;0;16;0;8;0;16;0;2;0;16;0;8;0;16;0;4;0;16;0;8;0;16;0;2;0]);
    SVec v_coeff5 (VConst [1;0;2;0;1;0;4;0;1;0;2;0;1;0;8;0;1;0;2;0;1;0;4;0;1;0;2;0;1;0;8;0]);
    SIf (IEq (IV v_bsy) (IC 4)) [
      SVec v_L0 (VSetr [XLd (PAdd (PV v_src (IC 0)) (IC (-1))); XLd (PAdd (PV v_src (IC 0)) (IC (-1))); XLd (PAdd (PV v_src (IC 0)) (IC (-1))); XLd (PAdd (PV v_src (IC 0)) (IC (-1))); XLd (PAdd (PV v_src (IC 0)) (IC (-1))); XLd (PAdd (PV v_src (IC 0)) (IC (-1))); XLd (PAdd (PV v_src (IC 0)) (IC (-1))); XLd (PAdd (PV v_src (IC 0)) (IC (-1))); XLd (PAdd (PV v_src (IC 0)) (IC 1)); XLd (PAdd (PV v_src (IC 0)) (IC 1)); XLd (PAdd (PV v_src (IC 0)) (IC 1)); XLd (PAdd (PV v_src (IC 0)) (IC 1)); XLd (PAdd (PV v_src (IC 0)) (IC 1)); XLd (PAdd (PV v_src (IC 0)) (IC 1)); XLd (PAdd (PV v_src (IC 0)) (IC 1)); XLd (PAdd (PV v_src (IC 0)) (IC 1))]);
      SVec v_L1 (VSetr [XLd (PV v_src (IC 0)); XLd (PV v_src (IC 0)); XLd (PV v_src (IC 0)); XLd (PV v_src (IC 0)); XLd (PV v_src (IC 0)); XLd (PV v_src (IC 0)); XLd (PV v_src (IC 0)); XLd (PV v_src (IC 0)); XLd (PAdd (PV v_src (IC 0)) (IC 2)); XLd (PAdd (PV v_src (IC 0)) (IC 2)); XLd (PAdd (PV v_src (IC 0)) (IC 2)); XLd (PAdd (PV v_src (IC 0)) (IC 2)); XLd (PAdd (PV v_src (IC 0)) (IC 2)); XLd (PAdd (PV v_src (IC 0)) (IC 2)); XLd (PAdd (PV v_src (IC 0)) (IC 2)); XLd (PAdd (PV v_src (IC 0)) (IC 2))]);
      SVec v_L2 (VSetr [XLd (PAdd (PV v_src (IC 0)) (IC 1)); XLd (PAdd (PV v_src (IC 0)) (IC 1)); XLd (PAdd (PV v_src (IC 0)) (IC 1)); XLd (PAdd (PV v_src (IC 0)) (IC 1)); XLd (PAdd (PV v_src (IC 0)) (IC 1)); XLd (PAdd (PV v_src (IC 0)) (IC 1)); XLd (PAdd (PV v_src (IC 0)) (IC 1)); XLd (PAdd (PV v_src (IC 0)) (IC 1)); XLd (PAdd (PV v_src (IC 0)) (IC 3)); XLd (PAdd (PV v_src (IC 0)) (IC 3)); XLd (PAdd (PV v_src (IC 0)) (IC 3)); XLd (PAdd (PV v_src (IC 0)) (IC 3)); XLd (PAdd (PV v_src (IC 0)) (IC 3)); XLd (PAdd (PV v_src (IC 0)) (IC 3)); XLd (PAdd (PV v_src (IC 0)) (IC 3)); XLd (PAdd (PV v_src (IC 0)) (IC 3))]);
      SVec v_L3 (VSetr [XLd (PAdd (PV v_src (IC 0)) (IC 2)); XLd (PAdd (PV v_src (IC 0)) (IC 2)); XLd (PAdd (PV v_src (IC 0)) (IC 2)); XLd (PAdd (PV v_src (IC 0)) (IC 2)); XLd (PAdd (PV v_src (IC 0)) (IC 2)); XLd (PAdd (PV v_src (IC 0)) (IC 2)); XLd (PAdd (PV v_src (IC 0)) (IC 2)); XLd (PAdd (PV v_src (IC 0)) (IC 2)); XLd (PAdd (PV v_src (IC 0)) (IC 4)); XLd (PAdd (PV v_src (IC 0)) (IC 4)); XLd (PAdd (PV v_src (IC 0)) (IC 4)); XLd (PAdd (PV v_src (IC 0)) (IC 4)); XLd (PAdd (PV v_src (IC 0)) (IC 4)); XLd (PAdd (PV v_src (IC 0)) (IC 4)); XLd (PAdd (PV v_src (IC 0)) (IC 4)); XLd (PAdd (PV v_src (IC 0)) (IC 4))]);
      SPtr v_src (IC 0) (PAdd (PV v_src (IC 0)) (IC 4));
      SInt v_i (IC 0);
      SLoop (ILt (IV v_i) (IAdd (IV v_left_size) (IC 1))) [
        SVec v_p00 (VOp2 (Mul16) (VV v_L0) (VV v_coeff0));
        SVec v_p10 (VOp2 (Mul16) (VV v_L1) (VV v_coeff1));
        SVec v_p20 (VOp2 (Mul16) (VV v_L2) (VV v_coeff2));
        SVec v_p30 (VOp2 (Mul16) (VV v_L3) (VV v_coeff3));
        SVec v_p00 (VOp2 (Add16) (VV v_p00) (VV v_coeff4));
        SVec v_p00 (VOp2 (Add16) (VV v_p00) (VV v_p10));
        SVec v_p00 (VOp2 (Add16) (VV v_p00) (VV v_p20));
        SVec v_p00 (VOp2 (Add16) (VV v_p00) (VV v_p30));
        SVec v_p00 (VOp2 (Mul16) (VV v_p00) (VV v_coeff5));
        SVec v_p00 (VOp1 (Srl16 5) (VV v_p00));
        SVec v_L0 (VSetr [XLd (PAdd (PV v_src (IC 0)) (IC (-1))); XLd (PAdd (PV v_src (IC 0)) (IC (-1))); XLd (PAdd (PV v_src (IC 0)) (IC (-1))); XLd (PAdd (PV v_src (IC 0)) (IC (-1))); XLd (PAdd (PV v_src (IC 0)) (IC (-1))); XLd (PAdd (PV v_src (IC 0)) (IC (-1))); XLd (PAdd (PV v_src (IC 0)) (IC (-1))); XLd (PAdd (PV v_src (IC 0)) (IC (-1))); XLd (PAdd (PV v_src (IC 0)) (IC 1)); XLd (PAdd (PV v_src (IC 0)) (IC 1)); XLd (PAdd (PV v_src (IC 0)) (IC 1)); XLd (PAdd (PV v_src (IC 0)) (IC 1)); XLd (PAdd (PV v_src (IC 0)) (IC 1)); XLd (PAdd (PV v_src (IC 0)) (IC 1)); XLd (PAdd (PV v_src (IC 0)) (IC 1)); XLd (PAdd (PV v_src (IC 0)) (IC 1))]);
        SVec v_p01 (VOp2 (Mul16) (VV v_L1) (VV v_coeff0));
        SVec v_p11 (VOp2 (Mul16) (VV v_L2) (VV v_coeff1));
        SVec v_p21 (VOp2 (Mul16) (VV v_L3) (VV v_coeff2));
        SVec v_p31 (VOp2 (Mul16) (VV v_L0) (VV v_coeff3));
        SVec v_p01 (VOp2 (Add16) (VV v_p01) (VV v_coeff4));
        SVec v_p01 (VOp2 (Add16) (VV v_p01) (VV v_p11));
        SVec v_p01 (VOp2 (Add16) (VV v_p01) (VV v_p21));
        SVec v_p01 (VOp2 (Add16) (VV v_p01) (VV v_p31));
        SVec v_p01 (VOp2 (Mul16) (VV v_p01) (VV v_coeff5));
        SVec v_p01 (VOp1 (Srl16 5) (VV v_p01));
        SVec v_res1 (VOp2 (Pack16) (VV v_p00) (VV v_p01));
        SStore 32 (PV v_pfirst1 (IC 0)) (VV v_res1);
        SInt v_i (IAdd (IV v_i) (IC 32))]] [
      SVec v_L0 (VSetr [XLd (PAdd (PV v_src (IC 0)) (IC (-1))); XLd (PAdd (PV v_src (IC 0)) (IC (-1))); XLd (PAdd (PV v_src (IC 0)) (IC (-1))); XLd (PAdd (PV v_src (IC 0)) (IC (-1))); XLd (PAdd (PV v_src (IC 0)) (IC (-1))); XLd (PAdd (PV v_src (IC 0)) (IC (-1))); XLd (PAdd (PV v_src (IC 0)) (IC (-1))); XLd (PAdd (PV v_src (IC 0)) (IC (-1))); XLd (PAdd (PV v_src (IC 0)) (IC 3)); XLd (PAdd (PV v_src (IC 0)) (IC 3)); XLd (PAdd (PV v_src (IC 0)) (IC 3)); XLd (PAdd (PV v_src (IC 0)) (IC 3)); XLd (PAdd (PV v_src (IC 0)) (IC 3)); XLd (PAdd (PV v_src (IC 0)) (IC 3)); XLd (PAdd (PV v_src (IC 0)) (IC 3)); XLd (PAdd (PV v_src (IC 0)) (IC 3))]);
      SVec v_L1 (VSetr [XLd (PV v_src (IC 0)); XLd (PV v_src (IC 0)); XLd (PV v_src (IC 0)); XLd (PV v_src (IC 0)); XLd (PV v_src (IC 0)); XLd (PV v_src (IC 0)); XLd (PV v_src (IC 0)); XLd (PV v_src (IC 0)); XLd (PAdd (PV v_src (IC 0)) (IC 4)); XLd (PAdd (PV v_src (IC 0)) (IC 4)); XLd (PAdd (PV v_src (IC 0)) (IC 4)); XLd (PAdd (PV v_src (IC 0)) (IC 4)); XLd (PAdd (PV v_src (IC 0)) (IC 4)); XLd (PAdd (PV v_src (IC 0)) (IC 4)); XLd (PAdd (PV v_src (IC 0)) (IC 4)); XLd (PAdd (PV v_src (IC 0)) (IC 4))]);
      SVec v_L2 (VSetr [XLd (PAdd (PV v_src (IC 0)) (IC 1)); XLd (PAdd (PV v_src (IC 0)) (IC 1)); XLd (PAdd (PV v_src (IC 0)) (IC 1)); XLd (PAdd (PV v_src (IC 0)) (IC 1)); XLd (PAdd (PV v_src (IC 0)) (IC 1)); XLd (PAdd (PV v_src (IC 0)) (IC 1)); XLd (PAdd (PV v_src (IC 0)) (IC 1)); XLd (PAdd (PV v_src (IC 0)) (IC 1)); XLd (PAdd (PV v_src (IC 0)) (IC 5)); XLd (PAdd (PV v_src (IC 0)) (IC 5)); XLd (PAdd (PV v_src (IC 0)) (IC 5)); XLd (PAdd (PV v_src (IC 0)) (IC 5)); XLd (PAdd (PV v_src (IC 0)) (IC 5)); XLd (PAdd (PV v_src (IC 0)) (IC 5)); XLd (PAdd (PV v_src (IC 0)) (IC 5)); XLd (PAdd (PV v_src (IC 0)) (IC 5))]);
      SVec v_L3 (VSetr [XLd (PAdd (PV v_src (IC 0)) (IC 2)); XLd (PAdd (PV v_src (IC 0)) (IC 2)); XLd (PAdd (PV v_src (IC 0)) (IC 2)); XLd (PAdd (PV v_src (IC 0)) (IC 2)); XLd (PAdd (PV v_src (IC 0)) (IC 2)); XLd (PAdd (PV v_src (IC 0)) (IC 2)); XLd (PAdd (PV v_src (IC 0)) (IC 2)); XLd (PAdd (PV v_src (IC 0)) (IC 2)); XLd (PAdd (PV v_src (IC 0)) (IC 6)); XLd (PAdd (PV v_src (IC 0)) (IC 6)); XLd (PAdd (PV v_src (IC 0)) (IC 6)); XLd (PAdd (PV v_src (IC 0)) (IC 6)); XLd (PAdd (PV v_src (IC 0)) (IC 6)); XLd (PAdd (PV v_src (IC 0)) (IC 6)); XLd (PAdd (PV v_src (IC 0)) (IC 6)); XLd (PAdd (PV v_src (IC 0)) (IC 6))]);
      SPtr v_src (IC 0) (PAdd (PV v_src (IC 0)) (IC 4));
      SInt v_i (IC 0);
      SLoop (ILt (IV v_i) (IAdd (IV v_left_size) (IC 1))) [
        SVec v_p00 (VOp2 (Mul16) (VV v_L0) (VV v_coeff0));
        SVec v_p10 (VOp2 (Mul16) (VV v_L1) (VV v_coeff1));
        SVec v_p20 (VOp2 (Mul16) (VV v_L2) (VV v_coeff2));
        SVec v_p30 (VOp2 (Mul16) (VV v_L3) (VV v_coeff3));
        SVec v_p00 (VOp2 (Add16) (VV v_p00) (VV v_coeff4));
        SVec v_p00 (VOp2 (Add16) (VV v_p00) (VV v_p10));
        SVec v_p00 (VOp2 (Add16) (VV v_p00) (VV v_p20));
        SVec v_p00 (VOp2 (Add16) (VV v_p00) (VV v_p30));
        SVec v_p00 (VOp2 (Mul16) (VV v_p00) (VV v_coeff5));
        SVec v_p00 (VOp1 (Srl16 5) (VV v_p00));
        SVec v_L0 (VSetr [XLd (PAdd (PV v_src (IC 0)) (IC (-1))); XLd (PAdd (PV v_src (IC 0)) (IC (-1))); XLd (PAdd (PV v_src (IC 0)) (IC (-1))); XLd (PAdd (PV v_src (IC 0)) (IC (-1))); XLd (PAdd (PV v_src (IC 0)) (IC (-1))); XLd (PAdd (PV v_src (IC 0)) (IC (-1))); XLd (PAdd (PV v_src (IC 0)) (IC (-1))); XLd (PAdd (PV v_src (IC 0)) (IC (-1))); XLd (PAdd (PV v_src (IC 0)) (IC 3)); XLd (PAdd (PV v_src (IC 0)) (IC 3)); XLd (PAdd (PV v_src (IC 0)) (IC 3)); XLd (PAdd (PV v_src (IC 0)) (IC 3)); XLd (PAdd (PV v_src (IC 0)) (IC 3)); XLd (PAdd (PV v_src (IC 0)) (IC 3)); XLd (PAdd (PV v_src (IC 0)) (IC 3)); XLd (PAdd (PV v_src (IC 0)) (IC 3))]);
        SVec v_p01 (VOp2 (Mul16) (VV v_L1) (VV v_coeff0));
        SVec v_p11 (VOp2 (Mul16) (VV v_L2) (VV v_coeff1));
        SVec v_p21 (VOp2 (Mul16) (VV v_L3) (VV v_coeff2));
        SVec v_p31 (VOp2 (Mul16) (VV v_L0) (VV v_coeff3));
        SVec v_p01 (VOp2 (Add16) (VV v_p01) (VV v_coeff4));
        SVec v_p01 (VOp2 (Add16) (VV v_p01) (VV v_p11));
        SVec v_p01 (VOp2 (Add16) (VV v_p01) (VV v_p21));
        SVec v_p01 (VOp2 (Add16) (VV v_p01) (VV v_p31));
        SVec v_p01 (VOp2 (Mul16) (VV v_p01) (VV v_coeff5));
        SVec v_p01 (VOp1 (Srl16 5) (VV v_p01));
        SVec v_res1 (VOp2 (Pack16) (VV v_p00) (VV v_p01));
        SVec v_L1 (VSetr [XLd (PV v_src (IC 0)); XLd (PV v_src (IC 0)); XLd (PV v_src (IC 0)); XLd (PV v_src (IC 0)); XLd (PV v_src (IC 0)); XLd (PV v_src (IC 0)); XLd (PV v_src (IC 0)); XLd (PV v_src (IC 0)); XLd (PAdd (PV v_src (IC 0)) (IC 4)); XLd (PAdd (PV v_src (IC 0)) (IC 4)); XLd (PAdd (PV v_src (IC 0)) (IC 4)); XLd (PAdd (PV v_src (IC 0)) (IC 4)); XLd (PAdd (PV v_src (IC 0)) (IC 4)); XLd (PAdd (PV v_src (IC 0)) (IC 4)); XLd (PAdd (PV v_src (IC 0)) (IC 4)); XLd (PAdd (PV v_src (IC 0)) (IC 4))]);
        SVec v_p00 (VOp2 (Mul16) (VV v_L2) (VV v_coeff0));
        SVec v_p10 (VOp2 (Mul16) (VV v_L3) (VV v_coeff1));
        SVec v_p20 (VOp2 (Mul16) (VV v_L0) (VV v_coeff2));
        SVec v_p30 (VOp2 (Mul16) (VV v_L1) (VV v_coeff3));
        SVec v_p00 (VOp2 (Add16) (VV v_p00) (VV v_coeff4));
        SVec v_p00 (VOp2 (Add16) (VV v_p00) (VV v_p10));
        SVec v_p00 (VOp2 (Add16) (VV v_p00) (VV v_p20));
        SVec v_p00 (VOp2 (Add16) (VV v_p00) (VV v_p30));
        SVec v_p00 (VOp2 (Mul16) (VV v_p00) (VV v_coeff5));
        SVec v_p00 (VOp1 (Srl16 5) (VV v_p00));
        SVec v_L2 (VSetr [XLd (PAdd (PV v_src (IC 0)) (IC 1)); XLd (PAdd (PV v_src (IC 0)) (IC 1)); XLd (PAdd (PV v_src (IC 0)) (IC 1)); XLd (PAdd (PV v_src (IC 0)) (IC 1)); XLd (PAdd (PV v_src (IC 0)) (IC 1)); XLd (PAdd (PV v_src (IC 0)) (IC 1)); XLd (PAdd (PV v_src (IC 0)) (IC 1)); XLd (PAdd (PV v_src (IC 0)) (IC 1)); XLd (PAdd (PV v_src (IC 0)) (IC 5)); XLd (PAdd (PV v_src (IC 0)) (IC 5)); XLd (PAdd (PV v_src (IC 0)) (IC 5)); XLd (PAdd (PV v_src (IC 0)) (IC 5)); XLd (PAdd (PV v_src (IC 0)) (IC 5)); XLd (PAdd (PV v_src (IC 0)) (IC 5)); XLd (PAdd (PV v_src (IC 0)) (IC 5)); XLd (PAdd (PV v_src (IC 0)) (IC 5))]);
        SVec v_p01 (VOp2 (Mul16) (VV v_L3) (VV v_coeff0));
        SVec v_p11 (VOp2 (Mul16) (VV v_L0) (VV v_coeff1));
        SVec v_p21 (VOp2 (Mul16) (VV v_L1) (VV v_coeff2));
        SVec v_p31 (VOp2 (Mul16) (VV v_L2) (VV v_coeff3));
        SVec v_p01 (VOp2 (Add16) (VV v_p01) (VV v_coeff4));
        SVec v_p01 (VOp2 (Add16) (VV v_p01) (VV v_p11));
        SVec v_p01 (VOp2 (Add16) (VV v_p01) (VV v_p21));
        SVec v_p01 (VOp2 (Add16) (VV v_p01) (VV v_p31));
        SVec v_p01 (VOp2 (Mul16) (VV v_p01) (VV v_coeff5));
        SVec v_p01 (VOp1 (Srl16 5) (VV v_p01));
        SVec v_res2 (VOp2 (Pack16) (VV v_p00) (VV v_p01));
        SVec v_p00 (VOp2 (Perm128 32) (VV v_res1) (VV v_res2));
        SStore 32 (PV v_pfirst1 (IC 0)) (VV v_p00);
        SPtr v_pfirst1 (IC 0) (PAdd (PV v_pfirst1 (IC 0)) (IC 32));
        SVec v_p00 (VOp2 (Perm128 49) (VV v_res1) (VV v_res2));
        SStore 32 (PV v_pfirst1 (IC 0)) (VV v_p00);
        SPtr v_pfirst1 (IC 0) (PAdd (PV v_pfirst1 (IC 0)) (IC 32));
        SPtr v_src (IC 0) (PAdd (PV v_src (IC 0)) (IC 4));
        SVec v_L0 (VSetr [XLd (PAdd (PV v_src (IC 0)) (IC (-1))); XLd (PAdd (PV v_src (IC 0)) (IC (-1))); XLd (PAdd (PV v_src (IC 0)) (IC (-1))); XLd (PAdd (PV v_src (IC 0)) (IC (-1))); XLd (PAdd (PV v_src (IC 0)) (IC (-1))); XLd (PAdd (PV v_src (IC 0)) (IC (-1))); XLd (PAdd (PV v_src (IC 0)) (IC (-1))); XLd (PAdd (PV v_src (IC 0)) (IC (-1))); XLd (PAdd (PV v_src (IC 0)) (IC 3)); XLd (PAdd (PV v_src (IC 0)) (IC 3)); XLd (PAdd (PV v_src (IC 0)) (IC 3)); XLd (PAdd (PV v_src (IC 0)) (IC 3)); XLd (PAdd (PV v_src (IC 0)) (IC 3)); XLd (PAdd (PV v_src (IC 0)) (IC 3)); XLd (PAdd (PV v_src (IC 0)) (IC 3)); XLd (PAdd (PV v_src (IC 0)) (IC 3))]);
        SVec v_L1 (VSetr [XLd (PV v_src (IC 0)); XLd (PV v_src (IC 0)); XLd (PV v_src (IC 0)); XLd (PV v_src (IC 0)); XLd (PV v_src (IC 0)); XLd (PV v_src (IC 0)); XLd (PV v_src (IC 0)); XLd (PV v_src (IC 0)); XLd (PAdd (PV v_src (IC 0)) (IC 4)); XLd (PAdd (PV v_src (IC 0)) (IC 4)); XLd (PAdd (PV v_src (IC 0)) (IC 4)); XLd (PAdd (PV v_src (IC 0)) (IC 4)); XLd (PAdd (PV v_src (IC 0)) (IC 4)); XLd (PAdd (PV v_src (IC 0)) (IC 4)); XLd (PAdd (PV v_src (IC 0)) (IC 4)); XLd (PAdd (PV v_src (IC 0)) (IC 4))]);
        SVec v_L2 (VSetr [XLd (PAdd (PV v_src (IC 0)) (IC 1)); XLd (PAdd (PV v_src (IC 0)) (IC 1)); XLd (PAdd (PV v_src (IC 0)) (IC 1)); XLd (PAdd (PV v_src (IC 0)) (IC 1)); XLd (PAdd (PV v_src (IC 0)) (IC 1)); XLd (PAdd (PV v_src (IC 0)) (IC 1)); XLd (PAdd (PV v_src (IC 0)) (IC 1)); XLd (PAdd (PV v_src (IC 0)) (IC 1)); XLd (PAdd (PV v_src (IC 0)) (IC 5)); XLd (PAdd (PV v_src (IC 0)) (IC 5)); XLd (PAdd (PV v_src (IC 0)) (IC 5)); XLd (PAdd (PV v_src (IC 0)) (IC 5)); XLd (PAdd (PV v_src (IC 0)) (IC 5)); XLd (PAdd (PV v_src (IC 0)) (IC 5)); XLd (PAdd (PV v_src (IC 0)) (IC 5)); XLd (PAdd (PV v_src (IC 0)) (IC 5))]);
        SVec v_L3 (VSetr [XLd (PAdd (PV v_src (IC 0)) (IC 2)); XLd (PAdd (PV v_src (IC 0)) (IC 2)); XLd (PAdd (PV v_src (IC 0)) (IC 2)); XLd (PAdd (PV v_src (IC 0)) (IC 2)); XLd (PAdd (PV v_src (IC 0)) (IC 2)); XLd (PAdd (PV v_src (IC 0)) (IC 2)); XLd (PAdd (PV v_src (IC 0)) (IC 2)); XLd (PAdd (PV v_src (IC 0)) (IC 2)); XLd (PAdd (PV v_src (IC 0)) (IC 6)); XLd (PAdd (PV v_src (IC 0)) (IC 6)); XLd (PAdd (PV v_src (IC 0)) (IC 6)); XLd (PAdd (PV v_src (IC 0)) (IC 6)); XLd (PAdd (PV v_src (IC 0)) (IC 6)); XLd (PAdd (PV v_src (IC 0)) (IC 6)); XLd (PAdd (PV v_src (IC 0)) (IC 6)); XLd (PAdd (PV v_src (IC 0)) (IC 6))]);
        SInt v_i (IAdd (IV v_i) (IC 64));
        SPtr v_src (IC 0) (PAdd (PV v_src (IC 0)) (IC 4))]];
    SPtr v_src (IC 0) (PAdd (PV v_src_org (IC 0)) (IC 1));
    SVec v_coeff2 (VSet1 2 16 (XC 2));
    SLoop (ILt (IV v_i) (IV v_line_size)) [
      SVec v_S0 (VLoad 32 0 (PV v_src (IC 0)));
      SVec v_S1 (VLoad 32 0 (PAdd (PV v_src (IC 0)) (IC 1)));
      SVec v_S2 (VLoad 32 0 (PAdd (PV v_src (IC 0)) (ISub (IC 0) (IC 1))));
      SVec v_L0 (VOp1 Cvt8 (VOp1 (Ext 0) (VV v_S0)));
      SVec v_L1 (VOp1 Cvt8 (VOp1 (Ext 0) (VV v_S1)));
      SVec v_L2 (VOp1 Cvt8 (VOp1 (Ext 0) (VV v_S2)));
      SVec v_H0 (VOp1 Cvt8 (VOp1 (Ext 1) (VV v_S0)));
      SVec v_H1 (VOp1 Cvt8 (VOp1 (Ext 1) (VV v_S1)));
      SVec v_H2 (VOp1 Cvt8 (VOp1 (Ext 1) (VV v_S2)));
      SVec v_p00 (VOp2 (Mul16) (VV v_L0) (VV v_coeff2));
      SVec v_p10 (VOp2 (Add16) (VV v_L1) (VV v_L2));
      SVec v_p00 (VOp2 (Add16) (VV v_p00) (VV v_coeff2));
      SVec v_p00 (VOp2 (Add16) (VV v_p00) (VV v_p10));
      SVec v_p00 (VOp1 (Srl16 2) (VV v_p00));
      SVec v_p01 (VOp2 (Mul16) (VV v_H0) (VV v_coeff2));
      SVec v_p11 (VOp2 (Add16) (VV v_H1) (VV v_H2));
      SVec v_p01 (VOp2 (Add16) (VV v_p01) (VV v_coeff2));
      SVec v_p01 (VOp2 (Add16) (VV v_p01) (VV v_p11));
      SVec v_p01 (VOp1 (Srl16 2) (VV v_p01));
      SVec v_p00 (VOp2 (Pack16) (VV v_p00) (VV v_p01));
      SVec v_p00 (VOp1 (Perm64 216) (VV v_p00));
      SStore 32 (PAdd (PV v_first_line (IC 0)) (IV v_i)) (VV v_p00);
      SInt v_i (IAdd (IV v_i) (IC 32));
      SPtr v_src (IC 0) (PAdd (PV v_src (IC 0)) (IC 32))];
    SIf (IEq (IV v_bsx) (IC 64)) [
      SInt v_i (IC 0);
      SLoop (ILt (IV v_i) (IV v_bsy)) [
        SVec v_M (VLoad 32 0 (PV v_pfirst (IC 0)));
        SStore 32 (PV v_dst (IC 0)) (VV v_M);
        SVec v_M (VLoad 32 0 (PAdd (PV v_pfirst (IC 0)) (IC 32)));
        SStore 32 (PAdd (PV v_dst (IC 0)) (IC 32)) (VV v_M);
        SPtr v_dst (IC 0) (PAdd (PV v_dst (IC 0)) (IV v_i_dst));
        SPtr v_pfirst (IC 0) (PAdd (PV v_pfirst (IC 0)) (ISub (IC 0) (IC 8)));
        SVec v_M (VLoad 32 0 (PV v_pfirst (IC 0)));
        SStore 32 (PV v_dst (IC 0)) (VV v_M);
        SVec v_M (VLoad 32 0 (PAdd (PV v_pfirst (IC 0)) (IC 32)));
        SStore 32 (PAdd (PV v_dst (IC 0)) (IC 32)) (VV v_M);
        SPtr v_dst (IC 0) (PAdd (PV v_dst (IC 0)) (IV v_i_dst));
        SPtr v_pfirst (IC 0) (PAdd (PV v_pfirst (IC 0)) (ISub (IC 0) (IC 8)));
        SVec v_M (VLoad 32 0 (PV v_pfirst (IC 0)));
        SStore 32 (PV v_dst (IC 0)) (VV v_M);
        SVec v_M (VLoad 32 0 (PAdd (PV v_pfirst (IC 0)) (IC 32)));
        SStore 32 (PAdd (PV v_dst (IC 0)) (IC 32)) (VV v_M);
        SPtr v_dst (IC 0) (PAdd (PV v_dst (IC 0)) (IV v_i_dst));
        SPtr v_pfirst (IC 0) (PAdd (PV v_pfirst (IC 0)) (ISub (IC 0) (IC 8)));
        SVec v_M (VLoad 32 0 (PV v_pfirst (IC 0)));
        SStore 32 (PV v_dst (IC 0)) (VV v_M);
        SVec v_M (VLoad 32 0 (PAdd (PV v_pfirst (IC 0)) (IC 32)));
        SStore 32 (PAdd (PV v_dst (IC 0)) (IC 32)) (VV v_M);
        SPtr v_dst (IC 0) (PAdd (PV v_dst (IC 0)) (IV v_i_dst));
        SPtr v_pfirst (IC 0) (PAdd (PV v_pfirst (IC 0)) (ISub (IC 0) (IC 8)));
        SInt v_i (IAdd (IV v_i) (IC 4))]] [
      SIf (IEq (IV v_bsx) (IC 32)) [
        SInt v_i (IC 0);
        SLoop (ILt (IV v_i) (IV v_bsy)) [
          SVec v_M (VLoad 32 0 (PV v_pfirst (IC 0)));
          SStore 32 (PV v_dst (IC 0)) (VV v_M);
          SPtr v_dst (IC 0) (PAdd (PV v_dst (IC 0)) (IV v_i_dst));
          SPtr v_pfirst (IC 0) (PAdd (PV v_pfirst (IC 0)) (ISub (IC 0) (IC 8)));
          SVec v_M (VLoad 32 0 (PV v_pfirst (IC 0)));
          SStore 32 (PV v_dst (IC 0)) (VV v_M);
          SPtr v_dst (IC 0) (PAdd (PV v_dst (IC 0)) (IV v_i_dst));
          SPtr v_pfirst (IC 0) (PAdd (PV v_pfirst (IC 0)) (ISub (IC 0) (IC 8)));
          SVec v_M (VLoad 32 0 (PV v_pfirst (IC 0)));
          SStore 32 (PV v_dst (IC 0)) (VV v_M);
          SPtr v_dst (IC 0) (PAdd (PV v_dst (IC 0)) (IV v_i_dst));
          SPtr v_pfirst (IC 0) (PAdd (PV v_pfirst (IC 0)) (ISub (IC 0) (IC 8)));
          SVec v_M (VLoad 32 0 (PV v_pfirst (IC 0)));
          SStore 32 (PV v_dst (IC 0)) (VV v_M);
          SPtr v_dst (IC 0) (PAdd (PV v_dst (IC 0)) (IV v_i_dst));
          SPtr v_pfirst (IC 0) (PAdd (PV v_pfirst (IC 0)) (ISub (IC 0) (IC 8)));
          SInt v_i (IAdd (IV v_i) (IC 4))]] [
        SIf (IEq (IV v_bsx) (IC 16)) [
          SVec v_mask (VTab intrinsic_mask_256_8bit (IC 15));
          SInt v_i (IC 0);
          SLoop (ILt (IV v_i) (IV v_bsy)) [
            SVec v_M (VLoad 32 0 (PV v_pfirst (IC 0)));
            SMask 8 (PV v_dst (IC 0)) (VV v_mask) (VV v_M);
            SPtr v_dst (IC 0) (PAdd (PV v_dst (IC 0)) (IV v_i_dst));
            SPtr v_pfirst (IC 0) (PAdd (PV v_pfirst (IC 0)) (ISub (IC 0) (IC 8)));
            SVec v_M (VLoad 32 0 (PV v_pfirst (IC 0)));
            SMask 8 (PV v_dst (IC 0)) (VV v_mask) (VV v_M);
            SPtr v_dst (IC 0) (PAdd (PV v_dst (IC 0)) (IV v_i_dst));
            SPtr v_pfirst (IC 0) (PAdd (PV v_pfirst (IC 0)) (ISub (IC 0) (IC 8)));
            SVec v_M (VLoad 32 0 (PV v_pfirst (IC 0)));
            SMask 8 (PV v_dst (IC 0)) (VV v_mask) (VV v_M);
            SPtr v_dst (IC 0) (PAdd (PV v_dst (IC 0)) (IV v_i_dst));
            SPtr v_pfirst (IC 0) (PAdd (PV v_pfirst (IC 0)) (ISub (IC 0) (IC 8)));
            SVec v_M (VLoad 32 0 (PV v_pfirst (IC 0)));
            SMask 8 (PV v_dst (IC 0)) (VV v_mask) (VV v_M);
            SPtr v_dst (IC 0) (PAdd (PV v_dst (IC 0)) (IV v_i_dst));
            SPtr v_pfirst (IC 0) (PAdd (PV v_pfirst (IC 0)) (ISub (IC 0) (IC 8)));
            SInt v_i (IAdd (IV v_i) (IC 4))]] []]]] [
    SCall k_ang_xy_23_sse128 (PV v_src (IC 0)) (PV v_dst (IC 0)) (IV v_i_dst) (IV v_bsx) (IV v_bsy);
    SRet]].
