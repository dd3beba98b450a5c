(** The predictors of vec/intrinsic_intra-pred.cc for upward left modes, as trees (see VpModel). *)
From Coq Require Import ZArith List.
From Verif Require Import VpModel VpModelA.
Import ListNotations.
Open Scope Z_scope.

(** vec/intrinsic_intra-pred.cc:5745-6756 [intra_pred_ang_xy_13_sse128] *)
Definition k_ang_xy_13_sse128 : list stm := [
  SVec v_zero (VConst [0;0;0;0;0;0;0;0;0;0;0;0;0;0;0;0]);
  SVec v_coeff2 (VSet1 2 8 (XC 2));
  SVec v_coeff3 (VSet1 2 8 (XC 3));
  SVec v_coeff4 (VSet1 2 8 (XC 4));
  SVec v_coeff5 (VSet1 2 8 (XC 5));
  SVec v_coeff7 (VSet1 2 8 (XC 7));
  SVec v_coeff8 (VSet1 2 8 (XC 8));
  SVec v_coeff9 (VSet1 2 8 (XC 9));
  SVec v_coeff11 (VSet1 2 8 (XC 11));
  SVec v_coeff13 (VSet1 2 8 (XC 13));
  SVec v_coeff15 (VSet1 2 8 (XC 15));
  SVec v_coeff16 (VSet1 2 8 (XC 16));
  SIf (ILt (IC 8) (IV v_bsy)) [
    SArr v_first_line (IShl (IAdd (IC 64) (IC 16)) (IC 3));
    SInt v_line_size (ISub (IAdd (IV v_bsx) (IShr (IV v_bsy) (IC 3))) (IC 1));
    SInt v_left_size (ISub (IV v_line_size) (IV v_bsx));
    SInt v_aligned_line_size (IShl (IShr (IAdd (IV v_line_size) (IC 15)) (IC 4)) (IC 4));
    SPtr v_pfirst (IC 0) (PV v_first_line (IC 0));
    SPtr v_pfirst (IC 1) (PAdd (PV v_pfirst (IC 0)) (IV v_aligned_line_size));
    SPtr v_pfirst (IC 2) (PAdd (PV v_pfirst (IC 1)) (IV v_aligned_line_size));
    SPtr v_pfirst (IC 3) (PAdd (PV v_pfirst (IC 2)) (IV v_aligned_line_size));
    SPtr v_pfirst (IC 4) (PAdd (PV v_pfirst (IC 3)) (IV v_aligned_line_size));
    SPtr v_pfirst (IC 5) (PAdd (PV v_pfirst (IC 4)) (IV v_aligned_line_size));
    SPtr v_pfirst (IC 6) (PAdd (PV v_pfirst (IC 5)) (IV v_aligned_line_size));
    SPtr v_pfirst (IC 7) (PAdd (PV v_pfirst (IC 6)) (IV v_aligned_line_size));
    SPtr v_src (IC 0) (PAdd (PV v_src (IC 0)) (ISub (IC 0) (ISub (IV v_bsy) (IC 8))));
    SInt v_i (IC 0);
    SLoop (ILt (IV v_i) (IV v_left_size)) [
      SPut (PAdd (PV v_pfirst (IC 0)) (IV v_i)) (XShr (XAdd (XAdd (XAdd (XLd (PAdd (PV v_src (IC 0)) (IC 6))) (XShl (XLd (PAdd (PV v_src (IC 0)) (IC 7))) 1)) (XLd (PAdd (PV v_src (IC 0)) (IC 8)))) (XC 2)) 2);
      SPut (PAdd (PV v_pfirst (IC 1)) (IV v_i)) (XShr (XAdd (XAdd (XAdd (XLd (PAdd (PV v_src (IC 0)) (IC 5))) (XShl (XLd (PAdd (PV v_src (IC 0)) (IC 6))) 1)) (XLd (PAdd (PV v_src (IC 0)) (IC 7)))) (XC 2)) 2);
      SPut (PAdd (PV v_pfirst (IC 2)) (IV v_i)) (XShr (XAdd (XAdd (XAdd (XLd (PAdd (PV v_src (IC 0)) (IC 4))) (XShl (XLd (PAdd (PV v_src (IC 0)) (IC 5))) 1)) (XLd (PAdd (PV v_src (IC 0)) (IC 6)))) (XC 2)) 2);
      SPut (PAdd (PV v_pfirst (IC 3)) (IV v_i)) (XShr (XAdd (XAdd (XAdd (XLd (PAdd (PV v_src (IC 0)) (IC 3))) (XShl (XLd (PAdd (PV v_src (IC 0)) (IC 4))) 1)) (XLd (PAdd (PV v_src (IC 0)) (IC 5)))) (XC 2)) 2);
      SPut (PAdd (PV v_pfirst (IC 4)) (IV v_i)) (XShr (XAdd (XAdd (XAdd (XLd (PAdd (PV v_src (IC 0)) (IC 2))) (XShl (XLd (PAdd (PV v_src (IC 0)) (IC 3))) 1)) (XLd (PAdd (PV v_src (IC 0)) (IC 4)))) (XC 2)) 2);
      SPut (PAdd (PV v_pfirst (IC 5)) (IV v_i)) (XShr (XAdd (XAdd (XAdd (XLd (PAdd (PV v_src (IC 0)) (IC 1))) (XShl (XLd (PAdd (PV v_src (IC 0)) (IC 2))) 1)) (XLd (PAdd (PV v_src (IC 0)) (IC 3)))) (XC 2)) 2);
      SPut (PAdd (PV v_pfirst (IC 6)) (IV v_i)) (XShr (XAdd (XAdd (XAdd (XLd (PV v_src (IC 0))) (XShl (XLd (PAdd (PV v_src (IC 0)) (IC 1))) 1)) (XLd (PAdd (PV v_src (IC 0)) (IC 2)))) (XC 2)) 2);
      SPut (PAdd (PV v_pfirst (IC 7)) (IV v_i)) (XShr (XAdd (XAdd (XAdd (XLd (PAdd (PV v_src (IC 0)) (IC (-1)))) (XShl (XLd (PV v_src (IC 0))) 1)) (XLd (PAdd (PV v_src (IC 0)) (IC 1)))) (XC 2)) 2);
      SInt v_i (IAdd (IV v_i) (IC 1));
      SPtr v_src (IC 0) (PAdd (PV v_src (IC 0)) (IC 8))];
    SLoop (ILt (IV v_i) (ISub (IV v_line_size) (IC 8))) [
      SVec v_S0 (VLoad 16 0 (PAdd (PV v_src (IC 0)) (IC 2)));
      SVec v_S1 (VLoad 16 0 (PAdd (PV v_src (IC 0)) (IC 1)));
      SVec v_S2 (VLoad 16 0 (PV v_src (IC 0)));
      SVec v_S3 (VLoad 16 0 (PAdd (PV v_src (IC 0)) (ISub (IC 0) (IC 1))));
      SVec v_L0 (VOp2 (UnpL 1) (VV v_S0) (VV v_zero));
      SVec v_L1 (VOp2 (UnpL 1) (VV v_S1) (VV v_zero));
      SVec v_L2 (VOp2 (UnpL 1) (VV v_S2) (VV v_zero));
      SVec v_L3 (VOp2 (UnpL 1) (VV v_S3) (VV v_zero));
      SVec v_H0 (VOp2 (UnpH 1) (VV v_S0) (VV v_zero));
      SVec v_H1 (VOp2 (UnpH 1) (VV v_S1) (VV v_zero));
      SVec v_H2 (VOp2 (UnpH 1) (VV v_S2) (VV v_zero));
      SVec v_H3 (VOp2 (UnpH 1) (VV v_S3) (VV v_zero));
      SVec v_p00 (VOp2 (Mul16) (VV v_L0) (VV v_coeff7));
      SVec v_p10 (VOp2 (Mul16) (VV v_L1) (VV v_coeff15));
      SVec v_p20 (VOp2 (Mul16) (VV v_L2) (VV v_coeff9));
      SVec v_p30 (VOp2 (Add16) (VV v_L3) (VV v_coeff16));
      SVec v_p00 (VOp2 (Add16) (VV v_p00) (VV v_p10));
      SVec v_p00 (VOp2 (Add16) (VV v_p00) (VV v_p20));
      SVec v_p00 (VOp2 (Add16) (VV v_p00) (VV v_p30));
      SVec v_p00 (VOp1 (Srl16 5) (VV v_p00));
      SVec v_p01 (VOp2 (Mul16) (VV v_H0) (VV v_coeff7));
      SVec v_p11 (VOp2 (Mul16) (VV v_H1) (VV v_coeff15));
      SVec v_p21 (VOp2 (Mul16) (VV v_H2) (VV v_coeff9));
      SVec v_p31 (VOp2 (Add16) (VV v_H3) (VV v_coeff16));
      SVec v_p01 (VOp2 (Add16) (VV v_p01) (VV v_p11));
      SVec v_p01 (VOp2 (Add16) (VV v_p01) (VV v_p21));
      SVec v_p01 (VOp2 (Add16) (VV v_p01) (VV v_p31));
      SVec v_p01 (VOp1 (Srl16 5) (VV v_p01));
      SVec v_p00 (VOp2 (Pack16) (VV v_p00) (VV v_p01));
      SStore 16 (PAdd (PV v_pfirst (IC 0)) (IV v_i)) (VV v_p00);
      SVec v_p00 (VOp2 (Mul16) (VV v_L0) (VV v_coeff3));
      SVec v_p10 (VOp2 (Mul16) (VV v_L1) (VV v_coeff7));
      SVec v_p20 (VOp2 (Mul16) (VV v_L2) (VV v_coeff5));
      SVec v_p30 (VOp2 (Add16) (VV v_L3) (VV v_coeff8));
      SVec v_p00 (VOp2 (Add16) (VV v_p00) (VV v_p10));
      SVec v_p00 (VOp2 (Add16) (VV v_p00) (VV v_p20));
      SVec v_p00 (VOp2 (Add16) (VV v_p00) (VV v_p30));
      SVec v_p00 (VOp1 (Srl16 4) (VV v_p00));
      SVec v_p01 (VOp2 (Mul16) (VV v_H0) (VV v_coeff3));
      SVec v_p11 (VOp2 (Mul16) (VV v_H1) (VV v_coeff7));
      SVec v_p21 (VOp2 (Mul16) (VV v_H2) (VV v_coeff5));
      SVec v_p31 (VOp2 (Add16) (VV v_H3) (VV v_coeff8));
      SVec v_p01 (VOp2 (Add16) (VV v_p01) (VV v_p11));
      SVec v_p01 (VOp2 (Add16) (VV v_p01) (VV v_p21));
      SVec v_p01 (VOp2 (Add16) (VV v_p01) (VV v_p31));
      SVec v_p01 (VOp1 (Srl16 4) (VV v_p01));
      SVec v_p00 (VOp2 (Pack16) (VV v_p00) (VV v_p01));
      SStore 16 (PAdd (PV v_pfirst (IC 1)) (IV v_i)) (VV v_p00);
      SVec v_p00 (VOp2 (Mul16) (VV v_L0) (VV v_coeff5));
      SVec v_p10 (VOp2 (Mul16) (VV v_L1) (VV v_coeff13));
      SVec v_p20 (VOp2 (Mul16) (VV v_L2) (VV v_coeff11));
      SVec v_p30 (VOp2 (Mul16) (VV v_L3) (VV v_coeff3));
      SVec v_p00 (VOp2 (Add16) (VV v_p00) (VV v_coeff16));
      SVec v_p00 (VOp2 (Add16) (VV v_p00) (VV v_p10));
      SVec v_p00 (VOp2 (Add16) (VV v_p00) (VV v_p20));
      SVec v_p00 (VOp2 (Add16) (VV v_p00) (VV v_p30));
      SVec v_p00 (VOp1 (Srl16 5) (VV v_p00));
      SVec v_p01 (VOp2 (Mul16) (VV v_H0) (VV v_coeff5));
      SVec v_p11 (VOp2 (Mul16) (VV v_H1) (VV v_coeff13));
      SVec v_p21 (VOp2 (Mul16) (VV v_H2) (VV v_coeff11));
      SVec v_p31 (VOp2 (Mul16) (VV v_H3) (VV v_coeff3));
      SVec v_p01 (VOp2 (Add16) (VV v_p01) (VV v_coeff16));
      SVec v_p01 (VOp2 (Add16) (VV v_p01) (VV v_p11));
      SVec v_p01 (VOp2 (Add16) (VV v_p01) (VV v_p21));
      SVec v_p01 (VOp2 (Add16) (VV v_p01) (VV v_p31));
      SVec v_p01 (VOp1 (Srl16 5) (VV v_p01));
      SVec v_p00 (VOp2 (Pack16) (VV v_p00) (VV v_p01));
      SStore 16 (PAdd (PV v_pfirst (IC 2)) (IV v_i)) (VV v_p00);
      SVec v_p00 (VOp2 (Add16) (VV v_L0) (VV v_L3));
      SVec v_p10 (VOp2 (Add16) (VV v_L1) (VV v_L2));
      SVec v_p10 (VOp2 (Mul16) (VV v_p10) (VV v_coeff3));
      SVec v_p00 (VOp2 (Add16) (VV v_p00) (VV v_p10));
      SVec v_p00 (VOp2 (Add16) (VV v_p00) (VV v_coeff4));
      SVec v_p00 (VOp1 (Srl16 3) (VV v_p00));
      SVec v_p01 (VOp2 (Add16) (VV v_H0) (VV v_H3));
      SVec v_p11 (VOp2 (Add16) (VV v_H1) (VV v_H2));
      SVec v_p11 (VOp2 (Mul16) (VV v_p11) (VV v_coeff3));
      SVec v_p01 (VOp2 (Add16) (VV v_p01) (VV v_p11));
      SVec v_p01 (VOp2 (Add16) (VV v_p01) (VV v_coeff4));
      SVec v_p01 (VOp1 (Srl16 3) (VV v_p01));
      SVec v_p00 (VOp2 (Pack16) (VV v_p00) (VV v_p01));
      SStore 16 (PAdd (PV v_pfirst (IC 3)) (IV v_i)) (VV v_p00);
      SVec v_p00 (VOp2 (Mul16) (VV v_L0) (VV v_coeff3));
      SVec v_p10 (VOp2 (Mul16) (VV v_L1) (VV v_coeff11));
      SVec v_p20 (VOp2 (Mul16) (VV v_L2) (VV v_coeff13));
      SVec v_p30 (VOp2 (Mul16) (VV v_L3) (VV v_coeff5));
      SVec v_p00 (VOp2 (Add16) (VV v_p00) (VV v_coeff16));
      SVec v_p00 (VOp2 (Add16) (VV v_p00) (VV v_p10));
      SVec v_p00 (VOp2 (Add16) (VV v_p00) (VV v_p20));
      SVec v_p00 (VOp2 (Add16) (VV v_p00) (VV v_p30));
      SVec v_p00 (VOp1 (Srl16 5) (VV v_p00));
      SVec v_p01 (VOp2 (Mul16) (VV v_H0) (VV v_coeff3));
      SVec v_p11 (VOp2 (Mul16) (VV v_H1) (VV v_coeff11));
      SVec v_p21 (VOp2 (Mul16) (VV v_H2) (VV v_coeff13));
      SVec v_p31 (VOp2 (Mul16) (VV v_H3) (VV v_coeff5));
      SVec v_p01 (VOp2 (Add16) (VV v_p01) (VV v_coeff16));
      SVec v_p01 (VOp2 (Add16) (VV v_p01) (VV v_p11));
      SVec v_p01 (VOp2 (Add16) (VV v_p01) (VV v_p21));
      SVec v_p01 (VOp2 (Add16) (VV v_p01) (VV v_p31));
      SVec v_p01 (VOp1 (Srl16 5) (VV v_p01));
      SVec v_p00 (VOp2 (Pack16) (VV v_p00) (VV v_p01));
      SStore 16 (PAdd (PV v_pfirst (IC 4)) (IV v_i)) (VV v_p00);
      SVec v_p10 (VOp2 (Mul16) (VV v_L1) (VV v_coeff5));
      SVec v_p20 (VOp2 (Mul16) (VV v_L2) (VV v_coeff7));
      SVec v_p30 (VOp2 (Mul16) (VV v_L3) (VV v_coeff3));
      SVec v_p00 (VOp2 (Add16) (VV v_L0) (VV v_coeff8));
      SVec v_p00 (VOp2 (Add16) (VV v_p00) (VV v_p10));
      SVec v_p00 (VOp2 (Add16) (VV v_p00) (VV v_p20));
      SVec v_p00 (VOp2 (Add16) (VV v_p00) (VV v_p30));
      SVec v_p00 (VOp1 (Srl16 4) (VV v_p00));
      SVec v_p11 (VOp2 (Mul16) (VV v_H1) (VV v_coeff5));
      SVec v_p21 (VOp2 (Mul16) (VV v_H2) (VV v_coeff7));
      SVec v_p31 (VOp2 (Mul16) (VV v_H3) (VV v_coeff3));
      SVec v_p01 (VOp2 (Add16) (VV v_H0) (VV v_coeff8));
      SVec v_p01 (VOp2 (Add16) (VV v_p01) (VV v_p11));
      SVec v_p01 (VOp2 (Add16) (VV v_p01) (VV v_p21));
      SVec v_p01 (VOp2 (Add16) (VV v_p01) (VV v_p31));
      SVec v_p01 (VOp1 (Srl16 4) (VV v_p01));
      SVec v_p00 (VOp2 (Pack16) (VV v_p00) (VV v_p01));
      SStore 16 (PAdd (PV v_pfirst (IC 5)) (IV v_i)) (VV v_p00);
      SVec v_p10 (VOp2 (Mul16) (VV v_L1) (VV v_coeff9));
      SVec v_p20 (VOp2 (Mul16) (VV v_L2) (VV v_coeff15));
      SVec v_p30 (VOp2 (Mul16) (VV v_L3) (VV v_coeff7));
      SVec v_p00 (VOp2 (Add16) (VV v_L0) (VV v_coeff16));
      SVec v_p00 (VOp2 (Add16) (VV v_p00) (VV v_p10));
      SVec v_p00 (VOp2 (Add16) (VV v_p00) (VV v_p20));
      SVec v_p00 (VOp2 (Add16) (VV v_p00) (VV v_p30));
      SVec v_p00 (VOp1 (Srl16 5) (VV v_p00));
      SVec v_p11 (VOp2 (Mul16) (VV v_H1) (VV v_coeff9));
      SVec v_p21 (VOp2 (Mul16) (VV v_H2) (VV v_coeff15));
      SVec v_p31 (VOp2 (Mul16) (VV v_H3) (VV v_coeff7));
      SVec v_p01 (VOp2 (Add16) (VV v_H0) (VV v_coeff16));
      SVec v_p01 (VOp2 (Add16) (VV v_p01) (VV v_p11));
      SVec v_p01 (VOp2 (Add16) (VV v_p01) (VV v_p21));
      SVec v_p01 (VOp2 (Add16) (VV v_p01) (VV v_p31));
      SVec v_p01 (VOp1 (Srl16 5) (VV v_p01));
      SVec v_p00 (VOp2 (Pack16) (VV v_p00) (VV v_p01));
      SStore 16 (PAdd (PV v_pfirst (IC 6)) (IV v_i)) (VV v_p00);
      SVec v_p10 (VOp2 (Mul16) (VV v_L2) (VV v_coeff2));
      SVec v_p00 (VOp2 (Add16) (VV v_L1) (VV v_L3));
      SVec v_p00 (VOp2 (Add16) (VV v_p00) (VV v_coeff2));
      SVec v_p00 (VOp2 (Add16) (VV v_p00) (VV v_p10));
      SVec v_p00 (VOp1 (Srl16 2) (VV v_p00));
      SVec v_p11 (VOp2 (Mul16) (VV v_H2) (VV v_coeff2));
      SVec v_p01 (VOp2 (Add16) (VV v_H1) (VV v_H3));
      SVec v_p01 (VOp2 (Add16) (VV v_p01) (VV v_coeff2));
      SVec v_p01 (VOp2 (Add16) (VV v_p01) (VV v_p11));
      SVec v_p01 (VOp1 (Srl16 2) (VV v_p01));
      SVec v_p00 (VOp2 (Pack16) (VV v_p00) (VV v_p01));
      SStore 16 (PAdd (PV v_pfirst (IC 7)) (IV v_i)) (VV v_p00);
      SInt v_i (IAdd (IV v_i) (IC 16));
      SPtr v_src (IC 0) (PAdd (PV v_src (IC 0)) (IC 16))];
    SIf (ILt (IV v_i) (IV v_line_size)) [
      SVec v_S0 (VLoad 16 0 (PAdd (PV v_src (IC 0)) (IC 2)));
      SVec v_S1 (VLoad 16 0 (PAdd (PV v_src (IC 0)) (IC 1)));
      SVec v_S2 (VLoad 16 0 (PV v_src (IC 0)));
      SVec v_S3 (VLoad 16 0 (PAdd (PV v_src (IC 0)) (ISub (IC 0) (IC 1))));
      SVec v_L0 (VOp2 (UnpL 1) (VV v_S0) (VV v_zero));
      SVec v_L1 (VOp2 (UnpL 1) (VV v_S1) (VV v_zero));
      SVec v_L2 (VOp2 (UnpL 1) (VV v_S2) (VV v_zero));
      SVec v_L3 (VOp2 (UnpL 1) (VV v_S3) (VV v_zero));
      SVec v_p00 (VOp2 (Mul16) (VV v_L0) (VV v_coeff7));
      SVec v_p10 (VOp2 (Mul16) (VV v_L1) (VV v_coeff15));
      SVec v_p20 (VOp2 (Mul16) (VV v_L2) (VV v_coeff9));
      SVec v_p30 (VOp2 (Add16) (VV v_L3) (VV v_coeff16));
      SVec v_p00 (VOp2 (Add16) (VV v_p00) (VV v_p10));
      SVec v_p00 (VOp2 (Add16) (VV v_p00) (VV v_p20));
      SVec v_p00 (VOp2 (Add16) (VV v_p00) (VV v_p30));
      SVec v_p00 (VOp1 (Srl16 5) (VV v_p00));
      SVec v_p00 (VOp2 (Pack16) (VV v_p00) (VV v_p00));
      SStore 8 (PAdd (PV v_pfirst (IC 0)) (IV v_i)) (VV v_p00);
      SVec v_p00 (VOp2 (Mul16) (VV v_L0) (VV v_coeff3));
      SVec v_p10 (VOp2 (Mul16) (VV v_L1) (VV v_coeff7));
      SVec v_p20 (VOp2 (Mul16) (VV v_L2) (VV v_coeff5));
      SVec v_p30 (VOp2 (Add16) (VV v_L3) (VV v_coeff8));
      SVec v_p00 (VOp2 (Add16) (VV v_p00) (VV v_p10));
      SVec v_p00 (VOp2 (Add16) (VV v_p00) (VV v_p20));
      SVec v_p00 (VOp2 (Add16) (VV v_p00) (VV v_p30));
      SVec v_p00 (VOp1 (Srl16 4) (VV v_p00));
      SVec v_p00 (VOp2 (Pack16) (VV v_p00) (VV v_p00));
      SStore 8 (PAdd (PV v_pfirst (IC 1)) (IV v_i)) (VV v_p00);
      SVec v_p00 (VOp2 (Mul16) (VV v_L0) (VV v_coeff5));
      SVec v_p10 (VOp2 (Mul16) (VV v_L1) (VV v_coeff13));
      SVec v_p20 (VOp2 (Mul16) (VV v_L2) (VV v_coeff11));
      SVec v_p30 (VOp2 (Mul16) (VV v_L3) (VV v_coeff3));
      SVec v_p00 (VOp2 (Add16) (VV v_p00) (VV v_coeff16));
      SVec v_p00 (VOp2 (Add16) (VV v_p00) (VV v_p10));
      SVec v_p00 (VOp2 (Add16) (VV v_p00) (VV v_p20));
      SVec v_p00 (VOp2 (Add16) (VV v_p00) (VV v_p30));
      SVec v_p00 (VOp1 (Srl16 5) (VV v_p00));
      SVec v_p00 (VOp2 (Pack16) (VV v_p00) (VV v_p00));
      SStore 8 (PAdd (PV v_pfirst (IC 2)) (IV v_i)) (VV v_p00);
      SVec v_p00 (VOp2 (Add16) (VV v_L0) (VV v_L3));
      SVec v_p10 (VOp2 (Add16) (VV v_L1) (VV v_L2));
      SVec v_p10 (VOp2 (Mul16) (VV v_p10) (VV v_coeff3));
      SVec v_p00 (VOp2 (Add16) (VV v_p00) (VV v_p10));
      SVec v_p00 (VOp2 (Add16) (VV v_p00) (VV v_coeff4));
      SVec v_p00 (VOp1 (Srl16 3) (VV v_p00));
      SVec v_p00 (VOp2 (Pack16) (VV v_p00) (VV v_p00));
      SStore 8 (PAdd (PV v_pfirst (IC 3)) (IV v_i)) (VV v_p00);
      SVec v_p00 (VOp2 (Mul16) (VV v_L0) (VV v_coeff3));
      SVec v_p10 (VOp2 (Mul16) (VV v_L1) (VV v_coeff11));
      SVec v_p20 (VOp2 (Mul16) (VV v_L2) (VV v_coeff13));
      SVec v_p30 (VOp2 (Mul16) (VV v_L3) (VV v_coeff5));
      SVec v_p00 (VOp2 (Add16) (VV v_p00) (VV v_coeff16));
      SVec v_p00 (VOp2 (Add16) (VV v_p00) (VV v_p10));
      SVec v_p00 (VOp2 (Add16) (VV v_p00) (VV v_p20));
      SVec v_p00 (VOp2 (Add16) (VV v_p00) (VV v_p30));
      SVec v_p00 (VOp1 (Srl16 5) (VV v_p00));
      SVec v_p00 (VOp2 (Pack16) (VV v_p00) (VV v_p00));
      SStore 8 (PAdd (PV v_pfirst (IC 4)) (IV v_i)) (VV v_p00);
      SVec v_p10 (VOp2 (Mul16) (VV v_L1) (VV v_coeff5));
      SVec v_p20 (VOp2 (Mul16) (VV v_L2) (VV v_coeff7));
      SVec v_p30 (VOp2 (Mul16) (VV v_L3) (VV v_coeff3));
      SVec v_p00 (VOp2 (Add16) (VV v_L0) (VV v_coeff8));
      SVec v_p00 (VOp2 (Add16) (VV v_p00) (VV v_p10));
      SVec v_p00 (VOp2 (Add16) (VV v_p00) (VV v_p20));
      SVec v_p00 (VOp2 (Add16) (VV v_p00) (VV v_p30));
      SVec v_p00 (VOp1 (Srl16 4) (VV v_p00));
      SVec v_p00 (VOp2 (Pack16) (VV v_p00) (VV v_p00));
      SStore 8 (PAdd (PV v_pfirst (IC 5)) (IV v_i)) (VV v_p00);
      SVec v_p10 (VOp2 (Mul16) (VV v_L1) (VV v_coeff9));
      SVec v_p20 (VOp2 (Mul16) (VV v_L2) (VV v_coeff15));
      SVec v_p30 (VOp2 (Mul16) (VV v_L3) (VV v_coeff7));
      SVec v_p00 (VOp2 (Add16) (VV v_L0) (VV v_coeff16));
      SVec v_p00 (VOp2 (Add16) (VV v_p00) (VV v_p10));
      SVec v_p00 (VOp2 (Add16) (VV v_p00) (VV v_p20));
      SVec v_p00 (VOp2 (Add16) (VV v_p00) (VV v_p30));
      SVec v_p00 (VOp1 (Srl16 5) (VV v_p00));
      SVec v_p00 (VOp2 (Pack16) (VV v_p00) (VV v_p00));
      SStore 8 (PAdd (PV v_pfirst (IC 6)) (IV v_i)) (VV v_p00);
      SVec v_p10 (VOp2 (Mul16) (VV v_L2) (VV v_coeff2));
      SVec v_p00 (VOp2 (Add16) (VV v_L1) (VV v_L3));
      SVec v_p00 (VOp2 (Add16) (VV v_p00) (VV v_coeff2));
      SVec v_p00 (VOp2 (Add16) (VV v_p00) (VV v_p10));
      SVec v_p00 (VOp1 (Srl16 2) (VV v_p00));
      SVec v_p00 (VOp2 (Pack16) (VV v_p00) (VV v_p00));
      SStore 8 (PAdd (PV v_pfirst (IC 7)) (IV v_i)) (VV v_p00)] [];
    SPtr v_pfirst (IC 0) (PAdd (PV v_pfirst (IC 0)) (IV v_left_size));
    SPtr v_pfirst (IC 1) (PAdd (PV v_pfirst (IC 1)) (IV v_left_size));
    SPtr v_pfirst (IC 2) (PAdd (PV v_pfirst (IC 2)) (IV v_left_size));
    SPtr v_pfirst (IC 3) (PAdd (PV v_pfirst (IC 3)) (IV v_left_size));
    SPtr v_pfirst (IC 4) (PAdd (PV v_pfirst (IC 4)) (IV v_left_size));
    SPtr v_pfirst (IC 5) (PAdd (PV v_pfirst (IC 5)) (IV v_left_size));
    SPtr v_pfirst (IC 6) (PAdd (PV v_pfirst (IC 6)) (IV v_left_size));
    SPtr v_pfirst (IC 7) (PAdd (PV v_pfirst (IC 7)) (IV v_left_size));
    SInt v_bsy (IShr (IV v_bsy) (IC 3));
    SInt v_i (IC 0);
    SLoop (ILt (IV v_i) (IV v_bsy)) [
      SCopy (IV v_bsx) (PV v_dst (IC 0)) (PAdd (PV v_pfirst (IC 0)) (ISub (IC 0) (IV v_i)));
      SPtr v_dst (IC 0) (PAdd (PV v_dst (IC 0)) (IV v_i_dst));
      SCopy (IV v_bsx) (PV v_dst (IC 0)) (PAdd (PV v_pfirst (IC 1)) (ISub (IC 0) (IV v_i)));
      SPtr v_dst (IC 0) (PAdd (PV v_dst (IC 0)) (IV v_i_dst));
      SCopy (IV v_bsx) (PV v_dst (IC 0)) (PAdd (PV v_pfirst (IC 2)) (ISub (IC 0) (IV v_i)));
      SPtr v_dst (IC 0) (PAdd (PV v_dst (IC 0)) (IV v_i_dst));
      SCopy (IV v_bsx) (PV v_dst (IC 0)) (PAdd (PV v_pfirst (IC 3)) (ISub (IC 0) (IV v_i)));
      SPtr v_dst (IC 0) (PAdd (PV v_dst (IC 0)) (IV v_i_dst));
      SCopy (IV v_bsx) (PV v_dst (IC 0)) (PAdd (PV v_pfirst (IC 4)) (ISub (IC 0) (IV v_i)));
      SPtr v_dst (IC 0) (PAdd (PV v_dst (IC 0)) (IV v_i_dst));
      SCopy (IV v_bsx) (PV v_dst (IC 0)) (PAdd (PV v_pfirst (IC 5)) (ISub (IC 0) (IV v_i)));
      SPtr v_dst (IC 0) (PAdd (PV v_dst (IC 0)) (IV v_i_dst));
      SCopy (IV v_bsx) (PV v_dst (IC 0)) (PAdd (PV v_pfirst (IC 6)) (ISub (IC 0) (IV v_i)));
      SPtr v_dst (IC 0) (PAdd (PV v_dst (IC 0)) (IV v_i_dst));
      SCopy (IV v_bsx) (PV v_dst (IC 0)) (PAdd (PV v_pfirst (IC 7)) (ISub (IC 0) (IV v_i)));
      SPtr v_dst (IC 0) (PAdd (PV v_dst (IC 0)) (IV v_i_dst));
      SInt v_i (IAdd (IV v_i) (IC 1))]] [
    SIf (IEq (IV v_bsy) (IC 8)) [
      SPtr v_dst1 (IC 0) (PV v_dst (IC 0));
      SPtr v_dst2 (IC 0) (PAdd (PV v_dst1 (IC 0)) (IV v_i_dst));
      SPtr v_dst3 (IC 0) (PAdd (PV v_dst2 (IC 0)) (IV v_i_dst));
      SPtr v_dst4 (IC 0) (PAdd (PV v_dst3 (IC 0)) (IV v_i_dst));
      SPtr v_dst5 (IC 0) (PAdd (PV v_dst4 (IC 0)) (IV v_i_dst));
      SPtr v_dst6 (IC 0) (PAdd (PV v_dst5 (IC 0)) (IV v_i_dst));
      SPtr v_dst7 (IC 0) (PAdd (PV v_dst6 (IC 0)) (IV v_i_dst));
      SPtr v_dst8 (IC 0) (PAdd (PV v_dst7 (IC 0)) (IV v_i_dst));
      SIf (IEq (IV v_bsx) (IC 32)) [
        SVec v_S0 (VLoad 16 0 (PAdd (PV v_src (IC 0)) (IC 2)));
        SVec v_S1 (VLoad 16 0 (PAdd (PV v_src (IC 0)) (IC 1)));
        SVec v_S2 (VLoad 16 0 (PV v_src (IC 0)));
        SVec v_S3 (VLoad 16 0 (PAdd (PV v_src (IC 0)) (ISub (IC 0) (IC 1))));
        SVec v_L0 (VOp2 (UnpL 1) (VV v_S0) (VV v_zero));
        SVec v_L1 (VOp2 (UnpL 1) (VV v_S1) (VV v_zero));
        SVec v_L2 (VOp2 (UnpL 1) (VV v_S2) (VV v_zero));
        SVec v_L3 (VOp2 (UnpL 1) (VV v_S3) (VV v_zero));
        SVec v_H0 (VOp2 (UnpH 1) (VV v_S0) (VV v_zero));
        SVec v_H1 (VOp2 (UnpH 1) (VV v_S1) (VV v_zero));
        SVec v_H2 (VOp2 (UnpH 1) (VV v_S2) (VV v_zero));
        SVec v_H3 (VOp2 (UnpH 1) (VV v_S3) (VV v_zero));
        SVec v_p00 (VOp2 (Mul16) (VV v_L0) (VV v_coeff7));
        SVec v_p10 (VOp2 (Mul16) (VV v_L1) (VV v_coeff15));
        SVec v_p20 (VOp2 (Mul16) (VV v_L2) (VV v_coeff9));
        SVec v_p30 (VOp2 (Add16) (VV v_L3) (VV v_coeff16));
        SVec v_p00 (VOp2 (Add16) (VV v_p00) (VV v_p10));
        SVec v_p00 (VOp2 (Add16) (VV v_p00) (VV v_p20));
        SVec v_p00 (VOp2 (Add16) (VV v_p00) (VV v_p30));
        SVec v_p00 (VOp1 (Srl16 5) (VV v_p00));
        SVec v_p01 (VOp2 (Mul16) (VV v_H0) (VV v_coeff7));
        SVec v_p11 (VOp2 (Mul16) (VV v_H1) (VV v_coeff15));
        SVec v_p21 (VOp2 (Mul16) (VV v_H2) (VV v_coeff9));
        SVec v_p31 (VOp2 (Add16) (VV v_H3) (VV v_coeff16));
        SVec v_p01 (VOp2 (Add16) (VV v_p01) (VV v_p11));
        SVec v_p01 (VOp2 (Add16) (VV v_p01) (VV v_p21));
        SVec v_p01 (VOp2 (Add16) (VV v_p01) (VV v_p31));
        SVec v_p01 (VOp1 (Srl16 5) (VV v_p01));
        SVec v_p00 (VOp2 (Pack16) (VV v_p00) (VV v_p01));
        SStore 16 (PV v_dst1 (IC 0)) (VV v_p00);
        SVec v_p00 (VOp2 (Mul16) (VV v_L0) (VV v_coeff3));
        SVec v_p10 (VOp2 (Mul16) (VV v_L1) (VV v_coeff7));
        SVec v_p20 (VOp2 (Mul16) (VV v_L2) (VV v_coeff5));
        SVec v_p30 (VOp2 (Add16) (VV v_L3) (VV v_coeff8));
        SVec v_p00 (VOp2 (Add16) (VV v_p00) (VV v_p10));
        SVec v_p00 (VOp2 (Add16) (VV v_p00) (VV v_p20));
        SVec v_p00 (VOp2 (Add16) (VV v_p00) (VV v_p30));
        SVec v_p00 (VOp1 (Srl16 4) (VV v_p00));
        SVec v_p01 (VOp2 (Mul16) (VV v_H0) (VV v_coeff3));
        SVec v_p11 (VOp2 (Mul16) (VV v_H1) (VV v_coeff7));
        SVec v_p21 (VOp2 (Mul16) (VV v_H2) (VV v_coeff5));
        SVec v_p31 (VOp2 (Add16) (VV v_H3) (VV v_coeff8));
        SVec v_p01 (VOp2 (Add16) (VV v_p01) (VV v_p11));
        SVec v_p01 (VOp2 (Add16) (VV v_p01) (VV v_p21));
        SVec v_p01 (VOp2 (Add16) (VV v_p01) (VV v_p31));
        SVec v_p01 (VOp1 (Srl16 4) (VV v_p01));
        SVec v_p00 (VOp2 (Pack16) (VV v_p00) (VV v_p01));
        SStore 16 (PV v_dst2 (IC 0)) (VV v_p00);
        SVec v_p00 (VOp2 (Mul16) (VV v_L0) (VV v_coeff5));
        SVec v_p10 (VOp2 (Mul16) (VV v_L1) (VV v_coeff13));
        SVec v_p20 (VOp2 (Mul16) (VV v_L2) (VV v_coeff11));
        SVec v_p30 (VOp2 (Mul16) (VV v_L3) (VV v_coeff3));
        SVec v_p00 (VOp2 (Add16) (VV v_p00) (VV v_coeff16));
        SVec v_p00 (VOp2 (Add16) (VV v_p00) (VV v_p10));
        SVec v_p00 (VOp2 (Add16) (VV v_p00) (VV v_p20));
        SVec v_p00 (VOp2 (Add16) (VV v_p00) (VV v_p30));
        SVec v_p00 (VOp1 (Srl16 5) (VV v_p00));
        SVec v_p01 (VOp2 (Mul16) (VV v_H0) (VV v_coeff5));
        SVec v_p11 (VOp2 (Mul16) (VV v_H1) (VV v_coeff13));
        SVec v_p21 (VOp2 (Mul16) (VV v_H2) (VV v_coeff11));
        SVec v_p31 (VOp2 (Mul16) (VV v_H3) (VV v_coeff3));
        SVec v_p01 (VOp2 (Add16) (VV v_p01) (VV v_coeff16));
        SVec v_p01 (VOp2 (Add16) (VV v_p01) (VV v_p11));
        SVec v_p01 (VOp2 (Add16) (VV v_p01) (VV v_p21));
        SVec v_p01 (VOp2 (Add16) (VV v_p01) (VV v_p31));
        SVec v_p01 (VOp1 (Srl16 5) (VV v_p01));
        SVec v_p00 (VOp2 (Pack16) (VV v_p00) (VV v_p01));
        SStore 16 (PV v_dst3 (IC 0)) (VV v_p00);
        SVec v_p00 (VOp2 (Add16) (VV v_L0) (VV v_L3));
        SVec v_p10 (VOp2 (Add16) (VV v_L1) (VV v_L2));
        SVec v_p10 (VOp2 (Mul16) (VV v_p10) (VV v_coeff3));
        SVec v_p00 (VOp2 (Add16) (VV v_p00) (VV v_p10));
        SVec v_p00 (VOp2 (Add16) (VV v_p00) (VV v_coeff4));
        SVec v_p00 (VOp1 (Srl16 3) (VV v_p00));
        SVec v_p01 (VOp2 (Add16) (VV v_H0) (VV v_H3));
        SVec v_p11 (VOp2 (Add16) (VV v_H1) (VV v_H2));
        SVec v_p11 (VOp2 (Mul16) (VV v_p11) (VV v_coeff3));
        SVec v_p01 (VOp2 (Add16) (VV v_p01) (VV v_p11));
        SVec v_p01 (VOp2 (Add16) (VV v_p01) (VV v_coeff4));
        SVec v_p01 (VOp1 (Srl16 3) (VV v_p01));
        SVec v_p00 (VOp2 (Pack16) (VV v_p00) (VV v_p01));
        SStore 16 (PV v_dst4 (IC 0)) (VV v_p00);
        SVec v_p00 (VOp2 (Mul16) (VV v_L0) (VV v_coeff3));
        SVec v_p10 (VOp2 (Mul16) (VV v_L1) (VV v_coeff11));
        SVec v_p20 (VOp2 (Mul16) (VV v_L2) (VV v_coeff13));
        SVec v_p30 (VOp2 (Mul16) (VV v_L3) (VV v_coeff5));
        SVec v_p00 (VOp2 (Add16) (VV v_p00) (VV v_coeff16));
        SVec v_p00 (VOp2 (Add16) (VV v_p00) (VV v_p10));
        SVec v_p00 (VOp2 (Add16) (VV v_p00) (VV v_p20));
        SVec v_p00 (VOp2 (Add16) (VV v_p00) (VV v_p30));
        SVec v_p00 (VOp1 (Srl16 5) (VV v_p00));
        SVec v_p01 (VOp2 (Mul16) (VV v_H0) (VV v_coeff3));
        SVec v_p11 (VOp2 (Mul16) (VV v_H1) (VV v_coeff11));
        SVec v_p21 (VOp2 (Mul16) (VV v_H2) (VV v_coeff13));
        SVec v_p31 (VOp2 (Mul16) (VV v_H3) (VV v_coeff5));
        SVec v_p01 (VOp2 (Add16) (VV v_p01) (VV v_coeff16));
        SVec v_p01 (VOp2 (Add16) (VV v_p01) (VV v_p11));
        SVec v_p01 (VOp2 (Add16) (VV v_p01) (VV v_p21));
        SVec v_p01 (VOp2 (Add16) (VV v_p01) (VV v_p31));
        SVec v_p01 (VOp1 (Srl16 5) (VV v_p01));
        SVec v_p00 (VOp2 (Pack16) (VV v_p00) (VV v_p01));
        SStore 16 (PV v_dst5 (IC 0)) (VV v_p00);
        SVec v_p10 (VOp2 (Mul16) (VV v_L1) (VV v_coeff5));
        SVec v_p20 (VOp2 (Mul16) (VV v_L2) (VV v_coeff7));
        SVec v_p30 (VOp2 (Mul16) (VV v_L3) (VV v_coeff3));
        SVec v_p00 (VOp2 (Add16) (VV v_L0) (VV v_coeff8));
        SVec v_p00 (VOp2 (Add16) (VV v_p00) (VV v_p10));
        SVec v_p00 (VOp2 (Add16) (VV v_p00) (VV v_p20));
        SVec v_p00 (VOp2 (Add16) (VV v_p00) (VV v_p30));
        SVec v_p00 (VOp1 (Srl16 4) (VV v_p00));
        SVec v_p11 (VOp2 (Mul16) (VV v_H1) (VV v_coeff5));
        SVec v_p21 (VOp2 (Mul16) (VV v_H2) (VV v_coeff7));
        SVec v_p31 (VOp2 (Mul16) (VV v_H3) (VV v_coeff3));
        SVec v_p01 (VOp2 (Add16) (VV v_H0) (VV v_coeff8));
        SVec v_p01 (VOp2 (Add16) (VV v_p01) (VV v_p11));
        SVec v_p01 (VOp2 (Add16) (VV v_p01) (VV v_p21));
        SVec v_p01 (VOp2 (Add16) (VV v_p01) (VV v_p31));
        SVec v_p01 (VOp1 (Srl16 4) (VV v_p01));
        SVec v_p00 (VOp2 (Pack16) (VV v_p00) (VV v_p01));
        SStore 16 (PV v_dst6 (IC 0)) (VV v_p00);
        SVec v_p10 (VOp2 (Mul16) (VV v_L1) (VV v_coeff9));
        SVec v_p20 (VOp2 (Mul16) (VV v_L2) (VV v_coeff15));
        SVec v_p30 (VOp2 (Mul16) (VV v_L3) (VV v_coeff7));
        SVec v_p00 (VOp2 (Add16) (VV v_L0) (VV v_coeff16));
        SVec v_p00 (VOp2 (Add16) (VV v_p00) (VV v_p10));
        SVec v_p00 (VOp2 (Add16) (VV v_p00) (VV v_p20));
        SVec v_p00 (VOp2 (Add16) (VV v_p00) (VV v_p30));
        SVec v_p00 (VOp1 (Srl16 5) (VV v_p00));
        SVec v_p11 (VOp2 (Mul16) (VV v_H1) (VV v_coeff9));
        SVec v_p21 (VOp2 (Mul16) (VV v_H2) (VV v_coeff15));
        SVec v_p31 (VOp2 (Mul16) (VV v_H3) (VV v_coeff7));
        SVec v_p01 (VOp2 (Add16) (VV v_H0) (VV v_coeff16));
        SVec v_p01 (VOp2 (Add16) (VV v_p01) (VV v_p11));
        SVec v_p01 (VOp2 (Add16) (VV v_p01) (VV v_p21));
        SVec v_p01 (VOp2 (Add16) (VV v_p01) (VV v_p31));
        SVec v_p01 (VOp1 (Srl16 5) (VV v_p01));
        SVec v_p00 (VOp2 (Pack16) (VV v_p00) (VV v_p01));
        SStore 16 (PV v_dst7 (IC 0)) (VV v_p00);
        SVec v_p10 (VOp2 (Mul16) (VV v_L2) (VV v_coeff2));
        SVec v_p00 (VOp2 (Add16) (VV v_L1) (VV v_L3));
        SVec v_p00 (VOp2 (Add16) (VV v_p00) (VV v_coeff2));
        SVec v_p00 (VOp2 (Add16) (VV v_p00) (VV v_p10));
        SVec v_p00 (VOp1 (Srl16 2) (VV v_p00));
        SVec v_p11 (VOp2 (Mul16) (VV v_H2) (VV v_coeff2));
        SVec v_p01 (VOp2 (Add16) (VV v_H1) (VV v_H3));
        SVec v_p01 (VOp2 (Add16) (VV v_p01) (VV v_coeff2));
        SVec v_p01 (VOp2 (Add16) (VV v_p01) (VV v_p11));
        SVec v_p01 (VOp1 (Srl16 2) (VV v_p01));
        SVec v_p00 (VOp2 (Pack16) (VV v_p00) (VV v_p01));
        SStore 16 (PV v_dst8 (IC 0)) (VV v_p00);
        SPtr v_src (IC 0) (PAdd (PV v_src (IC 0)) (IC 16));
        SPtr v_dst1 (IC 0) (PAdd (PV v_dst1 (IC 0)) (IC 16));
        SPtr v_dst2 (IC 0) (PAdd (PV v_dst2 (IC 0)) (IC 16));
        SPtr v_dst3 (IC 0) (PAdd (PV v_dst3 (IC 0)) (IC 16));
        SPtr v_dst4 (IC 0) (PAdd (PV v_dst4 (IC 0)) (IC 16));
        SPtr v_dst5 (IC 0) (PAdd (PV v_dst5 (IC 0)) (IC 16));
        SPtr v_dst6 (IC 0) (PAdd (PV v_dst6 (IC 0)) (IC 16));
        SPtr v_dst7 (IC 0) (PAdd (PV v_dst7 (IC 0)) (IC 16));
        SPtr v_dst8 (IC 0) (PAdd (PV v_dst8 (IC 0)) (IC 16));
        SVec v_S0 (VLoad 16 0 (PAdd (PV v_src (IC 0)) (IC 2)));
        SVec v_S1 (VLoad 16 0 (PAdd (PV v_src (IC 0)) (IC 1)));
        SVec v_S2 (VLoad 16 0 (PV v_src (IC 0)));
        SVec v_S3 (VLoad 16 0 (PAdd (PV v_src (IC 0)) (ISub (IC 0) (IC 1))));
        SVec v_L0 (VOp2 (UnpL 1) (VV v_S0) (VV v_zero));
        SVec v_L1 (VOp2 (UnpL 1) (VV v_S1) (VV v_zero));
        SVec v_L2 (VOp2 (UnpL 1) (VV v_S2) (VV v_zero));
        SVec v_L3 (VOp2 (UnpL 1) (VV v_S3) (VV v_zero));
        SVec v_H0 (VOp2 (UnpH 1) (VV v_S0) (VV v_zero));
        SVec v_H1 (VOp2 (UnpH 1) (VV v_S1) (VV v_zero));
        SVec v_H2 (VOp2 (UnpH 1) (VV v_S2) (VV v_zero));
        SVec v_H3 (VOp2 (UnpH 1) (VV v_S3) (VV v_zero));
        SVec v_p00 (VOp2 (Mul16) (VV v_L0) (VV v_coeff7));
        SVec v_p10 (VOp2 (Mul16) (VV v_L1) (VV v_coeff15));
        SVec v_p20 (VOp2 (Mul16) (VV v_L2) (VV v_coeff9));
        SVec v_p30 (VOp2 (Add16) (VV v_L3) (VV v_coeff16));
        SVec v_p00 (VOp2 (Add16) (VV v_p00) (VV v_p10));
        SVec v_p00 (VOp2 (Add16) (VV v_p00) (VV v_p20));
        SVec v_p00 (VOp2 (Add16) (VV v_p00) (VV v_p30));
        SVec v_p00 (VOp1 (Srl16 5) (VV v_p00));
        SVec v_p01 (VOp2 (Mul16) (VV v_H0) (VV v_coeff7));
        SVec v_p11 (VOp2 (Mul16) (VV v_H1) (VV v_coeff15));
        SVec v_p21 (VOp2 (Mul16) (VV v_H2) (VV v_coeff9));
        SVec v_p31 (VOp2 (Add16) (VV v_H3) (VV v_coeff16));
        SVec v_p01 (VOp2 (Add16) (VV v_p01) (VV v_p11));
        SVec v_p01 (VOp2 (Add16) (VV v_p01) (VV v_p21));
        SVec v_p01 (VOp2 (Add16) (VV v_p01) (VV v_p31));
        SVec v_p01 (VOp1 (Srl16 5) (VV v_p01));
        SVec v_p00 (VOp2 (Pack16) (VV v_p00) (VV v_p01));
        SStore 16 (PV v_dst1 (IC 0)) (VV v_p00);
        SVec v_p00 (VOp2 (Mul16) (VV v_L0) (VV v_coeff3));
        SVec v_p10 (VOp2 (Mul16) (VV v_L1) (VV v_coeff7));
        SVec v_p20 (VOp2 (Mul16) (VV v_L2) (VV v_coeff5));
        SVec v_p30 (VOp2 (Add16) (VV v_L3) (VV v_coeff8));
        SVec v_p00 (VOp2 (Add16) (VV v_p00) (VV v_p10));
        SVec v_p00 (VOp2 (Add16) (VV v_p00) (VV v_p20));
        SVec v_p00 (VOp2 (Add16) (VV v_p00) (VV v_p30));
        SVec v_p00 (VOp1 (Srl16 4) (VV v_p00));
        SVec v_p01 (VOp2 (Mul16) (VV v_H0) (VV v_coeff3));
        SVec v_p11 (VOp2 (Mul16) (VV v_H1) (VV v_coeff7));
        SVec v_p21 (VOp2 (Mul16) (VV v_H2) (VV v_coeff5));
        SVec v_p31 (VOp2 (Add16) (VV v_H3) (VV v_coeff8));
        SVec v_p01 (VOp2 (Add16) (VV v_p01) (VV v_p11));
        SVec v_p01 (VOp2 (Add16) (VV v_p01) (VV v_p21));
        SVec v_p01 (VOp2 (Add16) (VV v_p01) (VV v_p31));
        SVec v_p01 (VOp1 (Srl16 4) (VV v_p01));
        SVec v_p00 (VOp2 (Pack16) (VV v_p00) (VV v_p01));
        SStore 16 (PV v_dst2 (IC 0)) (VV v_p00);
        SVec v_p00 (VOp2 (Mul16) (VV v_L0) (VV v_coeff5));
        SVec v_p10 (VOp2 (Mul16) (VV v_L1) (VV v_coeff13));
        SVec v_p20 (VOp2 (Mul16) (VV v_L2) (VV v_coeff11));
        SVec v_p30 (VOp2 (Mul16) (VV v_L3) (VV v_coeff3));
        SVec v_p00 (VOp2 (Add16) (VV v_p00) (VV v_coeff16));
        SVec v_p00 (VOp2 (Add16) (VV v_p00) (VV v_p10));
        SVec v_p00 (VOp2 (Add16) (VV v_p00) (VV v_p20));
        SVec v_p00 (VOp2 (Add16) (VV v_p00) (VV v_p30));
        SVec v_p00 (VOp1 (Srl16 5) (VV v_p00));
        SVec v_p01 (VOp2 (Mul16) (VV v_H0) (VV v_coeff5));
        SVec v_p11 (VOp2 (Mul16) (VV v_H1) (VV v_coeff13));
        SVec v_p21 (VOp2 (Mul16) (VV v_H2) (VV v_coeff11));
        SVec v_p31 (VOp2 (Mul16) (VV v_H3) (VV v_coeff3));
        SVec v_p01 (VOp2 (Add16) (VV v_p01) (VV v_coeff16));
        SVec v_p01 (VOp2 (Add16) (VV v_p01) (VV v_p11));
        SVec v_p01 (VOp2 (Add16) (VV v_p01) (VV v_p21));
        SVec v_p01 (VOp2 (Add16) (VV v_p01) (VV v_p31));
        SVec v_p01 (VOp1 (Srl16 5) (VV v_p01));
        SVec v_p00 (VOp2 (Pack16) (VV v_p00) (VV v_p01));
        SStore 16 (PV v_dst3 (IC 0)) (VV v_p00);
        SVec v_p00 (VOp2 (Add16) (VV v_L0) (VV v_L3));
        SVec v_p10 (VOp2 (Add16) (VV v_L1) (VV v_L2));
        SVec v_p10 (VOp2 (Mul16) (VV v_p10) (VV v_coeff3));
        SVec v_p00 (VOp2 (Add16) (VV v_p00) (VV v_p10));
        SVec v_p00 (VOp2 (Add16) (VV v_p00) (VV v_coeff4));
        SVec v_p00 (VOp1 (Srl16 3) (VV v_p00));
        SVec v_p01 (VOp2 (Add16) (VV v_H0) (VV v_H3));
        SVec v_p11 (VOp2 (Add16) (VV v_H1) (VV v_H2));
        SVec v_p11 (VOp2 (Mul16) (VV v_p11) (VV v_coeff3));
        SVec v_p01 (VOp2 (Add16) (VV v_p01) (VV v_p11));
        SVec v_p01 (VOp2 (Add16) (VV v_p01) (VV v_coeff4));
        SVec v_p01 (VOp1 (Srl16 3) (VV v_p01));
        SVec v_p00 (VOp2 (Pack16) (VV v_p00) (VV v_p01));
        SStore 16 (PV v_dst4 (IC 0)) (VV v_p00);
        SVec v_p00 (VOp2 (Mul16) (VV v_L0) (VV v_coeff3));
        SVec v_p10 (VOp2 (Mul16) (VV v_L1) (VV v_coeff11));
        SVec v_p20 (VOp2 (Mul16) (VV v_L2) (VV v_coeff13));
        SVec v_p30 (VOp2 (Mul16) (VV v_L3) (VV v_coeff5));
        SVec v_p00 (VOp2 (Add16) (VV v_p00) (VV v_coeff16));
        SVec v_p00 (VOp2 (Add16) (VV v_p00) (VV v_p10));
        SVec v_p00 (VOp2 (Add16) (VV v_p00) (VV v_p20));
        SVec v_p00 (VOp2 (Add16) (VV v_p00) (VV v_p30));
        SVec v_p00 (VOp1 (Srl16 5) (VV v_p00));
        SVec v_p01 (VOp2 (Mul16) (VV v_H0) (VV v_coeff3));
        SVec v_p11 (VOp2 (Mul16) (VV v_H1) (VV v_coeff11));
        SVec v_p21 (VOp2 (Mul16) (VV v_H2) (VV v_coeff13));
        SVec v_p31 (VOp2 (Mul16) (VV v_H3) (VV v_coeff5));
        SVec v_p01 (VOp2 (Add16) (VV v_p01) (VV v_coeff16));
        SVec v_p01 (VOp2 (Add16) (VV v_p01) (VV v_p11));
        SVec v_p01 (VOp2 (Add16) (VV v_p01) (VV v_p21));
        SVec v_p01 (VOp2 (Add16) (VV v_p01) (VV v_p31));
        SVec v_p01 (VOp1 (Srl16 5) (VV v_p01));
        SVec v_p00 (VOp2 (Pack16) (VV v_p00) (VV v_p01));
        SStore 16 (PV v_dst5 (IC 0)) (VV v_p00);
        SVec v_p10 (VOp2 (Mul16) (VV v_L1) (VV v_coeff5));
        SVec v_p20 (VOp2 (Mul16) (VV v_L2) (VV v_coeff7));
        SVec v_p30 (VOp2 (Mul16) (VV v_L3) (VV v_coeff3));
        SVec v_p00 (VOp2 (Add16) (VV v_L0) (VV v_coeff8));
        SVec v_p00 (VOp2 (Add16) (VV v_p00) (VV v_p10));
        SVec v_p00 (VOp2 (Add16) (VV v_p00) (VV v_p20));
        SVec v_p00 (VOp2 (Add16) (VV v_p00) (VV v_p30));
        SVec v_p00 (VOp1 (Srl16 4) (VV v_p00));
        SVec v_p11 (VOp2 (Mul16) (VV v_H1) (VV v_coeff5));
        SVec v_p21 (VOp2 (Mul16) (VV v_H2) (VV v_coeff7));
        SVec v_p31 (VOp2 (Mul16) (VV v_H3) (VV v_coeff3));
        SVec v_p01 (VOp2 (Add16) (VV v_H0) (VV v_coeff8));
        SVec v_p01 (VOp2 (Add16) (VV v_p01) (VV v_p11));
        SVec v_p01 (VOp2 (Add16) (VV v_p01) (VV v_p21));
        SVec v_p01 (VOp2 (Add16) (VV v_p01) (VV v_p31));
        SVec v_p01 (VOp1 (Srl16 4) (VV v_p01));
        SVec v_p00 (VOp2 (Pack16) (VV v_p00) (VV v_p01));
        SStore 16 (PV v_dst6 (IC 0)) (VV v_p00);
        SVec v_p10 (VOp2 (Mul16) (VV v_L1) (VV v_coeff9));
        SVec v_p20 (VOp2 (Mul16) (VV v_L2) (VV v_coeff15));
        SVec v_p30 (VOp2 (Mul16) (VV v_L3) (VV v_coeff7));
        SVec v_p00 (VOp2 (Add16) (VV v_L0) (VV v_coeff16));
        SVec v_p00 (VOp2 (Add16) (VV v_p00) (VV v_p10));
        SVec v_p00 (VOp2 (Add16) (VV v_p00) (VV v_p20));
        SVec v_p00 (VOp2 (Add16) (VV v_p00) (VV v_p30));
        SVec v_p00 (VOp1 (Srl16 5) (VV v_p00));
        SVec v_p11 (VOp2 (Mul16) (VV v_H1) (VV v_coeff9));
        SVec v_p21 (VOp2 (Mul16) (VV v_H2) (VV v_coeff15));
        SVec v_p31 (VOp2 (Mul16) (VV v_H3) (VV v_coeff7));
        SVec v_p01 (VOp2 (Add16) (VV v_H0) (VV v_coeff16));
        SVec v_p01 (VOp2 (Add16) (VV v_p01) (VV v_p11));
        SVec v_p01 (VOp2 (Add16) (VV v_p01) (VV v_p21));
        SVec v_p01 (VOp2 (Add16) (VV v_p01) (VV v_p31));
        SVec v_p01 (VOp1 (Srl16 5) (VV v_p01));
        SVec v_p00 (VOp2 (Pack16) (VV v_p00) (VV v_p01));
        SStore 16 (PV v_dst7 (IC 0)) (VV v_p00);
        SVec v_p10 (VOp2 (Mul16) (VV v_L2) (VV v_coeff2));
        SVec v_p00 (VOp2 (Add16) (VV v_L1) (VV v_L3));
        SVec v_p00 (VOp2 (Add16) (VV v_p00) (VV v_coeff2));
        SVec v_p00 (VOp2 (Add16) (VV v_p00) (VV v_p10));
        SVec v_p00 (VOp1 (Srl16 2) (VV v_p00));
        SVec v_p11 (VOp2 (Mul16) (VV v_H2) (VV v_coeff2));
        SVec v_p01 (VOp2 (Add16) (VV v_H1) (VV v_H3));
        SVec v_p01 (VOp2 (Add16) (VV v_p01) (VV v_coeff2));
        SVec v_p01 (VOp2 (Add16) (VV v_p01) (VV v_p11));
        SVec v_p01 (VOp1 (Srl16 2) (VV v_p01));
        SVec v_p00 (VOp2 (Pack16) (VV v_p00) (VV v_p01));
        SStore 16 (PV v_dst8 (IC 0)) (VV v_p00)] [
        SVec v_S0 (VLoad 16 0 (PAdd (PV v_src (IC 0)) (IC 2)));
        SVec v_S1 (VLoad 16 0 (PAdd (PV v_src (IC 0)) (IC 1)));
        SVec v_S2 (VLoad 16 0 (PV v_src (IC 0)));
        SVec v_S3 (VLoad 16 0 (PAdd (PV v_src (IC 0)) (ISub (IC 0) (IC 1))));
        SVec v_L0 (VOp2 (UnpL 1) (VV v_S0) (VV v_zero));
        SVec v_L1 (VOp2 (UnpL 1) (VV v_S1) (VV v_zero));
        SVec v_L2 (VOp2 (UnpL 1) (VV v_S2) (VV v_zero));
        SVec v_L3 (VOp2 (UnpL 1) (VV v_S3) (VV v_zero));
        SVec v_p00 (VOp2 (Mul16) (VV v_L0) (VV v_coeff7));
        SVec v_p10 (VOp2 (Mul16) (VV v_L1) (VV v_coeff15));
        SVec v_p20 (VOp2 (Mul16) (VV v_L2) (VV v_coeff9));
        SVec v_p30 (VOp2 (Add16) (VV v_L3) (VV v_coeff16));
        SVec v_p00 (VOp2 (Add16) (VV v_p00) (VV v_p10));
        SVec v_p00 (VOp2 (Add16) (VV v_p00) (VV v_p20));
        SVec v_p00 (VOp2 (Add16) (VV v_p00) (VV v_p30));
        SVec v_p00 (VOp1 (Srl16 5) (VV v_p00));
        SVec v_p00 (VOp2 (Pack16) (VV v_p00) (VV v_p00));
        SStore 8 (PV v_dst1 (IC 0)) (VV v_p00);
        SVec v_p00 (VOp2 (Mul16) (VV v_L0) (VV v_coeff3));
        SVec v_p10 (VOp2 (Mul16) (VV v_L1) (VV v_coeff7));
        SVec v_p20 (VOp2 (Mul16) (VV v_L2) (VV v_coeff5));
        SVec v_p30 (VOp2 (Add16) (VV v_L3) (VV v_coeff8));
        SVec v_p00 (VOp2 (Add16) (VV v_p00) (VV v_p10));
        SVec v_p00 (VOp2 (Add16) (VV v_p00) (VV v_p20));
        SVec v_p00 (VOp2 (Add16) (VV v_p00) (VV v_p30));
        SVec v_p00 (VOp1 (Srl16 4) (VV v_p00));
        SVec v_p00 (VOp2 (Pack16) (VV v_p00) (VV v_p00));
        SStore 8 (PV v_dst2 (IC 0)) (VV v_p00);
        SVec v_p00 (VOp2 (Mul16) (VV v_L0) (VV v_coeff5));
        SVec v_p10 (VOp2 (Mul16) (VV v_L1) (VV v_coeff13));
        SVec v_p20 (VOp2 (Mul16) (VV v_L2) (VV v_coeff11));
        SVec v_p30 (VOp2 (Mul16) (VV v_L3) (VV v_coeff3));
        SVec v_p00 (VOp2 (Add16) (VV v_p00) (VV v_coeff16));
        SVec v_p00 (VOp2 (Add16) (VV v_p00) (VV v_p10));
        SVec v_p00 (VOp2 (Add16) (VV v_p00) (VV v_p20));
        SVec v_p00 (VOp2 (Add16) (VV v_p00) (VV v_p30));
        SVec v_p00 (VOp1 (Srl16 5) (VV v_p00));
        SVec v_p00 (VOp2 (Pack16) (VV v_p00) (VV v_p00));
        SStore 8 (PV v_dst3 (IC 0)) (VV v_p00);
        SVec v_p00 (VOp2 (Add16) (VV v_L0) (VV v_L3));
        SVec v_p10 (VOp2 (Add16) (VV v_L1) (VV v_L2));
        SVec v_p10 (VOp2 (Mul16) (VV v_p10) (VV v_coeff3));
        SVec v_p00 (VOp2 (Add16) (VV v_p00) (VV v_p10));
        SVec v_p00 (VOp2 (Add16) (VV v_p00) (VV v_coeff4));
        SVec v_p00 (VOp1 (Srl16 3) (VV v_p00));
        SVec v_p00 (VOp2 (Pack16) (VV v_p00) (VV v_p00));
        SStore 8 (PV v_dst4 (IC 0)) (VV v_p00);
        SVec v_p00 (VOp2 (Mul16) (VV v_L0) (VV v_coeff3));
        SVec v_p10 (VOp2 (Mul16) (VV v_L1) (VV v_coeff11));
        SVec v_p20 (VOp2 (Mul16) (VV v_L2) (VV v_coeff13));
        SVec v_p30 (VOp2 (Mul16) (VV v_L3) (VV v_coeff5));
        SVec v_p00 (VOp2 (Add16) (VV v_p00) (VV v_coeff16));
        SVec v_p00 (VOp2 (Add16) (VV v_p00) (VV v_p10));
        SVec v_p00 (VOp2 (Add16) (VV v_p00) (VV v_p20));
        SVec v_p00 (VOp2 (Add16) (VV v_p00) (VV v_p30));
        SVec v_p00 (VOp1 (Srl16 5) (VV v_p00));
        SVec v_p00 (VOp2 (Pack16) (VV v_p00) (VV v_p00));
        SStore 8 (PV v_dst5 (IC 0)) (VV v_p00);
        SVec v_p10 (VOp2 (Mul16) (VV v_L1) (VV v_coeff5));
        SVec v_p20 (VOp2 (Mul16) (VV v_L2) (VV v_coeff7));
        SVec v_p30 (VOp2 (Mul16) (VV v_L3) (VV v_coeff3));
        SVec v_p00 (VOp2 (Add16) (VV v_L0) (VV v_coeff8));
        SVec v_p00 (VOp2 (Add16) (VV v_p00) (VV v_p10));
        SVec v_p00 (VOp2 (Add16) (VV v_p00) (VV v_p20));
        SVec v_p00 (VOp2 (Add16) (VV v_p00) (VV v_p30));
        SVec v_p00 (VOp1 (Srl16 4) (VV v_p00));
        SVec v_p00 (VOp2 (Pack16) (VV v_p00) (VV v_p00));
        SStore 8 (PV v_dst6 (IC 0)) (VV v_p00);
        SVec v_p10 (VOp2 (Mul16) (VV v_L1) (VV v_coeff9));
        SVec v_p20 (VOp2 (Mul16) (VV v_L2) (VV v_coeff15));
        SVec v_p30 (VOp2 (Mul16) (VV v_L3) (VV v_coeff7));
        SVec v_p00 (VOp2 (Add16) (VV v_L0) (VV v_coeff16));
        SVec v_p00 (VOp2 (Add16) (VV v_p00) (VV v_p10));
        SVec v_p00 (VOp2 (Add16) (VV v_p00) (VV v_p20));
        SVec v_p00 (VOp2 (Add16) (VV v_p00) (VV v_p30));
        SVec v_p00 (VOp1 (Srl16 5) (VV v_p00));
        SVec v_p00 (VOp2 (Pack16) (VV v_p00) (VV v_p00));
        SStore 8 (PV v_dst7 (IC 0)) (VV v_p00);
        SVec v_p10 (VOp2 (Mul16) (VV v_L2) (VV v_coeff2));
        SVec v_p00 (VOp2 (Add16) (VV v_L1) (VV v_L3));
        SVec v_p00 (VOp2 (Add16) (VV v_p00) (VV v_coeff2));
        SVec v_p00 (VOp2 (Add16) (VV v_p00) (VV v_p10));
        SVec v_p00 (VOp1 (Srl16 2) (VV v_p00));
        SVec v_p00 (VOp2 (Pack16) (VV v_p00) (VV v_p00));
        SStore 8 (PV v_dst8 (IC 0)) (VV v_p00)]] [
      SPtr v_dst1 (IC 0) (PV v_dst (IC 0));
      SPtr v_dst2 (IC 0) (PAdd (PV v_dst1 (IC 0)) (IV v_i_dst));
      SPtr v_dst3 (IC 0) (PAdd (PV v_dst2 (IC 0)) (IV v_i_dst));
      SPtr v_dst4 (IC 0) (PAdd (PV v_dst3 (IC 0)) (IV v_i_dst));
      SIf (IEq (IV v_bsx) (IC 16)) [
        SVec v_S0 (VLoad 16 0 (PAdd (PV v_src (IC 0)) (IC 2)));
        SVec v_S1 (VLoad 16 0 (PAdd (PV v_src (IC 0)) (IC 1)));
        SVec v_S2 (VLoad 16 0 (PV v_src (IC 0)));
        SVec v_S3 (VLoad 16 0 (PAdd (PV v_src (IC 0)) (ISub (IC 0) (IC 1))));
        SVec v_L0 (VOp2 (UnpL 1) (VV v_S0) (VV v_zero));
        SVec v_L1 (VOp2 (UnpL 1) (VV v_S1) (VV v_zero));
        SVec v_L2 (VOp2 (UnpL 1) (VV v_S2) (VV v_zero));
        SVec v_L3 (VOp2 (UnpL 1) (VV v_S3) (VV v_zero));
        SVec v_H0 (VOp2 (UnpH 1) (VV v_S0) (VV v_zero));
        SVec v_H1 (VOp2 (UnpH 1) (VV v_S1) (VV v_zero));
        SVec v_H2 (VOp2 (UnpH 1) (VV v_S2) (VV v_zero));
        SVec v_H3 (VOp2 (UnpH 1) (VV v_S3) (VV v_zero));
        SVec v_p00 (VOp2 (Mul16) (VV v_L0) (VV v_coeff7));
        SVec v_p10 (VOp2 (Mul16) (VV v_L1) (VV v_coeff15));
        SVec v_p20 (VOp2 (Mul16) (VV v_L2) (VV v_coeff9));
        SVec v_p30 (VOp2 (Add16) (VV v_L3) (VV v_coeff16));
        SVec v_p00 (VOp2 (Add16) (VV v_p00) (VV v_p10));
        SVec v_p00 (VOp2 (Add16) (VV v_p00) (VV v_p20));
        SVec v_p00 (VOp2 (Add16) (VV v_p00) (VV v_p30));
        SVec v_p00 (VOp1 (Srl16 5) (VV v_p00));
        SVec v_p01 (VOp2 (Mul16) (VV v_H0) (VV v_coeff7));
        SVec v_p11 (VOp2 (Mul16) (VV v_H1) (VV v_coeff15));
        SVec v_p21 (VOp2 (Mul16) (VV v_H2) (VV v_coeff9));
        SVec v_p31 (VOp2 (Add16) (VV v_H3) (VV v_coeff16));
        SVec v_p01 (VOp2 (Add16) (VV v_p01) (VV v_p11));
        SVec v_p01 (VOp2 (Add16) (VV v_p01) (VV v_p21));
        SVec v_p01 (VOp2 (Add16) (VV v_p01) (VV v_p31));
        SVec v_p01 (VOp1 (Srl16 5) (VV v_p01));
        SVec v_p00 (VOp2 (Pack16) (VV v_p00) (VV v_p01));
        SStore 16 (PV v_dst1 (IC 0)) (VV v_p00);
        SVec v_p00 (VOp2 (Mul16) (VV v_L0) (VV v_coeff3));
        SVec v_p10 (VOp2 (Mul16) (VV v_L1) (VV v_coeff7));
        SVec v_p20 (VOp2 (Mul16) (VV v_L2) (VV v_coeff5));
        SVec v_p30 (VOp2 (Add16) (VV v_L3) (VV v_coeff8));
        SVec v_p00 (VOp2 (Add16) (VV v_p00) (VV v_p10));
        SVec v_p00 (VOp2 (Add16) (VV v_p00) (VV v_p20));
        SVec v_p00 (VOp2 (Add16) (VV v_p00) (VV v_p30));
        SVec v_p00 (VOp1 (Srl16 4) (VV v_p00));
        SVec v_p01 (VOp2 (Mul16) (VV v_H0) (VV v_coeff3));
        SVec v_p11 (VOp2 (Mul16) (VV v_H1) (VV v_coeff7));
        SVec v_p21 (VOp2 (Mul16) (VV v_H2) (VV v_coeff5));
        SVec v_p31 (VOp2 (Add16) (VV v_H3) (VV v_coeff8));
        SVec v_p01 (VOp2 (Add16) (VV v_p01) (VV v_p11));
        SVec v_p01 (VOp2 (Add16) (VV v_p01) (VV v_p21));
        SVec v_p01 (VOp2 (Add16) (VV v_p01) (VV v_p31));
        SVec v_p01 (VOp1 (Srl16 4) (VV v_p01));
        SVec v_p00 (VOp2 (Pack16) (VV v_p00) (VV v_p01));
        SStore 16 (PV v_dst2 (IC 0)) (VV v_p00);
        SVec v_p00 (VOp2 (Mul16) (VV v_L0) (VV v_coeff5));
        SVec v_p10 (VOp2 (Mul16) (VV v_L1) (VV v_coeff13));
        SVec v_p20 (VOp2 (Mul16) (VV v_L2) (VV v_coeff11));
        SVec v_p30 (VOp2 (Mul16) (VV v_L3) (VV v_coeff3));
        SVec v_p00 (VOp2 (Add16) (VV v_p00) (VV v_coeff16));
        SVec v_p00 (VOp2 (Add16) (VV v_p00) (VV v_p10));
        SVec v_p00 (VOp2 (Add16) (VV v_p00) (VV v_p20));
        SVec v_p00 (VOp2 (Add16) (VV v_p00) (VV v_p30));
        SVec v_p00 (VOp1 (Srl16 5) (VV v_p00));
        SVec v_p01 (VOp2 (Mul16) (VV v_H0) (VV v_coeff5));
        SVec v_p11 (VOp2 (Mul16) (VV v_H1) (VV v_coeff13));
        SVec v_p21 (VOp2 (Mul16) (VV v_H2) (VV v_coeff11));
        SVec v_p31 (VOp2 (Mul16) (VV v_H3) (VV v_coeff3));
        SVec v_p01 (VOp2 (Add16) (VV v_p01) (VV v_coeff16));
        SVec v_p01 (VOp2 (Add16) (VV v_p01) (VV v_p11));
        SVec v_p01 (VOp2 (Add16) (VV v_p01) (VV v_p21));
        SVec v_p01 (VOp2 (Add16) (VV v_p01) (VV v_p31));
        SVec v_p01 (VOp1 (Srl16 5) (VV v_p01));
        SVec v_p00 (VOp2 (Pack16) (VV v_p00) (VV v_p01));
        SStore 16 (PV v_dst3 (IC 0)) (VV v_p00);
        SVec v_p00 (VOp2 (Add16) (VV v_L0) (VV v_L3));
        SVec v_p10 (VOp2 (Add16) (VV v_L1) (VV v_L2));
        SVec v_p10 (VOp2 (Mul16) (VV v_p10) (VV v_coeff3));
        SVec v_p00 (VOp2 (Add16) (VV v_p00) (VV v_p10));
        SVec v_p00 (VOp2 (Add16) (VV v_p00) (VV v_coeff4));
        SVec v_p00 (VOp1 (Srl16 3) (VV v_p00));
        SVec v_p01 (VOp2 (Add16) (VV v_H0) (VV v_H3));
        SVec v_p11 (VOp2 (Add16) (VV v_H1) (VV v_H2));
        SVec v_p11 (VOp2 (Mul16) (VV v_p11) (VV v_coeff3));
        SVec v_p01 (VOp2 (Add16) (VV v_p01) (VV v_p11));
        SVec v_p01 (VOp2 (Add16) (VV v_p01) (VV v_coeff4));
        SVec v_p01 (VOp1 (Srl16 3) (VV v_p01));
        SVec v_p00 (VOp2 (Pack16) (VV v_p00) (VV v_p01));
        SStore 16 (PV v_dst4 (IC 0)) (VV v_p00)] [
        SVec v_S0 (VLoad 16 0 (PAdd (PV v_src (IC 0)) (IC 2)));
        SVec v_S1 (VLoad 16 0 (PAdd (PV v_src (IC 0)) (IC 1)));
        SVec v_S2 (VLoad 16 0 (PV v_src (IC 0)));
        SVec v_S3 (VLoad 16 0 (PAdd (PV v_src (IC 0)) (ISub (IC 0) (IC 1))));
        SVec v_L0 (VOp2 (UnpL 1) (VV v_S0) (VV v_zero));
        SVec v_L1 (VOp2 (UnpL 1) (VV v_S1) (VV v_zero));
        SVec v_L2 (VOp2 (UnpL 1) (VV v_S2) (VV v_zero));
        SVec v_L3 (VOp2 (UnpL 1) (VV v_S3) (VV v_zero));
        SVec v_p00 (VOp2 (Mul16) (VV v_L0) (VV v_coeff7));
        SVec v_p10 (VOp2 (Mul16) (VV v_L1) (VV v_coeff15));
        SVec v_p20 (VOp2 (Mul16) (VV v_L2) (VV v_coeff9));
        SVec v_p30 (VOp2 (Add16) (VV v_L3) (VV v_coeff16));
        SVec v_p00 (VOp2 (Add16) (VV v_p00) (VV v_p10));
        SVec v_p00 (VOp2 (Add16) (VV v_p00) (VV v_p20));
        SVec v_p00 (VOp2 (Add16) (VV v_p00) (VV v_p30));
        SVec v_p00 (VOp1 (Srl16 5) (VV v_p00));
        SVec v_p00 (VOp2 (Pack16) (VV v_p00) (VV v_p00));
        SStore 4 (PV v_dst1 (IC 0)) (VV v_p00);
        SVec v_p00 (VOp2 (Mul16) (VV v_L0) (VV v_coeff3));
        SVec v_p10 (VOp2 (Mul16) (VV v_L1) (VV v_coeff7));
        SVec v_p20 (VOp2 (Mul16) (VV v_L2) (VV v_coeff5));
        SVec v_p30 (VOp2 (Add16) (VV v_L3) (VV v_coeff8));
        SVec v_p00 (VOp2 (Add16) (VV v_p00) (VV v_p10));
        SVec v_p00 (VOp2 (Add16) (VV v_p00) (VV v_p20));
        SVec v_p00 (VOp2 (Add16) (VV v_p00) (VV v_p30));
        SVec v_p00 (VOp1 (Srl16 4) (VV v_p00));
        SVec v_p00 (VOp2 (Pack16) (VV v_p00) (VV v_p00));
        SStore 4 (PV v_dst2 (IC 0)) (VV v_p00);
        SVec v_p00 (VOp2 (Mul16) (VV v_L0) (VV v_coeff5));
        SVec v_p10 (VOp2 (Mul16) (VV v_L1) (VV v_coeff13));
        SVec v_p20 (VOp2 (Mul16) (VV v_L2) (VV v_coeff11));
        SVec v_p30 (VOp2 (Mul16) (VV v_L3) (VV v_coeff3));
        SVec v_p00 (VOp2 (Add16) (VV v_p00) (VV v_coeff16));
        SVec v_p00 (VOp2 (Add16) (VV v_p00) (VV v_p10));
        SVec v_p00 (VOp2 (Add16) (VV v_p00) (VV v_p20));
        SVec v_p00 (VOp2 (Add16) (VV v_p00) (VV v_p30));
        SVec v_p00 (VOp1 (Srl16 5) (VV v_p00));
        SVec v_p00 (VOp2 (Pack16) (VV v_p00) (VV v_p00));
        SStore 4 (PV v_dst3 (IC 0)) (VV v_p00);
        SVec v_p00 (VOp2 (Add16) (VV v_L0) (VV v_L3));
        SVec v_p10 (VOp2 (Add16) (VV v_L1) (VV v_L2));
        SVec v_p10 (VOp2 (Mul16) (VV v_p10) (VV v_coeff3));
        SVec v_p00 (VOp2 (Add16) (VV v_p00) (VV v_p10));
        SVec v_p00 (VOp2 (Add16) (VV v_p00) (VV v_coeff4));
        SVec v_p00 (VOp1 (Srl16 3) (VV v_p00));
        SVec v_p00 (VOp2 (Pack16) (VV v_p00) (VV v_p00));
        SStore 4 (PV v_dst4 (IC 0)) (VV v_p00)]]]].

(** vec/intrinsic_intra-pred.cc:6761-7128 [intra_pred_ang_xy_14_sse128] *)
Definition k_ang_xy_14_sse128 : list stm := [
  SVec v_coeff2 (VSet1 2 8 (XC 2));
  SVec v_coeff3 (VSet1 2 8 (XC 3));
  SVec v_coeff4 (VSet1 2 8 (XC 4));
  SVec v_coeff5 (VSet1 2 8 (XC 5));
  SVec v_coeff7 (VSet1 2 8 (XC 7));
  SVec v_coeff8 (VSet1 2 8 (XC 8));
  SVec v_zero (VConst [0;0;0;0;0;0;0;0;0;0;0;0;0;0;0;0]);
  SIf (INot (IEq (IV v_bsy) (IC 4))) [
    SArr v_first_line (IMul (IC 4) (IAdd (IC 64) (IC 32)));
    SInt v_line_size (ISub (IAdd (IV v_bsx) (IDiv (IV v_bsy) (IC 4))) (IC 1));
    SInt v_left_size (ISub (IV v_line_size) (IV v_bsx));
    SInt v_aligned_line_size (IShl (IShr (IAdd (IV v_line_size) (IC 31)) (IC 4)) (IC 4));
    SVec v_shuffle1 (VConst [0;4;8;12;1;5;9;13;2;6;10;14;3;7;11;15]);
    SVec v_shuffle2 (VConst [1;5;9;13;2;6;10;14;3;7;11;15;0;4;8;12]);
    SVec v_shuffle3 (VConst [2;6;10;14;3;7;11;15;0;4;8;12;1;5;9;13]);
    SVec v_shuffle4 (VConst [3;7;11;15;0;4;8;12;1;5;9;13;2;6;10;14]);
    SPtr v_pSrc1 (IC 0) (PV v_src (IC 0));
    SPtr v_pfirst (IC 0) (PV v_first_line (IC 0));
    SPtr v_pfirst (IC 1) (PAdd (PV v_first_line (IC 0)) (IV v_aligned_line_size));
    SPtr v_pfirst (IC 2) (PAdd (PV v_first_line (IC 0)) (IMul (IV v_aligned_line_size) (IC 2)));
    SPtr v_pfirst (IC 3) (PAdd (PV v_first_line (IC 0)) (IMul (IV v_aligned_line_size) (IC 3)));
    SPtr v_src (IC 0) (PAdd (PV v_src (IC 0)) (ISub (IC 0) (ISub (IV v_bsy) (IC 4))));
    SInt v_i (IC 0);
    SLoop (ILt (IV v_i) (ISub (IV v_left_size) (IC 1))) [
      SVec v_S0 (VLoad 16 0 (PAdd (PV v_src (IC 0)) (ISub (IC 0) (IC 1))));
      SVec v_S2 (VLoad 16 0 (PAdd (PV v_src (IC 0)) (IC 1)));
      SVec v_S1 (VLoad 16 0 (PV v_src (IC 0)));
      SVec v_L0 (VOp2 (UnpL 1) (VV v_S0) (VV v_zero));
      SVec v_L1 (VOp2 (UnpL 1) (VV v_S1) (VV v_zero));
      SVec v_L2 (VOp2 (UnpL 1) (VV v_S2) (VV v_zero));
      SVec v_H0 (VOp2 (UnpH 1) (VV v_S0) (VV v_zero));
      SVec v_H1 (VOp2 (UnpH 1) (VV v_S1) (VV v_zero));
      SVec v_H2 (VOp2 (UnpH 1) (VV v_S2) (VV v_zero));
      SVec v_p00 (VOp2 (Add16) (VV v_L0) (VV v_L1));
      SVec v_p01 (VOp2 (Add16) (VV v_L1) (VV v_L2));
      SVec v_p10 (VOp2 (Add16) (VV v_H0) (VV v_H1));
      SVec v_p11 (VOp2 (Add16) (VV v_H1) (VV v_H2));
      SVec v_p00 (VOp2 (Add16) (VV v_p00) (VV v_coeff2));
      SVec v_p10 (VOp2 (Add16) (VV v_p10) (VV v_coeff2));
      SVec v_p00 (VOp2 (Add16) (VV v_p00) (VV v_p01));
      SVec v_p10 (VOp2 (Add16) (VV v_p10) (VV v_p11));
      SVec v_p00 (VOp1 (Srl16 2) (VV v_p00));
      SVec v_p10 (VOp1 (Srl16 2) (VV v_p10));
      SVec v_p00 (VOp2 (Pack16) (VV v_p00) (VV v_p10));
      SVec v_p10 (VOp2 (Shuf8) (VV v_p00) (VV v_shuffle2));
      SVec v_p20 (VOp2 (Shuf8) (VV v_p00) (VV v_shuffle3));
      SVec v_p30 (VOp2 (Shuf8) (VV v_p00) (VV v_shuffle4));
      SVec v_p00 (VOp2 (Shuf8) (VV v_p00) (VV v_shuffle1));
      SStore 4 (PAdd (PV v_pfirst (IC 0)) (IV v_i)) (VV v_p30);
      SStore 4 (PAdd (PV v_pfirst (IC 1)) (IV v_i)) (VV v_p20);
      SStore 4 (PAdd (PV v_pfirst (IC 2)) (IV v_i)) (VV v_p10);
      SStore 4 (PAdd (PV v_pfirst (IC 3)) (IV v_i)) (VV v_p00);
      SInt v_i (IAdd (IV v_i) (IC 4));
      SPtr v_src (IC 0) (PAdd (PV v_src (IC 0)) (IC 16))];
    SIf (ILt (IV v_i) (IV v_left_size)) [
      SVec v_S0 (VLoad 16 0 (PAdd (PV v_src (IC 0)) (ISub (IC 0) (IC 1))));
      SVec v_S2 (VLoad 16 0 (PAdd (PV v_src (IC 0)) (IC 1)));
      SVec v_S1 (VLoad 16 0 (PV v_src (IC 0)));
      SVec v_L0 (VOp2 (UnpL 1) (VV v_S0) (VV v_zero));
      SVec v_L1 (VOp2 (UnpL 1) (VV v_S1) (VV v_zero));
      SVec v_L2 (VOp2 (UnpL 1) (VV v_S2) (VV v_zero));
      SVec v_p00 (VOp2 (Add16) (VV v_L0) (VV v_L1));
      SVec v_p01 (VOp2 (Add16) (VV v_L1) (VV v_L2));
      SVec v_p00 (VOp2 (Add16) (VV v_p00) (VV v_coeff2));
      SVec v_p00 (VOp2 (Add16) (VV v_p00) (VV v_p01));
      SVec v_p00 (VOp1 (Srl16 2) (VV v_p00));
      SVec v_p00 (VOp2 (Pack16) (VV v_p00) (VV v_p00));
      SVec v_p10 (VOp2 (Shuf8) (VV v_p00) (VV v_shuffle2));
      SVec v_p20 (VOp2 (Shuf8) (VV v_p00) (VV v_shuffle3));
      SVec v_p30 (VOp2 (Shuf8) (VV v_p00) (VV v_shuffle4));
      SVec v_p00 (VOp2 (Shuf8) (VV v_p00) (VV v_shuffle1));
      SStore 4 (PAdd (PV v_pfirst (IC 0)) (IV v_i)) (VV v_p30);
      SStore 4 (PAdd (PV v_pfirst (IC 1)) (IV v_i)) (VV v_p20);
      SStore 4 (PAdd (PV v_pfirst (IC 2)) (IV v_i)) (VV v_p10);
      SStore 4 (PAdd (PV v_pfirst (IC 3)) (IV v_i)) (VV v_p00)] [];
    SPtr v_src (IC 0) (PV v_pSrc1 (IC 0));
    SInt v_i (IV v_left_size);
    SLoop (ILt (IV v_i) (IV v_line_size)) [
      SVec v_S0 (VLoad 16 0 (PAdd (PV v_src (IC 0)) (ISub (IC 0) (IC 1))));
      SVec v_S3 (VLoad 16 0 (PAdd (PV v_src (IC 0)) (IC 2)));
      SVec v_S1 (VLoad 16 0 (PV v_src (IC 0)));
      SVec v_S2 (VLoad 16 0 (PAdd (PV v_src (IC 0)) (IC 1)));
      SVec v_L0 (VOp2 (UnpL 1) (VV v_S0) (VV v_zero));
      SVec v_L1 (VOp2 (UnpL 1) (VV v_S1) (VV v_zero));
      SVec v_L2 (VOp2 (UnpL 1) (VV v_S2) (VV v_zero));
      SVec v_L3 (VOp2 (UnpL 1) (VV v_S3) (VV v_zero));
      SVec v_H0 (VOp2 (UnpH 1) (VV v_S0) (VV v_zero));
      SVec v_H1 (VOp2 (UnpH 1) (VV v_S1) (VV v_zero));
      SVec v_H2 (VOp2 (UnpH 1) (VV v_S2) (VV v_zero));
      SVec v_H3 (VOp2 (UnpH 1) (VV v_S3) (VV v_zero));
      SVec v_p00 (VOp2 (Mul16) (VV v_L0) (VV v_coeff3));
      SVec v_p10 (VOp2 (Mul16) (VV v_L1) (VV v_coeff7));
      SVec v_p20 (VOp2 (Mul16) (VV v_L2) (VV v_coeff5));
      SVec v_p30 (VOp2 (Add16) (VV v_L3) (VV v_coeff8));
      SVec v_p00 (VOp2 (Add16) (VV v_p00) (VV v_p30));
      SVec v_p00 (VOp2 (Add16) (VV v_p00) (VV v_p10));
      SVec v_p00 (VOp2 (Add16) (VV v_p00) (VV v_p20));
      SVec v_p00 (VOp1 (Srl16 4) (VV v_p00));
      SVec v_p01 (VOp2 (Mul16) (VV v_H0) (VV v_coeff3));
      SVec v_p11 (VOp2 (Mul16) (VV v_H1) (VV v_coeff7));
      SVec v_p21 (VOp2 (Mul16) (VV v_H2) (VV v_coeff5));
      SVec v_p31 (VOp2 (Add16) (VV v_H3) (VV v_coeff8));
      SVec v_p01 (VOp2 (Add16) (VV v_p01) (VV v_p31));
      SVec v_p01 (VOp2 (Add16) (VV v_p01) (VV v_p11));
      SVec v_p01 (VOp2 (Add16) (VV v_p01) (VV v_p21));
      SVec v_p01 (VOp1 (Srl16 4) (VV v_p01));
      SVec v_p00 (VOp2 (Pack16) (VV v_p00) (VV v_p01));
      SStore 16 (PAdd (PV v_pfirst (IC 2)) (IV v_i)) (VV v_p00);
      SVec v_p00 (VOp2 (Add16) (VV v_L1) (VV v_L2));
      SVec v_p00 (VOp2 (Mul16) (VV v_p00) (VV v_coeff3));
      SVec v_p10 (VOp2 (Add16) (VV v_L0) (VV v_L3));
      SVec v_p10 (VOp2 (Add16) (VV v_p10) (VV v_coeff4));
      SVec v_p00 (VOp2 (Add16) (VV v_p10) (VV v_p00));
      SVec v_p00 (VOp1 (Srl16 3) (VV v_p00));
      SVec v_p01 (VOp2 (Add16) (VV v_H1) (VV v_H2));
      SVec v_p01 (VOp2 (Mul16) (VV v_p01) (VV v_coeff3));
      SVec v_p11 (VOp2 (Add16) (VV v_H0) (VV v_H3));
      SVec v_p11 (VOp2 (Add16) (VV v_p11) (VV v_coeff4));
      SVec v_p01 (VOp2 (Add16) (VV v_p11) (VV v_p01));
      SVec v_p01 (VOp1 (Srl16 3) (VV v_p01));
      SVec v_p00 (VOp2 (Pack16) (VV v_p00) (VV v_p01));
      SStore 16 (PAdd (PV v_pfirst (IC 1)) (IV v_i)) (VV v_p00);
      SVec v_p10 (VOp2 (Mul16) (VV v_L1) (VV v_coeff5));
      SVec v_p20 (VOp2 (Mul16) (VV v_L2) (VV v_coeff7));
      SVec v_p30 (VOp2 (Mul16) (VV v_L3) (VV v_coeff3));
      SVec v_p00 (VOp2 (Add16) (VV v_L0) (VV v_coeff8));
      SVec v_p00 (VOp2 (Add16) (VV v_p00) (VV v_p10));
      SVec v_p00 (VOp2 (Add16) (VV v_p00) (VV v_p20));
      SVec v_p00 (VOp2 (Add16) (VV v_p00) (VV v_p30));
      SVec v_p00 (VOp1 (Srl16 4) (VV v_p00));
      SVec v_p11 (VOp2 (Mul16) (VV v_H1) (VV v_coeff5));
      SVec v_p21 (VOp2 (Mul16) (VV v_H2) (VV v_coeff7));
      SVec v_p31 (VOp2 (Mul16) (VV v_H3) (VV v_coeff3));
      SVec v_p01 (VOp2 (Add16) (VV v_H0) (VV v_coeff8));
      SVec v_p01 (VOp2 (Add16) (VV v_p01) (VV v_p11));
      SVec v_p01 (VOp2 (Add16) (VV v_p01) (VV v_p21));
      SVec v_p01 (VOp2 (Add16) (VV v_p01) (VV v_p31));
      SVec v_p01 (VOp1 (Srl16 4) (VV v_p01));
      SVec v_p00 (VOp2 (Pack16) (VV v_p00) (VV v_p01));
      SStore 16 (PAdd (PV v_pfirst (IC 0)) (IV v_i)) (VV v_p00);
      SVec v_p00 (VOp2 (Add16) (VV v_L0) (VV v_L1));
      SVec v_p10 (VOp2 (Add16) (VV v_L1) (VV v_L2));
      SVec v_p00 (VOp2 (Add16) (VV v_p00) (VV v_p10));
      SVec v_p00 (VOp2 (Add16) (VV v_p00) (VV v_coeff2));
      SVec v_p00 (VOp1 (Srl16 2) (VV v_p00));
      SVec v_p01 (VOp2 (Add16) (VV v_H0) (VV v_H1));
      SVec v_p11 (VOp2 (Add16) (VV v_H1) (VV v_H2));
      SVec v_p01 (VOp2 (Add16) (VV v_p01) (VV v_p11));
      SVec v_p01 (VOp2 (Add16) (VV v_p01) (VV v_coeff2));
      SVec v_p01 (VOp1 (Srl16 2) (VV v_p01));
      SVec v_p00 (VOp2 (Pack16) (VV v_p00) (VV v_p01));
      SStore 16 (PAdd (PV v_pfirst (IC 3)) (IV v_i)) (VV v_p00);
      SInt v_i (IAdd (IV v_i) (IC 1));
      SPtr v_src (IC 0) (PAdd (PV v_src (IC 0)) (IC 1))];
    SPtr v_pfirst (IC 0) (PAdd (PV v_pfirst (IC 0)) (IV v_left_size));
    SPtr v_pfirst (IC 1) (PAdd (PV v_pfirst (IC 1)) (IV v_left_size));
    SPtr v_pfirst (IC 2) (PAdd (PV v_pfirst (IC 2)) (IV v_left_size));
    SPtr v_pfirst (IC 3) (PAdd (PV v_pfirst (IC 3)) (IV v_left_size));
    SInt v_bsy (IShr (IV v_bsy) (IC 2));
    SInt v_i (IC 0);
    SLoop (ILt (IV v_i) (IV v_bsy)) [
      SCopy (IV v_bsx) (PV v_dst (IC 0)) (PAdd (PV v_pfirst (IC 0)) (ISub (IC 0) (IV v_i)));
      SPtr v_dst (IC 0) (PAdd (PV v_dst (IC 0)) (IV v_i_dst));
      SCopy (IV v_bsx) (PV v_dst (IC 0)) (PAdd (PV v_pfirst (IC 1)) (ISub (IC 0) (IV v_i)));
      SPtr v_dst (IC 0) (PAdd (PV v_dst (IC 0)) (IV v_i_dst));
      SCopy (IV v_bsx) (PV v_dst (IC 0)) (PAdd (PV v_pfirst (IC 2)) (ISub (IC 0) (IV v_i)));
      SPtr v_dst (IC 0) (PAdd (PV v_dst (IC 0)) (IV v_i_dst));
      SCopy (IV v_bsx) (PV v_dst (IC 0)) (PAdd (PV v_pfirst (IC 3)) (ISub (IC 0) (IV v_i)));
      SPtr v_dst (IC 0) (PAdd (PV v_dst (IC 0)) (IV v_i_dst));
      SInt v_i (IAdd (IV v_i) (IC 1))]] [
    SIf (IEq (IV v_bsx) (IC 16)) [
      SPtr v_dst2 (IC 0) (PAdd (PV v_dst (IC 0)) (IV v_i_dst));
      SPtr v_dst3 (IC 0) (PAdd (PV v_dst2 (IC 0)) (IV v_i_dst));
      SPtr v_dst4 (IC 0) (PAdd (PV v_dst3 (IC 0)) (IV v_i_dst));
      SVec v_S0 (VLoad 16 0 (PAdd (PV v_src (IC 0)) (ISub (IC 0) (IC 1))));
      SVec v_S3 (VLoad 16 0 (PAdd (PV v_src (IC 0)) (IC 2)));
      SVec v_S1 (VLoad 16 0 (PV v_src (IC 0)));
      SVec v_S2 (VLoad 16 0 (PAdd (PV v_src (IC 0)) (IC 1)));
      SVec v_L0 (VOp2 (UnpL 1) (VV v_S0) (VV v_zero));
      SVec v_L1 (VOp2 (UnpL 1) (VV v_S1) (VV v_zero));
      SVec v_L2 (VOp2 (UnpL 1) (VV v_S2) (VV v_zero));
      SVec v_L3 (VOp2 (UnpL 1) (VV v_S3) (VV v_zero));
      SVec v_H0 (VOp2 (UnpH 1) (VV v_S0) (VV v_zero));
      SVec v_H1 (VOp2 (UnpH 1) (VV v_S1) (VV v_zero));
      SVec v_H2 (VOp2 (UnpH 1) (VV v_S2) (VV v_zero));
      SVec v_H3 (VOp2 (UnpH 1) (VV v_S3) (VV v_zero));
      SVec v_p00 (VOp2 (Mul16) (VV v_L0) (VV v_coeff3));
      SVec v_p10 (VOp2 (Mul16) (VV v_L1) (VV v_coeff7));
      SVec v_p20 (VOp2 (Mul16) (VV v_L2) (VV v_coeff5));
      SVec v_p30 (VOp2 (Add16) (VV v_L3) (VV v_coeff8));
      SVec v_p00 (VOp2 (Add16) (VV v_p00) (VV v_p30));
      SVec v_p00 (VOp2 (Add16) (VV v_p00) (VV v_p10));
      SVec v_p00 (VOp2 (Add16) (VV v_p00) (VV v_p20));
      SVec v_p00 (VOp1 (Srl16 4) (VV v_p00));
      SVec v_p01 (VOp2 (Mul16) (VV v_H0) (VV v_coeff3));
      SVec v_p11 (VOp2 (Mul16) (VV v_H1) (VV v_coeff7));
      SVec v_p21 (VOp2 (Mul16) (VV v_H2) (VV v_coeff5));
      SVec v_p31 (VOp2 (Add16) (VV v_H3) (VV v_coeff8));
      SVec v_p01 (VOp2 (Add16) (VV v_p01) (VV v_p31));
      SVec v_p01 (VOp2 (Add16) (VV v_p01) (VV v_p11));
      SVec v_p01 (VOp2 (Add16) (VV v_p01) (VV v_p21));
      SVec v_p01 (VOp1 (Srl16 4) (VV v_p01));
      SVec v_p00 (VOp2 (Pack16) (VV v_p00) (VV v_p01));
      SStore 16 (PV v_dst3 (IC 0)) (VV v_p00);
      SVec v_p00 (VOp2 (Add16) (VV v_L1) (VV v_L2));
      SVec v_p00 (VOp2 (Mul16) (VV v_p00) (VV v_coeff3));
      SVec v_p10 (VOp2 (Add16) (VV v_L0) (VV v_L3));
      SVec v_p10 (VOp2 (Add16) (VV v_p10) (VV v_coeff4));
      SVec v_p00 (VOp2 (Add16) (VV v_p10) (VV v_p00));
      SVec v_p00 (VOp1 (Srl16 3) (VV v_p00));
      SVec v_p01 (VOp2 (Add16) (VV v_H1) (VV v_H2));
      SVec v_p01 (VOp2 (Mul16) (VV v_p01) (VV v_coeff3));
      SVec v_p11 (VOp2 (Add16) (VV v_H0) (VV v_H3));
      SVec v_p11 (VOp2 (Add16) (VV v_p11) (VV v_coeff4));
      SVec v_p01 (VOp2 (Add16) (VV v_p11) (VV v_p01));
      SVec v_p01 (VOp1 (Srl16 3) (VV v_p01));
      SVec v_p00 (VOp2 (Pack16) (VV v_p00) (VV v_p01));
      SStore 16 (PV v_dst2 (IC 0)) (VV v_p00);
      SVec v_p10 (VOp2 (Mul16) (VV v_L1) (VV v_coeff5));
      SVec v_p20 (VOp2 (Mul16) (VV v_L2) (VV v_coeff7));
      SVec v_p30 (VOp2 (Mul16) (VV v_L3) (VV v_coeff3));
      SVec v_p00 (VOp2 (Add16) (VV v_L0) (VV v_coeff8));
      SVec v_p00 (VOp2 (Add16) (VV v_p00) (VV v_p10));
      SVec v_p00 (VOp2 (Add16) (VV v_p00) (VV v_p20));
      SVec v_p00 (VOp2 (Add16) (VV v_p00) (VV v_p30));
      SVec v_p00 (VOp1 (Srl16 4) (VV v_p00));
      SVec v_p11 (VOp2 (Mul16) (VV v_H1) (VV v_coeff5));
      SVec v_p21 (VOp2 (Mul16) (VV v_H2) (VV v_coeff7));
      SVec v_p31 (VOp2 (Mul16) (VV v_H3) (VV v_coeff3));
      SVec v_p01 (VOp2 (Add16) (VV v_H0) (VV v_coeff8));
      SVec v_p01 (VOp2 (Add16) (VV v_p01) (VV v_p11));
      SVec v_p01 (VOp2 (Add16) (VV v_p01) (VV v_p21));
      SVec v_p01 (VOp2 (Add16) (VV v_p01) (VV v_p31));
      SVec v_p01 (VOp1 (Srl16 4) (VV v_p01));
      SVec v_p00 (VOp2 (Pack16) (VV v_p00) (VV v_p01));
      SStore 16 (PV v_dst (IC 0)) (VV v_p00);
      SVec v_p00 (VOp2 (Add16) (VV v_L0) (VV v_L1));
      SVec v_p10 (VOp2 (Add16) (VV v_L1) (VV v_L2));
      SVec v_p00 (VOp2 (Add16) (VV v_p00) (VV v_p10));
      SVec v_p00 (VOp2 (Add16) (VV v_p00) (VV v_coeff2));
      SVec v_p00 (VOp1 (Srl16 2) (VV v_p00));
      SVec v_p01 (VOp2 (Add16) (VV v_H0) (VV v_H1));
      SVec v_p11 (VOp2 (Add16) (VV v_H1) (VV v_H2));
      SVec v_p01 (VOp2 (Add16) (VV v_p01) (VV v_p11));
      SVec v_p01 (VOp2 (Add16) (VV v_p01) (VV v_coeff2));
      SVec v_p01 (VOp1 (Srl16 2) (VV v_p01));
      SVec v_p00 (VOp2 (Pack16) (VV v_p00) (VV v_p01));
      SStore 16 (PV v_dst4 (IC 0)) (VV v_p00)] [
      SPtr v_dst2 (IC 0) (PAdd (PV v_dst (IC 0)) (IV v_i_dst));
      SPtr v_dst3 (IC 0) (PAdd (PV v_dst2 (IC 0)) (IV v_i_dst));
      SPtr v_dst4 (IC 0) (PAdd (PV v_dst3 (IC 0)) (IV v_i_dst));
      SVec v_S0 (VLoad 16 0 (PAdd (PV v_src (IC 0)) (ISub (IC 0) (IC 1))));
      SVec v_S3 (VLoad 16 0 (PAdd (PV v_src (IC 0)) (IC 2)));
      SVec v_S1 (VLoad 16 0 (PV v_src (IC 0)));
      SVec v_S2 (VLoad 16 0 (PAdd (PV v_src (IC 0)) (IC 1)));
      SVec v_L0 (VOp2 (UnpL 1) (VV v_S0) (VV v_zero));
      SVec v_L1 (VOp2 (UnpL 1) (VV v_S1) (VV v_zero));
      SVec v_L2 (VOp2 (UnpL 1) (VV v_S2) (VV v_zero));
      SVec v_L3 (VOp2 (UnpL 1) (VV v_S3) (VV v_zero));
      SVec v_p00 (VOp2 (Mul16) (VV v_L0) (VV v_coeff3));
      SVec v_p10 (VOp2 (Mul16) (VV v_L1) (VV v_coeff7));
      SVec v_p20 (VOp2 (Mul16) (VV v_L2) (VV v_coeff5));
      SVec v_p30 (VOp2 (Add16) (VV v_L3) (VV v_coeff8));
      SVec v_p00 (VOp2 (Add16) (VV v_p00) (VV v_p30));
      SVec v_p00 (VOp2 (Add16) (VV v_p00) (VV v_p10));
      SVec v_p00 (VOp2 (Add16) (VV v_p00) (VV v_p20));
      SVec v_p00 (VOp1 (Srl16 4) (VV v_p00));
      SVec v_p00 (VOp2 (Pack16) (VV v_p00) (VV v_p00));
      SStore 4 (PV v_dst3 (IC 0)) (VV v_p00);
      SVec v_p00 (VOp2 (Add16) (VV v_L1) (VV v_L2));
      SVec v_p00 (VOp2 (Mul16) (VV v_p00) (VV v_coeff3));
      SVec v_p10 (VOp2 (Add16) (VV v_L0) (VV v_L3));
      SVec v_p10 (VOp2 (Add16) (VV v_p10) (VV v_coeff4));
      SVec v_p00 (VOp2 (Add16) (VV v_p10) (VV v_p00));
      SVec v_p00 (VOp1 (Srl16 3) (VV v_p00));
      SVec v_p00 (VOp2 (Pack16) (VV v_p00) (VV v_p00));
      SStore 4 (PV v_dst2 (IC 0)) (VV v_p00);
      SVec v_p10 (VOp2 (Mul16) (VV v_L1) (VV v_coeff5));
      SVec v_p20 (VOp2 (Mul16) (VV v_L2) (VV v_coeff7));
      SVec v_p30 (VOp2 (Mul16) (VV v_L3) (VV v_coeff3));
      SVec v_p00 (VOp2 (Add16) (VV v_L0) (VV v_coeff8));
      SVec v_p00 (VOp2 (Add16) (VV v_p00) (VV v_p10));
      SVec v_p00 (VOp2 (Add16) (VV v_p00) (VV v_p20));
      SVec v_p00 (VOp2 (Add16) (VV v_p00) (VV v_p30));
      SVec v_p00 (VOp1 (Srl16 4) (VV v_p00));
      SVec v_p00 (VOp2 (Pack16) (VV v_p00) (VV v_p00));
      SStore 4 (PV v_dst (IC 0)) (VV v_p00);
      SVec v_p00 (VOp2 (Add16) (VV v_L0) (VV v_L1));
      SVec v_p10 (VOp2 (Add16) (VV v_L1) (VV v_L2));
      SVec v_p00 (VOp2 (Add16) (VV v_p00) (VV v_p10));
      SVec v_p00 (VOp2 (Add16) (VV v_p00) (VV v_coeff2));
      SVec v_p00 (VOp1 (Srl16 2) (VV v_p00));
      SVec v_p00 (VOp2 (Pack16) (VV v_p00) (VV v_p00));
      SStore 4 (PV v_dst4 (IC 0)) (VV v_p00)]]].

(** vec/intrinsic_intra-pred.cc:7133-7299 [intra_pred_ang_xy_16_sse128] *)
Definition k_ang_xy_16_sse128 : list stm := [
  SArr v_first_line (IMul (IC 2) (IAdd (IC 64) (IC 48)));
  SInt v_line_size (ISub (IAdd (IV v_bsx) (IDiv (IV v_bsy) (IC 2))) (IC 1));
  SInt v_left_size (ISub (IV v_line_size) (IV v_bsx));
  SInt v_aligned_line_size (IShl (IShr (IAdd (IV v_line_size) (IC 31)) (IC 4)) (IC 4));
  SVec v_zero (VConst [0;0;0;0;0;0;0;0;0;0;0;0;0;0;0;0]);
  SVec v_coeff2 (VSet1 2 8 (XC 2));
  SVec v_coeff3 (VSet1 2 8 (XC 3));
  SVec v_coeff4 (VSet1 2 8 (XC 4));
  SVec v_shuffle1 (VConst [0;2;4;6;8;10;12;14;1;3;5;7;9;11;13;15]);
  SVec v_shuffle2 (VConst [1;3;5;7;9;11;13;15;0;2;4;6;8;10;12;14]);
  SPtr v_pfirst (IC 0) (PV v_first_line (IC 0));
  SPtr v_pfirst (IC 1) (PAdd (PV v_first_line (IC 0)) (IV v_aligned_line_size));
  SPtr v_src (IC 0) (PAdd (PV v_src (IC 0)) (ISub (IC 0) (ISub (IV v_bsy) (IC 2))));
  SPtr v_pSrc1 (IC 0) (PV v_src (IC 0));
  SInt v_i (IC 0);
  SLoop (ILt (IV v_i) (ISub (IV v_left_size) (IC 4))) [
    SVec v_S0 (VLoad 16 0 (PAdd (PV v_src (IC 0)) (ISub (IC 0) (IC 1))));
    SVec v_S2 (VLoad 16 0 (PAdd (PV v_src (IC 0)) (IC 1)));
    SVec v_S1 (VLoad 16 0 (PV v_src (IC 0)));
    SVec v_L0 (VOp2 (UnpL 1) (VV v_S0) (VV v_zero));
    SVec v_L1 (VOp2 (UnpL 1) (VV v_S1) (VV v_zero));
    SVec v_L2 (VOp2 (UnpL 1) (VV v_S2) (VV v_zero));
    SVec v_H0 (VOp2 (UnpH 1) (VV v_S0) (VV v_zero));
    SVec v_H1 (VOp2 (UnpH 1) (VV v_S1) (VV v_zero));
    SVec v_H2 (VOp2 (UnpH 1) (VV v_S2) (VV v_zero));
    SVec v_p00 (VOp2 (Add16) (VV v_L0) (VV v_L1));
    SVec v_p01 (VOp2 (Add16) (VV v_L1) (VV v_L2));
    SVec v_p10 (VOp2 (Add16) (VV v_H0) (VV v_H1));
    SVec v_p11 (VOp2 (Add16) (VV v_H1) (VV v_H2));
    SVec v_p00 (VOp2 (Add16) (VV v_p00) (VV v_coeff2));
    SVec v_p10 (VOp2 (Add16) (VV v_p10) (VV v_coeff2));
    SVec v_p00 (VOp2 (Add16) (VV v_p00) (VV v_p01));
    SVec v_p10 (VOp2 (Add16) (VV v_p10) (VV v_p11));
    SVec v_p00 (VOp1 (Srl16 2) (VV v_p00));
    SVec v_p10 (VOp1 (Srl16 2) (VV v_p10));
    SVec v_p00 (VOp2 (Pack16) (VV v_p00) (VV v_p10));
    SVec v_p10 (VOp2 (Shuf8) (VV v_p00) (VV v_shuffle2));
    SVec v_p00 (VOp2 (Shuf8) (VV v_p00) (VV v_shuffle1));
    SStore 8 (PAdd (PV v_pfirst (IC 1)) (IV v_i)) (VV v_p00);
    SStore 8 (PAdd (PV v_pfirst (IC 0)) (IV v_i)) (VV v_p10);
    SInt v_i (IAdd (IV v_i) (IC 8));
    SPtr v_src (IC 0) (PAdd (PV v_src (IC 0)) (IC 16))];
  SIf (ILt (IV v_i) (IV v_left_size)) [
    SVec v_S0 (VLoad 16 0 (PAdd (PV v_src (IC 0)) (ISub (IC 0) (IC 1))));
    SVec v_S2 (VLoad 16 0 (PAdd (PV v_src (IC 0)) (IC 1)));
    SVec v_S1 (VLoad 16 0 (PV v_src (IC 0)));
    SVec v_L0 (VOp2 (UnpL 1) (VV v_S0) (VV v_zero));
    SVec v_L1 (VOp2 (UnpL 1) (VV v_S1) (VV v_zero));
    SVec v_L2 (VOp2 (UnpL 1) (VV v_S2) (VV v_zero));
    SVec v_p00 (VOp2 (Add16) (VV v_L0) (VV v_L1));
    SVec v_p01 (VOp2 (Add16) (VV v_L1) (VV v_L2));
    SVec v_p00 (VOp2 (Add16) (VV v_p00) (VV v_coeff2));
    SVec v_p00 (VOp2 (Add16) (VV v_p00) (VV v_p01));
    SVec v_p00 (VOp1 (Srl16 2) (VV v_p00));
    SVec v_p00 (VOp2 (Pack16) (VV v_p00) (VV v_p00));
    SVec v_p01 (VOp2 (Shuf8) (VV v_p00) (VV v_shuffle2));
    SVec v_p00 (VOp2 (Shuf8) (VV v_p00) (VV v_shuffle1));
    SStore 4 (PAdd (PV v_pfirst (IC 1)) (IV v_i)) (VV v_p00);
    SStore 4 (PAdd (PV v_pfirst (IC 0)) (IV v_i)) (VV v_p01)] [];
  SPtr v_src (IC 0) (PAdd (PAdd (PV v_pSrc1 (IC 0)) (IV v_left_size)) (IV v_left_size));
  SInt v_i (IV v_left_size);
  SLoop (ILt (IV v_i) (IV v_line_size)) [
    SVec v_S0 (VLoad 16 0 (PAdd (PV v_src (IC 0)) (ISub (IC 0) (IC 1))));
    SVec v_S3 (VLoad 16 0 (PAdd (PV v_src (IC 0)) (IC 2)));
    SVec v_S1 (VLoad 16 0 (PV v_src (IC 0)));
    SVec v_S2 (VLoad 16 0 (PAdd (PV v_src (IC 0)) (IC 1)));
    SVec v_L0 (VOp2 (UnpL 1) (VV v_S0) (VV v_zero));
    SVec v_L1 (VOp2 (UnpL 1) (VV v_S1) (VV v_zero));
    SVec v_L2 (VOp2 (UnpL 1) (VV v_S2) (VV v_zero));
    SVec v_L3 (VOp2 (UnpL 1) (VV v_S3) (VV v_zero));
    SVec v_H0 (VOp2 (UnpH 1) (VV v_S0) (VV v_zero));
    SVec v_H1 (VOp2 (UnpH 1) (VV v_S1) (VV v_zero));
    SVec v_H2 (VOp2 (UnpH 1) (VV v_S2) (VV v_zero));
    SVec v_H3 (VOp2 (UnpH 1) (VV v_S3) (VV v_zero));
    SVec v_p00 (VOp2 (Add16) (VV v_L1) (VV v_L2));
    SVec v_p10 (VOp2 (Add16) (VV v_H1) (VV v_H2));
    SVec v_p00 (VOp2 (Mul16) (VV v_p00) (VV v_coeff3));
    SVec v_p10 (VOp2 (Mul16) (VV v_p10) (VV v_coeff3));
    SVec v_p01 (VOp2 (Add16) (VV v_L0) (VV v_L3));
    SVec v_p11 (VOp2 (Add16) (VV v_H0) (VV v_H3));
    SVec v_p00 (VOp2 (Add16) (VV v_p00) (VV v_coeff4));
    SVec v_p10 (VOp2 (Add16) (VV v_p10) (VV v_coeff4));
    SVec v_p00 (VOp2 (Add16) (VV v_p00) (VV v_p01));
    SVec v_p10 (VOp2 (Add16) (VV v_p10) (VV v_p11));
    SVec v_p00 (VOp1 (Srl16 3) (VV v_p00));
    SVec v_p10 (VOp1 (Srl16 3) (VV v_p10));
    SVec v_p00 (VOp2 (Pack16) (VV v_p00) (VV v_p10));
    SStore 16 (PAdd (PV v_pfirst (IC 0)) (IV v_i)) (VV v_p00);
    SVec v_p00 (VOp2 (Add16) (VV v_L0) (VV v_L1));
    SVec v_p01 (VOp2 (Add16) (VV v_L1) (VV v_L2));
    SVec v_p10 (VOp2 (Add16) (VV v_H0) (VV v_H1));
    SVec v_p11 (VOp2 (Add16) (VV v_H1) (VV v_H2));
    SVec v_p00 (VOp2 (Add16) (VV v_p00) (VV v_coeff2));
    SVec v_p10 (VOp2 (Add16) (VV v_p10) (VV v_coeff2));
    SVec v_p00 (VOp2 (Add16) (VV v_p00) (VV v_p01));
    SVec v_p10 (VOp2 (Add16) (VV v_p10) (VV v_p11));
    SVec v_p00 (VOp1 (Srl16 2) (VV v_p00));
    SVec v_p10 (VOp1 (Srl16 2) (VV v_p10));
    SVec v_p00 (VOp2 (Pack16) (VV v_p00) (VV v_p10));
    SStore 16 (PAdd (PV v_pfirst (IC 1)) (IV v_i)) (VV v_p00);
    SInt v_i (IAdd (IV v_i) (IC 16));
    SPtr v_src (IC 0) (PAdd (PV v_src (IC 0)) (IC 16))];
  SPtr v_pfirst (IC 0) (PAdd (PV v_pfirst (IC 0)) (IV v_left_size));
  SPtr v_pfirst (IC 1) (PAdd (PV v_pfirst (IC 1)) (IV v_left_size));
  SInt v_bsy (IShr (IV v_bsy) (IC 1));
  SIf (IEq (IV v_bsx) (IC 4)) [
    SInt v_i (IC 0);
    SLoop (ILt (IV v_i) (IV v_bsy)) [
      SCopy (IC 4) (PV v_dst (IC 0)) (PAdd (PV v_pfirst (IC 0)) (ISub (IC 0) (IV v_i)));
      SCopy (IC 4) (PAdd (PV v_dst (IC 0)) (IV v_i_dst)) (PAdd (PV v_pfirst (IC 1)) (ISub (IC 0) (IV v_i)));
      SPtr v_dst (IC 0) (PAdd (PV v_dst (IC 0)) (IShl (IV v_i_dst) (IC 1)));
      SInt v_i (IAdd (IV v_i) (IC 1))]] [
    SIf (IEq (IV v_bsx) (IC 8)) [
      SInt v_i (IC 0);
      SLoop (ILt (IV v_i) (IV v_bsy)) [
        SCopy (IC 8) (PV v_dst (IC 0)) (PAdd (PV v_pfirst (IC 0)) (ISub (IC 0) (IV v_i)));
        SCopy (IC 8) (PAdd (PV v_dst (IC 0)) (IV v_i_dst)) (PAdd (PV v_pfirst (IC 1)) (ISub (IC 0) (IV v_i)));
        SPtr v_dst (IC 0) (PAdd (PV v_dst (IC 0)) (IShl (IV v_i_dst) (IC 1)));
        SInt v_i (IAdd (IV v_i) (IC 1))]] [
      SInt v_i (IC 0);
      SLoop (ILt (IV v_i) (IV v_bsy)) [
        SCopy (IV v_bsx) (PV v_dst (IC 0)) (PAdd (PV v_pfirst (IC 0)) (ISub (IC 0) (IV v_i)));
        SCopy (IV v_bsx) (PAdd (PV v_dst (IC 0)) (IV v_i_dst)) (PAdd (PV v_pfirst (IC 1)) (ISub (IC 0) (IV v_i)));
        SPtr v_dst (IC 0) (PAdd (PV v_dst (IC 0)) (IShl (IV v_i_dst) (IC 1)));
        SInt v_i (IAdd (IV v_i) (IC 1))]]]].

(** vec/intrinsic_intra-pred.cc:7303-7389 [intra_pred_ang_xy_18_sse128] *)
Definition k_ang_xy_18_sse128 : list stm := [
  SArr v_first_line (IAdd (IC 64) (IC 64));
  SInt v_line_size (ISub (IAdd (IV v_bsx) (IV v_bsy)) (IC 1));
  SPtr v_pfirst (IC 0) (PAdd (PAdd (PV v_first_line (IC 0)) (IV v_bsy)) (ISub (IC 0) (IC 1)));
  SVec v_coeff2 (VSet1 2 8 (XC 2));
  SVec v_zero (VConst [0;0;0;0;0;0;0;0;0;0;0;0;0;0;0;0]);
  SPtr v_src (IC 0) (PAdd (PV v_src (IC 0)) (ISub (IC 0) (ISub (IV v_bsy) (IC 1))));
  SInt v_i (IC 0);
  SLoop (ILt (IV v_i) (ISub (IV v_line_size) (IC 8))) [
    SVec v_S0 (VLoad 16 0 (PAdd (PV v_src (IC 0)) (ISub (IC 0) (IC 1))));
    SVec v_S2 (VLoad 16 0 (PAdd (PV v_src (IC 0)) (IC 1)));
    SVec v_S1 (VLoad 16 0 (PV v_src (IC 0)));
    SVec v_L0 (VOp2 (UnpL 1) (VV v_S0) (VV v_zero));
    SVec v_L1 (VOp2 (UnpL 1) (VV v_S1) (VV v_zero));
    SVec v_L2 (VOp2 (UnpL 1) (VV v_S2) (VV v_zero));
    SVec v_H0 (VOp2 (UnpH 1) (VV v_S0) (VV v_zero));
    SVec v_H1 (VOp2 (UnpH 1) (VV v_S1) (VV v_zero));
    SVec v_H2 (VOp2 (UnpH 1) (VV v_S2) (VV v_zero));
    SVec v_sum1 (VOp2 (Add16) (VV v_L0) (VV v_L1));
    SVec v_sum2 (VOp2 (Add16) (VV v_L1) (VV v_L2));
    SVec v_sum3 (VOp2 (Add16) (VV v_H0) (VV v_H1));
    SVec v_sum4 (VOp2 (Add16) (VV v_H1) (VV v_H2));
    SVec v_sum1 (VOp2 (Add16) (VV v_sum1) (VV v_sum2));
    SVec v_sum3 (VOp2 (Add16) (VV v_sum3) (VV v_sum4));
    SVec v_sum1 (VOp2 (Add16) (VV v_sum1) (VV v_coeff2));
    SVec v_sum3 (VOp2 (Add16) (VV v_sum3) (VV v_coeff2));
    SVec v_sum1 (VOp1 (Srl16 2) (VV v_sum1));
    SVec v_sum3 (VOp1 (Srl16 2) (VV v_sum3));
    SVec v_sum1 (VOp2 (Pack16) (VV v_sum1) (VV v_sum3));
    SStore 16 (PAdd (PV v_first_line (IC 0)) (IV v_i)) (VV v_sum1);
    SInt v_i (IAdd (IV v_i) (IC 16));
    SPtr v_src (IC 0) (PAdd (PV v_src (IC 0)) (IC 16))];
  SIf (ILt (IV v_i) (IV v_line_size)) [
    SVec v_S0 (VLoad 16 0 (PAdd (PV v_src (IC 0)) (ISub (IC 0) (IC 1))));
    SVec v_S2 (VLoad 16 0 (PAdd (PV v_src (IC 0)) (IC 1)));
    SVec v_S1 (VLoad 16 0 (PV v_src (IC 0)));
    SVec v_L0 (VOp2 (UnpL 1) (VV v_S0) (VV v_zero));
    SVec v_L1 (VOp2 (UnpL 1) (VV v_S1) (VV v_zero));
    SVec v_L2 (VOp2 (UnpL 1) (VV v_S2) (VV v_zero));
    SVec v_sum1 (VOp2 (Add16) (VV v_L0) (VV v_L1));
    SVec v_sum2 (VOp2 (Add16) (VV v_L1) (VV v_L2));
    SVec v_sum1 (VOp2 (Add16) (VV v_sum1) (VV v_sum2));
    SVec v_sum1 (VOp2 (Add16) (VV v_sum1) (VV v_coeff2));
    SVec v_sum1 (VOp1 (Srl16 2) (VV v_sum1));
    SVec v_sum1 (VOp2 (Pack16) (VV v_sum1) (VV v_sum1));
    SStore 8 (PAdd (PV v_first_line (IC 0)) (IV v_i)) (VV v_sum1)] [];
  SIf (IEq (IV v_bsx) (IC 4)) [
    SInt v_i (IC 0);
    SLoop (ILt (IV v_i) (IV v_bsy)) [
      SCopy (IC 4) (PV v_dst (IC 0)) (PV v_pfirst (IC 0));
      SPtr v_pfirst (IC 0) (PAdd (PV v_pfirst (IC 0)) (ISub (IC 0) (IC 1)));
      SPtr v_dst (IC 0) (PAdd (PV v_dst (IC 0)) (IV v_i_dst));
      SInt v_i (IAdd (IV v_i) (IC 1))]] [
    SIf (IEq (IV v_bsx) (IC 8)) [
      SInt v_i (IC 0);
      SLoop (ILt (IV v_i) (IV v_bsy)) [
        SCopy (IC 8) (PV v_dst (IC 0)) (PV v_pfirst (IC 0));
        SPtr v_pfirst (IC 0) (PAdd (PV v_pfirst (IC 0)) (ISub (IC 0) (IC 1)));
        SPtr v_dst (IC 0) (PAdd (PV v_dst (IC 0)) (IV v_i_dst));
        SInt v_i (IAdd (IV v_i) (IC 1))]] [
      SInt v_i (IC 0);
      SLoop (ILt (IV v_i) (IV v_bsy)) [
        SCopy (IV v_bsx) (PV v_dst (IC 0)) (PV v_pfirst (IC 0));
        SPtr v_pfirst (IC 0) (PAdd (PV v_pfirst (IC 0)) (ISub (IC 0) (IC 1)));
        SPtr v_dst (IC 0) (PAdd (PV v_dst (IC 0)) (IV v_i_dst));
        SInt v_i (IAdd (IV v_i) (IC 1))]]]].

(** vec/intrinsic_intra-pred.cc:7394-7561 [intra_pred_ang_xy_20_sse128] *)
Definition k_ang_xy_20_sse128 : list stm := [
  SArr v_first_line (IAdd (IC 64) (IC 128));
  SInt v_left_size (IAdd (IMul (ISub (IV v_bsy) (IC 1)) (IC 2)) (IC 1));
  SInt v_top_size (ISub (IV v_bsx) (IC 1));
  SInt v_line_size (IAdd (IV v_left_size) (IV v_top_size));
  SPtr v_pfirst (IC 0) (PAdd (PAdd (PV v_first_line (IC 0)) (IV v_left_size)) (ISub (IC 0) (IC 1)));
  SVec v_zero (VConst [0;0;0;0;0;0;0;0;0;0;0;0;0;0;0;0]);
  SVec v_coeff2 (VSet1 2 8 (XC 2));
  SVec v_coeff3 (VSet1 2 8 (XC 3));
  SVec v_coeff4 (VSet1 2 8 (XC 4));
  SVec v_shuffle (VConst [0;8;1;9;2;10;3;11;4;12;5;13;6;14;7;15]);
  SPtr v_pSrc1 (IC 0) (PV v_src (IC 0));
  SPtr v_src (IC 0) (PAdd (PV v_src (IC 0)) (ISub (IC 0) (IV v_bsy)));
  SInt v_i (IC 0);
  SLoop (ILt (IV v_i) (ISub (IV v_left_size) (IC 16))) [
    SVec v_S0 (VLoad 16 0 (PAdd (PV v_src (IC 0)) (ISub (IC 0) (IC 1))));
    SVec v_S3 (VLoad 16 0 (PAdd (PV v_src (IC 0)) (IC 2)));
    SVec v_S2 (VLoad 16 0 (PAdd (PV v_src (IC 0)) (IC 1)));
    SVec v_S1 (VLoad 16 0 (PV v_src (IC 0)));
    SVec v_L0 (VOp2 (UnpL 1) (VV v_S0) (VV v_zero));
    SVec v_L1 (VOp2 (UnpL 1) (VV v_S1) (VV v_zero));
    SVec v_L2 (VOp2 (UnpL 1) (VV v_S2) (VV v_zero));
    SVec v_L3 (VOp2 (UnpL 1) (VV v_S3) (VV v_zero));
    SVec v_H0 (VOp2 (UnpH 1) (VV v_S0) (VV v_zero));
    SVec v_H1 (VOp2 (UnpH 1) (VV v_S1) (VV v_zero));
    SVec v_H2 (VOp2 (UnpH 1) (VV v_S2) (VV v_zero));
    SVec v_H3 (VOp2 (UnpH 1) (VV v_S3) (VV v_zero));
    SVec v_p00 (VOp2 (Add16) (VV v_L1) (VV v_L2));
    SVec v_p10 (VOp2 (Add16) (VV v_H1) (VV v_H2));
    SVec v_p00 (VOp2 (Mul16) (VV v_p00) (VV v_coeff3));
    SVec v_p10 (VOp2 (Mul16) (VV v_p10) (VV v_coeff3));
    SVec v_p01 (VOp2 (Add16) (VV v_L0) (VV v_L3));
    SVec v_p11 (VOp2 (Add16) (VV v_H0) (VV v_H3));
    SVec v_p00 (VOp2 (Add16) (VV v_p00) (VV v_coeff4));
    SVec v_p10 (VOp2 (Add16) (VV v_p10) (VV v_coeff4));
    SVec v_p00 (VOp2 (Add16) (VV v_p00) (VV v_p01));
    SVec v_p10 (VOp2 (Add16) (VV v_p10) (VV v_p11));
    SVec v_p00 (VOp1 (Srl16 3) (VV v_p00));
    SVec v_p10 (VOp1 (Srl16 3) (VV v_p10));
    SVec v_p20 (VOp2 (Add16) (VV v_L1) (VV v_L2));
    SVec v_p30 (VOp2 (Add16) (VV v_H1) (VV v_H2));
    SVec v_p21 (VOp2 (Add16) (VV v_L2) (VV v_L3));
    SVec v_p31 (VOp2 (Add16) (VV v_H2) (VV v_H3));
    SVec v_p20 (VOp2 (Add16) (VV v_p20) (VV v_coeff2));
    SVec v_p30 (VOp2 (Add16) (VV v_p30) (VV v_coeff2));
    SVec v_p20 (VOp2 (Add16) (VV v_p20) (VV v_p21));
    SVec v_p30 (VOp2 (Add16) (VV v_p30) (VV v_p31));
    SVec v_p20 (VOp1 (Srl16 2) (VV v_p20));
    SVec v_p30 (VOp1 (Srl16 2) (VV v_p30));
    SVec v_p00 (VOp2 (Pack16) (VV v_p00) (VV v_p20));
    SVec v_p10 (VOp2 (Pack16) (VV v_p10) (VV v_p30));
    SVec v_p00 (VOp2 (Shuf8) (VV v_p00) (VV v_shuffle));
    SVec v_p10 (VOp2 (Shuf8) (VV v_p10) (VV v_shuffle));
    SStore 16 (PAdd (PV v_first_line (IC 0)) (IV v_i)) (VV v_p00);
    SStore 16 (PAdd (PV v_first_line (IC 0)) (IAdd (IV v_i) (IC 16))) (VV v_p10);
    SInt v_i (IAdd (IV v_i) (IC 32));
    SPtr v_src (IC 0) (PAdd (PV v_src (IC 0)) (IC 16))];
  SIf (ILt (IV v_i) (IV v_left_size)) [
    SVec v_S0 (VLoad 16 0 (PAdd (PV v_src (IC 0)) (ISub (IC 0) (IC 1))));
    SVec v_S3 (VLoad 16 0 (PAdd (PV v_src (IC 0)) (IC 2)));
    SVec v_S2 (VLoad 16 0 (PAdd (PV v_src (IC 0)) (IC 1)));
    SVec v_S1 (VLoad 16 0 (PV v_src (IC 0)));
    SVec v_L0 (VOp2 (UnpL 1) (VV v_S0) (VV v_zero));
    SVec v_L1 (VOp2 (UnpL 1) (VV v_S1) (VV v_zero));
    SVec v_L2 (VOp2 (UnpL 1) (VV v_S2) (VV v_zero));
    SVec v_L3 (VOp2 (UnpL 1) (VV v_S3) (VV v_zero));
    SVec v_p00 (VOp2 (Add16) (VV v_L1) (VV v_L2));
    SVec v_p00 (VOp2 (Mul16) (VV v_p00) (VV v_coeff3));
    SVec v_p01 (VOp2 (Add16) (VV v_L0) (VV v_L3));
    SVec v_p00 (VOp2 (Add16) (VV v_p00) (VV v_coeff4));
    SVec v_p00 (VOp2 (Add16) (VV v_p00) (VV v_p01));
    SVec v_p00 (VOp1 (Srl16 3) (VV v_p00));
    SVec v_p20 (VOp2 (Add16) (VV v_L1) (VV v_L2));
    SVec v_p21 (VOp2 (Add16) (VV v_L2) (VV v_L3));
    SVec v_p20 (VOp2 (Add16) (VV v_p20) (VV v_coeff2));
    SVec v_p20 (VOp2 (Add16) (VV v_p20) (VV v_p21));
    SVec v_p20 (VOp1 (Srl16 2) (VV v_p20));
    SVec v_p00 (VOp2 (Pack16) (VV v_p00) (VV v_p20));
    SVec v_p00 (VOp2 (Shuf8) (VV v_p00) (VV v_shuffle));
    SStore 16 (PAdd (PV v_first_line (IC 0)) (IV v_i)) (VV v_p00)] [];
  SPtr v_src (IC 0) (PV v_pSrc1 (IC 0));
  SInt v_i (IV v_left_size);
  SLoop (ILt (IV v_i) (ISub (IV v_line_size) (IC 8))) [
    SVec v_S0 (VLoad 16 0 (PAdd (PV v_src (IC 0)) (ISub (IC 0) (IC 1))));
    SVec v_S2 (VLoad 16 0 (PAdd (PV v_src (IC 0)) (IC 1)));
    SVec v_S1 (VLoad 16 0 (PV v_src (IC 0)));
    SVec v_L0 (VOp2 (UnpL 1) (VV v_S0) (VV v_zero));
    SVec v_L1 (VOp2 (UnpL 1) (VV v_S1) (VV v_zero));
    SVec v_L2 (VOp2 (UnpL 1) (VV v_S2) (VV v_zero));
    SVec v_H0 (VOp2 (UnpH 1) (VV v_S0) (VV v_zero));
    SVec v_H1 (VOp2 (UnpH 1) (VV v_S1) (VV v_zero));
    SVec v_H2 (VOp2 (UnpH 1) (VV v_S2) (VV v_zero));
    SVec v_sum1 (VOp2 (Add16) (VV v_L0) (VV v_L1));
    SVec v_sum2 (VOp2 (Add16) (VV v_L1) (VV v_L2));
    SVec v_sum3 (VOp2 (Add16) (VV v_H0) (VV v_H1));
    SVec v_sum4 (VOp2 (Add16) (VV v_H1) (VV v_H2));
    SVec v_sum1 (VOp2 (Add16) (VV v_sum1) (VV v_sum2));
    SVec v_sum3 (VOp2 (Add16) (VV v_sum3) (VV v_sum4));
    SVec v_sum1 (VOp2 (Add16) (VV v_sum1) (VV v_coeff2));
    SVec v_sum3 (VOp2 (Add16) (VV v_sum3) (VV v_coeff2));
    SVec v_sum1 (VOp1 (Srl16 2) (VV v_sum1));
    SVec v_sum3 (VOp1 (Srl16 2) (VV v_sum3));
    SVec v_sum1 (VOp2 (Pack16) (VV v_sum1) (VV v_sum3));
    SStore 16 (PAdd (PV v_first_line (IC 0)) (IV v_i)) (VV v_sum1);
    SInt v_i (IAdd (IV v_i) (IC 16));
    SPtr v_src (IC 0) (PAdd (PV v_src (IC 0)) (IC 16))];
  SIf (ILt (IV v_i) (IV v_line_size)) [
    SVec v_S0 (VLoad 16 0 (PAdd (PV v_src (IC 0)) (ISub (IC 0) (IC 1))));
    SVec v_S2 (VLoad 16 0 (PAdd (PV v_src (IC 0)) (IC 1)));
    SVec v_S1 (VLoad 16 0 (PV v_src (IC 0)));
    SVec v_L0 (VOp2 (UnpL 1) (VV v_S0) (VV v_zero));
    SVec v_L1 (VOp2 (UnpL 1) (VV v_S1) (VV v_zero));
    SVec v_L2 (VOp2 (UnpL 1) (VV v_S2) (VV v_zero));
    SVec v_sum1 (VOp2 (Add16) (VV v_L0) (VV v_L1));
    SVec v_sum2 (VOp2 (Add16) (VV v_L1) (VV v_L2));
    SVec v_sum1 (VOp2 (Add16) (VV v_sum1) (VV v_sum2));
    SVec v_sum1 (VOp2 (Add16) (VV v_sum1) (VV v_coeff2));
    SVec v_sum1 (VOp1 (Srl16 2) (VV v_sum1));
    SVec v_sum1 (VOp2 (Pack16) (VV v_sum1) (VV v_sum1));
    SStore 8 (PAdd (PV v_first_line (IC 0)) (IV v_i)) (VV v_sum1)] [];
  SInt v_i (IC 0);
  SLoop (ILt (IV v_i) (IV v_bsy)) [
    SCopy (IV v_bsx) (PV v_dst (IC 0)) (PV v_pfirst (IC 0));
    SPtr v_pfirst (IC 0) (PAdd (PV v_pfirst (IC 0)) (ISub (IC 0) (IC 2)));
    SPtr v_dst (IC 0) (PAdd (PV v_dst (IC 0)) (IV v_i_dst));
    SInt v_i (IAdd (IV v_i) (IC 1))]].

(** vec/intrinsic_intra-pred.cc:7566-7837 [intra_pred_ang_xy_22_sse128] *)
Definition k_ang_xy_22_sse128 : list stm := [
  SPtr v_src (IC 0) (PAdd (PV v_src (IC 0)) (ISub (IC 0) (IV v_bsy)));
  SIf (INot (IEq (IV v_bsx) (IC 4))) [
    SArr v_first_line (IAdd (IC 64) (IC 256));
    SInt v_left_size (IAdd (IMul (ISub (IV v_bsy) (IC 1)) (IC 4)) (IC 3));
    SInt v_top_size (ISub (IV v_bsx) (IC 3));
    SInt v_line_size (IAdd (IV v_left_size) (IV v_top_size));
    SPtr v_pfirst (IC 0) (PAdd (PAdd (PV v_first_line (IC 0)) (IV v_left_size)) (ISub (IC 0) (IC 3)));
    SPtr v_pSrc1 (IC 0) (PV v_src (IC 0));
    SVec v_zero (VConst [0;0;0;0;0;0;0;0;0;0;0;0;0;0;0;0]);
    SVec v_coeff2 (VSet1 2 8 (XC 2));
    SVec v_coeff3 (VSet1 2 8 (XC 3));
    SVec v_coeff4 (VSet1 2 8 (XC 4));
    SVec v_coeff5 (VSet1 2 8 (XC 5));
    SVec v_coeff7 (VSet1 2 8 (XC 7));
    SVec v_coeff8 (VSet1 2 8 (XC 8));
    SVec v_shuffle (VConst [0;8;1;9;2;10;3;11;4;12;5;13;6;14;7;15]);
    SInt v_i (IC 0);
    SLoop (ILt (IV v_i) (ISub (IV v_line_size) (IC 32))) [
      SVec v_S0 (VLoad 16 0 (PAdd (PV v_src (IC 0)) (ISub (IC 0) (IC 1))));
      SVec v_S3 (VLoad 16 0 (PAdd (PV v_src (IC 0)) (IC 2)));
      SVec v_S1 (VLoad 16 0 (PV v_src (IC 0)));
      SVec v_S2 (VLoad 16 0 (PAdd (PV v_src (IC 0)) (IC 1)));
      SVec v_L0 (VOp2 (UnpL 1) (VV v_S0) (VV v_zero));
      SVec v_L1 (VOp2 (UnpL 1) (VV v_S1) (VV v_zero));
      SVec v_L2 (VOp2 (UnpL 1) (VV v_S2) (VV v_zero));
      SVec v_L3 (VOp2 (UnpL 1) (VV v_S3) (VV v_zero));
      SVec v_H0 (VOp2 (UnpH 1) (VV v_S0) (VV v_zero));
      SVec v_H1 (VOp2 (UnpH 1) (VV v_S1) (VV v_zero));
      SVec v_H2 (VOp2 (UnpH 1) (VV v_S2) (VV v_zero));
      SVec v_H3 (VOp2 (UnpH 1) (VV v_S3) (VV v_zero));
      SVec v_p00 (VOp2 (Mul16) (VV v_L0) (VV v_coeff3));
      SVec v_p10 (VOp2 (Mul16) (VV v_L1) (VV v_coeff7));
      SVec v_p20 (VOp2 (Mul16) (VV v_L2) (VV v_coeff5));
      SVec v_p30 (VOp2 (Add16) (VV v_L3) (VV v_coeff8));
      SVec v_p00 (VOp2 (Add16) (VV v_p00) (VV v_p30));
      SVec v_p00 (VOp2 (Add16) (VV v_p00) (VV v_p10));
      SVec v_p00 (VOp2 (Add16) (VV v_p00) (VV v_p20));
      SVec v_M1 (VOp1 (Srl16 4) (VV v_p00));
      SVec v_p01 (VOp2 (Mul16) (VV v_H0) (VV v_coeff3));
      SVec v_p11 (VOp2 (Mul16) (VV v_H1) (VV v_coeff7));
      SVec v_p21 (VOp2 (Mul16) (VV v_H2) (VV v_coeff5));
      SVec v_p31 (VOp2 (Add16) (VV v_H3) (VV v_coeff8));
      SVec v_p01 (VOp2 (Add16) (VV v_p01) (VV v_p31));
      SVec v_p01 (VOp2 (Add16) (VV v_p01) (VV v_p11));
      SVec v_p01 (VOp2 (Add16) (VV v_p01) (VV v_p21));
      SVec v_M2 (VOp1 (Srl16 4) (VV v_p01));
      SVec v_p00 (VOp2 (Add16) (VV v_L1) (VV v_L2));
      SVec v_p00 (VOp2 (Mul16) (VV v_p00) (VV v_coeff3));
      SVec v_p10 (VOp2 (Add16) (VV v_L0) (VV v_L3));
      SVec v_p10 (VOp2 (Add16) (VV v_p10) (VV v_coeff4));
      SVec v_p00 (VOp2 (Add16) (VV v_p10) (VV v_p00));
      SVec v_M3 (VOp1 (Srl16 3) (VV v_p00));
      SVec v_p01 (VOp2 (Add16) (VV v_H1) (VV v_H2));
      SVec v_p01 (VOp2 (Mul16) (VV v_p01) (VV v_coeff3));
      SVec v_p11 (VOp2 (Add16) (VV v_H0) (VV v_H3));
      SVec v_p11 (VOp2 (Add16) (VV v_p11) (VV v_coeff4));
      SVec v_p01 (VOp2 (Add16) (VV v_p11) (VV v_p01));
      SVec v_M4 (VOp1 (Srl16 3) (VV v_p01));
      SVec v_p10 (VOp2 (Mul16) (VV v_L1) (VV v_coeff5));
      SVec v_p20 (VOp2 (Mul16) (VV v_L2) (VV v_coeff7));
      SVec v_p30 (VOp2 (Mul16) (VV v_L3) (VV v_coeff3));
      SVec v_p00 (VOp2 (Add16) (VV v_L0) (VV v_coeff8));
      SVec v_p00 (VOp2 (Add16) (VV v_p00) (VV v_p10));
      SVec v_p00 (VOp2 (Add16) (VV v_p00) (VV v_p20));
      SVec v_p00 (VOp2 (Add16) (VV v_p00) (VV v_p30));
      SVec v_M5 (VOp1 (Srl16 4) (VV v_p00));
      SVec v_p11 (VOp2 (Mul16) (VV v_H1) (VV v_coeff5));
      SVec v_p21 (VOp2 (Mul16) (VV v_H2) (VV v_coeff7));
      SVec v_p31 (VOp2 (Mul16) (VV v_H3) (VV v_coeff3));
      SVec v_p01 (VOp2 (Add16) (VV v_H0) (VV v_coeff8));
      SVec v_p01 (VOp2 (Add16) (VV v_p01) (VV v_p11));
      SVec v_p01 (VOp2 (Add16) (VV v_p01) (VV v_p21));
      SVec v_p01 (VOp2 (Add16) (VV v_p01) (VV v_p31));
      SVec v_M6 (VOp1 (Srl16 4) (VV v_p01));
      SVec v_p00 (VOp2 (Add16) (VV v_L1) (VV v_L2));
      SVec v_p10 (VOp2 (Add16) (VV v_L2) (VV v_L3));
      SVec v_p00 (VOp2 (Add16) (VV v_p00) (VV v_p10));
      SVec v_p00 (VOp2 (Add16) (VV v_p00) (VV v_coeff2));
      SVec v_M7 (VOp1 (Srl16 2) (VV v_p00));
      SVec v_p01 (VOp2 (Add16) (VV v_H1) (VV v_H2));
      SVec v_p11 (VOp2 (Add16) (VV v_H2) (VV v_H3));
      SVec v_p01 (VOp2 (Add16) (VV v_p01) (VV v_p11));
      SVec v_p01 (VOp2 (Add16) (VV v_p01) (VV v_coeff2));
      SVec v_M8 (VOp1 (Srl16 2) (VV v_p01));
      SVec v_M1 (VOp2 (Pack16) (VV v_M1) (VV v_M3));
      SVec v_M5 (VOp2 (Pack16) (VV v_M5) (VV v_M7));
      SVec v_M1 (VOp2 (Shuf8) (VV v_M1) (VV v_shuffle));
      SVec v_M5 (VOp2 (Shuf8) (VV v_M5) (VV v_shuffle));
      SVec v_M2 (VOp2 (Pack16) (VV v_M2) (VV v_M4));
      SVec v_M6 (VOp2 (Pack16) (VV v_M6) (VV v_M8));
      SVec v_M2 (VOp2 (Shuf8) (VV v_M2) (VV v_shuffle));
      SVec v_M6 (VOp2 (Shuf8) (VV v_M6) (VV v_shuffle));
      SVec v_M3 (VOp2 (UnpL 2) (VV v_M1) (VV v_M5));
      SVec v_M7 (VOp2 (UnpH 2) (VV v_M1) (VV v_M5));
      SVec v_M4 (VOp2 (UnpL 2) (VV v_M2) (VV v_M6));
      SVec v_M8 (VOp2 (UnpH 2) (VV v_M2) (VV v_M6));
      SStore 16 (PAdd (PV v_first_line (IC 0)) (IV v_i)) (VV v_M3);
      SStore 16 (PAdd (PV v_first_line (IC 0)) (IAdd (IC 16) (IV v_i))) (VV v_M7);
      SStore 16 (PAdd (PV v_first_line (IC 0)) (IAdd (IC 32) (IV v_i))) (VV v_M4);
      SStore 16 (PAdd (PV v_first_line (IC 0)) (IAdd (IC 48) (IV v_i))) (VV v_M8);
      SInt v_i (IAdd (IV v_i) (IC 64));
      SPtr v_src (IC 0) (PAdd (PV v_src (IC 0)) (IC 16))];
    SIf (ILt (IV v_i) (IV v_left_size)) [
      SVec v_S0 (VLoad 16 0 (PAdd (PV v_src (IC 0)) (ISub (IC 0) (IC 1))));
      SVec v_S3 (VLoad 16 0 (PAdd (PV v_src (IC 0)) (IC 2)));
      SVec v_S1 (VLoad 16 0 (PV v_src (IC 0)));
      SVec v_S2 (VLoad 16 0 (PAdd (PV v_src (IC 0)) (IC 1)));
      SVec v_L0 (VOp2 (UnpL 1) (VV v_S0) (VV v_zero));
      SVec v_L1 (VOp2 (UnpL 1) (VV v_S1) (VV v_zero));
      SVec v_L2 (VOp2 (UnpL 1) (VV v_S2) (VV v_zero));
      SVec v_L3 (VOp2 (UnpL 1) (VV v_S3) (VV v_zero));
      SVec v_p00 (VOp2 (Mul16) (VV v_L0) (VV v_coeff3));
      SVec v_p10 (VOp2 (Mul16) (VV v_L1) (VV v_coeff7));
      SVec v_p20 (VOp2 (Mul16) (VV v_L2) (VV v_coeff5));
      SVec v_p30 (VOp2 (Add16) (VV v_L3) (VV v_coeff8));
      SVec v_p00 (VOp2 (Add16) (VV v_p00) (VV v_p30));
      SVec v_p00 (VOp2 (Add16) (VV v_p00) (VV v_p10));
      SVec v_p00 (VOp2 (Add16) (VV v_p00) (VV v_p20));
      SVec v_M1 (VOp1 (Srl16 4) (VV v_p00));
      SVec v_p00 (VOp2 (Add16) (VV v_L1) (VV v_L2));
      SVec v_p00 (VOp2 (Mul16) (VV v_p00) (VV v_coeff3));
      SVec v_p10 (VOp2 (Add16) (VV v_L0) (VV v_L3));
      SVec v_p10 (VOp2 (Add16) (VV v_p10) (VV v_coeff4));
      SVec v_p00 (VOp2 (Add16) (VV v_p10) (VV v_p00));
      SVec v_M3 (VOp1 (Srl16 3) (VV v_p00));
      SVec v_p10 (VOp2 (Mul16) (VV v_L1) (VV v_coeff5));
      SVec v_p20 (VOp2 (Mul16) (VV v_L2) (VV v_coeff7));
      SVec v_p30 (VOp2 (Mul16) (VV v_L3) (VV v_coeff3));
      SVec v_p00 (VOp2 (Add16) (VV v_L0) (VV v_coeff8));
      SVec v_p00 (VOp2 (Add16) (VV v_p00) (VV v_p10));
      SVec v_p00 (VOp2 (Add16) (VV v_p00) (VV v_p20));
      SVec v_p00 (VOp2 (Add16) (VV v_p00) (VV v_p30));
      SVec v_M5 (VOp1 (Srl16 4) (VV v_p00));
      SVec v_p00 (VOp2 (Add16) (VV v_L1) (VV v_L2));
      SVec v_p10 (VOp2 (Add16) (VV v_L2) (VV v_L3));
      SVec v_p00 (VOp2 (Add16) (VV v_p00) (VV v_p10));
      SVec v_p00 (VOp2 (Add16) (VV v_p00) (VV v_coeff2));
      SVec v_M7 (VOp1 (Srl16 2) (VV v_p00));
      SVec v_M1 (VOp2 (Pack16) (VV v_M1) (VV v_M3));
      SVec v_M5 (VOp2 (Pack16) (VV v_M5) (VV v_M7));
      SVec v_M1 (VOp2 (Shuf8) (VV v_M1) (VV v_shuffle));
      SVec v_M5 (VOp2 (Shuf8) (VV v_M5) (VV v_shuffle));
      SVec v_M3 (VOp2 (UnpL 2) (VV v_M1) (VV v_M5));
      SVec v_M7 (VOp2 (UnpH 2) (VV v_M1) (VV v_M5));
      SStore 16 (PAdd (PV v_first_line (IC 0)) (IV v_i)) (VV v_M3);
      SStore 16 (PAdd (PV v_first_line (IC 0)) (IAdd (IC 16) (IV v_i))) (VV v_M7)] [];
    SPtr v_src (IC 0) (PAdd (PV v_pSrc1 (IC 0)) (IV v_bsy));
    SInt v_i (IV v_left_size);
    SLoop (ILt (IV v_i) (ISub (IV v_line_size) (IC 8))) [
      SVec v_S0 (VLoad 16 0 (PAdd (PV v_src (IC 0)) (ISub (IC 0) (IC 1))));
      SVec v_S2 (VLoad 16 0 (PAdd (PV v_src (IC 0)) (IC 1)));
      SVec v_S1 (VLoad 16 0 (PV v_src (IC 0)));
      SVec v_L0 (VOp2 (UnpL 1) (VV v_S0) (VV v_zero));
      SVec v_L1 (VOp2 (UnpL 1) (VV v_S1) (VV v_zero));
      SVec v_L2 (VOp2 (UnpL 1) (VV v_S2) (VV v_zero));
      SVec v_H0 (VOp2 (UnpH 1) (VV v_S0) (VV v_zero));
      SVec v_H1 (VOp2 (UnpH 1) (VV v_S1) (VV v_zero));
      SVec v_H2 (VOp2 (UnpH 1) (VV v_S2) (VV v_zero));
      SVec v_sum1 (VOp2 (Add16) (VV v_L0) (VV v_L1));
      SVec v_sum2 (VOp2 (Add16) (VV v_L1) (VV v_L2));
      SVec v_sum3 (VOp2 (Add16) (VV v_H0) (VV v_H1));
      SVec v_sum4 (VOp2 (Add16) (VV v_H1) (VV v_H2));
      SVec v_sum1 (VOp2 (Add16) (VV v_sum1) (VV v_sum2));
      SVec v_sum3 (VOp2 (Add16) (VV v_sum3) (VV v_sum4));
      SVec v_sum1 (VOp2 (Add16) (VV v_sum1) (VV v_coeff2));
      SVec v_sum3 (VOp2 (Add16) (VV v_sum3) (VV v_coeff2));
      SVec v_sum1 (VOp1 (Srl16 2) (VV v_sum1));
      SVec v_sum3 (VOp1 (Srl16 2) (VV v_sum3));
      SVec v_sum1 (VOp2 (Pack16) (VV v_sum1) (VV v_sum3));
      SStore 16 (PAdd (PV v_first_line (IC 0)) (IV v_i)) (VV v_sum1);
      SInt v_i (IAdd (IV v_i) (IC 16));
      SPtr v_src (IC 0) (PAdd (PV v_src (IC 0)) (IC 16))];
    SIf (ILt (IV v_i) (IV v_line_size)) [
      SVec v_S0 (VLoad 16 0 (PAdd (PV v_src (IC 0)) (ISub (IC 0) (IC 1))));
      SVec v_S2 (VLoad 16 0 (PAdd (PV v_src (IC 0)) (IC 1)));
      SVec v_S1 (VLoad 16 0 (PV v_src (IC 0)));
      SVec v_L0 (VOp2 (UnpL 1) (VV v_S0) (VV v_zero));
      SVec v_L1 (VOp2 (UnpL 1) (VV v_S1) (VV v_zero));
      SVec v_L2 (VOp2 (UnpL 1) (VV v_S2) (VV v_zero));
      SVec v_sum1 (VOp2 (Add16) (VV v_L0) (VV v_L1));
      SVec v_sum2 (VOp2 (Add16) (VV v_L1) (VV v_L2));
      SVec v_sum1 (VOp2 (Add16) (VV v_sum1) (VV v_sum2));
      SVec v_sum1 (VOp2 (Add16) (VV v_sum1) (VV v_coeff2));
      SVec v_sum1 (VOp1 (Srl16 2) (VV v_sum1));
      SVec v_sum1 (VOp2 (Pack16) (VV v_sum1) (VV v_sum1));
      SStore 8 (PAdd (PV v_first_line (IC 0)) (IV v_i)) (VV v_sum1)] [];
    SIf (IEq (IV v_bsx) (IC 8)) [
      SLoop (IV v_bsy) [
        SInt v_bsy (ISub (IV v_bsy) (IC 1));
        SCopy (IC 8) (PV v_dst (IC 0)) (PV v_pfirst (IC 0));
        SPtr v_dst (IC 0) (PAdd (PV v_dst (IC 0)) (IV v_i_dst));
        SPtr v_pfirst (IC 0) (PAdd (PV v_pfirst (IC 0)) (ISub (IC 0) (IC 4)))];
      SInt v_bsy (ISub (IV v_bsy) (IC 1))] [
      SIf (ILor (ILor (IEq (IV v_bsx) (IC 16)) (IEq (IV v_bsx) (IC 32))) (IEq (IV v_bsx) (IC 64))) [
        SLoop (IV v_bsy) [
          SInt v_bsy (ISub (IV v_bsy) (IC 1));
          SCopy (IV v_bsx) (PV v_dst (IC 0)) (PV v_pfirst (IC 0));
          SPtr v_dst (IC 0) (PAdd (PV v_dst (IC 0)) (IV v_i_dst));
          SPtr v_pfirst (IC 0) (PAdd (PV v_pfirst (IC 0)) (ISub (IC 0) (IC 4)))];
        SInt v_bsy (ISub (IV v_bsy) (IC 1))] [
        SFail]]] [
    SPtr v_dst (IC 0) (PAdd (PV v_dst (IC 0)) (IMul (ISub (IV v_bsy) (IC 1)) (IV v_i_dst)));
    SInt v_i (IC 0);
    SLoop (ILt (IV v_i) (IV v_bsy)) [
      SPut (PV v_dst (IC 0)) (XShr (XAdd (XAdd (XAdd (XAdd (XMul (XLd (PAdd (PV v_src (IC 0)) (IC (-1)))) (XC 3)) (XMul (XLd (PV v_src (IC 0))) (XC 7))) (XMul (XLd (PAdd (PV v_src (IC 0)) (IC 1))) (XC 5))) (XLd (PAdd (PV v_src (IC 0)) (IC 2)))) (XC 8)) 4);
      SPut (PAdd (PV v_dst (IC 0)) (IC 1)) (XShr (XAdd (XAdd (XAdd (XLd (PAdd (PV v_src (IC 0)) (IC (-1)))) (XMul (XAdd (XLd (PV v_src (IC 0))) (XLd (PAdd (PV v_src (IC 0)) (IC 1)))) (XC 3))) (XLd (PAdd (PV v_src (IC 0)) (IC 2)))) (XC 4)) 3);
      SPut (PAdd (PV v_dst (IC 0)) (IC 2)) (XShr (XAdd (XAdd (XAdd (XAdd (XLd (PAdd (PV v_src (IC 0)) (IC (-1)))) (XMul (XLd (PV v_src (IC 0))) (XC 5))) (XMul (XLd (PAdd (PV v_src (IC 0)) (IC 1))) (XC 7))) (XMul (XLd (PAdd (PV v_src (IC 0)) (IC 2))) (XC 3))) (XC 8)) 4);
      SPut (PAdd (PV v_dst (IC 0)) (IC 3)) (XShr (XAdd (XAdd (XAdd (XLd (PV v_src (IC 0))) (XMul (XLd (PAdd (PV v_src (IC 0)) (IC 1))) (XC 2))) (XLd (PAdd (PV v_src (IC 0)) (IC 2)))) (XC 2)) 2);
      SPtr v_dst (IC 0) (PAdd (PV v_dst (IC 0)) (ISub (IC 0) (IV v_i_dst)));
      SInt v_i (IAdd (IV v_i) (IC 1));
      SPtr v_src (IC 0) (PAdd (PV v_src (IC 0)) (IC 1))]]].

(** vec/intrinsic_intra-pred.cc:7842-8303 [intra_pred_ang_xy_23_sse128] *)
Definition k_ang_xy_23_sse128 : list stm := [
  SIf (ILt (IC 8) (IV v_bsx)) [
    SArr v_first_line (IAdd (IC 64) (IC 512));
    SInt v_left_size (ISub (IShl (IV v_bsy) (IC 3)) (IC 1));
    SInt v_top_size (ISub (IV v_bsx) (IC 7));
    SInt v_line_size (IAdd (IV v_left_size) (IV v_top_size));
    SPtr v_pfirst (IC 0) (PAdd (PAdd (PV v_first_line (IC 0)) (IV v_left_size)) (ISub (IC 0) (IC 7)));
    SPtr v_pfirst1 (IC 0) (PV v_first_line (IC 0));
    SPtr v_src_org (IC 0) (PV v_src (IC 0));
    SPtr v_src (IC 0) (PAdd (PV v_src (IC 0)) (ISub (IC 0) (IV v_bsy)));
    SVec v_zero (VConst [0;0;0;0;0;0;0;0;0;0;0;0;0;0;0;0]);
    SVec v_coeff0 (VConst [7;0;3;0;5;0;1;0;3;0;1;0;1;0;0;0]);
    SVec v_coeff1 (VConst [15;0;7;0;13;0;3;0;11;0;5;0;9;0;1;0]);
    SVec v_coeff2 (VConst [9;0;5;0;11;0;3;0;13;0;7;0;15;0;2;0]);
    SVec v_coeff3 (VConst [1;0;1;0;3;0;1;0;5;0;3;0;7;0;1;0]);
    SVec v_coeff4 (VConst [16;0;8;0;16;0;4;0;16;0;8;0;16;0;2;0]);
    SVec v_coeff5 (VConst [1;0;2;0;1;0;4;0;1;0;2;0;1;0;8;0]);
    SVec v_L0 (VSet1 2 8 (XLd (PAdd (PV v_src (IC 0)) (IC (-1)))));
    SVec v_L1 (VSet1 2 8 (XLd (PV v_src (IC 0))));
    SVec v_L2 (VSet1 2 8 (XLd (PAdd (PV v_src (IC 0)) (IC 1))));
    SVec v_L3 (VSet1 2 8 (XLd (PAdd (PV v_src (IC 0)) (IC 2))));
    SPtr v_src (IC 0) (PAdd (PV v_src (IC 0)) (IC 4));
    SInt v_i (IC 0);
    SLoop (ILt (IV v_i) (IAdd (IV v_left_size) (IC 1))) [
      SVec v_p00 (VOp2 (Mul16) (VV v_L0) (VV v_coeff0));
      SVec v_p10 (VOp2 (Mul16) (VV v_L1) (VV v_coeff1));
      SVec v_p20 (VOp2 (Mul16) (VV v_L2) (VV v_coeff2));
      SVec v_p30 (VOp2 (Mul16) (VV v_L3) (VV v_coeff3));
      SVec v_p00 (VOp2 (Add16) (VV v_p00) (VV v_coeff4));
      SVec v_p00 (VOp2 (Add16) (VV v_p00) (VV v_p10));
      SVec v_p00 (VOp2 (Add16) (VV v_p00) (VV v_p20));
      SVec v_p00 (VOp2 (Add16) (VV v_p00) (VV v_p30));
      SVec v_p00 (VOp2 (Mul16) (VV v_p00) (VV v_coeff5));
      SVec v_p00 (VOp1 (Srl16 5) (VV v_p00));
      SVec v_p00 (VOp2 (Pack16) (VV v_p00) (VV v_p00));
      SStore 8 (PV v_pfirst1 (IC 0)) (VV v_p00);
      SPtr v_pfirst1 (IC 0) (PAdd (PV v_pfirst1 (IC 0)) (IC 8));
      SVec v_L0 (VSet1 2 8 (XLd (PAdd (PV v_src (IC 0)) (IC (-1)))));
      SVec v_p00 (VOp2 (Mul16) (VV v_L1) (VV v_coeff0));
      SVec v_p10 (VOp2 (Mul16) (VV v_L2) (VV v_coeff1));
      SVec v_p20 (VOp2 (Mul16) (VV v_L3) (VV v_coeff2));
      SVec v_p30 (VOp2 (Mul16) (VV v_L0) (VV v_coeff3));
      SVec v_p00 (VOp2 (Add16) (VV v_p00) (VV v_coeff4));
      SVec v_p00 (VOp2 (Add16) (VV v_p00) (VV v_p10));
      SVec v_p00 (VOp2 (Add16) (VV v_p00) (VV v_p20));
      SVec v_p00 (VOp2 (Add16) (VV v_p00) (VV v_p30));
      SVec v_p00 (VOp2 (Mul16) (VV v_p00) (VV v_coeff5));
      SVec v_p00 (VOp1 (Srl16 5) (VV v_p00));
      SVec v_p00 (VOp2 (Pack16) (VV v_p00) (VV v_p00));
      SStore 8 (PV v_pfirst1 (IC 0)) (VV v_p00);
      SPtr v_pfirst1 (IC 0) (PAdd (PV v_pfirst1 (IC 0)) (IC 8));
      SVec v_L1 (VSet1 2 8 (XLd (PV v_src (IC 0))));
      SVec v_p00 (VOp2 (Mul16) (VV v_L2) (VV v_coeff0));
      SVec v_p10 (VOp2 (Mul16) (VV v_L3) (VV v_coeff1));
      SVec v_p20 (VOp2 (Mul16) (VV v_L0) (VV v_coeff2));
      SVec v_p30 (VOp2 (Mul16) (VV v_L1) (VV v_coeff3));
      SVec v_p00 (VOp2 (Add16) (VV v_p00) (VV v_coeff4));
      SVec v_p00 (VOp2 (Add16) (VV v_p00) (VV v_p10));
      SVec v_p00 (VOp2 (Add16) (VV v_p00) (VV v_p20));
      SVec v_p00 (VOp2 (Add16) (VV v_p00) (VV v_p30));
      SVec v_p00 (VOp2 (Mul16) (VV v_p00) (VV v_coeff5));
      SVec v_p00 (VOp1 (Srl16 5) (VV v_p00));
      SVec v_p00 (VOp2 (Pack16) (VV v_p00) (VV v_p00));
      SStore 8 (PV v_pfirst1 (IC 0)) (VV v_p00);
      SPtr v_pfirst1 (IC 0) (PAdd (PV v_pfirst1 (IC 0)) (IC 8));
      SVec v_L2 (VSet1 2 8 (XLd (PAdd (PV v_src (IC 0)) (IC 1))));
      SVec v_p00 (VOp2 (Mul16) (VV v_L3) (VV v_coeff0));
      SVec v_p10 (VOp2 (Mul16) (VV v_L0) (VV v_coeff1));
      SVec v_p20 (VOp2 (Mul16) (VV v_L1) (VV v_coeff2));
      SVec v_p30 (VOp2 (Mul16) (VV v_L2) (VV v_coeff3));
      SVec v_p00 (VOp2 (Add16) (VV v_p00) (VV v_coeff4));
      SVec v_p00 (VOp2 (Add16) (VV v_p00) (VV v_p10));
      SVec v_p00 (VOp2 (Add16) (VV v_p00) (VV v_p20));
      SVec v_p00 (VOp2 (Add16) (VV v_p00) (VV v_p30));
      SVec v_p00 (VOp2 (Mul16) (VV v_p00) (VV v_coeff5));
      SVec v_p00 (VOp1 (Srl16 5) (VV v_p00));
      SVec v_p00 (VOp2 (Pack16) (VV v_p00) (VV v_p00));
      SStore 8 (PV v_pfirst1 (IC 0)) (VV v_p00);
      SPtr v_pfirst1 (IC 0) (PAdd (PV v_pfirst1 (IC 0)) (IC 8));
      SVec v_L3 (VSet1 2 8 (XLd (PAdd (PV v_src (IC 0)) (IC 2))));
      SInt v_i (IAdd (IV v_i) (IC 32));
      SPtr v_src (IC 0) (PAdd (PV v_src (IC 0)) (IC 4))];
    SPtr v_src (IC 0) (PAdd (PV v_src_org (IC 0)) (IC 1));
    SLoop (ILt (IV v_i) (IV v_line_size)) [
      SVec v_coeff2 (VSet1 2 8 (XC 2));
      SVec v_S0 (VLoad 16 0 (PV v_src (IC 0)));
      SVec v_S1 (VLoad 16 0 (PAdd (PV v_src (IC 0)) (IC 1)));
      SVec v_S2 (VLoad 16 0 (PAdd (PV v_src (IC 0)) (ISub (IC 0) (IC 1))));
      SVec v_L0 (VOp2 (UnpL 1) (VV v_S0) (VV v_zero));
      SVec v_L1 (VOp2 (UnpL 1) (VV v_S1) (VV v_zero));
      SVec v_L2 (VOp2 (UnpL 1) (VV v_S2) (VV v_zero));
      SVec v_H0 (VOp2 (UnpH 1) (VV v_S0) (VV v_zero));
      SVec v_H1 (VOp2 (UnpH 1) (VV v_S1) (VV v_zero));
      SVec v_H2 (VOp2 (UnpH 1) (VV v_S2) (VV v_zero));
      SVec v_p00 (VOp2 (Mul16) (VV v_L0) (VV v_coeff2));
      SVec v_p10 (VOp2 (Add16) (VV v_L1) (VV v_L2));
      SVec v_p00 (VOp2 (Add16) (VV v_p00) (VV v_coeff2));
      SVec v_p00 (VOp2 (Add16) (VV v_p00) (VV v_p10));
      SVec v_p00 (VOp1 (Srl16 2) (VV v_p00));
      SVec v_p01 (VOp2 (Mul16) (VV v_H0) (VV v_coeff2));
      SVec v_p11 (VOp2 (Add16) (VV v_H1) (VV v_H2));
      SVec v_p01 (VOp2 (Add16) (VV v_p01) (VV v_coeff2));
      SVec v_p01 (VOp2 (Add16) (VV v_p01) (VV v_p11));
      SVec v_p01 (VOp1 (Srl16 2) (VV v_p01));
      SVec v_p00 (VOp2 (Pack16) (VV v_p00) (VV v_p01));
      SStore 16 (PAdd (PV v_first_line (IC 0)) (IV v_i)) (VV v_p00);
      SInt v_i (IAdd (IV v_i) (IC 16));
      SPtr v_src (IC 0) (PAdd (PV v_src (IC 0)) (IC 16))];
    SInt v_i (IC 0);
    SLoop (ILt (IV v_i) (IV v_bsy)) [
      SCopy (IV v_bsx) (PV v_dst (IC 0)) (PV v_pfirst (IC 0));
      SPtr v_dst (IC 0) (PAdd (PV v_dst (IC 0)) (IV v_i_dst));
      SPtr v_pfirst (IC 0) (PAdd (PV v_pfirst (IC 0)) (ISub (IC 0) (IC 8)));
      SInt v_i (IAdd (IV v_i) (IC 1))]] [
    SIf (IEq (IV v_bsx) (IC 8)) [
      SVec v_coeff0 (VConst [7;0;3;0;5;0;1;0;3;0;1;0;1;0;0;0]);
      SVec v_coeff1 (VConst [15;0;7;0;13;0;3;0;11;0;5;0;9;0;1;0]);
      SVec v_coeff2 (VConst [9;0;5;0;11;0;3;0;13;0;7;0;15;0;2;0]);
      SVec v_coeff3 (VConst [1;0;1;0;3;0;1;0;5;0;3;0;7;0;1;0]);
      SVec v_coeff4 (VConst [16;0;8;0;16;0;4;0;16;0;8;0;16;0;2;0]);
      SVec v_coeff5 (VConst [1;0;2;0;1;0;4;0;1;0;2;0;1;0;8;0]);
      SVec v_L0 (VSet1 2 8 (XLd (PAdd (PV v_src (IC 0)) (IC (-2)))));
      SVec v_L1 (VSet1 2 8 (XLd (PAdd (PV v_src (IC 0)) (IC (-1)))));
      SVec v_L2 (VSet1 2 8 (XLd (PV v_src (IC 0))));
      SVec v_L3 (VSet1 2 8 (XLd (PAdd (PV v_src (IC 0)) (IC 1))));
      SPtr v_src (IC 0) (PAdd (PV v_src (IC 0)) (ISub (IC 0) (IC 4)));
      SInt v_bsy (IShr (IV v_bsy) (IC 2));
      SInt v_i (IC 0);
      SLoop (ILt (IV v_i) (IV v_bsy)) [
        SVec v_p00 (VOp2 (Mul16) (VV v_L0) (VV v_coeff0));
        SVec v_p10 (VOp2 (Mul16) (VV v_L1) (VV v_coeff1));
        SVec v_p20 (VOp2 (Mul16) (VV v_L2) (VV v_coeff2));
        SVec v_p30 (VOp2 (Mul16) (VV v_L3) (VV v_coeff3));
        SVec v_p00 (VOp2 (Add16) (VV v_p00) (VV v_coeff4));
        SVec v_p00 (VOp2 (Add16) (VV v_p00) (VV v_p10));
        SVec v_p00 (VOp2 (Add16) (VV v_p00) (VV v_p20));
        SVec v_p00 (VOp2 (Add16) (VV v_p00) (VV v_p30));
        SVec v_p00 (VOp2 (Mul16) (VV v_p00) (VV v_coeff5));
        SVec v_p00 (VOp1 (Srl16 5) (VV v_p00));
        SVec v_p00 (VOp2 (Pack16) (VV v_p00) (VV v_p00));
        SStore 8 (PV v_dst (IC 0)) (VV v_p00);
        SPtr v_dst (IC 0) (PAdd (PV v_dst (IC 0)) (IV v_i_dst));
        SVec v_L3 (VSet1 2 8 (XLd (PAdd (PV v_src (IC 0)) (IC 1))));
        SVec v_p00 (VOp2 (Mul16) (VV v_L3) (VV v_coeff0));
        SVec v_p10 (VOp2 (Mul16) (VV v_L0) (VV v_coeff1));
        SVec v_p20 (VOp2 (Mul16) (VV v_L1) (VV v_coeff2));
        SVec v_p30 (VOp2 (Mul16) (VV v_L2) (VV v_coeff3));
        SVec v_p00 (VOp2 (Add16) (VV v_p00) (VV v_coeff4));
        SVec v_p00 (VOp2 (Add16) (VV v_p00) (VV v_p10));
        SVec v_p00 (VOp2 (Add16) (VV v_p00) (VV v_p20));
        SVec v_p00 (VOp2 (Add16) (VV v_p00) (VV v_p30));
        SVec v_p00 (VOp2 (Mul16) (VV v_p00) (VV v_coeff5));
        SVec v_p00 (VOp1 (Srl16 5) (VV v_p00));
        SVec v_p00 (VOp2 (Pack16) (VV v_p00) (VV v_p00));
        SStore 8 (PV v_dst (IC 0)) (VV v_p00);
        SPtr v_dst (IC 0) (PAdd (PV v_dst (IC 0)) (IV v_i_dst));
        SVec v_L2 (VSet1 2 8 (XLd (PV v_src (IC 0))));
        SVec v_p00 (VOp2 (Mul16) (VV v_L2) (VV v_coeff0));
        SVec v_p10 (VOp2 (Mul16) (VV v_L3) (VV v_coeff1));
        SVec v_p20 (VOp2 (Mul16) (VV v_L0) (VV v_coeff2));
        SVec v_p30 (VOp2 (Mul16) (VV v_L1) (VV v_coeff3));
        SVec v_p00 (VOp2 (Add16) (VV v_p00) (VV v_coeff4));
        SVec v_p00 (VOp2 (Add16) (VV v_p00) (VV v_p10));
        SVec v_p00 (VOp2 (Add16) (VV v_p00) (VV v_p20));
        SVec v_p00 (VOp2 (Add16) (VV v_p00) (VV v_p30));
        SVec v_p00 (VOp2 (Mul16) (VV v_p00) (VV v_coeff5));
        SVec v_p00 (VOp1 (Srl16 5) (VV v_p00));
        SVec v_p00 (VOp2 (Pack16) (VV v_p00) (VV v_p00));
        SStore 8 (PV v_dst (IC 0)) (VV v_p00);
        SPtr v_dst (IC 0) (PAdd (PV v_dst (IC 0)) (IV v_i_dst));
        SVec v_L1 (VSet1 2 8 (XLd (PAdd (PV v_src (IC 0)) (IC (-1)))));
        SVec v_p00 (VOp2 (Mul16) (VV v_L1) (VV v_coeff0));
        SVec v_p10 (VOp2 (Mul16) (VV v_L2) (VV v_coeff1));
        SVec v_p20 (VOp2 (Mul16) (VV v_L3) (VV v_coeff2));
        SVec v_p30 (VOp2 (Mul16) (VV v_L0) (VV v_coeff3));
        SVec v_p00 (VOp2 (Add16) (VV v_p00) (VV v_coeff4));
        SVec v_p00 (VOp2 (Add16) (VV v_p00) (VV v_p10));
        SVec v_p00 (VOp2 (Add16) (VV v_p00) (VV v_p20));
        SVec v_p00 (VOp2 (Add16) (VV v_p00) (VV v_p30));
        SVec v_p00 (VOp2 (Mul16) (VV v_p00) (VV v_coeff5));
        SVec v_p00 (VOp1 (Srl16 5) (VV v_p00));
        SVec v_p00 (VOp2 (Pack16) (VV v_p00) (VV v_p00));
        SStore 8 (PV v_dst (IC 0)) (VV v_p00);
        SPtr v_dst (IC 0) (PAdd (PV v_dst (IC 0)) (IV v_i_dst));
        SVec v_L0 (VSet1 2 8 (XLd (PAdd (PV v_src (IC 0)) (IC (-2)))));
        SInt v_i (IAdd (IV v_i) (IC 1));
        SPtr v_src (IC 0) (PAdd (PV v_src (IC 0)) (ISub (IC 0) (IC 4)))]] [
      SVec v_zero (VConst [0;0;0;0;0;0;0;0;0;0;0;0;0;0;0;0]);
      SVec v_coeff3 (VSet1 2 8 (XC 3));
      SVec v_coeff4 (VSet1 2 8 (XC 4));
      SVec v_coeff5 (VSet1 2 8 (XC 5));
      SVec v_coeff7 (VSet1 2 8 (XC 7));
      SVec v_coeff8 (VSet1 2 8 (XC 8));
      SVec v_coeff9 (VSet1 2 8 (XC 9));
      SVec v_coeff11 (VSet1 2 8 (XC 11));
      SVec v_coeff13 (VSet1 2 8 (XC 13));
      SVec v_coeff15 (VSet1 2 8 (XC 15));
      SVec v_coeff16 (VSet1 2 8 (XC 16));
      SVec v_shuffle (VConst [7;15;6;14;5;13;4;12;3;11;2;10;1;9;0;8]);
      SIf (IEq (IV v_bsy) (IC 4)) [
        SPtr v_src (IC 0) (PAdd (PV v_src (IC 0)) (ISub (IC 0) (IC 15)));
        SVec v_S0 (VLoad 16 0 (PAdd (PV v_src (IC 0)) (ISub (IC 0) (IC 2))));
        SVec v_S3 (VLoad 16 0 (PAdd (PV v_src (IC 0)) (IC 1)));
        SVec v_S1 (VLoad 16 0 (PAdd (PV v_src (IC 0)) (ISub (IC 0) (IC 1))));
        SVec v_S2 (VLoad 16 0 (PV v_src (IC 0)));
        SVec v_H0 (VOp2 (UnpH 1) (VV v_S0) (VV v_zero));
        SVec v_H1 (VOp2 (UnpH 1) (VV v_S1) (VV v_zero));
        SVec v_H2 (VOp2 (UnpH 1) (VV v_S2) (VV v_zero));
        SVec v_H3 (VOp2 (UnpH 1) (VV v_S3) (VV v_zero));
        SVec v_p01 (VOp2 (Mul16) (VV v_H0) (VV v_coeff7));
        SVec v_p11 (VOp2 (Mul16) (VV v_H1) (VV v_coeff15));
        SVec v_p21 (VOp2 (Mul16) (VV v_H2) (VV v_coeff9));
        SVec v_p31 (VOp2 (Add16) (VV v_H3) (VV v_coeff16));
        SVec v_p01 (VOp2 (Add16) (VV v_p01) (VV v_p11));
        SVec v_p01 (VOp2 (Add16) (VV v_p01) (VV v_p21));
        SVec v_p01 (VOp2 (Add16) (VV v_p01) (VV v_p31));
        SVec v_M2 (VOp1 (Srl16 5) (VV v_p01));
        SVec v_p01 (VOp2 (Mul16) (VV v_H0) (VV v_coeff3));
        SVec v_p11 (VOp2 (Mul16) (VV v_H1) (VV v_coeff7));
        SVec v_p21 (VOp2 (Mul16) (VV v_H2) (VV v_coeff5));
        SVec v_p31 (VOp2 (Add16) (VV v_H3) (VV v_coeff8));
        SVec v_p01 (VOp2 (Add16) (VV v_p01) (VV v_p11));
        SVec v_p01 (VOp2 (Add16) (VV v_p01) (VV v_p21));
        SVec v_p01 (VOp2 (Add16) (VV v_p01) (VV v_p31));
        SVec v_M4 (VOp1 (Srl16 4) (VV v_p01));
        SVec v_p01 (VOp2 (Mul16) (VV v_H0) (VV v_coeff5));
        SVec v_p11 (VOp2 (Mul16) (VV v_H1) (VV v_coeff13));
        SVec v_p21 (VOp2 (Mul16) (VV v_H2) (VV v_coeff11));
        SVec v_p31 (VOp2 (Mul16) (VV v_H3) (VV v_coeff3));
        SVec v_p01 (VOp2 (Add16) (VV v_p01) (VV v_coeff16));
        SVec v_p01 (VOp2 (Add16) (VV v_p01) (VV v_p11));
        SVec v_p01 (VOp2 (Add16) (VV v_p01) (VV v_p21));
        SVec v_p01 (VOp2 (Add16) (VV v_p01) (VV v_p31));
        SVec v_M6 (VOp1 (Srl16 5) (VV v_p01));
        SVec v_p01 (VOp2 (Add16) (VV v_H0) (VV v_H3));
        SVec v_p11 (VOp2 (Add16) (VV v_H1) (VV v_H2));
        SVec v_p11 (VOp2 (Mul16) (VV v_p11) (VV v_coeff3));
        SVec v_p01 (VOp2 (Add16) (VV v_p01) (VV v_coeff4));
        SVec v_p01 (VOp2 (Add16) (VV v_p01) (VV v_p11));
        SVec v_M8 (VOp1 (Srl16 3) (VV v_p01));
        SVec v_M2 (VOp2 (Pack16) (VV v_M2) (VV v_M4));
        SVec v_M6 (VOp2 (Pack16) (VV v_M6) (VV v_M8));
        SVec v_M2 (VOp2 (Shuf8) (VV v_M2) (VV v_shuffle));
        SVec v_M6 (VOp2 (Shuf8) (VV v_M6) (VV v_shuffle));
        SVec v_M4 (VOp2 (UnpL 2) (VV v_M2) (VV v_M6));
        SStore 4 (PV v_dst (IC 0)) (VV v_M4);
        SPtr v_dst (IC 0) (PAdd (PV v_dst (IC 0)) (IV v_i_dst));
        SVec v_M4 (VOp1 (SrlB 4) (VV v_M4));
        SStore 4 (PV v_dst (IC 0)) (VV v_M4);
        SPtr v_dst (IC 0) (PAdd (PV v_dst (IC 0)) (IV v_i_dst));
        SVec v_M4 (VOp1 (SrlB 4) (VV v_M4));
        SStore 4 (PV v_dst (IC 0)) (VV v_M4);
        SPtr v_dst (IC 0) (PAdd (PV v_dst (IC 0)) (IV v_i_dst));
        SVec v_M4 (VOp1 (SrlB 4) (VV v_M4));
        SStore 4 (PV v_dst (IC 0)) (VV v_M4)] [
        SPtr v_src (IC 0) (PAdd (PV v_src (IC 0)) (ISub (IC 0) (IC 15)));
        SVec v_S0 (VLoad 16 0 (PAdd (PV v_src (IC 0)) (ISub (IC 0) (IC 2))));
        SVec v_S3 (VLoad 16 0 (PAdd (PV v_src (IC 0)) (IC 1)));
        SVec v_S1 (VLoad 16 0 (PAdd (PV v_src (IC 0)) (ISub (IC 0) (IC 1))));
        SVec v_S2 (VLoad 16 0 (PV v_src (IC 0)));
        SVec v_L0 (VOp2 (UnpL 1) (VV v_S0) (VV v_zero));
        SVec v_L1 (VOp2 (UnpL 1) (VV v_S1) (VV v_zero));
        SVec v_L2 (VOp2 (UnpL 1) (VV v_S2) (VV v_zero));
        SVec v_L3 (VOp2 (UnpL 1) (VV v_S3) (VV v_zero));
        SVec v_H0 (VOp2 (UnpH 1) (VV v_S0) (VV v_zero));
        SVec v_H1 (VOp2 (UnpH 1) (VV v_S1) (VV v_zero));
        SVec v_H2 (VOp2 (UnpH 1) (VV v_S2) (VV v_zero));
        SVec v_H3 (VOp2 (UnpH 1) (VV v_S3) (VV v_zero));
        SVec v_p00 (VOp2 (Mul16) (VV v_L0) (VV v_coeff7));
        SVec v_p10 (VOp2 (Mul16) (VV v_L1) (VV v_coeff15));
        SVec v_p20 (VOp2 (Mul16) (VV v_L2) (VV v_coeff9));
        SVec v_p30 (VOp2 (Add16) (VV v_L3) (VV v_coeff16));
        SVec v_p00 (VOp2 (Add16) (VV v_p00) (VV v_p10));
        SVec v_p00 (VOp2 (Add16) (VV v_p00) (VV v_p20));
        SVec v_p00 (VOp2 (Add16) (VV v_p00) (VV v_p30));
        SVec v_M1 (VOp1 (Srl16 5) (VV v_p00));
        SVec v_p01 (VOp2 (Mul16) (VV v_H0) (VV v_coeff7));
        SVec v_p11 (VOp2 (Mul16) (VV v_H1) (VV v_coeff15));
        SVec v_p21 (VOp2 (Mul16) (VV v_H2) (VV v_coeff9));
        SVec v_p31 (VOp2 (Add16) (VV v_H3) (VV v_coeff16));
        SVec v_p01 (VOp2 (Add16) (VV v_p01) (VV v_p11));
        SVec v_p01 (VOp2 (Add16) (VV v_p01) (VV v_p21));
        SVec v_p01 (VOp2 (Add16) (VV v_p01) (VV v_p31));
        SVec v_M2 (VOp1 (Srl16 5) (VV v_p01));
        SVec v_p00 (VOp2 (Mul16) (VV v_L0) (VV v_coeff3));
        SVec v_p10 (VOp2 (Mul16) (VV v_L1) (VV v_coeff7));
        SVec v_p20 (VOp2 (Mul16) (VV v_L2) (VV v_coeff5));
        SVec v_p30 (VOp2 (Add16) (VV v_L3) (VV v_coeff8));
        SVec v_p00 (VOp2 (Add16) (VV v_p00) (VV v_p10));
        SVec v_p00 (VOp2 (Add16) (VV v_p00) (VV v_p20));
        SVec v_p00 (VOp2 (Add16) (VV v_p00) (VV v_p30));
        SVec v_M3 (VOp1 (Srl16 4) (VV v_p00));
        SVec v_p01 (VOp2 (Mul16) (VV v_H0) (VV v_coeff3));
        SVec v_p11 (VOp2 (Mul16) (VV v_H1) (VV v_coeff7));
        SVec v_p21 (VOp2 (Mul16) (VV v_H2) (VV v_coeff5));
        SVec v_p31 (VOp2 (Add16) (VV v_H3) (VV v_coeff8));
        SVec v_p01 (VOp2 (Add16) (VV v_p01) (VV v_p11));
        SVec v_p01 (VOp2 (Add16) (VV v_p01) (VV v_p21));
        SVec v_p01 (VOp2 (Add16) (VV v_p01) (VV v_p31));
        SVec v_M4 (VOp1 (Srl16 4) (VV v_p01));
        SVec v_p00 (VOp2 (Mul16) (VV v_L0) (VV v_coeff5));
        SVec v_p10 (VOp2 (Mul16) (VV v_L1) (VV v_coeff13));
        SVec v_p20 (VOp2 (Mul16) (VV v_L2) (VV v_coeff11));
        SVec v_p30 (VOp2 (Mul16) (VV v_L3) (VV v_coeff3));
        SVec v_p00 (VOp2 (Add16) (VV v_p00) (VV v_coeff16));
        SVec v_p00 (VOp2 (Add16) (VV v_p00) (VV v_p10));
        SVec v_p00 (VOp2 (Add16) (VV v_p00) (VV v_p20));
        SVec v_p00 (VOp2 (Add16) (VV v_p00) (VV v_p30));
        SVec v_M5 (VOp1 (Srl16 5) (VV v_p00));
        SVec v_p01 (VOp2 (Mul16) (VV v_H0) (VV v_coeff5));
        SVec v_p11 (VOp2 (Mul16) (VV v_H1) (VV v_coeff13));
        SVec v_p21 (VOp2 (Mul16) (VV v_H2) (VV v_coeff11));
        SVec v_p31 (VOp2 (Mul16) (VV v_H3) (VV v_coeff3));
        SVec v_p01 (VOp2 (Add16) (VV v_p01) (VV v_coeff16));
        SVec v_p01 (VOp2 (Add16) (VV v_p01) (VV v_p11));
        SVec v_p01 (VOp2 (Add16) (VV v_p01) (VV v_p21));
        SVec v_p01 (VOp2 (Add16) (VV v_p01) (VV v_p31));
        SVec v_M6 (VOp1 (Srl16 5) (VV v_p01));
        SVec v_p00 (VOp2 (Add16) (VV v_L0) (VV v_L3));
        SVec v_p10 (VOp2 (Add16) (VV v_L1) (VV v_L2));
        SVec v_p10 (VOp2 (Mul16) (VV v_p10) (VV v_coeff3));
        SVec v_p00 (VOp2 (Add16) (VV v_p00) (VV v_coeff4));
        SVec v_p00 (VOp2 (Add16) (VV v_p00) (VV v_p10));
        SVec v_M7 (VOp1 (Srl16 3) (VV v_p00));
        SVec v_p01 (VOp2 (Add16) (VV v_H0) (VV v_H3));
        SVec v_p11 (VOp2 (Add16) (VV v_H1) (VV v_H2));
        SVec v_p11 (VOp2 (Mul16) (VV v_p11) (VV v_coeff3));
        SVec v_p01 (VOp2 (Add16) (VV v_p01) (VV v_coeff4));
        SVec v_p01 (VOp2 (Add16) (VV v_p01) (VV v_p11));
        SVec v_M8 (VOp1 (Srl16 3) (VV v_p01));
        SVec v_M1 (VOp2 (Pack16) (VV v_M1) (VV v_M3));
        SVec v_M5 (VOp2 (Pack16) (VV v_M5) (VV v_M7));
        SVec v_M1 (VOp2 (Shuf8) (VV v_M1) (VV v_shuffle));
        SVec v_M5 (VOp2 (Shuf8) (VV v_M5) (VV v_shuffle));
        SVec v_M2 (VOp2 (Pack16) (VV v_M2) (VV v_M4));
        SVec v_M6 (VOp2 (Pack16) (VV v_M6) (VV v_M8));
        SVec v_M2 (VOp2 (Shuf8) (VV v_M2) (VV v_shuffle));
        SVec v_M6 (VOp2 (Shuf8) (VV v_M6) (VV v_shuffle));
        SVec v_M3 (VOp2 (UnpL 2) (VV v_M1) (VV v_M5));
        SVec v_M7 (VOp2 (UnpH 2) (VV v_M1) (VV v_M5));
        SVec v_M4 (VOp2 (UnpL 2) (VV v_M2) (VV v_M6));
        SVec v_M8 (VOp2 (UnpH 2) (VV v_M2) (VV v_M6));
        SStore 4 (PV v_dst (IC 0)) (VV v_M4);
        SPtr v_dst (IC 0) (PAdd (PV v_dst (IC 0)) (IV v_i_dst));
        SVec v_M4 (VOp1 (SrlB 4) (VV v_M4));
        SStore 4 (PV v_dst (IC 0)) (VV v_M4);
        SPtr v_dst (IC 0) (PAdd (PV v_dst (IC 0)) (IV v_i_dst));
        SVec v_M4 (VOp1 (SrlB 4) (VV v_M4));
        SStore 4 (PV v_dst (IC 0)) (VV v_M4);
        SPtr v_dst (IC 0) (PAdd (PV v_dst (IC 0)) (IV v_i_dst));
        SVec v_M4 (VOp1 (SrlB 4) (VV v_M4));
        SStore 4 (PV v_dst (IC 0)) (VV v_M4);
        SPtr v_dst (IC 0) (PAdd (PV v_dst (IC 0)) (IV v_i_dst));
        SStore 4 (PV v_dst (IC 0)) (VV v_M8);
        SPtr v_dst (IC 0) (PAdd (PV v_dst (IC 0)) (IV v_i_dst));
        SVec v_M8 (VOp1 (SrlB 4) (VV v_M8));
        SStore 4 (PV v_dst (IC 0)) (VV v_M8);
        SPtr v_dst (IC 0) (PAdd (PV v_dst (IC 0)) (IV v_i_dst));
        SVec v_M8 (VOp1 (SrlB 4) (VV v_M8));
        SStore 4 (PV v_dst (IC 0)) (VV v_M8);
        SPtr v_dst (IC 0) (PAdd (PV v_dst (IC 0)) (IV v_i_dst));
        SVec v_M8 (VOp1 (SrlB 4) (VV v_M8));
        SStore 4 (PV v_dst (IC 0)) (VV v_M8);
        SPtr v_dst (IC 0) (PAdd (PV v_dst (IC 0)) (IV v_i_dst));
        SStore 4 (PV v_dst (IC 0)) (VV v_M3);
        SPtr v_dst (IC 0) (PAdd (PV v_dst (IC 0)) (IV v_i_dst));
        SVec v_M3 (VOp1 (SrlB 4) (VV v_M3));
        SStore 4 (PV v_dst (IC 0)) (VV v_M3);
        SPtr v_dst (IC 0) (PAdd (PV v_dst (IC 0)) (IV v_i_dst));
        SVec v_M3 (VOp1 (SrlB 4) (VV v_M3));
        SStore 4 (PV v_dst (IC 0)) (VV v_M3);
        SPtr v_dst (IC 0) (PAdd (PV v_dst (IC 0)) (IV v_i_dst));
        SVec v_M3 (VOp1 (SrlB 4) (VV v_M3));
        SStore 4 (PV v_dst (IC 0)) (VV v_M3);
        SPtr v_dst (IC 0) (PAdd (PV v_dst (IC 0)) (IV v_i_dst));
        SStore 4 (PV v_dst (IC 0)) (VV v_M7);
        SPtr v_dst (IC 0) (PAdd (PV v_dst (IC 0)) (IV v_i_dst));
        SVec v_M7 (VOp1 (SrlB 4) (VV v_M7));
        SStore 4 (PV v_dst (IC 0)) (VV v_M7);
        SPtr v_dst (IC 0) (PAdd (PV v_dst (IC 0)) (IV v_i_dst));
        SVec v_M7 (VOp1 (SrlB 4) (VV v_M7));
        SStore 4 (PV v_dst (IC 0)) (VV v_M7);
        SPtr v_dst (IC 0) (PAdd (PV v_dst (IC 0)) (IV v_i_dst));
        SVec v_M7 (VOp1 (SrlB 4) (VV v_M7));
        SStore 4 (PV v_dst (IC 0)) (VV v_M7)]]]].
