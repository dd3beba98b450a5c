(** The predictors of vec/intrinsic_intra-pred.cc for vertical, horizontal and upward right modes, as trees (see VpModel). *)
From Coq Require Import ZArith List.
From Verif Require Import VpModel VpModelA.
Import ListNotations.
Open Scope Z_scope.

(** vec/intrinsic_intra-pred.cc:63-119 [intra_pred_ver_sse128] *)
Definition k_ver_sse128 : list stm := [
  SPtr v_rpSrc (IC 0) (PAdd (PV v_src (IC 0)) (IC 1));
  SIf (IEq (IV v_bsx) (IC 4)) [
    SInt v_y (IC 0);
    SLoop (ILt (IV v_y) (IV v_bsy)) [
      SCopy (IC 4) (PV v_dst (IC 0)) (PV v_rpSrc (IC 0));
      SCopy (IC 4) (PAdd (PV v_dst (IC 0)) (IV v_i_dst)) (PV v_rpSrc (IC 0));
      SPtr v_dst (IC 0) (PAdd (PV v_dst (IC 0)) (IShl (IV v_i_dst) (IC 1)));
      SInt v_y (IAdd (IV v_y) (IC 2))]] [
    SIf (IEq (IV v_bsx) (IC 8)) [
      SInt v_y (IC 0);
      SLoop (ILt (IV v_y) (IV v_bsy)) [
        SCopy (IC 8) (PV v_dst (IC 0)) (PV v_rpSrc (IC 0));
        SCopy (IC 8) (PAdd (PV v_dst (IC 0)) (IV v_i_dst)) (PV v_rpSrc (IC 0));
        SPtr v_dst (IC 0) (PAdd (PV v_dst (IC 0)) (IShl (IV v_i_dst) (IC 1)));
        SInt v_y (IAdd (IV v_y) (IC 2))]] [
      SIf (IEq (IV v_bsx) (IC 16)) [
        SVec v_T1 (VLoad 16 0 (PV v_rpSrc (IC 0)));
        SInt v_y (IC 0);
        SLoop (ILt (IV v_y) (IV v_bsy)) [
          SStore 16 (PV v_dst (IC 0)) (VV v_T1);
          SPtr v_dst (IC 0) (PAdd (PV v_dst (IC 0)) (IV v_i_dst));
          SInt v_y (IAdd (IV v_y) (IC 1))]] [
        SIf (IEq (IV v_bsx) (IC 32)) [
          SVec v_T1 (VLoad 16 0 (PAdd (PV v_rpSrc (IC 0)) (IC 0)));
          SVec v_T2 (VLoad 16 0 (PAdd (PV v_rpSrc (IC 0)) (IC 16)));
          SInt v_y (IC 0);
          SLoop (ILt (IV v_y) (IV v_bsy)) [
            SStore 16 (PAdd (PV v_dst (IC 0)) (IC 0)) (VV v_T1);
            SStore 16 (PAdd (PV v_dst (IC 0)) (IC 16)) (VV v_T2);
            SPtr v_dst (IC 0) (PAdd (PV v_dst (IC 0)) (IV v_i_dst));
            SInt v_y (IAdd (IV v_y) (IC 1))]] [
          SIf (IEq (IV v_bsx) (IC 64)) [
            SVec v_T1 (VLoad 16 0 (PAdd (PV v_rpSrc (IC 0)) (IC 0)));
            SVec v_T2 (VLoad 16 0 (PAdd (PV v_rpSrc (IC 0)) (IC 16)));
            SVec v_T3 (VLoad 16 0 (PAdd (PV v_rpSrc (IC 0)) (IC 32)));
            SVec v_T4 (VLoad 16 0 (PAdd (PV v_rpSrc (IC 0)) (IC 48)));
            SInt v_y (IC 0);
            SLoop (ILt (IV v_y) (IV v_bsy)) [
              SStore 16 (PAdd (PV v_dst (IC 0)) (IC 0)) (VV v_T1);
              SStore 16 (PAdd (PV v_dst (IC 0)) (IC 16)) (VV v_T2);
              SStore 16 (PAdd (PV v_dst (IC 0)) (IC 32)) (VV v_T3);
              SStore 16 (PAdd (PV v_dst (IC 0)) (IC 48)) (VV v_T4);
              SPtr v_dst (IC 0) (PAdd (PV v_dst (IC 0)) (IV v_i_dst));
              SInt v_y (IAdd (IV v_y) (IC 1))]] [
            SFail]]]]]].

(** vec/intrinsic_intra-pred.cc:124-175 [intra_pred_hor_sse128] *)
Definition k_hor_sse128 : list stm := [
  SPtr v_rpSrc (IC 0) (PAdd (PV v_src (IC 0)) (ISub (IC 0) (IC 1)));
  SIf (IEq (IV v_bsx) (IC 4)) [
    SInt v_y (IC 0);
    SLoop (ILt (IV v_y) (IV v_bsy)) [
      SStore 4 (PV v_dst (IC 0)) (VSet1 1 16 (XLd (PAdd (PV v_rpSrc (IC 0)) (ISub (IC 0) (IV v_y)))));
      SPtr v_dst (IC 0) (PAdd (PV v_dst (IC 0)) (IV v_i_dst));
      SInt v_y (IAdd (IV v_y) (IC 1))]] [
    SIf (IEq (IV v_bsx) (IC 8)) [
      SInt v_y (IC 0);
      SLoop (ILt (IV v_y) (IV v_bsy)) [
        SStore 8 (PV v_dst (IC 0)) (VSet1 1 16 (XLd (PAdd (PV v_rpSrc (IC 0)) (ISub (IC 0) (IV v_y)))));
        SPtr v_dst (IC 0) (PAdd (PV v_dst (IC 0)) (IV v_i_dst));
        SInt v_y (IAdd (IV v_y) (IC 1))]] [
      SIf (IEq (IV v_bsx) (IC 16)) [
        SInt v_y (IC 0);
        SLoop (ILt (IV v_y) (IV v_bsy)) [
          SVec v_T (VSet1 1 16 (XLd (PAdd (PV v_rpSrc (IC 0)) (ISub (IC 0) (IV v_y)))));
          SStore 16 (PV v_dst (IC 0)) (VV v_T);
          SPtr v_dst (IC 0) (PAdd (PV v_dst (IC 0)) (IV v_i_dst));
          SInt v_y (IAdd (IV v_y) (IC 1))]] [
        SIf (IEq (IV v_bsx) (IC 32)) [
          SInt v_y (IC 0);
          SLoop (ILt (IV v_y) (IV v_bsy)) [
            SVec v_T (VSet1 1 16 (XLd (PAdd (PV v_rpSrc (IC 0)) (ISub (IC 0) (IV v_y)))));
            SStore 16 (PAdd (PV v_dst (IC 0)) (IC 0)) (VV v_T);
            SStore 16 (PAdd (PV v_dst (IC 0)) (IC 16)) (VV v_T);
            SPtr v_dst (IC 0) (PAdd (PV v_dst (IC 0)) (IV v_i_dst));
            SInt v_y (IAdd (IV v_y) (IC 1))]] [
          SIf (IEq (IV v_bsx) (IC 64)) [
            SInt v_y (IC 0);
            SLoop (ILt (IV v_y) (IV v_bsy)) [
              SVec v_T (VSet1 1 16 (XLd (PAdd (PV v_rpSrc (IC 0)) (ISub (IC 0) (IV v_y)))));
              SStore 16 (PAdd (PV v_dst (IC 0)) (IC 0)) (VV v_T);
              SStore 16 (PAdd (PV v_dst (IC 0)) (IC 16)) (VV v_T);
              SStore 16 (PAdd (PV v_dst (IC 0)) (IC 32)) (VV v_T);
              SStore 16 (PAdd (PV v_dst (IC 0)) (IC 48)) (VV v_T);
              SPtr v_dst (IC 0) (PAdd (PV v_dst (IC 0)) (IV v_i_dst));
              SInt v_y (IAdd (IV v_y) (IC 1))]] [
            SFail]]]]]].

(** vec/intrinsic_intra-pred.cc:544-1207 [intra_pred_ang_x_3_sse128] *)
Definition k_ang_x_3_sse128 : list stm := [
  SVec v_zero (VConst [0;0;0;0;0;0;0;0;0;0;0;0;0;0;0;0]);
  SVec v_coeff2 (VSet1 2 8 (XC 2));
  SVec v_coeff3 (VSet1 2 8 (XC 3));
  SVec v_coeff4 (VSet1 2 8 (XC 4));
  SVec v_coeff5 (VSet1 2 8 (XC 5));
  SVec v_coeff7 (VSet1 2 8 (XC 7));
  SVec v_coeff8 (VSet1 2 8 (XC 8));
  SPtr v_dst1 (IC 0) (PV v_dst (IC 0));
  SPtr v_dst2 (IC 0) (PAdd (PV v_dst1 (IC 0)) (IV v_i_dst));
  SPtr v_dst3 (IC 0) (PAdd (PV v_dst2 (IC 0)) (IV v_i_dst));
  SPtr v_dst4 (IC 0) (PAdd (PV v_dst3 (IC 0)) (IV v_i_dst));
  SIf (ILand (ILt (IC 4) (IV v_bsy)) (ILt (IC 8) (IV v_bsx))) [
    SArr v_first_line (IShl (IAdd (IAdd (IC 64) (IC 176)) (IC 16)) (IC 2));
    SInt v_line_size (IAdd (IV v_bsx) (IShr (IMul (ISub (IV v_bsy) (IC 4)) (IC 11)) (IC 2)));
    SInt v_aligned_line_size (IAdd (IAdd (IC 64) (IC 176)) (IC 16));
    SPtr v_pfirst (IC 0) (PV v_first_line (IC 0));
    SPtr v_pfirst (IC 1) (PAdd (PV v_pfirst (IC 0)) (IV v_aligned_line_size));
    SPtr v_pfirst (IC 2) (PAdd (PV v_pfirst (IC 1)) (IV v_aligned_line_size));
    SPtr v_pfirst (IC 3) (PAdd (PV v_pfirst (IC 2)) (IV v_aligned_line_size));
    SInt v_i (IC 0);
    SLoop (ILt (IV v_i) (ISub (IV v_line_size) (IC 8))) [
      SVec v_SS2 (VLoad 16 0 (PAdd (PV v_src (IC 0)) (IC 2)));
      SVec v_L2 (VOp2 (UnpL 1) (VV v_SS2) (VV v_zero));
      SVec v_SS2 (VOp1 (SrlB 1) (VV v_SS2));
      SVec v_L3 (VOp2 (UnpL 1) (VV v_SS2) (VV v_zero));
      SVec v_SS2 (VOp1 (SrlB 1) (VV v_SS2));
      SVec v_L4 (VOp2 (UnpL 1) (VV v_SS2) (VV v_zero));
      SVec v_SS2 (VOp1 (SrlB 1) (VV v_SS2));
      SVec v_L5 (VOp2 (UnpL 1) (VV v_SS2) (VV v_zero));
      SVec v_SS2 (VOp1 (SrlB 1) (VV v_SS2));
      SVec v_L6 (VOp2 (UnpL 1) (VV v_SS2) (VV v_zero));
      SVec v_SS2 (VOp1 (SrlB 1) (VV v_SS2));
      SVec v_L7 (VOp2 (UnpL 1) (VV v_SS2) (VV v_zero));
      SVec v_SS2 (VOp1 (SrlB 1) (VV v_SS2));
      SVec v_L8 (VOp2 (UnpL 1) (VV v_SS2) (VV v_zero));
      SVec v_SS2 (VOp1 (SrlB 1) (VV v_SS2));
      SVec v_L9 (VOp2 (UnpL 1) (VV v_SS2) (VV v_zero));
      SVec v_SS2 (VOp1 (SrlB 1) (VV v_SS2));
      SVec v_L10 (VOp2 (UnpL 1) (VV v_SS2) (VV v_zero));
      SVec v_H2 (VV v_L10);
      SVec v_SS11 (VLoad 16 0 (PAdd (PV v_src (IC 0)) (IC 11)));
      SVec v_L11 (VOp2 (UnpL 1) (VV v_SS11) (VV v_zero));
      SVec v_H3 (VV v_L11);
      SVec v_SS11 (VOp1 (SrlB 1) (VV v_SS11));
      SVec v_L12 (VOp2 (UnpL 1) (VV v_SS11) (VV v_zero));
      SVec v_H4 (VV v_L12);
      SVec v_SS11 (VOp1 (SrlB 1) (VV v_SS11));
      SVec v_L13 (VOp2 (UnpL 1) (VV v_SS11) (VV v_zero));
      SVec v_H5 (VV v_L13);
      SVec v_SS11 (VOp1 (SrlB 1) (VV v_SS11));
      SVec v_H6 (VOp2 (UnpL 1) (VV v_SS11) (VV v_zero));
      SVec v_SS11 (VOp1 (SrlB 1) (VV v_SS11));
      SVec v_H7 (VOp2 (UnpL 1) (VV v_SS11) (VV v_zero));
      SVec v_SS11 (VOp1 (SrlB 1) (VV v_SS11));
      SVec v_H8 (VOp2 (UnpL 1) (VV v_SS11) (VV v_zero));
      SVec v_SS11 (VOp1 (SrlB 1) (VV v_SS11));
      SVec v_H9 (VOp2 (UnpL 1) (VV v_SS11) (VV v_zero));
      SVec v_SS11 (VOp1 (SrlB 1) (VV v_SS11));
      SVec v_H10 (VOp2 (UnpL 1) (VV v_SS11) (VV v_zero));
      SVec v_SS11 (VOp1 (SrlB 1) (VV v_SS11));
      SVec v_H11 (VOp2 (UnpL 1) (VV v_SS11) (VV v_zero));
      SVec v_SS20 (VLoad 16 0 (PAdd (PV v_src (IC 0)) (IC 20)));
      SVec v_H12 (VOp2 (UnpL 1) (VV v_SS20) (VV v_zero));
      SVec v_SS20 (VOp1 (SrlB 1) (VV v_SS20));
      SVec v_H13 (VOp2 (UnpL 1) (VV v_SS20) (VV v_zero));
      SVec v_p00 (VOp2 (Add16) (VV v_L2) (VV v_coeff8));
      SVec v_p10 (VOp2 (Mul16) (VV v_L3) (VV v_coeff5));
      SVec v_p20 (VOp2 (Mul16) (VV v_L4) (VV v_coeff7));
      SVec v_p30 (VOp2 (Mul16) (VV v_L5) (VV v_coeff3));
      SVec v_p00 (VOp2 (Add16) (VV v_p00) (VV v_p10));
      SVec v_p00 (VOp2 (Add16) (VV v_p00) (VV v_p20));
      SVec v_p00 (VOp2 (Add16) (VV v_p00) (VV v_p30));
      SVec v_p00 (VOp1 (Srl16 4) (VV v_p00));
      SVec v_p01 (VOp2 (Add16) (VV v_H2) (VV v_coeff8));
      SVec v_p11 (VOp2 (Mul16) (VV v_H3) (VV v_coeff5));
      SVec v_p21 (VOp2 (Mul16) (VV v_H4) (VV v_coeff7));
      SVec v_p31 (VOp2 (Mul16) (VV v_H5) (VV v_coeff3));
      SVec v_p01 (VOp2 (Add16) (VV v_p01) (VV v_p11));
      SVec v_p01 (VOp2 (Add16) (VV v_p01) (VV v_p21));
      SVec v_p01 (VOp2 (Add16) (VV v_p01) (VV v_p31));
      SVec v_p01 (VOp1 (Srl16 4) (VV v_p01));
      SVec v_p00 (VOp2 (Pack16) (VV v_p00) (VV v_p01));
      SStore 16 (PAdd (PV v_pfirst (IC 0)) (IV v_i)) (VV v_p00);
      SVec v_p00 (VOp2 (Add16) (VV v_L5) (VV v_L8));
      SVec v_p10 (VOp2 (Add16) (VV v_L6) (VV v_L7));
      SVec v_p10 (VOp2 (Mul16) (VV v_p10) (VV v_coeff3));
      SVec v_p00 (VOp2 (Add16) (VV v_p00) (VV v_coeff4));
      SVec v_p00 (VOp2 (Add16) (VV v_p00) (VV v_p10));
      SVec v_p00 (VOp1 (Srl16 3) (VV v_p00));
      SVec v_p01 (VOp2 (Add16) (VV v_H5) (VV v_H8));
      SVec v_p11 (VOp2 (Add16) (VV v_H6) (VV v_H7));
      SVec v_p11 (VOp2 (Mul16) (VV v_p11) (VV v_coeff3));
      SVec v_p01 (VOp2 (Add16) (VV v_p01) (VV v_coeff4));
      SVec v_p01 (VOp2 (Add16) (VV v_p01) (VV v_p11));
      SVec v_p01 (VOp1 (Srl16 3) (VV v_p01));
      SVec v_p00 (VOp2 (Pack16) (VV v_p00) (VV v_p01));
      SStore 16 (PAdd (PV v_pfirst (IC 1)) (IV v_i)) (VV v_p00);
      SVec v_p00 (VOp2 (Mul16) (VV v_L8) (VV v_coeff3));
      SVec v_p10 (VOp2 (Mul16) (VV v_L9) (VV v_coeff7));
      SVec v_p20 (VOp2 (Mul16) (VV v_L10) (VV v_coeff5));
      SVec v_p30 (VOp2 (Add16) (VV v_L11) (VV v_coeff8));
      SVec v_p00 (VOp2 (Add16) (VV v_p00) (VV v_p10));
      SVec v_p00 (VOp2 (Add16) (VV v_p00) (VV v_p20));
      SVec v_p00 (VOp2 (Add16) (VV v_p00) (VV v_p30));
      SVec v_p00 (VOp1 (Srl16 4) (VV v_p00));
      SVec v_p01 (VOp2 (Mul16) (VV v_H8) (VV v_coeff3));
      SVec v_p11 (VOp2 (Mul16) (VV v_H9) (VV v_coeff7));
      SVec v_p21 (VOp2 (Mul16) (VV v_H10) (VV v_coeff5));
      SVec v_p31 (VOp2 (Add16) (VV v_H11) (VV v_coeff8));
      SVec v_p01 (VOp2 (Add16) (VV v_p01) (VV v_p11));
      SVec v_p01 (VOp2 (Add16) (VV v_p01) (VV v_p21));
      SVec v_p01 (VOp2 (Add16) (VV v_p01) (VV v_p31));
      SVec v_p01 (VOp1 (Srl16 4) (VV v_p01));
      SVec v_p00 (VOp2 (Pack16) (VV v_p00) (VV v_p01));
      SStore 16 (PAdd (PV v_pfirst (IC 2)) (IV v_i)) (VV v_p00);
      SVec v_p00 (VOp2 (Add16) (VV v_L11) (VV v_L13));
      SVec v_p10 (VOp2 (Mul16) (VV v_L12) (VV v_coeff2));
      SVec v_p00 (VOp2 (Add16) (VV v_p00) (VV v_coeff2));
      SVec v_p00 (VOp2 (Add16) (VV v_p00) (VV v_p10));
      SVec v_p00 (VOp1 (Srl16 2) (VV v_p00));
      SVec v_p01 (VOp2 (Add16) (VV v_H11) (VV v_H13));
      SVec v_p11 (VOp2 (Mul16) (VV v_H12) (VV v_coeff2));
      SVec v_p01 (VOp2 (Add16) (VV v_p01) (VV v_coeff2));
      SVec v_p01 (VOp2 (Add16) (VV v_p01) (VV v_p11));
      SVec v_p01 (VOp1 (Srl16 2) (VV v_p01));
      SVec v_p00 (VOp2 (Pack16) (VV v_p00) (VV v_p01));
      SStore 16 (PAdd (PV v_pfirst (IC 3)) (IV v_i)) (VV v_p00);
      SInt v_i (IAdd (IV v_i) (IC 16));
      SPtr v_src (IC 0) (PAdd (PV v_src (IC 0)) (IC 16))];
    SIf (ILt (IV v_i) (IV v_line_size)) [
      SVec v_SS2 (VLoad 16 0 (PAdd (PV v_src (IC 0)) (IC 2)));
      SVec v_L2 (VOp2 (UnpL 1) (VV v_SS2) (VV v_zero));
      SVec v_SS2 (VOp1 (SrlB 1) (VV v_SS2));
      SVec v_L3 (VOp2 (UnpL 1) (VV v_SS2) (VV v_zero));
      SVec v_SS2 (VOp1 (SrlB 1) (VV v_SS2));
      SVec v_L4 (VOp2 (UnpL 1) (VV v_SS2) (VV v_zero));
      SVec v_SS2 (VOp1 (SrlB 1) (VV v_SS2));
      SVec v_L5 (VOp2 (UnpL 1) (VV v_SS2) (VV v_zero));
      SVec v_SS2 (VOp1 (SrlB 1) (VV v_SS2));
      SVec v_L6 (VOp2 (UnpL 1) (VV v_SS2) (VV v_zero));
      SVec v_SS2 (VOp1 (SrlB 1) (VV v_SS2));
      SVec v_L7 (VOp2 (UnpL 1) (VV v_SS2) (VV v_zero));
      SVec v_SS2 (VOp1 (SrlB 1) (VV v_SS2));
      SVec v_L8 (VOp2 (UnpL 1) (VV v_SS2) (VV v_zero));
      SVec v_SS2 (VOp1 (SrlB 1) (VV v_SS2));
      SVec v_L9 (VOp2 (UnpL 1) (VV v_SS2) (VV v_zero));
      SVec v_SS2 (VOp1 (SrlB 1) (VV v_SS2));
      SVec v_L10 (VOp2 (UnpL 1) (VV v_SS2) (VV v_zero));
      SVec v_SS11 (VLoad 16 0 (PAdd (PV v_src (IC 0)) (IC 11)));
      SVec v_L11 (VOp2 (UnpL 1) (VV v_SS11) (VV v_zero));
      SVec v_SS11 (VOp1 (SrlB 1) (VV v_SS11));
      SVec v_L12 (VOp2 (UnpL 1) (VV v_SS11) (VV v_zero));
      SVec v_SS11 (VOp1 (SrlB 1) (VV v_SS11));
      SVec v_L13 (VOp2 (UnpL 1) (VV v_SS11) (VV v_zero));
      SVec v_p00 (VOp2 (Add16) (VV v_L2) (VV v_coeff8));
      SVec v_p10 (VOp2 (Mul16) (VV v_L3) (VV v_coeff5));
      SVec v_p20 (VOp2 (Mul16) (VV v_L4) (VV v_coeff7));
      SVec v_p30 (VOp2 (Mul16) (VV v_L5) (VV v_coeff3));
      SVec v_p00 (VOp2 (Add16) (VV v_p00) (VV v_p10));
      SVec v_p00 (VOp2 (Add16) (VV v_p00) (VV v_p20));
      SVec v_p00 (VOp2 (Add16) (VV v_p00) (VV v_p30));
      SVec v_p00 (VOp1 (Srl16 4) (VV v_p00));
      SVec v_p00 (VOp2 (Pack16) (VV v_p00) (VV v_p00));
      SStore 8 (PAdd (PV v_pfirst (IC 0)) (IV v_i)) (VV v_p00);
      SVec v_p00 (VOp2 (Add16) (VV v_L5) (VV v_L8));
      SVec v_p10 (VOp2 (Add16) (VV v_L6) (VV v_L7));
      SVec v_p10 (VOp2 (Mul16) (VV v_p10) (VV v_coeff3));
      SVec v_p00 (VOp2 (Add16) (VV v_p00) (VV v_coeff4));
      SVec v_p00 (VOp2 (Add16) (VV v_p00) (VV v_p10));
      SVec v_p00 (VOp1 (Srl16 3) (VV v_p00));
      SVec v_p00 (VOp2 (Pack16) (VV v_p00) (VV v_p00));
      SStore 8 (PAdd (PV v_pfirst (IC 1)) (IV v_i)) (VV v_p00);
      SVec v_p00 (VOp2 (Mul16) (VV v_L8) (VV v_coeff3));
      SVec v_p10 (VOp2 (Mul16) (VV v_L9) (VV v_coeff7));
      SVec v_p20 (VOp2 (Mul16) (VV v_L10) (VV v_coeff5));
      SVec v_p30 (VOp2 (Add16) (VV v_L11) (VV v_coeff8));
      SVec v_p00 (VOp2 (Add16) (VV v_p00) (VV v_p10));
      SVec v_p00 (VOp2 (Add16) (VV v_p00) (VV v_p20));
      SVec v_p00 (VOp2 (Add16) (VV v_p00) (VV v_p30));
      SVec v_p00 (VOp1 (Srl16 4) (VV v_p00));
      SVec v_p00 (VOp2 (Pack16) (VV v_p00) (VV v_p00));
      SStore 8 (PAdd (PV v_pfirst (IC 2)) (IV v_i)) (VV v_p00);
      SVec v_p00 (VOp2 (Add16) (VV v_L11) (VV v_L13));
      SVec v_p10 (VOp2 (Mul16) (VV v_L12) (VV v_coeff2));
      SVec v_p00 (VOp2 (Add16) (VV v_p00) (VV v_coeff2));
      SVec v_p00 (VOp2 (Add16) (VV v_p00) (VV v_p10));
      SVec v_p00 (VOp1 (Srl16 2) (VV v_p00));
      SVec v_p00 (VOp2 (Pack16) (VV v_p00) (VV v_p00));
      SStore 8 (PAdd (PV v_pfirst (IC 3)) (IV v_i)) (VV v_p00)] [];
    SInt v_bsy (IShr (IV v_bsy) (IC 2));
    SInt v_i (IC 0);
    SLoop (ILt (IV v_i) (IV v_bsy)) [
      SCopy (IV v_bsx) (PV v_dst1 (IC 0)) (PAdd (PV v_pfirst (IC 0)) (IMul (IV v_i) (IC 11)));
      SCopy (IV v_bsx) (PV v_dst2 (IC 0)) (PAdd (PV v_pfirst (IC 1)) (IMul (IV v_i) (IC 11)));
      SCopy (IV v_bsx) (PV v_dst3 (IC 0)) (PAdd (PV v_pfirst (IC 2)) (IMul (IV v_i) (IC 11)));
      SCopy (IV v_bsx) (PV v_dst4 (IC 0)) (PAdd (PV v_pfirst (IC 3)) (IMul (IV v_i) (IC 11)));
      SPtr v_dst1 (IC 0) (PAdd (PV v_dst4 (IC 0)) (IV v_i_dst));
      SPtr v_dst2 (IC 0) (PAdd (PV v_dst1 (IC 0)) (IV v_i_dst));
      SPtr v_dst3 (IC 0) (PAdd (PV v_dst2 (IC 0)) (IV v_i_dst));
      SPtr v_dst4 (IC 0) (PAdd (PV v_dst3 (IC 0)) (IV v_i_dst));
      SInt v_i (IAdd (IV v_i) (IC 1))]] [
    SIf (IEq (IV v_bsx) (IC 16)) [
      SVec v_SS2 (VLoad 16 0 (PAdd (PV v_src (IC 0)) (IC 2)));
      SVec v_L2 (VOp2 (UnpL 1) (VV v_SS2) (VV v_zero));
      SVec v_SS2 (VOp1 (SrlB 1) (VV v_SS2));
      SVec v_L3 (VOp2 (UnpL 1) (VV v_SS2) (VV v_zero));
      SVec v_SS2 (VOp1 (SrlB 1) (VV v_SS2));
      SVec v_L4 (VOp2 (UnpL 1) (VV v_SS2) (VV v_zero));
      SVec v_SS2 (VOp1 (SrlB 1) (VV v_SS2));
      SVec v_L5 (VOp2 (UnpL 1) (VV v_SS2) (VV v_zero));
      SVec v_SS2 (VOp1 (SrlB 1) (VV v_SS2));
      SVec v_L6 (VOp2 (UnpL 1) (VV v_SS2) (VV v_zero));
      SVec v_SS2 (VOp1 (SrlB 1) (VV v_SS2));
      SVec v_L7 (VOp2 (UnpL 1) (VV v_SS2) (VV v_zero));
      SVec v_SS2 (VOp1 (SrlB 1) (VV v_SS2));
      SVec v_L8 (VOp2 (UnpL 1) (VV v_SS2) (VV v_zero));
      SVec v_SS2 (VOp1 (SrlB 1) (VV v_SS2));
      SVec v_L9 (VOp2 (UnpL 1) (VV v_SS2) (VV v_zero));
      SVec v_SS2 (VOp1 (SrlB 1) (VV v_SS2));
      SVec v_L10 (VOp2 (UnpL 1) (VV v_SS2) (VV v_zero));
      SVec v_H2 (VV v_L10);
      SVec v_SS11 (VLoad 16 0 (PAdd (PV v_src (IC 0)) (IC 11)));
      SVec v_L11 (VOp2 (UnpL 1) (VV v_SS11) (VV v_zero));
      SVec v_H3 (VV v_L11);
      SVec v_SS11 (VOp1 (SrlB 1) (VV v_SS11));
      SVec v_L12 (VOp2 (UnpL 1) (VV v_SS11) (VV v_zero));
      SVec v_H4 (VV v_L12);
      SVec v_SS11 (VOp1 (SrlB 1) (VV v_SS11));
      SVec v_L13 (VOp2 (UnpL 1) (VV v_SS11) (VV v_zero));
      SVec v_H5 (VV v_L13);
      SVec v_SS11 (VOp1 (SrlB 1) (VV v_SS11));
      SVec v_H6 (VOp2 (UnpL 1) (VV v_SS11) (VV v_zero));
      SVec v_SS11 (VOp1 (SrlB 1) (VV v_SS11));
      SVec v_H7 (VOp2 (UnpL 1) (VV v_SS11) (VV v_zero));
      SVec v_SS11 (VOp1 (SrlB 1) (VV v_SS11));
      SVec v_H8 (VOp2 (UnpL 1) (VV v_SS11) (VV v_zero));
      SVec v_SS11 (VOp1 (SrlB 1) (VV v_SS11));
      SVec v_H9 (VOp2 (UnpL 1) (VV v_SS11) (VV v_zero));
      SVec v_SS11 (VOp1 (SrlB 1) (VV v_SS11));
      SVec v_H10 (VOp2 (UnpL 1) (VV v_SS11) (VV v_zero));
      SVec v_SS11 (VOp1 (SrlB 1) (VV v_SS11));
      SVec v_H11 (VOp2 (UnpL 1) (VV v_SS11) (VV v_zero));
      SVec v_SS20 (VLoad 16 0 (PAdd (PV v_src (IC 0)) (IC 20)));
      SVec v_H12 (VOp2 (UnpL 1) (VV v_SS20) (VV v_zero));
      SVec v_SS20 (VOp1 (SrlB 1) (VV v_SS20));
      SVec v_H13 (VOp2 (UnpL 1) (VV v_SS20) (VV v_zero));
      SVec v_p00 (VOp2 (Add16) (VV v_L2) (VV v_coeff8));
      SVec v_p10 (VOp2 (Mul16) (VV v_L3) (VV v_coeff5));
      SVec v_p20 (VOp2 (Mul16) (VV v_L4) (VV v_coeff7));
      SVec v_p30 (VOp2 (Mul16) (VV v_L5) (VV v_coeff3));
      SVec v_p00 (VOp2 (Add16) (VV v_p00) (VV v_p10));
      SVec v_p00 (VOp2 (Add16) (VV v_p00) (VV v_p20));
      SVec v_p00 (VOp2 (Add16) (VV v_p00) (VV v_p30));
      SVec v_p00 (VOp1 (Srl16 4) (VV v_p00));
      SVec v_p01 (VOp2 (Add16) (VV v_H2) (VV v_coeff8));
      SVec v_p11 (VOp2 (Mul16) (VV v_H3) (VV v_coeff5));
      SVec v_p21 (VOp2 (Mul16) (VV v_H4) (VV v_coeff7));
      SVec v_p31 (VOp2 (Mul16) (VV v_H5) (VV v_coeff3));
      SVec v_p01 (VOp2 (Add16) (VV v_p01) (VV v_p11));
      SVec v_p01 (VOp2 (Add16) (VV v_p01) (VV v_p21));
      SVec v_p01 (VOp2 (Add16) (VV v_p01) (VV v_p31));
      SVec v_p01 (VOp1 (Srl16 4) (VV v_p01));
      SVec v_p00 (VOp2 (Pack16) (VV v_p00) (VV v_p01));
      SStore 16 (PV v_dst1 (IC 0)) (VV v_p00);
      SVec v_p00 (VOp2 (Add16) (VV v_L5) (VV v_L8));
      SVec v_p10 (VOp2 (Add16) (VV v_L6) (VV v_L7));
      SVec v_p10 (VOp2 (Mul16) (VV v_p10) (VV v_coeff3));
      SVec v_p00 (VOp2 (Add16) (VV v_p00) (VV v_coeff4));
      SVec v_p00 (VOp2 (Add16) (VV v_p00) (VV v_p10));
      SVec v_p00 (VOp1 (Srl16 3) (VV v_p00));
      SVec v_p01 (VOp2 (Add16) (VV v_H5) (VV v_H8));
      SVec v_p11 (VOp2 (Add16) (VV v_H6) (VV v_H7));
      SVec v_p11 (VOp2 (Mul16) (VV v_p11) (VV v_coeff3));
      SVec v_p01 (VOp2 (Add16) (VV v_p01) (VV v_coeff4));
      SVec v_p01 (VOp2 (Add16) (VV v_p01) (VV v_p11));
      SVec v_p01 (VOp1 (Srl16 3) (VV v_p01));
      SVec v_p00 (VOp2 (Pack16) (VV v_p00) (VV v_p01));
      SStore 16 (PV v_dst2 (IC 0)) (VV v_p00);
      SVec v_p00 (VOp2 (Mul16) (VV v_L8) (VV v_coeff3));
      SVec v_p10 (VOp2 (Mul16) (VV v_L9) (VV v_coeff7));
      SVec v_p20 (VOp2 (Mul16) (VV v_L10) (VV v_coeff5));
      SVec v_p30 (VOp2 (Add16) (VV v_L11) (VV v_coeff8));
      SVec v_p00 (VOp2 (Add16) (VV v_p00) (VV v_p10));
      SVec v_p00 (VOp2 (Add16) (VV v_p00) (VV v_p20));
      SVec v_p00 (VOp2 (Add16) (VV v_p00) (VV v_p30));
      SVec v_p00 (VOp1 (Srl16 4) (VV v_p00));
      SVec v_p01 (VOp2 (Mul16) (VV v_H8) (VV v_coeff3));
      SVec v_p11 (VOp2 (Mul16) (VV v_H9) (VV v_coeff7));
      SVec v_p21 (VOp2 (Mul16) (VV v_H10) (VV v_coeff5));
      SVec v_p31 (VOp2 (Add16) (VV v_H11) (VV v_coeff8));
      SVec v_p01 (VOp2 (Add16) (VV v_p01) (VV v_p11));
      SVec v_p01 (VOp2 (Add16) (VV v_p01) (VV v_p21));
      SVec v_p01 (VOp2 (Add16) (VV v_p01) (VV v_p31));
      SVec v_p01 (VOp1 (Srl16 4) (VV v_p01));
      SVec v_p00 (VOp2 (Pack16) (VV v_p00) (VV v_p01));
      SStore 16 (PV v_dst3 (IC 0)) (VV v_p00);
      SVec v_p00 (VOp2 (Add16) (VV v_L11) (VV v_L13));
      SVec v_p10 (VOp2 (Mul16) (VV v_L12) (VV v_coeff2));
      SVec v_p00 (VOp2 (Add16) (VV v_p00) (VV v_coeff2));
      SVec v_p00 (VOp2 (Add16) (VV v_p00) (VV v_p10));
      SVec v_p00 (VOp1 (Srl16 2) (VV v_p00));
      SVec v_p01 (VOp2 (Add16) (VV v_H11) (VV v_H13));
      SVec v_p11 (VOp2 (Mul16) (VV v_H12) (VV v_coeff2));
      SVec v_p01 (VOp2 (Add16) (VV v_p01) (VV v_coeff2));
      SVec v_p01 (VOp2 (Add16) (VV v_p01) (VV v_p11));
      SVec v_p01 (VOp1 (Srl16 2) (VV v_p01));
      SVec v_p00 (VOp2 (Pack16) (VV v_p00) (VV v_p01));
      SStore 16 (PV v_dst4 (IC 0)) (VV v_p00)] [
      SIf (IEq (IV v_bsx) (IC 8)) [
        SVec v_SS2 (VLoad 16 0 (PAdd (PV v_src (IC 0)) (IC 2)));
        SVec v_L2 (VOp2 (UnpL 1) (VV v_SS2) (VV v_zero));
        SVec v_SS2 (VOp1 (SrlB 1) (VV v_SS2));
        SVec v_L3 (VOp2 (UnpL 1) (VV v_SS2) (VV v_zero));
        SVec v_SS2 (VOp1 (SrlB 1) (VV v_SS2));
        SVec v_L4 (VOp2 (UnpL 1) (VV v_SS2) (VV v_zero));
        SVec v_SS2 (VOp1 (SrlB 1) (VV v_SS2));
        SVec v_L5 (VOp2 (UnpL 1) (VV v_SS2) (VV v_zero));
        SVec v_SS2 (VOp1 (SrlB 1) (VV v_SS2));
        SVec v_L6 (VOp2 (UnpL 1) (VV v_SS2) (VV v_zero));
        SVec v_SS2 (VOp1 (SrlB 1) (VV v_SS2));
        SVec v_L7 (VOp2 (UnpL 1) (VV v_SS2) (VV v_zero));
        SVec v_SS2 (VOp1 (SrlB 1) (VV v_SS2));
        SVec v_L8 (VOp2 (UnpL 1) (VV v_SS2) (VV v_zero));
        SVec v_SS2 (VOp1 (SrlB 1) (VV v_SS2));
        SVec v_L9 (VOp2 (UnpL 1) (VV v_SS2) (VV v_zero));
        SVec v_SS2 (VOp1 (SrlB 1) (VV v_SS2));
        SVec v_L10 (VOp2 (UnpL 1) (VV v_SS2) (VV v_zero));
        SVec v_SS11 (VLoad 16 0 (PAdd (PV v_src (IC 0)) (IC 11)));
        SVec v_L11 (VOp2 (UnpL 1) (VV v_SS11) (VV v_zero));
        SVec v_SS11 (VOp1 (SrlB 1) (VV v_SS11));
        SVec v_L12 (VOp2 (UnpL 1) (VV v_SS11) (VV v_zero));
        SVec v_SS11 (VOp1 (SrlB 1) (VV v_SS11));
        SVec v_L13 (VOp2 (UnpL 1) (VV v_SS11) (VV v_zero));
        SVec v_p00 (VOp2 (Add16) (VV v_L2) (VV v_coeff8));
        SVec v_p10 (VOp2 (Mul16) (VV v_L3) (VV v_coeff5));
        SVec v_p20 (VOp2 (Mul16) (VV v_L4) (VV v_coeff7));
        SVec v_p30 (VOp2 (Mul16) (VV v_L5) (VV v_coeff3));
        SVec v_p00 (VOp2 (Add16) (VV v_p00) (VV v_p10));
        SVec v_p00 (VOp2 (Add16) (VV v_p00) (VV v_p20));
        SVec v_p00 (VOp2 (Add16) (VV v_p00) (VV v_p30));
        SVec v_p00 (VOp1 (Srl16 4) (VV v_p00));
        SVec v_p00 (VOp2 (Pack16) (VV v_p00) (VV v_p00));
        SStore 8 (PV v_dst1 (IC 0)) (VV v_p00);
        SVec v_p00 (VOp2 (Add16) (VV v_L5) (VV v_L8));
        SVec v_p10 (VOp2 (Add16) (VV v_L6) (VV v_L7));
        SVec v_p10 (VOp2 (Mul16) (VV v_p10) (VV v_coeff3));
        SVec v_p00 (VOp2 (Add16) (VV v_p00) (VV v_coeff4));
        SVec v_p00 (VOp2 (Add16) (VV v_p00) (VV v_p10));
        SVec v_p00 (VOp1 (Srl16 3) (VV v_p00));
        SVec v_p00 (VOp2 (Pack16) (VV v_p00) (VV v_p00));
        SStore 8 (PV v_dst2 (IC 0)) (VV v_p00);
        SVec v_p00 (VOp2 (Mul16) (VV v_L8) (VV v_coeff3));
        SVec v_p10 (VOp2 (Mul16) (VV v_L9) (VV v_coeff7));
        SVec v_p20 (VOp2 (Mul16) (VV v_L10) (VV v_coeff5));
        SVec v_p30 (VOp2 (Add16) (VV v_L11) (VV v_coeff8));
        SVec v_p00 (VOp2 (Add16) (VV v_p00) (VV v_p10));
        SVec v_p00 (VOp2 (Add16) (VV v_p00) (VV v_p20));
        SVec v_p00 (VOp2 (Add16) (VV v_p00) (VV v_p30));
        SVec v_p00 (VOp1 (Srl16 4) (VV v_p00));
        SVec v_p00 (VOp2 (Pack16) (VV v_p00) (VV v_p00));
        SStore 8 (PV v_dst3 (IC 0)) (VV v_p00);
        SVec v_p00 (VOp2 (Add16) (VV v_L11) (VV v_L13));
        SVec v_p10 (VOp2 (Mul16) (VV v_L12) (VV v_coeff2));
        SVec v_p00 (VOp2 (Add16) (VV v_p00) (VV v_coeff2));
        SVec v_p00 (VOp2 (Add16) (VV v_p00) (VV v_p10));
        SVec v_p00 (VOp1 (Srl16 2) (VV v_p00));
        SVec v_p00 (VOp2 (Pack16) (VV v_p00) (VV v_p00));
        SStore 8 (PV v_dst4 (IC 0)) (VV v_p00);
        SVec v_pad1 (VSet1 1 16 (XLd (PAdd (PV v_src (IC 0)) (IC 16))));
        SPtr v_dst1 (IC 0) (PAdd (PV v_dst4 (IC 0)) (IV v_i_dst));
        SPtr v_dst2 (IC 0) (PAdd (PV v_dst1 (IC 0)) (IV v_i_dst));
        SPtr v_dst3 (IC 0) (PAdd (PV v_dst2 (IC 0)) (IV v_i_dst));
        SPtr v_dst4 (IC 0) (PAdd (PV v_dst3 (IC 0)) (IV v_i_dst));
        SStore 8 (PV v_dst1 (IC 0)) (VV v_pad1);
        SStore 8 (PV v_dst2 (IC 0)) (VV v_pad1);
        SStore 8 (PV v_dst3 (IC 0)) (VV v_pad1);
        SStore 8 (PV v_dst4 (IC 0)) (VV v_pad1);
        SPut (PV v_dst1 (IC 0)) (XShr (XAdd (XAdd (XAdd (XAdd (XLd (PAdd (PV v_src (IC 0)) (IC 13))) (XMul (XC 5) (XLd (PAdd (PV v_src (IC 0)) (IC 14))))) (XMul (XC 7) (XLd (PAdd (PV v_src (IC 0)) (IC 15))))) (XMul (XC 3) (XLd (PAdd (PV v_src (IC 0)) (IC 16))))) (XC 8)) 4);
        SPut (PAdd (PV v_dst1 (IC 0)) (IC 1)) (XShr (XAdd (XAdd (XAdd (XAdd (XLd (PAdd (PV v_src (IC 0)) (IC 14))) (XMul (XC 5) (XLd (PAdd (PV v_src (IC 0)) (IC 15))))) (XMul (XC 7) (XLd (PAdd (PV v_src (IC 0)) (IC 16))))) (XMul (XC 3) (XLd (PAdd (PV v_src (IC 0)) (IC 17))))) (XC 8)) 4);
        SPut (PAdd (PV v_dst1 (IC 0)) (IC 2)) (XShr (XAdd (XAdd (XAdd (XAdd (XLd (PAdd (PV v_src (IC 0)) (IC 15))) (XMul (XC 5) (XLd (PAdd (PV v_src (IC 0)) (IC 16))))) (XMul (XC 7) (XLd (PAdd (PV v_src (IC 0)) (IC 17))))) (XMul (XC 3) (XLd (PAdd (PV v_src (IC 0)) (IC 18))))) (XC 8)) 4);
        SIf (IEq (IV v_bsy) (IC 32)) [
          SInt v_i (IC 0);
          SLoop (ILt (IV v_i) (IC 6)) [
            SPtr v_dst1 (IC 0) (PAdd (PV v_dst4 (IC 0)) (IV v_i_dst));
            SPtr v_dst2 (IC 0) (PAdd (PV v_dst1 (IC 0)) (IV v_i_dst));
            SPtr v_dst3 (IC 0) (PAdd (PV v_dst2 (IC 0)) (IV v_i_dst));
            SPtr v_dst4 (IC 0) (PAdd (PV v_dst3 (IC 0)) (IV v_i_dst));
            SStore 8 (PV v_dst1 (IC 0)) (VV v_pad1);
            SStore 8 (PV v_dst2 (IC 0)) (VV v_pad1);
            SStore 8 (PV v_dst3 (IC 0)) (VV v_pad1);
            SStore 8 (PV v_dst4 (IC 0)) (VV v_pad1);
            SInt v_i (IAdd (IV v_i) (IC 1))]] []] [
        SIf (IEq (IV v_bsy) (IC 16)) [
          SVec v_SS2 (VLoad 16 0 (PAdd (PV v_src (IC 0)) (IC 2)));
          SVec v_L2 (VOp2 (UnpL 1) (VV v_SS2) (VV v_zero));
          SVec v_SS2 (VOp1 (SrlB 1) (VV v_SS2));
          SVec v_L3 (VOp2 (UnpL 1) (VV v_SS2) (VV v_zero));
          SVec v_SS2 (VOp1 (SrlB 1) (VV v_SS2));
          SVec v_L4 (VOp2 (UnpL 1) (VV v_SS2) (VV v_zero));
          SVec v_SS2 (VOp1 (SrlB 1) (VV v_SS2));
          SVec v_L5 (VOp2 (UnpL 1) (VV v_SS2) (VV v_zero));
          SVec v_SS2 (VOp1 (SrlB 1) (VV v_SS2));
          SVec v_L6 (VOp2 (UnpL 1) (VV v_SS2) (VV v_zero));
          SVec v_SS2 (VOp1 (SrlB 1) (VV v_SS2));
          SVec v_L7 (VOp2 (UnpL 1) (VV v_SS2) (VV v_zero));
          SVec v_SS2 (VOp1 (SrlB 1) (VV v_SS2));
          SVec v_L8 (VOp2 (UnpL 1) (VV v_SS2) (VV v_zero));
          SVec v_p00 (VOp2 (Add16) (VV v_L2) (VV v_coeff8));
          SVec v_p10 (VOp2 (Mul16) (VV v_L3) (VV v_coeff5));
          SVec v_p20 (VOp2 (Mul16) (VV v_L4) (VV v_coeff7));
          SVec v_p30 (VOp2 (Mul16) (VV v_L5) (VV v_coeff3));
          SVec v_p00 (VOp2 (Add16) (VV v_p00) (VV v_p10));
          SVec v_p00 (VOp2 (Add16) (VV v_p00) (VV v_p20));
          SVec v_p00 (VOp2 (Add16) (VV v_p00) (VV v_p30));
          SVec v_p00 (VOp1 (Srl16 4) (VV v_p00));
          SVec v_p00 (VOp2 (Pack16) (VV v_p00) (VV v_p00));
          SStore 4 (PV v_dst1 (IC 0)) (VV v_p00);
          SVec v_p00 (VOp2 (Add16) (VV v_L5) (VV v_L8));
          SVec v_p10 (VOp2 (Add16) (VV v_L6) (VV v_L7));
          SVec v_p10 (VOp2 (Mul16) (VV v_p10) (VV v_coeff3));
          SVec v_p00 (VOp2 (Add16) (VV v_p00) (VV v_coeff4));
          SVec v_p00 (VOp2 (Add16) (VV v_p00) (VV v_p10));
          SVec v_p00 (VOp1 (Srl16 3) (VV v_p00));
          SVec v_p00 (VOp2 (Pack16) (VV v_p00) (VV v_p00));
          SStore 4 (PV v_dst2 (IC 0)) (VV v_p00);
          SVec v_pad1 (VSet1 1 16 (XLd (PAdd (PV v_src (IC 0)) (IC 8))));
          SStore 4 (PV v_dst3 (IC 0)) (VV v_pad1);
          SStore 4 (PV v_dst4 (IC 0)) (VV v_pad1);
          SInt v_i (IC 0);
          SLoop (ILt (IV v_i) (IC 3)) [
            SPtr v_dst1 (IC 0) (PAdd (PV v_dst4 (IC 0)) (IV v_i_dst));
            SPtr v_dst2 (IC 0) (PAdd (PV v_dst1 (IC 0)) (IV v_i_dst));
            SPtr v_dst3 (IC 0) (PAdd (PV v_dst2 (IC 0)) (IV v_i_dst));
            SPtr v_dst4 (IC 0) (PAdd (PV v_dst3 (IC 0)) (IV v_i_dst));
            SStore 4 (PV v_dst1 (IC 0)) (VV v_pad1);
            SStore 4 (PV v_dst2 (IC 0)) (VV v_pad1);
            SStore 4 (PV v_dst3 (IC 0)) (VV v_pad1);
            SStore 4 (PV v_dst4 (IC 0)) (VV v_pad1);
            SInt v_i (IAdd (IV v_i) (IC 1))]] [
          SVec v_SS2 (VLoad 16 0 (PAdd (PV v_src (IC 0)) (IC 2)));
          SVec v_L2 (VOp2 (UnpL 1) (VV v_SS2) (VV v_zero));
          SVec v_SS2 (VOp1 (SrlB 1) (VV v_SS2));
          SVec v_L3 (VOp2 (UnpL 1) (VV v_SS2) (VV v_zero));
          SVec v_SS2 (VOp1 (SrlB 1) (VV v_SS2));
          SVec v_L4 (VOp2 (UnpL 1) (VV v_SS2) (VV v_zero));
          SVec v_SS2 (VOp1 (SrlB 1) (VV v_SS2));
          SVec v_L5 (VOp2 (UnpL 1) (VV v_SS2) (VV v_zero));
          SVec v_SS2 (VOp1 (SrlB 1) (VV v_SS2));
          SVec v_L6 (VOp2 (UnpL 1) (VV v_SS2) (VV v_zero));
          SVec v_SS2 (VOp1 (SrlB 1) (VV v_SS2));
          SVec v_L7 (VOp2 (UnpL 1) (VV v_SS2) (VV v_zero));
          SVec v_SS2 (VOp1 (SrlB 1) (VV v_SS2));
          SVec v_L8 (VOp2 (UnpL 1) (VV v_SS2) (VV v_zero));
          SVec v_p00 (VOp2 (Add16) (VV v_L2) (VV v_coeff8));
          SVec v_p10 (VOp2 (Mul16) (VV v_L3) (VV v_coeff5));
          SVec v_p20 (VOp2 (Mul16) (VV v_L4) (VV v_coeff7));
          SVec v_p30 (VOp2 (Mul16) (VV v_L5) (VV v_coeff3));
          SVec v_p00 (VOp2 (Add16) (VV v_p00) (VV v_p10));
          SVec v_p00 (VOp2 (Add16) (VV v_p00) (VV v_p20));
          SVec v_p00 (VOp2 (Add16) (VV v_p00) (VV v_p30));
          SVec v_p00 (VOp1 (Srl16 4) (VV v_p00));
          SVec v_p00 (VOp2 (Pack16) (VV v_p00) (VV v_p00));
          SStore 4 (PV v_dst1 (IC 0)) (VV v_p00);
          SVec v_p00 (VOp2 (Add16) (VV v_L5) (VV v_L8));
          SVec v_p10 (VOp2 (Add16) (VV v_L6) (VV v_L7));
          SVec v_p10 (VOp2 (Mul16) (VV v_p10) (VV v_coeff3));
          SVec v_p00 (VOp2 (Add16) (VV v_p00) (VV v_coeff4));
          SVec v_p00 (VOp2 (Add16) (VV v_p00) (VV v_p10));
          SVec v_p00 (VOp1 (Srl16 3) (VV v_p00));
          SVec v_p00 (VOp2 (Pack16) (VV v_p00) (VV v_p00));
          SStore 4 (PV v_dst2 (IC 0)) (VV v_p00);
          SVec v_pad1 (VSet1 1 16 (XLd (PAdd (PV v_src (IC 0)) (IC 8))));
          SStore 4 (PV v_dst3 (IC 0)) (VV v_pad1);
          SStore 4 (PV v_dst4 (IC 0)) (VV v_pad1)]]]]].

(** vec/intrinsic_intra-pred.cc:1212-1359 [intra_pred_ang_x_4_sse128] *)
Definition k_ang_x_4_sse128 : list stm := [
  SArr v_first_line (IAdd (IC 64) (IC 128));
  SInt v_line_size (IAdd (IV v_bsx) (IShl (ISub (IV v_bsy) (IC 1)) (IC 1)));
  SInt v_iHeight2 (IShl (IV v_bsy) (IC 1));
  SVec v_zero (VConst [0;0;0;0;0;0;0;0;0;0;0;0;0;0;0;0]);
  SVec v_offset (VSet1 2 8 (XC 2));
  SPtr v_src (IC 0) (PAdd (PV v_src (IC 0)) (IC 3));
  SInt v_i (IC 0);
  SLoop (ILt (IV v_i) (ISub (IV v_line_size) (IC 8))) [
    SVec v_S0 (VLoad 16 0 (PAdd (PV v_src (IC 0)) (ISub (IC 0) (IC 1))));
    SVec v_S2 (VLoad 16 0 (PAdd (PV v_src (IC 0)) (IC 1)));
    SVec v_S1 (VLoad 16 0 (PV v_src (IC 0)));
    SVec v_L0 (VOp2 (UnpL 1) (VV v_S0) (VV v_zero));
    SVec v_L1 (VOp2 (UnpL 1) (VV v_S1) (VV v_zero));
    SVec v_L2 (VOp2 (UnpL 1) (VV v_S2) (VV v_zero));
    SVec v_H0 (VOp2 (UnpH 1) (VV v_S0) (VV v_zero));
    SVec v_H1 (VOp2 (UnpH 1) (VV v_S1) (VV v_zero));
    SVec v_H2 (VOp2 (UnpH 1) (VV v_S2) (VV v_zero));
    SVec v_sum1 (VOp2 (Add16) (VV v_L0) (VV v_L1));
    SVec v_sum2 (VOp2 (Add16) (VV v_L1) (VV v_L2));
    SVec v_sum3 (VOp2 (Add16) (VV v_H0) (VV v_H1));
    SVec v_sum4 (VOp2 (Add16) (VV v_H1) (VV v_H2));
    SVec v_sum1 (VOp2 (Add16) (VV v_sum1) (VV v_sum2));
    SVec v_sum3 (VOp2 (Add16) (VV v_sum3) (VV v_sum4));
    SVec v_sum1 (VOp2 (Add16) (VV v_sum1) (VV v_offset));
    SVec v_sum3 (VOp2 (Add16) (VV v_sum3) (VV v_offset));
    SVec v_sum1 (VOp1 (Srl16 2) (VV v_sum1));
    SVec v_sum3 (VOp1 (Srl16 2) (VV v_sum3));
    SVec v_sum1 (VOp2 (Pack16) (VV v_sum1) (VV v_sum3));
    SStore 16 (PAdd (PV v_first_line (IC 0)) (IV v_i)) (VV v_sum1);
    SInt v_i (IAdd (IV v_i) (IC 16));
    SPtr v_src (IC 0) (PAdd (PV v_src (IC 0)) (IC 16))];
  SIf (ILt (IV v_i) (IV v_line_size)) [
    SVec v_S0 (VLoad 16 0 (PAdd (PV v_src (IC 0)) (ISub (IC 0) (IC 1))));
    SVec v_S2 (VLoad 16 0 (PAdd (PV v_src (IC 0)) (IC 1)));
    SVec v_S1 (VLoad 16 0 (PV v_src (IC 0)));
    SVec v_L0 (VOp2 (UnpL 1) (VV v_S0) (VV v_zero));
    SVec v_L1 (VOp2 (UnpL 1) (VV v_S1) (VV v_zero));
    SVec v_L2 (VOp2 (UnpL 1) (VV v_S2) (VV v_zero));
    SVec v_sum1 (VOp2 (Add16) (VV v_L0) (VV v_L1));
    SVec v_sum2 (VOp2 (Add16) (VV v_L1) (VV v_L2));
    SVec v_sum1 (VOp2 (Add16) (VV v_sum1) (VV v_sum2));
    SVec v_sum1 (VOp2 (Add16) (VV v_sum1) (VV v_offset));
    SVec v_sum1 (VOp1 (Srl16 2) (VV v_sum1));
    SVec v_sum1 (VOp2 (Pack16) (VV v_sum1) (VV v_sum1));
    SStore 8 (PAdd (PV v_first_line (IC 0)) (IV v_i)) (VV v_sum1)] [];
  SIf (ILor (IEq (IV v_bsx) (IV v_bsy)) (ILt (IC 16) (IV v_bsx))) [
    SInt v_i (IC 0);
    SLoop (ILt (IV v_i) (IV v_iHeight2)) [
      SCopy (IV v_bsx) (PV v_dst (IC 0)) (PAdd (PV v_first_line (IC 0)) (IV v_i));
      SPtr v_dst (IC 0) (PAdd (PV v_dst (IC 0)) (IV v_i_dst));
      SInt v_i (IAdd (IV v_i) (IC 2))]] [
    SIf (IEq (IV v_bsx) (IC 16)) [
      SPtr v_dst1 (IC 0) (PV v_dst (IC 0));
      SVec v_M (VLoad 16 0 (PAdd (PV v_first_line (IC 0)) (IC 0)));
      SStore 8 (PV v_dst (IC 0)) (VV v_M);
      SPtr v_dst (IC 0) (PAdd (PV v_dst (IC 0)) (IV v_i_dst));
      SVec v_M (VOp1 (SrlB 2) (VV v_M));
      SStore 8 (PV v_dst (IC 0)) (VV v_M);
      SPtr v_dst (IC 0) (PAdd (PV v_dst (IC 0)) (IV v_i_dst));
      SVec v_M (VOp1 (SrlB 2) (VV v_M));
      SStore 8 (PV v_dst (IC 0)) (VV v_M);
      SPtr v_dst (IC 0) (PAdd (PV v_dst (IC 0)) (IV v_i_dst));
      SVec v_M (VOp1 (SrlB 2) (VV v_M));
      SStore 8 (PV v_dst (IC 0)) (VV v_M);
      SPtr v_dst (IC 0) (PAdd (PV v_dst1 (IC 0)) (IC 8));
      SVec v_M (VLoad 16 0 (PAdd (PV v_first_line (IC 0)) (IC 8)));
      SStore 8 (PV v_dst (IC 0)) (VV v_M);
      SPtr v_dst (IC 0) (PAdd (PV v_dst (IC 0)) (IV v_i_dst));
      SVec v_M (VOp1 (SrlB 2) (VV v_M));
      SStore 8 (PV v_dst (IC 0)) (VV v_M);
      SPtr v_dst (IC 0) (PAdd (PV v_dst (IC 0)) (IV v_i_dst));
      SVec v_M (VOp1 (SrlB 2) (VV v_M));
      SStore 8 (PV v_dst (IC 0)) (VV v_M);
      SPtr v_dst (IC 0) (PAdd (PV v_dst (IC 0)) (IV v_i_dst));
      SVec v_M (VOp1 (SrlB 2) (VV v_M));
      SStore 8 (PV v_dst (IC 0)) (VV v_M)] [
      SIf (IEq (IV v_bsx) (IC 8)) [
        SInt v_i (IC 0);
        SLoop (ILt (IV v_i) (IV v_iHeight2)) [
          SVec v_M (VLoad 16 0 (PAdd (PV v_first_line (IC 0)) (IV v_i)));
          SStore 8 (PV v_dst (IC 0)) (VV v_M);
          SPtr v_dst (IC 0) (PAdd (PV v_dst (IC 0)) (IV v_i_dst));
          SVec v_M (VOp1 (SrlB 2) (VV v_M));
          SStore 8 (PV v_dst (IC 0)) (VV v_M);
          SPtr v_dst (IC 0) (PAdd (PV v_dst (IC 0)) (IV v_i_dst));
          SVec v_M (VOp1 (SrlB 2) (VV v_M));
          SStore 8 (PV v_dst (IC 0)) (VV v_M);
          SPtr v_dst (IC 0) (PAdd (PV v_dst (IC 0)) (IV v_i_dst));
          SVec v_M (VOp1 (SrlB 2) (VV v_M));
          SStore 8 (PV v_dst (IC 0)) (VV v_M);
          SPtr v_dst (IC 0) (PAdd (PV v_dst (IC 0)) (IV v_i_dst));
          SInt v_i (IAdd (IV v_i) (IC 8))]] [
        SInt v_i (IC 0);
        SLoop (ILt (IV v_i) (IV v_iHeight2)) [
          SVec v_M (VLoad 16 0 (PAdd (PV v_first_line (IC 0)) (IV v_i)));
          SStore 4 (PV v_dst (IC 0)) (VV v_M);
          SPtr v_dst (IC 0) (PAdd (PV v_dst (IC 0)) (IV v_i_dst));
          SVec v_M (VOp1 (SrlB 2) (VV v_M));
          SStore 4 (PV v_dst (IC 0)) (VV v_M);
          SPtr v_dst (IC 0) (PAdd (PV v_dst (IC 0)) (IV v_i_dst));
          SVec v_M (VOp1 (SrlB 2) (VV v_M));
          SStore 4 (PV v_dst (IC 0)) (VV v_M);
          SPtr v_dst (IC 0) (PAdd (PV v_dst (IC 0)) (IV v_i_dst));
          SVec v_M (VOp1 (SrlB 2) (VV v_M));
          SStore 4 (PV v_dst (IC 0)) (VV v_M);
          SPtr v_dst (IC 0) (PAdd (PV v_dst (IC 0)) (IV v_i_dst));
          SInt v_i (IAdd (IV v_i) (IC 8))]]]]].

(** vec/intrinsic_intra-pred.cc:1364-2246 [intra_pred_ang_x_5_sse128] *)
Definition k_ang_x_5_sse128 : list stm := [
  SVec v_zero (VConst [0;0;0;0;0;0;0;0;0;0;0;0;0;0;0;0]);
  SVec v_coeff2 (VSet1 2 8 (XC 2));
  SVec v_coeff3 (VSet1 2 8 (XC 3));
  SVec v_coeff4 (VSet1 2 8 (XC 4));
  SVec v_coeff5 (VSet1 2 8 (XC 5));
  SVec v_coeff7 (VSet1 2 8 (XC 7));
  SVec v_coeff8 (VSet1 2 8 (XC 8));
  SVec v_coeff9 (VSet1 2 8 (XC 9));
  SVec v_coeff11 (VSet1 2 8 (XC 11));
  SVec v_coeff13 (VSet1 2 8 (XC 13));
  SVec v_coeff15 (VSet1 2 8 (XC 15));
  SVec v_coeff16 (VSet1 2 8 (XC 16));
  SIf (ILand (ILt (IC 4) (IV v_bsy)) (ILt (IC 8) (IV v_bsx))) [
    SArr v_first_line (IShl (IAdd (IAdd (IC 64) (IC 80)) (IC 16)) (IC 3));
    SInt v_line_size (IAdd (IV v_bsx) (IMul (IShr (ISub (IV v_bsy) (IC 8)) (IC 3)) (IC 11)));
    SInt v_aligned_line_size (IAdd (IShl (IShr (IAdd (IV v_line_size) (IC 15)) (IC 4)) (IC 4)) (IC 16));
    SPtr v_dst1 (IC 0) (PV v_dst (IC 0));
    SPtr v_dst2 (IC 0) (PAdd (PV v_dst1 (IC 0)) (IV v_i_dst));
    SPtr v_dst3 (IC 0) (PAdd (PV v_dst2 (IC 0)) (IV v_i_dst));
    SPtr v_dst4 (IC 0) (PAdd (PV v_dst3 (IC 0)) (IV v_i_dst));
    SPtr v_dst5 (IC 0) (PAdd (PV v_dst4 (IC 0)) (IV v_i_dst));
    SPtr v_dst6 (IC 0) (PAdd (PV v_dst5 (IC 0)) (IV v_i_dst));
    SPtr v_dst7 (IC 0) (PAdd (PV v_dst6 (IC 0)) (IV v_i_dst));
    SPtr v_dst8 (IC 0) (PAdd (PV v_dst7 (IC 0)) (IV v_i_dst));
    SPtr v_pfirst (IC 0) (PV v_first_line (IC 0));
    SPtr v_pfirst (IC 1) (PAdd (PV v_pfirst (IC 0)) (IV v_aligned_line_size));
    SPtr v_pfirst (IC 2) (PAdd (PV v_pfirst (IC 1)) (IV v_aligned_line_size));
    SPtr v_pfirst (IC 3) (PAdd (PV v_pfirst (IC 2)) (IV v_aligned_line_size));
    SPtr v_pfirst (IC 4) (PAdd (PV v_pfirst (IC 3)) (IV v_aligned_line_size));
    SPtr v_pfirst (IC 5) (PAdd (PV v_pfirst (IC 4)) (IV v_aligned_line_size));
    SPtr v_pfirst (IC 6) (PAdd (PV v_pfirst (IC 5)) (IV v_aligned_line_size));
    SPtr v_pfirst (IC 7) (PAdd (PV v_pfirst (IC 6)) (IV v_aligned_line_size));
    SInt v_i (IC 0);
    SLoop (ILt (IV v_i) (ISub (IV v_line_size) (IC 8))) [
      SVec v_SS1 (VLoad 16 0 (PAdd (PV v_src (IC 0)) (IC 1)));
      SVec v_L1 (VOp2 (UnpL 1) (VV v_SS1) (VV v_zero));
      SVec v_SS1 (VOp1 (SrlB 1) (VV v_SS1));
      SVec v_L2 (VOp2 (UnpL 1) (VV v_SS1) (VV v_zero));
      SVec v_SS1 (VOp1 (SrlB 1) (VV v_SS1));
      SVec v_L3 (VOp2 (UnpL 1) (VV v_SS1) (VV v_zero));
      SVec v_SS1 (VOp1 (SrlB 1) (VV v_SS1));
      SVec v_L4 (VOp2 (UnpL 1) (VV v_SS1) (VV v_zero));
      SVec v_SS1 (VOp1 (SrlB 1) (VV v_SS1));
      SVec v_L5 (VOp2 (UnpL 1) (VV v_SS1) (VV v_zero));
      SVec v_SS1 (VOp1 (SrlB 1) (VV v_SS1));
      SVec v_L6 (VOp2 (UnpL 1) (VV v_SS1) (VV v_zero));
      SVec v_SS1 (VOp1 (SrlB 1) (VV v_SS1));
      SVec v_L7 (VOp2 (UnpL 1) (VV v_SS1) (VV v_zero));
      SVec v_SS1 (VOp1 (SrlB 1) (VV v_SS1));
      SVec v_L8 (VOp2 (UnpL 1) (VV v_SS1) (VV v_zero));
      SVec v_SS1 (VOp1 (SrlB 1) (VV v_SS1));
      SVec v_L9 (VOp2 (UnpL 1) (VV v_SS1) (VV v_zero));
      SVec v_H1 (VV v_L9);
      SVec v_SS10 (VLoad 16 0 (PAdd (PV v_src (IC 0)) (IC 10)));
      SVec v_L10 (VOp2 (UnpL 1) (VV v_SS10) (VV v_zero));
      SVec v_H2 (VV v_L10);
      SVec v_SS10 (VOp1 (SrlB 1) (VV v_SS10));
      SVec v_L11 (VOp2 (UnpL 1) (VV v_SS10) (VV v_zero));
      SVec v_H3 (VV v_L11);
      SVec v_SS10 (VOp1 (SrlB 1) (VV v_SS10));
      SVec v_L12 (VOp2 (UnpL 1) (VV v_SS10) (VV v_zero));
      SVec v_H4 (VV v_L12);
      SVec v_SS10 (VOp1 (SrlB 1) (VV v_SS10));
      SVec v_L13 (VOp2 (UnpL 1) (VV v_SS10) (VV v_zero));
      SVec v_H5 (VV v_L13);
      SVec v_SS10 (VOp1 (SrlB 1) (VV v_SS10));
      SVec v_H6 (VOp2 (UnpL 1) (VV v_SS10) (VV v_zero));
      SVec v_SS10 (VOp1 (SrlB 1) (VV v_SS10));
      SVec v_H7 (VOp2 (UnpL 1) (VV v_SS10) (VV v_zero));
      SVec v_SS10 (VOp1 (SrlB 1) (VV v_SS10));
      SVec v_H8 (VOp2 (UnpL 1) (VV v_SS10) (VV v_zero));
      SVec v_SS10 (VOp1 (SrlB 1) (VV v_SS10));
      SVec v_H9 (VOp2 (UnpL 1) (VV v_SS10) (VV v_zero));
      SVec v_SS10 (VOp1 (SrlB 1) (VV v_SS10));
      SVec v_H10 (VOp2 (UnpL 1) (VV v_SS10) (VV v_zero));
      SVec v_SS19 (VLoad 16 0 (PAdd (PV v_src (IC 0)) (IC 19)));
      SVec v_H11 (VOp2 (UnpL 1) (VV v_SS19) (VV v_zero));
      SVec v_SS19 (VOp1 (SrlB 1) (VV v_SS19));
      SVec v_H12 (VOp2 (UnpL 1) (VV v_SS19) (VV v_zero));
      SVec v_SS19 (VOp1 (SrlB 1) (VV v_SS19));
      SVec v_H13 (VOp2 (UnpL 1) (VV v_SS19) (VV v_zero));
      SVec v_p00 (VOp2 (Mul16) (VV v_L1) (VV v_coeff5));
      SVec v_p10 (VOp2 (Mul16) (VV v_L2) (VV v_coeff13));
      SVec v_p20 (VOp2 (Mul16) (VV v_L3) (VV v_coeff11));
      SVec v_p30 (VOp2 (Mul16) (VV v_L4) (VV v_coeff3));
      SVec v_p00 (VOp2 (Add16) (VV v_p00) (VV v_coeff16));
      SVec v_p00 (VOp2 (Add16) (VV v_p00) (VV v_p10));
      SVec v_p00 (VOp2 (Add16) (VV v_p00) (VV v_p20));
      SVec v_p00 (VOp2 (Add16) (VV v_p00) (VV v_p30));
      SVec v_p00 (VOp1 (Srl16 5) (VV v_p00));
      SVec v_p01 (VOp2 (Mul16) (VV v_H1) (VV v_coeff5));
      SVec v_p11 (VOp2 (Mul16) (VV v_H2) (VV v_coeff13));
      SVec v_p21 (VOp2 (Mul16) (VV v_H3) (VV v_coeff11));
      SVec v_p31 (VOp2 (Mul16) (VV v_H4) (VV v_coeff3));
      SVec v_p01 (VOp2 (Add16) (VV v_p01) (VV v_coeff16));
      SVec v_p01 (VOp2 (Add16) (VV v_p01) (VV v_p11));
      SVec v_p01 (VOp2 (Add16) (VV v_p01) (VV v_p21));
      SVec v_p01 (VOp2 (Add16) (VV v_p01) (VV v_p31));
      SVec v_p01 (VOp1 (Srl16 5) (VV v_p01));
      SVec v_p00 (VOp2 (Pack16) (VV v_p00) (VV v_p01));
      SStore 16 (PAdd (PV v_pfirst (IC 0)) (IV v_i)) (VV v_p00);
      SVec v_p10 (VOp2 (Mul16) (VV v_L3) (VV v_coeff5));
      SVec v_p20 (VOp2 (Mul16) (VV v_L4) (VV v_coeff7));
      SVec v_p30 (VOp2 (Mul16) (VV v_L5) (VV v_coeff3));
      SVec v_p00 (VOp2 (Add16) (VV v_L2) (VV v_coeff8));
      SVec v_p00 (VOp2 (Add16) (VV v_p00) (VV v_p10));
      SVec v_p00 (VOp2 (Add16) (VV v_p00) (VV v_p20));
      SVec v_p00 (VOp2 (Add16) (VV v_p00) (VV v_p30));
      SVec v_p00 (VOp1 (Srl16 4) (VV v_p00));
      SVec v_p11 (VOp2 (Mul16) (VV v_H3) (VV v_coeff5));
      SVec v_p21 (VOp2 (Mul16) (VV v_H4) (VV v_coeff7));
      SVec v_p31 (VOp2 (Mul16) (VV v_H5) (VV v_coeff3));
      SVec v_p01 (VOp2 (Add16) (VV v_H2) (VV v_coeff8));
      SVec v_p01 (VOp2 (Add16) (VV v_p01) (VV v_p11));
      SVec v_p01 (VOp2 (Add16) (VV v_p01) (VV v_p21));
      SVec v_p01 (VOp2 (Add16) (VV v_p01) (VV v_p31));
      SVec v_p01 (VOp1 (Srl16 4) (VV v_p01));
      SVec v_p00 (VOp2 (Pack16) (VV v_p00) (VV v_p01));
      SStore 16 (PAdd (PV v_pfirst (IC 1)) (IV v_i)) (VV v_p00);
      SVec v_p00 (VOp2 (Mul16) (VV v_L4) (VV v_coeff7));
      SVec v_p10 (VOp2 (Mul16) (VV v_L5) (VV v_coeff15));
      SVec v_p20 (VOp2 (Mul16) (VV v_L6) (VV v_coeff9));
      SVec v_p30 (VOp2 (Add16) (VV v_L7) (VV v_coeff16));
      SVec v_p00 (VOp2 (Add16) (VV v_p00) (VV v_p10));
      SVec v_p00 (VOp2 (Add16) (VV v_p00) (VV v_p20));
      SVec v_p00 (VOp2 (Add16) (VV v_p00) (VV v_p30));
      SVec v_p00 (VOp1 (Srl16 5) (VV v_p00));
      SVec v_p01 (VOp2 (Mul16) (VV v_H4) (VV v_coeff7));
      SVec v_p11 (VOp2 (Mul16) (VV v_H5) (VV v_coeff15));
      SVec v_p21 (VOp2 (Mul16) (VV v_H6) (VV v_coeff9));
      SVec v_p31 (VOp2 (Add16) (VV v_H7) (VV v_coeff16));
      SVec v_p01 (VOp2 (Add16) (VV v_p01) (VV v_p11));
      SVec v_p01 (VOp2 (Add16) (VV v_p01) (VV v_p21));
      SVec v_p01 (VOp2 (Add16) (VV v_p01) (VV v_p31));
      SVec v_p01 (VOp1 (Srl16 5) (VV v_p01));
      SVec v_p00 (VOp2 (Pack16) (VV v_p00) (VV v_p01));
      SStore 16 (PAdd (PV v_pfirst (IC 2)) (IV v_i)) (VV v_p00);
      SVec v_p00 (VOp2 (Add16) (VV v_L5) (VV v_L8));
      SVec v_p10 (VOp2 (Add16) (VV v_L6) (VV v_L7));
      SVec v_p10 (VOp2 (Mul16) (VV v_p10) (VV v_coeff3));
      SVec v_p00 (VOp2 (Add16) (VV v_p00) (VV v_coeff4));
      SVec v_p00 (VOp2 (Add16) (VV v_p00) (VV v_p10));
      SVec v_p00 (VOp1 (Srl16 3) (VV v_p00));
      SVec v_p01 (VOp2 (Add16) (VV v_H5) (VV v_H8));
      SVec v_p11 (VOp2 (Add16) (VV v_H6) (VV v_H7));
      SVec v_p11 (VOp2 (Mul16) (VV v_p11) (VV v_coeff3));
      SVec v_p01 (VOp2 (Add16) (VV v_p01) (VV v_coeff4));
      SVec v_p01 (VOp2 (Add16) (VV v_p01) (VV v_p11));
      SVec v_p01 (VOp1 (Srl16 3) (VV v_p01));
      SVec v_p00 (VOp2 (Pack16) (VV v_p00) (VV v_p01));
      SStore 16 (PAdd (PV v_pfirst (IC 3)) (IV v_i)) (VV v_p00);
      SVec v_p00 (VOp2 (Add16) (VV v_L6) (VV v_coeff16));
      SVec v_p10 (VOp2 (Mul16) (VV v_L7) (VV v_coeff9));
      SVec v_p20 (VOp2 (Mul16) (VV v_L8) (VV v_coeff15));
      SVec v_p30 (VOp2 (Mul16) (VV v_L9) (VV v_coeff7));
      SVec v_p00 (VOp2 (Add16) (VV v_p00) (VV v_p10));
      SVec v_p00 (VOp2 (Add16) (VV v_p00) (VV v_p20));
      SVec v_p00 (VOp2 (Add16) (VV v_p00) (VV v_p30));
      SVec v_p00 (VOp1 (Srl16 5) (VV v_p00));
      SVec v_p01 (VOp2 (Add16) (VV v_H6) (VV v_coeff16));
      SVec v_p11 (VOp2 (Mul16) (VV v_H7) (VV v_coeff9));
      SVec v_p21 (VOp2 (Mul16) (VV v_H8) (VV v_coeff15));
      SVec v_p31 (VOp2 (Mul16) (VV v_H9) (VV v_coeff7));
      SVec v_p01 (VOp2 (Add16) (VV v_p01) (VV v_p11));
      SVec v_p01 (VOp2 (Add16) (VV v_p01) (VV v_p21));
      SVec v_p01 (VOp2 (Add16) (VV v_p01) (VV v_p31));
      SVec v_p01 (VOp1 (Srl16 5) (VV v_p01));
      SVec v_p00 (VOp2 (Pack16) (VV v_p00) (VV v_p01));
      SStore 16 (PAdd (PV v_pfirst (IC 4)) (IV v_i)) (VV v_p00);
      SVec v_p00 (VOp2 (Mul16) (VV v_L8) (VV v_coeff3));
      SVec v_p10 (VOp2 (Mul16) (VV v_L9) (VV v_coeff7));
      SVec v_p20 (VOp2 (Mul16) (VV v_L10) (VV v_coeff5));
      SVec v_p30 (VOp2 (Add16) (VV v_L11) (VV v_coeff8));
      SVec v_p00 (VOp2 (Add16) (VV v_p00) (VV v_p10));
      SVec v_p00 (VOp2 (Add16) (VV v_p00) (VV v_p20));
      SVec v_p00 (VOp2 (Add16) (VV v_p00) (VV v_p30));
      SVec v_p00 (VOp1 (Srl16 4) (VV v_p00));
      SVec v_p01 (VOp2 (Mul16) (VV v_H8) (VV v_coeff3));
      SVec v_p11 (VOp2 (Mul16) (VV v_H9) (VV v_coeff7));
      SVec v_p21 (VOp2 (Mul16) (VV v_H10) (VV v_coeff5));
      SVec v_p31 (VOp2 (Add16) (VV v_H11) (VV v_coeff8));
      SVec v_p01 (VOp2 (Add16) (VV v_p01) (VV v_p11));
      SVec v_p01 (VOp2 (Add16) (VV v_p01) (VV v_p21));
      SVec v_p01 (VOp2 (Add16) (VV v_p01) (VV v_p31));
      SVec v_p01 (VOp1 (Srl16 4) (VV v_p01));
      SVec v_p00 (VOp2 (Pack16) (VV v_p00) (VV v_p01));
      SStore 16 (PAdd (PV v_pfirst (IC 5)) (IV v_i)) (VV v_p00);
      SVec v_p00 (VOp2 (Mul16) (VV v_L9) (VV v_coeff3));
      SVec v_p10 (VOp2 (Mul16) (VV v_L10) (VV v_coeff11));
      SVec v_p20 (VOp2 (Mul16) (VV v_L11) (VV v_coeff13));
      SVec v_p30 (VOp2 (Mul16) (VV v_L12) (VV v_coeff5));
      SVec v_p00 (VOp2 (Add16) (VV v_p00) (VV v_coeff16));
      SVec v_p00 (VOp2 (Add16) (VV v_p00) (VV v_p10));
      SVec v_p00 (VOp2 (Add16) (VV v_p00) (VV v_p20));
      SVec v_p00 (VOp2 (Add16) (VV v_p00) (VV v_p30));
      SVec v_p00 (VOp1 (Srl16 5) (VV v_p00));
      SVec v_p01 (VOp2 (Mul16) (VV v_H9) (VV v_coeff3));
      SVec v_p11 (VOp2 (Mul16) (VV v_H10) (VV v_coeff11));
      SVec v_p21 (VOp2 (Mul16) (VV v_H11) (VV v_coeff13));
      SVec v_p31 (VOp2 (Mul16) (VV v_H12) (VV v_coeff5));
      SVec v_p01 (VOp2 (Add16) (VV v_p01) (VV v_coeff16));
      SVec v_p01 (VOp2 (Add16) (VV v_p01) (VV v_p11));
      SVec v_p01 (VOp2 (Add16) (VV v_p01) (VV v_p21));
      SVec v_p01 (VOp2 (Add16) (VV v_p01) (VV v_p31));
      SVec v_p01 (VOp1 (Srl16 5) (VV v_p01));
      SVec v_p00 (VOp2 (Pack16) (VV v_p00) (VV v_p01));
      SStore 16 (PAdd (PV v_pfirst (IC 6)) (IV v_i)) (VV v_p00);
      SVec v_p00 (VOp2 (Add16) (VV v_L11) (VV v_L13));
      SVec v_p10 (VOp2 (Add16) (VV v_L12) (VV v_L12));
      SVec v_p00 (VOp2 (Add16) (VV v_p00) (VV v_coeff2));
      SVec v_p00 (VOp2 (Add16) (VV v_p00) (VV v_p10));
      SVec v_p00 (VOp1 (Srl16 2) (VV v_p00));
      SVec v_p01 (VOp2 (Add16) (VV v_H11) (VV v_H13));
      SVec v_p11 (VOp2 (Add16) (VV v_H12) (VV v_H12));
      SVec v_p01 (VOp2 (Add16) (VV v_p01) (VV v_coeff2));
      SVec v_p01 (VOp2 (Add16) (VV v_p01) (VV v_p11));
      SVec v_p01 (VOp1 (Srl16 2) (VV v_p01));
      SVec v_p00 (VOp2 (Pack16) (VV v_p00) (VV v_p01));
      SStore 16 (PAdd (PV v_pfirst (IC 7)) (IV v_i)) (VV v_p00);
      SInt v_i (IAdd (IV v_i) (IC 16));
      SPtr v_src (IC 0) (PAdd (PV v_src (IC 0)) (IC 16))];
    SIf (ILt (IV v_i) (IV v_line_size)) [
      SVec v_SS1 (VLoad 16 0 (PAdd (PV v_src (IC 0)) (IC 1)));
      SVec v_L1 (VOp2 (UnpL 1) (VV v_SS1) (VV v_zero));
      SVec v_SS1 (VOp1 (SrlB 1) (VV v_SS1));
      SVec v_L2 (VOp2 (UnpL 1) (VV v_SS1) (VV v_zero));
      SVec v_SS1 (VOp1 (SrlB 1) (VV v_SS1));
      SVec v_L3 (VOp2 (UnpL 1) (VV v_SS1) (VV v_zero));
      SVec v_SS1 (VOp1 (SrlB 1) (VV v_SS1));
      SVec v_L4 (VOp2 (UnpL 1) (VV v_SS1) (VV v_zero));
      SVec v_SS1 (VOp1 (SrlB 1) (VV v_SS1));
      SVec v_L5 (VOp2 (UnpL 1) (VV v_SS1) (VV v_zero));
      SVec v_SS1 (VOp1 (SrlB 1) (VV v_SS1));
      SVec v_L6 (VOp2 (UnpL 1) (VV v_SS1) (VV v_zero));
      SVec v_SS1 (VOp1 (SrlB 1) (VV v_SS1));
      SVec v_L7 (VOp2 (UnpL 1) (VV v_SS1) (VV v_zero));
      SVec v_SS1 (VOp1 (SrlB 1) (VV v_SS1));
      SVec v_L8 (VOp2 (UnpL 1) (VV v_SS1) (VV v_zero));
      SVec v_SS1 (VOp1 (SrlB 1) (VV v_SS1));
      SVec v_L9 (VOp2 (UnpL 1) (VV v_SS1) (VV v_zero));
      SVec v_SS10 (VLoad 16 0 (PAdd (PV v_src (IC 0)) (IC 10)));
      SVec v_L10 (VOp2 (UnpL 1) (VV v_SS10) (VV v_zero));
      SVec v_SS10 (VOp1 (SrlB 1) (VV v_SS10));
      SVec v_L11 (VOp2 (UnpL 1) (VV v_SS10) (VV v_zero));
      SVec v_SS10 (VOp1 (SrlB 1) (VV v_SS10));
      SVec v_L12 (VOp2 (UnpL 1) (VV v_SS10) (VV v_zero));
      SVec v_SS10 (VOp1 (SrlB 1) (VV v_SS10));
      SVec v_L13 (VOp2 (UnpL 1) (VV v_SS10) (VV v_zero));
      SVec v_p00 (VOp2 (Mul16) (VV v_L1) (VV v_coeff5));
      SVec v_p10 (VOp2 (Mul16) (VV v_L2) (VV v_coeff13));
      SVec v_p20 (VOp2 (Mul16) (VV v_L3) (VV v_coeff11));
      SVec v_p30 (VOp2 (Mul16) (VV v_L4) (VV v_coeff3));
      SVec v_p00 (VOp2 (Add16) (VV v_p00) (VV v_coeff16));
      SVec v_p00 (VOp2 (Add16) (VV v_p00) (VV v_p10));
      SVec v_p00 (VOp2 (Add16) (VV v_p00) (VV v_p20));
      SVec v_p00 (VOp2 (Add16) (VV v_p00) (VV v_p30));
      SVec v_p00 (VOp1 (Srl16 5) (VV v_p00));
      SVec v_p00 (VOp2 (Pack16) (VV v_p00) (VV v_p00));
      SStore 8 (PAdd (PV v_pfirst (IC 0)) (IV v_i)) (VV v_p00);
      SVec v_p10 (VOp2 (Mul16) (VV v_L3) (VV v_coeff5));
      SVec v_p20 (VOp2 (Mul16) (VV v_L4) (VV v_coeff7));
      SVec v_p30 (VOp2 (Mul16) (VV v_L5) (VV v_coeff3));
      SVec v_p00 (VOp2 (Add16) (VV v_L2) (VV v_coeff8));
      SVec v_p00 (VOp2 (Add16) (VV v_p00) (VV v_p10));
      SVec v_p00 (VOp2 (Add16) (VV v_p00) (VV v_p20));
      SVec v_p00 (VOp2 (Add16) (VV v_p00) (VV v_p30));
      SVec v_p00 (VOp1 (Srl16 4) (VV v_p00));
      SVec v_p00 (VOp2 (Pack16) (VV v_p00) (VV v_p00));
      SStore 8 (PAdd (PV v_pfirst (IC 1)) (IV v_i)) (VV v_p00);
      SVec v_p00 (VOp2 (Mul16) (VV v_L4) (VV v_coeff7));
      SVec v_p10 (VOp2 (Mul16) (VV v_L5) (VV v_coeff15));
      SVec v_p20 (VOp2 (Mul16) (VV v_L6) (VV v_coeff9));
      SVec v_p30 (VOp2 (Add16) (VV v_L7) (VV v_coeff16));
      SVec v_p00 (VOp2 (Add16) (VV v_p00) (VV v_p10));
      SVec v_p00 (VOp2 (Add16) (VV v_p00) (VV v_p20));
      SVec v_p00 (VOp2 (Add16) (VV v_p00) (VV v_p30));
      SVec v_p00 (VOp1 (Srl16 5) (VV v_p00));
      SVec v_p00 (VOp2 (Pack16) (VV v_p00) (VV v_p00));
      SStore 8 (PAdd (PV v_pfirst (IC 2)) (IV v_i)) (VV v_p00);
      SVec v_p00 (VOp2 (Add16) (VV v_L5) (VV v_L8));
      SVec v_p10 (VOp2 (Add16) (VV v_L6) (VV v_L7));
      SVec v_p10 (VOp2 (Mul16) (VV v_p10) (VV v_coeff3));
      SVec v_p00 (VOp2 (Add16) (VV v_p00) (VV v_coeff4));
      SVec v_p00 (VOp2 (Add16) (VV v_p00) (VV v_p10));
      SVec v_p00 (VOp1 (Srl16 3) (VV v_p00));
      SVec v_p00 (VOp2 (Pack16) (VV v_p00) (VV v_p00));
      SStore 8 (PAdd (PV v_pfirst (IC 3)) (IV v_i)) (VV v_p00);
      SVec v_p00 (VOp2 (Add16) (VV v_L6) (VV v_coeff16));
      SVec v_p10 (VOp2 (Mul16) (VV v_L7) (VV v_coeff9));
      SVec v_p20 (VOp2 (Mul16) (VV v_L8) (VV v_coeff15));
      SVec v_p30 (VOp2 (Mul16) (VV v_L9) (VV v_coeff7));
      SVec v_p00 (VOp2 (Add16) (VV v_p00) (VV v_p10));
      SVec v_p00 (VOp2 (Add16) (VV v_p00) (VV v_p20));
      SVec v_p00 (VOp2 (Add16) (VV v_p00) (VV v_p30));
      SVec v_p00 (VOp1 (Srl16 5) (VV v_p00));
      SVec v_p00 (VOp2 (Pack16) (VV v_p00) (VV v_p00));
      SStore 8 (PAdd (PV v_pfirst (IC 4)) (IV v_i)) (VV v_p00);
      SVec v_p00 (VOp2 (Mul16) (VV v_L8) (VV v_coeff3));
      SVec v_p10 (VOp2 (Mul16) (VV v_L9) (VV v_coeff7));
      SVec v_p20 (VOp2 (Mul16) (VV v_L10) (VV v_coeff5));
      SVec v_p30 (VOp2 (Add16) (VV v_L11) (VV v_coeff8));
      SVec v_p00 (VOp2 (Add16) (VV v_p00) (VV v_p10));
      SVec v_p00 (VOp2 (Add16) (VV v_p00) (VV v_p20));
      SVec v_p00 (VOp2 (Add16) (VV v_p00) (VV v_p30));
      SVec v_p00 (VOp1 (Srl16 4) (VV v_p00));
      SVec v_p00 (VOp2 (Pack16) (VV v_p00) (VV v_p00));
      SStore 8 (PAdd (PV v_pfirst (IC 5)) (IV v_i)) (VV v_p00);
      SVec v_p00 (VOp2 (Mul16) (VV v_L9) (VV v_coeff3));
      SVec v_p10 (VOp2 (Mul16) (VV v_L10) (VV v_coeff11));
      SVec v_p20 (VOp2 (Mul16) (VV v_L11) (VV v_coeff13));
      SVec v_p30 (VOp2 (Mul16) (VV v_L12) (VV v_coeff5));
      SVec v_p00 (VOp2 (Add16) (VV v_p00) (VV v_coeff16));
      SVec v_p00 (VOp2 (Add16) (VV v_p00) (VV v_p10));
      SVec v_p00 (VOp2 (Add16) (VV v_p00) (VV v_p20));
      SVec v_p00 (VOp2 (Add16) (VV v_p00) (VV v_p30));
      SVec v_p00 (VOp1 (Srl16 5) (VV v_p00));
      SVec v_p00 (VOp2 (Pack16) (VV v_p00) (VV v_p00));
      SStore 8 (PAdd (PV v_pfirst (IC 6)) (IV v_i)) (VV v_p00);
      SVec v_p00 (VOp2 (Add16) (VV v_L11) (VV v_L13));
      SVec v_p10 (VOp2 (Add16) (VV v_L12) (VV v_L12));
      SVec v_p00 (VOp2 (Add16) (VV v_p00) (VV v_coeff2));
      SVec v_p00 (VOp2 (Add16) (VV v_p00) (VV v_p10));
      SVec v_p00 (VOp1 (Srl16 2) (VV v_p00));
      SVec v_p00 (VOp2 (Pack16) (VV v_p00) (VV v_p00));
      SStore 8 (PAdd (PV v_pfirst (IC 7)) (IV v_i)) (VV v_p00)] [];
    SInt v_bsy (IShr (IV v_bsy) (IC 3));
    SInt v_i (IC 0);
    SLoop (ILt (IV v_i) (IV v_bsy)) [
      SCopy (IV v_bsx) (PV v_dst1 (IC 0)) (PAdd (PV v_pfirst (IC 0)) (IMul (IV v_i) (IC 11)));
      SCopy (IV v_bsx) (PV v_dst2 (IC 0)) (PAdd (PV v_pfirst (IC 1)) (IMul (IV v_i) (IC 11)));
      SCopy (IV v_bsx) (PV v_dst3 (IC 0)) (PAdd (PV v_pfirst (IC 2)) (IMul (IV v_i) (IC 11)));
      SCopy (IV v_bsx) (PV v_dst4 (IC 0)) (PAdd (PV v_pfirst (IC 3)) (IMul (IV v_i) (IC 11)));
      SCopy (IV v_bsx) (PV v_dst5 (IC 0)) (PAdd (PV v_pfirst (IC 4)) (IMul (IV v_i) (IC 11)));
      SCopy (IV v_bsx) (PV v_dst6 (IC 0)) (PAdd (PV v_pfirst (IC 5)) (IMul (IV v_i) (IC 11)));
      SCopy (IV v_bsx) (PV v_dst7 (IC 0)) (PAdd (PV v_pfirst (IC 6)) (IMul (IV v_i) (IC 11)));
      SCopy (IV v_bsx) (PV v_dst8 (IC 0)) (PAdd (PV v_pfirst (IC 7)) (IMul (IV v_i) (IC 11)));
      SPtr v_dst1 (IC 0) (PAdd (PV v_dst8 (IC 0)) (IV v_i_dst));
      SPtr v_dst2 (IC 0) (PAdd (PV v_dst1 (IC 0)) (IV v_i_dst));
      SPtr v_dst3 (IC 0) (PAdd (PV v_dst2 (IC 0)) (IV v_i_dst));
      SPtr v_dst4 (IC 0) (PAdd (PV v_dst3 (IC 0)) (IV v_i_dst));
      SPtr v_dst5 (IC 0) (PAdd (PV v_dst4 (IC 0)) (IV v_i_dst));
      SPtr v_dst6 (IC 0) (PAdd (PV v_dst5 (IC 0)) (IV v_i_dst));
      SPtr v_dst7 (IC 0) (PAdd (PV v_dst6 (IC 0)) (IV v_i_dst));
      SPtr v_dst8 (IC 0) (PAdd (PV v_dst7 (IC 0)) (IV v_i_dst));
      SInt v_i (IAdd (IV v_i) (IC 1))]] [
    SIf (IEq (IV v_bsx) (IC 16)) [
      SPtr v_dst1 (IC 0) (PV v_dst (IC 0));
      SPtr v_dst2 (IC 0) (PAdd (PV v_dst1 (IC 0)) (IV v_i_dst));
      SPtr v_dst3 (IC 0) (PAdd (PV v_dst2 (IC 0)) (IV v_i_dst));
      SPtr v_dst4 (IC 0) (PAdd (PV v_dst3 (IC 0)) (IV v_i_dst));
      SVec v_SS1 (VLoad 16 0 (PAdd (PV v_src (IC 0)) (IC 1)));
      SVec v_L1 (VOp2 (UnpL 1) (VV v_SS1) (VV v_zero));
      SVec v_SS1 (VOp1 (SrlB 1) (VV v_SS1));
      SVec v_L2 (VOp2 (UnpL 1) (VV v_SS1) (VV v_zero));
      SVec v_SS1 (VOp1 (SrlB 1) (VV v_SS1));
      SVec v_L3 (VOp2 (UnpL 1) (VV v_SS1) (VV v_zero));
      SVec v_SS1 (VOp1 (SrlB 1) (VV v_SS1));
      SVec v_L4 (VOp2 (UnpL 1) (VV v_SS1) (VV v_zero));
      SVec v_SS1 (VOp1 (SrlB 1) (VV v_SS1));
      SVec v_L5 (VOp2 (UnpL 1) (VV v_SS1) (VV v_zero));
      SVec v_SS1 (VOp1 (SrlB 1) (VV v_SS1));
      SVec v_L6 (VOp2 (UnpL 1) (VV v_SS1) (VV v_zero));
      SVec v_SS1 (VOp1 (SrlB 1) (VV v_SS1));
      SVec v_L7 (VOp2 (UnpL 1) (VV v_SS1) (VV v_zero));
      SVec v_SS1 (VOp1 (SrlB 1) (VV v_SS1));
      SVec v_L8 (VOp2 (UnpL 1) (VV v_SS1) (VV v_zero));
      SVec v_SS1 (VOp1 (SrlB 1) (VV v_SS1));
      SVec v_H1 (VOp2 (UnpL 1) (VV v_SS1) (VV v_zero));
      SVec v_SS10 (VLoad 16 0 (PAdd (PV v_src (IC 0)) (IC 10)));
      SVec v_H2 (VOp2 (UnpL 1) (VV v_SS10) (VV v_zero));
      SVec v_SS10 (VOp1 (SrlB 1) (VV v_SS10));
      SVec v_H3 (VOp2 (UnpL 1) (VV v_SS10) (VV v_zero));
      SVec v_SS10 (VOp1 (SrlB 1) (VV v_SS10));
      SVec v_H4 (VOp2 (UnpL 1) (VV v_SS10) (VV v_zero));
      SVec v_SS10 (VOp1 (SrlB 1) (VV v_SS10));
      SVec v_H5 (VOp2 (UnpL 1) (VV v_SS10) (VV v_zero));
      SVec v_SS10 (VOp1 (SrlB 1) (VV v_SS10));
      SVec v_H6 (VOp2 (UnpL 1) (VV v_SS10) (VV v_zero));
      SVec v_SS10 (VOp1 (SrlB 1) (VV v_SS10));
      SVec v_H7 (VOp2 (UnpL 1) (VV v_SS10) (VV v_zero));
      SVec v_SS10 (VOp1 (SrlB 1) (VV v_SS10));
      SVec v_H8 (VOp2 (UnpL 1) (VV v_SS10) (VV v_zero));
      SVec v_p00 (VOp2 (Mul16) (VV v_L1) (VV v_coeff5));
      SVec v_p10 (VOp2 (Mul16) (VV v_L2) (VV v_coeff13));
      SVec v_p20 (VOp2 (Mul16) (VV v_L3) (VV v_coeff11));
      SVec v_p30 (VOp2 (Mul16) (VV v_L4) (VV v_coeff3));
      SVec v_p00 (VOp2 (Add16) (VV v_p00) (VV v_coeff16));
      SVec v_p00 (VOp2 (Add16) (VV v_p00) (VV v_p10));
      SVec v_p00 (VOp2 (Add16) (VV v_p00) (VV v_p20));
      SVec v_p00 (VOp2 (Add16) (VV v_p00) (VV v_p30));
      SVec v_p00 (VOp1 (Srl16 5) (VV v_p00));
      SVec v_p01 (VOp2 (Mul16) (VV v_H1) (VV v_coeff5));
      SVec v_p11 (VOp2 (Mul16) (VV v_H2) (VV v_coeff13));
      SVec v_p21 (VOp2 (Mul16) (VV v_H3) (VV v_coeff11));
      SVec v_p31 (VOp2 (Mul16) (VV v_H4) (VV v_coeff3));
      SVec v_p01 (VOp2 (Add16) (VV v_p01) (VV v_coeff16));
      SVec v_p01 (VOp2 (Add16) (VV v_p01) (VV v_p11));
      SVec v_p01 (VOp2 (Add16) (VV v_p01) (VV v_p21));
      SVec v_p01 (VOp2 (Add16) (VV v_p01) (VV v_p31));
      SVec v_p01 (VOp1 (Srl16 5) (VV v_p01));
      SVec v_p00 (VOp2 (Pack16) (VV v_p00) (VV v_p01));
      SStore 16 (PV v_dst1 (IC 0)) (VV v_p00);
      SVec v_p10 (VOp2 (Mul16) (VV v_L3) (VV v_coeff5));
      SVec v_p20 (VOp2 (Mul16) (VV v_L4) (VV v_coeff7));
      SVec v_p30 (VOp2 (Mul16) (VV v_L5) (VV v_coeff3));
      SVec v_p00 (VOp2 (Add16) (VV v_L2) (VV v_coeff8));
      SVec v_p00 (VOp2 (Add16) (VV v_p00) (VV v_p10));
      SVec v_p00 (VOp2 (Add16) (VV v_p00) (VV v_p20));
      SVec v_p00 (VOp2 (Add16) (VV v_p00) (VV v_p30));
      SVec v_p00 (VOp1 (Srl16 4) (VV v_p00));
      SVec v_p11 (VOp2 (Mul16) (VV v_H3) (VV v_coeff5));
      SVec v_p21 (VOp2 (Mul16) (VV v_H4) (VV v_coeff7));
      SVec v_p31 (VOp2 (Mul16) (VV v_H5) (VV v_coeff3));
      SVec v_p01 (VOp2 (Add16) (VV v_H2) (VV v_coeff8));
      SVec v_p01 (VOp2 (Add16) (VV v_p01) (VV v_p11));
      SVec v_p01 (VOp2 (Add16) (VV v_p01) (VV v_p21));
      SVec v_p01 (VOp2 (Add16) (VV v_p01) (VV v_p31));
      SVec v_p01 (VOp1 (Srl16 4) (VV v_p01));
      SVec v_p00 (VOp2 (Pack16) (VV v_p00) (VV v_p01));
      SStore 16 (PV v_dst2 (IC 0)) (VV v_p00);
      SVec v_p00 (VOp2 (Mul16) (VV v_L4) (VV v_coeff7));
      SVec v_p10 (VOp2 (Mul16) (VV v_L5) (VV v_coeff15));
      SVec v_p20 (VOp2 (Mul16) (VV v_L6) (VV v_coeff9));
      SVec v_p30 (VOp2 (Add16) (VV v_L7) (VV v_coeff16));
      SVec v_p00 (VOp2 (Add16) (VV v_p00) (VV v_p10));
      SVec v_p00 (VOp2 (Add16) (VV v_p00) (VV v_p20));
      SVec v_p00 (VOp2 (Add16) (VV v_p00) (VV v_p30));
      SVec v_p00 (VOp1 (Srl16 5) (VV v_p00));
      SVec v_p01 (VOp2 (Mul16) (VV v_H4) (VV v_coeff7));
      SVec v_p11 (VOp2 (Mul16) (VV v_H5) (VV v_coeff15));
      SVec v_p21 (VOp2 (Mul16) (VV v_H6) (VV v_coeff9));
      SVec v_p31 (VOp2 (Add16) (VV v_H7) (VV v_coeff16));
      SVec v_p01 (VOp2 (Add16) (VV v_p01) (VV v_p11));
      SVec v_p01 (VOp2 (Add16) (VV v_p01) (VV v_p21));
      SVec v_p01 (VOp2 (Add16) (VV v_p01) (VV v_p31));
      SVec v_p01 (VOp1 (Srl16 5) (VV v_p01));
      SVec v_p00 (VOp2 (Pack16) (VV v_p00) (VV v_p01));
      SStore 16 (PV v_dst3 (IC 0)) (VV v_p00);
      SVec v_p00 (VOp2 (Add16) (VV v_L5) (VV v_L8));
      SVec v_p10 (VOp2 (Add16) (VV v_L6) (VV v_L7));
      SVec v_p10 (VOp2 (Mul16) (VV v_p10) (VV v_coeff3));
      SVec v_p00 (VOp2 (Add16) (VV v_p00) (VV v_coeff4));
      SVec v_p00 (VOp2 (Add16) (VV v_p00) (VV v_p10));
      SVec v_p00 (VOp1 (Srl16 3) (VV v_p00));
      SVec v_p01 (VOp2 (Add16) (VV v_H5) (VV v_H8));
      SVec v_p11 (VOp2 (Add16) (VV v_H6) (VV v_H7));
      SVec v_p11 (VOp2 (Mul16) (VV v_p11) (VV v_coeff3));
      SVec v_p01 (VOp2 (Add16) (VV v_p01) (VV v_coeff4));
      SVec v_p01 (VOp2 (Add16) (VV v_p01) (VV v_p11));
      SVec v_p01 (VOp1 (Srl16 3) (VV v_p01));
      SVec v_p00 (VOp2 (Pack16) (VV v_p00) (VV v_p01));
      SStore 16 (PV v_dst4 (IC 0)) (VV v_p00)] [
      SIf (IEq (IV v_bsx) (IC 8)) [
        SPtr v_dst1 (IC 0) (PV v_dst (IC 0));
        SPtr v_dst2 (IC 0) (PAdd (PV v_dst1 (IC 0)) (IV v_i_dst));
        SPtr v_dst3 (IC 0) (PAdd (PV v_dst2 (IC 0)) (IV v_i_dst));
        SPtr v_dst4 (IC 0) (PAdd (PV v_dst3 (IC 0)) (IV v_i_dst));
        SPtr v_dst5 (IC 0) (PAdd (PV v_dst4 (IC 0)) (IV v_i_dst));
        SPtr v_dst6 (IC 0) (PAdd (PV v_dst5 (IC 0)) (IV v_i_dst));
        SPtr v_dst7 (IC 0) (PAdd (PV v_dst6 (IC 0)) (IV v_i_dst));
        SPtr v_dst8 (IC 0) (PAdd (PV v_dst7 (IC 0)) (IV v_i_dst));
        SInt v_i (IC 0);
        SLoop (ILt (IV v_i) (IC 8)) [
          SPut (PAdd (PV v_dst1 (IC 0)) (IV v_i)) (XShr (XAdd (XAdd (XAdd (XAdd (XMul (XC 5) (XLd (PAdd (PV v_src (IC 0)) (IC 1)))) (XMul (XC 13) (XLd (PAdd (PV v_src (IC 0)) (IC 2))))) (XMul (XC 11) (XLd (PAdd (PV v_src (IC 0)) (IC 3))))) (XMul (XC 3) (XLd (PAdd (PV v_src (IC 0)) (IC 4))))) (XC 16)) 5);
          SPut (PAdd (PV v_dst2 (IC 0)) (IV v_i)) (XShr (XAdd (XAdd (XAdd (XAdd (XLd (PAdd (PV v_src (IC 0)) (IC 2))) (XMul (XC 5) (XLd (PAdd (PV v_src (IC 0)) (IC 3))))) (XMul (XC 7) (XLd (PAdd (PV v_src (IC 0)) (IC 4))))) (XMul (XC 3) (XLd (PAdd (PV v_src (IC 0)) (IC 5))))) (XC 8)) 4);
          SPut (PAdd (PV v_dst3 (IC 0)) (IV v_i)) (XShr (XAdd (XAdd (XAdd (XAdd (XMul (XC 7) (XLd (PAdd (PV v_src (IC 0)) (IC 4)))) (XMul (XC 15) (XLd (PAdd (PV v_src (IC 0)) (IC 5))))) (XMul (XC 9) (XLd (PAdd (PV v_src (IC 0)) (IC 6))))) (XMul (XC 1) (XLd (PAdd (PV v_src (IC 0)) (IC 7))))) (XC 16)) 5);
          SPut (PAdd (PV v_dst4 (IC 0)) (IV v_i)) (XShr (XAdd (XAdd (XAdd (XAdd (XLd (PAdd (PV v_src (IC 0)) (IC 5))) (XMul (XC 3) (XLd (PAdd (PV v_src (IC 0)) (IC 6))))) (XMul (XC 3) (XLd (PAdd (PV v_src (IC 0)) (IC 7))))) (XMul (XC 1) (XLd (PAdd (PV v_src (IC 0)) (IC 8))))) (XC 4)) 3);
          SPut (PAdd (PV v_dst5 (IC 0)) (IV v_i)) (XShr (XAdd (XAdd (XAdd (XAdd (XLd (PAdd (PV v_src (IC 0)) (IC 6))) (XMul (XC 9) (XLd (PAdd (PV v_src (IC 0)) (IC 7))))) (XMul (XC 15) (XLd (PAdd (PV v_src (IC 0)) (IC 8))))) (XMul (XC 7) (XLd (PAdd (PV v_src (IC 0)) (IC 9))))) (XC 16)) 5);
          SPut (PAdd (PV v_dst6 (IC 0)) (IV v_i)) (XShr (XAdd (XAdd (XAdd (XAdd (XMul (XC 3) (XLd (PAdd (PV v_src (IC 0)) (IC 8)))) (XMul (XC 7) (XLd (PAdd (PV v_src (IC 0)) (IC 9))))) (XMul (XC 5) (XLd (PAdd (PV v_src (IC 0)) (IC 10))))) (XLd (PAdd (PV v_src (IC 0)) (IC 11)))) (XC 8)) 4);
          SPut (PAdd (PV v_dst7 (IC 0)) (IV v_i)) (XShr (XAdd (XAdd (XAdd (XAdd (XMul (XC 3) (XLd (PAdd (PV v_src (IC 0)) (IC 9)))) (XMul (XC 11) (XLd (PAdd (PV v_src (IC 0)) (IC 10))))) (XMul (XC 13) (XLd (PAdd (PV v_src (IC 0)) (IC 11))))) (XMul (XC 5) (XLd (PAdd (PV v_src (IC 0)) (IC 12))))) (XC 16)) 5);
          SPut (PAdd (PV v_dst8 (IC 0)) (IV v_i)) (XShr (XAdd (XAdd (XAdd (XLd (PAdd (PV v_src (IC 0)) (IC 11))) (XMul (XC 2) (XLd (PAdd (PV v_src (IC 0)) (IC 12))))) (XLd (PAdd (PV v_src (IC 0)) (IC 13)))) (XC 2)) 2);
          SPtr v_src (IC 0) (PAdd (PV v_src (IC 0)) (IC 1));
          SInt v_i (IAdd (IV v_i) (IC 1))];
        SIf (IEq (IV v_bsy) (IC 32)) [
          SVec v_pad1 (VSet1 1 16 (XLd (PAdd (PV v_src (IC 0)) (IC 8))));
          SPtr v_dst1 (IC 0) (PAdd (PV v_dst8 (IC 0)) (IV v_i_dst));
          SPtr v_dst2 (IC 0) (PAdd (PV v_dst1 (IC 0)) (IV v_i_dst));
          SPtr v_dst3 (IC 0) (PAdd (PV v_dst2 (IC 0)) (IV v_i_dst));
          SPtr v_dst4 (IC 0) (PAdd (PV v_dst3 (IC 0)) (IV v_i_dst));
          SPtr v_dst5 (IC 0) (PAdd (PV v_dst4 (IC 0)) (IV v_i_dst));
          SPtr v_dst6 (IC 0) (PAdd (PV v_dst5 (IC 0)) (IV v_i_dst));
          SPtr v_dst7 (IC 0) (PAdd (PV v_dst6 (IC 0)) (IV v_i_dst));
          SPtr v_dst8 (IC 0) (PAdd (PV v_dst7 (IC 0)) (IV v_i_dst));
          SStore 8 (PV v_dst1 (IC 0)) (VV v_pad1);
          SStore 8 (PV v_dst2 (IC 0)) (VV v_pad1);
          SStore 8 (PV v_dst3 (IC 0)) (VV v_pad1);
          SStore 8 (PV v_dst4 (IC 0)) (VV v_pad1);
          SStore 8 (PV v_dst5 (IC 0)) (VV v_pad1);
          SStore 8 (PV v_dst6 (IC 0)) (VV v_pad1);
          SStore 8 (PV v_dst7 (IC 0)) (VV v_pad1);
          SStore 8 (PV v_dst8 (IC 0)) (VV v_pad1);
          SPtr v_src (IC 0) (PAdd (PV v_src (IC 0)) (IC 4));
          SPut (PV v_dst1 (IC 0)) (XShr (XAdd (XAdd (XAdd (XAdd (XMul (XC 5) (XLd (PV v_src (IC 0)))) (XMul (XC 13) (XLd (PAdd (PV v_src (IC 0)) (IC 1))))) (XMul (XC 11) (XLd (PAdd (PV v_src (IC 0)) (IC 2))))) (XMul (XC 3) (XLd (PAdd (PV v_src (IC 0)) (IC 3))))) (XC 16)) 5);
          SPut (PAdd (PV v_dst1 (IC 0)) (IC 1)) (XShr (XAdd (XAdd (XAdd (XAdd (XMul (XC 5) (XLd (PAdd (PV v_src (IC 0)) (IC 1)))) (XMul (XC 13) (XLd (PAdd (PV v_src (IC 0)) (IC 2))))) (XMul (XC 11) (XLd (PAdd (PV v_src (IC 0)) (IC 3))))) (XMul (XC 3) (XLd (PAdd (PV v_src (IC 0)) (IC 4))))) (XC 16)) 5);
          SPut (PAdd (PV v_dst1 (IC 0)) (IC 2)) (XShr (XAdd (XAdd (XAdd (XAdd (XMul (XC 5) (XLd (PAdd (PV v_src (IC 0)) (IC 2)))) (XMul (XC 13) (XLd (PAdd (PV v_src (IC 0)) (IC 3))))) (XMul (XC 11) (XLd (PAdd (PV v_src (IC 0)) (IC 4))))) (XMul (XC 3) (XLd (PAdd (PV v_src (IC 0)) (IC 5))))) (XC 16)) 5);
          SPut (PAdd (PV v_dst1 (IC 0)) (IC 3)) (XShr (XAdd (XAdd (XAdd (XAdd (XMul (XC 5) (XLd (PAdd (PV v_src (IC 0)) (IC 3)))) (XMul (XC 13) (XLd (PAdd (PV v_src (IC 0)) (IC 4))))) (XMul (XC 11) (XLd (PAdd (PV v_src (IC 0)) (IC 5))))) (XMul (XC 3) (XLd (PAdd (PV v_src (IC 0)) (IC 6))))) (XC 16)) 5);
          SPut (PV v_dst2 (IC 0)) (XShr (XAdd (XAdd (XAdd (XAdd (XLd (PAdd (PV v_src (IC 0)) (IC 1))) (XMul (XC 5) (XLd (PAdd (PV v_src (IC 0)) (IC 2))))) (XMul (XC 7) (XLd (PAdd (PV v_src (IC 0)) (IC 3))))) (XMul (XC 3) (XLd (PAdd (PV v_src (IC 0)) (IC 4))))) (XC 8)) 4);
          SPut (PAdd (PV v_dst2 (IC 0)) (IC 1)) (XShr (XAdd (XAdd (XAdd (XAdd (XLd (PAdd (PV v_src (IC 0)) (IC 2))) (XMul (XC 5) (XLd (PAdd (PV v_src (IC 0)) (IC 3))))) (XMul (XC 7) (XLd (PAdd (PV v_src (IC 0)) (IC 4))))) (XMul (XC 3) (XLd (PAdd (PV v_src (IC 0)) (IC 5))))) (XC 8)) 4);
          SPut (PAdd (PV v_dst2 (IC 0)) (IC 2)) (XShr (XAdd (XAdd (XAdd (XAdd (XLd (PAdd (PV v_src (IC 0)) (IC 3))) (XMul (XC 5) (XLd (PAdd (PV v_src (IC 0)) (IC 4))))) (XMul (XC 7) (XLd (PAdd (PV v_src (IC 0)) (IC 5))))) (XMul (XC 3) (XLd (PAdd (PV v_src (IC 0)) (IC 6))))) (XC 8)) 4);
          SPut (PV v_dst3 (IC 0)) (XShr (XAdd (XAdd (XAdd (XAdd (XMul (XC 7) (XLd (PAdd (PV v_src (IC 0)) (IC 3)))) (XMul (XC 15) (XLd (PAdd (PV v_src (IC 0)) (IC 4))))) (XMul (XC 9) (XLd (PAdd (PV v_src (IC 0)) (IC 5))))) (XLd (PAdd (PV v_src (IC 0)) (IC 6)))) (XC 16)) 5);
          SPtr v_dst1 (IC 0) (PAdd (PV v_dst8 (IC 0)) (IV v_i_dst));
          SPtr v_dst2 (IC 0) (PAdd (PV v_dst1 (IC 0)) (IV v_i_dst));
          SPtr v_dst3 (IC 0) (PAdd (PV v_dst2 (IC 0)) (IV v_i_dst));
          SPtr v_dst4 (IC 0) (PAdd (PV v_dst3 (IC 0)) (IV v_i_dst));
          SPtr v_dst5 (IC 0) (PAdd (PV v_dst4 (IC 0)) (IV v_i_dst));
          SPtr v_dst6 (IC 0) (PAdd (PV v_dst5 (IC 0)) (IV v_i_dst));
          SPtr v_dst7 (IC 0) (PAdd (PV v_dst6 (IC 0)) (IV v_i_dst));
          SPtr v_dst8 (IC 0) (PAdd (PV v_dst7 (IC 0)) (IV v_i_dst));
          SStore 8 (PV v_dst1 (IC 0)) (VV v_pad1);
          SStore 8 (PV v_dst2 (IC 0)) (VV v_pad1);
          SStore 8 (PV v_dst3 (IC 0)) (VV v_pad1);
          SStore 8 (PV v_dst4 (IC 0)) (VV v_pad1);
          SStore 8 (PV v_dst5 (IC 0)) (VV v_pad1);
          SStore 8 (PV v_dst6 (IC 0)) (VV v_pad1);
          SStore 8 (PV v_dst7 (IC 0)) (VV v_pad1);
          SStore 8 (PV v_dst8 (IC 0)) (VV v_pad1);
          SPtr v_dst1 (IC 0) (PAdd (PV v_dst8 (IC 0)) (IV v_i_dst));
          SPtr v_dst2 (IC 0) (PAdd (PV v_dst1 (IC 0)) (IV v_i_dst));
          SPtr v_dst3 (IC 0) (PAdd (PV v_dst2 (IC 0)) (IV v_i_dst));
          SPtr v_dst4 (IC 0) (PAdd (PV v_dst3 (IC 0)) (IV v_i_dst));
          SPtr v_dst5 (IC 0) (PAdd (PV v_dst4 (IC 0)) (IV v_i_dst));
          SPtr v_dst6 (IC 0) (PAdd (PV v_dst5 (IC 0)) (IV v_i_dst));
          SPtr v_dst7 (IC 0) (PAdd (PV v_dst6 (IC 0)) (IV v_i_dst));
          SPtr v_dst8 (IC 0) (PAdd (PV v_dst7 (IC 0)) (IV v_i_dst));
          SStore 8 (PV v_dst1 (IC 0)) (VV v_pad1);
          SStore 8 (PV v_dst2 (IC 0)) (VV v_pad1);
          SStore 8 (PV v_dst3 (IC 0)) (VV v_pad1);
          SStore 8 (PV v_dst4 (IC 0)) (VV v_pad1);
          SStore 8 (PV v_dst5 (IC 0)) (VV v_pad1);
          SStore 8 (PV v_dst6 (IC 0)) (VV v_pad1);
          SStore 8 (PV v_dst7 (IC 0)) (VV v_pad1);
          SStore 8 (PV v_dst8 (IC 0)) (VV v_pad1)] []] [
        SPtr v_dst1 (IC 0) (PV v_dst (IC 0));
        SPtr v_dst2 (IC 0) (PAdd (PV v_dst1 (IC 0)) (IV v_i_dst));
        SPtr v_dst3 (IC 0) (PAdd (PV v_dst2 (IC 0)) (IV v_i_dst));
        SPtr v_dst4 (IC 0) (PAdd (PV v_dst3 (IC 0)) (IV v_i_dst));
        SVec v_SS1 (VLoad 16 0 (PAdd (PV v_src (IC 0)) (IC 1)));
        SVec v_L1 (VOp2 (UnpL 1) (VV v_SS1) (VV v_zero));
        SVec v_SS1 (VOp1 (SrlB 1) (VV v_SS1));
        SVec v_L2 (VOp2 (UnpL 1) (VV v_SS1) (VV v_zero));
        SVec v_SS1 (VOp1 (SrlB 1) (VV v_SS1));
        SVec v_L3 (VOp2 (UnpL 1) (VV v_SS1) (VV v_zero));
        SVec v_SS1 (VOp1 (SrlB 1) (VV v_SS1));
        SVec v_L4 (VOp2 (UnpL 1) (VV v_SS1) (VV v_zero));
        SVec v_SS1 (VOp1 (SrlB 1) (VV v_SS1));
        SVec v_L5 (VOp2 (UnpL 1) (VV v_SS1) (VV v_zero));
        SVec v_SS1 (VOp1 (SrlB 1) (VV v_SS1));
        SVec v_L6 (VOp2 (UnpL 1) (VV v_SS1) (VV v_zero));
        SVec v_SS1 (VOp1 (SrlB 1) (VV v_SS1));
        SVec v_L7 (VOp2 (UnpL 1) (VV v_SS1) (VV v_zero));
        SVec v_SS1 (VOp1 (SrlB 1) (VV v_SS1));
        SVec v_L8 (VOp2 (UnpL 1) (VV v_SS1) (VV v_zero));
        SVec v_p00 (VOp2 (Mul16) (VV v_L1) (VV v_coeff5));
        SVec v_p10 (VOp2 (Mul16) (VV v_L2) (VV v_coeff13));
        SVec v_p20 (VOp2 (Mul16) (VV v_L3) (VV v_coeff11));
        SVec v_p30 (VOp2 (Mul16) (VV v_L4) (VV v_coeff3));
        SVec v_p00 (VOp2 (Add16) (VV v_p00) (VV v_coeff16));
        SVec v_p00 (VOp2 (Add16) (VV v_p00) (VV v_p10));
        SVec v_p00 (VOp2 (Add16) (VV v_p00) (VV v_p20));
        SVec v_p00 (VOp2 (Add16) (VV v_p00) (VV v_p30));
        SVec v_p00 (VOp1 (Srl16 5) (VV v_p00));
        SVec v_p00 (VOp2 (Pack16) (VV v_p00) (VV v_p00));
        SStore 4 (PV v_dst1 (IC 0)) (VV v_p00);
        SVec v_p10 (VOp2 (Mul16) (VV v_L3) (VV v_coeff5));
        SVec v_p20 (VOp2 (Mul16) (VV v_L4) (VV v_coeff7));
        SVec v_p30 (VOp2 (Mul16) (VV v_L5) (VV v_coeff3));
        SVec v_p00 (VOp2 (Add16) (VV v_L2) (VV v_coeff8));
        SVec v_p00 (VOp2 (Add16) (VV v_p00) (VV v_p10));
        SVec v_p00 (VOp2 (Add16) (VV v_p00) (VV v_p20));
        SVec v_p00 (VOp2 (Add16) (VV v_p00) (VV v_p30));
        SVec v_p00 (VOp1 (Srl16 4) (VV v_p00));
        SVec v_p00 (VOp2 (Pack16) (VV v_p00) (VV v_p00));
        SStore 4 (PV v_dst2 (IC 0)) (VV v_p00);
        SVec v_p00 (VOp2 (Mul16) (VV v_L4) (VV v_coeff7));
        SVec v_p10 (VOp2 (Mul16) (VV v_L5) (VV v_coeff15));
        SVec v_p20 (VOp2 (Mul16) (VV v_L6) (VV v_coeff9));
        SVec v_p30 (VOp2 (Add16) (VV v_L7) (VV v_coeff16));
        SVec v_p00 (VOp2 (Add16) (VV v_p00) (VV v_p10));
        SVec v_p00 (VOp2 (Add16) (VV v_p00) (VV v_p20));
        SVec v_p00 (VOp2 (Add16) (VV v_p00) (VV v_p30));
        SVec v_p00 (VOp1 (Srl16 5) (VV v_p00));
        SVec v_p00 (VOp2 (Pack16) (VV v_p00) (VV v_p00));
        SStore 4 (PV v_dst3 (IC 0)) (VV v_p00);
        SVec v_p00 (VOp2 (Add16) (VV v_L5) (VV v_L8));
        SVec v_p10 (VOp2 (Add16) (VV v_L6) (VV v_L7));
        SVec v_p10 (VOp2 (Mul16) (VV v_p10) (VV v_coeff3));
        SVec v_p00 (VOp2 (Add16) (VV v_p00) (VV v_coeff4));
        SVec v_p00 (VOp2 (Add16) (VV v_p00) (VV v_p10));
        SVec v_p00 (VOp1 (Srl16 3) (VV v_p00));
        SVec v_p00 (VOp2 (Pack16) (VV v_p00) (VV v_p00));
        SStore 4 (PV v_dst4 (IC 0)) (VV v_p00);
        SIf (IEq (IV v_bsy) (IC 16)) [
          SPtr v_dst5 (IC 0) (PAdd (PV v_dst4 (IC 0)) (IV v_i_dst));
          SPtr v_dst6 (IC 0) (PAdd (PV v_dst5 (IC 0)) (IV v_i_dst));
          SPtr v_dst7 (IC 0) (PAdd (PV v_dst6 (IC 0)) (IV v_i_dst));
          SPtr v_dst8 (IC 0) (PAdd (PV v_dst7 (IC 0)) (IV v_i_dst));
          SPtr v_src (IC 0) (PAdd (PV v_src (IC 0)) (IC 8));
          SVec v_pad1 (VSet1 1 16 (XLd (PV v_src (IC 0))));
          SStore 4 (PV v_dst5 (IC 0)) (VV v_pad1);
          SStore 4 (PV v_dst6 (IC 0)) (VV v_pad1);
          SStore 4 (PV v_dst7 (IC 0)) (VV v_pad1);
          SStore 4 (PV v_dst8 (IC 0)) (VV v_pad1);
          SPut (PV v_dst5 (IC 0)) (XShr (XAdd (XAdd (XAdd (XAdd (XLd (PAdd (PV v_src (IC 0)) (IC (-2)))) (XMul (XC 9) (XLd (PAdd (PV v_src (IC 0)) (IC (-1)))))) (XMul (XC 15) (XLd (PV v_src (IC 0))))) (XMul (XC 7) (XLd (PAdd (PV v_src (IC 0)) (IC 1))))) (XC 16)) 5);
          SPut (PAdd (PV v_dst5 (IC 0)) (IC 1)) (XShr (XAdd (XAdd (XAdd (XAdd (XLd (PAdd (PV v_src (IC 0)) (IC (-1)))) (XMul (XC 9) (XLd (PV v_src (IC 0))))) (XMul (XC 15) (XLd (PAdd (PV v_src (IC 0)) (IC 1))))) (XMul (XC 7) (XLd (PAdd (PV v_src (IC 0)) (IC 2))))) (XC 16)) 5);
          SPtr v_dst1 (IC 0) (PAdd (PV v_dst8 (IC 0)) (IV v_i_dst));
          SPtr v_dst2 (IC 0) (PAdd (PV v_dst1 (IC 0)) (IV v_i_dst));
          SPtr v_dst3 (IC 0) (PAdd (PV v_dst2 (IC 0)) (IV v_i_dst));
          SPtr v_dst4 (IC 0) (PAdd (PV v_dst3 (IC 0)) (IV v_i_dst));
          SPtr v_dst5 (IC 0) (PAdd (PV v_dst4 (IC 0)) (IV v_i_dst));
          SPtr v_dst6 (IC 0) (PAdd (PV v_dst5 (IC 0)) (IV v_i_dst));
          SPtr v_dst7 (IC 0) (PAdd (PV v_dst6 (IC 0)) (IV v_i_dst));
          SPtr v_dst8 (IC 0) (PAdd (PV v_dst7 (IC 0)) (IV v_i_dst));
          SStore 4 (PV v_dst1 (IC 0)) (VV v_pad1);
          SStore 4 (PV v_dst2 (IC 0)) (VV v_pad1);
          SStore 4 (PV v_dst3 (IC 0)) (VV v_pad1);
          SStore 4 (PV v_dst4 (IC 0)) (VV v_pad1);
          SStore 4 (PV v_dst5 (IC 0)) (VV v_pad1);
          SStore 4 (PV v_dst6 (IC 0)) (VV v_pad1);
          SStore 4 (PV v_dst7 (IC 0)) (VV v_pad1);
          SStore 4 (PV v_dst8 (IC 0)) (VV v_pad1)] []]]]].

(** vec/intrinsic_intra-pred.cc:2251-2482 [intra_pred_ang_x_6_sse128] *)
Definition k_ang_x_6_sse128 : list stm := [
  SArr v_first_line (IAdd (IC 64) (IC 64));
  SInt v_line_size (ISub (IAdd (IV v_bsx) (IV v_bsy)) (IC 1));
  SVec v_zero (VConst [0;0;0;0;0;0;0;0;0;0;0;0;0;0;0;0]);
  SVec v_offset (VSet1 2 8 (XC 2));
  SPtr v_src (IC 0) (PAdd (PV v_src (IC 0)) (IC 2));
  SInt v_i (IC 0);
  SLoop (ILt (IV v_i) (ISub (IV v_line_size) (IC 8))) [
    SVec v_S0 (VLoad 16 0 (PAdd (PV v_src (IC 0)) (ISub (IC 0) (IC 1))));
    SVec v_S2 (VLoad 16 0 (PAdd (PV v_src (IC 0)) (IC 1)));
    SVec v_S1 (VLoad 16 0 (PV v_src (IC 0)));
    SVec v_L0 (VOp2 (UnpL 1) (VV v_S0) (VV v_zero));
    SVec v_L1 (VOp2 (UnpL 1) (VV v_S1) (VV v_zero));
    SVec v_L2 (VOp2 (UnpL 1) (VV v_S2) (VV v_zero));
    SVec v_H0 (VOp2 (UnpH 1) (VV v_S0) (VV v_zero));
    SVec v_H1 (VOp2 (UnpH 1) (VV v_S1) (VV v_zero));
    SVec v_H2 (VOp2 (UnpH 1) (VV v_S2) (VV v_zero));
    SVec v_sum1 (VOp2 (Add16) (VV v_L0) (VV v_L1));
    SVec v_sum2 (VOp2 (Add16) (VV v_L1) (VV v_L2));
    SVec v_sum3 (VOp2 (Add16) (VV v_H0) (VV v_H1));
    SVec v_sum4 (VOp2 (Add16) (VV v_H1) (VV v_H2));
    SVec v_sum1 (VOp2 (Add16) (VV v_sum1) (VV v_sum2));
    SVec v_sum3 (VOp2 (Add16) (VV v_sum3) (VV v_sum4));
    SVec v_sum1 (VOp2 (Add16) (VV v_sum1) (VV v_offset));
    SVec v_sum3 (VOp2 (Add16) (VV v_sum3) (VV v_offset));
    SVec v_sum1 (VOp1 (Srl16 2) (VV v_sum1));
    SVec v_sum3 (VOp1 (Srl16 2) (VV v_sum3));
    SVec v_sum1 (VOp2 (Pack16) (VV v_sum1) (VV v_sum3));
    SStore 16 (PAdd (PV v_first_line (IC 0)) (IV v_i)) (VV v_sum1);
    SInt v_i (IAdd (IV v_i) (IC 16));
    SPtr v_src (IC 0) (PAdd (PV v_src (IC 0)) (IC 16))];
  SIf (ILt (IV v_i) (IV v_line_size)) [
    SVec v_S0 (VLoad 16 0 (PAdd (PV v_src (IC 0)) (ISub (IC 0) (IC 1))));
    SVec v_S2 (VLoad 16 0 (PAdd (PV v_src (IC 0)) (IC 1)));
    SVec v_S1 (VLoad 16 0 (PV v_src (IC 0)));
    SVec v_L0 (VOp2 (UnpL 1) (VV v_S0) (VV v_zero));
    SVec v_L1 (VOp2 (UnpL 1) (VV v_S1) (VV v_zero));
    SVec v_L2 (VOp2 (UnpL 1) (VV v_S2) (VV v_zero));
    SVec v_sum1 (VOp2 (Add16) (VV v_L0) (VV v_L1));
    SVec v_sum2 (VOp2 (Add16) (VV v_L1) (VV v_L2));
    SVec v_sum1 (VOp2 (Add16) (VV v_sum1) (VV v_sum2));
    SVec v_sum1 (VOp2 (Add16) (VV v_sum1) (VV v_offset));
    SVec v_sum1 (VOp1 (Srl16 2) (VV v_sum1));
    SVec v_sum1 (VOp2 (Pack16) (VV v_sum1) (VV v_sum1));
    SStore 8 (PAdd (PV v_first_line (IC 0)) (IV v_i)) (VV v_sum1)] [];
  SIf (ILor (ILt (IC 16) (IV v_bsx)) (IEq (IV v_bsx) (IC 4))) [
    SInt v_i (IC 0);
    SLoop (ILt (IV v_i) (IV v_bsy)) [
      SCopy (IV v_bsx) (PV v_dst (IC 0)) (PAdd (PV v_first_line (IC 0)) (IV v_i));
      SPtr v_dst (IC 0) (PAdd (PV v_dst (IC 0)) (IV v_i_dst));
      SInt v_i (IAdd (IV v_i) (IC 1))]] [
    SIf (IEq (IV v_bsx) (IC 16)) [
      SPtr v_dst1 (IC 0) (PV v_dst (IC 0));
      SIf (IEq (IV v_bsy) (IC 4)) [
        SVec v_M (VLoad 16 0 (PAdd (PV v_first_line (IC 0)) (IC 0)));
        SStore 8 (PV v_dst1 (IC 0)) (VV v_M);
        SPtr v_dst1 (IC 0) (PAdd (PV v_dst1 (IC 0)) (IV v_i_dst));
        SVec v_M (VOp1 (SrlB 1) (VV v_M));
        SStore 8 (PV v_dst1 (IC 0)) (VV v_M);
        SPtr v_dst1 (IC 0) (PAdd (PV v_dst1 (IC 0)) (IV v_i_dst));
        SVec v_M (VOp1 (SrlB 1) (VV v_M));
        SStore 8 (PV v_dst1 (IC 0)) (VV v_M);
        SPtr v_dst1 (IC 0) (PAdd (PV v_dst1 (IC 0)) (IV v_i_dst));
        SVec v_M (VOp1 (SrlB 1) (VV v_M));
        SStore 8 (PV v_dst1 (IC 0)) (VV v_M);
        SPtr v_dst1 (IC 0) (PAdd (PV v_dst (IC 0)) (IC 8));
        SVec v_M (VLoad 16 0 (PAdd (PV v_first_line (IC 0)) (IC 8)));
        SStore 8 (PV v_dst1 (IC 0)) (VV v_M);
        SPtr v_dst1 (IC 0) (PAdd (PV v_dst1 (IC 0)) (IV v_i_dst));
        SVec v_M (VOp1 (SrlB 1) (VV v_M));
        SStore 8 (PV v_dst1 (IC 0)) (VV v_M);
        SPtr v_dst1 (IC 0) (PAdd (PV v_dst1 (IC 0)) (IV v_i_dst));
        SVec v_M (VOp1 (SrlB 1) (VV v_M));
        SStore 8 (PV v_dst1 (IC 0)) (VV v_M);
        SPtr v_dst1 (IC 0) (PAdd (PV v_dst1 (IC 0)) (IV v_i_dst));
        SVec v_M (VOp1 (SrlB 1) (VV v_M));
        SStore 8 (PV v_dst1 (IC 0)) (VV v_M)] [
        SVec v_M (VLoad 16 0 (PAdd (PV v_first_line (IC 0)) (IC 0)));
        SStore 8 (PV v_dst1 (IC 0)) (VV v_M);
        SPtr v_dst1 (IC 0) (PAdd (PV v_dst1 (IC 0)) (IV v_i_dst));
        SVec v_M (VOp1 (SrlB 1) (VV v_M));
        SStore 8 (PV v_dst1 (IC 0)) (VV v_M);
        SPtr v_dst1 (IC 0) (PAdd (PV v_dst1 (IC 0)) (IV v_i_dst));
        SVec v_M (VOp1 (SrlB 1) (VV v_M));
        SStore 8 (PV v_dst1 (IC 0)) (VV v_M);
        SPtr v_dst1 (IC 0) (PAdd (PV v_dst1 (IC 0)) (IV v_i_dst));
        SVec v_M (VOp1 (SrlB 1) (VV v_M));
        SStore 8 (PV v_dst1 (IC 0)) (VV v_M);
        SPtr v_dst1 (IC 0) (PAdd (PV v_dst1 (IC 0)) (IV v_i_dst));
        SVec v_M (VOp1 (SrlB 1) (VV v_M));
        SStore 8 (PV v_dst1 (IC 0)) (VV v_M);
        SPtr v_dst1 (IC 0) (PAdd (PV v_dst1 (IC 0)) (IV v_i_dst));
        SVec v_M (VOp1 (SrlB 1) (VV v_M));
        SStore 8 (PV v_dst1 (IC 0)) (VV v_M);
        SPtr v_dst1 (IC 0) (PAdd (PV v_dst1 (IC 0)) (IV v_i_dst));
        SVec v_M (VOp1 (SrlB 1) (VV v_M));
        SStore 8 (PV v_dst1 (IC 0)) (VV v_M);
        SPtr v_dst1 (IC 0) (PAdd (PV v_dst1 (IC 0)) (IV v_i_dst));
        SVec v_M (VOp1 (SrlB 1) (VV v_M));
        SStore 8 (PV v_dst1 (IC 0)) (VV v_M);
        SPtr v_dst2 (IC 0) (PAdd (PV v_dst1 (IC 0)) (IV v_i_dst));
        SPtr v_dst1 (IC 0) (PAdd (PV v_dst (IC 0)) (IC 8));
        SVec v_M (VLoad 16 0 (PAdd (PV v_first_line (IC 0)) (IC 8)));
        SStore 8 (PV v_dst1 (IC 0)) (VV v_M);
        SStore 8 (PV v_dst2 (IC 0)) (VV v_M);
        SPtr v_dst1 (IC 0) (PAdd (PV v_dst1 (IC 0)) (IV v_i_dst));
        SPtr v_dst2 (IC 0) (PAdd (PV v_dst2 (IC 0)) (IV v_i_dst));
        SVec v_M (VOp1 (SrlB 1) (VV v_M));
        SStore 8 (PV v_dst1 (IC 0)) (VV v_M);
        SStore 8 (PV v_dst2 (IC 0)) (VV v_M);
        SPtr v_dst1 (IC 0) (PAdd (PV v_dst1 (IC 0)) (IV v_i_dst));
        SPtr v_dst2 (IC 0) (PAdd (PV v_dst2 (IC 0)) (IV v_i_dst));
        SVec v_M (VOp1 (SrlB 1) (VV v_M));
        SStore 8 (PV v_dst1 (IC 0)) (VV v_M);
        SStore 8 (PV v_dst2 (IC 0)) (VV v_M);
        SPtr v_dst1 (IC 0) (PAdd (PV v_dst1 (IC 0)) (IV v_i_dst));
        SPtr v_dst2 (IC 0) (PAdd (PV v_dst2 (IC 0)) (IV v_i_dst));
        SVec v_M (VOp1 (SrlB 1) (VV v_M));
        SStore 8 (PV v_dst1 (IC 0)) (VV v_M);
        SStore 8 (PV v_dst2 (IC 0)) (VV v_M);
        SPtr v_dst1 (IC 0) (PAdd (PV v_dst1 (IC 0)) (IV v_i_dst));
        SPtr v_dst2 (IC 0) (PAdd (PV v_dst2 (IC 0)) (IV v_i_dst));
        SVec v_M (VOp1 (SrlB 1) (VV v_M));
        SStore 8 (PV v_dst1 (IC 0)) (VV v_M);
        SStore 8 (PV v_dst2 (IC 0)) (VV v_M);
        SPtr v_dst1 (IC 0) (PAdd (PV v_dst1 (IC 0)) (IV v_i_dst));
        SPtr v_dst2 (IC 0) (PAdd (PV v_dst2 (IC 0)) (IV v_i_dst));
        SVec v_M (VOp1 (SrlB 1) (VV v_M));
        SStore 8 (PV v_dst1 (IC 0)) (VV v_M);
        SStore 8 (PV v_dst2 (IC 0)) (VV v_M);
        SPtr v_dst1 (IC 0) (PAdd (PV v_dst1 (IC 0)) (IV v_i_dst));
        SPtr v_dst2 (IC 0) (PAdd (PV v_dst2 (IC 0)) (IV v_i_dst));
        SVec v_M (VOp1 (SrlB 1) (VV v_M));
        SStore 8 (PV v_dst1 (IC 0)) (VV v_M);
        SStore 8 (PV v_dst2 (IC 0)) (VV v_M);
        SPtr v_dst1 (IC 0) (PAdd (PV v_dst1 (IC 0)) (IV v_i_dst));
        SPtr v_dst2 (IC 0) (PAdd (PV v_dst2 (IC 0)) (IV v_i_dst));
        SVec v_M (VOp1 (SrlB 1) (VV v_M));
        SStore 8 (PV v_dst1 (IC 0)) (VV v_M);
        SStore 8 (PV v_dst2 (IC 0)) (VV v_M);
        SPtr v_dst1 (IC 0) (PAdd (PV v_dst1 (IC 0)) (IV v_i_dst));
        SVec v_M (VLoad 16 0 (PAdd (PV v_first_line (IC 0)) (IC 16)));
        SStore 8 (PV v_dst1 (IC 0)) (VV v_M);
        SPtr v_dst1 (IC 0) (PAdd (PV v_dst1 (IC 0)) (IV v_i_dst));
        SVec v_M (VOp1 (SrlB 1) (VV v_M));
        SStore 8 (PV v_dst1 (IC 0)) (VV v_M);
        SPtr v_dst1 (IC 0) (PAdd (PV v_dst1 (IC 0)) (IV v_i_dst));
        SVec v_M (VOp1 (SrlB 1) (VV v_M));
        SStore 8 (PV v_dst1 (IC 0)) (VV v_M);
        SPtr v_dst1 (IC 0) (PAdd (PV v_dst1 (IC 0)) (IV v_i_dst));
        SVec v_M (VOp1 (SrlB 1) (VV v_M));
        SStore 8 (PV v_dst1 (IC 0)) (VV v_M);
        SPtr v_dst1 (IC 0) (PAdd (PV v_dst1 (IC 0)) (IV v_i_dst));
        SVec v_M (VOp1 (SrlB 1) (VV v_M));
        SStore 8 (PV v_dst1 (IC 0)) (VV v_M);
        SPtr v_dst1 (IC 0) (PAdd (PV v_dst1 (IC 0)) (IV v_i_dst));
        SVec v_M (VOp1 (SrlB 1) (VV v_M));
        SStore 8 (PV v_dst1 (IC 0)) (VV v_M);
        SPtr v_dst1 (IC 0) (PAdd (PV v_dst1 (IC 0)) (IV v_i_dst));
        SVec v_M (VOp1 (SrlB 1) (VV v_M));
        SStore 8 (PV v_dst1 (IC 0)) (VV v_M);
        SPtr v_dst1 (IC 0) (PAdd (PV v_dst1 (IC 0)) (IV v_i_dst));
        SVec v_M (VOp1 (SrlB 1) (VV v_M));
        SStore 8 (PV v_dst1 (IC 0)) (VV v_M)]] [
      SInt v_i (IC 0);
      SLoop (ILt (IV v_i) (IV v_bsy)) [
        SVec v_M (VLoad 16 0 (PAdd (PV v_first_line (IC 0)) (IV v_i)));
        SStore 8 (PV v_dst (IC 0)) (VV v_M);
        SPtr v_dst (IC 0) (PAdd (PV v_dst (IC 0)) (IV v_i_dst));
        SVec v_M (VOp1 (SrlB 1) (VV v_M));
        SStore 8 (PV v_dst (IC 0)) (VV v_M);
        SPtr v_dst (IC 0) (PAdd (PV v_dst (IC 0)) (IV v_i_dst));
        SVec v_M (VOp1 (SrlB 1) (VV v_M));
        SStore 8 (PV v_dst (IC 0)) (VV v_M);
        SPtr v_dst (IC 0) (PAdd (PV v_dst (IC 0)) (IV v_i_dst));
        SVec v_M (VOp1 (SrlB 1) (VV v_M));
        SStore 8 (PV v_dst (IC 0)) (VV v_M);
        SPtr v_dst (IC 0) (PAdd (PV v_dst (IC 0)) (IV v_i_dst));
        SVec v_M (VOp1 (SrlB 1) (VV v_M));
        SStore 8 (PV v_dst (IC 0)) (VV v_M);
        SPtr v_dst (IC 0) (PAdd (PV v_dst (IC 0)) (IV v_i_dst));
        SVec v_M (VOp1 (SrlB 1) (VV v_M));
        SStore 8 (PV v_dst (IC 0)) (VV v_M);
        SPtr v_dst (IC 0) (PAdd (PV v_dst (IC 0)) (IV v_i_dst));
        SVec v_M (VOp1 (SrlB 1) (VV v_M));
        SStore 8 (PV v_dst (IC 0)) (VV v_M);
        SPtr v_dst (IC 0) (PAdd (PV v_dst (IC 0)) (IV v_i_dst));
        SVec v_M (VOp1 (SrlB 1) (VV v_M));
        SStore 8 (PV v_dst (IC 0)) (VV v_M);
        SPtr v_dst (IC 0) (PAdd (PV v_dst (IC 0)) (IV v_i_dst));
        SInt v_i (IAdd (IV v_i) (IC 8))]]]].

(** vec/intrinsic_intra-pred.cc:2814-3018 [intra_pred_ang_x_8_sse128] *)
Definition k_ang_x_8_sse128 : list stm := [
  SArr v_first_line (IMul (IC 2) (IAdd (IC 64) (IC 48)));
  SInt v_line_size (ISub (IAdd (IV v_bsx) (IShr (IV v_bsy) (IC 1))) (IC 1));
  SInt v_aligned_line_size (IShl (IShr (IAdd (IV v_line_size) (IC 31)) (IC 4)) (IC 4));
  SVec v_zero (VConst [0;0;0;0;0;0;0;0;0;0;0;0;0;0;0;0]);
  SVec v_coeff (VSet1 2 8 (XC 3));
  SVec v_offset1 (VSet1 2 8 (XC 4));
  SVec v_offset2 (VSet1 2 8 (XC 2));
  SInt v_i_dst2 (IMul (IV v_i_dst) (IC 2));
  SPtr v_pfirst (IC 0) (PV v_first_line (IC 0));
  SPtr v_pfirst (IC 1) (PAdd (PV v_first_line (IC 0)) (IV v_aligned_line_size));
  SInt v_i (IC 0);
  SLoop (ILt (IV v_i) (ISub (IV v_line_size) (IC 8))) [
    SVec v_S0 (VLoad 16 0 (PV v_src (IC 0)));
    SVec v_S3 (VLoad 16 0 (PAdd (PV v_src (IC 0)) (IC 3)));
    SVec v_S1 (VLoad 16 0 (PAdd (PV v_src (IC 0)) (IC 1)));
    SVec v_S2 (VLoad 16 0 (PAdd (PV v_src (IC 0)) (IC 2)));
    SVec v_L0 (VOp2 (UnpL 1) (VV v_S0) (VV v_zero));
    SVec v_L1 (VOp2 (UnpL 1) (VV v_S1) (VV v_zero));
    SVec v_L2 (VOp2 (UnpL 1) (VV v_S2) (VV v_zero));
    SVec v_L3 (VOp2 (UnpL 1) (VV v_S3) (VV v_zero));
    SVec v_H0 (VOp2 (UnpH 1) (VV v_S0) (VV v_zero));
    SVec v_H1 (VOp2 (UnpH 1) (VV v_S1) (VV v_zero));
    SVec v_H2 (VOp2 (UnpH 1) (VV v_S2) (VV v_zero));
    SVec v_H3 (VOp2 (UnpH 1) (VV v_S3) (VV v_zero));
    SVec v_p01 (VOp2 (Add16) (VV v_L1) (VV v_L2));
    SVec v_p01 (VOp2 (Mul16) (VV v_p01) (VV v_coeff));
    SVec v_p02 (VOp2 (Add16) (VV v_L0) (VV v_L3));
    SVec v_p02 (VOp2 (Add16) (VV v_p02) (VV v_offset1));
    SVec v_p01 (VOp2 (Add16) (VV v_p01) (VV v_p02));
    SVec v_p01 (VOp1 (Srl16 3) (VV v_p01));
    SVec v_p11 (VOp2 (Add16) (VV v_H1) (VV v_H2));
    SVec v_p11 (VOp2 (Mul16) (VV v_p11) (VV v_coeff));
    SVec v_p12 (VOp2 (Add16) (VV v_H0) (VV v_H3));
    SVec v_p12 (VOp2 (Add16) (VV v_p12) (VV v_offset1));
    SVec v_p11 (VOp2 (Add16) (VV v_p11) (VV v_p12));
    SVec v_p11 (VOp1 (Srl16 3) (VV v_p11));
    SVec v_p01 (VOp2 (Pack16) (VV v_p01) (VV v_p11));
    SStore 16 (PAdd (PV v_pfirst (IC 0)) (IV v_i)) (VV v_p01);
    SVec v_p01 (VOp2 (Add16) (VV v_L1) (VV v_L2));
    SVec v_p02 (VOp2 (Add16) (VV v_L2) (VV v_L3));
    SVec v_p11 (VOp2 (Add16) (VV v_H1) (VV v_H2));
    SVec v_p12 (VOp2 (Add16) (VV v_H2) (VV v_H3));
    SVec v_p01 (VOp2 (Add16) (VV v_p01) (VV v_p02));
    SVec v_p11 (VOp2 (Add16) (VV v_p11) (VV v_p12));
    SVec v_p01 (VOp2 (Add16) (VV v_p01) (VV v_offset2));
    SVec v_p11 (VOp2 (Add16) (VV v_p11) (VV v_offset2));
    SVec v_p01 (VOp1 (Srl16 2) (VV v_p01));
    SVec v_p11 (VOp1 (Srl16 2) (VV v_p11));
    SVec v_p01 (VOp2 (Pack16) (VV v_p01) (VV v_p11));
    SStore 16 (PAdd (PV v_pfirst (IC 1)) (IV v_i)) (VV v_p01);
    SInt v_i (IAdd (IV v_i) (IC 16));
    SPtr v_src (IC 0) (PAdd (PV v_src (IC 0)) (IC 16))];
  SIf (ILt (IV v_i) (IV v_line_size)) [
    SVec v_S0 (VLoad 16 0 (PV v_src (IC 0)));
    SVec v_S3 (VLoad 16 0 (PAdd (PV v_src (IC 0)) (IC 3)));
    SVec v_S1 (VLoad 16 0 (PAdd (PV v_src (IC 0)) (IC 1)));
    SVec v_S2 (VLoad 16 0 (PAdd (PV v_src (IC 0)) (IC 2)));
    SVec v_L0 (VOp2 (UnpL 1) (VV v_S0) (VV v_zero));
    SVec v_L1 (VOp2 (UnpL 1) (VV v_S1) (VV v_zero));
    SVec v_L2 (VOp2 (UnpL 1) (VV v_S2) (VV v_zero));
    SVec v_L3 (VOp2 (UnpL 1) (VV v_S3) (VV v_zero));
    SVec v_p01 (VOp2 (Add16) (VV v_L1) (VV v_L2));
    SVec v_p01 (VOp2 (Mul16) (VV v_p01) (VV v_coeff));
    SVec v_p02 (VOp2 (Add16) (VV v_L0) (VV v_L3));
    SVec v_p02 (VOp2 (Add16) (VV v_p02) (VV v_offset1));
    SVec v_p01 (VOp2 (Add16) (VV v_p01) (VV v_p02));
    SVec v_p01 (VOp1 (Srl16 3) (VV v_p01));
    SVec v_p01 (VOp2 (Pack16) (VV v_p01) (VV v_p01));
    SStore 8 (PAdd (PV v_pfirst (IC 0)) (IV v_i)) (VV v_p01);
    SVec v_p01 (VOp2 (Add16) (VV v_L1) (VV v_L2));
    SVec v_p02 (VOp2 (Add16) (VV v_L2) (VV v_L3));
    SVec v_p01 (VOp2 (Add16) (VV v_p01) (VV v_p02));
    SVec v_p01 (VOp2 (Add16) (VV v_p01) (VV v_offset2));
    SVec v_p01 (VOp1 (Srl16 2) (VV v_p01));
    SVec v_p01 (VOp2 (Pack16) (VV v_p01) (VV v_p01));
    SStore 8 (PAdd (PV v_pfirst (IC 1)) (IV v_i)) (VV v_p01)] [];
  SInt v_bsy (IShr (IV v_bsy) (IC 1));
  SIf (INot (IEq (IV v_bsx) (IC 8))) [
    SInt v_i (IC 0);
    SLoop (ILt (IV v_i) (IV v_bsy)) [
      SCopy (IV v_bsx) (PV v_dst (IC 0)) (PAdd (PV v_pfirst (IC 0)) (IV v_i));
      SCopy (IV v_bsx) (PAdd (PV v_dst (IC 0)) (IV v_i_dst)) (PAdd (PV v_pfirst (IC 1)) (IV v_i));
      SPtr v_dst (IC 0) (PAdd (PV v_dst (IC 0)) (IV v_i_dst2));
      SInt v_i (IAdd (IV v_i) (IC 1))]] [
    SIf (IEq (IV v_bsy) (IC 4)) [
      SVec v_M1 (VLoad 16 0 (PAdd (PV v_pfirst (IC 0)) (IC 0)));
      SVec v_M2 (VLoad 16 0 (PAdd (PV v_pfirst (IC 1)) (IC 0)));
      SStore 8 (PV v_dst (IC 0)) (VV v_M1);
      SStore 8 (PAdd (PV v_dst (IC 0)) (IV v_i_dst)) (VV v_M2);
      SPtr v_dst (IC 0) (PAdd (PV v_dst (IC 0)) (IV v_i_dst2));
      SVec v_M1 (VOp1 (SrlB 1) (VV v_M1));
      SVec v_M2 (VOp1 (SrlB 1) (VV v_M2));
      SStore 8 (PV v_dst (IC 0)) (VV v_M1);
      SStore 8 (PAdd (PV v_dst (IC 0)) (IV v_i_dst)) (VV v_M2);
      SPtr v_dst (IC 0) (PAdd (PV v_dst (IC 0)) (IV v_i_dst2));
      SVec v_M1 (VOp1 (SrlB 1) (VV v_M1));
      SVec v_M2 (VOp1 (SrlB 1) (VV v_M2));
      SStore 8 (PV v_dst (IC 0)) (VV v_M1);
      SStore 8 (PAdd (PV v_dst (IC 0)) (IV v_i_dst)) (VV v_M2);
      SPtr v_dst (IC 0) (PAdd (PV v_dst (IC 0)) (IV v_i_dst2));
      SVec v_M1 (VOp1 (SrlB 1) (VV v_M1));
      SVec v_M2 (VOp1 (SrlB 1) (VV v_M2));
      SStore 8 (PV v_dst (IC 0)) (VV v_M1);
      SStore 8 (PAdd (PV v_dst (IC 0)) (IV v_i_dst)) (VV v_M2)] [
      SInt v_i (IC 0);
      SLoop (ILt (IV v_i) (IC 16)) [
        SVec v_M1 (VLoad 16 0 (PAdd (PV v_pfirst (IC 0)) (IV v_i)));
        SVec v_M2 (VLoad 16 0 (PAdd (PV v_pfirst (IC 1)) (IV v_i)));
        SStore 8 (PV v_dst (IC 0)) (VV v_M1);
        SStore 8 (PAdd (PV v_dst (IC 0)) (IV v_i_dst)) (VV v_M2);
        SPtr v_dst (IC 0) (PAdd (PV v_dst (IC 0)) (IV v_i_dst2));
        SVec v_M1 (VOp1 (SrlB 1) (VV v_M1));
        SVec v_M2 (VOp1 (SrlB 1) (VV v_M2));
        SStore 8 (PV v_dst (IC 0)) (VV v_M1);
        SStore 8 (PAdd (PV v_dst (IC 0)) (IV v_i_dst)) (VV v_M2);
        SPtr v_dst (IC 0) (PAdd (PV v_dst (IC 0)) (IV v_i_dst2));
        SVec v_M1 (VOp1 (SrlB 1) (VV v_M1));
        SVec v_M2 (VOp1 (SrlB 1) (VV v_M2));
        SStore 8 (PV v_dst (IC 0)) (VV v_M1);
        SStore 8 (PAdd (PV v_dst (IC 0)) (IV v_i_dst)) (VV v_M2);
        SPtr v_dst (IC 0) (PAdd (PV v_dst (IC 0)) (IV v_i_dst2));
        SVec v_M1 (VOp1 (SrlB 1) (VV v_M1));
        SVec v_M2 (VOp1 (SrlB 1) (VV v_M2));
        SStore 8 (PV v_dst (IC 0)) (VV v_M1);
        SStore 8 (PAdd (PV v_dst (IC 0)) (IV v_i_dst)) (VV v_M2);
        SPtr v_dst (IC 0) (PAdd (PV v_dst (IC 0)) (IV v_i_dst2));
        SVec v_M1 (VOp1 (SrlB 1) (VV v_M1));
        SVec v_M2 (VOp1 (SrlB 1) (VV v_M2));
        SStore 8 (PV v_dst (IC 0)) (VV v_M1);
        SStore 8 (PAdd (PV v_dst (IC 0)) (IV v_i_dst)) (VV v_M2);
        SPtr v_dst (IC 0) (PAdd (PV v_dst (IC 0)) (IV v_i_dst2));
        SVec v_M1 (VOp1 (SrlB 1) (VV v_M1));
        SVec v_M2 (VOp1 (SrlB 1) (VV v_M2));
        SStore 8 (PV v_dst (IC 0)) (VV v_M1);
        SStore 8 (PAdd (PV v_dst (IC 0)) (IV v_i_dst)) (VV v_M2);
        SPtr v_dst (IC 0) (PAdd (PV v_dst (IC 0)) (IV v_i_dst2));
        SVec v_M1 (VOp1 (SrlB 1) (VV v_M1));
        SVec v_M2 (VOp1 (SrlB 1) (VV v_M2));
        SStore 8 (PV v_dst (IC 0)) (VV v_M1);
        SStore 8 (PAdd (PV v_dst (IC 0)) (IV v_i_dst)) (VV v_M2);
        SPtr v_dst (IC 0) (PAdd (PV v_dst (IC 0)) (IV v_i_dst2));
        SVec v_M1 (VOp1 (SrlB 1) (VV v_M1));
        SVec v_M2 (VOp1 (SrlB 1) (VV v_M2));
        SStore 8 (PV v_dst (IC 0)) (VV v_M1);
        SStore 8 (PAdd (PV v_dst (IC 0)) (IV v_i_dst)) (VV v_M2);
        SPtr v_dst (IC 0) (PAdd (PV v_dst (IC 0)) (IV v_i_dst2));
        SInt v_i (IAdd (IV v_i) (IC 8))]]]].

(** vec/intrinsic_intra-pred.cc:3351-3826 [intra_pred_ang_x_10_sse128] *)
Definition k_ang_x_10_sse128 : list stm := [
  SPtr v_dst1 (IC 0) (PV v_dst (IC 0));
  SPtr v_dst2 (IC 0) (PAdd (PV v_dst1 (IC 0)) (IV v_i_dst));
  SPtr v_dst3 (IC 0) (PAdd (PV v_dst2 (IC 0)) (IV v_i_dst));
  SPtr v_dst4 (IC 0) (PAdd (PV v_dst3 (IC 0)) (IV v_i_dst));
  SVec v_zero (VConst [0;0;0;0;0;0;0;0;0;0;0;0;0;0;0;0]);
  SVec v_coeff2 (VSet1 2 8 (XC 2));
  SVec v_coeff3 (VSet1 2 8 (XC 3));
  SVec v_coeff4 (VSet1 2 8 (XC 4));
  SVec v_coeff5 (VSet1 2 8 (XC 5));
  SVec v_coeff7 (VSet1 2 8 (XC 7));
  SVec v_coeff8 (VSet1 2 8 (XC 8));
  SIf (INot (IEq (IV v_bsy) (IC 4))) [
    SArr v_first_line (IMul (IC 4) (IAdd (IC 64) (IC 32)));
    SInt v_line_size (ISub (IAdd (IV v_bsx) (IDiv (IV v_bsy) (IC 4))) (IC 1));
    SInt v_aligned_line_size (IShl (IShr (IAdd (IV v_line_size) (IC 31)) (IC 4)) (IC 4));
    SPtr v_pfirst (IC 0) (PV v_first_line (IC 0));
    SPtr v_pfirst (IC 1) (PAdd (PV v_first_line (IC 0)) (IV v_aligned_line_size));
    SPtr v_pfirst (IC 2) (PAdd (PV v_first_line (IC 0)) (IMul (IV v_aligned_line_size) (IC 2)));
    SPtr v_pfirst (IC 3) (PAdd (PV v_first_line (IC 0)) (IMul (IV v_aligned_line_size) (IC 3)));
    SInt v_i (IC 0);
    SLoop (ILt (IV v_i) (ISub (IV v_line_size) (IC 8))) [
      SVec v_S0 (VLoad 16 0 (PV v_src (IC 0)));
      SVec v_S3 (VLoad 16 0 (PAdd (PV v_src (IC 0)) (IC 3)));
      SVec v_S1 (VLoad 16 0 (PAdd (PV v_src (IC 0)) (IC 1)));
      SVec v_S2 (VLoad 16 0 (PAdd (PV v_src (IC 0)) (IC 2)));
      SVec v_L0 (VOp2 (UnpL 1) (VV v_S0) (VV v_zero));
      SVec v_L1 (VOp2 (UnpL 1) (VV v_S1) (VV v_zero));
      SVec v_L2 (VOp2 (UnpL 1) (VV v_S2) (VV v_zero));
      SVec v_L3 (VOp2 (UnpL 1) (VV v_S3) (VV v_zero));
      SVec v_H0 (VOp2 (UnpH 1) (VV v_S0) (VV v_zero));
      SVec v_H1 (VOp2 (UnpH 1) (VV v_S1) (VV v_zero));
      SVec v_H2 (VOp2 (UnpH 1) (VV v_S2) (VV v_zero));
      SVec v_H3 (VOp2 (UnpH 1) (VV v_S3) (VV v_zero));
      SVec v_p00 (VOp2 (Mul16) (VV v_L0) (VV v_coeff3));
      SVec v_p10 (VOp2 (Mul16) (VV v_L1) (VV v_coeff7));
      SVec v_p20 (VOp2 (Mul16) (VV v_L2) (VV v_coeff5));
      SVec v_p30 (VOp2 (Add16) (VV v_L3) (VV v_coeff8));
      SVec v_p00 (VOp2 (Add16) (VV v_p00) (VV v_p30));
      SVec v_p00 (VOp2 (Add16) (VV v_p00) (VV v_p10));
      SVec v_p00 (VOp2 (Add16) (VV v_p00) (VV v_p20));
      SVec v_p00 (VOp1 (Srl16 4) (VV v_p00));
      SVec v_p01 (VOp2 (Mul16) (VV v_H0) (VV v_coeff3));
      SVec v_p11 (VOp2 (Mul16) (VV v_H1) (VV v_coeff7));
      SVec v_p21 (VOp2 (Mul16) (VV v_H2) (VV v_coeff5));
      SVec v_p31 (VOp2 (Add16) (VV v_H3) (VV v_coeff8));
      SVec v_p01 (VOp2 (Add16) (VV v_p01) (VV v_p31));
      SVec v_p01 (VOp2 (Add16) (VV v_p01) (VV v_p11));
      SVec v_p01 (VOp2 (Add16) (VV v_p01) (VV v_p21));
      SVec v_p01 (VOp1 (Srl16 4) (VV v_p01));
      SVec v_p00 (VOp2 (Pack16) (VV v_p00) (VV v_p01));
      SStore 16 (PAdd (PV v_pfirst (IC 0)) (IV v_i)) (VV v_p00);
      SVec v_p00 (VOp2 (Add16) (VV v_L1) (VV v_L2));
      SVec v_p00 (VOp2 (Mul16) (VV v_p00) (VV v_coeff3));
      SVec v_p10 (VOp2 (Add16) (VV v_L0) (VV v_L3));
      SVec v_p10 (VOp2 (Add16) (VV v_p10) (VV v_coeff4));
      SVec v_p00 (VOp2 (Add16) (VV v_p10) (VV v_p00));
      SVec v_p00 (VOp1 (Srl16 3) (VV v_p00));
      SVec v_p01 (VOp2 (Add16) (VV v_H1) (VV v_H2));
      SVec v_p01 (VOp2 (Mul16) (VV v_p01) (VV v_coeff3));
      SVec v_p11 (VOp2 (Add16) (VV v_H0) (VV v_H3));
      SVec v_p11 (VOp2 (Add16) (VV v_p11) (VV v_coeff4));
      SVec v_p01 (VOp2 (Add16) (VV v_p11) (VV v_p01));
      SVec v_p01 (VOp1 (Srl16 3) (VV v_p01));
      SVec v_p00 (VOp2 (Pack16) (VV v_p00) (VV v_p01));
      SStore 16 (PAdd (PV v_pfirst (IC 1)) (IV v_i)) (VV v_p00);
      SVec v_p10 (VOp2 (Mul16) (VV v_L1) (VV v_coeff5));
      SVec v_p20 (VOp2 (Mul16) (VV v_L2) (VV v_coeff7));
      SVec v_p30 (VOp2 (Mul16) (VV v_L3) (VV v_coeff3));
      SVec v_p00 (VOp2 (Add16) (VV v_L0) (VV v_coeff8));
      SVec v_p00 (VOp2 (Add16) (VV v_p00) (VV v_p10));
      SVec v_p00 (VOp2 (Add16) (VV v_p00) (VV v_p20));
      SVec v_p00 (VOp2 (Add16) (VV v_p00) (VV v_p30));
      SVec v_p00 (VOp1 (Srl16 4) (VV v_p00));
      SVec v_p11 (VOp2 (Mul16) (VV v_H1) (VV v_coeff5));
      SVec v_p21 (VOp2 (Mul16) (VV v_H2) (VV v_coeff7));
      SVec v_p31 (VOp2 (Mul16) (VV v_H3) (VV v_coeff3));
      SVec v_p01 (VOp2 (Add16) (VV v_H0) (VV v_coeff8));
      SVec v_p01 (VOp2 (Add16) (VV v_p01) (VV v_p11));
      SVec v_p01 (VOp2 (Add16) (VV v_p01) (VV v_p21));
      SVec v_p01 (VOp2 (Add16) (VV v_p01) (VV v_p31));
      SVec v_p01 (VOp1 (Srl16 4) (VV v_p01));
      SVec v_p00 (VOp2 (Pack16) (VV v_p00) (VV v_p01));
      SStore 16 (PAdd (PV v_pfirst (IC 2)) (IV v_i)) (VV v_p00);
      SVec v_p00 (VOp2 (Add16) (VV v_L1) (VV v_L2));
      SVec v_p10 (VOp2 (Add16) (VV v_L2) (VV v_L3));
      SVec v_p00 (VOp2 (Add16) (VV v_p00) (VV v_p10));
      SVec v_p00 (VOp2 (Add16) (VV v_p00) (VV v_coeff2));
      SVec v_p00 (VOp1 (Srl16 2) (VV v_p00));
      SVec v_p01 (VOp2 (Add16) (VV v_H1) (VV v_H2));
      SVec v_p11 (VOp2 (Add16) (VV v_H2) (VV v_H3));
      SVec v_p01 (VOp2 (Add16) (VV v_p01) (VV v_p11));
      SVec v_p01 (VOp2 (Add16) (VV v_p01) (VV v_coeff2));
      SVec v_p01 (VOp1 (Srl16 2) (VV v_p01));
      SVec v_p00 (VOp2 (Pack16) (VV v_p00) (VV v_p01));
      SStore 16 (PAdd (PV v_pfirst (IC 3)) (IV v_i)) (VV v_p00);
      SInt v_i (IAdd (IV v_i) (IC 16));
      SPtr v_src (IC 0) (PAdd (PV v_src (IC 0)) (IC 16))];
    SIf (ILt (IV v_i) (IV v_line_size)) [
      SVec v_S0 (VLoad 16 0 (PV v_src (IC 0)));
      SVec v_S3 (VLoad 16 0 (PAdd (PV v_src (IC 0)) (IC 3)));
      SVec v_S1 (VLoad 16 0 (PAdd (PV v_src (IC 0)) (IC 1)));
      SVec v_S2 (VLoad 16 0 (PAdd (PV v_src (IC 0)) (IC 2)));
      SVec v_L0 (VOp2 (UnpL 1) (VV v_S0) (VV v_zero));
      SVec v_L1 (VOp2 (UnpL 1) (VV v_S1) (VV v_zero));
      SVec v_L2 (VOp2 (UnpL 1) (VV v_S2) (VV v_zero));
      SVec v_L3 (VOp2 (UnpL 1) (VV v_S3) (VV v_zero));
      SVec v_p00 (VOp2 (Mul16) (VV v_L0) (VV v_coeff3));
      SVec v_p10 (VOp2 (Mul16) (VV v_L1) (VV v_coeff7));
      SVec v_p20 (VOp2 (Mul16) (VV v_L2) (VV v_coeff5));
      SVec v_p30 (VOp2 (Add16) (VV v_L3) (VV v_coeff8));
      SVec v_p00 (VOp2 (Add16) (VV v_p00) (VV v_p30));
      SVec v_p00 (VOp2 (Add16) (VV v_p00) (VV v_p10));
      SVec v_p00 (VOp2 (Add16) (VV v_p00) (VV v_p20));
      SVec v_p00 (VOp1 (Srl16 4) (VV v_p00));
      SVec v_p00 (VOp2 (Pack16) (VV v_p00) (VV v_p00));
      SStore 8 (PAdd (PV v_pfirst (IC 0)) (IV v_i)) (VV v_p00);
      SVec v_p00 (VOp2 (Add16) (VV v_L1) (VV v_L2));
      SVec v_p00 (VOp2 (Mul16) (VV v_p00) (VV v_coeff3));
      SVec v_p10 (VOp2 (Add16) (VV v_L0) (VV v_L3));
      SVec v_p10 (VOp2 (Add16) (VV v_p10) (VV v_coeff4));
      SVec v_p00 (VOp2 (Add16) (VV v_p10) (VV v_p00));
      SVec v_p00 (VOp1 (Srl16 3) (VV v_p00));
      SVec v_p00 (VOp2 (Pack16) (VV v_p00) (VV v_p00));
      SStore 8 (PAdd (PV v_pfirst (IC 1)) (IV v_i)) (VV v_p00);
      SVec v_p10 (VOp2 (Mul16) (VV v_L1) (VV v_coeff5));
      SVec v_p20 (VOp2 (Mul16) (VV v_L2) (VV v_coeff7));
      SVec v_p30 (VOp2 (Mul16) (VV v_L3) (VV v_coeff3));
      SVec v_p00 (VOp2 (Add16) (VV v_L0) (VV v_coeff8));
      SVec v_p00 (VOp2 (Add16) (VV v_p00) (VV v_p10));
      SVec v_p00 (VOp2 (Add16) (VV v_p00) (VV v_p20));
      SVec v_p00 (VOp2 (Add16) (VV v_p00) (VV v_p30));
      SVec v_p00 (VOp1 (Srl16 4) (VV v_p00));
      SVec v_p00 (VOp2 (Pack16) (VV v_p00) (VV v_p00));
      SStore 8 (PAdd (PV v_pfirst (IC 2)) (IV v_i)) (VV v_p00);
      SVec v_p00 (VOp2 (Add16) (VV v_L1) (VV v_L2));
      SVec v_p10 (VOp2 (Add16) (VV v_L2) (VV v_L3));
      SVec v_p00 (VOp2 (Add16) (VV v_p00) (VV v_p10));
      SVec v_p00 (VOp2 (Add16) (VV v_p00) (VV v_coeff2));
      SVec v_p00 (VOp1 (Srl16 2) (VV v_p00));
      SVec v_p00 (VOp2 (Pack16) (VV v_p00) (VV v_p00));
      SStore 8 (PAdd (PV v_pfirst (IC 3)) (IV v_i)) (VV v_p00)] [];
    SInt v_bsy (IShr (IV v_bsy) (IC 2));
    SIf (INot (IEq (IV v_bsx) (IC 8))) [
      SInt v_i_dstx4 (IShl (IV v_i_dst) (IC 2));
      SIf (IEq (IV v_bsx) (IC 4)) [
        SInt v_i (IC 0);
        SLoop (ILt (IV v_i) (IV v_bsy)) [
          SCopy (IC 4) (PV v_dst1 (IC 0)) (PAdd (PV v_pfirst (IC 0)) (IV v_i));
          SPtr v_dst1 (IC 0) (PAdd (PV v_dst1 (IC 0)) (IV v_i_dstx4));
          SCopy (IC 4) (PV v_dst2 (IC 0)) (PAdd (PV v_pfirst (IC 1)) (IV v_i));
          SPtr v_dst2 (IC 0) (PAdd (PV v_dst2 (IC 0)) (IV v_i_dstx4));
          SCopy (IC 4) (PV v_dst3 (IC 0)) (PAdd (PV v_pfirst (IC 2)) (IV v_i));
          SPtr v_dst3 (IC 0) (PAdd (PV v_dst3 (IC 0)) (IV v_i_dstx4));
          SCopy (IC 4) (PV v_dst4 (IC 0)) (PAdd (PV v_pfirst (IC 3)) (IV v_i));
          SPtr v_dst4 (IC 0) (PAdd (PV v_dst4 (IC 0)) (IV v_i_dstx4));
          SInt v_i (IAdd (IV v_i) (IC 1))]] [
        SIf (IEq (IV v_bsx) (IC 16)) [
          SInt v_i (IC 0);
          SLoop (ILt (IV v_i) (IV v_bsy)) [
            SCopy (IC 16) (PV v_dst1 (IC 0)) (PAdd (PV v_pfirst (IC 0)) (IV v_i));
            SPtr v_dst1 (IC 0) (PAdd (PV v_dst1 (IC 0)) (IV v_i_dstx4));
            SCopy (IC 16) (PV v_dst2 (IC 0)) (PAdd (PV v_pfirst (IC 1)) (IV v_i));
            SPtr v_dst2 (IC 0) (PAdd (PV v_dst2 (IC 0)) (IV v_i_dstx4));
            SCopy (IC 16) (PV v_dst3 (IC 0)) (PAdd (PV v_pfirst (IC 2)) (IV v_i));
            SPtr v_dst3 (IC 0) (PAdd (PV v_dst3 (IC 0)) (IV v_i_dstx4));
            SCopy (IC 16) (PV v_dst4 (IC 0)) (PAdd (PV v_pfirst (IC 3)) (IV v_i));
            SPtr v_dst4 (IC 0) (PAdd (PV v_dst4 (IC 0)) (IV v_i_dstx4));
            SInt v_i (IAdd (IV v_i) (IC 1))]] [
          SIf (IEq (IV v_bsx) (IC 32)) [
            SInt v_i (IC 0);
            SLoop (ILt (IV v_i) (IV v_bsy)) [
              SCopy (IC 32) (PV v_dst1 (IC 0)) (PAdd (PV v_pfirst (IC 0)) (IV v_i));
              SPtr v_dst1 (IC 0) (PAdd (PV v_dst1 (IC 0)) (IV v_i_dstx4));
              SCopy (IC 32) (PV v_dst2 (IC 0)) (PAdd (PV v_pfirst (IC 1)) (IV v_i));
              SPtr v_dst2 (IC 0) (PAdd (PV v_dst2 (IC 0)) (IV v_i_dstx4));
              SCopy (IC 32) (PV v_dst3 (IC 0)) (PAdd (PV v_pfirst (IC 2)) (IV v_i));
              SPtr v_dst3 (IC 0) (PAdd (PV v_dst3 (IC 0)) (IV v_i_dstx4));
              SCopy (IC 32) (PV v_dst4 (IC 0)) (PAdd (PV v_pfirst (IC 3)) (IV v_i));
              SPtr v_dst4 (IC 0) (PAdd (PV v_dst4 (IC 0)) (IV v_i_dstx4));
              SInt v_i (IAdd (IV v_i) (IC 1))]] [
            SIf (IEq (IV v_bsx) (IC 64)) [
              SInt v_i (IC 0);
              SLoop (ILt (IV v_i) (IV v_bsy)) [
                SCopy (IC 64) (PV v_dst1 (IC 0)) (PAdd (PV v_pfirst (IC 0)) (IV v_i));
                SPtr v_dst1 (IC 0) (PAdd (PV v_dst1 (IC 0)) (IV v_i_dstx4));
                SCopy (IC 64) (PV v_dst2 (IC 0)) (PAdd (PV v_pfirst (IC 1)) (IV v_i));
                SPtr v_dst2 (IC 0) (PAdd (PV v_dst2 (IC 0)) (IV v_i_dstx4));
                SCopy (IC 64) (PV v_dst3 (IC 0)) (PAdd (PV v_pfirst (IC 2)) (IV v_i));
                SPtr v_dst3 (IC 0) (PAdd (PV v_dst3 (IC 0)) (IV v_i_dstx4));
                SCopy (IC 64) (PV v_dst4 (IC 0)) (PAdd (PV v_pfirst (IC 3)) (IV v_i));
                SPtr v_dst4 (IC 0) (PAdd (PV v_dst4 (IC 0)) (IV v_i_dstx4));
                SInt v_i (IAdd (IV v_i) (IC 1))]] [
              SFail]]]]] [
      SIf (IEq (IV v_bsy) (IC 2)) [
        SInt v_i (IC 0);
        SLoop (ILt (IV v_i) (IV v_bsy)) [
          SCopy (IC 8) (PV v_dst1 (IC 0)) (PAdd (PV v_pfirst (IC 0)) (IV v_i));
          SCopy (IC 8) (PV v_dst2 (IC 0)) (PAdd (PV v_pfirst (IC 1)) (IV v_i));
          SCopy (IC 8) (PV v_dst3 (IC 0)) (PAdd (PV v_pfirst (IC 2)) (IV v_i));
          SCopy (IC 8) (PV v_dst4 (IC 0)) (PAdd (PV v_pfirst (IC 3)) (IV v_i));
          SPtr v_dst1 (IC 0) (PAdd (PV v_dst4 (IC 0)) (IV v_i_dst));
          SPtr v_dst2 (IC 0) (PAdd (PV v_dst1 (IC 0)) (IV v_i_dst));
          SPtr v_dst3 (IC 0) (PAdd (PV v_dst2 (IC 0)) (IV v_i_dst));
          SPtr v_dst4 (IC 0) (PAdd (PV v_dst3 (IC 0)) (IV v_i_dst));
          SInt v_i (IAdd (IV v_i) (IC 1))]] [
        SVec v_M1 (VLoad 16 0 (PAdd (PV v_pfirst (IC 0)) (IC 0)));
        SVec v_M2 (VLoad 16 0 (PAdd (PV v_pfirst (IC 1)) (IC 0)));
        SVec v_M3 (VLoad 16 0 (PAdd (PV v_pfirst (IC 2)) (IC 0)));
        SVec v_M4 (VLoad 16 0 (PAdd (PV v_pfirst (IC 3)) (IC 0)));
        SStore 8 (PV v_dst1 (IC 0)) (VV v_M1);
        SStore 8 (PV v_dst2 (IC 0)) (VV v_M2);
        SStore 8 (PV v_dst3 (IC 0)) (VV v_M3);
        SStore 8 (PV v_dst4 (IC 0)) (VV v_M4);
        SPtr v_dst1 (IC 0) (PAdd (PV v_dst4 (IC 0)) (IV v_i_dst));
        SPtr v_dst2 (IC 0) (PAdd (PV v_dst1 (IC 0)) (IV v_i_dst));
        SPtr v_dst3 (IC 0) (PAdd (PV v_dst2 (IC 0)) (IV v_i_dst));
        SPtr v_dst4 (IC 0) (PAdd (PV v_dst3 (IC 0)) (IV v_i_dst));
        SVec v_M1 (VOp1 (SrlB 1) (VV v_M1));
        SVec v_M2 (VOp1 (SrlB 1) (VV v_M2));
        SVec v_M3 (VOp1 (SrlB 1) (VV v_M3));
        SVec v_M4 (VOp1 (SrlB 1) (VV v_M4));
        SStore 8 (PV v_dst1 (IC 0)) (VV v_M1);
        SStore 8 (PV v_dst2 (IC 0)) (VV v_M2);
        SStore 8 (PV v_dst3 (IC 0)) (VV v_M3);
        SStore 8 (PV v_dst4 (IC 0)) (VV v_M4);
        SPtr v_dst1 (IC 0) (PAdd (PV v_dst4 (IC 0)) (IV v_i_dst));
        SPtr v_dst2 (IC 0) (PAdd (PV v_dst1 (IC 0)) (IV v_i_dst));
        SPtr v_dst3 (IC 0) (PAdd (PV v_dst2 (IC 0)) (IV v_i_dst));
        SPtr v_dst4 (IC 0) (PAdd (PV v_dst3 (IC 0)) (IV v_i_dst));
        SVec v_M1 (VOp1 (SrlB 1) (VV v_M1));
        SVec v_M2 (VOp1 (SrlB 1) (VV v_M2));
        SVec v_M3 (VOp1 (SrlB 1) (VV v_M3));
        SVec v_M4 (VOp1 (SrlB 1) (VV v_M4));
        SStore 8 (PV v_dst1 (IC 0)) (VV v_M1);
        SStore 8 (PV v_dst2 (IC 0)) (VV v_M2);
        SStore 8 (PV v_dst3 (IC 0)) (VV v_M3);
        SStore 8 (PV v_dst4 (IC 0)) (VV v_M4);
        SPtr v_dst1 (IC 0) (PAdd (PV v_dst4 (IC 0)) (IV v_i_dst));
        SPtr v_dst2 (IC 0) (PAdd (PV v_dst1 (IC 0)) (IV v_i_dst));
        SPtr v_dst3 (IC 0) (PAdd (PV v_dst2 (IC 0)) (IV v_i_dst));
        SPtr v_dst4 (IC 0) (PAdd (PV v_dst3 (IC 0)) (IV v_i_dst));
        SVec v_M1 (VOp1 (SrlB 1) (VV v_M1));
        SVec v_M2 (VOp1 (SrlB 1) (VV v_M2));
        SVec v_M3 (VOp1 (SrlB 1) (VV v_M3));
        SVec v_M4 (VOp1 (SrlB 1) (VV v_M4));
        SStore 8 (PV v_dst1 (IC 0)) (VV v_M1);
        SStore 8 (PV v_dst2 (IC 0)) (VV v_M2);
        SStore 8 (PV v_dst3 (IC 0)) (VV v_M3);
        SStore 8 (PV v_dst4 (IC 0)) (VV v_M4);
        SPtr v_dst1 (IC 0) (PAdd (PV v_dst4 (IC 0)) (IV v_i_dst));
        SPtr v_dst2 (IC 0) (PAdd (PV v_dst1 (IC 0)) (IV v_i_dst));
        SPtr v_dst3 (IC 0) (PAdd (PV v_dst2 (IC 0)) (IV v_i_dst));
        SPtr v_dst4 (IC 0) (PAdd (PV v_dst3 (IC 0)) (IV v_i_dst));
        SVec v_M1 (VOp1 (SrlB 1) (VV v_M1));
        SVec v_M2 (VOp1 (SrlB 1) (VV v_M2));
        SVec v_M3 (VOp1 (SrlB 1) (VV v_M3));
        SVec v_M4 (VOp1 (SrlB 1) (VV v_M4));
        SStore 8 (PV v_dst1 (IC 0)) (VV v_M1);
        SStore 8 (PV v_dst2 (IC 0)) (VV v_M2);
        SStore 8 (PV v_dst3 (IC 0)) (VV v_M3);
        SStore 8 (PV v_dst4 (IC 0)) (VV v_M4);
        SPtr v_dst1 (IC 0) (PAdd (PV v_dst4 (IC 0)) (IV v_i_dst));
        SPtr v_dst2 (IC 0) (PAdd (PV v_dst1 (IC 0)) (IV v_i_dst));
        SPtr v_dst3 (IC 0) (PAdd (PV v_dst2 (IC 0)) (IV v_i_dst));
        SPtr v_dst4 (IC 0) (PAdd (PV v_dst3 (IC 0)) (IV v_i_dst));
        SVec v_M1 (VOp1 (SrlB 1) (VV v_M1));
        SVec v_M2 (VOp1 (SrlB 1) (VV v_M2));
        SVec v_M3 (VOp1 (SrlB 1) (VV v_M3));
        SVec v_M4 (VOp1 (SrlB 1) (VV v_M4));
        SStore 8 (PV v_dst1 (IC 0)) (VV v_M1);
        SStore 8 (PV v_dst2 (IC 0)) (VV v_M2);
        SStore 8 (PV v_dst3 (IC 0)) (VV v_M3);
        SStore 8 (PV v_dst4 (IC 0)) (VV v_M4);
        SPtr v_dst1 (IC 0) (PAdd (PV v_dst4 (IC 0)) (IV v_i_dst));
        SPtr v_dst2 (IC 0) (PAdd (PV v_dst1 (IC 0)) (IV v_i_dst));
        SPtr v_dst3 (IC 0) (PAdd (PV v_dst2 (IC 0)) (IV v_i_dst));
        SPtr v_dst4 (IC 0) (PAdd (PV v_dst3 (IC 0)) (IV v_i_dst));
        SVec v_M1 (VOp1 (SrlB 1) (VV v_M1));
        SVec v_M2 (VOp1 (SrlB 1) (VV v_M2));
        SVec v_M3 (VOp1 (SrlB 1) (VV v_M3));
        SVec v_M4 (VOp1 (SrlB 1) (VV v_M4));
        SStore 8 (PV v_dst1 (IC 0)) (VV v_M1);
        SStore 8 (PV v_dst2 (IC 0)) (VV v_M2);
        SStore 8 (PV v_dst3 (IC 0)) (VV v_M3);
        SStore 8 (PV v_dst4 (IC 0)) (VV v_M4);
        SPtr v_dst1 (IC 0) (PAdd (PV v_dst4 (IC 0)) (IV v_i_dst));
        SPtr v_dst2 (IC 0) (PAdd (PV v_dst1 (IC 0)) (IV v_i_dst));
        SPtr v_dst3 (IC 0) (PAdd (PV v_dst2 (IC 0)) (IV v_i_dst));
        SPtr v_dst4 (IC 0) (PAdd (PV v_dst3 (IC 0)) (IV v_i_dst));
        SVec v_M1 (VOp1 (SrlB 1) (VV v_M1));
        SVec v_M2 (VOp1 (SrlB 1) (VV v_M2));
        SVec v_M3 (VOp1 (SrlB 1) (VV v_M3));
        SVec v_M4 (VOp1 (SrlB 1) (VV v_M4));
        SStore 8 (PV v_dst1 (IC 0)) (VV v_M1);
        SStore 8 (PV v_dst2 (IC 0)) (VV v_M2);
        SStore 8 (PV v_dst3 (IC 0)) (VV v_M3);
        SStore 8 (PV v_dst4 (IC 0)) (VV v_M4)]]] [
    SIf (IEq (IV v_bsx) (IC 16)) [
      SVec v_S0 (VLoad 16 0 (PV v_src (IC 0)));
      SVec v_S3 (VLoad 16 0 (PAdd (PV v_src (IC 0)) (IC 3)));
      SVec v_S1 (VLoad 16 0 (PAdd (PV v_src (IC 0)) (IC 1)));
      SVec v_S2 (VLoad 16 0 (PAdd (PV v_src (IC 0)) (IC 2)));
      SVec v_L0 (VOp2 (UnpL 1) (VV v_S0) (VV v_zero));
      SVec v_L1 (VOp2 (UnpL 1) (VV v_S1) (VV v_zero));
      SVec v_L2 (VOp2 (UnpL 1) (VV v_S2) (VV v_zero));
      SVec v_L3 (VOp2 (UnpL 1) (VV v_S3) (VV v_zero));
      SVec v_H0 (VOp2 (UnpH 1) (VV v_S0) (VV v_zero));
      SVec v_H1 (VOp2 (UnpH 1) (VV v_S1) (VV v_zero));
      SVec v_H2 (VOp2 (UnpH 1) (VV v_S2) (VV v_zero));
      SVec v_H3 (VOp2 (UnpH 1) (VV v_S3) (VV v_zero));
      SVec v_p00 (VOp2 (Mul16) (VV v_L0) (VV v_coeff3));
      SVec v_p10 (VOp2 (Mul16) (VV v_L1) (VV v_coeff7));
      SVec v_p20 (VOp2 (Mul16) (VV v_L2) (VV v_coeff5));
      SVec v_p30 (VOp2 (Add16) (VV v_L3) (VV v_coeff8));
      SVec v_p00 (VOp2 (Add16) (VV v_p00) (VV v_p30));
      SVec v_p00 (VOp2 (Add16) (VV v_p00) (VV v_p10));
      SVec v_p00 (VOp2 (Add16) (VV v_p00) (VV v_p20));
      SVec v_p00 (VOp1 (Srl16 4) (VV v_p00));
      SVec v_p01 (VOp2 (Mul16) (VV v_H0) (VV v_coeff3));
      SVec v_p11 (VOp2 (Mul16) (VV v_H1) (VV v_coeff7));
      SVec v_p21 (VOp2 (Mul16) (VV v_H2) (VV v_coeff5));
      SVec v_p31 (VOp2 (Add16) (VV v_H3) (VV v_coeff8));
      SVec v_p01 (VOp2 (Add16) (VV v_p01) (VV v_p31));
      SVec v_p01 (VOp2 (Add16) (VV v_p01) (VV v_p11));
      SVec v_p01 (VOp2 (Add16) (VV v_p01) (VV v_p21));
      SVec v_p01 (VOp1 (Srl16 4) (VV v_p01));
      SVec v_p00 (VOp2 (Pack16) (VV v_p00) (VV v_p01));
      SStore 16 (PV v_dst1 (IC 0)) (VV v_p00);
      SVec v_p00 (VOp2 (Add16) (VV v_L1) (VV v_L2));
      SVec v_p00 (VOp2 (Mul16) (VV v_p00) (VV v_coeff3));
      SVec v_p10 (VOp2 (Add16) (VV v_L0) (VV v_L3));
      SVec v_p10 (VOp2 (Add16) (VV v_p10) (VV v_coeff4));
      SVec v_p00 (VOp2 (Add16) (VV v_p10) (VV v_p00));
      SVec v_p00 (VOp1 (Srl16 3) (VV v_p00));
      SVec v_p01 (VOp2 (Add16) (VV v_H1) (VV v_H2));
      SVec v_p01 (VOp2 (Mul16) (VV v_p01) (VV v_coeff3));
      SVec v_p11 (VOp2 (Add16) (VV v_H0) (VV v_H3));
      SVec v_p11 (VOp2 (Add16) (VV v_p11) (VV v_coeff4));
      SVec v_p01 (VOp2 (Add16) (VV v_p11) (VV v_p01));
      SVec v_p01 (VOp1 (Srl16 3) (VV v_p01));
      SVec v_p00 (VOp2 (Pack16) (VV v_p00) (VV v_p01));
      SStore 16 (PV v_dst2 (IC 0)) (VV v_p00);
      SVec v_p10 (VOp2 (Mul16) (VV v_L1) (VV v_coeff5));
      SVec v_p20 (VOp2 (Mul16) (VV v_L2) (VV v_coeff7));
      SVec v_p30 (VOp2 (Mul16) (VV v_L3) (VV v_coeff3));
      SVec v_p00 (VOp2 (Add16) (VV v_L0) (VV v_coeff8));
      SVec v_p00 (VOp2 (Add16) (VV v_p00) (VV v_p10));
      SVec v_p00 (VOp2 (Add16) (VV v_p00) (VV v_p20));
      SVec v_p00 (VOp2 (Add16) (VV v_p00) (VV v_p30));
      SVec v_p00 (VOp1 (Srl16 4) (VV v_p00));
      SVec v_p11 (VOp2 (Mul16) (VV v_H1) (VV v_coeff5));
      SVec v_p21 (VOp2 (Mul16) (VV v_H2) (VV v_coeff7));
      SVec v_p31 (VOp2 (Mul16) (VV v_H3) (VV v_coeff3));
      SVec v_p01 (VOp2 (Add16) (VV v_H0) (VV v_coeff8));
      SVec v_p01 (VOp2 (Add16) (VV v_p01) (VV v_p11));
      SVec v_p01 (VOp2 (Add16) (VV v_p01) (VV v_p21));
      SVec v_p01 (VOp2 (Add16) (VV v_p01) (VV v_p31));
      SVec v_p01 (VOp1 (Srl16 4) (VV v_p01));
      SVec v_p00 (VOp2 (Pack16) (VV v_p00) (VV v_p01));
      SStore 16 (PV v_dst3 (IC 0)) (VV v_p00);
      SVec v_p00 (VOp2 (Add16) (VV v_L1) (VV v_L2));
      SVec v_p10 (VOp2 (Add16) (VV v_L2) (VV v_L3));
      SVec v_p00 (VOp2 (Add16) (VV v_p00) (VV v_p10));
      SVec v_p00 (VOp2 (Add16) (VV v_p00) (VV v_coeff2));
      SVec v_p00 (VOp1 (Srl16 2) (VV v_p00));
      SVec v_p01 (VOp2 (Add16) (VV v_H1) (VV v_H2));
      SVec v_p11 (VOp2 (Add16) (VV v_H2) (VV v_H3));
      SVec v_p01 (VOp2 (Add16) (VV v_p01) (VV v_p11));
      SVec v_p01 (VOp2 (Add16) (VV v_p01) (VV v_coeff2));
      SVec v_p01 (VOp1 (Srl16 2) (VV v_p01));
      SVec v_p00 (VOp2 (Pack16) (VV v_p00) (VV v_p01));
      SStore 16 (PV v_dst4 (IC 0)) (VV v_p00)] [
      SVec v_S0 (VLoad 16 0 (PV v_src (IC 0)));
      SVec v_S3 (VLoad 16 0 (PAdd (PV v_src (IC 0)) (IC 3)));
      SVec v_S1 (VLoad 16 0 (PAdd (PV v_src (IC 0)) (IC 1)));
      SVec v_S2 (VLoad 16 0 (PAdd (PV v_src (IC 0)) (IC 2)));
      SVec v_L0 (VOp2 (UnpL 1) (VV v_S0) (VV v_zero));
      SVec v_L1 (VOp2 (UnpL 1) (VV v_S1) (VV v_zero));
      SVec v_L2 (VOp2 (UnpL 1) (VV v_S2) (VV v_zero));
      SVec v_L3 (VOp2 (UnpL 1) (VV v_S3) (VV v_zero));
      SVec v_p00 (VOp2 (Mul16) (VV v_L0) (VV v_coeff3));
      SVec v_p10 (VOp2 (Mul16) (VV v_L1) (VV v_coeff7));
      SVec v_p20 (VOp2 (Mul16) (VV v_L2) (VV v_coeff5));
      SVec v_p30 (VOp2 (Add16) (VV v_L3) (VV v_coeff8));
      SVec v_p00 (VOp2 (Add16) (VV v_p00) (VV v_p30));
      SVec v_p00 (VOp2 (Add16) (VV v_p00) (VV v_p10));
      SVec v_p00 (VOp2 (Add16) (VV v_p00) (VV v_p20));
      SVec v_p00 (VOp1 (Srl16 4) (VV v_p00));
      SVec v_p00 (VOp2 (Pack16) (VV v_p00) (VV v_p00));
      SStore 4 (PV v_dst1 (IC 0)) (VV v_p00);
      SVec v_p00 (VOp2 (Add16) (VV v_L1) (VV v_L2));
      SVec v_p00 (VOp2 (Mul16) (VV v_p00) (VV v_coeff3));
      SVec v_p10 (VOp2 (Add16) (VV v_L0) (VV v_L3));
      SVec v_p10 (VOp2 (Add16) (VV v_p10) (VV v_coeff4));
      SVec v_p00 (VOp2 (Add16) (VV v_p10) (VV v_p00));
      SVec v_p00 (VOp1 (Srl16 3) (VV v_p00));
      SVec v_p00 (VOp2 (Pack16) (VV v_p00) (VV v_p00));
      SStore 4 (PV v_dst2 (IC 0)) (VV v_p00);
      SVec v_p10 (VOp2 (Mul16) (VV v_L1) (VV v_coeff5));
      SVec v_p20 (VOp2 (Mul16) (VV v_L2) (VV v_coeff7));
      SVec v_p30 (VOp2 (Mul16) (VV v_L3) (VV v_coeff3));
      SVec v_p00 (VOp2 (Add16) (VV v_L0) (VV v_coeff8));
      SVec v_p00 (VOp2 (Add16) (VV v_p00) (VV v_p10));
      SVec v_p00 (VOp2 (Add16) (VV v_p00) (VV v_p20));
      SVec v_p00 (VOp2 (Add16) (VV v_p00) (VV v_p30));
      SVec v_p00 (VOp1 (Srl16 4) (VV v_p00));
      SVec v_p00 (VOp2 (Pack16) (VV v_p00) (VV v_p00));
      SStore 4 (PV v_dst3 (IC 0)) (VV v_p00);
      SVec v_p00 (VOp2 (Add16) (VV v_L1) (VV v_L2));
      SVec v_p10 (VOp2 (Add16) (VV v_L2) (VV v_L3));
      SVec v_p00 (VOp2 (Add16) (VV v_p00) (VV v_p10));
      SVec v_p00 (VOp2 (Add16) (VV v_p00) (VV v_coeff2));
      SVec v_p00 (VOp1 (Srl16 2) (VV v_p00));
      SVec v_p00 (VOp2 (Pack16) (VV v_p00) (VV v_p00));
      SStore 4 (PV v_dst4 (IC 0)) (VV v_p00)]]].
