(** The predictors of vec/intrinsic_intra-pred.cc for downward left modes, as trees (see VpModel). *)
From Coq Require Import ZArith List.
From Verif Require Import VpModel VpModelA VpModelB.
Import ListNotations.
Open Scope Z_scope.

(** vec/intrinsic_intra-pred.cc:3968-4452 [intra_pred_ang_y_25_sse128] *)
Definition k_ang_y_25_sse128 : list stm := [
  SIf (ILt (IC 8) (IV v_bsx)) [
    SArr v_first_line (IAdd (IC 64) (IShl (IC 64) (IC 3)));
    SInt v_line_size (IAdd (IV v_bsx) (IShl (ISub (IV v_bsy) (IC 1)) (IC 3)));
    SInt v_iHeight8 (IShl (IV v_bsy) (IC 3));
    SPtr v_pfirst (IC 0) (PV v_first_line (IC 0));
    SVec v_coeff0 (VConst [7;0;3;0;5;0;1;0;3;0;1;0;1;0;0;0]);
    SVec v_coeff1 (VConst [15;0;7;0;13;0;3;0;11;0;5;0;9;0;1;0]);
    SVec v_coeff2 (VConst [9;0;5;0;11;0;3;0;13;0;7;0;15;0;2;0]);
    SVec v_coeff3 (VConst [1;0;1;0;3;0;1;0;5;0;3;0;7;0;1;0]);
    SVec v_coeff4 (VConst [16;0;8;0;16;0;4;0;16;0;8;0;16;0;2;0]);
    SVec v_coeff5 (VConst [1;0;2;0;1;0;4;0;1;0;2;0;1;0;8;0]);
    SVec v_L0 (VSet1 2 8 (XLd (PV v_src (IC 0))));
    SVec v_L1 (VSet1 2 8 (XLd (PAdd (PV v_src (IC 0)) (IC (-1)))));
    SVec v_L2 (VSet1 2 8 (XLd (PAdd (PV v_src (IC 0)) (IC (-2)))));
    SVec v_L3 (VSet1 2 8 (XLd (PAdd (PV v_src (IC 0)) (IC (-3)))));
    SPtr v_src (IC 0) (PAdd (PV v_src (IC 0)) (ISub (IC 0) (IC 4)));
    SInt v_i (IC 0);
    SLoop (ILt (IV v_i) (ISub (IV v_line_size) (IC 24))) [
      SVec v_p00 (VOp2 (Mul16) (VV v_L0) (VV v_coeff0));
      SVec v_p10 (VOp2 (Mul16) (VV v_L1) (VV v_coeff1));
      SVec v_p20 (VOp2 (Mul16) (VV v_L2) (VV v_coeff2));
      SVec v_p30 (VOp2 (Mul16) (VV v_L3) (VV v_coeff3));
      SVec v_p00 (VOp2 (Add16) (VV v_p00) (VV v_coeff4));
      SVec v_p00 (VOp2 (Add16) (VV v_p00) (VV v_p10));
      SVec v_p00 (VOp2 (Add16) (VV v_p00) (VV v_p20));
      SVec v_p00 (VOp2 (Add16) (VV v_p00) (VV v_p30));
      SVec v_p00 (VOp2 (Mul16) (VV v_p00) (VV v_coeff5));
      SVec v_p00 (VOp1 (Srl16 5) (VV v_p00));
      SVec v_p00 (VOp2 (Pack16) (VV v_p00) (VV v_p00));
      SStore 8 (PV v_pfirst (IC 0)) (VV v_p00);
      SPtr v_pfirst (IC 0) (PAdd (PV v_pfirst (IC 0)) (IC 8));
      SVec v_L0 (VSet1 2 8 (XLd (PV v_src (IC 0))));
      SVec v_p00 (VOp2 (Mul16) (VV v_L1) (VV v_coeff0));
      SVec v_p10 (VOp2 (Mul16) (VV v_L2) (VV v_coeff1));
      SVec v_p20 (VOp2 (Mul16) (VV v_L3) (VV v_coeff2));
      SVec v_p30 (VOp2 (Mul16) (VV v_L0) (VV v_coeff3));
      SVec v_p00 (VOp2 (Add16) (VV v_p00) (VV v_coeff4));
      SVec v_p00 (VOp2 (Add16) (VV v_p00) (VV v_p10));
      SVec v_p00 (VOp2 (Add16) (VV v_p00) (VV v_p20));
      SVec v_p00 (VOp2 (Add16) (VV v_p00) (VV v_p30));
      SVec v_p00 (VOp2 (Mul16) (VV v_p00) (VV v_coeff5));
      SVec v_p00 (VOp1 (Srl16 5) (VV v_p00));
      SVec v_p00 (VOp2 (Pack16) (VV v_p00) (VV v_p00));
      SStore 8 (PV v_pfirst (IC 0)) (VV v_p00);
      SPtr v_pfirst (IC 0) (PAdd (PV v_pfirst (IC 0)) (IC 8));
      SVec v_L1 (VSet1 2 8 (XLd (PAdd (PV v_src (IC 0)) (IC (-1)))));
      SVec v_p00 (VOp2 (Mul16) (VV v_L2) (VV v_coeff0));
      SVec v_p10 (VOp2 (Mul16) (VV v_L3) (VV v_coeff1));
      SVec v_p20 (VOp2 (Mul16) (VV v_L0) (VV v_coeff2));
      SVec v_p30 (VOp2 (Mul16) (VV v_L1) (VV v_coeff3));
      SVec v_p00 (VOp2 (Add16) (VV v_p00) (VV v_coeff4));
      SVec v_p00 (VOp2 (Add16) (VV v_p00) (VV v_p10));
      SVec v_p00 (VOp2 (Add16) (VV v_p00) (VV v_p20));
      SVec v_p00 (VOp2 (Add16) (VV v_p00) (VV v_p30));
      SVec v_p00 (VOp2 (Mul16) (VV v_p00) (VV v_coeff5));
      SVec v_p00 (VOp1 (Srl16 5) (VV v_p00));
      SVec v_p00 (VOp2 (Pack16) (VV v_p00) (VV v_p00));
      SStore 8 (PV v_pfirst (IC 0)) (VV v_p00);
      SPtr v_pfirst (IC 0) (PAdd (PV v_pfirst (IC 0)) (IC 8));
      SVec v_L2 (VSet1 2 8 (XLd (PAdd (PV v_src (IC 0)) (IC (-2)))));
      SVec v_p00 (VOp2 (Mul16) (VV v_L3) (VV v_coeff0));
      SVec v_p10 (VOp2 (Mul16) (VV v_L0) (VV v_coeff1));
      SVec v_p20 (VOp2 (Mul16) (VV v_L1) (VV v_coeff2));
      SVec v_p30 (VOp2 (Mul16) (VV v_L2) (VV v_coeff3));
      SVec v_p00 (VOp2 (Add16) (VV v_p00) (VV v_coeff4));
      SVec v_p00 (VOp2 (Add16) (VV v_p00) (VV v_p10));
      SVec v_p00 (VOp2 (Add16) (VV v_p00) (VV v_p20));
      SVec v_p00 (VOp2 (Add16) (VV v_p00) (VV v_p30));
      SVec v_p00 (VOp2 (Mul16) (VV v_p00) (VV v_coeff5));
      SVec v_p00 (VOp1 (Srl16 5) (VV v_p00));
      SVec v_p00 (VOp2 (Pack16) (VV v_p00) (VV v_p00));
      SStore 8 (PV v_pfirst (IC 0)) (VV v_p00);
      SPtr v_pfirst (IC 0) (PAdd (PV v_pfirst (IC 0)) (IC 8));
      SVec v_L3 (VSet1 2 8 (XLd (PAdd (PV v_src (IC 0)) (IC (-3)))));
      SInt v_i (IAdd (IV v_i) (IC 32));
      SPtr v_src (IC 0) (PAdd (PV v_src (IC 0)) (ISub (IC 0) (IC 4)))];
    SIf (IEq (IV v_bsx) (IC 16)) [
      SVec v_p00 (VOp2 (Mul16) (VV v_L0) (VV v_coeff0));
      SVec v_p10 (VOp2 (Mul16) (VV v_L1) (VV v_coeff1));
      SVec v_p20 (VOp2 (Mul16) (VV v_L2) (VV v_coeff2));
      SVec v_p30 (VOp2 (Mul16) (VV v_L3) (VV v_coeff3));
      SVec v_p00 (VOp2 (Add16) (VV v_p00) (VV v_coeff4));
      SVec v_p00 (VOp2 (Add16) (VV v_p00) (VV v_p10));
      SVec v_p00 (VOp2 (Add16) (VV v_p00) (VV v_p20));
      SVec v_p00 (VOp2 (Add16) (VV v_p00) (VV v_p30));
      SVec v_p00 (VOp2 (Mul16) (VV v_p00) (VV v_coeff5));
      SVec v_p00 (VOp1 (Srl16 5) (VV v_p00));
      SVec v_p00 (VOp2 (Pack16) (VV v_p00) (VV v_p00));
      SStore 8 (PV v_pfirst (IC 0)) (VV v_p00)] [
      SVec v_p00 (VOp2 (Mul16) (VV v_L0) (VV v_coeff0));
      SVec v_p10 (VOp2 (Mul16) (VV v_L1) (VV v_coeff1));
      SVec v_p20 (VOp2 (Mul16) (VV v_L2) (VV v_coeff2));
      SVec v_p30 (VOp2 (Mul16) (VV v_L3) (VV v_coeff3));
      SVec v_p00 (VOp2 (Add16) (VV v_p00) (VV v_coeff4));
      SVec v_p00 (VOp2 (Add16) (VV v_p00) (VV v_p10));
      SVec v_p00 (VOp2 (Add16) (VV v_p00) (VV v_p20));
      SVec v_p00 (VOp2 (Add16) (VV v_p00) (VV v_p30));
      SVec v_p00 (VOp2 (Mul16) (VV v_p00) (VV v_coeff5));
      SVec v_p00 (VOp1 (Srl16 5) (VV v_p00));
      SVec v_p00 (VOp2 (Pack16) (VV v_p00) (VV v_p00));
      SStore 8 (PV v_pfirst (IC 0)) (VV v_p00);
      SPtr v_pfirst (IC 0) (PAdd (PV v_pfirst (IC 0)) (IC 8));
      SVec v_L0 (VSet1 2 8 (XLd (PV v_src (IC 0))));
      SVec v_p00 (VOp2 (Mul16) (VV v_L1) (VV v_coeff0));
      SVec v_p10 (VOp2 (Mul16) (VV v_L2) (VV v_coeff1));
      SVec v_p20 (VOp2 (Mul16) (VV v_L3) (VV v_coeff2));
      SVec v_p30 (VOp2 (Mul16) (VV v_L0) (VV v_coeff3));
      SVec v_p00 (VOp2 (Add16) (VV v_p00) (VV v_coeff4));
      SVec v_p00 (VOp2 (Add16) (VV v_p00) (VV v_p10));
      SVec v_p00 (VOp2 (Add16) (VV v_p00) (VV v_p20));
      SVec v_p00 (VOp2 (Add16) (VV v_p00) (VV v_p30));
      SVec v_p00 (VOp2 (Mul16) (VV v_p00) (VV v_coeff5));
      SVec v_p00 (VOp1 (Srl16 5) (VV v_p00));
      SVec v_p00 (VOp2 (Pack16) (VV v_p00) (VV v_p00));
      SStore 8 (PV v_pfirst (IC 0)) (VV v_p00);
      SPtr v_pfirst (IC 0) (PAdd (PV v_pfirst (IC 0)) (IC 8));
      SVec v_L1 (VSet1 2 8 (XLd (PAdd (PV v_src (IC 0)) (IC (-1)))));
      SVec v_p00 (VOp2 (Mul16) (VV v_L2) (VV v_coeff0));
      SVec v_p10 (VOp2 (Mul16) (VV v_L3) (VV v_coeff1));
      SVec v_p20 (VOp2 (Mul16) (VV v_L0) (VV v_coeff2));
      SVec v_p30 (VOp2 (Mul16) (VV v_L1) (VV v_coeff3));
      SVec v_p00 (VOp2 (Add16) (VV v_p00) (VV v_coeff4));
      SVec v_p00 (VOp2 (Add16) (VV v_p00) (VV v_p10));
      SVec v_p00 (VOp2 (Add16) (VV v_p00) (VV v_p20));
      SVec v_p00 (VOp2 (Add16) (VV v_p00) (VV v_p30));
      SVec v_p00 (VOp2 (Mul16) (VV v_p00) (VV v_coeff5));
      SVec v_p00 (VOp1 (Srl16 5) (VV v_p00));
      SVec v_p00 (VOp2 (Pack16) (VV v_p00) (VV v_p00));
      SStore 8 (PV v_pfirst (IC 0)) (VV v_p00)];
    SInt v_i (IC 0);
    SLoop (ILt (IV v_i) (IV v_iHeight8)) [
      SCopy (IV v_bsx) (PV v_dst (IC 0)) (PAdd (PV v_first_line (IC 0)) (IV v_i));
      SPtr v_dst (IC 0) (PAdd (PV v_dst (IC 0)) (IV v_i_dst));
      SInt v_i (IAdd (IV v_i) (IC 8))]] [
    SIf (IEq (IV v_bsx) (IC 8)) [
      SVec v_coeff0 (VConst [7;0;3;0;5;0;1;0;3;0;1;0;1;0;0;0]);
      SVec v_coeff1 (VConst [15;0;7;0;13;0;3;0;11;0;5;0;9;0;1;0]);
      SVec v_coeff2 (VConst [9;0;5;0;11;0;3;0;13;0;7;0;15;0;2;0]);
      SVec v_coeff3 (VConst [1;0;1;0;3;0;1;0;5;0;3;0;7;0;1;0]);
      SVec v_coeff4 (VConst [16;0;8;0;16;0;4;0;16;0;8;0;16;0;2;0]);
      SVec v_coeff5 (VConst [1;0;2;0;1;0;4;0;1;0;2;0;1;0;8;0]);
      SVec v_L0 (VSet1 2 8 (XLd (PV v_src (IC 0))));
      SVec v_L1 (VSet1 2 8 (XLd (PAdd (PV v_src (IC 0)) (IC (-1)))));
      SVec v_L2 (VSet1 2 8 (XLd (PAdd (PV v_src (IC 0)) (IC (-2)))));
      SVec v_L3 (VSet1 2 8 (XLd (PAdd (PV v_src (IC 0)) (IC (-3)))));
      SPtr v_src (IC 0) (PAdd (PV v_src (IC 0)) (ISub (IC 0) (IC 4)));
      SInt v_bsy (IShr (IV v_bsy) (IC 2));
      SInt v_i (IC 0);
      SLoop (ILt (IV v_i) (IV v_bsy)) [
        SVec v_p00 (VOp2 (Mul16) (VV v_L0) (VV v_coeff0));
        SVec v_p10 (VOp2 (Mul16) (VV v_L1) (VV v_coeff1));
        SVec v_p20 (VOp2 (Mul16) (VV v_L2) (VV v_coeff2));
        SVec v_p30 (VOp2 (Mul16) (VV v_L3) (VV v_coeff3));
        SVec v_p00 (VOp2 (Add16) (VV v_p00) (VV v_coeff4));
        SVec v_p00 (VOp2 (Add16) (VV v_p00) (VV v_p10));
        SVec v_p00 (VOp2 (Add16) (VV v_p00) (VV v_p20));
        SVec v_p00 (VOp2 (Add16) (VV v_p00) (VV v_p30));
        SVec v_p00 (VOp2 (Mul16) (VV v_p00) (VV v_coeff5));
        SVec v_p00 (VOp1 (Srl16 5) (VV v_p00));
        SVec v_p00 (VOp2 (Pack16) (VV v_p00) (VV v_p00));
        SStore 8 (PV v_dst (IC 0)) (VV v_p00);
        SPtr v_dst (IC 0) (PAdd (PV v_dst (IC 0)) (IV v_i_dst));
        SVec v_L0 (VSet1 2 8 (XLd (PV v_src (IC 0))));
        SVec v_p00 (VOp2 (Mul16) (VV v_L1) (VV v_coeff0));
        SVec v_p10 (VOp2 (Mul16) (VV v_L2) (VV v_coeff1));
        SVec v_p20 (VOp2 (Mul16) (VV v_L3) (VV v_coeff2));
        SVec v_p30 (VOp2 (Mul16) (VV v_L0) (VV v_coeff3));
        SVec v_p00 (VOp2 (Add16) (VV v_p00) (VV v_coeff4));
        SVec v_p00 (VOp2 (Add16) (VV v_p00) (VV v_p10));
        SVec v_p00 (VOp2 (Add16) (VV v_p00) (VV v_p20));
        SVec v_p00 (VOp2 (Add16) (VV v_p00) (VV v_p30));
        SVec v_p00 (VOp2 (Mul16) (VV v_p00) (VV v_coeff5));
        SVec v_p00 (VOp1 (Srl16 5) (VV v_p00));
        SVec v_p00 (VOp2 (Pack16) (VV v_p00) (VV v_p00));
        SStore 8 (PV v_dst (IC 0)) (VV v_p00);
        SPtr v_dst (IC 0) (PAdd (PV v_dst (IC 0)) (IV v_i_dst));
        SVec v_L1 (VSet1 2 8 (XLd (PAdd (PV v_src (IC 0)) (IC (-1)))));
        SVec v_p00 (VOp2 (Mul16) (VV v_L2) (VV v_coeff0));
        SVec v_p10 (VOp2 (Mul16) (VV v_L3) (VV v_coeff1));
        SVec v_p20 (VOp2 (Mul16) (VV v_L0) (VV v_coeff2));
        SVec v_p30 (VOp2 (Mul16) (VV v_L1) (VV v_coeff3));
        SVec v_p00 (VOp2 (Add16) (VV v_p00) (VV v_coeff4));
        SVec v_p00 (VOp2 (Add16) (VV v_p00) (VV v_p10));
        SVec v_p00 (VOp2 (Add16) (VV v_p00) (VV v_p20));
        SVec v_p00 (VOp2 (Add16) (VV v_p00) (VV v_p30));
        SVec v_p00 (VOp2 (Mul16) (VV v_p00) (VV v_coeff5));
        SVec v_p00 (VOp1 (Srl16 5) (VV v_p00));
        SVec v_p00 (VOp2 (Pack16) (VV v_p00) (VV v_p00));
        SStore 8 (PV v_dst (IC 0)) (VV v_p00);
        SPtr v_dst (IC 0) (PAdd (PV v_dst (IC 0)) (IV v_i_dst));
        SVec v_L2 (VSet1 2 8 (XLd (PAdd (PV v_src (IC 0)) (IC (-2)))));
        SVec v_p00 (VOp2 (Mul16) (VV v_L3) (VV v_coeff0));
        SVec v_p10 (VOp2 (Mul16) (VV v_L0) (VV v_coeff1));
        SVec v_p20 (VOp2 (Mul16) (VV v_L1) (VV v_coeff2));
        SVec v_p30 (VOp2 (Mul16) (VV v_L2) (VV v_coeff3));
        SVec v_p00 (VOp2 (Add16) (VV v_p00) (VV v_coeff4));
        SVec v_p00 (VOp2 (Add16) (VV v_p00) (VV v_p10));
        SVec v_p00 (VOp2 (Add16) (VV v_p00) (VV v_p20));
        SVec v_p00 (VOp2 (Add16) (VV v_p00) (VV v_p30));
        SVec v_p00 (VOp2 (Mul16) (VV v_p00) (VV v_coeff5));
        SVec v_p00 (VOp1 (Srl16 5) (VV v_p00));
        SVec v_p00 (VOp2 (Pack16) (VV v_p00) (VV v_p00));
        SStore 8 (PV v_dst (IC 0)) (VV v_p00);
        SPtr v_dst (IC 0) (PAdd (PV v_dst (IC 0)) (IV v_i_dst));
        SVec v_L3 (VSet1 2 8 (XLd (PAdd (PV v_src (IC 0)) (IC (-3)))));
        SInt v_i (IAdd (IV v_i) (IC 1));
        SPtr v_src (IC 0) (PAdd (PV v_src (IC 0)) (ISub (IC 0) (IC 4)))]] [
      SVec v_zero (VConst [0;0;0;0;0;0;0;0;0;0;0;0;0;0;0;0]);
      SVec v_coeff3 (VSet1 2 8 (XC 3));
      SVec v_coeff4 (VSet1 2 8 (XC 4));
      SVec v_coeff5 (VSet1 2 8 (XC 5));
      SVec v_coeff7 (VSet1 2 8 (XC 7));
      SVec v_coeff8 (VSet1 2 8 (XC 8));
      SVec v_coeff9 (VSet1 2 8 (XC 9));
      SVec v_coeff11 (VSet1 2 8 (XC 11));
      SVec v_coeff13 (VSet1 2 8 (XC 13));
      SVec v_coeff15 (VSet1 2 8 (XC 15));
      SVec v_coeff16 (VSet1 2 8 (XC 16));
      SVec v_shuffle (VConst [7;15;6;14;5;13;4;12;3;11;2;10;1;9;0;8]);
      SIf (IEq (IV v_bsy) (IC 4)) [
        SPtr v_src (IC 0) (PAdd (PV v_src (IC 0)) (ISub (IC 0) (IC 15)));
        SVec v_S0 (VLoad 16 0 (PV v_src (IC 0)));
        SVec v_S3 (VLoad 16 0 (PAdd (PV v_src (IC 0)) (ISub (IC 0) (IC 3))));
        SVec v_S1 (VLoad 16 0 (PAdd (PV v_src (IC 0)) (ISub (IC 0) (IC 1))));
        SVec v_S2 (VLoad 16 0 (PAdd (PV v_src (IC 0)) (ISub (IC 0) (IC 2))));
        SVec v_H0 (VOp2 (UnpH 1) (VV v_S0) (VV v_zero));
        SVec v_H1 (VOp2 (UnpH 1) (VV v_S1) (VV v_zero));
        SVec v_H2 (VOp2 (UnpH 1) (VV v_S2) (VV v_zero));
        SVec v_H3 (VOp2 (UnpH 1) (VV v_S3) (VV v_zero));
        SVec v_p01 (VOp2 (Mul16) (VV v_H0) (VV v_coeff7));
        SVec v_p11 (VOp2 (Mul16) (VV v_H1) (VV v_coeff15));
        SVec v_p21 (VOp2 (Mul16) (VV v_H2) (VV v_coeff9));
        SVec v_p31 (VOp2 (Add16) (VV v_H3) (VV v_coeff16));
        SVec v_p01 (VOp2 (Add16) (VV v_p01) (VV v_p11));
        SVec v_p01 (VOp2 (Add16) (VV v_p01) (VV v_p21));
        SVec v_p01 (VOp2 (Add16) (VV v_p01) (VV v_p31));
        SVec v_M2 (VOp1 (Srl16 5) (VV v_p01));
        SVec v_p01 (VOp2 (Mul16) (VV v_H0) (VV v_coeff3));
        SVec v_p11 (VOp2 (Mul16) (VV v_H1) (VV v_coeff7));
        SVec v_p21 (VOp2 (Mul16) (VV v_H2) (VV v_coeff5));
        SVec v_p31 (VOp2 (Add16) (VV v_H3) (VV v_coeff8));
        SVec v_p01 (VOp2 (Add16) (VV v_p01) (VV v_p11));
        SVec v_p01 (VOp2 (Add16) (VV v_p01) (VV v_p21));
        SVec v_p01 (VOp2 (Add16) (VV v_p01) (VV v_p31));
        SVec v_M4 (VOp1 (Srl16 4) (VV v_p01));
        SVec v_p01 (VOp2 (Mul16) (VV v_H0) (VV v_coeff5));
        SVec v_p11 (VOp2 (Mul16) (VV v_H1) (VV v_coeff13));
        SVec v_p21 (VOp2 (Mul16) (VV v_H2) (VV v_coeff11));
        SVec v_p31 (VOp2 (Mul16) (VV v_H3) (VV v_coeff3));
        SVec v_p01 (VOp2 (Add16) (VV v_p01) (VV v_coeff16));
        SVec v_p01 (VOp2 (Add16) (VV v_p01) (VV v_p11));
        SVec v_p01 (VOp2 (Add16) (VV v_p01) (VV v_p21));
        SVec v_p01 (VOp2 (Add16) (VV v_p01) (VV v_p31));
        SVec v_M6 (VOp1 (Srl16 5) (VV v_p01));
        SVec v_p01 (VOp2 (Add16) (VV v_H0) (VV v_H3));
        SVec v_p11 (VOp2 (Add16) (VV v_H1) (VV v_H2));
        SVec v_p11 (VOp2 (Mul16) (VV v_p11) (VV v_coeff3));
        SVec v_p01 (VOp2 (Add16) (VV v_p01) (VV v_coeff4));
        SVec v_p01 (VOp2 (Add16) (VV v_p01) (VV v_p11));
        SVec v_M8 (VOp1 (Srl16 3) (VV v_p01));
        SVec v_M2 (VOp2 (Pack16) (VV v_M2) (VV v_M4));
        SVec v_M6 (VOp2 (Pack16) (VV v_M6) (VV v_M8));
        SVec v_M2 (VOp2 (Shuf8) (VV v_M2) (VV v_shuffle));
        SVec v_M6 (VOp2 (Shuf8) (VV v_M6) (VV v_shuffle));
        SVec v_M4 (VOp2 (UnpL 2) (VV v_M2) (VV v_M6));
        SStore 4 (PV v_dst (IC 0)) (VV v_M4);
        SPtr v_dst (IC 0) (PAdd (PV v_dst (IC 0)) (IV v_i_dst));
        SVec v_M4 (VOp1 (SrlB 4) (VV v_M4));
        SStore 4 (PV v_dst (IC 0)) (VV v_M4);
        SPtr v_dst (IC 0) (PAdd (PV v_dst (IC 0)) (IV v_i_dst));
        SVec v_M4 (VOp1 (SrlB 4) (VV v_M4));
        SStore 4 (PV v_dst (IC 0)) (VV v_M4);
        SPtr v_dst (IC 0) (PAdd (PV v_dst (IC 0)) (IV v_i_dst));
        SVec v_M4 (VOp1 (SrlB 4) (VV v_M4));
        SStore 4 (PV v_dst (IC 0)) (VV v_M4)] [
        SPtr v_src (IC 0) (PAdd (PV v_src (IC 0)) (ISub (IC 0) (IC 15)));
        SVec v_S0 (VLoad 16 0 (PV v_src (IC 0)));
        SVec v_S3 (VLoad 16 0 (PAdd (PV v_src (IC 0)) (ISub (IC 0) (IC 3))));
        SVec v_S1 (VLoad 16 0 (PAdd (PV v_src (IC 0)) (ISub (IC 0) (IC 1))));
        SVec v_S2 (VLoad 16 0 (PAdd (PV v_src (IC 0)) (ISub (IC 0) (IC 2))));
        SVec v_L0 (VOp2 (UnpL 1) (VV v_S0) (VV v_zero));
        SVec v_L1 (VOp2 (UnpL 1) (VV v_S1) (VV v_zero));
        SVec v_L2 (VOp2 (UnpL 1) (VV v_S2) (VV v_zero));
        SVec v_L3 (VOp2 (UnpL 1) (VV v_S3) (VV v_zero));
        SVec v_H0 (VOp2 (UnpH 1) (VV v_S0) (VV v_zero));
        SVec v_H1 (VOp2 (UnpH 1) (VV v_S1) (VV v_zero));
        SVec v_H2 (VOp2 (UnpH 1) (VV v_S2) (VV v_zero));
        SVec v_H3 (VOp2 (UnpH 1) (VV v_S3) (VV v_zero));
        SVec v_p00 (VOp2 (Mul16) (VV v_L0) (VV v_coeff7));
        SVec v_p10 (VOp2 (Mul16) (VV v_L1) (VV v_coeff15));
        SVec v_p20 (VOp2 (Mul16) (VV v_L2) (VV v_coeff9));
        SVec v_p30 (VOp2 (Add16) (VV v_L3) (VV v_coeff16));
        SVec v_p00 (VOp2 (Add16) (VV v_p00) (VV v_p10));
        SVec v_p00 (VOp2 (Add16) (VV v_p00) (VV v_p20));
        SVec v_p00 (VOp2 (Add16) (VV v_p00) (VV v_p30));
        SVec v_M1 (VOp1 (Srl16 5) (VV v_p00));
        SVec v_p01 (VOp2 (Mul16) (VV v_H0) (VV v_coeff7));
        SVec v_p11 (VOp2 (Mul16) (VV v_H1) (VV v_coeff15));
        SVec v_p21 (VOp2 (Mul16) (VV v_H2) (VV v_coeff9));
        SVec v_p31 (VOp2 (Add16) (VV v_H3) (VV v_coeff16));
        SVec v_p01 (VOp2 (Add16) (VV v_p01) (VV v_p11));
        SVec v_p01 (VOp2 (Add16) (VV v_p01) (VV v_p21));
        SVec v_p01 (VOp2 (Add16) (VV v_p01) (VV v_p31));
        SVec v_M2 (VOp1 (Srl16 5) (VV v_p01));
        SVec v_p00 (VOp2 (Mul16) (VV v_L0) (VV v_coeff3));
        SVec v_p10 (VOp2 (Mul16) (VV v_L1) (VV v_coeff7));
        SVec v_p20 (VOp2 (Mul16) (VV v_L2) (VV v_coeff5));
        SVec v_p30 (VOp2 (Add16) (VV v_L3) (VV v_coeff8));
        SVec v_p00 (VOp2 (Add16) (VV v_p00) (VV v_p10));
        SVec v_p00 (VOp2 (Add16) (VV v_p00) (VV v_p20));
        SVec v_p00 (VOp2 (Add16) (VV v_p00) (VV v_p30));
        SVec v_M3 (VOp1 (Srl16 4) (VV v_p00));
        SVec v_p01 (VOp2 (Mul16) (VV v_H0) (VV v_coeff3));
        SVec v_p11 (VOp2 (Mul16) (VV v_H1) (VV v_coeff7));
        SVec v_p21 (VOp2 (Mul16) (VV v_H2) (VV v_coeff5));
        SVec v_p31 (VOp2 (Add16) (VV v_H3) (VV v_coeff8));
        SVec v_p01 (VOp2 (Add16) (VV v_p01) (VV v_p11));
        SVec v_p01 (VOp2 (Add16) (VV v_p01) (VV v_p21));
        SVec v_p01 (VOp2 (Add16) (VV v_p01) (VV v_p31));
        SVec v_M4 (VOp1 (Srl16 4) (VV v_p01));
        SVec v_p00 (VOp2 (Mul16) (VV v_L0) (VV v_coeff5));
        SVec v_p10 (VOp2 (Mul16) (VV v_L1) (VV v_coeff13));
        SVec v_p20 (VOp2 (Mul16) (VV v_L2) (VV v_coeff11));
        SVec v_p30 (VOp2 (Mul16) (VV v_L3) (VV v_coeff3));
        SVec v_p00 (VOp2 (Add16) (VV v_p00) (VV v_coeff16));
        SVec v_p00 (VOp2 (Add16) (VV v_p00) (VV v_p10));
        SVec v_p00 (VOp2 (Add16) (VV v_p00) (VV v_p20));
        SVec v_p00 (VOp2 (Add16) (VV v_p00) (VV v_p30));
        SVec v_M5 (VOp1 (Srl16 5) (VV v_p00));
        SVec v_p01 (VOp2 (Mul16) (VV v_H0) (VV v_coeff5));
        SVec v_p11 (VOp2 (Mul16) (VV v_H1) (VV v_coeff13));
        SVec v_p21 (VOp2 (Mul16) (VV v_H2) (VV v_coeff11));
        SVec v_p31 (VOp2 (Mul16) (VV v_H3) (VV v_coeff3));
        SVec v_p01 (VOp2 (Add16) (VV v_p01) (VV v_coeff16));
        SVec v_p01 (VOp2 (Add16) (VV v_p01) (VV v_p11));
        SVec v_p01 (VOp2 (Add16) (VV v_p01) (VV v_p21));
        SVec v_p01 (VOp2 (Add16) (VV v_p01) (VV v_p31));
        SVec v_M6 (VOp1 (Srl16 5) (VV v_p01));
        SVec v_p00 (VOp2 (Add16) (VV v_L0) (VV v_L3));
        SVec v_p10 (VOp2 (Add16) (VV v_L1) (VV v_L2));
        SVec v_p10 (VOp2 (Mul16) (VV v_p10) (VV v_coeff3));
        SVec v_p00 (VOp2 (Add16) (VV v_p00) (VV v_coeff4));
        SVec v_p00 (VOp2 (Add16) (VV v_p00) (VV v_p10));
        SVec v_M7 (VOp1 (Srl16 3) (VV v_p00));
        SVec v_p01 (VOp2 (Add16) (VV v_H0) (VV v_H3));
        SVec v_p11 (VOp2 (Add16) (VV v_H1) (VV v_H2));
        SVec v_p11 (VOp2 (Mul16) (VV v_p11) (VV v_coeff3));
        SVec v_p01 (VOp2 (Add16) (VV v_p01) (VV v_coeff4));
        SVec v_p01 (VOp2 (Add16) (VV v_p01) (VV v_p11));
        SVec v_M8 (VOp1 (Srl16 3) (VV v_p01));
        SVec v_M1 (VOp2 (Pack16) (VV v_M1) (VV v_M3));
        SVec v_M5 (VOp2 (Pack16) (VV v_M5) (VV v_M7));
        SVec v_M1 (VOp2 (Shuf8) (VV v_M1) (VV v_shuffle));
        SVec v_M5 (VOp2 (Shuf8) (VV v_M5) (VV v_shuffle));
        SVec v_M2 (VOp2 (Pack16) (VV v_M2) (VV v_M4));
        SVec v_M6 (VOp2 (Pack16) (VV v_M6) (VV v_M8));
        SVec v_M2 (VOp2 (Shuf8) (VV v_M2) (VV v_shuffle));
        SVec v_M6 (VOp2 (Shuf8) (VV v_M6) (VV v_shuffle));
        SVec v_M3 (VOp2 (UnpL 2) (VV v_M1) (VV v_M5));
        SVec v_M7 (VOp2 (UnpH 2) (VV v_M1) (VV v_M5));
        SVec v_M4 (VOp2 (UnpL 2) (VV v_M2) (VV v_M6));
        SVec v_M8 (VOp2 (UnpH 2) (VV v_M2) (VV v_M6));
        SStore 4 (PV v_dst (IC 0)) (VV v_M4);
        SPtr v_dst (IC 0) (PAdd (PV v_dst (IC 0)) (IV v_i_dst));
        SVec v_M4 (VOp1 (SrlB 4) (VV v_M4));
        SStore 4 (PV v_dst (IC 0)) (VV v_M4);
        SPtr v_dst (IC 0) (PAdd (PV v_dst (IC 0)) (IV v_i_dst));
        SVec v_M4 (VOp1 (SrlB 4) (VV v_M4));
        SStore 4 (PV v_dst (IC 0)) (VV v_M4);
        SPtr v_dst (IC 0) (PAdd (PV v_dst (IC 0)) (IV v_i_dst));
        SVec v_M4 (VOp1 (SrlB 4) (VV v_M4));
        SStore 4 (PV v_dst (IC 0)) (VV v_M4);
        SPtr v_dst (IC 0) (PAdd (PV v_dst (IC 0)) (IV v_i_dst));
        SStore 4 (PV v_dst (IC 0)) (VV v_M8);
        SPtr v_dst (IC 0) (PAdd (PV v_dst (IC 0)) (IV v_i_dst));
        SVec v_M8 (VOp1 (SrlB 4) (VV v_M8));
        SStore 4 (PV v_dst (IC 0)) (VV v_M8);
        SPtr v_dst (IC 0) (PAdd (PV v_dst (IC 0)) (IV v_i_dst));
        SVec v_M8 (VOp1 (SrlB 4) (VV v_M8));
        SStore 4 (PV v_dst (IC 0)) (VV v_M8);
        SPtr v_dst (IC 0) (PAdd (PV v_dst (IC 0)) (IV v_i_dst));
        SVec v_M8 (VOp1 (SrlB 4) (VV v_M8));
        SStore 4 (PV v_dst (IC 0)) (VV v_M8);
        SPtr v_dst (IC 0) (PAdd (PV v_dst (IC 0)) (IV v_i_dst));
        SStore 4 (PV v_dst (IC 0)) (VV v_M3);
        SPtr v_dst (IC 0) (PAdd (PV v_dst (IC 0)) (IV v_i_dst));
        SVec v_M3 (VOp1 (SrlB 4) (VV v_M3));
        SStore 4 (PV v_dst (IC 0)) (VV v_M3);
        SPtr v_dst (IC 0) (PAdd (PV v_dst (IC 0)) (IV v_i_dst));
        SVec v_M3 (VOp1 (SrlB 4) (VV v_M3));
        SStore 4 (PV v_dst (IC 0)) (VV v_M3);
        SPtr v_dst (IC 0) (PAdd (PV v_dst (IC 0)) (IV v_i_dst));
        SVec v_M3 (VOp1 (SrlB 4) (VV v_M3));
        SStore 4 (PV v_dst (IC 0)) (VV v_M3);
        SPtr v_dst (IC 0) (PAdd (PV v_dst (IC 0)) (IV v_i_dst));
        SStore 4 (PV v_dst (IC 0)) (VV v_M7);
        SPtr v_dst (IC 0) (PAdd (PV v_dst (IC 0)) (IV v_i_dst));
        SVec v_M7 (VOp1 (SrlB 4) (VV v_M7));
        SStore 4 (PV v_dst (IC 0)) (VV v_M7);
        SPtr v_dst (IC 0) (PAdd (PV v_dst (IC 0)) (IV v_i_dst));
        SVec v_M7 (VOp1 (SrlB 4) (VV v_M7));
        SStore 4 (PV v_dst (IC 0)) (VV v_M7);
        SPtr v_dst (IC 0) (PAdd (PV v_dst (IC 0)) (IV v_i_dst));
        SVec v_M7 (VOp1 (SrlB 4) (VV v_M7));
        SStore 4 (PV v_dst (IC 0)) (VV v_M7)]]]].

(** vec/intrinsic_intra-pred.cc:4457-4876 [intra_pred_ang_y_26_sse128] *)
Definition k_ang_y_26_sse128 : list stm := [
  SIf (INot (IEq (IV v_bsx) (IC 4))) [
    SVec v_zero (VConst [0;0;0;0;0;0;0;0;0;0;0;0;0;0;0;0]);
    SVec v_coeff2 (VSet1 2 8 (XC 2));
    SVec v_coeff3 (VSet1 2 8 (XC 3));
    SVec v_coeff4 (VSet1 2 8 (XC 4));
    SVec v_coeff5 (VSet1 2 8 (XC 5));
    SVec v_coeff7 (VSet1 2 8 (XC 7));
    SVec v_coeff8 (VSet1 2 8 (XC 8));
    SVec v_shuffle (VConst [7;15;6;14;5;13;4;12;3;11;2;10;1;9;0;8]);
    SArr v_first_line (IAdd (IC 64) (IC 256));
    SInt v_line_size (IAdd (IV v_bsx) (IMul (ISub (IV v_bsy) (IC 1)) (IC 4)));
    SInt v_iHeight4 (IShl (IV v_bsy) (IC 2));
    SPtr v_src (IC 0) (PAdd (PV v_src (IC 0)) (ISub (IC 0) (IC 15)));
    SInt v_i (IC 0);
    SLoop (ILt (IV v_i) (ISub (IV v_line_size) (IC 32))) [
      SVec v_S0 (VLoad 16 0 (PV v_src (IC 0)));
      SVec v_S3 (VLoad 16 0 (PAdd (PV v_src (IC 0)) (ISub (IC 0) (IC 3))));
      SVec v_S1 (VLoad 16 0 (PAdd (PV v_src (IC 0)) (ISub (IC 0) (IC 1))));
      SVec v_S2 (VLoad 16 0 (PAdd (PV v_src (IC 0)) (ISub (IC 0) (IC 2))));
      SVec v_L0 (VOp2 (UnpL 1) (VV v_S0) (VV v_zero));
      SVec v_L1 (VOp2 (UnpL 1) (VV v_S1) (VV v_zero));
      SVec v_L2 (VOp2 (UnpL 1) (VV v_S2) (VV v_zero));
      SVec v_L3 (VOp2 (UnpL 1) (VV v_S3) (VV v_zero));
      SVec v_H0 (VOp2 (UnpH 1) (VV v_S0) (VV v_zero));
      SVec v_H1 (VOp2 (UnpH 1) (VV v_S1) (VV v_zero));
      SVec v_H2 (VOp2 (UnpH 1) (VV v_S2) (VV v_zero));
      SVec v_H3 (VOp2 (UnpH 1) (VV v_S3) (VV v_zero));
      SVec v_p00 (VOp2 (Mul16) (VV v_L0) (VV v_coeff3));
      SVec v_p10 (VOp2 (Mul16) (VV v_L1) (VV v_coeff7));
      SVec v_p20 (VOp2 (Mul16) (VV v_L2) (VV v_coeff5));
      SVec v_p30 (VOp2 (Add16) (VV v_L3) (VV v_coeff8));
      SVec v_p00 (VOp2 (Add16) (VV v_p00) (VV v_p30));
      SVec v_p00 (VOp2 (Add16) (VV v_p00) (VV v_p10));
      SVec v_p00 (VOp2 (Add16) (VV v_p00) (VV v_p20));
      SVec v_M1 (VOp1 (Srl16 4) (VV v_p00));
      SVec v_p01 (VOp2 (Mul16) (VV v_H0) (VV v_coeff3));
      SVec v_p11 (VOp2 (Mul16) (VV v_H1) (VV v_coeff7));
      SVec v_p21 (VOp2 (Mul16) (VV v_H2) (VV v_coeff5));
      SVec v_p31 (VOp2 (Add16) (VV v_H3) (VV v_coeff8));
      SVec v_p01 (VOp2 (Add16) (VV v_p01) (VV v_p31));
      SVec v_p01 (VOp2 (Add16) (VV v_p01) (VV v_p11));
      SVec v_p01 (VOp2 (Add16) (VV v_p01) (VV v_p21));
      SVec v_M2 (VOp1 (Srl16 4) (VV v_p01));
      SVec v_p00 (VOp2 (Add16) (VV v_L1) (VV v_L2));
      SVec v_p00 (VOp2 (Mul16) (VV v_p00) (VV v_coeff3));
      SVec v_p10 (VOp2 (Add16) (VV v_L0) (VV v_L3));
      SVec v_p10 (VOp2 (Add16) (VV v_p10) (VV v_coeff4));
      SVec v_p00 (VOp2 (Add16) (VV v_p10) (VV v_p00));
      SVec v_M3 (VOp1 (Srl16 3) (VV v_p00));
      SVec v_p01 (VOp2 (Add16) (VV v_H1) (VV v_H2));
      SVec v_p01 (VOp2 (Mul16) (VV v_p01) (VV v_coeff3));
      SVec v_p11 (VOp2 (Add16) (VV v_H0) (VV v_H3));
      SVec v_p11 (VOp2 (Add16) (VV v_p11) (VV v_coeff4));
      SVec v_p01 (VOp2 (Add16) (VV v_p11) (VV v_p01));
      SVec v_M4 (VOp1 (Srl16 3) (VV v_p01));
      SVec v_p10 (VOp2 (Mul16) (VV v_L1) (VV v_coeff5));
      SVec v_p20 (VOp2 (Mul16) (VV v_L2) (VV v_coeff7));
      SVec v_p30 (VOp2 (Mul16) (VV v_L3) (VV v_coeff3));
      SVec v_p00 (VOp2 (Add16) (VV v_L0) (VV v_coeff8));
      SVec v_p00 (VOp2 (Add16) (VV v_p00) (VV v_p10));
      SVec v_p00 (VOp2 (Add16) (VV v_p00) (VV v_p20));
      SVec v_p00 (VOp2 (Add16) (VV v_p00) (VV v_p30));
      SVec v_M5 (VOp1 (Srl16 4) (VV v_p00));
      SVec v_p11 (VOp2 (Mul16) (VV v_H1) (VV v_coeff5));
      SVec v_p21 (VOp2 (Mul16) (VV v_H2) (VV v_coeff7));
      SVec v_p31 (VOp2 (Mul16) (VV v_H3) (VV v_coeff3));
      SVec v_p01 (VOp2 (Add16) (VV v_H0) (VV v_coeff8));
      SVec v_p01 (VOp2 (Add16) (VV v_p01) (VV v_p11));
      SVec v_p01 (VOp2 (Add16) (VV v_p01) (VV v_p21));
      SVec v_p01 (VOp2 (Add16) (VV v_p01) (VV v_p31));
      SVec v_M6 (VOp1 (Srl16 4) (VV v_p01));
      SVec v_p00 (VOp2 (Add16) (VV v_L1) (VV v_L2));
      SVec v_p10 (VOp2 (Add16) (VV v_L2) (VV v_L3));
      SVec v_p00 (VOp2 (Add16) (VV v_p00) (VV v_p10));
      SVec v_p00 (VOp2 (Add16) (VV v_p00) (VV v_coeff2));
      SVec v_M7 (VOp1 (Srl16 2) (VV v_p00));
      SVec v_p01 (VOp2 (Add16) (VV v_H1) (VV v_H2));
      SVec v_p11 (VOp2 (Add16) (VV v_H2) (VV v_H3));
      SVec v_p01 (VOp2 (Add16) (VV v_p01) (VV v_p11));
      SVec v_p01 (VOp2 (Add16) (VV v_p01) (VV v_coeff2));
      SVec v_M8 (VOp1 (Srl16 2) (VV v_p01));
      SVec v_M1 (VOp2 (Pack16) (VV v_M1) (VV v_M3));
      SVec v_M5 (VOp2 (Pack16) (VV v_M5) (VV v_M7));
      SVec v_M1 (VOp2 (Shuf8) (VV v_M1) (VV v_shuffle));
      SVec v_M5 (VOp2 (Shuf8) (VV v_M5) (VV v_shuffle));
      SVec v_M2 (VOp2 (Pack16) (VV v_M2) (VV v_M4));
      SVec v_M6 (VOp2 (Pack16) (VV v_M6) (VV v_M8));
      SVec v_M2 (VOp2 (Shuf8) (VV v_M2) (VV v_shuffle));
      SVec v_M6 (VOp2 (Shuf8) (VV v_M6) (VV v_shuffle));
      SVec v_M3 (VOp2 (UnpL 2) (VV v_M1) (VV v_M5));
      SVec v_M7 (VOp2 (UnpH 2) (VV v_M1) (VV v_M5));
      SVec v_M4 (VOp2 (UnpL 2) (VV v_M2) (VV v_M6));
      SVec v_M8 (VOp2 (UnpH 2) (VV v_M2) (VV v_M6));
      SStore 16 (PAdd (PV v_first_line (IC 0)) (IV v_i)) (VV v_M4);
      SStore 16 (PAdd (PV v_first_line (IC 0)) (IAdd (IC 16) (IV v_i))) (VV v_M8);
      SStore 16 (PAdd (PV v_first_line (IC 0)) (IAdd (IC 32) (IV v_i))) (VV v_M3);
      SStore 16 (PAdd (PV v_first_line (IC 0)) (IAdd (IC 48) (IV v_i))) (VV v_M7);
      SInt v_i (IAdd (IV v_i) (IC 64));
      SPtr v_src (IC 0) (PAdd (PV v_src (IC 0)) (ISub (IC 0) (IC 16)))];
    SIf (ILt (IV v_i) (IV v_line_size)) [
      SVec v_S0 (VLoad 16 0 (PV v_src (IC 0)));
      SVec v_S3 (VLoad 16 0 (PAdd (PV v_src (IC 0)) (ISub (IC 0) (IC 3))));
      SVec v_S1 (VLoad 16 0 (PAdd (PV v_src (IC 0)) (ISub (IC 0) (IC 1))));
      SVec v_S2 (VLoad 16 0 (PAdd (PV v_src (IC 0)) (ISub (IC 0) (IC 2))));
      SVec v_H0 (VOp2 (UnpH 1) (VV v_S0) (VV v_zero));
      SVec v_H1 (VOp2 (UnpH 1) (VV v_S1) (VV v_zero));
      SVec v_H2 (VOp2 (UnpH 1) (VV v_S2) (VV v_zero));
      SVec v_H3 (VOp2 (UnpH 1) (VV v_S3) (VV v_zero));
      SVec v_p01 (VOp2 (Mul16) (VV v_H0) (VV v_coeff3));
      SVec v_p11 (VOp2 (Mul16) (VV v_H1) (VV v_coeff7));
      SVec v_p21 (VOp2 (Mul16) (VV v_H2) (VV v_coeff5));
      SVec v_p31 (VOp2 (Add16) (VV v_H3) (VV v_coeff8));
      SVec v_p01 (VOp2 (Add16) (VV v_p01) (VV v_p31));
      SVec v_p01 (VOp2 (Add16) (VV v_p01) (VV v_p11));
      SVec v_p01 (VOp2 (Add16) (VV v_p01) (VV v_p21));
      SVec v_M2 (VOp1 (Srl16 4) (VV v_p01));
      SVec v_p01 (VOp2 (Add16) (VV v_H1) (VV v_H2));
      SVec v_p01 (VOp2 (Mul16) (VV v_p01) (VV v_coeff3));
      SVec v_p11 (VOp2 (Add16) (VV v_H0) (VV v_H3));
      SVec v_p11 (VOp2 (Add16) (VV v_p11) (VV v_coeff4));
      SVec v_p01 (VOp2 (Add16) (VV v_p11) (VV v_p01));
      SVec v_M4 (VOp1 (Srl16 3) (VV v_p01));
      SVec v_p11 (VOp2 (Mul16) (VV v_H1) (VV v_coeff5));
      SVec v_p21 (VOp2 (Mul16) (VV v_H2) (VV v_coeff7));
      SVec v_p31 (VOp2 (Mul16) (VV v_H3) (VV v_coeff3));
      SVec v_p01 (VOp2 (Add16) (VV v_H0) (VV v_coeff8));
      SVec v_p01 (VOp2 (Add16) (VV v_p01) (VV v_p11));
      SVec v_p01 (VOp2 (Add16) (VV v_p01) (VV v_p21));
      SVec v_p01 (VOp2 (Add16) (VV v_p01) (VV v_p31));
      SVec v_M6 (VOp1 (Srl16 4) (VV v_p01));
      SVec v_p01 (VOp2 (Add16) (VV v_H1) (VV v_H2));
      SVec v_p11 (VOp2 (Add16) (VV v_H2) (VV v_H3));
      SVec v_p01 (VOp2 (Add16) (VV v_p01) (VV v_p11));
      SVec v_p01 (VOp2 (Add16) (VV v_p01) (VV v_coeff2));
      SVec v_M8 (VOp1 (Srl16 2) (VV v_p01));
      SVec v_M2 (VOp2 (Pack16) (VV v_M2) (VV v_M4));
      SVec v_M6 (VOp2 (Pack16) (VV v_M6) (VV v_M8));
      SVec v_M2 (VOp2 (Shuf8) (VV v_M2) (VV v_shuffle));
      SVec v_M6 (VOp2 (Shuf8) (VV v_M6) (VV v_shuffle));
      SVec v_M4 (VOp2 (UnpL 2) (VV v_M2) (VV v_M6));
      SVec v_M8 (VOp2 (UnpH 2) (VV v_M2) (VV v_M6));
      SStore 16 (PAdd (PV v_first_line (IC 0)) (IV v_i)) (VV v_M4);
      SStore 16 (PAdd (PV v_first_line (IC 0)) (IAdd (IC 16) (IV v_i))) (VV v_M8)] [];
    SIf (IEq (IV v_bsx) (IC 4)) [
      SInt v_i (IC 0);
      SLoop (ILt (IV v_i) (IV v_iHeight4)) [
        SCopy (IC 4) (PV v_dst (IC 0)) (PAdd (PV v_first_line (IC 0)) (IV v_i));
        SPtr v_dst (IC 0) (PAdd (PV v_dst (IC 0)) (IV v_i_dst));
        SInt v_i (IAdd (IV v_i) (IC 4))]] [
      SIf (IEq (IV v_bsx) (IC 8)) [
        SInt v_i (IC 0);
        SLoop (ILt (IV v_i) (IV v_iHeight4)) [
          SCopy (IC 8) (PV v_dst (IC 0)) (PAdd (PV v_first_line (IC 0)) (IV v_i));
          SPtr v_dst (IC 0) (PAdd (PV v_dst (IC 0)) (IV v_i_dst));
          SInt v_i (IAdd (IV v_i) (IC 4))]] [
        SInt v_i (IC 0);
        SLoop (ILt (IV v_i) (IV v_iHeight4)) [
          SCopy (IV v_bsx) (PV v_dst (IC 0)) (PAdd (PV v_first_line (IC 0)) (IV v_i));
          SPtr v_dst (IC 0) (PAdd (PV v_dst (IC 0)) (IV v_i_dst));
          SInt v_i (IAdd (IV v_i) (IC 4))]]]] [
    SVec v_zero (VConst [0;0;0;0;0;0;0;0;0;0;0;0;0;0;0;0]);
    SVec v_coeff2 (VSet1 2 8 (XC 2));
    SVec v_coeff3 (VSet1 2 8 (XC 3));
    SVec v_coeff4 (VSet1 2 8 (XC 4));
    SVec v_coeff5 (VSet1 2 8 (XC 5));
    SVec v_coeff7 (VSet1 2 8 (XC 7));
    SVec v_coeff8 (VSet1 2 8 (XC 8));
    SVec v_shuffle (VConst [7;15;6;14;5;13;4;12;3;11;2;10;1;9;0;8]);
    SPtr v_src (IC 0) (PAdd (PV v_src (IC 0)) (ISub (IC 0) (IC 15)));
    SIf (IEq (IV v_bsy) (IC 4)) [
      SVec v_S0 (VLoad 16 0 (PV v_src (IC 0)));
      SVec v_S3 (VLoad 16 0 (PAdd (PV v_src (IC 0)) (ISub (IC 0) (IC 3))));
      SVec v_S1 (VLoad 16 0 (PAdd (PV v_src (IC 0)) (ISub (IC 0) (IC 1))));
      SVec v_S2 (VLoad 16 0 (PAdd (PV v_src (IC 0)) (ISub (IC 0) (IC 2))));
      SVec v_H0 (VOp2 (UnpH 1) (VV v_S0) (VV v_zero));
      SVec v_H1 (VOp2 (UnpH 1) (VV v_S1) (VV v_zero));
      SVec v_H2 (VOp2 (UnpH 1) (VV v_S2) (VV v_zero));
      SVec v_H3 (VOp2 (UnpH 1) (VV v_S3) (VV v_zero));
      SVec v_p01 (VOp2 (Mul16) (VV v_H0) (VV v_coeff3));
      SVec v_p11 (VOp2 (Mul16) (VV v_H1) (VV v_coeff7));
      SVec v_p21 (VOp2 (Mul16) (VV v_H2) (VV v_coeff5));
      SVec v_p31 (VOp2 (Add16) (VV v_H3) (VV v_coeff8));
      SVec v_p01 (VOp2 (Add16) (VV v_p01) (VV v_p31));
      SVec v_p01 (VOp2 (Add16) (VV v_p01) (VV v_p11));
      SVec v_p01 (VOp2 (Add16) (VV v_p01) (VV v_p21));
      SVec v_M2 (VOp1 (Srl16 4) (VV v_p01));
      SVec v_p01 (VOp2 (Add16) (VV v_H1) (VV v_H2));
      SVec v_p01 (VOp2 (Mul16) (VV v_p01) (VV v_coeff3));
      SVec v_p11 (VOp2 (Add16) (VV v_H0) (VV v_H3));
      SVec v_p11 (VOp2 (Add16) (VV v_p11) (VV v_coeff4));
      SVec v_p01 (VOp2 (Add16) (VV v_p11) (VV v_p01));
      SVec v_M4 (VOp1 (Srl16 3) (VV v_p01));
      SVec v_p11 (VOp2 (Mul16) (VV v_H1) (VV v_coeff5));
      SVec v_p21 (VOp2 (Mul16) (VV v_H2) (VV v_coeff7));
      SVec v_p31 (VOp2 (Mul16) (VV v_H3) (VV v_coeff3));
      SVec v_p01 (VOp2 (Add16) (VV v_H0) (VV v_coeff8));
      SVec v_p01 (VOp2 (Add16) (VV v_p01) (VV v_p11));
      SVec v_p01 (VOp2 (Add16) (VV v_p01) (VV v_p21));
      SVec v_p01 (VOp2 (Add16) (VV v_p01) (VV v_p31));
      SVec v_M6 (VOp1 (Srl16 4) (VV v_p01));
      SVec v_p01 (VOp2 (Add16) (VV v_H1) (VV v_H2));
      SVec v_p11 (VOp2 (Add16) (VV v_H2) (VV v_H3));
      SVec v_p01 (VOp2 (Add16) (VV v_p01) (VV v_p11));
      SVec v_p01 (VOp2 (Add16) (VV v_p01) (VV v_coeff2));
      SVec v_M8 (VOp1 (Srl16 2) (VV v_p01));
      SVec v_M2 (VOp2 (Pack16) (VV v_M2) (VV v_M4));
      SVec v_M6 (VOp2 (Pack16) (VV v_M6) (VV v_M8));
      SVec v_M2 (VOp2 (Shuf8) (VV v_M2) (VV v_shuffle));
      SVec v_M6 (VOp2 (Shuf8) (VV v_M6) (VV v_shuffle));
      SVec v_M4 (VOp2 (UnpL 2) (VV v_M2) (VV v_M6));
      SStore 4 (PV v_dst (IC 0)) (VV v_M4);
      SPtr v_dst (IC 0) (PAdd (PV v_dst (IC 0)) (IV v_i_dst));
      SVec v_M4 (VOp1 (SrlB 4) (VV v_M4));
      SStore 4 (PV v_dst (IC 0)) (VV v_M4);
      SPtr v_dst (IC 0) (PAdd (PV v_dst (IC 0)) (IV v_i_dst));
      SVec v_M4 (VOp1 (SrlB 4) (VV v_M4));
      SStore 4 (PV v_dst (IC 0)) (VV v_M4);
      SPtr v_dst (IC 0) (PAdd (PV v_dst (IC 0)) (IV v_i_dst));
      SVec v_M4 (VOp1 (SrlB 4) (VV v_M4));
      SStore 4 (PV v_dst (IC 0)) (VV v_M4)] [
      SVec v_S0 (VLoad 16 0 (PV v_src (IC 0)));
      SVec v_S3 (VLoad 16 0 (PAdd (PV v_src (IC 0)) (ISub (IC 0) (IC 3))));
      SVec v_S1 (VLoad 16 0 (PAdd (PV v_src (IC 0)) (ISub (IC 0) (IC 1))));
      SVec v_S2 (VLoad 16 0 (PAdd (PV v_src (IC 0)) (ISub (IC 0) (IC 2))));
      SVec v_L0 (VOp2 (UnpL 1) (VV v_S0) (VV v_zero));
      SVec v_L1 (VOp2 (UnpL 1) (VV v_S1) (VV v_zero));
      SVec v_L2 (VOp2 (UnpL 1) (VV v_S2) (VV v_zero));
      SVec v_L3 (VOp2 (UnpL 1) (VV v_S3) (VV v_zero));
      SVec v_H0 (VOp2 (UnpH 1) (VV v_S0) (VV v_zero));
      SVec v_H1 (VOp2 (UnpH 1) (VV v_S1) (VV v_zero));
      SVec v_H2 (VOp2 (UnpH 1) (VV v_S2) (VV v_zero));
      SVec v_H3 (VOp2 (UnpH 1) (VV v_S3) (VV v_zero));
      SVec v_p00 (VOp2 (Mul16) (VV v_L0) (VV v_coeff3));
      SVec v_p10 (VOp2 (Mul16) (VV v_L1) (VV v_coeff7));
      SVec v_p20 (VOp2 (Mul16) (VV v_L2) (VV v_coeff5));
      SVec v_p30 (VOp2 (Add16) (VV v_L3) (VV v_coeff8));
      SVec v_p00 (VOp2 (Add16) (VV v_p00) (VV v_p30));
      SVec v_p00 (VOp2 (Add16) (VV v_p00) (VV v_p10));
      SVec v_p00 (VOp2 (Add16) (VV v_p00) (VV v_p20));
      SVec v_M1 (VOp1 (Srl16 4) (VV v_p00));
      SVec v_p01 (VOp2 (Mul16) (VV v_H0) (VV v_coeff3));
      SVec v_p11 (VOp2 (Mul16) (VV v_H1) (VV v_coeff7));
      SVec v_p21 (VOp2 (Mul16) (VV v_H2) (VV v_coeff5));
      SVec v_p31 (VOp2 (Add16) (VV v_H3) (VV v_coeff8));
      SVec v_p01 (VOp2 (Add16) (VV v_p01) (VV v_p31));
      SVec v_p01 (VOp2 (Add16) (VV v_p01) (VV v_p11));
      SVec v_p01 (VOp2 (Add16) (VV v_p01) (VV v_p21));
      SVec v_M2 (VOp1 (Srl16 4) (VV v_p01));
      SVec v_p00 (VOp2 (Add16) (VV v_L1) (VV v_L2));
      SVec v_p00 (VOp2 (Mul16) (VV v_p00) (VV v_coeff3));
      SVec v_p10 (VOp2 (Add16) (VV v_L0) (VV v_L3));
      SVec v_p10 (VOp2 (Add16) (VV v_p10) (VV v_coeff4));
      SVec v_p00 (VOp2 (Add16) (VV v_p10) (VV v_p00));
      SVec v_M3 (VOp1 (Srl16 3) (VV v_p00));
      SVec v_p01 (VOp2 (Add16) (VV v_H1) (VV v_H2));
      SVec v_p01 (VOp2 (Mul16) (VV v_p01) (VV v_coeff3));
      SVec v_p11 (VOp2 (Add16) (VV v_H0) (VV v_H3));
      SVec v_p11 (VOp2 (Add16) (VV v_p11) (VV v_coeff4));
      SVec v_p01 (VOp2 (Add16) (VV v_p11) (VV v_p01));
      SVec v_M4 (VOp1 (Srl16 3) (VV v_p01));
      SVec v_p10 (VOp2 (Mul16) (VV v_L1) (VV v_coeff5));
      SVec v_p20 (VOp2 (Mul16) (VV v_L2) (VV v_coeff7));
      SVec v_p30 (VOp2 (Mul16) (VV v_L3) (VV v_coeff3));
      SVec v_p00 (VOp2 (Add16) (VV v_L0) (VV v_coeff8));
      SVec v_p00 (VOp2 (Add16) (VV v_p00) (VV v_p10));
      SVec v_p00 (VOp2 (Add16) (VV v_p00) (VV v_p20));
      SVec v_p00 (VOp2 (Add16) (VV v_p00) (VV v_p30));
      SVec v_M5 (VOp1 (Srl16 4) (VV v_p00));
      SVec v_p11 (VOp2 (Mul16) (VV v_H1) (VV v_coeff5));
      SVec v_p21 (VOp2 (Mul16) (VV v_H2) (VV v_coeff7));
      SVec v_p31 (VOp2 (Mul16) (VV v_H3) (VV v_coeff3));
      SVec v_p01 (VOp2 (Add16) (VV v_H0) (VV v_coeff8));
      SVec v_p01 (VOp2 (Add16) (VV v_p01) (VV v_p11));
      SVec v_p01 (VOp2 (Add16) (VV v_p01) (VV v_p21));
      SVec v_p01 (VOp2 (Add16) (VV v_p01) (VV v_p31));
      SVec v_M6 (VOp1 (Srl16 4) (VV v_p01));
      SVec v_p00 (VOp2 (Add16) (VV v_L1) (VV v_L2));
      SVec v_p10 (VOp2 (Add16) (VV v_L2) (VV v_L3));
      SVec v_p00 (VOp2 (Add16) (VV v_p00) (VV v_p10));
      SVec v_p00 (VOp2 (Add16) (VV v_p00) (VV v_coeff2));
      SVec v_M7 (VOp1 (Srl16 2) (VV v_p00));
      SVec v_p01 (VOp2 (Add16) (VV v_H1) (VV v_H2));
      SVec v_p11 (VOp2 (Add16) (VV v_H2) (VV v_H3));
      SVec v_p01 (VOp2 (Add16) (VV v_p01) (VV v_p11));
      SVec v_p01 (VOp2 (Add16) (VV v_p01) (VV v_coeff2));
      SVec v_M8 (VOp1 (Srl16 2) (VV v_p01));
      SVec v_M1 (VOp2 (Pack16) (VV v_M1) (VV v_M3));
      SVec v_M5 (VOp2 (Pack16) (VV v_M5) (VV v_M7));
      SVec v_M1 (VOp2 (Shuf8) (VV v_M1) (VV v_shuffle));
      SVec v_M5 (VOp2 (Shuf8) (VV v_M5) (VV v_shuffle));
      SVec v_M2 (VOp2 (Pack16) (VV v_M2) (VV v_M4));
      SVec v_M6 (VOp2 (Pack16) (VV v_M6) (VV v_M8));
      SVec v_M2 (VOp2 (Shuf8) (VV v_M2) (VV v_shuffle));
      SVec v_M6 (VOp2 (Shuf8) (VV v_M6) (VV v_shuffle));
      SVec v_M3 (VOp2 (UnpL 2) (VV v_M1) (VV v_M5));
      SVec v_M7 (VOp2 (UnpH 2) (VV v_M1) (VV v_M5));
      SVec v_M4 (VOp2 (UnpL 2) (VV v_M2) (VV v_M6));
      SVec v_M8 (VOp2 (UnpH 2) (VV v_M2) (VV v_M6));
      SStore 4 (PV v_dst (IC 0)) (VV v_M4);
      SPtr v_dst (IC 0) (PAdd (PV v_dst (IC 0)) (IV v_i_dst));
      SVec v_M4 (VOp1 (SrlB 4) (VV v_M4));
      SStore 4 (PV v_dst (IC 0)) (VV v_M4);
      SPtr v_dst (IC 0) (PAdd (PV v_dst (IC 0)) (IV v_i_dst));
      SVec v_M4 (VOp1 (SrlB 4) (VV v_M4));
      SStore 4 (PV v_dst (IC 0)) (VV v_M4);
      SPtr v_dst (IC 0) (PAdd (PV v_dst (IC 0)) (IV v_i_dst));
      SVec v_M4 (VOp1 (SrlB 4) (VV v_M4));
      SStore 4 (PV v_dst (IC 0)) (VV v_M4);
      SPtr v_dst (IC 0) (PAdd (PV v_dst (IC 0)) (IV v_i_dst));
      SStore 4 (PV v_dst (IC 0)) (VV v_M8);
      SPtr v_dst (IC 0) (PAdd (PV v_dst (IC 0)) (IV v_i_dst));
      SVec v_M8 (VOp1 (SrlB 4) (VV v_M8));
      SStore 4 (PV v_dst (IC 0)) (VV v_M8);
      SPtr v_dst (IC 0) (PAdd (PV v_dst (IC 0)) (IV v_i_dst));
      SVec v_M8 (VOp1 (SrlB 4) (VV v_M8));
      SStore 4 (PV v_dst (IC 0)) (VV v_M8);
      SPtr v_dst (IC 0) (PAdd (PV v_dst (IC 0)) (IV v_i_dst));
      SVec v_M8 (VOp1 (SrlB 4) (VV v_M8));
      SStore 4 (PV v_dst (IC 0)) (VV v_M8);
      SPtr v_dst (IC 0) (PAdd (PV v_dst (IC 0)) (IV v_i_dst));
      SStore 4 (PV v_dst (IC 0)) (VV v_M3);
      SPtr v_dst (IC 0) (PAdd (PV v_dst (IC 0)) (IV v_i_dst));
      SVec v_M3 (VOp1 (SrlB 4) (VV v_M3));
      SStore 4 (PV v_dst (IC 0)) (VV v_M3);
      SPtr v_dst (IC 0) (PAdd (PV v_dst (IC 0)) (IV v_i_dst));
      SVec v_M3 (VOp1 (SrlB 4) (VV v_M3));
      SStore 4 (PV v_dst (IC 0)) (VV v_M3);
      SPtr v_dst (IC 0) (PAdd (PV v_dst (IC 0)) (IV v_i_dst));
      SVec v_M3 (VOp1 (SrlB 4) (VV v_M3));
      SStore 4 (PV v_dst (IC 0)) (VV v_M3);
      SPtr v_dst (IC 0) (PAdd (PV v_dst (IC 0)) (IV v_i_dst));
      SStore 4 (PV v_dst (IC 0)) (VV v_M7);
      SPtr v_dst (IC 0) (PAdd (PV v_dst (IC 0)) (IV v_i_dst));
      SVec v_M7 (VOp1 (SrlB 4) (VV v_M7));
      SStore 4 (PV v_dst (IC 0)) (VV v_M7);
      SPtr v_dst (IC 0) (PAdd (PV v_dst (IC 0)) (IV v_i_dst));
      SVec v_M7 (VOp1 (SrlB 4) (VV v_M7));
      SStore 4 (PV v_dst (IC 0)) (VV v_M7);
      SPtr v_dst (IC 0) (PAdd (PV v_dst (IC 0)) (IV v_i_dst));
      SVec v_M7 (VOp1 (SrlB 4) (VV v_M7));
      SStore 4 (PV v_dst (IC 0)) (VV v_M7)]]].

(** vec/intrinsic_intra-pred.cc:4881-5045 [intra_pred_ang_y_28_sse128] *)
Definition k_ang_y_28_sse128 : list stm := [
  SArr v_first_line (IAdd (IC 64) (IC 128));
  SInt v_line_size (IAdd (IV v_bsx) (IMul (ISub (IV v_bsy) (IC 1)) (IC 2)));
  SInt v_iHeight2 (IShl (IV v_bsy) (IC 1));
  SVec v_coeff2 (VSet1 2 8 (XC 2));
  SVec v_coeff3 (VSet1 2 8 (XC 3));
  SVec v_coeff4 (VSet1 2 8 (XC 4));
  SVec v_shuffle (VConst [7;15;6;14;5;13;4;12;3;11;2;10;1;9;0;8]);
  SVec v_zero (VConst [0;0;0;0;0;0;0;0;0;0;0;0;0;0;0;0]);
  SPtr v_src (IC 0) (PAdd (PV v_src (IC 0)) (ISub (IC 0) (IC 15)));
  SInt v_i (IC 0);
  SLoop (ILt (IV v_i) (ISub (IV v_line_size) (IC 16))) [
    SVec v_S0 (VLoad 16 0 (PV v_src (IC 0)));
    SVec v_S3 (VLoad 16 0 (PAdd (PV v_src (IC 0)) (ISub (IC 0) (IC 3))));
    SVec v_S1 (VLoad 16 0 (PAdd (PV v_src (IC 0)) (ISub (IC 0) (IC 1))));
    SVec v_S2 (VLoad 16 0 (PAdd (PV v_src (IC 0)) (ISub (IC 0) (IC 2))));
    SVec v_L0 (VOp2 (UnpL 1) (VV v_S0) (VV v_zero));
    SVec v_L1 (VOp2 (UnpL 1) (VV v_S1) (VV v_zero));
    SVec v_L2 (VOp2 (UnpL 1) (VV v_S2) (VV v_zero));
    SVec v_L3 (VOp2 (UnpL 1) (VV v_S3) (VV v_zero));
    SVec v_H0 (VOp2 (UnpH 1) (VV v_S0) (VV v_zero));
    SVec v_H1 (VOp2 (UnpH 1) (VV v_S1) (VV v_zero));
    SVec v_H2 (VOp2 (UnpH 1) (VV v_S2) (VV v_zero));
    SVec v_H3 (VOp2 (UnpH 1) (VV v_S3) (VV v_zero));
    SVec v_p00 (VOp2 (Adds16) (VV v_L1) (VV v_L2));
    SVec v_p01 (VOp2 (Add16) (VV v_L1) (VV v_L2));
    SVec v_p00 (VOp2 (Mul16) (VV v_p00) (VV v_coeff3));
    SVec v_p10 (VOp2 (Adds16) (VV v_L0) (VV v_L3));
    SVec v_p11 (VOp2 (Add16) (VV v_L2) (VV v_L3));
    SVec v_p10 (VOp2 (Adds16) (VV v_p10) (VV v_coeff4));
    SVec v_p00 (VOp2 (Adds16) (VV v_p00) (VV v_p10));
    SVec v_p01 (VOp2 (Add16) (VV v_p01) (VV v_p11));
    SVec v_p01 (VOp2 (Add16) (VV v_p01) (VV v_coeff2));
    SVec v_p00 (VOp1 (Srl16 3) (VV v_p00));
    SVec v_p01 (VOp1 (Srl16 2) (VV v_p01));
    SVec v_p00 (VOp2 (Pack16) (VV v_p00) (VV v_p01));
    SVec v_p00 (VOp2 (Shuf8) (VV v_p00) (VV v_shuffle));
    SStore 16 (PAdd (PV v_first_line (IC 0)) (IAdd (IV v_i) (IC 16))) (VV v_p00);
    SVec v_p00 (VOp2 (Adds16) (VV v_H1) (VV v_H2));
    SVec v_p01 (VOp2 (Add16) (VV v_H1) (VV v_H2));
    SVec v_p00 (VOp2 (Mul16) (VV v_p00) (VV v_coeff3));
    SVec v_p10 (VOp2 (Adds16) (VV v_H0) (VV v_H3));
    SVec v_p11 (VOp2 (Add16) (VV v_H2) (VV v_H3));
    SVec v_p10 (VOp2 (Adds16) (VV v_p10) (VV v_coeff4));
    SVec v_p00 (VOp2 (Adds16) (VV v_p00) (VV v_p10));
    SVec v_p01 (VOp2 (Add16) (VV v_p01) (VV v_p11));
    SVec v_p01 (VOp2 (Add16) (VV v_p01) (VV v_coeff2));
    SVec v_p00 (VOp1 (Srl16 3) (VV v_p00));
    SVec v_p01 (VOp1 (Srl16 2) (VV v_p01));
    SVec v_p00 (VOp2 (Pack16) (VV v_p00) (VV v_p01));
    SVec v_p00 (VOp2 (Shuf8) (VV v_p00) (VV v_shuffle));
    SStore 16 (PAdd (PV v_first_line (IC 0)) (IV v_i)) (VV v_p00);
    SInt v_i (IAdd (IV v_i) (IC 32));
    SPtr v_src (IC 0) (PAdd (PV v_src (IC 0)) (ISub (IC 0) (IC 16)))];
  SIf (ILt (IV v_i) (IV v_line_size)) [
    SVec v_S0 (VLoad 16 0 (PV v_src (IC 0)));
    SVec v_S3 (VLoad 16 0 (PAdd (PV v_src (IC 0)) (ISub (IC 0) (IC 3))));
    SVec v_S1 (VLoad 16 0 (PAdd (PV v_src (IC 0)) (ISub (IC 0) (IC 1))));
    SVec v_S2 (VLoad 16 0 (PAdd (PV v_src (IC 0)) (ISub (IC 0) (IC 2))));
    SVec v_H0 (VOp2 (UnpH 1) (VV v_S0) (VV v_zero));
    SVec v_H1 (VOp2 (UnpH 1) (VV v_S1) (VV v_zero));
    SVec v_H2 (VOp2 (UnpH 1) (VV v_S2) (VV v_zero));
    SVec v_H3 (VOp2 (UnpH 1) (VV v_S3) (VV v_zero));
    SVec v_p00 (VOp2 (Adds16) (VV v_H1) (VV v_H2));
    SVec v_p01 (VOp2 (Add16) (VV v_H1) (VV v_H2));
    SVec v_p00 (VOp2 (Mul16) (VV v_p00) (VV v_coeff3));
    SVec v_p10 (VOp2 (Adds16) (VV v_H0) (VV v_H3));
    SVec v_p11 (VOp2 (Add16) (VV v_H2) (VV v_H3));
    SVec v_p10 (VOp2 (Adds16) (VV v_p10) (VV v_coeff4));
    SVec v_p00 (VOp2 (Adds16) (VV v_p00) (VV v_p10));
    SVec v_p01 (VOp2 (Add16) (VV v_p01) (VV v_p11));
    SVec v_p01 (VOp2 (Add16) (VV v_p01) (VV v_coeff2));
    SVec v_p00 (VOp1 (Srl16 3) (VV v_p00));
    SVec v_p01 (VOp1 (Srl16 2) (VV v_p01));
    SVec v_p00 (VOp2 (Pack16) (VV v_p00) (VV v_p01));
    SVec v_p00 (VOp2 (Shuf8) (VV v_p00) (VV v_shuffle));
    SStore 16 (PAdd (PV v_first_line (IC 0)) (IV v_i)) (VV v_p00)] [];
  SIf (ILe (IC 16) (IV v_bsx)) [
    SInt v_i (IC 0);
    SLoop (ILt (IV v_i) (IV v_iHeight2)) [
      SCopy (IV v_bsx) (PV v_dst (IC 0)) (PAdd (PV v_first_line (IC 0)) (IV v_i));
      SPtr v_dst (IC 0) (PAdd (PV v_dst (IC 0)) (IV v_i_dst));
      SInt v_i (IAdd (IV v_i) (IC 2))]] [
    SIf (IEq (IV v_bsx) (IC 8)) [
      SInt v_i (IC 0);
      SLoop (ILt (IV v_i) (IV v_iHeight2)) [
        SVec v_M (VLoad 16 0 (PAdd (PV v_first_line (IC 0)) (IV v_i)));
        SStore 8 (PV v_dst (IC 0)) (VV v_M);
        SPtr v_dst (IC 0) (PAdd (PV v_dst (IC 0)) (IV v_i_dst));
        SVec v_M (VOp1 (SrlB 2) (VV v_M));
        SStore 8 (PV v_dst (IC 0)) (VV v_M);
        SPtr v_dst (IC 0) (PAdd (PV v_dst (IC 0)) (IV v_i_dst));
        SVec v_M (VOp1 (SrlB 2) (VV v_M));
        SStore 8 (PV v_dst (IC 0)) (VV v_M);
        SPtr v_dst (IC 0) (PAdd (PV v_dst (IC 0)) (IV v_i_dst));
        SVec v_M (VOp1 (SrlB 2) (VV v_M));
        SStore 8 (PV v_dst (IC 0)) (VV v_M);
        SPtr v_dst (IC 0) (PAdd (PV v_dst (IC 0)) (IV v_i_dst));
        SInt v_i (IAdd (IV v_i) (IC 8))]] [
      SInt v_i (IC 0);
      SLoop (ILt (IV v_i) (IV v_iHeight2)) [
        SVec v_M (VLoad 16 0 (PAdd (PV v_first_line (IC 0)) (IV v_i)));
        SStore 4 (PV v_dst (IC 0)) (VV v_M);
        SPtr v_dst (IC 0) (PAdd (PV v_dst (IC 0)) (IV v_i_dst));
        SVec v_M (VOp1 (SrlB 2) (VV v_M));
        SStore 4 (PV v_dst (IC 0)) (VV v_M);
        SPtr v_dst (IC 0) (PAdd (PV v_dst (IC 0)) (IV v_i_dst));
        SVec v_M (VOp1 (SrlB 2) (VV v_M));
        SStore 4 (PV v_dst (IC 0)) (VV v_M);
        SPtr v_dst (IC 0) (PAdd (PV v_dst (IC 0)) (IV v_i_dst));
        SVec v_M (VOp1 (SrlB 2) (VV v_M));
        SStore 4 (PV v_dst (IC 0)) (VV v_M);
        SPtr v_dst (IC 0) (PAdd (PV v_dst (IC 0)) (IV v_i_dst));
        SInt v_i (IAdd (IV v_i) (IC 8))]]]].

(** vec/intrinsic_intra-pred.cc:5050-5302 [intra_pred_ang_y_30_sse128] *)
Definition k_ang_y_30_sse128 : list stm := [
  SArr v_first_line (IAdd (IC 64) (IC 64));
  SInt v_line_size (ISub (IAdd (IV v_bsx) (IV v_bsy)) (IC 1));
  SVec v_coeff2 (VSet1 2 8 (XC 2));
  SVec v_shuffle (VConst [15;14;13;12;11;10;9;8;7;6;5;4;3;2;1;0]);
  SVec v_zero (VConst [0;0;0;0;0;0;0;0;0;0;0;0;0;0;0;0]);
  SPtr v_src (IC 0) (PAdd (PV v_src (IC 0)) (ISub (IC 0) (IC 17)));
  SInt v_i (IC 0);
  SLoop (ILt (IV v_i) (ISub (IV v_line_size) (IC 8))) [
    SVec v_S0 (VLoad 16 0 (PAdd (PV v_src (IC 0)) (ISub (IC 0) (IC 1))));
    SVec v_S2 (VLoad 16 0 (PAdd (PV v_src (IC 0)) (IC 1)));
    SVec v_S1 (VLoad 16 0 (PV v_src (IC 0)));
    SVec v_L0 (VOp2 (UnpL 1) (VV v_S0) (VV v_zero));
    SVec v_L1 (VOp2 (UnpL 1) (VV v_S1) (VV v_zero));
    SVec v_L2 (VOp2 (UnpL 1) (VV v_S2) (VV v_zero));
    SVec v_H0 (VOp2 (UnpH 1) (VV v_S0) (VV v_zero));
    SVec v_H1 (VOp2 (UnpH 1) (VV v_S1) (VV v_zero));
    SVec v_H2 (VOp2 (UnpH 1) (VV v_S2) (VV v_zero));
    SVec v_p00 (VOp2 (Add16) (VV v_L0) (VV v_L1));
    SVec v_p10 (VOp2 (Add16) (VV v_L1) (VV v_L2));
    SVec v_p01 (VOp2 (Add16) (VV v_H0) (VV v_H1));
    SVec v_p11 (VOp2 (Add16) (VV v_H1) (VV v_H2));
    SVec v_p00 (VOp2 (Add16) (VV v_p00) (VV v_p10));
    SVec v_p01 (VOp2 (Add16) (VV v_p01) (VV v_p11));
    SVec v_p00 (VOp2 (Add16) (VV v_p00) (VV v_coeff2));
    SVec v_p01 (VOp2 (Add16) (VV v_p01) (VV v_coeff2));
    SVec v_p00 (VOp1 (Srl16 2) (VV v_p00));
    SVec v_p01 (VOp1 (Srl16 2) (VV v_p01));
    SVec v_p00 (VOp2 (Pack16) (VV v_p00) (VV v_p01));
    SVec v_p00 (VOp2 (Shuf8) (VV v_p00) (VV v_shuffle));
    SStore 16 (PAdd (PV v_first_line (IC 0)) (IV v_i)) (VV v_p00);
    SInt v_i (IAdd (IV v_i) (IC 16));
    SPtr v_src (IC 0) (PAdd (PV v_src (IC 0)) (ISub (IC 0) (IC 16)))];
  SIf (ILt (IV v_i) (IV v_line_size)) [
    SVec v_S0 (VLoad 16 0 (PAdd (PV v_src (IC 0)) (ISub (IC 0) (IC 1))));
    SVec v_S2 (VLoad 16 0 (PAdd (PV v_src (IC 0)) (IC 1)));
    SVec v_S1 (VLoad 16 0 (PV v_src (IC 0)));
    SVec v_H0 (VOp2 (UnpH 1) (VV v_S0) (VV v_zero));
    SVec v_H1 (VOp2 (UnpH 1) (VV v_S1) (VV v_zero));
    SVec v_H2 (VOp2 (UnpH 1) (VV v_S2) (VV v_zero));
    SVec v_p01 (VOp2 (Add16) (VV v_H0) (VV v_H1));
    SVec v_p11 (VOp2 (Add16) (VV v_H1) (VV v_H2));
    SVec v_p01 (VOp2 (Add16) (VV v_p01) (VV v_p11));
    SVec v_p01 (VOp2 (Add16) (VV v_p01) (VV v_coeff2));
    SVec v_p01 (VOp1 (Srl16 2) (VV v_p01));
    SVec v_p01 (VOp2 (Pack16) (VV v_p01) (VV v_p01));
    SVec v_p01 (VOp2 (Shuf8) (VV v_p01) (VV v_shuffle));
    SStore 16 (PAdd (PV v_first_line (IC 0)) (IV v_i)) (VV v_p01)] [];
  SIf (ILt (IC 16) (IV v_bsx)) [
    SInt v_i (IC 0);
    SLoop (ILt (IV v_i) (IV v_bsy)) [
      SCopy (IV v_bsx) (PV v_dst (IC 0)) (PAdd (PV v_first_line (IC 0)) (IV v_i));
      SPtr v_dst (IC 0) (PAdd (PV v_dst (IC 0)) (IV v_i_dst));
      SInt v_i (IAdd (IV v_i) (IC 1))]] [
    SIf (IEq (IV v_bsx) (IC 16)) [
      SPtr v_dst1 (IC 0) (PV v_dst (IC 0));
      SIf (IEq (IV v_bsy) (IC 4)) [
        SVec v_M (VLoad 16 0 (PAdd (PV v_first_line (IC 0)) (IC 0)));
        SStore 8 (PV v_dst1 (IC 0)) (VV v_M);
        SPtr v_dst1 (IC 0) (PAdd (PV v_dst1 (IC 0)) (IV v_i_dst));
        SVec v_M (VOp1 (SrlB 1) (VV v_M));
        SStore 8 (PV v_dst1 (IC 0)) (VV v_M);
        SPtr v_dst1 (IC 0) (PAdd (PV v_dst1 (IC 0)) (IV v_i_dst));
        SVec v_M (VOp1 (SrlB 1) (VV v_M));
        SStore 8 (PV v_dst1 (IC 0)) (VV v_M);
        SPtr v_dst1 (IC 0) (PAdd (PV v_dst1 (IC 0)) (IV v_i_dst));
        SVec v_M (VOp1 (SrlB 1) (VV v_M));
        SStore 8 (PV v_dst1 (IC 0)) (VV v_M);
        SPtr v_dst1 (IC 0) (PAdd (PV v_dst (IC 0)) (IC 8));
        SVec v_M (VLoad 16 0 (PAdd (PV v_first_line (IC 0)) (IC 8)));
        SStore 8 (PV v_dst1 (IC 0)) (VV v_M);
        SPtr v_dst1 (IC 0) (PAdd (PV v_dst1 (IC 0)) (IV v_i_dst));
        SVec v_M (VOp1 (SrlB 1) (VV v_M));
        SStore 8 (PV v_dst1 (IC 0)) (VV v_M);
        SPtr v_dst1 (IC 0) (PAdd (PV v_dst1 (IC 0)) (IV v_i_dst));
        SVec v_M (VOp1 (SrlB 1) (VV v_M));
        SStore 8 (PV v_dst1 (IC 0)) (VV v_M);
        SPtr v_dst1 (IC 0) (PAdd (PV v_dst1 (IC 0)) (IV v_i_dst));
        SVec v_M (VOp1 (SrlB 1) (VV v_M));
        SStore 8 (PV v_dst1 (IC 0)) (VV v_M)] [
        SVec v_M (VLoad 16 0 (PAdd (PV v_first_line (IC 0)) (IC 0)));
        SStore 8 (PV v_dst1 (IC 0)) (VV v_M);
        SPtr v_dst1 (IC 0) (PAdd (PV v_dst1 (IC 0)) (IV v_i_dst));
        SVec v_M (VOp1 (SrlB 1) (VV v_M));
        SStore 8 (PV v_dst1 (IC 0)) (VV v_M);
        SPtr v_dst1 (IC 0) (PAdd (PV v_dst1 (IC 0)) (IV v_i_dst));
        SVec v_M (VOp1 (SrlB 1) (VV v_M));
        SStore 8 (PV v_dst1 (IC 0)) (VV v_M);
        SPtr v_dst1 (IC 0) (PAdd (PV v_dst1 (IC 0)) (IV v_i_dst));
        SVec v_M (VOp1 (SrlB 1) (VV v_M));
        SStore 8 (PV v_dst1 (IC 0)) (VV v_M);
        SPtr v_dst1 (IC 0) (PAdd (PV v_dst1 (IC 0)) (IV v_i_dst));
        SVec v_M (VOp1 (SrlB 1) (VV v_M));
        SStore 8 (PV v_dst1 (IC 0)) (VV v_M);
        SPtr v_dst1 (IC 0) (PAdd (PV v_dst1 (IC 0)) (IV v_i_dst));
        SVec v_M (VOp1 (SrlB 1) (VV v_M));
        SStore 8 (PV v_dst1 (IC 0)) (VV v_M);
        SPtr v_dst1 (IC 0) (PAdd (PV v_dst1 (IC 0)) (IV v_i_dst));
        SVec v_M (VOp1 (SrlB 1) (VV v_M));
        SStore 8 (PV v_dst1 (IC 0)) (VV v_M);
        SPtr v_dst1 (IC 0) (PAdd (PV v_dst1 (IC 0)) (IV v_i_dst));
        SVec v_M (VOp1 (SrlB 1) (VV v_M));
        SStore 8 (PV v_dst1 (IC 0)) (VV v_M);
        SPtr v_dst2 (IC 0) (PAdd (PV v_dst1 (IC 0)) (IV v_i_dst));
        SPtr v_dst1 (IC 0) (PAdd (PV v_dst (IC 0)) (IC 8));
        SVec v_M (VLoad 16 0 (PAdd (PV v_first_line (IC 0)) (IC 8)));
        SStore 8 (PV v_dst1 (IC 0)) (VV v_M);
        SStore 8 (PV v_dst2 (IC 0)) (VV v_M);
        SPtr v_dst1 (IC 0) (PAdd (PV v_dst1 (IC 0)) (IV v_i_dst));
        SPtr v_dst2 (IC 0) (PAdd (PV v_dst2 (IC 0)) (IV v_i_dst));
        SVec v_M (VOp1 (SrlB 1) (VV v_M));
        SStore 8 (PV v_dst1 (IC 0)) (VV v_M);
        SStore 8 (PV v_dst2 (IC 0)) (VV v_M);
        SPtr v_dst1 (IC 0) (PAdd (PV v_dst1 (IC 0)) (IV v_i_dst));
        SPtr v_dst2 (IC 0) (PAdd (PV v_dst2 (IC 0)) (IV v_i_dst));
        SVec v_M (VOp1 (SrlB 1) (VV v_M));
        SStore 8 (PV v_dst1 (IC 0)) (VV v_M);
        SStore 8 (PV v_dst2 (IC 0)) (VV v_M);
        SPtr v_dst1 (IC 0) (PAdd (PV v_dst1 (IC 0)) (IV v_i_dst));
        SPtr v_dst2 (IC 0) (PAdd (PV v_dst2 (IC 0)) (IV v_i_dst));
        SVec v_M (VOp1 (SrlB 1) (VV v_M));
        SStore 8 (PV v_dst1 (IC 0)) (VV v_M);
        SStore 8 (PV v_dst2 (IC 0)) (VV v_M);
        SPtr v_dst1 (IC 0) (PAdd (PV v_dst1 (IC 0)) (IV v_i_dst));
        SPtr v_dst2 (IC 0) (PAdd (PV v_dst2 (IC 0)) (IV v_i_dst));
        SVec v_M (VOp1 (SrlB 1) (VV v_M));
        SStore 8 (PV v_dst1 (IC 0)) (VV v_M);
        SStore 8 (PV v_dst2 (IC 0)) (VV v_M);
        SPtr v_dst1 (IC 0) (PAdd (PV v_dst1 (IC 0)) (IV v_i_dst));
        SPtr v_dst2 (IC 0) (PAdd (PV v_dst2 (IC 0)) (IV v_i_dst));
        SVec v_M (VOp1 (SrlB 1) (VV v_M));
        SStore 8 (PV v_dst1 (IC 0)) (VV v_M);
        SStore 8 (PV v_dst2 (IC 0)) (VV v_M);
        SPtr v_dst1 (IC 0) (PAdd (PV v_dst1 (IC 0)) (IV v_i_dst));
        SPtr v_dst2 (IC 0) (PAdd (PV v_dst2 (IC 0)) (IV v_i_dst));
        SVec v_M (VOp1 (SrlB 1) (VV v_M));
        SStore 8 (PV v_dst1 (IC 0)) (VV v_M);
        SStore 8 (PV v_dst2 (IC 0)) (VV v_M);
        SPtr v_dst1 (IC 0) (PAdd (PV v_dst1 (IC 0)) (IV v_i_dst));
        SPtr v_dst2 (IC 0) (PAdd (PV v_dst2 (IC 0)) (IV v_i_dst));
        SVec v_M (VOp1 (SrlB 1) (VV v_M));
        SStore 8 (PV v_dst1 (IC 0)) (VV v_M);
        SStore 8 (PV v_dst2 (IC 0)) (VV v_M);
        SPtr v_dst1 (IC 0) (PAdd (PV v_dst1 (IC 0)) (IV v_i_dst));
        SVec v_M (VLoad 16 0 (PAdd (PV v_first_line (IC 0)) (IC 16)));
        SStore 8 (PV v_dst1 (IC 0)) (VV v_M);
        SPtr v_dst1 (IC 0) (PAdd (PV v_dst1 (IC 0)) (IV v_i_dst));
        SVec v_M (VOp1 (SrlB 1) (VV v_M));
        SStore 8 (PV v_dst1 (IC 0)) (VV v_M);
        SPtr v_dst1 (IC 0) (PAdd (PV v_dst1 (IC 0)) (IV v_i_dst));
        SVec v_M (VOp1 (SrlB 1) (VV v_M));
        SStore 8 (PV v_dst1 (IC 0)) (VV v_M);
        SPtr v_dst1 (IC 0) (PAdd (PV v_dst1 (IC 0)) (IV v_i_dst));
        SVec v_M (VOp1 (SrlB 1) (VV v_M));
        SStore 8 (PV v_dst1 (IC 0)) (VV v_M);
        SPtr v_dst1 (IC 0) (PAdd (PV v_dst1 (IC 0)) (IV v_i_dst));
        SVec v_M (VOp1 (SrlB 1) (VV v_M));
        SStore 8 (PV v_dst1 (IC 0)) (VV v_M);
        SPtr v_dst1 (IC 0) (PAdd (PV v_dst1 (IC 0)) (IV v_i_dst));
        SVec v_M (VOp1 (SrlB 1) (VV v_M));
        SStore 8 (PV v_dst1 (IC 0)) (VV v_M);
        SPtr v_dst1 (IC 0) (PAdd (PV v_dst1 (IC 0)) (IV v_i_dst));
        SVec v_M (VOp1 (SrlB 1) (VV v_M));
        SStore 8 (PV v_dst1 (IC 0)) (VV v_M);
        SPtr v_dst1 (IC 0) (PAdd (PV v_dst1 (IC 0)) (IV v_i_dst));
        SVec v_M (VOp1 (SrlB 1) (VV v_M));
        SStore 8 (PV v_dst1 (IC 0)) (VV v_M)]] [
      SIf (IEq (IV v_bsx) (IC 8)) [
        SInt v_i (IC 0);
        SLoop (ILt (IV v_i) (IV v_bsy)) [
          SVec v_M (VLoad 16 0 (PAdd (PV v_first_line (IC 0)) (IV v_i)));
          SStore 8 (PV v_dst (IC 0)) (VV v_M);
          SPtr v_dst (IC 0) (PAdd (PV v_dst (IC 0)) (IV v_i_dst));
          SVec v_M (VOp1 (SrlB 1) (VV v_M));
          SStore 8 (PV v_dst (IC 0)) (VV v_M);
          SPtr v_dst (IC 0) (PAdd (PV v_dst (IC 0)) (IV v_i_dst));
          SVec v_M (VOp1 (SrlB 1) (VV v_M));
          SStore 8 (PV v_dst (IC 0)) (VV v_M);
          SPtr v_dst (IC 0) (PAdd (PV v_dst (IC 0)) (IV v_i_dst));
          SVec v_M (VOp1 (SrlB 1) (VV v_M));
          SStore 8 (PV v_dst (IC 0)) (VV v_M);
          SPtr v_dst (IC 0) (PAdd (PV v_dst (IC 0)) (IV v_i_dst));
          SVec v_M (VOp1 (SrlB 1) (VV v_M));
          SStore 8 (PV v_dst (IC 0)) (VV v_M);
          SPtr v_dst (IC 0) (PAdd (PV v_dst (IC 0)) (IV v_i_dst));
          SVec v_M (VOp1 (SrlB 1) (VV v_M));
          SStore 8 (PV v_dst (IC 0)) (VV v_M);
          SPtr v_dst (IC 0) (PAdd (PV v_dst (IC 0)) (IV v_i_dst));
          SVec v_M (VOp1 (SrlB 1) (VV v_M));
          SStore 8 (PV v_dst (IC 0)) (VV v_M);
          SPtr v_dst (IC 0) (PAdd (PV v_dst (IC 0)) (IV v_i_dst));
          SVec v_M (VOp1 (SrlB 1) (VV v_M));
          SStore 8 (PV v_dst (IC 0)) (VV v_M);
          SPtr v_dst (IC 0) (PAdd (PV v_dst (IC 0)) (IV v_i_dst));
          SInt v_i (IAdd (IV v_i) (IC 8))]] [
        SInt v_i (IC 0);
        SLoop (ILt (IV v_i) (IV v_bsy)) [
          SVec v_M (VLoad 16 0 (PAdd (PV v_first_line (IC 0)) (IV v_i)));
          SStore 4 (PV v_dst (IC 0)) (VV v_M);
          SPtr v_dst (IC 0) (PAdd (PV v_dst (IC 0)) (IV v_i_dst));
          SVec v_M (VOp1 (SrlB 1) (VV v_M));
          SStore 4 (PV v_dst (IC 0)) (VV v_M);
          SPtr v_dst (IC 0) (PAdd (PV v_dst (IC 0)) (IV v_i_dst));
          SVec v_M (VOp1 (SrlB 1) (VV v_M));
          SStore 4 (PV v_dst (IC 0)) (VV v_M);
          SPtr v_dst (IC 0) (PAdd (PV v_dst (IC 0)) (IV v_i_dst));
          SVec v_M (VOp1 (SrlB 1) (VV v_M));
          SStore 4 (PV v_dst (IC 0)) (VV v_M);
          SPtr v_dst (IC 0) (PAdd (PV v_dst (IC 0)) (IV v_i_dst));
          SInt v_i (IAdd (IV v_i) (IC 4))]]]]].

(** vec/intrinsic_intra-pred.cc:5307-5562 [intra_pred_ang_y_31_sse128] *)
Definition k_ang_y_31_sse128 : list stm := [
  SArr v_dst_tran (IMul (IC 64) (IC 80));
  SArr v_src_tran (IMul (IC 64) (IC 8));
  SInt v_i_dst2 (IAdd (IShl (IShr (IAdd (IV v_bsy) (IC 15)) (IC 4)) (IC 4)) (IC 16));
  SInt v_i (IC 0);
  SLoop (ILt (IV v_i) (IAdd (IAdd (IV v_bsy) (IDiv (IMul (IV v_bsx) (IC 11)) (IC 8))) (IC 3))) [
    SPut (PAdd (PV v_src_tran (IC 0)) (IV v_i)) (XLd (PAdd (PV v_src (IC 0)) (ISub (IC 0) (IV v_i))));
    SInt v_i (IAdd (IV v_i) (IC 1))];
  SCall k_ang_x_5_sse128 (PV v_src_tran (IC 0)) (PV v_dst_tran (IC 0)) (IV v_i_dst2) (IV v_bsy) (IV v_bsx);
  SIf (ILand (ILt (IC 4) (IV v_bsy)) (ILt (IC 4) (IV v_bsx))) [
    SInt v_iSize_x (IShr (IV v_bsx) (IC 3));
    SInt v_iSize_y (IShr (IV v_bsy) (IC 3));
    SInt v_iSize (IMul (IV v_iSize_x) (IV v_iSize_y));
    SInt v_y (IC 0);
    SLoop (ILt (IV v_y) (IV v_iSize_y)) [
      SInt v_x (IC 0);
      SLoop (ILt (IV v_x) (IV v_iSize_x)) [
        SPtr v_pDst_128 (IAdd (IV v_x) (IMul (IV v_y) (IV v_iSize_x))) (PAdd (PAdd (PV v_dst (IC 0)) (IMul (IV v_x) (IC 8))) (IMul (IMul (IV v_y) (IC 8)) (IV v_i_dst)));
        SPtr v_pTra_128 (IAdd (IV v_x) (IMul (IV v_y) (IV v_iSize_x))) (PAdd (PAdd (PV v_dst_tran (IC 0)) (IMul (IV v_y) (IC 8))) (IMul (IMul (IV v_x) (IC 8)) (IV v_i_dst2)));
        SInt v_x (IAdd (IV v_x) (IC 1))];
      SInt v_y (IAdd (IV v_y) (IC 1))];
    SInt v_i (IC 0);
    SLoop (ILt (IV v_i) (IV v_iSize)) [
      SPtr v_dst_tran_org (IC 0) (PV v_pTra_128 (IV v_i));
      SPtr v_dst1 (IC 0) (PV v_pDst_128 (IV v_i));
      SPtr v_dst2 (IC 0) (PAdd (PV v_dst1 (IC 0)) (IV v_i_dst));
      SPtr v_dst3 (IC 0) (PAdd (PV v_dst2 (IC 0)) (IV v_i_dst));
      SPtr v_dst4 (IC 0) (PAdd (PV v_dst3 (IC 0)) (IV v_i_dst));
      SPtr v_dst5 (IC 0) (PAdd (PV v_dst4 (IC 0)) (IV v_i_dst));
      SPtr v_dst6 (IC 0) (PAdd (PV v_dst5 (IC 0)) (IV v_i_dst));
      SPtr v_dst7 (IC 0) (PAdd (PV v_dst6 (IC 0)) (IV v_i_dst));
      SPtr v_dst8 (IC 0) (PAdd (PV v_dst7 (IC 0)) (IV v_i_dst));
      SVec v_Org_8_0 (VLoad 16 0 (PV v_dst_tran_org (IC 0)));
      SPtr v_dst_tran_org (IC 0) (PAdd (PV v_dst_tran_org (IC 0)) (IV v_i_dst2));
      SVec v_Org_8_1 (VLoad 16 0 (PV v_dst_tran_org (IC 0)));
      SPtr v_dst_tran_org (IC 0) (PAdd (PV v_dst_tran_org (IC 0)) (IV v_i_dst2));
      SVec v_Org_8_2 (VLoad 16 0 (PV v_dst_tran_org (IC 0)));
      SPtr v_dst_tran_org (IC 0) (PAdd (PV v_dst_tran_org (IC 0)) (IV v_i_dst2));
      SVec v_Org_8_3 (VLoad 16 0 (PV v_dst_tran_org (IC 0)));
      SPtr v_dst_tran_org (IC 0) (PAdd (PV v_dst_tran_org (IC 0)) (IV v_i_dst2));
      SVec v_Org_8_4 (VLoad 16 0 (PV v_dst_tran_org (IC 0)));
      SPtr v_dst_tran_org (IC 0) (PAdd (PV v_dst_tran_org (IC 0)) (IV v_i_dst2));
      SVec v_Org_8_5 (VLoad 16 0 (PV v_dst_tran_org (IC 0)));
      SPtr v_dst_tran_org (IC 0) (PAdd (PV v_dst_tran_org (IC 0)) (IV v_i_dst2));
      SVec v_Org_8_6 (VLoad 16 0 (PV v_dst_tran_org (IC 0)));
      SPtr v_dst_tran_org (IC 0) (PAdd (PV v_dst_tran_org (IC 0)) (IV v_i_dst2));
      SVec v_Org_8_7 (VLoad 16 0 (PV v_dst_tran_org (IC 0)));
      SPtr v_dst_tran_org (IC 0) (PAdd (PV v_dst_tran_org (IC 0)) (IV v_i_dst2));
      SVec v_p00 (VOp2 (UnpL 1) (VV v_Org_8_0) (VV v_Org_8_1));
      SVec v_p10 (VOp2 (UnpL 1) (VV v_Org_8_2) (VV v_Org_8_3));
      SVec v_p20 (VOp2 (UnpL 1) (VV v_Org_8_4) (VV v_Org_8_5));
      SVec v_p30 (VOp2 (UnpL 1) (VV v_Org_8_6) (VV v_Org_8_7));
      SVec v_t00 (VOp2 (UnpL 2) (VV v_p00) (VV v_p10));
      SVec v_t20 (VOp2 (UnpL 2) (VV v_p20) (VV v_p30));
      SVec v_t10 (VOp2 (UnpH 2) (VV v_p00) (VV v_p10));
      SVec v_t30 (VOp2 (UnpH 2) (VV v_p20) (VV v_p30));
      SVec v_p00 (VOp2 (UnpL 4) (VV v_t00) (VV v_t20));
      SVec v_p10 (VOp2 (UnpH 4) (VV v_t00) (VV v_t20));
      SVec v_p20 (VOp2 (UnpL 4) (VV v_t10) (VV v_t30));
      SVec v_p30 (VOp2 (UnpH 4) (VV v_t10) (VV v_t30));
      SStore 8 (PV v_dst1 (IC 0)) (VV v_p00);
      SVec v_p00 (VOp1 (SrlB 8) (VV v_p00));
      SStore 8 (PV v_dst2 (IC 0)) (VV v_p00);
      SStore 8 (PV v_dst3 (IC 0)) (VV v_p10);
      SVec v_p10 (VOp1 (SrlB 8) (VV v_p10));
      SStore 8 (PV v_dst4 (IC 0)) (VV v_p10);
      SStore 8 (PV v_dst5 (IC 0)) (VV v_p20);
      SVec v_p20 (VOp1 (SrlB 8) (VV v_p20));
      SStore 8 (PV v_dst6 (IC 0)) (VV v_p20);
      SStore 8 (PV v_dst7 (IC 0)) (VV v_p30);
      SVec v_p30 (VOp1 (SrlB 8) (VV v_p30));
      SStore 8 (PV v_dst8 (IC 0)) (VV v_p30);
      SInt v_i (IAdd (IV v_i) (IC 1))]] [
    SIf (IEq (IV v_bsx) (IC 16)) [
      SInt v_i (IC 0);
      SLoop (ILt (IV v_i) (IC 2)) [
        SPtr v_dst_tran_org (IC 0) (PAdd (PV v_dst_tran (IC 0)) (IMul (IMul (IV v_i) (IC 8)) (IV v_i_dst2)));
        SPtr v_dst1 (IC 0) (PAdd (PV v_dst (IC 0)) (IMul (IV v_i) (IC 8)));
        SPtr v_dst2 (IC 0) (PAdd (PV v_dst1 (IC 0)) (IV v_i_dst));
        SPtr v_dst3 (IC 0) (PAdd (PV v_dst2 (IC 0)) (IV v_i_dst));
        SPtr v_dst4 (IC 0) (PAdd (PV v_dst3 (IC 0)) (IV v_i_dst));
        SVec v_Org_8_0 (VLoad 16 0 (PV v_dst_tran_org (IC 0)));
        SPtr v_dst_tran_org (IC 0) (PAdd (PV v_dst_tran_org (IC 0)) (IV v_i_dst2));
        SVec v_Org_8_1 (VLoad 16 0 (PV v_dst_tran_org (IC 0)));
        SPtr v_dst_tran_org (IC 0) (PAdd (PV v_dst_tran_org (IC 0)) (IV v_i_dst2));
        SVec v_Org_8_2 (VLoad 16 0 (PV v_dst_tran_org (IC 0)));
        SPtr v_dst_tran_org (IC 0) (PAdd (PV v_dst_tran_org (IC 0)) (IV v_i_dst2));
        SVec v_Org_8_3 (VLoad 16 0 (PV v_dst_tran_org (IC 0)));
        SPtr v_dst_tran_org (IC 0) (PAdd (PV v_dst_tran_org (IC 0)) (IV v_i_dst2));
        SVec v_Org_8_4 (VLoad 16 0 (PV v_dst_tran_org (IC 0)));
        SPtr v_dst_tran_org (IC 0) (PAdd (PV v_dst_tran_org (IC 0)) (IV v_i_dst2));
        SVec v_Org_8_5 (VLoad 16 0 (PV v_dst_tran_org (IC 0)));
        SPtr v_dst_tran_org (IC 0) (PAdd (PV v_dst_tran_org (IC 0)) (IV v_i_dst2));
        SVec v_Org_8_6 (VLoad 16 0 (PV v_dst_tran_org (IC 0)));
        SPtr v_dst_tran_org (IC 0) (PAdd (PV v_dst_tran_org (IC 0)) (IV v_i_dst2));
        SVec v_Org_8_7 (VLoad 16 0 (PV v_dst_tran_org (IC 0)));
        SPtr v_dst_tran_org (IC 0) (PAdd (PV v_dst_tran_org (IC 0)) (IV v_i_dst2));
        SVec v_p00 (VOp2 (UnpL 1) (VV v_Org_8_0) (VV v_Org_8_1));
        SVec v_p10 (VOp2 (UnpL 1) (VV v_Org_8_2) (VV v_Org_8_3));
        SVec v_p20 (VOp2 (UnpL 1) (VV v_Org_8_4) (VV v_Org_8_5));
        SVec v_p30 (VOp2 (UnpL 1) (VV v_Org_8_6) (VV v_Org_8_7));
        SVec v_t00 (VOp2 (UnpL 2) (VV v_p00) (VV v_p10));
        SVec v_t20 (VOp2 (UnpL 2) (VV v_p20) (VV v_p30));
        SVec v_p00 (VOp2 (UnpL 4) (VV v_t00) (VV v_t20));
        SVec v_p10 (VOp2 (UnpH 4) (VV v_t00) (VV v_t20));
        SStore 8 (PV v_dst1 (IC 0)) (VV v_p00);
        SVec v_p00 (VOp1 (SrlB 8) (VV v_p00));
        SStore 8 (PV v_dst2 (IC 0)) (VV v_p00);
        SStore 8 (PV v_dst3 (IC 0)) (VV v_p10);
        SVec v_p10 (VOp1 (SrlB 8) (VV v_p10));
        SStore 8 (PV v_dst4 (IC 0)) (VV v_p10);
        SInt v_i (IAdd (IV v_i) (IC 1))]] [
      SIf (IEq (IV v_bsy) (IC 16)) [
        SPtr v_dst_tran_org (IC 0) (PV v_dst_tran (IC 0));
        SPtr v_dst1 (IC 0) (PV v_dst (IC 0));
        SPtr v_dst2 (IC 0) (PAdd (PV v_dst1 (IC 0)) (IV v_i_dst));
        SPtr v_dst3 (IC 0) (PAdd (PV v_dst2 (IC 0)) (IV v_i_dst));
        SPtr v_dst4 (IC 0) (PAdd (PV v_dst3 (IC 0)) (IV v_i_dst));
        SPtr v_dst5 (IC 0) (PAdd (PV v_dst4 (IC 0)) (IV v_i_dst));
        SPtr v_dst6 (IC 0) (PAdd (PV v_dst5 (IC 0)) (IV v_i_dst));
        SPtr v_dst7 (IC 0) (PAdd (PV v_dst6 (IC 0)) (IV v_i_dst));
        SPtr v_dst8 (IC 0) (PAdd (PV v_dst7 (IC 0)) (IV v_i_dst));
        SVec v_Org_8_0 (VLoad 16 0 (PV v_dst_tran_org (IC 0)));
        SPtr v_dst_tran_org (IC 0) (PAdd (PV v_dst_tran_org (IC 0)) (IV v_i_dst2));
        SVec v_Org_8_1 (VLoad 16 0 (PV v_dst_tran_org (IC 0)));
        SPtr v_dst_tran_org (IC 0) (PAdd (PV v_dst_tran_org (IC 0)) (IV v_i_dst2));
        SVec v_Org_8_2 (VLoad 16 0 (PV v_dst_tran_org (IC 0)));
        SPtr v_dst_tran_org (IC 0) (PAdd (PV v_dst_tran_org (IC 0)) (IV v_i_dst2));
        SVec v_Org_8_3 (VLoad 16 0 (PV v_dst_tran_org (IC 0)));
        SPtr v_dst_tran_org (IC 0) (PAdd (PV v_dst_tran_org (IC 0)) (IV v_i_dst2));
        SVec v_p00 (VOp2 (UnpL 1) (VV v_Org_8_0) (VV v_Org_8_1));
        SVec v_p10 (VOp2 (UnpL 1) (VV v_Org_8_2) (VV v_Org_8_3));
        SVec v_t00 (VOp2 (UnpL 2) (VV v_p00) (VV v_p10));
        SVec v_t10 (VOp2 (UnpH 2) (VV v_p00) (VV v_p10));
        SStore 4 (PV v_dst1 (IC 0)) (VV v_t00);
        SVec v_t00 (VOp1 (SrlB 4) (VV v_t00));
        SStore 4 (PV v_dst2 (IC 0)) (VV v_t00);
        SVec v_t00 (VOp1 (SrlB 4) (VV v_t00));
        SStore 4 (PV v_dst3 (IC 0)) (VV v_t00);
        SVec v_t00 (VOp1 (SrlB 4) (VV v_t00));
        SStore 4 (PV v_dst4 (IC 0)) (VV v_t00);
        SStore 4 (PV v_dst5 (IC 0)) (VV v_t10);
        SVec v_t10 (VOp1 (SrlB 4) (VV v_t10));
        SStore 4 (PV v_dst6 (IC 0)) (VV v_t10);
        SVec v_t10 (VOp1 (SrlB 4) (VV v_t10));
        SStore 4 (PV v_dst7 (IC 0)) (VV v_t10);
        SVec v_t10 (VOp1 (SrlB 4) (VV v_t10));
        SStore 4 (PV v_dst8 (IC 0)) (VV v_t10);
        SPtr v_dst1 (IC 0) (PAdd (PV v_dst8 (IC 0)) (IV v_i_dst));
        SPtr v_dst2 (IC 0) (PAdd (PV v_dst1 (IC 0)) (IV v_i_dst));
        SPtr v_dst3 (IC 0) (PAdd (PV v_dst2 (IC 0)) (IV v_i_dst));
        SPtr v_dst4 (IC 0) (PAdd (PV v_dst3 (IC 0)) (IV v_i_dst));
        SPtr v_dst5 (IC 0) (PAdd (PV v_dst4 (IC 0)) (IV v_i_dst));
        SPtr v_dst6 (IC 0) (PAdd (PV v_dst5 (IC 0)) (IV v_i_dst));
        SPtr v_dst7 (IC 0) (PAdd (PV v_dst6 (IC 0)) (IV v_i_dst));
        SPtr v_dst8 (IC 0) (PAdd (PV v_dst7 (IC 0)) (IV v_i_dst));
        SVec v_p00 (VOp2 (UnpH 1) (VV v_Org_8_0) (VV v_Org_8_1));
        SVec v_p10 (VOp2 (UnpH 1) (VV v_Org_8_2) (VV v_Org_8_3));
        SVec v_t00 (VOp2 (UnpL 2) (VV v_p00) (VV v_p10));
        SVec v_t10 (VOp2 (UnpH 2) (VV v_p00) (VV v_p10));
        SStore 4 (PV v_dst1 (IC 0)) (VV v_t00);
        SVec v_t00 (VOp1 (SrlB 4) (VV v_t00));
        SStore 4 (PV v_dst2 (IC 0)) (VV v_t00);
        SVec v_t00 (VOp1 (SrlB 4) (VV v_t00));
        SStore 4 (PV v_dst3 (IC 0)) (VV v_t00);
        SVec v_t00 (VOp1 (SrlB 4) (VV v_t00));
        SStore 4 (PV v_dst4 (IC 0)) (VV v_t00);
        SStore 4 (PV v_dst5 (IC 0)) (VV v_t10);
        SVec v_t10 (VOp1 (SrlB 4) (VV v_t10));
        SStore 4 (PV v_dst6 (IC 0)) (VV v_t10);
        SVec v_t10 (VOp1 (SrlB 4) (VV v_t10));
        SStore 4 (PV v_dst7 (IC 0)) (VV v_t10);
        SVec v_t10 (VOp1 (SrlB 4) (VV v_t10));
        SStore 4 (PV v_dst8 (IC 0)) (VV v_t10)] [
        SPtr v_dst_tran_org (IC 0) (PV v_dst_tran (IC 0));
        SPtr v_dst1 (IC 0) (PV v_dst (IC 0));
        SPtr v_dst2 (IC 0) (PAdd (PV v_dst1 (IC 0)) (IV v_i_dst));
        SPtr v_dst3 (IC 0) (PAdd (PV v_dst2 (IC 0)) (IV v_i_dst));
        SPtr v_dst4 (IC 0) (PAdd (PV v_dst3 (IC 0)) (IV v_i_dst));
        SVec v_Org_8_0 (VLoad 16 0 (PV v_dst_tran_org (IC 0)));
        SPtr v_dst_tran_org (IC 0) (PAdd (PV v_dst_tran_org (IC 0)) (IV v_i_dst2));
        SVec v_Org_8_1 (VLoad 16 0 (PV v_dst_tran_org (IC 0)));
        SPtr v_dst_tran_org (IC 0) (PAdd (PV v_dst_tran_org (IC 0)) (IV v_i_dst2));
        SVec v_Org_8_2 (VLoad 16 0 (PV v_dst_tran_org (IC 0)));
        SPtr v_dst_tran_org (IC 0) (PAdd (PV v_dst_tran_org (IC 0)) (IV v_i_dst2));
        SVec v_Org_8_3 (VLoad 16 0 (PV v_dst_tran_org (IC 0)));
        SPtr v_dst_tran_org (IC 0) (PAdd (PV v_dst_tran_org (IC 0)) (IV v_i_dst2));
        SVec v_p00 (VOp2 (UnpL 1) (VV v_Org_8_0) (VV v_Org_8_1));
        SVec v_p10 (VOp2 (UnpL 1) (VV v_Org_8_2) (VV v_Org_8_3));
        SVec v_t00 (VOp2 (UnpL 2) (VV v_p00) (VV v_p10));
        SStore 4 (PV v_dst1 (IC 0)) (VV v_t00);
        SVec v_t00 (VOp1 (SrlB 4) (VV v_t00));
        SStore 4 (PV v_dst2 (IC 0)) (VV v_t00);
        SVec v_t00 (VOp1 (SrlB 4) (VV v_t00));
        SStore 4 (PV v_dst3 (IC 0)) (VV v_t00);
        SVec v_t00 (VOp1 (SrlB 4) (VV v_t00));
        SStore 4 (PV v_dst4 (IC 0)) (VV v_t00)]]]].

(** vec/intrinsic_intra-pred.cc:5567-5740 [intra_pred_ang_y_32_sse128] *)
Definition k_ang_y_32_sse128 : list stm := [
  SArr v_first_line (IMul (IC 2) (IAdd (IC 64) (IC 64)));
  SInt v_line_size (ISub (IAdd (IShr (IV v_bsy) (IC 1)) (IV v_bsx)) (IC 1));
  SInt v_aligned_line_size (IShl (IShr (IAdd (IV v_line_size) (IC 63)) (IC 4)) (IC 4));
  SVec v_coeff2 (VSet1 2 8 (XC 2));
  SVec v_zero (VConst [0;0;0;0;0;0;0;0;0;0;0;0;0;0;0;0]);
  SVec v_shuffle1 (VConst [15;13;11;9;7;5;3;1;14;12;10;8;6;4;2;0]);
  SVec v_shuffle2 (VConst [14;12;10;8;6;4;2;0;15;13;11;9;7;5;3;1]);
  SInt v_i_dst2 (IMul (IV v_i_dst) (IC 2));
  SPtr v_pfirst (IC 0) (PV v_first_line (IC 0));
  SPtr v_pfirst (IC 1) (PAdd (PV v_first_line (IC 0)) (IV v_aligned_line_size));
  SPtr v_src (IC 0) (PAdd (PV v_src (IC 0)) (ISub (IC 0) (IC 18)));
  SInt v_i (IC 0);
  SLoop (ILt (IV v_i) (ISub (IV v_line_size) (IC 4))) [
    SVec v_S2 (VLoad 16 0 (PAdd (PV v_src (IC 0)) (IC 1)));
    SVec v_S0 (VLoad 16 0 (PAdd (PV v_src (IC 0)) (ISub (IC 0) (IC 1))));
    SVec v_S1 (VLoad 16 0 (PV v_src (IC 0)));
    SVec v_L0 (VOp2 (UnpL 1) (VV v_S0) (VV v_zero));
    SVec v_L1 (VOp2 (UnpL 1) (VV v_S1) (VV v_zero));
    SVec v_L2 (VOp2 (UnpL 1) (VV v_S2) (VV v_zero));
    SVec v_H0 (VOp2 (UnpH 1) (VV v_S0) (VV v_zero));
    SVec v_H1 (VOp2 (UnpH 1) (VV v_S1) (VV v_zero));
    SVec v_H2 (VOp2 (UnpH 1) (VV v_S2) (VV v_zero));
    SVec v_p00 (VOp2 (Add16) (VV v_L0) (VV v_L1));
    SVec v_p01 (VOp2 (Add16) (VV v_L1) (VV v_L2));
    SVec v_p00 (VOp2 (Add16) (VV v_p00) (VV v_coeff2));
    SVec v_p00 (VOp2 (Add16) (VV v_p00) (VV v_p01));
    SVec v_p00 (VOp1 (Srl16 2) (VV v_p00));
    SVec v_p10 (VOp2 (Add16) (VV v_H0) (VV v_H1));
    SVec v_p11 (VOp2 (Add16) (VV v_H1) (VV v_H2));
    SVec v_p10 (VOp2 (Add16) (VV v_p10) (VV v_coeff2));
    SVec v_p10 (VOp2 (Add16) (VV v_p10) (VV v_p11));
    SVec v_p10 (VOp1 (Srl16 2) (VV v_p10));
    SVec v_p00 (VOp2 (Pack16) (VV v_p00) (VV v_p10));
    SVec v_p10 (VOp2 (Shuf8) (VV v_p00) (VV v_shuffle2));
    SVec v_p00 (VOp2 (Shuf8) (VV v_p00) (VV v_shuffle1));
    SStore 8 (PAdd (PV v_pfirst (IC 0)) (IV v_i)) (VV v_p00);
    SStore 8 (PAdd (PV v_pfirst (IC 1)) (IV v_i)) (VV v_p10);
    SInt v_i (IAdd (IV v_i) (IC 8));
    SPtr v_src (IC 0) (PAdd (PV v_src (IC 0)) (ISub (IC 0) (IC 16)))];
  SIf (ILt (IV v_i) (IV v_line_size)) [
    SVec v_S2 (VLoad 16 0 (PAdd (PV v_src (IC 0)) (IC 1)));
    SVec v_S0 (VLoad 16 0 (PAdd (PV v_src (IC 0)) (ISub (IC 0) (IC 1))));
    SVec v_S1 (VLoad 16 0 (PV v_src (IC 0)));
    SVec v_H0 (VOp2 (UnpH 1) (VV v_S0) (VV v_zero));
    SVec v_H1 (VOp2 (UnpH 1) (VV v_S1) (VV v_zero));
    SVec v_H2 (VOp2 (UnpH 1) (VV v_S2) (VV v_zero));
    SVec v_p10 (VOp2 (Add16) (VV v_H0) (VV v_H1));
    SVec v_p11 (VOp2 (Add16) (VV v_H1) (VV v_H2));
    SVec v_p10 (VOp2 (Add16) (VV v_p10) (VV v_coeff2));
    SVec v_p10 (VOp2 (Add16) (VV v_p10) (VV v_p11));
    SVec v_p10 (VOp1 (Srl16 2) (VV v_p10));
    SVec v_p11 (VOp2 (Pack16) (VV v_p10) (VV v_p10));
    SVec v_p10 (VOp2 (Shuf8) (VV v_p11) (VV v_shuffle2));
    SVec v_p11 (VOp2 (Shuf8) (VV v_p11) (VV v_shuffle1));
    SStore 4 (PAdd (PV v_pfirst (IC 0)) (IV v_i)) (VV v_p11);
    SStore 4 (PAdd (PV v_pfirst (IC 1)) (IV v_i)) (VV v_p10)] [];
  SInt v_bsy (IShr (IV v_bsy) (IC 1));
  SIf (ILor (ILe (IC 16) (IV v_bsx)) (IEq (IV v_bsx) (IC 4))) [
    SInt v_i (IC 0);
    SLoop (ILt (IV v_i) (IV v_bsy)) [
      SCopy (IV v_bsx) (PV v_dst (IC 0)) (PAdd (PV v_pfirst (IC 0)) (IV v_i));
      SCopy (IV v_bsx) (PAdd (PV v_dst (IC 0)) (IV v_i_dst)) (PAdd (PV v_pfirst (IC 1)) (IV v_i));
      SPtr v_dst (IC 0) (PAdd (PV v_dst (IC 0)) (IV v_i_dst2));
      SInt v_i (IAdd (IV v_i) (IC 1))]] [
    SIf (IEq (IV v_bsy) (IC 4)) [
      SVec v_M1 (VLoad 16 0 (PAdd (PV v_pfirst (IC 0)) (IC 0)));
      SVec v_M2 (VLoad 16 0 (PAdd (PV v_pfirst (IC 1)) (IC 0)));
      SStore 8 (PV v_dst (IC 0)) (VV v_M1);
      SStore 8 (PAdd (PV v_dst (IC 0)) (IV v_i_dst)) (VV v_M2);
      SPtr v_dst (IC 0) (PAdd (PV v_dst (IC 0)) (IV v_i_dst2));
      SVec v_M1 (VOp1 (SrlB 1) (VV v_M1));
      SVec v_M2 (VOp1 (SrlB 1) (VV v_M2));
      SStore 8 (PV v_dst (IC 0)) (VV v_M1);
      SStore 8 (PAdd (PV v_dst (IC 0)) (IV v_i_dst)) (VV v_M2);
      SPtr v_dst (IC 0) (PAdd (PV v_dst (IC 0)) (IV v_i_dst2));
      SVec v_M1 (VOp1 (SrlB 1) (VV v_M1));
      SVec v_M2 (VOp1 (SrlB 1) (VV v_M2));
      SStore 8 (PV v_dst (IC 0)) (VV v_M1);
      SStore 8 (PAdd (PV v_dst (IC 0)) (IV v_i_dst)) (VV v_M2);
      SPtr v_dst (IC 0) (PAdd (PV v_dst (IC 0)) (IV v_i_dst2));
      SVec v_M1 (VOp1 (SrlB 1) (VV v_M1));
      SVec v_M2 (VOp1 (SrlB 1) (VV v_M2));
      SStore 8 (PV v_dst (IC 0)) (VV v_M1);
      SStore 8 (PAdd (PV v_dst (IC 0)) (IV v_i_dst)) (VV v_M2)] [
      SInt v_i (IC 0);
      SLoop (ILt (IV v_i) (IC 16)) [
        SVec v_M1 (VLoad 16 0 (PAdd (PV v_pfirst (IC 0)) (IV v_i)));
        SVec v_M2 (VLoad 16 0 (PAdd (PV v_pfirst (IC 1)) (IV v_i)));
        SStore 8 (PV v_dst (IC 0)) (VV v_M1);
        SStore 8 (PAdd (PV v_dst (IC 0)) (IV v_i_dst)) (VV v_M2);
        SPtr v_dst (IC 0) (PAdd (PV v_dst (IC 0)) (IV v_i_dst2));
        SVec v_M1 (VOp1 (SrlB 1) (VV v_M1));
        SVec v_M2 (VOp1 (SrlB 1) (VV v_M2));
        SStore 8 (PV v_dst (IC 0)) (VV v_M1);
        SStore 8 (PAdd (PV v_dst (IC 0)) (IV v_i_dst)) (VV v_M2);
        SPtr v_dst (IC 0) (PAdd (PV v_dst (IC 0)) (IV v_i_dst2));
        SVec v_M1 (VOp1 (SrlB 1) (VV v_M1));
        SVec v_M2 (VOp1 (SrlB 1) (VV v_M2));
        SStore 8 (PV v_dst (IC 0)) (VV v_M1);
        SStore 8 (PAdd (PV v_dst (IC 0)) (IV v_i_dst)) (VV v_M2);
        SPtr v_dst (IC 0) (PAdd (PV v_dst (IC 0)) (IV v_i_dst2));
        SVec v_M1 (VOp1 (SrlB 1) (VV v_M1));
        SVec v_M2 (VOp1 (SrlB 1) (VV v_M2));
        SStore 8 (PV v_dst (IC 0)) (VV v_M1);
        SStore 8 (PAdd (PV v_dst (IC 0)) (IV v_i_dst)) (VV v_M2);
        SPtr v_dst (IC 0) (PAdd (PV v_dst (IC 0)) (IV v_i_dst2));
        SVec v_M1 (VOp1 (SrlB 1) (VV v_M1));
        SVec v_M2 (VOp1 (SrlB 1) (VV v_M2));
        SStore 8 (PV v_dst (IC 0)) (VV v_M1);
        SStore 8 (PAdd (PV v_dst (IC 0)) (IV v_i_dst)) (VV v_M2);
        SPtr v_dst (IC 0) (PAdd (PV v_dst (IC 0)) (IV v_i_dst2));
        SVec v_M1 (VOp1 (SrlB 1) (VV v_M1));
        SVec v_M2 (VOp1 (SrlB 1) (VV v_M2));
        SStore 8 (PV v_dst (IC 0)) (VV v_M1);
        SStore 8 (PAdd (PV v_dst (IC 0)) (IV v_i_dst)) (VV v_M2);
        SPtr v_dst (IC 0) (PAdd (PV v_dst (IC 0)) (IV v_i_dst2));
        SVec v_M1 (VOp1 (SrlB 1) (VV v_M1));
        SVec v_M2 (VOp1 (SrlB 1) (VV v_M2));
        SStore 8 (PV v_dst (IC 0)) (VV v_M1);
        SStore 8 (PAdd (PV v_dst (IC 0)) (IV v_i_dst)) (VV v_M2);
        SPtr v_dst (IC 0) (PAdd (PV v_dst (IC 0)) (IV v_i_dst2));
        SVec v_M1 (VOp1 (SrlB 1) (VV v_M1));
        SVec v_M2 (VOp1 (SrlB 1) (VV v_M2));
        SStore 8 (PV v_dst (IC 0)) (VV v_M1);
        SStore 8 (PAdd (PV v_dst (IC 0)) (IV v_i_dst)) (VV v_M2);
        SPtr v_dst (IC 0) (PAdd (PV v_dst (IC 0)) (IV v_i_dst2));
        SInt v_i (IAdd (IV v_i) (IC 8))]]]].
