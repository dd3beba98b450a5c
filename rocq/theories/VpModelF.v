(** The predictors of vec/intrinsic_intra-pred_avx2.cc for downward left modes, as trees (see VpModel). *)
From Coq Require Import ZArith List.
From Verif Require Import VpModel VpModelA VpModelB VpModelC VpModelE.
Import ListNotations.
Open Scope Z_scope.

(** vec/intrinsic_intra-pred_avx2.cc:3266-3560 [intra_pred_ang_y_25_avx] *)
Definition k_ang_y_25_avx : list stm := [
  SIf (ILt (IC 8) (IV v_bsx)) [
    SArr v_first_line (IAdd (IC 64) (IShl (IC 64) (IC 3)));
    SInt v_line_size (IAdd (IV v_bsx) (IShl (ISub (IV v_bsy) (IC 1)) (IC 3)));
    SInt v_iHeight8 (IShl (IV v_bsy) (IC 3));
    SPtr v_pfirst (IC 0) (PV v_first_line (IC 0));
    SVec v_coeff0 (VConst [7;0;3;0;5;0;1;0;3;0;1;0;1;0;0;0;7;0;3;0;5;0;1;0;3;0;1;0;1;0;0;0]);
    SVec v_coeff1 (VConst [15;0;7;0;13;0;3;0;11;0;5;0;9;0;1;0;15;0;7;0;13;0;3;0;11;0;5;0;9;0;1;0]);
    SVec v_coeff2 (VConst [9;0;5;0;11;0;3;0;13;0;7;0;15;0;2;0;9;0;5;0;11;0;3;0;13;0;7;0;15;0;2;0]);
    SVec v_coeff3 (VConst [1;0;1;0;3;0;1;0;5;0;3;0;7;0;1;0;1;0;1;0;3;0;1;0;5;0;3;0;7;0;1;0]);
    SVec v_coeff4 (VConst [16;0;8;0;16;0;4;0;16;0;8;0;16;0;2;0;16;0;8;0;16;0;4;0;16;0;8;0;16;0;2;0]);
    SVec v_coeff5 (VConst [1;0;2;0;1;0;4;0;1;0;2;0;1;0;8;0;1;0;2;0;1;0;4;0;1;0;2;0;1;0;8;0]);
    SVec v_L0 (VSetr [XLd (PV v_src (IC 0)); XLd (PV v_src (IC 0)); XLd (PV v_src (IC 0)); XLd (PV v_src (IC 0)); XLd (PV v_src (IC 0)); XLd (PV v_src (IC 0)); XLd (PV v_src (IC 0)); XLd (PV v_src (IC 0)); XLd (PAdd (PV v_src (IC 0)) (IC (-4))); XLd (PAdd (PV v_src (IC 0)) (IC (-4))); XLd (PAdd (PV v_src (IC 0)) (IC (-4))); XLd (PAdd (PV v_src (IC 0)) (IC (-4))); XLd (PAdd (PV v_src (IC 0)) (IC (-4))); XLd (PAdd (PV v_src (IC 0)) (IC (-4))); XLd (PAdd (PV v_src (IC 0)) (IC (-4))); XLd (PAdd (PV v_src (IC 0)) (IC (-4)))]);
    SVec v_L1 (VSetr [XLd (PAdd (PV v_src (IC 0)) (IC (-1))); XLd (PAdd (PV v_src (IC 0)) (IC (-1))); XLd (PAdd (PV v_src (IC 0)) (IC (-1))); XLd (PAdd (PV v_src (IC 0)) (IC (-1))); XLd (PAdd (PV v_src (IC 0)) (IC (-1))); XLd (PAdd (PV v_src (IC 0)) (IC (-1))); XLd (PAdd (PV v_src (IC 0)) (IC (-1))); XLd (PAdd (PV v_src (IC 0)) (IC (-1))); XLd (PAdd (PV v_src (IC 0)) (IC (-5))); XLd (PAdd (PV v_src (IC 0)) (IC (-5))); XLd (PAdd (PV v_src (IC 0)) (IC (-5))); XLd (PAdd (PV v_src (IC 0)) (IC (-5))); XLd (PAdd (PV v_src (IC 0)) (IC (-5))); XLd (PAdd (PV v_src (IC 0)) (IC (-5))); XLd (PAdd (PV v_src (IC 0)) (IC (-5))); XLd (PAdd (PV v_src (IC 0)) (IC (-5)))]);
    SVec v_L2 (VSetr [XLd (PAdd (PV v_src (IC 0)) (IC (-2))); XLd (PAdd (PV v_src (IC 0)) (IC (-2))); XLd (PAdd (PV v_src (IC 0)) (IC (-2))); XLd (PAdd (PV v_src (IC 0)) (IC (-2))); XLd (PAdd (PV v_src (IC 0)) (IC (-2))); XLd (PAdd (PV v_src (IC 0)) (IC (-2))); XLd (PAdd (PV v_src (IC 0)) (IC (-2))); XLd (PAdd (PV v_src (IC 0)) (IC (-2))); XLd (PAdd (PV v_src (IC 0)) (IC (-6))); XLd (PAdd (PV v_src (IC 0)) (IC (-6))); XLd (PAdd (PV v_src (IC 0)) (IC (-6))); XLd (PAdd (PV v_src (IC 0)) (IC (-6))); XLd (PAdd (PV v_src (IC 0)) (IC (-6))); XLd (PAdd (PV v_src (IC 0)) (IC (-6))); XLd (PAdd (PV v_src (IC 0)) (IC (-6))); XLd (PAdd (PV v_src (IC 0)) (IC (-6)))]);
    SVec v_L3 (VSetr [XLd (PAdd (PV v_src (IC 0)) (IC (-3))); XLd (PAdd (PV v_src (IC 0)) (IC (-3))); XLd (PAdd (PV v_src (IC 0)) (IC (-3))); XLd (PAdd (PV v_src (IC 0)) (IC (-3))); XLd (PAdd (PV v_src (IC 0)) (IC (-3))); XLd (PAdd (PV v_src (IC 0)) (IC (-3))); XLd (PAdd (PV v_src (IC 0)) (IC (-3))); XLd (PAdd (PV v_src (IC 0)) (IC (-3))); XLd (PAdd (PV v_src (IC 0)) (IC (-7))); XLd (PAdd (PV v_src (IC 0)) (IC (-7))); XLd (PAdd (PV v_src (IC 0)) (IC (-7))); XLd (PAdd (PV v_src (IC 0)) (IC (-7))); XLd (PAdd (PV v_src (IC 0)) (IC (-7))); XLd (PAdd (PV v_src (IC 0)) (IC (-7))); XLd (PAdd (PV v_src (IC 0)) (IC (-7))); XLd (PAdd (PV v_src (IC 0)) (IC (-7)))]);
    SPtr v_src (IC 0) (PAdd (PV v_src (IC 0)) (ISub (IC 0) (IC 4)));
    SInt v_i (IC 0);
    SLoop (ILt (IV v_i) (IV v_line_size)) [
      SVec v_p00 (VOp2 (Mul16) (VV v_L0) (VV v_coeff0));
      SVec v_p10 (VOp2 (Mul16) (VV v_L1) (VV v_coeff1));
      SVec v_p20 (VOp2 (Mul16) (VV v_L2) (VV v_coeff2));
      SVec v_p30 (VOp2 (Mul16) (VV v_L3) (VV v_coeff3));
      SVec v_p00 (VOp2 (Add16) (VV v_p00) (VV v_coeff4));
      SVec v_p00 (VOp2 (Add16) (VV v_p00) (VV v_p10));
      SVec v_p00 (VOp2 (Add16) (VV v_p00) (VV v_p20));
      SVec v_p00 (VOp2 (Add16) (VV v_p00) (VV v_p30));
      SVec v_p00 (VOp2 (Mul16) (VV v_p00) (VV v_coeff5));
      SVec v_p00 (VOp1 (Srl16 5) (VV v_p00));
      SVec v_L0 (VSetr [XLd (PV v_src (IC 0)); XLd (PV v_src (IC 0)); XLd (PV v_src (IC 0)); XLd (PV v_src (IC 0)); XLd (PV v_src (IC 0)); XLd (PV v_src (IC 0)); XLd (PV v_src (IC 0)); XLd (PV v_src (IC 0)); XLd (PAdd (PV v_src (IC 0)) (IC (-4))); XLd (PAdd (PV v_src (IC 0)) (IC (-4))); XLd (PAdd (PV v_src (IC 0)) (IC (-4))); XLd (PAdd (PV v_src (IC 0)) (IC (-4))); XLd (PAdd (PV v_src (IC 0)) (IC (-4))); XLd (PAdd (PV v_src (IC 0)) (IC (-4))); XLd (PAdd (PV v_src (IC 0)) (IC (-4))); XLd (PAdd (PV v_src (IC 0)) (IC (-4)))]);
      SVec v_p01 (VOp2 (Mul16) (VV v_L1) (VV v_coeff0));
      SVec v_p11 (VOp2 (Mul16) (VV v_L2) (VV v_coeff1));
      SVec v_p21 (VOp2 (Mul16) (VV v_L3) (VV v_coeff2));
      SVec v_p31 (VOp2 (Mul16) (VV v_L0) (VV v_coeff3));
      SVec v_p01 (VOp2 (Add16) (VV v_p01) (VV v_coeff4));
      SVec v_p01 (VOp2 (Add16) (VV v_p01) (VV v_p11));
      SVec v_p01 (VOp2 (Add16) (VV v_p01) (VV v_p21));
      SVec v_p01 (VOp2 (Add16) (VV v_p01) (VV v_p31));
      SVec v_p01 (VOp2 (Mul16) (VV v_p01) (VV v_coeff5));
      SVec v_p01 (VOp1 (Srl16 5) (VV v_p01));
      SVec v_res1 (VOp2 (Pack16) (VV v_p00) (VV v_p01));
      SVec v_L1 (VSetr [XLd (PAdd (PV v_src (IC 0)) (IC (-1))); XLd (PAdd (PV v_src (IC 0)) (IC (-1))); XLd (PAdd (PV v_src (IC 0)) (IC (-1))); XLd (PAdd (PV v_src (IC 0)) (IC (-1))); XLd (PAdd (PV v_src (IC 0)) (IC (-1))); XLd (PAdd (PV v_src (IC 0)) (IC (-1))); XLd (PAdd (PV v_src (IC 0)) (IC (-1))); XLd (PAdd (PV v_src (IC 0)) (IC (-1))); XLd (PAdd (PV v_src (IC 0)) (IC (-5))); XLd (PAdd (PV v_src (IC 0)) (IC (-5))); XLd (PAdd (PV v_src (IC 0)) (IC (-5))); XLd (PAdd (PV v_src (IC 0)) (IC (-5))); XLd (PAdd (PV v_src (IC 0)) (IC (-5))); XLd (PAdd (PV v_src (IC 0)) (IC (-5))); XLd (PAdd (PV v_src (IC 0)) (IC (-5))); XLd (PAdd (PV v_src (IC 0)) (IC (-5)))]);
      SVec v_p00 (VOp2 (Mul16) (VV v_L2) (VV v_coeff0));
      SVec v_p10 (VOp2 (Mul16) (VV v_L3) (VV v_coeff1));
      SVec v_p20 (VOp2 (Mul16) (VV v_L0) (VV v_coeff2));
      SVec v_p30 (VOp2 (Mul16) (VV v_L1) (VV v_coeff3));
      SVec v_p00 (VOp2 (Add16) (VV v_p00) (VV v_coeff4));
      SVec v_p00 (VOp2 (Add16) (VV v_p00) (VV v_p10));
      SVec v_p00 (VOp2 (Add16) (VV v_p00) (VV v_p20));
      SVec v_p00 (VOp2 (Add16) (VV v_p00) (VV v_p30));
      SVec v_p00 (VOp2 (Mul16) (VV v_p00) (VV v_coeff5));
      SVec v_p00 (VOp1 (Srl16 5) (VV v_p00));
      SVec v_L2 (VSetr [XLd (PAdd (PV v_src (IC 0)) (IC (-2))); XLd (PAdd (PV v_src (IC 0)) (IC (-2))); XLd (PAdd (PV v_src (IC 0)) (IC (-2))); XLd (PAdd (PV v_src (IC 0)) (IC (-2))); XLd (PAdd (PV v_src (IC 0)) (IC (-2))); XLd (PAdd (PV v_src (IC 0)) (IC (-2))); XLd (PAdd (PV v_src (IC 0)) (IC (-2))); XLd (PAdd (PV v_src (IC 0)) (IC (-2))); XLd (PAdd (PV v_src (IC 0)) (IC (-6))); XLd (PAdd (PV v_src (IC 0)) (IC (-6))); XLd (PAdd (PV v_src (IC 0)) (IC (-6))); XLd (PAdd (PV v_src (IC 0)) (IC (-6))); XLd (PAdd (PV v_src (IC 0)) (IC (-6))); XLd (PAdd (PV v_src (IC 0)) (IC (-6))); XLd (PAdd (PV v_src (IC 0)) (IC (-6))); XLd (PAdd (PV v_src (IC 0)) (IC (-6)))]);
      SVec v_p01 (VOp2 (Mul16) (VV v_L3) (VV v_coeff0));
      SVec v_p11 (VOp2 (Mul16) (VV v_L0) (VV v_coeff1));
      SVec v_p21 (VOp2 (Mul16) (VV v_L1) (VV v_coeff2));
      SVec v_p31 (VOp2 (Mul16) (VV v_L2) (VV v_coeff3));
      SVec v_p01 (VOp2 (Add16) (VV v_p01) (VV v_coeff4));
      SVec v_p01 (VOp2 (Add16) (VV v_p01) (VV v_p11));
      SVec v_p01 (VOp2 (Add16) (VV v_p01) (VV v_p21));
      SVec v_p01 (VOp2 (Add16) (VV v_p01) (VV v_p31));
      SVec v_p01 (VOp2 (Mul16) (VV v_p01) (VV v_coeff5));
      SVec v_p01 (VOp1 (Srl16 5) (VV v_p01));
      SVec v_res2 (VOp2 (Pack16) (VV v_p00) (VV v_p01));
      SVec v_p00 (VOp2 (Perm128 32) (VV v_res1) (VV v_res2));
      SStore 32 (PV v_pfirst (IC 0)) (VV v_p00);
      SPtr v_pfirst (IC 0) (PAdd (PV v_pfirst (IC 0)) (IC 32));
      SVec v_p00 (VOp2 (Perm128 49) (VV v_res1) (VV v_res2));
      SStore 32 (PV v_pfirst (IC 0)) (VV v_p00);
      SPtr v_pfirst (IC 0) (PAdd (PV v_pfirst (IC 0)) (IC 32));
      SPtr v_src (IC 0) (PAdd (PV v_src (IC 0)) (ISub (IC 0) (IC 4)));
      SVec v_L0 (VSetr [XLd (PV v_src (IC 0)); XLd (PV v_src (IC 0)); XLd (PV v_src (IC 0)); XLd (PV v_src (IC 0)); XLd (PV v_src (IC 0)); XLd (PV v_src (IC 0)); XLd (PV v_src (IC 0)); XLd (PV v_src (IC 0)); XLd (PAdd (PV v_src (IC 0)) (IC (-4))); XLd (PAdd (PV v_src (IC 0)) (IC (-4))); XLd (PAdd (PV v_src (IC 0)) (IC (-4))); XLd (PAdd (PV v_src (IC 0)) (IC (-4))); XLd (PAdd (PV v_src (IC 0)) (IC (-4))); XLd (PAdd (PV v_src (IC 0)) (IC (-4))); XLd (PAdd (PV v_src (IC 0)) (IC (-4))); XLd (PAdd (PV v_src (IC 0)) (IC (-4)))]);
      SVec v_L1 (VSetr [XLd (PAdd (PV v_src (IC 0)) (IC (-1))); XLd (PAdd (PV v_src (IC 0)) (IC (-1))); XLd (PAdd (PV v_src (IC 0)) (IC (-1))); XLd (PAdd (PV v_src (IC 0)) (IC (-1))); XLd (PAdd (PV v_src (IC 0)) (IC (-1))); XLd (PAdd (PV v_src (IC 0)) (IC (-1))); XLd (PAdd (PV v_src (IC 0)) (IC (-1))); XLd (PAdd (PV v_src (IC 0)) (IC (-1))); XLd (PAdd (PV v_src (IC 0)) (IC (-5))); XLd (PAdd (PV v_src (IC 0)) (IC (-5))); XLd (PAdd (PV v_src (IC 0)) (IC (-5))); XLd (PAdd (PV v_src (IC 0)) (IC (-5))); XLd (PAdd (PV v_src (IC 0)) (IC (-5))); XLd (PAdd (PV v_src (IC 0)) (IC (-5))); XLd (PAdd (PV v_src (IC 0)) (IC (-5))); XLd (PAdd (PV v_src (IC 0)) (IC (-5)))]);
      SVec v_L2 (VSetr [XLd (PAdd (PV v_src (IC 0)) (IC (-2))); XLd (PAdd (PV v_src (IC 0)) (IC (-2))); XLd (PAdd (PV v_src (IC 0)) (IC (-2))); XLd (PAdd (PV v_src (IC 0)) (IC (-2))); XLd (PAdd (PV v_src (IC 0)) (IC (-2))); XLd (PAdd (PV v_src (IC 0)) (IC (-2))); XLd (PAdd (PV v_src (IC 0)) (IC (-2))); XLd (PAdd (PV v_src (IC 0)) (IC (-2))); XLd (PAdd (PV v_src (IC 0)) (IC (-6))); XLd (PAdd (PV v_src (IC 0)) (IC (-6))); XLd (PAdd (PV v_src (IC 0)) (IC (-6))); XLd (PAdd (PV v_src (IC 0)) (IC (-6))); XLd (PAdd (PV v_src (IC 0)) (IC (-6))); XLd (PAdd (PV v_src (IC 0)) (IC (-6))); XLd (PAdd (PV v_src (IC 0)) (IC (-6))); XLd (PAdd (PV v_src (IC 0)) (IC (-6)))]);
      SVec v_L3 (VSetr [XLd (PAdd (PV v_src (IC 0)) (IC (-3))); XLd (PAdd (PV v_src (IC 0)) (IC (-3))); XLd (PAdd (PV v_src (IC 0)) (IC (-3))); XLd (PAdd (PV v_src (IC 0)) (IC (-3))); XLd (PAdd (PV v_src (IC 0)) (IC (-3))); XLd (PAdd (PV v_src (IC 0)) (IC (-3))); XLd (PAdd (PV v_src (IC 0)) (IC (-3))); XLd (PAdd (PV v_src (IC 0)) (IC (-3))); XLd (PAdd (PV v_src (IC 0)) (IC (-7))); XLd (PAdd (PV v_src (IC 0)) (IC (-7))); XLd (PAdd (PV v_src (IC 0)) (IC (-7))); XLd (PAdd (PV v_src (IC 0)) (IC (-7))); XLd (PAdd (PV v_src (IC 0)) (IC (-7))); XLd (PAdd (PV v_src (IC 0)) (IC (-7))); XLd (PAdd (PV v_src (IC 0)) (IC (-7))); XLd (PAdd (PV v_src (IC 0)) (IC (-7)))]);
      SInt v_i (IAdd (IV v_i) (IC 64));
      SPtr v_src (IC 0) (PAdd (PV v_src (IC 0)) (ISub (IC 0) (IC 4)))];
    SIf (IEq (IV v_bsx) (IC 64)) [
      SInt v_i (IC 0);
      SLoop (ILt (IV v_i) (IV v_iHeight8)) [
        SVec v_M (VLoad 32 0 (PAdd (PV v_first_line (IC 0)) (IV v_i)));
        SStore 32 (PV v_dst (IC 0)) (VV v_M);
        SVec v_M (VLoad 32 0 (PAdd (PAdd (PV v_first_line (IC 0)) (IV v_i)) (IC 32)));
        SStore 32 (PAdd (PV v_dst (IC 0)) (IC 32)) (VV v_M);
        SPtr v_dst (IC 0) (PAdd (PV v_dst (IC 0)) (IV v_i_dst));
        SVec v_M (VLoad 32 0 (PAdd (PAdd (PV v_first_line (IC 0)) (IV v_i)) (IC 8)));
        SStore 32 (PV v_dst (IC 0)) (VV v_M);
        SVec v_M (VLoad 32 0 (PAdd (PAdd (PAdd (PV v_first_line (IC 0)) (IV v_i)) (IC 8)) (IC 32)));
        SStore 32 (PAdd (PV v_dst (IC 0)) (IC 32)) (VV v_M);
        SPtr v_dst (IC 0) (PAdd (PV v_dst (IC 0)) (IV v_i_dst));
        SVec v_M (VLoad 32 0 (PAdd (PAdd (PV v_first_line (IC 0)) (IV v_i)) (IC 16)));
        SStore 32 (PV v_dst (IC 0)) (VV v_M);
        SVec v_M (VLoad 32 0 (PAdd (PAdd (PAdd (PV v_first_line (IC 0)) (IV v_i)) (IC 16)) (IC 32)));
        SStore 32 (PAdd (PV v_dst (IC 0)) (IC 32)) (VV v_M);
        SPtr v_dst (IC 0) (PAdd (PV v_dst (IC 0)) (IV v_i_dst));
        SVec v_M (VLoad 32 0 (PAdd (PAdd (PV v_first_line (IC 0)) (IV v_i)) (IC 24)));
        SStore 32 (PV v_dst (IC 0)) (VV v_M);
        SVec v_M (VLoad 32 0 (PAdd (PAdd (PAdd (PV v_first_line (IC 0)) (IV v_i)) (IC 24)) (IC 32)));
        SStore 32 (PAdd (PV v_dst (IC 0)) (IC 32)) (VV v_M);
        SPtr v_dst (IC 0) (PAdd (PV v_dst (IC 0)) (IV v_i_dst));
        SInt v_i (IAdd (IV v_i) (IC 32))]] [
      SIf (IEq (IV v_bsx) (IC 32)) [
        SInt v_i (IC 0);
        SLoop (ILt (IV v_i) (IV v_iHeight8)) [
          SVec v_M (VLoad 32 0 (PAdd (PV v_first_line (IC 0)) (IV v_i)));
          SStore 32 (PV v_dst (IC 0)) (VV v_M);
          SPtr v_dst (IC 0) (PAdd (PV v_dst (IC 0)) (IV v_i_dst));
          SVec v_M (VLoad 32 0 (PAdd (PAdd (PV v_first_line (IC 0)) (IV v_i)) (IC 8)));
          SStore 32 (PV v_dst (IC 0)) (VV v_M);
          SPtr v_dst (IC 0) (PAdd (PV v_dst (IC 0)) (IV v_i_dst));
          SVec v_M (VLoad 32 0 (PAdd (PAdd (PV v_first_line (IC 0)) (IV v_i)) (IC 16)));
          SStore 32 (PV v_dst (IC 0)) (VV v_M);
          SPtr v_dst (IC 0) (PAdd (PV v_dst (IC 0)) (IV v_i_dst));
          SVec v_M (VLoad 32 0 (PAdd (PAdd (PV v_first_line (IC 0)) (IV v_i)) (IC 24)));
          SStore 32 (PV v_dst (IC 0)) (VV v_M);
          SPtr v_dst (IC 0) (PAdd (PV v_dst (IC 0)) (IV v_i_dst));
          SInt v_i (IAdd (IV v_i) (IC 32))]] [
        SIf (IEq (IV v_bsx) (IC 16)) [
          SVec v_mask (VTab intrinsic_mask_256_8bit (IC 15));
          SInt v_i (IC 0);
          SLoop (ILt (IV v_i) (IV v_iHeight8)) [
            SVec v_M (VLoad 32 0 (PAdd (PV v_first_line (IC 0)) (IV v_i)));
            SMask 8 (PV v_dst (IC 0)) (VV v_mask) (VV v_M);
            SPtr v_dst (IC 0) (PAdd (PV v_dst (IC 0)) (IV v_i_dst));
            SVec v_M (VLoad 32 0 (PAdd (PAdd (PV v_first_line (IC 0)) (IV v_i)) (IC 8)));
            SMask 8 (PV v_dst (IC 0)) (VV v_mask) (VV v_M);
            SPtr v_dst (IC 0) (PAdd (PV v_dst (IC 0)) (IV v_i_dst));
            SVec v_M (VLoad 32 0 (PAdd (PAdd (PV v_first_line (IC 0)) (IV v_i)) (IC 16)));
            SMask 8 (PV v_dst (IC 0)) (VV v_mask) (VV v_M);
            SPtr v_dst (IC 0) (PAdd (PV v_dst (IC 0)) (IV v_i_dst));
            SVec v_M (VLoad 32 0 (PAdd (PAdd (PV v_first_line (IC 0)) (IV v_i)) (IC 24)));
            SMask 8 (PV v_dst (IC 0)) (VV v_mask) (VV v_M);
            SPtr v_dst (IC 0) (PAdd (PV v_dst (IC 0)) (IV v_i_dst));
            SInt v_i (IAdd (IV v_i) (IC 32))]] []]]] [
    SCall k_ang_y_25_sse128 (PV v_src (IC 0)) (PV v_dst (IC 0)) (IV v_i_dst) (IV v_bsx) (IV v_bsy);
    SRet]].

(** vec/intrinsic_intra-pred_avx2.cc:3562-3873 [intra_pred_ang_y_26_avx] *)
Definition k_ang_y_26_avx : list stm := [
  SIf (INot (IEq (IV v_bsx) (IC 4))) [
    SVec v_coeff2 (VSet1 2 16 (XC 2));
    SVec v_coeff3 (VSet1 2 16 (XC 3));
    SVec v_coeff4 (VSet1 2 16 (XC 4));
    SVec v_coeff5 (VSet1 2 16 (XC 5));
    SVec v_coeff7 (VSet1 2 16 (XC 7));
    SVec v_coeff8 (VSet1 2 16 (XC 8));
    SVec v_shuffle (VConst [7;15;6;14;5;13;4;12;3;11;2;10;1;9;0;8;7;15;6;14;5;13;4;12;3;11;2;10;1;9;0;8]);
    SArr v_first_line (IAdd (IC 64) (IC 256));
    SInt v_line_size (IAdd (IV v_bsx) (IMul (ISub (IV v_bsy) (IC 1)) (IC 4)));
    SInt v_iHeight4 (IShl (IV v_bsy) (IC 2));
    SPtr v_src (IC 0) (PAdd (PV v_src (IC 0)) (ISub (IC 0) (IC 31)));
    SInt v_i (IC 0);
    SLoop (ILt (IV v_i) (ISub (IV v_line_size) (IC 64))) [
      SVec v_S0 (VLoad 32 0 (PV v_src (IC 0)));
      SVec v_S1 (VLoad 32 0 (PAdd (PV v_src (IC 0)) (ISub (IC 0) (IC 1))));
      SVec v_S2 (VLoad 32 0 (PAdd (PV v_src (IC 0)) (ISub (IC 0) (IC 2))));
      SVec v_S3 (VLoad 32 0 (PAdd (PV v_src (IC 0)) (ISub (IC 0) (IC 3))));
      SVec v_L0 (VOp1 Cvt8 (VOp1 (Ext 0) (VV v_S0)));
      SVec v_L1 (VOp1 Cvt8 (VOp1 (Ext 0) (VV v_S1)));
      SVec v_L2 (VOp1 Cvt8 (VOp1 (Ext 0) (VV v_S2)));
      SVec v_L3 (VOp1 Cvt8 (VOp1 (Ext 0) (VV v_S3)));
      SVec v_H0 (VOp1 Cvt8 (VOp1 (Ext 1) (VV v_S0)));
      SVec v_H1 (VOp1 Cvt8 (VOp1 (Ext 1) (VV v_S1)));
      SVec v_H2 (VOp1 Cvt8 (VOp1 (Ext 1) (VV v_S2)));
      SVec v_H3 (VOp1 Cvt8 (VOp1 (Ext 1) (VV v_S3)));
      SVec v_p00 (VOp2 (Mul16) (VV v_L0) (VV v_coeff3));
      SVec v_p10 (VOp2 (Mul16) (VV v_L1) (VV v_coeff7));
      SVec v_p20 (VOp2 (Mul16) (VV v_L2) (VV v_coeff5));
      SVec v_p30 (VOp2 (Add16) (VV v_L3) (VV v_coeff8));
      SVec v_p00 (VOp2 (Add16) (VV v_p00) (VV v_p30));
      SVec v_p00 (VOp2 (Add16) (VV v_p00) (VV v_p10));
      SVec v_p00 (VOp2 (Add16) (VV v_p00) (VV v_p20));
      SVec v_M1 (VOp1 (Srl16 4) (VV v_p00));
      SVec v_p01 (VOp2 (Mul16) (VV v_H0) (VV v_coeff3));
      SVec v_p11 (VOp2 (Mul16) (VV v_H1) (VV v_coeff7));
      SVec v_p21 (VOp2 (Mul16) (VV v_H2) (VV v_coeff5));
      SVec v_p31 (VOp2 (Add16) (VV v_H3) (VV v_coeff8));
      SVec v_p01 (VOp2 (Add16) (VV v_p01) (VV v_p31));
      SVec v_p01 (VOp2 (Add16) (VV v_p01) (VV v_p11));
      SVec v_p01 (VOp2 (Add16) (VV v_p01) (VV v_p21));
      SVec v_M2 (VOp1 (Srl16 4) (VV v_p01));
      SVec v_p00 (VOp2 (Add16) (VV v_L1) (VV v_L2));
      SVec v_p00 (VOp2 (Mul16) (VV v_p00) (VV v_coeff3));
      SVec v_p10 (VOp2 (Add16) (VV v_L0) (VV v_L3));
      SVec v_p10 (VOp2 (Add16) (VV v_p10) (VV v_coeff4));
      SVec v_p00 (VOp2 (Add16) (VV v_p10) (VV v_p00));
      SVec v_M3 (VOp1 (Srl16 3) (VV v_p00));
      SVec v_p01 (VOp2 (Add16) (VV v_H1) (VV v_H2));
      SVec v_p01 (VOp2 (Mul16) (VV v_p01) (VV v_coeff3));
      SVec v_p11 (VOp2 (Add16) (VV v_H0) (VV v_H3));
      SVec v_p11 (VOp2 (Add16) (VV v_p11) (VV v_coeff4));
      SVec v_p01 (VOp2 (Add16) (VV v_p11) (VV v_p01));
      SVec v_M4 (VOp1 (Srl16 3) (VV v_p01));
      SVec v_p10 (VOp2 (Mul16) (VV v_L1) (VV v_coeff5));
      SVec v_p20 (VOp2 (Mul16) (VV v_L2) (VV v_coeff7));
      SVec v_p30 (VOp2 (Mul16) (VV v_L3) (VV v_coeff3));
      SVec v_p00 (VOp2 (Add16) (VV v_L0) (VV v_coeff8));
      SVec v_p00 (VOp2 (Add16) (VV v_p00) (VV v_p10));
      SVec v_p00 (VOp2 (Add16) (VV v_p00) (VV v_p20));
      SVec v_p00 (VOp2 (Add16) (VV v_p00) (VV v_p30));
      SVec v_M5 (VOp1 (Srl16 4) (VV v_p00));
      SVec v_p11 (VOp2 (Mul16) (VV v_H1) (VV v_coeff5));
      SVec v_p21 (VOp2 (Mul16) (VV v_H2) (VV v_coeff7));
      SVec v_p31 (VOp2 (Mul16) (VV v_H3) (VV v_coeff3));
      SVec v_p01 (VOp2 (Add16) (VV v_H0) (VV v_coeff8));
      SVec v_p01 (VOp2 (Add16) (VV v_p01) (VV v_p11));
      SVec v_p01 (VOp2 (Add16) (VV v_p01) (VV v_p21));
      SVec v_p01 (VOp2 (Add16) (VV v_p01) (VV v_p31));
      SVec v_M6 (VOp1 (Srl16 4) (VV v_p01));
      SVec v_p00 (VOp2 (Add16) (VV v_L1) (VV v_L2));
      SVec v_p10 (VOp2 (Add16) (VV v_L2) (VV v_L3));
      SVec v_p00 (VOp2 (Add16) (VV v_p00) (VV v_p10));
      SVec v_p00 (VOp2 (Add16) (VV v_p00) (VV v_coeff2));
      SVec v_M7 (VOp1 (Srl16 2) (VV v_p00));
      SVec v_p01 (VOp2 (Add16) (VV v_H1) (VV v_H2));
      SVec v_p11 (VOp2 (Add16) (VV v_H2) (VV v_H3));
      SVec v_p01 (VOp2 (Add16) (VV v_p01) (VV v_p11));
      SVec v_p01 (VOp2 (Add16) (VV v_p01) (VV v_coeff2));
      SVec v_M8 (VOp1 (Srl16 2) (VV v_p01));
      SVec v_M1 (VOp2 (Pack16) (VV v_M1) (VV v_M3));
      SVec v_M5 (VOp2 (Pack16) (VV v_M5) (VV v_M7));
      SVec v_M1 (VOp2 (Shuf8) (VV v_M1) (VV v_shuffle));
      SVec v_M5 (VOp2 (Shuf8) (VV v_M5) (VV v_shuffle));
      SVec v_M2 (VOp2 (Pack16) (VV v_M2) (VV v_M4));
      SVec v_M6 (VOp2 (Pack16) (VV v_M6) (VV v_M8));
      SVec v_M2 (VOp2 (Shuf8) (VV v_M2) (VV v_shuffle));
      SVec v_M6 (VOp2 (Shuf8) (VV v_M6) (VV v_shuffle));
      SVec v_M1 (VOp1 (Perm64 114) (VV v_M1));
      SVec v_M5 (VOp1 (Perm64 114) (VV v_M5));
      SVec v_M2 (VOp1 (Perm64 114) (VV v_M2));
      SVec v_M6 (VOp1 (Perm64 114) (VV v_M6));
      SVec v_M3 (VOp2 (UnpL 2) (VV v_M1) (VV v_M5));
      SVec v_M7 (VOp2 (UnpH 2) (VV v_M1) (VV v_M5));
      SVec v_M4 (VOp2 (UnpL 2) (VV v_M2) (VV v_M6));
      SVec v_M8 (VOp2 (UnpH 2) (VV v_M2) (VV v_M6));
      SStore 32 (PAdd (PV v_first_line (IC 0)) (IV v_i)) (VV v_M4);
      SStore 32 (PAdd (PV v_first_line (IC 0)) (IAdd (IC 32) (IV v_i))) (VV v_M8);
      SStore 32 (PAdd (PV v_first_line (IC 0)) (IAdd (IC 64) (IV v_i))) (VV v_M3);
      SStore 32 (PAdd (PV v_first_line (IC 0)) (IAdd (IC 96) (IV v_i))) (VV v_M7);
      SInt v_i (IAdd (IV v_i) (IC 128));
      SPtr v_src (IC 0) (PAdd (PV v_src (IC 0)) (ISub (IC 0) (IC 32)))];
    SIf (ILt (IV v_i) (IV v_line_size)) [
      SVec v_S0 (VLoad 32 0 (PV v_src (IC 0)));
      SVec v_S1 (VLoad 32 0 (PAdd (PV v_src (IC 0)) (ISub (IC 0) (IC 1))));
      SVec v_S2 (VLoad 32 0 (PAdd (PV v_src (IC 0)) (ISub (IC 0) (IC 2))));
      SVec v_S3 (VLoad 32 0 (PAdd (PV v_src (IC 0)) (ISub (IC 0) (IC 3))));
      SVec v_H0 (VOp1 Cvt8 (VOp1 (Ext 1) (VV v_S0)));
      SVec v_H1 (VOp1 Cvt8 (VOp1 (Ext 1) (VV v_S1)));
      SVec v_H2 (VOp1 Cvt8 (VOp1 (Ext 1) (VV v_S2)));
      SVec v_H3 (VOp1 Cvt8 (VOp1 (Ext 1) (VV v_S3)));
      SVec v_p01 (VOp2 (Mul16) (VV v_H0) (VV v_coeff3));
      SVec v_p11 (VOp2 (Mul16) (VV v_H1) (VV v_coeff7));
      SVec v_p21 (VOp2 (Mul16) (VV v_H2) (VV v_coeff5));
      SVec v_p31 (VOp2 (Add16) (VV v_H3) (VV v_coeff8));
      SVec v_p01 (VOp2 (Add16) (VV v_p01) (VV v_p31));
      SVec v_p01 (VOp2 (Add16) (VV v_p01) (VV v_p11));
      SVec v_p01 (VOp2 (Add16) (VV v_p01) (VV v_p21));
      SVec v_M2 (VOp1 (Srl16 4) (VV v_p01));
      SVec v_p01 (VOp2 (Add16) (VV v_H1) (VV v_H2));
      SVec v_p01 (VOp2 (Mul16) (VV v_p01) (VV v_coeff3));
      SVec v_p11 (VOp2 (Add16) (VV v_H0) (VV v_H3));
      SVec v_p11 (VOp2 (Add16) (VV v_p11) (VV v_coeff4));
      SVec v_p01 (VOp2 (Add16) (VV v_p11) (VV v_p01));
      SVec v_M4 (VOp1 (Srl16 3) (VV v_p01));
      SVec v_p11 (VOp2 (Mul16) (VV v_H1) (VV v_coeff5));
      SVec v_p21 (VOp2 (Mul16) (VV v_H2) (VV v_coeff7));
      SVec v_p31 (VOp2 (Mul16) (VV v_H3) (VV v_coeff3));
      SVec v_p01 (VOp2 (Add16) (VV v_H0) (VV v_coeff8));
      SVec v_p01 (VOp2 (Add16) (VV v_p01) (VV v_p11));
      SVec v_p01 (VOp2 (Add16) (VV v_p01) (VV v_p21));
      SVec v_p01 (VOp2 (Add16) (VV v_p01) (VV v_p31));
      SVec v_M6 (VOp1 (Srl16 4) (VV v_p01));
      SVec v_p01 (VOp2 (Add16) (VV v_H1) (VV v_H2));
      SVec v_p11 (VOp2 (Add16) (VV v_H2) (VV v_H3));
      SVec v_p01 (VOp2 (Add16) (VV v_p01) (VV v_p11));
      SVec v_p01 (VOp2 (Add16) (VV v_p01) (VV v_coeff2));
      SVec v_M8 (VOp1 (Srl16 2) (VV v_p01));
      SVec v_M2 (VOp2 (Pack16) (VV v_M2) (VV v_M4));
      SVec v_M6 (VOp2 (Pack16) (VV v_M6) (VV v_M8));
      SVec v_M2 (VOp2 (Shuf8) (VV v_M2) (VV v_shuffle));
      SVec v_M6 (VOp2 (Shuf8) (VV v_M6) (VV v_shuffle));
      SVec v_M2 (VOp1 (Perm64 114) (VV v_M2));
      SVec v_M6 (VOp1 (Perm64 114) (VV v_M6));
      SVec v_M4 (VOp2 (UnpL 2) (VV v_M2) (VV v_M6));
      SVec v_M8 (VOp2 (UnpH 2) (VV v_M2) (VV v_M6));
      SStore 32 (PAdd (PV v_first_line (IC 0)) (IV v_i)) (VV v_M4);
      SStore 32 (PAdd (PV v_first_line (IC 0)) (IAdd (IC 32) (IV v_i))) (VV v_M8)] [];
    SIf (IEq (IV v_bsx) (IC 64)) [
      SInt v_i (IC 0);
      SLoop (ILt (IV v_i) (IV v_iHeight4)) [
        SVec v_M (VLoad 32 0 (PAdd (PV v_first_line (IC 0)) (IV v_i)));
        SStore 32 (PV v_dst (IC 0)) (VV v_M);
        SVec v_M (VLoad 32 0 (PAdd (PAdd (PV v_first_line (IC 0)) (IV v_i)) (IC 32)));
        SStore 32 (PAdd (PV v_dst (IC 0)) (IC 32)) (VV v_M);
        SPtr v_dst (IC 0) (PAdd (PV v_dst (IC 0)) (IV v_i_dst));
        SVec v_M (VLoad 32 0 (PAdd (PAdd (PV v_first_line (IC 0)) (IV v_i)) (IC 4)));
        SStore 32 (PV v_dst (IC 0)) (VV v_M);
        SVec v_M (VLoad 32 0 (PAdd (PAdd (PAdd (PV v_first_line (IC 0)) (IV v_i)) (IC 32)) (IC 4)));
        SStore 32 (PAdd (PV v_dst (IC 0)) (IC 32)) (VV v_M);
        SPtr v_dst (IC 0) (PAdd (PV v_dst (IC 0)) (IV v_i_dst));
        SVec v_M (VLoad 32 0 (PAdd (PAdd (PV v_first_line (IC 0)) (IV v_i)) (IC 8)));
        SStore 32 (PV v_dst (IC 0)) (VV v_M);
        SVec v_M (VLoad 32 0 (PAdd (PAdd (PAdd (PV v_first_line (IC 0)) (IV v_i)) (IC 32)) (IC 8)));
        SStore 32 (PAdd (PV v_dst (IC 0)) (IC 32)) (VV v_M);
        SPtr v_dst (IC 0) (PAdd (PV v_dst (IC 0)) (IV v_i_dst));
        SVec v_M (VLoad 32 0 (PAdd (PAdd (PV v_first_line (IC 0)) (IV v_i)) (IC 12)));
        SStore 32 (PV v_dst (IC 0)) (VV v_M);
        SVec v_M (VLoad 32 0 (PAdd (PAdd (PAdd (PV v_first_line (IC 0)) (IV v_i)) (IC 32)) (IC 12)));
        SStore 32 (PAdd (PV v_dst (IC 0)) (IC 32)) (VV v_M);
        SPtr v_dst (IC 0) (PAdd (PV v_dst (IC 0)) (IV v_i_dst));
        SInt v_i (IAdd (IV v_i) (IC 16))]] [
      SIf (IEq (IV v_bsx) (IC 32)) [
        SInt v_i (IC 0);
        SLoop (ILt (IV v_i) (IV v_iHeight4)) [
          SVec v_M (VLoad 32 0 (PAdd (PV v_first_line (IC 0)) (IV v_i)));
          SStore 32 (PV v_dst (IC 0)) (VV v_M);
          SPtr v_dst (IC 0) (PAdd (PV v_dst (IC 0)) (IV v_i_dst));
          SVec v_M (VLoad 32 0 (PAdd (PAdd (PV v_first_line (IC 0)) (IV v_i)) (IC 4)));
          SStore 32 (PV v_dst (IC 0)) (VV v_M);
          SPtr v_dst (IC 0) (PAdd (PV v_dst (IC 0)) (IV v_i_dst));
          SVec v_M (VLoad 32 0 (PAdd (PAdd (PV v_first_line (IC 0)) (IV v_i)) (IC 8)));
          SStore 32 (PV v_dst (IC 0)) (VV v_M);
          SPtr v_dst (IC 0) (PAdd (PV v_dst (IC 0)) (IV v_i_dst));
          SVec v_M (VLoad 32 0 (PAdd (PAdd (PV v_first_line (IC 0)) (IV v_i)) (IC 12)));
          SStore 32 (PV v_dst (IC 0)) (VV v_M);
          SPtr v_dst (IC 0) (PAdd (PV v_dst (IC 0)) (IV v_i_dst));
          SInt v_i (IAdd (IV v_i) (IC 16))]] [
        SIf (IEq (IV v_bsx) (IC 16)) [
          SVec v_mask (VTab intrinsic_mask_256_8bit (IC 15));
          SInt v_i (IC 0);
          SLoop (ILt (IV v_i) (IV v_iHeight4)) [
            SVec v_M (VLoad 32 0 (PAdd (PV v_first_line (IC 0)) (IV v_i)));
            SMask 8 (PV v_dst (IC 0)) (VV v_mask) (VV v_M);
            SPtr v_dst (IC 0) (PAdd (PV v_dst (IC 0)) (IV v_i_dst));
            SVec v_M (VLoad 32 0 (PAdd (PAdd (PV v_first_line (IC 0)) (IV v_i)) (IC 4)));
            SMask 8 (PV v_dst (IC 0)) (VV v_mask) (VV v_M);
            SPtr v_dst (IC 0) (PAdd (PV v_dst (IC 0)) (IV v_i_dst));
            SVec v_M (VLoad 32 0 (PAdd (PAdd (PV v_first_line (IC 0)) (IV v_i)) (IC 8)));
            SMask 8 (PV v_dst (IC 0)) (VV v_mask) (VV v_M);
            SPtr v_dst (IC 0) (PAdd (PV v_dst (IC 0)) (IV v_i_dst));
            SVec v_M (VLoad 32 0 (PAdd (PAdd (PV v_first_line (IC 0)) (IV v_i)) (IC 12)));
            SMask 8 (PV v_dst (IC 0)) (VV v_mask) (VV v_M);
            SPtr v_dst (IC 0) (PAdd (PV v_dst (IC 0)) (IV v_i_dst));
            SInt v_i (IAdd (IV v_i) (IC 16))]] [
          SVec v_mask (VTab intrinsic_mask_256_8bit (IC 7));
          SInt v_i (IC 0);
          SLoop (ILt (IV v_i) (IV v_iHeight4)) [
            SVec v_M (VLoad 32 0 (PAdd (PV v_first_line (IC 0)) (IV v_i)));
            SMask 8 (PV v_dst (IC 0)) (VV v_mask) (VV v_M);
            SPtr v_dst (IC 0) (PAdd (PV v_dst (IC 0)) (IV v_i_dst));
            SVec v_M (VLoad 32 0 (PAdd (PAdd (PV v_first_line (IC 0)) (IV v_i)) (IC 4)));
            SMask 8 (PV v_dst (IC 0)) (VV v_mask) (VV v_M);
            SPtr v_dst (IC 0) (PAdd (PV v_dst (IC 0)) (IV v_i_dst));
            SVec v_M (VLoad 32 0 (PAdd (PAdd (PV v_first_line (IC 0)) (IV v_i)) (IC 8)));
            SMask 8 (PV v_dst (IC 0)) (VV v_mask) (VV v_M);
            SPtr v_dst (IC 0) (PAdd (PV v_dst (IC 0)) (IV v_i_dst));
            SVec v_M (VLoad 32 0 (PAdd (PAdd (PV v_first_line (IC 0)) (IV v_i)) (IC 12)));
            SMask 8 (PV v_dst (IC 0)) (VV v_mask) (VV v_M);
            SPtr v_dst (IC 0) (PAdd (PV v_dst (IC 0)) (IV v_i_dst));
            SInt v_i (IAdd (IV v_i) (IC 16))]]]]] [
    SCall k_ang_y_26_sse128 (PV v_src (IC 0)) (PV v_dst (IC 0)) (IV v_i_dst) (IV v_bsx) (IV v_bsy);
    SRet]].

(** vec/intrinsic_intra-pred_avx2.cc:3875-4119 [intra_pred_ang_y_28_avx] *)
Definition k_ang_y_28_avx : list stm := [
  SArr v_first_line (IAdd (IC 64) (IC 128));
  SInt v_line_size (IAdd (IV v_bsx) (IMul (ISub (IV v_bsy) (IC 1)) (IC 2)));
  SInt v_iHeight2 (IShl (IV v_bsy) (IC 1));
  SVec v_coeff2 (VSet1 2 16 (XC 2));
  SVec v_coeff3 (VSet1 2 16 (XC 3));
  SVec v_coeff4 (VSet1 2 16 (XC 4));
  SVec v_shuffle (VConst [7;15;6;14;5;13;4;12;3;11;2;10;1;9;0;8;7;15;6;14;5;13;4;12;3;11;2;10;1;9;0;8]);
  SPtr v_src (IC 0) (PAdd (PV v_src (IC 0)) (ISub (IC 0) (IC 31)));
  SInt v_i (IC 0);
  SLoop (ILt (IV v_i) (ISub (IV v_line_size) (IC 32))) [
    SVec v_S0 (VLoad 32 0 (PV v_src (IC 0)));
    SVec v_S3 (VLoad 32 0 (PAdd (PV v_src (IC 0)) (ISub (IC 0) (IC 3))));
    SVec v_S1 (VLoad 32 0 (PAdd (PV v_src (IC 0)) (ISub (IC 0) (IC 1))));
    SVec v_S2 (VLoad 32 0 (PAdd (PV v_src (IC 0)) (ISub (IC 0) (IC 2))));
    SVec v_L0 (VOp1 Cvt8 (VOp1 (Ext 0) (VV v_S0)));
    SVec v_L1 (VOp1 Cvt8 (VOp1 (Ext 0) (VV v_S1)));
    SVec v_L2 (VOp1 Cvt8 (VOp1 (Ext 0) (VV v_S2)));
    SVec v_L3 (VOp1 Cvt8 (VOp1 (Ext 0) (VV v_S3)));
    SVec v_H0 (VOp1 Cvt8 (VOp1 (Ext 1) (VV v_S0)));
    SVec v_H1 (VOp1 Cvt8 (VOp1 (Ext 1) (VV v_S1)));
    SVec v_H2 (VOp1 Cvt8 (VOp1 (Ext 1) (VV v_S2)));
    SVec v_H3 (VOp1 Cvt8 (VOp1 (Ext 1) (VV v_S3)));
    SVec v_p00 (VOp2 (Adds16) (VV v_L1) (VV v_L2));
    SVec v_p00 (VOp2 (Mul16) (VV v_p00) (VV v_coeff3));
    SVec v_p10 (VOp2 (Add16) (VV v_L0) (VV v_L3));
    SVec v_p10 (VOp2 (Add16) (VV v_p10) (VV v_coeff4));
    SVec v_p00 (VOp2 (Add16) (VV v_p00) (VV v_p10));
    SVec v_p00 (VOp1 (Srl16 3) (VV v_p00));
    SVec v_p01 (VOp2 (Add16) (VV v_L1) (VV v_L2));
    SVec v_p11 (VOp2 (Add16) (VV v_L2) (VV v_L3));
    SVec v_p01 (VOp2 (Add16) (VV v_p01) (VV v_p11));
    SVec v_p01 (VOp2 (Add16) (VV v_p01) (VV v_coeff2));
    SVec v_p01 (VOp1 (Srl16 2) (VV v_p01));
    SVec v_p00 (VOp2 (Pack16) (VV v_p00) (VV v_p01));
    SVec v_p00 (VOp2 (Shuf8) (VV v_p00) (VV v_shuffle));
    SVec v_p00 (VOp1 (Perm64 78) (VV v_p00));
    SStore 32 (PAdd (PV v_first_line (IC 0)) (IAdd (IV v_i) (IC 32))) (VV v_p00);
    SVec v_p00 (VOp2 (Adds16) (VV v_H1) (VV v_H2));
    SVec v_p00 (VOp2 (Mul16) (VV v_p00) (VV v_coeff3));
    SVec v_p10 (VOp2 (Adds16) (VV v_H0) (VV v_H3));
    SVec v_p10 (VOp2 (Adds16) (VV v_p10) (VV v_coeff4));
    SVec v_p00 (VOp2 (Adds16) (VV v_p00) (VV v_p10));
    SVec v_p00 (VOp1 (Srl16 3) (VV v_p00));
    SVec v_p01 (VOp2 (Add16) (VV v_H1) (VV v_H2));
    SVec v_p11 (VOp2 (Add16) (VV v_H2) (VV v_H3));
    SVec v_p01 (VOp2 (Add16) (VV v_p01) (VV v_p11));
    SVec v_p01 (VOp2 (Add16) (VV v_p01) (VV v_coeff2));
    SVec v_p01 (VOp1 (Srl16 2) (VV v_p01));
    SVec v_p00 (VOp2 (Pack16) (VV v_p00) (VV v_p01));
    SVec v_p00 (VOp2 (Shuf8) (VV v_p00) (VV v_shuffle));
    SVec v_p00 (VOp1 (Perm64 78) (VV v_p00));
    SStore 32 (PAdd (PV v_first_line (IC 0)) (IV v_i)) (VV v_p00);
    SInt v_i (IAdd (IV v_i) (IC 64));
    SPtr v_src (IC 0) (PAdd (PV v_src (IC 0)) (ISub (IC 0) (IC 32)))];
  SIf (ILt (IV v_i) (IV v_line_size)) [
    SVec v_S0 (VLoad 32 0 (PV v_src (IC 0)));
    SVec v_S3 (VLoad 32 0 (PAdd (PV v_src (IC 0)) (ISub (IC 0) (IC 3))));
    SVec v_S1 (VLoad 32 0 (PAdd (PV v_src (IC 0)) (ISub (IC 0) (IC 1))));
    SVec v_S2 (VLoad 32 0 (PAdd (PV v_src (IC 0)) (ISub (IC 0) (IC 2))));
    SVec v_H0 (VOp1 Cvt8 (VOp1 (Ext 1) (VV v_S0)));
    SVec v_H1 (VOp1 Cvt8 (VOp1 (Ext 1) (VV v_S1)));
    SVec v_H2 (VOp1 Cvt8 (VOp1 (Ext 1) (VV v_S2)));
    SVec v_H3 (VOp1 Cvt8 (VOp1 (Ext 1) (VV v_S3)));
    SVec v_p00 (VOp2 (Adds16) (VV v_H1) (VV v_H2));
    SVec v_p00 (VOp2 (Mul16) (VV v_p00) (VV v_coeff3));
    SVec v_p10 (VOp2 (Adds16) (VV v_H0) (VV v_H3));
    SVec v_p10 (VOp2 (Adds16) (VV v_p10) (VV v_coeff4));
    SVec v_p00 (VOp2 (Adds16) (VV v_p00) (VV v_p10));
    SVec v_p00 (VOp1 (Srl16 3) (VV v_p00));
    SVec v_p01 (VOp2 (Add16) (VV v_H1) (VV v_H2));
    SVec v_p11 (VOp2 (Add16) (VV v_H2) (VV v_H3));
    SVec v_p01 (VOp2 (Add16) (VV v_p01) (VV v_p11));
    SVec v_p01 (VOp2 (Add16) (VV v_p01) (VV v_coeff2));
    SVec v_p01 (VOp1 (Srl16 2) (VV v_p01));
    SVec v_p00 (VOp2 (Pack16) (VV v_p00) (VV v_p01));
    SVec v_p00 (VOp2 (Shuf8) (VV v_p00) (VV v_shuffle));
    SVec v_p00 (VOp1 (Perm64 78) (VV v_p00));
    SStore 32 (PAdd (PV v_first_line (IC 0)) (IV v_i)) (VV v_p00)] [];
  SIf (IEq (IV v_bsx) (IC 64)) [
    SInt v_i (IC 0);
    SLoop (ILt (IV v_i) (IV v_iHeight2)) [
      SVec v_M (VLoad 32 0 (PAdd (PV v_first_line (IC 0)) (IV v_i)));
      SStore 32 (PV v_dst (IC 0)) (VV v_M);
      SVec v_M (VLoad 32 0 (PAdd (PAdd (PV v_first_line (IC 0)) (IV v_i)) (IC 32)));
      SStore 32 (PAdd (PV v_dst (IC 0)) (IC 32)) (VV v_M);
      SPtr v_dst (IC 0) (PAdd (PV v_dst (IC 0)) (IV v_i_dst));
      SVec v_M (VLoad 32 0 (PAdd (PV v_first_line (IC 0)) (IAdd (IV v_i) (IC 2))));
      SStore 32 (PV v_dst (IC 0)) (VV v_M);
      SVec v_M (VLoad 32 0 (PAdd (PAdd (PV v_first_line (IC 0)) (IAdd (IV v_i) (IC 2))) (IC 32)));
      SStore 32 (PAdd (PV v_dst (IC 0)) (IC 32)) (VV v_M);
      SPtr v_dst (IC 0) (PAdd (PV v_dst (IC 0)) (IV v_i_dst));
      SVec v_M (VLoad 32 0 (PAdd (PV v_first_line (IC 0)) (IAdd (IV v_i) (IC 4))));
      SStore 32 (PV v_dst (IC 0)) (VV v_M);
      SVec v_M (VLoad 32 0 (PAdd (PAdd (PV v_first_line (IC 0)) (IAdd (IV v_i) (IC 4))) (IC 32)));
      SStore 32 (PAdd (PV v_dst (IC 0)) (IC 32)) (VV v_M);
      SPtr v_dst (IC 0) (PAdd (PV v_dst (IC 0)) (IV v_i_dst));
      SVec v_M (VLoad 32 0 (PAdd (PV v_first_line (IC 0)) (IAdd (IV v_i) (IC 6))));
      SStore 32 (PV v_dst (IC 0)) (VV v_M);
      SVec v_M (VLoad 32 0 (PAdd (PAdd (PV v_first_line (IC 0)) (IAdd (IV v_i) (IC 6))) (IC 32)));
      SStore 32 (PAdd (PV v_dst (IC 0)) (IC 32)) (VV v_M);
      SPtr v_dst (IC 0) (PAdd (PV v_dst (IC 0)) (IV v_i_dst));
      SInt v_i (IAdd (IV v_i) (IC 8))]] [
    SIf (IEq (IV v_bsx) (IC 32)) [
      SInt v_i (IC 0);
      SLoop (ILt (IV v_i) (IV v_iHeight2)) [
        SVec v_M (VLoad 32 0 (PAdd (PV v_first_line (IC 0)) (IV v_i)));
        SStore 32 (PV v_dst (IC 0)) (VV v_M);
        SPtr v_dst (IC 0) (PAdd (PV v_dst (IC 0)) (IV v_i_dst));
        SVec v_M (VLoad 32 0 (PAdd (PV v_first_line (IC 0)) (IAdd (IV v_i) (IC 2))));
        SStore 32 (PV v_dst (IC 0)) (VV v_M);
        SPtr v_dst (IC 0) (PAdd (PV v_dst (IC 0)) (IV v_i_dst));
        SVec v_M (VLoad 32 0 (PAdd (PV v_first_line (IC 0)) (IAdd (IV v_i) (IC 4))));
        SStore 32 (PV v_dst (IC 0)) (VV v_M);
        SPtr v_dst (IC 0) (PAdd (PV v_dst (IC 0)) (IV v_i_dst));
        SVec v_M (VLoad 32 0 (PAdd (PV v_first_line (IC 0)) (IAdd (IV v_i) (IC 6))));
        SStore 32 (PV v_dst (IC 0)) (VV v_M);
        SPtr v_dst (IC 0) (PAdd (PV v_dst (IC 0)) (IV v_i_dst));
        SInt v_i (IAdd (IV v_i) (IC 8))]] [
      SIf (IEq (IV v_bsx) (IC 16)) [
        SVec v_mask (VTab intrinsic_mask_256_8bit (IC 15));
        SInt v_i (IC 0);
        SLoop (ILt (IV v_i) (IV v_iHeight2)) [
          SVec v_M (VLoad 32 0 (PAdd (PV v_first_line (IC 0)) (IV v_i)));
          SMask 8 (PV v_dst (IC 0)) (VV v_mask) (VV v_M);
          SPtr v_dst (IC 0) (PAdd (PV v_dst (IC 0)) (IV v_i_dst));
          SVec v_M (VLoad 32 0 (PAdd (PV v_first_line (IC 0)) (IAdd (IV v_i) (IC 2))));
          SMask 8 (PV v_dst (IC 0)) (VV v_mask) (VV v_M);
          SPtr v_dst (IC 0) (PAdd (PV v_dst (IC 0)) (IV v_i_dst));
          SVec v_M (VLoad 32 0 (PAdd (PV v_first_line (IC 0)) (IAdd (IV v_i) (IC 4))));
          SMask 8 (PV v_dst (IC 0)) (VV v_mask) (VV v_M);
          SPtr v_dst (IC 0) (PAdd (PV v_dst (IC 0)) (IV v_i_dst));
          SVec v_M (VLoad 32 0 (PAdd (PV v_first_line (IC 0)) (IAdd (IV v_i) (IC 6))));
          SMask 8 (PV v_dst (IC 0)) (VV v_mask) (VV v_M);
          SPtr v_dst (IC 0) (PAdd (PV v_dst (IC 0)) (IV v_i_dst));
          SInt v_i (IAdd (IV v_i) (IC 8))]] [
        SIf (IEq (IV v_bsx) (IC 8)) [
          SVec v_mask (VTab intrinsic_mask_256_8bit (IC 7));
          SInt v_i (IC 0);
          SLoop (ILt (IV v_i) (IV v_iHeight2)) [
            SVec v_M (VLoad 32 0 (PAdd (PV v_first_line (IC 0)) (IV v_i)));
            SMask 8 (PV v_dst (IC 0)) (VV v_mask) (VV v_M);
            SPtr v_dst (IC 0) (PAdd (PV v_dst (IC 0)) (IV v_i_dst));
            SVec v_M (VLoad 32 0 (PAdd (PV v_first_line (IC 0)) (IAdd (IV v_i) (IC 2))));
            SMask 8 (PV v_dst (IC 0)) (VV v_mask) (VV v_M);
            SPtr v_dst (IC 0) (PAdd (PV v_dst (IC 0)) (IV v_i_dst));
            SVec v_M (VLoad 32 0 (PAdd (PV v_first_line (IC 0)) (IAdd (IV v_i) (IC 4))));
            SMask 8 (PV v_dst (IC 0)) (VV v_mask) (VV v_M);
            SPtr v_dst (IC 0) (PAdd (PV v_dst (IC 0)) (IV v_i_dst));
            SVec v_M (VLoad 32 0 (PAdd (PV v_first_line (IC 0)) (IAdd (IV v_i) (IC 6))));
            SMask 8 (PV v_dst (IC 0)) (VV v_mask) (VV v_M);
            SPtr v_dst (IC 0) (PAdd (PV v_dst (IC 0)) (IV v_i_dst));
            SInt v_i (IAdd (IV v_i) (IC 8))]] [
          SVec v_mask (VTab intrinsic_mask_256_8bit (IC 3));
          SInt v_i (IC 0);
          SLoop (ILt (IV v_i) (IV v_iHeight2)) [
            SVec v_M (VLoad 32 0 (PAdd (PV v_first_line (IC 0)) (IV v_i)));
            SMask 4 (PV v_dst (IC 0)) (VV v_mask) (VV v_M);
            SPtr v_dst (IC 0) (PAdd (PV v_dst (IC 0)) (IV v_i_dst));
            SVec v_M (VLoad 32 0 (PAdd (PV v_first_line (IC 0)) (IAdd (IV v_i) (IC 2))));
            SMask 4 (PV v_dst (IC 0)) (VV v_mask) (VV v_M);
            SPtr v_dst (IC 0) (PAdd (PV v_dst (IC 0)) (IV v_i_dst));
            SVec v_M (VLoad 32 0 (PAdd (PV v_first_line (IC 0)) (IAdd (IV v_i) (IC 4))));
            SMask 4 (PV v_dst (IC 0)) (VV v_mask) (VV v_M);
            SPtr v_dst (IC 0) (PAdd (PV v_dst (IC 0)) (IV v_i_dst));
            SVec v_M (VLoad 32 0 (PAdd (PV v_first_line (IC 0)) (IAdd (IV v_i) (IC 6))));
            SMask 4 (PV v_dst (IC 0)) (VV v_mask) (VV v_M);
            SPtr v_dst (IC 0) (PAdd (PV v_dst (IC 0)) (IV v_i_dst));
            SInt v_i (IAdd (IV v_i) (IC 8))]]]]]].

(** vec/intrinsic_intra-pred_avx2.cc:4121-4424 [intra_pred_ang_y_30_avx] *)
Definition k_ang_y_30_avx : list stm := [
  SArr v_first_line (IAdd (IC 64) (IC 64));
  SInt v_line_size (ISub (IAdd (IV v_bsx) (IV v_bsy)) (IC 1));
  SVec v_coeff2 (VSet1 2 16 (XC 2));
  SVec v_shuffle (VConst [15;14;13;12;11;10;9;8;7;6;5;4;3;2;1;0;15;14;13;12;11;10;9;8;7;6;5;4;3;2;1;0]);
  SPtr v_src (IC 0) (PAdd (PV v_src (IC 0)) (ISub (IC 0) (IC 33)));
  SInt v_i (IC 0);
  SLoop (ILt (IV v_i) (ISub (IV v_line_size) (IC 16))) [
    SVec v_S0 (VLoad 32 0 (PAdd (PV v_src (IC 0)) (ISub (IC 0) (IC 1))));
    SVec v_S1 (VLoad 32 0 (PV v_src (IC 0)));
    SVec v_S2 (VLoad 32 0 (PAdd (PV v_src (IC 0)) (IC 1)));
    SVec v_L0 (VOp1 Cvt8 (VOp1 (Ext 0) (VV v_S0)));
    SVec v_L1 (VOp1 Cvt8 (VOp1 (Ext 0) (VV v_S1)));
    SVec v_L2 (VOp1 Cvt8 (VOp1 (Ext 0) (VV v_S2)));
    SVec v_H0 (VOp1 Cvt8 (VOp1 (Ext 1) (VV v_S0)));
    SVec v_H1 (VOp1 Cvt8 (VOp1 (Ext 1) (VV v_S1)));
    SVec v_H2 (VOp1 Cvt8 (VOp1 (Ext 1) (VV v_S2)));
    SVec v_p00 (VOp2 (Add16) (VV v_L0) (VV v_L1));
    SVec v_p10 (VOp2 (Add16) (VV v_L1) (VV v_L2));
    SVec v_p00 (VOp2 (Add16) (VV v_p00) (VV v_p10));
    SVec v_p00 (VOp2 (Add16) (VV v_p00) (VV v_coeff2));
    SVec v_p00 (VOp1 (Srl16 2) (VV v_p00));
    SVec v_p01 (VOp2 (Add16) (VV v_H0) (VV v_H1));
    SVec v_p11 (VOp2 (Add16) (VV v_H1) (VV v_H2));
    SVec v_p01 (VOp2 (Add16) (VV v_p01) (VV v_p11));
    SVec v_p01 (VOp2 (Add16) (VV v_p01) (VV v_coeff2));
    SVec v_p01 (VOp1 (Srl16 2) (VV v_p01));
    SVec v_p00 (VOp2 (Pack16) (VV v_p00) (VV v_p01));
    SVec v_p00 (VOp1 (Perm64 141) (VV v_p00));
    SVec v_p00 (VOp2 (Shuf8) (VV v_p00) (VV v_shuffle));
    SStore 32 (PAdd (PV v_first_line (IC 0)) (IV v_i)) (VV v_p00);
    SInt v_i (IAdd (IV v_i) (IC 32));
    SPtr v_src (IC 0) (PAdd (PV v_src (IC 0)) (ISub (IC 0) (IC 32)))];
  SVec v_mask (VTab intrinsic_mask_256_8bit (IC 15));
  SIf (ILt (IV v_i) (IV v_line_size)) [
    SVec v_S0 (VLoad 32 0 (PAdd (PV v_src (IC 0)) (ISub (IC 0) (IC 1))));
    SVec v_S1 (VLoad 32 0 (PV v_src (IC 0)));
    SVec v_S2 (VLoad 32 0 (PAdd (PV v_src (IC 0)) (IC 1)));
    SVec v_H0 (VOp1 Cvt8 (VOp1 (Ext 1) (VV v_S0)));
    SVec v_H1 (VOp1 Cvt8 (VOp1 (Ext 1) (VV v_S1)));
    SVec v_H2 (VOp1 Cvt8 (VOp1 (Ext 1) (VV v_S2)));
    SVec v_p01 (VOp2 (Add16) (VV v_H0) (VV v_H1));
    SVec v_p11 (VOp2 (Add16) (VV v_H1) (VV v_H2));
    SVec v_p01 (VOp2 (Add16) (VV v_p01) (VV v_p11));
    SVec v_p01 (VOp2 (Add16) (VV v_p01) (VV v_coeff2));
    SVec v_p01 (VOp1 (Srl16 2) (VV v_p01));
    SVec v_p01 (VOp2 (Pack16) (VV v_p01) (VV v_p01));
    SVec v_p01 (VOp1 (Perm64 8) (VV v_p01));
    SVec v_p01 (VOp2 (Shuf8) (VV v_p01) (VV v_shuffle));
    SMask 8 (PAdd (PV v_first_line (IC 0)) (IV v_i)) (VV v_mask) (VV v_p01)] [];
  SIf (IEq (IV v_bsx) (IC 64)) [
    SInt v_i (IC 0);
    SLoop (ILt (IV v_i) (IV v_bsy)) [
      SVec v_M (VLoad 32 0 (PAdd (PV v_first_line (IC 0)) (IV v_i)));
      SStore 32 (PV v_dst (IC 0)) (VV v_M);
      SVec v_M (VLoad 32 0 (PAdd (PAdd (PV v_first_line (IC 0)) (IV v_i)) (IC 32)));
      SStore 32 (PAdd (PV v_dst (IC 0)) (IC 32)) (VV v_M);
      SPtr v_dst (IC 0) (PAdd (PV v_dst (IC 0)) (IV v_i_dst));
      SVec v_M (VLoad 32 0 (PAdd (PAdd (PV v_first_line (IC 0)) (IV v_i)) (IC 1)));
      SStore 32 (PV v_dst (IC 0)) (VV v_M);
      SVec v_M (VLoad 32 0 (PAdd (PAdd (PAdd (PV v_first_line (IC 0)) (IV v_i)) (IC 32)) (IC 1)));
      SStore 32 (PAdd (PV v_dst (IC 0)) (IC 32)) (VV v_M);
      SPtr v_dst (IC 0) (PAdd (PV v_dst (IC 0)) (IV v_i_dst));
      SVec v_M (VLoad 32 0 (PAdd (PAdd (PV v_first_line (IC 0)) (IV v_i)) (IC 2)));
      SStore 32 (PV v_dst (IC 0)) (VV v_M);
      SVec v_M (VLoad 32 0 (PAdd (PAdd (PAdd (PV v_first_line (IC 0)) (IV v_i)) (IC 32)) (IC 2)));
      SStore 32 (PAdd (PV v_dst (IC 0)) (IC 32)) (VV v_M);
      SPtr v_dst (IC 0) (PAdd (PV v_dst (IC 0)) (IV v_i_dst));
      SVec v_M (VLoad 32 0 (PAdd (PAdd (PV v_first_line (IC 0)) (IV v_i)) (IC 3)));
      SStore 32 (PV v_dst (IC 0)) (VV v_M);
      SVec v_M (VLoad 32 0 (PAdd (PAdd (PAdd (PV v_first_line (IC 0)) (IV v_i)) (IC 32)) (IC 3)));
      SStore 32 (PAdd (PV v_dst (IC 0)) (IC 32)) (VV v_M);
      SPtr v_dst (IC 0) (PAdd (PV v_dst (IC 0)) (IV v_i_dst));
      SInt v_i (IAdd (IV v_i) (IC 4))]] [
    SIf (IEq (IV v_bsx) (IC 32)) [
      SInt v_i (IC 0);
      SLoop (ILt (IV v_i) (IV v_bsy)) [
        SVec v_M (VLoad 32 0 (PAdd (PV v_first_line (IC 0)) (IV v_i)));
        SStore 32 (PV v_dst (IC 0)) (VV v_M);
        SPtr v_dst (IC 0) (PAdd (PV v_dst (IC 0)) (IV v_i_dst));
        SVec v_M (VLoad 32 0 (PAdd (PAdd (PV v_first_line (IC 0)) (IV v_i)) (IC 1)));
        SStore 32 (PV v_dst (IC 0)) (VV v_M);
        SPtr v_dst (IC 0) (PAdd (PV v_dst (IC 0)) (IV v_i_dst));
        SVec v_M (VLoad 32 0 (PAdd (PAdd (PV v_first_line (IC 0)) (IV v_i)) (IC 2)));
        SStore 32 (PV v_dst (IC 0)) (VV v_M);
        SPtr v_dst (IC 0) (PAdd (PV v_dst (IC 0)) (IV v_i_dst));
        SVec v_M (VLoad 32 0 (PAdd (PAdd (PV v_first_line (IC 0)) (IV v_i)) (IC 3)));
        SStore 32 (PV v_dst (IC 0)) (VV v_M);
        SPtr v_dst (IC 0) (PAdd (PV v_dst (IC 0)) (IV v_i_dst));
        SInt v_i (IAdd (IV v_i) (IC 4))]] [
      SIf (IEq (IV v_bsx) (IC 16)) [
        SVec v_mask (VTab intrinsic_mask_256_8bit (IC 15));
        SInt v_i (IC 0);
        SLoop (ILt (IV v_i) (IV v_bsy)) [
          SVec v_M (VLoad 32 0 (PAdd (PV v_first_line (IC 0)) (IV v_i)));
          SMask 8 (PV v_dst (IC 0)) (VV v_mask) (VV v_M);
          SPtr v_dst (IC 0) (PAdd (PV v_dst (IC 0)) (IV v_i_dst));
          SVec v_M (VLoad 32 0 (PAdd (PAdd (PV v_first_line (IC 0)) (IV v_i)) (IC 1)));
          SMask 8 (PV v_dst (IC 0)) (VV v_mask) (VV v_M);
          SPtr v_dst (IC 0) (PAdd (PV v_dst (IC 0)) (IV v_i_dst));
          SVec v_M (VLoad 32 0 (PAdd (PAdd (PV v_first_line (IC 0)) (IV v_i)) (IC 2)));
          SMask 8 (PV v_dst (IC 0)) (VV v_mask) (VV v_M);
          SPtr v_dst (IC 0) (PAdd (PV v_dst (IC 0)) (IV v_i_dst));
          SVec v_M (VLoad 32 0 (PAdd (PAdd (PV v_first_line (IC 0)) (IV v_i)) (IC 3)));
          SMask 8 (PV v_dst (IC 0)) (VV v_mask) (VV v_M);
          SPtr v_dst (IC 0) (PAdd (PV v_dst (IC 0)) (IV v_i_dst));
          SInt v_i (IAdd (IV v_i) (IC 4))]] [
        SIf (IEq (IV v_bsx) (IC 8)) [
          SVec v_mask (VTab intrinsic_mask_256_8bit (IC 7));
          SInt v_i (IC 0);
          SLoop (ILt (IV v_i) (IV v_bsy)) [
            SVec v_M (VLoad 32 0 (PAdd (PV v_first_line (IC 0)) (IV v_i)));
            SMask 8 (PV v_dst (IC 0)) (VV v_mask) (VV v_M);
            SPtr v_dst (IC 0) (PAdd (PV v_dst (IC 0)) (IV v_i_dst));
            SVec v_M (VLoad 32 0 (PAdd (PAdd (PV v_first_line (IC 0)) (IV v_i)) (IC 1)));
            SMask 8 (PV v_dst (IC 0)) (VV v_mask) (VV v_M);
            SPtr v_dst (IC 0) (PAdd (PV v_dst (IC 0)) (IV v_i_dst));
            SVec v_M (VLoad 32 0 (PAdd (PAdd (PV v_first_line (IC 0)) (IV v_i)) (IC 2)));
            SMask 8 (PV v_dst (IC 0)) (VV v_mask) (VV v_M);
            SPtr v_dst (IC 0) (PAdd (PV v_dst (IC 0)) (IV v_i_dst));
            SVec v_M (VLoad 32 0 (PAdd (PAdd (PV v_first_line (IC 0)) (IV v_i)) (IC 3)));
            SMask 8 (PV v_dst (IC 0)) (VV v_mask) (VV v_M);
            SPtr v_dst (IC 0) (PAdd (PV v_dst (IC 0)) (IV v_i_dst));
            SInt v_i (IAdd (IV v_i) (IC 4))]] [
          SVec v_mask (VTab intrinsic_mask_256_8bit (IC 3));
          SInt v_i (IC 0);
          SLoop (ILt (IV v_i) (IV v_bsy)) [
            SVec v_M (VLoad 32 0 (PAdd (PV v_first_line (IC 0)) (IV v_i)));
            SMask 4 (PV v_dst (IC 0)) (VV v_mask) (VV v_M);
            SPtr v_dst (IC 0) (PAdd (PV v_dst (IC 0)) (IV v_i_dst));
            SVec v_M (VLoad 32 0 (PAdd (PAdd (PV v_first_line (IC 0)) (IV v_i)) (IC 1)));
            SMask 4 (PV v_dst (IC 0)) (VV v_mask) (VV v_M);
            SPtr v_dst (IC 0) (PAdd (PV v_dst (IC 0)) (IV v_i_dst));
            SVec v_M (VLoad 32 0 (PAdd (PAdd (PV v_first_line (IC 0)) (IV v_i)) (IC 2)));
            SMask 4 (PV v_dst (IC 0)) (VV v_mask) (VV v_M);
            SPtr v_dst (IC 0) (PAdd (PV v_dst (IC 0)) (IV v_i_dst));
            SVec v_M (VLoad 32 0 (PAdd (PAdd (PV v_first_line (IC 0)) (IV v_i)) (IC 3)));
            SMask 4 (PV v_dst (IC 0)) (VV v_mask) (VV v_M);
            SPtr v_dst (IC 0) (PAdd (PV v_dst (IC 0)) (IV v_i_dst));
            SInt v_i (IAdd (IV v_i) (IC 4))]]]]]].

(** vec/intrinsic_intra-pred_avx2.cc:4426-4483 [intra_pred_ang_y_31_avx] *)
Definition k_ang_y_31_avx : list stm := [
  SIf (ILe (IV v_bsy) (IV v_bsx)) [
    SArr v_dst_tran (IMul (IC 64) (IC 64));
    SArr v_src_tran (IShl (IC 64) (IC 3));
    SInt v_i (IC 0);
    SLoop (ILt (IV v_i) (IAdd (IAdd (IV v_bsy) (IDiv (IMul (IV v_bsx) (IC 11)) (IC 8))) (IC 3))) [
      SPut (PAdd (PV v_src_tran (IC 0)) (IV v_i)) (XLd (PAdd (PV v_src (IC 0)) (ISub (IC 0) (IV v_i))));
      SInt v_i (IAdd (IV v_i) (IC 1))];
    SCall k_ang_x_5_avx (PV v_src_tran (IC 0)) (PV v_dst_tran (IC 0)) (IV v_bsy) (IV v_bsy) (IV v_bsx);
    SInt v_i (IC 0);
    SLoop (ILt (IV v_i) (IV v_bsy)) [
      SInt v_j (IC 0);
      SLoop (ILt (IV v_j) (IV v_bsx)) [
        SPut (PAdd (PV v_dst (IC 0)) (IAdd (IV v_j) (IMul (IV v_i_dst) (IV v_i)))) (XLd (PAdd (PV v_dst_tran (IC 0)) (IAdd (IV v_i) (IMul (IV v_bsy) (IV v_j)))));
        SInt v_j (IAdd (IV v_j) (IC 1))];
      SInt v_i (IAdd (IV v_i) (IC 1))]] [
    SIf (IEq (IV v_bsx) (IC 8)) [
      SVec v_coeff0 (VConst [5;0;1;0;7;0;1;0;1;0;3;0;3;0;1;0]);
      SVec v_coeff1 (VConst [13;0;5;0;15;0;3;0;9;0;7;0;11;0;2;0]);
      SVec v_coeff2 (VConst [11;0;7;0;9;0;3;0;15;0;5;0;13;0;1;0]);
      SVec v_coeff3 (VConst [3;0;3;0;1;0;1;0;7;0;1;0;5;0;0;0]);
      SVec v_coeff4 (VConst [16;0;8;0;16;0;4;0;16;0;8;0;16;0;2;0]);
      SVec v_coeff5 (VConst [1;0;2;0;1;0;4;0;1;0;2;0;1;0;8;0]);
      SInt v_i (IC 0);
      SLoop (ILt (IV v_i) (IV v_bsy)) [
        SVec v_L0 (VSetr [XLd (PAdd (PV v_src (IC 0)) (IC (-1))); XLd (PAdd (PV v_src (IC 0)) (IC (-2))); XLd (PAdd (PV v_src (IC 0)) (IC (-4))); XLd (PAdd (PV v_src (IC 0)) (IC (-5))); XLd (PAdd (PV v_src (IC 0)) (IC (-6))); XLd (PAdd (PV v_src (IC 0)) (IC (-8))); XLd (PAdd (PV v_src (IC 0)) (IC (-9))); XLd (PAdd (PV v_src (IC 0)) (IC (-11)))]);
        SVec v_L1 (VSetr [XLd (PAdd (PV v_src (IC 0)) (IC (-2))); XLd (PAdd (PV v_src (IC 0)) (IC (-3))); XLd (PAdd (PV v_src (IC 0)) (IC (-5))); XLd (PAdd (PV v_src (IC 0)) (IC (-6))); XLd (PAdd (PV v_src (IC 0)) (IC (-7))); XLd (PAdd (PV v_src (IC 0)) (IC (-9))); XLd (PAdd (PV v_src (IC 0)) (IC (-10))); XLd (PAdd (PV v_src (IC 0)) (IC (-12)))]);
        SVec v_L2 (VSetr [XLd (PAdd (PV v_src (IC 0)) (IC (-3))); XLd (PAdd (PV v_src (IC 0)) (IC (-4))); XLd (PAdd (PV v_src (IC 0)) (IC (-6))); XLd (PAdd (PV v_src (IC 0)) (IC (-7))); XLd (PAdd (PV v_src (IC 0)) (IC (-8))); XLd (PAdd (PV v_src (IC 0)) (IC (-10))); XLd (PAdd (PV v_src (IC 0)) (IC (-11))); XLd (PAdd (PV v_src (IC 0)) (IC (-13)))]);
        SVec v_L3 (VSetr [XLd (PAdd (PV v_src (IC 0)) (IC (-4))); XLd (PAdd (PV v_src (IC 0)) (IC (-5))); XLd (PAdd (PV v_src (IC 0)) (IC (-7))); XLd (PAdd (PV v_src (IC 0)) (IC (-8))); XLd (PAdd (PV v_src (IC 0)) (IC (-9))); XLd (PAdd (PV v_src (IC 0)) (IC (-11))); XLd (PAdd (PV v_src (IC 0)) (IC (-12))); XLd (PAdd (PV v_src (IC 0)) (IC (-14)))]);
        SVec v_p00 (VOp2 (Mul16) (VV v_L0) (VV v_coeff0));
        SVec v_p10 (VOp2 (Mul16) (VV v_L1) (VV v_coeff1));
        SVec v_p20 (VOp2 (Mul16) (VV v_L2) (VV v_coeff2));
        SVec v_p30 (VOp2 (Mul16) (VV v_L3) (VV v_coeff3));
        SVec v_p00 (VOp2 (Add16) (VV v_p00) (VV v_coeff4));
        SVec v_p00 (VOp2 (Add16) (VV v_p00) (VV v_p10));
        SVec v_p00 (VOp2 (Add16) (VV v_p00) (VV v_p20));
        SVec v_p00 (VOp2 (Add16) (VV v_p00) (VV v_p30));
        SVec v_p00 (VOp2 (Mul16) (VV v_p00) (VV v_coeff5));
        SVec v_p00 (VOp1 (Srl16 5) (VV v_p00));
        SVec v_p00 (VOp2 (Pack16) (VV v_p00) (VV v_p00));
        SStore 8 (PV v_dst (IC 0)) (VV v_p00);
        SPtr v_dst (IC 0) (PAdd (PV v_dst (IC 0)) (IV v_i_dst));
        SInt v_i (IAdd (IV v_i) (IC 1));
        SPtr v_src (IC 0) (PAdd (PV v_src (IC 0)) (ISub (IC 0) (IC 1)))]] [
      SCall k_ang_y_31_sse128 (PV v_src (IC 0)) (PV v_dst (IC 0)) (IV v_i_dst) (IV v_bsx) (IV v_bsy)]]].

(** vec/intrinsic_intra-pred_avx2.cc:4485-4834 [intra_pred_ang_y_32_avx] *)
Definition k_ang_y_32_avx : list stm := [
  SArr v_first_line (IMul (IC 2) (IAdd (IC 64) (IC 64)));
  SInt v_line_size (ISub (IAdd (IShr (IV v_bsy) (IC 1)) (IV v_bsx)) (IC 1));
  SInt v_aligned_line_size (IShl (IShr (IAdd (IV v_line_size) (IC 63)) (IC 4)) (IC 4));
  SVec v_coeff2 (VSet1 2 16 (XC 2));
  SVec v_shuffle (VConst [15;13;11;9;7;5;3;1;14;12;10;8;6;4;2;0;15;13;11;9;7;5;3;1;14;12;10;8;6;4;2;0]);
  SPtr v_pfirst (IC 0) (PV v_first_line (IC 0));
  SPtr v_pfirst (IC 1) (PAdd (PV v_first_line (IC 0)) (IV v_aligned_line_size));
  SPtr v_src (IC 0) (PAdd (PV v_src (IC 0)) (ISub (IC 0) (IC 34)));
  SVec v_mask (VTab intrinsic_mask_256_8bit (IC 15));
  SInt v_i (IC 0);
  SLoop (ILt (IV v_i) (ISub (IV v_line_size) (IC 8))) [
    SVec v_S0 (VLoad 32 0 (PAdd (PV v_src (IC 0)) (ISub (IC 0) (IC 1))));
    SVec v_S1 (VLoad 32 0 (PV v_src (IC 0)));
    SVec v_S2 (VLoad 32 0 (PAdd (PV v_src (IC 0)) (IC 1)));
    SVec v_L0 (VOp1 Cvt8 (VOp1 (Ext 0) (VV v_S0)));
    SVec v_L1 (VOp1 Cvt8 (VOp1 (Ext 0) (VV v_S1)));
    SVec v_L2 (VOp1 Cvt8 (VOp1 (Ext 0) (VV v_S2)));
    SVec v_H0 (VOp1 Cvt8 (VOp1 (Ext 1) (VV v_S0)));
    SVec v_H1 (VOp1 Cvt8 (VOp1 (Ext 1) (VV v_S1)));
    SVec v_H2 (VOp1 Cvt8 (VOp1 (Ext 1) (VV v_S2)));
    SVec v_p00 (VOp2 (Add16) (VV v_L0) (VV v_L1));
    SVec v_p01 (VOp2 (Add16) (VV v_L1) (VV v_L2));
    SVec v_p00 (VOp2 (Add16) (VV v_p00) (VV v_coeff2));
    SVec v_p00 (VOp2 (Add16) (VV v_p00) (VV v_p01));
    SVec v_p00 (VOp1 (Srl16 2) (VV v_p00));
    SVec v_p10 (VOp2 (Add16) (VV v_H0) (VV v_H1));
    SVec v_p11 (VOp2 (Add16) (VV v_H1) (VV v_H2));
    SVec v_p10 (VOp2 (Add16) (VV v_p10) (VV v_coeff2));
    SVec v_p10 (VOp2 (Add16) (VV v_p10) (VV v_p11));
    SVec v_p10 (VOp1 (Srl16 2) (VV v_p10));
    SVec v_p00 (VOp2 (Pack16) (VV v_p00) (VV v_p10));
    SVec v_p00 (VOp1 (Perm64 141) (VV v_p00));
    SVec v_p00 (VOp2 (Shuf8) (VV v_p00) (VV v_shuffle));
    SVec v_p10 (VOp1 (Perm64 13) (VV v_p00));
    SVec v_p00 (VOp1 (Perm64 8) (VV v_p00));
    SMask 8 (PAdd (PV v_pfirst (IC 0)) (IV v_i)) (VV v_mask) (VV v_p00);
    SMask 8 (PAdd (PV v_pfirst (IC 1)) (IV v_i)) (VV v_mask) (VV v_p10);
    SInt v_i (IAdd (IV v_i) (IC 16));
    SPtr v_src (IC 0) (PAdd (PV v_src (IC 0)) (ISub (IC 0) (IC 32)))];
  SVec v_mask (VTab intrinsic_mask_256_8bit (IC 8));
  SIf (ILt (IV v_i) (IV v_line_size)) [
    SVec v_S0 (VLoad 32 0 (PAdd (PV v_src (IC 0)) (ISub (IC 0) (IC 1))));
    SVec v_S1 (VLoad 32 0 (PV v_src (IC 0)));
    SVec v_S2 (VLoad 32 0 (PAdd (PV v_src (IC 0)) (IC 1)));
    SVec v_H0 (VOp1 Cvt8 (VOp1 (Ext 1) (VV v_S0)));
    SVec v_H1 (VOp1 Cvt8 (VOp1 (Ext 1) (VV v_S1)));
    SVec v_H2 (VOp1 Cvt8 (VOp1 (Ext 1) (VV v_S2)));
    SVec v_p10 (VOp2 (Add16) (VV v_H0) (VV v_H1));
    SVec v_p11 (VOp2 (Add16) (VV v_H1) (VV v_H2));
    SVec v_p10 (VOp2 (Add16) (VV v_p10) (VV v_coeff2));
    SVec v_p10 (VOp2 (Add16) (VV v_p10) (VV v_p11));
    SVec v_p10 (VOp1 (Srl16 2) (VV v_p10));
    SVec v_p00 (VOp2 (Pack16) (VV v_p10) (VV v_p10));
    SVec v_p00 (VOp1 (Perm64 141) (VV v_p00));
    SVec v_p00 (VOp2 (Shuf8) (VV v_p00) (VV v_shuffle));
    SVec v_p10 (VOp1 (Perm64 13) (VV v_p00));
    SVec v_p00 (VOp1 (Perm64 8) (VV v_p00));
    SMask 8 (PAdd (PV v_pfirst (IC 0)) (IV v_i)) (VV v_mask) (VV v_p00);
    SMask 8 (PAdd (PV v_pfirst (IC 1)) (IV v_i)) (VV v_mask) (VV v_p10)] [];
  SInt v_bsy (IShr (IV v_bsy) (IC 1));
  SIf (IEq (IV v_bsx) (IC 64)) [
    SInt v_i (IC 0);
    SLoop (ILt (IV v_i) (IV v_bsy)) [
      SVec v_M (VLoad 32 0 (PAdd (PV v_pfirst (IC 0)) (IV v_i)));
      SStore 32 (PV v_dst (IC 0)) (VV v_M);
      SVec v_M (VLoad 32 0 (PAdd (PAdd (PV v_pfirst (IC 0)) (IV v_i)) (IC 32)));
      SStore 32 (PAdd (PV v_dst (IC 0)) (IC 32)) (VV v_M);
      SPtr v_dst (IC 0) (PAdd (PV v_dst (IC 0)) (IV v_i_dst));
      SVec v_M (VLoad 32 0 (PAdd (PV v_pfirst (IC 1)) (IV v_i)));
      SStore 32 (PV v_dst (IC 0)) (VV v_M);
      SVec v_M (VLoad 32 0 (PAdd (PAdd (PV v_pfirst (IC 1)) (IV v_i)) (IC 32)));
      SStore 32 (PAdd (PV v_dst (IC 0)) (IC 32)) (VV v_M);
      SPtr v_dst (IC 0) (PAdd (PV v_dst (IC 0)) (IV v_i_dst));
      SVec v_M (VLoad 32 0 (PAdd (PAdd (PV v_pfirst (IC 0)) (IV v_i)) (IC 1)));
      SStore 32 (PV v_dst (IC 0)) (VV v_M);
      SVec v_M (VLoad 32 0 (PAdd (PAdd (PAdd (PV v_pfirst (IC 0)) (IV v_i)) (IC 1)) (IC 32)));
      SStore 32 (PAdd (PV v_dst (IC 0)) (IC 32)) (VV v_M);
      SPtr v_dst (IC 0) (PAdd (PV v_dst (IC 0)) (IV v_i_dst));
      SVec v_M (VLoad 32 0 (PAdd (PAdd (PV v_pfirst (IC 1)) (IV v_i)) (IC 1)));
      SStore 32 (PV v_dst (IC 0)) (VV v_M);
      SVec v_M (VLoad 32 0 (PAdd (PAdd (PAdd (PV v_pfirst (IC 1)) (IV v_i)) (IC 1)) (IC 32)));
      SStore 32 (PAdd (PV v_dst (IC 0)) (IC 32)) (VV v_M);
      SPtr v_dst (IC 0) (PAdd (PV v_dst (IC 0)) (IV v_i_dst));
      SVec v_M (VLoad 32 0 (PAdd (PAdd (PV v_pfirst (IC 0)) (IV v_i)) (IC 2)));
      SStore 32 (PV v_dst (IC 0)) (VV v_M);
      SVec v_M (VLoad 32 0 (PAdd (PAdd (PAdd (PV v_pfirst (IC 0)) (IV v_i)) (IC 2)) (IC 32)));
      SStore 32 (PAdd (PV v_dst (IC 0)) (IC 32)) (VV v_M);
      SPtr v_dst (IC 0) (PAdd (PV v_dst (IC 0)) (IV v_i_dst));
      SVec v_M (VLoad 32 0 (PAdd (PAdd (PV v_pfirst (IC 1)) (IV v_i)) (IC 2)));
      SStore 32 (PV v_dst (IC 0)) (VV v_M);
      SVec v_M (VLoad 32 0 (PAdd (PAdd (PAdd (PV v_pfirst (IC 1)) (IV v_i)) (IC 2)) (IC 32)));
      SStore 32 (PAdd (PV v_dst (IC 0)) (IC 32)) (VV v_M);
      SPtr v_dst (IC 0) (PAdd (PV v_dst (IC 0)) (IV v_i_dst));
      SVec v_M (VLoad 32 0 (PAdd (PAdd (PV v_pfirst (IC 0)) (IV v_i)) (IC 3)));
      SStore 32 (PV v_dst (IC 0)) (VV v_M);
      SVec v_M (VLoad 32 0 (PAdd (PAdd (PAdd (PV v_pfirst (IC 0)) (IV v_i)) (IC 3)) (IC 32)));
      SStore 32 (PAdd (PV v_dst (IC 0)) (IC 32)) (VV v_M);
      SPtr v_dst (IC 0) (PAdd (PV v_dst (IC 0)) (IV v_i_dst));
      SVec v_M (VLoad 32 0 (PAdd (PAdd (PV v_pfirst (IC 1)) (IV v_i)) (IC 3)));
      SStore 32 (PV v_dst (IC 0)) (VV v_M);
      SVec v_M (VLoad 32 0 (PAdd (PAdd (PAdd (PV v_pfirst (IC 1)) (IV v_i)) (IC 3)) (IC 32)));
      SStore 32 (PAdd (PV v_dst (IC 0)) (IC 32)) (VV v_M);
      SPtr v_dst (IC 0) (PAdd (PV v_dst (IC 0)) (IV v_i_dst));
      SInt v_i (IAdd (IV v_i) (IC 4))]] [
    SIf (IEq (IV v_bsx) (IC 32)) [
      SInt v_i (IC 0);
      SLoop (ILt (IV v_i) (IV v_bsy)) [
        SVec v_M (VLoad 32 0 (PAdd (PV v_pfirst (IC 0)) (IV v_i)));
        SStore 32 (PV v_dst (IC 0)) (VV v_M);
        SPtr v_dst (IC 0) (PAdd (PV v_dst (IC 0)) (IV v_i_dst));
        SVec v_M (VLoad 32 0 (PAdd (PV v_pfirst (IC 1)) (IV v_i)));
        SStore 32 (PV v_dst (IC 0)) (VV v_M);
        SPtr v_dst (IC 0) (PAdd (PV v_dst (IC 0)) (IV v_i_dst));
        SVec v_M (VLoad 32 0 (PAdd (PAdd (PV v_pfirst (IC 0)) (IV v_i)) (IC 1)));
        SStore 32 (PV v_dst (IC 0)) (VV v_M);
        SPtr v_dst (IC 0) (PAdd (PV v_dst (IC 0)) (IV v_i_dst));
        SVec v_M (VLoad 32 0 (PAdd (PAdd (PV v_pfirst (IC 1)) (IV v_i)) (IC 1)));
        SStore 32 (PV v_dst (IC 0)) (VV v_M);
        SPtr v_dst (IC 0) (PAdd (PV v_dst (IC 0)) (IV v_i_dst));
        SVec v_M (VLoad 32 0 (PAdd (PAdd (PV v_pfirst (IC 0)) (IV v_i)) (IC 2)));
        SStore 32 (PV v_dst (IC 0)) (VV v_M);
        SPtr v_dst (IC 0) (PAdd (PV v_dst (IC 0)) (IV v_i_dst));
        SVec v_M (VLoad 32 0 (PAdd (PAdd (PV v_pfirst (IC 1)) (IV v_i)) (IC 2)));
        SStore 32 (PV v_dst (IC 0)) (VV v_M);
        SPtr v_dst (IC 0) (PAdd (PV v_dst (IC 0)) (IV v_i_dst));
        SVec v_M (VLoad 32 0 (PAdd (PAdd (PV v_pfirst (IC 0)) (IV v_i)) (IC 3)));
        SStore 32 (PV v_dst (IC 0)) (VV v_M);
        SPtr v_dst (IC 0) (PAdd (PV v_dst (IC 0)) (IV v_i_dst));
        SVec v_M (VLoad 32 0 (PAdd (PAdd (PV v_pfirst (IC 1)) (IV v_i)) (IC 3)));
        SStore 32 (PV v_dst (IC 0)) (VV v_M);
        SPtr v_dst (IC 0) (PAdd (PV v_dst (IC 0)) (IV v_i_dst));
        SInt v_i (IAdd (IV v_i) (IC 4))]] [
      SIf (IEq (IV v_bsx) (IC 16)) [
        SVec v_mask (VTab intrinsic_mask_256_8bit (ISub (IV v_bsx) (IC 1)));
        SInt v_i (IC 0);
        SLoop (ILt (IV v_i) (IV v_bsy)) [
          SVec v_M (VLoad 32 0 (PAdd (PV v_pfirst (IC 0)) (IV v_i)));
          SMask 8 (PV v_dst (IC 0)) (VV v_mask) (VV v_M);
          SPtr v_dst (IC 0) (PAdd (PV v_dst (IC 0)) (IV v_i_dst));
          SVec v_M (VLoad 32 0 (PAdd (PV v_pfirst (IC 1)) (IV v_i)));
          SMask 8 (PV v_dst (IC 0)) (VV v_mask) (VV v_M);
          SPtr v_dst (IC 0) (PAdd (PV v_dst (IC 0)) (IV v_i_dst));
          SVec v_M (VLoad 32 0 (PAdd (PAdd (PV v_pfirst (IC 0)) (IV v_i)) (IC 1)));
          SMask 8 (PV v_dst (IC 0)) (VV v_mask) (VV v_M);
          SPtr v_dst (IC 0) (PAdd (PV v_dst (IC 0)) (IV v_i_dst));
          SVec v_M (VLoad 32 0 (PAdd (PAdd (PV v_pfirst (IC 1)) (IV v_i)) (IC 1)));
          SMask 8 (PV v_dst (IC 0)) (VV v_mask) (VV v_M);
          SPtr v_dst (IC 0) (PAdd (PV v_dst (IC 0)) (IV v_i_dst));
          SVec v_M (VLoad 32 0 (PAdd (PAdd (PV v_pfirst (IC 0)) (IV v_i)) (IC 2)));
          SMask 8 (PV v_dst (IC 0)) (VV v_mask) (VV v_M);
          SPtr v_dst (IC 0) (PAdd (PV v_dst (IC 0)) (IV v_i_dst));
          SVec v_M (VLoad 32 0 (PAdd (PAdd (PV v_pfirst (IC 1)) (IV v_i)) (IC 2)));
          SMask 8 (PV v_dst (IC 0)) (VV v_mask) (VV v_M);
          SPtr v_dst (IC 0) (PAdd (PV v_dst (IC 0)) (IV v_i_dst));
          SVec v_M (VLoad 32 0 (PAdd (PAdd (PV v_pfirst (IC 0)) (IV v_i)) (IC 3)));
          SMask 8 (PV v_dst (IC 0)) (VV v_mask) (VV v_M);
          SPtr v_dst (IC 0) (PAdd (PV v_dst (IC 0)) (IV v_i_dst));
          SVec v_M (VLoad 32 0 (PAdd (PAdd (PV v_pfirst (IC 1)) (IV v_i)) (IC 3)));
          SMask 8 (PV v_dst (IC 0)) (VV v_mask) (VV v_M);
          SPtr v_dst (IC 0) (PAdd (PV v_dst (IC 0)) (IV v_i_dst));
          SInt v_i (IAdd (IV v_i) (IC 4))]] [
        SIf (IEq (IV v_bsx) (IC 8)) [
          SVec v_mask (VTab intrinsic_mask_256_8bit (ISub (IV v_bsx) (IC 1)));
          SInt v_i (IC 0);
          SLoop (ILt (IV v_i) (IV v_bsy)) [
            SVec v_M (VLoad 32 0 (PAdd (PV v_pfirst (IC 0)) (IV v_i)));
            SMask 8 (PV v_dst (IC 0)) (VV v_mask) (VV v_M);
            SPtr v_dst (IC 0) (PAdd (PV v_dst (IC 0)) (IV v_i_dst));
            SVec v_M (VLoad 32 0 (PAdd (PV v_pfirst (IC 1)) (IV v_i)));
            SMask 8 (PV v_dst (IC 0)) (VV v_mask) (VV v_M);
            SPtr v_dst (IC 0) (PAdd (PV v_dst (IC 0)) (IV v_i_dst));
            SVec v_M (VLoad 32 0 (PAdd (PAdd (PV v_pfirst (IC 0)) (IV v_i)) (IC 1)));
            SMask 8 (PV v_dst (IC 0)) (VV v_mask) (VV v_M);
            SPtr v_dst (IC 0) (PAdd (PV v_dst (IC 0)) (IV v_i_dst));
            SVec v_M (VLoad 32 0 (PAdd (PAdd (PV v_pfirst (IC 1)) (IV v_i)) (IC 1)));
            SMask 8 (PV v_dst (IC 0)) (VV v_mask) (VV v_M);
            SPtr v_dst (IC 0) (PAdd (PV v_dst (IC 0)) (IV v_i_dst));
            SVec v_M (VLoad 32 0 (PAdd (PAdd (PV v_pfirst (IC 0)) (IV v_i)) (IC 2)));
            SMask 8 (PV v_dst (IC 0)) (VV v_mask) (VV v_M);
            SPtr v_dst (IC 0) (PAdd (PV v_dst (IC 0)) (IV v_i_dst));
            SVec v_M (VLoad 32 0 (PAdd (PAdd (PV v_pfirst (IC 1)) (IV v_i)) (IC 2)));
            SMask 8 (PV v_dst (IC 0)) (VV v_mask) (VV v_M);
            SPtr v_dst (IC 0) (PAdd (PV v_dst (IC 0)) (IV v_i_dst));
            SVec v_M (VLoad 32 0 (PAdd (PAdd (PV v_pfirst (IC 0)) (IV v_i)) (IC 3)));
            SMask 8 (PV v_dst (IC 0)) (VV v_mask) (VV v_M);
            SPtr v_dst (IC 0) (PAdd (PV v_dst (IC 0)) (IV v_i_dst));
            SVec v_M (VLoad 32 0 (PAdd (PAdd (PV v_pfirst (IC 1)) (IV v_i)) (IC 3)));
            SMask 8 (PV v_dst (IC 0)) (VV v_mask) (VV v_M);
            SPtr v_dst (IC 0) (PAdd (PV v_dst (IC 0)) (IV v_i_dst));
            SInt v_i (IAdd (IV v_i) (IC 4))]] [
          SVec v_mask (VTab intrinsic_mask_256_8bit (ISub (IV v_bsx) (IC 1)));
          SInt v_i (IC 0);
          SLoop (ILt (IV v_i) (IV v_bsy)) [
            SVec v_M (VLoad 32 0 (PAdd (PV v_pfirst (IC 0)) (IV v_i)));
            SMask 4 (PV v_dst (IC 0)) (VV v_mask) (VV v_M);
            SPtr v_dst (IC 0) (PAdd (PV v_dst (IC 0)) (IV v_i_dst));
            SVec v_M (VLoad 32 0 (PAdd (PV v_pfirst (IC 1)) (IV v_i)));
            SMask 4 (PV v_dst (IC 0)) (VV v_mask) (VV v_M);
            SPtr v_dst (IC 0) (PAdd (PV v_dst (IC 0)) (IV v_i_dst));
            SVec v_M (VLoad 32 0 (PAdd (PAdd (PV v_pfirst (IC 0)) (IV v_i)) (IC 1)));
            SMask 4 (PV v_dst (IC 0)) (VV v_mask) (VV v_M);
            SPtr v_dst (IC 0) (PAdd (PV v_dst (IC 0)) (IV v_i_dst));
            SVec v_M (VLoad 32 0 (PAdd (PAdd (PV v_pfirst (IC 1)) (IV v_i)) (IC 1)));
            SMask 4 (PV v_dst (IC 0)) (VV v_mask) (VV v_M);
            SPtr v_dst (IC 0) (PAdd (PV v_dst (IC 0)) (IV v_i_dst));
            SVec v_M (VLoad 32 0 (PAdd (PAdd (PV v_pfirst (IC 0)) (IV v_i)) (IC 2)));
            SMask 4 (PV v_dst (IC 0)) (VV v_mask) (VV v_M);
            SPtr v_dst (IC 0) (PAdd (PV v_dst (IC 0)) (IV v_i_dst));
            SVec v_M (VLoad 32 0 (PAdd (PAdd (PV v_pfirst (IC 1)) (IV v_i)) (IC 2)));
            SMask 4 (PV v_dst (IC 0)) (VV v_mask) (VV v_M);
            SPtr v_dst (IC 0) (PAdd (PV v_dst (IC 0)) (IV v_i_dst));
            SVec v_M (VLoad 32 0 (PAdd (PAdd (PV v_pfirst (IC 0)) (IV v_i)) (IC 3)));
            SMask 4 (PV v_dst (IC 0)) (VV v_mask) (VV v_M);
            SPtr v_dst (IC 0) (PAdd (PV v_dst (IC 0)) (IV v_i_dst));
            SVec v_M (VLoad 32 0 (PAdd (PAdd (PV v_pfirst (IC 1)) (IV v_i)) (IC 3)));
            SMask 4 (PV v_dst (IC 0)) (VV v_mask) (VV v_M);
            SPtr v_dst (IC 0) (PAdd (PV v_dst (IC 0)) (IV v_i_dst));
            SInt v_i (IAdd (IV v_i) (IC 4))]]]]]].
