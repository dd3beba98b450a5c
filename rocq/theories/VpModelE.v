(** The predictors of vec/intrinsic_intra-pred_avx2.cc for vertical, horizontal and upward right modes, as trees (see VpModel). *)
From Coq Require Import ZArith List.
From Verif Require Import VpModel VpModelA VpModelB.
Import ListNotations.
Open Scope Z_scope.

(** vec/intrinsic_intra-pred_avx2.cc:44-89 [intra_pred_ver_avx] *)
Definition k_ver_avx : list stm := [
  SIf (ILand (ILe (IV v_bsx) (IC 8)) (ILe (IV v_bsy) (IC 8))) [
    SCall k_ver_sse128 (PV v_src (IC 0)) (PV v_dst (IC 0)) (IV v_i_dst) (IV v_bsx) (IV v_bsy);
    SRet] [];
  SPtr v_rsrc (IC 0) (PAdd (PV v_src (IC 0)) (IC 1));
  SIf (ILe (IC 32) (IV v_bsx)) [
    SInt v_i (IC 0);
    SLoop (ILt (IV v_i) (IV v_bsy)) [
      SVec v_S1 (VLoad 32 0 (PV v_rsrc (IC 0)));
      SStore 32 (PV v_dst (IC 0)) (VV v_S1);
      SIf (ILt (IC 32) (IV v_bsx)) [
        SVec v_S1 (VLoad 32 0 (PAdd (PV v_rsrc (IC 0)) (IC 32)));
        SStore 32 (PAdd (PV v_dst (IC 0)) (IC 32)) (VV v_S1)] [];
      SPtr v_dst (IC 0) (PAdd (PV v_dst (IC 0)) (IV v_i_dst));
      SInt v_i (IAdd (IV v_i) (IC 1))]] [
    SIf (IAnd (IV v_bsx) (IC 15)) [
      SVec v_mask (VTab intrinsic_mask (ISub (IAnd (IV v_bsx) (IC 15)) (IC 1)));
      SInt v_i (IC 0);
      SLoop (ILt (IV v_i) (IV v_bsy)) [
        SInt v_j (IC 0);
        SLoop (ILt (IV v_j) (ISub (IV v_bsx) (IC 15))) [
          SVec v_S_1 (VLoad 16 0 (PAdd (PV v_rsrc (IC 0)) (IV v_j)));
          SStore 16 (PAdd (PV v_dst (IC 0)) (IV v_j)) (VV v_S_1);
          SInt v_j (IAdd (IV v_j) (IC 16))];
        SVec v_S_1 (VLoad 16 0 (PAdd (PV v_rsrc (IC 0)) (IV v_j)));
        SMask 1 (PAdd (PV v_dst (IC 0)) (IV v_j)) (VV v_mask) (VV v_S_1);
        SPtr v_dst (IC 0) (PAdd (PV v_dst (IC 0)) (IV v_i_dst));
        SInt v_i (IAdd (IV v_i) (IC 1))]] [
      SInt v_i (IC 0);
      SLoop (ILt (IV v_i) (IV v_bsy)) [
        SVec v_S_1 (VLoad 16 0 (PV v_rsrc (IC 0)));
        SStore 16 (PV v_dst (IC 0)) (VV v_S_1);
        SPtr v_dst (IC 0) (PAdd (PV v_dst (IC 0)) (IV v_i_dst));
        SInt v_i (IAdd (IV v_i) (IC 1))]]]].

(** vec/intrinsic_intra-pred_avx2.cc:91-134 [intra_pred_hor_avx] *)
Definition k_hor_avx : list stm := [
  SIf (ILand (ILe (IV v_bsx) (IC 8)) (ILe (IV v_bsy) (IC 8))) [
    SCall k_hor_sse128 (PV v_src (IC 0)) (PV v_dst (IC 0)) (IV v_i_dst) (IV v_bsx) (IV v_bsy);
    SRet] [];
  SPtr v_rsrc (IC 0) (PAdd (PV v_src (IC 0)) (ISub (IC 0) (IC 1)));
  SIf (ILe (IC 32) (IV v_bsx)) [
    SInt v_i (IC 0);
    SLoop (ILt (IV v_i) (IV v_bsy)) [
      SVec v_S1 (VSet1 1 32 (XLd (PAdd (PV v_rsrc (IC 0)) (ISub (IC 0) (IV v_i)))));
      SStore 32 (PV v_dst (IC 0)) (VV v_S1);
      SIf (ILt (IC 32) (IV v_bsx)) [
        SStore 32 (PAdd (PV v_dst (IC 0)) (IC 32)) (VV v_S1)] [];
      SPtr v_dst (IC 0) (PAdd (PV v_dst (IC 0)) (IV v_i_dst));
      SInt v_i (IAdd (IV v_i) (IC 1))]] [
    SIf (IAnd (IV v_bsx) (IC 15)) [
      SVec v_mask (VTab intrinsic_mask (ISub (IAnd (IV v_bsx) (IC 15)) (IC 1)));
      SInt v_i (IC 0);
      SLoop (ILt (IV v_i) (IV v_bsy)) [
        SInt v_j (IC 0);
        SLoop (ILt (IV v_j) (ISub (IV v_bsx) (IC 15))) [
          SVec v_S_1 (VSet1 1 16 (XLd (PAdd (PV v_rsrc (IC 0)) (ISub (IC 0) (IV v_i)))));
          SStore 16 (PAdd (PV v_dst (IC 0)) (IV v_j)) (VV v_S_1);
          SInt v_j (IAdd (IV v_j) (IC 16))];
        SVec v_S_1 (VSet1 1 16 (XLd (PAdd (PV v_rsrc (IC 0)) (ISub (IC 0) (IV v_i)))));
        SMask 1 (PAdd (PV v_dst (IC 0)) (IV v_j)) (VV v_mask) (VV v_S_1);
        SPtr v_dst (IC 0) (PAdd (PV v_dst (IC 0)) (IV v_i_dst));
        SInt v_i (IAdd (IV v_i) (IC 1))]] [
      SInt v_i (IC 0);
      SLoop (ILt (IV v_i) (IV v_bsy)) [
        SVec v_S_1 (VSet1 1 16 (XLd (PAdd (PV v_rsrc (IC 0)) (ISub (IC 0) (IV v_i)))));
        SStore 16 (PV v_dst (IC 0)) (VV v_S_1);
        SPtr v_dst (IC 0) (PAdd (PV v_dst (IC 0)) (IV v_i_dst));
        SInt v_i (IAdd (IV v_i) (IC 1))]]]].

(** vec/intrinsic_intra-pred_avx2.cc:522-938 [intra_pred_ang_x_3_avx] *)
Definition k_ang_x_3_avx : list stm := [
  SPtr v_dst1 (IC 0) (PV v_dst (IC 0));
  SPtr v_dst2 (IC 0) (PAdd (PV v_dst1 (IC 0)) (IV v_i_dst));
  SPtr v_dst3 (IC 0) (PAdd (PV v_dst2 (IC 0)) (IV v_i_dst));
  SPtr v_dst4 (IC 0) (PAdd (PV v_dst3 (IC 0)) (IV v_i_dst));
  SIf (ILand (ILt (IC 4) (IV v_bsy)) (ILt (IC 8) (IV v_bsx))) [
    SVec v_coeff2 (VSet1 2 16 (XC 2));
    SVec v_coeff3 (VSet1 2 16 (XC 3));
    SVec v_coeff4 (VSet1 2 16 (XC 4));
    SVec v_coeff5 (VSet1 2 16 (XC 5));
    SVec v_coeff7 (VSet1 2 16 (XC 7));
    SVec v_coeff8 (VSet1 2 16 (XC 8));
    SArr v_first_line (IShl (IAdd (IAdd (IC 64) (IC 176)) (IC 16)) (IC 2));
    SInt v_line_size (IAdd (IV v_bsx) (IShr (IMul (ISub (IV v_bsy) (IC 4)) (IC 11)) (IC 2)));
    SInt v_aligned_line_size (IAdd (IAdd (IC 64) (IC 176)) (IC 16));
    SPtr v_pfirst (IC 0) (PV v_first_line (IC 0));
    SPtr v_pfirst (IC 1) (PAdd (PV v_pfirst (IC 0)) (IV v_aligned_line_size));
    SPtr v_pfirst (IC 2) (PAdd (PV v_pfirst (IC 1)) (IV v_aligned_line_size));
    SPtr v_pfirst (IC 3) (PAdd (PV v_pfirst (IC 2)) (IV v_aligned_line_size));
    SInt v_i (IC 0);
    SLoop (ILt (IV v_i) (ISub (IV v_line_size) (IC 16))) [
      SVec v_SS2 (VLoad 32 0 (PAdd (PV v_src (IC 0)) (IC 2)));
      SVec v_L2 (VOp1 Cvt8 (VOp1 (Ext 0) (VV v_SS2)));
      SVec v_H2 (VOp1 Cvt8 (VOp1 (Ext 1) (VV v_SS2)));
      SVec v_SS2 (VLoad 32 0 (PAdd (PV v_src (IC 0)) (IC 3)));
      SVec v_L3 (VOp1 Cvt8 (VOp1 (Ext 0) (VV v_SS2)));
      SVec v_H3 (VOp1 Cvt8 (VOp1 (Ext 1) (VV v_SS2)));
      SVec v_SS2 (VLoad 32 0 (PAdd (PV v_src (IC 0)) (IC 4)));
      SVec v_L4 (VOp1 Cvt8 (VOp1 (Ext 0) (VV v_SS2)));
      SVec v_H4 (VOp1 Cvt8 (VOp1 (Ext 1) (VV v_SS2)));
      SVec v_SS2 (VLoad 32 0 (PAdd (PV v_src (IC 0)) (IC 5)));
      SVec v_L5 (VOp1 Cvt8 (VOp1 (Ext 0) (VV v_SS2)));
      SVec v_H5 (VOp1 Cvt8 (VOp1 (Ext 1) (VV v_SS2)));
      SVec v_SS2 (VLoad 32 0 (PAdd (PV v_src (IC 0)) (IC 6)));
      SVec v_L6 (VOp1 Cvt8 (VOp1 (Ext 0) (VV v_SS2)));
      SVec v_H6 (VOp1 Cvt8 (VOp1 (Ext 1) (VV v_SS2)));
      SVec v_SS2 (VLoad 32 0 (PAdd (PV v_src (IC 0)) (IC 7)));
      SVec v_L7 (VOp1 Cvt8 (VOp1 (Ext 0) (VV v_SS2)));
      SVec v_H7 (VOp1 Cvt8 (VOp1 (Ext 1) (VV v_SS2)));
      SVec v_SS2 (VLoad 32 0 (PAdd (PV v_src (IC 0)) (IC 8)));
      SVec v_L8 (VOp1 Cvt8 (VOp1 (Ext 0) (VV v_SS2)));
      SVec v_H8 (VOp1 Cvt8 (VOp1 (Ext 1) (VV v_SS2)));
      SVec v_SS2 (VLoad 32 0 (PAdd (PV v_src (IC 0)) (IC 9)));
      SVec v_L9 (VOp1 Cvt8 (VOp1 (Ext 0) (VV v_SS2)));
      SVec v_H9 (VOp1 Cvt8 (VOp1 (Ext 1) (VV v_SS2)));
      SVec v_SS2 (VLoad 32 0 (PAdd (PV v_src (IC 0)) (IC 10)));
      SVec v_L10 (VOp1 Cvt8 (VOp1 (Ext 0) (VV v_SS2)));
      SVec v_H10 (VOp1 Cvt8 (VOp1 (Ext 1) (VV v_SS2)));
      SVec v_SS2 (VLoad 32 0 (PAdd (PV v_src (IC 0)) (IC 11)));
      SVec v_L11 (VOp1 Cvt8 (VOp1 (Ext 0) (VV v_SS2)));
      SVec v_H11 (VOp1 Cvt8 (VOp1 (Ext 1) (VV v_SS2)));
      SVec v_SS2 (VLoad 32 0 (PAdd (PV v_src (IC 0)) (IC 12)));
      SVec v_L12 (VOp1 Cvt8 (VOp1 (Ext 0) (VV v_SS2)));
      SVec v_H12 (VOp1 Cvt8 (VOp1 (Ext 1) (VV v_SS2)));
      SVec v_SS2 (VLoad 32 0 (PAdd (PV v_src (IC 0)) (IC 13)));
      SVec v_L13 (VOp1 Cvt8 (VOp1 (Ext 0) (VV v_SS2)));
      SVec v_H13 (VOp1 Cvt8 (VOp1 (Ext 1) (VV v_SS2)));
      SVec v_p00 (VOp2 (Add16) (VV v_L2) (VV v_coeff8));
      SVec v_p10 (VOp2 (Mul16) (VV v_L3) (VV v_coeff5));
      SVec v_p20 (VOp2 (Mul16) (VV v_L4) (VV v_coeff7));
      SVec v_p30 (VOp2 (Mul16) (VV v_L5) (VV v_coeff3));
      SVec v_p00 (VOp2 (Add16) (VV v_p00) (VV v_p10));
      SVec v_p00 (VOp2 (Add16) (VV v_p00) (VV v_p20));
      SVec v_p00 (VOp2 (Add16) (VV v_p00) (VV v_p30));
      SVec v_p00 (VOp1 (Srl16 4) (VV v_p00));
      SVec v_p01 (VOp2 (Add16) (VV v_H2) (VV v_coeff8));
      SVec v_p11 (VOp2 (Mul16) (VV v_H3) (VV v_coeff5));
      SVec v_p21 (VOp2 (Mul16) (VV v_H4) (VV v_coeff7));
      SVec v_p31 (VOp2 (Mul16) (VV v_H5) (VV v_coeff3));
      SVec v_p01 (VOp2 (Add16) (VV v_p01) (VV v_p11));
      SVec v_p01 (VOp2 (Add16) (VV v_p01) (VV v_p21));
      SVec v_p01 (VOp2 (Add16) (VV v_p01) (VV v_p31));
      SVec v_p01 (VOp1 (Srl16 4) (VV v_p01));
      SVec v_p00 (VOp2 (Pack16) (VV v_p00) (VV v_p01));
      SVec v_p00 (VOp1 (Perm64 216) (VV v_p00));
      SStore 32 (PAdd (PV v_pfirst (IC 0)) (IV v_i)) (VV v_p00);
      SVec v_p00 (VOp2 (Add16) (VV v_L5) (VV v_L8));
      SVec v_p10 (VOp2 (Add16) (VV v_L6) (VV v_L7));
      SVec v_p10 (VOp2 (Mul16) (VV v_p10) (VV v_coeff3));
      SVec v_p00 (VOp2 (Add16) (VV v_p00) (VV v_coeff4));
      SVec v_p00 (VOp2 (Add16) (VV v_p00) (VV v_p10));
      SVec v_p00 (VOp1 (Srl16 3) (VV v_p00));
      SVec v_p01 (VOp2 (Add16) (VV v_H5) (VV v_H8));
      SVec v_p11 (VOp2 (Add16) (VV v_H6) (VV v_H7));
      SVec v_p11 (VOp2 (Mul16) (VV v_p11) (VV v_coeff3));
      SVec v_p01 (VOp2 (Add16) (VV v_p01) (VV v_coeff4));
      SVec v_p01 (VOp2 (Add16) (VV v_p01) (VV v_p11));
      SVec v_p01 (VOp1 (Srl16 3) (VV v_p01));
      SVec v_p00 (VOp2 (Pack16) (VV v_p00) (VV v_p01));
      SVec v_p00 (VOp1 (Perm64 216) (VV v_p00));
      SStore 32 (PAdd (PV v_pfirst (IC 1)) (IV v_i)) (VV v_p00);
      SVec v_p00 (VOp2 (Mul16) (VV v_L8) (VV v_coeff3));
      SVec v_p10 (VOp2 (Mul16) (VV v_L9) (VV v_coeff7));
      SVec v_p20 (VOp2 (Mul16) (VV v_L10) (VV v_coeff5));
      SVec v_p30 (VOp2 (Add16) (VV v_L11) (VV v_coeff8));
      SVec v_p00 (VOp2 (Add16) (VV v_p00) (VV v_p10));
      SVec v_p00 (VOp2 (Add16) (VV v_p00) (VV v_p20));
      SVec v_p00 (VOp2 (Add16) (VV v_p00) (VV v_p30));
      SVec v_p00 (VOp1 (Srl16 4) (VV v_p00));
      SVec v_p01 (VOp2 (Mul16) (VV v_H8) (VV v_coeff3));
      SVec v_p11 (VOp2 (Mul16) (VV v_H9) (VV v_coeff7));
      SVec v_p21 (VOp2 (Mul16) (VV v_H10) (VV v_coeff5));
      SVec v_p31 (VOp2 (Add16) (VV v_H11) (VV v_coeff8));
      SVec v_p01 (VOp2 (Add16) (VV v_p01) (VV v_p11));
      SVec v_p01 (VOp2 (Add16) (VV v_p01) (VV v_p21));
      SVec v_p01 (VOp2 (Add16) (VV v_p01) (VV v_p31));
      SVec v_p01 (VOp1 (Srl16 4) (VV v_p01));
      SVec v_p00 (VOp2 (Pack16) (VV v_p00) (VV v_p01));
      SVec v_p00 (VOp1 (Perm64 216) (VV v_p00));
      SStore 32 (PAdd (PV v_pfirst (IC 2)) (IV v_i)) (VV v_p00);
      SVec v_p00 (VOp2 (Add16) (VV v_L11) (VV v_L13));
      SVec v_p10 (VOp2 (Mul16) (VV v_L12) (VV v_coeff2));
      SVec v_p00 (VOp2 (Add16) (VV v_p00) (VV v_coeff2));
      SVec v_p00 (VOp2 (Add16) (VV v_p00) (VV v_p10));
      SVec v_p00 (VOp1 (Srl16 2) (VV v_p00));
      SVec v_p01 (VOp2 (Add16) (VV v_H11) (VV v_H13));
      SVec v_p11 (VOp2 (Mul16) (VV v_H12) (VV v_coeff2));
      SVec v_p01 (VOp2 (Add16) (VV v_p01) (VV v_coeff2));
      SVec v_p01 (VOp2 (Add16) (VV v_p01) (VV v_p11));
      SVec v_p01 (VOp1 (Srl16 2) (VV v_p01));
      SVec v_p00 (VOp2 (Pack16) (VV v_p00) (VV v_p01));
      SVec v_p00 (VOp1 (Perm64 216) (VV v_p00));
      SStore 32 (PAdd (PV v_pfirst (IC 3)) (IV v_i)) (VV v_p00);
      SInt v_i (IAdd (IV v_i) (IC 32));
      SPtr v_src (IC 0) (PAdd (PV v_src (IC 0)) (IC 32))];
    SIf (ILt (IV v_i) (IV v_line_size)) [
      SVec v_SS2 (VLoad 32 0 (PAdd (PV v_src (IC 0)) (IC 2)));
      SVec v_L2 (VOp1 Cvt8 (VOp1 (Ext 0) (VV v_SS2)));
      SVec v_SS2 (VLoad 32 0 (PAdd (PV v_src (IC 0)) (IC 3)));
      SVec v_L3 (VOp1 Cvt8 (VOp1 (Ext 0) (VV v_SS2)));
      SVec v_SS2 (VLoad 32 0 (PAdd (PV v_src (IC 0)) (IC 4)));
      SVec v_L4 (VOp1 Cvt8 (VOp1 (Ext 0) (VV v_SS2)));
      SVec v_SS2 (VLoad 32 0 (PAdd (PV v_src (IC 0)) (IC 5)));
      SVec v_L5 (VOp1 Cvt8 (VOp1 (Ext 0) (VV v_SS2)));
      SVec v_SS2 (VLoad 32 0 (PAdd (PV v_src (IC 0)) (IC 6)));
      SVec v_L6 (VOp1 Cvt8 (VOp1 (Ext 0) (VV v_SS2)));
      SVec v_SS2 (VLoad 32 0 (PAdd (PV v_src (IC 0)) (IC 7)));
      SVec v_L7 (VOp1 Cvt8 (VOp1 (Ext 0) (VV v_SS2)));
      SVec v_SS2 (VLoad 32 0 (PAdd (PV v_src (IC 0)) (IC 8)));
      SVec v_L8 (VOp1 Cvt8 (VOp1 (Ext 0) (VV v_SS2)));
      SVec v_SS2 (VLoad 32 0 (PAdd (PV v_src (IC 0)) (IC 9)));
      SVec v_L9 (VOp1 Cvt8 (VOp1 (Ext 0) (VV v_SS2)));
      SVec v_SS2 (VLoad 32 0 (PAdd (PV v_src (IC 0)) (IC 10)));
      SVec v_L10 (VOp1 Cvt8 (VOp1 (Ext 0) (VV v_SS2)));
      SVec v_SS11 (VLoad 32 0 (PAdd (PV v_src (IC 0)) (IC 11)));
      SVec v_L11 (VOp1 Cvt8 (VOp1 (Ext 0) (VV v_SS11)));
      SVec v_SS11 (VLoad 32 0 (PAdd (PV v_src (IC 0)) (IC 12)));
      SVec v_L12 (VOp1 Cvt8 (VOp1 (Ext 0) (VV v_SS11)));
      SVec v_SS11 (VLoad 32 0 (PAdd (PV v_src (IC 0)) (IC 13)));
      SVec v_L13 (VOp1 Cvt8 (VOp1 (Ext 0) (VV v_SS11)));
      SVec v_p00 (VOp2 (Add16) (VV v_L2) (VV v_coeff8));
      SVec v_p10 (VOp2 (Mul16) (VV v_L3) (VV v_coeff5));
      SVec v_p20 (VOp2 (Mul16) (VV v_L4) (VV v_coeff7));
      SVec v_p30 (VOp2 (Mul16) (VV v_L5) (VV v_coeff3));
      SVec v_p00 (VOp2 (Add16) (VV v_p00) (VV v_p10));
      SVec v_p00 (VOp2 (Add16) (VV v_p00) (VV v_p20));
      SVec v_p00 (VOp2 (Add16) (VV v_p00) (VV v_p30));
      SVec v_p00 (VOp1 (Srl16 4) (VV v_p00));
      SVec v_p00 (VOp2 (Pack16) (VV v_p00) (VV v_p00));
      SVec v_p00 (VOp1 (Perm64 8) (VV v_p00));
      SVec v_mask (VTab intrinsic_mask_256_8bit (IC 15));
      SMask 8 (PAdd (PV v_pfirst (IC 0)) (IV v_i)) (VV v_mask) (VV v_p00);
      SVec v_p00 (VOp2 (Add16) (VV v_L5) (VV v_L8));
      SVec v_p10 (VOp2 (Add16) (VV v_L6) (VV v_L7));
      SVec v_p10 (VOp2 (Mul16) (VV v_p10) (VV v_coeff3));
      SVec v_p00 (VOp2 (Add16) (VV v_p00) (VV v_coeff4));
      SVec v_p00 (VOp2 (Add16) (VV v_p00) (VV v_p10));
      SVec v_p00 (VOp1 (Srl16 3) (VV v_p00));
      SVec v_p00 (VOp2 (Pack16) (VV v_p00) (VV v_p00));
      SVec v_p00 (VOp1 (Perm64 8) (VV v_p00));
      SMask 8 (PAdd (PV v_pfirst (IC 1)) (IV v_i)) (VV v_mask) (VV v_p00);
      SVec v_p00 (VOp2 (Mul16) (VV v_L8) (VV v_coeff3));
      SVec v_p10 (VOp2 (Mul16) (VV v_L9) (VV v_coeff7));
      SVec v_p20 (VOp2 (Mul16) (VV v_L10) (VV v_coeff5));
      SVec v_p30 (VOp2 (Add16) (VV v_L11) (VV v_coeff8));
      SVec v_p00 (VOp2 (Add16) (VV v_p00) (VV v_p10));
      SVec v_p00 (VOp2 (Add16) (VV v_p00) (VV v_p20));
      SVec v_p00 (VOp2 (Add16) (VV v_p00) (VV v_p30));
      SVec v_p00 (VOp1 (Srl16 4) (VV v_p00));
      SVec v_p00 (VOp2 (Pack16) (VV v_p00) (VV v_p00));
      SVec v_p00 (VOp1 (Perm64 8) (VV v_p00));
      SMask 8 (PAdd (PV v_pfirst (IC 2)) (IV v_i)) (VV v_mask) (VV v_p00);
      SVec v_p00 (VOp2 (Add16) (VV v_L11) (VV v_L13));
      SVec v_p10 (VOp2 (Mul16) (VV v_L12) (VV v_coeff2));
      SVec v_p00 (VOp2 (Add16) (VV v_p00) (VV v_coeff2));
      SVec v_p00 (VOp2 (Add16) (VV v_p00) (VV v_p10));
      SVec v_p00 (VOp1 (Srl16 2) (VV v_p00));
      SVec v_p00 (VOp2 (Pack16) (VV v_p00) (VV v_p00));
      SVec v_p00 (VOp1 (Perm64 8) (VV v_p00));
      SMask 8 (PAdd (PV v_pfirst (IC 3)) (IV v_i)) (VV v_mask) (VV v_p00)] [];
    SInt v_bsy (IShr (IV v_bsy) (IC 2));
    SIf (IEq (IV v_bsx) (IC 64)) [
      SInt v_i (IC 0);
      SLoop (ILt (IV v_i) (IV v_bsy)) [
        SVec v_M (VLoad 32 0 (PAdd (PV v_pfirst (IC 0)) (IMul (IV v_i) (IC 11))));
        SStore 32 (PV v_dst1 (IC 0)) (VV v_M);
        SVec v_M (VLoad 32 0 (PAdd (PAdd (PV v_pfirst (IC 0)) (IMul (IV v_i) (IC 11))) (IC 32)));
        SStore 32 (PAdd (PV v_dst1 (IC 0)) (IC 32)) (VV v_M);
        SVec v_M (VLoad 32 0 (PAdd (PV v_pfirst (IC 1)) (IMul (IV v_i) (IC 11))));
        SStore 32 (PV v_dst2 (IC 0)) (VV v_M);
        SVec v_M (VLoad 32 0 (PAdd (PAdd (PV v_pfirst (IC 1)) (IMul (IV v_i) (IC 11))) (IC 32)));
        SStore 32 (PAdd (PV v_dst2 (IC 0)) (IC 32)) (VV v_M);
        SVec v_M (VLoad 32 0 (PAdd (PV v_pfirst (IC 2)) (IMul (IV v_i) (IC 11))));
        SStore 32 (PV v_dst3 (IC 0)) (VV v_M);
        SVec v_M (VLoad 32 0 (PAdd (PAdd (PV v_pfirst (IC 2)) (IMul (IV v_i) (IC 11))) (IC 32)));
        SStore 32 (PAdd (PV v_dst3 (IC 0)) (IC 32)) (VV v_M);
        SVec v_M (VLoad 32 0 (PAdd (PV v_pfirst (IC 3)) (IMul (IV v_i) (IC 11))));
        SStore 32 (PV v_dst4 (IC 0)) (VV v_M);
        SVec v_M (VLoad 32 0 (PAdd (PAdd (PV v_pfirst (IC 3)) (IMul (IV v_i) (IC 11))) (IC 32)));
        SStore 32 (PAdd (PV v_dst4 (IC 0)) (IC 32)) (VV v_M);
        SPtr v_dst1 (IC 0) (PAdd (PV v_dst4 (IC 0)) (IV v_i_dst));
        SPtr v_dst2 (IC 0) (PAdd (PV v_dst1 (IC 0)) (IV v_i_dst));
        SPtr v_dst3 (IC 0) (PAdd (PV v_dst2 (IC 0)) (IV v_i_dst));
        SPtr v_dst4 (IC 0) (PAdd (PV v_dst3 (IC 0)) (IV v_i_dst));
        SInt v_i (IAdd (IV v_i) (IC 1))]] [
      SIf (IEq (IV v_bsx) (IC 32)) [
        SInt v_i (IC 0);
        SLoop (ILt (IV v_i) (IV v_bsy)) [
          SVec v_M (VLoad 32 0 (PAdd (PV v_pfirst (IC 0)) (IMul (IV v_i) (IC 11))));
          SStore 32 (PV v_dst1 (IC 0)) (VV v_M);
          SVec v_M (VLoad 32 0 (PAdd (PV v_pfirst (IC 1)) (IMul (IV v_i) (IC 11))));
          SStore 32 (PV v_dst2 (IC 0)) (VV v_M);
          SVec v_M (VLoad 32 0 (PAdd (PV v_pfirst (IC 2)) (IMul (IV v_i) (IC 11))));
          SStore 32 (PV v_dst3 (IC 0)) (VV v_M);
          SVec v_M (VLoad 32 0 (PAdd (PV v_pfirst (IC 3)) (IMul (IV v_i) (IC 11))));
          SStore 32 (PV v_dst4 (IC 0)) (VV v_M);
          SPtr v_dst1 (IC 0) (PAdd (PV v_dst4 (IC 0)) (IV v_i_dst));
          SPtr v_dst2 (IC 0) (PAdd (PV v_dst1 (IC 0)) (IV v_i_dst));
          SPtr v_dst3 (IC 0) (PAdd (PV v_dst2 (IC 0)) (IV v_i_dst));
          SPtr v_dst4 (IC 0) (PAdd (PV v_dst3 (IC 0)) (IV v_i_dst));
          SInt v_i (IAdd (IV v_i) (IC 1))]] [
        SVec v_mask (VTab intrinsic_mask_256_8bit (IC 15));
        SInt v_i (IC 0);
        SLoop (ILt (IV v_i) (IV v_bsy)) [
          SVec v_M (VLoad 32 0 (PAdd (PV v_pfirst (IC 0)) (IMul (IV v_i) (IC 11))));
          SMask 8 (PV v_dst1 (IC 0)) (VV v_mask) (VV v_M);
          SVec v_M (VLoad 32 0 (PAdd (PV v_pfirst (IC 1)) (IMul (IV v_i) (IC 11))));
          SMask 8 (PV v_dst2 (IC 0)) (VV v_mask) (VV v_M);
          SVec v_M (VLoad 32 0 (PAdd (PV v_pfirst (IC 2)) (IMul (IV v_i) (IC 11))));
          SMask 8 (PV v_dst3 (IC 0)) (VV v_mask) (VV v_M);
          SVec v_M (VLoad 32 0 (PAdd (PV v_pfirst (IC 3)) (IMul (IV v_i) (IC 11))));
          SMask 8 (PV v_dst4 (IC 0)) (VV v_mask) (VV v_M);
          SPtr v_dst1 (IC 0) (PAdd (PV v_dst4 (IC 0)) (IV v_i_dst));
          SPtr v_dst2 (IC 0) (PAdd (PV v_dst1 (IC 0)) (IV v_i_dst));
          SPtr v_dst3 (IC 0) (PAdd (PV v_dst2 (IC 0)) (IV v_i_dst));
          SPtr v_dst4 (IC 0) (PAdd (PV v_dst3 (IC 0)) (IV v_i_dst));
          SInt v_i (IAdd (IV v_i) (IC 1))]]]] [
    SIf (IEq (IV v_bsx) (IC 16)) [
      SVec v_coeff2 (VSet1 2 16 (XC 2));
      SVec v_coeff3 (VSet1 2 16 (XC 3));
      SVec v_coeff4 (VSet1 2 16 (XC 4));
      SVec v_coeff5 (VSet1 2 16 (XC 5));
      SVec v_coeff7 (VSet1 2 16 (XC 7));
      SVec v_coeff8 (VSet1 2 16 (XC 8));
      SVec v_SS2 (VLoad 32 0 (PAdd (PV v_src (IC 0)) (IC 2)));
      SVec v_L2 (VOp1 Cvt8 (VOp1 (Ext 0) (VV v_SS2)));
      SVec v_SS2 (VLoad 32 0 (PAdd (PV v_src (IC 0)) (IC 3)));
      SVec v_L3 (VOp1 Cvt8 (VOp1 (Ext 0) (VV v_SS2)));
      SVec v_SS2 (VLoad 32 0 (PAdd (PV v_src (IC 0)) (IC 4)));
      SVec v_L4 (VOp1 Cvt8 (VOp1 (Ext 0) (VV v_SS2)));
      SVec v_SS2 (VLoad 32 0 (PAdd (PV v_src (IC 0)) (IC 5)));
      SVec v_L5 (VOp1 Cvt8 (VOp1 (Ext 0) (VV v_SS2)));
      SVec v_SS2 (VLoad 32 0 (PAdd (PV v_src (IC 0)) (IC 6)));
      SVec v_L6 (VOp1 Cvt8 (VOp1 (Ext 0) (VV v_SS2)));
      SVec v_SS2 (VLoad 32 0 (PAdd (PV v_src (IC 0)) (IC 7)));
      SVec v_L7 (VOp1 Cvt8 (VOp1 (Ext 0) (VV v_SS2)));
      SVec v_SS2 (VLoad 32 0 (PAdd (PV v_src (IC 0)) (IC 8)));
      SVec v_L8 (VOp1 Cvt8 (VOp1 (Ext 0) (VV v_SS2)));
      SVec v_SS2 (VLoad 32 0 (PAdd (PV v_src (IC 0)) (IC 9)));
      SVec v_L9 (VOp1 Cvt8 (VOp1 (Ext 0) (VV v_SS2)));
      SVec v_SS2 (VLoad 32 0 (PAdd (PV v_src (IC 0)) (IC 10)));
      SVec v_L10 (VOp1 Cvt8 (VOp1 (Ext 0) (VV v_SS2)));
      SVec v_SS11 (VLoad 32 0 (PAdd (PV v_src (IC 0)) (IC 11)));
      SVec v_L11 (VOp1 Cvt8 (VOp1 (Ext 0) (VV v_SS11)));
      SVec v_SS11 (VLoad 32 0 (PAdd (PV v_src (IC 0)) (IC 12)));
      SVec v_L12 (VOp1 Cvt8 (VOp1 (Ext 0) (VV v_SS11)));
      SVec v_SS11 (VLoad 32 0 (PAdd (PV v_src (IC 0)) (IC 13)));
      SVec v_L13 (VOp1 Cvt8 (VOp1 (Ext 0) (VV v_SS11)));
      SVec v_p00 (VOp2 (Add16) (VV v_L2) (VV v_coeff8));
      SVec v_p10 (VOp2 (Mul16) (VV v_L3) (VV v_coeff5));
      SVec v_p20 (VOp2 (Mul16) (VV v_L4) (VV v_coeff7));
      SVec v_p30 (VOp2 (Mul16) (VV v_L5) (VV v_coeff3));
      SVec v_p00 (VOp2 (Add16) (VV v_p00) (VV v_p10));
      SVec v_p00 (VOp2 (Add16) (VV v_p00) (VV v_p20));
      SVec v_p00 (VOp2 (Add16) (VV v_p00) (VV v_p30));
      SVec v_p00 (VOp1 (Srl16 4) (VV v_p00));
      SVec v_p00 (VOp2 (Pack16) (VV v_p00) (VV v_p00));
      SVec v_p00 (VOp1 (Perm64 8) (VV v_p00));
      SVec v_mask (VTab intrinsic_mask_256_8bit (IC 15));
      SMask 8 (PV v_dst1 (IC 0)) (VV v_mask) (VV v_p00);
      SVec v_p00 (VOp2 (Add16) (VV v_L5) (VV v_L8));
      SVec v_p10 (VOp2 (Add16) (VV v_L6) (VV v_L7));
      SVec v_p10 (VOp2 (Mul16) (VV v_p10) (VV v_coeff3));
      SVec v_p00 (VOp2 (Add16) (VV v_p00) (VV v_coeff4));
      SVec v_p00 (VOp2 (Add16) (VV v_p00) (VV v_p10));
      SVec v_p00 (VOp1 (Srl16 3) (VV v_p00));
      SVec v_p00 (VOp2 (Pack16) (VV v_p00) (VV v_p00));
      SVec v_p00 (VOp1 (Perm64 8) (VV v_p00));
      SMask 8 (PV v_dst2 (IC 0)) (VV v_mask) (VV v_p00);
      SVec v_p00 (VOp2 (Mul16) (VV v_L8) (VV v_coeff3));
      SVec v_p10 (VOp2 (Mul16) (VV v_L9) (VV v_coeff7));
      SVec v_p20 (VOp2 (Mul16) (VV v_L10) (VV v_coeff5));
      SVec v_p30 (VOp2 (Add16) (VV v_L11) (VV v_coeff8));
      SVec v_p00 (VOp2 (Add16) (VV v_p00) (VV v_p10));
      SVec v_p00 (VOp2 (Add16) (VV v_p00) (VV v_p20));
      SVec v_p00 (VOp2 (Add16) (VV v_p00) (VV v_p30));
      SVec v_p00 (VOp1 (Srl16 4) (VV v_p00));
      SVec v_p00 (VOp2 (Pack16) (VV v_p00) (VV v_p00));
      SVec v_p00 (VOp1 (Perm64 8) (VV v_p00));
      SMask 8 (PV v_dst3 (IC 0)) (VV v_mask) (VV v_p00);
      SVec v_p00 (VOp2 (Add16) (VV v_L11) (VV v_L13));
      SVec v_p10 (VOp2 (Mul16) (VV v_L12) (VV v_coeff2));
      SVec v_p00 (VOp2 (Add16) (VV v_p00) (VV v_coeff2));
      SVec v_p00 (VOp2 (Add16) (VV v_p00) (VV v_p10));
      SVec v_p00 (VOp1 (Srl16 2) (VV v_p00));
      SVec v_p00 (VOp2 (Pack16) (VV v_p00) (VV v_p00));
      SVec v_p00 (VOp1 (Perm64 8) (VV v_p00));
      SMask 8 (PV v_dst4 (IC 0)) (VV v_mask) (VV v_p00)] [
      SCall k_ang_x_3_sse128 (PV v_src (IC 0)) (PV v_dst (IC 0)) (IV v_i_dst) (IV v_bsx) (IV v_bsy)]]].

(** vec/intrinsic_intra-pred_avx2.cc:940-1147 [intra_pred_ang_x_4_avx] *)
Definition k_ang_x_4_avx : list stm := [
  SIf (ILand (INot (IEq (IV v_bsx) (IV v_bsy))) (ILt (IV v_bsx) (IV v_bsy))) [
    SCall k_ang_x_4_sse128 (PV v_src (IC 0)) (PV v_dst (IC 0)) (IV v_i_dst) (IV v_bsx) (IV v_bsy);
    SRet] [];
  SArr v_first_line (IAdd (IC 64) (IC 128));
  SInt v_line_size (IAdd (IV v_bsx) (IShl (ISub (IV v_bsy) (IC 1)) (IC 1)));
  SInt v_iHeight2 (IShl (IV v_bsy) (IC 1));
  SVec v_zero (VConst [0;0;0;0;0;0;0;0;0;0;0;0;0;0;0;0;0;0;0;0;0;0;0;0;0;0;0;0;0;0;0;0]);
  SVec v_offset (VSet1 2 16 (XC 2));
  SPtr v_src (IC 0) (PAdd (PV v_src (IC 0)) (IC 3));
  SInt v_i (IC 0);
  SLoop (ILt (IV v_i) (ISub (IV v_line_size) (IC 16))) [
    SVec v_S0 (VLoad 32 0 (PAdd (PV v_src (IC 0)) (ISub (IC 0) (IC 1))));
    SVec v_S1 (VLoad 32 0 (PV v_src (IC 0)));
    SVec v_S2 (VLoad 32 0 (PAdd (PV v_src (IC 0)) (IC 1)));
    SVec v_L0 (VOp2 (UnpL 1) (VV v_S0) (VV v_zero));
    SVec v_L1 (VOp2 (UnpL 1) (VV v_S1) (VV v_zero));
    SVec v_L2 (VOp2 (UnpL 1) (VV v_S2) (VV v_zero));
    SVec v_H0 (VOp2 (UnpH 1) (VV v_S0) (VV v_zero));
    SVec v_H1 (VOp2 (UnpH 1) (VV v_S1) (VV v_zero));
    SVec v_H2 (VOp2 (UnpH 1) (VV v_S2) (VV v_zero));
    SVec v_tmp0 (VOp2 (Perm128 32) (VV v_L0) (VV v_H0));
    SVec v_tmp1 (VOp2 (Perm128 32) (VV v_L1) (VV v_H1));
    SVec v_tmp2 (VOp2 (Perm128 32) (VV v_L2) (VV v_H2));
    SVec v_sum1 (VOp2 (Add16) (VV v_tmp0) (VV v_tmp1));
    SVec v_sum2 (VOp2 (Add16) (VV v_tmp1) (VV v_tmp2));
    SVec v_tmp0 (VOp2 (Perm128 49) (VV v_L0) (VV v_H0));
    SVec v_tmp1 (VOp2 (Perm128 49) (VV v_L1) (VV v_H1));
    SVec v_tmp2 (VOp2 (Perm128 49) (VV v_L2) (VV v_H2));
    SVec v_sum3 (VOp2 (Add16) (VV v_tmp0) (VV v_tmp1));
    SVec v_sum4 (VOp2 (Add16) (VV v_tmp1) (VV v_tmp2));
    SVec v_sum1 (VOp2 (Add16) (VV v_sum1) (VV v_sum2));
    SVec v_sum3 (VOp2 (Add16) (VV v_sum3) (VV v_sum4));
    SVec v_sum1 (VOp2 (Add16) (VV v_sum1) (VV v_offset));
    SVec v_sum3 (VOp2 (Add16) (VV v_sum3) (VV v_offset));
    SVec v_sum1 (VOp1 (Srl16 2) (VV v_sum1));
    SVec v_sum3 (VOp1 (Srl16 2) (VV v_sum3));
    SVec v_sum1 (VOp2 (Pack16) (VV v_sum1) (VV v_sum3));
    SVec v_sum1 (VOp1 (Perm64 216) (VV v_sum1));
    SStore 32 (PAdd (PV v_first_line (IC 0)) (IV v_i)) (VV v_sum1);
    SInt v_i (IAdd (IV v_i) (IC 32));
    SPtr v_src (IC 0) (PAdd (PV v_src (IC 0)) (IC 32))];
  SIf (ILt (IV v_i) (IV v_line_size)) [
    SVec v_S0 (VLoad 32 0 (PAdd (PV v_src (IC 0)) (ISub (IC 0) (IC 1))));
    SVec v_S2 (VLoad 32 0 (PAdd (PV v_src (IC 0)) (IC 1)));
    SVec v_S1 (VLoad 32 0 (PV v_src (IC 0)));
    SVec v_S0 (VOp1 (Perm64 216) (VV v_S0));
    SVec v_S2 (VOp1 (Perm64 216) (VV v_S2));
    SVec v_S1 (VOp1 (Perm64 216) (VV v_S1));
    SVec v_L0 (VOp2 (UnpL 1) (VV v_S0) (VV v_zero));
    SVec v_L1 (VOp2 (UnpL 1) (VV v_S1) (VV v_zero));
    SVec v_L2 (VOp2 (UnpL 1) (VV v_S2) (VV v_zero));
    SVec v_sum1 (VOp2 (Add16) (VV v_L0) (VV v_L1));
    SVec v_sum2 (VOp2 (Add16) (VV v_L1) (VV v_L2));
    SVec v_sum1 (VOp2 (Add16) (VV v_sum1) (VV v_sum2));
    SVec v_sum1 (VOp2 (Add16) (VV v_sum1) (VV v_offset));
    SVec v_sum1 (VOp1 (Srl16 2) (VV v_sum1));
    SVec v_sum1 (VOp2 (Pack16) (VV v_sum1) (VV v_sum1));
    SVec v_sum1 (VOp1 (Perm64 8) (VV v_sum1));
    SVec v_mask2 (VTab intrinsic_mask_256_8bit (IC 15));
    SMask 8 (PAdd (PV v_first_line (IC 0)) (IV v_i)) (VV v_mask2) (VV v_sum1)] [];
  SIf (IEq (IV v_bsx) (IC 64)) [
    SInt v_i (IC 0);
    SLoop (ILt (IV v_i) (IV v_iHeight2)) [
      SVec v_M (VLoad 32 0 (PAdd (PV v_first_line (IC 0)) (IV v_i)));
      SStore 32 (PV v_dst (IC 0)) (VV v_M);
      SVec v_M (VLoad 32 0 (PAdd (PAdd (PV v_first_line (IC 0)) (IV v_i)) (IC 32)));
      SStore 32 (PAdd (PV v_dst (IC 0)) (IC 32)) (VV v_M);
      SPtr v_dst (IC 0) (PAdd (PV v_dst (IC 0)) (IV v_i_dst));
      SVec v_M (VLoad 32 0 (PAdd (PV v_first_line (IC 0)) (IAdd (IV v_i) (IC 2))));
      SStore 32 (PV v_dst (IC 0)) (VV v_M);
      SVec v_M (VLoad 32 0 (PAdd (PAdd (PV v_first_line (IC 0)) (IAdd (IV v_i) (IC 2))) (IC 32)));
      SStore 32 (PAdd (PV v_dst (IC 0)) (IC 32)) (VV v_M);
      SPtr v_dst (IC 0) (PAdd (PV v_dst (IC 0)) (IV v_i_dst));
      SVec v_M (VLoad 32 0 (PAdd (PV v_first_line (IC 0)) (IAdd (IV v_i) (IC 4))));
      SStore 32 (PV v_dst (IC 0)) (VV v_M);
      SVec v_M (VLoad 32 0 (PAdd (PAdd (PV v_first_line (IC 0)) (IAdd (IV v_i) (IC 4))) (IC 32)));
      SStore 32 (PAdd (PV v_dst (IC 0)) (IC 32)) (VV v_M);
      SPtr v_dst (IC 0) (PAdd (PV v_dst (IC 0)) (IV v_i_dst));
      SVec v_M (VLoad 32 0 (PAdd (PV v_first_line (IC 0)) (IAdd (IV v_i) (IC 6))));
      SStore 32 (PV v_dst (IC 0)) (VV v_M);
      SVec v_M (VLoad 32 0 (PAdd (PAdd (PV v_first_line (IC 0)) (IAdd (IV v_i) (IC 6))) (IC 32)));
      SStore 32 (PAdd (PV v_dst (IC 0)) (IC 32)) (VV v_M);
      SPtr v_dst (IC 0) (PAdd (PV v_dst (IC 0)) (IV v_i_dst));
      SInt v_i (IAdd (IV v_i) (IC 8))]] [
    SIf (IEq (IV v_bsx) (IC 32)) [
      SInt v_i (IC 0);
      SLoop (ILt (IV v_i) (IV v_iHeight2)) [
        SVec v_M (VLoad 32 0 (PAdd (PV v_first_line (IC 0)) (IV v_i)));
        SStore 32 (PV v_dst (IC 0)) (VV v_M);
        SPtr v_dst (IC 0) (PAdd (PV v_dst (IC 0)) (IV v_i_dst));
        SVec v_M (VLoad 32 0 (PAdd (PV v_first_line (IC 0)) (IAdd (IV v_i) (IC 2))));
        SStore 32 (PV v_dst (IC 0)) (VV v_M);
        SPtr v_dst (IC 0) (PAdd (PV v_dst (IC 0)) (IV v_i_dst));
        SVec v_M (VLoad 32 0 (PAdd (PV v_first_line (IC 0)) (IAdd (IV v_i) (IC 4))));
        SStore 32 (PV v_dst (IC 0)) (VV v_M);
        SPtr v_dst (IC 0) (PAdd (PV v_dst (IC 0)) (IV v_i_dst));
        SVec v_M (VLoad 32 0 (PAdd (PV v_first_line (IC 0)) (IAdd (IV v_i) (IC 6))));
        SStore 32 (PV v_dst (IC 0)) (VV v_M);
        SPtr v_dst (IC 0) (PAdd (PV v_dst (IC 0)) (IV v_i_dst));
        SInt v_i (IAdd (IV v_i) (IC 8))]] [
      SIf (IEq (IV v_bsx) (IC 16)) [
        SVec v_mask (VTab intrinsic_mask_256_8bit (ISub (IV v_bsx) (IC 1)));
        SInt v_i (IC 0);
        SLoop (ILt (IV v_i) (IV v_iHeight2)) [
          SVec v_M (VLoad 32 0 (PAdd (PV v_first_line (IC 0)) (IV v_i)));
          SMask 8 (PV v_dst (IC 0)) (VV v_mask) (VV v_M);
          SPtr v_dst (IC 0) (PAdd (PV v_dst (IC 0)) (IV v_i_dst));
          SVec v_M (VLoad 32 0 (PAdd (PV v_first_line (IC 0)) (IAdd (IV v_i) (IC 2))));
          SMask 8 (PV v_dst (IC 0)) (VV v_mask) (VV v_M);
          SPtr v_dst (IC 0) (PAdd (PV v_dst (IC 0)) (IV v_i_dst));
          SVec v_M (VLoad 32 0 (PAdd (PV v_first_line (IC 0)) (IAdd (IV v_i) (IC 4))));
          SMask 8 (PV v_dst (IC 0)) (VV v_mask) (VV v_M);
          SPtr v_dst (IC 0) (PAdd (PV v_dst (IC 0)) (IV v_i_dst));
          SVec v_M (VLoad 32 0 (PAdd (PV v_first_line (IC 0)) (IAdd (IV v_i) (IC 6))));
          SMask 8 (PV v_dst (IC 0)) (VV v_mask) (VV v_M);
          SPtr v_dst (IC 0) (PAdd (PV v_dst (IC 0)) (IV v_i_dst));
          SInt v_i (IAdd (IV v_i) (IC 8))]] [
        SIf (IEq (IV v_bsx) (IC 8)) [
          SVec v_mask (VTab intrinsic_mask_256_8bit (ISub (IV v_bsx) (IC 1)));
          SInt v_i (IC 0);
          SLoop (ILt (IV v_i) (IV v_iHeight2)) [
            SVec v_M (VLoad 32 0 (PAdd (PV v_first_line (IC 0)) (IV v_i)));
            SMask 8 (PV v_dst (IC 0)) (VV v_mask) (VV v_M);
            SPtr v_dst (IC 0) (PAdd (PV v_dst (IC 0)) (IV v_i_dst));
            SVec v_M (VOp1 (SrlB 2) (VV v_M));
            SMask 8 (PV v_dst (IC 0)) (VV v_mask) (VV v_M);
            SPtr v_dst (IC 0) (PAdd (PV v_dst (IC 0)) (IV v_i_dst));
            SVec v_M (VOp1 (SrlB 2) (VV v_M));
            SMask 8 (PV v_dst (IC 0)) (VV v_mask) (VV v_M);
            SPtr v_dst (IC 0) (PAdd (PV v_dst (IC 0)) (IV v_i_dst));
            SVec v_M (VOp1 (SrlB 2) (VV v_M));
            SMask 8 (PV v_dst (IC 0)) (VV v_mask) (VV v_M);
            SPtr v_dst (IC 0) (PAdd (PV v_dst (IC 0)) (IV v_i_dst));
            SInt v_i (IAdd (IV v_i) (IC 8))]] [
          SVec v_mask (VTab intrinsic_mask_256_8bit (ISub (IV v_bsx) (IC 1)));
          SInt v_i (IC 0);
          SLoop (ILt (IV v_i) (IV v_iHeight2)) [
            SVec v_M (VLoad 32 0 (PAdd (PV v_first_line (IC 0)) (IV v_i)));
            SMask 4 (PV v_dst (IC 0)) (VV v_mask) (VV v_M);
            SPtr v_dst (IC 0) (PAdd (PV v_dst (IC 0)) (IV v_i_dst));
            SVec v_M (VOp1 (SrlB 2) (VV v_M));
            SMask 4 (PV v_dst (IC 0)) (VV v_mask) (VV v_M);
            SPtr v_dst (IC 0) (PAdd (PV v_dst (IC 0)) (IV v_i_dst));
            SVec v_M (VOp1 (SrlB 2) (VV v_M));
            SMask 4 (PV v_dst (IC 0)) (VV v_mask) (VV v_M);
            SPtr v_dst (IC 0) (PAdd (PV v_dst (IC 0)) (IV v_i_dst));
            SVec v_M (VOp1 (SrlB 2) (VV v_M));
            SMask 4 (PV v_dst (IC 0)) (VV v_mask) (VV v_M);
            SPtr v_dst (IC 0) (PAdd (PV v_dst (IC 0)) (IV v_i_dst));
            SInt v_i (IAdd (IV v_i) (IC 8))]]]]]].

(** vec/intrinsic_intra-pred_avx2.cc:1149-1786 [intra_pred_ang_x_5_avx] *)
Definition k_ang_x_5_avx : list stm := [
  SVec v_coeff2 (VSet1 2 16 (XC 2));
  SVec v_coeff3 (VSet1 2 16 (XC 3));
  SVec v_coeff4 (VSet1 2 16 (XC 4));
  SVec v_coeff5 (VSet1 2 16 (XC 5));
  SVec v_coeff7 (VSet1 2 16 (XC 7));
  SVec v_coeff8 (VSet1 2 16 (XC 8));
  SVec v_coeff9 (VSet1 2 16 (XC 9));
  SVec v_coeff11 (VSet1 2 16 (XC 11));
  SVec v_coeff13 (VSet1 2 16 (XC 13));
  SVec v_coeff15 (VSet1 2 16 (XC 15));
  SVec v_coeff16 (VSet1 2 16 (XC 16));
  SIf (ILand (ILt (IC 4) (IV v_bsy)) (ILt (IC 8) (IV v_bsx))) [
    SArr v_first_line (IShl (IAdd (IAdd (IC 64) (IC 80)) (IC 16)) (IC 3));
    SInt v_line_size (IAdd (IV v_bsx) (IMul (IShr (ISub (IV v_bsy) (IC 8)) (IC 3)) (IC 11)));
    SInt v_aligned_line_size (IAdd (IShl (IShr (IAdd (IV v_line_size) (IC 15)) (IC 4)) (IC 4)) (IC 16));
    SPtr v_dst1 (IC 0) (PV v_dst (IC 0));
    SPtr v_dst2 (IC 0) (PAdd (PV v_dst1 (IC 0)) (IV v_i_dst));
    SPtr v_dst3 (IC 0) (PAdd (PV v_dst2 (IC 0)) (IV v_i_dst));
    SPtr v_dst4 (IC 0) (PAdd (PV v_dst3 (IC 0)) (IV v_i_dst));
    SPtr v_dst5 (IC 0) (PAdd (PV v_dst4 (IC 0)) (IV v_i_dst));
    SPtr v_dst6 (IC 0) (PAdd (PV v_dst5 (IC 0)) (IV v_i_dst));
    SPtr v_dst7 (IC 0) (PAdd (PV v_dst6 (IC 0)) (IV v_i_dst));
    SPtr v_dst8 (IC 0) (PAdd (PV v_dst7 (IC 0)) (IV v_i_dst));
    SPtr v_pfirst (IC 0) (PV v_first_line (IC 0));
    SPtr v_pfirst (IC 1) (PAdd (PV v_pfirst (IC 0)) (IV v_aligned_line_size));
    SPtr v_pfirst (IC 2) (PAdd (PV v_pfirst (IC 1)) (IV v_aligned_line_size));
    SPtr v_pfirst (IC 3) (PAdd (PV v_pfirst (IC 2)) (IV v_aligned_line_size));
    SPtr v_pfirst (IC 4) (PAdd (PV v_pfirst (IC 3)) (IV v_aligned_line_size));
    SPtr v_pfirst (IC 5) (PAdd (PV v_pfirst (IC 4)) (IV v_aligned_line_size));
    SPtr v_pfirst (IC 6) (PAdd (PV v_pfirst (IC 5)) (IV v_aligned_line_size));
    SPtr v_pfirst (IC 7) (PAdd (PV v_pfirst (IC 6)) (IV v_aligned_line_size));
    SInt v_i (IC 0);
    SLoop (ILt (IV v_i) (ISub (IV v_line_size) (IC 16))) [
      SVec v_SS1 (VLoad 32 0 (PAdd (PV v_src (IC 0)) (IC 1)));
      SVec v_L1 (VOp1 Cvt8 (VOp1 (Ext 0) (VV v_SS1)));
      SVec v_H1 (VOp1 Cvt8 (VOp1 (Ext 1) (VV v_SS1)));
      SVec v_SS1 (VLoad 32 0 (PAdd (PV v_src (IC 0)) (IC 2)));
      SVec v_L2 (VOp1 Cvt8 (VOp1 (Ext 0) (VV v_SS1)));
      SVec v_H2 (VOp1 Cvt8 (VOp1 (Ext 1) (VV v_SS1)));
      SVec v_SS1 (VLoad 32 0 (PAdd (PV v_src (IC 0)) (IC 3)));
      SVec v_L3 (VOp1 Cvt8 (VOp1 (Ext 0) (VV v_SS1)));
      SVec v_H3 (VOp1 Cvt8 (VOp1 (Ext 1) (VV v_SS1)));
      SVec v_SS1 (VLoad 32 0 (PAdd (PV v_src (IC 0)) (IC 4)));
      SVec v_L4 (VOp1 Cvt8 (VOp1 (Ext 0) (VV v_SS1)));
      SVec v_H4 (VOp1 Cvt8 (VOp1 (Ext 1) (VV v_SS1)));
      SVec v_SS1 (VLoad 32 0 (PAdd (PV v_src (IC 0)) (IC 5)));
      SVec v_L5 (VOp1 Cvt8 (VOp1 (Ext 0) (VV v_SS1)));
      SVec v_H5 (VOp1 Cvt8 (VOp1 (Ext 1) (VV v_SS1)));
      SVec v_SS1 (VLoad 32 0 (PAdd (PV v_src (IC 0)) (IC 6)));
      SVec v_L6 (VOp1 Cvt8 (VOp1 (Ext 0) (VV v_SS1)));
      SVec v_H6 (VOp1 Cvt8 (VOp1 (Ext 1) (VV v_SS1)));
      SVec v_SS1 (VLoad 32 0 (PAdd (PV v_src (IC 0)) (IC 7)));
      SVec v_L7 (VOp1 Cvt8 (VOp1 (Ext 0) (VV v_SS1)));
      SVec v_H7 (VOp1 Cvt8 (VOp1 (Ext 1) (VV v_SS1)));
      SVec v_SS1 (VLoad 32 0 (PAdd (PV v_src (IC 0)) (IC 8)));
      SVec v_L8 (VOp1 Cvt8 (VOp1 (Ext 0) (VV v_SS1)));
      SVec v_H8 (VOp1 Cvt8 (VOp1 (Ext 1) (VV v_SS1)));
      SVec v_SS1 (VLoad 32 0 (PAdd (PV v_src (IC 0)) (IC 9)));
      SVec v_L9 (VOp1 Cvt8 (VOp1 (Ext 0) (VV v_SS1)));
      SVec v_H9 (VOp1 Cvt8 (VOp1 (Ext 1) (VV v_SS1)));
      SVec v_SS1 (VLoad 32 0 (PAdd (PV v_src (IC 0)) (IC 10)));
      SVec v_L10 (VOp1 Cvt8 (VOp1 (Ext 0) (VV v_SS1)));
      SVec v_H10 (VOp1 Cvt8 (VOp1 (Ext 1) (VV v_SS1)));
      SVec v_SS1 (VLoad 32 0 (PAdd (PV v_src (IC 0)) (IC 11)));
      SVec v_L11 (VOp1 Cvt8 (VOp1 (Ext 0) (VV v_SS1)));
      SVec v_H11 (VOp1 Cvt8 (VOp1 (Ext 1) (VV v_SS1)));
      SVec v_SS1 (VLoad 32 0 (PAdd (PV v_src (IC 0)) (IC 12)));
      SVec v_L12 (VOp1 Cvt8 (VOp1 (Ext 0) (VV v_SS1)));
      SVec v_H12 (VOp1 Cvt8 (VOp1 (Ext 1) (VV v_SS1)));
      SVec v_SS1 (VLoad 32 0 (PAdd (PV v_src (IC 0)) (IC 13)));
      SVec v_L13 (VOp1 Cvt8 (VOp1 (Ext 0) (VV v_SS1)));
      SVec v_H13 (VOp1 Cvt8 (VOp1 (Ext 1) (VV v_SS1)));
      SVec v_p00 (VOp2 (Mul16) (VV v_L1) (VV v_coeff5));
      SVec v_p10 (VOp2 (Mul16) (VV v_L2) (VV v_coeff13));
      SVec v_p20 (VOp2 (Mul16) (VV v_L3) (VV v_coeff11));
      SVec v_p30 (VOp2 (Mul16) (VV v_L4) (VV v_coeff3));
      SVec v_p00 (VOp2 (Add16) (VV v_p00) (VV v_coeff16));
      SVec v_p00 (VOp2 (Add16) (VV v_p00) (VV v_p10));
      SVec v_p00 (VOp2 (Add16) (VV v_p00) (VV v_p20));
      SVec v_p00 (VOp2 (Add16) (VV v_p00) (VV v_p30));
      SVec v_p00 (VOp1 (Srl16 5) (VV v_p00));
      SVec v_p01 (VOp2 (Mul16) (VV v_H1) (VV v_coeff5));
      SVec v_p11 (VOp2 (Mul16) (VV v_H2) (VV v_coeff13));
      SVec v_p21 (VOp2 (Mul16) (VV v_H3) (VV v_coeff11));
      SVec v_p31 (VOp2 (Mul16) (VV v_H4) (VV v_coeff3));
      SVec v_p01 (VOp2 (Add16) (VV v_p01) (VV v_coeff16));
      SVec v_p01 (VOp2 (Add16) (VV v_p01) (VV v_p11));
      SVec v_p01 (VOp2 (Add16) (VV v_p01) (VV v_p21));
      SVec v_p01 (VOp2 (Add16) (VV v_p01) (VV v_p31));
      SVec v_p01 (VOp1 (Srl16 5) (VV v_p01));
      SVec v_p00 (VOp2 (Pack16) (VV v_p00) (VV v_p01));
      SVec v_p00 (VOp1 (Perm64 216) (VV v_p00));
      SStore 32 (PAdd (PV v_pfirst (IC 0)) (IV v_i)) (VV v_p00);
      SVec v_p10 (VOp2 (Mul16) (VV v_L3) (VV v_coeff5));
      SVec v_p20 (VOp2 (Mul16) (VV v_L4) (VV v_coeff7));
      SVec v_p30 (VOp2 (Mul16) (VV v_L5) (VV v_coeff3));
      SVec v_p00 (VOp2 (Add16) (VV v_L2) (VV v_coeff8));
      SVec v_p00 (VOp2 (Add16) (VV v_p00) (VV v_p10));
      SVec v_p00 (VOp2 (Add16) (VV v_p00) (VV v_p20));
      SVec v_p00 (VOp2 (Add16) (VV v_p00) (VV v_p30));
      SVec v_p00 (VOp1 (Srl16 4) (VV v_p00));
      SVec v_p11 (VOp2 (Mul16) (VV v_H3) (VV v_coeff5));
      SVec v_p21 (VOp2 (Mul16) (VV v_H4) (VV v_coeff7));
      SVec v_p31 (VOp2 (Mul16) (VV v_H5) (VV v_coeff3));
      SVec v_p01 (VOp2 (Add16) (VV v_H2) (VV v_coeff8));
      SVec v_p01 (VOp2 (Add16) (VV v_p01) (VV v_p11));
      SVec v_p01 (VOp2 (Add16) (VV v_p01) (VV v_p21));
      SVec v_p01 (VOp2 (Add16) (VV v_p01) (VV v_p31));
      SVec v_p01 (VOp1 (Srl16 4) (VV v_p01));
      SVec v_p00 (VOp2 (Pack16) (VV v_p00) (VV v_p01));
      SVec v_p00 (VOp1 (Perm64 216) (VV v_p00));
      SStore 32 (PAdd (PV v_pfirst (IC 1)) (IV v_i)) (VV v_p00);
      SVec v_p00 (VOp2 (Mul16) (VV v_L4) (VV v_coeff7));
      SVec v_p10 (VOp2 (Mul16) (VV v_L5) (VV v_coeff15));
      SVec v_p20 (VOp2 (Mul16) (VV v_L6) (VV v_coeff9));
      SVec v_p30 (VOp2 (Add16) (VV v_L7) (VV v_coeff16));
      SVec v_p00 (VOp2 (Add16) (VV v_p00) (VV v_p10));
      SVec v_p00 (VOp2 (Add16) (VV v_p00) (VV v_p20));
      SVec v_p00 (VOp2 (Add16) (VV v_p00) (VV v_p30));
      SVec v_p00 (VOp1 (Srl16 5) (VV v_p00));
      SVec v_p01 (VOp2 (Mul16) (VV v_H4) (VV v_coeff7));
      SVec v_p11 (VOp2 (Mul16) (VV v_H5) (VV v_coeff15));
      SVec v_p21 (VOp2 (Mul16) (VV v_H6) (VV v_coeff9));
      SVec v_p31 (VOp2 (Add16) (VV v_H7) (VV v_coeff16));
      SVec v_p01 (VOp2 (Add16) (VV v_p01) (VV v_p11));
      SVec v_p01 (VOp2 (Add16) (VV v_p01) (VV v_p21));
      SVec v_p01 (VOp2 (Add16) (VV v_p01) (VV v_p31));
      SVec v_p01 (VOp1 (Srl16 5) (VV v_p01));
      SVec v_p00 (VOp2 (Pack16) (VV v_p00) (VV v_p01));
      SVec v_p00 (VOp1 (Perm64 216) (VV v_p00));
      SStore 32 (PAdd (PV v_pfirst (IC 2)) (IV v_i)) (VV v_p00);
      SVec v_p00 (VOp2 (Add16) (VV v_L5) (VV v_L8));
      SVec v_p10 (VOp2 (Add16) (VV v_L6) (VV v_L7));
      SVec v_p10 (VOp2 (Mul16) (VV v_p10) (VV v_coeff3));
      SVec v_p00 (VOp2 (Add16) (VV v_p00) (VV v_coeff4));
      SVec v_p00 (VOp2 (Add16) (VV v_p00) (VV v_p10));
      SVec v_p00 (VOp1 (Srl16 3) (VV v_p00));
      SVec v_p01 (VOp2 (Add16) (VV v_H5) (VV v_H8));
      SVec v_p11 (VOp2 (Add16) (VV v_H6) (VV v_H7));
      SVec v_p11 (VOp2 (Mul16) (VV v_p11) (VV v_coeff3));
      SVec v_p01 (VOp2 (Add16) (VV v_p01) (VV v_coeff4));
      SVec v_p01 (VOp2 (Add16) (VV v_p01) (VV v_p11));
      SVec v_p01 (VOp1 (Srl16 3) (VV v_p01));
      SVec v_p00 (VOp2 (Pack16) (VV v_p00) (VV v_p01));
      SVec v_p00 (VOp1 (Perm64 216) (VV v_p00));
      SStore 32 (PAdd (PV v_pfirst (IC 3)) (IV v_i)) (VV v_p00);
      SVec v_p00 (VOp2 (Add16) (VV v_L6) (VV v_coeff16));
      SVec v_p10 (VOp2 (Mul16) (VV v_L7) (VV v_coeff9));
      SVec v_p20 (VOp2 (Mul16) (VV v_L8) (VV v_coeff15));
      SVec v_p30 (VOp2 (Mul16) (VV v_L9) (VV v_coeff7));
      SVec v_p00 (VOp2 (Add16) (VV v_p00) (VV v_p10));
      SVec v_p00 (VOp2 (Add16) (VV v_p00) (VV v_p20));
      SVec v_p00 (VOp2 (Add16) (VV v_p00) (VV v_p30));
      SVec v_p00 (VOp1 (Srl16 5) (VV v_p00));
      SVec v_p01 (VOp2 (Add16) (VV v_H6) (VV v_coeff16));
      SVec v_p11 (VOp2 (Mul16) (VV v_H7) (VV v_coeff9));
      SVec v_p21 (VOp2 (Mul16) (VV v_H8) (VV v_coeff15));
      SVec v_p31 (VOp2 (Mul16) (VV v_H9) (VV v_coeff7));
      SVec v_p01 (VOp2 (Add16) (VV v_p01) (VV v_p11));
      SVec v_p01 (VOp2 (Add16) (VV v_p01) (VV v_p21));
      SVec v_p01 (VOp2 (Add16) (VV v_p01) (VV v_p31));
      SVec v_p01 (VOp1 (Srl16 5) (VV v_p01));
      SVec v_p00 (VOp2 (Pack16) (VV v_p00) (VV v_p01));
      SVec v_p00 (VOp1 (Perm64 216) (VV v_p00));
      SStore 32 (PAdd (PV v_pfirst (IC 4)) (IV v_i)) (VV v_p00);
      SVec v_p00 (VOp2 (Mul16) (VV v_L8) (VV v_coeff3));
      SVec v_p10 (VOp2 (Mul16) (VV v_L9) (VV v_coeff7));
      SVec v_p20 (VOp2 (Mul16) (VV v_L10) (VV v_coeff5));
      SVec v_p30 (VOp2 (Add16) (VV v_L11) (VV v_coeff8));
      SVec v_p00 (VOp2 (Add16) (VV v_p00) (VV v_p10));
      SVec v_p00 (VOp2 (Add16) (VV v_p00) (VV v_p20));
      SVec v_p00 (VOp2 (Add16) (VV v_p00) (VV v_p30));
      SVec v_p00 (VOp1 (Srl16 4) (VV v_p00));
      SVec v_p01 (VOp2 (Mul16) (VV v_H8) (VV v_coeff3));
      SVec v_p11 (VOp2 (Mul16) (VV v_H9) (VV v_coeff7));
      SVec v_p21 (VOp2 (Mul16) (VV v_H10) (VV v_coeff5));
      SVec v_p31 (VOp2 (Add16) (VV v_H11) (VV v_coeff8));
      SVec v_p01 (VOp2 (Add16) (VV v_p01) (VV v_p11));
      SVec v_p01 (VOp2 (Add16) (VV v_p01) (VV v_p21));
      SVec v_p01 (VOp2 (Add16) (VV v_p01) (VV v_p31));
      SVec v_p01 (VOp1 (Srl16 4) (VV v_p01));
      SVec v_p00 (VOp2 (Pack16) (VV v_p00) (VV v_p01));
      SVec v_p00 (VOp1 (Perm64 216) (VV v_p00));
      SStore 32 (PAdd (PV v_pfirst (IC 5)) (IV v_i)) (VV v_p00);
      SVec v_p00 (VOp2 (Mul16) (VV v_L9) (VV v_coeff3));
      SVec v_p10 (VOp2 (Mul16) (VV v_L10) (VV v_coeff11));
      SVec v_p20 (VOp2 (Mul16) (VV v_L11) (VV v_coeff13));
      SVec v_p30 (VOp2 (Mul16) (VV v_L12) (VV v_coeff5));
      SVec v_p00 (VOp2 (Add16) (VV v_p00) (VV v_coeff16));
      SVec v_p00 (VOp2 (Add16) (VV v_p00) (VV v_p10));
      SVec v_p00 (VOp2 (Add16) (VV v_p00) (VV v_p20));
      SVec v_p00 (VOp2 (Add16) (VV v_p00) (VV v_p30));
      SVec v_p00 (VOp1 (Srl16 5) (VV v_p00));
      SVec v_p01 (VOp2 (Mul16) (VV v_H9) (VV v_coeff3));
      SVec v_p11 (VOp2 (Mul16) (VV v_H10) (VV v_coeff11));
      SVec v_p21 (VOp2 (Mul16) (VV v_H11) (VV v_coeff13));
      SVec v_p31 (VOp2 (Mul16) (VV v_H12) (VV v_coeff5));
      SVec v_p01 (VOp2 (Add16) (VV v_p01) (VV v_coeff16));
      SVec v_p01 (VOp2 (Add16) (VV v_p01) (VV v_p11));
      SVec v_p01 (VOp2 (Add16) (VV v_p01) (VV v_p21));
      SVec v_p01 (VOp2 (Add16) (VV v_p01) (VV v_p31));
      SVec v_p01 (VOp1 (Srl16 5) (VV v_p01));
      SVec v_p00 (VOp2 (Pack16) (VV v_p00) (VV v_p01));
      SVec v_p00 (VOp1 (Perm64 216) (VV v_p00));
      SStore 32 (PAdd (PV v_pfirst (IC 6)) (IV v_i)) (VV v_p00);
      SVec v_p00 (VOp2 (Add16) (VV v_L11) (VV v_L13));
      SVec v_p10 (VOp2 (Add16) (VV v_L12) (VV v_L12));
      SVec v_p00 (VOp2 (Add16) (VV v_p00) (VV v_coeff2));
      SVec v_p00 (VOp2 (Add16) (VV v_p00) (VV v_p10));
      SVec v_p00 (VOp1 (Srl16 2) (VV v_p00));
      SVec v_p01 (VOp2 (Add16) (VV v_H11) (VV v_H13));
      SVec v_p11 (VOp2 (Add16) (VV v_H12) (VV v_H12));
      SVec v_p01 (VOp2 (Add16) (VV v_p01) (VV v_coeff2));
      SVec v_p01 (VOp2 (Add16) (VV v_p01) (VV v_p11));
      SVec v_p01 (VOp1 (Srl16 2) (VV v_p01));
      SVec v_p00 (VOp2 (Pack16) (VV v_p00) (VV v_p01));
      SVec v_p00 (VOp1 (Perm64 216) (VV v_p00));
      SStore 32 (PAdd (PV v_pfirst (IC 7)) (IV v_i)) (VV v_p00);
      SInt v_i (IAdd (IV v_i) (IC 32));
      SPtr v_src (IC 0) (PAdd (PV v_src (IC 0)) (IC 32))];
    SIf (ILt (IV v_i) (IV v_line_size)) [
      SVec v_SS1 (VLoad 32 0 (PAdd (PV v_src (IC 0)) (IC 1)));
      SVec v_L1 (VOp1 Cvt8 (VOp1 (Ext 0) (VV v_SS1)));
      SVec v_SS1 (VLoad 32 0 (PAdd (PV v_src (IC 0)) (IC 2)));
      SVec v_L2 (VOp1 Cvt8 (VOp1 (Ext 0) (VV v_SS1)));
      SVec v_SS1 (VLoad 32 0 (PAdd (PV v_src (IC 0)) (IC 3)));
      SVec v_L3 (VOp1 Cvt8 (VOp1 (Ext 0) (VV v_SS1)));
      SVec v_SS1 (VLoad 32 0 (PAdd (PV v_src (IC 0)) (IC 4)));
      SVec v_L4 (VOp1 Cvt8 (VOp1 (Ext 0) (VV v_SS1)));
      SVec v_SS1 (VLoad 32 0 (PAdd (PV v_src (IC 0)) (IC 5)));
      SVec v_L5 (VOp1 Cvt8 (VOp1 (Ext 0) (VV v_SS1)));
      SVec v_SS1 (VLoad 32 0 (PAdd (PV v_src (IC 0)) (IC 6)));
      SVec v_L6 (VOp1 Cvt8 (VOp1 (Ext 0) (VV v_SS1)));
      SVec v_SS1 (VLoad 32 0 (PAdd (PV v_src (IC 0)) (IC 7)));
      SVec v_L7 (VOp1 Cvt8 (VOp1 (Ext 0) (VV v_SS1)));
      SVec v_SS1 (VLoad 32 0 (PAdd (PV v_src (IC 0)) (IC 8)));
      SVec v_L8 (VOp1 Cvt8 (VOp1 (Ext 0) (VV v_SS1)));
      SVec v_SS1 (VLoad 32 0 (PAdd (PV v_src (IC 0)) (IC 9)));
      SVec v_L9 (VOp1 Cvt8 (VOp1 (Ext 0) (VV v_SS1)));
      SVec v_SS1 (VLoad 32 0 (PAdd (PV v_src (IC 0)) (IC 10)));
      SVec v_L10 (VOp1 Cvt8 (VOp1 (Ext 0) (VV v_SS1)));
      SVec v_SS1 (VLoad 32 0 (PAdd (PV v_src (IC 0)) (IC 11)));
      SVec v_L11 (VOp1 Cvt8 (VOp1 (Ext 0) (VV v_SS1)));
      SVec v_SS1 (VLoad 32 0 (PAdd (PV v_src (IC 0)) (IC 12)));
      SVec v_L12 (VOp1 Cvt8 (VOp1 (Ext 0) (VV v_SS1)));
      SVec v_SS1 (VLoad 32 0 (PAdd (PV v_src (IC 0)) (IC 13)));
      SVec v_L13 (VOp1 Cvt8 (VOp1 (Ext 0) (VV v_SS1)));
      SVec v_p00 (VOp2 (Mul16) (VV v_L1) (VV v_coeff5));
      SVec v_p10 (VOp2 (Mul16) (VV v_L2) (VV v_coeff13));
      SVec v_p20 (VOp2 (Mul16) (VV v_L3) (VV v_coeff11));
      SVec v_p30 (VOp2 (Mul16) (VV v_L4) (VV v_coeff3));
      SVec v_p00 (VOp2 (Add16) (VV v_p00) (VV v_coeff16));
      SVec v_p00 (VOp2 (Add16) (VV v_p00) (VV v_p10));
      SVec v_p00 (VOp2 (Add16) (VV v_p00) (VV v_p20));
      SVec v_p00 (VOp2 (Add16) (VV v_p00) (VV v_p30));
      SVec v_p00 (VOp1 (Srl16 5) (VV v_p00));
      SVec v_p00 (VOp2 (Pack16) (VV v_p00) (VV v_p00));
      SVec v_p00 (VOp1 (Perm64 8) (VV v_p00));
      SVec v_mask (VTab intrinsic_mask_256_8bit (IC 15));
      SMask 8 (PAdd (PV v_pfirst (IC 0)) (IV v_i)) (VV v_mask) (VV v_p00);
      SVec v_p10 (VOp2 (Mul16) (VV v_L3) (VV v_coeff5));
      SVec v_p20 (VOp2 (Mul16) (VV v_L4) (VV v_coeff7));
      SVec v_p30 (VOp2 (Mul16) (VV v_L5) (VV v_coeff3));
      SVec v_p00 (VOp2 (Add16) (VV v_L2) (VV v_coeff8));
      SVec v_p00 (VOp2 (Add16) (VV v_p00) (VV v_p10));
      SVec v_p00 (VOp2 (Add16) (VV v_p00) (VV v_p20));
      SVec v_p00 (VOp2 (Add16) (VV v_p00) (VV v_p30));
      SVec v_p00 (VOp1 (Srl16 4) (VV v_p00));
      SVec v_p00 (VOp2 (Pack16) (VV v_p00) (VV v_p00));
      SVec v_p00 (VOp1 (Perm64 8) (VV v_p00));
      SMask 8 (PAdd (PV v_pfirst (IC 1)) (IV v_i)) (VV v_mask) (VV v_p00);
      SVec v_p00 (VOp2 (Mul16) (VV v_L4) (VV v_coeff7));
      SVec v_p10 (VOp2 (Mul16) (VV v_L5) (VV v_coeff15));
      SVec v_p20 (VOp2 (Mul16) (VV v_L6) (VV v_coeff9));
      SVec v_p30 (VOp2 (Add16) (VV v_L7) (VV v_coeff16));
      SVec v_p00 (VOp2 (Add16) (VV v_p00) (VV v_p10));
      SVec v_p00 (VOp2 (Add16) (VV v_p00) (VV v_p20));
      SVec v_p00 (VOp2 (Add16) (VV v_p00) (VV v_p30));
      SVec v_p00 (VOp1 (Srl16 5) (VV v_p00));
      SVec v_p00 (VOp2 (Pack16) (VV v_p00) (VV v_p00));
      SMask 8 (PAdd (PV v_pfirst (IC 2)) (IV v_i)) (VV v_mask) (VV v_p00);
      SVec v_p00 (VOp2 (Add16) (VV v_L5) (VV v_L8));
      SVec v_p10 (VOp2 (Add16) (VV v_L6) (VV v_L7));
      SVec v_p10 (VOp2 (Mul16) (VV v_p10) (VV v_coeff3));
      SVec v_p00 (VOp2 (Add16) (VV v_p00) (VV v_coeff4));
      SVec v_p00 (VOp2 (Add16) (VV v_p00) (VV v_p10));
      SVec v_p00 (VOp1 (Srl16 3) (VV v_p00));
      SVec v_p00 (VOp2 (Pack16) (VV v_p00) (VV v_p00));
      SMask 8 (PAdd (PV v_pfirst (IC 3)) (IV v_i)) (VV v_mask) (VV v_p00);
      SVec v_p00 (VOp2 (Add16) (VV v_L6) (VV v_coeff16));
      SVec v_p10 (VOp2 (Mul16) (VV v_L7) (VV v_coeff9));
      SVec v_p20 (VOp2 (Mul16) (VV v_L8) (VV v_coeff15));
      SVec v_p30 (VOp2 (Mul16) (VV v_L9) (VV v_coeff7));
      SVec v_p00 (VOp2 (Add16) (VV v_p00) (VV v_p10));
      SVec v_p00 (VOp2 (Add16) (VV v_p00) (VV v_p20));
      SVec v_p00 (VOp2 (Add16) (VV v_p00) (VV v_p30));
      SVec v_p00 (VOp1 (Srl16 5) (VV v_p00));
      SVec v_p00 (VOp2 (Pack16) (VV v_p00) (VV v_p00));
      SMask 8 (PAdd (PV v_pfirst (IC 4)) (IV v_i)) (VV v_mask) (VV v_p00);
      SVec v_p00 (VOp2 (Mul16) (VV v_L8) (VV v_coeff3));
      SVec v_p10 (VOp2 (Mul16) (VV v_L9) (VV v_coeff7));
      SVec v_p20 (VOp2 (Mul16) (VV v_L10) (VV v_coeff5));
      SVec v_p30 (VOp2 (Add16) (VV v_L11) (VV v_coeff8));
      SVec v_p00 (VOp2 (Add16) (VV v_p00) (VV v_p10));
      SVec v_p00 (VOp2 (Add16) (VV v_p00) (VV v_p20));
      SVec v_p00 (VOp2 (Add16) (VV v_p00) (VV v_p30));
      SVec v_p00 (VOp1 (Srl16 4) (VV v_p00));
      SVec v_p00 (VOp2 (Pack16) (VV v_p00) (VV v_p00));
      SMask 8 (PAdd (PV v_pfirst (IC 5)) (IV v_i)) (VV v_mask) (VV v_p00);
      SVec v_p00 (VOp2 (Mul16) (VV v_L9) (VV v_coeff3));
      SVec v_p10 (VOp2 (Mul16) (VV v_L10) (VV v_coeff11));
      SVec v_p20 (VOp2 (Mul16) (VV v_L11) (VV v_coeff13));
      SVec v_p30 (VOp2 (Mul16) (VV v_L12) (VV v_coeff5));
      SVec v_p00 (VOp2 (Add16) (VV v_p00) (VV v_coeff16));
      SVec v_p00 (VOp2 (Add16) (VV v_p00) (VV v_p10));
      SVec v_p00 (VOp2 (Add16) (VV v_p00) (VV v_p20));
      SVec v_p00 (VOp2 (Add16) (VV v_p00) (VV v_p30));
      SVec v_p00 (VOp1 (Srl16 5) (VV v_p00));
      SVec v_p00 (VOp2 (Pack16) (VV v_p00) (VV v_p00));
      SMask 8 (PAdd (PV v_pfirst (IC 6)) (IV v_i)) (VV v_mask) (VV v_p00);
      SVec v_p00 (VOp2 (Add16) (VV v_L11) (VV v_L13));
      SVec v_p10 (VOp2 (Add16) (VV v_L12) (VV v_L12));
      SVec v_p00 (VOp2 (Add16) (VV v_p00) (VV v_coeff2));
      SVec v_p00 (VOp2 (Add16) (VV v_p00) (VV v_p10));
      SVec v_p00 (VOp1 (Srl16 2) (VV v_p00));
      SVec v_p00 (VOp2 (Pack16) (VV v_p00) (VV v_p00));
      SMask 8 (PAdd (PV v_pfirst (IC 7)) (IV v_i)) (VV v_mask) (VV v_p00)] [];
    SInt v_bsy (IShr (IV v_bsy) (IC 3));
    SIf (IEq (IV v_bsx) (IC 64)) [
      SInt v_i (IC 0);
      SLoop (ILt (IV v_i) (IV v_bsy)) [
        SVec v_M (VLoad 32 0 (PAdd (PV v_pfirst (IC 0)) (IMul (IV v_i) (IC 11))));
        SStore 32 (PV v_dst1 (IC 0)) (VV v_M);
        SVec v_M (VLoad 32 0 (PAdd (PAdd (PV v_pfirst (IC 0)) (IMul (IV v_i) (IC 11))) (IC 32)));
        SStore 32 (PAdd (PV v_dst1 (IC 0)) (IC 32)) (VV v_M);
        SVec v_M (VLoad 32 0 (PAdd (PV v_pfirst (IC 1)) (IMul (IV v_i) (IC 11))));
        SStore 32 (PV v_dst2 (IC 0)) (VV v_M);
        SVec v_M (VLoad 32 0 (PAdd (PAdd (PV v_pfirst (IC 1)) (IMul (IV v_i) (IC 11))) (IC 32)));
        SStore 32 (PAdd (PV v_dst2 (IC 0)) (IC 32)) (VV v_M);
        SVec v_M (VLoad 32 0 (PAdd (PV v_pfirst (IC 2)) (IMul (IV v_i) (IC 11))));
        SStore 32 (PV v_dst3 (IC 0)) (VV v_M);
        SVec v_M (VLoad 32 0 (PAdd (PAdd (PV v_pfirst (IC 2)) (IMul (IV v_i) (IC 11))) (IC 32)));
        SStore 32 (PAdd (PV v_dst3 (IC 0)) (IC 32)) (VV v_M);
        SVec v_M (VLoad 32 0 (PAdd (PV v_pfirst (IC 3)) (IMul (IV v_i) (IC 11))));
        SStore 32 (PV v_dst4 (IC 0)) (VV v_M);
        SVec v_M (VLoad 32 0 (PAdd (PAdd (PV v_pfirst (IC 3)) (IMul (IV v_i) (IC 11))) (IC 32)));
        SStore 32 (PAdd (PV v_dst4 (IC 0)) (IC 32)) (VV v_M);
        SVec v_M (VLoad 32 0 (PAdd (PV v_pfirst (IC 4)) (IMul (IV v_i) (IC 11))));
        SStore 32 (PV v_dst5 (IC 0)) (VV v_M);
        SVec v_M (VLoad 32 0 (PAdd (PAdd (PV v_pfirst (IC 4)) (IMul (IV v_i) (IC 11))) (IC 32)));
        SStore 32 (PAdd (PV v_dst5 (IC 0)) (IC 32)) (VV v_M);
        SVec v_M (VLoad 32 0 (PAdd (PV v_pfirst (IC 5)) (IMul (IV v_i) (IC 11))));
        SStore 32 (PV v_dst6 (IC 0)) (VV v_M);
        SVec v_M (VLoad 32 0 (PAdd (PAdd (PV v_pfirst (IC 5)) (IMul (IV v_i) (IC 11))) (IC 32)));
        SStore 32 (PAdd (PV v_dst6 (IC 0)) (IC 32)) (VV v_M);
        SVec v_M (VLoad 32 0 (PAdd (PV v_pfirst (IC 6)) (IMul (IV v_i) (IC 11))));
        SStore 32 (PV v_dst7 (IC 0)) (VV v_M);
        SVec v_M (VLoad 32 0 (PAdd (PAdd (PV v_pfirst (IC 6)) (IMul (IV v_i) (IC 11))) (IC 32)));
        SStore 32 (PAdd (PV v_dst7 (IC 0)) (IC 32)) (VV v_M);
        SVec v_M (VLoad 32 0 (PAdd (PV v_pfirst (IC 7)) (IMul (IV v_i) (IC 11))));
        SStore 32 (PV v_dst8 (IC 0)) (VV v_M);
        SVec v_M (VLoad 32 0 (PAdd (PAdd (PV v_pfirst (IC 7)) (IMul (IV v_i) (IC 11))) (IC 32)));
        SStore 32 (PAdd (PV v_dst8 (IC 0)) (IC 32)) (VV v_M);
        SPtr v_dst1 (IC 0) (PAdd (PV v_dst8 (IC 0)) (IV v_i_dst));
        SPtr v_dst2 (IC 0) (PAdd (PV v_dst1 (IC 0)) (IV v_i_dst));
        SPtr v_dst3 (IC 0) (PAdd (PV v_dst2 (IC 0)) (IV v_i_dst));
        SPtr v_dst4 (IC 0) (PAdd (PV v_dst3 (IC 0)) (IV v_i_dst));
        SPtr v_dst5 (IC 0) (PAdd (PV v_dst4 (IC 0)) (IV v_i_dst));
        SPtr v_dst6 (IC 0) (PAdd (PV v_dst5 (IC 0)) (IV v_i_dst));
        SPtr v_dst7 (IC 0) (PAdd (PV v_dst6 (IC 0)) (IV v_i_dst));
        SPtr v_dst8 (IC 0) (PAdd (PV v_dst7 (IC 0)) (IV v_i_dst));
        SInt v_i (IAdd (IV v_i) (IC 1))]] [
      SIf (IEq (IV v_bsx) (IC 32)) [
        SInt v_i (IC 0);
        SLoop (ILt (IV v_i) (IV v_bsy)) [
          SVec v_M (VLoad 32 0 (PAdd (PV v_pfirst (IC 0)) (IMul (IV v_i) (IC 11))));
          SStore 32 (PV v_dst1 (IC 0)) (VV v_M);
          SVec v_M (VLoad 32 0 (PAdd (PV v_pfirst (IC 1)) (IMul (IV v_i) (IC 11))));
          SStore 32 (PV v_dst2 (IC 0)) (VV v_M);
          SVec v_M (VLoad 32 0 (PAdd (PV v_pfirst (IC 2)) (IMul (IV v_i) (IC 11))));
          SStore 32 (PV v_dst3 (IC 0)) (VV v_M);
          SVec v_M (VLoad 32 0 (PAdd (PV v_pfirst (IC 3)) (IMul (IV v_i) (IC 11))));
          SStore 32 (PV v_dst4 (IC 0)) (VV v_M);
          SVec v_M (VLoad 32 0 (PAdd (PV v_pfirst (IC 4)) (IMul (IV v_i) (IC 11))));
          SStore 32 (PV v_dst5 (IC 0)) (VV v_M);
          SVec v_M (VLoad 32 0 (PAdd (PV v_pfirst (IC 5)) (IMul (IV v_i) (IC 11))));
          SStore 32 (PV v_dst6 (IC 0)) (VV v_M);
          SVec v_M (VLoad 32 0 (PAdd (PV v_pfirst (IC 6)) (IMul (IV v_i) (IC 11))));
          SStore 32 (PV v_dst7 (IC 0)) (VV v_M);
          SVec v_M (VLoad 32 0 (PAdd (PV v_pfirst (IC 7)) (IMul (IV v_i) (IC 11))));
          SStore 32 (PV v_dst8 (IC 0)) (VV v_M);
          SPtr v_dst1 (IC 0) (PAdd (PV v_dst8 (IC 0)) (IV v_i_dst));
          SPtr v_dst2 (IC 0) (PAdd (PV v_dst1 (IC 0)) (IV v_i_dst));
          SPtr v_dst3 (IC 0) (PAdd (PV v_dst2 (IC 0)) (IV v_i_dst));
          SPtr v_dst4 (IC 0) (PAdd (PV v_dst3 (IC 0)) (IV v_i_dst));
          SPtr v_dst5 (IC 0) (PAdd (PV v_dst4 (IC 0)) (IV v_i_dst));
          SPtr v_dst6 (IC 0) (PAdd (PV v_dst5 (IC 0)) (IV v_i_dst));
          SPtr v_dst7 (IC 0) (PAdd (PV v_dst6 (IC 0)) (IV v_i_dst));
          SPtr v_dst8 (IC 0) (PAdd (PV v_dst7 (IC 0)) (IV v_i_dst));
          SInt v_i (IAdd (IV v_i) (IC 1))]] [
        SVec v_mask (VTab intrinsic_mask_256_8bit (IC 15));
        SInt v_i (IC 0);
        SLoop (ILt (IV v_i) (IV v_bsy)) [
          SVec v_M (VLoad 32 0 (PAdd (PV v_pfirst (IC 0)) (IMul (IV v_i) (IC 11))));
          SMask 8 (PV v_dst1 (IC 0)) (VV v_mask) (VV v_M);
          SVec v_M (VLoad 32 0 (PAdd (PV v_pfirst (IC 1)) (IMul (IV v_i) (IC 11))));
          SMask 8 (PV v_dst2 (IC 0)) (VV v_mask) (VV v_M);
          SVec v_M (VLoad 32 0 (PAdd (PV v_pfirst (IC 2)) (IMul (IV v_i) (IC 11))));
          SMask 8 (PV v_dst3 (IC 0)) (VV v_mask) (VV v_M);
          SVec v_M (VLoad 32 0 (PAdd (PV v_pfirst (IC 3)) (IMul (IV v_i) (IC 11))));
          SMask 8 (PV v_dst4 (IC 0)) (VV v_mask) (VV v_M);
          SVec v_M (VLoad 32 0 (PAdd (PV v_pfirst (IC 4)) (IMul (IV v_i) (IC 11))));
          SMask 8 (PV v_dst5 (IC 0)) (VV v_mask) (VV v_M);
          SVec v_M (VLoad 32 0 (PAdd (PV v_pfirst (IC 5)) (IMul (IV v_i) (IC 11))));
          SMask 8 (PV v_dst6 (IC 0)) (VV v_mask) (VV v_M);
          SVec v_M (VLoad 32 0 (PAdd (PV v_pfirst (IC 6)) (IMul (IV v_i) (IC 11))));
          SMask 8 (PV v_dst7 (IC 0)) (VV v_mask) (VV v_M);
          SVec v_M (VLoad 32 0 (PAdd (PV v_pfirst (IC 7)) (IMul (IV v_i) (IC 11))));
          SMask 8 (PV v_dst8 (IC 0)) (VV v_mask) (VV v_M);
          SPtr v_dst1 (IC 0) (PAdd (PV v_dst8 (IC 0)) (IV v_i_dst));
          SPtr v_dst2 (IC 0) (PAdd (PV v_dst1 (IC 0)) (IV v_i_dst));
          SPtr v_dst3 (IC 0) (PAdd (PV v_dst2 (IC 0)) (IV v_i_dst));
          SPtr v_dst4 (IC 0) (PAdd (PV v_dst3 (IC 0)) (IV v_i_dst));
          SPtr v_dst5 (IC 0) (PAdd (PV v_dst4 (IC 0)) (IV v_i_dst));
          SPtr v_dst6 (IC 0) (PAdd (PV v_dst5 (IC 0)) (IV v_i_dst));
          SPtr v_dst7 (IC 0) (PAdd (PV v_dst6 (IC 0)) (IV v_i_dst));
          SPtr v_dst8 (IC 0) (PAdd (PV v_dst7 (IC 0)) (IV v_i_dst));
          SInt v_i (IAdd (IV v_i) (IC 1))]]]] [
    SIf (IEq (IV v_bsx) (IC 16)) [
      SPtr v_dst1 (IC 0) (PV v_dst (IC 0));
      SPtr v_dst2 (IC 0) (PAdd (PV v_dst1 (IC 0)) (IV v_i_dst));
      SPtr v_dst3 (IC 0) (PAdd (PV v_dst2 (IC 0)) (IV v_i_dst));
      SPtr v_dst4 (IC 0) (PAdd (PV v_dst3 (IC 0)) (IV v_i_dst));
      SVec v_SS1 (VLoad 32 0 (PAdd (PV v_src (IC 0)) (IC 1)));
      SVec v_L1 (VOp1 Cvt8 (VOp1 (Ext 0) (VV v_SS1)));
      SVec v_SS1 (VLoad 32 0 (PAdd (PV v_src (IC 0)) (IC 2)));
      SVec v_L2 (VOp1 Cvt8 (VOp1 (Ext 0) (VV v_SS1)));
      SVec v_SS1 (VLoad 32 0 (PAdd (PV v_src (IC 0)) (IC 3)));
      SVec v_L3 (VOp1 Cvt8 (VOp1 (Ext 0) (VV v_SS1)));
      SVec v_SS1 (VLoad 32 0 (PAdd (PV v_src (IC 0)) (IC 4)));
      SVec v_L4 (VOp1 Cvt8 (VOp1 (Ext 0) (VV v_SS1)));
      SVec v_SS1 (VLoad 32 0 (PAdd (PV v_src (IC 0)) (IC 5)));
      SVec v_L5 (VOp1 Cvt8 (VOp1 (Ext 0) (VV v_SS1)));
      SVec v_SS1 (VLoad 32 0 (PAdd (PV v_src (IC 0)) (IC 6)));
      SVec v_L6 (VOp1 Cvt8 (VOp1 (Ext 0) (VV v_SS1)));
      SVec v_SS1 (VLoad 32 0 (PAdd (PV v_src (IC 0)) (IC 7)));
      SVec v_L7 (VOp1 Cvt8 (VOp1 (Ext 0) (VV v_SS1)));
      SVec v_SS1 (VLoad 32 0 (PAdd (PV v_src (IC 0)) (IC 8)));
      SVec v_L8 (VOp1 Cvt8 (VOp1 (Ext 0) (VV v_SS1)));
      SVec v_p00 (VOp2 (Mul16) (VV v_L1) (VV v_coeff5));
      SVec v_p10 (VOp2 (Mul16) (VV v_L2) (VV v_coeff13));
      SVec v_p20 (VOp2 (Mul16) (VV v_L3) (VV v_coeff11));
      SVec v_p30 (VOp2 (Mul16) (VV v_L4) (VV v_coeff3));
      SVec v_p00 (VOp2 (Add16) (VV v_p00) (VV v_coeff16));
      SVec v_p00 (VOp2 (Add16) (VV v_p00) (VV v_p10));
      SVec v_p00 (VOp2 (Add16) (VV v_p00) (VV v_p20));
      SVec v_p00 (VOp2 (Add16) (VV v_p00) (VV v_p30));
      SVec v_p00 (VOp1 (Srl16 5) (VV v_p00));
      SVec v_p00 (VOp2 (Pack16) (VV v_p00) (VV v_p00));
      SVec v_p00 (VOp1 (Perm64 8) (VV v_p00));
      SVec v_mask (VTab intrinsic_mask_256_8bit (IC 15));
      SMask 8 (PV v_dst1 (IC 0)) (VV v_mask) (VV v_p00);
      SVec v_p10 (VOp2 (Mul16) (VV v_L3) (VV v_coeff5));
      SVec v_p20 (VOp2 (Mul16) (VV v_L4) (VV v_coeff7));
      SVec v_p30 (VOp2 (Mul16) (VV v_L5) (VV v_coeff3));
      SVec v_p00 (VOp2 (Add16) (VV v_L2) (VV v_coeff8));
      SVec v_p00 (VOp2 (Add16) (VV v_p00) (VV v_p10));
      SVec v_p00 (VOp2 (Add16) (VV v_p00) (VV v_p20));
      SVec v_p00 (VOp2 (Add16) (VV v_p00) (VV v_p30));
      SVec v_p00 (VOp1 (Srl16 4) (VV v_p00));
      SVec v_p00 (VOp2 (Pack16) (VV v_p00) (VV v_p00));
      SVec v_p00 (VOp1 (Perm64 8) (VV v_p00));
      SMask 8 (PV v_dst2 (IC 0)) (VV v_mask) (VV v_p00);
      SVec v_p00 (VOp2 (Mul16) (VV v_L4) (VV v_coeff7));
      SVec v_p10 (VOp2 (Mul16) (VV v_L5) (VV v_coeff15));
      SVec v_p20 (VOp2 (Mul16) (VV v_L6) (VV v_coeff9));
      SVec v_p30 (VOp2 (Add16) (VV v_L7) (VV v_coeff16));
      SVec v_p00 (VOp2 (Add16) (VV v_p00) (VV v_p10));
      SVec v_p00 (VOp2 (Add16) (VV v_p00) (VV v_p20));
      SVec v_p00 (VOp2 (Add16) (VV v_p00) (VV v_p30));
      SVec v_p00 (VOp1 (Srl16 5) (VV v_p00));
      SVec v_p00 (VOp2 (Pack16) (VV v_p00) (VV v_p00));
      SVec v_p00 (VOp1 (Perm64 8) (VV v_p00));
      SMask 8 (PV v_dst3 (IC 0)) (VV v_mask) (VV v_p00);
      SVec v_p00 (VOp2 (Add16) (VV v_L5) (VV v_L8));
      SVec v_p10 (VOp2 (Add16) (VV v_L6) (VV v_L7));
      SVec v_p10 (VOp2 (Mul16) (VV v_p10) (VV v_coeff3));
      SVec v_p00 (VOp2 (Add16) (VV v_p00) (VV v_coeff4));
      SVec v_p00 (VOp2 (Add16) (VV v_p00) (VV v_p10));
      SVec v_p00 (VOp1 (Srl16 3) (VV v_p00));
      SVec v_p00 (VOp2 (Pack16) (VV v_p00) (VV v_p00));
      SVec v_p00 (VOp1 (Perm64 8) (VV v_p00));
      SMask 8 (PV v_dst4 (IC 0)) (VV v_mask) (VV v_p00)] [
      SCall k_ang_x_5_sse128 (PV v_src (IC 0)) (PV v_dst (IC 0)) (IV v_i_dst) (IV v_bsx) (IV v_bsy)]]].

(** vec/intrinsic_intra-pred_avx2.cc:1788-2004 [intra_pred_ang_x_6_avx] *)
Definition k_ang_x_6_avx : list stm := [
  SArr v_first_line (IAdd (IC 64) (IC 64));
  SInt v_line_size (ISub (IAdd (IV v_bsx) (IV v_bsy)) (IC 1));
  SVec v_zero (VConst [0;0;0;0;0;0;0;0;0;0;0;0;0;0;0;0;0;0;0;0;0;0;0;0;0;0;0;0;0;0;0;0]);
  SVec v_offset (VSet1 2 16 (XC 2));
  SPtr v_src (IC 0) (PAdd (PV v_src (IC 0)) (IC 2));
  SInt v_i (IC 0);
  SLoop (ILt (IV v_i) (ISub (IV v_line_size) (IC 16))) [
    SVec v_S0 (VLoad 32 0 (PAdd (PV v_src (IC 0)) (ISub (IC 0) (IC 1))));
    SVec v_S1 (VLoad 32 0 (PV v_src (IC 0)));
    SVec v_S2 (VLoad 32 0 (PAdd (PV v_src (IC 0)) (IC 1)));
    SVec v_L0 (VOp2 (UnpL 1) (VV v_S0) (VV v_zero));
    SVec v_L1 (VOp2 (UnpL 1) (VV v_S1) (VV v_zero));
    SVec v_L2 (VOp2 (UnpL 1) (VV v_S2) (VV v_zero));
    SVec v_H0 (VOp2 (UnpH 1) (VV v_S0) (VV v_zero));
    SVec v_H1 (VOp2 (UnpH 1) (VV v_S1) (VV v_zero));
    SVec v_H2 (VOp2 (UnpH 1) (VV v_S2) (VV v_zero));
    SVec v_tmp0 (VOp2 (Perm128 32) (VV v_L0) (VV v_H0));
    SVec v_tmp1 (VOp2 (Perm128 32) (VV v_L1) (VV v_H1));
    SVec v_tmp2 (VOp2 (Perm128 32) (VV v_L2) (VV v_H2));
    SVec v_sum1 (VOp2 (Add16) (VV v_tmp0) (VV v_tmp1));
    SVec v_sum2 (VOp2 (Add16) (VV v_tmp1) (VV v_tmp2));
    SVec v_tmp0 (VOp2 (Perm128 49) (VV v_L0) (VV v_H0));
    SVec v_tmp1 (VOp2 (Perm128 49) (VV v_L1) (VV v_H1));
    SVec v_tmp2 (VOp2 (Perm128 49) (VV v_L2) (VV v_H2));
    SVec v_sum3 (VOp2 (Add16) (VV v_tmp0) (VV v_tmp1));
    SVec v_sum4 (VOp2 (Add16) (VV v_tmp1) (VV v_tmp2));
    SVec v_sum1 (VOp2 (Add16) (VV v_sum1) (VV v_sum2));
    SVec v_sum3 (VOp2 (Add16) (VV v_sum3) (VV v_sum4));
    SVec v_sum1 (VOp2 (Add16) (VV v_sum1) (VV v_offset));
    SVec v_sum3 (VOp2 (Add16) (VV v_sum3) (VV v_offset));
    SVec v_sum1 (VOp1 (Srl16 2) (VV v_sum1));
    SVec v_sum3 (VOp1 (Srl16 2) (VV v_sum3));
    SVec v_sum1 (VOp2 (Pack16) (VV v_sum1) (VV v_sum3));
    SVec v_sum1 (VOp1 (Perm64 216) (VV v_sum1));
    SStore 32 (PAdd (PV v_first_line (IC 0)) (IV v_i)) (VV v_sum1);
    SInt v_i (IAdd (IV v_i) (IC 32));
    SPtr v_src (IC 0) (PAdd (PV v_src (IC 0)) (IC 32))];
  SIf (ILt (IV v_i) (IV v_line_size)) [
    SVec v_S0 (VLoad 32 0 (PAdd (PV v_src (IC 0)) (ISub (IC 0) (IC 1))));
    SVec v_S2 (VLoad 32 0 (PAdd (PV v_src (IC 0)) (IC 1)));
    SVec v_S1 (VLoad 32 0 (PV v_src (IC 0)));
    SVec v_S0 (VOp1 (Perm64 216) (VV v_S0));
    SVec v_S2 (VOp1 (Perm64 216) (VV v_S2));
    SVec v_S1 (VOp1 (Perm64 216) (VV v_S1));
    SVec v_L0 (VOp2 (UnpL 1) (VV v_S0) (VV v_zero));
    SVec v_L1 (VOp2 (UnpL 1) (VV v_S1) (VV v_zero));
    SVec v_L2 (VOp2 (UnpL 1) (VV v_S2) (VV v_zero));
    SVec v_sum1 (VOp2 (Add16) (VV v_L0) (VV v_L1));
    SVec v_sum2 (VOp2 (Add16) (VV v_L1) (VV v_L2));
    SVec v_sum1 (VOp2 (Add16) (VV v_sum1) (VV v_sum2));
    SVec v_sum1 (VOp2 (Add16) (VV v_sum1) (VV v_offset));
    SVec v_sum1 (VOp1 (Srl16 2) (VV v_sum1));
    SVec v_sum1 (VOp2 (Pack16) (VV v_sum1) (VV v_sum1));
    SVec v_sum1 (VOp1 (Perm64 8) (VV v_sum1));
    SVec v_mask2 (VTab intrinsic_mask_256_8bit (IC 15));
    SMask 8 (PAdd (PV v_first_line (IC 0)) (IV v_i)) (VV v_mask2) (VV v_sum1)] [];
  SIf (IEq (IV v_bsx) (IC 64)) [
    SInt v_i (IC 0);
    SLoop (ILt (IV v_i) (IV v_bsy)) [
      SVec v_M (VLoad 32 0 (PAdd (PV v_first_line (IC 0)) (IV v_i)));
      SStore 32 (PV v_dst (IC 0)) (VV v_M);
      SVec v_M (VLoad 32 0 (PAdd (PAdd (PV v_first_line (IC 0)) (IV v_i)) (IC 32)));
      SStore 32 (PAdd (PV v_dst (IC 0)) (IC 32)) (VV v_M);
      SPtr v_dst (IC 0) (PAdd (PV v_dst (IC 0)) (IV v_i_dst));
      SVec v_M (VLoad 32 0 (PAdd (PV v_first_line (IC 0)) (IAdd (IV v_i) (IC 1))));
      SStore 32 (PV v_dst (IC 0)) (VV v_M);
      SVec v_M (VLoad 32 0 (PAdd (PAdd (PV v_first_line (IC 0)) (IAdd (IV v_i) (IC 1))) (IC 32)));
      SStore 32 (PAdd (PV v_dst (IC 0)) (IC 32)) (VV v_M);
      SPtr v_dst (IC 0) (PAdd (PV v_dst (IC 0)) (IV v_i_dst));
      SVec v_M (VLoad 32 0 (PAdd (PV v_first_line (IC 0)) (IAdd (IV v_i) (IC 2))));
      SStore 32 (PV v_dst (IC 0)) (VV v_M);
      SVec v_M (VLoad 32 0 (PAdd (PAdd (PV v_first_line (IC 0)) (IAdd (IV v_i) (IC 2))) (IC 32)));
      SStore 32 (PAdd (PV v_dst (IC 0)) (IC 32)) (VV v_M);
      SPtr v_dst (IC 0) (PAdd (PV v_dst (IC 0)) (IV v_i_dst));
      SVec v_M (VLoad 32 0 (PAdd (PV v_first_line (IC 0)) (IAdd (IV v_i) (IC 3))));
      SStore 32 (PV v_dst (IC 0)) (VV v_M);
      SVec v_M (VLoad 32 0 (PAdd (PAdd (PV v_first_line (IC 0)) (IAdd (IV v_i) (IC 3))) (IC 32)));
      SStore 32 (PAdd (PV v_dst (IC 0)) (IC 32)) (VV v_M);
      SPtr v_dst (IC 0) (PAdd (PV v_dst (IC 0)) (IV v_i_dst));
      SInt v_i (IAdd (IV v_i) (IC 4))]] [
    SIf (IEq (IV v_bsx) (IC 32)) [
      SInt v_i (IC 0);
      SLoop (ILt (IV v_i) (IV v_bsy)) [
        SVec v_M (VLoad 32 0 (PAdd (PV v_first_line (IC 0)) (IV v_i)));
        SStore 32 (PV v_dst (IC 0)) (VV v_M);
        SPtr v_dst (IC 0) (PAdd (PV v_dst (IC 0)) (IV v_i_dst));
        SVec v_M (VLoad 32 0 (PAdd (PV v_first_line (IC 0)) (IAdd (IV v_i) (IC 1))));
        SStore 32 (PV v_dst (IC 0)) (VV v_M);
        SPtr v_dst (IC 0) (PAdd (PV v_dst (IC 0)) (IV v_i_dst));
        SVec v_M (VLoad 32 0 (PAdd (PV v_first_line (IC 0)) (IAdd (IV v_i) (IC 2))));
        SStore 32 (PV v_dst (IC 0)) (VV v_M);
        SPtr v_dst (IC 0) (PAdd (PV v_dst (IC 0)) (IV v_i_dst));
        SVec v_M (VLoad 32 0 (PAdd (PV v_first_line (IC 0)) (IAdd (IV v_i) (IC 3))));
        SStore 32 (PV v_dst (IC 0)) (VV v_M);
        SPtr v_dst (IC 0) (PAdd (PV v_dst (IC 0)) (IV v_i_dst));
        SInt v_i (IAdd (IV v_i) (IC 4))]] [
      SIf (IEq (IV v_bsx) (IC 16)) [
        SVec v_mask (VTab intrinsic_mask_256_8bit (IC 15));
        SInt v_i (IC 0);
        SLoop (ILt (IV v_i) (IV v_bsy)) [
          SVec v_M (VLoad 32 0 (PAdd (PV v_first_line (IC 0)) (IV v_i)));
          SMask 8 (PV v_dst (IC 0)) (VV v_mask) (VV v_M);
          SPtr v_dst (IC 0) (PAdd (PV v_dst (IC 0)) (IV v_i_dst));
          SVec v_M (VLoad 32 0 (PAdd (PV v_first_line (IC 0)) (IAdd (IV v_i) (IC 1))));
          SMask 8 (PV v_dst (IC 0)) (VV v_mask) (VV v_M);
          SPtr v_dst (IC 0) (PAdd (PV v_dst (IC 0)) (IV v_i_dst));
          SVec v_M (VLoad 32 0 (PAdd (PV v_first_line (IC 0)) (IAdd (IV v_i) (IC 2))));
          SMask 8 (PV v_dst (IC 0)) (VV v_mask) (VV v_M);
          SPtr v_dst (IC 0) (PAdd (PV v_dst (IC 0)) (IV v_i_dst));
          SVec v_M (VLoad 32 0 (PAdd (PV v_first_line (IC 0)) (IAdd (IV v_i) (IC 3))));
          SMask 8 (PV v_dst (IC 0)) (VV v_mask) (VV v_M);
          SPtr v_dst (IC 0) (PAdd (PV v_dst (IC 0)) (IV v_i_dst));
          SInt v_i (IAdd (IV v_i) (IC 4))]] [
        SIf (IEq (IV v_bsx) (IC 8)) [
          SVec v_mask (VTab intrinsic_mask_256_8bit (IC 7));
          SInt v_i (IC 0);
          SLoop (ILt (IV v_i) (IV v_bsy)) [
            SVec v_M (VLoad 32 0 (PAdd (PV v_first_line (IC 0)) (IV v_i)));
            SMask 8 (PV v_dst (IC 0)) (VV v_mask) (VV v_M);
            SPtr v_dst (IC 0) (PAdd (PV v_dst (IC 0)) (IV v_i_dst));
            SVec v_M (VLoad 32 0 (PAdd (PV v_first_line (IC 0)) (IAdd (IV v_i) (IC 1))));
            SMask 8 (PV v_dst (IC 0)) (VV v_mask) (VV v_M);
            SPtr v_dst (IC 0) (PAdd (PV v_dst (IC 0)) (IV v_i_dst));
            SVec v_M (VLoad 32 0 (PAdd (PV v_first_line (IC 0)) (IAdd (IV v_i) (IC 2))));
            SMask 8 (PV v_dst (IC 0)) (VV v_mask) (VV v_M);
            SPtr v_dst (IC 0) (PAdd (PV v_dst (IC 0)) (IV v_i_dst));
            SVec v_M (VLoad 32 0 (PAdd (PV v_first_line (IC 0)) (IAdd (IV v_i) (IC 3))));
            SMask 8 (PV v_dst (IC 0)) (VV v_mask) (VV v_M);
            SPtr v_dst (IC 0) (PAdd (PV v_dst (IC 0)) (IV v_i_dst));
            SInt v_i (IAdd (IV v_i) (IC 4))]] [
          SVec v_mask (VTab intrinsic_mask_256_8bit (IC 3));
          SInt v_i (IC 0);
          SLoop (ILt (IV v_i) (IV v_bsy)) [
            SVec v_M (VLoad 32 0 (PAdd (PV v_first_line (IC 0)) (IV v_i)));
            SMask 4 (PV v_dst (IC 0)) (VV v_mask) (VV v_M);
            SPtr v_dst (IC 0) (PAdd (PV v_dst (IC 0)) (IV v_i_dst));
            SVec v_M (VLoad 32 0 (PAdd (PV v_first_line (IC 0)) (IAdd (IV v_i) (IC 1))));
            SMask 4 (PV v_dst (IC 0)) (VV v_mask) (VV v_M);
            SPtr v_dst (IC 0) (PAdd (PV v_dst (IC 0)) (IV v_i_dst));
            SVec v_M (VLoad 32 0 (PAdd (PV v_first_line (IC 0)) (IAdd (IV v_i) (IC 2))));
            SMask 4 (PV v_dst (IC 0)) (VV v_mask) (VV v_M);
            SPtr v_dst (IC 0) (PAdd (PV v_dst (IC 0)) (IV v_i_dst));
            SVec v_M (VLoad 32 0 (PAdd (PV v_first_line (IC 0)) (IAdd (IV v_i) (IC 3))));
            SMask 4 (PV v_dst (IC 0)) (VV v_mask) (VV v_M);
            SPtr v_dst (IC 0) (PAdd (PV v_dst (IC 0)) (IV v_i_dst));
            SInt v_i (IAdd (IV v_i) (IC 4))]]]]]].

(** vec/intrinsic_intra-pred_avx2.cc:2129-2544 [intra_pred_ang_x_8_avx] *)
Definition k_ang_x_8_avx : list stm := [
  SArr v_first_line (IMul (IC 2) (IAdd (IC 64) (IC 48)));
  SInt v_line_size (ISub (IAdd (IV v_bsx) (IShr (IV v_bsy) (IC 1))) (IC 1));
  SInt v_aligned_line_size (IShl (IShr (IAdd (IV v_line_size) (IC 31)) (IC 4)) (IC 4));
  SVec v_zero (VConst [0;0;0;0;0;0;0;0;0;0;0;0;0;0;0;0;0;0;0;0;0;0;0;0;0;0;0;0;0;0;0;0]);
  SVec v_coeff (VSet1 2 16 (XC 3));
  SVec v_offset1 (VSet1 2 16 (XC 4));
  SVec v_offset2 (VSet1 2 16 (XC 2));
  SPtr v_pfirst (IC 0) (PV v_first_line (IC 0));
  SPtr v_pfirst (IC 1) (PAdd (PV v_first_line (IC 0)) (IV v_aligned_line_size));
  SInt v_i (IC 0);
  SLoop (ILt (IV v_i) (ISub (IV v_line_size) (IC 16))) [
    SVec v_S0 (VLoad 32 0 (PV v_src (IC 0)));
    SVec v_S3 (VLoad 32 0 (PAdd (PV v_src (IC 0)) (IC 3)));
    SVec v_S1 (VLoad 32 0 (PAdd (PV v_src (IC 0)) (IC 1)));
    SVec v_S2 (VLoad 32 0 (PAdd (PV v_src (IC 0)) (IC 2)));
    SVec v_L0 (VOp2 (UnpL 1) (VV v_S0) (VV v_zero));
    SVec v_L1 (VOp2 (UnpL 1) (VV v_S1) (VV v_zero));
    SVec v_L2 (VOp2 (UnpL 1) (VV v_S2) (VV v_zero));
    SVec v_L3 (VOp2 (UnpL 1) (VV v_S3) (VV v_zero));
    SVec v_H0 (VOp2 (UnpH 1) (VV v_S0) (VV v_zero));
    SVec v_H1 (VOp2 (UnpH 1) (VV v_S1) (VV v_zero));
    SVec v_H2 (VOp2 (UnpH 1) (VV v_S2) (VV v_zero));
    SVec v_H3 (VOp2 (UnpH 1) (VV v_S3) (VV v_zero));
    SVec v_tmp0 (VOp2 (Perm128 32) (VV v_L0) (VV v_H0));
    SVec v_tmp1 (VOp2 (Perm128 32) (VV v_L1) (VV v_H1));
    SVec v_tmp2 (VOp2 (Perm128 32) (VV v_L2) (VV v_H2));
    SVec v_tmp3 (VOp2 (Perm128 32) (VV v_L3) (VV v_H3));
    SVec v_p01 (VOp2 (Add16) (VV v_tmp1) (VV v_tmp2));
    SVec v_p01 (VOp2 (Mul16) (VV v_p01) (VV v_coeff));
    SVec v_p02 (VOp2 (Add16) (VV v_tmp0) (VV v_tmp3));
    SVec v_p02 (VOp2 (Add16) (VV v_p02) (VV v_offset1));
    SVec v_p01 (VOp2 (Add16) (VV v_p01) (VV v_p02));
    SVec v_p01 (VOp1 (Srl16 3) (VV v_p01));
    SVec v_p21 (VOp2 (Add16) (VV v_tmp1) (VV v_tmp2));
    SVec v_p22 (VOp2 (Add16) (VV v_tmp2) (VV v_tmp3));
    SVec v_tmp0 (VOp2 (Perm128 49) (VV v_L0) (VV v_H0));
    SVec v_tmp1 (VOp2 (Perm128 49) (VV v_L1) (VV v_H1));
    SVec v_tmp2 (VOp2 (Perm128 49) (VV v_L2) (VV v_H2));
    SVec v_tmp3 (VOp2 (Perm128 49) (VV v_L3) (VV v_H3));
    SVec v_p11 (VOp2 (Add16) (VV v_tmp1) (VV v_tmp2));
    SVec v_p11 (VOp2 (Mul16) (VV v_p11) (VV v_coeff));
    SVec v_p12 (VOp2 (Add16) (VV v_tmp0) (VV v_tmp3));
    SVec v_p12 (VOp2 (Add16) (VV v_p12) (VV v_offset1));
    SVec v_p11 (VOp2 (Add16) (VV v_p11) (VV v_p12));
    SVec v_p11 (VOp1 (Srl16 3) (VV v_p11));
    SVec v_p31 (VOp2 (Add16) (VV v_tmp1) (VV v_tmp2));
    SVec v_p32 (VOp2 (Add16) (VV v_tmp2) (VV v_tmp3));
    SVec v_p01 (VOp2 (Pack16) (VV v_p01) (VV v_p11));
    SVec v_p01 (VOp1 (Perm64 216) (VV v_p01));
    SStore 32 (PAdd (PV v_pfirst (IC 0)) (IV v_i)) (VV v_p01);
    SVec v_p21 (VOp2 (Add16) (VV v_p21) (VV v_p22));
    SVec v_p31 (VOp2 (Add16) (VV v_p31) (VV v_p32));
    SVec v_p21 (VOp2 (Add16) (VV v_p21) (VV v_offset2));
    SVec v_p31 (VOp2 (Add16) (VV v_p31) (VV v_offset2));
    SVec v_p21 (VOp1 (Srl16 2) (VV v_p21));
    SVec v_p31 (VOp1 (Srl16 2) (VV v_p31));
    SVec v_p21 (VOp2 (Pack16) (VV v_p21) (VV v_p31));
    SVec v_p21 (VOp1 (Perm64 216) (VV v_p21));
    SStore 32 (PAdd (PV v_pfirst (IC 1)) (IV v_i)) (VV v_p21);
    SInt v_i (IAdd (IV v_i) (IC 32));
    SPtr v_src (IC 0) (PAdd (PV v_src (IC 0)) (IC 32))];
  SIf (ILt (IV v_i) (IV v_line_size)) [
    SVec v_S0 (VLoad 32 0 (PV v_src (IC 0)));
    SVec v_S3 (VLoad 32 0 (PAdd (PV v_src (IC 0)) (IC 3)));
    SVec v_S1 (VLoad 32 0 (PAdd (PV v_src (IC 0)) (IC 1)));
    SVec v_S2 (VLoad 32 0 (PAdd (PV v_src (IC 0)) (IC 2)));
    SVec v_S0 (VOp1 (Perm64 216) (VV v_S0));
    SVec v_S3 (VOp1 (Perm64 216) (VV v_S3));
    SVec v_S1 (VOp1 (Perm64 216) (VV v_S1));
    SVec v_S2 (VOp1 (Perm64 216) (VV v_S2));
    SVec v_L0 (VOp2 (UnpL 1) (VV v_S0) (VV v_zero));
    SVec v_L1 (VOp2 (UnpL 1) (VV v_S1) (VV v_zero));
    SVec v_L2 (VOp2 (UnpL 1) (VV v_S2) (VV v_zero));
    SVec v_L3 (VOp2 (UnpL 1) (VV v_S3) (VV v_zero));
    SVec v_p01 (VOp2 (Add16) (VV v_L1) (VV v_L2));
    SVec v_p01 (VOp2 (Mul16) (VV v_p01) (VV v_coeff));
    SVec v_p02 (VOp2 (Add16) (VV v_L0) (VV v_L3));
    SVec v_p02 (VOp2 (Add16) (VV v_p02) (VV v_offset1));
    SVec v_p01 (VOp2 (Add16) (VV v_p01) (VV v_p02));
    SVec v_p01 (VOp1 (Srl16 3) (VV v_p01));
    SVec v_p01 (VOp2 (Pack16) (VV v_p01) (VV v_p01));
    SVec v_p01 (VOp1 (Perm64 8) (VV v_p01));
    SVec v_mask (VTab intrinsic_mask_256_8bit (IC 15));
    SMask 8 (PAdd (PV v_pfirst (IC 0)) (IV v_i)) (VV v_mask) (VV v_p01);
    SVec v_p01 (VOp2 (Add16) (VV v_L1) (VV v_L2));
    SVec v_p02 (VOp2 (Add16) (VV v_L2) (VV v_L3));
    SVec v_p01 (VOp2 (Add16) (VV v_p01) (VV v_p02));
    SVec v_p01 (VOp2 (Add16) (VV v_p01) (VV v_offset2));
    SVec v_p01 (VOp1 (Srl16 2) (VV v_p01));
    SVec v_p01 (VOp2 (Pack16) (VV v_p01) (VV v_p01));
    SVec v_p01 (VOp1 (Perm64 8) (VV v_p01));
    SMask 8 (PAdd (PV v_pfirst (IC 1)) (IV v_i)) (VV v_mask) (VV v_p01)] [];
  SInt v_bsy (IShr (IV v_bsy) (IC 1));
  SIf (IEq (IV v_bsx) (IC 64)) [
    SInt v_i (IC 0);
    SLoop (ILt (IV v_i) (IV v_bsy)) [
      SVec v_M (VLoad 32 0 (PAdd (PV v_pfirst (IC 0)) (IV v_i)));
      SStore 32 (PV v_dst (IC 0)) (VV v_M);
      SVec v_M (VLoad 32 0 (PAdd (PAdd (PV v_pfirst (IC 0)) (IV v_i)) (IC 32)));
      SStore 32 (PAdd (PV v_dst (IC 0)) (IC 32)) (VV v_M);
      SPtr v_dst (IC 0) (PAdd (PV v_dst (IC 0)) (IV v_i_dst));
      SVec v_M (VLoad 32 0 (PAdd (PV v_pfirst (IC 1)) (IV v_i)));
      SStore 32 (PV v_dst (IC 0)) (VV v_M);
      SVec v_M (VLoad 32 0 (PAdd (PAdd (PV v_pfirst (IC 1)) (IV v_i)) (IC 32)));
      SStore 32 (PAdd (PV v_dst (IC 0)) (IC 32)) (VV v_M);
      SPtr v_dst (IC 0) (PAdd (PV v_dst (IC 0)) (IV v_i_dst));
      SVec v_M (VLoad 32 0 (PAdd (PAdd (PV v_pfirst (IC 0)) (IV v_i)) (IC 1)));
      SStore 32 (PV v_dst (IC 0)) (VV v_M);
      SVec v_M (VLoad 32 0 (PAdd (PAdd (PAdd (PV v_pfirst (IC 0)) (IV v_i)) (IC 1)) (IC 32)));
      SStore 32 (PAdd (PV v_dst (IC 0)) (IC 32)) (VV v_M);
      SPtr v_dst (IC 0) (PAdd (PV v_dst (IC 0)) (IV v_i_dst));
      SVec v_M (VLoad 32 0 (PAdd (PAdd (PV v_pfirst (IC 1)) (IV v_i)) (IC 1)));
      SStore 32 (PV v_dst (IC 0)) (VV v_M);
      SVec v_M (VLoad 32 0 (PAdd (PAdd (PAdd (PV v_pfirst (IC 1)) (IV v_i)) (IC 1)) (IC 32)));
      SStore 32 (PAdd (PV v_dst (IC 0)) (IC 32)) (VV v_M);
      SPtr v_dst (IC 0) (PAdd (PV v_dst (IC 0)) (IV v_i_dst));
      SVec v_M (VLoad 32 0 (PAdd (PAdd (PV v_pfirst (IC 0)) (IV v_i)) (IC 2)));
      SStore 32 (PV v_dst (IC 0)) (VV v_M);
      SVec v_M (VLoad 32 0 (PAdd (PAdd (PAdd (PV v_pfirst (IC 0)) (IV v_i)) (IC 2)) (IC 32)));
      SStore 32 (PAdd (PV v_dst (IC 0)) (IC 32)) (VV v_M);
      SPtr v_dst (IC 0) (PAdd (PV v_dst (IC 0)) (IV v_i_dst));
      SVec v_M (VLoad 32 0 (PAdd (PAdd (PV v_pfirst (IC 1)) (IV v_i)) (IC 2)));
      SStore 32 (PV v_dst (IC 0)) (VV v_M);
      SVec v_M (VLoad 32 0 (PAdd (PAdd (PAdd (PV v_pfirst (IC 1)) (IV v_i)) (IC 2)) (IC 32)));
      SStore 32 (PAdd (PV v_dst (IC 0)) (IC 32)) (VV v_M);
      SPtr v_dst (IC 0) (PAdd (PV v_dst (IC 0)) (IV v_i_dst));
      SVec v_M (VLoad 32 0 (PAdd (PAdd (PV v_pfirst (IC 0)) (IV v_i)) (IC 3)));
      SStore 32 (PV v_dst (IC 0)) (VV v_M);
      SVec v_M (VLoad 32 0 (PAdd (PAdd (PAdd (PV v_pfirst (IC 0)) (IV v_i)) (IC 3)) (IC 32)));
      SStore 32 (PAdd (PV v_dst (IC 0)) (IC 32)) (VV v_M);
      SPtr v_dst (IC 0) (PAdd (PV v_dst (IC 0)) (IV v_i_dst));
      SVec v_M (VLoad 32 0 (PAdd (PAdd (PV v_pfirst (IC 1)) (IV v_i)) (IC 3)));
      SStore 32 (PV v_dst (IC 0)) (VV v_M);
      SVec v_M (VLoad 32 0 (PAdd (PAdd (PAdd (PV v_pfirst (IC 1)) (IV v_i)) (IC 3)) (IC 32)));
      SStore 32 (PAdd (PV v_dst (IC 0)) (IC 32)) (VV v_M);
      SPtr v_dst (IC 0) (PAdd (PV v_dst (IC 0)) (IV v_i_dst));
      SInt v_i (IAdd (IV v_i) (IC 4))]] [
    SIf (IEq (IV v_bsx) (IC 32)) [
      SInt v_i (IC 0);
      SLoop (ILt (IV v_i) (IV v_bsy)) [
        SVec v_M (VLoad 32 0 (PAdd (PV v_pfirst (IC 0)) (IV v_i)));
        SStore 32 (PV v_dst (IC 0)) (VV v_M);
        SPtr v_dst (IC 0) (PAdd (PV v_dst (IC 0)) (IV v_i_dst));
        SVec v_M (VLoad 32 0 (PAdd (PV v_pfirst (IC 1)) (IV v_i)));
        SStore 32 (PV v_dst (IC 0)) (VV v_M);
        SPtr v_dst (IC 0) (PAdd (PV v_dst (IC 0)) (IV v_i_dst));
        SVec v_M (VLoad 32 0 (PAdd (PAdd (PV v_pfirst (IC 0)) (IV v_i)) (IC 1)));
        SStore 32 (PV v_dst (IC 0)) (VV v_M);
        SPtr v_dst (IC 0) (PAdd (PV v_dst (IC 0)) (IV v_i_dst));
        SVec v_M (VLoad 32 0 (PAdd (PAdd (PV v_pfirst (IC 1)) (IV v_i)) (IC 1)));
        SStore 32 (PV v_dst (IC 0)) (VV v_M);
        SPtr v_dst (IC 0) (PAdd (PV v_dst (IC 0)) (IV v_i_dst));
        SVec v_M (VLoad 32 0 (PAdd (PAdd (PV v_pfirst (IC 0)) (IV v_i)) (IC 2)));
        SStore 32 (PV v_dst (IC 0)) (VV v_M);
        SPtr v_dst (IC 0) (PAdd (PV v_dst (IC 0)) (IV v_i_dst));
        SVec v_M (VLoad 32 0 (PAdd (PAdd (PV v_pfirst (IC 1)) (IV v_i)) (IC 2)));
        SStore 32 (PV v_dst (IC 0)) (VV v_M);
        SPtr v_dst (IC 0) (PAdd (PV v_dst (IC 0)) (IV v_i_dst));
        SVec v_M (VLoad 32 0 (PAdd (PAdd (PV v_pfirst (IC 0)) (IV v_i)) (IC 3)));
        SStore 32 (PV v_dst (IC 0)) (VV v_M);
        SPtr v_dst (IC 0) (PAdd (PV v_dst (IC 0)) (IV v_i_dst));
        SVec v_M (VLoad 32 0 (PAdd (PAdd (PV v_pfirst (IC 1)) (IV v_i)) (IC 3)));
        SStore 32 (PV v_dst (IC 0)) (VV v_M);
        SPtr v_dst (IC 0) (PAdd (PV v_dst (IC 0)) (IV v_i_dst));
        SInt v_i (IAdd (IV v_i) (IC 4))]] [
      SIf (IEq (IV v_bsx) (IC 16)) [
        SVec v_mask (VTab intrinsic_mask_256_8bit (ISub (IV v_bsx) (IC 1)));
        SInt v_i (IC 0);
        SLoop (ILt (IV v_i) (IV v_bsy)) [
          SVec v_M (VLoad 32 0 (PAdd (PV v_pfirst (IC 0)) (IV v_i)));
          SMask 8 (PV v_dst (IC 0)) (VV v_mask) (VV v_M);
          SPtr v_dst (IC 0) (PAdd (PV v_dst (IC 0)) (IV v_i_dst));
          SVec v_M (VLoad 32 0 (PAdd (PV v_pfirst (IC 1)) (IV v_i)));
          SMask 8 (PV v_dst (IC 0)) (VV v_mask) (VV v_M);
          SPtr v_dst (IC 0) (PAdd (PV v_dst (IC 0)) (IV v_i_dst));
          SVec v_M (VLoad 32 0 (PAdd (PAdd (PV v_pfirst (IC 0)) (IV v_i)) (IC 1)));
          SMask 8 (PV v_dst (IC 0)) (VV v_mask) (VV v_M);
          SPtr v_dst (IC 0) (PAdd (PV v_dst (IC 0)) (IV v_i_dst));
          SVec v_M (VLoad 32 0 (PAdd (PAdd (PV v_pfirst (IC 1)) (IV v_i)) (IC 1)));
          SMask 8 (PV v_dst (IC 0)) (VV v_mask) (VV v_M);
          SPtr v_dst (IC 0) (PAdd (PV v_dst (IC 0)) (IV v_i_dst));
          SVec v_M (VLoad 32 0 (PAdd (PAdd (PV v_pfirst (IC 0)) (IV v_i)) (IC 2)));
          SMask 8 (PV v_dst (IC 0)) (VV v_mask) (VV v_M);
          SPtr v_dst (IC 0) (PAdd (PV v_dst (IC 0)) (IV v_i_dst));
          SVec v_M (VLoad 32 0 (PAdd (PAdd (PV v_pfirst (IC 1)) (IV v_i)) (IC 2)));
          SMask 8 (PV v_dst (IC 0)) (VV v_mask) (VV v_M);
          SPtr v_dst (IC 0) (PAdd (PV v_dst (IC 0)) (IV v_i_dst));
          SVec v_M (VLoad 32 0 (PAdd (PAdd (PV v_pfirst (IC 0)) (IV v_i)) (IC 3)));
          SMask 8 (PV v_dst (IC 0)) (VV v_mask) (VV v_M);
          SPtr v_dst (IC 0) (PAdd (PV v_dst (IC 0)) (IV v_i_dst));
          SVec v_M (VLoad 32 0 (PAdd (PAdd (PV v_pfirst (IC 1)) (IV v_i)) (IC 3)));
          SMask 8 (PV v_dst (IC 0)) (VV v_mask) (VV v_M);
          SPtr v_dst (IC 0) (PAdd (PV v_dst (IC 0)) (IV v_i_dst));
          SInt v_i (IAdd (IV v_i) (IC 4))]] [
        SIf (IEq (IV v_bsx) (IC 8)) [
          SVec v_mask (VTab intrinsic_mask_256_8bit (ISub (IV v_bsx) (IC 1)));
          SInt v_i (IC 0);
          SLoop (ILt (IV v_i) (IV v_bsy)) [
            SVec v_M (VLoad 32 0 (PAdd (PV v_pfirst (IC 0)) (IV v_i)));
            SMask 8 (PV v_dst (IC 0)) (VV v_mask) (VV v_M);
            SPtr v_dst (IC 0) (PAdd (PV v_dst (IC 0)) (IV v_i_dst));
            SVec v_M (VLoad 32 0 (PAdd (PV v_pfirst (IC 1)) (IV v_i)));
            SMask 8 (PV v_dst (IC 0)) (VV v_mask) (VV v_M);
            SPtr v_dst (IC 0) (PAdd (PV v_dst (IC 0)) (IV v_i_dst));
            SVec v_M (VLoad 32 0 (PAdd (PAdd (PV v_pfirst (IC 0)) (IV v_i)) (IC 1)));
            SMask 8 (PV v_dst (IC 0)) (VV v_mask) (VV v_M);
            SPtr v_dst (IC 0) (PAdd (PV v_dst (IC 0)) (IV v_i_dst));
            SVec v_M (VLoad 32 0 (PAdd (PAdd (PV v_pfirst (IC 1)) (IV v_i)) (IC 1)));
            SMask 8 (PV v_dst (IC 0)) (VV v_mask) (VV v_M);
            SPtr v_dst (IC 0) (PAdd (PV v_dst (IC 0)) (IV v_i_dst));
            SVec v_M (VLoad 32 0 (PAdd (PAdd (PV v_pfirst (IC 0)) (IV v_i)) (IC 2)));
            SMask 8 (PV v_dst (IC 0)) (VV v_mask) (VV v_M);
            SPtr v_dst (IC 0) (PAdd (PV v_dst (IC 0)) (IV v_i_dst));
            SVec v_M (VLoad 32 0 (PAdd (PAdd (PV v_pfirst (IC 1)) (IV v_i)) (IC 2)));
            SMask 8 (PV v_dst (IC 0)) (VV v_mask) (VV v_M);
            SPtr v_dst (IC 0) (PAdd (PV v_dst (IC 0)) (IV v_i_dst));
            SVec v_M (VLoad 32 0 (PAdd (PAdd (PV v_pfirst (IC 0)) (IV v_i)) (IC 3)));
            SMask 8 (PV v_dst (IC 0)) (VV v_mask) (VV v_M);
            SPtr v_dst (IC 0) (PAdd (PV v_dst (IC 0)) (IV v_i_dst));
            SVec v_M (VLoad 32 0 (PAdd (PAdd (PV v_pfirst (IC 1)) (IV v_i)) (IC 3)));
            SMask 8 (PV v_dst (IC 0)) (VV v_mask) (VV v_M);
            SPtr v_dst (IC 0) (PAdd (PV v_dst (IC 0)) (IV v_i_dst));
            SInt v_i (IAdd (IV v_i) (IC 4))]] [
          SVec v_mask (VTab intrinsic_mask_256_8bit (ISub (IV v_bsx) (IC 1)));
          SInt v_i (IC 0);
          SLoop (ILt (IV v_i) (IV v_bsy)) [
            SVec v_M (VLoad 32 0 (PAdd (PV v_pfirst (IC 0)) (IV v_i)));
            SMask 4 (PV v_dst (IC 0)) (VV v_mask) (VV v_M);
            SPtr v_dst (IC 0) (PAdd (PV v_dst (IC 0)) (IV v_i_dst));
            SVec v_M (VLoad 32 0 (PAdd (PV v_pfirst (IC 1)) (IV v_i)));
            SMask 4 (PV v_dst (IC 0)) (VV v_mask) (VV v_M);
            SPtr v_dst (IC 0) (PAdd (PV v_dst (IC 0)) (IV v_i_dst));
            SVec v_M (VLoad 32 0 (PAdd (PAdd (PV v_pfirst (IC 0)) (IV v_i)) (IC 1)));
            SMask 4 (PV v_dst (IC 0)) (VV v_mask) (VV v_M);
            SPtr v_dst (IC 0) (PAdd (PV v_dst (IC 0)) (IV v_i_dst));
            SVec v_M (VLoad 32 0 (PAdd (PAdd (PV v_pfirst (IC 1)) (IV v_i)) (IC 1)));
            SMask 4 (PV v_dst (IC 0)) (VV v_mask) (VV v_M);
            SPtr v_dst (IC 0) (PAdd (PV v_dst (IC 0)) (IV v_i_dst));
            SVec v_M (VLoad 32 0 (PAdd (PAdd (PV v_pfirst (IC 0)) (IV v_i)) (IC 2)));
            SMask 4 (PV v_dst (IC 0)) (VV v_mask) (VV v_M);
            SPtr v_dst (IC 0) (PAdd (PV v_dst (IC 0)) (IV v_i_dst));
            SVec v_M (VLoad 32 0 (PAdd (PAdd (PV v_pfirst (IC 1)) (IV v_i)) (IC 2)));
            SMask 4 (PV v_dst (IC 0)) (VV v_mask) (VV v_M);
            SPtr v_dst (IC 0) (PAdd (PV v_dst (IC 0)) (IV v_i_dst));
            SVec v_M (VLoad 32 0 (PAdd (PAdd (PV v_pfirst (IC 0)) (IV v_i)) (IC 3)));
            SMask 4 (PV v_dst (IC 0)) (VV v_mask) (VV v_M);
            SPtr v_dst (IC 0) (PAdd (PV v_dst (IC 0)) (IV v_i_dst));
            SVec v_M (VLoad 32 0 (PAdd (PAdd (PV v_pfirst (IC 1)) (IV v_i)) (IC 3)));
            SMask 4 (PV v_dst (IC 0)) (VV v_mask) (VV v_M);
            SPtr v_dst (IC 0) (PAdd (PV v_dst (IC 0)) (IV v_i_dst));
            SInt v_i (IAdd (IV v_i) (IC 4))]]]]]].

(** vec/intrinsic_intra-pred_avx2.cc:2672-3143 [intra_pred_ang_x_10_avx] *)
Definition k_ang_x_10_avx : list stm := [
  SIf (IEq (IV v_bsy) (IC 4)) [
    SCall k_ang_x_10_sse128 (PV v_src (IC 0)) (PV v_dst (IC 0)) (IV v_i_dst) (IV v_bsx) (IV v_bsy);
    SRet] [];
  SPtr v_dst1 (IC 0) (PV v_dst (IC 0));
  SPtr v_dst2 (IC 0) (PAdd (PV v_dst1 (IC 0)) (IV v_i_dst));
  SPtr v_dst3 (IC 0) (PAdd (PV v_dst2 (IC 0)) (IV v_i_dst));
  SPtr v_dst4 (IC 0) (PAdd (PV v_dst3 (IC 0)) (IV v_i_dst));
  SIf (INot (IEq (IV v_bsy) (IC 4))) [
    SVec v_zero (VConst [0;0;0;0;0;0;0;0;0;0;0;0;0;0;0;0;0;0;0;0;0;0;0;0;0;0;0;0;0;0;0;0]);
    SVec v_coeff2 (VSet1 2 16 (XC 2));
    SVec v_coeff3 (VSet1 2 16 (XC 3));
    SVec v_coeff4 (VSet1 2 16 (XC 4));
    SVec v_coeff5 (VSet1 2 16 (XC 5));
    SVec v_coeff7 (VSet1 2 16 (XC 7));
    SVec v_coeff8 (VSet1 2 16 (XC 8));
    SArr v_first_line (IMul (IC 4) (IAdd (IC 64) (IC 32)));
    SInt v_line_size (ISub (IAdd (IV v_bsx) (IDiv (IV v_bsy) (IC 4))) (IC 1));
    SInt v_aligned_line_size (IShl (IShr (IAdd (IV v_line_size) (IC 31)) (IC 4)) (IC 4));
    SPtr v_pfirst (IC 0) (PV v_first_line (IC 0));
    SPtr v_pfirst (IC 1) (PAdd (PV v_first_line (IC 0)) (IV v_aligned_line_size));
    SPtr v_pfirst (IC 2) (PAdd (PV v_first_line (IC 0)) (IMul (IV v_aligned_line_size) (IC 2)));
    SPtr v_pfirst (IC 3) (PAdd (PV v_first_line (IC 0)) (IMul (IV v_aligned_line_size) (IC 3)));
    SInt v_i (IC 0);
    SLoop (ILt (IV v_i) (ISub (IV v_line_size) (IC 16))) [
      SVec v_S0 (VLoad 32 0 (PV v_src (IC 0)));
      SVec v_S3 (VLoad 32 0 (PAdd (PV v_src (IC 0)) (IC 3)));
      SVec v_S1 (VLoad 32 0 (PAdd (PV v_src (IC 0)) (IC 1)));
      SVec v_S2 (VLoad 32 0 (PAdd (PV v_src (IC 0)) (IC 2)));
      SVec v_L0 (VOp2 (UnpL 1) (VV v_S0) (VV v_zero));
      SVec v_L1 (VOp2 (UnpL 1) (VV v_S1) (VV v_zero));
      SVec v_L2 (VOp2 (UnpL 1) (VV v_S2) (VV v_zero));
      SVec v_L3 (VOp2 (UnpL 1) (VV v_S3) (VV v_zero));
      SVec v_H0 (VOp2 (UnpH 1) (VV v_S0) (VV v_zero));
      SVec v_H1 (VOp2 (UnpH 1) (VV v_S1) (VV v_zero));
      SVec v_H2 (VOp2 (UnpH 1) (VV v_S2) (VV v_zero));
      SVec v_H3 (VOp2 (UnpH 1) (VV v_S3) (VV v_zero));
      SVec v_tmpL0 (VOp2 (Perm128 32) (VV v_L0) (VV v_H0));
      SVec v_tmpL1 (VOp2 (Perm128 32) (VV v_L1) (VV v_H1));
      SVec v_tmpL2 (VOp2 (Perm128 32) (VV v_L2) (VV v_H2));
      SVec v_tmpL3 (VOp2 (Perm128 32) (VV v_L3) (VV v_H3));
      SVec v_tmpH0 (VOp2 (Perm128 49) (VV v_L0) (VV v_H0));
      SVec v_tmpH1 (VOp2 (Perm128 49) (VV v_L1) (VV v_H1));
      SVec v_tmpH2 (VOp2 (Perm128 49) (VV v_L2) (VV v_H2));
      SVec v_tmpH3 (VOp2 (Perm128 49) (VV v_L3) (VV v_H3));
      SVec v_p00 (VOp2 (Mul16) (VV v_tmpL0) (VV v_coeff3));
      SVec v_p10 (VOp2 (Mul16) (VV v_tmpL1) (VV v_coeff7));
      SVec v_p20 (VOp2 (Mul16) (VV v_tmpL2) (VV v_coeff5));
      SVec v_p30 (VOp2 (Add16) (VV v_tmpL3) (VV v_coeff8));
      SVec v_p00 (VOp2 (Add16) (VV v_p00) (VV v_p30));
      SVec v_p00 (VOp2 (Add16) (VV v_p00) (VV v_p10));
      SVec v_p00 (VOp2 (Add16) (VV v_p00) (VV v_p20));
      SVec v_p00 (VOp1 (Srl16 4) (VV v_p00));
      SVec v_p01 (VOp2 (Mul16) (VV v_tmpH0) (VV v_coeff3));
      SVec v_p11 (VOp2 (Mul16) (VV v_tmpH1) (VV v_coeff7));
      SVec v_p21 (VOp2 (Mul16) (VV v_tmpH2) (VV v_coeff5));
      SVec v_p31 (VOp2 (Add16) (VV v_tmpH3) (VV v_coeff8));
      SVec v_p01 (VOp2 (Add16) (VV v_p01) (VV v_p31));
      SVec v_p01 (VOp2 (Add16) (VV v_p01) (VV v_p11));
      SVec v_p01 (VOp2 (Add16) (VV v_p01) (VV v_p21));
      SVec v_p01 (VOp1 (Srl16 4) (VV v_p01));
      SVec v_p00 (VOp2 (Pack16) (VV v_p00) (VV v_p01));
      SVec v_p00 (VOp1 (Perm64 216) (VV v_p00));
      SStore 32 (PAdd (PV v_pfirst (IC 0)) (IV v_i)) (VV v_p00);
      SVec v_p00 (VOp2 (Add16) (VV v_tmpL1) (VV v_tmpL2));
      SVec v_p00 (VOp2 (Mul16) (VV v_p00) (VV v_coeff3));
      SVec v_p10 (VOp2 (Add16) (VV v_tmpL0) (VV v_tmpL3));
      SVec v_p10 (VOp2 (Add16) (VV v_p10) (VV v_coeff4));
      SVec v_p00 (VOp2 (Add16) (VV v_p10) (VV v_p00));
      SVec v_p00 (VOp1 (Srl16 3) (VV v_p00));
      SVec v_p01 (VOp2 (Add16) (VV v_tmpH1) (VV v_tmpH2));
      SVec v_p01 (VOp2 (Mul16) (VV v_p01) (VV v_coeff3));
      SVec v_p11 (VOp2 (Add16) (VV v_tmpH0) (VV v_tmpH3));
      SVec v_p11 (VOp2 (Add16) (VV v_p11) (VV v_coeff4));
      SVec v_p01 (VOp2 (Add16) (VV v_p11) (VV v_p01));
      SVec v_p01 (VOp1 (Srl16 3) (VV v_p01));
      SVec v_p00 (VOp2 (Pack16) (VV v_p00) (VV v_p01));
      SVec v_p00 (VOp1 (Perm64 216) (VV v_p00));
      SStore 32 (PAdd (PV v_pfirst (IC 1)) (IV v_i)) (VV v_p00);
      SVec v_p10 (VOp2 (Mul16) (VV v_tmpL1) (VV v_coeff5));
      SVec v_p20 (VOp2 (Mul16) (VV v_tmpL2) (VV v_coeff7));
      SVec v_p30 (VOp2 (Mul16) (VV v_tmpL3) (VV v_coeff3));
      SVec v_p00 (VOp2 (Add16) (VV v_tmpL0) (VV v_coeff8));
      SVec v_p00 (VOp2 (Add16) (VV v_p00) (VV v_p10));
      SVec v_p00 (VOp2 (Add16) (VV v_p00) (VV v_p20));
      SVec v_p00 (VOp2 (Add16) (VV v_p00) (VV v_p30));
      SVec v_p00 (VOp1 (Srl16 4) (VV v_p00));
      SVec v_p11 (VOp2 (Mul16) (VV v_tmpH1) (VV v_coeff5));
      SVec v_p21 (VOp2 (Mul16) (VV v_tmpH2) (VV v_coeff7));
      SVec v_p31 (VOp2 (Mul16) (VV v_tmpH3) (VV v_coeff3));
      SVec v_p01 (VOp2 (Add16) (VV v_tmpH0) (VV v_coeff8));
      SVec v_p01 (VOp2 (Add16) (VV v_p01) (VV v_p11));
      SVec v_p01 (VOp2 (Add16) (VV v_p01) (VV v_p21));
      SVec v_p01 (VOp2 (Add16) (VV v_p01) (VV v_p31));
      SVec v_p01 (VOp1 (Srl16 4) (VV v_p01));
      SVec v_p00 (VOp2 (Pack16) (VV v_p00) (VV v_p01));
      SVec v_p00 (VOp1 (Perm64 216) (VV v_p00));
      SStore 32 (PAdd (PV v_pfirst (IC 2)) (IV v_i)) (VV v_p00);
      SVec v_p00 (VOp2 (Add16) (VV v_tmpL1) (VV v_tmpL2));
      SVec v_p10 (VOp2 (Add16) (VV v_tmpL2) (VV v_tmpL3));
      SVec v_p00 (VOp2 (Add16) (VV v_p00) (VV v_p10));
      SVec v_p00 (VOp2 (Add16) (VV v_p00) (VV v_coeff2));
      SVec v_p00 (VOp1 (Srl16 2) (VV v_p00));
      SVec v_p01 (VOp2 (Add16) (VV v_tmpH1) (VV v_tmpH2));
      SVec v_p11 (VOp2 (Add16) (VV v_tmpH2) (VV v_tmpH3));
      SVec v_p01 (VOp2 (Add16) (VV v_p01) (VV v_p11));
      SVec v_p01 (VOp2 (Add16) (VV v_p01) (VV v_coeff2));
      SVec v_p01 (VOp1 (Srl16 2) (VV v_p01));
      SVec v_p00 (VOp2 (Pack16) (VV v_p00) (VV v_p01));
      SVec v_p00 (VOp1 (Perm64 216) (VV v_p00));
      SStore 32 (PAdd (PV v_pfirst (IC 3)) (IV v_i)) (VV v_p00);
      SInt v_i (IAdd (IV v_i) (IC 32));
      SPtr v_src (IC 0) (PAdd (PV v_src (IC 0)) (IC 32))];
    SIf (ILt (IV v_i) (IV v_line_size)) [
      SVec v_S0 (VLoad 32 0 (PV v_src (IC 0)));
      SVec v_S3 (VLoad 32 0 (PAdd (PV v_src (IC 0)) (IC 3)));
      SVec v_S1 (VLoad 32 0 (PAdd (PV v_src (IC 0)) (IC 1)));
      SVec v_S2 (VLoad 32 0 (PAdd (PV v_src (IC 0)) (IC 2)));
      SVec v_S0 (VOp1 (Perm64 216) (VV v_S0));
      SVec v_S3 (VOp1 (Perm64 216) (VV v_S3));
      SVec v_S2 (VOp1 (Perm64 216) (VV v_S2));
      SVec v_S1 (VOp1 (Perm64 216) (VV v_S1));
      SVec v_L0 (VOp2 (UnpL 1) (VV v_S0) (VV v_zero));
      SVec v_L1 (VOp2 (UnpL 1) (VV v_S1) (VV v_zero));
      SVec v_L2 (VOp2 (UnpL 1) (VV v_S2) (VV v_zero));
      SVec v_L3 (VOp2 (UnpL 1) (VV v_S3) (VV v_zero));
      SVec v_p00 (VOp2 (Mul16) (VV v_L0) (VV v_coeff3));
      SVec v_p10 (VOp2 (Mul16) (VV v_L1) (VV v_coeff7));
      SVec v_p20 (VOp2 (Mul16) (VV v_L2) (VV v_coeff5));
      SVec v_p30 (VOp2 (Add16) (VV v_L3) (VV v_coeff8));
      SVec v_p00 (VOp2 (Add16) (VV v_p00) (VV v_p30));
      SVec v_p00 (VOp2 (Add16) (VV v_p00) (VV v_p10));
      SVec v_p00 (VOp2 (Add16) (VV v_p00) (VV v_p20));
      SVec v_p00 (VOp1 (Srl16 4) (VV v_p00));
      SVec v_p00 (VOp2 (Pack16) (VV v_p00) (VV v_p00));
      SVec v_p00 (VOp1 (Perm64 8) (VV v_p00));
      SVec v_mask (VTab intrinsic_mask_256_8bit (IC 15));
      SMask 8 (PAdd (PV v_pfirst (IC 0)) (IV v_i)) (VV v_mask) (VV v_p00);
      SVec v_p00 (VOp2 (Add16) (VV v_L1) (VV v_L2));
      SVec v_p00 (VOp2 (Mul16) (VV v_p00) (VV v_coeff3));
      SVec v_p10 (VOp2 (Add16) (VV v_L0) (VV v_L3));
      SVec v_p10 (VOp2 (Add16) (VV v_p10) (VV v_coeff4));
      SVec v_p00 (VOp2 (Add16) (VV v_p10) (VV v_p00));
      SVec v_p00 (VOp1 (Srl16 3) (VV v_p00));
      SVec v_p00 (VOp2 (Pack16) (VV v_p00) (VV v_p00));
      SVec v_p00 (VOp1 (Perm64 8) (VV v_p00));
      SMask 8 (PAdd (PV v_pfirst (IC 1)) (IV v_i)) (VV v_mask) (VV v_p00);
      SVec v_p10 (VOp2 (Mul16) (VV v_L1) (VV v_coeff5));
      SVec v_p20 (VOp2 (Mul16) (VV v_L2) (VV v_coeff7));
      SVec v_p30 (VOp2 (Mul16) (VV v_L3) (VV v_coeff3));
      SVec v_p00 (VOp2 (Add16) (VV v_L0) (VV v_coeff8));
      SVec v_p00 (VOp2 (Add16) (VV v_p00) (VV v_p10));
      SVec v_p00 (VOp2 (Add16) (VV v_p00) (VV v_p20));
      SVec v_p00 (VOp2 (Add16) (VV v_p00) (VV v_p30));
      SVec v_p00 (VOp1 (Srl16 4) (VV v_p00));
      SVec v_p00 (VOp2 (Pack16) (VV v_p00) (VV v_p00));
      SVec v_p00 (VOp1 (Perm64 8) (VV v_p00));
      SMask 8 (PAdd (PV v_pfirst (IC 2)) (IV v_i)) (VV v_mask) (VV v_p00);
      SVec v_p00 (VOp2 (Add16) (VV v_L1) (VV v_L2));
      SVec v_p10 (VOp2 (Add16) (VV v_L2) (VV v_L3));
      SVec v_p00 (VOp2 (Add16) (VV v_p00) (VV v_p10));
      SVec v_p00 (VOp2 (Add16) (VV v_p00) (VV v_coeff2));
      SVec v_p00 (VOp1 (Srl16 2) (VV v_p00));
      SVec v_p00 (VOp2 (Pack16) (VV v_p00) (VV v_p00));
      SVec v_p00 (VOp1 (Perm64 8) (VV v_p00));
      SMask 8 (PAdd (PV v_pfirst (IC 3)) (IV v_i)) (VV v_mask) (VV v_p00)] [];
    SInt v_bsy (IShr (IV v_bsy) (IC 2));
    SInt v_i_dstx4 (IShl (IV v_i_dst) (IC 2));
    SIf (IEq (IV v_bsx) (IC 64)) [
      SInt v_i (IC 0);
      SLoop (ILt (IV v_i) (IV v_bsy)) [
        SVec v_M (VLoad 32 0 (PAdd (PV v_pfirst (IC 0)) (IV v_i)));
        SStore 32 (PV v_dst1 (IC 0)) (VV v_M);
        SVec v_M (VLoad 32 0 (PAdd (PAdd (PV v_pfirst (IC 0)) (IV v_i)) (IC 32)));
        SStore 32 (PAdd (PV v_dst1 (IC 0)) (IC 32)) (VV v_M);
        SVec v_M (VLoad 32 0 (PAdd (PV v_pfirst (IC 1)) (IV v_i)));
        SStore 32 (PV v_dst2 (IC 0)) (VV v_M);
        SVec v_M (VLoad 32 0 (PAdd (PAdd (PV v_pfirst (IC 1)) (IV v_i)) (IC 32)));
        SStore 32 (PAdd (PV v_dst2 (IC 0)) (IC 32)) (VV v_M);
        SVec v_M (VLoad 32 0 (PAdd (PV v_pfirst (IC 2)) (IV v_i)));
        SStore 32 (PV v_dst3 (IC 0)) (VV v_M);
        SVec v_M (VLoad 32 0 (PAdd (PAdd (PV v_pfirst (IC 2)) (IV v_i)) (IC 32)));
        SStore 32 (PAdd (PV v_dst3 (IC 0)) (IC 32)) (VV v_M);
        SVec v_M (VLoad 32 0 (PAdd (PV v_pfirst (IC 3)) (IV v_i)));
        SStore 32 (PV v_dst4 (IC 0)) (VV v_M);
        SVec v_M (VLoad 32 0 (PAdd (PAdd (PV v_pfirst (IC 3)) (IV v_i)) (IC 32)));
        SStore 32 (PAdd (PV v_dst4 (IC 0)) (IC 32)) (VV v_M);
        SPtr v_dst1 (IC 0) (PAdd (PV v_dst1 (IC 0)) (IV v_i_dstx4));
        SPtr v_dst2 (IC 0) (PAdd (PV v_dst2 (IC 0)) (IV v_i_dstx4));
        SPtr v_dst3 (IC 0) (PAdd (PV v_dst3 (IC 0)) (IV v_i_dstx4));
        SPtr v_dst4 (IC 0) (PAdd (PV v_dst4 (IC 0)) (IV v_i_dstx4));
        SInt v_i (IAdd (IV v_i) (IC 1))]] [
      SIf (IEq (IV v_bsx) (IC 32)) [
        SInt v_i (IC 0);
        SLoop (ILt (IV v_i) (IV v_bsy)) [
          SVec v_M (VLoad 32 0 (PAdd (PV v_pfirst (IC 0)) (IV v_i)));
          SStore 32 (PV v_dst1 (IC 0)) (VV v_M);
          SVec v_M (VLoad 32 0 (PAdd (PV v_pfirst (IC 1)) (IV v_i)));
          SStore 32 (PV v_dst2 (IC 0)) (VV v_M);
          SVec v_M (VLoad 32 0 (PAdd (PV v_pfirst (IC 2)) (IV v_i)));
          SStore 32 (PV v_dst3 (IC 0)) (VV v_M);
          SVec v_M (VLoad 32 0 (PAdd (PV v_pfirst (IC 3)) (IV v_i)));
          SStore 32 (PV v_dst4 (IC 0)) (VV v_M);
          SPtr v_dst1 (IC 0) (PAdd (PV v_dst1 (IC 0)) (IV v_i_dstx4));
          SPtr v_dst2 (IC 0) (PAdd (PV v_dst2 (IC 0)) (IV v_i_dstx4));
          SPtr v_dst3 (IC 0) (PAdd (PV v_dst3 (IC 0)) (IV v_i_dstx4));
          SPtr v_dst4 (IC 0) (PAdd (PV v_dst4 (IC 0)) (IV v_i_dstx4));
          SInt v_i (IAdd (IV v_i) (IC 1))]] [
        SIf (IEq (IV v_bsx) (IC 16)) [
          SVec v_mask (VTab intrinsic_mask_256_8bit (IC 15));
          SInt v_i (IC 0);
          SLoop (ILt (IV v_i) (IV v_bsy)) [
            SVec v_M (VLoad 32 0 (PAdd (PV v_pfirst (IC 0)) (IV v_i)));
            SMask 8 (PV v_dst1 (IC 0)) (VV v_mask) (VV v_M);
            SVec v_M (VLoad 32 0 (PAdd (PV v_pfirst (IC 1)) (IV v_i)));
            SMask 8 (PV v_dst2 (IC 0)) (VV v_mask) (VV v_M);
            SVec v_M (VLoad 32 0 (PAdd (PV v_pfirst (IC 2)) (IV v_i)));
            SMask 8 (PV v_dst3 (IC 0)) (VV v_mask) (VV v_M);
            SVec v_M (VLoad 32 0 (PAdd (PV v_pfirst (IC 3)) (IV v_i)));
            SMask 8 (PV v_dst4 (IC 0)) (VV v_mask) (VV v_M);
            SPtr v_dst1 (IC 0) (PAdd (PV v_dst1 (IC 0)) (IV v_i_dstx4));
            SPtr v_dst2 (IC 0) (PAdd (PV v_dst2 (IC 0)) (IV v_i_dstx4));
            SPtr v_dst3 (IC 0) (PAdd (PV v_dst3 (IC 0)) (IV v_i_dstx4));
            SPtr v_dst4 (IC 0) (PAdd (PV v_dst4 (IC 0)) (IV v_i_dstx4));
            SInt v_i (IAdd (IV v_i) (IC 1))]] [
          SIf (IEq (IV v_bsx) (IC 8)) [
            SVec v_mask (VTab intrinsic_mask_256_8bit (IC 7));
            SInt v_i (IC 0);
            SLoop (ILt (IV v_i) (IV v_bsy)) [
              SVec v_M (VLoad 32 0 (PAdd (PV v_pfirst (IC 0)) (IV v_i)));
              SMask 8 (PV v_dst1 (IC 0)) (VV v_mask) (VV v_M);
              SVec v_M (VLoad 32 0 (PAdd (PV v_pfirst (IC 1)) (IV v_i)));
              SMask 8 (PV v_dst2 (IC 0)) (VV v_mask) (VV v_M);
              SVec v_M (VLoad 32 0 (PAdd (PV v_pfirst (IC 2)) (IV v_i)));
              SMask 8 (PV v_dst3 (IC 0)) (VV v_mask) (VV v_M);
              SVec v_M (VLoad 32 0 (PAdd (PV v_pfirst (IC 3)) (IV v_i)));
              SMask 8 (PV v_dst4 (IC 0)) (VV v_mask) (VV v_M);
              SPtr v_dst1 (IC 0) (PAdd (PV v_dst1 (IC 0)) (IV v_i_dstx4));
              SPtr v_dst2 (IC 0) (PAdd (PV v_dst2 (IC 0)) (IV v_i_dstx4));
              SPtr v_dst3 (IC 0) (PAdd (PV v_dst3 (IC 0)) (IV v_i_dstx4));
              SPtr v_dst4 (IC 0) (PAdd (PV v_dst4 (IC 0)) (IV v_i_dstx4));
              SInt v_i (IAdd (IV v_i) (IC 1))]] [
            SVec v_mask (VTab intrinsic_mask_256_8bit (IC 3));
            SInt v_i (IC 0);
            SLoop (ILt (IV v_i) (IV v_bsy)) [
              SVec v_M (VLoad 32 0 (PAdd (PV v_pfirst (IC 0)) (IV v_i)));
              SMask 4 (PV v_dst1 (IC 0)) (VV v_mask) (VV v_M);
              SVec v_M (VLoad 32 0 (PAdd (PV v_pfirst (IC 1)) (IV v_i)));
              SMask 4 (PV v_dst2 (IC 0)) (VV v_mask) (VV v_M);
              SVec v_M (VLoad 32 0 (PAdd (PV v_pfirst (IC 2)) (IV v_i)));
              SMask 4 (PV v_dst3 (IC 0)) (VV v_mask) (VV v_M);
              SVec v_M (VLoad 32 0 (PAdd (PV v_pfirst (IC 3)) (IV v_i)));
              SMask 4 (PV v_dst4 (IC 0)) (VV v_mask) (VV v_M);
              SPtr v_dst1 (IC 0) (PAdd (PV v_dst1 (IC 0)) (IV v_i_dstx4));
              SPtr v_dst2 (IC 0) (PAdd (PV v_dst2 (IC 0)) (IV v_i_dstx4));
              SPtr v_dst3 (IC 0) (PAdd (PV v_dst3 (IC 0)) (IV v_i_dstx4));
              SPtr v_dst4 (IC 0) (PAdd (PV v_dst4 (IC 0)) (IV v_i_dstx4));
              SInt v_i (IAdd (IV v_i) (IC 1))]]]]]] []].
