(** The kernels by width, and motion compensation with them. *)
From Coq Require Import ZArith List Bool Lia.
From Verif Require Import CBase UtilModel MemModel MemProofs SaoModel SaoProofs McModel McSpec McProofs VxModelBase VxModel VxProofs VxProofsB VxProofsF VdModel ViModel ViProofs ViProofsB ViProofsC ViProofsD VjModel VjProofs VjProofsB VjProofsC VjProofsD.
Import ListNotations.
Open Scope Z_scope.

Lemma row_c_sym b f : 0 < f < 8 -> sym4 (row_c b f).
Proof.
  intros F. assert (C : f = 1 \/ f = 2 \/ f = 3 \/ f = 4 \/ f = 5 \/ f = 6 \/ f = 7) by lia.
  destruct C as [-> | [-> | [-> | [-> | [-> | [-> | ->]]]]]]; unfold sym4; vm_compute; congruence.
Qed.

Section Widths.
  Variables (dst i_dst : Z) (src : mem) (p i_src : Z) (w h : nat) (junk : reg) (m : mem).
  Hypotheses (Hs : forall q, byte (src q)) (Hw : Z.of_nat w <= i_dst).
  Local Notation W := (Z.of_nat w).
  Local Notation HH := (Z.of_nat h).

  Lemma luma_hor_avx2_agrees c cl : W mod 4 = 0 -> fit 8 c -> same_c 8 c cl ->
    forall j, luma_hor_avx2 dst i_dst src p i_src W HH c junk m j = intpl_luma_block_hor 8 dst i_dst src p i_src w h cl m j.
  Proof.
    intros M C S j. unfold luma_hor_avx2. cbv zeta.
    destruct ((W / 4 - 1 =? 3) || (W / 4 - 1 =? 7) || (W / 4 - 1 =? 11) || (W / 4 - 1 =? 15)) eqn:K1.
    - assert (W = 16 \/ W = 32 \/ W = 48 \/ W = 64) as D by (rewrite !orb_true_iff, !Z.eqb_eq in K1; clear - K1 M; Z.div_mod_to_equations; lia).
      apply luma_hor_w16_agrees; try assumption. destruct D as [-> | [-> | [-> | ->]]]; reflexivity.
    - destruct (Z.eqb_spec (W / 4 - 1) 5) as [K2|K2]; [apply luma_hor_w24_agrees; try assumption; clear - K2 M; Z.div_mod_to_equations; lia|apply luma_hor_agrees; assumption].
  Qed.
  Lemma luma_ver_avx2_agrees c cl : W mod 4 = 0 -> HH mod 4 = 0 -> fit 8 c -> sym8 c -> same_c 8 c cl ->
    forall j, luma_ver_avx2 dst i_dst src p i_src W HH c junk m j = intpl_luma_block_ver 8 dst i_dst src p i_src w h cl m j.
  Proof.
    intros M Mh C Sy S j. unfold luma_ver_avx2. cbv zeta.
    assert (A : forall put, puts w put -> forall j, ver_lines put vsum8 3 dst i_dst src p i_src HH c m j = intpl_luma_block_ver 8 dst i_dst src p i_src w h cl m j).
    { intros put P. apply (ver_lines_agrees dst i_dst src p i_src w h m Hs Hw put vsum8 3 c 8 (colsum8 c)); [apply vsum8_is; assumption|exact P|exact (luma_ver_V src p i_src h c cl S)|apply colsum8_ext]. }
    destruct (Z.eqb_spec (W / 4 - 1) 3) as [K|K].
    { apply (ver_w16_agrees dst i_dst src p i_src w h m Hs Hw vsum8 3 c 8 (colsum8 c)); [clear - K M; Z.div_mod_to_equations; lia|clear - Mh; Z.div_mod_to_equations; lia|apply vsum8_is; assumption|exact (luma_ver_V src p i_src h c cl S)|apply colsum8_ext]. }
    clear K. destruct (Z.eqb_spec (W / 4 - 1) 5) as [K|K]; [apply A, (puts_w24 i_dst w Hw); clear - K M; Z.div_mod_to_equations; lia|].
    clear K. destruct (Z.eqb_spec (W / 4 - 1) 7) as [K|K]; [apply A, (puts_w32 i_dst w Hw); clear - K M; Z.div_mod_to_equations; lia|].
    clear K. destruct (Z.eqb_spec (W / 4 - 1) 11) as [K|K]; [apply A, (puts_w48 i_dst w Hw); clear - K M; Z.div_mod_to_equations; lia|].
    clear K. destruct (Z.eqb_spec (W / 4 - 1) 15) as [K|K]; [apply A, (puts_w64 i_dst w Hw); clear - K M; Z.div_mod_to_equations; lia|].
    apply luma_ver_gen_agrees; assumption.
  Qed.
  Lemma luma_ext_avx2_agrees cx clx cy cly t0 t0' : W mod 4 = 0 -> W <= 64 -> HH mod 4 = 0 -> fit 8 cx -> same_c 8 cx clx -> fit 8 cy -> sym8 cy -> same_c 8 cy cly ->
    forall j, luma_ext_avx2 dst i_dst src p i_src W HH cx cy junk t0 m j = intpl_luma_block_ext 8 dst i_dst src p i_src w h clx cly t0' m j.
  Proof.
    intros M W64 Mh Cx Sx Cy Sym Sy j. unfold luma_ext_avx2. cbv zeta.
    destruct ((W / 4 - 1 =? 3) || (W / 4 - 1 =? 7) || (W / 4 - 1 =? 11) || (W / 4 - 1 =? 15)) eqn:K1.
    - assert (W = 16 \/ W = 32 \/ W = 48 \/ W = 64) as D by (rewrite !orb_true_iff, !Z.eqb_eq in K1; clear - K1 M; Z.div_mod_to_equations; lia).
      apply luma_ext_w16_agrees; try assumption. destruct D as [-> | [-> | [-> | ->]]]; reflexivity.
    - destruct (Z.eqb_spec (W / 4 - 1) 5) as [K2|K2]; [apply luma_ext_w24_agrees; try assumption; clear - K2 M; Z.div_mod_to_equations; lia|apply luma_ext_agrees; assumption].
  Qed.
  Lemma chroma_hor_avx2_agrees c cl : W mod 2 = 0 -> fit 4 c -> same_c 4 c cl ->
    forall j, chroma_hor_avx2 dst i_dst src p i_src W HH c junk m j = intpl_chroma_block_hor 8 dst i_dst src p i_src w h cl m j.
  Proof.
    intros M C S j. unfold chroma_hor_avx2. cbv zeta. destruct ((W / 2 - 1 =? 7) || (W / 2 - 1 =? 15)) eqn:K1.
    - assert (W = 16 \/ W = 32) as D by (rewrite !orb_true_iff, !Z.eqb_eq in K1; clear - K1 M; Z.div_mod_to_equations; lia).
      apply chroma_hor_w16_agrees; try assumption. destruct D as [-> | ->]; reflexivity.
    - destruct (Z.eqb_spec (W / 2 - 1) 11) as [K2|K2]; [apply chroma_hor_w24_agrees; try assumption; clear - K2 M; Z.div_mod_to_equations; lia|apply chroma_hor_agrees; assumption].
  Qed.
  Lemma chroma_ver_avx2_agrees c cl : W mod 2 = 0 -> HH mod 2 = 0 -> fit 4 c -> sym4 c -> same_c 4 c cl ->
    forall j, chroma_ver_avx2 dst i_dst src p i_src W HH c junk m j = intpl_chroma_block_ver 8 dst i_dst src p i_src w h cl m j.
  Proof.
    intros M Mh C Sy S j. unfold chroma_ver_avx2. cbv zeta.
    assert (A : forall put, puts w put -> forall j, ver_lines put vsum4 1 dst i_dst src p i_src HH c m j = intpl_chroma_block_ver 8 dst i_dst src p i_src w h cl m j).
    { intros put P. apply (ver_lines_agrees dst i_dst src p i_src w h m Hs Hw put vsum4 1 c 4 (colsum4 c)); [apply vsum4_is; assumption|exact P|exact (chroma_ver_V src p i_src h c cl S)|apply colsum4_ext]. }
    destruct (Z.eqb_spec (W / 2 - 1) 7) as [K|K].
    { apply (ver_w16_agrees dst i_dst src p i_src w h m Hs Hw vsum4 1 c 4 (colsum4 c)); [clear - K M; Z.div_mod_to_equations; lia|exact Mh|apply vsum4_is; assumption|exact (chroma_ver_V src p i_src h c cl S)|apply colsum4_ext]. }
    clear K. destruct (Z.eqb_spec (W / 2 - 1) 11) as [K|K]; [apply A, (puts_w24 i_dst w Hw); clear - K M; Z.div_mod_to_equations; lia|].
    clear K. destruct (Z.eqb_spec (W / 2 - 1) 15) as [K|K]; [apply A, (puts_w32 i_dst w Hw); clear - K M; Z.div_mod_to_equations; lia|].
    apply chroma_ver_gen_agrees; assumption.
  Qed.
  Lemma chroma_ext_avx2_agrees cx clx cy cly t0 t0' : W mod 2 = 0 -> W <= 32 -> HH mod 2 = 0 -> fit 4 cx -> same_c 4 cx clx -> fit 4 cy -> same_c 4 cy cly -> cy 1 <> cy 6 ->
    forall j, chroma_ext_avx2 dst i_dst src p i_src W HH cx cy junk t0 m j = intpl_chroma_block_ext 8 dst i_dst src p i_src w h clx cly t0' m j.
  Proof.
    intros M W32 Mh Cx Sx Cy Sy N j. unfold chroma_ext_avx2. cbv zeta. destruct ((W / 2 - 1 =? 7) || (W / 2 - 1 =? 15)) eqn:K1.
    - assert (W = 16 \/ W = 32) as D by (rewrite !orb_true_iff, !Z.eqb_eq in K1; clear - K1 M; Z.div_mod_to_equations; lia).
      apply chroma_ext_w16_agrees; try assumption. destruct D as [-> | ->]; reflexivity.
    - destruct (Z.eqb_spec (W / 2 - 1) 11) as [K2|K2]; [apply chroma_ext_w24_agrees; try assumption; clear - K2 M; Z.div_mod_to_equations; lia|apply chroma_ext_agrees; assumption].
  Qed.
End Widths.

Lemma nat_mod_Z a b : (b <> 0)%nat -> (a mod b = 0)%nat -> Z.of_nat a mod Z.of_nat b = 0.
Proof. intros B E. rewrite <- Nat2Z.inj_mod, E. reflexivity. Qed.
Lemma mc_luma_avx2_agrees dst i_dst posx posy w h src pf stride junk t0 t0' m :
  (forall q, byte (src q)) -> Z.of_nat w <= i_dst -> (w <= 64)%nat -> (w mod 4 = 0)%nat -> (h mod 4 = 0)%nat ->
  forall q, mc_luma_avx2 dst i_dst posx posy w h src pf stride junk t0 m q = mc_luma 8 dst i_dst posx posy w h src pf stride t0' m q.
Proof.
  intros Hs Hw W64 W4 H4 q. unfold mc_luma_avx2. cbv zeta. destruct (8 <? Z.of_nat w); cbn [negb]; [|apply mc_luma_agrees; assumption]. unfold mc_luma. cbv zeta.
  assert (X : 0 <= Z.land posx 3 < 4) by (change 3 with (Z.ones 2); rewrite Z.land_ones by lia; apply Z.mod_pos_bound; reflexivity).
  assert (Y : 0 <= Z.land posy 3 < 4) by (change 3 with (Z.ones 2); rewrite Z.land_ones by lia; apply Z.mod_pos_bound; reflexivity).
  pose proof (nat_mod_Z h 4 ltac:(lia) H4) as H4'. pose proof (nat_mod_Z w 4 ltac:(lia) W4) as W4'. change (Z.of_nat 4) with 4 in H4', W4'.
  destruct (Z.eqb_spec (Z.land posx 3) 0) as [EX|EX], (Z.eqb_spec (Z.land posy 3) 0) as [EY|EY]; cbn [andb]; [reflexivity|..].
  - destruct (row_l_ok (Z.land posy 3) ltac:(lia)) as (F & S & M). apply luma_ver_avx2_agrees; assumption.
  - destruct (row_l_ok (Z.land posx 3) ltac:(lia)) as (F & S & _). apply luma_hor_avx2_agrees; assumption.
  - destruct (row_l_ok (Z.land posx 3) ltac:(lia)) as (F & S & _). destruct (row_l_ok (Z.land posy 3) ltac:(lia)) as (F' & S' & M). apply luma_ext_avx2_agrees; try assumption. lia.
Qed.
Lemma mc_chroma_avx2_agrees b dst i_dst posx posy w h src pf stride junk t0 t0' m :
  (forall q, byte (src q)) -> Z.of_nat w <= i_dst -> (w <= 32)%nat -> (w mod 2 = 0)%nat -> (h mod 2 = 0)%nat -> (posx mod 8 = 0 \/ posy mod 8 <> 7 \/ b 34 <> 6) ->
  forall q, mc_chroma_avx2 b dst i_dst posx posy w h src pf stride junk t0 m q = mc_chroma 8 dst i_dst posx posy w h src pf stride t0' m q.
Proof.
  intros Hs Hw W32 W2 H2 B q. unfold mc_chroma_avx2. cbv zeta. destruct (8 <? Z.of_nat w); cbn [negb]; [|apply mc_chroma_agrees; assumption]. unfold mc_chroma. cbv zeta.
  assert (E : forall v, Z.land v 7 = v mod 8) by (intros v; change 7 with (Z.ones 3); rewrite Z.land_ones by lia; reflexivity). rewrite !E. clear E.
  pose proof (Z.mod_pos_bound posx 8 eq_refl) as X. pose proof (Z.mod_pos_bound posy 8 eq_refl) as Y.
  pose proof (nat_mod_Z h 2 ltac:(lia) H2) as H2'. pose proof (nat_mod_Z w 2 ltac:(lia) W2) as W2'. change (Z.of_nat 2) with 2 in H2', W2'.
  destruct (Z.eqb_spec (posx mod 8) 0) as [EX|EX], (Z.eqb_spec (posy mod 8) 0) as [EY|EY]; cbn [andb]; [reflexivity|..].
  - destruct (row_c_ok b (posy mod 8) ltac:(lia)) as (F & S & _). apply chroma_ver_avx2_agrees; try assumption. apply row_c_sym. lia.
  - destruct (row_c_ok b (posx mod 8) ltac:(lia)) as (F & S & _). apply chroma_hor_avx2_agrees; assumption.
  - destruct (row_c_ok b (posx mod 8) ltac:(lia)) as (F & S & _). destruct (row_c_ok b (posy mod 8) ltac:(lia)) as (F' & S' & M).
    apply chroma_ext_avx2_agrees; try assumption; [lia|]. apply M. destruct B as [B|[B|B]]; [congruence|left; exact B|right; exact B].
Qed.
