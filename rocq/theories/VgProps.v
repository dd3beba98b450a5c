(** C103: intra prediction on a processor with vector instructions. *)
From Coq Require Import ZArith List Bool Lia.
From Verif Require Import CBase MemModel NbModel NbSpec NbProofs IprModel IprSpec EgModel EgSpec EgProofs EgProofsB EgProofsC EgProofsD EgProofsE.
From Verif Require Import IprProps EgProps VfModel VpModel VpModelG VpModelH VqModel VgModel VgSpec VgProofs.
Import ListNotations.
Open Scope Z_scope.
Strategy 1000 [predict run].

(** C103.  With SSE functions: border and predictor together leave the picture of the C functions, in
    every mode and shape, within the buffers. *)
Theorem C103_sse_luma msvc base u junk c cur mode cx cy w h lcu rt fd st buf pic :
  0 <= mode <= 32 -> intra_shape w h -> w <= st -> base mod 16 = 0 ->
  (forall q, 0 <= pic q <= 255) -> (forall q, 0 <= lcu q <= 255) -> (forall q, 0 <= buf q <= 255) ->
  forall a buf' pic', get_intra_pred 8 8 junk c cur mode cx cy w h lcu rt fd st buf pic = Done (a, buf', pic') ->
  exists bufv picv, vget_intra_pred false msvc base u c cur mode cx cy w h lcu rt fd st buf pic = Done (a, bufv, picv) /\
    (forall q, 0 <= bufv q <= 255) /\ (forall q, picv q = pic' q).
Proof. intros Hm S W B. apply (luma_vec false msvc base u junk c cur mode cx cy w h lcu rt fd st buf pic Hm S W B); intros [X _]; discriminate X. Qed.
Print Assumptions C103_sse_luma.
(** With AVX2 functions, but for the shapes of [strays] and mode 3 on 64x64 (C101). *)
Theorem C103_avx2_luma_partial msvc base u junk c cur mode cx cy w h lcu rt fd st buf pic :
  0 <= mode <= 32 -> intra_shape w h -> w <= st -> base mod 16 = 0 -> ~ strays mode w h -> ~ (mode = 3 /\ w = 64) ->
  (forall q, 0 <= pic q <= 255) -> (forall q, 0 <= lcu q <= 255) -> (forall q, 0 <= buf q <= 255) ->
  forall a buf' pic', get_intra_pred 8 8 junk c cur mode cx cy w h lcu rt fd st buf pic = Done (a, buf', pic') ->
  exists bufv picv, vget_intra_pred true msvc base u c cur mode cx cy w h lcu rt fd st buf pic = Done (a, bufv, picv) /\
    (forall q, 0 <= bufv q <= 255) /\ (forall q, picv q = pic' q).
Proof. intros Hm S W B N1 N2. apply (luma_vec true msvc base u junk c cur mode cx cy w h lcu rt fd st buf pic Hm S W B); intros [_ X]; [exact (N1 X)|exact (N2 X)]. Qed.
Print Assumptions C103_avx2_luma_partial.

(** C103.  The two chroma blocks.  Mode 3 on blocks of 32x32 reads beyond the buffer, see below. *)
Theorem C103_chroma_partial avx msvc base u junk c cur level luma c_mode cx cy lcu1 lcu2 rt fd1 fd2 st buf pic1 pic2 mode :
  real_mode luma c_mode = Done mode -> 0 <= mode <= 32 -> 3 <= level <= 6 -> 2 ^ (level - 1) <= st -> base mod 16 = 0 ->
  ~ (avx = true /\ strays mode (2 ^ (level - 1)) (2 ^ (level - 1))) -> ~ (mode = 3 /\ level = 6) ->
  (forall q, 0 <= pic1 q <= 255) -> (forall q, 0 <= lcu1 q <= 255) -> (forall q, 0 <= pic2 q <= 255) -> (forall q, 0 <= lcu2 q <= 255) -> (forall q, 0 <= buf q <= 255) ->
  forall a buf' pic1' pic2', get_intra_pred_chroma 8 8 junk c cur level luma c_mode cx cy lcu1 lcu2 rt fd1 fd2 st buf pic1 pic2 = Done (a, buf', (pic1', pic2')) ->
  exists bufv pic1v pic2v, vget_intra_pred_chroma avx msvc base u c cur level luma c_mode cx cy lcu1 lcu2 rt fd1 fd2 st buf pic1 pic2 = Done (a, bufv, (pic1v, pic2v)) /\
    (forall q, 0 <= bufv q <= 255) /\ (forall q, pic1v q = pic1' q) /\ (forall q, pic2v q = pic2' q).
Proof. exact (chroma_vec avx msvc base u junk c cur level luma c_mode cx cy lcu1 lcu2 rt fd1 fd2 st buf pic1 pic2 mode). Qed.
Print Assumptions C103_chroma_partial.
Theorem C103_chroma_v_refuted avx msvc u src d st top left dst : vpredict avx msvc (-383) 128 u src 383 d st 3 32 32 top left dst = Undef.
Proof. exact (chroma_v_undef avx msvc u src d st top left dst). Qed.
Print Assumptions C103_chroma_v_refuted.

(** C103.  From the picture: every luma block of an intra coding unit, predicted by SSE functions from the
    neighbours that are in the picture, in the slice and decoded before (C69), is the block of the
    rule, and nothing else changes. *)
Theorem C103_sse_blocks msvc base u R lcu rt fd st lv level split cx cy k bx by_ w h wu hu wscu sl cur mode buf pic :
  0 <= mode <= 32 -> base mod 16 = 0 ->
  unit_at lv level split cx cy k bx by_ w h -> row_slices lv wu hu wscu sl ->
  in_pic wu hu (cx + 2 ^ (level - 2) - 1) (cy + 2 ^ (level - 2) - 1) -> 4 * w <= st ->
  (forall q, 0 <= pic q <= 255) -> (forall q, 0 <= lcu q <= 255) -> (forall q, 0 <= buf q <= 255) ->
  let N := 2 ^ (lv - 2) in
  let lx := cx / N in let ly := cy / N in
  let ox := 4 * (N * lx) in let oy := 4 * (N * ly) in
  let x0 := 4 * (cx + bx) in let y0 := 4 * (cy + by_) in
  let ready x y := ready_unit lv level split cx cy k wu hu wscu sl cur (x / 4) (y / 4) in
  held pic fd st lcu rt ox oy (4 * N) R ready ->
  (forall x y, ready x y -> 0 <= R x y <= 255) ->
  exists a buf' pic',
    vget_intra_pred false msvc base u (Ctx lv wu hu wscu sl (N * lx) (N * ly)) cur mode (x0 - ox) (y0 - oy) (4 * w) (4 * h) lcu rt fd st buf pic = Done (a, buf', pic') /\
    bits_say a ready x0 y0 (4 * w) (4 * h) /\
    predicts (4 * w) (4 * h) (fd + (y0 - oy) * st + (x0 - ox)) st pic pic'
      (rule 8 (border_of 128 a R x0 y0 (4 * w) (4 * h)) mode (4 * w) (4 * h) (n_top a) (n_left a)).
Proof.
  intros Hm B U Rs In W Hp Hl Hb N lx ly ox oy x0 y0 ready Hd HR.
  destruct (C69_luma_blocks 8 8 (u_c u) R lcu rt fd st lv level split cx cy k bx by_ w h wu hu wscu sl cur mode buf pic ltac:(lia) ltac:(lia) Hm U Rs In W Hd HR)
    as (a & buf' & pic' & E & A & P).
  destruct (C103_sse_luma msvc base u (u_c u) _ cur mode _ _ (4 * w) (4 * h) lcu rt fd st buf pic Hm (block_shape _ _ _ _ _ _ _ _ _ _ U) W B Hp Hl Hb a buf' pic' E) as (bv & pv & E' & _ & V).
  exists a, bv, pv. split; [exact E'|]. split; [exact A|]. destruct P as [P1 P2].
  split; [intros x y Hx Hy; rewrite V; apply P1; assumption|intros q Hq; rewrite V; apply P2; exact Hq].
Qed.
Print Assumptions C103_sse_blocks.
Theorem C103_avx2_blocks_partial msvc base u R lcu rt fd st lv level split cx cy k bx by_ w h wu hu wscu sl cur mode buf pic :
  0 <= mode <= 32 -> base mod 16 = 0 -> ~ strays mode (4 * w) (4 * h) -> ~ (mode = 3 /\ 4 * w = 64) ->
  unit_at lv level split cx cy k bx by_ w h -> row_slices lv wu hu wscu sl ->
  in_pic wu hu (cx + 2 ^ (level - 2) - 1) (cy + 2 ^ (level - 2) - 1) -> 4 * w <= st ->
  (forall q, 0 <= pic q <= 255) -> (forall q, 0 <= lcu q <= 255) -> (forall q, 0 <= buf q <= 255) ->
  let N := 2 ^ (lv - 2) in
  let lx := cx / N in let ly := cy / N in
  let ox := 4 * (N * lx) in let oy := 4 * (N * ly) in
  let x0 := 4 * (cx + bx) in let y0 := 4 * (cy + by_) in
  let ready x y := ready_unit lv level split cx cy k wu hu wscu sl cur (x / 4) (y / 4) in
  held pic fd st lcu rt ox oy (4 * N) R ready ->
  (forall x y, ready x y -> 0 <= R x y <= 255) ->
  exists a buf' pic',
    vget_intra_pred true msvc base u (Ctx lv wu hu wscu sl (N * lx) (N * ly)) cur mode (x0 - ox) (y0 - oy) (4 * w) (4 * h) lcu rt fd st buf pic = Done (a, buf', pic') /\
    bits_say a ready x0 y0 (4 * w) (4 * h) /\
    predicts (4 * w) (4 * h) (fd + (y0 - oy) * st + (x0 - ox)) st pic pic'
      (rule 8 (border_of 128 a R x0 y0 (4 * w) (4 * h)) mode (4 * w) (4 * h) (n_top a) (n_left a)).
Proof.
  intros Hm B N1 N2 U Rs In W Hp Hl Hb N lx ly ox oy x0 y0 ready Hd HR.
  destruct (C69_luma_blocks 8 8 (u_c u) R lcu rt fd st lv level split cx cy k bx by_ w h wu hu wscu sl cur mode buf pic ltac:(lia) ltac:(lia) Hm U Rs In W Hd HR)
    as (a & buf' & pic' & E & A & P).
  destruct (C103_avx2_luma_partial msvc base u (u_c u) _ cur mode _ _ (4 * w) (4 * h) lcu rt fd st buf pic Hm (block_shape _ _ _ _ _ _ _ _ _ _ U) W B N1 N2 Hp Hl Hb a buf' pic' E) as (bv & pv & E' & _ & V).
  exists a, bv, pv. split; [exact E'|]. split; [exact A|]. destruct P as [P1 P2].
  split; [intros x y Hx Hy; rewrite V; apply P1; assumption|intros q Hq; rewrite V; apply P2; exact Hq].
Qed.
Print Assumptions C103_avx2_blocks_partial.
(** The samples of C69_case are bytes, and its block of 16x4 samples is no exception in mode 22. *)
Example C103_case : unit_at 6 4 1 12 4 2 0 2 4 1 /\ ~ strays 22 (4 * 4) (4 * 1) /\
  (forall q, 0 <= slope_plane (q mod 400) (q / 400) <= 255) /\
  (forall q, 0 <= (if 0 <=? q then slope_plane (q - 1) (-1) else slope_plane (-1) (- q - 1)) <= 255) /\
  find (fun p => fst p =? 22) avx_table = Some (22, k_ang_xy_22_avx) /\ find (fun p => fst p =? 9) avx_table = None.
Proof.
  split; [exact (proj1 C69_case)|]. split; [unfold strays; lia|].
  assert (S : forall x y, 0 <= slope_plane x y <= 255) by (intros x y; unfold slope_plane; pose proof (Z.mod_pos_bound (3 * x + 5 * y) 256); lia).
  split; [intros; apply S|]. split; [intros q; destruct (0 <=? q); apply S|]. split; reflexivity.
Qed.
