(** Prediction with vector functions is prediction with the C functions. *)
From Coq Require Import ZArith List Bool Lia.
From Verif Require Import CBase UtilModel MemModel NbModel IprModel IprSpec IprProofsE IprProofsH IprProps EgModel EgSpec EgProofs EgProofsB EgProofsC VxModelBase VfModel VfProofs VfProofsB VpModel VpModelH VpSpec VpProofsF VpProps VqModel VqProps VgModel VgSpec.
Import ListNotations.
Open Scope Z_scope.
Strategy 1000 [predict run].

Lemma odd_leaves avx mode w h : ~ (avx = true /\ strays mode w h) -> leaves avx mode w h = false.
Proof.
  unfold strays, leaves. intros N. destruct avx; [|reflexivity]. cbn [andb].
  destruct (Z.eqb_spec mode 13), (Z.leb_spec 32 w), (Z.eqb_spec mode 16), (Z.eqb_spec h 4); cbn [andb orb]; try reflexivity; exfalso; apply N; (split; [reflexivity|]); auto.
Qed.

Lemma last_le avx mode w h : last false mode w h <= last avx mode w h.
Proof. unfold last. destruct (square w h), (mode =? 3), (w =? 32), avx, (w =? 64); cbn; lia. Qed.
Lemma vpredict_ok avx msvc lo hi u cjunk src s d st mode w h top left dst :
  0 <= mode <= 32 -> intra_shape w h -> w <= st -> ~ (avx = true /\ strays mode w h) ->
  lo <= first w h -> last avx mode w h <= hi -> samples lo hi (fun k => src (s + k)) -> repeats (fun k => src (s + k)) w h (reach w h) (reach h w) ->
  exists new, vpredict avx msvc lo hi u src s d st mode w h top left dst = Done new /\
    forall q, new q = intra_pred 8 8 cjunk src s d st mode w h top left dst q.
Proof.
  intros Hm Sh W N Lo Hi Sa Rp. unfold vpredict.
  assert (L : legal 8 (fun k => src (s + k)) w h).
  { destruct (reach_inside avx mode w h Sh) as [R1 R2]. intros k Hk. change (2 ^ 8 - 1) with 255. apply Sa. lia. }
  destruct (Z.leb_spec mode 2) as [M|M].
  { eexists. split; [reflexivity|]. intros q. destruct (C102_equal_c cjunk (u_q u) src s d st mode w h top left dst ltac:(lia) Sh W L q) as [A B].
    destruct avx; [exact B|exact A]. }
  destruct (find _ _) as [[m f]|] eqn:F.
  - apply find_some in F. destruct F as [F E]. cbn [fst] in E. apply Z.eqb_eq in E. subst m.
    assert (P : exists new, predict lo hi (fun k => src (s + k)) (u_p u) f d st w h dst = Some new /\
      forall q, new q = intra_pred 8 8 cjunk src s d st mode w h top left dst q).
    { destruct (avx && _) eqn:K.
      - apply andb_true_iff in K. destruct K as [K _]. subst avx. apply C101_avx2_equals_c; try assumption; [apply odd_leaves; exact N|]. intros [H4 H8]. apply N. split; [reflexivity|]. right. right. split; assumption.
      - apply C101_sse_equals_c; try assumption. pose proof (last_le avx mode w h). lia. }
    destruct P as (new & -> & E). exists new. split; [reflexivity|exact E].
  - eexists. split; [reflexivity|]. intros q. apply (intra_pred_border 8 8 (u_c u) cjunk src src s s); try assumption; try lia; reflexivity.
Qed.

Lemma luma_vec avx msvc base u junk c cur mode cx cy w h lcu rt fd st buf pic :
  0 <= mode <= 32 -> intra_shape w h -> w <= st -> base mod 16 = 0 -> ~ (avx = true /\ strays mode w h) -> ~ (avx = true /\ mode = 3 /\ w = 64) ->
  (forall q, 0 <= pic q <= 255) -> (forall q, 0 <= lcu q <= 255) -> (forall q, 0 <= buf q <= 255) ->
  forall a buf' pic', get_intra_pred 8 8 junk c cur mode cx cy w h lcu rt fd st buf pic = Done (a, buf', pic') ->
  exists bufv picv, vget_intra_pred avx msvc base u c cur mode cx cy w h lcu rt fd st buf pic = Done (a, bufv, picv) /\
    (forall q, 0 <= bufv q <= 255) /\ (forall q, picv q = pic' q).
Proof.
  intros Hm S W B Od N3 Hp Hl Hb a buf' pic'. unfold get_intra_pred, vget_intra_pred. destruct (shape_sides w h S) as [Sw Sh]. pose proof (shape_pos w h S) as Pos.
  destruct (intra_neighbors _ _ _ _ _ _ _ _ _ _) as [a'| | |]; cbn [bindo]; try discriminate. intros E. injection E as <- <- <-.
  change (Z.shiftl 64 2 - 1) with 255. change (2 ^ (8 - 1)) with 128. change (- (255)) with (-255). change (Z.shiftl 64 3 - 1 - 255) with 256.
  set (p := fd + cy * st + cx).
  assert (Al : 16 <= w -> (base + 255 + 1) mod 16 = 0) by (intros _; replace (base + 255 + 1) with (base + 16 * 16) by ring; rewrite Z.mod_add by lia; exact B).
  destruct (vfill_edge_ok base 128 pic (p - st - 1) st lcu (rt + cx - cy) 255 a' cx cy w h buf Sw Sh Al ltac:(lia) Hp Hl) as (bufv & E & V).
  rewrite E. cbn [bindo]. rewrite pr_reach in V by lia.
  assert (In : forall k, - reach h w <= k <= reach w h -> bufv (255 + k) = fill_edge cx cy 128 pic (p - st - 1) st lcu (rt + cx - cy) 255 a' w h buf (255 + k)).
  { intros k Hk. rewrite V. destruct (Z.eqb_spec (reach w h) (2 * w)), (Z.eqb_spec (255 + k) (255 + 2 * w + 1)); cbn [andb]; try reflexivity; lia. }
  assert (By : forall q, 0 <= bufv q <= 255).
  { intros q. rewrite V. destruct ((reach w h =? 2 * w) && (q =? 255 + 2 * w + 1)); [lia|].
    destruct (Z_le_dec (255 - reach h w) q) as [A|A]; [destruct (Z_le_dec q (255 + reach w h)) as [A'|A']|].
    - replace q with (255 + (q - 255)) by ring. apply fill_edge_byte; assumption || lia.
    - unfold p. rewrite fill_edge_out by lia. apply Hb.
    - unfold p. rewrite fill_edge_out by lia. apply Hb. }
  destruct (fill_edge_repeats 128 pic (p - st - 1) st lcu (rt + cx - cy) 255 a' cx cy w h buf Sw Sh) as [R1 R2].
  pose proof (IprProofsF.reach_ge w h) as Q1. pose proof (IprProofsF.reach_ge h w) as Q2.
  destruct (luma_inside avx mode w h S N3) as [F1 F2].
  destruct (vpredict_ok avx msvc (-255) 256 u junk bufv 255 p st mode w h (n_top a') (n_left a') pic Hm S W Od F1 F2) as (new & E2 & V2).
  { intros k _. apply By. }
  { split; intros k Hk; rewrite !In by lia; [apply R1|apply R2]; exact Hk. }
  rewrite E2. cbn [bindo]. exists bufv, new. split; [reflexivity|]. split; [exact By|].
  intros q. rewrite V2. symmetry. apply (intra_pred_border 8 8 junk junk _ bufv 255 255); try assumption; try lia.
  - intros k Hk. apply fill_edge_byte; assumption || lia.
  - split; assumption.
  - intros k Hk. symmetry. apply In. exact Hk.
Qed.

Lemma inside_u avx mode n : In n [4; 8; 16; 32] -> -127 <= first n n /\ last avx mode n n <= 384.
Proof.
  cbn [In]. intros H. unfold last, first, square. destruct (mode =? 3);
  repeat (destruct H as [H|H]; [subst n; destruct avx; cbn; lia|]); contradiction.
Qed.
Lemma chroma_vec avx msvc base u junk c cur level luma c_mode cx cy lcu1 lcu2 rt fd1 fd2 st buf pic1 pic2 mode :
  real_mode luma c_mode = Done mode -> 0 <= mode <= 32 -> 3 <= level <= 6 -> 2 ^ (level - 1) <= st -> base mod 16 = 0 ->
  ~ (avx = true /\ strays mode (2 ^ (level - 1)) (2 ^ (level - 1))) -> ~ (mode = 3 /\ level = 6) ->
  (forall q, 0 <= pic1 q <= 255) -> (forall q, 0 <= lcu1 q <= 255) -> (forall q, 0 <= pic2 q <= 255) -> (forall q, 0 <= lcu2 q <= 255) -> (forall q, 0 <= buf q <= 255) ->
  forall a buf' pic1' pic2', get_intra_pred_chroma 8 8 junk c cur level luma c_mode cx cy lcu1 lcu2 rt fd1 fd2 st buf pic1 pic2 = Done (a, buf', (pic1', pic2')) ->
  exists bufv pic1v pic2v, vget_intra_pred_chroma avx msvc base u c cur level luma c_mode cx cy lcu1 lcu2 rt fd1 fd2 st buf pic1 pic2 = Done (a, bufv, (pic1v, pic2v)) /\
    (forall q, 0 <= bufv q <= 255) /\ (forall q, pic1v q = pic1' q) /\ (forall q, pic2v q = pic2' q).
Proof.
  intros Rm Hm Lv W B Od N3 Hp1 Hl1 Hp2 Hl2 Hb a buf' pic1' pic2' G.
  destruct (chroma_v base junk c cur level luma c_mode cx cy lcu1 lcu2 rt fd1 fd2 st buf pic1 pic2 mode Rm Hm Lv W B Hp1 Hl1 Hp2 Hl2 a buf' pic1' pic2' G) as (bufv & pic1v & pic2v & Gv & EB & EP1 & EP2).
  assert (K : In (2 ^ (level - 1)) [4; 8; 16; 32] /\ ~ (mode = 3 /\ 2 ^ (level - 1) = 32)).
  { assert (level = 3 \/ level = 4 \/ level = 5 \/ level = 6) as [E|[E|[E|E]]] by lia; rewrite E in N3 |- *; cbn; split; try tauto; intros [? ?]; try discriminate; apply N3; auto. }
  destruct K as [Kn K3].
  revert G Gv. unfold get_intra_pred_chroma, get_intra_pred_chroma_v, vget_intra_pred_chroma. rewrite Rm. cbn [bindo].
  assert (N : Z.shiftl 1 (level - 1) = 2 ^ (level - 1)) by (rewrite Z.shiftl_mul_pow2 by lia; lia). rewrite N.
  destruct (chroma_size level Lv) as (S & R & P). set (n := 2 ^ (level - 1)) in *. clearbody n.
  destruct (shape_sides n n S) as [Sn _]. pose proof (IprProofsF.reach_ge n n) as Q.
  destruct (intra_neighbors _ _ _ _ _ _ _ _ _ _) as [a'| | |]; cbn [bindo]; try discriminate. intros G. injection G as -> Gb <- <-.
  change (Z.shiftl 64 1 - 1) with 127 in *. change (127 + Z.shiftl 64 2) with 383 in *. change (2 ^ (8 - 1)) with 128 in *.
  change (- (127)) with (-127). change (- (383)) with (-383). change (Z.shiftl 64 3 - 1 - 127) with 384. change (Z.shiftl 64 3 - 1 - 383) with 128.
  set (p1 := fd1 + cy * st + cx) in *. set (p2 := fd2 + cy * st + cx) in *.
  destruct (vfill_edge _ _ _ _ pic1 _ _ _ _ _ _ _ _ _) as [b1| | |] eqn:E1; cbn [bindo]; try discriminate.
  destruct (vfill_edge _ _ _ _ pic2 _ _ _ _ _ _ _ _ _) as [b2| | |] eqn:E2; cbn [bindo]; try discriminate.
  intros G. injection G as <- <- <-. rewrite <- Gb in EB.
  set (C1 := fill_edge cx cy 128 pic1 (p1 - st - 1) st lcu1 (rt + cx - cy) 127 a n n buf) in *.
  assert (F1 : forall k, - reach n n <= k <= reach n n -> b2 (127 + k) = C1 (127 + k)).
  { intros k Hk. rewrite EB. apply fill_edge_out; lia. }
  assert (By : forall q, 0 <= b2 q <= 255).
  { intros q. rewrite EB. destruct (Z_le_dec (383 - reach n n) q) as [A|A]; [destruct (Z_le_dec q (383 + reach n n)) as [A'|A']|].
    - replace q with (383 + (q - 383)) by ring. apply fill_edge_byte; assumption || lia.
    - unfold p2. rewrite fill_edge_out by lia. unfold C1, p1. rewrite fill_edge_out by lia. apply Hb.
    - unfold p2. rewrite fill_edge_out by lia. unfold C1. destruct (Z_le_dec (127 - reach n n) q) as [D|D]; [destruct (Z_le_dec q (127 + reach n n)) as [D'|D']|].
      + replace q with (127 + (q - 127)) by ring. apply fill_edge_byte; assumption || lia.
      + unfold p1. rewrite fill_edge_out by lia. apply Hb.
      + unfold p1. rewrite fill_edge_out by lia. apply Hb. }
  destruct (inside_u avx mode n Kn) as [U1 U2]. destruct (chroma_inside avx mode n Kn K3) as [V1 V2].
  destruct (vpredict_ok avx msvc (-127) 384 u junk b2 127 p1 st mode n n (n_top a) (n_left a) pic1 Hm S W Od U1 U2) as (new1 & G1 & W1).
  { intros k _. apply By. }
  { destruct (fill_edge_repeats 128 pic1 (p1 - st - 1) st lcu1 (rt + cx - cy) 127 a cx cy n n buf Sn Sn) as [R1 R2].
    split; intros k Hk; rewrite !F1 by lia; [apply R1|apply R2]; exact Hk. }
  destruct (vpredict_ok avx msvc (-383) 128 u junk b2 383 p2 st mode n n (n_top a) (n_left a) pic2 Hm S W Od ltac:(lia) V2) as (new2 & G2 & W2).
  { intros k _. apply By. }
  { destruct (fill_edge_repeats 128 pic2 (p2 - st - 1) st lcu2 (rt + cx - cy) 383 a cx cy n n C1 Sn Sn) as [R1 R2].
    split; intros k Hk; rewrite !EB by lia; [apply R1|apply R2]; exact Hk. }
  rewrite G1. cbn [bindo]. rewrite G2. cbn [bindo]. exists b2, new1, new2. split; [reflexivity|]. split; [exact By|].
  split; intros q; [rewrite W1; apply EP1|rewrite W2; apply EP2].
Qed.

(** The second chroma border ends where the buffer ends. *)
Lemma chroma_v_undef avx msvc u src d st top left dst : vpredict avx msvc (-383) 128 u src 383 d st 3 32 32 top left dst = Undef.
Proof. destruct avx, msvc; vm_cast_no_check (@eq_refl (outcome mem) Undef). Qed.
