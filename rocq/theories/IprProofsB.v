(** The stores of every specialised predictor against the rule. *)
From Coq Require Import ZArith List Bool Lia.
From Verif Require Import CBase MemModel MemProofs MemProofsB SaoModel SaoProofs LfModel IprModel IprSpec IprProofs.
Import ListNotations.
Open Scope Z_scope.

(** Rightwards: position relative to [src + o]; leftwards likewise. *)
Definition pos_x (sl o k : Z) : Z := walk sl (k + 1) + 1 - o.
Definition fr (sl k : Z) : Z := frac sl (k + 1).
Definition pos_y (sl o k : Z) : Z := - (walk sl (k + 1) + 1) + o.
Definition pos_l (sl k : Z) : Z := 1 - walk sl (k + 1).
Definition pos_u (sl k : Z) : Z := walk sl (k + 1) - 1.
Lemma c_x3 : codes e_x3 0 (pos_x 704 0) (fr 704) 1. Proof. unfold e_x3. codes_tac. Qed.
Lemma c_x4 : codes e_x4 0 (pos_x 512 3) (fr 512) 1. Proof. unfold e_x4. codes_tac. Qed.
Lemma c_x5 : codes e_x5 0 (pos_x 352 0) (fr 352) 1. Proof. unfold e_x5, e_x5a. codes_tac. Qed.
Lemma c_x6 : codes e_x6 0 (pos_x 256 0) (fr 256) 1. Proof. unfold e_x6. codes_tac. Qed.
Lemma c_x7 : codes e_x7 0 (pos_x 186 0) (fr 186) 1. Proof. unfold e_x7, e_x7a. codes_tac. Qed.
Lemma c_x8 : codes e_x8 0 (pos_x 128 0) (fr 128) 1. Proof. unfold e_x8. codes_tac. Qed.
Lemma c_x9 : codes e_x9 0 (pos_x 93 0) (fr 93) 1. Proof. unfold e_x9, e_x9a. codes_tac. Qed.
Lemma c_x10 : codes e_x10 0 (pos_x 64 0) (fr 64) 1. Proof. unfold e_x10. codes_tac. Qed.
Lemma c_x11 : codes e_x11 0 (pos_x 32 0) (fr 32) 1. Proof. unfold e_x11, e_x11a. codes_tac. Qed.
Lemma c_y25 : codes e_y25 0 (pos_y 32 0) (fr 32) (-1). Proof. unfold e_y25, e_y25a. codes_tac. Qed.
Lemma c_y26 : codes e_y26 0 (pos_y 64 0) (fr 64) (-1). Proof. unfold e_y26. codes_tac. Qed.
Lemma c_y27 : codes e_y27 0 (pos_y 93 0) (fr 93) (-1). Proof. unfold e_y27, e_y27a. codes_tac. Qed.
Lemma c_y28 : codes e_y28 0 (pos_y 128 0) (fr 128) (-1). Proof. unfold e_y28. codes_tac. Qed.
Lemma c_y29 : codes e_y29 0 (pos_y 186 0) (fr 186) (-1). Proof. unfold e_y29, e_y29a. codes_tac. Qed.
Lemma c_y30 : codes e_y30 0 (pos_y 256 2) (fr 256) (-1). Proof. unfold e_y30. codes_tac. Qed.
Lemma c_y31 : codes e_y31 0 (pos_y 352 0) (fr 352) (-1). Proof. unfold e_y31, e_y31a. codes_tac. Qed.
Lemma c_xy13 : codes e_xy13 0 (pos_l 32) (fr 32) (-1). Proof. unfold e_xy13, e_xy13a. codes_tac. Qed.
Lemma c_xy14 : codes e_xy14 0 (pos_l 64) (fr 64) (-1). Proof. unfold e_xy14. codes_tac. Qed.
Lemma c_xy16 : codes e_xy16 0 (pos_l 128) (fr 128) (-1). Proof. unfold e_xy16. codes_tac. Qed.
Lemma c_xy13l : codes e_xy13l 0 (fun k => 7 - k) (fun _ => 0) 1. Proof. unfold e_xy13l. codes_tac. Qed.
Lemma c_xy14l : codes e_xy14l 0 (fun k => 3 - k) (fun _ => 0) 1. Proof. unfold e_xy14l. codes_tac. Qed.
Lemma c_xy16l : codes e_xy16l 0 (fun k => 1 - k) (fun _ => 0) 1. Proof. unfold e_xy16l. codes_tac. Qed.
Lemma c_mid : codes e_mid 0 (fun _ => 0) (fun _ => 0) (-1). Proof. unfold e_mid. codes_tac. Qed.
Lemma c_mid1 : codes e_mid 0 (fun _ => 0) (fun _ => 0) 1. Proof. unfold e_mid. codes_tac. Qed.
Lemma c_xy23t : codes e_xy23t 0 (fun _ => 0) (fun _ => 0) (-1). Proof. unfold e_xy23t. codes_tac. Qed.
Lemma c_xy20l : codes e_xy20l 0 (fun k => walk 128 (k + 1)) (fr 128) 1. Proof. unfold e_xy20l. codes_tac. Qed.
Lemma c_xy22l : codes e_xy22l 0 (fun k => walk 64 (k + 1)) (fr 64) 1. Proof. unfold e_xy22l. codes_tac. Qed.
Lemma c_xy23l : codes e_xy23l 0 (fun k => walk 32 (k + 1)) (fr 32) 1. Proof. unfold e_xy23l. codes_tac. Qed.
Lemma c_xy22s : codes e_xy22s 0 (pos_u 64) (fr 64) 1. Proof. unfold e_xy22s. codes_tac. Qed.
Lemma c_xy23 : codes e_xy23 0 (pos_u 32) (fr 32) 1. Proof. unfold e_xy23, e_xy23a. codes_tac. Qed.
Lemma c_y32 : codes e_y32 0 (fun k => - k) (fun _ => 0) (-1). Proof. unfold e_y32. codes_tac. Qed.
