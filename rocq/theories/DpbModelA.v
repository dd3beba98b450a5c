(** The assertions of the picture buffer. They are kept in the GNU builds
    (build/linux/configure defines NDEBUG for MSVC only, lines 1156-1163). *)
From Coq Require Import ZArith List Bool.
From Verif Require Import CBase DpbModel.
Import ListNotations.
Open Scope Z_scope.

(** [ADisp], [ARefd]: header.cc:1305-1306; [ATarget]: 1379; [ACount]: 1230; [ASkip]: 1445.
    (The one of [release_one_frame], 1146, is [EvUndef] in DpbModel.) *)
Inductive site := ADisp | ARefd | ATarget | ACount | ASkip.

(** The assertions evaluated by the next critical section of [task_get_references], in
    order, with their values. header.cc:1230 counts the pictures in the output list and
    the targets of all decoders that are not free (a decoder frees itself only after it has
    put its picture into the list and released it, decoder.cc:521-524). *)
Definition assertions (s : st) : list (site * bool) :=
  match at_ s with
  | PRef r (d :: l) j got =>
      if n s <=? j then []
      else
        let v := fr s (base s + j) in
        if is_valid v && (0 <=? f_coi v) && (r_coi r - d =? f_coi v)
        then [(ADisp, f_disp v =? 0); (ARefd, f_refd v)] else []
  | PFind r got j =>
      if n s <=? j then []
      else
        let v := fr s (base s + j) in
        if (f_rc v =? 0) && negb (f_refd v) then [(ATarget, f_disp v =? 0)] else []
  | PWait r got =>
      if existsb (fun f => f_poc (fr s f) <=? expect s) (olist s)
         || existsb (fun t => f_poc (fr s (t_dec t)) =? expect s) (tasks s) then []
      else
        (ACount, Z.of_nat (length (olist s)) + Z.of_nat (length (filter (fun t => 0 <=? f_poc (fr s (t_dec t))) (tasks s))) <=? n s)
        :: (if busy s then []
            else match olist s with
                 | [] => []
                 | g :: _ => [(ASkip, expect s <? f_poc (fr s g))]
                 end)
  | _ => []
  end.
