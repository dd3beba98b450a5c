(** The arithmetic decoder of aec.cc: bit supply, context adaptation and the symbol
    decoding functions. *)
From Coq Require Import ZArith List Bool.
From Verif Require Import CBase MemModel.
Import ListNotations.
Open Scope Z_scope.

(** common.h:618-638 [aec_t] without the contexts. [i_s1], [i_t1], [i_value_s], [i_value_t]
    are uint32_t, [i_byte_buf] uint64_t, [i_bits_to_go] int8_t. *)
Record aec := {
  buf : list Z; byte_buf : Z; byte_pos : Z; nbytes : Z; btg : Z;
  err : bool; bound : bool; domain : bool;
  s1 : Z; t1 : Z; vs : Z; vt : Z
}.

Definition set_rd (a : aec) (bb pos g : Z) : aec :=
  {| buf := buf a; byte_buf := bb; byte_pos := pos; nbytes := nbytes a; btg := g; err := err a; bound := bound a;
     domain := domain a; s1 := s1 a; t1 := t1 a; vs := vs a; vt := vt a |}.
Definition set_err (a : aec) (e : bool) : aec :=
  {| buf := buf a; byte_buf := byte_buf a; byte_pos := byte_pos a; nbytes := nbytes a; btg := btg a; err := e; bound := bound a;
     domain := domain a; s1 := s1 a; t1 := t1 a; vs := vs a; vt := vt a |}.
Definition set_bound (a : aec) (e : bool) : aec :=
  {| buf := buf a; byte_buf := byte_buf a; byte_pos := byte_pos a; nbytes := nbytes a; btg := btg a; err := err a; bound := e;
     domain := domain a; s1 := s1 a; t1 := t1 a; vs := vs a; vt := vt a |}.
Definition set_domain (a : aec) (e : bool) : aec :=
  {| buf := buf a; byte_buf := byte_buf a; byte_pos := byte_pos a; nbytes := nbytes a; btg := btg a; err := err a; bound := bound a;
     domain := e; s1 := s1 a; t1 := t1 a; vs := vs a; vt := vt a |}.
Definition set_s1 (a : aec) (v : Z) : aec :=
  {| buf := buf a; byte_buf := byte_buf a; byte_pos := byte_pos a; nbytes := nbytes a; btg := btg a; err := err a; bound := bound a;
     domain := domain a; s1 := v; t1 := t1 a; vs := vs a; vt := vt a |}.
Definition set_t1 (a : aec) (v : Z) : aec :=
  {| buf := buf a; byte_buf := byte_buf a; byte_pos := byte_pos a; nbytes := nbytes a; btg := btg a; err := err a; bound := bound a;
     domain := domain a; s1 := s1 a; t1 := v; vs := vs a; vt := vt a |}.
Definition set_vs (a : aec) (v : Z) : aec :=
  {| buf := buf a; byte_buf := byte_buf a; byte_pos := byte_pos a; nbytes := nbytes a; btg := btg a; err := err a; bound := bound a;
     domain := domain a; s1 := s1 a; t1 := t1 a; vs := v; vt := vt a |}.
Definition set_vt (a : aec) (v : Z) : aec :=
  {| buf := buf a; byte_buf := byte_buf a; byte_pos := byte_pos a; nbytes := nbytes a; btg := btg a; err := err a; bound := bound a;
     domain := domain a; s1 := s1 a; t1 := t1 a; vs := vs a; vt := v |}.

(** The [n] bytes from position [p], big endian. [None]: a read outside the buffer. *)
Fixpoint be_bytes (l : list Z) (p : Z) (n : nat) (acc : Z) : option Z :=
  match n with
  | O => Some acc
  | S k => match get l p with
           | Some b => be_bytes l (p + 1) k (Z.lor (to_u64 (Z.shiftl acc 8)) b)
           | None => None
           end
  end.

(** aec.cc:203-207: the bit at [i_bits_to_go]; a shift by 64 or more, or by a negative
    amount, is undefined. *)
Definition take_bit (a : aec) : outcome (aec * bool) :=
  if (btg a <? 0) || (64 <=? btg a) then Undef
  else Done (set_vt a (Z.lor (to_u32 (Z.shiftl (vt a) 1)) (Z.land (Z.shiftr (byte_buf a) (btg a)) 1)), false).

(** aec.cc:159-211 [aec_get_next_bit]; the flag is its return value. The eight-byte
    assembly at 167-168 is written as the loop of 180-182, which computes the same word. *)
Definition get_next_bit (a : aec) : outcome (aec * bool) :=
  let g := to_i8 (btg a - 1) in
  if g <? 0 then
    let diff := nbytes a - byte_pos a in
    if 7 <? diff then
      match be_bytes (buf a) (byte_pos a) 8 0 with
      | Some w => take_bit (set_rd a w (byte_pos a + 8) 63)
      | None => Undef
      end
    else if 0 <? diff then
      let g' := to_i8 (g + to_i8 (Z.shiftl diff 3)) in
      match be_bytes (buf a) (byte_pos a) (Z.to_nat diff) 0 with
      | Some w => take_bit (set_rd a w (byte_pos a + Z.shiftr (g' + 1) 3) g')
      | None => Undef
      end
    else Done (set_err (set_rd a (byte_buf a) (byte_pos a) g) true, true)
  else take_bit (set_rd a (byte_buf a) (byte_pos a) g).

(** aec.cc:227-231: the loop of single requests, whose results are ignored. *)
Fixpoint next_bits (n : nat) (a : aec) : outcome aec :=
  match n with
  | O => Done a
  | S k => bindo (get_next_bit a) (fun r => next_bits k (fst r))
  end.

(** aec.cc:216-234 [aec_get_next_n_bit], called with 1 <= n <= 9. *)
Definition get_next_n_bit (a : aec) (n : Z) : outcome (aec * bool) :=
  if n <=? btg a then
    let g := to_i8 (btg a - n) in
    if (g <? 0) || (64 <=? g) then Undef
    else
      let bits := Z.land (Z.shiftr (byte_buf a) g) (Z.shiftl 1 n - 1) in
      Done (set_vt (set_rd a (byte_buf a) (byte_pos a) g) (Z.lor (to_u32 (Z.shiftl (vt a) n)) bits), false)
  else bindo (next_bits (Z.to_nat n) a) (fun a => Done (a, err a)).

(** ** Contexts. common.h:479-486 [context_t]: 11, 1 and 2 bits. *)
Record ctx := { lg : Z; mps : Z; cyc : Z }.
Definition ctx_v (c : ctx) : Z := cyc c + 4 * mps c + 8 * lg c.
Definition ctx_of_v (v : Z) : ctx := {| lg := Z.shiftr v 3 mod 2048; mps := Z.shiftr v 2 mod 2; cyc := v mod 4 |}.

(** aec.cc:119-125. *)
Definition tab_cwr (c : Z) : Z := nth (Z.to_nat c) [3; 3; 4; 5; 5; 5; 5] 0.
Definition tab_lg_pmps_offset (c : Z) : Z := nth (Z.to_nat c) [0; 0; 0; 197; 95; 46] 0.

(** aec.cc:312-326: the table of states after an MPS. *)
Definition tab_mps : mem :=
  loop 4 (fun c t =>
    let cwr := tab_cwr c in
    loop 2 (fun m t =>
      loop 1025 (fun l t =>
        let l' := to_u32 (l - (Z.shiftr l cwr + Z.shiftr l (cwr + 2))) in
        upd t (ctx_v {| lg := l; mps := m; cyc := c |})
              (ctx_v {| lg := to_u16 l' mod 2048; mps := m; cyc := Z.max c 1 |})) t) t) (fun _ => 0).

(** aec.cc:329-347: the table of states after an LPS; the flag carried along is
    [ctx_o.MPS], set at the start of each pass and inverted once the threshold is passed. *)
Definition tab_lps : mem :=
  loop 4 (fun c t =>
    let cwr := tab_cwr c in
    loop 2 (fun m t =>
      fst (loop 1025 (fun l (s : mem * Z) =>
        let l' := l + tab_lg_pmps_offset cwr in
        let over := 1024 <=? l' in
        let l2 := if over then 2047 - l' else l' in
        let m2 := if over then 1 - m else snd s in
        (upd (fst s) (ctx_v {| lg := l; mps := m; cyc := c |})
             (ctx_v {| lg := to_u16 l2 mod 2048; mps := m2; cyc := Z.min (c + 1) 3 |}), m2)) (t, m))) t) (fun _ => 0).

(** aec.cc:245-249, 267-271 (CTRL_OPT_AEC is 1): [ctx->v = g_tab[ctx->v]]. *)
Definition update_ctx_mps (c : ctx) : ctx := ctx_of_v (tab_mps (ctx_v c)).
Definition update_ctx_lps (c : ctx) : ctx := ctx_of_v (tab_lps (ctx_v c)).

(** aec.cc:782-792 [aec_init_contexts]: every context. *)
Definition ctx_init : ctx := {| lg := 1023; mps := 0; cyc := 0 |}.

(** ** Symbols. *)
Definition BOUND : Z := 254.      (* aec.cc:141 AEC_VALUE_BOUND *)
Definition QUARTER : Z := 256.

(** aec.cc:404-409 (same at 604-609): the loop that normalises the value; [v] is the local
    [i_value_s]. The flag: a bit request failed. *)
Fixpoint norm_loop (fuel : nat) (a : aec) (v : Z) : outcome (aec * Z * bool) :=
  if (vt a <? QUARTER) && (v <? BOUND) then
    match fuel with
    | O => Hang
    | S f => bindo (get_next_bit a) (fun r => if snd r then Done (fst r, v, true) else norm_loop f (fst r) (v + 1))
    end
  else Done (a, v, false).

(** aec.cc:435-438: [while (t_rlps < QUARTER)]: scaled range and number of bits. *)
Fixpoint rlps_loop (fuel : nat) (t n : Z) : outcome (Z * Z) :=
  if t <? QUARTER then
    match fuel with O => Hang | S f => rlps_loop f (to_u32 (Z.shiftl t 1)) (n + 1) end
  else Done (t, n).

Definition in_r_domain (a : aec) : bool := domain a || ((s1 a =? BOUND) && bound a).
Definition less (x y : Z) : Z := if x <? y then 1 else 0.

(** aec.cc:391-468 [biari_decode_symbol]. *)
Definition decode_symbol (a : aec) (c : ctx) : outcome (aec * ctx * Z) :=
  let lgp := Z.shiftr (lg c) 2 in
  bindo (if in_r_domain a then
           bindo (norm_loop 300 (set_s1 a 0) 0) (fun r =>
           let '(a, v, e) := r in
           if e then Done (a, v, true)
           else Done (set_vt (set_bound a (vt a <? QUARTER)) (Z.land (vt a) 255), v, false))
         else Done (a, vs a, false)) (fun r =>
  let '(a, v, e) := r in
  if e then Done (a, c, 0)
  else if BOUND <? vs a then Done (set_vs (set_err a true) v, c, 0)
  else
    let flag := less (t1 a) lgp in
    let s2 := to_u32 (s1 a + flag) in
    let t2 := to_u32 (t1 a - lgp + Z.shiftl flag 8) in
    let lps := ((v <? s2) || ((s2 =? v) && (t2 <=? vt a))) && negb (bound a) in
    let a := set_domain a lps in
    if lps then
      let t_rlps := if flag =? 0 then lgp else to_u32 (t1 a + lgp) in
      bindo (if s2 =? v then Done (set_vt a (to_u32 (vt a - t2)), false)
             else bindo (get_next_bit a) (fun r =>
                  if snd r then Done r
                  else Done (set_vt (fst r) (to_u32 (vt (fst r) + 256 - t2)), false))) (fun r =>
      let '(a, e) := r in
      if e then Done (a, c, 0)
      else bindo (rlps_loop 10 t_rlps 0) (fun tn =>
      let '(t, n) := tn in
      bindo (if n =? 0 then Done (a, false) else get_next_n_bit a n) (fun r =>
      let '(a, e) := r in
      if e then Done (a, c, 0)
      else Done (set_vs (set_t1 (set_s1 a 0) (Z.land t 255)) v, update_ctx_lps c, 1 - mps c))))
    else Done (set_vs (set_t1 (set_s1 a s2) t2) v, update_ctx_mps c, mps c)).

(** aec.cc:474-512 [biari_decode_symbol_eq_prob]. *)
Definition decode_eq_prob (a : aec) : outcome (aec * Z) :=
  if in_r_domain a then
    let a := set_s1 a 0 in
    bindo (get_next_bit a) (fun r =>
    let '(a, e) := r in
    if e then Done (a, 0)
    else if to_u32 (256 + t1 a) <=? vt a then Done (set_vt a (to_u32 (vt a - to_u32 (256 + t1 a))), 1)
    else Done (a, 0))
  else
    let s2 := to_u32 (s1 a + 1) in
    let t2 := t1 a in
    let lps := (vs a <? s2) || (((s2 =? vs a) && (t2 <=? vt a)) && negb (bound a)) in
    let a := set_domain a lps in
    if lps then
      if s2 =? vs a then Done (set_vt a (to_u32 (vt a - t2)), 1)
      else bindo (get_next_bit a) (fun r =>
           if snd r then Done (fst r, 0)
           else Done (set_vt (fst r) (to_u32 (vt (fst r) + 256 - t2)), 1))
    else Done (set_t1 (set_s1 a s2) t2, 0).

(** aec.cc:517-584 [biari_decode_final]; here [i_value_s] is updated in place. *)
Fixpoint norm_loop_m (fuel : nat) (a : aec) : outcome (aec * bool) :=
  if (vt a <? QUARTER) && (vs a <? BOUND) then
    match fuel with
    | O => Hang
    | S f => bindo (get_next_bit a) (fun r => if snd r then Done r else norm_loop_m f (set_vs (fst r) (vs (fst r) + 1)))
    end
  else Done (a, false).
Definition norm_m (a : aec) : outcome (aec * bool) :=
  if in_r_domain a then
    bindo (norm_loop_m 300 (set_vs (set_s1 a 0) 0)) (fun r =>
    let '(a, e) := r in
    if e then Done (a, true)
    else Done (set_vt (set_bound a (vt a <? QUARTER)) (Z.land (vt a) 255), false))
  else Done (a, false).
Definition decode_final (a : aec) : outcome (aec * Z) :=
  bindo (norm_m a) (fun r =>
  let '(a, e) := r in
  if e then Done (a, 0)
  else
    let flag := less (t1 a) 1 in
    let s2 := to_u32 (s1 a + flag) in
    let t2 := to_u32 (t1 a - 1 + Z.shiftl flag 8) in
    let lps := ((vs a <? s2) || ((s2 =? vs a) && (t2 <=? vt a))) && negb (bound a) in
    let a := set_domain a lps in
    if lps then
      bindo (if s2 =? vs a then Done (set_vt a (to_u32 (vt a - t2)), false)
             else bindo (get_next_bit a) (fun r =>
                  if snd r then Done r
                  else Done (set_vt (fst r) (to_u32 (vt (fst r) + 256 - t2)), false))) (fun r =>
      let '(a, e) := r in
      if e then Done (a, 0)
      else bindo (rlps_loop 10 1 0) (fun tn =>
      bindo (if snd tn =? 0 then Done (a, false) else get_next_n_bit a (snd tn)) (fun r =>
      let '(a, e) := r in
      if e then Done (a, 0)
      else Done (set_t1 (set_s1 a 0) 0, 1))))
    else Done (set_t1 (set_s1 a s2) t2, 0)).

(** aec.cc:592-672 [biari_decode_symbol_continue0]: [v] is the local [i_value_s], [bit] the
    last symbol, [i] the loop counter. *)
Fixpoint continue0_loop (k : nat) (a : aec) (c : ctx) (v bit i : Z) : outcome (aec * ctx * Z) :=
  match k with
  | O => Done (set_vs a v, c, i - bit)
  | S k' =>
      if bit =? 1 then Done (set_vs a v, c, i - bit)
      else
        let lgp := Z.shiftr (lg c) 2 in
        bindo (if in_r_domain a then
                 bindo (norm_loop 300 (set_s1 a 0) 0) (fun r =>
                 let '(a, v, e) := r in
                 if e then Done (a, v, true)
                 else Done (set_vt (set_bound a (vt a <? QUARTER)) (Z.land (vt a) 255), v, false))
               else Done (a, v, false)) (fun r =>
        let '(a, v, e) := r in
        if e then Done (a, c, 0)
        else
          let flag := less (t1 a) lgp in
          let s2 := to_u32 (s1 a + flag) in
          let t2 := to_u32 (t1 a - lgp + Z.shiftl flag 8) in
          if BOUND <? v then Done (set_err a true, c, 0)
          else
            let lps := ((v <? s2) || ((s2 =? v) && (t2 <=? vt a))) && negb (bound a) in
            let a := set_domain a lps in
            if lps then
              let t_rlps := if flag =? 0 then lgp else to_u32 (t1 a + lgp) in
              bindo (if s2 =? v then Done (set_vt a (to_u32 (vt a - t2)), false)
                     else bindo (get_next_bit a) (fun r =>
                          if snd r then Done r
                          else Done (set_vt (fst r) (to_u32 (vt (fst r) + 256 - t2)), false))) (fun r =>
              let '(a, e) := r in
              if e then Done (a, c, 0)
              else bindo (rlps_loop 10 t_rlps 0) (fun tn =>
              let '(t, n) := tn in
              bindo (if n =? 0 then Done (a, false) else get_next_n_bit a n) (fun r =>
              let '(a, e) := r in
              if e then Done (a, c, 0)
              else continue0_loop k' (set_t1 (set_s1 a 0) (Z.land t 255)) (update_ctx_lps c) v (1 - mps c) (i + 1))))
            else continue0_loop k' (set_t1 (set_s1 a s2) t2) (update_ctx_mps c) v (mps c) (i + 1))
  end.
Definition continue0 (a : aec) (c : ctx) (max_num : Z) : outcome (aec * ctx * Z) :=
  continue0_loop (Z.to_nat max_num) a c (vs a) 0 0.

(** aec.cc:729-736: the range is scaled and one bit is requested per step. *)
Fixpoint rlps_read_loop (fuel : nat) (a : aec) (t : Z) : outcome (aec * Z * bool) :=
  if t <? QUARTER then
    match fuel with
    | O => Hang
    | S f => bindo (get_next_bit a) (fun r => if snd r then Done (fst r, t, true) else rlps_read_loop f (fst r) (to_u32 (Z.shiftl t 1)))
    end
  else Done (a, t, false).

(** aec.cc:677-755 [biari_decode_symbol_continu0_ext]; [cs] is the array of contexts. *)
Fixpoint continue0_ext_loop (k : nat) (a : aec) (cs : Z -> ctx) (max_inc bit i : Z) : outcome (aec * (Z -> ctx) * Z) :=
  match k with
  | O => Done (a, cs, i - bit)
  | S k' =>
      if bit =? 1 then Done (a, cs, i - bit)
      else
        let j := Z.min i max_inc in
        let c := cs j in
        let lgp := Z.shiftr (lg c) 2 in
        bindo (norm_m a) (fun r =>
        let '(a, e) := r in
        if e then Done (a, cs, 0)
        else
          let flag := less (t1 a) lgp in
          let s2 := to_u32 (s1 a + flag) in
          let t2 := to_u32 (t1 a - lgp + Z.shiftl flag 8) in
          if BOUND <? vs a then Done (set_err a true, cs, 0)
          else
            let lps := ((vs a <? s2) || ((s2 =? vs a) && (t2 <=? vt a))) && negb (bound a) in
            let a := set_domain a lps in
            if lps then
              let t_rlps := if flag =? 0 then lgp else to_u32 (t1 a + lgp) in
              bindo (if s2 =? vs a then Done (set_vt a (to_u32 (vt a - t2)), false)
                     else bindo (get_next_bit a) (fun r =>
                          if snd r then Done r
                          else Done (set_vt (fst r) (to_u32 (vt (fst r) + 256 - t2)), false))) (fun r =>
              let '(a, e) := r in
              if e then Done (a, cs, 0)
              else bindo (rlps_read_loop 10 a t_rlps) (fun r =>
              let '(a, t, e) := r in
              if e then Done (a, cs, 0)
              else continue0_ext_loop k' (set_t1 (set_s1 a 0) (Z.land t 255))
                     (fun x => if x =? j then update_ctx_lps c else cs x) max_inc (1 - mps c) (i + 1)))
            else continue0_ext_loop k' (set_t1 (set_s1 a s2) t2)
                   (fun x => if x =? j then update_ctx_mps c else cs x) max_inc (mps c) (i + 1))
  end.
Definition continue0_ext (a : aec) (cs : Z -> ctx) (max_inc max_num : Z) : outcome (aec * (Z -> ctx) * Z) :=
  continue0_ext_loop (Z.to_nat max_num) a cs max_inc 0 0.

(** aec.cc:356-379 [aec_start_decoding]; [b_val_bound], [i_byte_buf] keep their old values. *)
Definition start_decoding (data : list Z) (pos n : Z) (old_bound : bool) (old_buf : Z) : outcome aec :=
  bindo (get_next_n_bit {| buf := data; byte_buf := old_buf; byte_pos := pos; nbytes := n; btg := 0; err := false; bound := old_bound;
                           domain := true; s1 := 0; t1 := 255; vs := 0; vt := 0 |} 9) (fun r => Done (fst r)).
