(** Model of the bit error rate tester: src/bert.c. The state of src/spandsp/private/bert.h is split into what bert_init lays down
    (cfg), the transmitter, and the receiver with the results. A reporter is always set; what it is told is the list of events. *)
From Verif Require Import Base.
Local Open Scope Z_scope.

(** src/bert.c:51 *)
Definition MEASUREMENT_STEP : Z := 100.
(** src/bert.c:52-53 *)
Definition qbf : list Z := [86; 111; 121; 101; 90; 32; 76; 101; 32; 66; 114; 105; 99; 75; 32; 71; 101; 97; 110; 84; 32; 81; 117; 69; 32; 74; 39; 69; 120; 97; 109; 105; 110; 69; 32; 80; 114; 101; 83; 32; 68; 117; 32; 87; 104; 97; 114; 70; 32; 49; 50; 51; 32; 52; 53; 54; 32; 55; 56; 57; 48; 32; 43; 32; 45; 32; 42; 32; 58; 32; 61; 32; 36; 32; 37; 32; 40; 32; 41; 84; 104; 69; 32; 81; 117; 105; 99; 75; 32; 66; 114; 111; 119; 78; 32; 70; 111; 88; 32; 74; 117; 109; 112; 83; 32; 79; 118; 101; 82; 32; 84; 104; 69; 32; 76; 97; 122; 89; 32; 68; 111; 71; 32; 49; 50; 51; 32; 52; 53; 54; 32; 55; 56; 57; 48; 32; 43; 32; 45; 32; 42; 32; 58; 32; 61; 32; 36; 32; 37; 32; 40; 32; 41].
(** src/spandsp/bert.h:56-65: Rate i is BERT_REPORT_GT_10_2 + i - 2 *)
Inductive event := Synced | Unsynced | Regular | Rate (i : Z).
(** the parts of the state set by the pattern: src/bert.c:416-509 *)
Record pat := { cls : Z; reg0 : Z; mask : Z; shift : Z; shift2 : Z; max_zeros : Z; invert : Z; resync_time : Z }.
Definition fixed (r : Z) : pat := {| cls := 0; reg0 := r; mask := 0; shift := 0; shift2 := 31; max_zeros := 0; invert := 0; resync_time := 72 |}.
Definition prbs (r m a b z v t : Z) : pat := {| cls := 1; reg0 := r; mask := m; shift := a; shift2 := b; max_zeros := z; invert := v; resync_time := t |}.
Definition O151_23 : pat := prbs 0x7FFFFF 0x20 5 22 0 1 56.
Definition O151_20 : pat := prbs 0xFFFFF 0x8 3 19 14 1 50.
Definition O151_15 : pat := prbs 0x7FFF 0x2 1 14 0 1 40.
Definition O152_11 : pat := prbs 0x7FF 0x4 2 10 0 0 32.
Definition O153_9 : pat := prbs 0x1FF 0x10 4 8 0 0 28.
Definition QBF : pat := {| cls := 2; reg0 := 0; mask := 0; shift := 0; shift2 := 0; max_zeros := 0; invert := 0; resync_time := 72 |}.
(** src/spandsp/bert.h:75-87, src/bert.c:418-509; other numbers leave zeros *)
Definition pattern (n : Z) : pat :=
  if n =? 0 then fixed 0 else if n =? 1 then fixed 0xFFFFFFFF else if n =? 2 then fixed 0xFEFEFEFE else if n =? 3 then fixed 0xEEEEEEEE else if n =? 4 then fixed 0xAAAAAAAA
  else if n =? 5 then fixed 0x11111111 else if n =? 6 then fixed 0x01010101 else if n =? 7 then QBF else if n =? 8 then O151_23 else if n =? 9 then O151_20
  else if n =? 10 then O151_15 else if n =? 11 then O152_11 else if n =? 12 then O153_9
  else {| cls := 0; reg0 := 0; mask := 0; shift := 0; shift2 := 0; max_zeros := 0; invert := 0; resync_time := 72 |}.
(** what bert_init (src/bert.c:395-549) and bert_set_report (src/bert.c:385-392) are given. resync_len is above INT_MIN. *)
Record cfg := { pt : pat; limit : Z; freq : Z; resync_len : Z; resync_percent : Z }.

(** an int that is counted up *)
Definition inc (x : Z) : res Z := if x <? 2147483647 then Ok (x + 1) else UB.

(** ---- the transmitter ---- *)
Record tx := { t_reg : Z; t_step : Z; t_bit : Z; t_bits : Z; t_zeros : Z }.
Definition tx_init (p : pat) : tx := {| t_reg := reg0 p; t_step := 0; t_bit := 0; t_bits := 0; t_zeros := 0 |}.
(** the shift register: src/bert.c:98, 102 *)
Definition rotate (b r : Z) : Z := Z.lor (Z.shiftr r 1) (Z.shiftl (Z.land r 1) b).
Definition feed (a b r : Z) : Z := Z.lor (Z.shiftr r 1) (Z.shiftl (Z.land (Z.lxor r (Z.shiftr r a)) 1) b).
(** bert_get_bit: src/bert.c:86-145. -7 is SIG_STATUS_END_OF_DATA. *)
Definition get_bit (c : cfg) (s : tx) : res (tx * Z) :=
  let p := pt c in
  if negb (limit c =? 0) && (limit c <=? t_bits s) then Ok (s, -7) else
  do (s1, bit) <-
    (if cls p =? 0 then
       Ok ({| t_reg := rotate (shift2 p) (t_reg s); t_step := t_step s; t_bit := t_bit s; t_bits := t_bits s; t_zeros := t_zeros s |}, Z.land (t_reg s) 1)
     else if cls p =? 1 then
       let bit := Z.land (t_reg s) 1 in
       let '(z, bit) := if max_zeros p =? 0 then (t_zeros s, bit)
                        else if negb (bit =? 0) then (if max_zeros p <? t_zeros s + 1 then (0, Z.lxor bit 1) else (t_zeros s + 1, bit))
                        else (0, bit) in
       Ok ({| t_reg := feed (shift p) (shift2 p) (t_reg s); t_step := t_step s; t_bit := t_bit s; t_bits := t_bits s; t_zeros := z |}, Z.lxor bit (invert p))
     else
       do (r, st, b) <-
         (if t_bit s =? 0 then
            do ch <- aget (qbf ++ [0]) (t_step s);
            if ch =? 0 then Ok (86, 1, 7) else Ok (ch, t_step s + 1, 7)
          else Ok (t_reg s, t_step s, t_bit s));
       Ok ({| t_reg := Z.shiftr r 1; t_step := st; t_bit := b - 1; t_bits := t_bits s; t_zeros := t_zeros s |}, Z.land r 1));
  do n <- inc (t_bits s1);
  Ok ({| t_reg := t_reg s1; t_step := t_step s1; t_bit := t_bit s1; t_bits := n; t_zeros := t_zeros s1 |}, bit).
(** the calls of an application that takes n bits *)
Fixpoint gets (c : cfg) (s : tx) (n : nat) : res (tx * list Z) :=
  match n with
  | O => Ok (s, [])
  | S n => do (s, b) <- get_bit c s; do (s, l) <- gets c s n; Ok (s, b :: l)
  end.

(** ---- the receiver ---- *)
(** decade_ptr, decade_bad, error_rate *)
Record dec := { ptrs : list Z; bads : list (list Z); rate : Z }.
Record rx := { reg : Z; ref_reg : Z; step : Z; step_bit : Z; resync : Z; bits : Z; zeros : Z; bad_bits : Z; cnt : Z; countdown : Z; mstep : Z; decs : dec }.
Record results := { total : Z; bad : Z; resyncs : Z }.
Definition state : Type := rx * results.
Definition row_get (l : list (list Z)) (i : Z) : res (list Z) := if (0 <=? i) && (i <? Z.of_nat (length l)) then Ok (nth (Z.to_nat i) l []) else UB.
Definition row_set (l : list (list Z)) (i j x : Z) : res (list (list Z)) := do r <- row_get l i; do r <- aset r j x; Ok (upd l (Z.to_nat i) r).
(** bert_init: src/bert.c:517-544. bert_set_report follows it. *)
Definition rx_init (c : cfg) : state :=
  ({| reg := reg0 (pt c); ref_reg := reg0 (pt c); step := 0; step_bit := 0; resync := 1; bits := 0; zeros := 0; bad_bits := 0; cnt := resync_len c; countdown := freq c;
      mstep := MEASUREMENT_STEP; decs := {| ptrs := repeat 0 9; bads := repeat (repeat 0 10) 9; rate := 8 |} |}, {| total := 0; bad := 0; resyncs := 0 |}).

(** assess_error_rate: src/bert.c:148-207. The loop goes over is; at its end i is 8. The sums are of at most 10^8 bits. *)
Definition sum (l : list Z) : Z := fold_right Z.add 0 l.
Fixpoint assess (is : list Z) (test : bool) (d : dec) : res (dec * list event) :=
  match is with
  | [] =>
    do p8 <- aget (ptrs d) 8;
    do ps <- (if 10 <=? p8 then aset (ptrs d) 8 0 else Ok (ptrs d));
    if test then Ok ({| ptrs := ps; bads := bads d; rate := 8 |}, if rate d =? 8 then [] else [Rate 8])
    else Ok ({| ptrs := ps; bads := bads d; rate := rate d |}, [])
  | i :: t =>
    do c <- aget (ptrs d) i;
    do ps <- aset (ptrs d) i (c + 1);
    if c + 1 <? 10 then do b <- row_set (bads d) i (c + 1) 0; Ok ({| ptrs := ps; bads := b; rate := rate d |}, [])
    else
      do ps <- aset ps i 0;
      do r <- row_get (bads d) i;
      let over := test && (10 <? sum r) in
      do b <- row_set (bads d) i 0 0;
      do b <- (if i <? 7 then do k <- aget ps (i + 1); row_set b (i + 1) k (sum r) else Ok b);
      do (d', e) <- assess t (test && negb over) {| ptrs := ps; bads := b; rate := if over then i else rate d |};
      Ok (d', (if over && negb (rate d =? i) then [Rate i] else []) ++ e)
  end.

(** src/bert.c:223-255: patterns of 32 bits. 1 << 31 is taken to be the highest bit of the register, as compilers do. *)
Definition put0 (c : cfg) (s : state) (bit : Z) : res (state * list event) :=
  let '(r, x) := s in
  let p := pt c in
  if negb (resync r =? 0) then
    let g := Z.lor (Z.shiftr (reg r) 1) (Z.shiftl bit (shift2 p)) in
    let f := rotate (shift2 p) (ref_reg r) in
    let '(f, n, e) := if g =? f then (if resync_time p <? resync r + 1 then (f, 0, [Synced]) else (f, resync r + 1, [])) else (reg0 p, 2, []) in
    Ok (({| reg := g; ref_reg := f; step := step r; step_bit := step_bit r; resync := n; bits := bits r; zeros := zeros r; bad_bits := bad_bits r; cnt := cnt r;
            countdown := countdown r; mstep := mstep r; decs := decs r |}, x), e)
  else
    do t <- inc (total x);
    do b <- (if Z.land (Z.lxor bit (ref_reg r)) 1 =? 0 then Ok (bad x) else inc (bad x));
    Ok (({| reg := reg r; ref_reg := rotate (shift2 p) (ref_reg r); step := step r; step_bit := step_bit r; resync := resync r; bits := bits r; zeros := zeros r;
            bad_bits := bad_bits r; cnt := cnt r; countdown := countdown r; mstep := mstep r; decs := decs r |}, {| total := t; bad := b; resyncs := resyncs x |}), []).

(** src/bert.c:256-337: pseudo-random patterns. decade_bad[2][..] counts bits of the last hundred. *)
Definition put1 (c : cfg) (s : state) (bit : Z) : res (state * list event) :=
  let '(r, x) := s in
  let p := pt c in
  let next g := feed (shift p) (shift2 p) g in
  let want := Z.land (Z.shiftr (reg r) (shift p)) 1 in
  if negb (resync r =? 0) then
    let '(g, n, e) := if bit =? want then (if resync_time p <? resync r + 1 then (reg r, 0, [Synced]) else (reg r, resync r + 1, [])) else (Z.lxor (reg r) (mask p), 2, []) in
    Ok (({| reg := next g; ref_reg := ref_reg r; step := step r; step_bit := step_bit r; resync := n; bits := bits r; zeros := zeros r; bad_bits := bad_bits r; cnt := cnt r;
            countdown := countdown r; mstep := mstep r; decs := decs r |}, x), e)
  else
    do t <- inc (total x);
    let '(z, bit) := if max_zeros p =? 0 then (zeros r, bit)
                     else if negb (Z.land (reg r) (mask p) =? 0) then (if max_zeros p <? zeros r + 1 then (0, Z.lxor bit 1) else (zeros r + 1, bit))
                     else (0, bit) in
    do (b, rb, d) <-
      (if bit =? want then Ok (bad x, bad_bits r, decs r)
       else do b <- inc (bad x); do rb <- inc (bad_bits r); do k <- aget (ptrs (decs r)) 2; do row <- row_get (bads (decs r)) 2; do v <- aget row k;
            do bs <- row_set (bads (decs r)) 2 k (v + 1); Ok (b, rb, {| ptrs := ptrs (decs r); bads := bs; rate := rate (decs r) |}));
    do (m, d, e) <- (if mstep r - 1 <=? 0 then do (d, e) <- assess [2; 3; 4; 5; 6; 7] true d; Ok (MEASUREMENT_STEP, d, e) else Ok (mstep r - 1, d, []));
    do (n, cn, rb, rs, e') <-
      (if cnt r - 1 <=? 0 then
         let lim := resync_len c * resync_percent c in
         if (lim <? -2147483648) || (2147483647 <? lim) then UB
         else if Z.quot lim 100 <=? rb then do rs <- inc (resyncs x); Ok (1, resync_len c, 0, rs, [Unsynced]) else Ok (0, resync_len c, 0, resyncs x, [])
       else Ok (0, cnt r - 1, rb, resyncs x, []));
    Ok (({| reg := next (reg r); ref_reg := ref_reg r; step := step r; step_bit := step_bit r; resync := n; bits := bits r; zeros := z; bad_bits := rb; cnt := cn;
            countdown := countdown r; mstep := m; decs := d |}, {| total := t; bad := b; resyncs := rs |}), e ++ e').

(** src/bert.c:338-357: the text *)
Definition put2 (c : cfg) (s : state) (bit : Z) : res (state * list event) :=
  let '(r, x) := s in
  let g := Z.lor (Z.shiftr (reg r) 1) (Z.shiftl bit 6) in
  do (st, sb, b) <-
    (if step_bit r + 1 =? 7 then
       do ch <- aget (qbf ++ [0]) (step r);
       do b <- (if g =? ch then Ok (bad x) else inc (bad x));
       do ch <- aget (qbf ++ [0]) (step r + 1);
       Ok (if ch =? 0 then 0 else step r + 1, 0, b)
     else Ok (step r, step_bit r + 1, bad x));
  do t <- inc (total x);
  Ok (({| reg := g; ref_reg := ref_reg r; step := st; step_bit := sb; resync := resync r; bits := bits r; zeros := zeros r; bad_bits := bad_bits r; cnt := cnt r;
          countdown := countdown r; mstep := mstep r; decs := decs r |}, {| total := t; bad := b; resyncs := resyncs x |}), []).

(** bert_put_bit: src/bert.c:210-373 *)
Definition w_bits (n : Z) (r : rx) : rx :=
  {| reg := reg r; ref_reg := ref_reg r; step := step r; step_bit := step_bit r; resync := resync r; bits := n; zeros := zeros r; bad_bits := bad_bits r; cnt := cnt r;
     countdown := countdown r; mstep := mstep r; decs := decs r |}.
Definition w_countdown (n : Z) (r : rx) : rx :=
  {| reg := reg r; ref_reg := ref_reg r; step := step r; step_bit := step_bit r; resync := resync r; bits := bits r; zeros := zeros r; bad_bits := bad_bits r; cnt := cnt r;
     countdown := n; mstep := mstep r; decs := decs r |}.
Definition put_bit (c : cfg) (s : state) (bit : Z) : res (state * list event) :=
  if bit <? 0 then Ok (s, [])
  else
    let bit := Z.lxor (Z.land bit 1) (invert (pt c)) in
    do n <- inc (bits (fst s));
    let s := (w_bits n (fst s), snd s) in
    do (s, e) <- (if cls (pt c) =? 0 then put0 c s bit else if cls (pt c) =? 1 then put1 c s bit else put2 c s bit);
    if 0 <? freq c then
      if countdown (fst s) - 1 <=? 0 then Ok ((w_countdown (freq c) (fst s), snd s), e ++ [Regular])
      else Ok ((w_countdown (countdown (fst s) - 1) (fst s), snd s), e)
    else Ok (s, e).
Fixpoint puts (c : cfg) (s : state) (l : list Z) : res (state * list event) :=
  match l with
  | [] => Ok (s, [])
  | b :: t => do (s, e) <- put_bit c s b; do (s, e') <- puts c s t; Ok (s, e ++ e')
  end.
