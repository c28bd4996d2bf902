(** Model of the Ademco Contact ID protocol of alarm panels: src/ademco_contactid.c.

    Characters are their codes; a string is the list of its characters without the final 0.  decode_msg() is modelled for
    strings of DTMF digits, all of which become hexadecimal digits for sscanf().  dtmf_rx() delivers digits one at a time
    (src/dtmf.c:324-332).  The Goertzel filters are not modelled: what they find in a block of 55 samples ([hit] of
    src/ademco_contactid.c:918-937: 1 for 1400Hz, 2 for 2300Hz, 0 for neither) is an argument.  dtmf_tx() gives 880 samples
    for each digit, and here gives the digits themselves, each when it begins.  The tones receiver_tx() sends, logging and
    allocation are left out. *)
From Verif Require Import Base.
Local Open Scope Z_scope.

(** src/spandsp/ademco_contactid.h:289-297 *)
Record report := { acct : Z; mt : Z; q : Z; xyz : Z; gg : Z; ccc : Z }.

(** ---- sprintf("%0wX", v) for an int: 8 digits of its 32 bits, without the zeros in front but for the width ---- *)
Definition hex_digit (d : Z) : Z := if d <? 10 then 48 + d else 55 + d.
Fixpoint hex (n : nat) (v : Z) : list Z :=
  match n with
  | O => []
  | S k => hex_digit (v / 16 ^ Z.of_nat k mod 16) :: hex k v
  end.
Fixpoint strip (w : nat) (l : list Z) : list Z :=
  match l with
  | x :: t => if (x =? 48) && (w <? length l)%nat then strip w t else l
  | [] => []
  end.
Definition print_hex (w : nat) (v : Z) : list Z := strip w (hex 8 (u32 v)).
(** src/ademco_contactid.c:475: 'D', '*', '#', 'A', 'B', 'C' *)
Definition remap : list Z := [68; 42; 35; 65; 66; 67].
(** src/ademco_contactid.c:478-498: the loop of encode_msg: buf afterwards, and the sum, or None for return -1 *)
Fixpoint encode_loop (l : list Z) : res (list Z * option Z) :=
  match l with
  | [] => Ok ([], Some 0)
  | c :: t =>
      if c =? 65 then Ok (l, None)
      else
        do (c', x) <- (if 57 <? c then do m <- aget remap (c - 55 - 10); Ok (m, c - 55) else Ok (c, if c - 48 =? 0 then 10 else c - 48));
        do (t', sum) <- encode_loop t;
        Ok (c' :: t', match sum with None => None | Some sum => Some (x + sum) end)
  end.
Definition printed (r : report) : list Z :=
  print_hex 4 (acct r) ++ print_hex 2 (mt r) ++ print_hex 1 (q r) ++ print_hex 3 (xyz r) ++ print_hex 2 (gg r) ++ print_hex 3 (ccc r).
(** src/ademco_contactid.c:470-510 encode_msg; [size] is that of buf; what is in buf, and the length returned *)
Definition encode_msg (size : Z) (r : report) : res (list Z * Z) :=
  let s := printed r in
  if size <=? Z.of_nat (length s) then UB
  else
    do (l, e) <- encode_loop s;
    match e with
    | None => Ok (l, -1)
    | Some sum =>
        let sum := (sum + 15) / 15 * 15 - sum in
        do c <- (if sum =? 0 then Ok 67 else if sum <=? 9 then Ok (sum + 48) else aget remap (sum - 10));
        if size <=? Z.of_nat (length l) + 1 then UB else Ok (l ++ [c], Z.of_nat (length l) + 1)
    end.
(** src/ademco_contactid.c:523-552 *)
Definition to_hex (c : Z) : Z :=
  if c =? 42 then 66 else if c =? 35 then 67 else if c =? 65 then 68 else if c =? 66 then 69 else if c =? 67 then 70
  else if c =? 68 then 65 else c.
(** src/ademco_contactid.c:553-566 *)
Definition weight (x : Z) : Z := if 57 <? x then x - (66 - 11) else if x =? 48 then 10 else x - 48.
Definition checksum (l : list Z) : Z := fold_left (fun s c => s + weight (to_hex c)) l 0.
(** sscanf("%0wx"): at most [w] digits, at least one *)
Definition hex_value (x : Z) : Z := if 57 <? x then x - 55 else x - 48.
Definition scan (w : nat) (l : list Z) : option (Z * list Z) :=
  match l with
  | [] => None
  | _ => Some (fold_left (fun v x => v * 16 + hex_value x) (firstn w l) 0, skipn w l)
  end.
Definition scan_report (l : list Z) : option report :=
  match scan 4 l with None => None | Some (a, l) =>
  match scan 2 l with None => None | Some (m, l) =>
  match scan 1 l with None => None | Some (k, l) =>
  match scan 3 l with None => None | Some (x, l) =>
  match scan 2 l with None => None | Some (g, l) =>
  match scan 3 l with None => None | Some (c, _) =>
    Some {| acct := a; mt := m; q := k; xyz := x; gg := g; ccc := c |}
  end end end end end end.
(** src/ademco_contactid.c:513-577 decode_msg; buf2 has 20 characters *)
Definition decode_msg (l : list Z) : res (option report) :=
  if 20 <=? Z.of_nat (length l) then UB
  else if negb (Z.rem (checksum l) 15 =? 0) then Ok None
  else Ok (scan_report (map to_hex l)).

(** ---- the receiver: rx_digits has 17 characters ---- *)
(** src/ademco_contactid.c:754-777 dtmf_digit_delivery; the reports given to the callback are returned *)
Definition digit_delivery (rx : list Z) (digits : list Z) : res (list Z * list report) :=
  if 17 <? Z.of_nat (length (rx ++ digits)) then UB
  else if (length (rx ++ digits) =? 16)%nat then
    do r <- decode_msg (rx ++ digits);
    Ok ([], match r with Some r => [r] | None => [] end)
  else Ok (rx ++ digits, []).
Fixpoint receive (rx : list Z) (l : list Z) : res (list Z * list report) :=
  match l with
  | [] => Ok (rx, [])
  | d :: t => do (rx, e) <- digit_delivery rx [d]; do (rx, e') <- receive rx t; Ok (rx, e ++ e')
  end.

(** ---- the sender ---- *)
(** what it tells: src/ademco_contactid.c:1006 (-1), and the end of a message *)
Inductive told := Ready | Done (good : bool).
Record sender := { step : Z; silence : Z; cur : Z; tones : list Z; tx_digits : list Z; tx_len : Z; tries : Z; tone_state : Z; duration : Z;
                   last_hit : Z; in_tone : Z; cts : bool; timer : Z; busy : bool }.
Definition w_tx (a b c : Z) (d : list Z) (k : bool) (s : sender) : sender :=
  {| step := a; silence := b; cur := c; tones := d; tx_digits := tx_digits s; tx_len := tx_len s; tries := tries s; tone_state := tone_state s; duration := duration s;
     last_hit := last_hit s; in_tone := in_tone s; cts := k; timer := timer s; busy := busy s |}.
Definition w_state (x i : Z) (s : sender) : sender :=
  {| step := step s; silence := silence s; cur := cur s; tones := tones s; tx_digits := tx_digits s; tx_len := tx_len s; tries := tries s; tone_state := x; duration := duration s;
     last_hit := last_hit s; in_tone := i; cts := cts s; timer := timer s; busy := busy s |}.
Definition w_duration (x : Z) (s : sender) : sender :=
  {| step := step s; silence := silence s; cur := cur s; tones := tones s; tx_digits := tx_digits s; tx_len := tx_len s; tries := tries s; tone_state := tone_state s; duration := x;
     last_hit := last_hit s; in_tone := in_tone s; cts := cts s; timer := timer s; busy := busy s |}.
Definition w_hit (x : Z) (s : sender) : sender :=
  {| step := step s; silence := silence s; cur := cur s; tones := tones s; tx_digits := tx_digits s; tx_len := tx_len s; tries := tries s; tone_state := tone_state s; duration := duration s;
     last_hit := x; in_tone := in_tone s; cts := cts s; timer := timer s; busy := busy s |}.
Definition w_timer (t n : Z) (s : sender) : sender :=
  {| step := step s; silence := silence s; cur := cur s; tones := tones s; tx_digits := tx_digits s; tx_len := tx_len s; tries := n; tone_state := tone_state s; duration := duration s;
     last_hit := last_hit s; in_tone := in_tone s; cts := cts s; timer := t; busy := busy s |}.
Definition w_msg (d : list Z) (n : Z) (b : bool) (s : sender) : sender :=
  {| step := step s; silence := silence s; cur := cur s; tones := tones s; tx_digits := d; tx_len := n; tries := tries s; tone_state := tone_state s; duration := duration s;
     last_hit := last_hit s; in_tone := in_tone s; cts := cts s; timer := timer s; busy := b |}.
Definition w_cts (b : bool) (s : sender) : sender := w_tx (step s) (silence s) (cur s) (tones s) b s.
Definition ms (x : Z) : Z := x * 8.
Definition BLOCK : Z := 55.
(** src/dtmf.c:598-619 dtmf_tx_put: the queue holds 128 digits; a length below 0 is that of the string.  true is a return of 0. *)
Definition dtmf_put (l : list Z) (n : Z) (s : sender) : sender * bool :=
  let l := if n <? 0 then l else firstn (Z.to_nat n) l in
  if Z.of_nat (length (tones s) + length l) <=? 128 then (w_tx (step s) (silence s) (cur s) (tones s ++ l) (cts s) s, true) else (s, false).
(** src/ademco_contactid.c:1134-1144 ademco_contactid_sender_put; true is a return of 0 *)
Definition sender_put (s : sender) (r : report) : res (sender * bool) :=
  if busy s then Ok (s, false)
  else
    do (l, n) <- encode_msg 17 r;
    if n <? 0 then Ok (w_msg l n false s, false) else Ok (dtmf_put l n (w_msg l n true s)).
(** src/dtmf.c:123: the digits 0-9, A-D, star and hash *)
Definition is_dtmf (c : Z) : bool := ((48 <=? c) && (c <=? 57)) || ((65 <=? c) && (c <=? 68)) || (c =? 42) || (c =? 35).
(** src/dtmf.c:550-595 dtmf_tx: the samples made, what is left of the digit and of the queue, and the digits begun *)
Fixpoint dtmf_fill (n : Z) (l : list Z) : Z * Z * list Z * list Z :=
  match l with
  | [] => (0, 0, [], [])
  | d :: t =>
      if n <=? 0 then (0, 0, l, [])
      else if negb (is_dtmf d) then dtmf_fill n t
      else if n <? 880 then (n, 880 - n, t, [d])
      else let '(k, c, t', e) := dtmf_fill (n - 880) t in (880 + k, c, t', d :: e)
  end.
Definition dtmf_tx (n c : Z) (l : list Z) : Z * Z * list Z * list Z :=
  if n <=? c then (n, c - n, l, [])
  else let '(k, c', l', e) := dtmf_fill (n - c) l in (c + k, c', l', e).
(** src/ademco_contactid.c:829-872 ademco_contactid_sender_tx, from step 2; [sample] samples are there.  After a turn which is not
    the last all digits are sent. *)
Definition send_digits (s : sender) (sample max : Z) : sender * Z * list Z :=
  let '(k, c, l, e) := dtmf_tx (max - sample) (cur s) (tones s) in
  if sample + k <? max then (w_tx 0 (silence s) c l false s, sample + k, e)
  else (w_tx 2 (silence s) c l (cts s) s, sample + k, e).
Definition send_silence (s : sender) (max : Z) : sender * Z * list Z :=
  let k := Z.min (silence s) max in
  let s := w_tx 1 (silence s - k) (cur s) (tones s) (cts s) s in
  if 0 <? silence s then (s, k, [])
  else if k <? max then send_digits (w_tx 2 (silence s) (cur s) (tones s) (cts s) s) k max
  else (w_tx 2 (silence s) (cur s) (tones s) (cts s) s, k, []).
Definition sender_tx (s : sender) (max : Z) : sender * Z * list Z :=
  if max <=? 0 then (s, 0, [])
  else if step s =? 0 then
    if cts s then send_silence (w_tx 1 (ms 250) (cur s) (tones s) false s) max else (s, 0, [])
  else if step s =? 1 then send_silence s max
  else send_digits s 0 max.
(** src/ademco_contactid.c:1046-1059, 1090-1101: another try, or the end *)
Definition another_try (state : Z) (s : sender) : sender * list told :=
  let n := tries s + 1 in
  if n <? 4 then (w_state state (in_tone s) (w_timer (ms 3000) n (fst (dtmf_put (tx_digits s) (tx_len s) s))), [])
  else (w_timer 0 n s, [Done false]).
Definition in_time (s : sender) (lo hi : Z) : bool := negb (duration s <? ms lo) && negb (ms hi <? duration s).
(** src/ademco_contactid.c:938-1079: something has changed to [hit].  [next] is the message that the callback puts when told
    of success. *)
Definition changed (s : sender) (hit : Z) (next : option report) : res (sender * list told) :=
  match tone_state s with
  | 0 => Ok (if hit =? 1 then w_duration 0 (w_state 1 hit s) else s, [])
  | 1 => Ok (if hit =? 0 then w_duration 0 (w_state (if in_time s 70 130 then 2 else 0) hit s) else s, [])
  | 2 =>
      Ok (w_duration 0 (if negb (in_time s 70 130) then w_state 0 hit s else if hit =? 2 then w_state 3 hit s else w_state 0 0 s), [])
  | 3 =>
      if hit =? 0 then
        if in_time s 70 130 then
          let s := w_timer (timer s) 0 (w_cts true (w_state 4 hit s)) in
          let s := if tx_len s =? 0 then s else w_timer (ms 3000) 0 s in
          Ok (w_duration 0 s, [Ready])
        else Ok (w_duration 0 (w_state 0 hit s), [])
      else Ok (s, [])
  | 4 => Ok (if hit =? 1 then w_duration 0 (w_state 5 hit s) else s, [])
  | 5 =>
      if hit =? 0 then
        let s := w_msg (tx_digits s) (tx_len s) false s in
        if in_time s 400 1500 then
          let s := w_msg (tx_digits s) 0 false (w_cts true s) in
          do s <- match next with Some r => do (s, _) <- sender_put s r; Ok s | None => Ok s end;
          let s := w_timer (timer s) 0 (w_cts true (w_state 4 hit s)) in
          let s := if tx_len s =? 0 then s else w_timer (ms 3000) 0 s in
          Ok (w_duration 0 s, [Done true])
        else
          let '(s, e) := another_try 4 s in
          Ok (w_duration 0 (w_state (tone_state s) hit s), e)
      else Ok (s, [])
  | _ => Ok (s, [])
  end.
(** src/ademco_contactid.c:916-1107: one block of ademco_contactid_sender_rx *)
Definition sender_block (s : sender) (hit : Z) (next : option report) : res (sender * list told) :=
  do (s, e) <- (if negb (hit =? in_tone s) && (hit =? last_hit s) then changed s hit next else Ok (s, []));
  let s := w_duration (duration s + BLOCK) (w_hit hit s) in
  if 0 <? timer s then
    let s := w_timer (timer s - BLOCK) (tries s) s in
    if (timer s <=? 0) && (tone_state s =? 4) && negb (tx_len s =? 0) then
      let '(s, e') := another_try 4 s in Ok (s, e ++ e')
    else Ok (s, e)
  else Ok (s, e).
(** src/ademco_contactid.c:1162-1197 *)
Definition sender_init : sender :=
  {| step := 0; silence := ms 100; cur := 0; tones := []; tx_digits := []; tx_len := 0; tries := 0; tone_state := 0; duration := 0; last_hit := 0; in_tone := 0;
     cts := false; timer := 0; busy := false |}.
(** calls of the sender *)
Inductive call := Put (r : report) | Tx (n : Z) | Block (hit : Z) (next : option report).
Inductive seen := Told (t : told) | Sent (l : list Z) | Refused.
Definition do_call (s : sender) (c : call) : res (sender * list seen) :=
  match c with
  | Put r => do (s, b) <- sender_put s r; Ok (s, if b then [] else [Refused])
  | Tx n => let '(s, _, l) := sender_tx s n in Ok (s, match l with [] => [] | _ => [Sent l] end)
  | Block h x => do (s, e) <- sender_block s h x; Ok (s, map Told e)
  end.
Fixpoint calls (s : sender) (l : list call) : res (sender * list seen) :=
  match l with
  | [] => Ok (s, [])
  | c :: t => do (s, e) <- do_call s c; do (s, e') <- calls s t; Ok (s, e ++ e')
  end.
