(** Model of SPRT, the packet transport of V.150.1: src/sprt.c, src/spandsp/private/sprt.h and the limits of
    src/spandsp/sprt.h.

    A buffer slot (its part of [buff] and its [buff_len]) is an [option]: [None] is SPRT_LEN_SLOT_FREE.  The parts of
    [buff] that belong to different slots do not overlap as long as the payload limit of a channel is not changed while
    messages are in it, so that changing parameters is modelled for a context that has not been used.  An access
    outside an array is UB.  The timer handler, called with ~0, gives the present time, which is a parameter [now] of
    every call here (one call of the API reads the clock once).  During a delivery the application may set or clear the
    busy condition of any channel; what it does is taken from the list [script].  It does not send from within the
    callback.  Logging is left out.  Times are 64 bit numbers in C and unbounded here. *)
From Verif Require Import Base.
Local Open Scope Z_scope.

Definition oget {A} (l : list A) (i : Z) : res A :=
  if 0 <=? i then match nth_error l (Z.to_nat i) with Some x => Ok x | None => UB end else UB.
Definition oset {A} (l : list A) (i : Z) (x : A) : res (list A) :=
  if (0 <=? i) && (i <? Z.of_nat (length l)) then Ok (upd l (Z.to_nat i) x) else UB.

(** src/spandsp/private/sprt.h:170-175 *)
Definition SEQ_MASK : Z := 0x3FFF.
Definition FREE_TAG : Z := 0xFF.
(** src/spandsp/sprt.h:56 *)
Definition MAX_WINDOW : Z := 96.

Definition slot : Type := option (list Z).

(** src/spandsp/private/sprt.h:47-93, for reception *)
Record rxc := mkR { r_max : Z; r_win : Z; r_base : Z; r_in : Z; r_buf : list slot; r_busy : bool }.
(** src/spandsp/private/sprt.h:47-93, for transmission *)
Record txc := mkT { t_max : Z; t_win : Z; t_ta02_to : Z; t_tr03_to : Z; t_ta02 : Z; t_base : Z; t_q : Z; t_tries_max : Z;
  t_in : Z; t_out : Z; t_buf : list slot; t_tr03 : list Z; t_prev : list Z; t_next : list Z; t_tries : list Z;
  t_first : Z; t_last : Z }.

(** src/spandsp/private/sprt.h:95-135 *)
Record sprt := mkS { rx : Z -> rxc; tx : Z -> txc; rx_sub : Z; rx_pt : Z; tx_sub : Z; tx_pt : Z;
  acks : list Z; ta01_to : Z; ta01 : Z; immediate : bool; latest : Z; script : list (list (Z * bool)) }.

Inductive ev :=
| Packet (b : list Z)                         (* tx_packet_handler *)
| Deliver (ch seq : Z) (p : list Z)           (* rx_delivery_handler *)
| Status (code : Z)                           (* status_handler *)
| Timer (t : Z).                              (* timer_handler, setting the timeout *)
(** src/spandsp/sprt.h:72-78 *)
Definition EXCESS_RETRIES : Z := 1.
Definition SUBSESSION_CHANGED : Z := 2.
Definition OUT_OF_SEQUENCE : Z := 3.

(** ---- assignments to fields ---- *)
Definition w_rx (ch : Z) (c : rxc) (s : sprt) : sprt :=
  mkS (fun k => if k =? ch then c else rx s k) (tx s) (rx_sub s) (rx_pt s) (tx_sub s) (tx_pt s) (acks s) (ta01_to s) (ta01 s) (immediate s) (latest s) (script s).
Definition w_tx (ch : Z) (c : txc) (s : sprt) : sprt :=
  mkS (rx s) (fun k => if k =? ch then c else tx s k) (rx_sub s) (rx_pt s) (tx_sub s) (tx_pt s) (acks s) (ta01_to s) (ta01 s) (immediate s) (latest s) (script s).
Definition w_rx_sub (x : Z) (s : sprt) : sprt :=
  mkS (rx s) (tx s) x (rx_pt s) (tx_sub s) (tx_pt s) (acks s) (ta01_to s) (ta01 s) (immediate s) (latest s) (script s).
Definition w_acks (l : list Z) (t : Z) (s : sprt) : sprt :=
  mkS (rx s) (tx s) (rx_sub s) (rx_pt s) (tx_sub s) (tx_pt s) l (ta01_to s) t (immediate s) (latest s) (script s).
Definition w_ta01_to (t : Z) (s : sprt) : sprt :=
  mkS (rx s) (tx s) (rx_sub s) (rx_pt s) (tx_sub s) (tx_pt s) (acks s) t (ta01 s) (immediate s) (latest s) (script s).
Definition w_immediate (b : bool) (s : sprt) : sprt :=
  mkS (rx s) (tx s) (rx_sub s) (rx_pt s) (tx_sub s) (tx_pt s) (acks s) (ta01_to s) (ta01 s) b (latest s) (script s).
Definition w_latest (t : Z) (s : sprt) : sprt :=
  mkS (rx s) (tx s) (rx_sub s) (rx_pt s) (tx_sub s) (tx_pt s) (acks s) (ta01_to s) (ta01 s) (immediate s) t (script s).
Definition w_script (a : list (list (Z * bool))) (s : sprt) : sprt :=
  mkS (rx s) (tx s) (rx_sub s) (rx_pt s) (tx_sub s) (tx_pt s) (acks s) (ta01_to s) (ta01 s) (immediate s) (latest s) a.
Definition r_set (c : rxc) (base iptr : Z) (b : list slot) : rxc := mkR (r_max c) (r_win c) base iptr b (r_busy c).
Definition r_setbusy (c : rxc) (b : bool) : rxc := mkR (r_max c) (r_win c) (r_base c) (r_in c) (r_buf c) b.
Definition t_setbase (c : txc) (b : Z) : txc :=
  mkT (t_max c) (t_win c) (t_ta02_to c) (t_tr03_to c) (t_ta02 c) b (t_q c) (t_tries_max c) (t_in c) (t_out c) (t_buf c) (t_tr03 c)
      (t_prev c) (t_next c) (t_tries c) (t_first c) (t_last c).
Definition t_setta02 (c : txc) (t : Z) : txc :=
  mkT (t_max c) (t_win c) (t_ta02_to c) (t_tr03_to c) t (t_base c) (t_q c) (t_tries_max c) (t_in c) (t_out c) (t_buf c) (t_tr03 c)
      (t_prev c) (t_next c) (t_tries c) (t_first c) (t_last c).
Definition t_setq (c : txc) (q : Z) : txc :=
  mkT (t_max c) (t_win c) (t_ta02_to c) (t_tr03_to c) (t_ta02 c) (t_base c) q (t_tries_max c) (t_in c) (t_out c) (t_buf c) (t_tr03 c)
      (t_prev c) (t_next c) (t_tries c) (t_first c) (t_last c).
(** the buffer, its pointers and the timers of its slots *)
Definition t_setbuf (c : txc) (i o : Z) (b : list slot) (tr tries : list Z) : txc :=
  mkT (t_max c) (t_win c) (t_ta02_to c) (t_tr03_to c) (t_ta02 c) (t_base c) (t_q c) (t_tries_max c) i o b tr
      (t_prev c) (t_next c) tries (t_first c) (t_last c).
(** the queue of the timers *)
Definition t_setqueue (c : txc) (f l : Z) (pv nx : list Z) : txc :=
  mkT (t_max c) (t_win c) (t_ta02_to c) (t_tr03_to c) (t_ta02 c) (t_base c) (t_q c) (t_tries_max c) (t_in c) (t_out c) (t_buf c) (t_tr03 c)
      pv nx (t_tries c) f l.

(** ---- src/sprt.c:161-222 update_timer ---- *)
(** the earlier of a timer, if it is running, and the time found so far; [None] is the greatest number *)
Definition sooner (sh : option Z) (t : Z) : option Z :=
  if t =? 0 then sh else match sh with None => Some t | Some x => if t <? x then Some t else sh end.
Definition chan_sooner (s : sprt) (sh : option Z) (ch : Z) : res (option Z) :=
  let c := tx s ch in
  let sh := sooner sh (t_ta02 c) in
  if t_first c =? FREE_TAG then Ok sh else do t <- aget (t_tr03 c) (t_first c); Ok (sooner sh t).
Definition update_timer (s : sprt) : res (sprt * list ev) :=
  do t <- (if immediate s then Ok 1
           else do sh <- chan_sooner s (sooner None (ta01 s)) 1;
                do sh <- chan_sooner s sh 2;
                Ok (match sh with None => 0 | Some x => x end));
  Ok (w_latest t s, [Timer t]).

(** ---- src/sprt.c:225-255 delete_timer_queue_entry ---- *)
Definition delete_entry (c : txc) (sl : Z) : res txc :=
  if (t_first c =? FREE_TAG) || (sl =? FREE_TAG) then Ok c
  else
    do c <- (if t_first c =? sl then do n <- aget (t_next c) sl; Ok (t_setqueue c n (t_last c) (t_prev c) (t_next c))
             else do p <- aget (t_prev c) sl; do n <- aget (t_next c) sl; do nx <- aset (t_next c) p n;
                  Ok (t_setqueue c (t_first c) (t_last c) (t_prev c) nx));
    do c <- (if t_last c =? sl then do p <- aget (t_prev c) sl; Ok (t_setqueue c (t_first c) p (t_prev c) (t_next c))
             else do n <- aget (t_next c) sl; do p <- aget (t_prev c) sl; do pv <- aset (t_prev c) n p;
                  Ok (t_setqueue c (t_first c) (t_last c) pv (t_next c)));
    do pv <- aset (t_prev c) sl FREE_TAG;
    do nx <- aset (t_next c) sl FREE_TAG;
    Ok (t_setqueue c (t_first c) (t_last c) pv nx).

(** ---- src/sprt.c:258-273 add_timer_queue_last_entry ---- *)
Definition add_last (c : txc) (sl : Z) : res txc :=
  do c <- (if t_last c =? FREE_TAG then Ok (t_setqueue c (u8 sl) (t_last c) (t_prev c) (t_next c))
           else do nx <- aset (t_next c) (t_last c) (u8 sl); Ok (t_setqueue c (t_first c) (t_last c) (t_prev c) nx));
  do pv <- aset (t_prev c) sl (t_last c);
  do nx <- aset (t_next c) sl FREE_TAG;
  Ok (t_setqueue c (t_first c) (u8 sl) pv nx).

(** src/spandsp/unaligned.h put_net_unaligned_uint16, get_net_unaligned_uint16 *)
Definition put16 (x : Z) : list Z := [u8 (Z.shiftr (u16 x) 8); u8 x].
Definition get16 (l : list Z) (i : Z) : res Z := do a <- aget l i; do b <- aget l (i + 1); Ok (Z.lor (Z.shiftl a 8) b).

(** ---- src/sprt.c:276-324 build_and_send_packet; the packet is made in a buffer of SPRT_MAX_PACKET_BYTES ---- *)
Definition build_and_send (s : sprt) (ch seq : Z) (payload : list Z) : res (sprt * list ev) :=
  let noa := Z.of_nat (length (acks s)) in
  let p := [u8 (tx_sub s); u8 (tx_pt s)] ++ put16 (Z.lor (Z.shiftl ch 14) (Z.land seq SEQ_MASK)) ++
           put16 (Z.lor (Z.shiftl noa 14) (r_base (rx s ch))) ++ concat (map put16 (acks s)) ++ payload in
  if 12 + 256 <? Z.of_nat (length p) then UB
  else
    let s := if noa =? 0 then s else w_acks [] 0 s in
    do (s, e) <- update_timer s;
    Ok (s, Packet p :: e).

(** ---- src/sprt.c:327-379 queue_acknowledgement ---- *)
Definition queue_ack (s : sprt) (now ch seq : Z) : res (sprt * list ev) :=
  do (s, e) <- (if 3 <=? Z.of_nat (length (acks s)) then build_and_send s ch 0 [] else Ok (s, []));
  let entry := u16 (Z.lor (Z.shiftl ch 14) seq) in
  if existsb (fun x => x =? entry) (acks s) then Ok (s, e)
  else
    let l := acks s ++ [entry] in
    if Z.of_nat (length l) =? 1 then
      do (s, e') <- update_timer (w_acks l (now + ta01_to s) s); Ok (s, e ++ e')
    else
      let s := w_acks l (ta01 s) s in
      if 3 <=? Z.of_nat (length l) then do (s, e') <- build_and_send s ch 0 []; Ok (s, e ++ e')
      else Ok (s, e).

(** ---- src/sprt.c:382-438 retransmit_the_unacknowledged ---- *)
(** Every turn uses up one of the tries of a slot; the fuel is their number and one more. *)
Fixpoint retransmit_loop (fuel : nat) (s : sprt) (ch now : Z) (sent : bool) : res (sprt * list ev * bool) :=
  match fuel with
  | O => UB
  | S k =>
      let c := tx s ch in
      let first := t_first c in
      if first =? FREE_TAG then Ok (s, [], sent)
      else
        do t <- aget (t_tr03 c) first;
        if now <? t then Ok (s, [], sent)
        else
          let diff := t_in c - first in
          let diff := if diff <? 0 then diff + t_win c else diff in
          let seq := u16 (t_q c - diff) in
          do b <- oget (t_buf c) first;
          do (s, e, sent) <- (match b with
                              | Some p => do (s, e) <- build_and_send s ch seq p; Ok (s, e, true)
                              | None => Ok (s, [], sent)
                              end);
          do c <- delete_entry (tx s ch) first;
          do r <- aget (t_tries c) first;
          do tr <- aset (t_tries c) first (u8 (r - 1));
          let c := t_setbuf c (t_in c) (t_out c) (t_buf c) (t_tr03 c) tr in
          do (c, e') <- (if u8 (r - 1) <=? 0 then Ok (c, [Status EXCESS_RETRIES])
                         else
                           do t <- aget (t_tr03 c) first;
                           do tm <- aset (t_tr03 c) first (t + t_tr03_to c);
                           do c <- add_last (t_setbuf c (t_in c) (t_out c) (t_buf c) tm (t_tries c)) first;
                           Ok (c, []));
          do (s, e'', sent) <- retransmit_loop k (w_tx ch c s) ch now sent;
          Ok (s, e ++ e' ++ e'', sent)
  end.
Definition reliable (ch : Z) : bool := (1 <=? ch) && (ch <=? 2).
Definition retransmit (s : sprt) (ch now : Z) : res (sprt * list ev * bool) :=
  if reliable ch then retransmit_loop (S (Z.to_nat (fold_right Z.add 0 (t_tries (tx s ch))))) s ch now false
  else Ok (s, [], false).

(** ---- src/sprt.c:441-532 process_acknowledgements ---- *)
(** src/sprt.c:481-495; at most the whole window is gone round *)
Fixpoint skip_acked (fuel : nat) (c : txc) (ptr : Z) : res Z :=
  match fuel with
  | O => UB
  | S k =>
      let ptr := if t_win c <=? ptr + 1 then 0 else ptr + 1 in
      if ptr =? t_in c then Ok ptr
      else do b <- oget (t_buf c) ptr; match b with None => skip_acked k c ptr | Some _ => Ok ptr end
  end.
Definition process_ack (c : txc) (sqn : Z) : res txc :=
  let diff := Z.land (t_q c - sqn) SEQ_MASK in
  if diff <? t_win c then
    let sl := t_in c - diff in
    let sl := if sl <? 0 then sl + t_win c else sl in
    do b <- oget (t_buf c) sl;
    match b with
    | None => Ok c
    | Some _ =>
        do buf <- oset (t_buf c) sl None;
        do tm <- aset (t_tr03 c) sl 0;
        do c <- delete_entry (t_setbuf c (t_in c) (t_out c) buf tm (t_tries c)) sl;
        if sl =? t_out c then
          do o <- skip_acked (S (Z.to_nat (t_win c))) c (t_out c);
          Ok (t_setbuf c (t_in c) o (t_buf c) (t_tr03 c) (t_tries c))
        else Ok c
    end
  else Ok c.
Fixpoint process_acks (s : sprt) (l : list (Z * Z)) : res sprt :=
  match l with
  | [] => Ok s
  | (tcn, sqn) :: t =>
      do s <- (if reliable tcn then do c <- process_ack (tx s tcn) sqn; Ok (w_tx tcn c s) else Ok s);
      process_acks s t
  end.

(** ---- src/sprt.c:1170-1190 sprt_set_local_busy ---- *)
Definition set_local_busy (s : sprt) (ch : Z) (busy : bool) : res (sprt * list ev) :=
  if reliable ch then
    let previous := r_busy (rx s ch) in
    let s := w_rx ch (r_setbusy (rx s ch) busy) s in
    if previous && negb busy then update_timer (w_immediate true s) else Ok (s, [])
  else Ok (s, []).
(** What the application does during a delivery. *)
Fixpoint busy_calls (s : sprt) (l : list (Z * bool)) : res (sprt * list ev) :=
  match l with
  | [] => Ok (s, [])
  | (ch, b) :: t => do (s, e) <- set_local_busy s ch b; do (s, e') <- busy_calls s t; Ok (s, e ++ e')
  end.
Definition delivery (s : sprt) (ch seq : Z) (p : list Z) : res (sprt * list ev) :=
  match script s with
  | [] => Ok (s, [Deliver ch seq p])
  | l :: rest => do (s, e) <- busy_calls (w_script rest s) l; Ok (s, Deliver ch seq p :: e)
  end.

(** src/sprt.c:544-564 and 816-835: delivery of what follows; each turn frees a slot *)
Definition next_ptr (win p : Z) : Z := if win <=? p + 1 then 0 else p + 1.
Fixpoint deliver_loop (fuel : nat) (s : sprt) (ch iptr : Z) : res (sprt * list ev * Z) :=
  match fuel with
  | O => UB
  | S k =>
      do b <- oget (r_buf (rx s ch)) iptr;
      match b with
      | None => Ok (s, [], iptr)
      | Some p =>
          if r_busy (rx s ch) then Ok (s, [], iptr)
          else
            do (s, e) <- delivery s ch (r_base (rx s ch)) p;
            let c := rx s ch in
            do buf <- oset (r_buf c) iptr None;
            let s := w_rx ch (r_set c (Z.land (r_base c + 1) SEQ_MASK) (r_in c) buf) s in
            do (s, e', iptr) <- deliver_loop k s ch (next_ptr (r_win c) iptr);
            Ok (s, e ++ e', iptr)
      end
  end.
Definition deliver_following (s : sprt) (ch iptr : Z) : res (sprt * list ev) :=
  do (s, e, iptr) <- deliver_loop (S (length (r_buf (rx s ch)))) s ch iptr;
  let c := rx s ch in
  Ok (w_rx ch (r_set c (r_base c) iptr (r_buf c)) s, e).
(** src/sprt.c:535-568 sprt_deliver *)
Definition sprt_deliver (s : sprt) : res (sprt * list ev) :=
  do (s, e) <- deliver_following s 1 (r_in (rx s 1));
  do (s, e') <- deliver_following s 2 (r_in (rx s 2));
  Ok (s, e ++ e').

(** ---- src/sprt.c:571-646 sprt_timer_expired ---- *)
Definition expire_chan (s : sprt) (ch now : Z) (sent : bool) : res (sprt * list ev * bool) :=
  do (s, e, was) <- retransmit s ch now;
  do (s, e', was) <-
    (if t_ta02 (tx s ch) =? 0 then Ok (s, [], was)
     else
       do (s, e', was) <- (if (t_ta02 (tx s ch) <=? now) && negb was then do (s, e') <- build_and_send s ch 0 []; Ok (s, e', true)
                           else Ok (s, [], was));
       Ok (if was then w_tx ch (t_setta02 (tx s ch) (now + t_ta02_to (tx s ch))) s else s, e', was));
  Ok (s, e ++ e', sent || was).
Definition sprt_timer_expired (s : sprt) (now : Z) : res (sprt * list ev) :=
  if now <? latest s then Ok (s, [Timer (latest s)])
  else
    do (s, e1) <- (if immediate s then sprt_deliver (w_immediate false s) else Ok (s, []));
    do (s, e2, sent) <- expire_chan s 1 now false;
    do (s, e3, sent) <- expire_chan s 2 now sent;
    do (s, e4) <- (if negb sent && negb (ta01 s =? 0) && (ta01 s <=? now) then
                     match acks s with [] => Ok (s, []) | _ => build_and_send s 0 0 [] end
                   else Ok (s, []));
    do (s, e5) <- update_timer s;
    Ok (s, e1 ++ e2 ++ e3 ++ e4 ++ e5).

(** ---- src/sprt.c:655-900 sprt_rx_packet ---- *)
Fixpoint read_acks (pkt : list Z) (n : nat) (i : Z) : res (list (Z * Z)) :=
  match n with
  | O => Ok []
  | S k => do a <- aget pkt i; do w <- get16 pkt i; do t <- read_acks pkt k (i + 2);
           Ok ((Z.land (Z.shiftr a 6) 3, Z.land w SEQ_MASK) :: t)
  end.
(** src/sprt.c:779-897: a payload; it is not longer than the channel allows *)
Definition rx_payload (s : sprt) (now ch seq : Z) (p : list Z) : res (sprt * list ev) :=
  if reliable ch then
    if seq =? r_base (rx s ch) then
      let iptr := r_in (rx s ch) in
      do (s, e) <- queue_ack s now ch seq;
      if r_busy (rx s ch) then
        do buf <- oset (r_buf (rx s ch)) iptr (Some p);
        Ok (w_rx ch (r_set (rx s ch) (r_base (rx s ch)) (r_in (rx s ch)) buf) s, e)
      else
        do (s, e') <- delivery s ch seq p;
        let c := rx s ch in
        do buf <- oset (r_buf c) iptr None;
        let s := w_rx ch (r_set c (Z.land (r_base c + 1) SEQ_MASK) (r_in c) buf) s in
        do (s, e'') <- deliver_following s ch (next_ptr (r_win c) iptr);
        Ok (s, e ++ e' ++ e'')
    else
      let diff := Z.land (seq - r_base (rx s ch)) SEQ_MASK in
      if diff <? r_win (rx s ch) then
        do (s, e) <- queue_ack s now ch seq;
        let iptr := r_in (rx s ch) + diff in
        let iptr := if r_win (rx s ch) <=? iptr then iptr - r_win (rx s ch) else iptr in
        do buf <- oset (r_buf (rx s ch)) iptr (Some p);
        Ok (w_rx ch (r_set (rx s ch) (r_base (rx s ch)) (r_in (rx s ch)) buf) s, e)
      else if 2 * MAX_WINDOW <? diff then
        do (s, e) <- queue_ack s now ch seq; Ok (s, e ++ [Status OUT_OF_SEQUENCE])
      else Ok (s, [])
  else delivery s ch seq p.
(** The result is 0 or -1.  [pkt] is the memory of the [len] octets of the packet. *)
Definition sprt_rx_packet (s : sprt) (now : Z) (pkt : list Z) : res (sprt * list ev * Z) :=
  let len := Z.of_nat (length pkt) in
  if len <? 6 then Ok (s, [], -1)
  else
    do p0 <- aget pkt 0; do p1 <- aget pkt 1;
    if negb (Z.land (Z.shiftr p0 7) 1 =? 0) || negb (Z.land (Z.shiftr p1 7) 1 =? 0) then Ok (s, [], -1)
    else if negb (Z.land p1 0x7F =? rx_pt s) then Ok (s, [], -1)
    else
      let sub := Z.land p0 0x7F in
      if negb (rx_sub s =? 0xFF) && negb (sub =? rx_sub s) then Ok (s, [Status SUBSESSION_CHANGED], -1)
      else
        let s := if rx_sub s =? 0xFF then w_rx_sub sub s else s in
        do p2 <- aget pkt 2; do p4 <- aget pkt 4;
        do w2 <- get16 pkt 2; do w4 <- get16 pkt 4;
        let ch := Z.land (Z.shiftr p2 6) 3 in
        let seq := Z.land w2 SEQ_MASK in
        let noa := Z.land (Z.shiftr p4 6) 3 in
        let s := w_tx ch (t_setbase (tx s ch) (Z.land w4 SEQ_MASK)) s in
        if len <? 6 + 2 * noa then Ok (s, [], -1)
        else
          do l <- read_acks pkt (Z.to_nat noa) 6;
          do s <- process_acks s l;
          let hlen := 6 + 2 * noa in
          let plen := len - hlen in
          if (0 <? plen) && (plen <=? r_max (rx s ch)) then
            do (s, e) <- rx_payload s now ch seq (skipn (Z.to_nat hlen) pkt); Ok (s, e, 0)
          else Ok (s, [], 0).

(** ---- src/sprt.c:903-975 sprt_tx ---- *)
Definition sprt_tx (s : sprt) (now ch : Z) (p : list Z) : res (sprt * list ev * Z) :=
  if (ch <? 0) || (3 <? ch) then Ok (s, [], -1)
  else
    let c := tx s ch in
    let len := Z.of_nat (length p) in
    if (len <=? 0) || (t_max c <? len) then Ok (s, [], -1)
    else if reliable ch then
      let iptr := t_in c in
      let real := t_out c - iptr - 1 in
      let real := if real <? 0 then real + t_win c else real in
      if real <? 1 then Ok (s, [], -1)
      else
        do buf <- oset (t_buf c) iptr (Some p);
        let seq := t_q c in
        do tm <- aset (t_tr03 c) iptr (now + t_tr03_to c);
        do tr <- aset (t_tries c) iptr (t_tries_max c);
        let c := t_setq (t_setbuf c (t_in c) (t_out c) buf tm tr) (Z.land (t_q c + 1) SEQ_MASK) in
        do c <- add_last c iptr;
        let c := t_setbuf c (next_ptr (t_win c) iptr) (t_out c) (t_buf c) (t_tr03 c) (t_tries c) in
        let c := t_setta02 c (now + t_ta02_to c) in
        do (s, e) <- build_and_send (w_tx ch c s) ch seq p;
        Ok (s, e, 0)
    else if ch =? 0 then do (s, e) <- build_and_send s ch 0 p; Ok (s, e, 0)
    else
      do (s, e) <- build_and_send s ch (t_q c) p;
      Ok (w_tx ch (t_setq (tx s ch) (Z.land (t_q (tx s ch) + 1) SEQ_MASK)) s, e, 0).

(** ---- src/sprt.c:1205-1327 sprt_init; all the handlers are given ---- *)
(** src/sprt.c:68-102 channel_parm_limits: payload octets from, to, window from, to *)
Definition limits (ch : Z) : Z * Z * Z * Z :=
  if ch =? 1 then (132, 256, 32, 96) else if ch =? 2 then (132, 256, 8, 32) else (140, 256, 1, 1).
(** src/sprt.c:104-134 default_channel_parms: payload octets, window, TA01, TA02, TR03 *)
Definition defaults (ch : Z) : Z * Z * Z * Z * Z :=
  if ch =? 1 then (132, 32, 90000, 130000, 500000) else if ch =? 2 then (132, 8, 90000, 500000, 500000) else (140, 1, -1, -1, -1).
(** the number of slots, src/spandsp/private/sprt.h:147-163 *)
Definition slots (ch : Z) : nat := if ch =? 1 then 97 else if ch =? 2 then 33 else 0.
(** src/sprt.c:1225-1250: whether given parameters (payload octets, window) are acceptable *)
Definition parms_ok (parms : Z -> Z * Z) : bool :=
  forallb (fun ch => let '(p, w) := parms ch in let '(a, b, c, d) := limits ch in
                     (a <=? p) && (p <=? b) && (c <=? w) && (w <=? d)) [0; 1; 2; 3].
(** [None] is a NULL return.  The buffer lengths beyond the greatest window stay at 0 (the memset) instead of
    SPRT_LEN_SLOT_FREE, and so do the links beyond it instead of the tag; they are never used. *)
Definition sprt_init (sub rxpt txpt : Z) (parms : option (Z -> Z * Z)) : option sprt :=
  if match parms with None => true | Some f => parms_ok f end then
    Some (mkS
      (fun ch => let '(p, w, _, _, _) := defaults ch in mkR p w 0 0 (repeat None (slots ch)) false)
      (fun ch => let '(p, w, _, a2, r3) := defaults ch in
         mkT p w a2 r3 0 0 0 10 0 0 (repeat None (slots ch)) (repeat 0 (slots ch))
             (repeat FREE_TAG 96) (repeat FREE_TAG 96) (repeat 0 96) FREE_TAG FREE_TAG)
      0xFF rxpt sub txpt [] 90000 0 false 0 [])
  else None.

(** ---- src/sprt.c:978-1135: the parameters; [None] is a -1 return ---- *)
Inductive setting :=
| LocalWindow (ch size : Z) | LocalPayload (ch size : Z) | MaxTries (ch n : Z)
| FarWindow (ch size : Z) | FarPayload (ch size : Z) | Timeout (ch timer t : Z).
Definition set_parm (s : sprt) (x : setting) : option sprt :=
  match x with
  | LocalWindow ch n =>
      let '(_, _, lo, hi) := limits ch in
      if reliable ch && (lo <=? n) && (n <=? hi) then
        let c := rx s ch in Some (w_rx ch (mkR (r_max c) n (r_base c) (r_in c) (r_buf c) (r_busy c)) s) else None
  | LocalPayload ch n =>
      let '(lo, hi, _, _) := limits ch in
      if (0 <=? ch) && (ch <=? 3) && (lo <=? n) && (n <=? hi) then
        let c := rx s ch in Some (w_rx ch (mkR n (r_win c) (r_base c) (r_in c) (r_buf c) (r_busy c)) s) else None
  | MaxTries ch n =>
      if reliable ch && (1 <=? n) && (n <=? 20) then
        let c := tx s ch in
        Some (w_tx ch (mkT (t_max c) (t_win c) (t_ta02_to c) (t_tr03_to c) (t_ta02 c) (t_base c) (t_q c) n (t_in c) (t_out c) (t_buf c) (t_tr03 c)
                           (t_prev c) (t_next c) (t_tries c) (t_first c) (t_last c)) s) else None
  | FarWindow ch n =>
      let '(_, _, lo, hi) := limits ch in
      if reliable ch && (lo <=? n) && (n <=? hi) then
        let c := tx s ch in
        Some (w_tx ch (mkT (t_max c) n (t_ta02_to c) (t_tr03_to c) (t_ta02 c) (t_base c) (t_q c) (t_tries_max c) (t_in c) (t_out c) (t_buf c) (t_tr03 c)
                           (t_prev c) (t_next c) (t_tries c) (t_first c) (t_last c)) s) else None
  | FarPayload ch n =>
      let '(lo, hi, _, _) := limits ch in
      if (0 <=? ch) && (ch <=? 3) && (lo <=? n) && (n <=? hi) then
        let c := tx s ch in
        Some (w_tx ch (mkT n (t_win c) (t_ta02_to c) (t_tr03_to c) (t_ta02 c) (t_base c) (t_q c) (t_tries_max c) (t_in c) (t_out c) (t_buf c) (t_tr03 c)
                           (t_prev c) (t_next c) (t_tries c) (t_first c) (t_last c)) s) else None
  | Timeout ch timer t =>
      if timer =? 0 then if (0 <=? ch) && (ch <=? 3) then Some (w_ta01_to t s) else None
      else if timer =? 1 then
        if reliable ch then
          let c := tx s ch in
          Some (w_tx ch (mkT (t_max c) (t_win c) t (t_tr03_to c) (t_ta02 c) (t_base c) (t_q c) (t_tries_max c) (t_in c) (t_out c) (t_buf c) (t_tr03 c)
                             (t_prev c) (t_next c) (t_tries c) (t_first c) (t_last c)) s) else None
      else if timer =? 2 then
        if reliable ch then
          let c := tx s ch in
          Some (w_tx ch (mkT (t_max c) (t_win c) (t_ta02_to c) t (t_ta02 c) (t_base c) (t_q c) (t_tries_max c) (t_in c) (t_out c) (t_buf c) (t_tr03 c)
                             (t_prev c) (t_next c) (t_tries c) (t_first c) (t_last c)) s) else None
      else None
  end.
