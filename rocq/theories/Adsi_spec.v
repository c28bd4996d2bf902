(** What an ADSI (caller ID) link carries, stated on bits, octets and fields. *)
From Verif Require Import Base Crc_spec Adsi_model.

(** ---- driving the API ---- *)

(** The modem takes bits until the transmitter says there are no more. *)
Fixpoint line (fuel : nat) (s : tx) : res (tx * list Z) :=
  match fuel with
  | O => UB
  | S k =>
    do (s, b) <- adsi_tx_get_bit s;
    if b <? 0 then Ok (s, [])
    else do (s, l) <- line k s; Ok (s, b :: l)
  end.
(** A receiver given bits, octets or digits one after another; the messages it delivers. *)
Fixpoint feed {A} (f : rx -> A -> res (rx * list (list Z))) (s : rx) (l : list A) : res (rx * list (list Z)) :=
  match l with
  | [] => Ok (s, [])
  | b :: t => do (s, e) <- f s b; do (s, e') <- feed f s t; Ok (s, e ++ e')
  end.
(** One message after another from a transmitter to a receiver. *)
Fixpoint session (fuel : nat) (t : tx) (r : rx) (ms : list (list Z)) : res (tx * rx * list (list Z)) :=
  match ms with
  | [] => Ok (t, r, [])
  | m :: ms =>
    do (t, ret, _) <- adsi_tx_put_message t m (Z.of_nat (length m));
    if negb (ret =? Z.of_nat (length m)) then UB
    else
      do (t, l) <- line fuel t;
      do (r, e) <- feed adsi_rx_put_bit r l;
      do (t, r, e') <- session fuel t r ms;
      Ok (t, r, e ++ e')
  end.

(** An application putting a message together in a buffer: the message type, then the fields. *)
Fixpoint add_fields (s : tx) (buf : list Z) (len : Z) (fs : list (Z * list Z)) : res (tx * list Z * Z) :=
  match fs with
  | [] => Ok (s, buf, len)
  | (ty, body) :: fs => do (s, buf, len) <- adsi_add_field s buf len ty body; add_fields s buf len fs
  end.
Definition build (s : tx) (buf : list Z) (ty : Z) (fs : list (Z * list Z)) : res (list Z) :=
  do (_, buf, len) <- add_fields s buf 0 ((ty, []) :: fs);
  aslice buf 0 len.
(** An application taking a message to pieces; [None] if it is told that the message is corrupt. *)
Fixpoint parse_from (fuel : nat) (std : Z) (msg : list Z) (pos : Z) : res (option (list (Z * list Z))) :=
  match fuel with
  | O => UB
  | S k =>
    do f <- adsi_next_field std msg (Z.of_nat (length msg)) pos;
    if f_ret f =? -1 then Ok (Some [])
    else if f_ret f <? 0 then Ok None
    else
      do body <- (if f_off f <? 0 then Ok [] else aslice msg (f_off f) (f_len f));
      do r <- parse_from k std msg (f_ret f);
      Ok (match r with Some l => Some ((f_type f, body) :: l) | None => None end)
  end.
Definition parse (std : Z) (msg : list Z) : res (option (list (Z * list Z))) :=
  parse_from (S (S (length msg))) std msg 0.

(** ---- what should come out ---- *)

(** The message as the receiving application gets it.  Bellcore/ETSI: the second octet is the length of what follows.
    J-CLIP: the whole frame but for the CRC. *)
Definition with_length (m : list Z) : list Z :=
  match m with a :: _ :: t => a :: Z.of_nat (length t) :: t | _ => m end.
Definition jclip_frame (m : list Z) : list Z :=
  match m with a :: _ :: t => [0x10; 0x01; 0x07; 0x10; 0x02; a; Z.of_nat (length t)] ++ t ++ [0x10; 0x03] | _ => m end.

(** Messages the transmitter takes. *)
Definition good_msg (m : list Z) : Prop := bytes m /\ (2 <= length m)%nat /\ Z.of_nat (length m) <= 255.
Definition seven (b : Z) : Prop := 0 <= b < 128.
Definition good_jmsg (m : list Z) : Prop :=
  Forall seven m /\ (2 <= length m)%nat /\ Z.of_nat (length m) <= 119 /\ length m <> 18%nat.

(** Settings of the line signal: not more than eleven stop bits, and if there are alternating bits first, enough ones
    after them for the receiver to find the first character. *)
Definition good_amble (pre ones post stop : Z) : Prop :=
  0 <= pre /\ 0 <= ones /\ 0 <= post /\ pre + ones + post < 2 ^ 29 /\ stop <= 11 /\ 0 <= stop /\ (pre = 0 \/ 20 <= ones).

(** A receiver between messages. *)
Definition at_rest (s : rx) : Prop :=
  r_bit_pos s = 0 /\ r_prog s = 0 /\ r_len s = 0 /\ length (r_msg s) = 256%nat /\ 0 <= r_ones s < 2 ^ 30.

(** [carries l m]: between two messages the line bits [l] carry the characters [m] - start bit, eight data bits, stop
    bit - with any number of ones and of characters without a stop bit around them. *)
Inductive carries : list bool -> list Z -> Prop :=
| carries_nil : carries [] []
| carries_one l m : carries l m -> carries (l ++ [true]) m
| carries_char l m b : byte b -> carries l m -> carries (l ++ false :: bits_lsb 8 b ++ [true]) (m ++ [b])
| carries_bad l m b : byte b -> carries l m -> carries (l ++ false :: bits_lsb 8 b ++ [false]) m.

Fixpoint total (l : list Z) : Z := match l with [] => 0 | a :: t => a + total t end.
(** A Bellcore/ETSI message with its sum check. *)
Definition summed (m : list Z) (c : Z) : Prop :=
  nth 1 m 0 = Z.of_nat (length m) - 2 /\ (total m + c) mod 256 = 0.
(** A J-CLIP frame [f] as sent, with its CRC, delivered as [m]. *)
Definition jclip_sent (f m : list Z) : Prop :=
  exists h c, f = h ++ c /\ length c = 2%nat /\ m = map (fun b => b mod 128) h /\ nth 0 f 0 = 0x90 /\
    nth 6 m 0 = Z.of_nat (length m) - 9 /\ crc16 (skipn 2 f) 0 = 0.

(** What comes with a message [m] on the line. *)
Definition proper (std : Z) (f m : list Z) : Prop :=
  if std =? JCLIP then jclip_sent f m else exists c, f = m ++ [c] /\ summed m c.
(** The bits among what the receiver was given; reports are no bits. *)
Definition zbits (l : list Z) : list bool := map Z.odd (filter (fun z => 0 <=? z) l).

(** ---- fields ---- *)
(** Sets of fields each standard can carry. *)
Definition body_size (fs : list (Z * list Z)) : Z := fold_right (fun f n => 2 + Z.of_nat (length (snd f)) + n) 0 fs.
Definition mdmf_field (f : Z * list Z) : Prop :=
  1 <= fst f < 256 /\ bytes (snd f) /\ Z.of_nat (length (snd f)) < 256 /\ length (snd f) <> 16%nat.
Definition mdmf (ty : Z) (fs : list (Z * list Z)) : Prop :=
  128 <= ty < 256 /\ Forall mdmf_field fs /\ 2 + body_size fs <= 255.
Definition sdmf (ty : Z) (fs : list (Z * list Z)) : Prop :=
  0 <= ty < 128 /\ exists body, fs = [(0, body)] /\ bytes body /\ body <> [] /\ 2 + Z.of_nat (length body) <= 255.
(** J-CLIP: seven bit octets, no 0x10 in a body, and the whole not just 16 octets. *)
Definition jclip_field (f : Z * list Z) : Prop := seven (fst f) /\ Forall (fun b => seven b /\ b <> 16) (snd f).
Definition jclip_size (fs : list (Z * list Z)) : Z :=
  fold_right (fun f n => (if fst f =? 16 then 2 else 1) + (if Z.of_nat (length (snd f)) =? 16 then 2 else 1) + Z.of_nat (length (snd f)) + n) 0 fs.
Definition jclip (ty : Z) (fs : list (Z * list Z)) : Prop :=
  seven ty /\ ty <> 16 /\ Forall jclip_field fs /\ jclip_size fs <= 117 /\ jclip_size fs <> 16.
(** DTMF: '#' or 'C' ends the message; a field is a letter and decimal digits, and the letter may be left out of the
    first. *)
Definition decimal (c : Z) : Prop := 48 <= c <= 57.
Definition dtmf_field (f : Z * list Z) : Prop :=
  0 < fst f < 256 /\ ~ decimal (fst f) /\ fst f <> 35 /\ fst f <> 67 /\ Forall decimal (snd f).
Definition dtmf (ty : Z) (fs : list (Z * list Z)) : Prop :=
  (ty = 35 \/ ty = 67) /\
  match fs with
  | [] => False
  | f :: t => (dtmf_field f \/ (fst f = 0 /\ snd f <> [] /\ Forall decimal (snd f))) /\ Forall dtmf_field t
  end.
Definition dtmf_size (fs : list (Z * list Z)) : Z := fold_right (fun f n => (if fst f =? 0 then 0 else 1) + Z.of_nat (length (snd f)) + n) 1 fs.

(** ---- TDD text ---- *)
(** What a character becomes: capitals, digits, some signs, space, CR and LF; anything else is left out. *)
Definition tdd_char (c : Z) : list Z :=
  if (97 <=? c) && (c <=? 122) then [c - 32]
  else if (65 <=? c) && (c <=? 90) || (48 <=? c) && (c <=? 58)
          || existsb (Z.eqb c) [10; 13; 32; 35; 36; 39; 40; 41; 42; 43; 44; 45; 46; 47; 61; 63] then [c]
  else [].
Definition tdd_text (l : list Z) : list Z := flat_map tdd_char l.
(** The modem takes [n] characters from a TDD transmitter. *)
Fixpoint tdd_line (n : nat) (s : tx) : res (tx * list Z) :=
  match n with
  | O => Ok (s, [])
  | S k => do (s, b) <- adsi_tdd_get_async_byte s; do (s, l) <- tdd_line k s; Ok (s, b :: l)
  end.
(** Texts sent one after another, the carrier going down after each: every text is encoded in a buffer of [room] octets
    and handed over once the one before has gone; the modem then takes [n] characters. *)
Fixpoint tdd_session (room n : nat) (t : tx) (r : rx) (texts : list (list Z)) : res (tx * rx * list (list Z)) :=
  match texts with
  | [] => Ok (t, r, [])
  | x :: texts =>
    do (t, buf, len) <- adsi_add_field t (repeat 0 room) 0 0 x;
    do (t, ret, _) <- adsi_tx_put_message t buf len;
    if negb (ret =? len) then UB
    else
      do (t, l) <- tdd_line n t;
      do (r, e) <- feed adsi_tdd_put_async_byte r (l ++ [CARRIER_DOWN]);
      do (t, r, e') <- tdd_session room n t r texts;
      Ok (t, r, e ++ e')
  end.
(** Text for a TDD: seven bit, with something in it that can be sent, and short enough for one message. *)
Definition tdd_ok (x : list Z) : Prop := Forall seven x /\ tdd_text x <> [] /\ (length x <= 127)%nat.
Definition letter (c : Z) : Prop := 65 <= c <= 90 \/ 97 <= c <= 122.
Definition ends_in_letter (x : list Z) : Prop := exists a c, x = a ++ [c] /\ letter c.

(** A call's message, type and fields, that the standard can carry. *)
Definition carried (std : Z) (call : Z * list (Z * list Z)) : Prop :=
  if std =? JCLIP then jclip (fst call) (snd call) else mdmf (fst call) (snd call) \/ sdmf (fst call) (snd call).
Definition call_fields (call : Z * list (Z * list Z)) : list (Z * list Z) := (fst call, []) :: snd call.

(** ---- whole trips, as an application sees them ---- *)
Definition trip (std : Z) (ms : list (list Z)) : res (list (list Z)) :=
  do (_, _, ds) <- session 3000 (adsi_tx_init std) (adsi_rx_init std) ms; Ok ds.
Definition call (std ty : Z) (fs : list (Z * list Z)) : res (option (list (Z * list Z))) :=
  do m <- build (adsi_tx_init std) (repeat 0xEE 255) ty fs;
  do ds <- trip std [m];
  match ds with [d] => parse std d | _ => UB end.
Definition talk (texts : list (list Z)) : res (list (list Z)) :=
  do (_, _, e) <- tdd_session 254 255 (adsi_tx_init TDD) (adsi_rx_init TDD) texts; Ok e.
Definition eighteen : list Z := 0x40 :: 0 :: 2 :: 14 :: repeat 0x31 14.
Definition sixteen : list Z := map Z.of_nat (seq 0x41 16).
