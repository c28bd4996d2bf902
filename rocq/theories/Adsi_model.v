(** Model of src/adsi.c: caller ID and TDD messages.  Covered: adsi_tx_get_bit, adsi_tdd_get_async_byte,
    adsi_rx_put_bit, adsi_tdd_put_async_byte, adsi_rx_dtmf, start_tx (its message state), adsi_tx_set_preamble,
    adsi_tx_put_message, adsi_tx_init, adsi_rx_init, the Baudot conversions, adsi_next_field and adsi_add_field.
    Not covered: the modems themselves (fsk.c, dtmf.c, tone_generate.c), the sample level adsi_tx/adsi_rx and logging. *)
From Verif Require Import Base Crc_model.

(** src/spandsp/adsi.h:185-194 *)
Definition CLASS := 1.
Definition CLIP := 2.
Definition ACLIP := 3.
Definition JCLIP := 4.
Definition CLIP_DTMF := 5.
Definition TDD := 6.

(** src/adsi.c:82-89 *)
Definition SOH := 1.
Definition STX := 2.
Definition ETX := 3.
Definition DLE := 16.

(** src/adsi.c:75-78 *)
Definition FIGURE_SHIFT := 0x1B.
Definition LETTER_SHIFT := 0x1F.

(** src/spandsp/async.h:98-110 *)
Definition CARRIER_DOWN := -1.
Definition CARRIER_UP := -2.
Definition END_OF_DATA := -7.

(** src/spandsp/private/adsi.h:36-75 (without the modems) *)
Record tx := mkTx {
  t_std : Z; t_on : bool; t_byte_no : Z; t_bit_pos : Z; t_bit_no : Z; t_msg : list Z; t_len : Z;
  t_pre : Z; t_ones : Z; t_post : Z; t_stop : Z; t_shift : Z }.
(** src/spandsp/private/adsi.h:81-112 (without the modems) *)
Record rx := mkRx {
  r_std : Z; r_ones : Z; r_bit_pos : Z; r_prog : Z; r_msg : list Z; r_len : Z; r_shift : Z; r_ferr : Z }.

Definition set_t_pos (s : tx) (byte_no bit_pos bit_no : Z) : tx :=
  mkTx (t_std s) (t_on s) byte_no bit_pos bit_no (t_msg s) (t_len s) (t_pre s) (t_ones s) (t_post s) (t_stop s) (t_shift s).
Definition set_t_msg (s : tx) (msg : list Z) (len : Z) : tx :=
  mkTx (t_std s) (t_on s) (t_byte_no s) (t_bit_pos s) (t_bit_no s) msg len (t_pre s) (t_ones s) (t_post s) (t_stop s) (t_shift s).
Definition set_t_on (s : tx) (on : bool) (len : Z) : tx :=
  mkTx (t_std s) on (t_byte_no s) (t_bit_pos s) (t_bit_no s) (t_msg s) len (t_pre s) (t_ones s) (t_post s) (t_stop s) (t_shift s).
Definition set_t_shift (s : tx) (shift : Z) : tx :=
  mkTx (t_std s) (t_on s) (t_byte_no s) (t_bit_pos s) (t_bit_no s) (t_msg s) (t_len s) (t_pre s) (t_ones s) (t_post s) (t_stop s) shift.
Definition set_t_amble (s : tx) (pre ones post stop : Z) : tx :=
  mkTx (t_std s) (t_on s) (t_byte_no s) (t_bit_pos s) (t_bit_no s) (t_msg s) (t_len s) pre ones post stop (t_shift s).

Definition set_r_bit (s : rx) (ones bit_pos prog : Z) : rx :=
  mkRx (r_std s) ones bit_pos prog (r_msg s) (r_len s) (r_shift s) (r_ferr s).
Definition set_r_msg (s : rx) (msg : list Z) (len : Z) : rx :=
  mkRx (r_std s) (r_ones s) (r_bit_pos s) (r_prog s) msg len (r_shift s) (r_ferr s).
Definition set_r_shift (s : rx) (shift : Z) : rx :=
  mkRx (r_std s) (r_ones s) (r_bit_pos s) (r_prog s) (r_msg s) (r_len s) shift (r_ferr s).
Definition set_r_ferr (s : rx) (n : Z) : rx :=
  mkRx (r_std s) (r_ones s) (r_bit_pos s) (r_prog s) (r_msg s) (r_len s) (r_shift s) n.

(** An int addition: overflow is undefined. *)
Definition iadd (a b : Z) : res Z :=
  if (-2147483648 <=? a + b) && (a + b <=? 2147483647) then Ok (a + b) else UB.

(** src/adsi.c:94-171 adsi_tx_get_bit *)
Definition adsi_tx_get_bit (s : tx) : res (tx * Z) :=
  if t_bit_no s <? t_pre s then
    Ok (set_t_pos s (t_byte_no s) (t_bit_pos s) (t_bit_no s + 1), Z.land (t_bit_no s) 1)
  else
    do a <- iadd (t_pre s) (t_ones s);
    if t_bit_no s <? a then Ok (set_t_pos s (t_byte_no s) (t_bit_pos s) (t_bit_no s + 1), 1)
    else if t_bit_no s <=? a then
      if t_bit_pos s =? 0 then Ok (set_t_pos s (t_byte_no s) 1 (t_bit_no s), 0)
      else if t_bit_pos s <? 1 + 8 then
        do b <- aget (t_msg s) (t_byte_no s);
        Ok (set_t_pos s (t_byte_no s) (t_bit_pos s + 1) (t_bit_no s), Z.land (Z.shiftr b (t_bit_pos s - 1)) 1)
      else
        do e <- iadd 9 (t_stop s);
        if t_bit_pos s <? e - 1 then Ok (set_t_pos s (t_byte_no s) (t_bit_pos s + 1) (t_bit_no s), 1)
        else
          let n := t_byte_no s + 1 in
          Ok (set_t_pos s n 0 (if t_len s <=? n then t_bit_no s + 1 else t_bit_no s), 1)
    else
      do b <- iadd a (t_post s);
      if t_bit_no s <=? b then Ok (set_t_pos s (t_byte_no s) (t_bit_pos s) (t_bit_no s + 1), 1)
      else Ok (if t_on s then set_t_on s false 0 else s, END_OF_DATA).

(** src/adsi.c:173-190 adsi_tdd_get_async_byte *)
Definition adsi_tdd_get_async_byte (s : tx) : res (tx * Z) :=
  if t_byte_no s <? t_len s then
    do b <- aget (t_msg s) (t_byte_no s);
    Ok (set_t_pos s (t_byte_no s + 1) (t_bit_pos s) (t_bit_no s), b)
  else Ok (if t_on s then set_t_on s false 0 else s, 0x1F).

(** src/adsi.c:226-329: a whole character has come in.  The messages passed to put_msg are the second result. *)
Definition store_octet (s : rx) : res rx :=
  do m <- aset (r_msg s) (r_len s) (u8 (r_prog s));
  Ok (set_r_msg s m (r_len s + 1)).
Definition strip7 (l : list Z) : list Z := map (fun b => Z.land b 0x7F) l.
Fixpoint sum_list (l : list Z) : Z := match l with [] => 0 | a :: t => a + sum_list t end.

Definition jclip_octet (s : rx) : res (rx * list (list Z)) :=
  do s1 <- (if r_len s =? 0 then
              if r_prog s =? Z.lor 0x80 DLE then store_octet s else Ok s
            else store_octet s);
  if 11 <=? r_len s1 then
    do n <- aget (r_msg s1) 6;
    if r_len s1 =? Z.land n 0x7F + 11 then
      do body <- aslice (r_msg s1) 2 (r_len s1 - 2);
      if crc_itu16_calc body 0 =? 0 then
        do m <- aslice (r_msg s1) 0 (r_len s1 - 2);
        do msg <- ablit (r_msg s1) 0 (strip7 m);
        Ok (set_r_msg s1 msg 0, [strip7 m])
      else Ok (set_r_msg s1 (r_msg s1) 0, [])
    else Ok (s1, [])
  else Ok (s1, []).

Definition other_octet (s : rx) : res (rx * list (list Z)) :=
  do s1 <- store_octet s;
  if 3 <=? r_len s1 then
    do n <- aget (r_msg s1) 1;
    if r_len s1 =? n + 3 then
      do m <- aslice (r_msg s1) 0 (r_len s1 - 1);
      do c <- aget (r_msg s1) (r_len s1 - 1);
      Ok (set_r_msg s1 (r_msg s1) 0, if Z.land (- sum_list m) 0xFF =? c then [m] else [])
    else Ok (s1, [])
  else Ok (s1, []).

(** src/adsi.c:192-329 adsi_rx_put_bit *)
Definition adsi_rx_put_bit (s : rx) (bit : Z) : res (rx * list (list Z)) :=
  if bit <? 0 then
    if bit =? CARRIER_UP then Ok (set_r_msg (set_r_bit s 0 0 0) (r_msg s) 0, [])
    else Ok (s, [])
  else
    let bit := Z.land bit 1 in
    if r_bit_pos s =? 0 then
      if bit =? 0 then
        let s1 := set_r_bit s 0 1 (r_prog s) in
        Ok (if 10 <? r_ones s then set_r_msg s1 (r_msg s) 0 else s1, [])
      else
        do n <- iadd (r_ones s) 1;
        Ok (set_r_bit s n (r_bit_pos s) (r_prog s), [])
    else if r_bit_pos s <=? 8 then
      let p := Z.shiftr (r_prog s) 1 in
      let p := if bit =? 0 then p else Z.lor p 0x80 in
      Ok (set_r_bit s (r_ones s) (r_bit_pos s + 1) p, [])
    else
      do (s1, ev) <-
        (if bit =? 0 then do n <- iadd (r_ferr s) 1; Ok (set_r_ferr s n, [])
         else if r_len s <? 256 then
           if r_std s =? JCLIP then jclip_octet s else other_octet s
         else Ok (s, []));
      Ok (set_r_bit s1 (r_ones s1) 0 0, ev).

(** src/adsi.c:936-959 adsi_decode_baudot *)
Definition baudot_letters : list Z :=
  [0; 69; 10; 65; 32; 83; 73; 85; 13; 68; 82; 74; 78; 70; 67; 75; 84; 90; 76; 87; 72; 89; 80; 81; 79; 66; 71; 94; 77; 88; 86; 94].
Definition baudot_figures : list Z :=
  [0; 51; 10; 45; 32; 39; 56; 55; 13; 36; 52; 42; 44; 42; 58; 40; 53; 43; 41; 50; 35; 54; 48; 49; 57; 63; 42; 94; 46; 47; 61; 94].
Definition adsi_decode_baudot (s : rx) (ch : Z) : res (rx * Z) :=
  if ch =? FIGURE_SHIFT then Ok (set_r_shift s 1, 0)
  else if ch =? LETTER_SHIFT then Ok (set_r_shift s 0, 0)
  else
    do c <- (if r_shift s =? 0 then aget baudot_letters ch
             else if r_shift s =? 1 then aget baudot_figures ch else UB);
    Ok (s, c).

(** src/adsi.c:331-377 adsi_tdd_put_async_byte *)
Definition adsi_tdd_put_async_byte (s : rx) (byte : Z) : res (rx * list (list Z)) :=
  if byte <? 0 then
    if byte =? CARRIER_UP then Ok (set_r_msg (set_r_bit s 0 0 0) (r_msg s) 0, [])
    else if byte =? CARRIER_DOWN then
      if 0 <? r_len s then
        do m <- aslice (r_msg s) 0 (r_len s);
        Ok (set_r_msg s (r_msg s) 0, [m])
      else Ok (s, [])
    else Ok (s, [])
  else
    do (s1, octet) <- adsi_decode_baudot s (u8 (Z.land byte 0x1F));
    do s2 <- (if octet =? 0 then Ok s1
              else do m <- aset (r_msg s1) (r_len s1) octet; Ok (set_r_msg s1 m (r_len s1 + 1)));
    if 256 <=? r_len s2 then
      do m <- aslice (r_msg s2) 0 (r_len s2);
      Ok (set_r_msg s2 (r_msg s2) 0, [m])
    else Ok (s2, []).

(** src/adsi.c:391-405: the loop of adsi_rx_dtmf; digits '#' and 'C' end a message *)
Fixpoint dtmf_loop (s : rx) (digits : list Z) : res (rx * list (list Z)) :=
  match digits with
  | [] => Ok (s, [])
  | d :: t =>
    if r_len s <? 256 then
      do m <- aset (r_msg s) (r_len s) d;
      let s1 := set_r_msg s m (r_len s + 1) in
      do (s2, ev) <-
        (if (d =? 35) || (d =? 67) then
           do msg <- aslice (r_msg s1) 0 (r_len s1);
           Ok (set_r_msg s1 (r_msg s1) 0, [msg])
         else Ok (s1, []));
      do (s3, ev') <- dtmf_loop s2 t;
      Ok (s3, ev ++ ev')
    else Ok (s, [])
  end.
(** src/adsi.c:379-407 adsi_rx_dtmf *)
Definition adsi_rx_dtmf (s : rx) (digits : list Z) : res (rx * list (list Z)) :=
  dtmf_loop (if r_len s =? 0 then set_r_bit s (r_ones s) (r_bit_pos s) 80000 else s) digits.

(** src/adsi.c:409-434 start_tx *)
Definition start_tx (s : tx) : tx :=
  set_t_on (if t_std s =? TDD then set_t_shift s 2 else s) true (t_len s).

(** src/adsi.c:563-624 adsi_tx_set_preamble *)
Definition adsi_tx_set_preamble (s : tx) (pre ones post stop : Z) : tx :=
  let j := t_std s =? JCLIP in
  set_t_amble s
    (if pre <? 0 then (if j then 0 else 300) else pre)
    (if ones <? 0 then (if j then 75 else 80) else ones)
    (if post <? 0 then 5 else post)
    (if stop <? 0 then (if j then 4 else 1) else stop).

(** src/adsi.c:732-758 adsi_tx_init *)
Definition adsi_tx_init (standard : Z) : tx :=
  start_tx (adsi_tx_set_preamble (mkTx standard false 0 0 0 (repeat 0 256) 0 0 0 0 0 0) (-1) (-1) (-1) (-1)).
(** src/adsi.c:463-510 adsi_rx_init *)
Definition adsi_rx_init (standard : Z) : rx := mkRx standard 0 0 0 (repeat 0 256) 0 0 0.

(** src/adsi.c:676-684: the parity bit is put on top of the low seven bits *)
Definition with_parity (b : Z) : Z :=
  let parity := fold_left (fun p k => Z.lxor p (Z.shiftl b k)) [1; 2; 3; 4; 5; 6; 7] 0 in
  Z.lor (Z.land b 0x7F) (Z.land (u8 parity) 0x80).

(** src/adsi.c:626-724 adsi_tx_put_message.  [msg] is the memory from the caller's pointer on; the last component is
    what is handed to the DTMF generator, which is taken to accept it all. *)
Definition adsi_tx_put_message (s : tx) (msg : list Z) (len : Z) : res (tx * Z * list Z) :=
  if 0 <? t_len s then Ok (s, 0, [])
  else
    let s1 := if t_on s then s else start_tx s in
    let go (m : list Z) (n : Z) := Ok (set_t_pos (set_t_msg s1 m n) 0 0 0, len, []) in
    if t_std s =? CLIP_DTMF then
      if 128 <=? len then Ok (s1, -1, [])
      else do d <- aslice msg 0 len; Ok (set_t_pos s1 0 0 0, len, d)
    else if t_std s =? JCLIP then
      if 128 - 9 <? len then Ok (s1, -1, [])
      else if len <? 2 then UB
      else
        do ty <- aget msg 0;
        do body <- aslice msg 2 (len - 2);
        let l := u8 (len - 2) in
        let f := [DLE; SOH; 7; DLE; STX; ty; l] ++ (if len - 2 =? DLE then [DLE] else []) ++ body ++ [DLE; ETX] in
        let f := map with_parity f in
        let crc := crc_itu16_calc (skipn 2 f) 0 in
        let f := f ++ [u8 (Z.land crc 0xFF); u8 (Z.land (Z.shiftr crc 8) 0xFF)] in
        do m <- ablit (t_msg s1) 0 f;
        go m (Z.of_nat (length f))
    else if t_std s =? TDD then
      if 255 <? len then Ok (s1, -1, [])
      else if len <? 0 then UB
      else
        do src <- aslice msg 0 len;
        do m <- ablit (t_msg s1) 0 src;
        go m len
    else
      if 255 <? len then Ok (s1, -1, [])
      else if len <? 0 then UB
      else
        do src <- aslice msg 0 len;
        do m <- ablit (t_msg s1) 0 src;
        do m <- aset m 1 (u8 (len - 2));
        do all <- aslice m 0 len;
        do m <- aset m len (u8 (Z.land (- sum_list all) 0xFF));
        go m (len + 1).

(** src/adsi.c:773-934 adsi_encode_baudot *)
Definition baudot_conv : list Z :=
  [0; 255; 255; 255; 255; 255; 255; 255; 255; 255; 66; 255; 255; 72; 255; 255; 255; 255; 255; 255; 255; 255; 255; 255;
   255; 255; 255; 255; 255; 255; 255; 255; 68; 255; 255; 148; 137; 255; 255; 133; 143; 146; 139; 145; 140; 131; 156;
   157; 150; 151; 147; 129; 138; 144; 149; 135; 134; 152; 142; 255; 255; 158; 255; 153; 255; 3; 25; 14; 9; 1; 13; 26;
   20; 6; 11; 15; 18; 28; 12; 24; 22; 23; 10; 5; 16; 7; 30; 19; 29; 21; 17; 255; 255; 255; 155; 255; 255; 3; 25; 14;
   9; 1; 13; 26; 20; 6; 11; 15; 18; 28; 12; 24; 22; 23; 10; 5; 16; 7; 30; 19; 29; 21; 17; 255; 255; 255; 255; 255].
Definition adsi_encode_baudot (s : tx) (ch : Z) : res (tx * Z) :=
  do c <- aget baudot_conv ch;
  if c =? 0xFF then Ok (s, 0)
  else if negb (Z.land c 0x40 =? 0) then Ok (s, Z.land c 0x1F)
  else if negb (Z.land c 0x80 =? 0) then
    if t_shift s =? 1 then Ok (s, Z.land c 0x1F)
    else Ok (set_t_shift s 1, Z.lor (Z.shiftl FIGURE_SHIFT 5) (Z.land c 0x1F))
  else
    if t_shift s =? 0 then Ok (s, Z.land c 0x1F)
    else Ok (set_t_shift s 0, Z.lor (Z.shiftl LETTER_SHIFT 5) (Z.land c 0x1F)).

(** src/adsi.c:961-1098 adsi_next_field.  [msg] is the memory from the message's first octet on.  The result is the
    value returned, the field type, the offset of the body (-1 for NULL) and its length. *)
Record field := mkField { f_ret : Z; f_type : Z; f_off : Z; f_len : Z }.
Definition digit (c : Z) : bool := (48 <=? c) && (c <=? 57).
(** src/adsi.c:1067-1069 *)
Fixpoint skip_digits (fuel : nat) (msg : list Z) (msg_len i : Z) : res Z :=
  match fuel with
  | O => Ok i
  | S k =>
    if i <? msg_len then
      do c <- aget msg i;
      if digit c then skip_digits k msg msg_len (i + 1) else Ok i
    else Ok i
  end.
(** What is left in the caller's variables when nothing is stored. *)
Definition no_field (r : Z) : field := mkField r (-1) (-1) (-1).
Definition adsi_next_field (standard : Z) (msg : list Z) (msg_len pos : Z) : res field :=
  let fin (lim : Z) (ty off len p : Z) := Ok (mkField (if lim <? p then -2 else p) ty off len) in
  if (standard =? CLASS) || (standard =? CLIP) || (standard =? ACLIP) then
    if msg_len <=? pos then Ok (no_field (-1))
    else if pos <=? 0 then do ty <- aget msg 0; fin msg_len ty (-1) 0 2
    else
      do t0 <- aget msg 0;
      if negb (Z.land t0 0x80 =? 0) then
        do ty <- aget msg pos;
        do l <- aget msg (pos + 1);
        fin msg_len ty (pos + 2) l (pos + 2 + l)
      else fin msg_len 0 pos (msg_len - pos) (pos + (msg_len - pos))
  else if standard =? JCLIP then
    if msg_len - 2 <=? pos then Ok (no_field (-1))
    else if pos <=? 0 then
      do ty <- aget msg 5;
      let p := if ty =? DLE then 7 else 6 in
      do l <- aget msg p;
      let p := if l =? DLE then p + 2 else p + 1 in
      fin (msg_len - 2) ty (-1) 0 p
    else
      do ty <- aget msg pos;
      let p := if ty =? DLE then pos + 2 else pos + 1 in
      do l <- aget msg p;
      let p := if l =? DLE then p + 2 else p + 1 in
      fin (msg_len - 2) ty p l (p + l)
  else if standard =? CLIP_DTMF then
    if msg_len <? pos then Ok (no_field (-1))
    else if pos <=? 0 then do ty <- aget msg (msg_len - 1); Ok (mkField 1 ty (-1) 0)
    else
      let p := pos - 1 in
      do c <- aget msg p;
      let ty := if digit c then 0 else c in
      let p := if digit c then p else p + 1 in
      do i <- skip_digits (Z.to_nat (msg_len - p)) msg msg_len p;
      do c <- aget msg i;
      let q := if (c =? 35) || (c =? 67) then i + 1 else i in
      Ok (mkField (if msg_len <? q then -2 else q + 1) ty p (i - p))
  else if standard =? TDD then
    if msg_len <=? pos then Ok (no_field (-1))
    else Ok (mkField msg_len 0 0 msg_len)
  else Ok (no_field pos).

(** src/adsi.c:1100-1215 adsi_add_field.  [msg] is the caller's buffer, [body] the field_len octets of the field. *)
Fixpoint put_stuffed (msg : list Z) (len : Z) (body : list Z) : res (list Z * Z) :=
  match body with
  | [] => Ok (msg, len)
  | b :: t =>
    do msg <- aset msg len b;
    do (msg, len) <- (if b =? DLE then do msg <- aset msg (len + 1) b; Ok (msg, len + 2) else Ok (msg, len + 1));
    put_stuffed msg len t
  end.
Fixpoint put_baudot (s : tx) (msg : list Z) (len : Z) (body : list Z) : res (tx * list Z * Z) :=
  match body with
  | [] => Ok (s, msg, len)
  | b :: t =>
    do (s, x) <- adsi_encode_baudot s b;
    do (msg, len) <-
      (if x =? 0 then Ok (msg, len)
       else
         do (msg, len) <- (if Z.land x 0x3E0 =? 0 then Ok (msg, len)
                           else do m <- aset msg len (u8 (Z.land (Z.shiftr x 5) 0x1F)); Ok (m, len + 1));
         do m <- aset msg len (u8 (Z.land x 0x1F));
         Ok (m, len + 1));
    put_baudot s msg len t
  end.
Definition adsi_add_field (s : tx) (msg : list Z) (len : Z) (ty : Z) (body : list Z) : res (tx * list Z * Z) :=
  let n := Z.of_nat (length body) in
  let start := do m <- aset msg 0 ty; do m <- aset m 1 0; Ok (s, m, 2) in
  if (t_std s =? CLASS) || (t_std s =? CLIP) || (t_std s =? ACLIP) then
    if len <=? 0 then start
    else if negb (ty =? 0) then
      do m <- aset msg len ty;
      do m <- aset m (len + 1) (u8 n);
      do (m, len) <- (if n =? DLE then do m <- aset m (len + 2) (u8 n); Ok (m, len + 3) else Ok (m, len + 2));
      do m <- ablit m len body;
      Ok (s, m, len + n)
    else
      do m <- ablit msg len body;
      Ok (s, m, len + n)
  else if t_std s =? JCLIP then
    if len <=? 0 then start
    else
      do m <- aset msg len ty;
      do (m, len) <- (if ty =? DLE then do m <- aset m (len + 1) ty; Ok (m, len + 2) else Ok (m, len + 1));
      do m <- aset m len (u8 n);
      do (m, len) <- (if n =? DLE then do m <- aset m (len + 1) (u8 n); Ok (m, len + 2) else Ok (m, len + 1));
      do (m, len) <- put_stuffed m len body;
      Ok (s, m, len)
  else if t_std s =? CLIP_DTMF then
    if len <=? 0 then do m <- aset msg 0 ty; Ok (s, m, 1)
    else
      do x <- aget msg (len - 1);
      do (m, len) <- (if ty =? 0 then Ok (msg, len - 1) else do m <- aset msg (len - 1) ty; Ok (m, len));
      do m <- ablit m len body;
      do m <- aset m (len + n) x;
      Ok (s, m, len + n + 1)
  else if t_std s =? TDD then put_baudot s msg (if len <? 0 then 0 else len) body
  else Ok (s, msg, len).
