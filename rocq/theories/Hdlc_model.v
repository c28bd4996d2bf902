(** Model of src/hdlc.c.  Callbacks: frame and status handlers are events in the result, in call order (a frame
    handler and possibly a status handler are installed; both status routes give the same [EStatus] event).  The
    underflow handler is a list of scripts: the k-th call of the handler performs the k-th list of API calls.
    Statistics counters (unsigned long) and flag/abort counts (int) are unbounded here. *)
From Verif Require Import Base BitOps_model Crc_model.

(** src/spandsp/hdlc.h:46, private/hdlc.h: buffer[HDLC_MAXFRAME_LEN + 4] *)
Definition HDLC_MAXFRAME_LEN : Z := 400.
Definition BUF_LEN : Z := 404.
Definition zero_buf : list Z := repeat 0 (Z.to_nat BUF_LEN).
(** src/spandsp/async.h:66-103 *)
Definition SIG_STATUS_CARRIER_DOWN := -1.
Definition SIG_STATUS_CARRIER_UP := -2.
Definition SIG_STATUS_TRAINING_IN_PROGRESS := -3.
Definition SIG_STATUS_TRAINING_SUCCEEDED := -4.
Definition SIG_STATUS_TRAINING_FAILED := -5.
Definition SIG_STATUS_FRAMING_OK := -6.
Definition SIG_STATUS_END_OF_DATA := -7.
Definition SIG_STATUS_ABORT := -8.
Definition SIG_STATUS_OCTET_REPORT := -11.

(** ---------------- receiver ---------------- *)
Inductive ev := EFrame (data : list Z) (ok : bool) | EStatus (z : Z).

(** src/spandsp/private/hdlc.h:32-88: configuration part *)
Record rxcfg := { rx_crc32 : bool; report_bad_frames : bool; framing_ok_threshold : Z; octet_count_report_interval : Z }.
Definition rx_crc_bytes (c : rxcfg) : Z := if rx_crc32 c then 4 else 2.
(** working part *)
Record rxs := { announced : bool; flags_seen : Z; raw : Z; bip : Z; nb : Z; ocm : bool; oc : Z;
                buf : list Z; len : Z; max_len : Z;
                n_bytes : Z; n_frames : Z; n_crc : Z; n_len : Z; n_abort : Z }.

(** src/hdlc.c:373-395 hdlc_rx_init (the threshold is clamped to at least 1) *)
Definition hdlc_rx_cfg (crc32 report_bad : bool) (threshold interval : Z) : rxcfg :=
  {| rx_crc32 := crc32; report_bad_frames := report_bad; framing_ok_threshold := if threshold <? 1 then 1 else threshold;
     octet_count_report_interval := interval |}.
Definition hdlc_rx_init : rxs :=
  {| announced := false; flags_seen := 0; raw := 0; bip := 0; nb := 0; ocm := false; oc := 0;
     buf := zero_buf; len := 0; max_len := BUF_LEN;
     n_bytes := 0; n_frames := 0; n_crc := 0; n_len := 0; n_abort := 0 |}.

Definition set_raw (s : rxs) x := {| announced := announced s; flags_seen := flags_seen s; raw := x; bip := bip s; nb := nb s;
  ocm := ocm s; oc := oc s; buf := buf s; len := len s; max_len := max_len s;
  n_bytes := n_bytes s; n_frames := n_frames s; n_crc := n_crc s; n_len := n_len s; n_abort := n_abort s |}.
Definition set_flags (s : rxs) a f := {| announced := a; flags_seen := f; raw := raw s; bip := bip s; nb := nb s;
  ocm := ocm s; oc := oc s; buf := buf s; len := len s; max_len := max_len s;
  n_bytes := n_bytes s; n_frames := n_frames s; n_crc := n_crc s; n_len := n_len s; n_abort := n_abort s |}.
Definition set_bits (s : rxs) b n := {| announced := announced s; flags_seen := flags_seen s; raw := raw s; bip := b; nb := n;
  ocm := ocm s; oc := oc s; buf := buf s; len := len s; max_len := max_len s;
  n_bytes := n_bytes s; n_frames := n_frames s; n_crc := n_crc s; n_len := n_len s; n_abort := n_abort s |}.
Definition set_oc (s : rxs) m n := {| announced := announced s; flags_seen := flags_seen s; raw := raw s; bip := bip s; nb := nb s;
  ocm := m; oc := n; buf := buf s; len := len s; max_len := max_len s;
  n_bytes := n_bytes s; n_frames := n_frames s; n_crc := n_crc s; n_len := n_len s; n_abort := n_abort s |}.
Definition set_buf (s : rxs) b l := {| announced := announced s; flags_seen := flags_seen s; raw := raw s; bip := bip s; nb := nb s;
  ocm := ocm s; oc := oc s; buf := b; len := l; max_len := max_len s;
  n_bytes := n_bytes s; n_frames := n_frames s; n_crc := n_crc s; n_len := n_len s; n_abort := n_abort s |}.
Definition set_max (s : rxs) m := {| announced := announced s; flags_seen := flags_seen s; raw := raw s; bip := bip s; nb := nb s;
  ocm := ocm s; oc := oc s; buf := buf s; len := len s; max_len := m;
  n_bytes := n_bytes s; n_frames := n_frames s; n_crc := n_crc s; n_len := n_len s; n_abort := n_abort s |}.
Definition add_counts (s : rxs) b f c l a := {| announced := announced s; flags_seen := flags_seen s; raw := raw s; bip := bip s; nb := nb s;
  ocm := ocm s; oc := oc s; buf := buf s; len := len s; max_len := max_len s;
  n_bytes := n_bytes s + b; n_frames := n_frames s + f; n_crc := n_crc s + c; n_len := n_len s + l; n_abort := n_abort s + a |}.

(** src/hdlc.c:60-85 rx_special_condition *)
Definition rx_special_condition (s : rxs) (status : Z) : rxs * list ev :=
  let s := if (status =? SIG_STATUS_CARRIER_UP) || (status =? SIG_STATUS_TRAINING_SUCCEEDED)
           then set_bits (set_flags (set_buf (set_raw s 0) (buf s) 0) false 0) (bip s) 0 else s in
  (s, if (status =? SIG_STATUS_CARRIER_UP) || (status =? SIG_STATUS_TRAINING_SUCCEEDED)
         || (status =? SIG_STATUS_TRAINING_IN_PROGRESS) || (status =? SIG_STATUS_TRAINING_FAILED)
         || (status =? SIG_STATUS_CARRIER_DOWN) || (status =? SIG_STATUS_END_OF_DATA)
      then [EStatus status] else []).

(** src/hdlc.c:114-132 octet_count *)
Definition octet_count (c : rxcfg) (s : rxs) : rxs * list ev :=
  if octet_count_report_interval c =? 0 then (s, [])
  else if ocm s then
    if oc s - 1 <=? 0 then (set_oc s true (octet_count_report_interval c), [EStatus SIG_STATUS_OCTET_REPORT])
    else (set_oc s true (oc s - 1), [])
  else (s, []).
(** src/hdlc.c:88-111 octet_set_and_count *)
Definition octet_set_and_count (c : rxcfg) (s : rxs) : rxs * list ev :=
  if octet_count_report_interval c =? 0 then (s, [])
  else if ocm s then octet_count c s
  else (set_oc s true (octet_count_report_interval c), []).

Definition crc_check (c : rxcfg) (b : list Z) (l : Z) : res bool :=
  if rx_crc_bytes c =? 2 then crc_itu16_check b l else crc_itu32_check b l.
(** src/hdlc.c:157-203: the flag closing a possible frame *)
Definition end_of_frame (c : rxcfg) (s : rxs) : res (rxs * list ev) :=
  if len s =? 0 then Ok (s, [])
  else
    let crcb := rx_crc_bytes c in
    if (nb s =? 7) && (crcb <=? len s) && (len s <=? max_len s) then
      do ok <- crc_check c (buf s) (len s);
      let s' := if (ok : bool) then add_counts s (len s - crcb) 1 0 0 0 else add_counts s 0 0 1 0 0 in
      if ok || report_bad_frames c then
        do d <- aslice (buf s) 0 (len s - crcb);
        Ok (set_buf s' (buf s) (len s - crcb), [EFrame d ok])
      else Ok (s', [])
    else
      let s' := add_counts s 0 0 0 1 0 in
      if report_bad_frames c then
        let l := if crcb <=? len s then len s - crcb else 0 in
        do d <- aslice (buf s) 0 l;
        Ok (set_buf s' (buf s) l, [EFrame d false])
      else Ok (s', []).
(** src/hdlc.c:135-245 rx_flag_or_abort *)
Definition rx_flag_or_abort (c : rxcfg) (s : rxs) : res (rxs * list ev) :=
  let t := framing_ok_threshold c in
  do (s, e) <-
    (if negb (Z.land (raw s) 0x0100 =? 0) then
       let s := add_counts s 0 0 0 0 1 in
       let s := set_flags s (announced s) (if flags_seen s <? t - 1 then 0 else t - 1) in
       let '(s, e) := octet_set_and_count c s in
       Ok (s, EStatus SIG_STATUS_ABORT :: e)
     else
       let s := set_oc s false (oc s) in
       if t <=? flags_seen s then end_of_frame c s
       else
         let f := if negb (flags_seen s =? t - 1) && negb (nb s =? 7)
                  then (if flags_seen s <? t - 1 then 0 else t - 1) else flags_seen s in
         let f := f + 1 in
         if (t <=? f) && negb (announced s) then Ok (set_flags s true f, [EStatus SIG_STATUS_FRAMING_OK])
         else Ok (set_flags s (announced s) f, []));
  Ok (set_bits (set_buf s (buf s) 0) (bip s) 0, e).

(** src/hdlc.c:248-300 hdlc_rx_put_bit_core *)
Definition hdlc_rx_put_bit_core (c : rxcfg) (s : rxs) : res (rxs * list ev) :=
  let five := Z.land (raw s) 0x3E00 =? 0x3E00 in
  if five && (Z.land (raw s) 0x4100 =? 0) then Ok (s, [])
  else if five && (Z.land (raw s) 0xFE00 =? 0x7E00) then rx_flag_or_abort c s
  else
    let n := nb s + 1 in
    if flags_seen s <? framing_ok_threshold c then
      let s := set_bits s (bip s) n in
      if Z.land n 7 =? 0 then Ok (octet_count c s) else Ok (s, [])
    else
      let b := Z.shiftr (Z.lor (bip s) (Z.land (raw s) 0x100)) 1 in
      if n =? 8 then
        if len s <? max_len s then
          do bf <- aset (buf s) (len s) (u8 b);
          Ok (set_bits (set_buf s bf (len s + 1)) b 0, [])
        else
          let s := set_flags (set_buf s (buf s) (BUF_LEN + 1)) (announced s) (framing_ok_threshold c - 1) in
          let '(s, e) := octet_set_and_count c s in
          Ok (set_bits s b 0, e)
      else Ok (set_bits s b n, []).

(** src/hdlc.c:303-313 hdlc_rx_put_bit *)
Definition hdlc_rx_put_bit (c : rxcfg) (s : rxs) (new_bit : Z) : res (rxs * list ev) :=
  if new_bit <? 0 then Ok (rx_special_condition s new_bit)
  else hdlc_rx_put_bit_core c (set_raw s (Z.lor (u32 (Z.shiftl (raw s) 1)) (Z.land (Z.shiftl new_bit 8) 0x100))).

(** src/hdlc.c:326-331: the loop of hdlc_rx_put_byte *)
Fixpoint put_byte_loop (c : rxcfg) (n : nat) (s : rxs) : res (rxs * list ev) :=
  match n with
  | O => Ok (s, [])
  | S k => do (s, e) <- hdlc_rx_put_bit_core c (set_raw s (u32 (Z.shiftl (raw s) 1)));
           do (s, e') <- put_byte_loop c k s; Ok (s, e ++ e')
  end.
(** src/hdlc.c:316-333 hdlc_rx_put_byte *)
Definition hdlc_rx_put_byte (c : rxcfg) (s : rxs) (new_byte : Z) : res (rxs * list ev) :=
  if new_byte <? 0 then Ok (rx_special_condition s new_byte)
  else put_byte_loop c 8 (set_raw s (u32 (Z.lor (raw s) new_byte))).
(** src/hdlc.c:336-343 hdlc_rx_put *)
Fixpoint hdlc_rx_put (c : rxcfg) (s : rxs) (l : list Z) : res (rxs * list ev) :=
  match l with
  | [] => Ok (s, [])
  | b :: l => do (s, e) <- hdlc_rx_put_byte c s b; do (s, e') <- hdlc_rx_put c s l; Ok (s, e ++ e')
  end.
(** src/hdlc.c:346-350 hdlc_rx_set_max_frame_len (size_t argument) *)
Definition hdlc_rx_set_max_frame_len (c : rxcfg) (s : rxs) (m : Z) : rxs :=
  let m := u64 (m + rx_crc_bytes c) in set_max s (if m <=? BUF_LEN then m else BUF_LEN).
(** src/hdlc.c:359-370 hdlc_rx_restart *)
Definition hdlc_rx_restart (s : rxs) : rxs :=
  set_oc (set_bits (set_raw (set_flags (set_buf s (buf s) 0) false 0) 0) 0 0) false 0.

(** The calls an application can make on a receiver. *)
Inductive rxop := RBit (z : Z) | RByte (z : Z) | RMaxLen (m : Z) | RRestart.
Definition rx_step (c : rxcfg) (s : rxs) (o : rxop) : res (rxs * list ev) :=
  match o with
  | RBit z => hdlc_rx_put_bit c s z
  | RByte z => hdlc_rx_put_byte c s z
  | RMaxLen m => Ok (hdlc_rx_set_max_frame_len c s m, [])
  | RRestart => Ok (hdlc_rx_restart s, [])
  end.
Fixpoint rx_exec (c : rxcfg) (s : rxs) (l : list rxop) : res (rxs * list ev) :=
  match l with
  | [] => Ok (s, [])
  | o :: l => do (s, e) <- rx_step c s o; do (s, e') <- rx_exec c s l; Ok (s, e ++ e')
  end.

(** ---------------- transmitter ---------------- *)
Record txcfg := { tx_crc32 : bool; inter_frame_flags : Z; progressive : bool }.
Definition tx_crc_bytes (c : txcfg) : Z := if tx_crc32 c then 4 else 2.
Definition crc_seed (c : txcfg) : Z := if tx_crc32 c then 0xFFFFFFFF else 0xFFFF.
Record txs := { oip : Z; tnb : Z; idle_octet : Z; flag_octets : Z; abort_octets : Z; rfu : bool;
                tbuf : list Z; tlen : Z; pos : Z; crc : Z; tbyte : Z; tbits : Z; tx_end : bool; tmax : Z }.
(** src/hdlc.c:704-737 hdlc_tx_init (inter_frame_flags clamped to at least 1) *)
Definition hdlc_tx_cfg (crc32 : bool) (flags : Z) (prog : bool) : txcfg :=
  {| tx_crc32 := crc32; inter_frame_flags := if flags <? 1 then 1 else flags; progressive := prog |}.
Definition hdlc_tx_init (c : txcfg) : txs :=
  {| oip := 0; tnb := 0; idle_octet := 0x7E; flag_octets := 0; abort_octets := 0; rfu := false;
     tbuf := zero_buf; tlen := 0; pos := 0; crc := crc_seed c; tbyte := 0; tbits := 0; tx_end := false;
     tmax := HDLC_MAXFRAME_LEN |}.
Definition tset_end (s : txs) e := {| oip := oip s; tnb := tnb s; idle_octet := idle_octet s; flag_octets := flag_octets s;
  abort_octets := abort_octets s; rfu := rfu s; tbuf := tbuf s; tlen := tlen s; pos := pos s; crc := crc s; tbyte := tbyte s;
  tbits := tbits s; tx_end := e; tmax := tmax s |}.
Definition tset_flags (s : txs) f r := {| oip := oip s; tnb := tnb s; idle_octet := idle_octet s; flag_octets := f;
  abort_octets := abort_octets s; rfu := r; tbuf := tbuf s; tlen := tlen s; pos := pos s; crc := crc s; tbyte := tbyte s;
  tbits := tbits s; tx_end := tx_end s; tmax := tmax s |}.
Definition tset_abort (s : txs) a := {| oip := oip s; tnb := tnb s; idle_octet := idle_octet s; flag_octets := flag_octets s;
  abort_octets := a; rfu := rfu s; tbuf := tbuf s; tlen := tlen s; pos := pos s; crc := crc s; tbyte := tbyte s;
  tbits := tbits s; tx_end := tx_end s; tmax := tmax s |}.
Definition tset_frame (s : txs) b l p k := {| oip := oip s; tnb := tnb s; idle_octet := idle_octet s; flag_octets := flag_octets s;
  abort_octets := abort_octets s; rfu := rfu s; tbuf := b; tlen := l; pos := p; crc := k; tbyte := tbyte s;
  tbits := tbits s; tx_end := tx_end s; tmax := tmax s |}.
Definition tset_bits (s : txs) o n i := {| oip := o; tnb := n; idle_octet := i; flag_octets := flag_octets s;
  abort_octets := abort_octets s; rfu := rfu s; tbuf := tbuf s; tlen := tlen s; pos := pos s; crc := crc s; tbyte := tbyte s;
  tbits := tbits s; tx_end := tx_end s; tmax := tmax s |}.
Definition tset_byte (s : txs) b n := {| oip := oip s; tnb := tnb s; idle_octet := idle_octet s; flag_octets := flag_octets s;
  abort_octets := abort_octets s; rfu := rfu s; tbuf := tbuf s; tlen := tlen s; pos := pos s; crc := crc s; tbyte := b;
  tbits := n; tx_end := tx_end s; tmax := tmax s |}.
Definition tset_max (s : txs) m := {| oip := oip s; tnb := tnb s; idle_octet := idle_octet s; flag_octets := flag_octets s;
  abort_octets := abort_octets s; rfu := rfu s; tbuf := tbuf s; tlen := tlen s; pos := pos s; crc := crc s; tbyte := tbyte s;
  tbits := tbits s; tx_end := tx_end s; tmax := m |}.

Definition crc_calc (c : txcfg) (l : list Z) (k : Z) : Z :=
  if tx_crc32 c then crc_itu32_calc l k else crc_itu16_calc l (u16 k).
(** src/hdlc.c:437-476 hdlc_tx_frame: new state and return value *)
Definition hdlc_tx_frame (c : txcfg) (s : txs) (frame : list Z) : res (txs * Z) :=
  let n := Z.of_nat (length frame) in
  if n =? 0 then Ok (tset_end s true, 0)
  else if tmax s <? tlen s + n then Ok (s, -1)
  else if (if progressive c then HDLC_MAXFRAME_LEN <=? pos s else negb (tlen s =? 0)) then Ok (s, -1)
  else
    do b <- ablit (tbuf s) (tlen s) frame;
    let k := crc_calc c frame (crc s) in
    Ok (tset_end (tset_frame s b (if progressive c then tlen s + n else n) (pos s) k) false, 0).
(** src/hdlc.c:479-494 hdlc_tx_flags *)
Definition hdlc_tx_flags (s : txs) (n : Z) : txs * Z :=
  if negb (pos s =? 0) then (s, -1)
  else (tset_end (tset_flags s (if n <? 0 then flag_octets s + - n else n) true) false, 0).
(** src/hdlc.c:497-504 hdlc_tx_abort *)
Definition hdlc_tx_abort (s : txs) : txs * Z :=
  (tset_abort (tset_flags s (flag_octets s + 1) (rfu s)) (abort_octets s + 1), -1).
(** src/hdlc.c:507-518 hdlc_tx_corrupt_frame *)
Definition hdlc_tx_corrupt_frame (s : txs) : res (txs * Z) :=
  if tlen s <=? 0 then Ok (s, -1)
  else
    let flip b i := do x <- aget b i; aset b i (Z.lxor x 0xFF) in
    do b <- flip (tbuf s) HDLC_MAXFRAME_LEN;
    do b <- flip b (HDLC_MAXFRAME_LEN + 1);
    do b <- flip b (HDLC_MAXFRAME_LEN + 2);
    do b <- flip b (HDLC_MAXFRAME_LEN + 3);
    Ok (tset_frame s b (tlen s) (pos s) (Z.lxor (crc s) 0xFFFF), 0).

(** The API calls an application (or its underflow handler) can make. *)
Inductive uop := UFrame (l : list Z) | UFlags (n : Z) | UAbort | UCorrupt.
(** The result includes, for an accepted hdlc_tx_frame, whether it started a new frame, and the octets. *)
Definition do_uop (c : txcfg) (s : txs) (o : uop) : res (txs * list (bool * list Z)) :=
  match o with
  | UFrame l => do (s', r) <- hdlc_tx_frame c s l;
                Ok (s', if (r =? 0) && negb (Z.of_nat (length l) =? 0) then [(tlen s =? 0, l)] else [])
  | UFlags n => Ok (fst (hdlc_tx_flags s n), [])
  | UAbort => Ok (fst (hdlc_tx_abort s), [])
  | UCorrupt => do (s, _) <- hdlc_tx_corrupt_frame s; Ok (s, [])
  end.
Fixpoint do_uops (c : txcfg) (s : txs) (l : list uop) : res (txs * list (bool * list Z)) :=
  match l with
  | [] => Ok (s, [])
  | o :: l => do (s, a) <- do_uop c s o; do (s, a') <- do_uops c s l; Ok (s, a ++ a')
  end.
(** One call of the underflow handler. *)
Definition underflow (c : txcfg) (s : txs) (h : list (list uop)) : res (txs * list (list uop) * list (bool * list Z)) :=
  match h with
  | [] => Ok (s, [], [])
  | l :: h => do (s, a) <- do_uops c s l; Ok (s, h, a)
  end.

(** src/hdlc.c:613-625: the bit loop *)
Fixpoint stuff_loop (n : nat) (o k b : Z) : Z * Z :=
  match n with
  | O => (o, k)
  | S m =>
    let o := Z.lor (u32 (Z.shiftl o 1)) (Z.land b 1) in
    let b := Z.shiftr b 1 in
    if Z.land o 0x1F =? 0x1F then stuff_loop m (u32 (Z.shiftl o 1)) (k + 1) b else stuff_loop m o k b
  end.
(** src/hdlc.c:609-627: take the next octet of the frame *)
Definition next_octet (s : txs) : res (Z * txs) :=
  do b <- aget (tbuf s) (pos s);
  let i := bottom_bit (Z.lor b 0x100) in
  let '(o, k) := stuff_loop (Z.to_nat (8 - i)) (u32 (Z.shiftl (oip s) i)) (tnb s) (Z.shiftr b i) in
  let s := tset_bits (tset_frame s (tbuf s) (tlen s) (pos s + 1) (crc s)) o k (idle_octet s) in
  Ok (Z.land (Z.shiftr o k) 0xFF, s).
(** src/hdlc.c:521-638 hdlc_tx_get_byte *)
Definition hdlc_tx_get_byte (c : txcfg) (s : txs) (h : list (list uop))
  : res (Z * txs * list (list uop) * list (bool * list Z)) :=
  if 0 <? flag_octets s then
    let s := tset_flags s (flag_octets s - 1) (rfu s) in
    do (s, h, a) <- (if (flag_octets s <=? 0) && rfu s then
                       let s := tset_flags s (flag_octets s) false in
                       if tlen s =? 0 then underflow c s h else Ok (s, h, [])
                     else Ok (s, h, []));
    if negb (abort_octets s =? 0) then Ok (0x7F, tset_abort s 0, h, a)
    else Ok (idle_octet s, s, h, a)
  else if negb (tlen s =? 0) then
    if 8 <=? tnb s then
      let n := tnb s - 8 in
      Ok (Z.land (Z.shiftr (oip s) n) 0xFF, tset_bits s (oip s) n (idle_octet s), h, [])
    else if (tlen s <=? pos s) && (pos s =? tlen s) then
      let k := Z.lxor (crc s) 0xFFFFFFFF in
      do b <- aset (tbuf s) HDLC_MAXFRAME_LEN (u8 k);
      do b <- aset b (HDLC_MAXFRAME_LEN + 1) (u8 (Z.shiftr k 8));
      do b <- (if tx_crc_bytes c =? 4 then
                 do b <- aset b (HDLC_MAXFRAME_LEN + 2) (u8 (Z.shiftr k 16));
                 aset b (HDLC_MAXFRAME_LEN + 3) (u8 (Z.shiftr k 24))
               else Ok b);
      do (x, s) <- next_octet (tset_frame s b (tlen s) HDLC_MAXFRAME_LEN k);
      Ok (x, s, h, [])
    else if (tlen s <=? pos s) && (pos s =? HDLC_MAXFRAME_LEN + tx_crc_bytes c) then
      let n := tnb s in
      let txbyte := u8 (Z.lor (u32 (Z.shiftl (oip s) (8 - n))) (Z.shiftr 0x7E n)) in
      let idle := Z.land (Z.shiftr 0x7E7E n) 0xFF in
      let s := tset_bits s (Z.shiftr idle (8 - n)) n idle in
      let s := tset_frame s (tbuf s) 0 0 (crc_seed c) in
      let s := tset_flags s (inter_frame_flags c - 1) false in
      do (s, h, a) <- underflow c s h;
      let s := if (tlen s =? 0) && (flag_octets s <? 2) then tset_flags s 2 (rfu s) else s in
      Ok (txbyte, s, h, a)
    else
      do (x, s) <- next_octet s; Ok (x, s, h, [])
  else if tx_end s then Ok (SIG_STATUS_END_OF_DATA, tset_end s false, h, [])
  else Ok (idle_octet s, s, h, []).

(** src/hdlc.c:641-656 hdlc_tx_get_bit *)
Definition hdlc_tx_get_bit (c : txcfg) (s : txs) (h : list (list uop))
  : res (Z * txs * list (list uop) * list (bool * list Z)) :=
  if tbits s =? 0 then
    do (b, s, h, a) <- hdlc_tx_get_byte c s h;
    if b <? 0 then Ok (b, tset_byte s b 0, h, a)
    else Ok (Z.land (Z.shiftr b 7) 1, tset_byte s b 7, h, a)
  else
    let n := tbits s - 1 in Ok (Z.land (Z.shiftr (tbyte s) n) 1, tset_byte s (tbyte s) n, h, []).
(** src/hdlc.c:676-679 hdlc_tx_set_max_frame_len *)
Definition hdlc_tx_set_max_frame_len (s : txs) (m : Z) : txs :=
  tset_max s (if m <=? HDLC_MAXFRAME_LEN then m else HDLC_MAXFRAME_LEN).
(** src/hdlc.c:682-701 hdlc_tx_restart *)
Definition hdlc_tx_restart (c : txcfg) (s : txs) : txs :=
  tset_end (tset_byte (tset_frame (tset_abort (tset_flags (tset_bits s 0 0 0x7E) 0 false) 0) (tbuf s) 0 0 (crc_seed c)) 0 0) false.

(** An application's behaviour: API calls interleaved with the modem fetching octets. *)
Inductive op := OGet | OCall (u : uop).
(** The octets (and end of data codes) fetched, and the frames accepted. *)
Fixpoint tx_exec (c : txcfg) (s : txs) (h : list (list uop)) (l : list op)
  : res (txs * list (list uop) * list Z * list (bool * list Z)) :=
  match l with
  | [] => Ok (s, h, [], [])
  | OGet :: l => do (b, s, h, a) <- hdlc_tx_get_byte c s h; do (s, h, o, a') <- tx_exec c s h l; Ok (s, h, b :: o, a ++ a')
  | OCall u :: l => do (s, a) <- do_uop c s u; do (s, h, o, a') <- tx_exec c s h l; Ok (s, h, o, a ++ a')
  end.
