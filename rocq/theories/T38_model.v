(** Model of src/t38_core.c: the IFP packets of T.38 and their sequence numbers.

    The rx and tx handlers are events of the result, in call order; the tx packet
    handler's success is an argument.  Handlers do not call back into the T.38
    core.  Names, logging and the option setters that only store a value are not
    modelled.  The packet buffers of the senders are lists with the capacity of the
    C array: writing past the end is UB, as is reading a received packet outside
    its octets. *)
From Verif Require Import Base.
Local Open Scope Z_scope.

(** src/spandsp/t38_core.h 76-160 *)
Definition T38_IND_V17_14400_LONG_TRAINING := 15.
Definition T38_IND_V8_ANSAM := 16.
Definition T38_IND_V33_14400_TRAINING := 22.
Definition T38_DATA_V17_14400 := 8.
Definition T38_DATA_V8 := 9.
Definition T38_DATA_V33_14400 := 14.
Definition T38_FIELD_T4_NON_ECM_SIG_END := 7.
Definition T38_FIELD_CM_MESSAGE := 8.
Definition T38_FIELD_V34RATE := 11.
Inductive transport := UDPTL | RTP | TCP | TCP_TPKT.
Definition ACCEPTABLE_SEQ_NO_OFFSET := 2000.   (* t38_core.c 64 *)

(** src/spandsp/private/t38_core.h: the fields used here *)
Record t38 := { t38_version : Z; data_transport_protocol : transport; check_sequence_numbers : bool;
                pace_transmission : bool; allow_for_tep : bool; category_control : list Z;
                tx_seq_no : Z; rx_expected_seq_no : Z;
                current_rx_indicator : Z; current_rx_data_type : Z; current_rx_field_type : Z;
                current_tx_indicator : Z; missing_packets : Z }.
(** t38_core.c 1196-1213 t38_core_restart *)
Definition t38_core_restart (s : t38) : t38 :=
  {| t38_version := t38_version s; data_transport_protocol := data_transport_protocol s; check_sequence_numbers := check_sequence_numbers s;
     pace_transmission := pace_transmission s; allow_for_tep := allow_for_tep s; category_control := category_control s;
     tx_seq_no := tx_seq_no s; rx_expected_seq_no := -1;
     current_rx_indicator := -1; current_rx_data_type := -1; current_rx_field_type := -1;
     current_tx_indicator := -1; missing_packets := missing_packets s |}.
(** t38_core.c 1216-1265 t38_core_init, followed by the setters of the version and so on *)
Definition t38_core_init (version : Z) (tr : transport) (check pace tep : bool) (cats : list Z) : t38 :=
  t38_core_restart
  {| t38_version := version; data_transport_protocol := tr; check_sequence_numbers := check;
     pace_transmission := pace; allow_for_tep := tep; category_control := cats;
     tx_seq_no := 0; rx_expected_seq_no := 0;
     current_rx_indicator := 0; current_rx_data_type := 0; current_rx_field_type := 0;
     current_tx_indicator := 0; missing_packets := 0 |}.
Definition set_rx (s : t38) (ind dt ft : Z) : t38 :=
  {| t38_version := t38_version s; data_transport_protocol := data_transport_protocol s; check_sequence_numbers := check_sequence_numbers s;
     pace_transmission := pace_transmission s; allow_for_tep := allow_for_tep s; category_control := category_control s;
     tx_seq_no := tx_seq_no s; rx_expected_seq_no := rx_expected_seq_no s;
     current_rx_indicator := ind; current_rx_data_type := dt; current_rx_field_type := ft;
     current_tx_indicator := current_tx_indicator s; missing_packets := missing_packets s |}.
Definition set_expected (s : t38) (e missing : Z) : t38 :=
  {| t38_version := t38_version s; data_transport_protocol := data_transport_protocol s; check_sequence_numbers := check_sequence_numbers s;
     pace_transmission := pace_transmission s; allow_for_tep := allow_for_tep s; category_control := category_control s;
     tx_seq_no := tx_seq_no s; rx_expected_seq_no := e;
     current_rx_indicator := current_rx_indicator s; current_rx_data_type := current_rx_data_type s; current_rx_field_type := current_rx_field_type s;
     current_tx_indicator := current_tx_indicator s; missing_packets := missing |}.
Definition set_tx (s : t38) (seq ind : Z) : t38 :=
  {| t38_version := t38_version s; data_transport_protocol := data_transport_protocol s; check_sequence_numbers := check_sequence_numbers s;
     pace_transmission := pace_transmission s; allow_for_tep := allow_for_tep s; category_control := category_control s;
     tx_seq_no := seq; rx_expected_seq_no := rx_expected_seq_no s;
     current_rx_indicator := current_rx_indicator s; current_rx_data_type := current_rx_data_type s; current_rx_field_type := current_rx_field_type s;
     current_tx_indicator := ind; missing_packets := missing_packets s |}.

(** ---- Receiving ---- *)
(** rx_indicator_handler(ind), rx_data_handler(data_type, field_type, msg, numocts),
    rx_missing_handler(rx_seq_no, expected_seq_no); no data is an empty list. *)
Inductive rx_event := EInd (i : Z) | EData (data_type field_type : Z) (data : list Z) | EMissing (from to : Z).

(** get_net_unaligned_uint16(&buf[p]) *)
Definition get_net16 (buf : list Z) (p : Z) : res Z :=
  do h <- aget buf p ; do l <- aget buf (p + 1) ; Ok (Z.lor (Z.shiftl h 8) l).
(** ((buf[ptr] << 2) & 0x3C) | ((buf[ptr + 1] >> 6) & 0x3) *)
Definition ext_code (b0 b1 : Z) : Z := Z.lor (Z.land (Z.shiftl b0 2) 0x3C) (Z.land (Z.shiftr b1 6) 3).
Definition bit_of (b k : Z) : bool := negb (Z.land (Z.shiftr b k) 1 =? 0).

(** A pass ends early with a return value, or goes on. *)
Inductive early (A : Type) := Return (r : Z) | Go (a : A).
Arguments Return {A}. Arguments Go {A}.

(** The checking run over the fields, 483-591: one field. *)
Definition check_field (version ret : Z) (buf : list Z) (pkt_len ptr : Z) (half : bool) : res (early (Z * bool)) :=
  if pkt_len <=? ptr then Ok (Return ret)
  else
    do b <- aget buf ptr ;
    do h <-
      (if version =? 0 then
         let '(present, ft, ptr, half) :=
           if half : bool then (bit_of b 3, Z.land b 7, ptr + 1, false)
           else if bit_of b 7 then (true, Z.land (Z.shiftr b 4) 7, ptr + 1, false)
           else (false, Z.land (Z.shiftr b 4) 7, ptr, true) in
         if T38_FIELD_T4_NON_ECM_SIG_END <? ft then Ok (Return (-1)) else Ok (Go (present, ptr, half))
       else if bit_of b 6 then
         if pkt_len <? ptr + 2 then Ok (Return ret)
         else
           do b1 <- aget buf (ptr + 1) ;
           if T38_FIELD_V34RATE <? T38_FIELD_CM_MESSAGE + ext_code b b1 then Ok (Return (-1))
           else Ok (Go (bit_of b 7, ptr + 2, half))
       else Ok (Go (bit_of b 7, ptr + 1, half))) ;
    match h with
    | Return r => Ok (Return r)
    | Go (present, ptr, half) =>
        do p <-
          (if present : bool then
             if pkt_len <? ptr + 2 then Ok (Return ret)
             else do n <- get_net16 buf ptr ; Ok (Go (ptr + (n + 1) + 2))
           else Ok (Go ptr)) ;
        match p with
        | Return r => Ok (Return r)
        | Go ptr => if pkt_len <? ptr then Ok (Return ret) else Ok (Go (ptr, half))
        end
    end.
Fixpoint check_fields (version ret : Z) (buf : list Z) (pkt_len : Z) (n : nat) (ptr : Z) (half : bool) : res (early (Z * bool)) :=
  match n with
  | O => Ok (Go (ptr, half))
  | S n =>
      do r <- check_field version ret buf pkt_len ptr half ;
      match r with
      | Return r => Ok (Return r)
      | Go (ptr, half) => check_fields version ret buf pkt_len n ptr half
      end
  end.
(** The run that processes the fields, 593-660: one field. *)
Definition take_field (version : Z) (buf : list Z) (ptr : Z) (half : bool) : res (Z * list Z * Z * bool) :=
  do b <- aget buf ptr ;
  do (present, ft, ptr, half) <-
    (if version =? 0 then
       Ok (if half : bool then (bit_of b 3, Z.land b 7, ptr + 1, false)
           else if bit_of b 7 then (true, Z.land (Z.shiftr b 4) 7, ptr + 1, false)
           else (false, Z.land (Z.shiftr b 4) 7, ptr, true))
     else if bit_of b 6 then
       do b1 <- aget buf (ptr + 1) ;
       Ok (bit_of b 7, T38_FIELD_CM_MESSAGE + ext_code b b1, ptr + 2, half)
     else Ok (bit_of b 7, Z.land (Z.shiftr b 3) 7, ptr + 1, half)) ;
  if present : bool then
    do n <- get_net16 buf ptr ;
    do msg <- aslice buf (ptr + 2) (n + 1) ;
    Ok (ft, msg, ptr + (n + 1) + 2, half)
  else Ok (ft, [], ptr, half).
Fixpoint take_fields (version : Z) (buf : list Z) (dt : Z) (n : nat) (ptr : Z) (half : bool) (s : t38)
  : res (t38 * list rx_event * Z * bool) :=
  match n with
  | O => Ok (s, [], ptr, half)
  | S n =>
      do (ft, msg, ptr, half) <- take_field version buf ptr half ;
      do (s, evs, ptr, half) <- take_fields version buf dt n ptr half (set_rx s (current_rx_indicator s) dt ft) ;
      Ok (s, EData dt ft msg :: evs, ptr, half)
  end.

(** 356-676 t38_core_rx_ifp_stream: the handler calls and the return value. *)
Definition t38_core_rx_ifp_stream (s : t38) (buf : list Z) : res (t38 * list rx_event * Z) :=
  let len := Z.of_nat (length buf) in
  let ret := match data_transport_protocol s with TCP => 0 | _ => -1 end in
  do hd <-
    match data_transport_protocol s with
    | TCP_TPKT =>
        if 4 <=? len then
          do b0 <- aget buf 0 ;
          do b1 <- aget buf 1 ;
          if negb (b0 =? 3) then Ok (Return (-1))
          else if negb (b1 =? 0) then Ok (Return (-1))
          else
            do pkt_len <- get_net16 buf 2 ;
            if len <? pkt_len then Ok (Return 0) else Ok (Go (4, pkt_len))
        else Ok (Go (0, len))
    | _ => Ok (Go (0, len))
    end ;
  match hd with
  | Return r => Ok (s, [], r)
  | Go (ptr, pkt_len) =>
      if pkt_len <? ptr + 1 then Ok (s, [], ret)
      else
        do b <- aget buf ptr ;
        let data_field_present := bit_of b 7 in
        if negb (bit_of b 6) then
          if data_field_present then Ok (s, [], -1)
          else
            let s := set_rx s (current_rx_indicator s) (-1) (-1) in
            do r <-
              (if bit_of b 5 then
                 if pkt_len <? ptr + 2 then Ok (Return ret)
                 else
                   do b1 <- aget buf (ptr + 1) ;
                   let i := T38_IND_V8_ANSAM + ext_code b b1 in
                   if T38_IND_V33_14400_TRAINING <? i then Ok (Return (-1)) else Ok (Go (i, ptr + 2))
               else Ok (Go (Z.land (Z.shiftr b 1) 0xF, ptr + 1))) ;
            match r with
            | Return r => Ok (s, [], r)
            | Go (i, ptr) =>
                Ok (set_rx s i (current_rx_data_type s) (current_rx_field_type s), [EInd i], if pkt_len <? ptr then ret else ptr)
            end
        else
          do r <-
            (if bit_of b 5 then
               if pkt_len <? ptr + 2 then Ok (Return ret)
               else
                 do b1 <- aget buf (ptr + 1) ;
                 let dt := T38_DATA_V8 + ext_code b b1 in
                 if T38_DATA_V33_14400 <? dt then Ok (Return (-1)) else Ok (Go (dt, ptr + 2))
             else
               let dt := Z.land (Z.shiftr b 1) 0xF in
               if T38_DATA_V17_14400 <? dt then Ok (Return (-1)) else Ok (Go (dt, ptr + 1))) ;
          match r with
          | Return r => Ok (s, [], r)
          | Go (dt, ptr) =>
              if negb data_field_present then Ok (s, [], if pkt_len <? ptr then ret else ptr)
              else if pkt_len <=? ptr then Ok (s, [], ret)
              else
                do count <- aget buf ptr ;
                let prev := ptr + 1 in
                do r <- check_fields (t38_version s) ret buf pkt_len (Z.to_nat count) prev false ;
                match r with
                | Return r => Ok (s, [], r)
                | Go (ptr, half) =>
                    if pkt_len <? (if half : bool then ptr + 1 else ptr) then Ok (s, [], ret)
                    else
                      do (s, evs, ptr, half) <- take_fields (t38_version s) buf dt (Z.to_nat count) prev false s ;
                      let ptr := if half : bool then ptr + 1 else ptr in
                      Ok (s, evs, if pkt_len <? ptr then ret else ptr)
                end
          end
  end.

(** 312-353 classify_seq_no_offset *)
Definition classify_seq_no_offset (expected actual : Z) : Z :=
  if actual <? expected then
    if actual + 0x10000 - ACCEPTABLE_SEQ_NO_OFFSET <? expected then 1
    else if expected <? actual + ACCEPTABLE_SEQ_NO_OFFSET then -1
    else 0
  else
    if actual <? expected + ACCEPTABLE_SEQ_NO_OFFSET then 1
    else if expected + 0x10000 - ACCEPTABLE_SEQ_NO_OFFSET <? actual then -1
    else 0.

(** 679-768 t38_core_rx_ifp_packet; the missing_packets count is unbounded here. *)
Definition t38_core_rx_ifp_packet (s : t38) (buf : list Z) (seq_no : Z) : res (t38 * list rx_event * Z) :=
  let seq_no := u16 seq_no in
  let e := rx_expected_seq_no s in
  let seqd :=
    if check_sequence_numbers s then
      if negb (seq_no =? e) then
        if negb (e =? -1) then
          if Z.land (seq_no + 1) 0xFFFF =? e then Return 0
          else
            let k := classify_seq_no_offset e seq_no in
            if k =? -1 then Return 0
            else if k =? 1 then Go (set_expected s seq_no (missing_packets s + (seq_no - e)), [EMissing e seq_no])
            else Go (set_expected s seq_no (missing_packets s + 1), [EMissing (-1) (-1)])
        else Go (set_expected s seq_no (missing_packets s), [])
      else Go (s, [])
    else Go (s, []) in
  match seqd with
  | Return r => Ok (s, [], r)
  | Go (s, evs) =>
      if Z.of_nat (length buf) <? 1 then Ok (s, evs, -1)
      else
        let s := set_expected s (Z.land (rx_expected_seq_no s + 1) 0xFFFF) (missing_packets s) in
        do (s, evs2, ptr) <- t38_core_rx_ifp_stream s buf ;
        Ok (s, evs ++ evs2, if ptr =? Z.of_nat (length buf) then 0 else -1)
  end.

(** ---- Sending ---- *)
(** buf[len++] = b, in a buffer of [cap] octets *)
Definition put8 (cap : Z) (out : list Z) (b : Z) : res (list Z) :=
  if Z.of_nat (length out) <? cap then Ok (out ++ [u8 b]) else UB.
Definition put16 (cap : Z) (out : list Z) (x : Z) : res (list Z) :=
  do out <- put8 cap out (Z.shiftr x 8) ; put8 cap out x.
Definition putn (cap : Z) (out : list Z) (l : list Z) : res (list Z) :=
  if Z.of_nat (length out) + Z.of_nat (length l) <=? cap then Ok (out ++ l) else UB.
(** Space for the TPKT header, filled in at the end. *)
Definition tpkt_space (s : t38) : list Z := match data_transport_protocol s with TCP_TPKT => [0; 0; 0; 0] | _ => [] end.
Definition tpkt_fill (s : t38) (out : list Z) (len : Z) : res (list Z) :=
  match data_transport_protocol s with
  | TCP_TPKT => ablit out 0 [3; 0; u8 (Z.shiftr (u16 len) 8); u8 len]
  | _ => Ok out
  end.

(** 771-813 t38_encode_indicator; the indicator is 0..255. *)
Definition t38_encode_indicator (s : t38) (indicator : Z) : res (Z * list Z) :=
  let out := tpkt_space s in
  do (len, out) <-
    (if indicator <=? T38_IND_V17_14400_LONG_TRAINING then
       do out <- put8 100 out (u8 (Z.shiftl indicator 1)) ; Ok (Z.of_nat (length out), out)
     else if negb (t38_version s =? 0) && (indicator <=? T38_IND_V33_14400_TRAINING) then
       do out <- put16 100 out (Z.lor 0x2000 (Z.shiftl (indicator - T38_IND_V8_ANSAM) 6)) ; Ok (Z.of_nat (length out), out)
     else Ok (-1, out)) ;
  do out <- tpkt_fill s out len ;
  Ok (len, out).

(** t38_data_field_t; no data is a field_len of 0. *)
Record field := { field_type : Z; field_data : list Z }.
(** 899-948: one field *)
Definition encode_field (version : Z) (out : list Z) (q : field) : res (option (list Z)) :=
  let n := Z.of_nat (length (field_data q)) in
  let present := if 0 <? n then 1 else 0 in
  let ft := field_type q in
  if ft <? 0 then UB
  else
    do o <-
      (if version =? 0 then
         if T38_FIELD_T4_NON_ECM_SIG_END <? ft then Ok None
         else do out <- put8 1000 out (Z.lor (Z.shiftl present 7) (Z.shiftl ft 4)) ; Ok (Some out)
       else if ft <=? T38_FIELD_T4_NON_ECM_SIG_END then
         do out <- put8 1000 out (Z.lor (Z.shiftl present 7) (Z.shiftl ft 3)) ; Ok (Some out)
       else if ft <=? T38_FIELD_V34RATE then
         do out <- put8 1000 out (Z.lor (Z.lor (Z.shiftl present 7) 0x40) (Z.shiftr (ft - T38_FIELD_CM_MESSAGE) 2)) ;
         do out <- put8 1000 out (Z.land (Z.shiftl (ft - T38_FIELD_CM_MESSAGE) 6) 0xC0) ;
         Ok (Some out)
       else Ok None) ;
    match o with
    | None => Ok None
    | Some out =>
        if 0 <? n then
          if (n <? 1) || (65535 <? n) then Ok None
          else
            do out <- put16 1000 out (n - 1) ;
            do out <- putn 1000 out (field_data q) ;
            Ok (Some out)
        else Ok (Some out)
    end.
Fixpoint encode_fields (version : Z) (out : list Z) (fs : list field) : res (option (list Z)) :=
  match fs with
  | [] => Ok (Some out)
  | q :: t =>
      do o <- encode_field version out q ;
      match o with
      | None => Ok None
      | Some out => encode_fields version out t
      end
  end.
(** 816-976 t38_encode_data; both callers have a buffer of 1000 octets.  With 16384
    fields or more the first fragment alone does not fit, so the loop never starts
    a second. *)
Definition t38_encode_data (s : t38) (data_type : Z) (fs : list field) : res (Z * list Z) :=
  let out := tpkt_space s in
  let fields := Z.of_nat (length fs) in
  let present := if 0 <? fields then 0x80 else 0 in
  if data_type <? 0 then UB
  else
    do o <-
      (if data_type <=? T38_DATA_V17_14400 then
         do out <- put8 1000 out (Z.lor (Z.lor present 0x40) (Z.shiftl data_type 1)) ; Ok (Some out)
       else if negb (t38_version s =? 0) && (data_type <=? T38_DATA_V33_14400) then
         do out <- put16 1000 out (Z.lor (Z.lor (Z.shiftl present 8) 0x6000) (Z.shiftl (data_type - T38_DATA_V8) 6)) ; Ok (Some out)
       else Ok None) ;
    match o with
    | None => Ok (-1, out)
    | Some out =>
        do o <-
          (if 0 <? fields then
             if fields <? 0x80 then
               do out <- put8 1000 out fields ; encode_fields (t38_version s) out fs
             else if fields <? 0x4000 then
               do out <- put16 1000 out (Z.lor 0x8000 fields) ; encode_fields (t38_version s) out fs
             else
               let multiplier := if fields / 0x4000 <? 4 then fields / 0x4000 else 4 in
               do out <- put8 1000 out (Z.lor 0xC0 multiplier) ;
               do o <- encode_fields (t38_version s) out (firstn (Z.to_nat (0x4000 * multiplier)) fs) ;
               match o with None => Ok None | Some _ => UB end
           else Ok (Some out)) ;
        match o with
        | None => Ok (-1, out)
        | Some out =>
            let len := Z.of_nat (length out) in
            do out <- tpkt_fill s out len ;
            Ok (len, out)
        end
    end.

(** tx_packet_handler(buf, len, transmissions), with the sequence number the handler
    finds in the state *)
Record packet := { p_seq : Z; p_octets : list Z; p_count : Z }.

(** 71-102 modem_startup_time: tep, training *)
Definition startup_tep : list Z :=
  [0; 0; 0; 0; 215000; 215000; 215000; 215000; 215000; 215000; 215000; 215000; 215000; 215000; 215000; 215000; 0; 0; 0; 0; 0; 215000; 215000].
Definition startup_training : list Z :=
  [75000; 0; 3000000; 0; 943000; 708000; 234000; 234000; 142000; 1393000; 142000; 1393000; 142000; 1393000; 142000; 1393000; 0; 0; 0; 0; 0; 0; 0].

(** 979-1024 t38_core_send_indicator; [ok] says whether the packet handler succeeds. *)
Definition t38_core_send_indicator (s : t38) (indicator : Z) (ok : bool) : res (t38 * list packet * Z) :=
  if negb (current_tx_indicator s =? indicator) then
    do cc <- aget (category_control s) 0 ;
    let transmissions := if negb (Z.land indicator 0x100 =? 0) then 1 else cc in
    let indicator := Z.land indicator 0xFF in
    if negb (cc =? 0) then
      do (len, buf) <- t38_encode_indicator s indicator ;
      if len <? 0 then Ok (s, [], len)
      else
        let p := {| p_seq := tx_seq_no s; p_octets := buf; p_count := transmissions |} in
        if negb ok then Ok (s, [p], -1)
        else
          let s := set_tx s (Z.land (tx_seq_no s + 1) 0xFFFF) (current_tx_indicator s) in
          do delay <-
            (if pace_transmission s then
               do d <- aget startup_training indicator ;
               if allow_for_tep s then do t <- aget startup_tep indicator ; Ok (d + t) else Ok d
             else Ok 0) ;
          Ok (set_tx s (tx_seq_no s) indicator, [p], delay)
    else Ok (set_tx s (tx_seq_no s) indicator, [], 0)
  else Ok (s, [], 0).

(** 1072-1093 t38_core_send_data_multi_field, and with one field 1046-1069
    t38_core_send_data *)
Definition t38_core_send_data_multi_field (s : t38) (data_type : Z) (fs : list field) (category : Z) (ok : bool) : res (t38 * list packet * Z) :=
  do (len, buf) <- t38_encode_data s data_type fs ;
  if len <? 0 then Ok (s, [], len)
  else
    do cc <- aget (category_control s) category ;
    let p := {| p_seq := tx_seq_no s; p_octets := buf; p_count := cc |} in
    if negb ok then Ok (s, [p], -1)
    else Ok (set_tx s (Z.land (tx_seq_no s + 1) 0xFFFF) (current_tx_indicator s), [p], 0).
Definition t38_core_send_data (s : t38) (data_type field_type : Z) (data : list Z) (category : Z) (ok : bool) : res (t38 * list packet * Z) :=
  t38_core_send_data_multi_field s data_type [{| field_type := field_type; field_data := data |}] category ok.

(** 292-309 t38_v34rate_to_bps *)
Fixpoint rate_digits (n : nat) (i rate : Z) (data : list Z) : res Z :=
  match n with
  | O => Ok (rate * 100)
  | S n =>
      do d <- aget data i ;
      if (d <? 48) || (57 <? d) then Ok (-1) else rate_digits n (i + 1) (rate * 10 + d - 48) data
  end.
Definition t38_v34rate_to_bps (data : list Z) : res Z :=
  if Z.of_nat (length data) <? 3 then Ok (-1) else rate_digits 3 0 0 data.
