(** Model of V.8, the procedure by which two modems agree on a modulation: src/v8.c,
    src/spandsp/v8.h, src/spandsp/private/v8.h.

    The V.21 modems are not modelled: the bits fsk_rx gives to put_bit() during a call of
    v8_rx() are an argument of [v8_rx], and a call of v8_tx() is the number of times it calls
    get_bit(); running out of bits makes fsk_tx() return early, so that fsk_tx_on is cleared.
    Nor are the tone detectors: what modem_connect_tones_rx_get() returns is an argument too.
    fsk_rx() and modem_connect_tones_rx() always return 0, so the loop of v8_rx() runs once.
    The silences and the ANSam tone that v8_tx() sends before the FSK only delay get_bit().
    The queue of bits is a list of at most 1024.  Logging and allocation are left out.

    The result handler gets a pointer to the result and may change it: it is the function
    [h].  What it is given is an output.  *)
From Verif Require Import Base.
Local Open Scope Z_scope.

(** ---- src/spandsp/v8.h:123-144 ---- *)
Record caps := { call_function : Z; modulations : Z; protocols : Z; pstn_access : Z; nsf : Z; pcm : Z; t66 : Z }.
Record parms := { status : Z; gateway : bool; tone : Z; send_ci : Z; v92 : Z; jm_cm : caps }.
Definition set_status (p : parms) (v : Z) : parms :=
  {| status := v; gateway := gateway p; tone := tone p; send_ci := send_ci p; v92 := v92 p; jm_cm := jm_cm p |}.
Definition set_caps (p : parms) (c : caps) : parms :=
  {| status := status p; gateway := gateway p; tone := tone p; send_ci := send_ci p; v92 := v92 p; jm_cm := c |}.
Definition set_tone (p : parms) (v : Z) : parms :=
  {| status := status p; gateway := gateway p; tone := v; send_ci := send_ci p; v92 := v92 p; jm_cm := jm_cm p |}.
Definition w_call (v : Z) (c : caps) : caps :=
  {| call_function := v; modulations := modulations c; protocols := protocols c; pstn_access := pstn_access c; nsf := nsf c; pcm := pcm c; t66 := t66 c |}.
Definition w_mods (v : Z) (c : caps) : caps :=
  {| call_function := call_function c; modulations := v; protocols := protocols c; pstn_access := pstn_access c; nsf := nsf c; pcm := pcm c; t66 := t66 c |}.
Definition w_prot (v : Z) (c : caps) : caps :=
  {| call_function := call_function c; modulations := modulations c; protocols := v; pstn_access := pstn_access c; nsf := nsf c; pcm := pcm c; t66 := t66 c |}.
Definition w_pstn (v : Z) (c : caps) : caps :=
  {| call_function := call_function c; modulations := modulations c; protocols := protocols c; pstn_access := v; nsf := nsf c; pcm := pcm c; t66 := t66 c |}.
Definition w_nsf (v : Z) (c : caps) : caps :=
  {| call_function := call_function c; modulations := modulations c; protocols := protocols c; pstn_access := pstn_access c; nsf := v; pcm := pcm c; t66 := t66 c |}.
Definition w_pcm (v : Z) (c : caps) : caps :=
  {| call_function := call_function c; modulations := modulations c; protocols := protocols c; pstn_access := pstn_access c; nsf := nsf c; pcm := v; t66 := t66 c |}.
Definition w_t66 (v : Z) (c : caps) : caps :=
  {| call_function := call_function c; modulations := modulations c; protocols := protocols c; pstn_access := pstn_access c; nsf := nsf c; pcm := pcm c; t66 := v |}.

(** src/spandsp/v8.h:69-85: the bits of [modulations] *)
Definition V17 := 0x1.
Definition V21 := 0x2.
Definition V22 := 0x4.
Definition V23HDX := 0x8.
Definition V23 := 0x10.
Definition V26BIS := 0x20.
Definition V26TER := 0x40.
Definition V27TER := 0x80.
Definition V29 := 0x100.
Definition V32 := 0x200.
Definition V34HDX := 0x400.
Definition V34 := 0x800.
Definition V90 := 0x1000.
(** src/spandsp/v8.h:101-121 *)
Definition IN_PROGRESS := 0.
Definition OFFERED := 1.
Definition V8_CALL := 2.
Definition NON_V8_CALL := 3.
Definition FAILED := 4.
Definition CALL_FUNCTION_RECEIVED := 5.
Definition CALLING_TONE_RECEIVED := 6.
Definition FAX_CNG_TONE_RECEIVED := 7.
(** src/spandsp/modem_connect_tones.h: the tones the protocol tells apart *)
Inductive answer := ANSam | Plain_tone.

(** src/v8.c:72-116 *)
Inductive state := WAIT_1S | AWAIT_ANSAM | CI_ON | CI_OFF | HEARD_ANSAM | CM_ON | CJ_ON | CM_WAIT | POST_CM_WAIT | JM_ON | SIGA | PARKED.
Inductive sync := SYNC_UNKNOWN | SYNC_CI | SYNC_CM_JM | SYNC_V92.

(** ---- the receiver: the fields of src/spandsp/private/v8.h:60-86 ----
    rx_data_ptr and cm_jm_len are the lengths of the lists.  rx_data[0] keeps its value when rx_data_ptr is set to 0. *)
Record rcv := { bit_stream : Z; bit_cnt : Z; ptype : sync; rx_data : list Z; rx0 : Z; cm_data : list Z;
                got_ci : bool; got_cm : bool; got_cj : bool; zeros : Z; mbytes : Z; result : parms }.
Definition w_result (p : parms) (r : rcv) : rcv :=
  {| bit_stream := bit_stream r; bit_cnt := bit_cnt r; ptype := ptype r; rx_data := rx_data r; rx0 := rx0 r; cm_data := cm_data r;
     got_ci := got_ci r; got_cm := got_cm r; got_cj := got_cj r; zeros := zeros r; mbytes := mbytes r; result := p |}.
Definition w_decoded (n : Z) (c : caps) (r : rcv) : rcv :=
  {| bit_stream := bit_stream r; bit_cnt := bit_cnt r; ptype := ptype r; rx_data := rx_data r; rx0 := rx0 r; cm_data := cm_data r;
     got_ci := got_ci r; got_cm := true; got_cj := got_cj r; zeros := zeros r; mbytes := n; result := set_caps (result r) c |}.
Definition w_saved (d : list Z) (r : rcv) : rcv :=
  {| bit_stream := bit_stream r; bit_cnt := bit_cnt r; ptype := ptype r; rx_data := rx_data r; rx0 := rx0 r; cm_data := d;
     got_ci := got_ci r; got_cm := got_cm r; got_cj := got_cj r; zeros := zeros r; mbytes := mbytes r; result := result r |}.
Definition w_got_ci (p : parms) (r : rcv) : rcv :=
  {| bit_stream := bit_stream r; bit_cnt := bit_cnt r; ptype := ptype r; rx_data := rx_data r; rx0 := rx0 r; cm_data := cm_data r;
     got_ci := true; got_cm := got_cm r; got_cj := got_cj r; zeros := zeros r; mbytes := mbytes r; result := p |}.
Definition w_bits (b n : Z) (r : rcv) : rcv :=
  {| bit_stream := b; bit_cnt := n; ptype := ptype r; rx_data := rx_data r; rx0 := rx0 r; cm_data := cm_data r;
     got_ci := got_ci r; got_cm := got_cm r; got_cj := got_cj r; zeros := zeros r; mbytes := mbytes r; result := result r |}.
Definition w_sync (t : sync) (r : rcv) : rcv :=
  {| bit_stream := bit_stream r; bit_cnt := 0; ptype := t; rx_data := []; rx0 := rx0 r; cm_data := cm_data r;
     got_ci := got_ci r; got_cm := got_cm r; got_cj := got_cj r; zeros := zeros r; mbytes := mbytes r; result := result r |}.
Definition w_octet (d : list Z) (cj : bool) (z : Z) (r : rcv) : rcv :=
  {| bit_stream := bit_stream r; bit_cnt := 0; ptype := ptype r; rx_data := d; rx0 := nth 0 d 0; cm_data := cm_data r;
     got_ci := got_ci r; got_cm := got_cm r; got_cj := cj; zeros := z; mbytes := mbytes r; result := result r |}.

Definition has (v m : Z) : bool := negb (Z.land v m =? 0).
Definition add (b : bool) (v m : Z) : Z := if b then Z.lor v m else v.
Definition extension (o : Z) : bool := Z.land o 0x38 =? 0x10.
(** [*p]; the list is what is left of cm_jm_data *)
Definition rd (l : list Z) : res Z := match l with [] => UB | o :: _ => Ok o end.

(** src/v8.c:354-422 process_modulation_mode: the modulations, the number of octets, and p *)
Definition process_modulation_mode (o : Z) (t : list Z) : res (Z * Z * list Z) :=
  let m := add (has o 0x20) (add (has o 0x40) (add (has o 0x80) 0 V34HDX) V34) V90 in
  do o <- rd t;
  if extension o then
    let m := add (has o 0x01) (add (has o 0x02) (add (has o 0x04) (add (has o 0x40) (add (has o 0x80) m V27TER) V29) V17) V22) V32 in
    let t := tl t in
    do o <- rd t;
    if extension o then
      let m := add (has o 0x01) (add (has o 0x02) (add (has o 0x04) (add (has o 0x40) (add (has o 0x80) m V21) V23HDX) V23) V26BIS) V26TER in
      Ok (m, 3, tl t)
    else Ok (m, 2, t)
  else Ok (m, 1, t).
(** src/v8.c:346-351, 425-463: the other fields have a value of 3 bits *)
Definition value (o : Z) : Z := Z.land (Z.shiftr o 5) 7.
(** src/v8.c:544-547 *)
Fixpoint skip_extensions (l : list Z) : res (list Z) :=
  match l with
  | [] => UB
  | o :: t => if extension o then skip_extensions t else Ok l
  end.
(** src/v8.c:508-549: the loop of cm_jm_decode.  UB stands for a loop that does not end, too:
    each turn but one of an NSF octet takes at least one octet. *)
Fixpoint decode_loop (fuel : nat) (n : Z) (c : caps) (p : list Z) : res (Z * caps) :=
  match fuel with
  | O => UB
  | S k =>
      do o <- rd p;
      if o =? 0 then Ok (n, c)
      else
        let t := tl p in
        do (n, c, p) <-
          match Z.land o 0x1F with
          | 0x01 => Ok (n, w_call (value o) c, t)
          | 0x05 => do (m, n, t) <- process_modulation_mode o t; Ok (n, w_mods m c, t)
          | 0x0A => Ok (n, w_prot (value o) c, t)
          | 0x0D => Ok (n, w_pstn (value o) c, t)
          | 0x0F => Ok (n, w_nsf (value o) c, p)
          | 0x07 => Ok (n, w_pcm (value o) c, t)
          | 0x0E => Ok (n, w_t66 (value o) c, t)
          | _ => Ok (n, c, t)
          end;
        do p <- skip_extensions p;
        decode_loop k n c p
  end.
Fixpoint same (a b : list Z) : bool :=
  match a, b with
  | [], [] => true
  | x :: a, y :: b => (x =? y) && same a b
  | _, _ => false
  end.
(** src/v8.c:480-550 cm_jm_decode *)
Definition cm_jm_decode (r : rcv) : res rcv :=
  if got_cm r then Ok r
  else if (Z.of_nat (length (cm_data r)) <=? 0) || negb (same (cm_data r) (rx_data r)) then
    if 64 <? Z.of_nat (length (rx_data r)) then UB else Ok (w_saved (rx_data r) r)
  else if 64 <=? Z.of_nat (length (cm_data r)) then UB
  else
    do (n, c) <- decode_loop 64 (mbytes r) (w_mods 0 (jm_cm (result r))) (cm_data r ++ [0]);
    Ok (w_decoded n c r).
(** src/v8.c:337-343, 466-477 ci_decode *)
Definition ci_decode (h : parms -> parms) (r : rcv) : res (rcv * list parms) :=
  if got_ci r then Ok (r, [])
  else
    let o := rx0 r in
    let p := if Z.land o 0x1F =? 0x01 then set_caps (result r) (w_call (value o) (jm_cm (result r))) else result r in
    let p := set_status p CALL_FUNCTION_RECEIVED in
    Ok (w_got_ci (h p) r, [p]).

(** src/v8.c:581-607 *)
Definition preamble_of (b : Z) : sync :=
  if b =? 0x803FF then SYNC_CI else if b =? 0xF03FF then SYNC_CM_JM else if b =? 0xAABFF then SYNC_V92 else SYNC_UNKNOWN.
(** src/v8.c:553-684 put_bit, for bits; the special conditions do nothing *)
Definition put_bit (h : parms -> parms) (r : rcv) (bit : bool) : res (rcv * list parms) :=
  let b := Z.lor (Z.shiftr (bit_stream r) 1) (Z.shiftl (Z.b2z bit) 19) in
  let r := w_bits b (bit_cnt r) r in
  do (r, e) <-
    match preamble_of b with
    | SYNC_UNKNOWN => Ok (r, [])
    | t =>
        do (r, e) <-
          match ptype r with
          | SYNC_CI => ci_decode h r
          | SYNC_CM_JM => do r <- cm_jm_decode r; Ok (r, [])
          | _ => Ok (r, [])
          end;
        Ok (w_sync t r, e)
    end;
  match ptype r with
  | SYNC_UNKNOWN => Ok (r, e)
  | _ =>
      let n := bit_cnt r + 1 in
      let r := w_bits b n r in
      if (Z.land b 0x80400 =? 0x80000) && (10 <=? n) then
        let data := Z.land (Z.shiftr b 11) 0xFF in
        let z := if data =? 0 then zeros r + 1 else 0 in
        let cj := if data =? 0 then (z =? 3) || got_cj r else got_cj r in
        let d := if Z.of_nat (length (rx_data r)) <? 63 then rx_data r ++ [data] else rx_data r in
        Ok (w_octet d cj z r, e)
      else Ok (r, e)
  end.
Fixpoint put_bits (h : parms -> parms) (r : rcv) (l : list bool) : res (rcv * list parms) :=
  match l with
  | [] => Ok (r, [])
  | b :: t => do (r, e) <- put_bit h r b; do (r, e') <- put_bits h r t; Ok (r, e ++ e')
  end.
(** src/v8.c:687-703 v8_decode_init; bit_cnt is not set, but it is not used before the next sync *)
Definition decode_init (r : rcv) : rcv :=
  {| bit_stream := 0; bit_cnt := bit_cnt r; ptype := SYNC_UNKNOWN; rx_data := []; rx0 := rx0 r; cm_data := [];
     got_ci := false; got_cm := false; got_cj := false; zeros := 0; mbytes := mbytes r; result := result r |}.

(** ---- the transmitter ---- *)
Definition QUEUE := 1024%nat.
Definition queue_write (q l : list bool) : list bool := q ++ firstn (QUEUE - length q) l.
(** src/v8.c:719-727 v8_put_preamble *)
Definition put_preamble (q : list bool) : list bool := queue_write q (repeat true 10).
(** src/v8.c:730-752 v8_put_bytes *)
Definition put_byte (q : list bool) (o : Z) : list bool := queue_write q (false :: bits_lsb 8 o ++ [true]).
Definition put_bytes (q : list bool) (l : list Z) : list bool := fold_left put_byte l q.
(** src/v8.c:755-842 send_cm_jm: the octets after the synchronisation octet.  [m] are the result's call function
    and modulations, [p] the parameters. *)
Definition cm_octets (n : Z) (m p : caps) : list Z :=
  let v := modulations m in
  [u8 (Z.lor (Z.shiftl (call_function m) 5) 0x01);
   add (has v V34HDX) (add (has v V34) (add (has v V90) 0x05 0x20) 0x40) 0x80] ++
  (if 1 <? n then
     [add (has v V27TER) (add (has v V29) (add (has v V17) (add (has v V22) (add (has v V32) 0x10 0x01) 0x02) 0x04) 0x40) 0x80]
   else []) ++
  (if 2 <? n then
     [add (has v V21) (add (has v V23HDX) (add (has v V23) (add (has v V26BIS) (add (has v V26TER) 0x10 0x01) 0x02) 0x04) 0x40) 0x80]
   else []) ++
  (if protocols p =? 0 then [] else [u8 (Z.lor (Z.shiftl (protocols p) 5) 0x0A)]) ++
  (if pstn_access p =? 0 then [] else [u8 (Z.lor (Z.shiftl (pstn_access p) 5) 0x0D)]) ++
  (if pcm p =? 0 then [] else [u8 (Z.lor (Z.shiftl (pcm p) 5) 0x07)]) ++
  (if 0 <=? t66 p then [u8 (Z.lor (Z.shiftl (t66 p) 5) 0x0E)] else []).
Definition send_cm_jm (n : Z) (res par : parms) (q : list bool) : list bool :=
  put_bytes (put_preamble q) (0xE0 :: cm_octets n (jm_cm res) (jm_cm par)).
(** src/v8.c:909-928 conditionally_send_v92 *)
Definition send_v92 (par : parms) (q : list bool) : list bool :=
  if 0 <=? v92 par then
    put_bytes (put_preamble (put_bytes (put_preamble q) [0x55; u8 (v92 par)])) [0x55; u8 (v92 par)]
  else q.
(** src/v8.c:931-946 send_ci *)
Definition one_ci (res : parms) (q : list bool) : list bool :=
  put_bytes (put_preamble q) [0x00; u8 (Z.lor (Z.shiftl (call_function (jm_cm res)) 5) 0x01)].
Definition send_ci_burst (res : parms) (q : list bool) : list bool :=
  one_ci res (one_ci res (one_ci res (one_ci res q))).

(** ---- the protocol ---- *)
Record v8 := { calling : bool; st : state; fsk_on : bool; neg_timer : Z; ci_timer : Z; ci_count : Z; proceed : bool;
               queue : list bool; par : parms; rx : rcv }.
Definition w_st (x : state) (s : v8) : v8 :=
  {| calling := calling s; st := x; fsk_on := fsk_on s; neg_timer := neg_timer s; ci_timer := ci_timer s; ci_count := ci_count s;
     proceed := proceed s; queue := queue s; par := par s; rx := rx s |}.
Definition w_neg (x : Z) (s : v8) : v8 :=
  {| calling := calling s; st := st s; fsk_on := fsk_on s; neg_timer := x; ci_timer := ci_timer s; ci_count := ci_count s;
     proceed := proceed s; queue := queue s; par := par s; rx := rx s |}.
Definition w_ci (x n : Z) (s : v8) : v8 :=
  {| calling := calling s; st := st s; fsk_on := fsk_on s; neg_timer := neg_timer s; ci_timer := x; ci_count := n;
     proceed := proceed s; queue := queue s; par := par s; rx := rx s |}.
Definition w_q (on : bool) (q : list bool) (s : v8) : v8 :=
  {| calling := calling s; st := st s; fsk_on := on; neg_timer := neg_timer s; ci_timer := ci_timer s; ci_count := ci_count s;
     proceed := proceed s; queue := q; par := par s; rx := rx s |}.
Definition w_rx (r : rcv) (s : v8) : v8 :=
  {| calling := calling s; st := st s; fsk_on := fsk_on s; neg_timer := neg_timer s; ci_timer := ci_timer s; ci_count := ci_count s;
     proceed := proceed s; queue := queue s; par := par s; rx := r |}.
Definition w_par (p : parms) (b : bool) (s : v8) : v8 :=
  {| calling := calling s; st := st s; fsk_on := fsk_on s; neg_timer := neg_timer s; ci_timer := ci_timer s; ci_count := ci_count s;
     proceed := b; queue := queue s; par := p; rx := rx s |}.
Definition ms (x : Z) : Z := x * 8.
(** the end of a negotiation: status, state and report *)
Definition report (h : parms -> parms) (status : Z) (s : v8) : v8 * list parms :=
  let p := set_status (result (rx s)) status in (w_rx (w_result (h p) (rx s)) s, [p]).
Definition park (h : parms -> parms) (status : Z) (s : v8) : v8 * list parms := report h status (w_st PARKED s).
Definition send_message (s : v8) : list bool := send_cm_jm (mbytes (rx s)) (result (rx s)) (par s) (queue s).
(** src/v8.c:845-906 v8_tx; [n] bits at most are taken *)
Definition v8_tx (s : v8) (n : nat) : v8 * list bool :=
  if fsk_on s then (w_q (n <=? length (queue s))%nat (skipn n (queue s)) s, firstn n (queue s)) else (s, []).
(** src/v8.c:949-974 *)
Definition handle_calling_tone (h : parms -> parms) (s : v8) (a : answer) (v : Z) : v8 * list parms :=
  let s := w_rx (w_result (set_tone (result (rx s)) v) (rx s)) s in
  match a with
  | ANSam => (w_rx (decode_init (rx s)) (w_neg (ms 5000) (w_ci (ms 1000) (ci_count s) (w_st HEARD_ANSAM s))), [])
  | Plain_tone => park h NON_V8_CALL s
  end.
(** src/v8.c:977-1003 *)
Inductive heard := Calling_tone | Cng | Other_tone.
Definition handle_answering_tone (h : parms -> parms) (s : v8) (a : heard) (v : Z) : v8 * list parms :=
  let s := w_rx (w_result (set_tone (result (rx s)) v) (rx s)) s in
  match a with
  | Calling_tone => park h CALLING_TONE_RECEIVED s
  | Cng => park h FAX_CNG_TONE_RECEIVED s
  | Other_tone => park h FAILED s
  end.
(** what the detectors found in a block of samples *)
Record tones := { ansam : option (answer * Z); answering : option (heard * Z) }.
Definition rx_bits (h : parms -> parms) (s : v8) (bits : list bool) : res (v8 * list parms) :=
  do (r, e) <- put_bits h (rx s) bits; Ok (w_rx r s, e).
Definition start_ci (s : v8) : v8 := w_st CI_ON (w_q true (send_ci_burst (result (rx s)) (queue s)) s).
(** src/v8.c:1129-1160: the part shared with V8_HEARD_ANSAM *)
Definition cm_on (h : parms -> parms) (s : v8) (len : Z) (bits : list bool) : res (v8 * list parms) :=
  do (s, e) <- rx_bits h s bits;
  if got_cm (rx s) then Ok (w_st CJ_ON (w_q true (put_bytes (queue s) [0; 0; 0]) s), e)
  else
    let s := w_neg (neg_timer s - len) s in
    let '(s, e') := if neg_timer s <=? 0 then park h FAILED s else (s, []) in
    let s := if (length (queue s) <? 10)%nat then w_q (fsk_on s) (send_message s) s else s in
    Ok (s, e ++ e').
(** src/v8.c:1210-1217, 1236-1243 *)
Definition start_jm (s : v8) : v8 :=
  let s := w_st JM_ON (w_neg (ms 5000) s) in w_q true (send_message s) s.
(** src/v8.c:1035-1304 v8_rx *)
Definition v8_rx (h : parms -> parms) (s : v8) (len : Z) (bits : list bool) (t : tones) : res (v8 * list parms) :=
  match st s with
  | WAIT_1S =>
      let s := w_neg (neg_timer s - len) s in
      if 0 <? neg_timer s then Ok (s, []) else Ok (start_ci s, [])
  | CI_ON =>
      match ansam t with
      | Some (a, v) => Ok (handle_calling_tone h s a v)
      | None => if fsk_on s then Ok (s, []) else Ok (w_neg (ms 5000) (w_ci (ms 500) (ci_count s) (w_st CI_OFF s)), [])
      end
  | CI_OFF =>
      match ansam t with
      | Some (a, v) => Ok (handle_calling_tone h s a v)
      | None =>
          let s := w_ci (ci_timer s - len) (ci_count s) s in
          if ci_timer s <=? 0 then
            let s := w_ci (ci_timer s) (ci_count s + 1) s in
            if 10 <=? ci_count s then Ok (park h FAILED s) else Ok (start_ci s, [])
          else Ok (s, [])
      end
  | AWAIT_ANSAM =>
      match ansam t with
      | Some (a, v) => Ok (handle_calling_tone h s a v)
      | None => Ok (s, [])
      end
  | HEARD_ANSAM =>
      let s := w_ci (ci_timer s - len) (ci_count s) s in
      let s :=
        if ci_timer s <=? 0 then
          let s := w_neg (ms 5000) (w_rx (decode_init (rx s)) s) in
          let s := w_q (fsk_on s) (send_v92 (par s) (queue s)) s in
          w_st CM_ON (w_q true (send_message s) s)
        else s in
      cm_on h s len bits
  | CM_ON => cm_on h s len bits
  | CJ_ON =>
      do (s, e) <- rx_bits h s bits;
      if fsk_on s then Ok (s, e) else let '(s, e') := park h V8_CALL s in Ok (s, e ++ e')
  | CM_WAIT =>
      let '(s, e) := match answering t with Some (a, v) => handle_answering_tone h s a v | None => (s, []) end in
      do (s, e1) <- rx_bits h s bits;
      if got_cm (rx s) then
        let '(s, e2) := report h OFFERED s in
        Ok (if gateway (par s) then w_st POST_CM_WAIT s else start_jm s, e ++ e1 ++ e2)
      else
        let s := w_neg (neg_timer s - len) s in
        let '(s, e2) := if neg_timer s <=? 0 then park h FAILED s else (s, []) in
        Ok (s, e ++ e1 ++ e2)
  | POST_CM_WAIT => Ok (if proceed s then start_jm s else s, [])
  | JM_ON =>
      do (s, e) <- rx_bits h s bits;
      if got_cj (rx s) then Ok (w_st SIGA (w_neg (ms 75) (w_q (fsk_on s) [] s)), e)
      else
        let s := w_neg (neg_timer s - len) s in
        if neg_timer s <=? 0 then let '(s, e') := park h FAILED s in Ok (s, e ++ e')
        else Ok (if (length (queue s) <? 10)%nat then w_q (fsk_on s) (send_message s) s else s, e)
  | SIGA => if fsk_on s then Ok (s, []) else Ok (park h V8_CALL s)
  | PARKED => Ok (s, [])
  end.
(** src/v8.c:1307-1312 v8_continue: sizeof(s->parms.jm_cm) octets are copied from the start of *parms, where status,
    gateway_mode, ... are, not from parms->jm_cm.  Each member takes 4 octets (gateway_mode with its padding, which is
    taken as 0). *)
Definition v8_continue (s : v8) (p : parms) : v8 :=
  let c := {| call_function := status p; modulations := Z.b2z (gateway p); protocols := tone p; pstn_access := send_ci p; nsf := v92 p;
              pcm := call_function (jm_cm p); t66 := s32 (modulations (jm_cm p)) |} in
  w_par (set_caps (par s) c) true s.
(** src/v8.c:1321-1399 v8_restart and v8_init.  MODEM_CONNECT_TONES_NONE is 0. *)
Definition v8_init (caller : bool) (p : parms) : v8 :=
  let c := {| call_function := call_function (jm_cm p); modulations := modulations (jm_cm p); protocols := 0; pstn_access := 0;
              nsf := -1; pcm := 0; t66 := -1 |} in
  let r := {| bit_stream := 0; bit_cnt := 0; ptype := SYNC_UNKNOWN; rx_data := []; rx0 := 0; cm_data := []; got_ci := false; got_cm := false;
              got_cj := false; zeros := 0; mbytes := 3;
              result := {| status := IN_PROGRESS; gateway := false; tone := 0; send_ci := send_ci p; v92 := 0; jm_cm := c |} |} in
  {| calling := caller; st := if caller then (if send_ci p =? 0 then AWAIT_ANSAM else WAIT_1S) else CM_WAIT; fsk_on := false;
     neg_timer := if caller then (if send_ci p =? 0 then 0 else ms 1000) else ms 5200; ci_timer := 0; ci_count := 0; proceed := false; queue := []; par := p; rx := r |}.
