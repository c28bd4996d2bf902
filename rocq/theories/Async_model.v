(** Model of src/async.c: the asynchronous serial transmitter and receiver.  put_byte calls are returned as a list
    of the values passed, in order; get_byte results are consumed from a list (see [src_item]). *)
From Verif Require Import Base BitOps_model.

(** src/spandsp/async.h:66-103, 151-157 *)
Definition SIG_STATUS_CARRIER_DOWN := -1.
Definition SIG_STATUS_CARRIER_UP := -2.
Definition SIG_STATUS_TRAINING_IN_PROGRESS := -3.
Definition SIG_STATUS_TRAINING_SUCCEEDED := -4.
Definition SIG_STATUS_TRAINING_FAILED := -5.
Definition SIG_STATUS_END_OF_DATA := -7.
Definition SIG_STATUS_LINK_IDLE := -17.
Definition ASYNC_PARITY_NONE := 0.
Definition ASYNC_PARITY_EVEN := 1.
Definition ASYNC_PARITY_ODD := 2.
Definition ASYNC_PARITY_MARK := 3.
Definition ASYNC_PARITY_SPACE := 4.

(** src/spandsp/private/async.h:62-89 async_rx_state_s (error counters are unbounded here) *)
Record rx := { r_parity : Z; r_total : Z; r_v14 : bool; r_frame : Z; r_bitpos : Z; r_perr : Z; r_ferr : Z }.
(** src/async.c:212-251 async_rx_init *)
Definition async_rx_init (data_bits parity : Z) (v14 : bool) : rx :=
  {| r_parity := parity; r_total := if parity =? ASYNC_PARITY_NONE then data_bits else data_bits + 1;
     r_v14 := v14; r_frame := 0; r_bitpos := 0; r_perr := 0; r_ferr := 0 |}.
Definition rx_set (s : rx) (frame bitpos : Z) : rx :=
  {| r_parity := r_parity s; r_total := r_total s; r_v14 := r_v14 s; r_frame := frame; r_bitpos := bitpos;
     r_perr := r_perr s; r_ferr := r_ferr s |}.
Definition rx_perr (s : rx) : rx :=
  {| r_parity := r_parity s; r_total := r_total s; r_v14 := r_v14 s; r_frame := r_frame s; r_bitpos := r_bitpos s;
     r_perr := r_perr s + 1; r_ferr := r_ferr s |}.
Definition rx_ferr (s : rx) : rx :=
  {| r_parity := r_parity s; r_total := r_total s; r_v14 := r_v14 s; r_frame := r_frame s; r_bitpos := r_bitpos s;
     r_perr := r_perr s; r_ferr := r_ferr s + 1 |}.

(** src/async.c:91-188 async_rx_put_bit *)
Definition async_rx_put_bit (s : rx) (bit : Z) : res (rx * list Z) :=
  if bit <? 0 then
    if (bit =? SIG_STATUS_CARRIER_UP) || (bit =? SIG_STATUS_CARRIER_DOWN) || (bit =? SIG_STATUS_TRAINING_IN_PROGRESS)
       || (bit =? SIG_STATUS_TRAINING_SUCCEEDED) || (bit =? SIG_STATUS_TRAINING_FAILED) || (bit =? SIG_STATUS_END_OF_DATA)
    then Ok (rx_set s 0 0, [bit]) else Ok (s, [])
  else if r_bitpos s =? 0 then Ok (rx_set s 0 (r_bitpos s + Z.lxor bit 1), [])
  else if r_bitpos s <=? r_total s then
    Ok (rx_set s (u16 (Z.lor (Z.shiftr (r_frame s) 1) (Z.shiftl bit 15))) (r_bitpos s + 1), [])
  else if (bit =? 0) && negb (r_v14 s) then Ok (rx_set (rx_ferr s) (r_frame s) 0, [])
  else
    let sh := 16 - r_total s in
    if (sh <? 0) || (32 <=? sh) then UB else
    let '(s, out) :=
      if negb (r_parity s =? ASYNC_PARITY_NONE) then
        let a := Z.land (Z.shiftr (r_frame s) 15) 1 in
        let f := Z.shiftr (Z.land (r_frame s) 0x7FFF) sh in
        let b := if r_parity s =? ASYNC_PARITY_ODD then Z.lxor (parity8 (u8 f)) 1
                 else if r_parity s =? ASYNC_PARITY_EVEN then parity8 (u8 f)
                 else if r_parity s =? ASYNC_PARITY_MARK then 1 else 0 in
        let s := rx_set s f (r_bitpos s) in
        if a =? b then (s, [f]) else (rx_perr s, [])
      else
        let f := Z.shiftr (r_frame s) sh in
        (rx_set s f (r_bitpos s), [f]) in
    if bit =? 1 then Ok (rx_set s (r_frame s) 0, out) else Ok (rx_set s 0 1, out).

Fixpoint rx_run (s : rx) (l : list Z) : res (rx * list Z) :=
  match l with
  | [] => Ok (s, [])
  | b :: l => do (s, o) <- async_rx_put_bit s b; do (s, o') <- rx_run s l; Ok (s, o ++ o')
  end.

(** src/spandsp/private/async.h:34-58 async_tx_state_s *)
Record tx := { t_data : Z; t_parity : Z; t_tdata : Z; t_total : Z; t_presend : Z; t_frame : Z; t_bitpos : Z }.
(** src/async.c:330-370 async_tx_init *)
Definition async_tx_init (data_bits parity stop_bits : Z) : tx :=
  let td := if parity =? ASYNC_PARITY_NONE then data_bits else data_bits + 1 in
  {| t_data := data_bits; t_parity := parity; t_tdata := td; t_total := td + stop_bits; t_presend := 0;
     t_frame := 0; t_bitpos := 0 |}.
Definition tx_set (s : tx) (presend frame bitpos : Z) : tx :=
  {| t_data := t_data s; t_parity := t_parity s; t_tdata := t_tdata s; t_total := t_total s; t_presend := presend;
     t_frame := frame; t_bitpos := bitpos |}.
(** One get_byte call: the value it returns, and the argument of the async_tx_presend_bits call it made, if any
    (src/async.c:322-326).  An exhausted source is idle. *)
Notation src_item := (option Z * Z)%type.
Definition next_item (l : list src_item) : src_item * list src_item :=
  match l with [] => ((None, SIG_STATUS_LINK_IDLE), []) | x :: l => (x, l) end.
(** src/async.c:273-285: the character, with its parity and stop bits *)
Definition tx_frame (s : tx) (next_byte : Z) : Z :=
  let f := u16 (Z.land (u16 next_byte) (Z.shiftr 0xFFFF (16 - t_data s))) in
  let f := if t_parity s =? ASYNC_PARITY_MARK then u16 (Z.lor f (Z.shiftl 1 (t_data s)))
           else if t_parity s =? ASYNC_PARITY_EVEN then u16 (Z.lor f (Z.shiftl (parity8 (u8 f)) (t_data s)))
           else if t_parity s =? ASYNC_PARITY_ODD then u16 (Z.lor f (Z.shiftl (Z.lxor (parity8 (u8 f)) 1) (t_data s)))
           else f in
  u16 (Z.lor f (Z.shiftl 0xFFFF (t_tdata s))).
(** src/async.c:254-319 async_tx_get_bit: the bit, the new state, the rest of the source *)
Definition async_tx_get_bit (s : tx) (src : list src_item) : res (Z * tx * list src_item) :=
  if t_bitpos s =? 0 then
    if 0 <? t_presend s then Ok (1, tx_set s (t_presend s - 1) (t_frame s) (t_bitpos s), src)
    else
      let '((pre, next_byte), src) := next_item src in
      let s := match pre with Some n => tx_set s n (t_frame s) (t_bitpos s) | None => s end in
      if next_byte <? 0 then
        Ok (if next_byte =? SIG_STATUS_LINK_IDLE then 1 else next_byte, s, src)
      else if (t_data s <? 0) || (16 <? t_data s) || (t_tdata s <? 0) || (15 <? t_tdata s) then UB
      else Ok (0, tx_set s (t_presend s) (tx_frame s next_byte) (t_bitpos s + 1), src)
  else
    let bitpos := t_bitpos s + 1 in
    Ok (Z.land (t_frame s) 1,
        tx_set s (t_presend s) (Z.shiftr (t_frame s) 1) (if t_total s <? bitpos then 0 else bitpos), src).

(** [n] get_bit calls, the bits going straight to a receiver. *)
Fixpoint link_run (n : nat) (t : tx) (src : list src_item) (r : rx) : res (tx * list src_item * rx * list Z) :=
  match n with
  | O => Ok (t, src, r, [])
  | S k => do (b, t, src) <- async_tx_get_bit t src;
           do (r, o) <- async_rx_put_bit r b;
           do (t, src, r, o') <- link_run k t src r; Ok (t, src, r, o ++ o')
  end.
