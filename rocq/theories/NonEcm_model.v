(** Model of the flow controlled buffer for non-ECM fax image data, src/t38_non_ecm_buffer.c.  The statistics
    counters (C ints) are unbounded here; logging is not modelled.  Undefined behaviour is [UB]. *)
From Verif Require Import Base BitOps_model.

Definition BUF_LEN := 16384.   (* T38_NON_ECM_TX_BUF_LEN, src/spandsp/t38_non_ecm_buffer.h *)
Definition TCF_ONES := 0.
Definition TCF_ZEROS := 1.
Definition IMAGE_WAITING := 2.
Definition IMAGE_GOING := 3.
Definition END_OF_DATA := -7.  (* SIG_STATUS_END_OF_DATA *)

(** data[] and in_ptr *)
Record ring := mk_ring { q_data : list Z; q_in : Z }.
(** in_octets, in_rows, min_row_bits_fill_octets, out_octets, flow_control_fill_octets *)
Record stats := mk_stats { t_in : Z; t_rows : Z; t_minfill : Z; t_out : Z; t_flow : Z }.
Record nes := mk_nes {
  n_image : bool; n_min : Z;                 (* image_data_mode, min_bits_per_row *)
  n_ring : ring; n_out : Z; n_eol : Z;       (* out_ptr, latest_eol_ptr *)
  n_row : Z; n_bs : Z; n_fill : Z;           (* row_bits, bit_stream, flow_control_fill_octet *)
  n_phase : Z; n_fin : bool;                 (* input_phase, data_finished *)
  n_octet : Z; n_bitno : Z; n_st : stats }.

(** lines 73-86 restart_buffer *)
Definition restart_buffer (s : nes) : nes :=
  mk_nes (n_image s) (n_min s) (mk_ring (q_data (n_ring s)) 0) 0 0 (n_row s) 0xFFFF 0xFF
         (if n_image s then IMAGE_WAITING else TCF_ONES) false 0xFF (n_bitno s) (n_st s).

(** lines 89-128 t38_non_ecm_buffer_get_bit *)
Definition shift_out (s : nes) (octet bitno : Z) (out : Z) (st : stats) : nes * Z :=
  (mk_nes (n_image s) (n_min s) (n_ring s) out (n_eol s) (n_row s) (n_bs s) (n_fill s) (n_phase s) (n_fin s)
          (u32 (Z.shiftl octet 1)) (bitno - 1) st,
   Z.land (Z.shiftr octet 7) 1).
Definition get_bit (s : nes) : res (nes * Z) :=
  let st := n_st s in
  if n_bitno s <=? 0
  then if negb (n_out s =? n_eol s)
       then do x <- aget (q_data (n_ring s)) (n_out s);
            Ok (shift_out s x 8 (Z.land (n_out s + 1) (BUF_LEN - 1))
                          (mk_stats (t_in st) (t_rows st) (t_minfill st) (t_out st + 1) (t_flow st)))
       else if n_fin s then Ok (restart_buffer s, END_OF_DATA)
       else Ok (shift_out s (n_fill s) 8 (n_out s)
                          (mk_stats (t_in st) (t_rows st) (t_minfill st) (t_out st + 1) (t_flow st + 1)))
  else Ok (shift_out s (n_octet s) (n_bitno s) (n_out s) st).

(** lines 131-137 t38_non_ecm_buffer_push *)
Definition push (s : nes) : nes :=
  mk_nes (n_image s) (n_min s) (n_ring s) (n_out s) (q_in (n_ring s)) (n_row s) (n_bs s) (n_fill s) (n_phase s) true
         (n_octet s) (n_bitno s) (n_st s).

(** data[in_ptr] = b; in_ptr = (in_ptr + 1) & (T38_NON_ECM_TX_BUF_LEN - 1) *)
Definition ring_put (q : ring) (b : Z) : res ring :=
  do d <- aset (q_data q) (q_in q) b; Ok (mk_ring d (Z.land (q_in q + 1) (BUF_LEN - 1))).
(** lines 285-294: extend a short row by whole octets of zeros *)
Fixpoint fill_row (fuel : nat) (q : ring) (row min count : Z) : res (ring * Z * Z) :=
  if min <=? row then Ok (q, row, count)
  else match fuel with
       | O => UB
       | S k => do q <- ring_put q 0; fill_row k q (row + 8) min (count + 1)
       end.
(** upper - lower > 11 - 8, lines 223-225 and 269-271 *)
Definition eol_here (bs b : Z) : bool := 11 - 8 <? bottom_bit (Z.lor bs 0x800) - top_bit b.
(** s->bit_stream = (s->bit_stream << 8) | buf[i] *)
Definition bs_push (bs b : Z) : Z := Z.lor (u32 (Z.shiftl bs 8)) b.

(** lines 183-319 t38_non_ecm_buffer_inject, written octet by octet: in the C each case of the switch loops over
    the octets it consumes and falls through to the next phase. *)
Definition inject_tcf (s : nes) (phase fill b : Z) : res nes :=
  let st := n_st s in
  do q <- ring_put (n_ring s) b;
  Ok (mk_nes (n_image s) (n_min s) q (n_out s) (q_in (n_ring s)) (n_row s) (n_bs s) fill phase (n_fin s) (n_octet s)
             (n_bitno s) (mk_stats (t_in st + 1) (t_rows st) (t_minfill st) (t_out st) (t_flow st))).
Definition inject_waiting (s : nes) (b : Z) : res nes :=
  let st := n_st s in
  if negb (b =? 0) && eol_here (n_bs s) b
  then do q <- ring_put (n_ring s) 0; do q <- ring_put q 0; do q <- ring_put q b;
       Ok (mk_nes (n_image s) (n_min s) q (n_out s) (q_in (n_ring s)) (top_bit b - 8) (bs_push (n_bs s) b) 0
                  IMAGE_GOING (n_fin s) (n_octet s) (n_bitno s)
                  (mk_stats (t_in st + 3) (t_rows st) (t_minfill st) (t_out st) (t_flow st)))
  else Ok (mk_nes (n_image s) (n_min s) (n_ring s) (n_out s) (n_eol s) (n_row s) (bs_push (n_bs s) b) (n_fill s)
                  (n_phase s) (n_fin s) (n_octet s) (n_bitno s) st).
Definition inject_going (s : nes) (b : Z) : res nes :=
  let st := n_st s in
  do (q, row, eol, rows, mf) <-
    (if negb (b =? 0) && eol_here (n_bs s) b
     then let row := n_row s + (8 - top_bit b) in
          do (q, eol, mf) <-
            (if (row <? 12) || (13 <? row)
             then do (q, row, mf) <- fill_row (Z.to_nat (n_min s - row)) (n_ring s) row (n_min s) (t_minfill st);
                  Ok (q, q_in q, mf)
             else Ok (n_ring s, n_eol s, t_minfill st));
          Ok (q, top_bit b - 8, eol, t_rows st + 1, mf)
     else Ok (n_ring s, n_row s, n_eol s, t_rows st, t_minfill st));
  do q <- ring_put q b;
  Ok (mk_nes (n_image s) (n_min s) q (n_out s) eol (row + 8) (bs_push (n_bs s) b) (n_fill s) (n_phase s) (n_fin s)
             (n_octet s) (n_bitno s) (mk_stats (t_in st + 1) rows mf (t_out st) (t_flow st))).
Definition inject_octet (s : nes) (b : Z) : res nes :=
  if n_phase s =? TCF_ONES then (if b =? 0xFF then Ok s else inject_tcf s TCF_ZEROS 0 b)
  else if n_phase s =? TCF_ZEROS then inject_tcf s TCF_ZEROS (n_fill s) b
  else if n_phase s =? IMAGE_WAITING then inject_waiting s b
  else inject_going s b.
Fixpoint inject (s : nes) (buf : list Z) : res nes :=
  match buf with [] => Ok s | b :: t => do s <- inject_octet s b; inject s t end.

(** lines 353-372 t38_non_ecm_buffer_set_mode *)
Definition set_mode (s : nes) (image : bool) (min : Z) : nes :=
  let s' := mk_nes image min (n_ring s) (n_out s) (n_eol s) (n_row s) (n_bs s) (n_fill s) (n_phase s) (n_fin s)
                   (n_octet s) (n_bitno s) (n_st s) in
  if Bool.eqb image (n_image s) then s' else restart_buffer s'.
(** lines 375-389 t38_non_ecm_buffer_init *)
Definition init (image : bool) (min : Z) : nes :=
  restart_buffer (mk_nes image min (mk_ring (repeat 0 (Z.to_nat BUF_LEN)) 0) 0 0 0 0 0 0 false 0 0
                         (mk_stats 0 0 0 0 0)).

(** Any use of the buffer: data arriving from the network, the modem taking a bit, and the end of the data. *)
Inductive op := Inject (buf : list Z) | Get | Push.
(** the values returned by the get_bit calls *)
Fixpoint run (s : nes) (ops : list op) : res (nes * list Z) :=
  match ops with
  | [] => Ok (s, [])
  | Inject buf :: t => do s <- inject s buf; run s t
  | Get :: t => do (s, b) <- get_bit s; do (s, l) <- run s t; Ok (s, b :: l)
  | Push :: t => run (push s) t
  end.
(** Octets written to the buffer and not yet taken from it, from the statistics counters. *)
Definition level (s : nes) : Z := let st := n_st s in t_in st + t_minfill st - (t_out st - t_flow st).
(** The buffer never holds as much as its size. *)
Fixpoint fits (s : nes) (ops : list op) : Prop :=
  match ops with
  | [] => True
  | Inject buf :: t => match inject s buf with Ok s => level s < BUF_LEN /\ fits s t | UB => False end
  | Get :: t => match get_bit s with Ok (s, _) => fits s t | UB => False end
  | Push :: t => fits (push s) t
  end.
(** all the data given to the buffer *)
Definition given (ops : list op) : list Z := flat_map (fun o => match o with Inject buf => buf | _ => [] end) ops.
