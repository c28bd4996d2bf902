(** Model of the T.4 1-D, T.4 2-D and T.6 compressor, src/t4_t6_encode.c.
    Not modelled: logging, the monitoring counters min_row_bits, max_row_bits and compressed_image_size,
    allocation failure.  bytes_per_row is always (image_width + 7)/8 and is not a field of its own.
    The two run buffers are arrays of image_width + 4 entries whose contents are unspecified after
    allocation; the output buffer holds (image_width + 1)*2 octets and every write is checked.
    row_bits is unbounded (the C int would wrap after 2^31 bits in one T.6 page). *)
From Verif Require Import Base BitOps_model T4_tables.

(** src/spandsp/t4_rx.h:54-58 *)
Definition T4_1D := 2.
Definition T4_2D := 4.
Definition T6 := 8.

(** Bounds-checked table access. *)
Definition tget {A} (l : list A) (i : Z) : res A :=
  if i <? 0 then UB else match nth_error l (Z.to_nat i) with Some e => Ok e | None => UB end.

(** The output bit buffer: tx_bitstream, tx_bits, row_bits, bitstream[0 .. bitstream_iptr). *)
Record bw := mk_bw { bw_bs : Z; bw_n : Z; bw_row : Z; bw_out : list Z }.

(** src/t4_t6_encode.c:407-413 *)
Fixpoint flush_bits (cap : Z) (fuel : nat) (bs n : Z) (out : list Z) : res (Z * Z * list Z) :=
  if n <? 8 then Ok (bs, n, out)
  else match fuel with
       | O => UB
       | S k => if Z.of_nat (length out) <? cap then flush_bits cap k (Z.shiftr bs 8) (n - 8) (out ++ [u8 bs]) else UB
       end.
(** src/t4_t6_encode.c:402-416 put_encoded_bits *)
Definition put_encoded_bits (cap : Z) (w : bw) (bits len : Z) : res bw :=
  if (bw_n w <? 0) || (32 <=? bw_n w) then UB
  else do (bs, n, out) <- flush_bits cap (Z.to_nat (bw_n w + len)) (Z.lor (bw_bs w) (u32 (Z.shiftl bits (bw_n w))))
                                     (bw_n w + len) (bw_out w);
       Ok (mk_bw bs n (bw_row w + len) out).

(** src/t4_t6_encode.c:424-451 put_1d_span *)
Fixpoint put_long_spans (cap : Z) (fuel : nat) (e : rte) (w : bw) (span : Z) : res (bw * Z) :=
  if span <? 2560 + 64 then Ok (w, span)
  else match fuel with
       | O => UB
       | S k => do w <- put_encoded_bits cap w (rt_code e) (rt_len e); put_long_spans cap k e w (span - rt_run e)
       end.
Definition put_1d_span (cap : Z) (w : bw) (span : Z) (tab : list rte) : res bw :=
  do e <- tget tab (63 + Z.shiftr 2560 6);
  do (w, span) <- put_long_spans cap (Z.to_nat span) e w span;
  do e <- tget tab (63 + Z.shiftr span 6);
  do (w, span) <- (if 64 <=? span
                   then do w <- put_encoded_bits cap w (rt_code e) (rt_len e); Ok (w, span - rt_run e)
                   else Ok (w, span));
  do e <- tget tab span;
  put_encoded_bits cap w (rt_code e) (rt_len e).

(** src/t4_t6_encode.c:453-584 row_to_run_lengths: list[], entry, pos, span, flip *)
Record scan := mk_scan { sc_list : list Z; sc_n : Z; sc_pos : Z; sc_span : Z; sc_flip : Z }.
Definition sc_push (s : scan) (d : Z) : res scan :=
  do l <- aset (sc_list s) (sc_n s) (sc_pos s + d);
  Ok (mk_scan l (sc_n s + 1) (sc_pos s + d) (sc_span s) (sc_flip s)).
Definition sc_toggle (mask : Z) (s : scan) : scan :=
  mk_scan (sc_list s) (sc_n s) (sc_pos s) (sc_span s) (Z.lxor (sc_flip s) mask).
Definition sc_set_span (s : scan) (v : Z) : scan := mk_scan (sc_list s) (sc_n s) (sc_pos s) v (sc_flip s).
(** lines 485-492 (mask = 0xFFFFFFFF) and 517-524 (mask = 0xFF000000): further transitions *)
Fixpoint scan_more (mask : Z) (fuel : nat) (s : scan) (x rem : Z) : res (scan * Z) :=
  let frag := 31 - top_bit (Z.lxor x (sc_flip s)) in
  if rem <=? frag then Ok (s, rem)
  else match fuel with
       | O => UB
       | S k => do s <- sc_push s frag; scan_more mask k (sc_toggle mask s) (u32 (Z.shiftl x frag)) (rem - frag)
       end.
(** lines 474-497 (bits = 32) and 506-529 (bits = 8): one chunk of the row *)
Definition scan_chunk (mask bits : Z) (s : scan) (i x : Z) : res scan :=
  if x =? sc_flip s then Ok s
  else let frag := 31 - top_bit (Z.lxor x (sc_flip s)) in
       do s <- sc_push s (i * 8 - sc_span s + frag);
       do (s, rem) <- scan_more mask 40 (sc_toggle mask s) (u32 (Z.shiftl x frag)) (bits - frag);
       Ok (sc_set_span s (i * 8 + bits - rem)).
(** src/spandsp/unaligned.h:108-117 get_net_unaligned_uint32 *)
Definition get_net_u32 (row : list Z) (i : Z) : res Z :=
  do a <- aget row i; do b <- aget row (i + 1); do c <- aget row (i + 2); do d <- aget row (i + 3);
  Ok (((a * 256 + b) * 256 + c) * 256 + d).
Fixpoint scan_words (fuel : nat) (limit : Z) (row : list Z) (s : scan) (i : Z) : res (scan * Z) :=
  if limit <=? i then Ok (s, i)
  else match fuel with
       | O => UB
       | S k => do x <- get_net_u32 row i; do s <- scan_chunk 0xFFFFFFFF 32 s i x; scan_words k limit row s (i + 4)
       end.
Fixpoint scan_octets (fuel : nat) (limit : Z) (row : list Z) (s : scan) (i : Z) : res (scan * Z) :=
  if limit <=? i then Ok (s, i)
  else match fuel with
       | O => UB
       | S k => do b <- aget row i; do s <- scan_chunk 0xFF000000 8 s i (Z.shiftl b 24); scan_octets k limit row s (i + 1)
       end.
(** lines 539-554: the fractional octet *)
Fixpoint scan_tail (fuel : nat) (s : scan) (x rem : Z) : res scan :=
  match fuel with
  | O => UB
  | S k => let frag := 31 - top_bit (Z.lxor x (sc_flip s)) in
           let frag := if rem <? frag then rem else frag in
           do s <- sc_push s (sc_span s + frag);
           let s := sc_set_span (sc_toggle 0xFF000000 s) 0 in
           if 0 <? rem - frag then scan_tail k s (u32 (Z.shiftl x frag)) (rem - frag) else Ok s
  end.
Definition row_to_run_lengths (list0 row : list Z) (width : Z) : res (list Z * Z) :=
  let fuel := S (length row) in
  do (s, i) <- scan_words fuel (Z.land (Z.shiftr width 3) (-4)) row (mk_scan list0 0 0 0 0) 0;
  let s := mk_scan (sc_list s) (sc_n s) (sc_pos s) (sc_span s) (Z.land (sc_flip s) 0xFF000000) in
  do (s, i) <- scan_octets fuel (Z.shiftr width 3) row s i;
  let s := sc_set_span s (i * 8 - sc_span s) in
  let rem := Z.land width 7 in
  do s <- (if rem =? 0 then (if sc_span s =? 0 then Ok s else sc_push s (sc_span s))
           else do b <- aget row i; scan_tail 9 s (Z.shiftl b 24) rem);
  Ok (sc_list s, sc_n s).

(** src/t4_t6_encode.c:586 pixel_is_black *)
Definition pixel_is_black (row : list Z) (bit : Z) : res bool :=
  do b <- aget row (Z.shiftr bit 3);
  Ok (negb (Z.land (Z.shiftl b (Z.land bit 7)) 0x80 =? 0)).

(** src/t4_t6_encode.c:732-736 and 856-860: stretch the row *)
Definition stretch (l : list Z) (steps : Z) : res (list Z) :=
  do v <- aget l (steps - 1);
  do l <- aset l (steps + 2) v; do l <- aset l (steps + 1) v; aset l steps v.

(** src/t4_t6_encode.c:797-827: hunt for b1 *)
Fixpoint hunt_back (fuel : nat) (ref : list Z) (a0 b : Z) : res Z :=
  if b <? 0 then Ok b
  else match fuel with
       | O => UB
       | S k => do r <- aget ref b; if r <=? a0 then Ok b else hunt_back k ref a0 (b - 2)
       end.
Fixpoint hunt_fwd (fuel : nat) (ref : list Z) (steps a0 b : Z) : res Z :=
  if steps <=? b then Ok b
  else match fuel with
       | O => UB
       | S k => do r <- aget ref b; if a0 <? r then Ok b else hunt_fwd k ref steps a0 (b + 2)
       end.
Definition hunt (ref : list Z) (steps : Z) (black : bool) (a0 b : Z) : res Z :=
  let b := if black then Z.lor b 1 else Z.land b (-2) in
  do r <- aget ref b;
  if a0 <? r then do b <- hunt_back (length ref) ref a0 b; Ok (b + 2)
  else do b <- hunt_fwd (length ref) ref steps a0 b;
       Ok (if steps <=? b then steps - 1 else b).

(** src/t4_t6_encode.c:743-830: the loop of encode_2d_row; [w] is the output, [cur]/[ref] the run buffers *)
Fixpoint loop_2d (cap : Z) (fuel : nat) (width : Z) (row cur : list Z) (cur_steps : Z) (ref : list Z) (ref_steps : Z)
    (w : bw) (a0 a1 b1 a_cursor b_cursor : Z) : res bw :=
  match fuel with
  | O => UB
  | S k =>
      do b2 <- aget ref (b_cursor + 1);
      do (w, a0, a1, a_cursor) <-
        (if a1 <=? b2
         then do (w, a0, a_cursor) <-
                (let diff := b1 - a1 in
                 if Z.abs diff <=? 3
                 then do c <- tget t4_2d_codes (diff + 3);
                      do w <- put_encoded_bits cap w (rt_code c) (rt_len c);
                      Ok (w, a1, a_cursor + 1)
                 else do a2 <- aget cur (a_cursor + 1);
                      do c <- tget t4_2d_codes 7;
                      do w <- put_encoded_bits cap w (rt_code c) (rt_len c);
                      do white <- (if a0 + a1 =? 0 then Ok true else do p <- pixel_is_black row a0; Ok (negb p));
                      do w <- put_1d_span cap w (a1 - a0) (if white then t4_white_codes else t4_black_codes);
                      do w <- put_1d_span cap w (a2 - a1) (if white then t4_black_codes else t4_white_codes);
                      Ok (w, a2, a_cursor + 2));
              if width <=? a0 then Ok (w, a0, a1, a_cursor)
              else let a_cursor := if cur_steps <=? a_cursor then cur_steps - 1 else a_cursor in
                   do a1 <- aget cur a_cursor; Ok (w, a0, a1, a_cursor)
         else do c <- tget t4_2d_codes 8;
              do w <- put_encoded_bits cap w (rt_code c) (rt_len c);
              Ok (w, b2, a1, a_cursor));
      if width <=? a0 then Ok w
      else do black <- pixel_is_black row a0;
           do b_cursor <- hunt ref ref_steps black a0 b_cursor;
           do b1 <- aget ref b_cursor;
           loop_2d cap k width row cur cur_steps ref ref_steps w a0 a1 b1 a_cursor b_cursor
  end.

(** Compressor state.  [e_bw] holds tx_bitstream, tx_bits, row_bits and bitstream[0 .. bitstream_iptr). *)
Record enc := mk_enc {
  e_encoding : Z; e_width : Z; e_min : Z; e_max : Z;   (* min_bits_per_row, max_rows_to_next_1d_row *)
  e_rows : Z; e_2d : bool; e_length : Z;               (* rows_to_next_1d_row, row_is_2d, image_length *)
  e_cur : list Z; e_ref : list Z; e_steps : Z;         (* cur_runs, ref_runs, ref_steps *)
  e_bw : bw; e_optr : Z; e_bitpos : Z }.
Definition e_bpr (s : enc) : Z := (e_width s + 7) / 8.
(** (image_width + 1)*sizeof(uint16_t) octets, src/t4_t6_encode.c:1089 *)
Definition e_cap (s : enc) : Z := (e_width s + 1) * 2.
Definition e_set_bw (s : enc) (w : bw) : enc :=
  mk_enc (e_encoding s) (e_width s) (e_min s) (e_max s) (e_rows s) (e_2d s) (e_length s) (e_cur s) (e_ref s) (e_steps s)
         w (e_optr s) (e_bitpos s).
Definition e_set_runs (s : enc) (cur ref : list Z) (steps : Z) (w : bw) : enc :=
  mk_enc (e_encoding s) (e_width s) (e_min s) (e_max s) (e_rows s) (e_2d s) (e_length s) cur ref steps
         w (e_optr s) (e_bitpos s).
Definition e_set_mode (s : enc) (rows : Z) (is_2d : bool) (len : Z) : enc :=
  mk_enc (e_encoding s) (e_width s) (e_min s) (e_max s) rows is_2d len (e_cur s) (e_ref s) (e_steps s)
         (e_bw s) (e_optr s) (e_bitpos s).
Definition e_set_out (s : enc) (optr bitpos : Z) : enc :=
  mk_enc (e_encoding s) (e_width s) (e_min s) (e_max s) (e_rows s) (e_2d s) (e_length s) (e_cur s) (e_ref s) (e_steps s)
         (e_bw s) optr bitpos.
Definition bw_set_row (w : bw) (v : Z) : bw := mk_bw (bw_bs w) (bw_n w) v (bw_out w).

(** src/t4_t6_encode.c:591-637 encode_eol *)
Definition encode_eol (s : enc) : res enc :=
  let code := if e_encoding s =? T4_2D then Z.lor 0x0800 (Z.shiftl (Z.b2z (negb (e_2d s))) 12) else 0x800 in
  let len := if e_encoding s =? T4_2D then 13 else 12 in
  let w := e_bw s in
  do w <- (if (negb (bw_row w =? 0)) && (negb (e_encoding s =? T6)) && (bw_row w + len <? e_min s)
           then put_encoded_bits (e_cap s) w 0 (e_min s - (bw_row w + len)) else Ok w);
  do w <- put_encoded_bits (e_cap s) w code len;
  Ok (e_set_bw s (bw_set_row w 0)).

(** src/t4_t6_encode.c:639-837 encode_2d_row *)
Definition encode_2d_row (s : enc) (row : list Z) : res enc :=
  do (cur, steps) <- row_to_run_lengths (e_cur s) row (e_width s);
  do cur <- stretch cur steps;
  do a1 <- aget cur 0;
  do b1 <- aget (e_ref s) 0;
  do w <- loop_2d (e_cap s) (Z.to_nat (e_width s + 2)) (e_width s) row cur steps (e_ref s) (e_steps s) (e_bw s) 0 a1 b1 0 0;
  Ok (e_set_runs s (e_ref s) cur steps w).

(** src/t4_t6_encode.c:842-861 encode_1d_row *)
Fixpoint put_spans (cap : Z) (fuel : nat) (w : bw) (runs : list Z) (steps i : Z) : res bw :=
  if steps <=? i then Ok w
  else match fuel with
       | O => UB
       | S k => do r <- aget runs i; do r0 <- aget runs (i - 1);
                do w <- put_1d_span cap w (r - r0) (if Z.odd i then t4_black_codes else t4_white_codes);
                put_spans cap k w runs steps (i + 1)
       end.
Definition encode_1d_row (s : enc) (row : list Z) : res enc :=
  do (ref, steps) <- row_to_run_lengths (e_ref s) row (e_width s);
  do r <- aget ref 0;
  do w <- put_1d_span (e_cap s) (e_bw s) r t4_white_codes;
  do w <- put_spans (e_cap s) (length ref) w ref steps 1;
  do ref <- stretch ref steps;
  Ok (e_set_runs s (e_cur s) ref steps w).

(** src/t4_t6_encode.c:861-901 encode_row *)
Definition encode_row (s : enc) (row : list Z) : res enc :=
  do s <- (if e_encoding s =? T6 then encode_2d_row s row
           else if e_encoding s =? T4_2D
           then do s <- encode_eol s;
                do s <- (if e_2d s
                         then do s <- encode_2d_row s row; Ok (e_set_mode s (e_rows s - 1) (e_2d s) (e_length s))
                         else do s <- encode_1d_row s row; Ok (e_set_mode s (e_rows s) true (e_length s)));
                Ok (if e_rows s <=? 0 then e_set_mode s (e_max s - 1) false (e_length s) else s)
           else do s <- encode_eol s; encode_1d_row s row);
  Ok (e_set_mode s (e_rows s) (e_2d s) (e_length s + 1)).

Fixpoint encode_eols (n : nat) (s : enc) : res enc :=
  match n with O => Ok s | S k => do s <- encode_eol s; encode_eols k s end.
(** src/t4_t6_encode.c:905-931 finalise_page *)
Definition finalise_page (s : enc) : res enc :=
  do s <- (if e_encoding s =? T6 then encode_eols 2 s
           else encode_eols 6 (e_set_mode s (e_rows s) false (e_length s)));
  do w <- put_encoded_bits (e_cap s) (e_bw s) 0xFF 7;
  Ok (e_set_bw s (bw_set_row w (-1))).

(** src/t4_t6_encode.c:934-966 get_next_row.  The row source is a list of rows; the handler returns the
    length of the next one, and 0 when there are no more. The result is negative when nothing is left. *)
Fixpoint next_rows (s : enc) (rows : list (list Z)) : res (enc * list (list Z) * Z) :=
  match rows with
  | [] => do s <- finalise_page s; Ok (s, [], 0)
  | row :: rest =>
      let len := Z.of_nat (length row) in
      do s <- (if len =? e_bpr s then encode_row s row else finalise_page s);
      if (0 <? len) && (match bw_out (e_bw s) with [] => true | _ => false end) then next_rows s rest
      else Ok (s, rest, len)
  end.
Definition get_next_row (s : enc) (rows : list (list Z)) : res (enc * list (list Z) * Z) :=
  if bw_row (e_bw s) <? 0 then Ok (s, rows, -1)
  else let w := e_bw s in
       next_rows (e_set_out (e_set_bw s (mk_bw (bw_bs w) (bw_n w) (bw_row w) [])) 0 7) rows.

(** src/t4_t6_encode.c:978-999 t4_t6_encode_get_bit (SIG_STATUS_END_OF_DATA is -7) *)
Definition e_iptr (s : enc) : Z := Z.of_nat (length (bw_out (e_bw s))).
Definition enc_get_bit (s : enc) (rows : list (list Z)) : res (enc * list (list Z) * Z) :=
  do (s, rows, len) <- (if e_iptr s <=? e_optr s then get_next_row s rows else Ok (s, rows, 0));
  if len <? 0 then Ok (s, rows, -7)
  else do b <- aget (bw_out (e_bw s)) (e_optr s);
       let bit := Z.land (Z.shiftr b (7 - e_bitpos s)) 1 in
       let p := e_bitpos s - 1 in
       Ok (if p <? 0 then e_set_out s (e_optr s + 1) 7 else e_set_out s (e_optr s) p, rows, bit).

(** src/t4_t6_encode.c:1002-1026 t4_t6_encode_get *)
Fixpoint enc_get_loop (fuel : nat) (s : enc) (rows : list (list Z)) (n : Z) (buf : list Z) : res (enc * list (list Z) * list Z) :=
  if n <=? 0 then Ok (s, rows, buf)
  else match fuel with
       | O => UB
       | S k =>
           do (s, rows, len) <- (if e_iptr s <=? e_optr s then get_next_row s rows else Ok (s, rows, 0));
           if len <? 0 then Ok (s, rows, buf)
           else let m := Z.min n (e_iptr s - e_optr s) in
                do d <- aslice (bw_out (e_bw s)) (e_optr s) m;
                enc_get_loop k (e_set_out s (e_optr s + m) (e_bitpos s)) rows (n - m) (buf ++ d)
       end.
Definition enc_get (s : enc) (rows : list (list Z)) (max_len : Z) : res (enc * list (list Z) * list Z) :=
  enc_get_loop (Z.to_nat max_len + 2) s rows max_len [].

(** src/t4_t6_encode.c:1051-1064 *)
Definition enc_set_min_bits (s : enc) (bits : Z) : enc :=
  mk_enc (e_encoding s) (e_width s) (if e_encoding s =? T6 then 0 else bits) (e_max s) (e_rows s) (e_2d s) (e_length s)
         (e_cur s) (e_ref s) (e_steps s) (e_bw s) (e_optr s) (e_bitpos s).
(** src/t4_t6_encode.c:1128-1172 *)
Definition y_res_table : list (Z * Z) :=
  [(3850, 2); (3937, 2); (7700, 4); (7874, 4); (11811, 6); (15400, 8); (15748, 8); (23622, 12); (31496, 16); (47244, 24)].
Definition enc_set_max_2d (s : enc) (max : Z) : enc :=
  let max := if max <? 0
             then match find (fun p => fst p =? - max) y_res_table with Some p => snd p | None => 2 end
             else max in
  mk_enc (e_encoding s) (e_width s) (e_min s) max (max - 1) false (e_length s)
         (e_cur s) (e_ref s) (e_steps s) (e_bw s) (e_optr s) (e_bitpos s).

(** src/t4_t6_encode.c:1174-1247 t4_t6_encode_restart and t4_t6_encode_init; [j1] and [j2] are the contents of
    the freshly allocated run buffers (image_width + 4 entries each). *)
Definition enc_init (encoding width : Z) (j1 j2 : list Z) : res enc :=
  do ref <- aset j2 3 width; do ref <- aset ref 2 width; do ref <- aset ref 1 width; do ref <- aset ref 0 width;
  Ok (mk_enc encoding width 0 2 1 (encoding =? T6) 0 j1 ref 1 (mk_bw 0 0 0 []) 0 7).
