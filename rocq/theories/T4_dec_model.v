(** Model of the T.4 1-D, T.4 2-D and T.6 decompressor, src/t4_t6_decode.c.
    Not modelled: logging, the monitoring counters (row_bits, min_row_bits, max_row_bits, compressed_image_size,
    curr_bad_row_run, longest_bad_row_run), allocation failure.  The row write handler accepts every row (returns
    0); the rows it is given are recorded in order, the end of image call as [None].  Ints are unbounded.
    bytes_per_row is always (image_width + 7)/8. *)
From Verif Require Import Base T4_tables T4_enc_model.

(** row_is_2d, row_len, run_length, black_white, in_black, a0, b1, a_cursor, b_cursor, cur_runs, ref_runs *)
Record drow := mk_drow {
  r_2d : bool; r_len : Z; r_run : Z; r_bw : Z; r_black : bool;
  r_a0 : Z; r_b1 : Z; r_ac : Z; r_bc : Z; r_cur : list Z; r_ref : list Z }.
(** row_buf, pixel_stream, pixels, image_length, bad_rows, the rows given to the handler *)
Record dimg := mk_dimg {
  i_buf : list Z; i_ps : Z; i_pix : Z; i_length : Z; i_bad : Z; i_log : list (option (list Z)) }.
(** encoding, image_width, consecutive_eols, rx_bitstream, rx_bits, rx_skip_bits *)
Record dec := mk_dec {
  d_encoding : Z; d_width : Z; d_eols : Z; d_row : drow; d_img : dimg; d_bs : Z; d_bits : Z; d_skip : Z }.

(** src/t4_t6_decode.c:162-174 add_run_to_row *)
Definition add_run_to_row (width : Z) (r : drow) : res drow :=
  let len := if 0 <=? r_run r then r_len r + r_run r else r_len r in
  if (0 <=? r_run r) && (len <=? width)
  then do cur <- aset (r_cur r) (r_ac r) (r_run r);
       Ok (mk_drow (r_2d r) len 0 (r_bw r) (r_black r) (r_a0 r) (r_b1 r) (r_ac r + 1) (r_bc r) cur (r_ref r))
  else Ok (mk_drow (r_2d r) len 0 (r_bw r) (r_black r) (r_a0 r) (r_b1 r) (r_ac r) (r_bc r) (r_cur r) (r_ref r)).

(** src/t4_t6_decode.c:191-194 msbmask *)
Definition msbmask : list Z := [0x00; 0x01; 0x03; 0x07; 0x0f; 0x1f; 0x3f; 0x7f; 0xff].
(** src/t4_t6_decode.c:250-256: whole octets *)
Fixpoint paint_octets (fuel : nat) (buf : list Z) (pos ps pix fudge i : Z) : res (list Z * Z * Z * Z * Z) :=
  if i <? 8 then Ok (buf, pos, ps, pix, i)
  else match fuel with
       | O => UB
       | S k => do buf <- aset buf pos (u8 ps); paint_octets k buf (pos + 1) fudge 8 fudge (i - 8)
       end.
(** src/t4_t6_decode.c:241-262: the runs x .. a_cursor-1 *)
Definition paint_run (buf : list Z) (pos ps pix fudge i : Z) : res (list Z * Z * Z * Z) :=
  do (buf, pos, ps, pix, i) <-
    (if pix <=? i
     then if pix <? 0 then UB else
          do m <- aget msbmask pix;
          let i := i + (8 - pix) in
          paint_octets (Z.to_nat i) buf pos (Z.lor (u32 (Z.shiftl ps pix)) (Z.land m fudge)) pix fudge i
     else Ok (buf, pos, ps, pix, i));
  do m <- aget msbmask i;
  Ok (buf, pos, Z.lor (u32 (Z.shiftl ps i)) (Z.land m fudge), pix - i).
Fixpoint paint_runs (fuel : nat) (cur : list Z) (ac x : Z) (buf : list Z) (pos ps pix fudge : Z) : res (list Z * Z * Z) :=
  if ac <=? x then Ok (buf, ps, pix)
  else match fuel with
       | O => UB
       | S k => do i <- aget cur x;
                do (buf, pos, ps, pix) <- paint_run buf pos ps pix fudge i;
                paint_runs k cur ac (x + 1) buf pos ps pix (Z.lxor fudge 0xFF)
       end.

(** src/t4_t6_decode.c:272-301: clean up the runs of a bad row *)
Fixpoint sum_runs (fuel : nat) (width : Z) (cur : list Z) (ac j fudge : Z) : res Z :=
  if (ac <=? j) || (width <=? fudge) then Ok fudge
  else match fuel with
       | O => UB
       | S k => do v <- aget cur j; sum_runs k width cur ac (j + 1) (fudge + v)
       end.
Definition fix_row (width : Z) (cur : list Z) (ac : Z) : res (list Z * Z) :=
  do fudge <- sum_runs (S (length cur)) width cur ac 0 0;
  if fudge <? width
  then if Z.odd ac
       then do cur <- aset cur ac 1;
            if fudge + 1 <? width
            then do cur <- aset cur (ac + 1) (width - (fudge + 1)); Ok (cur, ac + 2)
            else Ok (cur, ac + 1)
       else do cur <- aset cur ac (width - fudge); Ok (cur, ac + 1)
  else do v <- aget cur ac; do cur <- aset cur ac (u32 (v + (width - fudge))); Ok (cur, ac).

(** src/t4_t6_decode.c:189-333 put_decoded_row *)
Definition put_decoded_row (width : Z) (r : drow) (im : dimg) : res (drow * dimg) :=
  do r <- (if r_run r =? 0 then Ok r else add_run_to_row width r);
  do (cur, ac, im) <-
    (if r_len r =? width
     then do (buf, ps, pix) <- paint_runs (S (length (r_cur r))) (r_cur r) (r_ac r) 0 (i_buf im) 0 (i_ps im) (i_pix im) 0;
          Ok (r_cur r, r_ac r, mk_dimg buf ps pix (i_length im + 1) (i_bad im) (i_log im))
     else do (cur, ac) <- fix_row width (r_cur r) (r_ac r);
          Ok (cur, ac, mk_dimg (i_buf im) (i_ps im) (i_pix im) (i_length im + 1) (i_bad im + 1) (i_log im)));
  do cur <- aset cur ac 0;
  do cur <- aset cur (ac + 1) 0;
  do b1 <- aget cur 0;
  Ok (mk_drow (r_2d r) (r_len r) 0 (r_bw r) (r_black r) 0 b1 0 1 (r_ref r) cur,
      mk_dimg (i_buf im) (i_ps im) (i_pix im) (i_length im) (i_bad im) (i_log im ++ [Some (i_buf im)])).

(** src/t4_t6_decode.c:508-514: move b1 past a0 *)
Fixpoint move_b1 (fuel : nat) (ref : list Z) (a0 b1 bc : Z) : res (Z * Z) :=
  if a0 <? b1 then Ok (b1, bc)
  else match fuel with
       | O => UB
       | S k => do x <- aget ref bc; do y <- aget ref (bc + 1); move_b1 k ref a0 (b1 + (x + y)) (bc + 2)
       end.
Definition r_set_b (r : drow) (b1 bc : Z) : drow :=
  mk_drow (r_2d r) (r_len r) (r_run r) (r_bw r) (r_black r) (r_a0 r) b1 (r_ac r) bc (r_cur r) (r_ref r).
Definition r_set_a (r : drow) (a0 run : Z) : drow :=
  mk_drow (r_2d r) (r_len r) run (r_bw r) (r_black r) a0 (r_b1 r) (r_ac r) (r_bc r) (r_cur r) (r_ref r).
Definition r_set_h (r : drow) (black : bool) (bw : Z) : drow :=
  mk_drow (r_2d r) (r_len r) (r_run r) bw black (r_a0 r) (r_b1 r) (r_ac r) (r_bc r) (r_cur r) (r_ref r).

(** src/t4_t6_decode.c:508-599: act on a 2-D mode code *)
Definition code_2d (width : Z) (r : drow) (e : te) : res drow :=
  do (b1, bc) <- (if r_ac r =? 0 then Ok (r_b1 r, r_bc r)
                  else move_b1 (S (length (r_ref r))) (r_ref r) (r_a0 r) (r_b1 r) (r_bc r));
  let r := r_set_b r b1 bc in
  match te_st e with
  | S_Horiz => Ok (r_set_h r (Z.odd (r_ac r)) 2)
  | S_Vert =>
      let a0 := r_b1 r + te_param e in
      if (a0 <=? r_a0 r) && ((a0 <? r_a0 r) || (1 <? r_bc r)) then Ok r
      else do r <- add_run_to_row width (r_set_a r a0 (r_run r + (a0 - r_a0 r)));
           if 0 <=? te_param e
           then do v <- aget (r_ref r) (r_bc r); Ok (r_set_b r (r_b1 r + v) (r_bc r + 1))
           else if r_bc r =? 0 then Ok r
           else do v <- aget (r_ref r) (r_bc r - 1); Ok (r_set_b r (r_b1 r - v) (r_bc r - 1))
  | S_Pass =>
      do v <- aget (r_ref r) (r_bc r);
      do v' <- aget (r_ref r) (r_bc r + 1);
      let a0 := r_b1 r + v in
      Ok (r_set_b (r_set_a r a0 (r_run r + (a0 - r_a0 r))) (a0 + v') (r_bc r + 2))
  | _ => Ok r
  end.

(** src/t4_t6_decode.c:605-676: act on a run length code *)
Definition is_makeup (black : bool) (s : tst) : bool :=
  match s with S_MakeUp => true | S_MakeUpB => black | S_MakeUpW => negb black | _ => false end.
Definition is_term (black : bool) (s : tst) : bool :=
  match s with S_TermB => black | S_TermW => negb black | _ => false end.
Definition code_1d (width : Z) (r : drow) (e : te) : res drow :=
  if is_makeup (r_black r) (te_st e) then Ok (r_set_a r (r_a0 r + te_param e) (r_run r + te_param e))
  else if is_term (r_black r) (te_st e)
  then let r := r_set_h r (negb (r_black r)) (r_bw r) in
       do r <- (if r_len r <? width
                then add_run_to_row width (r_set_a r (r_a0 r + te_param e) (r_run r + te_param e)) else Ok r);
       Ok (if r_bw r =? 0 then r else r_set_h r (r_black r) (r_bw r - 1))
  else Ok (r_set_h r (r_black r) 0).

(** src/t4_t6_decode.c:496-678: one code word.  The result is the number of bits to drop and whether the end
    of the loop body is reached (false for the [continue] of line 505). *)
Definition decode_code (width : Z) (r : drow) (bs : Z) : res (drow * Z * bool) :=
  if r_2d r && (r_bw r =? 0)
  then do e <- tget t4_2d_table (Z.land bs 0x7F);
       if width <=? r_len r then Ok (r, te_width e, false)
       else do r <- code_2d width r e; Ok (r, te_width e, true)
  else do e <- (if r_black r then tget t4_1d_black_table (Z.land bs 0x1FFF) else tget t4_1d_white_table (Z.land bs 0xFFF));
       do r <- code_1d width r e; Ok (r, te_width e, true).

(** src/t4_t6_decode.c:479-482 and 699-702: start of a new row *)
Definition row_start (r : drow) : drow :=
  mk_drow (r_2d r) 0 0 0 false (r_a0 r) (r_b1 r) (r_ac r) (r_bc r) (r_cur r) (r_ref r).
Definition r_set_2d (r : drow) (v : bool) : drow :=
  mk_drow v (r_len r) (r_run r) (r_bw r) (r_black r) (r_a0 r) (r_b1 r) (r_ac r) (r_bc r) (r_cur r) (r_ref r).

Definition d_set (s : dec) (eols : Z) (r : drow) (im : dimg) (bs bits skip : Z) : dec :=
  mk_dec (d_encoding s) (d_width s) eols r im bs bits skip.

(** src/t4_t6_decode.c:419-484: an EOL is at the front of the bit stream; true when the page is over *)
Definition EOLS_ANY := 6.
Definition EOLS_T4 := 5.
Definition EOLS_T6 := 2.
Definition dec_eol (s : dec) : res (dec * bool) :=
  let r := d_row s in
  let limit := if d_encoding s =? T6 then EOLS_T6 else EOLS_T4 in
  if (r_len r =? 0) && (limit <=? d_eols s + 1)
  then Ok (d_set s EOLS_ANY r (d_img s) (d_bs s) (d_bits s) (d_skip s), true)
  else
    do (eols, r, im) <-
      (if r_len r =? 0 then Ok (d_eols s + 1, r, d_img s)
       else do r <- (if 0 <? r_run r then add_run_to_row (d_width s) r else Ok r);
            do (r, im) <- put_decoded_row (d_width s) r (d_img s);
            Ok (0, r, im));
    let r2 := if d_encoding s =? T4_2D then r_set_2d r (Z.land (d_bs s) 0x1000 =? 0) else r in
    let n := if d_encoding s =? T4_2D then 13 else 12 in
    Ok (d_set s eols (row_start r2) im (Z.shiftr (d_bs s) n) (d_bits s - n) 0, false).

(** src/t4_t6_decode.c:411-707: one turn of the main loop of put_bits *)
Definition dec_iter (s : dec) : res (dec * bool) :=
  if Z.land (d_bs s) 0xFFF =? 0x800 then dec_eol s
  else if negb (d_skip s =? 0)
  then Ok (d_set s (d_eols s) (d_row s) (d_img s) (Z.shiftr (d_bs s) 1) (d_bits s - 1) (d_skip s - 1), false)
  else
    do (r, n, through) <- decode_code (d_width s) (d_row s) (d_bs s);
    let r := if through && (d_width s <=? r_a0 r) then r_set_a r (d_width s - 1) (r_run r) else r in
    do (r, im) <-
      (if through && (d_encoding s =? T6) && (r_bw r =? 0) && (d_width s <=? r_len r)
       then do r <- (if 0 <? r_run r then add_run_to_row (d_width s) r else Ok r);
            do (r, im) <- put_decoded_row (d_width s) r (d_img s);
            Ok (row_start r, im)
       else Ok (r, d_img s));
    Ok (d_set s (d_eols s) r im (Z.shiftr (d_bs s) 1) (d_bits s - 1) (d_skip s + (n - 1)), false).

Fixpoint dec_loop (fuel : nat) (s : dec) : res (dec * bool) :=
  if d_bits s <? 13 then Ok (s, false)
  else match fuel with
       | O => UB
       | S k => do (s, stop) <- dec_iter s; if stop then Ok (s, true) else dec_loop k s
       end.

(** src/t4_t6_decode.c:384-391: look for the first EOL *)
Fixpoint find_eol (fuel : nat) (bs bits : Z) : res (Z * Z * bool) :=
  if Z.land bs 0xFFF =? 0x800 then Ok (bs, bits, true)
  else match fuel with
       | O => UB
       | S k => let bs := Z.shiftr bs 1 in let bits := bits - 1 in
                if bits <? 13 then Ok (bs, bits, false) else find_eol k bs bits
       end.

(** src/t4_t6_decode.c:358-710 put_bits *)
Definition put_bits (s : dec) (q quantity : Z) : res (dec * bool) :=
  if (d_bits s <? 0) || (32 <=? d_bits s) then UB else
  let bs := Z.lor (d_bs s) (u32 (Z.shiftl q (d_bits s))) in
  let bits := d_bits s + quantity in
  let s := d_set s (d_eols s) (d_row s) (d_img s) bs bits (d_skip s) in
  if bits <? 13 then Ok (s, false)
  else if EOLS_ANY <=? d_eols s then Ok (s, true)
  else
    do (s, found) <-
      (if d_eols s <? 0
       then do (bs, bits, found) <- find_eol (Z.to_nat bits) bs bits;
            if found
            then let d := d_encoding s =? T4_1D in
                 let n := if d then 12 else 13 in
                 Ok (d_set s 0 (r_set_2d (d_row s) (if d then false else Z.land bs 0x1000 =? 0)) (d_img s)
                           (Z.shiftr bs n) (bits - n) 0, true)
            else Ok (d_set s (d_eols s) (d_row s) (d_img s) bs bits (d_skip s), false)
       else Ok (s, true));
    if found then dec_loop (Z.to_nat (d_bits s)) s else Ok (s, false).

(** src/t4_t6_decode.c:752-797 t4_t6_decode_put.  T4_DECODE_MORE_DATA = 0, T4_DECODE_OK = -1. *)
Fixpoint put_octets (s : dec) (buf : list Z) : res (dec * Z) :=
  match buf with
  | [] => Ok (s, 0)
  | b :: t => do (s, stop) <- put_bits s (Z.land b 0xFF) 8; if stop then Ok (s, -1) else put_octets s t
  end.
Definition dec_finish (s : dec) : res (dec * Z) :=
  do s <- (if d_eols s =? EOLS_ANY then Ok s
           else do (s, _) <- put_bits s 0 8; do (s, _) <- put_bits s 0 5; Ok s);
  let im := d_img s in
  Ok (d_set s EOLS_ANY (d_row s)
            (mk_dimg (i_buf im) (i_ps im) (i_pix im) (i_length im) (i_bad im) (i_log im ++ [None])) 0 0 0, -1).
Definition dec_put (s : dec) (buf : list Z) : res (dec * Z) :=
  match buf with [] => dec_finish s | _ => put_octets s buf end.

(** src/t4_t6_decode.c:713-749 t4_t6_decode_put_bit (a negative [bit] is a signal status: SIG_STATUS_CARRIER_DOWN
    = -1 and SIG_STATUS_END_OF_DATA = -7 finish the page, others are ignored; the C returns true, i.e. 1). *)
Definition dec_put_bit (s : dec) (bit : Z) : res (dec * Z) :=
  if bit <? 0
  then do s <- (if (bit =? -1) || (bit =? -7) then do (s, _) <- dec_finish s; Ok s else Ok s); Ok (s, 1)
  else do (s, stop) <- put_bits s (Z.land bit 1) 1; Ok (s, if stop then -1 else 0).

(** src/t4_t6_decode.c:849-951 t4_t6_decode_restart and t4_t6_decode_init *)
Definition dec_init (encoding width : Z) : dec :=
  let zeros n := repeat 0 (Z.to_nat n) in
  mk_dec encoding width (if encoding =? T6 then 0 else -1)
    (mk_drow (encoding =? T6) 0 0 0 false 0 width 0 1 (zeros (width + 4)) (upd (zeros (width + 4)) 0 width))
    (mk_dimg (zeros ((width + 7) / 8)) 0 8 0 0 [])
    0 0 0.
