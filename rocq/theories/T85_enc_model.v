(** Model of src/t85_encode.c: the T.85 (JBIG) fax image compressor.

    The row read handler is a list of rows, each as many octets as a row takes; at
    the end of the list it returns 0.  The bit stream buffer is the list of octets
    between its output and input pointers.  Memory allocation always succeeds.
    compressed_image_size, a statistic, is left out, as are t85_encode_abort and a
    change of the width or length by the application while the image is going out. *)
From Verif Require Import Base Arith_model.

(* spandsp/t85.h:46-54 *)
Definition T85_TPBON : Z := 0x08.
Definition T85_VLENGTH : Z := 0x20.
Definition T85_LRLTWO : Z := 0x40.
(* private/t85.h:30-48 *)
Definition TPB2CX : Z := 0x195.
Definition TPB3CX : Z := 0x0E5.
Definition T82_STUFF : Z := 0x00.
Definition T82_SDNORM : Z := 0x02.
Definition T82_SDRST : Z := 0x03.
Definition T82_ABORT : Z := 0x04.
Definition T82_NEWLEN : Z := 0x05.
Definition T82_ATMOVE : Z := 0x06.
Definition T82_COMMENT : Z := 0x07.
Definition T82_ESC : Z := 0xFF.

Definition opt (options f : Z) : bool := negb (Z.land options f =? 0).

(* t85_encode.c:58-63 *)
Inductive newlen_t := NEWLEN_NONE | NEWLEN_PENDING | NEWLEN_HANDLED.

(** The adaptive template variables: tx, new_tx, c_all and c[] *)
Record atv := mkAtv { a_tx : Z; a_new : Z; a_all : Z; a_c : list Z }.

(* private/t85.h:51-113 *)
Record te := mkTe {
  te_xd : Z; te_yd : Z; te_l0 : Z; te_mx : Z; te_options : Z;
  te_comment : option (list Z);
  te_y : Z; te_i : Z; te_newlen : newlen_t; te_at : atv; te_prev_ltp : bool;
  te_r0 : list Z; te_r1 : list Z; te_r2 : list Z;
  te_bits : list Z; te_white : bool; te_ar : enc }.

Definition t_yd (s : te) (v : Z) : te := mkTe (te_xd s) v (te_l0 s) (te_mx s) (te_options s) (te_comment s) (te_y s) (te_i s) (te_newlen s) (te_at s) (te_prev_ltp s) (te_r0 s) (te_r1 s) (te_r2 s) (te_bits s) (te_white s) (te_ar s).
Definition t_comment (s : te) (v : option (list Z)) : te := mkTe (te_xd s) (te_yd s) (te_l0 s) (te_mx s) (te_options s) v (te_y s) (te_i s) (te_newlen s) (te_at s) (te_prev_ltp s) (te_r0 s) (te_r1 s) (te_r2 s) (te_bits s) (te_white s) (te_ar s).
Definition t_yi (s : te) (y i : Z) : te := mkTe (te_xd s) (te_yd s) (te_l0 s) (te_mx s) (te_options s) (te_comment s) y i (te_newlen s) (te_at s) (te_prev_ltp s) (te_r0 s) (te_r1 s) (te_r2 s) (te_bits s) (te_white s) (te_ar s).
Definition t_newlen (s : te) (v : newlen_t) : te := mkTe (te_xd s) (te_yd s) (te_l0 s) (te_mx s) (te_options s) (te_comment s) (te_y s) (te_i s) v (te_at s) (te_prev_ltp s) (te_r0 s) (te_r1 s) (te_r2 s) (te_bits s) (te_white s) (te_ar s).
Definition t_at (s : te) (v : atv) : te := mkTe (te_xd s) (te_yd s) (te_l0 s) (te_mx s) (te_options s) (te_comment s) (te_y s) (te_i s) (te_newlen s) v (te_prev_ltp s) (te_r0 s) (te_r1 s) (te_r2 s) (te_bits s) (te_white s) (te_ar s).
Definition t_ltp (s : te) (v : bool) : te := mkTe (te_xd s) (te_yd s) (te_l0 s) (te_mx s) (te_options s) (te_comment s) (te_y s) (te_i s) (te_newlen s) (te_at s) v (te_r0 s) (te_r1 s) (te_r2 s) (te_bits s) (te_white s) (te_ar s).
Definition t_rows (s : te) (r0 r1 r2 : list Z) : te := mkTe (te_xd s) (te_yd s) (te_l0 s) (te_mx s) (te_options s) (te_comment s) (te_y s) (te_i s) (te_newlen s) (te_at s) (te_prev_ltp s) r0 r1 r2 (te_bits s) (te_white s) (te_ar s).
Definition t_bits (s : te) (v : list Z) : te := mkTe (te_xd s) (te_yd s) (te_l0 s) (te_mx s) (te_options s) (te_comment s) (te_y s) (te_i s) (te_newlen s) (te_at s) (te_prev_ltp s) (te_r0 s) (te_r1 s) (te_r2 s) v (te_white s) (te_ar s).
Definition t_white (s : te) (v : bool) : te := mkTe (te_xd s) (te_yd s) (te_l0 s) (te_mx s) (te_options s) (te_comment s) (te_y s) (te_i s) (te_newlen s) (te_at s) (te_prev_ltp s) (te_r0 s) (te_r1 s) (te_r2 s) (te_bits s) v (te_ar s).
Definition t_ar (s : te) (v : enc) : te := mkTe (te_xd s) (te_yd s) (te_l0 s) (te_mx s) (te_options s) (te_comment s) (te_y s) (te_i s) (te_newlen s) (te_at s) (te_prev_ltp s) (te_r0 s) (te_r1 s) (te_r2 s) (te_bits s) (te_white s) v.
Definition t_params (s : te) (l0 mx options : Z) : te := mkTe (te_xd s) (te_yd s) l0 mx options (te_comment s) (te_y s) (te_i s) (te_newlen s) (te_at s) (te_prev_ltp s) (te_r0 s) (te_r1 s) (te_r2 s) (te_bits s) (te_white s) (te_ar s).

(* t85_encode.c:66-90 *)
Definition put_stuff (s : te) (buf : list Z) : te := t_bits s (te_bits s ++ buf).
(* t85_encode.c:104-111 *)
Definition output_esc_code (s : te) (code : Z) : te := put_stuff s [T82_ESC; code].

(* put_net_unaligned_uint32 *)
Definition net32 (v : Z) : list Z := [u8 (Z.shiftr v 24); u8 (Z.shiftr v 16); u8 (Z.shiftr v 8); u8 v].

(* t85_encode.c:114-134 *)
Definition output_newlen (s : te) : te :=
  match te_newlen s with
  | NEWLEN_PENDING =>
      let s1 := put_stuff s ([T82_ESC; T82_NEWLEN] ++ net32 (te_yd s)) in
      let s2 := if te_y s =? te_yd s then output_esc_code s1 T82_SDNORM else s1 in
      t_newlen s2 NEWLEN_HANDLED
  | _ => s
  end.

(* t85_encode.c:137-153 *)
Definition output_comment (s : te) : te :=
  match te_comment s with
  | Some c => t_comment (put_stuff s ([T82_ESC; T82_COMMENT] ++ net32 (Z.of_nat (length c)) ++ c)) None
  | None => s
  end.

(* t85_encode.c:156-171 *)
Definition output_atmove (s : te) : te :=
  let a := te_at s in
  if (0 <=? a_new a) && negb (a_new a =? a_tx a) then
    put_stuff (t_at s (mkAtv (a_new a) (a_new a) (a_all a) (a_c a)))
              ([T82_ESC; T82_ATMOVE] ++ net32 0 ++ [u8 (a_new a); 0])
  else s.

(* t85_encode.c:174-219; one bit plane *)
Definition generate_bih (s : te) : list Z :=
  [0; 0; 1; 0] ++ net32 (te_xd s) ++ net32 (te_yd s) ++ net32 (te_l0 s) ++ [u8 (te_mx s); 0; 0; u8 (te_options s)].

(* t85_encode.c:222-241; the comparisons of l0 are unsigned *)
Definition t85_encode_set_options (s : te) (l0 mx options : Z) : te :=
  if 0 <? te_y s then s
  else t_params s (if (1 <=? l0) && (l0 <=? te_yd s) then l0 else te_l0 s)
                  (if (0 <=? mx) && (mx <=? 127) then mx else te_mx s)
                  (if 0 <=? options then Z.land options (Z.lor (Z.lor T85_TPBON T85_VLENGTH) T85_LRLTWO) else te_options s).

Definition bytes_per_row (xd : Z) : Z := Z.shiftr (u32 (xd + 7)) 3.

(** The pixel [t] columns to the left of column [j]: lines 381-382 and 399-400;
    hp[0] points to octet j >> 3 of the row *)
Definition pixel_back (r0 : list Z) (j t : Z) : res Z :=
  let o := (j - t) - Z.land j (Z.lnot 7) in
  do b <- aget r0 (Z.shiftr j 3 + Z.shiftr o 3);
  Ok (Z.land (Z.shiftr b (7 - Z.land o 7)) 1).

(* t85_encode.c:374-389 and 439-452: the context, from the shifted row_h[] *)
Definition enc_context (options tx : Z) (r0 : list Z) (h0 h1 h2 j : Z) : res Z :=
  if opt options T85_LRLTWO then
    let cx := Z.land (Z.shiftr h0 9) 0x00F in
    if negb (tx =? 0) then
      let cx := Z.lor cx (Z.land (Z.shiftr h1 10) 0x3E0) in
      if tx <=? j then do a <- pixel_back r0 j tx; Ok (Z.lor cx (Z.shiftl a 4)) else Ok cx
    else Ok (Z.lor cx (Z.land (Z.shiftr h1 10) 0x3F0))
  else
    let cx := Z.lor (Z.land (Z.shiftr h2 8) 0x380) (Z.land (Z.shiftr h0 9) 0x003) in
    if negb (tx =? 0) then
      let cx := Z.lor cx (Z.land (Z.shiftr h1 12) 0x078) in
      if tx <=? j then do a <- pixel_back r0 j tx; Ok (Z.lor cx (Z.shiftl a 2)) else Ok cx
    else Ok (Z.lor cx (Z.land (Z.shiftr h1 12) 0x07C)).

Definition bump (c : list Z) (t : Z) : res (list Z) := do v <- aget c t; aset c t (u32 (v + 1)).

(* t85_encode.c:402-420 and 462-480: both loops over t; [n] values of t are left *)
Fixpoint count_matches (n : nat) (t j p : Z) (r0 : list Z) (c : list Z) : res (list Z) :=
  match n with
  | O => Ok c
  | S k =>
      do c1 <- (if t <=? j then
                  do a <- pixel_back r0 j t;
                  if a =? p then bump c t else Ok c
                else if p =? 0 then bump c t else Ok c);
      count_matches k (t + 1) j p r0 c1
  end.

Definition first_t (options : Z) : Z := if opt options T85_LRLTWO then 5 else 3.

(* t85_encode.c:395-424 and 456-484 *)
Definition update_stats (xd mx options : Z) (a : atv) (r0 : list Z) (h1 j p : Z) : res atv :=
  if (a_new a <? 0) && (mx <=? j) && (j <? u32 (xd - 2)) then
    do c1 <- (if p =? Z.land (Z.shiftr h1 14) 1 then bump (a_c a) 0 else Ok (a_c a));
    let t := first_t options in
    do c2 <- count_matches (Z.to_nat (mx - t + 1)) t j p r0 c1;
    Ok (mkAtv (a_tx a) (a_new a) (u32 (a_all a + 1)) c2)
  else Ok a.

(* t85_encode.c:354-497: the pixels from column [j] on, [n] of them; the do-while over
   the pixels of an octet and the loop over the octets are one *)
Fixpoint encode_pixels (n : nat) (xd mx options : Z) (r0 r1 r2 : list Z)
                       (a : atv) (e : enc) (h0 h1 h2 j : Z) : res (atv * enc * list Z) :=
  match n with
  | O => Ok (a, e, [])
  | S k =>
      do (h0, h1, h2) <-
        (if Z.land j 7 =? 0 then
           do b0 <- aget r0 (Z.shiftr j 3);
           if j <? (bytes_per_row xd - 1) * 8 then
             do b1 <- aget r1 (Z.shiftr j 3 + 1);
             do b2 <- aget r2 (Z.shiftr j 3 + 1);
             Ok (Z.lor h0 b0, Z.lor h1 b1, Z.lor h2 b2)
           else Ok (Z.lor h0 b0, h1, h2)
         else Ok (h0, h1, h2));
      let h0 := u32 (Z.shiftl h0 1) in
      let h1 := u32 (Z.shiftl h1 1) in
      let h2 := u32 (Z.shiftl h2 1) in
      do cx <- enc_context options (a_tx a) r0 h0 h1 h2 j;
      let p := Z.land (Z.shiftr h0 8) 1 in
      do (e1, o1) <- t81_t82_arith_encode e cx p;
      do a1 <- update_stats xd mx options a r0 h1 j p;
      do (a2, e2, o2) <- encode_pixels k xd mx options r0 r1 r2 a1 e1 h0 h1 h2 (j + 1);
      Ok (a2, e2, o1 ++ o2)
  end.

(* t85_encode.c:341-353 *)
Definition encode_row (xd mx options : Z) (r0 r1 r2 : list Z) (a : atv) (e : enc) : res (atv * enc * list Z) :=
  do b1 <- aget r1 0;
  do b2 <- aget r2 0;
  encode_pixels (Z.to_nat xd) xd mx options r0 r1 r2 a e 0 (Z.shiftl b1 8) (Z.shiftl b2 8) 0.

(* t85_encode.c:578-613; t81_t82_arith_encode_flush sends octets to put_stuff() *)
Definition t85_encode_set_image_length (s : te) (len : Z) : Z * te :=
  let bad := negb (opt (te_options s) T85_VLENGTH)
             || (match te_newlen s with NEWLEN_HANDLED => true | _ => false end)
             || (te_yd s <=? len) || (len <? 1) in
  if bad then (-1, s)
  else
    let len := if (0 <? te_y s) && (len <? te_y s) then te_y s else len in
    let s1 := if (0 <? te_y s) && negb (te_yd s =? len) then t_newlen s NEWLEN_PENDING else s in
    let s2 := t_yd s1 len in
    if te_y s2 =? te_yd s2 then
      let s3 :=
        if 0 <? te_i s2 then
          let (e, o) := t81_t82_arith_encode_flush (te_ar s2) in
          t_yi (output_esc_code (put_stuff (t_ar s2 e) o) T82_SDNORM) (te_y s2) 0
        else s2 in
      (0, output_newlen s3)
    else (0, s2).

(* t85_encode.c:522-533 *)
Fixpoint at_scan (n : nat) (i cmin cmax tmax : Z) (c : list Z) : res (Z * Z * Z) :=
  match n with
  | O => Ok (cmin, cmax, tmax)
  | S k =>
      do v <- aget c i;
      do m <- aget c tmax;
      at_scan k (i + 1) (if v <? cmin then v else cmin) (if cmax <? v then v else cmax) (if m <? v then i else tmax) c
  end.

(* t85_encode.c:514-558 *)
Definition atmove_analysis (mx options : Z) (a : atv) : res atv :=
  if (a_new a <? 0) && (2048 <? a_all a) then
    let t := first_t options in
    do (cmin, cmax, tmax) <- at_scan (Z.to_nat (mx - t + 1)) t 4294967295 0 0 (a_c a);
    do c0 <- aget (a_c a) 0;
    do ctx <- aget (a_c a) (a_tx a);
    let clmin := if c0 <? cmin then c0 else cmin in
    let clmax := if cmax <? c0 then c0 else cmax in
    let all := a_all a in
    let move :=
      (u32 (all - cmax) <? Z.shiftr all 3)
      && (u32 (all - cmax) <? u32 (cmax - ctx))
      && (Z.shiftr all 4 <? u32 (cmax - ctx))
      && (u32 (all - cmax) <? u32 (cmax - u32 (all - ctx)))
      && (Z.shiftr all 4 <? u32 (cmax - u32 (all - ctx)))
      && (Z.shiftr all 2 <? u32 (cmax - cmin))
      && (negb (a_tx a =? 0) || (Z.shiftr all 3 <? u32 (clmax - clmin))) in
    Ok (mkAtv (a_tx a) (if move then tmax else a_tx a) all (a_c a))
  else Ok a.

(* memset of c[0..mx] *)
Definition clear_c (mx : Z) (c : list Z) : res (list Z) := ablit c 0 (repeat 0 (Z.to_nat (mx + 1))).

Definition zero_row (n : Z) : list Z := repeat 0 (Z.to_nat n).

(** Lines 301-304: the unused bits of the last octet of the row. *)
Definition mask_row (xd : Z) (row : list Z) : res (list Z) :=
  if negb (Z.land xd 7 =? 0) then
    do b <- aget row (bytes_per_row xd - 1);
    aset row (bytes_per_row xd - 1) (Z.land b (u8 (Z.lnot (Z.shiftl 1 (8 - Z.land xd 7) - 1))))
  else Ok row.

Definition eqb_rows (a b : list Z) (n : Z) : res bool :=
  do x <- aslice a 0 n; do y <- aslice b 0 n;
  Ok (if list_eq_dec Z.eq_dec x y then true else false).

(** Lines 306-513, from the point at which the new row is in place. *)
Definition code_row (s : te) : res te :=
  let bpr := bytes_per_row (te_xd s) in
  let s1 := if te_y s =? 0 then put_stuff s (generate_bih s) else s in
  do s2 <-
    (if te_i s1 =? 0 then
       let s2 := output_atmove (output_comment (output_newlen s1)) in
       do a <- (if te_mx s2 =? 0 then Ok (mkAtv (a_tx (te_at s2)) 0 (a_all (te_at s2)) (a_c (te_at s2)))
                else do c <- clear_c (te_mx s2) (a_c (te_at s2)); Ok (mkAtv (a_tx (te_at s2)) (-1) 0 c));
       Ok (t_ar (t_at s2 a) (t81_t82_arith_encode_restart (te_ar s2) true))
     else Ok s1);
  do (ltp, s3) <-
    (if opt (te_options s2) T85_TPBON then
       do ltp <- eqb_rows (te_r0 s2) (te_r1 s2) bpr;
       do (e, o) <- t81_t82_arith_encode (te_ar s2) (if opt (te_options s2) T85_LRLTWO then TPB2CX else TPB3CX)
                                         (if Bool.eqb ltp (te_prev_ltp s2) then 1 else 0);
       Ok (ltp, t_ltp (put_stuff (t_ar s2 e) o) ltp)
     else Ok (false, s2));
  do s4 <-
    (if ltp then Ok s3
     else do (a, e, o) <- encode_row (te_xd s3) (te_mx s3) (te_options s3) (te_r0 s3) (te_r1 s3) (te_r2 s3) (te_at s3) (te_ar s3);
          Ok (put_stuff (t_ar (t_at s3 a) e) o));
  let s5 := t_yi s4 (te_y s4 + 1) (te_i s4 + 1) in
  let s6 :=
    if (te_i s5 =? te_l0 s5) || (te_y s5 =? te_yd s5) then
      let (e, o) := t81_t82_arith_encode_flush (te_ar s5) in
      output_newlen (t_yi (output_esc_code (put_stuff (t_ar s5 e) o) T82_SDNORM) (te_y s5) 0)
    else s5 in
  do a <- atmove_analysis (te_mx s6) (te_options s6) (te_at s6);
  Ok (t_at s6 a).

(* t85_encode.c:244-560: the return value, the state and the rows not yet read *)
Definition get_next_row (s : te) (src : list (list Z)) : res (Z * te * list (list Z)) :=
  if te_yd s <=? te_y s then Ok (-1, s, src)
  else
    let bpr := bytes_per_row (te_xd s) in
    (* the buffer of the oldest row becomes that of the new one *)
    let rot := t_rows (t_bits s []) (te_r2 s) (te_r0 s) (te_r1 s) in
    let go (s1 : te) (row : list Z) (src1 : list (list Z)) :=
      do row1 <- mask_row (te_xd s1) row;
      do s2 <- code_row (t_rows s1 row1 (te_r1 s1) (te_r2 s1));
      Ok (0, s2, src1) in
    if te_white s then go rot (zero_row bpr) src
    else
      match src with
      | row :: src1 => go rot row src1
      | [] =>
          let (r, s1) := t85_encode_set_image_length rot 1 in
          if r =? 0 then Ok (0, s1, [])
          else go (t_white rot true) (zero_row bpr) []
      end.

(* t85_encode.c:646-669; [len] octets are in the caller's buffer *)
Fixpoint encode_get_loop (fuel : nat) (s : te) (src : list (list Z)) (len max_len : Z) : res (te * list (list Z) * list Z) :=
  match fuel with
  | O => UB
  | S f =>
      if len <? max_len then
        do (r, s1, src1) <- (match te_bits s with
                             | [] => get_next_row s src
                             | _ => Ok (0, s, src)
                             end);
        if r <? 0 then Ok (s1, src1, [])
        else
          let n := Z.min (Z.of_nat (length (te_bits s1))) (max_len - len) in
          let out := firstn (Z.to_nat n) (te_bits s1) in
          do (s2, src2, out2) <- encode_get_loop f (t_bits s1 (skipn (Z.to_nat n) (te_bits s1))) src1 (len + n) max_len;
          Ok (s2, src2, out ++ out2)
      else Ok (s, src, [])
  end.
(** Every turn of the loop yields an octet or uses up a row of the image. *)
Definition t85_encode_get (s : te) (src : list (list Z)) (max_len : Z) : res (te * list (list Z) * list Z) :=
  encode_get_loop (Z.to_nat (max_len + te_yd s - te_y s + 3)) s src 0 max_len.

(* t85_encode.c:629-635 *)
Definition t85_encode_image_complete (s : te) : bool := te_yd s <=? te_y s.

(* t85_encode.c:622-626 *)
Definition t85_encode_comment (s : te) (c : list Z) : te := t_comment s (Some c).

(* t85_encode.c:711-794: init; an image width of 0 leaves the row buffers unallocated *)
Definition t85_encode_init (xd yd : Z) : te :=
  let z := zero_row (bytes_per_row xd) in
  mkTe xd yd 128 127 (Z.lor T85_TPBON T85_VLENGTH) None 0 0 NEWLEN_NONE
       (mkAtv 0 (-1) 0 (repeat 0 128%nat)) false z z z [] false t81_t82_arith_encode_init.
