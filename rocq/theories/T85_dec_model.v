(** Model of src/t85_decode.c: the T.85 (JBIG) fax image decompressor.

    Rows and comments passed to the handlers are events, newest first.  The handlers
    return 0, so the interrupt flag is never set.  Row memory not yet written
    holds the values given by [junk].  Memory allocation always succeeds.  One bit plane
    (min_bit_planes = max_bit_planes = 1, as set by t85_decode_init);
    compressed_image_size, a statistic, and t85_decode_new_plane are left out. *)
From Verif Require Import Base Arith_model T85_enc_model.

Inductive event := Row (pixels : list Z) | Comment (text : option (list Z)) (len : Z).

(** The image parameters. *)
Record par := mkPar { xd : Z; l0 : Z; mx : Z; bpr : Z }.

(** The part of the state that decode_pscd() works on. *)
Record pd := mkPd {
  px : Z; py : Z; pi : Z; ppseudo : bool; plntp : bool; ptx : Z; pat : list (Z * Z);
  ph0 : Z; ph1 : Z; ph2 : Z; pp0 : Z; pp1 : Z; pp2 : Z; prows : list Z; par_s : dec; pev : list event }.

Definition p_tx (s : pd) (v : Z) : pd := mkPd (px s) (py s) (pi s) (ppseudo s) (plntp s) v (pat s) (ph0 s) (ph1 s) (ph2 s) (pp0 s) (pp1 s) (pp2 s) (prows s) (par_s s) (pev s).
Definition p_ar (s : pd) (v : dec) : pd := mkPd (px s) (py s) (pi s) (ppseudo s) (plntp s) (ptx s) (pat s) (ph0 s) (ph1 s) (ph2 s) (pp0 s) (pp1 s) (pp2 s) (prows s) v (pev s).
Definition p_tp (s : pd) (pseudo lntp : bool) : pd := mkPd (px s) (py s) (pi s) pseudo lntp (ptx s) (pat s) (ph0 s) (ph1 s) (ph2 s) (pp0 s) (pp1 s) (pp2 s) (prows s) (par_s s) (pev s).
Definition p_h (s : pd) (h0 h1 h2 : Z) : pd := mkPd (px s) (py s) (pi s) (ppseudo s) (plntp s) (ptx s) (pat s) h0 h1 h2 (pp0 s) (pp1 s) (pp2 s) (prows s) (par_s s) (pev s).
Definition p_p (s : pd) (p0 p1 p2 : Z) : pd := mkPd (px s) (py s) (pi s) (ppseudo s) (plntp s) (ptx s) (pat s) (ph0 s) (ph1 s) (ph2 s) p0 p1 p2 (prows s) (par_s s) (pev s).
Definition p_x (s : pd) (v : Z) : pd := mkPd v (py s) (pi s) (ppseudo s) (plntp s) (ptx s) (pat s) (ph0 s) (ph1 s) (ph2 s) (pp0 s) (pp1 s) (pp2 s) (prows s) (par_s s) (pev s).
Definition p_y (s : pd) (y i : Z) : pd := mkPd (px s) y i (ppseudo s) (plntp s) (ptx s) (pat s) (ph0 s) (ph1 s) (ph2 s) (pp0 s) (pp1 s) (pp2 s) (prows s) (par_s s) (pev s).
Definition p_rows (s : pd) (v : list Z) : pd := mkPd (px s) (py s) (pi s) (ppseudo s) (plntp s) (ptx s) (pat s) (ph0 s) (ph1 s) (ph2 s) (pp0 s) (pp1 s) (pp2 s) v (par_s s) (pev s).
Definition p_ev (s : pd) (e : event) : pd := mkPd (px s) (py s) (pi s) (ppseudo s) (plntp s) (ptx s) (pat s) (ph0 s) (ph1 s) (ph2 s) (pp0 s) (pp1 s) (pp2 s) (prows s) (par_s s) (e :: pev s).
Definition p_at (s : pd) (v : list (Z * Z)) : pd := mkPd (px s) (py s) (pi s) (ppseudo s) (plntp s) (ptx s) v (ph0 s) (ph1 s) (ph2 s) (pp0 s) (pp1 s) (pp2 s) (prows s) (par_s s) (pev s).

(** One step of decode_pscd(): go on, or leave it. *)
Inductive stepped := Go (s : pd) (inp : list Z) | Stop (s : pd) (inp : list Z).

(* t85_decode.c:80-87 *)
Definition at_moves (s : pd) : pd :=
  if (px s =? 0) && ppseudo s then
    fold_left (fun s1 m => if fst m =? pi s1 then p_tx s1 (snd m) else s1) (pat s) s
  else s.

(* lines 104-113, 210-217: rotate the ring buffer of [n] rows *)
Definition rotate (s : pd) (n : Z) : pd :=
  p_p s (if n <=? pp0 s + 1 then 0 else pp0 s + 1) (pp0 s) (pp1 s).

Definition row_of (c : par) (s : pd) (p : Z) : res (list Z) := aslice (prows s) (p * bpr c) (bpr c).
Definition next_row (s : pd) : pd := p_y s (py s + 1) (pi s + 1).

(* t85_decode.c:93-121: the pseudo pixel has been decoded, and the row is typical *)
Definition typical_row (c : par) (buffered_rows : Z) (s : pd) : res pd :=
  if pp1 s <? 0 then
    do rows <- ablit (prows s) (pp0 s * bpr c + Z.shiftr (px s) 3) (zero_row (bpr c));
    do r <- aslice rows (pp0 s * bpr c + Z.shiftr (px s) 3) (bpr c);
    Ok (next_row (rotate (p_ev (p_rows s rows) (Row r)) buffered_rows))
  else
    do r <- aslice (prows s) (pp1 s * bpr c + Z.shiftr (px s) 3) (bpr c);
    Ok (next_row (p_p (p_ev s (Row r)) (pp0 s) (pp1 s) (pp1 s))).

(* lines 126-131 *)
Definition row_start (c : par) (s : pd) : res pd :=
  if px s =? 0 then
    do h1 <- (if 0 <=? pp1 s then do b <- aget (prows s) (pp1 s * bpr c + 0); Ok (Z.shiftl b 8) else Ok 0);
    do h2 <- (if 0 <=? pp2 s then do b <- aget (prows s) (pp2 s * bpr c + 0); Ok (Z.shiftl b 8) else Ok 0);
    Ok (p_h s 0 h1 h2)
  else Ok s.

(* lines 136-145 *)
Definition load_octets (c : par) (s : pd) : res pd :=
  if Z.land (px s) 7 =? 0 then
    if (px s <? (bpr c - 1) * 8) && (0 <=? pp1 s) then
      do b1 <- aget (prows s) (pp1 s * bpr c + Z.shiftr (px s) 3 + 1);
      do h2 <- (if 0 <=? pp2 s then do b2 <- aget (prows s) (pp2 s * bpr c + Z.shiftr (px s) 3 + 1); Ok (Z.lor (ph2 s) b2)
                else Ok (ph2 s));
      Ok (p_h s (ph0 s) (Z.lor (ph1 s) b1) h2)
    else Ok s
  else Ok s.

(** hp[0][o >> 3], the AT pixel: lines 164-165 and 203-204 *)
Definition at_pixel (c : par) (s : pd) : res Z :=
  let o := (px s - ptx s) - Z.land (px s) (Z.lnot 7) in
  do b <- aget (prows s) (pp0 s * bpr c + Z.shiftr (px s) 3 + Z.shiftr o 3);
  Ok (Z.land (Z.shiftr b (7 - Z.land o 7)) 1).

(* t85_decode.c:151-173 and 186-208; the shift counts are those of int *)
Definition dec_context (c : par) (options : Z) (s : pd) : res Z :=
  if opt options T85_LRLTWO then
    let cx := Z.land (ph0 s) 0x00F in
    if negb (ptx s =? 0) then
      let cx := Z.lor cx (Z.land (Z.shiftr (ph1 s) 9) 0x3E0) in
      if ptx s <=? px s then
        if ptx s <? 8 then
          if ptx s <? 5 then UB else Ok (Z.lor cx (Z.land (Z.shiftr (ph0 s) (ptx s - 5)) 0x010))
        else do a <- at_pixel c s; Ok (Z.lor cx (Z.shiftl a 4))
      else Ok cx
    else Ok (Z.lor cx (Z.land (Z.shiftr (ph1 s) 9) 0x3F0))
  else
    let cx := Z.lor (Z.land (Z.shiftr (ph2 s) 7) 0x380) (Z.land (ph0 s) 0x003) in
    if negb (ptx s =? 0) then
      let cx := Z.lor cx (Z.land (Z.shiftr (ph1 s) 11) 0x078) in
      if ptx s <=? px s then
        if ptx s <? 8 then
          if ptx s <? 3 then UB else Ok (Z.lor cx (Z.land (Z.shiftr (ph0 s) (ptx s - 3)) 0x004))
        else do a <- at_pixel c s; Ok (Z.lor cx (Z.shiftl a 2))
      else Ok cx
    else Ok (Z.lor cx (Z.land (Z.shiftr (ph1 s) 11) 0x07C)).

(** A pixel was decoded: lines 177-183, 212-222 and, at the end of an octet and of the row, 223-237 *)
Definition take_pixel (c : par) (options buffered_rows pix : Z) (s : pd) : res pd :=
  let h2 := if opt options T85_LRLTWO then ph2 s else u32 (Z.shiftl (ph2 s) 1) in
  let x := px s in
  let s1 := p_x (p_h s (Z.lor (u32 (Z.shiftl (ph0 s) 1)) pix) (u32 (Z.shiftl (ph1 s) 1)) h2) (x + 1) in
  if negb (Z.land (x + 1) 7 =? 0) && (x + 1 <? xd c) then Ok s1
  else
    let k := pp0 s1 * bpr c + Z.shiftr x 3 in
    do rows <- aset (prows s1) k (u8 (ph0 s1));
    let s2 := p_rows s1 rows in
    if x + 1 <? xd c then Ok s2
    else
      do b <- aget (prows s2) k;
      do rows <- aset (prows s2) k (u8 (Z.shiftl b (bpr c * 8 - xd c)));
      let s3 := p_rows s2 rows in
      do r <- row_of c s3 (pp0 s3);
      Ok (next_row (rotate (p_tp (p_x (p_ev s3 (Row r)) 0) true (plntp s3)) buffered_rows)).

(** One turn through decode_pscd(): the pseudo pixel of a row, or a pixel.  Where the
    C code leaves and is entered again it comes back to the same place, so every turn starts
    at the head of the loop over the rows. *)
Definition pscd_step (c : par) (options yd : Z) (s : pd) (inp : list Z) : res stepped :=
  let buffered_rows := if opt options T85_LRLTWO then 2 else 3 in
  if negb ((pi s <? l0 c) && (py s <? yd)) then Ok (Stop s inp)
  else
    let s1 := at_moves s in
    if opt options T85_TPBON && ppseudo s1 then
      do (slntp, d, inp1) <- t81_t82_arith_decode (par_s s1) (if opt options T85_LRLTWO then TPB2CX else TPB3CX) inp;
      let s2 := p_ar s1 d in
      if slntp <? 0 then Ok (Stop s2 inp1)
      else
        let lntp := negb (xorb (negb (slntp =? 0)) (plntp s2)) in
        let s3 := p_tp s2 (ppseudo s2) lntp in
        if negb lntp then do s4 <- typical_row c buffered_rows s3; Ok (Go s4 inp1)
        else Ok (Go (p_tp s3 false lntp) inp1)
    else
      do s2 <- row_start c (p_tp s1 false (plntp s1));
      do s3 <- load_octets c s2;
      do cx <- dec_context c options s3;
      do (pix, d, inp1) <- t81_t82_arith_decode (par_s s3) cx inp;
      let s4 := p_ar s3 d in
      if pix <? 0 then Ok (Stop s4 inp1)
      else do s5 <- take_pixel c options buffered_rows pix s4; Ok (Go s5 inp1).

Fixpoint pscd_loop (fuel : nat) (c : par) (options yd : Z) (s : pd) (inp : list Z) : res (pd * list Z) :=
  match fuel with
  | O => UB
  | S f =>
      do r <- pscd_step c options yd s inp;
      match r with
      | Go s1 inp1 => pscd_loop f c options yd s1 inp1
      | Stop s1 inp1 => Ok (s1, inp1)
      end
  end.

(** Every row takes at most one turn for the pseudo pixel and one for each pixel. *)
Definition pscd_fuel (c : par) (yd : Z) (s : pd) : nat := S (Z.to_nat ((yd - py s) * (xd c + 2))).

(* t85_decode.c:60-238: the state and the octets not used *)
Definition decode_pscd (c : par) (options yd : Z) (s : pd) (inp : list Z) : res (pd * list Z) :=
  pscd_loop (pscd_fuel c yd s) c options yd s inp.

(* private/t85.h:116-220 *)
Record td := mkTd {
  d_max_xd : Z; d_max_yd : Z; d_max_comment : option Z;  (* None: no comment handler *)
  d_par : par; d_yd : Z; d_options : Z;
  d_bie_len : Z; d_buf : list Z; d_need : Z; d_hdr : list Z;
  d_comment : option (list Z); d_comment_len : Z; d_comment_progress : Z;
  d_pd : pd; d_eod : Z }.

Definition s_par (s : td) (v : par) : td := mkTd (d_max_xd s) (d_max_yd s) (d_max_comment s) v (d_yd s) (d_options s) (d_bie_len s) (d_buf s) (d_need s) (d_hdr s) (d_comment s) (d_comment_len s) (d_comment_progress s) (d_pd s) (d_eod s).
Definition s_yd (s : td) (v : Z) : td := mkTd (d_max_xd s) (d_max_yd s) (d_max_comment s) (d_par s) v (d_options s) (d_bie_len s) (d_buf s) (d_need s) (d_hdr s) (d_comment s) (d_comment_len s) (d_comment_progress s) (d_pd s) (d_eod s).
Definition s_options (s : td) (v : Z) : td := mkTd (d_max_xd s) (d_max_yd s) (d_max_comment s) (d_par s) (d_yd s) v (d_bie_len s) (d_buf s) (d_need s) (d_hdr s) (d_comment s) (d_comment_len s) (d_comment_progress s) (d_pd s) (d_eod s).
Definition s_hdr (s : td) (h : list Z) : td := mkTd (d_max_xd s) (d_max_yd s) (d_max_comment s) (d_par s) (d_yd s) (d_options s) (Z.of_nat (length h)) (d_buf s) (d_need s) h (d_comment s) (d_comment_len s) (d_comment_progress s) (d_pd s) (d_eod s).
Definition s_buf (s : td) (b : list Z) (need : Z) : td := mkTd (d_max_xd s) (d_max_yd s) (d_max_comment s) (d_par s) (d_yd s) (d_options s) (d_bie_len s) b need (d_hdr s) (d_comment s) (d_comment_len s) (d_comment_progress s) (d_pd s) (d_eod s).
Definition s_comment (s : td) (t : option (list Z)) (len progress : Z) : td := mkTd (d_max_xd s) (d_max_yd s) (d_max_comment s) (d_par s) (d_yd s) (d_options s) (d_bie_len s) (d_buf s) (d_need s) (d_hdr s) t len progress (d_pd s) (d_eod s).
Definition s_pd (s : td) (v : pd) : td := mkTd (d_max_xd s) (d_max_yd s) (d_max_comment s) (d_par s) (d_yd s) (d_options s) (d_bie_len s) (d_buf s) (d_need s) (d_hdr s) (d_comment s) (d_comment_len s) (d_comment_progress s) v (d_eod s).
Definition s_eod (s : td) (v : Z) : td := mkTd (d_max_xd s) (d_max_yd s) (d_max_comment s) (d_par s) (d_yd s) (d_options s) (d_bie_len s) (d_buf s) (d_need s) (d_hdr s) (d_comment s) (d_comment_len s) (d_comment_progress s) (d_pd s) v.

Definition set_nopadding (d : dec) (v : bool) : dec := mkDec (da d) (dc d) (dst d) (dct d) (dstartup d) v.

(* t85_decode.c:241-268; [m] is the marker's second octet *)
Definition finish_sde (s : td) (m : Z) : res td :=
  let p0 := p_ar (d_pd s) (set_nopadding (par_s (d_pd s)) false) in
  do (p1, _) <- decode_pscd (d_par s) (d_options s) (d_yd s) p0 [T82_ESC; m];
  let d := set_nopadding (t81_t82_arith_decode_restart (par_s p1) (m =? T82_SDNORM)) (opt (d_options s) T85_VLENGTH) in
  let p2 := p_at (p_tp (p_y (p_x (p_ar p1 d) 0) (py p1) 0) true (plntp p1)) [] in
  let p3 := if m =? T82_SDRST then p_p (p_tp (p_tx p2 0) true true) 0 (-1) (-1) else p2 in
  Ok (s_pd s p3).

Definition get32 (l : list Z) : Z :=
  match l with
  | [a; b; c; d] => Z.lor (Z.lor (Z.lor (Z.shiftl a 24) (Z.shiftl b 16)) (Z.shiftl c 8)) d
  | _ => 0
  end.
Definition field (l : list Z) (k n : nat) : list Z := firstn n (skipn k l).

Inductive code := MORE_DATA | OK | INVALID_DATA | ABORTED.

(* t85_decode.c:315-411; the header is in [d_hdr] (the C code uses s->buffer) *)
Definition extract_bih (s : td) : code * td :=
  let b := d_hdr s in
  let at_ k := nth k b 0 in
  let bad (s1 : td) := (INVALID_DATA, s_eod s1 2) in
  if negb (at_ 0%nat =? 0) || negb (at_ 1%nat =? 0) || negb (at_ 3%nat =? 0) || negb (at_ 17%nat =? 0) || negb (Z.land (at_ 18%nat) 0xF0 =? 0)
  then bad s
  else
    let w := get32 (field b 4 4) in
    let y := get32 (field b 8 4) in
    let l := get32 (field b 12 4) in
    let m := at_ 16%nat in
    let o := at_ 19%nat in
    let s1 := s_options (s_yd (s_par s (mkPar w l m (bpr (d_par s)))) y) o in
    if (at_ 2%nat <? 1) || (1 <? at_ 2%nat) then bad s1
    else if (w =? 0) || (negb (d_max_xd s =? 0) && (d_max_xd s <? w)) then bad s1
    else if y =? 0 then bad s1
    else if negb (d_max_yd s =? 0) && (d_max_yd s <? y) && negb (opt o T85_VLENGTH) then bad s1
    else
      let s2 := if negb (d_max_yd s =? 0) && (d_max_yd s <? y) then s_yd s1 (d_max_yd s) else s1 in
      if l =? 0 then bad s2
      else if 127 <? m then bad s2
      else if negb (Z.land o (Z.lnot (Z.lor (Z.lor T85_LRLTWO T85_VLENGTH) T85_TPBON)) =? 0) then bad s2
      else (OK, s2).

(* t85_decode.c:466-513: the row buffer grows when it must; all that follows the header is reset *)
Definition start_image (junk : Z -> Z) (s : td) : td :=
  let p := d_par s in
  let n := bytes_per_row (xd p) in
  let min_len := (if opt (d_options s) T85_LRLTWO then 2 else 3) * n in
  let old := prows (d_pd s) in
  let len := Z.of_nat (length old) in
  let rows := if len <? min_len
              then old ++ map (fun k => junk (Z.of_nat k)) (seq (length old) (Z.to_nat min_len - length old))
              else old in
  let d := set_nopadding t81_t82_arith_decode_init (opt (d_options s) T85_VLENGTH) in
  let pd0 := mkPd 0 0 0 true true 0 [] (ph0 (d_pd s)) (ph1 (d_pd s)) (ph2 (d_pd s)) 0 (-1) (-1) rows d (pev (d_pd s)) in
  s_pd (s_buf (s_comment (s_par s (mkPar (xd p) (l0 p) (mx p) n)) None 0 0) [] 2) pd0.

(** What a turn of the BID processing loop ends with: go on, or return. *)
Inductive turn := Loop (s : td) (data : list Z) | Ret (r : code) (s : td).

(* t85_decode.c:527-565: inside a comment *)
Definition in_comment (s : td) (data : list Z) : res turn :=
  let chunk := Z.of_nat (length data) in
  let put (n : Z) := match d_comment s with
                     | Some t => do t1 <- ablit t (d_comment_progress s) (firstn (Z.to_nat n) data); Ok (Some t1)
                     | None => Ok None
                     end in
  if d_comment_len s <=? d_comment_progress s + chunk then
    let n := d_comment_len s - d_comment_progress s in
    do t <- put n;
    let p := match d_max_comment s with
             | Some _ => p_ev (d_pd s) (Comment t (d_comment_len s))
             | None => d_pd s
             end in
    Ok (Loop (s_pd (s_comment s None 0 0) p) (skipn (Z.to_nat n) data))
  else
    do t <- put chunk;
    Ok (Loop (s_comment s t (d_comment_len s) (d_comment_progress s + chunk)) []).

(** The end of a stripe was reached: is the image complete? *)
Definition stripe_end (s : td) (m : Z) (k : td -> turn) : res turn :=
  do s1 <- finish_sde s m;
  if d_yd s1 <=? py (d_pd s1) then Ok (Ret OK s1) else Ok (k s1).

(** The C code's [s->options &= ~T85_VLENGTH]. *)
Definition clear_vlength (s : td) : td := s_options s (Z.land (d_options s) (Z.lnot T85_VLENGTH)).

(* t85_decode.c:576-792: a marker with at least buf_needed octets in the buffer; behind
   them the header still is, which matters only when it was not accepted *)
Definition marker (s : td) (data : list Z) : res turn :=
  let b := d_buf s in
  let len := Z.of_nat (length b) in
  let m := nth 1 b (nth 1 (d_hdr s) 0) in
  if m =? T82_STUFF then
    do (p, _) <- decode_pscd (d_par s) (d_options s) (d_yd s) (d_pd s) [nth 0 b 0; m];
    Ok (Loop (s_buf (s_pd s p) [] (d_need s)) data)
  else if m =? T82_ABORT then Ok (Ret ABORTED (s_buf s [] (d_need s)))
  else if m =? T82_COMMENT then
    if len <? 6 then Ok (Loop (s_buf s b 6) data)
    else
      let n := get32 (field b 2 4) in
      let t := match d_max_comment s with
               | Some max => if (0 <? n) && (n <=? max) then Some (zero_row n) else d_comment s
               | None => d_comment s
               end in
      Ok (Loop (s_comment (s_buf s [] 2) t n 0) data)
  else if m =? T82_ATMOVE then
    if len <? 8 then Ok (Loop (s_buf s b 8) data)
    else
      let s1 := s_buf s [] 2 in
      if 1 <=? Z.of_nat (length (pat (d_pd s))) then Ok (Ret INVALID_DATA (s_eod s1 2))
      else
        let row := get32 (field b 2 4) in
        let tx := nth 6 b 0 in
        if (mx (d_par s) <? tx) || ((0 <? tx) && (tx <? first_t (d_options s))) || negb (nth 7 b 0 =? 0)
        then Ok (Ret INVALID_DATA (s_eod s1 2))
        else Ok (Loop (s_pd s1 (p_at (d_pd s1) (pat (d_pd s1) ++ [(row, tx)]))) data)
  else if m =? T82_NEWLEN then
    if len <? 6 then Ok (Loop (s_buf s b 6) data)
    else
      let s1 := s_buf s [] 2 in
      if negb (opt (d_options s) T85_VLENGTH) then Ok (Ret INVALID_DATA (s_eod s1 2))
      else
        let s2 := clear_vlength s1 in
        let y := get32 (field b 2 4) in
        if d_yd s2 <? y then Ok (Ret INVALID_DATA (s_eod s2 2))
        else Ok (Loop (s_yd s2 y) data)
  else if (m =? T82_SDNORM) || (m =? T82_SDRST) then
    if negb (opt (d_options s) T85_VLENGTH) then
      stripe_end (s_buf s [] (d_need s)) m (fun s1 => Loop s1 data)
    else
      let n3 := if d_need s <? 3 then 3 else d_need s in
      if len <? 3 then Ok (Loop (s_buf s b n3) data)
      else if negb (nth 2 b 0 =? T82_ESC) then
        (* the octet just taken goes back *)
        stripe_end (s_buf s [] 2) m (fun s1 => Loop s1 (nth 2 b 0 :: data))
      else
        let n4 := if n3 <? 4 then 4 else n3 in
        if len <? 4 then Ok (Loop (s_buf s b n4) data)
        else if negb (nth 3 b 0 =? T82_NEWLEN) then
          stripe_end (s_buf s b 2) m (fun s1 => Loop (s_buf s1 [nth 2 b 0; nth 3 b 0] 2) data)
        else
          let n8 := if n4 <? 8 then 8 else n4 in
          if len <? 8 then Ok (Loop (s_buf s b n8) data)
          else
            let s2 := clear_vlength (s_buf s [] 2) in
            let y := get32 (field b 4 4) in
            if d_yd s2 <? y then Ok (Ret INVALID_DATA (s_eod s2 2))
            else do s3 <- finish_sde (s_yd s2 y) m; Ok (Loop s3 data)
  else Ok (Ret INVALID_DATA (s_eod (s_buf s [] (d_need s)) 2)).

(* t85_decode.c:516-816: one turn *)
Definition bid_turn (s0 : td) (data : list Z) : res turn :=
  let s := if d_eod s0 =? 1 then s_eod (clear_vlength (s_buf s0 (d_buf s0) 2)) 2 else s0 in
  if negb (d_comment_len s =? 0) then in_comment s data
  else if 0 <? Z.of_nat (length (d_buf s)) then
    let want := Z.to_nat (d_need s - Z.of_nat (length (d_buf s))) in
    let b := d_buf s ++ firstn want data in
    let s1 := s_buf s b (d_need s) in
    let data1 := skipn want data in
    if 20 <? Z.of_nat (length b) then UB
    else if Z.of_nat (length b) <? d_need s then Ok (Loop s1 data1)
    else marker s1 data1
  else
    match data with
    | x :: data1 =>
        if x =? T82_ESC then Ok (Loop (s_buf s [x] (d_need s)) data1)
        else
          do (p, rest) <- decode_pscd (d_par s) (d_options s) (d_yd s) (d_pd s) data;
          match rest with
          | y :: _ => if y =? T82_ESC then Ok (Loop (s_pd s p) rest) else Ok (Ret INVALID_DATA (s_eod (s_pd s p) 2))
          | [] => Ok (Loop (s_pd s p) rest)
          end
    | [] =>
        do (p, rest) <- decode_pscd (d_par s) (d_options s) (d_yd s) (d_pd s) [];
        Ok (Loop (s_pd s p) rest)
    end.

Fixpoint bid_loop (fuel : nat) (s : td) (data : list Z) : res (code * td) :=
  match fuel with
  | O => UB
  | S f =>
      if match data with [] => d_eod s =? 1 | _ => true end then
        do t <- bid_turn s data;
        match t with
        | Loop s1 data1 => bid_loop f s1 data1
        | Ret r s1 => Ok (r, s1)
        end
      else Ok (MORE_DATA, s)
  end.

(** More turns than are ever taken. *)
Definition bid_fuel (data : list Z) : nat := (8 * length data + 72)%nat.

(* t85_decode.c:436-819 *)
Definition t85_decode_put (junk : Z -> Z) (s0 : td) (data : list Z) : res (code * td) :=
  let len0 := match data with [] => true | _ => false end in
  if len0 && (d_yd s0 <=? py (d_pd s0)) then Ok (OK, s0)
  else if len0 && (0 <? d_eod s0) then Ok (INVALID_DATA, s0)
  else
    let s := if len0 then s_eod s0 1 else s0 in
    if d_bie_len s <? 20 then
      let i := Z.to_nat (20 - d_bie_len s) in
      let s1 := s_hdr s (d_hdr s ++ firstn i data) in
      if d_bie_len s1 <? 20 then Ok (MORE_DATA, s1)
      else
        let (r, s2) := extract_bih s1 in
        match r with
        | OK => bid_loop (bid_fuel data) (start_image junk s2) (skipn i data)
        | _ => Ok (r, s2)
        end
    else bid_loop (bid_fuel data) s data.

(* t85_decode.c:938-965 *)
Definition t85_decode_init : td :=
  mkTd 0 0 None (mkPar 0 0 0 0) 0 0 0 [] 0 [] None 0 0
       (mkPd 0 0 0 false false 0 [] 0 0 0 0 0 0 [] t81_t82_arith_decode_init []) 0.
Definition t85_decode_set_image_size_constraints (s : td) (max_xd max_yd : Z) : td :=
  mkTd max_xd max_yd (d_max_comment s) (d_par s) (d_yd s) (d_options s) (d_bie_len s) (d_buf s) (d_need s) (d_hdr s) (d_comment s) (d_comment_len s) (d_comment_progress s) (d_pd s) (d_eod s).
Definition t85_decode_set_comment_handler (s : td) (max : Z) : td :=
  mkTd (d_max_xd s) (d_max_yd s) (Some max) (d_par s) (d_yd s) (d_options s) (d_bie_len s) (d_buf s) (d_need s) (d_hdr s) (d_comment s) (d_comment_len s) (d_comment_progress s) (d_pd s) (d_eod s).
