(** Model of the V.42bis compressor and decompressor (src/v42bis.c,
    src/spandsp/private/v42bis.h).

    One [comp] is a v42bis_comp_state_t: the compressor and the decompressor each
    have one.  The dictionary is the C array of 4096 nodes linked by indices; every
    access to it, to the string buffer and to the output buffer is bounds checked.
    A pointer walk which takes more steps than there are nodes has run into a cycle,
    that is, the C loop does not terminate: this is reported as [UB] as well.
    The handler is modelled by a log of the messages given to it, in order.
    The logging calls and the allocation are left out. *)
From Verif Require Import Base.

(** src/v42bis.c:57-71, src/spandsp/v42bis.h:37-42. *)
Definition N3 : Z := 8.
Definition N4 : Z := 256.
Definition N6 : Z := 3.
Definition N5 : Z := N4 + N6.
Definition ESC_STEP : Z := 51.
Definition MONITOR : Z := 256 * N3.
Definition HYSTERESIS : Z := 11.
Definition MAX_CODEWORDS : Z := 4096.
Definition MAX_STRING : Z := 250.
Definition MIN_STRING : Z := 6.
Definition MIN_DICT : Z := 512.
Definition MAX_OUTPUT : Z := 1024.
(** src/v42bis.c:73-87. *)
Definition ETM : Z := 0.
Definition FLUSH : Z := 1.
Definition STEPUP : Z := 2.
Definition ECM : Z := 0.
Definition EID : Z := 1.
Definition RESET : Z := 2.
(** src/spandsp/v42bis.h:52-57. *)
Definition MODE_DYNAMIC : Z := 0.
Definition MODE_ALWAYS : Z := 1.
Definition MODE_NEVER : Z := 2.

(** A dictionary node (private/v42bis.h:34-44). *)
Record node := mkNode { n_octet : Z; n_parent : Z; n_child : Z; n_next : Z }.
Definition node0 : node := mkNode 0 0 0 0.
(** The dictionary array with the next entry to use (C1) and its negotiated size (N2). *)
Record dict := mkDict { d_nodes : list node; d_c1 : Z; d_n2 : Z }.
Definition nget (l : list node) (i : Z) : res node :=
  if (0 <=? i) && (i <? Z.of_nat (length l)) then Ok (nth (Z.to_nat i) l node0) else UB.
Definition nset (l : list node) (i : Z) (x : node) : res (list node) :=
  if (0 <=? i) && (i <? Z.of_nat (length l)) then Ok (upd l (Z.to_nat i) x) else UB.

(** The output side: the composition buffer and what the handler has been given. *)
Record outbuf := mkOut { o_max : Z; o_buf : list Z; o_cnt : Z; o_log : list (list Z) }.

(** v42bis_comp_state_t (private/v42bis.h:50-109). *)
Record comp := mkComp {
  k_p0 : Z;  (* v42bis_parm_p0 *)
  k_mode : Z;  (* compression_mode *)
  k_trans : bool;  (* transparent *)
  k_c2 : Z;  (* v42bis_parm_c2 *)
  k_c3 : Z;  (* v42bis_parm_c3 *)
  k_upd_at : Z;  (* update_at *)
  k_lm : Z;  (* last_matched *)
  k_la : Z;  (* last_added *)
  k_n7 : Z;  (* v42bis_parm_n7 *)
  k_dic : dict;  (* dict, v42bis_parm_c1, v42bis_parm_n2 *)
  k_str : list Z;  (* string *)
  k_slen : Z;  (* string_length *)
  k_flen : Z;  (* flushed_length *)
  k_perf : Z;  (* compression_performance *)
  k_bb : Z;  (* bit_buffer *)
  k_bc : Z;  (* bit_count *)
  k_out : outbuf;  (* handler, max_output_len, output_buf, output_octet_count *)
  k_esc : Z;  (* escape_code *)
  k_escd : bool  (* escaped *)
}.
Definition set_p0 (s : comp) (x : Z) : comp :=
  mkComp x (k_mode s) (k_trans s) (k_c2 s) (k_c3 s) (k_upd_at s) (k_lm s) (k_la s) (k_n7 s) (k_dic s) (k_str s) (k_slen s) (k_flen s) (k_perf s) (k_bb s) (k_bc s) (k_out s) (k_esc s) (k_escd s).
Definition set_mode (s : comp) (x : Z) : comp :=
  mkComp (k_p0 s) x (k_trans s) (k_c2 s) (k_c3 s) (k_upd_at s) (k_lm s) (k_la s) (k_n7 s) (k_dic s) (k_str s) (k_slen s) (k_flen s) (k_perf s) (k_bb s) (k_bc s) (k_out s) (k_esc s) (k_escd s).
Definition set_trans (s : comp) (x : bool) : comp :=
  mkComp (k_p0 s) (k_mode s) x (k_c2 s) (k_c3 s) (k_upd_at s) (k_lm s) (k_la s) (k_n7 s) (k_dic s) (k_str s) (k_slen s) (k_flen s) (k_perf s) (k_bb s) (k_bc s) (k_out s) (k_esc s) (k_escd s).
Definition set_c2 (s : comp) (x : Z) : comp :=
  mkComp (k_p0 s) (k_mode s) (k_trans s) x (k_c3 s) (k_upd_at s) (k_lm s) (k_la s) (k_n7 s) (k_dic s) (k_str s) (k_slen s) (k_flen s) (k_perf s) (k_bb s) (k_bc s) (k_out s) (k_esc s) (k_escd s).
Definition set_c3 (s : comp) (x : Z) : comp :=
  mkComp (k_p0 s) (k_mode s) (k_trans s) (k_c2 s) x (k_upd_at s) (k_lm s) (k_la s) (k_n7 s) (k_dic s) (k_str s) (k_slen s) (k_flen s) (k_perf s) (k_bb s) (k_bc s) (k_out s) (k_esc s) (k_escd s).
Definition set_upd_at (s : comp) (x : Z) : comp :=
  mkComp (k_p0 s) (k_mode s) (k_trans s) (k_c2 s) (k_c3 s) x (k_lm s) (k_la s) (k_n7 s) (k_dic s) (k_str s) (k_slen s) (k_flen s) (k_perf s) (k_bb s) (k_bc s) (k_out s) (k_esc s) (k_escd s).
Definition set_lm (s : comp) (x : Z) : comp :=
  mkComp (k_p0 s) (k_mode s) (k_trans s) (k_c2 s) (k_c3 s) (k_upd_at s) x (k_la s) (k_n7 s) (k_dic s) (k_str s) (k_slen s) (k_flen s) (k_perf s) (k_bb s) (k_bc s) (k_out s) (k_esc s) (k_escd s).
Definition set_la (s : comp) (x : Z) : comp :=
  mkComp (k_p0 s) (k_mode s) (k_trans s) (k_c2 s) (k_c3 s) (k_upd_at s) (k_lm s) x (k_n7 s) (k_dic s) (k_str s) (k_slen s) (k_flen s) (k_perf s) (k_bb s) (k_bc s) (k_out s) (k_esc s) (k_escd s).
Definition set_n7 (s : comp) (x : Z) : comp :=
  mkComp (k_p0 s) (k_mode s) (k_trans s) (k_c2 s) (k_c3 s) (k_upd_at s) (k_lm s) (k_la s) x (k_dic s) (k_str s) (k_slen s) (k_flen s) (k_perf s) (k_bb s) (k_bc s) (k_out s) (k_esc s) (k_escd s).
Definition set_dic (s : comp) (x : dict) : comp :=
  mkComp (k_p0 s) (k_mode s) (k_trans s) (k_c2 s) (k_c3 s) (k_upd_at s) (k_lm s) (k_la s) (k_n7 s) x (k_str s) (k_slen s) (k_flen s) (k_perf s) (k_bb s) (k_bc s) (k_out s) (k_esc s) (k_escd s).
Definition set_str (s : comp) (x : list Z) : comp :=
  mkComp (k_p0 s) (k_mode s) (k_trans s) (k_c2 s) (k_c3 s) (k_upd_at s) (k_lm s) (k_la s) (k_n7 s) (k_dic s) x (k_slen s) (k_flen s) (k_perf s) (k_bb s) (k_bc s) (k_out s) (k_esc s) (k_escd s).
Definition set_slen (s : comp) (x : Z) : comp :=
  mkComp (k_p0 s) (k_mode s) (k_trans s) (k_c2 s) (k_c3 s) (k_upd_at s) (k_lm s) (k_la s) (k_n7 s) (k_dic s) (k_str s) x (k_flen s) (k_perf s) (k_bb s) (k_bc s) (k_out s) (k_esc s) (k_escd s).
Definition set_flen (s : comp) (x : Z) : comp :=
  mkComp (k_p0 s) (k_mode s) (k_trans s) (k_c2 s) (k_c3 s) (k_upd_at s) (k_lm s) (k_la s) (k_n7 s) (k_dic s) (k_str s) (k_slen s) x (k_perf s) (k_bb s) (k_bc s) (k_out s) (k_esc s) (k_escd s).
Definition set_perf (s : comp) (x : Z) : comp :=
  mkComp (k_p0 s) (k_mode s) (k_trans s) (k_c2 s) (k_c3 s) (k_upd_at s) (k_lm s) (k_la s) (k_n7 s) (k_dic s) (k_str s) (k_slen s) (k_flen s) x (k_bb s) (k_bc s) (k_out s) (k_esc s) (k_escd s).
Definition set_bb (s : comp) (x : Z) : comp :=
  mkComp (k_p0 s) (k_mode s) (k_trans s) (k_c2 s) (k_c3 s) (k_upd_at s) (k_lm s) (k_la s) (k_n7 s) (k_dic s) (k_str s) (k_slen s) (k_flen s) (k_perf s) x (k_bc s) (k_out s) (k_esc s) (k_escd s).
Definition set_bc (s : comp) (x : Z) : comp :=
  mkComp (k_p0 s) (k_mode s) (k_trans s) (k_c2 s) (k_c3 s) (k_upd_at s) (k_lm s) (k_la s) (k_n7 s) (k_dic s) (k_str s) (k_slen s) (k_flen s) (k_perf s) (k_bb s) x (k_out s) (k_esc s) (k_escd s).
Definition set_out (s : comp) (x : outbuf) : comp :=
  mkComp (k_p0 s) (k_mode s) (k_trans s) (k_c2 s) (k_c3 s) (k_upd_at s) (k_lm s) (k_la s) (k_n7 s) (k_dic s) (k_str s) (k_slen s) (k_flen s) (k_perf s) (k_bb s) (k_bc s) x (k_esc s) (k_escd s).
Definition set_esc (s : comp) (x : Z) : comp :=
  mkComp (k_p0 s) (k_mode s) (k_trans s) (k_c2 s) (k_c3 s) (k_upd_at s) (k_lm s) (k_la s) (k_n7 s) (k_dic s) (k_str s) (k_slen s) (k_flen s) (k_perf s) (k_bb s) (k_bc s) (k_out s) x (k_escd s).
Definition set_escd (s : comp) (x : bool) : comp :=
  mkComp (k_p0 s) (k_mode s) (k_trans s) (k_c2 s) (k_c3 s) (k_upd_at s) (k_lm s) (k_la s) (k_n7 s) (k_dic s) (k_str s) (k_slen s) (k_flen s) (k_perf s) (k_bb s) (k_bc s) (k_out s) (k_esc s) x.

(** ---- output (src/v42bis.c:89-159) ---- *)

(** s->handler(s->user_data, s->output_buf, len) *)
Definition call_handler (o : outbuf) (len : Z) : res outbuf :=
  do m <- aslice (o_buf o) 0 len;
  Ok (mkOut (o_max o) (o_buf o) 0 (o_log o ++ [m])).

(** push_octet, src/v42bis.c:89-98 *)
Definition push_octet (o : outbuf) (octet : Z) : res outbuf :=
  do b <- aset (o_buf o) (o_cnt o) (u8 octet);
  let o := mkOut (o_max o) b (o_cnt o + 1) (o_log o) in
  if o_max o <=? o_cnt o then call_handler o (o_cnt o) else Ok o.

(** push_octets, src/v42bis.c:100-121; [buf] is what is left to push.  Every turn of
    the loop takes at least one octet unless max_output_len is not positive. *)
Fixpoint push_octets_loop (fuel : nat) (o : outbuf) (buf : list Z) : res outbuf :=
  if o_max o <=? o_cnt o + Z.of_nat (length buf) then
    match fuel with
    | O => UB
    | S k =>
        let chunk := o_max o - o_cnt o in
        do c <- aslice buf 0 chunk;
        do b <- ablit (o_buf o) (o_cnt o) c;
        do o <- call_handler (mkOut (o_max o) b (o_cnt o) (o_log o)) (o_max o);
        push_octets_loop k o (skipn (Z.to_nat chunk) buf)
    end
  else
    do b <- ablit (o_buf o) (o_cnt o) buf;
    Ok (mkOut (o_max o) b (o_cnt o + Z.of_nat (length buf)) (o_log o)).
Definition push_octets (o : outbuf) (buf : list Z) : res outbuf :=
  push_octets_loop (length buf + 1) o buf.

(** The octet loop of push_compressed_code and push_octet_alignment, src/v42bis.c:127-132. *)
Fixpoint push_bits_loop (fuel : nat) (o : outbuf) (bb bc : Z) : res (outbuf * Z * Z) :=
  if 8 <=? bc then
    match fuel with
    | O => UB
    | S k => do o <- push_octet o (Z.land bb 0xFF); push_bits_loop k o (Z.shiftr bb 8) (bc - 8)
    end
  else Ok (o, bb, bc).

(** push_compressed_code, src/v42bis.c:123-134 *)
Definition push_compressed_code (s : comp) (code : Z) : res comp :=
  if (0 <=? k_bc s) && (k_bc s <? 31) && (Z.shiftl code (k_bc s) <? 2147483648) then
    let bb := Z.lor (k_bb s) (Z.shiftl code (k_bc s)) in
    let bc := k_bc s + k_c2 s in
    do (o, bb, bc) <- push_bits_loop (Z.to_nat bc) (k_out s) bb bc;
    Ok (set_bc (set_bb (set_out s o) bb) bc)
  else UB.

(** push_octet_alignment, src/v42bis.c:136-149 *)
Definition push_octet_alignment (s : comp) : res comp :=
  if negb (Z.land (k_bc s) 7 =? 0) then
    let bc := k_bc s + (8 - Z.land (k_bc s) 7) in
    do (o, bb, bc) <- push_bits_loop (Z.to_nat bc) (k_out s) (k_bb s) bc;
    Ok (set_bc (set_bb (set_out s o) bb) bc)
  else Ok s.

(** flush_octets, src/v42bis.c:151-159 *)
Definition flush_octets (o : outbuf) : res outbuf :=
  if 0 <? o_cnt o then call_handler o (o_cnt o) else Ok o.

(** ---- dictionary (src/v42bis.c:161-243) ---- *)

Definition init_node (i : Z) : node :=
  mkNode (if (N6 <=? i) && (i <? N6 + N4) then i - N6 else 0) 0 0 0.
Definition init_nodes : list node :=
  map (fun i => init_node (Z.of_nat i)) (seq 0 (Z.to_nat MAX_CODEWORDS)).

(** dictionary_init, src/v42bis.c:161-183 *)
Definition dictionary_init (s : comp) : comp :=
  mkComp (k_p0 s) (k_mode s) true (N3 + 1) (N4 * 2) 0 0 0 (k_n7 s)
         (mkDict init_nodes N5 (d_n2 (k_dic s)))
         (k_str s) 0 0 MONITOR 0 0 (k_out s) 0 false.

Definition walk_fuel : nat := Z.to_nat (MAX_CODEWORDS + 1).

Fixpoint match_walk (fuel : nat) (l : list node) (e octet : Z) : res Z :=
  match fuel with
  | O => UB
  | S k =>
      if e =? 0 then Ok 0
      else do n <- nget l e;
           if n_octet n =? octet then Ok e else match_walk k l (n_next n) octet
  end.
(** match_octet, src/v42bis.c:185-200 *)
Definition match_octet (d : dict) (at_ octet : Z) : res Z :=
  if at_ =? 0 then Ok (u16 (octet + N6))
  else do n <- nget (d_nodes d) at_; match_walk walk_fuel (d_nodes d) (n_child n) octet.

(** The search for a leaf, src/v42bis.c:216-222. *)
Fixpoint find_leaf (fuel : nat) (l : list node) (n2 next : Z) : res Z :=
  match fuel with
  | O => UB
  | S k =>
      let next := u16 (next + 1) in
      let next := if next =? n2 then N5 else next in
      do n <- nget l next;
      if negb (n_child n =? 0) then find_leaf k l n2 next else Ok next
  end.
(** The search for the predecessor in the list of children, src/v42bis.c:234-236. *)
Fixpoint find_prev (fuel : nat) (l : list node) (e next : Z) : res Z :=
  match fuel with
  | O => UB
  | S k => do n <- nget l e; if n_next n =? next then Ok e else find_prev k l (n_next n) next
  end.
(** Detaching the leaf from its parent, src/v42bis.c:224-239. *)
Definition detach_leaf (l : list node) (next : Z) : res (list node) :=
  do n <- nget l next;
  if negb (n_parent n =? 0) then
    do p <- nget l (n_parent n);
    if n_child p =? next then
      nset l (n_parent n) (mkNode (n_octet p) (n_parent p) (n_next n) (n_next p))
    else
      do e <- find_prev walk_fuel l (n_child p) next;
      do q <- nget l e;
      nset l e (mkNode (n_octet q) (n_parent q) (n_child q) (n_next n))
  else Ok l.
(** add_octet_to_dictionary, src/v42bis.c:202-243: the new dictionary and the index of
    the new entry. *)
Definition add_octet (d : dict) (at_ octet : Z) : res (dict * Z) :=
  let newx := d_c1 d in
  do a <- nget (d_nodes d) at_;
  do l <- nset (d_nodes d) newx (mkNode octet at_ 0 (n_child a));
  do a <- nget l at_;
  do l <- nset l at_ (mkNode (n_octet a) (n_parent a) newx (n_next a));
  do next <- find_leaf walk_fuel l (d_n2 d) newx;
  do l <- detach_leaf l next;
  Ok (mkDict l next (d_n2 d), newx).

(** ---- strings (src/v42bis.c:245-317) ---- *)

(** send_string, src/v42bis.c:245-251 *)
Definition send_string (s : comp) : res comp :=
  do w <- aslice (k_str s) 0 (k_slen s);
  do o <- push_octets (k_out s) w;
  Ok (set_flen (set_slen (set_out s o) 0) 0).

Fixpoint code_length (fuel : nat) (l : list node) (p : Z) : res Z :=
  if p =? 0 then Ok 0
  else match fuel with
       | O => UB
       | S k => do n <- nget l p; do r <- code_length k l (n_parent n); Ok (r + 1)
       end.
Fixpoint code_fill (fuel : nat) (l : list node) (str : list Z) (i p : Z) : res (list Z) :=
  if p =? 0 then Ok str
  else match fuel with
       | O => UB
       | S k => do n <- nget l p; do str <- aset str i (n_octet n); code_fill k l str (i - 1) (n_parent n)
       end.
(** expand_codeword_to_string, src/v42bis.c:253-270 *)
Definition expand_codeword (s : comp) (code : Z) : res comp :=
  do i <- code_length walk_fuel (d_nodes (k_dic s)) code;
  let s := set_slen s (k_slen s + i) in
  do str <- code_fill walk_fuel (d_nodes (k_dic s)) (k_str s) (k_slen s - 1) code;
  Ok (set_str s str).

(** The escape step over a string in compressed mode, src/v42bis.c:294-298, 681-685. *)
Fixpoint skip_escapes (w : list Z) (esc : Z) : Z :=
  match w with
  | [] => esc
  | x :: t => skip_escapes t (if x =? esc then u8 (esc + ESC_STEP) else esc)
  end.
(** The transparent mode loop of send_encoded_data, src/v42bis.c:280-289. *)
Fixpoint send_transparent (o : outbuf) (esc : Z) (w : list Z) : res (outbuf * Z) :=
  match w with
  | [] => Ok (o, esc)
  | x :: t =>
      do o <- push_octet o x;
      if x =? esc then
        do o <- push_octet o EID; send_transparent o (u8 (esc + ESC_STEP)) t
      else send_transparent o esc t
  end.
(** The step-up loop, src/v42bis.c:300-310. *)
Fixpoint step_up (fuel : nat) (s : comp) (code : Z) : res comp :=
  if k_c3 s <=? code then
    match fuel with
    | O => UB
    | S k =>
        do s <- push_compressed_code s STEPUP;
        step_up k (set_c3 (set_c2 s (u16 (k_c2 s + 1))) (u16 (k_c3 s * 2))) code
    end
  else Ok s.
(** send_encoded_data, src/v42bis.c:272-317 *)
Definition send_encoded_data (s : comp) (code : Z) : res comp :=
  let perf := u16 (k_perf s + (k_c2 s - Z.quot (k_perf s * k_slen s * N3) MONITOR)) in
  let s := set_perf s perf in
  do w <- aslice (k_str s) 0 (k_slen s);
  do s <- (if k_trans s then
             do (o, esc) <- send_transparent (k_out s) (k_esc s) w;
             Ok (set_esc (set_out s o) esc)
           else
             let s := set_esc s (skip_escapes w (k_esc s)) in
             do s <- step_up 16 s code;
             push_compressed_code s code);
  Ok (set_flen (set_slen s 0) 0).

(** ---- mode changes (src/v42bis.c:319-402) ---- *)

(** go_compressed, src/v42bis.c:319-340 *)
Definition go_compressed (s : comp) : res comp :=
  if negb (k_trans s) then Ok s
  else
    do s <- (if negb (k_lm s =? 0) then
               let s := set_upd_at s (k_lm s) in
               do s <- send_encoded_data s (k_lm s); Ok (set_lm s 0)
             else Ok s);
    do o <- push_octet (k_out s) (k_esc s);
    do o <- push_octet o ECM;
    Ok (set_trans (set_bb (set_out s o) 0) false).

(** go_transparent, src/v42bis.c:342-363 *)
Definition go_transparent (s : comp) : res comp :=
  if k_trans s then Ok s
  else
    do s <- (if negb (k_lm s =? 0) then
               let s := set_upd_at s (k_lm s) in
               do s <- send_encoded_data s (k_lm s); Ok (set_lm s 0)
             else Ok s);
    let s := set_la s 0 in
    do s <- push_compressed_code s ETM;
    do s <- push_octet_alignment s;
    Ok (set_trans s true).

(** monitor_for_mode_change, src/v42bis.c:365-402 *)
Definition monitor (s : comp) : res comp :=
  if k_mode s =? MODE_DYNAMIC then
    if k_trans s then
      if k_perf s <? MONITOR - HYSTERESIS then go_compressed s else Ok s
    else
      if MONITOR <? k_perf s then go_transparent s else Ok s
  else if k_mode s =? MODE_ALWAYS then
    if k_trans s then go_compressed s else Ok s
  else if k_mode s =? MODE_NEVER then
    if negb (k_trans s) then go_transparent s else Ok s
  else Ok s.

(** ---- the interface (src/v42bis.c:404-757) ---- *)

(** v42bis_comp_init, src/v42bis.c:404-421; the buffers start as zeros (memset). *)
Definition comp_init (p0 n2 n7 max_output : Z) : comp :=
  dictionary_init
    (mkComp p0 0 false 0 0 0 0 0 n7 (mkDict [] 0 n2) (repeat 0 (Z.to_nat MAX_STRING)) 0 0 0 0 0
            (mkOut (if max_output <? MAX_OUTPUT then max_output else MAX_OUTPUT)
                   (repeat 0 (Z.to_nat MAX_OUTPUT)) 0 [])
            0 false).
(** v42bis_init, src/v42bis.c:719-757: compressor and decompressor, or NULL. *)
Definition v42bis_init (p0 p1 p2 max_encode max_decode : Z) : option (comp * comp) :=
  if (p1 <? MIN_DICT) || (65535 <? p1) then None
  else if (p2 <? MIN_STRING) || (MAX_STRING <? p2) then None
  else Some (comp_init (Z.land p0 2) p1 p2 max_encode, comp_init (Z.land p0 1) p1 p2 max_decode).

(** v42bis_compression_control, src/v42bis.c:707-711 *)
Definition compression_control (s : comp) (mode : Z) : comp := set_mode s mode.

(** The dictionary update at the head of the loop, src/v42bis.c:446-451 and 584-589. *)
Definition update_dictionary (s : comp) (octet : Z) : res comp :=
  if negb (k_upd_at s =? 0) then
    do m <- match_octet (k_dic s) (k_upd_at s) octet;
    do s <- (if m =? 0 then
               do (d, x) <- add_octet (k_dic s) (k_upd_at s) octet; Ok (set_la (set_dic s d) x)
             else Ok s);
    Ok (set_upd_at s 0)
  else Ok s.

(** The string matching loop, src/v42bis.c:453-483: the state and the octets not yet taken. *)
Fixpoint match_string (s : comp) (buf : list Z) : res (comp * list Z) :=
  match buf with
  | [] => Ok (s, [])
  | x :: rest =>
      do code <- match_octet (k_dic s) (k_lm s) x;
      if code =? 0 then
        let s := set_upd_at s (k_lm s) in
        do s <- send_encoded_data s (k_lm s);
        Ok (set_lm s 0, buf)
      else if code =? k_la s then
        let s := set_la s 0 in
        do s <- send_encoded_data s (k_lm s);
        Ok (set_lm s 0, buf)
      else
        let s := set_lm s code in
        do str <- aset (k_str s) (k_slen s) x;
        let s := set_slen (set_str s str) (k_slen s + 1) in
        if k_slen s + k_flen s =? k_n7 s then
          do s <- send_encoded_data s (k_lm s);
          Ok (set_lm s 0, rest)
        else match_string s rest
  end.
(** The main loop, src/v42bis.c:443-486.  A turn which takes no octet leaves no string
    in progress, and then the next turn takes at least one. *)
Fixpoint compress_loop (fuel : nat) (s : comp) (buf : list Z) : res comp :=
  match buf with
  | [] => Ok s
  | x :: _ =>
      match fuel with
      | O => UB
      | S k =>
          do s <- update_dictionary s x;
          do (s, buf) <- match_string s buf;
          do s <- monitor s;
          compress_loop k s buf
      end
  end.
(** v42bis_compress, src/v42bis.c:430-488 *)
Definition v42bis_compress (s : comp) (buf : list Z) : res comp :=
  if k_p0 s =? 0 then
    do o <- push_octets (k_out s) buf; Ok (set_out s o)
  else compress_loop (2 * length buf) s buf.

(** v42bis_compress_flush, src/v42bis.c:490-515 *)
Definition v42bis_compress_flush (s : comp) : res comp :=
  if negb (k_upd_at s =? 0) then Ok s
  else
    do s <- (if negb (k_lm s =? 0) then
               let len := k_slen s in
               do s <- send_encoded_data s (k_lm s);
               Ok (set_flen s (k_flen s + len))
             else Ok s);
    do s <- (if negb (k_trans s) then
               let s := set_flen (set_lm (set_upd_at s (k_lm s)) 0) 0 in
               do s <- push_compressed_code s FLUSH;
               push_octet_alignment s
             else Ok s);
    do o <- flush_octets (k_out s);
    Ok (set_out s o).

(** One turn of the inner loop of transparent decoding, src/v42bis.c:583-615: the state and
    whether the octet was taken. *)
Definition follow_octet (s : comp) (x : Z) : res (comp * bool) :=
  do s <- update_dictionary s x;
  do code <- match_octet (k_dic s) (k_lm s) x;
  if code =? 0 then
    do s <- send_string (set_upd_at s (k_lm s));
    Ok (set_lm s 0, false)
  else if code =? k_la s then
    do s <- send_string (set_la s 0);
    Ok (set_lm s 0, false)
  else
    let s := set_lm s code in
    do str <- aset (k_str s) (k_slen s) x;
    let s := set_slen (set_str s str) (k_slen s + 1) in
    if k_slen s + k_flen s =? k_n7 s then
      do s <- send_string s; Ok (set_lm s 0, true)
    else Ok (s, true).
(** At most two turns, src/v42bis.c:581-616. *)
Definition follow_octet_twice (s : comp) (x : Z) : res (comp * bool) :=
  do (s, taken) <- follow_octet s x;
  if taken then Ok (s, true) else follow_octet s x.

(** Collecting octets for a codeword, src/v42bis.c:621-625. *)
Fixpoint fill_bits (s : comp) (buf : list Z) : res (comp * list Z) :=
  match buf with
  | [] => Ok (s, [])
  | x :: rest =>
      if k_bc s <? k_c2 s then
        if (k_bc s <? 31) && (Z.shiftl x (k_bc s) <? 2147483648) then
          fill_bits (set_bc (set_bb s (Z.lor (k_bb s) (Z.shiftl x (k_bc s)))) (k_bc s + 8)) rest
        else UB
      else Ok (s, buf)
  end.

(** A codeword in compressed mode, src/v42bis.c:632-687: the state and whether decoding
    goes on ([false] is return -1). *)
Definition take_codeword (s : comp) (code : Z) : res (comp * bool) :=
  if code <? N6 then
    if code =? ETM then
      Ok (set_la (set_lm (set_trans (set_bc s 0) true) 0) 0, true)
    else if code =? FLUSH then Ok (set_bc s 0, true)
    else
      let s := set_c3 (set_c2 s (u16 (k_c2 s + 1))) (u16 (k_c3 s * 2)) in
      Ok (s, negb (Z.shiftr (d_n2 (k_dic s)) 3 <? k_c2 s))
  else if code =? d_c1 (k_dic s) then Ok (s, false)
  else
    do s <- expand_codeword s code;
    do (s, good) <-
      (if negb (k_upd_at s =? 0) then
         do ch <- aget (k_str s) 0;
         do p <- match_octet (k_dic s) (k_upd_at s) ch;
         if p =? 0 then
           do (d, x) <- add_octet (k_dic s) (k_upd_at s) ch;
           let s := set_la (set_dic s d) x in
           Ok (s, negb (code =? d_c1 (k_dic s)))
         else if p =? k_la s then Ok (set_la s 0, true)
         else Ok (s, true)
       else Ok (s, true));
    if good then
      let s := set_upd_at s (if k_slen s + k_flen s =? k_n7 s then 0 else code) in
      do w <- aslice (k_str s) 0 (k_slen s);
      let s := set_esc s (skip_escapes w (k_esc s)) in
      do s <- send_string s;
      Ok (s, true)
    else Ok (s, false).

(** The main loop, src/v42bis.c:535-689; every turn takes at least one octet. *)
Fixpoint decompress_loop (fuel : nat) (s : comp) (buf : list Z) : res (comp * Z) :=
  match buf with
  | [] => Ok (s, 0)
  | x :: rest =>
      match fuel with
      | O => UB
      | S k =>
          if k_trans s then
            let follow (s : comp) (x : Z) :=
              do (s, taken) <- follow_octet_twice s x;
              decompress_loop k s (if taken then rest else buf) in
            if k_escd s then
              let s := set_escd s false in
              if x =? ECM then
                do s <- send_string s;
                decompress_loop k (set_lm (set_upd_at (set_trans s false) (k_lm s)) 0) rest
              else if x =? EID then
                follow (set_esc s (u8 (k_esc s + ESC_STEP))) (k_esc s)
              else if x =? RESET then
                do s <- send_string s;
                decompress_loop k (dictionary_init s) rest
              else Ok (s, -1)
            else if x =? k_esc s then decompress_loop k (set_escd s true) rest
            else follow s x
          else
            do (s, buf) <- fill_bits s buf;
            if k_bc s <? k_c2 s then decompress_loop k s buf
            else if k_c2 s <? 31 then
              let code := u16 (Z.land (k_bb s) (Z.shiftl 1 (k_c2 s) - 1)) in
              let s := set_bc (set_bb s (Z.shiftr (k_bb s) (k_c2 s))) (k_bc s - k_c2 s) in
              do (s, goes_on) <- take_codeword s code;
              if goes_on then decompress_loop k s buf else Ok (s, -1)
            else UB
      end
  end.
(** v42bis_decompress, src/v42bis.c:517-691 *)
Definition v42bis_decompress (s : comp) (buf : list Z) : res (comp * Z) :=
  if k_p0 s =? 0 then
    do o <- push_octets (k_out s) buf; Ok (set_out s o, 0)
  else decompress_loop (length buf) s buf.

(** v42bis_decompress_flush, src/v42bis.c:693-705 *)
Definition v42bis_decompress_flush (s : comp) : res comp :=
  let len := k_slen s in
  do s <- send_string s;
  let s := set_flen s (k_flen s + len) in
  do o <- flush_octets (k_out s);
  Ok (set_out s o).
