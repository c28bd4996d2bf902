(** Model of src/v42.c: the V.42 LAP.M error correcting protocol, and the detection of a V.42 capable peer.
    The HDLC layer underneath is modelled in Hdlc_model.v; here its frames are lists of octets.  [Frame b] stands for
    hdlc_tx_frame and [Flags] for hdlc_tx_flags.  Not covered: logging, allocation, the status texts. *)
From Verif Require Import Base.

(** src/v42.c:77-136 *)
Definition S_RR := 0x00.
Definition S_RNR := 0x04.
Definition S_REJ := 0x08.
Definition U_DM := 0x0C.
Definition U_DISC := 0x40.
Definition U_UA := 0x60.
Definition U_SABME := 0x6C.
Definition U_FRMR := 0x84.
Definition U_XID := 0xAC.
Definition U_PF := 0x10.
Definition FI_GENERAL := 0x82.
Definition GI_PARAM := 0x80.
Definition GI_PRIVATE := 0xF0.
(** src/v42.c:142-153 *)
Definition DETECT := 0.
Definition IDLE := 1.
Definition ESTABLISH := 2.
Definition DATA := 3.
Definition RELEASE := 4.
Definition UNSUPPORTED := 8.
(** src/spandsp/async.h:96-101 *)
Definition CONNECTED := -14.
Definition DISCONNECTED := -15.
Definition LINK_ERROR := -16.
(** src/spandsp/private/v42.h:30-44 *)
Definition N_400 := 5.
Definition INFO_FRAMES := 16.
Definition CTRL_FRAMES := 8.

(** What is told to the application and to the HDLC transmitter.  [Put d] is iframe_put with the octets [d];
    [PutStatus n] is iframe_put with the negative length [n], which spandsp's users take for a status code. *)
Inductive ev := Put (d : list Z) | PutStatus (n : Z) | Status (n : Z) | Frame (b : list Z) | Flags.
(** The bit_timer_func pointer. *)
Inductive tmr := TNone | T400 | T401 | T403 | TNegotiate.
(** An answer of the application's iframe_get: octets (none: nothing to send) or an error. *)
Inductive got := Got (d : list Z) | GotError.

(** src/spandsp/private/v42.h:59-63 v42_frame_t: the length and the 132 octets *)
Record frame := mkF { flen : Z; fbuf : list Z }.
(** the window sizes and information field sizes: src/spandsp/private/v42.h:48-51 and 83-86 *)
Record limits := mkL { txk : Z; rxk : Z; txn : Z; rxn : Z }.
(** src/spandsp/private/v42.h:115-126 *)
Record negst := mkN { n_step : Z; n_rxbits : Z; n_rxstream : Z; n_rxoks : Z; n_odp : bool; n_txbits : Z; n_txstream : Z; n_txadps : Z }.

(** src/spandsp/private/v42.h:68-152 v42_state_t with its lapm_state_t.  [app] is not in the C structure: it holds the
    answers iframe_get is still to give (none left: it has nothing to send). *)
Record v42 := mkV {
  calling : bool; det : bool; rate : Z; cfg : limits; comp : Z; comp_dict : Z; comp_str : Z;
  lim : limits; vs : Z; va : Z; vr : Z; st : Z; configuring : bool; local_busy : bool;
  far_busy : bool; rejected : bool; retry : Z; ctrl_put : Z; ctrl_get : Z; ctrl_buf : list frame; info_put : Z;
  info_get : Z; info_acked : Z; info_buf : list frame; timer : Z; tfunc : tmr; neg : negst; app : list got }.
Definition w_lim (x : limits) (s : v42) : v42 :=
  mkV (s.(calling)) (s.(det)) (s.(rate)) (s.(cfg)) (s.(comp)) (s.(comp_dict)) (s.(comp_str)) x (s.(vs)) (s.(va)) (s.(vr)) (s.(st)) (s.(configuring)) (s.(local_busy)) (s.(far_busy)) (s.(rejected)) (s.(retry)) (s.(ctrl_put)) (s.(ctrl_get)) (s.(ctrl_buf)) (s.(info_put)) (s.(info_get)) (s.(info_acked)) (s.(info_buf)) (s.(timer)) (s.(tfunc)) (s.(neg)) (s.(app)).
Definition w_vs (x : Z) (s : v42) : v42 :=
  mkV (s.(calling)) (s.(det)) (s.(rate)) (s.(cfg)) (s.(comp)) (s.(comp_dict)) (s.(comp_str)) (s.(lim)) x (s.(va)) (s.(vr)) (s.(st)) (s.(configuring)) (s.(local_busy)) (s.(far_busy)) (s.(rejected)) (s.(retry)) (s.(ctrl_put)) (s.(ctrl_get)) (s.(ctrl_buf)) (s.(info_put)) (s.(info_get)) (s.(info_acked)) (s.(info_buf)) (s.(timer)) (s.(tfunc)) (s.(neg)) (s.(app)).
Definition w_va (x : Z) (s : v42) : v42 :=
  mkV (s.(calling)) (s.(det)) (s.(rate)) (s.(cfg)) (s.(comp)) (s.(comp_dict)) (s.(comp_str)) (s.(lim)) (s.(vs)) x (s.(vr)) (s.(st)) (s.(configuring)) (s.(local_busy)) (s.(far_busy)) (s.(rejected)) (s.(retry)) (s.(ctrl_put)) (s.(ctrl_get)) (s.(ctrl_buf)) (s.(info_put)) (s.(info_get)) (s.(info_acked)) (s.(info_buf)) (s.(timer)) (s.(tfunc)) (s.(neg)) (s.(app)).
Definition w_vr (x : Z) (s : v42) : v42 :=
  mkV (s.(calling)) (s.(det)) (s.(rate)) (s.(cfg)) (s.(comp)) (s.(comp_dict)) (s.(comp_str)) (s.(lim)) (s.(vs)) (s.(va)) x (s.(st)) (s.(configuring)) (s.(local_busy)) (s.(far_busy)) (s.(rejected)) (s.(retry)) (s.(ctrl_put)) (s.(ctrl_get)) (s.(ctrl_buf)) (s.(info_put)) (s.(info_get)) (s.(info_acked)) (s.(info_buf)) (s.(timer)) (s.(tfunc)) (s.(neg)) (s.(app)).
Definition w_st (x : Z) (s : v42) : v42 :=
  mkV (s.(calling)) (s.(det)) (s.(rate)) (s.(cfg)) (s.(comp)) (s.(comp_dict)) (s.(comp_str)) (s.(lim)) (s.(vs)) (s.(va)) (s.(vr)) x (s.(configuring)) (s.(local_busy)) (s.(far_busy)) (s.(rejected)) (s.(retry)) (s.(ctrl_put)) (s.(ctrl_get)) (s.(ctrl_buf)) (s.(info_put)) (s.(info_get)) (s.(info_acked)) (s.(info_buf)) (s.(timer)) (s.(tfunc)) (s.(neg)) (s.(app)).
Definition w_configuring (x : bool) (s : v42) : v42 :=
  mkV (s.(calling)) (s.(det)) (s.(rate)) (s.(cfg)) (s.(comp)) (s.(comp_dict)) (s.(comp_str)) (s.(lim)) (s.(vs)) (s.(va)) (s.(vr)) (s.(st)) x (s.(local_busy)) (s.(far_busy)) (s.(rejected)) (s.(retry)) (s.(ctrl_put)) (s.(ctrl_get)) (s.(ctrl_buf)) (s.(info_put)) (s.(info_get)) (s.(info_acked)) (s.(info_buf)) (s.(timer)) (s.(tfunc)) (s.(neg)) (s.(app)).
Definition w_local_busy (x : bool) (s : v42) : v42 :=
  mkV (s.(calling)) (s.(det)) (s.(rate)) (s.(cfg)) (s.(comp)) (s.(comp_dict)) (s.(comp_str)) (s.(lim)) (s.(vs)) (s.(va)) (s.(vr)) (s.(st)) (s.(configuring)) x (s.(far_busy)) (s.(rejected)) (s.(retry)) (s.(ctrl_put)) (s.(ctrl_get)) (s.(ctrl_buf)) (s.(info_put)) (s.(info_get)) (s.(info_acked)) (s.(info_buf)) (s.(timer)) (s.(tfunc)) (s.(neg)) (s.(app)).
Definition w_far_busy (x : bool) (s : v42) : v42 :=
  mkV (s.(calling)) (s.(det)) (s.(rate)) (s.(cfg)) (s.(comp)) (s.(comp_dict)) (s.(comp_str)) (s.(lim)) (s.(vs)) (s.(va)) (s.(vr)) (s.(st)) (s.(configuring)) (s.(local_busy)) x (s.(rejected)) (s.(retry)) (s.(ctrl_put)) (s.(ctrl_get)) (s.(ctrl_buf)) (s.(info_put)) (s.(info_get)) (s.(info_acked)) (s.(info_buf)) (s.(timer)) (s.(tfunc)) (s.(neg)) (s.(app)).
Definition w_rejected (x : bool) (s : v42) : v42 :=
  mkV (s.(calling)) (s.(det)) (s.(rate)) (s.(cfg)) (s.(comp)) (s.(comp_dict)) (s.(comp_str)) (s.(lim)) (s.(vs)) (s.(va)) (s.(vr)) (s.(st)) (s.(configuring)) (s.(local_busy)) (s.(far_busy)) x (s.(retry)) (s.(ctrl_put)) (s.(ctrl_get)) (s.(ctrl_buf)) (s.(info_put)) (s.(info_get)) (s.(info_acked)) (s.(info_buf)) (s.(timer)) (s.(tfunc)) (s.(neg)) (s.(app)).
Definition w_retry (x : Z) (s : v42) : v42 :=
  mkV (s.(calling)) (s.(det)) (s.(rate)) (s.(cfg)) (s.(comp)) (s.(comp_dict)) (s.(comp_str)) (s.(lim)) (s.(vs)) (s.(va)) (s.(vr)) (s.(st)) (s.(configuring)) (s.(local_busy)) (s.(far_busy)) (s.(rejected)) x (s.(ctrl_put)) (s.(ctrl_get)) (s.(ctrl_buf)) (s.(info_put)) (s.(info_get)) (s.(info_acked)) (s.(info_buf)) (s.(timer)) (s.(tfunc)) (s.(neg)) (s.(app)).
Definition w_ctrl_put (x : Z) (s : v42) : v42 :=
  mkV (s.(calling)) (s.(det)) (s.(rate)) (s.(cfg)) (s.(comp)) (s.(comp_dict)) (s.(comp_str)) (s.(lim)) (s.(vs)) (s.(va)) (s.(vr)) (s.(st)) (s.(configuring)) (s.(local_busy)) (s.(far_busy)) (s.(rejected)) (s.(retry)) x (s.(ctrl_get)) (s.(ctrl_buf)) (s.(info_put)) (s.(info_get)) (s.(info_acked)) (s.(info_buf)) (s.(timer)) (s.(tfunc)) (s.(neg)) (s.(app)).
Definition w_ctrl_get (x : Z) (s : v42) : v42 :=
  mkV (s.(calling)) (s.(det)) (s.(rate)) (s.(cfg)) (s.(comp)) (s.(comp_dict)) (s.(comp_str)) (s.(lim)) (s.(vs)) (s.(va)) (s.(vr)) (s.(st)) (s.(configuring)) (s.(local_busy)) (s.(far_busy)) (s.(rejected)) (s.(retry)) (s.(ctrl_put)) x (s.(ctrl_buf)) (s.(info_put)) (s.(info_get)) (s.(info_acked)) (s.(info_buf)) (s.(timer)) (s.(tfunc)) (s.(neg)) (s.(app)).
Definition w_ctrl_buf (x : list frame) (s : v42) : v42 :=
  mkV (s.(calling)) (s.(det)) (s.(rate)) (s.(cfg)) (s.(comp)) (s.(comp_dict)) (s.(comp_str)) (s.(lim)) (s.(vs)) (s.(va)) (s.(vr)) (s.(st)) (s.(configuring)) (s.(local_busy)) (s.(far_busy)) (s.(rejected)) (s.(retry)) (s.(ctrl_put)) (s.(ctrl_get)) x (s.(info_put)) (s.(info_get)) (s.(info_acked)) (s.(info_buf)) (s.(timer)) (s.(tfunc)) (s.(neg)) (s.(app)).
Definition w_info_put (x : Z) (s : v42) : v42 :=
  mkV (s.(calling)) (s.(det)) (s.(rate)) (s.(cfg)) (s.(comp)) (s.(comp_dict)) (s.(comp_str)) (s.(lim)) (s.(vs)) (s.(va)) (s.(vr)) (s.(st)) (s.(configuring)) (s.(local_busy)) (s.(far_busy)) (s.(rejected)) (s.(retry)) (s.(ctrl_put)) (s.(ctrl_get)) (s.(ctrl_buf)) x (s.(info_get)) (s.(info_acked)) (s.(info_buf)) (s.(timer)) (s.(tfunc)) (s.(neg)) (s.(app)).
Definition w_info_get (x : Z) (s : v42) : v42 :=
  mkV (s.(calling)) (s.(det)) (s.(rate)) (s.(cfg)) (s.(comp)) (s.(comp_dict)) (s.(comp_str)) (s.(lim)) (s.(vs)) (s.(va)) (s.(vr)) (s.(st)) (s.(configuring)) (s.(local_busy)) (s.(far_busy)) (s.(rejected)) (s.(retry)) (s.(ctrl_put)) (s.(ctrl_get)) (s.(ctrl_buf)) (s.(info_put)) x (s.(info_acked)) (s.(info_buf)) (s.(timer)) (s.(tfunc)) (s.(neg)) (s.(app)).
Definition w_info_acked (x : Z) (s : v42) : v42 :=
  mkV (s.(calling)) (s.(det)) (s.(rate)) (s.(cfg)) (s.(comp)) (s.(comp_dict)) (s.(comp_str)) (s.(lim)) (s.(vs)) (s.(va)) (s.(vr)) (s.(st)) (s.(configuring)) (s.(local_busy)) (s.(far_busy)) (s.(rejected)) (s.(retry)) (s.(ctrl_put)) (s.(ctrl_get)) (s.(ctrl_buf)) (s.(info_put)) (s.(info_get)) x (s.(info_buf)) (s.(timer)) (s.(tfunc)) (s.(neg)) (s.(app)).
Definition w_info_buf (x : list frame) (s : v42) : v42 :=
  mkV (s.(calling)) (s.(det)) (s.(rate)) (s.(cfg)) (s.(comp)) (s.(comp_dict)) (s.(comp_str)) (s.(lim)) (s.(vs)) (s.(va)) (s.(vr)) (s.(st)) (s.(configuring)) (s.(local_busy)) (s.(far_busy)) (s.(rejected)) (s.(retry)) (s.(ctrl_put)) (s.(ctrl_get)) (s.(ctrl_buf)) (s.(info_put)) (s.(info_get)) (s.(info_acked)) x (s.(timer)) (s.(tfunc)) (s.(neg)) (s.(app)).
Definition w_timer (x : Z) (s : v42) : v42 :=
  mkV (s.(calling)) (s.(det)) (s.(rate)) (s.(cfg)) (s.(comp)) (s.(comp_dict)) (s.(comp_str)) (s.(lim)) (s.(vs)) (s.(va)) (s.(vr)) (s.(st)) (s.(configuring)) (s.(local_busy)) (s.(far_busy)) (s.(rejected)) (s.(retry)) (s.(ctrl_put)) (s.(ctrl_get)) (s.(ctrl_buf)) (s.(info_put)) (s.(info_get)) (s.(info_acked)) (s.(info_buf)) x (s.(tfunc)) (s.(neg)) (s.(app)).
Definition w_tfunc (x : tmr) (s : v42) : v42 :=
  mkV (s.(calling)) (s.(det)) (s.(rate)) (s.(cfg)) (s.(comp)) (s.(comp_dict)) (s.(comp_str)) (s.(lim)) (s.(vs)) (s.(va)) (s.(vr)) (s.(st)) (s.(configuring)) (s.(local_busy)) (s.(far_busy)) (s.(rejected)) (s.(retry)) (s.(ctrl_put)) (s.(ctrl_get)) (s.(ctrl_buf)) (s.(info_put)) (s.(info_get)) (s.(info_acked)) (s.(info_buf)) (s.(timer)) x (s.(neg)) (s.(app)).
Definition w_neg (x : negst) (s : v42) : v42 :=
  mkV (s.(calling)) (s.(det)) (s.(rate)) (s.(cfg)) (s.(comp)) (s.(comp_dict)) (s.(comp_str)) (s.(lim)) (s.(vs)) (s.(va)) (s.(vr)) (s.(st)) (s.(configuring)) (s.(local_busy)) (s.(far_busy)) (s.(rejected)) (s.(retry)) (s.(ctrl_put)) (s.(ctrl_get)) (s.(ctrl_buf)) (s.(info_put)) (s.(info_get)) (s.(info_acked)) (s.(info_buf)) (s.(timer)) (s.(tfunc)) x (s.(app)).
Definition w_app (x : list got) (s : v42) : v42 :=
  mkV (s.(calling)) (s.(det)) (s.(rate)) (s.(cfg)) (s.(comp)) (s.(comp_dict)) (s.(comp_str)) (s.(lim)) (s.(vs)) (s.(va)) (s.(vr)) (s.(st)) (s.(configuring)) (s.(local_busy)) (s.(far_busy)) (s.(rejected)) (s.(retry)) (s.(ctrl_put)) (s.(ctrl_get)) (s.(ctrl_buf)) (s.(info_put)) (s.(info_get)) (s.(info_acked)) (s.(info_buf)) (s.(timer)) (s.(tfunc)) (s.(neg)) x.

Definition cmd_addr (s : v42) : Z := if calling s then 0x03 else 0x01.
Definition rsp_addr (s : v42) : Z := if calling s then 0x01 else 0x03.

(** Arrays of frames. *)
Definition fget (l : list frame) (i : Z) : res frame :=
  if (0 <=? i) && (i <? Z.of_nat (length l)) then Ok (nth (Z.to_nat i) l (mkF 0 [])) else UB.
Definition fset (l : list frame) (i : Z) (f : frame) : res (list frame) :=
  if (0 <=? i) && (i <? Z.of_nat (length l)) then Ok (upd l (Z.to_nat i) f) else UB.
Definition wrap (i n : Z) : Z := if n <=? i + 1 then 0 else i + 1.

(** src/v42.c:214-226 get_next_free_ctrl_frame, and the writing of the frame by its callers: the octets [b] at the
    front and the length *)
Definition put_ctrl (s : v42) (b : list Z) (len : Z) : res v42 :=
  let next := wrap (ctrl_put s) CTRL_FRAMES in
  if next =? ctrl_get s then Ok s
  else
    do f <- fget (ctrl_buf s) (ctrl_put s);
    do buf <- ablit (fbuf f) 0 b;
    do l <- fset (ctrl_buf s) (ctrl_put s) (mkF len buf);
    Ok (w_ctrl_put next (w_ctrl_buf l s)).
(** src/v42.c:229-246 tx_unnumbered_frame (always called without information) *)
Definition tx_unnumbered (s : v42) (addr ctrl : Z) : res v42 := put_ctrl s [addr; Z.lor 0x03 ctrl] 2.
(** src/v42.c:249-262 tx_supervisory_frame *)
Definition tx_supervisory (s : v42) (addr ctrl pf : Z) : res v42 :=
  put_ctrl s [addr; Z.lor 0x01 ctrl; u8 (Z.lor (Z.shiftl (vr s) 1) pf)] 3.

(** src/v42.c:265-272 set_param *)
Definition set_param (param value def : Z) : Z :=
  if ((value <? def) && (def <=? param)) || ((def <=? value) && (param <? def)) then def
  else if ((value <? def) && (param <? value)) || ((def <=? value) && (value <? param)) then value
  else param.
(** src/v42.c:200-211 pack_value *)
Fixpoint pack_value (l : list Z) (acc : Z) : Z :=
  match l with [] => acc | b :: t => pack_value t (Z.lor (u32 (Z.shiftl acc 8)) b) end.

(** src/v42.c:304-346: the parameter negotiation group.  [off] is the place reached in the frame. *)
Fixpoint param_group (fuel : nat) (s : v42) (frame : list Z) (off group_len : Z) : res v42 :=
  match fuel with
  | O => Ok s
  | S k =>
    if group_len <=? 0 then Ok s
    else
      do id <- aget frame off;
      do n <- aget frame (off + 1);
      if group_len <? 2 + n then Ok s
      else
        do s <-
          (if (id =? 5) || (id =? 6) || (id =? 7) || (id =? 8) then
             do v <- aslice frame (off + 2) n;
             let v := pack_value v 0 in
             let b := Z.shiftr v 3 in
             let l := lim s in
             Ok (w_lim (if id =? 5 then mkL (txk l) (rxk l) (u16 (set_param (txn l) (s32 b) (txn (cfg s)))) (rxn l)
                        else if id =? 6 then mkL (txk l) (rxk l) (txn l) (u16 (set_param (rxn l) (s32 b) (rxn (cfg s))))
                        else if id =? 7 then mkL (u8 (set_param (txk l) (s32 v) (txk (cfg s)))) (rxk l) (txn l) (rxn l)
                        else mkL (txk l) (u8 (set_param (rxk l) (s32 v) (rxk (cfg s)))) (txn l) (rxn l)) s)
           else Ok s);
        param_group k s frame (off + 2 + n) (group_len - (2 + n))
  end.
(** src/v42.c:347-376: the private group; what it sets is not used *)
Fixpoint private_group (fuel : nat) (frame : list Z) (off group_len : Z) : res unit :=
  match fuel with
  | O => Ok tt
  | S k =>
    if group_len <=? 0 then Ok tt
    else
      do id <- aget frame off;
      do n <- aget frame (off + 1);
      if group_len <? 2 + n then Ok tt
      else
        do _ <- (if (id =? 1) || (id =? 2) || (id =? 3) then aslice frame (off + 2) n else Ok []);
        private_group k frame (off + 2 + n) (group_len - (2 + n))
  end.
(** src/v42.c:292-381 *)
Fixpoint xid_groups (fuel : nat) (s : v42) (frame : list Z) (off len : Z) : res v42 :=
  match fuel with
  | O => Ok s
  | S k =>
    if len <=? 0 then Ok s
    else
      do id <- aget frame off;
      do h <- aget frame (off + 1);
      do l <- aget frame (off + 2);
      let n := Z.lor (Z.shiftl h 8) l in
      let len := len - (3 + n) in
      if len <? 0 then Ok s
      else
        do s <- (if id =? GI_PARAM then param_group (Z.to_nat n) s frame (off + 3) n
                 else if id =? GI_PRIVATE then do _ <- private_group (Z.to_nat n) frame (off + 3) n; Ok s
                 else Ok s);
        xid_groups k s frame (off + 3 + n) len
  end.
(** src/v42.c:275-384 receive_xid (the result is not used by its callers) *)
Definition receive_xid (s : v42) (frame : list Z) (len : Z) : res v42 :=
  do f <- aget frame 2;
  if negb (f =? FI_GENERAL) then Ok s
  else xid_groups (Z.to_nat len) s frame 3 (len - 3).

(** src/v42.c:387-492 transmit_xid.  The four octets put after the first parameter are written over by what follows. *)
Definition xid_bytes (s : v42) (addr : Z) : list Z :=
  let net16 (v : Z) := [u8 (Z.shiftr v 8); u8 v] in
  [addr; Z.lor U_XID 0x03; FI_GENERAL; GI_PARAM] ++ net16 20 ++ [3; 4]
  ++ [5; 2] ++ net16 (Z.shiftl (txn (cfg s)) 3) ++ [6; 2] ++ net16 (Z.shiftl (rxn (cfg s)) 3)
  ++ [7; 1; txk (cfg s); 8; 1; rxk (cfg s)]
  ++ (if comp s =? 0 then []
      else [GI_PRIVATE] ++ net16 15 ++ [0; 3; 86; 52; 50; 1; 1; comp s; 2; 2] ++ net16 (comp_dict s) ++ [3; 1; u8 (comp_str s)]).
Definition transmit_xid (s : v42) (addr : Z) : res v42 :=
  put_ctrl s (xid_bytes s addr) (26 + (if comp s =? 0 then 0 else 18)).

(** src/v42.c:495-498 ms_to_bits, with the default times of src/v42.c:61-68 *)
Definition ms_to_bits (s : v42) (time : Z) : Z := (time * rate s) / 1000.
Definition T_400 := 750.
Definition T_401 := 1000.
Definition T_403 := 10000.
Definition set_timer (s : v42) (n : Z) (f : tmr) : v42 := w_tfunc f (w_timer n s).

(** src/v42.c:570-582 t401_start, t401_stop; 599-604 t401_stop_t403_start *)
Definition t401_start (s : v42) : v42 := w_retry 0 (set_timer s (ms_to_bits s T_401) T401).
Definition t401_stop (s : v42) : v42 := w_retry 0 (w_timer 0 s).
Definition t401_stop_t403_start (s : v42) : v42 := w_retry 0 (set_timer s (ms_to_bits s T_403) T403).

(** src/v42.c:1151-1174 reset_lapm *)
Definition reset_lapm (s : v42) : v42 :=
  w_lim (cfg s) (w_ctrl_get 0 (w_ctrl_put 0 (w_info_get 0 (w_info_acked 0 (w_info_put 0 (w_vr 0 (w_va 0 (w_vs 0
    (w_far_busy false (w_local_busy false s)))))))))).
(** src/v42.c:1122-1131 lapm_disconnect *)
Definition lapm_disconnect (s : v42) : res v42 :=
  do s <- tx_unnumbered (w_st RELEASE s) (cmd_addr s) (Z.lor U_DISC U_PF);
  Ok (t401_start s).
(** src/v42.c:1101-1119 lapm_connect *)
Definition lapm_connect (s : v42) : res v42 :=
  if negb (st s =? IDLE) then Ok s
  else
    do s <- tx_unnumbered (w_st ESTABLISH (reset_lapm s)) (cmd_addr s) (Z.lor U_SABME U_PF);
    Ok (t401_start s).
(** src/v42.c:1134-1148 lapm_config *)
Definition lapm_config (s : v42) : res v42 :=
  let s := w_configuring true s in
  do s <- (if st s =? DATA then tx_supervisory (w_local_busy true s) (cmd_addr s) S_RNR 1 else Ok s);
  do s <- transmit_xid s (cmd_addr s);
  Ok (t401_start s).

Definition busy_code (s : v42) : Z := if local_busy s then S_RNR else S_RR.
(** src/v42.c:523-567 t401_expired *)
Definition t401_expired (s : v42) : res (v42 * list ev) :=
  if N_400 <? retry s then
    let s := w_retry 0 s in
    if (st s =? ESTABLISH) || (st s =? RELEASE) then Ok (w_st IDLE s, [Status DISCONNECTED])
    else if st s =? DATA then do s <- lapm_disconnect s; Ok (s, [])
    else Ok (s, [])
  else
    let s := w_retry (retry s + 1) s in
    do s <-
      (if configuring s then transmit_xid s (cmd_addr s)
       else if st s =? ESTABLISH then tx_unnumbered s (cmd_addr s) (Z.lor U_SABME U_PF)
       else if st s =? RELEASE then tx_unnumbered s (cmd_addr s) (Z.lor U_DISC U_PF)
       else if st s =? DATA then tx_supervisory s (cmd_addr s) (busy_code s) 1
       else Ok s);
    Ok (set_timer s (ms_to_bits s T_401) T401, []).
(** src/v42.c:585-596 t403_expired *)
Definition t403_expired (s : v42) : res v42 :=
  if negb (st s =? DATA) then Ok s
  else
    do s <- tx_supervisory s (cmd_addr s) (busy_code s) 1;
    Ok (w_retry 1 (t401_start s)).

(** src/v42.c:616-650 tx_information_frame *)
Definition tx_information_frame (s : v42) : res (v42 * bool * list ev) :=
  if far_busy s || (txk (lim s) <=? Z.land (vs s - va s) 0x7F) then Ok (s, false, [])
  else if negb (info_get s =? info_put s) then Ok (s, true, [])
  else
    let next := wrap (info_put s) INFO_FRAMES in
    if (next =? info_get s) || (next =? info_acked s) then Ok (s, false, [])
    else
      match app s with
      | [] => Ok (s, false, [])
      | GotError :: rest => Ok (w_app rest s, false, [Status LINK_ERROR])
      | Got [] :: rest => Ok (w_app rest s, false, [])
      | Got d :: rest =>
        do f <- fget (info_buf s) (info_put s);
        if txn (lim s) <? Z.of_nat (length d) then UB
        else
          do buf <- ablit (fbuf f) 3 d;
          do l <- fset (info_buf s) (info_put s) (mkF (Z.of_nat (length d) + 3) buf);
          Ok (w_info_put next (w_info_buf l (w_app rest s)), true, [])
      end.
(** src/v42.c:653-662 tx_information_rr_rnr_response *)
Definition information_response (s : v42) (addr pf : Z) : res (v42 * list ev) :=
  do (s, sent, e) <- (if Z.odd pf then Ok (s, false, []) else tx_information_frame s);
  if sent then Ok (s, e)
  else do s <- tx_supervisory s addr (busy_code s) 1; Ok (s, e).

(** src/v42.c:665-676 reject_info *)
Definition reject_info (s : v42) : v42 :=
  if negb (st s =? DATA) then s else w_info_get (info_acked s) (w_vs (va s) s).

(** src/v42.c:694-700 *)
Fixpoint ack_loop (fuel : nat) (s : v42) (nr n : Z) : res (v42 * Z) :=
  match fuel with
  | O => Ok (s, n)
  | S k =>
    if negb (va s =? nr) && negb (info_acked s =? info_get s) then
      ack_loop k (w_va (Z.land (va s + 1) 0x7F) (w_info_acked (wrap (info_acked s) INFO_FRAMES) s)) nr (n + 1)
    else Ok (s, n)
  end.
(** src/v42.c:679-709 ack_info (the result is not used) *)
Definition ack_info (s : v42) (nr : Z) : res v42 :=
  if negb ((Z.land (nr - va s) 0x7F + Z.land (vs s - nr) 0x7F <=? txk (lim s)) && (Z.land (vs s - va s) 0x7F <=? txk (lim s))) then
    lapm_disconnect s
  else
    do (s, n) <- ack_loop (Z.to_nat INFO_FRAMES) s nr 0;
    if (0 <? n) && (retry s =? 0) then
      let s := t401_stop_t403_start s in
      Ok (if negb (Z.land (vs s - va s) 0x7F =? 0) then t401_start s else s)
    else Ok s.

(** src/v42.c:712-741 valid_data_state *)
Definition valid_data_state (s : v42) : v42 * bool * list ev :=
  if st s =? ESTABLISH then (w_st DATA (reset_lapm s), true, [Status CONNECTED])
  else if st s =? DATA then (s, true, [])
  else if st s =? RELEASE then (w_st IDLE (reset_lapm s), false, [Status DISCONNECTED])
  else (s, false, []).

(** src/v42.c:744-778 receive_information_frame *)
Definition receive_information (s : v42) (frame : list Z) (len : Z) : res (v42 * list ev) :=
  let '(s, ok, e) := valid_data_state s in
  if negb ok then Ok (s, e)
  else if rxn (lim s) + 3 <? len then Ok (s, e)
  else
    do c <- aget frame 1;
    do p <- aget frame 2;
    do s <- ack_info s (Z.shiftr p 1);
    if local_busy s then
      if Z.odd p then do s <- tx_supervisory s (rsp_addr s) S_RNR 1; Ok (s, e) else Ok (s, e)
    else if negb (Z.shiftr c 1 =? vr s) then
      if rejected s then Ok (s, e)
      else do s <- tx_supervisory s (rsp_addr s) S_REJ (Z.land p 1); Ok (w_rejected true s, e)
    else
      do d <- aslice frame 3 (len - 3);
      do addr <- aget frame 0;
      do (s, e') <- information_response (w_vr (Z.land (vr s + 1) 0x7F) (w_rejected false s)) addr p;
      Ok (s, e ++ (if len <? 3 then PutStatus (len - 3) else Put d) :: e').

(** src/v42.c:781-818 rx_supervisory_cmd_frame *)
Definition rx_supervisory_cmd (s : v42) (frame : list Z) : res (v42 * list ev) :=
  do addr <- aget frame 0;
  do c <- aget frame 1;
  do p <- aget frame 2;
  let nr := Z.shiftr p 1 in
  let c := Z.land c 0x0C in
  if c =? S_RR then
    do s <- ack_info (w_far_busy false s) nr;
    information_response s addr p
  else if c =? S_RNR then
    do s <- ack_info (w_far_busy true s) nr;
    if Z.odd p then do s <- tx_supervisory s (rsp_addr s) (busy_code s) 1; Ok (s, []) else Ok (s, [])
  else if c =? S_REJ then
    do s <- ack_info (w_far_busy false s) nr;
    let s := if retry s =? 0 then reject_info (t401_stop_t403_start s) else s in
    information_response s addr p
  else Ok (s, []).

(** src/v42.c:821-866 rx_supervisory_rsp_frame *)
Definition rx_supervisory_rsp (s : v42) (frame : list Z) : res (v42 * list ev) :=
  do p <- aget frame 2;
  if (retry s =? 0) && Z.odd p then Ok (s, [])
  else
    do c <- aget frame 1;
    let nr := Z.shiftr p 1 in
    let c := Z.land c 0x0C in
    if c =? S_RR then
      do s <- ack_info (w_far_busy false s) nr;
      Ok (if negb (retry s =? 0) && Z.odd p then t401_stop_t403_start (reject_info s) else s, [])
    else if c =? S_RNR then
      do s <- ack_info (w_far_busy true s) nr;
      let s := if negb (retry s =? 0) && Z.odd p then t401_stop_t403_start (reject_info s) else s in
      Ok (if retry s =? 0 then t401_start s else s, [])
    else if c =? S_REJ then
      do s <- ack_info (w_far_busy false s) nr;
      Ok (if (retry s =? 0) || Z.odd p then t401_stop_t403_start (reject_info s) else s, [])
    else Ok (s, []).

(** src/v42.c:869-920 rx_unnumbered_cmd_frame *)
Definition rx_unnumbered_cmd (s : v42) (frame : list Z) (len : Z) : res (v42 * list ev) :=
  do c <- aget frame 1;
  let u := Z.land c 0xEC in
  if u =? U_SABME then
    do s <- tx_unnumbered (w_st DATA (reset_lapm s)) (rsp_addr s) (Z.lor U_UA (Z.land c 0x10));
    Ok (t401_stop_t403_start s, [Status CONNECTED])
  else if u =? U_DISC then
    if st s =? IDLE then
      do s <- tx_unnumbered s (rsp_addr s) (Z.lor U_DM U_PF);
      Ok (s, [])
    else
      do s <- tx_unnumbered (reset_lapm (w_st IDLE s)) (rsp_addr s) (Z.lor U_UA (Z.land c 0x10));
      Ok (t401_stop s, [Status DISCONNECTED])
  else if u =? U_XID then
    do s <- receive_xid s frame len;
    do s <- transmit_xid s (rsp_addr s);
    Ok (s, [])
  else Ok (s, []).

(** src/v42.c:923-1016 rx_unnumbered_rsp_frame *)
Definition rx_unnumbered_rsp (s : v42) (frame : list Z) (len : Z) : res (v42 * list ev) :=
  do c <- aget frame 1;
  let u := Z.land c 0xEC in
  let f := negb (Z.land c 0x10 =? 0) in
  if u =? U_DM then
    if st s =? IDLE then Ok (s, if f then [] else [Status CONNECTED])
    else if (st s =? ESTABLISH) || (st s =? RELEASE) then
      if f then Ok (t401_stop (reset_lapm (w_st IDLE s)), [Status DISCONNECTED]) else Ok (s, [])
    else if st s =? DATA then
      if negb (retry s =? 0) || negb f then Ok (reset_lapm (w_st IDLE s), [Status DISCONNECTED]) else Ok (s, [])
    else Ok (s, [])
  else if u =? U_UA then
    if st s =? ESTABLISH then Ok (t401_stop_t403_start (reset_lapm (w_st DATA s)), [Status CONNECTED])
    else if st s =? RELEASE then Ok (t401_stop (reset_lapm (w_st IDLE s)), [Status DISCONNECTED])
    else Ok (s, [])
  else if u =? U_XID then
    if configuring s then
      do s <- receive_xid s frame len;
      let s := t401_stop (w_configuring false s) in
      do s <- (if st s =? IDLE then lapm_connect s
               else if st s =? DATA then tx_supervisory (w_local_busy false s) (cmd_addr s) S_RR 0
               else Ok s);
      Ok (s, [])
    else Ok (s, [])
  else Ok (s, []).

(** src/v42.c:1019-1059 lapm_hdlc_underflow *)
Definition lapm_hdlc_underflow (s : v42) : res (v42 * list ev) :=
  if negb (ctrl_get s =? ctrl_put s) then
    do f <- fget (ctrl_buf s) (ctrl_get s);
    do b <- aslice (fbuf f) 0 (flen f);
    Ok (w_ctrl_get (wrap (ctrl_get s) CTRL_FRAMES) s, [Frame b])
  else if far_busy s || configuring s || negb (st s =? DATA) then Ok (s, [Flags])
  else
    do (s, some, e) <- (if info_get s =? info_put s then tx_information_frame s else Ok (s, true, []));
    if negb some then Ok (s, e ++ [Flags])
    else
      do f <- fget (info_buf s) (info_get s);
      do buf <- ablit (fbuf f) 0 [cmd_addr s; u8 (Z.shiftl (vs s) 1); u8 (Z.shiftl (vr s) 1)];
      do l <- fset (info_buf s) (info_get s) (mkF (flen f) buf);
      do b <- aslice buf 0 (flen f);
      let s := w_vs (Z.land (vs s + 1) 0x7F) (w_info_get (wrap (info_get s) INFO_FRAMES) (w_info_buf l s)) in
      Ok (if timer s =? 0 then t401_start s else s, e ++ [Frame b]).

(** src/v42.c:1062-1098 lapm_receive.  [frame] is the memory from the frame's first octet on. *)
Definition lapm_receive (s : v42) (frame : list Z) (len : Z) (ok : bool) : res (v42 * list ev) :=
  if len <? 0 then Ok (s, [])
  else if negb ok then Ok (s, [])
  else
    do c <- aget frame 1;
    let t := Z.land c 0x03 in
    if (t =? 0) || (t =? 2) then receive_information s frame len
    else if t =? 1 then
      let '(s, good, e) := valid_data_state s in
      if negb good then Ok (s, e)
      else
        do addr <- aget frame 0;
        do (s, e') <- (if addr =? rsp_addr s then rx_supervisory_cmd s frame else rx_supervisory_rsp s frame);
        Ok (s, e ++ e')
    else
      do addr <- aget frame 0;
      if addr =? rsp_addr s then rx_unnumbered_cmd s frame len else rx_unnumbered_rsp s frame len.

(** src/v42.c:1188-1201 restart_lapm *)
Definition restart_lapm (s : v42) : res (v42 * list ev) :=
  do (s, e) <- (if calling s then Ok (set_timer s (48 * 8) TNegotiate, []) else lapm_hdlc_underflow s);
  Ok (w_st IDLE s, e).

(** src/v42.c:501-507 t400_expired; 607-613 initiate_negotiation_expired *)
Definition timer_expired (s : v42) : res (v42 * list ev) :=
  match tfunc s with
  | TNone => UB
  | T400 => Ok (w_st UNSUPPORTED (w_timer 0 s), [Status UNSUPPORTED])
  | T401 => t401_expired s
  | T403 => do s <- t403_expired s; Ok (s, [])
  | TNegotiate => do s <- lapm_config s; lapm_hdlc_underflow s
  end.
(** src/v42.c:1425-1429: the timer, run down by v42_tx_bit *)
Definition timer_tick (s : v42) : res (v42 * list ev) :=
  if timer s =? 0 then Ok (s, [])
  else if timer s - 1 <=? 0 then timer_expired (w_timer 0 s)
  else Ok (w_timer (timer s - 1) s, []).

(** src/v42.c:1204-1342 negotiation_rx_bit *)
Definition n_set (n : negst) (step rxbits rxstream rxoks : Z) (odp : bool) : negst :=
  mkN step rxbits rxstream rxoks odp (n_txbits n) (n_txstream n) (n_txadps n).
Definition negotiation_rx_bit (s : v42) (bit : Z) : res (v42 * list ev) :=
  if bit <? 0 then Ok (s, [])
  else
    let bit := Z.land bit 1 in
    let n := neg s in
    let stream := s32 (Z.lor (Z.shiftl (n_rxstream n) 1) bit) in
    let go (step bits str oks : Z) := Ok (w_neg (n_set n step bits str oks (n_odp n)) s, []) in
    let step := n_step n in
    let bits := n_rxbits n in
    if step =? 0 then
      if bit =? 1 then go 0 bits stream (n_rxoks n) else go 1 0 (-2) 0
    else if step =? 1 then
      if bits + 1 <? 9 then go 1 (bits + 1) stream (n_rxoks n)
      else go (if Z.land stream 0x3FF =? (if calling s then 0x145 else 0x111) then 2 else 0) 0 (-1) (n_rxoks n)
    else if step =? 2 then
      if bit =? 1 then go 2 (bits + 1) stream (n_rxoks n)
      else go (if (8 <=? bits + 1) && (bits + 1 <=? 16) then 3 else 0) 0 (-2) (n_rxoks n)
    else if step =? 3 then
      if bits + 1 <? 9 then go 3 (bits + 1) stream (n_rxoks n)
      else
        let c := Z.land stream 0x3FF in
        go (if (if calling s then (c =? 0x185) || (c =? 0x001) else c =? 0x113) then 4 else 0) 0 (-1) (n_rxoks n)
    else if step =? 4 then
      if bit =? 1 then go 4 (bits + 1) stream (n_rxoks n)
      else if (8 <=? bits + 1) && (bits + 1 <=? 16) then
        if 2 <=? n_rxoks n + 1 then
          if calling s then
            let s := w_st IDLE (w_timer 0 (w_neg (n_set n 5 (bits + 1) stream (n_rxoks n + 1) (n_odp n)) s)) in
            do (s, e) <- restart_lapm s;
            Ok (s, Status IDLE :: e)
          else Ok (w_neg (n_set n 5 (bits + 1) stream (n_rxoks n + 1) true) s, [])
        else go 1 0 (-2) (n_rxoks n + 1)
      else go 0 0 (-1) (n_rxoks n)
    else go step bits stream (n_rxoks n).

(** src/v42.c:1345-1403 v42_support_negotiation_tx_bit *)
Definition n_settx (n : negst) (txbits txstream txadps : Z) : negst :=
  mkN (n_step n) (n_rxbits n) (n_rxstream n) (n_rxoks n) (n_odp n) txbits txstream txadps.
Definition negotiation_tx_bit (s : v42) : res (v42 * list ev * Z) :=
  let n := neg s in
  let out (s : v42) (e : list ev) (bits stream adps : Z) :=
    Ok (w_neg (n_settx (neg s) (bits - 1) (Z.shiftr stream 1) adps) s, e, Z.land stream 1) in
  if calling s then
    if n_txbits n <=? 0 then out s [] 36 0x3FE22 (n_txadps n)
    else if n_txbits n =? 18 then out s [] 18 0x3FF22 (n_txadps n)
    else out s [] (n_txbits n) (n_txstream n) (n_txadps n)
  else if n_odp n && (n_txadps n <? 10) then
    if n_txbits n <=? 0 then
      if 10 <=? n_txadps n + 1 then
        let s := w_st IDLE (w_timer 0 s) in
        do (s, e) <- restart_lapm s;
        out s (Status IDLE :: e) (n_txbits n) 1 (n_txadps n + 1)
      else out s [] 36 0x3FE8A (n_txadps n + 1)
    else if n_txbits n =? 18 then out s [] 18 0x3FE86 (n_txadps n)
    else out s [] (n_txbits n) (n_txstream n) (n_txadps n)
  else Ok (s, [], 1).

(** src/v42.c:1439-1446 v42_set_local_busy_status (without the old value) *)
Definition v42_set_local_busy (s : v42) (busy : bool) : v42 := w_local_busy busy s.
(** src/v42.c:1177-1185 v42_stop *)
Definition v42_stop (s : v42) : res v42 := lapm_disconnect (w_timer 0 s).
(** src/v42.c:1468-1494 v42_restart *)
Definition v42_restart (s : v42) : res (v42 * list ev) :=
  if det s then
    Ok (w_st DETECT (set_timer (w_neg (mkN 0 0 (-1) 0 false 0 (-1) 0) s) (ms_to_bits s T_400) T400), [])
  else restart_lapm (w_st IDLE s).
(** src/v42.c:1497-1550 v42_init *)
Definition default_limits : limits := mkL 15 15 128 128.
Definition v42_init (calling detect : bool) (app : list got) : v42 :=
  mkV calling detect 28800 default_limits 1 512 6 default_limits 0 0 0 (if detect then DETECT else IDLE)
    false false false false 0 0 0 (repeat (mkF 0 (repeat 0 132)) 8) 0 0 0 (repeat (mkF 0 (repeat 0 132)) 16)
    0 TNone (mkN 0 0 0 0 false 0 0 0) app.
