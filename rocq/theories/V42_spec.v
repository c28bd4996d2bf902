(** What is expected of V.42 LAP.M: two stations joined by two channels that keep frames in order but may lose them. *)
From Verif Require Import Base V42_model.

(** A station: the V.42 context, the frames on their way to it, what its application has been ready to send so far, and
    what has been delivered to its application. *)
Record node := mkNode { dev : v42; inbox : list (list Z); supplied : list got; delivered : list (list Z) }.

Fixpoint frames (e : list ev) : list (list Z) :=
  match e with [] => [] | Frame b :: t => b :: frames t | _ :: t => frames t end.
Fixpoint puts (e : list ev) : list (list Z) :=
  match e with [] => [] | Put d :: t => d :: puts t | _ :: t => puts t end.
(** The messages in the application's answers. *)
Fixpoint data (l : list got) : list (list Z) :=
  match l with [] => [] | Got (b :: d) :: t => (b :: d) :: data t | _ :: t => data t end.

(** What can happen at a station. *)
Inductive act :=
| Underflow                       (* its HDLC transmitter wants something to send *)
| Tick                            (* a bit time passes *)
| Deliver (memory : list Z)       (* the first frame on its way arrives; [memory] is what lies behind it in the buffer *)
| Lose                            (* the first frame on its way is lost *)
| Damaged (m : list Z) (len : Z)  (* the HDLC receiver reports a damaged frame *)
| Busy (b : bool)                 (* its application sets the local busy condition *)
| Supply (g : got)                (* its application gets one more answer ready for iframe_get *)
| Stop.                           (* its application closes the link *)

Definition emit (me peer : node) (r : v42 * list ev) : node * node :=
  let '(s, e) := r in
  (mkNode s (inbox me) (supplied me) (delivered me ++ puts e),
   mkNode (dev peer) (inbox peer ++ frames e) (supplied peer) (delivered peer)).
Definition with_dev (n : node) (s : v42) : node := mkNode s (inbox n) (supplied n) (delivered n).
Definition with_inbox (n : node) (q : list (list Z)) : node := mkNode (dev n) q (supplied n) (delivered n).

Definition happen (me peer : node) (a : act) : res (node * node) :=
  match a with
  | Underflow => do r <- lapm_hdlc_underflow (dev me); Ok (emit me peer r)
  | Tick => do r <- timer_tick (dev me); Ok (emit me peer r)
  | Deliver memory =>
    match inbox me with
    | [] => Ok (me, peer)
    | b :: rest =>
      do r <- lapm_receive (dev me) (b ++ memory) (Z.of_nat (length b)) true;
      Ok (emit (with_inbox me rest) peer r)
    end
  | Lose => Ok (with_inbox me (tl (inbox me)), peer)
  | Damaged m len => do r <- lapm_receive (dev me) m len false; Ok (emit me peer r)
  | Busy b => Ok (with_dev me (v42_set_local_busy (dev me) b), peer)
  | Supply g =>
    Ok (mkNode (w_app (app (dev me) ++ [g]) (dev me)) (inbox me) (supplied me ++ [g]) (delivered me), peer)
  | Stop => do s <- v42_stop (dev me); Ok (with_dev me s, peer)
  end.

(** [true]: it happens at the first station, [false]: at the second. *)
Definition step (ab : node * node) (x : bool * act) : res (node * node) :=
  let '(at_a, t) := x in
  let '(a, b) := ab in
  if at_a then happen a b t
  else do (b, a) <- happen b a t; Ok (a, b).
Fixpoint run (ab : node * node) (l : list (bool * act)) : res (node * node) :=
  match l with [] => Ok ab | x :: t => do ab <- step ab x; run ab t end.

(** An application gives at most the 128 octets iframe_get asks for. *)
Definition fits (x : bool * act) : Prop :=
  match snd x with Supply (Got d) => (length d <= 128)%nat | _ => True end.
Definition answers_fit (l : list got) : Prop :=
  Forall (fun g => match g with Got d => (length d <= 128)%nat | GotError => True end) l.

Definition prefix {A} (p l : list A) : Prop := exists rest, l = p ++ rest.

(** The buffers have their sizes. *)
Definition buffers_ok (s : v42) : Prop :=
  length (ctrl_buf s) = 8%nat /\ length (info_buf s) = 16%nat /\
  Forall (fun f => length (fbuf f) = 132%nat /\ 0 <= flen f <= 132) (ctrl_buf s) /\
  Forall (fun f => length (fbuf f) = 132%nat /\ 0 <= flen f <= 132) (info_buf s).

(** A station that has just got its connection: nothing sent, nothing received, nothing to be sent, the standard
    parameters, and T.401 or T.403 if a timer is running. *)
Definition connected (s : v42) : Prop :=
  st s = DATA /\ configuring s = false /\ cfg s = default_limits /\ lim s = default_limits /\
  vs s = 0 /\ va s = 0 /\ vr s = 0 /\ info_put s = 0 /\ info_get s = 0 /\ info_acked s = 0 /\
  0 <= ctrl_get s < 8 /\ ctrl_put s = ctrl_get s /\ buffers_ok s /\ answers_fit (app s) /\
  rate s = 28800 /\ 0 <= timer s /\ (timer s <> 0 -> tfunc s = T401 \/ tfunc s = T403).
Definition start (s : v42) : node := mkNode s [] (app s) [].

(** All that was given to the sender [x] has been accepted from the application and acknowledged. *)
Definition all_acknowledged (x : node) : Prop :=
  st (dev x) = DATA /\ info_acked (dev x) = info_put (dev x) /\ app (dev x) = [].

(** Nothing is lost and nobody hangs up. *)
Definition calm (x : bool * act) : Prop :=
  match snd x with Underflow | Tick | Deliver _ => True | Supply (Got _) => True | _ => False end.

(** ---- one station and any peer ---- *)
(** All that can be done to a context: the HDLC receiver reports the [len] octets at the front of its buffer [m] (or a
    status, when [len] is negative), the HDLC transmitter wants something to send, a bit time passes, a bit is received or
    asked for during the detection of a V.42 peer, and the application's calls. *)
Inductive input :=
| InFrame (m : list Z) (len : Z) (ok : bool) | InUnderflow | InTick | InNegRx (bit : Z) | InNegTx
| InBusy (b : bool) | InSupply (g : got) | InRestart | InStop.
Definition no_ev (r : res v42) : res (v42 * list ev) := do s <- r; Ok (s, []).
Definition react (s : v42) (i : input) : res (v42 * list ev) :=
  match i with
  | InFrame m len ok => lapm_receive s m len ok
  | InUnderflow => lapm_hdlc_underflow s
  | InTick => timer_tick s
  | InNegRx bit => negotiation_rx_bit s bit
  | InNegTx => do (s, e, _) <- negotiation_tx_bit s; Ok (s, e)
  | InBusy b => Ok (v42_set_local_busy s b, [])
  | InSupply g => Ok (w_app (app s ++ [g]) s, [])
  | InRestart => v42_restart s
  | InStop => no_ev (v42_stop s)
  end.
Fixpoint react_all (s : v42) (l : list input) : res (v42 * list ev) :=
  match l with
  | [] => Ok (s, [])
  | i :: t => do (s, e) <- react s i; do (s, e') <- react_all s t; Ok (s, e ++ e')
  end.
(** The HDLC receiver's buffer has 404 octets, of which the last two of a frame are its check sequence; and the
    application gives no more than it is asked for. *)
Definition possible (i : input) : Prop :=
  match i with
  | InFrame m len _ => length m = 404%nat /\ bytes m /\ len <= 402
  | InSupply (Got d) => (length d <= 128)%nat
  | _ => True
  end.
(** A frame reported as good has at least an address, a control field and an N(R), as all but U frames must. *)
Definition long_enough (i : input) : Prop := match i with InFrame _ len true => len < 0 \/ 3 <= len | _ => True end.
Definition no_put_status (e : list ev) : Prop := forall n, ~ In (PutStatus n) e.

(** ---- XID frames as V.42 wants them (ISO/IEC 8885) ---- *)
(** Parameters: an identifier, a length, and that many octets of value. *)
Fixpoint parse_params (fuel : nat) (l : list Z) : option (list (Z * list Z)) :=
  match fuel, l with
  | _, [] => Some []
  | S k, id :: n :: t =>
    if Z.of_nat (length t) <? n then None
    else match parse_params k (skipn (Z.to_nat n) t) with
         | Some r => Some ((id, firstn (Z.to_nat n) t) :: r)
         | None => None
         end
  | _, _ => None
  end.
(** Groups: an identifier, a length of two octets, and parameters. *)
Fixpoint parse_groups (fuel : nat) (l : list Z) : option (list (Z * list (Z * list Z))) :=
  match fuel, l with
  | _, [] => Some []
  | S k, id :: h :: n :: t =>
    let n := 256 * h + n in
    if Z.of_nat (length t) <? n then None
    else match parse_params (length t) (firstn (Z.to_nat n) t), parse_groups k (skipn (Z.to_nat n) t) with
         | Some p, Some r => Some ((id, p) :: r)
         | _, _ => None
         end
  | _, _ => None
  end.
Definition parse_xid (l : list Z) : option (list (Z * list (Z * list Z))) :=
  match l with _ :: 0xAF :: 0x82 :: t => parse_groups (length t) t | _ => None end.
(** What transmit_xid sets out to say with the standard parameters. *)
Definition xid_meant : list (Z * list (Z * list Z)) :=
  [(0x80, [(3, [0x8A; 0x89; 0; 0]); (5, [4; 0]); (6, [4; 0]); (7, [15]); (8, [15])]);
   (0xF0, [(0, [86; 52; 50]); (1, [1]); (2, [2; 0]); (3, [6])])].

(** ---- the detection of a V.42 peer (V.42, 7.2.1) ---- *)
Definition ones (k : nat) : list bool := repeat true k.
Definition bits_of (l : list Z) : list bool := map (fun x => x =? 1) l.
Definition DC1_even := bits_of [0; 1; 0; 0; 0; 1; 0; 0; 0; 1].
Definition DC1_odd := bits_of [0; 1; 0; 0; 0; 1; 0; 0; 1; 1].
Definition CHR_E := bits_of [0; 1; 0; 1; 0; 0; 0; 1; 0; 1].
Definition CHR_C := bits_of [0; 1; 1; 0; 0; 0; 0; 1; 0; 1].
Definition CHR_NUL := bits_of [0; 0; 0; 0; 0; 0; 0; 0; 0; 1].
Definition pattern (c1 c2 : list bool) (k k' : nat) : list bool := c1 ++ ones k ++ c2 ++ ones k'.
Definition odp := pattern DC1_even DC1_odd.
Definition adp := pattern CHR_E CHR_C.
Definition adp_no_v42 := pattern CHR_E CHR_NUL.

Fixpoint rx_bits (s : v42) (l : list bool) : res (v42 * list ev) :=
  match l with
  | [] => Ok (s, [])
  | b :: t => do (s, e) <- negotiation_rx_bit s (Z.b2z b); do (s, e') <- rx_bits s t; Ok (s, e ++ e')
  end.
Fixpoint tx_bits (s : v42) (n : nat) : res (v42 * list ev * list bool) :=
  match n with
  | O => Ok (s, [], [])
  | S k => do (s, e, b) <- negotiation_tx_bit s; do (s, e', l) <- tx_bits s k; Ok (s, e ++ e', (b =? 1) :: l)
  end.
(** A context at the beginning of the detection: as left by v42_restart. *)
Definition detecting (s : v42) : Prop := st s = DETECT /\ neg s = mkN 0 0 (-1) 0 false 0 (-1) 0.

(** A pattern as the receivers take it: 7 to 15 ones behind a character; for a caller ([true]) either answer. *)
Definition okk (k : nat) : Prop := (7 <= k <= 15)%nat.
Definition firstc (c : bool) := if c then CHR_E else DC1_even.
Definition secondc (c : bool) (l : list bool) : Prop := if c then l = CHR_C \/ l = CHR_NUL else l = DC1_odd.
Definition whole (c : bool) (l : list bool) : Prop :=
  exists k k' c2, okk k /\ okk k' /\ secondc c c2 /\ l = firstc c ++ ones k ++ c2 ++ ones k'.

(** ---- setting up a link ---- *)
(** Both as left by v42_restart; 384 bit times pass at the caller before it sends its XID; frames then go to and fro. *)
Definition sx (c : bool) (a : list got) : v42 := match v42_restart (v42_init c false a) with Ok (s, _) => s | UB => v42_init c false a end.
Definition A := true.
Definition B := false.
Definition ticks (w : bool) (n : nat) : list (bool * act) := repeat (w, Tick) n.
Definition swap : list (bool * act) := [(A, Underflow); (B, Deliver []); (B, Underflow); (A, Deliver [])].
Definition est : list (bool * act) := ticks A 384 ++ swap ++ swap.
