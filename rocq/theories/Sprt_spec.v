(** SPRT: one end on its own, and two ends joined by a network that may lose, delay, repeat and reorder packets. *)
From Verif Require Import Base Sprt_model.
Local Open Scope Z_scope.

(** messages: the channel and the octets *)
Definition message : Type := Z * list Z.
Definition on (ch : Z) (l : list message) : list (list Z) := map snd (filter (fun m => fst m =? ch) l).

(** what a call handed to the callbacks *)
Definition packets (e : list ev) : list (list Z) := flat_map (fun x => match x with Packet b => [b] | _ => [] end) e.
Definition delivered (e : list ev) : list message := flat_map (fun x => match x with Deliver ch _ p => [(ch, p)] | _ => [] end) e.
Definition statuses (e : list ev) : list Z := flat_map (fun x => match x with Status c => [c] | _ => [] end) e.
Definition gave_up (e : list ev) : bool := existsb (fun c => c =? EXCESS_RETRIES) (statuses e).

(** A fresh context, with any parameters set that may be set. *)
Fixpoint set_all (s : sprt) (l : list setting) : option sprt :=
  match l with [] => Some s | x :: t => match set_parm s x with Some s => set_all s t | None => None end end.
Definition start (sub rxpt txpt : Z) (l : list setting) : option sprt :=
  match sprt_init sub rxpt txpt None with Some s => set_all s l | None => None end.

(** What the user of a context can do: [Script] says what the application will do at its next deliveries. *)
Inductive call :=
| Send (ch : Z) (p : list Z)
| Expire
| Busy (ch : Z) (b : bool)
| Take (pkt : list Z)
| Script (l : list (list (Z * bool))).
Definition react (s : sprt) (now : Z) (a : call) : res (sprt * list ev * Z) :=
  match a with
  | Send ch p => sprt_tx s now ch p
  | Expire => do (s, e) <- sprt_timer_expired s now; Ok (s, e, 0)
  | Busy ch b => do (s, e) <- set_local_busy s ch b; Ok (s, e, 0)
  | Take pkt => sprt_rx_packet s now pkt
  | Script l => Ok (w_script l s, [], 0)
  end.
Fixpoint react_all (s : sprt) (l : list (Z * call)) : res (sprt * list ev) :=
  match l with
  | [] => Ok (s, [])
  | (now, a) :: t => do (s, e, _) <- react s now a; do (s, e') <- react_all s t; Ok (s, e ++ e')
  end.

(** ---- two ends ---- *)
(** [accepted]: what sprt_tx took; [got]: what was delivered; both from the start and in that order *)
Record node := mkNode { dev : sprt; accepted : list message; got : list message; problem : bool }.
(** A packet, with what each end had accepted when it was sent. *)
Record sent := mkSent { octets : list Z; own : list message; peers : list message }.
Record world := mkWorld { one : node; two : node; from_one : list sent; from_two : list sent }.

Inductive act :=
| Does (c : call)             (* a call that is not the arrival of a packet *)
| Arrives (k : nat).          (* the packet that the other end sent as its [k]th arrives *)
(** at which end, when, what *)
Definition happening : Type := bool * Z * act.

(** A packet does not arrive any more after 4096 further messages on a channel. *)
Definition recent (m : sent) (mine yours : list message) : bool :=
  forallb (fun ch => (Z.of_nat (length (on ch yours)) - Z.of_nat (length (on ch (own m))) <=? 4096) &&
                     (Z.of_nat (length (on ch mine)) - Z.of_nat (length (on ch (peers m))) <=? 4096)) [1; 2].
Definition does (x y : node) (hx : list sent) (now : Z) (a : call) : res (node * list sent) :=
  do (s, e, r) <- react (dev x) now a;
  let acc := match a with Send ch p => if r =? 0 then accepted x ++ [(ch, p)] else accepted x | _ => accepted x end in
  Ok (mkNode s acc (got x ++ delivered e) (problem x || gave_up e),
      hx ++ map (fun b => mkSent b acc (accepted y)) (packets e)).
Definition happens (x y : node) (hx hy : list sent) (now : Z) (a : act) : res (node * list sent) :=
  match a with
  | Does (Take _) => Ok (x, hx)
  | Does c => does x y hx now c
  | Arrives k =>
      match nth_error hy k with
      | Some m => if recent m (accepted x) (accepted y) then does x y hx now (Take (octets m)) else Ok (x, hx)
      | None => Ok (x, hx)
      end
  end.
Definition step (w : world) (h : happening) : res world :=
  let '(at_one, now, a) := h in
  if at_one : bool then do (x, hx) <- happens (one w) (two w) (from_one w) (from_two w) now a; Ok (mkWorld x (two w) hx (from_two w))
  else do (y, hy) <- happens (two w) (one w) (from_two w) (from_one w) now a; Ok (mkWorld (one w) y (from_one w) hy).
Fixpoint run (w : world) (l : list happening) : res world :=
  match l with [] => Ok w | h :: t => do w <- step w h; run w t end.

(** Two ends that fit together. *)
Definition joined (sub1 sub2 pt1 pt2 : Z) (l1 l2 : list setting) : option world :=
  match start sub1 pt1 pt2 l1, start sub2 pt2 pt1 l2 with
  | Some a, Some b => Some (mkWorld (mkNode a [] [] false) (mkNode b [] [] false) [] [])
  | _, _ => None
  end.

Definition prefix {A} (l m : list A) : Prop := exists t, m = l ++ t.
(** nothing is waiting for an acknowledgement on a channel *)
Definition all_acknowledged (s : sprt) (ch : Z) : Prop := Forall (fun b => b = None) (t_buf (tx s ch)).
(** the end takes messages on a channel and has nothing to deliver later *)
Definition open (s : sprt) (ch : Z) : Prop := r_busy (rx s ch) = false /\ immediate s = false.

(** The results of sending messages one after another, with nothing else happening. *)
Fixpoint sends (s : sprt) (ch : Z) (l : list (Z * list Z)) : res (list Z) :=
  match l with [] => Ok [] | (now, p) :: t => do (s, _, r) <- sprt_tx s now ch p; do rs <- sends s ch t; Ok (r :: rs) end.
(** sprt_get_far_tc_windows_size and sprt_get_far_tc_payload_bytes *)
Definition far_window (s : sprt) (ch : Z) : Z := t_win (tx s ch).
Definition far_payload (s : sprt) (ch : Z) : Z := t_max (tx s ch).
