(** Specification for V.8: messages as bits on the line, what they say, and two ends joined by a line. *)
From Verif Require Import Base V8_model.
Local Open Scope Z_scope.

(** ---- bits on the line ---- *)
(** An octet between a start bit and a stop bit. *)
Definition framed (o : Z) : list bool := [false] ++ bits_lsb 8 o ++ [true].
(** Ten ones, a synchronisation octet, and octets. *)
Definition ten_ones : list bool := repeat true 10.
Definition sync_octet (t : sync) : option Z :=
  match t with SYNC_CI => Some 0x00 | SYNC_CM_JM => Some 0xE0 | SYNC_V92 => Some 0x55 | SYNC_UNKNOWN => None end.
Definition message (o : Z) (octets : list Z) : list bool := ten_ones ++ flat_map framed (o :: octets).
(** [l] ends with a preamble and the synchronisation octet of [t]. *)
Definition ends_in_sync (l : list bool) (t : sync) : Prop := exists a o, sync_octet t = Some o /\ l = a ++ ten_ones ++ framed o.
(** The octets heard in a string of bits: one is heard at its stop bit when the nine bits before it, none of them part of
    an octet heard before, are a start bit and eight bits of data. *)
Definition hear (p : list bool * list Z) (b : bool) : list bool * list Z :=
  let '(pending, heard) := p in
  match b :: rev pending with
  | true :: b7 :: b6 :: b5 :: b4 :: b3 :: b2 :: b1 :: b0 :: false :: _ => ([], heard ++ [of_bits_lsb [b0; b1; b2; b3; b4; b5; b6; b7]])
  | _ => (pending ++ [b], heard)
  end.
Definition octets_heard (l : list bool) : list Z := snd (fold_left hear l ([], [])).
(** From the end of one synchronisation octet to the end of the next ([x], with no other in between) a message is heard:
    the last bit of [x] makes it part of the next synchronisation octet; 63 octets at most are kept. *)
Definition heard_message (before x : list bool) (next : sync) (d : list Z) : Prop :=
  ends_in_sync (before ++ x) next /\ x <> [] /\
  (forall y z t, x = y ++ z -> y <> [] -> z <> [] -> ~ ends_in_sync (before ++ y) t) /\ d = firstn 63 (octets_heard (removelast x)).

(** The octets [d] of two CM or JM messages, the last one ending [hist], with no CM or JM between them. *)
Definition twice (hist : list bool) (d : list Z) : Prop :=
  exists b1 x1 t1 mid x2 t2, hist = b1 ++ x1 ++ mid ++ x2 /\ d <> [] /\
    ends_in_sync b1 SYNC_CM_JM /\ heard_message b1 x1 t1 d /\ ends_in_sync (b1 ++ x1 ++ mid) SYNC_CM_JM /\ heard_message (b1 ++ x1 ++ mid) x2 t2 d /\
    (forall y z, mid = y ++ z -> z <> [] -> ~ ends_in_sync (b1 ++ x1 ++ y) SYNC_CM_JM).

(** ---- what a message says ---- *)
(** An octet with 010 in bits 5-3 continues the octet before. *)
Definition continues (o : Z) : bool := negb (Z.testbit o 5) && Z.testbit o 4 && negb (Z.testbit o 3).
Definition items (l : list Z) : list (Z * list Z) :=
  snd (fold_right (fun o p => let '(more, its) := p in if continues o then (o :: more, its) else ([], (o, more) :: its)) ([], []) l).
Fixpoint before_zero (l : list Z) : list Z := match l with [] => [] | o :: t => if o =? 0 then [] else o :: before_zero t end.
(** octet of the modulation item, bit of the octet, bit of the modulations *)
Definition modulation_bits : list (nat * Z * Z) :=
  [(0%nat, 5, 12); (0%nat, 6, 11); (0%nat, 7, 10);
   (1%nat, 0, 9); (1%nat, 1, 2); (1%nat, 2, 0); (1%nat, 6, 8); (1%nat, 7, 7);
   (2%nat, 0, 6); (2%nat, 1, 5); (2%nat, 2, 4); (2%nat, 6, 3); (2%nat, 7, 1)].
Definition modulations_said (octets : list Z) : Z :=
  fold_right (fun e v => let '(i, b, m) := e in (if Z.testbit (nth i octets 0) b then 2 ^ m else 0) + v) 0 modulation_bits.
(** The lower five bits of an octet are a tag, the upper three a value. *)
Definition say (c : caps) (it : Z * list Z) : caps :=
  let v := fst it / 32 in
  match fst it mod 32 with
  | 1 => w_call v c
  | 5 => w_mods (modulations_said (fst it :: snd it)) c
  | 10 => w_prot v c
  | 13 => w_pstn v c
  | 7 => w_pcm v c
  | 14 => w_t66 v c
  | _ => c
  end.
Definition said (c : caps) (d : list Z) : caps := fold_left say (items (before_zero d)) (w_mods 0 c).
(** The octet the decoder cannot get past. *)
Definition is_nsf (o : Z) : Prop := o mod 32 = 15.
(** No ten bits are a frame of one. *)
Definition no_nsf_frame (l : list bool) : Prop := forall x o z, byte o -> is_nsf o -> l <> x ++ framed o ++ z.

(** What the far end is told: 13 modulations are known, and other values have three bits; those not sent are 0, or -1. *)
Definition offer (m p : caps) : caps :=
  {| call_function := call_function m mod 8; modulations := modulations m mod 2 ^ 13; protocols := protocols p mod 8; pstn_access := pstn_access p mod 8;
     nsf := -1; pcm := pcm p mod 8; t66 := if t66 p <? 0 then -1 else t66 p mod 8 |}.
Definition nothing_said (c : caps) : Prop := protocols c = 0 /\ pstn_access c = 0 /\ nsf c = -1 /\ pcm c = 0 /\ t66 c = -1.

(** ---- one end ---- *)
Inductive act := Tx (n : nat) | Rx (len : Z) (bits : list bool) (t : tones) | Continue (p : parms).
Definition step (h : parms -> parms) (s : v8) (a : act) : res (v8 * list parms) :=
  match a with
  | Tx n => Ok (fst (v8_tx s n), [])
  | Rx len bits t => v8_rx h s len bits t
  | Continue p => Ok (v8_continue s p, [])
  end.
Fixpoint run (h : parms -> parms) (s : v8) (l : list act) : res (v8 * list parms) :=
  match l with
  | [] => Ok (s, [])
  | a :: t => do (s, e) <- step h s a; do (s, e') <- run h s t; Ok (s, e ++ e')
  end.
Definition bits_of (a : act) : list bool := match a with Rx _ bits _ => bits | _ => [] end.
(** the samples received *)
Definition elapsed (l : list act) : Z := fold_right (fun a v => match a with Rx len _ _ => len | _ => 0 end + v) 0 l.
Definition is_rx (a : act) : bool := match a with Rx _ _ _ => true | _ => false end.
(** Calls of v8_tx() and v8_rx() in turn. *)
Definition rounds (l : list (nat * (Z * list bool * tones))) : list act := flat_map (fun x => let '(n, (len, bits, t)) := x in [Tx n; Rx len bits t]) l.

(** ---- two ends ---- *)
(** Bits go from one end to the other in order and without loss; all else is arbitrary: the lengths of the blocks, how many bits
    arrive in one, what the tone detectors report. *)
Record line := { a : v8; b : v8; ab : list bool; ba : list bool; ea : list parms; eb : list parms }.
Inductive move := ATx (n : nat) | BTx (n : nat) | ARx (len : Z) (k : nat) (t : tones) | BRx (len : Z) (k : nat) (t : tones).
Definition line_step (ha hb : parms -> parms) (w : line) (m : move) : res line :=
  match m with
  | ATx n => let '(s, o) := v8_tx (a w) n in Ok {| a := s; b := b w; ab := ab w ++ o; ba := ba w; ea := ea w; eb := eb w |}
  | BTx n => let '(s, o) := v8_tx (b w) n in Ok {| a := a w; b := s; ab := ab w; ba := ba w ++ o; ea := ea w; eb := eb w |}
  | ARx len k t =>
      do (s, e) <- v8_rx ha (a w) len (firstn k (ba w)) t;
      Ok {| a := s; b := b w; ab := ab w; ba := skipn k (ba w); ea := ea w ++ e; eb := eb w |}
  | BRx len k t =>
      do (s, e) <- v8_rx hb (b w) len (firstn k (ab w)) t;
      Ok {| a := a w; b := s; ab := skipn k (ab w); ba := ba w; ea := ea w; eb := eb w ++ e |}
  end.
Fixpoint line_run (ha hb : parms -> parms) (w : line) (l : list move) : res line :=
  match l with [] => Ok w | m :: t => do w <- line_step ha hb w m; line_run ha hb w t end.
Definition dialled (pa pb : parms) : line := {| a := v8_init true pa; b := v8_init false pb; ab := []; ba := []; ea := []; eb := [] |}.
(** Handlers that look at the result only, and one that answers an offer by changing the capabilities. *)
Definition observer (h : parms -> parms) : Prop := forall p, jm_cm (h p) = jm_cm p.
Definition answers_offer (h : parms -> parms) : Prop := forall p, status p <> OFFERED -> jm_cm (h p) = jm_cm p.
