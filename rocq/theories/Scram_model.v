(** Model of the modem scramblers and descramblers, and of the bit to symbol
    mappings around them.

    src/v17tx.c 109-118, src/v17rx.c 343-357          V.17 (and V.32bis taps)
    src/v34tx.c 334-342, 3209-3218, src/v34rx.c 170-179  V.34
    src/v29tx.c 103-124 and 173-177, 180-221, src/v29rx.c 350-376, 397-467   V.29
    src/v27ter_tx.c 103-125, 200-253, src/v27ter_rx.c 377-411, 437-479       V.27ter
    src/v22bis_tx.c 413-432, 600-625, src/v22bis_rx.c 307-328, 340-357       V.22bis

    The registers are uint32_t fields.  The modulator, the equalizer and the
    choice of the nearest constellation point are not modelled: the receiver is
    given the index of the constellation point, perhaps rotated by a constant. *)
From Verif Require Import Base.
Local Open Scope Z_scope.

(** (reg << 1) | bit, stored in a uint32_t. *)
Definition shift_in (reg b : Z) : Z := u32 (Z.lor (Z.shiftl reg 1) b).
(** (in_bit ^ (reg >> t1) ^ (reg >> t2)) & 1 *)
Definition tapped (in_bit reg t1 t2 : Z) : Z :=
  Z.land (Z.lxor (Z.lxor in_bit (Z.shiftr reg t1)) (Z.shiftr reg t2)) 1.

(** A step function run over a list of bits. *)
Fixpoint run {S} (step : S -> Z -> Z * S) (s : S) (l : list Z) : list Z * S :=
  match l with
  | [] => ([], s)
  | b :: t => let (o, s1) := step s b in let (os, s2) := run step s1 t in (o :: os, s2)
  end.

(** ---- V.17 ---- *)
Definition v17_scramble (tap : Z) (reg in_bit : Z) : Z * Z :=
  let out_bit := tapped in_bit reg tap 22 in
  (out_bit, shift_in reg out_bit).
(** enum of training stages in v17rx.c 134-149 *)
Definition V17_NORMAL := 0.
Definition V17_TCM_WINDUP := 10.
Definition v17_descramble (stage tap : Z) (reg in_bit : Z) : Z * Z :=
  let in_bit := Z.land in_bit 1 in
  let out_bit := tapped in_bit reg tap 22 in
  (out_bit, if (V17_NORMAL <? stage) && (stage <? V17_TCM_WINDUP)
            then shift_in reg out_bit else shift_in reg (Z.land in_bit 1)).

(** ---- V.34: no masking of the received bit ---- *)
Definition v34_scramble := v17_scramble.
Definition v34_descramble (tap : Z) (reg in_bit : Z) : Z * Z :=
  (tapped in_bit reg tap 22, shift_in reg in_bit).
Definition v34_tx_tap (calling_party : bool) : Z := if calling_party then 17 else 4.
Definition v34_rx_tap (calling_party : bool) : Z := if calling_party then 4 else 17.

(** ---- V.29 ---- *)
Definition v29_scramble (reg in_bit : Z) : Z * Z :=
  let out_bit := tapped in_bit reg 17 22 in
  (out_bit, shift_in reg out_bit).
Definition v29_descramble (reg in_bit : Z) : Z * Z :=
  let in_bit := Z.land in_bit 1 in
  (tapped in_bit reg 17 22, shift_in reg in_bit).
(** The training sequence generators; the register is a uint8_t. *)
Definition v29_tx_training_bit (reg : Z) : Z * Z :=
  let bit := Z.land reg 1 in
  let reg := Z.shiftr reg 1 in
  (bit, u8 (Z.lor reg (Z.shiftl (Z.land (Z.lxor bit reg) 1) 6))).
Definition v29_rx_training_bit (reg : Z) : Z * Z :=
  let bit := Z.land reg 1 in
  let reg := Z.shiftr reg 1 in
  (bit, if negb (Z.lxor bit (Z.land reg 1) =? 0) then u8 (Z.lor reg 64) else reg).

(** ---- V.27ter: the state is (scramble_reg, scrambler_pattern_count) ---- *)
Definition v27_differs (reg b : Z) : bool :=
  negb (Z.land (Z.land (Z.land (Z.lxor (Z.shiftr reg 7) b) (Z.lxor (Z.shiftr reg 8) b))
                       (Z.lxor (Z.shiftr reg 11) b)) 1 =? 0).
Definition v27_scramble (s : Z * Z) (in_bit : Z) : Z * (Z * Z) :=
  let (reg, count) := s in
  let out_bit := tapped in_bit reg 5 6 in
  let '(out_bit, count) :=
    if 33 <=? count then (Z.lxor out_bit 1, 0)
    else (out_bit, if v27_differs reg out_bit then 0 else count + 1) in
  (out_bit, (shift_in reg out_bit, count)).
(** enum of training stages in v27ter_rx.c 111-120 *)
Definition V27_NORMAL := 0.
Definition V27_TRAIN_ON_ABAB := 4.
Definition V27_TEST_ONES := 5.
Definition v27_descramble (stage : Z) (s : Z * Z) (in_bit : Z) : Z * (Z * Z) :=
  let (reg, count) := s in
  let training := (V27_NORMAL <? stage) && (stage <? V27_TEST_ONES) in
  let in_bit := Z.land in_bit 1 in
  let out_bit := tapped in_bit reg 5 6 in
  let '(out_bit, count) :=
    if 33 <=? count then (Z.lxor out_bit 1, 0)
    else (out_bit, if training then 0 else if v27_differs reg in_bit then 0 else count + 1) in
  (out_bit, (if training then shift_in reg out_bit else shift_in reg in_bit, count)).

(** ---- V.22bis ---- *)
Definition v22_scramble (s : Z * Z) (bit : Z) : Z * (Z * Z) :=
  let (reg, count) := s in
  let '(bit, count) := if 64 <=? count then (Z.lxor bit 1, 0) else (bit, count) in
  let out_bit := tapped bit reg 13 16 in
  (out_bit, (shift_in reg out_bit, if out_bit =? 1 then count + 1 else 0)).
Definition v22_descramble (s : Z * Z) (bit : Z) : Z * (Z * Z) :=
  let (reg, count) := s in
  let bit := Z.land bit 1 in
  let out_bit := tapped bit reg 13 16 in
  let reg := shift_in reg bit in
  let '(out_bit, count) := if 64 <=? count then (Z.lxor out_bit 1, 0) else (out_bit, count) in
  (out_bit, (reg, if negb (bit =? 0) then count + 1 else 0)).

(** ---- bits to symbols ----
    A transmitter's getbaud takes the bits of one symbol; they go through the
    scrambler one by one, first bit most significant. *)
Definition msb_first (l : list Z) : Z := fold_left (fun a b => Z.lor (Z.shiftl a 1) b) l 0.
Definition tab (t : list Z) (i : Z) : Z := nth (Z.to_nat i) t 0.

(** V.27ter and V.29 share their tables. *)
Definition tx_steps_8 : list Z := [1; 0; 2; 3; 6; 7; 5; 4].
Definition tx_steps_4 : list Z := [0; 2; 6; 4].
Definition rx_steps_8 : list Z := [4; 0; 2; 6; 7; 3; 1; 5].
Definition rx_steps_4 : list Z := [0; 2; 3; 1].

(** v27ter_tx.c getbaud, outside training; [eight] for 4800 bps (3 bits a symbol),
    otherwise 2400 bps (2 bits).  Returns the constellation index. *)
Definition v27_tx_symbol (eight : bool) (cs : Z) (line : list Z) : Z :=
  Z.land (cs + tab (if eight then tx_steps_8 else tx_steps_4) (msb_first line)) 7.
(** v27ter_rx.c decode_baud: the line bits.  At 2400 bps the receiver's indices
    count quadrants. *)
Definition v27_rx_symbol (eight : bool) (cs nearest : Z) : list Z :=
  if eight
  then let raw := tab rx_steps_8 (Z.land (nearest - cs) 7) in [raw; Z.shiftr raw 1; Z.shiftr raw 2]
  else let raw := tab rx_steps_4 (Z.land (nearest - cs) 3) in [raw; Z.shiftr raw 1].

Inductive v29_rate := R9600 | R7200 | R4800.
(** v29tx.c getbaud outside training: the new constellation state, and the index
    with the amplitude bit. *)
Definition v29_tx_symbol (rate : v29_rate) (cs : Z) (line : list Z) : Z * Z :=
  match rate, line with
  | R9600, a :: bits =>
      let cs := Z.land (cs + tab tx_steps_8 (msb_first bits)) 7 in
      (cs, Z.lor (if a =? 0 then 0 else 8) cs)
  | R4800, bits => let cs := Z.land (cs + tab tx_steps_4 (msb_first bits)) 7 in (cs, cs)
  | _, bits => let cs := Z.land (cs + tab tx_steps_8 (msb_first bits)) 7 in (cs, cs)
  end.
(** v29rx.c decode_baud, from the nearest point (for 4800 bps: quadrant << 1). *)
Definition v29_rx_symbol (rate : v29_rate) (cs nearest : Z) : list Z * Z :=
  match rate with
  | R4800 =>
      let raw := tab rx_steps_4 (Z.land (Z.shiftr (nearest - cs) 1) 3) in
      ([raw; Z.shiftr raw 1], nearest)
  | R9600 =>
      let raw := tab rx_steps_8 (Z.land (nearest - cs) 7) in
      ([Z.shiftr nearest 3; raw; Z.shiftr raw 1; Z.shiftr (Z.shiftr raw 1) 1], nearest)
  | R7200 =>
      let nearest := Z.land nearest 7 in
      let raw := tab rx_steps_8 (Z.land (nearest - cs) 7) in
      ([raw; Z.shiftr raw 1; Z.shiftr (Z.shiftr raw 1) 1], nearest)
  end.

(** Whole transmitters and receivers, symbol by symbol. *)
Fixpoint v27_tx (eight : bool) (s : Z * Z) (cs : Z) (data : list (list Z)) : list Z :=
  match data with
  | [] => []
  | bits :: t =>
      let (line, s) := run v27_scramble s bits in
      let cs := v27_tx_symbol eight cs line in
      cs :: v27_tx eight s cs t
  end.
Fixpoint v27_rx (eight : bool) (s : Z * Z) (cs : Z) (syms : list Z) : list (list Z) :=
  match syms with
  | [] => []
  | nearest :: t =>
      let (out, s) := run (v27_descramble V27_NORMAL) s (v27_rx_symbol eight cs nearest) in
      out :: v27_rx eight s nearest t
  end.
Fixpoint v29_tx (rate : v29_rate) (reg cs : Z) (data : list (list Z)) : list Z :=
  match data with
  | [] => []
  | bits :: t =>
      let (line, reg) := run v29_scramble reg bits in
      let (cs, sym) := v29_tx_symbol rate cs line in
      sym :: v29_tx rate reg cs t
  end.
Fixpoint v29_rx (rate : v29_rate) (reg cs : Z) (syms : list Z) : list (list Z) :=
  match syms with
  | [] => []
  | nearest :: t =>
      let (line, cs) := v29_rx_symbol rate cs nearest in
      let (out, reg) := run v29_descramble reg line in
      out :: v29_rx rate reg cs t
  end.

(** V.22bis: 2 bits a symbol at 1200 bps, 4 at 2400 bps (sixteen_way_decisions).
    The index sent is (constellation_state << 2) | bits. *)
Definition v22_steps : list Z := [1; 0; 2; 3].
Definition v22_tx_symbol (sixteen : bool) (cs : Z) (line : list Z) : Z * Z :=
  match line with
  | a :: b :: rest =>
      let cs := Z.land (cs + tab v22_steps (msb_first [a; b])) 3 in
      (cs, Z.lor (Z.shiftl cs 2) (if sixteen then msb_first rest else 1))
  | _ => (cs, 0)
  end.
Definition v22_rx_symbol (sixteen : bool) (state nearest : Z) : list Z :=
  let raw := tab v22_steps (Z.land (Z.shiftr nearest 2 - Z.shiftr state 2) 3) in
  [Z.shiftr raw 1; raw] ++ (if sixteen then [Z.shiftr nearest 1; nearest] else []).
Fixpoint v22_tx (sixteen : bool) (s : Z * Z) (cs : Z) (data : list (list Z)) : list Z :=
  match data with
  | [] => []
  | bits :: t =>
      let (line, s) := run v22_scramble s bits in
      let (cs, sym) := v22_tx_symbol sixteen cs line in
      sym :: v22_tx sixteen s cs t
  end.
Fixpoint v22_rx (sixteen : bool) (s : Z * Z) (state : Z) (syms : list Z) : list (list Z) :=
  match syms with
  | [] => []
  | nearest :: t =>
      let (out, s) := run v22_descramble s (v22_rx_symbol sixteen state nearest) in
      out :: v22_rx sixteen s nearest t
  end.

(** A whole V.27ter session at the bit level (v27ter_tx.c 184-229, v27ter_rx.c 648-735): 1074 symbols of training (3 bits each, ones through the
    scrambler; the receiver makes its own copy), 8 symbols of test ones, data. *)
Definition ones (n : Z) : list Z := repeat 1 (Z.to_nat n).
Definition v27_session (eight : bool) (data : list Z) : list Z :=
  let tx := snd (run v27_scramble (60, 0) (ones 3222)) in
  let rx := snd (run (v27_descramble V27_TRAIN_ON_ABAB) (60, 0) (ones 3222)) in
  let test := run v27_scramble tx (ones (8 * (if eight then 3 else 2))) in
  let rx := snd (run (v27_descramble V27_TEST_ONES) rx (fst test)) in
  fst (run (v27_descramble V27_NORMAL) rx (fst (run v27_scramble (snd test) data))).
