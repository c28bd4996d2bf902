(** What an asynchronous serial line carries, stated on lists of bits. *)
From Verif Require Import Base.

Record cfg := { data_bits : Z; parity : Z; v14 : bool }.
Definition nbits (c : cfg) : nat := Z.to_nat (if parity c =? 0 then data_bits c else data_bits c + 1).
(** A configuration whose characters fit the 16 bit frame register. *)
Definition legal (c : cfg) : Prop := 1 <= data_bits c /\ Z.of_nat (nbits c) <= 15.
Definition xor_all (l : list bool) : bool := fold_right xorb false l.
(** The parity bit which goes with data bits [d]: even = 1, odd = 2, mark = 3, otherwise space. *)
Definition parity_bit (c : cfg) (d : list bool) : bool :=
  if parity c =? 1 then xor_all d else if parity c =? 2 then negb (xor_all d) else (parity c =? 3).

Inductive ev := Char (x : Z) | ParityError | FramingError.
(** The verdict on the bits between the start and the stop bit. *)
Definition judge (c : cfg) (q : list bool) : ev :=
  if parity c =? 0 then Char (of_bits_lsb q)
  else let d := removelast q in
       if Bool.eqb (last q false) (parity_bit c d) then Char (of_bits_lsb d) else ParityError.
(** Splitting a line signal into characters: skip ones to a start bit, take the character, look at the stop bit.
    A zero there is a framing error, except with V.14 rate adaption where it is the next start bit. *)
Fixpoint split_line (c : cfg) (fuel : nat) (l : list bool) : list ev :=
  match fuel with
  | O => []
  | S k =>
    match l with
    | [] => []
    | true :: t => split_line c k t
    | false :: t =>
      let q := firstn (nbits c) t in
      match skipn (nbits c) t with
      | [] => []
      | true :: t => judge c q :: split_line c k t
      | false :: t => if v14 c then judge c q :: split_line c k (false :: t) else FramingError :: split_line c k t
      end
    end
  end.
Definition chars (l : list ev) : list Z := flat_map (fun e => match e with Char x => [x] | _ => [] end) l.
Definition count_perr (l : list ev) : Z := Z.of_nat (length (filter (fun e => match e with ParityError => true | _ => false end) l)).
Definition count_ferr (l : list ev) : Z := Z.of_nat (length (filter (fun e => match e with FramingError => true | _ => false end) l)).

(** What the receiving application should see for one value supplied to the transmitter: the character cut to its
    data bits, or the line status if it is one the receiver reports, or nothing. *)
Definition expected (dbits : Z) (v : Z) : list Z :=
  if 0 <=? v then [v mod 2 ^ dbits]
  else if existsb (Z.eqb v) [-1; -2; -3; -4; -5; -7] then [v] else [].
(** A character on the line: start bit, data, parity. *)
Definition char_bits (c : cfg) (x : Z) : list bool :=
  let d := bits_lsb (Z.to_nat (data_bits c)) x in
  false :: d ++ (if parity c =? 0 then [] else [parity_bit c d]).
(** Characters on a V.14 line: any number of stop bits after each, including none. *)
Definition line_bits (c : cfg) (l : list (Z * nat)) : list bool := flat_map (fun p => char_bits c (fst p) ++ repeat true (snd p)) l.
