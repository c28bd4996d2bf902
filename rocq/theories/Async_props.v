(** Properties C12 and C13: src/async.c *)
From Verif Require Import Base Async_model Async_spec Async_proofs.

(** A configuration whose characters fit the 16 bit frame register. *)
Example legal_means c : legal c <-> 1 <= data_bits c /\ Z.of_nat (nbits c) <= 15.
Proof. reflexivity. Qed.

(** C12: everything the source supplies (characters and reportable line states, with any presend and idle periods in
    between) reaches the receiver's application, in order and without errors, once enough bit times have passed... *)
Theorem async_link_delivers_everything :
  forall c stop src, legal c -> 1 <= stop -> Z.of_nat (nbits c) + stop <= 16 ->
    exists n0, forall n, (n0 <= n)%nat -> exists t r,
      link c stop src n = Ok (t, [], r, flat_map (fun i => expected (data_bits c) (snd i)) src) /\ r_perr r = 0 /\ r_ferr r = 0.
Proof. exact link_done. Qed.
Print Assumptions async_link_delivers_everything.
(** ... and at every earlier moment what has been delivered is a prefix of it. *)
Theorem async_link_never_wrong :
  forall c stop src n, legal c -> 1 <= stop -> Z.of_nat (nbits c) + stop <= 16 ->
    exists t src' r o rest, link c stop src n = Ok (t, src', r, o) /\
      flat_map (fun i => expected (data_bits c) (snd i)) src = o ++ rest /\ r_perr r = 0 /\ r_ferr r = 0.
Proof. exact link_prefix. Qed.
Print Assumptions async_link_never_wrong.
Example async_link_case : legal {| data_bits := 7; parity := 2; v14 := true |} /\
  exists t r, link {| data_bits := 7; parity := 2; v14 := true |} 2 [(Some 5, 0x41); (None, -17); (None, 0x1FF); (None, -7)] 40 =
    Ok (t, [], r, [0x41; 0x7F; -7]).
Proof. split; [unfold legal; cbn; lia|]. do 2 eexists. vm_compute. reflexivity. Qed.
(** More stop bits than the 16 bit register can hold are sent as zeros: characters are corrupted and lost. *)
Theorem async_many_stop_bits_refuted :
  exists t s r, link {| data_bits := 8; parity := 0; v14 := false |} 9 [(None, 0x41); (None, 0x42)] 60 = Ok (t, s, r, [0x41; 255]).
Proof. exact many_stop_bits. Qed.
Print Assumptions async_many_stop_bits_refuted.

(** C13: on any bit stream whatsoever the receiver is exactly the specified line splitter: what it delivers and both
    error counts. *)
Theorem async_rx_any_stream_partial :
  forall c l, legal c -> (data_bits c <= 8 \/ (parity c <> 1 /\ parity c <> 2)) ->
    exists s, rx_run (async_rx_init (data_bits c) (parity c) (v14 c)) (map Z.b2z l) = Ok (s, chars (split_line c (length l) l)) /\
      r_perr s = count_perr (split_line c (length l) l) /\ r_ferr s = count_ferr (split_line c (length l) l).
Proof. exact rx_spec. Qed.
Print Assumptions async_rx_any_stream_partial.
Theorem async_rx_delivers_in_range :
  forall c, legal c -> (data_bits c <= 8 \/ (parity c <> 1 /\ parity c <> 2)) -> forall k l x,
    In x (chars (split_line c k l)) -> 0 <= x < 2 ^ data_bits c.
Proof. exact chars_range. Qed.
Print Assumptions async_rx_delivers_in_range.
(** Line states: six of them are reported and put the receiver back to hunting for a start bit; any other is ignored. *)
Theorem async_rx_status :
  forall s z, z < 0 -> async_rx_put_bit s z =
    if existsb (Z.eqb z) [-1; -2; -3; -4; -5; -7] then Ok (rx_set s 0 0, [z]) else Ok (s, []).
Proof. exact rx_status. Qed.
Print Assumptions async_rx_status.
(** Any stop bit deletion a V.14 sender may perform is undone (without V.14 at least one stop bit is needed). *)
Theorem async_rx_v14_stop_bit_deletion :
  forall c l, legal c -> (data_bits c <= 8 \/ (parity c <> 1 /\ parity c <> 2)) -> v14 c = true \/ Forall (fun p => snd p <> 0%nat) l ->
    exists s, rx_run (async_rx_init (data_bits c) (parity c) (v14 c)) (map Z.b2z (line_bits c l ++ [true])) =
        Ok (s, map (fun p => fst p mod 2 ^ data_bits c) l) /\ r_perr s = 0 /\ r_ferr s = 0.
Proof. exact rx_line. Qed.
Print Assumptions async_rx_v14_stop_bit_deletion.
Example async_rx_case : let c := {| data_bits := 5; parity := 1; v14 := false |} in
  split_line c 40 (map (Z.eqb 1) [1;0;1;0;1;1;0;1;1;0;1;0;1;1;0;0;1;0;1;1;1;0;0;0;0])
    = [Char 13; ParityError; FramingError].
Proof. vm_compute. reflexivity. Qed.
(** With nine data bits the parity bit leaves the ninth bit unprotected: its corruption is delivered as good. *)
Theorem async_nine_bit_parity_refuted :
  let c := {| data_bits := 9; parity := 1; v14 := false |} in
  exists x y s, x <> y /\ 0 <= y < 512 /\ 
    rx_run (async_rx_init 9 1 false) (map Z.b2z (upd (char_bits c x ++ [true]) 9 (Z.odd (Z.shiftr y 8)))) = Ok (s, [y]) /\ r_perr s = 0.
Proof. exact nine_bit_parity. Qed.
Print Assumptions async_nine_bit_parity_refuted.
