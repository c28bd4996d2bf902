(** Properties of ADSI (caller ID and TDD). *)
From Verif Require Import Base Crc_spec Adsi_model Adsi_spec Adsi_line_proofs Adsi_tdd_proofs Adsi_final_proofs.
Local Open Scope Z_scope.

(** C63: with any settings of the line signal a receiver can follow, any number of Bellcore (CLASS) or ETSI (CLIP,
    A-CLIP) messages of 2 to 255 octets, sent one after another as bits, come out of the receiver one for one: the
    message as given, its second octet holding the length. *)
Theorem adsi_delivery :
  forall std pre ones post stop r ms, (std = CLASS \/ std = CLIP \/ std = ACLIP) ->
    let t := adsi_tx_set_preamble (adsi_tx_init std) pre ones post stop in
    good_amble (t_pre t) (t_ones t) (t_post t) (t_stop t) -> at_rest r -> r_std r = std -> 0 <= r_ferr r < 2 ^ 30 ->
    Forall good_msg ms ->
    exists n, forall fuel, (n <= fuel)%nat -> exists t' r', session fuel t r ms = Ok (t', r', map with_length ms).
Proof. exact delivery_final. Qed.
Print Assumptions adsi_delivery.
(** Two messages with the default signal; and the default signal is one the theorem speaks of. *)
Example adsi_delivery_two :
  trip CLIP [[0x80; 0; 1; 2; 0x31; 0x32]; [4; 99; 0xFF; 0]] = Ok [[0x80; 4; 1; 2; 0x31; 0x32]; [4; 2; 0xFF; 0]] /\
  at_rest (adsi_rx_init CLIP) /\ good_amble 300 80 5 1 /\
  adsi_tx_set_preamble (adsi_tx_init CLIP) (-1) (-1) (-1) (-1) = adsi_tx_init CLIP.
Proof. split; [vm_compute; reflexivity|]. split; [apply init_rest|]. split; [unfold good_amble; lia|reflexivity]. Qed.

(** The same for J-CLIP, seven bit messages of up to 119 octets - but not of 18. *)
Theorem adsi_jclip_delivery_partial :
  forall pre ones post stop r ms,
    let t := adsi_tx_set_preamble (adsi_tx_init JCLIP) pre ones post stop in
    good_amble (t_pre t) (t_ones t) (t_post t) (t_stop t) -> at_rest r -> r_std r = JCLIP -> 0 <= r_ferr r < 2 ^ 30 ->
    Forall good_jmsg ms ->
    exists n, forall fuel, (n <= fuel)%nat -> exists t' r', session fuel t r ms = Ok (t', r', map jclip_frame ms).
Proof. exact delivery_jclip. Qed.
Print Assumptions adsi_jclip_delivery_partial.
Example adsi_jclip_delivery_two :
  trip JCLIP [[0x40; 0; 2; 3; 0x31; 0x32; 0x33]; [0x41; 7]] =
    Ok [[0x10; 1; 7; 0x10; 2; 0x40; 5; 2; 3; 0x31; 0x32; 0x33; 0x10; 3]; [0x10; 1; 7; 0x10; 2; 0x41; 0; 0x10; 3]].
Proof. vm_compute. reflexivity. Qed.

(** A J-CLIP message of 18 octets is accepted and sent, but nothing comes out: its length octet, 16, is sent twice and
    the receiver counts on it being sent once. *)
Theorem adsi_jclip_eighteen_refuted :
  trip JCLIP [eighteen] = Ok [] /\ length eighteen = 18%nat.
Proof. exact eighteen_lost. Qed.
Print Assumptions adsi_jclip_eighteen_refuted.

(** C64: whatever bits and reports the FSK receiver is given, it stays within its buffer; and a message it delivers
    was on the line, one start and stop bit framed character after another, followed by an octet which makes the sum
    of all zero modulo 256 - or, for J-CLIP, with a CRC that is right and the length it says. *)
Theorem adsi_receiver_sound :
  forall s l, at_rest s -> 0 <= r_ferr s -> r_ferr s + Z.of_nat (length l) < 2 ^ 31 -> Z.of_nat (length l) < 2 ^ 30 ->
    exists s' ev, feed adsi_rx_put_bit s l = Ok (s', ev) /\
    forall m, In m ev -> exists pre mid post f, zbits l = pre ++ mid ++ post /\ carries mid f /\ proper (r_std s) f m.
Proof. exact rx_line. Qed.
Print Assumptions adsi_receiver_sound.
(** Three characters after noise and a report; the last is the check. *)
Definition chars (l : list Z) : list Z := flat_map (fun b => 0 :: map Z.b2z (bits_lsb 8 b) ++ [1]) l.
Definition heard (std : Z) (l : list Z) : res (list (list Z)) := do (_, e) <- feed adsi_rx_put_bit (adsi_rx_init std) l; Ok e.
Example adsi_receiver_sound_noise :
  heard CLASS ([0; 1; 0; CARRIER_UP] ++ repeat 1 20 ++ chars [4; 1; 0x37; 0xC4]) = Ok [[4; 1; 0x37]] /\
  heard CLASS (repeat 1 20 ++ chars [4; 1; 0x37; 0xC5]) = Ok [].
Proof. vm_compute. auto. Qed.

(** C65: messages put together from fields, sent, received and taken to pieces again are the same fields, in order. *)
Theorem adsi_fields_partial :
  forall std pre ones post stop r buf calls, (std = CLASS \/ std = CLIP \/ std = ACLIP \/ std = JCLIP) ->
    let t := adsi_tx_set_preamble (adsi_tx_init std) pre ones post stop in
    good_amble (t_pre t) (t_ones t) (t_post t) (t_stop t) -> at_rest r -> r_std r = std -> 0 <= r_ferr r < 2 ^ 30 ->
    (255 <= length buf)%nat -> Forall (carried std) calls ->
    exists ms, map (fun c => build t buf (fst c) (snd c)) calls = map Ok ms /\
    exists n, forall fuel, (n <= fuel)%nat -> exists t' r' ds, session fuel t r ms = Ok (t', r', ds) /\
      map (parse std) ds = map (fun c => Ok (Some (call_fields c))) calls.
Proof. exact calls_final. Qed.
Print Assumptions adsi_fields_partial.
Example adsi_fields_calls :
  call CLASS 0x80 [(1, [0x30; 0x31]); (2, [0x35; 0x35; 0x35]); (7, [])] = Ok (Some [(0x80, []); (1, [0x30; 0x31]); (2, [0x35; 0x35; 0x35]); (7, [])]) /\
  call CLIP 4 [(0, [0x30; 0x31])] = Ok (Some [(4, []); (0, [0x30; 0x31])]) /\
  call JCLIP 0x40 [(2, [0x33; 0x34]); (0x10, [0x35])] = Ok (Some [(0x40, []); (2, [0x33; 0x34]); (0x10, [0x35])]).
Proof. vm_compute. auto. Qed.

(** A field body of 16 octets is put in with its length twice but taken out as if it were there once: the body comes
    out shifted by one, and what was its last octet is taken for the next field.  So is a J-CLIP body with a 0x10 in
    it. *)
Theorem adsi_fields_refuted :
  (call CLASS 0x80 [(7, sixteen)] = UB \/ call CLASS 0x80 [(7, sixteen)] = Ok None) /\
    call CLASS 0x80 [(7, sixteen); (2, [0x31; 0x32])] <> Ok (Some [(0x80, []); (7, sixteen); (2, [0x31; 0x32])]) /\
    call JCLIP 0x40 [(2, [0x31; 0x10; 0x32])] <> Ok (Some [(0x40, []); (2, [0x31; 0x10; 0x32])]).
Proof. exact sixteen_lost. Qed.
Print Assumptions adsi_fields_refuted.

(** C66: DTMF caller ID, however the digits come in pieces. *)
Theorem adsi_dtmf_fields :
  forall buf calls, (127 <= length buf)%nat -> Forall (fun c => dtmf (fst c) (snd c) /\ dtmf_size (snd c) <= 127) calls ->
    let t := adsi_tx_init CLIP_DTMF in
    exists ms, map (fun c => build t buf (fst c) (snd c)) calls = map Ok ms /\
      Forall (fun m => exists t', adsi_tx_put_message t m (Z.of_nat (length m)) = Ok (t', Z.of_nat (length m), m)) ms /\
      forall pieces, concat pieces = concat ms ->
        exists r', feed adsi_rx_dtmf (adsi_rx_init CLIP_DTMF) pieces = Ok (r', ms) /\
          map (parse CLIP_DTMF) ms = map (fun c => Ok (Some (call_fields c))) calls.
Proof. exact dtmf_final. Qed.
Print Assumptions adsi_dtmf_fields.
(** "A12D3C" and "45#" *)
Example adsi_dtmf_fields_two :
  let t := adsi_tx_init CLIP_DTMF in let buf := repeat 0 127 in
  build t buf 67 [(65, [49; 50]); (68, [51])] = Ok [65; 49; 50; 68; 51; 67] /\
  build t buf 35 [(0, [52; 53])] = Ok [52; 53; 35] /\
  (do (_, e) <- feed adsi_rx_dtmf (adsi_rx_init CLIP_DTMF) [[65; 49; 50; 68]; [51; 67; 52]; [53; 35]]; Ok e) = Ok [[65; 49; 50; 68; 51; 67]; [52; 53; 35]] /\
  parse CLIP_DTMF [65; 49; 50; 68; 51; 67] = Ok (Some [(67, []); (65, [49; 50]); (68, [51])]).
Proof. vm_compute. auto. Qed.

(** C67: with one octet of memory beyond the message (five for J-CLIP), taking the next field reads no other, and
    either ends the message, or finds it wrong, or gives a body inside the message and moves on. *)
Theorem adsi_next_field_safe_partial :
  forall std msg msg_len pos, 1 <= std <= 6 -> bytes msg -> 1 <= msg_len ->
    msg_len + (if std =? JCLIP then 5 else 1) <= Z.of_nat (length msg) -> 0 <= pos ->
    exists f, adsi_next_field std msg msg_len pos = Ok f /\
      (f_ret f = -1 \/ f_ret f = -2 \/
       (pos < f_ret f <= msg_len + 1 /\ (f_off f = -1 \/ (0 <= f_off f /\ 0 <= f_len f /\ f_off f + f_len f <= msg_len)))).
Proof. exact next_final. Qed.
Print Assumptions adsi_next_field_safe_partial.
Example adsi_next_field_safe_cases :
  adsi_next_field CLASS [0x80; 3; 2; 1; 0x31; 0xEE] 5 2 = Ok (mkField 5 2 4 1) /\
  adsi_next_field CLASS [0x80; 3; 2; 9; 0x31; 0xEE] 5 2 = Ok (mkField (-2) 2 4 9) /\
  adsi_next_field CLIP_DTMF [65; 49; 35; 0xEE] 3 1 = Ok (mkField 4 65 1 1).
Proof. vm_compute. auto. Qed.
(** The octet beyond is read: a message the receiver delivers, its sum right, ends with the type of a field and
    no length; the length is then taken from behind the message.  The same for DTMF, without a last '#'; and for a
    J-CLIP message of three octets.  The empty DTMF message is read from in front. *)
Theorem adsi_next_field_safe_refuted :
  trip CLASS [[0x80; 0; 2]] = Ok [[0x80; 1; 2]] /\ adsi_next_field CLASS [0x80; 1; 2] 3 2 = UB /\
    (forall x, byte x -> exists f, adsi_next_field CLASS [0x80; 1; 2; x] 3 2 = Ok f /\ f_len f = x) /\
    adsi_next_field CLIP_DTMF [65; 49] 2 1 = UB /\ adsi_next_field JCLIP [0x10; 1; 7] 3 0 = UB /\
    (forall mem, adsi_next_field CLIP_DTMF mem 0 0 = UB).
Proof. exact next_beyond. Qed.
Print Assumptions adsi_next_field_safe_refuted.

(** C68: seven bit texts sent one after another by TDD come out as texts, in capitals and without what the code has no
    sign for - if the first ends in a letter. *)
Theorem adsi_tdd_text_partial :
  forall room n x texts, Forall tdd_ok (x :: texts) -> (texts = [] \/ ends_in_letter x) -> (254 <= room)%nat -> (255 <= n)%nat ->
    exists t' r', tdd_session room n (adsi_tx_init TDD) (adsi_rx_init TDD) (x :: texts) = Ok (t', r', map tdd_text (x :: texts)).
Proof. exact tdd_ok_session. Qed.
Print Assumptions adsi_tdd_text_partial.
(** "(5) Yes, Go" then "12+3=15" then "ok?" *)
Example adsi_tdd_text_three :
  talk [[40; 53; 41; 32; 89; 101; 115; 44; 32; 71; 111]; [49; 50; 43; 51; 61; 49; 53]; [111; 107; 63]] =
  Ok [[40; 53; 41; 32; 89; 69; 83; 44; 32; 71; 79]; [49; 50; 43; 51; 61; 49; 53]; [79; 75; 63]].
Proof. vm_compute. reflexivity. Qed.
(** If the first ends in a figure, the second, "12", comes out as "QW".  A character beyond seven bits indexes the
    code table out of bounds. *)
Theorem adsi_tdd_text_refuted :
  talk [[65; 49]; [49; 50]] = Ok [[65; 49]; [81; 87]] /\
    (forall t buf len c, t_std t = TDD -> 128 <= c -> adsi_add_field t buf len 0 [c] = UB).
Proof. exact tdd_garbled. Qed.
Print Assumptions adsi_tdd_text_refuted.
(** Whatever characters and reports the TDD receiver is given, it stays within its buffer and delivers messages of at
    most 256 octets. *)
Theorem adsi_tdd_receiver_safe :
  forall l, exists s' e, feed adsi_tdd_put_async_byte (adsi_rx_init TDD) l = Ok (s', e) /\ Forall (fun x => (1 <= length x <= 256)%nat) e.
Proof. exact tdd_rx_final. Qed.
Print Assumptions adsi_tdd_receiver_safe.
Example adsi_tdd_receiver_safe_long :
  (do (_, e) <- feed adsi_tdd_put_async_byte (adsi_rx_init TDD) (CARRIER_UP :: repeat 3 300 ++ [-4; CARRIER_DOWN]); Ok (map (@length Z) e)) = Ok [256%nat; 44%nat].
Proof. vm_compute. reflexivity. Qed.
