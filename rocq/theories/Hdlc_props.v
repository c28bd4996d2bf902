(** Properties C14 to C17, C38 and C39: src/hdlc.c *)
From Verif Require Import Base Bits Crc_spec Hdlc_model Hdlc_spec Hdlc_rx_proofs Hdlc_rx_safe Hdlc_tx_proofs.

(** The application only queues frames of octets and asks for flags (it does not abort or corrupt frames). *)
Example clean_means : (forall l, clean (UFrame l) <-> bytes l) /\ (forall n, clean (UFlags n) <-> True) /\ ~ clean UAbort /\ ~ clean UCorrupt.
Proof. cbn. tauto. Qed.
Example fevents_case : fevents [EStatus (-1); EFrame [1; 2] true; EFrame [3] false] = [([1; 2], true); ([3], false)]. Proof. reflexivity. Qed.
Example frames_of_case : frames_of [(true, [1; 2]); (false, [3]); (true, [4])] = [[1; 2; 3]; [4]]. Proof. reflexivity. Qed.

(** C14: whatever the transmitting application does (calls, underflow handlers), once the line has carried the flags the
    receiver wants, what the receiver delivers is at every moment a prefix of the frames the transmitter accepted, all
    good and unmodified... *)
Theorem hdlc_end_to_end :
  forall tc rc m mr h l1 l2 s1 h1 o1 a1 s2 h2 o2 a2,
    tx_crc32 tc = rx_crc32 rc -> 1 <= framing_ok_threshold rc -> m <= mr -> 0 <= mr < 2 ^ 63 ->
    Forall (Forall clean) h -> Forall clean_op l1 -> Forall clean_op l2 ->
    tx_exec tc (hdlc_tx_set_max_frame_len (hdlc_tx_init tc) m) h l1 = Ok (s1, h1, o1, a1) ->
    firstn (Z.to_nat (framing_ok_threshold rc)) (octets o1) = repeat 0x7E (Z.to_nat (framing_ok_threshold rc)) ->
    tx_exec tc s1 h1 l2 = Ok (s2, h2, o2, a2) ->
    exists r' e, rx_exec rc (hdlc_rx_set_max_frame_len rc hdlc_rx_init mr) (map RByte (octets (o1 ++ o2))) = Ok (r', e) /\
      prefix (fevents e) (goods (frames_of (a1 ++ a2))) /\
      (tlen s1 = 0 -> octets o2 <> [] -> prefix (goods (frames_of a1)) (fevents e)).
Proof. exact c14_main. Qed.
Print Assumptions hdlc_end_to_end.
(** ... and fetching enough further octets delivers every one of them. *)
Theorem hdlc_everything_delivered :
  forall tc rc m mr h l1 s1 h1 o1 a1,
    tx_crc32 tc = rx_crc32 rc -> 1 <= framing_ok_threshold rc -> m <= mr -> 0 <= mr < 2 ^ 63 ->
    Forall (Forall clean) h -> Forall clean_op l1 ->
    tx_exec tc (hdlc_tx_set_max_frame_len (hdlc_tx_init tc) m) h l1 = Ok (s1, h1, o1, a1) ->
    firstn (Z.to_nat (framing_ok_threshold rc)) (octets o1) = repeat 0x7E (Z.to_nat (framing_ok_threshold rc)) ->
    exists n s2 h2 o2 a2 s3 h3 o3 a3 r' e,
      tx_exec tc s1 h1 (repeat OGet n) = Ok (s2, h2, o2, a2) /\ tx_exec tc s2 h2 [OGet; OGet] = Ok (s3, h3, o3, a3) /\
      rx_exec rc (hdlc_rx_set_max_frame_len rc hdlc_rx_init mr) (map RByte (octets (o1 ++ o2 ++ o3))) = Ok (r', e) /\
      prefix (goods (frames_of (a1 ++ a2))) (fevents e) /\ prefix (fevents e) (goods (frames_of (a1 ++ a2 ++ a3))).
Proof. exact c14_all. Qed.
Print Assumptions hdlc_everything_delivered.
(** The runs the two theorems speak of exist: the transmitter never fails. *)
Theorem hdlc_tx_never_fails_runs :
  forall c m h l, exists s' h' o a, tx_exec c (hdlc_tx_set_max_frame_len (hdlc_tx_init c) m) h l = Ok (s', h', o, a).
Proof. exact tx_runs. Qed.
Print Assumptions hdlc_tx_never_fails_runs.
Definition ex_t (x : bool) := hdlc_tx_cfg x 1 false.
Definition ex_r (x : bool) := hdlc_rx_cfg x true 2 0.
Definition ex_ops := [OCall (UFlags 2); OGet; OGet; OCall (UFrame [0xFF; 0xFF; 0x7E; 0])] ++ repeat OGet 12 ++ [OCall (UFrame [0x3F])] ++ repeat OGet 12.
Example hdlc_case x : exists s h o r e, tx_exec (ex_t x) (hdlc_tx_init (ex_t x)) [] ex_ops = Ok (s, h, o, [(true, [0xFF; 0xFF; 0x7E; 0]); (true, [0x3F])]) /\
  rx_exec (ex_r x) hdlc_rx_init (map RByte (octets o)) = Ok (r, e) /\ fevents e = [([0xFF; 0xFF; 0x7E; 0], true); ([0x3F], true)].
Proof. destruct x; do 5 eexists; (split; [vm_compute; reflexivity|]); (split; [vm_compute; reflexivity|]); vm_compute; reflexivity. Qed.
(** The opening flags are needed: a frame queued before any flag has been sent is lost. *)
Example hdlc_no_opening_flag : exists s h o r e, tx_exec (ex_t false) (hdlc_tx_init (ex_t false)) [] (OCall (UFrame [1; 2; 3]) :: repeat OGet 12) = Ok (s, h, o, [(true, [1; 2; 3])]) /\
  rx_exec (ex_r false) hdlc_rx_init (map RByte (octets o)) = Ok (r, e) /\ fevents e = [].
Proof. do 5 eexists. split; [vm_compute; reflexivity|]. split; vm_compute; reflexivity. Qed.
(** hdlc_tx_corrupt_frame reports success even when the whole FCS is already on its way: the frame arrives as good. *)
Theorem hdlc_corrupt_too_late_refuted :
  exists s1 o1 s2 s3 o3 r e, tx_exec (hdlc_tx_cfg false 1 false) (hdlc_tx_init (hdlc_tx_cfg false 1 false)) []
      ([OCall (UFlags 1); OGet; OCall (UFrame [1; 2])] ++ repeat OGet 4) = Ok (s1, [], o1, [(true, [1; 2])]) /\
    hdlc_tx_corrupt_frame s1 = Ok (s2, 0) /\
    tx_exec (hdlc_tx_cfg false 1 false) s2 [] (repeat OGet 3) = Ok (s3, [], o3, []) /\
    rx_exec (hdlc_rx_cfg false true 1 0) hdlc_rx_init (map RByte (octets (o1 ++ o3))) = Ok (r, e) /\ fevents e = [([1; 2], true)].
Proof. exact corrupt_late. Qed.
Print Assumptions hdlc_corrupt_too_late_refuted.

(** C15: whatever is fed to the receiver (bits, octets, status codes, length changes, restarts), no access is outside the
    frame buffer, every frame reported good consists of octets, fits, and the counters equal the reports. *)
Theorem hdlc_rx_safe_and_counted :
  forall c l, 1 <= framing_ok_threshold c -> exists s e, rx_exec c hdlc_rx_init l = Ok (s, e) /\
    n_frames s = Z.of_nat (length (filter (fun f => snd f) (fevents e))) /\
    n_bytes s = fold_right (fun f a => Z.of_nat (length (fst f)) + a) 0 (filter (fun f => snd f) (fevents e)) /\
    n_abort s = Z.of_nat (length (filter (fun x => match x with EStatus z => z =? SIG_STATUS_ABORT | _ => false end) e)) /\
    (if report_bad_frames c then n_crc s + n_len s = Z.of_nat (length (filter (fun f => negb (snd f)) (fevents e))) else filter (fun f => negb (snd f)) (fevents e) = []) /\
    (forall d, In (EFrame d true) e -> bytes d /\ Z.of_nat (length d) + rx_crc_bytes c <= BUF_LEN).
Proof. exact rx_safe. Qed.
Print Assumptions hdlc_rx_safe_and_counted.
(** The configured maximum is respected. *)
Theorem hdlc_rx_max_length :
  forall c l s e d mr, 1 <= framing_ok_threshold c -> 0 <= mr < 2 ^ 63 -> (forall o, In o l -> match o with RMaxLen _ => False | _ => True end) ->
    rx_exec c (hdlc_rx_set_max_frame_len c hdlc_rx_init mr) l = Ok (s, e) -> In (EFrame d true) e -> Z.of_nat (length d) <= mr.
Proof. exact rx_max. Qed.
Print Assumptions hdlc_rx_max_length.
Example hdlc_rx_garbage : exists s e, rx_exec (ex_r true) hdlc_rx_init ([RByte 0x7E; RByte 0x7E] ++ repeat (RByte 0x55) 420 ++ [RByte 0x7E; RBit 1; RBit (-1); RByte 0xFF; RRestart]) = Ok (s, e) /\ fevents e = [].
Proof. do 2 eexists. split; vm_compute; reflexivity. Qed.

(** C38: a frame reported good was on the line, stuffed and with its FCS, between two flags; the only slack is one extra 1
    bit before the closing flag, possible only when it completes a run of five (the flag's own 0 is then taken as stuffing). *)
Theorem hdlc_good_frame_was_on_the_line :
  forall c m l, 1 <= framing_ok_threshold c -> exists s e, rx_exec c (hdlc_rx_set_max_frame_len c hdlc_rx_init m) (map (fun b : bool => RBit (Z.b2z b)) l) = Ok (s, e) /\
    forall d, In (EFrame d true) e -> exists pre post,
      false :: l = pre ++ flag ++ frame_bits (rx_crc32 c) d ++ flag ++ post \/
      false :: l = pre ++ flag ++ frame_bits (rx_crc32 c) d ++ true :: flag ++ post.
Proof. exact good_line. Qed.
Print Assumptions hdlc_good_frame_was_on_the_line.
(** That slack is real: 17 bits that are not a whole number of octets between flags are accepted as a good frame. *)
Theorem hdlc_misaligned_frame_refuted :
  exists s e, rx_exec (hdlc_rx_cfg false true 1 0) hdlc_rx_init (map (fun b : bool => RBit (Z.b2z b)) (flag ++ frame_bits false [0x11] ++ true :: flag)) = Ok (s, e) /\ fevents e = [([0x11], true)].
Proof. exact misaligned. Qed.
Print Assumptions hdlc_misaligned_frame_refuted.

Example seg_ok_means x mx : seg_ok x mx Flag /\ forall d, seg_ok x mx (Fr d) <-> bytes d /\ (0 < length d)%nat /\ Z.of_nat (length d + length (fcs x d)) <= mx.
Proof. split; [exact I|]. intros d. rewrite fcs_length. reflexivity. Qed.
(** C39: self synchronisation: whatever garbage came before, once the wanted number of flags has passed, every frame sent is
    delivered, exactly once, in order and good, and nothing else is. *)
Theorem hdlc_resynchronises :
  forall c l n segs s0 e0, 1 <= framing_ok_threshold c -> (Z.to_nat (framing_ok_threshold c) <= n)%nat ->
    (forall o, In o l -> match o with RByte z => byte z | _ => True end) ->
    rx_exec c hdlc_rx_init l = Ok (s0, e0) -> Forall (seg_ok (rx_crc32 c) (max_len s0)) segs ->
    exists s1 e1 s2 e2, rx_exec c s0 (map (fun b : bool => RBit (Z.b2z b)) (concat (repeat flag n))) = Ok (s1, e1) /\
      rx_exec c s1 (map (fun b : bool => RBit (Z.b2z b)) (line (rx_crc32 c) segs)) = Ok (s2, e2) /\ fevents e2 = goods (frames segs).
Proof. exact resync_ops. Qed.
Print Assumptions hdlc_resynchronises.
Example hdlc_resync_case : exists s e, rx_exec (ex_r false) hdlc_rx_init (map (fun b : bool => RBit (Z.b2z b)) ([true; false; true; true; true; true; true; true; true] ++ flag ++ [true] ++ concat (repeat flag 2) ++ line false [Fr [1; 2]; Flag; Fr [0xFF]])) = Ok (s, e) /\
  fevents e = [([1; 2], true); ([0xFF], true)].
Proof. do 2 eexists. split; vm_compute; reflexivity. Qed.

(** C16: the octet and bit interfaces agree, in every state either side can reach. *)
Theorem hdlc_rx_byte_is_eight_bits :
  forall c l s e x, 1 <= framing_ok_threshold c -> rx_exec c hdlc_rx_init l = Ok (s, e) -> (forall o, In o l -> match o with RByte z => byte z | _ => True end) -> byte x ->
    hdlc_rx_put_byte c s x = rx_exec c s (map (fun b : bool => RBit (Z.b2z b)) (bits_msb 8 x)).
Proof. exact rx_byte_bits. Qed.
Print Assumptions hdlc_rx_byte_is_eight_bits.
Theorem hdlc_tx_byte_is_eight_bits :
  forall c s h b s' h' a, tbits s = 0 -> hdlc_tx_get_byte c s h = Ok (b, s', h', a) -> byte b ->
    get_bits c s h 8 = Ok (map Z.b2z (bits_msb 8 b), tset_byte s' b 0, h', a).
Proof. exact eight_bits. Qed.
Print Assumptions hdlc_tx_byte_is_eight_bits.
(** The octet the bit interface is working from is invisible to the octet interface. *)
Theorem hdlc_tx_byte_ignores_bit_position :
  forall c s h b n, hdlc_tx_get_byte c (tset_byte s b n) h =
    match hdlc_tx_get_byte c s h with Ok (x, s', h', a) => Ok (x, tset_byte s' b n, h', a) | UB => UB end.
Proof. exact get_byte_bits_indep. Qed.
Print Assumptions hdlc_tx_byte_ignores_bit_position.
Example hdlc_bits_case : exists s h a, get_bits (ex_t false) (hdlc_tx_init (ex_t false)) [] 16 = Ok ([0; 1; 1; 1; 1; 1; 1; 0; 0; 1; 1; 1; 1; 1; 1; 0], s, h, a).
Proof. do 3 eexists. vm_compute. reflexivity. Qed.

(** C17: in every reachable state a non-empty frame is either refused with -1, changing nothing, exactly when it does not fit or
    the frame being sent can no longer be extended; or accepted, and the octets waiting are extended by it. *)
Theorem hdlc_tx_frame_contract :
  forall c m h l s h' o a f, tx_exec c (hdlc_tx_set_max_frame_len (hdlc_tx_init c) m) h l = Ok (s, h', o, a) -> f <> [] ->
    let refuse := tmax s < tlen s + Z.of_nat (length f) \/ progressive c = false /\ tlen s <> 0 \/ progressive c = true /\ HDLC_MAXFRAME_LEN <= pos s in
    exists s' r, hdlc_tx_frame c s f = Ok (s', r) /\
     (r = -1 /\ s' = s /\ refuse \/
      r = 0 /\ ~ refuse /\ firstn (Z.to_nat (tlen s')) (tbuf s') = firstn (Z.to_nat (tlen s)) (tbuf s) ++ f /\ tlen s' = tlen s + Z.of_nat (length f) /\ pos s' = pos s).
Proof. exact frame_contract. Qed.
Print Assumptions hdlc_tx_frame_contract.
Example hdlc_progressive_case : exists s h o r e, tx_exec (hdlc_tx_cfg true 1 true) (hdlc_tx_init (hdlc_tx_cfg true 1 true)) []
    ([OCall (UFlags 2); OGet; OGet; OCall (UFrame [1; 2]); OGet; OCall (UFrame [3; 4]); OGet; OGet; OGet; OGet; OCall (UFrame [9])] ++ repeat OGet 12) =
      Ok (s, h, o, [(true, [1; 2]); (false, [3; 4])]) /\
  rx_exec (ex_r true) hdlc_rx_init (map RByte (octets o)) = Ok (r, e) /\ fevents e = [([1; 2; 3; 4], true)].
Proof. do 5 eexists. split; [vm_compute; reflexivity|]. split; vm_compute; reflexivity. Qed.

(** C46: the octet closing a frame carries the start of a flag, and is followed by octets of nothing but flags (shifted by the
    position in the octet), as many as asked for at initialisation less one, whatever frames the underflow handler queues. *)
Theorem hdlc_tx_inter_frame_flags :
  forall c s h x s' h' a k, tlen s <> 0 -> flag_octets s = 0 -> abort_octets s = 0 -> 0 <= tnb s < 8 ->
    pos s = HDLC_MAXFRAME_LEN + tx_crc_bytes c -> tlen s <= HDLC_MAXFRAME_LEN -> Forall (Forall queues) h ->
    hdlc_tx_get_byte c s h = Ok (x, s', h', a) -> Z.of_nat k <= inter_frame_flags c - 1 ->
    x = u8 (Z.lor (u32 (Z.shiftl (oip s) (8 - tnb s))) (Z.shiftr 0x7E (tnb s))) /\
    exists s2, tx_exec c s' h' (repeat OGet k) = Ok (s2, h', repeat (Z.land (Z.shiftr 0x7E7E (tnb s)) 0xFF) k, []).
Proof. exact between_frames. Qed.
Print Assumptions hdlc_tx_inter_frame_flags.
(** C46: after hdlc_tx_abort the next octet sent is an abort. *)
Theorem hdlc_tx_abort_sent :
  forall c s h x s' h' a, 0 <= flag_octets s -> 0 <= abort_octets s ->
    hdlc_tx_get_byte c (fst (hdlc_tx_abort s)) h = Ok (x, s', h', a) -> x = 0x7F /\ abort_octets s' = 0.
Proof. exact abort_sent. Qed.
Print Assumptions hdlc_tx_abort_sent.
Example hdlc_inter_frame_case :
  (do (s, h, o, a) <- tx_exec (hdlc_tx_cfg false 4 false) (hdlc_tx_init (hdlc_tx_cfg false 4 false)) [[UFrame [5]]] (OCall (UFrame [1]) :: repeat OGet 9); Ok o)
  = Ok [0x80; 0x8F; 0x83; 0xBF; 0x3F; 0x3F; 0x3F; 0x50; 0x55] /\ Z.land (Z.shiftr 0x7E7E 1) 0xFF = 0x3F.
Proof. split; vm_compute; reflexivity. Qed.
Example hdlc_abort_case :
  (do (s, h, o, a) <- tx_exec (hdlc_tx_cfg false 4 false) (hdlc_tx_init (hdlc_tx_cfg false 4 false)) [] [OCall (UFrame [1; 2; 3]); OGet; OGet; OCall UAbort; OGet; OGet]; Ok o)
  = Ok [0x80; 0x40; 0x7F; 0xC0].
Proof. vm_compute. reflexivity. Qed.
