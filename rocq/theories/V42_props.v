(** Properties of V.42 LAP.M. *)
From Verif Require Import Base V42_model V42_spec V42_prim_proofs V42_link_proofs V42_safe_proofs V42_neg_proofs V42_final_proofs.
Local Open Scope Z_scope.

(** C69: two stations that have just got their connection, joined by channels that keep frames in order but may lose or
    damage them: whatever happens at either station, in whatever order, nothing goes wrong inside, each application gets
    a prefix of what the other gave to be sent, and once all that was given has been acknowledged, it has got all of it.
    The hypotheses leave all else open: timers may run down at any moment, the applications may be busy, slow or close
    the link, and the frames buffer holds anything behind the frame. *)
Theorem lapm_link_delivers :
  forall a b l, connected a -> connected b -> Forall fits l ->
    exists a' b', run (start a, start b) l = Ok (a', b') /\
      prefix (delivered b') (data (supplied a')) /\ prefix (delivered a') (data (supplied b')) /\
      (all_acknowledged a' -> delivered b' = data (supplied a')) /\ (all_acknowledged b' -> delivered a' = data (supplied b')).
Proof. exact link_delivers. Qed.
Print Assumptions lapm_link_delivers.
(** And such connections come about: a caller and an answerer fresh from v42_init and v42_restart, whatever their
    applications have to send, exchange XID, SABME and UA and are connected; so the same holds from there on. *)
Theorem lapm_set_up_and_deliver :
  forall aA aB l, answers_fit aA -> answers_fit aB -> Forall fits l ->
    exists sA eA sB eB a' b', v42_restart (v42_init true false aA) = Ok (sA, eA) /\ v42_restart (v42_init false false aB) = Ok (sB, eB) /\
      run (start sA, start sB) (est ++ l) = Ok (a', b') /\
      prefix (delivered b') (data (supplied a')) /\ prefix (delivered a') (data (supplied b')) /\
      (all_acknowledged a' -> delivered b' = data (supplied a')) /\ (all_acknowledged b' -> delivered a' = data (supplied b')).
Proof. exact set_up_and_deliver. Qed.
Print Assumptions lapm_set_up_and_deliver.
(** The link is set up, and of two messages one way and one the other way the first frame is lost. *)
Example lapm_link_delivers_lossy : exists a b, run (start (sx true []), start (sx false [])) lossy = Ok (a, b) /\
  delivered b = [[1; 2]; [3]] /\ delivered a = [[9; 9]] /\ st (dev a) = DATA.
Proof. eexists _, _. split; [vm_compute; reflexivity|]. repeat split; vm_compute; reflexivity. Qed.

(** C70: that the link delivers from the beginning on, rather than from the moment both are connected, is false: when the
    caller's SABME is answered late and was sent again, the second one resets the answerer after it has sent data.  No
    frame is lost, both end up in data state, the answerer's application gave three messages, and the caller's gets the
    first and the third. *)
Theorem lapm_delivery_from_start_refuted :
  exists l a' b', Forall calm l /\ run (start (sx true []), start (sx false [])) l = Ok (a', b') /\
    st (dev a') = DATA /\ st (dev b') = DATA /\ inbox a' = [] /\ inbox b' = [] /\
    data (supplied b') = [[1]; [2]; [3]] /\ delivered a' = [[1]; [3]].
Proof. exact message_lost. Qed.
Print Assumptions lapm_delivery_from_start_refuted.

(** C71: that a connection over channels that lose nothing stays up is false. *)
Theorem lapm_stays_up_refuted :
  exists a b l a' b', connected a /\ connected b /\ Forall calm l /\ run (start a, start b) l = Ok (a', b') /\
    st (dev a') = IDLE /\ st (dev b') = IDLE.
Proof. exact spurious_disconnect. Qed.
Print Assumptions lapm_stays_up_refuted.
(** C72: that a frame received and answered is taken for acknowledged is false: with nothing lost, fifteen messages
    received and all the answers received, the sender still holds all fifteen for unacknowledged, its window is closed,
    and it has nothing but flags to send. *)
Theorem lapm_window_moves_refuted :
  exists a b l a' b', connected a /\ connected b /\ Forall calm l /\ run (start a, start b) l = Ok (a', b') /\
    st (dev a') = DATA /\ st (dev b') = DATA /\ inbox a' = [] /\ inbox b' = [] /\ length (delivered b') = 15%nat /\
    length (data (supplied a')) = 20%nat /\ va (dev a') = 0 /\
    exists s, lapm_hdlc_underflow (dev a') = Ok (s, [Flags]).
Proof. exact window_stalls. Qed.
Print Assumptions lapm_window_moves_refuted.

(** C73: that what the XID frames offer is heeded is false: whatever the frame, the context is as it was. *)
Theorem lapm_xid_heeded_refuted :
  forall c d a frame len s, receive_xid (v42_init c d a) frame len = Ok s -> s = v42_init c d a.
Proof. exact xid_ignored. Qed.
Print Assumptions lapm_xid_heeded_refuted.
(** A proper offer of 64 octets and windows of 7 is such a frame. *)
Example lapm_xid_offer : parse_xid k7 = Some [(0x80, [(5, [2; 0]); (6, [2; 0]); (7, [7]); (8, [7])])] /\
  exists s' e, lapm_receive (sx true []) (k7 ++ repeat 0 384) (Z.of_nat (length k7)) true = Ok (s', e) /\ lim s' = default_limits.
Proof. split; [exact xid_offer_read|exact offer_ignored]. Qed.
(** And the XID frame that is sent cannot be read by the rules. *)
Theorem lapm_xid_readable_refuted :
  forall a, exists s e s', v42_restart (v42_init true false a) = Ok (s, e) /\ transmit_xid s (cmd_addr s) = Ok s' /\
    exists f, nth_error (ctrl_buf s') 0 = Some f /\ flen f = 44 /\ parse_xid (firstn (Z.to_nat (flen f)) (fbuf f)) = None.
Proof. exact xid_unreadable. Qed.
Print Assumptions lapm_xid_readable_refuted.
(** What it was meant to be can. *)
Example lapm_xid_meant :
  parse_xid ([3; 0xAF; 0x82; 0x80; 0; 20; 3; 4; 0x8A; 0x89; 0; 0; 5; 2; 4; 0; 6; 2; 4; 0; 7; 1; 15; 8; 1; 15;
              0xF0; 0; 15; 0; 3; 86; 52; 50; 1; 1; 1; 2; 2; 2; 0; 3; 1; 6]) = Some xid_meant.
Proof. vm_compute. reflexivity. Qed.

(** C74: a context is safe whatever the peer, the line, the timer and the application do, in any state and any order;
    and as long as no frame of less than three octets is reported as good, the application is given data only, never a
    negative length. *)
Theorem lapm_any_peer_safe :
  forall c d a l, answers_fit a -> Forall possible l ->
    exists s' e, react_all (v42_init c d a) l = Ok (s', e) /\ (Forall long_enough l -> no_put_status e).
Proof. exact any_peer_safe. Qed.
Print Assumptions lapm_any_peer_safe.
(** Without that it may be: an I frame of two octets is enough. *)
Theorem lapm_no_negative_length_refuted :
  exists l s' e, Forall possible l /\ react_all (v42_init false false []) l = Ok (s', e) /\ In (PutStatus (-1)) e.
Proof. exact short_frame. Qed.
Print Assumptions lapm_no_negative_length_refuted.

(** C75: the answerer reports an originator detection pattern only after two in a row, each with 7 to 15 ones behind
    each character. *)
Theorem v42_odp_sound :
  forall s l s' e, calling s = false -> detecting s -> rx_bits s l = Ok (s', e) -> n_odp (neg s') = true ->
    exists pre k1 k2 k3 k4 post, Forall okk [k1; k2; k3; k4] /\ l = pre ++ odp k1 k2 ++ odp k3 k4 ++ false :: post.
Proof. exact answerer_sound. Qed.
Print Assumptions v42_odp_sound.
(** And it reports any such two, after any number of ones and with anything behind. *)
Theorem v42_odp_complete_partial :
  forall s m a b c d post, calling s = false -> detecting s -> Forall okk [a; b; c; d] ->
    exists s', rx_bits s (ones m ++ odp a b ++ odp c d ++ false :: post) = Ok (s', []) /\ n_odp (neg s') = true.
Proof. exact answerer_complete. Qed.
Print Assumptions v42_odp_complete_partial.
(** But V.42 has 8 to 16 ones there, and with 16 a hundred patterns go unnoticed. *)
Theorem v42_odp_sixteen_ones_refuted :
  exists s, detecting s /\ calling s = false /\
    exists s', rx_bits s (concat (repeat (odp 16 16) 100)) = Ok (s', []) /\ n_odp (neg s') = false.
Proof. exact sixteen_ones_missed. Qed.
Print Assumptions v42_odp_sixteen_ones_refuted.
(** The caller goes on only after two answerer detection patterns, and does so after any such two. *)
Theorem v42_adp_sound :
  forall s l s' e, calling s = true -> detecting s -> rx_bits s l = Ok (s', e) -> e <> [] ->
    exists pre l1 l2 post, whole true l1 /\ whole true l2 /\ l = pre ++ l1 ++ l2 ++ false :: post.
Proof. exact caller_sound. Qed.
Print Assumptions v42_adp_sound.
Theorem v42_adp_complete_partial :
  forall s m a b c d post, calling s = true -> detecting s -> Forall okk [a; b; c; d] ->
    exists s', rx_bits s (ones m ++ adp a b ++ adp c d ++ false :: post) = Ok (s', [Status IDLE]).
Proof. exact caller_complete. Qed.
Print Assumptions v42_adp_complete_partial.
(** Two contexts find each other, wherever in the caller's signal the answerer starts to listen, and however long the
    caller has been hearing ones or how many of the answerer's first bits it misses. *)
Theorem v42_detection_works :
  forall ac aa n m j, (j < 216)%nat ->
    exists c a c1 l a1 a2 l2 e c2,
      v42_restart (v42_init true true ac) = Ok (c, []) /\ v42_restart (v42_init false true aa) = Ok (a, []) /\
      tx_bits c (n + 120) = Ok (c1, [], l) /\ rx_bits a (skipn n l) = Ok (a1, []) /\
      tx_bits a1 325 = Ok (a2, Status IDLE :: e, l2) /\ rx_bits c1 (ones m ++ skipn j l2) = Ok (c2, [Status IDLE]) /\
      st a2 = IDLE /\ st c2 = IDLE.
Proof. exact detection_works. Qed.
Print Assumptions v42_detection_works.
(** C76: that a caller told by the answerer that it has no error correction takes it for that is false: the answer E, NUL
    is reported just as E, C is. *)
Theorem v42_refusal_understood_refuted :
  exists s, detecting s /\ calling s = true /\
    exists s', rx_bits s (adp_no_v42 8 8 ++ adp_no_v42 8 8 ++ [false]) = Ok (s', [Status IDLE]).
Proof. exact refusal_taken. Qed.
Print Assumptions v42_refusal_understood_refuted.
(** The signals of the two as they are sent: ODPs with eight ones by the caller. *)
Example v42_odp_sent : exists s', tx_bits (fresh true []) 72 = Ok (s', [], odp 8 8 ++ odp 8 8).
Proof. eexists. vm_compute. reflexivity. Qed.
