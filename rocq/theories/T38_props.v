(** Properties of T.38 packets and sessions. *)
From Verif Require Import Base T38_model T38_spec T38_proofs.
Local Open Scope Z_scope.

(** C30: what the senders build *)
Theorem t38_indicator_octets :
  forall s i, 0 <= i <= 255 ->
    exists out, t38_encode_indicator s i = Ok out /\
      if i <=? (if old_version s then 15 else 22)
      then out = (Z.of_nat (length (wire (data_transport_protocol s) (old_version s) (MInd i))), wire (data_transport_protocol s) (old_version s) (MInd i))
      else fst out = -1.
Proof. exact encode_indicator_ok. Qed.
Print Assumptions t38_indicator_octets.
(** With fewer than 128 fields; a packet of more than 1000 octets overruns the buffer. *)
Theorem t38_data_octets :
  forall s dt fs, msg_ok (old_version s) (MData dt fs) ->
    let w := wire (data_transport_protocol s) (old_version s) (MData dt fs) in
    t38_encode_data s dt (fields_of fs) = if Z.of_nat (length w) <=? 1000 then Ok (Z.of_nat (length w), w) else UB.
Proof. exact encode_data_ok. Qed.
Print Assumptions t38_data_octets.
(** C30: what the receiver makes of it, whatever follows *)
Theorem t38_packet_decoded :
  forall s m rest, msg_ok (old_version s) m -> decodable (old_version s) m ->
    let w := wire (data_transport_protocol s) (old_version s) m in
    (data_transport_protocol s = TCP_TPKT -> Z.of_nat (length w) <= 65535) ->
    t38_core_rx_ifp_stream s (w ++ rest) = Ok (heard s m, events m, Z.of_nat (length w)).
Proof. exact stream_whole. Qed.
Print Assumptions t38_packet_decoded.
(** A packet cut short delivers nothing: more is waited for over TCP, and it is an
    error otherwise. *)
Theorem t38_packet_cut :
  forall s m k, msg_ok (old_version s) m -> decodable (old_version s) m ->
    let w := wire (data_transport_protocol s) (old_version s) m in
    (k < length w)%nat -> (data_transport_protocol s = TCP_TPKT -> Z.of_nat (length w) <= 65535 /\ (4 <= k)%nat) ->
    exists s', t38_core_rx_ifp_stream s (firstn k w) = Ok (s', [], match data_transport_protocol s with UDPTL | RTP => -1 | _ => 0 end) /\ untouched s s'.
Proof. exact stream_cut. Qed.
Print Assumptions t38_packet_cut.
(** C31 *)
Theorem t38_receiver_safe :
  forall s buf, bytes buf ->
    exists s' evs r, t38_core_rx_ifp_stream s buf = Ok (s', evs, r) /\ -1 <= r <= Z.of_nat (length buf) /\ (r <= 0 -> evs = []) /\
      (Forall (fun e => is_data e = true) evs \/ exists i, evs = [EInd i] /\ 0 <= i <= 22).
Proof. exact stream_safe. Qed.
Print Assumptions t38_receiver_safe.
(** C32: one packet *)
Theorem t38_sequence_judged :
  forall s buf seq, check_sequence_numbers s = true -> 0 <= rx_expected_seq_no s < 65536 -> 0 <= seq < 65536 -> buf <> [] ->
    let e := rx_expected_seq_no s in
    let d := (seq - e) mod 65536 in
    t38_core_rx_ifp_packet s buf seq =
      if 63536 <? d then Ok (s, [], 0)
      else
        do (s', evs, r) <- t38_core_rx_ifp_stream (set_expected s ((seq + 1) mod 65536) (missing_packets s + (if d =? 0 then 0 else if d <? 2000 then seq - e else 1))) buf ;
        Ok (s', (if d =? 0 then [] else if d <? 2000 then [EMissing e seq] else [EMissing (-1) (-1)]) ++ evs,
            if r =? Z.of_nat (length buf) then 0 else -1).
Proof. exact packet_judged. Qed.
Print Assumptions t38_sequence_judged.
(** C32: any run of packets, in any order and number, none 2000 away from the one
    expected *)
Theorem t38_sequence_run :
  forall l s top, check_sequence_numbers s = true -> rx_expected_seq_no s = top mod 65536 ->
    Forall (fun a => arriving (data_transport_protocol s) (old_version s) (snd a)) l -> near top l ->
    exists s', receive s (packed (data_transport_protocol s) (old_version s) l) = Ok (s', flat_map hears (records top l), map (fun _ => 0) l).
Proof. exact receive_run. Qed.
Print Assumptions t38_sequence_run.
Theorem t38_sequence_start :
  forall s n m l, check_sequence_numbers s = true -> rx_expected_seq_no s = -1 ->
    Forall (fun a => arriving (data_transport_protocol s) (old_version s) (snd a)) ((n, m) :: l) -> near (n + 1) l ->
    exists s', receive s (packed (data_transport_protocol s) (old_version s) ((n, m) :: l)) =
      Ok (s', events m ++ flat_map hears (records (n + 1) l), map (fun _ => 0) ((n, m) :: l)).
Proof. exact receive_start. Qed.
Print Assumptions t38_sequence_start.
Theorem t38_records_in_order :
  forall (A : Type) (l : list (Z * A)) top, increasing (map (fun r => snd (fst r)) (records top l)) /\
    Forall (fun r => top <= fst (fst r) /\ fst (fst r) <= snd (fst r) /\ In (snd (fst r), snd r) l) (records top l).
Proof. exact (@records_increasing). Qed.
Print Assumptions t38_records_in_order.
(** C42: from a sending application to a receiving one *)
Theorem t38_sends_numbered :
  forall l s, 0 <= tx_seq_no s < 65536 -> (exists c, aget (category_control s) 0 = Ok c /\ c <> 0) -> length (category_control s) = 5%nat ->
    Forall (sendable (data_transport_protocol s) (old_version s)) l ->
    exists s' ps, sends s l = Ok (s', ps) /\
      map p_octets ps = map (wire (data_transport_protocol s) (old_version s)) (told (current_tx_indicator s) l) /\
      map p_seq ps = map (fun k => (tx_seq_no s + Z.of_nat k) mod 65536) (seq 0 (length (told (current_tx_indicator s) l))).
Proof. exact told_sends. Qed.
Print Assumptions t38_sends_numbered.
Theorem t38_end_to_end :
  forall s r l k0 ks, 0 <= tx_seq_no s < 65536 -> (exists c, aget (category_control s) 0 = Ok c /\ c <> 0) -> length (category_control s) = 5%nat ->
    Forall (sendable (data_transport_protocol s) (old_version s)) l ->
    t38_version r = t38_version s -> data_transport_protocol r = data_transport_protocol s -> check_sequence_numbers r = true -> rx_expected_seq_no r = -1 ->
    let ms := told (current_tx_indicator s) l in
    let numbered := map (fun k => (tx_seq_no s + Z.of_nat k, nth k ms (MInd 0))) in
    Forall (fun k => (k < length ms)%nat) (k0 :: ks) -> near (tx_seq_no s + Z.of_nat k0 + 1) (numbered ks) ->
    exists s' ps r', sends s l = Ok (s', ps) /\ length ps = length ms /\
      receive r (map (arrival ps) (k0 :: ks)) =
        Ok (r', events (nth k0 ms (MInd 0)) ++ flat_map hears (records (tx_seq_no s + Z.of_nat k0 + 1) (numbered ks)), map (fun _ => 0) (k0 :: ks)).
Proof. exact end_to_end. Qed.
Print Assumptions t38_end_to_end.
Theorem t38_lossless :
  forall s r l, 0 <= tx_seq_no s < 65536 -> (exists c, aget (category_control s) 0 = Ok c /\ c <> 0) -> length (category_control s) = 5%nat ->
    Forall (sendable (data_transport_protocol s) (old_version s)) l ->
    t38_version r = t38_version s -> data_transport_protocol r = data_transport_protocol s -> check_sequence_numbers r = true -> rx_expected_seq_no r = -1 ->
    exists s' ps r', sends s l = Ok (s', ps) /\
      receive r (map (fun p => (p_seq p, p_octets p)) ps) = Ok (r', flat_map events (told (current_tx_indicator s) l), map (fun _ => 0) ps).
Proof. exact lossless. Qed.
Print Assumptions t38_lossless.
Theorem t38_v34rate :
  forall a b c rest, byte a -> byte b -> byte c ->
    t38_v34rate_to_bps (a :: b :: c :: rest) =
      Ok (if (48 <=? a) && (a <=? 57) && (48 <=? b) && (b <=? 57) && (48 <=? c) && (c <=? 57) then 10000 * (a - 48) + 1000 * (b - 48) + 100 * (c - 48) else -1).
Proof. exact v34rate_ok. Qed.
Print Assumptions t38_v34rate.

Definition fresh (version : Z) (tr : transport) : t38 := t38_core_init version tr true false false [1; 1; 1; 1; 1].
(** Version 0 packs two fields without data into one octet; the sender does not, so its
    own receiver takes the unused half octet for a field. *)
Theorem t38_old_empty_fields_refuted :
  ~ (forall s m rest, msg_ok (old_version s) m -> data_transport_protocol s = UDPTL ->
     exists s', t38_core_rx_ifp_stream s (wire UDPTL (old_version s) m ++ rest) = Ok (s', events m, Z.of_nat (length (wire UDPTL (old_version s) m)))).
Proof.
  intros H. destruct (H (fresh 0 UDPTL) (MData 1 [(3, []); (7, [])]) []) as (s' & E).
  - cbn. repeat split; try lia. repeat constructor; cbn; lia.
  - reflexivity.
  - vm_compute in E. discriminate E.
Qed.
Print Assumptions t38_old_empty_fields_refuted.
(** From 128 fields the count takes two octets when sent, and one when received. *)
Theorem t38_many_fields_refuted :
  ~ (forall s n out, t38_encode_data s 1 (repeat {| field_type := 3; field_data := [] |} n) = Ok out ->
     exists s', t38_core_rx_ifp_stream s (snd out) = Ok (s', repeat (EData 1 3 []) n, fst out)).
Proof.
  intros H. assert (X : match t38_encode_data (fresh 1 UDPTL) 1 (repeat {| field_type := 3; field_data := [] |} 128) with
    | Ok out => match t38_core_rx_ifp_stream (fresh 1 UDPTL) (snd out) with Ok (_, e, r) => (Z.of_nat (length e) =? 128) && (r =? fst out) | UB => true end | UB => true end = false) by (vm_compute; reflexivity).
  specialize (H (fresh 1 UDPTL) 128%nat). destruct (t38_encode_data (fresh 1 UDPTL) 1 (repeat {| field_type := 3; field_data := [] |} 128)) as [out|]; [|discriminate].
  destruct (H out eq_refl) as (s' & E). rewrite E in X. rewrite repeat_length, (Z.eqb_refl (fst out)) in X. discriminate X.
Qed.
Print Assumptions t38_many_fields_refuted.
(** The count of missing packets goes down when the numbers wrap. *)
Theorem t38_missing_count_refuted :
  ~ (forall s buf seq s' evs r, 0 <= missing_packets s -> 0 <= rx_expected_seq_no s < 65536 -> 0 <= seq < 65536 ->
     t38_core_rx_ifp_packet s buf seq = Ok (s', evs, r) -> missing_packets s <= missing_packets s').
Proof.
  intros H. set (s := set_expected (fresh 0 UDPTL) 65535 0).
  assert (X : 0 <= -65534); [|lia].
  apply (H s [2] 1 (set_rx (set_expected s 2 (-65534)) 1 (-1) (-1)) [EMissing 65535 1; EInd 1] 0); [cbn; lia|cbn; lia|lia|vm_compute; reflexivity].
Qed.
Print Assumptions t38_missing_count_refuted.
(** The first octet of a TPKT header, arriving alone, is taken for an indicator. *)
Theorem t38_tpkt_fragment_refuted :
  ~ (forall s m k, msg_ok (old_version s) m -> decodable (old_version s) m -> data_transport_protocol s = TCP_TPKT ->
     (k < length (wire TCP_TPKT (old_version s) m))%nat ->
     exists s', t38_core_rx_ifp_stream s (firstn k (wire TCP_TPKT (old_version s) m)) = Ok (s', [], 0)).
Proof.
  intros H. destruct (H (fresh 0 TCP_TPKT) (MInd 0) 1%nat) as (s' & E); [cbn; lia|exact I|reflexivity|cbn; lia|]. vm_compute in E. discriminate E.
Qed.
Print Assumptions t38_tpkt_fragment_refuted.
(** A packet with something after it is refused, but its fields have been delivered. *)
Theorem t38_refused_packet_delivers_refuted :
  ~ (forall s buf seq s' evs r, bytes buf -> t38_core_rx_ifp_packet s buf seq = Ok (s', evs, r) -> r < 0 -> Forall (fun e => is_data e = false) evs).
Proof.
  intros H. set (s := fresh 0 UDPTL).
  assert (X : Forall (fun e => is_data e = false) [EData 1 3 []]).
  { apply (H s [194; 1; 48; 99] 0 (set_rx (set_expected s 1 0) (-1) 1 3) [EData 1 3 []] (-1)); [repeat constructor; unfold byte; lia|vm_compute; reflexivity|lia]. }
  inversion X. discriminate.
Qed.
Print Assumptions t38_refused_packet_delivers_refuted.

(** Cases. *)
Example t38_case_wire :
  wire UDPTL false (MData 6 [(0, [1; 2; 3]); (9, [4])]) = [204; 2; 128; 0; 2; 1; 2; 3; 192; 64; 0; 0; 4] /\
  wire TCP_TPKT true (MInd 3) = [3; 0; 0; 5; 6] /\ wire RTP false (MInd 21) = [33; 64] /\
  t38_encode_data (fresh 1 UDPTL) 6 (fields_of [(0, [1; 2; 3]); (9, [4])]) = Ok (13, [204; 2; 128; 0; 2; 1; 2; 3; 192; 64; 0; 0; 4]).
Proof. repeat split. Qed.
Example t38_case_decode :
  (do (s, e, r) <- t38_core_rx_ifp_stream (fresh 0 TCP) [200; 2; 128; 0; 1; 9; 8; 112; 55] ; Ok (e, r)) = Ok ([EData 4 0 [9; 8]; EData 4 7 []], 8) /\
  (do (s, e, r) <- t38_core_rx_ifp_stream (fresh 0 TCP) [200; 2; 128; 0; 1; 9; 8] ; Ok (e, r)) = Ok ([], 0) /\
  (do (s, e, r) <- t38_core_rx_ifp_stream (fresh 0 UDPTL) [200; 2; 128; 0; 1; 9; 8] ; Ok (e, r)) = Ok ([], -1).
Proof. repeat split. Qed.
Example t38_case_session :
  let l := [SInd 3 true; SInd 3 true; SData 6 [(0, [1; 2])] 2 true; SData 6 [(2, [])] 3 false; SData 6 [(3, [])] 3 true; SInd (256 + 3) true] in
  Forall (sendable UDPTL true) l /\ told (-1) l = [MInd 3; MData 6 [(0, [1; 2])]; MData 6 [(3, [])]; MInd 3] /\
  (do (s, ps) <- sends (fresh 0 UDPTL) l ;
   do (r, e, c) <- receive (fresh 0 UDPTL) (map (arrival ps) [0; 1; 1; 3; 2]%nat) ; Ok (e, c)) =
  Ok ([EInd 3; EData 6 0 [1; 2]; EMissing 2 3; EInd 3], [0; 0; 0; 0; 0]).
Proof.
  cbv zeta. split; [|split; [reflexivity|vm_compute; reflexivity]].
  repeat apply Forall_cons; try apply Forall_nil; cbn [sendable msg_ok decodable]; try lia;
    repeat split; cbn; try lia; repeat (apply Forall_cons; [unfold field_ok, bytes, byte; cbn; repeat split; try lia; repeat constructor; lia|]); apply Forall_nil.
Qed.
Example t38_case_overrun :
  t38_core_send_data (fresh 0 UDPTL) 6 0 (repeat 0 996) 2 true = UB /\ is_ok (t38_core_send_data (fresh 0 UDPTL) 6 0 (repeat 0 995) 2 true) = true.
Proof. split; vm_compute; reflexivity. Qed.
Example t38_case_rate : t38_v34rate_to_bps [51; 51; 54] = Ok 33600 /\ t38_v34rate_to_bps [48; 50; 58] = Ok (-1).
Proof. split; reflexivity. Qed.
(** C47: the repeats asked for *)
Theorem t38_send_repeats :
  forall s o s' ps r, send1 s o = Ok (s', ps, r) ->
    (length ps <= 1)%nat /\
    Forall (fun p => match o with
                     | SInd i _ => if Z.land i 0x100 =? 0 then aget (category_control s) 0 = Ok (p_count p) else p_count p = 1
                     | SData _ _ c _ => aget (category_control s) c = Ok (p_count p)
                     end) ps.
Proof. exact send_repeats. Qed.
Print Assumptions t38_send_repeats.
Example t38_case_repeats :
  let s := t38_core_init 0 UDPTL true false false [3; 4; 5; 6; 7] in
  (do (s, ps) <- sends s [SInd 3 true; SInd (256 + 3) true; SData 6 [(3, [])] 2 true] ; Ok (map p_count ps)) = Ok [3; 1; 5].
Proof. vm_compute. reflexivity. Qed.
