(** Theorems about the ADPCM codecs (C25-C28). *)
From Verif Require Import Base Adpcm_model Adpcm_spec Adpcm_proofs Adpcm_vdvi_proofs.
Local Open Scope Z_scope.

(** C25: for every signal, of any length in calls of any even length, the decoder
    gives a good coding of the signal, and ends in step with the encoder.  Each
    sample is within one unit of the best of the 16 codes, and within half a
    quantising step (plus two) of the signal if that is within reach.
    DVI4 packets with a header need no agreement beforehand. *)
Theorem ima_dvi4_round_trip :
  forall chunked s d amp, Nat.even (length amp) = true -> samples amp -> valid ima_coder (st s) -> Z.even (nbits s) = true ->
    (chunked = true -> st d = st s) ->
    exists out s' d' ys, ima_adpcm_encode DVI4 chunked s amp = Ok (out, s') /\ bytes out /\
      ima_adpcm_decode DVI4 chunked d out = Ok (ys, d') /\
      coding ima_coder (st s) amp ys (st s') /\ st d' = st s' /\ valid ima_coder (st s') /\ Z.even (nbits s') = true.
Proof. exact dvi4_round_trip. Qed.
Print Assumptions ima_dvi4_round_trip.
Theorem ima_ima4_round_trip :
  forall s d amp, Nat.even (length amp) = true -> samples amp -> valid ima_coder (st s) -> Z.even (nbits s) = true ->
    0 <= ima_byte s < 256 -> st d = st s ->
    exists out s' d' ys, ima_adpcm_encode IMA4 true s amp = Ok (out, s') /\ bytes out /\
      ima_adpcm_decode IMA4 true d out = Ok (ys, d') /\
      coding ima_coder (st s) amp ys (st s') /\ st d' = st s' /\ valid ima_coder (st s') /\ Z.even (nbits s') = true /\ 0 <= ima_byte s' < 256.
Proof. exact ima4_round_trip. Qed.
Print Assumptions ima_ima4_round_trip.
Theorem ima_ima4_packet_round_trip :
  forall s d a0 amp, Nat.even (length amp) = true -> samples (a0 :: amp) -> 0 <= step_index s <= 88 ->
    0 <= ima_byte s < 256 ->
    exists out s' d' ys, ima_adpcm_encode IMA4 false s (a0 :: amp) = Ok (out, s') /\ bytes out /\
      ima_adpcm_decode IMA4 false d out = Ok (a0 :: ys, d') /\
      coding ima_coder (a0, step_index s) amp ys (st s') /\ st d' = st s' /\ valid ima_coder (st s') /\ 0 <= ima_byte s' < 256.
Proof. exact ima4_packet_round_trip. Qed.
Print Assumptions ima_ima4_packet_round_trip.
(** Without headers, calls may be split anywhere, even within an octet. *)
Theorem ima_encode_calls :
  forall v a s b, enc4 v s (a ++ b) =
    (do (o1, s1) <- enc4 v s a ; do (o2, s2) <- enc4 v s1 b ; Ok (o1 ++ o2, s2)).
Proof. exact (fun v => enc4_app v). Qed.
Print Assumptions ima_encode_calls.
Theorem ima_decode_calls :
  forall v a s b, dec4 v s (a ++ b) =
    (do (o1, s1) <- dec4 v s a ; do (o2, s2) <- dec4 v s1 b ; Ok (o1 ++ o2, s2)).
Proof. exact (fun v => dec4_app v). Qed.
Print Assumptions ima_decode_calls.
(** A DVI4 packet of an odd number of samples loses the last, and half of the last
    octet goes into the next packet, whose decoder is then out of step. *)
Definition after_odd : res (list Z * (Z * Z) * (Z * Z)) :=
  do (p1, s1) <- ima_adpcm_encode DVI4 false ima_init [0; 0; 1000] ;
  do (y1, d1) <- ima_adpcm_decode DVI4 false ima_init p1 ;
  do (p2, s2) <- ima_adpcm_encode DVI4 false s1 [20; 20; 20; 20] ;
  do (y2, d2) <- ima_adpcm_decode DVI4 false d1 p2 ;
  Ok (y1, st s2, st d2).
Theorem ima_dvi4_odd_packet_refuted :
  exists y1 e d, after_odd = Ok (y1, e, d) /\ length y1 <> 3%nat /\ e <> d.
Proof. exact ltac:(vm_compute; eexists _, _, _; repeat split; discriminate). Qed.
Print Assumptions ima_dvi4_odd_packet_refuted.
Example ima_ex :
  (do (out, s1) <- ima_adpcm_encode DVI4 false ima_init [0; 10; 50; 300; 2000; 8000; -9000; -32768] ;
   do (ys, d1) <- ima_adpcm_decode DVI4 false {| last := 77; step_index := 5; ima_byte := 0; nbits := 0 |} out ;
   Ok (out, ys, st s1, st d1))
  = Ok ([0; 0; 0; 0; 6; 119; 119; 255], [0; 10; 33; 85; 197; 440; -81; -1201], (-1201, 54), (-1201, 54)).
Proof. vm_compute. reflexivity. Qed.

(** C26: the same for the variable length coding, with any number of samples in
    each packet. *)
Theorem ima_vdvi_round_trip :
  forall chunked s d amp, samples amp -> valid ima_coder (st s) -> (chunked = true -> st d = st s) ->
    exists out s' d' ys, ima_adpcm_encode VDVI chunked s amp = Ok (out, s') /\ bytes out /\
      ima_adpcm_decode VDVI chunked d out = Ok (ys, d') /\
      coding ima_coder (st s) amp ys (st s') /\ st d' = st s' /\ valid ima_coder (st s').
Proof. exact vdvi_round_trip. Qed.
Print Assumptions ima_vdvi_round_trip.
(** The data is the words of codes, followed by ones to fill an octet. *)
Theorem ima_vdvi_words :
  forall amp s p, samples amp -> valid ima_coder (st s) -> nbits s = Z.of_nat (length p) -> (length p < 8)%nat ->
    ima_byte s mod 2 ^ Z.of_nat (length p) = of_bits_msb p ->
    exists cs out s' k, chosen ima_coder (st s) amp cs /\ encv s amp = Ok (out, s') /\ bytes out /\ st s' = snd (play ima_coder (st s) cs) /\
      Bits.unpack_msb out = p ++ flat_map vdvi_word cs ++ repeat true k /\ (k < 8)%nat.
Proof. exact encv_ok. Qed.
Print Assumptions ima_vdvi_words.
Example vdvi_ex :
  (do (out, s1) <- ima_adpcm_encode VDVI true ima_init [0; 3; 50; -20; 0] ;
   do (ys, d1) <- ima_adpcm_decode VDVI true ima_init out ;
   Ok (out, ys, st s1, st d1)) = Ok ([51; 251; 253; 127], [0; 3; 14; -16; -4], (-4, 15), (-4, 15)).
Proof. vm_compute. reflexivity. Qed.

(** C27: exactly which data makes the decoder read outside a table or the data:
    none without headers; with headers, packets too short to hold one, and those
    with a step index above 88 and something after the header. *)
Theorem ima_decode_safe_exactly :
  forall v chunked s data, valid ima_coder (st s) -> bytes data ->
    (is_ok (ima_adpcm_decode v chunked s data) = true <->
     chunked = true \/ ((3 <= length data)%nat /\ (nth 2 data 0 <= 88 \/ (length data <= 4)%nat))).
Proof. exact ima_decode_safe_iff. Qed.
Print Assumptions ima_decode_safe_exactly.
Theorem ima_decode_any_data :
  forall v s data, valid ima_coder (st s) -> bytes data ->
    exists ys s', ima_adpcm_decode v true s data = Ok (ys, s') /\ valid ima_coder (st s') /\ samples ys.
Proof. exact ima_decode_valid. Qed.
Print Assumptions ima_decode_any_data.
(** So not every packet is safe. *)
Theorem ima_decode_safe_refuted :
  exists data, bytes data /\ ima_adpcm_decode DVI4 false ima_init data = UB.
Proof. exact ltac:(exists [0; 0; 89; 0; 0]; split; [repeat constructor; lia | vm_compute; reflexivity]). Qed.
Print Assumptions ima_decode_safe_refuted.

(** C28 *)
Theorem oki_round_trip_ok :
  forall s d amp, Nat.even (length amp) = true -> samples amp -> valid oki_coder (ost s) -> Z.even (omark s) = true -> ost d = ost s ->
    exists out s' d' ys, oki_adpcm_encode s amp = Ok (out, s') /\ bytes out /\ (2 * length out = length amp)%nat /\
      oki_adpcm_decode d out = Ok (map (Z.mul 16) ys, d') /\
      coding oki_coder (ost s) (map (fun x => x / 16) amp) ys (ost s') /\ ost d' = ost s' /\ valid oki_coder (ost s') /\ Z.even (omark s') = true.
Proof. exact oki_round_trip. Qed.
Print Assumptions oki_round_trip_ok.
Theorem oki_encode_calls :
  forall a s b, oki_adpcm_encode s (a ++ b) =
    (do (o1, s1) <- oki_adpcm_encode s a ; do (o2, s2) <- oki_adpcm_encode s1 b ; Ok (o1 ++ o2, s2)).
Proof. exact oki_encode_app. Qed.
Print Assumptions oki_encode_calls.
Theorem oki_decode_calls :
  forall a s b, oki_adpcm_decode s (a ++ b) =
    (do (o1, s1) <- oki_adpcm_decode s a ; do (o2, s2) <- oki_adpcm_decode s1 b ; Ok (o1 ++ o2, s2)).
Proof. exact oki_decode_app. Qed.
Print Assumptions oki_decode_calls.
Theorem oki_decode_any_data :
  forall data d, valid oki_coder (ost d) ->
    exists ys d', oki_adpcm_decode d data = Ok (ys, d') /\ length ys = (2 * length data)%nat /\ valid oki_coder (ost d') /\
      Forall (fun y => -32768 <= y <= 32752 /\ y mod 16 = 0) ys.
Proof. exact oki_decode_safe. Qed.
Print Assumptions oki_decode_any_data.
Example oki_ex :
  (do (out, s1) <- oki_adpcm_encode oki_init [0; 100; 500; 3000; 20000; 32767] ;
   do (ys, d1) <- oki_adpcm_decode oki_init out ; Ok (out, ys, ost s1, ost d1))
  = Ok ([1; 87; 119], [32; 128; 480; 1136; 2624; 5808], (363, 28), (363, 28)).
Proof. vm_compute. reflexivity. Qed.
