(** Properties of the G.726 codec. *)
From Verif Require Import Base G726_model G726_spec G726_quant_proofs G726_final_proofs G726_cell_proofs.
Local Open Scope Z_scope.

(** C77: the encoder takes any audio, whatever the bit rate, coding and packing, without an access outside a table or a
    bad shift.  It sends one code per sample, never the all zero code (which is reserved to signal a break at 24, 32 and
    40 kbps); packed output is those same codes, as a stream of bits cut into octets, as far as whole octets go; and the
    adaptive predictor's poles and the scale factor stay within the limits of the recommendation. *)
Theorem g726_encode_codes :
  forall r c p xs, audio c xs ->
    exists codes x y, g726_encode r c PNONE g726_init xs = Ok (codes, x) /\ Forall (sent_code r) codes /\ length codes = length xs /\
      g726_encode r c p g726_init xs = Ok (packed r p codes, y) /\ st y = st x /\ stable (st y).
Proof. exact encode_api. Qed.
Print Assumptions g726_encode_codes.
Example g726_encode_codes_case : exists x y, g726_encode R40 ALAW PNONE g726_init [0; 0x55; 0xD5; 0x2A; 0xAA; 0x10; 0x90; 0x33] = Ok ([16; 30; 31; 16; 15; 16; 15; 16], x) /\
  g726_encode R40 ALAW PLEFT g726_init [0; 0x55; 0xD5; 0x2A; 0xAA; 0x10; 0x90; 0x33] = Ok ([135; 191; 7; 193; 240], y).
Proof. eexists _, _. split; vm_compute; reflexivity. Qed.

(** C78: the decoder takes any octets.  Packed octets decode to what the codes in them decode to, one sample per whole
    code, each sample is in range for the coding, and the state keeps to the limits of the recommendation. *)
Theorem g726_decode_any :
  forall r c p data, bytes data ->
    exists out x y, g726_decode r c PNONE g726_init (unpacked r p data) = Ok (out, x) /\ audio c out /\ length out = length (unpacked r p data) /\
      g726_decode r c p g726_init data = Ok (out, y) /\ st y = st x /\ stable (st y).
Proof. exact decode_api. Qed.
Print Assumptions g726_decode_any.
Example g726_decode_any_case : unpacked R24 PRIGHT [255; 0; 0x5A] = [7; 7; 3; 0; 0; 4; 6; 2] /\
  exists y, g726_decode R24 LINEAR PRIGHT g726_init [255; 0; 0x5A] = Ok ([0; 0; 60; 0; 0; -64; -28; 52], y).
Proof. split; [vm_compute; reflexivity|]. eexists. vm_compute. reflexivity. Qed.

(** C79: how audio or octets are cut into calls makes no difference. *)
Theorem g726_encode_calls :
  forall r c p ls x, encode_calls r c p x ls = g726_encode r c p x (concat ls).
Proof. exact encode_calls_concat. Qed.
Print Assumptions g726_encode_calls.
Theorem g726_decode_calls :
  forall r c p ls, bytes (concat ls) -> decode_calls r c p g726_init ls = g726_decode r c p g726_init (concat ls).
Proof. exact decode_calls_concat. Qed.
Print Assumptions g726_decode_calls.
Example g726_calls_case : exists x, encode_calls R24 ULAW PRIGHT g726_init [[1; 2]; []; [3]; [4; 200; 9; 8; 7]] = Ok ([36; 57; 146], x).
Proof. eexists. vm_compute. reflexivity. Qed.

(** C80: the decoder follows the encoder: after any audio its state is the encoder's, whatever coding its output has,
    and through packing it gives the samples of all the codes in the octets sent: all of them when the number of samples
    is a multiple of 8. *)
Theorem g726_decoder_tracks :
  forall r c c2 p xs, audio c xs ->
    exists codes x data y ys z u, g726_encode r c PNONE g726_init xs = Ok (codes, x) /\ g726_encode r c p g726_init xs = Ok (data, y) /\
      bytes data /\
      g726_decode r c2 PNONE g726_init codes = Ok (ys, z) /\ st z = st x /\ length ys = length xs /\
      g726_decode r c2 p g726_init data = Ok (firstn (whole_codes r p (length xs)) ys, u).
Proof. exact link. Qed.
Print Assumptions g726_decoder_tracks.
Theorem g726_decoder_tracks_packed :
  forall r c c2 p xs, audio c xs -> (length xs mod 8 = 0)%nat ->
    exists codes data x y ys z u, g726_encode r c PNONE g726_init xs = Ok (codes, x) /\ g726_encode r c p g726_init xs = Ok (data, y) /\
      unpacked r p data = codes /\ st y = st x /\
      g726_decode r c2 p g726_init data = Ok (ys, u) /\ st u = st y /\ length ys = length xs /\ audio c2 ys /\
      g726_decode r c2 PNONE g726_init codes = Ok (ys, z).
Proof. exact link_whole. Qed.
Print Assumptions g726_decoder_tracks_packed.
Theorem g726_unpack_pack :
  forall r p codes, Forall (any_code r) codes -> unpacked r p (packed r p codes) = firstn (whole_codes r p (length codes)) codes.
Proof. exact unpack_pack. Qed.
Print Assumptions g726_unpack_pack.
Example g726_tracks_case : exists y ys u, g726_encode R32 LINEAR PLEFT g726_init [0; 100; 300; -500; 2000; 5000; -3000; 0] = Ok ([247; 120; 119; 143], y) /\
  g726_decode R32 LINEAR PLEFT g726_init [247; 120; 119; 143] = Ok (ys, u) /\ ys = [0; 88; 120; -172; 236; 356; -540; 16] /\ st u = st y.
Proof. eexists _, _, _. split; [vm_compute; reflexivity|]. split; [vm_compute; reflexivity|]. split; [reflexivity|]. vm_compute. reflexivity. Qed.

(** C81: synchronous tandeming: once A-law or mu-law has been through one encoder and decoder, going through any number
    of further ones changes nothing more: the second encoder sends exactly the codes the first one sent. *)
Theorem g726_tandem_codes :
  forall r c xs, c <> LINEAR -> bytes xs ->
    exists codes x ys y z, g726_encode r c PNONE g726_init xs = Ok (codes, x) /\ g726_decode r c PNONE g726_init codes = Ok (ys, y) /\ bytes ys /\
      g726_encode r c PNONE g726_init ys = Ok (codes, z) /\ st z = st x /\ st y = st x.
Proof. exact tandem_once. Qed.
Print Assumptions g726_tandem_codes.
Theorem g726_tandem :
  forall r c n xs, c <> LINEAR -> bytes xs ->
    exists ys, tandem r c 1 xs = Ok ys /\ tandem r c (S n) xs = Ok ys /\ length ys = length xs.
Proof. exact tandem_many. Qed.
Print Assumptions g726_tandem.
Example g726_tandem_case : tandem R24 ULAW 1 [1; 200; 30; 255; 127; 0; 128; 64] = Ok [119; 246; 117; 255; 255; 118; 241; 108] /\
  tandem R24 ULAW 7 [1; 200; 30; 255; 127; 0; 128; 64] = Ok [119; 246; 117; 255; 255; 118; 241; 108].
Proof. split; vm_compute; reflexivity. Qed.

(** C85: quantising is sound at every sample: what the decoder makes of a sample (before the wrap of C82) lies in the
    same interval of the quantiser as the sample itself, give or take the last unit of 14 bits: had the sample been
    anything between the two, the same codes would have been sent and both ends be in the same state. *)
Theorem g726_same_interval :
  forall r xs x, audio LINEAR (xs ++ [x]) ->
    exists codes c ys w d, g726_encode r LINEAR PNONE g726_init (xs ++ [x]) = Ok (codes, c) /\
      g726_decode r LINEAR PNONE g726_init codes = Ok (ys ++ [s16 (4 * w)], d) /\
      forall z, sample LINEAR z -> x <= z < 4 * w \/ 4 * w + 4 <= z <= x ->
        g726_encode r LINEAR PNONE g726_init (xs ++ [z]) = Ok (codes, c).
Proof. exact same_interval. Qed.
Print Assumptions g726_same_interval.
Example g726_same_interval_case : exists c d e, g726_encode R24 LINEAR PNONE g726_init [0; 400] = Ok ([7; 3], c) /\
  g726_decode R24 LINEAR PNONE g726_init [7; 3] = Ok ([0; 60], d) /\ g726_encode R24 LINEAR PNONE g726_init [0; 64] = Ok ([7; 3], e).
Proof. eexists _, _, _. split; [vm_compute; reflexivity|]. split; vm_compute; reflexivity. Qed.

(** C82: that linear output stays near the input (limited, if need be, to the range of a sample) is false: the
    reconstructed signal is not limited before it is scaled up to 16 bits.  At every bit rate a loud square wave has
    samples of full positive scale which come out strongly negative. *)
Theorem g726_linear_limited_refuted :
  forall r, exists xs codes x ys y k, audio LINEAR xs /\ g726_encode r LINEAR PNONE g726_init xs = Ok (codes, x) /\
      g726_decode r LINEAR PNONE g726_init codes = Ok (ys, y) /\ nth k xs 0 = 32767 /\ nth k ys 0 < -20000.
Proof. exact overload. Qed.
Print Assumptions g726_linear_limited_refuted.
(** C83: that a small change of the signal changes the predictor gently is false for the zeros: their coefficients are
    not kept within their 16 bits.  A quiet signal takes all six from nearly +2 to nearly -2 in one sample. *)
Theorem g726_zeros_wrap_refuted :
  exists xs v codes1 x codes2 y, Forall (fun z => Z.abs z <= 2300) (xs ++ [v]) /\
      g726_encode R40 LINEAR PNONE g726_init xs = Ok (codes1, x) /\ g726_encode R40 LINEAR PNONE x [v] = Ok (codes2, y) /\
      Forall (fun z => z > 32700) (b (st x)) /\ Forall (fun z => z < -32700) (b (st y)).
Proof. exact quiet_wrap. Qed.
Print Assumptions g726_zeros_wrap_refuted.
(** C84: that all audio given to the encoder gets sent is false with packing: codes that do not fill an octet stay in the
    context, and there is no call that gives them out. *)
Theorem g726_all_sent_refuted :
  exists codes x, g726_encode R40 ULAW PLEFT g726_init [0; 0; 0] = Ok (codes, x) /\ length codes = 1%nat /\ residue x = 7.
Proof. exact held_back. Qed.
Print Assumptions g726_all_sent_refuted.
