(** The properties of the G.722 codec (src/g722.c).  Each theorem is followed by an example that shows its
    hypotheses can be met. *)
From Verif Require Import Base G722_model G722_spec G722_final_proofs G722_track_proofs G722_signal_proofs.
Local Open Scope Z_scope.

(** C95: the encoder turns any audio into one code of 6, 7 or 8 bits per sample (8 kHz) or pair of samples (16 kHz); packed,
    the octets hold the bits of these codes in order; the predictors and step sizes stay within the limits of the recommendation. *)
Theorem g722_encode_codes : forall c amp, audio amp -> whole c amp ->
  exists codes x y, g722_encode (plain c) g722_init amp = Ok (codes, x) /\ Forall (code_ok (bits c)) codes /\ length codes = n_codes c amp /\
    g722_encode c g722_init amp = Ok (if packed c then octets_of (bits c) codes else codes, y) /\ same_bands x y /\ limits y.
Proof. exact encode_api. Qed.
Print Assumptions g722_encode_codes.
Example g722_encode_case : audio [1000; 2000; -3000; 4000] /\ whole (options R48 true true) [1000; 2000; -3000; 4000] /\
  (exists x, g722_encode (options R48 true false) g722_init [1000; 2000; -3000; 4000] = Ok ([56; 56; 49; 56], x)) /\
  (exists x, g722_encode (options R48 true true) g722_init [1000; 2000; -3000; 4000] = Ok ([56; 30; 227], x)).
Proof.
  split; [repeat constructor; unfold sample; lia|]. split; [intros X; discriminate|]. split; eexists; vm_compute; reflexivity.
Qed.

(** C96: the decoder accepts any octets; its output is that of the codes they hold, two samples (16 kHz) or one for each,
    within 16 bits, and the limits hold.  When packed, the last code may have to wait for the next call. *)
Theorem g722_decode_any : forall c data, bytes data -> exists n out x y,
  let codes := if packed c then codes_of (bits c) data else data in
  (n <= length codes <= n + (if packed c then 1 else 0))%nat /\ g722_decode (plain c) g722_init (firstn n codes) = Ok (out, x) /\ audio out /\ length out = (per_code c * n)%nat /\
  g722_decode c g722_init data = Ok (out, y) /\ same_bands x y /\ limits y.
Proof. exact decode_api. Qed.
Print Assumptions g722_decode_any.
Example g722_decode_case : bytes [158; 48; 134; 33; 134] /\
  exists x, g722_decode (options R64 false false) g722_init [158; 48; 134; 33; 134] = Ok ([-1; 0; 0; -1; -1; 0; 0; -2; -1; 4], x).
Proof. split; [repeat constructor; unfold byte; lia|]. eexists. vm_compute. reflexivity. Qed.

(** C97: it makes no difference how the audio and the octets are divided into calls, provided the calls at 16 kHz
    hold whole pairs of samples. *)
Theorem g722_encode_calls : forall c ls x, Forall (whole c) ls -> encode_calls c x ls = g722_encode c x (concat ls).
Proof. exact encode_calls_concat. Qed.
Print Assumptions g722_encode_calls.
Theorem g722_decode_calls : forall c ls, decode_calls c g722_init ls = g722_decode c g722_init (concat ls).
Proof. exact decode_calls_concat. Qed.
Print Assumptions g722_decode_calls.
Example g722_calls_case : exists x y, encode_calls (options R56 false true) g722_init [[1; 2]; [30; 4; 500; 6]; []; [7; 8]] = Ok ([239; 247; 59], x) /\
  decode_calls (options R48 true true) g722_init [[56]; [30; 227]] = Ok ([38; 108; -304], y).
Proof. eexists _, _. split; vm_compute; reflexivity. Qed.

(** C98: a decoder at the same rate of bits, given what the encoder made, ends with the predictor and step size of the lower band that
    the encoder had after the codes decoded so far - all of them when not packed, all but two at most when packed;
    the higher band too when both work at the same rate of samples. *)
Theorem g722_decoder_tracks : forall c cd amp, audio amp -> whole c amp -> bits cd = bits c -> packed cd = packed c ->
  exists data x n out z data1 y, g722_encode c g722_init amp = Ok (data, x) /\ bytes data /\ g722_decode cd g722_init data = Ok (out, z) /\
    (n <= n_codes c amp <= n + (if packed c then 2 else 0))%nat /\ length out = (per_code cd * n)%nat /\
    g722_encode c g722_init (firstn (spc c * n) amp) = Ok (data1, y) /\ low z = low y /\ (eight_k cd = eight_k c -> high z = high y).
Proof. exact tracks. Qed.
Print Assumptions g722_decoder_tracks.
Example g722_tracks_case : let c := options R64 false false in let amp := [1000; 2000; -3000; 4000; 500; 600; 700; 8000; 9000; -10000] in
  match g722_encode c g722_init amp with
  | Ok (data, x) => match g722_decode c g722_init data with Ok (_, z) => low z = low x /\ high z = high x /\ low z <> low g722_init | UB => False end
  | UB => False
  end.
Proof. vm_compute. repeat split; congruence. Qed.

(** C99: at 8 kHz, quantising is consistent: when the last sample [v] is replaced by any value [z] between it and the output [y] that
    the decoder gives for it, the encoder makes the same octets and ends in the same state. *)
Theorem g722_same_interval : forall r p hist v, audio (hist ++ [v]) -> let c := options r true p in
  exists codes x data x2 out y d, g722_encode (plain c) g722_init (hist ++ [v]) = Ok (codes, x) /\ g722_encode c g722_init (hist ++ [v]) = Ok (data, x2) /\
    g722_decode (plain c) g722_init codes = Ok (out ++ [y], d) /\
    forall z, sample z -> v <= z < y \/ y + 2 <= z <= v -> g722_encode c g722_init (hist ++ [z]) = Ok (data, x2).
Proof. exact same_interval. Qed.
Print Assumptions g722_same_interval.
Example g722_interval_case : let c := options R64 true false in
  (exists x, g722_encode c g722_init [1000; 2000; 160] = Ok ([224; 224; 231], x)) /\
  (exists d, g722_decode c g722_init [224; 224; 231] = Ok ([48; 132; 168], d)) /\
  (exists x, g722_encode c g722_init [1000; 2000; 167] = Ok ([224; 224; 231], x)).
Proof. split; [|split]; eexists; vm_compute; reflexivity. Qed.

(** C100: at 56 and 48 kbit/s within octets of 64 kbit/s - the lowest one or two bits of an octet replaced by other data - the
    decoder keeps step: octets that agree in the upper six bits of the code leave the predictors in the same state. *)
Theorem g722_auxiliary_data : forall c l1 l2, packed c = false -> bytes l1 -> bytes l2 -> Forall2 (fun a b => upper (bits c) a = upper (bits c) b) l1 l2 ->
  exists o1 x1 o2 x2, g722_decode c g722_init l1 = Ok (o1, x1) /\ g722_decode c g722_init l2 = Ok (o2, x2) /\ same_bands x1 x2 /\ length o1 = length o2.
Proof. exact aux_data. Qed.
Print Assumptions g722_auxiliary_data.
Example g722_auxiliary_case : Forall2 (fun a b => upper R64 a = upper R64 b) [158; 48; 135] [157; 51; 132] /\
  match g722_decode (options R64 true false) g722_init [158; 48; 135], g722_decode (options R64 true false) g722_init [157; 51; 132] with
  | Ok (o1, _), Ok (o2, _) => o1 <> o2 | _, _ => False end.
Proof. split; [repeat constructor|]. vm_compute. congruence. Qed.

(** C101: what an encoder at 8 kHz makes can be decoded at 16 kHz: the lower band is the output of a decoder at 8 kHz, the higher
    band is silence throughout, so that both halves of the joining filter get the same input. *)
Theorem g722_narrow_to_wide : forall r p amp, audio amp -> let c := options r true p in
  exists data x out y z out2 w, g722_encode c g722_init amp = Ok (data, x) /\ g722_decode c g722_init data = Ok (out, y) /\
    g722_decode (test_mode c) g722_init data = Ok (flat_map (fun v => [v; 0]) out, z) /\
    g722_decode (wide c) g722_init data = Ok (out2, w) /\ xs w = ys w /\ sig (high w) = 0.
Proof. exact narrow_to_wide. Qed.
Print Assumptions g722_narrow_to_wide.
Example g722_narrow_case : exists z, g722_decode (test_mode (options R64 true false)) g722_init [224; 224; 231] = Ok ([48; 0; 132; 0; 168; 0], z).
Proof. eexists. vm_compute. reflexivity. Qed.

(** C102, in full: [forall c data, packed c = true -> bytes data -> exists out x, g722_decode c g722_init data = Ok (out, x) /\
    length out = (per_code c * length (codes_of (bits c) data))%nat].  Three octets at 48 kbit/s hold four codes; the loop ends when the
    last octet is taken, with the fourth code whole in the buffer.  C96 gives what holds. *)
Theorem g722_decode_all_refuted : exists c data out x, packed c = true /\ bytes data /\ g722_decode c g722_init data = Ok (out, x) /\
  length (codes_of (bits c) data) = 4%nat /\ length out = 3%nat /\ nbits x = 6.
Proof.
  eexists (options R48 true true), [56; 30; 227], _, _. split; [reflexivity|]. split; [repeat constructor; unfold byte; lia|].
  split; [vm_compute; reflexivity|]. split; [vm_compute; reflexivity|]. split; reflexivity.
Qed.
Print Assumptions g722_decode_all_refuted.

(** C103, in full: [forall c x amp, audio amp -> exists o y, g722_encode c x amp = Ok (o, y)] for any number of samples.
    With an odd number at 16 kHz amp[len] is read. *)
Theorem g722_encode_reads_refuted : exists c amp, audio amp /\ g722_encode c g722_init amp = UB.
Proof. exists (options R64 false false), [1; 2; 3]. split; [repeat constructor; unfold sample; lia | vm_compute; reflexivity]. Qed.
Print Assumptions g722_encode_reads_refuted.

(** C104, in full: [forall c cd amp, ...the decoder of what the encoder made gives all the codes]: the bits of the last codes
    that do not fill an octet stay in the encoder, and there is no call to get them out.  C98 gives what holds. *)
Theorem g722_all_sent_refuted : exists c amp data x out y, audio amp /\ g722_encode c g722_init amp = Ok (data, x) /\ data = [] /\ length amp = 1%nat /\
  nbits x = 6 /\ g722_decode c g722_init data = Ok (out, y) /\ out = [].
Proof.
  eexists (options R48 true true), [1000], _, _, _, _. split; [repeat constructor; unfold sample; lia|]. split; [vm_compute; reflexivity|].
  split; [reflexivity|]. split; [reflexivity|]. split; [reflexivity|]. split; reflexivity.
Qed.
Print Assumptions g722_all_sent_refuted.
