(** Properties C08-C10: G.711 (src/g711.c, src/spandsp/g711.h) *)
From Verif Require Import Base G711_model G711_spec G711_proofs.

(** C08 *)
Theorem ulaw_decode_encode : forall u, byte u -> linear_to_ulaw (ulaw_to_linear u) = if u =? 0x7F then 0xFF else u.
Proof. exact ulaw_round. Qed.
Print Assumptions ulaw_decode_encode.
Theorem ulaw_monotone : forall x y, int16 x -> int16 y -> x <= y ->
  ulaw_to_linear (linear_to_ulaw x) <= ulaw_to_linear (linear_to_ulaw y).
Proof. exact ulaw_mono. Qed.
Print Assumptions ulaw_monotone.
Theorem ulaw_symmetric : forall x, int16 x -> ulaw_to_linear (linear_to_ulaw (- x)) = - ulaw_to_linear (linear_to_ulaw x).
Proof. exact ulaw_sym. Qed.
Print Assumptions ulaw_symmetric.
Theorem ulaw_error_half_step : forall x, Z.abs x <= 32635 ->
  Z.abs (x - ulaw_to_linear (linear_to_ulaw x)) <= ulaw_half_step (ulaw_to_linear (linear_to_ulaw x)).
Proof. exact ulaw_err. Qed.
Print Assumptions ulaw_error_half_step.
Theorem ulaw_saturates : forall x, 32636 <= x <= 2147483515 -> linear_to_ulaw x = 0x80 /\ linear_to_ulaw (- x) = 0x00.
Proof. exact ulaw_sat. Qed.
Print Assumptions ulaw_saturates.
Example ulaw_case : linear_to_ulaw 1000 = 0xCE /\ ulaw_to_linear 0xCE = 988 /\ ulaw_half_step 988 = 32 /\ ulaw_to_linear 0x80 = 32124 /\ linear_to_ulaw (ulaw_to_linear 0x7F) = 0xFF.
Proof. vm_compute. auto. Qed.

(** C09 *)
Theorem alaw_decode_encode : forall a, byte a -> linear_to_alaw (alaw_to_linear a) = a.
Proof. exact alaw_round. Qed.
Print Assumptions alaw_decode_encode.
Theorem alaw_monotone : forall x y, int16 x -> int16 y -> x <= y ->
  alaw_to_linear (linear_to_alaw x) <= alaw_to_linear (linear_to_alaw y).
Proof. exact alaw_mono. Qed.
Print Assumptions alaw_monotone.
Theorem alaw_symmetric : forall x, int16 x -> alaw_to_linear (linear_to_alaw (- x - 1)) = - alaw_to_linear (linear_to_alaw x).
Proof. exact alaw_sym. Qed.
Print Assumptions alaw_symmetric.
Theorem alaw_error_half_step : forall x, int16 x ->
  Z.abs (x - alaw_to_linear (linear_to_alaw x)) <= alaw_half_step (alaw_to_linear (linear_to_alaw x)).
Proof. exact alaw_err. Qed.
Print Assumptions alaw_error_half_step.
Theorem alaw_saturates : forall x, 32768 <= x <= 2147483647 ->
  linear_to_alaw x = Z.lxor 0xFF 0x55 /\ linear_to_alaw (- x - 1) = Z.lxor 0x7F 0x55.
Proof. exact alaw_sat. Qed.
Print Assumptions alaw_saturates.
Example alaw_case : linear_to_alaw 1000 = 0xFA /\ alaw_to_linear 0xFA = 1008 /\ alaw_half_step 1008 = 16 /\ alaw_to_linear (linear_to_alaw 32767) = 32256.
Proof. vm_compute. auto. Qed.

(** C10 *)
Theorem g711_decode_buffer : forall m amp data n, (n <= length amp)%nat -> (n <= length data)%nat ->
  g711_decode m amp data (Z.of_nat n) = Ok (map (match m with G711_ALAW => alaw_to_linear | G711_ULAW => ulaw_to_linear end) (firstn n data) ++ skipn n amp, Z.of_nat n).
Proof. exact decode_ok. Qed.
Print Assumptions g711_decode_buffer.
Theorem g711_encode_buffer : forall m data amp n, (n <= length data)%nat -> (n <= length amp)%nat ->
  g711_encode m data amp (Z.of_nat n) = Ok (map (match m with G711_ALAW => linear_to_alaw | G711_ULAW => linear_to_ulaw end) (firstn n amp) ++ skipn n data, Z.of_nat n).
Proof. exact encode_ok. Qed.
Print Assumptions g711_encode_buffer.
Theorem g711_transcode_buffer : forall m outb inp n, (n <= length outb)%nat -> (n <= length inp)%nat ->
  g711_transcode m outb inp (Z.of_nat n) = Ok (map (match m with G711_ALAW => alaw_to_ulaw | G711_ULAW => ulaw_to_alaw end) (firstn n inp) ++ skipn n outb, Z.of_nat n).
Proof. exact transcode_ok. Qed.
Print Assumptions g711_transcode_buffer.
Theorem g711_alaw_buffer_round_trip : forall data amp out n, bytes data -> length data = n -> length amp = n -> length out = n ->
  exists l, g711_decode G711_ALAW amp data (Z.of_nat n) = Ok (l, Z.of_nat n) /\ length l = n /\
            g711_encode G711_ALAW out l (Z.of_nat n) = Ok (data, Z.of_nat n).
Proof. exact alaw_buffer_round. Qed.
Print Assumptions g711_alaw_buffer_round_trip.
Theorem g711_transcode_error : forall x, byte x ->
  Z.abs (alaw_to_linear (ulaw_to_alaw x) - ulaw_to_linear x) <= ulaw_half_step (ulaw_to_linear x) + alaw_half_step (alaw_to_linear (ulaw_to_alaw x)) /\
  Z.abs (ulaw_to_linear (alaw_to_ulaw x) - alaw_to_linear x) <= alaw_half_step (alaw_to_linear x) + ulaw_half_step (ulaw_to_linear (alaw_to_ulaw x)).
Proof. exact trans_err. Qed.
Print Assumptions g711_transcode_error.
Theorem g711_transcode_monotone : forall x y, byte x -> byte y ->
  (ulaw_to_linear x < ulaw_to_linear y -> alaw_to_linear (ulaw_to_alaw x) <= alaw_to_linear (ulaw_to_alaw y)) /\
  (alaw_to_linear x < alaw_to_linear y -> ulaw_to_linear (alaw_to_ulaw x) <= ulaw_to_linear (alaw_to_ulaw y)).
Proof. exact trans_mono. Qed.
Print Assumptions g711_transcode_monotone.
Theorem g711_transcode_stable : forall x, byte x ->
  alaw_to_ulaw (ulaw_to_alaw (alaw_to_ulaw x)) = alaw_to_ulaw x /\ ulaw_to_alaw (alaw_to_ulaw (ulaw_to_alaw x)) = ulaw_to_alaw x.
Proof. exact trans_stable. Qed.
Print Assumptions g711_transcode_stable.
Theorem g711_transcode_one_level : forall x v, byte x -> byte v ->
  (let a := alaw_to_linear x in let b := alaw_to_linear (ulaw_to_alaw (alaw_to_ulaw x)) in
   ~ (Z.min a b < alaw_to_linear v < Z.max a b)) /\
  (let a := ulaw_to_linear x in let b := ulaw_to_linear (alaw_to_ulaw (ulaw_to_alaw x)) in
   ~ (Z.min a b < ulaw_to_linear v < Z.max a b)).
Proof. exact trans_one_level. Qed.
Print Assumptions g711_transcode_one_level.
Example g711_case : g711_encode G711_ULAW [1;1;1;7] [0; 1000; -1000] 3 = Ok ([0xFF; 0xCE; 0x4E; 7], 3)
  /\ g711_transcode G711_ULAW [0;0] [0x7F; 0xCE] 2 = Ok ([85; 250], 2) /\ alaw_to_ulaw (ulaw_to_alaw 113) = 112.
Proof. vm_compute. auto. Qed.
