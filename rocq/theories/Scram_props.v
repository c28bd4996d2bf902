(** Theorems about the modem scramblers and the bit paths around them (C35). *)
From Verif Require Import Base Scram_model Scram_spec Scram_proofs Scram_sym_proofs.
Local Open Scope Z_scope.

(** C35: descrambling undoes scrambling when the registers start equal. *)
Theorem v17_scrambler_roundtrip :
  forall tap stage r d, 0 <= tap <= 22 -> ~ (V17_NORMAL < stage < V17_TCM_WINDUP) ->
    fst (run (v17_descramble stage tap) r (fst (run (v17_scramble tap) r (zs d)))) = zs d.
Proof. exact v17_roundtrip. Qed.
Print Assumptions v17_scrambler_roundtrip.
Theorem v29_scrambler_roundtrip :
  forall r d, fst (run v29_descramble r (fst (run v29_scramble r (zs d)))) = zs d.
Proof. exact v29_roundtrip. Qed.
Print Assumptions v29_scrambler_roundtrip.
Theorem v27ter_scrambler_roundtrip :
  forall stage s d, ~ (V27_NORMAL < stage < V27_TEST_ONES) ->
    fst (run (v27_descramble stage) s (fst (run v27_scramble s (zs d)))) = zs d.
Proof. exact v27_roundtrip. Qed.
Print Assumptions v27ter_scrambler_roundtrip.
Theorem v22bis_scrambler_roundtrip :
  forall s d, fst (run v22_descramble s (fst (run v22_scramble s (zs d)))) = zs d.
Proof. exact v22_roundtrip. Qed.
Print Assumptions v22bis_scrambler_roundtrip.
(** V.34: the two ends use complementary taps, whoever called. *)
Theorem v34_scrambler_roundtrip :
  forall calling r d,
    fst (run (v34_descramble (v34_rx_tap (negb calling))) r (fst (run (v34_scramble (v34_tx_tap calling)) r (zs d)))) = zs d /\
    forall r', skipn 23 (fst (run (v34_descramble (v34_rx_tap (negb calling))) r' (fst (run (v34_scramble (v34_tx_tap calling)) r (zs d))))) = skipn 23 (zs d).
Proof. exact v34_roundtrip. Qed.
Print Assumptions v34_scrambler_roundtrip.
(** ... and from any register after 23 bits; with the guards of V.27ter and V.22bis,
    once the line has also shown what restarts the guard's count. *)
Theorem v17_scrambler_selfsync :
  forall tap stage r r' d, 0 <= tap <= 22 -> ~ (V17_NORMAL < stage < V17_TCM_WINDUP) ->
    skipn 23 (fst (run (v17_descramble stage tap) r' (fst (run (v17_scramble tap) r (zs d))))) = skipn 23 (zs d).
Proof. exact v17_selfsync. Qed.
Print Assumptions v17_scrambler_selfsync.
Theorem v29_scrambler_selfsync :
  forall r r' d, skipn 23 (fst (run v29_descramble r' (fst (run v29_scramble r (zs d))))) = skipn 23 (zs d).
Proof. exact v29_selfsync. Qed.
Print Assumptions v29_scrambler_selfsync.
Theorem v27ter_scrambler_selfsync :
  forall stage s s' d1 d2 y1, ~ (V27_NORMAL < stage < V27_TEST_ONES) ->
    fst (run v27_scramble s (zs d1)) = zs y1 -> (exists n, v27_restart y1 n) ->
    skipn (length d1) (fst (run (v27_descramble stage) s' (fst (run v27_scramble s (zs (d1 ++ d2)))))) = zs d2.
Proof. exact v27_selfsync. Qed.
Print Assumptions v27ter_scrambler_selfsync.
Theorem v22bis_scrambler_selfsync :
  forall s s' d1 d2, (17 <= length d1)%nat -> In 0 (fst (run v22_scramble s (zs d1))) ->
    skipn (length d1) (fst (run v22_descramble s' (fst (run v22_scramble s (zs (d1 ++ d2)))))) = zs d2.
Proof. exact v22_selfsync. Qed.
Print Assumptions v22bis_scrambler_selfsync.
(** The line signal is that of the polynomial 1 + x^-(tap+1) + x^-23. *)
Theorem v17_scrambler_polynomial :
  forall tap r d, 0 <= tap <= 22 ->
    exists y, fst (run (v17_scramble tap) r (zs d)) = zs y /\ scrambled (Z.to_nat (tap + 1)) 23 d y.
Proof. exact v17_polynomial. Qed.
Print Assumptions v17_scrambler_polynomial.
(** In training the V.17 and V.29 receivers regenerate what the transmitter sends. *)
Theorem v17_training_matches :
  forall tap stage r b, 0 <= tap <= 22 -> V17_NORMAL < stage < V17_TCM_WINDUP ->
    v17_descramble stage tap r (Z.b2z b) = v17_scramble tap r (Z.b2z b).
Proof. exact v17_training. Qed.
Print Assumptions v17_training_matches.
Theorem v29_training_matches :
  forall reg, 0 <= reg < 256 -> v29_rx_training_bit reg = v29_tx_training_bit reg.
Proof. exact v29_training. Qed.
Print Assumptions v29_training_matches.
(** The V.27ter receiver does not keep the guard's count in training, and leaves
    it with the wrong count; the test ones put this right before any data. *)
Theorem v27ter_session_delivers :
  forall eight data, v27_session eight (zs data) = zs data.
Proof. exact v27_session_ok. Qed.
Print Assumptions v27ter_session_delivers.
(** The V.22bis guard breaks the all ones lock up. *)
Theorem v22bis_guard_works :
  forall r n, exists y,
    fst (run v22_scramble (r, 0) (zs (repeat true n))) = zs y /\ ones_at_most 64 y.
Proof. exact v22_guard. Qed.
Print Assumptions v22bis_guard_works.

(** Whole bit paths, the constellation turned by any angle the receiver can mistake. *)
Theorem v29_link_delivers :
  forall rate rho reg cs data, 0 <= rho < 8 -> 0 <= cs < 8 -> v29_fits rate rho -> v29_fits rate cs ->
    groups (v29_k rate) data ->
    concat (v29_rx rate reg (Z.land (cs + rho) 7) (map (rot8 rho) (v29_tx rate reg cs (map zs data)))) = zs (concat data).
Proof. exact v29_link. Qed.
Print Assumptions v29_link_delivers.
Theorem v29_link_recovers :
  forall rate rho reg reg' cs st data, 0 <= rho < 8 -> 0 <= cs < 8 -> v29_fits rate rho -> v29_fits rate cs ->
    groups (v29_k rate) data ->
    skipn (v29_k rate + 23) (concat (v29_rx rate reg' st (map (rot8 rho) (v29_tx rate reg cs (map zs data)))))
    = skipn (v29_k rate + 23) (zs (concat data)).
Proof. exact v29_link_sync. Qed.
Print Assumptions v29_link_recovers.
Theorem v27ter_link_delivers :
  forall eight rho s cs data, 0 <= rho < 8 -> 0 <= cs < 8 -> v27_fits eight rho -> v27_fits eight cs ->
    groups (v27_k eight) data ->
    concat (v27_rx eight s (v27_see eight rho cs) (map (v27_see eight rho) (v27_tx eight s cs (map zs data)))) = zs (concat data).
Proof. exact v27_link. Qed.
Print Assumptions v27ter_link_delivers.
Theorem v22bis_link_delivers :
  forall sixteen rho s cs low data, 0 <= rho < 4 -> 0 <= cs < 4 -> 0 <= low < 4 -> groups (v22_k sixteen) data ->
    concat (v22_rx sixteen s (rot4 rho (4 * cs + low)) (map (rot4 rho) (v22_tx sixteen s cs (map zs data)))) = zs (concat data).
Proof. exact v22_link. Qed.
Print Assumptions v22bis_link_delivers.

Definition some_bits : list bool := [true; false; false; true; true; true; false; true; false; false; false; true; true; false; true; true;
  false; true; true; true; false; false; true; false; true; true; true; false].
(** From the registers set by v17tx.c and v17rx.c. *)
Example v17_ex : fst (run (v17_scramble 17) 3067349 (zs some_bits)) =
  [0; 1; 1; 1; 0; 0; 1; 1; 1; 1; 1; 1; 0; 1; 0; 1; 1; 0; 0; 0; 0; 1; 0; 0; 1; 1; 1; 1]
  /\ fst (run (v17_descramble 0 17) 3067349 (fst (run (v17_scramble 17) 3067349 (zs some_bits)))) = zs some_bits.
Proof. vm_compute. auto. Qed.
(** From a wrong register the first bits are wrong, and the last five are right. *)
Example v29_ex : let out := fst (run v29_descramble 4294967295 (fst (run v29_scramble 0 (zs some_bits)))) in
  firstn 8 out = [1; 0; 0; 1; 1; 1; 0; 1] /\ firstn 5 (skipn 18 out) = [0; 0; 1; 1; 0] /\ skipn 23 out = [0; 1; 1; 1; 0]
  /\ firstn 5 (skipn 18 (zs some_bits)) = [1; 1; 0; 0; 1].
Proof. vm_compute. auto. Qed.
(** The V.22bis guard acts: the line of steady ones from a register of ones. *)
Example v22_ex : exists rest,
  fst (run v22_scramble (131071, 0) (zs (repeat true 80))) = repeat 1 64 ++ 0 :: rest.
Proof. eexists. vm_compute. reflexivity. Qed.
(** The guard of V.27ter acts too: data that keep the line steady are broken up,
    and the receiver undoes it. *)
Example v27_ex : nth 33 (fst (run v27_scramble (4095, 0) (zs (repeat true 40)))) 2 = 0
  /\ fst (run (v27_descramble 0) (4095, 0) (fst (run v27_scramble (4095, 0) (zs (repeat true 40))))) = zs (repeat true 40).
Proof. vm_compute. auto. Qed.
Example v29_link_ex : v29_tx R9600 5 3 (map zs [[true; false; true; true]; [false; false; false; false]; [true; true; true; false]]) = [14; 7; 12].
Proof. vm_compute. reflexivity. Qed.
