(** Properties of the QM arithmetic coder. *)
From Verif Require Import Base Arith_model Arith_spec Arith_enc_proofs Arith_dec_proofs.
Local Open Scope Z_scope.

(** C34: a stripe, whatever the probability states it starts from, and whatever
    follows the marker.  Encoder and decoder end with the same states, so stripes
    follow each other. *)
Theorem arith_lossless :
  forall e0 d0 reuse ds m tl,
    est e0 = dst d0 -> st_ok (est e0) -> Forall decision_ok ds -> m <> 0 ->
    exists s1 out, encode_all (t81_t82_arith_encode_restart e0 reuse) ds = Ok (s1, out) /\
      exists d1 rest, decode_all (t81_t82_arith_decode_restart d0 reuse) (map fst ds)
        (out ++ snd (t81_t82_arith_encode_flush s1) ++ [255; m] ++ tl) = Ok (map snd ds, d1, rest) /\
      dst d1 = est (fst (t81_t82_arith_encode_flush s1)) /\ st_ok (dst d1) /\ (ds <> [] -> rest = [255; m] ++ tl).
Proof. exact stripe_lossless. Qed.
Print Assumptions arith_lossless.
(** C34: a fresh coder *)
Theorem arith_lossless_init :
  forall ds m tl, Forall decision_ok ds -> m <> 0 ->
    exists s1 out, encode_all t81_t82_arith_encode_init ds = Ok (s1, out) /\
      exists d1 rest, decode_all t81_t82_arith_decode_init (map fst ds)
        (out ++ snd (t81_t82_arith_encode_flush s1) ++ [255; m] ++ tl) = Ok (map snd ds, d1, rest).
Proof. exact init_lossless. Qed.
Print Assumptions arith_lossless_init.
(** C48 *)
Theorem arith_no_marker :
  forall e0 reuse ds s1 out, st_ok (est e0) -> Forall decision_ok ds ->
    encode_all (t81_t82_arith_encode_restart e0 reuse) ds = Ok (s1, out) ->
    bytes (out ++ snd (t81_t82_arith_encode_flush s1)) /\ no_marker (out ++ snd (t81_t82_arith_encode_flush s1)).
Proof. exact stripe_no_marker. Qed.
Print Assumptions arith_no_marker.
(** C49: [dsafe] is an invariant which a restart establishes. *)
Theorem arith_decode_restart_safe :
  forall d reuse, st_ok (dst d) -> dsafe (t81_t82_arith_decode_restart d reuse).
Proof. exact dsafe_restart. Qed.
Print Assumptions arith_decode_restart_safe.
Theorem arith_decode_safe :
  forall d cx inp, dsafe d -> 0 <= cx < 4096 -> bytes inp ->
    exists r d' inp', t81_t82_arith_decode d cx inp = Ok (r, d', inp') /\ dsafe d' /\ bytes inp' /\
      ((r = 0 \/ r = 1) /\ dnopadding d' = dnopadding d \/
       (r = -1 /\ (inp' = [] \/ inp' = [255]) /\ 0 <= dct d' <= 8 /\ dnopadding d' = dnopadding d) \/
       (r = -2 /\ dnopadding d = true /\ dnopadding d' = false /\ dct d' = -1)).
Proof. exact decode_safe. Qed.
Print Assumptions arith_decode_safe.
(** C50: waiting for more input, and not minding what comes later *)
Theorem arith_decode_resume :
  forall d cx inp more d' inp', dsafe d -> 0 <= cx < 4096 -> bytes inp -> bytes more ->
    t81_t82_arith_decode d cx inp = Ok (-1, d', inp') ->
    t81_t82_arith_decode d' cx (inp' ++ more) = t81_t82_arith_decode d cx (inp ++ more).
Proof. exact decode_resume. Qed.
Print Assumptions arith_decode_resume.
Theorem arith_decode_lookahead :
  forall d cx inp more r d' inp', t81_t82_arith_decode d cx inp = Ok (r, d', inp') -> r <> -1 ->
    t81_t82_arith_decode d cx (inp ++ more) = Ok (r, d', inp' ++ more).
Proof. exact decode_more. Qed.
Print Assumptions arith_decode_lookahead.

(** Sixty decisions in three contexts, the third a surprising one. *)
Definition sample : list (Z * Z) := concat (repeat [(0, 0); (7, 1); (4095, 1); (0, 0); (4095, 0)] 12).
Example sample_coded :
  (do (s, o) <- encode_all t81_t82_arith_encode_init sample; Ok (o ++ snd (t81_t82_arith_encode_flush s))) = Ok [18; 72; 78; 24; 200].
Proof. vm_compute. reflexivity. Qed.
Example sample_decoded :
  match decode_all t81_t82_arith_decode_init (map fst sample) [18; 72; 78; 24; 200; 255; 2] with
  | Ok (ps, _, rest) => ps = map snd sample /\ rest = [255; 2] | UB => False end.
Proof. vm_compute. split; reflexivity. Qed.
(** The same input in two pieces. *)
Example sample_hungry :
  match t81_t82_arith_decode t81_t82_arith_decode_init 0 [18; 72] with
  | Ok (r, _, rest) => r = -1 /\ rest = [] | UB => False end.
Proof. vm_compute. split; reflexivity. Qed.
