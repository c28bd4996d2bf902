(** V.8: the properties. *)
From Verif Require Import Base V8_model V8_spec V8_codec_proofs V8_bit_proofs V8_stream_proofs V8_line_proofs V8_heard_proofs V8_time_proofs.
Local Open Scope Z_scope.

Definition ex_caps : caps := {| call_function := 6; modulations := 0x1FFF; protocols := 4; pstn_access := 2; nsf := -1; pcm := 7; t66 := -1 |}.
Definition ex_parms : parms := {| status := 0; gateway := false; tone := 0; send_ci := 0; v92 := -1; jm_cm := ex_caps |}.
(** an answerer that takes away all modulations but V.34 and V.22 *)
Definition ex_answer (p : parms) : parms := if status p =? OFFERED then set_caps p (w_mods (Z.land (modulations (jm_cm p)) 0x804) (jm_cm p)) else p.
Definition quiet : tones := {| ansam := None; answering := None |}.

(** A CM or JM message sent twice, and the start of a third, is accepted, whatever came before the first. *)
Theorem v8_delivers h r r1 e1 d t o : 0 <= bit_stream r < 2 ^ 20 -> put_bits h r (ten_ones ++ framed 0xE0) = Ok (r1, e1) -> got_cm r1 = false ->
  bytes d -> Forall (fun o => ~ is_nsf o) d -> (1 <= length d <= 63)%nat -> sync_octet t = Some o ->
  exists r2 e2, put_bits h r1 (flat_map framed d ++ message 0xE0 d ++ ten_ones ++ framed o) = Ok (r2, e2) /\
    got_cm r2 = true /\ jm_cm (result r2) = said (jm_cm (result r1)) d.
Proof. exact (delivered h r r1 e1 d t o). Qed.
(** What the far end says in send_cm_jm() is what its capabilities are. *)
Theorem v8_says_offer c m p : nothing_said c -> said c (cm_octets 3 m p) = offer m p.
Proof. exact (offer_said c m p). Qed.
Example v8_delivers_example :
  exists r e, put_bits (fun p => p) (rx (v8_init false ex_parms)) (message 0xE0 (cm_octets 3 ex_caps ex_caps) ++ message 0xE0 (cm_octets 3 ex_caps ex_caps) ++ ten_ones ++ framed 0xE0) = Ok (r, e) /\
    got_cm r = true /\ jm_cm (result r) = ex_caps.
Proof. eexists _, _. split; [vm_compute; reflexivity | split; reflexivity]. Qed.

(** A message is accepted only when the same octets were heard in two CM or JM messages, with no other between. *)
Theorem v8_hears_twice h caller p l r e b r' e' : put_bits h (rx (v8_init caller p)) l = Ok (r, e) -> put_bit h r b = Ok (r', e') -> got_cm r = false -> got_cm r' = true ->
  exists d, twice (l ++ [b]) d /\ (bytes d -> Forall (fun o => ~ is_nsf o) d -> jm_cm (result r') = said (jm_cm (result r)) d).
Proof. exact (heard_twice h (rx (v8_init caller p)) l r e b r' e' eq_refl eq_refl eq_refl). Qed.
Example v8_once_is_not_enough :
  exists r e, put_bits (fun p => p) (rx (v8_init false ex_parms)) (message 0xE0 (cm_octets 3 ex_caps ex_caps) ++ message 0xE0 [1; 2; 4] ++ ten_ones ++ framed 0xE0) = Ok (r, e) /\ got_cm r = false.
Proof. eexists _, _. split; [vm_compute; reflexivity | reflexivity]. Qed.

(** Any calls with any bits are safe, and the decoder ends.  Partial: not when ten bits received are the frame of a non-standard
    facilities octet. *)
Theorem v8_safe_partial h caller p l : no_nsf_frame (flat_map bits_of l) -> exists s e, run h (v8_init caller p) l = Ok (s, e).
Proof. exact (run_init_safe h caller p l). Qed.
(** The decoder does not end for a message with a non-standard facilities octet, however many turns it takes: two such
    messages hang the receiver. *)
Theorem v8_safe_refuted :
  (forall fuel n c t, decode_loop fuel n c (15 :: t) = UB) /\
  (forall p, run (fun p => p) (v8_init false p) [Rx 160 (message 0xE0 [15] ++ message 0xE0 [15] ++ ten_ones ++ framed 0xE0) quiet] = UB).
Proof.
  split; [intros fuel n c t; apply nsf_stuck; [unfold byte; lia | reflexivity]|]. intros [q0 q1 q2 q3 q4 [q5 q6 q7 q8 q9 q10 q11]]. vm_compute. reflexivity.
Qed.
Example v8_safe_example : no_nsf_frame [] /\ exists s e, run ex_answer (v8_init false ex_parms) [Rx 160 (repeat true 40) quiet; Tx 10; Rx 160 (framed 0 ++ framed 255) quiet] = Ok (s, e).
Proof. split; [intros x o z _ _; destruct x; discriminate | eexists _, _; vm_compute; reflexivity]. Qed.

(** Two ends joined by a line, for any order of calls: no call fails.  What the caller is told is what the answerer's handler
    made of the offer, and the offer is what the caller's parameters say; the two ends agree. *)
Theorem v8_agreement pa pb ha hb l : observer ha -> answers_offer hb -> gateway pb = false -> exists w, line_run ha hb (dialled pa pb) l = Ok w /\
  (forall q, In q (ea w) -> status q = V8_CALL ->
     exists q0, In q0 (eb w) /\ status q0 = OFFERED /\ jm_cm q0 = offer (jm_cm pa) (jm_cm pa) /\ jm_cm q = offer (jm_cm (hb q0)) (jm_cm pb)) /\
  (forall q, In q (eb w) -> status q = V8_CALL ->
     exists q0, In q0 (eb w) /\ status q0 = OFFERED /\ jm_cm q0 = offer (jm_cm pa) (jm_cm pa) /\ jm_cm q = jm_cm (hb q0) /\
       got_cm (rx (a w)) = true /\ jm_cm (result (rx (a w))) = offer (jm_cm (hb q0)) (jm_cm pb)) /\
  (forall qa q, In qa (ea w) -> status qa = V8_CALL -> In q (eb w) -> status q = V8_CALL -> jm_cm qa = offer (jm_cm q) (jm_cm pb)).
Proof. exact (fun H1 H2 H3 => agreement pa pb ha hb H1 H2 H3 l). Qed.
(** The answerer does not take anything for a CJ: it reports a call only when the caller has accepted its JM. *)
Theorem v8_no_false_cj pa pb ha hb l w q : observer ha -> answers_offer hb -> gateway pb = false -> line_run ha hb (dialled pa pb) l = Ok w ->
  In q (eb w) -> status q = V8_CALL -> got_cm (rx (a w)) = true.
Proof.
  intros H1 H2 H3 E I X. destruct (agreement pa pb ha hb H1 H2 H3 l) as (w' & E' & _ & Q & _). rewrite E in E'. injection E' as <-. destruct (Q q I X) as (q0 & _ & _ & _ & _ & G & _). exact G.
Qed.
Definition ex_calls : list move :=
  [ARx 0 0 {| ansam := Some (ANSam, 1); answering := None |}; ARx 8000 0 quiet] ++ concat (repeat [ATx 10; BRx 80 10 quiet; BTx 10; ARx 80 10 quiet] 60).
Example v8_agreement_example : observer (fun p => p) /\ answers_offer ex_answer /\
  exists w qa qb, line_run (fun p => p) ex_answer (dialled ex_parms ex_parms) ex_calls = Ok w /\ In qa (ea w) /\ status qa = V8_CALL /\ In qb (eb w) /\ status qb = V8_CALL /\
    modulations (jm_cm qa) = 0x804 /\ modulations (jm_cm qb) = 0x804.
Proof.
  split; [intros p; reflexivity|]. split; [intros p H; unfold ex_answer; destruct (Z.eqb_spec (status p) OFFERED); [contradiction | reflexivity]|].
  eexists _, _, _. split; [vm_compute; reflexivity|]. cbn [ea eb]. split; [left; reflexivity|]. split; [reflexivity|]. split; [right; left; reflexivity|]. repeat split.
Qed.

(** v8_continue() makes the capabilities in the parameters it is given those of the call.  Refuted: it copies from the start of
    the structure. *)
Theorem v8_continue_refuted : exists s p, jm_cm (par (v8_continue s p)) <> jm_cm p.
Proof. exists (v8_init false ex_parms), ex_parms. vm_compute. discriminate. Qed.

(** No end sends CM, sends JM or waits for CM longer than its timer says. *)
Theorem v8_patience h s l s' e : run h s l = Ok (s', e) -> st s' = st s -> st s = CM_ON \/ st s = JM_ON \/ st s = CM_WAIT -> existsb is_rx l = true ->
  elapsed l < neg_timer s.
Proof.
  intros E X T0 Hl. destruct (run_time h l s s' e E) as [_ Q]. destruct (Q X) as [Q1 Q2]; [destruct T0 as [-> | [-> | ->]]; reflexivity|]. specialize (Q2 Hl). lia.
Qed.
Example v8_patience_example : neg_timer (v8_init false ex_parms) = 41600 /\
  exists s e, run (fun p => p) (v8_init false ex_parms) [Rx 41599 [] quiet] = Ok (s, e) /\ st s = CM_WAIT /\ exists s' e', run (fun p => p) s [Rx 1 [] quiet] = Ok (s', e') /\ st s' = PARKED.
Proof. split; [reflexivity|]. eexists _, _. split; [vm_compute; reflexivity|]. split; [reflexivity|]. eexists _, _. split; [vm_compute; reflexivity | reflexivity]. Qed.

(** CM and JM are repeated without a break, when no call of v8_tx() takes more than ten bits. *)
Theorem v8_no_break h caller p l s e : Forall (fun x : nat * (Z * list bool * tones) => (fst x <= 10)%nat) l -> run h (v8_init caller p) (rounds l) = Ok (s, e) ->
  st s = CM_ON \/ st s = JM_ON -> fsk_on s = true /\ (10 <= length (queue s))%nat.
Proof. exact (fun F E => rounds_full h l _ s e F (init_full caller p) E). Qed.
Example v8_no_break_example :
  exists s e, run (fun p => p) (v8_init true ex_parms) (rounds [(0%nat, (0, [], {| ansam := Some (ANSam, 1); answering := None |})); (10%nat, (8000, [], quiet)); (10%nat, (80, [], quiet))]) = Ok (s, e) /\ st s = CM_ON /\
    fsk_on (fst (v8_tx s 1000)) = false.
Proof. eexists _, _. split; [vm_compute; reflexivity | split; reflexivity]. Qed.

(** Once an end has reported how the negotiation ended it reports nothing more.  Refuted: after a calling tone the same call of
    v8_rx() goes on, and may time out, or even accept a CM and send JM. *)
Theorem v8_one_end_refuted :
  (exists s q1 q2, run (fun p => p) (v8_init false ex_parms) [Rx 41600 [] {| ansam := None; answering := Some (Calling_tone, 5) |}] = Ok (s, [q1; q2]) /\
     status q1 = CALLING_TONE_RECEIVED /\ status q2 = FAILED) /\
  (exists s q1 q2, run (fun p => p) (v8_init false ex_parms) [Rx 160 (message 0xE0 [0xC1; 0x45] ++ message 0xE0 [0xC1; 0x45] ++ ten_ones ++ framed 0xE0) {| ansam := None; answering := Some (Calling_tone, 5) |}] = Ok (s, [q1; q2]) /\
     status q1 = CALLING_TONE_RECEIVED /\ status q2 = OFFERED /\ st s = JM_ON).
Proof. split; eexists _, _, _; (split; [vm_compute; reflexivity | repeat split]). Qed.

Print Assumptions v8_one_end_refuted. Print Assumptions v8_delivers. Print Assumptions v8_says_offer. Print Assumptions v8_hears_twice. Print Assumptions v8_safe_partial. Print Assumptions v8_safe_refuted.
Print Assumptions v8_agreement. Print Assumptions v8_no_false_cj. Print Assumptions v8_continue_refuted. Print Assumptions v8_patience. Print Assumptions v8_no_break.
