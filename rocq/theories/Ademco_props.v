(** Ademco Contact ID: the properties. *)
From Verif Require Import Base Ademco_model Ademco_spec Ademco_proofs Ademco_sender_proofs.
Local Open Scope Z_scope.

Definition burglary : report := {| acct := 0x1234; mt := 0x18; q := 1; xyz := 0x131; gg := 1; ccc := 0x15 |}.
(** 1400Hz, silence and 2300Hz of about 100ms each, and silence *)
Definition heard (h : Z) (n : nat) : list call := repeat (Block h None) n.
Definition handshake : list call := heard 1 15 ++ heard 0 15 ++ heard 2 15 ++ heard 0 2.

(** C124: a message in range is encoded as its 15 digits and a check digit, or refused when it has a digit of 10, and what is
    encoded is decoded to the same message. *)
Theorem ademco_encodes r : in_range r -> (~ In 10 (digits_of r) /\ exists l, encode_msg 17 r = Ok (l, 16) /\ message r l) \/ (In 10 (digits_of r) /\ exists l, encode_msg 17 r = Ok (l, -1)).
Proof. intros R. destruct (in10 (digits_of r)) as [I|I]; [right; split; [exact I | exact (encode_refuses r R I)] | left; split; [exact I | exact (encode_ok r R I)]]. Qed.
Theorem ademco_decodes r l : in_range r -> message r l -> decode_msg l = Ok (Some r).
Proof. exact (decode_message r l). Qed.
Example ademco_encodes_ex : in_range burglary /\ encode_msg 17 burglary = Ok ([49; 50; 51; 52; 49; 56; 49; 49; 51; 49; 48; 49; 48; 49; 53; 56], 16).
Proof. split; [unfold in_range; cbn; lia | vm_compute; reflexivity]. Qed.

(** C125: a message that is out of range is refused. It is not: the digits go beyond the buffer. *)
Theorem ademco_out_of_range_refuted : exists r, sender_put sender_init r = UB.
Proof. exists {| acct := 65536; mt := 0x18; q := 1; xyz := 0x131; gg := 1; ccc := 0x15 |}. vm_compute. reflexivity. Qed.
(** No call of the sender fails when its messages are in range. *)
Theorem ademco_out_of_range_partial l : Forall call_in_range l -> exists r, calls sender_init l = Ok r.
Proof. intros F. exact (calls_safe l F sender_init). Qed.

(** C126: a wrong digit is found out. It is not when a 0 is taken for a D; it is for the other digits. *)
Theorem ademco_wrong_digit_refuted : exists a b r s, Forall (fun c => In c signals) a /\ Forall (fun c => In c signals) b /\ one_wrong a b /\ decode_msg a = Ok (Some r) /\ decode_msg b = Ok (Some s) /\ r <> s.
Proof.
  exists [49; 50; 51; 52; 49; 56; 49; 49; 51; 49; 48; 49; 48; 49; 53; 56], [49; 50; 51; 52; 49; 56; 49; 49; 51; 49; 68; 49; 48; 49; 53; 56], burglary. eexists.
  split; [repeat (constructor; [cbn; tauto|]); constructor|]. split; [repeat (constructor; [cbn; tauto|]); constructor|]. split; [cbn; do 10 (right; split; [reflexivity|]); left; split; [discriminate | reflexivity]|]. split; [vm_compute; reflexivity|]. split; [vm_compute; reflexivity | discriminate].
Qed.
Theorem ademco_wrong_digit_partial a b r : Forall (fun c => In c signals) a -> Forall (fun c => In c signals) b -> length a = 16%nat -> length b = 16%nat ->
  decode_msg a = Ok (Some r) -> one_wrong_not_alike a b -> decode_msg b = Ok None.
Proof. exact (detects a b r). Qed.
Example ademco_wrong_digit_ex : one_wrong_not_alike [49; 50] [49; 51].
Proof. cbn. right. split; [reflexivity|]. left. split; [discriminate|]. split; [unfold alike; lia | reflexivity]. Qed.

(** C127: whatever DTMF digits arrive, the receiver is safe, and reports just what the groups of 16 digits decode to; what is
    reported is in range; messages sent one after the other are all reported. *)
Theorem ademco_receives l : Forall (fun c => In c signals) l -> exists rx, receive [] l = Ok (rx, flat_map (fun g => match decode_msg g with Ok (Some r) => [r] | _ => [] end) (groups (length l + 1) l)) /\ (length rx < 16)%nat.
Proof. exact (receive_ok l [] ltac:(cbn; lia) ltac:(constructor)). Qed.
Theorem ademco_accepts l : Forall (fun c => In c signals) l -> length l = 16%nat -> exists o, decode_msg l = Ok o /\ (o <> None <-> Z.rem (checksum l) 15 = 0) /\ forall r, o = Some r -> in_range r.
Proof. exact (decode_any l). Qed.
Theorem ademco_all_received rs ls : Forall2 (fun r l => in_range r /\ message r l) rs ls -> receive [] (concat ls) = Ok ([], rs).
Proof.
  induction 1 as [|r l rs ls (R & M) F IH]; [reflexivity|]. cbn [concat].
  assert (D := decode_message r l R M). destruct M as (c & Hc & Sm & ->). set (l := map signal (digits_of r ++ [c])) in *. assert (L : length l = 16%nat) by reflexivity.
  assert (G : forall n pre m, length l = (n + length m)%nat -> l = pre ++ m -> m <> [] -> receive pre (m ++ concat ls) = do (x, e) <- receive [] (concat ls); Ok (x, r :: e)).
  { clearbody l. intros n pre m. revert n pre. induction m as [|d m IHm]; intros n pre H E N; [contradiction|]. cbn [app receive]. unfold digit_delivery. assert (Lp : (length pre + length (d :: m) = 16)%nat) by (rewrite <- app_length, <- E; exact L). cbn [length] in Lp.
    rewrite app_length. cbn [length]. replace (17 <? Z.of_nat (length pre + 1)) with false by (symmetry; apply Z.ltb_ge; lia). destruct m as [|d' m].
    - replace (length pre + 1 =? 16)%nat with true by (symmetry; apply Nat.eqb_eq; cbn in Lp; lia). rewrite <- E, D. cbn [rbind app]. destruct (receive [] (concat ls)) as [[x e]|]; reflexivity.
    - replace (length pre + 1 =? 16)%nat with false by (symmetry; apply Nat.eqb_neq; cbn in Lp; lia). cbn [rbind]. rewrite (IHm (S n) (pre ++ [d])); [destruct (receive [] (concat ls)) as [[x e]|]; reflexivity | cbn [length] in *; lia | rewrite <- app_assoc; exact E | discriminate]. }
  rewrite (G 0%nat [] l eq_refl eq_refl); [rewrite IH; reflexivity|]. intros X. rewrite X in L. discriminate.
Qed.
Example ademco_receives_ex : receive [] [49; 50; 51; 52; 49; 56; 49; 49; 51; 49; 48; 49; 48; 49; 53; 56] = Ok ([], [burglary]) /\ receive [] [49; 50; 51; 52; 49; 56; 49; 49; 51; 49; 48; 49; 48; 49; 53; 55] = Ok ([], []).
Proof. vm_compute. auto. Qed.

(** C128: the sender tells of success only at the end of a tone of 1400Hz of 400ms to 1500ms, after the handshake. *)
Theorem ademco_success l s e c s' t : calls sender_init l = Ok (s, e) -> do_call s c = Ok (s', t) -> In (Told (Done true)) t -> kissoff (flat_map hit_of (l ++ [c])) /\ In (Told Ready) e.
Proof. exact (success_heard l s e c s' t). Qed.
Example ademco_success_ex : match calls sender_init (Put burglary :: handshake ++ [Tx 20000] ++ heard 1 100 ++ heard 0 2) with Ok (_, e) => e = [Told Ready; Sent [49; 50; 51; 52; 49; 56; 49; 49; 51; 49; 48; 49; 48; 49; 53; 56]; Told (Done true)] | UB => False end.
Proof. vm_compute. reflexivity. Qed.

(** C129: a message that is not acknowledged is sent again, three times. It is not: though the digits are queued again, nothing sets
    clear_to_send. *)
Theorem ademco_sent_again_refuted : exists s, calls sender_init (Put burglary :: handshake ++ [Tx 20000] ++ concat (repeat [Block 0 None; Tx 55] (4 * 437))) =
  Ok (s, [Told Ready; Sent [49; 50; 51; 52; 49; 56; 49; 49; 51; 49; 48; 49; 48; 49; 53; 56]; Told (Done false)]) /\ tries s = 4.
Proof. eexists. split; [vm_compute; reflexivity | reflexivity]. Qed.

(** C130: on a silent line the sender gives up: after four times 437 blocks (3s) it tells of failure. *)
Theorem ademco_gives_up l s : Forall quiet l -> tone_state s = 4 -> in_tone s = 0 -> tx_len s <> 0 -> 0 < timer s -> tries s <= 3 ->
  (timer s + 54) / 55 + 437 * (3 - tries s) <= blocks l -> exists s' t, calls s l = Ok (s', t) /\ In (Told (Done false)) t.
Proof. intros F A B C D E G. exact (gives_up l s F (conj A (conj B (conj C (conj D E)))) G). Qed.
Example ademco_gives_up_ex : match calls sender_init (Put burglary :: handshake) with Ok (s, _) => tone_state s = 4 /\ in_tone s = 0 /\ tx_len s = 16 /\ timer s = 23945 /\ tries s = 0 | UB => False end.
Proof. vm_compute. auto. Qed.

(** C131: after it has told of failure the sender takes another message, and can tell of success again. It does not: on a silent
    line it stays busy; after four bad tones it takes messages, but tells of nothing more, whatever is heard. *)
Theorem ademco_after_failure_refuted :
  (exists s e, calls sender_init (Put burglary :: handshake ++ heard 0 (4 * 437)) = Ok (s, e) /\ In (Told (Done false)) e /\ forall r, sender_put s r = Ok (s, false)) /\
  (exists s e, calls sender_init (Put burglary :: handshake ++ concat (repeat (heard 1 10 ++ heard 0 4) 4)) = Ok (s, e) /\ In (Told (Done false)) e /\
     (exists s', sender_put s burglary = Ok (s', true)) /\ forall l s' t x, calls s l = Ok (s', t) -> ~ In (Told x) t).
Proof.
  split.
  - eexists _, _. split; [vm_compute; reflexivity|]. split; [right; left; reflexivity | intros r; reflexivity].
  - eexists _, _. split; [vm_compute; reflexivity|]. split; [right; left; reflexivity|]. split; [eexists; vm_compute; reflexivity|]. intros l s' t x E. eapply dead_calls; [|exact E]. split; reflexivity.
Qed.

(** C132: a message that is accepted is sent, and its end is told. It is not when it comes more than 250ms after the handshake:
    it waits for ever on a silent line. *)
Theorem ademco_late_message_refuted : exists s s', calls sender_init (handshake ++ [Tx 4000]) = Ok (s, [Told Ready]) /\ sender_put s burglary = Ok (s', true) /\
  forall l, Forall quiet l -> exists s'', calls s' l = Ok (s'', []) /\ busy s'' = true.
Proof.
  eexists _, _. split; [vm_compute; reflexivity|]. split; [vm_compute; reflexivity|]. intros l F. edestruct (stuck_calls l F) as (s'' & E & _ & B); [|exists s''; split; [exact E | rewrite B; reflexivity]]. repeat split.
Qed.
(** C133: nothing is told of a message that was refused. It is: its length of -1 counts as a message. *)
Theorem ademco_refused_refuted : exists r s e, in_range r /\ calls sender_init (Put r :: handshake ++ heard 0 (4 * 437)) = Ok (s, Refused :: e) /\ In (Told (Done false)) e.
Proof. exists {| acct := 0x123A; mt := 0x18; q := 1; xyz := 0x131; gg := 1; ccc := 0x15 |}. eexists _, _. split; [unfold in_range; cbn; lia|]. split; [vm_compute; reflexivity | right; left; reflexivity]. Qed.

Print Assumptions ademco_encodes.
Print Assumptions ademco_decodes.
Print Assumptions ademco_out_of_range_refuted.
Print Assumptions ademco_out_of_range_partial.
Print Assumptions ademco_wrong_digit_refuted.
Print Assumptions ademco_wrong_digit_partial.
Print Assumptions ademco_receives.
Print Assumptions ademco_accepts.
Print Assumptions ademco_all_received.
Print Assumptions ademco_success.
Print Assumptions ademco_sent_again_refuted.
Print Assumptions ademco_gives_up.
Print Assumptions ademco_after_failure_refuted.
Print Assumptions ademco_late_message_refuted.
Print Assumptions ademco_refused_refuted.
