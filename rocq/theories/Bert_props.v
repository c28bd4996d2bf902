(** The bit error rate tester: the properties. *)
From Verif Require Import Base Bert_model Bert_spec Bert_proofs Bert_period Bert_rx_proofs Bert_sync_proofs Bert_more_proofs Bert_fixed_proofs Bert_rate_proofs.
Local Open Scope Z_scope.

Definition cfg_of (n : Z) : cfg := {| pt := pattern n; limit := 0; freq := 0; resync_len := 300; resync_percent := 20 |}.
Definition sent (n : Z) (k : nat) : list bool := match gets (cfg_of n) (tx_init (pattern n)) k with Ok (_, l) => map (Z.eqb 1) l | UB => [] end.

(** C134: the pseudo-random patterns start with len ones (before the inversion), follow the recurrence of their ITU-T
    recommendation, repeat after 2^len - 1 bits, and do not before. *)
Theorem bert_generates c n g k : itu n g -> pt c = pattern n -> Z.of_nat k <= 2147483647 -> (limit c = 0 \/ Z.of_nat k <= limit c) ->
  exists s' l, gets c (tx_init (pt c)) k = Ok (s', as_bits l) /\ length l = k /\ (forall t, (t < len g)%nat -> (t < k)%nat -> at_ g l t = true) /\ follows g l /\
    forall P, Z.of_nat P = 2 ^ Z.of_nat (len g) - 1 ->
      (forall t, (t + P < k)%nat -> nth (t + P) l false = nth t l false) /\
      (forall q, (0 < q < P)%nat -> (q + len g <= k)%nat -> exists t, (t < len g)%nat /\ nth (q + t) l false <> nth t l false).
Proof. exact (generates c n g k). Qed.
Example bert_generates_ex : itu 12 {| len := 9; tap := 4; inverted := false |} /\ firstn 20 (sent 12 600) = [true; true; true; true; true; true; true; true; true; false; false; false; false; false; true; true; true; true; false; true] /\ skipn 511 (sent 12 600) = firstn 89 (sent 12 600).
Proof. split; [right; right; right; left; reflexivity|]. split; vm_compute; reflexivity. Qed.

(** C135: the O.151 pattern of 20 stages is the recurrence with a one put in after 14 zeros, so no more than 14 zeros come together. *)
Theorem bert_zeros_suppressed c k : pt c = O151_20 -> Z.of_nat k <= 2147483647 -> (limit c = 0 \/ Z.of_nat k <= limit c) ->
  exists s' p, gets c (tx_init (pt c)) k = Ok (s', as_bits (suppress 14 14 p)) /\ runs_up_to 14 14 (suppress 14 14 p) /\ length p = k /\ follows O151_20_prng p /\ (forall t, (t < 20)%nat -> (t < k)%nat -> at_ O151_20_prng p t = true).
Proof.
  intros E B L. assert (T : tapped O151_20_prng) by (cbv; lia). pose proof (ones_range O151_20_prng) as R. assert (Q : t_reg (tx_init (pt c)) = Z.ones (Z.of_nat (len O151_20_prng))) by (rewrite E; reflexivity).
  destruct (gets20 c k E (tx_init (pt c))) as (s' & F); [rewrite Q; exact R | cbn; lia | exact B | exact L|]. rewrite Q in F. exists s'. eexists. split; [exact F|]. split; [apply suppress_runs|]. split; [rewrite map_length, seq_length; reflexivity|]. split; [apply follows_seq; assumption|].
  intros t H K. unfold at_. rewrite nth_bits by lia. unfold bit_at. rewrite <- (seq_bit O151_20_prng _ t T R H). rewrite Z.ones_spec_low by (cbn in *; lia). reflexivity.
Qed.
Example bert_zeros_suppressed_ex : firstn 20 (sent 9 20) = [false; false; false; false; false; false; false; false; false; false; false; false; false; false; true; false; false; false; false; false].
Proof. vm_compute. reflexivity. Qed.

(** C136: with a limit the transmitter gives that many bits, whatever the pattern, and the end of the data for ever after. *)
Theorem bert_limit c n k : pt c = pattern n -> 1 <= limit c <= 2147483647 ->
  exists s l, gets c (tx_init (pt c)) (Z.to_nat (limit c) + k) = Ok (s, l ++ repeat (-7) k) /\ Z.of_nat (length l) = limit c /\ Forall (fun b => b = 0 \/ b = 1) l.
Proof. exact (limited c n k). Qed.
Example bert_limit_ex : match gets {| pt := pattern 7; limit := 14; freq := 0; resync_len := 300; resync_percent := 20 |} (tx_init (pattern 7)) 16 with Ok (_, l) => l = [0; 1; 1; 0; 1; 0; 1; 1; 1; 1; 1; 0; 1; 1; -7; -7] | UB => False end.
Proof. vm_compute. reflexivity. Qed.

(** C137: a receiver without sync, whatever is in its register, finds a pseudo-random pattern from any of its bits on once
    len + tap + resync_time bits have come without errors. From then on it counts the wrong bits exactly and keeps its sync while no
    window has as many of them as the limit for a resync. *)
Theorem bert_receives c m g l e s : itu m g -> pt c = pattern m -> fits c -> 1 <= resync_len c -> follows g l -> length e = length l -> fresh c g s -> bits (fst s) + Z.of_nat (length l) <= 2147483647 ->
  (forall k, Z.of_nat k < Z.of_nat (len g + tap g) + resync_time (pt c) -> nth k e false = false) ->
  (forall i, errors (firstn (Z.to_nat (resync_len c)) (skipn i e)) < Z.quot (resync_len c * resync_percent c) 100) ->
  Z.of_nat (len g + tap g) + resync_time (pt c) <= Z.of_nat (length l) ->
  exists s' ev, puts c s (as_bits (line l e)) = Ok (s', ev) /\ sane g s' /\ ~ In Unsynced ev /\ In Synced ev /\ resync (fst s') = 0 /\
    exists w, 0 <= w <= Z.of_nat (len g + tap g) + resync_time (pt c) /\ total (snd s') = total (snd s) + Z.of_nat (length l) - w /\ bad (snd s') = bad (snd s) + errors e.
Proof. exact (receives c m g l e s). Qed.
Theorem bert_fresh c m g : itu m g -> pt c = pattern m -> fresh c g (rx_init c) /\ bits (fst (rx_init c)) = 0 /\ snd (rx_init c) = {| total := 0; bad := 0; resyncs := 0 |}.
Proof. exact (init_sane c m g). Qed.
(** What a transmitter sends may be cut anywhere. *)
Theorem bert_any_start g l d : follows g l -> follows g (skipn d l).
Proof.
  intros F t H. rewrite skipn_length in H. unfold at_ in *. rewrite !nth_skipn. specialize (F (d + t)%nat ltac:(lia)). unfold at_ in F. rewrite !Nat.add_assoc. exact F.
Qed.
Example bert_receives_ex : match puts (cfg_of 12) (rx_init (cfg_of 12)) (as_bits (line (skipn 77 (sent 12 277)) (repeat false 100 ++ [true; false; true] ++ repeat false 97))) with Ok (s, e) => e = [Synced] /\ bad (snd s) = 2 /\ total (snd s) = 165 | UB => False end.
Proof. vm_compute. repeat split; reflexivity. Qed.

(** C138: sync is told only when the pattern is there. It is not: a line that always has the same bit, the idle one, is taken for the
    pattern without errors. *)
Theorem bert_dead_line_refuted c m g n : itu m g -> pt c = pattern m -> fits c -> 1 <= resync_len c -> 100 <= resync_len c * resync_percent c -> Z.of_nat n <= 2147483647 -> Z.of_nat (len g + tap g) + resync_time (pt c) <= Z.of_nat n ->
  exists s' ev, puts c (rx_init c) (repeat (Z.b2z (inverted g)) n) = Ok (s', ev) /\ In Synced ev /\ ~ In Unsynced ev /\ bad (snd s') = 0.
Proof.
  intros I E Fi W Q B N. assert (T : tapped g) by (exact (g_order _ _ (itu_good m g I))). destruct (clean_line c m g (repeat (inverted g) n) I E Fi W Q (dead_follows g n T)) as (s' & ev & A & U & S1 & B0 & _); rewrite ?repeat_length; try assumption. exists s', ev. split; [|auto]. rewrite <- A. f_equal. unfold as_bits. clear. induction n; cbn [repeat map]; [reflexivity | rewrite IHn; reflexivity].
Qed.
Example bert_dead_line_ex : fits (cfg_of 8) /\ match puts (cfg_of 8) (rx_init (cfg_of 8)) (repeat 1 1000) with Ok (s, e) => e = [Synced] /\ bad (snd s) = 0 /\ total (snd s) = 922 | UB => False end.
Proof. split; [unfold fits; cbn; lia|]. vm_compute. repeat split; reflexivity. Qed.

(** C139: on a line without errors no errors are counted. With the O.151 pattern of 20 stages one is: the receiver does not count zeros
    while it has no sync. *)
Theorem bert_clean_20_refuted : exists d n s ev, pt (cfg_of 9) = O151_20 /\ puts (cfg_of 9) (rx_init (cfg_of 9)) (as_bits (skipn d (sent 9 n))) = Ok (s, ev) /\ In Synced ev /\ bad (snd s) = 1.
Proof. exists 305%nat, 571%nat. eexists _, _. split; [reflexivity|]. split; [vm_compute; reflexivity|]. split; [left; reflexivity | reflexivity]. Qed.

(** C140: a line without errors keeps its sync. It does when resync_len * resync_percent is at least 100; it does not when it is
    less, as the limit is 0 then. *)
Theorem bert_keeps_sync_partial c m g l : itu m g -> pt c = pattern m -> fits c -> 1 <= resync_len c -> 100 <= resync_len c * resync_percent c -> follows g l -> Z.of_nat (length l) <= 2147483647 -> Z.of_nat (len g + tap g) + resync_time (pt c) <= Z.of_nat (length l) ->
  exists s' ev, puts c (rx_init c) (as_bits l) = Ok (s', ev) /\ ~ In Unsynced ev /\ In Synced ev /\ bad (snd s') = 0 /\ Z.of_nat (length l) - (Z.of_nat (len g + tap g) + resync_time (pt c)) <= total (snd s').
Proof. exact (clean_line c m g l). Qed.
Example bert_keeps_sync_ex : follows {| len := 9; tap := 4; inverted := false |} (sent 12 600).
Proof.
  assert (X : forallb (fun t => Bool.eqb (nth (t + 9) (sent 12 600) false) (xorb (nth t (sent 12 600) false) (nth (t + 4) (sent 12 600) false))) (seq 0 591) = true) by (vm_compute; reflexivity). rewrite forallb_forall in X. assert (Ls : length (sent 12 600) = 600%nat) by (vm_compute; reflexivity).
  intros t H. cbn [len tap] in *. rewrite Ls in H. unfold at_. cbn [inverted]. rewrite !xorb_false_l. apply eqb_prop. apply X. apply in_seq. lia.
Qed.
Theorem bert_keeps_sync_refuted : exists c s ev, pt c = pattern 12 /\ resync_len c = 10 /\ resync_percent c = 5 /\ puts c (rx_init c) (as_bits (sent 12 200)) = Ok (s, ev) /\ bad (snd s) = 0 /\ In Unsynced ev.
Proof. exists {| pt := pattern 12; limit := 0; freq := 0; resync_len := 10; resync_percent := 5 |}. eexists _, _. split; [reflexivity|]. split; [reflexivity|]. split; [reflexivity|]. split; [vm_compute; reflexivity|]. split; [reflexivity | right; left; reflexivity]. Qed.

(** C141: a test may run for ever. It may not: the counts are ints, and go over after 2^31 - 1 bits in either direction. *)
Theorem bert_for_ever_refuted c n l : limit c = 0 -> 2147483647 < Z.of_nat n -> Forall (fun b => 0 <= b) l -> 2147483647 < Z.of_nat (length l) -> gets c (tx_init (pt c)) n = UB /\ puts c (rx_init c) l = UB.
Proof. intros L N F K. split; [apply gets_endless; [exact L | cbn; lia | cbn; lia] | apply puts_endless; [exact F | cbn; lia | cbn; lia]]. Qed.
Example bert_for_ever_ex n : Z.of_nat n = 2147483648 -> 2147483647 < Z.of_nat (length (repeat 0 n)) /\ Forall (fun b => 0 <= b) (repeat 0 n).
Proof. intros N. split; [rewrite repeat_length; lia|]. apply Forall_forall. intros x H. apply repeat_spec in H. lia. Qed.

(** C142: the fixed patterns are sent as the eight bits of their name again and again. A receiver that gets them from any of the bits on
    has sync after 112 bits without errors at the latest, and counts the wrong bits exactly from then on. *)
Theorem bert_fixed_sends c n w k : word n w -> pt c = pattern n -> Z.of_nat k <= 2147483647 -> (limit c = 0 \/ Z.of_nat k <= limit c) -> exists s', gets c (tx_init (pt c)) k = Ok (s', as_bits (again w 0 k)).
Proof.
  intros H E B L. destruct (fixed_pat n w H) as (_ & _ & _ & P4). rewrite <- E in P4. exact (gets_fixed c n w k H E 0%nat (tx_init (pt c)) P4 (Z.le_refl 0) B L).
Qed.
Theorem bert_fixed_receives c n w k e : word n w -> pt c = pattern n -> (k < 8)%nat -> (112 <= length e)%nat -> Z.of_nat (length e) <= 2147483647 -> (forall i, (i < 112)%nat -> nth i e false = false) ->
  exists s' ev, puts c (rx_init c) (as_bits (line (again w k (length e)) e)) = Ok (s', ev) /\ In Synced ev /\ ~ In Unsynced ev /\ bad (snd s') = errors e /\ Z.of_nat (length e) - 112 <= total (snd s') <= Z.of_nat (length e).
Proof. exact (receives_fixed c n w k e). Qed.
Example bert_fixed_ex : word 3 [false; true; true; true; false; true; true; true] /\ firstn 10 (sent 3 10) = [false; true; true; true; false; true; true; true; false; true].
Proof. split; [do 3 right; left; reflexivity | vm_compute; reflexivity]. Qed.

(** C143: when a pattern is lost, that is told. With the fixed patterns it never is, whatever comes. *)
Theorem bert_fixed_lost_refuted c n w l s s' ev : word n w -> pt c = pattern n -> puts c s l = Ok (s', ev) -> ~ In Unsynced ev.
Proof. intros H E. apply never_unsynced. rewrite E. apply (fixed_pat n w H). Qed.
Example bert_fixed_lost_ex : match puts (cfg_of 0) (rx_init (cfg_of 0)) (repeat 0 112 ++ repeat 1 1000) with Ok (s, e) => e = [Synced] /\ bad (snd s) = 1000 | UB => False end.
Proof. vm_compute. split; reflexivity. Qed.

(** C144: bad_bits is the number of bits that were wrong. For the text it is not: a character counts once. *)
Theorem bert_text_bits_refuted : exists l s ev, length l = 7%nat /\ (forall i, (i < 7)%nat -> nth i l false <> nth i (sent 7 7) false) /\ puts (cfg_of 7) (rx_init (cfg_of 7)) (as_bits l) = Ok (s, ev) /\ total (snd s) = 7 /\ bad (snd s) = 1.
Proof.
  exists (map negb (sent 7 7)). eexists _, _. split; [vm_compute; reflexivity|]. split; [|split; [vm_compute; reflexivity | split; reflexivity]]. assert (E : sent 7 7 = [false; true; true; false; true; false; true]) by (vm_compute; reflexivity). rewrite E. intros i H. do 7 (destruct i as [|i]; [cbn; discriminate|]). lia.
Qed.

(** C145: a change of the error rate is told just when the last thousand, ten thousand, ... of the bits that were counted have more than 10
    errors, for the lowest such rate, and the rate was another one before; h is what an observer of bert_result sees, bit by bit. *)
Theorem bert_error_rate c l s h b s' e : cls (pt c) = 1 -> watch c (rx_init c) [] l = Ok (s, h) -> put_bit c s b = Ok (s', e) ->
  forall i, In (Rate i) e <-> total (snd s') <> total (snd s) /\ graded (observe (snd s) (snd s') h) = Some i /\ rating h <> i.
Proof. intros C0 W Q. apply (put_rated c h s b s' e C0); [|exact Q]. exact (watch_rated c l C0 _ _ _ _ (rated_init c) W). Qed.
Example bert_error_rate_ex : match puts (cfg_of 12) (rx_init (cfg_of 12)) (as_bits (line (sent 12 2200) (repeat false 100 ++ concat (repeat (true :: repeat false 19) 105)))) with Ok (s, e) => In (Rate 2) e /\ bad (snd s) = 105 | UB => False end.
Proof. vm_compute. split; [tauto | reflexivity]. Qed.

Print Assumptions bert_generates. Print Assumptions bert_zeros_suppressed. Print Assumptions bert_limit. Print Assumptions bert_receives. Print Assumptions bert_dead_line_refuted. Print Assumptions bert_clean_20_refuted.
Print Assumptions bert_keeps_sync_partial. Print Assumptions bert_keeps_sync_refuted. Print Assumptions bert_for_ever_refuted. Print Assumptions bert_fixed_receives. Print Assumptions bert_fixed_lost_refuted. Print Assumptions bert_text_bits_refuted. Print Assumptions bert_error_rate.
