(** SPRT (sprt.c): the properties.  The model is in Sprt_model.v; the network, the two ends and their histories are in
    Sprt_spec.v. *)
From Verif Require Import Base Sprt_model Sprt_spec Sprt_main_proofs.
Local Open Scope Z_scope.

(** C86: whatever is sent by whom and when, whatever the network loses, delays, repeats or reorders (as long as no packet
    is older than 4096 messages), and however often the applications are busy, the messages delivered on a reliable
    channel are the first of those accepted at the other end, in order and each once; until an end reports that it has
    given up. *)
Theorem sprt_reliable_in_order : forall sub1 sub2 pt1 pt2 l1 l2 w l w' ch,
  joined sub1 sub2 pt1 pt2 l1 l2 = Some w -> run w l = Ok w' -> problem (one w') = false -> problem (two w') = false -> ch = 1 \/ ch = 2 ->
  prefix (on ch (got (two w'))) (on ch (accepted (one w'))) /\ prefix (on ch (got (one w'))) (on ch (accepted (two w'))).
Proof. exact link_reliable. Qed.
Print Assumptions sprt_reliable_in_order.

(** C87: when nothing waits for an acknowledgement any more and the other end is not holding messages back, all that was
    accepted has been delivered: an acknowledged message is never lost. *)
Theorem sprt_acknowledged_delivered : forall sub1 sub2 pt1 pt2 l1 l2 w l w' ch,
  joined sub1 sub2 pt1 pt2 l1 l2 = Some w -> run w l = Ok w' -> problem (one w') = false -> problem (two w') = false -> ch = 1 \/ ch = 2 ->
  (all_acknowledged (dev (one w')) ch -> open (dev (two w')) ch -> on ch (got (two w')) = on ch (accepted (one w'))) /\
  (all_acknowledged (dev (two w')) ch -> open (dev (one w')) ch -> on ch (got (one w')) = on ch (accepted (two w'))).
Proof. exact link_complete. Qed.
Print Assumptions sprt_acknowledged_delivered.

(** C88: on every channel, the unreliable ones included, nothing is delivered that was not accepted at the other end on
    that channel. *)
Theorem sprt_nothing_invented : forall sub1 sub2 pt1 pt2 l1 l2 w l w' m,
  joined sub1 sub2 pt1 pt2 l1 l2 = Some w -> run w l = Ok w' -> problem (one w') = false -> problem (two w') = false ->
  (In m (got (two w')) -> In m (accepted (one w'))) /\ (In m (got (one w')) -> In m (accepted (two w'))).
Proof. exact link_unreliable. Qed.
Print Assumptions sprt_nothing_invented.

(** A busy exchange: the first and the third packet of one end arrive late and the second arrives twice, the other end is busy for a while. *)
Definition exchange : list happening :=
  [(true, 0, Does (Send 1 [1; 2])); (true, 10, Does (Send 1 [3])); (true, 20, Does (Send 2 [9])); (true, 25, Does (Send 3 [77])); (false, 25, Does (Busy 1 true));
   (false, 30, Arrives 1); (false, 40, Arrives 1); (false, 50, Arrives 3); (false, 60, Does (Send 1 [4; 4])); (true, 70, Arrives 0); (false, 80, Arrives 0); (false, 90, Arrives 2);
   (false, 95, Does (Busy 1 false)); (false, 100, Does Expire); (false, 90100, Does Expire); (true, 90200, Arrives 1); (true, 90300, Arrives 2); (true, 90400, Does Expire); (false, 90500, Arrives 4)].
Definition exchanged : option world :=
  match joined 3 4 100 101 [FarWindow 1 96; MaxTries 1 5] [LocalWindow 1 96; FarPayload 1 256] with
  | Some w => match run w exchange with Ok w => Some w | UB => None end
  | None => None
  end.
Example sprt_exchange_case : match exchanged with
  | Some w => (problem (one w), problem (two w)) = (false, false) /\ got (two w) = [(3, [77]); (2, [9]); (1, [1; 2]); (1, [3])] /\ got (one w) = [(1, [4; 4])] /\
              forallb (fun b => match b with None => true | Some _ => false end) (t_buf (tx (dev (one w)) 1)) = true /\
              r_busy (rx (dev (two w)) 1) = false /\ immediate (dev (two w)) = false
  | None => False
  end.
Proof. vm_compute. repeat split; reflexivity. Qed.

(** C89, in full: [forall ... l, exists s' e, react_all s l = Ok (s', e)]: no sequence of calls and arriving packets makes
    an end access memory outside its arrays.  It holds up to the first report of excessive retries; without such a report
    also of any two ends. *)
Theorem sprt_end_safe_partial : forall sub rxpt txpt set s l, start sub rxpt txpt set = Some s ->
  exists n s' e, react_all s (firstn n l) = Ok (s', e) /\ ((length l <= n)%nat \/ gave_up e = true).
Proof. exact end_safe. Qed.
Print Assumptions sprt_end_safe_partial.
Theorem sprt_link_safe_partial : forall sub1 sub2 pt1 pt2 l1 l2 w l, joined sub1 sub2 pt1 pt2 l1 l2 = Some w ->
  exists n w', run w (firstn n l) = Ok w' /\ ((length l <= n)%nat \/ problem (one w') = true \/ problem (two w') = true).
Proof. exact link_safe. Qed.
Print Assumptions sprt_link_safe_partial.
(** A message that ran out of tries leaves the queue of the timers but keeps its slot; when it is acknowledged after all
    while another message is in the queue, it is taken out of the queue again and next_in_time[255] is written. *)
Theorem sprt_end_safe_refuted : exists s l, start 3 100 101 [MaxTries 1 1] = Some s /\ react_all s l = UB.
Proof.
  eexists _, [(0, Send 1 [7]); (400000, Send 1 [8]); (600000, Expire); (700000, Take [5; 100; 0; 0; 0x40; 0; 0x40; 0])].
  split; [reflexivity|]. vm_compute. reflexivity.
Qed.
Print Assumptions sprt_end_safe_refuted.
(** the same between two ends: it takes only a lost packet and a late acknowledgement *)
Theorem sprt_link_safe_refuted : exists w l, joined 3 4 100 101 [MaxTries 1 1] [] = Some w /\ run w l = UB.
Proof.
  eexists _, [(true, 0, Does (Send 1 [7])); (true, 400000, Does (Send 1 [8])); (false, 450000, Arrives 0); (false, 540000, Does Expire); (true, 600000, Does Expire); (true, 700000, Arrives 0)].
  split; [reflexivity|]. vm_compute. reflexivity.
Qed.
Print Assumptions sprt_link_safe_refuted.

(** C90: with nothing acknowledged, a reliable channel accepts one message less than its window and then refuses. *)
Theorem sprt_window : forall sub rxpt txpt set s ch l, start sub rxpt txpt set = Some s -> ch = 1 \/ ch = 2 ->
  Forall (fun m => 0 < Z.of_nat (length (snd m)) <= far_payload s ch) l ->
  sends s ch l = Ok (map (fun i => if Z.of_nat i <? far_window s ch - 1 then 0 else -1) (seq 0 (length l))).
Proof. exact window_ok. Qed.
Print Assumptions sprt_window.
Example sprt_window_case : match start 3 100 101 [] with
  | Some s => far_window s 2 = 8 /\ sends s 2 (map (fun i => (Z.of_nat i, [1])) (seq 0 9)) = Ok [0; 0; 0; 0; 0; 0; 0; -1; -1] | None => False end.
Proof. vm_compute. split; reflexivity. Qed.

(** C91, in full: [forall parms s, sprt_init sub rxpt txpt (Some parms) = Some s -> forall ch, far_payload s ch = fst (parms ch) /\ ...]:
    a context made with parameters uses them.  They are only checked. *)
Theorem sprt_parms_refuted : exists parms s, sprt_init 3 100 101 (Some parms) = Some s /\ parms 1 = (256, 96) /\ far_payload s 1 = 132 /\ far_window s 1 = 32 /\
  sprt_tx s 0 1 (repeat 0 200) = Ok (s, [], -1).
Proof. exists (fun ch => if ch =? 1 then (256, 96) else if ch =? 2 then (256, 32) else (256, 1)). eexists. repeat split. Qed.
Print Assumptions sprt_parms_refuted.

(** C92, in full: retransmissions of a message are at least TR03 apart.  A call of sprt_timer_expired that is late makes
    all the retransmissions at once and gives the message up, with no time to acknowledge one of them. *)
Theorem sprt_retries_spaced_refuted : exists s s' e, start 3 100 101 [] = Some s /\ react_all s [(0, Send 1 [7]); (10000000, Expire)] = Ok (s', e) /\
  packets e = repeat [3; 101; 64; 0; 0; 0; 7] 11 /\ gave_up e = true.
Proof. do 3 eexists. split; [reflexivity|]. split; [vm_compute; reflexivity|]. split; reflexivity. Qed.
Print Assumptions sprt_retries_spaced_refuted.

(** C93, in full: when a message has been given up the channel goes on.  A window's worth of messages after it is the most
    that can be accepted, even when all of these are acknowledged. *)
Theorem sprt_given_up_blocks_refuted : exists s l s' e s'', start 3 100 101 [MaxTries 2 1] = Some s /\ react_all s l = Ok (s', e) /\ gave_up e = true /\
  filter (fun b => match b with None => false | Some _ => true end) (t_buf (tx s' 2)) = [Some [0]] /\ sprt_tx s' 900000 2 [1] = Ok (s'', [], -1).
Proof.
  eexists _, (map (fun i => (i, Send 2 [i])) [0; 1; 2; 3; 4; 5; 6] ++
    [(10, Take [5; 100; 0; 0; 0xC0; 0; 0x80; 1; 0x80; 2; 0x80; 3]); (11, Take [5; 100; 0; 0; 0xC0; 0; 0x80; 4; 0x80; 5; 0x80; 6]); (600000, Expire)]), _, _, _.
  split; [reflexivity|]. split; [vm_compute; reflexivity|]. split; [reflexivity|]. split; [reflexivity|]. vm_compute. reflexivity.
Qed.
Print Assumptions sprt_given_up_blocks_refuted.

(** C94, in full: a message is only given up when its last copy has had the time TR03 to be acknowledged.  The report
    is made as soon as the last copy is sent. *)
Theorem sprt_last_try_refuted : exists s s' e1 s'' e, start 3 100 101 [MaxTries 1 1; Timeout 1 1 400000] = Some s /\ react_all s [(0, Send 1 [7])] = Ok (s', e1) /\ gave_up e1 = false /\
  react_all s' [(500000, Expire)] = Ok (s'', e) /\ firstn 3 e = [Packet [3; 101; 64; 0; 0; 0; 7]; Timer 400000; Status EXCESS_RETRIES].
Proof. do 5 eexists. split; [reflexivity|]. split; [vm_compute; reflexivity|]. split; [reflexivity|]. split; vm_compute; reflexivity. Qed.
Print Assumptions sprt_last_try_refuted.
