(** Theorems about the scheduler (C21). *)
From Verif Require Import Base Sched_model Sched_spec Sched_proofs.

(** C21: whatever the application and the callbacks do, and however long an
    update is allowed to go on, no access is out of bounds and the whole history
    is correct: identifiers are never shared, only outstanding events fire, never
    early, nothing outstanding since before an update is still due at its end,
    and span_schedule_next is the earliest outstanding time. *)
Theorem sched_history_correct :
  forall (body : list entry -> Z -> cmd), (forall log tag, cmd_ok (body log tag)) ->
    forall fuel ops, Forall op_ok ops -> total ops + 2147483648 <= 18446744073709551616 ->
    exists fin s' log', sruns body fuel ops span_schedule_init [] = Ok (fin, s', log') /\ log_ok log'.
Proof. exact sched_main. Qed.
Print Assumptions sched_history_correct.
(** Updates end, if callbacks do not add events that are due at once. *)
Theorem sched_updates_end :
  forall (body : list entry -> Z -> cmd), (forall log tag, cmd_ok (body log tag)) ->
    (forall log tag, later_only (body log tag)) ->
    forall ops, Forall op_ok ops -> total ops + 2147483648 <= 18446744073709551616 ->
    exists f0 s' log', forall f, (f0 <= f)%nat -> sruns body f ops span_schedule_init [] = Ok (true, s', log').
Proof. exact sched_ends. Qed.
Print Assumptions sched_updates_end.
(** What a correct history means for one event: an event added before an update
    that ends at or after its time has been fired or deleted by then... *)
Theorem sched_event_fires :
  forall i us tag l1 m u n,
    log_ok (EEnd :: m ++ EUpd u :: n ++ EAdd i us tag :: l1) ->
    clock l1 + us <= clock (m ++ EUpd u :: n ++ EAdd i us tag :: l1) ->
    exists e, In e (m ++ EUpd u :: n) /\ removes i e.
Proof. exact fired_by_end. Qed.
Print Assumptions sched_event_fires.
(** ... and once fired or deleted it does not fire again. *)
Theorem sched_event_fires_once :
  forall i tag y e z, log_ok (EFire i tag :: y ++ e :: z) -> removes i e ->
    exists a, In a y /\ adds i a.
Proof. exact fires_once. Qed.
Print Assumptions sched_event_fires_once.

(** A run: three events, one deleted, one whose callback (7) schedules another (8). *)
Definition demo (log : list entry) (tag : Z) : cmd := if tag =? 7 then CAdd 10 8 (fun _ => CRet) else CRet.
Example sched_ex :
  exists s, sruns demo 50 [OCmd (CAdd 100 7 (fun _ => CAdd 50 5 (fun j => CAdd 60 6 (fun _ => CDel j CRet))));
                           OUpdate 99; OCmd (CNext (fun _ => CRet)); OUpdate 1; OUpdate 10] span_schedule_init []
  = Ok (true, s, [EEnd; EFire 0 8; EUpd 10; EEnd; EAdd 0 10 8; EFire 0 7; EUpd 1; ENext 100; EEnd; EFire 2 6; EUpd 99;
                  EDel 1 true; EAdd 2 60 6; EAdd 1 50 5; EAdd 0 100 7]).
Proof. eexists. vm_compute. reflexivity. Qed.
Example demo_ok : (forall log tag, cmd_ok (demo log tag)) /\ (forall log tag, later_only (demo log tag)).
Proof. split; intros log tag; unfold demo; destruct (tag =? 7); cbn; unfold us_ok; auto; split; auto; lia. Qed.

(** Events due in the same update fire in slot order, not in time order. *)
Lemma order_wrong : exists s, sruns (fun _ _ => CRet) 50
    [OCmd (CAdd 20 1 (fun _ => CAdd 10 2 (fun _ => CRet))); OUpdate 20] span_schedule_init []
  = Ok (true, s, [EEnd; EFire 1 2; EFire 0 1; EUpd 20; EAdd 1 10 2; EAdd 0 20 1]).
Proof. eexists. vm_compute. reflexivity. Qed.
Theorem sched_time_order_refuted :
  exists s, sruns (fun _ _ => CRet) 50
      [OCmd (CAdd 20 1 (fun _ => CAdd 10 2 (fun _ => CRet))); OUpdate 20] span_schedule_init []
    = Ok (true, s, [EEnd; EFire 1 2; EFire 0 1; EUpd 20; EAdd 1 10 2; EAdd 0 20 1]).
Proof. exact order_wrong. Qed.
Print Assumptions sched_time_order_refuted.
(** An event added by a callback and due at once may be left for the next update,
    though the clock has reached its time. *)
Definition requeue (log : list entry) (tag : Z) : cmd := if tag =? 1 then CAdd 0 2 (fun _ => CRet) else CRet.
Lemma due_left : exists s, sruns requeue 50 [OCmd (CAdd 5 1 (fun _ => CRet)); OUpdate 5] span_schedule_init []
  = Ok (true, s, [EEnd; EAdd 0 0 2; EFire 0 1; EUpd 5; EAdd 0 5 1]).
Proof. eexists. vm_compute. reflexivity. Qed.
Theorem sched_due_at_once_refuted :
  exists s, sruns requeue 50 [OCmd (CAdd 5 1 (fun _ => CRet)); OUpdate 5] span_schedule_init []
    = Ok (true, s, [EEnd; EAdd 0 0 2; EFire 0 1; EUpd 5; EAdd 0 5 1]).
Proof. exact due_left. Qed.
Print Assumptions sched_due_at_once_refuted.
