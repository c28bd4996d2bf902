(** Theorems about the queue (C18, C19, C20). *)
From Verif Require Import Base Queue_model Queue_spec Queue_proofs Queue_sys_proofs Queue_msg_proofs.

(** C18: any sequence of octet calls gives exactly the results of a FIFO of
    capacity [cap], and never touches memory outside the buffer (no [UB]); the
    initial contents [d] of the buffer do not matter. *)
Theorem queue_is_fifo :
  forall cap flags d ops, 0 <= cap -> len d = cap + 1 ->
    Forall qvalid ops -> Forall (fun o => is_msg o = false) ops ->
    let (c, m) := queue_init cap flags d in
    exists m', runs c ops m = Ok (fifos cap (ratomic c) (watomic c) ops [], m').
Proof. exact fifo_all. Qed.
Print Assumptions queue_is_fifo.
Example queue_is_fifo_ex :
  let (c, m) := queue_init 3 0 [9; 9; 9; 9] in
  exists m', runs c [inl (WWrite [1; 2] 2); inr RByte; inl (WWrite [3; 4; 5] 3); inr (RView 2); inl (WByte 6);
                     inr (RRead 9); inr REmpty] m
    = Ok ([(2, []); (1, []); (2, []); (2, [2; 3]); (0, []); (3, [2; 3; 4]); (1, [])], m').
Proof. eexists. vm_compute. reflexivity. Qed.
Example queue_is_fifo_atomic_ex :
  fifos 3 true true [inl (WWrite [1; 2; 3; 4] 4); inl (WWrite [1; 2] 2); inr (RRead 3); inl WFree; inr RFlush] []
    = [(-1, []); (2, []); (-1, []); (1, []); (0, [])].
Proof. reflexivity. Qed.

(** C19: any sequence of message calls gives exactly the results of a FIFO of
    messages in which each message takes two octets more than its length. *)
Theorem queue_is_message_fifo :
  forall cap flags d ops, 0 <= cap -> len d = cap + 1 ->
    Forall qvalid ops -> Forall (fun o => is_octet o = false) ops ->
    let (c, m) := queue_init cap flags d in
    exists m', runs c ops m = Ok (mfifos cap ops [], m').
Proof. exact msg_all. Qed.
Print Assumptions queue_is_message_fifo.
Example queue_is_message_fifo_ex :
  let (c, m) := queue_init 8 3 [0; 0; 0; 0; 0; 0; 0; 0; 0] in
  exists m', runs c [inl (WMsg [1; 2; 3] 3); inl (WMsg [] 0); inl (WMsg [7] 1); inr RTest; inr (RMsg 2);
                     inl (WMsg [5; 6] 2); inr (RMsg 9); inr (RMsg 9); inr (RMsg 9)] m
    = Ok ([(3, []); (0, []); (-1, []); (3, []); (2, [1; 2]); (2, []); (0, []); (2, [5; 6]); (-1, [])], m').
Proof. eexists. vm_compute. reflexivity. Qed.

(** The length limit in [qvalid] is needed: a message of 65536 octets is
    accepted, but the reader is told the next message is empty. *)
Theorem queue_long_message_refuted :
  forall cap flags d b, 65538 <= cap -> len d = cap + 1 -> len b = 65536 ->
    let (c, m) := queue_init cap flags d in
    exists m', runs c [inl (WMsg b 65536); inr RTest] m = Ok ([(65536, []); (0, [])], m').
Proof. exact long_message. Qed.
Print Assumptions queue_long_message_refuted.

(** C20, octets: in every state reachable by any interleaving of the accesses of
    one writer and one reader, no access is out of bounds, the reader's results
    are explained by what the writer has been told was accepted, and free space
    and contents reports can be relied on. *)
Lemma spsc_octets_init cap flags d s : 0 <= cap -> len d = cap + 1 ->
  reach (fst (queue_init cap flags d)) wok_octet rok_octet (sys0 (snd (queue_init cap flags d))) s ->
  (forall o p, wcur s = Some (o, p) -> astep p (smem s) <> UB) /\
  (forall o p, rcur s = Some (o, p) -> astep p (smem s) <> UB) /\
  (exists rest, delivers (rlog s) (accepted (wlog s)) rest) /\
  room_honest (wlog s) /\ contents_honest (rlog s).
Proof.
  intros Hc Hd Hr. eapply (spsc_octets (mkQC (cap + 1) flags)); [cbn; lia| |exact Hr].
  apply minv_init; cbn; lia.
Qed.
Theorem queue_two_threads_octets :
  forall cap flags d s, 0 <= cap -> len d = cap + 1 ->
    reach (fst (queue_init cap flags d)) wok_octet rok_octet (sys0 (snd (queue_init cap flags d))) s ->
    (forall o p, wcur s = Some (o, p) -> astep p (smem s) <> UB) /\
    (forall o p, rcur s = Some (o, p) -> astep p (smem s) <> UB) /\
    (exists rest, delivers (rlog s) (accepted (wlog s)) rest) /\
    room_honest (wlog s) /\ contents_honest (rlog s).
Proof. exact spsc_octets_init. Qed.
Print Assumptions queue_two_threads_octets.
Lemma spsc_messages_init cap flags d s : 0 <= cap -> len d = cap + 1 ->
  reach (fst (queue_init cap flags d)) wok_msg rok_msg (sys0 (snd (queue_init cap flags d))) s ->
  (forall o p, wcur s = Some (o, p) -> astep p (smem s) <> UB) /\
  (forall o p, rcur s = Some (o, p) -> astep p (smem s) <> UB) /\
  (exists rest, mdelivers (rlog s) (accepted_msg (wlog s)) rest) /\
  room_honest (wlog s).
Proof.
  intros Hc Hd Hr. eapply (spsc_messages (mkQC (cap + 1) flags)); [cbn; lia| |exact Hr].
  apply minv_init; cbn; lia.
Qed.
(** C20, messages. *)
Theorem queue_two_threads_messages :
  forall cap flags d s, 0 <= cap -> len d = cap + 1 ->
    reach (fst (queue_init cap flags d)) wok_msg rok_msg (sys0 (snd (queue_init cap flags d))) s ->
    (forall o p, wcur s = Some (o, p) -> astep p (smem s) <> UB) /\
    (forall o p, rcur s = Some (o, p) -> astep p (smem s) <> UB) /\
    (exists rest, mdelivers (rlog s) (accepted_msg (wlog s)) rest) /\
    room_honest (wlog s).
Proof. exact spsc_messages_init. Qed.
Print Assumptions queue_two_threads_messages.

(** Concrete interleavings: a schedule is a list of moves. *)
Inductive move := Mw (o : wop) | Ma | Mr (o : rop) | Mb.
Fixpoint play (c : qconf) (s : sys) (ms : list move) : sys :=
  match ms with
  | [] => s
  | Mw o :: t => play c (mkSys (smem s) (Some (o, wcode c o)) (wlog s) (rcur s) (rlog s)) t
  | Mr o :: t => play c (mkSys (smem s) (wcur s) (wlog s) (Some (o, rcode c o)) (rlog s)) t
  | Ma :: t => match wcur s with
      | Some (o, p) => match astep p (smem s) with Ok (p', m') => play c (wsettle s m' o p') t | UB => s end
      | None => s end
  | Mb :: t => match rcur s with
      | Some (o, p) => match astep p (smem s) with Ok (p', m') => play c (rsettle s m' o p') t | UB => s end
      | None => s end
  end.
(** A read started while a write is half done sees only the octets published
    before; a write during the read does not disturb it. *)
Example queue_two_threads_ex :
  let (c, m) := queue_init 3 0 [0; 0; 0; 0] in
  let s := play c (sys0 m)
    [Mw (WWrite [1; 2] 2); Ma; Ma; Ma; Mr (RRead 3); Mb; Ma; Ma; Mb;
     Mr (RRead 3); Mb; Mw (WWrite [3; 4] 2); Ma; Ma; Ma; Mb; Mb; Ma; Mb; Mb] in
  wlog s = [(WWrite [1; 2] 2, (2, [])); (WWrite [3; 4] 2, (1, []))] /\
  rlog s = [(RRead 3, (0, [])); (RRead 3, (2, [1; 2]))] /\ wcur s = None /\ rcur s = None.
Proof. vm_compute. auto. Qed.
