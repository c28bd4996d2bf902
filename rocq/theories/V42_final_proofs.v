(** V.42: schedules that go wrong, and the XID frames. *)
From Verif Require Import Base V42_model V42_spec V42_prim_proofs V42_link_proofs V42_safe_proofs.

Definition s0 (c : bool) : v42 := match v42_restart (v42_init c false []) with Ok (s, _) => s | UB => v42_init c false [] end.
Definition pair0 : node * node := (start (s0 true), start (s0 false)).
Definition lk : node * node :=
  match run pair0 est with Ok (a, b) => (start (dev a), start (dev b)) | UB => pair0 end.
Definition calmb (x : bool * act) : bool :=
  match snd x with Underflow | Tick | Deliver _ => true | Supply (Got _) => true | _ => false end.
Lemma calm_dec l : forallb calmb l = true -> Forall calm l.
Proof.
  intros H. rewrite forallb_forall in H. apply Forall_forall. intros x Hx. specialize (H x Hx). destruct x as [w a].
  unfold calmb, calm in *. cbn [snd] in *. destruct a; try discriminate; auto. destruct g; [exact I|discriminate].
Qed.

Definition sp : list (bool * act) :=
  [(A, Supply (Got [1])); (A, Underflow); (B, Deliver []); (B, Underflow); (A, Deliver [])] ++ ticks A (Z.to_nat 288000)
  ++ [(A, Underflow); (A, Supply (Got [2])); (A, Underflow); (A, Supply (Got [3])); (A, Underflow);
      (B, Deliver []); (B, Underflow); (A, Deliver []); (B, Deliver []); (B, Deliver []); (B, Underflow); (A, Deliver []); (B, Underflow); (A, Deliver [])]
  ++ swap ++ swap.
Definition gap : list (bool * act) :=
  ticks A 384 ++ [(A, Underflow); (B, Deliver []); (B, Underflow); (A, Deliver []); (A, Underflow)] ++ ticks A (Z.to_nat 28800) ++
  [(A, Underflow); (B, Deliver []); (B, Underflow); (B, Supply (Got [1])); (B, Supply (Got [2])); (B, Supply (Got [3])); (B, Underflow);
   (A, Deliver []); (A, Deliver []); (B, Deliver []); (B, Underflow); (A, Deliver []); (B, Underflow); (A, Deliver []); (A, Underflow); (B, Deliver [])]
  ++ swap ++ swap ++ [(A, Underflow); (B, Deliver [])].
Definition msgs (n : nat) : list (bool * act) := map (fun k => (A, Supply (Got [Z.of_nat k]))) (seq 1 n).
Definition one : list (bool * act) := [(A, Underflow); (B, Deliver []); (B, Underflow); (A, Deliver [])].
Definition stall : list (bool * act) := msgs 20 ++ concat (repeat one 20).


(** ---- setting the link up ---- *)
Lemma run_app l : forall p l', run p (l ++ l') = (do p <- run p l; run p l').
Proof.
  induction l as [|x l IH]; intros p l'; cbn [run Datatypes.app]; [reflexivity|].
  destruct (step p x) as [q|]; cbn [rbind]; [apply IH|reflexivity].
Qed.

Definition ends (aA aB : list got) : v42 * v42 :=
  match run (start (sx true aA), start (sx false aB)) est with Ok (a, b) => (dev a, dev b) | UB => (sx true aA, sx false aB) end.
Definition okfb (f : frame) : bool := (length (fbuf f) =? 132)%nat && (0 <=? flen f) && (flen f <=? 132).
Lemma okfb_all l : forallb okfb l = true -> Forall (fun f => length (fbuf f) = 132%nat /\ 0 <= flen f <= 132) l.
Proof.
  intros H. rewrite forallb_forall in H. apply Forall_forall. intros f Hf. specialize (H f Hf). unfold okfb in H.
  rewrite !andb_true_iff in H. destruct H as ((H1 & H2) & H3). apply Nat.eqb_eq in H1. lia.
Qed.
Definition quietb (s : v42) : bool :=
  (st s =? DATA) && negb (configuring s) && (vs s =? 0) && (va s =? 0) && (vr s =? 0) && (info_put s =? 0) && (info_get s =? 0) &&
  (info_acked s =? 0) && ((0 <=? ctrl_get s) && (ctrl_get s <? 8)) && (ctrl_put s =? ctrl_get s) && (length (ctrl_buf s) =? 8)%nat && (length (info_buf s) =? 16)%nat &&
  forallb okfb (ctrl_buf s) && forallb okfb (info_buf s) && (rate s =? 28800) && (0 <=? timer s) &&
  match tfunc s with T401 | T403 => true | _ => false end.
Lemma quiet_connected s : quietb s = true -> cfg s = default_limits -> lim s = default_limits -> answers_fit (app s) -> connected s.
Proof.
  intros H Hc Hl Ha. unfold quietb in H. rewrite !andb_true_iff in H.
  destruct H as ((((((((((((((((H1 & H2) & H3) & H4) & H5) & H6) & H7) & H8) & H9) & H10) & H11) & H12) & H13) & H14) & H15) & H16) & H17).
  destruct H9 as (H9 & H9b). apply Nat.eqb_eq in H11, H12. apply negb_true_iff in H2. apply okfb_all in H13, H14.
  unfold connected, buffers_ok. repeat (split; [first [lia | assumption | (split; [assumption|]; split; [assumption|]; split; assumption)]|]).
  intros _. destruct (tfunc s); try discriminate; auto.
Qed.
Lemma established aA aB : answers_fit aA -> answers_fit aB ->
  exists a b, run (start (sx true aA), start (sx false aB)) est = Ok (start a, start b) /\ connected a /\ connected b /\ app a = aA /\ app b = aB.
Proof.
  intros HA HB. exists (fst (ends aA aB)), (snd (ends aA aB)). split; [vm_compute; reflexivity|].
  split; [|split; [|split; vm_compute; reflexivity]]; apply quiet_connected; try (vm_compute; reflexivity).
  - replace (app (fst (ends aA aB))) with aA by (vm_compute; reflexivity). exact HA.
  - replace (app (snd (ends aA aB))) with aB by (vm_compute; reflexivity). exact HB.
Qed.
Lemma sx_is c a : exists e, v42_restart (v42_init c false a) = Ok (sx c a, e).
Proof. destruct c; eexists; vm_compute; reflexivity. Qed.
Lemma set_up_and_deliver aA aB l : answers_fit aA -> answers_fit aB -> Forall fits l ->
  exists sA eA sB eB a' b', v42_restart (v42_init true false aA) = Ok (sA, eA) /\ v42_restart (v42_init false false aB) = Ok (sB, eB) /\
    run (start sA, start sB) (est ++ l) = Ok (a', b') /\
    prefix (delivered b') (data (supplied a')) /\ prefix (delivered a') (data (supplied b')) /\
    (all_acknowledged a' -> delivered b' = data (supplied a')) /\ (all_acknowledged b' -> delivered a' = data (supplied b')).
Proof.
  intros HA HB Hl. destruct (sx_is true aA) as (eA & EA). destruct (sx_is false aB) as (eB & EB).
  destruct (established aA aB HA HB) as (a & b & E & Ca & Cb & _). destruct (link_delivers a b l Ca Cb Hl) as (a' & b' & E' & H).
  exists (sx true aA), eA, (sx false aB), eB, a', b'. split; [exact EA|]. split; [exact EB|]. split; [|exact H].
  rewrite run_app, E. exact E'.
Qed.

(** ---- what goes wrong ---- *)
Definition outcome (r : res (node * node)) :=
  match r with
  | Ok (a, b) => Some (st (dev a), st (dev b), (inbox a, inbox b), (delivered a, delivered b))
  | UB => None
  end.
Lemma run_split l1 l2 p q r : run p l1 = Ok q -> run q l2 = Ok r -> run p (l1 ++ l2) = Ok r.
Proof. intros H1 H2. rewrite run_app, H1. exact H2. Qed.
Definition lk1 : v42 * v42 := ends [] [].
Lemma lk1_ok : run (start (sx true []), start (sx false [])) est = Ok (start (fst lk1), start (snd lk1)) /\ connected (fst lk1) /\ connected (snd lk1).
Proof.
  split; [vm_compute; reflexivity|]. split; apply quiet_connected; try (vm_compute; reflexivity).
  - replace (app (fst lk1)) with (@nil got) by (vm_compute; reflexivity). constructor.
  - replace (app (snd lk1)) with (@nil got) by (vm_compute; reflexivity). constructor.
Qed.
Definition through (r : res (node * node)) : node * node := match r with Ok p => p | UB => (start (sx true []), start (sx false [])) end.
Lemma spurious_disconnect : exists a b l a' b', connected a /\ connected b /\ Forall calm l /\ run (start a, start b) l = Ok (a', b') /\
  st (dev a') = IDLE /\ st (dev b') = IDLE.
Proof.
  exists (fst lk1), (snd lk1), sp. pose (p := through (run (start (fst lk1), start (snd lk1)) sp)). exists (fst p), (snd p).
  split; [apply lk1_ok|]. split; [apply lk1_ok|]. split; [apply calm_dec; vm_compute; reflexivity|]. split; [vm_compute; reflexivity|].
  split; vm_compute; reflexivity.
Qed.
Lemma message_lost : exists l a' b', Forall calm l /\ run (start (sx true []), start (sx false [])) l = Ok (a', b') /\
  st (dev a') = DATA /\ st (dev b') = DATA /\ inbox a' = [] /\ inbox b' = [] /\
  data (supplied b') = [[1]; [2]; [3]] /\ delivered a' = [[1]; [3]].
Proof.
  exists gap. pose (p := through (run (start (sx true []), start (sx false [])) gap)). exists (fst p), (snd p).
  split; [apply calm_dec; vm_compute; reflexivity|]. split; [vm_compute; reflexivity|]. repeat (split; [vm_compute; reflexivity|]). vm_compute. reflexivity.
Qed.
Lemma window_stalls : exists a b l a' b', connected a /\ connected b /\ Forall calm l /\ run (start a, start b) l = Ok (a', b') /\
  st (dev a') = DATA /\ st (dev b') = DATA /\ inbox a' = [] /\ inbox b' = [] /\ length (delivered b') = 15%nat /\
  length (data (supplied a')) = 20%nat /\ va (dev a') = 0 /\
  exists s, lapm_hdlc_underflow (dev a') = Ok (s, [Flags]).
Proof.
  exists (fst lk1), (snd lk1), stall. pose (p := through (run (start (fst lk1), start (snd lk1)) stall)). exists (fst p), (snd p).
  split; [apply lk1_ok|]. split; [apply lk1_ok|]. split; [apply calm_dec; vm_compute; reflexivity|]. split; [vm_compute; reflexivity|].
  repeat (split; [vm_compute; reflexivity|]). eexists. vm_compute. reflexivity.
Qed.
(** ---- XID ---- *)
Lemma xid_unreadable a : exists s e s', v42_restart (v42_init true false a) = Ok (s, e) /\ transmit_xid s (cmd_addr s) = Ok s' /\
  exists f, nth_error (ctrl_buf s') 0 = Some f /\ flen f = 44 /\ parse_xid (firstn (Z.to_nat (flen f)) (fbuf f)) = None.
Proof. eexists _, _, _. split; [vm_compute; reflexivity|]. split; [vm_compute; reflexivity|]. eexists. split; [vm_compute; reflexivity|]. split; vm_compute; reflexivity. Qed.

Definition k7 : list Z := [1; 0xAF; 0x82; 0x80; 0; 14; 5; 2; 2; 0; 6; 2; 2; 0; 7; 1; 7; 8; 1; 7].
Lemma xid_offer_read : parse_xid k7 = Some [(0x80, [(5, [2; 0]); (6, [2; 0]); (7, [7]); (8, [7])])].
Proof. vm_compute. reflexivity. Qed.
Lemma xid_ignored : forall c d a frame len s, receive_xid (v42_init c d a) frame len = Ok s -> s = v42_init c d a.
Proof. intros c d a frame len s H. eapply receive_xid_same; [| |exact H]; [reflexivity|]. unfold lim_range. cbn. lia. Qed.
Lemma offer_ignored : exists s' e, lapm_receive (sx true []) (k7 ++ repeat 0 384) (Z.of_nat (length k7)) true = Ok (s', e) /\ lim s' = default_limits.
Proof. eexists _, _. split; vm_compute; reflexivity. Qed.

(** ---- a good frame of two octets ---- *)
Lemma short_frame : exists l s' e, Forall possible l /\ react_all (v42_init false false []) l = Ok (s', e) /\ In (PutStatus (-1)) e.
Proof.
  exists [InRestart; InFrame ([3; 0x7F] ++ repeat 0 402) 2 true; InFrame ([3; 0] ++ repeat 0 402) 2 true].
  eexists _, _. split; [|split; [vm_compute; reflexivity|]].
  - assert (Hb : forall n, bytes (repeat 0 n)) by (intros n; apply Forall_forall; intros x Hx; apply repeat_spec in Hx; subst x; unfold byte; lia).
    assert (Hp : forall c, 0 <= c < 256 -> possible (InFrame ([3; c] ++ repeat 0 402) 2 true)).
    { intros c Hc. cbn [possible]. split; [rewrite app_length, repeat_length; reflexivity|]. split; [|lia].
      apply Forall_app. split; [|apply Hb]. constructor; [unfold byte; lia|]. constructor; [exact Hc|]. constructor. }
    constructor; [exact I|]. constructor; [apply Hp; lia|]. constructor; [apply Hp; lia|]. constructor.
  - vm_compute. tauto.
Qed.
Definition lossy : list (bool * act) :=
  est ++ [(A, Supply (Got [1; 2])); (A, Supply (Got [3])); (B, Supply (Got [9; 9])); (A, Underflow); (A, Underflow); (B, Lose); (B, Deliver []); (B, Underflow); (A, Deliver []);
   (A, Underflow); (B, Deliver []); (A, Underflow); (B, Deliver []); (B, Underflow); (B, Underflow); (A, Deliver []); (A, Deliver []); (A, Lose)].
