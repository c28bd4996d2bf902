(** V.42: no peer can lead the code out of its buffers; the XID exchange never changes the parameters. *)
From Coq Require Import ZifyBool ZifyNat.
From Verif Require Import Base V42_model V42_spec V42_rel_proofs.

Definition WF (s : v42) : Prop :=
  buffers_ok s /\ (0 <= ctrl_get s < 8 /\ 0 <= ctrl_put s < 8) /\
  (0 <= info_get s < 16 /\ 0 <= info_put s < 16 /\ 0 <= info_acked s < 16) /\
  (cfg s = default_limits /\ lim s = default_limits) /\ answers_fit (app s) /\ (timer s <> 0 -> tfunc s <> TNone).

(** ---- XID ---- *)
Definition lim_range (l : limits) : Prop := 0 <= txk l < 256 /\ 0 <= rxk l < 256 /\ 0 <= txn l < 65536 /\ 0 <= rxn l < 65536.
Lemma set_param_same p v : set_param p v p = p.
Proof.
  unfold set_param.
  destruct ((v <? p) && (p <=? p) || (p <=? v) && (p <? p)) eqn:E; [reflexivity|].
  replace ((v <? p) && (p <? v) || (p <=? v) && (v <? p)) with false by lia. reflexivity.
Qed.
Lemma w_lim_same s : w_lim (lim s) s = s.
Proof. destruct s; reflexivity. Qed.
Lemma rbind_ok {A B} (m : res A) (k : A -> res B) b : rbind m k = Ok b -> exists a, m = Ok a /\ k a = Ok b.
Proof. destruct m; cbn; [eauto|discriminate]. Qed.

Lemma param_group_same fuel : forall s frame off n s', lim s = cfg s -> lim_range (cfg s) ->
  param_group fuel s frame off n = Ok s' -> s' = s.
Proof.
  induction fuel as [|k IH]; intros s frame off n s' Hl Hr H; cbn [param_group] in H; [congruence|].
  destruct (n <=? 0); [congruence|].
  apply rbind_ok in H. destruct H as (id & _ & H). apply rbind_ok in H. destruct H as (m & _ & H).
  destruct (n <? 2 + m); [congruence|]. apply rbind_ok in H. destruct H as (s1 & H1 & H).
  assert (E : s1 = s).
  { destruct ((id =? 5) || (id =? 6) || (id =? 7) || (id =? 8)); [|congruence].
    apply rbind_ok in H1. destruct H1 as (v & _ & H1). rewrite Hl, !set_param_same in H1. destruct Hr as (R1 & R2 & R3 & R4).
    unfold u16, u8 in H1. rewrite !Z.mod_small in H1 by assumption.
    assert (El : forall l : limits, mkL (txk l) (rxk l) (txn l) (rxn l) = l) by (intros []; reflexivity).
    injection H1 as <-. rewrite El, <- Hl. destruct (id =? 5), (id =? 6), (id =? 7); apply w_lim_same. }
  subst s1. exact (IH _ _ _ _ _ Hl Hr H).
Qed.
Lemma xid_groups_same fuel : forall s frame off n s', lim s = cfg s -> lim_range (cfg s) ->
  xid_groups fuel s frame off n = Ok s' -> s' = s.
Proof.
  induction fuel as [|k IH]; intros s frame off n s' Hl Hr H; cbn [xid_groups] in H; [congruence|].
  destruct (n <=? 0); [congruence|].
  apply rbind_ok in H. destruct H as (id & _ & H). apply rbind_ok in H. destruct H as (h & _ & H). apply rbind_ok in H. destruct H as (l & _ & H).
  destruct (_ <? 0); [congruence|]. apply rbind_ok in H. destruct H as (s1 & H1 & H).
  assert (E : s1 = s).
  { destruct (id =? GI_PARAM); [exact (param_group_same _ _ _ _ _ _ Hl Hr H1)|].
    destruct (id =? GI_PRIVATE); [|congruence]. apply rbind_ok in H1. destruct H1 as (_ & _ & H1). congruence. }
  subst s1. exact (IH _ _ _ _ _ Hl Hr H).
Qed.
Lemma receive_xid_same s frame len s' : lim s = cfg s -> lim_range (cfg s) -> receive_xid s frame len = Ok s' -> s' = s.
Proof.
  intros Hl Hr H. unfold receive_xid in H. apply rbind_ok in H. destruct H as (f & _ & H).
  destruct (negb _); [congruence|]. exact (xid_groups_same _ _ _ _ _ _ Hl Hr H).
Qed.

(** reading an XID stays in the buffer *)
Lemma aget_in l i : 0 <= i < Z.of_nat (length l) -> bytes l -> exists v, aget l i = Ok v /\ 0 <= v < 256.
Proof.
  intros H Hb. unfold aget, in_bounds. replace ((0 <=? i) && (i <? Z.of_nat (length l))) with true by lia.
  eexists. split; [reflexivity|]. unfold bytes in Hb. rewrite Forall_forall in Hb. apply Hb. apply nth_In. lia.
Qed.
Lemma aslice_in l off n : 0 <= off -> off + n <= Z.of_nat (length l) -> exists v, aslice l off n = Ok v.
Proof.
  intros H H1. unfold aslice. destruct (Z.leb_spec n 0); [eauto|].
  replace ((0 <=? off) && (off + n <=? Z.of_nat (length l))) with true by lia. eauto.
Qed.
Lemma param_group_ok fuel : forall s frame off n, length frame = 404%nat -> bytes frame -> 0 <= off -> off + n <= 402 ->
  exists s', param_group fuel s frame off n = Ok s'.
Proof.
  induction fuel as [|k IH]; intros s frame off n Hl Hb Ho Hn; cbn [param_group]; [eauto|].
  destruct (Z.leb_spec n 0); [eauto|].
  destruct (aget_in frame off ltac:(lia) Hb) as (id & -> & _). cbn [rbind].
  destruct (aget_in frame (off + 1) ltac:(lia) Hb) as (m & -> & Hm). cbn [rbind].
  destruct (Z.ltb_spec n (2 + m)); [eauto|].
  destruct (aslice_in frame (off + 2) m ltac:(lia) ltac:(lia)) as (v & Ev).
  destruct ((id =? 5) || (id =? 6) || (id =? 7) || (id =? 8)); [rewrite Ev|]; cbn [rbind]; apply IH; auto; lia.
Qed.
Lemma private_group_ok fuel : forall frame off n, length frame = 404%nat -> bytes frame -> 0 <= off -> off + n <= 402 ->
  exists u, private_group fuel frame off n = Ok u.
Proof.
  induction fuel as [|k IH]; intros frame off n Hl Hb Ho Hn; cbn [private_group]; [eauto|].
  destruct (Z.leb_spec n 0); [eauto|].
  destruct (aget_in frame off ltac:(lia) Hb) as (id & -> & _). cbn [rbind].
  destruct (aget_in frame (off + 1) ltac:(lia) Hb) as (m & -> & Hm). cbn [rbind].
  destruct (Z.ltb_spec n (2 + m)); [eauto|].
  destruct (aslice_in frame (off + 2) m ltac:(lia) ltac:(lia)) as (v & Ev).
  destruct ((id =? 1) || (id =? 2) || (id =? 3)); [rewrite Ev|]; cbn [rbind]; apply IH; auto; lia.
Qed.
Lemma lor8 h l : 0 <= h < 256 -> 0 <= l < 256 -> Z.lor (Z.shiftl h 8) l = 256 * h + l.
Proof.
  intros Hh Hl.
  assert (E : Z.land (Z.shiftl h 8) l = 0).
  { apply Z.bits_inj'. intros n Hn. rewrite Z.land_spec, Z.bits_0. destruct (Z.ltb_spec n 8).
    - rewrite Z.shiftl_spec_low by lia. reflexivity.
    - replace l with (l mod 2 ^ 8) by (apply Z.mod_small; lia). rewrite Z.mod_pow2_bits_high by lia. apply andb_false_r. }
  rewrite <- Z.lxor_lor, <- Z.add_nocarry_lxor by exact E. rewrite Z.shiftl_mul_pow2 by lia. change (2 ^ 8) with 256. lia.
Qed.
Lemma xid_groups_ok fuel : forall s frame off n, length frame = 404%nat -> bytes frame -> 0 <= off -> off + n <= 402 ->
  exists s', xid_groups fuel s frame off n = Ok s'.
Proof.
  induction fuel as [|k IH]; intros s frame off n Hl Hb Ho Hn; cbn [xid_groups]; [eauto|].
  destruct (Z.leb_spec n 0); [eauto|].
  destruct (aget_in frame off ltac:(lia) Hb) as (id & -> & _). cbn [rbind].
  destruct (aget_in frame (off + 1) ltac:(lia) Hb) as (h & -> & Hh). cbn [rbind].
  destruct (aget_in frame (off + 2) ltac:(lia) Hb) as (l & -> & Hll). cbn [rbind].
  rewrite lor8 by lia. destruct (Z.ltb_spec (n - (3 + (256 * h + l))) 0); [eauto|].
  destruct (param_group_ok (Z.to_nat (256 * h + l)) s frame (off + 3) (256 * h + l) Hl Hb ltac:(lia) ltac:(lia)) as (s1 & E1).
  destruct (private_group_ok (Z.to_nat (256 * h + l)) frame (off + 3) (256 * h + l) Hl Hb ltac:(lia) ltac:(lia)) as (u & E2).
  destruct (id =? GI_PARAM); [rewrite E1; cbn [rbind]; apply IH; auto; lia|].
  destruct (id =? GI_PRIVATE); [rewrite E2|]; cbn [rbind]; apply IH; auto; lia.
Qed.
Lemma receive_xid_WF s frame len : WF s -> length frame = 404%nat -> bytes frame -> len <= 402 -> receive_xid s frame len = Ok s.
Proof.
  intros (_ & _ & _ & (Hc & Hl) & _) Hlen Hb Hle.
  assert (E : exists s', receive_xid s frame len = Ok s').
  { unfold receive_xid. destruct (aget_in frame 2 ltac:(lia) Hb) as (f & -> & _). cbn [rbind]. destruct (negb _); [eauto|].
    apply xid_groups_ok; auto; lia. }
  destruct E as (s' & E). rewrite E. f_equal. apply (receive_xid_same s frame len s'); [congruence| |exact E].
  rewrite Hc. unfold lim_range, default_limits. cbn. lia.
Qed.

(** ---- the control queue ---- *)
Definition ok1 (r : res v42) : Prop := exists s', r = Ok s' /\ WF s'.
Definition ok2 (r : res (v42 * list ev)) : Prop := exists s' e, r = Ok (s', e) /\ WF s' /\ no_put_status e.

Lemma nps_nil : no_put_status [].
Proof. intros n []. Qed.
Lemma nps_app a b : no_put_status a -> no_put_status b -> no_put_status (a ++ b).
Proof. intros H H' n Hi. apply in_app_or in Hi. destruct Hi; [eapply H|eapply H']; eassumption. Qed.
Lemma nps_one e : (forall n, e <> PutStatus n) -> no_put_status [e].
Proof. intros H n [E|[]]. exact (H n E). Qed.
Ltac nps := first [apply nps_nil | apply nps_one; intros; discriminate | assumption | apply nps_app; nps].

Lemma put_ctrl_WF s b len : WF s -> (length b <= 132)%nat -> 0 <= len <= 132 -> ok1 (put_ctrl s b len).
Proof.
  intros H Hb Hlen. pose proof H as ((B1 & B2 & B3 & B4) & (C1 & C2) & Hrest). unfold put_ctrl, CTRL_FRAMES.
  rewrite wrap8 by lia. destruct (_ =? _); [exists s; auto|].
  rewrite fget_ok by lia. cbn [rbind]. pose proof (sized_nth (ctrl_buf s) (ctrl_put s) B3 ltac:(lia)) as (Hb1 & _).
  rewrite ablit_ok by (try lia; rewrite Hb1; cbn; lia). cbn [rbind]. rewrite fset_ok by lia. cbn [rbind].
  eexists. split; [reflexivity|]. split; [|split; [|exact Hrest]].
  - unfold buffers_ok. cbn [ctrl_buf info_buf w_ctrl_put w_ctrl_buf]. rewrite upd_length. split; [exact B1|]. split; [exact B2|]. split; [|exact B4].
    apply Forall_upd; [exact B3|]. cbn [fbuf flen]. split; [|lia]. change (Z.to_nat 0) with 0%nat. rewrite ablit_len by (rewrite Hb1; cbn; lia). exact Hb1.
  - cbn [ctrl_get ctrl_put w_ctrl_put w_ctrl_buf]. split; [exact C1|]. apply Z.mod_pos_bound. lia.
Qed.
Lemma un_WF s ad c : WF s -> ok1 (tx_unnumbered s ad c).
Proof. intros H. apply put_ctrl_WF; [exact H|cbn; lia|lia]. Qed.
Lemma sup_WF s ad k pf : WF s -> ok1 (tx_supervisory s ad k pf).
Proof. intros H. apply put_ctrl_WF; [exact H|cbn; lia|lia]. Qed.
Lemma xid_WF s ad : WF s -> ok1 (transmit_xid s ad).
Proof.
  intros H. apply put_ctrl_WF; [exact H| |].
  - unfold xid_bytes. destruct (comp s =? 0); cbn; lia.
  - destruct (comp s =? 0); lia.
Qed.

Lemma timer_WF s n f : WF s -> f <> TNone -> WF (set_timer s n f).
Proof. intros (A & B & C & D & E & F) Hf. split; [exact A|]. split; [exact B|]. split; [exact C|]. split; [exact D|]. split; [exact E|]. intros _. exact Hf. Qed.
Lemma retry_WF s n : WF s -> WF (w_retry n s).
Proof. intros H; exact H. Qed.
Lemma st_WF s n : WF s -> WF (w_st n s).
Proof. intros H; exact H. Qed.
Lemma stop_timer_WF s : WF s -> WF (w_timer 0 s).
Proof. intros (A & B & C & D & E & F). split; [exact A|]. split; [exact B|]. split; [exact C|]. split; [exact D|]. split; [exact E|]. intros G. exfalso. apply G. reflexivity. Qed.
Lemma t401_WF s : WF s -> WF (t401_start s).
Proof. intros H. apply retry_WF, timer_WF; [exact H|discriminate]. Qed.
Lemma t401_stop_WF s : WF s -> WF (t401_stop s).
Proof. intros H. apply retry_WF, stop_timer_WF. exact H. Qed.
Lemma t403_WF s : WF s -> WF (t401_stop_t403_start s).
Proof. intros H. apply retry_WF, timer_WF; [exact H|discriminate]. Qed.
Lemma reset_WF s : WF s -> WF (reset_lapm s).
Proof.
  intros (A & B & C & (D1 & D2) & E & F). split; [exact A|]. split; [cbn; lia|]. split; [cbn; lia|].
  split; [split; exact D1|]. split; [exact E|exact F].
Qed.
Lemma ok1_map (f : v42 -> v42) r : (forall s, WF s -> WF (f s)) -> ok1 r -> ok1 (do s <- r; Ok (f s)).
Proof. intros Hf (s & -> & H). exists (f s). split; [reflexivity|auto]. Qed.
Lemma ok1_bind r k : ok1 r -> (forall s, WF s -> ok1 (k s)) -> ok1 (rbind r k).
Proof. intros (s & -> & H) Hk. apply Hk. exact H. Qed.
Lemma ok2_bind1 r k : ok1 r -> (forall s, WF s -> ok2 (k s)) -> ok2 (rbind r k).
Proof. intros (s & -> & H) Hk. apply Hk. exact H. Qed.
Lemma ok2_ok s e : WF s -> no_put_status e -> ok2 (Ok (s, e)).
Proof. intros H Hn. exists s, e. auto. Qed.
Lemma ok1_ok s : WF s -> ok1 (Ok s).
Proof. intros H. exists s. auto. Qed.
Lemma ok2_bind r k : ok2 r -> (forall s e, WF s -> no_put_status e -> ok2 (k (s, e))) -> ok2 (rbind r k).
Proof. intros (s & e & -> & H & Hn) Hk. apply Hk; assumption. Qed.

Lemma disconnect_WF s : WF s -> ok1 (lapm_disconnect s).
Proof. intros H. unfold lapm_disconnect. apply (ok1_map t401_start); [exact t401_WF|]. apply un_WF. exact H. Qed.
Lemma connect_WF s : WF s -> ok1 (lapm_connect s).
Proof.
  intros H. unfold lapm_connect. destruct (negb _); [apply ok1_ok; exact H|]. apply (ok1_map t401_start); [exact t401_WF|].
  apply un_WF, st_WF, reset_WF. exact H.
Qed.
Lemma config_WF s : WF s -> ok1 (lapm_config s).
Proof.
  intros H. unfold lapm_config. apply ok1_bind.
  - destruct (_ =? _); [apply sup_WF; exact H|apply ok1_ok; exact H].
  - intros s1 H1. apply (ok1_map t401_start); [exact t401_WF|]. apply xid_WF. exact H1.
Qed.
Lemma t401_expired_WF s : WF s -> ok2 (t401_expired s).
Proof.
  intros H. unfold t401_expired. destruct (_ <? _).
  - destruct (_ || _); [apply ok2_ok; [exact H|nps]|]. destruct (_ =? _); [|apply ok2_ok; [exact H|nps]].
    apply ok2_bind1; [apply disconnect_WF; exact H|]. intros s1 H1. apply ok2_ok; [exact H1|nps].
  - apply ok2_bind1.
    + destruct (configuring _); [apply xid_WF; exact H|]. destruct (_ =? _); [apply un_WF; exact H|]. destruct (_ =? _); [apply un_WF; exact H|].
      destruct (_ =? _); [apply sup_WF; exact H|apply ok1_ok; exact H].
    + intros s1 H1. apply ok2_ok; [apply timer_WF; [exact H1|discriminate]|nps].
Qed.
Lemma t403_expired_WF s : WF s -> ok1 (t403_expired s).
Proof.
  intros H. unfold t403_expired. destruct (negb _); [apply ok1_ok; exact H|].
  apply (ok1_map (fun s => w_retry 1 (t401_start s))); [intros s1 H1; apply retry_WF, t401_WF; exact H1|]. apply sup_WF. exact H.
Qed.

Lemma tx_information_WF s : WF s -> exists s' b e, tx_information_frame s = Ok (s', b, e) /\ WF s' /\ no_put_status e.
Proof.
  intros H. pose proof H as ((B1 & B2 & B3 & B4) & C & (I1 & I2 & I3) & (D1 & D2) & Happ & F). unfold tx_information_frame.
  assert (Hsame : forall b : bool, exists (s' : v42) (b' : bool) (e : list ev), Ok (s, b, @nil ev) = Ok (s', b', e) /\ WF s' /\ no_put_status e).
  { intros b. exists s, b, []. split; [reflexivity|]. split; [exact H|nps]. }
  destruct (_ || _); [apply Hsame|]. destruct (negb _); [apply Hsame|]. unfold INFO_FRAMES. rewrite wrap16 by lia.
  destruct (_ || _); [apply Hsame|]. destruct (app s) as [|x t] eqn:Ea; [apply Hsame|].
  assert (Hd : forall e : list ev, no_put_status e -> exists (s' : v42) (b' : bool) (e' : list ev), Ok (w_app t s, false, e) = Ok (s', b', e') /\ WF s' /\ no_put_status e').
  { intros e He. exists (w_app t s), false, e. split; [reflexivity|]. split; [|exact He]. split; [repeat split; assumption|]. split; [exact C|].
    split; [auto|]. split; [auto|]. split; [|exact F]. cbn [app w_app]. exact (Forall_inv_tail Happ). }
  destruct x as [[|b0 d0]|]; [apply Hd; nps| |apply Hd; nps]. set (d := b0 :: d0) in *. clear Hsame Hd.
  apply Forall_inv in Happ as Hdl. rewrite fget_ok by lia. cbn [rbind]. rewrite D2. cbn [txn default_limits].
  replace (128 <? Z.of_nat (length d)) with false by lia.
  pose proof (sized_nth (info_buf s) (info_put s) B4 ltac:(lia)) as (Hb1 & _).
  rewrite ablit_ok by (try lia; rewrite Hb1; change (Z.to_nat 3) with 3%nat; lia). cbn [rbind]. rewrite fset_ok by lia. cbn [rbind].
  eexists. exists true, []. split; [reflexivity|]. split; [|nps]. split; [|split; [exact C|]].
  - unfold buffers_ok. cbn [ctrl_buf info_buf w_info_put w_info_buf w_app]. rewrite upd_length. split; [exact B1|]. split; [exact B2|]. split; [exact B3|].
    apply Forall_upd; [exact B4|]. cbn [fbuf flen]. split; [|lia]. change (Z.to_nat 3) with 3%nat. rewrite ablit_len by (rewrite Hb1; lia). exact Hb1.
  - cbn [info_get info_put info_acked w_info_put w_info_buf w_app]. split; [split; [exact I1|split; [apply Z.mod_pos_bound; lia|exact I3]]|].
    split; [auto|]. split; [|exact F]. exact (Forall_inv_tail Happ).
Qed.
Lemma response_WF s ad pf : WF s -> ok2 (information_response s ad pf).
Proof.
  intros H. unfold information_response.
  assert (Hone : exists s' b e, (if Z.odd pf then Ok (s, false, []) else tx_information_frame s) = Ok (s', b, e) /\ WF s' /\ no_put_status e).
  { destruct (Z.odd pf); [exists s, false, []; split; [reflexivity|split; [exact H|nps]]|apply tx_information_WF; exact H]. }
  destruct Hone as (s' & b & e & -> & H' & He). cbn [rbind]. destruct b; [apply ok2_ok; assumption|].
  apply ok2_bind1; [apply sup_WF; exact H'|]. intros s1 H1. apply ok2_ok; assumption.
Qed.
Lemma reject_WF s : WF s -> WF (reject_info s).
Proof.
  intros H. unfold reject_info. destruct (negb _); [exact H|]. destruct H as (A & B & (I1 & I2 & I3) & D & E & F).
  split; [exact A|]. split; [exact B|]. split; [split; [exact I3|split; [exact I2|exact I3]]|]. split; [exact D|]. split; [exact E|exact F].
Qed.
Lemma ack_loop_WF fuel : forall s nr n, WF s -> exists s' n', ack_loop fuel s nr n = Ok (s', n') /\ WF s'.
Proof.
  induction fuel as [|k IH]; intros s nr n H; cbn [ack_loop]; [eauto|]. destruct (_ && _); [|eauto]. apply IH.
  destruct H as (A & B & (I1 & I2 & I3) & D & E & F). split; [exact A|]. split; [exact B|]. split; [|split; [exact D|split; [exact E|exact F]]].
  cbn [info_get info_put info_acked w_va w_info_acked]. split; [exact I1|]. split; [exact I2|]. unfold INFO_FRAMES. rewrite wrap16 by lia. apply Z.mod_pos_bound. lia.
Qed.
Lemma ack_WF s nr : WF s -> ok1 (ack_info s nr).
Proof.
  intros H. unfold ack_info. destruct (negb _); [apply disconnect_WF; exact H|].
  destruct (ack_loop_WF (Z.to_nat INFO_FRAMES) s nr 0 H) as (s1 & n1 & -> & H1). cbn [rbind].
  destruct (_ && _); [|apply ok1_ok; exact H1]. apply ok1_ok. destruct (negb _); [apply t401_WF, t403_WF|apply t403_WF]; exact H1.
Qed.
Lemma valid_WF s : WF s -> exists s' b e, valid_data_state s = (s', b, e) /\ WF s' /\ no_put_status e.
Proof.
  intros H. unfold valid_data_state.
  destruct (_ =? _); [eexists _, _, _; split; [reflexivity|split; [apply st_WF, reset_WF; exact H|nps]]|].
  destruct (_ =? _); [eexists _, _, _; split; [reflexivity|split; [exact H|nps]]|].
  destruct (_ =? _); [eexists _, _, _; split; [reflexivity|split; [apply st_WF, reset_WF; exact H|nps]]|].
  eexists _, _, _; split; [reflexivity|split; [exact H|nps]].
Qed.
(** like ok2, but a short frame may be passed on as a status *)
Definition ok2s (short : bool) (r : res (v42 * list ev)) : Prop :=
  exists s' e, r = Ok (s', e) /\ WF s' /\ (short = false -> no_put_status e).
Lemma ok2_s b r : ok2 r -> ok2s b r.
Proof. intros (s & e & -> & H & Hn). exists s, e. auto. Qed.
Lemma ok2s_bind1 b r k : ok1 r -> (forall s, WF s -> ok2s b (k s)) -> ok2s b (rbind r k).
Proof. intros (s & -> & H) Hk. apply Hk. exact H. Qed.

Lemma receive_information_WF s m len : WF s -> length m = 404%nat -> bytes m -> len <= 402 ->
  ok2s (len <? 3) (receive_information s m len).
Proof.
  intros H Hl Hb Hle. unfold receive_information. destruct (valid_WF s H) as (s1 & b & e & -> & H1 & He).
  destruct b; cbn [negb]; [|apply ok2_s, ok2_ok; assumption].
  destruct (_ <? len); [apply ok2_s, ok2_ok; assumption|].
  destruct (aget_in m 1 ltac:(lia) Hb) as (c & -> & Hc). destruct (aget_in m 2 ltac:(lia) Hb) as (p & -> & Hp). cbn [rbind].
  apply ok2s_bind1; [apply ack_WF; exact H1|]. intros s2 H2. destruct (local_busy s2).
  { destruct (Z.odd p); [|apply ok2_s, ok2_ok; assumption]. apply ok2s_bind1; [apply sup_WF; exact H2|]. intros s3 H3. apply ok2_s, ok2_ok; assumption. }
  destruct (negb _).
  { destruct (rejected s2); [apply ok2_s, ok2_ok; assumption|]. apply ok2s_bind1; [apply sup_WF; exact H2|]. intros s3 H3. apply ok2_s, ok2_ok; assumption. }
  destruct (aslice_in m 3 (len - 3) ltac:(lia) ltac:(lia)) as (d & ->). cbn [rbind].
  destruct (aget_in m 0 ltac:(lia) Hb) as (ad & -> & _). cbn [rbind].
  destruct (response_WF (w_vr (Z.land (vr s2 + 1) 127) (w_rejected false s2)) ad p H2) as (s3 & e3 & -> & H3 & He3). cbn [rbind].
  eexists _, _. split; [reflexivity|]. split; [exact H3|]. intros ->. apply nps_app; [exact He|].
  change (Put d :: e3) with ([Put d] ++ e3). apply nps_app; [nps|exact He3].
Qed.

Lemma sup_cmd_WF s m : WF s -> length m = 404%nat -> bytes m -> ok2 (rx_supervisory_cmd s m).
Proof.
  intros H Hl Hb. unfold rx_supervisory_cmd.
  destruct (aget_in m 0 ltac:(lia) Hb) as (ad & -> & _). destruct (aget_in m 1 ltac:(lia) Hb) as (c & -> & Hc).
  destruct (aget_in m 2 ltac:(lia) Hb) as (p & -> & Hp). cbn [rbind].
  destruct (_ =? S_RR); [apply ok2_bind1; [apply ack_WF; exact H|]; intros s1 H1; apply response_WF; exact H1|].
  destruct (_ =? S_RNR).
  { apply ok2_bind1; [apply ack_WF; exact H|]. intros s1 H1. destruct (Z.odd p); [|apply ok2_ok; [exact H1|nps]].
    apply ok2_bind1; [apply sup_WF; exact H1|]. intros s2 H2. apply ok2_ok; [exact H2|nps]. }
  destruct (_ =? S_REJ); [|apply ok2_ok; [exact H|nps]].
  apply ok2_bind1; [apply ack_WF; exact H|]. intros s1 H1. apply response_WF. destruct (_ =? 0); [apply reject_WF, t403_WF|]; exact H1.
Qed.
Lemma sup_rsp_WF s m : WF s -> length m = 404%nat -> bytes m -> ok2 (rx_supervisory_rsp s m).
Proof.
  intros H Hl Hb. unfold rx_supervisory_rsp.
  destruct (aget_in m 1 ltac:(lia) Hb) as (c & -> & Hc). destruct (aget_in m 2 ltac:(lia) Hb) as (p & -> & Hp). cbn [rbind].
  destruct (_ && _); [apply ok2_ok; [exact H|nps]|].
  assert (Hr : forall (b : bool) s1, WF s1 -> WF (if b then t401_stop_t403_start (reject_info s1) else s1)).
  { intros [] s1 H1; [apply t403_WF, reject_WF|]; exact H1. }
  destruct (_ =? S_RR); [apply ok2_bind1; [apply ack_WF; exact H|]; intros s1 H1; apply ok2_ok; [apply Hr; exact H1|nps]|].
  destruct (_ =? S_RNR).
  { apply ok2_bind1; [apply ack_WF; exact H|]. intros s1 H1. apply ok2_ok; [|nps].
    match goal with |- WF (if _ then t401_start ?x else _) => assert (Hx : WF x) by (apply Hr; exact H1); set (y := x) in * end.
    clearbody y. destruct (_ =? 0); [apply t401_WF|]; exact Hx. }
  destruct (_ =? S_REJ); [apply ok2_bind1; [apply ack_WF; exact H|]; intros s1 H1; apply ok2_ok; [apply Hr; exact H1|nps]|].
  apply ok2_ok; [exact H|nps].
Qed.
Lemma un_cmd_WF s m len : WF s -> length m = 404%nat -> bytes m -> len <= 402 -> ok2 (rx_unnumbered_cmd s m len).
Proof.
  intros H Hl Hb Hle. unfold rx_unnumbered_cmd. destruct (aget_in m 1 ltac:(lia) Hb) as (c & -> & Hc). cbn [rbind].
  destruct (_ =? U_SABME).
  { apply ok2_bind1; [apply un_WF, st_WF, reset_WF; exact H|]. intros s1 H1. apply ok2_ok; [apply t403_WF; exact H1|nps]. }
  destruct (_ =? U_DISC).
  { destruct (_ =? IDLE).
    - apply ok2_bind1; [apply un_WF; exact H|]. intros s1 H1. apply ok2_ok; [exact H1|nps].
    - apply ok2_bind1; [apply un_WF, reset_WF, st_WF; exact H|]. intros s1 H1. apply ok2_ok; [apply t401_stop_WF; exact H1|nps]. }
  destruct (_ =? U_XID); [|apply ok2_ok; [exact H|nps]].
  rewrite receive_xid_WF by assumption. cbn [rbind]. apply ok2_bind1; [apply xid_WF; exact H|]. intros s1 H1. apply ok2_ok; [exact H1|nps].
Qed.
Lemma un_rsp_WF s m len : WF s -> length m = 404%nat -> bytes m -> len <= 402 -> ok2 (rx_unnumbered_rsp s m len).
Proof.
  intros H Hl Hb Hle. unfold rx_unnumbered_rsp. destruct (aget_in m 1 ltac:(lia) Hb) as (c & -> & Hc). cbn [rbind].
  assert (Hsame : ok2 (Ok (s, []))) by (apply ok2_ok; [exact H|nps]).
  destruct (_ =? U_DM).
  { destruct (_ =? IDLE); [apply ok2_ok; [exact H|]; destruct (negb _); nps|].
    destruct (_ || _).
    - destruct (negb _); [|exact Hsame]. apply ok2_ok; [apply t401_stop_WF, reset_WF, st_WF; exact H|nps].
    - destruct (_ =? DATA); [|exact Hsame]. destruct (_ || _); [|exact Hsame]. apply ok2_ok; [apply reset_WF, st_WF; exact H|nps]. }
  destruct (_ =? U_UA).
  { destruct (_ =? ESTABLISH); [apply ok2_ok; [apply t403_WF, reset_WF, st_WF; exact H|nps]|].
    destruct (_ =? RELEASE); [|exact Hsame]. apply ok2_ok; [apply t401_stop_WF, reset_WF, st_WF; exact H|nps]. }
  destruct (_ =? U_XID); [|exact Hsame]. destruct (configuring s); [|exact Hsame].
  rewrite receive_xid_WF by assumption. cbn [rbind].
  assert (H1 : WF (t401_stop (w_configuring false s))) by (apply t401_stop_WF; exact H).
  set (s1 := t401_stop (w_configuring false s)) in *. clearbody s1. apply ok2_bind1.
  - destruct (_ =? IDLE); [apply connect_WF; exact H1|]. destruct (_ =? DATA); [apply sup_WF; exact H1|apply ok1_ok; exact H1].
  - intros s2 H2. apply ok2_ok; [exact H2|nps].
Qed.

Lemma underflow_WF s : WF s -> ok2 (lapm_hdlc_underflow s).
Proof.
  intros H. pose proof H as ((B1 & B2 & B3 & B4) & (C1 & C2) & Hrest). unfold lapm_hdlc_underflow. destruct (negb _).
  - rewrite fget_ok by lia. cbn [rbind]. pose proof (sized_nth (ctrl_buf s) (ctrl_get s) B3 ltac:(lia)) as (Hb & Hf).
    destruct (aslice_in (fbuf (fnth (ctrl_buf s) (ctrl_get s))) 0 (flen (fnth (ctrl_buf s) (ctrl_get s))) ltac:(lia) ltac:(lia)) as (b & ->).
    cbn [rbind]. apply ok2_ok; [|nps]. split; [repeat split; assumption|]. split; [|exact Hrest].
    cbn [ctrl_get ctrl_put w_ctrl_get]. split; [|exact C2]. unfold CTRL_FRAMES. rewrite wrap8 by lia. apply Z.mod_pos_bound. lia.
  - destruct (_ || _); [apply ok2_ok; [exact H|nps]|].
    assert (Hone : exists s' b e, (if info_get s =? info_put s then tx_information_frame s else Ok (s, true, [])) = Ok (s', b, e) /\ WF s' /\ no_put_status e).
    { destruct (_ =? _); [apply tx_information_WF; exact H|]. exists s, true, []. split; [reflexivity|]. split; [exact H|nps]. }
    destruct Hone as (s1 & b & e & -> & H1 & He). cbn [rbind]. destruct b; cbn [negb]; [|apply ok2_ok; [exact H1|nps]].
    clear H B1 B2 B3 B4 C1 C2 Hrest s. rename s1 into s. pose proof H1 as ((B1 & B2 & B3 & B4) & C & (I1 & I2 & I3) & Hrest).
    rewrite fget_ok by lia. cbn [rbind]. pose proof (sized_nth (info_buf s) (info_get s) B4 ltac:(lia)) as (Hb & Hf).
    set (fr := fnth (info_buf s) (info_get s)) in *. rewrite ablit_ok by (cbn [length]; lia). cbn [rbind]. change (Z.to_nat 0) with 0%nat.
    cbn [length]. change (0 + 3)%nat with 3%nat. cbn [firstn Datatypes.app].
    set (buf := cmd_addr s :: u8 (Z.shiftl (vs s) 1) :: u8 (Z.shiftl (vr s) 1) :: skipn 3 (fbuf fr)).
    assert (Hbuf : length buf = 132%nat) by (unfold buf; cbn [length]; rewrite skipn_length; lia). clearbody buf.
    rewrite fset_ok by lia. cbn [rbind]. destruct (aslice_in buf 0 (flen fr) ltac:(lia) ltac:(lia)) as (b & ->). cbn [rbind].
    match goal with |- ok2 (Ok (if _ then t401_start ?x else _, _)) => assert (Hx : WF x); [|set (y := x) in *; clearbody y] end.
    { split; [|split; [exact C|split; [|exact Hrest]]].
      - unfold buffers_ok. cbn [ctrl_buf info_buf w_vs w_info_get w_info_buf]. rewrite upd_length. split; [exact B1|]. split; [exact B2|].
        split; [exact B3|]. apply Forall_upd; [exact B4|]. cbn [fbuf flen]. split; [exact Hbuf|exact Hf].
      - cbn [info_get info_put info_acked w_vs w_info_get w_info_buf]. split; [|auto]. unfold INFO_FRAMES. rewrite wrap16 by lia. apply Z.mod_pos_bound. lia. }
    apply ok2_ok; [destruct (_ =? 0); [apply t401_WF|]; exact Hx|nps].
Qed.

Lemma receive_WF s m len ok : WF s -> length m = 404%nat -> bytes m -> len <= 402 ->
  ok2s (ok && (0 <=? len) && (len <? 3)) (lapm_receive s m len ok).
Proof.
  intros H Hl Hb Hle. unfold lapm_receive. destruct (Z.ltb_spec len 0); [apply ok2_s, ok2_ok; [exact H|nps]|].
  destruct ok; cbn [negb]; [|apply ok2_s, ok2_ok; [exact H|nps]]. replace (0 <=? len) with true by lia. cbn [andb].
  destruct (aget_in m 1 ltac:(lia) Hb) as (c & -> & Hc). cbn [rbind].
  destruct (_ || _); [apply receive_information_WF; assumption|].
  destruct (aget_in m 0 ltac:(lia) Hb) as (ad & Ea & _). destruct (_ =? 1).
  - destruct (valid_WF s H) as (s1 & b & e & -> & H1 & He). destruct b; cbn [negb]; [|apply ok2_s, ok2_ok; assumption].
    rewrite Ea. cbn [rbind]. apply ok2_s, ok2_bind; [destruct (_ =? _); [apply sup_cmd_WF|apply sup_rsp_WF]; assumption|].
    intros s2 e2 H2 He2. apply ok2_ok; [exact H2|nps].
  - rewrite Ea. cbn [rbind]. apply ok2_s. destruct (_ =? _); [apply un_cmd_WF|apply un_rsp_WF]; assumption.
Qed.

Lemma restart_lapm_WF s : WF s -> ok2 (restart_lapm s).
Proof.
  intros H. unfold restart_lapm. apply ok2_bind.
  - destruct (calling s); [apply ok2_ok; [apply timer_WF; [exact H|discriminate]|nps]|apply underflow_WF; exact H].
  - intros s1 e1 H1 He1. apply ok2_ok; [exact H1|exact He1].
Qed.
Lemma tick_WF s : WF s -> ok2 (timer_tick s).
Proof.
  intros H. unfold timer_tick. destruct (Z.eqb_spec (timer s) 0); [apply ok2_ok; [exact H|nps]|]. destruct (_ <=? 0).
  - pose proof (stop_timer_WF s H) as H1. pose proof H as (_ & _ & _ & _ & _ & F). specialize (F n).
    unfold timer_expired. change (tfunc (w_timer 0 s)) with (tfunc s). destruct (tfunc s).
    + congruence.
    + apply ok2_ok; [apply st_WF, stop_timer_WF; exact H1|nps].
    + apply t401_expired_WF. exact H1.
    + apply ok2_bind1; [apply t403_expired_WF; exact H1|]. intros s2 H2. apply ok2_ok; [exact H2|nps].
    + apply ok2_bind1; [apply config_WF; exact H1|]. intros s2 H2. apply underflow_WF. exact H2.
  - apply ok2_ok; [|nps]. destruct H as (A & B & C & D & E & F). split; [exact A|]. split; [exact B|]. split; [exact C|]. split; [exact D|]. split; [exact E|].
    intros _. apply F. exact n.
Qed.
Lemma neg_WF s n : WF s -> WF (w_neg n s).
Proof. intros H; exact H. Qed.
Lemma negrx_WF s bit : WF s -> ok2 (negotiation_rx_bit s bit).
Proof.
  intros H. unfold negotiation_rx_bit. destruct (bit <? 0); [apply ok2_ok; [exact H|nps]|].
  assert (Hgo : forall a b c d, ok2 (Ok (w_neg (n_set (neg s) a b c d (n_odp (neg s))) s, []))) by (intros; apply ok2_ok; [exact H|nps]).
  repeat match goal with |- ok2 (if ?x then _ else _) => destruct x end; try apply Hgo.
  - apply ok2_bind; [apply restart_lapm_WF, st_WF, stop_timer_WF, neg_WF; exact H|]. intros s1 e1 H1 He1. apply ok2_ok; [exact H1|].
    change (Status IDLE :: e1) with ([Status IDLE] ++ e1). nps.
  - apply ok2_ok; [apply neg_WF; exact H|nps].
Qed.
Lemma negtx_WF s : WF s -> ok2 (do (s, e, _) <- negotiation_tx_bit s; Ok (s, e)).
Proof.
  intros H. unfold negotiation_tx_bit.
  repeat match goal with |- ok2 (rbind (if ?x then _ else _) _) => destruct x end;
    try (apply ok2_ok; [exact H|nps]).
  destruct (restart_lapm_WF (w_st IDLE (w_timer 0 s))) as (s1 & e1 & -> & H1 & He1); [apply st_WF, stop_timer_WF; exact H|].
  cbn [rbind]. apply ok2_ok; [apply neg_WF; exact H1|]. change (Status IDLE :: e1) with ([Status IDLE] ++ e1). nps.
Qed.

Lemma react_WF s i : WF s -> possible i -> exists s' e, react s i = Ok (s', e) /\ WF s' /\ (long_enough i -> no_put_status e).
Proof.
  intros H Hi. assert (Hc : forall r, ok2 r -> exists s' e, r = Ok (s', e) /\ WF s' /\ (long_enough i -> no_put_status e)).
  { intros r (s' & e & -> & H' & He). exists s', e. auto. }
  destruct i as [m len ok| | |bit| |b|g| |]; cbn [react possible] in *.
  - destruct Hi as (Hl & Hb & Hle). destruct (receive_WF s m len ok H Hl Hb Hle) as (s' & e & E & H' & He). exists s', e. split; [exact E|]. split; [exact H'|].
    cbn [long_enough]. intros Hlong. apply He. destruct ok; [|reflexivity]. lia.
  - apply Hc, underflow_WF. exact H.
  - apply Hc, tick_WF. exact H.
  - apply Hc, negrx_WF. exact H.
  - apply Hc, negtx_WF. exact H.
  - apply Hc, ok2_ok; [exact H|nps].
  - apply Hc, ok2_ok; [|nps]. destruct H as (A & B & C & D & E & F). split; [exact A|]. split; [exact B|]. split; [exact C|]. split; [exact D|].
    split; [|exact F]. cbn [app w_app]. apply Forall_app. split; [exact E|]. constructor; [destruct g; [exact Hi|exact I]|constructor].
  - apply Hc. unfold v42_restart. destruct (det s); [|apply restart_lapm_WF, st_WF; exact H].
    apply ok2_ok; [apply st_WF, timer_WF; [apply neg_WF; exact H|discriminate]|nps].
  - apply Hc. unfold no_ev. apply ok2_bind1; [apply disconnect_WF, stop_timer_WF; exact H|]. intros s1 H1. apply ok2_ok; [exact H1|nps].
Qed.
Lemma react_all_WF l : forall s, WF s -> Forall possible l ->
  exists s' e, react_all s l = Ok (s', e) /\ WF s' /\ (Forall long_enough l -> no_put_status e).
Proof.
  induction l as [|i l IH]; intros s H Hl; cbn [react_all].
  - exists s, []. split; [reflexivity|]. split; [exact H|]. intros _. nps.
  - destruct (react_WF s i H (Forall_inv Hl)) as (s1 & e1 & -> & H1 & He1). cbn [rbind].
    destruct (IH s1 H1 (Forall_inv_tail Hl)) as (s2 & e2 & -> & H2 & He2). cbn [rbind]. exists s2, (e1 ++ e2).
    split; [reflexivity|]. split; [exact H2|]. intros Hf. apply nps_app; [apply He1; exact (Forall_inv Hf)|apply He2; exact (Forall_inv_tail Hf)].
Qed.
Lemma init_WF c d a : answers_fit a -> WF (v42_init c d a).
Proof.
  intros Ha. unfold WF, v42_init, buffers_ok. cbn [ctrl_buf info_buf ctrl_get ctrl_put info_get info_put info_acked cfg lim app timer tfunc].
  split.
  - split; [reflexivity|]. split; [reflexivity|]. split; apply Forall_forall; intros x Hx; apply repeat_spec in Hx; subst x; cbn [fbuf flen]; (split; [reflexivity|lia]).
  - split; [lia|]. split; [lia|]. split; [split; reflexivity|]. split; [exact Ha|]. intros H. exfalso. apply H. reflexivity.
Qed.
Lemma any_peer_safe c d a l : answers_fit a -> Forall possible l ->
  exists s' e, react_all (v42_init c d a) l = Ok (s', e) /\ (Forall long_enough l -> no_put_status e).
Proof.
  intros Ha Hl. destruct (react_all_WF l _ (init_WF c d a Ha) Hl) as (s' & e & E & _ & He). exists s', e. auto.
Qed.
