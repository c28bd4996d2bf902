(** SPRT: every history of one end, and of two ends joined by a network. *)
From Coq Require Import ZifyBool ZifyNat Znumtheory.
From Verif Require Import Base Sprt_model Sprt_spec Sprt_base_proofs Sprt_chan_proofs Sprt_end_proofs Sprt_call_proofs Sprt_api_proofs Sprt_link_proofs.
Local Open Scope Z_scope.

(** ---- the start ---- *)
Record fresh (s : sprt) : Prop := mkFresh {
  n_rx : forall ch, r_base (rx s ch) = 0 /\ r_in (rx s ch) = 0 /\ r_buf (rx s ch) = repeat None (slots ch) /\ 0 <= r_max (rx s ch) <= 256 /\
           (rel ch -> 8 <= r_win (rx s ch) < Z.of_nat (slots ch));
  n_tx : forall ch, t_q (tx s ch) = 0 /\ t_in (tx s ch) = 0 /\ t_out (tx s ch) = 0 /\ t_buf (tx s ch) = repeat None (slots ch) /\
           t_tr03 (tx s ch) = repeat 0 (slots ch) /\ t_prev (tx s ch) = repeat FREE_TAG 96 /\ t_next (tx s ch) = repeat FREE_TAG 96 /\
           t_tries (tx s ch) = repeat 0 96 /\ t_first (tx s ch) = FREE_TAG /\ t_last (tx s ch) = FREE_TAG /\
           1 <= t_tries_max (tx s ch) <= 20 /\ 0 <= t_max (tx s ch) <= 256 /\ (rel ch -> 8 <= t_win (tx s ch) < Z.of_nat (slots ch));
  n_acks : acks s = [] }.

Lemma init_fresh sub rxpt txpt parms s : sprt_init sub rxpt txpt parms = Some s -> fresh s.
Proof.
  unfold sprt_init. destruct (match parms with None => _ | _ => _ end); [|discriminate]. intros E. injection E as <-. constructor; cbn -[repeat]; [| |reflexivity].
  - intros ch. unfold defaults, slots, rel. destruct (Z.eqb_spec ch 1) as [->|]; [cbn; repeat split; lia|]. destruct (Z.eqb_spec ch 2) as [->|]; cbn; repeat split; try lia; intros [X|X]; contradiction.
  - intros ch. unfold defaults, slots, rel. destruct (Z.eqb_spec ch 1) as [->|]; [cbn -[repeat]; repeat split; lia|].
    destruct (Z.eqb_spec ch 2) as [->|]; cbn -[repeat]; repeat split; try lia; intros [X|X]; contradiction.
Qed.
Ltac fresh_rx ch N := let c := fresh "c" in intros c; cbn -[repeat slots]; destruct (Z.eqb_spec c ch) as [->|]; [|apply N]; cbn -[repeat slots].
Lemma limits_ok ch a b c d : limits ch = (a, b, c, d) -> 0 <= a /\ b <= 256 /\ (rel ch -> 8 <= c /\ d < Z.of_nat (slots ch)).
Proof.
  unfold limits, slots, rel. destruct (Z.eqb_spec ch 1) as [->|]; [intros E; injection E as <- <- <- <-; cbn; lia|].
  destruct (Z.eqb_spec ch 2) as [->|]; intros E; injection E as <- <- <- <-; cbn; lia.
Qed.
Lemma set_fresh s x s' : fresh s -> set_parm s x = Some s' -> fresh s'.
Proof.
  intros [NR NT NA] E. destruct x as [ch n|ch n|ch n|ch n|ch n|ch tm n]; cbn [set_parm] in E.
  - destruct (limits ch) as [[[a b] c] d] eqn:El. apply limits_ok in El. destruct (reliable ch && (c <=? n) && (n <=? d)) eqn:Eb; [|discriminate]. injection E as <-.
    constructor; [|exact NT|exact NA]. fresh_rx ch NR. destruct (NR ch) as (A & B & C & D & _). repeat (split; [assumption|]). intros Hr. destruct El as (_ & _ & El). specialize (El Hr). lia.
  - destruct (limits ch) as [[[a b] c] d] eqn:El. apply limits_ok in El. destruct (_ && (n <=? b)) eqn:Eb; [|discriminate]. injection E as <-.
    constructor; [|exact NT|exact NA]. fresh_rx ch NR. destruct (NR ch) as (A & B & C & D & F). repeat (split; [assumption|]). split; [lia|exact F].
  - destruct (_ && (n <=? 20)) eqn:Eb; [|discriminate]. injection E as <-.
    constructor; [exact NR| |exact NA]. fresh_rx ch NT. destruct (NT ch) as (A1 & A2 & A3 & A4 & A5 & A6 & A7 & A8 & A9 & A10 & A11 & A12 & A13). repeat (split; [assumption|]). split; [lia|auto].
  - destruct (limits ch) as [[[a b] c] d] eqn:El. apply limits_ok in El. destruct (reliable ch && (c <=? n) && (n <=? d)) eqn:Eb; [|discriminate]. injection E as <-.
    constructor; [exact NR| |exact NA]. fresh_rx ch NT. destruct (NT ch) as (A1 & A2 & A3 & A4 & A5 & A6 & A7 & A8 & A9 & A10 & A11 & A12 & A13). repeat (split; [assumption|]).
    intros Hr. destruct El as (_ & _ & El). specialize (El Hr). lia.
  - destruct (limits ch) as [[[a b] c] d] eqn:El. apply limits_ok in El. destruct (_ && (n <=? b)) eqn:Eb; [|discriminate]. injection E as <-.
    constructor; [exact NR| |exact NA]. fresh_rx ch NT. destruct (NT ch) as (A1 & A2 & A3 & A4 & A5 & A6 & A7 & A8 & A9 & A10 & A11 & A12 & A13). repeat (split; [assumption|]). split; [lia|auto].
  - destruct (tm =? 0); [destruct (_ && _); [|discriminate]; injection E as <-; constructor; assumption|].
    assert (X : forall c', (exists t2 t3, c' = mkT (t_max (tx s ch)) (t_win (tx s ch)) t2 t3 (t_ta02 (tx s ch)) (t_base (tx s ch)) (t_q (tx s ch)) (t_tries_max (tx s ch)) (t_in (tx s ch)) (t_out (tx s ch)) (t_buf (tx s ch)) (t_tr03 (tx s ch))
                           (t_prev (tx s ch)) (t_next (tx s ch)) (t_tries (tx s ch)) (t_first (tx s ch)) (t_last (tx s ch))) -> fresh (w_tx ch c' s)).
    { intros c' (t2 & t3 & ->). constructor; [exact NR| |exact NA]. fresh_rx ch NT. apply (NT ch). }
    destruct (tm =? 1); [destruct (reliable ch); [|discriminate]; injection E as <-; apply X; eauto|].
    destruct (tm =? 2); [destruct (reliable ch); [|discriminate]; injection E as <-; apply X; eauto|discriminate].
Qed.
Lemma set_all_fresh l : forall s s', fresh s -> set_all s l = Some s' -> fresh s'.
Proof.
  induction l as [|x l IH]; intros s s' N E; cbn in E; [injection E as <-; exact N|]. destruct (set_parm s x) as [s1|] eqn:E1; [|discriminate]. apply (IH s1 s'); [eapply set_fresh; eassumption|exact E].
Qed.
Lemma start_fresh sub rxpt txpt l s : start sub rxpt txpt l = Some s -> fresh s.
Proof. unfold start. destruct (sprt_init sub rxpt txpt None) eqn:E; [|discriminate]. apply set_all_fresh. eapply init_fresh. exact E. Qed.

Lemma slots_max ch : (slots ch <= 97)%nat.
Proof. unfold slots. destruct (_ =? 1); [lia|]. destruct (_ =? 2); lia. Qed.
Lemma sn_none n i : sn (repeat None n) i = None.
Proof. unfold sn. apply nth_repeat. Qed.
Lemma fresh_EI P s : fresh s -> EI [] P 0 (fun _ => 0) true s.
Proof.
  intros [NR NT NA]. constructor.
  - intros ch Hr. destruct (NT ch) as (A1 & A2 & A3 & A4 & A5 & A6 & A7 & A8 & A9 & A10 & A11 & A12 & A13). specialize (A13 Hr). pose proof (slots_max ch). exists 0, []. split; [|split].
    + constructor; change (zlen (on ch [])) with 0; unfold zlen.
      * lia.
      * rewrite A4, repeat_length. lia.
      * rewrite A4, A5, !repeat_length. reflexivity.
      * rewrite A8. apply repeat_length.
      * lia.
      * rewrite A2. symmetry. apply Z.mod_0_l. lia.
      * rewrite A3. symmetry. apply Z.mod_0_l. lia.
      * rewrite A1. reflexivity.
      * exact A11.
      * exact A12.
      * intros sl p _. rewrite A4, sn_none. discriminate.
      * lia.
      * constructor.
    + constructor.
      * unfold linkedc, linked. rewrite A6, A7, A9, A10. split; [reflexivity|]. split; [reflexivity|]. split; [constructor|]. split; [constructor|]. split; [reflexivity|]. split; [reflexivity|].
        intros [|a A] x B E; discriminate.
      * intros x [].
      * intros x [].
      * rewrite A8. apply Forall_forall. intros z Hz. apply repeat_spec in Hz. lia.
    + intros _ x _. rewrite A4, sn_none. congruence.
  - intros ch Hr. destruct (NR ch) as (A & B & C & D & F). specialize (F Hr). pose proof (slots_max ch). split; [|intros _; rewrite B; symmetry; apply Z.mod_0_l; lia].
    constructor; [lia| |lia|rewrite A; reflexivity|].
    + rewrite C. unfold zlen. rewrite repeat_length. lia.
    + intros k p _. rewrite C, sn_none. discriminate.
  - rewrite NA. cbn. lia.
  - intros ch. destruct (NR ch) as (A & B & C & D & F). destruct (NT ch) as (A1 & A2 & A3 & A4 & A5 & A6 & A7 & A8 & A9 & A10 & A11 & A12 & A13). split; [exact D|]. split; [exact A12|]. lia.
Qed.

(** ---- one end, whatever is done and whatever arrives ---- *)
Definition any3 (_ _ : Z) (_ : list Z) : Prop := True.
Lemma react_ok S b s now a : EI S any3 0 b true s -> exists s' e r S' b', react s now a = Ok (s', e, r) /\ EI S' any3 0 b' (negb (gave_up e)) s'.
Proof.
  intros I. destruct a as [ch p| |ch v|pkt|l]; cbn [react].
  - destruct (tx_ok S any3 (fun _ _ => True) (fun _ _ => True) b true s now ch p I) as [(r & -> & E)|(s0 & s' & e & E & G & _ & _ & _ & _ & _ & _ & _ & _ & _ & _ & _ & I' & _)].
    + rewrite E. exists s, [], (-1), S, b. split; [reflexivity|exact I].
    + rewrite E. exists s', e, 0, (S ++ [(ch, p)]), b. split; [reflexivity|]. rewrite G. exact I'.
  - destruct (timer_expired_ok S any3 (fun _ _ => True) (fun _ _ => True) b true s now I) as (s' & e & b' & -> & I' & _). exists s', e, 0, S, b'. split; [reflexivity|exact I'].
  - destruct (set_busy_ok S any3 (fun _ _ => True) (fun _ _ => True) 0 b true s ch v I) as (s' & e & -> & C & _ & G). exists s', e, 0, S, b. split; [reflexivity|]. rewrite G. apply (EI_calm _ _ _ _ _ s); assumption.
  - destruct (rx_packet_ok S any3 (fun _ _ => True) (fun _ _ => True) b s now pkt I) as (s' & e & b' & r & -> & I' & _ & G & _).
    { intros. split; [auto|]. intros _. split; [unfold any3; auto|auto]. }
    exists s', e, r, S, b'. split; [reflexivity|]. rewrite G. exact I'.
  - exists (w_script l s), [], 0, S, b. split; [reflexivity|]. cbn. destruct I; constructor; assumption.
Qed.
Lemma react_all_ok l : forall S b s, EI S any3 0 b true s -> 
  exists n s' e, react_all s (firstn n l) = Ok (s', e) /\ ((length l <= n)%nat \/ gave_up e = true).
Proof.
  induction l as [|(now, a) l IH]; intros S b s I.
  { exists 0%nat, s, []. split; [reflexivity|left; cbn; lia]. }
  destruct (react_ok S b s now a I) as (s1 & e1 & r & S1 & b1 & E1 & I1). destruct (gave_up e1) eqn:G.
  - exists 1%nat, s1, (e1 ++ []). cbn [firstn react_all]. rewrite E1. cbn. split; [reflexivity|]. rewrite app_nil_r. auto.
  - destruct (IH S1 b1 s1 I1) as (n & s' & e & E & H). exists (Datatypes.S n), s', (e1 ++ e). cbn [firstn react_all]. rewrite E1. cbn [rbind]. rewrite E. cbn [rbind]. split; [reflexivity|].
    rewrite gave_up_app, G. destruct H as [H|H]; [left; cbn; lia|right; exact H].
Qed.
Lemma end_safe sub rxpt txpt set s l : start sub rxpt txpt set = Some s ->
  exists n s' e, react_all s (firstn n l) = Ok (s', e) /\ ((length l <= n)%nat \/ gave_up e = true).
Proof. intros E. apply start_fresh in E. eapply react_all_ok. apply fresh_EI. exact E. Qed.

(** ---- two ends ---- *)
Lemma start_half s s' : fresh s -> fresh s' -> half true (mkNode s [] [] false) (mkNode s' [] [] false) (fun _ => 0) (fun _ => 0) [] [].
Proof.
  intros N N'. constructor; cbn [accepted dev got].
  - apply fresh_EI. exact N.
  - intros ch _. split; [reflexivity|]. cbn. lia.
  - intros ch p _ [].
  - intros ch Hr. unfold hd_ok. destruct (n_rx _ N ch) as (_ & _ & E & _). rewrite E, sn_none. congruence.
  - intros ch i _ (H & _). cbn in H. lia.
  - intros m [].
  - intros k. rewrite (n_acks _ N). intros [].
Qed.

Lemma received_nth f x y bx by_ hx hy ch n : half f x y bx by_ hx hy -> rel ch -> received (rx (dev x) ch) (bx ch) n -> n < bx ch + 96.
Proof. intros H Hr [X|(X & _)]; [lia|]. destruct (e_rx _ _ _ _ _ _ (h_ei _ _ _ _ _ _ _ H) ch Hr) as (Rc & _). pose proof (r_w _ _ _ Rc). lia. Qed.
(** at most this much more than what was delivered was accepted at the far end *)
Lemma ahead f fy x y bx by_ hx hy ch : half f x y bx by_ hx hy -> half fy y x by_ bx hy hx -> rel ch -> zlen (on ch (accepted y)) <= bx ch + 191.
Proof.
  intros Hx Hy Hr. destruct (e_rx _ _ _ _ _ _ (h_ei _ _ _ _ _ _ _ Hx) ch Hr) as (Rc & _). pose proof (r_pos _ _ _ Rc).
  pose proof (sent_bound _ _ _ _ _ ch (bx ch + 96) (h_ei _ _ _ _ _ _ _ Hy) Hr) as X. cbn beta in X. enough (zlen (on ch (accepted y)) <= bx ch + 96 + 95) by lia. apply X; [|lia].
  intros i Hi. apply (received_nth f x y bx by_ hx hy ch i Hx Hr). apply (h_acked _ _ _ _ _ _ _ Hy); assumption.
Qed.
Lemma num_of b n : b - 4192 <= n <= b + 190 -> num b (n mod 16384) = n.
Proof.
  intros H. unfold num. cbn zeta. rewrite Zminus_mod_idemp_l. destruct (Z_le_gt_dec b n).
  - rewrite Z.mod_small by lia. replace (n - b <=? 192) with true by lia. lia.
  - assert (E : (n - b) mod 16384 = n - b + 16384) by (symmetry; apply Zmod_unique with (-1); lia). rewrite E. replace (n - b + 16384 <=? 192) with false by lia. lia.
Qed.
Lemma recent_ch m mine yours ch : recent m mine yours = true -> rel ch -> zlen (on ch yours) - zlen (on ch (own m)) <= 4096 /\ zlen (on ch mine) - zlen (on ch (peers m)) <= 4096.
Proof. unfold recent, zlen. cbn [forallb]. intros H [->| ->]; lia. Qed.
Lemma ack_seq q n : n < q -> q <= n + 8386 -> q - (q - n mod 16384) mod 16384 = n.
Proof. intros H1 H2. rewrite Zminus_mod_idemp_r, Z.mod_small by lia. lia. Qed.

Lemma node_id x pr : pr = problem x -> mkNode (dev x) (accepted x) (got x ++ []) pr = x.
Proof. intros ->. rewrite app_nil_r. destruct x; reflexivity. Qed.

Definition result (x y : node) (by_ : Z -> Z) (hx hy : list sent) (r : res (node * list sent)) : Prop :=
  exists x' hx' bx' f', r = Ok (x', hx') /\ half f' x' y bx' by_ hx' hy /\ half true y x' by_ bx' hy hx' /\
    (problem x' = false -> problem x = false /\ f' = true).

Lemma does_ok x y bx by_ hx hy now a : half true x y bx by_ hx hy -> half true y x by_ bx hy hx -> (forall pkt, a <> Take pkt) -> result x y by_ hx hy (does x y hx now a).
Proof.
  intros Hx Hy Ha. pose proof (h_ei _ _ _ _ _ _ _ Hx) as I. unfold does. 
  assert (Hid : forall s' e f' b' , EI (accepted x) (at_peer y) 0 b' f' s' -> hdm (dev x) s' ->
     evol (accepted x) (at_peer y) (may_ack y by_ hy) (may_get y) (newack y s' b') bx (dev x) e b' s' ->
     f' = negb (gave_up e) -> result x y by_ hx hy (Ok (mkNode s' (accepted x) (got x ++ delivered e) (problem x || gave_up e), hx ++ map (fun b => mkSent b (accepted x) (accepted y)) (packets e)))).
  { intros s' e f' b' I' Hd V Ef. destruct (moved true true x y bx by_ hx hy Hx Hy (accepted x) [] (dev x) s' e b' f' (problem x || gave_up e)) as (A & B); auto.
    - rewrite app_nil_r. reflexivity.
    - intros. reflexivity.
    - eexists _, _, b', f'. split; [reflexivity|]. split; [exact A|]. split; [exact B|]. cbn. destruct (problem x), (gave_up e); cbn; try discriminate; auto. }
  destruct a as [ch p| |ch v|pkt|l]; cbn [react].
  - destruct (tx_ok (accepted x) (at_peer y) (may_ack y by_ hy) (may_get y) bx true (dev x) now ch p I) as [(r & -> & E)|(s0 & s' & e & E & G & _ & _ & E1 & E2 & E3 & _ & _ & _ & _ & _ & E4 & I' & V & E5 & E6)].
    + rewrite E. cbn [rbind]. change (-1 =? 0) with false. cbn iota. cbn [delivered packets flat_map map gave_up statuses existsb]. rewrite node_id by apply orb_false_r. rewrite app_nil_r.
      exists x, hx, bx, true. auto.
    + rewrite E. cbn [rbind]. change (0 =? 0) with true. cbn iota.
      destruct (moved true true x y bx by_ hx hy Hx Hy (accepted x ++ [(ch, p)]) [(ch, p)] s0 s' e bx true (problem x || gave_up e)) as (A & B); auto.
      { apply hdm_same; assumption. }
      eexists _, _, bx, true. split; [reflexivity|]. split; [exact A|]. split; [exact B|]. cbn. rewrite G, orb_false_r. auto.
  - destruct (timer_expired_ok (accepted x) (at_peer y) (may_ack y by_ hy) (may_get y) bx true (dev x) now I) as (s' & e & b' & -> & I' & Hd & V). cbn [rbind].
    apply (Hid s' e (negb (gave_up e)) b'); auto.
  - destruct (set_busy_ok (accepted x) (at_peer y) (may_ack y by_ hy) (may_get y) 0 bx true (dev x) ch v I) as (s' & e & -> & C & Q & G). cbn [rbind].
    apply (Hid s' e true bx); auto.
    + apply (EI_calm _ _ _ _ _ (dev x)); assumption.
    + intros c Hr. apply hd_calm; assumption.
    + apply evol_calm; assumption.
    + rewrite G. reflexivity.
  - exfalso. apply (Ha pkt). reflexivity.
  - cbn [rbind]. apply (Hid (w_script l (dev x)) [] true bx); auto.
    + destruct I; constructor; assumption.
    + intros c Hr X. exact X.
    + apply evol_calm; [|split; reflexivity]. constructor; cbn; auto. intros c. apply setbusy_id.
Qed.

Lemma arrives_ok x y bx by_ hx hy now m : half true x y bx by_ hx hy -> half true y x by_ bx hy hx -> In m hy -> recent m (accepted x) (accepted y) = true ->
  result x y by_ hx hy (does x y hx now (Take (octets m))).
Proof.
  intros Hx Hy Hm Hrec. pose proof (h_ei _ _ _ _ _ _ _ Hx) as I. unfold does. cbn [react].
  destruct (h_hist _ _ _ _ _ _ _ Hy m Hm) as [F1 F2 (sub & pt & ch & seq & base & ks & p & F3 & F4 & F5 & F6 & F7 & F8)]. rewrite F3.
  assert (Hks : Forall (fun k => 0 <= k < 65536) ks).
  { apply Forall_forall. intros k Hk. destruct (F8 k Hk) as (tc & n & (A1 & A2 & A3 & _) & _). subst k. pose proof (Z.mod_pos_bound n 16384 ltac:(lia)). unfold rel in A1. lia. }
  assert (Hnum : rel ch -> p <> [] -> exists n, znth (on ch (accepted y)) n = Some p /\ num (bx ch) (seq mod 16384) = n /\ zlen (on ch (accepted y)) <= n + 4192 /\ 0 <= n).
  { intros Hr Hp. destruct F7 as [F7|[(_ & n & F9 & F10 & F11)|(F7 & _)]]; [contradiction| |contradiction]. exists n. split; [exact F11|].
    destruct (recent_ch _ _ _ _ Hrec Hr) as (R1 & _). pose proof (znth_range _ _ _ F11). pose proof (ahead _ _ _ _ _ _ _ _ ch Hx Hy Hr). destruct (h_got _ _ _ _ _ _ _ Hx ch Hr) as (_ & L).
    split; [|lia]. rewrite F10. apply num_of. lia. }
  destruct (rx_packet_ok (accepted x) (at_peer y) (may_ack y by_ hy) (may_get y) bx (dev x) now (mkp sub pt ch seq base ks p) I) as (s' & e & b' & r & -> & I' & Hd & G & s0 & Hs0 & V).
  { intros ch' seq' ks' p' Hv. apply view_mkp in Hv; auto. destruct Hv as (-> & -> & -> & ->). split.
    - intros tc sq Hin Hr. apply in_map_iff in Hin. destruct Hin as (k & Ek & Hk). destruct (F8 k Hk) as (tc' & n & (A1 & A2 & A3 & A4) & B). subst k.
      rewrite Z.add_comm, Z.div_add, Z_mod_plus_full, Z.div_small, Z.mod_mod in Ek by (try apply Z.mod_pos_bound; lia). cbn in Ek. injection Ek as <- <-.
      destruct (recent_ch _ _ _ _ Hrec Hr) as (_ & R2). pose proof (prefix_on tc' _ _ F2). rewrite ack_seq by lia. split; [exact A4|]. exists m. split; [exact Hm|lia].
    - intros Hp. split.
      + intros Hr _. destruct (Hnum Hr Hp) as (n & A & -> & _). exact A.
      + intros Hr. destruct F7 as [F7|[(F7 & _)|(_ & F7)]]; [contradiction|contradiction|exact F7]. }
  cbn [rbind]. assert (V' : evol (accepted x) (at_peer y) (may_ack y by_ hy) (may_get y) (newack y s' b') bx s0 e b' s').
  { apply V. intros ch' seq' ks' p' Hv Hp Hr Hrc. apply view_mkp in Hv; auto. destruct Hv as (-> & -> & -> & ->). destruct (Hnum Hr Hp) as (n & A & En & B & C). rewrite En in *.
    exists ch, n. split; [|exact B]. split; [exact Hr|]. split; [exact C|]. split; [reflexivity|exact Hrc]. }
  destruct (moved true true x y bx by_ hx hy Hx Hy (accepted x) [] s0 s' e b' true (problem x || gave_up e)) as (A & B); auto.
  - rewrite app_nil_r. reflexivity.
  - destruct Hs0 as [->|(_ & ->)]; reflexivity.
  - destruct Hs0 as [->|(_ & ->)]; reflexivity.
  - intros c i _. destruct Hs0 as [->|(_ & ->)]; reflexivity.
  - eexists _, _, b', true. split; [reflexivity|]. split; [exact A|]. split; [exact B|]. cbn. rewrite G, orb_false_r. auto.
Qed.

Lemma happens_ok x y bx by_ hx hy now a : half true x y bx by_ hx hy -> half true y x by_ bx hy hx -> result x y by_ hx hy (happens x y hx hy now a).
Proof.
  intros Hx Hy. assert (Triv : result x y by_ hx hy (Ok (x, hx))) by (exists x, hx, bx, true; auto).
  destruct a as [c|k]; cbn [happens].
  - destruct c as [ch p| |ch v|pkt|l]; try exact Triv; apply (does_ok x y bx by_); auto; discriminate.
  - destruct (nth_error hy k) as [m|] eqn:E; [|exact Triv]. destruct (recent m (accepted x) (accepted y)) eqn:R; [|exact Triv]. apply (arrives_ok x y bx by_); auto. eapply nth_error_In. exact E.
Qed.

Definition INV (f1 f2 : bool) (w : world) : Prop := exists b1 b2, half f1 (one w) (two w) b1 b2 (from_one w) (from_two w) /\ half f2 (two w) (one w) b2 b1 (from_two w) (from_one w).
Definition fine (w : world) : Prop := problem (one w) = false /\ problem (two w) = false.
Lemma step_ok w h : INV true true w -> exists w' f1 f2, step w h = Ok w' /\ INV f1 f2 w' /\ (fine w' -> fine w /\ f1 = true /\ f2 = true).
Proof.
  intros (b1 & b2 & H1 & H2). destruct h as ((at_one, now), a). cbn [step]. destruct at_one.
  - destruct (happens_ok (one w) (two w) b1 b2 (from_one w) (from_two w) now a H1 H2) as (x' & hx' & b' & f' & -> & A & B & C). cbn [rbind]. eexists _, f', true. split; [reflexivity|].
    split; [exists b', b2; auto|]. unfold fine. cbn. intros (P1 & P2). destruct (C P1). auto.
  - destruct (happens_ok (two w) (one w) b2 b1 (from_two w) (from_one w) now a H2 H1) as (x' & hx' & b' & f' & -> & A & B & C). cbn [rbind]. eexists _, true, f'. split; [reflexivity|].
    split; [exists b1, b'; auto|]. unfold fine. cbn. intros (P1 & P2). destruct (C P2). auto.
Qed.
Lemma run_ok l : forall w, INV true true w -> exists n w' f1 f2, run w (firstn n l) = Ok w' /\ INV f1 f2 w' /\ ((length l <= n)%nat \/ ~ fine w').
Proof.
  induction l as [|h l IH]; intros w I.
  { exists 0%nat, w, true, true. split; [reflexivity|]. split; [exact I|left; cbn; lia]. }
  destruct (step_ok w h I) as (w1 & f1 & f2 & E & I1 & F).
  assert (D : fine w1 \/ ~ fine w1) by (unfold fine; destruct (problem (one w1)), (problem (two w1)); intuition discriminate). destruct D as [D|D].
  - destruct (F D) as (_ & -> & ->). destruct (IH w1 I1) as (n & w' & g1 & g2 & E' & I' & H). exists (Datatypes.S n), w', g1, g2. cbn [firstn run]. rewrite E. cbn [rbind]. split; [exact E'|]. split; [exact I'|].
    destruct H as [H|H]; [left; cbn; lia|right; exact H].
  - exists 1%nat, w1, f1, f2. cbn [firstn run]. rewrite E. cbn. auto.
Qed.
Lemma run_fine l : forall w w', INV true true w -> run w l = Ok w' -> fine w' -> INV true true w' /\ fine w.
Proof.
  induction l as [|h l IH]; intros w w' I E F; cbn [run] in E; [injection E as <-; auto|].
  destruct (step_ok w h I) as (w1 & f1 & f2 & E1 & I1 & C). rewrite E1 in E. cbn [rbind] in E.
  (* a problem stays *)
  assert (K : forall l w w', run w l = Ok w' -> fine w' -> fine w).
  { clear. induction l as [|h l IH]; intros w w' E F; cbn [run] in E; [injection E as <-; exact F|]. destruct (step w h) as [w1|] eqn:E1; [|discriminate]. cbn [rbind] in E. specialize (IH _ _ E F). clear E F.
    assert (D : forall x y hx now a x' hx', does x y hx now a = Ok (x', hx') -> problem x' = false -> problem x = false).
    { clear. intros x y hx now a x' hx' E. unfold does in E. destruct (react (dev x) now a) as [[[s e] r]|]; [|discriminate]. cbn [rbind] in E. injection E as <- _. cbn. destruct (problem x); [discriminate|auto]. }
    assert (H : forall x y hx hy now a x' hx', happens x y hx hy now a = Ok (x', hx') -> problem x' = false -> problem x = false).
    { intros x y hx hy now a x' hx' E P. destruct a as [c|k]; cbn [happens] in E.
      - destruct c; try (injection E as <- _; exact P); eapply D; eassumption.
      - destruct (nth_error hy k); [|injection E as <- _; exact P]. destruct (recent _ _ _); [eapply D; eassumption|injection E as <- _; exact P]. }
    destruct h as ((at_one, now), a). cbn [step] in E1. destruct at_one; destruct (happens _ _ _ _ _ _) as [(x', hx')|] eqn:E2; try discriminate; cbn [rbind] in E1; injection E1 as <-; destruct IH as (P1 & P2); cbn in P1, P2;
      split; try assumption; eapply H; eassumption. }
  destruct (C (K _ _ _ E F)) as (F0 & -> & ->). split; [|exact F0]. apply (IH w1 w' I1 E F).
Qed.
Lemma joined_INV sub1 sub2 pt1 pt2 l1 l2 w : joined sub1 sub2 pt1 pt2 l1 l2 = Some w -> INV true true w.
Proof.
  unfold joined. destruct (start sub1 pt1 pt2 l1) as [a|] eqn:E1; [|discriminate]. destruct (start sub2 pt2 pt1 l2) as [b|] eqn:E2; [|discriminate]. intros E. injection E as <-.
  apply start_fresh in E1, E2. exists (fun _ => 0), (fun _ => 0). cbn. split; apply start_half; assumption.
Qed.

(** what the receiver has of a reliable channel *)
Lemma half_prefix f x y bx by_ hx hy ch : half f x y bx by_ hx hy -> rel ch -> prefix (on ch (got x)) (on ch (accepted y)).
Proof. intros H Hr. destruct (h_got _ _ _ _ _ _ _ H ch Hr) as (-> & _). eexists. symmetry. apply firstn_skipn. Qed.
Lemma half_all f fy x y bx by_ hx hy ch : half f x y bx by_ hx hy -> half fy y x by_ bx hy hx -> rel ch -> all_acknowledged (dev y) ch -> open (dev x) ch ->
  on ch (got x) = on ch (accepted y).
Proof.
  intros Hx Hy Hr Ha (O1 & O2). destruct (h_got _ _ _ _ _ _ _ Hx ch Hr) as (-> & L). pose proof (h_ei _ _ _ _ _ _ _ Hx) as Ix. pose proof (h_ei _ _ _ _ _ _ _ Hy) as Iy.
  destruct (e_rx _ _ _ _ _ _ Ix ch Hr) as (Rc & Ri). specialize (Ri ltac:(unfold rel in Hr; lia)). pose proof (r_w _ _ _ Rc). pose proof (r_pos _ _ _ Rc).
  enough (bx ch = zlen (on ch (accepted y))) as E by (rewrite E; unfold zlen; rewrite Nat2Z.id; apply firstn_all).
  destruct (Z.eq_dec (bx ch) (zlen (on ch (accepted y)))) as [E|E]; [exact E|exfalso].
  assert (Hn : received (rx (dev x) ch) (bx ch) (bx ch)).
  { apply (h_acked _ _ _ _ _ _ _ Hy ch _ Hr). split; [lia|]. right. unfold all_acknowledged in Ha. destruct (e_tx _ _ _ _ _ _ Iy ch Hr) as (O & Lq & G & _). pose proof (g_win _ _ _ G).
    unfold sn. destruct (nth_in_or_default (Z.to_nat (bx ch mod t_win (tx (dev y) ch))) (t_buf (tx (dev y) ch)) None) as [X|X]; [|exact X]. apply (proj1 (Forall_forall _ _) Ha _ X). }
  destruct Hn as [Hn|(_ & Hn)]; [lia|]. pose proof (h_hd _ _ _ _ _ _ _ Hx ch Hr) as Hd. unfold hd_ok in Hd. rewrite Ri in Hd. specialize (Hd Hn). destruct Hd; congruence.
Qed.

(** ---- the window ---- *)
Lemma tx_ret S P b f s now ch p O L : EI S P 0 b f s -> rel ch -> 0 < zlen p <= t_max (tx s ch) -> ring (tx s ch) (on ch S) O -> timed (tx s ch) L ->
  exists s' e, sprt_tx s now ch p = Ok (s', e, if t_win (tx s ch) - 1 <=? zlen (on ch S) - O then -1 else 0).
Proof.
  intros I Hr Hp G T. pose proof Hr as Hr'. apply reliable_rel in Hr'. pose proof (room_ok _ _ _ G) as R. cbn zeta in R.
  destruct (tx_ok S P (fun _ _ => False) (fun _ _ => False) b f s now ch p I) as [(r & -> & E)|(s0 & s' & e & E & _)].
  - rewrite E. destruct (_ <=? _) eqn:X; [eauto|]. exfalso. unfold sprt_tx in E. unfold zlen in Hp. unfold rel in Hr.
    replace ((ch <? 0) || (3 <? ch)) with false in E by lia. replace ((Z.of_nat (length p) <=? 0) || (t_max (tx s ch) <? Z.of_nat (length p))) with false in E by lia. rewrite Hr', R in E.
    destruct (oset (t_buf (tx s ch)) _ _); [|discriminate]. cbn [rbind] in E. destruct (aset (t_tr03 _) _ _); [|discriminate]. cbn [rbind] in E. destruct (aset (t_tries _) _ _); [|discriminate]. cbn [rbind] in E.
    destruct (add_last _ _); [|discriminate]. cbn [rbind] in E. destruct (build_and_send _ _ _ _) as [(?, ?)|]; discriminate.
  - rewrite E. destruct (_ <=? _) eqn:X; [|eauto]. exfalso. unfold sprt_tx in E. unfold zlen in Hp. unfold rel in Hr.
    replace ((ch <? 0) || (3 <? ch)) with false in E by lia. replace ((Z.of_nat (length p) <=? 0) || (t_max (tx s ch) <? Z.of_nat (length p))) with false in E by lia. rewrite Hr', R in E. discriminate.
Qed.
Lemma sends_ok ch W M : rel ch -> forall l S b s, EI S any3 0 b true s -> (forall i, ~ acked (tx s ch) (zlen (on ch S)) i) -> t_win (tx s ch) = W -> t_max (tx s ch) = M ->
  Forall (fun m => 0 < zlen (snd m) <= M) l -> zlen (on ch S) <= W - 1 ->
  sends s ch l = Ok (map (fun i => if Z.of_nat i <? W - 1 - zlen (on ch S) then 0 else -1) (seq 0 (length l))).
Proof.
  intros Hr. induction l as [|(now, p) l IH]; intros S b s I Ha HW HM Hl HS; [reflexivity|]. inversion Hl as [|? ? Hp Hl']; subst. cbn [snd] in Hp. cbn [sends length seq map].
  destruct (e_tx _ _ _ _ _ _ I ch Hr) as (O & L & G & T & _). destruct (g_range _ _ _ G) as (R1 & R2).
  assert (EO : O = 0). { destruct (Z.eq_dec O 0); [assumption|]. exfalso. apply (Ha 0). apply (ring_acked _ _ _ _ G). left. lia. } subst O.
  destruct (tx_ret S any3 b true s now ch p 0 L I Hr Hp G T) as (s1 & e1 & E1). rewrite Z.sub_0_r in E1.
  destruct (tx_ok S any3 (fun _ _ => False) (fun _ _ => False) b true s now ch p I) as [(r & -> & E)|(s0 & s' & e & E & _ & _ & _ & _ & _ & _ & _ & _ & _ & _ & Hw & Hac & I' & V & _)].
  - rewrite E in E1. injection E1 as <- <- Er. rewrite E. cbn [rbind]. rewrite (IH S b s I Ha eq_refl eq_refl Hl' HS). cbn [rbind].
    destruct (Z.leb_spec (t_win (tx s ch) - 1) (zlen (on ch S))) as [X|X]; [|discriminate]. f_equal. f_equal; [replace (_ <? _) with false by lia; reflexivity|].
    rewrite <- seq_shift, map_map. apply map_ext. intros i. replace (Z.of_nat i <? _) with false by lia. replace (Z.of_nat (Datatypes.S i) <? _) with false by lia. reflexivity.
  - rewrite E in E1. injection E1 as <- <- Er. rewrite E. cbn [rbind]. destruct (Z.leb_spec (t_win (tx s ch) - 1) (zlen (on ch S))) as [X|X]; [discriminate|].
    assert (Eon : zlen (on ch (S ++ [(ch, p)])) = zlen (on ch S) + 1) by (rewrite on_app, zlen_app; unfold on at 2; cbn; rewrite Z.eqb_refl; reflexivity).
    destruct (Hw ch) as (Hw1 & Hw2). destruct (v_win _ _ _ _ _ _ _ _ _ _ (V (fun _ => True)) ch) as (_ & W2 & _ & W4).
    rewrite (IH (S ++ [(ch, p)]) b s' I').
    + cbn [rbind]. f_equal. f_equal; [replace (_ <? _) with true by lia; reflexivity|]. rewrite Eon. rewrite <- seq_shift, map_map. apply map_ext. intros i.
      replace (Z.of_nat (Datatypes.S i) <? t_win (tx s ch) - 1 - zlen (on ch S)) with (Z.of_nat i <? t_win (tx s ch) - 1 - (zlen (on ch S) + 1)) by lia. reflexivity.
    + intros i Hi. destruct (v_acked _ _ _ _ _ _ _ _ _ _ (V (fun _ => True)) ch i Hr Hi) as [Y|[]]. apply Hac in Y; [|exact Hr]. apply (Ha i Y).
    + congruence.
    + congruence.
    + exact Hl'.
    + lia.
Qed.
Lemma window_ok sub rxpt txpt set s ch l : start sub rxpt txpt set = Some s -> ch = 1 \/ ch = 2 -> Forall (fun m => 0 < Z.of_nat (length (snd m)) <= far_payload s ch) l ->
  sends s ch l = Ok (map (fun i => if Z.of_nat i <? far_window s ch - 1 then 0 else -1) (seq 0 (length l))).
Proof.
  intros E Hr Hl. apply start_fresh in E. pose proof (fresh_EI any3 s E) as I. rewrite (sends_ok ch (far_window s ch) (far_payload s ch) Hr l [] (fun _ => 0) s I); auto.
  - f_equal. apply map_ext. intros i. change (zlen (on ch [])) with 0. rewrite Z.sub_0_r. reflexivity.
  - intros i (H & _). cbn in H. lia.
  - destruct (n_tx _ E ch) as (_ & _ & _ & _ & _ & _ & _ & _ & _ & _ & _ & _ & X). specialize (X Hr). unfold far_window. change (zlen (on ch [])) with 0. lia.
Qed.

(** ---- in the words of the specification ---- *)
Lemma link_reliable sub1 sub2 pt1 pt2 l1 l2 w l w' ch : joined sub1 sub2 pt1 pt2 l1 l2 = Some w -> run w l = Ok w' -> problem (one w') = false -> problem (two w') = false -> ch = 1 \/ ch = 2 ->
  prefix (on ch (got (two w'))) (on ch (accepted (one w'))) /\ prefix (on ch (got (one w'))) (on ch (accepted (two w'))).
Proof.
  intros J R P1 P2 Hr. destruct (run_fine _ _ _ (joined_INV _ _ _ _ _ _ _ J) R (conj P1 P2)) as ((b1 & b2 & H1 & H2) & _). split; eapply half_prefix; eassumption.
Qed.
Lemma link_complete sub1 sub2 pt1 pt2 l1 l2 w l w' ch : joined sub1 sub2 pt1 pt2 l1 l2 = Some w -> run w l = Ok w' -> problem (one w') = false -> problem (two w') = false -> ch = 1 \/ ch = 2 ->
  (all_acknowledged (dev (one w')) ch -> open (dev (two w')) ch -> on ch (got (two w')) = on ch (accepted (one w'))) /\
  (all_acknowledged (dev (two w')) ch -> open (dev (one w')) ch -> on ch (got (one w')) = on ch (accepted (two w'))).
Proof.
  intros J R P1 P2 Hr. destruct (run_fine _ _ _ (joined_INV _ _ _ _ _ _ _ J) R (conj P1 P2)) as ((b1 & b2 & H1 & H2) & _). split; intros; eapply half_all; eassumption.
Qed.
Lemma link_unreliable sub1 sub2 pt1 pt2 l1 l2 w l w' m : joined sub1 sub2 pt1 pt2 l1 l2 = Some w -> run w l = Ok w' -> problem (one w') = false -> problem (two w') = false ->
  (In m (got (two w')) -> In m (accepted (one w'))) /\ (In m (got (one w')) -> In m (accepted (two w'))).
Proof.
  intros J R P1 P2. destruct (run_fine _ _ _ (joined_INV _ _ _ _ _ _ _ J) R (conj P1 P2)) as ((b1 & b2 & H1 & H2) & _).
  assert (X : forall f x y bx by_ hx hy, half f x y bx by_ hx hy -> In m (got x) -> In m (accepted y)).
  { clear. intros f x y bx by_ hx hy H Hm. destruct m as (ch, p). destruct (reliable ch) eqn:Er.
    - apply reliable_rel in Er. destruct (half_prefix _ _ _ _ _ _ _ ch H Er) as (t & E).
      assert (A : forall l, In (ch, p) l <-> In p (on ch l)).
      { clear. intros l. unfold on. rewrite in_map_iff. split.
        - intros X. exists (ch, p). split; [reflexivity|]. apply filter_In. split; [exact X|apply Z.eqb_refl].
        - intros ((c, q) & E & X). apply filter_In in X. destruct X as (X & Y). cbn in *. apply Z.eqb_eq in Y. subst. exact X. }
      apply A. rewrite E. apply in_or_app. left. apply A. exact Hm.
    - apply (h_un _ _ _ _ _ _ _ H); [|exact Hm]. intros X. apply reliable_rel in X. congruence. }
  split; eapply X; eassumption.
Qed.
Lemma link_safe sub1 sub2 pt1 pt2 l1 l2 w l : joined sub1 sub2 pt1 pt2 l1 l2 = Some w ->
  exists n w', run w (firstn n l) = Ok w' /\ ((length l <= n)%nat \/ problem (one w') = true \/ problem (two w') = true).
Proof.
  intros J. destruct (run_ok l w (joined_INV _ _ _ _ _ _ _ J)) as (n & w' & f1 & f2 & E & _ & H). exists n, w'. split; [exact E|]. destruct H as [H|H]; [left; exact H|right]. unfold fine in H.
  destruct (problem (one w')); [auto|]. destruct (problem (two w')); [auto|]. exfalso. apply H. auto.
Qed.
