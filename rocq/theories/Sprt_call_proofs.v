(** SPRT: the calls keep the state of an end in order. *)
From Coq Require Import ZifyBool ZifyNat Znumtheory.
From Verif Require Import Base Sprt_model Sprt_spec Sprt_base_proofs Sprt_chan_proofs Sprt_end_proofs.
Local Open Scope Z_scope.

Definition hd_ok (s : sprt) (ch : Z) : Prop :=
  sn (r_buf (rx s ch)) (r_in (rx s ch)) <> None -> r_busy (rx s ch) = true \/ immediate s = true.
Definition hdm (s s' : sprt) : Prop := forall ch, rel ch -> hd_ok s ch -> hd_ok s' ch.
Definition hdx (x : Z) (s s' : sprt) : Prop := forall ch, rel ch -> ch <> x -> hd_ok s ch -> hd_ok s' ch.

Lemma w_tx_same ch c s : tx (w_tx ch c s) ch = c.
Proof. cbn. rewrite Z.eqb_refl. reflexivity. Qed.
Lemma w_rx_same ch c s : rx (w_rx ch c s) ch = c.
Proof. cbn. rewrite Z.eqb_refl. reflexivity. Qed.
Lemma rel_range ch : rel ch -> 0 <= ch <= 3.
Proof. unfold rel. lia. Qed.
Lemma rel_dec ch : rel ch \/ ~ rel ch.
Proof. unfold rel. lia. Qed.

Definition sum (l : list Z) : Z := fold_right Z.add 0 l.
Lemma sum_upd l n v : 0 <= n < zlen l -> sum (upd l (Z.to_nat n) v) = sum l - zn l n + v.
Proof.
  intros H. unfold zn, zlen in *. assert (Hn : (Z.to_nat n < length l)%nat) by lia. clear H. revert Hn. generalize (Z.to_nat n) as m. clear n.
  unfold sum in *. induction l as [|a l IH]; intros [|m] Hm; cbn in *; try lia. rewrite IH by lia. lia.
Qed.
Lemma sum_nonneg l : Forall (fun n => 0 <= n <= 20) l -> 0 <= sum l.
Proof. induction 1 as [|a l Ha _ IH]; cbn; [lia|]. unfold sum in IH. lia. Qed.

Section Calls.
Variable S : list message.
Variable P : Z -> Z -> list Z -> Prop.
Variable Zk : Z -> Z -> Prop.
Variable U : Z -> list Z -> Prop.
Local Notation EI := (EI S P).
Local Notation evol := (evol S P Zk U).

Lemma EI_tx k b f s ch c : EI k b f s -> (rel ch -> exists O L, ring c (on ch S) O /\ timed c L /\ (f = true -> full c L)) -> 0 <= t_max c <= 256 -> EI k b f (w_tx ch c s).
Proof.
  intros [] H Hm. constructor; auto; cbn [rx tx w_tx].
  - intros c' Hr. destruct (Z.eqb_spec c' ch) as [->|]; [apply H; exact Hr|apply e_tx; exact Hr].
  - intros c'. destruct (Z.eqb_spec c' ch) as [->|]; [|apply e_lim]. destruct (e_lim ch) as (A & B & C). auto.
Qed.
Lemma znth_nil {A} k (p : A) : znth [] k = Some p -> False.
Proof. unfold znth. destruct (k <? 0); [discriminate|]. destruct (Z.to_nat k); discriminate. Qed.
Lemma evol_tx N b s e ch c : quiet e -> t_win c = t_win (tx s ch) -> t_max c = t_max (tx s ch) ->
  (forall i, rel ch -> acked c (zlen (on ch S)) i -> acked (tx s ch) (zlen (on ch S)) i \/ Zk ch i) -> evol N b s e b (w_tx ch c s).
Proof.
  intros (Q1 & Q2) Hw Hm Ha. constructor; rewrite ?Q1, ?Q2; cbn [rx tx tx_sub tx_pt rx_sub rx_pt acks w_tx]; auto.
  - intros c'. destruct (Z.eqb_spec c' ch) as [->|]; auto.
  - intros c' i Hr. destruct (Z.eqb_spec c' ch) as [->|]; auto.
  - intros c' _. split; [cbn; lia|]. intros k p H. apply znth_nil in H. contradiction.
  - intros c' p _ [].
  - intros x [].
Qed.

Lemma process_acks_ok b : forall l s, EI 0 b true s -> (forall tc sq, In (tc, sq) l -> rel tc -> Zk tc (zlen (on tc S) - (zlen (on tc S) - sq) mod 16384)) ->
  exists s', process_acks s l = Ok s' /\ EI 0 b true s' /\ (forall N, evol N b s [] b s') /\ rx s' = rx s /\ immediate s' = immediate s /\ acks s' = acks s /\ latest s' = latest s.
Proof.
  induction l as [|[tc sq] l IH]; intros s I H; cbn [process_acks].
  { exists s. split; [reflexivity|]. split; [exact I|]. split; [intros N; apply evol_refl|]. auto. }
  destruct (reliable tc) eqn:Hrel.
  - apply reliable_rel in Hrel. destruct (e_tx _ _ _ _ _ _ I tc Hrel) as (O & L & G & T & F).
    destruct (process_ack_ok _ _ _ _ sq G T (F eq_refl)) as (c' & O' & L' & -> & G' & T' & F' & Hw & _ & Ha & _ & Hm). cbn [rbind].
    assert (I1 : EI 0 b true (w_tx tc c' s)).
    { apply EI_tx; [exact I| |rewrite Hm; apply (e_lim _ _ _ _ _ _ I)]. intros _. exists O', L'. auto. }
    destruct (IH _ I1) as (s' & -> & I' & V & E1 & E2 & E3 & E4). { intros a q Hin. apply H. right. exact Hin. }
    exists s'. split; [reflexivity|]. split; [exact I'|]. split; [|cbn in *; auto].
    intros N. apply (evol_trans _ _ _ _ N b s [] b (w_tx tc c' s) []); [|apply V].
    apply evol_tx; [split; reflexivity|exact Hw|exact Hm|]. intros i _ Hi. apply Ha in Hi. destruct Hi as [Hi| ->]; [auto|right]. apply (H tc sq (or_introl eq_refl) Hrel).
  - cbn [rbind]. apply IH; [exact I|]. intros a q Hin. apply H. right. exact Hin.
Qed.

Lemma timed_same c c' L : timed c L -> t_first c' = t_first c -> t_last c' = t_last c -> t_prev c' = t_prev c -> t_next c' = t_next c ->
  t_buf c' = t_buf c -> t_tries c' = t_tries c -> timed c' L.
Proof. intros [] E1 E2 E3 E4 E5 E6. unfold linkedc in *. constructor; unfold linkedc; rewrite ?E1, ?E2, ?E3, ?E4, ?E5, ?E6; assumption. Qed.

Lemma retransmit_loop_ok k b ch now : rel ch -> forall fuel f s sent, EI k b f s -> (Z.to_nat (sum (t_tries (tx s ch))) < fuel)%nat ->
  exists s' e sent', retransmit_loop fuel s ch now sent = Ok (s', e, sent') /\ EI k b (f && negb (gave_up e)) s' /\ (forall N, evol N b s e b s') /\
  rx s' = rx s /\ immediate s' = immediate s.
Proof.
  intros Hrel. induction fuel as [|fuel IH]; intros f s sent I Hf; [lia|]. cbn [retransmit_loop].
  destruct (e_tx _ _ _ _ _ _ I ch Hrel) as (O & L & G & T & F). pose proof (q_link _ _ T) as (_ & _ & ND & HF & Hfst & _).
  assert (Stop : exists s' e sent', Ok (s, [], sent) = Ok (s', e, sent') /\ EI k b (f && negb (gave_up e)) s' /\ (forall N, evol N b s e b s') /\ rx s' = rx s /\ immediate s' = immediate s).
  { exists s, [], sent. split; [reflexivity|]. split; [rewrite andb_true_r; exact I|]. split; [intros N; apply evol_refl|]. auto. }
  destruct L as [|x B]; [cbn in Hfst; rewrite Hfst, Z.eqb_refl; exact Stop|]. cbn [hd] in Hfst. rewrite Hfst. pose proof (Forall_inv HF) as Hx. cbn beta in Hx.
  replace (x =? FREE_TAG) with false by (unfold FREE_TAG; lia).
  assert (Hxb : x < zlen (t_buf (tx s ch))).
  { destruct (Z_lt_ge_dec x (zlen (t_buf (tx s ch)))); [assumption|]. exfalso. apply (q_some _ _ T x); [left; reflexivity|]. apply sn_out. unfold zlen in *. lia. }
  unfold zlen in Hxb. rewrite aget_zn by (rewrite (g_tm _ _ _ G); lia). cbn [rbind].
  destruct (now <? zn (t_tr03 (tx s ch)) x); [exact Stop|]. clear Stop.
  rewrite oget_sn by lia. cbn [rbind]. destruct (sn (t_buf (tx s ch)) x) as [p|] eqn:Es; [|exfalso; apply (q_some _ _ T x); [left; reflexivity|exact Es]].
  destruct (g_slot _ _ _ G x p ltac:(lia) Es) as (i & Hi & Ei & Hp). pose proof (g_win _ _ _ G) as HW. destruct (g_range _ _ _ G) as [R1 R2].
  assert (Hlen : 0 < zlen p <= 256).
  { pose proof (g_len _ _ _ G) as Hl. rewrite Forall_forall in Hl. pose proof (g_max _ _ _ G).
    assert (Hin : In p (on ch S)). { unfold znth in Hp. destruct (i <? 0); [discriminate|]. eapply nth_error_In; exact Hp. }
    specialize (Hl p Hin). cbn beta in Hl. lia. }
  rewrite (g_in _ _ _ G). set (W := t_win (tx s ch)) in *. set (Q := zlen (on ch S)) in *.
  assert (HxW : 0 <= x < W) by (rewrite Ei; apply Z.mod_pos_bound; lia).
  rewrite back_mod by lia. assert (Hdiff : (Q - x) mod W = Q - i).
  { rewrite Ei. rewrite Zminus_mod_idemp_r. apply Z.mod_small. lia. }
  rewrite Hdiff, (g_q _ _ _ G). fold Q.
  destruct (build_ok S P Zk U k b f s ch (u16 (Q mod 16384 - (Q - i))) p I (rel_range _ Hrel) ltac:(lia)) as (s1 & e & -> & I1 & Sm & _ & De & Ge & V1).
  { right. left. split; [exact Hrel|]. exists i. fold Q. split; [lia|]. split; [|exact Hp]. unfold u16.
    rewrite <- Zmod_div_mod by (try lia; exists 4; lia). rewrite Zminus_mod_idemp_l. f_equal. lia. }
  cbn [rbind]. rewrite (s_tx _ _ Sm).
  destruct (delete_ok (tx s ch) [] x B (q_link _ _ T)) as (fq & lq & pv & nx & -> & Hl). cbn [rbind]. cbn [List.app] in Hl.
  change (t_tries (t_setqueue (tx s ch) fq lq pv nx)) with (t_tries (tx s ch)). pose proof (g_tr _ _ _ G) as Htr.
  rewrite aget_zn by (rewrite Htr; lia). cbn [rbind]. rewrite aset_ok by (rewrite Htr; lia). cbn [rbind].
  pose proof (q_tries _ _ T x (or_introl eq_refl)) as Hr1. pose proof (Forall_nth_Z _ _ x (q_all _ _ T) ltac:(unfold zlen; rewrite Htr; lia)) as Hr2. cbn beta in Hr2.
  set (r := zn (t_tries (tx s ch)) x) in *. assert (Hu : u8 (r - 1) = r - 1) by (unfold u8; apply Z.mod_small; lia). rewrite Hu.
  set (c1 := t_setqueue (tx s ch) fq lq pv nx) in *. set (tr := upd (t_tries (tx s ch)) (Z.to_nat x) (r - 1)).
  assert (Htrl : length tr = 96%nat) by (unfold tr; rewrite upd_length; exact Htr).
  assert (Hsum : sum tr = sum (t_tries (tx s ch)) - 1) by (unfold tr; rewrite sum_upd by (unfold zlen; rewrite Htr; lia); fold r; lia).
  assert (Hsum0 : 0 <= sum tr) by (apply sum_nonneg, Forall_upd; [exact (q_all _ _ T)|lia]).
  assert (NxB : ~ In x B) by (apply NoDup_cons_iff in ND; tauto). pose proof (proj1 (Forall_forall _ _) HF) as HF'. cbn beta in HF'.
  assert (Ttr : forall y, In y B -> zn tr y = zn (t_tries (tx s ch)) y).
  { intros y Hy. unfold tr. assert (0 <= y < 96) by (apply HF'; right; exact Hy). rewrite zn_upd by (rewrite ?Htr; lia). replace (y =? x) with false; [reflexivity|]. symmetry. apply Z.eqb_neq. intros ->. auto. }
  destruct (Z.leb_spec (r - 1) 0) as [Hr|Hr].
  - cbn [rbind]. set (c2 := t_setbuf c1 (t_in c1) (t_out c1) (t_buf c1) (t_tr03 c1) tr).
    assert (I2 : EI k b false (w_tx ch c2 s1)).
    { apply EI_tx; [apply (EI_weak S P k b f); [exact I1|discriminate]| |apply (e_lim _ _ _ _ _ _ I)]. intros _. exists O, B. split; [|split; [|discriminate]].
      - apply (ring_ext (tx s ch)); auto. cbn. rewrite Htrl. symmetry. exact Htr.
      - constructor.
        + exact Hl.
        + intros y Hy. apply (q_some _ _ T). right. exact Hy.
        + intros y Hy. change (t_tries c2) with tr. rewrite Ttr by exact Hy. apply (q_tries _ _ T). right. exact Hy.
        + apply Forall_upd; [exact (q_all _ _ T)|lia]. }
    destruct (IH false (w_tx ch c2 s1) true I2) as (s' & e' & sent' & -> & I' & V' & E1 & E2). { rewrite w_tx_same. change (t_tries c2) with tr. lia. }
    cbn [rbind]. eexists _, _, _. split; [reflexivity|].
    split; [apply (EI_weak _ _ _ _ _ _ _ I'); rewrite !gave_up_app; cbn; rewrite orb_true_r, andb_false_r; discriminate|].
    split; [|rewrite E1, E2; cbn; split; [apply (s_rx _ _ Sm)|apply (s_im _ _ Sm)]].
    intros N. apply (evol_trans _ _ _ _ N b s e b s1); [apply V1|]. apply (evol_trans _ _ _ _ N b s1 _ b (w_tx ch c2 s1)); [|apply V'].
    apply evol_tx; [split; reflexivity|rewrite (s_tx _ _ Sm); reflexivity|rewrite (s_tx _ _ Sm); reflexivity|]. intros j _. rewrite (s_tx _ _ Sm). auto.
  - cbn [t_tr03 t_setbuf t_setqueue c1]. rewrite aget_zn by (rewrite (g_tm _ _ _ G); lia). cbn [rbind]. rewrite aset_ok by (rewrite (g_tm _ _ _ G); lia). cbn [rbind].
    match goal with |- context [add_last ?c x] => set (c2 := c) end.
    destruct (add_last_ok c2 B x Hl ltac:(lia) NxB) as (f3 & l3 & pv3 & nx3 & -> & Hl3). cbn [rbind]. set (c3 := t_setqueue c2 f3 l3 pv3 nx3).
    assert (I2 : EI k b f (w_tx ch c3 s1)).
    { apply EI_tx; [exact I1| |apply (e_lim _ _ _ _ _ _ I)]. intros _. exists O, (B ++ [x]). split; [|split].
      - apply (ring_ext (tx s ch)); auto; [cbn; apply upd_length|]. cbn. rewrite Htrl. symmetry. exact Htr.
      - constructor.
        + exact Hl3.
        + intros y Hy. apply (q_some _ _ T). apply in_app_or in Hy. cbn. destruct Hy as [|[|[]]]; auto.
        + intros y Hy. change (t_tries c3) with tr. apply in_app_or in Hy. destruct Hy as [Hy|[<-|[]]].
          * rewrite Ttr by exact Hy. apply (q_tries _ _ T). right. exact Hy.
          * unfold tr. rewrite zn_upd by (rewrite ?Htr; lia). rewrite Z.eqb_refl. lia.
        + apply Forall_upd; [exact (q_all _ _ T)|lia].
      - intros Hff y Hy Hs. specialize (F Hff y Hy Hs). apply in_or_app. destruct F as [<-|F]; [right; left; reflexivity|left; exact F]. }
    destruct (IH f (w_tx ch c3 s1) true I2) as (s' & e' & sent' & -> & I' & V' & E1 & E2). { rewrite w_tx_same. change (t_tries c3) with tr. lia. }
    cbn [rbind]. eexists _, _, _. split; [reflexivity|].
    split; [apply (EI_weak _ _ _ _ _ _ _ I'); rewrite !gave_up_app, Ge; auto|].
    split; [|rewrite E1, E2; cbn; split; [apply (s_rx _ _ Sm)|apply (s_im _ _ Sm)]].
    intros N. apply (evol_trans _ _ _ _ N b s e b s1); [apply V1|]. apply (evol_trans _ _ _ _ N b s1 _ b (w_tx ch c3 s1)); [|apply V'].
    apply evol_tx; [split; reflexivity|rewrite (s_tx _ _ Sm); reflexivity|rewrite (s_tx _ _ Sm); reflexivity|]. intros j _. rewrite (s_tx _ _ Sm). auto.
Qed.

Lemma expire_chan_ok b f s ch now sent : rel ch -> EI 0 b f s -> exists s' e sent', expire_chan s ch now sent = Ok (s', e, sent') /\
  EI 0 b (f && negb (gave_up e)) s' /\ (forall N, evol N b s e b s') /\ rx s' = rx s /\ immediate s' = immediate s.
Proof.
  intros Hrel I. unfold expire_chan, retransmit. rewrite (proj2 (reliable_rel ch) Hrel). fold (sum (t_tries (tx s ch))).
  destruct (retransmit_loop_ok 0 b ch now Hrel _ f s false I (Nat.lt_succ_diag_r _)) as (s1 & e1 & was & -> & I1 & V1 & E1 & E2). cbn [rbind].
  destruct (t_ta02 (tx s1 ch) =? 0).
  { cbn [rbind]. eexists _, _, _. split; [reflexivity|]. rewrite app_nil_r. auto. }
  assert (HX : exists s2 e2 was2, (if (t_ta02 (tx s1 ch) <=? now) && negb was then do (s, e') <- build_and_send s1 ch 0 []; Ok (s, e', true) else Ok (s1, [], was)) = Ok (s2, e2, was2) /\
     EI 0 b (f && negb (gave_up e1)) s2 /\ (forall N, evol N b s1 e2 b s2) /\ rx s2 = rx s1 /\ immediate s2 = immediate s1 /\ gave_up e2 = false).
  { destruct ((t_ta02 (tx s1 ch) <=? now) && negb was).
    - destruct (build_ok S P Zk U 0 b _ s1 ch 0 [] I1 (rel_range _ Hrel)) as (s2 & e2 & -> & I2 & Sm & _ & _ & Ge & V2). { cbn; lia. } { left; reflexivity. }
      cbn [rbind]. eexists _, _, _. split; [reflexivity|]. split; [exact I2|]. split; [exact V2|]. split; [apply (s_rx _ _ Sm)|]. split; [apply (s_im _ _ Sm)|exact Ge].
    - eexists _, _, _. split; [reflexivity|]. split; [exact I1|]. split; [intros N; apply evol_refl|]. auto. }
  destruct HX as (s2 & e2 & was2 & -> & I2 & V2 & E3 & E4 & Ge). cbn [rbind].
  eexists _, _, _. split; [reflexivity|]. destruct was2.
  - split; [|split].
    + apply (EI_weak S P 0 b (f && negb (gave_up e1))); [|rewrite gave_up_app, Ge, orb_false_r; auto].
      apply EI_tx; [exact I2| |apply (e_lim _ _ _ _ _ _ I2)]. intros _. destruct (e_tx _ _ _ _ _ _ I2 ch Hrel) as (O & L & G & T & F). exists O, L. split; [|split].
      * apply (ring_ext (tx s2 ch)); auto.
      * apply (timed_same (tx s2 ch)); auto.
      * exact F.
    + intros N. rewrite <- (app_nil_r (e1 ++ e2)). apply (evol_trans _ _ _ _ N b s (e1 ++ e2) b s2); [apply (evol_trans _ _ _ _ N b s e1 b s1); auto|].
      apply evol_tx; [split; reflexivity|reflexivity|reflexivity|]. auto.
    + cbn. split; congruence.
  - split; [apply (EI_weak S P 0 b (f && negb (gave_up e1))); [exact I2|rewrite gave_up_app, Ge, orb_false_r; auto]|].
    split; [intros N; apply (evol_trans _ _ _ _ N b s e1 b s1); auto|]. split; congruence.
Qed.

(** ---- deliveries ---- *)
Record calm (s s1 : sprt) : Prop := mkCalm {
  c_tx : tx s1 = tx s; c_acks : acks s1 = acks s; c_id : tx_sub s1 = tx_sub s /\ tx_pt s1 = tx_pt s /\ rx_pt s1 = rx_pt s /\ rx_sub s1 = rx_sub s;
  c_rx : forall c, rx s1 c = r_setbusy (rx s c) (r_busy (rx s1 c));
  c_busy : forall c, rel c -> r_busy (rx s c) = true \/ immediate s = true -> r_busy (rx s1 c) = true \/ immediate s1 = true }.
Lemma setbusy_id c : c = r_setbusy c (r_busy c).
Proof. destruct c; reflexivity. Qed.
Lemma calm_refl s : calm s s.
Proof. constructor; auto. intros c. apply setbusy_id. Qed.
Lemma calm_trans s s1 s2 : calm s s1 -> calm s1 s2 -> calm s s2.
Proof.
  intros [A1 A2 (A3 & A4 & A5 & A6) A7 A8] [B1 B2 (B3 & B4 & B5 & B6) B7 B8]. constructor; try congruence.
  - repeat split; congruence.
  - intros c. rewrite B7 at 1. rewrite A7. reflexivity.
  - intros c Hr H. apply B8; [exact Hr|]. apply A8; assumption.
Qed.
Lemma EI_calm k b f s s1 : EI k b f s -> calm s s1 -> EI k b f s1.
Proof.
  intros [] [A1 A2 _ A7 _]. constructor; rewrite ?A1, ?A2; auto.
  - intros ch Hr. rewrite A7. destruct (e_rx ch Hr) as ([] & H). split; [constructor; assumption|exact H].
  - intros ch. rewrite A7. apply e_lim.
Qed.
Lemma hd_calm s s1 ch : calm s s1 -> rel ch -> hd_ok s ch -> hd_ok s1 ch.
Proof. intros C Hr H. unfold hd_ok in *. rewrite (c_rx _ _ C ch). cbn. intros Hs. apply (c_busy _ _ C ch Hr). apply H. exact Hs. Qed.
Lemma evol_calm N b s e s1 : calm s s1 -> quiet e -> evol N b s e b s1.
Proof.
  intros [A1 A2 A3 A7 _] (Q1 & Q2). constructor; rewrite ?Q1, ?Q2, ?A1, ?A2; auto.
  - intros ch. rewrite A7. auto.
  - intros ch i _. rewrite A7. auto.
  - intros ch _. split; [cbn; lia|]. intros k p H. apply znth_nil in H. contradiction.
  - intros ch p _ [].
  - intros x [].
Qed.

Lemma quiet_app e e' : quiet e -> quiet e' -> quiet (e ++ e').
Proof. intros (A & B) (C & D). unfold quiet. rewrite packets_app, delivered_app, A, B, C, D. auto. Qed.
Lemma set_busy_ok k b f s ch v : EI k b f s -> exists s1 e, set_local_busy s ch v = Ok (s1, e) /\ calm s s1 /\ quiet e /\ gave_up e = false.
Proof.
  intros I. unfold set_local_busy. destruct (reliable ch) eqn:Hrel; [|exists s, []; split; [reflexivity|]; split; [apply calm_refl|]; split; [split|]; reflexivity].
  apply reliable_rel in Hrel.
  destruct (r_busy (rx s ch) && negb v) eqn:Eb.
  - assert (C : calm s (w_immediate true (w_rx ch (r_setbusy (rx s ch) v) s))).
    { constructor; cbn; auto. intros c. destruct (Z.eqb_spec c ch) as [->|]; [reflexivity|apply setbusy_id]. }
    destruct (update_timer_ok S P Zk U k b f _ (EI_calm _ _ _ _ _ I C)) as (t & ->). eexists _, _. split; [reflexivity|]. split; [|split; [split|]; reflexivity].
    destruct C. constructor; assumption.
  - eexists _, _. split; [reflexivity|]. split; [|split; [split|]; reflexivity]. constructor; cbn; auto.
    + intros c. destruct (Z.eqb_spec c ch) as [->|]; [reflexivity|apply setbusy_id].
    + intros c Hr [H|H]; [|auto]. destruct (Z.eqb_spec c ch) as [->|]; [|auto]. cbn. rewrite H in Eb. destruct v; [auto|discriminate].
Qed.
Lemma busy_calls_ok k b f : forall l s, EI k b f s -> exists s1 e, busy_calls s l = Ok (s1, e) /\ calm s s1 /\ quiet e /\ gave_up e = false.
Proof.
  induction l as [|[ch v] l IH]; intros s I; cbn [busy_calls].
  { exists s, []. split; [reflexivity|]. split; [apply calm_refl|]. split; [split|]; reflexivity. }
  destruct (set_busy_ok k b f s ch v I) as (s1 & e1 & -> & C1 & Q1 & G1). cbn [rbind].
  destruct (IH s1 (EI_calm _ _ _ _ _ I C1)) as (s2 & e2 & -> & C2 & Q2 & G2). cbn [rbind].
  eexists _, _. split; [reflexivity|]. split; [eapply calm_trans; eassumption|]. split; [apply quiet_app; assumption|]. rewrite gave_up_app, G1, G2. reflexivity.
Qed.
Lemma delivery_ok k b f s ch seq p : EI k b f s -> exists s1 e, delivery s ch seq p = Ok (s1, Deliver ch seq p :: e) /\ calm s s1 /\ quiet e /\ gave_up e = false.
Proof.
  intros I. unfold delivery. destruct (script s) as [|l rest].
  { exists s, []. split; [reflexivity|]. split; [apply calm_refl|]. split; [split|]; reflexivity. }
  assert (C0 : calm s (w_script rest s)) by (constructor; cbn; auto; intros c; apply setbusy_id).
  destruct (busy_calls_ok k b f l _ (EI_calm _ _ _ _ _ I C0)) as (s1 & e & -> & C1 & Q & Gu). cbn [rbind].
  exists s1, e. split; [reflexivity|]. split; [eapply calm_trans; eassumption|auto].
Qed.

(** a message is delivered and its slot is free *)
Lemma adv_ok b f s ch seq p s1 e buf : rel ch -> EI ch b f s -> calm s s1 -> quiet e -> P ch (b ch) p ->
  buf = upd (r_buf (rx s1 ch)) (Z.to_nat (b ch mod r_win (rx s1 ch))) None ->
  let c := rx s1 ch in
  let s2 := w_rx ch (r_set c (Z.land (r_base c + 1) SEQ_MASK) (r_in c) buf) s1 in
  let b2 := bset b ch (b ch + 1) in
  EI ch b2 f s2 /\ (forall N, evol N b s (Deliver ch seq p :: e) b2 s2) /\ hdx ch s s2 /\ r_busy (rx s2 ch) = r_busy (rx s1 ch) /\ r_win (rx s2 ch) = r_win (rx s ch).
Proof.
  intros Hrel I C Q HP -> c s2 b2. pose proof (EI_calm _ _ _ _ _ I C) as I1. destruct (e_rx _ _ _ _ _ _ I1 ch Hrel) as (Rc & _).
  pose proof (r_w _ _ _ Rc) as HW. pose proof (r_b _ _ _ Rc) as HB. pose proof (r_pos _ _ _ Rc) as Hpos. unfold zlen in HB. fold c in Rc, HW, HB.
  set (W := r_win c) in *. assert (Hm : 0 <= b ch mod W < W) by (apply Z.mod_pos_bound; lia).
  assert (Hb2 : b2 ch = b ch + 1) by (unfold b2, bset; rewrite Z.eqb_refl; reflexivity).
  assert (Hrx2 : rx s2 ch = r_set c (Z.land (r_base c + 1) SEQ_MASK) (r_in c) (upd (r_buf c) (Z.to_nat (b ch mod W)) None)) by apply w_rx_same.
  assert (Hsl : forall j, b ch < j < b ch + W -> sn (upd (r_buf c) (Z.to_nat (b ch mod W)) None) (j mod W) = sn (r_buf c) (j mod W)).
  { intros j Hj. rewrite sn_upd by (try lia; apply Z.mod_pos_bound; lia). destruct (Z.eqb_spec (j mod W) (b ch mod W)) as [E|]; [|reflexivity]. apply mod_inj in E; lia. }
  assert (Hlast : forall q, sn (upd (r_buf c) (Z.to_nat (b ch mod W)) None) ((b ch + W) mod W) = Some q -> False).
  { intros q. replace ((b ch + W) mod W) with (b ch mod W) by (rewrite <- (Z_mod_plus_full (b ch) 1 W); f_equal; lia). rewrite sn_upd by lia. rewrite Z.eqb_refl. discriminate. }
  split; [|split; [|split; [|split]]].
  - constructor.
    + exact (e_tx _ _ _ _ _ _ I1).
    + intros c' Hr'. destruct (Z.eq_dec c' ch) as [->|Hne].
      * rewrite Hrx2, Hb2. split; [|congruence]. constructor; cbn -[Z.modulo Z.land sn Z.add].
        -- exact HW.
        -- unfold zlen. rewrite upd_length. exact HB.
        -- lia.
        -- rewrite land_mask, (r_bas _ _ _ Rc). rewrite Z.add_mod_idemp_l by lia. reflexivity.
        -- fold W. intros j q Hj Hs. replace (b ch + 1 + j) with (b ch + (1 + j)) in * by lia. destruct (Z.eq_dec (1 + j) W) as [E|E].
           ++ rewrite E in Hs. apply Hlast in Hs. contradiction.
           ++ rewrite Hsl in Hs by lia. apply (r_slot _ _ _ Rc (1 + j) q); [fold W; lia|exact Hs].
      * cbn. destruct (Z.eqb_spec c' ch); [contradiction|]. unfold b2, bset. destruct (Z.eqb_spec c' ch); [contradiction|]. apply (e_rx _ _ _ _ _ _ I1 c' Hr').
    + exact (e_ack _ _ _ _ _ _ I1).
    + intros c'. destruct (e_lim _ _ _ _ _ _ I1 c') as (L1 & L2 & L3). cbn -[Z.land]. destruct (Z.eqb_spec c' ch) as [->|]; [|auto]. cbn -[Z.land].
      split; [exact L1|]. split; [exact L2|]. rewrite land_mask. apply Z.mod_pos_bound. lia.
  - intros N. change (Deliver ch seq p :: e) with ([Deliver ch seq p] ++ e).
    apply (evol_trans _ _ _ _ N b s _ b2 s2); [|apply evol_quiet; [apply same_refl|exact Q|auto]].
    constructor; cbn -[Z.modulo received acked Z.land].
    + exact (c_id _ _ C).
    + intros c'. rewrite (c_tx _ _ C). destruct (Z.eqb_spec c' ch) as [->|]; cbn.
      * unfold c. rewrite (c_rx _ _ C ch). auto.
      * rewrite (c_rx _ _ C c'). auto.
    + intros c' i _. rewrite (c_tx _ _ C). auto.
    + intros c' i Hr'. destruct (Z.eqb_spec c' ch) as [->|Hne].
      * rewrite Hb2. unfold received. cbn -[Z.modulo sn Z.land]. fold W. change (r_win (rx s ch)) with (r_win (r_setbusy (rx s ch) (r_busy (rx s1 ch)))). change (r_buf (rx s ch)) with (r_buf (r_setbusy (rx s ch) (r_busy (rx s1 ch)))).
        rewrite <- (c_rx _ _ C ch). fold c. fold W. intros [H|(H1 & H2)]; [left; lia|]. destruct (Z.eq_dec i (b ch)) as [->|]; [left; lia|]. right. split; [lia|]. rewrite Hsl by lia. exact H2.
      * unfold b2, bset. destruct (Z.eqb_spec c' ch); [contradiction|]. rewrite (c_rx _ _ C c'). auto.
    + intros c' Hr'. unfold on. cbn. unfold b2, bset. rewrite (Z.eqb_sym ch c'). destruct (Z.eqb_spec c' ch) as [->|Hne]; cbn.
      * split; [unfold zlen; cbn; lia|]. intros j q H. unfold znth in H. destruct (Z.ltb_spec j 0); [discriminate|]. destruct (Z.to_nat j) as [|m] eqn:Ej; cbn in H; [|destruct m; discriminate].
        injection H as <-. replace (b ch + j) with (b ch) by lia. exact HP.
      * split; [unfold zlen; cbn; lia|]. intros j q H. apply znth_nil in H. contradiction.
    + intros c' q Hn [E|[]]. injection E as <- <-. contradiction.
    + intros x [].
    + rewrite (c_acks _ _ C). auto.
  - intros c' Hr' Hne H. apply (hd_calm _ _ _ C Hr') in H. unfold hd_ok in *. cbn. destruct (Z.eqb_spec c' ch); [contradiction|exact H].
  - rewrite Hrx2. reflexivity.
  - rewrite Hrx2. cbn. unfold c. rewrite (c_rx _ _ C ch). reflexivity.
Qed.

(** how many slots of a buffer are taken *)
Definition taken_slots (l : list slot) : nat := length (filter (fun x => match x with Some _ => true | None => false end) l).
Lemma taken_slots_le l : (taken_slots l <= length l)%nat.
Proof. unfold taken_slots. induction l as [|a l IH]; [apply le_n|]. cbn [filter length]. destruct a; cbn [length]; lia. Qed.
Lemma taken_slots_upd l i p : 0 <= i -> sn l i = Some p -> Datatypes.S (taken_slots (upd l (Z.to_nat i) None)) = taken_slots l.
Proof.
  intros _. unfold sn, taken_slots. generalize (Z.to_nat i) as n. induction l as [|a l IH]; intros [|n] H; cbn [nth upd filter] in *; try discriminate.
  - rewrite H. reflexivity.
  - destruct a; cbn [length]; rewrite (IH n H); reflexivity.
Qed.

Lemma deliver_loop_ok ch : rel ch -> forall fuel b f s, EI ch b f s -> (taken_slots (r_buf (rx s ch)) < fuel)%nat -> exists s' e b',
  deliver_loop fuel s ch (b ch mod r_win (rx s ch)) = Ok (s', e, b' ch mod r_win (rx s ch)) /\ EI ch b' f s' /\ (forall N, evol N b s e b' s') /\ hdx ch s s' /\
  r_win (rx s' ch) = r_win (rx s ch) /\ (sn (r_buf (rx s' ch)) (b' ch mod r_win (rx s ch)) <> None -> r_busy (rx s' ch) = true) /\ gave_up e = false.
Proof.
  intros Hrel. induction fuel as [|fuel IH]; intros b f s I Hf; [lia|]. cbn [deliver_loop].
  destruct (e_rx _ _ _ _ _ _ I ch Hrel) as (Rc & _). pose proof (r_w _ _ _ Rc) as HW. pose proof (r_b _ _ _ Rc) as HB. unfold zlen in HB.
  set (W := r_win (rx s ch)) in *. assert (Hm : 0 <= b ch mod W < W) by (apply Z.mod_pos_bound; lia).
  rewrite oget_sn by lia. cbn [rbind].
  destruct (sn (r_buf (rx s ch)) (b ch mod W)) as [p|] eqn:Es.
  2:{ exists s, [], b. split; [reflexivity|]. split; [exact I|]. split; [intros N; apply evol_refl|]. split; [intros c' _ _ H; exact H|]. split; [reflexivity|]. split; [congruence|reflexivity]. }
  destruct (r_busy (rx s ch)) eqn:Eb.
  { exists s, [], b. split; [reflexivity|]. split; [exact I|]. split; [intros N; apply evol_refl|]. split; [intros c' _ _ H; exact H|]. split; [reflexivity|]. split; [auto|reflexivity]. }
  destruct (delivery_ok ch b f s ch (r_base (rx s ch)) p I) as (s1 & e & -> & C & Q & Gu). cbn [rbind].
  assert (Ew : r_win (rx s1 ch) = W) by (rewrite (c_rx _ _ C ch); reflexivity). assert (Ebuf : r_buf (rx s1 ch) = r_buf (rx s ch)) by (rewrite (c_rx _ _ C ch); reflexivity).
  rewrite Ebuf, oset_ok by lia. cbn [rbind].
  assert (HP : P ch (b ch) p). { replace (b ch) with (b ch + 0) by lia. apply (r_slot _ _ _ Rc 0 p); [fold W; lia|]. rewrite Z.add_0_r. exact Es. }
  destruct (adv_ok b f s ch (r_base (rx s ch)) p s1 e (upd (r_buf (rx s ch)) (Z.to_nat (b ch mod W)) None) Hrel I C Q HP) as (I2 & V2 & H2 & _ & Hw2). { rewrite Ebuf, Ew. reflexivity. }
  cbn zeta in *. match type of I2 with Sprt_end_proofs.EI _ _ _ _ _ ?x => set (s2 := x) in * end. set (b2 := bset b ch (b ch + 1)) in *.
  rewrite Ew, next_mod by lia. destruct (IH b2 f s2 I2) as (s' & e' & b' & Er & I' & V' & H' & Hw' & Hbz & Gu').
  { unfold s2. rewrite w_rx_same. cbn [r_buf r_set]. pose proof (taken_slots_upd _ _ _ (proj1 Hm) Es). lia. }
  replace (b2 ch) with (b ch + 1) in Er by (unfold b2, bset; rewrite Z.eqb_refl; reflexivity). rewrite Hw2 in *. fold W in Er. rewrite Er. cbn [rbind].
  exists s', ((Deliver ch (r_base (rx s ch)) p :: e) ++ e'), b'. split; [reflexivity|]. split; [exact I'|]. split; [intros N; eapply evol_trans; [apply V2|apply V']|].
  split; [intros c' Hr' Hne H; apply H'; auto|]. split; [exact Hw'|]. split; [exact Hbz|]. rewrite gave_up_app, Gu'. change (gave_up (Deliver ch (r_base (rx s ch)) p :: e)) with (gave_up e). rewrite Gu. reflexivity.
Qed.

Lemma deliver_following_ok ch b f s iptr : rel ch -> EI ch b f s -> iptr = b ch mod r_win (rx s ch) -> exists s' e b',
  deliver_following s ch iptr = Ok (s', e) /\ EI 0 b' f s' /\ (forall N, evol N b s e b' s') /\ hdx ch s s' /\ hd_ok s' ch /\ gave_up e = false.
Proof.
  intros Hrel I ->. unfold deliver_following.
  destruct (deliver_loop_ok ch Hrel (Datatypes.S (length (r_buf (rx s ch)))) b f s I) as (s' & e & b' & -> & I' & V & Hx & Hw & Hb & Gu).
  { pose proof (taken_slots_le (r_buf (rx s ch))). lia. }
  cbn [rbind]. set (s2 := w_rx ch _ s'). exists s2, e, b'. split; [reflexivity|].
  assert (Er : rx s2 ch = r_set (rx s' ch) (r_base (rx s' ch)) (b' ch mod r_win (rx s ch)) (r_buf (rx s' ch))) by apply w_rx_same.
  split; [|split; [|split; [|split]]].
  - destruct I' as [T' R' A' L']. constructor.
    + exact T'.
    + intros c Hr. destruct (R' c Hr) as (Rc & Ri). destruct (Z.eq_dec c ch) as [->|Hne].
      * rewrite Er. cbn [r_in r_set r_win]. split; [|intros _; congruence]. destruct Rc. constructor; assumption.
      * cbn. destruct (Z.eqb_spec c ch); [contradiction|]. split; [exact Rc|]. intros _. apply Ri. exact Hne.
    + exact A'.
    + intros c. cbn. destruct (Z.eqb_spec c ch) as [->|]; apply L'.
  - intros N. rewrite <- (app_nil_r e). eapply evol_trans; [apply V|]. constructor; cbn -[received acked]; auto.
    + intros c. destruct (Z.eqb_spec c ch) as [->|]; auto.
    + intros c i _. destruct (Z.eqb_spec c ch) as [->|]; auto.
    + intros c _. split; [cbn; lia|]. intros k p H. apply znth_nil in H. contradiction.
    + intros c p _ [].
    + intros x [].
  - intros c Hr Hne H. apply (Hx c Hr Hne) in H. unfold hd_ok in *. cbn. destruct (Z.eqb_spec c ch); [contradiction|exact H].
  - unfold hd_ok. rewrite Er. cbn [r_buf r_in r_set r_busy]. intros H. left. apply Hb. exact H.
  - exact Gu.
Qed.
Lemma EI_skip ch b f s : EI 0 b f s -> EI ch b f s.
Proof.
  intros []. constructor; auto. intros c Hr. destruct (e_rx c Hr) as (A & B). split; [exact A|]. intros _. apply B. unfold rel in Hr. lia.
Qed.
End Calls.
