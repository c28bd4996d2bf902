(** How long an end waits, and that it repeats its message without a break. *)
From Verif Require Import Base V8_model V8_spec.
Local Open Scope Z_scope.

Definition stage (x : state) : Z :=
  match x with
  | CM_WAIT => -1
  | WAIT_1S | AWAIT_ANSAM | CI_ON | CI_OFF => 0
  | HEARD_ANSAM | POST_CM_WAIT => 1
  | CM_ON => 2
  | JM_ON => 3
  | CJ_ON | SIGA => 4
  | PARKED => 5
  end.
Definition timed (x : state) : bool := match x with CM_ON | JM_ON | CM_WAIT => true | _ => false end.
Lemma bits_keep h s bits s' e : rx_bits h s bits = Ok (s', e) -> st s' = st s /\ neg_timer s' = neg_timer s /\ queue s' = queue s /\ fsk_on s' = fsk_on s.
Proof. unfold rx_bits. destruct (put_bits h (rx s) bits) as [[r e1]|]; [|discriminate]. cbn [rbind]. intros E. injection E as <- _. repeat split. Qed.
Lemma preamble10 q : (10 <= length (put_preamble q))%nat.
Proof. unfold put_preamble, queue_write, QUEUE. rewrite app_length, firstn_length, repeat_length. destruct (Nat.leb_spec 10 (length q)); lia. Qed.
Lemma write_grows q l : (length q <= length (queue_write q l))%nat.
Proof. unfold queue_write. rewrite app_length. lia. Qed.
Lemma bytes_grow l : forall q, (length q <= length (put_bytes q l))%nat.
Proof. induction l as [|o l IH]; intros q; [cbn; lia|]. cbn. eapply Nat.le_trans; [apply write_grows | apply IH]. Qed.
Lemma message10 s : (10 <= length (send_message s))%nat.
Proof. unfold send_message, send_cm_jm. eapply Nat.le_trans; [apply preamble10 | apply bytes_grow]. Qed.
#[local] Opaque send_message send_ci_burst send_v92 put_bytes put_bits.
(** [full]: in the middle of CM or JM the transmitter is on and ten bits wait *)
Definition full (s : v8) : Prop := (st s = CM_ON \/ st s = JM_ON) -> fsk_on s = true /\ (10 <= length (queue s))%nat.
Definition on_time (s s' : v8) (len : Z) : Prop :=
  stage (st s) <= stage (st s') /\ (st s' = st s -> timed (st s) = true -> neg_timer s' = neg_timer s - len /\ 0 < neg_timer s').
Lemma cm_time h s len bits s' e : cm_on h s len bits = Ok (s', e) -> (st s = HEARD_ANSAM \/ st s = CM_ON) ->
  stage (st s) <= stage (st s') /\ (st s' = st s -> neg_timer s' = neg_timer s - len /\ 0 < neg_timer s') /\ (st s = HEARD_ANSAM -> st s' <> CM_ON) /\
  (st s = CM_ON -> fsk_on s = true -> full s').
Proof.
  unfold cm_on. intros E Hs. destruct (rx_bits h s bits) as [[s1 e1]|] eqn:E1; [|discriminate E]. cbn [rbind] in E. destruct (bits_keep _ _ _ _ _ E1) as (B1 & B2 & B3 & B4).
  assert (Hm : stage (st s) <= 2) by (destruct Hs as [-> | ->]; cbn; lia).
  destruct (got_cm (rx s1)).
  { injection E as <- _. cbn. split; [lia|]. split; [intros X; destruct Hs; congruence|]. split; [discriminate|]. intros _ _ [X|X]; discriminate X. }
  cbv zeta in E. unfold park, report in E. cbn [w_neg neg_timer] in E. rewrite B2 in E. destruct (Z.leb_spec (neg_timer s - len) 0).
  - injection E as <- _. destruct (_ <? 10)%nat; cbn; (split; [lia|]); (split; [intros X; destruct Hs; congruence|]); (split; [discriminate|]); intros _ _ [X|X]; discriminate X.
  - cbn [w_neg queue fsk_on] in E. injection E as <- _. destruct (Nat.ltb_spec (length (queue s1)) 10) as [L|L]; cbn [w_q w_neg st neg_timer fsk_on queue]; rewrite B1; (split; [lia|]); (split; [auto|]); (split; [intros ->; discriminate|]).
    + intros _ F _. cbn [fsk_on queue w_q w_neg]. rewrite B4. split; [exact F | apply message10].
    + intros _ F _. cbn [fsk_on queue w_q w_neg]. rewrite B4. split; [exact F | exact L].
Qed.
Lemma rx_time h s len bits t s' e : v8_rx h s len bits t = Ok (s', e) -> on_time s s' len /\ (((st s = CM_ON \/ st s = JM_ON) -> fsk_on s = true) -> full s').
Proof.
  intros E. assert (Never : forall (P : Prop) q, st q <> CM_ON -> st q <> JM_ON -> P -> full q) by (intros P q Q1 Q2 _ [X|X]; congruence).
  assert (Moved : forall q, stage (st s) <= stage (st q) -> timed (st s) = false \/ st q <> st s -> on_time s q len) by (intros q Q1 Q2; split; [exact Q1 | intros X Y; destruct Q2; congruence]).
  unfold v8_rx in E. destruct (st s) eqn:Es.
  - cbv zeta in E. destruct (0 <? _); injection E as <- _; (split; [apply Moved; [cbn; rewrite ?Es; cbn; lia | left; reflexivity] | apply Never; cbn; rewrite ?Es; discriminate]).
  - destruct (ansam t) as [[x v]|]; [unfold handle_calling_tone, park, report in E; destruct x|]; injection E as <- _; (split; [apply Moved; [cbn; rewrite ?Es; cbn; lia | left; reflexivity] | apply Never; cbn; rewrite ?Es; discriminate]).
  - destruct (ansam t) as [[x v]|]; [unfold handle_calling_tone, park, report in E; destruct x | destruct (fsk_on s)]; injection E as <- _; (split; [apply Moved; [cbn; rewrite ?Es; cbn; lia | left; reflexivity] | apply Never; cbn; rewrite ?Es; discriminate]).
  - destruct (ansam t) as [[x v]|]; [unfold handle_calling_tone, park, report in E; destruct x | cbv zeta in E; unfold park, report in E; destruct (_ <=? 0); [destruct (10 <=? _)|]]; injection E as <- _; (split; [apply Moved; [cbn; rewrite ?Es; cbn; lia | left; reflexivity] | apply Never; cbn; rewrite ?Es; discriminate]).
  - cbv zeta in E. destruct (_ <=? 0).
    + destruct (cm_time _ _ _ _ _ _ E (or_intror eq_refl)) as (A1 & A2 & A3 & A4). split; [|intros _; apply A4; reflexivity]. apply Moved; [change (2 <= stage (st s')) in A1; change (1 <= stage (st s')); lia | left; reflexivity].
    + assert (Hs : st (w_ci (ci_timer s - len) (ci_count s) s) = HEARD_ANSAM) by exact Es. destruct (cm_time _ _ _ _ _ _ E (or_introl Hs)) as (A1 & A2 & A3 & A4). rewrite Hs in *. split; [apply Moved; [exact A1 | left; reflexivity]|].
      apply Never; [apply A3; reflexivity|]. intros X. rewrite X in A2. clear A2 A4. unfold cm_on in E. destruct (rx_bits h _ bits) as [[s1 e1]|] eqn:E1; [|discriminate E]. cbn [rbind] in E. destruct (bits_keep _ _ _ _ _ E1) as (B1 & _).
      rewrite Hs in B1. cbv zeta in E. unfold park, report in E. destruct (got_cm _); [|destruct (_ <=? 0); destruct (_ <? 10)%nat]; injection E as <- _; cbn in X; congruence.
  - destruct (cm_time _ _ _ _ _ _ E (or_intror Es)) as (A1 & A2 & A3 & A4). rewrite Es in *. split; [split; rewrite Es; [exact A1 | intros X _; apply A2; exact X]|]. intros F. apply A4; [reflexivity | apply F; left; reflexivity].
  - destruct (rx_bits h s bits) as [[s1 e1]|] eqn:E1; [|discriminate E]. cbn [rbind] in E. destruct (bits_keep _ _ _ _ _ E1) as (B1 & _). unfold park, report in E. destruct (fsk_on s1); injection E as <- _; (split; [apply Moved; [cbn; rewrite ?B1, ?Es; cbn; lia | left; reflexivity] | apply Never; cbn; rewrite ?B1, ?Es; discriminate]).
  - set (o := match answering t with Some (a, v) => handle_answering_tone h s a v | None => (s, []) end) in E.
    assert (Ho : neg_timer (fst o) = neg_timer s /\ (st (fst o) = PARKED \/ st (fst o) = CM_WAIT)).
    { unfold o. destruct (answering t) as [[x v]|]; [|split; [reflexivity | right; exact Es]]. unfold handle_answering_tone, park, report. destruct x; (split; [reflexivity | left; reflexivity]). }
    destruct o as [s0 e0]. cbn [fst] in Ho. destruct Ho as [Hn Hst]. destruct (rx_bits h s0 bits) as [[s1 e1]|] eqn:E1; [|discriminate E]. cbn [rbind] in E. destruct (bits_keep _ _ _ _ _ E1) as (B1 & B2 & _). rewrite Hn in B2.
    destruct (got_cm (rx s1)).
    + unfold report in E. cbn [w_rx par] in E. destruct (gateway _); injection E as <- _.
      * split; [apply Moved; [cbn; lia | right; discriminate] | apply Never; discriminate].
      * split; [apply Moved; [cbn; lia | right; discriminate]|]. intros _ _. unfold start_jm. cbn [w_q fsk_on queue]. split; [reflexivity | apply message10].
    + cbv zeta in E. unfold park, report in E. cbn [w_neg neg_timer] in E. rewrite B2 in E. destruct (Z.leb_spec (neg_timer s - len) 0).
      * injection E as <- _. split; [apply Moved; [cbn; lia | right; discriminate] | apply Never; discriminate].
      * injection E as <- _. cbn [w_neg st]. split; [|apply Never; cbn; rewrite B1; destruct Hst as [-> | ->]; discriminate].
        split; [rewrite Es; cbn; destruct Hst as [X|X]; rewrite B1, X; cbn; lia|]. intros _ _. cbn. split; [reflexivity | assumption].
  - injection E as <- _. destruct (proceed s).
    + split; [apply Moved; [cbn; lia | left; reflexivity]|]. intros _ _. unfold start_jm. cbn [w_q fsk_on queue]. split; [reflexivity | apply message10].
    + split; [apply Moved; [rewrite Es; lia | left; reflexivity] | apply Never; rewrite Es; discriminate].
  - destruct (rx_bits h s bits) as [[s1 e1]|] eqn:E1; [|discriminate E]. cbn [rbind] in E. destruct (bits_keep _ _ _ _ _ E1) as (B1 & B2 & B3 & B4). destruct (got_cj (rx s1)).
    { injection E as <- _. split; [apply Moved; [cbn; lia | right; discriminate] | apply Never; discriminate]. }
    cbv zeta in E. unfold park, report in E. cbn [w_neg neg_timer] in E. rewrite B2 in E. destruct (Z.leb_spec (neg_timer s - len) 0).
    { injection E as <- _. split; [apply Moved; [cbn; lia | right; discriminate] | apply Never; discriminate]. }
    cbn [w_neg queue fsk_on] in E. injection E as <- _.
    destruct (Nat.ltb_spec (length (queue s1)) 10) as [L|L]; cbn [w_q w_neg st neg_timer fsk_on queue]; (split; [split; cbn; rewrite B1, ?Es; [lia | intros _ _; split; [reflexivity | assumption]]|]); intros F _; pose proof (F (or_intror eq_refl)) as Fs; cbn [fsk_on queue w_q w_neg]; rewrite B4.
    + split; [exact Fs | apply message10].
    + split; [exact Fs | exact L].
  - unfold park, report in E. destruct (fsk_on s); injection E as <- _; (split; [apply Moved; [cbn; rewrite ?Es; cbn; lia | left; reflexivity] | apply Never; cbn; rewrite ?Es; discriminate]).
  - injection E as <- _. split; [apply Moved; [rewrite Es; lia | left; reflexivity] | apply Never; rewrite Es; discriminate].
Qed.

Lemma step_time h s x s' e : step h s x = Ok (s', e) -> stage (st s) <= stage (st s') /\
  (st s' = st s -> timed (st s) = true -> neg_timer s' = neg_timer s - elapsed [x] /\ (is_rx x = true -> 0 < neg_timer s')).
Proof.
  destruct x as [n|len bits t|p]; cbn [step elapsed fold_right is_rx]; intros E.
  - injection E as <- _. unfold v8_tx. destruct (fsk_on s); cbn; (split; [lia|]); intros _ _; (split; [lia | discriminate]).
  - (* the transmitter does not matter here *)
    assert (X : on_time s s' len) by (apply (rx_time h s len bits t s' e E)). destruct X as [X1 X2]. split; [exact X1|]. intros Y1 Y2. destruct (X2 Y1 Y2) as [X3 X4]. split; [lia | intros _; exact X4].
  - injection E as <- _. cbn. split; [lia|]. intros _ _. split; [lia | discriminate].
Qed.
Lemma stage_eq s s1 s2 : stage (st s) <= stage (st s1) -> stage (st s1) <= stage (st s2) -> st s2 = st s -> timed (st s) = true -> st s1 = st s.
Proof. intros A B E. rewrite E in B. clear E. destruct (st s); try discriminate; intros _; destruct (st s1); cbn in *; try lia; reflexivity. Qed.
Lemma no_rx l : existsb is_rx l = false -> elapsed l = 0.
Proof. induction l as [|x l IH]; [reflexivity|]. cbn [existsb elapsed fold_right]. fold (elapsed l). intros H. apply orb_false_iff in H as [H1 H2]. rewrite (IH H2). destruct x; [reflexivity | discriminate H1 | reflexivity]. Qed.
Lemma run_time h l : forall s s' e, run h s l = Ok (s', e) -> stage (st s) <= stage (st s') /\
  (st s' = st s -> timed (st s) = true -> neg_timer s' = neg_timer s - elapsed l /\ (existsb is_rx l = true -> 0 < neg_timer s')).
Proof.
  induction l as [|x l IH]; intros s s' e E; [injection E as <- _; split; [lia|]; intros _ _; split; [cbn; lia | discriminate]|]. cbn [run] in E.
  destruct (step h s x) as [[s1 e1]|] eqn:E1; [|discriminate E]. cbn [rbind] in E. destruct (run h s1 l) as [[s2 e2]|] eqn:E2; [|discriminate E]. injection E as <- _.
  destruct (step_time _ _ _ _ _ E1) as [A1 A2]. destruct (IH _ _ _ E2) as [B1 B2]. split; [lia|]. intros X T0.
  assert (Y : st s1 = st s) by (apply (stage_eq s s1 s2); assumption). destruct (A2 Y T0) as [A3 A4]. rewrite Y in B2. destruct (B2 X T0) as [B3 B4]. cbn [elapsed fold_right] in A3 |- *. fold (elapsed l).
  split; [lia|]. cbn [existsb]. intros Z0. apply orb_true_iff in Z0. destruct (existsb is_rx l) eqn:Er; [apply B4; reflexivity|]. destruct Z0 as [Z0|Z0]; [|discriminate].
  rewrite (no_rx l Er) in B3. specialize (A4 Z0). lia.
Qed.
Lemma rounds_full h l : forall s s' e, Forall (fun x : nat * (Z * list bool * tones) => (fst x <= 10)%nat) l -> full s -> run h s (rounds l) = Ok (s', e) -> full s'.
Proof.
  induction l as [|[n [[len bits] t]] l IH]; intros s s' e F Hf E; [injection E as <- _; exact Hf|]. inversion F as [|? ? Hn Fl]; subst. cbn [fst] in Hn. cbn [rounds flat_map app] in E. fold (rounds l) in E.
  cbn [run step rbind] in E. set (s1 := fst (v8_tx s n)) in E. assert (K : st s1 = st s /\ (full s -> (st s = CM_ON \/ st s = JM_ON) -> fsk_on s1 = true)).
  { unfold s1, v8_tx. destruct (fsk_on s) eqn:Ef; cbn; (split; [reflexivity|]); intros Q X; destruct (Q X) as [Q1 Q2]; [apply Nat.leb_le; lia | congruence]. }
  destruct K as [K1 K2]. destruct (v8_rx h s1 len bits t) as [[s2 e2]|] eqn:E2; [|discriminate E]. cbn [rbind] in E. destruct (run h s2 (rounds l)) as [[s3 e3]|] eqn:E3; [|discriminate E]. injection E as <- _.
  eapply IH; [exact Fl | | exact E3]. apply (rx_time h s1 len bits t s2 e2 E2). rewrite K1. apply K2, Hf.
Qed.
Lemma init_full caller p : full (v8_init caller p).
Proof. intros [X|X]; cbn in X; destruct caller; try discriminate X; destruct (send_ci p =? 0); discriminate X. Qed.
