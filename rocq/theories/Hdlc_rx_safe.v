(** HDLC receiver: safety on arbitrary input, statistics, self synchronisation, what a delivered frame means. *)
From Verif Require Import Base Bits Crc_model Crc_spec Crc_proofs BitOps_proofs Hdlc_model Hdlc_spec Hdlc_rx_proofs.
From Coq Require Import ZifyBool ZifyNat.
Ltac Zify.zify_post_hook ::= Z.div_mod_to_equations.

Record rx_inv (c : rxcfg) (s : rxs) : Prop := {
  ri_blen : length (buf s) = Z.to_nat BUF_LEN; ri_bytes : bytes (buf s); ri_len : 0 <= len s <= BUF_LEN + 1;
  ri_full : flags_seen s = framing_ok_threshold c -> len s <= BUF_LEN /\ nb s < 8;
  ri_flags : 0 <= flags_seen s <= framing_ok_threshold c; ri_max : 0 <= max_len s <= BUF_LEN;
  ri_bip : 0 <= bip s < 256; ri_nb : 0 <= nb s }.

Definition aborts (l : list ev) : list ev := filter (fun e => match e with EStatus z => z =? SIG_STATUS_ABORT | _ => false end) l.
Definition good_ev (l : list ev) := filter snd (fevents l).
Definition bad_ev (l : list ev) := filter (fun f => negb (snd f)) (fevents l).
Definition total (l : list (list Z * bool)) : Z := fold_right (fun f a => Z.of_nat (length (fst f)) + a) 0 l.
Lemma total_app a b : total (a ++ b) = total a + total b.
Proof. induction a as [|x a IH]; [reflexivity|]. cbn [app total fold_right]. fold (total (a ++ b)) (total a). lia. Qed.
Record counted (c : rxcfg) (s s' : rxs) (e : list ev) : Prop := {
  ct_frames : n_frames s' = n_frames s + Z.of_nat (length (good_ev e));
  ct_bytes : n_bytes s' = n_bytes s + total (good_ev e);
  ct_abort : n_abort s' = n_abort s + Z.of_nat (length (aborts e));
  ct_mono : n_crc s <= n_crc s' /\ n_len s <= n_len s';
  ct_bad : if report_bad_frames c then n_crc s' + n_len s' = n_crc s + n_len s + Z.of_nat (length (bad_ev e)) else bad_ev e = [] }.
Lemma counted_refl c s : counted c s s [].
Proof. split; cbn; try lia. destruct (report_bad_frames c); [lia|reflexivity]. Qed.
Lemma counted_trans c s1 s2 s3 e1 e2 : counted c s1 s2 e1 -> counted c s2 s3 e2 -> counted c s1 s3 (e1 ++ e2).
Proof.
  intros [A1 A2 A3 A4 A5] [B1 B2 B3 B4 B5]. split; unfold good_ev, bad_ev, aborts in *; rewrite ?fevents_app, ?filter_app, ?app_length, ?total_app; try lia.
  destruct (report_bad_frames c); [lia|]. rewrite A5, B5. reflexivity.
Qed.
(** same counters, events without frames or aborts *)
Lemma counted_same c s s' e : n_frames s' = n_frames s -> n_bytes s' = n_bytes s -> n_abort s' = n_abort s -> n_crc s' = n_crc s -> n_len s' = n_len s ->
  fevents e = [] -> aborts e = [] -> counted c s s' e.
Proof.
  intros A B C D E F G. split; unfold good_ev, bad_ev; rewrite ?F, ?G; cbn; try lia. destruct (report_bad_frames c); [lia|reflexivity].
Qed.
Definition same_rest (s s' : rxs) : Prop :=
  buf s' = buf s /\ len s' = len s /\ flags_seen s' = flags_seen s /\ max_len s' = max_len s /\ bip s' = bip s /\ nb s' = nb s /\ announced s' = announced s /\
  n_frames s' = n_frames s /\ n_bytes s' = n_bytes s /\ n_abort s' = n_abort s /\ n_crc s' = n_crc s /\ n_len s' = n_len s /\ raw s' = raw s.
Lemma oc_same c s : same_rest s (fst (octet_count c s)) /\ fevents (snd (octet_count c s)) = [] /\ aborts (snd (octet_count c s)) = [].
Proof.
  unfold octet_count, same_rest. destruct (_ =? 0); [cbn; tauto|]. destruct (ocm s); [|cbn; tauto]. destruct (oc s - 1 <=? 0); cbn; tauto.
Qed.
Lemma osc_same c s : same_rest s (fst (octet_set_and_count c s)) /\ fevents (snd (octet_set_and_count c s)) = [] /\ aborts (snd (octet_set_and_count c s)) = [].
Proof.
  unfold octet_set_and_count. destruct (_ =? 0); [cbn; unfold same_rest; tauto|]. destruct (ocm s); [apply oc_same|cbn; unfold same_rest; tauto].
Qed.
Definition good_step (c : rxcfg) (s : rxs) (k : kind) (e : list ev) : Prop :=
  forall d ok, In (EFrame d ok) e -> k = Mark false /\ flags_seen s = framing_ok_threshold c /\
    (ok = true -> nb s = 7 /\ len s <= max_len s /\ firstn (Z.to_nat (len s)) (buf s) = d ++ fcs (rx_crc32 c) d /\ bytes d).
Lemma fevents_nil_in e : fevents e = [] -> forall d ok, ~ In (EFrame d ok) e.
Proof.
  intros H d ok I. induction e as [|x e IH]; [exact I|]. destruct I as [->|I].
  - discriminate H.
  - destruct x; cbn [fevents flat_map app] in H; [discriminate H|]. apply IH; auto.
Qed.
Lemma bytes_upd l n x : bytes l -> byte x -> bytes (upd l n x).
Proof.
  intros H. revert n. induction H as [|a l Ha Hl IH]; intros n Hx; [destruct n; constructor|]. destruct n; cbn [upd]; constructor; auto.
  apply IH. exact Hx.
Qed.
Lemma data_inv c b s : rx_inv c s -> 1 <= framing_ok_threshold c -> exists s' e, data c b s = Ok (s', e) /\ rx_inv c s' /\ counted c s s' e /\ max_len s' = max_len s /\ fevents e = [] /\ raw s' = raw s.
Proof.
  intros [Hbl Hby Hlen Hfull Hfl Hmax Hbip Hnb] HT. unfold data. cbv zeta.
  destruct (Z.ltb_spec (flags_seen s) (framing_ok_threshold c)) as [L|L].
  - destruct (Z.land (nb s + 1) 7 =? 0).
    + destruct (oc_same c (set_bits s (bip s) (nb s + 1))) as ((A1 & A2 & A3 & A4 & A5 & A6 & A7 & A8 & A9 & A10 & A11 & A12 & A13) & F & G).
      destruct (octet_count c (set_bits s (bip s) (nb s + 1))) as [s' e]. cbn [fst snd] in *. cbn [set_bits buf len flags_seen max_len bip nb announced n_frames n_bytes n_abort n_crc n_len raw] in *.
      exists s', e. split; [reflexivity|]. split; [|split; [apply counted_same; auto|auto]].
      split; rewrite ?A1, ?A2, ?A3, ?A4, ?A5, ?A6; auto; lia.
    + exists (set_bits s (bip s) (nb s + 1)), []. split; [reflexivity|]. split; [|split; [apply counted_same; auto|auto]].
      split; cbn [set_bits buf len flags_seen max_len bip nb]; auto; lia.
  - assert (Ef : flags_seen s = framing_ok_threshold c) by lia. destruct (Hfull Ef) as [Hle H8].
    set (x := Z.shiftr (Z.lor (bip s) (256 * Z.b2z b)) 1).
    assert (Rx : 0 <= x < 256).
    { unfold x. replace (256 * Z.b2z b) with (Z.b2z b * 2 ^ 8) by (change (2 ^ 8) with 256; lia).
      rewrite lor_disj by (change (2 ^ 8) with 256; lia). rewrite Z.shiftr_div_pow2 by lia. change (2 ^ 1) with 2. change (2 ^ 8) with 256. destruct b; cbn [Z.b2z]; lia. }
    destruct (Z.eqb_spec (nb s + 1) 8).
    + destruct (Z.ltb_spec (len s) (max_len s)).
      * assert (IB : in_bounds (buf s) (len s) = true) by (unfold in_bounds; rewrite Hbl; unfold BUF_LEN in *; lia).
        unfold aset. rewrite IB. cbn [rbind].
        eexists. exists []. split; [reflexivity|]. split; [|split; [apply counted_same; auto|auto]].
        split; cbn [set_bits set_buf buf len flags_seen max_len bip nb]; rewrite ?upd_length; auto; try lia.
        apply bytes_upd; [exact Hby|]. unfold byte, u8. lia.
      * match goal with |- context [octet_set_and_count c ?y] => set (s0 := y) end.
        destruct (osc_same c s0) as ((A1 & A2 & A3 & A4 & A5 & A6 & A7 & A8 & A9 & A10 & A11 & A12 & A13) & F & G).
        destruct (octet_set_and_count c s0) as [s1 e1]. cbn [fst snd] in *. subst s0.
        cbn [set_buf set_flags buf len flags_seen max_len bip nb announced n_frames n_bytes n_abort n_crc n_len raw] in *.
        exists (set_bits s1 x 0), e1. split; [reflexivity|]. split; [|split; [apply counted_same; auto|auto]].
        split; cbn [set_bits buf len flags_seen max_len bip nb]; rewrite ?A1, ?A2, ?A3, ?A4; auto; unfold BUF_LEN in *; lia.
    + eexists. exists []. split; [reflexivity|]. split; [|split; [apply counted_same; auto|auto]].
      split; cbn [set_bits set_buf buf len flags_seen max_len bip nb]; auto; lia.
Qed.
Lemma eof_counted c mx d n s l : counted c s (set_buf (eof_counts c mx d n s) (buf s) l) (eof_events c mx d n).
Proof.
  unfold eof_counts, eof_events. destruct d as [|y d]; [apply counted_same; reflexivity|].
  set (D := y :: d). destruct (aligned c mx D n); [destruct (good c D)|]; cbn [andb].
  - split; cbn [set_buf add_counts n_frames n_bytes n_abort n_crc n_len good_ev bad_ev aborts fevents flat_map filter app snd fst negb length total fold_right]; try lia.
    destruct (report_bad_frames c); [lia|reflexivity].
  - destruct (report_bad_frames c) eqn:R; (split; cbn [set_buf add_counts n_frames n_bytes n_abort n_crc n_len good_ev bad_ev aborts fevents flat_map filter app snd fst negb length total fold_right]; rewrite ?R; try lia; reflexivity).
  - destruct (report_bad_frames c) eqn:R; (split; cbn [set_buf add_counts n_frames n_bytes n_abort n_crc n_len good_ev bad_ev aborts fevents flat_map filter app snd fst negb length total fold_right]; rewrite ?R; try lia; reflexivity).
Qed.
Lemma mark_inv c ab s : rx_inv c s -> 1 <= framing_ok_threshold c ->
  exists s' e, mark c ab s = Ok (s', e) /\ rx_inv c s' /\ counted c s s' e /\ max_len s' = max_len s /\ good_step c s (Mark ab) e /\ raw s' = raw s /\
    nb s' = 0 /\ len s' = 0 /\ (ab = false -> 1 <= flags_seen s') /\ (ab = true -> flags_seen s' < framing_ok_threshold c).
Proof.
  intros [Hbl Hby Hlen Hfull Hfl Hmax Hbip Hnb] HT. unfold mark. cbv zeta. destruct ab.
  - match goal with |- context [octet_set_and_count c ?y] => set (s0 := y) end.
    destruct (osc_same c s0) as ((A1 & A2 & A3 & A4 & A5 & A6 & A7 & A8 & A9 & A10 & A11 & A12 & A13) & F & G).
    destruct (octet_set_and_count c s0) as [s1 e1]. cbn [fst snd] in *. subst s0. cbn [rbind].
    cbn [set_buf set_flags add_counts buf len flags_seen max_len bip nb announced n_frames n_bytes n_abort n_crc n_len raw] in *.
    assert (A3' : 0 <= flags_seen s1 < framing_ok_threshold c) by (rewrite A3; destruct (Z.ltb_spec (flags_seen s) (framing_ok_threshold c - 1)); lia). clear A3.
    do 2 eexists. split; [reflexivity|]. split; [|split; [|split; [|split; [|split; [|split; [|split; [|split]]]]]]].
    + split; cbn [set_bits set_buf buf len flags_seen max_len bip nb]; rewrite ?A1, ?A2, ?A4, ?A5; auto; try lia.
    + split; cbn [set_bits set_buf n_frames n_bytes n_abort n_crc n_len]; rewrite ?A8, ?A9, ?A10, ?A11, ?A12; unfold good_ev, bad_ev, aborts in *;
        cbn [fevents flat_map app filter]; fold (fevents e1); rewrite ?F; change (SIG_STATUS_ABORT =? SIG_STATUS_ABORT) with true; cbv iota; cbn [filter length total fold_right]; rewrite ?G; cbn [length]; try lia.
      destruct (report_bad_frames c); [lia|reflexivity].
    + exact A4.
    + intros d ok [H|H]; [discriminate|]. exfalso. exact (fevents_nil_in _ F _ _ H).
    + exact A13.
    + reflexivity.
    + reflexivity.
    + discriminate.
    + intros _. cbn [set_bits set_buf flags_seen]. lia.
  - cbn [flags_seen set_oc]. destruct (Z.leb_spec (framing_ok_threshold c) (flags_seen s)) as [L|L].
    + assert (Ef : flags_seen s = framing_ok_threshold c) by lia. destruct (Hfull Ef) as [Hle H8].
      set (d := firstn (Z.to_nat (len s)) (buf s)).
      assert (Ed : buf (set_oc s false (oc s)) = d ++ skipn (Z.to_nat (len s)) (buf s)) by (symmetry; apply firstn_skipn).
      assert (Ld : len (set_oc s false (oc s)) = Z.of_nat (length d)).
      { cbn [len set_oc]. unfold d. rewrite firstn_length, Hbl. unfold BUF_LEN in *. lia. }
      assert (Bd : bytes d) by (apply bytes_firstn, Hby).
      destruct (eof_eq c (set_oc s false (oc s)) d _ Ed Ld Bd) as (l & E). rewrite E. cbn [rbind nb set_oc max_len].
      destruct (eof_counts_fields c (max_len s) d (nb s) (set_oc s false (oc s))) as (F1 & F2 & F3 & F4 & F5).
      do 2 eexists. split; [reflexivity|]. split; [|split; [|split; [|split; [|split; [|split; [|split; [|split]]]]]]].
      * split; cbn [set_bits set_buf buf len flags_seen max_len bip nb]; rewrite ?F3, ?F4, ?F5; cbn [set_oc buf len flags_seen max_len bip nb]; auto; try lia.
      * pose proof (eof_counted c (max_len s) d (nb s) (set_oc s false (oc s)) l) as [C1 C2 C3 C4 C5]. split; auto.
      * exact F4.
      * intros d0 ok I. split; [reflexivity|]. split; [exact Ef|]. intros ->.
        unfold eof_events in I. destruct d as [|y d1] eqn:Edd; [destruct I|]. rewrite <- Edd in *.
        destruct (aligned c (max_len s) d (nb s)) eqn:AL; cbn [andb] in I.
        -- destruct (good c d) eqn:G.
           ++ destruct I as [I|[]]. injection I as <-. unfold aligned in AL.
              destruct (Z.eqb_spec (nb s) 7); [|discriminate]. destruct (Nat.leb_spec (crcb (rx_crc32 c)) (length d)); [|discriminate].
              cbn [andb] in AL. cbn [len set_oc] in Ld. split; [assumption|]. split; [lia|]. split; [apply good_only; auto|]. apply bytes_firstn; auto.
           ++ destruct (report_bad_frames c); [|destruct I]. destruct I as [I|[]]. discriminate.
        -- destruct (report_bad_frames c); [|destruct I]. destruct I as [I|[]]. discriminate.
      * cbn [raw set_bits set_buf]. rewrite F2. reflexivity.
      * reflexivity.
      * reflexivity.
      * intros _. cbn [flags_seen set_bits set_buf]. rewrite F3. cbn [flags_seen set_oc]. lia.
      * discriminate.
    + cbn [nb announced set_oc]. set (f := if negb (flags_seen s =? framing_ok_threshold c - 1) && negb (nb s =? 7)
                  then (if flags_seen s <? framing_ok_threshold c - 1 then 0 else framing_ok_threshold c - 1) else flags_seen s).
      assert (Hf : 0 <= f < framing_ok_threshold c) by (unfold f; destruct (_ && _); destruct (Z.ltb_spec (flags_seen s) (framing_ok_threshold c - 1)); lia).
      destruct ((framing_ok_threshold c <=? f + 1) && negb (announced s)); cbn [rbind];
        (do 2 eexists; split; [reflexivity|]; split; [|split; [|split; [|split; [|split; [|split; [|split; [|split]]]]]]]);
        try reflexivity; try discriminate; try (intros; cbn [set_bits set_buf set_flags flags_seen]; lia);
        try (split; cbn [set_bits set_buf set_flags set_oc buf len flags_seen max_len bip nb]; auto; unfold BUF_LEN in *; lia);
        try (apply counted_same; reflexivity).
      * intros d ok [H|[]]. discriminate.
      * intros d ok [].
Qed.
Lemma act_inv c k s : rx_inv c s -> 1 <= framing_ok_threshold c ->
  exists s' e, act c k s = Ok (s', e) /\ rx_inv c s' /\ counted c s s' e /\ max_len s' = max_len s /\ good_step c s k e /\ raw s' = raw s.
Proof.
  intros H HT. destruct k as [|ab|b]; cbn [act].
  - exists s, []. split; [reflexivity|]. split; [exact H|]. split; [apply counted_refl|]. split; [reflexivity|]. split; [intros d ok []|reflexivity].
  - destruct (mark_inv c ab s H HT) as (s' & e & A & B & C & D & E & F & _). exists s', e. auto 10.
  - destruct (data_inv c b s H HT) as (s' & e & A & B & C & D & E & F). exists s', e. repeat (split; [assumption|]). split; [|exact F].
    intros d ok I. exfalso. exact (fevents_nil_in _ E _ _ I).
Qed.

(** ---- arbitrary input ---- *)
Definition facts (c : rxcfg) (s s' : rxs) (e : list ev) : Prop :=
  rx_inv c s' /\ counted c s s' e /\ max_len s' = max_len s /\
  (forall d, In (EFrame d true) e -> bytes d /\ Z.of_nat (length d) + rx_crc_bytes c <= max_len s).
Lemma facts_trans c s1 s2 s3 e1 e2 : facts c s1 s2 e1 -> facts c s2 s3 e2 -> facts c s1 s3 (e1 ++ e2).
Proof.
  intros (A1 & A2 & A3 & A4) (B1 & B2 & B3 & B4). split; [exact B1|]. split; [eapply counted_trans; eauto|]. split; [congruence|].
  intros d H. apply in_app_or in H. destruct H as [H|H]; [apply A4, H|]. rewrite <- A3. apply B4, H.
Qed.
Lemma core_facts c s : rx_inv c s -> 1 <= framing_ok_threshold c -> exists s' e, hdlc_rx_put_bit_core c s = Ok (s', e) /\ facts c s s' e.
Proof.
  intros H HT. rewrite core_act. destruct (act_inv c (classify (win (raw s))) s H HT) as (s' & e & A & B & C & D & E & F).
  exists s', e. split; [exact A|]. split; [exact B|]. split; [exact C|]. split; [exact D|].
  intros d I. destruct (E d true I) as (_ & _ & X). destruct (X eq_refl) as (X1 & X2 & X3 & X4). split; [exact X4|].
  apply (f_equal (@length Z)) in X3. rewrite firstn_length, app_length, fcs_length, (ri_blen _ _ H) in X3. rewrite rx_crcb.
  pose proof (ri_max _ _ H). pose proof (ri_len _ _ H). unfold BUF_LEN in *. lia.
Qed.
Lemma inv_raw c s r : rx_inv c s -> rx_inv c (set_raw s r).
Proof. intros [A B C D E F G H]. split; cbn [set_raw buf len flags_seen max_len bip nb]; auto. Qed.
Lemma facts_raw c s r s' e : facts c (set_raw s r) s' e -> facts c s s' e.
Proof. intros (A & [B1 B2 B3 B4 B5] & C & D). split; [exact A|]. split; [split; auto|]. split; [exact C|exact D]. Qed.
Lemma special_facts c s z : rx_inv c s -> 1 <= framing_ok_threshold c -> facts c s (fst (rx_special_condition s z)) (snd (rx_special_condition s z)).
Proof.
  intros [A B C D E F G H] HT. unfold rx_special_condition. cbn [fst snd].
  set (u := (z =? SIG_STATUS_CARRIER_UP) || (z =? SIG_STATUS_TRAINING_SUCCEEDED)).
  assert (AB : forall l, l = [EStatus z] \/ l = [] -> l = [EStatus z] -> z <> SIG_STATUS_ABORT -> fevents l = [] /\ aborts l = []).
  { intros l _ -> N. cbn. destruct (Z.eqb_spec z SIG_STATUS_ABORT); [contradiction|auto]. }
  match goal with |- facts _ _ _ ?l => set (ev := l); assert (Ev : fevents ev = [] /\ aborts ev = []) end.
  { unfold ev. destruct (u || _ || _ || _ || _) eqn:X; [|split; reflexivity]. apply AB; auto. intros ->. discriminate X. }
  destruct Ev as [F1 F2]. split; [|split; [|split]].
  - destruct u; split; cbn [set_bits set_flags set_buf set_raw buf len flags_seen max_len bip nb]; auto; unfold BUF_LEN in *; lia.
  - apply counted_same; auto; destruct u; reflexivity.
  - destruct u; reflexivity.
  - intros d I. exfalso. exact (fevents_nil_in _ F1 _ _ I).
Qed.
Lemma put_bit_facts c s z : rx_inv c s -> 1 <= framing_ok_threshold c -> exists s' e, hdlc_rx_put_bit c s z = Ok (s', e) /\ facts c s s' e.
Proof.
  intros H HT. unfold hdlc_rx_put_bit. destruct (z <? 0).
  - pose proof (special_facts c s z H HT) as X. destruct (rx_special_condition s z) as [s' e]. exists s', e. auto.
  - match goal with |- context [set_raw s ?r] => destruct (core_facts c _ (inv_raw c s r H) HT) as (s' & e & A & B) end. do 2 eexists. split; [exact A|]. eapply facts_raw, B.
Qed.
Lemma loop_facts c n : forall s, rx_inv c s -> 1 <= framing_ok_threshold c -> exists s' e, put_byte_loop c n s = Ok (s', e) /\ facts c s s' e.
Proof.
  induction n as [|n IH]; intros s H HT; cbn [put_byte_loop].
  - exists s, []. split; [reflexivity|]. split; [exact H|]. split; [apply counted_refl|]. split; [reflexivity|]. intros d [].
  - destruct (core_facts c _ (inv_raw c s (u32 (Z.shiftl (raw s) 1)) H) HT) as (s1 & e1 & A & B). rewrite A. cbn [rbind].
    apply facts_raw in B. destruct (IH s1 (proj1 B) HT) as (s2 & e2 & A2 & B2). rewrite A2. cbn [rbind].
    do 2 eexists. split; [reflexivity|]. eapply facts_trans; eauto.
Qed.
Lemma put_byte_facts c s z : rx_inv c s -> 1 <= framing_ok_threshold c -> exists s' e, hdlc_rx_put_byte c s z = Ok (s', e) /\ facts c s s' e.
Proof.
  intros H HT. unfold hdlc_rx_put_byte. destruct (z <? 0).
  - pose proof (special_facts c s z H HT) as X. destruct (rx_special_condition s z) as [s' e]. exists s', e. auto.
  - destruct (loop_facts c 8 _ (inv_raw c s (u32 (Z.lor (raw s) z)) H) HT) as (s' & e & A & B). do 2 eexists. split; [exact A|]. eapply facts_raw, B.
Qed.
Definition next_max (c : rxcfg) (mx : Z) (o : rxop) : Z :=
  match o with RMaxLen m => Z.min (u64 (m + rx_crc_bytes c)) BUF_LEN | _ => mx end.
Lemma step_facts c s o : rx_inv c s -> 1 <= framing_ok_threshold c -> exists s' e, rx_step c s o = Ok (s', e) /\ rx_inv c s' /\ counted c s s' e /\
  max_len s' = next_max c (max_len s) o /\ (forall d, In (EFrame d true) e -> bytes d /\ Z.of_nat (length d) + rx_crc_bytes c <= max_len s).
Proof.
  intros H HT. destruct o as [z|z|m|]; cbn [rx_step next_max].
  - apply put_bit_facts; auto.
  - apply put_byte_facts; auto.
  - do 2 eexists. split; [reflexivity|]. destruct H as [A B C D E F G I]. unfold hdlc_rx_set_max_frame_len. cbv zeta.
    split; [|split; [apply counted_same; reflexivity|split; [|intros d []]]].
    + split; cbn [set_max buf len flags_seen max_len bip nb]; auto.
      destruct (Z.leb_spec (u64 (m + rx_crc_bytes c)) BUF_LEN); unfold u64, BUF_LEN in *; lia.
    + cbn [set_max max_len]. destruct (Z.leb_spec (u64 (m + rx_crc_bytes c)) BUF_LEN); lia.
  - do 2 eexists. split; [reflexivity|]. destruct H as [A B C D E F G I].
    split; [|split; [apply counted_same; reflexivity|split; [reflexivity|intros d []]]].
    split; cbn [hdlc_rx_restart set_oc set_bits set_raw set_flags set_buf buf len flags_seen max_len bip nb]; auto; unfold BUF_LEN in *; lia.
Qed.
Lemma inv_init c : 1 <= framing_ok_threshold c -> rx_inv c hdlc_rx_init.
Proof.
  intros HT. split; cbn [hdlc_rx_init buf len flags_seen max_len bip nb]; try (unfold BUF_LEN; lia).
  - unfold zero_buf. apply repeat_length.
  - unfold zero_buf. apply Forall_forall. intros x I. apply repeat_spec in I. subst. unfold byte. lia.
Qed.
Definition exec_ok (c : rxcfg) (s : rxs) (l : list rxop) : Prop :=
  exists s' e, rx_exec c s l = Ok (s', e) /\ rx_inv c s' /\ counted c s s' e /\ max_len s' = fold_left (next_max c) l (max_len s) /\
    (forall d, In (EFrame d true) e -> bytes d /\ Z.of_nat (length d) + rx_crc_bytes c <= BUF_LEN).
Lemma exec_facts c l : forall s, rx_inv c s -> 1 <= framing_ok_threshold c -> exec_ok c s l.
Proof.
  induction l as [|o l IH]; intros s H HT.
  - exists s, []. split; [reflexivity|]. split; [exact H|]. split; [apply counted_refl|]. split; [reflexivity|]. intros d [].
  - destruct (step_facts c s o H HT) as (s1 & e1 & E1 & I1 & C1 & M1 & G1).
    destruct (IH s1 I1 HT) as (s2 & e2 & E2 & I2 & C2 & M2 & G2).
    exists s2, (e1 ++ e2). cbn [rx_exec]. rewrite E1. cbn [rbind]. rewrite E2. cbn [rbind]. split; [reflexivity|].
    split; [exact I2|]. split; [eapply counted_trans; eauto|]. split; [rewrite M2, M1; reflexivity|].
    intros d I. apply in_app_or in I. destruct I as [I|I]; [|apply G2, I]. destruct (G1 d I) as [X Y]. split; [exact X|].
    pose proof (ri_max _ _ H). lia.
Qed.

(** ---- self synchronisation ---- *)
Lemma put_bit_inv c s b : rx_inv c s -> raw_ok (raw s) -> 1 <= framing_ok_threshold c ->
  exists s' e, hdlc_rx_put_bit c s (Z.b2z b) = Ok (s', e) /\ rx_inv c s' /\ raw s' = next_raw (raw s) b /\ max_len s' = max_len s /\
    good_step c s (classify (next_win (win (raw s)) b)) e.
Proof.
  intros H R HT. rewrite put_bit_act by exact R.
  destruct (act_inv c (classify (next_win (win (raw s)) b)) s H HT) as (s' & e & A & B & C & D & E & F). rewrite A. cbn [with_raw rbind].
  do 2 eexists. split; [reflexivity|]. split; [apply inv_raw, B|]. split; [reflexivity|]. split; [exact D|exact E].
Qed.
Lemma run_false w : 0 <= w < 256 -> run (next_win w false) 0.
Proof. intros H. split; [apply next_win_range|]. unfold next_win. cbn [Z.b2z]. change (2 ^ (Z.of_nat 0 + 1)) with 2. change (2 ^ Z.of_nat 0) with 1. lia. Qed.
Lemma run_true w k : run w k -> (k <= 6)%nat -> run (next_win w true) (S k).
Proof.
  intros H L. destruct (Nat.le_gt_cases k 4); [apply (cls_data w k true H); lia|]. destruct (Nat.eq_dec k 5) as [->|].
  - apply (cls_5 w H).
  - replace k with 6%nat in * by lia. apply (cls_6 w H).
Qed.
Lemma feed_ones c n : forall s k, rx_inv c s -> raw_ok (raw s) -> 1 <= framing_ok_threshold c -> run (win (raw s)) k -> (k + n <= 7)%nat ->
  exists s' e, rx_bits c s (repeat true n) = Ok (s', e) /\ rx_inv c s' /\ raw_ok (raw s') /\ run (win (raw s')) (k + n) /\ max_len s' = max_len s.
Proof.
  induction n as [|n IH]; intros s k H R HT K L.
  - exists s, []. rewrite Nat.add_0_r. cbn. auto.
  - cbn [repeat rx_bits]. destruct (put_bit_inv c s true H R HT) as (s1 & e1 & E1 & I1 & R1 & M1 & _). rewrite E1. cbn [rbind].
    destruct (raw_next _ true R) as (X1 & X2 & _).
    destruct (IH s1 (S k)) as (s2 & e2 & E2 & I2 & R2 & K2 & M2); auto.
    + rewrite R1. exact X1.
    + rewrite R1, X2. apply run_true; auto; lia.
    + lia.
    + rewrite E2. cbn [rbind]. do 2 eexists. split; [reflexivity|]. split; [exact I2|]. split; [exact R2|].
      split; [replace (k + S n)%nat with (S k + n)%nat by lia; exact K2|lia].
Qed.
(** From any state whatever, one flag aligns the receiver. *)
Definition locked (c : rxcfg) (s : rxs) : Prop := (exists f, 1 <= f /\ presync c s f 0 0) \/ inframe c s [] [] 0.
Lemma any_flag c s : rx_inv c s -> raw_ok (raw s) -> 1 <= framing_ok_threshold c ->
  exists s' e, rx_bits c s flag = Ok (s', e) /\ locked c s' /\ max_len s' = max_len s.
Proof.
  intros H R HT. change flag with ([false] ++ repeat true 6 ++ [false]).
  destruct (put_bit_inv c s false H R HT) as (s1 & e1 & E1 & I1 & R1 & M1 & _).
  destruct (raw_next _ false R) as (X1 & X2 & _).
  destruct (feed_ones c 6 s1 0 I1 ltac:(rewrite R1; exact X1) HT) as (s2 & e2 & E2 & I2 & R2 & K2 & M2).
  { rewrite R1, X2. apply run_false. unfold win. lia. }
  { lia. }
  destruct (cls_6 _ K2) as (_ & _ & A & B). destruct (raw_next _ false R2) as (Y1 & Y2 & _).
  destruct (mark_inv c false s2 I2 HT) as (s3 & e3 & E3 & I3 & C3 & M3 & G3 & R3 & N3 & L3 & F3 & _).
  cbn [app rx_bits]. rewrite E1. cbn [rbind]. rewrite rx_bits_app, E2. cbn [rbind rx_bits].
  rewrite put_bit_act by exact R2. rewrite A. cbn [act]. rewrite E3. cbn [with_raw rbind].
  do 2 eexists. split; [reflexivity|]. split; [|cbn [max_len set_raw]; lia].
  destruct I3 as [J1 J2 J3 J4 J5 J6 J7 J8]. specialize (F3 eq_refl).
  destruct (Z.eq_dec (flags_seen s3) (framing_ok_threshold c)) as [EF|NF].
  - right. split; cbn [set_raw raw flags_seen buf len max_len nb bip length]; auto; try (rewrite Y2; exact B); try lia.
    + exists (buf s3). reflexivity.
    + exists (bip s3). cbn [of_bits_lsb length]. change (2 ^ Z.of_nat (8 - 0)) with 256. lia.
    + constructor.
  - left. exists (flags_seen s3). split; [exact F3|]. split; cbn [set_raw raw flags_seen buf len max_len nb bip length]; auto; try lia.
    rewrite Y2. exact B.
Qed.
Lemma in_flags c n : forall s, inframe c s [] [] 0 -> exists s' e, rx_bits c s (concat (repeat flag n)) = Ok (s', e) /\ inframe c s' [] [] 0 /\ max_len s' = max_len s.
Proof.
  induction n as [|n IH]; intros s H; cbn [repeat concat].
  - exists s, []. auto.
  - destruct (feed_flag c s [] 0 H ltac:(lia)) as (s1 & E1 & I1 & M1). destruct (IH s1 I1) as (s2 & e2 & E2 & I2 & M2).
    rewrite rx_bits_app, E1. cbn [rbind]. rewrite E2. cbn [rbind]. do 2 eexists. split; [reflexivity|]. split; [exact I2|lia].
Qed.
Lemma locked_flags c n : forall s, locked c s -> (Z.to_nat (framing_ok_threshold c) <= S n)%nat ->
  exists s' e, rx_bits c s (concat (repeat flag n)) = Ok (s', e) /\ inframe c s' [] [] 0 /\ max_len s' = max_len s.
Proof.
  intros s [(f & Hf & P)|I] Hn; [|apply in_flags, I].
  pose proof (ps_lt _ _ _ _ _ P) as L. 
  replace n with (Z.to_nat (framing_ok_threshold c - f) + (n - Z.to_nat (framing_ok_threshold c - f)))%nat by lia.
  rewrite repeat_app, concat_app.
  destruct (presync_flags c (Z.to_nat (framing_ok_threshold c - f)) s f P ltac:(lia)) as (s1 & e1 & E1 & _ & M1 & I1).
  destruct (in_flags c (n - Z.to_nat (framing_ok_threshold c - f)) s1 I1) as (s2 & e2 & E2 & I2 & M2).
  rewrite rx_bits_app, E1. cbn [rbind]. rewrite E2. cbn [rbind]. do 2 eexists. split; [reflexivity|]. split; [exact I2|lia].
Qed.
Lemma resync c s n l : rx_inv c s -> raw_ok (raw s) -> 1 <= framing_ok_threshold c -> (Z.to_nat (framing_ok_threshold c) <= n)%nat ->
  Forall (seg_ok (rx_crc32 c) (max_len s)) l ->
  exists s1 e1 s2 e2, rx_bits c s (concat (repeat flag n)) = Ok (s1, e1) /\ rx_bits c s1 (line (rx_crc32 c) l) = Ok (s2, e2) /\ fevents e2 = goods (frames l).
Proof.
  intros H R HT Hn F. destruct n as [|n]; [lia|]. cbn [repeat concat].
  destruct (any_flag c s H R HT) as (s1 & e1 & E1 & L1 & M1). destruct (locked_flags c n s1 L1 Hn) as (s2 & e2 & E2 & I2 & M2).
  destruct (feed_line c l s2 I2 ltac:(replace (max_len s2) with (max_len s) by lia; exact F)) as (s3 & e3 & E3 & V3 & _).
  exists s2, (e1 ++ e2), s3, e3. rewrite rx_bits_app, E1. cbn [rbind]. rewrite E2. cbn [rbind]. auto.
Qed.

(** ---- a frame reported good was on the line between two flags ---- *)
Definition ones (n : nat) : list bool := repeat true n.
Definition runx (w : Z) (t : nat) : Prop := 0 <= w < 256 /\ if (t <=? 7)%nat then w mod 2 ^ (Z.of_nat t + 1) = 2 ^ Z.of_nat t - 1 else w = 255.
Lemma runx_run w t : runx w t -> (t <= 7)%nat -> run w t.
Proof. intros [A B] L. destruct (Nat.leb_spec t 7); [split; auto|lia]. Qed.
Lemma run_runx w t : run w t -> (t <= 7)%nat -> runx w t.
Proof. intros [A B] L. split; [exact A|]. destruct (Nat.leb_spec t 7); [auto|lia]. Qed.
Lemma runx_big w t : runx w t -> (7 <= t)%nat -> w = 127 \/ w = 255.
Proof.
  intros [A B] L. destruct (Nat.leb_spec t 7); [|auto]. replace t with 7%nat in * by lia.
  change (2 ^ (Z.of_nat 7 + 1)) with 256 in B. change (2 ^ Z.of_nat 7) with 128 in B. left. lia.
Qed.
Lemma runx_next w t b : runx w t -> runx (next_win w b) (if b then S t else 0%nat).
Proof.
  intros H. destruct b.
  - destruct (Nat.le_gt_cases t 6).
    + apply run_runx; [|lia]. apply run_true; [apply runx_run; auto; lia|lia].
    + destruct (runx_big w t H ltac:(lia)) as [->| ->]; (split; [cbn; lia|]); destruct (Nat.leb_spec (S t) 7); [lia|reflexivity|lia|reflexivity].
  - apply run_runx; [apply run_false, H|lia].
Qed.
Lemma classify_big w t b : runx w t -> (7 <= t)%nat -> classify (next_win w b) = Data b.
Proof. intros H L. destruct (runx_big w t H L) as [->| ->], b; reflexivity. Qed.

Definition dest (tail u : list bool) (t : nat) : Prop := exists u', u = u' ++ ones t /\ tail = stuff 0 u' ++ ones t /\ stuff_end 0 u' = 0%nat.
Lemma dest_true tail u t : dest tail u t -> dest (tail ++ [true]) (u ++ [true]) (S t).
Proof.
  intros (u' & -> & -> & E). exists u'. unfold ones. rewrite <- !app_assoc.
  assert (X : repeat true t ++ [true] = repeat true (S t)) by (symmetry; rewrite <- repeat_cons; reflexivity). rewrite X. auto.
Qed.
Lemma stuff_ones n : forall k, (k + n <= 4)%nat -> stuff k (ones n ++ [false]) = ones n ++ [false].
Proof.
  induction n as [|n IH]; intros k H; [reflexivity|]. unfold ones in *. cbn [repeat app stuff]. destruct (Nat.eqb_spec k 4); [lia|]. rewrite IH by lia. reflexivity.
Qed.
Lemma stuff_end_ones0 n : forall k, (k + n <= 4)%nat -> stuff_end k (ones n ++ [false]) = 0%nat.
Proof.
  induction n as [|n IH]; intros k H; [reflexivity|]. unfold ones in *. cbn [repeat app stuff_end]. destruct (Nat.eqb_spec k 4); [lia|]. apply IH. lia.
Qed.
Lemma dest_false tail u t : dest tail u t -> (t <= 4)%nat -> dest (tail ++ [false]) (u ++ [false]) 0.
Proof.
  intros (u' & -> & -> & E) L. exists (u' ++ ones t ++ [false]). cbn [ones repeat]. rewrite !app_nil_r, <- !app_assoc.
  split; [reflexivity|]. rewrite stuff_app, E, stuff_ones by lia. split; [reflexivity|]. rewrite stuff_end_app, E. apply stuff_end_ones0. lia.
Qed.
Lemma dest_skip tail u : dest tail u 5 -> dest (tail ++ [false]) u 0.
Proof.
  intros (u' & -> & -> & E). exists (u' ++ ones 5). unfold ones. cbn [repeat]. rewrite !app_nil_r, <- app_assoc.
  split; [reflexivity|]. rewrite stuff_app, E. split; [reflexivity|]. rewrite stuff_end_app, E. reflexivity.
Qed.
Record seen (c : rxcfg) (s : rxs) (h : list bool) : Prop := {
  se_inv : rx_inv c s; se_raw : raw_ok (raw s);
  se_run : exists h0 t, h = h0 ++ false :: ones t /\ runx (win (raw s)) t /\
    (flags_seen s = framing_ok_threshold c -> exists pre tail d p, h = pre ++ flag ++ tail /\ inframe c s d p t /\ dest tail (wire d ++ p) t /\ (t <= 6)%nat) }.
Lemma data_unsync c b s s' e : data c b s = Ok (s', e) -> flags_seen s < framing_ok_threshold c -> flags_seen s' = flags_seen s.
Proof.
  unfold data. intros H L. destruct (Z.ltb_spec (flags_seen s) (framing_ok_threshold c)); [|lia]. cbv zeta in H.
  destruct (_ =? 0); [|injection H as <- _; reflexivity].
  pose proof (oc_same c (set_bits s (bip s) (nb s + 1))) as ((_ & _ & A & _) & _). destruct (octet_count c _) as [x y]. injection H as <- _. exact A.
Qed.
Lemma data_overflow c b s s' e : data c b s = Ok (s', e) -> flags_seen s = framing_ok_threshold c -> nb s = 7 -> max_len s <= len s ->
  flags_seen s' = framing_ok_threshold c - 1.
Proof.
  unfold data. intros H L N X. destruct (Z.ltb_spec (flags_seen s) (framing_ok_threshold c)); [lia|]. cbv zeta in H.
  rewrite N in H. change (7 + 1 =? 8) with true in H. cbv iota in H. destruct (Z.ltb_spec (len s) (max_len s)); [lia|].
  match goal with H : context [octet_set_and_count c ?y] |- _ => pose proof (osc_same c y) as ((_ & _ & A & _) & _); destruct (octet_set_and_count c y) as [x z] end.
  injection H as <- _. exact A.
Qed.
Lemma app_inv_last6 (u' : list bool) d p : (length p = 7)%nat -> u' ++ ones 6 = wire d ++ p -> exists x, p = x :: ones 6 /\ u' = wire d ++ [x].
Proof.
  intros L E. destruct p as [|x p]; [discriminate|]. exists x. injection L as L.
  assert (E' : u' ++ ones 6 = (wire d ++ [x]) ++ p) by (rewrite <- app_assoc; exact E).
  assert (L' : length u' = length (wire d ++ [x])).
  { apply (f_equal (@length bool)) in E'. rewrite !app_length, L in E'. rewrite app_length. cbn [ones repeat length] in *. lia. }
  clear E. assert (G : forall (a b p q : list bool), length a = length b -> a ++ p = b ++ q -> a = b /\ p = q).
  { clear. induction a as [|y a IH]; intros [|z b] p q Hl He; try discriminate; [auto|]. injection Hl as Hl. injection He as <- He. destruct (IH _ _ _ Hl He) as [<- <-]. auto. }
  destruct (G _ _ _ _ L' E') as [<- <-]. auto.
Qed.
Lemma stuff_end_true4 l : stuff_end 0 (l ++ [true]) = 0%nat -> stuff_end 0 l = 4%nat.
Proof. rewrite stuff_end_app. cbn [stuff_end]. destruct (Nat.eqb_spec (stuff_end 0 l) 4); [auto|discriminate]. Qed.
Lemma seen_step c s h b : seen c s h -> 1 <= framing_ok_threshold c ->
  exists s' e, hdlc_rx_put_bit c s (Z.b2z b) = Ok (s', e) /\ seen c s' (h ++ [b]) /\ max_len s' = max_len s /\
    forall d, In (EFrame d true) e -> exists pre,
      h ++ [b] = pre ++ flag ++ frame_bits (rx_crc32 c) d ++ flag \/
      h ++ [b] = pre ++ flag ++ frame_bits (rx_crc32 c) d ++ true :: flag.
Proof.
  intros [Hinv Hraw (h0 & t & Hh & Hrun & Hs)] HT.
  destruct (put_bit_inv c s b Hinv Hraw HT) as (s' & e & E & I' & R' & M' & G'). exists s', e. split; [exact E|].
  destruct (raw_next _ b Hraw) as (X1 & X2 & _).
  assert (Hh' : exists h0', h ++ [b] = h0' ++ false :: ones (if b then S t else 0)).
  { rewrite Hh. destruct b.
    - exists h0. rewrite <- app_assoc. cbn [app]. unfold ones. do 2 f_equal. rewrite <- repeat_cons. reflexivity.
    - exists (h0 ++ false :: ones t). reflexivity. }
  destruct Hh' as (h0' & Hh').
  assert (Hrun' : runx (win (raw s')) (if b then S t else 0%nat)) by (rewrite R', X2; apply runx_next, Hrun).
  assert (Hraw' : raw_ok (raw s')) by (rewrite R'; exact X1).
  rewrite put_bit_act in E by exact Hraw.
  (* the synchronised case of the new state, and the frames *)
  cut ((flags_seen s' = framing_ok_threshold c -> exists pre tail d p, h ++ [b] = pre ++ flag ++ tail /\ inframe c s' d p (if b then S t else 0%nat) /\
          dest tail (wire d ++ p) (if b then S t else 0%nat) /\ ((if b then S t else 0) <= 6)%nat) /\
       (forall d, In (EFrame d true) e -> exists pre, h ++ [b] = pre ++ flag ++ frame_bits (rx_crc32 c) d ++ flag \/
          h ++ [b] = pre ++ flag ++ frame_bits (rx_crc32 c) d ++ true :: flag)).
  { intros [A B]. split; [|split; [exact M'|exact B]]. split; [exact I'|exact Hraw'|]. exists h0', (if b then S t else 0%nat). auto. }
  destruct (Nat.le_gt_cases 7 t) as [T7|T7].
  { (* seven or more ones: not synchronised *)
    assert (NS : flags_seen s <> framing_ok_threshold c).
    { intros C. destruct (Hs C) as (pre & tail & d & p & _ & _ & _ & L). lia. }
    assert (K := classify_big _ _ b Hrun T7). rewrite K in E, G'. cbn [act] in E.
    split.
    - intros C. exfalso. destruct (data c b s) as [[s1 e1]|] eqn:D; cbn [with_raw rbind] in E; [|discriminate]. injection E as <- <-.
      pose proof (ri_flags _ _ Hinv). pose proof (data_unsync _ _ _ _ _ D ltac:(lia)). cbn [flags_seen set_raw] in C. lia.
    - intros d I. destruct (G' d true I) as (C & _). discriminate C. }
  assert (Rn : run (win (raw s)) t) by (apply runx_run; auto; lia).
  destruct (Nat.eq_dec t 6) as [->|T6].
  { destruct (cls_6 _ Rn) as (C1 & _ & C2 & _). destruct b.
    - (* abort *)
      rewrite C1 in E, G'. cbn [act] in E. destruct (mark_inv c true s Hinv HT) as (s1 & e1 & D & _ & _ & _ & _ & _ & _ & _ & _ & F).
      rewrite D in E. cbn [with_raw rbind] in E. injection E as <- <-. split.
      + intros C. specialize (F eq_refl). cbn [flags_seen set_raw] in C. lia.
      + intros d I. destruct (G' d true I) as (C & _). discriminate C.
    - (* flag *)
      assert (HF : h ++ [false] = h0 ++ flag) by (rewrite Hh, <- app_assoc; reflexivity).
      rewrite C2 in E, G'. cbn [act] in E. destruct (mark_inv c false s Hinv HT) as (s1 & e1 & D & J & _ & _ & _ & _ & N & L & _ & _).
      rewrite D in E. cbn [with_raw rbind] in E. injection E as <- <-. split.
      + intros C. exists h0, [], [], []. rewrite app_nil_r. split; [exact HF|]. split; [|split; [exists []; cbn; auto|lia]].
        destruct I' as [J1 J2 J3 J4 J5 J6 J7 J8].
        split; auto; try (cbn [set_raw raw flags_seen buf len max_len nb bip length] in *; auto; lia).
        all: first [apply runx_run; [exact Hrun'|lia]|eexists; reflexivity|constructor|
          exists (bip s1); cbn [of_bits_lsb length set_raw bip]; change (2 ^ Z.of_nat (8 - 0)) with 256; cbn [set_raw bip] in J7; lia|idtac].
      + intros d I. destruct (G' d true I) as (_ & Sy & X). destruct (X eq_refl) as (N7 & Lm & Eb & Bd).
        destruct (Hs Sy) as (pre & tail & d' & p & Hp & If & (u' & U1 & U2 & U3) & _).
        destruct (if_buf _ _ _ _ _ If) as (rest & Bf). rewrite Bf, (if_len _ _ _ _ _ If), Nat2Z.id, firstn_app_exact in Eb by reflexivity.
        assert (Lp : length p = 7%nat) by (pose proof (if_nb _ _ _ _ _ If); lia).
        destruct (app_inv_last6 u' d' p Lp (eq_sym U1)) as (x & -> & ->).
        exists pre. rewrite Hp, U2, <- !app_assoc. destruct x.
        * right. rewrite stuff_app. pose proof (stuff_end_true4 _ U3) as E4. rewrite E4. unfold frame_bits. rewrite <- Eb, <- !app_assoc. reflexivity.
        * left. rewrite stuff_app. unfold frame_bits. rewrite <- Eb, <- !app_assoc. reflexivity. }
  assert (NF : forall d, In (EFrame d true) e -> False).
  { intros d I. destruct (G' d true I) as (C & _). revert C. destruct (Nat.eq_dec t 5) as [->|].
    - destruct (cls_5 _ Rn) as (C1 & _ & C2 & _). destruct b; [rewrite C1|rewrite C2]; discriminate.
    - rewrite (proj1 (cls_data _ _ b Rn ltac:(lia))). discriminate. }
  split; [|intros d I; destruct (NF d I)].
  intros C.
  destruct (Z.eq_dec (flags_seen s) (framing_ok_threshold c)) as [Sy|NS].
  - destruct (Hs Sy) as (pre & tail & d & p & Hp & If & De & _).
    destruct (Nat.eq_dec t 5) as [->|T5].
    + destruct b.
      * (* sixth one *)
        destruct (Z.lt_ge_cases (len s) (max_len s)) as [Lm|Lm]; [|destruct (Z.lt_ge_cases (nb s) 7) as [Ln|Ln]].
        -- destruct (step_data c s d p 5 true If ltac:(auto)) as (s2 & d2 & p2 & E2 & I2 & W2 & M2 & _).
           { right. rewrite <- (if_len _ _ _ _ _ If). exact Lm. }
           rewrite put_bit_act in E2 by exact Hraw. rewrite E in E2. injection E2 as <- _.
           exists pre, (tail ++ [true]), d2, p2. rewrite Hp, <- !app_assoc. split; [reflexivity|]. split; [exact I2|]. split; [|lia].
           rewrite W2, app_assoc. apply dest_true, De.
        -- destruct (step_data c s d p 5 true If ltac:(auto)) as (s2 & d2 & p2 & E2 & I2 & W2 & M2 & _).
           { left. pose proof (if_nb _ _ _ _ _ If). lia. }
           rewrite put_bit_act in E2 by exact Hraw. rewrite E in E2. injection E2 as <- _.
           exists pre, (tail ++ [true]), d2, p2. rewrite Hp, <- !app_assoc. split; [reflexivity|]. split; [exact I2|]. split; [|lia].
           rewrite W2, app_assoc. apply dest_true, De.
        -- exfalso. destruct (cls_5 _ Rn) as (C1 & _). rewrite C1 in E. cbn [act] in E.
           destruct (data c true s) as [[s1 e1]|] eqn:D; cbn [with_raw rbind] in E; [|discriminate]. injection E as <- <-.
           pose proof (if_nb _ _ _ _ _ If). pose proof (if_p _ _ _ _ _ If).
           pose proof (data_overflow _ _ _ _ _ D Sy ltac:(lia) Lm). cbn [flags_seen set_raw] in C. lia.
      * destruct (step_skip c s d p If) as (s2 & E2 & I2 & M2). rewrite put_bit_act in E2 by exact Hraw. rewrite E in E2. injection E2 as <- _.
        exists pre, (tail ++ [false]), d, p. rewrite Hp, <- !app_assoc. split; [reflexivity|]. split; [exact I2|]. split; [|lia].
        apply dest_skip, De.
    + destruct (Z.lt_ge_cases (len s) (max_len s)) as [Lm|Lm]; [|destruct (Z.lt_ge_cases (nb s) 7) as [Ln|Ln]].
      1,2: destruct (step_data c s d p t b If ltac:(left; lia)) as (s2 & d2 & p2 & E2 & I2 & W2 & M2 & _);
           [pose proof (if_nb _ _ _ _ _ If); pose proof (if_len _ _ _ _ _ If); lia|];
           rewrite put_bit_act in E2 by exact Hraw; rewrite E in E2; injection E2 as <- _;
           exists pre, (tail ++ [b]), d2, p2; rewrite Hp, <- !app_assoc; (split; [reflexivity|]); (split; [exact I2|]); (split; [|destruct b; lia]);
           rewrite W2, app_assoc; destruct b; [apply dest_true, De|apply (dest_false _ _ t); [exact De|lia]].
      exfalso. rewrite (proj1 (cls_data _ _ b Rn ltac:(lia))) in E. cbn [act] in E.
      destruct (data c b s) as [[s1 e1]|] eqn:D; cbn [with_raw rbind] in E; [|discriminate]. injection E as <- <-.
      pose proof (if_nb _ _ _ _ _ If). pose proof (if_p _ _ _ _ _ If).
      pose proof (data_overflow _ _ _ _ _ D Sy ltac:(lia) Lm). cbn [flags_seen set_raw] in C. lia.
  - exfalso. pose proof (ri_flags _ _ Hinv).
    destruct (Nat.eq_dec t 5) as [->|T5].
    + destruct (cls_5 _ Rn) as (C1 & _ & C2 & _). destruct b; [rewrite C1 in E|rewrite C2 in E]; cbn [act] in E.
      * destruct (data c true s) as [[s1 e1]|] eqn:D; cbn [with_raw rbind] in E; [|discriminate]. injection E as <- <-.
        pose proof (data_unsync _ _ _ _ _ D ltac:(lia)). cbn [flags_seen set_raw] in C. lia.
      * cbn [with_raw rbind] in E. injection E as <- <-. cbn [flags_seen set_raw] in C. lia.
    + rewrite (proj1 (cls_data _ _ b Rn ltac:(lia))) in E. cbn [act] in E.
      destruct (data c b s) as [[s1 e1]|] eqn:D; cbn [with_raw rbind] in E; [|discriminate]. injection E as <- <-.
      pose proof (data_unsync _ _ _ _ _ D ltac:(lia)). cbn [flags_seen set_raw] in C. lia.
Qed.
Lemma seen_bits c l : forall s h, seen c s h -> 1 <= framing_ok_threshold c ->
  exists s' e, rx_bits c s l = Ok (s', e) /\
    forall d, In (EFrame d true) e -> exists pre post,
      h ++ l = pre ++ flag ++ frame_bits (rx_crc32 c) d ++ flag ++ post \/
      h ++ l = pre ++ flag ++ frame_bits (rx_crc32 c) d ++ true :: flag ++ post.
Proof.
  induction l as [|b l IH]; intros s h H HT; cbn [rx_bits].
  - exists s, []. split; [reflexivity|]. intros d [].
  - destruct (seen_step c s h b H HT) as (s1 & e1 & E1 & S1 & _ & G1). rewrite E1. cbn [rbind].
    destruct (IH s1 _ S1 HT) as (s2 & e2 & E2 & G2). rewrite E2. cbn [rbind]. exists s2, (e1 ++ e2). split; [reflexivity|].
    intros d I. apply in_app_or in I. destruct I as [I|I].
    + destruct (G1 d I) as (pre & [X|X]); exists pre, l; replace (h ++ b :: l) with ((h ++ [b]) ++ l) by (rewrite <- app_assoc; reflexivity); rewrite X.
      * left. rewrite <- !app_assoc. reflexivity.
      * right. rewrite <- !app_assoc. reflexivity.
    + destruct (G2 d I) as (pre & post & X). exists pre, post. rewrite <- !app_assoc in X. exact X.
Qed.
Lemma inv_fresh c s : fresh s -> 1 <= framing_ok_threshold c -> rx_inv c s.
Proof.
  intros (m & -> & Hm) HT. destruct (inv_init c HT) as [A B C D E F G H]. split; auto.
Qed.
Lemma seen_fresh c s : fresh s -> 1 <= framing_ok_threshold c -> seen c s [false].
Proof.
  intros H HT. pose proof (inv_fresh c s H HT) as I. destruct H as (m & -> & Hm). split; [exact I|split; cbn; lia|].
  exists [], 0%nat. split; [reflexivity|]. split; [split; [cbn; lia|reflexivity]|]. cbn. lia.
Qed.
Definition rbits (l : list bool) : list rxop := map (fun b => RBit (Z.b2z b)) l.
Lemma exec_rbits c l : forall s, rx_exec c s (rbits l) = rx_bits c s l.
Proof.
  induction l as [|b l IH]; intros s; [reflexivity|]. cbn [rbits map rx_exec rx_step rx_bits]. destruct (hdlc_rx_put_bit c s (Z.b2z b)) as [[s1 e1]|]; [|reflexivity].
  cbn [rbind]. fold (rbits l). rewrite IH. reflexivity.
Qed.
Lemma exec_app c l1 : forall s l2, rx_exec c s (l1 ++ l2) = (do (s1, e1) <- rx_exec c s l1; do (s2, e2) <- rx_exec c s1 l2; Ok (s2, e1 ++ e2)).
Proof.
  induction l1 as [|o l1 IH]; intros s l2; cbn [app rx_exec rbind].
  - destruct (rx_exec c s l2) as [[s2 e2]|]; reflexivity.
  - destruct (rx_step c s o) as [[s1 e1]|]; [|reflexivity]. cbn [rbind]. rewrite IH. destruct (rx_exec c s1 l1) as [[s2 e2]|]; [|reflexivity]. cbn [rbind].
    destruct (rx_exec c s2 l2) as [[s3 e3]|]; [|reflexivity]. cbn [rbind]. rewrite app_assoc. reflexivity.
Qed.
Lemma good_on_line c s l : fresh s -> 1 <= framing_ok_threshold c ->
  exists s' e, rx_exec c s (rbits l) = Ok (s', e) /\
    forall d, In (EFrame d true) e -> exists pre post,
      false :: l = pre ++ flag ++ frame_bits (rx_crc32 c) d ++ flag ++ post \/
      false :: l = pre ++ flag ++ frame_bits (rx_crc32 c) d ++ true :: flag ++ post.
Proof. intros F HT. rewrite exec_rbits. apply (seen_bits c l s [false] (seen_fresh c s F HT) HT). Qed.
