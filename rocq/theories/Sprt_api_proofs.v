(** SPRT: the functions of the interface keep the state of an end in order. *)
From Coq Require Import ZifyBool ZifyNat Znumtheory.
From Verif Require Import Base Sprt_model Sprt_spec Sprt_base_proofs Sprt_chan_proofs Sprt_end_proofs Sprt_call_proofs.
Local Open Scope Z_scope.

(** The number of the message that a sequence number stands for at a receiver that has delivered [b] messages. *)
Definition num (b seq : Z) : Z := let d := (seq - b) mod 16384 in if d <=? 192 then b + d else b + d - 16384.
Lemma num_mod b seq : 0 <= seq < 16384 -> num b seq mod 16384 = seq.
Proof.
  intros H. unfold num. cbn zeta. set (d := (seq - b) mod 16384).
  assert (E : (b + d) mod 16384 = seq) by (unfold d; rewrite Z.add_mod_idemp_r by lia; replace (b + (seq - b)) with seq by lia; apply Z.mod_small; lia).
  destruct (_ <=? _); [exact E|]. replace (b + d - 16384) with (b + d + (-1) * 16384) by lia. rewrite Z_mod_plus_full. exact E.
Qed.
Lemma entry_eq ch seq : rel ch -> 0 <= seq < 16384 -> u16 (Z.lor (Z.shiftl ch 14) seq) = ch * 16384 + seq.
Proof.
  intros Hr Hs. assert (E : Z.land (Z.shiftl ch 14) seq = 0).
  { apply Z.bits_inj_0. intros n. rewrite Z.land_spec. destruct (Z_lt_ge_dec n 0); [rewrite Z.testbit_neg_r by lia; reflexivity|].
    destruct (Z_lt_ge_dec n 14); [rewrite Z.shiftl_spec_low by lia; reflexivity|].
    replace (Z.testbit seq n) with false; [apply andb_false_r|]. symmetry. rewrite <- (Z.mod_small seq (2 ^ 14)) by lia. apply Z.mod_pow2_bits_high. lia. }
  rewrite <- Z.lxor_lor by exact E. rewrite <- Z.add_nocarry_lxor by exact E. rewrite Z.shiftl_mul_pow2 by lia. change (2 ^ 14) with 16384.
  unfold u16. apply Z.mod_small. unfold rel in Hr. lia.
Qed.

Section Api.
Variable S : list message.
Variable P : Z -> Z -> list Z -> Prop.
Variable Zk : Z -> Z -> Prop.
Variable U : Z -> list Z -> Prop.
Local Notation EI := (EI S P).
Local Notation evol := (evol S P Zk U).

Lemma hdm_same s s' : rx s' = rx s -> immediate s' = immediate s -> hdm s s'.
Proof. intros E1 E2 ch _. unfold hd_ok. rewrite E1, E2. auto. Qed.

(** storing a message *)
Lemma store_ok b f s ch n p buf : rel ch -> EI 0 b f s -> b ch <= n < b ch + r_win (rx s ch) -> P ch n p ->
  buf = upd (r_buf (rx s ch)) (Z.to_nat (n mod r_win (rx s ch))) (Some p) ->
  let s' := w_rx ch (r_set (rx s ch) (r_base (rx s ch)) (r_in (rx s ch)) buf) s in
  EI 0 b f s' /\ (forall N, evol N b s [] b s') /\ received (rx s' ch) (b ch) n /\ (n <> b ch \/ r_busy (rx s ch) = true -> hdm s s').
Proof.
  intros Hrel I Hn HP -> s'. destruct (e_rx _ _ _ _ _ _ I ch Hrel) as (Rc & Ri). specialize (Ri ltac:(unfold rel in Hrel; lia)).
  pose proof (r_w _ _ _ Rc) as HW. pose proof (r_b _ _ _ Rc) as HB. unfold zlen in HB. set (W := r_win (rx s ch)) in *.
  assert (Hm : 0 <= n mod W < W) by (apply Z.mod_pos_bound; lia).
  assert (Er : rx s' ch = r_set (rx s ch) (r_base (rx s ch)) (r_in (rx s ch)) (upd (r_buf (rx s ch)) (Z.to_nat (n mod W)) (Some p))) by apply w_rx_same.
  assert (Hsl : forall j, 0 <= j -> sn (upd (r_buf (rx s ch)) (Z.to_nat (n mod W)) (Some p)) j = if j =? n mod W then Some p else sn (r_buf (rx s ch)) j) by (intros j Hj; apply sn_upd; lia).
  split; [|split; [|split]].
  - constructor.
    + exact (e_tx _ _ _ _ _ _ I).
    + intros c Hr. destruct (Z.eq_dec c ch) as [->|Hne].
      * rewrite Er. cbn [r_in r_set r_win]. fold W. split; [|intros _; exact Ri]. constructor; cbn -[Z.modulo sn Z.add]; try (destruct Rc; assumption).
        -- unfold zlen. rewrite upd_length. exact HB.
        -- fold W. intros k q Hk Hs. rewrite Hsl in Hs by (apply Z.mod_pos_bound; lia). destruct (Z.eqb_spec ((b ch + k) mod W) (n mod W)) as [E|E].
           ++ injection Hs as <-. apply mod_inj in E; [|lia|lia]. rewrite E. exact HP.
           ++ apply (r_slot _ _ _ Rc k q Hk Hs).
      * cbn. destruct (Z.eqb_spec c ch); [contradiction|]. apply (e_rx _ _ _ _ _ _ I c Hr).
    + exact (e_ack _ _ _ _ _ _ I).
    + intros c. destruct (e_lim _ _ _ _ _ _ I c) as (L1 & L2 & L3). cbn. destruct (Z.eqb_spec c ch) as [->|]; auto.
  - intros N. constructor; cbn -[received acked]; auto.
    + intros c. destruct (Z.eqb_spec c ch) as [->|]; auto.
    + intros c i _. destruct (Z.eqb_spec c ch) as [->|]; [|auto]. unfold received. cbn -[sn Z.modulo]. fold W. intros [H|(H1 & H2)]; [auto|right]. split; [exact H1|].
      rewrite Hsl by (apply Z.mod_pos_bound; lia). destruct (_ =? _); [discriminate|exact H2].
    + intros c _. split; [cbn; lia|]. intros k q H. apply znth_nil in H. contradiction.
    + intros c q _ [].
    + intros x [].
  - rewrite Er. right. cbn [r_win r_set r_buf]. fold W. split; [lia|]. rewrite Hsl by lia. rewrite Z.eqb_refl. discriminate.
  - intros Hor c Hr H. unfold hd_ok in *. cbn. destruct (Z.eqb_spec c ch) as [->|]; [|exact H]. cbn -[sn]. rewrite Ri in *. rewrite Hsl by (apply Z.mod_pos_bound; lia).
    destruct (Z.eqb_spec (b ch mod W) (n mod W)) as [E|E]; [|exact H]. intros _. destruct Hor as [Hor|Hor]; [|auto]. apply mod_inj in E; lia.
Qed.

Lemma rx_payload_ok b f s now ch seq p : EI 0 b f s -> 0 <= ch <= 3 -> 0 <= seq < 16384 ->
  (rel ch -> b ch <= num (b ch) seq -> P ch (num (b ch) seq) p) -> (~ rel ch -> U ch p) -> exists s' e b',
  rx_payload s now ch seq p = Ok (s', e) /\ EI 0 b' f s' /\ hdm s s' /\ gave_up e = false /\
  (forall N : Z -> Prop, (rel ch -> received (rx s' ch) (b' ch) (num (b ch) seq) -> N (ch * 16384 + num (b ch) seq mod 16384)) -> evol N b s e b' s').
Proof.
  intros I Hch Hseq HP HU. unfold rx_payload. destruct (reliable ch) eqn:Hrel.
  2:{ assert (Hnr : ~ rel ch) by (intros X; apply reliable_rel in X; congruence).
      destruct (delivery_ok S P Zk U 0 b f s ch seq p I) as (s1 & e & -> & C & Q & Gu). exists s1, (Deliver ch seq p :: e), b. split; [reflexivity|].
      split; [apply (EI_calm S P 0 b f s); assumption|]. split; [intros c Hr; apply hd_calm; assumption|]. split; [exact Gu|].
      intros N _. change (Deliver ch seq p :: e) with ([Deliver ch seq p] ++ e). apply (evol_trans _ _ _ _ N b s _ b s); [|apply evol_calm; assumption].
      constructor; cbn; auto.
      - intros c Hr. unfold on. cbn. destruct (Z.eqb_spec ch c) as [->|]; [contradiction|]. cbn. split; [unfold zlen; cbn; lia|]. intros k q H. apply znth_nil in H. contradiction.
      - intros c q _ [E|[]]. injection E as <- <-. apply HU. exact Hnr.
      - intros x []. }
  apply reliable_rel in Hrel. specialize (HP Hrel). clear HU.
  destruct (e_rx _ _ _ _ _ _ I ch Hrel) as (Rc & Ri). assert (Hch0 : ch <> 0) by (unfold rel in Hrel; lia). specialize (Ri Hch0).
  pose proof (r_w _ _ _ Rc) as HW. pose proof (r_b _ _ _ Rc) as HB. pose proof (r_pos _ _ _ Rc) as Hpos. unfold zlen in HB.
  rewrite (r_bas _ _ _ Rc). rewrite land_mask. rewrite Zminus_mod_idemp_r. set (d := (seq - b ch) mod 16384).
  assert (Hd : 0 <= d < 16384) by (apply Z.mod_pos_bound; lia).
  assert (Hn : num (b ch) seq = if d <=? 192 then b ch + d else b ch + d - 16384) by reflexivity.
  pose proof (num_mod (b ch) seq Hseq) as Hnm. set (n := num (b ch) seq) in *.
  destruct (queue_ack_ok S P Zk U 0 b f s now ch seq I Hch) as (s1 & e1 & Eq & I1 & Sm & De & Ge & V1). rewrite (entry_eq ch seq Hrel Hseq) in V1. rewrite <- Hnm in V1.
  assert (H1 : hdm s s1) by (apply hdm_same; [apply (s_rx _ _ Sm)|apply (s_im _ _ Sm)]).
  assert (Erx : rx s1 ch = rx s ch) by (rewrite (s_rx _ _ Sm); reflexivity).
  destruct (Z.eqb_spec seq (b ch mod 16384)) as [E0|E0].
  - assert (Hd0 : d = 0) by (unfold d; rewrite E0, Zminus_mod_idemp_l, Z.sub_diag; reflexivity).
    assert (Hnb : n = b ch) by (rewrite Hn, Hd0; cbn; lia). rewrite Eq. cbn [rbind]. rewrite Erx. rewrite Ri.
    assert (Hm : 0 <= b ch mod r_win (rx s ch) < r_win (rx s ch)) by (apply Z.mod_pos_bound; lia).
    destruct (r_busy (rx s ch)) eqn:Eb.
    + rewrite oset_ok by lia. cbn [rbind].
      destruct (store_ok b f s1 ch (b ch) p (upd (r_buf (rx s ch)) (Z.to_nat (b ch mod r_win (rx s ch))) (Some p)) Hrel I1) as (I2 & V2 & R2 & H2).
      { rewrite Erx. lia. } { rewrite <- Hnb. apply HP. lia. } { rewrite Erx. reflexivity. }
      cbn zeta in *. rewrite Erx, Eb in *. rewrite Ri in *. rewrite (r_bas _ _ _ Rc) in *.
      eexists _, e1, b. split; [reflexivity|]. split; [exact I2|]. split; [intros c Hr H; apply H2; auto|]. split; [exact Ge|].
      intros N HN. rewrite <- (app_nil_r e1). eapply evol_trans; [apply V1; apply HN; [exact Hrel|rewrite Hnb; exact R2]|apply V2].
    + destruct (delivery_ok S P Zk U 0 b f s1 ch seq p I1) as (s2 & e2 & -> & C & Q & Gu). cbn [rbind].
      assert (Ew : r_win (rx s2 ch) = r_win (rx s ch)) by (rewrite (c_rx _ _ C ch), Erx; reflexivity). assert (Ebuf : r_buf (rx s2 ch) = r_buf (rx s ch)) by (rewrite (c_rx _ _ C ch), Erx; reflexivity).
      rewrite Ebuf, oset_ok by lia. cbn [rbind].
      destruct (adv_ok S P Zk U b f s1 ch seq p s2 e2 (upd (r_buf (rx s ch)) (Z.to_nat (b ch mod r_win (rx s ch))) None) Hrel (EI_skip S P Zk U _ _ _ _ I1) C Q) as (I3 & V3 & H3 & _ & Hw3).
      { rewrite <- Hnb. apply HP. lia. } { rewrite Ebuf, Ew. reflexivity. }
      cbn zeta in *. match type of I3 with Sprt_end_proofs.EI _ _ _ _ _ ?x => set (s3 := x) in * end. set (b3 := bset b ch (b ch + 1)) in *.
      rewrite Ew, next_mod by lia. assert (Hb3 : b3 ch = b ch + 1) by (unfold b3, bset; rewrite Z.eqb_refl; reflexivity).
      destruct (deliver_following_ok S P Zk U ch b3 f s3 ((b ch + 1) mod r_win (rx s ch)) Hrel I3) as (s' & e' & b' & -> & I' & V' & H' & Hh & Gu'). { rewrite Hb3, Hw3, Erx. reflexivity. }
      cbn [rbind]. exists s', (e1 ++ (Deliver ch seq p :: e2) ++ e'), b'. split; [reflexivity|]. split; [exact I'|].
      split. { intros c Hr H. destruct (Z.eq_dec c ch) as [->|Hne]; [exact Hh|]. apply H'; auto. }
      split. { rewrite !gave_up_app, Ge, Gu'. change (gave_up (Deliver ch seq p :: e2)) with (gave_up e2). rewrite Gu. reflexivity. }
      intros N HN. eapply evol_trans; [apply V1|eapply evol_trans; [apply V3|apply V']].
      apply HN; [exact Hrel|]. apply (v_mono _ _ _ _ _ _ _ _ _ _ (V' (fun _ => True)) ch n Hrel). left. rewrite Hb3. lia.
  - assert (Hd0 : d <> 0).
    { intros X. apply E0. rewrite <- Hnm, Hn, X. cbn [Z.leb]. rewrite Z.add_0_r. reflexivity. }
    destruct (Z.ltb_spec d (r_win (rx s ch))) as [Hlt|Hge].
    + assert (Hnb : n = b ch + d) by (rewrite Hn; destruct (Z.leb_spec d 192); lia). rewrite Eq. cbn [rbind]. rewrite Erx, Ri, fwd_mod by lia.
      assert (Hm : 0 <= (b ch + d) mod r_win (rx s ch) < r_win (rx s ch)) by (apply Z.mod_pos_bound; lia).
      rewrite oset_ok by lia. cbn [rbind].
      destruct (store_ok b f s1 ch n p (upd (r_buf (rx s ch)) (Z.to_nat ((b ch + d) mod r_win (rx s ch))) (Some p)) Hrel I1) as (I2 & V2 & R2 & H2).
      { rewrite Erx. lia. } { apply HP. lia. } { rewrite Erx, Hnb. reflexivity. }
      cbn zeta in *. rewrite Erx in *. rewrite Ri in *. rewrite (r_bas _ _ _ Rc) in *.
      eexists _, e1, b. split; [reflexivity|]. split; [exact I2|]. split; [intros c Hr H; apply H2; auto; left; lia|]. split; [exact Ge|].
      intros N HN. rewrite <- (app_nil_r e1). eapply evol_trans; [apply V1; apply HN; [exact Hrel|exact R2]|apply V2].
    + destruct (Z.ltb_spec (2 * MAX_WINDOW) d) as [Hfar|Hnear].
      * rewrite Eq. cbn [rbind]. eexists _, _, b. split; [reflexivity|]. split; [exact I1|]. split; [exact H1|]. split; [rewrite gave_up_app, Ge; reflexivity|].
        intros N HN. apply (evol_trans _ _ _ _ N b s e1 b s1); [apply V1; apply HN; [exact Hrel|]|apply evol_quiet; [apply same_refl|split; reflexivity|auto]].
        left. rewrite Hn. unfold MAX_WINDOW in Hfar. replace (d <=? 192) with false by lia. lia.
      * eexists _, [], b. split; [reflexivity|]. split; [exact I|]. split; [intros c _ H; exact H|]. split; [reflexivity|]. intros N _. apply evol_refl.
Qed.

Lemma timer_expired_ok b f s now : EI 0 b f s -> exists s' e b',
  sprt_timer_expired s now = Ok (s', e) /\ EI 0 b' (f && negb (gave_up e)) s' /\ hdm s s' /\ (forall N, evol N b s e b' s').
Proof.
  intros I. unfold sprt_timer_expired. destruct (now <? latest s).
  { exists s, [Timer (latest s)], b. split; [reflexivity|]. split; [rewrite andb_true_r; exact I|]. split; [intros c _ H; exact H|]. intros N. apply evol_quiet; [apply same_refl|split; reflexivity|auto]. }
  assert (HD : exists s1 e1 b1, (if immediate s then sprt_deliver (w_immediate false s) else Ok (s, [])) = Ok (s1, e1) /\ EI 0 b1 f s1 /\ hdm s s1 /\ (forall N, evol N b s e1 b1 s1) /\ gave_up e1 = false).
  { destruct (immediate s).
    2:{ exists s, [], b. split; [reflexivity|]. split; [exact I|]. split; [intros c _ H; exact H|]. split; [intros N; apply evol_refl|reflexivity]. }
    assert (I0 : EI 0 b f (w_immediate false s)) by (destruct I; constructor; assumption).
    unfold sprt_deliver. destruct (e_rx _ _ _ _ _ _ I0 1 (or_introl eq_refl)) as (_ & R1).
    destruct (deliver_following_ok S P Zk U 1 b f (w_immediate false s) _ (or_introl eq_refl) (EI_skip S P Zk U _ _ _ _ I0) (R1 ltac:(lia))) as (s1 & e1 & b1 & -> & I1 & V1 & H1 & Hh1 & G1). cbn [rbind].
    destruct (e_rx _ _ _ _ _ _ I1 2 (or_intror eq_refl)) as (_ & R2).
    destruct (deliver_following_ok S P Zk U 2 b1 f s1 _ (or_intror eq_refl) (EI_skip S P Zk U _ _ _ _ I1) (R2 ltac:(lia))) as (s2 & e2 & b2 & -> & I2 & V2 & H2 & Hh2 & G2). cbn [rbind].
    exists s2, (e1 ++ e2), b2. split; [reflexivity|]. split; [exact I2|]. split.
    { intros c Hr _. destruct (Z.eq_dec c 2) as [->|]; [exact Hh2|]. assert (c = 1) as -> by (unfold rel in Hr; lia). apply H2; auto. }
    split; [|rewrite gave_up_app, G1, G2; reflexivity].
    intros N. pose proof (evol_trans _ _ _ _ _ _ _ _ _ _ _ _ _ (V1 N) (V2 N)) as []. constructor; assumption. }
  destruct HD as (s1 & e1 & b1 & -> & I1 & H1 & V1 & G1). cbn [rbind].
  destruct (expire_chan_ok S P Zk U b1 f s1 1 now false (or_introl eq_refl) I1) as (s2 & e2 & snt2 & -> & I2 & V2 & E2 & F2). cbn [rbind].
  destruct (expire_chan_ok S P Zk U b1 _ s2 2 now snt2 (or_intror eq_refl) I2) as (s3 & e3 & snt3 & -> & I3 & V3 & E3 & F3). cbn [rbind].
  assert (HA : exists s4 e4, (if negb snt3 && negb (ta01 s3 =? 0) && (ta01 s3 <=? now) then match acks s3 with [] => Ok (s3, []) | _ => build_and_send s3 0 0 [] end else Ok (s3, [])) = Ok (s4, e4) /\
     EI 0 b1 (f && negb (gave_up e2) && negb (gave_up e3)) s4 /\ rx s4 = rx s3 /\ immediate s4 = immediate s3 /\ gave_up e4 = false /\ forall N, evol N b1 s3 e4 b1 s4).
  { assert (Triv : exists s4 e4, Ok (s3, []) = Ok (s4, e4) /\
     EI 0 b1 (f && negb (gave_up e2) && negb (gave_up e3)) s4 /\ rx s4 = rx s3 /\ immediate s4 = immediate s3 /\ gave_up e4 = false /\ forall N, evol N b1 s3 e4 b1 s4).
    { exists s3, []. split; [reflexivity|]. split; [exact I3|]. repeat (split; [reflexivity|]). intros N. apply evol_refl. }
    destruct (negb snt3 && negb (ta01 s3 =? 0) && (ta01 s3 <=? now)); [|exact Triv]. destruct (acks s3) eqn:Ea; [exact Triv|].
    destruct (build_ok S P Zk U 0 b1 _ s3 0 0 [] I3 ltac:(lia)) as (s4 & e4 & -> & I4 & Sm & _ & _ & Ge & V4). { cbn; lia. } { left; reflexivity. }
    exists s4, e4. split; [reflexivity|]. split; [exact I4|]. split; [apply (s_rx _ _ Sm)|]. split; [apply (s_im _ _ Sm)|]. auto. }
  destruct HA as (s4 & e4 & -> & I4 & E4 & F4 & G4 & V4). cbn [rbind].
  destruct (update_timer_ok S P Zk U 0 b1 _ s4 I4) as (t & ->). cbn [rbind].
  eexists _, _, b1. split; [reflexivity|]. split; [|split].
  - apply (EI_weak S P 0 b1 (f && negb (gave_up e2) && negb (gave_up e3))); [apply (EI_same S P 0 b1 _ s4); [exact I4|constructor; reflexivity|exact (e_ack _ _ _ _ _ _ I4)]|].
    rewrite !gave_up_app, G1, G4. cbn. destruct f, (gave_up e2), (gave_up e3); cbn; auto.
  - intros c Hr H. specialize (H1 c Hr H). unfold hd_ok in *. cbn [rx immediate w_latest]. rewrite E4, F4, E3, F3, E2, F2. exact H1.
  - intros N. eapply evol_trans; [apply V1|]. eapply evol_trans; [apply V2|]. eapply evol_trans; [apply V3|]. eapply evol_trans; [apply V4|].
    apply evol_quiet; [constructor; reflexivity|split; reflexivity|auto].
Qed.

(** what is read from a packet *)
Definition view (pkt : list Z) (ch seq : Z) (ks : list (Z * Z)) (p : list Z) : Prop :=
  exists noa, 6 + 2 * noa <= zlen pkt /\ 0 <= noa <= 3 /\ noa = Z.land (Z.shiftr (zn pkt 4) 6) 3 /\ ch = Z.land (Z.shiftr (zn pkt 2) 6) 3 /\
    seq = Z.land (Z.lor (Z.shiftl (zn pkt 2) 8) (zn pkt 3)) SEQ_MASK /\ read_acks pkt (Z.to_nat noa) 6 = Ok ks /\ p = skipn (Z.to_nat (6 + 2 * noa)) pkt.

Lemma read_acks_ok pkt : forall n i, 0 <= i -> i + 2 * Z.of_nat n <= zlen pkt -> exists ks, read_acks pkt n i = Ok ks.
Proof.
  unfold zlen. induction n as [|n IH]; intros i Hi Hl; cbn [read_acks]; [eauto|]. rewrite aget_zn by lia. cbn [rbind]. unfold get16. rewrite !aget_zn by lia. cbn [rbind].
  destruct (IH (i + 2) ltac:(lia) ltac:(lia)) as (ks & ->). cbn [rbind]. eauto.
Qed.
Lemma land3 x : 0 <= Z.land x 3 <= 3.
Proof. pose proof (Z.land_ones x 2 ltac:(lia)) as E. change (Z.ones 2) with 3 in E. rewrite E. pose proof (Z.mod_pos_bound x (2 ^ 2) ltac:(lia)) as H. revert H. change (2 ^ 2) with 4. lia. Qed.

Lemma rx_packet_ok b s now pkt : EI 0 b true s ->
  (forall ch seq ks p, view pkt ch seq ks p -> 
     (forall tc sq, In (tc, sq) ks -> rel tc -> Zk tc (zlen (on tc S) - (zlen (on tc S) - sq) mod 16384)) /\
     (p <> [] -> (rel ch -> b ch <= num (b ch) seq -> P ch (num (b ch) seq) p) /\ (~ rel ch -> U ch p))) ->
  exists s' e b' r, sprt_rx_packet s now pkt = Ok (s', e, r) /\ EI 0 b' true s' /\ hdm s s' /\ gave_up e = false /\
  exists s0, (s0 = s \/ (rx_sub s = 255 /\ s0 = w_rx_sub (Z.land (zn pkt 0) 0x7F) s)) /\
    forall N : Z -> Prop, (forall ch seq ks p, view pkt ch seq ks p -> p <> [] -> rel ch -> received (rx s' ch) (b' ch) (num (b ch) seq) -> N (ch * 16384 + num (b ch) seq mod 16384)) ->
      evol N b s0 e b' s'.
Proof.
  intros I H. unfold sprt_rx_packet. fold (zlen pkt).
  assert (Triv : forall e (r : Z), quiet e -> gave_up e = false -> exists s' e' b' r', Ok (s, e, r) = Ok (s', e', r') /\ EI 0 b' true s' /\ hdm s s' /\ gave_up e' = false /\
     exists s0, (s0 = s \/ (rx_sub s = 255 /\ s0 = w_rx_sub (Z.land (zn pkt 0) 0x7F) s)) /\
     forall N : Z -> Prop, (forall ch seq ks p, view pkt ch seq ks p -> p <> [] -> rel ch -> received (rx s' ch) (b' ch) (num (b ch) seq) -> N (ch * 16384 + num (b ch) seq mod 16384)) -> evol N b s0 e' b' s').
  { intros e r Q Gu. exists s, e, b, r. split; [reflexivity|]. split; [exact I|]. split; [intros c _ X; exact X|]. split; [exact Gu|]. exists s. split; [auto|]. intros N _. apply evol_quiet; [apply same_refl|exact Q|auto]. }
  destruct (Z.ltb_spec (zlen pkt) 6) as [Hs|Hlen]; [apply Triv; [split|]; reflexivity|].
  unfold zlen in Hlen. rewrite !aget_zn by lia. cbn [rbind].
  destruct (_ || _); [apply Triv; [split|]; reflexivity|]. destruct (negb (_ =? rx_pt s)); [apply Triv; [split|]; reflexivity|].
  destruct (negb (rx_sub s =? 0xFF) && _) eqn:Esub; [apply Triv; [split|]; reflexivity|]. clear Triv.
  unfold get16. rewrite !aget_zn by lia. cbn [rbind].
  set (s0 := if rx_sub s =? 255 then w_rx_sub (Z.land (zn pkt 0) 127) s else s).
  set (ch := Z.land (Z.shiftr (zn pkt 2) 6) 3). set (noa := Z.land (Z.shiftr (zn pkt 4) 6) 3).
  assert (Hch : 0 <= ch <= 3) by apply land3. assert (Hnoa : 0 <= noa <= 3) by apply land3.
  set (base := Z.land (Z.lor _ (zn pkt (4 + 1))) SEQ_MASK).
  assert (Hs0 : s0 = s \/ (rx_sub s = 255 /\ s0 = w_rx_sub (Z.land (zn pkt 0) 0x7F) s)) by (unfold s0; destruct (Z.eqb_spec (rx_sub s) 255); auto).
  assert (I0 : EI 0 b true s0) by (destruct Hs0 as [->|(_ & ->)]; [exact I|destruct I; constructor; assumption]).
  assert (H0 : hdm s s0) by (destruct Hs0 as [->|(_ & ->)]; intros c _ X; exact X). clearbody s0. clear I.
  set (c1 := t_setbase (tx s0 ch) base). set (s1 := w_tx ch c1 s0).
  assert (I1 : EI 0 b true s1).
  { apply EI_tx; [exact I0| |apply (e_lim _ _ _ _ _ _ I0)]. intros Hr. destruct (e_tx _ _ _ _ _ _ I0 ch Hr) as (O & L & G & T & F). exists O, L. split; [|split].
    - apply (ring_ext (tx s0 ch)); auto.
    - apply (timed_same (tx s0 ch)); auto.
    - exact F. }
  assert (V1 : forall N, evol N b s0 [] b s1) by (intros N; apply evol_tx; [split; reflexivity|reflexivity|reflexivity|auto]).
  destruct (Z.ltb_spec (zlen pkt) (6 + 2 * noa)) as [Hs|Hl].
  { exists s1, [], b, (-1). split; [reflexivity|]. split; [exact I1|]. split; [exact H0|]. split; [reflexivity|]. exists s0. split; [exact Hs0|]. intros N _. apply V1. }
  destruct (read_acks_ok pkt (Z.to_nat noa) 6 ltac:(lia) ltac:(lia)) as (ks & Eks). rewrite Eks. cbn [rbind].
  set (seq := Z.land (Z.lor (Z.shiftl (zn pkt 2) 8) (zn pkt (2 + 1))) SEQ_MASK).
  assert (Hv : view pkt ch seq ks (skipn (Z.to_nat (6 + 2 * noa)) pkt)) by (exists noa; repeat (split; [solve [assumption|reflexivity|lia]|]); reflexivity).
  destruct (H _ _ _ _ Hv) as (HZ & HP).
  destruct (process_acks_ok S P Zk U b ks s1 I1 HZ) as (s2 & -> & I2 & V2 & E2 & F2 & _ & _). cbn [rbind].
  assert (H2 : hdm s s2) by (intros c Hr X; apply H0 in X; [|exact Hr]; unfold hd_ok in *; rewrite E2, F2; exact X).
  destruct (Z.ltb_spec 0 (zlen pkt - (6 + 2 * noa))) as [Hpl|Hpl]; cbn [andb].
  - assert (Hne : skipn (Z.to_nat (6 + 2 * noa)) pkt <> []).
    { intros X. apply (f_equal (@length Z)) in X. rewrite skipn_length in X. cbn [length] in X. unfold zlen in *. lia. }
    destruct (HP Hne) as (HP1 & HP2). destruct (_ <=? _).
    + destruct (rx_payload_ok b true s2 now ch seq (skipn (Z.to_nat (6 + 2 * noa)) pkt) I2 Hch) as (s3 & e3 & b3 & -> & I3 & H3 & G3 & V3). { unfold seq. rewrite land_mask. apply Z.mod_pos_bound. lia. } { exact HP1. } { exact HP2. }
      cbn [rbind]. exists s3, e3, b3, 0. split; [reflexivity|]. split; [exact I3|]. split; [intros c Hr X; apply H3; auto|]. split; [exact G3|]. exists s0. split; [exact Hs0|].
      intros N HN. change e3 with ([] ++ [] ++ e3). eapply evol_trans; [apply V1|]. eapply evol_trans; [apply V2|]. apply V3. intros Hr X. apply (HN ch seq ks _ Hv Hne Hr X).
    + exists s2, [], b, 0. split; [reflexivity|]. split; [exact I2|]. split; [exact H2|]. split; [reflexivity|]. exists s0. split; [exact Hs0|]. intros N _. eapply (evol_trans _ _ _ _ N b s0 [] b s1); auto.
  - exists s2, [], b, 0. split; [reflexivity|]. split; [exact I2|]. split; [exact H2|]. split; [reflexivity|]. exists s0. split; [exact Hs0|]. intros N _. eapply (evol_trans _ _ _ _ N b s0 [] b s1); auto.
Qed.
End Api.

(** ---- src/sprt.c:903-975: a message is given ---- *)
Lemma EI_more S P k b f s m : EI S P k b f s -> ~ rel (fst m) -> EI (S ++ [m]) P k b f s.
Proof.
  intros [] Hm. constructor; auto. intros ch Hr. destruct (e_tx ch Hr) as (O & L & G & T & F). exists O, L. split; [|auto].
  rewrite on_app. unfold on at 2. cbn. destruct (Z.eqb_spec (fst m) ch) as [E|]; [subst ch; contradiction|]. cbn. rewrite app_nil_r. exact G.
Qed.

(** [s0] is the state in which the first copy is sent *)
Lemma tx_ok S P Zk U b f s now ch p : EI S P 0 b f s ->
  (exists r, r = -1 /\ sprt_tx s now ch p = Ok (s, [], r)) \/
  (exists s0 s' e, sprt_tx s now ch p = Ok (s', e, 0) /\ gave_up e = false /\ 0 <= ch <= 3 /\ 0 < zlen p <= t_max (tx s ch) /\
     rx s0 = rx s /\ acks s0 = acks s /\ immediate s0 = immediate s /\ tx_sub s0 = tx_sub s /\ tx_pt s0 = tx_pt s /\ rx_pt s0 = rx_pt s /\ rx_sub s0 = rx_sub s /\
     (forall c, t_win (tx s0 c) = t_win (tx s c) /\ t_max (tx s0 c) = t_max (tx s c)) /\
     (forall c i, rel c -> acked (tx s0 c) (zlen (on c (S ++ [(ch, p)]))) i <-> acked (tx s c) (zlen (on c S)) i) /\
     EI (S ++ [(ch, p)]) P 0 b f s' /\ (forall N, evol (S ++ [(ch, p)]) P Zk U N b s0 e b s') /\ rx s' = rx s /\ immediate s' = immediate s).
Proof.
  intros I. unfold sprt_tx. destruct (Z.ltb_spec ch 0); [left; eexists; split; reflexivity|]. destruct (Z.ltb_spec 3 ch); [left; eexists; split; reflexivity|]. cbn [orb].
  fold (zlen p). destruct (Z.leb_spec (zlen p) 0); [left; eexists; split; reflexivity|]. destruct (Z.ltb_spec (t_max (tx s ch)) (zlen p)); [left; eexists; split; reflexivity|]. cbn [orb].
  destruct (e_lim _ _ _ _ _ _ I ch) as (_ & L2 & _).
  destruct (reliable ch) eqn:Hrel.
  - apply reliable_rel in Hrel. destruct (e_tx _ _ _ _ _ _ I ch Hrel) as (O & L & G & T & F).
    pose proof (room_ok _ _ _ G) as Hroom. cbn zeta in Hroom. rewrite Hroom. clear Hroom.
    destruct (Z.leb_spec (t_win (tx s ch) - 1) (zlen (on ch S) - O)) as [|Hroom]; [left; eexists; split; reflexivity|]. right.
    destruct (taken_ok _ _ _ _ now p G T ltac:(lia) ltac:(lia)) as (c' & Et & G' & T' & F' & Hw & Hm & Ha).
    assert (E : forall {A} (k : txc -> res A), (do buf <- oset (t_buf (tx s ch)) (t_in (tx s ch)) (Some p);
        do tm <- aset (t_tr03 (tx s ch)) (t_in (tx s ch)) (now + t_tr03_to (tx s ch));
        do tr <- aset (t_tries (tx s ch)) (t_in (tx s ch)) (t_tries_max (tx s ch));
        do c <- add_last (t_setq (t_setbuf (tx s ch) (t_in (tx s ch)) (t_out (tx s ch)) buf tm tr) (Z.land (t_q (tx s ch) + 1) SEQ_MASK)) (t_in (tx s ch));
        k (t_setta02 (t_setbuf c (next_ptr (t_win c) (t_in (tx s ch))) (t_out c) (t_buf c) (t_tr03 c) (t_tries c)) (now + t_ta02_to (t_setbuf c (next_ptr (t_win c) (t_in (tx s ch))) (t_out c) (t_buf c) (t_tr03 c) (t_tries c)))))
        = do c <- taken (tx s ch) now p; k c).
    { intros A k. unfold taken. destruct (oset _ _ _); [|reflexivity]. cbn [rbind]. destruct (aset (t_tr03 _) _ _); [|reflexivity]. cbn [rbind]. destruct (aset (t_tries _) _ _); [|reflexivity]. cbn [rbind].
      destruct (add_last _ _); reflexivity. }
    rewrite (E _ (fun c => do (s, e) <- build_and_send (w_tx ch c s) ch (t_q (tx s ch)) p; Ok (s, e, 0))). clear E. rewrite Et. cbn [rbind].
    set (s0 := w_tx ch c' s). set (S' := S ++ [(ch, p)]).
    assert (Eon : forall c, on c S' = if c =? ch then on ch S ++ [p] else on c S).
    { intros c. unfold S'. rewrite on_app. unfold on at 2. cbn. rewrite (Z.eqb_sym ch c). destruct (Z.eqb_spec c ch) as [->|]; cbn; [reflexivity|apply app_nil_r]. }
    assert (I0 : EI S' P 0 b f s0).
    { destruct I as [TT RR AA LL]. constructor; auto.
      - intros c Hr. rewrite Eon. cbn. destruct (Z.eqb_spec c ch) as [->|]; [|apply TT; exact Hr]. exists O. eexists. split; [exact G'|]. split; [exact T'|]. intros Hf. apply F'. apply F. exact Hf.
      - intros c. cbn. destruct (Z.eqb_spec c ch) as [->|]; [|apply LL]. destruct (LL ch) as (A & B & C). rewrite Hm. auto. }
    destruct (build_ok S' P Zk U 0 b f s0 ch (t_q (tx s ch)) p I0 ltac:(lia) ltac:(lia)) as (s' & e & -> & I' & Sm & _ & _ & Ge & V).
    { right. left. split; [exact Hrel|]. exists (zlen (on ch S)). rewrite Eon, Z.eqb_refl, zlen_app. change (zlen [p]) with 1. split; [lia|]. split; [|apply znth_last].
      rewrite (g_q _ _ _ G). apply Z.mod_mod. lia. }
    cbn [rbind]. exists s0, s', e. split; [reflexivity|]. split; [exact Ge|]. split; [lia|]. split; [lia|]. repeat (split; [reflexivity|]).
    split. { intros c. cbn. destruct (Z.eqb_spec c ch) as [->|]; auto. }
    split. { intros c i Hr. rewrite Eon. cbn. destruct (Z.eqb_spec c ch) as [->|]; [|reflexivity]. rewrite zlen_app. change (zlen [p]) with 1. apply Ha. }
    split; [exact I'|]. split; [exact V|]. split; [apply (s_rx _ _ Sm)|apply (s_im _ _ Sm)].
  - right. assert (Hnr : ~ rel ch) by (intros X; apply reliable_rel in X; congruence).
    assert (I0 : EI (S ++ [(ch, p)]) P 0 b f s) by (apply EI_more; assumption).
    assert (Hacc : forall c i, rel c -> acked (tx s c) (zlen (on c (S ++ [(ch, p)]))) i <-> acked (tx s c) (zlen (on c S)) i).
    { intros c i Hr. rewrite on_app. unfold on at 2. cbn. destruct (Z.eqb_spec ch c) as [->|]; [contradiction|]. cbn. rewrite app_nil_r. reflexivity. }
    assert (HPf : forall q, payfact (S ++ [(ch, p)]) ch q p) by (intros q; right; right; split; [exact Hnr|apply in_or_app; right; left; reflexivity]).
    destruct (Z.eqb_spec ch 0) as [E0|E0].
    + destruct (build_ok _ P Zk U 0 b f s ch 0 p I0 ltac:(lia) ltac:(lia) (HPf _)) as (s' & e & -> & I' & Sm & _ & _ & Ge & V). cbn [rbind].
      exists s, s', e. split; [reflexivity|]. split; [exact Ge|]. split; [lia|]. split; [lia|]. repeat (split; [reflexivity|]). split; [auto|]. split; [exact Hacc|].
      split; [exact I'|]. split; [exact V|]. split; [apply (s_rx _ _ Sm)|apply (s_im _ _ Sm)].
    + destruct (build_ok _ P Zk U 0 b f s ch (t_q (tx s ch)) p I0 ltac:(lia) ltac:(lia) (HPf _)) as (s1 & e & -> & I1 & Sm & _ & _ & Ge & V). cbn [rbind].
      eexists s, _, e. split; [reflexivity|]. split; [exact Ge|]. split; [lia|]. split; [lia|]. repeat (split; [reflexivity|]). split; [auto|]. split; [exact Hacc|].
      split; [apply EI_tx; [exact I1|contradiction|apply (e_lim _ _ _ _ _ _ I1)]|].
      split. { intros N. rewrite <- (app_nil_r e). eapply evol_trans; [apply V|]. apply evol_tx; [split; reflexivity|reflexivity|reflexivity|contradiction]. }
      cbn. split; [apply (s_rx _ _ Sm)|apply (s_im _ _ Sm)].
Qed.
