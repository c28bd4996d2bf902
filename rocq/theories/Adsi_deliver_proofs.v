(** ADSI messages are delivered. *)
From Verif Require Import Base Crc_spec Crc_model Crc_proofs Adsi_model Adsi_spec Adsi_rx_proofs Adsi_line_proofs Adsi_tx_proofs Adsi_sess_proofs.
From Coq Require Import ZifyBool ZifyNat.

(** A transmitter ready for a message. *)
Definition ready (std pre ones post stop : Z) (t : tx) : Prop :=
  t_std t = std /\ t_len t = 0 /\ length (t_msg t) = 256%nat /\ t_pre t = pre /\ t_ones t = ones /\ t_post t = post /\ t_stop t = stop.

Lemma upd_app_mid (a : list Z) x b y : upd (a ++ x :: b) (length a) y = a ++ y :: b.
Proof. induction a as [|z a IH]; cbn; [reflexivity|]. rewrite IH; reflexivity. Qed.

Lemma with_length_length m : length (with_length m) = length m.
Proof. destruct m as [|a [|b t]]; reflexivity. Qed.
Lemma with_length_bytes m : bytes m -> Z.of_nat (length m) <= 255 -> bytes (with_length m).
Proof.
  intros H L. destruct m as [|a [|b t]]; auto. inversion H as [|? ? Ha H1]; subst. inversion H1; subst. cbn [length] in L.
  constructor; [exact Ha|]. constructor; [unfold byte; lia|assumption].
Qed.
Lemma with_length_nth m : (2 <= length m)%nat -> nth 1 (with_length m) 0 = Z.of_nat (length (with_length m)) - 2.
Proof. destruct m as [|a [|b t]]; cbn [length with_length nth]; lia. Qed.

Definition other (std : Z) : Prop := std = CLASS \/ std = CLIP \/ std = ACLIP.
Definition octets (std : Z) (m : list Z) : list Z :=
  if std =? JCLIP then
    let f := map with_parity (jclip_frame m) in
    let c := crc16 (skipn 2 f) 0 in f ++ [c mod 256; c / 256]
  else with_length m ++ [(- total (with_length m)) mod 256].
Definition sent (std : Z) (m : list Z) : list Z := if std =? JCLIP then jclip_frame m else with_length m.
Definition good (std : Z) (m : list Z) : Prop := if std =? JCLIP then good_jmsg m else good_msg m.

Lemma ready_on std pre ones post stop t : ready std pre ones post stop t -> std <> TDD ->
  (if t_on t then t else start_tx t) = mkTx std true (t_byte_no t) (t_bit_pos t) (t_bit_no t) (t_msg t) 0 pre ones post stop (t_shift t).
Proof.
  intros (H1 & H2 & H3 & H4 & H5 & H6 & H7) Hn. destruct t; cbn in *; subst. destruct t_on.
  - reflexivity.
  - unfold start_tx, set_t_on, set_t_shift; cbn. destruct (Z.eqb_spec std TDD); [contradiction|]. reflexivity.
Qed.

Lemma put_other std pre ones post stop t m : ready std pre ones post stop t -> other std -> good_msg m ->
  exists msg, adsi_tx_put_message t m (Z.of_nat (length m)) =
    Ok (T std msg (Z.of_nat (length m) + 1) pre ones post stop (t_shift t) 0 0 0, Z.of_nat (length m), []) /\
    length msg = 256%nat /\ firstn (length m + 1) msg = octets std m.
Proof.
  intros Hr Hs (Hb & L1 & L2). unfold adsi_tx_put_message.
  pose proof (ready_on _ _ _ _ _ _ Hr ltac:(unfold other, CLASS, CLIP, ACLIP, TDD in *; lia)) as Eon.
  destruct Hr as (H1 & H2 & H3 & H4 & H5 & H6 & H7). rewrite H1, H2, Eon. cbn [Z.ltb Z.compare t_msg].
  assert (S5 : std =? CLIP_DTMF = false) by (unfold other, CLASS, CLIP, ACLIP, CLIP_DTMF in *; lia).
  assert (S4 : std =? JCLIP = false) by (unfold other, CLASS, CLIP, ACLIP, JCLIP in *; lia).
  assert (S6 : std =? TDD = false) by (unfold other, CLASS, CLIP, ACLIP, TDD in *; lia).
  rewrite S5, S4, S6. destruct (Z.ltb_spec 255 (Z.of_nat (length m))); [lia|]. destruct (Z.ltb_spec (Z.of_nat (length m)) 0); [lia|].
  rewrite aslice_ok by lia. cbn [rbind]. rewrite Nat2Z.id. change (skipn (Z.to_nat 0) m) with m. rewrite firstn_all.
  rewrite ablit_ok by lia. cbn [rbind]. change (firstn (Z.to_nat 0) (t_msg t)) with (@nil Z). cbn [app].
  change (Z.to_nat 0 + length m)%nat with (length m). set (rest := skipn (length m) (t_msg t)).
  assert (Lr : length rest = (256 - length m)%nat) by (unfold rest; rewrite skipn_length; lia).
  destruct m as [|a [|b m]]; [cbn in L1; lia|cbn in L1; lia|].
  rewrite aset_in by (rewrite app_length; cbn [length]; lia). cbn [rbind]. change (Z.to_nat 1) with 1%nat. cbn [upd app].
  set (w := with_length (a :: b :: m)).
  assert (Ew : a :: u8 (Z.of_nat (length (a :: b :: m)) - 2) :: m ++ rest = w ++ rest).
  { unfold w, with_length. cbn [length app]. unfold u8. rewrite Z.mod_small by (cbn [length] in *; lia). do 2 f_equal. lia. }
  assert (Lw : length w = length (a :: b :: m)) by reflexivity.
  rewrite Ew. rewrite aslice_ok by (rewrite ?app_length; cbn [length] in *; lia). cbn [rbind].
  rewrite Nat2Z.id, <- Lw. change (skipn (Z.to_nat 0) (w ++ rest)) with (w ++ rest).
  rewrite firstn_app, Nat.sub_diag, firstn_all. cbn [firstn]. rewrite app_nil_r.
  clearbody rest. destruct rest as [|x rest]; [cbn [length] in *; lia|].
  rewrite aset_in by (rewrite app_length; cbn [length] in *; lia). cbn [rbind]. rewrite Nat2Z.id, upd_app_mid.
  exists (w ++ u8 (Z.land (- sum_list w) 255) :: rest). split; [reflexivity|]. split; [rewrite app_length; cbn [length] in *; lia|].
  unfold octets. rewrite S4. fold w. rewrite land_ff_mod, sum_total. unfold u8.
  rewrite (Z.mod_small ((- total w) mod 256)) by (Z.div_mod_to_equations; lia).
  rewrite firstn_app. replace (length w + 1 - length w)%nat with 1%nat by lia. rewrite firstn_all2 by lia. reflexivity.
Qed.

Lemma parity_sweep : all_below_from 128 0 (fun b => (with_parity b mod 128 =? b) && is_byte (with_parity b)) = true.
Proof. vm_compute. reflexivity. Qed.
Lemma parity_ok b : seven b -> with_parity b mod 128 = b /\ byte (with_parity b).
Proof.
  intros H. pose proof (sweep 128 _ parity_sweep b H) as E. cbv beta in E. apply andb_true_iff in E as [E1 E2].
  unfold is_byte in E2. unfold byte. lia.
Qed.
Lemma strip_parity l : Forall seven l -> strip (map with_parity l) = l.
Proof.
  induction 1 as [|b l Hb Hl IH]; [reflexivity|]. change (with_parity b mod 128 :: strip (map with_parity l) = b :: l). rewrite IH. f_equal. apply parity_ok, Hb.
Qed.
Lemma parity_bytes l : Forall seven l -> bytes (map with_parity l).
Proof. induction 1 as [|b l Hb Hl IH]; cbn [map]; constructor; auto. apply parity_ok, Hb. Qed.
Lemma frame_seven m : good_jmsg m -> Forall seven (jclip_frame m).
Proof.
  intros (H & L1 & L2 & L3). destruct m as [|a [|b t]]; [cbn in L1; lia|cbn in L1; lia|].
  inversion H as [|? ? Ha H1]; subst. inversion H1; subst. cbn [length] in L2. unfold jclip_frame. cbn [app].
  repeat (constructor; [first [assumption | unfold seven; lia]|]). apply Forall_app; split; [assumption|].
  repeat (constructor; [unfold seven; lia|]). constructor.
Qed.
Lemma residue0 l : crc16 (l ++ [crc16 l 0 mod 256; crc16 l 0 / 256]) 0 = 0.
Proof.
  pose proof (crc16_wf l 0 ltac:(lia)) as H. unfold crc16 at 1. rewrite wire_app, run_app. fold (crc16 l 0).
  replace (wire [crc16 l 0 mod 256; crc16 l 0 / 256]) with (bits_lsb 16 (crc16 l 0)).
  2: { rewrite (bits_lsb_split 8). cbn [wire flat_map]. rewrite app_nil_r. reflexivity. }
  rewrite (run_xor crc16_poly 15 poly16_ok) by exact H. rewrite Z.lxor_nilpotent. reflexivity.
Qed.

Lemma put_jclip pre ones post stop t m : ready JCLIP pre ones post stop t -> good_jmsg m ->
  exists msg, adsi_tx_put_message t m (Z.of_nat (length m)) =
    Ok (T JCLIP msg (Z.of_nat (length (octets JCLIP m))) pre ones post stop (t_shift t) 0 0 0, Z.of_nat (length m), []) /\
    length msg = 256%nat /\ firstn (length (octets JCLIP m)) msg = octets JCLIP m.
Proof.
  intros Hr Hg. pose proof (frame_seven m Hg) as Hf. destruct Hg as (Hb & L1 & L2 & L3). unfold adsi_tx_put_message.
  pose proof (ready_on _ _ _ _ _ _ Hr ltac:(discriminate)) as Eon.
  destruct Hr as (H1 & H2 & H3 & H4 & H5 & H6 & H7). rewrite H1, H2, Eon. cbn [Z.ltb Z.compare t_msg].
  change (JCLIP =? CLIP_DTMF) with false. change (JCLIP =? JCLIP) with true. cbv iota.
  destruct (Z.ltb_spec (128 - 9) (Z.of_nat (length m))); [lia|]. destruct (Z.ltb_spec (Z.of_nat (length m)) 2); [lia|].
  rewrite aget_in by lia. cbn [rbind]. rewrite aslice_ok by lia. cbn [rbind].
  destruct m as [|a [|b m]]; [cbn in L1; lia|cbn in L1; lia|].
  change (nth (Z.to_nat 0) (a :: b :: m) 0) with a. change (skipn (Z.to_nat 2) (a :: b :: m)) with m.
  replace (Z.to_nat (Z.of_nat (length (a :: b :: m)) - 2)) with (length m) by (cbn [length]; lia). rewrite firstn_all.
  replace (Z.of_nat (length (a :: b :: m)) - 2) with (Z.of_nat (length m)) by (cbn [length]; lia).
  destruct (Z.eqb_spec (Z.of_nat (length m)) DLE) as [E|E]; [unfold DLE in E; cbn [length] in *; lia|].
  replace (u8 (Z.of_nat (length m))) with (Z.of_nat (length m)) by (unfold u8; rewrite Z.mod_small by (cbn [length] in *; lia); reflexivity).
  set (f := map with_parity (jclip_frame (a :: b :: m))) in *.
  change (map with_parity ([DLE; SOH; 7; DLE; STX; a; Z.of_nat (length m)] ++ [] ++ m ++ [DLE; ETX])) with f.
  assert (Bf : bytes f) by (apply parity_bytes; exact Hf).
  assert (Bf2 : bytes (skipn 2 f)) by (rewrite <- (firstn_skipn 2 f) in Bf; apply Forall_app in Bf; tauto).
  unfold crc_itu16_calc. rewrite calc16 by exact Bf2. pose proof (crc16_wf (skipn 2 f) 0 ltac:(lia)) as Hc. set (c := crc16 (skipn 2 f) 0) in *.
  assert (Ec : [u8 (Z.land c 0xFF); u8 (Z.land (Z.shiftr c 8) 0xFF)] = [c mod 256; c / 256]).
  { rewrite !land_ff_mod. unfold u8. rewrite Z.shiftr_div_pow2 by lia. change (2 ^ 8) with 256. change (2 ^ 16) with 65536 in Hc.
    rewrite !Z.mod_mod by lia. rewrite (Z.mod_small (c / 256)) by (Z.div_mod_to_equations; lia). reflexivity. }
  rewrite Ec.
  assert (Eo : f ++ [c mod 256; c / 256] = octets JCLIP (a :: b :: m)) by reflexivity. rewrite Eo.
  assert (Lo : length (octets JCLIP (a :: b :: m)) = (length m + 11)%nat).
  { rewrite <- Eo, app_length. unfold f. rewrite map_length. unfold jclip_frame. rewrite !app_length. cbn [length]. lia. }
  rewrite ablit_ok by (cbn [length] in *; lia). cbn [rbind]. change (firstn (Z.to_nat 0) (t_msg t)) with (@nil Z). cbn [app].
  eexists (_ ++ skipn _ (t_msg t)). split; [reflexivity|]. split.
  - rewrite app_length, skipn_length. cbn [length] in *. change (Z.to_nat 0) with 0%nat. lia.
  - rewrite firstn_app, Nat.sub_diag, firstn_all. cbn [firstn]. rewrite app_nil_r. reflexivity.
Qed.

Definition fsk (std : Z) : Prop := other std \/ std = JCLIP.

Lemma octets_facts std m : fsk std -> good std m ->
  bytes (octets std m) /\ octets std m <> [] /\ (length (octets std m) <= 256)%nat /\ gaths std [] (octets std m) = ([], [sent std m]).
Proof.
  intros Hs Hg. unfold good, octets, sent in *. destruct (std =? JCLIP) eqn:Es.
  - pose proof (frame_seven m Hg) as Hf. pose proof (parity_bytes _ Hf) as Bf. pose proof (strip_parity _ Hf) as Sf.
    destruct Hg as (Hb & L1 & L2 & L3).
    assert (Lf : length (map with_parity (jclip_frame m)) = (length m + 7)%nat).
    { destruct m as [|a [|b m]]; [cbn in L1; lia|cbn in L1; lia|]. rewrite map_length. unfold jclip_frame. rewrite !app_length. cbn [length]. lia. }
    assert (N0 : nth 0 (map with_parity (jclip_frame m)) 0 = 0x90).
    { destruct m as [|a [|b m]]; [cbn in L1; lia|cbn in L1; lia|]. reflexivity. }
    assert (N6 : nth 6 (map with_parity (jclip_frame m)) 0 mod 128 = Z.of_nat (length m) - 2).
    { destruct m as [|a [|b m]]; [cbn in L1; lia|cbn in L1; lia|]. unfold jclip_frame. cbn [app map nth].
      cbn [length] in *. destruct (parity_ok (Z.of_nat (length m))) as [-> _]; [unfold seven; lia|lia]. }
    set (f := map with_parity (jclip_frame m)) in *. set (c := crc16 (skipn 2 f) 0).
    pose proof (crc16_wf (skipn 2 f) 0 ltac:(lia)) as Hc. fold c in Hc. change (2 ^ 16) with 65536 in Hc.
    assert (Lo : length (f ++ [c mod 256; c / 256]) = (length m + 9)%nat) by (rewrite app_length; cbn [length]; lia).
    split; [|split; [|split]].
    + apply Forall_app; split; [exact Bf|]. constructor; [unfold byte; Z.div_mod_to_equations; lia|].
      constructor; [unfold byte; Z.div_mod_to_equations; lia|constructor].
    + destruct f; discriminate.
    + lia.
    + apply Z.eqb_eq in Es. subst std. apply gaths_jmsg.
      * rewrite app_nth1 by lia. exact N0.
      * lia.
      * lia.
      * rewrite app_nth1 by lia. rewrite N6. lia.
      * rewrite skipn_app. replace (2 - length f)%nat with 0%nat by lia. cbn [skipn]. apply residue0.
      * rewrite Lo. replace (length m + 9 - 2)%nat with (length f) by lia.
        rewrite firstn_app, Nat.sub_diag, firstn_all. cbn [firstn]. rewrite app_nil_r. exact Sf.
  - destruct Hg as (Hb & L1 & L2). pose proof (with_length_length m) as Lw. split; [|split; [|split]].
    + apply Forall_app; split; [apply with_length_bytes; auto|]. constructor; [unfold byte; Z.div_mod_to_equations; lia|constructor].
    + destruct (with_length m); discriminate.
    + rewrite app_length; cbn [length]; lia.
    + apply gaths_msg; auto; try lia. apply with_length_nth; lia.
Qed.

Lemma put_ok std pre ones post stop t m : ready std pre ones post stop t -> fsk std -> good std m ->
  exists msg, adsi_tx_put_message t m (Z.of_nat (length m)) =
    Ok (T std msg (Z.of_nat (length (octets std m))) pre ones post stop (t_shift t) 0 0 0, Z.of_nat (length m), []) /\
    length msg = 256%nat /\ firstn (length (octets std m)) msg = octets std m.
Proof.
  intros Hr [Ho | ->] Hg.
  - unfold good in Hg. assert (S4 : std =? JCLIP = false) by (unfold other, CLASS, CLIP, ACLIP, JCLIP in *; lia). rewrite S4 in Hg.
    destruct (put_other _ _ _ _ _ _ _ Hr Ho Hg) as (msg & E & L & F).
    assert (Lo : length (octets std m) = (length m + 1)%nat).
    { unfold octets. rewrite S4, app_length, with_length_length. reflexivity. }
    exists msg. rewrite Lo. split; [|auto]. rewrite E. do 4 f_equal. lia.
  - apply put_jclip; auto.
Qed.

Lemma alt_length n : forall b, length (alt b n) = n.
Proof. induction n; intros; cbn; auto. Qed.
Lemma chrs_length stop f : (length (flat_map (chr stop) f) <= length f * (9 + stops stop))%nat.
Proof.
  induction f as [|b f IH]; [cbn; lia|]. cbn [flat_map]. rewrite app_length. unfold chr at 1.
  cbn [length]. rewrite app_length, bits_lsb_length, repeat_length. lia.
Qed.
Definition fuel_for (pre ones post : Z) : nat := Z.to_nat (pre + ones + post + 6000).

Lemma deliver_one std pre ones post stop t r m fuel : ready std pre ones post stop t -> fsk std -> good std m ->
  good_amble pre ones post stop -> at_rest r -> r_std r = std -> 0 <= r_ferr r < 2 ^ 30 -> (fuel_for pre ones post <= fuel)%nat ->
  exists t1 t2 l r', adsi_tx_put_message t m (Z.of_nat (length m)) = Ok (t1, Z.of_nat (length m), []) /\
    line fuel t1 = Ok (t2, l) /\ feed adsi_rx_put_bit r l = Ok (r', [sent std m]) /\
    ready std pre ones post stop t2 /\ at_rest r' /\ r_std r' = std /\ r_ferr r' = r_ferr r.
Proof.
  intros Hr Hs Hg (A1 & A2 & A3 & A4 & A5 & A6 & A7) Hrest Hrs Hfe Hfuel.
  destruct (put_ok _ _ _ _ _ _ _ Hr Hs Hg) as (msg & E & Lm & F).
  destruct (octets_facts std m Hs Hg) as (Bo & No & Lo & Go). set (f := octets std m) in *.
  assert (L1 : (1 <= length f)%nat) by (destruct f; [congruence|cbn; lia]).
  pose (sg := signal msg (Z.of_nat (length f)) pre ones post stop).
  assert (Esg : sg = alt false (Z.to_nat pre) ++ repeat true (Z.to_nat ones) ++ flat_map (chr stop) f ++ repeat true (Z.to_nat post)).
  { unfold sg, signal. rewrite Nat2Z.id, F. reflexivity. }
  assert (Lsg : (length sg <= Z.to_nat (pre + ones + post + 5120))%nat).
  { rewrite Esg, !app_length, alt_length, !repeat_length. pose proof (chrs_length stop f) as C.
    unfold stops in C. assert (length f * (9 + Z.to_nat (Z.max 1 stop)) <= 256 * 20)%nat by (apply Nat.mul_le_mono; lia). lia. }
  assert (EL : line fuel (T std msg (Z.of_nat (length f)) pre ones post stop (t_shift t) 0 0 0) =
     Ok (mkTx std false (Z.of_nat (length f)) 0 (pre + ones + post + 1) msg 0 pre ones post stop (t_shift t), map Z.b2z sg)).
  { apply line_ok; try lia. fold sg. unfold fuel_for in Hfuel. lia. }
  pose proof (sim_rest r Hrest ltac:(lia)) as S. destruct Hrest as (_ & _ & _ & _ & Ro).
  destruct (feed_ok sg r _ S) as (r' & EF & S' & K1 & K2 & K3); [cbn [g_ones]; lia|cbn [g_ferr]; lia|].
  assert (ST : exists o', steps std (mkSt [] None (r_ones r) (r_ferr r)) sg = (mkSt [] None o' (r_ferr r), [sent std m]) /\ 0 <= o' < 2 ^ 30).
  { rewrite Esg, app_assoc, steps_app.
    destruct (steps_pre std (Z.to_nat pre) (Z.to_nat ones) (r_ones r) (r_ferr r)) as (p & o1 & -> & Hp & Ho1); [lia|lia|].
    rewrite steps_app. destruct (steps_chrs0 std stop f Bo No A5 p o1 (r_ferr r) Ho1 Hp) as (o2 & -> & Ho2). rewrite Go. cbn [fst snd].
    rewrite steps_ones. eexists; split; [reflexivity|]. lia. }
  destruct ST as (o' & ST & Ho'). rewrite Hrs in *. rewrite ST in *. cbn [fst snd] in *.
  eexists _, _, _, r'. split; [exact E|]. split; [exact EL|]. split; [exact EF|].
  split; [unfold ready; cbn; auto 10|]. destruct S' as ((Q1 & Q2 & Q3 & Q4) & (Q5 & Q5') & Q6 & Q7 & Q8). cbn [g_p g_cur g_ones g_ferr length] in *.
  split; [unfold at_rest; destruct Q8; rewrite Q6; auto 10|]. auto.
Qed.

Lemma session_ok std pre ones post stop ms : forall t r fuel, ready std pre ones post stop t -> fsk std -> Forall (good std) ms ->
  good_amble pre ones post stop -> at_rest r -> r_std r = std -> 0 <= r_ferr r < 2 ^ 30 -> (fuel_for pre ones post <= fuel)%nat ->
  exists t' r', session fuel t r ms = Ok (t', r', map (sent std) ms) /\ ready std pre ones post stop t' /\ at_rest r'.
Proof.
  induction ms as [|m ms IH]; intros t r fuel Hr Hs Hg Ha Hrest Hrs Hfe Hfuel; cbn [session map].
  - exists t, r. auto.
  - inversion Hg as [|? ? Hg1 Hg2]; subst.
    destruct (deliver_one _ _ _ _ _ t r m fuel Hr Hs Hg1 Ha Hrest eq_refl Hfe Hfuel) as (t1 & t2 & l & r1 & E1 & E2 & E3 & R1 & R2 & R3 & R4).
    rewrite E1. cbn [rbind]. rewrite Z.eqb_refl. cbn [negb]. rewrite E2. cbn [rbind]. rewrite E3. cbn [rbind].
    destruct (IH t2 r1 fuel R1 Hs Hg2 Ha R2 R3 ltac:(lia) Hfuel) as (t' & r' & E & X1 & X2). rewrite E. cbn [rbind].
    exists t', r'. auto.
Qed.
