(** The ADSI properties in their final form. *)
From Verif Require Import Base Crc_spec Adsi_model Adsi_spec Adsi_rx_proofs Adsi_line_proofs Adsi_tx_proofs Adsi_sess_proofs Adsi_deliver_proofs Adsi_field_proofs Adsi_jclip_proofs Adsi_dtmf_proofs Adsi_tdd_proofs.
From Coq Require Import ZifyBool ZifyNat.

(** ---- delivery ---- *)
Definition set_up (std pre ones post stop : Z) : tx := adsi_tx_set_preamble (adsi_tx_init std) pre ones post stop.
Lemma set_up_ready std pre ones post stop : fsk std -> let t := set_up std pre ones post stop in
  ready std (t_pre t) (t_ones t) (t_post t) (t_stop t) t.
Proof.
  intros Hs. cbv zeta. unfold ready, set_up.
  assert (std = CLASS \/ std = CLIP \/ std = ACLIP \/ std = JCLIP) as C by (unfold fsk, other in Hs; tauto).
  destruct C as [-> | [-> | [-> | ->]]]; repeat split; reflexivity.
Qed.
Lemma init_rest std : at_rest (adsi_rx_init std).
Proof. unfold at_rest. cbn. repeat split; lia. Qed.

Lemma delivery_fsk std pre ones post stop r ms : fsk std -> let t := set_up std pre ones post stop in
  good_amble (t_pre t) (t_ones t) (t_post t) (t_stop t) -> at_rest r -> r_std r = std -> 0 <= r_ferr r < 2 ^ 30 ->
  Forall (good std) ms ->
  exists n, forall fuel, (n <= fuel)%nat -> exists t' r', session fuel t r ms = Ok (t', r', map (sent std) ms).
Proof.
  intros Hs t Ha Hr Hrs Hf Hg. exists (fuel_for (t_pre t) (t_ones t) (t_post t)). intros fuel L.
  destruct (session_ok std (t_pre t) (t_ones t) (t_post t) (t_stop t) ms t r fuel (set_up_ready std pre ones post stop Hs) Hs Hg Ha Hr Hrs Hf L) as (t' & r' & E & _).
  exists t', r'. exact E.
Qed.
Lemma delivery_final std pre ones post stop r ms : (std = CLASS \/ std = CLIP \/ std = ACLIP) ->
  let t := adsi_tx_set_preamble (adsi_tx_init std) pre ones post stop in
  good_amble (t_pre t) (t_ones t) (t_post t) (t_stop t) -> at_rest r -> r_std r = std -> 0 <= r_ferr r < 2 ^ 30 ->
  Forall good_msg ms ->
  exists n, forall fuel, (n <= fuel)%nat -> exists t' r', session fuel t r ms = Ok (t', r', map with_length ms).
Proof.
  intros Hs t Ha Hr Hrs Hf Hg. pose proof (delivery_fsk std pre ones post stop r ms (or_introl Hs) Ha Hr Hrs Hf) as D.
  unfold good, sent in D. assert (E : (std =? JCLIP) = false) by (destruct Hs as [-> | [-> | ->]]; reflexivity). rewrite E in D. exact (D Hg).
Qed.
Lemma delivery_jclip pre ones post stop r ms :
  let t := adsi_tx_set_preamble (adsi_tx_init JCLIP) pre ones post stop in
  good_amble (t_pre t) (t_ones t) (t_post t) (t_stop t) -> at_rest r -> r_std r = JCLIP -> 0 <= r_ferr r < 2 ^ 30 ->
  Forall good_jmsg ms ->
  exists n, forall fuel, (n <= fuel)%nat -> exists t' r', session fuel t r ms = Ok (t', r', map jclip_frame ms).
Proof.
  intros t Ha Hr Hrs Hf Hg. exact (delivery_fsk JCLIP pre ones post stop r ms (or_intror eq_refl) Ha Hr Hrs Hf Hg).
Qed.

(** ---- calls ---- *)
Lemma call_one std buf call : fsk std -> carried std call -> (255 <= length buf)%nat ->
  exists m, (forall t, t_std t = std -> build t buf (fst call) (snd call) = Ok m) /\ good std m /\ parse std (sent std m) = Ok (Some (call_fields call)).
Proof.
  destruct call as [ty fs]. unfold carried, good, sent, call_fields. cbn [fst snd]. intros Hs Hc Lb. destruct (std =? JCLIP) eqn:E.
  - apply Z.eqb_eq in E. subst std. exists (ty :: 0 :: jfields fs). destruct (jclip_trip ty fs Hc) as (G & P). split; [|auto].
    intros t Ht. apply build_jclip; [exact Ht|exact Hc|]. destruct Hc as (_ & _ & _ & Hc & _). lia.
  - assert (Ho : other std) by (destruct Hs as [Hs | Hs]; [exact Hs|subst; discriminate]). destruct Hc as [Hc | Hc].
    + exists (ty :: 0 :: fields_bytes fs). destruct (mdmf_trip std ty fs Ho Hc) as (G & P). split; [|auto].
      intros t Ht. apply build_mdmf; [rewrite Ht; exact Ho|exact Hc|]. destruct Hc as (_ & _ & Hc). lia.
    + pose proof Hc as (H1 & body & -> & H2 & H3 & H4). exists (ty :: 0 :: body). destruct (sdmf_trip std ty body Ho Hc) as (G & P). split; [|auto].
      intros t Ht. apply build_sdmf; [rewrite Ht; exact Ho|exact Hc|]. lia.
Qed.
Lemma calls_final std pre ones post stop r buf calls :
  (std = CLASS \/ std = CLIP \/ std = ACLIP \/ std = JCLIP) ->
  let t := adsi_tx_set_preamble (adsi_tx_init std) pre ones post stop in
  good_amble (t_pre t) (t_ones t) (t_post t) (t_stop t) -> at_rest r -> r_std r = std -> 0 <= r_ferr r < 2 ^ 30 ->
  (255 <= length buf)%nat -> Forall (carried std) calls ->
  exists ms, map (fun c => build t buf (fst c) (snd c)) calls = map Ok ms /\
  exists n, forall fuel, (n <= fuel)%nat -> exists t' r' ds, session fuel t r ms = Ok (t', r', ds) /\
    map (parse std) ds = map (fun c => Ok (Some (call_fields c))) calls.
Proof.
  intros Hs t Ha Hr Hrs Hf Lb Hc. assert (Hs' : fsk std) by (unfold fsk, other; tauto).
  assert (Ht : t_std t = std) by (apply (set_up_ready std pre ones post stop Hs')).
  assert (M : exists ms, map (fun c => build t buf (fst c) (snd c)) calls = map Ok ms /\ Forall (good std) ms /\
    map (parse std) (map (sent std) ms) = map (fun c => Ok (Some (call_fields c))) calls).
  { induction Hc as [|c calls Hc Hcs IH]; [exists []; repeat split; constructor|]. destruct IH as (ms & I1 & I2 & I3).
    destruct (call_one std buf c Hs' Hc Lb) as (m & E1 & E2 & E3). exists (m :: ms). cbn [map]. rewrite (E1 t Ht), I1, E3, I3. repeat split. constructor; assumption. }
  destruct M as (ms & M1 & M2 & M3). exists ms. split; [exact M1|].
  destruct (delivery_fsk std pre ones post stop r ms Hs' Ha Hr Hrs Hf M2) as (n & D). exists n. intros fuel L.
  destruct (D fuel L) as (t' & r' & E). exists t', r', (map (sent std) ms). auto.
Qed.

(** ---- DTMF ---- *)
Lemma dtmf_final buf calls : (127 <= length buf)%nat -> Forall (fun c => dtmf (fst c) (snd c) /\ dtmf_size (snd c) <= 127) calls ->
  let t := adsi_tx_init CLIP_DTMF in
  exists ms, map (fun c => build t buf (fst c) (snd c)) calls = map Ok ms /\
    Forall (fun m => exists t', adsi_tx_put_message t m (Z.of_nat (length m)) = Ok (t', Z.of_nat (length m), m)) ms /\
    forall pieces, concat pieces = concat ms ->
      exists r', feed adsi_rx_dtmf (adsi_rx_init CLIP_DTMF) pieces = Ok (r', ms) /\
        map (parse CLIP_DTMF) ms = map (fun c => Ok (Some (call_fields c))) calls.
Proof.
  intros Lb Hc t. exists (map (fun c => dfields (snd c) ++ [fst c]) calls). split; [|split].
  - clear - Lb Hc. induction Hc as [|c calls (Hd & Hl) Hcs IH]; [reflexivity|]. cbn [map]. rewrite IH, build_dtmf by (try reflexivity; lia). reflexivity.
  - clear - Hc. induction Hc as [|c calls (Hd & Hl) Hcs IH]; [constructor|]. cbn [map]. constructor; [|exact IH].
    set (m := dfields (snd c) ++ [fst c]). assert (Lm : Z.of_nat (length m) <= 127) by (unfold m; rewrite app_length; cbn [length]; pose proof (dfields_length (snd c)); lia).
    unfold adsi_tx_put_message. change (t_len t) with 0. cbn [Z.ltb Z.compare]. change (t_std t =? CLIP_DTMF) with true. cbv iota.
    destruct (Z.leb_spec 128 (Z.of_nat (length m))); [lia|]. rewrite (buf_slice (length m) m m); [cbn [rbind]; eauto|].
    split; [reflexivity|]. split; [apply firstn_all|lia].
  - intros pieces E.
    assert (He : Forall ended (map (fun c => dfields (snd c) ++ [fst c]) calls)).
    { clear - Hc. induction Hc as [|c calls (Hd & Hl) Hcs IH]; [constructor|]. cbn [map]. constructor; [|exact IH]. apply dtmf_ended; [exact Hd|lia]. }
    destruct (cut_msgs _ He) as (C1 & C2). rewrite <- E in C1, C2.
    destruct (feed_dtmf pieces (adsi_rx_init CLIP_DTMF) []) as (r' & EF & _); [split; [apply (buf_nil (repeat 0 256))|reflexivity]|exact C2|].
    rewrite C1 in EF. cbn [fst] in EF. exists r'. split; [exact EF|].
    clear - Hc. induction Hc as [|c calls (Hd & Hl) Hcs IH]; [reflexivity|]. cbn [map]. rewrite IH, dtmf_trip by exact Hd. reflexivity.
Qed.

(** ---- taking messages to pieces ---- *)
Lemma skip_ok msg msg_len fuel : forall i, 0 <= i <= msg_len -> msg_len <= Z.of_nat (length msg) ->
  exists j, skip_digits fuel msg msg_len i = Ok j /\ i <= j <= msg_len.
Proof.
  induction fuel as [|k IH]; intros i Hi L; cbn [skip_digits]; [exists i; split; [reflexivity|lia]|].
  destruct (Z.ltb_spec i msg_len); [|exists i; split; [reflexivity|lia]]. rewrite aget_in by lia. cbn [rbind].
  destruct (digit _); [|exists i; split; [reflexivity|lia]]. destruct (IH (i + 1) ltac:(lia) L) as (j & -> & Hj). exists j. split; [reflexivity|lia].
Qed.
Lemma skip_first msg msg_len fuel i c : aget msg i = Ok c -> digit c = true -> 0 <= i < msg_len -> msg_len <= Z.of_nat (length msg) -> (0 < fuel)%nat ->
  exists j, skip_digits fuel msg msg_len i = Ok j /\ i < j <= msg_len.
Proof.
  intros G D H L F. destruct fuel as [|k]; [lia|]. cbn [skip_digits]. destruct (Z.ltb_spec i msg_len); [|lia]. rewrite G. cbn [rbind]. rewrite D.
  destruct (skip_ok msg msg_len k (i + 1) ltac:(lia) L) as (j & -> & Hj). exists j. split; [reflexivity|lia].
Qed.
Lemma byte_at msg i : bytes msg -> 0 <= i < Z.of_nat (length msg) -> exists c, aget msg i = Ok c /\ byte c.
Proof.
  intros B H. rewrite aget_in by lia. eexists. split; [reflexivity|]. apply (proj1 (Forall_forall _ _) B). apply nth_In. lia.
Qed.

Lemma next_final std msg msg_len pos : 1 <= std <= 6 -> bytes msg -> 1 <= msg_len -> msg_len + (if std =? JCLIP then 5 else 1) <= Z.of_nat (length msg) -> 0 <= pos ->
  exists f, adsi_next_field std msg msg_len pos = Ok f /\
    (f_ret f = -1 \/ f_ret f = -2 \/ (pos < f_ret f <= msg_len + 1 /\ (f_off f = -1 \/ (0 <= f_off f /\ 0 <= f_len f /\ f_off f + f_len f <= msg_len)))).
Proof.
  intros Hs B Hl Lm Hp. unfold adsi_next_field. assert (0 <= (if std =? JCLIP then 5 else 1)) by (destruct (std =? JCLIP); lia).
  destruct ((std =? CLASS) || (std =? CLIP) || (std =? ACLIP)) eqn:E1.
  { assert (E2 : (std =? JCLIP) = false) by (unfold CLASS, CLIP, ACLIP, JCLIP in *; lia). rewrite E2 in Lm.
    destruct (Z.leb_spec msg_len pos); [eexists; split; [reflexivity|left; reflexivity]|].
    destruct (byte_at msg 0 B ltac:(lia)) as (c0 & G0 & B0). rewrite G0. cbn [rbind].
    destruct (Z.leb_spec pos 0).
    - cbn [rbind]. eexists. split; [reflexivity|]. cbn [f_ret f_off f_len]. destruct (Z.ltb_spec msg_len 2); lia.
    - destruct (negb _).
      + destruct (byte_at msg pos B ltac:(lia)) as (c1 & -> & B1). destruct (byte_at msg (pos + 1) B ltac:(lia)) as (c2 & -> & B2). cbn [rbind].
        eexists. split; [reflexivity|]. cbn [f_ret f_off f_len]. unfold byte in *. destruct (Z.ltb_spec msg_len (pos + 2 + c2)); lia.
      + eexists. split; [reflexivity|]. cbn [f_ret f_off f_len]. destruct (Z.ltb_spec msg_len (pos + (msg_len - pos))); lia. }
  destruct (std =? JCLIP) eqn:E2.
  { destruct (Z.leb_spec (msg_len - 2) pos); [eexists; split; [reflexivity|left; reflexivity]|].
    destruct (Z.leb_spec pos 0).
    - destruct (byte_at msg 5 B ltac:(lia)) as (c0 & -> & B0). cbn [rbind]. set (p := if c0 =? DLE then 7 else 6). assert (6 <= p <= 7) by (unfold p; destruct (c0 =? DLE); lia).
      destruct (byte_at msg p B ltac:(lia)) as (c1 & -> & B1). cbn [rbind]. eexists. split; [reflexivity|]. cbn [f_ret f_off f_len].
      set (q := if c1 =? DLE then p + 2 else p + 1). assert (p < q) by (unfold q; destruct (c1 =? DLE); lia). destruct (Z.ltb_spec (msg_len - 2) q); lia.
    - destruct (byte_at msg pos B ltac:(lia)) as (c0 & -> & B0). cbn [rbind]. set (p := if c0 =? DLE then pos + 2 else pos + 1). assert (pos + 1 <= p <= pos + 2) by (unfold p; destruct (c0 =? DLE); lia).
      destruct (byte_at msg p B ltac:(lia)) as (c1 & -> & B1). cbn [rbind]. eexists. split; [reflexivity|]. cbn [f_ret f_off f_len].
      set (q := if c1 =? DLE then p + 2 else p + 1). assert (p < q) by (unfold q; destruct (c1 =? DLE); lia). unfold byte in *. destruct (Z.ltb_spec (msg_len - 2) (q + c1)); lia. }
  destruct (std =? CLIP_DTMF) eqn:E3.
  { destruct (Z.ltb_spec msg_len pos); [eexists; split; [reflexivity|left; reflexivity]|].
    destruct (Z.leb_spec pos 0).
    - destruct (byte_at msg (msg_len - 1) B ltac:(lia)) as (c0 & -> & B0). cbn [rbind]. eexists. split; [reflexivity|]. cbn [f_ret f_off f_len]. lia.
    - destruct (byte_at msg (pos - 1) B ltac:(lia)) as (c0 & G0 & B0). rewrite G0. cbn [rbind].
      assert (S : exists j, skip_digits (Z.to_nat (msg_len - (if digit c0 then pos - 1 else pos - 1 + 1))) msg msg_len (if digit c0 then pos - 1 else pos - 1 + 1) = Ok j /\ pos <= j <= msg_len).
      { destruct (digit c0) eqn:D.
        - destruct (skip_first msg msg_len (Z.to_nat (msg_len - (pos - 1))) (pos - 1) c0 G0 D ltac:(lia) ltac:(lia) ltac:(lia)) as (j & E & Hj). exists j. split; [exact E|lia].
        - destruct (skip_ok msg msg_len (Z.to_nat (msg_len - (pos - 1 + 1))) (pos - 1 + 1) ltac:(lia) ltac:(lia)) as (j & E & Hj). exists j. split; [exact E|lia]. }
      destruct S as (j & -> & Hj). cbn [rbind]. destruct (byte_at msg j B ltac:(lia)) as (c1 & -> & B1). cbn [rbind]. eexists. split; [reflexivity|]. cbn [f_ret f_off f_len].
      set (q := if (c1 =? 35) || (c1 =? 67) then j + 1 else j). assert (j <= q <= j + 1) by (unfold q; clear; destruct ((c1 =? 35) || (c1 =? 67))%bool; lia).
      destruct (Z.ltb_spec msg_len q); [right; left; reflexivity|]. right; right. split; [lia|]. right. destruct (digit c0); lia. }
  assert (E4 : (std =? TDD) = true) by (unfold CLASS, CLIP, ACLIP, JCLIP, CLIP_DTMF, TDD in *; lia). rewrite E4.
  destruct (Z.leb_spec msg_len pos); [eexists; split; [reflexivity|left; reflexivity]|]. eexists. split; [reflexivity|]. cbn [f_ret f_off f_len]. lia.
Qed.

(** ---- TDD ---- *)
Lemma tdd_rx_final l : exists s' e, feed adsi_tdd_put_async_byte (adsi_rx_init TDD) l = Ok (s', e) /\ Forall (fun x => (1 <= length x <= 256)%nat) e.
Proof.
  destruct (tdd_safe l (adsi_rx_init TDD) 0 []) as (s' & e & b' & m' & E & _ & _ & _ & V); [left; reflexivity|repeat split; cbn; lia|cbn; lia|]. eauto.
Qed.

(** ---- where it goes wrong ---- *)
Lemma eighteen_lost : trip JCLIP [eighteen] = Ok [] /\ length eighteen = 18%nat.
Proof. vm_compute. auto. Qed.
Lemma sixteen_lost :
  (call CLASS 0x80 [(7, sixteen)] = UB \/ call CLASS 0x80 [(7, sixteen)] = Ok None) /\
  call CLASS 0x80 [(7, sixteen); (2, [0x31; 0x32])] <> Ok (Some [(0x80, []); (7, sixteen); (2, [0x31; 0x32])]) /\
  call JCLIP 0x40 [(2, [0x31; 0x10; 0x32])] <> Ok (Some [(0x40, []); (2, [0x31; 0x10; 0x32])]).
Proof. split; [vm_compute; auto|]. split; vm_compute; discriminate. Qed.
Lemma next_beyond :
  trip CLASS [[0x80; 0; 2]] = Ok [[0x80; 1; 2]] /\ adsi_next_field CLASS [0x80; 1; 2] 3 2 = UB /\
  (forall x, byte x -> exists f, adsi_next_field CLASS [0x80; 1; 2; x] 3 2 = Ok f /\ f_len f = x) /\
  adsi_next_field CLIP_DTMF [65; 49] 2 1 = UB /\ adsi_next_field JCLIP [0x10; 1; 7] 3 0 = UB /\
  (forall mem, adsi_next_field CLIP_DTMF mem 0 0 = UB).
Proof.
  split; [vm_compute; reflexivity|]. split; [reflexivity|]. split; [|split; [reflexivity|split; reflexivity]].
  intros x _. eexists. split; reflexivity.
Qed.
Lemma tdd_garbled :
  talk [[65; 49]; [49; 50]] = Ok [[65; 49]; [81; 87]] /\
  (forall t buf len c, t_std t = TDD -> 128 <= c -> adsi_add_field t buf len 0 [c] = UB).
Proof.
  split; [vm_compute; reflexivity|]. intros t buf len c Ht Hc. unfold adsi_add_field. rewrite Ht. cbn [put_baudot].
  change ((TDD =? CLASS) || (TDD =? CLIP) || (TDD =? ACLIP)) with false. change (TDD =? JCLIP) with false. change (TDD =? CLIP_DTMF) with false. change (TDD =? TDD) with true. cbv iota.
  unfold adsi_encode_baudot. replace (aget baudot_conv c) with (@UB Z); [reflexivity|].
  unfold aget. replace (in_bounds baudot_conv c) with false; [reflexivity|].
  unfold in_bounds. change (Z.of_nat (length baudot_conv)) with 128. lia.
Qed.
