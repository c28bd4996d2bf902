(** Fields of single data, J-CLIP and DTMF messages. *)
From Verif Require Import Base Crc_spec Crc_model Crc_proofs Adsi_model Adsi_spec Adsi_rx_proofs Adsi_line_proofs Adsi_tx_proofs Adsi_sess_proofs Adsi_deliver_proofs Adsi_field_proofs.
From Coq Require Import ZifyBool ZifyNat.

(** ---- single data messages ---- *)
Lemma build_sdmf t buf ty body : other (t_std t) -> sdmf ty [(0, body)] -> 2 + Z.of_nat (length body) <= Z.of_nat (length buf) ->
  build t buf ty [(0, body)] = Ok (ty :: 0 :: body).
Proof.
  intros Ho _ L. unfold build. cbn [add_fields].
  destruct (start_msg t buf ty (or_introl Ho) ltac:(lia)) as (b1 & -> & B1). cbn [rbind].
  unfold adsi_add_field. rewrite (ty_facts _ Ho). cbn [Z.leb Z.compare Z.eqb negb].
  destruct (buf_puts _ b1 [ty; 0] body B1) as (b2 & E2 & B2); [cbn [length]; lia|].
  change (Z.of_nat (length [ty; 0])) with 2 in E2. rewrite E2. cbn [rbind].
  replace (2 + Z.of_nat (length body)) with (Z.of_nat (length ([ty; 0] ++ body))) by (rewrite app_length; cbn [length]; lia).
  apply (buf_slice _ _ _ B2).
Qed.
Lemma sdmf_trip std ty body : other std -> sdmf ty [(0, body)] ->
  good_msg (ty :: 0 :: body) /\ parse std (with_length (ty :: 0 :: body)) = Ok (Some [(ty, []); (0, body)]).
Proof.
  intros Ho (H1 & b' & E & H2 & H3 & H4). inversion E; subst b'. clear E. split.
  - split; [|cbn [length]; lia]. constructor; [unfold byte; lia|]. constructor; [unfold byte; lia|exact H2].
  - unfold parse. cbn [with_length]. set (n := Z.of_nat (length body)).
    assert (Lb : (1 <= length body)%nat) by (destruct body; [congruence|cbn; lia]).
    remember (ty :: n :: body) as msg eqn:Em.
    assert (Lm : length msg = (2 + length body)%nat) by (rewrite Em; reflexivity).
    assert (A0 : aget msg 0 = Ok ty) by (rewrite Em; reflexivity).
    cbn [parse_from]. unfold adsi_next_field. rewrite (ty_facts _ Ho).
    destruct (Z.leb_spec (Z.of_nat (length msg)) 0); [lia|]. cbn [Z.leb Z.compare].
    rewrite A0. cbn [rbind f_ret f_off f_type f_len]. destruct (Z.ltb_spec (Z.of_nat (length msg)) 2); [lia|].
    cbn [Z.eqb Z.ltb Z.leb Z.compare rbind Pos.eqb f_ret f_off f_type f_len].
    destruct (Z.leb_spec (Z.of_nat (length msg)) 2); [lia|].
    assert (M : Z.land ty 0x80 = 0).
    { apply Z.bits_inj'. intros i Hi. rewrite Z.land_spec, Z.bits_0. change 128 with (2 ^ 7). rewrite Z.pow2_bits_eqb by lia.
      destruct (Z.eqb_spec 7 i); [|apply andb_false_r]. subst i. rewrite andb_true_r. rewrite Z.testbit_false by lia. change (2 ^ 7) with 128.
      rewrite Z.div_small by lia. reflexivity. }
    rewrite M. cbn [Z.eqb negb rbind f_ret f_off f_type f_len].
    replace (2 + (Z.of_nat (length msg) - 2)) with (Z.of_nat (length msg)) by lia. rewrite Z.ltb_irrefl.
    destruct (Z.eqb_spec (Z.of_nat (length msg)) (-1)); [lia|]. destruct (Z.ltb_spec (Z.of_nat (length msg)) 0); [lia|].
    replace (aslice msg 2 (Z.of_nat (length msg) - 2)) with (Ok body).
    2: { symmetry. rewrite aslice_ok by lia. rewrite Em at 2. change (skipn (Z.to_nat 2) (ty :: n :: body)) with body.
         replace (Z.to_nat (Z.of_nat (length msg) - 2)) with (length body) by lia. rewrite firstn_all. reflexivity. }
    cbn [rbind]. destruct (length msg) as [|k] eqn:Ek; [lia|].
    cbn [parse_from]. unfold adsi_next_field. rewrite (ty_facts _ Ho). rewrite Ek, Z.leb_refl. reflexivity.
Qed.

(** ---- J-CLIP ---- *)
Definition dbl (x : Z) : list Z := if x =? 16 then [16; 16] else [x].
Definition jbytes (f : Z * list Z) : list Z := dbl (fst f) ++ dbl (Z.of_nat (length (snd f))) ++ snd f.
Definition jfields (fs : list (Z * list Z)) : list Z := flat_map jbytes fs.
Lemma dbl_length x : Z.of_nat (length (dbl x)) = if x =? 16 then 2 else 1.
Proof. unfold dbl. destruct (x =? 16); reflexivity. Qed.
Lemma jfields_length fs : Z.of_nat (length (jfields fs)) = jclip_size fs.
Proof.
  induction fs as [|[t b] fs IH]; [reflexivity|]. unfold jfields in *. cbn [flat_map jclip_size fold_right fst snd]. unfold jbytes at 1.
  rewrite !app_length. cbn [fst snd]. unfold jclip_size in IH. pose proof (dbl_length t). pose proof (dbl_length (Z.of_nat (length b))). lia.
Qed.

Lemma buf_dbl n buf c x y : buf_has n buf c -> (length c + length (dbl x) <= n)%nat -> y = x ->
  exists buf1, aset buf (Z.of_nat (length c)) y = Ok buf1 /\
  exists buf2, (if x =? DLE then do m <- aset buf1 (Z.of_nat (length c) + 1) y; Ok (m, Z.of_nat (length c) + 2)
                else Ok (buf1, Z.of_nat (length c) + 1)) = Ok (buf2, Z.of_nat (length (c ++ dbl x))) /\ buf_has n buf2 (c ++ dbl x).
Proof.
  intros Hb Hn ->. change DLE with 16. pose proof (dbl_length x) as Ld. destruct (buf_put n buf c x Hb) as (b1 & -> & B1).
  { destruct (x =? 16); lia. }
  exists b1. split; [reflexivity|]. rewrite app_length, Nat2Z.inj_add, Ld. unfold dbl in *. destruct (Z.eqb_spec x 16).
  - subst x. cbn [length] in Hn. destruct (buf_put n b1 _ 16 B1) as (b2 & E2 & B2); [rewrite app_length; cbn [length]; lia|].
    rewrite app_length, Nat2Z.inj_add in E2. change (Z.of_nat (length [16])) with 1 in E2. rewrite E2. cbn [rbind]. exists b2. split; [reflexivity|].
    rewrite <- app_assoc in B2. exact B2.
  - exists b1. auto.
Qed.

Lemma put_stuffed_plain n body : Forall (fun b => seven b /\ b <> 16) body -> forall buf c, buf_has n buf c -> (length c + length body <= n)%nat ->
  exists buf', put_stuffed buf (Z.of_nat (length c)) body = Ok (buf', Z.of_nat (length (c ++ body))) /\ buf_has n buf' (c ++ body).
Proof.
  induction 1 as [|b body [Hb1 Hb2] Hbody IH]; intros buf c Hb Hn; cbn [put_stuffed].
  - exists buf. rewrite app_nil_r. auto.
  - cbn [length] in Hn. destruct (buf_put n buf c b Hb ltac:(lia)) as (b1 & -> & B1). cbn [rbind]. change DLE with 16.
    destruct (Z.eqb_spec b 16); [lia|]. cbn [rbind].
    destruct (IH b1 (c ++ [b]) B1) as (b2 & E2 & B2); [rewrite app_length; cbn [length]; lia|].
    rewrite <- app_assoc in *. rewrite app_length in E2 at 1. cbn [length app] in *. rewrite Nat2Z.inj_add in E2. change (Z.of_nat 1) with 1 in E2. exists b2. auto.
Qed.

Lemma add_jclip_one t n buf c ty body : t_std t = JCLIP -> buf_has n buf c -> c <> [] -> jclip_field (ty, body) -> (length body < 128)%nat ->
  (length c + length (jbytes (ty, body)) <= n)%nat ->
  exists buf', adsi_add_field t buf (Z.of_nat (length c)) ty body = Ok (t, buf', Z.of_nat (length (c ++ jbytes (ty, body)))) /\
    buf_has n buf' (c ++ jbytes (ty, body)).
Proof.
  intros Ho Hb Hc (F1 & F2) F3 Hn. cbn [fst snd] in *. unfold adsi_add_field. rewrite Ho.
  change ((JCLIP =? CLASS) || (JCLIP =? CLIP) || (JCLIP =? ACLIP)) with false. change (JCLIP =? JCLIP) with true. cbv iota.
  destruct (Z.leb_spec (Z.of_nat (length c)) 0); [destruct c; [congruence|cbn in *; lia]|].
  unfold jbytes in *. cbn [fst snd] in *. rewrite !app_length in Hn.
  destruct (buf_dbl n buf c ty ty Hb ltac:(lia) eq_refl) as (b1 & -> & b2 & E2 & B2). cbn [rbind]. rewrite E2. cbn [rbind].
  assert (U : u8 (Z.of_nat (length body)) = Z.of_nat (length body)) by (unfold u8; apply Z.mod_small; lia). 
  destruct (buf_dbl n b2 _ (Z.of_nat (length body)) (u8 (Z.of_nat (length body))) B2 ltac:(rewrite app_length; lia) U) as (b3 & -> & b4 & E4 & B4). cbn [rbind]. rewrite E4. cbn [rbind].
  destruct (put_stuffed_plain n body F2 b4 _ B4) as (b5 & E5 & B5); [rewrite !app_length; lia|]. rewrite E5. cbn [rbind].
  rewrite <- !app_assoc in *. exists b5. auto.
Qed.

Lemma add_jclip t n fs : t_std t = JCLIP -> Forall jclip_field fs -> Forall (fun f => (length (snd f) < 128)%nat) fs ->
  forall buf c, buf_has n buf c -> c <> [] -> (length c + length (jfields fs) <= n)%nat ->
  exists buf', add_fields t buf (Z.of_nat (length c)) fs = Ok (t, buf', Z.of_nat (length (c ++ jfields fs))) /\ buf_has n buf' (c ++ jfields fs).
Proof.
  intros Ho Hf. induction Hf as [|[ty body] fs Hf Hfs IH]; intros Hl buf c Hb Hc Hn; cbn [add_fields].
  - exists buf. unfold jfields. cbn [flat_map]. rewrite app_nil_r. auto.
  - inversion Hl as [|? ? Hl1 Hl2]; subst. cbn [snd] in Hl1.
    assert (E : jfields ((ty, body) :: fs) = jbytes (ty, body) ++ jfields fs) by reflexivity.
    rewrite E in *. rewrite app_length in Hn.
    destruct (add_jclip_one t n buf c ty body Ho Hb Hc Hf Hl1 ltac:(lia)) as (b1 & -> & B1). cbn [rbind].
    destruct (IH Hl2 b1 _ B1) as (b2 & E2 & B2).
    + intros X; apply app_eq_nil in X; tauto.
    + rewrite app_length. lia.
    + rewrite <- app_assoc in *. exists b2. auto.
Qed.
Lemma jclip_small fs : jclip_size fs <= 117 -> Forall (fun f => (length (snd f) < 128)%nat) fs.
Proof.
  intros H. rewrite <- jfields_length in H. induction fs as [|[t b] fs IH]; constructor.
  - cbn [snd]. unfold jfields in H. cbn [flat_map] in H. unfold jbytes in H at 1. rewrite !app_length in H. cbn [fst snd] in H. lia.
  - apply IH. unfold jfields in *. cbn [flat_map] in H. rewrite app_length in H. lia.
Qed.

Lemma build_jclip t buf ty fs : t_std t = JCLIP -> jclip ty fs -> 2 + jclip_size fs <= Z.of_nat (length buf) ->
  build t buf ty fs = Ok (ty :: 0 :: jfields fs).
Proof.
  intros Ho (H1 & H2 & H3 & H4 & H5) L. unfold build. cbn [add_fields]. pose proof (jfields_length fs) as Lf.
  destruct (start_msg t buf ty (or_intror Ho) ltac:(lia)) as (b1 & -> & B1). cbn [rbind].
  destruct (add_jclip t (length buf) fs Ho H3 (jclip_small fs H4) b1 [ty; 0] B1) as (b2 & E2 & B2); [discriminate|cbn [length]; lia|].
  change (Z.of_nat (length [ty; 0])) with 2 in E2. rewrite E2. cbn [rbind]. apply (buf_slice _ _ _ B2).
Qed.

Lemma skip_dbl (a : list Z) x (b : list Z) : aget (a ++ dbl x ++ b) (Z.of_nat (length a)) = Ok x.
Proof.
  unfold dbl. destruct (Z.eqb_spec x 16); cbn [app]; rewrite aget_mid by reflexivity; congruence.
Qed.
Lemma dbl_pos x (i : Z) : (if x =? DLE then i + 2 else i + 1) = i + Z.of_nat (length (dbl x)).
Proof. unfold dbl. change DLE with 16. destruct (x =? 16); reflexivity. Qed.

Lemma parse_jclip msg fs : Forall jclip_field fs -> forall pre, msg = pre ++ jfields fs ++ [0x10; 0x03] -> (2 <= length pre)%nat ->
  forall fuel, (length fs < fuel)%nat -> parse_from fuel JCLIP msg (Z.of_nat (length pre)) = Ok (Some fs).
Proof.
  induction 1 as [|[ty body] fs Hf Hfs IH]; intros pre E Lp fuel Hfuel; (destruct fuel as [|fuel]; [lia|]); cbn [parse_from].
  - unfold adsi_next_field. change ((JCLIP =? CLASS) || (JCLIP =? CLIP) || (JCLIP =? ACLIP)) with false. change (JCLIP =? JCLIP) with true. cbv iota.
    assert (Lm : length msg = (length pre + 2)%nat) by (rewrite E, app_length; reflexivity).
    destruct (Z.leb_spec (Z.of_nat (length msg) - 2) (Z.of_nat (length pre))); [|lia]. reflexivity.
  - set (n := Z.of_nat (length body)).
    assert (Em : msg = pre ++ dbl ty ++ dbl n ++ body ++ jfields fs ++ [16; 3]).
    { rewrite E. unfold jfields at 1. cbn [flat_map]. unfold jbytes at 1. cbn [fst snd]. rewrite <- !app_assoc. reflexivity. }
    assert (Lm : length msg = (length pre + length (dbl ty) + length (dbl n) + length body + length (jfields fs) + 2)%nat).
    { rewrite Em, !app_length. cbn [length]. lia. }
    unfold adsi_next_field. change ((JCLIP =? CLASS) || (JCLIP =? CLIP) || (JCLIP =? ACLIP)) with false. change (JCLIP =? JCLIP) with true. cbv iota.
    pose proof (dbl_length ty) as D1. pose proof (dbl_length n) as D2.
    destruct (Z.leb_spec (Z.of_nat (length msg) - 2) (Z.of_nat (length pre))); [destruct (ty =? 16); lia|].
    destruct (Z.leb_spec (Z.of_nat (length pre)) 0); [lia|].
    assert (G1 : aget msg (Z.of_nat (length pre)) = Ok ty) by (rewrite Em; apply skip_dbl). rewrite G1. cbn [rbind].
    rewrite dbl_pos. replace (Z.of_nat (length pre) + Z.of_nat (length (dbl ty))) with (Z.of_nat (length (pre ++ dbl ty))) by (rewrite app_length; lia).
    assert (G2 : aget msg (Z.of_nat (length (pre ++ dbl ty))) = Ok n) by (rewrite Em, app_assoc; apply skip_dbl). rewrite G2. cbn [rbind].
    rewrite dbl_pos. replace (Z.of_nat (length (pre ++ dbl ty)) + Z.of_nat (length (dbl n))) with (Z.of_nat (length ((pre ++ dbl ty) ++ dbl n))) by (rewrite !app_length; lia).
    cbn [f_ret f_off f_type f_len]. set (p := Z.of_nat (length ((pre ++ dbl ty) ++ dbl n))).
    assert (Hp : p = Z.of_nat (length pre) + Z.of_nat (length (dbl ty)) + Z.of_nat (length (dbl n))) by (unfold p; rewrite !app_length; lia).
    destruct (Z.ltb_spec (Z.of_nat (length msg) - 2) (p + n)); [lia|].
    destruct (Z.eqb_spec (p + n) (-1)); [lia|]. destruct (Z.ltb_spec (p + n) 0); [lia|]. destruct (Z.ltb_spec p 0); [lia|].
    assert (ES : aslice msg p n = Ok body).
    { rewrite Em. replace (pre ++ dbl ty ++ dbl n ++ body ++ jfields fs ++ [16; 3]) with (((pre ++ dbl ty) ++ dbl n) ++ body ++ jfields fs ++ [16; 3]) by (rewrite <- !app_assoc; reflexivity).
      apply aslice_mid; reflexivity. }
    rewrite ES. cbn [rbind].
    replace (p + n) with (Z.of_nat (length (pre ++ jbytes (ty, body)))).
    2: { unfold jbytes. cbn [fst snd]. fold n. rewrite !app_length. lia. }
    rewrite IH.
    + reflexivity.
    + rewrite E. unfold jfields at 1. cbn [flat_map]. rewrite <- !app_assoc. reflexivity.
    + rewrite app_length; lia.
    + cbn [length] in Hfuel; lia.
Qed.
Lemma jfields_count fs : (2 * length fs <= length (jfields fs))%nat.
Proof.
  induction fs as [|[t b] fs IH]; [cbn; lia|]. unfold jfields in *. cbn [flat_map length]. unfold jbytes at 1. rewrite !app_length. cbn [fst snd].
  pose proof (dbl_length t). pose proof (dbl_length (Z.of_nat (length b))). destruct (t =? 16); destruct (Z.of_nat (length b) =? 16); lia.
Qed.
Lemma jclip_trip ty fs : jclip ty fs ->
  good_jmsg (ty :: 0 :: jfields fs) /\ parse JCLIP (jclip_frame (ty :: 0 :: jfields fs)) = Ok (Some ((ty, []) :: fs)).
Proof.
  intros (H1 & H2 & H3 & H4 & H5). pose proof (jfields_length fs) as Lf. pose proof (jclip_small fs H4) as Hs. split.
  - split; [|cbn [length]; split; [lia|split; lia]]. constructor; [exact H1|]. constructor; [unfold seven; lia|].
    clear - H3 Hs. induction H3 as [|[t b] fs (F1 & F2) Hfs IH]; [constructor|]. cbn [fst snd] in *. inversion Hs as [|? ? Hs1 Hs2]; subst. cbn [snd] in Hs1.
    unfold jfields. cbn [flat_map]. apply Forall_app. split; [|apply IH; exact Hs2].
    assert (D : forall x, seven x -> Forall seven (dbl x)).
    { intros x Hx. unfold dbl. assert (seven 16) by (unfold seven; lia). destruct (x =? 16); repeat first [apply Forall_nil | apply Forall_cons]; assumption. }
    unfold jbytes. cbn [fst snd]. apply Forall_app; split; [apply D, F1|]. apply Forall_app; split; [apply D; unfold seven; lia|].
    eapply Forall_impl; [|exact F2]. cbv beta. tauto.
  - unfold parse, jclip_frame. set (n := Z.of_nat (length (jfields fs))). set (h := [16; 1; 7; 16; 2; ty; n]).
    set (msg := h ++ jfields fs ++ [16; 3]).
    assert (Lm : length msg = (length (jfields fs) + 9)%nat) by (unfold msg, h; rewrite !app_length; cbn [length]; lia).
    assert (P : parse_from (S (length msg)) JCLIP msg 7 = Ok (Some fs)).
    { change 7 with (Z.of_nat (length h)). apply parse_jclip; [exact H3|reflexivity|cbn; lia|]. pose proof (jfields_count fs). lia. }
    assert (A5 : aget msg 5 = Ok ty) by (unfold msg, h; rewrite aget_in by (rewrite !app_length; cbn [length]; lia); reflexivity).
    assert (A6 : aget msg 6 = Ok n) by (unfold msg, h; rewrite aget_in by (rewrite !app_length; cbn [length]; lia); reflexivity).
    clearbody msg. cbn [parse_from]. unfold adsi_next_field at 1.
    change ((JCLIP =? CLASS) || (JCLIP =? CLIP) || (JCLIP =? ACLIP)) with false. change (JCLIP =? JCLIP) with true. cbv iota.
    destruct (Z.leb_spec (Z.of_nat (length msg) - 2) 0); [lia|]. cbn [Z.leb Z.compare].
    rewrite A5. cbn [rbind]. change DLE with 16. destruct (Z.eqb_spec ty 16); [lia|]. rewrite A6. cbn [rbind].
    destruct (Z.eqb_spec n 16); [unfold n in *; lia|]. change (6 + 1) with 7. cbn [f_ret f_off f_type].
    destruct (Z.ltb_spec (Z.of_nat (length msg) - 2) 7); [lia|].
    cbn [Z.eqb Z.ltb Z.compare rbind]. cbn [parse_from] in P. rewrite P. reflexivity.
Qed.
