(** ADSI message fields: putting them together and taking them apart. *)
From Verif Require Import Base Crc_spec Crc_model Crc_proofs Adsi_model Adsi_spec Adsi_rx_proofs Adsi_line_proofs Adsi_tx_proofs Adsi_sess_proofs Adsi_deliver_proofs.
From Coq Require Import ZifyBool ZifyNat.

(** ---- the buffer ---- *)
Definition buf_has (n : nat) (buf : list Z) (c : list Z) : Prop :=
  length buf = n /\ firstn (length c) buf = c /\ (length c <= n)%nat.

Lemma buf_put n buf c x : buf_has n buf c -> (length c < n)%nat ->
  exists buf', aset buf (Z.of_nat (length c)) x = Ok buf' /\ buf_has n buf' (c ++ [x]).
Proof.
  intros (H1 & H2 & H3) H. rewrite aset_in by lia. rewrite Nat2Z.id. eexists; split; [reflexivity|].
  unfold buf_has. rewrite upd_length, app_length. cbn [length]. rewrite Nat.add_1_r, firstn_upd_snoc by lia. rewrite H2.
  split; [exact H1|]. split; [reflexivity|lia].
Qed.
Lemma buf_puts n buf c l : buf_has n buf c -> (length c + length l <= n)%nat ->
  exists buf', ablit buf (Z.of_nat (length c)) l = Ok buf' /\ buf_has n buf' (c ++ l).
Proof.
  intros (H1 & H2 & H3) H. rewrite ablit_ok by lia. rewrite Nat2Z.id. eexists; split; [reflexivity|].
  unfold buf_has. rewrite H2, !app_length, skipn_length. split; [lia|]. split; [|lia].
  rewrite app_assoc, firstn_app, !app_length. replace (length c + length l - (length c + length l))%nat with 0%nat by lia.
  cbn [firstn]. rewrite app_nil_r. apply firstn_all2. rewrite app_length. lia.
Qed.
Lemma buf_nil buf : buf_has (length buf) buf [].
Proof. unfold buf_has. cbn. repeat split; lia. Qed.
Lemma buf_slice n buf c : buf_has n buf c -> aslice buf 0 (Z.of_nat (length c)) = Ok c.
Proof. intros (H1 & H2 & H3). rewrite aslice_ok by lia. rewrite Nat2Z.id. change (skipn (Z.to_nat 0) buf) with buf. rewrite H2. reflexivity. Qed.

(** ---- reading ---- *)
Lemma aget_mid (a : list Z) x b i : i = Z.of_nat (length a) -> aget (a ++ x :: b) i = Ok x.
Proof.
  intros ->. rewrite aget_in by (rewrite app_length; cbn [length]; lia). rewrite Nat2Z.id, app_nth2, Nat.sub_diag by lia. reflexivity.
Qed.
Lemma aslice_mid (a m b : list Z) i n : i = Z.of_nat (length a) -> n = Z.of_nat (length m) -> aslice (a ++ m ++ b) i n = Ok m.
Proof.
  intros -> ->. rewrite aslice_ok by (rewrite ?app_length; lia). rewrite !Nat2Z.id, skipn_app, Nat.sub_diag, skipn_all. cbn [skipn app].
  rewrite firstn_app, Nat.sub_diag, firstn_all. cbn [firstn]. rewrite app_nil_r. reflexivity.
Qed.

Lemma ty_facts std : other std -> ((std =? CLASS) || (std =? CLIP) || (std =? ACLIP)) = true.
Proof. unfold other, CLASS, CLIP, ACLIP. lia. Qed.

(** ---- Bellcore/ETSI, several fields ---- *)
Definition field_bytes (f : Z * list Z) : list Z := fst f :: Z.of_nat (length (snd f)) :: snd f.
Definition fields_bytes (fs : list (Z * list Z)) : list Z := flat_map field_bytes fs.
Lemma fields_length fs : Z.of_nat (length (fields_bytes fs)) = body_size fs.
Proof. induction fs as [|[t b] fs IH]; [reflexivity|]. unfold fields_bytes in *. cbn [flat_map body_size fold_right snd]. rewrite app_length. cbn [field_bytes length fst snd]. unfold body_size in IH. lia. Qed.

Lemma add_mdmf_one t n buf c ty body : other (t_std t) -> buf_has n buf c -> c <> [] -> mdmf_field (ty, body) ->
  (length c + 2 + length body <= n)%nat ->
  exists buf', adsi_add_field t buf (Z.of_nat (length c)) ty body = Ok (t, buf', Z.of_nat (length (c ++ field_bytes (ty, body)))) /\
    buf_has n buf' (c ++ field_bytes (ty, body)).
Proof.
  intros Ho Hb Hc (F1 & F2 & F3 & F4) Hn. cbn [fst snd] in *. unfold adsi_add_field. rewrite (ty_facts _ Ho).
  destruct (Z.leb_spec (Z.of_nat (length c)) 0); [destruct c; [congruence|cbn in *; lia]|].
  destruct (Z.eqb_spec ty 0); [lia|]. cbn [negb].
  destruct (buf_put n buf c ty Hb ltac:(lia)) as (b1 & -> & B1). cbn [rbind].
  replace (Z.of_nat (length c) + 1) with (Z.of_nat (length (c ++ [ty]))) by (rewrite app_length; cbn [length]; lia).
  destruct (buf_put n b1 _ (u8 (Z.of_nat (length body))) B1) as (b2 & -> & B2); [rewrite app_length; cbn [length]; lia|]. cbn [rbind].
  destruct (Z.eqb_spec (Z.of_nat (length body)) DLE); [unfold DLE in *; lia|]. cbn [rbind].
  assert (U : u8 (Z.of_nat (length body)) = Z.of_nat (length body)) by (unfold u8; apply Z.mod_small; lia). rewrite U in B2.
  replace (Z.of_nat (length c) + 2) with (Z.of_nat (length ((c ++ [ty]) ++ [Z.of_nat (length body)]))) by (rewrite !app_length; cbn [length]; lia).
  destruct (buf_puts n b2 _ body B2) as (b3 & -> & B3); [rewrite !app_length; cbn [length]; lia|]. cbn [rbind].
  exists b3. replace (((c ++ [ty]) ++ [Z.of_nat (length body)]) ++ body) with (c ++ field_bytes (ty, body)) in B3 by (rewrite <- !app_assoc; reflexivity).
  split; [|exact B3]. do 2 f_equal. rewrite !app_length. cbn [field_bytes fst snd length]. lia.
Qed.

Lemma add_mdmf t n fs : other (t_std t) -> Forall mdmf_field fs -> forall buf c, buf_has n buf c -> c <> [] ->
  (length c + length (fields_bytes fs) <= n)%nat ->
  exists buf', add_fields t buf (Z.of_nat (length c)) fs = Ok (t, buf', Z.of_nat (length (c ++ fields_bytes fs))) /\ buf_has n buf' (c ++ fields_bytes fs).
Proof.
  intros Ho. induction 1 as [|[ty body] fs Hf Hfs IH]; intros buf c Hb Hc Hn; cbn [add_fields].
  - exists buf. unfold fields_bytes. cbn [flat_map]. rewrite app_nil_r. auto.
  - assert (E : fields_bytes ((ty, body) :: fs) = field_bytes (ty, body) ++ fields_bytes fs) by reflexivity.
    rewrite E in *. rewrite app_length in Hn. cbn [field_bytes fst snd length] in Hn.
    destruct (add_mdmf_one t n buf c ty body Ho Hb Hc Hf ltac:(lia)) as (b1 & -> & B1). cbn [rbind].
    destruct (IH b1 _ B1) as (b2 & E2 & B2).
    + destruct c; discriminate.
    + rewrite app_length. cbn [field_bytes fst snd length]. lia.
    + rewrite <- app_assoc in *. exists b2. auto.
Qed.

Lemma start_msg t buf ty : (other (t_std t) \/ t_std t = JCLIP) -> (2 <= length buf)%nat ->
  exists buf', adsi_add_field t buf 0 ty [] = Ok (t, buf', 2) /\ buf_has (length buf) buf' [ty; 0].
Proof.
  intros Ho L. unfold adsi_add_field. cbn [Z.leb Z.compare].
  destruct (buf_put (length buf) buf [] ty (buf_nil buf)) as (b1 & E1 & B1); [cbn; lia|]. change (Z.of_nat (length (@nil Z))) with 0 in E1.
  destruct (buf_put (length buf) b1 [ty] 0 B1) as (b2 & E2 & B2); [cbn; lia|]. change (Z.of_nat (length [ty])) with 1 in E2.
  rewrite E1. cbn [rbind]. rewrite E2. cbn [rbind].
  exists b2. split; [|exact B2]. destruct Ho as [Ho|Ho].
  - rewrite (ty_facts _ Ho). reflexivity.
  - rewrite Ho. reflexivity.
Qed.

Lemma build_mdmf t buf ty fs : other (t_std t) -> mdmf ty fs -> 2 + body_size fs <= Z.of_nat (length buf) ->
  build t buf ty fs = Ok (ty :: 0 :: fields_bytes fs).
Proof.
  intros Ho (H1 & H2 & H3) L. unfold build. cbn [add_fields]. pose proof (fields_length fs) as Lf.
  assert (0 <= body_size fs) by lia.
  destruct (start_msg t buf ty (or_introl Ho) ltac:(lia)) as (b1 & -> & B1). cbn [rbind].
  destruct (add_mdmf t (length buf) fs Ho H2 b1 [ty; 0] B1) as (b2 & E2 & B2); [discriminate|cbn [length]; lia|].
  change (Z.of_nat (length [ty; 0])) with 2 in E2. rewrite E2. cbn [rbind]. apply (buf_slice _ _ _ B2).
Qed.

Lemma parse_mdmf std msg fs : other std -> Forall mdmf_field fs -> forall pre, msg = pre ++ fields_bytes fs -> (2 <= length pre)%nat ->
  128 <= nth 0 msg 0 < 256 -> forall fuel, (length fs < fuel)%nat ->
  parse_from fuel std msg (Z.of_nat (length pre)) = Ok (Some fs).
Proof.
  intros Ho. induction 1 as [|[ty body] fs Hf Hfs IH]; intros pre E Lp H0 fuel Hfuel; (destruct fuel as [|fuel]; [lia|]); cbn [parse_from].
  - unfold adsi_next_field. rewrite (ty_facts _ Ho). rewrite E. unfold fields_bytes. cbn [flat_map]. rewrite app_nil_r, Z.leb_refl. reflexivity.
  - destruct Hf as (F1 & F2 & F3 & F4). cbn [fst snd] in *.
    assert (Em : msg = pre ++ ty :: Z.of_nat (length body) :: body ++ fields_bytes fs) by exact E.
    assert (Lm : length msg = (length pre + 2 + length body + length (fields_bytes fs))%nat).
    { rewrite Em, app_length. cbn [length]. rewrite app_length. lia. }
    unfold adsi_next_field. rewrite (ty_facts _ Ho). destruct (Z.leb_spec (Z.of_nat (length msg)) (Z.of_nat (length pre))); [lia|].
    destruct (Z.leb_spec (Z.of_nat (length pre)) 0); [lia|]. rewrite aget_in by lia. cbn [rbind]. change (nth (Z.to_nat 0) msg 0) with (nth 0 msg 0).
    assert (M : Z.land (nth 0 msg 0) 0x80 <> 0).
    { intros Z0. assert (T7 : Z.testbit (Z.land (nth 0 msg 0) 128) 7 = false) by (rewrite Z0; reflexivity).
      rewrite Z.land_spec in T7. change (Z.testbit 128 7) with true in T7. rewrite andb_true_r in T7.
      pose proof (Z.testbit_spec' (nth 0 msg 0) 7 ltac:(lia)) as T8. rewrite T7 in T8. change (2 ^ 7) with 128 in T8.
      replace (nth 0 msg 0 / 128) with 1 in T8 by (Z.div_mod_to_equations; lia). discriminate. }
    apply Z.eqb_neq in M. rewrite M. cbn [negb].
    rewrite Em at 1. rewrite aget_mid by reflexivity. cbn [rbind].
    rewrite Em at 1. replace (pre ++ ty :: Z.of_nat (length body) :: body ++ fields_bytes fs) with ((pre ++ [ty]) ++ Z.of_nat (length body) :: body ++ fields_bytes fs) by (rewrite <- app_assoc; reflexivity).
    rewrite aget_mid by (rewrite app_length; cbn [length]; lia). cbn [rbind f_ret f_off f_type f_len].
    destruct (Z.ltb_spec (Z.of_nat (length msg)) (Z.of_nat (length pre) + 2 + Z.of_nat (length body))); [lia|].
    destruct (Z.eqb_spec (Z.of_nat (length pre) + 2 + Z.of_nat (length body)) (-1)); [lia|].
    destruct (Z.ltb_spec (Z.of_nat (length pre) + 2 + Z.of_nat (length body)) 0); [lia|].
    destruct (Z.ltb_spec (Z.of_nat (length pre) + 2) 0); [lia|].
    assert (Em2 : msg = (pre ++ [ty; Z.of_nat (length body)]) ++ body ++ fields_bytes fs) by (rewrite Em, <- app_assoc; reflexivity).
    assert (ES : aslice msg (Z.of_nat (length pre) + 2) (Z.of_nat (length body)) = Ok body).
    { rewrite Em2. apply aslice_mid; [rewrite app_length; cbn [length]; lia|reflexivity]. }
    rewrite ES. cbn [rbind].
    replace (Z.of_nat (length pre) + 2 + Z.of_nat (length body)) with (Z.of_nat (length (pre ++ field_bytes (ty, body)))) by (rewrite app_length; cbn [field_bytes fst snd length]; lia).
    rewrite IH.
    + reflexivity.
    + rewrite E. unfold fields_bytes at 1. cbn [flat_map]. rewrite app_assoc. reflexivity.
    + rewrite app_length; lia.
    + exact H0.
    + cbn [length] in Hfuel; lia.
Qed.

Lemma fields_count fs : (2 * length fs <= length (fields_bytes fs))%nat.
Proof. induction fs as [|[t b] fs IH]; [cbn; lia|]. unfold fields_bytes in *. cbn [flat_map length]. rewrite app_length. cbn [field_bytes length]. lia. Qed.

Lemma mdmf_trip std ty fs : other std -> mdmf ty fs ->
  good_msg (ty :: 0 :: fields_bytes fs) /\ parse std (with_length (ty :: 0 :: fields_bytes fs)) = Ok (Some ((ty, []) :: fs)).
Proof.
  intros Ho (H1 & H2 & H3). pose proof (fields_length fs) as Lf. split.
  - split; [|cbn [length]; lia]. constructor; [unfold byte; lia|]. constructor; [unfold byte; lia|].
    clear - H2. induction H2 as [|[t b] fs (F1 & F2 & F3 & F4) Hfs IH]; [constructor|]. cbn [fst snd] in *.
    unfold fields_bytes. cbn [flat_map]. apply Forall_app. split; [|exact IH].
    constructor; [unfold byte; cbn [fst]; lia|]. constructor; [unfold byte; cbn [snd]; lia|exact F2].
  - unfold parse. cbn [with_length]. set (n := Z.of_nat (length (fields_bytes fs))).
    assert (P : parse_from (S (length (ty :: n :: fields_bytes fs))) std (ty :: n :: fields_bytes fs) 2 = Ok (Some fs)).
    { change 2 with (Z.of_nat (length [ty; n])). apply parse_mdmf; [exact Ho|exact H2|reflexivity|cbn; lia|cbn [nth]; lia|].
      pose proof (fields_count fs). cbn [length]. lia. }
    remember (ty :: n :: fields_bytes fs) as msg eqn:Em.
    assert (Lm : (2 <= length msg)%nat) by (rewrite Em; cbn; lia).
    cbn [parse_from]. unfold adsi_next_field at 1. rewrite (ty_facts _ Ho).
    destruct (Z.leb_spec (Z.of_nat (length msg)) 0); [lia|]. cbn [Z.leb Z.compare].
    rewrite aget_in by lia. cbn [rbind f_ret f_off f_type]. destruct (Z.ltb_spec (Z.of_nat (length msg)) 2); [lia|].
    cbn [Z.eqb Z.ltb Z.compare rbind Pos.eqb]. cbn [parse_from] in P. rewrite P. cbn [rbind]. rewrite Em. reflexivity.
Qed.
