(** The V.42bis compressor: what it emits, and how the decompressor reads it. *)
From Verif Require Import Base Bits V42bis_model V42bis_dict_proofs V42bis_core_proofs V42bis_out_proofs V42bis_dec_proofs
  V42bis_bits_proofs.
From Coq Require Import ZifyBool ZifyNat.
Ltac Zify.zify_post_hook ::= Z.div_mod_to_equations.

(** ---- what is emitted in transparent mode ---- *)
Fixpoint escaped (esc : Z) (w : list Z) : list Z :=
  match w with
  | [] => []
  | x :: t => if x =? esc then x :: EID :: escaped (u8 (esc + ESC_STEP)) t else x :: escaped esc t
  end.
Lemma u8_byte x : byte (u8 x).
Proof. unfold byte, u8. lia. Qed.
Lemma u8_id x : byte x -> u8 x = x.
Proof. unfold byte, u8. intros. apply Z.mod_small. lia. Qed.
Lemma escaped_bytes w : forall esc, bytes w -> bytes (escaped esc w).
Proof.
  induction w as [|x w IH]; intros esc B; cbn [escaped]; [constructor|]. apply Forall_cons_iff in B. destruct B.
  destruct (x =? esc); repeat constructor; auto; try (apply IH; auto); unfold EID, byte in *; lia.
Qed.
Lemma send_trans_ok w : forall o esc, OB o -> bytes w ->
  exists o', send_transparent o esc w = Ok (o', skip_escapes w esc) /\ OB o' /\ o_max o' = o_max o /\
    ostream o' = ostream o ++ escaped esc w.
Proof.
  induction w as [|x w IH]; intros o esc B W; cbn [send_transparent escaped skip_escapes].
  - exists o. rewrite app_nil_r. auto.
  - apply Forall_cons_iff in W. destruct W as (BX & W).
    destruct (push_octet_ok o x B) as (o1 & -> & B1 & M1 & S1). cbn [rbind]. rewrite u8_id in S1 by auto.
    destruct (x =? esc).
    + destruct (push_octet_ok o1 EID B1) as (o2 & -> & B2 & M2 & S2). cbn [rbind].
      destruct (IH o2 (u8 (esc + ESC_STEP)) B2 W) as (o' & -> & B' & M' & S'). exists o'.
      split; [reflexivity|]. split; [auto|]. split; [congruence|]. rewrite S', S2, S1, <- !app_assoc. reflexivity.
    + destruct (IH o1 esc B1 W) as (o' & -> & B' & M' & S'). exists o'.
      split; [reflexivity|]. split; [auto|]. split; [congruence|]. rewrite S', S1, <- !app_assoc. reflexivity.
Qed.

(** How the decompressor reads single octets and codewords. *)
Lemma brun_octet1 n7 A x : a_trans A = true -> byte x ->
  brun n7 (mkB A [] false 0) (bits_lsb 8 x) = do A <- a_octet n7 A x; Ok (mkB A [] false 0).
Proof.
  intros T B. rewrite brun_octet by (auto; rewrite ?bits_len; cbn; lia). cbn [b_acc b_a b_pos app].
  rewrite of_bits_lsb_bits by (unfold byte in B; change (2 ^ Z.of_nat 8) with 256; lia). rewrite bits_len. reflexivity.
Qed.
Lemma brun_escaped n7 w : forall A K, a_trans A = true -> a_escd A = false -> byte (a_esc A) -> bytes w ->
  crun n7 (a_core A) w = Ok K ->
  brun n7 (mkB A [] false 0) (unpack_lsb (escaped (a_esc A) w)) =
  Ok (mkB (mkA K true false (skip_escapes w (a_esc A)) (a_c2 A) (a_out A ++ w)) [] false 0).
Proof.
  induction w as [|x w IH]; intros A K T E BE W C; cbn [escaped skip_escapes].
  - cbn in C. injection C as <-. rewrite app_nil_r, <- T, <- E. destruct A; reflexivity.
  - apply Forall_cons_iff in W. destruct W as (BX & W). cbn [crun] in C.
    destruct (cstep n7 (a_core A) x) as [K1|] eqn:CS; [|discriminate]. cbn [rbind] in C.
    destruct (Z.eqb_spec x (a_esc A)) as [XE|XE]; rewrite !unpack_cons.
    + rewrite brun_app, brun_octet1 by auto. unfold a_octet. rewrite E.
      destruct (Z.eqb_spec x (a_esc A)); [|congruence]. cbn [rbind]. rewrite brun_app, brun_octet1 by (auto; unfold EID, byte; lia).
      unfold a_octet. cbn [a_escd a_core a_trans a_esc a_c2 a_out]. change (EID =? ECM) with false. change (EID =? EID) with true.
      unfold a_follow. cbn [a_escd a_core a_trans a_esc a_c2 a_out]. rewrite <- XE, CS. cbn [rbind].
      set (A1 := mkA K1 _ _ _ _ _). change (u8 (x + ESC_STEP)) with (a_esc A1). rewrite (IH A1 K); auto.
      * unfold A1. cbn [a_escd a_core a_trans a_esc a_c2 a_out]. rewrite <- app_assoc. reflexivity.
      * apply u8_byte.
    + rewrite brun_app, brun_octet1 by auto. unfold a_octet. rewrite E.
      destruct (Z.eqb_spec x (a_esc A)); [congruence|]. unfold a_follow. rewrite CS. cbn [rbind].
      set (A1 := mkA K1 _ _ _ _ _). change (a_esc A) with (a_esc A1). rewrite (IH A1 K); auto.
      unfold A1. cbn [a_escd a_core a_trans a_esc a_c2 a_out]. rewrite <- app_assoc. reflexivity.
Qed.

Lemma brun_code1 n7 A code p : a_trans A = false -> 9 <= a_c2 A <= 12 -> 0 <= code < 2 ^ a_c2 A ->
  brun n7 (mkB A [] false p) (bits_lsb (Z.to_nat (a_c2 A)) code) =
  do A' <- a_code n7 A code; Ok (mkB A' [] (((code =? ETM) || (code =? FLUSH)) && negb ((p + a_c2 A) mod 8 =? 0)) ((p + a_c2 A) mod 8)).
Proof.
  intros T C R. rewrite brun_code by (cbn [b_skip b_a b_acc]; rewrite ?bits_len; auto; cbn [length]; lia). cbn [b_acc b_a b_pos app]. cbv zeta.
  rewrite of_bits_lsb_bits by (rewrite Z2Nat.id; lia). rewrite bits_len, Z2Nat.id by lia. reflexivity.
Qed.

(** The decompressor, started in [m0], has read all bits emitted so far and is in [A]. *)
Definition SIM (n7 : Z) (m0 : bm) (s : comp) (A : ad) : Prop := brun n7 m0 (sbits s) = Ok (mkB A [] false (k_bc s)).
Definition with_c2 (A : ad) (c : Z) : ad := mkA (a_core A) (a_trans A) (a_escd A) (a_esc A) c (a_out A).
(** Everything but the output, and the codeword size. *)
Record keep (s s' : comp) : Prop := {
  kp_p0 : k_p0 s' = k_p0 s;
  kp_mode : k_mode s' = k_mode s;
  kp_trans : k_trans s' = k_trans s;
  kp_upd : k_upd_at s' = k_upd_at s;
  kp_lm : k_lm s' = k_lm s;
  kp_la : k_la s' = k_la s;
  kp_n7 : k_n7 s' = k_n7 s;
  kp_dic : k_dic s' = k_dic s;
  kp_str : k_str s' = k_str s;
  kp_slen : k_slen s' = k_slen s;
  kp_flen : k_flen s' = k_flen s;
  kp_esc : k_esc s' = k_esc s;
  kp_max : o_max (k_out s') = o_max (k_out s)
}.
Lemma keep_refl s : keep s s.
Proof. constructor; reflexivity. Qed.
Lemma keep_tran a b c : keep a b -> keep b c -> keep a c.
Proof. intros [] []. constructor; congruence. Qed.
Lemma keep_bits s s' : same_but_bits s s' -> keep s s' /\ k_c2 s' = k_c2 s /\ k_c3 s' = k_c3 s.
Proof. intros (o & bb & bc & -> & M). split; [constructor; ksimpl; auto|split; reflexivity]. Qed.

Lemma step_up_ok n7 m0 code : 3 <= code < 4096 -> forall fuel s A, EB s -> 9 <= k_c2 s <= 12 -> k_c3 s = 2 ^ k_c2 s ->
  (Z.to_nat (12 - k_c2 s) <= fuel)%nat -> SIM n7 m0 s A -> a_trans A = false -> a_c2 A = k_c2 s -> 512 <= d_n2 (c_d (a_core A)) ->
  exists s', step_up fuel s code = Ok s' /\ EB s' /\ keep s s' /\ 9 <= k_c2 s' <= 12 /\ k_c3 s' = 2 ^ k_c2 s' /\
    code < 2 ^ k_c2 s' /\ SIM n7 m0 s' (with_c2 A (k_c2 s')).
Proof.
  intros CR. induction fuel as [|fuel IH]; intros s A B C2 C3 F S T E2 N2; cbn [step_up]; destruct (Z.leb_spec (k_c3 s) code) as [L|L].
  - exfalso. replace (k_c2 s) with 12 in * by lia. change (2 ^ 12) with 4096 in C3. lia.
  - exists s. split; [auto|]. split; [auto|]. split; [apply keep_refl|]. repeat split; auto; try lia. rewrite <- E2. destruct A; exact S.
  - assert (NE : k_c2 s <> 12). { intros EE. rewrite EE in C3. change (2 ^ 12) with 4096 in C3. lia. }
    assert (P9 : 2 ^ 9 <= 2 ^ k_c2 s) by (apply Z.pow_le_mono_r; lia). assert (P11 : 2 ^ k_c2 s <= 2 ^ 11) by (apply Z.pow_le_mono_r; lia).
    change (2 ^ 9) with 512 in P9. change (2 ^ 11) with 2048 in P11.
    destruct (push_code_ok s STEPUP B ltac:(lia) ltac:(unfold STEPUP; lia)) as (s1 & -> & B1 & SB & BC1 & S1). cbn [rbind].
    destruct (keep_bits _ _ SB) as (K1 & K2 & K3). clear SB.
    set (s2 := set_c3 _ _). 
    assert (C2' : k_c2 s2 = k_c2 s + 1). { unfold s2. ksimpl. unfold u16. rewrite K2. apply Z.mod_small. lia. }
    assert (C3' : k_c3 s2 = 2 ^ k_c2 s2). { rewrite C2', Z.pow_add_r by lia. unfold s2. ksimpl. unfold u16. rewrite K3, C3. apply Z.mod_small. lia. }
    destruct (IH s2 (with_c2 A (k_c2 s + 1))) as (s' & E' & B' & SB' & R).
    + constructor; apply B1.
    + lia.
    + exact C3'.
    + lia.
    + unfold SIM in *. change (sbits s2) with (sbits s1). rewrite S1, brun_app, S. cbn [rbind].
      rewrite <- E2. rewrite brun_code1; auto; try lia.
      2:{ rewrite E2. unfold STEPUP. lia. }
      unfold a_code. change (STEPUP <? N6) with true. change (STEPUP =? ETM) with false. change (STEPUP =? FLUSH) with false. cbv iota.
      assert (64 <= Z.shiftr (d_n2 (c_d (a_core A))) 3). { rewrite Z.shiftr_div_pow2 by lia. change (2 ^ 3) with 8. lia. }
      destruct (Z.ltb_spec (Z.shiftr (d_n2 (c_d (a_core A))) 3) (a_c2 A + 1)); [lia|]. cbn [rbind orb andb].
      change (k_bc s2) with (k_bc s1). rewrite BC1, E2. unfold with_c2. reflexivity.
    + exact T.
    + cbn [a_c2 with_c2]. lia.
    + exact N2.
    + exists s'. split; [exact E'|]. split; [auto|]. split; [|exact R].
      eapply keep_tran; [exact K1|]. eapply keep_tran; [|exact SB']. constructor; reflexivity.
  - exists s. split; [auto|]. split; [auto|]. split; [apply keep_refl|]. repeat split; auto; try lia. rewrite <- E2. destruct A; exact S.
Qed.

(** ---- the compressor's invariant ---- *)
Definition pend (s : comp) : list Z := firstn (Z.to_nat (k_slen s)) (k_str s).
Record EI (n7 : Z) (s : comp) : Prop := {
  ei_n7 : k_n7 s = n7;
  ei_ci : CI n7 (kcore s);
  ei_eb : EB s;
  ei_str : length (k_str s) = Z.to_nat 250;
  ei_slen : 0 <= k_slen s;
  ei_flen : 0 <= k_flen s;
  ei_c2 : 9 <= k_c2 s <= 12;
  ei_c3 : k_c3 s = 2 ^ k_c2 s;
  ei_esc : byte (k_esc s);
  ei_pend : bytes (pend s);
  ei_mode : if k_trans s then k_bc s = 0 else k_flen s = 0
}.
Lemma ei_zlen n7 s : EI n7 s -> Z.of_nat (length (k_str s)) = 250.
Proof. intros H. rewrite (ei_str _ _ H). apply Z2Nat.id. lia. Qed.
Lemma ei_total n7 s : EI n7 s -> k_slen s + k_flen s < n7 /\ 6 <= n7 <= 250.
Proof.
  intros H. pose proof (ci_n7 _ _ (ei_ci _ _ H)). split; [|auto].
  destruct (ci_l _ _ (ei_ci _ _ H)) as [(_ & E)|(_ & _ & L & _)]; [|exact L]. unfold kcore in E. ksimpl. lia.
Qed.
Lemma ei_zero n7 s : EI n7 s -> k_lm s = 0 -> k_slen s = 0 /\ k_flen s = 0.
Proof.
  intros H E. pose proof (ei_slen _ _ H). pose proof (ei_flen _ _ H).
  destruct (ci_l _ _ (ei_ci _ _ H)) as [(_ & E2)|(R & _)]; unfold kcore in *; ksimpl; lia.
Qed.
Lemma ei_n2 n7 s : EI n7 s -> 512 <= d_n2 (k_dic s) <= 4096.
Proof. intros H. apply (WF_n2 _ _ (ci_wf _ _ (ei_ci _ _ H))). Qed.

(** What compressor and decompressor always agree on. *)
Record RO (s : comp) (A : ad) : Prop := {
  r_esc : a_esc A = k_esc s;
  r_c2 : a_c2 A = k_c2 s;
  r_trans : a_trans A = k_trans s;
  r_escd : a_escd A = false;
  r_n2 : d_n2 (c_d (a_core A)) = d_n2 (k_dic s)
}.

(** What send_encoded_data changes. *)
Record sent (s s' : comp) : Prop := {
  se_p0 : k_p0 s' = k_p0 s;
  se_mode : k_mode s' = k_mode s;
  se_trans : k_trans s' = k_trans s;
  se_upd : k_upd_at s' = k_upd_at s;
  se_lm : k_lm s' = k_lm s;
  se_la : k_la s' = k_la s;
  se_n7 : k_n7 s' = k_n7 s;
  se_dic : k_dic s' = k_dic s;
  se_str : k_str s' = k_str s;
  se_slen : k_slen s' = 0;
  se_flen : k_flen s' = 0;
  se_max : o_max (k_out s') = o_max (k_out s);
  se_eb : EB s';
  se_c2 : 9 <= k_c2 s' <= 12;
  se_c3 : k_c3 s' = 2 ^ k_c2 s';
  se_esc : byte (k_esc s');
  se_bc : k_trans s = true -> k_bc s' = k_bc s
}.

Lemma pend_slice n7 s : EI n7 s -> aslice (k_str s) 0 (k_slen s) = Ok (pend s).
Proof.
  intros H. apply aslice_prefix. pose proof (ei_zlen _ _ H). pose proof (ei_total _ _ H). pose proof (ei_slen _ _ H).
  pose proof (ei_flen _ _ H). lia.
Qed.
(** The same without the string in order: [w] is what is to be sent. *)
Lemma send_trans_sim n7 m0 s A code w K : EB s -> k_trans s = true -> k_bc s = 0 -> byte (k_esc s) -> 9 <= k_c2 s <= 12 -> k_c3 s = 2 ^ k_c2 s ->
  aslice (k_str s) 0 (k_slen s) = Ok w -> bytes w ->
  SIM n7 m0 s A -> RO s A -> crun n7 (a_core A) w = Ok K -> d_n2 (c_d K) = d_n2 (k_dic s) ->
  exists s', send_encoded_data s code = Ok s' /\ sent s s' /\
    let A' := mkA K true false (k_esc s') (k_c2 s') (a_out A ++ w) in SIM n7 m0 s' A' /\ RO s' A'.
Proof.
  intros B TR BC BE C2 C3 W BW S R C N2. unfold send_encoded_data. set (p := u16 _). clearbody p. cbv zeta. ksimpl. rewrite W. cbn [rbind]. rewrite TR.
  destruct (send_trans_ok w (k_out s) (k_esc s) (eb_out _ B) BW) as (o' & -> & BO & MO & SO). cbn [rbind].
  eexists. split; [reflexivity|]. split.
  { constructor; ksimpl; auto.
    - destruct B; constructor; ksimpl; auto.
    - apply skip_escapes_byte; exact BE. }
  ksimpl. split.
  - unfold SIM in *. unfold sbits in *. ksimpl. rewrite BC in *. cbn [Z.to_nat bits_lsb] in *. rewrite app_nil_r in *.
    rewrite SO, unpack_app, brun_app, S. cbn [rbind]. rewrite <- (r_esc _ _ R), <- (r_c2 _ _ R).
    apply brun_escaped; auto; try apply R; rewrite (r_trans _ _ R) || rewrite (r_esc _ _ R); auto.
  - constructor; ksimpl; cbn [a_esc a_c2 a_trans a_escd a_core]; auto.
Qed.

Lemma a_code_c2 n7 A code c : 3 <= code -> a_code n7 (with_c2 A c) code = do A' <- a_code n7 A code; Ok (with_c2 A' c).
Proof.
  intros R. unfold a_code, with_c2, N6. cbn [a_core a_trans a_escd a_esc a_c2 a_out]. destruct (Z.ltb_spec code 3); [lia|].
  destruct (code =? d_c1 _); [reflexivity|]. destruct (word_of _ _ _) as [w|]; [|reflexivity]. cbn [rbind].
  match goal with |- (do (_, _) <- ?r; _) = _ => destruct r as [[d y]|] end; reflexivity.
Qed.
Lemma send_code_sim n7 m0 s A code w A' : EB s -> k_trans s = false -> byte (k_esc s) -> 9 <= k_c2 s <= 12 -> k_c3 s = 2 ^ k_c2 s ->
  512 <= d_n2 (k_dic s) -> aslice (k_str s) 0 (k_slen s) = Ok w -> 3 <= code < 4096 ->
  SIM n7 m0 s A -> RO s A -> a_code n7 A code = Ok A' -> a_trans A' = false -> a_escd A' = false ->
  a_esc A' = skip_escapes w (k_esc s) -> d_n2 (c_d (a_core A')) = d_n2 (k_dic s) ->
  exists s', send_encoded_data s code = Ok s' /\ sent s s' /\ SIM n7 m0 s' (with_c2 A' (k_c2 s')) /\ RO s' (with_c2 A' (k_c2 s')).
Proof.
  intros B TR BE C2 C3 N2 W CR S R AC T' E' ES N2'. unfold send_encoded_data. set (p := u16 _). clearbody p. cbv zeta. ksimpl. rewrite W. cbn [rbind]. rewrite TR.
  set (s1 := set_esc _ _).
  destruct (step_up_ok n7 m0 code CR 16 s1 A) as (s2 & -> & B2 & KP2 & C2' & C3' & CL & S2).
  { constructor; apply B. }
  { exact C2. }
  { exact C3. }
  { change (k_c2 s1) with (k_c2 s). lia. }
  { exact S. }
  { rewrite (r_trans _ _ R). exact TR. }
  { apply R. }
  { rewrite (r_n2 _ _ R). exact N2. }
  cbn [rbind]. destruct (push_code_ok s2 code B2) as (s3 & -> & B3 & SB3 & BC3 & S3); [lia|lia|].
  destruct (keep_bits _ _ SB3) as (K3 & E2 & E3). clear SB3.
  pose proof (keep_tran _ _ _ KP2 K3) as K.
  assert (ES3 : k_esc s3 = skip_escapes w (k_esc s)) by (rewrite (kp_esc _ _ K); reflexivity).
  assert (ED : k_dic s3 = k_dic s) by (rewrite (kp_dic _ _ K); reflexivity).
  assert (ET : k_trans s3 = k_trans s) by (rewrite (kp_trans _ _ K); reflexivity).
  cbn [rbind]. eexists. split; [reflexivity|]. split.
  { destruct K. constructor; ksimpl; auto.
    - constructor; apply B3.
    - lia.
    - congruence.
    - rewrite ES3. apply skip_escapes_byte; exact BE.
    - congruence. }
  clearbody s1. split.
  - unfold SIM in *. change (sbits (set_flen (set_slen s3 0) 0)) with (sbits s3). ksimpl. rewrite S3, brun_app, S2. cbn [rbind].
    rewrite BC3, E2. change (k_c2 s2) with (a_c2 (with_c2 A (k_c2 s2))) at 2. rewrite brun_code1; cbn [a_trans a_c2 with_c2]; auto; try lia.
    2:{ rewrite (r_trans _ _ R). exact TR. }
    rewrite a_code_c2, AC by lia. cbn [rbind]. unfold ETM, FLUSH. replace ((code =? 0) || (code =? 1)) with false by lia. reflexivity.
  - constructor; ksimpl; cbn [a_esc a_c2 a_trans a_escd a_core with_c2]; congruence.
Qed.

(** ---- how the two sides relate ---- *)
Definition AI (n7 : Z) (A : ad) : Prop := CI n7 (a_core A) /\ (a_trans A = false -> c_l (a_core A) = 0).
(** In compressed mode with a string in progress: the decompressor's dictionary is one update behind. *)
Record MR (s : comp) (A : ad) (x0 : Z) : Prop := {
  mr_upd : upd_dict (c_d (a_core A)) (c_u (a_core A)) x0 = Ok (k_dic s);
  mr_add : c_d (a_core A) = k_dic s \/
           (k_la s = d_c1 (c_d (a_core A)) /\
            forall k, nidx k -> k <> d_c1 (c_d (a_core A)) ->
              n_parent (nd (d_nodes (k_dic s)) k) = n_parent (nd (d_nodes (c_d (a_core A))) k) /\
              n_octet (nd (d_nodes (k_dic s)) k) = n_octet (nd (d_nodes (c_d (a_core A))) k));
  mr_word : k_lm s <> 0 -> hd 0 (pend s) = x0 /\ word (d_nodes (c_d (a_core A))) (k_lm s) (pend s) /\ k_lm s <> d_c1 (c_d (a_core A))
}.
(** Ready to try the octet [x]. *)
Definition R1 (n7 : Z) (s : comp) (A : ad) (x : Z) : Prop :=
  if k_trans s then
    exists K0, crun n7 (a_core A) (pend s) = Ok K0 /\ cstep n7 K0 x = cstep n7 (kcore s) x /\ (k_lm s <> 0 -> K0 = kcore s)
  else exists x0, MR s A x0 /\ (k_lm s = 0 -> x0 = x).
(** With a string in progress. *)
Definition R2 (n7 : Z) (s : comp) (A : ad) : Prop :=
  if k_trans s then crun n7 (a_core A) (pend s) = Ok (kcore s) else exists x0, MR s A x0.
(** In compressed mode between strings; [nxt] is the octet which comes next. *)
Definition RC (s : comp) (A : ad) (nxt : option Z) : Prop :=
  c_d (a_core A) = k_dic s /\
  (c_u (a_core A) = k_upd_at s \/
   exists x m, nxt = Some x /\ k_upd_at s = 0 /\ match_octet (k_dic s) (c_u (a_core A)) x = Ok m /\ m <> 0).
(** At the head of the main loop. *)
Definition RH (n7 : Z) (s : comp) (A : ad) (nxt : option Z) : Prop :=
  if k_trans s then
    crun n7 (a_core A) (pend s) = Ok (kcore s) \/
    exists x, nxt = Some x /\ pend s = [] /\ k_lm s = 0 /\ cstep n7 (a_core A) x = cstep n7 (kcore s) x
  else (k_lm s = 0 -> RC s A nxt) /\ (k_lm s <> 0 -> exists x0, MR s A x0).
(** After the string matching loop. *)
Definition RM (n7 : Z) (s : comp) (A : ad) (nxt : option Z) : Prop :=
  if k_trans s then
    (crun n7 (a_core A) (pend s) = Ok (kcore s) /\ k_upd_at s = 0) \/
    exists x, nxt = Some x /\ pend s = [] /\ k_lm s = 0 /\ c_u (a_core A) = 0 /\ ctry n7 (a_core A) x = Ok (kcore s, false)
  else (k_lm s = 0 -> RC s A nxt) /\ (k_lm s <> 0 -> exists x0, MR s A x0).

Lemma word_len_fuel d n7 e w : WF d n7 -> 6 <= n7 <= 250 -> nidx e -> e <> d_c1 d -> word (d_nodes d) e w -> (length w <= walk_fuel)%nat.
Proof.
  intros W N R NE WD. destruct (WF_word d n7 e W R NE) as (v & WV & L). rewrite (word_fun _ _ _ _ WD WV).
  unfold walk_fuel, MAX_CODEWORDS. lia.
Qed.

(** The decompressor reads the codeword of the string in progress. *)
Lemma a_code_mid n7 s A x0 : AI n7 A -> a_trans A = false ->
  upd_dict (c_d (a_core A)) (c_u (a_core A)) x0 = Ok (k_dic s) ->
  hd 0 (pend s) = x0 /\ word (d_nodes (c_d (a_core A))) (k_lm s) (pend s) /\ k_lm s <> d_c1 (c_d (a_core A)) -> 3 <= k_lm s < 4096 -> k_lm s <> d_c1 (k_dic s) -> bytes (pend s) ->
  (Z.of_nat (length (pend s)) <> n7 -> ext_ok n7 (k_dic s) (k_lm s)) ->
  exists a, a_code n7 A (k_lm s) = Ok (mkA (mkC (k_dic s) (if Z.of_nat (length (pend s)) =? n7 then 0 else k_lm s) 0 a 0)
      false (a_escd A) (skip_escapes (pend s) (a_esc A)) (a_c2 A) (a_out A ++ pend s)) /\
    CI n7 (mkC (k_dic s) (if Z.of_nat (length (pend s)) =? n7 then 0 else k_lm s) 0 a 0).
Proof.
  intros (C & L0) TR M (HD & WD & LN) LR LC BP EX. specialize (L0 TR).
  unfold a_code. destruct (Z.ltb_spec (k_lm s) N6); [unfold N6 in *; lia|].
  destruct (Z.eqb_spec (k_lm s) (d_c1 (c_d (a_core A)))); [congruence|].
  destruct (length_ok _ _ (ci_wf _ _ C) _ _ WD ltac:(unfold nidx; lia) LN ltac:(lia) walk_fuel) as (_ & ->).
  { eapply word_len_fuel; eauto; [apply (ci_wf _ _ C)|apply C|unfold nidx; lia]. }
  cbn [rbind]. rewrite HD.
  assert (B0 : byte x0).
  { pose proof (word_pos _ _ _ WD). destruct (pend s) as [|y t]; [cbn in *; lia|]. cbn [hd] in HD. subst y. apply Forall_inv in BP. auto. }
  destruct (cupdate_ok n7 (a_core A) x0 C B0) as (K' & EU & C' & U' & L' & N' & N2' & D' & _).
  rewrite M in D'. injection D' as D'. 
  assert (FIN : forall a, a = 0 \/ 259 <= a -> CI n7 (mkC (k_dic s) (if Z.of_nat (length (pend s)) =? n7 then 0 else k_lm s) 0 a 0)).
  { intros a AR. constructor; cbn [c_d c_u c_l c_a c_n]; auto; try apply C.
    - rewrite D'. apply C'.
    - destruct (Z.eqb_spec (Z.of_nat (length (pend s))) n7); [left; reflexivity|auto].
    - left; auto. }
  pose proof (ci_a _ _ C') as CA'. pose proof (ci_a _ _ C) as CA.
  unfold cupdate in EU. pose proof M as MU. unfold upd_dict in MU.
  destruct (c_u (a_core A) =? 0).
  - injection EU as <-. cbn [rbind]. rewrite TR, <- D'. eexists. split; [reflexivity|apply FIN; auto].
  - destruct (match_octet _ _ _) as [m|]; cbn [rbind] in *; [|discriminate]. destruct (m =? 0).
    + destruct (add_octet _ _ _) as [[d y]|]; cbn [rbind] in *; [|discriminate]. injection EU as <-. cbn [c_d c_a] in *.
      rewrite <- D'. destruct (Z.eqb_spec (k_lm s) (d_c1 (k_dic s))); [congruence|]. cbn [rbind]. rewrite TR.
      eexists. split; [reflexivity|apply FIN; auto].
    + injection EU as <-. cbn [rbind c_d c_a] in *. rewrite TR, <- D'. eexists. split; [reflexivity|]. apply FIN. destruct (m =? c_a (a_core A)); auto.
Qed.

Definition e_iter (s : comp) (x : Z) : res (comp * bool * bool) :=
  do code <- match_octet (k_dic s) (k_lm s) x;
  if code =? 0 then
    do s <- send_encoded_data (set_upd_at s (k_lm s)) (k_lm s); Ok (set_lm s 0, false, true)
  else if code =? k_la s then
    do s <- send_encoded_data (set_la s 0) (k_lm s); Ok (set_lm s 0, false, true)
  else
    do str <- aset (k_str s) (k_slen s) x;
    let s := set_slen (set_str (set_lm s code) str) (k_slen s + 1) in
    if k_slen s + k_flen s =? k_n7 s then
      do s <- send_encoded_data s (k_lm s); Ok (set_lm s 0, true, true)
    else Ok (s, true, false).
Lemma match_string_iter s x rest : match_string s (x :: rest) =
  do (r, b) <- e_iter s x; let (s', t) := (r : comp * bool) in
  if b : bool then Ok (s', if t then rest else x :: rest) else match_string s' rest.
Proof.
  cbn [match_string]. unfold e_iter. destruct (match_octet _ _ _) as [code|]; [|reflexivity]. cbn [rbind]. ksimpl.
  destruct (code =? 0). { destruct (send_encoded_data _ _); reflexivity. }
  destruct (code =? k_la s). { destruct (send_encoded_data _ _); reflexivity. }
  destruct (aset _ _ _); [|reflexivity]. cbn [rbind]. destruct (_ =? k_n7 s); [|reflexivity].
  destruct (send_encoded_data _ _); reflexivity.
Qed.

Definition keep_c (s s' : comp) : Prop := k_p0 s' = k_p0 s /\ k_mode s' = k_mode s /\ o_max (k_out s') = o_max (k_out s).
Lemma ei_sent n7 s0 s1 : sent s0 s1 -> k_n7 s0 = n7 -> length (k_str s0) = Z.to_nat 250 -> (k_trans s0 = true -> k_bc s0 = 0) ->
  CI n7 (mkC (k_dic s0) (k_upd_at s0) 0 (k_la s0) 0) ->
  EI n7 (set_lm s1 0) /\ kcore (set_lm s1 0) = mkC (k_dic s0) (k_upd_at s0) 0 (k_la s0) 0 /\ pend (set_lm s1 0) = [].
Proof.
  intros S N7 ST BC C. assert (KE : kcore (set_lm s1 0) = mkC (k_dic s0) (k_upd_at s0) 0 (k_la s0) 0).
  { unfold kcore. ksimpl. rewrite (se_dic _ _ S), (se_upd _ _ S), (se_la _ _ S), (se_slen _ _ S), (se_flen _ _ S). reflexivity. }
  assert (PE : pend (set_lm s1 0) = []).
  { unfold pend. ksimpl. rewrite (se_slen _ _ S). reflexivity. }
  split; [|auto]. constructor; ksimpl.
  - rewrite (se_n7 _ _ S). exact N7.
  - rewrite KE. exact C.
  - destruct (se_eb _ _ S). constructor; auto.
  - rewrite (se_str _ _ S). exact ST.
  - rewrite (se_slen _ _ S). lia.
  - rewrite (se_flen _ _ S). lia.
  - apply S.
  - apply S.
  - apply S.
  - rewrite PE. constructor.
  - rewrite (se_trans _ _ S). destruct (k_trans s0) eqn:T; [|apply S]. rewrite (se_bc _ _ S T). auto.
Qed.
Lemma keep_c_sent s s0 s1 : sent s0 s1 -> k_p0 s0 = k_p0 s -> k_mode s0 = k_mode s -> k_out s0 = k_out s -> keep_c s (set_lm s1 0).
Proof. intros S A B C. unfold keep_c. ksimpl. rewrite (se_p0 _ _ S), (se_mode _ _ S), (se_max _ _ S). repeat split; congruence. Qed.

(** A string is sent: [s0] is the state at the call, [K] the string matching state there. *)
Lemma emit_trans n7 m0 s s0 A K : EI n7 s -> k_trans s = true -> SIM n7 m0 s A -> RO s A -> AI n7 A ->
  k_p0 s0 = k_p0 s -> k_mode s0 = k_mode s -> k_trans s0 = true -> k_n7 s0 = k_n7 s -> k_bb s0 = k_bb s -> k_bc s0 = k_bc s -> k_out s0 = k_out s ->
  k_esc s0 = k_esc s -> k_c2 s0 = k_c2 s -> k_c3 s0 = k_c3 s -> d_n2 (k_dic s0) = d_n2 (k_dic s) -> length (k_str s0) = Z.to_nat 250 ->
  aslice (k_str s0) 0 (k_slen s0) = Ok (pend s0) -> bytes (pend s0) ->
  crun n7 (a_core A) (pend s0) = Ok K -> CI n7 K -> d_n2 (c_d K) = d_n2 (k_dic s) ->
  CI n7 (mkC (k_dic s0) (k_upd_at s0) 0 (k_la s0) 0) ->
  exists s1 A', send_encoded_data s0 (k_lm s0) = Ok s1 /\ EI n7 (set_lm s1 0) /\ SIM n7 m0 (set_lm s1 0) A' /\ RO (set_lm s1 0) A' /\ AI n7 A' /\
    keep_c s (set_lm s1 0) /\ k_trans s1 = true /\ kcore (set_lm s1 0) = mkC (k_dic s0) (k_upd_at s0) 0 (k_la s0) 0 /\ pend (set_lm s1 0) = [] /\
    a_core A' = K /\ a_out A' = a_out A ++ pend s0 /\ k_lm s1 = k_lm s0.
Proof.
  intros E TR S R (AC & AL) P0 MO T0 N70 BB BC OU ES C2 C3 N2 ST SL BP CR CK NK C'.
  pose proof (ei_mode _ _ E) as EM. rewrite TR in EM.
  destruct (send_trans_sim n7 m0 s0 A (k_lm s0) (pend s0) K) as (s1 & E1 & SE & S1 & RO1); auto.
  - destruct (ei_eb _ _ E). constructor; rewrite ?OU, ?BB, ?BC; auto.
  - congruence.
  - rewrite ES. apply E.
  - rewrite C2. apply E.
  - rewrite C2, C3. apply E.
  - unfold SIM, sbits in *. rewrite OU, BB, BC. exact S.
  - destruct R; constructor; congruence.
  - congruence.
  - cbv zeta in S1, RO1. set (A' := mkA K _ _ _ _ _) in *.
    destruct (ei_sent n7 s0 s1 SE) as (E' & KE & PE); auto; [rewrite N70; apply E|congruence|].
    exists s1, A'. split; [exact E1|]. split; [exact E'|]. split; [exact S1|]. split; [destruct RO1; constructor; auto|].
    split; [split; [exact CK|discriminate]|].
    split; [eapply keep_c_sent; eauto|]. split; [rewrite (se_trans _ _ SE); auto|]. pose proof (se_lm _ _ SE). auto 8.
Qed.
Lemma emit_code n7 m0 s s0 A x0 : EI n7 s -> k_trans s = false -> SIM n7 m0 s A -> RO s A -> AI n7 A ->
  k_p0 s0 = k_p0 s -> k_mode s0 = k_mode s -> k_trans s0 = false -> k_n7 s0 = k_n7 s -> k_bb s0 = k_bb s -> k_bc s0 = k_bc s -> k_out s0 = k_out s ->
  k_esc s0 = k_esc s -> k_c2 s0 = k_c2 s -> k_c3 s0 = k_c3 s -> k_dic s0 = k_dic s -> length (k_str s0) = Z.to_nat 250 ->
  aslice (k_str s0) 0 (k_slen s0) = Ok (pend s0) -> bytes (pend s0) ->
  upd_dict (c_d (a_core A)) (c_u (a_core A)) x0 = Ok (k_dic s0) ->
  hd 0 (pend s0) = x0 /\ word (d_nodes (c_d (a_core A))) (k_lm s0) (pend s0) /\ k_lm s0 <> d_c1 (c_d (a_core A)) -> 3 <= k_lm s0 < 4096 -> k_lm s0 <> d_c1 (k_dic s0) ->
  (Z.of_nat (length (pend s0)) <> n7 -> ext_ok n7 (k_dic s0) (k_lm s0)) ->
  CI n7 (mkC (k_dic s0) (k_upd_at s0) 0 (k_la s0) 0) ->
  exists s1 A', send_encoded_data s0 (k_lm s0) = Ok s1 /\ EI n7 (set_lm s1 0) /\ SIM n7 m0 (set_lm s1 0) A' /\ RO (set_lm s1 0) A' /\ AI n7 A' /\
    keep_c s (set_lm s1 0) /\ k_trans s1 = false /\ kcore (set_lm s1 0) = mkC (k_dic s0) (k_upd_at s0) 0 (k_la s0) 0 /\ pend (set_lm s1 0) = [] /\
    c_d (a_core A') = k_dic s0 /\ c_u (a_core A') = (if Z.of_nat (length (pend s0)) =? n7 then 0 else k_lm s0) /\
    a_out A' = a_out A ++ pend s0 /\ k_lm s1 = k_lm s0.
Proof.
  intros E TR S R AA P0 MO T0 N70 BB BC OU ES C2 C3 DI ST SL BP M MW LR LC EX C'.
  destruct (a_code_mid n7 s0 A x0 AA) as (a & EA & CA); auto; [rewrite (r_trans _ _ R); exact TR|].
  set (A1 := mkA _ _ _ _ _ _) in EA.
  destruct (send_code_sim n7 m0 s0 A (k_lm s0) (pend s0) A1) as (s1 & E1 & SE & S1 & RO1); auto.
  - destruct (ei_eb _ _ E). constructor; rewrite ?OU, ?BB, ?BC; auto.
  - rewrite ES. apply E.
  - rewrite C2. apply E.
  - rewrite C2, C3. apply E.
  - rewrite DI. apply (ei_n2 _ _ E).
  - unfold SIM, sbits in *. rewrite OU, BB, BC. exact S.
  - destruct R; constructor; congruence.
  - exact (r_escd _ _ R).
  - unfold A1. cbn [a_esc]. rewrite (r_esc _ _ R), ES. reflexivity.
  - destruct (ei_sent n7 s0 s1 SE) as (E' & KE & PE); auto; [rewrite N70; apply E|congruence|].
    exists s1, (with_c2 A1 (k_c2 s1)). split; [exact E1|]. split; [exact E'|]. split; [exact S1|]. split; [destruct RO1; constructor; auto|].
    split; [split; [exact CA|reflexivity]|].
    split; [eapply keep_c_sent; eauto|]. split; [rewrite (se_trans _ _ SE); auto|]. pose proof (se_lm _ _ SE). auto 8.
Qed.

(** No update pending, an attempt which fails. *)
Lemma pend_len n7 s : EI n7 s -> Z.of_nat (length (pend s)) = k_slen s.
Proof.
  intros H. unfold pend. rewrite firstn_length. pose proof (ei_zlen _ _ H). pose proof (ei_total _ _ H). pose proof (ei_slen _ _ H).
  pose proof (ei_flen _ _ H). lia.
Qed.
Lemma cstep_taken n7 K x K' : ctry n7 K x = Ok (K', true) -> cstep n7 K x = Ok K'.
Proof. intros E. unfold cstep. rewrite E. reflexivity. Qed.

Lemma iter_sim n7 m0 s A x : EI n7 s -> k_upd_at s = 0 -> byte x -> SIM n7 m0 s A -> RO s A -> AI n7 A -> R1 n7 s A x ->
  exists s' t b A', e_iter s x = Ok (s', t, b) /\ EI n7 s' /\ SIM n7 m0 s' A' /\ RO s' A' /\ AI n7 A' /\ keep_c s s' /\
    a_out A' ++ pend s' = (a_out A ++ pend s) ++ (if t then [x] else []) /\
    (b = false -> t = true /\ k_lm s' <> 0 /\ k_upd_at s' = 0 /\ R2 n7 s' A') /\
    (b = true -> k_lm s' = 0 /\ RM n7 s' A' (if t then None else Some x)).
Proof.
  intros E U B S R AA H. pose proof (ei_ci _ _ E) as C. pose proof (ei_total _ _ E) as (TOT & N7).
  destruct (ctry0_ok n7 (kcore s) x C B U) as (m & K' & t & EM & ET & CK' & DK' & CASES). unfold e_iter.
  change (c_d (kcore s)) with (k_dic s) in *. change (c_l (kcore s)) with (k_lm s) in *. change (c_a (kcore s)) with (k_la s) in *.
  change (c_n (kcore s)) with (k_slen s + k_flen s) in *. change (c_u (kcore s)) with (k_upd_at s) in *.
  rewrite EM. cbn [rbind]. pose proof (ei_zlen _ _ E) as ZL. pose proof (ei_slen _ _ E) as SL. pose proof (ei_flen _ _ E) as FL.
  pose proof (pend_slice _ _ E) as PS. pose proof (ei_pend _ _ E) as BP. pose proof (pend_len _ _ E) as PL.
  assert (LMR : k_lm s <> 0 -> 3 <= k_lm s < 4096 /\ k_lm s <> d_c1 (k_dic s) /\ ext_ok n7 (k_dic s) (k_lm s)).
  { intros LN. destruct (ci_l _ _ C) as [(L0 & _)|(LR & LC & LT & w & W & WL)]; unfold kcore in *; ksimpl; [congruence|].
    split; [auto|]. split; [auto|]. right. split; [auto|]. split; [auto|]. exists w. split; [auto|lia]. }
  destruct CASES as [(M & T & EK & LN)|[(M & MA & T & EK & LN)|(M & MA & T & UK & AK & MR_ & MC & OC & PA & NX)]].
  - (* not in the dictionary *)
    subst t K'. rewrite M. cbn [Z.eqb]. destruct (LMR LN) as (LR & LC & EX).
    unfold R1 in H. destruct (k_trans s) eqn:TR.
    + destruct H as (K0 & CR & _ & EQ). specialize (EQ LN). subst K0.
      destruct (emit_trans n7 m0 s (set_upd_at s (k_lm s)) A (kcore s)) as (s1 & A' & E1 & E' & S' & R' & A1 & KC & T1 & KE & PE & AC & AO & _);
        auto; try reflexivity; try (apply E).
      change (k_lm (set_upd_at s (k_lm s))) with (k_lm s) in E1. rewrite E1. cbn [rbind].
      exists (set_lm s1 0), false, true, A'. split; [reflexivity|]. do 5 (split; [auto|]). split.
      { rewrite PE, AO, !app_nil_r. reflexivity. }
      split; [discriminate|]. intros _. split; [reflexivity|]. unfold RM. ksimpl. rewrite T1. right. exists x.
      split; [auto|]. split; [auto|]. split; [auto|]. rewrite AC. split; [exact U|]. rewrite ET, KE. reflexivity.
    + destruct H as (x0 & HM & _).
      destruct (emit_code n7 m0 s (set_upd_at s (k_lm s)) A x0) as (s1 & A' & E1 & E' & S' & R' & A1 & KC & T1 & KE & PE & AC & AU & AO & _);
        auto; try reflexivity; try (apply E).
      { apply HM. }
      { apply HM. auto. }
      change (k_lm (set_upd_at s (k_lm s))) with (k_lm s) in E1. rewrite E1. cbn [rbind].
      exists (set_lm s1 0), false, true, A'. split; [reflexivity|]. do 5 (split; [auto|]). split.
      { rewrite PE, AO, !app_nil_r. reflexivity. }
      split; [discriminate|]. intros _. split; [reflexivity|]. unfold RM. change (k_trans (set_lm s1 0)) with (k_trans s1). rewrite T1.
      split; [|intros Z0; exfalso; apply Z0; reflexivity]. intros _. unfold RC. injection KE as KE1 KE2 _ _. rewrite AC, AU.
      change (pend (set_upd_at s (k_lm s))) with (pend s). destruct (Z.eqb_spec (Z.of_nat (length (pend s))) n7); [lia|].
      ksimpl. rewrite KE1, KE2. split; [reflexivity|left; reflexivity].
  - (* the entry just added *)
    subst t K'. destruct (Z.eqb_spec m 0); [congruence|]. destruct (Z.eqb_spec m (k_la s)); [|congruence]. destruct (LMR LN) as (LR & LC & EX).
    assert (CZ : CI n7 (mkC (k_dic s) (k_upd_at s) 0 0 0)) by (rewrite U; exact CK').
    unfold R1 in H. destruct (k_trans s) eqn:TR.
    + destruct H as (K0 & CR & _ & EQ). specialize (EQ LN). subst K0.
      destruct (emit_trans n7 m0 s (set_la s 0) A (kcore s)) as (s1 & A' & E1 & E' & S' & R' & A1 & KC & T1 & KE & PE & AC & AO & _);
        auto; try reflexivity; try (apply E).
      change (k_lm (set_la s 0)) with (k_lm s) in E1. rewrite E1. cbn [rbind].
      exists (set_lm s1 0), false, true, A'. split; [reflexivity|]. do 5 (split; [auto|]). split.
      { rewrite PE, AO, !app_nil_r. reflexivity. }
      split; [discriminate|]. intros _. split; [reflexivity|]. unfold RM. ksimpl. rewrite T1. right. exists x.
      split; [auto|]. split; [auto|]. split; [auto|]. rewrite AC. split; [exact U|]. rewrite ET, KE, U. reflexivity.
    + destruct H as (x0 & HM & _).
      destruct (emit_code n7 m0 s (set_la s 0) A x0) as (s1 & A' & E1 & E' & S' & R' & A1 & KC & T1 & KE & PE & AC & AU & AO & _);
        auto; try reflexivity; try (apply E).
      { apply HM. }
      { apply HM. auto. }
      change (k_lm (set_la s 0)) with (k_lm s) in E1. rewrite E1. cbn [rbind].
      exists (set_lm s1 0), false, true, A'. split; [reflexivity|]. do 5 (split; [auto|]). split.
      { rewrite PE, AO, !app_nil_r. reflexivity. }
      split; [discriminate|]. intros _. split; [reflexivity|]. unfold RM. change (k_trans (set_lm s1 0)) with (k_trans s1). rewrite T1.
      split; [|intros Z0; exfalso; apply Z0; reflexivity]. intros _. unfold RC. injection KE as KE1 KE2 _ _. rewrite AC, AU.
      change (pend (set_la s 0)) with (pend s). destruct (Z.eqb_spec (Z.of_nat (length (pend s))) n7); [lia|].
      ksimpl. rewrite KE1, KE2. split; [reflexivity|right]. exists x, m. split; [auto|]. split; [exact U|]. split; [exact EM|auto].
  - (* taken *)
    subst t. destruct (Z.eqb_spec m 0); [congruence|]. destruct (Z.eqb_spec m (k_la s)); [congruence|].
    rewrite aset_ok by lia. cbn [rbind]. cbv zeta.
    set (str := upd (k_str s) (Z.to_nat (k_slen s)) x).
    set (s0 := set_slen (set_str (set_lm s m) str) (k_slen s + 1)).
    assert (STR : length str = Z.to_nat 250) by (unfold str; rewrite upd_length; apply E).
    assert (P0 : pend s0 = pend s ++ [x]).
    { unfold pend, s0. ksimpl. unfold str. replace (Z.to_nat (k_slen s + 1)) with (1 + Z.to_nat (k_slen s))%nat by lia.
      apply firstn_upd_next. lia. }
    assert (PL0 : Z.of_nat (length (pend s0)) = k_slen s + 1) by (rewrite P0, app_length; cbn [length]; lia).
    assert (PS0 : aslice (k_str s0) 0 (k_slen s0) = Ok (pend s0)).
    { apply aslice_prefix. unfold s0. ksimpl. rewrite STR. lia. }
    assert (BP0 : bytes (pend s0)).
    { rewrite P0. apply Forall_app. split; [auto|]. constructor; [exact B|constructor]. }
    assert (SIMT : k_trans s = true -> crun n7 (a_core A) (pend s0) = Ok K').
    { intros TR. unfold R1 in H. rewrite TR in H. destruct H as (K0 & CR & CS & _). rewrite P0, crun_app, CR. cbn [rbind crun].
      rewrite CS, (cstep_taken _ _ _ _ ET). reflexivity. }
    assert (MR0 : k_trans s = false -> exists x0, MR s0 A x0).
    { intros TR. unfold R1 in H. rewrite TR in H. destruct H as (x0 & HM & HX). exists x0.
      assert (FR : m <> d_c1 (c_d (a_core A)) /\ n_parent (nd (d_nodes (c_d (a_core A))) m) = k_lm s /\ n_octet (nd (d_nodes (c_d (a_core A))) m) = x).
      { destruct (mr_add _ _ _ HM) as [ED|(LA & F)]; [rewrite ED; auto|].
        assert (NE : m <> d_c1 (c_d (a_core A))) by congruence.
        destruct (F m ltac:(unfold nidx; lia) NE) as (F1 & F2). split; [auto|]. split; congruence. }
      destruct FR as (F0 & F1 & F2). constructor.
      - apply HM.
      - destruct (mr_add _ _ _ HM) as [ED|(LA & F)]; [left; exact ED|right; split; [exact LA|exact F]].
      - intros _. change (k_lm s0) with m. rewrite P0. split; [|split; [|exact F0]].
        + destruct (Z.eq_dec (k_lm s) 0) as [Z0|NZ].
          * destruct (ei_zero _ _ E Z0) as (SZ & _). assert (pend s = []) as ->.
            { apply length_zero_iff_nil. lia. }
            cbn [app hd]. symmetry. auto.
          * destruct (mr_word _ _ _ HM NZ) as (HD & WD & _). pose proof (word_pos _ _ _ WD).
            destruct (pend s); [cbn in *; lia|exact HD].
        + destruct (Z.eq_dec (k_lm s) 0) as [Z0|NZ].
          * destruct (ei_zero _ _ E Z0) as (SZ & _). assert (pend s = []) as ->.
            { apply length_zero_iff_nil. lia. }
            cbn [app]. rewrite <- F2. constructor 1. congruence.
          * destruct (mr_word _ _ _ HM NZ) as (HD & WD & _). rewrite <- F2. constructor 2; rewrite F1; auto. }
    change (k_slen s0) with (k_slen s + 1). change (k_flen s0) with (k_flen s). change (k_n7 s0) with (k_n7 s).
    rewrite (ei_n7 _ _ E).
    assert (AP : forall o, (o ++ pend s0 : list Z) = (o ++ pend s) ++ [x]) by (intros o; rewrite P0, app_assoc; reflexivity).
    destruct NX as [(NE & LK & NK)|(NL & LK & NK)].
    + destruct (Z.eqb_spec (k_slen s + 1 + k_flen s) n7); [|lia].
      assert (KEQ : K' = mkC (k_dic s) (k_upd_at s) 0 (k_la s) 0) by (destruct K'; cbn in *; congruence).
      assert (CZ : CI n7 (mkC (k_dic s) (k_upd_at s) 0 (k_la s) 0)) by (rewrite <- KEQ; exact CK').
      destruct (k_trans s) eqn:TR.
      * destruct (emit_trans n7 m0 s s0 A K') as (s1 & A' & E1 & E' & S' & R' & A1 & KC & T1 & KE & PE & AC & AO & _);
          auto; try reflexivity; [rewrite DK'; reflexivity|].
        rewrite E1. cbn [rbind].
        exists (set_lm s1 0), true, true, A'. split; [reflexivity|]. do 5 (split; [auto|]). split.
        { rewrite PE, AO, app_nil_r. auto. }
        split; [discriminate|]. intros _. split; [reflexivity|]. unfold RM. change (k_trans (set_lm s1 0)) with (k_trans s1). rewrite T1.
        left. rewrite AC, PE. cbn [crun]. split; [rewrite KE, KEQ; reflexivity|]. injection KE as _ KU _ _. ksimpl. congruence.
      * destruct (MR0 eq_refl) as (x0 & HM). pose proof (ei_mode _ _ E) as EMD. rewrite TR in EMD.
        destruct (emit_code n7 m0 s s0 A x0) as (s1 & A' & E1 & E' & S' & R' & A1 & KC & T1 & KE & PE & AC & AU & AO & _);
          auto; try reflexivity; try apply HM; try (exact M); try (intros; lia).
        rewrite E1. cbn [rbind].
        exists (set_lm s1 0), true, true, A'. split; [reflexivity|]. do 5 (split; [auto|]). split.
        { rewrite PE, AO, app_nil_r. auto. }
        split; [discriminate|]. intros _. split; [reflexivity|]. unfold RM. change (k_trans (set_lm s1 0)) with (k_trans s1). rewrite T1.
        split; [|intros Z0; exfalso; apply Z0; reflexivity]. intros _. unfold RC. injection KE as KE1 KE2 _ _. rewrite AC, AU.
        destruct (Z.eqb_spec (Z.of_nat (length (pend s0))) n7); [|lia].
        ksimpl. rewrite KE1, KE2. split; [reflexivity|left; symmetry; exact U].
    + destruct (Z.eqb_spec (k_slen s + 1 + k_flen s) n7); [lia|].
      assert (KEQ : K' = kcore s0) by (unfold kcore, s0; ksimpl; destruct K'; cbn in *; f_equal; try congruence; lia).
      exists s0, true, false, A. split; [reflexivity|].
      assert (E0 : EI n7 s0).
      { constructor; try apply E; auto.
        - rewrite <- KEQ. exact CK'.
        - destruct (ei_eb _ _ E); constructor; auto.
        - change (k_slen s0) with (k_slen s + 1). lia. }
      split; [exact E0|]. split; [exact S|]. split; [destruct R; constructor; auto|]. split; [exact AA|]. split; [repeat split|].
      split; [apply AP|]. split; [|discriminate]. intros _. split; [reflexivity|]. split; [change (k_lm s0) with m; auto|].
      split; [exact U|]. unfold R2. change (k_trans s0) with (k_trans s). destruct (k_trans s) eqn:TR; [|auto].
      rewrite <- KEQ. auto.
Qed.
