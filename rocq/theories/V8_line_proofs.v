(** Two ends joined by a line. *)
From Verif Require Import Base V8_model V8_spec V8_codec_proofs V8_bit_proofs V8_stream_proofs.
Local Open Scope Z_scope.

(** ---- writing ---- *)
Lemma queue_write_ok q l : (length q + length l <= 1024)%nat -> queue_write q l = q ++ l.
Proof. intros H. unfold queue_write, QUEUE. rewrite firstn_all2 by lia. reflexivity. Qed.
Lemma put_bytes_ok d : forall q, (length q + 10 * length d <= 1024)%nat -> put_bytes q d = q ++ flat_map framed d.
Proof.
  induction d as [|o d IH]; intros q H; [symmetry; apply app_nil_r|]. unfold put_bytes in *. cbn [fold_left flat_map length] in *.
  assert (E : put_byte q o = q ++ framed o) by (unfold put_byte; change (false :: bits_lsb 8 o ++ [true]) with (framed o); apply queue_write_ok; rewrite framed_length; lia).
  rewrite E, IH by (rewrite app_length, framed_length; lia). rewrite <- app_assoc. reflexivity.
Qed.
Lemma put_message q o d : (length q + 20 + 10 * length d <= 1024)%nat -> put_bytes (put_preamble q) (o :: d) = q ++ message o d.
Proof.
  intros H. unfold put_preamble, message. fold ten_ones. rewrite queue_write_ok by (change (length ten_ones) with 10%nat; lia).
  rewrite put_bytes_ok by (rewrite app_length; change (length ten_ones) with 10%nat; cbn [length]; lia). rewrite <- app_assoc. reflexivity.
Qed.
Lemma framed_all_length d : length (flat_map framed d) = (10 * length d)%nat.
Proof. induction d as [|o d IH]; [reflexivity|]. cbn [flat_map length]. rewrite app_length, IH, framed_length. lia. Qed.
Lemma message_length o d : length (message o d) = (20 + 10 * length d)%nat.
Proof. unfold message. rewrite app_length, framed_all_length. change (length ten_ones) with 10%nat. cbn [length]. lia. Qed.
Lemma tbits_octets d : tbits (map Oct d) = flat_map framed d.
Proof. induction d as [|o d IH]; [reflexivity|]. unfold tbits in *. cbn [map flat_map bits_tok]. rewrite IH. reflexivity. Qed.
Lemma tbits_message m : tbits (mtoks m) = message (fst m) (snd m).
Proof. unfold mtoks, message. cbn [flat_map]. unfold tbits. cbn [flat_map bits_tok]. fold (tbits (map Oct (snd m))). rewrite tbits_octets. reflexivity. Qed.

(** ---- more about streams ---- *)
Lemma JS_message S S' m r pend : grown S m S' -> ended S = false -> msg_ok S m -> JS S r pend -> JS S' r (pend ++ message (fst m) (snd m)).
Proof. intros G F O H. rewrite <- tbits_message. refine (J_app (KT S) (KT S') r pend (mtoks m) _ H). intros. eapply KT_app; eassumption. Qed.
Definition closed (S : stream) : stream :=
  {| D := D S; offered := offered S; before := before S; after := after S; may_ci := may_ci S; zero_max := zero_max S + 3; only_ci := false; ended := true |}.
Lemma JS_closed S r pend : ended S = false -> JS S r pend -> JS (closed S) r (pend ++ flat_map framed [0; 0; 0]).
Proof.
  intros F H. rewrite <- tbits_octets. refine (J_app (KT S) (KT (closed S)) r pend (map Oct [0; 0; 0]) _ H).
  intros k ts (d & ms & tail & Hk & E). pose proof (k_end _ _ _ _ _ _ Hk F) as ->. rewrite app_nil_r in E. exists d, ms, [0; 0; 0].
  split; [|destruct k; [rewrite E, <- app_assoc; reflexivity | rewrite app_comm_cons, E; reflexivity]].
  destruct Hk. constructor; try assumption; cbn [closed zero_max ended only_ci D] in *; try discriminate.
  - repeat (constructor; [unfold byte; lia|]). constructor.
  - intros X. destruct (k_data X) as [Y|(_ & _ & Y)]; [left; exact Y | congruence].
  - cbn [cz Z.eqb] in *. lia.
  - intros X. specialize (k_cj X). lia.
Qed.
(** changing the result *)
Lemma J_imp (K1 K2 : past -> rcv -> list token -> Prop) r r' pend : bit_stream r' = bit_stream r -> bit_cnt r' = bit_cnt r -> ptype r' = ptype r ->
  (forall k ts, K1 k r ts -> K2 k r' ts) -> J K1 r pend -> J K2 r' pend.
Proof.
  intros E1 E2 E3 H (k & u & v & y & ts & E & B & L & W & C & Ht & U & HK). exists k, u, v, y, ts. unfold wf, win in *. rewrite E1, E2, E3. repeat (split; [assumption|]). auto.
Qed.
Lemma JS_result S p r pend : jm_cm p = jm_cm (result r) -> JS S r pend -> JS S (w_result p r) pend.
Proof.
  intros E. apply J_imp; try reflexivity. intros k ts (d & ms & tail & H & X). exists d, ms, tail. split; [|exact X].
  destruct H. constructor; try assumption; cbn [w_result result]; rewrite E; assumption.
Qed.
Definition accepted (c : caps) (S : stream) : stream :=
  {| D := D S; offered := offered S; before := before S; after := c; may_ci := may_ci S; zero_max := zero_max S; only_ci := only_ci S; ended := ended S |}.
Lemma JS_accept S p r pend : got_cm r = true -> JS S r pend -> JS (accepted (jm_cm p) S) (w_result p r) pend.
Proof.
  intros G. apply J_imp; try reflexivity. intros k ts (d & ms & tail & H & X). exists d, ms, tail. split; [|exact X].
  destruct H. constructor; try assumption; cbn [w_result result got_cm] in *; [reflexivity | congruence].
Qed.
(** starting again in the middle of a stream *)
Lemma JS_decode_init S r pend : got_cm r = false -> JS S r pend -> JS S (decode_init r) pend.
Proof.
  intros G (k & u & v & y & ts & E & B & L & W & C & Ht & U & HK). exists k, u, v, y, ts. split; [exact E|]. split; [exact B|]. split; [exact L|].
  split; [unfold wf; cbn; lia|]. split.
  { exists 20%nat. split; [lia|]. rewrite skipn_all2 by (rewrite (boundary_length _ _ _ B); lia). reflexivity. }
  split; [exact Ht|]. split; [cbn; congruence|]. destruct HK as (d & ms & tail & H & X). exists d, ms, tail. split; [|exact X].
  destruct H. constructor; try assumption; cbn [decode_init ptype cm_data got_cm got_cj zeros result] in *; try discriminate.
  - pose proof (cz_nonneg d). lia.
  - left. reflexivity.
  - intros [Y|[Y|Y]]; [discriminate | congruence | discriminate].
  - intros Y. destruct (k_ci Y). split; [discriminate | assumption].
  - intros Y. destruct (k_only Y). repeat split; auto.
  - intros _. apply k_open. exact G.
Qed.
Record virgin (c : caps) (r : rcv) : Prop := {
  v_b : bit_stream r = 0; v_p : ptype r = SYNC_UNKNOWN; v_c : cm_data r = []; v_g : got_cm r = false; v_j : got_cj r = false; v_z : zeros r = 0; v_n : mbytes r = 3; v_r : jm_cm (result r) = c }.
Lemma JS_virgin S r c : nothing_said c -> (may_ci S = false -> c = before S) -> after S = offered S -> 0 <= zero_max S -> virgin c r -> JS S r [].
Proof.
  intros Hc Hb Ha Hz []. exists AfterOct, (repeat false 20), [], [], []. split; [reflexivity|]. split.
  { exists (repeat false 10), (repeat false 10). split; [reflexivity|]. split; [reflexivity|]. exists (repeat false 9). split; reflexivity. }
  split; [cbn; lia|]. split; [unfold wf; rewrite v_b0; lia|]. split; [exists 20%nat; split; [lia|]; unfold win; rewrite v_b0; reflexivity|]. split; [auto|]. split; [congruence|].
  exists [], [], []. split; [|reflexivity]. constructor; try congruence; try constructor; rewrite ?v_p0, ?v_c0, ?v_g0, ?v_j0, ?v_z0, ?v_n0, ?v_r0; try congruence; try discriminate; try (cbn; lia); auto.
  - intros x m y X. destruct x; discriminate.
Qed.

Lemma flush_got h r r' e : flush h r = Ok (r', e) -> got_cm r = true -> got_cm r' = true.
Proof.
  unfold flush. intros E G. destruct (ptype r); try (inversion E; subst; exact G).
  - unfold ci_decode in E. destruct (got_ci r); inversion E; subst; exact G.
  - unfold cm_jm_decode in E. rewrite G in E. cbn in E. inversion E; subst; exact G.
Qed.
Lemma put_bit_got h r bit r' e : put_bit h r bit = Ok (r', e) -> got_cm r = true -> got_cm r' = true.
Proof.
  unfold put_bit. cbv zeta. set (b := Z.lor _ _). intros E G.
  assert (X : forall r1 e1, (match preamble_of b with SYNC_UNKNOWN => Ok (w_bits b (bit_cnt r) r, []) | t => do (r, e) <- flush h (w_bits b (bit_cnt r) r); Ok (w_sync t r, e) end) = Ok (r1, e1) -> got_cm r1 = true).
  { intros r1 e1 Y. destruct (preamble_of b); [inversion Y; subst; exact G | | |]; (destruct (flush h (w_bits b (bit_cnt r) r)) as [[r2 e2]|] eqn:F; [|discriminate Y]; cbn in Y; inversion Y; subst; exact (flush_got _ _ _ _ F G)). }
  change (match ptype (w_bits b (bit_cnt r) r) with SYNC_CI => ci_decode h (w_bits b (bit_cnt r) r) | SYNC_CM_JM => do r0 <- cm_jm_decode (w_bits b (bit_cnt r) r); Ok (r0, []) | _ => Ok (w_bits b (bit_cnt r) r, []) end)
    with (flush h (w_bits b (bit_cnt r) r)) in E.
  destruct (match preamble_of b with SYNC_UNKNOWN => _ | _ => _ end) as [[r1 e1]|]; [|discriminate E]. specialize (X r1 e1 eq_refl). cbn [rbind] in E.
  assert (Y : forall x, Ok (x, e1) = Ok (r', e) -> got_cm x = true -> got_cm r' = true) by (intros x Z1 Z2; injection Z1 as <- _; exact Z2).
  revert E. destruct (ptype r1); [intros E; exact (Y _ E X) | | |]; (match goal with |- context [if ?c then _ else _] => generalize c; intros c0; destruct c0 end); intros E; apply (Y _ E); exact X.
Qed.
Lemma put_bits_got h l : forall r r' e, put_bits h r l = Ok (r', e) -> got_cm r = true -> got_cm r' = true.
Proof.
  induction l as [|x l IH]; intros r r' e E G; [inversion E; subst; exact G|]. cbn [put_bits] in E. destruct (put_bit h r x) as [[r1 e1]|] eqn:E1; [|discriminate E]. cbn [rbind] in E.
  destruct (put_bits h r1 l) as [[r2 e2]|] eqn:E2; [|discriminate E]. inversion E; subst. eapply IH; [exact E2|]. eapply put_bit_got; eassumption.
Qed.

(** ---- the ends ---- *)
Section Line.
Context (pa pb : parms) (ha hb : parms -> parms).
Hypothesis Hga : observer ha. Hypothesis Hgb : answers_offer hb. Hypothesis Hgw : gateway pb = false.
Definition DA : list Z := cm_octets 3 (jm_cm pa) (jm_cm pa).
Definition OA : caps := offer (jm_cm pa) (jm_cm pa).
Definition C0 (p : parms) : caps :=
  {| call_function := call_function (jm_cm p); modulations := modulations (jm_cm p); protocols := 0; pstn_access := 0; nsf := -1; pcm := 0; t66 := -1 |}.
(** [z]: the zeros there may be in what the caller has written, whether it has written CIs only, and whether CJ *)
Record written := { zb : Z; only : bool; fin : bool }.
Definition SA (z : written) (c : caps) : stream :=
  {| D := DA; offered := OA; before := OA; after := c; may_ci := true; zero_max := zb z; only_ci := only z; ended := fin z |}.
Definition DB (q0 : parms) : list Z := cm_octets 3 (jm_cm (hb q0)) (jm_cm pb).
Definition OB (q0 : parms) : caps := offer (jm_cm (hb q0)) (jm_cm pb).
Definition SB (q0 : parms) : stream :=
  {| D := DB q0; offered := OB q0; before := C0 pa; after := OB q0; may_ci := false; zero_max := 0; only_ci := false; ended := false |}.
Lemma SA_wf z c : wf_stream (SA z c). Proof. exists (jm_cm pa), (jm_cm pa). split; reflexivity. Qed.
Lemma SB_wf q0 : wf_stream (SB q0). Proof. exists (jm_cm (hb q0)), (jm_cm pb). split; reflexivity. Qed.
Lemma keeps_a : keeps ha. Proof. intros p _. apply Hga. Qed.
Lemma keeps_b : keeps hb. Proof. intros p H. apply Hgb. rewrite H. discriminate. Qed.
Lemma cz_fit l : Forall fit l -> cz l = 0.
Proof. induction 1 as [|o l (_ & H & _) F IH]; [reflexivity|]. cbn [cz]. rewrite IH. destruct (Z.eqb_spec o 0); [congruence | reflexivity]. Qed.

(** what the caller writes *)
Definition grows (z : written) (new : list bool) (z' : written) : Prop := forall r pend c, JS (SA z c) r pend -> JS (SA z' c) r (pend ++ new).
Lemma grows_nil z : grows z [] z. Proof. intros r pend c H. rewrite app_nil_r. exact H. Qed.
Lemma grows_app z1 n1 z2 n2 z3 : grows z1 n1 z2 -> grows z2 n2 z3 -> grows z1 (n1 ++ n2) z3.
Proof. intros A B r pend c H. rewrite app_assoc. apply B, A, H. Qed.
Definition w0 : written := {| zb := 0; only := true; fin := false |}.
Lemma grows_ci x : grows w0 (message 0 [u8 (Z.lor (Z.shiftl x 5) 1)]) w0.
Proof.
  rewrite tagged by lia. pose proof (tagged_fit x 1 ltac:(lia)) as F. intros r pend c H. apply (JS_message (SA w0 c) (SA w0 c) (0, [x mod 8 * 32 + 1])); [| reflexivity | | exact H].
  - repeat split. + cbn [SA zero_max w0 zb snd]. rewrite (cz_fit [_]) by (constructor; [exact F | constructor]). lia. + left. repeat split.
  - repeat split; [left; reflexivity | constructor; [apply F | constructor] | discriminate].
Qed.
Definition more_zeros (n : Z) (z : written) : written := {| zb := zb z + n; only := false; fin := false |}.
Lemma more_0 z : fin z = false -> only z = false -> more_zeros 0 z = z.
Proof. destruct z; cbn. intros -> ->. unfold more_zeros. cbn. f_equal. lia. Qed.
Lemma more_more a b z : more_zeros a (more_zeros b z) = more_zeros (a + b) z. Proof. unfold more_zeros. cbn. f_equal. lia. Qed.
Lemma grows_msg z m : fin z = false -> fst m <> 0 -> (forall c, msg_ok (SA z c) m) -> grows z (message (fst m) (snd m)) (more_zeros (cz (snd m)) z).
Proof.
  intros F N O r pend c H. apply (JS_message (SA z c)); auto. unfold grown, SA, more_zeros; cbn. repeat split; auto.
Qed.
Lemma DA_fit : Forall fit DA /\ (4 <= length DA <= 8)%nat. Proof. apply cm_fit. Qed.
Lemma grows_cm z : fin z = false -> grows z (message 0xE0 DA) (more_zeros 0 z).
Proof.
  intros F. rewrite <- (cz_fit DA) by apply DA_fit. apply (grows_msg z (0xE0, DA)); [exact F | discriminate|]. intros c. repeat split; [right; left; reflexivity | apply fit_bytes, DA_fit].
Qed.
Lemma grows_v92 z x : fin z = false -> byte x -> exists n, 0 <= n <= 1 /\ grows z (message 0x55 [x]) (more_zeros n z).
Proof.
  intros F B. exists (cz [x]). split; [cbn; destruct (x =? 0); lia|]. apply (grows_msg z (0x55, [x])); [exact F | discriminate|].
  intros c. repeat split; [right; right; reflexivity | constructor; [exact B | constructor] | discriminate].
Qed.
Definition closing (z : written) : written := {| zb := zb z + 3; only := false; fin := true |}.
Lemma grows_cj z : fin z = false -> grows z (flat_map framed [0; 0; 0]) (closing z).
Proof. intros F r pend c H. apply JS_closed in H; [exact H | exact F]. Qed.

(** ---- the caller ---- *)
Definition RA (qb : option parms) (r : rcv) (pend : list bool) : Prop :=
  match qb with None => pend = [] /\ virgin (C0 pa) r | Some q0 => JS (SB q0) r pend end.
Lemma C0_said : nothing_said (C0 pa). Proof. repeat split. Qed.
Definition got (qb : option parms) (r : rcv) : Prop := got_cm r = true -> exists q0, qb = Some q0 /\ jm_cm (result r) = OB q0.
Definition open (r : rcv) : Prop := got_cm r = false -> jm_cm (result r) = C0 pa.
Lemma RA_facts qb r pend : RA qb r pend -> got qb r /\ open r /\ mbytes r = 3.
Proof.
  intros H. unfold RA in H. destruct qb as [q0|].
  - destruct (JS_K _ _ _ H) as (k & d & ms & tail & Hk). destruct Hk. repeat split; [intros X; exists q0; split; [reflexivity | apply k_acc; exact X] | intros X; apply k_open; auto | exact k_n].
  - destruct H as [_ []]. repeat split; [intros X; congruence | intros _; exact v_r0 | exact v_n0].
Qed.
Lemma RA_bits qb r bits rest : RA qb r (bits ++ rest) -> exists r' e, put_bits ha r bits = Ok (r', e) /\ RA qb r' rest /\ Forall quiet_event e.
Proof.
  intros H. unfold RA in *. destruct qb as [q0|]; [apply (JS_bits (SB q0)); [apply SB_wf | apply keeps_a | exact H]|].
  destruct H as [E V]. apply app_eq_nil in E as [-> ->]. exists r, []. cbn. repeat split; auto; constructor || apply V.
Qed.
Lemma RA_result qb p r pend : jm_cm p = jm_cm (result r) -> RA qb r pend -> RA qb (w_result p r) pend.
Proof. intros E H. destruct qb as [q0|]; [apply JS_result; assumption|]. destruct H as [-> []]. split; [reflexivity|]. constructor; try assumption. cbn. congruence. Qed.
Lemma RA_init qb r pend : got_cm r = false -> RA qb r pend -> RA qb (decode_init r) pend.
Proof. intros G H. destruct qb as [q0|]; [apply JS_decode_init; assumption|]. destruct H as [-> []]. split; [reflexivity|]. constructor; try reflexivity; assumption. Qed.

Definition phase_a (z : written) (s : v8) : Prop :=
  match st s with
  | WAIT_1S | AWAIT_ANSAM | CI_OFF => z = w0 /\ got_cm (rx s) = false /\ queue s = []
  | CI_ON => z = w0 /\ got_cm (rx s) = false /\ (length (queue s) <= 120)%nat /\ (fsk_on s = false -> queue s = [])
  | HEARD_ANSAM => fin z = false /\ zb z = 0 /\ got_cm (rx s) = false /\ (length (queue s) <= 120)%nat
  | CM_ON => fin z = false /\ 0 <= zb z <= 2 /\ got_cm (rx s) = false /\ (length (queue s) <= 300)%nat
  | CJ_ON => got_cm (rx s) = true
  | PARKED => True
  | _ => False
  end.
Record AI (qb : option parms) (z : written) (s : v8) (pend : list bool) : Prop := {
  a_par : par s = pa; a_rx : st s <> PARKED -> RA qb (rx s) pend; a_got : got qb (rx s);
  a_zb : 0 <= zb z; a_only : only z = true -> qb = None; a_cj : 3 <= zb z -> got_cm (rx s) = true; a_ph : phase_a z s }.
Definition calls_a (s : v8) (e : list parms) : Prop := forall q, In q e -> status q = V8_CALL -> got_cm (rx s) = true /\ jm_cm q = jm_cm (result (rx s)).
Lemma calls_quiet s e : Forall quiet_event e -> calls_a s e.
Proof. intros F q I X. rewrite Forall_forall in F. apply F in I. unfold quiet_event in I. rewrite I in X. discriminate. Qed.
Lemma calls_app s e1 e2 : calls_a s e1 -> calls_a s e2 -> calls_a s (e1 ++ e2).
Proof. intros A B q I. apply in_app_or in I as [I|I]; auto. Qed.
Lemma calls_one s p : status p <> V8_CALL -> calls_a s [p].
Proof. intros H q [->|[]] X. contradiction. Qed.
(** the outcome of a call of v8_rx() *)
Definition A_out (qb : option parms) (z : written) (s : v8) (rest : list bool) (o : res (v8 * list parms)) : Prop :=
  exists s' e new z', o = Ok (s', e) /\ queue s' = queue s ++ new /\ grows z new z' /\ AI qb z' s' rest /\ calls_a s' e /\ (got_cm (rx s) = true -> got_cm (rx s') = true).

Lemma ci_burst s q : queue s = q -> (length q <= 100)%nat -> grows w0 (skipn (length q) (send_ci_burst (result (rx s)) q)) w0 /\ exists new, send_ci_burst (result (rx s)) q = q ++ new /\ grows w0 new w0 /\ length new = 120%nat.
Proof.
  intros _ L. set (x := call_function (jm_cm (result (rx s)))). set (m := message 0 [u8 (Z.lor (Z.shiftl x 5) 1)]).
  assert (One : forall q, (length q <= 900)%nat -> one_ci (result (rx s)) q = q ++ m) by (intros q' L'; unfold one_ci, m; apply put_message; cbn [length]; lia).
  assert (Lm : length m = 30%nat) by reflexivity.
  assert (E : send_ci_burst (result (rx s)) q = q ++ m ++ m ++ m ++ m).
  { unfold send_ci_burst. rewrite (One q) by lia. rewrite (One (q ++ m)) by (rewrite !app_length; lia). rewrite (One ((q ++ m) ++ m)) by (rewrite !app_length; lia).
    rewrite (One (((q ++ m) ++ m) ++ m)) by (rewrite !app_length; lia). rewrite <- !app_assoc. reflexivity. }
  assert (G : grows w0 (m ++ m ++ m ++ m) w0) by (repeat (eapply grows_app; [apply grows_ci|]); apply grows_ci).
  split; [rewrite E, skipn_app, skipn_all, Nat.sub_diag; exact G|]. exists (m ++ m ++ m ++ m). split; [exact E|]. split; [exact G | rewrite !app_length; lia].
Qed.
Lemma start_ci_ok qb s pend : AI qb w0 s pend -> st s <> PARKED -> queue s = [] -> got_cm (rx s) = false -> forall x y n,
  A_out qb w0 s pend (Ok (start_ci (w_ci x y (w_neg n s)), [])).
Proof.
  intros H Ns Eq G x y n. destruct (ci_burst s [] Eq ltac:(cbn; lia)) as (_ & new & E & Gr & L).
  exists (start_ci (w_ci x y (w_neg n s))), [], new, w0. split; [reflexivity|]. unfold start_ci. cbn [w_st w_q w_ci w_neg queue rx].
  rewrite Eq, E. split; [reflexivity|]. split; [exact Gr|]. destruct H. split; [|split; [intros q [] | auto]].
  constructor; try assumption; cbn [w_st w_q w_ci w_neg queue rx st]; [intros _; apply a_rx0; exact Ns|]. unfold phase_a. cbn [st w_st w_q queue rx w_ci w_neg fsk_on].
  split; [reflexivity|]. split; [exact G|]. split; [cbn; lia | discriminate].
Qed.
Lemma stays qb z s rest s' e : par s' = par s -> queue s' = queue s -> rx s' = rx s -> (st s' <> PARKED -> RA qb (rx s) rest) -> AI qb z s rest -> phase_a z s' -> calls_a s' e -> A_out qb z s rest (Ok (s', e)).
Proof.
  intros E1 E2 E3 R H P C. exists s', e, [], z. split; [reflexivity|]. split; [rewrite app_nil_r; exact E2|]. split; [apply grows_nil|]. split; [|split; [exact C | rewrite E3; auto]].
  destruct H. constructor; try assumption; rewrite ?E1, ?E3; assumption.
Qed.
Lemma park_ok qb z s rest x : AI qb z s rest \/ (par s = pa /\ got qb (rx s) /\ 0 <= zb z /\ (only z = true -> qb = None) /\ (3 <= zb z -> got_cm (rx s) = true)) -> (x = V8_CALL -> got_cm (rx s) = true) -> exists s' e, park ha x s = (s', e) /\ queue s' = queue s /\ par s' = par s /\ got_cm (rx s') = got_cm (rx s) /\
  mbytes (rx s') = mbytes (rx s) /\ jm_cm (result (rx s')) = jm_cm (result (rx s)) /\ fsk_on s' = fsk_on s /\ neg_timer s' = neg_timer s /\ (forall rest', AI qb z s' rest') /\ calls_a s' e /\ st s' = PARKED.
Proof.
  intros H Hx. eexists _, _. split; [reflexivity|]. cbn [w_st w_rx queue par rx w_result got_cm result mbytes fsk_on neg_timer st]. repeat (split; [reflexivity|]).
  split; [cbn; rewrite Hga; reflexivity|]. repeat (split; [reflexivity|]). split; [|split; [|reflexivity]].
  - assert (H' : par s = pa /\ got qb (rx s) /\ 0 <= zb z /\ (only z = true -> qb = None) /\ (3 <= zb z -> got_cm (rx s) = true)) by (destruct H as [[]|H]; auto).
    destruct H' as (P1 & P2 & P3 & P4 & P5). intros rest'. constructor; try assumption; cbn.
    + congruence.
    + intros X. destruct (P2 X) as (q0 & Y & Z). exists q0. split; [exact Y|]. cbn. rewrite Hga. exact Z.
    + exact I.
  - intros q [<-|[]] X. cbn. rewrite Hga. split; [apply Hx; exact X | reflexivity].
Qed.
Lemma tone_ok qb z s rest a v : AI qb z s rest -> RA qb (rx s) rest -> phase_a z s -> z = w0 -> got_cm (rx s) = false -> (length (queue s) <= 120)%nat ->
  A_out qb z s rest (Ok (handle_calling_tone ha s a v)).
Proof.
  intros H R P Ez G L. unfold handle_calling_tone. set (s1 := w_rx (w_result (set_tone (result (rx s)) v) (rx s)) s).
  assert (R1 : RA qb (rx s1) rest) by (apply RA_result; [reflexivity | exact R]).
  assert (H1 : AI qb z s1 rest) by (destruct H; constructor; try assumption; intros; assumption).
  destruct a.
  - eexists _, [], [], z. split; [reflexivity|]. cbn [w_rx w_neg w_ci w_st queue s1]. split; [symmetry; apply app_nil_r|]. split; [apply grows_nil|]. split; [|split; [intros q [] | congruence]].
    destruct H1. constructor; try assumption; cbn [w_rx w_neg w_ci w_st rx st par zb].
    + intros _. apply RA_init; [exact G | exact R1].
    + intros X. discriminate X.
    + rewrite Ez. cbn. lia.
    + unfold phase_a. cbn [w_rx w_neg w_ci w_st rx st queue s1]. rewrite Ez. repeat split; auto.
  - destruct (park_ok qb z s1 rest NON_V8_CALL (or_introl H1) ltac:(discriminate)) as (s' & e & E & Q & _ & Gs & _ & _ & _ & _ & A & C & _).
    exists s', e, [], z. rewrite E. split; [reflexivity|]. split; [rewrite app_nil_r; exact Q|]. split; [apply grows_nil|]. split; [apply A|]. split; [exact C|]. intros X. congruence.
Qed.
(** CM until a JM is there *)
Lemma send_cm s : mbytes (rx s) = 3 -> jm_cm (result (rx s)) = C0 pa -> par s = pa -> (length (queue s) <= 400)%nat -> send_message s = queue s ++ message 0xE0 DA.
Proof.
  intros E1 E2 E3 L. unfold send_message, send_cm_jm. rewrite E1, E2, E3. change (cm_octets 3 (C0 pa) (jm_cm pa)) with DA. apply put_message. pose proof (proj2 DA_fit). lia.
Qed.
Lemma cm_on_ok qb z s bits rest len : AI qb z s (bits ++ rest) -> st s = HEARD_ANSAM \/ st s = CM_ON -> got_cm (rx s) = false -> A_out qb z s rest (cm_on ha s len bits).
Proof.
  intros H Es G. assert (Ns : st s <> PARKED) by (destruct Es as [-> | ->]; discriminate). destruct (RA_bits _ _ _ _ (a_rx _ _ _ _ H Ns)) as (r' & e & E & R & Q).
  unfold cm_on, rx_bits. rewrite E. cbn [rbind]. set (s1 := w_rx r' s). change (rx s1) with r'.
  assert (Bz : fin z = false /\ 0 <= zb z <= 2 /\ (length (queue s) <= 300)%nat /\ (st s = HEARD_ANSAM -> zb z = 0 /\ (length (queue s) <= 120)%nat)).
  { pose proof (a_ph _ _ _ _ H) as P. unfold phase_a in P. destruct Es as [Es|Es]; rewrite Es in P; rewrite Es.
    - destruct P as (P1 & P2 & P3 & P4). split; [exact P1|]. split; [lia|]. split; [lia|]. intros _. split; [exact P2 | exact P4].
    - destruct P as (P1 & P2 & P3 & P4). split; [exact P1|]. split; [lia|]. split; [lia|]. discriminate. }
  destruct Bz as (Bf & Bz & Bl & Bh). destruct (RA_facts _ _ _ R) as (Gt & Op & Nm). destruct H. unfold phase_a in a_ph0.
  destruct (got_cm r') eqn:Eg.
  - (* CJ *)
    eexists _, e, (flat_map framed [0; 0; 0]), (closing z). split; [reflexivity|]. cbn [w_st w_q queue rx s1 w_rx].
    split; [rewrite put_bytes_ok by (cbn [length]; lia); reflexivity|]. split; [apply grows_cj; exact Bf|]. split; [|split; [apply calls_quiet; exact Q | auto]].
    constructor; cbn [w_st w_q rx s1 w_rx par st closing zb only]; try assumption; try (intros; assumption); try lia.
  - set (s2 := w_neg (neg_timer s1 - len) s1).
    (* the message is written or not; the timer has run out or not *)
    assert (T : exists s3 e3, (if neg_timer s2 <=? 0 then park ha FAILED s2 else (s2, [])) = (s3, e3) /\ queue s3 = queue s /\ par s3 = pa /\ got_cm (rx s3) = false /\ mbytes (rx s3) = 3 /\ jm_cm (result (rx s3)) = C0 pa /\
       got qb (rx s3) /\ (st s3 <> PARKED -> RA qb (rx s3) rest) /\ (st s3 = PARKED \/ st s3 = st s) /\ Forall (fun q => status q <> V8_CALL) e3).
    { destruct (neg_timer s2 <=? 0).
      - destruct (park_ok qb z s2 rest FAILED) as (s3 & e3 & E3 & Q3 & P3 & G3 & N3 & J3 & _ & _ & A3 & C3 & S3).
        + right. cbn. repeat split; auto. intros X. specialize (a_cj0 X). congruence.
        + discriminate.
        + exists s3, e3. split; [exact E3|]. split; [exact Q3|]. split; [rewrite P3; exact a_par0|]. split; [rewrite G3; exact Eg|]. split; [rewrite N3; exact Nm|]. split; [rewrite J3; apply Op; exact Eg|].
          split; [apply (A3 rest)|]. split; [congruence|]. split; [left; exact S3|]. unfold park, report in E3. inversion E3; subst. constructor; [discriminate | constructor].
      - exists s2, []. repeat split; auto; try constructor; try (intros; apply R). }
    destruct T as (s3 & e3 & -> & Q3 & P3 & G3 & N3 & J3 & Gt3 & R3 & St3 & Ev3).
    assert (Cl : forall s', calls_a s' (e ++ e3)) by (intros s'; apply calls_app; [apply calls_quiet; exact Q | intros q I X; rewrite Forall_forall in Ev3; apply Ev3 in I; contradiction]).
    assert (Fin : forall s4 z', par s4 = pa -> rx s4 = rx s3 -> st s4 = st s3 -> fin z' = false -> zb z' = zb z -> (only z' = true -> qb = None) -> (length (queue s4) <= 300)%nat -> (st s = HEARD_ANSAM -> (length (queue s4) <= 120)%nat) -> AI qb z' s4 rest).
    { intros s4 z' E1 E2 E3 F1 F2 F3 L1 L2. constructor; try assumption; rewrite ?E2, ?E3, ?F2; try assumption; try lia.
      unfold phase_a. rewrite E3. destruct St3 as [-> | ->]; [exact I|]. destruct Es as [Es|Es]; rewrite Es in *; rewrite F2, E2; repeat split; auto; try lia; try (apply Bh; reflexivity). }
    destruct (Nat.ltb_spec (length (queue s3)) 10).
    + eexists _, (e ++ e3), (message 0xE0 DA), (more_zeros 0 z). split; [reflexivity|]. cbn [w_q queue rx].
      split; [rewrite send_cm by (auto; lia); rewrite Q3; reflexivity|]. split; [apply grows_cm; exact Bf|]. split; [|split; [apply Cl | congruence]].
      pose proof (proj2 DA_fit) as LD.
      apply Fin; cbn [w_q par rx st queue more_zeros fin zb only]; auto; try lia; try discriminate; rewrite send_cm by (auto; lia); rewrite app_length, message_length; lia.
    + eexists s3, (e ++ e3), [], z. split; [reflexivity|]. split; [rewrite app_nil_r; exact Q3|]. split; [apply grows_nil|]. split; [|split; [apply Cl | congruence]].
      apply Fin; auto; rewrite Q3; [exact Bl | intros X; apply Bh; exact X].
Qed.
Lemma A_rx qb z s bits rest len t : AI qb z s (bits ++ rest) -> (qb = None -> bits = [] /\ rest = []) -> A_out qb z s rest (v8_rx ha s len bits t).
Proof.
  intros H Nb. unfold v8_rx. pose proof (a_ph _ _ _ _ H) as P. unfold phase_a in P.
  assert (W0 : z = w0 -> bits = [] /\ rest = []) by (intros ->; apply Nb; apply (a_only _ _ _ _ H); reflexivity).
  destruct (st s) eqn:Es; try contradiction.
  - (* WAIT_1S *)
    destruct P as (Ez & G & Eq). destruct (W0 Ez) as [-> ->]. subst z. destruct (0 <? _).
    + apply stays; auto; [intros _; apply (a_rx _ _ _ _ H); congruence | unfold phase_a; cbn; rewrite Es; auto | intros q []].
    + pose proof (start_ci_ok qb s [] H ltac:(congruence) Eq G (ci_timer s) (ci_count s) (neg_timer s - len)) as X. exact X.
  - (* AWAIT *)
    destruct P as (Ez & G & Eq). destruct (W0 Ez) as [-> ->]. destruct (ansam t) as [[a v]|].
    + apply tone_ok; auto; [apply (a_rx _ _ _ _ H); congruence | apply (a_ph _ _ _ _ H) | rewrite Eq; cbn; lia].
    + apply stays; auto; [intros _; apply (a_rx _ _ _ _ H); congruence | apply (a_ph _ _ _ _ H) | intros q []].
  - (* CI_ON *)
    destruct P as (Ez & G & Lq & Fq). destruct (W0 Ez) as [-> ->]. destruct (ansam t) as [[a v]|].
    + apply tone_ok; auto; [apply (a_rx _ _ _ _ H); congruence | apply (a_ph _ _ _ _ H)].
    + destruct (fsk_on s) eqn:Ef.
      * apply stays; auto; [intros _; apply (a_rx _ _ _ _ H); congruence | apply (a_ph _ _ _ _ H) | intros q []].
      * apply stays; auto; [intros _; apply (a_rx _ _ _ _ H); congruence | unfold phase_a; cbn; auto | intros q []].
  - (* CI_OFF *)
    destruct P as (Ez & G & Eq). destruct (W0 Ez) as [-> ->]. destruct (ansam t) as [[a v]|].
    + apply tone_ok; auto; [apply (a_rx _ _ _ _ H); congruence | apply (a_ph _ _ _ _ H) | rewrite Eq; cbn; lia].
    + cbv zeta. destruct (_ <=? 0).
      * destruct (10 <=? _).
        { set (s1 := w_ci _ _ (w_ci _ _ s)). destruct (park_ok qb z s1 [] FAILED) as (s' & e & E & Q & _ & Gs & _ & _ & _ & _ & A & C & _); [right; destruct H; cbn; auto | discriminate|].
          rewrite E. exists s', e, [], z. split; [reflexivity|]. split; [rewrite app_nil_r; exact Q|]. split; [apply grows_nil|]. split; [apply A|]. split; [exact C|]. cbn in Gs. congruence. }
        { subst z. pose proof (start_ci_ok qb s [] H ltac:(congruence) Eq G (ci_timer s - len) (ci_count s + 1) (neg_timer s)) as X. exact X. }
      * apply stays; auto; [intros _; apply (a_rx _ _ _ _ H); congruence | unfold phase_a; cbn; rewrite Es; auto | intros q []].
  - (* HEARD_ANSAM *)
    destruct P as (Bf & Bz & G & Lq). cbv zeta. set (s1 := w_ci (ci_timer s - len) (ci_count s) s).
    destruct (ci_timer s1 <=? 0).
    + (* V.92 and the first CM *)
      set (s2 := w_neg (ms 5000) (w_rx (decode_init (rx s1)) s1)). set (s3 := w_q (fsk_on s2) (send_v92 (par s2) (queue s2)) s2). set (s4 := w_st CM_ON (w_q true (send_message s3) s3)).
      pose proof (a_rx _ _ _ _ H ltac:(congruence)) as R. destruct (RA_facts _ _ _ R) as (_ & Op & Nm). pose proof (RA_init _ _ _ G R) as R2.
      assert (V : exists n1 z1, send_v92 (par s2) (queue s2) = queue s ++ n1 /\ grows z n1 z1 /\ (length n1 <= 60)%nat /\ fin z1 = false /\ 0 <= zb z1 <= 2 /\ (only z1 = true -> only z = true)).
      { unfold send_v92. change (queue s2) with (queue s). destruct (0 <=? v92 (par s2)).
        - set (x := u8 (v92 (par s2))). assert (Bx : byte x) by (unfold x, u8, byte; apply Z.mod_pos_bound; lia).
          destruct (grows_v92 z x Bf Bx) as (n1 & B1 & G1). destruct (grows_v92 (more_zeros n1 z) x eq_refl Bx) as (n2 & B2 & G2).
          exists (message 0x55 [x] ++ message 0x55 [x]), (more_zeros n2 (more_zeros n1 z)). rewrite (put_message (queue s)) by (cbn [length]; lia). rewrite put_message by (rewrite app_length, message_length; cbn [length]; lia).
          split; [rewrite app_assoc; reflexivity|]. split; [eapply grows_app; eassumption|]. split; [rewrite app_length, !message_length; cbn; lia|]. cbn. repeat split; try lia; try discriminate.
        - exists [], z. split; [symmetry; apply app_nil_r|]. split; [apply grows_nil|]. repeat split; auto; cbn; lia. }
      destruct V as (n1 & z1 & Ev & G1 & L1 & F1 & B1 & O1). pose proof (proj2 DA_fit) as LD.
      assert (E3 : send_message s3 = queue s ++ n1 ++ message 0xE0 DA).
      { rewrite app_assoc, <- Ev. apply send_cm; [exact Nm | apply Op; exact G | apply (a_par _ _ _ _ H)|]. cbn [s3 w_q queue]. rewrite Ev, app_length. lia. }
      assert (H4 : AI qb (more_zeros 0 z1) s4 (bits ++ rest)).
      { destruct H. constructor; cbn [s4 w_st w_q rx par st more_zeros zb only]; try assumption; try lia; try discriminate.
        - intros _. exact R2.
        - unfold phase_a. cbn [s4 w_st w_q rx st queue more_zeros zb fin]. rewrite E3, !app_length, message_length. repeat split; lia. }
      destruct (cm_on_ok qb (more_zeros 0 z1) s4 bits rest len H4 (or_intror eq_refl) eq_refl) as (s' & e & new & z' & E & Q & Gr & A & C & M).
      exists s', e, ((n1 ++ message 0xE0 DA) ++ new), z'. split; [exact E|]. split; [rewrite Q; cbn [s4 w_st w_q queue]; rewrite E3, !app_assoc; reflexivity|].
      split; [eapply grows_app; [eapply grows_app; [exact G1 | apply grows_cm; exact F1] | exact Gr]|]. split; [exact A|]. split; [exact C | congruence].
    + assert (H1 : AI qb z s1 (bits ++ rest)) by (destruct H; constructor; try assumption; intros; apply a_rx0; congruence).
      destruct (cm_on_ok qb z s1 bits rest len H1 (or_introl Es) G) as (s' & e & new & z' & X). exists s', e, new, z'. exact X.
  - (* CM_ON *)
    apply cm_on_ok; auto. apply P.
  - (* CJ_ON *)
    destruct (RA_bits _ _ _ _ (a_rx _ _ _ _ H ltac:(congruence))) as (r' & e & E & R & Q). unfold rx_bits. rewrite E. cbn [rbind]. destruct (RA_facts _ _ _ R) as (Gt & Op & Nm).
    assert (Mono : got_cm r' = true).
    { eapply put_bits_got; eassumption. }
    set (s1 := w_rx r' s). change (fsk_on s1) with (fsk_on s). destruct (fsk_on s).
    + exists s1, e, [], z. split; [reflexivity|]. split; [symmetry; apply app_nil_r|]. split; [apply grows_nil|]. split; [|split; [apply calls_quiet; exact Q | intros _; exact Mono]].
      destruct H. constructor; try assumption; cbn; auto. unfold phase_a. cbn. rewrite Es. exact Mono.
    + destruct (park_ok qb z s1 rest V8_CALL) as (s' & e' & E' & Q' & _ & Gs & _ & _ & _ & _ & A & C & _); [right; destruct H; cbn; auto | intros _; exact Mono|].
      rewrite E'. exists s', (e ++ e'), [], z. split; [reflexivity|]. split; [rewrite app_nil_r; exact Q'|]. split; [apply grows_nil|]. split; [apply A|]. split; [apply calls_app; [apply calls_quiet; exact Q | exact C] | intros _; rewrite Gs; exact Mono].
  - (* PARKED *)
    exists s, [], [], z. split; [reflexivity|]. split; [symmetry; apply app_nil_r|]. split; [apply grows_nil|]. split; [|split; [intros q [] | auto]].
    destruct H. constructor; try assumption. congruence.
Qed.
(** ---- the answerer ---- *)
Record BI (qb : option parms) (z : written) (G : Prop) (s : v8) (pend : list bool) : Prop := {
  b_par : par s = pb;
  b_none : qb = None -> queue s = [] /\ fsk_on s = false /\ (st s = PARKED \/ st s = CM_WAIT /\ got_cm (rx s) = false /\ JS (SA z OA) (rx s) pend);
  b_some : forall q0, qb = Some q0 -> status q0 = OFFERED /\ jm_cm q0 = OA /\ jm_cm (result (rx s)) = jm_cm (hb q0) /\
    match st s with
    | JM_ON => (length (queue s) <= 110)%nat /\ JS (SA z (jm_cm (hb q0))) (rx s) pend /\ got_cm (rx s) = true
    | SIGA => G
    | PARKED => True
    | _ => False
    end }.
Definition wrote (qb : option parms) (s : v8) (qb' : option parms) (s' : v8) : Prop :=
  (qb' = qb /\ queue s' = queue s /\ (st s' = JM_ON -> st s = JM_ON)) \/
  (exists q0, qb' = Some q0 /\ (qb = None \/ qb = Some q0 /\ st s = JM_ON) /\ queue s' = queue s ++ message 0xE0 (DB q0)) \/
  (qb' = qb /\ st s = JM_ON /\ queue s' = [] /\ st s' <> JM_ON).
Definition calls_b (qb : option parms) (G : Prop) (e : list parms) : Prop :=
  forall q, In q e -> status q = V8_CALL -> exists q0, qb = Some q0 /\ jm_cm q = jm_cm (hb q0) /\ G.
Lemma callsb_no qb (G : Prop) e : Forall (fun q => status q <> V8_CALL) e -> calls_b qb G e.
Proof. intros F q I X. rewrite Forall_forall in F. apply F in I. contradiction. Qed.
Lemma quiet_no e : Forall quiet_event e -> Forall (fun q => status q <> V8_CALL) e.
Proof. intros F. eapply Forall_impl; [|exact F]. unfold quiet_event. intros p -> X. discriminate X. Qed.
Definition B_out (qb : option parms) (z : written) (Gp : Prop) (s : v8) (rest : list bool) (o : res (v8 * list parms)) : Prop :=
  exists s' e qb', o = Ok (s', e) /\ BI qb' z Gp s' rest /\ wrote qb s qb' s' /\ calls_b qb' Gp e /\ (only z = true -> qb = None -> qb' = None) /\
    (forall q0, qb' = Some q0 -> qb = Some q0 \/ In q0 e).
Lemma DB_len q0 : (4 <= length (DB q0) <= 8)%nat. Proof. apply cm_fit. Qed.
Lemma send_jm s q0 : mbytes (rx s) = 3 -> jm_cm (result (rx s)) = jm_cm (hb q0) -> par s = pb -> (length (queue s) <= 400)%nat -> send_message s = queue s ++ message 0xE0 (DB q0).
Proof.
  intros E1 E2 E3 L. unfold send_message, send_cm_jm. rewrite E1, E2, E3. fold (DB q0). apply put_message. pose proof (DB_len q0). lia.
Qed.
Lemma hb_keeps p x : x <> OFFERED -> jm_cm (hb (set_status p x)) = jm_cm p.
Proof. intros H. rewrite Hgb by exact H. reflexivity. Qed.
Lemma B_rx qb z (Gp : Prop) s bits rest len t : (3 <= zb z -> Gp) -> BI qb z Gp s (bits ++ rest) -> B_out qb z Gp s rest (v8_rx hb s len bits t).
Proof.
  intros HG H. unfold v8_rx. destruct qb as [q0|].
  - destruct (b_some _ _ _ _ _ H q0 eq_refl) as (Q1 & Q2 & Q3 & Q4). destruct (st s) eqn:Es; try contradiction.
    + (* JM_ON *)
      destruct Q4 as (Lq & HJ & G). destruct (JS_bits _ hb bits (rx s) rest (SA_wf _ _) keeps_b HJ) as (r' & e & E & HJ' & Qe).
      pose proof (put_bits_got _ _ _ _ _ E G) as G'. destruct (JS_K _ _ _ HJ') as (k & d & mm & tail & Hk). pose proof (k_acc _ _ _ _ _ _ Hk G') as Hr. cbn [SA after] in Hr. pose proof (k_n _ _ _ _ _ _ Hk) as Hn.
      unfold rx_bits. rewrite E. cbn [rbind]. set (s1 := w_rx r' s). change (rx s1) with r'. destruct (got_cj r') eqn:Ej.
      * eexists _, e, (Some q0). split; [reflexivity|]. split; [|split; [|split; [apply callsb_no, quiet_no; exact Qe | split; [discriminate | intros q X; left; exact X]]]].
        { constructor; [apply (b_par _ _ _ _ _ H) | discriminate|]. intros q X. injection X as <-. cbn. repeat split; auto. apply HG, (k_cj _ _ _ _ _ _ Hk Ej). }
        { right. right. cbn. repeat split; auto. discriminate. }
      * cbv zeta. set (s2 := w_neg (neg_timer s1 - len) s1). destruct (neg_timer s2 <=? 0).
        { cbn [park report]. eexists _, _, (Some q0). split; [reflexivity|]. split; [|split; [|split; [|split; [discriminate | intros q X; left; exact X]]]].
          - constructor; [apply (b_par _ _ _ _ _ H) | discriminate|]. intros q X. injection X as <-. cbn. rewrite hb_keeps by discriminate. repeat split; auto.
          - left. cbn. repeat split; auto.
          - apply callsb_no. apply Forall_app. split; [apply quiet_no; exact Qe | constructor; [discriminate | constructor]]. }
        { change (queue s2) with (queue s). destruct (Nat.ltb_spec (length (queue s)) 10).
          - assert (Em : send_message s2 = queue s ++ message 0xE0 (DB q0)) by (exact (send_jm s2 q0 Hn Hr (b_par _ _ _ _ _ H) ltac:(cbn; lia))).
            eexists _, e, (Some q0). split; [reflexivity|]. split; [|split; [|split; [apply callsb_no, quiet_no; exact Qe | split; [discriminate | intros q X; left; exact X]]]].
            + constructor; [apply (b_par _ _ _ _ _ H) | discriminate|]. intros q X. injection X as <-. cbn [w_q rx s2 w_neg s1 w_rx st]. rewrite Es. repeat (split; [assumption|]).
              cbn [queue w_q]. rewrite Em, app_length, message_length. pose proof (DB_len q0). repeat split; auto. lia.
            + right. left. exists q0. repeat split; auto.
          - eexists _, e, (Some q0). split; [reflexivity|]. split; [|split; [|split; [apply callsb_no, quiet_no; exact Qe | split; [discriminate | intros q X; left; exact X]]]].
            + constructor; [apply (b_par _ _ _ _ _ H) | discriminate|]. intros q X. injection X as <-. cbn [w_q rx s2 w_neg s1 w_rx st queue]. rewrite Es. repeat split; auto.
            + left. repeat split; auto. }
    + (* SIGA *)
      destruct (fsk_on s).
      * eexists s, [], (Some q0). split; [reflexivity|]. split; [|split; [|split; [intros q [] | split; [discriminate | intros q X; left; exact X]]]].
        { constructor; [apply (b_par _ _ _ _ _ H) | discriminate|]. intros q X. injection X as <-. rewrite Es. repeat split; auto. }
        { left. repeat split; auto. }
      * unfold park, report. eexists _, _, (Some q0). split; [reflexivity|]. split; [|split; [|split; [|split; [discriminate | intros q X; left; exact X]]]].
        { constructor; [apply (b_par _ _ _ _ _ H) | discriminate|]. intros q X. injection X as <-. cbn. rewrite hb_keeps by discriminate. repeat split; auto. }
        { left. cbn. repeat split; auto. discriminate. }
        { intros q [<-|[]] _. exists q0. repeat split; [exact Q3 | exact Q4]. }
    + (* PARKED *)
      eexists s, [], (Some q0). split; [reflexivity|]. split; [|split; [|split; [intros q [] | split; [discriminate | intros q X; left; exact X]]]].
      { constructor; [apply (b_par _ _ _ _ _ H) | discriminate|]. intros q X. injection X as <-. rewrite Es. repeat split; auto. }
      { left. repeat split; auto. }
  - destruct (b_none _ _ _ _ _ H eq_refl) as (Q1 & Q2 & [Q3|(Q3 & G & HJ)]).
    + rewrite Q3. eexists s, [], None. split; [reflexivity|]. split; [|split; [|split; [intros q [] | split; [reflexivity | discriminate]]]].
      { constructor; [apply (b_par _ _ _ _ _ H) | | discriminate]. intros _. repeat split; auto. }
      { left. repeat split; auto. }
    + rewrite Q3.
      (* a tone *)
      assert (T : exists s1 e1, match answering t with Some (a, v) => handle_answering_tone hb s a v | None => (s, []) end = (s1, e1) /\ par s1 = pb /\ queue s1 = [] /\ fsk_on s1 = false /\
        (st s1 = PARKED \/ st s1 = CM_WAIT) /\ got_cm (rx s1) = false /\ JS (SA z OA) (rx s1) (bits ++ rest) /\ Forall (fun q => status q <> V8_CALL) e1).
      { pose proof (b_par _ _ _ _ _ H) as Bp. destruct (answering t) as [[x v]|].
        - unfold handle_answering_tone, park, report.
          assert (X : forall y, y <> OFFERED -> JS (SA z OA) (w_result (hb (set_status (set_tone (result (rx s)) v) y)) (w_result (set_tone (result (rx s)) v) (rx s))) (bits ++ rest)).
          { intros y Ny. apply JS_result; [cbn; rewrite hb_keeps by exact Ny; reflexivity|]. apply JS_result; [reflexivity | exact HJ]. }
          destruct x; (eexists _, _; split; [reflexivity|]; cbn; repeat (split; [assumption|]); split; [left; reflexivity|]; split; [exact G|]; split; [apply X; discriminate | constructor; [discriminate | constructor]]).
        - exists s, []. repeat split; auto. }
      destruct T as (s1 & e1 & -> & P1 & P2 & P3 & P4 & P5 & P6 & P7).
      destruct (JS_bits _ hb bits (rx s1) rest (SA_wf _ _) keeps_b P6) as (r' & e & E & HJ' & Qe). unfold rx_bits. rewrite E. cbn [rbind]. set (s2 := w_rx r' s1). change (rx s2) with r'.
      destruct (JS_K _ _ _ HJ') as (k & d & mm & tail & Hk). pose proof (k_n _ _ _ _ _ _ Hk) as Hn.
      destruct (got_cm r') eqn:G'.
      * pose proof (k_acc _ _ _ _ _ _ Hk G') as Hr. cbn [SA after] in Hr. unfold report. set (q0 := set_status (result (rx s2)) OFFERED). set (s3 := w_rx (w_result (hb q0) (rx s2)) s2).
        replace (gateway (par s3)) with false by (cbn [s3 w_rx par s2]; rewrite P1; symmetry; exact Hgw).
        assert (Em : send_message (w_st JM_ON (w_neg (ms 5000) s3)) = message 0xE0 (DB q0)).
        { rewrite (send_jm _ q0); [cbn [w_st w_neg s3 w_rx queue s2]; rewrite P2; reflexivity | exact Hn | reflexivity | exact P1 | cbn [w_st w_neg s3 w_rx queue s2]; rewrite P2; cbn; lia]. }
        eexists _, _, (Some q0). split; [reflexivity|]. unfold start_jm. split; [|split; [|split; [|split]]].
        { constructor; [exact P1 | discriminate|]. intros q X. injection X as <-. cbn [w_q w_st w_neg s3 w_rx rx st w_result result queue]. rewrite Em, message_length. pose proof (DB_len q0).
          split; [reflexivity|]. split; [exact Hr|]. split; [reflexivity|]. split; [lia|]. split; [|exact G']. exact (JS_accept (SA z OA) (hb q0) r' rest G' HJ'). }
        { right. left. exists q0. split; [reflexivity|]. split; [left; reflexivity|]. cbn [w_q queue]. rewrite Em, Q1. reflexivity. }
        { apply callsb_no. apply Forall_app. split; [exact P7|]. apply Forall_app. split; [apply quiet_no; exact Qe | constructor; [discriminate | constructor]]. }
        { intros X _. destruct (k_only _ _ _ _ _ _ Hk X) as (_ & _ & _ & Y). congruence. }
        { intros q X. injection X as <-. right. apply in_or_app. right. apply in_or_app. right. left. reflexivity. }
      * cbv zeta. set (s3 := w_neg (neg_timer s2 - len) s2). destruct (neg_timer s3 <=? 0).
        { unfold park, report. eexists _, _, None. split; [reflexivity|]. split; [|split; [|split; [|split; [reflexivity | discriminate]]]].
          - constructor; [exact P1 | | discriminate]. intros _. cbn. repeat split; auto.
          - left. cbn. split; [reflexivity|]. split; [congruence | discriminate].
          - apply callsb_no. apply Forall_app. split; [exact P7|]. apply Forall_app. split; [apply quiet_no; exact Qe | constructor; [discriminate | constructor]]. }
        { eexists _, _, None. split; [reflexivity|]. split; [|split; [|split; [|split; [reflexivity | discriminate]]]].
          - constructor; [exact P1 | | discriminate]. intros _. cbn. split; [exact P2|]. split; [exact P3|]. destruct P4 as [P4|P4]; [left; exact P4 | right; repeat split; auto].
          - left. cbn. split; [reflexivity|]. split; [congruence|]. intros X. destruct P4; congruence.
          - apply callsb_no. apply Forall_app. split; [exact P7|]. rewrite app_nil_r. apply quiet_no; exact Qe. }
Qed.

Lemma BI_mono qb z (G1 G2 : Prop) s pend : (G1 -> G2) -> BI qb z G1 s pend -> BI qb z G2 s pend.
Proof.
  intros HG []. constructor; auto. intros q0 X. destruct (b_some0 q0 X) as (P1 & P2 & P3 & P4). refine (conj P1 (conj P2 (conj P3 _))). destruct (st s); auto.
Qed.
Lemma BI_grows qb z z' G s pend new : grows z new z' -> BI qb z G s pend -> BI qb z' G s (pend ++ new).
Proof.
  intros HG []. constructor; auto.
  - intros X. destruct (b_none0 X) as (P1 & P2 & [P3|(P3 & P4 & P5)]); (split; [assumption|]; split; [assumption|]); [left; assumption|]. right. repeat split; auto.
  - intros q0 X. destruct (b_some0 q0 X) as (P1 & P2 & P3 & P4). refine (conj P1 (conj P2 (conj P3 _))). destruct (st s); auto. destruct P4 as (P4 & P5 & P6). repeat split; auto.
Qed.
Lemma BI_tx qb z G s pend n : BI qb z G s pend -> BI qb z G (fst (v8_tx s n)) pend.
Proof.
  intros H. unfold v8_tx. destruct (fsk_on s) eqn:F; [|exact H]. destruct H. cbn [fst]. constructor; [exact b_par0 | |].
  - intros X. destruct (b_none0 X) as (P1 & P2 & _). congruence.
  - intros q0 X. destruct (b_some0 q0 X) as (P1 & P2 & P3 & P4). refine (conj P1 (conj P2 (conj P3 _))). cbn [w_q st rx queue]. destruct (st s); auto. rewrite skipn_length. destruct P4. split; [lia | assumption].
Qed.
Lemma tx_queue s n : snd (v8_tx s n) ++ queue (fst (v8_tx s n)) = queue s.
Proof. unfold v8_tx. destruct (fsk_on s); [apply firstn_skipn | reflexivity]. Qed.
Lemma tx_kept s n : st (fst (v8_tx s n)) = st s /\ rx (fst (v8_tx s n)) = rx s /\ par (fst (v8_tx s n)) = par s.
Proof. unfold v8_tx. destruct (fsk_on s); repeat split. Qed.
Lemma AI_tx qb z s pend n : AI qb z s pend -> AI qb z (fst (v8_tx s n)) pend.
Proof.
  intros H. unfold v8_tx. destruct (fsk_on s) eqn:F; [|exact H]. destruct H. cbn [fst]. constructor; try assumption. unfold phase_a in *. cbn [w_q st rx queue fsk_on].
  pose proof (skipn_length n (queue s)) as Ls. destruct (st s); try assumption; destruct a_ph0 as (P1 & P2 & P3);
    first [rewrite P3, skipn_nil; split; [exact P1|]; split; [exact P2 | reflexivity] | destruct P3 as (P3 & P4); split; [exact P1|]; split; [exact P2|]; split; [first [exact P3 | lia]|]; try lia].
  intros X. apply Nat.leb_gt in X. apply skipn_all2. lia.
Qed.
Lemma SB_message q0 r pend : JS (SB q0) r pend -> JS (SB q0) r (pend ++ message 0xE0 (DB q0)).
Proof.
  intros H. pose proof (proj1 (cm_fit (jm_cm (hb q0)) (jm_cm pb))) as F. apply (JS_message (SB q0) (SB q0) (0xE0, DB q0)); [| reflexivity | | exact H].
  - repeat split. + cbn [SB zero_max snd]. rewrite (cz_fit (DB q0)) by exact F. lia. + right. split; [reflexivity | discriminate].
  - repeat split; [right; left; reflexivity | apply fit_bytes; exact F].
Qed.
Lemma AI_start z s q0 : only z = false -> AI None z s [] -> AI (Some q0) z s (message 0xE0 (DB q0)).
Proof.
  intros Ho []. constructor; try assumption.
  - intros X. destruct (a_rx0 X) as [_ V]. apply (SB_message q0 (rx s) []). apply (JS_virgin (SB q0) (rx s) (C0 pa)); [apply C0_said | reflexivity | reflexivity | cbn; lia | exact V].
  - intros X. destruct (a_got0 X) as (q & Y & _). discriminate Y.
  - congruence.
Qed.
Lemma AI_message z s q0 pend : AI (Some q0) z s pend -> AI (Some q0) z s (pend ++ message 0xE0 (DB q0)).
Proof. intros []. constructor; try assumption. intros X. apply SB_message, a_rx0, X. Qed.

(** ---- the line ---- *)
Record Inv (w : line) (qb : option parms) (z : written) (more : list bool) : Prop := {
  i_a : AI qb z (a w) (ba w ++ queue (b w) ++ more); i_b : BI qb z (got_cm (rx (a w)) = true) (b w) (ab w ++ queue (a w));
  i_more : st (b w) = JM_ON -> more = []; i_none : qb = None -> ba w = [] /\ more = [];
  i_q0 : forall q0, qb = Some q0 -> In q0 (eb w) /\ status q0 = OFFERED /\ jm_cm q0 = OA;
  i_ea : forall q, In q (ea w) -> status q = V8_CALL -> exists q0, qb = Some q0 /\ jm_cm q = OB q0;
  i_eb : forall q, In q (eb w) -> status q = V8_CALL -> exists q0, qb = Some q0 /\ jm_cm q = jm_cm (hb q0) /\ got_cm (rx (a w)) = true }.
Lemma Inv_start : Inv (dialled pa pb) None w0 [].
Proof.
  constructor; cbn [dialled a b ab ba ea eb]; try discriminate; try (intros q []); auto.
  - constructor; try reflexivity; try discriminate; try (cbn; lia).
    + intros _. split; [reflexivity|]. constructor; reflexivity.
    + unfold phase_a. cbn. destruct (send_ci pa =? 0); repeat split; auto.
  - constructor; [reflexivity | | discriminate]. intros _. split; [reflexivity|]. split; [reflexivity|]. right. split; [reflexivity|]. split; [reflexivity|].
    apply (JS_virgin (SA w0 OA) _ (C0 pb)); [apply C0_said | discriminate | reflexivity | cbn; lia | constructor; reflexivity].
Qed.
Lemma Inv_step w qb z more m : Inv w qb z more -> exists w', line_step ha hb w m = Ok w' /\ (exists qb' z' more', Inv w' qb' z' more').
Proof.
  intros H. destruct H. destruct m as [n|n|len k t|len k t]; cbn [line_step].
  - destruct (v8_tx (a w) n) as [s o] eqn:E. eexists. split; [reflexivity|]. exists qb, z, more.
    pose proof (tx_queue (a w) n) as Q. pose proof (tx_kept (a w) n) as (K1 & K2 & K3). pose proof (AI_tx _ _ _ _ n i_a0) as A. rewrite E in *. cbn [fst snd] in *.
    constructor; cbn [a b ab ba ea eb]; rewrite ?K2; auto. rewrite <- app_assoc, Q. exact i_b0.
  - destruct (v8_tx (b w) n) as [s o] eqn:E. eexists. split; [reflexivity|]. exists qb, z, more.
    pose proof (tx_queue (b w) n) as Q. pose proof (tx_kept (b w) n) as (K1 & K2 & K3). pose proof (BI_tx _ _ _ _ _ n i_b0) as B.
    assert (X : qb = None -> ba w ++ o = [] /\ more = []).
    { intros X. destruct (i_none0 X) as [-> ->]. split; [|reflexivity]. destruct (b_none _ _ _ _ _ i_b0 X) as (_ & F & _). unfold v8_tx in E. rewrite F in E. injection E as _ <-. reflexivity. }
    rewrite E in *. cbn [fst snd] in *.
    constructor; cbn [a b ab ba ea eb]; rewrite ?K1; auto. rewrite <- app_assoc, (app_assoc o), Q. exact i_a0.
  - assert (Ha : AI qb z (a w) (firstn k (ba w) ++ skipn k (ba w) ++ queue (b w) ++ more)) by (rewrite (app_assoc (firstn k (ba w))), firstn_skipn; exact i_a0).
    destruct (A_rx qb z (a w) (firstn k (ba w)) (skipn k (ba w) ++ queue (b w) ++ more) len t Ha) as (s' & e & new & z' & E & Q & Gr & A & Ca & Mo).
    { intros X. destruct (i_none0 X) as [-> ->]. destruct (b_none _ _ _ _ _ i_b0 X) as (-> & _). rewrite firstn_nil, skipn_nil. split; reflexivity. }
    rewrite E. cbn [rbind]. eexists. split; [reflexivity|]. exists qb, z', more.
    constructor; cbn [a b ab ba ea eb]; auto.
    + rewrite Q, app_assoc. apply (BI_grows _ z); [exact Gr|]. eapply BI_mono; [exact Mo | exact i_b0].
    + intros X. destruct (i_none0 X) as [-> ->]. rewrite skipn_nil. split; reflexivity.
    + intros q I X. apply in_app_or in I as [I|I]; [auto|]. destruct (Ca q I X) as [G ->]. apply (a_got _ _ _ _ A G).
    + intros q I X. destruct (i_eb0 q I X) as (q0 & Y1 & Y2 & Y3). exists q0. auto.
  - assert (Hb : BI qb z (got_cm (rx (a w)) = true) (b w) (firstn k (ab w) ++ skipn k (ab w) ++ queue (a w))) by (rewrite (app_assoc (firstn k (ab w))), firstn_skipn; exact i_b0).
    destruct (B_rx qb z _ (b w) (firstn k (ab w)) (skipn k (ab w) ++ queue (a w)) len t (a_cj _ _ _ _ i_a0) Hb) as (s' & e & qb' & E & B & Wr & Cb & On & Nq).
    rewrite E. cbn [rbind]. eexists. split; [reflexivity|].
    assert (Q0 : forall q0, qb' = Some q0 -> In q0 (eb w ++ e) /\ status q0 = OFFERED /\ jm_cm q0 = OA).
    { intros q0 X. destruct (b_some _ _ _ _ _ B q0 X) as (Y1 & Y2 & _). split; [|split; assumption]. apply in_or_app. destruct (Nq q0 X) as [Y|Y]; [left; apply i_q1, Y | right; exact Y]. }
    assert (Ea : forall q0, qb = Some q0 -> qb' = Some q0 -> forall q, In q (ea w) -> status q = V8_CALL -> exists q0, qb' = Some q0 /\ jm_cm q = OB q0).
    { intros q0 -> -> q I X. exact (i_ea0 q I X). }
    destruct Wr as [(-> & Q & S)|[(q0 & -> & Or & Q)|(-> & S & Q & S')]].
    + exists qb, z, more. constructor; cbn [a b ab ba ea eb]; auto.
      * rewrite Q. exact i_a0.
      * intros q I X. apply in_app_or in I as [I|I]; [auto | exact (Cb q I X)].
    + exists (Some q0), z, []. destruct Or as [->|(-> & S)].
      * destruct (i_none0 eq_refl) as [N1 N2]. destruct (b_none _ _ _ _ _ i_b0 eq_refl) as (N3 & _).
        constructor; cbn [a b ab ba ea eb]; auto; try discriminate.
        -- rewrite Q, N1, N3, app_nil_r. cbn [app]. apply AI_start; [destruct (only z); [specialize (On eq_refl eq_refl); discriminate On | reflexivity]|].
           rewrite N1, N2, N3 in i_a0. exact i_a0.
        -- intros q I X. destruct (i_ea0 q I X) as (x & Y & _). discriminate Y.
        -- intros q I X. apply in_app_or in I as [I|I]; [destruct (i_eb0 q I X) as (x & Y & _); discriminate Y | exact (Cb q I X)].
      * pose proof (i_more0 S) as ->. constructor; cbn [a b ab ba ea eb]; auto; try discriminate.
        -- rewrite Q, app_nil_r, app_assoc. apply AI_message. rewrite app_nil_r in i_a0. exact i_a0.
        -- intros q I X. apply in_app_or in I as [I|I]; [auto | exact (Cb q I X)].
    + exists qb, z, (queue (b w) ++ more). constructor; cbn [a b ab ba ea eb]; auto.
      * rewrite Q. exact i_a0.
      * intros X. contradiction.
      * intros X. destruct (b_none _ _ _ _ _ i_b0 X) as (_ & _ & [Y|(Y & _)]); congruence.
      * intros q I X. apply in_app_or in I as [I|I]; [auto | exact (Cb q I X)].
Qed.
Lemma Inv_run l : forall w qb z more, Inv w qb z more -> exists w', line_run ha hb w l = Ok w' /\ (exists qb' z' more', Inv w' qb' z' more').
Proof.
  induction l as [|m l IH]; intros w qb z more H; [exists w; split; [reflexivity | exists qb, z, more; exact H]|].
  destruct (Inv_step _ _ _ _ m H) as (w' & E & qb' & z' & more' & H'). cbn [line_run]. rewrite E. cbn [rbind]. eapply IH; exact H'.
Qed.
(** What the two handlers are told. *)
Lemma agreement l : exists w, line_run ha hb (dialled pa pb) l = Ok w /\
  (forall q, In q (ea w) -> status q = V8_CALL -> exists q0, In q0 (eb w) /\ status q0 = OFFERED /\ jm_cm q0 = offer (jm_cm pa) (jm_cm pa) /\ jm_cm q = offer (jm_cm (hb q0)) (jm_cm pb)) /\
  (forall q, In q (eb w) -> status q = V8_CALL -> exists q0, In q0 (eb w) /\ status q0 = OFFERED /\ jm_cm q0 = offer (jm_cm pa) (jm_cm pa) /\ jm_cm q = jm_cm (hb q0) /\
     got_cm (rx (a w)) = true /\ jm_cm (result (rx (a w))) = offer (jm_cm (hb q0)) (jm_cm pb)) /\
  (forall qa q, In qa (ea w) -> status qa = V8_CALL -> In q (eb w) -> status q = V8_CALL -> jm_cm qa = offer (jm_cm q) (jm_cm pb)).
Proof.
  destruct (Inv_run l _ _ _ _ Inv_start) as (w & E & qb & z & more & []). exists w. split; [exact E|]. split; [|split].
  - intros q I X. destruct (i_ea0 q I X) as (q0 & -> & Y). destruct (i_q1 q0 eq_refl) as (Y1 & Y2 & Y3). exists q0. auto.
  - intros q I X. destruct (i_eb0 q I X) as (q0 & -> & Y & G). destruct (i_q1 q0 eq_refl) as (Y1 & Y2 & Y3). destruct (a_got _ _ _ _ i_a0 G) as (q1 & Y4 & Y5). injection Y4 as <-. exists q0. auto 10.
  - intros qa q I X I' X'. destruct (i_ea0 qa I X) as (q0 & -> & Y). destruct (i_eb0 q I' X') as (q1 & Y1 & Y2 & _). injection Y1 as <-. rewrite Y, Y2. reflexivity.
Qed.
End Line.
