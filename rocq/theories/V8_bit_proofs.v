(** The receiver bit by bit: the window of twenty bits, octets and synchronisation. *)
From Verif Require Import Base V8_model V8_spec V8_codec_proofs.
Local Open Scope Z_scope.

Definition win (r : rcv) : list bool := bits_lsb 20 (bit_stream r).
Definition wf (r : rcv) : Prop := 0 <= bit_stream r < 2 ^ 20.
Definition shift (b : Z) (bit : bool) : Z := Z.lor (Z.shiftr b 1) (Z.shiftl (Z.b2z bit) 19).
Lemma win_length r : length (win r) = 20%nat. Proof. apply bits_lsb_length. Qed.

Lemma testbit_above b n : 0 <= b < 2 ^ 20 -> 20 <= n -> Z.testbit b n = false.
Proof.
  intros H Hn. destruct (Z.eq_dec b 0) as [->|]; [apply Z.bits_0|]. apply Z.bits_above_log2; [lia|].
  apply Z.lt_le_trans with 20; [apply Z.log2_lt_pow2; lia | lia].
Qed.
Lemma shift_bit b bit n : 0 <= b < 2 ^ 20 -> 0 <= n -> Z.testbit (shift b bit) n = if n =? 19 then bit else Z.testbit b (n + 1).
Proof.
  intros H Hn. unfold shift. rewrite Z.lor_spec, Z.shiftr_spec by lia. destruct (Z.eqb_spec n 19) as [->|N].
  - rewrite (testbit_above b (19 + 1)) by lia. rewrite Z.shiftl_spec by lia. destruct bit; reflexivity.
  - replace (Z.testbit (Z.shiftl (Z.b2z bit) 19) n) with false; [apply orb_false_r|]. symmetry. destruct (Z.ltb_spec n 19).
    + apply Z.shiftl_spec_low; lia.
    + rewrite Z.shiftl_spec by lia. destruct bit; [|apply Z.bits_0]. change (Z.b2z true) with (2 ^ 0). apply Z.pow2_bits_false. lia.
Qed.
Lemma shift_range b bit : 0 <= b < 2 ^ 20 -> 0 <= shift b bit < 2 ^ 20.
Proof.
  intros H. assert (P : 0 <= shift b bit) by (unfold shift; apply Z.lor_nonneg; split; [apply Z.shiftr_nonneg; lia | apply Z.shiftl_nonneg; destruct bit; cbn; lia]).
  split; [exact P|]. destruct (Z.eq_dec (shift b bit) 0) as [->|N]; [lia|]. apply Z.log2_lt_pow2; [lia|].
  destruct (Z.ltb_spec (Z.log2 (shift b bit)) 20); [assumption|]. exfalso.
  pose proof (Z.bit_log2 (shift b bit) ltac:(lia)) as Q. rewrite shift_bit in Q by lia. destruct (Z.eqb_spec (Z.log2 (shift b bit)) 19); [lia|].
  rewrite testbit_above in Q by lia. discriminate.
Qed.
Lemma win_shift b bit : 0 <= b < 2 ^ 20 -> bits_lsb 20 (shift b bit) = tl (bits_lsb 20 b) ++ [bit].
Proof.
  intros H. apply nth_ext with (d := false) (d' := false).
  { rewrite app_length, bits_lsb_length. pose proof (bits_lsb_length 20 b). destruct (bits_lsb 20 b); cbn in *; lia. }
  intros i Hi. rewrite bits_lsb_length in Hi. rewrite nth_bits_lsb, shift_bit by lia.
  assert (T : forall k, nth k (tl (bits_lsb 20 b)) false = nth (S k) (bits_lsb 20 b) false) by (intros; pose proof (bits_lsb_length 20 b); destruct (bits_lsb 20 b); [cbn in *; lia | reflexivity]).
  assert (L : length (tl (bits_lsb 20 b)) = 19%nat) by (pose proof (bits_lsb_length 20 b); destruct (bits_lsb 20 b); cbn in *; lia).
  destruct (Z.eqb_spec (Z.of_nat i) 19).
  - replace i with 19%nat by lia. rewrite app_nth2 by lia. rewrite L. reflexivity.
  - rewrite app_nth1 by lia. rewrite T, nth_bits_lsb by lia. f_equal. lia.
Qed.
(** the two tests on the window *)
Lemma framed_length o : length (framed o) = 10%nat. Proof. reflexivity. Qed.
Lemma preamble_win b t o : 0 <= b < 2 ^ 20 -> sync_octet t = Some o -> (preamble_of b = t <-> bits_lsb 20 b = ten_ones ++ framed o).
Proof.
  intros H E. unfold preamble_of.
  destruct (Z.eqb_spec b 0x803FF) as [->|N1]; [|destruct (Z.eqb_spec b 0xF03FF) as [->|N2]; [|destruct (Z.eqb_spec b 0xAABFF) as [->|N3]]].
  1-3: destruct t; inversion E; subst; split; intros X; first [reflexivity | discriminate X | vm_compute in X; discriminate X].
  assert (I : forall c, 0 <= c < 2 ^ 20 -> bits_lsb 20 b = bits_lsb 20 c -> b = c) by (intros c Hc X; apply (bits_lsb_inj 20); [exact H | exact Hc | exact X]).
  destruct t; inversion E; subst; split; intros X; try discriminate X; exfalso;
    [apply N1; apply I; [lia|] | apply N2; apply I; [lia|] | apply N3; apply I; [lia|]]; rewrite X; reflexivity.
Qed.
Lemma land_bit b k : 0 <= k -> Z.land b (2 ^ k) = if Z.testbit b k then 2 ^ k else 0.
Proof.
  intros Hk. apply Z.bits_inj'. intros n Hn. rewrite Z.land_spec. destruct (Z.eq_dec n k) as [->|N].
  - rewrite Z.pow2_bits_true by lia. rewrite andb_true_r. destruct (Z.testbit b k); [rewrite Z.pow2_bits_true by lia; reflexivity | rewrite Z.bits_0; reflexivity].
  - rewrite Z.pow2_bits_false by lia. rewrite andb_false_r. destruct (Z.testbit b k); [rewrite Z.pow2_bits_false by lia; reflexivity | rewrite Z.bits_0; reflexivity].
Qed.
Lemma octet_win b : (Z.land b 0x80400 =? 0x80000) = negb (nth 10 (bits_lsb 20 b) false) && nth 19 (bits_lsb 20 b) false.
Proof.
  rewrite !nth_bits_lsb by lia. change 0x80400 with (Z.lor (2 ^ 19) (2 ^ 10)). rewrite Z.land_lor_distr_r, !land_bit by lia.
  change (Z.of_nat 10) with 10. change (Z.of_nat 19) with 19. destruct (Z.testbit b 19), (Z.testbit b 10); reflexivity.
Qed.
Lemma data_win b : Z.land (Z.shiftr b 11) 0xFF = of_bits_lsb (firstn 8 (skipn 11 (bits_lsb 20 b))).
Proof.
  change 0xFF with (Z.ones 8). rewrite Z.land_ones by lia. change (2 ^ 8) with (2 ^ Z.of_nat 8). rewrite <- bits_mod. f_equal.
Qed.

(** ---- put_bit in terms of the window ---- *)
Definition flush (h : parms -> parms) (r : rcv) : res (rcv * list parms) :=
  match ptype r with
  | SYNC_CI => ci_decode h r
  | SYNC_CM_JM => do r <- cm_jm_decode r; Ok (r, [])
  | _ => Ok (r, [])
  end.
Definition store (o : Z) (r : rcv) : rcv :=
  let z := if o =? 0 then zeros r + 1 else 0 in
  w_octet (if Z.of_nat (length (rx_data r)) <? 63 then rx_data r ++ [o] else rx_data r) (if o =? 0 then (z =? 3) || got_cj r else got_cj r) z r.
Definition matches (w : list bool) (t : sync) : Prop := exists o, sync_octet t = Some o /\ w = ten_ones ++ framed o.
Definition at_octet (w : list bool) : bool := negb (nth 10 w false) && nth 19 w false.

Lemma w_bits_bits b n b' n' r : w_bits b n (w_bits b' n' r) = w_bits b n r. Proof. reflexivity. Qed.
Lemma w_bits_id r : w_bits (bit_stream r) (bit_cnt r) r = r. Proof. destruct r; reflexivity. Qed.
Lemma no_match b : 0 <= b < 2 ^ 20 -> (forall t, ~ matches (bits_lsb 20 b) t) -> preamble_of b = SYNC_UNKNOWN.
Proof.
  intros H N. destruct (preamble_of b) eqn:E; [reflexivity | | |]; exfalso; eapply N.
  - exists 0x00. split; [instantiate (1 := SYNC_CI); reflexivity | apply (preamble_win b SYNC_CI); auto].
  - exists 0xE0. split; [instantiate (1 := SYNC_CM_JM); reflexivity | apply (preamble_win b SYNC_CM_JM); auto].
  - exists 0x55. split; [instantiate (1 := SYNC_V92); reflexivity | apply (preamble_win b SYNC_V92); auto].
Qed.
Definition next_cnt (r : rcv) : Z := match ptype r with SYNC_UNKNOWN => bit_cnt r | _ => bit_cnt r + 1 end.
Lemma put_quiet h r bit : wf r -> (forall t, ~ matches (tl (win r) ++ [bit]) t) ->
  ptype r = SYNC_UNKNOWN \/ at_octet (tl (win r) ++ [bit]) = false \/ bit_cnt r + 1 < 10 ->
  put_bit h r bit = Ok (w_bits (shift (bit_stream r) bit) (next_cnt r) r, []).
Proof.
  intros W N D. unfold put_bit. cbv zeta. fold (shift (bit_stream r) bit). set (b := shift (bit_stream r) bit).
  assert (Rb : 0 <= b < 2 ^ 20) by (apply shift_range; exact W). assert (Wb : bits_lsb 20 b = tl (win r) ++ [bit]) by (apply win_shift; exact W).
  rewrite (no_match b Rb) by (rewrite Wb; exact N). cbn [rbind]. change (ptype (w_bits b (bit_cnt r) r)) with (ptype r). unfold next_cnt.
  change (bit_cnt (w_bits b (bit_cnt r) r)) with (bit_cnt r). rewrite octet_win, Wb. fold (at_octet (tl (win r) ++ [bit])). rewrite w_bits_bits.
  assert (Q : ptype r <> SYNC_UNKNOWN -> at_octet (tl (win r) ++ [bit]) && (10 <=? bit_cnt r + 1) = false).
  { intros NU. destruct D as [D|[D|D]]; [congruence | rewrite D; reflexivity|]. destruct (Z.leb_spec 10 (bit_cnt r + 1)); [lia | apply andb_false_r]. }
  destruct (ptype r); [reflexivity | | |]; rewrite Q by discriminate; reflexivity.
Qed.
Lemma put_store h r bit : wf r -> (forall t, ~ matches (tl (win r) ++ [bit]) t) ->
  ptype r <> SYNC_UNKNOWN -> at_octet (tl (win r) ++ [bit]) = true -> 10 <= bit_cnt r + 1 ->
  put_bit h r bit = Ok (store (of_bits_lsb (firstn 8 (skipn 11 (tl (win r) ++ [bit])))) (w_bits (shift (bit_stream r) bit) 0 r), []).
Proof.
  intros W N U A C. unfold put_bit. cbv zeta. fold (shift (bit_stream r) bit). set (b := shift (bit_stream r) bit).
  assert (Rb : 0 <= b < 2 ^ 20) by (apply shift_range; exact W). assert (Wb : bits_lsb 20 b = tl (win r) ++ [bit]) by (apply win_shift; exact W).
  rewrite (no_match b Rb) by (rewrite Wb; exact N). cbn [rbind]. change (ptype (w_bits b (bit_cnt r) r)) with (ptype r).
  change (bit_cnt (w_bits b (bit_cnt r) r)) with (bit_cnt r). rewrite octet_win, data_win, Wb. fold (at_octet (tl (win r) ++ [bit])). rewrite w_bits_bits, A.
  destruct (Z.leb_spec 10 (bit_cnt r + 1)); [|lia]. cbn [andb]. set (o := of_bits_lsb _). destruct (ptype r); [congruence | | |]; reflexivity.
Qed.
Lemma flush_bits h b n r : flush h (w_bits b n r) = do (r', e) <- flush h r; Ok (w_bits b n r', e).
Proof.
  unfold flush. change (ptype (w_bits b n r)) with (ptype r). destruct (ptype r); [reflexivity | | | reflexivity].
  - unfold ci_decode. change (got_ci (w_bits b n r)) with (got_ci r). destruct (got_ci r); reflexivity.
  - unfold cm_jm_decode. change (got_cm (w_bits b n r)) with (got_cm r). destruct (got_cm r); [reflexivity|].
    change (cm_data (w_bits b n r)) with (cm_data r). change (rx_data (w_bits b n r)) with (rx_data r).
    destruct (_ || _); [destruct (64 <? _); reflexivity|]. destruct (64 <=? _); [reflexivity|].
    change (mbytes (w_bits b n r)) with (mbytes r). change (result (w_bits b n r)) with (result r).
    destruct (decode_loop 64 _ _ _) as [[n' c]|]; reflexivity.
Qed.
Lemma put_sync h r bit t : wf r -> matches (tl (win r) ++ [bit]) t ->
  put_bit h r bit = do (r', e) <- flush h (w_bits (shift (bit_stream r) bit) (bit_cnt r) r); Ok (w_bits (shift (bit_stream r) bit) 1 (w_sync t r'), e).
Proof.
  intros W (o & E & M). unfold put_bit. cbv zeta. fold (shift (bit_stream r) bit). set (b := shift (bit_stream r) bit).
  assert (Rb : 0 <= b < 2 ^ 20) by (apply shift_range; exact W). assert (Wb : bits_lsb 20 b = tl (win r) ++ [bit]) by (apply win_shift; exact W).
  rewrite (proj2 (preamble_win b t o Rb E)) by (rewrite Wb; exact M). fold (flush h (w_bits b (bit_cnt r) r)).
  assert (T : t <> SYNC_UNKNOWN) by (intros ->; discriminate E).
  destruct (flush h (w_bits b (bit_cnt r) r)) as [[r' e]|].
  - destruct t; [congruence | | |]; cbn [rbind ptype w_sync bit_cnt]; change (0 + 1) with 1; replace (10 <=? 1) with false by reflexivity; rewrite andb_false_r; reflexivity.
  - destruct t; [congruence | reflexivity..].
Qed.
(** any bit: one of the three *)
Lemma matches_dec w : (exists t, matches w t) \/ forall t, ~ matches w t.
Proof.
  destruct (list_eq_dec bool_dec w (ten_ones ++ framed 0x00)) as [E|N1]; [left; exists SYNC_CI, 0x00; auto|].
  destruct (list_eq_dec bool_dec w (ten_ones ++ framed 0xE0)) as [E|N2]; [left; exists SYNC_CM_JM, 0xE0; auto|].
  destruct (list_eq_dec bool_dec w (ten_ones ++ framed 0x55)) as [E|N3]; [left; exists SYNC_V92, 0x55; auto|].
  right. intros t (o & E & M). destruct t; inversion E; subst; congruence.
Qed.
Lemma put_cases h r bit : wf r ->
  put_bit h r bit = Ok (w_bits (shift (bit_stream r) bit) (next_cnt r) r, []) /\ (forall t, ~ matches (tl (win r) ++ [bit]) t) /\
    (ptype r = SYNC_UNKNOWN \/ at_octet (tl (win r) ++ [bit]) = false \/ bit_cnt r + 1 < 10) \/
  ptype r <> SYNC_UNKNOWN /\ at_octet (tl (win r) ++ [bit]) = true /\ 10 <= bit_cnt r + 1 /\ (forall t, ~ matches (tl (win r) ++ [bit]) t) /\
    put_bit h r bit = Ok (store (of_bits_lsb (firstn 8 (skipn 11 (tl (win r) ++ [bit])))) (w_bits (shift (bit_stream r) bit) 0 r), []) \/
  exists t, matches (tl (win r) ++ [bit]) t /\
    put_bit h r bit = do (r', e) <- flush h r; Ok (w_bits (shift (bit_stream r) bit) 1 (w_sync t r'), e).
Proof.
  intros W. destruct (matches_dec (tl (win r) ++ [bit])) as [[t M]|N].
  - right. right. exists t. split; [exact M|]. rewrite (put_sync h r bit t W M), flush_bits. destruct (flush h r) as [[r' e]|]; reflexivity.
  - assert (Q : (ptype r = SYNC_UNKNOWN \/ at_octet (tl (win r) ++ [bit]) = false \/ bit_cnt r + 1 < 10) \/ (ptype r <> SYNC_UNKNOWN /\ at_octet (tl (win r) ++ [bit]) = true /\ 10 <= bit_cnt r + 1)).
    { destruct (ptype r); [left; auto | | |]; (destruct (at_octet _); [|left; auto]; destruct (Z.ltb_spec (bit_cnt r + 1) 10); [left; auto | right; repeat split; [discriminate | lia]]). }
    destruct Q as [Q|(Q1 & Q2 & Q3)]; [left; split; [apply put_quiet; auto | auto] | right; left; repeat split; auto; apply put_store; auto].
Qed.

(** ---- a stream of tokens ---- *)
Inductive token := Pre | Oct (o : Z).
Definition bits_tok (t : token) : list bool := match t with Pre => ten_ones | Oct o => framed o end.
Definition tbits (ts : list token) : list bool := flat_map bits_tok ts.
Definition first_bits (ts : list token) : list bool := match ts with [] => [] | t :: _ => bits_tok t end.
Lemma tok_length t : length (bits_tok t) = 10%nat. Proof. destruct t; reflexivity. Qed.
(** [w] is [sw] with its first bits cleared *)
Definition cleared (w sw : list bool) : Prop := exists j, (j <= 20)%nat /\ w = repeat false j ++ skipn j sw.
Lemma cleared_step w sw bit : length sw = 20%nat -> cleared w sw -> cleared (tl w ++ [bit]) (tl sw ++ [bit]).
Proof.
  intros L (j & Hj & ->). destruct sw as [|x sw]; [discriminate|]. cbn [length tl] in *. destruct j as [|j].
  - exists 0%nat. cbn. split; [lia | reflexivity].
  - exists j. split; [lia|]. cbn [repeat app tl skipn]. rewrite skipn_app. replace (j - length sw)%nat with 0%nat by lia. cbn [skipn]. rewrite app_assoc. reflexivity.
Qed.
Lemma cleared_true w sw x : cleared w sw -> w = true :: x -> w = sw.
Proof. intros (j & Hj & ->) E. destruct j as [|j]; [reflexivity | discriminate]. Qed.
(** the twenty bits at the end of the last token but the [v] of the next one *)
Inductive past := AfterOct | AfterPre.
Definition boundary (k : past) (u v : list bool) : Prop :=
  exists u0 u1, u = u0 ++ u1 /\ (length u0 + length v = 10)%nat /\ match k with AfterOct => exists u2, u1 = false :: u2 /\ length u2 = 9%nat | AfterPre => u1 = ten_ones end.
Lemma boundary_length k u v : boundary k u v -> length (u ++ v) = 20%nat.
Proof. intros (u0 & u1 & -> & L & B). rewrite !app_length. destruct k; [destruct B as (u2 & -> & B); cbn [length]; lia | subst; cbn; lia]. Qed.

Section Stream.
Context (h : parms -> parms) (K : past -> rcv -> list token -> Prop).
Definition J (r : rcv) (pend : list bool) : Prop :=
  exists k u v y ts, pend = y ++ tbits (tl ts) /\ boundary k u v /\ (length v < 10)%nat /\ wf r /\ cleared (win r) (u ++ v) /\
    match ts with [] => v = [] /\ y = [] | t :: _ => v ++ y = bits_tok t end /\
    (ptype r <> SYNC_UNKNOWN -> win r = u ++ v /\ (k = AfterOct -> bit_cnt r = Z.of_nat (length v) \/ (bit_cnt r = Z.of_nat (length v) + 1 /\ last u false = true))) /\ K k r ts.
Hypothesis K_bits : forall k r ts b n, K k r ts -> K k (w_bits b n r) ts.
Hypothesis K_pre : forall r ts, K AfterOct r (Pre :: ts) -> K AfterPre r ts.
Hypothesis K_octet : forall r o ts, K AfterOct r (Oct o :: ts) -> byte o /\ (ptype r = SYNC_UNKNOWN -> K AfterOct r ts) /\ (ptype r <> SYNC_UNKNOWN -> K AfterOct (store o r) ts).
Definition quiet_event (p : parms) : Prop := status p = CALL_FUNCTION_RECEIVED.
Hypothesis K_sync : forall r t ts, K AfterPre r (t :: ts) -> exists ty o r' e, t = Oct o /\ sync_octet ty = Some o /\ (ptype r = SYNC_UNKNOWN -> K AfterOct r ts) /\
  flush h r = Ok (r', e) /\ K AfterOct (w_sync ty r') ts /\ Forall quiet_event e.

Lemma last_snoc (l : list bool) x : last (l ++ [x]) false = x.
Proof. apply last_last. Qed.
Lemma split_last (l : list bool) n : length l = S n -> exists l' x, l = l' ++ [x] /\ length l' = n.
Proof. intros H. destruct (exists_last (l := l)) as (l' & x & ->); [destruct l; [discriminate | discriminate]|]. exists l', x. rewrite app_length in H. cbn in H. split; [reflexivity | lia]. Qed.
Lemma framed_data u o : length u = 10%nat -> byte o -> of_bits_lsb (firstn 8 (skipn 11 (u ++ framed o))) = o.
Proof.
  intros L B. do 10 (destruct u as [|? u]; [discriminate|]). destruct u; [|discriminate]. rewrite <- (of_bits_lsb_bits 8 o B) at 2. reflexivity.
Qed.
Lemma wf_bits b n r : 0 <= b < 2 ^ 20 -> wf (w_bits b n r). Proof. intros H. exact H. Qed.

Lemma J_new r k sw ts pend : pend = first_bits ts ++ tbits (tl ts) -> boundary k sw [] -> wf r -> cleared (win r) sw ->
  (ptype r <> SYNC_UNKNOWN -> win r = sw /\ (k = AfterOct -> bit_cnt r = 0 \/ (bit_cnt r = 1 /\ last sw false = true))) -> K k r ts -> J r pend.
Proof.
  intros E B W C U HK. exists k, sw, [], (first_bits ts), ts. rewrite app_nil_r. split; [exact E|]. split; [exact B|]. split; [cbn; lia|].
  split; [exact W|]. split; [exact C|]. split; [destruct ts; auto|]. split; [exact U | exact HK].
Qed.
Lemma J_bit r bit pend : J r (bit :: pend) -> exists r' e, put_bit h r bit = Ok (r', e) /\ J r' pend /\ Forall quiet_event e.
Proof.
  intros (k & u & v & y & ts & E & B & Lv & W & Z & Ht & C & HK).
  destruct ts as [|t ts]; [destruct Ht as [-> ->]; discriminate E|]. cbn [tl] in E.
  assert (Ly : (length v + length y = 10)%nat) by (rewrite <- app_length, Ht; apply tok_length).
  destruct y as [|y0 y]; [cbn in Ly; lia|]. cbn [app] in E. injection E as -> E.
  destruct B as (u0 & u1 & -> & L0 & B). destruct u0 as [|x0 u0]; [cbn in L0; lia|]. cbn [length] in L0, Ly.
  set (w' := tl (win r) ++ [y0]). set (sw' := u0 ++ u1 ++ v ++ [y0]).
  assert (L1 : length u1 = 10%nat) by (destruct k; [destruct B as (u2 & -> & B); cbn; lia | subst; reflexivity]).
  assert (Z' : cleared w' sw').
  { unfold w', sw'. replace (u0 ++ u1 ++ v ++ [y0]) with (tl (((x0 :: u0) ++ u1) ++ v) ++ [y0]) by (cbn [tl app]; rewrite <- !app_assoc; reflexivity).
    apply cleared_step; [|exact Z]. rewrite !app_length. cbn [length]. lia. }
  assert (Rb : 0 <= shift (bit_stream r) y0 < 2 ^ 20) by (apply shift_range; exact W).
  assert (Wn : forall n, win (w_bits (shift (bit_stream r) y0) n r) = w') by (intros n; apply win_shift; exact W).
  assert (C' : ptype r <> SYNC_UNKNOWN -> w' = sw').
  { intros U. destruct (C U) as [Cw _]. unfold w', sw'. rewrite Cw. cbn [tl app]. rewrite <- !app_assoc. reflexivity. }
  assert (M10 : forall t, matches w' t -> w' = sw').
  { intros t' (o & Eo & M). eapply cleared_true; [exact Z'|]. rewrite M. reflexivity. }
  (* a match needs ten ones and a zero *)
  assert (Full : forall t', matches w' t' -> k = AfterPre /\ y = []).
  { intros t' M. pose proof (M10 _ M) as Es. destruct M as (o & Eo & M). rewrite M in Es. unfold sw' in Es. destruct k.
    - exfalso. destruct B as (u2 & -> & B). apply (f_equal (fun l => nth (length u0) l true)) in Es. rewrite (app_nth2 u0) in Es by lia. replace (length u0 - length u0)%nat with 0%nat in Es by lia. rewrite (app_nth1 ten_ones) in Es by (change (length ten_ones) with 10%nat; lia). cbn [app nth] in Es.
      unfold ten_ones in Es. rewrite nth_repeat in Es. discriminate.
    - split; [reflexivity|]. destruct y as [|y1 y]; [reflexivity|]. exfalso. cbn [length] in Ly. subst u1. apply (f_equal (fun l => nth 10 l false)) in Es.
      rewrite (app_nth2 u0) in Es by lia. rewrite (app_nth1 ten_ones (v ++ [y0])) in Es by (change (length ten_ones) with 10%nat; lia). change (nth 10 (ten_ones ++ framed o) false) with false in Es.
      unfold ten_ones in Es. rewrite nth_indep with (d' := true) in Es by (rewrite repeat_length; lia). rewrite nth_repeat in Es. discriminate. }
  destruct y as [|y1 y].
  - (* the token is complete *)
    cbn [length] in Ly. destruct u0 as [|? ?]; [|cbn [length] in L0; lia].
    assert (Esw : sw' = u1 ++ bits_tok t) by (unfold sw'; rewrite Ht; reflexivity).
    assert (NewB : boundary (match t with Pre => AfterPre | Oct _ => AfterOct end) sw' []).
    { rewrite Esw. exists u1, (bits_tok t). split; [reflexivity|]. split; [cbn; lia|]. destruct t; [reflexivity|]. exists (bits_lsb 8 o ++ [true]). split; reflexivity. }
    assert (NewT : match ts with [] => @nil bool = [] /\ first_bits ts = [] | t :: _ => [] ++ (first_bits ts) = bits_tok t end) by (destruct ts; auto).
    assert (NewE : pend = (first_bits ts) ++ tbits (tl ts)) by (rewrite E; destruct ts; reflexivity).
    destruct k.
    + (* after an octet *)
      assert (N : forall t', ~ matches w' t') by (intros t' M; destruct (Full t' M); discriminate). destruct B as (u2 & -> & B).
      destruct t as [|o].
      * (* a preamble *)
        assert (At : ptype r = SYNC_UNKNOWN \/ at_octet w' = false \/ bit_cnt r + 1 < 10).
        { destruct (ptype r) eqn:Ep; [left; reflexivity | | |]; right; left; rewrite C' by discriminate; rewrite Esw; unfold at_octet; rewrite app_nth2 by lia; rewrite L1; reflexivity. }
        eexists _, []. split; [apply put_quiet; auto|]. split; [|constructor].
        apply (J_new _ AfterPre sw' ts); [exact NewE | exact NewB | exact Rb | rewrite Wn; exact Z' | | apply K_bits, K_pre; exact HK].
        intros U. rewrite Wn. split; [apply C'; exact U | discriminate].
      * destruct (K_octet _ _ _ HK) as (Bo & K1 & K2). assert (Ep : ptype r = SYNC_UNKNOWN \/ ptype r <> SYNC_UNKNOWN) by (destruct (ptype r); [left | right; discriminate..]; reflexivity).
        destruct Ep as [Ep|U].
        { eexists _, []. split; [apply put_quiet; auto|]. split; [|constructor].
          apply (J_new _ AfterOct sw' ts); [exact NewE | exact NewB | exact Rb | rewrite Wn; exact Z' | | apply K_bits, K1; exact Ep].
          intros U. exfalso. apply U. exact Ep. }
        destruct (C U) as [Cw Cc]. specialize (Cc eq_refl).
        assert (A : at_octet w' = true) by (rewrite (C' U), Esw; unfold at_octet; rewrite !app_nth2 by lia; rewrite L1; reflexivity).
        eexists _, []. split; [apply put_store; auto; lia|]. split; [|constructor].
        fold w'. rewrite (C' U), Esw. cbn [bits_tok]. rewrite framed_data by auto.
        assert (Ew : win (store o (w_bits (shift (bit_stream r) y0) 0 r)) = sw') by (rewrite <- (C' U), <- (Wn 0); reflexivity).
        apply (J_new _ AfterOct sw' ts); [exact NewE | exact NewB | exact Rb | rewrite Ew; exists 0%nat; split; [lia | reflexivity] | |].
        { intros _. split; [exact Ew|]. intros _. left. reflexivity. }
        specialize (K2 U). apply (K_bits _ _ _ (shift (bit_stream r) y0) 0) in K2. exact K2.
    + (* after a preamble *)
      destruct (K_sync _ _ _ HK) as (ty & o & r' & e & -> & Eo & K1 & F & K2 & Q). subst u1.
      destruct (matches_dec w') as [[t' M]|N].
      * pose proof (M10 _ M) as Es. assert (t' = ty).
        { destruct M as (o' & Eo' & M). rewrite Es, Esw in M. cbn [bits_tok] in M. destruct t', ty; cbn in Eo, Eo'; inversion Eo; inversion Eo'; subst; try reflexivity; vm_compute in M; discriminate. }
        subst t'. eexists _, e. split; [rewrite (put_sync h r y0 ty W M), flush_bits, F; reflexivity|]. split; [|exact Q].
        assert (Ew : win (w_bits (shift (bit_stream r) y0) 1 (w_sync ty (w_bits (shift (bit_stream r) y0) (bit_cnt r) r'))) = sw') by (rewrite <- Es, <- (Wn 1); reflexivity).
        apply (J_new _ AfterOct sw' ts); [exact NewE | exact NewB | exact Rb | rewrite Ew; exists 0%nat; split; [lia | reflexivity] | |].
        { intros _. split; [exact Ew|]. intros _. right. split; [reflexivity|]. rewrite Esw. cbn [bits_tok]. unfold framed. rewrite !app_assoc. apply last_snoc. }
        { apply (K_bits _ _ _ (shift (bit_stream r) y0) 1) in K2. exact K2. }
      * assert (U : ptype r = SYNC_UNKNOWN).
        { destruct (ptype r) eqn:Ep; [reflexivity | | |]; exfalso; apply (N ty); exists o; (split; [exact Eo|]); rewrite C', Esw by discriminate; reflexivity. }
        eexists _, []. split; [apply put_quiet; auto|]. split; [|constructor].
        apply (J_new _ AfterOct sw' ts); [exact NewE | exact NewB | exact Rb | rewrite Wn; exact Z' | | apply K_bits, K1; exact U].
        intros U'. exfalso. apply U'. exact U.
  - (* in the middle of a token *)
    cbn [length] in Ly. assert (N : forall t', ~ matches w' t') by (intros t' M; destruct (Full t' M); discriminate).
    assert (At : ptype r = SYNC_UNKNOWN \/ at_octet w' = false \/ bit_cnt r + 1 < 10).
    { destruct (ptype r) eqn:Ep; [left; reflexivity | | |]; right; rewrite <- Ep in *; (assert (U : ptype r <> SYNC_UNKNOWN) by (rewrite Ep; discriminate));
        rewrite (C' U); destruct (C U) as [_ Cc]; destruct k.
      all: try (left; subst u1; unfold at_octet, sw'; rewrite (app_nth2 u0) by lia; rewrite (app_nth1 ten_ones (v ++ [y0])) by (change (length ten_ones) with 10%nat; lia);
        unfold ten_ones; rewrite nth_indep with (d' := true) by (rewrite repeat_length; lia); rewrite nth_repeat; reflexivity).
      all: destruct (Cc eq_refl) as [Cn|[Cn Cl]]; [right; lia|]; (destruct (Nat.eq_dec (length v) 8) as [E8|]; [left | right; lia]);
        destruct (split_last u1 9 L1) as (u3 & x3 & -> & L3); rewrite app_assoc in Cl; rewrite last_snoc in Cl; subst x3;
        unfold at_octet, sw'; (destruct u0 as [|x1 u0]; [cbn in L0; lia|]; destruct u0; [|cbn in L0; lia]);
        replace (nth 10 ([x1] ++ (u3 ++ [true]) ++ v ++ [y0]) false) with true; [reflexivity|];
        (rewrite (app_nth2 [x1]) by (cbn; lia)); (rewrite (app_nth1 (u3 ++ [true])) by (rewrite app_length; cbn; lia)); (rewrite app_nth2 by (cbn; lia)); cbn [length]; (replace (10 - 1 - length u3)%nat with 0%nat by lia); reflexivity. }
    eexists _, []. split; [apply put_quiet; auto|]. split; [|constructor].
    exists k, (u0 ++ u1), (v ++ [y0]), (y1 :: y), (t :: ts). rewrite Wn.
    split; [exact E|]. split; [exists u0, u1; repeat split; auto; rewrite app_length; cbn; lia|]. split; [rewrite app_length; cbn; lia|]. split; [apply Rb|].
    split; [rewrite <- app_assoc; exact Z'|]. split; [rewrite <- app_assoc; exact Ht|]. split; [|apply K_bits; exact HK].
    change (ptype (w_bits (shift (bit_stream r) y0) (next_cnt r) r)) with (ptype r). intros U. split; [rewrite <- app_assoc; apply C'; exact U|].
    intros Hk. destruct (C U) as [_ Cc]. specialize (Cc Hk). cbn [bit_cnt w_bits]. rewrite app_length. cbn [length].
    assert (En : next_cnt r = bit_cnt r + 1) by (unfold next_cnt; destruct (ptype r); [congruence | reflexivity..]). rewrite En.
    destruct Cc as [Cc|[Cc Cl]]; [left; lia | right; split; [lia|]]. rewrite <- Cl. destruct u1 as [|z u1]; [discriminate|].
    cbn [app]. destruct (u0 ++ z :: u1) eqn:Eu; [destruct u0; discriminate | reflexivity].
Qed.
Lemma J_bits l : forall r rest, J r (l ++ rest) -> exists r' e, put_bits h r l = Ok (r', e) /\ J r' rest /\ Forall quiet_event e.
Proof.
  induction l as [|x l IH]; intros r rest H; [exists r, []; cbn; auto|]. cbn [app] in H. destruct (J_bit _ _ _ H) as (r1 & e1 & E1 & J1 & Q1).
  destruct (IH _ _ J1) as (r2 & e2 & E2 & J2 & Q2). exists r2, (e1 ++ e2). cbn [put_bits]. rewrite E1. cbn [rbind]. rewrite E2. cbn [rbind]. repeat split; auto. apply Forall_app; auto.
Qed.
End Stream.
