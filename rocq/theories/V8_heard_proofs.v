(** What the receiver makes of any string of bits: safety, delivery and soundness. *)
From Verif Require Import Base V8_model V8_spec V8_codec_proofs V8_bit_proofs V8_stream_proofs V8_line_proofs.
Local Open Scope Z_scope.

(** ---- the window and what was heard ---- *)
Definition window (hist : list bool) : list bool := skipn (length hist) (repeat false 20 ++ hist).
Lemma window_length hist : length (window hist) = 20%nat.
Proof. unfold window. rewrite skipn_length, app_length, repeat_length. lia. Qed.
Lemma window_snoc hist bit : window (hist ++ [bit]) = tl (window hist) ++ [bit].
Proof.
  unfold window. rewrite app_length. cbn [length]. rewrite app_assoc, skipn_app. rewrite app_length, repeat_length.
  replace (length hist + 1 - (20 + length hist))%nat with 0%nat by lia. cbn [skipn]. f_equal.
  generalize (repeat false 20 ++ hist). intros l. replace (length hist + 1)%nat with (S (length hist)) by lia. generalize (length hist). intros n. revert l.
  induction n as [|n IH]; intros l; destruct l as [|x l]; try reflexivity. cbn [skipn] in *. rewrite <- IH. reflexivity.
Qed.
Lemma window_long hist : (20 <= length hist)%nat -> exists x, hist = x ++ window hist.
Proof.
  intros H. unfold window. rewrite skipn_app, repeat_length. rewrite skipn_all2 by (rewrite repeat_length; lia). cbn [app]. exists (firstn (length hist - 20) hist). symmetry. apply firstn_skipn.
Qed.
Lemma window_true hist x : window hist = true :: x -> (20 <= length hist)%nat.
Proof.
  intros H. destruct (Nat.leb_spec 20 (length hist)); [assumption|]. exfalso. unfold window in H. rewrite skipn_app, repeat_length in H.
  replace (length hist - 20)%nat with 0%nat in H by lia. replace 20%nat with (length hist + (20 - length hist))%nat in H by lia. rewrite repeat_app, skipn_app, repeat_length in H.
  rewrite skipn_all2 in H by (rewrite repeat_length; lia). rewrite Nat.sub_diag in H. replace (20 - length hist)%nat with (S (19 - length hist)) in H by lia. cbn in H. discriminate.
Qed.
Lemma window_app a w : length w = 20%nat -> window (a ++ w) = w.
Proof. intros L. unfold window. rewrite app_length, L, app_assoc, skipn_app, app_length, repeat_length. rewrite skipn_all2 by (rewrite app_length, repeat_length; lia). replace (length a + 20 - (20 + length a))%nat with 0%nat by lia. reflexivity. Qed.
Lemma sync_heard hist t : matches (window hist) t <-> ends_in_sync hist t.
Proof.
  split.
  - intros (o & E & M). destruct (window_long hist) as (x & Hx); [eapply window_true; rewrite M; reflexivity|]. exists x, o. split; [exact E|]. rewrite <- M. exact Hx.
  - intros (x & o & E & ->). exists o. split; [exact E|]. apply window_app. reflexivity.
Qed.

(** ---- safety ---- *)
Definition fair (d : list Z) : Prop := bytes d /\ Forall (fun o => ~ is_nsf o) d /\ (length d <= 63)%nat.
Record safe (hist : list bool) (r : rcv) : Prop := {
  s_wf : wf r; s_win : win r = window hist; s_long : ptype r <> SYNC_UNKNOWN -> (20 <= length hist)%nat; s_rx : fair (rx_data r); s_cm : fair (cm_data r) }.
Lemma fair_nil : fair []. Proof. repeat split; [constructor | constructor | cbn; lia]. Qed.
Lemma same_true a : forall b, same a b = true -> a = b.
Proof. induction a as [|x a IH]; intros [|y b] H; try reflexivity; try discriminate. cbn in H. apply andb_true_iff in H as [H1 H2]. apply Z.eqb_eq in H1. rewrite H1, (IH b H2). reflexivity. Qed.
Lemma flush_ok h r : fair (rx_data r) -> fair (cm_data r) -> exists r' e, flush h r = Ok (r', e) /\ bit_stream r' = bit_stream r /\ ptype r' = ptype r /\ fair (cm_data r') /\ Forall quiet_event e.
Proof.
  intros F1 F2. unfold flush. destruct (ptype r) eqn:Ep.
  - exists r, []. repeat split; auto; apply F2.
  - unfold ci_decode. destruct (got_ci r); eexists _, _; (split; [reflexivity|]); cbn; (split; [reflexivity|]); (split; [exact Ep|]); (split; [exact F2|]); repeat constructor.
  - unfold cm_jm_decode. destruct (got_cm r); [exists r, []; cbn; repeat split; auto; apply F2|].
    destruct ((Z.of_nat (length (cm_data r)) <=? 0) || negb (same (cm_data r) (rx_data r))).
    + destruct (Z.ltb_spec 64 (Z.of_nat (length (rx_data r)))); [destruct F1 as (_ & _ & F1); lia|]. eexists _, []. split; [reflexivity|]. cbn. repeat split; auto; apply F1.
    + destruct F2 as (F3 & F4 & F5). destruct (Z.leb_spec 64 (Z.of_nat (length (cm_data r)))); [lia|]. rewrite decode_said; [|lia | exact F3 | exact F4]. eexists _, []. split; [reflexivity|]. cbn. repeat split; auto.
  - exists r, []. repeat split; auto; apply F2.
Qed.
Lemma frame_window w : length w = 20%nat -> at_octet w = true -> exists o, byte o /\ o = of_bits_lsb (firstn 8 (skipn 11 w)) /\ w = firstn 10 w ++ framed o.
Proof.
  intros L A. do 20 (destruct w as [|? w]; [discriminate|]). destruct w; [|discriminate]. unfold at_octet in A. cbn [nth] in A. apply andb_true_iff in A as [A1 A2]. apply negb_true_iff in A1. subst.
  eexists. split; [|split; [reflexivity|]].
  - match goal with |- byte (of_bits_lsb ?l) => generalize (of_bits_lsb_range l) end. cbn [length skipn firstn]. unfold byte. intros H. change (2 ^ Z.of_nat 8) with 256 in H. lia.
  - cbn [skipn firstn app]. unfold framed. match goal with |- context [of_bits_lsb ?l] => rewrite (bits_lsb_of_bits l : bits_lsb 8 (of_bits_lsb l) = l) end. reflexivity.
Qed.
Lemma fair_snoc d o : fair d -> byte o -> ~ is_nsf o -> fair (if Z.of_nat (length d) <? 63 then d ++ [o] else d).
Proof.
  intros (F1 & F2 & F3) B N. destruct (Z.ltb_spec (Z.of_nat (length d)) 63); [|repeat split; auto]. split; [apply Forall_app; auto|]. split; [apply Forall_app; auto|]. rewrite app_length. cbn. lia.
Qed.
Lemma safe_bit h hist r bit : safe hist r -> no_nsf_frame (hist ++ [bit]) -> exists r' e, put_bit h r bit = Ok (r', e) /\ safe (hist ++ [bit]) r' /\ Forall quiet_event e.
Proof.
  intros H N. destruct H. assert (Rb : 0 <= shift (bit_stream r) bit < 2 ^ 20) by (apply shift_range; exact s_wf0).
  assert (Wb : bits_lsb 20 (shift (bit_stream r) bit) = window (hist ++ [bit])) by (rewrite win_shift by exact s_wf0; fold (win r); rewrite s_win0, window_snoc; reflexivity).
  assert (Lb : (20 <= length hist)%nat -> (20 <= length (hist ++ [bit]))%nat) by (rewrite app_length; lia).
  destruct (put_cases h r bit s_wf0) as [(E & _)|[(U & A & C & _ & E)|(t & M & E)]].
  - eexists _, []. split; [exact E|]. split; [|constructor]. constructor; try assumption. intros X. apply Lb, s_long0, X.
  - eexists _, []. split; [exact E|]. split; [|constructor]. rewrite s_win0, <- window_snoc in A |- *.
    destruct (frame_window _ (window_length _) A) as (o & Bo & Eo & Ew). rewrite <- Eo. constructor; try assumption.
    + intros _. apply Lb, s_long0, U.
    + apply fair_snoc; [exact s_rx0 | exact Bo|]. intros No. destruct (window_long (hist ++ [bit])) as (x & Ex); [apply Lb, s_long0, U|].
      apply (N (x ++ firstn 10 (window (hist ++ [bit]))) o [] Bo No). rewrite app_nil_r, <- app_assoc, <- Ew. exact Ex.
  - destruct (flush_ok h r s_rx0 s_cm0) as (r' & e & F & Q1 & Q2 & Q3 & Q4). rewrite F in E. eexists _, e. split; [exact E|]. split; [|exact Q4].
    constructor; try assumption; [|apply fair_nil]. intros _. rewrite s_win0, <- window_snoc in M. destruct M as (o & _ & M). eapply window_true. rewrite M. reflexivity.
Qed.
Lemma no_nsf_app a b : no_nsf_frame (a ++ b) -> no_nsf_frame a.
Proof. intros H x o z B N ->. apply (H x o (z ++ b) B N). rewrite <- !app_assoc. reflexivity. Qed.
Lemma no_nsf_skip a b : no_nsf_frame (a ++ b) -> no_nsf_frame b.
Proof. intros H x o z B N ->. apply (H (a ++ x) o z B N). rewrite <- !app_assoc. reflexivity. Qed.
Lemma safe_bits h l : forall hist r, safe hist r -> no_nsf_frame (hist ++ l) -> exists r' e, put_bits h r l = Ok (r', e) /\ safe (hist ++ l) r' /\ Forall quiet_event e.
Proof.
  induction l as [|x l IH]; intros hist r H N; [exists r, []; rewrite app_nil_r; repeat split; auto; apply H|].
  change (x :: l) with ([x] ++ l) in N |- *. rewrite app_assoc in N |- *. destruct (safe_bit h hist r x H (no_nsf_app _ _ N)) as (r1 & e1 & E1 & H1 & Q1).
  destruct (IH _ _ H1 N) as (r2 & e2 & E2 & H2 & Q2). exists r2, (e1 ++ e2). cbn [app put_bits]. rewrite E1. cbn [rbind]. rewrite E2. cbn [rbind]. repeat split; auto; try apply H2. apply Forall_app; auto.
Qed.
Lemma safe_start r : bit_stream r = 0 -> ptype r = SYNC_UNKNOWN -> fair (rx_data r) -> fair (cm_data r) -> safe [] r.
Proof. intros E1 E2 F1 F2. constructor; try assumption; [unfold wf; lia | unfold win; rewrite E1; reflexivity | congruence]. Qed.
(** once a message is accepted, no bits matter *)
Lemma got_bits h l : forall r, wf r -> got_cm r = true -> exists r' e, put_bits h r l = Ok (r', e) /\ wf r' /\ got_cm r' = true.
Proof.
  induction l as [|x l IH]; intros r W G; [exists r, []; auto|].
  assert (B : exists r1 e1, put_bit h r x = Ok (r1, e1) /\ wf r1).
  { assert (Rb : 0 <= shift (bit_stream r) x < 2 ^ 20) by (apply shift_range; exact W).
    destruct (put_cases h r x W) as [(E & _)|[(_ & _ & _ & _ & E)|(t & _ & E)]]; [eexists _, _; split; [exact E | exact Rb] | eexists _, _; split; [exact E | exact Rb]|].
    assert (F : exists r' e, flush h r = Ok (r', e)).
    { unfold flush, ci_decode, cm_jm_decode. rewrite G. destruct (ptype r); try (eexists _, _; reflexivity). destruct (got_ci r); eexists _, _; reflexivity. }
    destruct F as (r' & e & F). rewrite F in E. eexists _, _. split; [exact E | exact Rb]. }
  destruct B as (r1 & e1 & E1 & W1). destruct (IH r1 W1 (put_bit_got _ _ _ _ _ E1 G)) as (r2 & e2 & E2 & W2 & G2).
  exists r2, (e1 ++ e2). cbn [put_bits]. rewrite E1. cbn [rbind]. rewrite E2. auto.
Qed.
(** one end *)
Definition silent (s : v8) : Prop := bit_stream (rx s) = 0 /\ ptype (rx s) = SYNC_UNKNOWN /\ rx_data (rx s) = [] /\ cm_data (rx s) = [].
Definition hearing (total : list bool) (s : v8) : Prop := exists y z, total = y ++ z /\ safe z (rx s).
Definition end_safe (total : list bool) (s : v8) : Prop :=
  match st s with
  | WAIT_1S | AWAIT_ANSAM | CI_ON | CI_OFF => silent s
  | HEARD_ANSAM | CM_ON | CM_WAIT => hearing total s
  | CJ_ON | POST_CM_WAIT | JM_ON => wf (rx s) /\ got_cm (rx s) = true
  | SIGA | PARKED => True
  end.
Lemma safe_same hist r r' : bit_stream r' = bit_stream r -> ptype r' = ptype r -> rx_data r' = rx_data r -> cm_data r' = cm_data r -> safe hist r -> safe hist r'.
Proof. intros E1 E2 E3 E4 []. constructor; unfold wf, win in *; rewrite ?E1, ?E2, ?E3, ?E4; assumption. Qed.
Lemma safe_init r : safe [] (decode_init r).
Proof. apply safe_start; try reflexivity; apply fair_nil. Qed.
Lemma hear_bits h total s bits : hearing total s -> no_nsf_frame (total ++ bits) -> exists s' e, rx_bits h s bits = Ok (s', e) /\ hearing (total ++ bits) s' /\ st s' = st s /\ queue s' = queue s.
Proof.
  intros (y & z & -> & S) N. rewrite <- app_assoc in N. destruct (safe_bits h bits z (rx s) S (no_nsf_skip _ _ N)) as (r' & e & E & S' & _).
  exists (w_rx r' s), e. unfold rx_bits. rewrite E. repeat split. exists y, (z ++ bits). rewrite app_assoc. split; [reflexivity | exact S'].
Qed.
Lemma cm_safe h total s len bits : (st s = HEARD_ANSAM \/ st s = CM_ON) -> hearing total s -> no_nsf_frame (total ++ bits) -> exists s' e, cm_on h s len bits = Ok (s', e) /\ end_safe (total ++ bits) s'.
Proof.
  intros Hs H N. destruct (hear_bits h total s bits H N) as (s1 & e1 & E & H1 & S1 & _). unfold cm_on. rewrite E. cbn [rbind]. destruct (got_cm (rx s1)) eqn:G.
  - eexists _, _. split; [reflexivity|]. cbn. split; [|exact G]. destruct H1 as (y & z & _ & []). assumption.
  - cbv zeta. unfold park, report. destruct (_ <=? 0); (destruct (_ <? 10)%nat); eexists _, _; (split; [reflexivity|]); unfold end_safe; cbn [w_q w_st w_neg w_rx st rx]; try exact I; rewrite S1; destruct Hs as [-> | ->]; exact H1.
Qed.
Lemma rx_safe h total s len bits t : end_safe total s -> no_nsf_frame (total ++ bits) -> exists s' e, v8_rx h s len bits t = Ok (s', e) /\ end_safe (total ++ bits) s'.
Proof.
  intros H N. unfold v8_rx. unfold end_safe in H.
  assert (Tone : forall a v, let o := handle_calling_tone h s a v in exists s' e, Ok o = Ok (s', e) /\ end_safe (total ++ bits) s').
  { intros x v. unfold handle_calling_tone, park, report. destruct x; eexists _, _; (split; [reflexivity|]); [|exact I]. cbn. exists (total ++ bits), []. rewrite app_nil_r. split; [reflexivity | apply safe_init]. }
  destruct (st s) eqn:Es.
  - cbv zeta. destruct (0 <? _); eexists _, _; (split; [reflexivity|]); [unfold end_safe; cbn [w_neg st]; rewrite Es|]; exact H.
  - destruct (ansam t) as [[x v]|]; [apply Tone|]. eexists _, _. split; [reflexivity|]. unfold end_safe. rewrite Es. exact H.
  - destruct (ansam t) as [[x v]|]; [apply Tone|]. destruct (fsk_on s); eexists _, _; (split; [reflexivity|]); [unfold end_safe; rewrite Es|]; exact H.
  - destruct (ansam t) as [[x v]|]; [apply Tone|]. cbv zeta. destruct (_ <=? 0).
    + destruct (10 <=? _); unfold park, report; eexists _, _; (split; [reflexivity|]); [exact I | exact H].
    + eexists _, _. split; [reflexivity|]. unfold end_safe. cbn [w_ci st]. rewrite Es. exact H.
  - cbv zeta. destruct (_ <=? 0); (apply cm_safe; [| | exact N]).
    + right. reflexivity.
    + exists total, []. rewrite app_nil_r. split; [reflexivity | apply safe_init].
    + left. exact Es.
    + exact H.
  - apply cm_safe; [right; exact Es | exact H | exact N].
  - destruct H as [W G]. destruct (got_bits h bits (rx s) W G) as (r' & e & E & W' & G'). unfold rx_bits. rewrite E. cbn [rbind]. destruct (fsk_on _).
    + eexists _, _. split; [reflexivity|]. unfold end_safe. cbn [w_rx st rx]. rewrite Es. auto.
    + unfold park, report. eexists _, _. split; [reflexivity | exact I].
  - set (o := match answering t with Some (a, v) => handle_answering_tone h s a v | None => (s, []) end).
    assert (Ho : hearing total (fst o) /\ (st (fst o) = PARKED \/ st (fst o) = CM_WAIT)).
    { unfold o. destruct (answering t) as [[x v]|]; [|split; [exact H | right; exact Es]]. unfold handle_answering_tone, park, report. destruct H as (y & z & -> & S).
      destruct x; (split; [exists y, z; split; [reflexivity | eapply safe_same; [..|exact S]; reflexivity] | left; reflexivity]). }
    destruct o as [s0 e0]. cbn [fst] in Ho. destruct Ho as [H0 Hst]. destruct (hear_bits h total s0 bits H0 N) as (s1 & e1 & E & H1 & S1 & _). rewrite E. cbn [rbind].
    destruct (got_cm (rx s1)) eqn:G.
    + unfold report. assert (W : wf (rx s1)) by (destruct H1 as (y & z & _ & []); assumption). cbn [w_rx par]. destruct (gateway _); eexists _, _; (split; [reflexivity|]); cbn; split; assumption.
    + cbv zeta. unfold park, report. destruct (_ <=? 0); eexists _, _; (split; [reflexivity|]); [exact I|]. unfold end_safe. cbn [w_neg st]. rewrite S1. destruct Hst as [-> | ->]; [exact I | exact H1].
  - eexists _, _. split; [reflexivity|]. destruct (proceed s); [exact H|]. unfold end_safe. rewrite Es. exact H.
  - destruct H as [W G]. destruct (got_bits h bits (rx s) W G) as (r' & e & E & W' & G'). unfold rx_bits. rewrite E. cbn [rbind]. cbn [rx w_rx]. destruct (got_cj r').
    + eexists _, _. split; [reflexivity | exact I].
    + cbv zeta. destruct (_ <=? 0); [unfold park, report; eexists _, _; split; [reflexivity | exact I]|].
      destruct (_ <? 10)%nat; eexists _, _; (split; [reflexivity|]); unfold end_safe; cbn [w_q w_neg w_rx st rx]; rewrite Es; auto.
  - destruct (fsk_on s); [eexists _, _; split; [reflexivity|]; unfold end_safe; rewrite Es; exact I|]. unfold park, report. eexists _, _. split; [reflexivity | exact I].
  - eexists _, _. split; [reflexivity|]. unfold end_safe. rewrite Es. exact I.
Qed.
Lemma run_safe h l : forall total s, end_safe total s -> no_nsf_frame (total ++ flat_map bits_of l) -> exists s' e, run h s l = Ok (s', e).
Proof.
  induction l as [|x l IH]; intros total s H N; [exists s, []; reflexivity|]. cbn [flat_map] in N. rewrite app_assoc in N.
  assert (X : exists s1 e1, step h s x = Ok (s1, e1) /\ end_safe (total ++ bits_of x) s1).
  { destruct x as [n|len bits t|p]; cbn [step bits_of] in *.
    - eexists _, _. split; [reflexivity|]. rewrite app_nil_r. unfold v8_tx. destruct (fsk_on s); exact H.
    - apply rx_safe; [exact H | exact (no_nsf_app _ _ N)].
    - eexists _, _. split; [reflexivity|]. rewrite app_nil_r. exact H. }
  destruct X as (s1 & e1 & E1 & H1). destruct (IH _ s1 H1 N) as (s2 & e2 & E2). cbn [run]. rewrite E1. cbn [rbind]. rewrite E2. cbn [rbind]. eexists _, _. reflexivity.
Qed.
Lemma run_init_safe h caller p l : no_nsf_frame (flat_map bits_of l) -> exists s' e, run h (v8_init caller p) l = Ok (s', e).
Proof.
  intros N. apply (run_safe h l []); [|exact N]. destruct caller; [|exists [], []; split; [reflexivity|]; apply safe_start; try reflexivity; apply fair_nil].
  unfold end_safe. cbn. destruct (send_ci p =? 0); repeat split.
Qed.

(** ---- delivery ---- *)
Section Delivery.
Context (h : parms -> parms).
Definition sync_of (o : Z) : option sync := if o =? 0 then Some SYNC_CI else if o =? 0xE0 then Some SYNC_CM_JM else if o =? 0x55 then Some SYNC_V92 else None.
Fixpoint follow (k : past) (r : rcv) (ts : list token) (f : rcv) : Prop :=
  match ts with
  | [] => k = AfterOct /\ f = w_bits 0 0 r
  | Pre :: ts => k = AfterOct /\ follow AfterPre r ts f
  | Oct o :: ts =>
      match k with
      | AfterOct => byte o /\ follow AfterOct (store o r) ts f
      | AfterPre => exists ty r', sync_octet ty = Some o /\ flush h r = Ok (r', []) /\ follow AfterOct (w_sync ty r') ts f
      end
  end.
Lemma store_bits o b n r : w_bits 0 0 (store o (w_bits b n r)) = w_bits 0 0 (store o r). Proof. reflexivity. Qed.
Lemma follow_bits ts : forall k r b n f, follow k r ts f -> follow k (w_bits b n r) ts f.
Proof.
  induction ts as [|[|o] ts IH]; intros k r b n f H; cbn [follow] in *.
  - destruct H as [-> ->]. split; reflexivity.
  - destruct H. split; [assumption | apply IH; assumption].
  - destruct k.
    + destruct H as [B H]. split; [exact B|]. apply (IH _ _ b 0) in H. exact H.
    + destruct H as (ty & r' & E & F & H). exists ty, (w_bits b n r'). split; [exact E|]. split; [rewrite flush_bits, F; reflexivity|]. apply (IH _ _ b 0) in H. exact H.
Qed.
Definition KF (f : rcv) (k : past) (r : rcv) (ts : list token) : Prop := ptype r <> SYNC_UNKNOWN /\ follow k r ts f.
Lemma sync_known ty o : sync_octet ty = Some o -> ty <> SYNC_UNKNOWN. Proof. intros E ->. discriminate E. Qed.
Lemma follow_put l r f : J (KF f) r l -> exists r' e, put_bits h r l = Ok (r', e) /\ f = w_bits 0 0 r'.
Proof.
  intros H. rewrite <- (app_nil_r l) in H.
  destruct (J_bits h (KF f)) with (l := l) (r := r) (rest := @nil bool) as (r' & e & E & H' & _); [..|exact H|].
  - intros k q ts b n [U F]. split; [exact U | apply follow_bits; exact F].
  - intros q ts [U F]. cbn in F. split; [exact U | apply F].
  - intros q o ts [U F]. cbn in F. destruct F as [B F]. split; [exact B|]. split; [congruence|]. intros _. split; [exact U | exact F].
  - intros q t ts [U F]. destruct t as [|o]; [destruct F as [X _]; discriminate X|]. destruct F as (ty & r' & E & Fl & F). exists ty, o, r', []. split; [reflexivity|]. split; [exact E|]. split; [congruence|].
    split; [exact Fl|]. split; [|constructor]. split; [eapply sync_known; exact E | exact F].
  - exists r', e. split; [exact E|]. destruct H' as (k & u & v & y & ts & X & _ & Lv & _ & _ & Ht & _ & _ & F). destruct ts as [|t ts]; [apply F|].
    exfalso. cbn [tl] in X. destruct y as [|y0 y]; [|discriminate X]. rewrite app_nil_r in Ht. pose proof (tok_length t) as Lt. rewrite <- Ht in Lt. lia.
Qed.
Lemma follow_octs d : forall r ts f, bytes d -> follow AfterOct (fold_left (fun r o => store o r) d r) ts f -> follow AfterOct r (map Oct d ++ ts) f.
Proof. induction d as [|o d IH]; intros r ts f B H; [exact H|]. inversion B; subst. cbn [map app follow]. split; [assumption|]. apply IH; assumption. Qed.
Lemma stored d : forall r, (length (rx_data r) + length d <= 63)%nat -> let r' := fold_left (fun r o => store o r) d r in
  rx_data r' = rx_data r ++ d /\ cm_data r' = cm_data r /\ got_cm r' = got_cm r /\ result r' = result r /\ ptype r' = ptype r /\ mbytes r' = mbytes r.
Proof.
  induction d as [|o d IH]; intros r L; [cbn; rewrite app_nil_r; repeat split|]. cbn [fold_left length] in *.
  assert (E : rx_data (store o r) = rx_data r ++ [o]) by (unfold store; cbn [w_octet rx_data]; destruct (Z.ltb_spec (Z.of_nat (length (rx_data r))) 63); [reflexivity | lia]).
  destruct (IH (store o r)) as (Q1 & Q2 & Q3 & Q4 & Q5 & Q6); [rewrite E, app_length; cbn; lia|]. cbv zeta. rewrite Q1, Q2, Q3, Q4, Q5, Q6, E, <- app_assoc. repeat split.
Qed.
Lemma Ok_stream r1 e1 r2 e2 : @Ok (rcv * list parms) (r1, e1) = Ok (r2, e2) -> bit_stream r1 = bit_stream r2.
Proof. intros H. injection H as -> _. reflexivity. Qed.
Lemma put_bits_win l : forall r r' e, wf r -> put_bits h r l = Ok (r', e) -> wf r' /\ win r' = skipn (length l) (win r ++ l).
Proof.
  induction l as [|x l IH]; intros r r' e W E; [inversion E; subst; rewrite app_nil_r; split; [exact W | reflexivity]|]. cbn [put_bits] in E.
  destruct (put_bit h r x) as [[r1 e1]|] eqn:E1; [|discriminate E]. cbn [rbind] in E. destruct (put_bits h r1 l) as [[r2 e2]|] eqn:E2; [|discriminate E]. injection E as <- _.
  assert (B : bit_stream r1 = shift (bit_stream r) x).
  { destruct (put_cases h r x W) as [(X & _)|[(_ & _ & _ & _ & X)|(t & _ & X)]]; rewrite E1 in X; [exact (Ok_stream _ _ _ _ X) | exact (Ok_stream _ _ _ _ X)|].
    destruct (flush h r) as [[q q']|]; [exact (Ok_stream _ _ _ _ X) | discriminate X]. }
  assert (W1 : wf r1) by (unfold wf; rewrite B; apply shift_range; exact W).
  assert (Ew : win r1 = tl (win r) ++ [x]) by (unfold win; rewrite B; apply win_shift; exact W).
  destruct (IH r1 r2 e2 W1 E2) as [W2 Q]. split; [exact W2|]. rewrite Q, Ew, <- app_assoc. cbn [length app]. pose proof (win_length r). destruct (win r); [discriminate | reflexivity].
Qed.
Lemma put_bits_app l1 : forall l2 r, put_bits h r (l1 ++ l2) = do (r, e) <- put_bits h r l1; do (r, e') <- put_bits h r l2; Ok (r, e ++ e').
Proof.
  induction l1 as [|x l1 IH]; intros l2 r; cbn [app put_bits rbind].
  - destruct (put_bits h r l2) as [[r' e]|]; reflexivity.
  - destruct (put_bit h r x) as [[r1 e1]|]; [|reflexivity]. cbn [rbind]. rewrite IH. destruct (put_bits h r1 l1) as [[r2 e2]|]; [|reflexivity]. cbn [rbind].
    destruct (put_bits h r2 l2) as [[r3 e3]|]; [|reflexivity]. cbn [rbind]. rewrite app_assoc. reflexivity.
Qed.
Lemma skip19 (w l : list bool) : length w = 20%nat -> length l = 19%nat -> exists x, skipn (length l) (w ++ l) = x :: l.
Proof.
  intros L1 L2. rewrite skipn_app, L1, L2. pose proof (skipn_length 19 w) as Y. rewrite L1 in Y. change (20 - 19)%nat with 1%nat in Y. change (19 - 20)%nat with 0%nat. rewrite skipn_O.
  destruct (skipn 19 w) as [|x [|? ?]]; [discriminate Y | exists x; reflexivity | discriminate Y].
Qed.
Lemma synced r t o r1 e1 : wf r -> sync_octet t = Some o -> put_bits h r (ten_ones ++ framed o) = Ok (r1, e1) ->
  wf r1 /\ win r1 = ten_ones ++ framed o /\ ptype r1 = t /\ bit_cnt r1 = 1 /\ rx_data r1 = [].
Proof.
  intros W E H. destruct (put_bits_win _ _ _ _ W H) as [W1 Q1].
  assert (Ew : win r1 = ten_ones ++ framed o) by (rewrite Q1, skipn_app, skipn_all2 by (rewrite win_length; cbn; lia); rewrite win_length; reflexivity).
  split; [exact W1|]. split; [exact Ew|].
  change (ten_ones ++ framed o) with (ten_ones ++ ((false :: bits_lsb 8 o) ++ [true])) in H. rewrite app_assoc, put_bits_app in H.
  destruct (put_bits h r (ten_ones ++ false :: bits_lsb 8 o)) as [[r2 e2]|] eqn:E2; [|discriminate H]. destruct (put_bits_win _ _ _ _ W E2) as [W2 Q2]. cbn [rbind put_bits] in H.
  destruct (put_bit h r2 true) as [[r3 e3]|] eqn:E3; [|discriminate H]. cbn [rbind] in H. injection H as <- _.
  assert (M : matches (tl (win r2) ++ [true]) t).
  { exists o. split; [exact E|]. rewrite Q2. destruct (skip19 (win r) (ten_ones ++ false :: bits_lsb 8 o) (win_length r) eq_refl) as (x & ->). cbn [tl]. rewrite <- app_assoc. reflexivity. }
  rewrite (put_sync h r2 true t W2 M) in E3. destruct (flush h _) as [[r4 e4]|]; [|discriminate E3]. cbn [rbind] in E3. injection E3 as <- _. repeat split.
Qed.
Lemma delivered r r1 e1 d t o : wf r -> put_bits h r (ten_ones ++ framed 0xE0) = Ok (r1, e1) -> got_cm r1 = false ->
  bytes d -> Forall (fun o => ~ is_nsf o) d -> (1 <= length d <= 63)%nat -> sync_octet t = Some o ->
  exists r2 e2, put_bits h r1 (flat_map framed d ++ message 0xE0 d ++ ten_ones ++ framed o) = Ok (r2, e2) /\ got_cm r2 = true /\ jm_cm (result r2) = said (jm_cm (result r1)) d.
Proof.
  intros W E G B N L S. destruct (synced r SYNC_CM_JM 0xE0 r1 e1 W eq_refl E) as (W1 & Ew & Ep & Ec & Er).
  set (ts := map Oct d ++ Pre :: Oct 0xE0 :: map Oct d ++ Pre :: Oct o :: []).
  assert (Et : flat_map framed d ++ message 0xE0 d ++ ten_ones ++ framed o = tbits ts).
  { unfold ts, tbits. rewrite flat_map_app. cbn [flat_map bits_tok]. rewrite flat_map_app. cbn [flat_map bits_tok]. fold (tbits (map Oct d)). rewrite !tbits_octets. unfold message. cbn [flat_map]. rewrite !app_nil_r, <- !app_assoc. reflexivity. }
  assert (F : exists f, follow AfterOct r1 ts f /\ got_cm f = true /\ jm_cm (result f) = said (jm_cm (result r1)) d).
  { destruct (stored d r1) as (P1 & P2 & P3 & P4 & P5 & P6); [rewrite Er; cbn; lia|]. rewrite Er in P1. cbn [app] in P1. set (q := fold_left (fun r o => store o r) d r1) in *.
    assert (Fl : exists q1, flush h q = Ok (q1, []) /\ cm_data q1 = d /\ (got_cm q1 = false /\ result q1 = result r1 \/ got_cm q1 = true /\ jm_cm (result q1) = said (jm_cm (result r1)) d)).
    { unfold flush. rewrite P5, Ep. unfold cm_jm_decode. rewrite P3, G, P1, P2. destruct ((Z.of_nat (length (cm_data r1)) <=? 0) || negb (same (cm_data r1) d)) eqn:Eo.
      - destruct (Z.ltb_spec 64 (Z.of_nat (length d))); [lia|]. eexists. split; [reflexivity|]. split; [reflexivity|]. left. split; [cbn; congruence | exact P4].
      - apply orb_false_iff in Eo as [_ Eo]. apply negb_false_iff in Eo. apply same_true in Eo. rewrite Eo. destruct (Z.leb_spec 64 (Z.of_nat (length d))); [lia|]. rewrite decode_said by (assumption || lia).
        eexists. split; [reflexivity|]. split; [cbn; congruence|]. right. split; [reflexivity|]. cbn. rewrite P4. reflexivity. }
    destruct Fl as (q1 & F1 & D1 & H1). set (q2 := w_sync SYNC_CM_JM q1).
    destruct (stored d q2) as (R1 & R2 & R3 & R4 & R5 & R6); [cbn; lia|]. cbn [app] in R1. set (q3 := fold_left (fun r o => store o r) d q2) in *.
    assert (Fl : exists q4, flush h q3 = Ok (q4, []) /\ got_cm q4 = true /\ jm_cm (result q4) = said (jm_cm (result r1)) d).
    { unfold flush. rewrite R5. cbn [q2 w_sync ptype]. unfold cm_jm_decode. rewrite R1, R2, R3. cbn [q2 w_sync got_cm cm_data rx_data app]. rewrite D1. destruct H1 as [[G1 E1]|[G1 E1]]; rewrite G1.
      - rewrite same_refl. destruct (Z.leb_spec (Z.of_nat (length d)) 0); [lia|]. cbn [negb orb]. destruct (Z.leb_spec 64 (Z.of_nat (length d))); [lia|]. rewrite decode_said by (assumption || lia).
        eexists. split; [reflexivity|]. split; [reflexivity|]. cbn. rewrite R4. cbn. rewrite E1. reflexivity.
      - eexists. split; [reflexivity|]. split; [rewrite R3; exact G1 | rewrite R4; exact E1]. }
    destruct Fl as (q4 & F4 & G4 & E4). exists (w_bits 0 0 (w_sync t q4)). split; [|split; assumption].
    unfold ts. apply follow_octs; [exact B|]. fold q. cbn [follow]. split; [reflexivity|]. exists SYNC_CM_JM, q1. split; [reflexivity|]. split; [exact F1|].
    apply follow_octs; [exact B|]. fold q2. fold q3. cbn [follow]. split; [reflexivity|]. exists t, q4. auto. }
  destruct F as (f & F & Gf & Ef). rewrite Et. destruct (follow_put (tbits ts) r1 f) as (r2 & e2 & E2 & ->); [|exists r2, e2; repeat split; assumption].
  exists AfterOct, (ten_ones ++ framed 0xE0), [], (first_bits ts), ts. rewrite app_nil_r. split; [destruct ts; reflexivity|].
  split; [exists ten_ones, (framed 0xE0); split; [reflexivity|]; split; [reflexivity|]; eexists; split; reflexivity|]. split; [cbn; lia|]. split; [exact W1|].
  split; [exists 0%nat; split; [lia | exact Ew]|]. split; [destruct ts; auto|]. split; [|split; [rewrite Ep; discriminate | exact F]].
  intros _. split; [exact Ew|]. intros _. right. split; [exact Ec | reflexivity].
Qed.
End Delivery.

(** ---- soundness ---- *)
Definition last10 (l : list bool) : list bool := skipn (length l - 10) l.
Lemma last10_app a b : (10 <= length b)%nat -> last10 (a ++ b) = last10 b.
Proof. intros L. unfold last10. rewrite skipn_app, app_length. rewrite skipn_all2 by lia. cbn [app]. f_equal. lia. Qed.
Lemma last10_window l : (20 <= length l)%nat -> skipn 10 (window l) = last10 l.
Proof. intros L. destruct (window_long l L) as (x & E). rewrite E at 2. rewrite last10_app by (rewrite window_length; lia). unfold last10. rewrite window_length. reflexivity. Qed.
Definition fires (t : list bool) : bool := negb (nth 0 t true) && nth 9 t false.
Definition octet10 (t : list bool) : Z := of_bits_lsb (firstn 8 (skipn 1 t)).
Lemma at_octet_last w : length w = 20%nat -> at_octet w = fires (skipn 10 w) /\ of_bits_lsb (firstn 8 (skipn 11 w)) = octet10 (skipn 10 w).
Proof. intros L. do 20 (destruct w as [|? w]; [discriminate|]). destruct w; [|discriminate]. split; reflexivity. Qed.
Lemma hear_spec pend heard bit : let q := pend ++ [bit] in
  hear (pend, heard) bit = if (10 <=? length q)%nat && fires (last10 q) then ([], heard ++ [octet10 (last10 q)]) else (q, heard).
Proof.
  cbv zeta. rewrite <- (rev_involutive pend). generalize (rev pend). clear pend. intros p. unfold hear. rewrite rev_involutive. rewrite app_length, rev_length. cbn [length].
  do 9 (destruct p as [|? p]; [destruct bit; reflexivity|]).
  match goal with |- context [(10 <=? ?n)%nat] => replace (10 <=? n)%nat with true by (symmetry; apply Nat.leb_le; cbn [length]; lia) end. cbn [andb].
  replace (rev (b :: b0 :: b1 :: b2 :: b3 :: b4 :: b5 :: b6 :: b7 :: p) ++ [bit]) with (rev p ++ [b7; b6; b5; b4; b3; b2; b1; b0; b; bit]) by (cbn [rev]; rewrite <- !app_assoc; reflexivity).
  rewrite last10_app by (cbn; lia). cbn [last10]. unfold last10. cbn [length Nat.sub skipn]. unfold fires, octet10. cbn [nth skipn firstn].
  destruct bit; [destruct b7; reflexivity | rewrite andb_false_r; reflexivity].
Qed.
Lemma firstn_snoc (d : list Z) o : firstn 63 (d ++ [o]) = if Z.of_nat (length (firstn 63 d)) <? 63 then firstn 63 d ++ [o] else firstn 63 d.
Proof.
  rewrite firstn_length. destruct (Z.ltb_spec (Z.of_nat (Nat.min 63 (length d))) 63).
  - rewrite !firstn_all2; [reflexivity | lia | rewrite app_length; cbn; lia].
  - rewrite firstn_app. replace (63 - length d)%nat with 0%nat by lia. apply app_nil_r.
Qed.
(** a message with the octets [d], and no CM or JM from its end on but at the end of [hist] *)
Definition earlier (hist : list bool) (d : list Z) : Prop :=
  exists b1 x1 t1 mid, hist = b1 ++ x1 ++ mid /\ ends_in_sync b1 SYNC_CM_JM /\ heard_message b1 x1 t1 d /\
    (forall y z, mid = y ++ z -> z <> [] -> ~ ends_in_sync (b1 ++ x1 ++ y) SYNC_CM_JM).
Lemma snoc_split (l : list bool) bit y z : l ++ [bit] = y ++ z -> z <> [] -> exists z', z = z' ++ [bit] /\ l = y ++ z'.
Proof.
  intros E N. destruct (exists_last N) as (z' & b & ->). rewrite app_assoc in E. apply app_inj_tail in E as [E ->]. exists z'. auto.
Qed.
Lemma earlier_snoc hist d bit : earlier hist d -> ~ ends_in_sync hist SYNC_CM_JM -> earlier (hist ++ [bit]) d.
Proof.
  intros (b1 & x1 & t1 & mid & -> & S & H & N) Ns. exists b1, x1, t1, (mid ++ [bit]). rewrite <- !app_assoc. repeat (split; [assumption || reflexivity|]).
  intros y z E Nz. destruct (snoc_split _ _ _ _ E Nz) as (z' & -> & Em). destruct z' as [|c z']; [|apply (N y (c :: z') Em); discriminate]. rewrite app_nil_r in Em. subst y. exact Ns.
Qed.
Record during (hist : list bool) (r : rcv) (before x : list bool) : Prop := {
  d_hist : hist = before ++ x; d_sync : ends_in_sync before (ptype r);
  d_none : forall y z t, x = y ++ z -> y <> [] -> ~ ends_in_sync (before ++ y) t;
  d_octets : exists pend heard, fold_left hear x ([], []) = (pend, heard) /\ rx_data r = firstn 63 heard /\ (exists p, x = p ++ pend) /\
    (heard = [] -> pend = x) /\ bit_cnt r = Z.of_nat (length pend) + (if heard then 1 else 0) }.
Record T (hist : list bool) (r : rcv) : Prop := {
  t_wf : wf r; t_win : win r = window hist; t_none : ptype r = SYNC_UNKNOWN -> cm_data r = [];
  t_in : ptype r <> SYNC_UNKNOWN -> exists before x, during hist r before x /\ (ptype r = SYNC_CM_JM -> got_cm r = false -> cm_data r <> [] -> earlier before (cm_data r));
  t_out : ptype r <> SYNC_CM_JM -> got_cm r = false -> cm_data r <> [] -> earlier hist (cm_data r) /\ ~ ends_in_sync hist SYNC_CM_JM }.
Lemma sync_unique hist t t' : ends_in_sync hist t -> ends_in_sync hist t' -> t = t'.
Proof.
  rewrite <- !sync_heard. intros (o & E & M) (o' & E' & M'). rewrite M in M'. apply app_inv_head in M'. destruct t, t'; cbn in E, E'; inversion E; inversion E'; subst; try reflexivity; vm_compute in M'; discriminate M'.
Qed.
Lemma sync_long hist t : ends_in_sync hist t -> (20 <= length hist)%nat /\ exists y, hist = y ++ [true].
Proof.
  intros (a & o & _ & ->). split; [rewrite !app_length; cbn; lia|]. exists (a ++ ten_ones ++ false :: bits_lsb 8 o). rewrite <- !app_assoc. reflexivity.
Qed.
(** a bit that is not the last of a synchronisation octet *)
Lemma during_bit hist r before x bit : during hist r before x -> ptype r <> SYNC_UNKNOWN -> (forall t, ~ ends_in_sync (hist ++ [bit]) t) -> win r = window hist ->
  forall r', ptype r' = ptype r ->
  (rx_data r' = rx_data r /\ bit_cnt r' = bit_cnt r + 1 /\ (at_octet (window (hist ++ [bit])) = false \/ bit_cnt r + 1 < 10) \/
   at_octet (window (hist ++ [bit])) = true /\ 10 <= bit_cnt r + 1 /\ bit_cnt r' = 0 /\
     rx_data r' = (let o := of_bits_lsb (firstn 8 (skipn 11 (window (hist ++ [bit])))) in if Z.of_nat (length (rx_data r)) <? 63 then rx_data r ++ [o] else rx_data r)) ->
  during (hist ++ [bit]) r' before (x ++ [bit]).
Proof.
  intros [] U N Ew r' Ep H. destruct d_octets0 as (pend & heard & F & R & (p & Ex) & Eh & Ec). destruct (sync_long _ _ d_sync0) as (L & yb & Eb).
  constructor.
  - rewrite d_hist0, app_assoc. reflexivity.
  - rewrite Ep. exact d_sync0.
  - intros y z t E Ny. destruct z as [|c z].
    + rewrite app_nil_r in E. subst y. rewrite app_assoc, <- d_hist0. apply N.
    + destruct (snoc_split _ _ _ _ E ltac:(discriminate)) as (z' & _ & Ex'). apply (d_none0 y z' t Ex' Ny).
  - assert (Lh : (20 <= length (hist ++ [bit]))%nat) by (rewrite d_hist0, !app_length; lia).
    destruct (at_octet_last _ (window_length (hist ++ [bit]))) as [A1 A2]. rewrite A1, A2, (last10_window _ Lh) in H.
    pose proof (hear_spec pend heard bit) as Hs. cbv zeta in Hs. set (q := pend ++ [bit]) in *.
    assert (Lq : length q = S (length pend)) by (unfold q; rewrite app_length; cbn; lia).
    assert (Hq : hist ++ [bit] = (before ++ p) ++ q) by (unfold q; rewrite d_hist0, Ex, <- !app_assoc; reflexivity).
    assert (L10 : (10 <= length q)%nat -> last10 (hist ++ [bit]) = last10 q) by (intros Y; rewrite Hq; apply last10_app; exact Y).
    (* the octet is not heard too early *)
    assert (Early : (length q < 10)%nat -> 10 <= bit_cnt r + 1 -> fires (last10 (hist ++ [bit])) = false).
    { intros Y Z1. destruct heard as [|o heard]; [|lia]. assert (length q = 9%nat) by lia.
      replace (hist ++ [bit]) with (yb ++ true :: q) by (unfold q; rewrite (Eh eq_refl), d_hist0, Eb, <- !app_assoc; reflexivity). rewrite last10_app by (cbn [length]; lia). unfold last10. cbn [length]. rewrite H0. reflexivity. }
    rewrite fold_left_app. cbn [fold_left]. rewrite F, Hs. destruct H as [(H1 & H2 & H3)|(H1 & H2 & H3 & H4)].
    + assert (Nf : (10 <=? length q)%nat && fires (last10 q) = false).
      { destruct (Nat.leb_spec 10 (length q)) as [Y|Y]; [|reflexivity]. cbn [andb]. rewrite <- L10 by exact Y. destruct H3 as [H3|H3]; [exact H3|]. destruct heard; lia. }
      rewrite Nf. exists q, heard. split; [reflexivity|]. split; [congruence|]. split; [exists p; unfold q; rewrite Ex, <- app_assoc; reflexivity|]. split; [intros Y; unfold q; rewrite (Eh Y); reflexivity|]. rewrite H2, Ec, Lq. destruct heard; lia.
    + assert (Y : (10 <= length q)%nat) by (destruct (Nat.leb_spec 10 (length q)); [assumption|]; rewrite Early in H1 by lia; discriminate H1).
      rewrite (L10 Y) in *. rewrite H1. replace (10 <=? length q)%nat with true by (symmetry; apply Nat.leb_le; exact Y). cbn [andb]. exists [], (heard ++ [octet10 (last10 q)]). split; [reflexivity|].
      split; [rewrite H4, R; symmetry; apply firstn_snoc|]. split; [exists (x ++ [bit]); rewrite app_nil_r; reflexivity|]. split; [destruct heard; discriminate|]. rewrite H3. destruct heard; reflexivity.
Qed.
Lemma T_same hist r r' : bit_stream r' = bit_stream r -> bit_cnt r' = bit_cnt r -> ptype r' = ptype r -> rx_data r' = rx_data r -> cm_data r' = cm_data r -> got_cm r' = got_cm r -> T hist r -> T hist r'.
Proof.
  intros E1 E2 E3 E4 E5 E6 []. constructor; unfold wf, win in *; rewrite ?E1, ?E3, ?E5, ?E6; try assumption. intros U. destruct (t_in0 U) as (before & x & [] & H). exists before, x. split; [|exact H].
  constructor; rewrite ?E3, ?E4, ?E2; assumption.
Qed.
Lemma removelast_snoc (l : list bool) x : removelast (l ++ [x]) = l. Proof. apply removelast_last. Qed.
Lemma T_bit h hist r bit r' e : T hist r -> put_bit h r bit = Ok (r', e) ->
  T (hist ++ [bit]) r' /\ (got_cm r = false -> got_cm r' = true -> exists d, twice (hist ++ [bit]) d /\ (bytes d -> Forall (fun o => ~ is_nsf o) d -> jm_cm (result r') = said (jm_cm (result r)) d)).
Proof.
  intros H E. destruct H. assert (Rb : 0 <= shift (bit_stream r) bit < 2 ^ 20) by (apply shift_range; exact t_wf0).
  assert (Wb : bits_lsb 20 (shift (bit_stream r) bit) = window (hist ++ [bit])) by (rewrite win_shift by exact t_wf0; fold (win r); rewrite t_win0, window_snoc; reflexivity).
  assert (Ww : tl (win r) ++ [bit] = window (hist ++ [bit])) by (rewrite t_win0, window_snoc; reflexivity).
  destruct (put_cases h r bit t_wf0) as [(X & N & Q)|[(U & A & C & N & X)|(t & M & X)]]; rewrite E in X.
  - assert (Ns : forall t, ~ ends_in_sync (hist ++ [bit]) t) by (intros t Y; apply sync_heard in Y; apply (N t); rewrite Ww; exact Y).
    injection X as -> _. split; [|cbn [w_bits got_cm]; congruence]. constructor; try assumption.
    + intros U. change (ptype (w_bits (shift (bit_stream r) bit) (next_cnt r) r)) with (ptype r) in U. destruct (t_in0 U) as (before & x & D & Er). exists before, (x ++ [bit]). split; [|exact Er].
      apply (during_bit hist r before x bit D U Ns t_win0); [reflexivity|]. left. split; [reflexivity|]. rewrite Ww in Q. split; [cbn [w_bits bit_cnt]; unfold next_cnt; destruct (ptype r); [congruence | reflexivity..]|]. destruct Q as [Q|Q]; [congruence | exact Q].
    + intros U G D. destruct (t_out0 U G D) as [D1 D2]. split; [apply earlier_snoc; assumption | apply Ns].
  - assert (Ns : forall t, ~ ends_in_sync (hist ++ [bit]) t) by (intros t Y; apply sync_heard in Y; apply (N t); rewrite Ww; exact Y).
    rewrite Ww in X, A. set (o := of_bits_lsb _) in X. assert (Er' : r' = store o (w_bits (shift (bit_stream r) bit) 0 r)) by (apply (f_equal (fun z => match z with Ok (q, _) => q | UB => r end)) in X; exact X). subst r'. clear X.
    split; [|cbn [store w_octet w_bits got_cm]; congruence]. constructor; try assumption.
    + intros _. destruct (t_in0 U) as (before & x & D & Er). exists before, (x ++ [bit]). split; [|exact Er].
      apply (during_bit hist r before x bit D U Ns t_win0); [reflexivity|]. right. split; [exact A|]. split; [exact C|]. split; reflexivity.
    + intros U' G D. destruct (t_out0 U' G D) as [D1 D2]. split; [apply earlier_snoc; assumption | apply Ns].
  - rewrite Ww in M. apply sync_heard in M. destruct (flush h r) as [[r1 e1]|] eqn:F; [|discriminate X]. cbn [rbind] in X.
    assert (Er' : r' = w_bits (shift (bit_stream r) bit) 1 (w_sync t r1)) by (apply (f_equal (fun z => match z with Ok (q, _) => q | UB => r end)) in X; exact X). clear X.
    assert (New : forall q, wf q -> win q = window (hist ++ [bit]) -> ptype q = t -> bit_cnt q = 1 -> rx_data q = [] ->
      (got_cm q = false -> cm_data q <> [] -> earlier (hist ++ [bit]) (cm_data q)) -> T (hist ++ [bit]) q).
    { intros q Q1 Q2 Q3 Q4 Q5 Q6. assert (t <> SYNC_UNKNOWN) by (intros ->; destruct M as (? & ? & Y & _); discriminate Y). constructor; try assumption.
      - congruence.
      - intros _. exists (hist ++ [bit]), []. split; [|intros _; exact Q6]. constructor.
        + rewrite app_nil_r. reflexivity.
        + rewrite Q3. exact M.
        + intros y z t' Y1 Y2. destruct y; [congruence | discriminate Y1].
        + exists [], []. rewrite Q4, Q5. repeat split. exists []. reflexivity.
      - intros Y1 Y2 Y3. split; [apply Q6; assumption|]. intros Y4. apply Y1. rewrite Q3. exact (sync_unique _ _ _ M Y4). }
    assert (Ewin : forall q n, win (w_bits (shift (bit_stream r) bit) n q) = window (hist ++ [bit])) by (intros; exact Wb).
    assert (Other : ptype r <> SYNC_CM_JM -> got_cm r = false -> cm_data r <> [] -> earlier (hist ++ [bit]) (cm_data r)).
    { intros U G D. destruct (t_out0 U G D) as [D1 D2]. apply earlier_snoc; assumption. }
    assert (Same : cm_data r1 = cm_data r -> got_cm r1 = got_cm r -> ptype r <> SYNC_CM_JM \/ got_cm r = true -> T (hist ++ [bit]) r' /\ (got_cm r = false -> got_cm r' = true -> exists d, twice (hist ++ [bit]) d /\ (bytes d -> Forall (fun o => ~ is_nsf o) d -> jm_cm (result r') = said (jm_cm (result r)) d))).
    { intros S1 S2 S3. subst r'. split; [|cbn [w_bits w_sync got_cm]; congruence]. apply New; try reflexivity; [exact Rb | apply Ewin|]. cbn [w_bits w_sync got_cm cm_data]. rewrite S1, S2. destruct S3 as [S3|S3]; [auto | congruence]. }
    unfold flush in F. destruct (ptype r) eqn:Ep.
    + injection F as <- _. apply Same; auto. left. discriminate.
    + unfold ci_decode in F. destruct (got_ci r); injection F as <- _; apply Same; auto; left; discriminate.
    + clear Same Other. destruct (t_in0 ltac:(discriminate)) as (before & x & D & Er). destruct D. destruct d_octets0 as (pend & heard & Fo & R & _).
      assert (Hm : heard_message before (x ++ [bit]) t (rx_data r)).
      { split; [rewrite app_assoc, <- d_hist0; exact M|]. split; [destruct x; discriminate|]. split.
        - intros y z t' Y1 Y2 Y3. destruct (snoc_split _ _ _ _ Y1 Y3) as (z' & _ & Y4). apply (d_none0 y z' t' Y4 Y2).
        - rewrite removelast_snoc. unfold octets_heard. rewrite Fo. exact R. }
      unfold cm_jm_decode in F. destruct (got_cm r) eqn:G.
      * cbn [rbind] in F. injection F as <- _. subst r'. split; [|cbn [w_bits w_sync got_cm]; congruence]. apply New; try reflexivity; [exact Rb | apply Ewin|]. cbn [w_bits w_sync got_cm]. congruence.
      * destruct ((Z.of_nat (length (cm_data r)) <=? 0) || negb (same (cm_data r) (rx_data r))) eqn:Eo.
        { destruct (64 <? _); [discriminate F|]. cbn [rbind] in F. injection F as <- _. subst r'. split; [|intros _ Y; change (got_cm r = true) in Y; congruence]. apply New; try reflexivity; [exact Rb | apply Ewin|].
          intros _ _. exists before, (x ++ [bit]), t, []. rewrite Ep in d_sync0. split; [rewrite app_nil_r, app_assoc, <- d_hist0; reflexivity|]. split; [exact d_sync0|]. split; [exact Hm|]. intros y z Y1 Y2. destruct y; [cbn in Y1; congruence | discriminate Y1]. }
        { apply orb_false_iff in Eo as [Eo1 Eo2]. apply negb_false_iff in Eo2. apply same_true in Eo2. apply Z.leb_gt in Eo1. destruct (Z.leb_spec 64 (Z.of_nat (length (cm_data r)))) as [Y|Y]; [discriminate F|].
          destruct (decode_loop 64 (mbytes r) (w_mods 0 (jm_cm (result r))) (cm_data r ++ [0])) as [[n c]|] eqn:Ed; [|discriminate F]. cbn [rbind] in F. injection F as <- _. subst r'.
          assert (Nn : cm_data r <> []) by (intros Z0; rewrite Z0 in Eo1; cbn in Eo1; lia).
          split; [apply New; try reflexivity; [exact Rb | apply Ewin | cbn; congruence]|]. intros _ _. exists (cm_data r). split.
          - destruct (Er eq_refl eq_refl Nn) as (b1 & x1 & t1 & mid & Y1 & Y2 & Y3 & Y4). rewrite Ep in d_sync0. rewrite <- Eo2 in Hm. rewrite Y1 in Hm, d_sync0.
            exists b1, x1, t1, mid, (x ++ [bit]), t. split; [rewrite d_hist0, Y1, <- !app_assoc; reflexivity|]. repeat (split; [assumption|]). assumption.
          - intros B Nf. rewrite decode_said in Ed by (assumption || lia). injection Ed as _ <-. reflexivity. }
    + injection F as <- _. apply Same; auto. left. discriminate.
Qed.
Lemma T_bits h l : forall hist r r' e, T hist r -> put_bits h r l = Ok (r', e) -> T (hist ++ l) r'.
Proof.
  induction l as [|x l IH]; intros hist r r' e H E; [injection E as <- _; rewrite app_nil_r; exact H|]. cbn [put_bits] in E.
  destruct (put_bit h r x) as [[r1 e1]|] eqn:E1; [|discriminate E]. cbn [rbind] in E. destruct (put_bits h r1 l) as [[r2 e2]|] eqn:E2; [|discriminate E]. injection E as <- _.
  change (x :: l) with ([x] ++ l). rewrite app_assoc. eapply IH; [|exact E2]. apply (T_bit h hist r x r1 e1 H E1).
Qed.
Lemma T_start r : bit_stream r = 0 -> ptype r = SYNC_UNKNOWN -> cm_data r = [] -> T [] r.
Proof. intros E1 E2 E3. constructor; [unfold wf; lia | unfold win; rewrite E1; reflexivity | auto | congruence | congruence]. Qed.
Lemma heard_twice h r0 l r e b r' e' : bit_stream r0 = 0 -> ptype r0 = SYNC_UNKNOWN -> cm_data r0 = [] -> put_bits h r0 l = Ok (r, e) -> put_bit h r b = Ok (r', e') -> got_cm r = false -> got_cm r' = true ->
  exists d, twice (l ++ [b]) d /\ (bytes d -> Forall (fun o => ~ is_nsf o) d -> jm_cm (result r') = said (jm_cm (result r)) d).
Proof.
  intros E1 E2 E3 E4 E5 G G'. pose proof (T_bits h l [] r0 r e (T_start r0 E1 E2 E3) E4) as H. apply (T_bit h l r b r' e' H E5); assumption.
Qed.
