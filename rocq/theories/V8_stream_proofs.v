(** The receiver on a stream of whole messages. *)
From Verif Require Import Base V8_model V8_spec V8_codec_proofs V8_bit_proofs.
Local Open Scope Z_scope.

Definition msg := (Z * list Z)%type.
Definition mtoks (m : msg) : list token := Pre :: Oct (fst m) :: map Oct (snd m).
Definition mstoks (l : list msg) : list token := flat_map mtoks l.
Fixpoint cz (l : list Z) : Z := match l with [] => 0 | o :: t => (if o =? 0 then 1 else 0) + cz t end.
Definition czm (l : list msg) : Z := cz (flat_map snd l).
Lemma cz_app a b : cz (a ++ b) = cz a + cz b. Proof. induction a; cbn [app cz]; lia. Qed.
Lemma cz_nonneg l : 0 <= cz l. Proof. induction l as [|o l IH]; cbn [cz]; [lia|]. destruct (o =? 0); lia. Qed.
Lemma czm_cons m l : czm (m :: l) = cz (snd m) + czm l. Proof. unfold czm. cbn [flat_map]. apply cz_app. Qed.
Lemma czm_app a b : czm (a ++ b) = czm a + czm b. Proof. unfold czm. rewrite flat_map_app. apply cz_app. Qed.
Definition not_ci (m : msg) : Prop := fst m <> 0.
Definition ordered (l : list msg) : Prop := forall x m y, l = x ++ m :: y -> not_ci m -> Forall not_ci y.

(** The stream: the capabilities it offers ([sent]; [D] are the octets), the result before and after they are accepted, whether there
    may be a CI, the number of zeros that may be in it, whether it has CI only, and whether it has ended with a CJ. *)
Record stream := { D : list Z; offered : caps; before : caps; after : caps; may_ci : bool; zero_max : Z; only_ci : bool; ended : bool }.
Definition wf_stream (S : stream) : Prop := exists m p, D S = cm_octets 3 m p /\ offered S = offer m p.
Definition msg_ok (S : stream) (m : msg) : Prop := (fst m = 0x00 \/ fst m = 0xE0 \/ fst m = 0x55) /\ bytes (snd m) /\ (fst m = 0xE0 -> snd m = D S).
Record K (S : stream) (k : past) (r : rcv) (d : list Z) (ms : list msg) (tail : list Z) : Prop := {
  k_pre : k = AfterPre -> d = [] /\ ms <> [];
  k_d : bytes d; k_tail : bytes tail; k_ms : Forall (msg_ok S) ms; k_end : ended S = false -> tail = [];
  k_data : ptype r = SYNC_CM_JM -> rx_data r ++ d = D S \/ d = [] /\ ms = [] /\ ended S = true;
  k_zeros : 0 <= zeros r /\ zeros r + cz d + czm ms + cz tail <= zero_max S;
  k_cj : got_cj r = true -> 3 <= zero_max S;
  k_saved : cm_data r = [] \/ cm_data r = D S;
  k_order : ordered ms;
  k_noci : ptype r = SYNC_CM_JM \/ cm_data r <> [] \/ got_cm r = true -> ptype r <> SYNC_CI /\ Forall not_ci ms;
  k_ci : may_ci S = false -> ptype r <> SYNC_CI /\ Forall not_ci ms;
  k_only : only_ci S = true -> Forall (fun m => fst m = 0) ms /\ (ptype r = SYNC_UNKNOWN \/ ptype r = SYNC_CI) /\ cm_data r = [] /\ got_cm r = false;
  k_acc : got_cm r = true -> jm_cm (result r) = after S;
  k_open : got_cm r = false -> nothing_said (jm_cm (result r)) /\ after S = offered S /\ (may_ci S = false -> jm_cm (result r) = before S);
  k_n : mbytes r = 3 }.
Definition KT (S : stream) (k : past) (r : rcv) (ts : list token) : Prop :=
  exists d ms tail, K S k r d ms tail /\
    match k with AfterOct => ts = map Oct d ++ mstoks ms ++ map Oct tail | AfterPre => Pre :: ts = mstoks ms ++ map Oct tail end.

Lemma KT_bits S k r ts b n : KT S k r ts -> KT S k (w_bits b n r) ts.
Proof. intros (d & ms & tail & H & E). exists d, ms, tail. split; [|exact E]. destruct H. constructor; assumption. Qed.
Lemma KT_pre S r ts : KT S AfterOct r (Pre :: ts) -> KT S AfterPre r ts.
Proof.
  intros (d & ms & tail & H & E). destruct d as [|o d]; [|discriminate E]. destruct ms as [|m ms]; [destruct tail; discriminate E|].
  exists [], (m :: ms), tail. split; [|exact E]. destruct H. constructor; try assumption. intros _. split; [reflexivity | discriminate].
Qed.
Lemma store_short S r o d : wf_stream S -> rx_data r ++ o :: d = D S -> rx_data (store o r) = rx_data r ++ [o].
Proof.
  intros (m & p & E & _) X. unfold store. cbn [w_octet rx_data]. destruct (cm_fit m p) as [_ L]. rewrite <- E, <- X, app_length in L. cbn [length] in L.
  destruct (Z.ltb_spec (Z.of_nat (length (rx_data r))) 63); [reflexivity | lia].
Qed.
Lemma store_zeros o r : 0 <= zeros r -> 0 <= zeros (store o r) <= zeros r + (if o =? 0 then 1 else 0).
Proof. intros H. unfold store. cbn [w_octet zeros]. destruct (o =? 0); lia. Qed.
Lemma store_cj o r : 0 <= zeros r -> got_cj (store o r) = true -> got_cj r = true \/ 3 <= zeros r + (if o =? 0 then 1 else 0).
Proof.
  intros H. unfold store. cbn [w_octet got_cj]. destruct (o =? 0); [|auto]. intros X. apply orb_true_iff in X as [X|X]; [right | left; exact X]. apply Z.eqb_eq in X. lia.
Qed.
Lemma KT_octet S r o ts : wf_stream S -> KT S AfterOct r (Oct o :: ts) -> byte o /\ (ptype r = SYNC_UNKNOWN -> KT S AfterOct r ts) /\ (ptype r <> SYNC_UNKNOWN -> KT S AfterOct (store o r) ts).
Proof.
  intros WS (d & ms & tail & H & E). destruct d as [|o' d].
  - destruct ms as [|m ms]; [|discriminate E]. destruct tail as [|o' tail]; [discriminate E|]. cbn in E. injection E as <- E. destruct H.
    inversion k_tail0; subst. cbn [cz] in k_zeros0. pose proof (cz_nonneg tail) as Ct. unfold czm in k_zeros0. cbn [flat_map cz] in k_zeros0.
    split; [assumption|]. split.
    + intros U. exists [], [], tail. split; [|reflexivity]. constructor; try assumption. * intros X. specialize (k_end0 X). discriminate.
      * unfold czm. cbn [cz flat_map]. destruct (o =? 0); lia.
    + intros U. exists [], [], tail. split; [|reflexivity]. pose proof (store_zeros o r (proj1 k_zeros0)) as Sz. constructor; try assumption.
      * intros X. specialize (k_end0 X). discriminate.
      * intros X. right. split; [reflexivity|]. split; [reflexivity|]. destruct (ended S); [reflexivity | discriminate (k_end0 eq_refl)].
      * unfold czm. cbn [cz flat_map]. lia.
      * intros X. destruct (store_cj _ _ (proj1 k_zeros0) X); [auto | lia].
  - cbn [map app] in E. injection E as <- E. destruct H. inversion k_d0; subst. cbn [cz] in k_zeros0. split; [assumption|]. split.
    + intros U. exists d, ms, tail. split; [|reflexivity]. constructor; try assumption.
      * intros X. discriminate X.
      * intros X. congruence.
      * destruct (o =? 0); lia.
    + intros U. exists d, ms, tail. split; [|reflexivity]. pose proof (store_zeros o r (proj1 k_zeros0)) as Sz. constructor; try assumption.
      * discriminate.
      * intros X. destruct (k_data0 X) as [Y|[Y _]]; [|discriminate Y]. left. rewrite (store_short S r o d WS Y), <- app_assoc. exact Y.
      * lia.
      * intros X. pose proof (cz_nonneg d). pose proof (cz_nonneg tail). pose proof (cz_nonneg (flat_map snd ms)). unfold czm in k_zeros0. destruct (store_cj _ _ (proj1 k_zeros0) X); [auto | lia].
Qed.
Definition keeps (h : parms -> parms) : Prop := forall p, status p = CALL_FUNCTION_RECEIVED -> jm_cm (h p) = jm_cm p.
Lemma same_refl l : same l l = true. Proof. induction l as [|x l IH]; [reflexivity|]. cbn [same]. rewrite Z.eqb_refl, IH. reflexivity. Qed.
Lemma same_eq a : forall b, same a b = true -> a = b.
Proof. induction a as [|x a IH]; intros [|y b] H; try reflexivity; try discriminate. cbn [same] in H. apply andb_true_iff in H as [H1 H2]. apply Z.eqb_eq in H1. f_equal; auto. Qed.
Lemma D_facts S : wf_stream S -> (4 <= length (D S) <= 8)%nat /\ bytes (D S) /\ Forall (fun o => ~ is_nsf o) (D S) /\
  forall c n, nothing_said c -> decode_loop 64 n (w_mods 0 c) (D S ++ [0]) = Ok (3, offered S).
Proof.
  intros (m & p & -> & ->). destruct (cm_fit m p) as [F L]. split; [exact L|]. split; [apply fit_bytes; exact F|]. split; [apply fit_nsf; exact F|].
  intros c n Hc. rewrite decode_said; [|lia | apply fit_bytes; exact F | apply fit_nsf; exact F]. rewrite offer_octs, offer_said by exact Hc. reflexivity.
Qed.
Lemma w_call_said c v : nothing_said c -> nothing_said (w_call v c). Proof. intros H. exact H. Qed.
(** what a synchronisation octet does to the message before it *)
Lemma flush_K S h r ms tail : wf_stream S -> keeps h -> ms <> [] -> K S AfterPre r [] ms tail ->
  exists r' e, flush h r = Ok (r', e) /\ K S AfterPre r' [] ms tail /\ Forall quiet_event e /\
    (cm_data r' <> [] \/ got_cm r' = true -> ptype r = SYNC_CM_JM \/ cm_data r <> [] \/ got_cm r = true).
Proof.
  intros WS Kh Nm H. unfold flush. destruct (ptype r) eqn:Ep.
  - exists r, []. split; [reflexivity|]; split; [exact H|]; split; [constructor | intros X; right; exact X].
  - unfold ci_decode. destruct (got_ci r); [exists r, []; split; [reflexivity|]; split; [exact H|]; split; [constructor | intros X; right; exact X]|]. eexists _, _. split; [reflexivity|].
    assert (Hc : may_ci S <> false) by (intros X; apply (k_ci _ _ _ _ _ _ H) in X; destruct X as [X _]; congruence).
    split; [|split; [constructor; [reflexivity | constructor] | intros X; right; exact X]].
    set (p0 := set_status _ _).
    assert (Ej : jm_cm (h p0) = if Z.land (rx0 r) 0x1F =? 0x01 then w_call (value (rx0 r)) (jm_cm (result r)) else jm_cm (result r)) by (unfold p0; rewrite Kh by reflexivity; destruct (_ =? _); reflexivity).
    destruct H. constructor; try assumption.
    + cbn [got_cm w_got_ci]. intros X. destruct (k_noci0 (or_intror (or_intror X))) as [Y _]. congruence.
    + cbn [got_cm w_got_ci result]. intros X. destruct (k_open0 X) as (A & B & C). split; [rewrite Ej; destruct (_ =? _); [apply w_call_said|]; exact A|]. split; [exact B | intros Y; congruence].
  - assert (Ed : rx_data r = D S) by (destruct (k_data _ _ _ _ _ _ H Ep) as [X|(_ & X & _)]; [rewrite app_nil_r in X; exact X | contradiction]).
    destruct (D_facts S WS) as (L & B & Nn & Dec). unfold cm_jm_decode. destruct (got_cm r) eqn:Eg.
    { exists r, []. cbn [rbind]. split; [reflexivity|]. split; [exact H|]. split; [constructor | intros _; left; reflexivity]. }
    destruct (k_saved _ _ _ _ _ _ H) as [Es|Es]; rewrite Es, Ed.
    + cbn [length Z.of_nat Z.leb Z.compare orb]. destruct (Z.ltb_spec 64 (Z.of_nat (length (D S)))); [lia|]. cbn [rbind].
      eexists _, []. split; [reflexivity|]. split; [|split; [constructor | intros _; left; reflexivity]].
      pose proof (k_noci _ _ _ _ _ _ H (or_introl Ep)) as NC. destruct H. constructor; try assumption.
      * right. reflexivity.
      * intros _. exact NC.
      * intros X. destruct (k_only0 X) as (_ & [Y|Y] & _); congruence.
    + destruct (Z.leb_spec (Z.of_nat (length (D S))) 0); [lia|]. rewrite same_refl. cbn [negb orb]. destruct (Z.leb_spec 64 (Z.of_nat (length (D S)))); [lia|].
      pose proof (k_noci _ _ _ _ _ _ H (or_introl Ep)) as NC. pose proof (k_n _ _ _ _ _ _ H) as Hn. destruct (k_open _ _ _ _ _ _ H Eg) as (R1 & R2 & R3).
      rewrite Dec by exact R1. cbn [rbind]. eexists _, []. split; [reflexivity|]. split; [|split; [constructor | intros _; left; reflexivity]].
      destruct H. constructor; try assumption.
      * intros _. exact NC.
      * intros X. destruct (k_only0 X) as (_ & [Y|Y] & _); congruence.
      * intros _. cbn [w_decoded result set_caps jm_cm]. symmetry. exact R2.
      * discriminate.
      * reflexivity.
  - exists r, []. split; [reflexivity|]; split; [exact H|]; split; [constructor | intros X; right; exact X].
Qed.
Lemma ordered_tail m ms : ordered (m :: ms) -> ordered ms.
Proof. intros H x m' y E. apply (H (m :: x) m' y). rewrite E. reflexivity. Qed.
Lemma KT_sync S h r t ts : wf_stream S -> keeps h -> KT S AfterPre r (t :: ts) -> exists ty o r' e, t = Oct o /\ sync_octet ty = Some o /\ (ptype r = SYNC_UNKNOWN -> KT S AfterOct r ts) /\
  flush h r = Ok (r', e) /\ KT S AfterOct (w_sync ty r') ts /\ Forall quiet_event e.
Proof.
  intros WS Kh (d & ms & tail & H & E). destruct (k_pre _ _ _ _ _ _ H eq_refl) as [-> Nm].
  destruct (flush_K S h r ms tail WS Kh Nm H) as (r' & e & F & H' & Q & Imp). destruct ms as [|m ms]; [congruence|]. unfold mstoks in E. cbn [flat_map mtoks app] in E. injection E as -> E.
  assert (Om : msg_ok S m) by (pose proof (k_ms _ _ _ _ _ _ H) as X; inversion X; assumption). destruct Om as (Of & Ob & Oe).
  assert (Ty : exists ty, sync_octet ty = Some (fst m)) by (destruct Of as [-> | [-> | ->]]; [exists SYNC_CI | exists SYNC_CM_JM | exists SYNC_V92]; reflexivity). destruct Ty as [ty Ty].
  assert (Tci : ty = SYNC_CI <-> fst m = 0) by (destruct ty; inversion Ty; split; congruence).
  assert (Tcm : ty = SYNC_CM_JM -> fst m = 0xE0) by (intros ->; inversion Ty; reflexivity).
  exists ty, (fst m), r', e. split; [reflexivity|]. split; [exact Ty|]. split; [|split; [exact F|split; [|exact Q]]].
  - intros U. exists (snd m), ms, tail. split; [|rewrite E, <- app_assoc; reflexivity]. destruct H. rewrite czm_cons in k_zeros0. constructor; try assumption.
    + discriminate.
    + inversion k_ms0; assumption.
    + intros X. congruence.
    + cbn [cz] in *. lia.
    + apply ordered_tail in k_order0. exact k_order0.
    + intros X. destruct (k_noci0 X) as [Y Z]. split; [exact Y | inversion Z; assumption].
    + intros X. destruct (k_ci0 X) as [Y Z]. split; [exact Y | inversion Z; assumption].
    + intros X. destruct (k_only0 X) as [Y Z]. split; [inversion Y; assumption | exact Z].
  - exists (snd m), ms, tail. split; [|rewrite E, <- app_assoc; reflexivity].
    assert (Np : not_ci m -> Forall not_ci ms) by (intros X; exact (k_order _ _ _ _ _ _ H [] m ms eq_refl X)).
    assert (Nc : cm_data r' <> [] \/ got_cm r' = true -> not_ci m /\ Forall not_ci ms).
    { intros X. destruct (k_noci _ _ _ _ _ _ H (Imp X)) as [_ Y]. inversion Y; auto. }
    clear H. destruct H'. rewrite czm_cons in k_zeros0. cbn [w_sync] in *. constructor; try assumption; cbn [ptype rx_data w_sync got_cm cm_data].
    + discriminate.
    + inversion k_ms0; assumption.
    + intros X. left. cbn [app]. apply Oe, Tcm. exact X.
    + cbn [cz zeros w_sync] in *. lia.
    + apply ordered_tail in k_order0. exact k_order0.
    + intros [X|X].
      * split; [congruence|]. apply Np. unfold not_ci. rewrite (Tcm X). discriminate.
      * destruct (Nc X) as [Y Z]. split; [rewrite Tci; exact Y | exact Z].
    + intros X. destruct (k_ci0 X) as [Y Z]. inversion Z; subst. split; [rewrite Tci; assumption | assumption].
    + intros X. destruct (k_only0 X) as (Y & Z & V). inversion Y; subst. split; [assumption|]. split; [right; apply Tci; assumption | exact V].
Qed.

(** ---- the stream as the ends see it ---- *)
Definition JS (S : stream) (r : rcv) (pend : list bool) : Prop := J (KT S) r pend.
Lemma JS_bits S h l r rest : wf_stream S -> keeps h -> JS S r (l ++ rest) -> exists r' e, put_bits h r l = Ok (r', e) /\ JS S r' rest /\ Forall quiet_event e.
Proof.
  intros WS Kh H. refine (J_bits h (KT S) _ _ _ _ l r rest H).
  - intros. apply KT_bits. assumption. - intros. apply KT_pre. assumption. - intros. apply KT_octet; assumption. - intros. eapply KT_sync; eassumption.
Qed.
(** what holds whatever is pending *)
Lemma JS_K S r pend : JS S r pend -> exists k d ms tail, K S k r d ms tail.
Proof. intros (k & u & v & y & ts & _ & _ & _ & _ & _ & _ & _ & d & ms & tail & H & _). exists k, d, ms, tail. exact H. Qed.
Lemma J_app (K1 K2 : past -> rcv -> list token -> Prop) r pend new : (forall k ts, K1 k r ts -> K2 k r (ts ++ new)) -> J K1 r pend -> J K2 r (pend ++ tbits new).
Proof.
  intros H (k & u & v & y & ts & E & B & L & W & C & Ht & U & HK). destruct ts as [|t ts].
  - destruct Ht as [-> ->]. cbn in E. subst pend. exists k, u, [], (first_bits new), new. split; [destruct new; reflexivity|]. repeat (split; [assumption|]).
    split; [destruct new; auto|]. split; [exact U|]. apply (H k [] HK).
  - exists k, u, v, y, ((t :: ts) ++ new). cbn [app tl] in *. split; [rewrite E; unfold tbits; rewrite flat_map_app, app_assoc; reflexivity|]. repeat (split; [assumption|]).
    apply (H k (t :: ts) HK).
Qed.
Lemma ordered_snoc ms m : ordered ms -> (not_ci m \/ Forall (fun m => fst m = 0) ms) -> ordered (ms ++ [m]).
Proof.
  intros H C x m' y E N. destruct y as [|y0 y] using rev_ind; [constructor|]. clear IHy. rewrite app_comm_cons, app_assoc in E. apply app_inj_tail in E as [E ->].
  apply Forall_app. split; [eapply H; eassumption|]. constructor; [|constructor]. destruct C as [C|C]; [exact C|]. exfalso. rewrite E, Forall_app in C. destruct C as [_ C]. inversion C; contradiction.
Qed.
(** a message is added; the number of zeros that may be there grows *)
Definition grown (S : stream) (m : msg) (S' : stream) : Prop :=
  D S' = D S /\ offered S' = offered S /\ before S' = before S /\ after S' = after S /\ may_ci S' = may_ci S /\ zero_max S' = zero_max S + cz (snd m) /\ ended S' = ended S /\
  ((only_ci S = true /\ only_ci S' = true /\ fst m = 0 /\ may_ci S = true) \/ (only_ci S' = false /\ fst m <> 0)).
Lemma msg_ok_D S S' m : D S' = D S -> msg_ok S m -> msg_ok S' m. Proof. unfold msg_ok. intros ->. auto. Qed.
Lemma KT_app S S' m k r ts : grown S m S' -> ended S = false -> msg_ok S m -> KT S k r ts -> KT S' k r (ts ++ mtoks m).
Proof.
  intros (G1 & G2 & G3 & G4 & G5 & G6 & G7 & G8) Hf Om (d & ms & tail & H & E). pose proof (k_end _ _ _ _ _ _ H Hf) as ->. cbn [map] in E. rewrite app_nil_r in E.
  exists d, (ms ++ [m]), []. split; [|unfold mstoks in *; rewrite flat_map_app; cbn [flat_map map]; rewrite !app_nil_r; destruct k; [rewrite E, <- app_assoc; reflexivity | rewrite app_comm_cons, E; reflexivity]].
  pose proof (cz_nonneg (snd m)) as Zm. destruct H. constructor; rewrite ?G1, ?G2, ?G3, ?G4, ?G5, ?G6, ?G7; try assumption.
  - intros X. destruct (k_pre0 X) as [-> Y]. split; [reflexivity|]. destruct ms; [congruence | discriminate].
  - apply Forall_app. split; [eapply Forall_impl; [|exact k_ms0]; intros; eapply msg_ok_D; eauto | constructor; [eapply msg_ok_D; eauto | constructor]].
  - intros X. destruct (k_data0 X) as [Y|(_ & _ & Y)]; [left; exact Y | congruence].
  - rewrite czm_app, czm_cons. unfold czm at 2. cbn [flat_map cz] in *. lia.
  - intros X. specialize (k_cj0 X). lia.
  - apply ordered_snoc; [exact k_order0|]. destruct G8 as [(A & B & C & _)|[_ A]]; [right; apply (k_only0 A) | left; exact A].
  - intros X. destruct (k_noci0 X) as [Y Z]. split; [exact Y|]. apply Forall_app. split; [exact Z|]. constructor; [|constructor].
    destruct G8 as [(A & B & C & _)|[_ A]]; [|exact A]. exfalso. destruct (k_only0 A) as (_ & P & Q & R). destruct X as [X|[X|X]]; [destruct P; congruence | congruence | congruence].
  - intros X. destruct (k_ci0 X) as [Y Z]. split; [exact Y|]. apply Forall_app. split; [exact Z|]. constructor; [|constructor]. destruct G8 as [(A & B & C & F)|[_ A]]; [congruence | exact A].
  - intros X. destruct G8 as [(A & B & C & F)|[A _]]; [|congruence]. destruct (k_only0 A) as (P & Q). split; [|exact Q]. apply Forall_app. split; [exact P | constructor; [exact C | constructor]].
Qed.
