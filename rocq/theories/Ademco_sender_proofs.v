(** Contact ID: the sender. *)
From Verif Require Import Base Ademco_model Ademco_spec Ademco_proofs.
Local Open Scope Z_scope.

Definition core (s : sender) : Z * Z * Z * Z := (tone_state s, duration s, last_hit s, in_tone s).
Lemma dtmf_put_core l n s : core (fst (dtmf_put l n s)) = core s.
Proof. unfold dtmf_put. destruct (_ <=? 128); reflexivity. Qed.
Lemma sender_put_core s r s' b : sender_put s r = Ok (s', b) -> core s' = core s.
Proof.
  unfold sender_put. destruct (busy s); [intros E; injection E as <- <-; reflexivity|]. destruct (encode_msg 17 r) as [[l n]|]; cbn [rbind]; [|discriminate].
  destruct (n <? 0); intros E; injection E as E; [subst s'; reflexivity|]. pose proof (dtmf_put_core l n (w_msg l n true s)) as H. rewrite E in H. exact H.
Qed.
Lemma send_digits_core s k m : core (fst (fst (send_digits s k m))) = core s.
Proof. unfold send_digits. destruct (dtmf_tx _ _ _) as [[[a b] c] d]. destruct (_ <? m); reflexivity. Qed.
Lemma send_silence_core s m : core (fst (fst (send_silence s m))) = core s.
Proof. unfold send_silence. cbv zeta. destruct (0 <? _); [reflexivity|]. destruct (_ <? m); [rewrite send_digits_core|]; reflexivity. Qed.
Lemma sender_tx_core s m : core (fst (fst (sender_tx s m))) = core s.
Proof. unfold sender_tx. destruct (m <=? 0); [reflexivity|]. destruct (step s =? 0); [destruct (cts s); [rewrite send_silence_core|]; reflexivity|]. destruct (step s =? 1); [apply send_silence_core | apply send_digits_core]. Qed.

(** ---- success is told only at the end of a kissoff tone ---- *)
Definition in_tone_5 (hits : list Z) (s : sender) : Prop :=
  exists pre mid, hits = pre ++ [1; 1] ++ mid /\ duration s = 55 * (1 + Z.of_nat (length mid)) /\ no_gap (1 :: mid).
Definition inv (hits : list Z) (e : list seen) (s : sender) : Prop :=
  last_hit s = last hits 0 /\ (tone_state s = 5 -> in_tone s = 0 \/ (in_tone s = 1 /\ in_tone_5 hits s)) /\ (4 <= tone_state s -> In (Told Ready) e).
Lemma inv_core hits e s s' : core s' = core s -> inv hits e s -> inv hits e s'.
Proof. unfold core. intros E. injection E as E1 E2 E3 E4. unfold inv, in_tone_5. rewrite E1, E2, E3, E4. exact (fun H => H). Qed.
Lemma last_cons_irr (a b c : Z) (l : list Z) : last (a :: l) b = last (a :: l) c.
Proof. revert a. induction l as [|x l IH]; intros a; [reflexivity|]. exact (IH x). Qed.
Lemma last_app_cons (l m : list Z) x d : last (l ++ x :: m) d = last (x :: m) d.
Proof. induction l as [|a l IH]; [reflexivity|]. cbn [app last]. destruct (l ++ x :: m) eqn:E; [destruct l; discriminate|]. exact IH. Qed.
Lemma no_gap_snoc l h : no_gap l -> ~ (last l 1 = 0 /\ h = 0) -> no_gap (l ++ [h]).
Proof.
  induction l as [|a l IH]; intros G N; [exact I|]. destruct l as [|b l]; [cbn in *; tauto|]. destruct G as [G1 G2]. change ((a :: b :: l) ++ [h]) with (a :: (b :: l) ++ [h]). change (no_gap (a :: (b :: l) ++ [h])) with (~ (a = 0 /\ b = 0) /\ no_gap ((b :: l) ++ [h])). split; [exact G1 | exact (IH G2 N)].
Qed.
Lemma last_snoc (l : list Z) h d : last (l ++ [h]) d = h.
Proof. exact (last_app_cons l [] h d). Qed.
Lemma in_told e x : In (Told Ready) e -> In (Told Ready) (e ++ x).
Proof. intros H. apply in_or_app. left. exact H. Qed.
(** what [changed] does to the core *)
Lemma changed_ok hits e s hit next s' t : inv hits e s -> hit = last_hit s -> hit <> in_tone s -> changed s hit next = Ok (s', t) ->
  last_hit s' = last_hit s /\ (4 <= tone_state s' -> In (Told Ready) (e ++ map Told t)) /\
  (tone_state s' = 5 -> in_tone s' = 0 \/ (in_tone s' = 1 /\ ((hit = 1 /\ duration s' = 0) \/ (core s' = core s /\ hit <> 0)))) /\
  (In (Done true) t -> tone_state s = 5 /\ hit = 0 /\ in_time s 400 1500 = true).
Proof.
  intros (I1 & I2 & I3) E N Q. unfold changed in Q.
  assert (T : forall X : sender, s' = X -> t = [] -> last_hit X = last_hit s -> tone_state X <= 3 -> last_hit s' = last_hit s /\ (4 <= tone_state s' -> In (Told Ready) (e ++ map Told t)) /\
    (tone_state s' = 5 -> in_tone s' = 0 \/ (in_tone s' = 1 /\ ((hit = 1 /\ duration s' = 0) \/ (core s' = core s /\ hit <> 0)))) /\ (In (Done true) t -> tone_state s = 5 /\ hit = 0 /\ in_time s 400 1500 = true)).
  { clear Q. intros X -> -> L X3. split; [exact L|]. split; [lia|]. split; [lia | contradiction]. }
  destruct (Z.eq_dec (tone_state s) 0) as [S|S0]. { rewrite S in Q. injection Q as <- <-. destruct (hit =? 1); eapply T; try reflexivity; cbn; lia. }
  destruct (Z.eq_dec (tone_state s) 1) as [S|S1]. { rewrite S in Q. injection Q as <- <-. destruct (hit =? 0); eapply T; try reflexivity; cbn; [destruct (in_time s 70 130)|]; lia. }
  destruct (Z.eq_dec (tone_state s) 2) as [S|S2]. { rewrite S in Q. injection Q as <- <-. destruct (negb _); [eapply T; try reflexivity; cbn; lia|]. destruct (hit =? 2); eapply T; try reflexivity; cbn; lia. }
  destruct (Z.eq_dec (tone_state s) 3) as [S|S3].
  { rewrite S in Q. destruct (Z.eqb_spec hit 0) as [H0|H0]; [|injection Q as <- <-; eapply T; try reflexivity; lia].
    destruct (in_time s 70 130); injection Q as <- <-; [|eapply T; try reflexivity; cbn; lia]. split; [destruct (tx_len _ =? 0); reflexivity|]. split; [intros _; apply in_or_app; right; left; reflexivity|].
    split; [destruct (tx_len _ =? 0); cbn; discriminate | intros [X | []]; discriminate]. }
  destruct (Z.eq_dec (tone_state s) 4) as [S|S4].
  { rewrite S in Q. assert (R : In (Told Ready) (e ++ [])) by (apply in_told, I3; lia). injection Q as <- <-. destruct (Z.eqb_spec hit 1) as [H1|H1]; (split; [reflexivity|]; split; [intros _; exact R|]; split; [|contradiction]); cbn [tone_state w_duration w_state]; intros X; [|lia].
    right. split; [exact H1|]. left. split; [exact H1 | reflexivity]. }
  destruct (Z.eq_dec (tone_state s) 5) as [S|S5].
  { rewrite S in Q. assert (R : forall x, In (Told Ready) (e ++ x)) by (intros x; apply in_told, I3; lia). destruct (Z.eqb_spec hit 0) as [H0|H0].
    - cbv zeta in Q. change (in_time (w_msg (tx_digits s) (tx_len s) false s) 400 1500) with (in_time s 400 1500) in Q. destruct (in_time s 400 1500) eqn:W.
      + set (s1 := w_msg _ 0 false _) in Q. destruct (match next with Some r => do (s2, _) <- sender_put s1 r; Ok s2 | None => Ok s1 end) as [s2|] eqn:P; cbn [rbind] in Q; [|discriminate].
        assert (C : core s2 = core s). { destruct next as [r|]; [|injection P as <-; reflexivity]. destruct (sender_put s1 r) as [[s3 b]|] eqn:P3; cbn [rbind] in P; [|discriminate]. injection P as <-. rewrite (sender_put_core _ _ _ _ P3). reflexivity. }
        injection Q as <- <-. unfold core in C. injection C as _ _ C3 _. split; [destruct (tx_len _ =? 0); cbn; exact C3|]. split; [intros _; apply R|]. split; [destruct (tx_len _ =? 0); cbn; discriminate|]. intros _. auto.
      + unfold another_try in Q. cbv zeta in Q. destruct (_ <? 4); injection Q as <- <-.
        * split; [match goal with |- last_hit (w_duration 0 (w_state _ _ (w_state _ _ (w_timer _ _ (fst ?x))))) = _ => unfold dtmf_put; destruct (_ <=? 128); reflexivity end|]. split; [intros _; apply R|]. split; [|contradiction]. cbn. discriminate.
        * split; [reflexivity|]. split; [intros _; apply R|]. split; [|intros [X | []]; discriminate]. intros _. left. exact H0.
    - injection Q as <- <-. split; [reflexivity|]. split; [intros _; apply R|]. split; [|contradiction]. intros _. destruct (I2 S) as [Z | [Z _]]; [left; exact Z|]. right. split; [exact Z|]. right. split; [reflexivity | exact H0]. }
  fold (changed s hit next) in Q. assert (D : changed s hit next = Ok (s, [])). { unfold changed. destruct (tone_state s) as [|p|p]; try reflexivity; [lia|]. do 3 (destruct p as [p|p|]; try reflexivity; try lia). }
  rewrite D in Q. injection Q as <- <-. split; [reflexivity|]. split; [intros X; apply in_told, I3, X|]. split; [lia | contradiction].
Qed.
Lemma block_ok hits e s hit next s' t : inv hits e s -> sender_block s hit next = Ok (s', t) -> inv (hits ++ [hit]) (e ++ map Told t) s' /\ (In (Done true) t -> kissoff (hits ++ [hit]) /\ In (Told Ready) e).
Proof.
  intros V. unfold sender_block.
  set (m := if negb (hit =? in_tone s) && (hit =? last_hit s) then changed s hit next else Ok (s, [])).
  assert (A : forall s1 t1, m = Ok (s1, t1) -> (4 <= tone_state s1 -> In (Told Ready) (e ++ map Told t1)) /\
     (tone_state s1 = 5 -> in_tone s1 = 0 \/ (in_tone s1 = 1 /\ in_tone_5 (hits ++ [hit]) (w_duration (duration s1 + 55) s1))) /\ (In (Done true) t1 -> kissoff (hits ++ [hit]) /\ In (Told Ready) e)).
  { intros s1 t1. unfold m. pose proof V as (I1 & I2 & I3).
    assert (Stay : tone_state s = 5 -> in_tone s = 1 -> ~ (last_hit s = 0 /\ hit = 0) -> in_tone_5 (hits ++ [hit]) (w_duration (duration s + 55) s)).
    { intros S5 T1 NG. destruct (I2 S5) as [X | [_ (pre & mid & -> & D & G)]]; [lia|]. exists pre, (mid ++ [hit]). split; [rewrite <- !app_assoc; reflexivity|]. split; [cbn [duration w_duration]; rewrite app_length; cbn [length]; lia|].
      change (1 :: mid ++ [hit]) with ((1 :: mid) ++ [hit]). apply no_gap_snoc; [exact G|]. intros [L Hh]. apply NG. split; [|exact Hh]. rewrite I1. change (pre ++ [1; 1] ++ mid) with (pre ++ 1 :: 1 :: mid). rewrite last_app_cons. change (last (1 :: mid) 0 = 0). rewrite (last_cons_irr 1 0 1). exact L. }
    destruct (Z.eqb_spec hit (in_tone s)) as [E1|E1]; cbn [negb andb].
    - intros Q. injection Q as <- <-. cbn [map]. rewrite app_nil_r. split; [exact I3|]. split; [|contradiction]. intros S5. destruct (I2 S5) as [X | [X _]]; [left; exact X|]. right. split; [exact X|]. apply Stay; auto. lia.
    - destruct (Z.eqb_spec hit (last_hit s)) as [E2|E2].
      + intros Q. destruct (changed_ok hits e s hit next s1 t1 V E2 E1 Q) as (L & R & F & K). split; [exact R|]. split.
        * intros S5. destruct (F S5) as [X | [X Y]]; [left; exact X|]. right. split; [exact X|]. destruct Y as [[H1 D0] | [C H0]].
          -- unfold in_tone_5. cbn [duration w_duration]. rewrite D0. destruct (exists_last (l := hits)) as (pre & x & ->). { intros ->. cbn in I1. lia. } rewrite last_snoc in I1. exists pre, []. split; [rewrite <- app_assoc; cbn; rewrite <- I1, <- E2, H1; reflexivity|]. split; [reflexivity | exact I].
          -- unfold core in C. injection C as C1 C2 C3 C4. unfold in_tone_5. cbn [duration w_duration]. rewrite C2. apply Stay; try congruence. tauto.
        * intros I. destruct (K I) as (S5 & H0 & W). split; [|apply I3; lia]. destruct (I2 S5) as [X | [X (pre & mid & -> & D & G)]]; [lia|]. exists pre, mid. split; [rewrite <- !app_assoc, H0; reflexivity|].
          split; [rewrite H0, I1 in E2; change (pre ++ [1; 1] ++ mid) with (pre ++ 1 :: 1 :: mid) in E2; rewrite last_app_cons in E2; change (0 = last (1 :: mid) 0) in E2; rewrite (last_cons_irr 1 1 0); lia|].
          split; [exact G|]. unfold in_time, ms in W. rewrite D in W. lia.
      + intros Q. injection Q as <- <-. cbn [map]. rewrite app_nil_r. split; [exact I3|]. split; [|contradiction]. intros S5. destruct (I2 S5) as [X | [X _]]; [left; exact X|]. right. split; [exact X|]. apply Stay; auto. lia. }
  clearbody m. destruct m as [[s1 t1]|]; cbn [rbind]; [|discriminate]. destruct (A s1 t1 eq_refl) as (A1 & A2 & A3). clear A.
  assert (B : forall x, inv (hits ++ [hit]) (e ++ map Told t1) (w_timer x (tries s1) (w_duration (duration s1 + BLOCK) (w_hit hit s1)))) by (intros x; split; [cbn; rewrite last_snoc; reflexivity|]; split; [exact A2 | exact A1]).
  assert (B0 : inv (hits ++ [hit]) (e ++ map Told t1) (w_duration (duration s1 + BLOCK) (w_hit hit s1))) by exact (B (timer s1)).
  cbv zeta. destruct (0 <? _); [|intros Q; injection Q as <- <-; split; assumption].
  match goal with |- context [another_try 4 ?x] => set (s2 := x) end. assert (B2 : inv (hits ++ [hit]) (e ++ map Told t1) s2) by apply B. destruct (_ && _) eqn:Cn; [|intros Q; injection Q as <- <-; split; assumption]. assert (T4 : tone_state s2 = 4) by (apply andb_prop in Cn as [Cn _]; apply andb_prop in Cn as [_ Cn]; apply Z.eqb_eq in Cn; exact Cn).
  unfold another_try. cbv zeta. destruct (tries s2 + 1 <? 4).
  - intros Q. injection Q as <- <-. rewrite app_nil_r. split; [|exact A3]. destruct B2 as (B21 & B22 & B23). pose proof (dtmf_put_core (tx_digits s2) (tx_len s2) s2) as C. unfold core in C. injection C as C1 C2 C3 C4. split; [cbn; rewrite C3; exact B21|]. split; [cbn; discriminate|]. intros _.
    apply B23. lia.
  - intros Q. injection Q as <- <-. split; [rewrite map_app, app_assoc; destruct B2 as (B21 & B22 & B23); split; [exact B21|]; split; [exact B22 | intros X; apply in_told, B23, X]|]. intros I. apply A3. apply in_app_or in I as [I | [I | []]]; [exact I | discriminate].
Qed.
Lemma call_ok hits e s c s' t : inv hits e s -> do_call s c = Ok (s', t) -> inv (hits ++ hit_of c) (e ++ t) s' /\ (In (Told (Done true)) t -> kissoff (hits ++ hit_of c) /\ In (Told Ready) e).
Proof.
  assert (W : forall x, inv hits e s -> inv hits (e ++ x) s) by (intros x (A & B & C); split; [exact A|]; split; [exact B | intros X; apply in_told, C, X]).
  intros V. destruct c as [r | n | h x]; cbn [do_call hit_of]; rewrite ?app_nil_r.
  - destruct (sender_put s r) as [[s1 b]|] eqn:P; cbn [rbind]; [|discriminate]. intros Q. injection Q as <- <-. split; [apply (inv_core _ _ s); [exact (sender_put_core _ _ _ _ P) | apply W, V]|]. destruct b; [contradiction | intros [X | []]; discriminate].
  - pose proof (sender_tx_core s n) as C. destruct (sender_tx s n) as [[s1 k] l]. cbn [fst] in C. intros Q. injection Q as <- <-. split; [apply (inv_core _ _ s); [exact C | apply W, V]|]. destruct l; [contradiction | intros [X | []]; discriminate].
  - destruct (sender_block s h x) as [[s1 t1]|] eqn:B; cbn [rbind]; [|discriminate]. intros Q. injection Q as <- <-. destruct (block_ok hits e s h x s1 t1 V B) as [B1 B2]. split; [exact B1|]. intros I. apply B2. apply in_map_iff in I as (y & E & I). injection E as ->. exact I.
Qed.
Lemma calls_inv l : forall hits e s s' t, inv hits e s -> calls s l = Ok (s', t) -> inv (hits ++ flat_map hit_of l) (e ++ t) s'.
Proof.
  induction l as [|c l IH]; intros hits e s s' t V Q; cbn [calls flat_map] in *.
  - injection Q as <- <-. rewrite !app_nil_r. exact V.
  - destruct (do_call s c) as [[s1 t1]|] eqn:C; cbn [rbind] in Q; [|discriminate]. destruct (calls s1 l) as [[s2 t2]|] eqn:D; cbn [rbind] in Q; [|discriminate]. injection Q as <- <-. rewrite !app_assoc. exact (IH _ _ _ _ _ (proj1 (call_ok _ _ _ _ _ _ V C)) D).
Qed.
Lemma init_inv : inv [] [] sender_init.
Proof. split; [reflexivity|]. split; cbn; [discriminate | lia]. Qed.
Lemma success_heard l s e c s' t : calls sender_init l = Ok (s, e) -> do_call s c = Ok (s', t) -> In (Told (Done true)) t -> kissoff (flat_map hit_of (l ++ [c])) /\ In (Told Ready) e.
Proof. intros A B I. pose proof (calls_inv l [] [] _ _ _ init_inv A) as V. cbn [app] in V. destruct (call_ok _ _ _ _ _ _ V B) as [_ K]. rewrite flat_map_app. cbn [flat_map]. rewrite app_nil_r. exact (K I). Qed.

(** ---- no call fails when the messages are in range ---- *)
Definition call_in_range (c : call) : Prop := match c with Put r => in_range r | Tx _ => True | Block _ (Some r) => in_range r | Block _ None => True end.
Lemma put_safe s r : in_range r -> exists s' b, sender_put s r = Ok (s', b).
Proof.
  intros R. unfold sender_put. destruct (busy s); [eexists _, _; reflexivity|]. destruct (in10 (digits_of r)) as [I|I].
  - destruct (encode_refuses r R I) as [l ->]. eexists _, _. reflexivity.
  - destruct (encode_ok r R I) as (l & -> & _). cbn [rbind]. destruct (dtmf_put l 16 (w_msg l 16 true s)) as [s1 b] eqn:E. exists s1, b. reflexivity.
Qed.
Lemma changed_safe s h x : call_in_range (Block h x) -> exists r, changed s h x = Ok r.
Proof.
  intros R. unfold changed. destruct (tone_state s) as [|p|p]; try (eexists; reflexivity). do 3 (try destruct p as [p|p|]); try (eexists; reflexivity).
  - destruct (h =? 0); [|eexists; reflexivity]. cbv zeta. destruct (in_time _ 400 1500).
    + destruct x as [r|]; [|eexists; reflexivity]. match goal with |- context [sender_put ?a r] => destruct (put_safe a r R) as (s1 & b & ->) end. eexists. reflexivity.
    + destruct (another_try _ _) as [s1 e1]. eexists. reflexivity.
  - destruct (h =? 0); [|eexists; reflexivity]. destruct (in_time _ _ _); eexists; reflexivity.
Qed.
Lemma call_safe s c : call_in_range c -> exists r, do_call s c = Ok r.
Proof.
  intros R. destruct c as [r | n | h x]; cbn [do_call].
  - destruct (put_safe s r R) as (s' & b & ->). eexists. reflexivity.
  - destruct (sender_tx s n) as [[a b] d]. eexists. reflexivity.
  - unfold sender_block. destruct (changed_safe s h x R) as [[s1 e1] E]. destruct (_ && _); [rewrite E|]; cbn [rbind]; cbv zeta; (destruct (0 <? _); [|eexists; reflexivity]); (destruct (_ && _); [|eexists; reflexivity]); destruct (another_try _ _) as [s2 e2]; eexists; reflexivity.
Qed.
Lemma calls_safe l : Forall call_in_range l -> forall s, exists r, calls s l = Ok r.
Proof. induction 1 as [|c l R F IH]; intros s; cbn [calls]; [eexists; reflexivity|]. destruct (call_safe s c R) as [[s1 e1] ->]. cbn [rbind]. destruct (IH s1) as [[s2 e2] ->]. eexists. reflexivity. Qed.

(** ---- silence on the line ---- *)
Definition quiet (c : call) : Prop := match c with Tx _ => True | Block h None => h = 0 | _ => False end.
Definition blocks (l : list call) : Z := Z.of_nat (length (flat_map hit_of l)).
(** a sender that is stuck *)
Definition stuck (s : sender) : Prop := tone_state s = 4 /\ in_tone s = 0 /\ timer s = 0 /\ cts s = false /\ step s = 0.
Lemma stuck_call s c : stuck s -> quiet c -> exists s', do_call s c = Ok (s', []) /\ stuck s' /\ busy s' = busy s.
Proof.
  intros (A & B & C & D & E) Q. destruct c as [r | n | h [x|]]; cbn [quiet] in Q; try contradiction; cbn [do_call].
  - unfold sender_tx. rewrite E, D. change (0 =? 0) with true. cbv iota. destruct (n <=? 0); exists s; repeat split; assumption.
  - subst h. unfold sender_block. rewrite B. change (0 =? 0) with true. cbn [negb andb rbind]. cbv zeta. cbn [timer w_duration w_hit]. rewrite C. change (0 <? 0) with false. cbv iota. cbn [rbind map]. eexists. split; [reflexivity|]. repeat split; assumption.
Qed.
Lemma stuck_calls l : Forall quiet l -> forall s, stuck s -> exists s', calls s l = Ok (s', []) /\ stuck s' /\ busy s' = busy s.
Proof. induction 1 as [|c l R F IH]; intros s S; cbn [calls]; [exists s; auto|]. destruct (stuck_call s c S R) as (s1 & -> & S1 & B1). cbn [rbind]. destruct (IH s1 S1) as (s2 & -> & S2 & B2). exists s2. split; [reflexivity|]. split; [exact S2 | congruence]. Qed.
(** a sender that waits for a kissoff *)
Definition waits (s : sender) : Prop := tone_state s = 4 /\ in_tone s = 0 /\ tx_len s <> 0 /\ 0 < timer s /\ tries s <= 3.
Definition left_over (s : sender) : Z := (timer s + 54) / 55 + 437 * (3 - tries s).
Lemma sender_tx_keeps s n : let s' := fst (fst (sender_tx s n)) in tx_len s' = tx_len s /\ timer s' = timer s /\ tries s' = tries s.
Proof.
  assert (D : forall s k m, let s' := fst (fst (send_digits s k m)) in tx_len s' = tx_len s /\ timer s' = timer s /\ tries s' = tries s) by (intros s0 k m; unfold send_digits; destruct (dtmf_tx _ _ _) as [[[a b] c] d]; destruct (_ <? m); repeat split).
  assert (E : forall s m, let s' := fst (fst (send_silence s m)) in tx_len s' = tx_len s /\ timer s' = timer s /\ tries s' = tries s).
  { intros s0 m. unfold send_silence. cbv zeta. destruct (0 <? _); [repeat split|]. destruct (_ <? m); [|repeat split]. match goal with |- context [send_digits ?a ?b ?c] => exact (D a b c) end. }
  unfold sender_tx. cbv zeta. destruct (n <=? 0); [repeat split|]. destruct (step s =? 0); [destruct (cts s); [|repeat split]; match goal with |- context [send_silence ?a ?b] => exact (E a b) end|]. destruct (step s =? 1); [apply E | apply D].
Qed.
Lemma wait_call s c : waits s -> quiet c -> exists s' t, do_call s c = Ok (s', t) /\ (In (Told (Done false)) t \/ (waits s' /\ left_over s' = left_over s - Z.of_nat (length (hit_of c)))).
Proof.
  intros (A & B & C & D & E) Q. destruct c as [r | n | h [x|]]; cbn [quiet] in Q; try contradiction; cbn [do_call hit_of length].
  - pose proof (sender_tx_core s n) as K. pose proof (sender_tx_keeps s n) as L. cbv zeta in L. destruct (sender_tx s n) as [[s1 k] l]. cbn [fst] in *. unfold core in K. injection K as K1 _ _ K4. destruct L as (L1 & L2 & L3). eexists _, _. split; [reflexivity|]. right. unfold waits, left_over. rewrite K1, K4, L1, L2, L3. repeat split; auto. lia.
  - subst h. unfold sender_block. rewrite B. change (0 =? 0) with true. cbn [negb andb rbind]. cbv zeta. cbn [timer w_duration w_hit]. replace (0 <? timer s) with true by lia. cbn [tone_state tx_len w_timer w_duration w_hit timer]. rewrite A. change (4 =? 4) with true. replace (tx_len s =? 0) with false by lia. cbn [negb]. rewrite !andb_true_r. unfold BLOCK.
    destruct (Z.leb_spec (timer s - 55) 0) as [T|T].
    + unfold another_try. cbn [tries w_timer w_duration w_hit]. destruct (Z.ltb_spec (tries s + 1) 4); cbn [rbind].
      * eexists _, _. split; [reflexivity|]. right. unfold waits, left_over. cbn [tone_state in_tone w_state w_timer tx_len timer tries].
        match goal with |- context [fst (dtmf_put ?l ?n ?s2)] => assert (X : tx_len (fst (dtmf_put l n s2)) = tx_len s) by (unfold dtmf_put; destruct (_ <=? 128); reflexivity) end. rewrite X. split; [split; [reflexivity|]; split; [exact B|]; split; [exact C|]; split; [reflexivity | lia]|].
        unfold ms. change ((3000 * 8 + 54) / 55) with 437. replace ((timer s + 54) / 55) with 1; [cbn [length Z.of_nat Pos.of_succ_nat]; lia|]. apply Z.div_unique with (r := timer s - 1); lia.
      * eexists _, _. split; [reflexivity|]. left. cbn. auto.
    + cbn [rbind]. eexists _, _. split; [reflexivity|]. right. unfold waits, left_over. cbn [tone_state in_tone w_timer tx_len timer tries w_duration w_hit]. split; [repeat split; auto; lia|]. replace (timer s - 55 + 54) with (timer s + 54 + (-1) * 55) by ring. rewrite Z.div_add by lia. cbn [length]. lia.
Qed.
Lemma wait_calls l : Forall quiet l -> forall s, waits s -> exists s' t, calls s l = Ok (s', t) /\ (In (Told (Done false)) t \/ (waits s' /\ left_over s' = left_over s - blocks l)).
Proof.
  induction 1 as [|c l R F IH]; intros s S; cbn [calls]; [exists s, []; split; [reflexivity|]; right; split; [exact S|]; unfold blocks; cbn; lia|].
  destruct (wait_call s c S R) as (s1 & t1 & -> & K). cbn [rbind].
  assert (G : forall s, exists s' t, calls s l = Ok (s', t)). { intros s0. destruct (calls_safe l) with (s := s0) as [[s2 t2] E2]; [|exists s2, t2; exact E2]. eapply Forall_impl; [|exact F]. intros [r | n | h [x|]]; cbn; auto; contradiction. }
  destruct K as [K | [W L]].
  - destruct (G s1) as (s2 & t2 & ->). eexists _, _. split; [reflexivity|]. left. apply in_or_app. left. exact K.
  - destruct (IH s1 W) as (s2 & t2 & -> & K). eexists _, _. split; [reflexivity|]. destruct K as [K | [W2 L2]]; [left; apply in_or_app; right; exact K|]. right. split; [exact W2|]. unfold blocks in *. cbn [flat_map]. rewrite app_length. lia.
Qed.
Lemma gives_up l s : Forall quiet l -> waits s -> left_over s <= blocks l -> exists s' t, calls s l = Ok (s', t) /\ In (Told (Done false)) t.
Proof.
  intros F W B. destruct (wait_calls l F s W) as (s' & t & E & K). exists s', t. split; [exact E|]. destruct K as [K | [(_ & _ & _ & T & R) L]]; [exact K|]. exfalso. unfold left_over in L at 1. assert (1 <= (timer s' + 54) / 55) by (apply Z.div_le_lower_bound; lia). lia.
Qed.
(** ---- a sender that hears nothing more ---- *)
Definition dead (s : sender) : Prop := tone_state s = 5 /\ in_tone s = 0.
Lemma dead_call s c s' t x : dead s -> do_call s c = Ok (s', t) -> dead s' /\ ~ In (Told x) t.
Proof.
  intros [A B]. destruct c as [r | n | h y]; cbn [do_call].
  - destruct (sender_put s r) as [[s1 b]|] eqn:P; cbn [rbind]; [|discriminate]. intros Q. injection Q as <- <-. pose proof (sender_put_core _ _ _ _ P) as C. unfold core in C. injection C as C1 _ _ C4. split; [split; congruence|]. destruct b; [intros [] | intros [X | []]; discriminate].
  - pose proof (sender_tx_core s n) as C. destruct (sender_tx s n) as [[s1 k] l]. cbn [fst] in C. unfold core in C. injection C as C1 _ _ C4. intros Q. injection Q as <- <-. split; [split; congruence|]. destruct l; [intros [] | intros [X | []]; discriminate].
  - unfold sender_block. assert (K : (if negb (h =? in_tone s) && (h =? last_hit s) then changed s h y else Ok (s, [])) = Ok (s, [])).
    { rewrite B. destruct (Z.eqb_spec h 0) as [->|N]; [reflexivity|]. cbn [negb andb]. destruct (h =? last_hit s); [|reflexivity]. unfold changed. rewrite A. replace (h =? 0) with false by lia. reflexivity. }
    rewrite K. cbn [rbind]. cbv zeta. cbn [timer tone_state w_timer w_duration w_hit]. rewrite A. change (5 =? 4) with false. rewrite andb_false_r, andb_false_l. destruct (0 <? timer s); cbn [rbind map]; intros Q; injection Q as <- <-; (split; [split; assumption | intros []]).
Qed.
Lemma dead_calls l : forall s s' t x, dead s -> calls s l = Ok (s', t) -> dead s' /\ ~ In (Told x) t.
Proof.
  induction l as [|c l IH]; intros s s' t x D Q; cbn [calls] in Q; [injection Q as <- <-; split; [exact D | intros []]|]. destruct (do_call s c) as [[s1 t1]|] eqn:C; cbn [rbind] in Q; [|discriminate]. destruct (calls s1 l) as [[s2 t2]|] eqn:E; cbn [rbind] in Q; [|discriminate]. injection Q as <- <-.
  destruct (dead_call _ _ _ _ x D C) as [D1 N1]. destruct (IH _ _ _ x D1 E) as [D2 N2]. split; [exact D2|]. intros I. apply in_app_or in I as [I | I]; contradiction.
Qed.
