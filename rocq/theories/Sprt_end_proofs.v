(** SPRT: what the calls do to one end. *)
From Coq Require Import ZifyBool ZifyNat.
From Verif Require Import Base Sprt_model Sprt_spec Sprt_base_proofs Sprt_chan_proofs.
Local Open Scope Z_scope.

Definition rel (ch : Z) : Prop := ch = 1 \/ ch = 2.
Lemma reliable_rel ch : reliable ch = true <-> rel ch.
Proof. unfold reliable, rel. lia. Qed.

(** ---- reception: the window ---- *)
Record rcore (c : rxc) (b : Z) (P : Z -> list Z -> Prop) : Prop := mkRcore {
  r_w : 8 <= r_win c <= 96;
  r_b : r_win c < zlen (r_buf c);
  r_pos : 0 <= b;
  r_bas : r_base c = b mod 16384;
  r_slot : forall k p, 0 <= k < r_win c -> sn (r_buf c) ((b + k) mod r_win c) = Some p -> P (b + k) p }.
Definition received (c : rxc) (b i : Z) : Prop :=
  i < b \/ (b <= i < b + r_win c /\ sn (r_buf c) (i mod r_win c) <> None).
(** ---- packets ---- *)
Definition mkp (sub pt ch seq base : Z) (ks : list Z) (p : list Z) : list Z :=
  [u8 sub; u8 pt] ++ put16 (Z.lor (Z.shiftl ch 14) (Z.land seq SEQ_MASK)) ++
  put16 (Z.lor (Z.shiftl (zlen ks) 14) base) ++ concat (map put16 ks) ++ p.
Lemma acks_len ks : zlen (concat (map put16 ks)) = 2 * zlen ks.
Proof. unfold zlen. induction ks as [|k ks IH]; [reflexivity|]. cbn [map concat]. rewrite app_length. cbn [put16 length]. lia. Qed.
Lemma mkp_len sub pt ch seq base ks p : zlen (mkp sub pt ch seq base ks p) = 6 + 2 * zlen ks + zlen p.
Proof. unfold mkp. rewrite !zlen_app, acks_len. unfold put16, zlen; cbn [length]. lia. Qed.

Definition bset (b : Z -> Z) (ch v : Z) : Z -> Z := fun k => if k =? ch then v else b k.

Section Ends.
Variable S : list message.                  (* accepted *)
Variable P : Z -> Z -> list Z -> Prop.      (* channel, number, message: what may be received *)

(** [skip] is a channel in which messages are being delivered. *)
Record EI (skip : Z) (b : Z -> Z) (f : bool) (s : sprt) : Prop := mkEI {
  e_tx : forall ch, rel ch -> exists O L, ring (tx s ch) (on ch S) O /\ timed (tx s ch) L /\ (f = true -> full (tx s ch) L);
  e_rx : forall ch, rel ch -> rcore (rx s ch) (b ch) (P ch) /\ (ch <> skip -> r_in (rx s ch) = b ch mod r_win (rx s ch));
  e_ack : zlen (acks s) <= 2;
  e_lim : forall ch, 0 <= r_max (rx s ch) <= 256 /\ 0 <= t_max (tx s ch) <= 256 /\ 0 <= r_base (rx s ch) < 16384 }.

(** what goes into a packet *)
Definition payfact (ch seq : Z) (p : list Z) : Prop :=
  p = [] \/ (rel ch /\ exists n, zlen (on ch S) - 96 <= n /\ seq mod 16384 = n mod 16384 /\ znth (on ch S) n = Some p) \/ (~ rel ch /\ In (ch, p) S).
Definition pk (s : sprt) (N : Z -> Prop) (k0 : list Z) (x : list Z) : Prop :=
  exists ch seq base ks p, x = mkp (tx_sub s) (tx_pt s) ch seq base ks p /\ 0 <= ch <= 3 /\ 0 <= base < 16384 /\ zlen ks <= 3 /\ zlen p <= 256 /\
    payfact ch seq p /\ forall k, In k ks -> In k k0 \/ N k.

Variable Zk : Z -> Z -> Prop.               (* what may be acknowledged *)
Variable U : Z -> list Z -> Prop.           (* what may be delivered without a guarantee *)

Record evol (N : Z -> Prop) (b : Z -> Z) (s : sprt) (e : list ev) (b' : Z -> Z) (s' : sprt) : Prop := mkEvol {
  v_id : tx_sub s' = tx_sub s /\ tx_pt s' = tx_pt s /\ rx_pt s' = rx_pt s /\ rx_sub s' = rx_sub s;
  v_win : forall ch, r_win (rx s' ch) = r_win (rx s ch) /\ t_win (tx s' ch) = t_win (tx s ch) /\ r_max (rx s' ch) = r_max (rx s ch) /\ t_max (tx s' ch) = t_max (tx s ch);
  v_acked : forall ch i, rel ch -> acked (tx s' ch) (zlen (on ch S)) i -> acked (tx s ch) (zlen (on ch S)) i \/ Zk ch i;
  v_mono : forall ch i, rel ch -> received (rx s ch) (b ch) i -> received (rx s' ch) (b' ch) i;
  v_del : forall ch, rel ch -> zlen (on ch (delivered e)) = b' ch - b ch /\ forall k p, znth (on ch (delivered e)) k = Some p -> P ch (b ch + k) p;
  v_unrel : forall ch p, ~ rel ch -> In (ch, p) (delivered e) -> U ch p;
  v_pk : forall x, In x (packets e) -> pk s N (acks s) x;
  v_q : (packets e = [] /\ forall k, In k (acks s') -> In k (acks s) \/ N k) \/ (forall k, In k (acks s') -> N k) }.

Lemma on_app ch l m : on ch (l ++ m) = on ch l ++ on ch m.
Proof. unfold on. rewrite filter_app, map_app. reflexivity. Qed.
Lemma packets_app e e' : packets (e ++ e') = packets e ++ packets e'.
Proof. apply flat_map_app. Qed.
Lemma delivered_app e e' : delivered (e ++ e') = delivered e ++ delivered e'.
Proof. apply flat_map_app. Qed.
Lemma gave_up_app e e' : gave_up (e ++ e') = gave_up e || gave_up e'.
Proof. unfold gave_up, statuses. rewrite flat_map_app, existsb_app. reflexivity. Qed.
Lemma znth_app_inv {A} (l m : list A) i x : znth (l ++ m) i = Some x -> znth l i = Some x \/ (zlen l <= i /\ znth m (i - zlen l) = Some x).
Proof.
  unfold znth, zlen. destruct (Z.ltb_spec i 0); [discriminate|]. destruct (lt_dec (Z.to_nat i) (length l)) as [H1|H1].
  - rewrite nth_error_app1 by exact H1. auto.
  - rewrite nth_error_app2 by lia. intros H2. right. split; [lia|]. replace (_ <? 0) with false by lia.
    replace (Z.to_nat (i - Z.of_nat (length l))) with (Z.to_nat i - length l)%nat by lia. exact H2.
Qed.

Lemma evol_trans N b s e b1 s1 e1 b2 s2 : evol N b s e b1 s1 -> evol N b1 s1 e1 b2 s2 -> evol N b s (e ++ e1) b2 s2.
Proof.
  intros V W. destruct (v_id _ _ _ _ _ _ V) as (I1 & I2 & I3 & I4). destruct (v_id _ _ _ _ _ _ W) as (J1 & J2 & J3 & J4). constructor.
  - repeat split; congruence.
  - intros ch. destruct (v_win _ _ _ _ _ _ V ch) as (A1 & A2 & A3 & A4). destruct (v_win _ _ _ _ _ _ W ch) as (B1 & B2 & B3 & B4). repeat split; congruence.
  - intros ch i Hr H. destruct (v_acked _ _ _ _ _ _ W ch i Hr H) as [H1|H1]; [|auto]. exact (v_acked _ _ _ _ _ _ V ch i Hr H1).
  - intros ch i Hr H. apply (v_mono _ _ _ _ _ _ W ch i Hr). apply (v_mono _ _ _ _ _ _ V ch i Hr). exact H.
  - intros ch Hr. destruct (v_del _ _ _ _ _ _ V ch Hr) as (A1 & A2). destruct (v_del _ _ _ _ _ _ W ch Hr) as (B1 & B2).
    rewrite delivered_app, on_app, zlen_app. split; [lia|]. intros k p H. apply znth_app_inv in H. destruct H as [H|(Hk & H)]; [apply A2; exact H|].
    apply B2 in H. replace (b ch + k) with (b1 ch + (k - zlen (on ch (delivered e)))) by lia. exact H.
  - intros ch p Hr H. rewrite delivered_app, in_app_iff in H. destruct H as [H|H]; [exact (v_unrel _ _ _ _ _ _ V ch p Hr H)|exact (v_unrel _ _ _ _ _ _ W ch p Hr H)].
  - intros x H. rewrite packets_app, in_app_iff in H. destruct H as [H|H]; [exact (v_pk _ _ _ _ _ _ V x H)|].
    destruct (v_pk _ _ _ _ _ _ W x H) as (ch & seq & base & ks & p & H1 & H2 & H3 & H4 & H5 & H6 & H7).
    exists ch, seq, base, ks, p. rewrite <- I1, <- I2. repeat (split; [assumption|]). intros k Hk. destruct (H7 k Hk) as [H8|H8]; [|auto].
    destruct (v_q _ _ _ _ _ _ V) as [(_ & Q)|Q]; [apply Q; exact H8|right; apply Q; exact H8].
  - rewrite packets_app. destruct (v_q _ _ _ _ _ _ W) as [(Q1 & Q2)|Q1]; [|right; exact Q1].
    destruct (v_q _ _ _ _ _ _ V) as [(Q3 & Q4)|Q3].
    + left. rewrite Q3, Q1. split; [reflexivity|]. intros k Hk. destruct (Q2 k Hk) as [H|H]; [|auto]. apply Q4. exact H.
    + right. intros k Hk. destruct (Q2 k Hk) as [H|H]; [|auto]. apply Q3. exact H.
Qed.

(** Steps that change neither the windows nor the numbers. *)
Record same (s s' : sprt) : Prop := mkSame {
  s_rx : rx s' = rx s; s_tx : tx s' = tx s; s_rs : rx_sub s' = rx_sub s; s_rp : rx_pt s' = rx_pt s;
  s_ts : tx_sub s' = tx_sub s; s_tp : tx_pt s' = tx_pt s; s_im : immediate s' = immediate s; s_sc : script s' = script s }.
Lemma same_refl s : same s s.
Proof. constructor; reflexivity. Qed.
Lemma same_trans s s1 s2 : same s s1 -> same s1 s2 -> same s s2.
Proof. intros [] []. constructor; congruence. Qed.
Definition quiet (e : list ev) : Prop := packets e = [] /\ delivered e = [].

Lemma EI_same k b f s s' : EI k b f s -> same s s' -> zlen (acks s') <= 2 -> EI k b f s'.
Proof. intros [] [] H. constructor; rewrite ?s_rx0, ?s_tx0; assumption. Qed.
Lemma EI_weak k b f f' s : EI k b f s -> (f' = true -> f = true) -> EI k b f' s.
Proof. intros [] H. constructor; auto. intros ch Hr. destruct (e_tx0 ch Hr) as (O & L & G & T & F). exists O, L. auto. Qed.

Lemma evol_quiet N b s e s' : same s s' -> quiet e -> (forall k, In k (acks s') -> In k (acks s) \/ N k) -> evol N b s e b s'.
Proof.
  intros [] (Q1 & Q2) HA. constructor; rewrite ?Q1, ?Q2.
  - auto.
  - intros ch. rewrite s_rx0, s_tx0. auto.
  - intros ch i _. rewrite s_tx0. auto.
  - intros ch i _. rewrite s_rx0. auto.
  - intros ch _. split; [cbn; lia|]. intros k p H. unfold znth in H. cbn in H. destruct (k <? 0); [discriminate|]. destruct (Z.to_nat k); discriminate.
  - intros ch p _ [].
  - intros x [].
  - left. auto.
Qed.
Lemma evol_refl N b s : evol N b s [] b s.
Proof. apply evol_quiet; [apply same_refl|split; reflexivity|auto]. Qed.

Lemma update_timer_ok k b f s : EI k b f s -> exists t, update_timer s = Ok (w_latest t s, [Timer t]).
Proof.
  intros I. unfold update_timer. destruct (immediate s); [cbn [rbind]; eauto|].
  assert (Hc : forall ch sh, rel ch -> exists t, chan_sooner s sh ch = Ok t).
  { intros ch sh Hr. destruct (e_tx _ _ _ _ I ch Hr) as (O & L & G & T & _). unfold chan_sooner.
    pose proof (q_link _ _ T) as (_ & _ & _ & HF & Hf & _). destruct L as [|x L].
    - cbn in Hf. rewrite Hf, Z.eqb_refl. eauto.
    - cbn in Hf. rewrite Hf. pose proof (Forall_inv HF) as Hx. cbn beta in Hx. replace (x =? FREE_TAG) with false by (unfold FREE_TAG; lia).
      rewrite aget_zn; [cbn [rbind]; eauto|]. rewrite (g_tm _ _ _ G).
      destruct (Z_lt_ge_dec x (Z.of_nat (length (t_buf (tx s ch))))); [lia|]. exfalso. apply (q_some _ _ T x); [left; reflexivity|]. apply sn_out. lia. }
  destruct (Hc 1 (sooner None (ta01 s)) (or_introl eq_refl)) as (t1 & ->). cbn [rbind].
  destruct (Hc 2 t1 (or_intror eq_refl)) as (t2 & ->). cbn [rbind]. eauto.
Qed.

Lemma build_ok k b f s ch seq p : EI k b f s -> 0 <= ch <= 3 -> zlen p <= 256 -> payfact ch seq p -> exists s' e,
  build_and_send s ch seq p = Ok (s', e) /\ EI k b f s' /\ same s s' /\ acks s' = [] /\ delivered e = [] /\ gave_up e = false /\ forall N, evol N b s e b s'.
Proof.
  intros I Hch Hp HP. unfold build_and_send. cbv zeta. fold (zlen (acks s)). pose proof (e_ack _ _ _ _ I) as Ha. pose proof (zlen_nonneg (acks s)).
  match goal with |- context [12 + 256 <? Z.of_nat (length ?l)] => change l with (mkp (tx_sub s) (tx_pt s) ch seq (r_base (rx s ch)) (acks s) p) end.
  match goal with |- context [Z.of_nat (length (mkp ?a ?b' ?c ?d ?e ?g ?h))] => change (Z.of_nat (length (mkp a b' c d e g h))) with (zlen (mkp a b' c d e g h)) end.
  rewrite mkp_len. replace (12 + 256 <? _) with false by lia.
  set (s1 := if zlen (acks s) =? 0 then s else w_acks [] 0 s).
  assert (Hs1 : same s s1 /\ acks s1 = []).
  { unfold s1. destruct (Z.eqb_spec (zlen (acks s)) 0) as [E|E].
    - split; [apply same_refl|]. destruct (acks s); [reflexivity|unfold zlen in E; cbn in E; lia].
    - split; [constructor; reflexivity|reflexivity]. }
  destruct Hs1 as (Hs1 & Ha1).
  assert (I1 : EI k b f s1) by (apply (EI_same k b f s); [exact I|exact Hs1|rewrite Ha1; cbn; lia]).
  destruct (update_timer_ok _ _ _ _ I1) as (t & ->). cbn [rbind]. eexists _, _. split; [reflexivity|].
  assert (S2 : same s (w_latest t s1)) by (destruct Hs1; constructor; assumption).
  split; [apply (EI_same k b f s1); [exact I1|constructor; reflexivity|cbn; rewrite Ha1; cbn; lia]|].
  split; [exact S2|]. split; [exact Ha1|]. split; [reflexivity|]. split; [reflexivity|]. intros N.
  destruct S2. constructor.
  - auto.
  - intros c. rewrite s_rx0, s_tx0. auto.
  - intros c i _. rewrite s_tx0. auto.
  - intros c i _. rewrite s_rx0. auto.
  - intros c _. split; [cbn; lia|]. intros n q Hq. unfold znth in Hq. cbn in Hq. destruct (n <? 0); [discriminate|]. destruct (Z.to_nat n); discriminate.
  - intros c q _ [].
  - intros x [<-|[]]. exists ch, seq, (r_base (rx s ch)), (acks s), p. split; [reflexivity|]. split; [exact Hch|]. split; [apply (e_lim _ _ _ _ I)|].
    split; [lia|]. split; [exact Hp|]. split; [exact HP|auto].
  - right. change (acks (w_latest t s1)) with (acks s1). rewrite Ha1. intros n [].
Qed.

Lemma queue_ack_ok k b f s now ch seq : EI k b f s -> 0 <= ch <= 3 -> exists s' e,
  queue_ack s now ch seq = Ok (s', e) /\ EI k b f s' /\ same s s' /\ delivered e = [] /\ gave_up e = false /\
  forall N : Z -> Prop, N (u16 (Z.lor (Z.shiftl ch 14) seq)) -> evol N b s e b s'.
Proof.
  intros I Hch. unfold queue_ack. pose proof (e_ack _ _ _ _ I) as Ha. unfold zlen in Ha. replace (3 <=? _) with false by lia. cbn [rbind].
  set (k0 := u16 _). destruct (existsb _ _) eqn:Ex.
  { exists s, []. split; [reflexivity|]. split; [exact I|]. split; [apply same_refl|]. split; [reflexivity|]. split; [reflexivity|]. intros N _. apply evol_refl. }
  rewrite app_length. cbn [length]. replace (Z.of_nat (length (acks s) + 1)) with (Z.of_nat (length (acks s)) + 1) by lia.
  assert (Hstep : forall l' t, l' = acks s ++ [k0] -> zlen l' <= 3 -> forall N : Z -> Prop, N k0 -> evol N b s [] b (w_acks l' t s)).
  { intros l' t -> _ N HN. apply evol_quiet; [constructor; reflexivity|split; reflexivity|]. intros j Hj. cbn in Hj. rewrite in_app_iff in Hj. cbn in Hj. destruct Hj as [|[<-|[]]]; auto. }
  destruct (Z.eqb_spec (Z.of_nat (length (acks s)) + 1) 1) as [E|E].
  - assert (I1 : EI k b f (w_acks (acks s ++ [k0]) (now + ta01_to s) s)).
    { apply (EI_same k b f s); [exact I|constructor; reflexivity|]. cbn. unfold zlen. rewrite app_length. cbn. lia. }
    destruct (update_timer_ok _ _ _ _ I1) as (t & ->). cbn [rbind]. eexists _, _. split; [reflexivity|].
    split; [apply (EI_same k b f _ _ I1); [constructor; reflexivity|exact (e_ack _ _ _ _ I1)]|]. split; [constructor; reflexivity|]. split; [reflexivity|]. split; [reflexivity|].
    intros N HN. apply (evol_trans N b s [] b (w_acks (acks s ++ [k0]) (now + ta01_to s) s)); [apply Hstep; auto; unfold zlen; rewrite app_length; cbn; lia|].
    apply evol_quiet; [constructor; reflexivity|split; reflexivity|auto].
  - destruct (Z.leb_spec 3 (Z.of_nat (length (acks s)) + 1)) as [E3|E3].
    + (* the packet is made from three acknowledgements *)
      set (s0 := w_acks (acks s ++ [k0]) (ta01 s) s).
      unfold build_and_send. cbv zeta. fold (zlen (acks s0)). assert (Hz : zlen (acks s0) = 3) by (cbn; unfold zlen; rewrite app_length; cbn; lia).
      match goal with |- context [12 + 256 <? Z.of_nat (length ?l)] => change l with (mkp (tx_sub s) (tx_pt s) ch 0 (r_base (rx s ch)) (acks s ++ [k0]) []) end.
      match goal with |- context [Z.of_nat (length (mkp ?a ?b' ?c ?d ?e ?g ?h))] => change (Z.of_nat (length (mkp a b' c d e g h))) with (zlen (mkp a b' c d e g h)) end.
      rewrite mkp_len. change (zlen (acks s ++ [k0])) with (zlen (acks s0)). rewrite Hz. change (zlen (@nil Z)) with 0. cbn [Z.ltb Z.eqb].
      change (12 + 256 <? 6 + 2 * 3 + 0) with false. cbn iota.
      assert (I1 : EI k b f (w_acks [] 0 s0)) by (apply (EI_same k b f s); [exact I|constructor; reflexivity|cbn; lia]).
      destruct (update_timer_ok _ _ _ _ I1) as (t & ->). cbn [rbind]. eexists _, _. split; [reflexivity|].
      split; [apply (EI_same k b f _ _ I1); [constructor; reflexivity|cbn; lia]|]. split; [constructor; reflexivity|]. split; [reflexivity|]. split; [reflexivity|].
      intros N HN. constructor; cbn [tx_sub tx_pt rx_pt rx_sub rx tx w_latest w_acks s0]; auto.
      * intros c _. split; [cbn; lia|]. intros n q H. unfold znth in H. cbn in H. destruct (n <? 0); [discriminate|]. destruct (Z.to_nat n); discriminate.
      * intros c q _ [].
      * intros x [<-|[]]. exists ch, 0, (r_base (rx s ch)), (acks s ++ [k0]), []. split; [reflexivity|]. split; [exact Hch|]. split; [apply (e_lim _ _ _ _ I)|].
        split; [change (zlen (acks s ++ [k0])) with (zlen (acks s0)); lia|]. split; [cbn; lia|]. split; [left; reflexivity|]. intros j Hj. rewrite in_app_iff in Hj. cbn in Hj. destruct Hj as [|[<-|[]]]; auto.
      * right. intros n [].
    + eexists _, _. split; [reflexivity|]. split; [apply (EI_same k b f s); [exact I|constructor; reflexivity|cbn; unfold zlen; rewrite app_length; cbn; lia]|].
      split; [constructor; reflexivity|]. split; [reflexivity|]. split; [reflexivity|]. intros N HN. apply Hstep; auto. unfold zlen. rewrite app_length. cbn. lia.
Qed.
End Ends.
