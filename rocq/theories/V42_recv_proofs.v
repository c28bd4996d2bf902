(** LAP.M: every entry of the code, seen as moves of the abstract sender and receiver. *)
From Coq Require Import ZifyBool ZifyNat.
From Verif Require Import Base V42_model V42_spec V42_rel_proofs V42_prim_proofs.

Definition J (T : list (list Z)) (s : v42) (g : gh) : Prop :=
  R0 s g /\ (st s = IDLE \/ st s = DATA \/ st s = RELEASE) /\ (st s = DATA -> R1 T s g) /\ prefix (gD g) T.
Lemma RR_J T s g : RR T s g -> (st s = IDLE \/ st s = DATA \/ st s = RELEASE) -> J T s g.
Proof.
  intros (H0 & H1) Hst. split; [exact H0|]. split; [exact Hst|]. split; [intros _; exact H1|].
  exists (data (app s)). apply H1.
Qed.
Lemma R0_st s g x : R0 s g -> R0 (w_st x s) g.
Proof. intros H; exact H. Qed.

Lemma mv_D N g g' : mv N g g' -> prefix (gD g) (gD g').
Proof. intros []; cbn [gD]; try (exists []; rewrite app_nil_r; reflexivity). exists [d]. reflexivity. Qed.

Definition flush (g : gh) : gh := mkG (gD g) (ga g) (gs g) (gM g) (gr g) [].
Lemma reset_R0 s g : R0 s g -> R0 (reset_lapm s) (flush g).
Proof.
  intros (Hc & Hq & Ht & Hcfg & Hlim & Hconf & Hil & His & Happ & Hb).
  split; [exact (flush_ring _ _ _ _ Hc)|]. split; [constructor|]. split; [exact Ht|]. split; [exact Hcfg|]. split; [exact Hcfg|].
  split; [exact Hconf|]. split; [exact Hil|]. split; [exact His|]. split; [exact Happ|exact Hb].
Qed.
Lemma dead_J T s g : R0 s g -> st s = IDLE \/ st s = RELEASE -> prefix (gD g) T -> J T s g.
Proof.
  intros H0 Hst Hp. split; [exact H0|]. split; [tauto|]. split; [|exact Hp].
  intros E. rewrite E in Hst. destruct Hst; discriminate.
Qed.
Lemma reset_J T s g N : J T s g -> exists g', J T (w_st IDLE (reset_lapm s)) g' /\ mvs N g g'.
Proof.
  intros (H0 & _ & _ & Hp). exists (flush g). split; [|apply mvs_one, mv_flush].
  apply dead_J; [apply R0_st, reset_R0; exact H0|left; reflexivity|exact Hp].
Qed.
Lemma mvs_J T N s s' g g' : J T s g -> R0 s' g' -> (st s' = IDLE \/ st s' = RELEASE) -> mvs N g g' -> gD g' = gD g -> J T s' g'.
Proof. intros (_ & _ & _ & Hp) H0 Hst Hm E. apply dead_J; auto. rewrite E. exact Hp. Qed.

Definition rinc (g : gh) : gh := mkG (gD g) (ga g) (gs g) (gM g) (gr g + 1) (gq g).

Lemma valid_data_J T s g N : J T s g ->
  (valid_data_state s = (s, true, []) /\ st s = DATA /\ RR T s g) \/
  (exists s' e g', valid_data_state s = (s', false, e) /\ J T s' g' /\ mvs N g g' /\ frames e = [] /\ puts e = []).
Proof.
  intros H. pose proof H as (H0 & Hst & H1 & Hp). unfold valid_data_state. destruct Hst as [E | [E | E]]; rewrite E.
  - right. exists s, [], g. split; [reflexivity|]. split; [exact H|]. split; [apply mvs_nil|auto].
  - left. split; [reflexivity|]. split; [reflexivity|]. split; [exact H0|exact (H1 E)].
  - right. destruct (reset_J T s g N H) as (g' & HJ & Hm). exists (w_st IDLE (reset_lapm s)), [Status DISCONNECTED], g'.
    split; [reflexivity|]. split; [exact HJ|]. split; [exact Hm|auto].
Qed.

Lemma frames_app a b : frames (a ++ b) = frames a ++ frames b.
Proof. induction a as [|[] a IH]; cbn; auto. f_equal; auto. Qed.
Lemma puts_app a b : puts (a ++ b) = puts a ++ puts b.
Proof. induction a as [|[] a IH]; cbn; auto. f_equal; auto. Qed.

Lemma aget0 (a : Z) t : aget (a :: t) 0 = Ok a.
Proof. reflexivity. Qed.
Lemma aget1 (a b : Z) t : aget (a :: b :: t) 1 = Ok b.
Proof. unfold aget, in_bounds. replace ((0 <=? 1) && (1 <? Z.of_nat (length (a :: b :: t)))) with true by (cbn [length]; lia). reflexivity. Qed.
Lemma aget2 (a b c : Z) t : aget (a :: b :: c :: t) 2 = Ok c.
Proof. unfold aget, in_bounds. replace ((0 <=? 2) && (2 <? Z.of_nat (length (a :: b :: c :: t)))) with true by (cbn [length]; lia). reflexivity. Qed.

Lemma rinc_RR T s g : RR T s g -> RR T (w_vr (Z.land (vr s + 1) 0x7F) (w_rejected false s)) (rinc g).
Proof.
  intros ((Hc & Hq & Ht & Hcfg & Hlim & Hconf & Hil & His & Happ & Hb) & (Ha & Hs & Hr & Hia & Hig & Hip & HD & Hsl & HT)).
  split.
  - split; [exact Hc|]. split; [exact Hq|]. split; [exact Ht|]. split; [exact Hcfg|]. split; [exact Hlim|]. split; [exact Hconf|].
    split; [exact Hil|]. split; [exact His|]. split; [exact Happ|]. unfold bnd, rinc in *. cbn [gD ga gs gM gr]. lia.
  - split; [exact Ha|]. split; [exact Hs|]. split.
    { cbn [vr w_vr rinc gr]. rewrite land7, Hr. clear. Z.div_mod_to_equations; lia. }
    split; [exact Hia|]. split; [exact Hig|]. split; [exact Hip|]. split; [exact HD|]. split; [exact Hsl|exact HT].
Qed.

Lemma st3 (x y : Z) : x = DATA -> (y = x \/ y = RELEASE) -> y = IDLE \/ y = DATA \/ y = RELEASE.
Proof. intros -> []; auto. Qed.

(** the result of receiving a frame *)
Definition received (T : list (list Z)) (g : gh) (N : option Z) (new : option (Z * list Z)) (r : res (v42 * list ev)) : Prop :=
  exists s' e g', r = Ok (s', e) /\ J T s' g' /\ frames e = [] /\
    ((puts e = [] /\ mvs N g g') \/
     (exists i d g1, new = Some (i, d) /\ i mod 128 = gr g mod 128 /\ puts e = [d] /\ mvs N g g1 /\ mvs N (rinc g1) g')).

Lemma receive_I T s g ad i n d mem : J T s g -> (1 <= length d <= 128)%nat -> ga g <= n <= ga g + 15 ->
  received T g (Some n) (Some (i, d))
    (receive_information s (enc (AI ad i n d) ++ mem) (Z.of_nat (length (enc (AI ad i n d))))).
Proof.
  intros HJ Hd Hn. unfold receive_information.
  destruct (valid_data_J T s g (Some n) HJ) as [(Ev & Est & HR)|(s' & e & g' & Ev & HJ' & Hm & Hf & Hp)]; rewrite Ev; cbn [negb].
  2:{ exists s', e, g'. auto 7. }
  pose proof HR as ((_ & _ & _ & _ & Hlim & _) & _). rewrite Hlim. cbn [rxn default_limits enc length].
  replace (128 + 3 <? Z.of_nat (S (S (S (length d))))) with false by lia.
  cbn [Datatypes.app]. rewrite aget1, aget2. cbn [rbind]. rewrite !shr20, odd20.
  destruct (ack_info_rel T s g n HR Hn) as (s1 & g1 & -> & HR1 & Hm1 & Hst1). cbn [rbind].
  pose proof (st3 _ _ Est Hst1) as Hst3.
  destruct (local_busy s1).
  { exists s1, [], g1. split; [reflexivity|]. split; [apply RR_J; assumption|]. auto. }
  pose proof HR1 as (_ & (_ & _ & Hr1 & _)). pose proof (mvs_r _ _ _ Hm1) as Er.
  destruct (Z.eqb_spec (i mod 128) (vr s1)) as [Ei|Ei]; cbn [negb].
  2:{ destruct (rejected s1).
      { exists s1, [], g1. split; [reflexivity|]. split; [apply RR_J; assumption|]. auto. }
      replace (Z.land (2 * (n mod 128)) 1) with 0 by (rewrite land1, Z.mul_comm; symmetry; apply Z.mod_mul; lia).
      destruct (sup_RR T s1 g1 (Some n) (rsp_addr s1) 8 0 HR1 ltac:(auto) ltac:(auto)) as (s2 & g2 & E2 & Hs2 & HR2 & Hm2).
      change S_REJ with 8. rewrite E2. cbn [rbind]. exists (w_rejected true s2), [], g2. split; [reflexivity|].
      split. { apply RR_J; [exact HR2|]. cbn [st w_rejected]. rewrite (same_st _ _ Hs2). exact Hst3. }
      split; [reflexivity|]. left. split; [reflexivity|]. eapply mvs_trans; eassumption. }
  rewrite aslice_ok by (cbn [length]; rewrite ?app_length; lia). cbn [rbind]. rewrite aget0. cbn [rbind].
  destruct (information_response_rel T (Some n) _ _ ad (2 * (n mod 128)) (rinc_RR T s1 g1 HR1)) as (s2 & e2 & g2 & -> & HR2 & Hm2 & Hf2 & Hp2 & Hst2).
  cbn [rbind]. replace (Z.of_nat (S (S (S (length d)))) <? 3) with false by lia.
  exists s2. eexists. exists g2. split; [reflexivity|]. split.
  { apply RR_J; [exact HR2|]. rewrite Hst2. exact Hst3. }
  split; [cbn [Datatypes.app frames]; exact Hf2|]. right. exists i, d, g1. split; [reflexivity|].
  split; [rewrite Ei, Hr1, Er; reflexivity|]. split; [|split; [exact Hm1|exact Hm2]].
  cbn [Datatypes.app puts]. rewrite Hp2. f_equal.
  replace (Z.to_nat (Z.of_nat (S (S (S (length d)))) - 3)) with (length d) by lia. change (Z.to_nat 3) with 3%nat. cbn [skipn].
  rewrite firstn_app, firstn_all, Nat.sub_diag. cbn [firstn]. apply app_nil_r.
Qed.

Lemma far_RR T s g b : RR T s g -> RR T (w_far_busy b s) g.
Proof. intros H; exact H. Qed.

Lemma done_S T g N s' g' e : J T s' g' -> frames e = [] -> puts e = [] -> mvs N g g' -> received T g N None (Ok (s', e)).
Proof. intros HJ Hf Hp Hm. exists s', e, g'. auto 7. Qed.

Lemma receive_S_cmd T s g ad k pf n mem : RR T s g -> st s = DATA -> (k = 0 \/ k = 4 \/ k = 8) -> (pf = 0 \/ pf = 1) -> ga g <= n <= ga g + 15 ->
  received T g (Some n) None (rx_supervisory_cmd s (enc (AS ad k pf n) ++ mem)).
Proof.
  intros HR Hst Hk Hpf Hn. unfold rx_supervisory_cmd. cbn [enc Datatypes.app].
  rewrite aget0, aget1, aget2. cbn [rbind]. rewrite shr2, odd2 by assumption.
  destruct Hk as [-> | [-> | ->]].
  - change (Z.land (1 + 0) 0x0C =? S_RR) with true. cbn [rbind].
    destruct (ack_info_rel T (w_far_busy false s) g n HR Hn) as (s1 & g1 & -> & HR1 & Hm1 & Hst1). cbn [rbind].
    destruct (information_response_rel T (Some n) s1 g1 ad (2 * (n mod 128) + pf) HR1) as (s2 & e2 & g2 & -> & HR2 & Hm2 & Hf2 & Hp2 & Hst2).
    apply done_S with g2; auto; [|eapply mvs_trans; eassumption].
    apply RR_J; [exact HR2|]. rewrite Hst2. exact (st3 _ _ Hst Hst1).
  - change (Z.land (1 + 4) 0x0C =? S_RR) with false. change (Z.land (1 + 4) 0x0C =? S_RNR) with true. cbv iota.
    destruct (ack_info_rel T (w_far_busy true s) g n HR Hn) as (s1 & g1 & -> & HR1 & Hm1 & Hst1). cbn [rbind].
    destruct (pf =? 1).
    + destruct (sup_RR T s1 g1 (Some n) (rsp_addr s1) (busy_code s1) 1 HR1 (busy_k s1) ltac:(auto)) as (s2 & g2 & -> & Hs2 & HR2 & Hm2).
      cbn [rbind]. apply done_S with g2; auto; [|eapply mvs_trans; eassumption].
      apply RR_J; [exact HR2|]. rewrite (same_st _ _ Hs2). exact (st3 _ _ Hst Hst1).
    + apply done_S with g1; auto. apply RR_J; [exact HR1|]. exact (st3 _ _ Hst Hst1).
  - change (Z.land (1 + 8) 0x0C =? S_RR) with false. change (Z.land (1 + 8) 0x0C =? S_RNR) with false.
    change (Z.land (1 + 8) 0x0C =? S_REJ) with true. cbv iota.
    destruct (ack_info_rel T (w_far_busy false s) g n HR Hn) as (s1 & g1 & -> & HR1 & Hm1 & Hst1). cbn [rbind].
    assert (Hb : exists g2, RR T (if retry s1 =? 0 then reject_info (t401_stop_t403_start s1) else s1) g2 /\ mvs (Some n) g1 g2 /\
      st (if retry s1 =? 0 then reject_info (t401_stop_t403_start s1) else s1) = st s1).
    { destruct (retry s1 =? 0).
      - destruct (reject_info_rel T (Some n) (t401_stop_t403_start s1) g1 (t403_start_RR _ _ _ HR1)) as (g2 & A & B & C).
        exists g2. split; [exact A|]. split; [exact B|]. rewrite C. reflexivity.
      - exists g1. split; [exact HR1|]. split; [apply mvs_nil|reflexivity]. }
    destruct Hb as (g2 & HR2 & Hm2 & Hst2).
    set (s2 := if retry s1 =? 0 then reject_info (t401_stop_t403_start s1) else s1) in *. clearbody s2.
    destruct (information_response_rel T (Some n) s2 g2 ad (2 * (n mod 128) + pf) HR2) as (s3 & e3 & g3 & -> & HR3 & Hm3 & Hf3 & Hp3 & Hst3).
    apply done_S with g3; auto.
    + apply RR_J; [exact HR3|]. rewrite Hst3, Hst2. exact (st3 _ _ Hst Hst1).
    + eapply mvs_trans; [exact Hm1|]. eapply mvs_trans; eassumption.
Qed.

Lemma reject_t403 T N s g (b : bool) : RR T s g ->
  exists g', RR T (if b then t401_stop_t403_start (reject_info s) else s) g' /\ mvs N g g' /\
    st (if b then t401_stop_t403_start (reject_info s) else s) = st s.
Proof.
  intros HR. destruct b.
  - destruct (reject_info_rel T N s g HR) as (g' & A & B & C). exists g'. split; [apply t403_start_RR; exact A|]. split; [exact B|]. exact C.
  - exists g. split; [exact HR|]. split; [apply mvs_nil|reflexivity].
Qed.

Lemma receive_S_rsp T s g ad k pf n mem : RR T s g -> st s = DATA -> (k = 0 \/ k = 4 \/ k = 8) -> (pf = 0 \/ pf = 1) -> ga g <= n <= ga g + 15 ->
  received T g (Some n) None (rx_supervisory_rsp s (enc (AS ad k pf n) ++ mem)).
Proof.
  intros HR Hst Hk Hpf Hn. unfold rx_supervisory_rsp. cbn [enc Datatypes.app].
  rewrite aget1, aget2. cbn [rbind]. rewrite shr2, odd2 by assumption.
  destruct ((retry s =? 0) && (pf =? 1)).
  { apply done_S with g; auto; [|apply mvs_nil]. apply RR_J; auto. }
  destruct Hk as [-> | [-> | ->]].
  - change (Z.land (1 + 0) 0x0C =? S_RR) with true. cbv iota.
    destruct (ack_info_rel T (w_far_busy false s) g n HR Hn) as (s1 & g1 & -> & HR1 & Hm1 & Hst1). cbn [rbind].
    destruct (reject_t403 T (Some n) s1 g1 (negb (retry s1 =? 0) && (pf =? 1)) HR1) as (g2 & HR2 & Hm2 & Hst2).
    apply done_S with g2; auto; [|eapply mvs_trans; eassumption].
    apply RR_J; [exact HR2|]. rewrite Hst2. exact (st3 _ _ Hst Hst1).
  - change (Z.land (1 + 4) 0x0C =? S_RR) with false. change (Z.land (1 + 4) 0x0C =? S_RNR) with true. cbv iota.
    destruct (ack_info_rel T (w_far_busy true s) g n HR Hn) as (s1 & g1 & -> & HR1 & Hm1 & Hst1). cbn [rbind].
    destruct (reject_t403 T (Some n) s1 g1 (negb (retry s1 =? 0) && (pf =? 1)) HR1) as (g2 & HR2 & Hm2 & Hst2).
    set (s2 := if negb (retry s1 =? 0) && (pf =? 1) then _ else _) in *. clearbody s2.
    apply done_S with g2; auto; [|eapply mvs_trans; eassumption].
    destruct (retry s2 =? 0).
    + apply RR_J; [apply t401_start_RR; exact HR2|]. change (st (t401_start s2)) with (st s2). rewrite Hst2. exact (st3 _ _ Hst Hst1).
    + apply RR_J; [exact HR2|]. rewrite Hst2. exact (st3 _ _ Hst Hst1).
  - change (Z.land (1 + 8) 0x0C =? S_RR) with false. change (Z.land (1 + 8) 0x0C =? S_RNR) with false.
    change (Z.land (1 + 8) 0x0C =? S_REJ) with true. cbv iota.
    destruct (ack_info_rel T (w_far_busy false s) g n HR Hn) as (s1 & g1 & -> & HR1 & Hm1 & Hst1). cbn [rbind].
    destruct (reject_t403 T (Some n) s1 g1 ((retry s1 =? 0) || (pf =? 1)) HR1) as (g2 & HR2 & Hm2 & Hst2).
    apply done_S with g2; auto; [|eapply mvs_trans; eassumption].
    apply RR_J; [exact HR2|]. rewrite Hst2. exact (st3 _ _ Hst Hst1).
Qed.

Lemma prefix_trans {A} (a b c : list A) : prefix a b -> prefix b c -> prefix a c.
Proof. intros (x & ->) (y & ->). exists (x ++ y). rewrite app_assoc. reflexivity. Qed.

(** U frames *)
Lemma un_J T s g N ad c : J T s g -> st s = IDLE \/ st s = RELEASE -> (Z.lor 3 c = 0x53 \/ Z.lor 3 c = 0x73 \/ Z.lor 3 c = 0x1F) ->
  exists s' g', tx_unnumbered s ad c = Ok s' /\ J T s' g' /\ mvs N g g' /\ st s' = st s.
Proof.
  intros (H0 & _ & _ & Hp) Hst Hc. unfold tx_unnumbered. pose proof H0 as (Hring & Hq & _).
  destruct (put_ring s (gq g) (AU ad (Z.lor 3 c)) [ad; Z.lor 3 c] Hring ltac:(cbn; auto) eq_refl)
    as (p & l & q' & He & Hc' & Hcase).
  change 2 with (Z.of_nat (length [ad; Z.lor 3 c])). rewrite He.
  exists (w_ctrl_put p (w_ctrl_buf l s)), (mkG (gD g) (ga g) (gs g) (gM g) (gr g) q').
  split; [reflexivity|]. split; [|split; [|reflexivity]].
  - apply dead_J; [|exact Hst|exact Hp]. apply R0_q; [exact H0|exact Hc'|].
    destruct Hcase as [-> | ->]; [exact Hq|]. apply app_ctl; [exact Hq|]. cbn; auto.
  - destruct Hcase as [-> | ->]; [rewrite eta_q; apply mvs_nil|]. apply mvs_one, mv_un.
Qed.

Lemma receive_U_cmd T s g ad c mem len : J T s g -> (c = 0x53 \/ c = 0x73 \/ c = 0x1F) ->
  received T g None None (rx_unnumbered_cmd s (ad :: c :: mem) len).
Proof.
  intros HJ Hc. unfold rx_unnumbered_cmd. rewrite aget1. cbn [rbind].
  destruct Hc as [-> | [-> | ->]].
  - change (Z.land 0x53 0xEC =? U_SABME) with false. change (Z.land 0x53 0xEC =? U_DISC) with true. cbv iota.
    destruct (Z.eqb_spec (st s) IDLE) as [E|E].
    + destruct (un_J T s g None (rsp_addr s) (Z.lor U_DM U_PF) HJ (or_introl E) ltac:(auto)) as (s' & g' & -> & HJ' & Hm & _).
      cbn [rbind]. apply done_S with g'; auto.
    + pose proof HJ as (H0 & _ & _ & Hp).
      assert (HJ1 : J T (reset_lapm (w_st IDLE s)) (flush g)).
      { apply dead_J; [apply reset_R0, R0_st; exact H0|left; reflexivity|exact Hp]. }
      destruct (un_J T (reset_lapm (w_st IDLE s)) (flush g) None (rsp_addr s) (Z.lor U_UA (Z.land 0x53 0x10)) HJ1 (or_introl eq_refl) ltac:(auto))
        as (s' & g' & -> & HJ' & Hm & Hst').
      cbn [rbind]. apply done_S with g'; auto.
      * pose proof HJ' as (H0' & Hs' & _ & Hp'). apply dead_J; [apply t401_stop_R0; exact H0'|left; exact Hst'|exact Hp'].
      * eapply mvs_cons; [apply mv_flush|exact Hm].
  - apply done_S with g; auto. apply mvs_nil.
  - apply done_S with g; auto. apply mvs_nil.
Qed.

Lemma dies T g s s' e : J T s g -> frames e = [] -> puts e = [] -> R0 s' (flush g) -> st s' = IDLE -> received T g None None (Ok (s', e)).
Proof.
  intros (_ & _ & _ & Hp) Hf He H0 Hst. apply done_S with (flush g); auto.
  - apply dead_J; auto.
  - apply mvs_one, mv_flush.
Qed.
Lemma receive_U_rsp T s g ad c mem len : J T s g -> (c = 0x53 \/ c = 0x73 \/ c = 0x1F) ->
  received T g None None (rx_unnumbered_rsp s (ad :: c :: mem) len).
Proof.
  intros HJ Hc. pose proof HJ as (H0 & Hst & _ & Hp). unfold rx_unnumbered_rsp. rewrite aget1. cbn [rbind].
  assert (Hnop : received T g None None (Ok (s, []))) by (apply done_S with g; auto; apply mvs_nil).
  destruct Hc as [-> | [-> | ->]].
  - exact Hnop.
  - change (Z.land 0x73 0xEC =? U_DM) with false. change (Z.land 0x73 0xEC =? U_UA) with true. cbv iota.
    destruct Hst as [E | [E | E]]; rewrite E.
    + exact Hnop.
    + exact Hnop.
    + apply (dies T g s); auto. apply t401_stop_R0, reset_R0, R0_st. exact H0.
  - change (Z.land 0x1F 0xEC =? U_DM) with true. change (negb (Z.land 0x1F 0x10 =? 0)) with true. cbv iota.
    destruct Hst as [E | [E | E]]; rewrite E.
    + exact Hnop.
    + change (DATA =? IDLE) with false. change ((DATA =? ESTABLISH) || (DATA =? RELEASE)) with false. change (DATA =? DATA) with true. cbv iota.
      destruct (negb (retry s =? 0) || negb true); [|exact Hnop].
      apply (dies T g s); auto. apply reset_R0, R0_st. exact H0.
    + apply (dies T g s); auto. apply t401_stop_R0, reset_R0, R0_st. exact H0.
Qed.

(** What a frame brings. *)
Definition ackof (f : afr) : option Z := match f with AI _ _ n _ => Some n | AS _ _ _ n => Some n | AU _ _ => None end.
Definition newof (f : afr) : option (Z * list Z) := match f with AI _ i _ d => Some (i, d) | _ => None end.

Lemma receive_rel T s g f mem : J T s g -> wfa f -> (forall n, ackof f = Some n -> ga g <= n <= ga g + 15) ->
  received T g (ackof f) (newof f) (lapm_receive s (enc f ++ mem) (Z.of_nat (length (enc f))) true).
Proof.
  intros HJ Hf Hn. unfold lapm_receive. replace (Z.of_nat (length (enc f)) <? 0) with false by lia. cbn [negb].
  destruct f as [ad i n d|ad k pf n|ad c].
  - cbn [ackof newof] in *. change (enc (AI ad i n d) ++ mem) with (ad :: 2 * (i mod 128) :: (2 * (n mod 128) :: d) ++ mem).
    rewrite aget1. cbn [rbind]. rewrite land3.
    replace ((2 * (i mod 128)) mod 4 =? 0) with ((i mod 128) mod 2 =? 0)
      by (clear; generalize (i mod 128); intros z; Z.div_mod_to_equations; lia).
    replace (((i mod 128) mod 2 =? 0) || ((2 * (i mod 128)) mod 4 =? 2)) with true
      by (clear; generalize (i mod 128); intros z; Z.div_mod_to_equations; lia).
    apply (receive_I T s g ad i n d mem HJ Hf (Hn n eq_refl)).
  - cbn [ackof newof] in *. destruct Hf as (Hk & Hpf).
    change (enc (AS ad k pf n) ++ mem) with (ad :: (1 + k) :: 2 * (n mod 128) + pf :: mem).
    rewrite aget1, aget0. cbn [rbind].
    assert (Et : Z.land (1 + k) 3 = 1) by (destruct Hk as [-> | [-> | ->]]; reflexivity). rewrite Et.
    change ((1 =? 0) || (1 =? 2)) with false. change (1 =? 1) with true. cbv iota.
    destruct (valid_data_J T s g (Some n) HJ) as [(Ev & Est & HR)|(s' & e & g' & Ev & HJ' & Hm & Hfe & Hp)]; rewrite Ev; cbn [negb].
    2:{ apply done_S with g'; auto. }
    assert (Hgo : forall r, received T g (Some n) None r -> received T g (Some n) None (do (s0, e') <- r; Ok (s0, [] ++ e'))).
    { intros r (s' & e & g' & -> & HH). exists s', e, g'. split; [reflexivity|exact HH]. }
    apply Hgo. destruct (ad =? rsp_addr s).
    + apply (receive_S_cmd T s g ad k pf n mem HR Est Hk Hpf (Hn n eq_refl)).
    + apply (receive_S_rsp T s g ad k pf n mem HR Est Hk Hpf (Hn n eq_refl)).
  - cbn [ackof newof enc Datatypes.app length] in *. rewrite aget1, aget0. cbn [rbind].
    assert (Et : Z.land c 3 = 3) by (destruct Hf as [-> | [-> | ->]]; reflexivity). rewrite Et.
    change ((3 =? 0) || (3 =? 2)) with false. change (3 =? 1) with false. cbv iota.
    destruct (ad =? rsp_addr s); [apply receive_U_cmd|apply receive_U_rsp]; assumption.
Qed.

(** timers *)
Lemma tick_rel T s g N : J T s g -> exists s' e g', timer_tick s = Ok (s', e) /\ J T s' g' /\ mvs N g g' /\ frames e = [] /\ puts e = [].
Proof.
  intros HJ. pose proof HJ as (H0 & Hst & H1 & Hp).
  pose proof H0 as (Hc & Hq & (Hrate & Ht & Htf) & Hrest). unfold timer_tick.
  destruct (Z.eqb_spec (timer s) 0) as [E0|E0].
  { exists s, [], g. split; [reflexivity|]. split; [exact HJ|]. split; [apply mvs_nil|auto]. }
  destruct (Z.leb_spec (timer s - 1) 0) as [E1|E1].
  2:{ exists (w_timer (timer s - 1) s), [], g. split; [reflexivity|]. split; [|split; [apply mvs_nil|auto]].
      split; [|split; [exact Hst|split; [exact H1|exact Hp]]].
      split; [exact Hc|]. split; [exact Hq|]. split; [|exact Hrest].
      split; [exact Hrate|]. split; [cbn [timer w_timer]; lia|]. intros _. exact (Htf E0). }
  set (s1 := w_timer 0 s).
  assert (H01 : R0 s1 g).
  { split; [exact Hc|]. split; [exact Hq|]. split; [|exact Hrest]. split; [exact Hrate|]. split; [cbn; lia|]. intros E. exfalso. apply E. reflexivity. }
  assert (H11 : st s1 = DATA -> RR T s1 g) by (intros E; split; [exact H01|exact (H1 E)]).
  assert (HJ1 : J T s1 g) by (split; [exact H01|split; [exact Hst|split; [exact H1|exact Hp]]]).
  change (st s) with (st s1) in Hst. unfold timer_expired. change (tfunc s1) with (tfunc s). destruct (Htf E0) as [E | E]; rewrite E.
  - unfold t401_expired. destruct (N_400 <? retry s1).
    + assert (Hz : R0 (w_retry 0 s1) g) by exact H01.
      change (st (w_retry 0 s1)) with (st s1). destruct Hst as [Es | [Es | Es]]; rewrite Es.
      * exists (w_retry 0 s1), [], g. split; [reflexivity|]. split; [|split; [apply mvs_nil|auto]]. apply dead_J; auto.
      * destruct (lapm_disconnect_rel T N (w_retry 0 s1) g Hz) as (s' & g' & E' & Hst' & H0' & H1' & Hm).
        cbn [orb Z.eqb]. change (DATA =? ESTABLISH) with false. change (DATA =? RELEASE) with false. change (DATA =? DATA) with true.
        cbn [orb]. rewrite E'. cbn [rbind]. exists s', [], g'. split; [reflexivity|].
        split; [|split; [exact Hm|auto]]. apply RR_J; [|auto]. split; [exact H0'|]. apply H1'. exact (proj2 (H11 Es)).
      * exists (w_st IDLE (w_retry 0 s1)), [Status DISCONNECTED], g. split; [reflexivity|]. split; [|split; [apply mvs_nil|auto]].
        apply dead_J; auto.
    + set (s2 := w_retry (retry s1 + 1) s1).
      assert (Hgo : exists s3 g3,
        (if configuring s2 then transmit_xid s2 (cmd_addr s2)
         else if st s2 =? ESTABLISH then tx_unnumbered s2 (cmd_addr s2) (Z.lor U_SABME U_PF)
         else if st s2 =? RELEASE then tx_unnumbered s2 (cmd_addr s2) (Z.lor U_DISC U_PF)
         else if st s2 =? DATA then tx_supervisory s2 (cmd_addr s2) (busy_code s2) 1 else Ok s2) = Ok s3 /\
        J T s3 g3 /\ mvs N g g3).
      { pose proof H01 as (_ & _ & _ & _ & _ & Hconf & _). change (configuring s2) with (configuring s1). rewrite Hconf.
        assert (HJ2 : J T s2 g) by exact HJ1. change (st s2) with (st s1).
        destruct Hst as [Es | [Es | Es]]; rewrite Es.
        - exists s2, g. split; [reflexivity|]. split; [exact HJ2|apply mvs_nil].
        - change (DATA =? ESTABLISH) with false. change (DATA =? RELEASE) with false. change (DATA =? DATA) with true. cbv iota.
          destruct (sup_RR T s2 g N (cmd_addr s2) (busy_code s2) 1 (H11 Es) (busy_k s2) ltac:(auto)) as (s3 & g3 & E3 & Hs3 & HR3 & Hm3).
          exists s3, g3. split; [exact E3|]. split; [|exact Hm3]. apply RR_J; [exact HR3|]. rewrite (same_st _ _ Hs3). right. left. exact Es.
        - change (RELEASE =? ESTABLISH) with false. change (RELEASE =? RELEASE) with true. cbv iota.
          destruct (un_J T s2 g N (cmd_addr s2) (Z.lor U_DISC U_PF) HJ2 (or_intror Es) ltac:(auto)) as (s3 & g3 & E3 & HJ3 & Hm3 & _).
          exists s3, g3. auto. }
      destruct Hgo as (s3 & g3 & E3 & HJ3 & Hm3). rewrite E3. cbn [rbind].
      exists (set_timer s3 (ms_to_bits s3 T_401) T401), [], g3. split; [reflexivity|]. split; [|split; [exact Hm3|auto]].
      destruct HJ3 as (A & B & C & D). pose proof A as (_ & _ & (Hr3 & _) & _). destruct (t_pos s3 Hr3) as (Ep & _).
      split; [|split; [exact B|split; [exact C|exact D]]].
      exact (R0_timer s3 g3 (ms_to_bits s3 T_401) T401 (retry s3) A ltac:(rewrite Ep; lia) ltac:(auto)).
  - unfold t403_expired. destruct (Z.eqb_spec (st s1) DATA) as [Es|Es]; cbn [negb].
    + destruct (sup_RR T s1 g N (cmd_addr s1) (busy_code s1) 1 (H11 Es) (busy_k s1) ltac:(auto)) as (s3 & g3 & E3 & Hs3 & HR3 & Hm3).
      rewrite E3. cbn [rbind]. exists (w_retry 1 (t401_start s3)), [], g3. split; [reflexivity|]. split; [|split; [exact Hm3|auto]].
      apply RR_J; [exact (t401_start_RR _ _ _ HR3)|]. right. left. change (st (w_retry 1 (t401_start s3))) with (st s3).
      rewrite (same_st _ _ Hs3). exact Es.
    + cbn [rbind]. exists s1, [], g. split; [reflexivity|]. split; [exact HJ1|]. split; [apply mvs_nil|auto].
Qed.

(** sending *)
Definition sent_ctl (g : gh) (f : afr) (q : list afr) : Prop := gq g = f :: q.
Definition popq (g : gh) (q : list afr) : gh := mkG (gD g) (ga g) (gs g) (gM g) (gr g) q.
Definition sendi (g : gh) : gh := mkG (gD g) (ga g) (gs g + 1) (Z.max (gM g) (gs g + 1)) (gr g) (gq g).

Lemma underflow_rel T s g : J T s g ->
  exists s' e g', lapm_hdlc_underflow s = Ok (s', e) /\ J T s' g' /\ puts e = [] /\
    ((frames e = [] /\ mvs None g g') \/
     (exists f q, gq g = f :: q /\ frames e = [enc f] /\ g' = popq g q) \/
     (exists g1 ad, mvs None g g1 /\ gq g1 = [] /\ gs g1 < Z.of_nat (length (gD g1)) /\ (1 <= length (dn g1 (gs g1)) <= 128)%nat /\
        frames e = [enc (AI ad (gs g1) (gr g1) (dn g1 (gs g1)))] /\ g' = sendi g1)).
Proof.
  intros HJ. pose proof HJ as (H0 & Hst & H1 & Hp). pose proof H0 as (Hc & Hq & Ht & Hcfg & Hlim & Hconf & Hil & His & Happ & Hb).
  unfold lapm_hdlc_underflow. destruct (gq g) as [|f q] eqn:Eq.
  2:{ destruct (pop_ring s f q Hc) as (Hne & fr & E1 & E2 & Hc'). replace (ctrl_get s =? ctrl_put s) with false by lia. cbn [negb].
      rewrite E1. cbn [rbind]. rewrite E2. cbn [rbind]. do 2 eexists. exists (popq g q). split; [reflexivity|].
      split; [|split; [reflexivity|right; left; exists f, q; auto]].
      split; [|split; [exact Hst|split; [exact H1|exact Hp]]].
      split; [exact Hc'|]. split; [exact (Forall_inv_tail Hq)|]. split; [exact Ht|]. split; [exact Hcfg|]. split; [exact Hlim|].
      split; [exact Hconf|]. split; [exact Hil|]. split; [exact His|]. split; [exact Happ|exact Hb]. }
  rewrite (empty_ring s Hc), Z.eqb_refl. cbn [negb]. rewrite Hconf, orb_false_r.
  destruct (far_busy s || negb (st s =? DATA)) eqn:Eb.
  { exists s, [Flags], g. split; [reflexivity|]. split; [exact HJ|]. split; [reflexivity|]. left. split; [reflexivity|apply mvs_nil]. }
  apply orb_false_iff in Eb. destruct Eb as (_ & Eb). apply negb_false_iff, Z.eqb_eq in Eb.
  assert (HR : RR T s g) by (split; [exact H0|exact (H1 Eb)]).
  assert (Hone : exists s1 b e1 g1, (if info_get s =? info_put s then tx_information_frame s else Ok (s, true, [])) = Ok (s1, b, e1) /\
    RR T s1 g1 /\ mvs None g g1 /\ frames e1 = [] /\ puts e1 = [] /\ st s1 = DATA /\ gq g1 = [] /\
    (b = true -> gs g1 < Z.of_nat (length (gD g1)))).
  { destruct (Z.eqb_spec (info_get s) (info_put s)) as [E|E].
    - destruct (tx_information_frame_rel T None s g HR) as (s1 & b & e1 & g1 & A1 & A2 & A3 & A4 & A5 & A6 & A7 & A8).
      exists s1, b, e1, g1. rewrite A6, A7, Eq. auto 9.
    - exists s, true, [], g. split; [reflexivity|]. split; [exact HR|]. split; [apply mvs_nil|].
      do 2 (split; [reflexivity|]). split; [exact Eb|]. split; [exact Eq|]. intros _.
      destruct (proj2 HR) as (_ & _ & _ & _ & Hig & Hip & _). unfold bnd in Hb.
      destruct (Z.eq_dec (gs g) (Z.of_nat (length (gD g)))) as [e|]; [|lia]. exfalso. apply E. rewrite Hig, Hip, e. reflexivity. }
  destruct Hone as (s1 & b & e1 & g1 & -> & HR1 & Hm & Hf & Hpu & Es1 & Eq1 & Hlt). cbn [rbind].
  destruct b; cbn [negb].
  2:{ exists s1, (e1 ++ [Flags]), g1. split; [reflexivity|]. split; [apply RR_J; auto|].
      rewrite puts_app, frames_app, Hf, Hpu. split; [reflexivity|]. left. split; [reflexivity|exact Hm]. }
  specialize (Hlt eq_refl). clear HR H0 H1 Hc Hq Ht Hcfg Hlim Hconf Hil His Happ Hb.
  destruct HR1 as (H0 & H1). pose proof H0 as (Hc & Hq & Ht & Hcfg & Hlim & Hconf & Hil & His & Happ & Hb).
  pose proof H1 as (Ha & Hs & Hr & Hia & Hig & Hip & HD & Hsl & HT).
  unfold bnd in Hb. assert (Hg16 : 0 <= info_get s1 < 16) by (rewrite Hig; apply Z.mod_pos_bound; lia).
  rewrite fget_ok by lia. cbn [rbind]. set (fr := fnth (info_buf s1) (info_get s1)).
  pose proof (sized_nth (info_buf s1) (info_get s1) His ltac:(lia)) as (Hbl & Hfl). fold fr in Hbl, Hfl.
  destruct (Hsl (gs g1) ltac:(lia)) as (Hs1 & Hs2). rewrite <- Hig in Hs1, Hs2. fold fr in Hs1, Hs2.
  set (d := dn g1 (gs g1)) in *.
  assert (Hd : (1 <= length d <= 128)%nat).
  { rewrite Forall_forall in HD. apply HD. unfold d, dn. apply nth_In. lia. }
  rewrite Hs, Hr, !oct2 by apply mod128.
  rewrite ablit_ok by (cbn [length]; lia). cbn [rbind]. change (Z.to_nat 0) with 0%nat. cbn [firstn Datatypes.app length].
  change (0 + 3)%nat with 3%nat. rewrite fset_ok by lia. cbn [rbind].
  set (buf := cmd_addr s1 :: 2 * (gs g1 mod 128) :: 2 * (gr g1 mod 128) :: skipn 3 (fbuf fr)).
  assert (Hbuf : length buf = 132%nat) by (unfold buf; cbn [length]; rewrite skipn_length; lia).
  rewrite aslice_ok by lia. cbn [rbind].
  set (l' := upd (info_buf s1) (Z.to_nat (info_get s1)) (mkF (flen fr) buf)).
  set (s2 := w_vs (Z.land (gs g1 mod 128 + 1) 127) (w_info_get (wrap (info_get s1) INFO_FRAMES) (w_info_buf l' s1))).
  assert (HR2 : RR T s2 (sendi g1)).
  { split.
    - split; [exact Hc|]. split; [exact Hq|]. split; [exact Ht|]. split; [exact Hcfg|]. split; [exact Hlim|].
      split; [exact Hconf|]. split; [cbn [s2 info_buf w_vs w_info_get w_info_buf]; unfold l'; rewrite upd_length; exact Hil|].
      split. { cbn [s2 info_buf w_vs w_info_get w_info_buf]. unfold l'. apply Forall_upd; [exact His|]. split; [exact Hbuf|exact Hfl]. }
      split; [exact Happ|]. unfold bnd, sendi. cbn [gD ga gs gM gr]. lia.
    - unfold R1, s2, sendi. cbn [gD ga gs gM gr gq va vs vr info_acked info_get info_put info_buf app w_vs w_info_get w_info_buf].
      split; [exact Ha|]. split. { rewrite land7. clear. Z.div_mod_to_equations; lia. }
      split; [exact Hr|]. split; [exact Hia|].
      split. { unfold INFO_FRAMES. rewrite wrap16, Hig by assumption. clear. Z.div_mod_to_equations; lia. }
      split; [exact Hip|]. split; [exact HD|]. split; [|exact HT].
      intros i Hi. destruct (Z.eq_dec i (gs g1)) as [->|Hne].
      + rewrite <- Hig. unfold l'. rewrite fnth_upd_same by lia. split; [exact Hs1|exact Hs2].
      + unfold l'. rewrite fnth_upd_other.
        * apply Hsl. exact Hi.
        * lia.
        * apply Z.mod_pos_bound. lia.
        * rewrite Hig. clear - Hi Hne Hb Hlt. Z.div_mod_to_equations; lia. }
  assert (Hfr : firstn (Z.to_nat (flen fr)) buf = enc (AI (cmd_addr s1) (gs g1) (gr g1) d)).
  { rewrite Hs1. replace (Z.to_nat (3 + Z.of_nat (length d))) with (S (S (S (length d)))) by lia. unfold buf. cbn [firstn enc].
    rewrite Hs2. reflexivity. }
  change (Z.to_nat 0) with 0%nat. cbn [skipn]. rewrite Hfr.
  exists (if timer s2 =? 0 then t401_start s2 else s2), (e1 ++ [Frame (enc (AI (cmd_addr s1) (gs g1) (gr g1) d))]), (sendi g1).
  split; [reflexivity|]. split.
  { destruct (timer s2 =? 0); apply RR_J; [apply t401_start_RR; exact HR2| |exact HR2| ]; right; left; exact Es1. }
  rewrite puts_app, frames_app, Hf, Hpu. split; [reflexivity|]. right. right. exists g1, (cmd_addr s1). auto 9.
Qed.

Lemma stop_rel T s g N : J T s g -> exists s' g', v42_stop s = Ok s' /\ J T s' g' /\ mvs N g g'.
Proof.
  intros (H0 & Hst & H1 & Hp). unfold v42_stop.
  assert (H01 : R0 (w_timer 0 s) g).
  { destruct H0 as (Hc & Hq & (Hr & _) & Hrest). split; [exact Hc|]. split; [exact Hq|]. split; [|exact Hrest].
    split; [exact Hr|]. split; [cbn; lia|]. intros E. exfalso. apply E. reflexivity. }
  unfold lapm_disconnect.
  assert (HJ2 : J T (w_st RELEASE (w_timer 0 s)) g) by (apply dead_J; [exact H01|right; reflexivity|exact Hp]).
  destruct (un_J T _ g N (cmd_addr (w_timer 0 s)) (Z.lor U_DISC U_PF) HJ2 (or_intror eq_refl) ltac:(auto)) as (s' & g' & -> & HJ' & Hm & Hst').
  cbn [rbind]. exists (t401_start s'), g'. split; [reflexivity|]. split; [|exact Hm].
  destruct HJ' as (A & _ & _ & D). apply dead_J; [apply t401_start_R0; exact A|right; exact Hst'|exact D].
Qed.
