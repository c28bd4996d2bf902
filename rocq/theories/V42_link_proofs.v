(** LAP.M: two stations. *)
From Coq Require Import ZifyBool ZifyNat Sorted.
From Verif Require Import Base V42_model V42_spec V42_rel_proofs V42_prim_proofs V42_recv_proofs.

Definition acks (l : list afr) : list Z := flat_map (fun f => match ackof f with Some n => [n] | None => [] end) l.
Definition ins (l : list afr) : list Z := flat_map (fun f => match newof f with Some (i, _) => [i] | None => [] end) l.

Lemma acks_app a b : acks (a ++ b) = acks a ++ acks b.
Proof. apply flat_map_app. Qed.
Lemma ins_app a b : ins (a ++ b) = ins a ++ ins b.
Proof. apply flat_map_app. Qed.
Lemma SS_snoc (R : Z -> Z -> Prop) l x : StronglySorted R l -> Forall (fun y => R y x) l -> StronglySorted R (l ++ [x]).
Proof.
  intros H. induction H as [|a l H IH Ha]; intros F; cbn [Datatypes.app].
  - constructor; constructor.
  - inversion F; subst. constructor; [auto|]. apply Forall_app. split; [assumption|]. constructor; [assumption|constructor].
Qed.
Lemma SS_front (R : Z -> Z -> Prop) a b : StronglySorted R (a ++ b) -> StronglySorted R a.
Proof.
  induction a as [|x a IH]; intros H; cbn [Datatypes.app] in *; [constructor|]. inversion H; subst. constructor; [auto|].
  rewrite Forall_app in *. tauto.
Qed.
Lemma SS_back (R : Z -> Z -> Prop) a b : StronglySorted R (a ++ b) -> StronglySorted R b.
Proof. induction a as [|x a IH]; intros H; cbn [Datatypes.app] in *; [exact H|]. inversion H; auto. Qed.

Definition okI (gX gY : gh) (f : afr) : Prop :=
  match newof f with Some (i, d) => 0 <= i < gM gX /\ d = dn gX i /\ gr gY <= i + 15 | None => True end.
(** the direction from X to Y *)
Definition half (gX gY : gh) (cXY cYX : list afr) (dY : list (list Z)) : Prop :=
  bnd gX /\ ga gX <= gr gY <= gM gX /\ Forall (okI gX gY) cXY /\ StronglySorted (fun i j => i < j + 15) (ins cXY) /\
  StronglySorted Z.le (acks (cYX ++ gq gY)) /\ Forall (fun n => ga gX <= n <= gr gY) (acks (cYX ++ gq gY)) /\
  dY = firstn (Z.to_nat (gr gY)) (gD gX).
Definition pend (N : option Z) (gX gY : gh) (cYX : list afr) : Prop :=
  match N with Some n => ga gX <= n <= gr gY /\ Forall (Z.le n) (acks (cYX ++ gq gY)) | None => True end.

Lemma mv_sender N gX gX' gY cXY cYX dY : half gX gY cXY cYX dY -> pend N gX gY cYX -> mv N gX gX' ->
  half gX' gY cXY cYX dY /\ pend N gX' gY cYX.
Proof.
  intros (Hb & Hr & Hok & Hs & Ha & Hf & Hd) Hn Hm. pose proof (mv_bnd _ _ _ Hm Hb) as Hb'.
  destruct Hm as [gX n E Hle|gX|gX d Hlt|gX ad k pf|gX ad c|gX]; cbn [gD ga gs gM gr gq] in *;
    try (split; [split; [exact Hb'|]; split; [exact Hr|]; split; [exact Hok|]; split; [exact Hs|]; split; [exact Ha|]; split; [exact Hf|exact Hd]|exact Hn]).
  - subst N. destruct Hn as (Hn1 & Hn2). split.
    + split; [exact Hb'|]. cbn [gD ga gs gM gr gq]. split; [lia|]. split; [exact Hok|]. split; [exact Hs|]. split; [exact Ha|]. split; [|exact Hd].
      rewrite Forall_forall in *. intros x Hx. specialize (Hf x Hx). specialize (Hn2 x Hx). lia.
    + cbn [pend ga]. split; [lia|exact Hn2].
  - unfold bnd in Hb. split; [|exact Hn]. split; [exact Hb'|]. cbn [gD ga gs gM gr gq]. split; [exact Hr|]. split.
    { eapply Forall_impl; [|exact Hok]. intros f. unfold okI. destruct (newof f) as [[i d']|]; [|auto].
      intros (A & B & C). split; [exact A|]. split; [|exact C]. cbn [gM] in *. unfold dn. cbn [gD]. rewrite app_nth1 by lia. exact B. }
    split; [exact Hs|]. split; [exact Ha|]. split; [exact Hf|]. rewrite Hd, firstn_app.
    replace (Z.to_nat (gr gY) - length (gD gX))%nat with 0%nat by lia. cbn [firstn]. rewrite app_nil_r. reflexivity.
Qed.
Lemma mvs_sender N gX gX' gY cXY cYX dY : mvs N gX gX' -> half gX gY cXY cYX dY -> pend N gX gY cYX ->
  half gX' gY cXY cYX dY /\ pend N gX' gY cYX.
Proof.
  intros H. induction H as [|g g' g'' Hm _ IH]; intros A B; [auto|].
  destruct (mv_sender N g g' gY cXY cYX dY A B Hm). auto.
Qed.

Lemma mv_receiver N gX gX' gY cYX cXY dX : half gY gX cYX cXY dX -> mv N gX gX' -> half gY gX' cYX cXY dX.
Proof.
  intros (Hb & Hr & Hok & Hs & Ha & Hf & Hd) Hm. unfold half. rewrite (mv_r _ _ _ Hm).
  split; [exact Hb|]. split; [exact Hr|].
  split. { eapply Forall_impl; [|exact Hok]. intros f. unfold okI. rewrite (mv_r _ _ _ Hm). auto. }
  split; [exact Hs|]. destruct Hm as [gX n E Hle|gX|gX d Hlt|gX ad k pf|gX ad c|gX]; cbn [gq] in *;
    try (split; [exact Ha|]; split; [exact Hf|exact Hd]).
  - rewrite (app_assoc cXY), (acks_app (cXY ++ gq gX)). cbn [acks ackof flat_map Datatypes.app]. split; [|split; [|exact Hd]].
    + apply SS_snoc; [exact Ha|]. eapply Forall_impl; [|exact Hf]. intros y Hy. cbn beta in *. lia.
    + apply Forall_app. split; [exact Hf|]. constructor; [lia|constructor].
  - rewrite (app_assoc cXY), (acks_app (cXY ++ gq gX)). cbn [acks ackof flat_map Datatypes.app]. rewrite app_nil_r. auto.
  - rewrite app_nil_r. rewrite acks_app in Ha, Hf. split; [exact (SS_front _ _ _ Ha)|]. split; [|exact Hd]. apply Forall_app in Hf. tauto.
Qed.
Lemma mvs_receiver N gX gX' gY cYX cXY dX : mvs N gX gX' -> half gY gX cYX cXY dX -> half gY gX' cYX cXY dX.
Proof. intros H. induction H as [|g g' g'' Hm _ IH]; intros A; [auto|]. apply IH. eapply mv_receiver; eassumption. Qed.

(** taking a frame from the channel *)
Lemma half_drop_data gX gY f cXY cYX dY : half gX gY (f :: cXY) cYX dY -> half gX gY cXY cYX dY.
Proof.
  intros (Hb & Hr & Hok & Hs & Hrest). split; [exact Hb|]. split; [exact Hr|]. split; [exact (Forall_inv_tail Hok)|]. split; [|exact Hrest].
  change (f :: cXY) with ([f] ++ cXY) in Hs. rewrite ins_app in Hs. exact (SS_back _ _ _ Hs).
Qed.
Lemma half_drop_ack gX gY f cXY cYX dY : half gX gY cXY (f :: cYX) dY -> half gX gY cXY cYX dY /\ pend (ackof f) gX gY cYX.
Proof.
  intros (Hb & Hr & Hok & Hs & Ha & Hf & Hd).
  change (f :: cYX) with ([f] ++ cYX) in Ha, Hf. rewrite <- app_assoc, acks_app in Ha, Hf.
  pose proof (SS_back _ _ _ Ha) as Ha'. pose proof (proj2 (proj1 (Forall_app _ _ _) Hf)) as Hf'.
  split. { split; [exact Hb|]. split; [exact Hr|]. split; [exact Hok|]. split; [exact Hs|]. split; [exact Ha'|]. split; [exact Hf'|exact Hd]. }
  assert (Ef : acks [f] = match ackof f with Some n => [n] | None => [] end) by (cbn; destruct (ackof f); reflexivity).
  rewrite Ef in Ha, Hf. unfold pend. destruct (ackof f) as [n|]; [|exact I].
  cbn [Datatypes.app] in *. split; [exact (Forall_inv Hf)|]. inversion Ha; assumption.
Qed.

(** delivery *)
Lemma half_deliver gX gY i d cXY cYX dY : half gX gY cXY cYX dY -> i = gr gY -> 0 <= i < gM gX -> d = dn gX i ->
  Forall (fun j => i < j + 15) (ins cXY) -> half gX (rinc gY) cXY cYX (dY ++ [d]).
Proof.
  intros (Hb & Hr & Hok & Hs & Ha & Hf & Hd) -> Hi -> Hj. unfold half, rinc. cbn [gr gq]. split; [exact Hb|]. split; [lia|]. split.
  { clear - Hok Hj. induction cXY as [|f c IH]; [constructor|]. change (f :: c) with ([f] ++ c) in Hj. rewrite ins_app in Hj.
    apply Forall_app in Hj. destruct Hj as (Hj1 & Hj2). constructor; [|apply IH; [exact (Forall_inv_tail Hok)|exact Hj2]].
    pose proof (Forall_inv Hok) as Ho. unfold okI in *. unfold ins in Hj1. cbn [flat_map] in Hj1. destruct (newof f) as [[j d']|]; [|exact I].
    cbn [gr]. apply Forall_inv in Hj1. split; [apply Ho|]. split; [apply Ho|]. lia. }
  split; [exact Hs|]. split; [exact Ha|]. split. { eapply Forall_impl; [|exact Hf]. intros n Hn. cbn beta in *. lia. }
  rewrite Hd. unfold bnd in Hb. replace (Z.to_nat (gr gY + 1)) with (S (Z.to_nat (gr gY))) by lia.
  assert (Hlt : (Z.to_nat (gr gY) < length (gD gX))%nat) by lia. unfold dn. clear - Hlt.
  revert Hlt. generalize (Z.to_nat (gr gY)). generalize (gD gX). intros l n. revert n. induction l as [|a l IH]; intros n Hn; [cbn in Hn; lia|].
  destruct n as [|n]; [reflexivity|]. cbn [firstn nth Datatypes.app]. rewrite IH by (cbn [length] in Hn; lia). reflexivity.
Qed.
Lemma half_rinc_sender gX gY cXY cYX dY : half gX gY cXY cYX dY -> half (rinc gX) gY cXY cYX dY.
Proof.
  intros (Hb & Hrest). split; [|exact Hrest]. unfold bnd, rinc in *. cbn [gD ga gs gM gr]. lia.
Qed.

(** sending *)
Lemma half_pop_sender gX gY f q cXY cYX dY : half gX gY cXY cYX dY -> ctl f -> half (popq gX q) gY (cXY ++ [f]) cYX dY.
Proof.
  intros (Hb & Hr & Hok & Hs & Hrest) Hf. split; [exact Hb|]. split; [exact Hr|].
  assert (En : newof f = None) by (destruct f; [contradiction|reflexivity|reflexivity]).
  split. { apply Forall_app. split; [exact Hok|]. constructor; [|constructor]. unfold okI. rewrite En. exact I. }
  split; [|exact Hrest]. rewrite ins_app. unfold ins at 2. cbn [flat_map]. rewrite En, app_nil_r. exact Hs.
Qed.
Lemma half_pop_receiver gX gY f q cYX cXY dX : half gY gX cYX cXY dX -> gq gX = f :: q -> half gY (popq gX q) cYX (cXY ++ [f]) dX.
Proof.
  intros (Hb & Hr & Hok & Hs & Hrest) E. split; [exact Hb|]. split; [exact Hr|]. split; [exact Hok|]. split; [exact Hs|].
  unfold popq. cbn [gq gr]. rewrite <- app_assoc. cbn [Datatypes.app]. rewrite <- E. exact Hrest.
Qed.
Lemma half_send_sender gX gY ad n cXY cYX dY : half gX gY cXY cYX dY -> gs gX < Z.of_nat (length (gD gX)) ->
  half (sendi gX) gY (cXY ++ [AI ad (gs gX) n (dn gX (gs gX))]) cYX dY.
Proof.
  intros (Hb & Hr & Hok & Hs & Hrest) Hlt. unfold bnd in Hb. split; [unfold bnd, sendi; cbn [gD ga gs gM gr]; lia|].
  unfold sendi at 1 2. cbn [ga gM]. split; [lia|]. split.
  { apply Forall_app. split.
    - eapply Forall_impl; [|exact Hok]. intros f. unfold okI. destruct (newof f) as [[i d']|]; [|auto]. cbn [sendi gM]. intros (A & B & C). split; [lia|]. auto.
    - constructor; [|constructor]. unfold okI. cbn [newof sendi gM]. split; [lia|]. split; [reflexivity|lia]. }
  split; [|exact Hrest]. rewrite ins_app. apply SS_snoc; [exact Hs|].
  clear - Hok Hb. induction cXY as [|f c IH]; [constructor|]. change (f :: c) with ([f] ++ c). rewrite ins_app. apply Forall_app. split.
  - pose proof (Forall_inv Hok) as Ho. unfold okI in Ho. unfold ins. cbn [flat_map]. destruct (newof f) as [[j d']|]; constructor; [lia|constructor].
  - apply IH. exact (Forall_inv_tail Hok).
Qed.
Lemma half_send_receiver gX gY ad i d cYX cXY dX : half gY gX cYX cXY dX -> gq gX = [] ->
  half gY (sendi gX) cYX (cXY ++ [AI ad i (gr gX) d]) dX.
Proof.
  intros (Hb & Hr & Hok & Hs & Ha & Hf & Hd) E. split; [exact Hb|]. split; [exact Hr|]. split; [exact Hok|]. split; [exact Hs|].
  cbn [sendi gq gr]. rewrite E in *. rewrite app_nil_r in *. rewrite acks_app. cbn [acks flat_map ackof Datatypes.app].
  split; [|split; [|exact Hd]].
  - apply SS_snoc; [exact Ha|]. eapply Forall_impl; [|exact Hf]. intros y Hy. cbn beta in *. lia.
  - apply Forall_app. split; [exact Hf|]. constructor; [lia|constructor].
Qed.

(** ---- the system ---- *)
Definition inv (a b : node) : Prop :=
  exists gA gB cAB cBA,
    inbox b = map enc cAB /\ inbox a = map enc cBA /\ Forall wfa cAB /\ Forall wfa cBA /\
    J (data (supplied a)) (dev a) gA /\ J (data (supplied b)) (dev b) gB /\
    half gA gB cAB cBA (delivered b) /\ half gB gA cBA cAB (delivered a).
Lemma inv_sym a b : inv a b -> inv b a.
Proof. intros (gA & gB & cAB & cBA & H1 & H2 & H3 & H4 & H5 & H6 & H7 & H8). exists gB, gA, cBA, cAB. auto 9. Qed.

Lemma ctl_wfa f : ctl f -> wfa f.
Proof. destruct f; cbn; tauto. Qed.
Lemma data_app a b : data (a ++ b) = data a ++ data b.
Proof. induction a as [|[[|? ?]|] a IH]; cbn; auto. f_equal; exact IH. Qed.
Lemma J_supply T s g x : J T s g -> match x with Got d => (length d <= 128)%nat | GotError => True end ->
  J (T ++ data [x]) (w_app (app s ++ [x]) s) g.
Proof.
  intros ((Hc & Hq & Ht & Hcfg & Hlim & Hconf & Hil & His & Happ & Hb) & Hst & H1 & Hp) Hx.
  split; [|split; [exact Hst|split]].
  - split; [exact Hc|]. split; [exact Hq|]. split; [exact Ht|]. split; [exact Hcfg|]. split; [exact Hlim|]. split; [exact Hconf|].
    split; [exact Hil|]. split; [exact His|]. split; [|exact Hb]. cbn [app w_app]. apply Forall_app. split; [exact Happ|]. constructor; [exact Hx|constructor].
  - intros E. destruct (H1 E) as (Ha & Hs & Hr & Hia & Hig & Hip & HD & Hsl & HT).
    split; [exact Ha|]. split; [exact Hs|]. split; [exact Hr|]. split; [exact Hia|].
    split; [exact Hig|]. split; [exact Hip|]. split; [exact HD|]. split; [exact Hsl|]. cbn [app w_app]. rewrite data_app, HT, app_assoc. reflexivity.
  - destruct Hp as (rest & ->). exists (rest ++ data [x]). rewrite app_assoc. reflexivity.
Qed.

Lemma ack_range gX gY f cXY cYX dY n : half gX gY cXY (f :: cYX) dY -> ackof f = Some n -> ga gX <= n <= ga gX + 15.
Proof.
  intros H E. destruct (half_drop_ack _ _ _ _ _ _ H) as (_ & Hp). rewrite E in Hp. destruct Hp as (Hp & _).
  destruct H as (Hb & Hr & _). unfold bnd in Hb. lia.
Qed.

Lemma happen_inv a b x : inv a b -> fits (true, x) -> exists a' b', happen a b x = Ok (a', b') /\ inv a' b'.
Proof.
  intros (gA & gB & cAB & cBA & Eb & Ea & WAB & WBA & JA & JB & HAB & HBA) Hfit.
  destruct a as [sA inA supA delA]. destruct b as [sB inB supB delB]. cbn [dev inbox supplied delivered] in *. subst inA inB.
  destruct x as [| |mem| |m len|bz|gx|]; cbn [happen dev inbox].
  - (* underflow *)
    destruct (underflow_rel _ sA gA JA) as (s' & e & g' & -> & HJ & Hpu & Hcase). cbn [rbind emit].
    do 2 eexists. split; [reflexivity|]. cbn [inbox supplied delivered dev]. rewrite Hpu, app_nil_r.
    destruct Hcase as [(Hf & Hm)|[(f & q & Eq & Hf & ->)|(g1 & ad & Hm & Eq & Hlt & Hd & Hf & ->)]]; rewrite Hf.
    + exists g', gB, cAB, cBA. cbn [inbox supplied delivered dev]. rewrite app_nil_r.
      destruct (mvs_sender None gA g' gB cAB cBA delB Hm HAB I) as (HAB' & _).
      pose proof (mvs_receiver None gA g' gB cBA cAB delA Hm HBA) as HBA'. auto 9.
    + exists (popq gA q), gB, (cAB ++ [f]), cBA. cbn [inbox supplied delivered dev]. rewrite map_app.
      assert (Hctl : ctl f). { destruct JA as ((_ & Hq & _) & _). rewrite Eq in Hq. exact (Forall_inv Hq). }
      split; [reflexivity|]. split; [reflexivity|]. split; [apply Forall_app; split; [exact WAB|constructor; [apply ctl_wfa; exact Hctl|constructor]]|].
      split; [exact WBA|]. split; [exact HJ|]. split; [exact JB|]. split; [apply half_pop_sender; assumption|apply half_pop_receiver; assumption].
    + destruct (mvs_sender None gA g1 gB cAB cBA delB Hm HAB I) as (HAB' & _).
      pose proof (mvs_receiver None gA g1 gB cBA cAB delA Hm HBA) as HBA'.
      exists (sendi g1), gB, (cAB ++ [AI ad (gs g1) (gr g1) (dn g1 (gs g1))]), cBA. cbn [inbox supplied delivered dev]. rewrite map_app.
      split; [reflexivity|]. split; [reflexivity|]. split; [apply Forall_app; split; [exact WAB|constructor; [exact Hd|constructor]]|].
      split; [exact WBA|]. split; [exact HJ|]. split; [exact JB|]. split; [apply half_send_sender; assumption|apply half_send_receiver; assumption].
  - (* tick *)
    destruct (tick_rel _ sA gA None JA) as (s' & e & g' & -> & HJ & Hm & Hf & Hpu). cbn [rbind emit].
    do 2 eexists. split; [reflexivity|]. cbn [inbox supplied delivered dev]. rewrite Hpu, Hf, !app_nil_r.
    destruct (mvs_sender None gA g' gB cAB cBA delB Hm HAB I) as (HAB' & _).
    pose proof (mvs_receiver None gA g' gB cBA cAB delA Hm HBA) as HBA'. exists g', gB, cAB, cBA. auto 9.
  - (* a frame arrives *)
    destruct cBA as [|f c]; cbn [map].
    { do 2 eexists. split; [reflexivity|]. exists gA, gB, cAB, []. auto 9. }
    pose proof (Forall_inv WBA) as Wf. pose proof (Forall_inv_tail WBA) as Wc.
    assert (Hn : forall n, ackof f = Some n -> ga gA <= n <= ga gA + 15) by (intros n E; eapply ack_range; eassumption).
    destruct (receive_rel _ sA gA f mem JA Wf Hn) as (s' & e & g' & -> & HJ & Hfr & Hcase). cbn [rbind].
    do 2 eexists. split; [reflexivity|]. cbn [emit with_inbox inbox supplied delivered dev fst snd]. rewrite Hfr, !app_nil_r.
    destruct (half_drop_ack _ _ _ _ _ _ HAB) as (HAB' & Hpend).
    pose proof (half_drop_data _ _ _ _ _ _ HBA) as HBA'.
    destruct Hcase as [(Hpu & Hm)|(i & d & g1 & En & Ei & Hpu & Hm1 & Hm2)]; rewrite Hpu.
    + rewrite app_nil_r. destruct (mvs_sender _ gA g' gB cAB c delB Hm HAB' Hpend) as (HAB2 & _).
      pose proof (mvs_receiver _ gA g' gB c cAB delA Hm HBA') as HBA2. exists g', gB, cAB, c. auto 9.
    + destruct HBA as (HbB & HrB & HokB & HsB & _). pose proof (Forall_inv HokB) as Hok. unfold okI in Hok. rewrite En in Hok.
      destruct Hok as (Hi & Hd & Hri). unfold ins in HsB. cbn [flat_map] in HsB. rewrite En in HsB. cbn [Datatypes.app] in HsB.
      assert (Hj : Forall (fun j => i < j + 15) (ins c)) by (inversion HsB; assumption).
      pose proof (mvs_r _ _ _ Hm1) as Er1.
      assert (Ei' : i = gr g1).
      { rewrite Er1. unfold bnd in HbB. clear - Ei Hi Hri HbB HrB. Z.div_mod_to_equations; lia. }
      destruct (mvs_sender _ gA g1 gB cAB c delB Hm1 HAB' Hpend) as (HAB2 & Hpend2).
      pose proof (mvs_receiver _ gA g1 gB c cAB delA Hm1 HBA') as HBA2.
      pose proof (half_deliver _ _ i d _ _ _ HBA2 Ei' Hi Hd Hj) as HBA3.
      pose proof (half_rinc_sender _ _ _ _ _ HAB2) as HAB3.
      destruct (mvs_sender _ (rinc g1) g' gB cAB c delB Hm2 HAB3 Hpend2) as (HAB4 & _).
      pose proof (mvs_receiver _ (rinc g1) g' gB c cAB _ Hm2 HBA3) as HBA4. exists g', gB, cAB, c. auto 9.
  - (* a frame is lost *)
    do 2 eexists. split; [reflexivity|]. destruct cBA as [|f c]; cbn [map tl with_inbox inbox supplied delivered dev].
    { exists gA, gB, cAB, []. auto 9. }
    destruct (half_drop_ack _ _ _ _ _ _ HAB) as (HAB' & _). pose proof (half_drop_data _ _ _ _ _ _ HBA) as HBA'.
    exists gA, gB, cAB, c. pose proof (Forall_inv_tail WBA). auto 9.
  - (* damaged *)
    unfold lapm_receive. cbn [negb]. assert (E : (if len <? 0 then Ok (sA, []) else Ok (sA, @nil ev)) = Ok (sA, [])) by (destruct (len <? 0); reflexivity).
    rewrite E. cbn [rbind emit]. do 2 eexists. split; [reflexivity|]. cbn [inbox supplied delivered dev puts frames]. rewrite !app_nil_r.
    exists gA, gB, cAB, cBA. auto 9.
  - do 2 eexists. split; [reflexivity|]. exists gA, gB, cAB, cBA. cbn [with_dev inbox supplied delivered dev]. auto 9.
  - do 2 eexists. split; [reflexivity|]. exists gA, gB, cAB, cBA. cbn [inbox supplied delivered dev].
    split; [reflexivity|]. split; [reflexivity|]. split; [exact WAB|]. split; [exact WBA|]. split; [|split; [exact JB|split; [exact HAB|exact HBA]]].
    rewrite data_app. apply J_supply; [exact JA|]. destruct gx; [exact Hfit|exact I].
  - destruct (stop_rel _ sA gA None JA) as (s' & g' & -> & HJ & Hm). cbn [rbind]. do 2 eexists. split; [reflexivity|].
    destruct (mvs_sender None gA g' gB cAB cBA delB Hm HAB I) as (HAB' & _).
    pose proof (mvs_receiver None gA g' gB cBA cAB delA Hm HBA) as HBA'. exists g', gB, cAB, cBA. cbn [with_dev inbox supplied delivered dev]. auto 9.
Qed.

Lemma step_inv a b x : inv a b -> fits x -> exists a' b', step (a, b) x = Ok (a', b') /\ inv a' b'.
Proof.
  intros H Hf. destruct x as [[|] t]; cbn [step].
  - apply happen_inv; [exact H|exact Hf].
  - destruct (happen_inv b a t (inv_sym _ _ H) Hf) as (b' & a' & -> & H'). cbn [rbind]. exists a', b'. split; [reflexivity|apply inv_sym; exact H'].
Qed.
Lemma run_inv l : forall a b, inv a b -> Forall fits l -> exists a' b', run (a, b) l = Ok (a', b') /\ inv a' b'.
Proof.
  induction l as [|x l IH]; intros a b H Hf; cbn [run].
  - exists a, b. auto.
  - destruct (step_inv a b x H (Forall_inv Hf)) as (a1 & b1 & -> & H1). cbn [rbind]. apply IH; [exact H1|exact (Forall_inv_tail Hf)].
Qed.

Lemma connected_J s : connected s -> J (data (app s)) s (mkG [] 0 0 0 0 []).
Proof.
  intros (Hst & Hconf & Hcfg & Hlim & Hvs & Hva & Hvr & Hip & Hig & Hia & Hg & Hp & (B1 & B2 & B3 & B4) & Happ & Hrate & Ht & Htf).
  apply RR_J; [|auto]. split.
  - split. { split; [exact B1|]. split; [exact B3|]. split; [exact Hg|]. cbn [gq length]. split; [lia|].
      split; [rewrite Hp, Z.mod_small; lia|]. intros j Hj. lia. }
    split; [constructor|]. split; [split; [exact Hrate|split; [exact Ht|exact Htf]]|]. split; [exact Hcfg|]. split; [exact Hlim|].
    split; [exact Hconf|]. split; [exact B2|]. split; [exact B4|]. split; [exact Happ|]. unfold bnd. cbn. lia.
  - unfold R1. cbn [ga gs gr gD length]. rewrite Hva, Hvs, Hvr, Hip, Hig, Hia.
    do 6 (split; [reflexivity|]). split; [constructor|]. split; [intros i Hi; cbn in Hi; lia|reflexivity].
Qed.
Lemma connected_inv a b : connected a -> connected b -> inv (start a) (start b).
Proof.
  intros Ha Hb. exists (mkG [] 0 0 0 0 []), (mkG [] 0 0 0 0 []), [], []. unfold start. cbn [inbox supplied delivered dev].
  assert (Hh : half (mkG [] 0 0 0 0 []) (mkG [] 0 0 0 0 []) [] [] []).
  { split; [unfold bnd; cbn; lia|]. cbn. split; [lia|]. repeat split; constructor. }
  split; [reflexivity|]. split; [reflexivity|]. split; [constructor|]. split; [constructor|].
  split; [apply connected_J; exact Ha|]. split; [apply connected_J; exact Hb|]. auto.
Qed.

Lemma firstn_prefix {A} n (l : list A) : prefix (firstn n l) l.
Proof. exists (skipn n l). symmetry. apply firstn_skipn. Qed.
Lemma inv_prefix a b : inv a b -> prefix (delivered b) (data (supplied a)) /\ (all_acknowledged a -> delivered b = data (supplied a)).
Proof.
  intros (gA & gB & cAB & cBA & _ & _ & _ & _ & (_ & _ & H1 & Hp) & _ & (Hb & Hr & _ & _ & _ & _ & Hd) & _). split.
  - rewrite Hd. eapply prefix_trans; [apply firstn_prefix|exact Hp].
  - intros (Hst & He & Happ). destruct (H1 Hst) as (_ & _ & _ & Hia & _ & Hip & _ & _ & HT). unfold bnd in Hb.
    assert (E : ga gA = Z.of_nat (length (gD gA))).
    { rewrite Hia, Hip in He. clear - He Hb. Z.div_mod_to_equations; lia. }
    rewrite Happ in HT. cbn [data] in HT. rewrite app_nil_r in HT. rewrite HT, Hd. apply firstn_all2. lia.
Qed.

Lemma link_delivers a b l : connected a -> connected b -> Forall fits l ->
  exists a' b', run (start a, start b) l = Ok (a', b') /\
    prefix (delivered b') (data (supplied a')) /\ prefix (delivered a') (data (supplied b')) /\
    (all_acknowledged a' -> delivered b' = data (supplied a')) /\ (all_acknowledged b' -> delivered a' = data (supplied b')).
Proof.
  intros Ha Hb Hf. destruct (run_inv l _ _ (connected_inv a b Ha Hb) Hf) as (a' & b' & E & HI).
  destruct (inv_prefix a' b' HI) as (P1 & P2). destruct (inv_prefix b' a' (inv_sym _ _ HI)) as (P3 & P4).
  exists a', b'. auto.
Qed.
