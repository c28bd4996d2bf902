(** Whole runs: one thread, and two interleaved threads. *)
From Coq Require Import ZifyBool ZifyNat.
From Verif Require Import Base Queue_model Queue_spec Queue_proofs.

Lemma minv_init c d : 0 < qlen c -> len d = qlen c -> minv c (mkQM 0 0 d) [] 0 [].
Proof.
  intros HL Hd. unfold minv. cbn [data iptr optr]. rewrite len_nil.
  rewrite Z.mod_0_l by lia. repeat split; auto; try lia.
Qed.

(** ---- C18 ---- *)
Lemma fifo_runs c ops : 0 < qlen c -> forall m W R,
  minv c m W R [] -> Forall qvalid ops -> Forall (fun o => is_msg o = false) ops ->
  exists m', runs c ops m = Ok (fifos (qlen c - 1) (ratomic c) (watomic c) ops (drop R W), m').
Proof.
  intros HL. induction ops as [|o t IH]; intros m W R Hm Hv Ho; cbn [runs fifos].
  - eauto.
  - inversion Hv as [|? ? Hv1 Hv2]; subst. inversion Ho as [|? ? Ho1 Ho2]; subst.
    pose proof Hm as (h1 & h2 & h3 & h4 & h5 & h6). rewrite len_nil in h3.
    destruct o as [o|o]; cbn [opcode qvalid] in *.
    + pose proof (writer_safe c HL (fun _ => True) (fun _ => I) o W R h2 ltac:(lia) Hv1
        ltac:(unfold octet_or_query; rewrite Ho1; reflexivity)) as Hs.
      destruct (prun_w c HL _ _ _ _ _ _ _ Hs Hm) as (a & m' & W' & e1 & e2 & e3).
      destruct e3 as (q1 & q2 & q3 & q4 & q5). rewrite e1. cbn [rbind]. rewrite q5.
      destruct (IH m' W' R e2 Hv2 Ho2) as (m2 & E). rewrite E. cbn [rbind]. eauto.
    + pose proof (reader_safe c HL (fun _ => True) o W R h2 Hv1
        ltac:(unfold octet_or_query; rewrite Ho1; reflexivity)) as Hs.
      destruct (prun_r c HL _ _ _ _ _ _ Hs Hm I) as (a & m' & R' & e1 & e2 & e3).
      destruct e3 as (q1 & q2 & q3 & q4 & q5). rewrite e1. cbn [rbind]. rewrite q5.
      destruct (IH m' W R' e2 Hv2 Ho2) as (m2 & E). rewrite E. cbn [rbind]. eauto.
Qed.

Theorem fifo_all cap flags d ops : 0 <= cap -> len d = cap + 1 ->
  Forall qvalid ops -> Forall (fun o => is_msg o = false) ops ->
  let (c, m) := queue_init cap flags d in
  exists m', runs c ops m = Ok (fifos cap (ratomic c) (watomic c) ops [], m').
Proof.
  intros Hc Hd Hv Ho. cbn [queue_init].
  destruct (fifo_runs (mkQC (cap + 1) flags) ops ltac:(cbn; lia) (mkQM 0 0 d) [] 0) as (m' & E); auto.
  - apply minv_init; cbn; lia.
  - cbn [qlen] in E. replace (cap + 1 - 1) with cap in E by lia. rewrite drop_0 in E. eauto.
Qed.

(** ---- the two thread invariant, for any pair of log invariants ---- *)
Section Sys.
Variable c : qconf.
Notation L := (qlen c).
Hypothesis HL : 0 < L.
Variable P : list Z -> Prop.
Variables (wok : wop -> Prop) (rok : rop -> Prop).
Variable Iw : list (wop * qres) -> list Z -> Z -> Prop.
Variable Ir : list (rop * qres) -> list Z -> Z -> Prop.
Hypothesis Iw_call : forall l W R o, Iw l W R -> wok o ->
  wsafe c P (wcode c o) W R [] (fun r W' R' => Iw (l ++ [(o, r)]) W' R').
Hypothesis Ir_call : forall l W R o, Ir l W R -> rok o ->
  rsafe c P (rcode c o) W R (fun r W' R' => Ir (l ++ [(o, r)]) W' R').
Hypothesis wcode_busy : forall o a, wcode c o <> Ret a.
Hypothesis rcode_busy : forall o a, rcode c o <> Ret a.

Definition sinv (s : sys) : Prop :=
  exists Wr X R Rw pend,
    minv c (smem s) (Wr ++ X) R pend /\ P (Wr ++ X) /\ Rw <= R /\
    match wcur s with
    | None => pend = [] /\ Iw (wlog s) (Wr ++ X) Rw
    | Some (o, p) => (forall a, p <> Ret a) /\ (exists R0, Iw (wlog s) (Wr ++ X) R0) /\
        wsafe c P p (Wr ++ X) Rw pend (fun r W' R' => Iw (wlog s ++ [(o, r)]) W' R')
    end /\
    match rcur s with
    | None => Ir (rlog s) Wr R
    | Some (o, p) => (forall a, p <> Ret a) /\ (exists W0 X0 R0, Ir (rlog s) W0 R0 /\ Wr = W0 ++ X0) /\
        rsafe c P p Wr R (fun r W' R' => Ir (rlog s ++ [(o, r)]) W' R')
    end.

Lemma sinv_init m : minv c m [] 0 [] -> P [] -> Iw [] [] 0 -> Ir [] [] 0 -> sinv (sys0 m).
Proof.
  intros. exists [], [], 0, 0, []. cbn [app sys0 smem wcur rcur wlog rlog].
  repeat (split; auto); try lia; apply H.
Qed.

Definition prog_cases (p : prog qres) : (exists a, p = Ret a) \/ (forall a, p <> Ret a).
Proof. destruct p; [left; eauto|right; discriminate..]. Qed.

Lemma sinv_step s s' : sinv s -> step c wok rok s s' -> sinv s'.
Proof.
  intros (Wr & X & R & Rw & pend & hm & hp & hr & hw & hd) Hst.
  destruct Hst as [s o Ew Ho|s o p p' m' Ew Es|s o Er Ho|s o p p' m' Er Es].
  - rewrite Ew in hw. destruct hw as (-> & hi). exists Wr, X, R, Rw, []. cbn [smem wcur rcur wlog rlog].
    repeat (split; eauto).
  - rewrite Ew in hw. destruct hw as (hn & (R0 & h0) & hs).
    destruct (wstep c HL P _ _ _ _ _ _ _ hs hm hr hn) as (q & m2 & W' & Rw' & pend' & e1 & e2 & e3 & e4 & e5).
    rewrite Es in e1. injection e1 as <- <-.
    assert (Hex : exists X', W' = Wr ++ X' /\ P (Wr ++ X')).
    { destruct e5 as [->|(_ & pw & Y & ->)]; [exists X; auto|exists (X ++ Y)].
      rewrite <- app_assoc in pw |- *. auto. }
    destruct Hex as (X' & -> & hp').
    unfold wsettle. destruct (prog_cases p') as [(a & ->)|Hn'].
    + exists Wr, X', R, Rw', []. cbn [smem wcur rcur wlog rlog].
      split; [eapply minv_drop_pend; eassumption|]. split; [assumption|]. split; [assumption|].
      split; [|assumption]. split; [reflexivity|]. exact e2.
    + destruct e5 as [e5|((a & ->) & _)]; [|exfalso; eapply Hn'; reflexivity].
      exists Wr, X', R, Rw', pend'.
      replace (match p' with Ret r => mkSys m' None (wlog s ++ [(o, r)]) (rcur s) (rlog s)
        | _ => mkSys m' (Some (o, p')) (wlog s) (rcur s) (rlog s) end)
        with (mkSys m' (Some (o, p')) (wlog s) (rcur s) (rlog s))
        by (destruct p'; try reflexivity; exfalso; eapply Hn'; reflexivity).
      cbn [smem wcur rcur wlog rlog]. rewrite <- e5 in h0. repeat (split; eauto).
  - rewrite Er in hd. exists Wr, X, R, Rw, pend. cbn [smem wcur rcur wlog rlog].
    split; [assumption|]. split; [assumption|]. split; [assumption|]. split; [assumption|].
    split; [auto|]. split; [|auto].
    exists Wr, [], R. rewrite app_nil_r. auto.
  - rewrite Er in hd. destruct hd as (hn & (W0 & X0 & R0 & h0 & h1) & hs).
    destruct (rstep c HL P _ _ _ _ _ _ _ hs hm hp hn) as (q & m2 & W' & X' & R' & e1 & e2 & e3 & e4 & e5 & e6).
    rewrite Es in e1. injection e1 as <- <-.
    unfold rsettle. destruct (prog_cases p') as [(a & ->)|Hn'].
    + exists W', X', R', Rw, pend. cbn [smem wcur rcur wlog rlog]. rewrite e5 in *.
      split; [assumption|]. split; [assumption|]. split; [lia|]. split; [assumption|]. exact e2.
    + exists W', X', R', Rw, pend. 
      replace (match p' with Ret r => mkSys m' (wcur s) (wlog s) None (rlog s ++ [(o, r)])
        | _ => mkSys m' (wcur s) (wlog s) (Some (o, p')) (rlog s) end)
        with (mkSys m' (wcur s) (wlog s) (Some (o, p')) (rlog s))
        by (destruct p'; try reflexivity; exfalso; eapply Hn'; reflexivity).
      cbn [smem wcur rcur wlog rlog]. rewrite e5 in *.
      split; [assumption|]. split; [assumption|]. split; [lia|]. split; [assumption|].
      split; [assumption|]. split; [|assumption].
      destruct e6 as (Y & ->). exists W0, (X0 ++ Y), R0. subst Wr. rewrite <- app_assoc. auto.
Qed.

Lemma sinv_reach m s : minv c m [] 0 [] -> P [] -> Iw [] [] 0 -> Ir [] [] 0 ->
  reach c wok rok (sys0 m) s -> sinv s.
Proof.
  intros h1 h2 h3 h4 Hr. induction Hr.
  - apply sinv_init; auto.
  - eapply sinv_step; eauto.
Qed.

(** No access is out of bounds, ever. *)
Lemma sinv_safe s : sinv s ->
  (forall o p, wcur s = Some (o, p) -> astep p (smem s) <> UB) /\
  (forall o p, rcur s = Some (o, p) -> astep p (smem s) <> UB).
Proof.
  intros (Wr & X & R & Rw & pend & hm & hp & hr & hw & hd). split; intros o p E; rewrite E in *.
  - destruct hw as (hn & _ & hs).
    destruct (wstep c HL P _ _ _ _ _ _ _ hs hm hr hn) as (q & m2 & W' & Rw' & pend' & e1 & _).
    rewrite e1. discriminate.
  - destruct hd as (hn & _ & hs).
    destruct (rstep c HL P _ _ _ _ _ _ _ hs hm hp hn) as (q & m2 & W' & X' & R' & e1 & _).
    rewrite e1. discriminate.
Qed.

End Sys.

Lemma wcode_busy c o a : wcode c o <> Ret a.
Proof. destruct o; discriminate. Qed.
Lemma rcode_busy c o a : rcode c o <> Ret a.
Proof. destruct o; discriminate. Qed.

(** ---- C20, octets ---- *)
Lemma snoc_split {A} (l l1 l2 : list A) e a b : l ++ [e] = l1 ++ a :: b :: l2 ->
  (l2 = [] /\ l = l1 ++ [a] /\ b = e) \/ (exists l3, l2 = l3 ++ [e] /\ l = l1 ++ a :: b :: l3).
Proof.
  intros H. destruct l2 as [|x l2] using rev_ind.
  - left. replace (l1 ++ [a; b]) with ((l1 ++ [a]) ++ [b]) in H by (rewrite <- app_assoc; reflexivity).
    apply app_inj_tail in H. destruct H; subst; auto.
  - right. exists l2. replace (l1 ++ a :: b :: l2 ++ [x]) with ((l1 ++ a :: b :: l2) ++ [x]) in H
      by (rewrite <- app_assoc; reflexivity).
    apply app_inj_tail in H. destruct H; subst; auto.
Qed.
Lemma snoc_last {A} (l l1 : list A) e a : l ++ [e] = l1 ++ [a] -> e = a.
Proof. intros H. apply app_inj_tail in H. tauto. Qed.

Lemma room_honest_snoc l o r : room_honest l ->
  (forall l' n x, l = l' ++ [(WFree, (n, x))] -> fits o n -> fst r = full o) ->
  room_honest (l ++ [(o, r)]).
Proof.
  intros H Hl l1 l2 n x o' r' y E Hf. apply snoc_split in E. destruct E as [(-> & -> & E)|(l3 & -> & ->)].
  - injection E as <- <-. apply (Hl l1 n x eq_refl Hf).
  - eapply H; eauto.
Qed.
Lemma contents_honest_snoc l o r : contents_honest l ->
  (forall l' n x k, l = l' ++ [(RContents, (n, x))] -> o = RRead k \/ o = RDiscard k \/ o = RView k ->
     k <= n -> fst r = k) ->
  contents_honest (l ++ [(o, r)]).
Proof.
  intros H Hl l1 l2 n x o' k r' y E Ho Hk. apply snoc_split in E. destruct E as [(-> & -> & E)|(l3 & -> & ->)].
  - injection E as <- <-. apply (Hl l1 n x k eq_refl Ho Hk).
  - eapply H; eauto.
Qed.
Lemma room_honest_nil : room_honest [].
Proof. intros l1 l2 n x o r y E. destruct l1; discriminate. Qed.
Lemma contents_honest_nil : contents_honest [].
Proof. intros l1 l2 n x o k r y E. destruct l1; discriminate. Qed.

Lemma delivers_more l s rest x : delivers l s rest -> delivers l (s ++ x) (rest ++ x).
Proof.
  induction 1; rewrite <- ?app_assoc in *; try (econstructor; eauto; fail).
Qed.
Lemma accepted_snoc l e : accepted (l ++ [e]) = accepted l ++ accepted1 e.
Proof. unfold accepted. rewrite flat_map_app. cbn [flat_map]. rewrite app_nil_r. reflexivity. Qed.

Lemma dl_read' l s n k q : delivers l s q -> 0 <= k <= len q -> k <= n ->
  delivers (l ++ [(RRead n, (k, take k q))]) s (drop k q).
Proof.
  intros H Hk Hn. pose proof (dl_read l s n (take k q) (drop k q)) as D.
  rewrite take_drop, len_take in D by lia. auto.
Qed.
Lemma dl_discard' l s n k q : delivers l s q -> 0 <= k <= len q -> k <= n ->
  delivers (l ++ [(RDiscard n, (k, []))]) s (drop k q).
Proof.
  intros H Hk Hn. pose proof (dl_discard l s n (take k q) (drop k q)) as D.
  rewrite take_drop, len_take in D by lia. auto.
Qed.
Lemma dl_view' l s n k q : delivers l s q -> 0 <= k <= len q -> k <= n ->
  delivers (l ++ [(RView n, (k, take k q))]) s q.
Proof.
  intros H Hk Hn. pose proof (dl_view l s n (take k q) (drop k q)) as D.
  rewrite take_drop, len_take in D by lia. auto.
Qed.

Section Octets.
Variable c : qconf.
Notation L := (qlen c).
Hypothesis HL : 0 < L.
Notation TT := (fun _ : list Z => True).

Definition Iw (l : list (wop * qres)) (W : list Z) (R : Z) : Prop :=
  0 <= R <= len W /\ len W - R <= L - 1 /\ accepted l = W /\ room_honest l /\
  forall l' n x, l = l' ++ [(WFree, (n, x))] -> n <= L - 1 - (len W - R).
Definition Ir (l : list (rop * qres)) (W : list Z) (R : Z) : Prop :=
  0 <= R <= len W /\ delivers l W (drop R W) /\ contents_honest l /\
  forall l' n x, l = l' ++ [(RContents, (n, x))] -> n <= len W - R.

Lemma Iw_call l W R o : Iw l W R -> wok_octet o ->
  wsafe c TT (wcode c o) W R [] (fun r W' R' => Iw (l ++ [(o, r)]) W' R').
Proof.
  intros (h1 & h2 & h3 & h4 & h5) (Hv & Ho).
  eapply wsafe_mono; [|apply (writer_safe c HL TT (fun _ => I) o W R h1 h2 Hv);
    unfold octet_or_query; rewrite Ho; reflexivity].
  intros r W' R' (q1 & q2 & q3 & q4 & q5).
  assert (Hl : len W <= len W') by (rewrite q4, len_app; pose proof (len_pos (accepted1 (o, r))); lia).
  unfold Iw. split; [lia|]. split; [lia|]. split; [rewrite accepted_snoc, h3; auto|].
  split.
  - apply room_honest_snoc; auto. intros l' n x E Hf. specialize (h5 _ _ _ E).
    destruct o; cbn [fits full] in *; try discriminate Ho; try contradiction; cbn [fifo] in q5;
      rewrite len_drop in q5 by lia.
    + unfold amount in q5. destruct (Z.ltb_spec (L - 1 - (len W - R')) sz); [lia|].
      injection q5 as <- _. reflexivity.
    + destruct (Z.eqb_spec (L - 1 - (len W - R')) 0); [lia|]. injection q5 as <- _. reflexivity.
  - intros l' n x E. apply snoc_last in E. injection E as -> ->.
    cbn [fifo] in q5. rewrite len_drop in q5 by lia. injection q5 as E1 E2.
    cbn [accepted1] in q4. rewrite app_nil_r in q4. subst W'. lia.
Qed.

Lemma Ir_call l W R o : Ir l W R -> rok_octet o ->
  rsafe c TT (rcode c o) W R (fun r W' R' => Ir (l ++ [(o, r)]) W' R').
Proof.
  intros (h1 & h2 & h3 & h4) (Hv & Ho).
  assert (Hq : octet_or_query (inr o) = true) by (unfold octet_or_query; rewrite Ho; reflexivity).
  eapply (rsafe_mono c HL); [|exact (reader_safe c HL TT o W R h1 Hv Hq)].
  intros r W' R' ((X & q0) & _ & q2 & q3 & q4).
  pose proof (len_pos X).
  assert (Hl : len W' = len W + len X) by (rewrite q0, len_app; lia).
  assert (hd : delivers l W' (drop R W')).
  { rewrite q0. rewrite drop_app by lia. apply delivers_more. assumption. }
  assert (hk : forall k, 0 <= k <= len W' - R -> len (take k (drop R W')) = k).
  { intros k Hk. apply len_take. rewrite len_drop; lia. }
  assert (hs : forall k, take k (drop R W') ++ drop k (drop R W') = drop R W') by (intros; apply take_drop).
  unfold Ir. split; [lia|]. split; [|split].
  - destruct o; try discriminate Ho; cbn [fifo rvalid] in *; rewrite ?len_drop in q4 by lia.
    + unfold amount in q4. destruct (Z.ltb_spec (len W' - R) sz).
      * destruct (ratomic c); injection q4 as <- <-; [constructor; assumption|].
        apply dl_read'; auto; rewrite ?len_drop; lia.
      * injection q4 as <- <-. apply dl_read'; auto; rewrite ?len_drop; lia.
    + unfold amount in q4. destruct (Z.ltb_spec (len W' - R) sz).
      * destruct (ratomic c); injection q4 as <- <-; [constructor; assumption|].
        apply dl_discard'; auto; rewrite ?len_drop; lia.
      * injection q4 as <- <-. apply dl_discard'; auto; rewrite ?len_drop; lia.
    + unfold amount in q4. destruct (Z.ltb_spec (len W' - R) sz).
      * destruct (ratomic c); injection q4 as <- <-; [constructor; assumption|].
        apply dl_view'; auto; rewrite ?len_drop; lia.
      * injection q4 as <- <-. apply dl_view'; auto; rewrite ?len_drop; lia.
    + destruct (drop R W') as [|b t] eqn:E; injection q4 as <- <-; constructor; assumption.
    + injection q4 as <- <-. apply dl_flush with (bs := drop R W'). rewrite app_nil_r. assumption.
    + injection q4 as <- <-. apply dl_query; auto.
    + injection q4 as <- <-. apply dl_query; auto.
    + injection q4 as <- <-. apply dl_query; auto.
  - apply contents_honest_snoc; auto. intros l' n x k E Hk Hn. specialize (h4 _ _ _ E).
    destruct Hk as [->|[->| ->]]; cbn [fifo rvalid] in *; rewrite len_drop in q4 by lia;
      unfold amount in q4; (destruct (Z.ltb_spec (len W' - R) k); [lia|]); injection q4 as <- _; reflexivity.
  - intros l' n x E. apply snoc_last in E. injection E as -> ->.
    cbn [fifo] in q4. rewrite len_drop in q4 by lia. injection q4 as E1 E2.
    assert (E3 : len (drop R W') = len (drop R' W')) by congruence.
    rewrite !len_drop in E3 by lia. lia.
Qed.

Theorem spsc_octets m s : minv c m [] 0 [] -> reach c wok_octet rok_octet (sys0 m) s ->
  (forall o p, wcur s = Some (o, p) -> astep p (smem s) <> UB) /\
  (forall o p, rcur s = Some (o, p) -> astep p (smem s) <> UB) /\
  (exists rest, delivers (rlog s) (accepted (wlog s)) rest) /\
  room_honest (wlog s) /\ contents_honest (rlog s).
Proof.
  intros Hm Hr.
  assert (Hi : sinv c TT Iw Ir s).
  { eapply sinv_reach; eauto.
    - apply Iw_call.
    - apply Ir_call.
    - intros; apply wcode_busy.
    - intros; apply rcode_busy.
    - unfold Iw. rewrite len_nil. repeat split; try lia. apply room_honest_nil.
      intros l' n x E. destruct l'; discriminate.
    - unfold Ir. rewrite len_nil. repeat split; try lia. constructor. apply contents_honest_nil.
      intros l' n x E. destruct l'; discriminate. }
  pose proof (sinv_safe c HL TT Iw Ir s Hi) as (s1 & s2). split; [exact s1|]. split; [exact s2|].
  destruct Hi as (Wr & X & R & Rw & pend & hm & hp & hr & hw & hd).
  assert (Hw : exists R0, Iw (wlog s) (Wr ++ X) R0).
  { destruct (wcur s) as [[o p]|]; [tauto|destruct hw; eauto]. }
  assert (Hd : exists W0 X0 R0, Ir (rlog s) W0 R0 /\ Wr = W0 ++ X0).
  { destruct (rcur s) as [[o p]|]; [tauto|]. exists Wr, [], R. rewrite app_nil_r. auto. }
  destruct Hw as (R0 & _ & _ & g3 & g4 & _). destruct Hd as (W0 & X0 & R1 & (_ & k2 & k3 & _) & ->).
  split; [|auto]. rewrite g3, <- app_assoc. exists (drop R1 W0 ++ X0 ++ X). apply delivers_more. assumption.
Qed.
End Octets.
