From Coq Require Import ZifyBool ZifyNat.
From Verif Require Import Base Sched_model Sched_spec.

Definition look (s : sched_state) (i : Z) : option (Z * Z) :=
  if (0 <=? i) && (i <? max_to_date s) then
    let x := nth (Z.to_nat i) (sched s) garbage in
    match callback x with Some t => Some (when x, t) | None => None end
  else None.

Definition BIG : Z := 18446744073709551616.
Record SI (s : sched_state) (log : list entry) : Prop := {
  si_clock : ticker s = clock log;
  si_range : 0 <= clock log;
  si_big : clock log + 2147483648 <= BIG;
  si_max : 0 <= max_to_date s <= Z.of_nat (length (sched s));
  si_look : forall i, pending log i = look s i;
  si_ok : log_ok log;
  si_when : forall i w tag, pending log i = Some (w, tag) -> w < BIG
}.

Lemma sget_ok s i : 0 <= max_to_date s <= Z.of_nat (length (sched s)) -> 0 <= i < max_to_date s ->
  sget (sched s) i = Ok (nth (Z.to_nat i) (sched s) garbage).
Proof. intros. unfold sget. replace ((0 <=? i) && (i <? Z.of_nat (length (sched s)))) with true by lia. reflexivity. Qed.

Lemma find_free_ok s : 0 <= max_to_date s <= Z.of_nat (length (sched s)) ->
  forall fuel i, 0 <= i <= max_to_date s -> Z.of_nat fuel >= max_to_date s - i ->
  exists j, find_free fuel i s = Ok j /\ i <= j <= max_to_date s /\ look s j = None.
Proof.
  intros Hm. induction fuel as [|f IH]; intros i Hi Hf; cbn [find_free].
  - exists i. split; [reflexivity|]. split; [lia|]. unfold look. replace ((0 <=? i) && (i <? max_to_date s)) with false by lia. reflexivity.
  - destruct (Z.ltb_spec i (max_to_date s)).
    + rewrite sget_ok by lia. cbn [rbind].
      destruct (callback (nth (Z.to_nat i) (sched s) garbage)) eqn:E.
      * destruct (IH (i + 1)) as (j & e1 & e2 & e3); try lia. exists j. split; [assumption|]. split; [lia|assumption].
      * exists i. split; [reflexivity|]. split; [lia|]. unfold look.
        replace ((0 <=? i) && (i <? max_to_date s)) with true by lia. cbv zeta. rewrite E. reflexivity.
    + exists i. split; [reflexivity|]. split; [lia|]. unfold look. replace ((0 <=? i) && (i <? max_to_date s)) with false by lia. reflexivity.
Qed.

Lemma nth_app_garbage l i : nth i (l ++ repeat garbage 5) garbage = nth i l garbage.
Proof.
  destruct (Nat.lt_ge_cases i (length l)).
  - apply app_nth1. assumption.
  - rewrite app_nth2 by lia. rewrite (nth_overflow l) by lia.
    destruct (i - length l)%nat as [|[|[|[|[|[|]]]]]]; reflexivity.
Qed.

Lemma event_ok us tag s log : us_ok us -> SI s log ->
  exists i s', span_schedule_event us tag s = Ok (i, s') /\ SI s' (EAdd i us tag :: log).
Proof.
  intros Hu [h1 h2 h3 h4 h5 h6 h7]. unfold span_schedule_event.
  destruct (find_free_ok s h4 (Z.to_nat (max_to_date s)) 0 ltac:(lia) ltac:(lia)) as (i & e1 & e2 & e3).
  rewrite e1. cbn [rbind]. cbv zeta.
  set (l := if Z.of_nat (length (sched s)) <=? i then sched s ++ repeat garbage 5 else sched s).
  set (m := if max_to_date s <=? i then i + 1 else max_to_date s).
  assert (Hl : i < Z.of_nat (length l) /\ Z.of_nat (length (sched s)) <= Z.of_nat (length l)).
  { unfold l. destruct (Z.leb_spec (Z.of_nat (length (sched s))) i); [rewrite app_length; cbn [repeat length]|]; lia. }
  assert (Hn : forall k, nth k l garbage = nth k (sched s) garbage).
  { intros k. unfold l. destruct (Z.of_nat (length (sched s)) <=? i); [apply nth_app_garbage|reflexivity]. }
  assert (Hm : m <= Z.of_nat (length l) /\ max_to_date s <= m /\ i < m /\ (m = max_to_date s \/ (m = i + 1 /\ i = max_to_date s))).
  { unfold m. destruct (Z.leb_spec (max_to_date s) i); lia. }
  unfold sset. replace ((0 <=? i) && (i <? Z.of_nat (length l))) with true by lia. cbn [rbind].
  eexists i, _. split; [reflexivity|].
  constructor; cbn [ticker max_to_date sched clock pending log_ok entry_ok]; auto.
  - rewrite upd_length. lia.
  - intros j. unfold look. cbn [max_to_date sched]. destruct (Z.eqb_spec j i) as [->|Hne].
    + replace ((0 <=? i) && (i <? m)) with true by lia. rewrite nth_upd_same by lia. cbn [callback when].
      f_equal. f_equal. rewrite h1. unfold u64. unfold us_ok, BIG in *. rewrite Z.mod_small by lia. reflexivity.
    + rewrite h5. unfold look.
      destruct ((0 <=? j) && (j <? max_to_date s)) eqn:Ej.
      * replace ((0 <=? j) && (j <? m)) with true by lia. rewrite nth_upd_other by lia. rewrite Hn. reflexivity.
      * replace ((0 <=? j) && (j <? m)) with false by lia. reflexivity.
  - split; [|assumption]. split; [lia|]. rewrite h5. assumption.
  - intros j w t H. destruct (j =? i); [|eapply h7; eassumption]. injection H as <- _. unfold us_ok in Hu. lia.
Qed.

Lemma del_ok i s log : SI s log ->
  exists f s', span_schedule_del i s = Ok (f, s') /\ SI s' (EDel i f :: log) /\ max_to_date s' = max_to_date s.
Proof.
  intros HS. pose proof HS as [h1 h2 h3 h4 h5 h6 h7]. unfold span_schedule_del.
  destruct ((max_to_date s <=? i) || (i <? 0)) eqn:E.
  - assert (Hno : look s i = None) by (unfold look; replace ((0 <=? i) && (i <? max_to_date s)) with false by lia; reflexivity).
    exists false, s. split; [reflexivity|]. split; [|reflexivity]. constructor; cbn [clock pending log_ok entry_ok]; auto.
    + intros j. destruct (Z.eqb_spec j i) as [->|]; auto.
    + split; [rewrite h5|]; assumption.
    + intros j w t H. destruct (j =? i); [discriminate|eapply h7; eassumption].
  - rewrite sget_ok by lia. cbn [rbind].
    destruct (callback (nth (Z.to_nat i) (sched s) garbage)) eqn:Ec.
    + unfold sset. replace ((0 <=? i) && (i <? Z.of_nat (length (sched s)))) with true by lia. cbn [rbind].
      eexists true, _. split; [reflexivity|]. split; [|reflexivity].
      constructor; cbn [ticker max_to_date sched clock pending log_ok entry_ok]; auto.
      * rewrite upd_length. lia.
      * intros j. unfold look. cbn [max_to_date sched]. destruct (Z.eqb_spec j i) as [->|Hne].
        -- rewrite nth_upd_same by lia. cbn [callback]. destruct ((0 <=? i) && (i <? max_to_date s)); reflexivity.
        -- rewrite h5. unfold look.
           destruct ((0 <=? j) && (j <? max_to_date s)) eqn:Ej; [|reflexivity].
           rewrite nth_upd_other by lia. reflexivity.
      * split; [|assumption]. rewrite h5. unfold look.
        replace ((0 <=? i) && (i <? max_to_date s)) with true by lia. cbv zeta. rewrite Ec. discriminate.
      * intros j w t H. destruct (j =? i); [discriminate|eapply h7; eassumption].
    + assert (Hno : look s i = None).
      { unfold look. replace ((0 <=? i) && (i <? max_to_date s)) with true by lia. cbv zeta. rewrite Ec. reflexivity. }
      exists false, s. split; [reflexivity|]. split; [|reflexivity]. constructor; cbn [clock pending log_ok entry_ok]; auto.
      * intros j. destruct (Z.eqb_spec j i) as [->|]; auto.
      * split; [rewrite h5|]; assumption.
      * intros j w t H. destruct (j =? i); [discriminate|eapply h7; eassumption].
Qed.

Lemma next_loop_ok s : 0 <= max_to_date s <= Z.of_nat (length (sched s)) ->
  forall fuel i e, 0 <= i <= max_to_date s -> Z.of_nat fuel >= max_to_date s - i ->
  exists v, next_loop fuel i e s = Ok v /\ v <= e /\
    (v = e \/ exists j tag, look s j = Some (v, tag)) /\
    (forall j w tag, i <= j -> look s j = Some (w, tag) -> v <= w).
Proof.
  intros Hm. induction fuel as [|f IH]; intros i e Hi Hf; cbn [next_loop].
  - exists e. repeat split; auto; try lia. intros j w tag Hj. unfold look.
    replace ((0 <=? j) && (j <? max_to_date s)) with false by lia. discriminate.
  - destruct (Z.ltb_spec i (max_to_date s)).
    + rewrite sget_ok by lia. cbn [rbind].
      set (x := nth (Z.to_nat i) (sched s) garbage).
      set (e' := match callback x with Some _ => if when x <? e then when x else e | None => e end).
      destruct (IH (i + 1) e') as (v & g1 & g2 & g3 & g4); try lia.
      exists v. split; [assumption|].
      assert (Hlook : look s i = match callback x with Some t => Some (when x, t) | None => None end).
      { unfold look. replace ((0 <=? i) && (i <? max_to_date s)) with true by lia. reflexivity. }
      assert (He : e' <= e) by (unfold e'; destruct (callback x); [destruct (Z.ltb_spec (when x) e)|]; lia).
      split; [lia|]. split.
      * destruct g3 as [->|g3]; [|right; assumption]. unfold e' in *. destruct (callback x) eqn:Ec; [|left; reflexivity].
        destruct (Z.ltb_spec (when x) e); [right; eauto|left; reflexivity].
      * intros j w tag Hj Hl. destruct (Z.eq_dec i j) as [<-|].
        -- rewrite Hlook in Hl. unfold e' in *. destruct (callback x) as [t|]; [|discriminate]. injection Hl as <- <-.
           destruct (Z.ltb_spec (when x) e); lia.
        -- eapply g4; [|eassumption]. lia.
    + exists e. repeat split; auto; try lia. intros j w tag Hj. unfold look.
      replace ((0 <=? j) && (j <? max_to_date s)) with false by lia. discriminate.
Qed.

(** What a callback (or the application) can change while the clock stands still. *)
Definition same_or_new (log log' : list entry) : Prop :=
  clock log' = clock log /\ updating log' = updating log /\
  forall i w tag, pending log' i = Some (w, tag) ->
    (pending log i = Some (w, tag) /\ added_during log' i = added_during log i) \/ added_during log' i = true.
Lemma same_refl log : same_or_new log log.
Proof. repeat split; auto. Qed.
Lemma same_trans a b c : same_or_new a b -> same_or_new b c -> 
  (forall i, added_during b i = true -> added_during c i = true) -> same_or_new a c.
Proof.
  intros (p1 & p2 & p3) (q1 & q2 & q3) Hm. split; [congruence|]. split; [congruence|].
  intros i w tag H. destruct (q3 _ _ _ H) as [(H1 & E)|E]; [|right; assumption].
  destruct (p3 _ _ _ H1) as [(H2 & E2)|E2]; [left; split; [assumption|congruence]|right; auto].
Qed.

Lemma do_cmd_ok c : cmd_ok c -> forall s log, SI s log -> 
  exists s' log', do_cmd c s log = Ok (s', log') /\ SI s' log' /\ same_or_new log log' /\
    (forall i, added_during log i = true -> added_during log' i = true).
Proof.
  induction c as [|us tag k IH|i k IH|k IH|k IH]; cbn [cmd_ok]; intros Hc s log HS; cbn [do_cmd].
  - exists s, log. split; [reflexivity|]. split; [assumption|]. split; [apply same_refl|auto].
  - destruct Hc as (Hu & Hk). destruct (event_ok us tag s log Hu HS) as (i & s1 & e1 & e2).
    rewrite e1. cbn [rbind]. destruct (IH i (Hk i) s1 _ e2) as (s' & log' & f1 & f2 & f3 & f4).
    exists s', log'. split; [assumption|]. split; [assumption|].
    assert (Hm : forall j, added_during (EAdd i us tag :: log) j = true -> added_during log' j = true) by auto.
    split.
    + eapply same_trans; [|exact f3|exact Hm].
      split; [reflexivity|]. split; [reflexivity|]. intros j w t H. cbn [pending added_during] in *.
      destruct (j =? i); [right; reflexivity|left; split; auto].
    + intros j Hj. apply Hm. cbn [added_during]. rewrite Hj. apply orb_true_r.
  - destruct (del_ok i s log HS) as (f & s1 & e1 & e2 & _). rewrite e1. cbn [rbind].
    destruct (IH Hc s1 _ e2) as (s' & log' & f1 & f2 & f3 & f4).
    exists s', log'. split; [assumption|]. split; [assumption|]. split; [|auto].
    eapply same_trans; [|exact f3|exact f4].
    split; [reflexivity|]. split; [reflexivity|]. intros j w t H. cbn [pending added_during] in *.
    destruct (j =? i); [discriminate|left; auto].
  - pose proof HS as [h1 h2 h3 h4 h5 h6 h7].
    unfold span_schedule_next.
    destruct (next_loop_ok s h4 (Z.to_nat (max_to_date s)) 0 18446744073709551615 ltac:(lia) ltac:(lia))
      as (v & g1 & g2 & g3 & g4). rewrite g1. cbn [rbind].
    assert (HS' : SI s (ENext v :: log)).
    { constructor; cbn [clock pending log_ok entry_ok]; auto. split; [|assumption].
      assert (Hall : forall i w t, pending log i = Some (w, t) -> v <= w).
      { intros i w t. rewrite h5. intros H. eapply g4; [|eassumption]. unfold look in H.
        destruct ((0 <=? i) && (i <? max_to_date s)) eqn:E; [lia|discriminate]. }
      split; [|assumption]. destruct g3 as [->|(j & t & g3)].
      - assert (Hx : forall n, (forall i, 0 <= i < Z.of_nat n -> look s i = None) \/
                     exists i w t, look s i = Some (w, t)).
        { induction n as [|n IHn]; [left; lia|]. destruct IHn as [H|H]; [|right; assumption].
          destruct (look s (Z.of_nat n)) as [[w t]|] eqn:E; [right; eauto|left].
          intros i Hi. destruct (Z.eq_dec i (Z.of_nat n)) as [->|]; auto. apply H. lia. }
        destruct (Hx (Z.to_nat (max_to_date s))) as [H|(i & w & t & H)].
        + left. split; [reflexivity|]. intros i. rewrite h5. destruct (Z_lt_dec i (max_to_date s)).
          * destruct (Z_lt_dec i 0); [|apply H; lia]. unfold look.
            replace ((0 <=? i) && (i <? max_to_date s)) with false by lia. reflexivity.
          * unfold look. replace ((0 <=? i) && (i <? max_to_date s)) with false by lia. reflexivity.
        + right. exists i, t. rewrite h5, H. rewrite <- h5 in H. pose proof (Hall _ _ _ H). pose proof (h7 _ _ _ H).
          unfold BIG in *. repeat f_equal. lia.
      - right. exists j, t. rewrite h5. assumption. }
    destruct (IH v (Hc v) s _ HS') as (s' & log' & f1 & f2 & f3 & f4).
    exists s', log'. split; [assumption|]. split; [assumption|]. split; [|auto].
    eapply same_trans; [|exact f3|exact f4]. repeat split; auto.
  - assert (HS' : SI s (ETime (span_schedule_time s) :: log)).
    { destruct HS as [h1 h2 h3 h4 h5 h6 h7]. constructor; cbn [clock pending log_ok entry_ok]; auto. }
    destruct (IH (span_schedule_time s) (Hc _) s _ HS') as (s' & log' & f1 & f2 & f3 & f4).
    exists s', log'. split; [assumption|]. split; [assumption|]. split; [|auto].
    eapply same_trans; [|exact f3|exact f4]. repeat split; auto.
Qed.

Section Run.
Variable body : list entry -> Z -> cmd.
Hypothesis body_ok : forall log tag, cmd_ok (body log tag).

Lemma fire_ok i s log tag : SI s log -> 0 <= i < max_to_date s -> updating log = true ->
  callback (nth (Z.to_nat i) (sched s) garbage) = Some tag ->
  when (nth (Z.to_nat i) (sched s) garbage) <= ticker s ->
  SI (mkSched (ticker s) (max_to_date s)
       (upd (sched s) (Z.to_nat i) (mkSlot (when (nth (Z.to_nat i) (sched s) garbage)) None)))
     (EFire i tag :: log).
Proof.
  intros [h1 h2 h3 h4 h5 h6 h7] Hi Hu Hc Hw.
  constructor; cbn [ticker max_to_date sched clock pending log_ok entry_ok]; auto.
  - rewrite upd_length. lia.
  - intros j. unfold look. cbn [max_to_date sched]. destruct (Z.eqb_spec j i) as [->|Hne].
    + rewrite nth_upd_same by lia. cbn [callback]. destruct ((0 <=? i) && (i <? max_to_date s)); reflexivity.
    + rewrite h5. unfold look. destruct ((0 <=? j) && (j <? max_to_date s)) eqn:Ej; [|reflexivity].
      rewrite nth_upd_other by lia. reflexivity.
  - split; [|assumption]. split; [assumption|].
    exists (when (nth (Z.to_nat i) (sched s) garbage)). split; [|lia].
    rewrite h5. unfold look. replace ((0 <=? i) && (i <? max_to_date s)) with true by lia. cbv zeta.
    rewrite Hc. reflexivity.
  - intros j w t H. destruct (j =? i); [discriminate|eapply h7; eassumption].
Qed.

(** What the loop has dealt with so far. *)
Definition swept (i : Z) (log : list entry) : Prop :=
  forall j w tag, j < i -> pending log j = Some (w, tag) -> added_during log j = false -> clock log < w.

Lemma update_loop_ok fuel : forall i s log, SI s log -> 0 <= i -> updating log = true -> swept i log ->
  exists fin s' log', update_loop body fuel i s log = Ok (fin, s', log') /\ SI s' log' /\ clock log' = clock log.
Proof.
  induction fuel as [|f IH]; intros i s log HS Hi Hu Hsw; cbn [update_loop].
  - exists false, s, log. auto.
  - pose proof HS as [h1 h2 h3 h4 h5 h6 h7]. destruct (Z.ltb_spec i (max_to_date s)) as [Hlt|Hge].
    + rewrite sget_ok by lia. cbn [rbind].
      destruct (callback (nth (Z.to_nat i) (sched s) garbage)) as [tag|] eqn:Ec.
      * destruct (Z.leb_spec (when (nth (Z.to_nat i) (sched s) garbage)) (ticker s)) as [Hw|Hw].
        -- unfold sset. replace ((0 <=? i) && (i <? Z.of_nat (length (sched s)))) with true by lia. cbn [rbind].
           pose proof (fire_ok i s log tag HS ltac:(lia) Hu Ec Hw) as HF.
           destruct (do_cmd_ok _ (body_ok (EFire i tag :: log) tag) _ _ HF) as (s1 & log1 & e1 & e2 & (e3 & e3' & e4) & e5).
           rewrite e1. cbn [rbind].
           destruct (IH (i + 1) s1 log1) as (fin & s' & log' & g1 & g2 & g3); auto; try lia.
           ++ rewrite e3'. exact Hu.
           ++ intros j w t Hj Hp Ha. destruct (e4 _ _ _ Hp) as [(H1 & H2)|H2]; [|congruence].
              cbn [pending added_during] in H1, H2. rewrite e3. cbn [clock].
              destruct (Z.eqb_spec j i); [discriminate|]. apply (Hsw j w t); [lia|assumption|congruence].
           ++ exists fin, s', log'. split; [assumption|]. split; [assumption|]. rewrite g3, e3. reflexivity.
        -- apply IH; auto; [lia|]. intros j w t Hj Hp Ha. destruct (Z.eq_dec j i) as [->|]; [|apply (Hsw j w t); auto; lia].
           rewrite h5 in Hp. unfold look in Hp.
           replace ((0 <=? i) && (i <? max_to_date s)) with true in Hp by lia. cbv zeta in Hp. rewrite Ec in Hp.
           injection Hp as <- _. lia.
      * apply IH; auto; [lia|]. intros j w t Hj Hp Ha. destruct (Z.eq_dec j i) as [->|]; [|apply (Hsw j w t); auto; lia].
        rewrite h5 in Hp. unfold look in Hp.
        replace ((0 <=? i) && (i <? max_to_date s)) with true in Hp by lia. cbv zeta in Hp. rewrite Ec in Hp. discriminate.
    + exists true, s, (EEnd :: log). split; [reflexivity|]. split; [|reflexivity].
      constructor; cbn [clock pending log_ok entry_ok]; auto. split; [|assumption].
      intros j w t Hp Ha. apply (Hsw j w t); auto.
      rewrite h5 in Hp. unfold look in Hp. destruct ((0 <=? j) && (j <? max_to_date s)) eqn:E; [lia|discriminate].
Qed.

Lemma total_nonneg ops : Forall op_ok ops -> 0 <= total ops.
Proof. induction 1 as [|[c|us] t]; cbn [total]; try lia. unfold op_ok, us_ok in H. lia. Qed.

Lemma sruns_ok fuel ops : Forall op_ok ops -> forall s log, SI s log -> 
  clock log + total ops + 2147483648 <= BIG ->
  exists fin s' log', sruns body fuel ops s log = Ok (fin, s', log') /\ log_ok log'.
Proof.
  induction 1 as [|o t Ho Ht IH]; intros s log HS Htot; cbn [sruns].
  - exists true, s, log. split; [reflexivity|]. apply HS.
  - pose proof (total_nonneg t Ht). destruct o as [c|us]; cbn [op_ok total] in *.
    + destruct (do_cmd_ok c Ho s log HS) as (s1 & log1 & e1 & e2 & (e3 & _) & _). rewrite e1. cbn [rbind].
      apply IH; auto. lia.
    + unfold span_schedule_update.
      assert (HS0 : SI (mkSched (u64 (ticker s + us)) (max_to_date s) (sched s)) (EUpd us :: log)).
      { destruct HS as [h1 h2 h3 h4 h5 h6 h7]. unfold us_ok, BIG in *.
        constructor; cbn [ticker max_to_date sched clock pending log_ok entry_ok]; auto; try (unfold BIG; lia).
        unfold u64. rewrite Z.mod_small; lia. }
      destruct (update_loop_ok fuel 0 _ _ HS0) as (fin & s1 & log1 & e1 & e2 & e3); try lia; try reflexivity.
      { intros j w t0 Hj Hp _. rewrite (si_look _ _ HS0) in Hp. unfold look in Hp.
        destruct ((0 <=? j) && _) eqn:E in Hp; [lia|discriminate]. }
      rewrite e1. cbn [rbind]. destruct fin.
      * apply IH; auto. rewrite e3. cbn [clock]. lia.
      * exists false, s1, log1. split; [reflexivity|]. apply e2.
Qed.

Theorem sched_main fuel ops : Forall op_ok ops -> total ops + 2147483648 <= 18446744073709551616 ->
  exists fin s' log', sruns body fuel ops span_schedule_init [] = Ok (fin, s', log') /\ log_ok log'.
Proof.
  intros Ho Ht. apply sruns_ok; auto.
  constructor; cbn; try lia; auto.
  - unfold BIG; lia.
  - intros i. unfold look. cbn [max_to_date span_schedule_init].
    destruct ((0 <=? i) && (i <? 0)) eqn:E; [lia|reflexivity].
  - discriminate.
Qed.

(** ---- termination ---- *)
Lemma fuel_more f : forall k i s log s' log', update_loop body f i s log = Ok (true, s', log') ->
  update_loop body (f + k) i s log = Ok (true, s', log').
Proof.
  induction f as [|f IH]; intros k i s log s' log' H; [discriminate|]. cbn [update_loop plus] in *.
  destruct (i <? max_to_date s); [|assumption].
  destruct (sget (sched s) i) as [x|]; [|discriminate]. cbn [rbind] in *.
  destruct (callback x) as [tag|]; [|auto]. destruct (when x <=? ticker s); [|auto].
  destruct (sset (sched s) i (mkSlot (when x) None)) as [l|]; [|discriminate]. cbn [rbind] in *.
  destruct (do_cmd _ _ _) as [[s1 log1]|]; [|discriminate]. cbn [rbind] in *. auto.
Qed.

Definition due (s : sched_state) (j : Z) : Prop := exists w t, look s j = Some (w, t) /\ w <= ticker s.

Lemma do_cmd_due c : cmd_ok c -> later_only c -> forall s log, SI s log ->
  exists s' log', do_cmd c s log = Ok (s', log') /\ forall j, due s' j -> due s j.
Proof.
  induction c as [|us tag k IH|i k IH|k IH|k IH]; cbn [cmd_ok later_only]; intros Hc Hl s log HS; cbn [do_cmd].
  - eauto.
  - destruct Hc as (Hu & Hk). destruct Hl as (Hlu & Hlk).
    destruct (event_ok us tag s log Hu HS) as (i & s1 & e1 & e2).
    rewrite e1. cbn [rbind]. destruct (IH i (Hk i) (Hlk i) s1 _ e2) as (s' & log' & f1 & f2).
    exists s', log'. split; [assumption|]. intros j Hj. destruct (f2 j Hj) as (w & t & g1 & g2).
    rewrite <- (si_look _ _ e2) in g1. cbn [pending] in g1. pose proof (si_clock _ _ e2) as Hk2. cbn [clock] in Hk2.
    destruct (j =? i).
    + injection g1 as <- <-. lia.
    + exists w, t. rewrite <- (si_look _ _ HS). split; [assumption|]. rewrite (si_clock _ _ HS). lia.
  - destruct (del_ok i s log HS) as (f & s1 & e1 & e2 & _). rewrite e1. cbn [rbind].
    destruct (IH Hc Hl s1 _ e2) as (s' & log' & f1 & f2).
    exists s', log'. split; [assumption|]. intros j Hj. destruct (f2 j Hj) as (w & t & g1 & g2).
    rewrite <- (si_look _ _ e2) in g1. cbn [pending] in g1. pose proof (si_clock _ _ e2) as Hk2. cbn [clock] in Hk2.
    destruct (j =? i); [discriminate|].
    exists w, t. rewrite <- (si_look _ _ HS). split; [assumption|]. rewrite (si_clock _ _ HS). lia.
  - destruct (do_cmd_ok (CNext (fun _ => CRet)) (fun _ => I) s log HS) as (s1 & log1 & e1 & e2 & _).
    cbn [do_cmd] in e1. destruct (span_schedule_next s) as [v|]; [|discriminate]. cbn [rbind] in *.
    injection e1 as <- <-. apply (IH v (Hc v) (Hl v) s _ e2).
  - destruct (do_cmd_ok (CTime (fun _ => CRet)) (fun _ => I) s log HS) as (s1 & log1 & e1 & e2 & _).
    cbn [do_cmd] in e1. injection e1 as <- <-. apply (IH _ (Hc _) (Hl _) s _ e2).
Qed.

Hypothesis body_later : forall log tag, later_only (body log tag).

Lemma remove_shorter (x : Z) (l : list Z) : In x l -> (length (remove Z.eq_dec x l) < length l)%nat.
Proof. apply remove_length_lt. Qed.

Lemma update_ends n : forall m i s log (D : list Z), SI s log -> 0 <= i -> updating log = true ->
  (length D <= n)%nat -> (forall j, i <= j -> due s j -> In j D) -> max_to_date s - i <= Z.of_nat m ->
  exists fuel s' log', update_loop body fuel i s log = Ok (true, s', log').
Proof.
  induction n as [n IHn] using (well_founded_induction lt_wf).
  induction m as [|m IHm]; intros i s log D HS Hi Hu HD Hdue Hm.
  - exists 1%nat. cbn [update_loop]. replace (i <? max_to_date s) with false by lia. eauto.
  - pose proof HS as [h1 h2 h3 h4 h5 h6 h7]. destruct (Z.ltb_spec i (max_to_date s)) as [Hlt|Hge].
    2:{ exists 1%nat. cbn [update_loop]. replace (i <? max_to_date s) with false by lia. eauto. }
    assert (Hstep : forall s1 log1, (forall f, update_loop body (S f) i s log = update_loop body f (i + 1) s1 log1) ->
      (exists fuel s' log', update_loop body fuel (i + 1) s1 log1 = Ok (true, s', log')) ->
      exists fuel s' log', update_loop body fuel i s log = Ok (true, s', log')).
    { intros s1 log1 He (f & s' & log' & E). exists (S f), s', log'. rewrite He. exact E. }
    destruct (callback (nth (Z.to_nat i) (sched s) garbage)) as [tag|] eqn:Ec.
    + destruct (Z.leb_spec (when (nth (Z.to_nat i) (sched s) garbage)) (ticker s)) as [Hw|Hw].
      * pose proof (fire_ok i s log tag HS ltac:(lia) Hu Ec Hw) as HF.
        destruct (do_cmd_ok _ (body_ok (EFire i tag :: log) tag) _ _ HF) as (s1 & log1 & e1 & e2 & (e3 & e3' & e4) & e5).
        destruct (do_cmd_due _ (body_ok (EFire i tag :: log) tag) (body_later _ _) _ _ HF) as (s2 & log2 & k1 & k2).
        rewrite e1 in k1. injection k1 as <- <-.
        apply (Hstep s1 log1).
        { intros f. cbn [update_loop]. replace (i <? max_to_date s) with true by lia.
          rewrite sget_ok by lia. cbn [rbind]. rewrite Ec.
          replace (when (nth (Z.to_nat i) (sched s) garbage) <=? ticker s) with true by lia.
          unfold sset. replace ((0 <=? i) && (i <? Z.of_nat (length (sched s)))) with true by lia. cbn [rbind].
          rewrite e1. reflexivity. }
        assert (Hin : In i D).
        { apply Hdue; [lia|]. exists (when (nth (Z.to_nat i) (sched s) garbage)), tag. split; [|lia].
          unfold look. replace ((0 <=? i) && (i <? max_to_date s)) with true by lia. cbv zeta. rewrite Ec. reflexivity. }
        pose proof (remove_shorter i D Hin) as Hlen.
        apply (IHn (length (remove Z.eq_dec i D)) ltac:(lia) (Z.to_nat (max_to_date s1 - (i + 1))) (i + 1) s1 log1
                 (remove Z.eq_dec i D)); auto; try lia.
        -- rewrite e3'. exact Hu.
        -- intros j Hj Hd. apply k2 in Hd. apply in_in_remove; [lia|]. apply Hdue; [lia|].
           destruct Hd as (w & t & g1 & g2). cbn [ticker] in g2. exists w, t. split; [|assumption].
           rewrite <- (si_look _ _ HF) in g1. cbn [pending] in g1. destruct (j =? i); [discriminate|].
           rewrite <- h5. assumption.
      * apply (Hstep s log).
        { intros f. cbn [update_loop]. replace (i <? max_to_date s) with true by lia.
          rewrite sget_ok by lia. cbn [rbind]. rewrite Ec.
          replace (when (nth (Z.to_nat i) (sched s) garbage) <=? ticker s) with false by lia. reflexivity. }
        apply (IHm (i + 1) s log D); auto; try lia. intros j Hj. apply Hdue. lia.
    + apply (Hstep s log).
      { intros f. cbn [update_loop]. replace (i <? max_to_date s) with true by lia.
        rewrite sget_ok by lia. cbn [rbind]. rewrite Ec. reflexivity. }
      apply (IHm (i + 1) s log D); auto; try lia. intros j Hj. apply Hdue. lia.
Qed.

Lemma sruns_end ops : Forall op_ok ops -> forall s log, SI s log -> 
  clock log + total ops + 2147483648 <= BIG ->
  exists f0 s' log', forall f, (f0 <= f)%nat -> sruns body f ops s log = Ok (true, s', log').
Proof.
  induction 1 as [|o t Ho Ht IH]; intros s log HS Htot; cbn [sruns].
  - exists 0%nat, s, log. auto.
  - pose proof (total_nonneg t Ht). destruct o as [c|us]; cbn [op_ok total] in *.
    + destruct (do_cmd_ok c Ho s log HS) as (s1 & log1 & e1 & e2 & (e3 & _) & _). rewrite e1. cbn [rbind].
      apply IH; auto. lia.
    + unfold span_schedule_update.
      assert (HS0 : SI (mkSched (u64 (ticker s + us)) (max_to_date s) (sched s)) (EUpd us :: log)).
      { destruct HS as [h1 h2 h3 h4 h5 h6 h7]. unfold us_ok, BIG in *.
        constructor; cbn [ticker max_to_date sched clock pending log_ok entry_ok]; auto; try (unfold BIG; lia).
        unfold u64. rewrite Z.mod_small; lia. }
      set (s0 := mkSched (u64 (ticker s + us)) (max_to_date s) (sched s)) in *.
      pose proof (si_max _ _ HS0) as Hm0.
      destruct (update_ends (Z.to_nat (max_to_date s0)) (Z.to_nat (max_to_date s0)) 0 s0 (EUpd us :: log)
                  (map Z.of_nat (seq 0 (Z.to_nat (max_to_date s0)))) HS0) as (f1 & s1 & log1 & e1); try lia; try reflexivity.
      { rewrite map_length, seq_length. lia. }
      { intros j Hj (w & t0 & g1 & g2). unfold look in g1.
        destruct ((0 <=? j) && (j <? max_to_date s0)) eqn:E; [|discriminate].
        apply in_map_iff. exists (Z.to_nat j). split; [lia|]. apply in_seq. lia. }
      assert (Hend : SI s1 log1 /\ clock log1 = clock (EUpd us :: log)).
      { destruct (update_loop_ok f1 0 _ _ HS0) as (fin & s2 & log2 & g1 & g2 & g3); try lia; try reflexivity.
        { intros j w t0 Hj Hp _. rewrite (si_look _ _ HS0) in Hp. unfold look in Hp.
          destruct ((0 <=? j) && _) eqn:E in Hp; [lia|discriminate]. }
        rewrite e1 in g1. injection g1 as <- <- <-. auto. }
      destruct Hend as (e2 & e3).
      destruct (IH s1 log1 e2) as (f2 & s' & log' & E). { rewrite e3. cbn [clock]. lia. }
      exists (f1 + f2)%nat, s', log'. intros f Hf.
      replace f with (f1 + (f - f1))%nat at 1 by lia.
      rewrite (fuel_more _ _ _ _ _ _ _ e1). cbn [rbind]. apply E. lia.
Qed.

Theorem sched_ends ops : Forall op_ok ops -> total ops + 2147483648 <= 18446744073709551616 ->
  exists f0 s' log', forall f, (f0 <= f)%nat -> sruns body f ops span_schedule_init [] = Ok (true, s', log').
Proof.
  intros Ho Ht. apply sruns_end; auto.
  constructor; cbn; try lia; auto.
  - unfold BIG; lia.
  - intros i. unfold look. cbn [max_to_date span_schedule_init].
    destruct ((0 <=? i) && (i <? 0)) eqn:E; [lia|reflexivity].
  - discriminate.
Qed.
End Run.

(** ---- consequences, in terms of single events ---- *)
Definition removes (i : Z) (e : entry) : Prop := e = EDel i true \/ exists tag, e = EFire i tag.
Definition adds (i : Z) (e : entry) : Prop := exists us tag, e = EAdd i us tag.

Lemma log_ok_tail x l : log_ok (x ++ l) -> log_ok l.
Proof. induction x; cbn [app log_ok]; tauto. Qed.

Lemma kept i us tag l1 x : log_ok (x ++ EAdd i us tag :: l1) -> (forall e, In e x -> ~ removes i e) ->
  pending (x ++ EAdd i us tag :: l1) i = Some (clock l1 + us, tag) /\ forall e, In e x -> ~ adds i e.
Proof.
  induction x as [|e x IH]; cbn [app log_ok]; intros Hl Hr.
  - cbn [pending]. rewrite Z.eqb_refl. split; [reflexivity|]. intros e [].
  - destruct Hl as (He & Hl). destruct IH as (E & Ha); [assumption|intros; apply Hr; right; assumption|].
    assert (Hre : ~ removes i e) by (apply Hr; left; reflexivity).
    split.
    + destruct e; cbn [pending entry_ok] in *; try assumption.
      * destruct (Z.eqb_spec i i0) as [<-|]; [|assumption]. rewrite E in He. destruct He; discriminate.
      * destruct (Z.eqb_spec i i0) as [<-|]; [|assumption]. destruct found.
        -- exfalso. apply Hre. left. reflexivity.
        -- congruence.
      * destruct (Z.eqb_spec i i0) as [<-|]; [|assumption]. exfalso. apply Hre. right. eauto.
    + intros e' [<-|Hin]; [|auto]. intros (u & t & ->). cbn [entry_ok] in He. rewrite E in He. destruct He; discriminate.
Qed.

Lemma not_added_during m i l u : (forall e, In e m -> ~ adds i e) -> added_during (m ++ EUpd u :: l) i = false.
Proof.
  induction m as [|e m IH]; cbn [app added_during]; intros H; [reflexivity|].
  assert (IH' : added_during (m ++ EUpd u :: l) i = false) by (apply IH; intros; apply H; right; assumption).
  destruct e; try assumption; try reflexivity.
  rewrite IH'. destruct (Z.eqb_spec i i0) as [<-|]; [|reflexivity].
  exfalso. eapply H; [left; reflexivity|]. unfold adds. eauto.
Qed.

(** An event added before an update that ends at or after its time has been fired
    or deleted by the end of that update. *)
Theorem fired_by_end i us tag l1 m u n :
  log_ok (EEnd :: m ++ EUpd u :: n ++ EAdd i us tag :: l1) ->
  clock l1 + us <= clock (m ++ EUpd u :: n ++ EAdd i us tag :: l1) ->
  exists e, In e (m ++ EUpd u :: n) /\ removes i e.
Proof.
  intros (He & Hl) Hc.
  assert (D : (exists e, In e (m ++ EUpd u :: n) /\ removes i e) \/ (forall e, In e (m ++ EUpd u :: n) -> ~ removes i e)).
  { generalize (m ++ EUpd u :: n). clear. induction l as [|e l IH].
    - right. intros e [].
    - destruct IH as [(e' & H1 & H2)|IH]; [left; exists e'; split; [right; assumption|assumption]|].
      assert (De : removes i e \/ ~ removes i e).
      { unfold removes. destruct e; try (right; intros [H|(t & H)]; discriminate).
        - destruct found; [|right; intros [H|(t & H)]; discriminate].
          destruct (Z.eq_dec i0 i) as [->|]; [left; left; reflexivity|right; intros [H|(t & H)]; congruence].
        - destruct (Z.eq_dec i0 i) as [->|]; [left; right; eauto|right; intros [H|(t & H)]; congruence]. }
      destruct De as [De|De]; [left; exists e; split; [left; reflexivity|assumption]|right].
      intros e' [<-|Hin]; auto. }
  destruct D as [D|D]; [assumption|exfalso].
  replace (m ++ EUpd u :: n ++ EAdd i us tag :: l1) with ((m ++ EUpd u :: n) ++ EAdd i us tag :: l1) in *
    by (rewrite <- app_assoc; reflexivity).
  destruct (kept _ _ _ _ _ Hl D) as (E & Ha). cbn [entry_ok] in He.
  specialize (He i _ _ E). rewrite <- app_assoc in He. cbn [app] in He.
  rewrite not_added_during in He.
  - specialize (He eq_refl). rewrite <- app_assoc in Hc. cbn [app] in Hc. lia.
  - intros e Hin. apply Ha. apply in_or_app. auto.
Qed.

(** Once fired or deleted, an identifier does not fire again unless it has been
    handed out again. *)
Theorem fires_once i tag y e z : log_ok (EFire i tag :: y ++ e :: z) -> removes i e ->
  exists a, In a y /\ adds i a.
Proof.
  intros ((Hu & w & Hp & Hw) & Hl) Hr.
  assert (H : forall y, pending (y ++ e :: z) i <> None -> exists a, In a y /\ adds i a).
  { clear - Hr. induction y as [|a y IH]; cbn [app]; intros H.
    - exfalso. apply H. destruct Hr as [->|(t & ->)]; cbn [pending]; rewrite Z.eqb_refl; reflexivity.
    - assert (D : adds i a \/ pending (y ++ e :: z) i <> None).
      { destruct a; cbn [pending] in H; auto; destruct (Z.eqb_spec i i0) as [<-|]; auto.
        left. unfold adds. eauto. }
      destruct D as [D|D]; [exists a; split; [left; reflexivity|assumption]|].
      destruct (IH D) as (b & H1 & H2). exists b. split; [right; assumption|assumption]. }
  apply H. rewrite Hp. discriminate.
Qed.
