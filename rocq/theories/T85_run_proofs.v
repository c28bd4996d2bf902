(** Running the inner loop of the T.85 decoder on pieces of its input. *)
From Verif Require Import Base Bits Arith_model Arith_spec Arith_enc_proofs Arith_dec_proofs T85_enc_model T85_dec_model T85_arith_proofs T85_pscd_proofs.
From Coq Require Import ZifyBool ZifyNat.
Local Open Scope Z_scope.

(** The state with padding switched on. *)
Definition N (s : pd) : pd := p_ar s (np (par_s s) false).

Section RUN.
Variable c : par.
Variable o : Z.
Hypothesis PC : par_ok c.

Notation D := (decode_pscd c o).
Opaque t81_t82_arith_decode prep fin.

Lemma left_pos yd s : sane c o s -> complete c yd s = false -> 0 < left_ c yd s.
Proof.
  intros H E. unfold complete in E. assert (py s < yd) by lia. pose proof (s_x _ _ _ H). destruct PC as (HX & _). unfold left_. destruct (ppseudo s); nia.
Qed.

Lemma loop_safe yd f : forall s inp, sane c o s -> bytes inp -> (Z.to_nat (left_ c yd s) < f)%nat ->
  exists s' i', pscd_loop f c o yd s inp = Ok (s', i') /\ sane c o s' /\ bytes i' /\ (exists u, inp = u ++ i' /\ no_marker u).
Proof.
  induction f as [|f IH]; intros s inp H Hb Hf; [lia|]. cbn [pscd_loop].
  destruct (step_safe c o PC yd s inp H Hb) as (r & E & H1 & Hb1 & SU & L & _). rewrite E. cbn [rbind].
  destruct r as [s1 i1|s1 i1]; cbn [stepped_state stepped_rest] in *; [|exists s1, i1; auto].
  assert (0 < left_ c yd s).
  { apply left_pos; [exact H|]. rewrite step_eq in E. destruct (complete c yd s); [discriminate|reflexivity]. }
  destruct (IH s1 i1 H1 Hb1 ltac:(lia)) as (s' & i' & E2 & H2 & Hb2 & (u2 & -> & Hu2)). exists s', i'. split; [exact E2|]. split; [exact H2|]. split; [exact Hb2|].
  destruct SU as (u & -> & Hu). exists (u ++ u2). split; [apply app_assoc|apply no_marker_app; assumption].
Qed.

Lemma loop_mono yd f : forall g s inp x, pscd_loop f c o yd s inp = Ok x -> (f <= g)%nat -> pscd_loop g c o yd s inp = Ok x.
Proof.
  induction f as [|f IH]; intros g s inp x H Hg; [discriminate|]. destruct g as [|g]; [lia|]. cbn [pscd_loop] in *.
  destruct (pscd_step c o yd s inp) as [[s1 i1|s1 i1]|]; cbn [rbind] in *; [|exact H|discriminate]. apply IH; [exact H|lia].
Qed.

Lemma fuel_enough yd s : sane c o s -> (Z.to_nat (left_ c yd s) < pscd_fuel c yd s)%nat.
Proof. intros H. unfold pscd_fuel, left_. pose proof (s_x _ _ _ H). destruct (ppseudo s); lia. Qed.

Lemma D_safe yd s inp : sane c o s -> bytes inp -> exists s' i', D yd s inp = Ok (s', i') /\ sane c o s' /\ bytes i' /\ (exists u, inp = u ++ i' /\ no_marker u).
Proof. intros H Hb. apply loop_safe; [exact H|exact Hb|]. apply fuel_enough. exact H. Qed.

Lemma loop_D yd f s inp x : sane c o s -> bytes inp -> pscd_loop f c o yd s inp = Ok x -> D yd s inp = Ok x.
Proof.
  intros H Hb E. destruct (D_safe yd s inp H Hb) as (s' & i' & E2 & _). unfold decode_pscd in *.
  destruct (Nat.le_ge_cases f (pscd_fuel c yd s)) as [L|L].
  - exact (loop_mono _ _ _ _ _ _ E L).
  - pose proof (loop_mono _ _ _ _ _ _ E2 L) as E3. congruence.
Qed.

Lemma D_unroll yd s inp : sane c o s -> bytes inp -> D yd s inp =
  match pscd_step c o yd s inp with Ok (Go s1 i1) => D yd s1 i1 | Ok (Stop s1 i1) => Ok (s1, i1) | UB => UB end.
Proof.
  intros H Hb. destruct (step_safe c o PC yd s inp H Hb) as (r & E & H1 & Hb1 & _). rewrite E.
  destruct r as [s1 i1|s1 i1]; cbn [stepped_state stepped_rest] in *.
  - destruct (D_safe yd s1 i1 H1 Hb1) as (s' & i' & E2 & _). rewrite E2. apply (loop_D yd (S (pscd_fuel c yd s1))); [exact H|exact Hb|].
    cbn [pscd_loop]. rewrite E. exact E2.
  - apply (loop_D yd 1%nat); [exact H|exact Hb|]. cbn [pscd_loop]. rewrite E. reflexivity.
Qed.

Lemma bytes_app a b : bytes a -> bytes b -> bytes (a ++ b).
Proof. intros. apply Forall_app. split; assumption. Qed.

Lemma step_more yd s inp s1 i1 more : sane c o s -> bytes inp -> pscd_step c o yd s inp = Ok (Go s1 i1) -> pscd_step c o yd s (inp ++ more) = Ok (Go s1 (i1 ++ more)).
Proof.
  intros H Hb E. rewrite step_eq in *. destruct (complete c yd s); [discriminate|].
  destruct (prep c o s) as [[s3 cx]|]; [|discriminate]. cbn [rbind] in *.
  destruct (t81_t82_arith_decode (par_s s3) cx inp) as [[[r d] i2]|] eqn:Ed; [|discriminate]. cbn [rbind] in E.
  destruct (Z.ltb_spec r 0); [discriminate|]. rewrite (decode_more _ _ _ more _ _ _ Ed) by lia. cbn [rbind].
  replace (r <? 0) with false by lia. destruct (fin c o (p_ar s3 d) r); [|discriminate]. cbn [rbind] in *. injection E as -> ->. reflexivity.
Qed.

Lemma go_np yd s inp s1 i1 : sane c o s -> bytes inp -> pscd_step c o yd s inp = Ok (Go s1 i1) -> dnopadding (par_s s1) = dnopadding (par_s s).
Proof.
  intros H Hb E. rewrite step_eq in *. destruct (complete c yd s); [discriminate|].
  destruct (prep_safe c o PC s H) as (s3 & cx & E3 & H3 & Hcx & Hps). rewrite E3 in E. cbn [rbind] in E.
  destruct (prep_facts _ _ _ _ _ E3) as (A1 & _).
  destruct (decode_safe (par_s s3) cx inp (s_ar _ _ _ H3) Hcx Hb) as (r & d & i2 & Ed & Hd & Hb1 & X). rewrite Ed in E. cbn [rbind] in E.
  destruct (Z.ltb_spec r 0); [discriminate|].
  destruct (fin_safe c o PC yd (p_ar s3 d) r (sane_ar _ _ _ _ H3 Hd) (fun E => proj2 (Hps E))) as (s5 & E5 & _ & A5 & _). rewrite E5 in E. cbn [rbind] in E.
  injection E as <- <-. rewrite A5. cbn [p_ar par_s]. destruct X as [[_ X]|X]; [congruence|]. unfold leave_ok in X. destruct X as [(X & _)|(X & _)]; lia.
Qed.

Lemma step_complete yd s inp : complete c yd s = true -> pscd_step c o yd s inp = Ok (Stop s inp).
Proof. intros H. rewrite step_eq, H. reflexivity. Qed.

Lemma step_stop yd s inp s1 i1 : sane c o s -> bytes inp -> complete c yd s = false -> dnopadding (par_s s) = false ->
  pscd_step c o yd s inp = Ok (Stop s1 i1) ->
  (forall yd', complete c yd' s1 = complete c yd' s) /\ dnopadding (par_s s1) = false /\ (i1 = [] \/ i1 = [255]) /\
  forall yd' more, bytes more -> complete c yd' s = false -> pscd_step c o yd' s (inp ++ more) = pscd_step c o yd' s1 (i1 ++ more).
Proof.
  intros H Hb C Hn E. rewrite step_eq, C in E.
  destruct (prep_safe c o PC s H) as (s3 & cx & E3 & H3 & Hcx & Hps). rewrite E3 in E. cbn [rbind] in E.
  destruct (prep_facts _ _ _ _ _ E3) as (A1 & A2 & A3 & _).
  destruct (decode_safe (par_s s3) cx inp (s_ar _ _ _ H3) Hcx Hb) as (r & d & i2 & Ed & Hd & Hb1 & X). rewrite Ed in E. cbn [rbind] in E.
  destruct (Z.ltb_spec r 0); [|destruct (fin c o (p_ar s3 d) r); discriminate]. injection E as <- <-.
  assert (CC : forall yd', complete c yd' (p_ar s3 d) = complete c yd' s) by (intros; unfold complete; cbn [p_ar pi py]; rewrite A2, A3; reflexivity).
  destruct X as [[[-> | ->] _]|X]; [lia|lia|]. unfold leave_ok in X. rewrite A1, Hn in X. destruct X as [(-> & X1 & X2 & X3)|(_ & X & _)]; [|discriminate].
  split; [exact CC|]. split; [exact X3|]. split; [exact X1|].
  intros yd' more Hm C'. rewrite !step_eq, CC, C', E3, (prep_idem _ _ _ _ _ d E3). cbn [rbind p_ar par_s].
  rewrite (decode_resume _ _ _ more _ _ (s_ar _ _ _ H3) Hcx Hb Hm Ed). reflexivity.
Qed.

Lemma N_ar s d : N (p_ar s d) = p_ar s (np d false). Proof. reflexivity. Qed.

Lemma step_np yd s inp r : sane c o s -> bytes inp -> complete c yd s = false -> dnopadding (par_s s) = true -> 0 <= dct (par_s s) ->
  pscd_step c o yd s inp = Ok r ->
  match r with
  | Go s1 i1 => dnopadding (par_s s1) = true /\ 0 <= dct (par_s s1) /\ pscd_step c o yd (N s) inp = Ok (Go (N s1) i1)
  | Stop s1 i1 =>
      (dnopadding (par_s s1) = true /\ 0 <= dct (par_s s1) /\ pscd_step c o yd (N s) inp = Ok (Stop (N s1) i1)) \/
      (dnopadding (par_s s1) = false /\ dct (par_s s1) = -1 /\ at_marker i1 /\
       forall more, bytes more -> pscd_step c o yd (N s) (inp ++ more) = pscd_step c o yd s1 (i1 ++ more))
  end.
Proof.
  intros H Hb C Hn Hct E. rewrite step_eq, C in E.
  destruct (prep_safe c o PC s H) as (s3 & cx & E3 & H3 & Hcx & Hps). rewrite E3 in E. cbn [rbind] in E.
  destruct (prep_facts _ _ _ _ _ E3) as (A1 & A2 & A3 & _).
  assert (EN : prep c o (N s) = Ok (N s3, cx)) by (unfold N at 1; rewrite prep_ar, E3; cbn [rmap fst snd]; rewrite <- A1; reflexivity).
  assert (CN : complete c yd (N s) = false) by exact C.
  destruct (decode_safe (par_s s3) cx inp (s_ar _ _ _ H3) Hcx Hb) as (q & d & i2 & Ed & Hd & Hb1 & X). rewrite Ed in E. cbn [rbind] in E.
  destruct (decode_np (par_s s3) cx inp q d i2 (s_ar _ _ _ H3) Hcx Hb ltac:(congruence) ltac:(rewrite A1; exact Hct) Ed) as [(Y1 & Y2 & Y3 & Y4)|(Y1 & Y2 & Y3 & Y4 & Y5)].
  - assert (SN : pscd_step c o yd (N s) inp = if q <? 0 then Ok (Stop (N (p_ar s3 d)) i2) else do s5 <- fin c o (N (p_ar s3 d)) q; Ok (Go s5 i2)).
    { rewrite step_eq, CN, EN. cbn [rbind]. unfold N at 1. cbn [p_ar par_s]. rewrite Y4. reflexivity. }
    destruct (Z.ltb_spec q 0).
    + injection E as <-. left. split; [exact Y2|]. split; [exact Y3|]. exact SN.
    + destruct (fin_safe c o PC yd (p_ar s3 d) q (sane_ar _ _ _ _ H3 Hd) (fun E => proj2 (Hps E))) as (s5 & E5 & _ & A5 & _). rewrite E5 in E. cbn [rbind] in E.
      injection E as <-. rewrite A5. split; [exact Y2|]. split; [exact Y3|]. rewrite SN.
      unfold N at 1. rewrite (fin_ar c o (p_ar s3 d) (np (par_s (p_ar s3 d)) false) q), E5. cbn [rmap rbind]. unfold N. rewrite A5. reflexivity.
  - subst q. cbn [Z.ltb Z.compare] in E. injection E as <-. right. split; [exact Y2|]. split; [exact Y3|]. split; [exact Y4|].
    assert (CD : complete c yd (p_ar s3 d) = false) by (unfold complete in *; cbn [p_ar pi py]; rewrite A2, A3; exact C).
    intros more Hm. rewrite !step_eq, CN, EN, CD.
    rewrite (prep_idem _ _ _ _ _ d E3). cbn [rbind]. unfold N at 1. cbn [p_ar par_s]. rewrite (Y5 more Hm). reflexivity.
Qed.

Lemma sane_N s : sane c o s -> sane c o (N s).
Proof. intros H. apply sane_ar; [exact H|]. apply dsafe_np. apply H. Qed.

(** Padding on: the loop finishes the stripe, or runs out of input, having used all of it but perhaps an escape. *)
Lemma loop_false yd f : forall s inp s' i', pscd_loop f c o yd s inp = Ok (s', i') -> sane c o s -> bytes inp -> dnopadding (par_s s) = false ->
  dnopadding (par_s s') = false /\
  ((complete c yd s' = true /\ forall more, bytes more -> D yd s (inp ++ more) = Ok (s', i' ++ more)) \/
   (complete c yd s' = false /\ (i' = [] \/ i' = [255]) /\ forall more, bytes more -> D yd s (inp ++ more) = D yd s' (i' ++ more))).
Proof.
  induction f as [|f IH]; intros s inp s' i' E H Hb Hn; [discriminate|]. cbn [pscd_loop] in E.
  destruct (step_safe c o PC yd s inp H Hb) as (r & E1 & H1 & Hb1 & _). rewrite E1 in E. cbn [rbind] in E. destruct r as [s1 i1|s1 i1]; cbn [stepped_state stepped_rest] in *.
  - pose proof (go_np _ _ _ _ _ H Hb E1) as Hn1. destruct (IH _ _ _ _ E H1 Hb1 ltac:(congruence)) as (Hn2 & X). split; [exact Hn2|].
    assert (K : forall more, bytes more -> D yd s (inp ++ more) = D yd s1 (i1 ++ more)).
    { intros more Hm. rewrite (D_unroll yd s (inp ++ more) H (bytes_app _ _ Hb Hm)), (step_more _ _ _ _ _ more H Hb E1). reflexivity. }
    destruct X as [(X1 & X2)|(X1 & X2 & X3)]; [left|right].
    + split; [exact X1|]. intros more Hm. rewrite (K _ Hm). apply X2, Hm.
    + split; [exact X1|]. split; [exact X2|]. intros more Hm. rewrite (K _ Hm). apply X3, Hm.
  - injection E as <- <-. destruct (complete c yd s) eqn:C.
    + rewrite (step_complete _ _ _ C) in E1. injection E1 as <- <-. split; [exact Hn|]. left. split; [exact C|].
      intros more Hm. rewrite (D_unroll yd s (inp ++ more) H (bytes_app _ _ Hb Hm)), (step_complete _ _ _ C). reflexivity.
    + destruct (step_stop _ _ _ _ _ H Hb C Hn E1) as (X1 & X2 & X3 & X4). split; [exact X2|]. right. split; [rewrite X1; exact C|]. split; [exact X3|].
      intros more Hm. rewrite (D_unroll yd s (inp ++ more) H (bytes_app _ _ Hb Hm)), (D_unroll yd s1 (i1 ++ more) H1 (bytes_app _ _ Hb1 Hm)).
      rewrite (X4 yd more Hm C). reflexivity.
Qed.

Lemma step_yd yd yd' s inp : complete c yd s = complete c yd' s -> pscd_step c o yd s inp = pscd_step c o yd' s inp.
Proof. intros H. rewrite !step_eq, H. reflexivity. Qed.

(** Padding off, and perhaps too large an image length: the stripe is finished before a marker is met,
    or the input runs out, or the marker is there. *)
Lemma loop_true yd yd' f : yd <= yd' -> forall s inp s' i', pscd_loop f c o yd' s inp = Ok (s', i') -> sane c o s -> bytes inp ->
  dnopadding (par_s s) = true -> 0 <= dct (par_s s) ->
  (exists sX iX, 0 <= dct (par_s sX) /\ forall more, bytes more -> D yd (N s) (inp ++ more) = Ok (sX, iX ++ more)) \/
  (dnopadding (par_s s') = true /\ 0 <= dct (par_s s') /\ (i' = [] \/ i' = [255]) /\ forall more, bytes more -> D yd (N s) (inp ++ more) = D yd (N s') (i' ++ more)) \/
  (dnopadding (par_s s') = false /\ dct (par_s s') = -1 /\ at_marker i' /\ forall more, bytes more -> D yd (N s) (inp ++ more) = D yd s' (i' ++ more)).
Proof.
  intros Hy. induction f as [|f IH]; intros s inp s' i' E H Hb Hn Hct; [discriminate|].
  destruct (complete c yd s) eqn:C.
  { left. exists (N s), inp. split; [exact Hct|]. intros more Hm. rewrite (D_unroll _ _ _ (sane_N _ H) (bytes_app _ _ Hb Hm)), (step_complete yd (N s)) by exact C. reflexivity. }
  assert (C' : complete c yd' s = false) by (unfold complete in *; lia).
  cbn [pscd_loop] in E.
  destruct (step_safe c o PC yd' s inp H Hb) as (r & E1 & H1 & Hb1 & _). rewrite E1 in E. cbn [rbind] in E.
  rewrite (step_yd yd' yd) in E1 by congruence.
  pose proof (step_np _ _ _ _ H Hb C Hn Hct E1) as X. destruct r as [s1 i1|s1 i1]; cbn [stepped_state stepped_rest] in *.
  - destruct X as (X1 & X2 & X3).
    assert (K : forall more, bytes more -> D yd (N s) (inp ++ more) = D yd (N s1) (i1 ++ more)).
    { intros more Hm. rewrite (D_unroll yd (N s) (inp ++ more) (sane_N _ H) (bytes_app _ _ Hb Hm)), (step_more _ _ _ _ _ more (sane_N _ H) Hb X3). reflexivity. }
    destruct (IH _ _ _ _ E H1 Hb1 X1 X2) as [(sX & iX & Y1 & Y2)|[(Y1 & Y2 & Y3 & Y4)|(Y1 & Y2 & Y3 & Y4)]].
    + left. exists sX, iX. split; [exact Y1|]. intros more Hm. rewrite (K _ Hm). apply Y2, Hm.
    + right. left. split; [exact Y1|]. split; [exact Y2|]. split; [exact Y3|]. intros more Hm. rewrite (K _ Hm). apply Y4, Hm.
    + right. right. split; [exact Y1|]. split; [exact Y2|]. split; [exact Y3|]. intros more Hm. rewrite (K _ Hm). apply Y4, Hm.
  - injection E as <- <-. right. destruct X as [(X1 & X2 & X3)|(X1 & X2 & X3 & X4)]; [left|right].
    + destruct (step_stop yd (N s) inp _ _ (sane_N _ H) Hb C eq_refl X3) as (_ & _ & Z3 & Z4). split; [exact X1|]. split; [exact X2|]. split; [exact Z3|].
      intros more Hm. rewrite (D_unroll yd (N s) (inp ++ more) (sane_N _ H) (bytes_app _ _ Hb Hm)), (D_unroll yd (N s1) (i1 ++ more) (sane_N _ H1) (bytes_app _ _ Hb1 Hm)).
      rewrite (Z4 yd more Hm C). reflexivity.
    + split; [exact X1|]. split; [exact X2|]. split; [exact X3|].
      intros more Hm. rewrite (D_unroll yd (N s) (inp ++ more) (sane_N _ H) (bytes_app _ _ Hb Hm)), (D_unroll yd s1 (i1 ++ more) H1 (bytes_app _ _ Hb1 Hm)).
      rewrite (X4 more Hm). reflexivity.
Qed.
End RUN.
