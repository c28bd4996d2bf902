(** Decoding run length codes. *)
From Coq Require Import ZifyBool ZifyNat.
From Verif Require Import Base Bits T4_tables T4_enc_model T4_dec_model T4_spec T4_runs_proofs T4_bits_proofs T4_step_proofs T4_code_proofs.

Definition rtab (black : bool) : list rte := if black then t4_black_codes else t4_white_codes.
Definition clip (w : Z) (r : drow) : drow := if w <=? r_a0 r then r_set_a r (w - 1) (r_run r) else r.
Definition t6end (C : core) (r : drow) : res core :=
  do (r, im) <-
      (if (c_enc C =? T6) && (r_bw r =? 0) && (c_w C <=? r_len r)
       then do r <- (if 0 <? r_run r then add_run_to_row (c_w C) r else Ok r);
            do (r, im) <- put_decoded_row (c_w C) r (c_img C);
            Ok (row_start r, im)
       else Ok (r, c_img C));
  Ok (c_set C (c_eols C) r im 0).
Lemma t6end_fields C r C' : t6end C r = Ok C' -> c_skip C' = 0 /\ c_eols C' = c_eols C /\ c_w C' = c_w C /\ c_enc C' = c_enc C.
Proof.
  unfold t6end. destruct (if _ && _ && _ then _ else _) as [[r1 im]|]; [|discriminate]. cbn [rbind]. intros H; inversion H. auto.
Qed.
Lemma t6end_no C r : (c_enc C <> T6 \/ r_bw r <> 0 \/ r_len r < c_w C) -> t6end C r = Ok (c_set C (c_eols C) r (c_img C) 0).
Proof.
  intros H. unfold t6end. destruct (Z.eqb_spec (c_enc C) T6), (Z.eqb_spec (r_bw r) 0), (Z.leb_spec (c_w C) (r_len r)); cbn [andb]; try reflexivity. lia.
Qed.
Lemma core_code_through C v r n : c_skip C = 0 -> decode_code (c_w C) (c_row C) v = Ok (r, n, true) ->
  core_code C v = do C' <- t6end C (clip (c_w C) r); Ok (C', n).
Proof.
  intros Hk H. unfold core_code, t6end. rewrite H. cbn [rbind andb]. fold (clip (c_w C) r).
  destruct (if _ && _ && _ then _ else _) as [[r1 im]|]; [|reflexivity]. cbn [rbind]. rewrite Hk. reflexivity.
Qed.

Definition in_runs (C : core) : Prop := (r_2d (c_row C) = false /\ c_enc C <> T6) \/ r_bw (c_row C) <> 0.
Definition runs_len (black : bool) : nat := if black then 13%nat else 12%nat.
Definition runs_tree (black : bool) : tree := if black then black_tree else white_tree.
Lemma decode_run C c e rest : in_runs C -> code_ok (runs_len (r_black (c_row C))) (runs_tree (r_black (c_row C))) e c = true -> (12 <= length rest)%nat ->
  decode_code (c_w C) (c_row C) (win (c ++ rest)) = do r <- code_1d (c_w C) (c_row C) e; Ok (r, te_width e, true).
Proof.
  intros Hi Hc Hr. unfold decode_code.
  assert (Hn : r_2d (c_row C) && (r_bw (c_row C) =? 0) = false).
  { destruct Hi as [[-> _]|Hb]; [reflexivity|]. destruct (Z.eqb_spec (r_bw (c_row C)) 0); [congruence|]. apply andb_false_r. }
  rewrite Hn. unfold code_ok in Hc. apply andb_true_iff in Hc as [Hc Ha]. 
  assert (HL : (0 < length c <= runs_len (r_black (c_row C)))%nat) by lia. clear Hc.
  destruct (r_black (c_row C)); unfold runs_len, runs_tree in *.
  - rewrite <- black_tree_ok in Ha.
    pose proof (lookup 13 t4_1d_black_table c e rest) as HH. change (Z.ones (Z.of_nat 13)) with 0x1FFF in HH.
    rewrite HH; [reflexivity|vm_compute; reflexivity|exact Ha|lia|rewrite app_length; lia|lia].
  - rewrite <- white_tree_ok in Ha.
    pose proof (lookup 12 t4_1d_white_table c e rest) as HH. change (Z.ones (Z.of_nat 12)) with 0xFFF in HH.
    rewrite HH; [reflexivity|vm_compute; reflexivity|exact Ha|lia|rewrite app_length; lia|lia].
Qed.
Lemma code_ok_parts n t e c : code_ok n t e c = true -> c <> [] /\ okcode c = true /\ headok c = true /\ te_width e = Z.of_nat (length c) /\ (length c <= n)%nat.
Proof.
  unfold code_ok. rewrite !andb_true_iff. intros [[[[[A B] D] F] G] H]. repeat split; auto; try lia.
  intros ->. discriminate A.
Qed.

Definition mkst (black : bool) (i : Z) : tst := if i <? 91 then (if black then S_MakeUpB else S_MakeUpW) else S_MakeUp.
Definition tmst (black : bool) : tst := if black then S_TermB else S_TermW.
Lemma term_code_ok black i : 0 <= i < 64 -> code_ok (runs_len black) (runs_tree black) (E (tmst black) (rt_len (tnth (rtab black) i)) i) (cbits (tnth (rtab black) i)) = true.
Proof.
  intros Hi. assert (Hx : rt_run (tnth (rtab black) i) = i).
  { destruct (tab_term (rtab black) i) as (e & _ & P & Q & _); [destruct black; [apply tab_ok_black|apply tab_ok_white]|auto|].
    unfold tnth. apply nth_error_nth with (d := R 0 0 0) in P. rewrite P. auto. }
  assert (Hin : In (Z.to_nat i) (seq 0 64)) by (apply in_seq; lia).
  destruct black; unfold rtab, tmst, runs_len, runs_tree in *;
    [pose proof black_codes_ok as HH|pose proof white_codes_ok as HH]; unfold run_codes_ok in HH; rewrite !andb_true_iff in HH; destruct HH as [[HH _] _];
    rewrite forallb_forall in HH; specialize (HH _ Hin); cbv zeta in HH; fold (tnth t4_black_codes i) in HH; fold (tnth t4_white_codes i) in HH; rewrite Hx in HH; exact HH.
Qed.
Lemma mk_code_ok black k : 1 <= k <= 40 -> code_ok (runs_len black) (runs_tree black) (E (mkst black (63 + k)) (rt_len (tnth (rtab black) (63 + k))) (64 * k)) (cbits (tnth (rtab black) (63 + k))) = true.
Proof.
  intros Hi. assert (Hx : rt_run (tnth (rtab black) (63 + k)) = 64 * k).
  { destruct (tab_mkup (rtab black) k) as (e & _ & P & Q & _); [destruct black; [apply tab_ok_black|apply tab_ok_white]|auto|].
    unfold tnth. apply nth_error_nth with (d := R 0 0 0) in P. rewrite P. auto. }
  unfold mkst. destruct (Z.ltb_spec (63 + k) 91).
  - assert (Hin : In (Z.to_nat (63 + k)) (seq 64 27)) by (apply in_seq; lia).
    destruct black; unfold rtab, runs_len, runs_tree in *;
    [pose proof black_codes_ok as HH|pose proof white_codes_ok as HH]; unfold run_codes_ok in HH; rewrite !andb_true_iff in HH; destruct HH as [[_ HH] _];
    rewrite forallb_forall in HH; specialize (HH _ Hin); cbv zeta in HH; fold (tnth t4_black_codes (63 + k)) in HH; fold (tnth t4_white_codes (63 + k)) in HH; rewrite Hx in HH; exact HH.
  - assert (Hin : In (Z.to_nat (63 + k)) (seq 91 13)) by (apply in_seq; lia).
    destruct black; unfold rtab, runs_len, runs_tree in *;
    [pose proof black_codes_ok as HH|pose proof white_codes_ok as HH]; unfold run_codes_ok in HH; rewrite !andb_true_iff in HH; destruct HH as [_ HH];
    rewrite forallb_forall in HH; specialize (HH _ Hin); cbv zeta in HH; fold (tnth t4_black_codes (63 + k)) in HH; fold (tnth t4_white_codes (63 + k)) in HH; rewrite Hx in HH; exact HH.
Qed.

(** [C] with its row advanced by a make-up code *)
Definition adv (C : core) (A p : Z) : core :=
  c_set C (c_eols C) (r_set_a (c_row C) (Z.min (A + p) (c_w C - 1)) (r_run (c_row C) + p)) (c_img C) 0.
Lemma clip_set w r A p q : 0 <= A -> 0 <= p -> A + p <= w -> clip w (r_set_a r (Z.min A (w - 1) + p) q) = r_set_a r (Z.min (A + p) (w - 1)) q.
Proof.
  intros H1 H2 H3. unfold clip. cbn [r_set_a r_a0 r_run]. destruct (Z.leb_spec w (Z.min A (w - 1) + p)).
  - unfold r_set_a. cbn [r_2d r_len r_run r_bw r_black r_a0 r_b1 r_ac r_bc r_cur r_ref]. f_equal. lia.
  - f_equal. lia.
Qed.
Lemma mk_step C A k rest : 0 <= c_eols C -> c_skip C = 0 -> in_runs C -> 1 <= k <= 40 -> Gap rest -> (12 <= length rest)%nat ->
  r_a0 (c_row C) = Z.min A (c_w C - 1) -> 0 <= A -> A + 64 * k <= c_w C ->
  csteps C (cbits (tnth (rtab (r_black (c_row C))) (63 + k)) ++ rest) (adv C A (64 * k)) rest.
Proof.
  intros He Hk Hi Hkk Hg Hr Ha HA Hw. pose proof (mk_code_ok (r_black (c_row C)) k Hkk) as Hc.
  destruct (code_ok_parts _ _ _ _ Hc) as (P1 & P2 & P3 & P4 & P5).
  apply consume; auto.
  rewrite (core_code_through C _ (r_set_a (c_row C) (r_a0 (c_row C) + 64 * k) (r_run (c_row C) + 64 * k)) (Z.of_nat (length (cbits (tnth (rtab (r_black (c_row C))) (63 + k)))))); auto.
  - rewrite Ha, clip_set by lia. rewrite t6end_no; [reflexivity|]. cbn [r_set_a r_bw]. destruct Hi as [[_ Hi]|Hi]; auto.
  - rewrite (decode_run C _ _ rest Hi Hc Hr). unfold code_1d. cbn [te_st te_param te_width].
    replace (is_makeup (r_black (c_row C)) (mkst (r_black (c_row C)) (63 + k))) with true; [cbn [rbind]; rewrite <- P4; reflexivity|].
    unfold mkst. destruct (r_black (c_row C)), (63 + k <? 91); reflexivity.
Qed.

(** the row after a whole run of length [p] *)
Definition runrow (w A p : Z) (cur' : list Z) (r : drow) : drow :=
  mk_drow (r_2d r) (r_len r + (r_run r + p)) 0 (if r_bw r =? 0 then 0 else r_bw r - 1) (negb (r_black r))
          (Z.min (A + p) (w - 1)) (r_b1 r) (r_ac r + 1) (r_bc r) cur' (r_ref r).
Lemma term_step C A p rest cur' C' : 0 <= c_eols C -> c_skip C = 0 -> in_runs C -> 0 <= p < 64 -> Gap rest -> (12 <= length rest)%nat ->
  r_a0 (c_row C) = Z.min A (c_w C - 1) -> 0 <= A -> A + p <= c_w C -> r_len (c_row C) < c_w C -> 0 <= r_run (c_row C) + p ->
  r_len (c_row C) + (r_run (c_row C) + p) <= c_w C -> aset (r_cur (c_row C)) (r_ac (c_row C)) (r_run (c_row C) + p) = Ok cur' ->
  t6end C (runrow (c_w C) A p cur' (c_row C)) = Ok C' ->
  csteps C (cbits (tnth (rtab (r_black (c_row C))) p) ++ rest) C' rest.
Proof.
  intros He Hk Hi Hkk Hg Hr Ha HA Hw Hlen Hrun Hfit Hset Ht. pose proof (term_code_ok (r_black (c_row C)) p Hkk) as Hc.
  destruct (code_ok_parts _ _ _ _ Hc) as (P1 & P2 & P3 & P4 & P5). destruct (t6end_fields _ _ _ Ht) as (F1 & F2 & F3 & F4).
  apply consume; auto.
  set (r1 := mk_drow (r_2d (c_row C)) (r_len (c_row C) + (r_run (c_row C) + p)) 0 (if r_bw (c_row C) =? 0 then 0 else r_bw (c_row C) - 1) (negb (r_black (c_row C)))
          (Z.min A (c_w C - 1) + p) (r_b1 (c_row C)) (r_ac (c_row C) + 1) (r_bc (c_row C)) cur' (r_ref (c_row C))).
  rewrite (core_code_through C _ r1 (Z.of_nat (length (cbits (tnth (rtab (r_black (c_row C))) p))))); auto.
  - replace (clip (c_w C) r1) with (runrow (c_w C) A p cur' (c_row C)); [rewrite Ht; reflexivity|].
    unfold r1, runrow, clip. cbn [r_a0 r_run]. destruct (Z.leb_spec (c_w C) (Z.min A (c_w C - 1) + p)); unfold r_set_a; cbn [r_2d r_len r_run r_bw r_black r_a0 r_b1 r_ac r_bc r_cur r_ref]; f_equal; lia.
  - rewrite (decode_run C _ _ rest Hi Hc Hr). unfold code_1d. cbn [te_st te_param te_width].
    replace (is_makeup (r_black (c_row C)) (tmst (r_black (c_row C)))) with false by (destruct (r_black (c_row C)); reflexivity).
    replace (is_term (r_black (c_row C)) (tmst (r_black (c_row C)))) with true by (destruct (r_black (c_row C)); reflexivity).
    cbn [r_set_h r_len]. destruct (Z.ltb_spec (r_len (c_row C)) (c_w C)); [|lia].
    unfold add_run_to_row. cbn [r_set_h r_set_a r_2d r_len r_run r_bw r_black r_a0 r_b1 r_ac r_bc r_cur r_ref].
    destruct (Z.leb_spec 0 (r_run (c_row C) + p)); [|lia]. destruct (Z.leb_spec (r_len (c_row C) + (r_run (c_row C) + p)) (c_w C)); [|lia]. cbn [andb].
    rewrite Hset. cbn [rbind r_set_h r_2d r_len r_run r_bw r_black r_a0 r_b1 r_ac r_bc r_cur r_ref]. rewrite Ha. rewrite <- P4. cbn [te_width]. 
    unfold r1, r_set_h. cbn [r_2d r_len r_run r_bw r_black r_a0 r_b1 r_ac r_bc r_cur r_ref]. destruct (Z.eqb_spec (r_bw (c_row C)) 0) as [E0|E0]; [rewrite E0|]; reflexivity.
Qed.

(** a run of length 0 after the row is full: only the second run of horizontal mode *)
Lemma term_full C rest C' : 0 <= c_eols C -> c_skip C = 0 -> in_runs C -> Gap rest -> (12 <= length rest)%nat ->
  r_a0 (c_row C) = c_w C - 1 -> c_w C <= r_len (c_row C) ->
  t6end C (r_set_h (c_row C) (negb (r_black (c_row C))) (if r_bw (c_row C) =? 0 then 0 else r_bw (c_row C) - 1)) = Ok C' ->
  csteps C (cbits (tnth (rtab (r_black (c_row C))) 0) ++ rest) C' rest.
Proof.
  intros He Hk Hi Hg Hr Ha Hlen Ht. pose proof (term_code_ok (r_black (c_row C)) 0 ltac:(lia)) as Hc.
  destruct (code_ok_parts _ _ _ _ Hc) as (P1 & P2 & P3 & P4 & P5). destruct (t6end_fields _ _ _ Ht) as (F1 & F2 & F3 & F4).
  apply consume; auto.
  set (r1 := r_set_h (c_row C) (negb (r_black (c_row C))) (if r_bw (c_row C) =? 0 then 0 else r_bw (c_row C) - 1)) in *.
  rewrite (core_code_through C _ r1 (Z.of_nat (length (cbits (tnth (rtab (r_black (c_row C))) 0))))); auto.
  - replace (clip (c_w C) r1) with r1; [rewrite Ht; reflexivity|].
    unfold clip. destruct (Z.leb_spec (c_w C) (r_a0 r1)) as [HH|HH]; auto. change (r_a0 r1) with (r_a0 (c_row C)) in HH. lia.
  - rewrite (decode_run C _ _ rest Hi Hc Hr). unfold code_1d. cbn [te_st te_param te_width].
    replace (is_makeup (r_black (c_row C)) (tmst (r_black (c_row C)))) with false by (destruct (r_black (c_row C)); reflexivity).
    replace (is_term (r_black (c_row C)) (tmst (r_black (c_row C)))) with true by (destruct (r_black (c_row C)); reflexivity).
    cbn [r_set_h r_len]. destruct (Z.ltb_spec (r_len (c_row C)) (c_w C)); [lia|].
    cbn [rbind r_set_h r_2d r_len r_run r_bw r_black r_a0 r_b1 r_ac r_bc r_cur r_ref]. rewrite <- P4. cbn [te_width].
    unfold r1, r_set_h. cbn [r_2d r_len r_run r_bw r_black r_a0 r_b1 r_ac r_bc r_cur r_ref]. destruct (Z.eqb_spec (r_bw (c_row C)) 0) as [E0|E0]; [rewrite E0|]; reflexivity.
Qed.

(** ---- whole runs ---- *)
Lemma span_bits_cons x l : flat_map cbits (x :: l) = cbits x ++ flat_map cbits l. Proof. reflexivity. Qed.
Lemma runrow_adv C w A q p cur' : runrow w (A + q) p cur' (c_row (adv C A q)) = runrow w A (q + p) cur' (c_row C).
Proof. unfold runrow, adv. cbn [c_set c_row r_set_a r_2d r_len r_run r_bw r_black r_a0 r_b1 r_ac r_bc r_cur r_ref]. f_equal; lia. Qed.
Lemma t6end_adv C A q r : t6end (adv C A q) r = t6end C r.
Proof. reflexivity. Qed.
Lemma gap_span black p rest : 0 <= p -> Gap (span_bits (rtab black) p ++ rest).
Proof.
  intros Hp. unfold span_bits.
  assert (HH : exists x l, span_codes (rtab black) p = x :: l /\ headok (cbits x) = true).
  { unfold span_codes. set (k := if p <? 2624 then 0 else (p - 2624) / 2560 + 1). set (r := p - 2560 * k).
    assert (0 <= r < 2624 /\ 0 <= k) by (unfold r, k; destruct (Z.ltb_spec p 2624); Z.div_mod_to_equations; lia).
    destruct (Z.to_nat k) as [|n].
    - cbn [repeat app]. destruct (Z.leb_spec 64 r).
      + eexists; eexists; split; [reflexivity|]. apply (code_ok_parts _ _ _ _ (mk_code_ok black (r / 64) ltac:(Z.div_mod_to_equations; lia))).
      + eexists; eexists; split; [reflexivity|]. apply (code_ok_parts _ _ _ _ (term_code_ok black r ltac:(lia))).
    - cbn [repeat app]. eexists; eexists; split; [reflexivity|]. apply (code_ok_parts _ _ _ _ (mk_code_ok black 40 ltac:(lia))). }
  destruct HH as (x & l & -> & Hx). cbn [flat_map]. rewrite <- app_assoc. apply gap_app; auto.
Qed.
Lemma span_len12 tab p (rest : list bool) : (12 <= length rest)%nat -> (12 <= length (span_bits tab p ++ rest))%nat.
Proof. rewrite app_length. lia. Qed.

Lemma span_step n : forall C A p rest cur' C', p <= Z.of_nat n -> 0 <= c_eols C -> c_skip C = 0 -> in_runs C -> 0 <= p -> Gap rest -> (12 <= length rest)%nat ->
  r_a0 (c_row C) = Z.min A (c_w C - 1) -> 0 <= A -> A + p <= c_w C -> r_len (c_row C) < c_w C -> 0 <= r_run (c_row C) ->
  r_len (c_row C) + (r_run (c_row C) + p) <= c_w C -> aset (r_cur (c_row C)) (r_ac (c_row C)) (r_run (c_row C) + p) = Ok cur' ->
  t6end C (runrow (c_w C) A p cur' (c_row C)) = Ok C' ->
  csteps C (span_bits (rtab (r_black (c_row C))) p ++ rest) C' rest.
Proof.
  induction n as [n IH] using lt_wf_ind; intros C A p rest cur' C' Hn He Hk Hi Hp Hg Hr Ha HA Hw Hlen Hrun Hfit Hset Ht.
  assert (Adv : forall q, 0 <= q <= p -> 0 <= c_eols (adv C A q) /\ c_skip (adv C A q) = 0 /\ in_runs (adv C A q) /\ r_black (c_row (adv C A q)) = r_black (c_row C) /\
     r_a0 (c_row (adv C A q)) = Z.min (A + q) (c_w (adv C A q) - 1) /\ 0 <= r_run (c_row (adv C A q))
     /\ aset (r_cur (c_row (adv C A q))) (r_ac (c_row (adv C A q))) (r_run (c_row (adv C A q)) + (p - q)) = Ok cur'
     /\ t6end (adv C A q) (runrow (c_w (adv C A q)) (A + q) (p - q) cur' (c_row (adv C A q))) = Ok C').
  { intros q Hq. rewrite t6end_adv, runrow_adv. replace (q + (p - q)) with p by lia. cbn [adv c_set c_eols c_skip c_row r_set_a r_run r_cur r_ac r_a0 c_w r_black].
    replace (r_run (c_row C) + q + (p - q)) with (r_run (c_row C) + p) by lia. repeat split; auto; try lia. }
  destruct (Z.leb_spec 2624 p).
  - unfold span_bits. rewrite span_codes_long by lia. rewrite span_bits_cons, <- app_assoc. fold (span_bits (rtab (r_black (c_row C))) (p - 2560)).
    eapply csteps_trans.
    + change 103 with (63 + 40). apply (mk_step C A 40); auto; try lia; [apply gap_span; lia|apply span_len12; auto].
    + change (64 * 40) with 2560. destruct (Adv 2560 ltac:(lia)) as (Q1 & Q2 & Q3 & Q4 & Q5 & Q6 & Q7 & Q8). rewrite <- Q4.
      apply (IH (Z.to_nat (p - 2560)) ltac:(lia) _ (A + 2560) _ _ cur'); auto; try lia; cbn [adv c_set c_w c_row r_set_a r_len r_run]; lia.
  - unfold span_bits, span_codes. destruct (Z.ltb_spec p 2624); [|lia]. rewrite Z.mul_0_r, Z.sub_0_r. cbn [Z.to_nat repeat app].
    destruct (Z.leb_spec 64 p).
    + rewrite !span_bits_cons, <- app_assoc. cbn [flat_map]. rewrite app_nil_r.
      assert (Hq : 1 <= p / 64 <= 40 /\ 0 <= p - 64 * (p / 64) < 64) by (Z.div_mod_to_equations; lia).
      eapply csteps_trans.
      * apply (mk_step C A (p / 64)); auto; try lia.
        -- apply gap_app. apply (code_ok_parts _ _ _ _ (term_code_ok (r_black (c_row C)) (p - 64 * (p / 64)) ltac:(lia))).
        -- rewrite app_length. lia.
      * destruct (Adv (64 * (p / 64)) ltac:(lia)) as (Q1 & Q2 & Q3 & Q4 & Q5 & Q6 & Q7 & Q8). rewrite <- Q4.
        apply (term_step _ (A + 64 * (p / 64)) _ _ cur'); auto; try lia; cbn [adv c_set c_w c_row r_set_a r_len r_run]; lia.
    + cbn [flat_map]. rewrite app_nil_r. apply (term_step C A p _ cur'); auto; lia.
Qed.
