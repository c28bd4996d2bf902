(** The T.85 encoder turns a row into its decisions. *)
From Verif Require Import Base Bits Arith_model Arith_spec Arith_enc_proofs Arith_dec_proofs T85_enc_model T85_dec_model T85_arith_proofs T85_pscd_proofs T85_run_proofs T85_feed_proofs T85_ctx_proofs T85_row_proofs T85_coded_proofs.
From Coq Require Import ZifyBool ZifyNat.
Local Open Scope Z_scope.

Lemma encode_all_app a : forall e b, encode_all e (a ++ b) =
  do (e1, o1) <- encode_all e a; do (e2, o2) <- encode_all e1 b; Ok (e2, o1 ++ o2).
Proof.
  induction a as [|[cx p] a IH]; intros e b; cbn [app encode_all rbind].
  - destruct (encode_all e b) as [[e2 o2]|]; reflexivity.
  - destruct (t81_t82_arith_encode e cx p) as [[e1 o1]|]; [|reflexivity]. cbn [rbind]. rewrite IH. destruct (encode_all e1 a) as [[e2 o2]|]; [|reflexivity]. cbn [rbind].
    destruct (encode_all e2 b) as [[e3 o3]|]; [|reflexivity]. cbn [rbind]. rewrite app_assoc. reflexivity.
Qed.

Section EROW.
Variable c : par.
Variable o : Z.
Hypothesis PC : par_ok c.
Hypothesis MX : 0 <= mx c <= 127.
Hypothesis BPR : bytes_per_row (xd c) = bpr c.

Definition tx_in (t : Z) : Prop := t = 0 \/ first_t o <= t <= mx c.
Record aok (a : atv) : Prop := {
  k_len : length (a_c a) = 128%nat; k_tx : tx_in (a_tx a); k_new : a_new a = -1 \/ tx_in (a_new a) }.

Lemma bump_ok l t : length l = 128%nat -> 0 <= t < 128 -> exists l', bump l t = Ok l' /\ length l' = 128%nat.
Proof. intros H Ht. unfold bump. rewrite aget_ok by lia. cbn [rbind]. rewrite aset_ok by lia. eexists. split; [reflexivity|]. rewrite upd_length. exact H. Qed.

Lemma first_t_pos : 3 <= first_t o <= 5. Proof. unfold first_t. destruct (opt o T85_LRLTWO); lia. Qed.

Lemma count_ok r0 j p n : forall t l, length l = 128%nat -> 0 <= t -> t + Z.of_nat n <= 128 -> 0 <= j < 8 * Z.of_nat (length r0) -> exists l', count_matches n t j p r0 l = Ok l' /\ length l' = 128%nat.
Proof.
  induction n as [|n IH]; intros t l Hl Ht Hn Hj; cbn [count_matches]; [exists l; auto|].
  assert (E : exists l1, (if t <=? j then do a <- pixel_back r0 j t; if a =? p then bump l t else Ok l else if p =? 0 then bump l t else Ok l) = Ok l1 /\ length l1 = 128%nat).
  { destruct (Z.leb_spec t j).
    - rewrite pixel_back_ok by lia. cbn [rbind]. destruct (_ =? p); [apply bump_ok; auto; lia|exists l; auto].
    - destruct (p =? 0); [apply bump_ok; auto; lia|exists l; auto]. }
  destruct E as (l1 & -> & H1). cbn [rbind]. apply IH; auto; lia.
Qed.

Lemma stats_ok a r0 h1 j p : aok a -> 0 <= j < 8 * Z.of_nat (length r0) -> exists a', update_stats (xd c) (mx c) o a r0 h1 j p = Ok a' /\ aok a' /\ a_tx a' = a_tx a /\ a_new a' = a_new a.
Proof.
  intros [K1 K2 K3] Hj. unfold update_stats. destruct (_ && _); [|exists a; repeat split; assumption].
  assert (E : exists l1, (if p =? Z.land (Z.shiftr h1 14) 1 then bump (a_c a) 0 else Ok (a_c a)) = Ok l1 /\ length l1 = 128%nat).
  { destruct (_ =? _); [apply bump_ok; auto; lia|eexists; split; [reflexivity|exact K1]]. }
  destruct E as (l1 & -> & H1). cbn [rbind]. pose proof first_t_pos.
  destruct (count_ok r0 j p (Z.to_nat (mx c - first_t o + 1)) (first_t o) l1 H1 ltac:(lia)) as (l2 & -> & H2); [lia|exact Hj|].
  cbn [rbind]. eexists. split; [reflexivity|]. cbn [a_tx a_new]. repeat split; auto.
Qed.

Lemma lo_range x : 1 <= lo_of x <= 8. Proof. unfold lo_of. destruct (Z.eqb_spec (x mod 8) 0); Z.div_mod_to_equations; lia. Qed.

Lemma enc_pixels n : forall a e h0 h1 h2 j r0 r1 r2 e' out,
  HR 7 r0 j (lo_of j) h0 -> HR 15 r1 j (lo_of j) h1 -> HR 15 r2 j (lo_of j) h2 -> row_ok c r0 -> row_ok c r1 -> row_ok c r2 ->
  0 <= j -> j + Z.of_nat n = xd c -> aok a ->
  encode_all e (pix_ds o (a_tx a) r0 r1 r2 n j) = Ok (e', out) ->
  exists a', encode_pixels n (xd c) (mx c) o r0 r1 r2 a e h0 h1 h2 j = Ok (a', e', out) /\ aok a' /\ a_tx a' = a_tx a /\ a_new a' = a_new a.
Proof.
  induction n as [|n IH]; intros a e h0 h1 h2 j r0 r1 r2 e' out H0 H1 H2 K0 K1 K2 Hj Hn Ka E.
  - cbn [pix_ds encode_all] in E. injection E as <- <-. exists a. split; [reflexivity|]. auto.
  - cbn [pix_ds encode_all] in E. cbn [encode_pixels].
    pose proof (r_len _ _ K0) as L0. pose proof (r_len _ _ K1) as L1. pose proof (r_len _ _ K2) as L2. destruct PC as (HX & HB).
    assert (EL : exists g0 g1 g2, (if Z.land j 7 =? 0 then
           do b0 <- aget r0 (Z.shiftr j 3);
           if j <? (bytes_per_row (xd c) - 1) * 8 then
             do b1 <- aget r1 (Z.shiftr j 3 + 1);
             do b2 <- aget r2 (Z.shiftr j 3 + 1);
             Ok (Z.lor h0 b0, Z.lor h1 b1, Z.lor h2 b2)
           else Ok (Z.lor h0 b0, h1, h2)
         else Ok (h0, h1, h2)) = Ok (g0, g1, g2) /\ HR 7 r0 j (j mod 8) g0 /\ HR 15 r1 j (j mod 8) g1 /\ HR 15 r2 j (j mod 8) g2).
    { rewrite land7, shr3, BPR. destruct (Z.eqb_spec (j mod 8) 0) as [Em|Em].
      - rewrite aget_ok by (Z.div_mod_to_equations; lia). cbn [rbind]. rewrite Em.
        assert (G0 : HR 7 r0 j 0 (Z.lor h0 (nth (Z.to_nat (j / 8)) r0 0))).
        { apply HR_load; [|apply K0|Z.div_mod_to_equations; lia|Z.div_mod_to_equations; lia]. unfold lo_of in H0. replace (j mod 8 =? 0) with true in H0 by lia. exact H0. }
        destruct (Z.ltb_spec j ((bpr c - 1) * 8)).
        + rewrite !aget_ok by (Z.div_mod_to_equations; lia). cbn [rbind]. eexists _, _, _. split; [reflexivity|]. split; [exact G0|].
          split; eapply HR_load_row; eauto; lia.
        + eexists _, _, _. split; [reflexivity|]. split; [exact G0|]. split; eapply HR_end_row; eauto; lia.
      - eexists _, _, _. split; [reflexivity|]. unfold lo_of in H0, H1, H2. replace (j mod 8 =? 0) with false in * by lia. auto. }
    destruct EL as (g0 & g1 & g2 & -> & G0 & G1 & G2). cbn [rbind].
    assert (Jm : 0 <= j mod 8 <= 7) by (Z.div_mod_to_equations; lia).
    apply HR_shift in G0; [|lia]. apply HR_shift in G1; [|lia]. apply HR_shift in G2; [|lia].
    assert (TX : 0 <= a_tx a). { destruct (k_tx _ Ka) as [->|T]; [lia|]. pose proof first_t_pos. lia. }
    rewrite (enc_context_ok o (a_tx a) r0 r1 r2 j (j mod 8 + 1) _ _ _ G0 G1 G2 ltac:(lia) TX ltac:(lia)). cbn [rbind].
    rewrite (enc_pixel_ok r0 j _ _ G0 ltac:(lia)).
    destruct (t81_t82_arith_encode e (ctx o (a_tx a) r0 r1 r2 j) (Z.b2z (bit r0 j))) as [[e1 o1]|]; [|discriminate]. cbn [rbind] in E |- *.
    destruct (encode_all e1 (pix_ds o (a_tx a) r0 r1 r2 n (j + 1))) as [[e2 o2]|] eqn:E2; [|discriminate]. cbn [rbind] in E. injection E as <- <-.
    destruct (stats_ok a r0 (u32 (Z.shiftl g1 1)) j (Z.b2z (bit r0 j)) Ka ltac:(lia)) as (a1 & -> & Ka1 & T1 & T2). cbn [rbind].
    assert (LO : j mod 8 + 1 = lo_of (j + 1)). { unfold lo_of. destruct (Z.eqb_spec ((j + 1) mod 8) 0); Z.div_mod_to_equations; lia. }
    rewrite LO in G0, G1, G2. rewrite <- T1 in E2.
    destruct (IH a1 e1 _ _ _ (j + 1) r0 r1 r2 e2 o2 G0 G1 G2 K0 K1 K2 ltac:(lia) ltac:(lia) Ka1 E2) as (a2 & -> & Ka2 & U1 & U2). cbn [rbind].
    exists a2. split; [reflexivity|]. split; [exact Ka2|]. split; congruence.
Qed.

Lemma enc_row a e r0 r1 r2 e' out : row_ok c r0 -> row_ok c r1 -> row_ok c r2 -> aok a ->
  encode_all e (pix_ds o (a_tx a) r0 r1 r2 (Z.to_nat (xd c)) 0) = Ok (e', out) ->
  exists a', encode_row (xd c) (mx c) o r0 r1 r2 a e = Ok (a', e', out) /\ aok a' /\ a_tx a' = a_tx a /\ a_new a' = a_new a.
Proof.
  intros K0 K1 K2 Ka E. unfold encode_row. destruct PC as (HX & HB). pose proof (r_len _ _ K1). pose proof (r_len _ _ K2). rewrite !aget_ok by lia. cbn [rbind].
  apply enc_pixels; auto; try lia; change (lo_of 0) with 8.
  - apply HR_start.
  - apply (HR_first r1), K1.
  - apply (HR_first r2), K2.
Qed.

Lemma scan_ok l n : forall i cmin cmax tmax, length l = 128%nat -> 0 <= i -> i + Z.of_nat n <= 128 -> (tmax = 0 \/ 0 <= tmax < i) -> 0 <= tmax < 128 ->
  exists a b t, at_scan n i cmin cmax tmax l = Ok (a, b, t) /\ (t = tmax \/ i <= t < i + Z.of_nat n).
Proof.
  induction n as [|n IH]; intros i cmin cmax tmax Hl Hi Hn Ht Ht2; cbn [at_scan].
  - eexists _, _, _. split; [reflexivity|]. auto.
  - rewrite !aget_ok by lia. cbn [rbind].
    match goal with |- context [at_scan n (i + 1) ?a ?b ?t l] => destruct (IH (i + 1) a b t Hl) as (a' & b' & t' & -> & Hr) end; try lia.
    + destruct (_ <? _); lia.
    + destruct (_ <? _); lia.
    + eexists _, _, _. split; [reflexivity|]. destruct (_ <? _) in Hr; lia.
Qed.

Lemma analysis_ok a : aok a -> exists a', atmove_analysis (mx c) o a = Ok a' /\ aok a' /\ a_tx a' = a_tx a.
Proof.
  intros K. unfold atmove_analysis. destruct (_ && _); [|exists a; auto]. destruct K as [K1 K2 K3]. pose proof first_t_pos.
  destruct (scan_ok (a_c a) (Z.to_nat (mx c - first_t o + 1)) (first_t o) 4294967295 0 0 K1) as (x & y & t & -> & Ht); try lia. cbn [rbind].
  rewrite aget_ok by lia. cbn [rbind]. rewrite aget_ok by (unfold tx_in in K2; lia). cbn [rbind]. eexists. split; [reflexivity|]. split; [|reflexivity].
  constructor; cbn [a_c a_tx a_new]; auto. right. destruct (_ && _); [|exact K2]. unfold tx_in. lia.
Qed.

Lemma clear_ok l : length l = 128%nat -> exists l', clear_c (mx c) l = Ok l' /\ length l' = 128%nat.
Proof. intros H. unfold clear_c. destruct (ablit_len l 0 (repeat 0 (Z.to_nat (mx c + 1)))) as (l' & E & L); [lia|rewrite repeat_length; lia|]. exists l'. split; [exact E|lia]. Qed.

Lemma eqb_rows_ok r0 r1 : row_ok c r0 -> row_ok c r1 -> eqb_rows r0 r1 (bpr c) = Ok (same_row r0 r1).
Proof.
  intros K0 K1. pose proof (r_len _ _ K0) as L0. pose proof (r_len _ _ K1) as L1. destruct PC as (HX & HB). unfold eqb_rows, aslice. replace (bpr c <=? 0) with false by lia.
  replace ((0 <=? 0) && (0 + bpr c <=? Z.of_nat (length r0))) with true by lia. cbn [rbind].
  replace ((0 <=? 0) && (0 + bpr c <=? Z.of_nat (length r1))) with true by lia. cbn [rbind]. change (Z.to_nat 0) with 0%nat. cbn [skipn].
  rewrite !firstn_all2 by lia. reflexivity.
Qed.
End EROW.
