(** Rows coded one-dimensionally, and the ends of rows. *)
From Coq Require Import ZifyBool ZifyNat.
From Verif Require Import Base Bits T4_tables T4_enc_model T4_dec_model T4_spec T4_runs_proofs T4_bits_proofs T4_step_proofs T4_code_proofs T4_span_proofs T4_paint_proofs.

Record ready (w : Z) (e : Z) (C : core) (R : list Z) (rows : list (list Z)) : Prop := {
  rd_w : c_w C = w; rd_eols : c_eols C = e; rd_skip : c_skip C = 0;
  rd_len : r_len (c_row C) = 0; rd_run : r_run (c_row C) = 0; rd_bw : r_bw (c_row C) = 0; rd_black : r_black (c_row C) = false;
  rd_a0 : r_a0 (c_row C) = 0; rd_ac : r_ac (c_row C) = 0; rd_bc : r_bc (c_row C) = 1; rd_b1 : r_b1 (c_row C) = nth 0 R 0;
  rd_ref : exists j, r_ref (c_row C) = runs 0 R ++ 0 :: 0 :: j;
  rd_refl : Z.of_nat (length (r_ref (c_row C))) = w + 4; rd_curl : Z.of_nat (length (r_cur (c_row C))) = w + 4;
  rd_asc : asc (-1) R w; rd_img : imgok w (c_img C) rows }.
Record fullrow (w : Z) (r : drow) (T : list Z) : Prop := {
  fr_len : r_len r = w; fr_run : r_run r = 0; fr_bw : r_bw r = 0; fr_ac : r_ac r = Z.of_nat (length T);
  fr_cur : exists j, r_cur r = runs 0 T ++ j; fr_curl : Z.of_nat (length (r_cur r)) = w + 4; fr_refl : Z.of_nat (length (r_ref r)) = w + 4 }.
Record full (w : Z) (C : core) (T : list Z) (rows : list (list Z)) : Prop := {
  fu_w : c_w C = w; fu_eols : c_eols C = 0; fu_skip : c_skip C = 0; fu_row : fullrow w (c_row C) T; fu_img : imgok w (c_img C) rows }.

Fixpoint bits1d (b : bool) (p : Z) (T : list Z) : list bool :=
  match T with [] => [] | t :: T' => span_bits (rtab b) (t - p) ++ bits1d (negb b) t T' end.
Lemma gap_bits1d b p T rest lo w : asc lo T w -> p <= lo + 1 -> Gap (bits1d b p T ++ rest).
Proof. destruct T; cbn [asc]; [intros []|]. intros [H1 _] H. cbn [bits1d]. rewrite <- app_assoc. apply gap_span. lia. Qed.

Lemma bits1d_steps T : forall C D j lo p rest w, c_w C = w -> 0 <= c_eols C -> c_skip C = 0 -> c_enc C <> T6 -> asc lo T w -> 0 <= p <= lo + 1 -> p < w ->
  r_2d (c_row C) = false -> r_len (c_row C) = p -> r_run (c_row C) = 0 -> r_bw (c_row C) = 0 -> r_a0 (c_row C) = Z.min p (w - 1) ->
  r_ac (c_row C) = Z.of_nat (length D) -> r_cur (c_row C) = D ++ j -> (length T <= length j)%nat -> Gap rest -> (12 <= length rest)%nat ->
  exists b j', csteps C (bits1d (r_black (c_row C)) p T ++ rest)
    (c_set C (c_eols C) (mk_drow false w 0 0 b (w - 1) (r_b1 (c_row C)) (Z.of_nat (length D + length T)) (r_bc (c_row C)) (D ++ runs p T ++ j') (r_ref (c_row C))) (c_img C) 0) rest
    /\ (length j' + length T = length j)%nat.
Proof.
  induction T as [|t T IH]; intros C D j lo p rest w Hw He Hk Hn Hasc Hp Hpw H2 Hl Hr Hb Ha Hac Hcur Hj Hg Hrest; [destruct Hasc|].
  cbn [asc] in Hasc. destruct Hasc as [Ht Hasc]. cbn [length] in Hj. destruct j as [|x j]; [cbn [length] in Hj; lia|].
  assert (Htw : t <= w) by (destruct T; [lia|]; destruct Hasc; lia). cbn [bits1d]. rewrite <- app_assoc.
  set (r1 := mk_drow false t 0 0 (negb (r_black (c_row C))) (Z.min t (w - 1)) (r_b1 (c_row C)) (Z.of_nat (length (D ++ [t - p]))) (r_bc (c_row C)) ((D ++ [t - p]) ++ j) (r_ref (c_row C))).
  assert (St : forall rest', Gap rest' -> (12 <= length rest')%nat -> csteps C (span_bits (rtab (r_black (c_row C))) (t - p) ++ rest') (c_set C (c_eols C) r1 (c_img C) 0) rest').
  { intros rest' Hg' Hr'. apply (span_step (Z.to_nat (t - p)) C p (t - p) rest' (D ++ (t - p) :: j)); auto; try lia.
    - left; auto.
    - rewrite Hcur, Hac, Hr. apply aset_app.
    - rewrite t6end_no by auto. do 2 f_equal. unfold runrow, r1. rewrite Hl, Hr, Hb, H2, Hac. cbn [Z.eqb]. rewrite <- app_assoc, app_length. cbn [app length]. f_equal; lia. }
  destruct T as [|u T].
  - cbn [bits1d app]. subst w. exists (negb (r_black (c_row C))), j. split; [|cbn [length]; lia].
    replace (c_set C _ (mk_drow _ _ _ _ _ _ _ _ _ _ _) _ _) with (c_set C (c_eols C) r1 (c_img C) 0); [apply St; auto|].
    f_equal. unfold r1. rewrite <- app_assoc, app_length. cbn [runs app length]. f_equal; lia.
  - destruct Hasc as [Htw' Hasc].
    destruct (IH (c_set C (c_eols C) r1 (c_img C) 0) (D ++ [t - p]) j t t rest w) as (b & j' & S1 & S2); auto; try lia.
    { cbn [length] in *. lia. }
    exists b, j'. split; [|cbn [length] in *; lia].
    eapply csteps_trans; [apply St|].
    + eapply gap_bits1d; [exact Hasc|lia].
    + rewrite app_length. lia.
    + cbn [c_set c_row r1 r_black r_b1 r_bc r_ref c_eols c_img c_enc c_w] in S1.
      replace (c_set C _ (mk_drow _ _ _ _ _ _ _ _ _ _ _) _ _) with (c_set (c_set C (c_eols C) r1 (c_img C) 0) (c_eols C)
         (mk_drow false w 0 0 b (w - 1) (r_b1 (c_row C)) (Z.of_nat (length (D ++ [t - p]) + length (u :: T))) (r_bc (c_row C)) ((D ++ [t - p]) ++ runs t (u :: T) ++ j') (r_ref (c_row C))) (c_img C) 0); [exact S1|].
      unfold c_set. cbn [c_enc c_w]. f_equal. rewrite <- app_assoc, app_length. cbn [runs app length]. f_equal. lia.
Qed.
Lemma row1d_ok w C R rows T rest : 0 < w -> c_enc C <> T6 -> ready w 0 C R rows -> r_2d (c_row C) = false -> asc (-1) T w -> Gap rest -> (12 <= length rest)%nat ->
  exists C', csteps C (bits1d false 0 T ++ rest) C' rest /\ full w C' T rows /\ c_enc C' = c_enc C /\ r_2d (c_row C') = false.
Proof.
  intros Hw Hn [A1 A2 A3 A4 A5 A6 A7 A8 A9 A10 A11 A12 A13 A14 A15 A16] H2 Hasc Hg Hr. pose proof (asc_bound _ _ _ Hasc) as HT.
  destruct (bits1d_steps T C [] (r_cur (c_row C)) (-1) 0 rest w) as (b & j' & S1 & S2); auto; try lia.
  rewrite A7 in S1. eexists. split; [exact S1|]. split; [|split; reflexivity]. cbn [app length Nat.add] in *.
  constructor; cbn [c_set c_w c_eols c_skip c_row c_img]; auto.
  constructor; cbn [r_len r_run r_bw r_ac r_cur r_ref]; auto; [exists j'; reflexivity|].
  rewrite app_length, runs_length. lia.
Qed.

(** ---- fill and end of line ---- *)
Lemma gap_zeros z rest : Gap (repeat false z ++ eol12 ++ rest).
Proof. right. rewrite lz_app_full; [|rewrite repeat_length; induction z; cbn [repeat lz]; auto]. rewrite lz_app_lt by (vm_compute; lia). change (lz eol12) with 11%nat. lia. Qed.
Lemma lz_zeros z rest : lz (repeat false z ++ eol12 ++ rest) = (z + 11)%nat.
Proof. rewrite lz_app_full; [|rewrite repeat_length; induction z; cbn [repeat lz]; auto]. rewrite lz_app_lt by (vm_compute; lia). rewrite repeat_length. reflexivity. Qed.
Lemma null_white : all_leaves (E S_Null 1 0) (walk white_tree (repeat false 12)) = true. Proof. vm_compute. reflexivity. Qed.
Lemma null_black : all_leaves (E S_Null 1 0) (walk black_tree (repeat false 12)) = true. Proof. vm_compute. reflexivity. Qed.
Lemma null_mode : all_leaves (E S_Null 1 0) (walk mode_tree (repeat false 7)) = true. Proof. vm_compute. reflexivity. Qed.
Lemma fullrow_h w r T b : fullrow w r T -> fullrow w (r_set_h r b 0) T.
Proof. intros [A1 A2 A3 A4 A5 A6 A7]. constructor; auto. Qed.
Lemma firstn_lz n : forall l, (n <= lz l)%nat -> firstn n l = repeat false n.
Proof. induction n as [|n IH]; intros l H; [reflexivity|]. destruct l as [|[] l]; cbn [lz] in H; try lia. cbn [firstn repeat]. f_equal. apply IH. lia. Qed.
Lemma fill_one w C T rows l : 0 < w -> c_enc C <> T6 -> full w C T rows -> (13 <= length l)%nat -> (12 <= lz l)%nat ->
  exists C', csteps C l C' (skipn 1 l) /\ full w C' T rows /\ c_enc C' = c_enc C /\ r_2d (c_row C') = r_2d (c_row C).
Proof.
  intros Hw Hn [A1 A2 A3 A4 A5] Hl Hz.
  assert (Hsplit : exists l', l = repeat false 12 ++ l').
  { exists (skipn 12 l). rewrite <- (firstn_skipn 12 l) at 1. f_equal. clear - Hz.
    apply firstn_lz; auto. }
  destruct Hsplit as (l' & ->). 
  assert (Hne : is_eol (win (repeat false 12 ++ l')) = false).
  { destruct (is_eol (win (repeat false 12 ++ l'))) eqn:Ee; auto. apply is_eol_lz in Ee; lia. }
  assert (HD : exists r', decode_code w (c_row C) (win (repeat false 12 ++ l')) = Ok (r', 1, false) /\ r' = c_row C \/
               decode_code w (c_row C) (win (repeat false 12 ++ l')) = Ok (r', 1, true) /\ exists b, r' = r_set_h (c_row C) b 0).
  { unfold decode_code. destruct (r_2d (c_row C) && (r_bw (c_row C) =? 0)).
    - pose proof (lookup 7 t4_2d_table (repeat false 7) (E S_Null 1 0) (repeat false 5 ++ l')) as HH. change (Z.ones (Z.of_nat 7)) with 0x7F in HH.
      change (repeat false 12 ++ l') with (repeat false 7 ++ repeat false 5 ++ l'). rewrite HH; [|reflexivity|exact null_mode|cbn [repeat length]; lia|rewrite !app_length, !repeat_length; lia|lia].
      cbn [rbind te_width]. destruct (Z.leb_spec w (r_len (c_row C))); [eauto|]. destruct A4. lia.
    - assert (HT : (if r_black (c_row C) then tget t4_1d_black_table (Z.land (win (repeat false 12 ++ l')) 0x1FFF) else tget t4_1d_white_table (Z.land (win (repeat false 12 ++ l')) 0xFFF)) = Ok (E S_Null 1 0)).
      { destruct (r_black (c_row C)).
        - pose proof (lookup 13 t4_1d_black_table (repeat false 12) (E S_Null 1 0) l') as HH. change (Z.ones (Z.of_nat 13)) with 0x1FFF in HH.
          apply HH; [vm_compute; reflexivity|rewrite black_tree_ok; exact null_black|cbn [repeat length]; lia|lia|lia].
        - pose proof (lookup 12 t4_1d_white_table (repeat false 12) (E S_Null 1 0) l') as HH. change (Z.ones (Z.of_nat 12)) with 0xFFF in HH.
          apply HH; [vm_compute; reflexivity|rewrite white_tree_ok; exact null_white|cbn [repeat length]; lia|lia|lia]. }
      rewrite HT. cbn [rbind]. unfold code_1d. cbn [te_st is_makeup is_term te_width rbind]. eexists. right. split; [reflexivity|]. eauto. }
  destruct HD as (r' & [[HD ->]|[HD [b ->]]]).
  - exists C. split; [|split; auto; constructor; auto].
    eapply cs_step with (n := 1%nat); [exact Hl| |constructor].
    unfold cstep. rewrite A2. cbn [Z.ltb Z.compare]. rewrite Hne, A3. cbn [Z.eqb negb]. unfold core_code. rewrite A1, HD. cbn [rbind andb]. cbn [c_set c_eols c_row c_img c_skip].
    rewrite ?A2, ?A3. assert (HC : c_set C 0 (c_row C) (c_img C) 0 = C) by (rewrite <- A2 at 1; apply c_set_id; auto).
    change (Ok (c_set C 0 (c_row C) (c_img C) 0, 1%nat, false) = Ok (C, 1%nat, false)). rewrite HC. reflexivity.
  - exists (c_set C 0 (clip w (r_set_h (c_row C) b 0)) (c_img C) 0). split; [|split; [|split; [reflexivity|cbn [c_set c_row]; unfold clip; destruct (_ <=? _); reflexivity]]].
    + eapply cs_step with (n := 1%nat); [exact Hl| |constructor].
      unfold cstep. rewrite A2. cbn [Z.ltb Z.compare]. rewrite Hne, A3. cbn [Z.eqb negb].
      rewrite (core_code_through C _ (r_set_h (c_row C) b 0) 1) by (auto; rewrite A1; exact HD). rewrite t6end_no by auto. cbn [rbind c_set c_eols c_row c_img c_skip]. rewrite A1, A2. reflexivity.
    + constructor; auto. cbn [c_set c_row]. pose proof (fullrow_h w _ T b A4) as HF. unfold clip. destruct (_ <=? _); auto. destruct HF as [F1 F2 F3 F4 F5 F6 F7]. constructor; auto.
Qed.
Lemma fill_steps z : forall w C T rows rest, 0 < w -> c_enc C <> T6 -> full w C T rows -> (1 <= length rest)%nat ->
  exists C', csteps C (repeat false z ++ eol12 ++ rest) C' (eol12 ++ rest) /\ full w C' T rows /\ c_enc C' = c_enc C /\ r_2d (c_row C') = r_2d (c_row C).
Proof.
  induction z as [|z IH]; intros w C T rows rest Hw Hn HF Hr.
  - exists C. split; [constructor|auto].
  - destruct (fill_one w C T rows (repeat false (S z) ++ eol12 ++ rest) Hw Hn HF) as (C1 & S1 & F1 & N1 & M1).
    { rewrite !app_length, repeat_length. change (length eol12) with 12%nat. lia. }
    { rewrite lz_zeros. lia. }
    destruct (IH w C1 T rows rest Hw ltac:(congruence) F1 Hr) as (C2 & S2 & F2 & N2 & M2). exists C2. split; [|split; [auto|split; congruence]].
    eapply csteps_trans; [exact S1|exact S2].
Qed.

Definition eolbits (enc : Z) (is2d : bool) : list bool := if enc =? T4_2D then eol12 ++ [negb is2d] else eol12.
Definition tag2d (enc : Z) (is2d : bool) : bool := if enc =? T4_2D then is2d else false.
Lemma eol_is l : is_eol (win (eol12 ++ l)) = true.
Proof. apply is_eol_lz; [rewrite app_length; change (length eol12) with 12%nat; lia|reflexivity]. Qed.
Lemma tag_land b l : (Z.land (win (eol12 ++ [b] ++ l)) 0x1000 =? 0) = negb b.
Proof. unfold win. change (firstn 13 (eol12 ++ [b] ++ l)) with (eol12 ++ [b]). destruct b; reflexivity. Qed.

(** T.4: the EOL after a full row *)
Lemma eol_full w C row rows rest enc is2d : 0 < w -> w mod 8 = 0 -> row_ok w row -> c_enc C = enc -> enc <> T6 -> full w C (transitions w row) rows -> (1 <= length rest)%nat ->
  (enc = T4_1D -> r_2d (c_row C) = false) -> enc = T4_1D \/ enc = T4_2D ->
  exists C', csteps C (eolbits enc is2d ++ rest) C' rest /\ ready w 0 C' (transitions w row) (rows ++ [row]) /\ c_enc C' = c_enc C /\ r_2d (c_row C') = tag2d enc is2d.
Proof.
  intros Hw H8 Hrow Henc Hn [A1 A2 A3 [F1 F2 F3 F4 [j F5] F6 F7] A5] Hr Hd1 Hen.
  destruct (put_row_ok w (c_row C) (c_img C) row rows j) as (im' & j' & P1 & P2 & P3); auto.
  assert (HE : exists l, eolbits enc is2d ++ rest = eol12 ++ l).
  { unfold eolbits. destruct (enc =? T4_2D); rewrite <- ?app_assoc; eauto. }
  eexists. split; [|split; [|split]].
  - eapply cs_step with (n := length (eolbits enc is2d)).
    + destruct HE as (l & HE). unfold eolbits. destruct (enc =? T4_2D); rewrite !app_length; change (length eol12) with 12%nat; cbn [length]; lia.
    + unfold cstep. rewrite A2. cbn [Z.ltb Z.compare]. destruct HE as (l & HE). rewrite HE, eol_is. rewrite <- HE.
      unfold core_eol. rewrite F1. destruct (Z.eqb_spec w 0); [lia|]. cbn [andb]. rewrite F2. cbn [Z.ltb Z.compare rbind]. rewrite A1, P1. cbn [rbind]. rewrite Henc.
      instantiate (1 := c_set C 0 (row_start (if enc =? T4_2D then _ else _)) _ 0).
      unfold eolbits. destruct (enc =? T4_2D); reflexivity.
    + rewrite skipn_app, skipn_all, Nat.sub_diag. cbn [app skipn]. constructor.
  - constructor; cbn [c_set c_w c_eols c_skip c_row c_img]; auto; try (destruct (enc =? T4_2D); reflexivity); try (destruct (enc =? T4_2D); eauto; fail); auto using trans_asc with zarith.
    exists j'. destruct (enc =? T4_2D); reflexivity.
  - reflexivity.
  - cbn [c_set c_row]. unfold tag2d, eolbits. destruct (Z.eqb_spec enc T4_2D).
    + cbn [row_start r_set_2d r_2d]. rewrite <- app_assoc, tag_land. apply negb_involutive.
    + cbn [row_start r_2d]. apply Hd1. destruct Hen; auto; congruence.
Qed.
