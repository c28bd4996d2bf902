(** The decompressor reads the bits of a page back to its rows. *)
From Coq Require Import ZifyBool ZifyNat.
From Verif Require Import Base Bits T4_tables T4_enc_model T4_dec_model T4_spec T4_runs_proofs T4_bits_proofs T4_step_proofs T4_code_proofs T4_span_proofs T4_paint_proofs T4_row_proofs T4_2d_proofs T4_2denc_proofs T4_epage_proofs.

Lemma eolbits_pre en d l : exists l', eolbits en d ++ l = eol12 ++ l' /\ (length l <= length l')%nat.
Proof. unfold eolbits. destruct (en =? T4_2D); [|eauto]. rewrite <- app_assoc. exists ([negb d] ++ l). split; auto. cbn [app length]. lia. Qed.
Lemma eolbits_len en d : (12 <= length (eolbits en d) <= 13)%nat.
Proof. pose proof (eol_len en d). destruct (en =? T4_2D); lia. Qed.

(** an EOL when nothing of the row has been read yet *)
Definition limit (en : Z) : Z := if en =? T6 then EOLS_T6 else EOLS_T4.
Lemma eol_empty w e C R rows rest en d : c_enc C = en -> ready w e C R rows -> 0 <= e -> e + 1 < limit en -> (1 <= length rest)%nat ->
  exists C', csteps C (eolbits en d ++ rest) C' rest /\ ready w (e + 1) C' R rows /\ c_enc C' = en.
Proof.
  intros Henc [A1 A2 A3 A4 A5 A6 A7 A8 A9 A10 A11 A12 A13 A14 A15 A16] He Hlim Hr. destruct (eolbits_pre en d rest) as (l' & E1 & E2).
  eexists. split; [|split].
  - eapply cs_step with (n := length (eolbits en d)).
    + pose proof (eolbits_len en d). rewrite app_length. lia.
    + unfold cstep. rewrite A2. destruct (Z.ltb_spec e 0); [lia|]. rewrite E1, eol_is. rewrite <- E1. unfold core_eol. rewrite A2, A4, Henc. cbn [Z.eqb andb]. fold (limit en).
      destruct (Z.leb_spec (limit en) (e + 1)); [lia|]. cbn [rbind].
      instantiate (1 := c_set C (e + 1) (row_start (if en =? T4_2D then _ else _)) (c_img C) 0).
      unfold eolbits. destruct (en =? T4_2D); reflexivity.
    + rewrite skipn_app, skipn_all, Nat.sub_diag. cbn [app skipn]. constructor.
  - constructor; cbn [c_set c_w c_eols c_skip c_row c_img]; auto; try (destruct (en =? T4_2D); cbn [row_start r_set_2d r_len r_run r_bw r_black r_a0 r_ac r_bc r_b1 r_ref r_cur]; auto).
  - exact Henc.
Qed.
Lemma eols_empty n : forall w e C R rows rest en, c_enc C = en -> ready w e C R rows -> 0 <= e -> e + Z.of_nat n < limit en -> (1 <= length rest)%nat ->
  exists C', csteps C (eols n en false ++ rest) C' rest /\ ready w (e + Z.of_nat n) C' R rows /\ c_enc C' = en.
Proof.
  induction n as [|n IH]; intros w e C R rows rest en Henc HR He Hl Hr; cbn [eols].
  - exists C. split; [constructor|]. rewrite Z.add_0_r. auto.
  - rewrite <- app_assoc. destruct (eol_empty w e C R rows (eols n en false ++ rest) en false Henc HR He ltac:(lia)) as (C1 & S1 & R1 & E1). { rewrite app_length. lia. }
    destruct (IH w (e + 1) C1 R rows rest en E1 R1 ltac:(lia) ltac:(lia) Hr) as (C2 & S2 & R2 & E2). exists C2. split; [eapply csteps_trans; eauto|].
    replace (e + Z.of_nat (S n)) with (e + 1 + Z.of_nat n) by lia. auto.
Qed.
(** the last one *)
Lemma eol_stop w e C R rows rest en : c_enc C = en -> ready w e C R rows -> 0 <= e -> limit en <= e + 1 -> 
  cstep C (win (eol12 ++ rest)) = Ok (c_set C EOLS_ANY (c_row C) (c_img C) (c_skip C), 0%nat, true).
Proof.
  intros Henc HR He Hl. destruct HR as [A1 A2 A3 A4 A5 A6 A7 A8 A9 A10 A11 A12 A13 A14 A15 A16]. unfold cstep. rewrite A2. destruct (Z.ltb_spec e 0); [lia|]. rewrite eol_is.
  unfold core_eol. rewrite A2, A4, Henc. cbn [Z.eqb andb]. fold (limit en). destruct (Z.leb_spec (limit en) (e + 1)); [|lia]. reflexivity.
Qed.

(** ---- what follows a row ---- *)
Lemma stream_len en w first R rows l : stream en w first R rows l -> (13 <= length l)%nat.
Proof.
  induction 1; cbn [eols]; rewrite ?app_length; pose proof (eolbits_len en false); try pose proof (eolbits_len en d); lia.
Qed.
Lemma stream_gap en w first R rows l : stream en w first R rows l -> 0 < w -> Gap l.
Proof.
  intros H Hw. inversion H; subst.
  - cbn [eols]. rewrite <- !app_assoc. match goal with |- Gap (_ ++ eolbits en false ++ ?x) => destruct (eolbits_pre en false x) as (l' & E1 & E2); rewrite E1 end. apply gap_zeros.
  - match goal with |- Gap (_ ++ eolbits en d ++ ?x) => destruct (eolbits_pre en d x) as (l' & E1 & E2); rewrite E1 end. apply gap_zeros.
  - cbn [eols]. rewrite <- !app_assoc. match goal with |- Gap (eolbits ?e false ++ ?x) => destruct (eolbits_pre e false x) as (l' & E1 & E2); rewrite E1 end. apply (gap_zeros 0).
  - eapply codes_gap; [eassumption|lia].
Qed.

Lemma d2_start w R T rows C : 0 < w -> asc (-1) T w -> ready w 0 C R rows -> r_2d (c_row C) = true -> d2 w R T rows C (-1) 0 0.
Proof.
  intros Hw HT [A1 A2 A3 A4 A5 A6 A7 A8 A9 A10 A11 A12 A13 A14 A15 A16] H2. pose proof (at_nonneg R w Hw A15 0 ltac:(lia)). pose proof (at_nonneg T w Hw HT 0 ltac:(lia)).
  constructor; rewrite ?(at_neg T w (0 - 1)), ?(at_neg R w (0 - 2)) by lia; auto; try lia.
  - rewrite A11. rewrite Z.max_r by lia. unfold at_. cbn [Z.ltb Z.compare Z.to_nat]. destruct R; [destruct A15|reflexivity].
  - exists (r_cur (c_row C)). reflexivity.
Qed.

Lemma dec4 en w first R rest l : stream en w first R rest l -> 0 < w -> w mod 8 = 0 -> en = T4_1D \/ en = T4_2D -> forall row C done, R = transitions w row -> row_ok w row ->
  full w C R done -> c_enc C = en -> (en = T4_1D -> r_2d (c_row C) = false) ->
  exists C' Rl pad, csteps C l C' (eolbits en false ++ repeat true pad) /\ (pad < 8)%nat /\ ready w 4 C' Rl (done ++ row :: rest) /\ c_enc C' = en.
Proof.
  intros HS Hw H8 Hen. assert (Hn6 : en <> T6) by (unfold T4_1D, T4_2D, T6 in *; lia).
  induction HS as [first R z pad Hn Hf Hp|first R row' rows z d l1 l2 Hn Hf Hr' Hd HB HS IH|first R pad Hn Hp|first R row' rows l1 l2 Hn Hr' HB HS IH]; intros row C done HR Hrow HF He H1; try congruence.
  - cbn [eols]. rewrite <- !app_assoc. match goal with |- context [repeat false z ++ eolbits en false ++ ?x] => set (X := x) end.
    assert (HX : (1 <= length X)%nat) by (unfold X; rewrite app_length; pose proof (eolbits_len en false); lia).
    destruct (eolbits_pre en false X) as (l' & E1 & E2). rewrite E1.
    destruct (fill_steps z w C R done l' Hw ltac:(congruence) HF ltac:(lia)) as (C1 & S1 & F1 & N1 & M1). rewrite <- E1 in *. subst R.
    destruct (eol_full w C1 row done X en false Hw H8 Hrow ltac:(congruence) Hn6 F1 HX ltac:(intros; rewrite M1; auto) Hen) as (C2 & S2 & R2 & N2 & M2).
    assert (Hlim : limit en = 5) by (unfold limit; destruct (Z.eqb_spec en T6); [congruence|reflexivity]).
    destruct (eols_empty 4 w 0 C2 _ _ (eolbits en false ++ repeat true pad) en ltac:(congruence) R2 ltac:(lia) ltac:(lia)) as (C3 & S3 & R3 & N3). { rewrite app_length. pose proof (eolbits_len en false). lia. }
    exists C3, (transitions w row), pad. split; [|split; [auto|split; auto]].
    + eapply csteps_trans; [exact S1|]. eapply csteps_trans; [exact S2|]. unfold X. cbn [eols] in S3. rewrite <- ?app_assoc in S3. exact S3.
  - pose proof (stream_len _ _ _ _ _ _ HS) as L2. pose proof (stream_gap _ _ _ _ _ _ HS Hw) as G2.
    destruct (eolbits_pre en d (l1 ++ l2)) as (l' & E1 & E2). rewrite E1. rewrite app_length in E2.
    destruct (fill_steps z w C R done l' Hw ltac:(congruence) HF ltac:(lia)) as (C1 & S1 & F1 & N1 & M1). rewrite <- E1 in *. subst R.
    destruct (eol_full w C1 row done (l1 ++ l2) en d Hw H8 Hrow ltac:(congruence) Hn6 F1 ltac:(rewrite app_length; lia) ltac:(intros; rewrite M1; auto) Hen) as (C2 & S2 & R2 & N2 & M2).
    assert (HT : asc (-1) (transitions w row') w) by (apply trans_asc; auto; lia).
    assert (HRow : exists C3, csteps C2 (l1 ++ l2) C3 l2 /\ full w C3 (transitions w row') (done ++ [row]) /\ c_enc C3 = en /\ (en = T4_1D -> r_2d (c_row C3) = false)).
    { destruct d; cbn [rowbits] in HB.
      - assert (E2d : en = T4_2D) by (destruct Hen; auto; specialize (Hd H); discriminate).
        destruct (codes_decode w (transitions w row) row' (done ++ [row]) (-1) 0 l1 Hw H8 (rd_asc _ _ _ _ _ R2) Hr' HB C2 0 l2) as (C3 & S3 & N3 & M3 & F3); auto; try lia.
        { apply d2_start; auto. rewrite M2. unfold tag2d. rewrite E2d. reflexivity. }
        destruct (Z.eqb_spec (c_enc C2) T6); [congruence|]. exists C3. split; auto. split; auto. split; [congruence|]. intros; unfold T4_1D, T4_2D in *; lia.
      - subst l1. destruct (row1d_ok w C2 (transitions w row) (done ++ [row]) (transitions w row') l2 Hw ltac:(congruence) R2) as (C3 & S3 & F3 & N3 & M3); auto; try lia.
        { rewrite M2. unfold tag2d. destruct (en =? T4_2D); reflexivity. }
        exists C3. split; auto. split; auto. split; [congruence|]. auto. }
    destruct HRow as (C3 & S3 & F3 & N3 & M3).
    destruct (IH row' C3 (done ++ [row])) as (C4 & Rl & pad & S4 & P4 & R4 & N4); auto.
    exists C4, Rl, pad. split; [|split; [auto|split; [|auto]]].
    + eapply csteps_trans; [exact S1|]. eapply csteps_trans; [exact S2|]. eapply csteps_trans; [exact S3|exact S4].
    + rewrite <- app_assoc in R4. exact R4.
Qed.
Lemma dec6 en w first R rest l : stream en w first R rest l -> 0 < w -> w mod 8 = 0 -> en = T6 -> forall C done,
  ready w 0 C R done -> c_enc C = en -> r_2d (c_row C) = true ->
  exists C' Rl pad, csteps C l C' (eolbits en false ++ repeat true pad) /\ (pad < 8)%nat /\ ready w 1 C' Rl (done ++ rest) /\ c_enc C' = en.
Proof.
  intros HS Hw H8 Hen.
  induction HS as [first R z pad Hn Hf Hp|first R row' rows z d l1 l2 Hn Hf Hr' Hd HB HS IH|first R pad Hn Hp|first R row' rows l1 l2 Hn Hr' HB HS IH]; intros C done HR He H2; try congruence.
  - assert (Hlim : limit en = 2) by (unfold limit; rewrite Hen; reflexivity).
    destruct (eols_empty 1 w 0 C R done (eolbits en false ++ repeat true pad) en He HR ltac:(lia) ltac:(lia)) as (C3 & S3 & R3 & N3). { rewrite app_length. pose proof (eolbits_len en false). lia. }
    exists C3, R, pad. rewrite app_nil_r. split; [|split; [auto|split; auto]]. cbn [eols] in *. rewrite <- ?app_assoc in *. cbn [app] in *. exact S3.
  - pose proof (stream_len _ _ _ _ _ _ HS) as L2. pose proof (stream_gap _ _ _ _ _ _ HS Hw) as G2. assert (HT : asc (-1) (transitions w row') w) by (apply trans_asc; auto; lia).
    destruct (codes_decode w R row' done (-1) 0 l1 Hw H8 (rd_asc _ _ _ _ _ HR) Hr' HB C 0 l2) as (C3 & S3 & N3 & M3 & F3); auto; try lia.
    { apply d2_start; auto. }
    rewrite He, Hen in F3. cbn match in F3. change (T6 =? T6) with true in F3. cbn match in F3.
    destruct (IH C3 (done ++ [row'])) as (C4 & Rl & pad & S4 & P4 & R4 & N4); auto; [congruence|].
    exists C4, Rl, pad. rewrite <- app_assoc in R4. split; [eapply csteps_trans; eauto|auto].
Qed.

(** ---- the whole page ---- *)
Definition core0 (en w : Z) : core :=
  let s := dec_init en w in mk_core (d_encoding s) (d_width s) (d_eols s) (d_row s) (T4_dec_model.d_img s) (d_skip s).
Lemma dec_init_mkd en w : dec_init en w = mkd (core0 en w) [].
Proof. reflexivity. Qed.
Lemma ready0 w C : 0 < w -> c_w C = w -> c_eols C = 0 -> c_skip C = 0 -> (exists d, c_row C = r_set_2d (d_row (dec_init T4_1D w)) d) -> c_img C = T4_dec_model.d_img (dec_init T4_1D w) ->
  ready w 0 C [w] [].
Proof.
  intros Hw E1 E2 E3 (d & E4) E5. 
  assert (Hz : repeat 0 (Z.to_nat (w + 4)) = 0 :: 0 :: 0 :: repeat 0 (Z.to_nat (w + 1))).
  { replace (Z.to_nat (w + 4)) with (S (S (S (Z.to_nat (w + 1))))) by lia. reflexivity. }
  constructor; auto; rewrite ?E4, ?E5; cbn [dec_init d_row T4_dec_model.d_img r_set_2d r_len r_run r_bw r_black r_a0 r_ac r_bc r_b1 r_ref r_cur nth]; auto.
  - exists (repeat 0 (Z.to_nat (w + 1))). rewrite Hz. cbn [runs app]. rewrite Z.sub_0_r. reflexivity.
  - rewrite Hz. unfold upd. change (Z.to_nat 0) with 0%nat. cbn [firstn skipn app length]. rewrite repeat_length. lia.
  - rewrite repeat_length. lia.
  - cbn [asc]. lia.
  - constructor; cbn [i_buf i_pix i_length i_bad i_log length map]; auto. rewrite repeat_length. assert (0 <= (w + 7) / 8) by (apply Z.div_pos; lia). lia.
Qed.
Lemma dec_page en w rows l : stream en w true [w] rows l -> 0 < w -> w mod 8 = 0 -> en = T4_1D \/ en = T4_2D \/ en = T6 ->
  exists C' Rl pad, csteps (core0 en w) l C' (eolbits en false ++ repeat true pad) /\ (pad < 8)%nat /\ ready w (limit en - 1) C' Rl rows /\ c_enc C' = en.
Proof.
  intros HS Hw H8 Hen. destruct (Z.eq_dec en T6) as [E6|E6].
  - destruct (dec6 en w true [w] rows l HS Hw H8 E6 (core0 en w) []) as (C' & Rl & pad & S1 & P1 & R1 & N1); auto.
    + apply ready0; auto; [subst; reflexivity|]. subst. exists true. reflexivity.
    + subst; reflexivity.
    + exists C', Rl, pad. subst. auto.
  - assert (Hen' : en = T4_1D \/ en = T4_2D) by lia.
    assert (Hlim : limit en = 5) by (unfold limit; destruct (Z.eqb_spec en T6); [congruence|reflexivity]).
    (* the first EOL *)
    assert (First : forall d rest, (1 <= length rest)%nat -> (en = T4_1D -> d = false) -> exists C1, csteps (core0 en w) (eolbits en d ++ rest) C1 rest /\ ready w 0 C1 [w] [] /\ c_enc C1 = en /\ r_2d (c_row C1) = tag2d en d).
    { intros d rest Hr Hd. destruct (eolbits_pre en d rest) as (l' & E1 & E2).
      set (C1 := c_set (core0 en w) 0 (r_set_2d (c_row (core0 en w)) (tag2d en d)) (c_img (core0 en w)) 0). exists C1. split; [|split; [|split; reflexivity]].
      - apply cs_step with (n := length (eolbits en d)) (C1 := C1).
        + pose proof (eolbits_len en d). rewrite app_length. lia.
        + unfold cstep. assert (Hneg : c_eols (core0 en w) <? 0 = true) by (cbn [core0 c_eols dec_init d_eols]; destruct (Z.eqb_spec en T6); [congruence|reflexivity]).
          rewrite Hneg. rewrite E1, eol_is. rewrite <- E1. cbn [core0 dec_init d_encoding c_enc].
          unfold C1, tag2d, eolbits. destruct Hen' as [-> | ->].
          * reflexivity.
          * change (T4_2D =? T4_1D) with false. change (T4_2D =? T4_2D) with true. cbn match. rewrite <- app_assoc, tag_land, negb_involutive. reflexivity.
        + rewrite skipn_app, skipn_all, Nat.sub_diag. cbn [app skipn]. constructor.
      - apply ready0; auto. exists (tag2d en d). unfold C1. cbn [c_set c_row core0]. unfold dec_init. destruct (en =? T6), (T4_1D =? T6); reflexivity. }
    inversion HS as [first R z pad Hn Hf Hp|first R row' rows' z d l1 l2 Hn Hf Hr' Hd HB HS'|first R pad Hn Hp|first R row' rows' l1 l2 Hn Hr' HB HS']; subst; try congruence.
    + rewrite (Hf eq_refl). cbn [repeat app]. cbn [eols]. rewrite <- !app_assoc.
      destruct (First false (eolbits en false ++ eols 4 en false ++ repeat true pad)) as (C1 & S1 & R1 & N1 & M1); auto. { rewrite app_length. pose proof (eolbits_len en false). lia. }
      destruct (eols_empty 4 w 0 C1 _ _ (eolbits en false ++ repeat true pad) en N1 R1 ltac:(lia) ltac:(lia)) as (C3 & S3 & R3 & N3). { rewrite app_length. pose proof (eolbits_len en false). lia. }
      exists C3, [w], pad. split; [|split; [auto|split; [rewrite Hlim; auto|auto]]].
      cbn [eols] in *. rewrite <- ?app_assoc in *. cbn [app] in *. eapply csteps_trans; [exact S1|exact S3].
    + rewrite (Hf eq_refl). cbn [repeat app]. pose proof (stream_len _ _ _ _ _ _ HS') as L2. pose proof (stream_gap _ _ _ _ _ _ HS' Hw) as G2.
      destruct (First d (l1 ++ l2)) as (C2 & S2 & R2 & N2 & M2); auto. { rewrite app_length. lia. }
      assert (HT : asc (-1) (transitions w row') w) by (apply trans_asc; auto; lia).
      assert (HRow : exists C3, csteps C2 (l1 ++ l2) C3 l2 /\ full w C3 (transitions w row') [] /\ c_enc C3 = en /\ (en = T4_1D -> r_2d (c_row C3) = false)).
      { destruct d; cbn [rowbits] in HB.
        - assert (E2d : en = T4_2D) by (destruct Hen'; auto; specialize (Hd H); discriminate).
          destruct (codes_decode w [w] row' [] (-1) 0 l1 Hw H8 (rd_asc _ _ _ _ _ R2) Hr' HB C2 0 l2) as (C3 & S3 & N3 & M3 & F3); auto; try lia.
          { apply d2_start; auto. rewrite M2. unfold tag2d. rewrite E2d. reflexivity. }
          destruct (Z.eqb_spec (c_enc C2) T6); [congruence|]. exists C3. split; auto. split; auto. split; [congruence|]. intros; unfold T4_1D, T4_2D in *; lia.
        - subst l1. destruct (row1d_ok w C2 [w] [] (transitions w row') l2 Hw ltac:(congruence) R2) as (C3 & S3 & F3 & N3 & M3); auto; try lia.
          { rewrite M2. unfold tag2d. destruct (en =? T4_2D); reflexivity. }
          exists C3. split; auto. split; auto. split; [congruence|]. auto. }
      destruct HRow as (C3 & S3 & F3 & N3 & M3).
      destruct (dec4 en w false (transitions w row') rows' l2 HS' Hw H8 Hen' row' C3 []) as (C4 & Rl & pad & S4 & P4 & R4 & N4); auto.
      exists C4, Rl, pad. split; [|split; [auto|split; [rewrite Hlim; exact R4|auto]]].
      eapply csteps_trans; [exact S2|]. eapply csteps_trans; [exact S3|exact S4].
Qed.
