(** The bits of a page, and that the compressor emits them. *)
From Coq Require Import ZifyBool ZifyNat.
From Verif Require Import Base Bits T4_tables T4_enc_model T4_dec_model T4_spec T4_runs_proofs T4_bits_proofs T4_step_proofs T4_code_proofs T4_span_proofs T4_paint_proofs T4_row_proofs T4_2d_proofs T4_2denc_proofs.

Fixpoint eols (n : nat) (enc : Z) (d : bool) : list bool := match n with O => [] | S k => eolbits enc d ++ eols k enc d end.
Definition rowbits (w : Z) (d : bool) (R T : list Z) (l : list bool) : Prop := if d then codes w R T (-1) 0 l else l = bits1d false 0 T.
Inductive stream (enc w : Z) : bool -> list Z -> list (list Z) -> list bool -> Prop :=
| s_end4 first R z pad : enc <> T6 -> (first = true -> z = 0%nat) -> (pad < 8)%nat ->
    stream enc w first R [] (repeat false z ++ eols 6 enc false ++ repeat true pad)
| s_row4 first R row rows z d l1 l2 : enc <> T6 -> (first = true -> z = 0%nat) -> row_ok w row -> (enc = T4_1D -> d = false) ->
    rowbits w d R (transitions w row) l1 -> stream enc w false (transitions w row) rows l2 ->
    stream enc w first R (row :: rows) (repeat false z ++ eolbits enc d ++ l1 ++ l2)
| s_end6 first R pad : enc = T6 -> (pad < 8)%nat -> stream enc w first R [] (eols 2 enc false ++ repeat true pad)
| s_row6 first R row rows l1 l2 : enc = T6 -> row_ok w row -> rowbits w true R (transitions w row) l1 -> stream enc w false (transitions w row) rows l2 ->
    stream enc w first R (row :: rows) (l1 ++ l2).

Record est (en w m : Z) (s : enc) (R : list Z) (B : list bool) : Prop := {
  es_enc : e_encoding s = en; es_w : e_width s = w; es_min : e_min s = m;
  es_cur : Z.of_nat (length (e_cur s)) = w + 4; es_refl : Z.of_nat (length (e_ref s)) = w + 4;
  es_ref : stretched w R (e_ref s); es_steps : e_steps s = Z.of_nat (length R); es_asc : asc (-1) R w;
  es_bw : wrep (e_bw s) B; es_row : 0 <= bw_row (e_bw s); es_1d : en = T4_1D -> e_2d s = false }.

(** ---- end of line ---- *)
Lemma eol_len enc d : Z.of_nat (length (eolbits enc d)) = if enc =? T4_2D then 13 else 12.
Proof. unfold eolbits. destruct (enc =? T4_2D); reflexivity. Qed.
Lemma encode_eol_ok enc w m s R B k : est enc w m s R B -> 0 <= m -> 13 <= k -> (bw_row (e_bw s) <> 0 -> enc <> T6 -> m - 1 <= k) ->
  Z.of_nat (length B) + k < 16 * w + 24 ->
  exists s' z, encode_eol s = Ok s' /\ est enc w m s' R (B ++ repeat false z ++ eolbits enc (e_2d s)) /\ s' = e_set_bw s (e_bw s') /\
    bw_row (e_bw s') = 0 /\ (bw_row (e_bw s) = 0 \/ enc = T6 -> z = 0%nat) /\ Z.of_nat z + Z.of_nat (length (eolbits enc (e_2d s))) <= k.
Proof.
  intros [A1 A2 A3 A4 A5 A6 A7 A8 A9 A10 A11] Hm Hk1 Hk2 Hc. unfold encode_eol, e_cap. rewrite A1, A2, A3. set (len := if enc =? T4_2D then 13 else 12).
  assert (Hl : Z.of_nat (length (eolbits enc (e_2d s))) = len) by apply eol_len. assert (12 <= len <= 13) by (unfold len; destruct (_ =? _); lia).
  assert (Fill : exists w1 z, (if negb (bw_row (e_bw s) =? 0) && negb (enc =? T6) && (bw_row (e_bw s) + len <? m)
       then put_encoded_bits ((w + 1) * 2) (e_bw s) 0 (m - (bw_row (e_bw s) + len)) else Ok (e_bw s)) = Ok w1 /\ wrep w1 (B ++ repeat false z) /\
       (bw_row (e_bw s) = 0 \/ enc = T6 -> z = 0%nat) /\ Z.of_nat z + len <= k).
  { destruct (Z.eqb_spec (bw_row (e_bw s)) 0); cbn [negb andb].
    { exists (e_bw s), 0%nat. cbn [repeat]. rewrite app_nil_r. split; auto. split; auto. lia. }
    destruct (Z.eqb_spec enc T6); cbn [negb andb].
    { exists (e_bw s), 0%nat. cbn [repeat]. rewrite app_nil_r. split; auto. split; auto. lia. }
    destruct (Z.ltb_spec (bw_row (e_bw s) + len) m).
    2:{ exists (e_bw s), 0%nat. cbn [repeat]. rewrite app_nil_r. split; auto. split; auto. lia. }
    destruct (put_encoded_bits_ok ((w + 1) * 2) (e_bw s) B 0 (m - (bw_row (e_bw s) + len)) A9) as (w1 & P1 & P2 & P3); try lia.
    exists w1, (Z.to_nat (m - (bw_row (e_bw s) + len))). split; auto. rewrite bits_lsb_0 in P2. split; auto. lia. }
  destruct Fill as (w1 & z & F1 & F2 & F3 & F4). rewrite F1. cbn [rbind].
  set (code := if enc =? T4_2D then _ else _).
  assert (HC : 0 <= code < 2 ^ len /\ bits_lsb (Z.to_nat len) code = eolbits enc (e_2d s)).
  { unfold code, len, eolbits. destruct (enc =? T4_2D), (e_2d s); vm_compute; repeat split; discriminate. }
  destruct HC as [HC1 HC2].
  destruct (put_encoded_bits_ok ((w + 1) * 2) w1 (B ++ repeat false z) code len F2) as (w2 & P1 & P2 & P3); try lia.
  { rewrite app_length, repeat_length. lia. }
  rewrite P1. cbn [rbind]. rewrite HC2 in P2. exists (e_set_bw s (bw_set_row w2 0)), z. split; auto. split; [|split; [reflexivity|split; [reflexivity|split; [auto|lia]]]].
  constructor; cbn [e_set_bw e_encoding e_width e_min e_cur e_ref e_steps e_bw e_2d bw_set_row bw_row]; auto; [|lia].
  rewrite <- app_assoc in P2. destruct P2 as [Q1 Q2 Q3 Q4]. constructor; auto.
Qed.

(** ---- rows ---- *)
Lemma encode_2d_row_ok enc w m s R B row : 0 < w -> est enc w m s R B -> row_ok w row -> Z.of_nat (length B) + 9 * w + 21 < 16 * w + 24 ->
  exists s' l, encode_2d_row s row = Ok s' /\ est enc w m s' (transitions w row) (B ++ l) /\ e_2d s' = e_2d s /\
    codes w R (transitions w row) (-1) 0 l /\ 1 <= Z.of_nat (length l) <= 9 * w + 21.
Proof.
  intros Hw [A1 A2 A3 A4 A5 A6 A7 A8 A9 A10 A11] Hrow Hc. unfold encode_2d_row, e_cap. rewrite A2, A7.
  destruct (row_to_run_lengths_ok (e_cur s) row w Hw Hrow ltac:(lia)) as (t & P1 & P2). rewrite P1. cbn [rbind].
  assert (HT : asc (-1) (transitions w row) w) by (apply trans_asc; auto; lia).
  destruct (stretch_ok w (transitions w row) t Hw HT ltac:(lia)) as (arr & Q1 & Q2 & Q3). rewrite Q1. cbn [rbind].
  rewrite (str_get w _ arr 0 Hw Q2) by lia. cbn [rbind]. rewrite (str_get w _ (e_ref s) 0 Hw A6) by lia. cbn [rbind].
  destruct (loop_2d_ok ((w + 1) * 2) w row arr (e_ref s) R Hw Hrow A8 A6 A5 Q2 (Z.to_nat (w + 2)) (e_bw s) B (-1) 0 0 0) as (bw' & l & F1 & F2 & F3 & F4 & F5); auto; try lia.
  - rewrite at_neg by lia. lia.
  - pose proof (at_nonneg _ w Hw HT 0). lia.
  - unfold isB. rewrite (at_neg R w (0 - 2)) by lia. pose proof (at_nonneg _ w Hw A8 0). repeat split; try lia.
  - apply str_get; auto; lia.
  - apply str_get; auto; lia.
  - change (-1 <? 0) with true. cbn match. lia.
  - change (Z.max 0 (-1)) with 0 in F1. rewrite F1. cbn [rbind].
    exists (e_set_runs s (e_ref s) arr (Z.of_nat (length (transitions w row))) bw'), l. split; auto. split; [|split; [reflexivity|split; [auto|]]].
    + constructor; cbn [e_set_runs e_encoding e_width e_min e_cur e_ref e_steps e_bw e_2d]; auto. lia.
    + change (-1 <? 0) with true in F5. cbn match in F5. lia.
Qed.

Lemma put_spans_ok cap w row arr : 0 < w -> forall T2 T1 fuel bw B t, wrep bw B -> (exists t0, T1 = t0 ++ [t]) -> asc t T2 w \/ T2 = [] ->
  arr = T1 ++ T2 ++ row -> (length T2 <= fuel)%nat ->
  Z.of_nat (length B) + 6 * (w - t) < 8 * (cap + 1) -> t <= w ->
  exists bw', put_spans cap fuel bw arr (Z.of_nat (length T1 + length T2)) (Z.of_nat (length T1)) = Ok bw' /\
    wrep bw' (B ++ bits1d (Nat.odd (length T1)) t T2) /\ bw_row bw' = bw_row bw + Z.of_nat (length (bits1d (Nat.odd (length T1)) t T2)) /\
    Z.of_nat (length (bits1d (Nat.odd (length T1)) t T2)) <= 6 * (w - t).
Proof.
  intros Hw. induction T2 as [|u T2 IH]; intros T1 fuel bw B t Hbw (t0 & HT1) Hasc Harr Hf Hc Htw.
  - exists bw. cbn [bits1d length]. rewrite app_nil_r. split; [|split; [auto|lia]].
    destruct fuel; cbn [put_spans]; destruct (Z.leb_spec (Z.of_nat (length T1 + 0)) (Z.of_nat (length T1))); auto; lia.
  - destruct Hasc as [Hasc|]; [|discriminate]. cbn [asc] in Hasc. destruct Hasc as [Hu Hasc]. destruct fuel as [|fuel]; [cbn [length] in Hf; lia|]. cbn [put_spans].
    destruct (Z.leb_spec (Z.of_nat (length T1 + length (u :: T2))) (Z.of_nat (length T1))); [cbn [length] in *; lia|].
    assert (Huw : u <= w) by (destruct T2; [lia|destruct Hasc; lia]).
    assert (G0 : aget arr (Z.of_nat (length T1)) = Ok u) by (rewrite Harr; cbn [app]; apply aget_app_at). rewrite G0. cbn [rbind].
    assert (G : aget arr (Z.of_nat (length T1) - 1) = Ok t).
    { rewrite Harr, HT1. rewrite <- app_assoc. cbn [app]. replace (Z.of_nat (length (t0 ++ [t])) - 1) with (Z.of_nat (length t0)) by (rewrite app_length; cbn [length]; lia). apply aget_app_at. }
    rewrite G. cbn [rbind].
    assert (Eo : Z.odd (Z.of_nat (length T1)) = Nat.odd (length T1)).
    { destruct (Nat.odd (length T1)) eqn:E.
      - apply Nat.odd_spec in E as [q E]. apply Z.odd_spec. exists (Z.of_nat q). lia.
      - rewrite <- Nat.negb_even in E. apply negb_false_iff in E. apply Nat.even_spec in E as [q E]. rewrite <- Z.negb_even. apply negb_false_iff. apply Z.even_spec. exists (Z.of_nat q). lia. }
    rewrite Eo. change (if Nat.odd (length T1) then t4_black_codes else t4_white_codes) with (rtab (Nat.odd (length T1))).
    pose proof (span_len (Nat.odd (length T1)) _ (u - t) (le_n _) ltac:(lia)) as SL.
    assert (Tab : tab_ok (rtab (Nat.odd (length T1))) = true) by (destruct (Nat.odd (length T1)); [apply tab_ok_black|apply tab_ok_white]).
    destruct (put_1d_span_ok cap (rtab (Nat.odd (length T1))) bw B (u - t) Tab Hbw ltac:(lia) ltac:(lia)) as (w1 & P1 & P2 & P3). rewrite P1. cbn [rbind].
    destruct (IH (T1 ++ [u]) fuel w1 (B ++ span_bits (rtab (Nat.odd (length T1))) (u - t)) u P2) as (bw' & Q1 & Q2 & Q3 & Q4); auto.
    + exists T1; auto.
    + destruct T2; [right; auto|left; apply Hasc].
    + rewrite Harr, <- app_assoc. reflexivity.
    + cbn [length] in Hf. lia.
    + rewrite app_length. lia.
    + assert (El : length (T1 ++ [u]) = S (length T1)) by (rewrite app_length; cbn [length]; lia). rewrite El in *.
      assert (Eo2 : Nat.odd (S (length T1)) = negb (Nat.odd (length T1))) by (rewrite Nat.odd_succ, <- Nat.negb_odd; auto).
      rewrite Eo2 in *. exists bw'. split.
      { replace (Z.of_nat (length T1 + length (u :: T2))) with (Z.of_nat (S (length T1) + length T2)) by (cbn [length]; lia).
        replace (Z.of_nat (length T1) + 1) with (Z.of_nat (S (length T1))) by lia. exact Q1. }
      cbn [bits1d]. rewrite <- app_assoc in Q2. split; auto. rewrite app_length. lia.
Qed.
Lemma encode_1d_row_ok enc w m s R B row : 0 < w -> est enc w m s R B -> row_ok w row -> Z.of_nat (length B) + 6 * w + 10 < 16 * w + 24 ->
  exists s' l, encode_1d_row s row = Ok s' /\ est enc w m s' (transitions w row) (B ++ l) /\ e_2d s' = e_2d s /\
    l = bits1d false 0 (transitions w row) /\ 1 <= Z.of_nat (length l) <= 6 * w + 10.
Proof.
  intros Hw [A1 A2 A3 A4 A5 A6 A7 A8 A9 A10 A11] Hrow Hc. unfold encode_1d_row, e_cap. rewrite A2.
  destruct (row_to_run_lengths_ok (e_ref s) row w Hw Hrow ltac:(lia)) as (t & P1 & P2). rewrite P1. cbn [rbind].
  assert (HT : asc (-1) (transitions w row) w) by (apply trans_asc; auto; lia).
  destruct (stretch_ok w (transitions w row) t Hw HT ltac:(lia)) as (arr & Q1 & Q2 & Q3).
  destruct (transitions w row) as [|t1 T2] eqn:ET; [destruct HT|]. cbn [asc] in HT. pose proof HT as HT'. destruct HT' as [Ht1 HT2]. assert (Ht1w : t1 <= w) by (destruct T2; [lia|destruct HT2; lia]).
  change (aget ((t1 :: T2) ++ t) 0) with (aget ([] ++ t1 :: T2 ++ t) (Z.of_nat (length (@nil Z)))). rewrite aget_app_at. cbn [rbind].
  pose proof (span_len0 false t1 ltac:(lia)) as SL. assert (SL' : Z.of_nat (length (span_bits (rtab false) t1)) <= 6 * t1 + 10) by (destruct (t1 =? 0); lia).
  destruct (put_1d_span_ok ((w + 1) * 2) (rtab false) (e_bw s) B t1 tab_ok_white A9 ltac:(lia) ltac:(lia)) as (w1 & U1 & U2 & U3). cbn [rtab] in U1. rewrite U1. cbn [rbind].
  destruct (put_spans_ok ((w + 1) * 2) w t ((t1 :: T2) ++ t) Hw T2 [t1] (length ((t1 :: T2) ++ t)) w1 (B ++ span_bits (rtab false) t1) t1) as (w2 & V1 & V2 & V3 & V4); auto.
  { exists []; reflexivity. }
  { destruct T2; [right; auto|left; apply HT2]. }
  { rewrite app_length. cbn [length]. lia. }
  { rewrite app_length. lia. }
  cbn [length Nat.add] in V1. change (Z.of_nat 1) with 1 in V1. cbn [length]. rewrite V1. cbn [rbind]. cbn [length] in Q1. rewrite Q1. cbn [rbind].
  change (Nat.odd (length [t1])) with true in *. eexists. exists (bits1d false 0 (t1 :: T2)). split; [reflexivity|].
  rewrite <- app_assoc in V2. cbn [bits1d negb]. rewrite Z.sub_0_r.
  split; [|split; [reflexivity|split; [reflexivity|rewrite app_length; lia]]].
  constructor; cbn [e_set_runs e_encoding e_width e_min e_cur e_ref e_steps e_bw e_2d]; auto. lia.
Qed.

Lemma est_mode en w m s R B rows d len : est en w m s R B -> (en = T4_1D -> d = false) -> est en w m (e_set_mode s rows d len) R B.
Proof. intros [A1 A2 A3 A4 A5 A6 A7 A8 A9 A10 A11] Hd. constructor; cbn [e_set_mode e_encoding e_width e_min e_cur e_ref e_steps e_bw e_2d]; auto. Qed.

Lemma flush_bytes cap fuel : forall bs n out r, bytes out -> flush_bits cap fuel bs n out = Ok r -> bytes (snd r).
Proof.
  induction fuel as [|fuel IH]; intros bs n out r Ho; cbn [flush_bits]; destruct (n <? 8); intros E; try (inversion E; auto; fail).
  destruct (Z.of_nat (length out) <? cap); [|discriminate]. apply IH in E; auto. apply Forall_app. split; auto. constructor; [|constructor]. unfold byte, u8. apply Z.mod_pos_bound. lia.
Qed.
Lemma put_bytes cap w bits len w' : bytes (bw_out w) -> put_encoded_bits cap w bits len = Ok w' -> bytes (bw_out w').
Proof.
  intros Ho. unfold put_encoded_bits. destruct (_ || _); [discriminate|]. destruct (flush_bits _ _ _ _ _) as [r|] eqn:E; [|discriminate]. cbn [rbind].
  pose proof (flush_bytes _ _ _ _ _ _ Ho E) as HH. destruct r as [[bs n] out]. intros E1. inversion E1. exact HH.
Qed.

(** the read position is only touched by the callers *)
Definition pos (s : enc) : Z * Z := (e_optr s, e_bitpos s).
Ltac pos_step := repeat match goal with
  | H : (do _ <- ?x; _) = Ok _ |- _ => let E := fresh in destruct x eqn:E; [cbn [rbind] in H|discriminate H]
  | H : (let '(_, _) := ?x in _) = Ok _ |- _ => destruct x
  | H : Ok _ = Ok _ |- _ => inversion H; clear H end.
Lemma pos_eol s s' : encode_eol s = Ok s' -> pos s' = pos s.
Proof. unfold encode_eol. intros H. pos_step. reflexivity. Qed.
Lemma pos_2d s row s' : encode_2d_row s row = Ok s' -> pos s' = pos s.
Proof. unfold encode_2d_row. intros H. pos_step. reflexivity. Qed.
Lemma pos_1d s row s' : encode_1d_row s row = Ok s' -> pos s' = pos s.
Proof. unfold encode_1d_row. intros H. pos_step. reflexivity. Qed.
Lemma pos_row s row s' : encode_row s row = Ok s' -> pos s' = pos s.
Proof.
  unfold encode_row. intros H. pos_step. subst. change (pos (e_set_mode ?x ?a ?b ?c)) with (pos x).
  destruct (_ =? T6); [eapply pos_2d; eauto|]. destruct (_ =? T4_2D).
  - destruct (encode_eol s) as [s1|] eqn:E1; [|discriminate]. cbn [rbind] in *. apply pos_eol in E1.
    destruct (if e_2d s1 then _ else _) as [s2|] eqn:E2; [|discriminate]. cbn [rbind] in *. inversion H0; clear H0.
    assert (pos s2 = pos s1). { destruct (e_2d s1); [destruct (encode_2d_row s1 row) eqn:E3; [apply pos_2d in E3|discriminate]|destruct (encode_1d_row s1 row) eqn:E3; [apply pos_1d in E3|discriminate]]; cbn [rbind] in E2; inversion E2; auto. }
    destruct (e_rows s2 <=? 0); [change (pos (e_set_mode ?x ?a ?b ?c)) with (pos x)|]; congruence.
  - destruct (encode_eol s) as [s1|] eqn:E1; [|discriminate]. cbn [rbind] in *. apply pos_eol in E1. apply pos_1d in H0. congruence.
Qed.
Lemma pos_eols n : forall s s', encode_eols n s = Ok s' -> pos s' = pos s.
Proof. induction n as [|n IH]; intros s s'; cbn [encode_eols]; intros H; [inversion H; auto|]. destruct (encode_eol s) as [s1|] eqn:E; [|discriminate]. cbn [rbind] in H. apply IH in H. apply pos_eol in E. congruence. Qed.
Lemma pos_fin s s' : finalise_page s = Ok s' -> pos s' = pos s.
Proof.
  unfold finalise_page. destruct (if e_encoding s =? T6 then _ else _) as [s1|] eqn:E1; [|discriminate]. cbn [rbind]. intros H. pos_step. subst. change (pos (e_set_bw ?x ?a)) with (pos x).
  destruct (e_encoding s =? T6); apply pos_eols in E1; auto.
Qed.
Lemma pos_next rows : forall s s' rows' len, next_rows s rows = Ok (s', rows', len) -> pos s' = pos s.
Proof.
  induction rows as [|row rows IH]; intros s s' rows' len; cbn [next_rows].
  - destruct (finalise_page s) as [s1|] eqn:E; [|discriminate]. cbn [rbind]. intros H. inversion H; subst. apply pos_fin; auto.
  - destruct (if Z.of_nat (length row) =? e_bpr s then _ else _) as [s1|] eqn:E; [|discriminate]. cbn [rbind].
    assert (pos s1 = pos s) by (destruct (_ =? _); [eapply pos_row; eauto|apply pos_fin; auto]).
    destruct (_ && _); intros H0; [apply IH in H0; congruence|]. inversion H0; subst. auto.
Qed.

Section PAGE.
Variables (en w m : Z).
Hypothesis (Hw : 8 <= w) (Hm : 0 <= m <= 7 * w - 4) (Hen : en = T4_1D \/ en = T4_2D \/ en = T6).
Lemma encode_row_ok s R B row : est en w m s R B -> (length B < 8)%nat -> row_ok w row ->
  exists s' l, encode_row s row = Ok s' /\ est en w m s' (transitions w row) (B ++ l) /\ (1 <= length l)%nat /\ (en <> T6 -> 12 <= length l)%nat /\
    forall first rows l', (first = true -> bw_row (e_bw s) = 0) -> stream en w false (transitions w row) rows l' -> stream en w first R (row :: rows) (l ++ l').
Proof.
  intros HE HB Hrow. pose proof (es_enc _ _ _ _ _ _ HE) as Ee. unfold encode_row. rewrite Ee.
  destruct (Z.eqb_spec en T6) as [E6|E6].
  { destruct (encode_2d_row_ok en w m s R B row) as (s' & l & P1 & P2 & P3 & P4 & P5); auto; try lia. rewrite P1. cbn [rbind]. eexists. exists l. split; [reflexivity|].
    split; [apply est_mode; auto; intros; unfold T4_1D, T6 in *; lia|]. split; [lia|]. split; [lia|]. intros. apply s_row6; auto. }
  destruct (encode_eol_ok en w m s R B (Z.max (m - 1) 13) HE) as (s1 & z & Q1 & Q2 & Q3 & Q4 & Q5 & Q6); try lia.
  assert (HL : Z.of_nat (length (B ++ repeat false z ++ eolbits en (e_2d s))) <= 7 + Z.max (m - 1) 13) by (rewrite !app_length, repeat_length; lia).
  assert (Hd1 : e_2d s1 = e_2d s) by (rewrite Q3; reflexivity).
  assert (Fin : forall s2 l2 d, est en w m s2 (transitions w row) ((B ++ repeat false z ++ eolbits en (e_2d s)) ++ l2) -> 1 <= Z.of_nat (length l2) -> d = e_2d s -> rowbits w d R (transitions w row) l2 ->
     exists l, est en w m s2 (transitions w row) (B ++ l) /\ (1 <= length l)%nat /\ (en <> T6 -> 12 <= length l)%nat /\
     forall first rows l', (first = true -> bw_row (e_bw s) = 0) -> stream en w false (transitions w row) rows l' -> stream en w first R (row :: rows) (l ++ l')).
  { intros s2 l2 d E1 E2 E3 E4. exists (repeat false z ++ eolbits en (e_2d s) ++ l2). rewrite <- !app_assoc in E1. split; auto.
    pose proof (eol_len en (e_2d s)) as EL. assert (12 <= Z.of_nat (length (eolbits en (e_2d s)))) by (rewrite EL; destruct (_ =? _); lia).
    split; [rewrite !app_length; lia|]. split; [rewrite !app_length; lia|]. intros first rows l' Hf Hs. rewrite <- !app_assoc. apply s_row4; auto; [exact (es_1d _ _ _ _ _ _ HE)|subst d; auto]. }
  destruct (Z.eqb_spec en T4_2D) as [E2|E2]; rewrite Q1; cbn [rbind].
  - destruct (e_2d s1) eqn:Ed.
    + destruct (encode_2d_row_ok en w m s1 R _ row ltac:(lia) Q2 Hrow ltac:(lia)) as (s2 & l & P1 & P2 & P3 & P4 & P5). rewrite P1. cbn [rbind].
      destruct (Fin s2 l true P2 ltac:(lia) ltac:(congruence) P4) as (l' & F1 & F2 & F3 & F4).
      eexists. exists l'. split; [reflexivity|]. split; [|auto]. apply est_mode; [|intros; unfold T4_1D, T4_2D in *; lia].
      cbn [e_set_mode e_rows]. destruct (e_rows s2 - 1 <=? 0); repeat (apply est_mode; [|intros; unfold T4_1D, T4_2D in *; lia]); auto.
    + destruct (encode_1d_row_ok en w m s1 R _ row ltac:(lia) Q2 Hrow ltac:(lia)) as (s2 & l & P1 & P2 & P3 & P4 & P5). rewrite P1. cbn [rbind].
      destruct (Fin s2 l false P2 ltac:(lia) ltac:(congruence) P4) as (l' & F1 & F2 & F3 & F4).
      eexists. exists l'. split; [reflexivity|]. split; [|auto]. apply est_mode; [|intros; unfold T4_1D, T4_2D in *; lia].
      cbn [e_set_mode e_rows]. destruct (e_rows s2 <=? 0); repeat (apply est_mode; [|intros; unfold T4_1D, T4_2D in *; lia]); auto.
  - assert (E1 : en = T4_1D) by lia. assert (Ed : e_2d s1 = false) by (rewrite Hd1; apply (es_1d _ _ _ _ _ _ HE); auto).
    destruct (encode_1d_row_ok en w m s1 R _ row ltac:(lia) Q2 Hrow ltac:(lia)) as (s2 & l & P1 & P2 & P3 & P4 & P5). rewrite P1. cbn [rbind].
    destruct (Fin s2 l false P2 ltac:(lia) ltac:(congruence) P4) as (l' & F1 & F2 & F3 & F4).
    eexists. exists l'. split; [reflexivity|]. split; [|auto]. apply est_mode; [auto|]. intros. rewrite P3. auto.
Qed.

Lemma encode_eols_ok n : forall s R B, est en w m s R B -> (bw_row (e_bw s) = 0 \/ en = T6) -> Z.of_nat (length B) + 13 * Z.of_nat n < 16 * w + 24 ->
  exists s', encode_eols n s = Ok s' /\ est en w m s' R (B ++ eols n en (e_2d s)).
Proof.
  induction n as [|n IH]; intros s R B HE Hz Hc; cbn [encode_eols eols].
  - exists s. rewrite app_nil_r. auto.
  - destruct (encode_eol_ok en w m s R B 13 HE) as (s1 & z & Q1 & Q2 & Q3 & Q4 & Q5 & Q6); try lia. rewrite Q1. cbn [rbind].
    rewrite (Q5 Hz) in Q2. cbn [repeat app] in Q2. destruct (IH s1 R _ Q2 (or_introl Q4)) as (s' & E1 & E2).
    { pose proof (eol_len en (e_2d s)) as EL. rewrite app_length. destruct (en =? T4_2D); lia. }
    exists s'. split; auto. rewrite <- app_assoc in E2. replace (e_2d s1) with (e_2d s) in E2 by (rewrite Q3; reflexivity). auto.
Qed.
Lemma finalise_ok s R B : est en w m s R B -> (length B < 8)%nat ->
  exists s' l, finalise_page s = Ok s' /\ bw_row (e_bw s') = -1 /\ unpack_lsb (bw_out (e_bw s')) = B ++ l /\ bytes (bw_out (e_bw s')) /\ bw_out (e_bw s') <> [] /\
    forall first, (first = true -> bw_row (e_bw s) = 0) -> stream en w first R [] l.
Proof.
  intros HE HB. unfold finalise_page. rewrite (es_enc _ _ _ _ _ _ HE).
  assert (Fin : forall s1 l, est en w m s1 R (B ++ l) -> (24 <= length l)%nat -> Z.of_nat (length l) + 14 < 16 * w + 24 ->
      exists s' pad, (do w0 <- put_encoded_bits (e_cap s1) (e_bw s1) 0xFF 7; Ok (e_set_bw s1 (bw_set_row w0 (-1)))) = Ok s' /\ (pad < 8)%nat /\
        bw_row (e_bw s') = -1 /\ unpack_lsb (bw_out (e_bw s')) = B ++ l ++ repeat true pad /\ bytes (bw_out (e_bw s')) /\ bw_out (e_bw s') <> []).
  { intros s1 l E1 Hl Hc. unfold e_cap. rewrite (es_w _ _ _ _ _ _ E1).
    destruct (put_final_ok ((w + 1) * 2) (e_bw s1) (B ++ l) (es_bw _ _ _ _ _ _ E1)) as (w' & P1 & pad & P2 & P3). { rewrite app_length. lia. }
    rewrite P1. cbn [rbind]. eexists. exists pad. split; [reflexivity|]. split; auto. cbn [e_set_bw e_bw bw_set_row bw_row bw_out]. split; auto. rewrite <- app_assoc in P3. split; auto. split.
    - apply (put_bytes ((w + 1) * 2) (e_bw s1) 0xFF 7 w' (wr_bytes _ _ (es_bw _ _ _ _ _ _ E1)) P1).
    - intros E0. rewrite E0 in P3. apply (f_equal (@length bool)) in P3. rewrite !app_length in P3. change (unpack_lsb []) with (@nil bool) in P3. cbn [length] in P3. lia. }
  destruct (Z.eqb_spec en T6) as [E6|E6].
  - destruct (encode_eols_ok 2 s R B HE (or_intror E6)) as (s1 & E1 & E2); [lia|]. rewrite E1. cbn [rbind].
    assert (El : eols 2 en (e_2d s) = eols 2 en false) by (rewrite E6; reflexivity). rewrite El in E2.
    assert (Ln : length (eols 2 en false) = 24%nat) by (rewrite E6; reflexivity).
    destruct (Fin s1 _ E2) as (s' & pad & F1 & F2 & F3 & F4 & F5 & F6); try lia. exists s', (eols 2 en false ++ repeat true pad). rewrite F1. split; auto. split; auto. split; auto. split; auto. split; auto.
    intros. apply s_end6; auto.
  - assert (HE0 : est en w m (e_set_mode s (e_rows s) false (e_length s)) R B) by (apply est_mode; auto).
    cbn [encode_eols]. destruct (encode_eol_ok en w m _ R B (Z.max (m - 1) 13) HE0) as (s1 & z & Q1 & Q2 & Q3 & Q4 & Q5 & Q6); try lia.
    change (encode_eols 6 ?s0) with (do s1 <- encode_eol s0; encode_eols 5 s1). rewrite Q1. cbn [rbind].
    cbn [e_set_mode e_2d e_bw] in *. pose proof (eol_len en false) as EL. assert (EL' : 12 <= Z.of_nat (length (eolbits en false)) <= 13) by (rewrite EL; destruct (_ =? _); lia).
    destruct (encode_eols_ok 5 s1 R _ Q2 (or_introl Q4)) as (s2 & E1 & E2). { rewrite !app_length, repeat_length. lia. }
    replace (e_2d s1) with false in E2 by (rewrite Q3; reflexivity).
    change (do s0 <- encode_eol s1; do s3 <- encode_eol s0; do s4 <- encode_eol s3; do s5 <- encode_eol s4; do s6 <- encode_eol s5; Ok s6) with (encode_eols 5 s1).
    rewrite E1. cbn [rbind]. rewrite <- !app_assoc in E2.
    assert (Ln : 60 <= Z.of_nat (length (eols 5 en false)) <= 65) by (cbn [eols]; rewrite !app_length; cbn [length]; lia).
    destruct (Fin s2 _ E2) as (s' & pad & F1 & F2 & F3 & F4 & F5 & F6). { rewrite !app_length; lia. } { rewrite !app_length, repeat_length. lia. }
    exists s', (repeat false z ++ eols 6 en false ++ repeat true pad). rewrite F1. split; auto. split; auto. split.
    { rewrite F4. change (eols 6 en false) with (eolbits en false ++ eols 5 en false). rewrite <- !app_assoc. reflexivity. }
    split; auto. split; auto. intros first Hf. apply s_end4; auto.
Qed.

Lemma out_nil s R B : est en w m s R B -> (length B < 8)%nat -> bw_out (e_bw s) = [].
Proof. intros HE HB. pose proof (wrep_length _ _ (es_bw _ _ _ _ _ _ HE)) as HL. pose proof (wr_n _ _ (es_bw _ _ _ _ _ _ HE)). destruct (bw_out (e_bw s)); auto. cbn [length] in HL. lia. Qed.
Lemma next_ok rows : forall s R B first, est en w m s R B -> (length B < 8)%nat -> Forall (row_ok w) rows -> (first = true -> bw_row (e_bw s) = 0) ->
  exists s' rows' len, next_rows s rows = Ok (s', rows', len) /\ 0 <= len /\ bw_out (e_bw s') <> [] /\ bytes (bw_out (e_bw s')) /\
    ((bw_row (e_bw s') = -1 /\ rows' = [] /\ exists l, stream en w first R rows l /\ unpack_lsb (bw_out (e_bw s')) = B ++ l) \/
     (exists R' l, est en w m s' R' (B ++ l) /\ (length rows' < length rows)%nat /\ Forall (row_ok w) rows' /\ forall l', stream en w false R' rows' l' -> stream en w first R rows (l ++ l'))).
Proof.
  induction rows as [|row rows IH]; intros s R B first HE HB HF Hf; cbn [next_rows].
  - destruct (finalise_ok s R B HE HB) as (s' & l & P1 & P2 & P3 & P4 & P5 & P6). rewrite P1. cbn [rbind]. exists s', [], 0. split; auto. split; [lia|]. split; auto. split; auto. left. eauto 8.
  - apply Forall_cons_iff in HF as [Hr HF]. unfold e_bpr. rewrite (es_w _ _ _ _ _ _ HE). rewrite (proj2 Hr), Z.eqb_refl.
    destruct (encode_row_ok s R B row HE HB Hr) as (s1 & l & P1 & P2 & P3 & P4 & P5). rewrite P1. cbn [rbind].
    assert (0 < (w + 7) / 8) by (Z.div_mod_to_equations; lia). destruct (Z.ltb_spec 0 ((w + 7) / 8)); [|lia]. cbn [andb].
    pose proof (wrep_length _ _ (es_bw _ _ _ _ _ _ P2)) as HL. pose proof (wr_n _ _ (es_bw _ _ _ _ _ _ P2)) as Hn.
    destruct (bw_out (e_bw s1)) as [|x out] eqn:Eo.
    + destruct (IH s1 (transitions w row) (B ++ l) false P2) as (s' & rows' & len & Q1 & Q2 & Q3 & Q4 & Q5); auto; try discriminate; try (cbn [length] in HL; lia).
      rewrite Q1. exists s', rows', len. split; auto. split; auto. split; auto. split; auto.
      destruct Q5 as [(U1 & U2 & l2 & U3 & U4)|(R' & l2 & U1 & U2 & U3 & U4)].
      * left. split; auto. split; auto. exists (l ++ l2). rewrite app_assoc. auto.
      * right. exists R', (l ++ l2). rewrite app_assoc. split; auto. split; [cbn [length]; lia|]. split; auto. intros. rewrite <- app_assoc. auto.
    + exists s1, rows, ((w + 7) / 8). split; auto. split; [lia|]. split; [congruence|]. split; [apply (wr_bytes _ _ (es_bw _ _ _ _ _ _ P2))|].
      right. exists (transitions w row), l. split; auto.
Qed.

Inductive Emits : enc -> list (list Z) -> list Z -> Prop :=
| em_end s rows : bw_row (e_bw s) < 0 -> Emits s rows []
| em_more s rows s' rows' len P : 0 <= bw_row (e_bw s) -> get_next_row s rows = Ok (s', rows', len) -> 0 <= len -> bw_out (e_bw s') <> [] ->
    pos s' = (0, 7) -> Emits s' rows' P -> Emits s rows (bw_out (e_bw s') ++ P).
Lemma emits_ok k : forall rows s R B first, (length rows < k)%nat -> est en w m s R B -> Forall (row_ok w) rows -> (first = true -> bw_row (e_bw s) = 0) ->
  exists P l, Emits s rows P /\ bytes P /\ unpack_lsb P = bits_lsb (Z.to_nat (bw_n (e_bw s))) (bw_bs (e_bw s)) ++ l /\ stream en w first R rows l.
Proof.
  induction k as [|k IH]; intros rows s R B first Hk HE HF Hf; [lia|].
  pose proof HE as [A1 A2 A3 A4 A5 A6 A7 A8 [W1 W2 W3 W4] A10 A11].
  set (s0 := e_set_out (e_set_bw s (mk_bw (bw_bs (e_bw s)) (bw_n (e_bw s)) (bw_row (e_bw s)) [])) 0 7).
  set (B0 := bits_lsb (Z.to_nat (bw_n (e_bw s))) (bw_bs (e_bw s))).
  assert (HE0 : est en w m s0 R B0).
  { constructor; auto. constructor; auto. constructor. }
  destruct (next_ok rows s0 R B0 first HE0) as (s' & rows' & len & P1 & P2 & P3 & P4 & P5); auto.
  { unfold B0. rewrite bits_lsb_length. lia. }
  assert (G : get_next_row s rows = Ok (s', rows', len)).
  { unfold get_next_row. destruct (Z.ltb_spec (bw_row (e_bw s)) 0); [lia|]. exact P1. }
  assert (Hp : pos s' = (0, 7)) by (rewrite (pos_next _ _ _ _ _ P1); reflexivity).
  destruct P5 as [(U1 & U2 & l & U3 & U4)|(R' & l & U1 & U2 & U3 & U4)].
  - exists (bw_out (e_bw s') ++ []), l. split; [eapply em_more; eauto; apply em_end; lia|]. rewrite app_nil_r. auto.
  - destruct (IH rows' s' R' (B0 ++ l) false) as (P & l' & V1 & V2 & V3 & V4); auto; try discriminate; try lia.
    exists (bw_out (e_bw s') ++ P), (l ++ l'). split; [eapply em_more; eauto|]. split; [apply Forall_app; auto|]. split; auto.
    rewrite unpack_lsb_app, V3. rewrite app_assoc, <- (wr_bits _ _ (es_bw _ _ _ _ _ _ U1)). rewrite app_assoc. reflexivity.
Qed.
End PAGE.

(** ---- reading the page ---- *)
Lemma skipn_skipn {A} a b (l : list A) : skipn a (skipn b l) = skipn (a + b) l.
Proof. revert l; induction b as [|b IH]; intros l; [rewrite Nat.add_0_r; auto|]. rewrite Nat.add_succ_r. destruct l; [rewrite !skipn_nil; auto|]. cbn [skipn]. apply IH. Qed.
Lemma skipn_nth F k : (k < length F)%nat -> skipn k F = nth k F 0 :: skipn (S k) F.
Proof. revert F; induction k as [|k IH]; intros [|x F] H; cbn [length] in H; try lia; [reflexivity|]. cbn [skipn nth]. rewrite IH by lia. reflexivity. Qed.
Lemma emits_out s rows P o b : Emits s rows P -> Emits (e_set_out s o b) rows P.
Proof.
  intros H. inversion H; subst; [apply em_end; auto|]. eapply em_more; eauto. rewrite <- H1. unfold get_next_row. cbn [e_set_out e_bw]. destruct (Z.ltb_spec (bw_row (e_bw s)) 0); [lia|reflexivity].
Qed.
Lemma emits_fun s rows P : Emits s rows P -> forall P', Emits s rows P' -> P' = P.
Proof.
  induction 1 as [s rows H|s rows s' rows' len P H1 H2 H3 H4 H5 H6 IH]; intros P' H'; inversion H'; subst; auto; try lia.
  rewrite H2 in H0. inversion H0; subst. f_equal. auto.
Qed.
(** [Q] is what is still to be read *)
Definition Rem (s : enc) (rows : list (list Z)) (Q : list Z) : Prop :=
  exists P, Emits s rows P /\ 0 <= e_optr s <= e_iptr s /\ Q = skipn (Z.to_nat (e_optr s)) (bw_out (e_bw s)) ++ P.
Lemma get_loop_ok fuel : forall s rows Q n buf, Rem s rows Q -> n < Z.of_nat fuel ->
  exists s' rows', enc_get_loop fuel s rows n buf = Ok (s', rows', buf ++ firstn (Z.to_nat n) Q) /\ Rem s' rows' (skipn (Z.to_nat n) Q).
Proof.
  induction fuel as [|fuel IH]; intros s rows Q n buf HR Hn; cbn [enc_get_loop]; destruct (Z.leb_spec n 0); try lia.
  1,2: exists s, rows; replace (Z.to_nat n) with 0%nat by lia; rewrite firstn_O, app_nil_r; auto.
  destruct HR as (P & HE & Ho & HQ).
  assert (Main : forall s1 rows1, Emits s1 rows1 (skipn (length (bw_out (e_bw s1)) - Z.to_nat (e_optr s1)) Q) -> 0 <= e_optr s1 < e_iptr s1 ->
      Q = skipn (Z.to_nat (e_optr s1)) (bw_out (e_bw s1)) ++ skipn (length (bw_out (e_bw s1)) - Z.to_nat (e_optr s1)) Q ->
      exists s' rows', (let m := Z.min n (e_iptr s1 - e_optr s1) in do d <- aslice (bw_out (e_bw s1)) (e_optr s1) m;
         enc_get_loop fuel (e_set_out s1 (e_optr s1 + m) (e_bitpos s1)) rows1 (n - m) (buf ++ d)) = Ok (s', rows', buf ++ firstn (Z.to_nat n) Q) /\ Rem s' rows' (skipn (Z.to_nat n) Q)).
  { intros s1 rows1 E1 E2 E3. cbn zeta. set (mm := Z.min n (e_iptr s1 - e_optr s1)). assert (Hmm : 0 < mm <= n /\ mm <= e_iptr s1 - e_optr s1) by (unfold mm; lia). clearbody mm.
    unfold e_iptr in *. set (out := bw_out (e_bw s1)) in *. set (o := e_optr s1) in *.
    unfold aslice. destruct (Z.leb_spec mm 0); [lia|]. destruct (Z.leb_spec 0 o); [|lia]. destruct (Z.leb_spec (o + mm) (Z.of_nat (length out))); [|lia]. cbn [andb rbind].
    destruct (IH (e_set_out s1 (o + mm) (e_bitpos s1)) rows1 (skipn (Z.to_nat mm) Q) (n - mm) (buf ++ firstn (Z.to_nat mm) (skipn (Z.to_nat o) out))) as (s' & rows' & F1 & F2); [|lia|].
    - eexists. split; [apply emits_out; exact E1|]. cbn [e_set_out e_optr e_bw e_iptr]. unfold e_iptr. cbn [e_set_out e_bw]. fold out. split; [lia|].
      rewrite E3 at 1. rewrite skipn_app, skipn_skipn. rewrite skipn_length. f_equal; [f_equal; lia|]. replace (Z.to_nat mm - (length out - Z.to_nat o))%nat with 0%nat by lia. reflexivity.
    - exists s', rows'. rewrite F1. rewrite skipn_skipn in F2. replace (Z.to_nat (n - mm) + Z.to_nat mm)%nat with (Z.to_nat n) in F2 by lia. split; auto. do 2 f_equal. rewrite <- app_assoc. f_equal.
      assert (Ef : firstn (Z.to_nat mm) (skipn (Z.to_nat o) out) = firstn (Z.to_nat mm) Q).
      { rewrite E3. rewrite firstn_app, skipn_length. replace (Z.to_nat mm - (length out - Z.to_nat o))%nat with 0%nat by lia. rewrite firstn_O, app_nil_r. reflexivity. }
      rewrite Ef. replace (Z.to_nat n) with (Z.to_nat mm + Z.to_nat (n - mm))%nat by lia. rewrite <- (firstn_skipn (Z.to_nat mm) Q) at 3.
      rewrite firstn_app. destruct (Nat.le_gt_cases (Z.to_nat mm) (length Q)).
      + rewrite (firstn_length_le Q) by auto. rewrite firstn_firstn. replace (Init.Nat.min (Z.to_nat mm + Z.to_nat (n - mm)) (Z.to_nat mm)) with (Z.to_nat mm) by lia. do 2 f_equal. lia.
      + exfalso. apply (f_equal (@length Z)) in E3. rewrite app_length, !skipn_length in E3. lia. }
  destruct (Z.leb_spec (e_iptr s) (e_optr s)).
  - assert (Eo : e_optr s = e_iptr s) by lia. assert (Ek : skipn (Z.to_nat (e_optr s)) (bw_out (e_bw s)) = []) by (apply skipn_all2; unfold e_iptr in *; lia).
    rewrite Ek in HQ. cbn [app] in HQ. subst Q. inversion HE as [s2 rows2 Hneg|s2 rows2 s1 rows1 len P1 G1 G2 G3 G4 G5 G6]; subst.
    + unfold get_next_row. destruct (Z.ltb_spec (bw_row (e_bw s)) 0); [|lia]. cbn [rbind]. change (-1 <? 0) with true. cbn match.
      exists s, rows. rewrite firstn_nil, skipn_nil, app_nil_r. split; auto. exists []. split; auto. split; [lia|]. rewrite Ek. reflexivity.
    + rewrite G2. cbn [rbind]. destruct (Z.ltb_spec len 0); [lia|]. unfold pos in G5. assert (Ho0 : e_optr s1 = 0) by congruence. assert (Hb0 : e_bitpos s1 = 7) by congruence.
      apply Main.
      * rewrite Ho0. cbn [Z.to_nat]. rewrite Nat.sub_0_r, skipn_app, skipn_all, Nat.sub_diag. exact G6.
      * rewrite Ho0. unfold e_iptr. destruct (bw_out (e_bw s1)); [congruence|]. cbn [length]. lia.
      * rewrite Ho0. cbn [Z.to_nat]. rewrite Nat.sub_0_r. rewrite (skipn_app (length _)), skipn_all, Nat.sub_diag. reflexivity.
  - cbn [rbind]. change (0 <? 0) with false. cbn match. apply Main; try lia.
    + subst Q. rewrite skipn_app, skipn_skipn, skipn_length. unfold e_iptr in *. rewrite skipn_all2 by lia. rewrite Nat.sub_diag. exact HE.
    + subst Q. rewrite (skipn_app (_ - _)), skipn_skipn, skipn_length. unfold e_iptr in *. rewrite (skipn_all2 (n := (length (bw_out (e_bw s)) - Z.to_nat (e_optr s) + Z.to_nat (e_optr s)))) by lia. rewrite Nat.sub_diag. reflexivity.
Qed.
Lemma enc_get_ok s rows Q n : Rem s rows Q ->
  exists s' rows', enc_get s rows n = Ok (s', rows', firstn (Z.to_nat n) Q) /\ Rem s' rows' (skipn (Z.to_nat n) Q).
Proof. intros HR. destruct (get_loop_ok (Z.to_nat n + 2) s rows Q n [] HR ltac:(lia)) as (s' & rows' & E & F). eauto. Qed.

(** [bits] is what is still to be read, bit by bit *)
Definition RemBits (s : enc) (rows : list (list Z)) (bits : list bool) : Prop :=
  exists Q, Rem s rows Q /\ 0 <= e_bitpos s <= 7 /\ (e_bitpos s < 7 -> e_optr s < e_iptr s) /\ bits = skipn (Z.to_nat (7 - e_bitpos s)) (unpack_lsb Q).
Lemma bits_lsb_skip x k : (k < 8)%nat -> skipn k (bits_lsb 8 x) = Z.odd (Z.shiftr x (Z.of_nat k)) :: skipn (S k) (bits_lsb 8 x).
Proof.
  intros Hk. do 8 (destruct k as [|k]; [cbn [bits_lsb skipn]; f_equal; rewrite ?Z.div2_spec, ?Z.shiftr_shiftr by lia; reflexivity|]). lia.
Qed.
Lemma get_bit_ok s rows bits : RemBits s rows bits ->
  exists s' rows', enc_get_bit s rows = Ok (s', rows', match bits with [] => -7 | b :: _ => Z.b2z b end) /\ RemBits s' rows' (skipn 1 bits).
Proof.
  intros (Q & (P & HE & Ho & HQ) & Hb & Hlt & Hbits). unfold enc_get_bit.
  assert (Main : forall s1 rows1 P1, Emits s1 rows1 P1 -> 0 <= e_optr s1 < e_iptr s1 -> 0 <= e_bitpos s1 <= 7 ->
      Q = skipn (Z.to_nat (e_optr s1)) (bw_out (e_bw s1)) ++ P1 -> bits = skipn (Z.to_nat (7 - e_bitpos s1)) (unpack_lsb Q) ->
      exists s' rows', (do b <- aget (bw_out (e_bw s1)) (e_optr s1); let bit := Z.land (Z.shiftr b (7 - e_bitpos s1)) 1 in let p := e_bitpos s1 - 1 in
        Ok (if p <? 0 then e_set_out s1 (e_optr s1 + 1) 7 else e_set_out s1 (e_optr s1) p, rows1, bit)) = Ok (s', rows', match bits with [] => -7 | b :: _ => Z.b2z b end) /\ RemBits s' rows' (skipn 1 bits)).
  { clear. intros s1 rows1 P1 E1 E2 E3 E4 E5. unfold aget, in_bounds. unfold e_iptr in *. destruct (Z.leb_spec 0 (e_optr s1)); [|lia]. destruct (Z.ltb_spec (e_optr s1) (Z.of_nat (length (bw_out (e_bw s1))))); [|lia]. cbn [andb rbind].
    set (o := e_optr s1) in *. set (out := bw_out (e_bw s1)) in *. set (k := Z.to_nat (7 - e_bitpos s1)) in *.
    assert (Es : skipn (Z.to_nat o) out = nth (Z.to_nat o) out 0 :: skipn (S (Z.to_nat o)) out) by (apply skipn_nth; lia).
    set (x := nth (Z.to_nat o) out 0) in *.
    assert (Eb : bits = Z.odd (Z.shiftr x (Z.of_nat k)) :: skipn (S k) (unpack_lsb Q)).
    { rewrite E5, E4, Es. cbn [app]. change (unpack_lsb (x :: ?t)) with (bits_lsb 8 x ++ unpack_lsb t). rewrite !skipn_app, bits_lsb_length.
      replace (k - 8)%nat with 0%nat by (unfold k; lia). replace (S k - 8)%nat with 0%nat by (unfold k; lia). cbn [skipn]. rewrite bits_lsb_skip by (unfold k; lia). reflexivity. }
    cbn zeta. eexists. exists rows1. split.
    - rewrite Eb. do 2 f_equal. change 1 with (Z.ones 1). rewrite Z.land_ones by lia. change (2 ^ 1) with 2. rewrite Zmod_odd. replace (Z.of_nat k) with (7 - e_bitpos s1) by (unfold k; lia). destruct (Z.odd _); reflexivity.
    - rewrite Eb. change (skipn 1 (?a :: ?b)) with b. destruct (Z.ltb_spec (e_bitpos s1 - 1) 0).
      + exists (skipn 1 Q). split; [|cbn [e_set_out e_bitpos]; split; [lia|split; [lia|]]].
        * eexists. split; [apply emits_out; exact E1|]. cbn [e_set_out e_optr e_bw]. unfold e_iptr. cbn [e_set_out e_bw]. fold out o. split; [lia|]. rewrite E4, Es. cbn [app]. change (skipn 1 (?a :: ?b)) with b. f_equal. f_equal. lia.
        * replace k with 7%nat by (unfold k; lia). rewrite E4, Es. reflexivity.
      + exists Q. split; [|cbn [e_set_out e_bitpos e_optr]; unfold e_iptr; cbn [e_set_out e_bw]; split; [lia|split; [fold out o; lia|]]].
        * eexists. split; [apply emits_out; exact E1|]. cbn [e_set_out e_optr e_bw]. unfold e_iptr. cbn [e_set_out e_bw]. fold out o. split; [lia|]. exact E4.
        * f_equal. unfold k. lia. }
  destruct (Z.leb_spec (e_iptr s) (e_optr s)).
  - assert (Hb7 : e_bitpos s = 7) by lia. assert (Ek : skipn (Z.to_nat (e_optr s)) (bw_out (e_bw s)) = []) by (apply skipn_all2; unfold e_iptr in *; lia).
    rewrite Ek in HQ. cbn [app] in HQ. rewrite HQ, Hb7 in Hbits. change (Z.to_nat (7 - 7)) with 0%nat in Hbits. cbn [skipn] in Hbits.
    inversion HE as [s2 rows2 Hneg E1 E2 E3|s2 rows2 s1 rows1 len P1 G1 G2 G3 G4 G5 G6 E1 E2 E3]; subst s2 rows2.
    + unfold get_next_row. destruct (Z.ltb_spec (bw_row (e_bw s)) 0); [|lia]. cbn [rbind]. change (-1 <? 0) with true. cbn match.
      assert (HP : P = []) by congruence. rewrite HP in Hbits. rewrite Hbits. rewrite HP in HE. cbn [unpack_lsb flat_map skipn]. exists s, rows. split; auto. exists []. split; [|split; [lia|split; [lia|rewrite Hb7; reflexivity]]].
      exists []. split; auto. split; [lia|]. rewrite Ek. reflexivity.
    + rewrite G2. cbn [rbind]. destruct (Z.ltb_spec len 0); [lia|]. unfold pos in G5. assert (Ho0 : e_optr s1 = 0) by congruence. assert (Hb0 : e_bitpos s1 = 7) by congruence.
      apply (Main s1 rows1 P1); auto.
      * rewrite Ho0. unfold e_iptr. destruct (bw_out (e_bw s1)); [congruence|]. cbn [length]. lia.
      * lia.
      * rewrite Ho0. cbn [Z.to_nat skipn]. congruence.
      * rewrite Hb0. change (Z.to_nat (7 - 7)) with 0%nat. cbn [skipn]. congruence.
  - cbn [rbind]. change (0 <? 0) with false. cbn match. apply (Main s rows P); auto. lia.
Qed.
