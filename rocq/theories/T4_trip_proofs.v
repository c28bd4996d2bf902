(** Compressing a page and decompressing it again. *)
From Coq Require Import ZifyBool ZifyNat.
From Verif Require Import Base Bits T4_tables T4_enc_model T4_dec_model T4_drive T4_spec T4_runs_proofs T4_bits_proofs T4_step_proofs T4_code_proofs T4_span_proofs T4_paint_proofs T4_row_proofs T4_2d_proofs T4_2denc_proofs T4_epage_proofs T4_dpage_proofs.

(** ---- compressing ---- *)
Lemma start_ok en w m mx j1 j2 : 8 <= w -> 0 <= m -> en = T4_1D \/ en = T4_2D \/ en = T6 -> Z.of_nat (length j1) = w + 4 -> Z.of_nat (length j2) = w + 4 ->
  exists s, start_page en w m mx j1 j2 = Ok s /\ est en w (if en =? T6 then 0 else m) s [w] [] /\ bw_row (e_bw s) = 0 /\ e_bw s = mk_bw 0 0 0 [] /\ pos s = (0, 7).
Proof.
  intros Hw Hm Hen H1 H2. destruct j2 as [|x0 [|x1 [|x2 [|x3 j2]]]]; cbn [length] in H2; try lia.
  unfold start_page, enc_init.
  change (aset (x0 :: x1 :: x2 :: x3 :: j2) 3 w) with (aset ([x0; x1; x2] ++ x3 :: j2) (Z.of_nat (length [x0; x1; x2])) w). rewrite aset_app. cbn [rbind].
  change (aset ([x0; x1; x2] ++ w :: j2) 2 w) with (aset ([x0; x1] ++ x2 :: w :: j2) (Z.of_nat (length [x0; x1])) w). rewrite aset_app. cbn [rbind].
  change (aset ([x0; x1] ++ w :: w :: j2) 1 w) with (aset ([x0] ++ x1 :: w :: w :: j2) (Z.of_nat (length [x0])) w). rewrite aset_app. cbn [rbind].
  change (aset ([x0] ++ w :: w :: w :: j2) 0 w) with (aset ([] ++ x0 :: w :: w :: w :: j2) (Z.of_nat (length (@nil Z))) w). rewrite aset_app. cbn [rbind app].
  eexists. split; [reflexivity|]. split; [|split; [reflexivity|split; reflexivity]].
  constructor; cbn [enc_set_max_2d enc_set_min_bits e_encoding e_width e_min e_cur e_ref e_steps e_bw e_2d bw_row]; auto; try lia.
  - exists j2. reflexivity.
  - cbn [asc]. lia.
  - constructor; cbn [bw_n bw_bs bw_out]; auto; try (change (2 ^ 0) with 1; lia); try lia. constructor.
Qed.

Lemma pieces_ok sizes : forall s rows Q, Rem s rows Q -> exists s' rows', get_pieces s rows sizes = Ok (s', rows', firstn (Z.to_nat (fold_right (fun n t => Z.max 0 n + t) 0 sizes)) Q).
Proof.
  induction sizes as [|n t IH]; intros s rows Q HR; cbn [get_pieces fold_right].
  - exists s, rows. reflexivity.
  - destruct (enc_get_ok s rows Q n HR) as (s1 & rows1 & E1 & R1). rewrite E1. cbn [rbind]. destruct (IH s1 rows1 _ R1) as (s2 & rows2 & E2). rewrite E2. cbn [rbind].
    exists s2, rows2. do 2 f_equal. set (k := fold_right _ 0 t). assert (0 <= k) by (unfold k; clear; induction t; cbn [fold_right]; lia).
    replace (Z.to_nat (Z.max 0 n + k)) with (Z.to_nat n + Z.to_nat k)%nat by lia. rewrite <- (firstn_skipn (Z.to_nat n) Q) at 3.
    rewrite firstn_app. destruct (Nat.le_gt_cases (Z.to_nat n) (length Q)).
    + rewrite (firstn_length_le Q) by auto. rewrite (firstn_all2 (firstn (Z.to_nat n) Q)) by (rewrite firstn_length; lia). f_equal. f_equal. lia.
    + rewrite (skipn_all2 Q) by lia. rewrite !firstn_nil, !app_nil_r. rewrite (firstn_all2 Q) by lia. symmetry. apply firstn_all2. lia.
Qed.
Lemma firstn_rep {A} (x : A) k : forall n, (k <= n)%nat -> firstn k (repeat x n) = repeat x k.
Proof. induction k as [|k IH]; intros [|n] H; cbn [firstn repeat]; auto; try lia. f_equal. apply IH. lia. Qed.
Lemma get_bits_ok n : forall s rows bits, RemBits s rows bits -> exists s' rows', get_bits n s rows = Ok (s', rows', firstn n (map Z.b2z bits ++ repeat (-7) n)).
Proof.
  induction n as [|n IH]; intros s rows bits HR; cbn [get_bits].
  - exists s, rows. reflexivity.
  - destruct (get_bit_ok s rows bits HR) as (s1 & rows1 & E1 & R1). rewrite E1. cbn [rbind]. destruct (IH s1 rows1 _ R1) as (s2 & rows2 & E2). rewrite E2. cbn [rbind].
    exists s2, rows2. destruct bits as [|b bits]; cbn [skipn map app firstn repeat] in *; [reflexivity|]. do 3 f_equal.
    rewrite !firstn_app. f_equal. rewrite map_length. change (-7 :: repeat (-7) n) with (repeat (-7) (S n)). rewrite !firstn_rep by lia. reflexivity.
Qed.

(** ---- decompressing ---- *)
Definition done (w : Z) (C : core) (s : dec) : Prop := d_eols s = 6 /\ T4_dec_model.d_img s = c_img C.
Lemma feed_pieces_ok pieces : forall C b C' b', bytes (concat pieces) -> Forall (fun p => p <> []) pieces -> c_eols C < 6 -> (length b < 13)%nat ->
  csteps C (b ++ unpack_lsb (concat pieces)) C' b' -> (length b' < 13)%nat -> feed_pieces (mkd C b) pieces = Ok (mkd C' b', repeat 0 (length pieces)).
Proof.
  induction pieces as [|p t IH]; intros C b C' b' Hx Hne H6 Hb Hs Hl; cbn [feed_pieces concat length repeat] in *.
  - unfold unpack_lsb in Hs. cbn [flat_map] in Hs. rewrite app_nil_r in Hs. apply csteps_short in Hs as [-> ->]; auto.
  - apply Forall_app in Hx as [Hx Ht]. apply Forall_cons_iff in Hne as [Hp Hne]. rewrite unpack_lsb_app, app_assoc in Hs.
    apply csteps_split in Hs as (C1 & b1 & P1 & P2 & P3); [|lia]. unfold dec_put. destruct p as [|x p'] eqn:Ep; [congruence|]. rewrite <- Ep in *.
    rewrite (feed p C b C1 b1) by auto. cbn [rbind]. rewrite (IH C1 b1 C' b') by (auto; apply (csteps_eols _ _ _ _ P1 H6)). reflexivity.
Qed.
Lemma feed_pieces_stop pieces : forall C b C' b' C2 n, bytes (concat pieces) -> Forall (fun p => p <> []) pieces -> pieces <> [] -> c_eols C < 6 -> (length b < 13)%nat ->
  csteps C (b ++ unpack_lsb (concat pieces)) C' b' -> (13 <= length b' <= 20)%nat -> cstep C' (win b') = Ok (C2, n, true) ->
  feed_pieces (mkd C b) pieces = Ok (mkd C2 (skipn n b'), repeat 0 (length pieces - 1) ++ [-1]).
Proof.
  induction pieces as [|p t IH]; intros C b C' b' C2 n Hx Hne Hnn H6 Hb Hs Hl H2; [congruence|]. cbn [feed_pieces concat length] in *.
  apply Forall_app in Hx as [Hx Ht]. apply Forall_cons_iff in Hne as [Hp Hne]. unfold dec_put. destruct p as [|x p'] eqn:Ep; [congruence|]. rewrite <- Ep in *.
  destruct t as [|q t0] eqn:Et.
  - cbn [concat] in Hs. rewrite app_nil_r in Hs. rewrite (feed_stop p C b C' b' C2 n) by auto. cbn [rbind feed_pieces length Nat.sub repeat app]. reflexivity.
  - rewrite <- Et in *. assert (HT : (1 <= length (concat t))%nat). { subst t. apply Forall_cons_iff in Hne as [Hq _]. cbn [concat]. rewrite app_length. destruct q; [congruence|]. cbn [length]. lia. }
    rewrite unpack_lsb_app, app_assoc in Hs. apply csteps_split in Hs as (C1 & b1 & P1 & P2 & P3); [|rewrite unpack_lsb_length; lia].
    rewrite (feed p C b C1 b1) by auto. cbn [rbind]. rewrite (IH C1 b1 C' b' C2 n); auto; [|subst t; congruence|apply (csteps_eols _ _ _ _ P1 H6)].
    cbn [rbind]. subst t. cbn [length Nat.sub]. rewrite Nat.sub_0_r. reflexivity.
Qed.
Lemma put_bit_b2z s b : dec_put_bit s (Z.b2z b) = do (s, stop) <- put_bits s (of_bits_lsb [b]) (Z.of_nat (length [b])); Ok (s, if stop then -1 else 0).
Proof. unfold dec_put_bit. destruct b; reflexivity. Qed.
Lemma feed_bits_after bits : forall s, d_eols s = 6 -> 13 <= d_bits s -> d_bits s + Z.of_nat (length bits) <= 32 -> 
  exists s', feed_bits s (map Z.b2z bits) = Ok s' /\ d_eols s' = 6 /\ T4_dec_model.d_img s' = T4_dec_model.d_img s.
Proof.
  induction bits as [|x l IH]; intros s H6 Hb Hl; cbn [map feed_bits].
  - exists s; auto.
  - rewrite put_bit_b2z. unfold put_bits. cbn [length] in *. destruct (Z.ltb_spec (d_bits s) 0); [lia|]. destruct (Z.leb_spec 32 (d_bits s)); [lia|]. cbn [orb].
    cbn [d_set d_bits d_eols]. change (Z.of_nat 1) with 1. destruct (Z.ltb_spec (d_bits s + 1) 13); [lia|]. rewrite H6. change (EOLS_ANY <=? 6) with true. cbn [rbind].
    destruct (IH (d_set s 6 (d_row s) (T4_dec_model.d_img s) (Z.lor (d_bs s) (u32 (Z.shiftl (of_bits_lsb [x]) (d_bits s)))) (d_bits s + 1) (d_skip s))) as (s' & E1 & E2 & E3); cbn [d_set d_bits d_eols]; try lia.
    exists s'. auto.
Qed.
Lemma feed_bits_ok bits : forall C b C' b', c_eols C < 6 -> (length b < 13)%nat -> csteps C (b ++ bits) C' b' -> (length b' < 13)%nat ->
  feed_bits (mkd C b) (map Z.b2z bits) = Ok (mkd C' b').
Proof.
  induction bits as [|x l IH]; intros C b C' b' H6 Hb Hs Hl; cbn [map feed_bits].
  - rewrite app_nil_r in Hs. apply csteps_short in Hs as [-> ->]; auto.
  - change (b ++ x :: l) with (b ++ [x] ++ l) in Hs. rewrite app_assoc in Hs. apply csteps_split in Hs as (C1 & b1 & P1 & P2 & P3); [|lia].
    rewrite put_bit_b2z. rewrite (put_bits_steps C b [x] C1 b1) by (auto; cbn [length]; lia). cbn [rbind]. apply IH; auto. apply (csteps_eols _ _ _ _ P1 H6).
Qed.
Lemma feed_bits_stop bits : forall C b C' b' C2, c_eols C < 6 -> (length b < 13)%nat -> csteps C (b ++ bits) C' b' -> (13 <= length b' <= 20)%nat ->
  (forall l, cstep C' (win (firstn 13 b' ++ l)) = Ok (C2, 0%nat, true)) -> c_eols C2 = 6 ->
  exists s', feed_bits (mkd C b) (map Z.b2z bits) = Ok s' /\ d_eols s' = 6 /\ T4_dec_model.d_img s' = c_img C2.
Proof.
  induction bits as [|x l IH]; intros C b C' b' C2 H6 Hb Hs Hl H2 H3; cbn [map feed_bits].
  - rewrite app_nil_r in Hs. apply csteps_short in Hs as [-> ->]; auto. lia.
  - change (b ++ x :: l) with (b ++ [x] ++ l) in Hs. rewrite app_assoc in Hs. rewrite put_bit_b2z.
    destruct (Nat.le_gt_cases (length b') (length l + 12)).
    + apply csteps_split in Hs as (C1 & b1 & P1 & P2 & P3); [|lia].
      rewrite (put_bits_steps C b [x] C1 b1) by (auto; cbn [length]; lia). cbn [rbind]. eapply IH; eauto. apply (csteps_eols _ _ _ _ P1 H6).
    + assert (HC : C' = C /\ b' = (b ++ [x]) ++ l).
      { inversion Hs as [|? ? C1 n ? ? G1 G2 G3]; subst; auto. exfalso. pose proof (cstep_drop _ _ _ _ G2). apply csteps_suffix in G3. rewrite skipn_length, !app_length in G3. cbn [length] in G3. lia. }
      destruct HC as [-> ->]. assert (L12 : length (b ++ [x]) = 13%nat) by (rewrite !app_length in *; cbn [length] in *; lia).
      assert (Hst : cstep C (win (b ++ [x])) = Ok (C2, 0%nat, true)).
      { rewrite <- (H2 []). f_equal. f_equal. rewrite firstn_app. replace (13 - length (b ++ [x]))%nat with 0%nat by lia. rewrite firstn_O, !app_nil_r, firstn_all2 by lia. reflexivity. }
      rewrite (put_bits_stop C b [x] C (b ++ [x]) C2 0) by (auto; try constructor; cbn [length]; lia). cbn [rbind skipn].
      destruct (feed_bits_after l (mkd C2 (b ++ [x]))) as (s' & E1 & E2 & E3); cbn [mkd d_eols d_bits]; auto; try lia.
      exists s'. auto.
Qed.

Definition final (rows : list (list Z)) (s : dec) : Prop :=
  exists s', dec_put s [] = Ok (s', -1) /\ written s' = map Some rows ++ [None] /\ i_bad (T4_dec_model.d_img s') = 0 /\ i_length (T4_dec_model.d_img s') = Z.of_nat (length rows).
Lemma final_done w s rows im : d_eols s = 6 -> T4_dec_model.d_img s = im -> imgok w im rows -> final rows s.
Proof.
  intros H6 <- [A1 A2 A3 A4 A5]. unfold final, dec_put, dec_finish. rewrite H6. change (6 =? EOLS_ANY) with true. cbn [rbind].
  eexists. split; [reflexivity|]. unfold written. cbn [d_set T4_dec_model.d_img i_log i_bad i_length]. rewrite A5. auto.
Qed.
Lemma final_pending w C rows R e b en : c_enc C = en -> ready w e C R rows -> 0 <= e < 6 -> limit en <= e + 1 -> b = eol12 -> final rows (mkd C b).
Proof.
  intros Henc HR He Hl Hb. pose proof HR as HR'. destruct HR' as [A1 A2 A3 A4 A5 A6 A7 A8 A9 A10 A11 A12 A13 A14 A15 [I1 I2 I3 I4 I5]].
  set (C2 := c_set C EOLS_ANY (c_row C) (c_img C) (c_skip C)).
  assert (E : put_bits (mkd C b) 0 8 = Ok (mkd C2 (b ++ repeat false 8), true)).
  { refine (put_bits_stop C b (repeat false 8) C (b ++ repeat false 8) C2 0 _ _ _ _ _ _).
    - lia.
    - subst b. change (length eol12) with 12%nat. lia.
    - cbn [length repeat]. lia.
    - constructor.
    - subst b. rewrite app_length, repeat_length. change (length eol12) with 12%nat. lia.
    - subst b. eapply eol_stop; eauto. lia. }
  unfold final, dec_put, dec_finish. replace (d_eols (mkd C b) =? EOLS_ANY) with false by (cbn [mkd d_eols]; unfold EOLS_ANY; symmetry; apply Z.eqb_neq; lia).
  rewrite E. clear E. unfold C2, EOLS_ANY.
  cbn [rbind skipn]. unfold put_bits. cbn [mkd d_bits d_eols c_set c_eols]. subst b. change (Z.of_nat (length (eol12 ++ repeat false 8))) with 20. cbn [Z.ltb Z.leb Z.compare orb].
  cbn [d_set d_eols d_bits d_row]. change (20 + 5 <? 13) with false. change (EOLS_ANY <=? 6) with true. cbn [rbind].
  eexists. split; [reflexivity|]. unfold written. cbn [d_set mkd T4_dec_model.d_img i_log i_bad i_length c_set c_img]. rewrite I5. auto.
Qed.

Lemma page_fed en w rows l : stream en w true [w] rows l -> 0 < w -> w mod 8 = 0 -> en = T4_1D \/ en = T4_2D \/ en = T6 ->
  (forall pieces, bytes (concat pieces) -> unpack_lsb (concat pieces) = l -> Forall (fun p => p <> []) pieces ->
     exists s st, feed_pieces (dec_init en w) pieces = Ok (s, repeat 0 (length pieces - 1) ++ [st]) /\ (st = 0 \/ st = -1) /\ final rows s) /\
  (exists s, feed_bits (dec_init en w) (map Z.b2z l) = Ok s /\ final rows s).
Proof.
  intros HS Hw H8 Hen. destruct (dec_page en w rows l HS Hw H8 Hen) as (C' & Rl & pad & S1 & Hp & HR & HN). rewrite dec_init_mkd.
  assert (Hlim : limit en = 2 \/ limit en = 5) by (unfold limit; destruct (en =? T6); auto).
  assert (H60 : c_eols (core0 en w) < 6) by (cbn [core0 dec_init c_eols d_eols]; destruct (en =? T6); lia).
  pose proof (eolbits_len en false) as EL. pose proof (stream_len _ _ _ _ _ _ HS) as LL.
  destruct (eolbits_pre en false (repeat true pad)) as (l' & E1 & E2). rewrite E1 in S1.
  assert (Lb : (12 <= length (eol12 ++ l') <= 20)%nat) by (rewrite <- E1, app_length, repeat_length; lia).
  assert (Hst : forall x, cstep C' (win (eol12 ++ x)) = Ok (c_set C' EOLS_ANY (c_row C') (c_img C') (c_skip C'), 0%nat, true)) by (intros; eapply eol_stop; eauto; lia).
  destruct (Nat.eq_dec (length l') 0) as [E0|E0].
  - assert (l' = []) by (destruct l'; [auto|discriminate]). subst l'. rewrite app_nil_r in *. change (length eol12) with 12%nat in *.
    assert (HF : final rows (mkd C' eol12)) by (eapply final_pending; eauto; lia). split.
    + intros pieces Hb Hu Hne. rewrite (feed_pieces_ok pieces (core0 en w) [] C' eol12); auto; try (cbn [length app]; rewrite ?Hu; auto; lia).
      exists (mkd C' eol12), 0. split; auto. destruct pieces as [|p t]; [exfalso; subst l; cbn [concat unpack_lsb flat_map length] in LL; lia|]. do 2 f_equal. cbn [length Nat.sub]. rewrite Nat.sub_0_r. apply repeat_cons.
    + rewrite (feed_bits_ok l (core0 en w) [] C' eol12); auto; try (cbn [length]; lia). eauto.
  - assert (Lb' : (13 <= length (eol12 ++ l') <= 20)%nat) by (rewrite app_length in *; change (length eol12) with 12%nat in *; lia).
    pose proof (rd_img _ _ _ _ _ HR) as HI. split.
    + intros pieces Hb Hu Hne. rewrite (feed_pieces_stop pieces (core0 en w) [] C' (eol12 ++ l') _ 0) with (8 := Hst l'); auto; try (cbn [length app]; rewrite ?Hu; auto; lia).
      * eexists _, (-1). split; [reflexivity|]. split; auto. eapply final_done; [reflexivity|reflexivity|exact HI].
      * destruct pieces; [exfalso; subst l; cbn [concat unpack_lsb flat_map length] in LL; lia|congruence].
    + destruct (feed_bits_stop l (core0 en w) [] C' (eol12 ++ l') (c_set C' EOLS_ANY (c_row C') (c_img C') (c_skip C'))) as (s' & F1 & F2 & F3); auto; try (cbn [length]; lia).
      { intros x. rewrite firstn_app. change (length eol12) with 12%nat. rewrite firstn_all2 by (change (length eol12) with 12%nat; lia). rewrite <- app_assoc. apply Hst. }
      exists s'. split; auto. eapply final_done; eauto.
Qed.

Section TRIP.
Variables (en w m mx : Z) (j1 j2 : list Z) (rows : list (list Z)).
Hypothesis (Hen : en = T4_1D \/ en = T4_2D \/ en = T6) (Hw : 0 < w) (H8 : w mod 8 = 0) (Hm : 0 <= m <= 7 * w - 4).
Hypothesis (Hj1 : Z.of_nat (length j1) = w + 4) (Hj2 : Z.of_nat (length j2) = w + 4) (Hr : Forall (row_ok w) rows).
Lemma fax_trip : exists s0 P, start_page en w m mx j1 j2 = Ok s0 /\ bytes P /\
  (forall sizes, exists s rows', get_pieces s0 rows sizes = Ok (s, rows', firstn (Z.to_nat (fold_right (fun n t => Z.max 0 n + t) 0 sizes)) P)) /\
  (forall n, exists s rows', get_bits n s0 rows = Ok (s, rows', firstn n (map Z.b2z (unpack_lsb P) ++ repeat (-7) n))) /\
  (forall pieces, concat pieces = P -> Forall (fun p => p <> []) pieces ->
     exists s st, feed_pieces (dec_init en w) pieces = Ok (s, repeat 0 (length pieces - 1) ++ [st]) /\ (st = 0 \/ st = -1) /\ final rows s) /\
  (exists s, feed_bits (dec_init en w) (map Z.b2z (unpack_lsb P)) = Ok s /\ final rows s).
Proof.
  assert (Hw8 : 8 <= w) by (Z.div_mod_to_equations; lia).
  destruct (start_ok en w m mx j1 j2 Hw8 ltac:(lia) Hen Hj1 Hj2) as (s0 & E1 & E2 & E3 & E4 & E5).
  destruct (emits_ok en w (if en =? T6 then 0 else m) Hw8 ltac:(destruct (en =? T6); lia) Hen (S (length rows)) rows s0 [w] [] true ltac:(lia) E2 Hr ltac:(auto)) as (P & l & F1 & F2 & F3 & F4).
  rewrite E4 in F3. cbn [bw_n Z.to_nat bits_lsb app] in F3.
  assert (HRem : Rem s0 rows P). { exists P. split; auto. unfold e_iptr. rewrite E4. unfold pos in E5. inversion E5 as [[Eo Eb]]. rewrite Eo. cbn [bw_out length]. split; [lia|reflexivity]. }
  exists s0, P. split; auto. split; auto. split; [intros; apply pieces_ok; auto|]. split.
  { intros n. apply get_bits_ok. exists P. split; auto. assert (Eb : e_bitpos s0 = 7) by (unfold pos in E5; congruence). rewrite Eb. split; [lia|]. split; [lia|]. reflexivity. }
  destruct (page_fed en w rows l F4 Hw H8 Hen) as [G1 G2]. split.
  - intros pieces HP Hne. apply G1; auto; rewrite HP; auto.
  - rewrite F3. exact G2.
Qed.
End TRIP.

(** The compressor works for any width of at least one octet. *)
Lemma fax_encode_total en w m mx j1 j2 rows : en = T4_1D \/ en = T4_2D \/ en = T6 -> 8 <= w -> 0 <= m <= 7 * w - 4 ->
  Z.of_nat (length j1) = w + 4 -> Z.of_nat (length j2) = w + 4 -> Forall (row_ok w) rows ->
  exists s0 P, start_page en w m mx j1 j2 = Ok s0 /\ bytes P /\
  (forall sizes, exists s rows', get_pieces s0 rows sizes = Ok (s, rows', firstn (Z.to_nat (fold_right (fun n t => Z.max 0 n + t) 0 sizes)) P)) /\
  (forall n, exists s rows', get_bits n s0 rows = Ok (s, rows', firstn n (map Z.b2z (unpack_lsb P) ++ repeat (-7) n))).
Proof.
  intros Hen Hw8 Hm Hj1 Hj2 Hr.
  destruct (start_ok en w m mx j1 j2 Hw8 ltac:(lia) Hen Hj1 Hj2) as (s0 & E1 & E2 & E3 & E4 & E5).
  destruct (emits_ok en w (if en =? T6 then 0 else m) Hw8 ltac:(destruct (en =? T6); lia) Hen (S (length rows)) rows s0 [w] [] true ltac:(lia) E2 Hr ltac:(auto)) as (P & l & F1 & F2 & F3 & F4).
  assert (HRem : Rem s0 rows P). { exists P. split; auto. unfold e_iptr. rewrite E4. unfold pos in E5. inversion E5 as [[Eo Eb]]. rewrite Eo. cbn [bw_out length]. split; [lia|reflexivity]. }
  exists s0, P. split; auto. split; auto. split; [intros; apply pieces_ok; auto|].
  intros n. apply get_bits_ok. exists P. split; auto. assert (Eb : e_bitpos s0 = 7) by (unfold pos in E5; congruence). rewrite Eb. split; [lia|]. split; [lia|]. reflexivity.
Qed.
(** The compressor's bits, and the end of data status that follows them, given to the decompressor one by one. *)
Lemma fax_bit_trip en w m mx j1 j2 rows : en = T4_1D \/ en = T4_2D \/ en = T6 -> 0 < w -> w mod 8 = 0 -> 0 <= m <= 7 * w - 4 ->
  Z.of_nat (length j1) = w + 4 -> Z.of_nat (length j2) = w + 4 -> Forall (row_ok w) rows ->
  exists s0 n s rows' bits d, start_page en w m mx j1 j2 = Ok s0 /\ get_bits (S n) s0 rows = Ok (s, rows', bits ++ [-7]) /\
    Forall (fun b => b = 0 \/ b = 1) bits /\
    feed_bits (dec_init en w) (bits ++ [-7]) = Ok d /\ written d = map Some rows ++ [None] /\
    i_bad (T4_dec_model.d_img d) = 0 /\ i_length (T4_dec_model.d_img d) = Z.of_nat (length rows).
Proof.
  intros Hen Hw H8 Hm Hj1 Hj2 Hr. destruct (fax_trip en w m mx j1 j2 rows Hen Hw H8 Hm Hj1 Hj2 Hr) as (s0 & P & E1 & _ & _ & E2 & _ & d1 & E3 & d & E4 & E5 & E6 & E7).
  set (bits := map Z.b2z (unpack_lsb P)) in *. destruct (E2 (S (length bits))) as (s & rows' & E).
  exists s0, (length bits), s, rows', bits, d. split; auto. split.
  { rewrite E. do 2 f_equal. rewrite firstn_app, firstn_all2 by lia. f_equal. replace (S (length bits) - length bits)%nat with 1%nat by lia. reflexivity. }
  split. { unfold bits. apply Forall_forall. intros x Hx. apply in_map_iff in Hx as ([|] & <- & _); cbn; auto. }
  split; auto. assert (App : forall l s1 s2, feed_bits s1 l = Ok s2 -> feed_bits s1 (l ++ [-7]) = feed_bits s2 [-7]).
  { clear. induction l as [|x l IH]; intros s1 s2 H; cbn [feed_bits app] in *; [inversion H; auto|]. destruct (dec_put_bit s1 x) as [[s3 k]|]; [|discriminate]. cbn [rbind] in *. apply IH. auto. }
  rewrite (App _ _ _ E3). cbn [feed_bits]. unfold dec_put_bit. change (-7 <? 0) with true. change ((-7 =? -1) || (-7 =? -7)) with true. cbv iota.
  unfold dec_put in E4. rewrite E4. reflexivity.
Qed.
Lemma fax_trip_page en w m mx j1 j2 rows : en = T4_1D \/ en = T4_2D \/ en = T6 -> 0 < w -> w mod 8 = 0 -> 0 <= m <= 7 * w - 4 ->
  Z.of_nat (length j1) = w + 4 -> Z.of_nat (length j2) = w + 4 -> Forall (row_ok w) rows ->
  exists s0 P, start_page en w m mx j1 j2 = Ok s0 /\ bytes P /\
  (forall sizes, exists s rows', get_pieces s0 rows sizes = Ok (s, rows', firstn (Z.to_nat (fold_right (fun n t => Z.max 0 n + t) 0 sizes)) P)) /\
  (forall pieces, concat pieces = P -> Forall (fun p => p <> []) pieces ->
     exists s last s', feed_pieces (dec_init en w) pieces = Ok (s, repeat 0 (length pieces - 1) ++ [last]) /\ (last = 0 \/ last = -1) /\
       dec_put s [] = Ok (s', -1) /\ written s' = map Some rows ++ [None] /\ i_bad (T4_dec_model.d_img s') = 0 /\ i_length (T4_dec_model.d_img s') = Z.of_nat (length rows)).
Proof.
  intros Hen Hw H8 Hm Hj1 Hj2 Hr. destruct (fax_trip en w m mx j1 j2 rows Hen Hw H8 Hm Hj1 Hj2 Hr) as (s0 & P & E1 & E2 & E3 & _ & E4 & _).
  exists s0, P. split; [|split; [|split]]; auto. intros pieces H1 H2. destruct (E4 pieces H1 H2) as (s & st & F1 & F2 & s' & F3). eauto 10.
Qed.
