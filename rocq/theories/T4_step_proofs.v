(** The fax decompressor as a machine that looks at 13 bits at a time. *)
From Coq Require Import ZifyBool ZifyNat.
From Verif Require Import Base Bits T4_tables T4_enc_model T4_dec_model T4_spec T4_bits_proofs.

Record core := mk_core { c_enc : Z; c_w : Z; c_eols : Z; c_row : drow; c_img : dimg; c_skip : Z }.
Definition mkd (C : core) (b : list bool) : dec :=
  mk_dec (c_enc C) (c_w C) (c_eols C) (c_row C) (c_img C) (of_bits_lsb b) (Z.of_nat (length b)) (c_skip C).
Definition win (l : list bool) : Z := of_bits_lsb (firstn 13 l).

Definition is_eol (v : Z) : bool := Z.land v 0xFFF =? 0x800.
Definition c_set (C : core) (eols : Z) (r : drow) (im : dimg) (skip : Z) : core := mk_core (c_enc C) (c_w C) eols r im skip.
Definition core_eol (C : core) (v : Z) : res (core * nat * bool) :=
  let r := c_row C in
  let limit := if c_enc C =? T6 then EOLS_T6 else EOLS_T4 in
  if (r_len r =? 0) && (limit <=? c_eols C + 1) then Ok (c_set C EOLS_ANY r (c_img C) (c_skip C), 0%nat, true)
  else
    do (eols, r, im) <-
      (if r_len r =? 0 then Ok (c_eols C + 1, r, c_img C)
       else do r <- (if 0 <? r_run r then add_run_to_row (c_w C) r else Ok r);
            do (r, im) <- put_decoded_row (c_w C) r (c_img C);
            Ok (0, r, im));
    let r2 := if c_enc C =? T4_2D then r_set_2d r (Z.land v 0x1000 =? 0) else r in
    let n := if c_enc C =? T4_2D then 13%nat else 12%nat in
    Ok (c_set C eols (row_start r2) im 0, n, false).
Definition core_code (C : core) (v : Z) : res (core * Z) :=
    do (r, n, through) <- decode_code (c_w C) (c_row C) v;
    let r := if through && (c_w C <=? r_a0 r) then r_set_a r (c_w C - 1) (r_run r) else r in
    do (r, im) <-
      (if through && (c_enc C =? T6) && (r_bw r =? 0) && (c_w C <=? r_len r)
       then do r <- (if 0 <? r_run r then add_run_to_row (c_w C) r else Ok r);
            do (r, im) <- put_decoded_row (c_w C) r (c_img C);
            Ok (row_start r, im)
       else Ok (r, c_img C));
    Ok (c_set C (c_eols C) r im (c_skip C), n).
Definition cstep (C : core) (v : Z) : res (core * nat * bool) :=
  if c_eols C <? 0
  then if is_eol v
       then let d := c_enc C =? T4_1D in
            Ok (c_set C 0 (r_set_2d (c_row C) (if d then false else Z.land v 0x1000 =? 0)) (c_img C) 0, if d then 12%nat else 13%nat, false)
       else Ok (C, 1%nat, false)
  else if is_eol v then core_eol C v
  else if negb (c_skip C =? 0) then Ok (c_set C (c_eols C) (c_row C) (c_img C) (c_skip C - 1), 1%nat, false)
  else do (C', n) <- core_code C v; Ok (c_set C' (c_eols C') (c_row C') (c_img C') (c_skip C' + (n - 1)), 1%nat, false).

(** ---- the window determines the step ---- *)
Lemma of_bits_firstn k l : of_bits_lsb (firstn k l) = of_bits_lsb l mod 2 ^ Z.of_nat k.
Proof.
  destruct (Nat.le_gt_cases (length l) k).
  - rewrite firstn_all2 by auto. symmetry. apply Z.mod_small. pose proof (of_bits_lsb_range l).
    assert (2 ^ Z.of_nat (length l) <= 2 ^ Z.of_nat k) by (apply Z.pow_le_mono_r; lia). lia.
  - rewrite <- (firstn_skipn k l) at 2. rewrite of_bits_lsb_app, firstn_length_le by lia.
    rewrite (Z.mul_comm (2 ^ _)), Z_mod_plus_full. symmetry. apply Z.mod_small.
    pose proof (of_bits_lsb_range (firstn k l)). rewrite firstn_length_le in H0 by lia. lia.
Qed.
Lemma of_bits_skipn k l : of_bits_lsb (skipn k l) = Z.shiftr (of_bits_lsb l) (Z.of_nat k).
Proof.
  rewrite Z.shiftr_div_pow2 by lia. destruct (Nat.le_gt_cases (length l) k).
  - rewrite skipn_all2 by auto. symmetry. apply Z.div_small. pose proof (of_bits_lsb_range l).
    assert (2 ^ Z.of_nat (length l) <= 2 ^ Z.of_nat k) by (apply Z.pow_le_mono_r; lia). lia.
  - rewrite <- (firstn_skipn k l) at 2. rewrite of_bits_lsb_app, firstn_length_le by lia.
    rewrite (Z.mul_comm (2 ^ _)), Z.div_add by (pose proof (p2_pos k); lia).
    rewrite Z.div_small; [lia|]. pose proof (of_bits_lsb_range (firstn k l)). rewrite firstn_length_le in H0 by lia. lia.
Qed.
Lemma win_land l m : 0 <= m < 8192 -> Z.land (of_bits_lsb l) m = Z.land (win l) m.
Proof.
  intros H. unfold win. rewrite of_bits_firstn. change (Z.of_nat 13) with 13. rewrite <- Z.land_ones by lia.
  rewrite <- Z.land_assoc. f_equal. rewrite Z.land_comm. rewrite Z.land_ones by lia. symmetry. apply Z.mod_small. exact H.
Qed.
Lemma decode_code_win w r l : decode_code w r (of_bits_lsb l) = decode_code w r (win l).
Proof. unfold decode_code. rewrite !(win_land l) by lia. auto. Qed.

Lemma dec_iter_core C b : 0 <= c_eols C -> (13 <= length b)%nat ->
  dec_iter (mkd C b) = do (C', n, stop) <- cstep C (win b); Ok (mkd C' (skipn n b), stop).
Proof.
  intros He Hl. unfold dec_iter, cstep. cbn [mkd d_bs d_skip d_eols d_row d_img d_bits d_width d_encoding].
  destruct (Z.ltb_spec (c_eols C) 0); [lia|]. rewrite win_land by lia. fold (is_eol (win b)).
  assert (Sk : forall C' k, mkd C' (skipn k b) = mk_dec (c_enc C') (c_w C') (c_eols C') (c_row C') (c_img C') (Z.shiftr (of_bits_lsb b) (Z.of_nat k)) (Z.of_nat (length b) - Z.min (Z.of_nat (length b)) (Z.of_nat k)) (c_skip C')).
  { intros. unfold mkd. rewrite of_bits_skipn, skipn_length. f_equal. lia. }
  assert (Sk1 : forall C', mkd C' (skipn 1 b) = mk_dec (c_enc C') (c_w C') (c_eols C') (c_row C') (c_img C') (Z.shiftr (of_bits_lsb b) 1) (Z.of_nat (length b) - 1) (c_skip C')).
  { intros. rewrite Sk. f_equal; lia. }
  destruct (is_eol (win b)).
  - unfold dec_eol, core_eol. cbn [mkd d_bs d_skip d_eols d_row d_img d_bits d_width d_encoding].
    destruct ((r_len (c_row C) =? 0) && _).
    + cbn [rbind skipn]. reflexivity.
    + destruct (if r_len (c_row C) =? 0 then _ else _) as [[[eols r] im]|]; [|reflexivity]. cbn [rbind].
      rewrite win_land by lia. rewrite Sk. unfold d_set, c_set. cbn [c_enc c_w c_eols c_row c_img c_skip d_encoding d_width].
      destruct (c_enc C =? T4_2D); do 2 f_equal; f_equal; lia.
  - destruct (negb (c_skip C =? 0)).
    + cbn [rbind]. rewrite Sk1. reflexivity.
    + unfold core_code. rewrite decode_code_win.
      destruct (decode_code (c_w C) (c_row C) (win b)) as [[[r n] th]|]; [|reflexivity]. cbn [rbind].
      set (r1 := if th && _ then _ else _). 
      destruct (if th && _ && _ && _ then _ else _) as [[r2 im]|]; [|reflexivity]. cbn [rbind]. rewrite Sk1. reflexivity.
Qed.

(** ---- sequences of steps ---- *)
Inductive csteps : core -> list bool -> core -> list bool -> Prop :=
| cs_refl C l : csteps C l C l
| cs_step C l C1 n C' l' : (13 <= length l)%nat -> cstep C (win l) = Ok (C1, n, false) -> csteps C1 (skipn n l) C' l' -> csteps C l C' l'.
Lemma csteps_trans C l C1 l1 C2 l2 : csteps C l C1 l1 -> csteps C1 l1 C2 l2 -> csteps C l C2 l2.
Proof. intros H; revert C2 l2; induction H; intros; auto. eapply cs_step; eauto. Qed.

Lemma cstep_drop C v C1 n : cstep C v = Ok (C1, n, false) -> (1 <= n <= 13)%nat.
Proof.
  unfold cstep. destruct (c_eols C <? 0); [destruct (is_eol v)|destruct (is_eol v)].
  - intros H. inversion H. destruct (c_enc C =? T4_1D); lia.
  - intros H. inversion H. lia.
  - unfold core_eol. destruct (_ && _); [discriminate|].
    destruct (if r_len (c_row C) =? 0 then _ else _) as [[[eols r] im]|]; [|discriminate]. cbn [rbind].
    intros H. inversion H. destruct (c_enc C =? T4_2D); lia.
  - destruct (negb (c_skip C =? 0)); [intros H; inversion H; lia|].
    destruct (core_code C v) as [[C' m]|]; [|discriminate]. cbn [rbind]. intros H. inversion H. lia.
Qed.
Lemma cstep_eols C v C1 n : c_eols C < 6 -> cstep C v = Ok (C1, n, false) -> c_eols C1 < 6 /\ (0 <= c_eols C -> 0 <= c_eols C1).
Proof.
  intros H6. unfold cstep. destruct (Z.ltb_spec (c_eols C) 0); [destruct (is_eol v)|destruct (is_eol v)].
  - intros E. inversion E. cbn [c_set c_eols]. lia.
  - intros E. inversion E. subst. lia.
  - unfold core_eol. set (lim := if c_enc C =? T6 then _ else _). assert (lim <= 5) by (unfold lim, EOLS_T6, EOLS_T4; destruct (_ =? _); lia).
    destruct (Z.eqb_spec (r_len (c_row C)) 0); cbn [andb].
    + destruct (Z.leb_spec lim (c_eols C + 1)); [discriminate|]. cbn [rbind]. intros E. inversion E. cbn [c_set c_eols]. lia.
    + destruct (if 0 <? r_run (c_row C) then _ else _) as [r1|]; [|discriminate]. cbn [rbind].
      destruct (put_decoded_row (c_w C) r1 (c_img C)) as [[r2 im2]|]; [|discriminate]. cbn [rbind]. intros E. inversion E. cbn [c_set c_eols]. lia.
  - destruct (negb (c_skip C =? 0)); [intros E; inversion E; cbn [c_set c_eols]; lia|].
    unfold core_code. destruct (decode_code _ _ _) as [[[r m] th]|]; [|discriminate]. cbn [rbind].
    destruct (if th && _ && _ && _ then _ else _) as [[r2 im]|]; [|discriminate]. cbn [rbind]. intros E. inversion E. cbn [c_set c_eols]. lia.
Qed.

Lemma csteps_suffix C l C' l' : csteps C l C' l' -> (length l' <= length l)%nat.
Proof. induction 1 as [|? ? ? ? ? ? ? ? ? IH]; auto. rewrite skipn_length in IH. lia. Qed.
Lemma csteps_eols C l C' l' : csteps C l C' l' -> c_eols C < 6 -> c_eols C' < 6 /\ (0 <= c_eols C -> 0 <= c_eols C').
Proof. induction 1 as [|C l C1 n C' l' H1 H2 H3 IH]; auto. intros H6. destruct (cstep_eols _ _ _ _ H6 H2) as [A B]. destruct (IH A) as [D E]. auto. Qed.

Lemma win_app x y : (13 <= length x)%nat -> win (x ++ y) = win x.
Proof. intros H. unfold win. rewrite firstn_app. replace (13 - length x)%nat with O by lia. rewrite firstn_O, app_nil_r. auto. Qed.
Lemma skipn_app_le {A} n (x y : list A) : (n <= length x)%nat -> skipn n (x ++ y) = skipn n x ++ y.
Proof. intros H. rewrite skipn_app. replace (n - length x)%nat with O by lia. auto. Qed.

Lemma csteps_split C x y C' l' : csteps C (x ++ y) C' l' -> (length l' <= length y + 12)%nat ->
  exists C1 x1, csteps C x C1 x1 /\ (length x1 < 13)%nat /\ csteps C1 (x1 ++ y) C' l'.
Proof.
  intros H. remember (x ++ y) as l. revert x Heql. induction H as [C l|C l C1 n C' l' H1 H2 H3 IH]; intros x -> Hl.
  - exists C, x. split; [constructor|]. split; [rewrite app_length in Hl; lia|constructor].
  - destruct (Nat.lt_ge_cases (length x) 13).
    + exists C, x. split; [constructor|]. split; auto. eapply cs_step; eauto.
    + rewrite win_app in H2 by auto. pose proof (cstep_drop _ _ _ _ H2).
      rewrite skipn_app_le in IH, H3 by lia. destruct (IH _ eq_refl Hl) as (C2 & x2 & P1 & P2 & P3).
      exists C2, x2. split; auto. eapply cs_step; eauto.
Qed.

(** ---- put_bits ---- *)
Lemma dec_loop_steps C b C' b' : csteps C b C' b' -> 0 <= c_eols C < 6 -> (length b' < 13)%nat ->
  forall f, (length b <= f)%nat -> dec_loop f (mkd C b) = Ok (mkd C' b', false).
Proof.
  induction 1 as [C l|C l C1 n C' l' H1 H2 H3 IH]; intros He Hl f Hf.
  - destruct f; cbn [dec_loop mkd d_bits]; destruct (Z.ltb_spec (Z.of_nat (length l)) 13); auto; lia.
  - destruct f; [lia|]. cbn [dec_loop]. cbn [mkd d_bits]. destruct (Z.ltb_spec (Z.of_nat (length l)) 13); [lia|].
    fold (mkd C l). rewrite dec_iter_core by (auto; lia). rewrite H2. cbn [rbind].
    pose proof (cstep_drop _ _ _ _ H2). destruct (cstep_eols _ _ _ _ (proj2 He) H2) as [A B]. 
    apply IH; auto; try lia. rewrite skipn_length. lia.
Qed.
Lemma dec_loop_stop C b C' b' C2 n : csteps C b C' b' -> 0 <= c_eols C < 6 -> (13 <= length b')%nat ->
  cstep C' (win b') = Ok (C2, n, true) ->
  forall f, (length b <= f)%nat -> dec_loop f (mkd C b) = Ok (mkd C2 (skipn n b'), true).
Proof.
  induction 1 as [C l|C l C1 m C' l' H1 H2 H3 IH]; intros He Hl Hs f Hf; (destruct f; [lia|]); cbn [dec_loop]; cbn [mkd d_bits];
    destruct (Z.ltb_spec (Z.of_nat (length l)) 13); try lia; fold (mkd C l); rewrite dec_iter_core by (auto; lia).
  - rewrite Hs. cbn [rbind]. auto.
  - rewrite H2. cbn [rbind]. pose proof (cstep_drop _ _ _ _ H2). destruct (cstep_eols _ _ _ _ (proj2 He) H2) as [A B].
    apply IH; auto; try lia. rewrite skipn_length. lia.
Qed.

(** what put_bits does once the new bits are in the buffer *)
Definition body (C : core) (b : list bool) : res (dec * bool) :=
  do (s, found) <-
      (if c_eols C <? 0
       then do (bs, bits, found) <- find_eol (length b) (of_bits_lsb b) (Z.of_nat (length b));
            if found
            then let d := c_enc C =? T4_1D in
                 let n := if d then 12 else 13 in
                 Ok (d_set (mkd C b) 0 (r_set_2d (c_row C) (if d then false else Z.land bs 0x1000 =? 0)) (c_img C)
                           (Z.shiftr bs n) (bits - n) 0, true)
            else Ok (d_set (mkd C b) (c_eols C) (c_row C) (c_img C) bs bits (c_skip C), false)
       else Ok (mkd C b, true));
    if found then dec_loop (Z.to_nat (d_bits s)) s else Ok (s, false).
Lemma put_bits_body C b o : c_eols C < 6 -> (length b < 32)%nat -> (length b + length o <= 32)%nat ->
  put_bits (mkd C b) (of_bits_lsb o) (Z.of_nat (length o)) =
  if Z.of_nat (length (b ++ o)) <? 13 then Ok (mkd C (b ++ o), false) else body C (b ++ o).
Proof.
  intros H6 Hb Ho. unfold put_bits. cbn [mkd d_bs d_skip d_eols d_row d_img d_bits d_width d_encoding].
  destruct (Z.ltb_spec (Z.of_nat (length b)) 0); [lia|]. destruct (Z.leb_spec 32 (Z.of_nat (length b))); [lia|]. cbn [orb].
  assert (E : Z.lor (of_bits_lsb b) (u32 (Z.shiftl (of_bits_lsb o) (Z.of_nat (length b)))) = of_bits_lsb (b ++ o)).
  { rewrite of_bits_lsb_app, Z.shiftl_mul_pow2 by lia. pose proof (of_bits_lsb_range o). pose proof (of_bits_lsb_range b).
    unfold u32. rewrite Z.mod_small.
    - rewrite lor_disj by lia. ring.
    - assert (2 ^ Z.of_nat (length b) * 2 ^ Z.of_nat (length o) <= 2 ^ 32) by (rewrite <- Z.pow_add_r by lia; apply Z.pow_le_mono_r; lia).
      change (2 ^ 32) with 4294967296 in *. pose proof (p2_pos (length b)). nia. }
  rewrite E. replace (Z.of_nat (length b) + Z.of_nat (length o)) with (Z.of_nat (length (b ++ o))) by (rewrite app_length; lia).
  unfold d_set at 1 2 3 4 5 6 7 8. cbn [d_encoding d_width d_eols d_row d_img d_bs d_bits d_skip].
  destruct (Z.of_nat (length (b ++ o)) <? 13); [reflexivity|].
  unfold EOLS_ANY. destruct (Z.leb_spec 6 (c_eols C)); [lia|]. unfold body. rewrite Nat2Z.id. reflexivity.
Qed.

Lemma find_not C b f : c_eols C < 0 -> (13 <= length b)%nat -> is_eol (win b) = false ->
  find_eol (S f) (of_bits_lsb b) (Z.of_nat (length b)) =
  if Z.of_nat (length (skipn 1 b)) <? 13 then Ok (of_bits_lsb (skipn 1 b), Z.of_nat (length (skipn 1 b)), false)
  else find_eol f (of_bits_lsb (skipn 1 b)) (Z.of_nat (length (skipn 1 b))).
Proof.
  intros He Hl Hn. cbn [find_eol]. rewrite win_land by lia. fold (is_eol (win b)). rewrite Hn.
  rewrite of_bits_skipn, skipn_length. change (Z.of_nat 1) with 1. replace (Z.of_nat (length b - 1)) with (Z.of_nat (length b) - 1) by lia. auto.
Qed.
Lemma body_found C b : c_eols C < 0 -> (13 <= length b)%nat -> is_eol (win b) = true -> forall f,
  find_eol f (of_bits_lsb b) (Z.of_nat (length b)) = Ok (of_bits_lsb b, Z.of_nat (length b), true).
Proof.
  intros He Hl Hn f. destruct f; cbn [find_eol]; rewrite win_land by lia; fold (is_eol (win b)); rewrite Hn; auto.
Qed.
Lemma body_first C b C1 n : c_eols C < 0 -> (13 <= length b)%nat -> is_eol (win b) = true -> cstep C (win b) = Ok (C1, n, false) ->
  body C b = dec_loop (length (skipn n b)) (mkd C1 (skipn n b)).
Proof.
  intros He Hl Hn Hs. unfold body. destruct (Z.ltb_spec (c_eols C) 0); [|lia]. rewrite (body_found C) by auto. cbn [rbind].
  unfold cstep in Hs. destruct (Z.ltb_spec (c_eols C) 0); [|lia]. rewrite Hn in Hs. inversion Hs as [[HC Hnn]].
  rewrite win_land by lia.
  assert (E : d_set (mkd C b) 0 (r_set_2d (c_row C) (if c_enc C =? T4_1D then false else Z.land (win b) 0x1000 =? 0)) (c_img C)
      (Z.shiftr (of_bits_lsb b) (if c_enc C =? T4_1D then 12 else 13)) (Z.of_nat (length b) - (if c_enc C =? T4_1D then 12 else 13)) 0 = mkd C1 (skipn n b)).
  { subst. unfold mkd, d_set. cbn [c_set c_enc c_w c_eols c_row c_img c_skip d_encoding d_width]. rewrite of_bits_skipn, skipn_length.
    destruct (c_enc C =? T4_1D); f_equal; lia. }
  change 4096 with 0x1000. rewrite E. rewrite HC, Hnn. cbn [mkd d_bits]. rewrite Nat2Z.id. reflexivity.
Qed.
Lemma body_skip C b : c_eols C < 0 -> (14 <= length b)%nat -> is_eol (win b) = false -> body C b = body C (skipn 1 b).
Proof.
  intros He Hl Hn. unfold body. destruct (Z.ltb_spec (c_eols C) 0); [|lia].
  assert (E : length b = S (length (skipn 1 b))) by (rewrite skipn_length; lia). rewrite E at 1.
  rewrite (find_not C) by (auto; lia). destruct (Z.ltb_spec (Z.of_nat (length (skipn 1 b))) 13); [rewrite skipn_length in *; lia|].
  reflexivity.
Qed.
Lemma body_skip_last C b : c_eols C < 0 -> length b = 13%nat -> is_eol (win b) = false -> body C b = Ok (mkd C (skipn 1 b), false).
Proof.
  intros He Hl Hn. unfold body. destruct (Z.ltb_spec (c_eols C) 0); [|lia].
  rewrite Hl at 1. rewrite (find_not C) by (auto; lia). destruct (Z.ltb_spec (Z.of_nat (length (skipn 1 b))) 13); [|rewrite skipn_length in *; lia].
  cbn [rbind]. reflexivity.
Qed.
Lemma body_run C b : 0 <= c_eols C -> body C b = dec_loop (length b) (mkd C b).
Proof. intros. unfold body. destruct (Z.ltb_spec (c_eols C) 0); [lia|]. cbn [rbind mkd d_bits]. rewrite Nat2Z.id. auto. Qed.

Lemma csteps_short C b C' b' : csteps C b C' b' -> (length b < 13)%nat -> C' = C /\ b' = b.
Proof. intros H Hl. inversion H; subst; auto; lia. Qed.

Lemma cstep_pre_not C b C1 n : c_eols C < 0 -> is_eol (win b) = false -> cstep C (win b) = Ok (C1, n, false) -> C1 = C /\ n = 1%nat.
Proof. intros He Hn. unfold cstep. destruct (Z.ltb_spec (c_eols C) 0); [|lia]. rewrite Hn. intros E; inversion E; auto. Qed.
Lemma cstep_pre_eols C v C1 n s : c_eols C < 0 -> is_eol v = true -> cstep C v = Ok (C1, n, s) -> c_eols C1 = 0 /\ s = false.
Proof. intros He Hn. unfold cstep. destruct (Z.ltb_spec (c_eols C) 0); [|lia]. rewrite Hn. intros E; inversion E; auto. Qed.

Lemma body_steps C b C' b' : csteps C b C' b' -> c_eols C < 6 -> (length b' < 13)%nat -> (13 <= length b)%nat ->
  body C b = Ok (mkd C' b', false).
Proof.
  induction 1 as [C l|C l C1 n C' l' H1 H2 H3 IH]; intros H6 Hl Hge; [lia|].
  destruct (Z.ltb_spec (c_eols C) 0) as [He|He].
  - destruct (is_eol (win l)) eqn:En.
    + rewrite (body_first C l C1 n) by auto. apply dec_loop_steps; auto. 
      destruct (cstep_pre_eols _ _ _ _ _ He En H2) as [-> _]. lia.
    + destruct (cstep_pre_not _ _ _ _ He En H2) as [-> ->].
      destruct (Nat.eq_dec (length l) 13) as [E13|E13].
      * rewrite body_skip_last by auto. apply csteps_short in H3 as [-> ->]; auto. rewrite skipn_length. lia.
      * rewrite body_skip by (auto; lia). apply IH; auto. rewrite skipn_length. lia.
  - rewrite body_run by lia. apply dec_loop_steps; auto. eapply cs_step; eauto.
Qed.
Lemma body_stop C b C' b' C2 n : csteps C b C' b' -> c_eols C < 6 -> (13 <= length b')%nat -> cstep C' (win b') = Ok (C2, n, true) ->
  body C b = Ok (mkd C2 (skipn n b'), true).
Proof.
  induction 1 as [C l|C l C1 m C' l' H1 H2 H3 IH]; intros H6 Hl Hs.
  - assert (0 <= c_eols C).
    { destruct (Z.ltb_spec (c_eols C) 0) as [He|He]; auto. exfalso. unfold cstep in Hs.
      destruct (Z.ltb_spec (c_eols C) 0); [|lia]. destruct (is_eol (win l)); discriminate. }
    rewrite body_run by lia. eapply dec_loop_stop; eauto. constructor.
  - destruct (Z.ltb_spec (c_eols C) 0) as [He|He].
    + destruct (is_eol (win l)) eqn:En.
      * rewrite (body_first C l C1 m) by auto. eapply dec_loop_stop; eauto.
        destruct (cstep_pre_eols _ _ _ _ _ He En H2) as [-> _]. lia.
      * destruct (cstep_pre_not _ _ _ _ He En H2) as [-> ->]. pose proof (csteps_suffix _ _ _ _ H3). rewrite skipn_length in *.
        rewrite body_skip by (auto; lia). apply IH; auto.
    + rewrite body_run by lia. eapply dec_loop_stop; eauto. eapply cs_step; eauto.
Qed.

Lemma put_bits_steps C b o C' b' : c_eols C < 6 -> (length b < 13)%nat -> (length o <= 8)%nat ->
  csteps C (b ++ o) C' b' -> (length b' < 13)%nat ->
  put_bits (mkd C b) (of_bits_lsb o) (Z.of_nat (length o)) = Ok (mkd C' b', false).
Proof.
  intros H6 Hb Ho Hs Hl. rewrite put_bits_body by lia. destruct (Z.ltb_spec (Z.of_nat (length (b ++ o))) 13).
  - apply csteps_short in Hs as [-> ->]; auto; lia.
  - eapply body_steps; eauto. lia.
Qed.
Lemma put_bits_stop C b o C' b' C2 n : c_eols C < 6 -> (length b < 13)%nat -> (length o <= 8)%nat ->
  csteps C (b ++ o) C' b' -> (13 <= length b')%nat -> cstep C' (win b') = Ok (C2, n, true) ->
  put_bits (mkd C b) (of_bits_lsb o) (Z.of_nat (length o)) = Ok (mkd C2 (skipn n b'), true).
Proof.
  intros H6 Hb Ho Hs Hl H2. pose proof (csteps_suffix _ _ _ _ Hs). rewrite put_bits_body by lia.
  destruct (Z.ltb_spec (Z.of_nat (length (b ++ o))) 13); [lia|]. eapply body_stop; eauto.
Qed.

(** ---- octets ---- *)
Lemma octet_bits x : byte x -> of_bits_lsb (bits_lsb 8 x) = Z.land x 0xFF.
Proof. intros H. rewrite of_bits_lsb_bits by exact H. rewrite land_ff_mod. symmetry. apply Z.mod_small. exact H. Qed.
Lemma put_octet s x : byte x -> put_bits s (Z.land x 0xFF) 8 = put_bits s (of_bits_lsb (bits_lsb 8 x)) (Z.of_nat (length (bits_lsb 8 x))).
Proof. intros H. rewrite octet_bits by auto. rewrite bits_lsb_length. reflexivity. Qed.
Lemma feed octs : forall C b C' b', bytes octs -> c_eols C < 6 -> (length b < 13)%nat -> csteps C (b ++ unpack_lsb octs) C' b' ->
  (length b' < 13)%nat -> put_octets (mkd C b) octs = Ok (mkd C' b', 0).
Proof.
  induction octs as [|x t IH]; intros C b C' b' Hx H6 Hb Hs Hl.
  - cbn [put_octets]. unfold unpack_lsb in Hs. cbn [flat_map] in Hs. rewrite app_nil_r in Hs. apply csteps_short in Hs as [-> ->]; auto.
  - cbn [put_octets]. apply Forall_cons_iff in Hx as [Hx Ht].
    change (unpack_lsb (x :: t)) with (bits_lsb 8 x ++ unpack_lsb t) in Hs. rewrite app_assoc in Hs.
    apply csteps_split in Hs as (C1 & b1 & P1 & P2 & P3); [|lia].
    rewrite put_octet by auto.
    rewrite (put_bits_steps C b (bits_lsb 8 x) C1 b1) by (auto; rewrite ?bits_lsb_length; lia). cbn [rbind].
    apply IH; auto. apply (csteps_eols _ _ _ _ P1 H6).
Qed.
Lemma feed_stop octs : forall C b C' b' C2 n, bytes octs -> c_eols C < 6 -> (length b < 13)%nat -> csteps C (b ++ unpack_lsb octs) C' b' ->
  (13 <= length b' <= 20)%nat -> cstep C' (win b') = Ok (C2, n, true) -> octs <> [] -> put_octets (mkd C b) octs = Ok (mkd C2 (skipn n b'), -1).
Proof.
  induction octs as [|x t IH]; intros C b C' b' C2 n Hx H6 Hb Hs Hl H2 Hne; [congruence|].
  cbn [put_octets]. apply Forall_cons_iff in Hx as [Hx Ht].
  change (unpack_lsb (x :: t)) with (bits_lsb 8 x ++ unpack_lsb t) in Hs.
  rewrite put_octet by auto.
  destruct t as [|y t].
  - unfold unpack_lsb in Hs. cbn [flat_map] in Hs. rewrite app_nil_r in Hs.
    rewrite (put_bits_stop C b (bits_lsb 8 x) C' b' C2 n) by (auto; rewrite ?bits_lsb_length; lia). auto.
  - rewrite app_assoc in Hs. apply csteps_split in Hs as (C1 & b1 & P1 & P2 & P3); [|rewrite unpack_lsb_length; cbn [length]; lia].
    rewrite (put_bits_steps C b (bits_lsb 8 x) C1 b1) by (auto; rewrite ?bits_lsb_length; lia). cbn [rbind].
    eapply IH; eauto; [apply (csteps_eols _ _ _ _ P1 H6)|congruence].
Qed.
