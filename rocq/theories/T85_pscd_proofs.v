(** The inner loop of the T.85 decoder: it never leaves its buffers, and it can be
    stopped and started between any two octets. *)
From Verif Require Import Base Bits Arith_model Arith_spec Arith_enc_proofs Arith_dec_proofs T85_enc_model T85_dec_model T85_arith_proofs.
From Coq Require Import ZifyBool ZifyNat.
Local Open Scope Z_scope.

(** ---- a turn, taken apart ---- *)

Definition prep (c : par) (o : Z) (s : pd) : res (pd * Z) :=
  let s1 := at_moves s in
  if opt o T85_TPBON && ppseudo s1 then Ok (s1, if opt o T85_LRLTWO then TPB2CX else TPB3CX)
  else
    do s2 <- row_start c (p_tp s1 false (plntp s1));
    do s3 <- load_octets c s2;
    do cx <- dec_context c o s3;
    Ok (s3, cx).
Definition nbuf (o : Z) : Z := if opt o T85_LRLTWO then 2 else 3.
Definition fin (c : par) (o : Z) (s : pd) (r : Z) : res pd :=
  if opt o T85_TPBON && ppseudo s then
    let lntp := negb (xorb (negb (r =? 0)) (plntp s)) in
    let s3 := p_tp s (ppseudo s) lntp in
    if negb lntp then typical_row c (nbuf o) s3 else Ok (p_tp s3 false lntp)
  else take_pixel c o (nbuf o) r s.
Definition complete (c : par) (yd : Z) (s : pd) : bool := negb ((pi s <? l0 c) && (py s <? yd)).

Lemma ppseudo_at_moves s : ppseudo (at_moves s) = ppseudo s.
Proof.
  unfold at_moves. destruct ((px s =? 0) && ppseudo s); [|reflexivity].
  enough (G : forall l s1, ppseudo s1 = ppseudo s -> ppseudo (fold_left (fun s1 m => if fst m =? pi s1 then p_tx s1 (snd m) else s1) l s1) = ppseudo s) by (apply G; reflexivity).
  induction l as [|m l IH]; intros s1 H; [exact H|]. cbn [fold_left]. apply IH. destruct (fst m =? pi s1); exact H.
Qed.

Lemma fin_not_pseudo c o s r : ppseudo s = false -> fin c o s r = take_pixel c o (nbuf o) r s.
Proof. intros H. unfold fin. rewrite H, andb_false_r. reflexivity. Qed.

Lemma row_start_pseudo c s s' : row_start c s = Ok s' -> ppseudo s' = ppseudo s /\ par_s s' = par_s s /\ pi s' = pi s /\ py s' = py s /\ px s' = px s.
Proof.
  unfold row_start. destruct (px s =? 0); [|intros H; injection H as <-; auto].
  destruct (if 0 <=? pp1 s then _ else _); [|discriminate]. cbn [rbind].
  destruct (if 0 <=? pp2 s then _ else _); [|discriminate]. cbn [rbind]. intros H. injection H as <-. auto 10.
Qed.
Lemma load_octets_pseudo c s s' : load_octets c s = Ok s' -> ppseudo s' = ppseudo s /\ par_s s' = par_s s /\ pi s' = pi s /\ py s' = py s /\ px s' = px s.
Proof.
  unfold load_octets. destruct (Z.land (px s) 7 =? 0); [|intros H; injection H as <-; auto].
  destruct (_ && _); [|intros H; injection H as <-; auto].
  destruct (aget _ _); [|discriminate]. cbn [rbind].
  destruct (if 0 <=? pp2 s then _ else _); [|discriminate]. cbn [rbind]. intros H. injection H as <-. auto 10.
Qed.

Lemma step_eq c o yd s inp : pscd_step c o yd s inp =
  if complete c yd s then Ok (Stop s inp)
  else do (s3, cx) <- prep c o s;
       do (r, d, i1) <- t81_t82_arith_decode (par_s s3) cx inp;
       if r <? 0 then Ok (Stop (p_ar s3 d) i1) else do s5 <- fin c o (p_ar s3 d) r; Ok (Go s5 i1).
Proof.
  unfold pscd_step, complete, prep. destruct (negb _) eqn:Ec; [reflexivity|].
  destruct (opt o T85_TPBON && ppseudo (at_moves s)) eqn:E.
  - cbn [rbind]. destruct (t81_t82_arith_decode _ _ _) as [[[r d] i1]|]; [|reflexivity]. cbn [rbind].
    destruct (r <? 0); [reflexivity|]. unfold fin. change (ppseudo (p_ar (at_moves s) d)) with (ppseudo (at_moves s)). rewrite E.
    cbv zeta. destruct (negb (negb _)); [|reflexivity].
    unfold nbuf. reflexivity.
  - destruct (row_start c (p_tp (at_moves s) false (plntp (at_moves s)))) as [s2|] eqn:E2; [|reflexivity]. cbn [rbind].
    destruct (load_octets c s2) as [s3|] eqn:E3; [|reflexivity]. cbn [rbind].
    destruct (dec_context c o s3) as [cx|]; [|reflexivity]. cbn [rbind].
    destruct (t81_t82_arith_decode _ _ _) as [[[r d] i1]|]; [|reflexivity]. cbn [rbind].
    destruct (r <? 0); [reflexivity|]. rewrite fin_not_pseudo; [reflexivity|].
    destruct (row_start_pseudo _ _ _ E2) as (A1 & _). destruct (load_octets_pseudo _ _ _ E3) as (A2 & _).
    cbn [p_ar ppseudo]. rewrite A2, A1. reflexivity.
Qed.

Lemma at_moves_facts s : par_s (at_moves s) = par_s s /\ pi (at_moves s) = pi s /\ py (at_moves s) = py s /\ px (at_moves s) = px s /\ pat (at_moves s) = pat s.
Proof.
  unfold at_moves. destruct ((px s =? 0) && ppseudo s); [|auto].
  enough (G : forall l s1, par_s s1 = par_s s /\ pi s1 = pi s /\ py s1 = py s /\ px s1 = px s /\ pat s1 = pat s ->
    let s2 := fold_left (fun s1 m => if fst m =? pi s1 then p_tx s1 (snd m) else s1) l s1 in
    par_s s2 = par_s s /\ pi s2 = pi s /\ py s2 = py s /\ px s2 = px s /\ pat s2 = pat s) by (apply G; auto).
  induction l as [|m l IH]; intros s1 H; [exact H|]. cbn [fold_left]. apply IH. destruct (fst m =? pi s1); exact H.
Qed.

Lemma prep_facts c o s s3 cx : prep c o s = Ok (s3, cx) -> par_s s3 = par_s s /\ pi s3 = pi s /\ py s3 = py s /\ px s3 = px s.
Proof.
  destruct (at_moves_facts s) as (A1 & A2 & A3 & A4 & _). unfold prep. destruct (_ && _).
  - intros H. injection H as <- _. auto.
  - destruct (row_start c (p_tp (at_moves s) false (plntp (at_moves s)))) as [s2|] eqn:E2; [|discriminate]. cbn [rbind].
    destruct (load_octets c s2) as [s4|] eqn:E3; [|discriminate]. cbn [rbind].
    destruct (dec_context c o s4) as [cx'|]; [|discriminate]. cbn [rbind]. intros H. injection H as <- _.
    destruct (row_start_pseudo _ _ _ E2) as (_ & B2 & B3 & B4 & B5). destruct (load_octets_pseudo _ _ _ E3) as (_ & C2 & C3 & C4 & C5).
    cbn [p_tp par_s pi py px] in *. repeat split; congruence.
Qed.

(** ---- the arithmetic decoder's state is of no other use ---- *)

Definition rmap {A B} (f : A -> B) (r : res A) : res B := match r with Ok a => Ok (f a) | UB => UB end.

Lemma at_moves_ar s d : at_moves (p_ar s d) = p_ar (at_moves s) d.
Proof.
  unfold at_moves. cbn [p_ar px ppseudo pat]. destruct ((px s =? 0) && ppseudo s); [|reflexivity].
  generalize (pat s). intros l. revert s. induction l as [|m l IH]; intros s; [reflexivity|].
  cbn [fold_left p_ar pi]. destruct (fst m =? pi s); [|apply IH]. change (p_tx (p_ar s d) (snd m)) with (p_ar (p_tx s (snd m)) d). apply IH.
Qed.
Lemma row_start_ar c s d : row_start c (p_ar s d) = rmap (fun s => p_ar s d) (row_start c s).
Proof.
  unfold row_start. cbn [p_ar px pp1 pp2 prows]. destruct (px s =? 0); [|reflexivity].
  destruct (if 0 <=? pp1 s then _ else _); [|reflexivity]. cbn [rbind].
  destruct (if 0 <=? pp2 s then _ else _); [|reflexivity]. reflexivity.
Qed.
Lemma load_octets_ar c s d : load_octets c (p_ar s d) = rmap (fun s => p_ar s d) (load_octets c s).
Proof.
  unfold load_octets. cbn [p_ar px pp1 pp2 prows ph2]. destruct (Z.land (px s) 7 =? 0); [|reflexivity].
  destruct (_ && _); [|reflexivity]. destruct (aget _ _); [|reflexivity]. cbn [rbind].
  destruct (if 0 <=? pp2 s then _ else _); reflexivity.
Qed.
Lemma dec_context_ar c o s d : dec_context c o (p_ar s d) = dec_context c o s.
Proof. reflexivity. Qed.
Lemma prep_ar c o s d : prep c o (p_ar s d) = rmap (fun x => (p_ar (fst x) d, snd x)) (prep c o s).
Proof.
  unfold prep. rewrite at_moves_ar. cbn [p_ar ppseudo plntp]. destruct (_ && _); [reflexivity|].
  change (p_tp (p_ar (at_moves s) d) false (plntp (at_moves s))) with (p_ar (p_tp (at_moves s) false (plntp (at_moves s))) d).
  rewrite row_start_ar. destruct (row_start c _) as [s2|]; [|reflexivity]. cbn [rbind rmap].
  rewrite load_octets_ar. destruct (load_octets c s2) as [s3|]; [|reflexivity]. cbn [rbind rmap].
  rewrite dec_context_ar. destruct (dec_context c o s3); reflexivity.
Qed.
Lemma typical_row_ar c n s d : typical_row c n (p_ar s d) = rmap (fun s => p_ar s d) (typical_row c n s).
Proof.
  unfold typical_row. cbn [p_ar pp1 pp0 prows px]. destruct (pp1 s <? 0).
  - destruct (ablit _ _ _) as [rows|]; [|reflexivity]. cbn [rbind]. destruct (aslice _ _ _); reflexivity.
  - destruct (aslice _ _ _); reflexivity.
Qed.
Lemma take_pixel_ar c o n r s d : take_pixel c o n r (p_ar s d) = rmap (fun s => p_ar s d) (take_pixel c o n r s).
Proof.
  unfold take_pixel. cbn [p_ar ph0 ph1 ph2 px p_x p_h pp0 prows p_rows]. destruct (_ && _); [reflexivity|].
  destruct (aset _ _ _) as [rows|]; [|reflexivity]. cbn [rbind p_rows prows pp0 p_x p_h p_ar].
  destruct (px s + 1 <? xd c); [reflexivity|]. destruct (aget _ _) as [b|]; [|reflexivity]. cbn [rbind].
  destruct (aset rows _ _) as [rows2|]; [|reflexivity]. cbn [rbind]. unfold row_of. cbn [p_rows prows pp0 p_x p_h p_ar].
  destruct (aslice _ _ _); reflexivity.
Qed.
Lemma fin_ar c o s d r : fin c o (p_ar s d) r = rmap (fun s => p_ar s d) (fin c o s r).
Proof.
  unfold fin. cbn [p_ar ppseudo plntp]. destruct (_ && _); [|apply take_pixel_ar].
  destruct (negb (negb _)); [|reflexivity]. apply (typical_row_ar c (nbuf o) (p_tp s (ppseudo s) (negb (xorb (negb (r =? 0)) (plntp s)))) d).
Qed.

(** ---- coming back to the same place ---- *)

Lemma at_moves_idem s : at_moves (at_moves s) = at_moves s.
Proof.
  destruct (at_moves_facts s) as (_ & _ & _ & A4 & A5). pose proof (ppseudo_at_moves s) as A1.
  unfold at_moves at 1. rewrite A4, A1, A5.
  destruct ((px s =? 0) && ppseudo s) eqn:E; [|reflexivity]. unfold at_moves. rewrite E.
  generalize (pat s). intros l. 
  set (f := fun (s1 : pd) (m : Z * Z) => if fst m =? pi s1 then p_tx s1 (snd m) else s1).
  assert (K : forall l (s : pd), exists (b : bool) v, True /\ (forall s1, pi s1 = pi s -> fold_left f l s1 = if b then p_tx s1 v else s1)).
  { clear. induction l as [|m l IH]; intros s; [exists false, 0; split; [exact I|reflexivity]|].
    destruct (IH s) as (b & v & _ & H). cbn [fold_left]. unfold f at 2.
    destruct (fst m =? pi s) eqn:E.
    - exists true, (if b then v else snd m). split; [exact I|]. intros s1 H1. rewrite H1, E.
      rewrite (H (p_tx s1 (snd m)) H1). destruct b; reflexivity.
    - exists b, v. split; [exact I|]. intros s1 H1. rewrite H1, E. apply H. exact H1. }
  destruct (K l s) as (b & v & _ & H). rewrite (H s eq_refl). destruct b.
  - rewrite H by reflexivity. reflexivity.
  - apply H. reflexivity.
Qed.

Lemma at_moves_not_pseudo s : ppseudo s = false -> at_moves s = s.
Proof. intros H. unfold at_moves. rewrite H, andb_false_r. reflexivity. Qed.

Lemma row_start_loaded c s s2 s3 : row_start c s = Ok s2 -> load_octets c s2 = Ok s3 ->
  exists s2', row_start c s3 = Ok s2' /\ load_octets c s2' = Ok s3.
Proof.
  unfold row_start. destruct (px s =? 0) eqn:Ex.
  - destruct (if 0 <=? pp1 s then _ else _) as [h1|] eqn:E1; [|discriminate]. cbn [rbind].
    destruct (if 0 <=? pp2 s then _ else _) as [h2|] eqn:E2; [|discriminate]. cbn [rbind]. intros H. injection H as <-.
    unfold load_octets. cbn [p_h px pp1 pp2 prows ph0 ph1 ph2].
    destruct (Z.land (px s) 7 =? 0) eqn:E7.
    2:{ intros H. injection H as <-. cbn [p_h px pp1 pp2 prows]. rewrite Ex, E1. cbn [rbind]. rewrite E2. cbn [rbind]. eexists. split; [reflexivity|].
        cbn [p_h px]. rewrite E7. reflexivity. }
    destruct ((px s <? (bpr c - 1) * 8) && (0 <=? pp1 s)) eqn:E8.
    2:{ intros H. injection H as <-. cbn [p_h px pp1 pp2 prows]. rewrite Ex, E1. cbn [rbind]. rewrite E2. cbn [rbind]. eexists. split; [reflexivity|].
        cbn [p_h px pp1]. rewrite E7, E8. reflexivity. }
    destruct (aget (prows s) (pp1 s * bpr c + Z.shiftr (px s) 3 + 1)) as [b1|] eqn:E3; [|discriminate]. cbn [rbind].
    destruct (if 0 <=? pp2 s then do b2 <- aget (prows s) (pp2 s * bpr c + Z.shiftr (px s) 3 + 1); Ok (Z.lor h2 b2) else Ok h2) as [h2'|] eqn:E4; [|discriminate].
    cbn [rbind]. intros H. injection H as <-. cbn [p_h px pp1 pp2 prows]. rewrite Ex, E1. cbn [rbind]. rewrite E2. cbn [rbind]. eexists. split; [reflexivity|].
    cbn [p_h px pp1 pp2 prows ph0 ph1 ph2]. rewrite E7, E8, E3. cbn [rbind]. rewrite E4. reflexivity.
  - intros H. injection H as <-. intros H. destruct (load_octets_pseudo _ _ _ H) as (_ & _ & _ & _ & Ex'). rewrite Ex', Ex.
    eexists. split; [reflexivity|]. revert H. unfold load_octets at 1.
    destruct (Z.land (px s) 7 =? 0) eqn:E7.
    2:{ intros H. injection H as <-. unfold load_octets. rewrite E7. reflexivity. }
    destruct ((px s <? (bpr c - 1) * 8) && (0 <=? pp1 s)) eqn:E8.
    2:{ intros H. injection H as <-. unfold load_octets. rewrite E7, E8. reflexivity. }
    destruct (aget (prows s) (pp1 s * bpr c + Z.shiftr (px s) 3 + 1)) as [b1|] eqn:E3; [|discriminate]. cbn [rbind].
    destruct (0 <=? pp2 s) eqn:E9.
    + destruct (aget (prows s) (pp2 s * bpr c + Z.shiftr (px s) 3 + 1)) as [b2|] eqn:E4; [|discriminate]. cbn [rbind].
      intros H. injection H as <-. unfold load_octets. cbn [p_h px pp1 pp2 prows ph0 ph1 ph2]. rewrite E7, E8, E3. cbn [rbind]. rewrite E9, E4. cbn [rbind].
      rewrite <- !Z.lor_assoc, !Z.lor_diag. reflexivity.
    + cbn [rbind]. intros H. injection H as <-. unfold load_octets. cbn [p_h px pp1 pp2 prows ph0 ph1 ph2]. rewrite E7, E8, E3. cbn [rbind]. rewrite E9. cbn [rbind].
      rewrite <- !Z.lor_assoc, !Z.lor_diag. reflexivity.
Qed.

Lemma prep_idem c o s s3 cx d : prep c o s = Ok (s3, cx) -> prep c o (p_ar s3 d) = Ok (p_ar s3 d, cx).
Proof.
  intros H. rewrite prep_ar. enough (prep c o s3 = Ok (s3, cx)) as -> by reflexivity. revert H. unfold prep at 1.
  destruct (opt o T85_TPBON && ppseudo (at_moves s)) eqn:E.
  - intros H. injection H as <- <-. unfold prep. rewrite at_moves_idem, E. reflexivity.
  - destruct (row_start c (p_tp (at_moves s) false (plntp (at_moves s)))) as [s2|] eqn:E2; [|discriminate]. cbn [rbind].
    destruct (load_octets c s2) as [s4|] eqn:E3; [|discriminate]. cbn [rbind].
    destruct (dec_context c o s4) as [cx'|] eqn:E4; [|discriminate]. cbn [rbind]. intros H. injection H as <- <-.
    destruct (row_start_pseudo _ _ _ E2) as (A1 & _). destruct (load_octets_pseudo _ _ _ E3) as (A2 & _). cbn [p_tp ppseudo] in A1.
    unfold prep. assert (Hp : ppseudo s4 = false) by congruence. rewrite (at_moves_not_pseudo _ Hp), Hp, andb_false_r.
    replace (p_tp s4 false (plntp s4)) with s4 by (destruct s4; cbn in Hp; subst; reflexivity).
    destruct (row_start_loaded _ _ _ _ E2 E3) as (s2' & -> & E5). cbn [rbind]. rewrite E5. cbn [rbind]. rewrite E4. reflexivity.
Qed.

(** ---- safety ---- *)

Definition par_ok (c : par) : Prop := 1 <= xd c /\ 8 * bpr c - 7 <= xd c <= 8 * bpr c.
Definition tx_ok (o tx : Z) : Prop := tx = 0 \/ first_t o <= tx.
Record sane (c : par) (o : Z) (s : pd) : Prop := {
  s_x : 0 <= px s < xd c;
  s_p0 : 0 <= pp0 s < nbuf o;
  s_p1 : -1 <= pp1 s < nbuf o;
  s_p2 : -1 <= pp2 s < nbuf o;
  s_len : nbuf o * bpr c <= Z.of_nat (length (prows s));
  s_tx : tx_ok o (ptx s);
  s_at : Forall (fun m => tx_ok o (snd m)) (pat s);
  s_pseudo : ppseudo s = true -> px s = 0;
  s_ar : dsafe (par_s s) }.

Lemma shr3 x : Z.shiftr x 3 = x / 8. Proof. rewrite Z.shiftr_div_pow2 by lia. reflexivity. Qed.
Lemma land7 x : Z.land x 7 = x mod 8. Proof. change 7 with (Z.ones 3). rewrite Z.land_ones by lia. reflexivity. Qed.
Lemma land_not7 x : Z.land x (Z.lnot 7) = 8 * (x / 8).
Proof. change (Z.land x (Z.lnot 7)) with (Z.land x (Z.lnot (Z.ones 3))). rewrite <- Z.ldiff_land, Z.ldiff_ones_r by lia. rewrite Z.shiftl_mul_pow2, shr3 by lia. lia. Qed.
Lemma shr_back x t : Z.shiftr x 3 + Z.shiftr (x - t - Z.land x (Z.lnot 7)) 3 = (x - t) / 8.
Proof.
  rewrite !shr3, land_not7. replace (x - t - 8 * (x / 8)) with ((x - t) + (- (x / 8)) * 8) by ring. rewrite Z.div_add by lia. lia.
Qed.

Lemma land_below x m k : 0 <= m < 2 ^ k -> 0 <= Z.land x m < 2 ^ k.
Proof. intros H. pose proof (proj2 (Z.land_nonneg x m) (or_intror (proj1 H))). assert (Z.land x m <= m); [|lia].
  destruct (Z.eq_dec m 0) as [->|N]; [rewrite Z.land_0_r; lia|].
  apply Z.ldiff_le; [lia|]. apply Z.bits_inj_iff'. intros n Hn. rewrite Z.ldiff_spec, Z.land_spec, Z.bits_0. destruct (Z.testbit m n); [rewrite andb_false_r|rewrite andb_false_r]; reflexivity. Qed.
Lemma lor_below a b k : 0 <= k -> 0 <= a < 2 ^ k -> 0 <= b < 2 ^ k -> 0 <= Z.lor a b < 2 ^ k.
Proof.
  intros Hk Ha Hb. split; [apply Z.lor_nonneg; lia|].
  destruct (Z.eq_dec (Z.lor a b) 0) as [->|N]; [lia|].
  apply Z.log2_lt_pow2; [pose proof (proj2 (Z.lor_nonneg a b)); lia|].
  rewrite Z.log2_lor by lia.
  destruct (Z.eq_dec a 0) as [->|Na]; destruct (Z.eq_dec b 0) as [->|Nb]; try (exfalso; apply N; reflexivity).
  - rewrite Z.max_r by (apply Z.log2_nonneg). apply Z.log2_lt_pow2; lia.
  - rewrite Z.max_l by (apply Z.log2_nonneg). apply Z.log2_lt_pow2; lia.
  - apply Z.max_lub_lt; apply Z.log2_lt_pow2; lia.
Qed.

Lemma row_slot n b k j : 0 <= k < n -> 0 <= j < b -> 0 <= k * b + j < n * b.
Proof. nia. Qed.

Section SAFE.
Variable c : par.
Variable o : Z.
Hypothesis PC : par_ok c.

Lemma nbuf_range : nbuf o = 2 \/ nbuf o = 3. Proof. unfold nbuf. destruct (opt o T85_LRLTWO); auto. Qed.
Lemma oct_in x : 0 <= x < xd c -> 0 <= x / 8 < bpr c.
Proof. destruct PC as (H1 & H2). intros H. Z.div_mod_to_equations. lia. Qed.

Lemma at_moves_sane s : sane c o s -> sane c o (at_moves s).
Proof.
  intros H. unfold at_moves. destruct ((px s =? 0) && ppseudo s); [|exact H].
  enough (G : forall l s1, sane c o s1 -> Forall (fun m => tx_ok o (snd m)) l ->
    sane c o (fold_left (fun s1 m => if fst m =? pi s1 then p_tx s1 (snd m) else s1) l s1)) by (apply G; [exact H|apply H]).
  induction l as [|m l IH]; intros s1 H1 HF; [exact H1|]. cbn [fold_left]. apply IH; [|apply (Forall_inv_tail HF)].
  destruct (fst m =? pi s1); [|exact H1]. destruct H1. constructor; cbn [p_tx px pp0 pp1 pp2 prows ptx pat ppseudo par_s]; auto. apply (Forall_inv HF).
Qed.

Lemma row_get s p j : sane c o s -> 0 <= p < nbuf o -> 0 <= j < bpr c -> exists b, aget (prows s) (p * bpr c + j) = Ok b.
Proof.
  intros H Hp Hj. pose proof (row_slot _ _ _ _ Hp Hj) as K. pose proof (s_len _ _ _ H). eexists. apply aget_ok. lia.
Qed.

Lemma row_start_safe s : sane c o s -> exists s', row_start c s = Ok s' /\ sane c o s'.
Proof.
  intros H. pose proof (s_p1 _ _ _ H) as H1. pose proof (s_p2 _ _ _ H) as H2. destruct PC as (HX & HB).
  unfold row_start. destruct (px s =? 0); [|exists s; auto].
  assert (K : forall p, -1 <= p < nbuf o -> exists h, (if 0 <=? p then do b <- aget (prows s) (p * bpr c + 0); Ok (Z.shiftl b 8) else Ok 0) = Ok h).
  { intros p Hp. destruct (Z.leb_spec 0 p); [|eexists; reflexivity]. destruct (row_get s p 0 H) as [b ->]; [lia|lia|]. eexists. reflexivity. }
  destruct (K _ H1) as [h1 ->]. cbn [rbind]. destruct (K _ H2) as [h2 ->]. cbn [rbind]. eexists. split; [reflexivity|].
  destruct H. constructor; assumption.
Qed.

Lemma load_octets_safe s : sane c o s -> exists s', load_octets c s = Ok s' /\ sane c o s'.
Proof.
  intros H. pose proof (s_p1 _ _ _ H) as H1. pose proof (s_p2 _ _ _ H) as H2. pose proof (s_x _ _ _ H) as H3. destruct PC as (HX & HB).
  unfold load_octets. destruct (Z.land (px s) 7 =? 0); [|exists s; auto].
  destruct ((px s <? (bpr c - 1) * 8) && (0 <=? pp1 s)) eqn:E; [|exists s; auto].
  assert (J : 0 <= Z.shiftr (px s) 3 + 1 < bpr c) by (rewrite shr3; Z.div_mod_to_equations; lia).
  destruct (row_get s (pp1 s) _ H ltac:(lia) J) as [b1 E1]. rewrite <- !Z.add_assoc, E1. cbn [rbind].
  destruct (Z.leb_spec 0 (pp2 s)).
  - destruct (row_get s (pp2 s) _ H ltac:(lia) J) as [b2 E2]. rewrite E2. cbn [rbind]. eexists. split; [reflexivity|]. destruct H. constructor; assumption.
  - cbn [rbind]. eexists. split; [reflexivity|]. destruct H. constructor; assumption.
Qed.

Lemma at_pixel_safe s : sane c o s -> 0 < ptx s <= px s -> exists a, at_pixel c s = Ok a /\ (a = 0 \/ a = 1).
Proof.
  intros H Ht. unfold at_pixel. rewrite <- Z.add_assoc, shr_back.
  destruct (row_get s (pp0 s) ((px s - ptx s) / 8) H) as [b ->].
  - apply (s_p0 _ _ _ H).
  - pose proof (s_x _ _ _ H). apply oct_in. lia.
  - cbn [rbind]. eexists. split; [reflexivity|].
    match goal with |- Z.land ?y 1 = 0 \/ _ => pose proof (land_below y 1 1 ltac:(lia)) end. lia.
Qed.

Lemma dec_context_safe s : sane c o s -> exists cx, dec_context c o s = Ok cx /\ 0 <= cx < 4096.
Proof.
  intros H. pose proof (s_tx _ _ _ H) as Ht. unfold tx_ok, first_t in Ht. unfold dec_context.
  assert (B : forall x m, 0 <= m < 1024 -> 0 <= Z.land x m < 2 ^ 10) by (intros; apply land_below; lia).
  assert (L : forall x y, 0 <= x < 2 ^ 10 -> 0 <= y < 2 ^ 10 -> 0 <= Z.lor x y < 2 ^ 10) by (intros; apply lor_below; lia).
  assert (F : forall cx, 0 <= cx < 2 ^ 10 -> 0 <= cx < 4096) by (intros; lia).
  destruct (opt o T85_LRLTWO).
  - destruct (Z.eqb_spec (ptx s) 0) as [E|E]; cbn [negb].
    { eexists. split; [reflexivity|]. apply F, L; apply B; lia. }
    destruct (Z.leb_spec (ptx s) (px s)).
    2:{ eexists. split; [reflexivity|]. apply F, L; apply B; lia. }
    destruct (ptx s <? 8).
    + destruct (Z.ltb_spec (ptx s) 5); [lia|]. eexists. split; [reflexivity|]. apply F, L; [apply L|]; apply B; lia.
    + destruct (at_pixel_safe s H ltac:(lia)) as (a & -> & Ha). cbn [rbind]. eexists. split; [reflexivity|].
      apply F, L; [apply L; apply B; lia|]. destruct Ha as [-> | ->]; cbn; lia.
  - destruct (Z.eqb_spec (ptx s) 0) as [E|E]; cbn [negb].
    { eexists. split; [reflexivity|]. apply F, L; [apply L|]; apply B; lia. }
    destruct (Z.leb_spec (ptx s) (px s)).
    2:{ eexists. split; [reflexivity|]. apply F, L; [apply L|]; apply B; lia. }
    destruct (ptx s <? 8).
    + destruct (Z.ltb_spec (ptx s) 3); [lia|]. eexists. split; [reflexivity|]. apply F, L; [apply L; [apply L|]|]; apply B; lia.
    + destruct (at_pixel_safe s H ltac:(lia)) as (a & -> & Ha). cbn [rbind]. eexists. split; [reflexivity|].
      apply F, L; [apply L; [apply L|]; apply B; lia|]. destruct Ha as [-> | ->]; cbn; lia.
Qed.

Lemma prep_safe s : sane c o s -> exists s3 cx, prep c o s = Ok (s3, cx) /\ sane c o s3 /\ 0 <= cx < 4096 /\
  (ppseudo s3 = true -> ppseudo s = true /\ opt o T85_TPBON = true).
Proof.
  intros H. unfold prep. pose proof (at_moves_sane s H) as H1. destruct (opt o T85_TPBON && ppseudo (at_moves s)) eqn:E.
  - apply andb_true_iff in E as [E1 E2]. rewrite ppseudo_at_moves in E2. eexists _, _. split; [reflexivity|]. split; [exact H1|]. split; [destruct (opt o T85_LRLTWO); unfold TPB2CX, TPB3CX; lia|]. auto.
  - assert (H2 : sane c o (p_tp (at_moves s) false (plntp (at_moves s)))) by (destruct H1; constructor; try assumption; cbn; congruence).
    destruct (row_start_safe _ H2) as (s2 & E2 & H3). rewrite E2. cbn [rbind]. destruct (load_octets_safe _ H3) as (s3 & E3 & H4). rewrite E3. cbn [rbind].
    destruct (dec_context_safe _ H4) as (cx & -> & Hcx). cbn [rbind]. exists s3, cx. split; [reflexivity|]. split; [exact H4|]. split; [exact Hcx|].
    destruct (row_start_pseudo _ _ _ E2) as (A1 & _). destruct (load_octets_pseudo _ _ _ E3) as (A2 & _). cbn [p_tp ppseudo] in A1. congruence.
Qed.

Lemma ablit_len l off src : 0 <= off -> off + Z.of_nat (length src) <= Z.of_nat (length l) -> exists l', ablit l off src = Ok l' /\ length l' = length l.
Proof.
  intros H1 H2. unfold ablit. destruct src as [|x t]; [eexists; split; reflexivity|].
  replace ((0 <=? off) && (off + Z.of_nat (length (x :: t)) <=? Z.of_nat (length l))) with true by lia. eexists. split; [reflexivity|].
  rewrite !app_length, firstn_length, skipn_length. lia.
Qed.
Lemma aslice_len l off n : 0 <= off -> 0 <= n -> off + n <= Z.of_nat (length l) -> exists r, aslice l off n = Ok r /\ Z.of_nat (length r) = n.
Proof.
  intros H1 H2 H3. unfold aslice. destruct (Z.leb_spec n 0); [exists []; split; [reflexivity|cbn; lia]|].
  replace ((0 <=? off) && (off + n <=? Z.of_nat (length l))) with true by lia. eexists. split; [reflexivity|]. rewrite firstn_length, skipn_length. lia.
Qed.

Lemma zero_row_len n : 0 <= n -> Z.of_nat (length (zero_row n)) = n.
Proof. intros H. unfold zero_row. rewrite repeat_length. lia. Qed.

Lemma rot_range s : 0 <= pp0 s < nbuf o -> 0 <= (if nbuf o <=? pp0 s + 1 then 0 else pp0 s + 1) < nbuf o.
Proof. intros H. destruct (Z.leb_spec (nbuf o) (pp0 s + 1)); lia. Qed.

Lemma typical_row_safe s : sane c o s -> ppseudo s = true -> exists s', typical_row c (nbuf o) s = Ok s' /\ sane c o s' /\
  pi s' = pi s + 1 /\ py s' = py s + 1 /\ ppseudo s' = true /\ px s' = 0 /\ par_s s' = par_s s.
Proof.
  intros H Hp. pose proof (s_pseudo _ _ _ H Hp) as Hx. destruct PC as (HX & HB). pose proof nbuf_range as NB.
  pose proof (s_p0 _ _ _ H) as H0. pose proof (s_p1 _ _ _ H) as H1. pose proof (s_len _ _ _ H) as HL.
  unfold typical_row. rewrite Hx. change (Z.shiftr 0 3) with 0. destruct (Z.ltb_spec (pp1 s) 0).
  - destruct (ablit_len (prows s) (pp0 s * bpr c + 0) (zero_row (bpr c))) as (rows & -> & L); [nia|rewrite zero_row_len by lia; nia|]. cbn [rbind].
    destruct (aslice_len rows (pp0 s * bpr c + 0) (bpr c)) as (r & -> & _); [nia|lia|rewrite L; nia|]. cbn [rbind]. eexists. split; [reflexivity|].
    split; [|cbn; auto]. pose proof (rot_range s H0). destruct H. constructor; cbn [next_row rotate p_ev p_rows p_p p_y px pp0 pp1 pp2 prows ptx pat ppseudo par_s]; auto; try lia.
  - destruct (aslice_len (prows s) (pp1 s * bpr c + 0) (bpr c)) as (r & -> & _); [nia|lia|nia|]. cbn [rbind]. eexists. split; [reflexivity|].
    split; [|cbn; auto]. destruct H. constructor; auto.
Qed.

Lemma take_pixel_safe s r : sane c o s -> ppseudo s = false -> exists s', take_pixel c o (nbuf o) r s = Ok s' /\ sane c o s' /\ par_s s' = par_s s /\
  ((pi s' = pi s /\ py s' = py s /\ px s' = px s + 1 /\ ppseudo s' = false) \/
   (pi s' = pi s + 1 /\ py s' = py s + 1 /\ ppseudo s' = true /\ px s' = 0)).
Proof.
  intros H Hp. destruct PC as (HX & HB). pose proof nbuf_range as NB. pose proof (s_x _ _ _ H) as Hx. pose proof (oct_in _ Hx) as Ho.
  pose proof (s_p0 _ _ _ H) as H0. pose proof (s_len _ _ _ H) as HL. pose proof (row_slot _ _ _ _ H0 Ho) as K.
  unfold take_pixel. cbn [p_x p_h ph0 ph1 ph2 pp0 prows]. rewrite shr3. destruct (negb (Z.land (px s + 1) 7 =? 0) && (px s + 1 <? xd c)) eqn:E.
  { eexists. split; [reflexivity|]. split; [|split; [reflexivity|left; auto]]. destruct H. constructor; cbn [p_x p_h px pp0 pp1 pp2 prows ptx pat ppseudo par_s]; auto; try lia; try congruence. }
  rewrite aset_ok by lia. cbn [rbind p_rows prows]. destruct (Z.ltb_spec (px s + 1) (xd c)).
  { eexists. split; [reflexivity|]. split; [|split; [reflexivity|left; auto]]. destruct H. constructor; cbn [p_rows p_x p_h px pp0 pp1 pp2 prows ptx pat ppseudo par_s]; auto; try lia; try congruence. rewrite upd_length. lia. }
  rewrite aget_ok by (rewrite upd_length; lia). cbn [rbind]. rewrite aset_ok by (rewrite upd_length; lia). cbn [rbind].
  unfold row_of. cbn [p_rows prows p_x p_h pp0].
  destruct (aslice_len (upd (upd (prows s) (Z.to_nat (pp0 s * bpr c + px s / 8)) (u8 (Z.lor (u32 (Z.shiftl (ph0 s) 1)) r))) (Z.to_nat (pp0 s * bpr c + px s / 8))
     (u8 (Z.shiftl (nth (Z.to_nat (pp0 s * bpr c + px s / 8)) (upd (prows s) (Z.to_nat (pp0 s * bpr c + px s / 8)) (u8 (Z.lor (u32 (Z.shiftl (ph0 s) 1)) r))) 0) (bpr c * 8 - xd c))))
     (pp0 s * bpr c) (bpr c)) as (w & -> & _); [nia|lia|rewrite !upd_length; nia|]. cbn [rbind].
  eexists. split; [reflexivity|]. split; [|split; [reflexivity|right; cbn; auto]].
  pose proof (rot_range s H0). destruct H. constructor; cbn [next_row rotate p_tp p_ev p_rows p_p p_y p_x p_h px pp0 pp1 pp2 prows ptx pat ppseudo par_s]; auto; try lia. rewrite !upd_length. lia.
Qed.

Lemma sane_ar s d : sane c o s -> dsafe d -> sane c o (p_ar s d).
Proof. intros H Hd. destruct H. constructor; assumption. Qed.

(** Turns left. *)
Definition left_ (yd : Z) (s : pd) : Z := (yd - py s) * (xd c + 2) - (if ppseudo s then 0 else px s + 1).

Lemma fin_safe yd s r : sane c o s -> (ppseudo s = true -> opt o T85_TPBON = true) -> exists s', fin c o s r = Ok s' /\ sane c o s' /\ par_s s' = par_s s /\ left_ yd s' < left_ yd s.
Proof.
  intros H Hp. destruct PC as (HX & HB). unfold fin. destruct (ppseudo s) eqn:Ep.
  - rewrite (Hp eq_refl). cbn [andb]. pose proof (s_pseudo _ _ _ H Ep) as Hx.
    set (l := negb (xorb (negb (r =? 0)) (plntp s))).
    assert (H1 : sane c o (p_tp s true l)) by (destruct H; constructor; auto).
    destruct (negb l).
    + destruct (typical_row_safe _ H1 eq_refl) as (s' & -> & H2 & A1 & A2 & A3 & A4 & A5). exists s'. split; [reflexivity|]. split; [exact H2|]. split; [exact A5|].
      unfold left_. rewrite A2, A3, Ep. cbn [p_tp py]. lia.
    + eexists. split; [reflexivity|]. split; [destruct H; constructor; auto; cbn; congruence|]. split; [reflexivity|]. unfold left_. cbn [p_tp py ppseudo px]. rewrite Ep, Hx. lia.
  - rewrite andb_false_r. destruct (take_pixel_safe s r H Ep) as (s' & -> & H2 & A0 & A). exists s'. split; [reflexivity|]. split; [exact H2|]. split; [exact A0|].
    pose proof (s_x _ _ _ H). unfold left_. rewrite Ep. destruct A as [(_ & A1 & A2 & A3)|(_ & A1 & A2 & A3)]; rewrite A1, A3 || rewrite A1, A2; rewrite ?A2; lia.
Qed.

Definition stepped_state (r : stepped) : pd := match r with Go s _ | Stop s _ => s end.
Definition stepped_rest (r : stepped) : list Z := match r with Go _ l | Stop _ l => l end.

Lemma step_safe yd s inp : sane c o s -> bytes inp -> exists r, pscd_step c o yd s inp = Ok r /\ sane c o (stepped_state r) /\ bytes (stepped_rest r) /\
  (exists u, inp = u ++ stepped_rest r /\ no_marker u) /\
  match r with Go s1 _ => left_ yd s1 < left_ yd s | Stop _ _ => True end /\
  dct (par_s (stepped_state r)) = (if dct (par_s s) =? -1 then -1 else dct (par_s (stepped_state r))).
Proof.
  intros H Hb. rewrite step_eq. destruct (complete c yd s).
  { eexists. split; [reflexivity|]. split; [exact H|]. split; [exact Hb|]. split; [exists []; split; [reflexivity|exact I]|]. split; [exact I|]. cbn [stepped_state]. destruct (Z.eqb_spec (dct (par_s s)) (-1)); auto. }
  destruct (prep_safe s H) as (s3 & cx & E & H3 & Hcx & Hps). rewrite E. cbn [rbind].
  destruct (prep_facts _ _ _ _ _ E) as (A1 & A2 & A3 & A4).
  destruct (decode_safe (par_s s3) cx inp (s_ar _ _ _ H3) Hcx Hb) as (r & d & i1 & Ed & Hd & Hb1 & X). rewrite Ed. cbn [rbind].
  pose proof (decode_suffix _ _ _ _ _ _ Ed) as SU.
  assert (DC : dct d = if dct (par_s s) =? -1 then -1 else dct d).
  { rewrite <- A1. destruct (Z.eqb_spec (dct (par_s s3)) (-1)) as [En|]; [|reflexivity]. exact (decode_ct _ _ _ _ _ _ Ed En). }
  destruct (Z.ltb_spec r 0).
  - eexists. split; [reflexivity|]. split; [apply sane_ar; assumption|]. split; [exact Hb1|]. split; [exact SU|]. split; [exact I|]. exact DC.
  - destruct (fin_safe yd (p_ar s3 d) r (sane_ar _ _ H3 Hd) (fun E => proj2 (Hps E))) as (s5 & -> & H5 & A5 & L). cbn [rbind].
    eexists. split; [reflexivity|]. split; [exact H5|]. split; [exact Hb1|]. split; [exact SU|]. split.
    + assert (left_ yd (p_ar s3 d) <= left_ yd s); [|lia]. unfold left_. cbn [p_ar py ppseudo px]. rewrite A3, A4.
      destruct (ppseudo s3) eqn:P3; [rewrite (proj1 (Hps eq_refl)); lia|]. pose proof (s_x _ _ _ H). destruct (ppseudo s); lia.
    + cbn [stepped_state]. rewrite A5. exact DC.
Qed.
End SAFE.
