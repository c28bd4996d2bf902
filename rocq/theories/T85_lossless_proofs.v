(** A T.85 image, from the encoder to the decoder. *)
From Verif Require Import Base Bits Arith_model Arith_spec Arith_enc_proofs Arith_dec_proofs T85_enc_model T85_dec_model T85_spec T85_arith_proofs T85_pscd_proofs T85_run_proofs T85_safe_proofs T85_feed_proofs T85_turn_proofs T85_whole_proofs T85_ctx_proofs T85_row_proofs T85_coded_proofs T85_erow_proofs T85_image_proofs.
From Coq Require Import ZifyBool ZifyNat.
Local Open Scope Z_scope.

(** ---- octets on demand ---- *)

Lemma next_row_bits s b src : te_y s < te_yd s -> get_next_row (t_bits s b) src = get_next_row s src.
Proof. intros H. unfold get_next_row. cbn [t_bits te_yd te_y]. replace (te_yd s <=? te_y s) with false by lia. reflexivity. Qed.

Lemma emit_bits s src P b : emit s src P -> emit (t_bits s b) src P.
Proof.
  destruct 1 as [s src H|s src s1 src1 P H E L HE]; [constructor; exact H|]. econstructor; [exact H| |exact L|exact HE]. rewrite next_row_bits by exact H. exact E.
Qed.

Lemma emit_le s src P : emit s src P -> te_y s <= te_yd s. Proof. destruct 1; lia. Qed.

Lemma get_loop f : forall s src P len mlen, emit s src P -> len <= mlen -> mlen - len + (te_yd s - te_y s) < Z.of_nat f ->
  exists s' src' P', encode_get_loop f s src len mlen = Ok (s', src', firstn (Z.to_nat (mlen - len)) (te_bits s ++ P)) /\ emit s' src' P' /\
    te_bits s' ++ P' = skipn (Z.to_nat (mlen - len)) (te_bits s ++ P).
Proof.
  induction f as [|f IH]; intros s src P len mlen HE Hl Hf. { pose proof (emit_le _ _ _ HE). lia. }
  cbn [encode_get_loop]. destruct (Z.ltb_spec len mlen) as [L|L].
  2: { replace (Z.to_nat (mlen - len)) with O by lia. cbn [firstn skipn]. exists s, src, P. auto. }
  assert (K : forall s1 src1 P1, emit s1 src1 P1 -> te_bits s1 ++ P1 = te_bits s ++ P -> mlen - len + (te_yd s1 - te_y s1) < Z.of_nat f \/ (te_bits s1 <> [] /\ te_yd s1 - te_y s1 = te_yd s - te_y s) ->
    exists s' src' P', (let n := Z.min (Z.of_nat (length (te_bits s1))) (mlen - len) in
          let out := firstn (Z.to_nat n) (te_bits s1) in
          do (s2, src2, out2) <- encode_get_loop f (t_bits s1 (skipn (Z.to_nat n) (te_bits s1))) src1 (len + n) mlen;
          Ok (s2, src2, out ++ out2)) = Ok (s', src', firstn (Z.to_nat (mlen - len)) (te_bits s ++ P)) /\ emit s' src' P' /\
    te_bits s' ++ P' = skipn (Z.to_nat (mlen - len)) (te_bits s ++ P)).
  { intros s1 src1 P1 HE1 EP HM. cbv zeta. set (n := Z.min (Z.of_nat (length (te_bits s1))) (mlen - len)). rewrite <- EP.
    assert (HN : 0 <= n <= Z.of_nat (length (te_bits s1)) /\ n <= mlen - len) by lia.
    assert (NP : te_bits s1 <> [] -> 1 <= n) by (intros NB; unfold n; destruct (te_bits s1); [congruence|cbn [length]; lia]).
    assert (HX : n = Z.of_nat (length (te_bits s1)) \/ n = mlen - len) by lia. clearbody n.
    destruct (IH (t_bits s1 (skipn (Z.to_nat n) (te_bits s1))) src1 P1 (len + n) mlen (emit_bits _ _ _ _ HE1)) as (s2 & src2 & P2 & E2 & HE2 & EP2); [lia| |].
    { cbn [t_bits te_yd te_y]. pose proof (emit_le _ _ _ HE1). destruct HM as [HM|(NB & HM)]; [|specialize (NP NB); lia].
      destruct (te_bits s1) eqn:EB; [cbn [length] in HN|assert (1 <= n) by (apply NP; discriminate)]; lia. }
    rewrite E2. cbn [rbind]. exists s2, src2, P2. cbn [t_bits te_bits] in *.
    assert (C1 : firstn (Z.to_nat n) (te_bits s1) ++ firstn (Z.to_nat (mlen - (len + n))) (skipn (Z.to_nat n) (te_bits s1) ++ P1) = firstn (Z.to_nat (mlen - len)) (te_bits s1 ++ P1)).
    { replace (Z.to_nat (mlen - len)) with (Z.to_nat n + Z.to_nat (mlen - (len + n)))%nat by lia. rewrite <- (firstn_skipn (Z.to_nat n) (te_bits s1)) at 3. rewrite <- app_assoc.
      replace (Z.to_nat n) with (length (firstn (Z.to_nat n) (te_bits s1))) at 3 by (rewrite firstn_length; lia). rewrite firstn_app_2. reflexivity. }
    rewrite C1. split; [reflexivity|]. split; [exact HE2|]. rewrite EP2.
    replace (Z.to_nat (mlen - len)) with (Z.to_nat n + Z.to_nat (mlen - (len + n)))%nat by lia.
    rewrite <- (firstn_skipn (Z.to_nat n) (te_bits s1)) at 2. rewrite <- app_assoc.
    rewrite (skipn_app (Z.to_nat n + Z.to_nat (mlen - (len + n))) (firstn (Z.to_nat n) (te_bits s1))).
    rewrite firstn_length. replace (Z.to_nat n + Z.to_nat (mlen - (len + n)) - Nat.min (Z.to_nat n) (length (te_bits s1)))%nat with (Z.to_nat (mlen - (len + n))) by lia.
    rewrite (skipn_all2 (firstn (Z.to_nat n) (te_bits s1))) by (rewrite firstn_length; lia). reflexivity. }
  destruct (te_bits s) as [|b bs] eqn:EB.
  - destruct HE as [s src H|s src s1 src1 P H E L1 HE].
    + unfold get_next_row. replace (te_yd s <=? te_y s) with true by lia. cbn [rbind Z.ltb Z.compare app]. rewrite firstn_nil, skipn_nil. exists s, src, []. rewrite EB. split; [reflexivity|]. split; [constructor; exact H|reflexivity].
    + rewrite E. cbn [rbind]. replace (0 <? 0) with false by reflexivity. destruct (K s1 src1 P HE) as (s' & src' & P' & X); [reflexivity|left; lia|]. exists s', src', P'. exact X.
  - cbn [rbind]. replace (0 <? 0) with false by reflexivity. apply (K s src P HE); [rewrite EB; reflexivity|]. right. rewrite EB. split; [discriminate|reflexivity].
Qed.

Lemma get_cut sizes : forall s src P, emit s src P -> Forall (fun n => 0 <= n) sizes -> exists s' src', gets s src sizes = Ok (s', src', cut sizes (te_bits s ++ P)).
Proof.
  induction sizes as [|n sizes IH]; intros s src P HE HS; [eexists _, _; reflexivity|]. inversion HS as [|? ? N1 N2]; subst. cbn [gets cut]. unfold t85_encode_get.
  pose proof (emit_le _ _ _ HE). destruct (get_loop (Z.to_nat (n + te_yd s - te_y s + 3)) s src P 0 n HE N1 ltac:(lia)) as (s1 & src1 & P1 & -> & HE1 & EP). cbn [rbind]. rewrite Z.sub_0_r in *.
  destruct (IH s1 src1 P1 HE1 N2) as (s2 & src2 & ->). cbn [rbind]. rewrite EP. eexists _, _. reflexivity.
Qed.

(** ---- the rows of the image ---- *)
Section PAGE.
Variable c : par.
Variable o : Z.
Hypothesis PC : par_ok c.
Hypothesis MX : 0 <= mx c <= 127.
Hypothesis BPR : bytes_per_row (xd c) = bpr c.
Hypothesis L0 : 1 <= l0 c.
Notation v := (opt o T85_VLENGTH).
Notation z := (zero_row (bpr c)).

Lemma supply_white n src : supply c o n false true src = (repeat z n, false).
Proof. induction n as [|n IH]; [reflexivity|]. cbn [supply fetch]. rewrite IH. reflexivity. Qed.

Lemma supply_rows n : forall src, supply c o n false false src =
  (map (crop (xd c)) (firstn n src) ++ (if v then [] else repeat z (n - length src)), v && (length src <? n)%nat).
Proof.
  induction n as [|n IH]; intros src. { cbn [supply firstn map app]. destruct v; cbn [andb]; [|reflexivity]. f_equal. }
  cbn [supply fetch]. destruct src as [|r t].
  - cbn [firstn map app length]. destruct v; cbn [andb negb]; [reflexivity|]. rewrite supply_white. cbn [fst snd]. rewrite Nat.sub_0_r. reflexivity.
  - rewrite IH. cbn [fst snd firstn map app length]. reflexivity.
Qed.

Lemma supply_first n r t : supply c o n true false (r :: t) = supply c o n false false (r :: t).
Proof. destruct n; reflexivity. Qed.

Lemma picture_rows yd src : 1 <= yd -> src <> [] -> picture (xd c) yd v src = fst (supply c o (Z.to_nat yd) false false src).
Proof.
  intros Hy Hs. rewrite supply_rows. cbn [fst]. unfold picture. rewrite (white_zero c PC BPR). destruct v.
  - rewrite app_nil_r. destruct src as [|r t]; [congruence|]. destruct (Z.to_nat yd) eqn:E; [lia|]. reflexivity.
  - rewrite map_length, firstn_length. replace (Z.to_nat yd - Nat.min (Z.to_nat yd) (length src))%nat with (Z.to_nat yd - length src)%nat by lia. reflexivity.
Qed.

Definition header_length (yd : Z) (src : list (list Z)) : Z := if v then match src with [] => 1 | _ => yd end else yd.
Definition shorter (yd : Z) (src : list (list Z)) : bool := v && match src with [] => false | _ => Z.of_nat (length src) <? yd end.

Lemma st_init_ok : st_ok (est t81_t82_arith_encode_init). Proof. apply st_ok_zero. Qed.

Lemma image_emit yd src a : 1 <= yd -> aok c o a -> a_tx a = 0 -> Forall (src_ok c) src ->
  let s0 := ST c o yd 0 0 a false z z z [] false t81_t82_arith_encode_init in
  let img := picture (xd c) yd v src in let yd' := Z.of_nat (length img) in
  exists stripes, emit s0 src (bih c o (header_length yd src) ++ flat stripes ++ tailb yd' (shorter yd src)) /\
    coded c o yd' st_zero 0 false z z 0 stripes img /\ stripes <> [].
Proof.
  intros Hy Ka Ha HF s0 img yd'.
  assert (K : forall h rz, 1 <= h -> h <= yd -> (src <> [] \/ v = false \/ h = 1) -> h = header_length yd src ->
     img = fst (supply c o (Z.to_nat h) true false src) -> shorter yd src = snd (supply c o (Z.to_nat h) true false src) ->
     exists stripes, emit (ST c o h 0 0 a false z z rz [] false t81_t82_arith_encode_init) src (bih c o (header_length yd src) ++ flat stripes ++ tailb yd' (shorter yd src)) /\
    coded c o yd' st_zero 0 false z z 0 stripes img /\ stripes <> []).
  { intros h rz H1 H2 H3 H4 H5 H6.
    pose proof (opn_start c o L0 a false z z t81_t82_arith_encode_init Ka (zero_ok c PC) (zero_ok c PC) st_init_ok) as HO.
    destruct (enc_main c o PC MX BPR L0 (Z.to_nat h) h 0 0 a false z z rz [] false t81_t82_arith_encode_init src [] _ _ _ _ _ _ _ HO ltac:(f_equal; lia) ltac:(lia) ltac:(lia) HF ltac:(tauto)) as (P & HE & HP).
    replace (0 =? 0) with true in HP by reflexivity. rewrite <- H5, <- H6 in HP. rewrite Ha in HP. destruct HP as [(_ & X & _)|(more & rest & -> & HC)]; [lia|].
    cbn [hd_of app] in *. replace (0 =? 0) with true in HE by reflexivity. fold yd' in HE, HC.
    exists ((move 0 (next_tx a), more) :: rest). split; [|split; [exact HC|discriminate]]. rewrite <- H4. unfold flat. cbn [map concat fst snd]. rewrite <- !app_assoc in *. exact HE. }
  unfold header_length, shorter in *. destruct v eqn:Ev.
  - destruct src as [|r t].
    + (* nothing at all *)
      assert (I1 : img = [z]) by (unfold img, picture; rewrite firstn_nil; cbn [map]; rewrite (white_zero c PC BPR); reflexivity).
      destruct (Z.eq_dec yd 1) as [E1|E1].
      * destruct (K 1 z) as (st & HE & X); try lia; auto; [rewrite I1; change (Z.to_nat 1) with 1%nat; cbn [supply fetch]; rewrite Ev; reflexivity|change (Z.to_nat 1) with 1%nat; cbn [supply fetch]; rewrite Ev; reflexivity|]. exists st. split; [|exact X]. unfold s0. rewrite E1. exact HE.
      * destruct (K 1 z) as (st & HE & X); try lia; auto; [rewrite I1; change (Z.to_nat 1) with 1%nat; cbn [supply fetch]; rewrite Ev; reflexivity|change (Z.to_nat 1) with 1%nat; cbn [supply fetch]; rewrite Ev; reflexivity|]. exists st. split; [|exact X].
        assert (EN : get_next_row s0 [] = Ok (0, ST c o 1 0 0 a false z z z [] false t81_t82_arith_encode_init, [])).
        { unfold get_next_row, s0. cbn [ST te_yd te_y te_white]. replace (yd <=? 0) with false by lia. cbv zeta.
          change (t_rows (t_bits _ []) _ _ _) with (ST c o yd 0 0 a false z z z [] false t81_t82_arith_encode_init).
          assert (ES : t85_encode_set_image_length (ST c o yd 0 0 a false z z z [] false t81_t82_arith_encode_init) 1 = (0, ST c o 1 0 0 a false z z z [] false t81_t82_arith_encode_init)).
          { unfold t85_encode_set_image_length. cbv beta iota zeta delta [ST te_options te_newlen te_yd te_y]. rewrite Ev. cbn [negb orb].
            replace (yd <=? 1) with false by lia. reflexivity. }
          rewrite ES. reflexivity. }
        match goal with |- emit _ _ ?P => change P with (te_bits (ST c o 1 0 0 a false z z z [] false t81_t82_arith_encode_init) ++ P) end.
        eapply emit_row; [|exact EN| |exact HE]; cbn [s0 ST te_yd te_y]; lia.
    + apply (K yd z); auto; try lia; [left; discriminate| |].
      * rewrite supply_first, <- picture_rows by (auto; discriminate). unfold img. rewrite Ev. reflexivity.
      * rewrite supply_first, supply_rows, Ev. cbn [snd andb]. destruct (Z.ltb_spec (Z.of_nat (length (r :: t))) yd), (Nat.ltb_spec (length (r :: t)) (Z.to_nat yd)); auto; lia.
  - apply (K yd z); auto; try lia.
    + destruct src as [|r t].
      * unfold img, picture. rewrite firstn_nil. cbn [map app length]. rewrite (white_zero c PC BPR), Nat.sub_0_r. destruct (Z.to_nat yd) eqn:E; [lia|]. cbn [supply fetch]. rewrite Ev. cbn [andb]. rewrite supply_white. reflexivity.
      * rewrite supply_first, <- picture_rows by (auto; discriminate). unfold img. rewrite Ev. reflexivity.
    + cbn [andb]. destruct src as [|r t]; [destruct (Z.to_nat yd) eqn:E; [lia|]; cbn [supply fetch]; rewrite Ev; cbn [andb]; rewrite supply_white; reflexivity|rewrite supply_first, supply_rows, Ev; reflexivity].
Qed.
End PAGE.

(** ---- from end to end ---- *)

Definition the_l0 (h l : Z) : Z := if (1 <=? l) && (l <=? h) then l else 128.
Definition the_mx (m : Z) : Z := if (0 <=? m) && (m <=? 127) then m else 127.
Definition the_options (o : Z) : Z := if 0 <=? o then Z.land o (Z.lor (Z.lor T85_TPBON T85_VLENGTH) T85_LRLTWO) else Z.lor T85_TPBON T85_VLENGTH.

Definition opts_in : list Z := [0; 8; 32; 40; 64; 72; 96; 104].
Lemma the_options_in o : In (the_options o) opts_in.
Proof.
  unfold the_options. destruct (Z.leb_spec 0 o) as [H|H]; [|cbn; auto 12].
  set (y := Z.land o _). assert (E : y = Z.lor (Z.lor (if Z.testbit o 3 then 8 else 0) (if Z.testbit o 5 then 32 else 0)) (if Z.testbit o 6 then 64 else 0)).
  { unfold y, T85_TPBON, T85_VLENGTH, T85_LRLTWO. rewrite !Z.land_lor_distr_r.
    assert (P : forall k, 0 <= k -> Z.land o (2 ^ k) = if Z.testbit o k then 2 ^ k else 0).
    { intros k Hk. apply Z.bits_inj'. intros n Hn. rewrite Z.land_spec, Z.pow2_bits_eqb by lia. destruct (Z.eqb_spec k n) as [->|N].
      - rewrite andb_true_r. destruct (Z.testbit o n) eqn:T; [rewrite Z.pow2_bits_true by lia; reflexivity|rewrite Z.bits_0; reflexivity].
      - rewrite andb_false_r. destruct (Z.testbit o k); [rewrite Z.pow2_bits_false by lia; reflexivity|rewrite Z.bits_0; reflexivity]. }
    change 8 with (2 ^ 3). change 32 with (2 ^ 5). change 64 with (2 ^ 6). rewrite !P by lia. reflexivity. }
  rewrite E. destruct (Z.testbit o 3), (Z.testbit o 5), (Z.testbit o 6); cbn; auto 12.
Qed.
Lemma the_options_v o : opt (the_options o) T85_VLENGTH = (o <? 0) || Z.testbit o 5.
Proof.
  unfold the_options. destruct (Z.leb_spec 0 o) as [H|H].
  - replace (o <? 0) with false by lia. cbn [orb]. unfold opt. replace (Z.land (Z.land o (Z.lor (Z.lor T85_TPBON T85_VLENGTH) T85_LRLTWO)) T85_VLENGTH) with (Z.land o T85_VLENGTH).
    + destruct (Z.testbit o 5) eqn:T.
      * destruct (Z.eqb_spec (Z.land o T85_VLENGTH) 0) as [E|E]; [|reflexivity]. apply (f_equal (fun x => Z.testbit x 5)) in E. rewrite Z.land_spec, T in E. discriminate.
      * replace (Z.land o T85_VLENGTH) with 0; [reflexivity|]. symmetry. apply Z.bits_inj'. intros n Hn. rewrite Z.land_spec, Z.bits_0. change T85_VLENGTH with (2 ^ 5). rewrite Z.pow2_bits_eqb by lia. destruct (Z.eqb_spec 5 n) as [<-|N]; [rewrite T; reflexivity|apply andb_false_r].
    + rewrite <- Z.land_assoc. reflexivity.
  - replace (o <? 0) with true by lia. reflexivity.
Qed.

Section WHOLE.
Variables w h l m opts : Z.
Hypothesis W : 1 <= w <= 4294967288.
Hypothesis H : 1 <= h < 4294967296.
Notation c := (mkPar w (the_l0 h l) (the_mx m) (bytes_per_row w)).
Notation o := (the_options opts).
Notation v := (opt o T85_VLENGTH).

Lemma w_bpr : bytes_per_row w = (w + 7) / 8.
Proof. unfold bytes_per_row. rewrite shr3. unfold u32. rewrite Z.mod_small by lia. reflexivity. Qed.
Lemma w_par : par_ok c. Proof. split; cbn [xd bpr]; [lia|]. rewrite w_bpr. Z.div_mod_to_equations. lia. Qed.
Lemma w_mx : 0 <= mx c <= 127. Proof. cbn [mx]. unfold the_mx. destruct ((0 <=? m) && (m <=? 127)) eqn:E; lia. Qed.
Lemma w_l0 : 1 <= l0 c < 4294967296. Proof. cbn [l0]. unfold the_l0. destruct ((1 <=? l) && (l <=? h)) eqn:E; lia. Qed.

Definition a0 : atv := mkAtv 0 (-1) 0 (repeat 0 128%nat).
Lemma a0_ok : aok c o a0. Proof. constructor; cbn; auto. left. reflexivity. Qed.
Lemma enc_start : t85_encode_set_options (t85_encode_init w h) l m opts = ST c o h 0 0 a0 false (zero_row (bpr c)) (zero_row (bpr c)) (zero_row (bpr c)) [] false t81_t82_arith_encode_init.
Proof. reflexivity. Qed.

Lemma hdr_len ydh : length (bih c o ydh) = 20%nat. Proof. reflexivity. Qed.
Lemma hdr_bytes ydh : bytes (bih c o ydh).
Proof. unfold bih. repeat (apply Forall_app; split); try apply net32_bytes; repeat (apply Forall_cons; [try (red; lia); try apply u8_byte|]); constructor. Qed.

Variable s00 : td.
Hypothesis D0 : d_eod s00 = 0.
Hypothesis MXD : d_max_xd s00 = 0 \/ w <= d_max_xd s00.

Definition limited (ydh : Z) : Z := if negb (d_max_yd s00 =? 0) && (d_max_yd s00 <? ydh) then d_max_yd s00 else ydh.

Lemma hdr_ok ydh : 1 <= ydh < 4294967296 -> (d_max_yd s00 = 0 \/ ydh <= d_max_yd s00 \/ v = true) ->
  exists s2, extract_bih (s_hdr s00 (bih c o ydh)) = (OK, s2) /\ d_par s2 = mkPar w (the_l0 h l) (the_mx m) (bpr (d_par s00)) /\ d_options s2 = o /\ d_yd s2 = limited ydh /\ d_hdr s2 = bih c o ydh /\ d_pd s2 = d_pd s00 /\ d_eod s2 = 0 /\ d_bie_len s2 = 20.
Proof.
  intros HY HL. pose proof w_mx as M. pose proof w_l0 as LL. cbn [mx l0] in *.
  assert (OB : 0 <= o < 256 /\ negb (Z.land o (Z.lnot (Z.lor (Z.lor T85_LRLTWO T85_VLENGTH) T85_TPBON)) =? 0) = false).
  { pose proof (the_options_in opts) as HI. generalize dependent (the_options opts). intros q _ HI. cbn [In opts_in] in HI. repeat (destruct HI as [<-|HI]; [split; [lia|reflexivity]|]). contradiction. }
  destruct OB as (OB & ON).
  unfold extract_bih. cbn [s_hdr d_hdr]. unfold bih. cbn [xd l0 mx]. unfold field, net32. cbn [app nth firstn skipn].
  replace (negb (0 =? 0) || negb (0 =? 0) || negb (0 =? 0) || negb (0 =? 0) || negb (Z.land 0 240 =? 0)) with false by reflexivity.
  change [u8 (Z.shiftr w 24); u8 (Z.shiftr w 16); u8 (Z.shiftr w 8); u8 w] with (net32 w).
  change [u8 (Z.shiftr ydh 24); u8 (Z.shiftr ydh 16); u8 (Z.shiftr ydh 8); u8 ydh] with (net32 ydh).
  change [u8 (Z.shiftr (the_l0 h l) 24); u8 (Z.shiftr (the_l0 h l) 16); u8 (Z.shiftr (the_l0 h l) 8); u8 (the_l0 h l)] with (net32 (the_l0 h l)).
  rewrite !get32_net32 by lia. replace (u8 (the_mx m)) with (the_mx m) by (unfold u8; rewrite Z.mod_small; lia). replace (u8 o) with o by (unfold u8; rewrite Z.mod_small; lia).
  replace ((1 <? 1) || (1 <? 1)) with false by reflexivity. cbn [s_hdr d_max_xd d_max_yd d_par s_options s_yd s_par].
  replace ((w =? 0) || negb (d_max_xd s00 =? 0) && (d_max_xd s00 <? w)) with false by lia. replace (ydh =? 0) with false by lia.
  replace (negb (d_max_yd s00 =? 0) && (d_max_yd s00 <? ydh) && negb v) with false by (destruct HL as [HL|[HL|HL]]; [lia|lia|rewrite HL; cbn [negb]; rewrite andb_false_r; reflexivity]).
  replace (the_l0 h l =? 0) with false by lia. replace (127 <? the_mx m) with false by lia. rewrite ON.
  eexists. split; [reflexivity|]. unfold limited. destruct (negb (d_max_yd s00 =? 0) && (d_max_yd s00 <? ydh)); repeat split; try reflexivity; exact D0.
Qed.

Lemma dec_start junk s2 : d_par s2 = mkPar w (the_l0 h l) (the_mx m) (bpr (d_par s00)) -> d_options s2 = o -> bytes (d_hdr s2) ->
  between c o (d_pd (start_image junk s2)) st_zero 0 false (zero_row (bpr c)) (zero_row (bpr c)) 0.
Proof.
  intros EP EO EB. pose proof (start_body junk s2 w _ _ _ o W EP EO EB) as HB.
  assert (HS : sane c o (d_pd (start_image junk s2))).
  { destruct HB as [_ HS _ _ _ _]. assert (X1 : d_par (start_image junk s2) = c) by (unfold start_image; rewrite EP; reflexivity).
    assert (X2 : d_options (start_image junk s2) = o) by exact EO. rewrite X1, X2 in HS. exact HS. }
  assert (E : exists rows, d_pd (start_image junk s2) = mkPd 0 0 0 true true 0 [] (ph0 (d_pd s2)) (ph1 (d_pd s2)) (ph2 (d_pd s2)) 0 (-1) (-1) rows (set_nopadding t81_t82_arith_decode_init v) (pev (d_pd s2))).
  { eexists. unfold start_image. rewrite EO. cbn [s_pd d_pd]. reflexivity. }
  destruct E as (rows & E). rewrite E in *. constructor; cbn [px py pi ppseudo plntp ptx pat par_s negb]; auto; try (apply st_ok_zero).
  constructor; cbn [px py pi pp0 pp1 pp2 prows pat]; auto; try lia.
  - unfold hist. replace (-1 <? 0) with true by reflexivity. reflexivity.
  - intros _. unfold hist. replace (-1 <? 0) with true by reflexivity. reflexivity.
Qed.

Lemma lossless src : Forall (fun r => Z.of_nat (length r) = (w + 7) / 8 /\ bytes r) src -> d_pd s00 = d_pd t85_decode_init ->
  let img := picture w h v src in
  (d_max_yd s00 = 0 \/ Z.of_nat (length img) <= d_max_yd s00) ->
  exists P, bytes P /\ (20 <= length P)%nat /\ firstn 20 P = bih c o (header_length o h src) /\
    (forall sizes, Forall (fun n => 0 <= n) sizes -> exists s' src', gets (t85_encode_set_options (t85_encode_init w h) l m opts) src sizes = Ok (s', src', cut sizes P)) /\
    (forall junk pieces, concat pieces = P -> Forall (fun d => d <> []) pieces ->
       exists rs s', feed junk (s_hdr s00 []) (pieces ++ [[]]) = Ok (rs, s') /\ outcome o (shorter o h src) (pred (length pieces)) rs /\ events s' = map Row img).
Proof.
  intros HF HPD img HM.
  assert (HF1 : Forall (src_ok c) src) by (eapply Forall_impl; [|exact HF]; intros r [R1 R2]; split; cbn [bpr]; [rewrite w_bpr|]; assumption).
  destruct (image_emit c o w_par w_mx eq_refl ltac:(apply w_l0) h src a0 ltac:(lia) a0_ok eq_refl HF1) as (stripes & HE & HC & HN). cbn [xd] in HE, HC. fold img in HE, HC.
  set (yd := Z.of_nat (length img)) in *. set (ydh := header_length o h src) in *. set (nl := shorter o h src) in *.
  assert (LI : yd <= ydh /\ 1 <= yd /\ (nl = true -> v = true) /\ (nl = false -> yd = ydh) /\ ydh <= h /\ (yd < ydh -> v = true)).
  { unfold yd, ydh, nl, header_length, shorter, img, picture. destruct v eqn:Ev.
    - cbn [andb]. destruct src as [|r t].
      + rewrite firstn_nil. cbn [map length]. repeat split; auto; lia.
      + assert (E0 : exists k, Z.to_nat h = S k) by (exists (pred (Z.to_nat h)); lia). destruct E0 as (k & E0). rewrite E0. cbn [firstn map].
        assert (EL : length (crop w r :: map (crop w) (firstn k t)) = Nat.min (S k) (length (r :: t))) by (cbn [length]; rewrite map_length, firstn_length; reflexivity).
        rewrite EL. cbn [length]. repeat split; auto; try lia.
    - rewrite app_length, repeat_length, map_length, firstn_length. cbn [andb]. repeat split; auto; lia. }
  destruct LI as (I1 & I2 & I3 & I4 & I5 & I6).
  destruct (hdr_ok ydh ltac:(lia)) as (s2 & EX & E1 & E2 & E3 & E4 & E5 & E6 & E7).
  { destruct (Z.eq_dec yd ydh) as [Y|Y]; [rewrite <- Y; lia|]. right. right. apply I6. lia. }
  assert (NL : if nl then v = true /\ yd <= limited ydh else limited ydh = yd).
  { unfold limited. destruct nl; [split; [auto|]|rewrite <- (I4 eq_refl)]; destruct (negb (d_max_yd s00 =? 0) && (d_max_yd s00 <? _)) eqn:EE; lia. }
  assert (HG : forall junk, good c o yd (d_pd (start_image junk s2)) stripes (rev (map Row img))).
  { intros junk. pose proof (dec_start junk s2 E1 E2 ltac:(rewrite E4; apply hdr_bytes)) as HB.
    pose proof (coded_good c o yd w_par _ _ _ _ _ _ _ _ HC _ HB (zero_ok c w_par) (zero_ok c w_par)) as G.
    replace (pev (d_pd (start_image junk s2))) with (@nil event) in G; [rewrite app_nil_r in G; exact G|]. unfold start_image. cbn [s_pd d_pd pev]. rewrite E5, HPD. reflexivity. }
  assert (BW : bytes (flat stripes ++ tailb yd nl)).
  { apply Forall_app. split; [eapply good_bytes; apply (HG (fun _ => 0))|]. eapply (bytes_tail o yd (limited ydh) nl); exact NL. }
  exists (bih c o ydh ++ flat stripes ++ tailb yd nl). split; [apply Forall_app; split; [apply hdr_bytes|exact BW]|].
  split; [rewrite app_length, hdr_len; lia|]. split; [reflexivity|]. split.
  - intros sizes HS. rewrite enc_start. destruct (get_cut sizes _ _ _ HE HS) as (s' & src' & E). exists s', src'. exact E.
  - intros junk pieces EP HP.
    assert (GO : going c o yd (limited ydh) nl (start_image junk s2) (flat stripes ++ tailb yd nl) (rev (map Row img))).
    { pose proof (dec_start junk s2 E1 E2 ltac:(rewrite E4; apply hdr_bytes)) as HB.
      eapply (start c o yd (limited ydh) nl NL) with (stripes := stripes); auto.
      - constructor; auto. + unfold start_image. rewrite E1. reflexivity. + eapply start_body; [exact W|exact E1|exact E2|rewrite E4; apply hdr_bytes].
      - unfold start_image. rewrite E2. reflexivity.
      - unfold start_image. cbn. lia. }
    assert (NW : flat stripes ++ tailb yd nl <> []).
    { destruct stripes as [|[q p] rest]; [congruence|]. unfold flat. cbn [map concat fst snd]. destruct (atb q); [destruct p|]; discriminate. }
    destruct (feed_header c o yd (limited ydh) nl w_par ltac:(lia) NL junk (bih c o ydh) (flat stripes ++ tailb yd nl) s00 s2 (rev (map Row img)) (hdr_len ydh) (hdr_bytes ydh) D0 NW EX GO) with (pieces := pieces) (pre := @nil Z) as (rs & s' & EF & OC & F1 & F2); auto.
    + cbn. lia.
    + exists rs, s'. split; [exact EF|]. split; [exact OC|]. unfold events. rewrite F2, rev_involutive. reflexivity.
Qed.

End WHOLE.
