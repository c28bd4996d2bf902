(** The T.85 decoder, from the header to the end of the image. *)
From Verif Require Import Base Bits Arith_model Arith_spec Arith_enc_proofs Arith_dec_proofs T85_enc_model T85_dec_model T85_spec T85_arith_proofs T85_pscd_proofs T85_run_proofs T85_safe_proofs T85_feed_proofs T85_turn_proofs.
From Coq Require Import ZifyBool ZifyNat.
Local Open Scope Z_scope.

Lemma feed_safe junk pieces : forall s, ready s -> Forall bytes pieces -> exists rs s', feed junk s pieces = Ok (rs, s').
Proof.
  induction pieces as [|d t IH]; intros s H HB; [eexists _, _; reflexivity|]. inversion HB as [|? ? B1 B2]; subst. cbn [feed].
  destruct (put_safe junk s d H B1) as (r & s1 & -> & H1). cbn [rbind].
  destruct r; try (destruct (IH s1 (H1 ltac:(discriminate)) B2) as (rs & s2 & ->); eexists _, _; reflexivity). eexists _, _. reflexivity.
Qed.

Section WHOLE.
Variable c : par.
Variable o : Z.
Variables yd ydh : Z.
Variable nl : bool.
Hypothesis PC : par_ok c.
Hypothesis Yd : 0 <= yd < 4294967296.
Notation v := (opt o T85_VLENGTH).
Hypothesis NL : if nl then v = true /\ yd <= ydh else ydh = yd.
Variable junk : Z -> Z.
Notation going := (going c o yd ydh nl).

Lemma going_body s R ev : going s R ev -> body s /\ d_eod s = 0 /\ bytes R.
Proof. intros (B & [(H & _)|[(H & _)|(_ & _ & _ & _ & H & H' & _)]]); [destruct H|destruct H|]; auto. Qed.

Lemma loop_ok f : forall s data R' ev, bytes data -> going s (data ++ R') ev -> turns s data < Z.of_nat f ->
  exists r s', bid_loop f s data = Ok (r, s') /\ ((r = MORE_DATA /\ going s' R' ev) \/ (r = OK /\ R' = [] /\ finished s' ev)).
Proof.
  induction f as [|f IH]; intros s data R' ev Bd HG HT.
  - exfalso. unfold turns in HT. destruct (d_need s <=? _), (d_eod s =? 1); lia.
  - destruct (going_body _ _ _ HG) as (HB & HE & BR). cbn [bid_loop]. destruct data as [|x data].
    + rewrite HE. cbn [Z.eqb]. eexists _, _. split; [reflexivity|]. left. auto.
    + assert (Hn : x :: data <> []) by discriminate. destruct (turn_ok c o yd ydh nl PC Yd NL s (x :: data) R' ev Hn Bd HG) as (t & E & F).
      destruct (turn_safe s (x :: data) HB Bd (or_introl Hn)) as (t' & E' & F'). rewrite E in E'. injection E' as <-. rewrite E. cbn [rbind].
      destruct t as [s1 d1|r s1]; cbn [fits fine] in F, F'.
      * destruct F' as (_ & B1 & T1). apply IH; [exact B1|exact F|]. clear - T1 HT. lia.
      * destruct F as (-> & -> & F). eexists _, _. split; [reflexivity|]. right. auto.
Qed.

Lemma put_ok s data R' ev : data <> [] -> bytes data -> going s (data ++ R') ev -> d_bie_len s = 20 ->
  exists r s', t85_decode_put junk s data = Ok (r, s') /\ ((r = MORE_DATA /\ going s' R' ev /\ d_bie_len s' = 20) \/ (r = OK /\ R' = [] /\ finished s' ev)).
Proof.
  intros Hne Bd HG Hl. destruct (going_body _ _ _ HG) as (HB & _). destruct data as [|x data]; [contradiction|]. unfold t85_decode_put. cbn [andb]. rewrite Hl. cbn [Z.ltb Z.compare Pos.compare Pos.compare_cont].
  destruct (loop_ok (bid_fuel (x :: data)) s (x :: data) R' ev Bd HG (turns_fuel _ _ _ HB (le_n _))) as (r & s' & E & X). exists r, s'. split; [exact E|].
  destruct X as [(-> & X)|X]; [left|right; exact X]. split; [reflexivity|]. split; [exact X|]. rewrite (bie_loop _ _ _ _ _ E). exact Hl.
Qed.

(** Nothing more comes. *)
Lemma last_put s ev : going s [] ev -> d_bie_len s = 20 ->
  v = true /\ nl = false /\ exists s', t85_decode_put junk s [] = Ok (OK, s') /\ finished s' ev.
Proof.
  intros (_ & [(HC & rem & rest & sF & E & Hrem & Hfl & He & Hpy & HG & Hm & Hb)|[(HC & tx & p & rest & E & _ & _ & _ & _ & _ & Hb)|(_ & _ & _ & _ & _ & _ & _ & _ & E & _ & Hb)]]) Hl.
  - pose proof (m_body _ _ _ _ HC) as HBo. pose proof HC as [C1 C2 C3 C4 C5 C6].
    assert (HS : sane c o (d_pd s)) by (rewrite <- C1, <- C2; apply HBo).
    destruct (ends_rem c o yd PC _ _ _ HS Hrem He) as (u & Eu & Hu). rewrite app_nil_r in E.
    assert (FL : forall x rs, (2 <= length (flat (x :: rs)))%nat) by (intros x rs; unfold flat; cbn [map concat]; rewrite !app_length; cbn [length]; lia).
    assert (K : d_buf s = [255; 2] /\ rem = [255; 2] /\ rest = [] /\ nl = false /\ v = true).
    { pose proof E as EL. apply (f_equal (@length Z)) in EL. subst rem. rewrite !app_length in EL. cbn [length] in EL.
      assert (fin : forall y, v = true -> d_buf s = [255; y] -> d_buf s = [255; 2] /\ u ++ [255; 2] = [255; 2] /\ rest = [] /\ nl = false /\ v = true).
      { intros y V Eb. rewrite Eb in *. cbn [length] in EL. assert (u = []) as -> by (destruct u; [reflexivity|cbn [length] in EL; lia]). cbn [app length] in *. injection E as -> E. symmetry in E. apply app_eq_nil in E as [E1 E2].
        split; [reflexivity|]. split; [reflexivity|]. split; [destruct rest as [|r0 rest]; [reflexivity|specialize (FL r0 rest); rewrite E1 in FL; cbn in FL; lia]|]. split; [|exact V].
        unfold tailb in E2. destruct nl; [discriminate|reflexivity]. }
      destruct Hb as [(Hn & [Eb|[Eb|(V & y & Eb)]])|(V & Er & [(Eb & Hn)|[(Eb & Hn)|(Hn & t & Eb & Lt)]])].
      - rewrite Eb in EL. cbn [length] in EL. lia.
      - rewrite Eb in EL. cbn [length] in EL. lia.
      - apply (fin y); assumption.
      - apply (fin 2); assumption.
      - exfalso. rewrite Eb, Er in E. cbn [app] in E. injection E as E. destruct rest as [|r0 rest].
        + cbn in E. unfold tailb in E. destruct nl; discriminate.
        + apply (f_equal (@length Z)) in E. specialize (FL r0 rest). rewrite app_length in E. cbn [length] in E. lia.
      - exfalso. rewrite Eb, Er in E. cbn [app] in E. injection E as E. destruct rest as [|r0 rest].
        + cbn in E. symmetry in E. destruct (tail_ne _ _ _ _ NL _ _ E) as (_ & _ & X). injection X as X. apply (f_equal (@length Z)) in X. unfold net32 in X. cbn [length app] in X. lia.
        + symmetry in E. apply (esc_flat c o yd nl (r0 :: rest) 5 t ltac:(discriminate) (ex_intro _ _ (ex_intro _ _ HG)) E). reflexivity. }
    destruct K as (Eb & -> & -> & Enl & V). split; [exact V|]. split; [exact Enl|]. assert (EY : ydh = yd) by (rewrite Enl in NL; exact NL).
    destruct (good_nil _ _ _ _ _ HG) as [G1 G2]. rewrite after_py in G1. pose proof He as (E0 & He1 & He2 & He3 & He4).
    unfold t85_decode_put. cbn [andb]. rewrite C3, EY. destruct (Z.leb_spec yd (py (d_pd s))).
    { exists s. split; [reflexivity|]. split; [lia|]. rewrite (D_complete c o PC yd (N (d_pd s)) [255; 2]) in E0.
      - injection E0 as <-. exact G2.
      - apply sane_N, HS.
      - apply bytes_mark.
      - unfold complete. change (py (N (d_pd s))) with (py (d_pd s)). lia. }
    rewrite C5. change (0 <? 0) with false. cbv iota. change (d_bie_len (s_eod s 1)) with (d_bie_len s). rewrite Hl. change (20 <? 20) with false. cbv iota.
    change (bid_fuel []) with (S 71). cbn [bid_loop]. change (d_eod (s_eod s 1) =? 1) with true. cbv iota.
    assert (ET : bid_turn (s_eod s 1) [] = marker (s_buf (s_eod (clear_vlength s) 2) [255; 2] 2) []).
    { unfold bid_turn. change (d_eod (s_eod s 1) =? 1) with true. cbv iota zeta. cbn [s_eod clear_vlength s_options s_buf d_comment_len d_buf d_need d_options]. rewrite C4, Eb. reflexivity. }
    rewrite ET. set (s1 := s_eod (clear_vlength s) 2). rewrite marker_norm by (cbn [s1 s_eod clear_vlength s_options d_options]; apply opt_clearv).
    unfold stripe_end. rewrite (finish_ok _ sF [255; 2]).
    + cbn [rbind]. cbn [s1 s_pd s_buf s_eod clear_vlength s_options d_yd d_pd]. rewrite after_py, C3, EY. replace (yd <=? py sF) with true by lia.
      eexists. split; [reflexivity|]. split; cbn [s1 s_pd s_buf s_eod clear_vlength s_options d_yd d_pd]; [rewrite after_py; lia|exact G2].
    + cbn [s1 s_buf s_eod clear_vlength s_options d_par d_options d_yd d_pd]. rewrite C1, C2, C3, EY, D_clear. exact E0.
  - exfalso. rewrite app_nil_r in E. apply (f_equal (@length Z)) in E. unfold flat in E. cbn [map concat fst snd atb] in E. rewrite !app_length in E. cbn [length] in E.
    destruct Hb as [(_ & [Eb|[Eb|(_ & x & Eb)]])|(_ & t & Eb & Lt)]; rewrite Eb in E; cbn [length] in E; lia.
  - exfalso. rewrite app_nil_r in E. destruct Hb as [Hb|Hb]; rewrite Hb in E; discriminate.
Qed.

Lemma done_put s ev : finished s ev -> t85_decode_put junk s [] = Ok (OK, s).
Proof. intros (H & _). unfold t85_decode_put. cbn [andb]. replace (d_yd s <=? py (d_pd s)) with true by lia. reflexivity. Qed.

Lemma concat_nil {A} (l : list (list A)) : Forall (fun x => x <> []) l -> concat l = [] -> l = [].
Proof. destruct l as [|x l]; [reflexivity|]. intros H E. inversion H; subst. apply app_eq_nil in E as [E _]. contradiction. Qed.

Definition outcome (n : nat) (rs : list code) : Prop :=
  rs = repeat MORE_DATA n ++ [OK; OK] \/ (v = true /\ nl = false /\ rs = repeat MORE_DATA (S n) ++ [OK]).

Lemma feed_going pieces : forall s ev, pieces <> [] -> going s (concat pieces) ev -> d_bie_len s = 20 -> Forall (fun x => x <> []) pieces ->
  exists rs s', feed junk s (pieces ++ [[]]) = Ok (rs, s') /\ outcome (pred (length pieces)) rs /\ finished s' ev.
Proof.
  induction pieces as [|d t IH]; intros s ev Hne HG Hl HN; [contradiction|]. inversion HN as [|? ? N1 N2]; subst. cbn [concat] in HG.
  destruct (going_body _ _ _ HG) as (_ & _ & BR). assert (Bd : bytes d) by (apply Forall_app in BR; apply BR).
  destruct (put_ok s d (concat t) ev N1 Bd HG Hl) as (r & s1 & E & [(-> & G1 & L1)|(-> & R1 & F1)]); cbn [app feed]; rewrite E; cbn [rbind].
  - destruct t as [|d2 t].
    + cbn [app feed concat] in *. destruct (last_put s1 ev G1 L1) as (V & Enl & s2 & E2 & F2). rewrite E2. cbn [rbind]. eexists _, _. split; [reflexivity|]. split; [|exact F2]. right. auto.
    + destruct (IH s1 ev ltac:(discriminate) G1 L1 N2) as (rs & s2 & E2 & O2 & F2). rewrite E2. cbn [rbind]. eexists _, _. split; [reflexivity|]. split; [|exact F2].
      cbn [length pred] in *. destruct O2 as [-> | (O1 & O3 & ->)]; [left; reflexivity|right; auto].
  - apply (concat_nil t N2) in R1. subst t. cbn [app feed]. rewrite (done_put _ _ F1). cbn [rbind]. eexists _, _. split; [reflexivity|]. split; [left; reflexivity|exact F1].
Qed.

(** ---- the header ---- *)

Lemma feed_header h W s00 s2 ev : length h = 20%nat -> bytes h -> d_eod s00 = 0 -> W <> [] ->
  extract_bih (s_hdr s00 h) = (OK, s2) -> going (start_image junk s2) W ev -> d_bie_len (start_image junk s2) = 20 ->
  forall pieces pre, (length pre < 20)%nat -> pre ++ concat pieces = h ++ W -> Forall (fun x => x <> []) pieces ->
  exists rs s', feed junk (s_hdr s00 pre) (pieces ++ [[]]) = Ok (rs, s') /\ outcome (pred (length pieces)) rs /\ finished s' ev.
Proof.
  intros Lh Bh HE HW EX HG HL. destruct (going_body _ _ _ HG) as (HB & _ & BW).
  induction pieces as [|d t IH]; intros pre Lp E HN.
  - exfalso. cbn [concat] in E. rewrite app_nil_r in E. apply (f_equal (@length Z)) in E. rewrite app_length in E. lia.
  - inversion HN as [|? ? N1 N2]; subst. cbn [concat] in E. cbn [app feed].
    assert (EP : t85_decode_put junk (s_hdr s00 pre) d =
      let i := (20 - length pre)%nat in
      let s1 := s_hdr s00 (pre ++ firstn i d) in
      if Z.of_nat (length (pre ++ firstn i d)) <? 20 then Ok (MORE_DATA, s1)
      else let (r, s2) := extract_bih s1 in match r with OK => bid_loop (bid_fuel d) (start_image junk s2) (skipn i d) | _ => Ok (r, s2) end).
    { unfold t85_decode_put. destruct d as [|x d]; [contradiction|]. cbn [andb]. cbn [s_hdr d_bie_len d_hdr]. replace (Z.of_nat (length pre) <? 20) with true by lia.
      replace (Z.to_nat (20 - Z.of_nat (length pre))) with (20 - length pre)%nat by lia. reflexivity. }
    rewrite EP. clear EP. cbv zeta. set (i := (20 - length pre)%nat). pose proof (firstn_length i d) as Lf.
    destruct (Z.ltb_spec (Z.of_nat (length (pre ++ firstn i d))) 20) as [L|L].
    + rewrite app_length in L. assert (length d < i)%nat by lia. rewrite firstn_all2 in * by lia. cbn [rbind]. destruct t as [|d2 t].
      * exfalso. cbn [concat] in E. rewrite app_nil_r in E. apply (f_equal (@length Z)) in E. rewrite !app_length in E. lia.
      * destruct (IH (pre ++ d)) as (rs & s' & E2 & O2 & F2); [rewrite app_length; lia|rewrite <- app_assoc; exact E|exact N2|]. rewrite E2. cbn [rbind]. eexists _, _. split; [reflexivity|]. split; [|exact F2].
        cbn [length pred] in *. destruct O2 as [-> | (O1 & O3 & ->)]; [left; reflexivity|right; auto].
    + rewrite app_length in L. assert (Lfi : length (firstn i d) = i) by lia. pose proof (firstn_skipn i d) as FS.
      assert (EH : pre ++ firstn i d = h /\ skipn i d ++ concat t = W).
      { assert (L20 : length (pre ++ firstn i d) = length h) by (rewrite app_length; lia). set (f := firstn i d) in *. set (k := skipn i d) in *. clearbody f k.
        rewrite <- FS in E. rewrite <- app_assoc, app_assoc in E. revert L20 E. generalize (pre ++ f). clear. intros l. revert h. induction l as [|x l IH]; intros [|y h] L E; try discriminate; [auto|].
        cbn [app] in E. injection E as -> E. injection L as L. destruct (IH h L E) as [-> ->]. auto. }
      destruct EH as [EH EW]. rewrite EH, EX. set (d' := skipn i d) in *. set (s3 := start_image junk s2) in *. clearbody d'.
      destruct d' as [|x d'].
      * (* the header ends with the piece *)
        cbn [app] in EW. destruct (loop_ok (bid_fuel d) s3 [] W ev ltac:(constructor) HG) as (r & s' & E2 & X).
        { apply turns_fuel; [exact HB|cbn; lia]. }
        rewrite E2. cbn [rbind]. destruct X as [(-> & X)|(_ & X & _)]; [|contradiction]. rewrite <- EW in X.
        assert (Ht : t <> []) by (intros ->; cbn in EW; congruence).
        assert (L' : d_bie_len s' = 20) by (rewrite (bie_loop _ _ _ _ _ E2); exact HL).
        destruct (feed_going t s' ev Ht X L' N2) as (rs & s4 & E4 & O4 & F4). rewrite E4. cbn [rbind]. eexists _, _. split; [reflexivity|]. split; [|exact F4].
        destruct t as [|t0 t]; [contradiction|]. cbn [length pred] in *. destruct O4 as [-> | (O1 & O3 & ->)]; [left; reflexivity|right; auto].
      * assert (Bd : bytes (x :: d')) by (rewrite <- EW in BW; apply Forall_app in BW; apply BW). rewrite <- EW in HG.
        destruct (loop_ok (bid_fuel d) s3 (x :: d') (concat t) ev Bd HG) as (r & s' & E2 & X).
        { apply turns_fuel; [exact HB|]. rewrite <- FS, app_length. lia. }
        rewrite E2. cbn [rbind]. assert (L' : d_bie_len s' = 20) by (rewrite (bie_loop _ _ _ _ _ E2); exact HL). destruct X as [(-> & X)|(-> & X & F)].
        -- destruct t as [|t0 t].
           ++ cbn [app feed concat] in *. destruct (last_put s' ev X L') as (V & Enl & s5 & E5 & F5). rewrite E5. cbn [rbind]. eexists _, _. split; [reflexivity|]. split; [|exact F5]. right. auto.
           ++ destruct (feed_going (t0 :: t) s' ev ltac:(discriminate) X L' N2) as (rs & s4 & E4 & O4 & F4). rewrite E4. cbn [rbind]. eexists _, _. split; [reflexivity|]. split; [|exact F4].
              cbn [length pred] in *. destruct O4 as [-> | (O1 & O3 & ->)]; [left; reflexivity|right; auto].
        -- apply (concat_nil t N2) in X. subst t. cbn [app feed]. rewrite (done_put _ _ F). cbn [rbind]. eexists _, _. split; [reflexivity|]. split; [left; reflexivity|exact F].
Qed.
End WHOLE.
