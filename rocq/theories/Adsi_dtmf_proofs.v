(** DTMF caller ID: fields, and the receiver. *)
From Verif Require Import Base Adsi_model Adsi_spec Adsi_rx_proofs Adsi_line_proofs Adsi_tx_proofs Adsi_sess_proofs Adsi_deliver_proofs Adsi_field_proofs.
From Coq Require Import ZifyBool ZifyNat.

Definition lead (t : Z) : list Z := if t =? 0 then [] else [t].
Definition dbytes (f : Z * list Z) : list Z := lead (fst f) ++ snd f.
Definition dfields (fs : list (Z * list Z)) : list Z := flat_map dbytes fs.
Lemma dfields_length fs : Z.of_nat (length (dfields fs)) + 1 = dtmf_size fs.
Proof.
  induction fs as [|[t b] fs IH]; [reflexivity|]. unfold dfields, dtmf_size in *. cbn [flat_map fold_right fst snd]. unfold dbytes at 1, lead.
  rewrite !app_length. cbn [fst snd]. destruct (t =? 0); cbn [length]; lia.
Qed.

Lemma buf_trunc n buf c d : buf_has n buf (c ++ d) -> buf_has n buf c.
Proof.
  intros (H1 & H2 & H3). rewrite app_length in H3. split; [exact H1|]. split; [|lia]. pose proof (f_equal (firstn (length c)) H2) as E.
  rewrite firstn_firstn in E. rewrite app_length in E. replace (Nat.min (length c) (length c + length d)) with (length c) in E by lia.
  rewrite E, firstn_app, firstn_all, Nat.sub_diag. cbn [firstn]. apply app_nil_r.
Qed.

Lemma add_dtmf t n x fs : t_std t = CLIP_DTMF -> forall buf c, buf_has n buf (c ++ [x]) -> (length c + length (dfields fs) + 1 <= n)%nat ->
  exists buf', add_fields t buf (Z.of_nat (length (c ++ [x]))) fs = Ok (t, buf', Z.of_nat (length (c ++ dfields fs ++ [x]))) /\
    buf_has n buf' (c ++ dfields fs ++ [x]).
Proof.
  intros Ho. induction fs as [|[ty body] fs IH]; intros buf c Hb Hn; cbn [add_fields].
  - exists buf. auto.
  - unfold adsi_add_field. rewrite Ho.
    change ((CLIP_DTMF =? CLASS) || (CLIP_DTMF =? CLIP) || (CLIP_DTMF =? ACLIP)) with false. change (CLIP_DTMF =? JCLIP) with false.
    change (CLIP_DTMF =? CLIP_DTMF) with true. cbv iota.
    assert (L1 : Z.of_nat (length (c ++ [x])) = Z.of_nat (length c) + 1) by (rewrite app_length; cbn [length]; lia). rewrite L1.
    destruct (Z.leb_spec (Z.of_nat (length c) + 1) 0); [lia|].
    replace (Z.of_nat (length c) + 1 - 1) with (Z.of_nat (length c)) by lia.
    assert (G : aget buf (Z.of_nat (length c)) = Ok x).
    { destruct Hb as (Hb1 & Hb2 & _). rewrite app_length in Hb2. cbn [length] in Hb2. rewrite <- (firstn_skipn (length c + 1) buf), Hb2, <- app_assoc. apply aget_mid; reflexivity. }
    rewrite G. cbn [rbind]. apply buf_trunc in Hb.
    assert (E : dfields ((ty, body) :: fs) = lead ty ++ body ++ dfields fs) by (unfold dfields; cbn [flat_map]; unfold dbytes at 1; cbn [fst snd]; rewrite <- app_assoc; reflexivity).
    rewrite E in *. rewrite !app_length in Hn.
    assert (S1 : exists b1, (if ty =? 0 then Ok (buf, Z.of_nat (length c)) else do m <- aset buf (Z.of_nat (length c)) ty; Ok (m, Z.of_nat (length c) + 1))
                 = Ok (b1, Z.of_nat (length (c ++ lead ty))) /\ buf_has n b1 (c ++ lead ty)).
    { unfold lead in *. destruct (ty =? 0).
      - exists buf. rewrite app_nil_r. auto.
      - cbn [length] in Hn. destruct (buf_put n buf c ty Hb ltac:(lia)) as (b1 & -> & B1). exists b1. split; [|exact B1].
        cbn [rbind]. rewrite app_length. cbn [length]. rewrite Nat2Z.inj_add. reflexivity. }
    destruct S1 as (b1 & -> & B1). cbn [rbind].
    destruct (buf_puts n b1 _ body B1) as (b2 & -> & B2); [rewrite app_length; lia|]. cbn [rbind].
    replace (Z.of_nat (length (c ++ lead ty)) + Z.of_nat (length body)) with (Z.of_nat (length ((c ++ lead ty) ++ body))) by (rewrite (app_length (c ++ lead ty)); lia).
    destruct (buf_put n b2 _ x B2) as (b3 & -> & B3); [rewrite !app_length; lia|]. cbn [rbind].
    replace (Z.of_nat (length ((c ++ lead ty) ++ body)) + 1) with (Z.of_nat (length (((c ++ lead ty) ++ body) ++ [x]))) by (rewrite (app_length _ [x]); cbn [length]; lia).
    destruct (IH b3 _ B3) as (b4 & -> & B4); [rewrite !app_length; lia|].
    exists b4. rewrite <- !app_assoc in *. auto.
Qed.

Lemma build_dtmf t buf ty fs : t_std t = CLIP_DTMF -> dtmf_size fs <= Z.of_nat (length buf) ->
  build t buf ty fs = Ok (dfields fs ++ [ty]).
Proof.
  intros Ho L. unfold build. cbn [add_fields]. pose proof (dfields_length fs) as Lf. unfold adsi_add_field at 1. rewrite Ho.
  change ((CLIP_DTMF =? CLASS) || (CLIP_DTMF =? CLIP) || (CLIP_DTMF =? ACLIP)) with false. change (CLIP_DTMF =? JCLIP) with false.
  change (CLIP_DTMF =? CLIP_DTMF) with true. cbv iota. cbn [Z.leb Z.compare].
  destruct (buf_put (length buf) buf [] ty) as (b1 & E1 & B1); [apply buf_nil|cbn [length]; lia|].
  change (Z.of_nat (length [])) with 0 in E1. rewrite E1. cbn [rbind].
  destruct (add_dtmf t (length buf) ty fs Ho b1 [] B1) as (b2 & E2 & B2); [cbn [length]; lia|].
  change (Z.of_nat (length ([] ++ [ty]))) with 1 in E2. rewrite E2. cbn [rbind]. apply (buf_slice _ _ _ B2).
Qed.

Definition term (d : Z) : bool := (d =? 35) || (d =? 67).
Lemma skip_all msg body rest x pre : msg = pre ++ body ++ x :: rest -> Forall decimal body -> digit x = false ->
  forall fuel msg_len, (length body < fuel)%nat -> Z.of_nat (length pre + length body) < msg_len ->
  skip_digits fuel msg msg_len (Z.of_nat (length pre)) = Ok (Z.of_nat (length pre + length body)).
Proof.
  intros E H Hx. revert pre E. induction H as [|d body Hd Hb IH]; intros pre E fuel msg_len Hf Hl; (destruct fuel as [|fuel]; [lia|]); cbn [skip_digits];
    cbn [length] in *; (destruct (Z.ltb_spec (Z.of_nat (length pre)) msg_len); [|lia]).
  - rewrite E. cbn [app]. rewrite aget_mid by reflexivity. cbn [rbind]. rewrite Hx. rewrite Nat.add_0_r. reflexivity.
  - rewrite E at 1. cbn [app]. rewrite aget_mid by reflexivity. cbn [rbind].
    assert (D : digit d = true) by (unfold digit, decimal in *; lia). rewrite D.
    replace (Z.of_nat (length pre) + 1) with (Z.of_nat (length (pre ++ [d]))) by (rewrite app_length; cbn [length]; lia).
    rewrite (IH (pre ++ [d])).
    + rewrite app_length. cbn [length]. f_equal. lia.
    + rewrite E, <- app_assoc. reflexivity.
    + lia.
    + rewrite app_length. cbn [length]. lia.
Qed.

Definition dfirst (f : Z * list Z) : Prop := dtmf_field f \/ (fst f = 0 /\ snd f <> [] /\ Forall decimal (snd f)).
Lemma next_dtmf msg pre ty body x rest : msg = pre ++ dbytes (ty, body) ++ x :: rest -> dfirst (ty, body) -> digit x = false ->
  adsi_next_field CLIP_DTMF msg (Z.of_nat (length msg)) (Z.of_nat (length pre) + 1) =
    let i := Z.of_nat (length pre + length (dbytes (ty, body))) in
    Ok (mkField (if term x then i + 2 else i + 1) ty (Z.of_nat (length (pre ++ lead ty))) (Z.of_nat (length body))).
Proof.
  intros E F Hx. unfold adsi_next_field.
  change ((CLIP_DTMF =? CLASS) || (CLIP_DTMF =? CLIP) || (CLIP_DTMF =? ACLIP)) with false. change (CLIP_DTMF =? JCLIP) with false.
  change (CLIP_DTMF =? CLIP_DTMF) with true. cbv iota.
  assert (Lm : length msg = (length pre + length (dbytes (ty, body)) + 1 + length rest)%nat) by (rewrite E, !app_length; cbn [length]; lia).
  destruct (Z.ltb_spec (Z.of_nat (length msg)) (Z.of_nat (length pre) + 1)); [lia|].
  destruct (Z.leb_spec (Z.of_nat (length pre) + 1) 0); [lia|].
  replace (Z.of_nat (length pre) + 1 - 1) with (Z.of_nat (length pre)) by lia.
  assert (Hbody : Forall decimal body) by (destruct F as [F | F]; [apply F|apply F]).
  assert (S1 : exists c, aget msg (Z.of_nat (length pre)) = Ok c /\ (if digit c then 0 else c) = ty /\
    (if digit c then Z.of_nat (length pre) else Z.of_nat (length pre) + 1) = Z.of_nat (length (pre ++ lead ty))).
  { unfold dbytes in E. cbn [fst snd] in E. unfold lead in *. destruct F as [F | F].
    - destruct F as (F1 & F2 & _). cbn [fst snd] in *. destruct (Z.eqb_spec ty 0); [lia|]. exists ty. split; [|].
      + rewrite E. cbn [app]. apply aget_mid; reflexivity.
      + assert (D : digit ty = false) by (unfold digit, decimal in *; lia). rewrite D. split; [reflexivity|]. rewrite app_length. cbn [length]. lia.
    - destruct F as (F1 & F2 & F3). cbn [fst snd] in *. subst ty. cbn [Z.eqb app] in E. destruct body as [|d body]; [congruence|]. exists d.
      split; [rewrite E; cbn [app]; apply aget_mid; reflexivity|]. inversion F3 as [|? ? Fd _]; subst.
      assert (D : digit d = true) by (unfold digit, decimal in *; lia). rewrite D. split; [reflexivity|]. cbn [Z.eqb]. rewrite app_nil_r. reflexivity. }
  destruct S1 as (c & -> & Hc1 & Hc2). cbn [rbind]. rewrite Hc1, Hc2.
  assert (E' : msg = (pre ++ lead ty) ++ body ++ x :: rest) by (rewrite E; unfold dbytes; cbn [fst snd]; rewrite <- !app_assoc; reflexivity).
  assert (Ll : (length (pre ++ lead ty) + length body = length pre + length (dbytes (ty, body)))%nat).
  { unfold dbytes. cbn [fst snd]. rewrite !app_length. lia. }
  rewrite (skip_all msg body rest x (pre ++ lead ty) E' Hbody Hx) by lia. cbn [rbind].
  assert (G : aget msg (Z.of_nat (length (pre ++ lead ty) + length body)) = Ok x).
  { rewrite E', app_assoc. apply aget_mid. rewrite (app_length _ body). reflexivity. }
  rewrite G. cbn [rbind]. rewrite Ll. fold (term x). set (i := Z.of_nat (length pre + length (dbytes (ty, body)))) in *.
  replace (i - Z.of_nat (length (pre ++ lead ty))) with (Z.of_nat (length body)) by (unfold i; lia).
  destruct (term x); [destruct (Z.ltb_spec (Z.of_nat (length msg)) (i + 1)); [unfold i in *; lia|]|destruct (Z.ltb_spec (Z.of_nat (length msg)) i); [unfold i in *; lia|]];
    cbv zeta; do 2 f_equal; lia.
Qed.

Lemma parse_dtmf msg x fs : term x = true -> forall f pre, msg = pre ++ dfields (f :: fs) ++ [x] -> dfirst f -> Forall dtmf_field fs ->
  forall fuel, (S (length fs) < fuel)%nat -> parse_from fuel CLIP_DTMF msg (Z.of_nat (length pre) + 1) = Ok (Some (f :: fs)).
Proof.
  intros Hx. assert (Dx : digit x = false) by (unfold term, digit in *; lia).
  induction fs as [|g fs IH]; intros [ty body] pre E F Ffs fuel Hfuel; (destruct fuel as [|fuel]; [lia|]); cbn [parse_from].
  - unfold dfields in E. cbn [flat_map] in E. rewrite app_nil_r in E.
    rewrite (next_dtmf msg pre ty body x [] E F Dx). cbv zeta. cbn [rbind f_ret f_off f_len f_type]. rewrite Hx.
    set (i := Z.of_nat (length pre + length (dbytes (ty, body)))).
    destruct (Z.eqb_spec (i + 2) (-1)); [lia|]. destruct (Z.ltb_spec (i + 2) 0); [lia|].
    destruct (Z.ltb_spec (Z.of_nat (length (pre ++ lead ty))) 0); [lia|].
    assert (ES : aslice msg (Z.of_nat (length (pre ++ lead ty))) (Z.of_nat (length body)) = Ok body).
    { rewrite E. unfold dbytes. cbn [fst snd]. rewrite <- app_assoc, app_assoc. apply aslice_mid; reflexivity. }
    rewrite ES. cbn [rbind]. destruct fuel as [|fuel]; [cbn in Hfuel; lia|]. cbn [parse_from]. unfold adsi_next_field.
    change ((CLIP_DTMF =? CLASS) || (CLIP_DTMF =? CLIP) || (CLIP_DTMF =? ACLIP)) with false. change (CLIP_DTMF =? JCLIP) with false.
    change (CLIP_DTMF =? CLIP_DTMF) with true. cbv iota.
    assert (Lm : length msg = (length pre + length (dbytes (ty, body)) + 1)%nat) by (rewrite E, !app_length; cbn [length]; lia).
    destruct (Z.ltb_spec (Z.of_nat (length msg)) (i + 2)); [|unfold i in *; lia]. reflexivity.
  - inversion Ffs as [|? ? Fg Ffs']; subst. destruct g as [gt gb]. destruct Fg as (G1 & G2 & G3 & G4 & G5). cbn [fst snd] in *.
    set (msg := pre ++ dfields ((ty, body) :: (gt, gb) :: fs) ++ [x]).
    assert (E : msg = pre ++ dbytes (ty, body) ++ gt :: (gb ++ dfields fs ++ [x])).
    { unfold msg, dfields. cbn [flat_map]. unfold dbytes at 2, lead. cbn [fst snd]. destruct (Z.eqb_spec gt 0); [lia|]. cbn [app]. rewrite <- !app_assoc. cbn [app]. rewrite <- !app_assoc. reflexivity. }
    assert (Dg : digit gt = false) by (unfold digit, decimal in *; lia). assert (Tg : term gt = false) by (unfold term; lia).
    rewrite (next_dtmf msg pre ty body gt _ E F Dg). cbv zeta. cbn [rbind f_ret f_off f_len f_type]. rewrite Tg.
    set (i := Z.of_nat (length pre + length (dbytes (ty, body)))).
    destruct (Z.eqb_spec (i + 1) (-1)); [lia|]. destruct (Z.ltb_spec (i + 1) 0); [lia|].
    destruct (Z.ltb_spec (Z.of_nat (length (pre ++ lead ty))) 0); [lia|].
    assert (ES : aslice msg (Z.of_nat (length (pre ++ lead ty))) (Z.of_nat (length body)) = Ok body).
    { rewrite E. unfold dbytes. cbn [fst snd]. rewrite <- app_assoc, app_assoc. apply aslice_mid; reflexivity. }
    rewrite ES. cbn [rbind].
    replace (i + 1) with (Z.of_nat (length (pre ++ dbytes (ty, body))) + 1) by (rewrite app_length; unfold i; reflexivity).
    rewrite (IH (gt, gb) (pre ++ dbytes (ty, body))); [reflexivity| | |exact Ffs'|cbn [length] in Hfuel; lia].
    + unfold msg, dfields. cbn [flat_map]. rewrite <- !app_assoc. reflexivity.
    + left. repeat split; cbn [fst snd]; auto; lia.
Qed.
Lemma dfields_count f fs : dfirst f -> Forall dtmf_field fs -> (S (length fs) <= length (dfields (f :: fs)))%nat.
Proof.
  intros F Ffs.
  assert (G : forall g, dfirst g -> (1 <= length (dbytes g))%nat).
  { intros [t b] [G | G]; unfold dbytes, lead; cbn [fst snd]; rewrite app_length.
    - destruct G as (G & _). cbn [fst] in G. destruct (Z.eqb_spec t 0); [lia|cbn; lia].
    - destruct G as (_ & G & _). cbn [snd] in G. destruct b; [congruence|cbn; lia]. }
  unfold dfields. cbn [flat_map]. rewrite app_length. pose proof (G _ F).
  assert (length fs <= length (flat_map dbytes fs))%nat; [|lia].
  clear - Ffs G. induction Ffs as [|g fs Fg Ffs IH]; [cbn; lia|]. cbn [flat_map length]. rewrite app_length. pose proof (G g (or_introl Fg)). lia.
Qed.
Lemma dtmf_trip ty fs : dtmf ty fs -> parse CLIP_DTMF (dfields fs ++ [ty]) = Ok (Some ((ty, []) :: fs)).
Proof.
  intros (Ht & H). destruct fs as [|f fs]; [contradiction|]. destruct H as (F & Ffs).
  unfold parse. set (msg := dfields (f :: fs) ++ [ty]).
  assert (Lm : length msg = (length (dfields (f :: fs)) + 1)%nat) by (unfold msg; rewrite app_length; reflexivity).
  pose proof (dfields_count f fs F Ffs) as Lc.
  assert (P : parse_from (S (length msg)) CLIP_DTMF msg 1 = Ok (Some (f :: fs))).
  { apply (parse_dtmf msg ty fs ltac:(unfold term; lia) f [] eq_refl F Ffs). lia. }
  change (parse_from (S (S (length msg))) CLIP_DTMF msg 0) with
    (do f <- adsi_next_field CLIP_DTMF msg (Z.of_nat (length msg)) 0;
     if f_ret f =? -1 then Ok (Some []) else if f_ret f <? 0 then Ok None else
      do body <- (if f_off f <? 0 then Ok [] else aslice msg (f_off f) (f_len f));
      do r <- parse_from (S (length msg)) CLIP_DTMF msg (f_ret f);
      Ok (match r with Some l => Some ((f_type f, body) :: l) | None => None end)).
  unfold adsi_next_field at 1.
  change ((CLIP_DTMF =? CLASS) || (CLIP_DTMF =? CLIP) || (CLIP_DTMF =? ACLIP)) with false. change (CLIP_DTMF =? JCLIP) with false.
  change (CLIP_DTMF =? CLIP_DTMF) with true. cbv iota.
  destruct (Z.ltb_spec (Z.of_nat (length msg)) 0); [lia|]. cbn [Z.leb Z.compare].
  assert (G : aget msg (Z.of_nat (length msg) - 1) = Ok ty).
  { replace (Z.of_nat (length msg) - 1) with (Z.of_nat (length (dfields (f :: fs)))) by lia. unfold msg. apply aget_mid; reflexivity. }
  rewrite G. cbn [rbind f_ret f_off f_type f_len Z.eqb Z.ltb Z.compare]. rewrite P. reflexivity.
Qed.

(** ---- the receiver ---- *)
Fixpoint cut (c l : list Z) : list (list Z) * list Z :=
  match l with
  | [] => ([], c)
  | d :: t => if term d then let p := cut [] t in ((c ++ [d]) :: fst p, snd p) else cut (c ++ [d]) t
  end.
Fixpoint fits (c l : list Z) : Prop :=
  match l with
  | [] => True
  | d :: t => (length c < 256)%nat /\ fits (if term d then [] else c ++ [d]) t
  end.
Definition holds (s : rx) (c : list Z) : Prop := buf_has 256 (r_msg s) c /\ r_len s = Z.of_nat (length c).
Lemma loop_ok l : forall s c, holds s c -> fits c l ->
  exists s', dtmf_loop s l = Ok (s', fst (cut c l)) /\ holds s' (snd (cut c l)).
Proof.
  induction l as [|d l IH]; intros s c (B & L) F; cbn [dtmf_loop cut].
  - exists s. repeat split; auto; apply B.
  - cbn [fits] in F. destruct F as (F1 & F2). rewrite L. destruct (Z.ltb_spec (Z.of_nat (length c)) 256); [|lia].
    destruct (buf_put 256 _ c d B ltac:(lia)) as (b1 & -> & B1). cbn [rbind]. fold (term d). destruct (term d).
    + cbn [r_msg r_len set_r_msg].
      replace (Z.of_nat (length c) + 1) with (Z.of_nat (length (c ++ [d]))) by (rewrite app_length; cbn [length]; lia).
      rewrite (buf_slice _ _ _ B1). cbn [rbind].
      destruct (IH (set_r_msg (set_r_msg s b1 (Z.of_nat (length (c ++ [d])))) b1 0) []) as (s' & -> & H'); [|exact F2|].
      * split; [|reflexivity]. cbn [r_msg set_r_msg]. destruct B1 as (<- & _). apply buf_nil.
      * cbn [rbind fst snd]. exists s'. auto.
    + cbn [rbind]. destruct (IH (set_r_msg s b1 (Z.of_nat (length c) + 1)) (c ++ [d])) as (s' & -> & H'); [|exact F2|].
      * split; [exact B1|]. cbn [r_len set_r_msg]. rewrite app_length. cbn [length]. lia.
      * cbn [rbind]. exists s'. auto.
Qed.
Lemma cut_app l1 : forall c l2, cut c (l1 ++ l2) = (fst (cut c l1) ++ fst (cut (snd (cut c l1)) l2), snd (cut (snd (cut c l1)) l2)).
Proof.
  induction l1 as [|d l1 IH]; intros c l2; cbn [app cut fst snd].
  - destruct (cut c l2); reflexivity.
  - destruct (term d); [|apply IH]. rewrite IH. cbn [fst snd app]. reflexivity.
Qed.
Lemma fits_app l1 : forall c l2, fits c (l1 ++ l2) <-> fits c l1 /\ fits (snd (cut c l1)) l2.
Proof.
  induction l1 as [|d l1 IH]; intros c l2; cbn [app cut fits fst snd]; [tauto|].
  destruct (term d); cbn [fst snd]; rewrite IH; tauto.
Qed.
Lemma rx_dtmf_ok l s c : holds s c -> fits c l ->
  exists s', adsi_rx_dtmf s l = Ok (s', fst (cut c l)) /\ holds s' (snd (cut c l)).
Proof.
  intros H F. unfold adsi_rx_dtmf. apply loop_ok; [|exact F]. destruct (r_len s =? 0); exact H.
Qed.
Lemma feed_dtmf ls : forall s c, holds s c -> fits c (concat ls) ->
  exists s', feed adsi_rx_dtmf s ls = Ok (s', fst (cut c (concat ls))) /\ holds s' (snd (cut c (concat ls))).
Proof.
  induction ls as [|l ls IH]; intros s c H F; cbn [feed concat].
  - exists s. auto.
  - cbn [concat] in F. apply fits_app in F. destruct F as (F1 & F2).
    destruct (rx_dtmf_ok l s c H F1) as (s1 & -> & H1). cbn [rbind].
    destruct (IH s1 _ H1 F2) as (s2 & -> & H2). cbn [rbind]. rewrite cut_app. cbn [fst snd]. exists s2. auto.
Qed.

Definition ended (m : list Z) : Prop := exists b x, m = b ++ [x] /\ term x = true /\ Forall (fun d => term d = false) b /\ (length m <= 256)%nat.
Lemma cut_body b : Forall (fun d => term d = false) b -> forall c l, cut c (b ++ l) = cut (c ++ b) l.
Proof. induction 1 as [|d b Hd Hb IH]; intros c l; [rewrite app_nil_r; reflexivity|]. cbn [app cut]. rewrite Hd, IH, <- app_assoc. reflexivity. Qed.
Lemma fits_body b : Forall (fun d => term d = false) b -> forall c l, (length c + length b < 256)%nat -> fits (c ++ b) l -> fits c (b ++ l).
Proof.
  induction 1 as [|d b Hd Hb IH]; intros c l L F; [rewrite app_nil_r in F; exact F|]. cbn [app fits length] in *. rewrite Hd. split; [lia|].
  apply IH; [rewrite app_length; cbn [length]; lia|]. rewrite <- app_assoc. exact F.
Qed.
Lemma cut_msgs ms : Forall ended ms -> cut [] (concat ms) = (ms, []) /\ fits [] (concat ms).
Proof.
  induction 1 as [|m ms (b & x & -> & Hx & Hb & L) Hms (IH1 & IH2)]; cbn [concat]; [split; [reflexivity|exact I]|].
  rewrite app_length in L. cbn [length] in L. rewrite <- app_assoc. split.
  - rewrite cut_body by exact Hb. cbn [app cut]. rewrite Hx, IH1. reflexivity.
  - apply fits_body; [exact Hb|cbn [length]; lia|]. cbn [app fits]. rewrite Hx. split; [lia|exact IH2].
Qed.
Lemma dtmf_ended ty fs : dtmf ty fs -> dtmf_size fs <= 256 -> ended (dfields fs ++ [ty]).
Proof.
  intros (Ht & H) L. pose proof (dfields_length fs) as Lf. exists (dfields fs), ty. split; [reflexivity|]. split; [unfold term; lia|].
  assert (D : forall b, Forall decimal b -> Forall (fun d => term d = false) b).
  { intros b. apply Forall_impl. unfold decimal, term. intros; lia. }
  assert (G : forall g, dfirst g -> Forall (fun d => term d = false) (dbytes g)).
  { intros [t b] [(G1 & G2 & G3 & G4 & G5) | (G1 & G2 & G3)]; unfold dbytes, lead; cbn [fst snd] in *; apply Forall_app; (split; [|apply D; assumption]).
    - destruct (t =? 0); [constructor|]. constructor; [unfold term; lia|constructor].
    - subst t. constructor. }
  split; [|rewrite app_length; cbn [length]; lia]. destruct fs as [|f fs]; [contradiction|]. destruct H as (F & Ffs).
  unfold dfields. cbn [flat_map]. apply Forall_app. split; [apply G, F|]. clear - Ffs G. induction Ffs as [|g fs Fg Ffs IH]; [constructor|].
  cbn [flat_map]. apply Forall_app. split; [apply G; left; exact Fg|exact IH].
Qed.
