(** The T.85 decoder never leaves its buffers, whatever it is given. *)
From Verif Require Import Base Bits Arith_model Arith_spec Arith_enc_proofs Arith_dec_proofs T85_enc_model T85_dec_model T85_arith_proofs T85_pscd_proofs T85_run_proofs.
From Coq Require Import ZifyBool ZifyNat.
Local Open Scope Z_scope.

Definition comment_ok (s : td) : Prop :=
  (d_comment_len s = 0 /\ d_comment s = None) \/
  (0 <= d_comment_progress s < d_comment_len s /\ match d_comment s with Some t => Z.of_nat (length t) = d_comment_len s | None => True end).

Record body (s : td) : Prop := {
  b_par : par_ok (d_par s);
  b_sane : sane (d_par s) (d_options s) (d_pd s);
  b_buf : (length (d_buf s) <= 8)%nat /\ bytes (d_buf s);
  b_need : 2 <= d_need s <= 8;
  b_hdr : bytes (d_hdr s);
  b_comment : comment_ok s }.

(** A bound on the turns that are left. *)
Definition turns (s : td) (data : list Z) : Z :=
  8 * Z.of_nat (length data) + 6 * Z.of_nat (length (d_buf s)) + (if d_need s <=? Z.of_nat (length (d_buf s)) then 1 else 0) + (if d_eod s =? 1 then 8 else 0).

Definition fine (s : td) (data : list Z) (t : turn) : Prop :=
  match t with
  | Loop s1 data1 => body s1 /\ bytes data1 /\ turns s1 data1 < turns s data
  | Ret _ s1 => body s1
  end.

Lemma opt_clear o f : Z.land f T85_VLENGTH = 0 -> opt (Z.land o (Z.lnot T85_VLENGTH)) f = opt o f.
Proof.
  intros H. unfold opt. f_equal. f_equal. rewrite <- Z.land_assoc. f_equal. apply Z.bits_inj_iff'. intros n Hn.
  rewrite Z.land_spec, Z.lnot_spec by lia. apply (f_equal (fun x => Z.testbit x n)) in H. rewrite Z.land_spec, Z.bits_0 in H.
  destruct (Z.testbit f n), (Z.testbit T85_VLENGTH n); cbn in *; congruence.
Qed.
Lemma opt_clear2 o : opt (Z.land o (Z.lnot T85_VLENGTH)) T85_LRLTWO = opt o T85_LRLTWO. Proof. apply opt_clear. reflexivity. Qed.
Lemma opt_cleart o : opt (Z.land o (Z.lnot T85_VLENGTH)) T85_TPBON = opt o T85_TPBON. Proof. apply opt_clear. reflexivity. Qed.
Lemma opt_clearv o : opt (Z.land o (Z.lnot T85_VLENGTH)) T85_VLENGTH = false.
Proof. unfold opt. rewrite <- Z.land_assoc. change (Z.land (Z.lnot T85_VLENGTH) T85_VLENGTH) with 0. rewrite Z.land_0_r. reflexivity. Qed.

Lemma sane_clear c o s : sane c o s -> sane c (Z.land o (Z.lnot T85_VLENGTH)) s.
Proof.
  intros H. destruct H. constructor; auto; unfold nbuf, tx_ok, first_t in *; rewrite ?opt_clear2; auto.
Qed.

Lemma clear_body s : body s -> body (clear_vlength s).
Proof. intros H. destruct H. constructor; auto. apply sane_clear. assumption. Qed.
Lemma buf_body s b n : body s -> (length b <= 8)%nat -> bytes b -> 2 <= n <= 8 -> body (s_buf s b n).
Proof. intros H H1 H2 H3. destruct H. constructor; auto. Qed.
Lemma eod_body s v : body s -> body (s_eod s v).
Proof. intros H. destruct H. constructor; auto. Qed.
Lemma yd_body s v : body s -> body (s_yd s v).
Proof. intros H. destruct H. constructor; auto. Qed.
Lemma pd_body s p : body s -> sane (d_par s) (d_options s) p -> body (s_pd s p).
Proof. intros H Hp. destruct H. constructor; auto. Qed.

Lemma finish_sde_safe s m : body s -> byte m -> exists s1, finish_sde s m = Ok s1 /\ body s1 /\ d_yd s1 = d_yd s /\ d_buf s1 = d_buf s /\ d_need s1 = d_need s /\ d_eod s1 = d_eod s.
Proof.
  intros H Hm. unfold finish_sde. pose proof (b_par _ H) as PC.
  assert (H0 : sane (d_par s) (d_options s) (p_ar (d_pd s) (set_nopadding (par_s (d_pd s)) false))).
  { apply sane_ar; [apply H|]. apply dsafe_np. apply (s_ar _ _ _ (b_sane _ H)). }
  assert (Hb : bytes [T82_ESC; m]) by (constructor; [red; unfold T82_ESC; lia|constructor; [exact Hm|constructor]]).
  destruct (D_safe (d_par s) (d_options s) PC (d_yd s) _ _ H0 Hb) as (p1 & i1 & -> & H1 & _). cbn [rbind].
  eexists. split; [reflexivity|]. split; [|auto 10]. apply pd_body; [exact H|].
  assert (HA : dsafe (set_nopadding (t81_t82_arith_decode_restart (par_s p1) (m =? T82_SDNORM)) (opt (d_options s) T85_VLENGTH))).
  { apply dsafe_np. apply dsafe_restart. apply (s_ar _ _ _ H1). }
  destruct PC as (HX & _). pose proof (nbuf_range (d_options s)) as NB.
  set (A := set_nopadding _ _) in *. clearbody A. destruct H1. destruct (m =? T82_SDRST).
  - constructor; cbn [p_p p_tp p_tx p_at p_y p_x p_ar px pp0 pp1 pp2 prows ptx pat ppseudo par_s]; auto; try lia. left. reflexivity.
  - constructor; cbn [p_p p_tp p_tx p_at p_y p_x p_ar px pp0 pp1 pp2 prows ptx pat ppseudo par_s]; auto; try lia.
Qed.

Lemma nth_byte l k d : bytes l -> byte d -> byte (nth k l d).
Proof. intros H Hd. destruct (nth_in_or_default k l d) as [I| ->]; [|exact Hd]. unfold bytes in H. rewrite Forall_forall in H. apply H, I. Qed.
Lemma byte0 : byte 0. Proof. red; lia. Qed.

Lemma get32_nonneg l : bytes l -> 0 <= get32 l.
Proof.
  intros H. destruct l as [|a [|b [|c [|d [|]]]]]; cbn [get32]; try lia.
  repeat match goal with H : bytes (_ :: _) |- _ => apply Forall_cons_iff in H as [? H] | H : Forall _ (_ :: _) |- _ => apply Forall_cons_iff in H as [? H] end.
  unfold byte in *. rewrite !Z.lor_nonneg, !Z.shiftl_nonneg. lia.
Qed.
Lemma bytes_firstn n l : bytes l -> bytes (firstn n l).
Proof. intros H. revert n. induction H as [|x l Hx H IH]; intros [|n]; constructor; auto. apply IH. Qed.
Lemma bytes_skipn n l : bytes l -> bytes (skipn n l).
Proof. intros H. revert n. induction H as [|x l Hx H IH]; intros [|n]; cbn; auto; constructor; auto. Qed.
Lemma bytes_field l k n : bytes l -> bytes (field l k n).
Proof. intros H. apply bytes_firstn, bytes_skipn, H. Qed.

(** What remains to be shown of a marker: there is something of the buffer to pay with. *)
Lemma stripe_end_safe s m k (P : turn -> Prop) : body s -> byte m ->
  (forall s1, body s1 -> d_buf s1 = d_buf s -> d_need s1 = d_need s -> d_eod s1 = d_eod s -> P (k s1)) -> (forall s1, body s1 -> P (Ret OK s1)) ->
  exists t, stripe_end s m k = Ok t /\ P t.
Proof.
  intros H Hm HK HR. unfold stripe_end. destruct (finish_sde_safe s m H Hm) as (s1 & -> & H1 & _ & A1 & A2 & A3). cbn [rbind].
  destruct (d_yd s1 <=? py (d_pd s1)); eexists; (split; [reflexivity|]); [apply HR|apply HK]; auto.
Qed.

Lemma len_nil {A} : Z.of_nat (@length A []) = 0. Proof. reflexivity. Qed.

Ltac pay := unfold turns; cbn [s_buf s_eod s_comment clear_vlength s_options s_yd s_pd d_buf d_need d_eod]; rewrite ?len_nil;
  repeat match goal with
         | |- context [?x <? ?y] => lazymatch x with context [if _ then _ else _] => fail | _ => destruct (Z.ltb_spec x y) end
         | |- context [?x <=? ?y] => lazymatch x with context [if _ then _ else _] => fail | _ => destruct (Z.leb_spec x y) end
         | |- context [?x =? ?y] => destruct (Z.eqb_spec x y)
         end; cbn [length]; lia.

Lemma marker_safe s data : body s -> bytes data -> d_need s <= Z.of_nat (length (d_buf s)) -> d_comment_len s = 0 ->
  exists t, marker s data = Ok t /\ match t with
    | Loop s1 data1 => body s1 /\ bytes data1 /\ turns s1 data1 < turns s data
    | Ret _ s1 => body s1 end.
Proof.
  intros H Hd Hn Hc. pose proof (b_buf _ H) as [HL HB]. pose proof (b_need _ H) as HN. pose proof (b_sane _ H) as HS.
  assert (Hm : byte (nth 1 (d_buf s) (nth 1 (d_hdr s) 0))) by (apply nth_byte; [exact HB|]; apply nth_byte; [apply H|apply byte0]).
  assert (H0 : byte (nth 0 (d_buf s) 0)) by (apply nth_byte; [exact HB|apply byte0]).
  assert (E8 : forall n, 2 <= n <= 8 -> body (s_buf s [] n)) by (intros; apply buf_body; [exact H|cbn; lia|constructor|lia]).
  assert (K8 : forall n, 2 <= n <= 8 -> body (s_buf s (d_buf s) n)) by (intros; apply buf_body; auto).
  unfold marker. cbv zeta. set (m := nth 1 (d_buf s) (nth 1 (d_hdr s) 0)) in *. clearbody m.
  destruct (m =? T82_STUFF).
  { destruct (D_safe (d_par s) (d_options s) (b_par _ H) (d_yd s) (d_pd s) [nth 0 (d_buf s) 0; m] HS) as (p & i & -> & Hp & _).
    { constructor; [exact H0|constructor; [exact Hm|constructor]]. }
    cbn [rbind]. eexists. split; [reflexivity|]. cbn beta iota. split; [apply buf_body; [apply pd_body; assumption|cbn; lia|constructor|lia]|]. split; [exact Hd|]. pay. }
  destruct (m =? T82_ABORT). { eexists. split; [reflexivity|]. apply E8. lia. }
  destruct (m =? T82_COMMENT).
  { destruct (Z.ltb_spec (Z.of_nat (length (d_buf s))) 6).
    - eexists. split; [reflexivity|]. split; [apply K8; lia|]. split; [exact Hd|]. pay.
    - eexists. split; [reflexivity|]. split; [|split; [exact Hd|pay]].
      pose proof (E8 2 ltac:(lia)) as HE. pose proof (get32_nonneg (field (d_buf s) 2 4) (bytes_field _ _ _ HB)) as G.
      pose proof (b_comment _ H) as HC. destruct HE. constructor; auto. unfold comment_ok in *. cbn [s_comment s_buf d_comment_len d_comment d_comment_progress] in *.
      destruct HC as [[_ HC]|[HC _]]; [|lia]. rewrite HC. set (n := get32 (field (d_buf s) 2 4)) in *. clearbody n.
      destruct (Z.eq_dec n 0) as [->|Nn]; [left; split; [reflexivity|]; destruct (d_max_comment s); reflexivity|right].
      split; [lia|]. destruct (d_max_comment s) as [mc|]; [|exact I]. destruct ((0 <? n) && (n <=? mc)); [|exact I]. apply zero_row_len. lia. }
  destruct (m =? T82_ATMOVE).
  { destruct (Z.ltb_spec (Z.of_nat (length (d_buf s))) 8).
    - eexists. split; [reflexivity|]. split; [apply K8; lia|]. split; [exact Hd|]. pay.
    - destruct (1 <=? Z.of_nat (length (pat (d_pd s)))); [eexists; split; [reflexivity|]; apply eod_body, E8; lia|].
      destruct (_ || _) eqn:E; [eexists; split; [reflexivity|]; apply eod_body, E8; lia|].
      eexists. split; [reflexivity|]. split; [|split; [exact Hd|pay]]. apply pd_body; [apply E8; lia|]. cbn [s_buf d_pd d_par d_options].
      assert (T : byte (nth 6 (d_buf s) 0)) by (apply nth_byte; [exact HB|apply byte0]).
      destruct HS. constructor; auto. cbn [p_at pat]. apply Forall_app. split; [assumption|]. constructor; [|constructor]. cbn [snd]. unfold tx_ok. unfold byte in T. lia. }
  destruct (m =? T82_NEWLEN).
  { destruct (Z.ltb_spec (Z.of_nat (length (d_buf s))) 6).
    - eexists. split; [reflexivity|]. split; [apply K8; lia|]. split; [exact Hd|]. pay.
    - destruct (negb (opt (d_options s) T85_VLENGTH)); [eexists; split; [reflexivity|]; apply eod_body, E8; lia|].
      destruct (_ <? _); (eexists; split; [reflexivity|]); [apply eod_body, clear_body, E8; lia|].
      split; [apply yd_body, clear_body, E8; lia|]. split; [exact Hd|pay]. }
  destruct ((m =? T82_SDNORM) || (m =? T82_SDRST)).
  2:{ eexists. split; [reflexivity|]. apply eod_body, E8. lia. }
  destruct (negb (opt (d_options s) T85_VLENGTH)).
  { apply stripe_end_safe; [apply E8; lia|exact Hm| |auto].
    intros s1 HS1 A1 A2 A3. split; [exact HS1|]. split; [exact Hd|]. unfold turns. rewrite A1, A2, A3. pay. }
  destruct (Z.ltb_spec (Z.of_nat (length (d_buf s))) 3).
  { eexists. split; [reflexivity|]. split; [apply K8; destruct (d_need s <? 3); lia|]. split; [exact Hd|]. pay. }
  assert (T2 : byte (nth 2 (d_buf s) 0)) by (apply nth_byte; [exact HB|apply byte0]).
  assert (T3 : byte (nth 3 (d_buf s) 0)) by (apply nth_byte; [exact HB|apply byte0]).
  destruct (negb (nth 2 (d_buf s) 0 =? T82_ESC)).
  { apply stripe_end_safe; [apply E8; lia|exact Hm| |auto].
    intros s1 HS1 A1 A2 A3. split; [exact HS1|]. split; [constructor; assumption|]. unfold turns. rewrite A1, A2, A3. pay. }
  destruct (Z.ltb_spec (Z.of_nat (length (d_buf s))) 4).
  { eexists. split; [reflexivity|]. split; [apply K8; destruct (d_need s <? 3), (_ <? 4); lia|]. split; [exact Hd|]. pay. }
  destruct (negb (nth 3 (d_buf s) 0 =? T82_NEWLEN)).
  { apply stripe_end_safe; [apply K8; lia|exact Hm| |auto].
    intros s1 HS1 A1 A2 A3. split; [apply buf_body; [exact HS1|cbn; lia|constructor; [exact T2|constructor; [exact T3|constructor]]|lia]|].
    split; [exact Hd|]. unfold turns. cbn [s_buf d_buf d_need d_eod]. rewrite A3. pay. }
  destruct (Z.ltb_spec (Z.of_nat (length (d_buf s))) 8).
  { eexists. split; [reflexivity|]. split; [apply K8; destruct (d_need s <? 3), (_ <? 4), (_ <? 8); lia|]. split; [exact Hd|]. pay. }
  destruct (_ <? _); [eexists; split; [reflexivity|]; apply eod_body, clear_body, E8; lia|].
  match goal with |- context [finish_sde ?S m] => destruct (finish_sde_safe S m) as (s1 & -> & HS1 & _ & A1 & A2 & A3); [apply yd_body, clear_body, E8; lia|exact Hm|] end.
  cbn [rbind]. eexists. split; [reflexivity|]. split; [exact HS1|]. split; [exact Hd|]. unfold turns. rewrite A1, A2, A3. pay.
Qed.

Lemma no_marker_esc x t : no_marker (x :: t) -> x = 255 -> exists t', t = 0 :: t'.
Proof. intros [H _]. exact H. Qed.

Lemma turn_safe s0 data : body s0 -> bytes data -> (data <> [] \/ d_eod s0 = 1) -> exists t, bid_turn s0 data = Ok t /\ fine s0 data t.
Proof.
  intros H0 Hd Hgo. unfold bid_turn.
  set (s := if d_eod s0 =? 1 then s_eod (clear_vlength (s_buf s0 (d_buf s0) 2)) 2 else s0).
  assert (H : body s).
  { unfold s. destruct (d_eod s0 =? 1); [|exact H0]. apply eod_body, clear_body, buf_body; [exact H0|apply H0|apply H0|lia]. }
  assert (LT : forall data1, turns s data1 <= turns s0 data1 /\ (d_eod s0 = 1 -> turns s data1 < turns s0 data1)).
  { intros data1. unfold s. destruct (Z.eqb_spec (d_eod s0) 1) as [E|E]; [|split; [lia|congruence]]. unfold turns. cbn [s_eod clear_vlength s_options s_buf d_buf d_need d_eod].
    rewrite E. destruct (_ <=? _), (_ <=? _); cbn; lia. }
  assert (HC : comment_ok s) by apply H.
  enough (G : exists t, (if negb (d_comment_len s =? 0) then in_comment s data else
    if 0 <? Z.of_nat (length (d_buf s)) then
      let want := Z.to_nat (d_need s - Z.of_nat (length (d_buf s))) in
      let b := d_buf s ++ firstn want data in
      let s1 := s_buf s b (d_need s) in
      let data1 := skipn want data in
      if 20 <? Z.of_nat (length b) then UB
      else if Z.of_nat (length b) <? d_need s then Ok (Loop s1 data1)
      else marker s1 data1
    else
      match data with
      | x :: data1 =>
          if x =? T82_ESC then Ok (Loop (s_buf s [x] (d_need s)) data1)
          else
            do (p, rest) <- decode_pscd (d_par s) (d_options s) (d_yd s) (d_pd s) data;
            match rest with
            | y :: _ => if y =? T82_ESC then Ok (Loop (s_pd s p) rest) else Ok (Ret INVALID_DATA (s_eod (s_pd s p) 2))
            | [] => Ok (Loop (s_pd s p) rest)
            end
      | [] =>
          do (p, rest) <- decode_pscd (d_par s) (d_options s) (d_yd s) (d_pd s) [];
          Ok (Loop (s_pd s p) rest)
      end) = Ok t /\
    match t with Loop s1 data1 => body s1 /\ bytes data1 /\ (turns s1 data1 < turns s data \/ (data = [] /\ turns s1 data1 <= turns s data)) | Ret _ s1 => body s1 end).
  { destruct G as (t & E & F). exists t. split; [exact E|]. destruct t as [s1 data1|]; [|exact F]. destruct F as (F1 & F2 & F3). split; [exact F1|]. split; [exact F2|].
    pose proof (LT data) as [L1 L2]. destruct F3 as [F3|[F3 F4]]; [lia|]. destruct Hgo as [Hgo|Hgo]; [contradiction|]. specialize (L2 Hgo). lia. }
  clearbody s. clear H0 LT Hgo s0.
  destruct (Z.eqb_spec (d_comment_len s) 0) as [Ec|Ec]; cbn [negb].
  2:{ destruct HC as [[HC _]|[HC HT]]; [contradiction|]. unfold in_comment.
      assert (PUT : forall n, 0 <= n <= Z.of_nat (length data) -> d_comment_progress s + n <= d_comment_len s -> exists t,
        match d_comment s with Some t => do t1 <- ablit t (d_comment_progress s) (firstn (Z.to_nat n) data); Ok (Some t1) | None => Ok None end = Ok t /\
        match t with Some t => Z.of_nat (length t) = d_comment_len s | None => True end).
      { intros n Hn1 Hn2. destruct (d_comment s) as [tx|]; [|eexists; split; [reflexivity|exact I]].
        destruct (ablit_len tx (d_comment_progress s) (firstn (Z.to_nat n) data)) as (t1 & -> & L); [lia|rewrite firstn_length; lia|]. cbn [rbind]. eexists. split; [reflexivity|]. cbn beta iota. rewrite L. exact HT. }
      destruct (Z.leb_spec (d_comment_len s) (d_comment_progress s + Z.of_nat (length data))).
      - destruct (PUT (d_comment_len s - d_comment_progress s) ltac:(lia) ltac:(lia)) as (t & -> & _). cbn [rbind]. eexists. split; [reflexivity|].
        cbn beta iota. assert (HE : body (s_comment s None 0 0)) by (destruct H; constructor; auto; left; auto).
        split; [apply pd_body; [exact HE|]; destruct (d_max_comment s); [|apply H]; pose proof (b_sane _ H) as Q; destruct Q; constructor; auto|].
        split; [apply bytes_skipn, Hd|]. left. unfold turns. cbn [s_pd s_comment d_buf d_need d_eod]. rewrite skipn_length. lia.
      - destruct (PUT (Z.of_nat (length data)) ltac:(lia) ltac:(lia)) as (t & -> & L). cbn [rbind]. eexists. split; [reflexivity|]. cbn beta iota.
        split; [destruct H; constructor; auto; right; cbn [s_comment d_comment_progress d_comment_len d_comment]; split; [lia|exact L]|].
        split; [constructor|]. unfold turns. cbn [s_comment d_buf d_need d_eod]. destruct data; [right; split; [reflexivity|cbn; lia]|left; cbn [length]; lia]. }
  destruct (Z.ltb_spec 0 (Z.of_nat (length (d_buf s)))).
  { cbv zeta. pose proof (b_buf _ H) as [HL HB]. pose proof (b_need _ H) as HN.
    set (want := Z.to_nat (d_need s - Z.of_nat (length (d_buf s)))).
    assert (LW : (length (firstn want data) <= want)%nat) by (rewrite firstn_length; lia).
    assert (LB : (length (d_buf s ++ firstn want data) <= 8)%nat) by (rewrite app_length; unfold want in *; lia).
    assert (H1 : body (s_buf s (d_buf s ++ firstn want data) (d_need s))) by (apply buf_body; [exact H|exact LB|apply bytes_app; [exact HB|apply bytes_firstn, Hd]|exact HN]).
    replace (20 <? Z.of_nat (length (d_buf s ++ firstn want data))) with false by lia.
    assert (LD : Z.of_nat (length data) = Z.of_nat (length (firstn want data)) + Z.of_nat (length (skipn want data))).
    { rewrite <- (firstn_skipn want data) at 1. rewrite app_length. lia. }
    destruct (Z.ltb_spec (Z.of_nat (length (d_buf s ++ firstn want data))) (d_need s)) as [Hlt|Hge].
    - eexists. split; [reflexivity|]. cbn beta iota. split; [exact H1|]. split; [apply bytes_skipn, Hd|].
      rewrite app_length in Hlt. unfold turns. cbn [s_buf d_buf d_need d_eod]. rewrite app_length.
      destruct (Z.leb_spec (d_need s) (Z.of_nat (length (d_buf s)))); [lia|].
      destruct (Z.leb_spec (d_need s) (Z.of_nat (length (d_buf s) + length (firstn want data)))); [lia|].
      destruct data as [|x data]; [right; split; [reflexivity|]; cbn [length] in *; lia|left]. 
      assert (0 < length (firstn want (x :: data)))%nat by (rewrite firstn_length; cbn [length]; unfold want; lia). lia.
    - destruct (marker_safe _ (skipn want data) H1 (bytes_skipn _ _ Hd)) as (t & E & F); [exact Hge|exact Ec|]. exists t. split; [exact E|].
      destruct t as [s1 data1|]; [|exact F]. destruct F as (F1 & F2 & F3). split; [exact F1|]. split; [exact F2|]. left.
      eapply Z.lt_le_trans; [exact F3|]. unfold turns. cbn [s_buf d_buf d_need d_eod]. rewrite app_length in *.
      destruct (Z.leb_spec (d_need s) (Z.of_nat (length (d_buf s)))).
      + assert (want = 0%nat) as -> by (unfold want; lia). cbn [firstn skipn length]. destruct (_ <=? _); lia.
      + destruct (Z.leb_spec (d_need s) (Z.of_nat (length (d_buf s) + length (firstn want data)))); lia. }
  destruct data as [|x data1].
  { destruct (D_safe (d_par s) (d_options s) (b_par _ H) (d_yd s) (d_pd s) [] (b_sane _ H) ltac:(constructor)) as (p & i & -> & Hp & Hb & (u & E & _)). cbn [rbind].
    eexists. split; [reflexivity|]. cbn beta iota. split; [apply pd_body; assumption|]. split; [exact Hb|]. right. split; [reflexivity|].
    symmetry in E. apply app_eq_nil in E as [_ ->]. unfold turns. cbn [s_pd d_buf d_need d_eod]. lia. }
  destruct (Z.eqb_spec x T82_ESC) as [Ex|Ex].
  { eexists. split; [reflexivity|]. cbn beta iota. pose proof (Forall_inv Hd) as Hx. pose proof (Forall_inv_tail Hd) as Ht. pose proof (b_need _ H) as HN.
    split; [apply buf_body; [exact H|cbn; lia|constructor; [exact Hx|constructor]|lia]|]. split; [exact Ht|]. left. unfold turns. cbn [s_buf d_buf d_need d_eod length].
    destruct (Z.leb_spec (d_need s) (Z.of_nat 1)); [lia|]. destruct (_ <=? _); lia. }
  destruct (D_safe (d_par s) (d_options s) (b_par _ H) (d_yd s) (d_pd s) (x :: data1) (b_sane _ H) Hd) as (p & i & -> & Hp & Hb & (u & E & _)). cbn [rbind].
  destruct i as [|y i].
  { eexists. split; [reflexivity|]. cbn beta iota. split; [apply pd_body; assumption|]. split; [exact Hb|]. left. unfold turns. cbn [s_pd d_buf d_need d_eod length]. lia. }
  destruct (Z.eqb_spec y T82_ESC) as [Ey|Ey].
  - eexists. split; [reflexivity|]. cbn beta iota. split; [apply pd_body; assumption|]. split; [exact Hb|]. left. unfold turns. cbn [s_pd d_buf d_need d_eod].
    assert (length u > 0)%nat by (destruct u; [injection E as -> _; congruence|cbn; lia]). rewrite E, app_length. lia.
  - eexists. split; [reflexivity|]. cbn beta iota. apply eod_body, pd_body; assumption.
Qed.

Lemma bid_loop_safe f : forall s data, body s -> bytes data -> turns s data < Z.of_nat f -> exists r s', bid_loop f s data = Ok (r, s') /\ body s'.
Proof.
  induction f as [|f IH]; intros s data H Hd Hf.
  { unfold turns in Hf. destruct (_ <=? _), (_ =? _); lia. }
  cbn [bid_loop]. destruct (match data with [] => d_eod s =? 1 | _ => true end) eqn:E; [|exists MORE_DATA, s; auto].
  destruct (turn_safe s data H Hd) as (t & -> & F).
  { destruct data; [right; lia|left; discriminate]. }
  cbn [rbind]. destruct t as [s1 data1|r s1]; [|exists r, s1; auto]. destruct F as (F1 & F2 & F3). apply IH; auto. lia.
Qed.

Lemma turns_fuel s data data1 : body s -> (length data1 <= length data)%nat -> turns s data1 < Z.of_nat (bid_fuel data).
Proof. intros H L. pose proof (b_buf _ H) as [HL _]. unfold turns, bid_fuel. destruct (_ <=? _), (_ =? _); lia. Qed.

(** ---- whole calls ---- *)

Definition header (s : td) : Prop :=
  d_bie_len s = Z.of_nat (length (d_hdr s)) /\ d_bie_len s < 20 /\ bytes (d_hdr s) /\ 0 < d_max_xd s <= 4294967288.
Definition ready (s : td) : Prop := header s \/ (20 <= d_bie_len s /\ body s).

Lemma bie_turn s data t : bid_turn s data = Ok t -> d_bie_len (match t with Loop s1 _ => s1 | Ret _ s1 => s1 end) = d_bie_len s.
Proof.
  unfold bid_turn. set (s1 := if d_eod s =? 1 then _ else s). assert (E1 : d_bie_len s1 = d_bie_len s) by (unfold s1; destruct (d_eod s =? 1); reflexivity).
  rewrite <- E1. clearbody s1. clear E1.
  assert (SE : forall s m k t, stripe_end s m k = Ok t -> (forall s1, d_bie_len s1 = d_bie_len s -> d_bie_len (match k s1 with Loop s1 _ => s1 | Ret _ s1 => s1 end) = d_bie_len s) ->
     d_bie_len (match t with Loop s1 _ => s1 | Ret _ s1 => s1 end) = d_bie_len s).
  { clear. intros s m k t H HK. unfold stripe_end, finish_sde in H. destruct (decode_pscd _ _ _ _ _) as [[p1 i1]|]; [|discriminate]. cbn [rbind] in H.
    match type of H with context [s_pd s ?P] => set (sp := s_pd s P) in H; assert (Hs : d_bie_len sp = d_bie_len s) by reflexivity; clearbody sp end.
    destruct (d_yd sp <=? py (d_pd sp)); injection H as <-; [exact Hs|]. apply HK. exact Hs. }
  destruct (negb (d_comment_len s1 =? 0)).
  { unfold in_comment. destruct (_ <=? _).
    - destruct (match d_comment s1 with Some t0 => _ | None => _ end); [|discriminate]. cbn [rbind]. intros H. injection H as <-. reflexivity.
    - destruct (match d_comment s1 with Some t0 => _ | None => _ end); [|discriminate]. cbn [rbind]. intros H. injection H as <-. reflexivity. }
  destruct (0 <? Z.of_nat (length (d_buf s1))).
  2:{ destruct data as [|x data1].
      - destruct (decode_pscd _ _ _ _ _) as [[p1 i1]|]; [|discriminate]. cbn [rbind]. intros H. injection H as <-. reflexivity.
      - destruct (x =? T82_ESC); [intros H; injection H as <-; reflexivity|].
        destruct (decode_pscd _ _ _ _ _) as [[p1 i1]|]; [|discriminate]. cbn [rbind]. destruct i1 as [|y i1]; [intros H; injection H as <-; reflexivity|].
        destruct (y =? T82_ESC); intros H; injection H as <-; reflexivity. }
  cbv zeta. set (b := d_buf s1 ++ _). set (data1 := skipn _ data). clearbody b data1.
  destruct (20 <? Z.of_nat (length b)); [discriminate|]. destruct (_ <? _); [intros H; injection H as <-; reflexivity|].
  unfold marker. cbn [s_buf d_buf d_hdr d_par d_options d_yd d_pd d_need d_comment d_max_comment]. set (m := nth 1 b _). clearbody m.
  destruct (m =? T82_STUFF).
  { destruct (decode_pscd _ _ _ _ _) as [[p1 i1]|]; [|discriminate]. cbn [rbind]. intros H. injection H as <-. reflexivity. }
  destruct (m =? T82_ABORT); [intros H; injection H as <-; reflexivity|].
  destruct (m =? T82_COMMENT); [destruct (_ <? 6); intros H; injection H as <-; reflexivity|].
  destruct (m =? T82_ATMOVE).
  { destruct (_ <? 8); [intros H; injection H as <-; reflexivity|]. destruct (1 <=? _); [intros H; injection H as <-; reflexivity|].
    destruct (_ || _); intros H; injection H as <-; reflexivity. }
  destruct (m =? T82_NEWLEN).
  { destruct (_ <? 6); [intros H; injection H as <-; reflexivity|]. destruct (negb _); [intros H; injection H as <-; reflexivity|].
    destruct (_ <? _); intros H; injection H as <-; reflexivity. }
  destruct ((m =? T82_SDNORM) || (m =? T82_SDRST)); [|intros H; injection H as <-; reflexivity].
  destruct (negb _).
  { intros H. exact (SE (s_buf (s_buf s1 b (d_need s1)) [] (d_need s1)) m _ t H (fun s2 E2 => E2)). }
  destruct (_ <? 3); [intros H; injection H as <-; reflexivity|].
  destruct (negb _). { intros H. exact (SE (s_buf (s_buf s1 b (d_need s1)) [] 2) m _ t H (fun s2 E2 => E2)). }
  destruct (Z.of_nat (length b) <? 4); [intros H; injection H as <-; reflexivity|].
  destruct (negb _). { intros H. exact (SE (s_buf (s_buf s1 b (d_need s1)) b 2) m _ t H (fun s2 E2 => E2)). }
  destruct (Z.of_nat (length b) <? 8); [intros H; injection H as <-; reflexivity|].
  destruct (_ <? _); [intros H; injection H as <-; reflexivity|].
  unfold finish_sde. destruct (decode_pscd _ _ _ _ _) as [[p1 i1]|]; [|discriminate]. cbn [rbind]. intros H. injection H as <-. reflexivity.
Qed.

Lemma bie_loop f : forall s data r s', bid_loop f s data = Ok (r, s') -> d_bie_len s' = d_bie_len s.
Proof.
  induction f as [|f IH]; intros s data r s' H; [discriminate|]. cbn [bid_loop] in H.
  destruct (match data with [] => d_eod s =? 1 | _ => true end); [|injection H as _ <-; reflexivity].
  destruct (bid_turn s data) as [t|] eqn:E; [|discriminate]. cbn [rbind] in H. pose proof (bie_turn _ _ _ E) as B. destruct t as [s1 data1|r1 s1].
  - rewrite (IH _ _ _ _ H). exact B.
  - injection H as _ <-. exact B.
Qed.

Lemma get32_below l : bytes l -> 0 <= get32 l < 4294967296.
Proof.
  intros H. split; [apply get32_nonneg; exact H|]. destruct l as [|a [|b [|c [|d [|]]]]]; cbn [get32]; try lia.
  repeat match goal with H : bytes (_ :: _) |- _ => apply Forall_cons_iff in H as [? H] | H : Forall _ (_ :: _) |- _ => apply Forall_cons_iff in H as [? H] end.
  unfold byte in *.
  assert (L : forall x y, 0 <= x < 2 ^ 32 -> 0 <= y < 2 ^ 32 -> 0 <= Z.lor x y < 2 ^ 32) by (intros; apply lor_below; lia).
  rewrite !Z.shiftl_mul_pow2 by lia. change 4294967296 with (2 ^ 32). apply L; [apply L; [apply L|]|]; lia.
Qed.

Lemma start_body junk s3 w l m b o : 1 <= w <= 4294967288 -> d_par s3 = mkPar w l m b -> d_options s3 = o -> bytes (d_hdr s3) -> body (start_image junk s3).
Proof.
  intros W EP EO EH. unfold start_image. rewrite EP, EO. cbn [xd l0 mx].
  assert (BW : bytes_per_row w = (w + 7) / 8) by (unfold bytes_per_row; rewrite shr3; unfold u32; rewrite Z.mod_small by lia; reflexivity).
  rewrite BW. set (n := (w + 7) / 8).
  assert (PK : par_ok (mkPar w l m n)) by (split; cbn [xd bpr]; [lia|unfold n; Z.div_mod_to_equations; lia]).
  constructor; cbn [s_pd s_buf s_comment s_par d_par d_options d_pd d_buf d_need d_hdr]; rewrite ?EO; auto.
  - destruct PK as [PX PB]. cbn [xd bpr] in *. pose proof (nbuf_range o) as NB.
    constructor; cbn [px pp0 pp1 pp2 prows ptx pat ppseudo par_s xd bpr]; auto; try lia.
    + fold (nbuf o). destruct (Z.ltb_spec (Z.of_nat (length (prows (d_pd s3)))) (nbuf o * n)); [|lia]. rewrite app_length, map_length, seq_length. nia.
    + left. reflexivity.
    + apply dsafe_np. apply dsafe_restart. apply st_ok_zero.
  - split; [cbn; lia|constructor].
  - lia.
  - left. auto.
Qed.

Lemma start_safe junk s r s2 : bytes (d_hdr s) -> 0 < d_max_xd s <= 4294967288 -> extract_bih s = (r, s2) -> r = OK ->
  body (start_image junk s2).
Proof.
  intros Hb HM E ->. unfold extract_bih in E.
  destruct (_ || _); [discriminate|]. cbv zeta in E. set (w := get32 (field (d_hdr s) 4 4)) in E. pose proof (get32_below _ (bytes_field (d_hdr s) 4 4 Hb)) as Hw. fold w in Hw.
  destruct (_ || _); [discriminate|]. destruct ((w =? 0) || _) eqn:EW; [discriminate|].
  set (y := get32 (field (d_hdr s) 8 4)) in E. set (l := get32 (field (d_hdr s) 12 4)) in E. set (o := nth 19 (d_hdr s) 0) in *. set (m := nth 16 (d_hdr s) 0) in *.
  clearbody w y l o m.
  destruct (y =? 0); [discriminate|]. destruct (_ && _ && _); [discriminate|].
  assert (W : 1 <= w <= 4294967288) by lia.
  destruct (l =? 0); [discriminate|]. destruct (127 <? m); [discriminate|]. destruct (negb (Z.land o _ =? 0)); [discriminate|]. injection E as <-.
  set (s3 := s_options _ o).
  assert (K : forall s3, d_par s3 = mkPar w l m (bpr (d_par s)) -> d_options s3 = o -> d_hdr s3 = d_hdr s -> body (start_image junk s3)).
  { intros s4 EP EO EH. eapply start_body; eauto. rewrite EH. exact Hb. }
  destruct (negb (d_max_yd s =? 0) && _); apply K; reflexivity.
Qed.

Lemma put_safe junk s data : ready s -> bytes data -> exists r s', t85_decode_put junk s data = Ok (r, s') /\ (r <> INVALID_DATA -> ready s').
Proof.
  intros H Hd. unfold t85_decode_put.
  set (len0 := match data with [] => true | _ => false end).
  destruct (len0 && (d_yd s <=? py (d_pd s))); [exists OK, s; auto|].
  destruct (len0 && (0 <? d_eod s)); [exists INVALID_DATA, s; split; [reflexivity|congruence]|].
  set (s1 := if len0 then s_eod s 1 else s).
  assert (H1 : ready s1).
  { unfold s1. destruct len0; [|exact H]. destruct H as [H|[H0 H]]; [left; exact H|right; split; [exact H0|apply eod_body, H]]. }
  clearbody s1. clear H. destruct H1 as [(A1 & A2 & A3 & A4)|[A1 A2]].
  - replace (d_bie_len s1 <? 20) with true by lia. set (i := Z.to_nat (20 - d_bie_len s1)). cbv zeta.
    set (s2 := s_hdr s1 (d_hdr s1 ++ firstn i data)).
    assert (B2 : bytes (d_hdr s2)) by (apply bytes_app; [exact A3|apply bytes_firstn, Hd]).
    destruct (Z.ltb_spec (d_bie_len s2) 20).
    + exists MORE_DATA, s2. split; [reflexivity|]. intros _. left. split; [reflexivity|]. split; [assumption|]. split; [exact B2|exact A4].
    + destruct (extract_bih s2) as [r s3] eqn:E. destruct r; try (eexists _, _; split; [reflexivity|]; congruence).
      * exfalso. revert E. unfold extract_bih. destruct (_ || _); [congruence|]. cbv zeta. destruct (_ || _); [congruence|]. destruct (_ || _); [congruence|].
        destruct (_ =? 0); [congruence|]. destruct (_ && _ && _); [congruence|]. destruct (_ =? 0); [congruence|]. destruct (127 <? _); [congruence|]. destruct (negb (Z.land (nth 19 _ _) _ =? 0)); congruence.
      * assert (EB : d_bie_len (start_image junk s3) = d_bie_len s2).
        { revert E. unfold extract_bih. destruct (_ || _); [discriminate|]. cbv zeta. destruct (_ || _); [discriminate|]. destruct (_ || _); [discriminate|].
          destruct (_ =? 0); [discriminate|]. destruct (_ && _ && _); [discriminate|]. destruct (_ =? 0); [discriminate|]. destruct (127 <? _); [discriminate|]. destruct (negb (Z.land (nth 19 _ _) _ =? 0)); [discriminate|].
          intros E. injection E as <-. destruct (_ && _); reflexivity. }
        pose proof (start_safe junk s2 _ s3 B2 A4 E eq_refl) as B3.
        destruct (bid_loop_safe (bid_fuel data) _ (skipn i data) B3 (bytes_skipn _ _ Hd)) as (r & s' & E' & B').
        { apply turns_fuel; [exact B3|]. rewrite skipn_length. lia. }
        exists r, s'. split; [exact E'|]. intros _. right. split; [|exact B']. rewrite (bie_loop _ _ _ _ _ E'), EB. assumption.
      * exfalso. revert E. unfold extract_bih. destruct (_ || _); [congruence|]. cbv zeta. destruct (_ || _); [congruence|]. destruct (_ || _); [congruence|].
        destruct (_ =? 0); [congruence|]. destruct (_ && _ && _); [congruence|]. destruct (_ =? 0); [congruence|]. destruct (127 <? _); [congruence|]. destruct (negb (Z.land (nth 19 _ _) _ =? 0)); congruence.
  - replace (d_bie_len s1 <? 20) with false by lia.
    destruct (bid_loop_safe (bid_fuel data) s1 data A2 Hd (turns_fuel _ _ _ A2 (le_n _))) as (r & s' & E' & B').
    exists r, s'. split; [exact E'|]. intros _. right. split; [|exact B']. rewrite (bie_loop _ _ _ _ _ E'). exact A1.
Qed.
