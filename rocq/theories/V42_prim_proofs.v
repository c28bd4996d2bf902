(** LAP.M: the pieces of the code that send and acknowledge, seen as moves of the abstract sender and receiver. *)
From Coq Require Import ZifyBool ZifyNat.
From Verif Require Import Base V42_model V42_spec V42_rel_proofs.

Lemma R1_q T s g q : R1 T s g -> R1 T s (mkG (gD g) (ga g) (gs g) (gM g) (gr g) q).
Proof. intros H; exact H. Qed.

Lemma t_pos s : rate s = 28800 -> ms_to_bits s T_401 = 28800 /\ ms_to_bits s T_403 = 288000.
Proof. intros H. unfold ms_to_bits. rewrite H. split; reflexivity. Qed.
Lemma t401_start_R0 s g : R0 s g -> R0 (t401_start s) g.
Proof.
  intros H. pose proof H as (_ & _ & (Hr & _) & _). destruct (t_pos s Hr) as (E & _).
  apply R0_timer; [exact H|rewrite E; lia|auto].
Qed.
Lemma t403_start_R0 s g : R0 s g -> R0 (t401_stop_t403_start s) g.
Proof.
  intros H. pose proof H as (_ & _ & (Hr & _) & _). destruct (t_pos s Hr) as (_ & E).
  apply R0_timer; [exact H|rewrite E; lia|auto].
Qed.
Lemma t401_stop_R0 s g : R0 s g -> R0 (t401_stop s) g.
Proof.
  intros H. pose proof H as (H1 & H2 & (Hr & _) & H4 & H5 & H6 & H7 & H8 & H9 & H10).
  split; [exact H1|]. split; [exact H2|]. split; [split; [exact Hr|split; [cbn; lia|cbn; lia]]|]. split; [exact H4|]. split; [exact H5|].
  split; [exact H6|]. split; [exact H7|]. split; [exact H8|]. split; [exact H9|exact H10].
Qed.
Lemma t401_start_RR T s g : RR T s g -> RR T (t401_start s) g.
Proof. intros (H0 & H1). split; [apply t401_start_R0; exact H0|exact H1]. Qed.
Lemma t403_start_RR T s g : RR T s g -> RR T (t401_stop_t403_start s) g.
Proof. intros (H0 & H1). split; [apply t403_start_R0; exact H0|exact H1]. Qed.

Lemma lapm_disconnect_rel T N s g : R0 s g ->
  exists s' g', lapm_disconnect s = Ok s' /\ st s' = RELEASE /\ R0 s' g' /\ (R1 T s g -> R1 T s' g') /\ mvs N g g'.
Proof.
  intros H. unfold lapm_disconnect.
  destruct (tx_unnumbered_rel T (w_st RELEASE s) g N (cmd_addr s) (Z.lor U_DISC U_PF) H (or_introl eq_refl))
    as (s1 & g1 & E & (p & l & Es) & H0 & H1 & Hm).
  rewrite E. cbn [rbind]. exists (t401_start s1), g1. split; [reflexivity|]. split; [subst s1; reflexivity|].
  split; [apply t401_start_R0; exact H0|]. split; [exact H1|exact Hm].
Qed.

Lemma sup_RR T s g N ad k pf : RR T s g -> (k = 0 \/ k = 4 \/ k = 8) -> (pf = 0 \/ pf = 1) ->
  exists s' g', tx_supervisory s ad k pf = Ok s' /\ same_but_ctrl s s' /\ RR T s' g' /\ mvs N g g'.
Proof.
  intros (H0 & H1) Hk Hp. destruct (tx_supervisory_rel T s g N ad k pf H0 (proj1 (proj2 (proj2 H1))) Hk Hp)
    as (s' & g' & E & Hs & H0' & H1' & Hm).
  exists s', g'. split; [exact E|]. split; [exact Hs|]. split; [split; [exact H0'|exact (H1' H1)]|exact Hm].
Qed.
Lemma busy_k s : busy_code s = 0 \/ busy_code s = 4 \/ busy_code s = 8.
Proof. unfold busy_code. destruct (local_busy s); auto. Qed.
Lemma same_st s s' : same_but_ctrl s s' -> st s' = st s.
Proof. intros (p & l & ->). reflexivity. Qed.

(** fetching a message from the application *)
Lemma data_cons_nil t : data (Got [] :: t) = data t.
Proof. reflexivity. Qed.
Lemma tx_information_frame_rel T N s g : RR T s g ->
  exists s' b e g', tx_information_frame s = Ok (s', b, e) /\ RR T s' g' /\ mvs N g g' /\ frames e = [] /\ puts e = [] /\
    st s' = st s /\ gq g' = gq g /\ (b = true -> gs g' < Z.of_nat (length (gD g'))).
Proof.
  intros (H0 & H1). unfold tx_information_frame.
  pose proof H0 as (Hc & Hq & Ht & Hcfg & Hlim & Hconf & Hil & His & Happ & (B0 & B1 & B2 & B3 & B4 & B5)).
  pose proof H1 as (Ha & Hs & Hr & Hia & Hig & Hip & HD & Hsl & HT).
  rewrite Hlim. cbn [txk txn default_limits].
  destruct (far_busy s || (15 <=? Z.land (vs s - va s) 0x7F)) eqn:Ew.
  { exists s, false, [], g. split; [reflexivity|]. split; [split; assumption|]. split; [apply mvs_nil|]. repeat split; auto. discriminate. }
  destruct (Z.eqb_spec (info_get s) (info_put s)) as [Eg|Eg]; cbn [negb].
  2:{ exists s, true, [], g. split; [reflexivity|]. split; [split; assumption|]. split; [apply mvs_nil|].
      split; [reflexivity|]. split; [reflexivity|]. split; [reflexivity|]. split; [reflexivity|]. intros _.
      destruct (Z.eq_dec (gs g) (Z.of_nat (length (gD g)))) as [e|]; [|lia]. exfalso. apply Eg. rewrite Hig, Hip, e. reflexivity. }
  assert (Hp16 : 0 <= info_put s < 16) by (rewrite Hip; apply Z.mod_pos_bound; lia).
  unfold INFO_FRAMES. rewrite (wrap16 _ Hp16).
  destruct (((info_put s + 1) mod 16 =? info_get s) || ((info_put s + 1) mod 16 =? info_acked s)) eqn:En.
  { exists s, false, [], g. split; [reflexivity|]. split; [split; assumption|]. split; [apply mvs_nil|]. repeat split; auto. discriminate. }
  apply orb_false_iff in En. destruct En as (_ & En). apply Z.eqb_neq in En.
  assert (Hroom : Z.of_nat (length (gD g)) < ga g + 15).
  { destruct (Z.eq_dec (Z.of_nat (length (gD g))) (ga g + 15)) as [e|]; [|lia]. exfalso. apply En.
    rewrite Hip, Hia, e. clear. Z.div_mod_to_equations; lia. }
  assert (Happ' : forall x t, app s = x :: t -> R0 (w_app t s) g).
  { intros x t E. split; [exact Hc|]. split; [exact Hq|]. split; [exact Ht|]. split; [exact Hcfg|]. split; [exact Hlim|].
    split; [exact Hconf|]. split; [exact Hil|]. split; [exact His|]. split; [|repeat split; assumption].
    cbn [app w_app]. rewrite E in Happ. inversion Happ; assumption. }
  destruct (app s) as [|x t] eqn:Ea.
  { exists s, false, [], g. split; [reflexivity|]. split; [split; assumption|]. split; [apply mvs_nil|]. repeat split; auto. discriminate. }
  specialize (Happ' x t eq_refl).
  assert (Hkeep : data (x :: t) = data t -> RR T (w_app t s) g).
  { intros Ed. split; [exact Happ'|]. split; [exact Ha|]. split; [exact Hs|]. split; [exact Hr|]. split; [exact Hia|].
    split; [exact Hig|]. split; [exact Hip|]. split; [exact HD|]. split; [exact Hsl|]. cbn [app w_app]. rewrite <- Ed. exact HT. }
  destruct x as [[|b0 d0]|].
  { exists (w_app t s), false, [], g. split; [reflexivity|]. split; [apply Hkeep; reflexivity|]. split; [apply mvs_nil|]. repeat split; auto. discriminate. }
  2:{ exists (w_app t s), false, [Status LINK_ERROR], g. split; [reflexivity|]. split; [apply Hkeep; reflexivity|]. split; [apply mvs_nil|]. repeat split; auto. discriminate. }
  clear Hkeep. set (d := b0 :: d0) in *.
  assert (Hdl : (1 <= length d <= 128)%nat).
  { apply Forall_inv in Happ. split; [unfold d; cbn [length]; lia|exact Happ]. }
  replace (128 <? Z.of_nat (length d)) with false by lia.
  rewrite fget_ok by lia. cbn [rbind].
  pose proof (sized_nth (info_buf s) (info_put s) His ltac:(lia)) as (Hb & _).
  rewrite ablit_ok by (try lia; rewrite Hb; change (Z.to_nat 3) with 3%nat; lia). cbn [rbind].
  rewrite fset_ok by lia. cbn [rbind]. change (Z.to_nat 3) with 3%nat.
  set (buf := firstn 3 (fbuf (fnth (info_buf s) (info_put s))) ++ d ++ skipn (3 + length d) (fbuf (fnth (info_buf s) (info_put s)))).
  assert (Hbuf : length buf = 132%nat) by (unfold buf; rewrite ablit_len by lia; exact Hb).
  set (l' := upd (info_buf s) (Z.to_nat (info_put s)) (mkF (Z.of_nat (length d) + 3) buf)).
  exists (w_info_put ((info_put s + 1) mod 16) (w_info_buf l' (w_app t s))), true, [],
    (mkG (gD g ++ [d]) (ga g) (gs g) (gM g) (gr g) (gq g)).
  split; [reflexivity|]. split; [|split; [apply mvs_one, mv_fetch; exact Hroom|repeat split]].
  2:{ intros _. cbn [gs gD]. rewrite app_length. cbn [length]. lia. }
  destruct Happ' as (_ & _ & _ & _ & _ & _ & _ & _ & Happ'' & _). split.
  - split; [exact Hc|]. split; [exact Hq|]. split; [exact Ht|]. split; [exact Hcfg|]. split; [exact Hlim|].
    split; [exact Hconf|]. split; [cbn [info_buf w_info_buf w_info_put w_app]; unfold l'; rewrite upd_length; exact Hil|].
    split. { cbn [info_buf w_info_buf w_info_put w_app]. unfold l'. apply Forall_upd; [exact His|]. split; cbn [fbuf flen]; [exact Hbuf|lia]. }
    split; [exact Happ''|]. unfold bnd. cbn [gD ga gs gM gr]. rewrite app_length. cbn [length]. lia.
  - unfold R1. cbn [gD ga gs gM gr gq va vs vr info_acked info_get info_put info_buf app w_info_buf w_info_put w_app].
    split; [exact Ha|]. split; [exact Hs|]. split; [exact Hr|]. split; [exact Hia|]. split; [exact Hig|].
    split. { rewrite app_length. cbn [length]. rewrite Hip. clear. Z.div_mod_to_equations; lia. }
    split. { apply Forall_app. split; [exact HD|]. constructor; [exact Hdl|constructor]. }
    split.
    + intros i Hi. rewrite app_length in Hi. cbn [length] in Hi.
      unfold dn. cbn [gD]. destruct (Z.eq_dec i (Z.of_nat (length (gD g)))) as [->|Hne].
      * rewrite Nat2Z.id, app_nth2, Nat.sub_diag by lia. cbn [nth]. rewrite <- Hip. unfold l'. rewrite fnth_upd_same by lia.
        split; cbn [flen fbuf]; [lia|]. unfold buf.
        replace (skipn 3 (firstn 3 (fbuf (fnth (info_buf s) (info_put s))) ++ d ++ skipn (3 + length d) (fbuf (fnth (info_buf s) (info_put s)))))
          with (d ++ skipn (3 + length d) (fbuf (fnth (info_buf s) (info_put s)))).
        2:{ rewrite skipn_app, firstn_length. replace (Nat.min 3 (length (fbuf (fnth (info_buf s) (info_put s))))) with 3%nat by lia.
            assert (Enil : skipn 3 (firstn 3 (fbuf (fnth (info_buf s) (info_put s)))) = []) by (apply skipn_all2; rewrite firstn_length; lia).
            rewrite Enil. reflexivity. }
        rewrite firstn_app, firstn_all, Nat.sub_diag. cbn [firstn]. apply app_nil_r.
      * rewrite app_nth1 by lia. unfold l'. rewrite fnth_upd_other.
        -- apply Hsl. lia.
        -- lia.
        -- apply Z.mod_pos_bound. lia.
        -- rewrite Hip. clear - Hi Hne Hroom B0 B1 B2 B3. Z.div_mod_to_equations; lia.
    + rewrite HT. cbn [data d]. rewrite <- app_assoc. reflexivity.
Qed.

Lemma information_response_rel T N s g ad pf : RR T s g ->
  exists s' e g', information_response s ad pf = Ok (s', e) /\ RR T s' g' /\ mvs N g g' /\ frames e = [] /\ puts e = [] /\ st s' = st s.
Proof.
  intros H. unfold information_response.
  assert (Hone : exists s1 b e1 g1, (if Z.odd pf then Ok (s, false, []) else tx_information_frame s) = Ok (s1, b, e1) /\
    RR T s1 g1 /\ mvs N g g1 /\ frames e1 = [] /\ puts e1 = [] /\ st s1 = st s).
  { destruct (Z.odd pf).
    - exists s, false, [], g. split; [reflexivity|]. split; [exact H|]. split; [apply mvs_nil|]. auto.
    - destruct (tx_information_frame_rel T N s g H) as (s' & b & e & g' & E & HR & Hm & Hf & Hp & Hst & _).
      exists s', b, e, g'. auto 6. }
  destruct Hone as (s1 & b & e1 & g1 & -> & HR & Hm & Hf & Hp & Hst). cbn [rbind]. destruct b.
  - exists s1, e1, g1. auto 6.
  - destruct (sup_RR T s1 g1 N ad (busy_code s1) 1 HR (busy_k s1) (or_intror eq_refl)) as (s2 & g2 & -> & Hs & HR2 & Hm2).
    cbn [rbind]. exists s2, e1, g2. split; [reflexivity|]. split; [exact HR2|]. split; [eapply mvs_trans; eassumption|].
    split; [exact Hf|]. split; [exact Hp|]. rewrite (same_st _ _ Hs). exact Hst.
Qed.

Lemma reject_info_rel T N s g : RR T s g -> exists g', RR T (reject_info s) g' /\ mvs N g g' /\ st (reject_info s) = st s.
Proof.
  intros (H0 & H1). unfold reject_info. destruct (negb (st s =? DATA)).
  { exists g. split; [split; assumption|]. split; [apply mvs_nil|reflexivity]. }
  exists (mkG (gD g) (ga g) (ga g) (gM g) (gr g) (gq g)).
  pose proof H0 as (Hc & Hq & Ht & Hcfg & Hlim & Hconf & Hil & His & Happ & Hb).
  pose proof H1 as (Ha & Hs & Hr & Hia & Hig & Hip & HD & Hsl & HT).
  split; [|split; [apply mvs_one, mv_back|reflexivity]]. split.
  - split; [exact Hc|]. split; [exact Hq|]. split; [exact Ht|]. split; [exact Hcfg|]. split; [exact Hlim|].
    split; [exact Hconf|]. split; [exact Hil|]. split; [exact His|]. split; [exact Happ|].
    unfold bnd in *. cbn [gD ga gs gM gr]. lia.
  - split; [exact Ha|]. split; [exact Ha|]. split; [exact Hr|]. split; [exact Hia|]. split; [exact Hia|].
    split; [exact Hip|]. split; [exact HD|]. split; [exact Hsl|exact HT].
Qed.

(** acknowledgement *)
Lemma ack_loop_rel T : forall fuel s g n c, RR T s g -> ga g <= n <= gs g -> (Z.to_nat (n - ga g) <= fuel)%nat ->
  exists s' c', ack_loop fuel s (n mod 128) c = Ok (s', c') /\ RR T s' (mkG (gD g) n (gs g) (gM g) (gr g) (gq g)) /\ st s' = st s /\ retry s' = retry s.
Proof.
  induction fuel as [|fuel IH]; intros s g n c HR Hn Hf; cbn [ack_loop].
  - exists s, c. split; [reflexivity|]. split; [|auto]. replace n with (ga g) by lia. rewrite eta_q. exact HR.
  - pose proof HR as (H0 & H1).
    pose proof H0 as (Hc & Hq & Ht & Hcfg & Hlim & Hconf & Hil & His & Happ & Hb).
    pose proof H1 as (Ha & Hs & Hr & Hia & Hig & Hip & HD & Hsl & HT).
    unfold bnd in Hb. destruct (Z.eq_dec n (ga g)) as [->|Hne].
    + rewrite Ha, Z.eqb_refl. cbn [negb andb]. exists s, c. split; [reflexivity|]. split; [|auto]. rewrite eta_q. exact HR.
    + assert (Ec : negb (va s =? n mod 128) && negb (info_acked s =? info_get s) = true).
      { rewrite Ha, Hia, Hig. apply andb_true_iff.
        split; apply negb_true_iff, Z.eqb_neq; clear - Hb Hn Hne; Z.div_mod_to_equations; lia. }
      rewrite Ec. destruct (IH (w_va (Z.land (va s + 1) 127) (w_info_acked (wrap (info_acked s) INFO_FRAMES) s))
        (mkG (gD g) (ga g + 1) (gs g) (gM g) (gr g) (gq g)) n (c + 1)) as (s' & c' & E & HR' & Hst & Hre).
      * split.
        -- split; [exact Hc|]. split; [exact Hq|]. split; [exact Ht|]. split; [exact Hcfg|]. split; [exact Hlim|].
           split; [exact Hconf|]. split; [exact Hil|]. split; [exact His|]. split; [exact Happ|]. unfold bnd. cbn [gD ga gs gM gr]. lia.
        -- unfold R1. cbn [gD ga gs gM gr gq va vs vr info_acked info_get info_put info_buf app w_va w_info_acked].
           split. { rewrite land7, Ha. clear. Z.div_mod_to_equations; lia. }
           split; [exact Hs|]. split; [exact Hr|].
           split. { unfold INFO_FRAMES. rewrite wrap16 by (rewrite Hia; apply Z.mod_pos_bound; lia). rewrite Hia. clear. Z.div_mod_to_equations; lia. }
           split; [exact Hig|]. split; [exact Hip|]. split; [exact HD|]. split; [|exact HT].
           intros i Hi. apply Hsl. lia.
      * cbn [ga gs]. lia.
      * cbn [ga]. lia.
      * exists s', c'. auto.
Qed.

Lemma ack_info_rel T s g n : RR T s g -> ga g <= n <= ga g + 15 ->
  exists s' g', ack_info s (n mod 128) = Ok s' /\ RR T s' g' /\ mvs (Some n) g g' /\ (st s' = st s \/ st s' = RELEASE).
Proof.
  intros HR Hn. unfold ack_info. pose proof HR as (H0 & H1).
  pose proof H0 as (_ & _ & _ & _ & Hlim & _ & _ & _ & _ & Hb). unfold bnd in Hb.
  pose proof H1 as (Ha & Hs & _). rewrite Hlim. cbn [txk default_limits]. rewrite !land7, Ha, Hs.
  destruct (Z.leb_spec n (gs g)) as [Hle|Hgt].
  - replace (((n mod 128 - ga g mod 128) mod 128 + (gs g mod 128 - n mod 128) mod 128 <=? 15) &&
      ((gs g mod 128 - ga g mod 128) mod 128 <=? 15)) with true.
    2:{ symmetry. apply andb_true_iff. split; apply Z.leb_le; clear - Hb Hn Hle; Z.div_mod_to_equations; lia. }
    cbn [negb]. destruct (ack_loop_rel T (Z.to_nat INFO_FRAMES) s g n 0 HR ltac:(lia) ltac:(unfold INFO_FRAMES; lia))
      as (s' & c & -> & HR' & Hst & Hre). cbn [rbind].
    assert (Hm : mvs (Some n) g (mkG (gD g) n (gs g) (gM g) (gr g) (gq g))) by (apply mvs_one, mv_ack; [reflexivity|lia]).
    destruct ((0 <? c) && (retry s' =? 0)).
    + destruct (negb _).
      * eexists. exists (mkG (gD g) n (gs g) (gM g) (gr g) (gq g)). split; [reflexivity|]. split; [|split; [exact Hm|left; exact Hst]].
        apply t401_start_RR, t403_start_RR. exact HR'.
      * eexists. exists (mkG (gD g) n (gs g) (gM g) (gr g) (gq g)). split; [reflexivity|]. split; [|split; [exact Hm|left; exact Hst]].
        apply t403_start_RR. exact HR'.
    + eexists. exists (mkG (gD g) n (gs g) (gM g) (gr g) (gq g)). split; [reflexivity|]. split; [exact HR'|]. split; [exact Hm|left; exact Hst].
  - replace (((n mod 128 - ga g mod 128) mod 128 + (gs g mod 128 - n mod 128) mod 128 <=? 15)) with false.
    2:{ symmetry. apply Z.leb_gt. clear - Hb Hn Hgt; Z.div_mod_to_equations; lia. }
    cbn [andb negb]. destruct (lapm_disconnect_rel T (Some n) s g H0) as (s' & g' & E & Hst & H0' & H1' & Hm).
    exists s', g'. split; [exact E|]. split; [split; [exact H0'|exact (H1' H1)]|]. split; [exact Hm|right; exact Hst].
Qed.
