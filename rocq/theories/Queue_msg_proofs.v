(** Messages: framing, one thread (C19) and two threads (C20). *)
From Coq Require Import ZifyBool ZifyNat.
From Verif Require Import Base Queue_model Queue_spec Queue_proofs Queue_sys_proofs.

Definition enc (m : list Z) : list Z := u16_octets (len m) ++ m.
Fixpoint encs (ms : list (list Z)) : list Z :=
  match ms with [] => [] | m :: t => enc m ++ encs t end.
Definition small (m : list Z) : Prop := len m < 65536.
Definition Pm (W : list Z) : Prop := exists ms, Forall small ms /\ W = encs ms.

Lemma len_enc m : len (enc m) = len m + 2.
Proof. unfold enc, u16_octets. rewrite len_app, !len_cons, len_nil. lia. Qed.
Lemma encs_app a b : encs (a ++ b) = encs a ++ encs b.
Proof. induction a; cbn [app encs]; auto. rewrite IHa, app_assoc. reflexivity. Qed.
Lemma len_encs ms : len (encs ms) = cost ms.
Proof. induction ms; cbn [encs cost]; auto. rewrite len_app, len_enc, IHms. lia. Qed.
Lemma cost_pos ms : 0 <= cost ms.
Proof. rewrite <- len_encs. apply len_pos. Qed.
Lemma cost_app a b : cost (a ++ b) = cost a + cost b.
Proof. induction a; cbn [app cost]; lia. Qed.
Lemma cost_0 ms : cost ms = 0 -> ms = [].
Proof. destruct ms; auto. cbn [cost]. pose proof (cost_pos ms). pose proof (len_pos l). lia. Qed.

Lemma app_inj_lenZ (a b x y : list Z) : len a = len b -> a ++ x = b ++ y -> a = b /\ x = y.
Proof.
  revert b. induction a as [|v a IH]; intros [|w b] Hl H; cbn [app] in *.
  - auto.
  - unfold len in Hl. cbn in Hl. lia.
  - unfold len in Hl. cbn in Hl. lia.
  - injection H as -> H. rewrite !len_cons in Hl. destruct (IH b) as [-> ->]; auto. lia.
Qed.

(** Messages are a prefix code. *)
Lemma encs_prefix a : forall b x, Forall small a -> Forall small b -> encs a ++ x = encs b ->
  exists r, b = a ++ r /\ x = encs r.
Proof.
  induction a as [|m a IH]; intros b x Ha Hb E.
  - exists b. auto.
  - destruct b as [|m' b].
    + apply (f_equal len) in E. cbn [encs] in E. rewrite !len_app, len_enc, len_nil in E.
      pose proof (len_pos m). pose proof (len_pos (encs a)). pose proof (len_pos x). lia.
    + inversion Ha; subst. inversion Hb; subst. cbn [encs] in E. unfold enc in E.
      rewrite <- !app_assoc in E. unfold u16_octets in E. cbn [app] in E.
      injection E as E1 E2 E3. unfold small in *.
      assert (El : len m = len m').
      { rewrite (Z.div_mod (len m) 256), (Z.div_mod (len m') 256) by lia. lia. }
      apply app_inj_lenZ in E3; auto. destruct E3 as [-> E3].
      destruct (IH b x) as (r & -> & ->); auto. exists r. auto.
Qed.

Lemma u16_value_octets n rest : 0 <= n < 65536 -> u16_value (take 2 (u16_octets n ++ rest)) = n.
Proof.
  intros H. change (n mod 256 + 256 * (n / 256) = n).
  pose proof (Z.div_mod n 256). lia.
Qed.

Section Msg.
Variable c : qconf.
Notation L := (qlen c).
Hypothesis HL : 0 < L.

Definition Qwm (b : list Z) (n : Z) (W : list Z) (R : Z) (r : qres) (W' : list Z) (R' : Z) : Prop :=
  R <= R' <= len W /\ len W - R' <= L - 1 /\ len W' - R' <= L - 1 /\
  ((n + 2 <= L - 1 - (len W - R') /\ r = (n, []) /\ W' = W ++ enc (take n b)) \/
   (L - 1 - (len W - R') < n + 2 /\ r = (-1, []) /\ W' = W)).

Lemma write_msg_gen (P : list Z -> Prop) b n W R hdr : 0 <= R <= len W -> len W - R <= L - 1 ->
  0 <= n <= len b -> n + 2 <= 2147483647 -> hdr = u16_octets (u16 n) -> P (W ++ hdr ++ take n b) ->
  wsafe c P (queue_write_msg c b n) W R [] (fun r W' R' =>
    R <= R' <= len W /\ len W - R' <= L - 1 /\ len W' - R' <= L - 1 /\
    ((n + 2 <= L - 1 - (len W - R') /\ r = (n, []) /\ W' = W ++ hdr ++ take n b) \/
     (L - 1 - (len W - R') < n + 2 /\ r = (-1, []) /\ W' = W))).
Proof.
  intros HR HC Hn Hov Hh HP. unfold queue_write_msg. cbn [wsafe]. intros R' h1 h2. rewrite (ptr_free c HL P W R') by lia.
  replace (2147483647 <? n + 2) with false by lia.
  pose proof (Z.mod_pos_bound (len W) L HL) as Hip. pose proof (Z.mod_pos_bound R' L HL) as Hop.
  pose proof (diff_cases L (len W) R' HL ltac:(lia)) as Hd.
  set (room := L - 1 - (len W - R')) in *.
  destruct (Z.ltb_spec room (n + 2)).
  - cbn [wsafe]. split; [lia|]. split; [lia|]. split; [lia|]. right. auto.
  - rewrite <- Hh. assert (H2 : len hdr = 2) by (rewrite Hh; reflexivity).
    assert (Hend : forall p, p = W ++ hdr ++ take n b -> 
      R <= R' <= len W /\ len W - R' <= L - 1 /\ len p - R' <= L - 1 /\
      ((n + 2 <= room /\ (n, []) = (n, @nil Z) /\ p = W ++ hdr ++ take n b) \/
       (room < n + 2 /\ (n, []) = (-1, @nil Z) /\ p = W))).
    { intros p ->. rewrite !len_app, H2, len_take by lia. split; [lia|]. split; [lia|]. split; [lia|].
      left. split; [lia|]. auto. }
    assert (Ht : len (take n b) = n) by (apply len_take; lia).
    assert (Hh2 : take 2 hdr = hdr) by (apply take_len; lia).
    set (iw := len W mod L) in *.
    destruct ((iw <? R' mod L) || (n + 2 <=? L - iw)) eqn:Eb.
    + apply memcpy_to_safe; rewrite ?len_nil, ?Z.add_0_r; try lia; try (right; reflexivity).
      cbn [app]. rewrite drop_0, Hh2.
      apply memcpy_to_safe; rewrite ?H2; try lia.
      { destruct (Z.eq_dec n 0); [left; lia|right]. rewrite pos_add; fold iw; lia. }
      rewrite drop_0. cbn [wsafe]. rewrite len_app, H2, Ht.
      split.
      { destruct (Z.leb_spec L (iw + (n + 2))); [rewrite pos_wrap|rewrite pos_add]; fold iw; lia. }
      split; [exact HP|]. split; [eauto|]. apply Hend. reflexivity.
    + destruct (Z.leb_spec 2 (L - iw)).
      * apply memcpy_to_safe; rewrite ?len_nil, ?Z.add_0_r; try lia; try (right; reflexivity).
        cbn [app]. rewrite drop_0, Hh2.
        assert (Hl1 : len (take (L - iw - 2) b) = L - iw - 2) by (apply len_take; lia).
        apply memcpy_to_safe; rewrite ?H2; try lia.
        { destruct (Z.eq_dec (L - iw) 2); [left; lia|right]. rewrite pos_add; fold iw; lia. }
        rewrite drop_0.
        apply memcpy_to_safe; rewrite ?len_app, ?H2, ?Hl1; try lia.
        { right. rewrite pos_wrap; fold iw; lia. }
        cbn [wsafe].
        assert (Ej : (hdr ++ take (L - iw - 2) b) ++ take (n + 2 - (L - iw)) (drop (L - iw - 2) b) = hdr ++ take n b).
        { rewrite <- app_assoc. f_equal. replace (n + 2 - (L - iw)) with (n - (L - iw - 2)) by lia.
          apply take_join. lia. }
        rewrite Ej. split; [|split; [exact HP|split; [eauto|apply Hend; reflexivity]]].
        rewrite len_app, H2, Ht. rewrite pos_wrap; fold iw; lia.
      * assert (H1 : L - iw = 1) by lia.
        apply memcpy_to_safe; rewrite ?len_nil, ?Z.add_0_r; try lia; try (right; reflexivity).
        cbn [app]. rewrite drop_0.
        assert (Hl1 : len (take (L - iw) hdr) = L - iw) by (apply len_take; lia).
        apply memcpy_to_safe; rewrite ?Hl1; try lia.
        { right. rewrite pos_wrap; fold iw; lia. }
        replace (2 - (L - iw)) with (2 - (L - iw)) by lia. rewrite take_join by lia. rewrite Hh2.
        apply memcpy_to_safe; rewrite ?H2; try lia.
        { right. rewrite pos_wrap; fold iw; lia. }
        rewrite drop_0. cbn [wsafe]. rewrite len_app, H2, Ht.
        split; [|split; [exact HP|split; [eauto|apply Hend; reflexivity]]].
        rewrite pos_wrap; fold iw; lia.
Qed.

Lemma Pm_snoc W m : Pm W -> small m -> Pm (W ++ enc m).
Proof.
  intros (ms & h1 & ->) Hm. exists (ms ++ [m]). split; [apply Forall_app; auto|].
  rewrite encs_app. cbn [encs]. rewrite app_nil_r. reflexivity.
Qed.

Lemma write_msg_safe b n W R : 0 <= R <= len W -> len W - R <= L - 1 -> Pm W ->
  0 <= n <= len b -> n < 65536 ->
  wsafe c Pm (queue_write_msg c b n) W R [] (Qwm b n W R).
Proof.
  intros HR HC HP Hn Hs. assert (Ht : len (take n b) = n) by (apply len_take; lia).
  assert (Hu : u16 n = n) by (unfold u16; apply Z.mod_small; lia).
  eapply wsafe_mono; [|apply (write_msg_gen Pm b n W R (u16_octets (u16 n))); auto; try lia].
  - intros r W' R' H. unfold Qwm, enc. rewrite Ht. rewrite Hu in H. exact H.
  - pose proof (Pm_snoc W (take n b) HP) as H. unfold enc, small in H. rewrite Ht in H. rewrite Hu. auto.
Qed.

(** What a reader at a message boundary sees. *)
Lemma boundary done W : Forall small done -> Pm W -> (exists x, W = encs done ++ x) ->
  exists ms, Forall small ms /\ W = encs (done ++ ms) /\ drop (len (encs done)) W = encs ms.
Proof.
  intros Hd (ms & h1 & h2) (x & hx). rewrite h2 in hx. symmetry in hx.
  destruct (encs_prefix _ _ _ Hd h1 hx) as (r & -> & ->).
  exists r. apply Forall_app in h1. split; [tauto|]. split; [assumption|].
  rewrite h2, encs_app, drop_app by (pose proof (len_pos (encs done)); lia). rewrite drop_len. reflexivity.
Qed.

Definition Qrm (n : Z) (done : list (list Z)) (W : list Z) (r : qres) (W' : list Z) (R' : Z) : Prop :=
  (exists X, W' = W ++ X) /\ Pm W' /\ exists ms, Forall small ms /\ W' = encs (done ++ ms) /\
  match ms with
  | [] => r = (-1, []) /\ R' = len (encs done)
  | m :: t => r = (Z.min (len m) n, take n m) /\ R' = len (encs (done ++ [m]))
  end.

Lemma read_msg_safe n done W : Forall small done -> (exists x, W = encs done ++ x) -> 0 <= n ->
  rsafe c Pm (queue_read_msg c n) W (len (encs done)) (Qrm n done W).
Proof.
  intros Hd (x & Hx) Hn. set (R := len (encs done)).
  assert (HR : 0 <= R <= len W).
  { unfold R. rewrite Hx, len_app. pose proof (len_pos (encs done)). pose proof (len_pos x). lia. }
  unfold queue_read_msg. apply rsafe_bind; auto.
  eapply (rsafe_mono c HL); [|apply (read_safe c HL Pm true 2 W R HR); lia].
  intros r W1 R1 ((X1 & e1) & hp1 & hc1 & hm).
  destruct (boundary done W1 Hd hp1) as (ms & hs & hw & hdr).
  { exists (x ++ X1). rewrite e1, Hx, app_assoc. reflexivity. }
  fold R in hdr.
  assert (Hl1 : len W1 - R = cost ms).
  { rewrite hw, encs_app, len_app, (len_encs ms). unfold R. lia. }
  rewrite Hl1 in hm. destruct ms as [|m ms].
  - assert (Hz : amount (ratomic c) (cost []) 2 = if ratomic c then None else Some 0) by reflexivity.
    rewrite Hz in hm. destruct (ratomic c).
    + destruct hm as (-> & ->). cbn [fst snd Z.eqb negb rsafe].
      split; [eauto|]. split; [assumption|]. exists []. auto.
    + destruct hm as (_ & -> & ->). cbn [fst snd Z.eqb negb rsafe].
      split; [eauto|]. split; [assumption|]. exists []. repeat split; auto. fold R. lia.
  - pose proof (cost_pos ms) as Hcp. pose proof (len_pos m) as Hlm. inversion hs as [|? ? hs1 hs2]; subst x0 l.
    unfold small in hs1.
    assert (Hz : amount (ratomic c) (cost (m :: ms)) 2 = Some 2).
    { unfold amount. destruct (Z.ltb_spec (cost (m :: ms)) 2); [cbn [cost] in *; lia|reflexivity]. }
    rewrite Hz in hm. destruct hm as (_ & -> & ->). cbn [fst snd Z.eqb Pos.eqb negb delivered].
    assert (Hv : u16_value (take 2 (encs (m :: ms))) = len m).
    { cbn [encs]. unfold enc. rewrite <- app_assoc. apply u16_value_octets. lia. }
    rewrite hdr, Hv.
    (* what the rest of the message looks like in any later stream *)
    assert (Hlater : forall W2 X2, W2 = W1 ++ X2 -> drop (R + 2) W2 = m ++ encs ms ++ X2 /\
              len W2 - (R + 2) = len m + cost ms + len X2).
    { intros W2 X2 ->.
      assert (E : drop R (W1 ++ X2) = encs (m :: ms) ++ X2).
      { rewrite drop_app; [rewrite hdr; reflexivity|]. cbn [cost] in Hl1; lia. }
      split.
      - rewrite <- drop_drop by lia. rewrite E. cbn [encs]. unfold enc. rewrite <- !app_assoc.
        unfold u16_octets, drop. reflexivity.
      - rewrite len_app. cbn [cost] in Hl1. lia. }
    assert (Henc : len (encs (done ++ [m])) = R + 2 + len m).
    { rewrite len_encs, cost_app. cbn [cost]. unfold R. rewrite len_encs. lia. }
    assert (HR2 : 0 <= R + 2 <= len W1) by (cbn [cost] in Hl1; lia).
    assert (Hfin : forall W2 X2 , W2 = W1 ++ X2 -> Pm W2 ->
       (exists X, W2 = W ++ X) /\ Pm W2 /\ exists ms', Forall small (m :: ms') /\ W2 = encs (done ++ m :: ms')).
    { intros W2 X2 E hp2. split; [rewrite E, e1, <- app_assoc; eauto|]. split; [assumption|].
      destruct (boundary (done ++ [m]) W2) as (r2 & g1 & g2 & _); auto.
      - apply Forall_app. auto.
      - exists (encs ms ++ X2). rewrite E, hw, app_assoc, <- encs_app, <- app_assoc. reflexivity.
      - exists r2. split; [auto|]. rewrite g2, <- app_assoc. reflexivity. }
    destruct (Z.eqb_spec (len m) 0) as [H0|H0].
    + cbn [rsafe]. destruct (Hfin W1 [] ltac:(rewrite app_nil_r; reflexivity) hp1) as (k1 & k2 & ms' & k3 & k4).
      split; [assumption|]. split; [assumption|]. exists (m :: ms'). split; [assumption|]. split; [assumption|].
      rewrite Henc. apply len_0 in H0. subst m. rewrite len_nil.
      split; [|lia]. rewrite Z.min_l by lia. unfold take. rewrite firstn_nil. reflexivity.
    + destruct (Z.ltb_spec n (len m)) as [Hlt|Hge].
      * apply rsafe_bind; auto.
        eapply (rsafe_mono c HL); [|apply (read_safe c HL Pm true n W1 (R + 2) HR2); lia].
        intros r2 W2 R2 ((X2 & e2) & hp2 & hc2 & hm2).
        destruct (Hlater W2 X2 e2) as (d1 & d2). pose proof (len_pos X2).
        rewrite d2 in hm2. unfold amount in hm2.
        destruct (Z.ltb_spec (len m + cost ms + len X2) n); [lia|].
        destruct hm2 as (_ & -> & ->). cbn [fst delivered].
        apply rsafe_bind; auto.
        eapply (rsafe_mono c HL); [|apply (read_safe c HL Pm false (len m - n) W2 (R + 2 + n)); lia].
        intros r3 W3 R3 ((X3 & e3) & hp3 & hc3 & hm3). pose proof (len_pos X3).
        assert (Hl3 : len W3 = len W2 + len X3) by (rewrite e3, len_app; lia).
        unfold amount in hm3. destruct (Z.ltb_spec (len W3 - (R + 2 + n)) (len m - n)); [lia|].
        destruct hm3 as (_ & -> & ->). cbn [rsafe].
        destruct (Hfin W3 (X2 ++ X3) ltac:(rewrite e3, e2, <- app_assoc; reflexivity) hp3) as (k1 & k2 & ms' & k3 & k4).
        split; [assumption|]. split; [assumption|]. exists (m :: ms'). split; [assumption|]. split; [assumption|].
        rewrite Henc, d1. rewrite take_app by lia. split; [|lia]. rewrite Z.min_r by lia. reflexivity.
      * eapply (rsafe_mono c HL); [|apply (read_safe c HL Pm true (len m) W1 (R + 2) HR2); lia].
        intros r2 W2 R2 ((X2 & e2) & hp2 & hc2 & hm2).
        destruct (Hlater W2 X2 e2) as (d1 & d2). pose proof (len_pos X2).
        rewrite d2 in hm2. unfold amount in hm2.
        destruct (Z.ltb_spec (len m + cost ms + len X2) (len m)); [lia|].
        destruct hm2 as (_ & -> & ->). cbn [delivered].
        destruct (Hfin W2 X2 e2 hp2) as (k1 & k2 & ms' & k3 & k4).
        split; [assumption|]. split; [assumption|]. exists (m :: ms'). split; [assumption|]. split; [assumption|].
        rewrite Henc, d1. rewrite take_app by lia. rewrite !take_len by lia.
        split; [|lia]. rewrite Z.min_l by lia. reflexivity.
Qed.

Definition Qrt (done : list (list Z)) (W : list Z) (r : qres) (W' : list Z) (R' : Z) : Prop :=
  (exists X, W' = W ++ X) /\ Pm W' /\ R' = len (encs done) /\
  exists ms, Forall small ms /\ W' = encs (done ++ ms) /\
  r = (match ms with [] => -1 | m :: _ => len m end, []).

Lemma test_msg_safe done W : Forall small done -> (exists x, W = encs done ++ x) ->
  rsafe c Pm (queue_state_test_msg c) W (len (encs done)) (Qrt done W).
Proof.
  intros Hd (x & Hx). set (R := len (encs done)).
  assert (HR : 0 <= R <= len W).
  { unfold R. rewrite Hx, len_app. pose proof (len_pos (encs done)). pose proof (len_pos x). lia. }
  unfold queue_state_test_msg. apply rsafe_bind; auto.
  eapply (rsafe_mono c HL); [|apply (view_safe c HL Pm 2 W R HR); lia].
  intros r W1 R1 ((X1 & e1) & hp1 & hc1 & hm).
  destruct (boundary done W1 Hd hp1) as (ms & hs & hw & hdr).
  { exists (x ++ X1). rewrite e1, Hx, app_assoc. reflexivity. }
  fold R in hdr.
  assert (Hl1 : len W1 - R = cost ms).
  { rewrite hw, encs_app, len_app, (len_encs ms). unfold R. lia. }
  rewrite Hl1 in hm. unfold Qrt. destruct ms as [|m ms].
  - assert (Hz : amount (ratomic c) (cost []) 2 = if ratomic c then None else Some 0) by reflexivity.
    rewrite Hz in hm. destruct (ratomic c).
    + destruct hm as (-> & ->). cbn [fst snd Z.eqb negb rsafe].
      split; [eauto|]. split; [assumption|]. split; [reflexivity|]. exists []. auto.
    + destruct hm as (_ & -> & ->). cbn [fst snd Z.eqb negb rsafe].
      split; [eauto|]. split; [assumption|]. split; [reflexivity|]. exists []. repeat split; auto.
  - pose proof (cost_pos ms) as Hcp. pose proof (len_pos m) as Hlm. inversion hs as [|? ? hs1 hs2]; subst x0 l.
    unfold small in hs1.
    assert (Hz : amount (ratomic c) (cost (m :: ms)) 2 = Some 2).
    { unfold amount. destruct (Z.ltb_spec (cost (m :: ms)) 2); [cbn [cost] in *; lia|reflexivity]. }
    rewrite Hz in hm. destruct hm as (_ & -> & ->). cbn [fst snd Z.eqb Pos.eqb negb delivered].
    assert (Hv : u16_value (take 2 (encs (m :: ms))) = len m).
    { cbn [encs]. unfold enc. rewrite <- app_assoc. apply u16_value_octets. lia. }
    rewrite hdr, Hv. cbn [rsafe].
    split; [eauto|]. split; [assumption|]. split; [reflexivity|]. exists (m :: ms). auto.
Qed.

(** Flush and the queries, at a message boundary. *)
Definition Qro (o : rop) (done : list (list Z)) (W : list Z) (r : qres) (W' : list Z) (R' : Z) : Prop :=
  (exists X, W' = W ++ X) /\ Pm W' /\
  exists ms, Forall small ms /\ W' = encs (done ++ ms) /\
    mfifo (L - 1) (inr o) ms = (r, if match o with RFlush => true | _ => false end then [] else ms) /\
    R' = if match o with RFlush => true | _ => false end then len W' else len (encs done).

Lemma other_safe o done W : Forall small done -> (exists x, W = encs done ++ x) ->
  o = RFlush \/ o = RFree \/ o = RContents \/ o = REmpty ->
  rsafe c Pm (rcode c o) W (len (encs done)) (Qro o done W).
Proof.
  intros Hd (x & Hx) Ho. set (R := len (encs done)).
  assert (HR : 0 <= R <= len W).
  { unfold R. rewrite Hx, len_app. pose proof (len_pos (encs done)). pose proof (len_pos x). lia. }
  assert (Hs : rsafe c Pm (rcode c o) W R (Qr c Pm o W R)).
  { apply reader_safe; auto; destruct Ho as [->|[->|[->| ->]]]; cbn; auto. }
  eapply (rsafe_mono c HL); [|exact Hs].
  intros r W1 R1 ((X1 & e1) & hp1 & hr1 & hc1 & hm).
  destruct (boundary done W1 Hd hp1) as (ms & hs & hw & hdr).
  { exists (x ++ X1). rewrite e1, Hx, app_assoc. reflexivity. }
  fold R in hdr.
  assert (Hl1 : len W1 - R = cost ms).
  { rewrite hw, encs_app, len_app, (len_encs ms). unfold R. lia. }
  split; [eauto|]. split; [assumption|]. exists ms. split; [assumption|]. split; [assumption|].
  destruct Ho as [->|[->|[->| ->]]]; cbn [fifo mfifo] in *; rewrite ?len_drop in hm by lia; rewrite ?Hl1 in hm;
    injection hm as <- E; split; try reflexivity; apply (f_equal len) in E;
    rewrite ?len_nil in E; rewrite !len_drop in E by lia; try (fold R; lia).
  f_equal. f_equal. destruct ms as [|m ms]; [reflexivity|]. destruct (Z.eqb_spec (cost (m :: ms)) 0) as [E0|]; [|reflexivity].
  apply cost_0 in E0. discriminate.
Qed.

Lemma wother_safe o W R done ms : 0 <= R <= len W -> len W - R <= L - 1 ->
  is_query (inl o) = true -> W = encs (done ++ ms) -> R = len (encs done) ->
  wsafe c Pm (wcode c o) W R [] (fun r W' R' => W' = W /\ (R' = R -> mfifo (L - 1) (inl o) ms = (r, ms))).
Proof.
  intros HR HC Ho HW HRd.
  eapply wsafe_mono; [|apply (wquery_safe c HL Pm); eauto].
  intros r W' R' (q1 & q2 & q3 & q4 & q5).
  assert (W' = W) by (destruct o; try discriminate Ho; rewrite q4; apply app_nil_r).
  split; [assumption|]. intros ->. clear q4. rewrite H in *.
  assert (Hl1 : len W - R = cost ms).
  { rewrite HRd, HW, encs_app, len_app, (len_encs ms). lia. }
  destruct o; try discriminate Ho; cbn [fifo mfifo] in *; rewrite len_drop in q5 by lia; rewrite ?Hl1 in q5;
    injection q5 as <-; try reflexivity.
  destruct ms as [|m ms]; [reflexivity|]. destruct (Z.eqb_spec (cost (m :: ms)) 0) as [E0|]; [|reflexivity].
  apply cost_0 in E0. discriminate.
Qed.
End Msg.

(** ---- C19 ---- *)
Lemma msg_runs c ops : 0 < qlen c -> forall m W done ms,
  minv c m W (len (encs done)) [] -> Forall small (done ++ ms) -> W = encs (done ++ ms) ->
  Forall qvalid ops -> Forall (fun o => is_octet o = false) ops ->
  exists m', runs c ops m = Ok (mfifos (qlen c - 1) ops ms, m').
Proof.
  intros HL. induction ops as [|o t IH]; intros m W done ms Hm Hsm HW Hv Ho; cbn [runs mfifos].
  - eauto.
  - inversion Hv as [|? ? Hv1 Hv2]; subst. inversion Ho as [|? ? Ho1 Ho2]; subst.
    set (W := encs (done ++ ms)) in *.
    pose proof Hm as (h1 & h2 & h3 & h4 & h5 & h6). rewrite len_nil in h3.
    pose proof (proj1 (Forall_app _ _ _) Hsm) as (Hsd & Hss).
    assert (HP : Pm W) by (exists (done ++ ms); auto).
    assert (HWx : exists x, W = encs done ++ x) by (exists (encs ms); unfold W; apply encs_app).
    assert (Hl1 : len W - len (encs done) = cost ms).
    { unfold W. rewrite encs_app, len_app, (len_encs ms). lia. }
    destruct o as [o|o]; cbn [opcode qvalid] in *.
    + assert (Hq : is_query (inl o) = true \/ exists b n, o = WMsg b n).
      { destruct o; try discriminate Ho1; eauto. }
      destruct Hq as [Hq|(b & n & ->)].
      * pose proof (wother_safe c HL o W _ done ms h2 ltac:(lia) Hq eq_refl eq_refl) as Hs.
        destruct (prun_w c HL _ _ _ _ _ _ _ Hs Hm) as (a & m' & W' & e1 & e2 & e3 & e4).
        rewrite e1. cbn [rbind]. rewrite e4 by reflexivity. subst W'.
        destruct (IH m' W done ms e2 Hsm eq_refl Hv2 Ho2) as (m2 & E). rewrite E. cbn [rbind]. eauto.
      * cbn [wvalid] in Hv1. destruct Hv1 as (Hn & Hn2).
        pose proof (write_msg_safe c HL b n W _ h2 ltac:(lia) HP Hn Hn2) as Hs. cbn [wcode].
        destruct (prun_w c HL _ _ _ _ _ _ _ Hs Hm) as (a & m' & W' & e1 & e2 & (_ & _ & _ & e3)).
        rewrite e1. cbn [rbind mfifo]. rewrite Hl1 in e3.
        destruct e3 as [(k1 & -> & k3)|(k1 & -> & k3)].
        -- replace (n + 2 <=? qlen c - 1 - cost ms) with true by lia.
           assert (Hst : small (take n b)) by (unfold small; rewrite len_take; [lia|exact Hn]).
           destruct (IH m' W' done (ms ++ [take n b]) e2) as (m2 & E); auto.
           ++ rewrite app_assoc. apply Forall_app. auto.
           ++ rewrite k3. unfold W. rewrite app_assoc, (encs_app (done ++ ms)). cbn [encs]. rewrite app_nil_r. reflexivity.
           ++ rewrite E. cbn [rbind]. eauto.
        -- replace (n + 2 <=? qlen c - 1 - cost ms) with false by lia.
           destruct (IH m' W' done ms e2) as (m2 & E); auto. rewrite E. cbn [rbind]. eauto.
    + assert (Hq : (o = RFlush \/ o = RFree \/ o = RContents \/ o = REmpty) \/ o = RTest \/ exists n, o = RMsg n).
      { destruct o; try discriminate Ho1; eauto 8. }
      destruct Hq as [Hq|[->|(n & ->)]]; cbn [rcode].
      * pose proof (other_safe c HL o done W Hsd HWx Hq) as Hs.
        destruct (prun_r c HL _ _ _ _ _ _ Hs Hm HP) as (a & m' & R' & e1 & e2 & _ & _ & ms' & e3 & e4 & e5 & e6).
        assert (Ems : ms' = ms).
        { unfold W in e4. symmetry in e4. rewrite <- (app_nil_r (encs (done ++ ms'))) in e4.
          apply encs_prefix in e4; [|apply Forall_app; auto|assumption]. destruct e4 as (r & E & E2).
          symmetry in E2. apply (f_equal len) in E2. rewrite len_encs in E2. apply cost_0 in E2.
          subst r. rewrite app_nil_r in E. apply app_inv_head in E. auto. }
        subst ms'. rewrite e1. cbn [rbind]. rewrite e5.
        destruct Hq as [->|Hq].
        -- cbn in e6 |- *. destruct (IH m' W (done ++ ms) []) as (m2 & E); auto.
           ++ rewrite e6 in e2. exact e2.
           ++ rewrite app_nil_r. assumption.
           ++ rewrite app_nil_r. reflexivity.
           ++ rewrite E. cbn [rbind]. eauto.
        -- assert (R' = len (encs done)) as -> by (destruct Hq as [->|[->| ->]]; exact e6).
           destruct (IH m' W done ms e2 Hsm eq_refl Hv2 Ho2) as (m2 & E).
           destruct Hq as [->|[->| ->]]; rewrite E; cbn [rbind]; eauto.
      * pose proof (test_msg_safe c HL done W Hsd HWx) as Hs.
        destruct (prun_r c HL _ _ _ _ _ _ Hs Hm HP) as (a & m' & R' & e1 & e2 & _ & _ & -> & ms' & e3 & e4 & e5).
        assert (Ems : ms' = ms).
        { unfold W in e4. symmetry in e4. rewrite <- (app_nil_r (encs (done ++ ms'))) in e4.
          apply encs_prefix in e4; [|apply Forall_app; auto|assumption]. destruct e4 as (r & E & E2).
          symmetry in E2. apply (f_equal len) in E2. rewrite len_encs in E2. apply cost_0 in E2.
          subst r. rewrite app_nil_r in E. apply app_inv_head in E. auto. }
        subst ms'. rewrite e1. cbn [rbind mfifo]. rewrite e5.
        destruct (IH m' W done ms e2 Hsm eq_refl Hv2 Ho2) as (m2 & E). rewrite E. cbn [rbind]. eauto.
      * cbn [rvalid] in Hv1. pose proof (read_msg_safe c HL n done W Hsd HWx Hv1) as Hs.
        destruct (prun_r c HL _ _ _ _ _ _ Hs Hm HP) as (a & m' & R' & e1 & e2 & _ & _ & ms' & e3 & e4 & e5).
        assert (Ems : ms' = ms).
        { unfold W in e4. symmetry in e4. rewrite <- (app_nil_r (encs (done ++ ms'))) in e4.
          apply encs_prefix in e4; [|apply Forall_app; auto|assumption]. destruct e4 as (r & E & E2).
          symmetry in E2. apply (f_equal len) in E2. rewrite len_encs in E2. apply cost_0 in E2.
          subst r. rewrite app_nil_r in E. apply app_inv_head in E. auto. }
        subst ms'. rewrite e1. cbn [rbind mfifo]. destruct ms as [|mm ms]; destruct e5 as (-> & ->).
        -- destruct (IH m' W done [] e2 Hsm eq_refl Hv2 Ho2) as (m2 & E). rewrite E. cbn [rbind]. eauto.
        -- destruct (IH m' W (done ++ [mm]) ms) as (m2 & E); auto.
           ++ rewrite <- app_assoc. exact Hsm.
           ++ rewrite <- app_assoc. reflexivity.
           ++ rewrite E. cbn [rbind]. eauto.
Qed.

Theorem msg_all cap flags d ops : 0 <= cap -> len d = cap + 1 ->
  Forall qvalid ops -> Forall (fun o => is_octet o = false) ops ->
  let (c, m) := queue_init cap flags d in
  exists m', runs c ops m = Ok (mfifos cap ops [], m').
Proof.
  intros Hc Hd Hv Ho. cbn [queue_init].
  destruct (msg_runs (mkQC (cap + 1) flags) ops ltac:(cbn; lia) (mkQM 0 0 d) [] [] []) as (m' & E); auto.
  - apply minv_init; cbn; lia.
  - constructor.
  - cbn [qlen] in E. replace (cap + 1 - 1) with cap in E by lia. eauto.
Qed.

(** ---- C20 for messages ---- *)
Section Msg2.
Variable c : qconf.
Notation L := (qlen c).
Hypothesis HL : 0 < L.

Definition Iwm (l : list (wop * qres)) (W : list Z) (R : Z) : Prop :=
  0 <= R <= len W /\ len W - R <= L - 1 /\ Forall small (accepted_msg l) /\ encs (accepted_msg l) = W /\
  room_honest l /\ forall l' n x, l = l' ++ [(WFree, (n, x))] -> n <= L - 1 - (len W - R).
Definition Irm (l : list (rop * qres)) (W : list Z) (R : Z) : Prop :=
  exists done ms, Forall small (done ++ ms) /\ W = encs (done ++ ms) /\ R = len (encs done) /\
  mdelivers l (done ++ ms) ms.

Lemma accepted_msg_snoc l e : accepted_msg (l ++ [e]) = accepted_msg l ++ accepted_msg [e].
Proof. unfold accepted_msg. rewrite flat_map_app. reflexivity. Qed.

Lemma Iwm_call l W R o : Iwm l W R -> wok_msg o ->
  wsafe c Pm (wcode c o) W R [] (fun r W' R' => Iwm (l ++ [(o, r)]) W' R').
Proof.
  intros (h1 & h2 & h3 & h4 & h5 & h6) (Hv & Ho).
  assert (HP : Pm W) by (exists (accepted_msg l); auto).
  assert (Hq : is_query (inl o) = true \/ exists b n, o = WMsg b n).
  { destruct o; try discriminate Ho; eauto. }
  destruct Hq as [Hq|(b & n & ->)].
  - eapply wsafe_mono; [|apply (wquery_safe c HL Pm o W R h1 h2 Hq)].
    intros r W' R' (q1 & q2 & q3 & q4 & q5).
    assert (HW : W' = W) by (destruct o; try discriminate Hq; rewrite q4; apply app_nil_r).
    clear q4. subst W'. unfold Iwm. rewrite accepted_msg_snoc.
    assert (Ha : accepted_msg [(o, r)] = []) by (destruct o; try discriminate Hq; reflexivity).
    rewrite Ha, app_nil_r. split; [lia|]. split; [lia|]. split; [assumption|]. split; [assumption|].
    split.
    + apply room_honest_snoc; auto. intros l' n x E Hf. destruct o; try discriminate Hq; contradiction.
    + intros l' n x E. apply snoc_last in E. injection E as -> ->.
      cbn [fifo] in q5. rewrite len_drop in q5 by lia. injection q5 as E1. lia.
  - destruct Hv as (Hn & Hn2). cbn [wcode].
    eapply wsafe_mono; [|apply (write_msg_safe c HL b n W R h1 h2 HP Hn Hn2)].
    intros r W' R' (q1 & q2 & q3 & q4). unfold Iwm. rewrite accepted_msg_snoc.
    assert (Hst : small (take n b)) by (unfold small; rewrite len_take; [lia|exact Hn]).
    destruct q4 as [(k1 & -> & ->)|(k1 & -> & ->)].
    + cbn [accepted_msg flat_map]. replace (n <? 0) with false by lia. cbn [app].
      rewrite len_app in *. pose proof (len_pos (enc (take n b))).
      split; [lia|]. split; [lia|]. split; [apply Forall_app; auto|].
      split; [rewrite encs_app, h4; cbn [encs]; rewrite app_nil_r; reflexivity|].
      split.
      * apply room_honest_snoc; auto.
      * intros l' n' x E. apply snoc_last in E. discriminate.
    + cbn [accepted_msg flat_map Z.ltb Z.compare]. rewrite !app_nil_r.
      split; [lia|]. split; [lia|]. split; [assumption|]. split; [assumption|]. split.
      * apply room_honest_snoc; auto. intros l' n' x E Hf. specialize (h6 _ _ _ E). cbn [fits] in Hf. lia.
      * intros l' n' x E. apply snoc_last in E. discriminate.
Qed.

Lemma mdelivers_more l s rest x : mdelivers l s rest -> mdelivers l (s ++ x) (rest ++ x).
Proof.
  induction 1; rewrite <- ?app_assoc in *; try (econstructor; eauto; fail).
Qed.
(** Extending the stream the reader has seen. *)
Lemma mdelivers_ext l done ms ms' : Forall small (done ++ ms) -> Forall small ms' ->
  (exists x, encs (done ++ ms') = encs (done ++ ms) ++ x) ->
  mdelivers l (done ++ ms) ms -> mdelivers l (done ++ ms') ms'.
Proof.
  intros Hs Hs' (x & E) H. symmetry in E.
  pose proof (proj1 (Forall_app _ _ _) Hs) as (Hsd & Hss).
  apply encs_prefix in E; auto; [|apply Forall_app; auto]. destruct E as (r & E & _).
  rewrite <- app_assoc in E. apply app_inv_head in E. subst ms'.
  rewrite app_assoc. apply mdelivers_more. assumption.
Qed.

Lemma Irm_call l W R o : Irm l W R -> rok_msg o ->
  rsafe c Pm (rcode c o) W R (fun r W' R' => Irm (l ++ [(o, r)]) W' R').
Proof.
  intros (done & ms & h1 & h2 & h3 & h4) (Hv & Ho).
  pose proof (proj1 (Forall_app _ _ _) h1) as (Hsd & Hss).
  assert (HWx : exists x, W = encs done ++ x) by (exists (encs ms); rewrite h2; apply encs_app).
  assert (Hq : (o = RFlush \/ o = RFree \/ o = RContents \/ o = REmpty) \/ o = RTest \/ exists n, o = RMsg n).
  { destruct o; try discriminate Ho; eauto 8. }
  rewrite h3. destruct Hq as [Hq|[->|(n & ->)]]; cbn [rcode].
  - eapply (rsafe_mono c HL); [|apply (other_safe c HL o done W Hsd HWx Hq)].
    intros r W' R' ((X & e0) & _ & ms' & e3 & e4 & e5 & e6).
    assert (Hd : mdelivers l (done ++ ms') ms').
    { apply mdelivers_ext with (ms := ms); auto. exists X. rewrite <- e4, <- h2. exact e0. }
    destruct Hq as [->|Hq].
    + exists (done ++ ms'), []. rewrite app_nil_r. split; [apply Forall_app; auto|]. split; [assumption|].
      split; [rewrite e6, e4; reflexivity|]. apply md_flush with (ms := ms'). rewrite app_nil_r. assumption.
    + exists done, ms'. split; [apply Forall_app; auto|]. split; [assumption|].
      split; [destruct Hq as [->|[->| ->]]; exact e6|]. apply md_query; auto.
  - eapply (rsafe_mono c HL); [|apply (test_msg_safe c HL done W Hsd HWx)].
    intros r W' R' ((X & e0) & _ & -> & ms' & e3 & e4 & e5).
    assert (Hd : mdelivers l (done ++ ms') ms').
    { apply mdelivers_ext with (ms := ms); auto. exists X. rewrite <- e4, <- h2. exact e0. }
    exists done, ms'. split; [apply Forall_app; auto|]. split; [assumption|]. split; [reflexivity|].
    subst r. destruct ms'; constructor; assumption.
  - eapply (rsafe_mono c HL); [|apply (read_msg_safe c HL n done W Hsd HWx Hv)].
    intros r W' R' ((X & e0) & _ & ms' & e3 & e4 & e5).
    assert (Hd : mdelivers l (done ++ ms') ms').
    { apply mdelivers_ext with (ms := ms); auto. exists X. rewrite <- e4, <- h2. exact e0. }
    destruct ms' as [|m ms']; destruct e5 as (-> & ->).
    + exists done, []. split; [apply Forall_app; auto|]. split; [assumption|]. split; [reflexivity|].
      constructor. assumption.
    + exists (done ++ [m]), ms'. rewrite <- app_assoc. cbn [app].
      split; [apply Forall_app; auto|]. split; [assumption|]. split; [reflexivity|].
      constructor. assumption.
Qed.

Theorem spsc_messages m s : minv c m [] 0 [] -> reach c wok_msg rok_msg (sys0 m) s ->
  (forall o p, wcur s = Some (o, p) -> astep p (smem s) <> UB) /\
  (forall o p, rcur s = Some (o, p) -> astep p (smem s) <> UB) /\
  (exists rest, mdelivers (rlog s) (accepted_msg (wlog s)) rest) /\
  room_honest (wlog s).
Proof.
  intros Hm Hr.
  assert (Hi : sinv c Pm Iwm Irm s).
  { eapply sinv_reach; eauto.
    - apply Iwm_call.
    - apply Irm_call.
    - intros; apply wcode_busy.
    - intros; apply rcode_busy.
    - exists []. auto.
    - unfold Iwm. rewrite len_nil. repeat split; try lia. constructor. apply room_honest_nil.
      intros l' n x E. destruct l'; discriminate.
    - exists [], []. repeat split; constructor. }
  pose proof (sinv_safe c HL Pm Iwm Irm s Hi) as (s1 & s2). split; [exact s1|]. split; [exact s2|].
  destruct Hi as (Wr & X & R & Rw & pend & hm & hp & hr & hw & hd).
  assert (Hw : exists R0, Iwm (wlog s) (Wr ++ X) R0).
  { destruct (wcur s) as [[o p]|]; [tauto|destruct hw; eauto]. }
  assert (Hd : exists W0 X0 R0, Irm (rlog s) W0 R0 /\ Wr = W0 ++ X0).
  { destruct (rcur s) as [[o p]|]; [tauto|]. exists Wr, [], R. rewrite app_nil_r. auto. }
  destruct Hw as (R0 & _ & _ & g2 & g3 & g4 & _).
  destruct Hd as (W0 & X0 & R1 & (done & ms & k1 & k2 & _ & k4) & ->).
  split; [|auto]. rewrite k2, <- app_assoc in g3. symmetry in g3.
  apply encs_prefix in g3; auto. destruct g3 as (r & -> & _).
  exists (ms ++ r). apply mdelivers_more. assumption.
Qed.
End Msg2.

(** A message of 65536 octets is accepted but its length is lost. *)
Lemma long_message_gen cap flags d b n : 2 + n <= cap -> len d = cap + 1 -> len b = n ->
  0 <= n -> n + 2 <= 2147483647 -> u16 n = 0 ->
  let (c, m) := queue_init cap flags d in
  exists m', runs c [inl (WMsg b n); inr RTest] m = Ok ([(n, []); (0, [])], m').
Proof.
  intros Hc Hd Hb Hn Hn2 Hu. cbn [queue_init]. set (c := mkQC (cap + 1) flags).
  assert (HL : 0 < qlen c) by (cbn; lia).
  assert (Hm : minv c (mkQM 0 0 d) [] 0 []) by (apply minv_init; cbn; lia).
  cbn [runs opcode wcode rcode].
  pose proof (write_msg_gen c HL (fun _ => True) b n [] 0 (u16_octets (u16 n))) as Hs.
  rewrite len_nil in Hs. assert (Hq : qlen c = cap + 1) by reflexivity. rewrite Hq in Hs.
  specialize (Hs ltac:(lia) ltac:(lia) ltac:(lia) ltac:(lia) eq_refl I).
  destruct (prun_w c HL _ _ _ _ _ _ _ Hs Hm) as (a & m' & W' & e1 & e2 & (_ & _ & _ & e3)).
  rewrite e1. cbn [rbind]. destruct e3 as [(_ & -> & ->)|(k1 & _)]; [|lia].
  cbn [app] in e2. rewrite Hu in e2. set (W := u16_octets 0 ++ take n b) in *.
  assert (HlW : len W = 2 + n).
  { unfold W. rewrite len_app, len_take by lia. reflexivity. }
  assert (Hr : rsafe c (fun _ => True) (queue_state_test_msg c) W 0 (fun r W' R' => W' = W -> r = (0, []))).
  { unfold queue_state_test_msg. apply rsafe_bind; auto.
    eapply (rsafe_mono c HL); [|apply (view_safe c HL (fun _ => True) 2 W 0); lia].
    intros r W1 R1 ((X & e0) & _ & _ & hm) .
    assert (HlX : len W1 = 2 + n + len X) by (rewrite e0, len_app; lia). pose proof (len_pos X).
    unfold amount in hm. destruct (Z.ltb_spec (len W1 - 0) 2); [lia|]. destruct hm as (_ & -> & _).
    cbn [fst snd delivered Z.eqb Pos.eqb negb rsafe]. intros ->. reflexivity. }
  destruct (prun_r c HL _ _ _ _ _ _ Hr e2 I) as (a2 & m2 & R2 & f1 & f2 & f3).
  rewrite f1. cbn [rbind]. rewrite f3 by reflexivity. eauto.
Qed.
Theorem long_message cap flags d b : 65538 <= cap -> len d = cap + 1 -> len b = 65536 ->
  let (c, m) := queue_init cap flags d in
  exists m', runs c [inl (WMsg b 65536); inr RTest] m = Ok ([(65536, []); (0, [])], m').
Proof.
  intros Hc Hd Hb. apply long_message_gen; auto; lia.
Qed.
