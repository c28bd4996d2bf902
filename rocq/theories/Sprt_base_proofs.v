(** SPRT: arrays, the queue of the timers, slot numbers. *)
From Coq Require Import ZifyBool ZifyNat.
From Verif Require Import Base Sprt_model.
Local Open Scope Z_scope.

Definition zn (l : list Z) (i : Z) : Z := nth (Z.to_nat i) l 0.
Definition sn (l : list slot) (i : Z) : slot := nth (Z.to_nat i) l None.

Lemma oget_sn l i : 0 <= i < Z.of_nat (length l) -> oget l i = Ok (sn l i).
Proof.
  intros H. unfold oget, sn. replace (0 <=? i) with true by lia. rewrite (nth_error_nth' l None) by lia. reflexivity.
Qed.
Lemma oget_ok l i x : oget l i = Ok x -> 0 <= i < Z.of_nat (length l) /\ x = sn l i.
Proof.
  unfold oget, sn. destruct (Z.leb_spec 0 i); [|discriminate]. destruct (nth_error l (Z.to_nat i)) eqn:E; [|discriminate].
  intros [= <-]. assert (H' : (Z.to_nat i < length l)%nat) by (apply nth_error_Some; congruence). split; [lia|]. symmetry. apply nth_error_nth. exact E.
Qed.
Lemma oset_ok {A} (l : list A) i (x : A) : 0 <= i < Z.of_nat (length l) -> oset l i x = Ok (upd l (Z.to_nat i) x).
Proof. intros H. unfold oset. replace (_ && _) with true by lia. reflexivity. Qed.
Lemma oset_inv {A} (l : list A) i (x : A) l' : oset l i x = Ok l' -> 0 <= i < Z.of_nat (length l) /\ l' = upd l (Z.to_nat i) x.
Proof. unfold oset. destruct (_ && _) eqn:E; [|discriminate]. intros [= <-]. split; [lia|reflexivity]. Qed.
Lemma aget_zn l i : 0 <= i < Z.of_nat (length l) -> aget l i = Ok (zn l i).
Proof. intros H. unfold aget, in_bounds, zn. replace (_ && _) with true by lia. reflexivity. Qed.
Lemma aget_inv l i x : aget l i = Ok x -> 0 <= i < Z.of_nat (length l) /\ x = zn l i.
Proof. unfold aget, in_bounds, zn. destruct (_ && _) eqn:E; [|discriminate]. intros [= <-]. split; [lia|reflexivity]. Qed.
Lemma aset_ok l i x : 0 <= i < Z.of_nat (length l) -> aset l i x = Ok (upd l (Z.to_nat i) x).
Proof. intros H. unfold aset, in_bounds. replace (_ && _) with true by lia. reflexivity. Qed.
Lemma aset_inv l i x l' : aset l i x = Ok l' -> 0 <= i < Z.of_nat (length l) /\ l' = upd l (Z.to_nat i) x.
Proof. unfold aset, in_bounds. destruct (_ && _) eqn:E; [|discriminate]. intros [= <-]. split; [lia|reflexivity]. Qed.
Lemma sn_upd l i j x : 0 <= i < Z.of_nat (length l) -> 0 <= j -> sn (upd l (Z.to_nat i) x) j = if j =? i then x else sn l j.
Proof.
  intros Hi Hj. unfold sn. destruct (Z.eqb_spec j i) as [->|Hn]; [apply nth_upd_same; lia|]. apply nth_upd_other. lia.
Qed.
Lemma zn_upd l i j x : 0 <= i < Z.of_nat (length l) -> 0 <= j -> zn (upd l (Z.to_nat i) x) j = if j =? i then x else zn l j.
Proof.
  intros Hi Hj. unfold zn. destruct (Z.eqb_spec j i) as [->|Hn]; [apply nth_upd_same; lia|]. apply nth_upd_other. lia.
Qed.
Lemma sn_out l i : Z.of_nat (length l) <= i -> sn l i = None.
Proof. intros H. unfold sn. apply nth_overflow. lia. Qed.

(** ---- the queue of the timers ---- *)
Definition linked (f l : Z) (pv nx : list Z) (L : list Z) : Prop :=
  length pv = 96%nat /\ length nx = 96%nat /\ NoDup L /\ Forall (fun x => 0 <= x < 96) L /\ f = hd FREE_TAG L /\ l = last L FREE_TAG /\
  forall A x B, L = A ++ x :: B -> zn pv x = last A FREE_TAG /\ zn nx x = hd FREE_TAG B.
Definition linkedc (c : txc) (L : list Z) : Prop := linked (t_first c) (t_last c) (t_prev c) (t_next c) L.

Lemma last_app {A} (l : list A) x y d : last (l ++ x :: y) d = last (x :: y) d.
Proof. induction l as [|a l IH]; [reflexivity|]. cbn [app]. rewrite <- IH. cbn. destruct (l ++ x :: y) eqn:E; [destruct l; discriminate|reflexivity]. Qed.
Lemma last_in {A} (l : list A) d : l <> [] -> In (last l d) l.
Proof. induction l as [|a l IH]; [congruence|]. intros _. destruct l as [|b l]; [left; reflexivity|]. right. apply IH. congruence. Qed.
Lemma hd_in {A} (l : list A) d : l <> [] -> In (hd d l) l.
Proof. destruct l; [congruence|]. intros _. left. reflexivity. Qed.
Lemma last_dflt {A} (l : list A) d d' : l <> [] -> last l d = last l d'.
Proof. induction l as [|a l IH]; [congruence|]. intros _. destruct l as [|b l]; [reflexivity|]. apply IH. congruence. Qed.

Lemma split_unique {A} (P P' : list A) x Q Q' : NoDup (P ++ x :: Q) -> P ++ x :: Q = P' ++ x :: Q' -> P = P' /\ Q = Q'.
Proof.
  revert P'. induction P as [|a P IH]; intros P' ND E; destruct P' as [|b P']; cbn in *.
  - injection E as ->. auto.
  - injection E as -> ->. inversion ND as [|? ? HN ?]; subst. exfalso. apply HN. apply in_or_app. right. left. reflexivity.
  - injection E as -> <-. inversion ND as [|? ? HN ?]; subst. exfalso. apply HN. apply in_or_app. right. left. reflexivity.
  - injection E as -> E. inversion ND; subst. destruct (IH P' H2 E) as [-> ->]. auto.
Qed.

(** To have the links of a list it is enough to look each element up in the list. *)
Lemma delete_ok c A x B : linkedc c (A ++ x :: B) -> exists f l pv nx,
  delete_entry c x = Ok (t_setqueue c f l pv nx) /\ linked f l pv nx (A ++ B).
Proof.
  intros (Lp & Ln & ND & HF & Hf & Hl & Hs). destruct (Hs A x B eq_refl) as (Hp & Hn).
  pose proof (proj1 (Forall_forall _ _) HF) as HF'. cbn beta in HF'.
  assert (Hx : 0 <= x < 96) by (apply HF'; apply in_or_app; right; left; reflexivity).
  assert (NDab : NoDup (A ++ B) /\ ~ In x (A ++ B)) by (split; [eapply NoDup_remove_1|eapply NoDup_remove_2]; exact ND).
  destruct NDab as [NDab Nx].
  assert (HFab : Forall (fun x => 0 <= x < 96) (A ++ B)) by (rewrite Forall_forall; intros y Hy; apply HF'; rewrite in_app_iff in *; cbn; tauto).
  unfold delete_entry.
  assert (Hff : t_first c =? FREE_TAG = false).
  { rewrite Hf. destruct A as [|a A]; cbn [app hd]; unfold FREE_TAG; [lia|]. assert (0 <= a < 96) by (apply HF'; left; reflexivity). lia. }
  rewrite Hff. replace (x =? FREE_TAG) with false by (unfold FREE_TAG; lia). cbn [orb].
  (* first half *)
  set (pa := last A FREE_TAG) in *. set (nb := hd FREE_TAG B) in *.
  assert (Ha : A = [] \/ (A <> [] /\ In pa A /\ 0 <= pa < 96 /\ pa <> x)).
  { destruct A as [|a A']; [left; reflexivity|right]. assert (In pa (a :: A')) by (apply last_in; discriminate).
    split; [discriminate|]. split; [assumption|]. split; [apply HF'; rewrite in_app_iff; tauto|]. intros ->. apply Nx. rewrite in_app_iff. tauto. }
  assert (Hb : B = [] \/ (B <> [] /\ In nb B /\ 0 <= nb < 96 /\ nb <> x)).
  { destruct B as [|b B']; [left; reflexivity|right]. assert (In nb (b :: B')) by (apply hd_in; discriminate).
    split; [discriminate|]. split; [assumption|]. split; [apply HF'; rewrite in_app_iff; cbn; cbn in H; tauto|]. intros ->. apply Nx. rewrite in_app_iff. tauto. }
  assert (E1 : exists f nx, (if t_first c =? x then do n <- aget (t_next c) x; Ok (t_setqueue c n (t_last c) (t_prev c) (t_next c))
             else do p <- aget (t_prev c) x; do n <- aget (t_next c) x; do nx <- aset (t_next c) p n;
                  Ok (t_setqueue c (t_first c) (t_last c) (t_prev c) nx)) = Ok (t_setqueue c f (t_last c) (t_prev c) nx) /\
        f = hd FREE_TAG (A ++ B) /\ length nx = 96%nat /\ zn nx x = nb /\ (A <> [] -> zn nx pa = nb) /\
        (forall y, 0 <= y -> y <> pa \/ A = [] -> zn nx y = zn (t_next c) y)).
  { destruct Ha as [->|(Ha & Hi & Hr & Hne)].
    - cbn [app hd] in Hf. rewrite Hf, Z.eqb_refl. rewrite aget_zn by lia. cbn [rbind]. exists nb, (t_next c). rewrite Hn. repeat split; auto; congruence.
    - replace (t_first c =? x) with false.
      2:{ destruct A as [|a A']; [congruence|]. cbn [app hd] in Hf. rewrite Hf. symmetry. apply Z.eqb_neq. intros ->. apply Nx. left. reflexivity. }
      rewrite !aget_zn by lia. cbn [rbind]. rewrite Hp, Hn. rewrite aset_ok by lia. cbn [rbind]. eexists _, _. split; [reflexivity|].
      rewrite upd_length. rewrite !zn_upd by lia. replace (x =? pa) with false by lia. rewrite Z.eqb_refl.
      repeat split; auto.
      + destruct A; [congruence|]. exact Hf.
      + intros y Hy [Hy'|]; [|congruence]. rewrite zn_upd by lia. replace (y =? pa) with false by lia. reflexivity. }
  destruct E1 as (f & nx & -> & Ef & Lnx & Nx1 & Nx2 & Nx3). cbn [rbind].
  change (t_last (t_setqueue c f (t_last c) (t_prev c) nx)) with (t_last c). change (t_prev (t_setqueue c f (t_last c) (t_prev c) nx)) with (t_prev c).
  change (t_next (t_setqueue c f (t_last c) (t_prev c) nx)) with nx. change (t_first (t_setqueue c f (t_last c) (t_prev c) nx)) with f.
  set (c1 := t_setqueue c f (t_last c) (t_prev c) nx).
  assert (E2 : exists l pv, (if t_last c =? x then do p <- aget (t_prev c) x; Ok (t_setqueue c1 f p (t_prev c) nx)
             else do n <- aget nx x; do p <- aget (t_prev c) x; do pv <- aset (t_prev c) n p;
                  Ok (t_setqueue c1 f (t_last c) pv nx)) = Ok (t_setqueue c1 f l pv nx) /\
        l = last (A ++ B) FREE_TAG /\ length pv = 96%nat /\ (B <> [] -> zn pv nb = pa) /\
        (forall y, 0 <= y -> y <> nb \/ B = [] -> zn pv y = zn (t_prev c) y)).
  { destruct Hb as [->|(Hb & Hi & Hr & Hne)].
    - rewrite last_app in Hl. cbn [last] in Hl. rewrite Hl, Z.eqb_refl. rewrite aget_zn by lia. cbn [rbind]. eexists _, _. split; [reflexivity|].
      rewrite Hp, app_nil_r. repeat split; auto; congruence.
    - replace (t_last c =? x) with false.
      2:{ rewrite Hl. rewrite last_app. symmetry. apply Z.eqb_neq. intros E. apply Nx. rewrite in_app_iff. right. rewrite <- E.
          destruct B as [|b B']; [congruence|]. change (last (x :: b :: B') FREE_TAG) with (last (b :: B') FREE_TAG). apply last_in. discriminate. }
      rewrite !aget_zn by lia. cbn [rbind]. rewrite Nx1, Hp. rewrite aset_ok by lia. cbn [rbind]. eexists _, _. split; [reflexivity|].
      rewrite upd_length. repeat split; auto.
      + rewrite Hl, !last_app. destruct B as [|b B']; [congruence|]. rewrite last_app. reflexivity.
      + intros _. rewrite zn_upd by lia. rewrite Z.eqb_refl. reflexivity.
      + intros y Hy [Hy'|]; [|congruence]. rewrite zn_upd by lia. replace (y =? nb) with false by lia. reflexivity. }
  destruct E2 as (l & pv & -> & El & Lpv & Pv1 & Pv2). cbn [rbind].
  change (t_prev (t_setqueue c1 f l pv nx)) with pv. change (t_next (t_setqueue c1 f l pv nx)) with nx. rewrite !aset_ok by lia. cbn [rbind].
  eexists f, l, _, _. split; [reflexivity|]. split; [rewrite upd_length; exact Lpv|]. split; [rewrite upd_length; exact Lnx|].
  split; [exact NDab|]. split; [exact HFab|]. split; [exact Ef|]. split; [exact El|].
  intros C y D E. assert (Hy : In y (A ++ B)) by (rewrite E; apply in_or_app; right; left; reflexivity).
  assert (Hy' : 0 <= y < 96) by (rewrite Forall_forall in HFab; apply HFab; exact Hy).
  assert (Hyx : y <> x) by congruence.
  rewrite !zn_upd by lia. replace (y =? x) with false by lia.
  rewrite in_app_iff in Hy. destruct Hy as [Hy|Hy].
  - (* y in A *)
    apply in_split in Hy. destruct Hy as (A1 & A2 & ->). rewrite <- app_assoc in E. cbn [app] in E.
    assert (ND2 : NoDup (A1 ++ y :: A2 ++ B)) by (rewrite <- app_assoc in NDab; exact NDab).
    destruct (split_unique _ _ _ _ _ ND2 E) as [<- <-].
    assert (Hs1 : (A1 ++ y :: A2) ++ x :: B = A1 ++ y :: A2 ++ x :: B) by (rewrite <- app_assoc; reflexivity).
    destruct (Hs A1 y (A2 ++ x :: B) Hs1) as (P1 & P2).
    split.
    + rewrite Pv2; [exact P1|lia|]. destruct Hb as [Hb|(Hb & Hib & _)]; [right; exact Hb|left]. intros ->.
      clear - NDab Hib. rewrite <- app_assoc in NDab. apply NoDup_remove_2 in NDab. apply NDab. rewrite !in_app_iff. right. right. exact Hib.
    + destruct A2 as [|a2 A2].
      * cbn [app]. replace y with pa by (unfold pa; rewrite last_app; reflexivity). rewrite Nx2; [reflexivity|destruct A1; discriminate].
      * cbn [app hd] in *. rewrite Nx3; [exact P2|lia|]. left. unfold pa. rewrite last_app.
        change (last (y :: a2 :: A2) FREE_TAG) with (last (a2 :: A2) FREE_TAG). intros Heq.
        assert (In y (a2 :: A2)) by (rewrite Heq; apply last_in; discriminate).
        clear - ND2 H. apply NoDup_remove_2 in ND2. apply ND2. rewrite in_app_iff. right. change (a2 :: A2 ++ B) with ((a2 :: A2) ++ B). rewrite in_app_iff. tauto.
  - (* y in B *)
    apply in_split in Hy. destruct Hy as (B1 & B2 & ->). rewrite app_assoc in E, NDab.
    destruct (split_unique _ _ _ _ _ NDab E) as [<- <-].
    assert (Hs1 : A ++ x :: B1 ++ y :: B2 = (A ++ x :: B1) ++ y :: B2) by (rewrite <- app_assoc; reflexivity).
    destruct (Hs _ y B2 Hs1) as (P1 & P2).
    split.
    + destruct B1 as [|b1 B1].
      * rewrite app_nil_r. change y with nb. apply Pv1. discriminate.
      * rewrite Pv2; [|lia|].
        -- rewrite P1. rewrite !last_app. reflexivity.
        -- left. unfold nb. cbn [app hd]. intros ->. clear - NDab. apply NoDup_remove_2 in NDab. apply NDab. rewrite !in_app_iff. cbn. tauto.
    + rewrite Nx3; [exact P2|lia|]. destruct Ha as [Ha|(Ha & Hia & _)]; [right; exact Ha|left]. intros ->.
      clear - NDab Hia. apply NoDup_remove_2 in NDab. apply NDab. rewrite !in_app_iff. tauto.
Qed.

Lemma add_last_ok c L x : linkedc c L -> 0 <= x < 96 -> ~ In x L -> exists f l pv nx,
  add_last c x = Ok (t_setqueue c f l pv nx) /\ linked f l pv nx (L ++ [x]).
Proof.
  intros (Lp & Ln & ND & HF & Hf & Hl & Hs) Hx Nx. unfold add_last. assert (Hu : u8 x = x) by (unfold u8; apply Z.mod_small; lia). rewrite Hu.
  set (pa := last L FREE_TAG) in *.
  assert (Ha : L = [] \/ (L <> [] /\ In pa L /\ 0 <= pa < 96 /\ pa <> x)).
  { destruct L as [|a A']; [left; reflexivity|right]. assert (In pa (a :: A')) by (apply last_in; discriminate).
    split; [discriminate|]. split; [assumption|]. split; [rewrite Forall_forall in HF; apply HF; assumption|]. intros ->. auto. }
  assert (E1 : exists f nx, (if t_last c =? FREE_TAG then Ok (t_setqueue c x (t_last c) (t_prev c) (t_next c))
           else do nx <- aset (t_next c) (t_last c) x; Ok (t_setqueue c (t_first c) (t_last c) (t_prev c) nx)) = Ok (t_setqueue c f (t_last c) (t_prev c) nx) /\
     f = hd FREE_TAG (L ++ [x]) /\ length nx = 96%nat /\ (L <> [] -> zn nx pa = x) /\ (forall y, 0 <= y -> y <> pa \/ L = [] -> zn nx y = zn (t_next c) y)).
  { destruct Ha as [->|(Ha & Hi & Hr & Hne)].
    - replace (t_last c =? FREE_TAG) with true by (rewrite Hl; reflexivity). exists x, (t_next c). repeat split; auto; congruence.
    - replace (t_last c =? FREE_TAG) with false by (rewrite Hl; unfold FREE_TAG; lia). rewrite Hl, aset_ok by lia. cbn [rbind]. eexists _, _. split; [reflexivity|].
      rewrite upd_length. repeat split; auto.
      + rewrite Hf. destruct L; [congruence|reflexivity].
      + intros _. rewrite zn_upd by lia. rewrite Z.eqb_refl. reflexivity.
      + intros y Hy [Hy'|]; [|congruence]. rewrite zn_upd by lia. replace (y =? pa) with false by lia. reflexivity. }
  destruct E1 as (f & nx & -> & Ef & Lnx & Nx2 & Nx3). cbn [rbind].
  change (t_prev (t_setqueue c f (t_last c) (t_prev c) nx)) with (t_prev c). change (t_next (t_setqueue c f (t_last c) (t_prev c) nx)) with nx.
  change (t_last (t_setqueue c f (t_last c) (t_prev c) nx)) with (t_last c). rewrite !aset_ok by lia. cbn [rbind].
  eexists _, _, _, _. split; [reflexivity|]. cbn [t_first t_setqueue]. split; [rewrite upd_length; exact Lp|]. split; [rewrite upd_length; exact Lnx|].
  split. { apply NoDup_rev in ND. rewrite <- (rev_involutive (L ++ [x])). apply NoDup_rev. rewrite rev_app_distr. cbn. constructor; [rewrite <- in_rev; exact Nx|exact ND]. }
  split; [rewrite Forall_app; split; [exact HF|constructor; auto]|]. split; [exact Ef|]. split; [rewrite last_app; reflexivity|].
  intros A y B E. destruct B as [|b B] using rev_ind.
  - apply app_inj_tail in E. destruct E as [-> ->]. rewrite !zn_upd by lia. rewrite Z.eqb_refl. rewrite Hl. split; reflexivity.
  - clear IHB. rewrite app_comm_cons, app_assoc in E. apply app_inj_tail in E. destruct E as [E ->].
    assert (Hy : In y L) by (rewrite E; apply in_or_app; right; left; reflexivity).
    assert (Hy' : 0 <= y < 96) by (rewrite Forall_forall in HF; apply HF; exact Hy).
    assert (Hyx : y <> b) by congruence. rewrite !zn_upd by lia. replace (y =? b) with false by lia.
    destruct (Hs A y B E) as (P1 & P2). split; [exact P1|].
    destruct B as [|b' B].
    + cbn [app hd]. replace y with pa. { apply Nx2. intros ->. destruct A; discriminate. } unfold pa. rewrite E, last_app. reflexivity.
    + cbn [app hd] in *. rewrite Nx3; [exact P2|lia|]. left. unfold pa. rewrite E, last_app. change (last (y :: b' :: B) FREE_TAG) with (last (b' :: B) FREE_TAG).
      intros Heq. assert (Hin : In y (b' :: B)) by (rewrite Heq; apply last_in; discriminate).
      rewrite E in ND. apply NoDup_remove_2 in ND. apply ND. rewrite in_app_iff. tauto.
Qed.

(** ---- slot numbers ---- *)
Lemma next_mod W i : 1 < W -> next_ptr W (i mod W) = (i + 1) mod W.
Proof.
  intros H. unfold next_ptr. pose proof (Z.mod_pos_bound i W ltac:(lia)). destruct (Z.leb_spec W (i mod W + 1)).
  - assert (i mod W = W - 1) by lia. rewrite <- Z.add_mod_idemp_l by lia. replace (i mod W + 1) with W by lia. rewrite Z.mod_same; lia.
  - rewrite <- Z.add_mod_idemp_l by lia. rewrite (Z.mod_small (i mod W + 1)); lia.
Qed.
Lemma back_mod W Q d : 1 < W -> 0 <= d < W -> (if Q mod W - d <? 0 then Q mod W - d + W else Q mod W - d) = (Q - d) mod W.
Proof.
  intros H Hd. pose proof (Z.mod_pos_bound Q W ltac:(lia)). rewrite <- Zminus_mod_idemp_l.
  destruct (Z.ltb_spec (Q mod W - d) 0).
  - apply (Z.mod_unique _ _ (-1)); lia.
  - symmetry. apply Z.mod_small. lia.
Qed.
Lemma fwd_mod W b d : 1 < W -> 0 <= d < W -> (if W <=? b mod W + d then b mod W + d - W else b mod W + d) = (b + d) mod W.
Proof.
  intros H Hd. pose proof (Z.mod_pos_bound b W ltac:(lia)). rewrite <- Z.add_mod_idemp_l by lia.
  destruct (Z.leb_spec W (b mod W + d)).
  - apply (Z.mod_unique _ _ 1); lia.
  - symmetry. apply Z.mod_small. lia.
Qed.
Lemma mod_inj W i j : 1 < W -> i mod W = j mod W -> -W < i - j < W -> i = j.
Proof.
  intros H E D. assert (Hz : (i - j) mod W = 0) by (rewrite Zminus_mod, E, Z.sub_diag; apply Z.mod_0_l; lia).
  apply Z.mod_divide in Hz; [|lia]. destruct Hz as [k Hk].
  assert (k < 1) by nia. assert (-1 < k) by nia. assert (k = 0) as -> by lia. lia.
Qed.
Lemma land_mask x : Z.land x SEQ_MASK = x mod 16384.
Proof. change SEQ_MASK with (Z.ones 14). rewrite Z.land_ones by lia. reflexivity. Qed.
