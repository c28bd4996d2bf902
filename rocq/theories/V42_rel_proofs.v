(** LAP.M: how a context represents an abstract sender and receiver, and what each piece of the code does to it. *)
From Coq Require Import ZifyBool ZifyNat.
From Verif Require Import Base V42_model V42_spec.

(** ---- abstract frames ---- *)
Inductive afr := AI (ad i n : Z) (d : list Z) | AS (ad k pf n : Z) | AU (ad c : Z).
Definition enc (f : afr) : list Z :=
  match f with
  | AI ad i n d => ad :: 2 * (i mod 128) :: 2 * (n mod 128) :: d
  | AS ad k pf n => [ad; 1 + k; 2 * (n mod 128) + pf]
  | AU ad c => [ad; c]
  end.
Definition wfa (f : afr) : Prop :=
  match f with
  | AI ad i n d => (1 <= length d <= 128)%nat
  | AS ad k pf n => (k = 0 \/ k = 4 \/ k = 8) /\ (pf = 0 \/ pf = 1)
  | AU ad c => c = 0x53 \/ c = 0x73 \/ c = 0x1F
  end.
Definition ctl (f : afr) : Prop := match f with AI _ _ _ _ => False | _ => wfa f end.

(** ---- arithmetic ---- *)
Lemma land7 x : Z.land x 0x7F = x mod 128.
Proof. apply (Z.land_ones x 7). lia. Qed.
Lemma land3 x : Z.land x 3 = x mod 4.
Proof. apply (Z.land_ones x 2). lia. Qed.
Lemma land1 x : Z.land x 1 = x mod 2.
Proof. apply (Z.land_ones x 1). lia. Qed.
Lemma wrap8 p : 0 <= p < 8 -> wrap p 8 = (p + 1) mod 8.
Proof. intros H. unfold wrap. destruct (Z.leb_spec 8 (p + 1)); Z.div_mod_to_equations; lia. Qed.
Lemma wrap16 p : 0 <= p < 16 -> wrap p 16 = (p + 1) mod 16.
Proof. intros H. unfold wrap. destruct (Z.leb_spec 16 (p + 1)); Z.div_mod_to_equations; lia. Qed.
Lemma oct2 v : 0 <= v < 128 -> u8 (Z.shiftl v 1) = 2 * v.
Proof. intros H. unfold u8. rewrite Z.shiftl_mul_pow2 by lia. change (2 ^ 1) with 2. rewrite Z.mod_small; lia. Qed.
Lemma oct2pf v pf : 0 <= v < 128 -> pf = 0 \/ pf = 1 -> u8 (Z.lor (Z.shiftl v 1) pf) = 2 * v + pf.
Proof.
  intros H [-> | ->].
  - rewrite Z.lor_0_r, oct2 by lia. lia.
  - assert (E : Z.lor (Z.shiftl v 1) 1 = 2 * v + 1).
    { rewrite Z.shiftl_mul_pow2 by lia. change (2 ^ 1) with 2. rewrite Z.mul_comm.
      destruct v; try lia; reflexivity. }
    rewrite E. unfold u8. rewrite Z.mod_small; lia.
Qed.
Lemma shr2 v pf : pf = 0 \/ pf = 1 -> Z.shiftr (2 * v + pf) 1 = v.
Proof. intros H. rewrite Z.shiftr_div_pow2 by lia. change (2 ^ 1) with 2. Z.div_mod_to_equations; lia. Qed.
Lemma shr20 v : Z.shiftr (2 * v) 1 = v.
Proof. rewrite <- (Z.add_0_r (2 * v)). apply shr2. auto. Qed.
Lemma odd2 v pf : pf = 0 \/ pf = 1 -> Z.odd (2 * v + pf) = (pf =? 1).
Proof. intros [-> | ->]; rewrite Z.odd_add, Z.odd_mul; reflexivity. Qed.
Lemma odd20 v : Z.odd (2 * v) = false.
Proof. rewrite Z.odd_mul. reflexivity. Qed.
Lemma mod128 x : 0 <= x mod 128 < 128.
Proof. apply Z.mod_pos_bound. lia. Qed.

(** ---- arrays of frames ---- *)
Definition sized (f : frame) : Prop := length (fbuf f) = 132%nat /\ 0 <= flen f <= 132.
Definition fnth (l : list frame) (i : Z) : frame := nth (Z.to_nat i) l (mkF 0 []).
Lemma fget_ok l i : 0 <= i < Z.of_nat (length l) -> fget l i = Ok (fnth l i).
Proof. intros H. unfold fget. replace ((0 <=? i) && (i <? Z.of_nat (length l))) with true by lia. reflexivity. Qed.
Lemma fset_ok l i f : 0 <= i < Z.of_nat (length l) -> fset l i f = Ok (upd l (Z.to_nat i) f).
Proof. intros H. unfold fset. replace ((0 <=? i) && (i <? Z.of_nat (length l))) with true by lia. reflexivity. Qed.
Lemma fnth_upd_same l i f : 0 <= i < Z.of_nat (length l) -> fnth (upd l (Z.to_nat i) f) i = f.
Proof. intros H. apply nth_upd_same. lia. Qed.
Lemma fnth_upd_other l i j f : 0 <= i -> 0 <= j -> i <> j -> fnth (upd l (Z.to_nat i) f) j = fnth l j.
Proof. intros. apply nth_upd_other. lia. Qed.
Lemma Forall_upd {A} (P : A -> Prop) l n x : Forall P l -> P x -> Forall P (upd l n x).
Proof. intros H Hx. revert n. induction H; intros [|n]; cbn; auto. Qed.
Lemma sized_nth l i : Forall sized l -> 0 <= i < Z.of_nat (length l) -> sized (fnth l i).
Proof. intros H Hi. rewrite Forall_forall in H. apply H. apply nth_In. lia. Qed.

Lemma ablit_ok l off src : 0 <= off -> (Z.to_nat off + length src <= length l)%nat ->
  ablit l off src = Ok (firstn (Z.to_nat off) l ++ src ++ skipn (Z.to_nat off + length src) l).
Proof.
  intros H0 H. destruct src as [|b src]; cbn [ablit].
  - cbn [length Datatypes.app]. rewrite Nat.add_0_r, firstn_skipn. reflexivity.
  - replace ((0 <=? off) && (off + Z.of_nat (length (b :: src)) <=? Z.of_nat (length l))) with true
      by (cbn [length] in *; lia). reflexivity.
Qed.
Lemma ablit_len (l : list Z) off (src : list Z) : (off + length src <= length l)%nat ->
  length (firstn off l ++ src ++ skipn (off + length src) l) = length l.
Proof. intros H. rewrite !app_length, firstn_length, skipn_length. lia. Qed.
Lemma aslice_ok l off n : 0 <= off -> 0 <= n -> off + n <= Z.of_nat (length l) ->
  aslice l off n = Ok (firstn (Z.to_nat n) (skipn (Z.to_nat off) l)).
Proof.
  intros H0 H1 H. unfold aslice. destruct (Z.leb_spec n 0).
  - replace n with 0 by lia. reflexivity.
  - replace ((0 <=? off) && (off + n <=? Z.of_nat (length l))) with true by lia. reflexivity.
Qed.

(** ---- the control frame ring ---- *)
Definition slot (f : frame) (b : list Z) : Prop :=
  flen f = Z.of_nat (length b) /\ firstn (length b) (fbuf f) = b.
Definition Rc (p g : Z) (l : list frame) (q : list afr) : Prop :=
  length l = 8%nat /\ Forall sized l /\ 0 <= g < 8 /\ (length q <= 7)%nat /\ p = (g + Z.of_nat (length q)) mod 8 /\
  (forall j, 0 <= j < Z.of_nat (length q) -> slot (fnth l ((g + j) mod 8)) (enc (nth (Z.to_nat j) q (AU 0 0)))).

Lemma enc_ctl f : ctl f -> (length (enc f) <= 3)%nat.
Proof. destruct f; cbn; lia. Qed.

Lemma put_ring s q f b : Rc (ctrl_put s) (ctrl_get s) (ctrl_buf s) q -> ctl f -> b = enc f ->
  exists p l q', put_ctrl s b (Z.of_nat (length b)) = Ok (w_ctrl_put p (w_ctrl_buf l s)) /\
    Rc p (ctrl_get s) l q' /\ (q' = q \/ q' = q ++ [f]).
Proof.
  intros (Hl & Hs & Hg & Hq & Hp & Hj) Hf ->. pose proof (enc_ctl f Hf) as He. unfold put_ctrl, CTRL_FRAMES.
  assert (Hp8 : 0 <= ctrl_put s < 8) by (rewrite Hp; apply Z.mod_pos_bound; lia).
  rewrite (wrap8 _ Hp8). destruct (Z.eqb_spec ((ctrl_put s + 1) mod 8) (ctrl_get s)) as [E|E].
  - exists (ctrl_put s), (ctrl_buf s), q. split; [|split; [|left; reflexivity]].
    + destruct s; reflexivity.
    + split; [exact Hl|]. split; [exact Hs|]. split; [exact Hg|]. split; [exact Hq|]. split; [exact Hp|exact Hj].
  - assert (Hq6 : (length q <= 6)%nat).
    { destruct (Nat.eq_dec (length q) 7) as [e|]; [|lia]. exfalso. apply E. rewrite Hp, e.
      clear - Hg. Z.div_mod_to_equations; lia. }
    rewrite fget_ok by lia. cbn [rbind].
    pose proof (sized_nth (ctrl_buf s) (ctrl_put s) Hs ltac:(lia)) as (Hb & _).
    rewrite ablit_ok by (try lia; rewrite Hb; cbn; lia). cbn [rbind].
    rewrite fset_ok by lia. cbn [rbind]. do 2 eexists. exists (q ++ [f]). split; [reflexivity|]. split; [|right; reflexivity].
    split; [rewrite upd_length; exact Hl|]. split; [|split; [exact Hg|]].
    { apply Forall_upd; [exact Hs|]. split; cbn [fbuf flen].
      - change (Z.to_nat 0) with 0%nat. rewrite ablit_len by (rewrite Hb; lia). exact Hb.
      - lia. }
    rewrite app_length. cbn [length]. split; [lia|]. split.
    { rewrite Hp. clear - Hg Hq6. Z.div_mod_to_equations; lia. }
    intros j Hjr. destruct (Z.eq_dec j (Z.of_nat (length q))) as [->|Hne].
    + rewrite <- Hp, fnth_upd_same by lia. rewrite Nat2Z.id, app_nth2, Nat.sub_diag by lia. cbn [nth].
      split; cbn [flen fbuf]; [reflexivity|]. change (Z.to_nat 0) with 0%nat. cbn [firstn Datatypes.app].
      rewrite firstn_app, firstn_all, Nat.sub_diag. cbn [firstn]. apply app_nil_r.
    + rewrite fnth_upd_other.
      * rewrite app_nth1 by lia. apply Hj. lia.
      * lia.
      * apply Z.mod_pos_bound. lia.
      * rewrite Hp. clear - Hg Hq6 Hjr Hne. Z.div_mod_to_equations; lia.
Qed.

Lemma pop_ring s f q : Rc (ctrl_put s) (ctrl_get s) (ctrl_buf s) (f :: q) ->
  ctrl_get s <> ctrl_put s /\ exists fr, fget (ctrl_buf s) (ctrl_get s) = Ok fr /\ aslice (fbuf fr) 0 (flen fr) = Ok (enc f) /\
    Rc (ctrl_put s) (wrap (ctrl_get s) CTRL_FRAMES) (ctrl_buf s) q.
Proof.
  intros (Hl & Hs & Hg & Hq & Hp & Hj). cbn [length] in *. split.
  { rewrite Hp. clear - Hg Hq. Z.div_mod_to_equations; lia. }
  exists (fnth (ctrl_buf s) (ctrl_get s)). rewrite fget_ok by lia. split; [reflexivity|]. split.
  - pose proof (sized_nth (ctrl_buf s) (ctrl_get s) Hs ltac:(lia)) as (Hb & Hlen).
    destruct (Hj 0 ltac:(lia)) as (H1 & H2). rewrite Z.add_0_r, Z.mod_small in H1, H2 by lia.
    change (nth (Z.to_nat 0) (f :: q) (AU 0 0)) with f in *.
    rewrite aslice_ok by lia. change (Z.to_nat 0) with 0%nat. cbn [skipn]. rewrite H1, Nat2Z.id, H2. reflexivity.
  - unfold CTRL_FRAMES. rewrite wrap8 by lia. split; [exact Hl|]. split; [exact Hs|]. split; [apply Z.mod_pos_bound; lia|].
    split; [lia|]. split.
    + rewrite Hp. clear - Hg Hq. Z.div_mod_to_equations; lia.
    + intros j H. specialize (Hj (j + 1) ltac:(lia)).
      replace (((ctrl_get s + 1) mod 8 + j) mod 8) with ((ctrl_get s + (j + 1)) mod 8)
        by (clear - Hg H Hq; Z.div_mod_to_equations; lia).
      replace (Z.to_nat (j + 1)) with (S (Z.to_nat j)) in Hj by lia. exact Hj.
Qed.
Lemma empty_ring s : Rc (ctrl_put s) (ctrl_get s) (ctrl_buf s) [] -> ctrl_get s = ctrl_put s.
Proof. intros (Hl & Hs & Hg & Hq & Hp & Hj). rewrite Hp. cbn [length]. rewrite Z.mod_small; lia. Qed.
Lemma flush_ring l q p g : Rc p g l q -> Rc 0 0 l [].
Proof.
  intros (Hl & Hs & Hg & Hq & Hp & Hj). split; [exact Hl|]. split; [exact Hs|]. cbn [length].
  split; [lia|]. split; [lia|]. split; [reflexivity|]. intros j Hj0. lia.
Qed.

(** ---- the sender and receiver a context stands for ---- *)
(** The messages fetched from the application, the number of those acknowledged, the number of the next one to send, the
    number of those ever sent, the number of messages received, and the control frames to be sent. *)
Record gh := mkG { gD : list (list Z); ga : Z; gs : Z; gM : Z; gr : Z; gq : list afr }.
Definition bnd (g : gh) : Prop :=
  0 <= ga g /\ ga g <= gs g /\ gs g <= gM g /\ gM g <= Z.of_nat (length (gD g)) /\ Z.of_nat (length (gD g)) <= ga g + 15 /\ 0 <= gr g.
Definition dn (g : gh) (i : Z) : list Z := nth (Z.to_nat i) (gD g) [].
Definition islot (f : frame) (d : list Z) : Prop :=
  flen f = 3 + Z.of_nat (length d) /\ firstn (length d) (skipn 3 (fbuf f)) = d.

Definition timing (s : v42) : Prop := rate s = 28800 /\ 0 <= timer s /\ (timer s <> 0 -> tfunc s = T401 \/ tfunc s = T403).
(** What holds in every state of the link. *)
Definition R0 (s : v42) (g : gh) : Prop :=
  Rc (ctrl_put s) (ctrl_get s) (ctrl_buf s) (gq g) /\ Forall ctl (gq g) /\ timing s /\
  cfg s = default_limits /\ lim s = default_limits /\ configuring s = false /\
  length (info_buf s) = 16%nat /\ Forall sized (info_buf s) /\ answers_fit (app s) /\ bnd g.
(** What holds when the connection is up.  [T]: all the application has been ready to send. *)
Definition R1 (T : list (list Z)) (s : v42) (g : gh) : Prop :=
  va s = ga g mod 128 /\ vs s = gs g mod 128 /\ vr s = gr g mod 128 /\
  info_acked s = ga g mod 16 /\ info_get s = gs g mod 16 /\ info_put s = Z.of_nat (length (gD g)) mod 16 /\
  Forall (fun d => (1 <= length d <= 128)%nat) (gD g) /\
  (forall i, ga g <= i < Z.of_nat (length (gD g)) -> islot (fnth (info_buf s) (i mod 16)) (dn g i)) /\
  T = gD g ++ data (app s).

(** ---- what can be done to them; [N]: the N(R) of the frame received ---- *)
Inductive mv (N : option Z) : gh -> gh -> Prop :=
| mv_ack g n : N = Some n -> ga g <= n <= gs g -> mv N g (mkG (gD g) n (gs g) (gM g) (gr g) (gq g))
| mv_back g : mv N g (mkG (gD g) (ga g) (ga g) (gM g) (gr g) (gq g))
| mv_fetch g d : Z.of_nat (length (gD g)) < ga g + 15 -> mv N g (mkG (gD g ++ [d]) (ga g) (gs g) (gM g) (gr g) (gq g))
| mv_sup g ad k pf : mv N g (mkG (gD g) (ga g) (gs g) (gM g) (gr g) (gq g ++ [AS ad k pf (gr g)]))
| mv_un g ad c : mv N g (mkG (gD g) (ga g) (gs g) (gM g) (gr g) (gq g ++ [AU ad c]))
| mv_flush g : mv N g (mkG (gD g) (ga g) (gs g) (gM g) (gr g) []).
Inductive mvs (N : option Z) : gh -> gh -> Prop :=
| mvs_nil g : mvs N g g
| mvs_cons g g' g'' : mv N g g' -> mvs N g' g'' -> mvs N g g''.
Lemma mvs_one N g g' : mv N g g' -> mvs N g g'.
Proof. intros H. eapply mvs_cons; [exact H|apply mvs_nil]. Qed.
Lemma mvs_trans N g g' g'' : mvs N g g' -> mvs N g' g'' -> mvs N g g''.
Proof. intros H H'. induction H; [exact H'|]. eapply mvs_cons; [eassumption|auto]. Qed.
Lemma mv_bnd N g g' : mv N g g' -> bnd g -> bnd g'.
Proof.
  intros H B. unfold bnd in *. destruct H; cbn [gD ga gs gM gr gq]; try lia.
  rewrite app_length. cbn [length]. lia.
Qed.
Lemma mvs_bnd N g g' : mvs N g g' -> bnd g -> bnd g'.
Proof. intros H. induction H; auto. intros B. apply IHmvs. eapply mv_bnd; eassumption. Qed.
Lemma mv_r N g g' : mv N g g' -> gr g' = gr g.
Proof. intros []; reflexivity. Qed.
Lemma mvs_r N g g' : mvs N g g' -> gr g' = gr g.
Proof. intros H. induction H; auto. rewrite IHmvs. eapply mv_r; eassumption. Qed.
Lemma mvs_none N g g' : mvs None g g' -> mvs N g g'.
Proof.
  intros H. induction H; [apply mvs_nil|]. eapply mvs_cons; [|eassumption].
  destruct H; [discriminate|apply mv_back|apply mv_fetch; assumption|apply mv_sup|apply mv_un|apply mv_flush].
Qed.

(** R0 and R1 together, and the same with the fields that do not matter left free *)
Definition RR (T : list (list Z)) (s : v42) (g : gh) : Prop := R0 s g /\ R1 T s g.

Lemma R0_q s g p l q' : R0 s g -> Rc p (ctrl_get s) l q' -> Forall ctl q' ->
  R0 (w_ctrl_put p (w_ctrl_buf l s)) (mkG (gD g) (ga g) (gs g) (gM g) (gr g) q').
Proof.
  intros (H1 & H2 & H3 & H4 & H5 & H6 & H7 & H8 & H9 & H10) Hc Hq.
  split; [exact Hc|]. split; [exact Hq|]. split; [exact H3|]. split; [exact H4|]. split; [exact H5|]. split; [exact H6|].
  split; [exact H7|]. split; [exact H8|]. split; [exact H9|exact H10].
Qed.
Lemma eta_q g : mkG (gD g) (ga g) (gs g) (gM g) (gr g) (gq g) = g.
Proof. destruct g; reflexivity. Qed.
Lemma app_ctl q f : Forall ctl q -> ctl f -> Forall ctl (q ++ [f]).
Proof. intros H Hf. apply Forall_app. split; [exact H|]. constructor; [exact Hf|constructor]. Qed.

(** fields only the control queue's contents of which are changed *)
Definition same_but_ctrl (s s' : v42) : Prop := exists p l, s' = w_ctrl_put p (w_ctrl_buf l s).

Lemma tx_supervisory_rel T s g N ad k pf : R0 s g -> vr s = gr g mod 128 -> (k = 0 \/ k = 4 \/ k = 8) -> (pf = 0 \/ pf = 1) ->
  exists s' g', tx_supervisory s ad k pf = Ok s' /\ same_but_ctrl s s' /\ R0 s' g' /\ (R1 T s g -> R1 T s' g') /\ mvs N g g'.
Proof.
  intros HR Hv Hk Hpf. unfold tx_supervisory.
  assert (Hlor : Z.lor 1 k = 1 + k) by (destruct Hk as [-> | [-> | ->]]; reflexivity).
  rewrite Hlor, oct2pf by (rewrite ?Hv; auto using mod128). rewrite Hv.
  pose proof HR as (Hc & Hq & _).
  destruct (put_ring s (gq g) (AS ad k pf (gr g)) [ad; 1 + k; 2 * (gr g mod 128) + pf] Hc ltac:(cbn; auto) eq_refl)
    as (p & l & q' & He & Hc' & Hcase).
  change 3 with (Z.of_nat (length [ad; 1 + k; 2 * (gr g mod 128) + pf])). rewrite He.
  exists (w_ctrl_put p (w_ctrl_buf l s)), (mkG (gD g) (ga g) (gs g) (gM g) (gr g) q').
  split; [reflexivity|]. split; [exists p, l; reflexivity|]. split; [|split].
  - apply R0_q; [exact HR|exact Hc'|]. destruct Hcase as [-> | ->]; [exact Hq|]. apply app_ctl; [exact Hq|]. cbn; auto.
  - intros H; exact H.
  - destruct Hcase as [-> | ->]; [rewrite eta_q; apply mvs_nil|]. apply mvs_one, mv_sup.
Qed.
Lemma tx_unnumbered_rel T s g N ad c : R0 s g -> (Z.lor 3 c = 0x53 \/ Z.lor 3 c = 0x73 \/ Z.lor 3 c = 0x1F) ->
  exists s' g', tx_unnumbered s ad c = Ok s' /\ same_but_ctrl s s' /\ R0 s' g' /\ (R1 T s g -> R1 T s' g') /\ mvs N g g'.
Proof.
  intros HR Hcc. unfold tx_unnumbered. pose proof HR as (Hc & Hq & _).
  destruct (put_ring s (gq g) (AU ad (Z.lor 3 c)) [ad; Z.lor 3 c] Hc ltac:(cbn; auto) eq_refl)
    as (p & l & q' & He & Hc' & Hcase).
  change 2 with (Z.of_nat (length [ad; Z.lor 3 c])). rewrite He.
  exists (w_ctrl_put p (w_ctrl_buf l s)), (mkG (gD g) (ga g) (gs g) (gM g) (gr g) q').
  split; [reflexivity|]. split; [exists p, l; reflexivity|]. split; [|split].
  - apply R0_q; [exact HR|exact Hc'|]. destruct Hcase as [-> | ->]; [exact Hq|]. apply app_ctl; [exact Hq|]. cbn; auto.
  - intros H; exact H.
  - destruct Hcase as [-> | ->]; [rewrite eta_q; apply mvs_nil|]. apply mvs_one, mv_un.
Qed.

(** timers and flags *)
Lemma R0_timer s g n f r : R0 s g -> 0 <= n -> (n <> 0 -> f = T401 \/ f = T403) -> R0 (w_retry r (set_timer s n f)) g.
Proof.
  intros (H1 & H2 & H3 & H4 & H5 & H6 & H7 & H8 & H9 & H10) Hn Hf.
  split; [exact H1|]. split; [exact H2|]. split; [split; [exact (proj1 H3)|split; [exact Hn|exact Hf]]|]. split; [exact H4|]. split; [exact H5|]. split; [exact H6|].
  split; [exact H7|]. split; [exact H8|]. split; [exact H9|exact H10].
Qed.
