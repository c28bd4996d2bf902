(** Proofs about the scramblers. *)
From Verif Require Import Base Scram_model Scram_spec.
From Coq Require Import ZifyBool ZifyNat.
Local Open Scope Z_scope.

Lemma land1 x : Z.land x 1 = Z.b2z (Z.odd x).
Proof.
  change 1 with (Z.ones 1) at 1. rewrite Z.land_ones by lia. change (2 ^ 1) with 2. rewrite Zmod_odd. destruct (Z.odd x); reflexivity.
Qed.
Lemma odd_b2z b : Z.odd (Z.b2z b) = b.
Proof. destruct b; reflexivity. Qed.
Lemma odd_shiftr x n : 0 <= n -> Z.odd (Z.shiftr x n) = Z.testbit x n.
Proof. intros H. rewrite <- Z.bit0_odd, Z.shiftr_spec by lia. reflexivity. Qed.
Lemma odd_lxor a b : Z.odd (Z.lxor a b) = xorb (Z.odd a) (Z.odd b).
Proof. rewrite <- !Z.bit0_odd. apply Z.lxor_spec. Qed.
Lemma odd_land a b : Z.odd (Z.land a b) = Z.odd a && Z.odd b.
Proof. rewrite <- !Z.bit0_odd. apply Z.land_spec. Qed.

Lemma tapped_spec b r t1 t2 : 0 <= t1 -> 0 <= t2 ->
  tapped (Z.b2z b) r t1 t2 = Z.b2z (xorb b (xorb (Z.testbit r t1) (Z.testbit r t2))).
Proof.
  intros. unfold tapped. rewrite land1, !odd_lxor, odd_b2z, !odd_shiftr by lia. f_equal. apply xorb_assoc.
Qed.
Lemma land1_b2z b : Z.land (Z.b2z b) 1 = Z.b2z b.
Proof. destruct b; reflexivity. Qed.
Lemma lxor1 b : Z.lxor (Z.b2z b) 1 = Z.b2z (negb b).
Proof. destruct b; reflexivity. Qed.

Lemma shift_in_bit r b k : 0 <= k < 32 ->
  Z.testbit (shift_in r (Z.b2z b)) k = if k =? 0 then b else Z.testbit r (k - 1).
Proof.
  intros H. unfold shift_in, u32. change 4294967296 with (2 ^ 32). rewrite Z.mod_pow2_bits_low by lia.
  rewrite Z.lor_spec, Z.shiftl_spec by lia.
  destruct (Z.eqb_spec k 0) as [->|E].
  - rewrite Z.testbit_neg_r by lia. cbn [orb]. apply Z.bit0_odd || (rewrite Z.bit0_odd; apply odd_b2z).
  - replace (Z.testbit (Z.b2z b) k) with false; [apply orb_false_r|].
    symmetry. destruct b; [|apply Z.bits_0]. cbn [Z.b2z]. apply Z.bits_above_log2; [lia|]. change (Z.log2 1) with 0. lia.
Qed.

(** Registers that agree in their low [n] bits. *)
Definition agree (n r r' : Z) : Prop := forall k, 0 <= k < n -> Z.testbit r k = Z.testbit r' k.
Lemma agree_shift n r r' b : 0 <= n <= 31 -> agree n r r' ->
  agree (n + 1) (shift_in r (Z.b2z b)) (shift_in r' (Z.b2z b)).
Proof.
  intros Hn H k Hk. rewrite !shift_in_bit by lia. destruct (k =? 0) eqn:E; [reflexivity|]. apply H. lia.
Qed.
Lemma agree_less n m r r' : m <= n -> agree n r r' -> agree m r r'.
Proof. intros H A k Hk. apply A. lia. Qed.
Lemma agree_refl n r : agree n r r.
Proof. intros k Hk. reflexivity. Qed.

(** A scrambler and its descrambler, in general: [m] masks the data and [nc] is
    the next count, given the line bit. *)
Section Generic.
Variable m : Z -> Z -> bool.
Variable nc : Z -> Z -> bool -> Z.
Variable K : Z.
Hypothesis HK : 0 <= K <= 31.
Hypothesis m_low : forall r r' c, agree K r r' -> m r c = m r' c.
Hypothesis nc_low : forall r r' c y, agree K r r' -> nc r c y = nc r' c y.

Definition gtx (s : Z * Z) (b : bool) : bool * (Z * Z) :=
  let y := xorb b (m (fst s) (snd s)) in (y, (shift_in (fst s) (Z.b2z y), nc (fst s) (snd s) y)).
Definition grx (s : Z * Z) (y : bool) : bool * (Z * Z) :=
  (xorb y (m (fst s) (snd s)), (shift_in (fst s) (Z.b2z y), nc (fst s) (snd s) y)).

Fixpoint grun (step : Z * Z -> bool -> bool * (Z * Z)) (s : Z * Z) (l : list bool) : list bool * (Z * Z) :=
  match l with
  | [] => ([], s)
  | b :: t => let (o, s1) := step s b in let (os, s2) := grun step s1 t in (o :: os, s2)
  end.

Lemma grun_app step s a b :
  grun step s (a ++ b) = let (o1, s1) := grun step s a in let (o2, s2) := grun step s1 b in (o1 ++ o2, s2).
Proof.
  revert s. induction a as [|x a IH]; intros s; cbn [grun app].
  - destruct (grun step s b); reflexivity.
  - destruct (step s x) as (o, s1). rewrite IH. destruct (grun step s1 a) as (o1, s2). destruct (grun step s2 b). reflexivity.
Qed.
Lemma grun_length step s a : length (fst (grun step s a)) = length a.
Proof.
  revert s. induction a as [|x a IH]; intros s; cbn [grun]; [reflexivity|].
  destruct (step s x) as (o, s1). specialize (IH s1). destruct (grun step s1 a). cbn [fst length] in *. f_equal. assumption.
Qed.

(** In step, everything is recovered. *)
Lemma g_inverse r c r' d : agree K r r' -> fst (grun grx (r', c) (fst (grun gtx (r, c) d))) = d.
Proof.
  revert r c r'. induction d as [|b d IH]; intros r c r' A; [reflexivity|].
  cbn [grun gtx fst snd].
  set (y := xorb b (m r c)).
  destruct (grun gtx (shift_in r (Z.b2z y), nc r c y) d) as (ys, s2) eqn:E. cbn [fst grun grx snd].
  rewrite <- (m_low r r' c A), <- (nc_low r r' c y A).
  specialize (IH (shift_in r (Z.b2z y)) (nc r c y) (shift_in r' (Z.b2z y))).
  rewrite E in IH. cbn [fst] in IH.
  destruct (grun grx (shift_in r' (Z.b2z y), nc r c y) ys) as (os, s3). cbn [fst] in *.
  rewrite IH.
  - f_equal. unfold y. rewrite xorb_assoc, xorb_nilpotent. apply xorb_false_r.
  - apply agree_less with (n := K + 1); [lia|]. apply agree_shift; [lia|assumption].
Qed.

(** The receiver's register, and the count under any hypothesis that makes them equal. *)
Lemma g_regs n r c r' c' d : 0 <= n -> agree (Z.min n K) r r' ->
  let '(y, s) := grun gtx (r, c) d in
  let '(o, s') := grun grx (r', c') y in
  agree (Z.min (n + Z.of_nat (length d)) K) (fst s) (fst s').
Proof.
  revert n r c r' c'. induction d as [|b d IH]; intros n r c r' c' Hn A; cbn [grun length].
  - replace (n + Z.of_nat 0) with n by lia. assumption.
  - cbn [gtx fst snd]. set (y := xorb b (m r c)).
    specialize (IH (n + 1) (shift_in r (Z.b2z y)) (nc r c y) (shift_in r' (Z.b2z y)) (nc r' c' y)).
    destruct (grun gtx (shift_in r (Z.b2z y), nc r c y) d) as (ys, s2). cbn [grun grx fst snd].
    destruct (grun grx (shift_in r' (Z.b2z y), nc r' c' y) ys) as (os, s3).
    replace (n + Z.of_nat (S (length d))) with (n + 1 + Z.of_nat (length d)) by lia.
    apply IH; [lia|]. apply agree_less with (n := Z.min n K + 1); [lia|]. apply agree_shift; [lia|assumption].
Qed.
Lemma g_sync r c r' c' d1 d2 : K <= Z.of_nat (length d1) ->
  (snd (snd (grun gtx (r, c) d1)) = snd (snd (grun grx (r', c') (fst (grun gtx (r, c) d1))))) ->
  skipn (length d1) (fst (grun grx (r', c') (fst (grun gtx (r, c) (d1 ++ d2))))) = d2.
Proof.
  intros HL HC. pose proof (g_regs 0 r c r' c' d1 ltac:(lia)) as HR.
  rewrite grun_app. pose proof (grun_length gtx (r, c) d1) as L1.
  destruct (grun gtx (r, c) d1) as (y1, (r1, c1)). destruct (grun gtx (r1, c1) d2) as (y2, s2) eqn:E2.
  cbn [fst snd] in *. rewrite grun_app. pose proof (grun_length grx (r', c') y1) as L2.
  destruct (grun grx (r', c') y1) as (o1, (r1', c1')). cbn [fst snd] in *. subst c1'.
  destruct (grun grx (r1', c1) y2) as (o2, s3) eqn:E3. cbn [fst].
  rewrite <- L1, <- L2, skipn_app, skipn_all, Nat.sub_diag. cbn [skipn app].
  pose proof (g_inverse r1 c1 r1' d2) as G. rewrite E2 in G. cbn [fst] in G. rewrite E3 in G. apply G.
  apply agree_less with (n := Z.min (0 + Z.of_nat (length d1)) K); [lia|]. apply HR.
  intros k Hk. lia.
Qed.

End Generic.

(** The line bits are in the register, latest first. *)
Lemma g_history m nc r c d : let '(y, s) := grun (gtx m nc) (r, c) d in
  forall k, (k < length d)%nat -> (k < 32)%nat -> Z.testbit (fst s) (Z.of_nat k) = bit y (length d - 1 - k).
Proof.
  induction d as [|b d IH] using rev_ind; [cbn; intros; lia|].
  rewrite grun_app. pose proof (grun_length (gtx m nc) (r, c) d) as L.
  destruct (grun (gtx m nc) (r, c) d) as (y, (r1, c1)). cbn [grun gtx fst snd] in *.
  intros k Hk H32. rewrite app_length in *. cbn [length] in *.
  rewrite shift_in_bit by lia. destruct (Z.eqb_spec (Z.of_nat k) 0) as [E|E].
  - replace (length d + 1 - 1 - k)%nat with (length y) by lia. unfold bit. rewrite app_nth2, Nat.sub_diag by lia. reflexivity.
  - replace (Z.of_nat k - 1) with (Z.of_nat (k - 1)) by lia. rewrite IH by lia.
    unfold bit. rewrite app_nth1 by lia. f_equal. lia.
Qed.

(** [run] of a modelled step is [grun] of a generic one. *)
Lemma run_grun {S} (step : S -> Z -> Z * S) (f : Z * Z -> S) g l :
  (forall s b, step (f s) (Z.b2z b) = (Z.b2z (fst (g s b)), f (snd (g s b)))) ->
  forall s, run step (f s) (zs l) = (zs (fst (grun g s l)), f (snd (grun g s l))).
Proof.
  intros H. induction l as [|b l IH]; intros s; [reflexivity|].
  cbn [zs map run grun]. rewrite H. destruct (g s b) as (o, s1). cbn [fst snd].
  fold (zs l). rewrite IH. destruct (grun g s1 l) as (os, s2). reflexivity.
Qed.

Lemma zs_app a b : zs (a ++ b) = zs a ++ zs b.
Proof. apply map_app. Qed.
Lemma zs_skipn n a : zs (skipn n a) = skipn n (zs a).
Proof. symmetry. apply skipn_map. Qed.
Lemma zs_length a : length (zs a) = length a.
Proof. apply map_length. Qed.

(** ---- the two tap scramblers: V.17, V.29 and V.34 ---- *)
Section TwoTaps.
Variable tap : Z.
Hypothesis Htap : 0 <= tap <= 22.
Definition m2 (r c : Z) : bool := xorb (Z.testbit r tap) (Z.testbit r 22).
Definition nc2 (r c : Z) (y : bool) : Z := c.
Lemma m2_low r r' c : agree 23 r r' -> m2 r c = m2 r' c.
Proof. intros A. unfold m2. rewrite !(A tap), (A 22) by lia. reflexivity. Qed.
Lemma nc2_low r r' c y : agree 23 r r' -> nc2 r c y = nc2 r' c y.
Proof. reflexivity. Qed.

Lemma v17_tx_inst s b : v17_scramble tap (fst s) (Z.b2z b) = (Z.b2z (fst (gtx m2 nc2 s b)), fst (snd (gtx m2 nc2 s b))).
Proof. destruct s as (r, c). unfold v17_scramble, gtx. cbn [fst snd]. rewrite tapped_spec by lia. reflexivity. Qed.
Lemma v17_rx_inst stage s b : (V17_NORMAL <? stage) && (stage <? V17_TCM_WINDUP) = false ->
  v17_descramble stage tap (fst s) (Z.b2z b) = (Z.b2z (fst (grx m2 nc2 s b)), fst (snd (grx m2 nc2 s b))).
Proof.
  intros H. destruct s as (r, c). unfold v17_descramble, grx. cbn [fst snd]. rewrite H, !land1_b2z, tapped_spec by lia. reflexivity.
Qed.
Lemma v34_rx_inst s b : v34_descramble tap (fst s) (Z.b2z b) = (Z.b2z (fst (grx m2 nc2 s b)), fst (snd (grx m2 nc2 s b))).
Proof. destruct s as (r, c). unfold v34_descramble, grx. cbn [fst snd]. rewrite tapped_spec by lia. reflexivity. Qed.
End TwoTaps.

Lemma two_sync (desc : Z -> Z -> Z * Z) tap : 0 <= tap <= 22 ->
  (forall s b, desc (fst s) (Z.b2z b) = (Z.b2z (fst (grx (m2 tap) nc2 s b)), fst (snd (grx (m2 tap) nc2 s b)))) ->
  forall r r' d,
  skipn 23 (fst (run desc r' (fst (run (v17_scramble tap) r (zs d))))) = skipn 23 (zs d) /\
  (r = r' -> fst (run desc r' (fst (run (v17_scramble tap) r (zs d)))) = zs d).
Proof.
  intros Ht Hd r r' d. change r with (fst (r, 0)) at 1 3. change r' with (fst (r', 0)) at 1 3.
  rewrite (run_grun (v17_scramble tap) fst (gtx (m2 tap) nc2)) by (intros; apply v17_tx_inst; assumption). cbn [fst].
  change r' with (fst (r', 0)). rewrite (run_grun desc fst (grx (m2 tap) nc2)) by assumption. cbn [fst].
  split.
  - rewrite <- !zs_skipn. f_equal.
    destruct (Nat.lt_ge_cases (length d) 23) as [H|H].
    + rewrite !skipn_all2; [reflexivity|lia|]. rewrite !grun_length. lia.
    + pose proof (g_sync (m2 tap) nc2 23 ltac:(lia) (fun r r' c => m2_low tap Ht r r' c) nc2_low r 0 r' 0 (firstn 23 d) (skipn 23 d)) as G.
      assert (L : length (firstn 23 d) = 23%nat) by (rewrite firstn_length; lia).
      rewrite firstn_skipn, L in G. apply G; [lia|]. clear G L.
      generalize (firstn 23 d). intros l.
      assert (Hc : forall step l s, (forall s b, snd (snd (step s b)) = snd s) -> snd (snd (grun step s l)) = snd s).
      { clear. intros step l. induction l as [|b l IH]; intros s H; [reflexivity|]. cbn [grun].
        specialize (H s b) as H1. destruct (step s b) as (o, s1). specialize (IH s1 H). destruct (grun step s1 l). cbn [snd] in *. congruence. }
      rewrite !Hc; reflexivity.
  - intros <-. f_equal. apply (g_inverse (m2 tap) nc2 23); [lia|intros; apply m2_low; assumption|intros; reflexivity|apply agree_refl].
Qed.

Theorem v17_roundtrip : forall tap stage r d, 0 <= tap <= 22 -> ~ (V17_NORMAL < stage < V17_TCM_WINDUP) ->
  fst (run (v17_descramble stage tap) r (fst (run (v17_scramble tap) r (zs d)))) = zs d.
Proof.
  intros tap stage r d Ht Hs. apply (two_sync _ tap Ht); [|reflexivity].
  intros s b. apply v17_rx_inst; [assumption|]. lia.
Qed.
Theorem v17_selfsync : forall tap stage r r' d, 0 <= tap <= 22 -> ~ (V17_NORMAL < stage < V17_TCM_WINDUP) ->
  skipn 23 (fst (run (v17_descramble stage tap) r' (fst (run (v17_scramble tap) r (zs d))))) = skipn 23 (zs d).
Proof.
  intros tap stage r r' d Ht Hs. apply (two_sync _ tap Ht).
  intros s b. apply v17_rx_inst; [assumption|]. lia.
Qed.
(** During training the receiver regenerates the transmitted sequence. *)
Theorem v17_training : forall tap stage r b, 0 <= tap <= 22 -> V17_NORMAL < stage < V17_TCM_WINDUP ->
  v17_descramble stage tap r (Z.b2z b) = v17_scramble tap r (Z.b2z b).
Proof.
  intros. unfold v17_descramble, v17_scramble. replace ((V17_NORMAL <? stage) && (stage <? V17_TCM_WINDUP)) with true by lia.
  rewrite land1_b2z. reflexivity.
Qed.
Theorem v17_polynomial : forall tap r d, 0 <= tap <= 22 ->
  exists y, fst (run (v17_scramble tap) r (zs d)) = zs y /\ scrambled (Z.to_nat (tap + 1)) 23 d y.
Proof.
  intros tap r d Ht. change r with (fst (r, 0)).
  rewrite (run_grun (v17_scramble tap) fst (gtx (m2 tap) nc2)) by (intros; apply v17_tx_inst; assumption).
  exists (fst (grun (gtx (m2 tap) nc2) (r, 0) d)). split; [reflexivity|]. split; [apply grun_length|].
  intros n H1 H2 Hn.
  assert (E : d = firstn n d ++ nth n d false :: skipn (S n) d).
  { rewrite <- (firstn_skipn n d) at 1. f_equal. clear - Hn. revert n Hn. induction d as [|b d IH]; intros n H; cbn [length] in H; [lia|].
    destruct n; [reflexivity|]. cbn [skipn nth]. apply IH. lia. }
  assert (L : length (firstn n d) = n) by (rewrite firstn_length; lia).
  unfold bit at 2.
  set (a := firstn n d) in *. set (b := nth n d false) in *. set (e := skipn (S n) d) in *. clearbody a b e. subst d.
  rewrite grun_app. pose proof (g_history (m2 tap) nc2 r 0 a) as G. pose proof (grun_length (gtx (m2 tap) nc2) (r, 0) a) as La.
  destruct (grun (gtx (m2 tap) nc2) (r, 0) a) as (ya, (r1, c1)). cbn [grun fst snd] in *.
  unfold gtx at 1 3 5. cbn [fst snd].
  destruct (grun (gtx (m2 tap) nc2) _ e) as (ye, se). cbn [fst]. unfold bit in *.
  rewrite (app_nth2 ya) with (n := n) by lia. rewrite !(app_nth1 ya) by lia. replace (n - length ya)%nat with 0%nat by lia. cbn [nth].
  f_equal. unfold m2. rewrite <- (Z2Nat.id tap) by lia. rewrite G by lia. change 22 with (Z.of_nat 22). rewrite G by lia.
  f_equal; f_equal; lia.
Qed.

Theorem v34_roundtrip : forall calling r d,
  fst (run (v34_descramble (v34_rx_tap (negb calling))) r (fst (run (v34_scramble (v34_tx_tap calling)) r (zs d)))) = zs d /\
  forall r', skipn 23 (fst (run (v34_descramble (v34_rx_tap (negb calling))) r' (fst (run (v34_scramble (v34_tx_tap calling)) r (zs d))))) = skipn 23 (zs d).
Proof.
  intros calling r d. replace (v34_rx_tap (negb calling)) with (v34_tx_tap calling) by (destruct calling; reflexivity).
  assert (Ht : 0 <= v34_tx_tap calling <= 22) by (destruct calling; cbn; lia).
  split; [|intros r'].
  - apply (two_sync _ _ Ht); [|reflexivity]. intros. apply v34_rx_inst. assumption.
  - apply (two_sync _ _ Ht). intros. apply v34_rx_inst. assumption.
Qed.

Lemma v29_rx_inst s b : v29_descramble (fst s) (Z.b2z b) = (Z.b2z (fst (grx (m2 17) nc2 s b)), fst (snd (grx (m2 17) nc2 s b))).
Proof. destruct s as (r, c). unfold v29_descramble, grx. cbn [fst snd]. rewrite !land1_b2z, tapped_spec by lia. reflexivity. Qed.
Lemma v29_tx_is r b : v29_scramble r b = v17_scramble 17 r b.
Proof. reflexivity. Qed.
Theorem v29_roundtrip : forall r d, fst (run v29_descramble r (fst (run v29_scramble r (zs d)))) = zs d.
Proof. intros r d. apply (two_sync _ 17 ltac:(lia)); [|reflexivity]. intros. apply v29_rx_inst. Qed.
Theorem v29_selfsync : forall r r' d, skipn 23 (fst (run v29_descramble r' (fst (run v29_scramble r (zs d))))) = skipn 23 (zs d).
Proof. intros r r' d. apply (two_sync _ 17 ltac:(lia)). intros. apply v29_rx_inst. Qed.
Theorem v29_training : forall reg, 0 <= reg < 256 -> v29_rx_training_bit reg = v29_tx_training_bit reg.
Proof.
  intros reg H. assert (A : forallb (fun x => (fst (v29_rx_training_bit x) =? fst (v29_tx_training_bit x)) && (snd (v29_rx_training_bit x) =? snd (v29_tx_training_bit x)))
    (map Z.of_nat (seq 0 256)) = true) by (vm_compute; reflexivity).
  rewrite forallb_forall in A. specialize (A reg).
  assert (In reg (map Z.of_nat (seq 0 256))). { apply in_map_iff. exists (Z.to_nat reg). split; [lia|]. apply in_seq. lia. }
  specialize (A H0). rewrite (surjective_pairing (v29_rx_training_bit reg)), (surjective_pairing (v29_tx_training_bit reg)). f_equal; lia.
Qed.

(** ---- V.27ter ---- *)
Definition m27 (r c : Z) : bool := xorb (xorb (Z.testbit r 5) (Z.testbit r 6)) (33 <=? c).
Definition differs27 (r : Z) (y : bool) : bool := xorb (Z.testbit r 7) y && xorb (Z.testbit r 8) y && xorb (Z.testbit r 11) y.
Definition nc27 (r c : Z) (y : bool) : Z := if 33 <=? c then 0 else if differs27 r y then 0 else c + 1.
Lemma v27_differs_spec r y : v27_differs r (Z.b2z y) = differs27 r y.
Proof.
  unfold v27_differs, differs27. rewrite land1, !odd_land, !odd_lxor, !odd_shiftr, odd_b2z by lia.
  destruct (xorb (Z.testbit r 7) y), (xorb (Z.testbit r 8) y), (xorb (Z.testbit r 11) y); reflexivity.
Qed.
Lemma m27_low r r' c : agree 12 r r' -> m27 r c = m27 r' c.
Proof. intros A. unfold m27. rewrite (A 5), (A 6) by lia. reflexivity. Qed.
Lemma differs27_low r r' y : agree 12 r r' -> differs27 r y = differs27 r' y.
Proof. intros A. unfold differs27. rewrite (A 7), (A 8), (A 11) by lia. reflexivity. Qed.
Lemma nc27_low r r' c y : agree 12 r r' -> nc27 r c y = nc27 r' c y.
Proof. intros A. unfold nc27. rewrite (differs27_low r r' y A). reflexivity. Qed.

Lemma v27_tx_inst s b : v27_scramble s (Z.b2z b) = (Z.b2z (fst (gtx m27 nc27 s b)), snd (gtx m27 nc27 s b)).
Proof.
  destruct s as (r, c). unfold v27_scramble, gtx, m27, nc27. cbn [fst snd]. rewrite tapped_spec by lia.
  destruct (33 <=? c).
  - rewrite lxor1. replace (negb (xorb b (xorb (Z.testbit r 5) (Z.testbit r 6)))) with
      (xorb b (xorb (xorb (Z.testbit r 5) (Z.testbit r 6)) true)) by (destruct b, (Z.testbit r 5), (Z.testbit r 6); reflexivity).
    reflexivity.
  - rewrite v27_differs_spec, xorb_false_r. reflexivity.
Qed.
Lemma v27_rx_inst stage s b : (V27_NORMAL <? stage) && (stage <? V27_TEST_ONES) = false ->
  v27_descramble stage s (Z.b2z b) = (Z.b2z (fst (grx m27 nc27 s b)), snd (grx m27 nc27 s b)).
Proof.
  intros H. destruct s as (r, c). unfold v27_descramble, grx, m27, nc27. cbn [fst snd]. rewrite H, land1_b2z, tapped_spec by lia.
  destruct (33 <=? c).
  - rewrite lxor1. replace (negb (xorb b (xorb (Z.testbit r 5) (Z.testbit r 6)))) with
      (xorb b (xorb (xorb (Z.testbit r 5) (Z.testbit r 6)) true)) by (destruct b, (Z.testbit r 5), (Z.testbit r 6); reflexivity).
    reflexivity.
  - rewrite v27_differs_spec, xorb_false_r. reflexivity.
Qed.

Definition id2 (s : Z * Z) := s.
Lemma v27_run_tx s d : run v27_scramble s (zs d) = (zs (fst (grun (gtx m27 nc27) s d)), snd (grun (gtx m27 nc27) s d)).
Proof. apply (run_grun v27_scramble id2). intros. apply v27_tx_inst. Qed.
Lemma v27_run_rx stage s d : ~ (V27_NORMAL < stage < V27_TEST_ONES) ->
  run (v27_descramble stage) s (zs d) = (zs (fst (grun (grx m27 nc27) s d)), snd (grun (grx m27 nc27) s d)).
Proof. intros H. apply (run_grun (v27_descramble stage) id2). intros. apply v27_rx_inst. lia. Qed.

Theorem v27_roundtrip : forall stage s d, ~ (V27_NORMAL < stage < V27_TEST_ONES) ->
  fst (run (v27_descramble stage) s (fst (run v27_scramble s (zs d)))) = zs d.
Proof.
  intros stage (r, c) d H. rewrite v27_run_tx. cbn [fst]. rewrite v27_run_rx by assumption. cbn [fst]. f_equal.
  apply (g_inverse m27 nc27 12); [lia|exact m27_low|exact nc27_low|apply agree_refl].
Qed.

(** The count of the receiver is that of the transmitter after a restart on the line. *)
Lemma v27_counts d : forall r c r' c',
  (exists n, v27_restart (fst (grun (gtx m27 nc27) (r, c) d)) n) ->
  snd (snd (grun (gtx m27 nc27) (r, c) d)) = snd (snd (grun (grx m27 nc27) (r', c') (fst (grun (gtx m27 nc27) (r, c) d)))).
Proof.
  induction d as [|b d IH] using rev_ind; intros r c r' c' (n & (H12 & Hn) & H8 & H9 & H11); [cbn in Hn; lia|].
  pose proof (g_regs m27 nc27 12 ltac:(lia) m27_low nc27_low 0 r c r' c' d ltac:(lia)) as HR.
  pose proof (g_history m27 nc27 r c d) as G.
  specialize (IH r c r' c').
  rewrite grun_app in *. pose proof (grun_length (gtx m27 nc27) (r, c) d) as La.
  destruct (grun (gtx m27 nc27) (r, c) d) as (y, (r1, c1)). cbn [fst snd grun] in *.
  set (yb := fst (gtx m27 nc27 (r1, c1) b)) in *.
  unfold gtx in Hn, H8, H9, H11. cbn [fst snd] in *. fold yb in Hn, H8, H9, H11.
  change (xorb b (m27 r1 c1)) with yb in *.
  unfold gtx. cbn [fst snd]. change (xorb b (m27 r1 c1)) with yb.
  rewrite grun_app. destruct (grun (grx m27 nc27) (r', c') y) as (o, (r1', c1')). cbn [grun grx fst snd] in *.
  rewrite app_length in Hn. cbn [length] in Hn.
  assert (A : (12 <= length d)%nat -> agree 12 r1 r1').
  { intros HL. apply agree_less with (n := Z.min (0 + Z.of_nat (length d)) 12); [lia|]. apply HR. intros k Hk. lia. }
  destruct (Nat.eq_dec n (length y)) as [E|E].
  - assert (D : differs27 r1 yb = true).
    { unfold differs27. change 7 with (Z.of_nat 7). change 8 with (Z.of_nat 8). change 11 with (Z.of_nat 11).
      rewrite !G by lia. unfold bit in *. rewrite (app_nth2 y) with (n := n) in * by lia. rewrite !(app_nth1 y) in * by lia.
      replace (n - length y)%nat with 0%nat in * by lia. cbn [nth] in *.
      replace (length d - 1 - 7)%nat with (n - 8)%nat by lia. replace (length d - 1 - 8)%nat with (n - 9)%nat by lia.
      replace (length d - 1 - 11)%nat with (n - 12)%nat by lia.
      destruct (nth (n - 8) y false), (nth (n - 9) y false), (nth (n - 12) y false), yb; try reflexivity; congruence. }
    unfold nc27. rewrite (differs27_low r1' r1) by (intros k Hk; symmetry; apply A; lia). rewrite D.
    destruct (33 <=? c1), (33 <=? c1'); reflexivity.
  - rewrite <- IH.
    + apply nc27_low. apply A. lia.
    + exists n. unfold v27_restart, bit in *. rewrite !(app_nth1 y) in * by lia. repeat split; (assumption || lia).
Qed.

Theorem v27_selfsync : forall stage s s' d1 d2 y1, ~ (V27_NORMAL < stage < V27_TEST_ONES) ->
  fst (run v27_scramble s (zs d1)) = zs y1 -> (exists n, v27_restart y1 n) ->
  skipn (length d1) (fst (run (v27_descramble stage) s' (fst (run v27_scramble s (zs (d1 ++ d2)))))) = zs d2.
Proof.
  intros stage (r, c) (r', c') d1 d2 y1 Hs Hy Hr.
  rewrite v27_run_tx in *. cbn [fst] in *. rewrite v27_run_rx by assumption. cbn [fst].
  assert (Hi : forall a b, zs a = zs b -> a = b).
  { clear. induction a as [|x a IH]; intros [|y b] E; try discriminate; [reflexivity|]. cbn [zs map] in E. injection E as E1 E2.
    f_equal; [destruct x, y; (reflexivity || discriminate)|apply IH; assumption]. }
  apply Hi in Hy. rewrite <- zs_skipn. f_equal.
  apply (g_sync m27 nc27 12); [lia|exact m27_low|exact nc27_low| |].
  - destruct Hr as (n & (H1 & H2) & _). pose proof (grun_length (gtx m27 nc27) (r, c) d1) as L. rewrite Hy in L. clear - H1 H2 L. lia.
  - apply v27_counts. rewrite Hy. assumption.
Qed.

(** ---- V.22bis ---- *)
Definition m22 (r c : Z) : bool := xorb (xorb (Z.testbit r 13) (Z.testbit r 16)) (64 <=? c).
Definition nc22 (r c : Z) (y : bool) : Z := if y then (if 64 <=? c then 0 else c) + 1 else 0.
Lemma m22_low r r' c : agree 17 r r' -> m22 r c = m22 r' c.
Proof. intros A. unfold m22. rewrite (A 13), (A 16) by lia. reflexivity. Qed.
Lemma nc22_low r r' c y : agree 17 r r' -> nc22 r c y = nc22 r' c y.
Proof. reflexivity. Qed.
Lemma v22_tx_inst s b : v22_scramble s (Z.b2z b) = (Z.b2z (fst (gtx m22 nc22 s b)), snd (gtx m22 nc22 s b)).
Proof.
  destruct s as (r, c). unfold v22_scramble, gtx, m22, nc22. cbn [fst snd].
  destruct (64 <=? c).
  - rewrite lxor1, tapped_spec by lia.
    replace (xorb (negb b) (xorb (Z.testbit r 13) (Z.testbit r 16))) with (xorb b (xorb (xorb (Z.testbit r 13) (Z.testbit r 16)) true))
      by (destruct b, (Z.testbit r 13), (Z.testbit r 16); reflexivity).
    destruct (xorb b _); reflexivity.
  - rewrite tapped_spec by lia. rewrite xorb_false_r. destruct (xorb b _); reflexivity.
Qed.
Lemma v22_rx_inst s b : v22_descramble s (Z.b2z b) = (Z.b2z (fst (grx m22 nc22 s b)), snd (grx m22 nc22 s b)).
Proof.
  destruct s as (r, c). unfold v22_descramble, grx, m22, nc22. cbn [fst snd]. rewrite land1_b2z, tapped_spec by lia.
  destruct (64 <=? c).
  - rewrite lxor1. replace (negb (xorb b (xorb (Z.testbit r 13) (Z.testbit r 16)))) with
      (xorb b (xorb (xorb (Z.testbit r 13) (Z.testbit r 16)) true)) by (destruct b, (Z.testbit r 13), (Z.testbit r 16); reflexivity).
    destruct b; reflexivity.
  - rewrite xorb_false_r. destruct b; reflexivity.
Qed.
Lemma v22_run_tx s d : run v22_scramble s (zs d) = (zs (fst (grun (gtx m22 nc22) s d)), snd (grun (gtx m22 nc22) s d)).
Proof. apply (run_grun v22_scramble id2). intros. apply v22_tx_inst. Qed.
Lemma v22_run_rx s d : run v22_descramble s (zs d) = (zs (fst (grun (grx m22 nc22) s d)), snd (grun (grx m22 nc22) s d)).
Proof. apply (run_grun v22_descramble id2). intros. apply v22_rx_inst. Qed.

Theorem v22_roundtrip : forall s d, fst (run v22_descramble s (fst (run v22_scramble s (zs d)))) = zs d.
Proof.
  intros (r, c) d. rewrite v22_run_tx. cbn [fst]. rewrite v22_run_rx. cbn [fst]. f_equal.
  apply (g_inverse m22 nc22 17); [lia|exact m22_low|exact nc22_low|apply agree_refl].
Qed.

Lemma v22_counts d : forall r c r' c', In false (fst (grun (gtx m22 nc22) (r, c) d)) ->
  snd (snd (grun (gtx m22 nc22) (r, c) d)) = snd (snd (grun (grx m22 nc22) (r', c') (fst (grun (gtx m22 nc22) (r, c) d)))).
Proof.
  induction d as [|b d IH] using rev_ind; intros r c r' c' Hin; [destruct Hin|].
  specialize (IH r c r' c'). rewrite grun_app in *.
  destruct (grun (gtx m22 nc22) (r, c) d) as (y, (r1, c1)). cbn [fst snd grun gtx] in *.
  set (yb := xorb b (m22 r1 c1)) in *. clearbody yb.
  rewrite grun_app. destruct (grun (grx m22 nc22) (r', c') y) as (o, (r1', c1')). cbn [grun grx fst snd] in *.
  apply in_app_or in Hin. destruct yb; [|reflexivity].
  destruct Hin as [H|[H|[]]]; [|discriminate]. rewrite (IH H). reflexivity.
Qed.
Theorem v22_selfsync : forall s s' d1 d2, (17 <= length d1)%nat -> In 0 (fst (run v22_scramble s (zs d1))) ->
  skipn (length d1) (fst (run v22_descramble s' (fst (run v22_scramble s (zs (d1 ++ d2)))))) = zs d2.
Proof.
  intros (r, c) (r', c') d1 d2 HL Hin. rewrite v22_run_tx in *. cbn [fst] in *. rewrite v22_run_rx. cbn [fst].
  rewrite <- zs_skipn. f_equal.
  apply (g_sync m22 nc22 17); [lia|exact m22_low|exact nc22_low|lia|].
  apply v22_counts. unfold zs in Hin. apply in_map_iff in Hin. destruct Hin as (x & Hx & Hi). destruct x; [discriminate|assumption].
Qed.

(** The guard: with steady ones as data the line carries at most 64 ones in a row. *)
Fixpoint lead (y : list bool) : Z := match y with true :: t => 1 + lead t | _ => 0 end.
Definition inv22 (r c : Z) : Prop := 0 <= c <= 64 /\ forall k, 0 <= k < Z.min c 17 -> Z.testbit r k = true.
Lemma v22_ones n : forall r c, inv22 r c ->
  let y := fst (grun (gtx m22 nc22) (r, c) (repeat true n)) in
  c + lead y <= 64 /\ forall k, lead (skipn k y) <= 64.
Proof.
  induction n as [|n IH]; intros r c (Hc & Hr).
  - cbn. split; [lia|]. intros [|k]; cbn; lia.
  - cbn [repeat grun gtx fst snd]. set (y := xorb true (m22 r c)).
    assert (Hi : inv22 (shift_in r (Z.b2z y)) (nc22 r c y) /\ (c = 64 -> y = false)).
    { unfold y, m22, nc22. split.
      - destruct (Z.leb_spec 64 c).
        + rewrite !Hr by lia. cbn [xorb]. split; [lia|]. intros k Hk. lia.
        + clear y. destruct (xorb true _); (split; [lia|]); intros k Hk; [|lia].
          rewrite shift_in_bit by lia. destruct (Z.eqb_spec k 0); [reflexivity|]. apply Hr. lia.
      - intros ->. rewrite !Hr by lia. reflexivity. }
    destruct Hi as (Hi & H64). specialize (IH _ _ Hi).
    destruct (grun (gtx m22 nc22) (shift_in r (Z.b2z y), nc22 r c y) (repeat true n)) as (ys, s2). cbn [fst] in *.
    destruct IH as (I1 & I2).
    assert (H1 : c + lead (y :: ys) <= 64).
    { cbn [lead]. destruct y; [|lia]. unfold nc22 in I1. destruct (Z.leb_spec 64 c); [|lia]. specialize (H64 ltac:(lia)). discriminate. }
    split; [assumption|]. intros [|k]; cbn [skipn]; [lia|apply I2].
Qed.
Theorem v22_guard : forall r n, exists y,
  fst (run v22_scramble (r, 0) (zs (repeat true n))) = zs y /\ ones_at_most 64 y.
Proof.
  intros r n. rewrite v22_run_tx. eexists. split; [reflexivity|]. cbn [fst].
  intros a b (k & E & Hk). destruct (v22_ones n r 0) as (_ & H); [split; [lia|intros; lia]|].
  specialize (H (length a)). rewrite E, skipn_app, skipn_all, Nat.sub_diag in H. cbn [skipn app] in H.
  assert (L : forall k, Z.of_nat k <= lead (repeat true k ++ b)).
  { clear. induction k; cbn [repeat app lead]; [|lia]. assert (forall y, 0 <= lead y); [|apply H].
    induction y as [|[] y IH]; cbn [lead]; lia. }
  specialize (L k). lia.
Qed.
