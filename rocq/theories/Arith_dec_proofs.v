(** The decoder follows the encoder's intervals. *)
From Verif Require Import Base Bits Arith_model Arith_spec Arith_enc_proofs.
From Coq Require Import ZifyBool ZifyNat.
Local Open Scope Z_scope.

(** The first [m] bits of the octets [F], and zeros after them, as a number. *)
Definition G (F : list Z) (m : Z) : Z := num F * 2 ^ m / 2 ^ (8 * Z.of_nat (length F)).

Lemma p2 k : 0 <= k -> 0 < 2 ^ k. Proof. intros. apply Z.pow_pos_nonneg; lia. Qed.

Lemma G_prefix F k : bytes F -> (k <= length F)%nat -> G F (8 * Z.of_nat k) = num (firstn k F).
Proof.
  intros HF Hk. unfold G. rewrite <- (firstn_skipn k F) at 1. rewrite num_app.
  assert (HS : bytes (skipn k F)).
  { rewrite <- (firstn_skipn k F) in HF. apply Forall_app in HF. apply HF. }
  pose proof (num_range _ HS) as HR. rewrite pow256, skipn_length in *.
  set (j := Z.of_nat (length F - k)) in *.
  replace (8 * Z.of_nat (length F)) with (8 * j + 8 * Z.of_nat k) by lia.
  rewrite (Z.pow_add_r 2 (8 * j)) by lia. rewrite Z.div_mul_cancel_r by (try apply Z.pow_nonzero; lia).
  rewrite Z.div_add_l by (apply Z.pow_nonzero; lia). rewrite Z.div_small by exact HR. lia.
Qed.

Lemma firstn_S_nth F k : (k < length F)%nat -> firstn (S k) F = firstn k F ++ [nth k F 0].
Proof. revert k; induction F as [|x F IH]; intros [|k] H; cbn in *; try lia; auto. f_equal. apply IH. lia. Qed.
Lemma skipn_nth F k : (k < length F)%nat -> skipn k F = nth k F 0 :: skipn (S k) F.
Proof. revert k; induction F as [|x F IH]; intros [|k] H; cbn in *; try lia; auto. apply IH. lia. Qed.

Lemma G_next F k : bytes F -> (k < length F)%nat ->
  G F (8 * Z.of_nat (S k)) = G F (8 * Z.of_nat k) * 256 + nth k F 0.
Proof. intros HF Hk. rewrite !G_prefix by (auto; lia). rewrite firstn_S_nth by exact Hk. apply num_snoc. Qed.

Lemma G_beyond F m : 8 * Z.of_nat (length F) <= m -> G F m = num F * 2 ^ (m - 8 * Z.of_nat (length F)).
Proof.
  intros H. unfold G. replace m with (m - 8 * Z.of_nat (length F) + 8 * Z.of_nat (length F)) at 1 by lia.
  rewrite Z.pow_add_r, Z.mul_assoc by lia. apply Z.div_mul. apply Z.pow_nonzero; lia.
Qed.

Lemma G_down F m j : 0 <= m -> 0 <= j -> G F (m + j) / 2 ^ j = G F m.
Proof.
  intros Hm Hj. unfold G. rewrite Z.pow_add_r by lia. set (L := 2 ^ (8 * Z.of_nat (length F))).
  assert (0 < L) by (apply p2; lia). assert (0 < 2 ^ j) by (apply p2; lia).
  rewrite Z.div_div by lia. rewrite Z.mul_assoc. rewrite Z.div_mul_cancel_r by lia. reflexivity.
Qed.

(** What is in the code register: [ct] bits more than decided on, or all of them. *)
Definition dcode (F rest : list Z) (c ct : Z) (inp : list Z) (n V : Z) : Prop :=
  (ct = -1 /\ inp = rest /\ 8 * Z.of_nat (length F) <= 32 + n /\ c = G F (32 + n) - V * 65536) \/
  (exists k, (k <= length F)%nat /\ 0 <= ct <= 16 /\ inp = stuff (skipn k F) ++ rest /\
     8 * Z.of_nat k = 16 + n + ct /\ c = (G F (8 * Z.of_nat k) - V * 2 ^ ct) * 2 ^ (16 - ct)).

Lemma dcode_hi F rest c ct inp n V : -16 <= n -> dcode F rest c ct inp n V -> c / 65536 = G F (16 + n) - V.
Proof.
  intros Hn [(E & _ & HL & ->)|(k & Hk & Hct & _ & E & ->)].
  - replace (32 + n) with (16 + n + 16) by lia.
    replace (G F (16 + n + 16) - V * 65536) with (G F (16 + n + 16) + (- V) * 65536) by ring.
    rewrite Z.div_add by lia. change 65536 with (2 ^ 16). rewrite G_down by lia. lia.
  - replace 65536 with (2 ^ ct * 2 ^ (16 - ct)) by (rewrite <- Z.pow_add_r by lia; replace (ct + (16 - ct)) with 16 by lia; reflexivity).
    rewrite Z.div_mul_cancel_r by (apply Z.pow_nonzero; lia).
    replace (G F (8 * Z.of_nat k) - V * 2 ^ ct) with (G F (8 * Z.of_nat k) + (- V) * 2 ^ ct) by ring.
    rewrite Z.div_add by (apply Z.pow_nonzero; lia). rewrite E, G_down by lia. lia.
Qed.

Definition need (ct : Z) : nat := if ct <? 0 then 1%nat else if ct =? 0 then 3%nat else if ct <=? 8 then 2%nat else 1%nat.

Lemma or_byte c b ct : 0 <= c -> 0 <= ct <= 8 -> byte b -> c mod 2 ^ (16 - ct) = 0 ->
  Z.lor c (Z.shiftl b (8 - ct)) = c + b * 2 ^ (8 - ct).
Proof.
  intros H0 Hct Hb Hm. red in Hb.
  assert (HP : 0 < 2 ^ (16 - ct)) by (apply p2; lia).
  apply Z.mod_divide in Hm; [|lia]. destruct Hm as [q ->].
  rewrite Z.shiftl_mul_pow2 by lia. rewrite Z.lor_comm, lor_disj; [lia|lia|].
  replace (2 ^ (16 - ct)) with (256 * 2 ^ (8 - ct)) by (change 256 with (2 ^ 8); rewrite <- Z.pow_add_r by lia; f_equal; lia).
  assert (0 < 2 ^ (8 - ct)) by (apply p2; lia). nia.
Qed.

Section follow.
Variable F : list Z.
Variable m : Z.
Variable tl : list Z.
Hypothesis HF : bytes F.
Hypothesis Hm : m <> 0.
Let rest := ESC :: m :: tl.

Lemma refill_ok f : forall c ct inp n V, (need ct <= f)%nat -> -16 <= n -> 0 <= c ->
  dcode F rest c ct inp n V ->
  exists c' ct' inp', refill f c ct false inp = Ok (Filled c' ct' false inp') /\ dcode F rest c' ct' inp' n V /\
    (ct' = -1 \/ 9 <= ct').
Proof.
  induction f as [|f IH]; intros c ct inp n V Hf Hn Hc D.
  { unfold need in Hf. destruct (ct <? 0), (ct =? 0), (ct <=? 8); lia. }
  cbn [refill].
  destruct ((ct <=? 8) && (0 <=? ct)) eqn:E.
  2:{ exists c, ct, inp. split; [reflexivity|]. split; [exact D|]. destruct D as [(H & _)|(k & _ & H & _)]; lia. }
  destruct D as [(H & _)|(k & Hk & Hct & Hi & E8 & Ec)]; [lia|].
  assert (HN : (2 <= f)%nat \/ ((1 <= f)%nat /\ 1 <= ct)) by (unfold need in Hf; destruct (Z.ltb_spec ct 0), (Z.eqb_spec ct 0), (Z.leb_spec ct 8); lia).
  assert (HM : c mod 2 ^ (16 - ct) = 0) by (rewrite Ec; apply Z_mod_mult).
  destruct (Nat.eq_dec k (length F)) as [Ek|Ek].
  - (* the end *)
    rewrite Hi, Ek, skipn_all. cbn [stuff flat_map app]. unfold rest. rewrite Z.eqb_refl.
    replace (m =? STUFF) with false by (unfold STUFF; lia).
    destruct f as [|f]; [lia|]. cbn [refill]. replace ((-1 <=? 8) && (0 <=? -1)) with false by reflexivity.
    exists c, (-1), (ESC :: m :: tl). split; [reflexivity|]. split; [|lia]. left. split; [reflexivity|]. split; [reflexivity|]. split; [lia|].
    rewrite Ec. rewrite (G_beyond F (32 + n)) by lia. rewrite G_beyond by lia. rewrite Z.mul_sub_distr_r. f_equal.
    + rewrite Ek in *. rewrite Z.sub_diag. change (2 ^ 0) with 1. rewrite Z.mul_1_r. f_equal. f_equal. lia.
    + rewrite <- Z.mul_assoc, <- Z.pow_add_r by lia. f_equal. replace (ct + (16 - ct)) with 16 by lia. reflexivity.
  - assert (Hk' : (k < length F)%nat) by lia.
    assert (Hb : byte (nth k F 0)) by (apply (proj1 (Forall_forall _ _) HF); apply nth_In; exact Hk').
    set (b := nth k F 0) in *.
    set (c' := c + b * 2 ^ (8 - ct)).
    assert (D' : forall inp', inp' = stuff (skipn (S k) F) ++ rest -> dcode F rest c' (ct + 8) inp' n V).
    { intros inp' ->. right. exists (S k). split; [lia|]. split; [lia|]. split; [reflexivity|]. split; [lia|].
      rewrite G_next by assumption. fold b. unfold c'. rewrite Ec.
      replace (2 ^ (16 - ct)) with (256 * 2 ^ (8 - ct)) by (change 256 with (2 ^ 8); rewrite <- Z.pow_add_r by lia; f_equal; lia).
      replace (16 - (ct + 8)) with (8 - ct) by lia. rewrite (Z.pow_add_r 2 ct 8) by lia. change (2 ^ 8) with 256. ring. }
    assert (Hc' : 0 <= c'). { red in Hb. assert (0 < 2 ^ (8 - ct)) by (apply p2; lia). unfold c'. nia. }
    rewrite Hi, skipn_nth by exact Hk'. fold b. change (stuff (b :: skipn (S k) F)) with (output_stuffed_byte b ++ stuff (skipn (S k) F)).
    assert (Hneed : (need (ct + 8) <= f)%nat).
    { unfold need. destruct (Z.ltb_spec (ct + 8) 0), (Z.eqb_spec (ct + 8) 0), (Z.leb_spec (ct + 8) 8); lia. }
    unfold output_stuffed_byte. destruct (Z.eqb_spec b ESC) as [Eb|Eb]; cbn [app].
    + rewrite Eb. change (ESC =? ESC) with true. cbn iota. change (STUFF =? STUFF) with true. cbn iota.
      change 255 with ESC. rewrite <- Eb, or_byte by (auto; lia). apply IH; auto.
    + replace (b =? ESC) with false by lia. rewrite or_byte by (auto; lia). apply IH; auto.
Qed.

(** The decoder's state, [V] and [n] as for the encoder. *)
Record dinv (d : dec) (inp : list Z) (n V : Z) : Prop := {
  dv_code : dcode F rest (dc d) (dct d) inp n V;
  dv_r : V <= G F (16 + n) < V + da d;
  dv_n : -16 <= n;
  dv_a : 1 <= da d <= 65536;
  dv_np : dnopadding d = false }.

Lemma dinv_c d inp n V : dinv d inp n V -> 0 <= dc d < da d * 65536.
Proof.
  intros [D R Hn Ha _]. pose proof (dcode_hi _ _ _ _ _ _ _ Hn D) as H.
  pose proof (Z.div_mod (dc d) 65536 ltac:(lia)). pose proof (Z.mod_pos_bound (dc d) 65536 ltac:(lia)). nia.
Qed.

Lemma G_double n : -16 <= n -> 2 * G F (16 + n) <= G F (16 + (n + 1)) <= 2 * G F (16 + n) + 1.
Proof.
  intros Hn. pose proof (G_down F (16 + n) 1 ltac:(lia) ltac:(lia)) as H. replace (16 + (n + 1)) with (16 + n + 1) by lia.
  change (2 ^ 1) with 2 in H. Z.div_mod_to_equations; lia.
Qed.

(** After a shift at least 8 bits are in hand, or all of them. *)
Definition ahead (d : dec) : Prop := dct d = -1 \/ 8 <= dct d.

Lemma renormd_ok k : forall f d inp n V,
  dinv d inp n V -> (k < f)%nat ->
  (if dstartup d then da d * 2 ^ Z.of_nat k = 65536 /\ (0 < k)%nat else
     if (k =? 0)%nat then 32768 <= da d else da d * 2 ^ Z.of_nat (k - 1) < 32768 <= da d * 2 ^ Z.of_nat k) ->
  exists d' inp', renormd f d inp = Ok (inr tt, d', inp') /\
    dinv d' inp' (n + Z.of_nat k) (V * 2 ^ Z.of_nat k) /\ da d' = da d * 2 ^ Z.of_nat k /\ dst d' = dst d /\ dstartup d' = false /\
    ((0 < k)%nat \/ ahead d -> ahead d').
Proof.
  induction k as [|k IH]; intros f d inp n V I Hf Hs.
  - destruct f as [|f]; [lia|]. destruct (dstartup d) eqn:Es; [lia|]. cbn [Nat.eqb] in Hs.
    cbn [renormd]. rewrite Es. replace (da d <? 32768) with false by lia. cbn [orb].
    exists d, inp. split; [reflexivity|]. change (2 ^ Z.of_nat 0) with 1. rewrite !Z.mul_1_r, Z.add_0_r. split; [exact I|]. split; [reflexivity|]. split; [reflexivity|]. split; [exact Es|]. intros [H|H]; [lia|exact H].
  - destruct f as [|f]; [lia|]. cbn [renormd].
    assert (HP : 0 < 2 ^ Z.of_nat k) by (apply p2; lia).
    rewrite Nat2Z.inj_succ in *. rewrite Z.pow_succ_r in * by lia. replace (S k - 1)%nat with k in Hs by lia. cbn [Nat.eqb] in Hs.
    pose proof (dinv_c _ _ _ _ I) as HC. pose proof (dv_a _ _ _ _ I) as HA.
    assert (Hloop : (da d <? 32768) || dstartup d = true /\ da d <= 32768 /\ (dstartup d = false -> da d < 32768)).
    { destruct (dstartup d); [rewrite orb_true_r; split; [reflexivity|]; split; [nia|discriminate]|].
      assert (da d < 32768) by nia. replace (da d <? 32768) with true by lia. cbn [orb]. split; [reflexivity|]. split; lia. }
    destruct Hloop as (-> & HA2 & HA3).
    destruct (refill_ok 4 (dc d) (dct d) inp n V) as (c' & ct' & inp' & R & D' & Hct').
    { unfold need. destruct (dct d <? 0), (dct d =? 0), (dct d <=? 8); lia. }
    { exact (dv_n _ _ _ _ I). }
    { lia. }
    { exact (dv_code _ _ _ _ I). }
    rewrite (dv_np _ _ _ _ I), R. cbn [rbind]. rewrite !shl1.
    assert (HC' : 0 <= c' < da d * 65536).
    { pose proof (dcode_hi _ _ _ _ _ _ _ (dv_n _ _ _ _ I) D') as H. pose proof (dv_r _ _ _ _ I).
      pose proof (Z.div_mod c' 65536 ltac:(lia)). pose proof (Z.mod_pos_bound c' 65536 ltac:(lia)). nia. }
    rewrite !u32_id by lia.
    set (d1 := mkDec (2 * da d) (2 * c') (dst d) (if 0 <=? ct' then ct' - 1 else ct') (if 2 * da d =? 65536 then false else dstartup d) false).
    assert (I1 : dinv d1 inp' (n + 1) (2 * V)).
    { pose proof (dv_n _ _ _ _ I) as Hn.
      constructor; unfold d1; cbn [da dc dct dnopadding]; try lia; try reflexivity.
      - destruct D' as [(H & Hi & HL & Ec)|(j & Hj & Hct & Hi & E8 & Ec)].
        + left. subst ct'. change (0 <=? -1) with false. cbn iota. split; [reflexivity|]. split; [exact Hi|]. split; [lia|]. rewrite Ec.
          rewrite (G_beyond F (32 + (n + 1))), (G_beyond F (32 + n)) by lia.
          replace (32 + (n + 1) - 8 * Z.of_nat (length F)) with (Z.succ (32 + n - 8 * Z.of_nat (length F))) by lia.
          rewrite Z.pow_succ_r by lia. ring.
        + right. exists j. replace (0 <=? ct') with true by lia. split; [exact Hj|]. split; [lia|]. split; [exact Hi|]. split; [lia|].
          rewrite Ec. replace (16 - (ct' - 1)) with (Z.succ (16 - ct')) by lia. rewrite Z.pow_succ_r by lia.
          replace ct' with (Z.succ (ct' - 1)) at 1 by lia. rewrite (Z.pow_succ_r 2 (ct' - 1)) by lia. ring.
      - pose proof (G_double n Hn). pose proof (dv_r _ _ _ _ I). lia. }
    destruct (IH f d1 inp' _ _ I1 ltac:(lia)) as (d2 & inp2 & R2 & I2 & E1 & E2 & E3 & E4).
    { unfold d1. cbn [dstartup da]. destruct (Z.eqb_spec (2 * da d) 65536) as [E|E].
      - destruct (dstartup d) eqn:Es; [|specialize (HA3 eq_refl); lia].
        assert (2 ^ Z.of_nat k = 1) by nia. destruct k; [cbn [Nat.eqb]; lia|].
        rewrite Nat2Z.inj_succ, Z.pow_succ_r in * by lia. lia.
      - destruct (dstartup d).
        + split; [lia|]. destruct k; [|lia]. change (2 ^ Z.of_nat 0) with 1 in *. lia.
        + destruct k as [|k]; [cbn [Nat.eqb]; change (2 ^ Z.of_nat 0) with 1 in *; lia|]. cbn [Nat.eqb]. replace (S k - 1)%nat with k by lia.
          rewrite Nat2Z.inj_succ, Z.pow_succ_r in * by lia. lia. }
    change (mkDec (2 * da d) (2 * c') (dst d) (if 0 <=? ct' then ct' - 1 else ct') (if 2 * da d =? 65536 then false else dstartup d) false) with d1.
    exists d2, inp2. split; [exact R2|]. unfold d1 in E1, E2. cbn [da dst] in E1, E2.
    replace (n + Z.succ (Z.of_nat k)) with (n + 1 + Z.of_nat k) by lia. replace (V * (2 * 2 ^ Z.of_nat k)) with (2 * V * 2 ^ Z.of_nat k) by ring.
    split; [exact I2|]. split; [rewrite E1; ring|]. split; [exact E2|]. split; [exact E3|]. intros _. apply E4. right. unfold ahead, d1. cbn [dct]. destruct Hct' as [-> |Hct']; [left; reflexivity|right; replace (0 <=? ct') with true by lia; lia].
Qed.

Lemma pixel_ok d inp n V cx pix off a' st' :
  dinv d inp n V -> dstartup d = false -> 32768 <= da d -> st_ok (dst d) -> 0 <= cx < 4096 -> pix = 0 \/ pix = 1 ->
  pick (da d) (nth (Z.to_nat cx) (dst d) 0) pix = (off, a', st') ->
  V + off <= G F (16 + n) < V + off + a' ->
  exists d', decode_pixel d cx = Ok (pix, d') /\ dinv d' inp n (V + off) /\ da d' = a' /\
    dst d' = upd (dst d) (Z.to_nat cx) st' /\ dstartup d' = false /\ dct d' = dct d.
Proof.
  intros I Hs Ha Hst Hcx Hp E HG.
  destruct (st_ok_get _ _ Hst Hcx) as [Hb Hv].
  pose proof (dinv_c _ _ _ _ I) as HC. pose proof (dv_a _ _ _ _ I) as HA.
  pose proof (dcode_hi _ _ _ _ _ _ _ (dv_n _ _ _ _ I) (dv_code _ _ _ _ I)) as HH.
  pose proof (pick_ok _ _ _ _ _ _ Hv (conj Ha (proj2 HA)) E) as (P1 & P2 & P3 & P4).
  unfold decode_pixel. rewrite aget_ok by exact Hb. cbn [rbind].
  set (st := nth (Z.to_nat cx) (dst d) 0) in *.
  destruct (st_facts st Hv) as (F1 & F2 & F3 & F4 & F5 & F6). rewrite F1, F2.
  assert (Hi : 0 <= st mod 128 < 113) by (split; [apply Z.mod_pos_bound; lia|apply Hv]).
  rewrite !aget_ok by exact Hi. cbn [rbind]. fold (lsz_of st). fold (to_m st). fold (to_l st).
  assert (Hmps : st / 128 = 0 \/ st / 128 = 1) by (destruct Hv as [Hv _]; red in Hv; Z.div_mod_to_equations; lia).
  rewrite (u32_id (da d - lsz_of st)) by lia. rewrite !aset_ok by exact Hb.
  rewrite Z.shiftr_div_pow2 by lia. change (2 ^ 16) with 65536. rewrite HH.
  rewrite (Z.shiftl_mul_pow2 _ 16) by lia. change (2 ^ 16) with 65536.
  rewrite (u32_id ((da d - lsz_of st) * 65536)) by lia.
  assert (HU : off = da d - lsz_of st -> u32 (dc d - (da d - lsz_of st) * 65536) = dc d - off * 65536).
  { intros ->. apply u32_id. pose proof (Z.div_mod (dc d) 65536 ltac:(lia)). pose proof (Z.mod_pos_bound (dc d) 65536 ltac:(lia)). lia. }
  assert (HD : forall st1 su, dinv (mkDec a' (dc d - off * 65536) st1 (dct d) su (dnopadding d)) inp n (V + off)).
  { intros st1 su. destruct I as [D R Hn Ha' Hnp]. constructor; cbn [da dc dct dnopadding]; try lia; auto.
    destruct D as [(H & Hre & HL & Ec)|(j & Hj & Hct & Hi' & E8 & Ec)].
    - left. split; [exact H|]. split; [exact Hre|]. split; [exact HL|]. rewrite Ec. ring.
    - right. exists j. split; [exact Hj|]. split; [exact Hct|]. split; [exact Hi'|]. split; [exact E8|]. rewrite Ec.
      replace 65536 with (2 ^ dct d * 2 ^ (16 - dct d)) by (rewrite <- Z.pow_add_r by lia; replace (dct d + (16 - dct d)) with 16 by lia; reflexivity). ring. }
  assert (HD0 : off = 0 -> forall st1 su, dinv (mkDec a' (dc d) st1 (dct d) su (dnopadding d)) inp n (V + off)).
  { intros E0 st1 su. replace (dc d) with (dc d - off * 65536) by lia. apply HD. }
  unfold pick in E. destruct (Z.eqb_spec pix (st / 128)) as [Ep|Ep].
  - destruct (Z.ltb_spec (da d - lsz_of st) 32768) as [L|L]; [destruct (Z.ltb_spec (da d - lsz_of st) (lsz_of st)) as [L2|L2]|]; injection E as <- <- <-.
    + replace (da d - lsz_of st <=? G F (16 + n) - V) with true by lia. cbn [rbind]. rewrite HU by reflexivity.
      eexists. split; [rewrite Ep; reflexivity|]. split; [apply HD|]. auto.
    + replace (da d - lsz_of st <=? G F (16 + n) - V) with false by lia. cbn [rbind].
      eexists. split; [rewrite Ep; reflexivity|]. split; [apply HD0; reflexivity|]. auto.
    + replace (da d - lsz_of st <=? G F (16 + n) - V) with false by lia.
      eexists. split; [rewrite Ep; reflexivity|]. split; [apply HD0; reflexivity|]. cbn [da dst dstartup]. unfold st. rewrite upd_nth. auto.
  - assert (Hpix : pix = 1 - st / 128) by lia.
    destruct (Z.leb_spec (lsz_of st) (da d - lsz_of st)) as [L2|L2]; injection E as <- <- <-.
    + replace (da d - lsz_of st <=? G F (16 + n) - V) with true by lia. replace (da d - lsz_of st <? lsz_of st) with false by lia.
      cbn [rbind]. rewrite HU by reflexivity. eexists. split; [rewrite Hpix; reflexivity|]. split; [apply HD|]. auto.
    + replace (da d - lsz_of st <=? G F (16 + n) - V) with false by lia. replace (da d - lsz_of st <? 32768) with true by lia.
      replace (da d - lsz_of st <? lsz_of st) with true by lia. cbn [rbind].
      eexists. split; [rewrite Hpix; reflexivity|]. split; [apply HD0; reflexivity|]. auto.
Qed.

(** The final number tells what interval every earlier state was in. *)
Lemma G_within n n' V a V' a' : -16 <= n <= n' ->
  V' <= G F (16 + n') < V' + a' -> V * 2 ^ (n' - n) <= V' -> V' + a' <= (V + a) * 2 ^ (n' - n) ->
  V <= G F (16 + n) < V + a.
Proof.
  intros Hn HG H1 H2. replace (16 + n') with (16 + n + (n' - n)) in HG by lia.
  pose proof (G_down F (16 + n) (n' - n) ltac:(lia) ltac:(lia)) as HD. rewrite <- HD.
  assert (HP : 0 < 2 ^ (n' - n)) by (apply p2; lia).
  split; [apply Z.div_le_lower_bound; lia|apply Z.div_lt_upper_bound; lia].
Qed.

(** The run of decisions on unbounded numbers: size, states, shifts and base. *)
Fixpoint arun (a : Z) (st : list Z) (n V : Z) (ds : list (Z * Z)) : Z * list Z * Z * Z :=
  match ds with
  | [] => (a, st, n, V)
  | (cx, pix) :: t =>
      let '(off, a', st') := pick a (nth (Z.to_nat cx) st 0) pix in
      arun (a' * 2 ^ Z.of_nat (shifts a')) (upd st (Z.to_nat cx) st') (n + Z.of_nat (shifts a'))
           ((V + off) * 2 ^ Z.of_nat (shifts a')) t
  end.

Lemma shifts_ok a : 1 <= a <= 65536 -> 32768 <= a * 2 ^ Z.of_nat (shifts a) <= 65536.
Proof.
  intros H. unfold shifts. destruct (Z.ltb_spec a 32768).
  - pose proof (nshift_ok a ltac:(lia)). lia.
  - change (2 ^ Z.of_nat 0) with 1. lia.
Qed.

Lemma arun_nest ds : forall a st n V a' st' n' V',
  32768 <= a <= 65536 -> st_ok st -> Forall decision_ok ds -> arun a st n V ds = (a', st', n', V') ->
  n <= n' /\ V * 2 ^ (n' - n) <= V' /\ V' + a' <= (V + a) * 2 ^ (n' - n).
Proof.
  induction ds as [|[cx pix] ds IH]; intros a st n V a2 st2 n2 V2 Ha Hst Hd E.
  - cbn [arun] in E. injection E as <- <- <- <-. rewrite Z.sub_diag. change (2 ^ 0) with 1. lia.
  - pose proof (Forall_inv Hd) as [Hcx Hp]. cbn [fst snd] in *. apply Forall_inv_tail in Hd. cbn [arun] in E.
    destruct (pick a (nth (Z.to_nat cx) st 0) pix) as [[off a'] st'] eqn:EP.
    destruct (st_ok_get _ _ Hst Hcx) as [Hb Hv].
    pose proof (pick_ok _ _ _ _ _ _ Hv Ha EP) as (P1 & P2 & P3 & P4).
    destruct (IH _ _ _ _ _ _ _ _ (shifts_ok _ P2) (st_ok_upd _ _ _ Hst P4) Hd E) as (Hn & HV & HA).
    split; [lia|].
    assert (EQ : 2 ^ (n2 - n) = 2 ^ Z.of_nat (shifts a') * 2 ^ (n2 - (n + Z.of_nat (shifts a')))).
    { rewrite <- Z.pow_add_r by lia. f_equal. lia. }
    rewrite EQ. clear EQ E EP. set (p := 2 ^ Z.of_nat (shifts a')) in *. set (q := 2 ^ (n2 - (n + Z.of_nat (shifts a')))) in *.
    assert (0 < p) by (apply Z.pow_pos_nonneg; lia). assert (0 < q) by (apply Z.pow_pos_nonneg; lia).
    clearbody p q. assert (0 < p * q) by nia. split.
    + apply Z.le_trans with ((V + off) * p * q); [|exact HV]. rewrite <- Z.mul_assoc. nia.
    + eapply Z.le_trans; [exact HA|]. rewrite <- Z.mul_add_distr_r, <- Z.mul_assoc. nia.
Qed.

Lemma encode_arun ds : forall s W n V,
  enorm s W n V -> Forall decision_ok ds ->
  exists s' B n' V', encode_all s ds = Ok (s', stuff B) /\ enorm s' (W ++ B) n' V' /\
    arun (ea s) (est s) n V ds = (ea s', est s', n', V').
Proof.
  induction ds as [|[cx pix] ds IH]; intros s W n V I Hd.
  - exists s, [], n, V. cbn [encode_all arun]. rewrite app_nil_r. auto.
  - pose proof (Forall_inv Hd) as [Hcx Hp]. cbn [fst snd] in *. apply Forall_inv_tail in Hd. cbn [arun encode_all].
    destruct (pick (ea s) (nth (Z.to_nat cx) (est s) 0) pix) as [[off a'] st'] eqn:E.
    destruct (encode_step _ _ _ _ _ _ _ _ _ I Hcx Hp E) as (s1 & B1 & R1 & I1 & E1 & E2).
    destruct (IH _ _ _ _ I1 Hd) as (s2 & B2 & n2 & V2 & R2 & I2 & A2).
    rewrite R1. cbn [rbind]. rewrite R2. cbn [rbind]. exists s2, (B1 ++ B2), n2, V2.
    rewrite stuff_app, app_assoc. rewrite E1, E2 in A2. auto.
Qed.

(** A decoder which has still to shift by [k]. *)
Definition todo (d : dec) (k : nat) : Prop :=
  if dstartup d then da d * 2 ^ Z.of_nat k = 65536 /\ (0 < k)%nat else
  if (k =? 0)%nat then 32768 <= da d else da d * 2 ^ Z.of_nat (k - 1) < 32768 <= da d * 2 ^ Z.of_nat k.

Lemma todo_shifts d : dstartup d = false -> 1 <= da d <= 65536 -> todo d (shifts (da d)) /\ (shifts (da d) < renorm_fuel)%nat.
Proof.
  intros Hs H. unfold todo, shifts, renorm_fuel. rewrite Hs. destruct (Z.ltb_spec (da d) 32768).
  - pose proof (nshift_ok (da d) ltac:(lia)) as (N1 & N2 & N3 & N4). replace (nshift (da d) =? 0)%nat with false by lia. lia.
  - cbn [Nat.eqb]. lia.
Qed.

Lemma decode_arun ds : forall d inp n V k a' st' n' V',
  dinv d inp n V -> st_ok (dst d) -> todo d k -> (k < renorm_fuel)%nat -> Forall decision_ok ds -> (0 < k)%nat \/ ahead d ->
  32768 <= da d * 2 ^ Z.of_nat k <= 65536 ->
  arun (da d * 2 ^ Z.of_nat k) (dst d) (n + Z.of_nat k) (V * 2 ^ Z.of_nat k) ds = (a', st', n', V') ->
  V' <= G F (16 + n') < V' + a' ->
  exists d' inp', decode_all d (map fst ds) inp = Ok (map snd ds, d', inp') /\ dst d' = st' /\
    (ds <> [] \/ ahead d -> ahead d') /\ (ds <> [] \/ dstartup d = false -> dstartup d' = false) /\
    exists k', todo d' k' /\ dinv d' inp' (n' - Z.of_nat k') (V' / 2 ^ Z.of_nat k') .
Proof.
  induction ds as [|[cx pix] ds IH]; intros d inp n V k a2 st2 n2 V2 I Hst Ht Hk Hd Hah Ha E HG.
  - cbn [arun decode_all map] in *. injection E as <- <- <- <-. exists d, inp. split; [reflexivity|]. split; [reflexivity|]. split; [intros [H|H]; [contradiction (H eq_refl)|exact H]|].
    split; [intros [H|H]; [contradiction (H eq_refl)|exact H]|].
    exists k. split; [exact Ht|]. rewrite Z.div_mul by (apply Z.pow_nonzero; lia). replace (n + Z.of_nat k - Z.of_nat k) with n by lia. exact I.
  - pose proof (Forall_inv Hd) as [Hcx Hp]. cbn [fst snd] in *. apply Forall_inv_tail in Hd. cbn [arun decode_all map fst snd] in *.
    destruct (pick (da d * 2 ^ Z.of_nat k) (nth (Z.to_nat cx) (dst d) 0) pix) as [[off a'] st'] eqn:EP.
    destruct (st_ok_get _ _ Hst Hcx) as [Hb Hv].
    pose proof (pick_ok _ _ _ _ _ _ Hv Ha EP) as (P1 & P2 & P3 & P4).
    destruct (renormd_ok k renorm_fuel d inp n V I Hk Ht) as (d1 & inp1 & R1 & I1 & E1 & E2 & E3 & E3').
    destruct (arun_nest _ _ _ _ _ _ _ _ _ (shifts_ok _ P2) (st_ok_upd _ _ _ Hst P4) Hd E) as (Hn & HV & HA).
    pose proof (dv_n _ _ _ _ I1) as Hn1.
    assert (HW : V * 2 ^ Z.of_nat k + off <= G F (16 + (n + Z.of_nat k)) < V * 2 ^ Z.of_nat k + off + a').
    { apply (G_within _ n2 _ _ V2 a2); auto; try lia.
      - assert (EQ : 2 ^ (n2 - (n + Z.of_nat k)) = 2 ^ Z.of_nat (shifts a') * 2 ^ (n2 - (n + Z.of_nat k + Z.of_nat (shifts a')))).
        { rewrite <- Z.pow_add_r by lia. f_equal. lia. }
        rewrite EQ, Z.mul_assoc. exact HV.
      - assert (EQ : 2 ^ (n2 - (n + Z.of_nat k)) = 2 ^ Z.of_nat (shifts a') * 2 ^ (n2 - (n + Z.of_nat k + Z.of_nat (shifts a')))).
        { rewrite <- Z.pow_add_r by lia. f_equal. lia. }
        rewrite EQ, Z.mul_assoc, (Z.mul_add_distr_r _ a' (2 ^ Z.of_nat (shifts a'))). exact HA. }
    unfold t81_t82_arith_decode. rewrite R1. cbn [rbind].
    destruct (pixel_ok d1 inp1 _ _ cx pix off a' st' I1 E3) as (d2 & R2 & I2 & F1 & F2 & F3 & F4); rewrite ?E1, ?E2; auto; try lia.
    rewrite R2. cbn [rbind].
    destruct (todo_shifts d2 F3 ltac:(lia)) as [T2 T3].
    assert (A2 : ahead d2) by (unfold ahead; rewrite F4; exact (E3' Hah)).
    destruct (IH d2 inp1 _ _ (shifts (da d2)) a2 st2 n2 V2 I2) as (d3 & inp3 & R3 & E4 & X1 & X2 & X); auto.
    { rewrite F2, E2. apply st_ok_upd; assumption. }
    { apply shifts_ok. lia. }
    { rewrite F1, F2, E2. exact E. }
    rewrite R3. cbn [rbind]. exists d3, inp3. split; [reflexivity|]. split; [exact E4|]. split; [intros _; apply X1; right; exact A2|].
    split; [intros _; apply X2; right; exact F3|exact X].
Qed.

Lemma dinv_start st inp : inp = stuff F ++ rest -> dinv (mkDec 1 0 st 0 true false) inp (-16) 0.
Proof.
  intros ->. assert (G0 : G F 0 = 0).
  { change 0 with (8 * Z.of_nat 0) at 1. rewrite G_prefix by (auto; lia). reflexivity. }
  constructor; cbn [dc dct da dnopadding]; try lia; try reflexivity.
  - right. exists 0%nat. split; [lia|]. split; [lia|]. split; [reflexivity|]. split; [reflexivity|].
    change (8 * Z.of_nat 0) with 0. rewrite G0. reflexivity.
  - change (16 + -16) with 0. rewrite G0. lia.
Qed.

End follow.

(** A whole stripe. *)
Lemma stripe_ok e0 d0 reuse ds m tl :
  est e0 = dst d0 -> st_ok (est e0) -> Forall decision_ok ds -> m <> 0 ->
  exists s1 out, encode_all (t81_t82_arith_encode_restart e0 reuse) ds = Ok (s1, out) /\ st_ok (est s1) /\
    (exists F, bytes F /\ out ++ snd (t81_t82_arith_encode_flush s1) = stuff F) /\
    est (fst (t81_t82_arith_encode_flush s1)) = est s1 /\
    exists d1 inp1, decode_all (t81_t82_arith_decode_restart d0 reuse) (map fst ds)
      ((out ++ snd (t81_t82_arith_encode_flush s1)) ++ 255 :: m :: tl) = Ok (map snd ds, d1, inp1) /\ dst d1 = est s1 /\
      (ds <> [] -> dct d1 = -1 /\ inp1 = 255 :: m :: tl).
Proof.
  intros Est Hst Hd Hm.
  set (st := if reuse then est e0 else st_zero).
  assert (Hst' : st_ok st) by (unfold st; destruct reuse; [exact Hst|exact st_ok_zero]).
  unfold t81_t82_arith_encode_restart. fold st.
  destruct (encode_arun ds _ _ _ _ (enorm_start st Hst') Hd) as (s1 & B & n1 & V1 & R1 & I1 & A1).
  cbn [app ea est] in *.
  destruct (flush_ok _ _ _ _ I1) as (B2 & Vf & R2 & R3 & HB & HV & HL & HN).
  exists s1, (stuff B). split; [exact R1|]. split; [apply I1|]. rewrite R2, <- stuff_app.
  split; [exists (B ++ B2); auto|]. split; [exact R3|].
  set (F := B ++ B2) in *.
  assert (HG : V1 <= G F (16 + n1) < V1 + ea s1).
  { rewrite G_beyond by lia. rewrite HN. exact HV. }
  unfold t81_t82_arith_decode_restart. rewrite <- Est. fold st.
  destruct (decode_arun F m tl HB Hm ds (mkDec 1 0 st 0 true false) (stuff F ++ 255 :: m :: tl) (-16) 0 16%nat (ea s1) (est s1) n1 V1) as (d1 & inp1 & R4 & E4 & X1 & X2 & k' & T' & I'); auto; try (left; lia).
  - apply dinv_start; auto.
  - split; [reflexivity|lia].
  - unfold renorm_fuel. lia.
  - cbn [da]. change (1 * 2 ^ Z.of_nat 16) with 65536. lia.
  - exists d1, inp1. split; [exact R4|]. split; [exact E4|]. intros Hne. specialize (X1 (or_introl Hne)). specialize (X2 (or_introl Hne)).
    destruct (dv_code _ _ _ _ _ _ _ I') as [(C1 & C2 & _)|(j & Hj & Hct & _ & E8 & _)]; [auto|]. exfalso.
    destruct X1 as [X1|X1]; [lia|].
    assert (k' <= 15)%nat; [|lia].
    unfold todo in T'. rewrite X2 in T'. destruct (Nat.eqb_spec k' 0); [lia|].
    destruct (Nat.le_gt_cases k' 15) as [H|H]; [exact H|exfalso].
    pose proof (dv_a _ _ _ _ _ _ _ I'). assert (2 ^ 15 <= 2 ^ Z.of_nat (k' - 1)) by (apply Z.pow_le_mono_r; lia).
    change (2 ^ 15) with 32768 in *. nia.
Qed.

(** ---- any input whatever ---- *)

Definition filled_ok (a : Z) (np : bool) (r : refilled) : Prop :=
  match r with
  | Filled c ct np' inp' => code_ok a c ct /\ (ct = -1 \/ 9 <= ct) /\ np' = np /\ bytes inp'
  | Leave code c ct np' inp' => code_ok a c ct /\ bytes inp' /\
      ((code = -1 /\ (inp' = [] \/ inp' = [255]) /\ 0 <= ct <= 8 /\ np' = np) \/ (code = -2 /\ np = true /\ np' = false /\ ct = -1))
  end.

Lemma code_byte a c ct b : code_ok a c ct -> 0 <= ct <= 8 -> byte b ->
  Z.lor c (Z.shiftl b (8 - ct)) = c + b * 2 ^ (8 - ct) /\ code_ok a (c + b * 2 ^ (8 - ct)) (ct + 8).
Proof.
  intros (H1 & H2 & H3 & H4) Hct Hb. specialize (H4 ltac:(lia)).
  split; [apply or_byte; auto; lia|]. red in Hb.
  assert (P : 0 < 2 ^ (8 - ct)) by (apply p2; lia).
  assert (E : 2 ^ (16 - ct) = 256 * 2 ^ (8 - ct)) by (change 256 with (2 ^ 8); rewrite <- Z.pow_add_r by lia; f_equal; lia).
  assert (E2 : 65536 = 2 ^ ct * 2 ^ (16 - ct)) by (rewrite <- Z.pow_add_r by lia; replace (ct + (16 - ct)) with 16 by lia; reflexivity).
  apply Z.mod_divide in H4; [|lia]. destruct H4 as [q ->].
  replace (16 - (ct + 8)) with (8 - ct) by lia.
  split; [exact H1|]. split; [|split; [lia|intros _]].
  - assert (q * 2 ^ (16 - ct) + 2 ^ (16 - ct) <= a * 65536).
    { rewrite E2 in *. assert (0 < 2 ^ (16 - ct)) by (apply p2; lia). assert (q < a * 2 ^ ct) by nia. nia. }
    nia.
  - rewrite E. replace (q * (256 * 2 ^ (8 - ct)) + b * 2 ^ (8 - ct)) with ((q * 256 + b) * 2 ^ (8 - ct)) by ring. replace (16 - (ct + 8)) with (8 - ct) by lia. apply Z_mod_mult.
Qed.

Lemma refill_safe a f : forall c ct np inp, (need ct <= f)%nat -> code_ok a c ct -> bytes inp ->
  exists r, refill f c ct np inp = Ok r /\ filled_ok a np r.
Proof.
  induction f as [|f IH]; intros c ct np inp Hf C Hb.
  { unfold need in Hf. destruct (ct <? 0), (ct =? 0), (ct <=? 8); lia. }
  cbn [refill]. pose proof C as (H1 & H2 & H3 & H4).
  destruct ((ct <=? 8) && (0 <=? ct)) eqn:E.
  2:{ eexists. split; [reflexivity|]. cbn [filled_ok]. repeat split; auto; lia. }
  assert (HN : (2 <= f)%nat \/ ((1 <= f)%nat /\ 1 <= ct)) by (unfold need in Hf; destruct (Z.ltb_spec ct 0), (Z.eqb_spec ct 0), (Z.leb_spec ct 8); lia).
  assert (Hneed : (need (ct + 8) <= f)%nat).
  { unfold need. destruct (Z.ltb_spec (ct + 8) 0), (Z.eqb_spec (ct + 8) 0), (Z.leb_spec (ct + 8) 8); lia. }
  destruct inp as [|b t].
  { eexists. split; [reflexivity|]. cbn [filled_ok]. split; [exact C|]. split; [exact Hb|]. left. repeat split; auto; lia. }
  pose proof (Forall_inv Hb) as Hb1. pose proof (Forall_inv_tail Hb) as Hb2.
  destruct (Z.eqb_spec b ESC) as [Eb|Eb].
  - destruct t as [|m' t'].
    { eexists. split; [reflexivity|]. cbn [filled_ok]. split; [exact C|]. split; [exact Hb|]. left. subst b. repeat split; auto; lia. }
    destruct (Z.eqb_spec m' STUFF) as [Em|Em].
    + assert (B255 : byte 255) by (red; lia). change 255 with 0xFF in B255.
      destruct (code_byte a c ct 0xFF C ltac:(lia) B255) as [-> C']. apply IH; auto. apply (Forall_inv_tail Hb2).
    + assert (C1 : code_ok a c (-1)) by (repeat split; try lia).
      destruct np; [eexists; split; [reflexivity|]; cbn [filled_ok]; split; [exact C1|]; split; [exact Hb|]; right; auto|].
      apply IH; auto. unfold need. cbn. lia.
  - destruct (code_byte a c ct b C ltac:(lia) Hb1) as [-> C']. apply IH; auto.
Qed.

Definition leave_ok (np : bool) (code : Z) (d' : dec) (inp' : list Z) : Prop :=
  (code = -1 /\ (inp' = [] \/ inp' = [255]) /\ 0 <= dct d' <= 8 /\ dnopadding d' = np) \/ (code = -2 /\ np = true /\ dnopadding d' = false /\ dct d' = -1).

Lemma renormd_safe k : forall f d inp, dsafe d -> todo d k -> (k < f)%nat -> bytes inp ->
  exists r d' inp', renormd f d inp = Ok (r, d', inp') /\ dsafe d' /\ bytes inp' /\ dst d' = dst d /\
    match r with
    | inl code => leave_ok (dnopadding d) code d' inp'
    | inr _ => 32768 <= da d' /\ dstartup d' = false /\ dnopadding d' = dnopadding d
    end.
Proof.
  induction k as [|k IH]; intros f d inp I Hs Hf Hb; unfold todo in Hs.
  - destruct f as [|f]; [lia|]. destruct (dstartup d) eqn:Es; [lia|]. cbn [Nat.eqb] in Hs.
    cbn [renormd]. rewrite Es. replace (da d <? 32768) with false by lia. cbn [orb].
    exists (inr tt), d, inp. repeat split; auto; apply I.
  - destruct f as [|f]; [lia|]. cbn [renormd].
    assert (HP : 0 < 2 ^ Z.of_nat k) by (apply p2; lia).
    rewrite Nat2Z.inj_succ in *. rewrite Z.pow_succ_r in * by lia. replace (S k - 1)%nat with k in Hs by lia. cbn [Nat.eqb] in Hs.
    pose proof (ds_code _ I) as (HA & HC & HT & HM).
    assert (Hloop : (da d <? 32768) || dstartup d = true /\ da d <= 32768 /\ (dstartup d = false -> da d < 32768)).
    { destruct (dstartup d); [rewrite orb_true_r; split; [reflexivity|]; split; [nia|discriminate]|].
      assert (da d < 32768) by nia. replace (da d <? 32768) with true by lia. cbn [orb]. split; [reflexivity|]. split; lia. }
    destruct Hloop as (-> & HA2 & HA3).
    destruct (refill_safe (da d) 4 (dc d) (dct d) (dnopadding d) inp) as (r & R & FO); auto.
    { unfold need. destruct (dct d <? 0), (dct d =? 0), (dct d <=? 8); lia. }
    { apply (ds_code _ I). }
    rewrite R. cbn [rbind]. destruct r as [c' ct' np' inp'|code c' ct' np' inp']; cbn [filled_ok] in FO.
    + destruct FO as (C' & Hct' & -> & Hb'). rewrite !shl1.
      destruct C' as (_ & HC' & HT' & HM'). rewrite !u32_id by lia.
      set (d1 := mkDec (2 * da d) (2 * c') (dst d) (if 0 <=? ct' then ct' - 1 else ct') (if 2 * da d =? 65536 then false else dstartup d) (dnopadding d)).
      assert (Htodo : todo d1 k).
      { unfold todo, d1. cbn [dstartup da]. destruct (Z.eqb_spec (2 * da d) 65536) as [E|E].
        - destruct (dstartup d) eqn:Es; [|specialize (HA3 eq_refl); lia].
          assert (2 ^ Z.of_nat k = 1) by nia. destruct k; [cbn [Nat.eqb]; lia|].
          rewrite Nat2Z.inj_succ, Z.pow_succ_r in * by lia. lia.
        - destruct (dstartup d).
          + split; [lia|]. destruct k; [|lia]. change (2 ^ Z.of_nat 0) with 1 in *. lia.
          + destruct k as [|k]; [cbn [Nat.eqb]; change (2 ^ Z.of_nat 0) with 1 in *; lia|]. cbn [Nat.eqb]. replace (S k - 1)%nat with k by lia.
            rewrite Nat2Z.inj_succ, Z.pow_succ_r in * by lia. lia. }
      assert (I1 : dsafe d1).
      { constructor; unfold d1; cbn [da dc dct dstartup dst].
        - split; [lia|]. split; [lia|]. destruct (Z.leb_spec 0 ct').
          + split; [lia|]. intros _. specialize (HM' ltac:(lia)).
            replace (16 - (ct' - 1)) with (Z.succ (16 - ct')) by lia. rewrite Z.pow_succ_r by lia.
            rewrite Z.mul_mod_distr_l by (try apply Z.pow_nonzero; lia). rewrite HM'. reflexivity.
          + split; [lia|]. intros; lia.
        - destruct (Z.eqb_spec (2 * da d) 65536) as [E|E]; [discriminate|]. intros Es.
          destruct (ds_start _ I Es) as (j & Hj & Ej). destruct j as [|j]; [lia|].
          rewrite Nat2Z.inj_succ, Z.pow_succ_r in Ej by lia. exists j. split; [|lia].
          destruct j; [change (2 ^ Z.of_nat 0) with 1 in Ej|]; lia.
        - apply I. }
      destruct (IH f d1 inp' I1 Htodo ltac:(lia) Hb') as (r & d2 & inp2 & R2 & X). exists r, d2, inp2. split; [exact R2|exact X].
    + destruct FO as (C' & Hb' & X). exists (inl code), (mkDec (da d) c' (dst d) ct' (dstartup d) np'), inp'.
      split; [reflexivity|]. split; [|split; [exact Hb'|]; split; [reflexivity|]; exact X].
      constructor; cbn [da dc dct dst dstartup]; [exact C'| |apply I]. intros Es. exact (ds_start _ I Es).
Qed.

Lemma todo_exists d : dsafe d -> exists k, todo d k /\ (k < renorm_fuel)%nat.
Proof.
  intros I. destruct (dstartup d) eqn:Es.
  - destruct (ds_start _ I Es) as (k & Hk & E). exists k. unfold todo, renorm_fuel. rewrite Es. lia.
  - exists (shifts (da d)). apply todo_shifts; [exact Es|]. apply (ds_code _ I).
Qed.

Lemma pixel_safe d cx : dsafe d -> dstartup d = false -> 32768 <= da d -> 0 <= cx < 4096 ->
  exists pix d', decode_pixel d cx = Ok (pix, d') /\ (pix = 0 \/ pix = 1) /\ dsafe d' /\ dnopadding d' = dnopadding d.
Proof.
  intros I Hs Ha Hcx. pose proof (ds_st _ I) as Hst. pose proof (ds_code _ I) as (HA & HC & HT & HM).
  destruct (st_ok_get _ _ Hst Hcx) as [Hb Hv].
  unfold decode_pixel. rewrite aget_ok by exact Hb. cbn [rbind].
  set (st := nth (Z.to_nat cx) (dst d) 0) in *.
  destruct (st_facts st Hv) as (F1 & F2 & F3 & F4 & F5 & F6). rewrite F1, F2.
  assert (Hi : 0 <= st mod 128 < 113) by (split; [apply Z.mod_pos_bound; lia|apply Hv]).
  rewrite !aget_ok by exact Hi. cbn [rbind]. fold (lsz_of st). fold (to_m st). fold (to_l st).
  assert (Hmps : st / 128 = 0 \/ st / 128 = 1) by (destruct Hv as [Hv _]; red in Hv; Z.div_mod_to_equations; lia).
  rewrite (u32_id (da d - lsz_of st)) by lia. rewrite !aset_ok by exact Hb.
  rewrite Z.shiftr_div_pow2 by lia. change (2 ^ 16) with 65536.
  rewrite (Z.shiftl_mul_pow2 _ 16) by lia. change (2 ^ 16) with 65536.
  rewrite (u32_id ((da d - lsz_of st) * 65536)) by lia. cbn [rbind].
  assert (KD : forall a' c' st1, 1 <= a' <= 65536 -> 0 <= c' < a' * 65536 -> (c' = dc d \/ c' = dc d - (da d - lsz_of st) * 65536) -> st_ok st1 ->
     dsafe (mkDec a' c' st1 (dct d) (dstartup d) (dnopadding d))).
  { intros a' c' st1 X1 X2 X3 X4. constructor; cbn [da dc dct dst dstartup]; [|rewrite Hs; discriminate|exact X4].
    split; [exact X1|]. split; [exact X2|]. split; [exact HT|]. intros Hct. specialize (HM Hct). destruct X3 as [-> | ->]; [exact HM|].
    replace 65536 with (2 ^ dct d * 2 ^ (16 - dct d)) by (rewrite <- Z.pow_add_r by lia; replace (dct d + (16 - dct d)) with 16 by lia; reflexivity).
    rewrite Z.mul_assoc. rewrite Zminus_mod, HM, Z_mod_mult. apply Z.mod_0_l. apply Z.pow_nonzero; lia. }
  pose proof (Z.div_mod (dc d) 65536 ltac:(lia)). pose proof (Z.mod_pos_bound (dc d) 65536 ltac:(lia)).
  destruct (Z.leb_spec (da d - lsz_of st) (dc d / 65536)) as [L|L].
  - rewrite u32_id by lia. destruct (da d - lsz_of st <? lsz_of st); (eexists _, _; split; [reflexivity|]; split; [lia|]; split; [|reflexivity]);
      (apply KD; [lia|lia|auto|apply st_ok_upd; assumption]).
  - destruct (da d - lsz_of st <? 32768); [destruct (da d - lsz_of st <? lsz_of st)|]; (eexists _, _; split; [reflexivity|]; split; [lia|]; split; [|reflexivity]);
      (apply KD; [lia|lia|auto|first [apply st_ok_upd; assumption|assumption]]).
Qed.

Lemma decode_safe d cx inp : dsafe d -> 0 <= cx < 4096 -> bytes inp ->
  exists r d' inp', t81_t82_arith_decode d cx inp = Ok (r, d', inp') /\ dsafe d' /\ bytes inp' /\
    ((r = 0 \/ r = 1) /\ dnopadding d' = dnopadding d \/ leave_ok (dnopadding d) r d' inp').
Proof.
  intros I Hcx Hb. destruct (todo_exists d I) as (k & T & Hk).
  destruct (renormd_safe k renorm_fuel d inp I T Hk Hb) as (r & d1 & inp1 & R & I1 & Hb1 & _ & X).
  unfold t81_t82_arith_decode. rewrite R. cbn [rbind]. destruct r as [code|u].
  - exists code, d1, inp1. repeat split; auto; apply I1.
  - destruct X as (X1 & X2 & X3). destruct (pixel_safe d1 cx I1 X2 X1 Hcx) as (pix & d2 & R2 & Hp & I2 & Hn).
    rewrite R2. cbn [rbind]. exists pix, d2, inp1. split; [reflexivity|]. split; [exact I2|]. split; [exact Hb1|]. left. split; [exact Hp|congruence].
Qed.

Lemma dsafe_restart d reuse : st_ok (dst d) -> dsafe (t81_t82_arith_decode_restart d reuse).
Proof.
  intros H. unfold t81_t82_arith_decode_restart. constructor; cbn [da dc dct dst dstartup].
  - split; [lia|]. split; [lia|]. split; [lia|]. intros _. reflexivity.
  - intros _. exists 16%nat. split; [lia|reflexivity].
  - destruct reuse; [exact H|exact st_ok_zero].
Qed.

(** ---- being fed in pieces ---- *)

Definition extend (r : refilled) (more : list Z) : refilled :=
  match r with
  | Filled c ct np inp => Filled c ct np (inp ++ more)
  | Leave code c ct np inp => Leave code c ct np (inp ++ more)
  end.
Definition hungry (r : refilled) : bool := match r with Leave code _ _ _ _ => code =? -1 | _ => false end.

Lemma refill_more f more : forall c ct np inp r, refill f c ct np inp = Ok r -> hungry r = false ->
  refill f c ct np (inp ++ more) = Ok (extend r more).
Proof.
  induction f as [|f IH]; intros c ct np inp r H Hh; [discriminate|]. cbn [refill] in *.
  destruct ((ct <=? 8) && (0 <=? ct)).
  2:{ injection H as <-. reflexivity. }
  destruct inp as [|b t]; [injection H as <-; discriminate|]. cbn [app].
  destruct (b =? ESC).
  - destruct t as [|m' t']; [injection H as <-; discriminate|]. cbn [app]. destruct (m' =? STUFF); [apply IH; auto|].
    destruct np; [injection H as <-; reflexivity|]. apply (IH _ _ _ (b :: m' :: t')); auto.
  - apply IH; auto.
Qed.

Lemma refill_fuel f : forall g c ct np inp r, refill f c ct np inp = Ok r -> (f <= g)%nat -> refill g c ct np inp = Ok r.
Proof.
  induction f as [|f IH]; intros g c ct np inp r H Hg; [discriminate|]. destruct g as [|g]; [lia|]. cbn [refill] in *.
  destruct ((ct <=? 8) && (0 <=? ct)); [|exact H].
  destruct inp as [|b t]; [exact H|]. destruct (b =? ESC).
  - destruct t as [|m' t']; [exact H|]. destruct (m' =? STUFF); [apply IH; auto; lia|]. destruct np; [exact H|]. apply IH; auto; lia.
  - apply IH; auto; lia.
Qed.

Lemma refill_resume f more : forall c ct np inp c' ct' np' inp', refill f c ct np inp = Ok (Leave (-1) c' ct' np' inp') ->
  exists f', (f' <= f)%nat /\ refill f c ct np (inp ++ more) = refill f' c' ct' np' (inp' ++ more).
Proof.
  induction f as [|f IH]; intros c ct np inp c' ct' np' inp' H; [discriminate|]. cbn [refill] in H.
  destruct ((ct <=? 8) && (0 <=? ct)) eqn:E; [|discriminate].
  destruct inp as [|b t]; [injection H as <- <- <- <-; exists (S f); auto|].
  destruct (b =? ESC) eqn:Eb.
  - destruct t as [|m' t']; [injection H as <- <- <- <-; exists (S f); auto|]. destruct (m' =? STUFF) eqn:Em.
    + destruct (IH _ _ _ _ _ _ _ _ H) as (f' & Hf & R). exists f'. split; [lia|]. cbn [refill app]. rewrite E, Eb, Em. exact R.
    + destruct np; [discriminate|]. destruct f as [|f]; [discriminate|]. cbn in H. discriminate.
  - destruct (IH _ _ _ _ _ _ _ _ H) as (f' & Hf & R). exists f'. split; [lia|]. cbn [refill app]. rewrite E, Eb. exact R.
Qed.

Definition hungryd (r : Z + unit) : bool := match r with inl code => code =? -1 | _ => false end.

Lemma renormd_more f more : forall d inp r d' inp', renormd f d inp = Ok (r, d', inp') -> hungryd r = false ->
  renormd f d (inp ++ more) = Ok (r, d', inp' ++ more).
Proof.
  induction f as [|f IH]; intros d inp r d' inp' H Hh; [discriminate|]. cbn [renormd] in *.
  destruct ((da d <? 32768) || dstartup d); [|injection H as <- <- <-; reflexivity].
  destruct (refill 4 (dc d) (dct d) (dnopadding d) inp) as [rf|] eqn:R; [|discriminate]. cbn [rbind] in H.
  destruct rf as [c ct np i1|code c ct np i1].
  - rewrite (refill_more 4 more _ _ _ _ _ R eq_refl). cbn [rbind extend]. apply IH; auto.
  - injection H as <- <- <-. rewrite (refill_more 4 more _ _ _ _ _ R); [|exact Hh]. reflexivity.
Qed.

Lemma renormd_fuel f : forall g d inp x, renormd f d inp = Ok x -> (f <= g)%nat -> renormd g d inp = Ok x.
Proof.
  induction f as [|f IH]; intros g d inp x H Hg; [discriminate|]. destruct g as [|g]; [lia|]. cbn [renormd] in *.
  destruct ((da d <? 32768) || dstartup d); [|exact H].
  destruct (refill 4 (dc d) (dct d) (dnopadding d) inp) as [rf|]; [|discriminate]. cbn [rbind] in *.
  destruct rf; [|exact H]. apply IH; auto. lia.
Qed.

Lemma renormd_resume f more : forall d inp d' inp' x, renormd f d inp = Ok (inl (-1), d', inp') ->
  renormd f d (inp ++ more) = Ok x -> exists f', (f' <= f)%nat /\ renormd f' d' (inp' ++ more) = Ok x.
Proof.
  induction f as [|f IH]; intros d inp d' inp' x H Hx; [discriminate|].
  remember (S f) as sf eqn:Ef. pose proof H as H'. pose proof Hx as Hx'. rewrite Ef in H, Hx. cbn [renormd] in H, Hx.
  destruct ((da d <? 32768) || dstartup d) eqn:E; [|discriminate].
  destruct (refill 4 (dc d) (dct d) (dnopadding d) inp) as [rf|] eqn:R; [|discriminate]. cbn [rbind] in H.
  destruct rf as [c ct np i1|code c ct np i1].
  - rewrite (refill_more 4 more _ _ _ _ _ R eq_refl) in Hx. cbn [rbind extend] in Hx.
    destruct (IH _ _ _ _ _ H Hx) as (f' & Hf & R'). exists f'. split; [lia|exact R'].
  - injection H as -> <- <-. destruct (refill_resume 4 more _ _ _ _ _ _ _ _ R) as (g & Hg & Rg).
    exists (S f). split; [lia|]. cbn [renormd da dc dct dnopadding dstartup dst]. rewrite E.
    rewrite Rg in Hx. destruct (refill g c ct np (i1 ++ more)) as [rf|] eqn:R2; [|discriminate].
    rewrite (refill_fuel g 4 _ _ _ _ _ R2) by lia. exact Hx.
Qed.

Lemma decode_more d cx inp more r d' inp' : t81_t82_arith_decode d cx inp = Ok (r, d', inp') -> r <> -1 ->
  t81_t82_arith_decode d cx (inp ++ more) = Ok (r, d', inp' ++ more).
Proof.
  unfold t81_t82_arith_decode. intros H Hr.
  destruct (renormd renorm_fuel d inp) as [[[q d1] i1]|] eqn:R; [|discriminate]. cbn [rbind] in H.
  destruct q as [code|u].
  - injection H as -> -> ->. rewrite (renormd_more _ more _ _ _ _ _ R); [reflexivity|]. cbn. lia.
  - rewrite (renormd_more _ more _ _ _ _ _ R eq_refl). cbn [rbind].
    destruct (decode_pixel d1 cx) as [[p d2]|]; [|discriminate]. cbn [rbind] in *. injection H as <- <- <-. reflexivity.
Qed.

Lemma decode_eq d cx inp : t81_t82_arith_decode d cx inp =
  rbind (renormd renorm_fuel d inp) (fun x => let '(r, s1, inp1) := x in
    match r with inl code => Ok (code, s1, inp1) | inr _ => rbind (decode_pixel s1 cx) (fun y => let (pix, s2) := y in Ok (pix, s2, inp1)) end).
Proof. reflexivity. Qed.

Lemma decode_resume d cx inp more d' inp' : dsafe d -> 0 <= cx < 4096 -> bytes inp -> bytes more ->
  t81_t82_arith_decode d cx inp = Ok (-1, d', inp') ->
  t81_t82_arith_decode d' cx (inp' ++ more) = t81_t82_arith_decode d cx (inp ++ more).
Proof.
  intros I Hcx Hb Hm H. rewrite !decode_eq in *.
  destruct (todo_exists d I) as (k & T & Hk). generalize dependent renorm_fuel. intros fuel H Hk.
  destruct (renormd_safe k fuel d inp I T Hk Hb) as (r & d1 & i1 & R & I1 & Hb1 & _ & X).
  destruct (renormd_safe k fuel d (inp ++ more) I T Hk) as (r2 & d2 & i2 & R2 & _).
  { apply Forall_app. split; assumption. }
  rewrite R in H. cbn [rbind] in H. destruct r as [code|u].
  - injection H as -> -> ->. destruct (renormd_resume _ more _ _ _ _ _ R R2) as (f' & Hf & R3).
    rewrite R2, (renormd_fuel _ _ _ _ _ R3 Hf). reflexivity.
  - exfalso. destruct X as (X1 & X2 & X3). destruct (pixel_safe d1 cx I1 X2 X1 Hcx) as (pix & d3 & R3 & Hp & _).
    rewrite R3 in H. cbn [rbind] in H. injection H as -> _ _. lia.
Qed.

(** ---- forms for the property file ---- *)

Lemma stripe_lossless e0 d0 reuse ds m tl :
  est e0 = dst d0 -> st_ok (est e0) -> Forall decision_ok ds -> m <> 0 ->
  exists s1 out, encode_all (t81_t82_arith_encode_restart e0 reuse) ds = Ok (s1, out) /\
    exists d1 rest, decode_all (t81_t82_arith_decode_restart d0 reuse) (map fst ds)
      (out ++ snd (t81_t82_arith_encode_flush s1) ++ [255; m] ++ tl) = Ok (map snd ds, d1, rest) /\
    dst d1 = est (fst (t81_t82_arith_encode_flush s1)) /\ st_ok (dst d1) /\
    (ds <> [] -> rest = [255; m] ++ tl).
Proof.
  intros H1 H2 H3 H4. destruct (stripe_ok e0 d0 reuse ds m tl H1 H2 H3 H4) as (s1 & out & R & S & _ & E & d1 & i1 & D & E1 & X).
  exists s1, out. split; [exact R|]. exists d1, i1. rewrite app_assoc, E, E1. split; [exact D|]. split; [reflexivity|]. split; [exact S|]. intros N. exact (proj2 (X N)).
Qed.

Lemma init_lossless ds m tl : Forall decision_ok ds -> m <> 0 ->
  exists s1 out, encode_all t81_t82_arith_encode_init ds = Ok (s1, out) /\
    exists d1 rest, decode_all t81_t82_arith_decode_init (map fst ds)
      (out ++ snd (t81_t82_arith_encode_flush s1) ++ [255; m] ++ tl) = Ok (map snd ds, d1, rest).
Proof.
  intros H1 H2.
  destruct (stripe_lossless (mkEnc 0 0 st_zero 0 0 0) (mkDec 0 0 st_zero 0 false false) false ds m tl eq_refl st_ok_zero H1 H2) as (s1 & out & R & d1 & rest & D & _).
  exists s1, out. split; [exact R|]. exists d1, rest. exact D.
Qed.

Lemma bytes_stuff l : bytes l -> bytes (stuff l).
Proof.
  induction 1 as [|x l Hx H IH]; [constructor|]. change (stuff (x :: l)) with (output_stuffed_byte x ++ stuff l).
  apply Forall_app. split; [|exact IH]. unfold output_stuffed_byte. destruct (x =? ESC); constructor; auto. constructor; auto. red; unfold STUFF; lia.
Qed.

Lemma stripe_no_marker e0 reuse ds s1 out : st_ok (est e0) -> Forall decision_ok ds ->
  encode_all (t81_t82_arith_encode_restart e0 reuse) ds = Ok (s1, out) ->
  bytes (out ++ snd (t81_t82_arith_encode_flush s1)) /\ no_marker (out ++ snd (t81_t82_arith_encode_flush s1)).
Proof.
  intros H1 H2 H3. destruct (stripe_ok e0 (mkDec 0 0 (est e0) 0 false false) reuse ds 1 [] eq_refl H1 H2 ltac:(lia)) as (s1' & out' & R & _ & (F & HF & E) & _).
  rewrite R in H3. injection H3 as -> ->. rewrite E. split; [apply bytes_stuff; exact HF|apply no_marker_stuff].
Qed.
