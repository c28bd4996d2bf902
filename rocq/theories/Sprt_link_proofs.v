(** SPRT: what holds of two ends joined by a network. *)
From Coq Require Import ZifyBool ZifyNat Znumtheory.
From Verif Require Import Base Sprt_model Sprt_spec Sprt_base_proofs Sprt_chan_proofs Sprt_end_proofs Sprt_call_proofs Sprt_api_proofs.
Local Open Scope Z_scope.

(** ---- reading a packet that was built ---- *)
Definition hi8 (x : Z) : Z := u8 (Z.shiftr (u16 x) 8).
Lemma hi_bits x : 0 <= x < 65536 -> Z.land (Z.shiftr (hi8 x) 6) 3 = x / 16384.
Proof.
  intros H. unfold hi8, u8, u16. rewrite (Z.mod_small x) by lia. pose proof (Z.land_ones (Z.shiftr (Z.shiftr x 8 mod 256) 6) 2 ltac:(lia)) as E. change (Z.ones 2) with 3 in E. rewrite E.
  rewrite !Z.shiftr_div_pow2 by lia. change (2 ^ 8) with 256. change (2 ^ 6) with 64. change (2 ^ 2) with 4.
  rewrite (Z.mod_small (x / 256)) by (split; [apply Z.div_pos; lia|apply Z.div_lt_upper_bound; lia]).
  rewrite Z.div_div by lia. change (256 * 64) with 16384. apply Z.mod_small. split; [apply Z.div_pos; lia|apply Z.div_lt_upper_bound; lia].
Qed.
Lemma word_bits x : 0 <= x < 65536 -> Z.land (Z.lor (Z.shiftl (hi8 x) 8) (u8 x)) SEQ_MASK = x mod 16384.
Proof.
  intros H. rewrite land_mask. f_equal. unfold hi8, u8, u16. rewrite (Z.mod_small x 65536) by lia. rewrite Z.shiftr_div_pow2 by lia. change (2 ^ 8) with 256.
  rewrite (Z.mod_small (x / 256)) by (split; [apply Z.div_pos; lia|apply Z.div_lt_upper_bound; lia]).
  assert (E : Z.land (Z.shiftl (x / 256) 8) (x mod 256) = 0).
  { apply Z.bits_inj_0. intros n. rewrite Z.land_spec. destruct (Z_lt_ge_dec n 0); [rewrite Z.testbit_neg_r by lia; reflexivity|].
    destruct (Z_lt_ge_dec n 8); [rewrite Z.shiftl_spec_low by lia; reflexivity|]. change 256 with (2 ^ 8) at 2. rewrite Z.mod_pow2_bits_high by lia. apply andb_false_r. }
  rewrite <- Z.lxor_lor by exact E. rewrite <- Z.add_nocarry_lxor by exact E. rewrite Z.shiftl_mul_pow2 by lia. change (2 ^ 8) with 256. pose proof (Z.div_mod x 256 ltac:(lia)). lia.
Qed.
Lemma lor14 c r : 0 <= c -> 0 <= r < 16384 -> Z.lor (Z.shiftl c 14) r = c * 16384 + r.
Proof.
  intros Hc Hr. assert (E : Z.land (Z.shiftl c 14) r = 0).
  { apply Z.bits_inj_0. intros n. rewrite Z.land_spec. destruct (Z_lt_ge_dec n 0); [rewrite Z.testbit_neg_r by lia; reflexivity|].
    destruct (Z_lt_ge_dec n 14); [rewrite Z.shiftl_spec_low by lia; reflexivity|].
    replace (Z.testbit r n) with false; [apply andb_false_r|]. symmetry. rewrite <- (Z.mod_small r (2 ^ 14)) by lia. apply Z.mod_pow2_bits_high. lia. }
  rewrite <- Z.lxor_lor by exact E. rewrite <- Z.add_nocarry_lxor by exact E. rewrite Z.shiftl_mul_pow2 by lia. change (2 ^ 14) with 16384. lia.
Qed.
Lemma zn_app_r (a l : list Z) i : Z.of_nat (length a) <= i -> zn (a ++ l) i = zn l (i - Z.of_nat (length a)).
Proof. intros H. unfold zn. rewrite app_nth2 by lia. f_equal. lia. Qed.
Lemma read_built ks p : Forall (fun k => 0 <= k < 65536) ks -> forall h, 
  read_acks (h ++ concat (map put16 ks) ++ p) (length ks) (zlen h) = Ok (map (fun k => (k / 16384, k mod 16384)) ks).
Proof.
  induction 1 as [|k ks Hk _ IH]; intros h; [reflexivity|]. cbn [length read_acks map concat]. unfold zlen.
  assert (E0 : zn (h ++ (put16 k ++ concat (map put16 ks)) ++ p) (Z.of_nat (length h)) = hi8 k) by (rewrite zn_app_r by lia; rewrite Z.sub_diag; reflexivity).
  assert (E1 : zn (h ++ (put16 k ++ concat (map put16 ks)) ++ p) (Z.of_nat (length h) + 1) = u8 k) by (rewrite zn_app_r by lia; replace (_ + 1 - _) with 1 by lia; reflexivity).
  unfold get16. rewrite !aget_zn by (rewrite !app_length; cbn [put16 length]; lia). rewrite E0, E1. cbn [rbind].
  replace (h ++ (put16 k ++ concat (map put16 ks)) ++ p) with ((h ++ put16 k) ++ concat (map put16 ks) ++ p) by (rewrite <- !app_assoc; reflexivity).
  replace (Z.of_nat (length h) + 2) with (zlen (h ++ put16 k)) by (unfold zlen; rewrite app_length; cbn [put16 length]; lia).
  rewrite IH. cbn [rbind]. rewrite hi_bits, word_bits by lia. reflexivity.
Qed.
Lemma view_mkp sub pt ch seq base ks p ch' seq' ks' p' : 0 <= ch <= 3 -> 0 <= base < 16384 -> zlen ks <= 3 -> Forall (fun k => 0 <= k < 65536) ks ->
  view (mkp sub pt ch seq base ks p) ch' seq' ks' p' -> ch' = ch /\ seq' = seq mod 16384 /\ ks' = map (fun k => (k / 16384, k mod 16384)) ks /\ p' = p.
Proof.
  intros Hch Hbase Hks Hk (noa & _ & _ & En & Ec & Es & Ek & Ep).
  assert (Hs : 0 <= seq mod 16384 < 16384) by (apply Z.mod_pos_bound; lia). pose proof (zlen_nonneg ks).
  unfold mkp in En, Ec, Es. rewrite (land_mask seq), (lor14 ch (seq mod 16384)), (lor14 (zlen ks) base) in En, Ec, Es by lia.
  change (noa = Z.land (Z.shiftr (hi8 (zlen ks * 16384 + base)) 6) 3) in En. rewrite hi_bits in En by lia.
  replace ((zlen ks * 16384 + base) / 16384) with (zlen ks) in En by (symmetry; rewrite Z.add_comm, Z.div_add, Z.div_small by lia; lia).
  change (ch' = Z.land (Z.shiftr (hi8 (ch * 16384 + seq mod 16384)) 6) 3) in Ec. rewrite hi_bits in Ec by lia.
  rewrite Z.add_comm, Z.div_add, Z.div_small in Ec by lia.
  change (seq' = Z.land (Z.lor (Z.shiftl (hi8 (ch * 16384 + seq mod 16384)) 8) (u8 (ch * 16384 + seq mod 16384))) SEQ_MASK) in Es.
  rewrite word_bits in Es by lia. rewrite Z.add_comm, Z_mod_plus_full, Z.mod_mod in Es by lia.
  split; [lia|]. split; [exact Es|].
  set (h := [u8 sub; u8 pt] ++ put16 (Z.lor (Z.shiftl ch 14) (Z.land seq SEQ_MASK)) ++ put16 (Z.lor (Z.shiftl (zlen ks) 14) base)).
  assert (Em : mkp sub pt ch seq base ks p = h ++ concat (map put16 ks) ++ p) by reflexivity. rewrite Em in *.
  assert (Hh : zlen h = 6) by reflexivity. subst noa. unfold zlen in Ek at 1. rewrite Nat2Z.id in Ek. rewrite <- Hh, read_built in Ek by exact Hk. injection Ek as <-.
  split; [reflexivity|]. rewrite Ep. rewrite app_assoc. rewrite skipn_app. rewrite skipn_all2; [|rewrite app_length; pose proof (acks_len ks) as E; unfold zlen in *; lia].
  replace (_ - _)%nat with 0%nat; [reflexivity|]. rewrite app_length. pose proof (acks_len ks) as E; unfold zlen in *; lia.
Qed.

(** ---- lists ---- *)
Lemma prefix_refl {A} (l : list A) : prefix l l. Proof. exists []. rewrite app_nil_r. reflexivity. Qed.
Lemma prefix_snoc {A} (l m t : list A) : prefix l m -> prefix l (m ++ t). Proof. intros (u & ->). exists (u ++ t). rewrite <- app_assoc. reflexivity. Qed.
Lemma prefix_on ch l m : prefix l m -> zlen (on ch l) <= zlen (on ch m).
Proof. intros (t & ->). rewrite on_app, zlen_app. pose proof (zlen_nonneg (on ch t)). lia. Qed.
Lemma znth_some {A} (l : list A) i : 0 <= i < zlen l -> exists x, znth l i = Some x.
Proof. unfold znth, zlen. intros H. replace (i <? 0) with false by lia. destruct (nth_error l (Z.to_nat i)) eqn:E; [eauto|]. apply nth_error_None in E. lia. Qed.
Lemma firstn_is {A} (m : list A) : forall l, (forall i x, nth_error m i = Some x -> nth_error l i = Some x) -> firstn (length m) l = m.
Proof.
  induction m as [|y m IH]; intros l H; [reflexivity|]. destruct l as [|z l]; [specialize (H 0%nat y eq_refl); discriminate|].
  cbn. f_equal; [specialize (H 0%nat y eq_refl); cbn in H; congruence|]. apply IH. intros i x E. apply (H (Datatypes.S i) x E).
Qed.
Lemma nth_skipn {A} (l : list A) : forall b i, nth_error (skipn b l) i = nth_error l (b + i).
Proof. induction l as [|a l IH]; intros [|b] i; cbn; try reflexivity; [destruct i; reflexivity|apply IH]. Qed.
Lemma firstn_more {A} (l m : list A) b : 0 <= b <= zlen l -> (forall k p, znth m k = Some p -> znth l (b + k) = Some p) ->
  firstn (Z.to_nat b) l ++ m = firstn (Z.to_nat (b + zlen m)) l /\ b + zlen m <= zlen l.
Proof.
  intros Hb H. assert (Hl : b + zlen m <= zlen l).
  { pose proof (zlen_nonneg m). destruct (Z.eq_dec (zlen m) 0); [lia|]. destruct (znth_some m (zlen m - 1) ltac:(lia)) as (x & E). apply H in E. apply znth_range in E. lia. }
  split; [|exact Hl]. unfold zlen in *. rewrite <- (firstn_skipn (Z.to_nat b) l) at 2. rewrite firstn_app, firstn_firstn, firstn_length.
  replace (Init.Nat.min _ (Z.to_nat b)) with (Z.to_nat b) by lia. f_equal. replace (Z.to_nat (b + Z.of_nat (length m)) - _)%nat with (length m) by lia.
  symmetry. apply firstn_is. intros i x E. rewrite nth_skipn. specialize (H (Z.of_nat i) x). unfold znth in H. replace (Z.of_nat i <? 0) with false in H by lia. rewrite Nat2Z.id in H. specialize (H E).
  replace (b + Z.of_nat i <? 0) with false in H by lia. rewrite <- H. f_equal. lia.
Qed.

(** ---- the invariant: the part about one end ---- *)
Definition at_peer (y : node) (ch n : Z) (p : list Z) : Prop := znth (on ch (accepted y)) n = Some p.
Definition ackno (s : sprt) (b : Z -> Z) (k tc n : Z) : Prop := rel tc /\ 0 <= n /\ k = tc * 16384 + n mod 16384 /\ received (rx s tc) (b tc) n.
Record fact (x y : node) (bx : Z -> Z) (m : sent) : Prop := mkFact {
  f_own : prefix (own m) (accepted x);
  f_peers : prefix (peers m) (accepted y);
  f_oct : exists sub pt ch seq base ks p, octets m = mkp sub pt ch seq base ks p /\ 0 <= ch <= 3 /\ 0 <= base < 16384 /\ zlen ks <= 3 /\
    (p = [] \/ (rel ch /\ exists n, zlen (on ch (own m)) - 96 <= n /\ seq mod 16384 = n mod 16384 /\ znth (on ch (accepted x)) n = Some p) \/ (~ rel ch /\ In (ch, p) (accepted x))) /\
    forall k, In k ks -> exists tc n, ackno (dev x) bx k tc n /\ n < zlen (on tc (peers m)) <= n + 4290 }.
Record half (f : bool) (x y : node) (bx by_ : Z -> Z) (hx hy : list sent) : Prop := mkHalf {
  h_ei : EI (accepted x) (at_peer y) 0 bx f (dev x);
  h_got : forall ch, rel ch -> on ch (got x) = firstn (Z.to_nat (bx ch)) (on ch (accepted y)) /\ bx ch <= zlen (on ch (accepted y));
  h_un : forall ch p, ~ rel ch -> In (ch, p) (got x) -> In (ch, p) (accepted y);
  h_hd : forall ch, rel ch -> hd_ok (dev x) ch;
  h_acked : forall ch i, rel ch -> acked (tx (dev x) ch) (zlen (on ch (accepted x))) i -> received (rx (dev y) ch) (by_ ch) i;
  h_hist : forall m, In m hx -> fact x y bx m;
  h_q : forall k, In k (acks (dev x)) -> exists tc n, ackno (dev x) bx k tc n /\ (forall m, In m hx -> zlen (on tc (peers m)) <= n + 4193) /\
    (forall i, acked (tx (dev y) tc) (zlen (on tc (accepted y))) i -> i < n + 4193) }.

Lemma EI_peer S P (P' : Z -> Z -> list Z -> Prop) k b f s : EI S P k b f s -> (forall ch n p, P ch n p -> P' ch n p) -> EI S P' k b f s.
Proof.
  intros [] H. constructor; auto. intros ch Hr. destruct (e_rx ch Hr) as ([] & Ri). split; [|exact Ri]. constructor; auto.
Qed.
Lemma received_lt S y b f s ch i : EI S (at_peer y) 0 b f s -> rel ch -> b ch <= zlen (on ch (accepted y)) -> received (rx s ch) (b ch) i -> i < zlen (on ch (accepted y)).
Proof.
  intros I Hr Hb [H|(H1 & H2)]; [lia|]. destruct (e_rx _ _ _ _ _ _ I ch Hr) as (Rc & _). destruct (sn (r_buf (rx s ch)) (i mod r_win (rx s ch))) as [p|] eqn:E; [|congruence].
  pose proof (r_slot _ _ _ Rc (i - b ch) p ltac:(lia)) as X. replace (b ch + (i - b ch)) with i in X by lia. specialize (X E). apply znth_range in X. lia.
Qed.
(** the newest message is at most 96 after the first that is not acknowledged *)
Lemma sent_bound S P b f s ch v : EI S P 0 b f s -> rel ch -> (forall i, acked (tx s ch) (zlen (on ch S)) i -> i < v) -> 0 <= v -> zlen (on ch S) <= v + 95.
Proof.
  intros I Hr H Hv. destruct (e_tx _ _ _ _ _ _ I ch Hr) as (O & L & G & _). pose proof (g_win _ _ _ G). destruct (g_range _ _ _ G) as (R1 & R2).
  destruct (Z.eq_dec O 0); [lia|]. specialize (H (O - 1)). rewrite (ring_acked _ _ _ _ G) in H. specialize (H ltac:(left; lia)). lia.
Qed.

(** ---- a step of one end ---- *)
Section Moved.
Variables (f fy : bool) (x y : node) (bx by_ : Z -> Z) (hx hy : list sent).
Hypothesis Hx : half f x y bx by_ hx hy.
Hypothesis Hy : half fy y x by_ bx hy hx.
Definition may_ack (ch i : Z) : Prop := received (rx (dev y) ch) (by_ ch) i /\ exists m, In m hy /\ i < zlen (on ch (peers m)).
Definition may_get (ch : Z) (p : list Z) : Prop := In (ch, p) (accepted y).
Definition newack (s' : sprt) (b' : Z -> Z) (k : Z) : Prop := exists tc n, ackno s' b' k tc n /\ zlen (on tc (accepted y)) <= n + 4192.

Lemma moved S' t s0 s' e b' f' pr : S' = accepted x ++ t -> rx s0 = rx (dev x) -> acks s0 = acks (dev x) ->
  (forall c i, rel c -> acked (tx s0 c) (zlen (on c S')) i <-> acked (tx (dev x) c) (zlen (on c (accepted x))) i) ->
  EI S' (at_peer y) 0 b' f' s' -> evol S' (at_peer y) may_ack may_get (newack s' b') bx s0 e b' s' -> hdm (dev x) s' ->
  let x' := mkNode s' S' (got x ++ delivered e) pr in let hx' := hx ++ map (fun b => mkSent b S' (accepted y)) (packets e) in
  half f' x' y b' by_ hx' hy /\ half fy y x' by_ b' hy hx'.
Proof.
  intros ES Er Ea Hack I V Hd x' hx'. destruct Hx as [Ix Gx Ux Dx Ax Fx Qx]. destruct Hy as [Iy Gy Uy Dy Ay Fy Qy].
  assert (Hmono : forall ch i, rel ch -> received (rx (dev x) ch) (bx ch) i -> received (rx s' ch) (b' ch) i) by (intros ch i Hr X; apply (v_mono _ _ _ _ _ _ _ _ _ _ V ch i Hr); rewrite Er; exact X).
  assert (HAk : forall k tc n, ackno (dev x) bx k tc n -> ackno s' b' k tc n) by (intros k tc n (H1 & H2 & H3 & H4); split; [exact H1|]; split; [exact H2|]; split; [exact H3|apply Hmono; assumption]).
  assert (Hgot : forall ch, rel ch -> on ch (got x ++ delivered e) = firstn (Z.to_nat (b' ch)) (on ch (accepted y)) /\ b' ch <= zlen (on ch (accepted y))).
  { intros ch Hr. destruct (Gx ch Hr) as (E & L). destruct (v_del _ _ _ _ _ _ _ _ _ _ V ch Hr) as (L' & D). destruct (e_rx _ _ _ _ _ _ Ix ch Hr) as (Rc & _). pose proof (r_pos _ _ _ Rc).
    destruct (firstn_more (on ch (accepted y)) (on ch (delivered e)) (bx ch) ltac:(lia) D) as (E1 & E2). rewrite on_app, E, E1, L'. rewrite L' in E2. replace (bx ch + (b' ch - bx ch)) with (b' ch) in * by lia. auto. }
  assert (Hacked : forall c i, rel c -> acked (tx s' c) (zlen (on c S')) i -> acked (tx (dev x) c) (zlen (on c (accepted x))) i \/ may_ack c i).
  { intros c i Hr X. apply (v_acked _ _ _ _ _ _ _ _ _ _ V c i Hr) in X. destruct X as [X|X]; [left; apply Hack; assumption|right; exact X]. }
  assert (Hpre : forall c, zlen (on c (accepted x)) <= zlen (on c S')) by (intros c; apply prefix_on; subst S'; apply prefix_snoc, prefix_refl).
  assert (HinS : forall m, In m (accepted x) -> In m S') by (intros m X; subst S'; apply in_or_app; left; exact X).
  assert (Hzn : forall c n p, znth (on c (accepted x)) n = Some p -> znth (on c S') n = Some p) by (intros c n p X; subst S'; rewrite on_app; apply znth_app_l; exact X).
  assert (HackY : forall tc n, (forall i, acked (tx (dev y) tc) (zlen (on tc (accepted y))) i -> i < n + 4193) -> rel tc -> 0 <= n -> zlen (on tc (accepted y)) <= n + 4290).
  { intros tc n X Hr Hn. pose proof (sent_bound _ _ _ _ _ tc (n + 4193) Iy Hr X ltac:(lia)). lia. }
  assert (HNq : forall k, newack s' b' k -> exists tc n, ackno s' b' k tc n /\ (forall m, In m hx' -> zlen (on tc (peers m)) <= n + 4193) /\ (forall i, acked (tx (dev y) tc) (zlen (on tc (accepted y))) i -> i < n + 4193)).
  { intros k (tc & n & A & B). exists tc, n. split; [exact A|]. split.
    - intros m Hm. unfold hx' in Hm. apply in_app_or in Hm. destruct Hm as [Hm|Hm].
      + pose proof (prefix_on tc _ _ (f_peers _ _ _ _ (Fx m Hm))). lia.
      + apply in_map_iff in Hm. destruct Hm as (o & <- & _). cbn [peers]. lia.
    - intros i (Hi & _). lia. }
  split.
  - constructor; cbn [accepted dev got x'].
    + exact I.
    + exact Hgot.
    + intros ch p Hr X. apply in_app_or in X. destruct X as [X|X]; [apply Ux; assumption|]. apply (v_unrel _ _ _ _ _ _ _ _ _ _ V ch p Hr X).
    + intros ch Hr. apply Hd; auto.
    + intros ch i Hr X. apply Hacked in X; [|exact Hr]. destruct X as [X|(X & _)]; [apply Ax; assumption|exact X].
    + intros m Hm. unfold hx' in Hm. apply in_app_or in Hm. destruct Hm as [Hm|Hm].
      * destruct (Fx m Hm) as [F1 F2 (sub & pt & ch & seq & base & ks & p & F3 & F4 & F5 & F6 & F7 & F8)]. constructor; cbn [accepted dev x'].
        -- subst S'. apply prefix_snoc. exact F1.
        -- exact F2.
        -- exists sub, pt, ch, seq, base, ks, p. split; [exact F3|]. split; [exact F4|]. split; [exact F5|]. split; [exact F6|]. split.
           ++ destruct F7 as [F7|[(F7 & n & F9 & F10 & F11)|(F7 & F9)]]; [left; exact F7| |right; right; auto]. right. left. split; [exact F7|]. exists n. auto.
           ++ intros k Hk. destruct (F8 k Hk) as (tc & n & A & B). exists tc, n. auto.
      * apply in_map_iff in Hm. destruct Hm as (o & <- & Ho). destruct (v_pk _ _ _ _ _ _ _ _ _ _ V o Ho) as (ch & seq & base & ks & p & F3 & F4 & F5 & F6 & F7 & F8 & F9).
        constructor; cbn [own peers accepted dev octets x']; [apply prefix_refl|apply prefix_refl|].
        exists (tx_sub s0), (tx_pt s0), ch, seq, base, ks, p. split; [exact F3|]. split; [exact F4|]. split; [exact F5|]. split; [exact F6|]. split; [exact F8|].
        intros k Hk. destruct (F9 k Hk) as [Hk'|(tc & n & A & B)].
        -- rewrite Ea in Hk'. destruct (Qx k Hk') as (tc & n & A & _ & C). exists tc, n. split; [auto|]. pose proof A as (A1 & A2 & A3 & A4). split; [|apply HackY; assumption].
           apply (received_lt _ _ _ _ _ _ _ Ix A1); [apply Gx; exact A1|exact A4].
        -- exists tc, n. split; [exact A|]. pose proof A as (A1 & A2 & A3 & A4). split; [|lia]. apply (received_lt _ _ _ _ _ _ _ I A1); [apply Hgot; exact A1|exact A4].
    + intros k Hk. destruct (v_q _ _ _ _ _ _ _ _ _ _ V) as [(Ep & Hq)|Hq]; [|apply HNq; auto]. destruct (Hq k Hk) as [Hk'|Hk']; [|apply HNq; exact Hk'].
      rewrite Ea in Hk'. destruct (Qx k Hk') as (tc & n & A & B & C). exists tc, n. split; [auto|]. split; [|exact C]. unfold hx'. rewrite Ep. cbn [map]. rewrite app_nil_r. exact B.
  - constructor; cbn [accepted dev got x'].
    + apply (EI_peer _ (at_peer x)); [exact Iy|]. intros ch n p X. unfold at_peer in *. cbn [accepted x']. apply Hzn. exact X.
    + intros ch Hr. destruct (Gy ch Hr) as (E & L). destruct (e_rx _ _ _ _ _ _ Iy ch Hr) as (Rc & _). pose proof (r_pos _ _ _ Rc). split; [|pose proof (Hpre ch); lia]. rewrite E. subst S'. rewrite on_app.
      rewrite firstn_app. replace (Z.to_nat (by_ ch) - _)%nat with 0%nat by (unfold zlen in L; lia). cbn [firstn]. rewrite app_nil_r. reflexivity.
    + intros ch p Hr X. apply HinS. apply Uy; assumption.
    + exact Dy.
    + intros ch i Hr X. apply Hmono; [exact Hr|]. apply Ay; assumption.
    + intros m Hm. destruct (Fy m Hm) as [F1 F2 F3]. constructor; [exact F1| |exact F3]. cbn [accepted x']. subst S'. apply prefix_snoc. exact F2.
    + intros k Hk. destruct (Qy k Hk) as (tc & n & A & B & C). exists tc, n. split; [exact A|]. split; [exact B|]. intros i X. destruct A as (A1 & _).
      apply Hacked in X; [|exact A1]. destruct X as [X|(_ & m & Hm & Hi)]; [apply C; exact X|]. specialize (B m Hm). lia.
Qed.
End Moved.
