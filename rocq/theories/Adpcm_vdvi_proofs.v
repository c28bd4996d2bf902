(** Proofs about the variable length VDVI coding, and about decoding any data. *)
From Verif Require Import Base Bits Adpcm_model Adpcm_spec Adpcm_proofs.
From Coq Require Import ZifyBool ZifyNat.
Local Open Scope Z_scope.

(** ---- The code ---- *)
Definition wlen (c : Z) : Z := Z.of_nat (length (vdvi_word c)).
Lemma wlen_range c : 0 <= c < 16 -> 2 <= wlen c <= 8.
Proof. intros H. code16 c H; vm_compute; split; discriminate. Qed.
Lemma vdvi_encode_ok c : 0 <= c < 16 -> getp vdvi_encode c = Ok (of_bits_msb (vdvi_word c), wlen c).
Proof. intros H. code16 c H; reflexivity. Qed.
Lemma vdvi_decode_ok c : 0 <= c < 16 -> exists cm, getp vdvi_decode c = Ok (cm, wlen c).
Proof. intros H. code16 c H; eexists; reflexivity. Qed.

Fixpoint prefixb (a b : list bool) : bool :=
  match a, b with
  | [], _ => true
  | x :: a, y :: b => Bool.eqb x y && prefixb a b
  | _ :: _, [] => false
  end.
Lemma prefixb_spec a : forall b, prefixb a b = true <-> exists r, b = a ++ r.
Proof.
  induction a as [|x a IH]; intros b; cbn [prefixb].
  - split; [exists b; reflexivity|reflexivity].
  - destruct b as [|y b]; [split; [discriminate|intros (r & H); discriminate]|].
    rewrite Bool.andb_true_iff, IH, Bool.eqb_true_iff. split.
    + intros (-> & r & ->). exists r. reflexivity.
    + intros (r & H). injection H as -> ->. split; [reflexivity|exists r; reflexivity].
Qed.
Definition codes16 : list Z := map Z.of_nat (seq 0 16).
Lemma prefix_free : forallb (fun i => forallb (fun j => (i =? j) || negb (prefixb (vdvi_word i) (vdvi_word j))) codes16) codes16 = true.
Proof. vm_compute. reflexivity. Qed.
Lemma vdvi_unique i j a b : 0 <= i < 16 -> 0 <= j < 16 -> vdvi_word i ++ a = vdvi_word j ++ b -> i = j.
Proof.
  intros Hi Hj E. pose proof prefix_free as P. rewrite forallb_forall in P.
  assert (Q : forall i j a b, 0 <= i < 16 -> 0 <= j < 16 -> (length (vdvi_word i) <= length (vdvi_word j))%nat -> vdvi_word i ++ a = vdvi_word j ++ b -> i = j).
  { clear - P. intros i j a b Hi Hj Hl E. specialize (P i (code_cases i Hi)). rewrite forallb_forall in P. specialize (P j (code_cases j Hj)).
    apply Bool.orb_true_iff in P. destruct P as [P|P]; [lia|]. exfalso. apply Bool.negb_true_iff in P.
    assert (prefixb (vdvi_word i) (vdvi_word j) = true); [|congruence]. apply prefixb_spec.
    exists (firstn (length (vdvi_word j) - length (vdvi_word i)) a).
    pose proof (f_equal (firstn (length (vdvi_word j))) E) as F. rewrite !firstn_app in F.
    rewrite firstn_all, Nat.sub_diag in F. cbn [firstn] in F. rewrite app_nil_r in F.
    rewrite firstn_all2 in F by lia. symmetry. exact F. }
  destruct (Nat.le_ge_cases (length (vdvi_word i)) (length (vdvi_word j))); [eapply Q; eassumption|].
  symmetry. eapply Q; eauto.
Qed.

(** The search looks only at the top octet. *)
Lemma land_hi m code : Z.land m 65280 = m -> Z.land m (Z.land code 65280) = Z.land m code.
Proof. intros H. rewrite (Z.land_comm code), Z.land_assoc, H. reflexivity. Qed.
Lemma getp_S {A} (x : A) l i : 0 < i -> getp (x :: l) i = getp l (i - 1).
Proof.
  intros H. unfold getp. cbn [length].
  replace ((0 <=? i) && (i <? Z.of_nat (S (length l)))) with ((0 <=? i - 1) && (i - 1 <? Z.of_nat (length l))) by lia.
  destruct (_ && _); [|reflexivity]. replace (Z.to_nat i) with (S (Z.to_nat (i - 1))) by lia. reflexivity.
Qed.
Lemma find_hi code n : forall j, 0 <= j -> vdvi_find n j code = vdvi_find n j (Z.land code 65280).
Proof.
  assert (G : forall j cm b, getp vdvi_decode j = Ok (cm, b) -> Z.land (snd cm) 65280 = snd cm).
  { intros j cm b H. unfold getp in H. destruct (_ && _) eqn:R; [|discriminate].
    assert (Hj : 0 <= j < 16) by (cbn [length vdvi_decode] in R; lia).
    code16 j Hj; cbn in H; injection H as <- <-; reflexivity. }
  induction n as [|n IH]; intros j Hj; cbn [vdvi_find]; [reflexivity|].
  destruct (getp vdvi_decode j) as [(cm & b)|] eqn:E1; [|reflexivity]. cbn [rbind]. rewrite land_hi by eauto.
  destruct (_ =? _); [reflexivity|].
  destruct (getp vdvi_decode (j + 8)) as [(cm2 & b2)|] eqn:E2; [|reflexivity]. cbn [rbind]. rewrite land_hi by eauto.
  destruct (_ =? _); [reflexivity|]. apply IH. lia.
Qed.
Lemma find_sweep : forallb (fun h => match vdvi_find 8 0 (h * 256) with
    | Ok j => (0 <=? j) && (j <? 16) && prefixb (vdvi_word j) (bits_msb 8 h) | UB => false end) (map Z.of_nat (seq 0 256)) = true.
Proof. vm_compute. reflexivity. Qed.
Lemma land_top code : 0 <= code < 65536 -> Z.land code 65280 = (code / 256) * 256.
Proof.
  intros H. set (h := code / 256). set (l := code mod 256).
  assert (Hl : 0 <= l < 2 ^ 8) by (apply Z.mod_pos_bound; lia).
  assert (Hh : 0 <= h < 256) by (split; [apply Z.div_pos; lia|apply Z.div_lt_upper_bound; lia]).
  assert (E : code = Z.lor l (h * 2 ^ 8)).
  { rewrite lor_disj by lia. unfold h, l. change (2 ^ 8) with 256. pose proof (Z.div_mod code 256 ltac:(lia)). lia. }
  rewrite E, Z.land_lor_distr_l. clearbody h l. clear E H code.
  assert (A : Z.land l 65280 = 0).
  { rewrite <- (Z.mod_small l (2 ^ 8)) by lia. rewrite <- Z.land_ones by lia. rewrite <- Z.land_assoc. apply Z.land_0_r. }
  rewrite A, Z.lor_0_l. change 65280 with (Z.shiftl (Z.ones 8) 8). rewrite <- Z.shiftl_mul_pow2, <- Z.shiftl_land, Z.land_ones by lia.
  rewrite Z.mod_small by lia. rewrite Z.shiftl_mul_pow2 by lia. reflexivity.
Qed.
Lemma find_ok code : 0 <= code < 65536 -> exists j r, vdvi_find 8 0 code = Ok j /\ 0 <= j < 16 /\ bits_msb 8 (code / 256) = vdvi_word j ++ r.
Proof.
  intros H. rewrite find_hi, land_top by lia.
  assert (Hh : 0 <= code / 256 < 256) by (split; [apply Z.div_pos; lia|apply Z.div_lt_upper_bound; lia]).
  set (h := code / 256) in *. clearbody h.
  pose proof find_sweep as S. rewrite forallb_forall in S. specialize (S h).
  assert (I : In h (map Z.of_nat (seq 0 256))). { apply in_map_iff. exists (Z.to_nat h). split; [lia|]. apply in_seq. lia. }
  specialize (S I). cbv beta in S. destruct (vdvi_find 8 0 (h * 256)) as [j|]; [|discriminate].
  apply andb_prop in S. destruct S as (S1 & S2). apply prefixb_spec in S2. destruct S2 as (r & S2).
  exists j, r. split; [reflexivity|]. split; [lia|exact S2].
Qed.

(** ---- The decoder ---- *)
(** The code register with [w] as its valid bits. *)
Definition reg (w : list bool) : Z := of_bits_msb (w ++ repeat false (16 - length w)).
Lemma reg_range w : (length w <= 16)%nat -> 0 <= reg w < 65536.
Proof.
  intros H. unfold reg. pose proof (of_bits_msb_range (w ++ repeat false (16 - length w))) as R.
  rewrite app_length, repeat_length in R. replace (length w + (16 - length w))%nat with 16%nat in R by lia. exact R.
Qed.
Lemma of_bits_zeros n : of_bits_msb (repeat false n) = 0.
Proof.
  induction n as [|n IH]; [reflexivity|]. change (repeat false (S n)) with ([false] ++ repeat false n). rewrite of_bits_msb_app, IH. reflexivity.
Qed.
Lemma reg_val w : reg w = of_bits_msb w * 2 ^ (16 - Z.of_nat (length w)) \/ (16 < length w)%nat.
Proof.
  destruct (Nat.le_gt_cases (length w) 16); [left|right; assumption]. unfold reg. rewrite of_bits_msb_app, of_bits_zeros, repeat_length.
  rewrite Nat2Z.inj_sub by lia. change (Z.of_nat 16) with 16. lia.
Qed.
Lemma reg_load w b : (length w <= 8)%nat -> 0 <= b < 256 ->
  u16 (Z.lor (reg w) (Z.shiftl b (8 - Z.of_nat (length w)))) = reg (w ++ bits_msb 8 b).
Proof.
  intros Hw Hb. set (n := Z.of_nat (length w)). rewrite Z.shiftl_mul_pow2 by lia.
  destruct (reg_val w) as [->|]; [|lia]. fold n.
  assert (Hn : 0 <= n <= 8) by lia.
  rewrite Z.lor_comm. rewrite lor_disj; [|lia|].
  - destruct (reg_val (w ++ bits_msb 8 b)) as [E|E]; rewrite app_length, bits_msb_length in E; [|lia].
    pose proof (reg_range (w ++ bits_msb 8 b)) as R. rewrite app_length, bits_msb_length in R. specialize (R ltac:(lia)).
    rewrite E in R |- *. rewrite of_bits_msb_app, bits_msb_length, of_bits_msb_bits in * by (change (Z.of_nat 8) with 8; lia).
    replace (16 - Z.of_nat (length w + 8)) with (8 - n) in * by lia. change (2 ^ Z.of_nat 8) with 256 in *.
    replace (2 ^ (16 - n)) with (256 * 2 ^ (8 - n)) by (change 256 with (2 ^ 8); rewrite <- Z.pow_add_r by lia; f_equal; lia).
    unfold u16. rewrite Z.mod_small by lia. lia.
  - replace (2 ^ (16 - n)) with (256 * 2 ^ (8 - n)) by (change 256 with (2 ^ 8); rewrite <- Z.pow_add_r by lia; f_equal; lia).
    pose proof (Z.pow_pos_nonneg 2 (8 - n) ltac:(lia) ltac:(lia)). nia.
Qed.
Lemma reg_shift v w : (length (v ++ w) <= 16)%nat -> u16 (Z.shiftl (reg (v ++ w)) (Z.of_nat (length v))) = reg w.
Proof.
  intros H. rewrite Z.shiftl_mul_pow2 by lia. destruct (reg_val (v ++ w)) as [E|]; [|lia].
  destruct (reg_val w) as [F|]; [|rewrite app_length in H; lia]. pose proof (reg_range w ltac:(rewrite app_length in H; lia)) as R.
  rewrite E. rewrite F in R |- *. rewrite of_bits_msb_app, app_length. rewrite app_length in H.
  set (a := Z.of_nat (length v)) in *. set (b := Z.of_nat (length w)) in *.
  replace (Z.of_nat (length v + length w)) with (a + b) by lia.
  replace (_ * _ * 2 ^ a) with (of_bits_msb w * 2 ^ (16 - b) + of_bits_msb v * 65536).
  - unfold u16. rewrite Z.mod_add by lia. apply Z.mod_small. exact R.
  - assert (P1 : 2 ^ (16 - (a + b)) * 2 ^ a = 2 ^ (16 - b)) by (rewrite <- Z.pow_add_r by lia; f_equal; lia).
    assert (P2 : 2 ^ b * 2 ^ (16 - b) = 65536) by (rewrite <- Z.pow_add_r by lia; replace (b + (16 - b)) with 16 by lia; reflexivity).
    rewrite <- P2, <- P1. ring.
Qed.
Lemma reg_hi w : (length w <= 16)%nat -> bits_msb 8 (reg w / 256) = firstn 8 (w ++ repeat false 8).
Proof.
  intros H. unfold reg. set (l := w ++ repeat false (16 - length w)).
  assert (Hl : length l = 16%nat) by (unfold l; rewrite app_length, repeat_length; lia).
  assert (E : firstn 8 (w ++ repeat false 8) = firstn 8 l).
  { unfold l. rewrite !firstn_app. f_equal. destruct (Nat.le_gt_cases 8 (length w)).
    - replace (8 - length w)%nat with 0%nat by lia. reflexivity.
    - replace (16 - length w)%nat with ((8 - length w) + 8)%nat by lia. rewrite repeat_app.
      assert (F : forall n m k, (n <= m)%nat -> (n <= k)%nat -> firstn n (repeat false m) = firstn n (repeat false k)).
      { clear. induction n as [|n IH]; intros [|m] [|k] Hm Hk; try lia; cbn; [reflexivity..|]. f_equal. apply IH; lia. }
      rewrite <- repeat_app. apply F; lia. }
  rewrite E. rewrite <- (firstn_skipn 8 l) at 1. rewrite of_bits_msb_app, skipn_length, Hl. change (2 ^ Z.of_nat (16 - 8)) with 256.
  pose proof (of_bits_msb_range (skipn 8 l)) as R. rewrite skipn_length, Hl in R. change (2 ^ Z.of_nat (16 - 8)) with 256 in R.
  rewrite Z.div_add_l, (Z.div_small (of_bits_msb (skipn 8 l))), Z.add_0_r by lia.
  pose proof (bits_msb_of_bits (firstn 8 l)) as B. rewrite firstn_length, Hl in B. exact B.
Qed.
(** The search finds the code at the front of the register. *)
Lemma find_word c w : 0 <= c < 16 -> (length (vdvi_word c ++ w) <= 16)%nat -> vdvi_find 8 0 (reg (vdvi_word c ++ w)) = Ok c.
Proof.
  intros Hc H. destruct (find_ok _ (reg_range _ H)) as (j & r & -> & Hj & E). rewrite reg_hi in E by assumption.
  f_equal. pose proof (wlen_range c Hc) as L. unfold wlen in L.
  rewrite <- app_assoc, firstn_app, firstn_all2 in E by lia. symmetry. eapply vdvi_unique; eauto.
Qed.

Lemma unpack_cons b t : unpack_msb (b :: t) = bits_msb 8 b ++ unpack_msb t.
Proof. reflexivity. Qed.
Lemma unpack_length t : length (unpack_msb t) = (8 * length t)%nat.
Proof. apply flat_map_bits_length. apply bits_msb_length. Qed.

(** Any data at all. *)
Lemma decv_tail_safe fuel : forall s w, valid ima_coder (st s) -> nbits s = Z.of_nat (length w) -> (length w <= 16)%nat -> (length w < fuel)%nat ->
  exists ys s', decv_tail fuel s (reg w) = Ok (ys, s') /\ valid ima_coder (st s') /\ samples ys.
Proof.
  induction fuel as [|fuel IH]; intros s w Hv Hb Hw Hf; [lia|]. cbn [decv_tail].
  destruct (Z.ltb_spec 0 (nbits s)); [|exists [], s; repeat (split; [assumption || reflexivity|]); constructor].
  destruct (find_ok _ (reg_range _ Hw)) as (j & r & F & Hj & E). rewrite F. cbn [rbind].
  destruct (vdvi_decode_ok j Hj) as (cm & ->). cbn [rbind].
  destruct (Z.ltb_spec (nbits s) (wlen j)); [exists [], s; repeat (split; [assumption || reflexivity|]); constructor|].
  rewrite decode1_ok by assumption. cbn [rbind]. set (s1 := mk _ _ s).
  pose proof (wlen_range j Hj) as WL. unfold wlen in *.
  assert (W : w = vdvi_word j ++ skipn (length (vdvi_word j)) w).
  { rewrite reg_hi in E by assumption. rewrite <- (firstn_skipn (length (vdvi_word j)) w) at 1. f_equal.
    pose proof (f_equal (firstn (length (vdvi_word j))) E) as G. rewrite firstn_firstn in G. rewrite Nat.min_l in G by lia.
    rewrite !firstn_app, Nat.sub_diag, firstn_all in G. cbn [firstn] in G. rewrite app_nil_r in G.
    replace (length (vdvi_word j) - length w)%nat with 0%nat in G by lia. cbn [firstn] in G. rewrite app_nil_r in G. exact G. }
  set (w' := skipn _ w) in *. assert (Hlen : length w = (length (vdvi_word j) + length w')%nat) by (rewrite W at 1; apply app_length).
  assert (RS : u16 (Z.shiftl (reg w) (Z.of_nat (length (vdvi_word j)))) = reg w') by (pose proof (reg_shift (vdvi_word j) w') as RS; rewrite <- W in RS; apply RS; lia).
  rewrite RS.
  destruct (IH (with_bits s1 (nbits s1 - Z.of_nat (length (vdvi_word j)))) w') as (ys & s' & E' & V & S).
  - change (st (with_bits s1 _)) with (st s1). unfold s1. rewrite st_mk. apply ima_next_valid.
  - change (nbits (with_bits s1 _)) with (nbits s - Z.of_nat (length (vdvi_word j))). lia.
  - lia.
  - lia.
  - rewrite E'. cbn [rbind]. eexists _, s'. split; [reflexivity|]. split; [assumption|]. constructor; [|assumption].
    apply (ima_next_valid (st s) j).
Qed.
Lemma decv_safe fuel : forall s w data, valid ima_coder (st s) -> nbits s = Z.of_nat (length w) -> (length w <= 16)%nat -> bytes data ->
  (length w + 8 * length data < fuel)%nat ->
  exists ys s', decv fuel s (reg w) data = Ok (ys, s') /\ valid ima_coder (st s') /\ samples ys.
Proof.
  induction fuel as [|fuel IH]; intros s w data Hv Hb Hw Hd Hf; [lia|]. cbn [decv].
  assert (GO : forall s w data, valid ima_coder (st s) -> nbits s = Z.of_nat (length w) -> (8 <= length w <= 16)%nat -> bytes data ->
     (length w + 8 * length data <= fuel)%nat -> exists ys s',
     (do j <- vdvi_find 8 0 (reg w) ;
      do (a, s1) <- decode1 s j ;
      do (_, n) <- getp vdvi_decode j ;
      do (out, s2) <- decv fuel (with_bits s1 (nbits s1 - n)) (u16 (Z.shiftl (reg w) n)) data ;
      Ok (a :: out, s2)) = Ok (ys, s') /\ valid ima_coder (st s') /\ samples ys).
  { clear - IH. intros s w data Hv Hb Hw Hd Hf.
    destruct (find_ok _ (reg_range w ltac:(lia))) as (j & r & F & Hj & E). rewrite F. cbn [rbind].
    rewrite decode1_ok by assumption. cbn [rbind]. set (s1 := mk _ _ s).
    destruct (vdvi_decode_ok j Hj) as (cm & ->). cbn [rbind].
    pose proof (wlen_range j Hj) as WL. unfold wlen in *.
    assert (W : w = vdvi_word j ++ skipn (length (vdvi_word j)) w).
    { rewrite reg_hi in E by lia. rewrite <- (firstn_skipn (length (vdvi_word j)) w) at 1. f_equal.
      pose proof (f_equal (firstn (length (vdvi_word j))) E) as G. rewrite firstn_firstn in G. rewrite Nat.min_l in G by lia.
      rewrite !firstn_app, Nat.sub_diag, firstn_all in G. cbn [firstn] in G. rewrite app_nil_r in G.
      replace (length (vdvi_word j) - length w)%nat with 0%nat in G by lia. cbn [firstn] in G. rewrite app_nil_r in G. exact G. }
    set (w' := skipn _ w) in *. assert (Hlen : length w = (length (vdvi_word j) + length w')%nat) by (rewrite W at 1; apply app_length).
    assert (RS : u16 (Z.shiftl (reg w) (Z.of_nat (length (vdvi_word j)))) = reg w') by (pose proof (reg_shift (vdvi_word j) w') as RS; rewrite <- W in RS; apply RS; lia).
  rewrite RS.
    destruct (IH (with_bits s1 (nbits s1 - Z.of_nat (length (vdvi_word j)))) w' data) as (ys & s' & E' & V & S).
    - change (st (with_bits s1 _)) with (st s1). unfold s1. rewrite st_mk. apply ima_next_valid.
    - change (nbits (with_bits s1 _)) with (nbits s - Z.of_nat (length (vdvi_word j))). lia.
    - lia.
    - assumption.
    - lia.
    - rewrite E'. cbn [rbind]. eexists _, s'. split; [reflexivity|]. split; [assumption|]. constructor; [|assumption].
      apply (ima_next_valid (st s) j). }
  destruct (Z.leb_spec (nbits s) 8).
  - destruct data as [|b data].
    + apply decv_tail_safe; try assumption. lia.
    + inversion_clear Hd as [|? ? Hb0 Hd']. unfold byte in Hb0. rewrite Hb, reg_load by lia.
      apply GO; [assumption|cbn [nbits with_bits]; rewrite app_length, bits_msb_length; lia|rewrite app_length, bits_msb_length; lia|assumption|rewrite app_length, bits_msb_length; cbn [length] in Hf; lia].
  - apply GO; try assumption; lia.
Qed.

(** Data which is the words of some codes, and less than an octet of ones. *)
Definition words (cs : list Z) : list bool := flat_map vdvi_word cs.
Definition codesP (cs : list Z) : Prop := Forall (fun c => 0 <= c < 16) cs.
Lemma word_take c w a b : w ++ a = vdvi_word c ++ b -> (length (vdvi_word c) <= length w)%nat ->
  exists w', w = vdvi_word c ++ w' /\ w' ++ a = b.
Proof.
  intros E H. exists (skipn (length (vdvi_word c)) w).
  assert (W : w = vdvi_word c ++ skipn (length (vdvi_word c)) w).
  { rewrite <- (firstn_skipn (length (vdvi_word c)) w) at 1. f_equal.
    pose proof (f_equal (firstn (length (vdvi_word c))) E) as G. rewrite !firstn_app, Nat.sub_diag, firstn_all in G. cbn [firstn] in G.
    rewrite app_nil_r in G. replace (length (vdvi_word c) - length w)%nat with 0%nat in G by lia. cbn [firstn] in G. rewrite app_nil_r in G. exact G. }
  split; [exact W|]. rewrite W in E. rewrite <- app_assoc in E. apply app_inv_head in E. exact E.
Qed.
Lemma decv_tail_words fuel : forall s w cs k, valid ima_coder (st s) -> nbits s = Z.of_nat (length w) -> (length w <= 16)%nat -> (length w < fuel)%nat ->
  codesP cs -> w = words cs ++ repeat true k -> (k < 8)%nat ->
  exists s', decv_tail fuel s (reg w) = Ok (fst (play ima_coder (st s) cs), s') /\ st s' = snd (play ima_coder (st s) cs).
Proof.
  induction fuel as [|fuel IH]; intros s w cs k Hv Hb Hw Hf Hc E Hk; [lia|]. cbn [decv_tail].
  destruct cs as [|c cs].
  - cbn [words flat_map app] in E. destruct (Z.ltb_spec 0 (nbits s)); [|exists s; split; reflexivity].
    assert (L : length w = k) by (rewrite E; apply repeat_length).
    assert (G : exists j, vdvi_find 8 0 (reg w) = Ok j /\ 0 <= j < 16 /\ Z.of_nat k < wlen j).
    { subst w. clear - Hk. do 8 (destruct k as [|k]; [eexists; split; [vm_compute; reflexivity|split; [lia|vm_compute; reflexivity]]|]). lia. }
    destruct G as (j & -> & Hj & Gl). cbn [rbind]. destruct (vdvi_decode_ok j Hj) as (cm & ->). cbn [rbind].
    destruct (Z.ltb_spec (nbits s) (wlen j)); [|lia]. exists s. split; reflexivity.
  - cbn [words flat_map] in E. inversion_clear Hc as [|? ? Hc0 Hc']. rewrite <- app_assoc in E.
    destruct (word_take c w [] (words cs ++ repeat true k)) as (w' & W & W').
    { rewrite app_nil_r. exact E. }
    { rewrite E. rewrite app_length. lia. }
    rewrite app_nil_r in W'. pose proof (wlen_range c Hc0) as WL. unfold wlen in WL.
    assert (Hlen : length w = (length (vdvi_word c) + length w')%nat) by (rewrite W at 1; apply app_length).
    destruct (Z.ltb_spec 0 (nbits s)); [|lia].
    rewrite W, find_word by (try rewrite <- W; assumption). cbn [rbind].
    destruct (vdvi_decode_ok c Hc0) as (cm & ->). cbn [rbind]. unfold wlen.
    destruct (Z.ltb_spec (nbits s) (Z.of_nat (length (vdvi_word c)))); [lia|].
    rewrite decode1_ok by assumption. cbn [rbind]. set (s1 := mk _ _ s). rewrite reg_shift by (rewrite <- W; assumption).
    assert (S1 : st s1 = next ima_coder (st s) c) by (unfold s1; apply st_mk).
    destruct (IH (with_bits s1 (nbits s1 - Z.of_nat (length (vdvi_word c)))) w' cs k) as (s' & E' & V).
    + change (st (with_bits s1 _)) with (st s1). rewrite S1. apply ima_next_valid.
    + change (nbits (with_bits s1 _)) with (nbits s - Z.of_nat (length (vdvi_word c))). lia.
    + lia.
    + lia.
    + assumption.
    + exact W'.
    + assumption.
    + change (st (with_bits s1 _)) with (st s1) in *. rewrite S1 in *. rewrite E'. cbn [rbind]. exists s'. split; [reflexivity|exact V].
Qed.
Lemma decv_words fuel : forall s w data cs k, valid ima_coder (st s) -> nbits s = Z.of_nat (length w) -> (length w <= 16)%nat -> bytes data ->
  (length w + 8 * length data < fuel)%nat -> codesP cs -> w ++ unpack_msb data = words cs ++ repeat true k -> (k < 8)%nat ->
  exists s', decv fuel s (reg w) data = Ok (fst (play ima_coder (st s) cs), s') /\ st s' = snd (play ima_coder (st s) cs).
Proof.
  induction fuel as [|fuel IH]; intros s w data cs k Hv Hb Hw Hd Hf Hc E Hk; [lia|]. cbn [decv].
  assert (GO : forall s w data, valid ima_coder (st s) -> nbits s = Z.of_nat (length w) -> (8 <= length w <= 16)%nat -> bytes data ->
     (length w + 8 * length data <= fuel)%nat -> w ++ unpack_msb data = words cs ++ repeat true k -> exists s',
     (do j <- vdvi_find 8 0 (reg w) ;
      do (a, s1) <- decode1 s j ;
      do (_, n) <- getp vdvi_decode j ;
      do (out, s2) <- decv fuel (with_bits s1 (nbits s1 - n)) (u16 (Z.shiftl (reg w) n)) data ;
      Ok (a :: out, s2)) = Ok (fst (play ima_coder (st s) cs), s') /\ st s' = snd (play ima_coder (st s) cs)).
  { clear - IH Hc Hk. intros s w data Hv Hb Hw Hd Hf E.
    destruct cs as [|c cs].
    { apply (f_equal (@length bool)) in E. cbn [words flat_map app] in E. rewrite app_length, repeat_length in E. lia. }
    cbn [words flat_map] in E. inversion_clear Hc as [|? ? Hc0 Hc']. rewrite <- app_assoc in E.
    pose proof (wlen_range c Hc0) as WL. unfold wlen in WL.
    destruct (word_take c w _ _ E) as (w' & W & W'); [lia|].
    assert (Hlen : length w = (length (vdvi_word c) + length w')%nat) by (rewrite W at 1; apply app_length).
    rewrite W, find_word by (try rewrite <- W; lia). cbn [rbind].
    rewrite decode1_ok by assumption. cbn [rbind]. set (s1 := mk _ _ s).
    destruct (vdvi_decode_ok c Hc0) as (cm & ->). cbn [rbind]. unfold wlen.
    rewrite reg_shift by (rewrite <- W; lia).
    assert (S1 : st s1 = next ima_coder (st s) c) by (unfold s1; apply st_mk).
    destruct (IH (with_bits s1 (nbits s1 - Z.of_nat (length (vdvi_word c)))) w' data cs k) as (s' & E' & V).
    + change (st (with_bits s1 _)) with (st s1). rewrite S1. apply ima_next_valid.
    + change (nbits (with_bits s1 _)) with (nbits s - Z.of_nat (length (vdvi_word c))). lia.
    + lia.
    + assumption.
    + lia.
    + assumption.
    + exact W'.
    + assumption.
    + change (st (with_bits s1 _)) with (st s1) in *. rewrite S1 in *. rewrite E'. cbn [rbind]. exists s'. split; [reflexivity|exact V]. }
  destruct (Z.leb_spec (nbits s) 8).
  - destruct data as [|b data].
    + cbn [unpack_msb flat_map] in E. rewrite app_nil_r in E. apply decv_tail_words with (k := k); try assumption. lia.
    + inversion_clear Hd as [|? ? Hb0 Hd']. unfold byte in Hb0. rewrite Hb, reg_load by lia.
      apply (GO (with_bits s (Z.of_nat (length w) + 8))); [assumption|cbn [nbits with_bits]; rewrite app_length, bits_msb_length; lia|rewrite app_length, bits_msb_length; lia|assumption|rewrite app_length, bits_msb_length; cbn [length] in Hf; lia|].
      rewrite unpack_cons in E. rewrite <- app_assoc. exact E.
  - apply GO; try assumption; lia.
Qed.

(** ---- The encoder ---- *)
Lemma ones_val n : of_bits_msb (repeat true n) = 2 ^ Z.of_nat n - 1.
Proof.
  induction n as [|n IH]; [reflexivity|]. change (repeat true (S n)) with ([true] ++ repeat true n). rewrite of_bits_msb_app, IH, repeat_length.
  rewrite Nat2Z.inj_succ, Z.pow_succ_r by lia. change (of_bits_msb [true]) with 1. lia.
Qed.
(** Appending a word to the pending bits. *)
Lemma put_word x p w : x mod 2 ^ Z.of_nat (length p) = of_bits_msb p -> (length (p ++ w) <= 16)%nat ->
  u16 (Z.lor (Z.shiftl x (Z.of_nat (length w))) (of_bits_msb w)) mod 2 ^ Z.of_nat (length (p ++ w)) = of_bits_msb (p ++ w).
Proof.
  intros E H. rewrite Z.shiftl_mul_pow2 by lia. rewrite Z.lor_comm, lor_disj by (try apply of_bits_msb_range; lia).
  rewrite of_bits_msb_app. rewrite app_length in *. pose proof (of_bits_msb_range w) as R. pose proof (of_bits_msb_range p) as Rp.
  set (n := Z.of_nat (length w)) in *. set (m := Z.of_nat (length p)) in *. replace (Z.of_nat (length p + length w)) with (m + n) by lia.
  assert (P : 0 < 2 ^ m /\ 0 < 2 ^ n) by (split; apply Z.pow_pos_nonneg; lia).
  unfold u16. replace 65536 with (2 ^ (m + n) * 2 ^ (16 - (m + n))) by (rewrite <- Z.pow_add_r by lia; replace (m + n + (16 - (m + n))) with 16 by lia; reflexivity).
  assert (P2 : 0 < 2 ^ (16 - (m + n)) /\ 0 < 2 ^ (m + n)) by (split; apply Z.pow_pos_nonneg; lia).
  rewrite Z.rem_mul_r by lia. rewrite (Z.mul_comm (2 ^ (m + n))), Z.mod_add by lia. rewrite Z.mod_mod by lia.
  rewrite Z.pow_add_r in * by lia. rewrite (Z.mul_comm (2 ^ m)).
  pose proof (Z.div_mod x (2 ^ m) ltac:(lia)) as D. rewrite E in D.
  rewrite D. replace (of_bits_msb w + (2 ^ m * (x / 2 ^ m) + of_bits_msb p) * 2 ^ n) with (of_bits_msb p * 2 ^ n + of_bits_msb w + (x / 2 ^ m) * (2 ^ n * 2 ^ m)) by ring.
  rewrite Z.mod_add by lia. apply Z.mod_small. nia.
Qed.
Lemma take_byte x a b : length a = 8%nat -> x mod 2 ^ Z.of_nat (length (a ++ b)) = of_bits_msb (a ++ b) ->
  u8 (Z.shiftr x (Z.of_nat (length b))) = of_bits_msb a /\ x mod 2 ^ Z.of_nat (length b) = of_bits_msb b.
Proof.
  intros Ha E. rewrite of_bits_msb_app, app_length, Ha in E. pose proof (of_bits_msb_range a) as Ra. rewrite Ha in Ra. pose proof (of_bits_msb_range b) as Rb.
  change (2 ^ Z.of_nat 8) with 256 in Ra.
  rewrite Z.shiftr_div_pow2 by lia. unfold u8. set (n := Z.of_nat (length b)) in *. replace (Z.of_nat (8 + length b)) with (8 + n) in E by lia.
  rewrite Z.pow_add_r in E by lia. change (2 ^ 8) with 256 in E.
  assert (P : 0 < 2 ^ n) by (apply Z.pow_pos_nonneg; lia).
  pose proof (Z.div_mod x (256 * 2 ^ n) ltac:(lia)) as D. rewrite E in D.
  set (q := x / (256 * 2 ^ n)) in *. clearbody q. subst x. clear E.
  replace (256 * 2 ^ n * q + (of_bits_msb a * 2 ^ n + of_bits_msb b)) with (of_bits_msb b + (256 * q + of_bits_msb a) * 2 ^ n) by ring.
  rewrite Z.div_add, Z.mod_add by lia. rewrite (Z.div_small (of_bits_msb b)), (Z.mod_small (of_bits_msb b)) by lia. split; [|reflexivity].
  rewrite Z.add_0_l, Z.add_comm, (Z.mul_comm 256), Z.mod_add by lia. apply Z.mod_small. lia.
Qed.
Lemma last_byte x p : (0 < length p < 8)%nat -> x mod 2 ^ Z.of_nat (length p) = of_bits_msb p ->
  u8 (Z.shiftr (Z.lor (Z.shiftl x 8) 255) (Z.of_nat (length p))) = of_bits_msb (p ++ repeat true (8 - length p)).
Proof.
  intros Hp E. change 255 with (of_bits_msb (repeat true 8)). change 8 with (Z.of_nat (length (repeat true 8))).
  rewrite Z.shiftl_mul_pow2, Z.lor_comm, lor_disj by (try apply of_bits_msb_range; lia).
  pose proof (take_byte (of_bits_msb (repeat true 8) + x * 2 ^ Z.of_nat (length (repeat true 8))) (p ++ repeat true (8 - length p)) (repeat true (length p))) as T.
  rewrite (repeat_length true (length p)) in T. apply T; clear T.
  - rewrite app_length, repeat_length. lia.
  - rewrite <- app_assoc, <- repeat_app, repeat_length. replace (8 - length p + length p)%nat with 8%nat by lia.
    rewrite app_length, of_bits_msb_app, !repeat_length. change (2 ^ Z.of_nat 8) with 256. change (of_bits_msb (repeat true 8)) with 255.
    pose proof (of_bits_msb_range p) as Rp. rewrite Nat2Z.inj_add, Z.pow_add_r by lia. change (2 ^ Z.of_nat 8) with 256.
    set (m := Z.of_nat (length p)) in *. assert (P : 0 < 2 ^ m) by (apply Z.pow_pos_nonneg; lia).
    pose proof (Z.div_mod x (2 ^ m) ltac:(lia)) as D. rewrite E in D. rewrite D.
    replace (255 + (2 ^ m * (x / 2 ^ m) + of_bits_msb p) * 256) with (of_bits_msb p * 256 + 255 + (x / 2 ^ m) * (2 ^ m * 256)) by ring.
    rewrite Z.mod_add by lia. apply Z.mod_small. lia.
Qed.
Lemma bits_of_8 l : length l = 8%nat -> bits_msb 8 (of_bits_msb l) = l.
Proof. intros H. rewrite <- H. apply bits_msb_of_bits. Qed.
Lemma byte_of_8 l : length l = 8%nat -> byte (of_bits_msb l).
Proof. intros H. pose proof (of_bits_msb_range l) as R. rewrite H in R. exact R. Qed.

Lemma encv_ok amp : forall s p, samples amp -> valid ima_coder (st s) -> nbits s = Z.of_nat (length p) -> (length p < 8)%nat ->
  ima_byte s mod 2 ^ Z.of_nat (length p) = of_bits_msb p ->
  exists cs out s' k, chosen ima_coder (st s) amp cs /\ encv s amp = Ok (out, s') /\ bytes out /\ st s' = snd (play ima_coder (st s) cs) /\
    unpack_msb out = p ++ words cs ++ repeat true k /\ (k < 8)%nat.
Proof.
  induction amp as [|x amp IH]; intros s p Hs Hv Hn Hp E; cbn [encv].
  - destruct p as [|b p].
    + rewrite Hn. cbn [length]. exists [], [], s, 0%nat. cbn. repeat split; try lia. constructor.
    + rewrite Hn. cbn [length]. destruct (Z.eqb_spec (Z.of_nat (S (length p))) 0); [lia|]. cbn [negb].
      set (q := b :: p) in *. change (S (length p)) with (length q).
      rewrite last_byte by (try assumption; cbn in *; lia).
      assert (L : length (q ++ repeat true (8 - length q)) = 8%nat) by (rewrite app_length, repeat_length; lia).
      eexists [], _, s, (8 - length q)%nat. split; [exact I|]. split; [reflexivity|]. split; [constructor; [apply byte_of_8, L|constructor]|].
      split; [reflexivity|]. split; [|unfold q; cbn [length] in *; lia]. cbn [unpack_msb flat_map words app]. rewrite app_nil_r. apply bits_of_8, L.
  - inversion_clear Hs as [|? ? Hx Hs'].
    destruct (encode1_ok s x Hv Hx) as (c & B & E1). rewrite E1. cbn [rbind]. set (s1 := mk _ _ s).
    assert (Hc : 0 <= c < 16) by apply B. rewrite (vdvi_encode_ok c Hc). cbn [rbind].
    pose proof (wlen_range c Hc) as WL. unfold wlen in *. set (w := vdvi_word c) in *.
    assert (S1 : st s1 = next ima_coder (st s) c) by (unfold s1; apply st_mk).
    set (x' := u16 (Z.lor (Z.shiftl (ima_byte s1) (Z.of_nat (length w))) (of_bits_msb w))).
    assert (X : x' mod 2 ^ Z.of_nat (length (p ++ w)) = of_bits_msb (p ++ w)).
    { apply put_word; [exact E|rewrite app_length; lia]. }
    set (s2 := with_bits _ _). change (nbits s2) with (nbits s + Z.of_nat (length w)).
    destruct (Z.leb_spec 8 (nbits s + Z.of_nat (length w))) as [L|L].
    + set (s3 := with_bits s2 _).
      set (a := firstn 8 (p ++ w)). set (b := skipn 8 (p ++ w)). assert (AB : a ++ b = p ++ w) by apply firstn_skipn.
      assert (La : length a = 8%nat) by (unfold a; rewrite firstn_length, app_length; lia).
      assert (Lb : (length (a ++ b) = length p + length w)%nat) by (rewrite AB; apply app_length). rewrite app_length, La in Lb.
      rewrite <- AB in X. destruct (take_byte x' a b La X) as (T1 & T2).
      destruct (IH s3 b) as (cs & out & s' & k & C & F & O & G & U & K).
      * assumption.
      * change (st s3) with (st s1). rewrite S1. apply ima_next_valid.
      * unfold s3, s2. cbn [nbits with_bits with_byte mk s1]. lia.
      * lia.
      * exact T2.
      * change (st s3) with (st s1) in *. rewrite F. cbn [rbind].
        exists (c :: cs), (u8 (Z.shiftr (ima_byte s3) (nbits s3)) :: out), s', k.
        replace (u8 (Z.shiftr (ima_byte s3) (nbits s3))) with (of_bits_msb a).
        2: { rewrite <- T1. change (ima_byte s3) with x'. do 2 f_equal. unfold s3, s2. cbn [nbits with_bits with_byte mk s1]. lia. }
        rewrite S1 in *. split; [split; assumption|]. split; [reflexivity|]. split; [constructor; [apply byte_of_8, La|assumption]|].
        split; [exact G|]. split; [|assumption]. rewrite unpack_cons, U, bits_of_8 by assumption. rewrite app_assoc, AB.
        cbn [words flat_map]. fold w. rewrite <- !app_assoc. reflexivity.
    + destruct (IH s2 (p ++ w)) as (cs & out & s' & k & C & F & O & G & U & K).
      * assumption.
      * change (st s2) with (st s1). rewrite S1. apply ima_next_valid.
      * unfold s2. cbn [nbits with_bits with_byte mk s1]. rewrite app_length. lia.
      * rewrite app_length. lia.
      * exact X.
      * change (st s2) with (st s1) in *. rewrite F. exists (c :: cs), out, s', k. rewrite S1 in *.
        split; [split; assumption|]. split; [reflexivity|]. split; [assumption|]. split; [exact G|]. split; [|assumption].
        rewrite U. cbn [words flat_map]. fold w. rewrite <- !app_assoc. reflexivity.
Qed.

Lemma vdvi_round_trip chunked s d amp : samples amp -> valid ima_coder (st s) -> (chunked = true -> st d = st s) ->
  exists out s' d' ys, ima_adpcm_encode VDVI chunked s amp = Ok (out, s') /\ bytes out /\
    ima_adpcm_decode VDVI chunked d out = Ok (ys, d') /\
    coding ima_coder (st s) amp ys (st s') /\ st d' = st s' /\ valid ima_coder (st s').
Proof.
  intros Hs Hv Hd. unfold ima_adpcm_encode, ima_adpcm_decode.
  destruct (encv_ok amp (with_bits s 0) [] Hs Hv) as (cs & out & s' & k & C & E & O & F & U & K); [reflexivity|cbn; lia|cbn [length]; change (2 ^ Z.of_nat 0) with 1; apply Z.mod_1_r|].
  change (st (with_bits s 0)) with (st s) in *. rewrite E. cbn [rbind]. cbn [app] in U.
  destruct (chosen_codes _ _ _ _ C) as (Hc & _).
  assert (D : forall d, st d = st s -> exists d', decv (8 * length out + 1) (with_bits d 0) 0 out = Ok (fst (play ima_coder (st s) cs), d') /\ st d' = st s').
  { intros d0 Hd0. change (decv (8 * length out + 1) (with_bits d0 0) 0 out) with (decv (8 * length out + 1) (with_bits d0 0) (reg []) out).
    destruct (decv_words (8 * length out + 1) (with_bits d0 0) [] out cs k) as (d' & D & D'); try assumption; try reflexivity.
    - change (st (with_bits d0 0)) with (st d0). rewrite Hd0. assumption.
    - cbn; lia.
    - cbn [length]. lia.
    - change (st (with_bits d0 0)) with (st d0) in *. rewrite Hd0 in *. exists d'. split; [exact D|]. rewrite F. exact D'. }
  assert (CO : coding ima_coder (st s) amp (fst (play ima_coder (st s) cs)) (st s')) by (rewrite F; apply chosen_coding, C).
  assert (V : valid ima_coder (st s')) by (rewrite F; apply play_valid, Hv).
  destruct chunked.
  - destruct (D d (Hd eq_refl)) as (d' & D1 & D2). exists out, s', d', (fst (play ima_coder (st s) cs)). rewrite D1. auto 10.
  - set (d0 := {| last := last s; step_index := step_index s; ima_byte := ima_byte d; nbits := nbits d |}).
    destruct (D d0 eq_refl) as (d' & D1 & D2). exists (header s ++ out), s', d', (fst (play ima_coder (st s) cs)).
    destruct Hv as (Hv1 & Hv2). cbn in Hv1, Hv2.
    split; [reflexivity|]. split.
    { apply Forall_app. split; [|assumption]. unfold header, u8. repeat constructor; unfold byte; try lia; apply Z.mod_pos_bound; lia. }
    unfold header. cbn [app]. destruct (header3 (u8 (Z.shiftr (last s) 8)) (u8 (last s)) (u8 (step_index s)) 0 out) as (-> & -> & ->). cbn [rbind skipn].
    rewrite header_last by lia. replace (u8 (step_index s)) with (step_index s) by (unfold u8; rewrite Z.mod_small; lia).
    fold d0. rewrite D1. cbn [rbind]. auto 10.
Qed.

(** ---- Decoding any data ---- *)
Lemma dec4_safe v data : forall s, valid ima_coder (st s) ->
  exists ys s', dec4 v s data = Ok (ys, s') /\ valid ima_coder (st s') /\ samples ys.
Proof.
  assert (N : forall x, 0 <= Z.land x 15 < 16) by (intros x; change 15 with (Z.ones 4); rewrite Z.land_ones by lia; apply Z.mod_pos_bound; lia).
  assert (N2 : forall x y, 0 <= match v with IMA4 => Z.land x 15 | _ => Z.land y 15 end < 16) by (intros; destruct v; apply N).
  induction data as [|b data IH]; intros s Hv; cbn [dec4].
  - exists [], s. repeat split; try apply Hv. constructor.
  - rewrite decode1_ok by auto. cbn [rbind]. set (s1 := mk _ _ s). assert (S1 : valid ima_coder (st s1)) by (unfold s1; rewrite st_mk; apply ima_next_valid).
    rewrite decode1_ok by auto. cbn [rbind]. set (s2 := mk _ _ s1). assert (S2 : valid ima_coder (st s2)) by (unfold s2; rewrite st_mk; apply ima_next_valid).
    destruct (IH s2 S2) as (ys & s' & E & V & F). rewrite E. cbn [rbind]. eexists _, s'. split; [reflexivity|]. split; [assumption|].
    repeat constructor; try assumption; apply (ima_next_valid _ _).
Qed.
Lemma aget_ok (l : list Z) i : 0 <= i -> (if i <? Z.of_nat (length l) then exists x, aget l i = Ok x /\ x = nth (Z.to_nat i) l 0 else aget l i = UB).
Proof.
  intros H. destruct (Z.ltb_spec i (Z.of_nat (length l))); unfold aget, in_bounds.
  - eexists. replace ((0 <=? i) && _) with true by lia. split; reflexivity.
  - replace ((0 <=? i) && _) with false by lia. reflexivity.
Qed.
Lemma dec_bad v s data : 88 < step_index s -> data <> [] ->
  match v with VDVI => decv (8 * length data + 1) (with_bits s 0) 0 data | _ => dec4 v s data end = UB.
Proof.
  intros Hs Hd. destruct data as [|b data]; [contradiction|].
  assert (D : forall s' c, step_index s' = step_index s -> decode1 s' c = UB).
  { intros s' c E. unfold decode1. rewrite E. pose proof (aget_ok step_size (step_index s) ltac:(lia)) as A.
    change (Z.of_nat (length step_size)) with 89 in A. destruct (Z.ltb_spec (step_index s) 89); [lia|]. rewrite A. reflexivity. }
  destruct v; cbn [dec4]; try (rewrite D by reflexivity; reflexivity).
  replace (8 * length (b :: data) + 1)%nat with (S (8 * length data + 8)) by (cbn [length]; lia). cbn [decv with_bits nbits].
  change (0 <=? 8) with true. cbv iota.
  destruct (vdvi_find 8 0 _) as [j|]; [|reflexivity]. cbn [rbind]. rewrite D by reflexivity. reflexivity.
Qed.
Lemma ima_decode_safe_iff v chunked s data : valid ima_coder (st s) -> bytes data ->
  (is_ok (ima_adpcm_decode v chunked s data) = true <->
   chunked = true \/ ((3 <= length data)%nat /\ (nth 2 data 0 <= 88 \/ (length data <= 4)%nat))).
Proof.
  intros Hv Hb.
  assert (B : forall s data, valid ima_coder (st s) -> bytes data -> exists ys s',
     match v with VDVI => decv (8 * length data + 1) (with_bits s 0) 0 data | _ => dec4 v s data end = Ok (ys, s')).
  { clear. intros s data Hv Hb. destruct v; try (destruct (dec4_safe IMA4 data s Hv) as (ys & s' & E & _); exists ys, s'; exact E);
      try (destruct (dec4_safe DVI4 data s Hv) as (ys & s' & E & _); exists ys, s'; exact E).
    destruct (decv_safe (8 * length data + 1) (with_bits s 0) [] data) as (ys & s' & E & _); try assumption; try reflexivity; [cbn; lia|cbn [length]; lia|].
    exists ys, s'. exact E. }
  unfold ima_adpcm_decode. destruct chunked.
  - destruct (B s data Hv Hb) as (ys & s' & E).
    replace (is_ok _) with true by (destruct v; rewrite E; reflexivity). tauto.
  - pose proof (aget_ok data 0 ltac:(lia)) as A0. pose proof (aget_ok data 1 ltac:(lia)) as A1. pose proof (aget_ok data 2 ltac:(lia)) as A2.
    destruct (Z.ltb_spec 2 (Z.of_nat (length data))) as [L|L].
    2: { split; [|intros [|]; [discriminate|lia]]. rewrite A2.
         destruct (aget data 0); [|discriminate]. destruct (aget data 1); discriminate. }
    replace (0 <? _) with true in A0 by lia. replace (1 <? _) with true in A1 by lia.
    destruct A0 as (b0 & -> & E0). destruct A1 as (b1 & -> & E1). destruct A2 as (b2 & -> & E2). cbn [rbind].
    change (Z.to_nat 2) with 2%nat in E2. rewrite <- E2.
    assert (P2 : 0 <= b2 < 256). { subst b2. apply (proj1 (Forall_forall byte data) Hb). apply nth_In. lia. }
    set (l := match v with IMA4 => s16 (Z.lor (Z.shiftl b1 8) b0) | _ => s16 (Z.lor (Z.shiftl b0 8) b1) end). set (s1 := {| last := l; step_index := b2; ima_byte := _; nbits := _ |}).
    assert (Hl : -32768 <= l <= 32767). { unfold l, s16. destruct v; match goal with |- context [?x mod 65536] => pose proof (Z.mod_pos_bound x 65536 ltac:(lia)) end; lia. }
    assert (Hb' : bytes (skipn 4 data)). { rewrite <- (firstn_skipn 4 data) in Hb. apply Forall_app in Hb. apply Hb. }
    destruct (Z_le_dec b2 88) as [G|G].
    + destruct (B s1 (skipn 4 data)) as (ys & s' & E); [split; cbn; lia|assumption|].
      rewrite E. cbn. split; [|reflexivity]. intros _. right. lia.
    + destruct (Nat.le_gt_cases (length data) 4) as [Q|Q].
      * rewrite (skipn_all2 data) by lia. split; [|destruct v; reflexivity]. intros _. right. lia.
      * pose proof (dec_bad v s1 (skipn 4 data)) as DB. rewrite DB.
        -- cbn. split; [discriminate|]. intros [|]; [discriminate|lia].
        -- cbn. lia.
        -- intros N. apply (f_equal (@length Z)) in N. rewrite skipn_length in N. cbn in N. lia.
Qed.
Lemma ima_decode_valid v s data : valid ima_coder (st s) -> bytes data ->
  exists ys s', ima_adpcm_decode v true s data = Ok (ys, s') /\ valid ima_coder (st s') /\ samples ys.
Proof.
  intros Hv Hb. unfold ima_adpcm_decode. destruct v; try (apply dec4_safe; assumption).
  apply (decv_safe (8 * length data + 1) (with_bits s 0) [] data); try assumption; try reflexivity; [cbn; lia|cbn [length]; lia].
Qed.
