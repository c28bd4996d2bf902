From Verif Require Import Base Crc_model Crc_spec.
From Coq Require Import ZifyBool ZifyNat.
Ltac Zify.zify_post_hook ::= Z.div_mod_to_equations.

Lemma pow2_pos n : 0 < 2 ^ Z.of_nat n.
Proof. apply Z.pow_pos_nonneg; lia. Qed.

Lemma lxor_range n a b : 0 <= a < 2 ^ Z.of_nat n -> 0 <= b < 2 ^ Z.of_nat n ->
  0 <= Z.lxor a b < 2 ^ Z.of_nat n.
Proof.
  intros Ha Hb. assert (H0 : 0 <= Z.lxor a b) by (apply Z.lxor_nonneg; lia).
  split; auto.
  destruct (Z.eq_dec (Z.lxor a b) 0) as [->|Hne]; [apply pow2_pos|].
  assert (Ha2 : a mod 2 ^ Z.of_nat n = a) by (apply Z.mod_small; lia).
  assert (Hb2 : b mod 2 ^ Z.of_nat n = b) by (apply Z.mod_small; lia).
  assert (E : Z.lxor a b = (Z.lxor a b) mod 2 ^ Z.of_nat n).
  { apply Z.bits_inj'. intros i Hi. rewrite <- Ha2 at 1. rewrite <- Hb2 at 1.
    rewrite Z.lxor_spec. destruct (Z_lt_le_dec i (Z.of_nat n)).
    - rewrite !Z.mod_pow2_bits_low, Z.lxor_spec by lia. reflexivity.
    - rewrite !Z.mod_pow2_bits_high by lia. reflexivity. }
  rewrite E. apply Z.mod_pos_bound, pow2_pos.
Qed.

Lemma div2_lxor a b : Z.div2 (Z.lxor a b) = Z.lxor (Z.div2 a) (Z.div2 b).
Proof. rewrite !Z.div2_spec. apply Z.shiftr_lxor. Qed.
Lemma odd_lxor a b : Z.odd (Z.lxor a b) = xorb (Z.odd a) (Z.odd b).
Proof. rewrite <- !Z.bit0_odd. apply Z.lxor_spec. Qed.
Lemma lxor_cancel_l a b c : Z.lxor a b = Z.lxor a c -> b = c.
Proof.
  intros H. assert (Z.lxor a (Z.lxor a b) = Z.lxor a (Z.lxor a c)) by congruence.
  rewrite <- !Z.lxor_assoc, !Z.lxor_nilpotent, !Z.lxor_0_l in H0. auto.
Qed.

Lemma wire_app a b : wire (a ++ b) = wire a ++ wire b.
Proof. unfold wire. apply flat_map_app. Qed.
Lemma wire_length a : length (wire a) = (8 * length a)%nat.
Proof.
  induction a as [|x a IH]; [reflexivity|]. cbn [wire flat_map]. fold (wire a).
  rewrite app_length, bits_lsb_length, IH. cbn [length]. lia.
Qed.
Lemma wire_inj a b : bytes a -> bytes b -> wire a = wire b -> a = b.
Proof.
  intros Ha. revert b. induction Ha as [|x a Hx Ha IH]; intros b Hb H.
  - destruct b as [|y b]; auto.
    apply (f_equal (@length bool)) in H. rewrite !wire_length in H. cbn [length] in H; lia.
  - destruct b as [|y b].
    + apply (f_equal (@length bool)) in H. rewrite !wire_length in H. cbn [length] in H; lia.
    + inversion Hb; subst. cbn [wire flat_map] in H. fold (wire a) (wire b) in H.
      assert (E : bits_lsb 8 x = bits_lsb 8 y /\ wire a = wire b).
      { split.
        - apply (f_equal (firstn 8)) in H.
          rewrite !firstn_app, !bits_lsb_length in H. cbn [Nat.sub firstn] in H.
          rewrite !app_nil_r in H. exact H.
        - apply (f_equal (skipn 8)) in H.
          rewrite !skipn_app, !bits_lsb_length in H. cbn [Nat.sub] in H. cbn in H. exact H. }
      destruct E as [E1 E2]. f_equal; auto.
      apply (bits_lsb_inj 8); auto; unfold byte in *; cbn; lia.
Qed.

Lemma bits_lsb_split k x : 
  bits_lsb (8 + k) x = bits_lsb 8 (x mod 256) ++ bits_lsb k (x / 256).
Proof.
  assert (H : forall j k x, bits_lsb (j + k) x = bits_lsb j (x mod 2 ^ Z.of_nat j) ++ bits_lsb k (x / 2 ^ Z.of_nat j)).
  { induction j as [|j IH]; intros k' y.
    - cbn [Nat.add bits_lsb app]. change (2 ^ Z.of_nat 0) with 1. rewrite Z.div_1_r. reflexivity.
    - cbn [Nat.add bits_lsb app]. rewrite IH.
      rewrite Nat2Z.inj_succ, Z.pow_succ_r by lia. pose proof (pow2_pos j).
      f_equal; [|f_equal].
      + rewrite <- !Z.bit0_odd. rewrite <- Z.pow_succ_r by lia. rewrite Z.mod_pow2_bits_low by lia. reflexivity.
      + f_equal. rewrite <- Z.pow_succ_r by lia. rewrite !Z.div2_spec. 
        apply Z.bits_inj'. intros i Hi.
        destruct (Z_lt_le_dec i (Z.of_nat j)).
        * rewrite Z.mod_pow2_bits_low by lia. rewrite !Z.shiftr_spec by lia.
          rewrite Z.mod_pow2_bits_low by lia. reflexivity.
        * rewrite Z.mod_pow2_bits_high by lia. rewrite !Z.shiftr_spec by lia.
          rewrite Z.mod_pow2_bits_high by lia. reflexivity.
      + f_equal. rewrite Z.div2_div, Z.div_div by lia. reflexivity. }
  apply (H 8%nat).
Qed.

(** ---- The generic shift register ---- *)
Section LFSR.
Variable poly : Z.
Variable n : nat.
Hypothesis Hpoly : 2 ^ Z.of_nat n <= poly < 2 ^ Z.of_nat (S n).
Notation wf c := (0 <= c < 2 ^ Z.of_nat (S n)).
Notation run := (lfsr_run poly).
Notation run0 k c := (lfsr_run poly c (repeat false k)).

Lemma pow2_S : 2 ^ Z.of_nat (S n) = 2 * 2 ^ Z.of_nat n.
Proof. rewrite Nat2Z.inj_succ, Z.pow_succ_r by lia. reflexivity. Qed.

Lemma lfsr_wf c b : wf c -> wf (lfsr poly c b).
Proof.
  intros H. pose proof pow2_S. pose proof (pow2_pos n). unfold lfsr.
  assert (wf (Z.div2 c)) by (rewrite Z.div2_div; lia).
  destruct (xorb _ _); [apply lxor_range|]; lia.
Qed.
Lemma run_wf l c : wf c -> wf (run c l).
Proof. revert c; induction l as [|b l IH]; intros c H; cbn; auto. apply IH, lfsr_wf, H. Qed.

Lemma lfsr_lin c1 c2 b1 b2 :
  lfsr poly (Z.lxor c1 c2) (xorb b1 b2) = Z.lxor (lfsr poly c1 b1) (lfsr poly c2 b2).
Proof.
  unfold lfsr. rewrite odd_lxor, div2_lxor.
  destruct (Z.odd c1), (Z.odd c2), b1, b2; cbn [xorb];
    apply Z.bits_inj'; intros i Hi; rewrite ?Z.lxor_spec;
    repeat match goal with |- context[Z.testbit ?a i] => destruct (Z.testbit a i) end; reflexivity.
Qed.

Lemma lfsr_top c b : wf c -> xorb (Z.odd c) b = Z.testbit (lfsr poly c b) (Z.of_nat n).
Proof.
  intros H. unfold lfsr. pose proof pow2_S. pose proof (pow2_pos n).
  assert (E1 : Z.testbit (Z.div2 c) (Z.of_nat n) = false).
  { rewrite Z.div2_div. destruct (Z.eq_dec (c/2) 0) as [->|Hne]; [apply Z.bits_0|].
    apply Z.bits_above_log2; [apply Z.div_pos; lia|]. apply Z.log2_lt_pow2; lia. }
  assert (E2 : Z.testbit poly (Z.of_nat n) = true).
  { replace (Z.of_nat n) with (Z.log2 poly); [apply Z.bit_log2; lia|].
    apply Z.log2_unique; [lia|]. rewrite <- Nat2Z.inj_succ. exact Hpoly. }
  destruct (xorb _ _); [rewrite Z.lxor_spec, E1, E2|rewrite E1]; reflexivity.
Qed.

Lemma lfsr_inj c1 c2 b : wf c1 -> wf c2 -> lfsr poly c1 b = lfsr poly c2 b -> c1 = c2.
Proof.
  intros H1 H2 E. pose proof (lfsr_top c1 b H1) as T1. pose proof (lfsr_top c2 b H2) as T2.
  rewrite E, <- T2 in T1.
  assert (O : Z.odd c1 = Z.odd c2) by (destruct (Z.odd c1), (Z.odd c2), b; auto).
  assert (D : Z.div2 c1 = Z.div2 c2).
  { unfold lfsr in E. rewrite O in E. destruct (xorb _ _); auto.
    rewrite !(Z.lxor_comm _ poly) in E. apply lxor_cancel_l in E. exact E. }
  rewrite (Z.div2_odd c1), (Z.div2_odd c2), O, D. reflexivity.
Qed.
Lemma run_inj l c1 c2 : wf c1 -> wf c2 -> run c1 l = run c2 l -> c1 = c2.
Proof.
  revert c1 c2; induction l as [|b l IH]; intros c1 c2 H1 H2 E; [exact E|].
  cbn in E. apply (lfsr_inj c1 c2 b); auto. apply IH; auto using lfsr_wf.
Qed.

Lemma run_app c a b : run c (a ++ b) = run (run c a) b.
Proof. apply fold_left_app. Qed.

Lemma run0_lin k c1 c2 : run0 k (Z.lxor c1 c2) = Z.lxor (run0 k c1) (run0 k c2).
Proof.
  revert c1 c2; induction k as [|k IH]; intros c1 c2; [reflexivity|].
  cbn [repeat lfsr_run fold_left]. fold (run0 k (lfsr poly (Z.lxor c1 c2) false)).
  change false with (xorb false false) at 1. rewrite lfsr_lin. apply IH.
Qed.

Lemma run_xor k x c : 0 <= x < 2 ^ Z.of_nat k -> run c (bits_lsb k x) = run0 k (Z.lxor c x).
Proof.
  revert x c; induction k as [|k IH]; intros x c Hx.
  - change (2 ^ Z.of_nat 0) with 1 in Hx. replace x with 0 by lia. rewrite Z.lxor_0_r. reflexivity.
  - rewrite Nat2Z.inj_succ, Z.pow_succ_r in Hx by lia.
    cbn [bits_lsb repeat lfsr_run fold_left].
    fold (run (lfsr poly c (Z.odd x)) (bits_lsb k (Z.div2 x))).
    fold (run0 k (lfsr poly (Z.lxor c x) false)).
    rewrite IH by (rewrite Z.div2_div; lia). f_equal.
    unfold lfsr. rewrite odd_lxor, div2_lxor, xorb_false_r.
    destruct (xorb _ _); auto. rewrite Z.lxor_assoc, (Z.lxor_comm poly), <- Z.lxor_assoc. reflexivity.
Qed.

Lemma run_burst_inj c x y : wf c -> length x = length y -> (length x <= S n)%nat ->
  run c x = run c y -> x = y.
Proof.
  intros Hc Hl Hk E. rewrite <- (bits_lsb_of_bits x), <- (bits_lsb_of_bits y) in E |- *.
  rewrite <- Hl in *.
  pose proof (of_bits_lsb_range x) as Rx. pose proof (of_bits_lsb_range y) as Ry. rewrite <- Hl in Ry.
  rewrite !run_xor in E by auto.
  assert (2 ^ Z.of_nat (length x) <= 2 ^ Z.of_nat (S n)) by (apply Z.pow_le_mono_r; lia).
  apply run_inj in E; [|apply lxor_range; lia..].
  apply lxor_cancel_l in E. rewrite E. reflexivity.
Qed.

Lemma burst_detect c a b : wf c -> burst (S n) a b -> run c a <> run c b.
Proof.
  intros Hc (p & x & y & s & -> & -> & Hl & Hk & Hne) E. apply Hne.
  rewrite !run_app in E. apply run_inj in E; auto using run_wf.
  apply run_burst_inj in E; auto using run_wf.
Qed.

(** Difference of two runs from the same state is the run of the difference from 0. *)
Fixpoint bxor (a b : list bool) : list bool :=
  match a, b with x :: a', y :: b' => xorb x y :: bxor a' b' | _, _ => [] end.
Lemma run_bxor a b c1 c2 : length a = length b ->
  Z.lxor (run c1 a) (run c2 b) = run (Z.lxor c1 c2) (bxor a b).
Proof.
  revert b c1 c2; induction a as [|x a IH]; intros [|y b] c1 c2 Hl; try discriminate; [reflexivity|].
  cbn [bxor lfsr_run fold_left]. fold (run (lfsr poly c1 x) a) (run (lfsr poly c2 y) b).
  rewrite IH by (cbn in Hl; lia). rewrite <- lfsr_lin. reflexivity.
Qed.
Lemma run0_0 k : run0 k 0 = 0.
Proof.
  pose proof (run0_lin k 0 0) as H. rewrite Z.lxor_0_l in H. rewrite Z.lxor_nilpotent in H. exact H.
Qed.

(** Octet-wise table step. *)
Variable t : list Z.
Hypothesis Htab : all_below_from 256 0 (fun i => tab t i =? run0 8 i) = true.

Lemma run0_shift k x : run0 k (x * 2 ^ Z.of_nat k) = x.
Proof.
  revert x; induction k as [|k IH]; intros x.
  - change (2 ^ Z.of_nat 0) with 1. rewrite Z.mul_1_r. reflexivity.
  - cbn [repeat lfsr_run fold_left]. fold (run0 k (lfsr poly (x * 2 ^ Z.of_nat (S k)) false)).
    rewrite <- (IH x) at 2. f_equal. rewrite Nat2Z.inj_succ, Z.pow_succ_r by lia.
    replace (x * (2 * 2 ^ Z.of_nat k)) with (Z.b2z false + 2 * (x * 2 ^ Z.of_nat k)) by (cbn [Z.b2z]; lia).
    unfold lfsr. rewrite odd_b2z_2, div2_b2z_2. reflexivity.
Qed.

Lemma split_lo_hi x : x = Z.lxor (Z.land x 0xFF) (Z.shiftr x 8 * 2 ^ Z.of_nat 8).
Proof.
  rewrite <- Z.shiftl_mul_pow2 by lia. change 0xFF with (Z.ones 8). change (Z.of_nat 8) with 8.
  apply Z.bits_inj'. intros i Hi. rewrite Z.lxor_spec, Z.land_spec.
  rewrite Z.shiftl_spec by lia.
  destruct (Z_lt_le_dec i 8).
  - rewrite Z.ones_spec_low, andb_true_r by lia. rewrite (Z.testbit_neg_r _ (i - 8)) by lia.
    rewrite xorb_false_r. reflexivity.
  - rewrite Z.ones_spec_high, andb_false_r by lia. rewrite Z.shiftr_spec by lia.
    rewrite xorb_false_l. replace (i - 8 + 8) with i by lia. reflexivity.
Qed.

Lemma land_ff x : 0 <= Z.land x 0xFF < 256.
Proof. change 0xFF with (Z.ones 8). rewrite Z.land_ones by lia. apply Z.mod_pos_bound. lia. Qed.

Lemma shiftr_byte b : 0 <= b < 256 -> Z.shiftr b 8 = 0.
Proof. intros H. rewrite Z.shiftr_div_pow2 by lia. apply Z.div_small. change (2^8) with 256. lia. Qed.

Lemma step_tab c b : byte b ->
  Z.lxor (Z.shiftr c 8) (tab t (Z.land (Z.lxor c b) 0xFF)) = run c (bits_lsb 8 b).
Proof.
  intros Hb. rewrite run_xor by (exact Hb).
  rewrite (split_lo_hi (Z.lxor c b)) at 2. rewrite run0_lin, run0_shift.
  rewrite Z.shiftr_lxor, (shiftr_byte b Hb), Z.lxor_0_r. rewrite Z.lxor_comm. f_equal.
  apply Z.eqb_eq. apply (all_below_from_spec _ _ _ Htab (Z.land (Z.lxor c b) 0xFF)).
  pose proof (land_ff (Z.lxor c b)). lia.
Qed.

End LFSR.

Definition poly16_ok : 2 ^ Z.of_nat 15 <= crc16_poly < 2 ^ Z.of_nat 16.
Proof. unfold crc16_poly; cbn; lia. Qed.
Definition poly32_ok : 2 ^ Z.of_nat 31 <= crc32_poly < 2 ^ Z.of_nat 32.
Proof. unfold crc32_poly; cbn; lia. Qed.

Lemma step16 c b : byte b -> crc_itu16_step c b = lfsr_run crc16_poly c (bits_lsb 8 b).
Proof. intros Hb. apply (step_tab crc16_poly 15 poly16_ok crc_itu16_table); [vm_compute; reflexivity|exact Hb]. Qed.
Lemma land_24 c : 0 <= c < 2 ^ 32 -> Z.land (Z.shiftr c 8) 0x00FFFFFF = Z.shiftr c 8.
Proof.
  intros H. change 0xFFFFFF with (Z.ones 24). rewrite Z.land_ones by lia. apply Z.mod_small.
  rewrite Z.shiftr_div_pow2 by lia. change (2^8) with 256. change (2^24) with 16777216.
  change (2^32) with 4294967296 in H. lia.
Qed.
Lemma step32 c b : 0 <= c < 2 ^ 32 -> byte b ->
  crc_itu32_step c b = lfsr_run crc32_poly c (bits_lsb 8 b).
Proof.
  intros Hc Hb. unfold crc_itu32_step. rewrite land_24 by auto.
  apply (step_tab crc32_poly 31 poly32_ok crc_itu32_table); [vm_compute; reflexivity|exact Hb].
Qed.

Lemma calc16 buf c : bytes buf -> fold_left crc_itu16_step buf c = crc16 buf c.
Proof.
  intros H; revert c; induction H as [|b buf Hb H IH]; intros c; [reflexivity|].
  cbn [fold_left]. unfold crc16. cbn [wire flat_map]. rewrite run_app, <- step16 by auto. apply IH.
Qed.
Lemma calc32 buf c : bytes buf -> 0 <= c < 2 ^ 32 -> fold_left crc_itu32_step buf c = crc32 buf c.
Proof.
  intros H; revert c; induction H as [|b buf Hb H IH]; intros c Hc; [reflexivity|].
  cbn [fold_left]. unfold crc32. cbn [wire flat_map]. rewrite run_app, <- step32 by auto. apply IH.
  rewrite step32 by auto. apply (run_wf crc32_poly 31 poly32_ok). exact Hc.
Qed.
Lemma crc16_wf buf c : 0 <= c < 2 ^ 16 -> 0 <= crc16 buf c < 2 ^ 16.
Proof. apply (run_wf crc16_poly 15 poly16_ok). Qed.
Lemma crc32_wf buf c : 0 <= c < 2 ^ 32 -> 0 <= crc32 buf c < 2 ^ 32.
Proof. apply (run_wf crc32_poly 31 poly32_ok). Qed.

Lemma bits16_run b c : crc_itu16_bits b 8 c = lfsr_run crc16_poly c (bits_lsb 8 b).
Proof.
  assert (H : forall k b c, crc_itu16_bits b k c = lfsr_run crc16_poly c (bits_lsb k b)).
  { induction k as [|k IH]; intros b' c'; [reflexivity|].
    cbn [crc_itu16_bits bits_lsb lfsr_run fold_left].
    rewrite IH. rewrite <- !Z.div2_spec. unfold lfsr_run. f_equal. unfold lfsr.
    change 1 with (Z.ones 1). rewrite Z.land_ones by lia. change (2^1) with 2.
    rewrite Zmod_odd, odd_lxor, (xorb_comm (Z.odd b')).
    destruct (xorb _ _); reflexivity. }
  apply H.
Qed.

(** ---- check octets ---- *)
Lemma ones_sub_lxor n c : 0 <= c < 2 ^ Z.of_nat n -> Z.lxor c (Z.ones (Z.of_nat n)) = Z.ones (Z.of_nat n) - c.
Proof.
  intros H. 
  assert (E : Z.lxor c (Z.ones (Z.of_nat n)) = Z.ldiff (Z.ones (Z.of_nat n)) c).
  { apply Z.bits_inj'. intros i Hi. rewrite Z.lxor_spec, Z.ldiff_spec.
    destruct (Z_lt_le_dec i (Z.of_nat n)).
    - rewrite Z.ones_spec_low by lia. destruct (Z.testbit c i); reflexivity.
    - rewrite Z.ones_spec_high by lia. rewrite xorb_false_r. cbn [andb].
      destruct (Z.eq_dec c 0) as [->|]; [apply Z.bits_0|]. apply Z.bits_above_log2; [lia|].
      assert (Z.log2 c < Z.of_nat n) by (apply Z.log2_lt_pow2; lia). lia. }
  rewrite E. rewrite <- Z.sub_nocarry_ldiff; auto.
  rewrite Z.ldiff_ones_r by lia. rewrite Z.shiftr_div_pow2 by lia.
  rewrite Z.div_small by lia. apply Z.shiftl_0_l.
Qed.

Lemma wire_fcs16 buf : wire (fcs16 buf) = bits_lsb 16 (0xFFFF - crc16 buf 0xFFFF).
Proof.
  pose proof (crc16_wf buf 0xFFFF ltac:(lia)).
  unfold fcs16. rewrite (bits_lsb_split 8). cbn [wire flat_map]. rewrite app_nil_r. reflexivity.
Qed.
Lemma wire_fcs32 buf : wire (fcs32 buf) = bits_lsb 32 (0xFFFFFFFF - crc32 buf 0xFFFFFFFF).
Proof.
  unfold fcs32. rewrite (bits_lsb_split 24), (bits_lsb_split 16), (bits_lsb_split 8).
  cbn [wire flat_map]. rewrite app_nil_r, !Z.div_div by lia. reflexivity.
Qed.
Lemma fcs16_bytes buf : bytes (fcs16 buf).
Proof.
  pose proof (crc16_wf buf 0xFFFF ltac:(lia)) as H. change (2^16) with 65536 in H. unfold fcs16.
  cbv zeta. repeat constructor; unfold byte; lia.
Qed.
Lemma fcs32_bytes buf : bytes (fcs32 buf).
Proof.
  pose proof (crc32_wf buf 0xFFFFFFFF ltac:(lia)) as H. change (2^32) with 4294967296 in H. unfold fcs32.
  cbv zeta. repeat constructor; unfold byte; lia.
Qed.

Lemma residue16 buf : crc16 (buf ++ fcs16 buf) 0xFFFF = 0xF0B8.
Proof.
  unfold crc16 at 1. rewrite wire_app, run_app, wire_fcs16. fold (crc16 buf 0xFFFF).
  pose proof (crc16_wf buf 0xFFFF ltac:(lia)) as H.
  rewrite (run_xor crc16_poly 15 poly16_ok) by (change (2 ^ Z.of_nat 16) with 65536; change (2^16) with 65536 in H; lia).
  change 0xFFFF with (Z.ones (Z.of_nat 16)) at 2. rewrite <- ones_sub_lxor by exact H.
  rewrite <- Z.lxor_assoc, Z.lxor_nilpotent. vm_compute. reflexivity.
Qed.
Lemma residue32 buf : crc32 (buf ++ fcs32 buf) 0xFFFFFFFF = 0xDEBB20E3.
Proof.
  unfold crc32 at 1. rewrite wire_app, run_app, wire_fcs32. fold (crc32 buf 0xFFFFFFFF).
  pose proof (crc32_wf buf 0xFFFFFFFF ltac:(lia)) as H.
  rewrite (run_xor crc32_poly 31 poly32_ok) by (change (2 ^ Z.of_nat 32) with 4294967296; change (2^32) with 4294967296 in H; lia).
  change 0xFFFFFFFF with (Z.ones (Z.of_nat 32)) at 2. rewrite <- ones_sub_lxor by exact H.
  rewrite <- Z.lxor_assoc, Z.lxor_nilpotent. vm_compute. reflexivity.
Qed.

Lemma aslice_all mem : aslice mem 0 (Z.of_nat (length mem)) = Ok mem.
Proof.
  unfold aslice. destruct (Z.leb_spec (Z.of_nat (length mem)) 0).
  - destruct mem; [reflexivity|cbn [length] in *; lia].
  - cbn [Z.leb andb]. replace (0 + _ <=? _) with true by lia. cbn [Z.to_nat skipn].
    rewrite Nat2Z.id, firstn_all. reflexivity.
Qed.
Lemma aslice_app m s : aslice (m ++ s) 0 (Z.of_nat (length m)) = Ok m.
Proof.
  unfold aslice. destruct (Z.leb_spec (Z.of_nat (length m)) 0).
  - destruct m; [reflexivity|cbn [length] in *; lia].
  - cbn [andb]. rewrite app_length. replace (0 + _ <=? _) with true by lia.
    replace (0 <=? 0) with true by lia. cbn [Z.to_nat skipn andb].
    rewrite Nat2Z.id, firstn_app, Nat.sub_diag, firstn_all. cbn [firstn]. rewrite app_nil_r. reflexivity.
Qed.
Lemma aset_app m x s y : aset (m ++ x :: s) (Z.of_nat (length m)) y = Ok (m ++ y :: s).
Proof.
  unfold aset, in_bounds. rewrite app_length. cbn [length].
  replace (_ && _) with true by lia. f_equal. rewrite Nat2Z.id.
  induction m as [|a m IH]; [reflexivity|]. cbn [length app upd]. f_equal. apply IH.
Qed.
Lemma aset_app' i m x s y : i = Z.of_nat (length m) -> aset (m ++ x :: s) i y = Ok (m ++ y :: s).
Proof. intros ->. apply aset_app. Qed.

Lemma check16_iff buf : bytes buf ->
  crc_itu16_check buf (Z.of_nat (length buf)) = Ok (crc16 buf 0xFFFF =? 0xF0B8).
Proof.
  intros H. unfold crc_itu16_check. rewrite aslice_all. cbn [rbind]. rewrite calc16 by auto.
  pose proof (crc16_wf buf 0xFFFF ltac:(lia)). 
  change (Z.land (crc16 buf 65535) 65535) with (Z.land (crc16 buf 65535) (Z.ones 16)).
  rewrite Z.land_ones by lia. rewrite Z.mod_small by auto. reflexivity.
Qed.
Lemma check32_iff buf : bytes buf ->
  crc_itu32_check buf (Z.of_nat (length buf)) = Ok (crc32 buf 0xFFFFFFFF =? 0xDEBB20E3).
Proof.
  intros H. unfold crc_itu32_check. rewrite aslice_all. cbn [rbind]. rewrite calc32 by (auto; lia). reflexivity.
Qed.

Lemma append16 m x y s : bytes m ->
  crc_itu16_append (m ++ x :: y :: s) (Z.of_nat (length m)) = Ok (m ++ fcs16 m ++ s, Z.of_nat (length m) + 2).
Proof.
  intros H. unfold crc_itu16_append. rewrite aslice_app. cbn [rbind].
  rewrite Z.max_r by lia. rewrite aset_app. cbn [rbind].
  change (?a ++ ?b :: y :: s) with (a ++ [b] ++ y :: s). rewrite app_assoc.
  rewrite aset_app' by (rewrite app_length; cbn [length]; lia). cbn [rbind].
  rewrite <- app_assoc. do 3 f_equal. rewrite calc16 by auto.
  pose proof (crc16_wf m 0xFFFF ltac:(lia)) as R.
  unfold fcs16. cbv zeta.
  change 0xFFFF with (Z.ones (Z.of_nat 16)) at 2 4. rewrite ones_sub_lxor by exact R.
  change (Z.ones (Z.of_nat 16)) with 0xFFFF. change (2^16) with 65536 in R. cbn [app].
  unfold u8. rewrite Z.shiftr_div_pow2 by lia. change (2^8) with 256.
  f_equal. f_equal. lia.
Qed.
Lemma append32 m x y z w s : bytes m ->
  crc_itu32_append (m ++ x :: y :: z :: w :: s) (Z.of_nat (length m)) = Ok (m ++ fcs32 m ++ s, Z.of_nat (length m) + 4).
Proof.
  intros H. unfold crc_itu32_append. rewrite aslice_app. cbn [rbind].
  rewrite Z.max_r by lia. rewrite aset_app. cbn [rbind].
  change (?a ++ ?b :: y :: z :: w :: s) with (a ++ [b] ++ y :: z :: w :: s). rewrite app_assoc.
  rewrite aset_app' by (rewrite app_length; cbn [length]; lia). cbn [rbind].
  change (?a ++ ?b :: z :: w :: s) with (a ++ [b] ++ z :: w :: s). rewrite app_assoc.
  rewrite aset_app' by (rewrite !app_length; cbn [length]; lia). cbn [rbind].
  change (?a ++ ?b :: w :: s) with (a ++ [b] ++ w :: s). rewrite app_assoc.
  rewrite aset_app' by (rewrite !app_length; cbn [length]; lia). cbn [rbind].
  rewrite <- !app_assoc. do 3 f_equal. rewrite calc32 by (auto; lia).
  pose proof (crc32_wf m 0xFFFFFFFF ltac:(lia)) as R.
  unfold fcs32. cbv zeta.
  change (Z.lxor (crc32 m 0xFFFFFFFF) 0xFFFFFFFF) with (Z.lxor (crc32 m 0xFFFFFFFF) (Z.ones (Z.of_nat 32))).
  rewrite ones_sub_lxor by exact R.
  change (Z.ones (Z.of_nat 32)) with 0xFFFFFFFF. change (2^32) with 4294967296 in R. cbn [app].
  unfold u8. rewrite !Z.shiftr_div_pow2 by lia. change (2^8) with 256. change (2^16) with 65536. change (2^24) with 16777216.
  do 3 f_equal. f_equal. lia.
Qed.

Lemma check16_only m f : bytes m -> bytes f -> length f = 2%nat ->
  crc_itu16_check (m ++ f) (Z.of_nat (length (m ++ f))) = Ok true -> f = fcs16 m.
Proof.
  intros Hm Hf Hl. rewrite check16_iff by (apply Forall_app; auto). intros E.
  assert (E' : crc16 (m ++ f) 0xFFFF = 0xF0B8) by (inversion E as [E1]; lia). clear E.
  rewrite <- (residue16 m) in E'. unfold crc16 in E'. rewrite !wire_app, !run_app in E'.
  apply wire_inj; auto using fcs16_bytes.
  apply (run_burst_inj crc16_poly 15 poly16_ok) in E'; auto.
  - apply (crc16_wf m). lia.
  - rewrite !wire_length, Hl. reflexivity.
  - rewrite wire_length, Hl. lia.
Qed.
Lemma check32_only m f : bytes m -> bytes f -> length f = 4%nat ->
  crc_itu32_check (m ++ f) (Z.of_nat (length (m ++ f))) = Ok true -> f = fcs32 m.
Proof.
  intros Hm Hf Hl. rewrite check32_iff by (apply Forall_app; auto). intros E.
  assert (E' : crc32 (m ++ f) 0xFFFFFFFF = 0xDEBB20E3) by (inversion E as [E1]; lia). clear E.
  rewrite <- (residue32 m) in E'. unfold crc32 in E'. rewrite !wire_app, !run_app in E'.
  apply wire_inj; auto using fcs32_bytes.
  apply (run_burst_inj crc32_poly 31 poly32_ok) in E'; auto.
  - apply (crc32_wf m). lia.
  - rewrite !wire_length, Hl. reflexivity.
  - rewrite wire_length, Hl. lia.
Qed.

(** ---- error detection ---- *)
Lemma burst16 a b : bytes a -> bytes b -> burst 16 (wire a) (wire b) ->
  crc_itu16_check a (Z.of_nat (length a)) = Ok true ->
  crc_itu16_check b (Z.of_nat (length b)) = Ok false.
Proof.
  intros Ha Hb Hbu. rewrite !check16_iff by auto. intros E.
  assert (crc16 a 0xFFFF <> crc16 b 0xFFFF)
    by (apply (burst_detect crc16_poly 15 poly16_ok); [cbn; lia|exact Hbu]).
  inversion E. f_equal. lia.
Qed.
Lemma burst32 a b : bytes a -> bytes b -> burst 32 (wire a) (wire b) ->
  crc_itu32_check a (Z.of_nat (length a)) = Ok true ->
  crc_itu32_check b (Z.of_nat (length b)) = Ok false.
Proof.
  intros Ha Hb Hbu. rewrite !check32_iff by auto. intros E.
  assert (crc32 a 0xFFFFFFFF <> crc32 b 0xFFFFFFFF)
    by (apply (burst_detect crc32_poly 31 poly32_ok); [cbn; lia|exact Hbu]).
  inversion E. f_equal. lia.
Qed.

(** Parity of the register. *)
Fixpoint par (n : nat) (x : Z) : bool :=
  match n with O => false | S k => xorb (Z.odd x) (par k (Z.div2 x)) end.
Lemma par_lxor n x y : par n (Z.lxor x y) = xorb (par n x) (par n y).
Proof.
  revert x y; induction n as [|n IH]; intros x y; [reflexivity|]. cbn [par].
  rewrite odd_lxor, div2_lxor, IH.
  destruct (Z.odd x), (Z.odd y), (par n (Z.div2 x)), (par n (Z.div2 y)); reflexivity.
Qed.
Lemma par_S n x : 0 <= x < 2 ^ Z.of_nat n -> par (S n) x = par n x.
Proof.
  revert x; induction n as [|n IH]; intros x H.
  - change (2 ^ Z.of_nat 0) with 1 in H. replace x with 0 by lia. reflexivity.
  - rewrite Nat2Z.inj_succ, Z.pow_succ_r in H by lia.
    change (par (S (S n)) x) with (xorb (Z.odd x) (par (S n) (Z.div2 x))).
    rewrite IH by (rewrite Z.div2_div; lia). reflexivity.
Qed.
Lemma par_lfsr c b : 0 <= c < 2 ^ 16 -> par 16 (lfsr crc16_poly c b) = xorb (par 16 c) b.
Proof.
  intros H. assert (E : par 16 c = xorb (Z.odd c) (par 16 (Z.div2 c))).
  { rewrite (par_S 15 (Z.div2 c)). 2:{ change (2 ^ 16) with 65536 in H. change (2 ^ Z.of_nat 15) with 32768. rewrite Z.div2_div; lia. }
    reflexivity. }
  rewrite E. unfold lfsr. destruct (xorb (Z.odd c) b) eqn:X.
  - rewrite par_lxor. change (par 16 crc16_poly) with true.
    destruct (Z.odd c), b, (par 16 (Z.div2 c)); try discriminate; reflexivity.
  - destruct (Z.odd c), b, (par 16 (Z.div2 c)); try discriminate; reflexivity.
Qed.
Lemma par_run l c : 0 <= c < 2 ^ 16 ->
  par 16 (lfsr_run crc16_poly c l) = xorb (par 16 c) (fold_right xorb false l).
Proof.
  revert c; induction l as [|b l IH]; intros c H.
  - cbn [fold_right]. rewrite xorb_false_r. reflexivity.
  - cbn [lfsr_run fold_left fold_right]. fold (lfsr_run crc16_poly (lfsr crc16_poly c b) l).
    rewrite IH by (apply (lfsr_wf crc16_poly 15 poly16_ok); exact H).
    rewrite par_lfsr by auto. apply xorb_assoc.
Qed.
Lemma ham_par a b : length a = length b ->
  Nat.odd (ham a b) = xorb (fold_right xorb false a) (fold_right xorb false b).
Proof.
  revert b; induction a as [|x a IH]; intros [|y b] Hl; try discriminate; [reflexivity|].
  cbn [ham fold_right]. rewrite Nat.odd_add, IH by (cbn in Hl; lia).
  destruct x, y, (fold_right xorb false a), (fold_right xorb false b); reflexivity.
Qed.
Lemma odd16 a b : bytes a -> bytes b -> length a = length b ->
  Nat.odd (ham (wire a) (wire b)) = true ->
  crc_itu16_check a (Z.of_nat (length a)) = Ok true ->
  crc_itu16_check b (Z.of_nat (length b)) = Ok false.
Proof.
  intros Ha Hb Hl Ho. rewrite !check16_iff by auto. intros E.
  assert (crc16 a 0xFFFF <> crc16 b 0xFFFF).
  { intros Q. apply (f_equal (par 16)) in Q. unfold crc16 in Q.
    rewrite !par_run in Q by lia. rewrite ham_par in Ho by (rewrite !wire_length; lia).
    destruct (par 16 65535), (fold_right xorb false (wire a)), (fold_right xorb false (wire b)); discriminate. }
  inversion E. f_equal. lia.
Qed.

(** Two bit errors: the generator has order 32767. *)
Fixpoint never1 (k : nat) (c : Z) : bool :=
  match k with O => true | S k => negb (c =? 1) && never1 k (lfsr crc16_poly c false) end.
Lemma never1_spec k c : never1 k c = true -> forall j, (j < k)%nat ->
  lfsr_run crc16_poly c (repeat false j) <> 1.
Proof.
  revert c; induction k as [|k IH]; intros c H j Hj; [lia|].
  cbn [never1] in H. apply andb_true_iff in H as [H1 H2].
  destruct j as [|j]; [cbn; lia|]. apply (IH _ H2). lia.
Qed.
Definition order16 : nat := Z.to_nat 32766.
Lemma never1_poly : never1 order16 crc16_poly = true.
Proof. vm_compute. reflexivity. Qed.

Lemma ham_bxor a b : length a = length b -> ham a b = length (filter (fun x => x) (bxor a b)).
Proof.
  revert b; induction a as [|x a IH]; intros [|y b] Hl; try discriminate; [reflexivity|].
  cbn [ham bxor filter]. rewrite IH by (cbn in Hl; lia). destruct x, y; reflexivity.
Qed.
Lemma bxor_length a b : length a = length b -> length (bxor a b) = length a.
Proof.
  revert b; induction a as [|x a IH]; intros [|y b] Hl; try discriminate; [reflexivity|].
  cbn [bxor length]. rewrite IH by (cbn in Hl; lia). reflexivity.
Qed.
Lemma ones_0 l : length (filter (fun x : bool => x) l) = 0%nat -> l = repeat false (length l).
Proof.
  induction l as [|x l IH]; [reflexivity|]. destruct x; cbn [filter length repeat]; [discriminate|].
  intros H. f_equal. auto.
Qed.
Lemma ones_S k l : length (filter (fun x : bool => x) l) = S k ->
  exists p s, l = repeat false p ++ true :: s /\ length (filter (fun x : bool => x) s) = k.
Proof.
  induction l as [|x l IH]; [discriminate|]. destruct x; cbn [filter length].
  - intros [= H]. exists 0%nat, l. auto.
  - intros H. destruct (IH H) as (p & s & -> & Hs). exists (S p), s. auto.
Qed.
Lemma lfsr_true_0 z : 0 <= z < 65536 -> lfsr crc16_poly z true = 0 -> z = 1.
Proof.
  intros Hz H. unfold lfsr in H. pose proof (Z.div2_odd z) as D. destruct (Z.odd z); cbn [xorb Z.b2z] in *.
  - lia.
  - apply Z.lxor_eq in H. unfold crc16_poly in H. lia.
Qed.
Lemma double16 a b : bytes a -> bytes b -> length a = length b -> (Z.of_nat (length a) <= 4095) ->
  ham (wire a) (wire b) = 2%nat ->
  crc_itu16_check a (Z.of_nat (length a)) = Ok true ->
  crc_itu16_check b (Z.of_nat (length b)) = Ok false.
Proof.
  intros Ha Hb Hl Hs Hh. rewrite !check16_iff by auto. intros E.
  assert (crc16 a 0xFFFF <> crc16 b 0xFFFF).
  { intros Q. assert (Hw : length (wire a) = length (wire b)) by (rewrite !wire_length; lia).
    pose proof (run_bxor crc16_poly 15 poly16_ok _ _ 0xFFFF 0xFFFF Hw) as R.
    fold (crc16 a 0xFFFF) (crc16 b 0xFFFF) in R. rewrite Q, !Z.lxor_nilpotent in R.
    rewrite ham_bxor in Hh by auto.
    pose proof (bxor_length _ _ Hw) as L. rewrite wire_length in L.
    apply ones_S in Hh as (p & s & Ee & Hh). apply ones_S in Hh as (d & s' & -> & Hh).
    apply ones_0 in Hh. rewrite Ee in *.
    rewrite run_app, run0_0 in R.
    change (lfsr_run crc16_poly 0 (true :: ?l)) with (lfsr_run crc16_poly (lfsr crc16_poly 0 true) l) in R.
    rewrite run_app in R. cbn [lfsr_run fold_left] in R.
    fold (lfsr_run crc16_poly (lfsr crc16_poly 0 true) (repeat false d)) in R.
    change (lfsr crc16_poly 0 true) with crc16_poly in R.
    rewrite Hh in R.
    set (z := lfsr_run crc16_poly crc16_poly (repeat false d)) in *.
    fold (lfsr_run crc16_poly (lfsr crc16_poly z true) (repeat false (length s'))) in R.
    assert (Wz : 0 <= z < 2 ^ 16) by (apply (run_wf crc16_poly 15 poly16_ok); split; [discriminate|reflexivity]).
    rewrite <- (run0_0 crc16_poly (length s')) in R at 1.
    apply (run_inj crc16_poly 15 poly16_ok) in R; [|cbn; lia|apply (lfsr_wf crc16_poly 15 poly16_ok); exact Wz].
    symmetry in R. apply lfsr_true_0 in R; [|exact Wz].
    revert R. apply (never1_spec _ _ never1_poly).
    rewrite !app_length, repeat_length in L. cbn [length] in L. rewrite app_length, repeat_length in L. cbn [length] in L.
    unfold order16. lia. }
  inversion E. f_equal. lia.
Qed.

(** ---- property-shaped lemmas ---- *)
Lemma c01_round m x y s : bytes m ->
  exists f, length f = 2%nat /\ bytes f /\
    crc_itu16_append (m ++ x :: y :: s) (Z.of_nat (length m)) = Ok (m ++ f ++ s, Z.of_nat (length m) + 2) /\
    crc_itu16_check (m ++ f ++ s) (Z.of_nat (length m) + 2) = Ok true.
Proof.
  intros H. exists (fcs16 m). split; [reflexivity|]. split; [apply fcs16_bytes|]. split; [apply append16; auto|].
  rewrite app_assoc. replace (Z.of_nat (length m) + 2) with (Z.of_nat (length (m ++ fcs16 m))) by (rewrite app_length; change (length (fcs16 m)) with 2%nat; lia).
  unfold crc_itu16_check. rewrite aslice_app. cbn [rbind].
  rewrite calc16 by (apply Forall_app; split; [exact H|apply fcs16_bytes]). rewrite residue16. reflexivity.
Qed.
Lemma c01_only m f s : bytes m -> bytes f -> length f = 2%nat ->
  crc_itu16_check (m ++ f) (Z.of_nat (length m) + 2) = Ok true ->
  crc_itu16_append (m ++ f ++ s) (Z.of_nat (length m)) = Ok (m ++ f ++ s, Z.of_nat (length m) + 2).
Proof.
  intros Hm Hf Hl E. replace (Z.of_nat (length m) + 2) with (Z.of_nat (length (m ++ f))) in E by (rewrite app_length; lia).
  apply check16_only in E; auto. subst f. apply (append16 m _ _ s Hm).
Qed.
Lemma c02_round m x y z w s : bytes m ->
  exists f, length f = 4%nat /\ bytes f /\
    crc_itu32_append (m ++ x :: y :: z :: w :: s) (Z.of_nat (length m)) = Ok (m ++ f ++ s, Z.of_nat (length m) + 4) /\
    crc_itu32_check (m ++ f ++ s) (Z.of_nat (length m) + 4) = Ok true.
Proof.
  intros H. exists (fcs32 m). split; [reflexivity|]. split; [apply fcs32_bytes|]. split; [apply append32; auto|].
  rewrite app_assoc. replace (Z.of_nat (length m) + 4) with (Z.of_nat (length (m ++ fcs32 m))) by (rewrite app_length; change (length (fcs32 m)) with 4%nat; lia).
  unfold crc_itu32_check. rewrite aslice_app. cbn [rbind].
  rewrite calc32 by (lia || (apply Forall_app; split; [exact H|apply fcs32_bytes])). rewrite residue32. reflexivity.
Qed.
Lemma c02_only m f s : bytes m -> bytes f -> length f = 4%nat ->
  crc_itu32_check (m ++ f) (Z.of_nat (length m) + 4) = Ok true ->
  crc_itu32_append (m ++ f ++ s) (Z.of_nat (length m)) = Ok (m ++ f ++ s, Z.of_nat (length m) + 4).
Proof.
  intros Hm Hf Hl E. replace (Z.of_nat (length m) + 4) with (Z.of_nat (length (m ++ f))) in E by (rewrite app_length; lia).
  apply check32_only in E; auto. subst f. apply (append32 m _ _ _ _ s Hm).
Qed.
Lemma c05_calc16 buf c : bytes buf -> 0 <= c < 65536 ->
  crc_itu16_calc buf c = lfsr_run 0x8408 c (wire buf).
Proof. intros H _. apply calc16, H. Qed.
Lemma c05_calc32 buf c : bytes buf -> 0 <= c < 4294967296 ->
  crc_itu32_calc buf c = lfsr_run 0xEDB88320 c (wire buf).
Proof. intros H Hc. apply calc32; auto. Qed.
Lemma c05_chain16 a b c : crc_itu16_calc (a ++ b) c = crc_itu16_calc b (crc_itu16_calc a c).
Proof. apply fold_left_app. Qed.
Lemma c05_chain32 a b c : crc_itu32_calc (a ++ b) c = crc_itu32_calc b (crc_itu32_calc a c).
Proof. apply fold_left_app. Qed.
Lemma c05_bits b c : byte b -> crc_itu16_bits b 8 c = crc_itu16_calc [b] c.
Proof. intros H. rewrite bits16_run. cbn [crc_itu16_calc fold_left]. symmetry. apply step16, H. Qed.
