(** Two-dimensional coding: what the compressor emits for a row. *)
From Coq Require Import ZifyBool ZifyNat.
From Verif Require Import Base Bits T4_tables T4_enc_model T4_dec_model T4_spec T4_runs_proofs T4_bits_proofs T4_step_proofs T4_code_proofs T4_span_proofs T4_paint_proofs T4_row_proofs T4_2d_proofs.

(** ---- pixels ---- *)
Lemma expand_nth T : forall c p0 lo w i q, asc lo T w -> p0 <= lo + 1 -> (0 < i -> at_ T w (i - 1) <= q) -> q < at_ T w i -> p0 <= q -> 0 <= i ->
  nth (Z.to_nat (q - p0)) (expand c p0 T) false = xorb c (Z.odd i).
Proof.
  induction T as [|t T IH]; intros c p0 lo w i q Hasc Hp Hlo Hhi Hq Hi; [destruct Hasc|]. cbn [asc] in Hasc. destruct Hasc as [H1 H2]. cbn [expand].
  destruct (Z.eq_dec i 0) as [->|Hne].
  - unfold at_ in Hhi. cbn [Z.ltb Z.compare Z.to_nat nth] in Hhi. rewrite app_nth1 by (rewrite repeat_length; lia).
    change (Z.odd 0) with false. rewrite xorb_false_r. apply (repeat_spec (Z.to_nat (t - p0)) c). apply nth_In. rewrite repeat_length. lia.
  - assert (Ht : t <= q).
    { specialize (Hlo ltac:(lia)). destruct (Z.eq_dec i 1) as [->|]; [exact Hlo|]. etransitivity; [|exact Hlo]. unfold at_. destruct (Z.ltb_spec (i - 1) 0); [lia|].
      replace (Z.to_nat (i - 1)) with (S (Z.to_nat (i - 2))) by lia. cbn [nth]. destruct T as [|u T]; [destruct (Z.to_nat (i - 2)); cbn [nth]; lia|]. destruct H2 as [H2 H3].
      destruct (Nat.lt_ge_cases (Z.to_nat (i - 2)) (length (u :: T))); [pose proof (asc_nth _ _ _ _ H3 H0); lia|rewrite nth_overflow by lia; lia]. }
    rewrite app_nth2 by (rewrite repeat_length; lia). rewrite repeat_length. replace (Z.to_nat (q - p0) - Z.to_nat (t - p0))%nat with (Z.to_nat (q - t)) by lia.
    assert (Hs : forall k, 1 <= k -> at_ (t :: T) w k = at_ T w (k - 1)).
    { intros k Hk. unfold at_. destruct (Z.ltb_spec k 0), (Z.ltb_spec (k - 1) 0); try lia. replace (Z.to_nat k) with (S (Z.to_nat (k - 1))) by lia. reflexivity. }
    destruct T as [|u T].
    { rewrite Hs in Hhi by lia. rewrite at_big in Hhi by (cbn [length]; lia). lia. }
    destruct H2 as [H2 H3]. rewrite (IH (negb c) t t w (i - 1) q); auto; try lia.
    + replace i with (i - 1 + 1) at 2 by lia. rewrite Z.odd_add. change (Z.odd 1) with true. destruct c, (Z.odd (i - 1)); reflexivity.
    + intros Hi1. rewrite <- Hs by lia. apply Hlo. lia.
    + rewrite <- Hs by lia. exact Hhi.
Qed.
Definition px_check : bool :=
  forallb (fun b => forallb (fun k => Bool.eqb (negb (Z.land (Z.shiftl (Z.of_nat b) (Z.of_nat k)) 0x80 =? 0)) (nth k (bits_msb 8 (Z.of_nat b)) false)) (seq 0 8)) (seq 0 256).
Lemma px_check_ok : px_check = true. Proof. vm_compute. reflexivity. Qed.
Lemma px_byte b k : byte b -> 0 <= k < 8 -> negb (Z.land (Z.shiftl b k) 0x80 =? 0) = nth (Z.to_nat k) (bits_msb 8 b) false.
Proof.
  intros Hb Hk. unfold byte in Hb. pose proof px_check_ok as HH. unfold px_check in HH. rewrite forallb_forall in HH. specialize (HH (Z.to_nat b) ltac:(apply in_seq; lia)).
  rewrite forallb_forall in HH. specialize (HH (Z.to_nat k) ltac:(apply in_seq; lia)). rewrite !Z2Nat.id in HH by lia. apply Bool.eqb_prop. exact HH.
Qed.
Lemma unpack_nth row : forall q, (q < 8 * length row)%nat -> nth q (unpack_msb row) false = nth (q mod 8) (bits_msb 8 (nth (q / 8) row 0)) false.
Proof.
  induction row as [|x row IH]; intros q H; [cbn [length] in H; lia|]. change (unpack_msb (x :: row)) with (bits_msb 8 x ++ unpack_msb row). cbn [length] in H.
  destruct (Nat.lt_ge_cases q 8).
  - rewrite app_nth1 by (rewrite bits_msb_length; lia). rewrite Nat.mod_small, Nat.div_small by lia. reflexivity.
  - rewrite app_nth2 by (rewrite bits_msb_length; lia). rewrite bits_msb_length, IH by lia.
    replace q with (q - 8 + 1 * 8)%nat at 3 4 by lia. rewrite Nat.mod_add, Nat.div_add by lia. replace ((q - 8) / 8 + 1)%nat with (S ((q - 8) / 8)) by lia. reflexivity.
Qed.
Lemma pixel_ok w row p : 0 < w -> row_ok w row -> 0 <= p < w -> pixel_is_black row p = Ok (nth (Z.to_nat p) (pixels w row) false).
Proof.
  intros Hw [Hb Hl] Hp. unfold pixel_is_black. rewrite Z.shiftr_div_pow2 by lia. change (2 ^ 3) with 8. change 7 with (Z.ones 3). rewrite Z.land_ones by lia. change (2 ^ 3) with 8.
  unfold aget, in_bounds. destruct (Z.leb_spec 0 (p / 8)); [|Z.div_mod_to_equations; lia]. destruct (Z.ltb_spec (p / 8) (Z.of_nat (length row))); [|Z.div_mod_to_equations; lia].
  cbn [andb rbind]. f_equal.
  assert (HB : byte (nth (Z.to_nat (p / 8)) row 0)) by (eapply Forall_forall; [exact Hb|]; apply nth_In; lia).
  rewrite px_byte by (auto; apply Z.mod_pos_bound; lia).
  unfold pixels. assert (HF : nth (Z.to_nat p) (firstn (Z.to_nat w) (unpack_msb row)) false = nth (Z.to_nat p) (unpack_msb row) false).
  { rewrite <- (firstn_skipn (Z.to_nat w) (unpack_msb row)) at 2. rewrite app_nth1; auto. rewrite firstn_length, unpack_msb_length. Z.div_mod_to_equations; lia. }
  rewrite HF, unpack_nth by (Z.div_mod_to_equations; lia). f_equal; [rewrite Z2Nat.inj_mod by lia; reflexivity|]. f_equal. f_equal. rewrite Z2Nat.inj_div by lia. reflexivity.
Qed.
Lemma pixel_odd w row i p : 0 < w -> row_ok w row -> 0 <= p < w -> 0 <= i -> at_ (transitions w row) w (i - 1) <= p -> p < at_ (transitions w row) w i ->
  pixel_is_black row p = Ok (Z.odd i).
Proof.
  intros Hw Hrow Hp Hi H1 H2. rewrite (pixel_ok w) by auto. f_equal. rewrite <- (trans_expand w row ltac:(lia) Hrow).
  rewrite <- (Z.sub_0_r p). rewrite (expand_nth _ false 0 (-1) w i p); auto; try lia; [destruct (Z.odd i); reflexivity|]. apply trans_asc; auto; lia.
Qed.

(** ---- stretched run buffers ---- *)
Definition stretched (w : Z) (l arr : list Z) : Prop := exists j, arr = l ++ w :: w :: w :: j.
Lemma str_get w l arr k : 0 < w -> stretched w l arr -> 0 <= k <= Z.of_nat (length l) + 2 -> aget arr k = Ok (at_ l w k).
Proof.
  intros Hw (j & ->) Hk. unfold aget, in_bounds. rewrite app_length. cbn [length]. destruct (Z.leb_spec 0 k); [|lia].
  destruct (Z.ltb_spec k (Z.of_nat (length l + S (S (S (length j)))))); [|lia]. cbn [andb]. f_equal. unfold at_. destruct (Z.ltb_spec k 0); [lia|].
  destruct (Z.ltb_spec k (Z.of_nat (length l))).
  - rewrite app_nth1 by lia. apply nth_indep. lia.
  - rewrite app_nth2 by lia. rewrite (nth_overflow l) by lia. assert (Hc : k = Z.of_nat (length l) \/ k = Z.of_nat (length l) + 1 \/ k = Z.of_nat (length l) + 2) by lia.
    destruct Hc as [-> | [-> | ->]]; [replace (Z.to_nat _ - _)%nat with 0%nat by lia|replace (Z.to_nat _ - _)%nat with 1%nat by lia|replace (Z.to_nat _ - _)%nat with 2%nat by lia]; reflexivity.
Qed.
Lemma stretch_ok w l t : 0 < w -> asc (-1) l w -> Z.of_nat (length (l ++ t)) = w + 4 -> exists arr, stretch (l ++ t) (Z.of_nat (length l)) = Ok arr /\ stretched w l arr /\ Z.of_nat (length arr) = w + 4.
Proof.
  intros Hw Hasc Hlen. pose proof (asc_bound _ _ _ Hasc) as HB. rewrite app_length in Hlen.
  destruct t as [|x [|y [|z t]]]; cbn [length] in Hlen; try lia. unfold stretch.
  assert (Hv : aget (l ++ x :: y :: z :: t) (Z.of_nat (length l) - 1) = Ok w).
  { pose proof (at_last l w Hw Hasc) as HL. destruct l as [|l0 l'] eqn:El; [destruct Hasc|]. rewrite <- El in *. assert (0 < length l)%nat by (subst; cbn [length]; lia).
    unfold aget, in_bounds. rewrite app_length. cbn [length]. destruct (Z.leb_spec 0 (Z.of_nat (length l) - 1)); [|lia].
    destruct (Z.ltb_spec (Z.of_nat (length l) - 1) (Z.of_nat (length l + S (S (S (length t)))))); [|lia]. cbn [andb]. f_equal. rewrite app_nth1 by lia.
    rewrite <- HL at 1. unfold at_. destruct (Z.ltb_spec (Z.of_nat (length l) - 1) 0); [lia|]. apply nth_indep. lia. }
  rewrite Hv. cbn [rbind].
  replace (l ++ x :: y :: z :: t) with ((l ++ [x; y]) ++ z :: t) by (rewrite <- app_assoc; reflexivity).
  replace (Z.of_nat (length l) + 2) with (Z.of_nat (length (l ++ [x; y]))) by (rewrite app_length; cbn [length]; lia). rewrite aset_app. cbn [rbind].
  replace ((l ++ [x; y]) ++ w :: t) with ((l ++ [x]) ++ y :: w :: t) by (rewrite <- !app_assoc; reflexivity).
  replace (Z.of_nat (length l) + 1) with (Z.of_nat (length (l ++ [x]))) by (rewrite app_length; cbn [length]; lia). rewrite aset_app. cbn [rbind].
  replace ((l ++ [x]) ++ w :: w :: t) with (l ++ x :: w :: w :: t) by (rewrite <- app_assoc; reflexivity). rewrite aset_app.
  eexists. split; [reflexivity|]. split; [exists t; reflexivity|]. rewrite app_length. cbn [length]. lia.
Qed.

(** ---- hunting for b1 ---- *)
Lemma lor1 b : 0 <= b -> Z.lor b 1 = b + (1 - b mod 2).
Proof.
  intros H. rewrite <- Z.bit0_mod. destruct (Z.odd b) eqn:Eo.
  - rewrite Z.bit0_odd, Eo. cbn [Z.b2z]. rewrite Z.add_0_r. apply Z.bits_inj'. intros n Hn. rewrite Z.lor_spec. destruct (Z.eq_dec n 0) as [->|].
    + rewrite Z.bit0_odd, Eo. reflexivity.
    + replace (Z.testbit 1 n) with false; [apply orb_false_r|]. symmetry. apply Z.bits_above_log2; [lia|]. change (Z.log2 1) with 0. lia.
  - rewrite Z.bit0_odd, Eo. cbn [Z.b2z]. rewrite Z.sub_0_r. assert (Hb : b = 2 * (b / 2)) by (rewrite Zmod_odd, Eo in * || idtac; pose proof (Zmod_odd b) as HH; rewrite Eo in HH; Z.div_mod_to_equations; lia).
    rewrite Hb at 1. rewrite Z.lor_comm, Z.mul_comm. change 2 with (2 ^ 1). rewrite lor_disj by lia. lia.
Qed.
Lemma land2 b : 0 <= b -> Z.land b (-2) = b - b mod 2.
Proof.
  intros H. change (-2) with (Z.lnot (Z.ones 1)). rewrite <- Z.ldiff_land. rewrite Z.ldiff_ones_r by lia. rewrite Z.shiftr_div_pow2, Z.shiftl_mul_pow2 by lia. change (2 ^ 1) with 2.
  Z.div_mod_to_equations; lia.
Qed.
Section HUNT.
Variables (w : Z) (R ref : list Z) (a i : Z).
Hypothesis (Hw : 0 < w) (HR : asc (-1) R w) (Hs : stretched w R ref) (Ha : 0 <= a < w).
Let m := Z.of_nat (length R).
Lemma hunt_back_ok fuel : forall b, -2 <= b <= m + 1 -> (b - i) mod 2 = 0 -> b < 2 * Z.of_nat fuel -> a < at_ R w (b + 2) ->
  exists b', hunt_back fuel ref a b = Ok b' /\ -2 <= b' <= b /\ (b' - i) mod 2 = 0 /\ a < at_ R w (b' + 2) /\ at_ R w b' <= a.
Proof.
  induction fuel as [|fuel IH]; intros b Hb Hp Hf Hhi; cbn [hunt_back]; destruct (Z.ltb_spec b 0).
  - exists b. split; auto. split; [lia|]. split; auto. split; auto. rewrite at_neg by lia. lia.
  - lia.
  - exists b. split; auto. split; [lia|]. split; auto. split; auto. rewrite at_neg by lia. lia.
  - rewrite (str_get w R ref b Hw Hs) by (unfold m in *; lia). cbn [rbind]. destruct (Z.leb_spec (at_ R w b) a).
    + exists b. split; auto. split; [lia|]. auto.
    + destruct (IH (b - 2)) as (b' & E1 & E2 & E3 & E4 & E5); try lia.
      { replace (b - 2 + 2) with b by lia. lia. }
      exists b'. split; auto. split; [lia|]. auto.
Qed.
Lemma hunt_fwd_ok fuel : forall b, 0 <= b <= m -> (b - i) mod 2 = 0 -> m < b + 2 * Z.of_nat fuel -> at_ R w (b - 2) <= a ->
  exists b', hunt_fwd fuel ref m a b = Ok b' /\ 0 <= b' <= m /\ (b' - i) mod 2 = 0 /\ a < at_ R w b' /\ at_ R w (b' - 2) <= a.
Proof.
  induction fuel as [|fuel IH]; intros b Hb Hp Hf Hlo; cbn [hunt_fwd]; destruct (Z.leb_spec m b); try lia.
  - exists b. split; auto. split; [lia|]. split; auto. split; auto. rewrite at_big by (unfold m in *; lia). lia.
  - rewrite (str_get w R ref b Hw Hs) by (unfold m in *; lia). cbn [rbind]. destruct (Z.ltb_spec a (at_ R w b)).
    + exists b. auto 6.
    + assert (b + 2 <= m). { assert (HH : at_ R w b < w) by lia. apply (at_lt_w R w Hw HR) in HH. unfold m in *. lia. }
      destruct (IH (b + 2)) as (b' & E1 & E2 & E3 & E4 & E5); try lia.
      { replace (b + 2 - 2) with b by lia. lia. }
      exists b'. auto.
Qed.
Lemma hunt_ok b : 0 <= b <= m -> Z.of_nat (length ref) = w + 4 ->
  exists b' j, hunt ref m (Z.odd i) a b = Ok b' /\ isB R w j i a /\ 0 <= b' <= m /\ aget ref b' = Ok (at_ R w j) /\ aget ref (b' + 1) = Ok (at_ R w (j + 1)).
Proof.
  intros Hb Hl. pose proof (asc_bound _ _ _ HR) as HB. unfold hunt. set (b0 := if Z.odd i then _ else _).
  assert (Hb0 : 0 <= b0 <= m + 1 /\ (b0 - i) mod 2 = 0).
  { unfold b0. pose proof (Zmod_odd i) as Hoi. destruct (Z.odd i); [rewrite lor1 by lia|rewrite land2 by lia]; clear - Hb Hoi; Z.div_mod_to_equations; lia. }
  clearbody b0. destruct Hb0 as [Hb0 Hp]. rewrite (str_get w R ref b0 Hw Hs) by (unfold m in *; lia). cbn [rbind].
  destruct (Z.ltb_spec a (at_ R w b0)).
  - destruct (hunt_back_ok (length ref) b0) as (b' & E1 & E2 & E3 & E4 & E5); auto; try lia.
    { pose proof (at_mono R w Hw HR b0 (b0 + 2) ltac:(lia)). lia. }
    rewrite E1. cbn [rbind]. exists (b' + 2), (b' + 2). split; auto.
    assert (HI : isB R w (b' + 2) i a). { unfold isB. replace (b' + 2 - 2) with b' by lia. split; [clear - E3; Z.div_mod_to_equations; lia|]. split; [lia|]. auto. }
    pose proof (isB_le R w _ _ _ Hw HR (proj2 Ha) HI). split; auto. split; [unfold m; lia|]. rewrite !(str_get w R ref _ Hw Hs) by lia. auto.
  - assert (Hb1 : b0 <= m - 2). { assert (HH : at_ R w b0 < w) by lia. apply (at_lt_w R w Hw HR) in HH. unfold m in *. lia. }
    assert (HF : exists b', hunt_fwd (length ref) ref m a b0 = Ok b' /\ 0 <= b' <= m /\ (b' - i) mod 2 = 0 /\ a < at_ R w b' /\ at_ R w (b' - 2) <= a).
    { destruct (length ref) as [|f] eqn:Ef; [lia|]. cbn [hunt_fwd]. destruct (Z.leb_spec m b0); [lia|]. rewrite (str_get w R ref b0 Hw Hs) by (unfold m in *; lia). cbn [rbind].
      destruct (Z.ltb_spec a (at_ R w b0)); [lia|]. apply hunt_fwd_ok; try (unfold m in *; lia).
      replace (b0 + 2 - 2) with b0 by lia. lia. }
    destruct HF as (b' & E1 & E2 & E3 & E4 & E5). rewrite E1. cbn [rbind].
    assert (HI : isB R w b' i a) by (unfold isB; auto with zarith).
    destruct (Z.leb_spec m b').
    + exists (m - 1), b'. assert (0 < m) by (unfold m; destruct R; [destruct HR|cbn [length]; lia]). split; auto. split; auto. split; [lia|].
      rewrite !(str_get w R ref _ Hw Hs) by (unfold m in *; lia). rewrite !(at_ge R w Hw HR) by (unfold m in *; lia). auto.
    + exists b', b'. split; auto. split; auto. split; auto. rewrite !(str_get w R ref _ Hw Hs) by (unfold m in *; lia). auto.
Qed.
End HUNT.

(** ---- lengths ---- *)
Definition short_check : bool :=
  forallb (fun n => ((length (span_bits t4_white_codes (Z.of_nat n)) <=? 6 * n)%nat) && ((length (span_bits t4_black_codes (Z.of_nat n)) <=? 6 * n)%nat)) (seq 1 63).
Lemma short_check_ok : short_check = true. Proof. vm_compute. reflexivity. Qed.
Lemma tnth_len b i : 0 <= i < 104 -> 1 <= Z.of_nat (length (cbits (tnth (rtab b) i))) <= 13.
Proof.
  intros H. assert (HT : tab_ok (rtab b) = true) by (destruct b; [apply tab_ok_black|apply tab_ok_white]). unfold tab_ok in HT. rewrite !andb_true_iff in HT. destruct HT as [[[H0 H1] _] _].
  rewrite forallb_forall in H1. specialize (H1 (tnth (rtab b) i)). unfold tnth in *. specialize (H1 ltac:(apply nth_In; lia)). unfold cbits. rewrite bits_lsb_length. unfold rte_ok in H1. lia.
Qed.
Lemma span_len b : forall n span, (Z.to_nat span <= n)%nat -> 1 <= span -> 1 <= Z.of_nat (length (span_bits (rtab b) span)) <= 6 * span.
Proof.
  induction n as [|n IH]; intros span Hn Hs; [lia|]. destruct (Z.leb_spec 2624 span).
  - unfold span_bits. rewrite span_codes_long by lia. cbn [flat_map]. rewrite app_length. pose proof (tnth_len b 103 ltac:(lia)). specialize (IH (span - 2560) ltac:(lia) ltac:(lia)).
    unfold span_bits in IH. lia.
  - destruct (Z.leb_spec 64 span).
    + unfold span_bits, span_codes. destruct (Z.ltb_spec span 2624); [|lia]. rewrite Z.mul_0_r, Z.sub_0_r. cbn [Z.to_nat repeat app]. destruct (Z.leb_spec 64 span); [|lia].
      cbn [flat_map]. rewrite app_nil_r, app_length. pose proof (tnth_len b (63 + span / 64)). pose proof (tnth_len b (span - 64 * (span / 64))). Z.div_mod_to_equations; lia.
    + pose proof short_check_ok as HH. unfold short_check in HH. rewrite forallb_forall in HH. specialize (HH (Z.to_nat span) ltac:(apply in_seq; lia)). rewrite Z2Nat.id in HH by lia.
      split; [|destruct b; cbn [rtab]; lia].
      unfold span_bits, span_codes. destruct (Z.ltb_spec span 2624); [|lia]. rewrite Z.mul_0_r, Z.sub_0_r. cbn [Z.to_nat repeat app]. destruct (Z.leb_spec 64 span); [lia|].
      cbn [flat_map]. rewrite app_nil_r. pose proof (tnth_len b span). lia.
Qed.
Lemma span0_len b : Z.of_nat (length (span_bits (rtab b) 0)) = if b then 10 else 8.
Proof. destruct b; vm_compute; reflexivity. Qed.
Lemma span_len0 b span : 0 <= span -> 1 <= Z.of_nat (length (span_bits (rtab b) span)) <= 6 * span + (if span =? 0 then 10 else 0).
Proof.
  intros H. destruct (Z.eqb_spec span 0) as [->|]; [rewrite span0_len; destruct b; lia|]. pose proof (span_len b _ span (le_n _) ltac:(lia)). lia.
Qed.
Lemma mlen k : 0 <= k <= 8 -> 1 <= Z.of_nat (length (mbits k)) <= 7.
Proof.
  intros H. assert (HH : forallb (fun n => let x := Z.of_nat (length (mbits (Z.of_nat n))) in (1 <=? x) && (x <=? 7)) (seq 0 9) = true) by (vm_compute; reflexivity).
  rewrite forallb_forall in HH. specialize (HH (Z.to_nat k) ltac:(apply in_seq; lia)). cbn zeta in HH. rewrite Z2Nat.id in HH by lia. lia.
Qed.
Lemma put_mode_ok cap w B k : 0 <= k <= 8 -> wrep w B -> Z.of_nat (length B) + Z.of_nat (length (mbits k)) < 8 * (cap + 1) ->
  exists w', (do c <- tget t4_2d_codes k; put_encoded_bits cap w (rt_code c) (rt_len c)) = Ok w' /\ wrep w' (B ++ mbits k) /\ bw_row w' = bw_row w + Z.of_nat (length (mbits k)).
Proof.
  intros Hk Hw Hc. assert (HH : forallb (fun n => match nth_error t4_2d_codes n with Some e => rte_ok e | None => false end) (seq 0 9) = true) by (vm_compute; reflexivity).
  rewrite forallb_forall in HH. specialize (HH (Z.to_nat k) ltac:(apply in_seq; lia)). unfold tget. destruct (Z.ltb_spec k 0); [lia|].
  destruct (nth_error t4_2d_codes (Z.to_nat k)) as [e|] eqn:E; [|discriminate]. cbn [rbind].
  assert (Em : mbits k = cbits e) by (unfold mbits, tnth; rewrite (nth_error_nth _ _ _ E); reflexivity). rewrite Em in *.
  apply put_code_ok; auto. unfold cbits in Hc. rewrite bits_lsb_length in Hc. unfold rte_ok in HH. lia.
Qed.

(** ---- the loop ---- *)
Section LOOP.
Variables (cap w : Z) (row cur ref R : list Z).
Hypothesis (Hw : 0 < w) (Hrow : row_ok w row) (HR : asc (-1) R w) (Href : stretched w R ref) (Hrl : Z.of_nat (length ref) = w + 4)
  (Hcur : stretched w (transitions w row) cur).
Let T := transitions w row.
Let m := Z.of_nat (length R).
Lemma loop_2d_ok fuel : forall bw B a i b j, wrep bw B -> -1 <= a < w -> w - a < Z.of_nat fuel -> 0 <= i -> at_ T w (i - 1) <= a -> a < at_ T w i ->
  isB R w j i a -> 0 <= b <= m -> aget ref b = Ok (at_ R w j) -> aget ref (b + 1) = Ok (at_ R w (j + 1)) ->
  Z.of_nat (length B) + 9 * (w - Z.max 0 a) + (if a <? 0 then 11 else 0) + 10 < 8 * (cap + 1) ->
  exists bw' l, loop_2d cap fuel w row cur (Z.of_nat (length T)) ref m bw (Z.max 0 a) (at_ T w i) (at_ R w j) i b = Ok bw' /\
    wrep bw' (B ++ l) /\ bw_row bw' = bw_row bw + Z.of_nat (length l) /\ codes w R T a i l /\
    1 <= Z.of_nat (length l) <= 9 * (w - Z.max 0 a) + (if a <? 0 then 11 else 0) + 10.
Proof.
  assert (HT : asc (-1) T w) by (apply trans_asc; auto; lia).
  induction fuel as [|fuel IH]; intros bw B a i b j Hbw Ha Hf Hi Hlo Hhi HB Hb Hg1 Hg2 Hc; [lia|].
  assert (HX : 0 <= (if a <? 0 then 11 else 0) <= 11 /\ (a < 0 -> (if a <? 0 then 11 else 0) = 11)) by (destruct (Z.ltb_spec a 0); lia).
  pose proof HB as (B1 & B2 & B3 & B4). assert (Hi1 : i < Z.of_nat (length T)). { assert (HH : at_ T w (i - 1) < w) by lia. apply (at_lt_w T w Hw HT) in HH. lia. }
  pose proof (at_range T w Hw HT i) as Rg. pose proof (at_range R w Hw HR j) as Rj. pose proof (at_range R w Hw HR (j + 1)) as Rj1.
  pose proof (at_nonneg T w Hw HT i Hi) as Ni. pose proof (at_nonneg R w Hw HR j B2) as Nj.
  (* what follows a step *)
  assert (Step : forall bw1 l1 a' i' b0, wrep bw1 (B ++ l1) -> a < a' -> 0 <= a' < w -> 0 <= i' -> at_ T w (i' - 1) <= a' -> a' < at_ T w i' -> b0 = b ->
      bw_row bw1 = bw_row bw + Z.of_nat (length l1) -> Z.of_nat (length l1) <= 9 * (a' - Z.max 0 a) + (if a <? 0 then 11 else 0) -> 
      exists bw' l, (do black <- pixel_is_black row a'; do b_cursor <- hunt ref m black a' b0; do b1 <- aget ref b_cursor;
        loop_2d cap fuel w row cur (Z.of_nat (length T)) ref m bw1 a' (at_ T w i') b1 i' b_cursor) = Ok bw' /\
        wrep bw' (B ++ l1 ++ l) /\ bw_row bw' = bw_row bw + Z.of_nat (length (l1 ++ l)) /\ codes w R T a' i' l /\
        Z.of_nat (length (l1 ++ l)) <= 9 * (w - Z.max 0 a) + (if a <? 0 then 11 else 0) + 10).
  { intros bw1 l1 a' i' b0 W1 Haa Ha' Hi' L1 L2 -> Rw Ln. rewrite (pixel_odd w row i' a') by auto. cbn [rbind].
    destruct (hunt_ok w R ref a' i' Hw HR Href Ha' b Hb Hrl) as (b' & j' & E1 & E2 & E3 & E4 & E5). fold m in E1. rewrite E1. cbn [rbind]. rewrite E4. cbn [rbind].
    destruct (IH bw1 (B ++ l1) a' i' b' j') as (bw' & l & F1 & F2 & F3 & F4 & F5); auto; try lia.
    { rewrite app_length. replace (if a' <? 0 then 11 else 0) with 0 by (destruct (Z.ltb_spec a' 0); lia). lia. }
    rewrite Z.max_r in F1 by lia. exists bw', l. split; [exact F1|]. rewrite <- app_assoc in F2. split; auto. rewrite app_length. split; [lia|]. split; auto.
    replace (if a' <? 0 then 11 else 0) with 0 in F5 by (destruct (Z.ltb_spec a' 0); lia). lia. }
  cbn [loop_2d]. rewrite Hg2. cbn [rbind]. destruct (Z.leb_spec (at_ T w i) (at_ R w (j + 1))).
  - destruct (Z.leb_spec (Z.abs (at_ R w j - at_ T w i)) 3).
    + (* vertical *)
      pose proof (mlen (at_ R w j - at_ T w i + 3) ltac:(lia)) as ML.
      destruct (put_mode_ok cap bw B (at_ R w j - at_ T w i + 3)) as (w1 & P1 & P2 & P3); auto; try lia.
      destruct (tget t4_2d_codes (at_ R w j - at_ T w i + 3)) as [c|]; [cbn [rbind] in P1 |- *|discriminate P1]. rewrite P1. cbn [rbind].
      destruct (Z.leb_spec w (at_ T w i)).
      * cbn [rbind]. destruct (Z.leb_spec w (at_ T w i)); [|lia]. exists w1, (mbits (at_ R w j - at_ T w i + 3)). split; auto. split; auto. split; auto. split; [|lia].
        rewrite <- (app_nil_r (mbits _)). eapply c_vert; eauto; [lia|]. apply c_done. lia.
      * assert (Hi2 : i + 1 < Z.of_nat (length T)). { assert (HH : at_ T w i < w) by lia. apply (at_lt_w T w Hw HT) in HH. lia. }
        destruct (Z.leb_spec (Z.of_nat (length T)) (i + 1)); [lia|]. rewrite (str_get w T cur (i + 1) Hw Hcur) by lia. cbn [rbind].
        destruct (Z.leb_spec w (at_ T w i)); [lia|]. pose proof (proj2 (at_step T w Hw HT i) ltac:(lia) ltac:(lia)) as Nx.
        destruct (Step w1 (mbits (at_ R w j - at_ T w i + 3)) (at_ T w i) (i + 1) b) as (bw' & l & F1 & F2 & F3 & F4 & F5); auto; try lia.
        { replace (i + 1 - 1) with i by lia. lia. }
        exists bw', (mbits (at_ R w j - at_ T w i + 3) ++ l). split; [exact F1|]. split; auto. split; auto. split; [eapply c_vert; eauto; lia|]. rewrite app_length in *. lia.
    + (* horizontal *)
      rewrite (str_get w T cur (i + 1) Hw Hcur) by (change (transitions w row) with T; lia). cbn [rbind].
      pose proof (at_range T w Hw HT (i + 1)) as Rg1. pose proof (at_step T w Hw HT i) as [Mx Nx].
      pose proof (mlen 7 ltac:(lia)) as ML. assert (ML7 : length (mbits 7) = 3%nat) by (vm_compute; reflexivity).
      set (p := at_ T w i - Z.max 0 a) in *. set (q := at_ T w (i + 1) - at_ T w i) in *.
      assert (Hp : 0 <= p) by (unfold p; lia). assert (Hq : 0 <= q) by (unfold q; lia).
      pose proof (span_len0 (Z.odd i) p Hp) as Lp. pose proof (span_len0 (negb (Z.odd i)) q Hq) as Lq.
      assert (Hp0 : p = 0 -> a < 0 /\ i = 0).
      { intros H1. assert (a < 0) by (unfold p in *; lia). split; auto. unfold p in *. destruct (Z.eq_dec i 0); auto. pose proof (at_nonneg T w Hw HT (i - 1) ltac:(lia)). lia. }
      assert (HY : 0 <= (if q =? 0 then 10 else 0) <= 10 /\ (0 < q -> (if q =? 0 then 10 else 0) = 0) /\ (q = 0 -> (if q =? 0 then 10 else 0) = 10)) by (destruct (Z.eqb_spec q 0); lia).
      assert (Lp' : Z.of_nat (length (span_bits (rtab (Z.odd i)) p)) <= 6 * p + (if a <? 0 then 8 else 0)).
      { destruct (Z.eqb_spec p 0) as [E|]; [|destruct (a <? 0); lia]. destruct (Hp0 E) as [H1 ->]. rewrite E. change (Z.odd 0) with false. rewrite span0_len. destruct (Z.ltb_spec a 0); lia. }
      assert (Hq0 : q = 0 -> at_ T w i = w). { intros H1. destruct (Z.eq_dec (at_ T w i) w); auto. specialize (Nx ltac:(lia) ltac:(lia)). unfold q in *. lia. }
      assert (Tot : 3 + Z.of_nat (length (span_bits (rtab (Z.odd i)) p)) + Z.of_nat (length (span_bits (rtab (negb (Z.odd i))) q)) <= 9 * (p + q) + (if a <? 0 then 11 else 0) + (if q =? 0 then 10 else 0)).
      { revert Lp' HX. destruct (Z.ltb_spec a 0); intros; [lia|]. assert (p <> 0) by lia. lia. }
      assert (Pq : p + q <= w - Z.max 0 a) by (unfold p, q; lia).
      destruct (put_mode_ok cap bw B 7) as (w1 & P1 & P2 & P3); auto; try lia.
      destruct (tget t4_2d_codes 7) as [c|]; [cbn [rbind] in P1 |- *|discriminate P1]. rewrite P1. cbn [rbind].
      assert (Wh : (if Z.max 0 a + at_ T w i =? 0 then Ok true else do p <- pixel_is_black row (Z.max 0 a); Ok (negb p)) = Ok (negb (Z.odd i))).
      { destruct (Z.eqb_spec (Z.max 0 a + at_ T w i) 0).
        - destruct (Hp0 ltac:(unfold p; lia)) as [_ ->]. reflexivity.
        - rewrite (pixel_odd w row i (Z.max 0 a)); auto; fold T; try lia. }
      rewrite Wh. cbn [rbind].
      replace (if negb (Z.odd i) then t4_white_codes else t4_black_codes) with (rtab (Z.odd i)) by (destruct (Z.odd i); reflexivity).
      replace (if negb (Z.odd i) then t4_black_codes else t4_white_codes) with (rtab (negb (Z.odd i))) by (destruct (Z.odd i); reflexivity).
      assert (Tab : forall b, tab_ok (rtab b) = true) by (intros []; [apply tab_ok_black|apply tab_ok_white]).
      destruct (put_1d_span_ok cap (rtab (Z.odd i)) w1 (B ++ mbits 7) p (Tab _) P2 Hp) as (w2 & Q1 & Q2 & Q3). { rewrite app_length. lia. }
      rewrite Q1. cbn [rbind].
      destruct (put_1d_span_ok cap (rtab (negb (Z.odd i))) w2 ((B ++ mbits 7) ++ span_bits (rtab (Z.odd i)) p) q (Tab _) Q2 Hq) as (w3 & S1 & S2 & S3).
      { rewrite !app_length. lia. }
      rewrite S1. cbn [rbind]. rewrite <- !app_assoc in S2.
      set (l1 := mbits 7 ++ span_bits (rtab (Z.odd i)) p ++ span_bits (rtab (negb (Z.odd i))) q) in *.
      assert (Ll : Z.of_nat (length l1) = 3 + Z.of_nat (length (span_bits (rtab (Z.odd i)) p)) + Z.of_nat (length (span_bits (rtab (negb (Z.odd i))) q))) by (unfold l1; rewrite !app_length; lia).
      destruct (Z.leb_spec w (at_ T w (i + 1))).
      * cbn [rbind]. destruct (Z.leb_spec w (at_ T w (i + 1))); [|lia]. exists w3, l1. split; auto. split; auto. split; [lia|]. split.
        -- unfold l1, p, q. rewrite <- (app_nil_r (span_bits (rtab (negb (Z.odd i))) _)). eapply c_horiz; eauto; try lia. apply c_done; lia.
        -- lia.
      * assert (Hi2 : i + 1 + 1 < Z.of_nat (length T)). { assert (HH : at_ T w (i + 1) < w) by lia. apply (at_lt_w T w Hw HT) in HH. lia. }
        destruct (Z.leb_spec (Z.of_nat (length T)) (i + 2)); [lia|]. rewrite (str_get w T cur (i + 2) Hw Hcur) by lia. cbn [rbind].
        destruct (Z.leb_spec w (at_ T w (i + 1))); [lia|]. pose proof (proj2 (at_step T w Hw HT (i + 1)) ltac:(lia) ltac:(lia)) as Nx1. replace (i + 1 + 1) with (i + 2) in Nx1 by lia.
        assert (q <> 0) by lia.
        destruct (Step w3 l1 (at_ T w (i + 1)) (i + 2) b) as (bw' & l & F1 & F2 & F3 & F4 & F5); auto; try lia.
        { replace (i + 2 - 1) with (i + 1) by lia. lia. }
        exists bw', (l1 ++ l). split; [exact F1|]. split; auto. split; auto. split; [|rewrite app_length in *; lia].
        unfold l1, p, q. rewrite <- !app_assoc. eapply c_horiz; eauto; lia.
  - (* pass *)
    pose proof (at_step R w Hw HR j) as [Mx Nx]. specialize (Nx ltac:(lia) ltac:(lia)).
    pose proof (mlen 8 ltac:(lia)) as ML.
    destruct (put_mode_ok cap bw B 8) as (w1 & P1 & P2 & P3); auto; try lia.
    destruct (tget t4_2d_codes 8) as [c|]; [cbn [rbind] in P1 |- *|discriminate P1]. rewrite P1. cbn [rbind].
    destruct (Z.leb_spec w (at_ R w (j + 1))); [lia|].
    destruct (Step w1 (mbits 8) (at_ R w (j + 1)) i b) as (bw' & l & F1 & F2 & F3 & F4 & F5); auto; try lia.
    exists bw', (mbits 8 ++ l). split; [exact F1|]. split; auto. split; auto. split; [eapply c_pass; eauto; lia|]. rewrite app_length in *. lia.
Qed.
End LOOP.
