(** The buffer as a machine: ring, bit output, injection, and what comes out. *)
From Coq Require Import ZifyBool ZifyNat.
From Verif Require Import Base Bits BitOps_model BitOps_proofs NonEcm_model NonEcm_spec NonEcm_rows_proofs.

(** ---- the ring ---- *)
Lemma land_ring x : Z.land x (BUF_LEN - 1) = x mod BUF_LEN.
Proof. change (BUF_LEN - 1) with (Z.ones 14). rewrite Z.land_ones by lia. reflexivity. Qed.
(** The octets [L] are in the ring from [o] on. *)
Record held (q : ring) (o : Z) (L : list Z) : Prop := {
  h_len : Z.of_nat (length (q_data q)) = BUF_LEN; h_o : 0 <= o < BUF_LEN; h_in : q_in q = (o + Z.of_nat (length L)) mod BUF_LEN;
  h_room : Z.of_nat (length L) < BUF_LEN;
  h_get : forall k, (k < length L)%nat -> nth (Z.to_nat ((o + Z.of_nat k) mod BUF_LEN)) (q_data q) 0 = nth k L 0 }.
Lemma held_put q o L b : held q o L -> Z.of_nat (length L) + 1 < BUF_LEN -> exists q', ring_put q b = Ok q' /\ held q' o (L ++ [b]).
Proof.
  intros [A B C D E] H. unfold ring_put, aset, in_bounds. assert (0 <= q_in q < BUF_LEN) by (rewrite C; apply Z.mod_pos_bound; reflexivity).
  destruct (Z.leb_spec 0 (q_in q)); [|lia]. destruct (Z.ltb_spec (q_in q) (Z.of_nat (length (q_data q)))); [|lia]. cbn [andb rbind].
  eexists. split; [reflexivity|]. rewrite land_ring. unfold BUF_LEN in *.
  constructor; cbn [q_data q_in]; rewrite ?upd_length, ?app_length; cbn [length]; auto; try (unfold BUF_LEN; lia).
  - intros k Hk. destruct (Nat.eq_dec k (length L)) as [->|Hne].
    + rewrite app_nth2, Nat.sub_diag by lia. cbn [nth]. unfold BUF_LEN. rewrite <- C. apply nth_upd_same. lia.
    + rewrite app_nth1 by lia. rewrite nth_upd_other; [apply E; lia|]. rewrite C. unfold BUF_LEN. Z.div_mod_to_equations. lia.
Qed.
Lemma held_take q o x L : held q o (x :: L) -> aget (q_data q) o = Ok x /\ held q ((o + 1) mod BUF_LEN) L.
Proof.
  intros [A B C D E]. cbn [length] in *. split.
  - unfold aget, in_bounds. destruct (Z.leb_spec 0 o); [|lia]. destruct (Z.ltb_spec o (Z.of_nat (length (q_data q)))); [|lia]. cbn [andb]. f_equal.
    specialize (E 0%nat ltac:(lia)). cbn [nth] in E. rewrite <- E. f_equal. unfold BUF_LEN in *. Z.div_mod_to_equations; lia.
  - unfold BUF_LEN in *. constructor; unfold BUF_LEN; auto; try lia; try (Z.div_mod_to_equations; lia).
    intros k Hk. specialize (E (S k) ltac:(lia)). cbn [nth] in E. rewrite <- E. f_equal. Z.div_mod_to_equations; lia.
Qed.
Lemma held_fill fuel : forall q o L row m c q' row' c', held q o L -> fill_row fuel q row m c = Ok (q', row', c') -> Z.of_nat (length L) + (c' - c) < BUF_LEN ->
  c' - c = short_by m row /\ held q' o (L ++ repeat 0 (Z.to_nat (c' - c))).
Proof.
  induction fuel as [|k IH]; intros q o L row m c q' row' c' HH HF Hr; cbn [fill_row] in HF; unfold short_by; destruct (Z.leb_spec m row).
  - inversion HF; subst. rewrite Z.sub_diag. cbn [Z.to_nat repeat]. rewrite app_nil_r. auto.
  - discriminate.
  - inversion HF; subst. rewrite Z.sub_diag. cbn [Z.to_nat repeat]. rewrite app_nil_r. auto.
  - assert (Mono : forall f q row c q' row' c', fill_row f q row m c = Ok (q', row', c') -> c <= c').
    { clear. induction f as [|f IHf]; intros q row c q' row' c' HF; cbn [fill_row] in HF; destruct (m <=? row); inversion HF; try lia; subst.
      destruct (ring_put q 0); [|discriminate]. cbn [rbind] in HF. apply IHf in HF. lia. }
    destruct (ring_put q 0) as [q1|] eqn:E1; [|discriminate]. cbn [rbind] in HF. pose proof (Mono _ _ _ _ _ _ _ HF).
    destruct (held_put q o L 0 HH ltac:(lia)) as (q2 & E2 & H2). assert (q2 = q1) by congruence. subst q2.
    destruct (IH _ _ _ _ _ _ _ _ _ H2 HF) as [G1 G2]; [rewrite app_length; cbn [length]; lia|]. split.
    + revert G1. unfold short_by. destruct (Z.leb_spec m (row + 8)); intros; Z.div_mod_to_equations; lia.
    + rewrite <- app_assoc in G2. replace (Z.to_nat (c' - c)) with (S (Z.to_nat (c' - (c + 1)))) by lia. exact G2.
Qed.

(** ---- the bit stream register ---- *)
Lemma bottom_bit_low x t : 0 <= t < 32 -> 0 < x < 2 ^ 32 -> Z.testbit x t = true -> (forall i, 0 <= i < t -> Z.testbit x i = false) -> bottom_bit x = t.
Proof.
  intros Ht Hx H1 H2. apply (bottom_bit_ok x t (Z.shiftr x (t + 1))); auto.
  assert (E : x mod 2 ^ t = 0). { apply Z.bits_inj'. intros i Hi. rewrite Z.bits_0. destruct (Z.lt_ge_cases i t); [rewrite Z.mod_pow2_bits_low by lia; apply H2; lia|apply Z.mod_pow2_bits_high; lia]. }
  rewrite (Z.div_mod x (2 ^ t)) at 1 by lia. rewrite E, Z.add_0_r. f_equal. rewrite Z.shiftr_div_pow2, Z.pow_add_r, <- Z.div_div by lia. change (2 ^ 1) with 2.
  rewrite (Z.div_mod (x / 2 ^ t) 2) at 1 by lia. f_equal. rewrite <- Z.bit0_mod. rewrite Z.div_pow2_bits by lia. rewrite Z.add_0_l, H1. reflexivity.
Qed.
Lemma bottom_bit_spec x : 0 < x < 2 ^ 32 -> 0 <= bottom_bit x < 32 /\ Z.testbit x (bottom_bit x) = true /\ (forall i, 0 <= i < bottom_bit x -> Z.testbit x i = false).
Proof.
  intros Hx. destruct (exists_bottom x Hx) as (t & y & Ht & E). rewrite (bottom_bit_ok x t y) by auto. split; auto. rewrite E, Z.mul_comm. split.
  - rewrite Z.mul_pow2_bits by lia. rewrite Z.sub_diag. apply Z.testbit_odd_0.
  - intros i Hi. apply Z.mul_pow2_bits_low. lia.
Qed.
Definition zbs (z bs : Z) : Prop := 0 <= bs < 2 ^ 32 /\ bottom_bit (Z.lor bs 0x800) = Z.min z 11.
Lemma bit_2048 i : 0 <= i -> Z.testbit 0x800 i = (i =? 11).
Proof. intros. change 0x800 with (2 ^ 11). rewrite Z.pow2_bits_eqb by lia. apply Z.eqb_sym. Qed.
Lemma lor_2048_range x : 0 <= x < 2 ^ 32 -> 0 < Z.lor x 0x800 < 2 ^ 32.
Proof.
  intros Hx. assert (0 <= Z.lor x 0x800) by (apply Z.lor_nonneg; lia). assert (Z.lor x 0x800 <> 0) by (intros E; apply Z.lor_eq_0_iff in E; lia). split; [lia|].
  assert (E : Z.lor x 0x800 mod 2 ^ 32 = Z.lor x 0x800); [|rewrite <- E; apply Z.mod_pos_bound; lia].
  rewrite <- (Z.land_ones _ 32) by lia. rewrite Z.land_lor_distr_l, !Z.land_ones by lia. rewrite Z.mod_small by lia. reflexivity.
Qed.
Lemma eol_here_ok z bs b : zbs z bs -> byte b -> b <> 0 -> 0 <= z -> eol_here bs b = (11 <=? z + lead b).
Proof.
  intros [_ H] Hb Hn Hz. unfold eol_here, lead. rewrite H. destruct (octet_split b Hb Hn) as (_ & _ & E & _). lia.
Qed.
Lemma bs_push_bits bs b i : 0 <= bs -> byte b -> 0 <= i < 32 -> Z.testbit (bs_push bs b) i = if i <? 8 then Z.testbit b i else Z.testbit bs (i - 8).
Proof.
  intros Hs Hb Hi. unfold bs_push, u32. rewrite Z.lor_spec. change 4294967296 with (2 ^ 32). rewrite Z.mod_pow2_bits_low by lia. rewrite Z.shiftl_spec by lia.
  destruct (Z.ltb_spec i 8).
  - rewrite Z.testbit_neg_r by lia. reflexivity.
  - replace (Z.testbit b i) with false; [apply orb_false_r|]. unfold byte in Hb. rewrite <- (Z.mod_small b (2 ^ 8)) by (change (2 ^ 8) with 256; lia). rewrite Z.mod_pow2_bits_high by lia. auto.
Qed.
Lemma bs_push_range bs b : byte b -> 0 <= bs_push bs b < 2 ^ 32.
Proof.
  intros Hb. unfold byte in Hb. unfold bs_push, u32. change 4294967296 with (2 ^ 32). pose proof (Z.mod_pos_bound (Z.shiftl bs 8) (2 ^ 32) ltac:(lia)).
  split; [apply Z.lor_nonneg; lia|]. assert (E : Z.lor (Z.shiftl bs 8 mod 2 ^ 32) b mod 2 ^ 32 = Z.lor (Z.shiftl bs 8 mod 2 ^ 32) b); [|rewrite <- E; apply Z.mod_pos_bound; lia].
  rewrite <- (Z.land_ones _ 32) by lia. rewrite Z.land_lor_distr_l, !Z.land_ones by lia. rewrite Zmod_mod. rewrite (Z.mod_small b) by lia. reflexivity.
Qed.
Lemma zbs_push z bs b : zbs z bs -> byte b -> 0 <= z -> zbs (next_z z b) (bs_push bs b).
Proof.
  intros [Hr Hz] Hb Hz0. pose proof (bs_push_range bs b Hb) as Hr'. split; auto. pose proof (lor_2048_range _ Hr) as L. pose proof (lor_2048_range _ Hr') as L'.
  destruct (bottom_bit_spec _ L) as (S1 & S2 & S3). rewrite Hz in *. unfold next_z. destruct (Z.eqb_spec b 0) as [->|Hn].
  - apply bottom_bit_low; auto; [lia| |].
    + rewrite Z.lor_spec, bit_2048, bs_push_bits by (auto; unfold byte; lia). destruct (Z.le_gt_cases 3 z).
      * replace (Z.min (z + 8) 11) with 11 by lia. apply orb_true_r.
      * replace (Z.min (z + 8) 11) with (z + 8) by lia. replace (Z.min z 11) with z in * by lia. destruct (Z.ltb_spec (z + 8) 8); [lia|]. replace (z + 8 - 8) with z by lia.
        rewrite Z.lor_spec, bit_2048 in S2 by lia. destruct (Z.eqb_spec z 11); [lia|]. rewrite orb_false_r in S2. rewrite S2. reflexivity.
    + intros i Hi. rewrite Z.lor_spec, bit_2048, bs_push_bits by (auto; unfold byte; lia). destruct (Z.eqb_spec i 11); [lia|]. rewrite orb_false_r. destruct (Z.ltb_spec i 8); [apply Z.bits_0|].
      specialize (S3 (i - 8) ltac:(lia)). rewrite Z.lor_spec in S3. apply orb_false_iff in S3. tauto.
  - destruct (octet_split b Hb Hn) as (_ & _ & _ & E & _). unfold byte in *. destruct (bottom_bit_spec b ltac:(lia)) as (B1 & B2 & B3). replace (Z.min (bottom_bit b) 11) with (bottom_bit b) by lia.
    apply bottom_bit_low; auto; [|].
    + rewrite Z.lor_spec, bs_push_bits by (auto; unfold byte; lia). destruct (Z.ltb_spec (bottom_bit b) 8); [|lia]. rewrite B2. reflexivity.
    + intros i Hi. rewrite Z.lor_spec, bit_2048, bs_push_bits by (auto; unfold byte; lia). destruct (Z.ltb_spec i 8); [|lia]. rewrite B3 by lia. cbn [orb]. apply Z.eqb_neq. lia.
Qed.

(** ---- bits out ---- *)
Definition remaining (s : nes) : list bool := firstn (Z.to_nat (n_bitno s)) (bits_msb 8 (n_octet s mod 256)).
Definition Bits (s : nes) (O outs : list Z) : Prop := 0 <= n_bitno s <= 8 /\ 0 <= n_octet s /\ map Z.b2z (unpack_msb O) = outs ++ map Z.b2z (remaining s).
Lemma octet_shift x k : 0 <= x -> 0 < k <= 8 ->
  firstn (Z.to_nat k) (bits_msb 8 (x mod 256)) = Z.odd (Z.shiftr x 7) :: firstn (Z.to_nat (k - 1)) (bits_msb 8 (u32 (Z.shiftl x 1) mod 256)).
Proof.
  intros Hx Hk. unfold u32. replace ((Z.shiftl x 1 mod 4294967296) mod 256) with ((2 * x) mod 256).
  2:{ rewrite Z.shiftl_mul_pow2 by lia. change (2 ^ 1) with 2. rewrite (Z.mul_comm x). Z.div_mod_to_equations. lia. }
  change 256 with (2 ^ Z.of_nat 8). rewrite !bits_msb_mod. replace (Z.to_nat k) with (S (Z.to_nat (k - 1))) by lia. set (n := Z.to_nat (k - 1)). assert (n <= 7)%nat by lia.
  unfold bits_msb. cbn [bits_lsb rev app]. replace (Z.div2 (2 * x)) with x by (rewrite Z.div2_div, Z.mul_comm, Z.div_mul; lia). replace (Z.odd (2 * x)) with false by (rewrite Z.odd_mul; reflexivity). cbn [firstn]. f_equal.
  do 8 (destruct n as [|n]; [reflexivity|]). lia.
Qed.
Lemma shift_out_ok s x k out st O outs : 0 <= x -> 0 < k <= 8 -> map Z.b2z (unpack_msb O) = outs ++ map Z.b2z (firstn (Z.to_nat k) (bits_msb 8 (x mod 256))) ->
  Bits (fst (shift_out s x k out st)) O (outs ++ [snd (shift_out s x k out st)]) /\ (snd (shift_out s x k out st) = 0 \/ snd (shift_out s x k out st) = 1).
Proof.
  intros Hx Hk E. unfold shift_out, Bits, remaining. cbn [fst snd n_bitno n_octet]. rewrite octet_shift in E by auto. cbn [map] in E.
  assert (Eb : Z.land (Z.shiftr x 7) 1 = Z.b2z (Z.odd (Z.shiftr x 7))). { change 1 with (Z.ones 1) at 1. rewrite Z.land_ones by lia. change (2 ^ 1) with 2. rewrite Zmod_odd; destruct (Z.odd _); reflexivity. }
  rewrite Eb. split; [|destruct (Z.odd _); cbn; auto]. split; [lia|]. split; [unfold u32; apply Z.mod_pos_bound; lia|]. rewrite <- app_assoc. exact E.
Qed.

(** ---- taking bits ---- *)
Definition same (s s' : nes) : Prop :=
  n_image s' = n_image s /\ n_min s' = n_min s /\ n_row s' = n_row s /\ n_bs s' = n_bs s /\ n_phase s' = n_phase s /\ n_fin s' = n_fin s.
Definition Idle (s : nes) : Prop := held (n_ring s) (n_out s) [] /\ n_eol s = n_out s /\ n_fill s = 255 /\ level s = 0.
Definition Flow (s : nes) (O : list Z) (W : list item) : Prop := exists R H,
  held (n_ring s) (n_out s) (map fst (R ++ H)) /\ n_eol s = (n_out s + Z.of_nat (length R)) mod BUF_LEN /\ (exists x H', H = (x, true) :: H') /\
  n_fill s = 0 /\ level s = Z.of_nat (length (R ++ H)) /\ Forall (fun p => byte (fst p)) (R ++ H) /\
  forall N O2, Ins (R ++ H ++ N) O2 -> Ins (W ++ N) (O ++ O2).
Lemma unpack_one x : byte x -> unpack_msb [x] = firstn (Z.to_nat 8) (bits_msb 8 (x mod 256)).
Proof. intros Hx. unfold byte in Hx. rewrite Z.mod_small by lia. unfold unpack_msb. cbn [flat_map]. rewrite app_nil_r, firstn_all2; auto. Qed.
Lemma bits_done s O outs x : Bits s O outs -> n_bitno s <= 0 -> byte x -> map Z.b2z (unpack_msb (O ++ [x])) = outs ++ map Z.b2z (firstn (Z.to_nat 8) (bits_msb 8 (x mod 256))).
Proof.
  intros (B1 & B2 & B3) Hb Hx. rewrite unpack_msb_app, map_app, B3, unpack_one by auto. unfold remaining. replace (Z.to_nat (n_bitno s)) with 0%nat by lia. cbn [firstn map]. rewrite app_nil_r. reflexivity.
Qed.
Lemma get_idle s O outs : Idle s -> Bits s O outs -> n_fin s = false -> exists s' b O1, get_bit s = Ok (s', b) /\ (b = 0 \/ b = 1) /\ Bits s' (O ++ O1) (outs ++ [b]) /\ (O1 = [] \/ O1 = [255]) /\ Idle s' /\ same s s'.
Proof.
  intros (I1 & I2 & I3 & I4) HB Hf. pose proof HB as (B1 & B2 & B3). unfold get_bit. destruct (Z.leb_spec (n_bitno s) 0).
  - rewrite I2, Z.eqb_refl, Hf, I3. cbn [negb]. set (st := mk_stats _ _ _ _ _). destruct (shift_out_ok s 255 8 (n_out s) st (O ++ [255]) outs) as [P1 P2]; try lia; [apply (bits_done s); auto; unfold byte; lia|].
    eexists _, _, [255]. split; [reflexivity|]. split; [exact P2|]. split; [exact P1|]. split; auto. split; [|repeat split; reflexivity].
    repeat (split; [assumption|]). unfold level in *. cbn [n_st shift_out fst st t_in t_minfill t_out t_flow] in *. lia.
  - destruct (shift_out_ok s (n_octet s) (n_bitno s) (n_out s) (n_st s) O outs) as [P1 P2]; auto; try lia.
    eexists _, _, []. rewrite app_nil_r. split; [reflexivity|]. split; [exact P2|]. split; [exact P1|]. split; auto. split; [|repeat split; reflexivity]. repeat (split; [assumption|]). assumption.
Qed.
Lemma get_flow s O O' W outs : Flow s O' W -> Bits s O outs -> n_fin s = false -> exists s' b O1, get_bit s = Ok (s', b) /\ (b = 0 \/ b = 1) /\ Bits s' (O ++ O1) (outs ++ [b]) /\ Flow s' (O' ++ O1) W /\ same s s'.
Proof.
  intros (R & H & F1 & F2 & (x & H' & F3) & F4 & F5 & F6 & F7) HB Hf. pose proof HB as (B1 & B2 & B3). unfold get_bit. destruct (Z.leb_spec (n_bitno s) 0).
  - destruct R as [|[y k] R].
    + cbn [length] in F2. rewrite Z.add_0_r in F2. rewrite Z.mod_small in F2 by (apply (h_o _ _ _ F1)). rewrite F2, Z.eqb_refl, Hf, F4. cbn [negb]. set (st := mk_stats _ _ _ _ _).
      destruct (shift_out_ok s 0 8 (n_out s) st (O ++ [0]) outs) as [P1 P2]; try lia; [apply (bits_done s); auto; unfold byte; lia|].
      eexists _, _, [0]. split; [reflexivity|]. split; [exact P2|]. split; [exact P1|]. split; [|repeat split; reflexivity].
      exists [], H. split; [exact F1|]. cbn [length shift_out fst n_eol n_out n_fill]. rewrite Z.add_0_r, Z.mod_small by (apply (h_o _ _ _ F1)). split; [exact F2|]. split; [eauto|]. split; [exact F4|].
      split; [unfold level in *; cbn [n_st shift_out fst st t_in t_minfill t_out t_flow] in *; lia|]. split; [exact F6|].
      intros N O2 HI. rewrite <- app_assoc. apply F7. subst H. cbn [app] in *. apply ins_fill. exact HI.
    + assert (Hne : n_out s =? n_eol s = false). { apply Z.eqb_neq. rewrite F2. pose proof (h_o _ _ _ F1). pose proof (h_room _ _ _ F1) as RM. rewrite map_length, app_length in RM. cbn [length] in *. unfold BUF_LEN in *. Z.div_mod_to_equations. lia. }
      rewrite Hne. cbn [negb]. cbn [app map fst] in F1. destruct (held_take _ _ _ _ F1) as [G1 G2]. rewrite G1. cbn [rbind]. set (st := mk_stats _ _ _ _ _). rewrite land_ring.
      cbn [app] in F6. apply Forall_cons_iff in F6 as [F6 F6']. cbn [fst] in F6. assert (0 <= y) by (unfold byte in F6; lia).
      destruct (shift_out_ok s y 8 ((n_out s + 1) mod BUF_LEN) st (O ++ [y]) outs) as [P1 P2]; auto; try lia; [apply (bits_done s); auto|].
      eexists _, _, [y]. split; [reflexivity|]. split; [exact P2|]. split; [exact P1|]. split; [|repeat split; reflexivity].
      exists R, H. split; [exact G2|]. cbn [shift_out fst n_eol n_out n_fill]. split; [rewrite F2; cbn [length]; unfold BUF_LEN; Z.div_mod_to_equations; lia|]. split; [eauto|]. split; [exact F4|].
      split; [unfold level in *; cbn [n_st shift_out fst st t_in t_minfill t_out t_flow length app] in *; lia|]. split; [exact F6'|].
      intros N O2 HI. rewrite <- app_assoc. apply F7. cbn [app]. apply ins_oct. exact HI.
  - destruct (shift_out_ok s (n_octet s) (n_bitno s) (n_out s) (n_st s) O outs) as [P1 P2]; auto; try lia.
    eexists _, _, []. rewrite !app_nil_r. split; [reflexivity|]. split; [exact P2|]. split; [exact P1|]. split; [|repeat split; reflexivity].
    exists R, H. split; [exact F1|]. split; [exact F2|]. split; [eauto|]. split; [exact F4|]. split; [exact F5|]. split; [exact F6|]. exact F7.
Qed.
(** ready for new data *)
Definition Fresh (image : bool) (m : Z) (s : nes) : Prop :=
  Idle s /\ n_bitno s = 0 /\ 0 <= n_octet s /\ n_fin s = false /\ n_bs s = 0xFFFF /\ n_phase s = (if image then IMAGE_WAITING else TCF_ONES) /\ n_image s = image /\ n_min s = m.
(** after the end of the data has been signalled *)
Lemma drain n : forall s L O outs, n_fin s = true -> held (n_ring s) (n_out s) L -> bytes L -> n_eol s = q_in (n_ring s) -> Bits s O outs -> Z.of_nat n = n_bitno s + 8 * Z.of_nat (length L) -> level s = Z.of_nat (length L) ->
  exists s' l, run s (repeat Get (S n)) = Ok (s', l ++ [END_OF_DATA]) /\ Fresh (n_image s) (n_min s) s' /\ outs ++ l = map Z.b2z (unpack_msb (O ++ L)).
Proof.
  induction n as [|n IH]; intros s L O outs Hf HH HL He HB Hn Hlv.
  - pose proof HB as (B1 & B2 & B3). assert (L = []) by (destruct L; auto; cbn [length] in Hn; lia). subst L. cbn [repeat run]. unfold get_bit. destruct (Z.leb_spec (n_bitno s) 0); [|lia].
    rewrite He. pose proof (h_in _ _ _ HH) as E. cbn [length] in E. rewrite Z.add_0_r, Z.mod_small in E by (apply (h_o _ _ _ HH)). rewrite E, Z.eqb_refl, Hf. cbn [negb rbind].
    eexists _, []. split; [reflexivity|]. split.
    { unfold Fresh, Idle, restart_buffer. cbn [n_ring n_out n_eol n_fill n_bitno n_octet n_fin n_bs n_phase n_image n_min]. repeat (split; [lia || reflexivity || idtac|]); try reflexivity; try lia; try exact Hlv.
      pose proof (h_len _ _ _ HH). constructor; cbn [q_data q_in length]; unfold BUF_LEN in *; auto; try lia; intros; lia. }
    rewrite !app_nil_r, B3. unfold remaining. replace (Z.to_nat (n_bitno s)) with 0%nat by lia. cbn [firstn map]. rewrite app_nil_r. reflexivity.
  - pose proof HB as (B1 & B2 & B3). change (repeat Get (S (S n))) with (Get :: repeat Get (S n)). set (ops := repeat Get (S n)) in *. cbn [run]. unfold get_bit. destruct (Z.leb_spec (n_bitno s) 0).
    + destruct L as [|y L]; [cbn [length] in Hn; lia|]. destruct (held_take _ _ _ _ HH) as [G1 G2].
      assert (Hne : n_out s =? n_eol s = false). { apply Z.eqb_neq. rewrite He, (h_in _ _ _ HH). pose proof (h_o _ _ _ HH). pose proof (h_room _ _ _ HH) as RM. cbn [length] in *. unfold BUF_LEN in *. Z.div_mod_to_equations. lia. }
      rewrite Hne. cbn [negb]. rewrite G1. cbn [rbind]. set (st := mk_stats _ _ _ _ _). rewrite land_ring. apply Forall_cons_iff in HL as [Hy HL]. assert (0 <= y) by (unfold byte in Hy; lia).
      destruct (shift_out_ok s y 8 ((n_out s + 1) mod BUF_LEN) st (O ++ [y]) outs) as [P1 P2]; auto; try lia; [apply (bits_done s); auto|].
      destruct (shift_out s y 8 ((n_out s + 1) mod BUF_LEN) st) as [s1 b] eqn:ES. cbn [rbind fst snd] in *. unfold shift_out in ES. inversion ES as [[Es Eb]]. rewrite Es, Eb in *.
      destruct (IH s1 L (O ++ [y]) (outs ++ [b])) as (s2 & l & R1 & RF & R2); try (rewrite <- Es; cbn [n_fin n_ring n_out n_eol n_bitno]; auto; fail); auto.
      { rewrite <- Es. cbn [n_bitno length] in *. lia. }
      { rewrite <- Es. unfold level in *. try subst st. cbn [n_st length t_in t_minfill t_out t_flow] in *. lia. }
      rewrite R1. cbn [rbind]. exists s2, (b :: l). split; [reflexivity|]. split; [rewrite <- Es in RF; exact RF|]. rewrite <- !app_assoc in R2. exact R2.
    + destruct (shift_out_ok s (n_octet s) (n_bitno s) (n_out s) (n_st s) O outs) as [P1 P2]; auto; try lia.
      destruct (shift_out s (n_octet s) (n_bitno s) (n_out s) (n_st s)) as [s1 b] eqn:ES. cbn [rbind fst snd] in *. unfold shift_out in ES. inversion ES as [[Es Eb]]. rewrite Es, Eb in *.
      destruct (IH s1 L O (outs ++ [b])) as (s2 & l & R1 & RF & R2); try (rewrite <- Es; cbn [n_fin n_ring n_out n_eol n_bitno]; auto; fail); auto.
      { rewrite <- Es. cbn [n_bitno length] in *. lia. }
      rewrite R1. cbn [rbind]. exists s2, (b :: l). split; [reflexivity|]. split; [rewrite <- Es in RF; exact RF|]. rewrite <- !app_assoc in R2. exact R2.
Qed.

(** ---- data in ---- *)
Lemma fill_mono m f : forall q row c q' row' c', fill_row f q row m c = Ok (q', row', c') -> c <= c'.
Proof.
  induction f as [|f IHf]; intros q row c q' row' c' HF; cbn [fill_row] in HF; destruct (m <=? row); inversion HF; try lia; subst.
  destruct (ring_put q 0); [|discriminate]. cbn [rbind] in HF. apply IHf in HF. lia.
Qed.
Lemma level_mono s b s' : inject_octet s b = Ok s' -> level s <= level s'.
Proof.
  unfold inject_octet. destruct (n_phase s =? TCF_ONES); [destruct (b =? 255); [intros H; inversion H; lia|]|destruct (n_phase s =? TCF_ZEROS); [|destruct (n_phase s =? IMAGE_WAITING)]].
  1,2: unfold inject_tcf; destruct (ring_put (n_ring s) b); [|discriminate]; cbn [rbind]; intros H; inversion H; unfold level; cbn [n_st t_in t_minfill t_out t_flow]; lia.
  - unfold inject_waiting. destruct (negb (b =? 0) && eol_here (n_bs s) b)%bool; [|intros H; inversion H; unfold level; cbn [n_st]; lia].
    destruct (ring_put (n_ring s) 0) as [q|]; [|discriminate]. cbn [rbind]. destruct (ring_put q 0) as [q1|]; [|discriminate]. cbn [rbind]. destruct (ring_put q1 b); [|discriminate]. cbn [rbind].
    intros H; inversion H. unfold level. cbn [n_st t_in t_minfill t_out t_flow]. lia.
  - unfold inject_going. destruct (negb (b =? 0) && eol_here (n_bs s) b)%bool.
    + cbn zeta. set (row := n_row s + (8 - top_bit b)). destruct ((row <? 12) || (13 <? row))%bool.
      * destruct (fill_row _ _ _ _ _) as [[[q r] c]|] eqn:EF; [|discriminate]. apply fill_mono in EF. cbn [rbind]. destruct (ring_put q b); [|discriminate]. cbn [rbind].
        intros H; inversion H. unfold level. cbn [n_st t_in t_minfill t_out t_flow]. lia.
      * cbn [rbind]. destruct (ring_put (n_ring s) b); [|discriminate]. cbn [rbind]. intros H; inversion H. unfold level. cbn [n_st t_in t_minfill t_out t_flow]. lia.
    + cbn [rbind]. destruct (ring_put (n_ring s) b); [|discriminate]. cbn [rbind]. intros H; inversion H. unfold level. cbn [n_st t_in t_minfill t_out t_flow]. lia.
Qed.

Definition Img (m : Z) (inp : list Z) (s : nes) (outs : list Z) : Prop := exists O,
  Bits s O outs /\ n_fin s = false /\ n_min s = m /\ bytes inp /\
  ((n_phase s = IMAGE_WAITING /\ Idle s /\ (exists k, O = repeat 255 k) /\
    exists z row, 0 <= z /\ zbs z (n_bs s) /\ forall t, rows_of 0 [] (unpack_msb inp ++ t) = rows_of z row t) \/
   (n_phase s = IMAGE_GOING /\ exists k O' pre b post junk, O = repeat 255 k ++ O' /\ inp = pre ++ b :: post /\ byte b /\ b <> 0 /\
    (forall t, rows_of 0 [] (unpack_msb (pre ++ [b]) ++ t) = let '(rs, tl) := rows_of (bottom_bit b) (low b) t in (junk :: rs, tl)) /\
    Flow s O' ([(0, true); (0, false); (b, false)] ++ marks m (bottom_bit b) (top_bit b - 8) post) /\
    zbs (end_z (bottom_bit b) post) (n_bs s) /\ n_row s = end_r (bottom_bit b) (top_bit b - 8) post /\ 0 <= end_z (bottom_bit b) post)).

Lemma map_fst_rep n : map fst (repeat (0, false) n) = repeat 0 n.
Proof. induction n; cbn [repeat map fst]; congruence. Qed.
Lemma flow_put s O W q b : Flow s O W -> ring_put (n_ring s) b = Ok q -> level s + 1 < BUF_LEN -> byte b ->
  exists R H, held q (n_out s) (map fst (R ++ H ++ [(b, false)])) /\ n_eol s = (n_out s + Z.of_nat (length R)) mod BUF_LEN /\ (exists x H', H = (x, true) :: H') /\
  n_fill s = 0 /\ level s = Z.of_nat (length (R ++ H)) /\ Forall (fun p => byte (fst p)) (R ++ H ++ [(b, false)]) /\
  forall N O2, Ins (R ++ (H ++ [(b, false)]) ++ N) O2 -> Ins ((W ++ [(b, false)]) ++ N) (O ++ O2).
Proof.
  intros (R & H & F1 & F2 & F3 & F4 & F5 & F6 & F7) HP Hl Hb. exists R, H.
  destruct (held_put _ _ _ b F1) as (q' & E & G); [rewrite map_length; lia|]. assert (q' = q) by congruence. subst q'.
  split; [rewrite app_assoc, map_app; exact G|]. split; auto. split; auto. split; auto. split; auto. split; [rewrite app_assoc; apply Forall_app; split; auto|].
  intros N O2 HI. rewrite <- app_assoc. apply F7. rewrite <- app_assoc in HI. exact HI.
Qed.
Lemma inject_img m inp s outs b s1 : Img m inp s outs -> byte b -> inject_octet s b = Ok s1 -> level s1 < BUF_LEN -> Img m (inp ++ [b]) s1 outs.
Proof.
  intros (O & HB & Hf & Hm & Hi & HC) Hb HI Hl. pose proof (level_mono _ _ _ HI) as Hmono. assert (Hi' : bytes (inp ++ [b])) by (apply Forall_app; split; auto).
  exists O. unfold inject_octet in HI. destruct HC as [(HP & HId & HO & z & row & Hz & Hbs & Hrows) | (HP & k & O' & pre & b0 & post & junk & HO & Hinp & Hb0 & Hn0 & Hrows & HF & Hbs & Hrow & Hz)].
  - rewrite HP in HI. cbn [Z.eqb TCF_ONES TCF_ZEROS IMAGE_WAITING Pos.eqb] in HI. unfold inject_waiting in HI. destruct (Z.eqb_spec b 0) as [E0|E0]; cbn [negb andb] in HI.
    + inversion HI as [Hs1]. clear HI. split; [exact HB|]. split; [exact Hf|]. split; [exact Hm|]. split; auto. left. split; [exact HP|]. split; [exact HId|]. split; [exact HO|].
      exists (z + 8), (row ++ repeat false 8). split; [lia|]. split.
      { cbn [n_bs]. pose proof (zbs_push z (n_bs s) b Hbs Hb Hz) as Q. unfold next_z in Q. rewrite E0 in Q at 1. exact Q. }
      intros t. rewrite unpack_msb_app, <- app_assoc, Hrows. unfold unpack_msb. cbn [flat_map]. rewrite app_nil_r, E0. apply rows_zero.
    + rewrite (eol_here_ok z) in HI by auto. destruct (octet_split b Hb E0) as (E & E1 & E2 & E3 & E4). pose proof (zbs_push z (n_bs s) b Hbs Hb Hz) as Q. unfold next_z in Q. destruct (Z.eqb_spec b 0); [lia|].
      destruct (Z.leb_spec 11 (z + lead b)) as [HE|HE].
      * destruct HId as (I1 & I2 & I3 & I4). destruct (held_put _ _ _ 0 I1) as (q1 & Eq1 & G1); [cbn [length]; unfold BUF_LEN; lia|]. rewrite Eq1 in HI. cbn [rbind] in HI.
        destruct (held_put _ _ _ 0 G1) as (q2 & Eq2 & G2); [cbn [length app]; unfold BUF_LEN; lia|]. rewrite Eq2 in HI. cbn [rbind] in HI.
        destruct (held_put _ _ _ b G2) as (q3 & Eq3 & G3); [cbn [length app]; unfold BUF_LEN; lia|]. rewrite Eq3 in HI. cbn [rbind] in HI. inversion HI as [Hs1]. clear HI.
        split; [exact HB|]. split; [exact Hf|]. split; [exact Hm|]. split; auto. right. split; [reflexivity|]. destruct HO as (k & HO). exists k, [], inp, b, [], (row ++ repeat false (Z.to_nat (lead b)) ++ [true]).
        rewrite app_nil_r. split; auto. split; auto. split; auto. split; auto. split.
        { intros t. rewrite unpack_msb_app, <- app_assoc, Hrows. unfold unpack_msb at 1. cbn [flat_map]. rewrite app_nil_r, rows_octet by auto. destruct (Z.leb_spec 11 (z + lead b)); [reflexivity|lia]. }
        cbn [marks end_z end_r n_bs n_row app]. split; [|split; [exact Q|split; [reflexivity|lia]]].
        exists [], [(0, true); (0, false); (b, false)]. cbn [app map fst length]. split; [exact G3|]. split.
        { cbn [n_eol n_out]. rewrite (h_in _ _ _ I1). reflexivity. }
        split; [eauto|]. split; [reflexivity|]. split; [unfold level in *; cbn [n_st t_in t_minfill t_out t_flow] in *; lia|]. split; [do 3 (apply Forall_cons; [cbn [fst]; unfold byte in *; lia|]); apply Forall_nil|].
        intros N O2 H2. exact H2.
      * inversion HI as [Hs1]. clear HI. split; [exact HB|]. split; [exact Hf|]. split; [exact Hm|]. split; auto. left. split; [exact HP|]. split; [exact HId|]. split; [exact HO|].
        exists (bottom_bit b), (row ++ bits_msb 8 b). split; [lia|]. split; [exact Q|].
        intros t. rewrite unpack_msb_app, <- app_assoc, Hrows. unfold unpack_msb. cbn [flat_map]. rewrite app_nil_r, rows_octet by auto. destruct (Z.leb_spec 11 (z + lead b)); [lia|reflexivity].
  - rewrite HP in HI. cbn [Z.eqb TCF_ONES TCF_ZEROS IMAGE_WAITING IMAGE_GOING Pos.eqb] in HI. unfold inject_going in HI. set (z := end_z (bottom_bit b0) post) in *. set (r := end_r (bottom_bit b0) (top_bit b0 - 8) post) in *.
    pose proof (zbs_push z (n_bs s) b Hbs Hb Hz) as Q. pose proof (next_z_pos z b Hb Hz) as Hz'.
    assert (HE : (negb (b =? 0) && eol_here (n_bs s) b)%bool = is_eol z b). { unfold is_eol. destruct (Z.eqb_spec b 0); cbn [negb andb]; auto. apply eol_here_ok; auto. }
    rewrite HE, Hrow, Hm in HI. clear HE.
    assert (Goal : exists q eol row rows mf, s1 = mk_nes (n_image s) m q (n_out s) eol (row + 8) (bs_push (n_bs s) b) (n_fill s) (n_phase s) (n_fin s) (n_octet s) (n_bitno s) (mk_stats (t_in (n_st s) + 1) rows mf (t_out (n_st s)) (t_flow (n_st s))) /\
       row + 8 = next_r z r b /\ Flow s1 O' (([(0, true); (0, false); (b0, false)] ++ marks m (bottom_bit b0) (top_bit b0 - 8) post) ++ items m z r b)).
    { unfold items, next_r. destruct (is_eol z b) eqn:Eeol.
      - cbn zeta in HI. set (row := r + (8 - top_bit b)) in *. assert (Eb : ((row <? 12) || (13 <? row))%bool = negb (b2b row)) by (unfold b2b; lia). rewrite Eb in HI.
        destruct (b2b row); cbn [negb] in HI.
        + cbn [rbind] in HI. destruct (ring_put (n_ring s) b) as [q|] eqn:EQ; [|discriminate HI]. cbn [rbind] in HI. inversion HI as [Hs1]. clear HI.
          eexists q, _, _, _, _. split; [reflexivity|]. split; [lia|]. rewrite <- Hs1 in *. destruct (flow_put s O' _ q b HF EQ) as (R & H & F1 & F2 & F3 & F4 & F5 & F6 & F7); auto.
          { unfold level in *. cbn [n_st t_in t_minfill t_out t_flow] in *. lia. }
          exists R, (H ++ [(b, false)]). split; [exact F1|]. split; [exact F2|]. split; [destruct F3 as (x & H' & ->); eexists _, _; reflexivity|]. split; [exact F4|]. split; [|split; [exact F6|exact F7]].
          unfold level in *. cbn [n_st t_in t_minfill t_out t_flow] in *. rewrite !app_length in *. cbn [length]. lia.
        + destruct (fill_row _ _ _ _ _) as [[[q r2] c]|] eqn:EF; [|discriminate]. pose proof (fill_mono _ _ _ _ _ _ _ _ EF) as Mono. cbn [rbind] in HI. destruct (ring_put q b) as [q2|] eqn:EQ; [|discriminate]. cbn [rbind] in HI. inversion HI as [Hs1]. clear HI.
          rewrite <- Hs1 in Hl. unfold level in Hl. cbn [n_st t_in t_minfill t_out t_flow] in Hl.
          destruct HF as (R & H & F1 & F2 & F3 & F4 & F5 & F6 & F7). unfold level in F5. destruct (held_fill _ _ _ _ _ _ _ _ _ _ F1 EF) as [G1 G2]; [rewrite map_length; lia|].
          destruct (held_put _ _ _ b G2) as (q3 & E3 & G3); [rewrite app_length, map_length, repeat_length; lia|]. assert (q3 = q2) by congruence. subst q3.
          eexists q2, _, _, _, _. split; [reflexivity|]. split; [lia|]. rewrite G1 in *.
          exists (R ++ H ++ repeat (0, false) (Z.to_nat (short_by m row))), [(b, true)]. cbn [n_ring n_out n_eol n_fill]. split.
          { replace (map fst _) with ((map fst (R ++ H) ++ repeat 0 (Z.to_nat (short_by m row))) ++ [b]); [exact G3|]. rewrite !map_app, map_fst_rep. cbn [map fst]. rewrite <- !app_assoc. reflexivity. }
          split. { rewrite (h_in _ _ _ G2). f_equal. rewrite !app_length, map_length, !app_length, !repeat_length. lia. }
          split; [eexists _, _; reflexivity|]. split; [exact F4|]. split. { unfold level. cbn [n_st t_in t_minfill t_out t_flow]. rewrite !app_length, repeat_length in *. cbn [length]. lia. }
          split. { apply Forall_app. split; [|apply Forall_cons; [exact Hb|apply Forall_nil]]. rewrite app_assoc. apply Forall_app. split; [exact F6|]. apply Forall_forall. intros p Hp. apply repeat_spec in Hp. subst p. cbn [fst]. unfold byte. lia. }
          intros N O2 HI. rewrite <- !app_assoc in *. apply F7. exact HI.
      - cbn [rbind] in HI. destruct (ring_put (n_ring s) b) as [q|] eqn:EQ; [|discriminate HI]. cbn [rbind] in HI. inversion HI as [Hs1]. clear HI.
        eexists q, _, _, _, _. split; [reflexivity|]. split; [lia|]. rewrite <- Hs1 in *. destruct (flow_put s O' _ q b HF EQ) as (R & H & F1 & F2 & F3 & F4 & F5 & F6 & F7); auto.
        { unfold level in *. cbn [n_st t_in t_minfill t_out t_flow] in *. lia. }
        exists R, (H ++ [(b, false)]). split; [exact F1|]. split; [exact F2|]. split; [destruct F3 as (x & H' & ->); eexists _, _; reflexivity|]. split; [exact F4|]. split; [|split; [exact F6|exact F7]].
        unfold level in *. cbn [n_st t_in t_minfill t_out t_flow] in *. rewrite !app_length in *. cbn [length]. lia. }
    destruct Goal as (q & eol & row & rows & mf & Es1 & G1 & G2). rewrite <- app_assoc in G2.
    split; [subst s1; exact HB|]. split; [subst s1; exact Hf|]. split; [subst s1; reflexivity|]. split; auto. right. split; [subst s1; exact HP|].
    exists k, O', pre, b0, (post ++ [b]), junk. split; auto. split; [subst inp; rewrite <- app_assoc; reflexivity|]. split; auto. split; auto. split; auto. rewrite marks_app, end_z_app, end_r_app. fold z r. cbn [marks end_z end_r].
    rewrite app_nil_r. split; [exact G2|]. split; [subst s1; exact Q|]. split; [subst s1; exact G1|exact Hz'].
Qed.

(** ---- training data ---- *)
Definition all_marked (l : list Z) : list item := map (fun b => (b, true)) l.
Definition Tcf (inp : list Z) (s : nes) (outs : list Z) : Prop := exists O,
  Bits s O outs /\ n_fin s = false /\ bytes inp /\
  ((n_phase s = TCF_ONES /\ Idle s /\ (exists k, O = repeat 255 k) /\ skip_ones inp = []) \/
   (n_phase s = TCF_ZEROS /\ exists k O', O = repeat 255 k ++ O' /\ skip_ones inp <> [] /\ Flow s O' (all_marked (skip_ones inp)))).
Lemma skip_app l b : skip_ones (l ++ [b]) = match skip_ones l with [] => skip_ones [b] | r => r ++ [b] end.
Proof. induction l as [|x l IH]; cbn [app skip_ones]; auto. destruct (x =? 255); auto. Qed.
Lemma inject_tcf_ok inp s outs b s1 : Tcf inp s outs -> byte b -> inject_octet s b = Ok s1 -> level s1 < BUF_LEN -> Tcf (inp ++ [b]) s1 outs.
Proof.
  intros (O & HB & Hf & Hi & HC) Hb HI Hl. assert (Hi' : bytes (inp ++ [b])) by (apply Forall_app; split; auto). unfold inject_octet in HI.
  destruct HC as [(HP & (I1 & I2 & I3 & I4) & HO & HS) | (HP & k & O' & HO & HS & R & H & F1 & F2 & F3 & F4 & F5 & F6 & F7)]; rewrite HP in HI; cbn [Z.eqb TCF_ONES TCF_ZEROS] in HI.
  - destruct (Z.eqb_spec b 255) as [E|E].
    + inversion HI. subst s1. exists O. split; auto. split; auto. split; auto. left. split; auto. split; [split; [exact I1|auto]|]. split; auto. rewrite skip_app, HS, E. reflexivity.
    + unfold inject_tcf in HI. destruct (held_put _ _ _ b I1) as (q & Eq & G); [cbn [length]; unfold BUF_LEN; lia|]. rewrite Eq in HI. cbn [rbind] in HI. inversion HI as [Hs1]. clear HI.
      exists O. split; [exact HB|]. split; [exact Hf|]. split; auto. right. split; [reflexivity|]. destruct HO as (k & HO). exists k, []. rewrite app_nil_r. split; auto. rewrite skip_app, HS. cbn [skip_ones].
      destruct (Z.eqb_spec b 255); [lia|]. split; [discriminate|]. exists [], [(b, true)]. cbn [app map fst length all_marked]. split; [exact G|]. split; [cbn [n_eol n_out]; rewrite (h_in _ _ _ I1); reflexivity|].
      split; [eauto|]. split; [reflexivity|]. split; [unfold level in *; cbn [n_st t_in t_minfill t_out t_flow] in *; lia|]. split; [apply Forall_cons; [exact Hb|apply Forall_nil]|]. intros N O2 H2. exact H2.
  - unfold inject_tcf in HI. destruct (ring_put (n_ring s) b) as [q|] eqn:EQ; [|discriminate]. cbn [rbind] in HI. inversion HI as [Hs1]. clear HI.
    rewrite <- Hs1 in Hl. unfold level in Hl, F5. cbn [n_st t_in t_minfill t_out t_flow] in Hl. destruct (held_put _ _ _ b F1) as (q' & E & G); [rewrite map_length; lia|]. assert (q' = q) by congruence. subst q'.
    exists O. split; [exact HB|]. split; [exact Hf|]. split; auto. right. split; [reflexivity|]. exists k, O'. split; auto. rewrite skip_app. destruct (skip_ones inp) as [|y l] eqn:EL; [congruence|]. split; [discriminate|].
    exists (R ++ H), [(b, true)]. split; [rewrite map_app; exact G|]. split; [cbn [n_eol n_out]; rewrite (h_in _ _ _ F1), map_length; reflexivity|]. split; [eauto|]. split; [exact F4|].
    split; [unfold level in *; cbn [n_st t_in t_minfill t_out t_flow]; rewrite app_length; cbn [length]; lia|]. split; [apply Forall_app; split; [exact F6|apply Forall_cons; [exact Hb|apply Forall_nil]]|].
    intros N O2 H2. unfold all_marked in *. rewrite map_app. cbn [map]. rewrite <- !app_assoc in *. apply F7. exact H2.
Qed.
Lemma get_tcf inp s outs : Tcf inp s outs -> exists s' b, get_bit s = Ok (s', b) /\ Tcf inp s' (outs ++ [b]) /\ same s s'.
Proof.
  intros (O & HB & Hf & Hi & [(HP & HId & (k & HO) & HS) | (HP & k & O' & HO & HS & HF)]).
  - destruct (get_idle s O outs HId HB Hf) as (s' & b & O1 & E & _ & HB' & HO1 & HId' & SS). exists s', b. split; auto. split; auto. destruct SS as (S1 & S2 & S3 & S4 & S5 & S6). exists (O ++ O1).
    split; auto. split; [congruence|]. split; auto. left. split; [congruence|]. split; auto. split; auto.
    subst O. destruct HO1; subst O1; [exists k; apply app_nil_r|exists (S k)]. change [255] with (repeat 255 1). rewrite <- repeat_app. f_equal. lia.
  - destruct (get_flow s O O' _ outs HF HB Hf) as (s' & b & O1 & E & _ & HB' & HF' & SS). exists s', b. split; auto. split; auto. destruct SS as (S1 & S2 & S3 & S4 & S5 & S6). exists (O ++ O1).
    split; auto. split; [congruence|]. split; auto. right. split; [congruence|]. exists k, (O' ++ O1). subst O. rewrite <- app_assoc. auto.
Qed.
Lemma get_img m inp s outs : Img m inp s outs -> exists s' b, get_bit s = Ok (s', b) /\ Img m inp s' (outs ++ [b]) /\ same s s'.
Proof.
  intros (O & HB & Hf & Hm & Hi & [(HP & HId & (k & HO) & z & row & Hz & Hbs & Hrows) | (HP & k & O' & pre & b0 & post & junk & HO & Hinp & Hb0 & Hn0 & Hrows & HF & Hbs & Hrow & Hz)]).
  - destruct (get_idle s O outs HId HB Hf) as (s' & b & O1 & E & _ & HB' & HO1 & HId' & SS). exists s', b. split; auto. split; auto. destruct SS as (S1 & S2 & S3 & S4 & S5 & S6). exists (O ++ O1).
    split; auto. split; [congruence|]. split; [congruence|]. split; auto. left. split; [congruence|]. split; auto. split.
    + subst O. destruct HO1; subst O1; [exists k; apply app_nil_r|exists (S k)]. change [255] with (repeat 255 1). rewrite <- repeat_app. f_equal. lia.
    + exists z, row. rewrite S4. auto.
  - destruct (get_flow s O O' _ outs HF HB Hf) as (s' & b & O1 & E & _ & HB' & HF' & SS). exists s', b. split; auto. split; auto. destruct SS as (S1 & S2 & S3 & S4 & S5 & S6). exists (O ++ O1).
    split; auto. split; [congruence|]. split; [congruence|]. split; auto. right. split; [congruence|]. exists k, (O' ++ O1), pre, b0, post, junk. rewrite S4, S3. subst O. rewrite <- app_assoc. repeat (split; [assumption || reflexivity|]). auto.
Qed.

(** ---- whole runs ---- *)
Lemma inject_same s b s' : inject_octet s b = Ok s' -> n_image s' = n_image s /\ n_min s' = n_min s.
Proof.
  unfold inject_octet. destruct (n_phase s =? TCF_ONES); [destruct (b =? 255); [intros H; inversion H; auto|]|destruct (n_phase s =? TCF_ZEROS); [|destruct (n_phase s =? IMAGE_WAITING)]].
  1,2: unfold inject_tcf; destruct (ring_put (n_ring s) b); [|discriminate]; cbn [rbind]; intros H; inversion H; auto.
  - unfold inject_waiting. destruct (negb (b =? 0) && eol_here (n_bs s) b)%bool; [|intros H; inversion H; auto].
    destruct (ring_put (n_ring s) 0) as [q|]; [|discriminate]. cbn [rbind]. destruct (ring_put q 0) as [q1|]; [|discriminate]. cbn [rbind]. destruct (ring_put q1 b); [|discriminate]. cbn [rbind].
    intros H; inversion H. auto.
  - unfold inject_going. destruct (negb (b =? 0) && eol_here (n_bs s) b)%bool.
    + cbn zeta. set (row := n_row s + (8 - top_bit b)). destruct ((row <? 12) || (13 <? row))%bool.
      * destruct (fill_row _ _ _ _ _) as [[[q r] c]|] eqn:EF; [|discriminate]. cbn [rbind]. destruct (ring_put q b); [|discriminate]. cbn [rbind]. intros H; inversion H. auto.
      * cbn [rbind]. destruct (ring_put (n_ring s) b); [|discriminate]. cbn [rbind]. intros H; inversion H. auto.
    + cbn [rbind]. destruct (ring_put (n_ring s) b); [|discriminate]. cbn [rbind]. intros H; inversion H. auto.
Qed.
Lemma inject_mono buf : forall s s', inject s buf = Ok s' -> level s <= level s'.
Proof.
  induction buf as [|b t IH]; intros s s' H; cbn [inject] in H; [inversion H; lia|]. destruct (inject_octet s b) as [s1|] eqn:E; [|discriminate]. cbn [rbind] in H.
  apply IH in H. apply level_mono in E. lia.
Qed.
Section Runs.
Variable P : list Z -> nes -> list Z -> Prop.
Hypothesis P_inject : forall inp s outs b s1, P inp s outs -> byte b -> inject_octet s b = Ok s1 -> level s1 < BUF_LEN -> P (inp ++ [b]) s1 outs.
Hypothesis P_get : forall inp s outs, P inp s outs -> exists s' b, get_bit s = Ok (s', b) /\ P inp s' (outs ++ [b]) /\ same s s'.
Lemma inject_all buf : forall inp s outs s1, P inp s outs -> bytes buf -> inject s buf = Ok s1 -> level s1 < BUF_LEN -> P (inp ++ buf) s1 outs /\ n_image s1 = n_image s /\ n_min s1 = n_min s.
Proof.
  induction buf as [|b t IH]; intros inp s outs s1 HI Hb H Hl; cbn [inject] in H; [inversion H; subst; rewrite app_nil_r; auto|].
  destruct (inject_octet s b) as [s2|] eqn:E; [|discriminate]. cbn [rbind] in H. apply Forall_cons_iff in Hb as [Hb Ht]. pose proof (inject_mono _ _ _ H). destruct (inject_same _ _ _ E) as [<- <-].
  replace (inp ++ b :: t) with ((inp ++ [b]) ++ t) by (rewrite <- app_assoc; reflexivity). apply (IH _ s2); auto. apply (P_inject inp s); auto. lia.
Qed.
Lemma run_inv ops : forall inp s outs, P inp s outs -> fits s ops -> ~ In Push ops -> bytes (given ops) -> exists s' l, run s ops = Ok (s', l) /\ P (inp ++ given ops) s' (outs ++ l) /\ n_image s' = n_image s /\ n_min s' = n_min s.
Proof.
  induction ops as [|o ops IH]; intros inp s outs HI HF HN HB.
  - exists s, []. unfold given. cbn [flat_map]. rewrite !app_nil_r. auto.
  - destruct o as [buf| |]; cbn [fits run] in *.
    + destruct (inject s buf) as [s1|] eqn:E; [|contradiction]. destruct HF as [HF1 HF2]. change (given (Inject buf :: ops)) with (buf ++ given ops) in *. apply Forall_app in HB as [HB1 HB2].
      cbn [rbind]. rewrite app_assoc. destruct (inject_all buf inp s outs s1) as (G1 & <- & <-); auto. apply IH; auto. intros HH; apply HN; right; auto.
    + destruct (P_get _ _ _ HI) as (s1 & b & E & HI' & S1 & S2 & _). rewrite E in *. cbn [rbind]. change (given (Get :: ops)) with (given ops) in *. rewrite <- S1, <- S2.
      destruct (IH _ _ _ HI' HF) as (s2 & l & R & HI2 & S3); auto; [intros HH; apply HN; right; auto|]. rewrite R. cbn [rbind]. exists s2, (b :: l). split; auto. rewrite <- app_assoc in HI2. auto.
    + elim HN. left. auto.
Qed.
End Runs.
Lemma run_app a : forall s b, run s (a ++ b) = do (s1, l) <- run s a; do (s2, l2) <- run s1 b; Ok (s2, l ++ l2).
Proof.
  induction a as [|o a IH]; intros s b; cbn [app run rbind]; [destruct (run s b) as [[? ?]|]; reflexivity|]. destruct o.
  - destruct (inject s buf); cbn [rbind]; auto.
  - destruct (get_bit s) as [[s1 x]|]; cbn [rbind]; auto. rewrite IH. destruct (run s1 a) as [[s2 l]|]; cbn [rbind]; auto. destruct (run s2 b) as [[? ?]|]; reflexivity.
  - apply IH.
Qed.
Lemma push_drain s L O outs : held (n_ring s) (n_out s) L -> bytes L -> Bits s O outs -> level s = Z.of_nat (length L) ->
  exists n s' l, run s (Push :: repeat Get (S n)) = Ok (s', l ++ [END_OF_DATA]) /\ Fresh (n_image s) (n_min s) s' /\ outs ++ l = map Z.b2z (unpack_msb (O ++ L)).
Proof.
  intros HL Hb HB Hlv. set (n := Z.to_nat (n_bitno s + 8 * Z.of_nat (length L))). destruct (drain n (push s) L O outs) as (s' & l & R & E); [reflexivity|exact HL|exact Hb|reflexivity|exact HB|subst n; cbn [push n_bitno]; destruct HB; lia|exact Hlv|].
  exists n, s', l. split; auto.
Qed.
Lemma fst_bytes (W : list item) : Forall (fun p => byte (fst p)) W -> bytes (map fst W).
Proof. intros F. apply Forall_forall. intros x Hx. apply in_map_iff in Hx as ([y q] & <- & Hx). rewrite Forall_forall in F. apply (F _ Hx). Qed.
Lemma unpack_ones k : unpack_msb (repeat 255 k) = repeat true (8 * k).
Proof. induction k; [reflexivity|]. replace (8 * S k)%nat with (8 + 8 * k)%nat by lia. cbn [repeat]. rewrite unpack_msb_cons, IHk. reflexivity. Qed.
Lemma finish_img m inp s outs : Img m inp s outs -> exists n s' l O, run s (Push :: repeat Get (S n)) = Ok (s', l ++ [END_OF_DATA]) /\ Fresh (n_image s) (n_min s) s' /\ outs ++ l = map Z.b2z (unpack_msb O) /\ image_forwarded 8 m (unpack_msb inp) (unpack_msb O).
Proof.
  intros (O & HB & Hf & Hm & Hi & HC).
  destruct HC as [(HP & HId & (k & HO) & z & row & Hz & Hbs & Hrows) | (HP & k & O' & pre & b0 & post & junk & HO & Hinp & Hb0 & Hn0 & Hrows & HF & Hbs & Hrow & Hz)].
  - destruct HId as (I1 & _ & _ & I4). destruct (push_drain s [] O outs I1 (Forall_nil _) HB I4) as (n & s' & l & R & F & E). exists n, s', l, O. rewrite app_nil_r in E. split; auto. split; auto. split; auto. subst O.
    exists k, []. rewrite app_nil_r. split; [apply unpack_ones|].
    specialize (Hrows []). rewrite app_nil_r in Hrows. rewrite Hrows. reflexivity.
  - destruct HF as (R & H & F1 & F2 & F3 & F4 & F5 & F6 & F7). destruct (push_drain s _ O outs F1 (fst_bytes _ F6) HB) as (n & s' & l & RR & FF & E); [rewrite map_length; exact F5|].
    exists n, s', l, (O ++ map fst (R ++ H)). split; auto. split; auto. split; auto. pose proof (F7 [] (map fst (R ++ H))) as FI. rewrite !app_nil_r in FI. specialize (FI (ins_plain _)). set (rest := O' ++ map fst (R ++ H)) in *.
    subst O. rewrite <- app_assoc. fold rest. exists k, (unpack_msb rest).
    split; [rewrite unpack_msb_app; f_equal; apply unpack_ones|].
    cbn [app] in FI. apply ins_marked in FI as (c & O1 & E1 & FI). apply ins_unmarked in FI as (O2 & E2 & FI). apply ins_unmarked in FI as (O3 & E3 & FI).
    destruct (octet_split b0 Hb0 Hn0) as (Q & Q1 & Q2 & Q3 & Q4).
    assert (Hpost : bytes post). { subst inp. apply Forall_app in Hi as [_ Hi]. apply Forall_cons_iff in Hi. tauto. }
    destruct (forwarded m post Hpost (bottom_bit b0) (top_bit b0 - 8) 8 (low b0) O3) as (rs & rs' & tl & W1 & W2 & W3); [lia|lia|exact FI|].
    subst inp. replace (pre ++ b0 :: post) with ((pre ++ [b0]) ++ post) by (rewrite <- app_assoc; reflexivity). rewrite unpack_msb_app, Hrows, W1.
    assert (ER : unpack_msb rest = unpack_msb (repeat 0 (c + 2)) ++ bits_msb 8 b0 ++ unpack_msb O3). { rewrite E1, E2, E3, repeat_app, !unpack_msb_app. cbn [repeat]. rewrite !unpack_msb_cons, <- !app_assoc. reflexivity. }
    rewrite ER, rows_octets0, rows_octet by (auto; lia). destruct (Z.leb_spec 11 (0 + 8 * Z.of_nat (c + 2) + lead b0)); [|unfold lead in *; lia]. rewrite W2.
    exists (8 * (c + 2) + Z.to_nat (lead b0))%nat, rs'. cbn [app]. split; [|split; [lia|auto]]. rewrite app_assoc, <- repeat_app. reflexivity.
Qed.
Lemma ins_with_zeros l : forall O, Ins (all_marked l) O -> with_zeros l O.
Proof.
  intros O H. remember (all_marked l) as W eqn:E. revert l E. induction H; intros [|y l] E; try discriminate; unfold all_marked in E; cbn [map] in E; [constructor|..]; inversion E; subst; constructor; auto.
Qed.
Lemma finish_tcf inp s outs : Tcf inp s outs -> exists n s' l O, run s (Push :: repeat Get (S n)) = Ok (s', l ++ [END_OF_DATA]) /\ Fresh (n_image s) (n_min s) s' /\ outs ++ l = map Z.b2z (unpack_msb O) /\ tcf_forwarded inp (unpack_msb O).
Proof.
  intros (O & HB & Hf & Hi & [(HP & HId & (k & HO) & HS) | (HP & k & O' & HO & HS & R & H & F1 & F2 & F3 & F4 & F5 & F6 & F7)]).
  - destruct HId as (I1 & _ & _ & I4). destruct (push_drain s [] O outs I1 (Forall_nil _) HB I4) as (n & s' & l & R & F & E). exists n, s', l, O. rewrite app_nil_r in E. split; auto. split; auto. split; auto. subst O.
    exists k, []. rewrite app_nil_r. split; auto. rewrite HS. constructor.
  - destruct (push_drain s _ O outs F1 (fst_bytes _ F6) HB) as (n & s' & l & RR & FF & E); [rewrite map_length; exact F5|].
    exists n, s', l, (O ++ map fst (R ++ H)). split; auto. split; auto. split; auto. pose proof (F7 [] (map fst (R ++ H))) as FI. rewrite !app_nil_r in FI. specialize (FI (ins_plain _)).
    subst O. rewrite <- app_assoc. eexists k, _. split; [reflexivity|]. apply ins_with_zeros. exact FI.
Qed.

(** ---- from a buffer ready for new data ---- *)
Lemma fresh_img m s : Fresh true m s -> Img m [] s [].
Proof.
  intros (I & B & B' & F & BS & PH & IM & MI). exists []. split; [split; [lia|split; [exact B'|unfold remaining; rewrite B; reflexivity]]|]. split; auto. split; auto. split; [constructor|]. left. split; auto. split; auto.
  split; [exists 0%nat; reflexivity|]. exists 0, []. split; [lia|]. split; [rewrite BS; split; [lia|reflexivity]|reflexivity].
Qed.
Lemma fresh_tcf m s : Fresh false m s -> Tcf [] s [].
Proof.
  intros (I & B & B' & F & BS & PH & IM & MI). exists []. split; [split; [lia|split; [exact B'|unfold remaining; rewrite B; reflexivity]]|]. split; auto. split; [constructor|]. left. split; auto. split; auto.
  split; [exists 0%nat; reflexivity|]. reflexivity.
Qed.
Lemma page_out image m s ops : Fresh image m s -> bytes (given ops) -> ~ In Push ops -> fits s ops ->
  exists n s' bits, run s (ops ++ Push :: repeat Get n) = Ok (s', map Z.b2z bits ++ [END_OF_DATA]) /\ Fresh image m s' /\
    if image then image_forwarded 8 m (unpack_msb (given ops)) bits else tcf_forwarded (given ops) bits.
Proof.
  intros HF HB HN Hfit. pose proof HF as (_ & _ & _ & _ & _ & _ & IM & MI). destruct image.
  - destruct (run_inv (Img m) (inject_img m) (get_img m) ops [] s []) as (s1 & l & R & HI & S1 & S2); auto; [apply fresh_img; auto|].
    destruct (finish_img m _ s1 l HI) as (n & s' & l' & O & R' & FF & E & W). exists (S n), s', (unpack_msb O). rewrite run_app, R. cbn [rbind]. rewrite R'. cbn [rbind]. rewrite app_assoc, E. rewrite S1, S2, IM, MI in FF. auto.
  - destruct (run_inv Tcf inject_tcf_ok get_tcf ops [] s []) as (s1 & l & R & HI & S1 & S2); auto; [apply (fresh_tcf m); auto|].
    destruct (finish_tcf _ s1 l HI) as (n & s' & l' & O & R' & FF & E & W). exists (S n), s', (unpack_msb O). rewrite run_app, R. cbn [rbind]. rewrite R'. cbn [rbind]. rewrite app_assoc, E. rewrite S1, S2, IM, MI in FF. auto.
Qed.
Lemma fresh_init image m : Fresh image m (init image m).
Proof.
  unfold Fresh, init. split; [|cbn [n_bitno n_octet restart_buffer n_fin n_min n_phase n_image n_bs]; repeat (split; [reflexivity || lia|]); reflexivity].
  split; [|split; [reflexivity|split; reflexivity]]. constructor; cbn [n_ring restart_buffer q_data q_in n_out length]; [rewrite repeat_length; unfold BUF_LEN; lia|unfold BUF_LEN; lia|reflexivity|unfold BUF_LEN; lia|intros; lia].
Qed.
Lemma fresh_mode i m s image min : Fresh i m s -> Fresh image min (set_mode s image min).
Proof.
  intros ((I1 & I2 & I3 & I4) & B & B' & F & BS & PH & IM & MI). unfold set_mode. rewrite IM. destruct (Bool.eqb image i) eqn:E.
  - destruct image, i; try discriminate E; unfold Fresh, Idle; cbn [n_ring n_out n_eol n_fill n_bitno n_octet n_fin n_bs n_phase n_image n_min]; (split; [split; [exact I1|auto]|auto 10]).
  - unfold Fresh, Idle, restart_buffer. cbn [n_ring n_out n_eol n_fill n_bitno n_octet n_fin n_bs n_phase n_image n_min]. split; [|repeat (split; [lia || reflexivity || assumption|]); reflexivity]. split; [|split; [reflexivity|split; [reflexivity|exact I4]]].
    pose proof (h_len _ _ _ I1). constructor; cbn [q_data q_in length]; unfold BUF_LEN in *; auto; try lia; intros; lia.
Qed.
Definition exact_out (image : bool) (min : Z) (inp : list Z) (out : list bool) : Prop :=
  if image then image_forwarded 8 min (unpack_msb inp) out else tcf_forwarded inp out.
Lemma session_from (Q : bool -> Z -> list Z -> list bool -> Prop) : (forall image min inp out, exact_out image min inp out -> Q image min inp out) ->
  forall blocks i m s, Fresh i m s -> session Q s blocks.
Proof.
  intros HQ. induction blocks as [|[[image min] ops] rest IH]; intros i m s HF; cbn [session]; auto. intros HB HN Hfit. pose proof (fresh_mode i m s image min HF) as HM.
  destruct (page_out image min _ ops HM HB HN Hfit) as (n & s2 & bits & R & F2 & W). exists n, s2, bits. split; auto. split; [apply HQ; exact W|]. apply (IH image min). exact F2.
Qed.
Lemma rows_padded_intact off m : forall l l', rows_padded off m l l' -> Forall2 (fun r r' => exists a j, r = a ++ [true] /\ r' = a ++ repeat false (8 * j) ++ [true]) l l'.
Proof.
  assert (A : forall l l' off, rows_padded off m l l' -> Forall2 (fun r r' => exists a j, r = a ++ [true] /\ r' = a ++ repeat false (8 * j) ++ [true]) l l').
  { induction l as [|r l IH]; intros [|r' l'] o H; cbn [rows_padded] in H; try contradiction; constructor; destruct H as [(a & j & H1 & H2 & _) H]; eauto. }
  intros. eauto.
Qed.
Lemma forwarded_intact off m inp out : image_forwarded off m inp out -> image_intact inp out.
Proof.
  intros (k & rest & H1 & H2). exists k, rest. split; auto. destruct (rows_of 0 [] inp) as [[|r rows] tail]; auto. destruct H2 as (n & rows' & H2 & H3 & H4). exists n, rows'. split; auto. split; auto. apply (rows_padded_intact off m); auto.
Qed.
Lemma session_intact i m blocks : session (fun image min inp out => if image then image_intact (unpack_msb inp) out else tcf_forwarded inp out) (init i m) blocks.
Proof. refine (session_from _ _ blocks i m _ (fresh_init i m)). intros [] ? ? ? W; [apply (forwarded_intact _ _ _ _ W)|exact W]. Qed.
Lemma session_lengths i m blocks : session (fun image min inp out => image = true -> image_forwarded 8 min (unpack_msb inp) out) (init i m) blocks.
Proof. refine (session_from _ _ blocks i m _ (fresh_init i m)). intros [] ? ? ? W E; [exact W|discriminate E]. Qed.

(** ---- a buffer filled to the brim ---- *)
Lemma inject_zeros buf : forall s, n_phase s = TCF_ZEROS -> Z.of_nat (length (q_data (n_ring s))) = BUF_LEN -> 0 <= q_in (n_ring s) < BUF_LEN ->
  exists s', inject s buf = Ok s' /\ q_in (n_ring s') = (q_in (n_ring s) + Z.of_nat (length buf)) mod BUF_LEN /\ n_out s' = n_out s /\ n_bitno s' = n_bitno s.
Proof.
  induction buf as [|b t IH]; intros s HP HL Hq; cbn [inject length].
  - exists s. split; auto. rewrite Z.add_0_r, Z.mod_small by auto. auto.
  - unfold inject_octet. rewrite HP. cbn [Z.eqb TCF_ONES TCF_ZEROS]. unfold inject_tcf, ring_put, aset, in_bounds. destruct (Z.leb_spec 0 (q_in (n_ring s))); [|lia]. destruct (Z.ltb_spec (q_in (n_ring s)) (Z.of_nat (length (q_data (n_ring s))))); [|lia].
    cbn [andb rbind]. set (s1 := mk_nes _ _ _ _ _ _ _ _ _ _ _ _ _). destruct (IH s1) as (s' & E & E1 & E2 & E3); [reflexivity|subst s1; cbn [n_ring q_data]; rewrite upd_length; exact HL| |].
    + subst s1. cbn [n_ring q_in]. rewrite land_ring. apply Z.mod_pos_bound. reflexivity.
    + exists s'. split; auto. rewrite E1, E2, E3. split; auto. subst s1. cbn [n_ring q_in]. rewrite land_ring. unfold BUF_LEN. Z.div_mod_to_equations. lia.
Qed.
Lemma brim m x t : x <> 255 -> Z.of_nat (length (x :: t)) = BUF_LEN -> exists s, run (init false m) [Inject (x :: t); Push; Get] = Ok (s, [END_OF_DATA]).
Proof.
  intros Hx HL. cbn [run]. pose proof (fresh_init false m) as ((I1 & I2 & _) & B & _ & _ & _ & PH & _). cbn [inject]. unfold inject_octet. rewrite PH. cbn [Z.eqb TCF_ONES]. destruct (Z.eqb_spec x 255); [lia|].
  unfold inject_tcf. destruct (held_put _ _ _ x I1) as (q & E & G); [cbn [length]; unfold BUF_LEN; lia|]. rewrite E. cbn [rbind]. set (s1 := mk_nes _ _ _ _ _ _ _ _ _ _ _ _ _).
  pose proof (h_in _ _ _ G) as Gi. destruct (inject_zeros t s1) as (s' & E1 & E2 & E3 & E4); [reflexivity|exact (h_len _ _ _ G)|subst s1; cbn [n_ring]; rewrite Gi; apply Z.mod_pos_bound; reflexivity|].
  rewrite E1. cbn [rbind]. unfold get_bit. cbn [push n_bitno n_out n_eol n_fin]. rewrite E2, E3, E4. subst s1. cbn [n_bitno n_out n_ring]. rewrite B, Gi. cbn [app length]. change (n_out (init false m)) with 0. cbn [length] in HL. unfold BUF_LEN in *.
  replace (((0 + Z.of_nat 1) mod 16384 + Z.of_nat (length t)) mod 16384) with 0 by (Z.div_mod_to_equations; lia). cbn [Z.leb Z.compare Z.eqb negb rbind]. eexists. reflexivity.
Qed.

(** ---- nothing undefined, whatever the use ---- *)
Definition Sane (s : nes) : Prop := Z.of_nat (length (q_data (n_ring s))) = BUF_LEN /\ 0 <= q_in (n_ring s) < BUF_LEN /\ 0 <= n_out s < BUF_LEN.
Definition sane_ring (q : ring) : Prop := Z.of_nat (length (q_data q)) = BUF_LEN /\ 0 <= q_in q < BUF_LEN.
Lemma put_sane q b : sane_ring q -> exists q', ring_put q b = Ok q' /\ sane_ring q'.
Proof.
  intros [A B]. unfold ring_put, aset, in_bounds. destruct (Z.leb_spec 0 (q_in q)); [|lia]. destruct (Z.ltb_spec (q_in q) (Z.of_nat (length (q_data q)))); [|lia]. cbn [andb rbind]. eexists. split; [reflexivity|].
  split; cbn [q_data q_in]; [rewrite upd_length; exact A|]. rewrite land_ring. apply Z.mod_pos_bound. reflexivity.
Qed.
Lemma fill_sane m f : forall q row c, sane_ring q -> m - row <= Z.of_nat f -> exists q' row' c', fill_row f q row m c = Ok (q', row', c') /\ sane_ring q'.
Proof.
  induction f as [|f IH]; intros q row c HS Hf; cbn [fill_row]; destruct (Z.leb_spec m row); try (eexists _, _, _; split; [reflexivity|auto]; fail); [lia|].
  destruct (put_sane q 0 HS) as (q1 & E & HS1). rewrite E. cbn [rbind]. apply IH; auto. lia.
Qed.
Lemma inject_sane s b : Sane s -> exists s', inject_octet s b = Ok s' /\ Sane s'.
Proof.
  intros (A & B & C). assert (HR : sane_ring (n_ring s)) by (split; auto). unfold inject_octet.
  assert (T : forall p f, exists s', inject_tcf s p f b = Ok s' /\ Sane s'). { intros p f. unfold inject_tcf. destruct (put_sane _ b HR) as (q & E & Q1 & Q2). rewrite E. cbn [rbind]. eexists. split; [reflexivity|]. exact (conj Q1 (conj Q2 C)). }
  destruct (n_phase s =? TCF_ONES); [destruct (b =? 255); [exists s; split; [reflexivity|exact (conj A (conj B C))]|apply T]|]. destruct (n_phase s =? TCF_ZEROS); [apply T|]. clear T. destruct (n_phase s =? IMAGE_WAITING).
  - unfold inject_waiting. destruct (negb (b =? 0) && eol_here (n_bs s) b)%bool; [|eexists; split; [reflexivity|exact (conj A (conj B C))]].
    destruct (put_sane _ 0 HR) as (q & E & Q). rewrite E. cbn [rbind]. destruct (put_sane _ 0 Q) as (q1 & E1 & Q1). rewrite E1. cbn [rbind]. destruct (put_sane _ b Q1) as (q2 & E2 & Q2 & Q3). rewrite E2. cbn [rbind].
    eexists. split; [reflexivity|]. exact (conj Q2 (conj Q3 C)).
  - unfold inject_going. destruct (negb (b =? 0) && eol_here (n_bs s) b)%bool.
    + cbn zeta. set (row := n_row s + (8 - top_bit b)). destruct ((row <? 12) || (13 <? row))%bool.
      * destruct (fill_sane (n_min s) (Z.to_nat (n_min s - row)) (n_ring s) row (t_minfill (n_st s)) HR ltac:(lia)) as (q & r' & c' & E & Q). rewrite E. cbn [rbind]. destruct (put_sane _ b Q) as (q2 & E2 & Q2 & Q3). rewrite E2. cbn [rbind].
        eexists. split; [reflexivity|]. exact (conj Q2 (conj Q3 C)).
      * cbn [rbind]. destruct (put_sane _ b HR) as (q2 & E2 & Q2 & Q3). rewrite E2. cbn [rbind]. eexists. split; [reflexivity|]. exact (conj Q2 (conj Q3 C)).
    + cbn [rbind]. destruct (put_sane _ b HR) as (q2 & E2 & Q2 & Q3). rewrite E2. cbn [rbind]. eexists. split; [reflexivity|]. exact (conj Q2 (conj Q3 C)).
Qed.
Lemma injects_sane buf : forall s, Sane s -> exists s', inject s buf = Ok s' /\ Sane s'.
Proof.
  induction buf as [|b t IH]; intros s HS; cbn [inject]; [eauto|]. destruct (inject_sane s b HS) as (s1 & E & H1). rewrite E. cbn [rbind]. auto.
Qed.
Lemma land1 x : Z.land x 1 = 0 \/ Z.land x 1 = 1.
Proof. pose proof (Z.land_ones x 1 ltac:(lia)) as E. change (Z.ones 1) with 1 in E. change (2 ^ 1) with 2 in E. rewrite E. pose proof (Z.mod_pos_bound x 2 ltac:(lia)). lia. Qed.
Lemma get_sane s : Sane s -> exists s' b, get_bit s = Ok (s', b) /\ Sane s' /\ (b = 0 \/ b = 1 \/ b = END_OF_DATA).
Proof.
  intros (A & B & C). unfold get_bit. destruct (n_bitno s <=? 0).
  - destruct (negb (n_out s =? n_eol s)).
    + unfold aget, in_bounds. destruct (Z.leb_spec 0 (n_out s)); [|lia]. destruct (Z.ltb_spec (n_out s) (Z.of_nat (length (q_data (n_ring s))))); [|lia]. cbn [andb rbind]. eexists _, _. split; [reflexivity|]. split; [|edestruct land1; eauto].
      split; [exact A|]. split; [exact B|]. cbn [n_out]. rewrite land_ring. apply Z.mod_pos_bound. reflexivity.
    + destruct (n_fin s); eexists _, _; (split; [reflexivity|]); [|split; [exact (conj A (conj B C))|edestruct land1; eauto]]. split; auto. split; [exact A|]. cbn; unfold BUF_LEN; lia.
  - eexists _, _. split; [reflexivity|]. split; [|edestruct land1; eauto]. exact (conj A (conj B C)).
Qed.
Lemma run_sane ops : forall s, Sane s -> exists s' l, run s ops = Ok (s', l) /\ Sane s' /\ Forall (fun b => b = 0 \/ b = 1 \/ b = END_OF_DATA) l.
Proof.
  induction ops as [|o ops IH]; intros s HS; cbn [run]; [eauto|]. destruct o.
  - destruct (injects_sane buf s HS) as (s1 & E & H1). rewrite E. cbn [rbind]. auto.
  - destruct (get_sane s HS) as (s1 & b & E & H1 & Hb). rewrite E. cbn [rbind]. destruct (IH s1 H1) as (s2 & l & E2 & H2 & Hl). rewrite E2. cbn [rbind]. eexists _, _. split; [reflexivity|]. auto.
  - apply IH. exact HS.
Qed.
Lemma init_sane i m : Sane (init i m).
Proof. split; [|split; [cbn; unfold BUF_LEN; lia|cbn; unfold BUF_LEN; lia]]. unfold init, restart_buffer. cbn [n_ring q_data]. rewrite repeat_length. unfold BUF_LEN. lia. Qed.
Lemma run_sane_init i m ops : exists s l, run (init i m) ops = Ok (s, l) /\ Forall (fun b => b = 0 \/ b = 1 \/ b = END_OF_DATA) l.
Proof. destruct (run_sane ops _ (init_sane i m)) as (s & l & H1 & _ & H2). eauto. Qed.
