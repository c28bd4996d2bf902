(** The output bit buffer of the fax compressor. *)
From Coq Require Import ZifyBool ZifyNat.
From Verif Require Import Base Bits T4_tables T4_enc_model T4_spec.

Lemma bits_lsb_app_n a b x : bits_lsb (a + b) x = bits_lsb a x ++ bits_lsb b (Z.shiftr x (Z.of_nat a)).
Proof.
  revert x; induction a as [|a IH]; intros x; [reflexivity|].
  cbn [Nat.add bits_lsb app]. rewrite IH. do 2 f_equal. f_equal.
  rewrite Z.div2_spec, Z.shiftr_shiftr by lia. f_equal. lia.
Qed.
Lemma unpack_lsb_app a b : unpack_lsb (a ++ b) = unpack_lsb a ++ unpack_lsb b.
Proof. apply flat_map_app. Qed.
Lemma unpack_lsb_length l : length (unpack_lsb l) = (8 * length l)%nat.
Proof. apply flat_map_bits_length. intros; apply bits_lsb_length. Qed.
Lemma bits_lsb_add n m x y : 0 <= x < 2 ^ Z.of_nat n -> bits_lsb (n + m) (x + 2 ^ Z.of_nat n * y) = bits_lsb n x ++ bits_lsb m y.
Proof.
  intros H. rewrite bits_lsb_app_n. rewrite Z.shiftr_div_pow2 by lia.
  rewrite (Z.mul_comm _ y), Z.div_add by (pose proof (p2_pos n); lia). rewrite (Z.div_small x) by lia. f_equal.
  rewrite <- (bits_lsb_mod n (x + y * 2 ^ Z.of_nat n)), Z_mod_plus_full, Z.mod_small by lia. auto.
Qed.
Lemma bits_lsb_addZ n m x y : 0 <= n -> 0 <= x < 2 ^ n -> bits_lsb (Z.to_nat n + m) (x + 2 ^ n * y) = bits_lsb (Z.to_nat n) x ++ bits_lsb m y.
Proof. intros H0 H. rewrite <- (bits_lsb_add (Z.to_nat n) m x y); rewrite Z2Nat.id by lia; auto. Qed.
Lemma bits_lsb_0 n : bits_lsb n 0 = repeat false n.
Proof. induction n as [|n IH]; cbn [bits_lsb repeat]; auto. rewrite <- IH. reflexivity. Qed.

Record wrep (w : bw) (B : list bool) : Prop := {
  wr_n : 0 <= bw_n w < 8;
  wr_bs : 0 <= bw_bs w < 2 ^ bw_n w;
  wr_bytes : bytes (bw_out w);
  wr_bits : B = unpack_lsb (bw_out w) ++ bits_lsb (Z.to_nat (bw_n w)) (bw_bs w) }.

Lemma wrep_length w B : wrep w B -> Z.of_nat (length B) = 8 * Z.of_nat (length (bw_out w)) + bw_n w.
Proof. intros [A _ _ ->]. rewrite app_length, unpack_lsb_length, bits_lsb_length. lia. Qed.

Lemma flush_bits_ok cap fuel : forall bs n out, 0 <= n -> 0 <= bs < 2 ^ n -> bytes out -> 8 * Z.of_nat (length out) + n < 8 * (cap + 1) ->
  n <= 8 * Z.of_nat fuel + 7 ->
  exists bs' n' out', flush_bits cap fuel bs n out = Ok (bs', n', out') /\ 0 <= n' < 8 /\ 0 <= bs' < 2 ^ n' /\ bytes out' /\
    unpack_lsb out' ++ bits_lsb (Z.to_nat n') bs' = unpack_lsb out ++ bits_lsb (Z.to_nat n) bs.
Proof.
  induction fuel as [|fuel IH]; intros bs n out Hn Hbs Ho Hc Hf; cbn [flush_bits].
  - destruct (Z.ltb_spec n 8); [|lia]. exists bs, n, out. repeat split; auto; lia.
  - destruct (Z.ltb_spec n 8).
    + exists bs, n, out. split; [reflexivity|]. split; [lia|]. split; [lia|]. auto.
    + destruct (Z.ltb_spec (Z.of_nat (length out)) cap); [|lia].
      destruct (IH (Z.shiftr bs 8) (n - 8) (out ++ [u8 bs])) as (bs' & n' & out' & P1 & P2 & P3 & P4 & P5).
      * lia.
      * rewrite Z.shiftr_div_pow2 by lia. split; [apply Z.div_pos; lia|]. apply Z.div_lt_upper_bound; [lia|].
        rewrite <- Z.pow_add_r by lia. replace (8 + (n - 8)) with n by lia. lia.
      * apply Forall_app. split; auto. constructor; [|constructor]. unfold byte, u8. apply Z.mod_pos_bound. lia.
      * rewrite app_length. cbn [length]. lia.
      * lia.
      * exists bs', n', out'. split; auto. split; auto. split; auto. split; auto. rewrite P5.
        rewrite unpack_lsb_app, <- app_assoc. f_equal.
        replace (Z.to_nat n) with (8 + Z.to_nat (n - 8))%nat by lia. rewrite bits_lsb_app_n. change (Z.of_nat 8) with 8. f_equal.
        unfold unpack_lsb. cbn [flat_map]. rewrite app_nil_r. unfold u8. change 256 with (2 ^ Z.of_nat 8). apply bits_lsb_mod.
Qed.

Lemma put_encoded_bits_ok cap w B bits len : wrep w B -> 0 <= len -> 0 <= bits < 2 ^ len -> (len <= 24 \/ bits = 0) ->
  Z.of_nat (length B) + len < 8 * (cap + 1) ->
  exists w', put_encoded_bits cap w bits len = Ok w' /\ wrep w' (B ++ bits_lsb (Z.to_nat len) bits) /\ bw_row w' = bw_row w + len.
Proof.
  intros H Hl Hb Hs Hc. pose proof (wrep_length _ _ H) as HL. destruct H as [Hn Hbs Ho HB].
  unfold put_encoded_bits.
  destruct (Z.ltb_spec (bw_n w) 0); [lia|]. destruct (Z.leb_spec 32 (bw_n w)); [lia|]. cbn [orb].
  set (n := bw_n w) in *.
  assert (E : Z.lor (bw_bs w) (u32 (Z.shiftl bits n)) = bw_bs w + 2 ^ n * bits).
  { rewrite Z.shiftl_mul_pow2 by lia. unfold u32. rewrite Z.mod_small.
    - rewrite lor_disj by lia. ring.
    - destruct Hs as [Hs| ->]; [|lia].
      assert (2 ^ len <= 2 ^ 24) by (apply Z.pow_le_mono_r; lia).
      assert (2 ^ n <= 2 ^ 7) by (apply Z.pow_le_mono_r; lia).
      assert (0 < 2 ^ n) by (apply Z.pow_pos_nonneg; lia). change (2 ^ 24) with 16777216 in *. change (2 ^ 7) with 128 in *. nia. }
  rewrite E.
  assert (Hr : 0 <= bw_bs w + 2 ^ n * bits < 2 ^ (n + len)).
  { rewrite Z.pow_add_r by lia. assert (0 < 2 ^ n) by (apply Z.pow_pos_nonneg; lia). nia. }
  destruct (flush_bits_ok cap (Z.to_nat (n + len)) (bw_bs w + 2 ^ n * bits) (n + len) (bw_out w)) as (bs' & n' & out' & P1 & P2 & P3 & P4 & P5); auto; try lia.
  rewrite P1. cbn [rbind]. eexists. split; [reflexivity|]. split; [|reflexivity].
  constructor; cbn [bw_n bw_bs bw_out]; auto. rewrite P5, HB, <- app_assoc. f_equal.
  replace (Z.to_nat (n + len)) with (Z.to_nat n + Z.to_nat len)%nat by lia.
  rewrite bits_lsb_addZ by lia. auto.
Qed.

(** The final flush: put_encoded_bits(s, 0xFF, 7) *)
Lemma put_final_ok cap w B : wrep w B -> Z.of_nat (length B) + 7 < 8 * (cap + 1) ->
  exists w', put_encoded_bits cap w 0xFF 7 = Ok w' /\
    exists pad, (pad < 8)%nat /\ unpack_lsb (bw_out w') = B ++ repeat true pad.
Proof.
  intros H Hc. pose proof (wrep_length _ _ H) as HL. destruct H as [Hn Hbs Ho HB].
  unfold put_encoded_bits.
  destruct (Z.ltb_spec (bw_n w) 0); [lia|]. destruct (Z.leb_spec 32 (bw_n w)); [lia|]. cbn [orb].
  set (n := bw_n w) in *.
  assert (E : Z.lor (bw_bs w) (u32 (Z.shiftl 255 n)) = bw_bs w + 2 ^ n * 255).
  { rewrite Z.shiftl_mul_pow2 by lia. unfold u32. rewrite Z.mod_small.
    - rewrite lor_disj by lia. ring.
    - assert (2 ^ n <= 2 ^ 7) by (apply Z.pow_le_mono_r; lia).
      assert (0 < 2 ^ n) by (apply Z.pow_pos_nonneg; lia). change (2 ^ 7) with 128 in *. nia. }
  rewrite E. destruct (Z.eq_dec n 0) as [E0|E0].
  - rewrite E0. cbn [flush_bits Z.to_nat Z.add Z.ltb]. change (Pos.to_nat 7) with 7%nat. cbn [flush_bits]. change (7 <? 8) with true. cbn [rbind].
    eexists. split; [reflexivity|]. exists 0%nat. split; [lia|]. cbn [bw_out repeat]. rewrite app_nil_r, HB, E0. cbn [Z.to_nat bits_lsb]. rewrite app_nil_r. auto.
  - assert (E7 : exists k, Z.to_nat (n + 7) = S k) by (exists (Z.to_nat (n + 6)); lia). destruct E7 as [k Ek]. rewrite Ek. cbn [flush_bits].
    destruct (Z.ltb_spec (n + 7) 8); [lia|]. destruct (Z.ltb_spec (Z.of_nat (length (bw_out w))) cap); [|lia].
    assert (Ef : forall bs out, flush_bits cap k bs (n + 7 - 8) out = Ok (bs, n + 7 - 8, out)).
    { intros. destruct k; cbn [flush_bits]; destruct (Z.ltb_spec (n + 7 - 8) 8); auto; lia. }
    rewrite Ef. cbn [rbind]. eexists. split; [reflexivity|]. exists (Z.to_nat (8 - n)). split; [lia|]. cbn [bw_out].
    rewrite HB, unpack_lsb_app, <- app_assoc. f_equal. unfold unpack_lsb. cbn [flat_map]. rewrite app_nil_r.
    unfold u8. change 256 with (2 ^ Z.of_nat 8). rewrite bits_lsb_mod.
    replace 8%nat with (Z.to_nat n + Z.to_nat (8 - n))%nat at 1 by lia.
    rewrite bits_lsb_addZ by lia. f_equal.
    assert (Hn8 : (Z.to_nat (8 - n) <= 8)%nat) by lia. clear -Hn8. revert Hn8. generalize (Z.to_nat (8 - n)) as m. intros m Hm.
    do 9 (destruct m as [|m]; [reflexivity|]). lia.
Qed.

(** ---- run length codes ---- *)
Definition cbits (e : rte) : list bool := bits_lsb (Z.to_nat (rt_len e)) (rt_code e).
(** every code of a table fits its length *)
Definition rte_ok (e : rte) : bool := (1 <=? rt_len e) && (rt_len e <=? 13) && (0 <=? rt_code e) && (rt_code e <? 2 ^ rt_len e).
Lemma put_code_ok cap w B e : rte_ok e = true -> wrep w B -> Z.of_nat (length B) + rt_len e < 8 * (cap + 1) ->
  exists w', put_encoded_bits cap w (rt_code e) (rt_len e) = Ok w' /\ wrep w' (B ++ cbits e) /\ bw_row w' = bw_row w + Z.of_nat (length (cbits e)).
Proof.
  unfold rte_ok. intros H Hw Hc. assert (Hr : 1 <= rt_len e <= 13 /\ 0 <= rt_code e < 2 ^ rt_len e) by lia.
  destruct (put_encoded_bits_ok cap w B (rt_code e) (rt_len e) Hw) as (w' & A & B' & C); try lia.
  exists w'. split; auto. split; auto. rewrite C. unfold cbits. rewrite bits_lsb_length. lia.
Qed.

(** [tab_ok tab base]: entry i is the terminating code of run i, entry 63+k the make-up code of run 64 k *)
Definition tab_ok (tab : list rte) : bool :=
  (length tab =? 104)%nat && forallb rte_ok tab
  && forallb (fun i => match nth_error tab i with Some e => rt_run e =? Z.of_nat i | None => false end) (seq 0 64)
  && forallb (fun i => match nth_error tab (63 + i) with Some e => rt_run e =? 64 * Z.of_nat i | None => false end) (seq 1 40).
Lemma tab_ok_white : tab_ok t4_white_codes = true. Proof. vm_compute. reflexivity. Qed.
Lemma tab_ok_black : tab_ok t4_black_codes = true. Proof. vm_compute. reflexivity. Qed.
Lemma tab_term tab i : tab_ok tab = true -> 0 <= i < 64 -> exists e, tget tab i = Ok e /\ nth_error tab (Z.to_nat i) = Some e /\ rt_run e = i /\ rte_ok e = true.
Proof.
  unfold tab_ok. rewrite !andb_true_iff. intros [[[H0 H1] H2] _] Hi.
  rewrite forallb_forall in H2. specialize (H2 (Z.to_nat i) ltac:(apply in_seq; lia)).
  unfold tget. destruct (Z.ltb_spec i 0); [lia|]. destruct (nth_error tab (Z.to_nat i)) as [e|] eqn:E; [|discriminate].
  exists e. repeat split; auto; [lia|]. rewrite forallb_forall in H1. apply H1. eapply nth_error_In; eauto.
Qed.
Lemma tab_mkup tab k : tab_ok tab = true -> 1 <= k <= 40 -> exists e, tget tab (63 + k) = Ok e /\ nth_error tab (Z.to_nat (63 + k)) = Some e /\ rt_run e = 64 * k /\ rte_ok e = true.
Proof.
  unfold tab_ok. rewrite !andb_true_iff. intros [[[H0 H1] _] H2] Hi.
  rewrite forallb_forall in H2. specialize (H2 (Z.to_nat k) ltac:(apply in_seq; lia)).
  unfold tget. destruct (Z.ltb_spec (63 + k) 0); [lia|]. replace (63 + Z.to_nat k)%nat with (Z.to_nat (63 + k)) in H2 by lia.
  destruct (nth_error tab (Z.to_nat (63 + k))) as [e|] eqn:E; [|discriminate].
  exists e. repeat split; auto; [lia|]. rewrite forallb_forall in H1. apply H1. eapply nth_error_In; eauto.
Qed.

(** The codes sent for a run: the make-up codes (as many 2560s as needed, then at most one other) and a terminating code. *)
Definition tnth (tab : list rte) (i : Z) : rte := nth (Z.to_nat i) tab (R 0 0 0).
Definition span_codes (tab : list rte) (span : Z) : list rte :=
  let k := if span <? 2624 then 0 else (span - 2624) / 2560 + 1 in
  let r := span - 2560 * k in
  repeat (tnth tab 103) (Z.to_nat k) ++ (if 64 <=? r then [tnth tab (63 + r / 64); tnth tab (r - 64 * (r / 64))] else [tnth tab r]).
Definition span_bits (tab : list rte) (span : Z) : list bool := flat_map cbits (span_codes tab span).

Lemma span_codes_long tab span : 2624 <= span -> span_codes tab span = tnth tab 103 :: span_codes tab (span - 2560).
Proof.
  intros H. unfold span_codes. destruct (Z.ltb_spec span 2624); [lia|].
  destruct (Z.ltb_spec (span - 2560) 2624).
  - assert ((span - 2624) / 2560 = 0) by (apply Z.div_small; lia). rewrite H2. cbn [Z.add Z.to_nat].
    change (Pos.to_nat 1) with 1%nat. cbn [repeat app]. do 2 f_equal; rewrite ?Z.mul_0_r, ?Z.sub_0_r, ?Z.mul_1_r; auto.
  - replace ((span - 2624) / 2560) with ((span - 2560 - 2624) / 2560 + 1).
    2:{ replace (span - 2624) with (span - 2560 - 2624 + 1 * 2560) by lia. rewrite Z.div_add by lia. auto. }
    set (k := (span - 2560 - 2624) / 2560). assert (0 <= k) by (apply Z.div_pos; lia).
    replace (Z.to_nat (k + 1 + 1)) with (S (Z.to_nat (k + 1))) by lia. cbn [repeat app].
    replace (span - 2560 * (k + 1 + 1)) with (span - 2560 - 2560 * (k + 1)) by lia. reflexivity.
Qed.

Definition codes_bits (l : list rte) : list bool := flat_map cbits l.
Lemma put_long_ok cap tab fuel : tab_ok tab = true -> forall w B span, wrep w B -> 0 <= span -> span <= 2560 * Z.of_nat fuel + 2623 ->
  Z.of_nat (length B) + Z.of_nat (length (span_bits tab span)) < 8 * (cap + 1) ->
  exists w' B' r, put_long_spans cap fuel (tnth tab 103) w span = Ok (w', r) /\ 0 <= r < 2624 /\ wrep w' B' /\
    B' ++ span_bits tab r = B ++ span_bits tab span /\ bw_row w' - Z.of_nat (length B') = bw_row w - Z.of_nat (length B).
Proof.
  intros T. destruct (tab_mkup tab 40 T ltac:(lia)) as (e & E1 & E2 & E3 & E4). change (63 + 40) with 103 in *.
  assert (E5 : tnth tab 103 = e) by (unfold tnth; apply nth_error_nth; auto).
  induction fuel as [|fuel IH]; intros w B span Hw H0 Hf Hc; cbn [put_long_spans]; change (2560 + 64) with 2624.
  - destruct (Z.ltb_spec span 2624); [|lia]. exists w, B, span. split; [reflexivity|]. split; [lia|]. auto.
  - destruct (Z.ltb_spec span 2624). { exists w, B, span. split; [reflexivity|]. split; [lia|]. auto. }
    assert (SB : span_bits tab span = cbits e ++ span_bits tab (span - 2560)).
    { unfold span_bits. rewrite span_codes_long by lia. cbn [flat_map]. rewrite E5. auto. }
    rewrite SB, app_length in Hc.
    assert (Lc : length (cbits e) = Z.to_nat (rt_len e)) by (unfold cbits; apply bits_lsb_length).
    assert (1 <= rt_len e) by (unfold rte_ok in E4; lia).
    rewrite E5. destruct (put_code_ok cap w B e E4 Hw ltac:(lia)) as (w1 & P1 & P2 & P3). rewrite P1. cbn [rbind].
    rewrite E3. change (64 * 40) with 2560.
    destruct (IH w1 (B ++ cbits e) (span - 2560) P2 ltac:(lia) ltac:(lia)) as (w' & B' & r & Q1 & Q2 & Q3 & Q4 & Q5).
    { rewrite app_length. lia. }
    rewrite E5 in Q1. exists w', B', r. split; [exact Q1|]. split; auto. split; auto. split.
    + rewrite Q4, SB, <- app_assoc. auto.
    + rewrite Q5, P3, app_length. lia.
Qed.

Lemma put_1d_span_ok cap tab w B span : tab_ok tab = true -> wrep w B -> 0 <= span ->
  Z.of_nat (length B) + Z.of_nat (length (span_bits tab span)) < 8 * (cap + 1) ->
  exists w', put_1d_span cap w span tab = Ok w' /\ wrep w' (B ++ span_bits tab span) /\
    bw_row w' = bw_row w + Z.of_nat (length (span_bits tab span)).
Proof.
  intros T Hw H0 Hc. unfold put_1d_span. change (63 + Z.shiftr 2560 6) with (63 + 40).
  destruct (tab_mkup tab 40 T ltac:(lia)) as (e & E1 & E2 & E3 & E4). rewrite E1. cbn [rbind].
  assert (E5 : tnth tab 103 = e) by (unfold tnth; apply nth_error_nth; auto).
  destruct (put_long_ok cap tab (Z.to_nat span) T w B span Hw H0 ltac:(lia) Hc) as (w1 & B1 & r & P1 & P2 & P3 & P4 & P5).
  rewrite <- E5, P1. cbn [rbind]. clear P1 E1 E2 E3 E4 E5 e.
  assert (LB : Z.of_nat (length B) + Z.of_nat (length (span_bits tab span)) = Z.of_nat (length B1) + Z.of_nat (length (span_bits tab r))).
  { apply (f_equal (@length bool)) in P4. rewrite !app_length in P4. lia. }
  rewrite <- P4.
  assert (Fin : exists w', (do e <- tget tab (63 + Z.shiftr r 6);
      do (w, span) <- (if 64 <=? r then do w <- put_encoded_bits cap w1 (rt_code e) (rt_len e); Ok (w, r - rt_run e) else Ok (w1, r));
      do e <- tget tab span; put_encoded_bits cap w (rt_code e) (rt_len e)) = Ok w' /\ wrep w' (B1 ++ span_bits tab r) /\
      bw_row w' = bw_row w1 + Z.of_nat (length (span_bits tab r))).
  { rewrite Z.shiftr_div_pow2 by lia. change (2 ^ 6) with 64.
    rewrite LB in Hc. clear LB P4 P5. unfold span_bits, span_codes in Hc |- *. destruct (Z.ltb_spec r 2624); [|lia]. rewrite Z.mul_0_r, Z.sub_0_r in *. cbn [Z.to_nat repeat app] in *.
    destruct (Z.leb_spec 64 r).
    - destruct (tab_mkup tab (r / 64) T) as (e & E1 & E2 & E3 & E4). { Z.div_mod_to_equations; lia. }
      rewrite E1. cbn [rbind]. assert (E5 : tnth tab (63 + r / 64) = e) by (unfold tnth; apply nth_error_nth; auto).
      destruct (tab_term tab (r - 64 * (r / 64)) T) as (f & F1 & F2 & F3 & F4). { Z.div_mod_to_equations; lia. }
      assert (F5 : tnth tab (r - 64 * (r / 64)) = f) by (unfold tnth; apply nth_error_nth; auto).
      rewrite E5, F5 in *. cbn [flat_map] in *. rewrite app_nil_r in *. rewrite app_length in *.
      assert (Le : length (cbits e) = Z.to_nat (rt_len e)) by (unfold cbits; apply bits_lsb_length).
      assert (Lf : length (cbits f) = Z.to_nat (rt_len f)) by (unfold cbits; apply bits_lsb_length).
      assert (1 <= rt_len e) by (unfold rte_ok in E4; lia). assert (1 <= rt_len f) by (unfold rte_ok in F4; lia).
      destruct (put_code_ok cap w1 B1 e E4 P3 ltac:(lia)) as (w2 & Q1 & Q2 & Q3). rewrite Q1. cbn [rbind].
      rewrite E3, F1. cbn [rbind].
      destruct (put_code_ok cap w2 (B1 ++ cbits e) f F4 Q2) as (w3 & R1 & R2 & R3). { rewrite app_length. lia. }
      exists w3. rewrite <- app_assoc in R2. split; auto. split; auto. lia.
    - assert (r / 64 = 0) by (apply Z.div_small; lia). rewrite H2. change (63 + 0) with 63.
      destruct (tab_term tab 63 T ltac:(lia)) as (e & E1 & _). rewrite E1. cbn [rbind].
      destruct (tab_term tab r T ltac:(lia)) as (f & F1 & F2 & F3 & F4). rewrite F1. cbn [rbind].
      assert (F5 : tnth tab r = f) by (unfold tnth; apply nth_error_nth; auto). rewrite F5 in *. cbn [flat_map] in *. rewrite app_nil_r in *.
      assert (Lf : length (cbits f) = Z.to_nat (rt_len f)) by (unfold cbits; apply bits_lsb_length).
      assert (1 <= rt_len f) by (unfold rte_ok in F4; lia).
      destruct (put_code_ok cap w1 B1 f F4 P3 ltac:(lia)) as (w3 & R1 & R2 & R3). exists w3. auto. }
  destruct Fin as (w' & F1 & F2 & F3). exists w'. split; [exact F1|]. split; auto.
  apply (f_equal (@length bool)) in P4. rewrite !app_length in P4. lia.
Qed.
