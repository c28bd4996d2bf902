From Verif Require Import Base Bert_model Bert_spec Bert_proofs Bert_rx_proofs Bert_sync_proofs.
Local Open Scope Z_scope.

(** ---- O.151 with zeros suppressed ---- *)
Lemma suppress_runs n l : forall k, runs_up_to n k (suppress n k l).
Proof. induction l as [|[|] l IH]; intros k; cbn; [exact I | apply IH|]. destruct k; cbn; apply IH. Qed.
Notation g20 := O151_20_prng.
Lemma get20 c s : pt c = O151_20 -> in_reg g20 (t_reg s) -> 0 <= t_zeros s <= 14 -> t_bits s < 2147483647 -> (limit c = 0 \/ t_bits s < limit c) ->
  exists s' b, get_bit c s = Ok (s', Z.b2z b) /\ t_reg s' = nextr g20 (t_reg s) /\ t_bits s' = t_bits s + 1 /\ 0 <= t_zeros s' <= 14 /\
    (if bit_at g20 (t_reg s) 0 then b = true /\ t_zeros s' = 0 else if t_zeros s =? 14 then b = true /\ t_zeros s' = 0 else b = false /\ t_zeros s' = t_zeros s + 1).
Proof.
  intros P R Z0 B L. unfold get_bit. rewrite P. replace (negb (limit c =? 0) && (limit c <=? t_bits s)) with false by lia. cbn [cls O151_20 prbs Z.eqb Pos.eqb max_zeros shift shift2 invert]. rewrite land1_b2z. unfold bit_at, seq_at. cbn [reg_at inverted O151_20_prng].
  destruct (Z.testbit (t_reg s) 0); cbn [Z.b2z Z.eqb negb xorb]; [|cbn [rbind t_bits t_reg t_zeros]; unfold inc; replace (t_bits s <? 2147483647) with true by lia; cbn [rbind]; exists {| t_reg := nextr g20 (t_reg s); t_step := t_step s; t_bit := t_bit s; t_bits := t_bits s + 1; t_zeros := 0 |}, true; repeat split; cbn; lia].
  destruct (Z.ltb_spec 14 (t_zeros s + 1)) as [K|K]; cbn [rbind t_bits t_reg t_zeros]; unfold inc; replace (t_bits s <? 2147483647) with true by lia; cbn [rbind].
  - replace (t_zeros s =? 14) with true by lia. exists {| t_reg := nextr g20 (t_reg s); t_step := t_step s; t_bit := t_bit s; t_bits := t_bits s + 1; t_zeros := 0 |}, true. repeat split; cbn; lia.
  - replace (t_zeros s =? 14) with false by lia. exists {| t_reg := nextr g20 (t_reg s); t_step := t_step s; t_bit := t_bit s; t_bits := t_bits s + 1; t_zeros := t_zeros s + 1 |}, false. repeat split; cbn; lia.
Qed.
Lemma gets20 c n : pt c = O151_20 -> forall s, in_reg g20 (t_reg s) -> 0 <= t_zeros s <= 14 -> t_bits s + Z.of_nat n <= 2147483647 -> (limit c = 0 \/ t_bits s + Z.of_nat n <= limit c) ->
  exists s', gets c s n = Ok (s', as_bits (suppress 14 (14 - Z.to_nat (t_zeros s)) (map (bit_at g20 (t_reg s)) (seq 0 n)))).
Proof.
  intros P. induction n; intros s R Z0 B L; [eexists; reflexivity|]. cbn [gets]. destruct (get20 c s P R Z0) as (s1 & b & E & A1 & A2 & A3 & A4); [lia | lia|]. rewrite E. cbn [rbind]. assert (tapped g20) by (cbv; lia).
  destruct (IHn s1) as (s' & F); [rewrite A1; apply nextr_range; assumption | exact A3 | lia | lia|]. rewrite F. cbn [rbind]. exists s'. cbn [seq map suppress]. rewrite <- seq_shift, map_map. rewrite A1. change (map (fun x => bit_at g20 (t_reg s) (S x)) (seq 0 n)) with (map (bit_at g20 (nextr g20 (t_reg s))) (seq 0 n)).
  destruct (bit_at g20 (t_reg s) 0); [destruct A4 as [-> ->]; reflexivity|]. destruct (Z.eqb_spec (t_zeros s) 14) as [Q|Q]; destruct A4 as [-> ->].
  - replace (14 - Z.to_nat (t_zeros s))%nat with 0%nat by lia. reflexivity.
  - replace (14 - Z.to_nat (t_zeros s))%nat with (S (14 - Z.to_nat (t_zeros s + 1)))%nat by lia. reflexivity.
Qed.

(** ---- the count of bits ---- *)
Lemma put_bits c s b s' e : 0 <= b -> put_bit c s b = Ok (s', e) -> bits (fst s) < 2147483647 /\ bits (fst s') = bits (fst s) + 1.
Proof.
  intros B0. unfold put_bit. replace (b <? 0) with false by lia. unfold inc at 1. destruct (Z.ltb_spec (bits (fst s)) 2147483647) as [L|L]; cbn [rbind]; [|discriminate]. destruct s as [r x]. cbn [fst snd] in *.
  match goal with |- rbind ?m _ = _ -> _ => destruct m as [[[r1 x1] e1]|] eqn:M end; cbn [rbind]; [|discriminate].
  assert (X : bits r1 = bits r + 1).
  { revert M. destruct (cls (pt c) =? 0); [|destruct (cls (pt c) =? 1)].
    - unfold put0. cbn [w_bits resync total]. destruct (negb (resync r =? 0)).
      + match goal with |- match ?m with (_, _) => _ end = _ -> _ => destruct m as [[u v] w] end. intros H. injection H as <- _ _. reflexivity.
      + destruct (inc (total x)); cbn [rbind]; [|discriminate]. match goal with |- rbind ?m _ = _ -> _ => destruct m end; cbn [rbind]; [|discriminate]. intros H. injection H as <- _ _. reflexivity.
    - unfold put1. cbn [w_bits resync total]. destruct (negb (resync r =? 0)).
      + match goal with |- match ?m with (_, _) => _ end = _ -> _ => destruct m as [[u v] w] end. intros H. injection H as <- _ _. reflexivity.
      + destruct (inc (total x)); cbn [rbind]; [|discriminate]. match goal with |- match ?m with (_, _) => _ end = _ -> _ => destruct m as [u v] end. match goal with |- rbind ?m _ = _ -> _ => destruct m as [[[? ?] ?]|] end; cbn [rbind]; [|discriminate]. match goal with |- rbind ?m _ = _ -> _ => destruct m as [[[? ?] ?]|] end; cbn [rbind]; [|discriminate]. match goal with |- rbind ?m _ = _ -> _ => destruct m as [[[[[? ?] ?] ?] ?]|] end; cbn [rbind]; [|discriminate]. intros H. injection H as <- _ _. reflexivity.
    - unfold put2. match goal with |- rbind ?m _ = _ -> _ => destruct m as [[[? ?] ?]|] end; cbn [rbind]; [|discriminate]. match goal with |- rbind ?m _ = _ -> _ => destruct m end; cbn [rbind]; [|discriminate]. intros H. injection H as <- _ _. reflexivity. }
  cbn [fst snd]. destruct (0 <? freq c); [destruct (countdown r1 - 1 <=? 0)|]; intros H; injection H as <- _; cbn; lia.
Qed.
Lemma puts_endless c l : Forall (fun b => 0 <= b) l -> forall s, bits (fst s) <= 2147483647 -> 2147483647 < bits (fst s) + Z.of_nat (length l) -> puts c s l = UB.
Proof.
  induction 1 as [|b l B F IH]; intros s R H; cbn [length] in H; [cbn in H; lia|]. cbn [puts]. destruct (put_bit c s b) as [[s' e]|] eqn:E; cbn [rbind]; [|reflexivity]. destruct (put_bits _ _ _ _ _ B E). rewrite IH; [reflexivity | lia | lia].
Qed.

(** ---- a dead line ---- *)
Lemma dead_follows g n : tapped g -> follows g (repeat (inverted g) n).
Proof. intros T t H. unfold at_, tapped in *. rewrite repeat_length in H. assert (A : forall u, (u < n)%nat -> xorb (inverted g) (nth u (repeat (inverted g) n) false) = false) by (intros u U; rewrite (nth_indep _ _ (inverted g)) by (rewrite repeat_length; lia); rewrite nth_repeat; apply xorb_nilpotent). rewrite !A by lia. reflexivity. Qed.
Lemma line_clean l : line l (repeat false (length l)) = l.
Proof. unfold line. induction l; cbn; [reflexivity|]. rewrite IHl, xorb_false_r. reflexivity. Qed.
Lemma errors_clean n : errors (repeat false n) = 0.
Proof. unfold errors. induction n; cbn; [reflexivity | exact IHn]. Qed.
Lemma nth_clean n k : nth k (repeat false n) false = false.
Proof. revert k. induction n; intros [|k]; cbn; auto. Qed.
Lemma window_clean n a b : errors (firstn a (skipn b (repeat false n))) = 0.
Proof. unfold errors. assert (X : forall l : list bool, (forall x, In x l -> x = false) -> count_occ Bool.bool_dec l true = 0%nat) by (intros l H; apply count_occ_not_In; intros Y; specialize (H _ Y); discriminate). rewrite X; [reflexivity|]. intros x H. assert (In x (repeat false n)) by (rewrite <- (firstn_skipn b (repeat false n)); apply in_or_app; right; rewrite <- (firstn_skipn a (skipn b (repeat false n))); apply in_or_app; left; exact H). eapply repeat_spec; eassumption. Qed.
Lemma clean_line c m g l : itu m g -> pt c = pattern m -> fits c -> 1 <= resync_len c -> 100 <= resync_len c * resync_percent c -> follows g l -> Z.of_nat (length l) <= 2147483647 -> Z.of_nat (len g + tap g) + resync_time (pt c) <= Z.of_nat (length l) ->
  exists s' ev, puts c (rx_init c) (as_bits l) = Ok (s', ev) /\ ~ In Unsynced ev /\ In Synced ev /\ bad (snd s') = 0 /\ Z.of_nat (length l) - (Z.of_nat (len g + tap g) + resync_time (pt c)) <= total (snd s').
Proof.
  intros I E Fi W Q Fo B N. destruct (init_sane c m g I E) as (S1 & S2 & S3). destruct (receives c m g l (repeat false (length l)) (rx_init c) I E Fi W Fo) as (s' & ev & P & _ & U & Sy & _ & w & W1 & W2 & W3); try assumption; try (rewrite repeat_length; reflexivity); try (rewrite S2; lia).
  - intros k _. apply nth_clean.
  - intros i. rewrite window_clean. apply Z.lt_le_trans with 1; [lia|]. apply Z.quot_le_lower_bound; lia.
  - rewrite line_clean in P. exists s', ev. split; [exact P|]. rewrite S3 in W2, W3. cbn in W2, W3. rewrite errors_clean in W3. repeat split; try assumption; lia.
Qed.
