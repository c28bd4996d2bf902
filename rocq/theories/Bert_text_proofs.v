From Verif Require Import Base Bert_model Bert_spec Bert_proofs Bert_rx_proofs Bert_sync_proofs Bert_text_spec.
Local Open Scope Z_scope.

Lemma text_qbf : text = qbf.
Proof. vm_compute. reflexivity. Qed.
Lemma text_len : length text = 153%nat.
Proof. vm_compute. reflexivity. Qed.
Lemma text_all : forallb (fun c => (0 <? c) && (c <? 128)) text = true.
Proof. vm_compute. reflexivity. Qed.
Lemma nat_mod_S t n : (0 < n)%nat -> (S t mod n = if Nat.eqb (S (t mod n)) n then 0 else S (t mod n))%nat.
Proof.
  intros N. pose proof (Nat.mod_upper_bound t n ltac:(lia)). pose proof (Nat.div_mod t n ltac:(lia)). destruct (Nat.eqb_spec (S (t mod n)) n) as [Q|Q]; symmetry.
  - apply Nat.mod_unique with (S (t / n)); [lia | nia].
  - apply Nat.mod_unique with (t / n)%nat; [lia | nia].
Qed.
Lemma char_range t : 0 < char_at t < 128.
Proof. pose proof text_all as A. rewrite forallb_forall in A. assert (I : In (char_at t) text) by (unfold char_at; apply nth_In; apply Nat.mod_upper_bound; rewrite text_len; lia). specialize (A _ I). lia. Qed.
Lemma char_get i : (i < 153)%nat -> aget (qbf ++ [0]) (Z.of_nat i) = Ok (char_at i).
Proof. intros H. assert (Lq : length qbf = 153%nat) by (rewrite <- text_qbf; apply text_len). rewrite aget_in by (rewrite app_length, Lq; cbn; lia). rewrite Nat2Z.id. rewrite app_nth1 by lia. unfold char_at. rewrite text_len, Nat.mod_small by lia. rewrite text_qbf. reflexivity. Qed.
Lemma char_end : aget (qbf ++ [0]) 153 = Ok 0.
Proof. vm_compute. reflexivity. Qed.
Lemma low1 r : Z.land r 1 = Z.b2z (Z.testbit r 0).
Proof. assert (E : Z.land r 1 = r mod 2) by exact (Z.land_ones r 1 ltac:(lia)). rewrite E. symmetry. apply Z.bit0_mod || (rewrite Z.bit0_mod; reflexivity). Qed.

(** ---- sending ---- *)
Definition next_char (s : tx) (t : nat) : Prop := t_bit s = 0 /\ (t_step s = Z.of_nat (t mod 153) \/ (t mod 153 = 0)%nat /\ t_step s = 153).
Lemma get_start c s t : pt c = QBF -> next_char s t -> t_bits s < 2147483647 -> (limit c = 0 \/ t_bits s < limit c) ->
  get_bit c s = Ok ({| t_reg := Z.shiftr (char_at t) 1; t_step := Z.of_nat (t mod 153) + 1; t_bit := 6; t_bits := t_bits s + 1; t_zeros := t_zeros s |}, Z.b2z (Z.testbit (char_at t) 0)).
Proof.
  intros E [B0 St] B L. unfold get_bit. rewrite E. replace (negb (limit c =? 0) && (limit c <=? t_bits s)) with false by lia. cbn [QBF cls Z.eqb Pos.eqb]. rewrite B0. cbn [Z.eqb].
  pose proof (Nat.mod_upper_bound t 153 ltac:(lia)) as Mt. assert (Ct : char_at (t mod 153) = char_at t) by (unfold char_at; rewrite text_len, Nat.mod_mod by lia; reflexivity).
  destruct St as [-> | [Z0 ->]].
  - rewrite char_get by lia. rewrite Ct. cbn [rbind]. pose proof (char_range t). replace (char_at t =? 0) with false by lia. cbn [rbind t_bits t_reg t_step t_bit t_zeros]. unfold inc. replace (t_bits s <? 2147483647) with true by lia. cbn [rbind]. rewrite low1. reflexivity.
  - rewrite char_end. cbn [rbind Z.eqb t_bits t_reg t_step t_bit t_zeros]. unfold inc. replace (t_bits s <? 2147483647) with true by lia. cbn [rbind]. rewrite Z0. replace (char_at t) with 86 by (rewrite <- Ct, Z0; vm_compute; reflexivity). reflexivity.
Qed.
Lemma get_on c r st b n z : pt c = QBF -> b <> 0 -> n < 2147483647 -> (limit c = 0 \/ n < limit c) ->
  get_bit c {| t_reg := r; t_step := st; t_bit := b; t_bits := n; t_zeros := z |} = Ok ({| t_reg := Z.shiftr r 1; t_step := st; t_bit := b - 1; t_bits := n + 1; t_zeros := z |}, Z.b2z (Z.testbit r 0)).
Proof. intros E B0 B L. unfold get_bit. rewrite E. cbn [QBF cls Z.eqb Pos.eqb t_bits t_reg t_step t_bit t_zeros]. replace (negb (limit c =? 0) && (limit c <=? n)) with false by lia. replace (b =? 0) with false by lia. cbn [rbind t_bits t_reg t_step t_bit t_zeros]. unfold inc. replace (n <? 2147483647) with true by lia. cbn [rbind]. rewrite low1. reflexivity. Qed.
Lemma get_char c s t : pt c = QBF -> next_char s t -> t_bits s + 7 <= 2147483647 -> (limit c = 0 \/ t_bits s + 7 <= limit c) ->
  exists s', gets c s 7 = Ok (s', as_bits (char_bits (char_at t))) /\ next_char s' (S t) /\ t_bits s' = t_bits s + 7.
Proof.
  intros E N B L. cbn [gets]. rewrite (get_start c s t E N) by lia. cbn [rbind]. do 6 (rewrite (get_on c) by (assumption || lia); cbn [rbind]). eexists. split; [|split].
  - rewrite !Z.shiftr_shiftr by lia. rewrite !Z.shiftr_spec by lia. reflexivity.
  - unfold next_char. cbn [t_bit t_step]. split; [lia|]. rewrite nat_mod_S by lia. destruct (Nat.eqb_spec (S (t mod 153)) 153) as [Q|Q]; [right; split; [reflexivity | lia] | left; lia].
  - cbn [t_bits]. lia.
Qed.
Lemma gets_plus c a b : forall s, gets c s (a + b) = do (s1, l1) <- gets c s a; do (s2, l2) <- gets c s1 b; Ok (s2, l1 ++ l2).
Proof.
  induction a; intros s; cbn [Nat.add gets rbind]; [destruct (gets c s b) as [[? ?]|]; reflexivity|]. destruct (get_bit c s) as [[s1 x]|]; cbn [rbind]; [|reflexivity]. rewrite IHa. destruct (gets c s1 a) as [[s2 l]|]; cbn [rbind]; [|reflexivity]. destruct (gets c s2 b) as [[s3 l3]|]; reflexivity.
Qed.
Lemma gets_text c n : pt c = QBF -> forall t s, next_char s t -> t_bits s + 7 * Z.of_nat n <= 2147483647 -> (limit c = 0 \/ t_bits s + 7 * Z.of_nat n <= limit c) ->
  exists s', gets c s (n * 7) = Ok (s', as_bits (typed t n)).
Proof.
  intros E. induction n; intros t s N B L; [eexists; reflexivity|]. replace (S n * 7)%nat with (7 + n * 7)%nat by lia. rewrite gets_plus. destruct (get_char c s t E N) as (s1 & -> & N1 & B1); [lia | lia|]. cbn [rbind]. destruct (IHn (S t) s1 N1) as (s' & ->); [lia | lia|]. cbn [rbind]. exists s'. unfold typed, as_bits. cbn [seq flat_map]. rewrite <- map_app. reflexivity.
Qed.

(** ---- receiving ---- *)
Fixpoint val (l : list bool) : Z := match l with [] => 0 | b :: t => Z.b2z b + 2 * val t end.
Definition shift_in (g : Z) (b : bool) : Z := Z.lor (Z.shiftr g 1) (Z.shiftl (Z.b2z b) 6).
Definition both (f : bool -> bool) : bool := f true && f false.
Lemma both_at f b : both f = true -> f b = true.
Proof. unfold both. destruct b, (f true), (f false); auto. Qed.
Lemma shift7 g x : 0 <= g < 128 -> length x = 7%nat -> fold_left shift_in x g = val x.
Proof.
  intros G L. assert (X : forallb (fun v => both (fun a => both (fun b => both (fun c => both (fun d => both (fun e => both (fun f => both (fun h => let x := [a; b; c; d; e; f; h] in fold_left shift_in x (Z.of_nat v) =? val x)))))))) (seq 0 128) = true) by (vm_compute; reflexivity). rewrite forallb_forall in X. specialize (X (Z.to_nat g) ltac:(apply in_seq; lia)). cbv beta in X. rewrite Z2Nat.id in X by lia.
  destruct x as [|x0 [|x1 [|x2 [|x3 [|x4 [|x5 [|x6 [|]]]]]]]]; try discriminate. apply Z.eqb_eq. exact (both_at _ x6 (both_at _ x5 (both_at _ x4 (both_at _ x3 (both_at _ x2 (both_at _ x1 (both_at _ x0 X))))))).
Qed.
Lemma nth_char ch k : (k < 7)%nat -> nth k (char_bits ch) false = Z.testbit ch (Z.of_nat k).
Proof. intros H. do 7 (destruct k as [|k]; [reflexivity|]). lia. Qed.
Lemma val_char x ch : 0 <= ch < 128 -> length x = 7%nat -> (val x = ch <-> x = char_bits ch).
Proof.
  intros C L. assert (V : forall l, 0 <= val l < 2 ^ Z.of_nat (length l) /\ forall k, (k < length l)%nat -> Z.testbit (val l) (Z.of_nat k) = nth k l false).
  { induction l as [|b l [I1 I2]]; [cbn; split; [lia | intros k H; lia]|]. cbn [val length]. rewrite Nat2Z.inj_succ, Z.pow_succ_r by lia. split; [destruct b; cbn [Z.b2z]; lia|]. intros [|k] H; [rewrite Z.add_comm, Z.testbit_even_0 || idtac; rewrite Z.b2z_bit0 || idtac; destruct b; cbn [Z.b2z nth Z.of_nat]; [rewrite Z.add_comm; apply Z.testbit_odd_0 | rewrite Z.add_0_l; apply Z.testbit_even_0]|].
    rewrite Nat2Z.inj_succ. destruct b; cbn [Z.b2z nth]; [rewrite Z.add_comm, Z.testbit_odd_succ by lia | rewrite Z.add_0_l, Z.testbit_even_succ by lia]; apply I2; cbn [length] in H; lia. }
  destruct (V x) as [V1 V2]. rewrite L in *. split.
  - intros <-. apply (nth_ext _ _ false false); [exact L|]. intros k H. rewrite L in H. rewrite nth_char by lia. symmetry. apply V2. lia.
  - intros ->. apply Z.bits_inj'. intros k K. destruct (Z.ltb_spec k 7) as [K7|K7].
    + rewrite <- (Z2Nat.id k) by lia. rewrite V2 by lia. rewrite nth_char by lia. reflexivity.
    + assert (S7 : forall v, 0 <= v < 128 -> Z.testbit v k = false) by (intros v Hv; destruct (Z.eq_dec v 0) as [->|]; [apply Z.bits_0 | apply Z.bits_above_log2; [lia|]; apply Z.log2_lt_pow2; [lia|]; apply Z.lt_le_trans with (2 ^ 7); [lia | apply Z.pow_le_mono_r; lia]]). change (2 ^ Z.of_nat 7) with 128 in V1. rewrite S7, S7; [reflexivity | lia | exact V1].
Qed.
Definition text_ok (s : state) (g st sb : Z) : Prop := reg (fst s) = g /\ step (fst s) = st /\ step_bit (fst s) = sb.
Lemma put_text c s b g st sb : pt c = QBF -> text_ok s g st sb -> total (snd s) <= bits (fst s) -> bad (snd s) <= total (snd s) -> bits (fst s) < 2147483647 -> sb + 1 <> 7 ->
  exists s' e, put_bit c s (Z.b2z b) = Ok (s', e) /\ text_ok s' (shift_in g b) st (sb + 1) /\ total (snd s') = total (snd s) + 1 /\ bits (fst s') = bits (fst s) + 1 /\ bad (snd s') = bad (snd s).
Proof.
  intros E (<- & <- & <-) T Bd B N. unfold put_bit. replace (Z.b2z b <? 0) with false by (destruct b; reflexivity). rewrite E. cbn [QBF invert cls Z.eqb Pos.eqb]. rewrite Z.lxor_0_r. replace (Z.land (Z.b2z b) 1) with (Z.b2z b) by (destruct b; reflexivity). unfold inc at 1. replace (bits (fst s) <? 2147483647) with true by lia. cbn [rbind]. destruct s as [r x]. cbn [fst snd] in *. unfold put2. cbn [w_bits reg step step_bit total bad].
  replace (step_bit r + 1 =? 7) with false by lia. cbn [rbind]. unfold inc. replace (total x <? 2147483647) with true by lia. cbn [rbind fst snd]. destruct (0 <? freq c); [destruct (_ <=? 0)|]; eexists _, _; (split; [reflexivity|]); cbn; repeat split; reflexivity.
Qed.
Lemma put_last c s b g t sb : pt c = QBF -> text_ok s g (Z.of_nat (t mod 153)) sb -> total (snd s) <= bits (fst s) -> 0 <= bad (snd s) <= total (snd s) -> bits (fst s) < 2147483647 -> sb + 1 = 7 ->
  exists s' e, put_bit c s (Z.b2z b) = Ok (s', e) /\ text_ok s' (shift_in g b) (Z.of_nat (S t mod 153)) 0 /\ total (snd s') = total (snd s) + 1 /\ bits (fst s') = bits (fst s) + 1 /\ bad (snd s') = bad (snd s) + (if shift_in g b =? char_at t then 0 else 1).
Proof.
  intros E (<- & Hs & <-) T Bd B N. unfold put_bit. replace (Z.b2z b <? 0) with false by (destruct b; reflexivity). rewrite E. cbn [QBF invert cls Z.eqb Pos.eqb]. rewrite Z.lxor_0_r. replace (Z.land (Z.b2z b) 1) with (Z.b2z b) by (destruct b; reflexivity). unfold inc at 1. replace (bits (fst s) <? 2147483647) with true by lia. cbn [rbind]. destruct s as [r x]. cbn [fst snd] in *. unfold put2. cbn [w_bits reg step step_bit total bad].
  replace (step_bit r + 1 =? 7) with true by lia. rewrite Hs. pose proof (Nat.mod_upper_bound t 153 ltac:(lia)) as Mt. assert (Ct : char_at (t mod 153) = char_at t) by (unfold char_at; rewrite text_len, Nat.mod_mod by lia; reflexivity). rewrite char_get by lia. rewrite Ct. cbn [rbind]. fold (shift_in (reg r) b).
  assert (Nx : exists ch, aget (qbf ++ [0]) (Z.of_nat (t mod 153) + 1) = Ok ch /\ (if ch =? 0 then 0 else Z.of_nat (t mod 153) + 1) = Z.of_nat (S t mod 153)).
  { rewrite nat_mod_S by lia. destruct (Nat.eqb_spec (S (t mod 153)) 153) as [Q|Q].
    - exists 0. replace (Z.of_nat (t mod 153) + 1) with 153 by lia. split; [apply char_end | reflexivity].
    - exists (char_at (S (t mod 153))). replace (Z.of_nat (t mod 153) + 1) with (Z.of_nat (S (t mod 153))) by lia. split; [apply char_get; lia|]. pose proof (char_range (S (t mod 153))). replace (char_at (S (t mod 153)) =? 0) with false by lia. reflexivity. }
  destruct Nx as (ch & Nx1 & Nx2). unfold inc. destruct (shift_in (reg r) b =? char_at t); [|replace (bad x <? 2147483647) with true by lia]; cbn [rbind]; rewrite Nx1; cbn [rbind]; rewrite Nx2; replace (total x <? 2147483647) with true by lia; cbn [rbind fst snd]; (destruct (0 <? freq c); [destruct (_ <=? 0)|]); eexists _, _; (split; [reflexivity|]); cbn; repeat split; try reflexivity; lia.
Qed.
Definition at_char (s : state) (t : nat) : Prop := (exists g, 0 <= g < 128 /\ text_ok s g (Z.of_nat (t mod 153)) 0) /\ total (snd s) <= bits (fst s) /\ 0 <= bad (snd s) <= total (snd s).
Lemma put_char c s t x : pt c = QBF -> at_char s t -> length x = 7%nat -> bits (fst s) + 7 <= 2147483647 ->
  exists s' ev, puts c s (as_bits x) = Ok (s', ev) /\ at_char s' (S t) /\ total (snd s') = total (snd s) + 7 /\ bits (fst s') = bits (fst s) + 7 /\ bad (snd s') = bad (snd s) + if list_eq_dec Bool.bool_dec x (char_bits (char_at t)) then 0 else 1.
Proof.
  intros E ((g & G & K) & T & Bd) L B. pose proof (shift7 g x G L) as F. pose proof (val_char x (char_at t) ltac:(pose proof (char_range t); lia) L) as V. assert (Vr : 0 <= val x < 128). { destruct x as [|[|] [|[|] [|[|] [|[|] [|[|] [|[|] [|[|] [|]]]]]]]]; try discriminate; cbn; lia. }
  destruct x as [|x0 [|x1 [|x2 [|x3 [|x4 [|x5 [|x6 [|]]]]]]]]; try discriminate. cbn [as_bits map puts fold_left] in *.
  destruct (put_text c s x0 _ _ _ E K) as (s0 & e0 & -> & K0 & T0 & B0 & D0); try lia. cbn [rbind].
  destruct (put_text c s0 x1 _ _ _ E K0) as (s1 & e1 & -> & K1 & T1 & B1 & D1); try lia. cbn [rbind].
  destruct (put_text c s1 x2 _ _ _ E K1) as (s2 & e2 & -> & K2 & T2 & B2 & D2); try lia. cbn [rbind].
  destruct (put_text c s2 x3 _ _ _ E K2) as (s3 & e3 & -> & K3 & T3 & B3 & D3); try lia. cbn [rbind].
  destruct (put_text c s3 x4 _ _ _ E K3) as (s4 & e4 & -> & K4 & T4 & B4 & D4); try lia. cbn [rbind].
  destruct (put_text c s4 x5 _ _ _ E K4) as (s5 & e5 & -> & K5 & T5 & B5 & D5); try lia. cbn [rbind].
  destruct (put_last c s5 x6 _ t _ E K5) as (s6 & e6 & -> & K6 & T6 & B6 & D6); try lia. cbn [rbind]. rewrite F in K6, D6.
  assert (Df : bad (snd s6) = bad (snd s) + (if list_eq_dec Bool.bool_dec [x0; x1; x2; x3; x4; x5; x6] (char_bits (char_at t)) then 0 else 1)) by (destruct (list_eq_dec _ _ _) as [Q|Q], (Z.eqb_spec (val [x0; x1; x2; x3; x4; x5; x6]) (char_at t)) as [Q'|Q']; try lia; exfalso; tauto).
  eexists _, _. split; [reflexivity|]. split; [|split; [lia | split; [lia | exact Df]]]. unfold at_char. split; [exists (val [x0; x1; x2; x3; x4; x5; x6]); split; [exact Vr | exact K6]|]. destruct (list_eq_dec _ _ _) in Df; lia.
Qed.
Lemma puts_text c xs : pt c = QBF -> forall t s, at_char s t -> Forall (fun x => length x = 7%nat) xs -> bits (fst s) + 7 * Z.of_nat (length xs) <= 2147483647 ->
  exists s' ev, puts c s (as_bits (concat xs)) = Ok (s', ev) /\ total (snd s') = total (snd s) + 7 * Z.of_nat (length xs) /\ bad (snd s') = bad (snd s) + wrong_chars t xs.
Proof.
  intros E. induction xs as [|x xs IH]; intros t s A F B; [exists s, []; cbn; repeat split; lia|]. apply Forall_cons_iff in F as [F1 F2]. cbn [length] in B. cbn [concat]. unfold as_bits. rewrite map_app, puts_app. destruct (put_char c s t x E A F1) as (s1 & e1 & Q & A1 & T1 & B1 & D1); [lia|]. unfold as_bits in Q. rewrite Q. cbn [rbind].
  destruct (IH (S t) s1 A1 F2) as (s2 & e2 & Q2 & T2 & D2); [lia|]. unfold as_bits in Q2. rewrite Q2. cbn [rbind]. exists s2, (e1 ++ e2). split; [reflexivity|]. cbn [length wrong_chars]. split; [lia|]. rewrite D2, D1. lia.
Qed.
Lemma typed_clean t n : typed t n = concat (map (fun t => char_bits (char_at t)) (seq t n)) /\ wrong_chars t (map (fun t => char_bits (char_at t)) (seq t n)) = 0.
Proof. split; [unfold typed; apply flat_map_concat_map|]. revert t. induction n; intros t; [reflexivity|]. cbn [seq map wrong_chars]. rewrite IHn. destruct (list_eq_dec _ _ _); [reflexivity | contradiction]. Qed.
