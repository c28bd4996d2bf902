(** The ADSI transmitter's line signal. *)
From Verif Require Import Base Crc_spec Crc_model Crc_proofs Adsi_model Adsi_spec Adsi_rx_proofs.
From Coq Require Import ZifyBool ZifyNat.

Section Tx.
Variables (std : Z) (msg : list Z) (len pre ones post stop shift : Z).
Hypothesis Hlen : 1 <= len <= Z.of_nat (length msg).
Hypothesis Hbytes : bytes msg.
Hypothesis Hpre : 0 <= pre.
Hypothesis Hones : 0 <= ones.
Hypothesis Hpost : 0 <= post.
Hypothesis Hsum : pre + ones + post < 2 ^ 29.
Hypothesis Hstop : 0 <= stop < 2 ^ 30.

Definition T (byte_no bit_pos bit_no : Z) : tx := mkTx std true byte_no bit_pos bit_no msg len pre ones post stop shift.
Definition emits (s : tx) (l : list bool) (s1 : tx) : Prop :=
  forall fuel, line (length l + fuel) s = rbind (line fuel s1) (fun p => let (s', l') := p in Ok (s', map Z.b2z l ++ l')).

Lemma emits_nil s : emits s [] s.
Proof. intros fuel. cbn. destruct (line fuel s) as [[]|]; reflexivity. Qed.
Lemma emits_app s l s1 l1 s2 : emits s l s1 -> emits s1 l1 s2 -> emits s (l ++ l1) s2.
Proof.
  intros H H1 fuel. rewrite app_length, <- Nat.add_assoc, H, H1.
  destruct (line fuel s2) as [[s3 l3]|]; cbn [rbind]; [|reflexivity]. rewrite map_app, app_assoc. reflexivity.
Qed.
Lemma emits_one s b s1 : adsi_tx_get_bit s = Ok (s1, Z.b2z b) -> emits s [b] s1.
Proof.
  intros H fuel. cbn [length Nat.add line]. rewrite H. cbn [rbind].
  assert ((Z.b2z b <? 0) = false) as -> by (destruct b; reflexivity). reflexivity.
Qed.
Lemma emits_cons s b s1 l s2 : adsi_tx_get_bit s = Ok (s1, Z.b2z b) -> emits s1 l s2 -> emits s (b :: l) s2.
Proof. intros H H1. exact (emits_app s [b] s1 l s2 (emits_one _ _ _ H) H1). Qed.

Lemma iadd_ok a b : -2147483648 <= a + b <= 2147483647 -> iadd a b = Ok (a + b).
Proof. intros H. unfold iadd. destruct (Z.leb_spec (-2147483648) (a + b)); destruct (Z.leb_spec (a + b) 2147483647); cbn; try lia; reflexivity. Qed.

Fixpoint alt (b : bool) (n : nat) : list bool := match n with O => [] | S k => b :: alt (negb b) k end.

Lemma land1_odd z : Z.land z 1 = Z.b2z (Z.odd z).
Proof. change 1 with (Z.ones 1). rewrite Z.land_ones by lia. change (2 ^ 1) with 2. rewrite Zmod_odd. destruct (Z.odd z); reflexivity. Qed.

Ltac tx := unfold adsi_tx_get_bit, T; cbn [t_bit_no t_pre t_ones t_post t_bit_pos t_byte_no t_msg t_len t_stop t_on];
  rewrite ?iadd_ok by lia; cbn [rbind].
Ltac fin := unfold set_t_pos; cbn [t_std t_on t_byte_no t_bit_pos t_bit_no t_msg t_len t_pre t_ones t_post t_stop t_shift].

Lemma emits_alt n : forall i, 0 <= i -> i + Z.of_nat n <= pre ->
  emits (T 0 0 i) (alt (Z.odd i) n) (T 0 0 (i + Z.of_nat n)).
Proof.
  induction n as [|n IH]; intros i Hi Hn.
  - rewrite Z.add_0_r. apply emits_nil.
  - cbn [alt]. apply emits_cons with (s1 := T 0 0 (i + 1)).
    + tx. destruct (Z.ltb_spec i pre); [|lia]. fin. rewrite land1_odd. reflexivity.
    + replace (i + Z.of_nat (S n)) with (i + 1 + Z.of_nat n) by lia.
      replace (negb (Z.odd i)) with (Z.odd (i + 1)) by (rewrite Z.odd_add; destruct (Z.odd i); reflexivity).
      apply IH; lia.
Qed.
Lemma emits_ones n : forall i, pre <= i -> i + Z.of_nat n <= pre + ones ->
  emits (T 0 0 i) (repeat true n) (T 0 0 (i + Z.of_nat n)).
Proof.
  induction n as [|n IH]; intros i Hi Hn.
  - rewrite Z.add_0_r. apply emits_nil.
  - cbn [repeat]. apply emits_cons with (s1 := T 0 0 (i + 1)).
    + tx. destruct (Z.ltb_spec i pre); [lia|]. destruct (Z.ltb_spec i (pre + ones)); [|lia]. fin. reflexivity.
    + replace (i + Z.of_nat (S n)) with (i + 1 + Z.of_nat n) by lia. apply IH; lia.
Qed.

(** A character: a start bit, eight bits and the stop bits. *)
Definition stops : nat := Z.to_nat (Z.max 1 stop).
Definition chr (b : Z) : list bool := false :: bits_lsb 8 b ++ repeat true stops.
Definition next (k : Z) : Z := if len <=? k + 1 then pre + ones + 1 else pre + ones.

Lemma start_bit k : adsi_tx_get_bit (T k 0 (pre + ones)) = Ok (T k 1 (pre + ones), Z.b2z false).
Proof.
  tx. destruct (Z.ltb_spec (pre + ones) pre); [lia|]. cbn [rbind]. rewrite ?iadd_ok by lia. cbn [rbind].
  rewrite Z.ltb_irrefl, Z.leb_refl. cbn [Z.eqb]. fin. reflexivity.
Qed.
Lemma data_bit k j : 0 <= k < len -> 1 <= j <= 8 ->
  adsi_tx_get_bit (T k j (pre + ones)) = Ok (T k (j + 1) (pre + ones), Z.b2z (Z.testbit (nth (Z.to_nat k) msg 0) (j - 1))).
Proof.
  intros Hk Hj. tx. destruct (Z.ltb_spec (pre + ones) pre); [lia|]. rewrite ?iadd_ok by lia. cbn [rbind].
  rewrite Z.ltb_irrefl, Z.leb_refl. destruct (Z.eqb_spec j 0); [lia|]. destruct (Z.ltb_spec j (1 + 8)); [|lia].
  rewrite aget_in by lia. cbn [rbind]. fin. rewrite land1_odd, <- Z.bit0_odd, Z.shiftr_spec by lia. do 4 f_equal; lia.
Qed.
Lemma stop_bit k j : 9 <= j < 8 + stop ->
  adsi_tx_get_bit (T k j (pre + ones)) = Ok (T k (j + 1) (pre + ones), Z.b2z true).
Proof.
  intros Hj. tx. destruct (Z.ltb_spec (pre + ones) pre); [lia|]. rewrite ?iadd_ok by lia. cbn [rbind].
  rewrite Z.ltb_irrefl, Z.leb_refl. destruct (Z.eqb_spec j 0); [lia|]. destruct (Z.ltb_spec j (1 + 8)); [lia|].
  rewrite ?iadd_ok by lia. cbn [rbind]. destruct (Z.ltb_spec j (9 + stop - 1)); [|lia]. fin. reflexivity.
Qed.
Lemma last_stop k j : 9 <= j -> 8 + stop <= j ->
  adsi_tx_get_bit (T k j (pre + ones)) = Ok (T (k + 1) 0 (next k), Z.b2z true).
Proof.
  intros Hj Hj2. tx. destruct (Z.ltb_spec (pre + ones) pre); [lia|]. rewrite ?iadd_ok by lia. cbn [rbind].
  rewrite Z.ltb_irrefl, Z.leb_refl. destruct (Z.eqb_spec j 0); [lia|]. destruct (Z.ltb_spec j (1 + 8)); [lia|].
  rewrite ?iadd_ok by lia. cbn [rbind]. destruct (Z.ltb_spec j (9 + stop - 1)); [lia|]. fin. reflexivity.
Qed.
Lemma emits_stops k n : forall j, 9 <= j -> (8 + stop <= j -> n = O) -> j + Z.of_nat n = Z.max 9 (8 + stop) ->
  emits (T k j (pre + ones)) (repeat true (S n)) (T (k + 1) 0 (next k)).
Proof.
  induction n as [|n IH]; intros j Hj Hz Hn.
  - apply emits_one. apply last_stop; lia.
  - change (repeat true (S (S n))) with (true :: repeat true (S n)). apply emits_cons with (s1 := T k (j + 1) (pre + ones)).
    + apply stop_bit. lia.
    + apply IH; lia.
Qed.
Lemma emits_chr k : 0 <= k < len -> emits (T k 0 (pre + ones)) (chr (nth (Z.to_nat k) msg 0)) (T (k + 1) 0 (next k)).
Proof.
  intros Hk. unfold chr. eapply emits_cons; [apply start_bit|].
  eapply emits_app.
  - assert (G : forall n j, 1 <= j -> j + Z.of_nat n = 9 ->
      emits (T k j (pre + ones)) (map (fun i => Z.testbit (nth (Z.to_nat k) msg 0) (j - 1 + Z.of_nat i)) (seq 0 n)) (T k 9 (pre + ones))).
    { induction n as [|n IH]; intros j Hj Hn.
      - replace j with 9 by lia. apply emits_nil.
      - cbn [seq map]. rewrite <- seq_shift, map_map. eapply emits_cons.
        + rewrite Z.add_0_r. apply data_bit; lia.
        + specialize (IH (j + 1)). replace (map _ (seq 0 n)) with (map (fun i => Z.testbit (nth (Z.to_nat k) msg 0) (j + 1 - 1 + Z.of_nat i)) (seq 0 n)).
          * apply IH; lia.
          * apply map_ext. intros i. f_equal. lia. }
    replace (bits_lsb 8 (nth (Z.to_nat k) msg 0)) with (map (fun i => Z.testbit (nth (Z.to_nat k) msg 0) (1 - 1 + Z.of_nat i)) (seq 0 8)).
    + apply G; lia.
    + apply (nth_ext _ _ false false); [rewrite map_length, seq_length, bits_lsb_length; reflexivity|].
      rewrite map_length, seq_length. intros i Hi. rewrite nth_bits_lsb by lia.
      do 8 (destruct i as [|i]; [reflexivity|]). lia.
  - unfold stops. replace (Z.to_nat (Z.max 1 stop)) with (S (Z.to_nat (Z.max 1 stop - 1))) by lia. apply emits_stops; lia.
Qed.
Lemma emits_chrs n : forall k, 0 <= k -> k + Z.of_nat n = len -> (n <> 0)%nat ->
  emits (T k 0 (pre + ones)) (flat_map chr (firstn n (skipn (Z.to_nat k) msg))) (T len 0 (pre + ones + 1)).
Proof.
  induction n as [|n IH]; intros k Hk Hn Hz; [lia|].
  assert (E : firstn (S n) (skipn (Z.to_nat k) msg) = nth (Z.to_nat k) msg 0 :: firstn n (skipn (Z.to_nat (k + 1)) msg)).
  { replace (Z.to_nat (k + 1)) with (S (Z.to_nat k)) by lia. 
    assert (L : (Z.to_nat k < length msg)%nat) by lia. revert L. generalize (Z.to_nat k) as i. clear.
    induction msg as [|a l IH]; intros i L; cbn in L; [lia|]. destruct i as [|i]; [reflexivity|].
    change (skipn (S i) (a :: l)) with (skipn i l). change (skipn (S (S i)) (a :: l)) with (skipn (S i) l). cbn [nth]. apply IH. lia. }
  rewrite E. cbn [flat_map]. eapply emits_app; [apply emits_chr; lia|].
  unfold next. destruct n as [|n].
  - destruct (Z.leb_spec len (k + 1)); [|lia]. replace (k + 1) with len by lia. apply emits_nil.
  - destruct (Z.leb_spec len (k + 1)); [lia|]. apply IH; lia.
Qed.
Lemma emits_post n : forall i, pre + ones < i -> i + Z.of_nat n <= pre + ones + post + 1 ->
  emits (T len 0 i) (repeat true n) (T len 0 (i + Z.of_nat n)).
Proof.
  induction n as [|n IH]; intros i Hi Hn.
  - rewrite Z.add_0_r. apply emits_nil.
  - cbn [repeat]. apply emits_cons with (s1 := T len 0 (i + 1)).
    + tx. destruct (Z.ltb_spec i pre); [lia|]. rewrite ?iadd_ok by lia. cbn [rbind]. destruct (Z.ltb_spec i (pre + ones)); [lia|].
      destruct (Z.leb_spec i (pre + ones)); [lia|]. rewrite ?iadd_ok by lia. cbn [rbind].
      destruct (Z.leb_spec i (pre + ones + post)); [|lia]. fin. reflexivity.
    + replace (i + Z.of_nat (S n)) with (i + 1 + Z.of_nat n) by lia. apply IH; lia.
Qed.

Definition signal : list bool :=
  alt false (Z.to_nat pre) ++ repeat true (Z.to_nat ones) ++ flat_map chr (firstn (Z.to_nat len) msg) ++ repeat true (Z.to_nat post).

Lemma line_ok fuel : (length signal < fuel)%nat ->
  line fuel (T 0 0 0) = Ok (mkTx std false len 0 (pre + ones + post + 1) msg 0 pre ones post stop shift, map Z.b2z signal).
Proof.
  intros Hf.
  assert (E : emits (T 0 0 0) signal (T len 0 (pre + ones + post + 1))).
  { unfold signal. eapply emits_app; [apply (emits_alt (Z.to_nat pre) 0); lia|].
    eapply emits_app; [apply (emits_ones (Z.to_nat ones) (0 + Z.of_nat (Z.to_nat pre))); lia|].
    replace (0 + Z.of_nat (Z.to_nat pre) + Z.of_nat (Z.to_nat ones)) with (pre + ones) by lia.
    eapply emits_app; [apply (emits_chrs (Z.to_nat len) 0); lia|].
    replace (pre + ones + post + 1) with (pre + ones + 1 + Z.of_nat (Z.to_nat post)) by lia.
    apply emits_post; lia. }
  specialize (E (fuel - length signal)%nat). replace (length signal + (fuel - length signal))%nat with fuel in E by lia.
  rewrite E. destruct (fuel - length signal)%nat as [|n] eqn:En; [lia|]. cbn [line].
  tx. destruct (Z.ltb_spec (pre + ones + post + 1) pre); [lia|]. rewrite ?iadd_ok by lia. cbn [rbind].
  destruct (Z.ltb_spec (pre + ones + post + 1) (pre + ones)); [lia|].
  destruct (Z.leb_spec (pre + ones + post + 1) (pre + ones)); [lia|]. rewrite ?iadd_ok by lia. cbn [rbind].
  destruct (Z.leb_spec (pre + ones + post + 1) (pre + ones + post)); [lia|].
  cbn [rbind END_OF_DATA Z.ltb Z.compare]. rewrite app_nil_r. reflexivity.
Qed.
End Tx.
