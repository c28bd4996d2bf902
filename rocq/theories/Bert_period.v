(** The generators have the longest period, and what bert_get_bit gives. *)
From Verif Require Import Base Bert_model Bert_spec Bert_proofs Bert_matrix.
Local Open Scope Z_scope.

Lemma period15 : no_return {| len := 15; tap := 1; inverted := true |} (Z.ones 15) 32766 = true.
Proof. vm_cast_no_check (eq_refl true). Qed.
Lemma period11 : no_return {| len := 11; tap := 2; inverted := false |} (Z.ones 11) 2046 = true.
Proof. vm_cast_no_check (eq_refl true). Qed.
Lemma period9 : no_return {| len := 9; tap := 4; inverted := false |} (Z.ones 9) 510 = true.
Proof. vm_cast_no_check (eq_refl true). Qed.
Lemma itu_period n g P : itu n g -> Z.of_nat P = 2 ^ Z.of_nat (len g) - 1 -> reg_at g (Z.ones (Z.of_nat (len g))) P = Z.ones (Z.of_nat (len g)) /\ forall t, (0 < t < P)%nat -> reg_at g (Z.ones (Z.of_nat (len g))) t <> Z.ones (Z.of_nat (len g)).
Proof.
  intros I E. destruct I as [J|I]; [injection J as <- <-; apply period23; rewrite E; reflexivity|]. assert (X : exists m, P = S (Pos.to_nat m) /\ no_return g (Z.ones (Z.of_nat (len g))) m = true).
  { destruct I as [J|[J|[J|[]]]]; injection J as <- <-; cbn [len] in *; [exists 32766%positive; split; [|exact period15] | exists 2046%positive; split; [|exact period11] | exists 510%positive; split; [|exact period9]]; clear -E; cbn in E; lia. }
  destruct X as (m & -> & N). apply no_return_ok. exact N.
Qed.
Lemma generates c n g k : itu n g -> pt c = pattern n -> Z.of_nat k <= 2147483647 -> (limit c = 0 \/ Z.of_nat k <= limit c) ->
  exists s' l, gets c (tx_init (pt c)) k = Ok (s', as_bits l) /\ length l = k /\ (forall t, (t < len g)%nat -> (t < k)%nat -> at_ g l t = true) /\ follows g l /\
    forall P, Z.of_nat P = 2 ^ Z.of_nat (len g) - 1 ->
      (forall t, (t + P < k)%nat -> nth (t + P) l false = nth t l false) /\
      (forall q, (0 < q < P)%nat -> (q + len g <= k)%nat -> exists t, (t < len g)%nat /\ nth (q + t) l false <> nth t l false).
Proof.
  intros I E B L. pose proof (itu_good n g I) as G. rewrite <- E in G. pose proof (g_order _ _ G) as T. assert (Q : t_reg (tx_init (pt c)) = Z.ones (Z.of_nat (len g))) by (cbn; apply (g_reg _ _ G)).
  pose proof (ones_range g) as R. destruct (gets_good c g k G (tx_init (pt c))) as (s' & F & _ & _); [rewrite Q; exact R | exact B | exact L|]. rewrite Q in F. eexists s', _. split; [exact F|]. split; [rewrite map_length, seq_length; reflexivity|].
  split. { intros t H K. unfold at_. rewrite nth_bits by lia. unfold bit_at. rewrite <- (seq_bit g _ t T R H). rewrite Z.ones_spec_low by lia. destruct (inverted g); reflexivity. }
  split; [apply follows_seq; assumption|]. intros P HP. destruct (itu_period n g P I HP) as [P1 P2]. split.
  - intros t H. rewrite !nth_bits by lia. unfold bit_at, seq_at. rewrite (Nat.add_comm t P), reg_at_add, P1. reflexivity.
  - intros q H K. destruct (differ g _ _ T (reg_at_range g q T _ R) R (P2 q H)) as (i & Hi & D). exists i. split; [exact Hi|]. rewrite !nth_bits by lia. unfold bit_at. replace (seq_at g _ (q + i)) with (seq_at g (reg_at g (Z.ones (Z.of_nat (len g))) q) i) by (unfold seq_at; rewrite reg_at_add; reflexivity).
    destruct (seq_at g (reg_at g (Z.ones (Z.of_nat (len g))) q) i), (seq_at g (Z.ones (Z.of_nat (len g))) i), (inverted g); cbn in *; congruence.
Qed.
