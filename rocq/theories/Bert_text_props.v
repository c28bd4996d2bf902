(** The text of the bit error rate tester: the properties. *)
From Verif Require Import Base Bert_model Bert_spec Bert_proofs Bert_rx_proofs Bert_sync_proofs Bert_text_spec Bert_text_proofs.
Local Open Scope Z_scope.

(** C146: the text is sent again and again. A receiver that starts with it counts the characters that are wrong, and so none on a line
    without errors, for as long as the counts last. *)
Theorem bert_text_sends c n : pt c = pattern 7 -> 7 * Z.of_nat n <= 2147483647 -> (limit c = 0 \/ 7 * Z.of_nat n <= limit c) -> exists s', gets c (tx_init (pt c)) (n * 7) = Ok (s', as_bits (typed 0 n)).
Proof. intros E B L. apply (gets_text c n E 0 (tx_init (pt c))); [split; [reflexivity | left; reflexivity] | exact B | exact L]. Qed.
Theorem bert_text_receives c xs : pt c = pattern 7 -> Forall (fun x => length x = 7%nat) xs -> 7 * Z.of_nat (length xs) <= 2147483647 ->
  exists s' ev, puts c (rx_init c) (as_bits (concat xs)) = Ok (s', ev) /\ total (snd s') = 7 * Z.of_nat (length xs) /\ bad (snd s') = wrong_chars 0 xs.
Proof.
  intros E F B. destruct (puts_text c xs E 0 (rx_init c)) as (s' & ev & Q & T & D); [|exact F | exact B|].
  - split; [exists 0; split; [lia|]; unfold text_ok; cbn; rewrite E; repeat split; reflexivity | cbn; lia].
  - exists s', ev. auto.
Qed.
Theorem bert_text_clean c n : pt c = pattern 7 -> 7 * Z.of_nat n <= 2147483647 -> exists s' ev, puts c (rx_init c) (as_bits (typed 0 n)) = Ok (s', ev) /\ total (snd s') = 7 * Z.of_nat n /\ bad (snd s') = 0.
Proof.
  intros E B. destruct (typed_clean 0 n) as [C1 C2]. rewrite C1. destruct (bert_text_receives c (map (fun t => char_bits (char_at t)) (seq 0 n)) E) as (s' & ev & Q & T & D).
  - apply Forall_forall. intros x H. apply in_map_iff in H as (t & <- & _). reflexivity.
  - rewrite map_length, seq_length. exact B.
  - exists s', ev. rewrite map_length, seq_length in T. rewrite C2 in D. auto.
Qed.
Example bert_text_ex : typed 152 2 = [true; false; false; true; false; true; false; false; true; true; false; true; false; true].
Proof. vm_compute. reflexivity. Qed.
Print Assumptions bert_text_sends. Print Assumptions bert_text_receives. Print Assumptions bert_text_clean.
