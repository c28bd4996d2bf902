(** The bit error rate tester: the loss of sync. *)
From Verif Require Import Base Bert_model Bert_spec Bert_proofs Bert_rx_proofs Bert_sync_proofs.
Local Open Scope Z_scope.

Lemma put_resync c s b s' e : cls (pt c) = 1 -> resync (fst s) = 0 -> put_bit c s b = Ok (s', e) -> (resync (fst s') = 0 /\ ~ In Unsynced e /\ resyncs (snd s') = resyncs (snd s)) \/ (resync (fst s') = 1 /\ In Unsynced e /\ resyncs (snd s') = resyncs (snd s) + 1).
Proof.
  intros Cl R0. unfold put_bit. destruct (b <? 0); [intros H; injection H as <- <-; left; auto|]. unfold inc at 1. destruct (bits (fst s) <? 2147483647); cbn [rbind]; [|discriminate]. rewrite Cl. cbn [Z.eqb Pos.eqb]. destruct s as [r x]. cbn [fst snd] in *. set (bit := Z.lxor _ _). clearbody bit.
  match goal with |- rbind ?m _ = _ -> _ => destruct m as [[[r1 x1] e1]|] eqn:Mp end; cbn [rbind]; [|discriminate].
  assert (X : (resync r1 = 0 /\ ~ In Unsynced e1 /\ resyncs x1 = resyncs x) \/ (resync r1 = 1 /\ In Unsynced e1 /\ resyncs x1 = resyncs x + 1)).
  { revert Mp. unfold put1. cbn [w_bits resync total reg zeros bad bad_bits decs mstep cnt resyncs ref_reg step step_bit bits countdown]. rewrite R0. cbn [Z.eqb negb]. destruct (inc (total x)); cbn [rbind]; [|discriminate]. match goal with |- match ?m with (_, _) => _ end = _ -> _ => destruct m as [u v] end. set (w := Z.land _ _). clearbody w.
    match goal with |- rbind ?m _ = _ -> _ => destruct m as [[[bb rb] d]|] eqn:E1 end; cbn [rbind]; [|discriminate]. match goal with |- rbind ?m _ = _ -> _ => destruct m as [[[mm dd] ee]|] eqn:E2 end; cbn [rbind]; [|discriminate]. match goal with |- rbind ?m _ = _ -> _ => destruct m as [[[[[n cn] rb'] rs] e']|] eqn:E3 end; cbn [rbind]; [|discriminate]. intros H. injection H as <- <- <-. cbn [resync resyncs].
    assert (Ne : ~ In Unsynced ee). { revert E2. destruct (mstep r - 1 <=? 0); [|intros H; injection H as _ _ <-; intros []]. destruct (assess [2; 3; 4; 5; 6; 7] true d) as [[d' e'']|] eqn:A; cbn [rbind]; [|discriminate]. intros H. injection H as _ _ <-. assert (Q : forall is t d d' ev, assess is t d = Ok (d', ev) -> ~ In Unsynced ev).
      { clear. induction is as [|i is IH]; intros t d d' ev; cbn [assess].
        - destruct (aget (ptrs d) 8); cbn [rbind]; [|discriminate]. match goal with |- rbind ?m _ = _ -> _ => destruct m end; cbn [rbind]; [|discriminate]. destruct t; intros H; injection H as _ <-; [destruct (rate d =? 8); cbn; intuition discriminate | intros []].
        - destruct (aget (ptrs d) i); cbn [rbind]; [|discriminate]. match goal with |- rbind ?m _ = _ -> _ => destruct m end; cbn [rbind]; [|discriminate]. destruct (_ <? 10); [match goal with |- rbind ?m _ = _ -> _ => destruct m end; cbn [rbind]; [|discriminate]; intros H; injection H as _ <-; intros []|].
          match goal with |- rbind ?m _ = _ -> _ => destruct m end; cbn [rbind]; [|discriminate]. match goal with |- rbind ?m _ = _ -> _ => destruct m as [rr|] end; cbn [rbind]; [|discriminate]. match goal with |- rbind ?m _ = _ -> _ => destruct m end; cbn [rbind]; [|discriminate]. match goal with |- rbind ?m _ = _ -> _ => destruct m end; cbn [rbind]; [|discriminate]. match goal with |- rbind ?m _ = _ -> _ => destruct m as [[d1 e1]|] eqn:A end; cbn [rbind]; [|discriminate]. intros H. injection H as _ <-. intros Y. apply in_app_or in Y as [Y|Y]; [|exact (IH _ _ _ _ A Y)]. destruct (_ && negb (rate d =? i)) in Y; cbn in Y; intuition discriminate. }
      exact (Q _ _ _ _ _ A). }
    revert E3. destruct (cnt r - 1 <=? 0); [|intros H; injection H as <- _ _ <- <-; left; rewrite app_nil_r; auto]. cbv zeta. destruct ((resync_len c * resync_percent c <? -2147483648) || (2147483647 <? resync_len c * resync_percent c)); [discriminate|]. destruct (Z.quot _ 100 <=? rb).
    - unfold inc. destruct (resyncs x <? 2147483647); cbn [rbind]; [|discriminate]. intros H. injection H as <- _ _ <- <-. right. split; [reflexivity|]. split; [apply in_or_app; right; left; reflexivity | reflexivity].
    - intros H. injection H as <- _ _ <- <-. left. rewrite app_nil_r. auto. }
  cbn [fst snd]. destruct (0 <? freq c); [destruct (countdown r1 - 1 <=? 0)|]; intros H; injection H as <- <-; cbn [fst snd resync w_countdown]; try exact X. destruct X as [(X1 & X2 & X3)|(X1 & X2 & X3)]; [left | right]; (split; [exact X1|]); (split; [|exact X3]); [intros Y; apply in_app_or in Y as [Y|[Y|[]]]; [contradiction | discriminate] | apply in_or_app; left; exact X2].
Qed.
(** a receiver that has sync and begins a window *)
Definition begins (c : cfg) (g : prng) (s : state) : Prop := sane g s /\ resync (fst s) = 0 /\ cnt (fst s) = resync_len c /\ bad_bits (fst s) = 0.
Lemma in_window c m g l : itu m g -> pt c = pattern m -> fits c -> forall s, sane g s -> resync (fst s) = 0 -> Z.of_nat (length l) = cnt (fst s) -> bits (fst s) + Z.of_nat (length l) <= 2147483647 -> (length l > 0)%nat ->
  exists s' ev, puts c s (as_bits l) = Ok (s', ev) /\ sane g s' /\ total (snd s') = total (snd s) + Z.of_nat (length l) /\ cnt (fst s') = resync_len c /\ bad_bits (fst s') = 0 /\
    ((Z.quot (resync_len c * resync_percent c) 100 <= bad_bits (fst s) + (bad (snd s') - bad (snd s)) /\ In Unsynced ev /\ resync (fst s') = 1 /\ resyncs (snd s') = resyncs (snd s) + 1) \/
     (bad_bits (fst s) + (bad (snd s') - bad (snd s)) < Z.quot (resync_len c * resync_percent c) 100 /\ ~ In Unsynced ev /\ resync (fst s') = 0 /\ resyncs (snd s') = resyncs (snd s))).
Proof.
  intros I E Fi. assert (G : good (pt c) g) by (rewrite E; apply itu_good; exact I). assert (Cl : cls (pt c) = 1) by (rewrite E; destruct I as [I|[I|[I|[I|[]]]]]; injection I as <- _; reflexivity).
  induction l as [|b l IH]; intros s Sa R C B L; cbn [length] in *; [lia|]. cbn [as_bits map puts]. destruct (put_good c g s (xorb b (inverted g)) G Fi Sa) as (s1 & e1 & Q & Sa1 & B1 & D); [lia|]. replace (xorb (xorb b (inverted g)) (inverted g)) with b in Q by (destruct b, (inverted g); reflexivity). rewrite R in D. cbn [Z.eqb] in D. destruct D as (_ & D2 & D3 & _ & D5 & _). rewrite Q. cbn [rbind]. pose proof (put_resync c s (Z.b2z b) s1 e1 Cl R Q) as P.
  set (wr := wrong g s (xorb b (inverted g))) in *. unfold window in D5. destruct l as [|b' l].
  - cbn [map puts rbind]. rewrite app_nil_r. exists s1, e1. cbn [length] in *. replace (cnt (fst s) - 1 <=? 0) with true in D5 by lia. destruct D5 as (W1 & W2 & W3). split; [reflexivity|]. split; [exact Sa1|]. split; [lia|]. split; [exact W1|]. split; [exact W2|]. replace (bad (snd s1) - bad (snd s)) with wr by lia. destruct P as [(P1 & P2 & P3)|(P1 & P2 & P3)]; [right | left].
    + split; [|auto]. destruct (Z.ltb_spec (bad_bits (fst s) + wr) (Z.quot (resync_len c * resync_percent c) 100)) as [X|X]; [exact X|]. tauto.
    + split; [apply W3; exact P2 | auto].
  - cbn [length] in *. replace (cnt (fst s) - 1 <=? 0) with false in D5 by lia. destruct D5 as (W1 & W2 & W3). destruct P as [(P1 & P2 & P3)|(_ & P2 & _)]; [|contradiction]. destruct (IH s1 Sa1 P1) as (s' & ev & Q2 & V1 & V2 & V3 & V4 & V5); [lia | lia | lia|]. unfold as_bits in Q2. rewrite Q2. cbn [rbind]. exists s', (e1 ++ ev). split; [reflexivity|]. split; [exact V1|]. split; [lia|]. split; [exact V3|]. split; [exact V4|]. rewrite W2 in V5. replace (bad_bits (fst s) + wr + (bad (snd s') - bad (snd s1))) with (bad_bits (fst s) + (bad (snd s') - bad (snd s))) in V5 by lia. rewrite P3 in V5. destruct V5 as [(A1 & A2 & A3)|(A1 & A2 & A3)]; [left | right]; (split; [exact A1|]); (split; [|exact A3]); [apply in_or_app; right; exact A2 | intros Y; apply in_app_or in Y as [Y|Y]; contradiction].
Qed.

(** C147: whatever comes, a window of resync_len bits that has at least resync_percent of its bits wrong, rounded down, ends with the
    loss of sync told and counted, and one with fewer does not. After the loss the receiver looks for the pattern again as
    bert_receives has it; else the next window begins. *)
Theorem bert_window c m g l s : itu m g -> pt c = pattern m -> fits c -> 1 <= resync_len c -> begins c g s -> Z.of_nat (length l) = resync_len c -> bits (fst s) + resync_len c <= 2147483647 ->
  exists s' ev, puts c s (as_bits l) = Ok (s', ev) /\ total (snd s') = total (snd s) + resync_len c /\
    ((Z.quot (resync_len c * resync_percent c) 100 <= bad (snd s') - bad (snd s) /\ In Unsynced ev /\ resyncs (snd s') = resyncs (snd s) + 1 /\ fresh c g s') \/
     (bad (snd s') - bad (snd s) < Z.quot (resync_len c * resync_percent c) 100 /\ ~ In Unsynced ev /\ resyncs (snd s') = resyncs (snd s) /\ begins c g s')).
Proof.
  intros I E Fi W (Sa & R & C & Bb) L B. destruct (in_window c m g l I E Fi s Sa R) as (s' & ev & Q & V1 & V2 & V3 & V4 & V5); [lia | lia | lia|]. exists s', ev. rewrite Bb, Z.add_0_l in V5. split; [exact Q|]. split; [lia|]. destruct V5 as [(A1 & A2 & A3 & A4)|(A1 & A2 & A3 & A4)]; [left | right]; (split; [exact A1|]); (split; [exact A2|]); (split; [exact A4|]); repeat split; try assumption; try lia; apply V1.
Qed.
Definition lossy : cfg := {| pt := pattern 12; limit := 0; freq := 0; resync_len := 50; resync_percent := 20 |}.
Example bert_window_ex : match gets lossy (tx_init (pattern 12)) 36 with Ok (_, l) => match puts lossy (rx_init lossy) l with Ok (s, _) => begins lossy {| len := 9; tap := 4; inverted := false |} s | UB => False end | UB => False end.
Proof. vm_compute. repeat split; try reflexivity; try discriminate; repeat constructor; try discriminate. Qed.
Print Assumptions bert_window.
