(** Witnesses where the non-ECM buffer gets the first row wrong. *)
From Coq Require Import ZifyBool ZifyNat.
From Verif Require Import Base Bits NonEcm_model NonEcm_spec NonEcm_proofs.

Lemma b2z_inj (a b : list bool) : map Z.b2z a = map Z.b2z b -> a = b.
Proof. revert b; induction a as [|x a IH]; intros [|y b] H; cbn [map] in H; try discriminate; auto. inversion H. f_equal; auto. destruct x, y; auto; discriminate. Qed.
Lemma end_first (a b c : list Z) : ~ In END_OF_DATA a -> ~ In END_OF_DATA b -> a ++ [END_OF_DATA] = b ++ [END_OF_DATA] ++ c -> a = b /\ c = [].
Proof.
  revert b; induction a as [|x a IH]; intros [|y b] Ha Hb H; cbn [app] in H.
  - inversion H. auto.
  - inversion H; subst. elim Hb; left; auto.
  - inversion H; subst. elim Ha; left; auto.
  - inversion H; subst. destruct (IH b) as [-> ->]; auto; intros HH; [apply Ha|apply Hb]; right; auto.
Qed.
Lemma not_end (l : list bool) : ~ In END_OF_DATA (map Z.b2z l).
Proof. intros H. apply in_map_iff in H as (x & E & _). destruct x; discriminate. Qed.
(** [n0] reads reach the end: any number of reads that reaches it gives the same bits. *)
Lemma only_out s ops n0 want : (match run s (ops ++ repeat Get (S n0)) with Ok (_, l) => l | UB => [] end) = map Z.b2z want ++ [END_OF_DATA] -> length want = n0 ->
  forall n s' bits, run s (ops ++ repeat Get n) = Ok (s', map Z.b2z bits ++ [END_OF_DATA]) -> (forall l s1, run s ops = Ok (s1, l) -> l = []) -> bits = want.
Proof.
  intros H0 HL n s' bits H HE. rewrite run_app in H0, H. destruct (run s ops) as [[s1 l]|] eqn:E; [|discriminate]. rewrite (HE _ _ eq_refl) in *. clear HE E. cbn [rbind app] in *.
  assert (LG : forall k s s' l, run s (repeat Get k) = Ok (s', l) -> length l = k).
  { induction k as [|k IH]; intros t t' l0 R; cbn [repeat run] in R; [inversion R; reflexivity|]. destruct (get_bit t) as [[t1 b]|]; [|discriminate]. cbn [rbind] in R. destruct (run t1 (repeat Get k)) as [[t2 l2]|] eqn:E; [|discriminate]. cbn [rbind] in R. inversion R; subst. cbn [length]. f_equal. eauto. }
  assert (RP : forall a b, repeat Get (a + b) = repeat Get a ++ repeat Get b) by (intros; apply repeat_app).
  destruct (run s1 (repeat Get (S n0))) as [[s2 l2]|] eqn:E2; [|destruct want; discriminate]. cbn [rbind] in H0. subst l2.
  destruct (run s1 (repeat Get n)) as [[s3 l3]|] eqn:E3; [|discriminate]. cbn [rbind] in H. inversion H; subst l3 s3. clear H.
  pose proof (LG _ _ _ _ E2) as L2. pose proof (LG _ _ _ _ E3) as L3. rewrite app_length, map_length in L2, L3. cbn [length] in L2, L3.
  destruct (Nat.le_ge_cases n (S n0)) as [Hle|Hge].
  - replace (S n0) with (n + (S n0 - n))%nat in E2 by lia. rewrite RP, run_app, E3 in E2. cbn [rbind] in E2. destruct (run s' _) as [[s4 l4]|]; [|discriminate]. cbn [rbind] in E2. injection E2 as _ E4.
    rewrite <- app_assoc in E4. symmetry in E4. apply end_first in E4; try apply not_end. destruct E4 as [E4 _]. apply b2z_inj. auto.
  - replace n with (S n0 + (n - S n0))%nat in E3 by lia. rewrite RP, run_app, E2 in E3. cbn [rbind] in E3. destruct (run s2 _) as [[s4 l4]|]; [|discriminate]. cbn [rbind] in E3. injection E3 as _ E4.
    rewrite <- app_assoc in E4. symmetry in E4. apply end_first in E4; try apply not_end. destruct E4 as [E4 _]. apply b2z_inj. auto.
Qed.
Lemma no_gets inp s1 l s : run s [Inject inp; Push] = Ok (s1, l) -> l = [].
Proof. cbn [run]. destruct (inject s inp); [|discriminate]. cbn [rbind]. intros H; inversion H; auto. Qed.
Lemma short_first_row : exists inp, bytes inp /\ fits (init true 96) [Inject inp] /\
  forall n s bits, run (init true 96) (Inject inp :: Push :: repeat Get n) = Ok (s, map Z.b2z bits ++ [END_OF_DATA]) ->
    exists row tail, rows_of 0 [] bits = ([repeat false 23 ++ [true]; row], tail) /\ length row = 20%nat.
Proof.
  exists [0; 0; 1; 0xFF; 0; 0x1F]. split; [repeat constructor; unfold byte; lia|]. split; [vm_compute; auto|]. intros n s bits H.
  assert (E : bits = unpack_msb [0; 0; 1; 0xFF; 0; 0x1F]).
  { refine (only_out (init true 96) [Inject [0; 0; 1; 0xFF; 0; 0x1F]; Push] 48 (unpack_msb [0; 0; 1; 0xFF; 0; 0x1F]) _ eq_refl n s bits H (fun l s1 => no_gets _ s1 l _)). vm_compute. reflexivity. }
  subst bits. eexists _, _. split; vm_compute; reflexivity.
Qed.
Lemma stretched_eol : exists inp row tail, bytes inp /\ fits (init true 96) [Inject inp] /\
  rows_of 0 [] (unpack_msb inp) = ([repeat false 23 ++ [true]; row], tail) /\ length row = 12%nat /\
  forall n s bits, run (init true 96) (Inject inp :: Push :: repeat Get n) = Ok (s, map Z.b2z bits ++ [END_OF_DATA]) ->
    exists row' tail', rows_of 0 [] bits = ([repeat false 23 ++ [true]; row'], tail') /\ length row' = 108%nat.
Proof.
  exists [0; 0; 1; 0; 0x1F]. eexists _, _. split; [repeat constructor; unfold byte; lia|]. split; [vm_compute; auto|]. split; [vm_compute; reflexivity|]. split; [reflexivity|]. intros n s bits H.
  assert (E : bits = unpack_msb ([0; 0; 1; 0] ++ repeat 0 12 ++ [0x1F])).
  { refine (only_out (init true 96) [Inject [0; 0; 1; 0; 0x1F]; Push] 136 (unpack_msb ([0; 0; 1; 0] ++ repeat 0 12 ++ [0x1F])) _ eq_refl n s bits H (fun l s1 => no_gets _ s1 l _)). vm_compute. reflexivity. }
  subst bits. eexists _, _. split; vm_compute; reflexivity.
Qed.
