From Verif Require Import Base Bert_model Bert_spec Bert_proofs Bert_rx_proofs.
Local Open Scope Z_scope.

Lemma puts_app c l1 l2 : forall s, puts c s (l1 ++ l2) = do (s1, e1) <- puts c s l1; do (s2, e2) <- puts c s1 l2; Ok (s2, e1 ++ e2).
Proof.
  induction l1 as [|b l1 IH]; intros s; cbn [app puts rbind]; [destruct (puts c s l2) as [[s2 e2]|]; reflexivity|]. destruct (put_bit c s b) as [[s1 e]|]; cbn [rbind]; [|reflexivity]. rewrite IH. destruct (puts c s1 l1) as [[s2 e2]|]; cbn [rbind]; [|reflexivity]. destruct (puts c s2 l2) as [[s3 e3]|]; cbn [rbind]; [|reflexivity]. rewrite app_assoc. reflexivity.
Qed.
Lemma puts_one c s b : puts c s [b] = put_bit c s b.
Proof. cbn [puts]. destruct (put_bit c s b) as [[s1 e]|]; cbn [rbind]; [|reflexivity]. rewrite app_nil_r. reflexivity. Qed.
Lemma firstn_S {A} (l : list A) k d : (k < length l)%nat -> firstn (S k) l = firstn k l ++ [nth k l d].
Proof. revert l. induction k; intros [|h l] H; cbn in *; try lia; [reflexivity|]. rewrite (IHk l) by lia. reflexivity. Qed.
Lemma line_len l e : length e = length l -> length (line l e) = length l.
Proof. intros H. unfold line. rewrite map_length, combine_length. lia. Qed.
Lemma line_nth l e k : length e = length l -> (k < length l)%nat -> nth k (line l e) false = xorb (nth k l false) (nth k e false).
Proof. intros H K. unfold line. change false with (xorb (fst (false, false)) (snd (false, false))) at 1. rewrite (map_nth (fun x => xorb (fst x) (snd x))), combine_nth by congruence. reflexivity. Qed.
Lemma errors_snoc l b : errors (l ++ [b]) = errors l + Z.b2z b.
Proof. unfold errors. rewrite count_occ_app. destruct b; cbn; lia. Qed.

Lemma event_dec (x y : event) : {x = y} + {x <> y}.
Proof. decide equality. apply Z.eq_dec. Qed.
Lemma nth_skipn {A} i (l : list A) k d : nth k (skipn i l) d = nth (i + k) l d.
Proof. revert l. induction i; intros l; [reflexivity|]. destruct l; [destruct k; reflexivity|]. apply IHi. Qed.
Section Line.
  Variables (c : cfg) (g : prng) (l e : list bool).
  Hypothesis G : good (pt c) g.
  Hypothesis Fi : fits c.
  Hypothesis Fo : follows g l.
  Hypothesis Le : length e = length l.
  Let f (k : Z) : bool := at_ g l (Z.to_nat k).
  Let L := Z.of_nat (len g).
  Let a := Z.of_nat (tap g).
  Let n := Z.of_nat (length l).
  Let N := L + a + resync_time (pt c).
  Definition part (k : Z) (r : Z) : Prop := forall i, 0 <= i < L -> (i < a /\ a <= k + i) \/ L + a <= i + k -> k - a + i < n -> Z.testbit r i = f (k - a + i).
  Definition full (k : Z) (r : Z) : Prop := forall i, 0 <= i < L -> k - a + i < n -> Z.testbit r i = f (k - a + i).
  Lemma Lrec k : 0 <= k -> k + L < n -> f (k + L) = xorb (f k) (f (k + a)).
  Proof. intros K H. unfold f, L, a, n in *. rewrite !Z2Nat.inj_add, !Nat2Z.id by lia. apply Fo. lia. Qed.
  Lemma part_next k r : in_reg g r -> 0 <= k -> (k < n -> Z.testbit r a = f k) -> part k r -> part (k + 1) (nextr g r).
  Proof.
    intros R K W P i I H B. pose proof (g_order _ _ G) as T. rewrite nextr_bit by (assumption || lia). fold L a. destruct (Z.eqb_spec i (L - 1)) as [->|X].
    - assert (a <= k) by (unfold L, a in *; lia). replace (k + 1 - a + (L - 1)) with (k - a + L) in * by lia. rewrite Lrec by lia. replace (k - a + a) with k by lia. rewrite W by (unfold L in *; lia). rewrite P by (unfold L, a in *; lia). do 2 f_equal. lia.
    - replace (k + 1 - a + i) with (k - a + (i + 1)) in * by lia. destruct (Z.eq_dec (i + 1) a) as [E|E]; [rewrite E, W by lia; f_equal; lia|]. apply P; lia.
  Qed.
  Lemma full_next k r : in_reg g r -> a <= k -> full k r -> full (k + 1) (nextr g r).
  Proof.
    intros R K P i I B. pose proof (g_order _ _ G) as T. rewrite nextr_bit by (assumption || lia). fold L a. destruct (Z.eqb_spec i (L - 1)) as [->|X].
    - replace (k + 1 - a + (L - 1)) with (k - a + L) in * by lia. rewrite Lrec by (unfold a in *; lia). rewrite !P by (unfold L, a in *; lia). do 2 f_equal; lia.
    - replace (k + 1 - a + i) with (k - a + (i + 1)) in * by lia. apply P; lia.
  Qed.
  Let W := Z.to_nat (resync_len c).
  Let lim := Z.quot (resync_len c * resync_percent c) 100.
  Hypothesis Wp : 1 <= resync_len c.
  Lemma errors_window k q : (q <= k)%nat -> (k < length l)%nat -> errors (skipn (k - q) (firstn k e)) + Z.b2z (nth k e false) = errors (firstn (S q) (skipn (k - q) e)).
  Proof.
    intros Q K. rewrite <- errors_snoc. f_equal. rewrite (firstn_S (skipn (k - q) e) q false) by (rewrite skipn_length; lia). rewrite skipn_firstn_comm. replace (k - (k - q))%nat with q by lia. do 2 f_equal. rewrite nth_skipn. f_equal. lia.
  Qed.
  Variable s0 : state.
  Hypothesis W0 : cnt (fst s0) = resync_len c /\ bad_bits (fst s0) = 0.
  Hypothesis S0 : sane g s0.
  Hypothesis R0 : 1 <= resync (fst s0) <= 2.
  Hypothesis B0 : bits (fst s0) + n <= 2147483647.
  Hypothesis E0 : forall k, Z.of_nat k < N -> nth k e false = false.
  Definition phase (k : Z) (er : Z) (s : state) (ev : list event) : Prop :=
    sane g s /\ bits (fst s) = bits (fst s0) + k /\
    ((exists i, lim <= errors (firstn W (skipn i e))) \/
     ~ In Unsynced ev /\ (1 <= resync (fst s) <= k + 2 /\ (cnt (fst s) = resync_len c /\ bad_bits (fst s) = 0) /\ (L + a <= k -> k - (L + a) + 1 <= resync (fst s)) /\ resync (fst s) <= resync_time (pt c) /\ part k (reg (fst s)) /\ snd s = snd s0 /\ er = 0) \/
     ~ In Unsynced ev /\ (resync (fst s) = 0 /\ (1 <= cnt (fst s) <= resync_len c /\ resync_len c - cnt (fst s) <= k /\ bad_bits (fst s) = errors (skipn (Z.to_nat (k - (resync_len c - cnt (fst s)))) (firstn (Z.to_nat k) e))) /\ In Synced ev /\ a <= k /\ full k (reg (fst s)) /\ exists m, 0 <= m <= k /\ m <= N /\ total (snd s) = total (snd s0) + k - m /\ bad (snd s) = bad (snd s0) + er)).
  Lemma phases k : (k <= length l)%nat -> exists s ev, puts c s0 (as_bits (firstn k (line l e))) = Ok (s, ev) /\ phase (Z.of_nat k) (errors (firstn k e)) s ev.
  Proof.
    pose proof (g_order _ _ G) as T. pose proof (g_time _ _ G) as Ti. pose proof (line_len l e Le) as Ll. induction k; intros K.
    - exists s0, []. split; [reflexivity|]. split; [exact S0|]. split; [lia|]. right. left. split; [intros []|]. repeat split; try lia. intros i I [X|X]; lia.
    - destruct IHk as (s & ev & E & Sa & Bi & P); [lia|]. rewrite (firstn_S _ k false) by lia. unfold as_bits. rewrite map_app, puts_app. fold (as_bits (firstn k (line l e))). rewrite E. cbn [rbind map]. rewrite puts_one, line_nth by lia.
      rewrite (firstn_S e k false), errors_snoc by lia. set (ek := nth k e false) in *. set (x := xorb (f (Z.of_nat k)) ek).
      replace (xorb (nth k l false) ek) with (xorb x (inverted g)) by (unfold x, f, at_; rewrite Nat2Z.id; destruct (inverted g), (nth k l false), ek; reflexivity).
      destruct (put_good c g s x G Fi Sa) as (s' & e' & Q & Sa' & Bi' & D); [unfold n in B0; lia|]. rewrite Q. cbn [rbind]. eexists _, _. split; [reflexivity|]. split; [exact Sa'|]. split; [lia|].
      destruct P as [P | [(U & P1 & V & P2 & P3 & P4 & P5 & P6) | (U & P1 & V & P2 & P3 & P4 & m & P5 & P6 & P7 & P8)]]; [left; exact P | |].
      + right. assert (ek = false) as Ek by (apply E0; unfold N; lia). rewrite Ek. assert (x = f (Z.of_nat k)) as Ex by (unfold x; rewrite Ek; apply xorb_false_r). replace (resync (fst s) =? 0) with false in D by lia. destruct D as (D1 & D2 & D3 & [D6 D7] & D4). rewrite Ex in D1, D4.
        set (q := if Bool.eqb (f (Z.of_nat k)) (want g s) then reg (fst s) else Z.lxor (reg (fst s)) (2 ^ Z.of_nat (tap g))) in D1. assert (Rg : in_reg g (reg (fst s))) by apply Sa.
        assert (Rq : in_reg g q) by (unfold q; destruct (Bool.eqb _ _); [exact Rg | apply mask_range; [lia | exact Rg]]).
        assert (Wq : Z.testbit q a = f (Z.of_nat k)).
        { unfold q. destruct (Bool.eqb (f (Z.of_nat k)) (want g s)) eqn:Eq; [apply Bool.eqb_prop in Eq; symmetry; exact Eq|]. unfold a. rewrite mask_bit, Z.eqb_refl by lia. unfold want in Eq. destruct (f (Z.of_nat k)), (Z.testbit (reg (fst s)) (Z.of_nat (tap g))); cbn in Eq |- *; congruence. }
        assert (Pq : part (Z.of_nat k) q).
        { intros i I H B. unfold q. destruct (Bool.eqb (f (Z.of_nat k)) (want g s)) eqn:Eq; [apply P4; assumption|]. rewrite mask_bit by lia. fold a. destruct (Z.eqb_spec i a) as [->|Ne]; [|rewrite xorb_false_r; apply P4; assumption].
          exfalso. destruct H as [H|H]; [lia|]. specialize (P4 a I (or_intror H) B). unfold want in Eq. fold a in Eq. rewrite P4 in Eq. replace (Z.of_nat k - a + a) with (Z.of_nat k) in Eq by lia. rewrite Bool.eqb_reflx in Eq. discriminate. }
        assert (Pn : part (Z.of_nat (S k)) (reg (fst s'))) by (rewrite D1, Nat2Z.inj_succ; apply part_next; [exact Rq | lia | intros _; exact Wq | exact Pq]).
        assert (Mt : L + a <= Z.of_nat k -> Bool.eqb (f (Z.of_nat k)) (want g s) = true).
        { intros H. unfold want. fold a. rewrite (P4 a) by (unfold L, a, n in *; lia). replace (Z.of_nat k - a + a) with (Z.of_nat k) by lia. apply Bool.eqb_reflx. }
        destruct (Bool.eqb (f (Z.of_nat k)) (want g s)) eqn:Eq; [destruct (Z.ltb_spec (resync_time (pt c)) (resync (fst s) + 1)) as [Lt|Lt]|]; destruct D4 as [D4 D5].
        * right. split; [intros Y; apply in_app_or in Y as [Y|Y]; contradiction|]. split; [exact D4|]. rewrite D6, D7. destruct V as [V1 V2]. rewrite V1, V2. split; [split; [lia|]; split; [lia|]; rewrite Z.sub_diag, Z.sub_0_r, skipn_all2 by (rewrite firstn_length; lia); reflexivity|]. split; [apply in_or_app; right; exact D5|]. split; [unfold L, a in *; lia|]. split; [intros i I B; apply Pn; [exact I | right; unfold L, a in *; lia | exact B]|]. exists (Z.of_nat (S k)). rewrite D2, P5. cbn [Z.b2z]. unfold N. repeat split; lia.
        * left. split; [intros Y; apply in_app_or in Y as [Y|Y]; contradiction|]. rewrite D4, D6, D7. cbn [Z.b2z]. repeat split; try lia; [exact Pn | rewrite D2; exact P5].
        * left. split; [intros Y; apply in_app_or in Y as [Y|Y]; contradiction|]. rewrite D4, D6, D7. cbn [Z.b2z]. split; [lia|]. split; [exact V|]. split; [intros H; assert (Z.of_nat k < L + a) by (destruct (Z.ltb_spec (Z.of_nat k) (L + a)); [assumption | specialize (Mt ltac:(assumption)); discriminate]); lia|]. split; [unfold L, a in *; lia|]. split; [exact Pn|]. split; [rewrite D2; exact P5 | lia].
      + replace (resync (fst s) =? 0) with true in D by lia. destruct D as (D1 & D2 & D3 & D4 & D6 & D5). destruct V as (V1 & V2 & V3).
        assert (want g s = f (Z.of_nat k)) as Wf by (unfold want; fold a; rewrite (P4 a) by (unfold L, a, n in *; lia); f_equal; lia).
        assert (wrong g s x = Z.b2z ek) as Wr by (unfold wrong; rewrite Wf; unfold x; destruct (f (Z.of_nat k)), ek; reflexivity). rewrite Wr in D3, D6.
        assert (Wi : bad_bits (fst s) + Z.b2z ek = errors (firstn (S (Z.to_nat (resync_len c - cnt (fst s)))) (skipn (k - Z.to_nat (resync_len c - cnt (fst s))) e))).
        { rewrite V3, Nat2Z.id. unfold ek. replace (Z.to_nat (Z.of_nat k - (resync_len c - cnt (fst s)))) with (k - Z.to_nat (resync_len c - cnt (fst s)))%nat by lia. apply errors_window; lia. }
        destruct (in_dec event_dec Unsynced e') as [Un|Un].
        * left. exists (k - Z.to_nat (resync_len c - cnt (fst s)))%nat. unfold window in D6. destruct (Z.leb_spec (cnt (fst s) - 1) 0) as [C|C]; [|tauto]. destruct D6 as (_ & _ & D6). apply D6 in Un. rewrite Wi in Un. unfold lim, W. replace (Z.to_nat (resync_len c)) with (S (Z.to_nat (resync_len c - cnt (fst s)))) by lia. exact Un.
        * destruct D5 as [D5|D5]; [|contradiction]. right. right. split; [intros Y; apply in_app_or in Y as [Y|Y]; contradiction|]. split; [exact D5|].
          split. { unfold window in D6. destruct (Z.leb_spec (cnt (fst s) - 1) 0) as [C|C]; destruct D6 as (C1 & C2 & _); rewrite C1, C2.
            - split; [lia|]. split; [lia|]. rewrite Z.sub_diag, Z.sub_0_r, skipn_all2 by (rewrite firstn_length; lia). reflexivity.
            - split; [lia|]. split; [lia|]. rewrite Wi. rewrite skipn_firstn_comm. f_equal. replace (Z.to_nat (Z.of_nat (S k) - (resync_len c - (cnt (fst s) - 1)))) with (k - Z.to_nat (resync_len c - cnt (fst s)))%nat by lia. f_equal. lia. }
          split; [apply in_or_app; left; exact P2|]. split; [lia|]. split; [rewrite D1, Nat2Z.inj_succ; apply full_next; [apply Sa | exact P3 | exact P4]|]. exists m. rewrite D2, D3, P7, P8. repeat split; lia.
  Qed.
End Line.

(** a receiver that starts to look for the pattern, with anything in its register *)
Definition fresh (c : cfg) (g : prng) (s : state) : Prop := sane g s /\ 1 <= resync (fst s) <= 2 /\ cnt (fst s) = resync_len c /\ bad_bits (fst s) = 0.
Lemma receives c m g l e s : itu m g -> pt c = pattern m -> fits c -> 1 <= resync_len c -> follows g l -> length e = length l -> fresh c g s -> bits (fst s) + Z.of_nat (length l) <= 2147483647 ->
  (forall k, Z.of_nat k < Z.of_nat (len g + tap g) + resync_time (pt c) -> nth k e false = false) ->
  (forall i, errors (firstn (Z.to_nat (resync_len c)) (skipn i e)) < Z.quot (resync_len c * resync_percent c) 100) ->
  Z.of_nat (len g + tap g) + resync_time (pt c) <= Z.of_nat (length l) ->
  exists s' ev, puts c s (as_bits (line l e)) = Ok (s', ev) /\ sane g s' /\ ~ In Unsynced ev /\ In Synced ev /\ resync (fst s') = 0 /\
    exists w, 0 <= w <= Z.of_nat (len g + tap g) + resync_time (pt c) /\ total (snd s') = total (snd s) + Z.of_nat (length l) - w /\ bad (snd s') = bad (snd s) + errors e.
Proof.
  intros I E Fi Wp Fo Le (Sa & R & W0) B E0 Lo N. assert (G : good (pt c) g) by (rewrite E; apply itu_good; exact I). pose proof (g_order _ _ G) as T. destruct (phases c g l e G Fi Fo Le Wp s W0 Sa R B) with (k := length l) as (s' & ev & Q & P1 & P2 & P3); [intros k H; apply E0; lia | lia|].
  rewrite firstn_all2 in Q by (rewrite line_len by exact Le; lia). rewrite (firstn_all2 (n := length l) e) in P3 by lia. exists s', ev. split; [exact Q|]. split; [exact P1|]. destruct P3 as [[i P3] | [(_ & A1 & _ & A2 & A3 & _) | (U & A1 & _ & A2 & _ & _ & w & A3 & A4 & A5 & A6)]]; [specialize (Lo i); lia | lia|]. split; [exact U|]. split; [exact A2|]. split; [exact A1|]. exists w. repeat split; lia.
Qed.
Lemma init_sane c m g : itu m g -> pt c = pattern m -> fresh c g (rx_init c) /\ bits (fst (rx_init c)) = 0 /\ snd (rx_init c) = {| total := 0; bad := 0; resyncs := 0 |}.
Proof.
  intros I E. assert (G : good (pt c) g) by (rewrite E; apply itu_good; exact I). unfold fresh, sane, rx_init. cbn [fst snd reg resync bad_bits bits bad total resyncs decs cnt]. rewrite (g_reg _ _ G). split; [|auto]. split; [|repeat split; lia]. split; [apply ones_range|]. repeat split; try lia; cbn [ptrs bads]; try reflexivity; repeat constructor; lia.
Qed.
