From Verif Require Import Base Bert_model Bert_spec.
Local Open Scope Z_scope.

(** ---- the shift register ---- *)
Lemma testbit_high r n i : 0 <= r < 2 ^ n -> 0 <= n <= i -> Z.testbit r i = false.
Proof.
  intros R N. destruct (Z.eq_dec r 0) as [->|Z0]; [apply Z.bits_0|]. apply Z.bits_above_log2; [lia|]. assert (Z.log2 r < n) by (apply Z.log2_lt_pow2; lia). lia.
Qed.
Lemma land1_b2z r : Z.land r 1 = Z.b2z (Z.testbit r 0).
Proof. change 1 with (Z.ones 1). rewrite Z.land_ones by lia. change (2 ^ 1) with 2. symmetry. rewrite <- Z.bit0_mod. reflexivity. Qed.
Lemma b2z_bit b i : 0 <= i -> Z.testbit (Z.b2z b) i = if i =? 0 then b else false.
Proof.
  intros I. destruct (Z.eqb_spec i 0) as [->|N]; [destruct b; reflexivity|]. destruct b; cbn [Z.b2z]; [|apply Z.bits_0]. replace i with (Z.succ (i - 1)) by lia. rewrite <- (Z.div2_bits 1) by lia. apply Z.bits_0.
Qed.
Lemma feed_bit a b r i : 0 <= a -> 0 <= b -> 0 <= r < 2 ^ (b + 1) -> 0 <= i -> Z.testbit (feed a b r) i = if i =? b then xorb (Z.testbit r 0) (Z.testbit r a) else Z.testbit r (i + 1).
Proof.
  intros A B R I. unfold feed. rewrite Z.lor_spec, Z.shiftr_spec by lia. rewrite land1_b2z, Z.lxor_spec, Z.shiftr_spec by lia. rewrite Z.add_0_l. destruct (Z.ltb_spec i b) as [L|L].
  - rewrite Z.shiftl_spec_low by lia. replace (i =? b) with false by lia. apply orb_false_r.
  - rewrite Z.shiftl_spec, b2z_bit by lia. replace (i - b =? 0) with (i =? b) by lia. rewrite (testbit_high r (b + 1)) by lia. destruct (i =? b); reflexivity.
Qed.
Lemma range_bits r n : 0 <= n -> 0 <= r -> (forall i, n <= i -> Z.testbit r i = false) -> r < 2 ^ n.
Proof.
  intros N R H. destruct (Z.eq_dec r 0) as [->|Z0]; [lia|]. apply Z.log2_lt_pow2; [lia|]. destruct (Z.ltb_spec (Z.log2 r) n) as [L|L]; [exact L|]. specialize (H _ L). rewrite Z.bit_log2 in H by lia. discriminate.
Qed.
Lemma feed_range a b r : 0 <= a -> 0 <= b -> 0 <= r < 2 ^ (b + 1) -> 0 <= feed a b r < 2 ^ (b + 1).
Proof.
  intros A B R. assert (0 <= feed a b r). { unfold feed. apply Z.lor_nonneg. split; [apply Z.shiftr_nonneg; lia|]. apply Z.shiftl_nonneg. rewrite land1_b2z. destruct (Z.testbit _ 0); cbn; lia. }
  split; [assumption|]. apply range_bits; [lia | assumption|]. intros i I. rewrite feed_bit by lia. replace (i =? b) with false by lia. apply (testbit_high r (b + 1)); lia.
Qed.
Lemma mask_bit a r i : 0 <= a -> 0 <= i -> Z.testbit (Z.lxor r (2 ^ a)) i = xorb (Z.testbit r i) (i =? a).
Proof. intros A I. rewrite Z.lxor_spec. f_equal. destruct (Z.eqb_spec i a) as [->|N]; [apply Z.pow2_bits_true; lia | apply Z.pow2_bits_false; lia]. Qed.
Lemma mask_range a n r : 0 <= a < n -> 0 <= r < 2 ^ n -> 0 <= Z.lxor r (2 ^ a) < 2 ^ n.
Proof.
  intros A R. assert (0 <= 2 ^ a) by (apply Z.pow_nonneg; lia). assert (0 <= Z.lxor r (2 ^ a)) by (apply Z.lxor_nonneg; lia). split; [assumption|]. apply range_bits; [lia | assumption|].
  intros i I. rewrite mask_bit by lia. rewrite (testbit_high r n) by lia. replace (i =? a) with false by lia. reflexivity.
Qed.

(** ---- the generator ---- *)
(** what the patterns have in common *)
Record good (p : pat) (g : prng) : Prop := {
  g_cls : cls p = 1; g_tap : shift p = Z.of_nat (tap g); g_len : shift2 p + 1 = Z.of_nat (len g); g_mask : mask p = 2 ^ Z.of_nat (tap g); g_zeros : max_zeros p = 0;
  g_inv : invert p = Z.b2z (inverted g); g_reg : reg0 p = Z.ones (Z.of_nat (len g)); g_order : (0 < tap g < len g)%nat; g_time : Z.of_nat (len g + tap g) + 1 <= resync_time p }.
Lemma itu_good n g : itu n g -> good (pattern n) g.
Proof. intros [E|[E|[E|[E|[]]]]]; injection E as <- <-; constructor; cbn; lia || reflexivity. Qed.

Definition nextr (g : prng) (r : Z) : Z := feed (Z.of_nat (tap g)) (Z.of_nat (len g) - 1) r.
Fixpoint reg_at (g : prng) (r : Z) (t : nat) : Z := match t with O => r | S t => reg_at g (nextr g r) t end.
Definition seq_at (g : prng) (r : Z) (t : nat) : bool := Z.testbit (reg_at g r t) 0.
Definition in_reg (g : prng) (r : Z) : Prop := 0 <= r < 2 ^ Z.of_nat (len g).
Definition tapped (g : prng) : Prop := (0 < tap g < len g)%nat.
Lemma nextr_range g r : tapped g -> in_reg g r -> in_reg g (nextr g r).
Proof. intros T R. unfold in_reg, nextr in *. pose proof (feed_range (Z.of_nat (tap g)) (Z.of_nat (len g) - 1) r) as F. unfold tapped in T. replace (Z.of_nat (len g) - 1 + 1) with (Z.of_nat (len g)) in F by lia. apply F; lia. Qed.
Lemma nextr_bit g r i : tapped g -> in_reg g r -> 0 <= i -> Z.testbit (nextr g r) i = if i =? Z.of_nat (len g) - 1 then xorb (Z.testbit r 0) (Z.testbit r (Z.of_nat (tap g))) else Z.testbit r (i + 1).
Proof. intros T R I. unfold in_reg, nextr, tapped in *. apply feed_bit; try lia. replace (Z.of_nat (len g) - 1 + 1) with (Z.of_nat (len g)) by lia. exact R. Qed.
Lemma reg_at_range g t : tapped g -> forall r, in_reg g r -> in_reg g (reg_at g r t).
Proof. intros T. induction t; intros r R; cbn; [exact R|]. apply IHt, nextr_range; assumption. Qed.
Lemma reg_at_add g t u : forall r, reg_at g r (t + u) = reg_at g (reg_at g r t) u.
Proof. induction t; intros r; cbn; [reflexivity|]. apply IHt. Qed.
Lemma seq_bit g r i : tapped g -> in_reg g r -> (i < len g)%nat -> Z.testbit r (Z.of_nat i) = seq_at g r i.
Proof.
  intros T. revert r. induction i; intros r R I; [reflexivity|]. change (seq_at g r (S i)) with (seq_at g (nextr g r) i). rewrite <- IHi by (try apply nextr_range; assumption || lia). rewrite nextr_bit by (assumption || lia). replace (Z.of_nat i =? _) with false by lia. f_equal. lia.
Qed.
Lemma seq_rec g r t : tapped g -> in_reg g r -> seq_at g r (t + len g) = xorb (seq_at g r t) (seq_at g r (t + tap g)).
Proof.
  intros T R. pose proof (reg_at_range g t T r R) as Q. unfold seq_at. rewrite !reg_at_add. set (q := reg_at g r t) in *. assert (K : (0 < tap g < len g)%nat) by exact T. pose proof (seq_bit g q (tap g) T Q ltac:(lia)) as E. unfold seq_at in E. rewrite <- E.
  replace (reg_at g q (len g)) with (reg_at g (nextr g q) (len g - 1)) by (replace (len g) with (S (len g - 1)) at 2 by lia; reflexivity). pose proof (seq_bit g (nextr g q) (len g - 1) T (nextr_range g q T Q) ltac:(lia)) as F. unfold seq_at in F. rewrite <- F, nextr_bit by (assumption || lia). match goal with |- context [?x =? ?y] => replace (x =? y) with true by (symmetry; apply Z.eqb_eq; lia) end. reflexivity.
Qed.

Definition bit_at (g : prng) (r : Z) (t : nat) : bool := xorb (seq_at g r t) (inverted g).
Lemma get_good c g s : good (pt c) g -> in_reg g (t_reg s) -> t_bits s < 2147483647 -> (limit c = 0 \/ t_bits s < limit c) ->
  get_bit c s = Ok ({| t_reg := nextr g (t_reg s); t_step := t_step s; t_bit := t_bit s; t_bits := t_bits s + 1; t_zeros := t_zeros s |}, Z.b2z (bit_at g (t_reg s) 0)).
Proof.
  intros G R B L. unfold get_bit. replace (negb (limit c =? 0) && (limit c <=? t_bits s)) with false by lia. rewrite (g_cls _ _ G), (g_zeros _ _ G). cbn [Z.eqb Pos.eqb]. cbn [rbind t_bits t_reg t_step t_bit t_zeros]. unfold inc. replace (t_bits s <? 2147483647) with true by lia. cbn [rbind].
  rewrite (g_tap _ _ G), (g_inv _ _ G). replace (shift2 (pt c)) with (Z.of_nat (len g) - 1) by (pose proof (g_len _ _ G); lia). unfold nextr, bit_at, seq_at. cbn [reg_at]. rewrite land1_b2z. do 2 f_equal. destruct (Z.testbit (t_reg s) 0), (inverted g); reflexivity.
Qed.
Lemma gets_good c g n : good (pt c) g -> forall s, in_reg g (t_reg s) -> t_bits s + Z.of_nat n <= 2147483647 -> (limit c = 0 \/ t_bits s + Z.of_nat n <= limit c) ->
  exists s', gets c s n = Ok (s', as_bits (map (bit_at g (t_reg s)) (seq 0 n))) /\ t_reg s' = reg_at g (t_reg s) n /\ t_bits s' = t_bits s + Z.of_nat n.
Proof.
  intros G. induction n; intros s R B L; [eexists; repeat split; cbn; lia|]. cbn [gets]. rewrite (get_good c g s G R) by lia. cbn [rbind]. pose proof (g_order _ _ G).
  edestruct IHn as (s' & E & A & C); [..|rewrite E]; cbn [t_reg t_bits]; [apply nextr_range; assumption | lia | lia|]. cbn [rbind t_reg t_bits] in *. exists s'. split; [|split; [exact A | lia]].
  cbn [seq map as_bits]. unfold as_bits. rewrite <- seq_shift, (map_map S). reflexivity.
Qed.
Lemma follows_seq g r n : tapped g -> in_reg g r -> follows g (map (bit_at g r) (seq 0 n)).
Proof.
  intros T R t. rewrite map_length, seq_length. intros L. assert (K : (0 < tap g < len g)%nat) by exact T. assert (A : forall u, (u < n)%nat -> at_ g (map (bit_at g r) (seq 0 n)) u = seq_at g r u).
  { intros u U. unfold at_. rewrite (nth_indep _ _ (bit_at g r 0)) by (rewrite map_length, seq_length; lia). rewrite map_nth, seq_nth by lia. unfold bit_at. cbn [Nat.add]. destruct (inverted g), (seq_at g r u); reflexivity. }
  rewrite !A by lia. apply seq_rec; assumption.
Qed.

(** ---- the period ---- *)
Definition walk (g : prng) (r0 : Z) (x : bool * Z) : bool * Z := let r := nextr g (snd x) in (if r =? r0 then false else fst x, r).
Definition no_return (g : prng) (r : Z) (n : positive) : bool := let x := Pos.iter (walk g r) (true, r) n in fst x && (nextr g (snd x) =? r).
Lemma walk_iter g r n : snd (Pos.iter (walk g r) (true, r) n) = reg_at g r (Pos.to_nat n) /\ (fst (Pos.iter (walk g r) (true, r) n) = true -> forall t, (0 < t <= Pos.to_nat n)%nat -> reg_at g r t <> r).
Proof.
  assert (S1 : forall t, nextr g (reg_at g r t) = reg_at g r (S t)) by (intros t; replace (S t) with (t + 1)%nat by lia; rewrite reg_at_add; reflexivity).
  induction n as [|n [A B]] using Pos.peano_ind.
  - cbn. split; [reflexivity|]. destruct (Z.eqb_spec (nextr g r) r) as [E|E]; [discriminate|]. intros _ t T. replace t with 1%nat by lia. exact E.
  - rewrite Pos.iter_succ, Pos2Nat.inj_succ. unfold walk at 1 3. cbn [fst snd]. rewrite A, S1. split; [reflexivity|]. destruct (Z.eqb_spec (reg_at g r (S (Pos.to_nat n))) r) as [E|E]; [discriminate|]. intros F t T.
    destruct (Nat.eq_dec t (S (Pos.to_nat n))) as [->|N]; [exact E|]. apply B; [exact F | lia].
Qed.
Lemma no_return_ok g r n : no_return g r n = true -> reg_at g r (S (Pos.to_nat n)) = r /\ forall t, (0 < t < S (Pos.to_nat n))%nat -> reg_at g r t <> r.
Proof.
  unfold no_return. intros H. apply andb_true_iff in H as [A B]. destruct (walk_iter g r n) as [C D]. apply Z.eqb_eq in B. rewrite C in B. split; [replace (S (Pos.to_nat n)) with (Pos.to_nat n + 1)%nat by lia; rewrite reg_at_add; exact B|]. intros t T. apply D; [exact A | lia].
Qed.
Lemma differ g q r : tapped g -> in_reg g q -> in_reg g r -> q <> r -> exists i, (i < len g)%nat /\ seq_at g q i <> seq_at g r i.
Proof.
  intros T Q R N. destruct (forallb (fun i => Bool.eqb (seq_at g q i) (seq_at g r i)) (seq 0 (len g))) eqn:E.
  - exfalso. apply N. apply Z.bits_inj'. intros i I. destruct (Z.ltb_spec i (Z.of_nat (len g))) as [L|L].
    + rewrite forallb_forall in E. specialize (E (Z.to_nat i) ltac:(apply in_seq; lia)). apply Bool.eqb_prop in E. rewrite <- !seq_bit in E by (assumption || lia). rewrite Z2Nat.id in E by lia. exact E.
    + unfold in_reg in *. rewrite !(testbit_high _ (Z.of_nat (len g))) by lia. reflexivity.
  - assert (X : exists i, In i (seq 0 (len g)) /\ Bool.eqb (seq_at g q i) (seq_at g r i) = false).
    { clear -E. induction (seq 0 (len g)) as [|h t IH]; [discriminate|]. cbn [forallb] in E. destruct (Bool.eqb (seq_at g q h) (seq_at g r h)) eqn:F; cbn [andb] in E; [destruct (IH E) as (i & I & J); exists i; split; [right; exact I | exact J] | exists h; split; [left; reflexivity | exact F]]. }
    destruct X as (i & I & F). exists i. split; [apply in_seq in I; lia|]. intros Y. rewrite Y, Bool.eqb_reflx in F. discriminate.
Qed.
Lemma nth_bits g r n t : (t < n)%nat -> nth t (map (bit_at g r) (seq 0 n)) false = bit_at g r t.
Proof. intros L. rewrite (nth_indep _ _ (bit_at g r 0)) by (rewrite map_length, seq_length; lia). rewrite map_nth, seq_nth by lia. reflexivity. Qed.
Lemma ones_range n : in_reg n (Z.ones (Z.of_nat (len n))).
Proof. unfold in_reg. rewrite Z.ones_equiv. assert (0 < 2 ^ Z.of_nat (len n)) by (apply Z.pow_pos_nonneg; lia). lia. Qed.
(** ---- the end ---- *)
Lemma get_end c s : limit c <> 0 -> limit c <= t_bits s -> get_bit c s = Ok (s, -7).
Proof. intros A B. unfold get_bit. replace (negb (limit c =? 0) && (limit c <=? t_bits s)) with true by lia. reflexivity. Qed.
Lemma get_counts c s s' b : get_bit c s = Ok (s', b) -> (limit c <> 0 /\ limit c <= t_bits s /\ s' = s /\ b = -7) \/ ((limit c = 0 \/ t_bits s < limit c) /\ t_bits s < 2147483647 /\ t_bits s' = t_bits s + 1).
Proof.
  unfold get_bit. destruct (negb (limit c =? 0) && (limit c <=? t_bits s)) eqn:E; [intros H; injection H as <- <-; left; repeat split; lia|]. intros H. right. split; [lia|]. revert H.
  match goal with |- rbind ?m _ = _ -> _ => destruct m as [[s1 b1]|] eqn:M end; cbn [rbind]; [|discriminate]. assert (X : t_bits s1 = t_bits s).
  { revert M. destruct (cls (pt c) =? 0); [intros H; injection H as <- _; reflexivity|]. destruct (cls (pt c) =? 1).
    - destruct (if max_zeros (pt c) =? 0 then _ else _) as [z y]. intros H. injection H as <- _. reflexivity.
    - match goal with |- rbind ?m _ = _ -> _ => destruct m as [[[r1 st] b2]|] end; cbn [rbind]; [|discriminate]. intros H. injection H as <- _. reflexivity. }
  unfold inc. rewrite X. destruct (Z.ltb_spec (t_bits s) 2147483647); cbn [rbind]; [|discriminate]. intros H'. injection H' as <- _. cbn. lia.
Qed.
Lemma gets_endless c n : limit c = 0 -> forall s, 0 <= t_bits s <= 2147483647 -> 2147483647 < t_bits s + Z.of_nat n -> gets c s n = UB.
Proof.
  intros L. induction n; intros s R H; [lia|]. cbn [gets]. destruct (get_bit c s) as [[s' b]|] eqn:E; cbn [rbind]; [|reflexivity]. destruct (get_counts _ _ _ _ E) as [(X & _)|(_ & B & C)]; [lia|]. rewrite IHn; [reflexivity | lia | lia].
Qed.
