(** row_to_run_lengths finds exactly the changing elements of a row. *)
From Coq Require Import ZifyBool ZifyNat.
From Verif Require Import Base Bits BitOps_model BitOps_proofs T4_tables T4_enc_model T4_spec.

(** ---- leading zeros ---- *)
Fixpoint lz (l : list bool) : nat :=
  match l with false :: t => S (lz t) | _ => O end.
Lemma lz_le l : (lz l <= length l)%nat.
Proof. induction l as [|[] l IH]; cbn [lz length]; try lia. Qed.
Lemma lz_app_lt a b : (lz a < length a)%nat -> lz (a ++ b) = lz a.
Proof. induction a as [|[] a IH]; cbn [lz length app]; intros H; try lia; rewrite IH; lia. Qed.
Lemma lz_app_full a b : lz a = length a -> lz (a ++ b) = (length a + lz b)%nat.
Proof. induction a as [|[] a IH]; cbn [lz length app]; intros H; try lia; rewrite IH; lia. Qed.
Lemma lz_app_ge a b : (lz a = length a -> length a <= lz (a ++ b))%nat.
Proof. intros H. rewrite lz_app_full; lia. Qed.

(** first element different from [c] *)
Fixpoint fd (c : bool) (l : list bool) : nat :=
  match l with b :: t => if Bool.eqb b c then S (fd c t) else O | [] => O end.
Lemma fd_le c l : (fd c l <= length l)%nat.
Proof. induction l as [|b l IH]; cbn [fd length]; [lia|]. destruct (Bool.eqb b c); lia. Qed.
Lemma fd_lz c l : lz (map (xorb c) l) = fd c l.
Proof. induction l as [|b l IH]; cbn [map lz fd]; auto. destruct b, c; cbn; auto. Qed.

(** ---- changes ---- *)
Definition lastc (c : bool) (l : list bool) : bool := last l c.
Lemma lastc_cons c b l : lastc c (b :: l) = lastc b l.
Proof. unfold lastc. revert b; induction l as [|x l IH]; intros b; auto. cbn [last] in *. rewrite <- IH. destruct l; auto. Qed.
Lemma lastc_app c a b : lastc c (a ++ b) = lastc (lastc c a) b.
Proof. revert c; induction a as [|x a IH]; intros c; auto. cbn [app]. rewrite !lastc_cons. apply IH. Qed.
Lemma changes_app c p a b : changes c p (a ++ b) = changes c p a ++ changes (lastc c a) (p + Z.of_nat (length a)) b.
Proof.
  revert c p; induction a as [|x a IH]; intros c p; cbn [app changes length].
  - cbn. f_equal; lia.
  - rewrite lastc_cons, !IH. replace (p + 1 + Z.of_nat (length a)) with (p + Z.of_nat (S (length a))) by lia.
    destruct (Bool.eqb x c) eqn:E; auto. apply eqb_prop in E; subst; auto.
Qed.
Lemma changes_none c p l : fd c l = length l -> changes c p l = [] /\ lastc c l = c.
Proof.
  revert p; induction l as [|b l IH]; intros p; cbn [fd length changes]; auto.
  destruct (Bool.eqb b c) eqn:E; [|lia]. intros H. apply eqb_prop in E; subst.
  rewrite lastc_cons. apply IH. lia.
Qed.
Lemma changes_fd c p l : (fd c l < length l)%nat ->
  exists t, skipn (fd c l) l = negb c :: t /\ (length t = length l - fd c l - 1)%nat /\ lastc c l = lastc (negb c) t /\
  changes c p l = (p + Z.of_nat (fd c l)) :: changes (negb c) (p + Z.of_nat (fd c l) + 1) t /\ fd (negb c) (negb c :: t) = S (fd (negb c) t).
Proof.
  revert p; induction l as [|b l IH]; intros p; cbn [fd length]; [lia|].
  destruct (Bool.eqb b c) eqn:E; intros H.
  - apply eqb_prop in E; subst. destruct (IH (p + 1)) as (t & A & B & C & D & F); [lia|].
    exists t. cbn [skipn changes]. rewrite eqb_reflx, A, D, lastc_cons. repeat split; auto; try lia. f_equal; [lia|f_equal; lia].
  - exists l. assert (b = negb c) by (destruct b, c; cbn in *; congruence). subst.
    cbn [skipn changes]. rewrite E, lastc_cons. repeat split; auto; try lia. 
    + f_equal; [lia|f_equal; lia].
    + cbn [fd]. rewrite eqb_reflx; auto.
Qed.
Lemma changes_skip_same c p t : changes c p (c :: t) = changes c (p + 1) t.
Proof. cbn [changes]. rewrite eqb_reflx. auto. Qed.

Lemma changes_bounds c p l x : In x (changes c p l) -> p <= x < p + Z.of_nat (length l).
Proof.
  revert c p; induction l as [|b l IH]; intros c p; cbn [changes length]; [intros []|].
  destruct (Bool.eqb b c).
  - intros H. apply IH in H. lia.
  - intros [<-|H]; [lia|]. apply IH in H. lia.
Qed.
Lemma changes_length c p l : (length (changes c p l) <= length l)%nat.
Proof. revert c p; induction l as [|b l IH]; intros c p; cbn [changes length]; auto. pose proof (IH c (p+1)). pose proof (IH b (p+1)). destruct (Bool.eqb b c); cbn [length]; lia. Qed.

(** ---- 32 bit words as lists of bits ---- *)
Fixpoint map2x (a b : list bool) : list bool :=
  match a, b with x :: a', y :: b' => xorb x y :: map2x a' b' | _, _ => [] end.
Lemma map2x_app a b c d : length a = length c -> map2x (a ++ b) (c ++ d) = map2x a c ++ map2x b d.
Proof. revert c; induction a as [|x a IH]; intros [|y c] H; cbn [length] in H; try lia; cbn [app map2x]; auto. f_equal. apply IH. lia. Qed.
Lemma map2x_repeat a c n : n = length a -> map2x a (repeat c n) = map (xorb c) a.
Proof. intros ->. induction a as [|x a IH]; cbn [length repeat map2x map]; auto. rewrite IH. f_equal. apply xorb_comm. Qed.
Lemma lxor_bits_lsb a b : length a = length b -> Z.lxor (of_bits_lsb a) (of_bits_lsb b) = of_bits_lsb (map2x a b).
Proof.
  revert b; induction a as [|x a IH]; intros [|y b] H; cbn [length] in H; try lia; cbn [map2x of_bits_lsb]; auto.
  rewrite <- IH by lia. apply Z.bits_inj'. intros n Hn. rewrite Z.lxor_spec.
  set (A := of_bits_lsb a). set (B := of_bits_lsb b).
  destruct (Z.eq_dec n 0) as [->|Hz].
  - rewrite !Z.bit0_odd, !odd_b2z_2. auto.
  - replace n with (Z.succ (n - 1)) by lia.
    rewrite <- !Z.div2_bits by lia. rewrite <- !Z.div2_div, !div2_b2z_2. rewrite Z.lxor_spec. auto.
Qed.
Lemma map2x_length a b : length a = length b -> length (map2x a b) = length a.
Proof. revert b; induction a as [|x a IH]; intros [|y b] H; cbn [length] in *; try lia; cbn [map2x length]; auto. Qed.
Lemma map2x_rev a b : length a = length b -> map2x (rev a) (rev b) = rev (map2x a b).
Proof.
  revert b; induction a as [|x a IH]; intros [|y b] H; cbn [length] in H; try lia; auto.
  cbn [rev map2x]. rewrite map2x_app by (rewrite !rev_length; lia). rewrite IH by lia. auto.
Qed.
Lemma lxor_bits_msb a b : length a = length b -> Z.lxor (of_bits_msb a) (of_bits_msb b) = of_bits_msb (map2x a b).
Proof. intros H. unfold of_bits_msb. rewrite lxor_bits_lsb by (rewrite !rev_length; lia). rewrite map2x_rev by auto. auto. Qed.

Lemma of_bits_msb_lz l : (lz l < length l)%nat ->
  2 ^ (Z.of_nat (length l) - 1 - Z.of_nat (lz l)) <= of_bits_msb l < 2 ^ (Z.of_nat (length l) - Z.of_nat (lz l)).
Proof.
  induction l as [|[] l IH]; cbn [lz length]; intros H; [lia| |].
  - change (true :: l) with ([true] ++ l). rewrite of_bits_msb_app. pose proof (of_bits_msb_range l).
    change (of_bits_msb [true]) with 1. rewrite Z.mul_1_l.
    replace (Z.of_nat (S (length l)) - 1 - Z.of_nat 0) with (Z.of_nat (length l)) by lia.
    replace (Z.of_nat (S (length l)) - Z.of_nat 0) with (Z.succ (Z.of_nat (length l))) by lia.
    rewrite Z.pow_succ_r by lia. lia.
  - change (false :: l) with ([false] ++ l). rewrite of_bits_msb_app. change (of_bits_msb [false]) with 0.
    rewrite Z.mul_0_l, Z.add_0_l.
    replace (Z.of_nat (S (length l)) - 1 - Z.of_nat (S (lz l))) with (Z.of_nat (length l) - 1 - Z.of_nat (lz l)) by lia.
    replace (Z.of_nat (S (length l)) - Z.of_nat (S (lz l))) with (Z.of_nat (length l) - Z.of_nat (lz l)) by lia.
    apply IH; lia.
Qed.
Lemma of_bits_msb_zero l : lz l = length l -> of_bits_msb l = 0.
Proof.
  induction l as [|[] l IH]; cbn [lz length]; intros H; auto; [lia|].
  change (false :: l) with ([false] ++ l). rewrite of_bits_msb_app, IH by lia. auto.
Qed.
Lemma top_bit_lz l : length l = 32%nat -> 31 - top_bit (of_bits_msb l) = Z.of_nat (lz l).
Proof.
  intros H. pose proof (lz_le l). destruct (Nat.eq_dec (lz l) 32) as [E|E].
  - rewrite of_bits_msb_zero by lia. rewrite top_bit_0. lia.
  - pose proof (of_bits_msb_lz l ltac:(lia)) as R. rewrite H in R.
    rewrite (top_bit_ok _ (31 - Z.of_nat (lz l))); [lia|lia|].
    replace (31 - Z.of_nat (lz l) + 1) with (Z.of_nat 32 - Z.of_nat (lz l)) by lia.
    replace (31 - Z.of_nat (lz l)) with (Z.of_nat 32 - 1 - Z.of_nat (lz l)) by lia. exact R.
Qed.
Lemma shl_top a b : length (a ++ b) = 32%nat ->
  u32 (Z.shiftl (of_bits_msb (a ++ b)) (Z.of_nat (length a))) = of_bits_msb (b ++ repeat false (length a)).
Proof.
  intros H. rewrite app_length in H. rewrite Z.shiftl_mul_pow2 by lia. rewrite !of_bits_msb_app, repeat_length.
  assert (Z0 : of_bits_msb (repeat false (length a)) = 0).
  { apply of_bits_msb_zero. clear. induction (length a); cbn [repeat lz length]; auto. }
  rewrite Z0, Z.add_0_r, Z.mul_add_distr_r, <- Z.mul_assoc, <- Z.pow_add_r by lia.
  replace (Z.of_nat (length b) + Z.of_nat (length a)) with 32 by lia. unfold u32.
  change (2 ^ 32) with 4294967296. rewrite Z.add_comm, Z_mod_plus_full.
  apply Z.mod_small. pose proof (of_bits_msb_range b).
  assert (E : 4294967296 = 2 ^ Z.of_nat (length b) * 2 ^ Z.of_nat (length a)).
  { rewrite <- Z.pow_add_r by lia. replace (Z.of_nat (length b) + Z.of_nat (length a)) with 32 by lia. reflexivity. }
  rewrite E. pose proof (p2_pos (length a)). nia.
Qed.

(** ---- the scan state ---- *)
Lemma map_repeat {A B} (f : A -> B) x n : map f (repeat x n) = repeat (f x) n.
Proof. induction n; cbn [repeat map]; congruence. Qed.
(** [fl n c]: the value of [flip] for colour [c] when the mask covers the top [n] bits *)
Definition fl (n : nat) (c : bool) : Z := of_bits_msb (repeat c n ++ repeat false (32 - n)).
Definition mask_of (n : nat) : Z := fl n true.
Lemma fl_toggle n c : (n <= 32)%nat -> Z.lxor (fl n c) (mask_of n) = fl n (negb c).
Proof.
  intros H. unfold fl, mask_of, fl. rewrite lxor_bits_msb by (rewrite !app_length, !repeat_length; lia).
  rewrite map2x_app by (rewrite !repeat_length; auto).
  rewrite !map2x_repeat by (rewrite repeat_length; auto). rewrite !map_repeat. f_equal.
Qed.
Lemma frag_fd n c ys z : (length ys <= n <= 32)%nat -> length (ys ++ z) = 32%nat ->
  31 - top_bit (Z.lxor (of_bits_msb (ys ++ z)) (fl n c)) = Z.of_nat (fd c ys) /\ (fd c ys < length ys)%nat
  \/ Z.of_nat (length ys) <= 31 - top_bit (Z.lxor (of_bits_msb (ys ++ z)) (fl n c)) /\ fd c ys = length ys.
Proof.
  intros H1 H2. unfold fl. rewrite app_length in H2.
  assert (E : repeat c n ++ repeat false (32 - n) = repeat c (length ys) ++ (repeat c (n - length ys) ++ repeat false (32 - n))).
  { rewrite app_assoc, <- repeat_app. repeat f_equal. lia. }
  rewrite E, lxor_bits_msb by (rewrite !app_length, !repeat_length; lia).
  rewrite map2x_app by (rewrite repeat_length; auto). rewrite map2x_repeat by auto.
  set (q := map2x z _).
  assert (L : length (map (xorb c) ys ++ q) = 32%nat).
  { rewrite app_length, map_length. unfold q. rewrite map2x_length by (rewrite app_length, !repeat_length; lia). lia. }
  rewrite top_bit_lz by auto. pose proof (fd_le c ys). pose proof (fd_lz c ys) as F.
  destruct (Nat.eq_dec (fd c ys) (length ys)) as [Eq|Ne].
  - right. split; auto. pose proof (lz_app_ge (map (xorb c) ys) q) as G. rewrite F, map_length in G. specialize (G Eq). lia.
  - left. split; [|lia]. rewrite lz_app_lt by (rewrite F, map_length; lia). lia.
Qed.


(** [srep n c D q k s]: the changing elements [D] have been stored ([k] more fit), the last one at [q], the current colour is [c] *)
Record srep (n : nat) (c : bool) (D : list Z) (q : Z) (k : nat) (s : scan) : Prop := {
  sr_list : exists t, sc_list s = D ++ t /\ length t = k;
  sr_n : sc_n s = Z.of_nat (length D);
  sr_pos : sc_pos s = q;
  sr_flip : sc_flip s = fl n c }.

Lemma aset_app a (x : Z) t v : aset (a ++ x :: t) (Z.of_nat (length a)) v = Ok (a ++ v :: t).
Proof.
  unfold aset, in_bounds. rewrite app_length. cbn [length].
  destruct (Z.leb_spec 0 (Z.of_nat (length a))); [|lia].
  destruct (Z.ltb_spec (Z.of_nat (length a)) (Z.of_nat (length a + S (length t)))); [|lia]. cbn [andb]. f_equal.
  rewrite Nat2Z.id. clear. induction a as [|y a IH]; cbn [length upd app]; auto. rewrite IH. auto.
Qed.
Lemma sc_push_ok n c D q k s d : srep n c D q (S k) s ->
  exists s', sc_push s d = Ok s' /\ srep n c (D ++ [q + d]) (q + d) k s' /\ sc_span s' = sc_span s.
Proof.
  intros [(t & A & A') B C F]. destruct t as [|x t]; [discriminate|].
  unfold sc_push. rewrite A, B, aset_app. cbn [rbind]. eexists. split; [reflexivity|]. cbn [sc_span]. split; [|auto].
  constructor; cbn [sc_list sc_n sc_pos sc_flip].
  - exists t. rewrite <- app_assoc, C. cbn [app length] in *. split; [auto|lia].
  - rewrite app_length. cbn [length]. lia.
  - lia.
  - auto.
Qed.
Lemma sc_toggle_ok n c D q k s : (n <= 32)%nat -> srep n c D q k s -> srep n (negb c) D q k (sc_toggle (mask_of n) s).
Proof.
  intros H [A B C F]. constructor; cbn [sc_toggle sc_list sc_n sc_pos sc_flip]; auto. rewrite F. apply fl_toggle; auto.
Qed.
Lemma srep_span n c D q k s v : srep n c D q k s -> srep n c D q k (sc_set_span s v).
Proof. intros [A B C F]. constructor; cbn [sc_set_span sc_list sc_n sc_pos sc_flip]; auto. Qed.
Lemma last_cons (x : Z) l d : last (x :: l) d = last l x.
Proof. revert x d; induction l as [|y l IH]; intros x d; auto. change (last (x :: y :: l) d) with (last (y :: l) d). rewrite !IH. auto. Qed.
Lemma firstn_fd c l : fd c (firstn (fd c l) l) = length (firstn (fd c l) l).
Proof. induction l as [|b l IH]; cbn [fd]; auto. destruct (Bool.eqb b c) eqn:E; cbn [firstn fd length]; auto. rewrite E, IH. auto. Qed.

Lemma scan_more_ok n fuel : forall ys' c z D q k s, (S (length ys') <= n <= 32)%nat -> length ((c :: ys') ++ z) = 32%nat ->
  srep n c D q (length (changes c q (c :: ys')) + k) s -> (length ys' < fuel)%nat ->
  exists s', scan_more (mask_of n) fuel s (of_bits_msb ((c :: ys') ++ z)) (Z.of_nat (S (length ys')))
     = Ok (s', q + Z.of_nat (S (length ys')) - last (changes c q (c :: ys')) q) /\
    srep n (lastc c ys') (D ++ changes c q (c :: ys')) (last (changes c q (c :: ys')) q) k s' /\ sc_span s' = sc_span s.
Proof.
  induction fuel as [|fuel IH]; intros ys' c z D q k s Hn Hl Hs Hf; [lia|].
  set (ys := c :: ys') in *. change (S (length ys')) with (length ys) in *.
  cbn [scan_more]. rewrite (sr_flip _ _ _ _ _ _ Hs).
  destruct (frag_fd n c ys z Hn Hl) as [(Ef & Hlt)|(Hge & Efd)].
  2:{ destruct (changes_none c q ys Efd) as [C1 C2]. rewrite C1, app_nil_r. cbn [last]. rewrite C1 in Hs.
      destruct (Z.leb_spec (Z.of_nat (length ys)) (31 - top_bit (Z.lxor (of_bits_msb (ys ++ z)) (fl n c)))); [|lia].
      exists s. split; [f_equal; f_equal; lia|]. unfold ys in C2. rewrite lastc_cons in C2. rewrite C2. auto. }
  rewrite Ef. destruct (Z.leb_spec (Z.of_nat (length ys)) (Z.of_nat (fd c ys))); [lia|].
  assert (F0 : (0 < fd c ys)%nat) by (unfold ys; cbn [fd]; rewrite eqb_reflx; lia).
  destruct (changes_fd c q ys Hlt) as (t & T1 & T2 & T3 & T4 & T5).
  assert (Lc : lastc c ys' = lastc (negb c) t) by (rewrite <- T3; unfold ys; rewrite lastc_cons; auto).
  rewrite Lc. clear Lc.
  set (f := fd c ys) in *.
  assert (Split : ys = firstn f ys ++ negb c :: t) by (rewrite <- T1, firstn_skipn; auto).
  assert (Lf : length (firstn f ys) = f) by (rewrite firstn_length; lia).
  assert (T4' : changes c q ys = (q + Z.of_nat f) :: changes (negb c) (q + Z.of_nat f) (negb c :: t)) by (rewrite changes_skip_same; auto).
  rewrite T4' in Hs. cbn [length Nat.add] in Hs.
  destruct (sc_push_ok _ _ _ _ _ _ (Z.of_nat f) Hs) as (s1 & E1 & R1 & Sp1). rewrite E1. cbn [rbind].
  apply sc_toggle_ok in R1; [|lia].
  assert (E2 : u32 (Z.shiftl (of_bits_msb (ys ++ z)) (Z.of_nat f)) = of_bits_msb ((negb c :: t) ++ (z ++ repeat false f))).
  { rewrite Split at 1. rewrite <- app_assoc. rewrite <- Lf at 2. rewrite shl_top.
    - rewrite Lf. rewrite <- !app_assoc. reflexivity.
    - rewrite app_assoc, <- Split. auto. }
  rewrite E2. clear E2.
  replace (Z.of_nat (length ys) - Z.of_nat f) with (Z.of_nat (S (length t))) by lia.
  destruct (IH t (negb c) (z ++ repeat false f) (D ++ [q + Z.of_nat f]) (q + Z.of_nat f) k (sc_toggle (mask_of n) s1)) as (s' & P1 & P2 & P3).
  - lia.
  - rewrite !app_length, repeat_length in *. cbn [length] in *. lia.
  - exact R1.
  - unfold ys in *. cbn [length] in *. lia.
  - exists s'. rewrite P1. split; [|split].
    + rewrite T4'. f_equal. f_equal.
      assert (Z.of_nat (length ys) = Z.of_nat f + Z.of_nat (S (length t))) by lia.
      replace (last ((q + Z.of_nat f) :: changes (negb c) (q + Z.of_nat f) (negb c :: t)) q)
        with (last (changes (negb c) (q + Z.of_nat f) (negb c :: t)) (q + Z.of_nat f)); [lia|].
      symmetry; apply last_cons.
    + rewrite T4'. rewrite <- app_assoc in P2. cbn [app] in P2.
      replace (last ((q + Z.of_nat f) :: changes (negb c) (q + Z.of_nat f) (negb c :: t)) q)
        with (last (changes (negb c) (q + Z.of_nat f) (negb c :: t)) (q + Z.of_nat f)); [exact P2|].
      symmetry; apply last_cons.
    + rewrite P3. cbn [sc_toggle sc_span]. auto.
Qed.

Lemma fd_full_repeat c l : fd c l = length l -> l = repeat c (length l).
Proof.
  induction l as [|b l IH]; cbn [fd length repeat]; auto. destruct (Bool.eqb b c) eqn:E; [|lia].
  apply eqb_prop in E; subst. intros H. rewrite <- IH by lia. auto.
Qed.
Lemma of_bits_msb_inj a b : length a = length b -> of_bits_msb a = of_bits_msb b -> a = b.
Proof. intros H E. rewrite <- (bits_msb_of_bits a), <- (bits_msb_of_bits b), E, H. auto. Qed.

Lemma scan_chunk_ok n ys c D q k s i p : length ys = n -> (0 < n <= 32)%nat -> p = i * 8 ->
  srep n c D q (length (changes c p ys) + k) s -> sc_span s = q ->
  exists s', scan_chunk (mask_of n) (Z.of_nat n) s i (of_bits_msb (ys ++ repeat false (32 - n))) = Ok s' /\
    srep n (lastc c ys) (D ++ changes c p ys) (last (changes c p ys) q) k s' /\ sc_span s' = last (changes c p ys) q.
Proof.
  intros Hl Hn Hp Hs Hsp. unfold scan_chunk. rewrite (sr_flip _ _ _ _ _ _ Hs).
  destruct (Z.eqb_spec (of_bits_msb (ys ++ repeat false (32 - n))) (fl n c)) as [E|E].
  - apply of_bits_msb_inj in E; [|rewrite !app_length, !repeat_length; lia].
    apply app_inv_tail in E.
    assert (F : fd c ys = length ys).
    { rewrite E. rewrite repeat_length. clear. induction n; cbn [repeat fd]; auto. rewrite eqb_reflx. auto. }
    destruct (changes_none c p ys F) as [C1 C2]. rewrite C1, C2, app_nil_r in *. cbn [last]. cbn [length Nat.add] in Hs. eauto.
  - destruct (frag_fd n c ys (repeat false (32 - n))) as [(Ef & Hlt)|(_ & Efd)].
    { lia. } { rewrite app_length, repeat_length. lia. }
    2:{ exfalso. apply E. apply fd_full_repeat in Efd. rewrite Efd, Hl. reflexivity. }
    rewrite Ef. destruct (changes_fd c p ys Hlt) as (t & T1 & T2 & T3 & T4 & T5).
    set (f := fd c ys) in *.
    assert (Split : ys = firstn f ys ++ negb c :: t) by (rewrite <- T1, firstn_skipn; auto).
    assert (Lf : length (firstn f ys) = f) by (rewrite firstn_length; lia).
    assert (T4' : changes c p ys = (p + Z.of_nat f) :: changes (negb c) (p + Z.of_nat f) (negb c :: t)) by (rewrite changes_skip_same; auto).
    rewrite T4' in Hs. cbn [length Nat.add] in Hs.
    destruct (sc_push_ok _ _ _ _ _ _ (i * 8 - sc_span s + Z.of_nat f) Hs) as (s1 & E1 & R1 & Sp1). rewrite E1. cbn [rbind].
    replace (q + (i * 8 - sc_span s + Z.of_nat f)) with (p + Z.of_nat f) in R1 by lia.
    apply sc_toggle_ok in R1; [|lia].
    assert (E2 : u32 (Z.shiftl (of_bits_msb (ys ++ repeat false (32 - n))) (Z.of_nat f)) = of_bits_msb ((negb c :: t) ++ (repeat false (32 - n) ++ repeat false f))).
    { rewrite Split at 1. rewrite <- app_assoc. rewrite <- Lf at 2. rewrite shl_top.
      - rewrite Lf. rewrite <- !app_assoc. reflexivity.
      - rewrite app_assoc, <- Split. rewrite app_length, repeat_length. lia. }
    rewrite E2. clear E2.
    replace (Z.of_nat n - Z.of_nat f) with (Z.of_nat (S (length t))) by lia.
    destruct (scan_more_ok n 40 t (negb c) (repeat false (32 - n) ++ repeat false f) (D ++ [p + Z.of_nat f]) (p + Z.of_nat f) k (sc_toggle (mask_of n) s1)) as (s' & P1 & P2 & P3).
    + lia.
    + rewrite !app_length, !repeat_length. cbn [length]. lia.
    + exact R1.
    + lia.
    + rewrite P1. cbn [rbind]. eexists. split; [reflexivity|]. rewrite T4', T3, last_cons. split.
      * apply srep_span. rewrite <- app_assoc in P2. exact P2.
      * cbn [sc_set_span sc_span]. lia.
Qed.

(** ---- whole rows ---- *)
Lemma last_def (l : list Z) d e : l <> [] -> last l d = last l e.
Proof. destruct l as [|x l]; [congruence|]. intros _. rewrite !last_cons. auto. Qed.
Lemma last_app (a b : list Z) d : last (a ++ b) d = last b (last a d).
Proof. revert d; induction a as [|x a IH]; intros d; auto. cbn [app]. rewrite !last_cons. apply IH. Qed.
Definition rowrep (n cap : nat) (l0 : list bool) (s : scan) : Prop :=
  srep n (lastc false l0) (changes false 0 l0) (last (changes false 0 l0) 0) (cap - length (changes false 0 l0)) s /\
  sc_span s = last (changes false 0 l0) 0.
Lemma row_chunk n cap l0 ys s i : rowrep n cap l0 s -> length ys = n -> (0 < n <= 32)%nat -> Z.of_nat (length l0) = i * 8 ->
  (length (l0 ++ ys) <= cap)%nat ->
  exists s', scan_chunk (mask_of n) (Z.of_nat n) s i (of_bits_msb (ys ++ repeat false (32 - n))) = Ok s' /\ rowrep n cap (l0 ++ ys) s'.
Proof.
  intros [Hs Hsp] Hl Hn Hi Hc.
  pose proof (changes_length false 0 (l0 ++ ys)) as L. rewrite changes_app, app_length in L.
  replace (cap - length (changes false 0 l0))%nat with
    (length (changes (lastc false l0) (i * 8) ys) + (cap - length (changes false 0 (l0 ++ ys))))%nat in Hs.
  2:{ rewrite changes_app, app_length, Hi in *. cbn [Z.add] in *. lia. }
  destruct (scan_chunk_ok n ys _ _ _ _ _ i (i * 8) Hl Hn eq_refl Hs Hsp) as (s' & P1 & P2 & P3).
  exists s'. split; auto. unfold rowrep. rewrite changes_app, lastc_app, Hi, last_app. cbn [Z.add].
  rewrite changes_app, Hi in P2. cbn [Z.add] in P2. auto.
Qed.

Lemma unpack_msb_app a b : unpack_msb (a ++ b) = unpack_msb a ++ unpack_msb b.
Proof. apply flat_map_app. Qed.
Lemma unpack_msb_length l : length (unpack_msb l) = (8 * length l)%nat.
Proof. apply flat_map_bits_length. intros; apply bits_msb_length. Qed.
Lemma byte_msb b : byte b -> of_bits_msb (bits_msb 8 b) = b.
Proof. intros H. apply of_bits_msb_bits. exact H. Qed.
Lemma aget_app_at (a : list Z) x t : aget (a ++ x :: t) (Z.of_nat (length a)) = Ok x.
Proof.
  unfold aget, in_bounds. rewrite app_length. cbn [length].
  destruct (Z.leb_spec 0 (Z.of_nat (length a))); [|lia].
  destruct (Z.ltb_spec (Z.of_nat (length a)) (Z.of_nat (length a + S (length t)))); [|lia]. cbn [andb].
  rewrite Nat2Z.id, app_nth2, Nat.sub_diag by lia. auto.
Qed.
Lemma aget_app_at' (a : list Z) x t i : i = Z.of_nat (length a) -> aget (a ++ x :: t) i = Ok x.
Proof. intros ->. apply aget_app_at. Qed.

Lemma get_net_u32_ok pre a b c d rest : bytes [a; b; c; d] ->
  get_net_u32 (pre ++ a :: b :: c :: d :: rest) (Z.of_nat (length pre)) = Ok (of_bits_msb (unpack_msb [a; b; c; d] ++ repeat false (32 - 32))).
Proof.
  intros H. unfold get_net_u32. rewrite aget_app_at. cbn [rbind].
  replace (pre ++ a :: b :: c :: d :: rest) with ((pre ++ [a]) ++ b :: c :: d :: rest) by (rewrite <- app_assoc; auto).
  rewrite (aget_app_at' (pre ++ [a])) by (rewrite app_length; cbn [length]; lia). cbn [rbind].
  replace ((pre ++ [a]) ++ b :: c :: d :: rest) with ((pre ++ [a; b]) ++ c :: d :: rest) by (rewrite <- !app_assoc; auto).
  rewrite (aget_app_at' (pre ++ [a; b])) by (rewrite app_length; cbn [length]; lia). cbn [rbind].
  replace ((pre ++ [a; b]) ++ c :: d :: rest) with ((pre ++ [a; b; c]) ++ d :: rest) by (rewrite <- !app_assoc; auto).
  rewrite (aget_app_at' (pre ++ [a; b; c])) by (rewrite app_length; cbn [length]; lia). cbn [rbind].
  f_equal. cbn [Nat.sub repeat]. rewrite app_nil_r. unfold unpack_msb. cbn [flat_map]. rewrite app_nil_r.
  apply Forall_cons_iff in H as [Ha H]. apply Forall_cons_iff in H as [Hb H]. apply Forall_cons_iff in H as [Hc H]. apply Forall_cons_iff in H as [Hd _].
  rewrite !of_bits_msb_app, !app_length, !bits_msb_length, !byte_msb by auto. cbn [Nat.add].
  change (2 ^ Z.of_nat 24) with (256 * 256 * 256). change (2 ^ Z.of_nat 16) with (256 * 256). change (2 ^ Z.of_nat 8) with 256. ring.
Qed.

Lemma mask32 : 0xFFFFFFFF = mask_of 32. Proof. reflexivity. Qed.
Lemma mask8 : 0xFF000000 = mask_of 8. Proof. reflexivity. Qed.

Lemma scan_words_ok cap fuel : forall pre post s i limit, bytes (pre ++ post) -> i = Z.of_nat (length pre) ->
  limit <= Z.of_nat (length (pre ++ post)) -> (limit - i) mod 4 = 0 -> i <= limit -> limit - i <= 4 * Z.of_nat fuel - 4 ->
  8 * limit <= Z.of_nat cap -> rowrep 32 cap (unpack_msb pre) s ->
  exists s', scan_words fuel limit (pre ++ post) s i = Ok (s', limit) /\
     rowrep 32 cap (unpack_msb (firstn (Z.to_nat limit) (pre ++ post))) s'.
Proof.
  induction fuel as [|fuel IH]; intros pre post s i limit Hb Hi Hl Hm Hle Hf Hc Hs; cbn [scan_words].
  - lia.
  - destruct (Z.leb_spec limit i).
    + assert (limit = i) by lia. subst limit. exists s. split; auto.
      rewrite Hi, Nat2Z.id, firstn_app, Nat.sub_diag, firstn_O, app_nil_r, firstn_all. auto.
    + assert (4 <= limit - i) by (Z.div_mod_to_equations; lia).
      rewrite app_length in Hl.
      destruct post as [|a [|b [|c [|d rest]]]]; cbn [length] in Hl; try lia.
      assert (Hb4 : bytes [a; b; c; d]).
      { apply Forall_app in Hb as [_ Hb]. apply (Forall_app byte [a; b; c; d] rest) in Hb as [Hb _]. exact Hb. }
      rewrite Hi, get_net_u32_ok by auto. cbn [rbind]. rewrite mask32. change 32 with (Z.of_nat 32).
      destruct (row_chunk 32 cap (unpack_msb pre) (unpack_msb [a; b; c; d]) s (Z.of_nat (length pre)) Hs) as (s1 & E1 & R1).
      { reflexivity. } { lia. } { rewrite unpack_msb_length. lia. }
      { rewrite app_length, !unpack_msb_length. cbn [length]. lia. }
      rewrite E1. cbn [rbind]. rewrite <- unpack_msb_app in R1.
      destruct (IH (pre ++ [a; b; c; d]) rest s1 (Z.of_nat (length pre) + 4) limit) as (s' & P1 & P2).
      * rewrite <- app_assoc. auto.
      * rewrite app_length. cbn [length]. lia.
      * rewrite !app_length. cbn [length]. lia.
      * Z.div_mod_to_equations; lia.
      * lia.
      * lia.
      * lia.
      * auto.
      * rewrite <- app_assoc in P1, P2. cbn [app] in P1, P2. eauto.
Qed.

Lemma scan_octets_ok cap fuel : forall pre post s i limit, bytes (pre ++ post) -> i = Z.of_nat (length pre) ->
  limit <= Z.of_nat (length (pre ++ post)) -> i <= limit -> limit - i <= Z.of_nat fuel ->
  8 * limit <= Z.of_nat cap -> rowrep 8 cap (unpack_msb pre) s ->
  exists s', scan_octets fuel limit (pre ++ post) s i = Ok (s', limit) /\
     rowrep 8 cap (unpack_msb (firstn (Z.to_nat limit) (pre ++ post))) s'.
Proof.
  induction fuel as [|fuel IH]; intros pre post s i limit Hb Hi Hl Hle Hf Hc Hs; cbn [scan_octets].
  - assert (limit = i) by lia. subst limit. destruct (Z.leb_spec i i); [|lia]. exists s. split; auto.
    rewrite Hi, Nat2Z.id, firstn_app, Nat.sub_diag, firstn_O, app_nil_r, firstn_all. auto.
  - destruct (Z.leb_spec limit i).
    + assert (limit = i) by lia. subst limit. exists s. split; auto.
      rewrite Hi, Nat2Z.id, firstn_app, Nat.sub_diag, firstn_O, app_nil_r, firstn_all. auto.
    + rewrite app_length in Hl. destruct post as [|a rest]; cbn [length] in Hl; try lia.
      assert (Ha : byte a) by (apply Forall_app in Hb as [_ Hb]; inversion Hb; auto).
      rewrite Hi, aget_app_at. cbn [rbind].
      replace (Z.shiftl a 24) with (of_bits_msb (unpack_msb [a] ++ repeat false (32 - 8))).
      2:{ unfold unpack_msb. cbn [flat_map]. rewrite app_nil_r, of_bits_msb_app, byte_msb by auto. rewrite Z.shiftl_mul_pow2 by lia. 
          change (of_bits_msb (repeat false (32 - 8))) with 0. rewrite repeat_length. change (Z.of_nat (32 - 8)) with 24. lia. }
      rewrite mask8. change 8 with (Z.of_nat 8).
      destruct (row_chunk 8 cap (unpack_msb pre) (unpack_msb [a]) s (Z.of_nat (length pre)) Hs) as (s1 & E1 & R1).
      { reflexivity. } { lia. } { rewrite unpack_msb_length. lia. }
      { rewrite app_length, !unpack_msb_length. cbn [length]. lia. }
      rewrite E1. cbn [rbind]. rewrite <- unpack_msb_app in R1.
      destruct (IH (pre ++ [a]) rest s1 (Z.of_nat (length pre) + 1) limit) as (s' & P1 & P2).
      * rewrite <- app_assoc. auto.
      * rewrite app_length. cbn [length]. lia.
      * rewrite !app_length. cbn [length]. lia.
      * lia.
      * lia.
      * lia.
      * auto.
      * rewrite <- app_assoc in P1, P2. cbn [app] in P1, P2. eauto.
Qed.

Lemma scan_tail_ok fuel : forall ys z c D q k s p, (length ys <= 8)%nat -> (0 < length ys)%nat -> length (ys ++ z) = 32%nat ->
  srep 8 c D q (length (changes c p ys) + S k) s -> q + sc_span s = p -> 
  (length ys < fuel \/ fd c ys <> O /\ length ys <= fuel)%nat ->
  exists s' q' c', scan_tail fuel s (of_bits_msb (ys ++ z)) (Z.of_nat (length ys)) = Ok s' /\
    srep 8 c' (D ++ changes c p ys ++ [p + Z.of_nat (length ys)]) q' k s'.
Proof.
  induction fuel as [|fuel IH]; intros ys z c D q k s p H8 H0 Hl Hs Hq Hf; [lia|].
  cbn [scan_tail]. rewrite (sr_flip _ _ _ _ _ _ Hs).
  assert (Hn : (length ys <= 8 <= 32)%nat) by lia.
  set (frag := 31 - top_bit (Z.lxor (of_bits_msb (ys ++ z)) (fl 8 c))).
  assert (E : (if Z.of_nat (length ys) <? frag then Z.of_nat (length ys) else frag) = Z.of_nat (fd c ys)).
  { pose proof (fd_le c ys). pose proof (frag_fd 8 c ys z Hn Hl) as FF. fold frag in FF. clearbody frag.
    destruct (Z.ltb_spec (Z.of_nat (length ys)) frag); lia. }
  rewrite E. pose proof (fd_le c ys) as Fle. clear E frag.
  assert (Cn : (1 <= length (changes c p ys) + S k)%nat) by lia.
  destruct (length (changes c p ys) + S k)%nat as [|k1] eqn:Ek; [lia|].
  destruct (sc_push_ok _ _ _ _ _ _ (sc_span s + Z.of_nat (fd c ys)) Hs) as (s1 & E1 & R1 & Sp1). rewrite E1. cbn [rbind].
  replace (q + (sc_span s + Z.of_nat (fd c ys))) with (p + Z.of_nat (fd c ys)) in R1 by lia.
  apply sc_toggle_ok in R1; [|lia]. change (mask_of 8) with 0xFF000000 in R1.
  apply (srep_span _ _ _ _ _ _ 0) in R1.
  destruct (Nat.eq_dec (fd c ys) (length ys)) as [Eq|Ne].
  - destruct (Z.ltb_spec 0 (Z.of_nat (length ys) - Z.of_nat (fd c ys))); [lia|].
    destruct (changes_none c p ys Eq) as [C1 C2]. rewrite C1 in *. cbn [app length Nat.add] in *. rewrite Eq in R1.
    injection Ek as <-. eauto.
  - destruct (Z.ltb_spec 0 (Z.of_nat (length ys) - Z.of_nat (fd c ys))); [|lia].
    assert (Hlt : (fd c ys < length ys)%nat) by lia.
    destruct (changes_fd c p ys Hlt) as (t & T1 & T2 & T3 & T4 & T5).
    set (f := fd c ys) in *.
    assert (Split : ys = firstn f ys ++ negb c :: t) by (rewrite <- T1, firstn_skipn; auto).
    assert (Lf : length (firstn f ys) = f) by (rewrite firstn_length; lia).
    assert (T4' : changes c p ys = (p + Z.of_nat f) :: changes (negb c) (p + Z.of_nat f) (negb c :: t)) by (rewrite changes_skip_same; auto).
    assert (E2 : u32 (Z.shiftl (of_bits_msb (ys ++ z)) (Z.of_nat f)) = of_bits_msb ((negb c :: t) ++ (z ++ repeat false f))).
    { rewrite Split at 1. rewrite <- app_assoc. rewrite <- Lf at 2. rewrite shl_top.
      - rewrite Lf. rewrite <- !app_assoc. reflexivity.
      - rewrite app_assoc, <- Split. auto. }
    rewrite E2. clear E2.
    replace (Z.of_nat (length ys) - Z.of_nat f) with (Z.of_nat (length (negb c :: t))) by (cbn [length]; lia).
    rewrite T4' in Ek. cbn [length Nat.add] in Ek. injection Ek as Ek.
    replace k1 with (length (changes (negb c) (p + Z.of_nat f) (negb c :: t)) + S k)%nat in R1.
    destruct (IH (negb c :: t) (z ++ repeat false f) (negb c) (D ++ [p + Z.of_nat f]) (p + Z.of_nat f) k (sc_set_span (sc_toggle 0xFF000000 s1) 0) (p + Z.of_nat f)) as (s' & q' & c' & P1 & P2).
    + cbn [length]; lia.
    + cbn [length]; lia.
    + rewrite !app_length, repeat_length in *. cbn [length] in *. lia.
    + exact R1.
    + cbn [sc_set_span sc_span]. lia.
    + right. rewrite T5. cbn [length]. lia.
    + exists s', q', c'. split; [exact P1|]. rewrite T4'. cbn [app]. rewrite <- app_assoc in P2. cbn [app] in P2.
      replace (p + Z.of_nat (length ys)) with (p + Z.of_nat f + Z.of_nat (length (negb c :: t))) by (cbn [length]; lia). exact P2.
Qed.

Lemma firstn_unpack_msb n l : firstn (8 * n) (unpack_msb l) = unpack_msb (firstn n l).
Proof.
  revert n; induction l as [|x l IH]; intros [|n].
  - auto. - cbn. rewrite ?firstn_nil. auto. - auto.
  - replace (8 * S n)%nat with (8 + 8 * n)%nat by lia.
    change (unpack_msb (x :: l)) with (bits_msb 8 x ++ unpack_msb l).
    cbn [firstn]. change (unpack_msb (x :: firstn n l)) with (bits_msb 8 x ++ unpack_msb (firstn n l)).
    rewrite <- IH, firstn_app, bits_msb_length. rewrite firstn_all2 by (rewrite bits_msb_length; lia). do 2 f_equal. lia.
Qed.

Theorem row_to_run_lengths_ok list0 row w : 0 < w -> row_ok w row -> w < Z.of_nat (length list0) ->
  exists t, row_to_run_lengths list0 row w = Ok (transitions w row ++ t, Z.of_nat (length (transitions w row))) /\
            length (transitions w row ++ t) = length list0.
Proof.
  intros Hw [Hb Hr] Hc. unfold row_to_run_lengths.
  rewrite Z.shiftr_div_pow2 by lia. change (2 ^ 3) with 8.
  assert (Hlim : Z.land (w / 8) (-4) = w / 8 / 4 * 4).
  { change (-4) with (Z.lnot (Z.ones 2)). rewrite <- Z.ldiff_land, Z.ldiff_ones_r by lia.
    rewrite Z.shiftr_div_pow2, Z.shiftl_mul_pow2 by lia. reflexivity. }
  rewrite Hlim. set (cap := length list0) in *.
  assert (Hrow : w / 8 <= Z.of_nat (length row)) by (Z.div_mod_to_equations; lia).
  destruct (scan_words_ok cap (S (length row)) [] row (mk_scan list0 0 0 0 0) 0 (w / 8 / 4 * 4)) as (s1 & E1 & R1); auto; try (cbn [app]; Z.div_mod_to_equations; lia).
  { split; [|reflexivity]. constructor; cbn [sc_list sc_n sc_pos sc_flip]; try reflexivity. exists list0. cbn. rewrite Nat.sub_0_r. auto. }
  cbn [app] in E1, R1. rewrite E1. cbn [rbind]. clear E1.
  set (k4 := w / 8 / 4 * 4) in *.
  destruct R1 as [R1 Sp1].
  set (s2 := mk_scan _ _ _ _ _).
  assert (R2 : rowrep 8 cap (unpack_msb (firstn (Z.to_nat k4) row)) s2).
  { split; [|exact Sp1]. destruct R1 as [A B C F]. constructor; cbn [s2 sc_list sc_n sc_pos sc_flip]; auto.
    rewrite F. destruct (lastc false _); reflexivity. }
  destruct (scan_octets_ok cap (S (length row)) (firstn (Z.to_nat k4) row) (skipn (Z.to_nat k4) row) s2 k4 (w / 8)) as (s3 & E3 & R3);
    rewrite ?firstn_skipn; auto.
  { rewrite firstn_length. unfold k4 in *. Z.div_mod_to_equations; lia. }
  { unfold k4. Z.div_mod_to_equations; lia. } { unfold k4. Z.div_mod_to_equations; lia. } { Z.div_mod_to_equations; lia. }
  rewrite firstn_skipn in E3, R3. rewrite E3. cbn [rbind]. clear E3 s2 R2 R1 Sp1 s1.
  set (pre := firstn (Z.to_nat (w / 8)) row) in *.
  assert (Lpre : Z.of_nat (length pre) = w / 8) by (unfold pre; rewrite firstn_length; Z.div_mod_to_equations; lia).
  destruct R3 as [R3 Sp3]. set (D := changes false 0 (unpack_msb pre)) in *.
  assert (Hlast : 0 < w / 8 -> last D 0 < w / 8 * 8).
  { intros Hp. destruct D as [|d D'] eqn:ED; [cbn; lia|].
    assert (In (last (d :: D') 0) (changes false 0 (unpack_msb pre))).
    { fold D. rewrite ED. rewrite (app_removelast_last 0 (l := d :: D')) at 2 by congruence. apply in_or_app. right. left. auto. }
    apply changes_bounds in H. rewrite unpack_msb_length in H. lia. }
  assert (HD : (length D <= 8 * length pre)%nat) by (unfold D; rewrite <- unpack_msb_length; apply changes_length).
  assert (Hl7 : Z.land w 7 = w mod 8) by (change 7 with (Z.ones 3); rewrite Z.land_ones by lia; reflexivity).
  rewrite Hl7.
  assert (Fin : forall s q c, srep 8 c (transitions w row) q (cap - length (transitions w row)) s ->
     (length (transitions w row) <= cap)%nat ->
     exists t, Ok (sc_list s, sc_n s) = Ok (transitions w row ++ t, Z.of_nat (length (transitions w row))) /\ length (transitions w row ++ t) = cap).
  { intros s q c [(t & A & A') B _ _] Hle. exists t. rewrite A, B. split; auto. rewrite app_length. lia. }
  destruct (Z.eqb_spec (w mod 8) 0) as [E0|E0].
  - assert (0 < w / 8) by (Z.div_mod_to_equations; lia). specialize (Hlast H).
    cbn [sc_set_span sc_span]. rewrite Sp3. destruct (Z.eqb_spec (w / 8 * 8 - last D 0) 0); [lia|].
    assert (exists kk, cap - length D = S kk)%nat as [kk Ekk] by (exists (cap - length D - 1)%nat; Z.div_mod_to_equations; lia).
    rewrite Ekk in R3. apply (srep_span _ _ _ _ _ _ (w / 8 * 8 - last D 0)) in R3.
    destruct (sc_push_ok _ _ _ _ _ _ (w / 8 * 8 - last D 0) R3) as (s4 & E4 & R4 & _).
    rewrite E4. cbn [rbind].
    replace (last D 0 + (w / 8 * 8 - last D 0)) with w in R4 by (Z.div_mod_to_equations; lia).
    assert (ET : transitions w row = D ++ [w]).
    { unfold transitions, pixels, D. replace (Z.to_nat w) with (8 * Z.to_nat (w / 8))%nat by (Z.div_mod_to_equations; lia).
      rewrite firstn_unpack_msb. reflexivity. }
    rewrite ET in Fin |- *. rewrite app_length in *. cbn [length] in *. apply (Fin s4 w (lastc false (unpack_msb pre))); [|lia].
    replace (cap - (length D + 1))%nat with kk by lia. exact R4.
  - assert (Hi : (Z.to_nat (w / 8) < length row)%nat) by (Z.div_mod_to_equations; lia).
    destruct (nth_error row (Z.to_nat (w / 8))) as [b|] eqn:Eb; [|apply nth_error_None in Eb; lia].
    assert (Erow : row = pre ++ b :: skipn (S (Z.to_nat (w / 8))) row).
    { apply nth_error_split in Eb as (l1 & l2 & -> & Hl1). unfold pre. rewrite <- Hl1.
      rewrite firstn_app, Nat.sub_diag, firstn_O, app_nil_r, firstn_all. f_equal. f_equal.
      replace (S (length l1)) with (length (l1 ++ [b])) by (rewrite app_length; cbn [length]; lia).
      replace (l1 ++ b :: l2) with ((l1 ++ [b]) ++ l2) by (rewrite <- app_assoc; auto).
      rewrite skipn_app, skipn_all, Nat.sub_diag. auto. }
    assert (Hbb : byte b) by (rewrite Erow in Hb; apply Forall_app in Hb as [_ Hb]; inversion Hb; auto).
    assert (Eget : aget row (w / 8) = Ok b) by (rewrite Erow, <- Lpre; apply aget_app_at).
    cbn [sc_set_span sc_span]. rewrite Sp3, Eget. cbn [rbind].
    set (r := Z.to_nat (w mod 8)). assert (Hr8 : (0 < r < 8)%nat) by (unfold r; Z.div_mod_to_equations; lia).
    set (ys := firstn r (bits_msb 8 b)). set (z := skipn r (bits_msb 8 b) ++ repeat false 24).
    assert (Ex : Z.shiftl b 24 = of_bits_msb (ys ++ z)).
    { unfold ys, z. rewrite app_assoc, firstn_skipn, of_bits_msb_app, byte_msb by auto.
      change (of_bits_msb (repeat false 24)) with 0. rewrite repeat_length, Z.shiftl_mul_pow2 by lia. change (Z.of_nat 24) with 24. lia. }
    assert (Lys : length ys = r) by (unfold ys; rewrite firstn_length, bits_msb_length; lia).
    assert (Lz : length (ys ++ z) = 32%nat).
    { unfold z. rewrite !app_length, Lys, skipn_length, bits_msb_length, repeat_length. lia. }
    assert (ET : transitions w row = D ++ changes (lastc false (unpack_msb pre)) (w / 8 * 8) ys ++ [w]).
    { unfold transitions, pixels, D. rewrite app_assoc. f_equal.
      replace (Z.to_nat w) with (length (unpack_msb pre) + r)%nat by (rewrite unpack_msb_length; unfold r; Z.div_mod_to_equations; lia).
      rewrite Erow at 1. rewrite unpack_msb_app, firstn_app_2, changes_app. cbn [Z.add]. f_equal.
      rewrite unpack_msb_length. replace (Z.of_nat (8 * length pre)) with (w / 8 * 8) by lia. f_equal.
      change (unpack_msb (b :: skipn (S (Z.to_nat (w / 8))) row)) with (bits_msb 8 b ++ unpack_msb (skipn (S (Z.to_nat (w / 8))) row)).
      rewrite firstn_app, bits_msb_length. replace (r - 8)%nat with 0%nat by lia. rewrite firstn_O, app_nil_r. reflexivity. }
    pose proof (changes_length (lastc false (unpack_msb pre)) (w / 8 * 8) ys) as Lch.
    assert (Hwr : w = w / 8 * 8 + Z.of_nat r) by (unfold r; Z.div_mod_to_equations; lia).
    replace (cap - length D)%nat with (length (changes (lastc false (unpack_msb pre)) (w / 8 * 8) ys) + S (cap - length (transitions w row)))%nat in R3
      by (rewrite ET, !app_length; cbn [length]; lia).
    apply (srep_span _ _ _ _ _ _ (w / 8 * 8 - last D 0)) in R3.
    destruct (scan_tail_ok 9 ys z _ _ _ _ _ (w / 8 * 8) ltac:(lia) ltac:(lia) Lz R3) as (s' & q' & c' & P1 & P2).
    { cbn [sc_set_span sc_span]. lia. } { lia. }
    rewrite Ex. replace (w mod 8) with (Z.of_nat (length ys)) by (rewrite Lys; unfold r; Z.div_mod_to_equations; lia).
    rewrite P1. cbn [rbind].
    apply (Fin s' q' c').
    + rewrite Lys, <- Hwr, <- ET in P2. exact P2.
    + rewrite ET, !app_length. cbn [length]. lia.
Qed.
