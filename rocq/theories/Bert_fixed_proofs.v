From Verif Require Import Base Bert_model Bert_spec Bert_proofs Bert_rx_proofs Bert_sync_proofs.
Local Open Scope Z_scope.

(** ---- the register as a word ---- *)
Fixpoint val (l : list bool) : Z := match l with [] => 0 | b :: t => Z.b2z b + 2 * val t end.
Definition turn (w : list bool) (k : nat) : Z := val (again w k 32).
Definition core (p : pat) (s : Z * Z * Z) (bit : Z) : Z * Z * Z :=
  let '(g, f, n) := s in
  let g := Z.lor (Z.shiftr g 1) (Z.shiftl bit (shift2 p)) in
  let f := rotate (shift2 p) f in
  if g =? f then (g, f, if resync_time p <? n + 1 then 0 else n + 1) else (g, reg0 p, 2).
Fixpoint cores (p : pat) (s : Z * Z * Z) (l : list bool) : Z * Z * Z :=
  match l with
  | [] => s
  | b :: t => if snd s =? 0 then cores p (fst (fst s), rotate (shift2 p) (snd (fst s)), 0) t else cores p (core p s (Z.b2z b)) t
  end.
Definition starts (N : nat) (n : Z) (w : list bool) : bool := forallb (fun k => let '(g, f, r) := cores (pattern n) (reg0 (pattern n), reg0 (pattern n), 1) (again w k N) in (f =? turn w (k + N)) && (r =? 0)) (seq 0 8).
Definition turns (n : Z) (w : list bool) : bool := (reg0 (pattern n) =? turn w 0) && forallb (fun k => (rotate 31 (turn w k) =? turn w (S k)) && (Z.land (turn w k) 1 =? Z.b2z (nth (k mod 8) w false))) (seq 0 8).
Lemma again_S w j k : again w j (S k) = nth (j mod 8) w false :: again w (S j) k.
Proof. unfold again. cbn [seq map]. rewrite Nat.add_0_r. f_equal. rewrite <- seq_shift, map_map. apply map_ext. intros t. do 2 f_equal. lia. Qed.
Lemma again_app w j a b : again w j (a + b) = again w j a ++ again w (j + a) b.
Proof. revert j. induction a; intros j; cbn [Nat.add]; [rewrite Nat.add_0_r; reflexivity|]. rewrite !again_S. cbn [app]. rewrite IHa. do 3 f_equal. lia. Qed.
Lemma again_mod w k n : again w (k mod 8) n = again w k n.
Proof. unfold again. apply map_ext. intros t. rewrite Nat.add_mod_idemp_l by lia. reflexivity. Qed.
Lemma word_checks n w : word n w -> starts 112 n w = true /\ turns n w = true /\ (0 <= n <= 6).
Proof. intros H. assert (X : forallb (fun x => starts 112 (fst x) (snd x) && turns (fst x) (snd x)) [(0, [false; false; false; false; false; false; false; false]); (1, [true; true; true; true; true; true; true; true]); (2, [false; true; true; true; true; true; true; true]); (3, [false; true; true; true; false; true; true; true]); (4, [false; true; false; true; false; true; false; true]); (5, [true; false; false; false; true; false; false; false]); (6, [true; false; false; false; false; false; false; false])] = true) by (vm_compute; reflexivity). rewrite forallb_forall in X. specialize (X _ H). cbn [fst snd] in X. apply andb_prop in X as [A B]. split; [exact A|]. split; [exact B|]. repeat (destruct H as [H|H]; [injection H as <- _; lia|]). destruct H. Qed.
Lemma turn_next n w k : word n w -> rotate 31 (turn w k) = turn w (S k) /\ Z.land (turn w k) 1 = Z.b2z (nth (k mod 8) w false).
Proof.
  intros H. destruct (word_checks n w H) as (_ & T & _). apply andb_prop in T as [_ T]. rewrite forallb_forall in T. specialize (T (k mod 8)%nat ltac:(apply in_seq; pose proof (Nat.mod_upper_bound k 8); lia)). apply andb_prop in T as [A B].
  unfold turn in *. rewrite again_mod in A, B. replace (again w (S (k mod 8)) 32) with (again w (S k) 32) in A by (unfold again; apply map_ext; intros t; f_equal; rewrite <- (Nat.add_mod_idemp_l (S k)) by lia; rewrite <- (Nat.add_mod_idemp_l (S (k mod 8))) by lia; f_equal; f_equal; change (S k) with (1 + k)%nat; change (S (k mod 8)) with (1 + k mod 8)%nat; rewrite Nat.add_mod_idemp_r by lia; reflexivity). rewrite Nat.mod_mod in B by lia. split; lia.
Qed.
Lemma fixed_pat n w : word n w -> cls (pattern n) = 0 /\ shift2 (pattern n) = 31 /\ invert (pattern n) = 0 /\ reg0 (pattern n) = turn w 0.
Proof. intros H. destruct (word_checks n w H) as (_ & T & _). apply andb_prop in T as [T _]. repeat (destruct H as [H|H]; [injection H as <- <-; repeat split; lia|]). destruct H. Qed.

(** ---- sending ---- *)
Lemma gets_fixed c n w k : word n w -> pt c = pattern n -> forall j s, t_reg s = turn w j -> 0 <= t_bits s -> t_bits s + Z.of_nat k <= 2147483647 -> (limit c = 0 \/ t_bits s + Z.of_nat k <= limit c) ->
  exists s', gets c s k = Ok (s', as_bits (again w j k)).
Proof.
  intros H E. destruct (fixed_pat n w H) as (P1 & P2 & P3 & P4). induction k; intros j s R B0 B L; [eexists; reflexivity|]. cbn [gets]. unfold get_bit. rewrite E, P1, P2. replace (negb (limit c =? 0) && (limit c <=? t_bits s)) with false by lia. cbn [Z.eqb rbind t_bits t_reg]. unfold inc. replace (t_bits s <? 2147483647) with true by lia. cbn [rbind]. destruct (turn_next n w j H) as [N1 N2].
  edestruct (IHk (S j)) as (s' & F); [..|rewrite F]; cbn [t_reg t_bits]; [rewrite R; exact N1 | lia | lia | lia|]. cbn [rbind]. exists s'. rewrite R, N2, again_S. reflexivity.
Qed.

(** ---- receiving ---- *)
Definition tri (s : state) : Z * Z * Z := (reg (fst s), ref_reg (fst s), resync (fst s)).
Definition res_ok (s : state) : Prop := 0 <= bad (snd s) <= total (snd s) /\ total (snd s) <= bits (fst s).
Lemma put_fixed c s b : cls (pt c) = 0 -> invert (pt c) = 0 -> res_ok s -> bits (fst s) < 2147483647 ->
  exists s' e, put_bit c s (Z.b2z b) = Ok (s', e) /\ res_ok s' /\ bits (fst s') = bits (fst s) + 1 /\ ~ In Unsynced e /\
    (if resync (fst s) =? 0 then tri s' = (reg (fst s), rotate (shift2 (pt c)) (ref_reg (fst s)), 0) /\ total (snd s') = total (snd s) + 1 /\ bad (snd s') = bad (snd s) + (if Z.land (Z.lxor (Z.b2z b) (ref_reg (fst s))) 1 =? 0 then 0 else 1)
     else tri s' = core (pt c) (tri s) (Z.b2z b) /\ snd s' = snd s /\ (resync (fst s') = 0 -> 0 <= resync (fst s) -> In Synced e)).
Proof.
  intros C0 I0 R B. unfold put_bit. replace (Z.b2z b <? 0) with false by (destruct b; reflexivity). unfold inc at 1. replace (bits (fst s) <? 2147483647) with true by lia. cbn [rbind]. rewrite C0, I0, Z.lxor_0_r. cbn [Z.eqb]. replace (Z.land (Z.b2z b) 1) with (Z.b2z b) by (destruct b; reflexivity). destruct s as [r x]. unfold res_ok in *. cbn [fst snd] in *.
  assert (X : exists r1 x1 e1, put0 c (w_bits (bits r + 1) r, x) (Z.b2z b) = Ok ((r1, x1), e1) /\ (0 <= bad x1 <= total x1 /\ total x1 <= bits r1) /\ bits r1 = bits r + 1 /\ ~ In Unsynced e1 /\
    (if resync r =? 0 then tri (r1, x1) = (reg r, rotate (shift2 (pt c)) (ref_reg r), 0) /\ total x1 = total x + 1 /\ bad x1 = bad x + (if Z.land (Z.lxor (Z.b2z b) (ref_reg r)) 1 =? 0 then 0 else 1)
     else tri (r1, x1) = core (pt c) (tri (r, x)) (Z.b2z b) /\ x1 = x /\ (resync r1 = 0 -> 0 <= resync r -> In Synced e1))).
  { unfold put0. cbn [w_bits resync total reg zeros bad bad_bits decs mstep cnt resyncs ref_reg step step_bit bits countdown]. unfold core, tri. cbn [fst snd]. destruct (Z.eqb_spec (resync r) 0) as [Q|Q]; cbn [negb].
    - unfold inc. replace (total x <? 2147483647) with true by lia. cbn [rbind]. destruct (Z.land (Z.lxor (Z.b2z b) (ref_reg r)) 1 =? 0); [|replace (bad x <? 2147483647) with true by lia]; cbn [rbind]; eexists _, _, _; (split; [reflexivity|]); cbn; repeat split; try lia; try tauto; rewrite Q; reflexivity.
    - destruct (_ =? _); [destruct (_ <? _) eqn:K|]; eexists _, _, _; (split; [reflexivity|]); cbn; repeat split; try lia; intuition (discriminate || lia). }
  destruct X as (r1 & x1 & e1 & -> & X1 & X2 & X3 & X4). cbn [rbind fst snd]. destruct (0 <? freq c); [destruct (countdown r1 - 1 <=? 0)|]; eexists _, _; (split; [reflexivity|]); cbn [fst snd w_countdown bits]; (split; [exact X1|]); (split; [exact X2|]); (split; [|]); try exact X3; try (intros K; apply in_app_or in K as [K|[K|[]]]; [exact (X3 K) | discriminate]); unfold tri in *; cbn [fst snd reg ref_reg resync w_countdown] in *; destruct (resync r =? 0); try exact X4. destruct X4 as (Y1 & Y2 & Y3). split; [exact Y1|]. split; [exact Y2|]. intros K K'. apply in_or_app. left. auto.
Qed.
(** the reference follows the bits from the k-th on *)
Lemma count_fixed c n w : word n w -> pt c = pattern n -> forall e j s, resync (fst s) = 0 -> ref_reg (fst s) = turn w j -> res_ok s -> bits (fst s) + Z.of_nat (length e) <= 2147483647 ->
  exists s' ev, puts c s (as_bits (line (again w j (length e)) e)) = Ok (s', ev) /\ ~ In Unsynced ev /\ resync (fst s') = 0 /\ total (snd s') = total (snd s) + Z.of_nat (length e) /\ bad (snd s') = bad (snd s) + errors e.
Proof.
  intros H E. destruct (fixed_pat n w H) as (P1 & P2 & P3 & P4). induction e as [|x e IH]; intros j s R F K B; [exists s, []; cbn; repeat split; try lia; tauto|]. cbn [length]. replace (as_bits (line (again w j (S (length e))) (x :: e))) with (Z.b2z (xorb (nth (j mod 8) w false) x) :: as_bits (line (again w (S j) (length e)) e)).
  2:{ rewrite again_S. reflexivity. }
  cbn [puts]. destruct (put_fixed c s (xorb (nth (j mod 8) w false) x)) as (s1 & e1 & Q & K1 & B1 & U1 & Q1); [rewrite E; assumption | rewrite E; assumption | exact K | cbn [length] in B; lia|]. rewrite R in Q1. cbn [Z.eqb] in Q1. destruct Q1 as (T & T1 & T2). rewrite Q. cbn [rbind]. unfold tri in T. injection T as _ T3 T4. destruct (turn_next n w j H) as [N1 N2].
  destruct (IH (S j) s1) as (s' & ev & G & V & V1 & V2 & V3); [exact T4 | rewrite T3, E, P2, F; exact N1 | exact K1 | cbn [length] in B; lia|]. rewrite G. cbn [rbind]. eexists _, _. split; [reflexivity|]. split; [intros Y; apply in_app_or in Y as [Y|Y]; contradiction|]. split; [exact V1|]. rewrite V2, V3, T1, T2. split; [cbn [length]; lia|].
  assert (Er : errors (x :: e) = Z.b2z x + errors e) by (unfold errors; destruct x; cbn [count_occ Z.b2z]; destruct (Bool.bool_dec _ _); try congruence; lia). rewrite Er. rewrite F. set (b := nth (j mod 8) w false) in *.
  assert (Lx : Z.land (Z.lxor (Z.b2z (xorb b x)) (turn w j)) 1 = Z.b2z x). { apply Z.bits_inj'. intros i Hi. rewrite Z.land_spec, Z.lxor_spec. apply (f_equal (fun z => Z.testbit z i)) in N2. rewrite Z.land_spec in N2. destruct (Z.eq_dec i 0) as [->|Ni]; [change (Z.testbit 1 0) with true in *; rewrite andb_true_r in *; rewrite N2, !Z.b2z_bit0; destruct b, x; reflexivity|]. assert (T1' : Z.testbit 1 i = false) by (change 1 with (2 ^ 0); apply Z.pow2_bits_false; lia). rewrite T1', andb_false_r. destruct x; cbn [Z.b2z]; [symmetry; exact T1' | symmetry; apply Z.bits_0]. }
  rewrite Lx. destruct x; cbn [Z.b2z Z.eqb]; lia.
Qed.
Lemma line_app a b e f : length a = length e -> line (a ++ b) (e ++ f) = line a e ++ line b f.
Proof. intros L. unfold line. rewrite <- map_app. f_equal. revert e L. induction a; intros [|x e] L; cbn in *; try discriminate; [reflexivity|]. rewrite IHa by lia. reflexivity. Qed.
Lemma cores_ok c : cls (pt c) = 0 -> invert (pt c) = 0 -> forall l s, res_ok s -> bits (fst s) + Z.of_nat (length l) <= 2147483647 -> bad (snd s) = 0 ->
  (forall a x b, l = a ++ x :: b -> snd (cores (pt c) (tri s) a) = 0 -> Z.land (Z.lxor (Z.b2z x) (snd (fst (cores (pt c) (tri s) a)))) 1 = 0) -> 1 <= resync (fst s) \/ resync (fst s) = 0 ->
  exists s' ev, puts c s (as_bits l) = Ok (s', ev) /\ ~ In Unsynced ev /\ res_ok s' /\ bits (fst s') = bits (fst s) + Z.of_nat (length l) /\ bad (snd s') = 0 /\ tri s' = cores (pt c) (tri s) l /\
    total (snd s) <= total (snd s') <= total (snd s) + Z.of_nat (length l) /\ (resync (fst s) <> 0 -> resync (fst s') = 0 -> In Synced ev).
Proof.
  intros C0 I0. induction l as [|b l IH]; intros s K B Bd Cl Rs; [exists s, []; cbn; repeat split; try lia; try tauto; apply K|]. cbn [as_bits map puts]. destruct (put_fixed c s b C0 I0 K) as (s1 & e1 & Q & K1 & B1 & U1 & Q1); [cbn [length] in B; lia|]. rewrite Q. cbn [rbind].
  assert (T : tri s1 = (if resync (fst s) =? 0 then (reg (fst s), rotate (shift2 (pt c)) (ref_reg (fst s)), 0) else core (pt c) (tri s) (Z.b2z b))) by (destruct (resync (fst s) =? 0); apply Q1).
  assert (T' : forall a, cores (pt c) (tri s) (b :: a) = cores (pt c) (tri s1) a) by (intros a; cbn [cores]; rewrite T; unfold tri at 1; cbn [snd]; destruct (resync (fst s) =? 0); reflexivity).
  assert (Bd1 : bad (snd s1) = 0). { destruct (Z.eqb_spec (resync (fst s)) 0) as [Z0|Z0]; [|destruct Q1 as (_ & -> & _); exact Bd]. destruct Q1 as (_ & _ & ->). specialize (Cl [] b l eq_refl Z0). cbn [cores tri fst snd] in Cl. rewrite Cl. cbn. lia. }
  assert (Tt : total (snd s) <= total (snd s1) <= total (snd s) + 1) by (destruct (resync (fst s) =? 0); [destruct Q1 as (_ & -> & _) | destruct Q1 as (_ & -> & _)]; lia).
  assert (Rs1 : 1 <= resync (fst s1) \/ resync (fst s1) = 0). { destruct (Z.eqb_spec (resync (fst s)) 0) as [Z0|Z0]; unfold tri, core in T; [injection T as _ _ T; lia|]. destruct (_ =? _) in T; [destruct (_ <? _) in T|]; injection T as _ _ T; lia. }
  destruct (IH s1 K1) as (s' & ev & G & V & V1 & V2 & V3 & V4 & V5 & V6); [cbn [length] in B; lia | exact Bd1 | intros a x d El; specialize (Cl (b :: a) x d); rewrite T' in Cl; apply Cl; rewrite El; reflexivity | exact Rs1|].
  unfold as_bits in G. rewrite G. cbn [rbind]. exists s', (e1 ++ ev). split; [reflexivity|]. split; [intros Y; apply in_app_or in Y as [Y|Y]; contradiction|]. split; [exact V1|]. split; [cbn [length]; lia|]. split; [exact V3|]. split; [rewrite T'; exact V4|]. split; [cbn [length]; lia|].
  intros N Z1. apply in_or_app. destruct (Z.eqb_spec (resync (fst s1)) 0) as [Z2|Z2]; [|right; apply V6; assumption]. left. destruct (Z.eqb_spec (resync (fst s)) 0); [contradiction|]. destruct Q1 as (_ & _ & Q1). apply Q1; lia.
Qed.
Definition agrees (N : nat) (n : Z) (w : list bool) : bool := forallb (fun k => forallb (fun i => let '(g, f, r) := cores (pattern n) (reg0 (pattern n), reg0 (pattern n), 1) (again w k i) in negb (r =? 0) || (Z.land (Z.lxor (Z.b2z (nth ((k + i) mod 8) w false)) f) 1 =? 0)) (seq 0 N)) (seq 0 8).
Lemma word_agrees n w : word n w -> agrees 112 n w = true.
Proof. intros H. repeat (destruct H as [H|H]; [injection H as <- <-; vm_compute; reflexivity|]). destruct H. Qed.
Lemma again_len w k n : length (again w k n) = n.
Proof. unfold again. rewrite map_length, seq_length. reflexivity. Qed.
Lemma app_same {A} (a a' c c' : list A) : length a = length a' -> a ++ c = a' ++ c' -> a = a' /\ c = c'.
Proof. revert a'. induction a; intros [|y a'] L H; cbn in *; try discriminate; [auto|]. injection H as -> H. injection L as L. destruct (IHa a' L H) as [-> ->]. auto. Qed.
Lemma again_split w k n a x b : again w k n = a ++ x :: b -> a = again w k (length a) /\ x = nth ((k + length a) mod 8) w false /\ (length a < n)%nat.
Proof.
  intros H. assert (L : n = (length a + S (length b))%nat) by (rewrite <- (again_len w k n), H, app_length; reflexivity). rewrite L in H. rewrite again_app, again_S in H. apply app_same in H as [H1 H2]; [|rewrite again_len; reflexivity]. injection H2 as H2 _. split; [exact (eq_sym H1)|]. split; [exact (eq_sym H2) | lia].
Qed.
Lemma receives_fixed_at N c n w k e : starts N n w = true -> agrees N n w = true -> word n w -> pt c = pattern n -> (k < 8)%nat -> (N <= length e)%nat -> Z.of_nat (length e) <= 2147483647 -> (forall i, (i < N)%nat -> nth i e false = false) ->
  exists s' ev, puts c (rx_init c) (as_bits (line (again w k (length e)) e)) = Ok (s', ev) /\ In Synced ev /\ ~ In Unsynced ev /\ bad (snd s') = errors e /\ Z.of_nat (length e) - Z.of_nat N <= total (snd s') <= Z.of_nat (length e).
Proof.
  intros St Ag H E Hk Le Be Cl. destruct (fixed_pat n w H) as (P1 & P2 & P3 & P4).
  assert (Ef : firstn N e = repeat false N). { apply (nth_ext _ _ false false); rewrite firstn_length, ?repeat_length; [lia|]. intros i Hi. rewrite nth_repeat. transitivity (nth i e false); [|apply Cl; lia]. rewrite <- (firstn_skipn N e) at 2. rewrite app_nth1 by (rewrite firstn_length; lia). reflexivity. }
  assert (Es : e = repeat false N ++ skipn N e) by (rewrite <- Ef; symmetry; apply firstn_skipn). set (e2 := skipn N e) in *. assert (L2 : length e = (N + length e2)%nat) by (rewrite Es at 1; rewrite app_length, repeat_length; reflexivity).
  clearbody e2. clear Cl Ef Le. subst e. rewrite L2 in *. rewrite again_app, line_app by (rewrite again_len, repeat_length; reflexivity). unfold as_bits. rewrite map_app. rewrite puts_app.
  replace (line (again w k N) (repeat false N)) with (again w k N) by (unfold line; generalize N, k; clear; intros m; induction m; intros k; [reflexivity|]; rewrite again_S; cbn [repeat combine map fst snd]; rewrite xorb_false_r, <- IHm; reflexivity).
  assert (Ti : tri (rx_init c) = (reg0 (pattern n), reg0 (pattern n), 1)) by (unfold tri; cbn; rewrite E; reflexivity).
  destruct (cores_ok c ltac:(rewrite E; exact P1) ltac:(rewrite E; exact P3) (again w k N) (rx_init c)) as (s1 & ev1 & Q & U1 & K1 & B1 & Bd1 & T1 & Tt1 & Sy1).
  - unfold res_ok. cbn. lia.
  - rewrite again_len. cbn [rx_init fst bits]. lia.
  - reflexivity.
  - intros a x b Hs. apply again_split in Hs as (Ha & Hx & Hl). rewrite Ti, E, Hx. set (i0 := (reg0 (pattern n), reg0 (pattern n), 1)) in *. replace (cores (pattern n) i0 a) with (cores (pattern n) i0 (again w k (length a))) by (rewrite <- Ha; reflexivity). unfold agrees in Ag. rewrite forallb_forall in Ag. specialize (Ag k ltac:(apply in_seq; lia)). rewrite forallb_forall in Ag. specialize (Ag (length a) ltac:(apply in_seq; lia)). fold i0 in Ag. destruct (cores _ _ _) as [[g f] r]. cbn [fst snd]. intros ->. cbn [negb Z.eqb orb] in Ag. lia.
  - left. cbn. lia.
  - unfold starts in St. rewrite forallb_forall in St. specialize (St k ltac:(apply in_seq; lia)). rewrite Ti, E in T1. destruct (cores _ _ _) as [[g f] r]. unfold tri in T1. injection T1 as T1 T2 T3. apply andb_prop in St as [S1 S2].
    destruct (count_fixed c n w H E e2 (k + N) s1) as (s' & ev & G & V & V1 & V2 & V3); [lia | lia | exact K1 | rewrite B1, again_len; cbn [rx_init fst bits]; lia|]. unfold as_bits in Q, G. rewrite Q. cbn [rbind]. rewrite G. cbn [rbind]. exists s', (ev1 ++ ev). split; [reflexivity|]. split; [apply in_or_app; left; apply Sy1; [cbn; lia | lia]|]. split; [intros Y; apply in_app_or in Y as [Y|Y]; contradiction|]. rewrite V3, V2, Bd1. split.
    + unfold errors. rewrite count_occ_app. replace (count_occ Bool.bool_dec (repeat false N) true) with 0%nat by (clear; induction N; [reflexivity | exact IHN]). lia.
    + rewrite again_len in Tt1. cbn [rx_init snd total] in Tt1. lia.
Qed.
Lemma receives_fixed c n w k e : word n w -> pt c = pattern n -> (k < 8)%nat -> (112 <= length e)%nat -> Z.of_nat (length e) <= 2147483647 -> (forall i, (i < 112)%nat -> nth i e false = false) ->
  exists s' ev, puts c (rx_init c) (as_bits (line (again w k (length e)) e)) = Ok (s', ev) /\ In Synced ev /\ ~ In Unsynced ev /\ bad (snd s') = errors e /\ Z.of_nat (length e) - 112 <= total (snd s') <= Z.of_nat (length e).
Proof. intros H. exact (receives_fixed_at 112 c n w k e (proj1 (word_checks n w H)) (word_agrees n w H) H). Qed.
Lemma put_never c s b s' e : cls (pt c) = 0 -> put_bit c s b = Ok (s', e) -> ~ In Unsynced e.
Proof.
  intros C0. unfold put_bit. destruct (b <? 0); [intros H; injection H as <- <-; intros []|]. destruct (inc (bits (fst s))); cbn [rbind]; [|discriminate]. rewrite C0. cbn [Z.eqb]. match goal with |- rbind ?m _ = _ -> _ => destruct m as [[[r1 x1] e1]|] eqn:M end; cbn [rbind]; [|discriminate].
  assert (X : ~ In Unsynced e1).
  { revert M. unfold put0. destruct (negb _).
    - match goal with |- match ?m with (_, _) => _ end = _ -> _ => destruct m as [[u v] w] eqn:Ew end. intros H. injection H as _ _ <-. revert Ew. destruct (_ =? _); [destruct (_ <? _)|]; intros H; injection H as _ _ <-; cbn; intuition discriminate.
    - match goal with |- rbind ?m _ = _ -> _ => destruct m end; cbn [rbind]; [|discriminate]. match goal with |- rbind ?m _ = _ -> _ => destruct m end; cbn [rbind]; [|discriminate]. intros H. injection H as _ _ <-. intros []. }
  cbn [fst snd]. destruct (0 <? freq c); [destruct (countdown r1 - 1 <=? 0)|]; intros H; injection H as _ <-; try exact X. intros Y. apply in_app_or in Y as [Y|[Y|[]]]; [contradiction | discriminate].
Qed.
Lemma never_unsynced c l : cls (pt c) = 0 -> forall s s' ev, puts c s l = Ok (s', ev) -> ~ In Unsynced ev.
Proof.
  intros C0. induction l as [|b l IH]; intros s s' ev; cbn [puts]; [intros H; injection H as <- <-; intros []|]. destruct (put_bit c s b) as [[s1 e1]|] eqn:Q; cbn [rbind]; [|discriminate]. destruct (puts c s1 l) as [[s2 e2]|] eqn:G; cbn [rbind]; [|discriminate]. intros H. injection H as <- <-. intros Y. apply in_app_or in Y as [Y|Y]; [exact (put_never _ _ _ _ _ C0 Q Y) | exact (IH _ _ _ G Y)].
Qed.

(** ---- any pattern: the transmitter gives the number of bits it was told, and then says that the data are at an end ---- *)
Definition tx_ok (s : tx) : Prop := 0 <= t_step s <= Z.of_nat (length qbf).
Lemma low_bit r : Z.land r 1 = 0 \/ Z.land r 1 = 1.
Proof. assert (E : Z.land r 1 = r mod 2) by exact (Z.land_ones r 1 ltac:(lia)). rewrite E. pose proof (Z.mod_pos_bound r 2 ltac:(lia)). lia. Qed.
Lemma invert_bit n : invert (pattern n) = 0 \/ invert (pattern n) = 1.
Proof. unfold pattern. repeat (destruct (_ =? _); [cbn; lia|]). cbn. lia. Qed.
Lemma get_any c n s : pt c = pattern n -> tx_ok s -> t_bits s < 2147483647 -> (limit c = 0 \/ t_bits s < limit c) -> exists s' b, get_bit c s = Ok (s', b) /\ (b = 0 \/ b = 1) /\ tx_ok s' /\ t_bits s' = t_bits s + 1.
Proof.
  intros E K B L. unfold get_bit. replace (negb (limit c =? 0) && (limit c <=? t_bits s)) with false by lia.
  match goal with |- exists s' b, rbind ?m _ = _ /\ _ => assert (X : exists s1 b, m = Ok (s1, b) /\ (b = 0 \/ b = 1) /\ tx_ok s1 /\ t_bits s1 = t_bits s) end.
  { pose proof (low_bit (t_reg s)) as Lb. destruct (cls (pt c) =? 0); [eexists _, _; split; [reflexivity|]; repeat split; [exact Lb | apply K | apply K]|]. destruct (cls (pt c) =? 1).
    - match goal with |- exists s' b, (match ?m with (_, _) => _ end) = _ /\ _ => destruct m as [z bit] eqn:M end. eexists _, _. split; [reflexivity|]. split; [|split; [exact K | reflexivity]]. rewrite E. assert (Bb : bit = 0 \/ bit = 1). { revert M. destruct (_ =? 0) at 1; [intros H; injection H as _ <-; exact Lb|]. destruct (negb _); [destruct (_ <? _)|]; intros H; injection H as _ <-; try exact Lb. destruct Lb as [-> | ->]; cbn; lia. } destruct Bb as [-> | ->], (invert_bit n) as [-> | ->]; cbn; lia.
    - unfold tx_ok in *. assert (Lq : length (qbf ++ [0]) = S (length qbf)) by (rewrite app_length; cbn; lia). destruct (t_bit s =? 0); [rewrite aget_in by lia; cbn [rbind]; set (ch := nth _ _ _); destruct (Z.eqb_spec ch 0) as [Q|Q]|]; cbn [rbind]; eexists _, _; (split; [reflexivity|]); (split; [apply low_bit|]); cbn [t_step t_bits]; (split; [|reflexivity]); try (cbn; lia); try exact K.
      destruct (Z.eq_dec (t_step s) (Z.of_nat (length qbf))) as [J|J]; [exfalso; apply Q; unfold ch; rewrite J, Nat2Z.id; reflexivity | lia]. }
  destruct X as (s1 & b & -> & X1 & X2 & X3). cbn [rbind]. unfold inc. rewrite X3. replace (t_bits s <? 2147483647) with true by lia. cbn [rbind]. eexists _, _. split; [reflexivity|]. split; [exact X1|]. split; [exact X2 | reflexivity].
Qed.
Lemma gets_any c n k : pt c = pattern n -> forall s, tx_ok s -> t_bits s + Z.of_nat k <= 2147483647 -> (limit c = 0 \/ t_bits s + Z.of_nat k <= limit c) -> exists s' l, gets c s k = Ok (s', l) /\ length l = k /\ Forall (fun b => b = 0 \/ b = 1) l /\ t_bits s' = t_bits s + Z.of_nat k.
Proof.
  intros E. induction k; intros s K B L; [exists s, []; cbn; repeat split; [constructor | lia]|]. cbn [gets]. destruct (get_any c n s E K) as (s1 & b & -> & Q1 & Q2 & Q3); [lia | lia|]. cbn [rbind]. destruct (IHk s1 Q2) as (s' & l & -> & V1 & V2 & V3); [lia | lia|]. cbn [rbind]. exists s', (b :: l). split; [reflexivity|]. split; [cbn; lia|]. split; [constructor; assumption | lia].
Qed.
Lemma gets_app c a b : forall s, gets c s (a + b) = do (s1, l1) <- gets c s a; do (s2, l2) <- gets c s1 b; Ok (s2, l1 ++ l2).
Proof.
  induction a; intros s; cbn [Nat.add gets rbind]; [destruct (gets c s b) as [[? ?]|]; reflexivity|]. destruct (get_bit c s) as [[s1 x]|]; cbn [rbind]; [|reflexivity]. rewrite IHa. destruct (gets c s1 a) as [[s2 l]|]; cbn [rbind]; [|reflexivity]. destruct (gets c s2 b) as [[s3 l3]|]; reflexivity.
Qed.
Lemma gets_end c b : forall s, limit c <> 0 -> limit c <= t_bits s -> gets c s b = Ok (s, repeat (-7) b).
Proof. induction b; intros s A B; [reflexivity|]. cbn [gets]. rewrite get_end by assumption. cbn [rbind]. rewrite IHb by assumption. reflexivity. Qed.
Lemma limited c n k : pt c = pattern n -> 1 <= limit c <= 2147483647 -> exists s l, gets c (tx_init (pt c)) (Z.to_nat (limit c) + k) = Ok (s, l ++ repeat (-7) k) /\ Z.of_nat (length l) = limit c /\ Forall (fun b => b = 0 \/ b = 1) l.
Proof.
  intros E L. destruct (gets_any c n (Z.to_nat (limit c)) E (tx_init (pt c))) as (s & l & A & B & C & D); [cbv; intuition discriminate | cbn; lia | cbn; lia|]. exists s, l. rewrite gets_app, A. cbn [rbind]. rewrite gets_end by (cbn in D; lia). cbn [rbind]. split; [reflexivity|]. split; [lia | exact C].
Qed.
