(** The 23 stage generator has the longest period. The register moves by a linear map of bits; its powers come
    from squaring the matrix, and the factors of 2^23 - 1 = 47 * 178481 leave few periods to rule out. *)
From Verif Require Import Base Bert_model Bert_spec Bert_proofs.
From Coq Require Import Znumtheory.
Local Open Scope Z_scope.

Fixpoint app (M : list Z) (v : Z) : Z := match M with [] => 0 | c :: M => Z.lxor (if Z.odd v then c else 0) (app M (Z.div2 v)) end.
Lemma odd_lxor a b : Z.odd (Z.lxor a b) = xorb (Z.odd a) (Z.odd b).
Proof. rewrite <- !Z.bit0_odd. apply Z.lxor_spec. Qed.
Lemma div2_lxor a b : Z.div2 (Z.lxor a b) = Z.lxor (Z.div2 a) (Z.div2 b).
Proof. rewrite !Z.div2_spec. apply Z.shiftr_lxor. Qed.
Lemma lxor_mid a b c d : Z.lxor (Z.lxor a b) (Z.lxor c d) = Z.lxor (Z.lxor a c) (Z.lxor b d).
Proof. rewrite !Z.lxor_assoc. f_equal. rewrite <- !Z.lxor_assoc. f_equal. apply Z.lxor_comm. Qed.
Lemma app_lxor M : forall a b, app M (Z.lxor a b) = Z.lxor (app M a) (app M b).
Proof.
  induction M as [|c M IH]; intros a b; cbn [app]; [reflexivity|]. rewrite odd_lxor, div2_lxor, IH, lxor_mid. f_equal.
  destruct (Z.odd a), (Z.odd b); cbn [xorb]; rewrite ?Z.lxor_nilpotent, ?Z.lxor_0_l, ?Z.lxor_0_r; reflexivity.
Qed.
Lemma app_0 M : app M 0 = 0.
Proof. induction M; cbn [app]; [reflexivity|]. change (Z.odd 0) with false. change (Z.div2 0) with 0. rewrite IHM. reflexivity. Qed.
Lemma app_map M N : forall v, app (map (app M) N) v = app M (app N v).
Proof. induction N as [|c N IH]; intros v; cbn [app map]; [symmetry; apply app_0|]. rewrite IH, app_lxor. f_equal. destruct (Z.odd v); [reflexivity | symmetry; apply app_0]. Qed.

Fixpoint basis (n : nat) : list Z := match n with O => [] | S n => 1 :: map (Z.mul 2) (basis n) end.
Lemma app_linear n : forall f v, (forall a b, f (Z.lxor a b) = Z.lxor (f a) (f b)) -> 0 <= v < 2 ^ Z.of_nat n -> app (map f (basis n)) v = f v.
Proof.
  induction n; intros f v L R; pose proof (L 0 0) as F0; rewrite !Z.lxor_nilpotent in F0.
  - replace v with 0 by (change (2 ^ Z.of_nat 0) with 1 in R; lia). cbn. symmetry. exact F0.
  - cbn [basis map app]. rewrite map_map. rewrite (IHn (fun x => f (2 * x))).
    + assert (E : v = Z.lxor (Z.b2z (Z.odd v)) (2 * Z.div2 v)).
      { rewrite <- Z.add_nocarry_lxor; [rewrite (Z.div2_odd v) at 1; lia|]. apply Z.bits_inj'. intros i I. rewrite Z.land_spec, Z.bits_0. destruct (Z.eq_dec i 0) as [->|N].
        - rewrite Z.testbit_even_0. apply andb_false_r.
        - destruct (Z.odd v); cbn [Z.b2z]; [|rewrite Z.bits_0; reflexivity]. replace (Z.testbit 1 i) with false; [reflexivity|]. symmetry. change 1 with (2 ^ 0). apply Z.pow2_bits_false. lia. }
      rewrite E at 3. rewrite L. f_equal. destruct (Z.odd v); [reflexivity|]. cbn. symmetry. exact F0.
    + intros a b. rewrite <- L. f_equal. rewrite !(Z.mul_comm 2). change 2 with (2 ^ 1). rewrite <- !Z.shiftl_mul_pow2 by lia. apply Z.shiftl_lxor.
    + rewrite Nat2Z.inj_succ, Z.pow_succ_r in R by lia. rewrite Z.div2_div. split; [apply Z.div_pos; lia | apply Z.div_lt_upper_bound; lia].
Qed.

Notation g23 := ({| len := 23; tap := 5; inverted := true |}).
Lemma tapped23 : tapped g23.
Proof. unfold tapped. cbn. lia. Qed.
Definition move23 (v : Z) : Z := Z.lxor (Z.shiftr v 1) (Z.shiftl (Z.b2z (xorb (Z.testbit v 0) (Z.testbit v 5))) 22).
Lemma move23_lxor a b : move23 (Z.lxor a b) = Z.lxor (move23 a) (move23 b).
Proof.
  unfold move23. rewrite Z.shiftr_lxor, !Z.lxor_spec, lxor_mid. f_equal. rewrite <- Z.shiftl_lxor. f_equal. destruct (Z.testbit a 0), (Z.testbit a 5), (Z.testbit b 0), (Z.testbit b 5); reflexivity.
Qed.
Lemma move23_ok v : in_reg g23 v -> move23 v = nextr g23 v.
Proof.
  intros R. apply Z.bits_inj'. intros i I. rewrite (nextr_bit g23 v i tapped23 R I). unfold move23. rewrite Z.lxor_spec, Z.shiftr_spec by lia. cbn [len tap]. change (Z.of_nat 23 - 1) with 22. change (Z.of_nat 5) with 5. rewrite Z.shiftl_spec by lia.
  destruct (Z.eqb_spec i 22) as [->|N].
  - replace (Z.testbit v (22 + 1)) with false; [change (22 - 22) with 0; destruct (xorb (Z.testbit v 0) (Z.testbit v 5)); reflexivity|]. symmetry. unfold in_reg in R. cbn [len] in R. destruct (Z.eq_dec v 0) as [->|V]; [apply Z.bits_0|]. apply Z.bits_above_log2; [lia|]. apply Z.log2_lt_pow2; [lia|]. exact (proj2 R).
  - replace (Z.testbit (Z.b2z _) (i - 22)) with false; [apply xorb_false_r|]. symmetry. destruct (Z.lt_ge_cases i 22); [apply Z.testbit_neg_r; lia|]. destruct (xorb (Z.testbit v 0) (Z.testbit v 5)); cbn [Z.b2z]; [change 1 with (2 ^ 0); apply Z.pow2_bits_false; lia | apply Z.bits_0].
Qed.

(** the register after p steps, from the matrix of one step *)
Fixpoint jump (M : list Z) (p : positive) (v : Z) : Z := match p with xH => app M v | xO p => jump (map (app M) M) p v | xI p => jump (map (app M) M) p (app M v) end.
Lemma jump_ok p : forall M m v, (forall v, in_reg g23 v -> app M v = reg_at g23 v m) -> in_reg g23 v -> jump M p v = reg_at g23 v (m * Pos.to_nat p).
Proof.
  assert (D : forall M m, (forall v, in_reg g23 v -> app M v = reg_at g23 v m) -> forall v, in_reg g23 v -> app (map (app M) M) v = reg_at g23 v (m + m)).
  { intros M m H v R. rewrite app_map, (H v R), reg_at_add. apply H, reg_at_range; [exact tapped23 | exact R]. }
  induction p; intros M m v H R; cbn [jump].
  - rewrite (H v R). pose proof (reg_at_range g23 m tapped23 v R) as Q. rewrite (IHp _ (m + m)%nat _ (D M m H) Q). rewrite <- reg_at_add. f_equal. rewrite Pos2Nat.inj_xI. lia.
  - rewrite (IHp _ (m + m)%nat v (D M m H) R). f_equal. rewrite Pos2Nat.inj_xO. lia.
  - rewrite H by assumption. f_equal. change (Pos.to_nat 1) with 1%nat. lia.
Qed.
Lemma jump23 p : jump (map move23 (basis 23)) p (Z.ones 23) = reg_at g23 (Z.ones 23) (Pos.to_nat p).
Proof.
  rewrite (jump_ok p _ 1).
  - f_equal. lia.
  - intros v R. rewrite app_linear; [apply move23_ok; exact R | exact move23_lxor | exact R].
  - unfold in_reg. cbn [len]. change (Z.of_nat 23) with 23. change (Z.ones 23) with 8388607. change (2 ^ 23) with 8388608. lia.
Qed.

(** the times at which the register has its first value again are closed under the greatest common divisor *)
Definition back (t : nat) : Prop := reg_at g23 (Z.ones 23) t = Z.ones 23.
Lemma back_sub t u : back u -> back (u + t) -> back t.
Proof. unfold back. intros U H. rewrite reg_at_add, U in H. exact H. Qed.
Lemma back_gcd n : forall t u, (t + u <= n)%nat -> back t -> back u -> back (Nat.gcd t u).
Proof.
  induction n; intros t u B T U; [replace t with O in * by lia; exact U|].
  destruct (Nat.eq_dec t 0) as [->|Nt]; [exact U|]. destruct (Nat.eq_dec u 0) as [->|Nu]; [rewrite Nat.gcd_0_r; exact T|].
  destruct (Nat.le_ge_cases t u) as [L|L].
  - rewrite <- (Nat.gcd_sub_diag_r t u L). apply IHn; [lia | exact T|]. apply (back_sub _ t T). replace (t + (u - t))%nat with u by lia. exact U.
  - rewrite Nat.gcd_comm, <- (Nat.gcd_sub_diag_r u t L). apply IHn; [lia | exact U|]. apply (back_sub _ u U). replace (u + (t - u))%nat with t by lia. exact T.
Qed.
Definition small_factors (P : Z) (l : list Z) : bool := forallb (fun d => if P mod d =? 0 then (d =? 1) || (d =? 47) else true) l.
Lemma small_at P N d e : small_factors P (map Z.of_nat (seq 1 N)) = true -> 0 < d <= Z.of_nat N -> d * e = P -> d = 1 \/ d = 47.
Proof.
  intros F D E. unfold small_factors in F. rewrite forallb_forall in F. specialize (F d). replace (P mod d) with 0 in F.
  - cbn [Z.eqb] in F. assert (X : In d (map Z.of_nat (seq 1 N))). { apply in_map_iff. exists (Z.to_nat d). split; [lia|]. apply in_seq. lia. } specialize (F X). apply orb_prop in F as [F|F]; apply Z.eqb_eq in F; auto.
  - symmetry. rewrite <- E, Z.mul_comm. apply Z.mod_mul. lia.
Qed.
Lemma small_factors_ok : exists N, Z.of_nat N = 2896 /\ small_factors 8388607 (map Z.of_nat (seq 1 N)) = true.
Proof. exists (Z.to_nat 2896). split; vm_compute; reflexivity. Qed.
Lemma small d e : 0 < d <= 2896 -> d * e = 8388607 -> d = 1 \/ d = 47.
Proof. destruct small_factors_ok as (N & E & F). rewrite <- E. intros D. exact (small_at 8388607 N d e F D). Qed.
Lemma factors d e : 0 < d -> 0 < e -> d * e = 8388607 -> d = 8388607 \/ d = 1 \/ d = 47 \/ d = 178481.
Proof.
  intros D E H. destruct (Z.le_gt_cases d 2896) as [L|L]; [destruct (small d e ltac:(lia) H); auto|].
  assert (e <= 2896) by nia. destruct (small e d ltac:(lia) ltac:(lia)) as [->| ->]; lia.
Qed.
Lemma jumps : jump (map move23 (basis 23)) 8388607 (Z.ones 23) = Z.ones 23 /\ jump (map move23 (basis 23)) 1 (Z.ones 23) <> Z.ones 23 /\ jump (map move23 (basis 23)) 47 (Z.ones 23) <> Z.ones 23 /\ jump (map move23 (basis 23)) 178481 (Z.ones 23) <> Z.ones 23.
Proof. vm_compute. repeat split; discriminate. Qed.
Lemma period23 P : Z.of_nat P = 8388607 -> reg_at g23 (Z.ones 23) P = Z.ones 23 /\ forall t, (0 < t < P)%nat -> reg_at g23 (Z.ones 23) t <> Z.ones 23.
Proof.
  intros E. destruct jumps as (J & J1 & J47 & J178). rewrite jump23 in J, J1, J47, J178. replace (Pos.to_nat 8388607) with P in J by (apply Nat2Z.inj; rewrite E, positive_nat_Z; reflexivity). split; [exact J|]. intros t T B.
  pose proof (back_gcd (t + P) t P ltac:(lia) B J) as G. destruct (Nat.gcd_divide t P) as [[a A] [e D]]. set (d := Nat.gcd t P) in *. clearbody d.
  assert (d <> 0)%nat by (intros ->; lia). assert (e <> 0)%nat by (intros ->; lia). assert (a <> 0)%nat by (intros ->; lia). assert (d <= t)%nat by nia.
  destruct (factors (Z.of_nat d) (Z.of_nat e)) as [F|[F|[F|F]]]; [lia | lia | rewrite <- E, D; lia | lia | | | ].
  - apply J1. replace (Pos.to_nat 1) with d by (apply Nat2Z.inj; rewrite F, positive_nat_Z; reflexivity). exact G.
  - apply J47. replace (Pos.to_nat 47) with d by (apply Nat2Z.inj; rewrite F, positive_nat_Z; reflexivity). exact G.
  - apply J178. replace (Pos.to_nat 178481) with d by (apply Nat2Z.inj; rewrite F, positive_nat_Z; reflexivity). exact G.
Qed.
