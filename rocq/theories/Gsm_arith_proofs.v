(** GSM 06.10: arithmetic. *)
From Verif Require Import Base Gsm_model Gsm_spec.
Local Open Scope Z_scope.

Lemma s16_id x : i16 x -> s16 x = x.
Proof. unfold i16, s16. intros. rewrite Z.mod_small; lia. Qed.
Lemma s16_i16 x : i16 (s16 x).
Proof. unfold i16, s16. pose proof (Z.mod_pos_bound (x + 32768) 65536). lia. Qed.
Lemma saturate16_eq x : saturate16 x = Z.max (-32768) (Z.min 32767 x).
Proof.
  unfold saturate16. destruct (Z.eqb_spec x (s16 x)) as [E | E].
  - pose proof (s16_i16 x). unfold i16 in *. lia.
  - assert (~ i16 x) by (intros H; rewrite (s16_id x H) in E; lia). unfold i16 in *. destruct (Z.ltb_spec 32767 x); lia.
Qed.
Lemma saturate16_i16 x : i16 (saturate16 x).
Proof. rewrite saturate16_eq. unfold i16. lia. Qed.
Lemma saturate16_id x : i16 x -> saturate16 x = x.
Proof. rewrite saturate16_eq. unfold i16. lia. Qed.
Lemma sat_add16_i16 x y : i16 (sat_add16 x y).
Proof. apply saturate16_i16. Qed.
Lemma sat_sub16_i16 x y : i16 (sat_sub16 x y).
Proof. apply saturate16_i16. Qed.
Lemma prod_bound A B a b : -A <= a <= A -> -B <= b <= B -> - (A * B) <= a * b <= A * B.
Proof. nia. Qed.
Lemma gsm_mult_r_eq a b : i16 a -> i16 b -> gsm_mult_r a b = Z.min 32767 ((a * b + 16384) / 32768).
Proof.
  intros Ha Hb. unfold gsm_mult_r, i16 in *. destruct (Z.eqb_spec b (-32768)) as [-> | Eb]; destruct (Z.eqb_spec a (-32768)) as [-> | Ea]; cbn [andb]; [reflexivity| | |];
    rewrite Z.shiftr_div_pow2 by lia; change (2 ^ 15) with 32768; set (q := (_ + 16384) / 32768); assert (Hq : -32768 <= q <= 32767) by (subst q; split; [apply Z.div_le_lower_bound | apply Z.lt_succ_r; apply Z.div_lt_upper_bound]; nia);
    rewrite s16_id by exact Hq; lia.
Qed.
Lemma gsm_mult_r_i16 a b : i16 (gsm_mult_r a b).
Proof. unfold gsm_mult_r. destruct (_ && _); [unfold i16; lia | apply s16_i16]. Qed.
Lemma sat_mul16_i16 a b : i16 (sat_mul16 a b).
Proof. unfold sat_mul16. destruct (_ =? _); [unfold i16; lia | apply s16_i16]. Qed.
Lemma sat_abs16_range x : i16 x -> 0 <= sat_abs16 x <= 32767.
Proof. unfold i16, sat_abs16. intros. destruct (Z.eqb_spec x (-32768)); lia. Qed.
Lemma gsm_asr_i16 a n : i16 (gsm_asr a n).
Proof. unfold gsm_asr. repeat match goal with |- context [if ?b then _ else _] => destruct b end; try apply s16_i16; unfold i16; lia. Qed.
Lemma gsm_div_loop k num denom div : 0 < denom -> 0 <= num <= denom -> 0 <= div -> let r := div_loop k num denom div in div * 2 ^ Z.of_nat k <= r < (div + 1) * 2 ^ Z.of_nat k.
Proof.
  cbv zeta. revert num div. induction k as [|k IH]; intros num div Hd Hn Hv; [cbn; lia|]. cbn [div_loop]. rewrite Nat2Z.inj_succ, Z.pow_succ_r by lia.
  destruct (Z.leb_spec denom (num * 2)); [specialize (IH (num * 2 - denom) (div * 2 + 1)) | specialize (IH (num * 2) (div * 2))]; lia.
Qed.
Lemma div_loop_exact k num denom div : 0 < denom -> 0 <= num < denom -> div_loop k num denom div = div * 2 ^ Z.of_nat k + num * 2 ^ Z.of_nat k / denom.
Proof.
  revert num div. induction k as [|k IH]; intros num div Hd Hn; [cbn [div_loop]; change (2 ^ Z.of_nat 0) with 1; rewrite !Z.mul_1_r, Z.div_small; lia|].
  cbn [div_loop]. rewrite Nat2Z.inj_succ, Z.pow_succ_r by lia. destruct (Z.leb_spec denom (num * 2)).
  - rewrite IH by lia. replace (num * (2 * 2 ^ Z.of_nat k)) with ((num * 2 - denom) * 2 ^ Z.of_nat k + 2 ^ Z.of_nat k * denom) by ring. rewrite Z.div_add by lia. ring.
  - rewrite IH by lia. replace (num * (2 * 2 ^ Z.of_nat k)) with (num * 2 * 2 ^ Z.of_nat k) by ring. ring.
Qed.
Lemma div_loop_top k denom div : 0 < denom -> div_loop k denom denom div = div * 2 ^ Z.of_nat k + 2 ^ Z.of_nat k - 1.
Proof.
  intros Hd. revert div. induction k as [|k IH]; intros div; [cbn; lia|]. cbn [div_loop]. destruct (Z.leb_spec denom (denom * 2)); [|lia].
  replace (denom * 2 - denom) with denom by ring. rewrite IH, Nat2Z.inj_succ, Z.pow_succ_r by lia. ring.
Qed.
(** gsm_div() divides, to 15 bits *)
Lemma gsm_div_eq num denom : 0 <= num <= denom -> 0 < denom -> gsm_div num denom = Ok (Z.min 32767 (num * 32768 / denom)).
Proof.
  intros Hn Hd. unfold gsm_div, check. destruct (Z.leb_spec 0 num); [|lia]. destruct (Z.leb_spec num denom); [|lia]. cbn [andb rbind].
  destruct (Z.eqb_spec num 0) as [-> | N0]; [rewrite Z.div_0_l by lia; reflexivity|]. destruct (Z.eq_dec num denom) as [-> | N1].
  - rewrite div_loop_top by lia. replace (denom * 32768 / denom) with 32768 by (rewrite (Z.mul_comm denom), Z.div_mul by lia; reflexivity). reflexivity.
  - rewrite div_loop_exact by lia. change (2 ^ Z.of_nat 15) with 32768. rewrite Z.mul_0_l, Z.add_0_l. f_equal. assert (num * 32768 / denom < 32768) by (apply Z.div_lt_upper_bound; lia). lia.
Qed.
Lemma gsm_div_range num denom : 0 <= num <= denom -> exists d, gsm_div num denom = Ok d /\ 0 <= d <= 32767.
Proof.
  intros H. destruct (Z.eq_dec denom 0) as [-> | N].
  - replace num with 0 by lia. exists 0. split; [reflexivity | lia].
  - rewrite gsm_div_eq by lia. eexists. split; [reflexivity|]. assert (0 <= num * 32768 / denom) by (apply Z.div_pos; lia). lia.
Qed.

(** sums *)
Lemma total_app a b : total (a ++ b) = total a + total b.
Proof. induction a; cbn [app total]; lia. Qed.
Lemma total_bound B l : Forall (fun x => -B <= x <= B) l -> - (B * Z.of_nat (length l)) <= total l <= B * Z.of_nat (length l).
Proof. induction 1; cbn [total length]; rewrite ?Nat2Z.inj_succ; nia. Qed.
Lemma c32_ok x : -2147483648 <= x <= 2147483647 -> c32 x = Ok x.
Proof. intros. unfold c32. destruct (Z.leb_spec (-2147483648) x); [|lia]. destruct (Z.leb_spec x 2147483647); [reflexivity | lia]. Qed.
Lemma sum32_ok B l : 0 <= B -> forall a, Forall (fun x => -B <= x <= B) l -> Z.abs a + B * Z.of_nat (length l) <= 2147483647 -> sum32 a l = Ok (a + total l).
Proof.
  intros HB. induction l as [|x t IH]; intros a F H; cbn [sum32 total length] in *; [rewrite Z.add_0_r; reflexivity|].
  apply Forall_cons_iff in F as [Hx F]. rewrite Nat2Z.inj_succ in H. rewrite c32_ok by nia. cbn [rbind]. rewrite IH; [f_equal; lia | exact F | nia].
Qed.
Lemma map2_length f a b : length (map2 f a b) = Nat.min (length a) (length b).
Proof. revert b. induction a as [|x a IH]; intros [|y b]; cbn; auto. Qed.
Lemma map2_Forall (P : Z -> Prop) f a b : (forall x y, In x a -> In y b -> P (f x y)) -> Forall P (map2 f a b).
Proof. revert b. induction a as [|x a IH]; intros [|y b] H; cbn [map2]; constructor; [apply H; cbn; auto | apply IH; intros; apply H; cbn; auto]. Qed.
Lemma total_dot a b : total (map2 Z.mul a b) = dot a b.
Proof. revert b. induction a as [|x a IH]; intros [|y b]; cbn; auto. rewrite IH. reflexivity. Qed.
Lemma map_Forall {A} (P : Z -> Prop) (f : A -> Z) l : (forall x, In x l -> P (f x)) -> Forall P (map f l).
Proof. intros H. apply Forall_forall. intros y I. apply in_map_iff in I as (x & <- & I). auto. Qed.
Lemma Forall_In {A} (P : A -> Prop) l x : Forall P l -> In x l -> P x.
Proof. intros F. apply Forall_forall. exact F. Qed.
Lemma Forall_firstn' {A} (P : A -> Prop) n l : Forall P l -> Forall P (firstn n l).
Proof. revert l. induction n; intros l F; [constructor|]. destruct F; cbn; constructor; auto. Qed.
Lemma Forall_skipn' {A} (P : A -> Prop) n l : Forall P l -> Forall P (skipn n l).
Proof. revert l. induction n; intros l F; [exact F|]. destruct F; cbn; auto. Qed.
Lemma res_map_ok {A B} (f : A -> res B) (P : B -> Prop) l : (forall x, In x l -> exists y, f x = Ok y /\ P y) -> exists r, res_map f l = Ok r /\ Forall P r /\ length r = length l.
Proof.
  induction l as [|x t IH]; intros H; [exists []; repeat split; constructor|]. destruct (H x) as (y & E & Py); [left; reflexivity|]. destruct IH as (r & E' & F & L); [intros; apply H; right; assumption|].
  exists (y :: r). cbn [res_map]. rewrite E. cbn [rbind]. rewrite E'. cbn [rbind length]. repeat split; [constructor; assumption | lia].
Qed.
Lemma res_map_map {A B} (f : A -> res B) (g : A -> B) l : (forall x, In x l -> f x = Ok (g x)) -> res_map f l = Ok (map g l).
Proof. induction l as [|x t IH]; intros H; [reflexivity|]. cbn [res_map map]. rewrite H by (left; reflexivity). cbn [rbind]. rewrite IH by (intros; apply H; right; assumption). reflexivity. Qed.

(** the largest magnitude *)
Lemma max_abs_fold l m : Forall i16 l -> 0 <= m <= 32767 ->
  let r := fold_left (fun m x => let t := sat_abs16 x in if m <? t then t else m) l m in m <= r <= 32767 /\ Forall (fun x => sat_abs16 x <= r) l.
Proof.
  cbv zeta. revert m. induction l as [|x t IH]; intros m F Hm; cbn [fold_left]; [split; [lia | constructor]|]. apply Forall_cons_iff in F as [Hx F].
  pose proof (sat_abs16_range x Hx) as R. destruct (IH (if m <? sat_abs16 x then sat_abs16 x else m) F) as [I1 I2]; [destruct (m <? _); lia|].
  destruct (Z.ltb_spec m (sat_abs16 x)) as [L | L]; (split; [lia | constructor; [lia | exact I2]]).
Qed.
Lemma max_abs_ok l : Forall i16 l -> 0 <= max_abs l <= 32767 /\ Forall (fun x => sat_abs16 x <= max_abs l) l.
Proof. intros F. unfold max_abs. apply (max_abs_fold l 0 F). lia. Qed.
Lemma norm_ok x : 0 < x <= 2147483647 -> exists n, gsm0610_norm x = Ok n /\ 0 <= n <= 30 /\ 1073741824 <= x * 2 ^ n <= 2147483647.
Proof.
  intros H. unfold gsm0610_norm. destruct (Z.eqb_spec x 0); [lia|]. destruct (Z.ltb_spec x 0); [lia|]. exists (30 - Z.log2 x). split; [reflexivity|].
  pose proof (Z.log2_spec x ltac:(lia)) as [L1 L2]. pose proof (Z.log2_nonneg x). assert (Z.log2 x <= 30) by (apply Z.lt_succ_r; apply Z.log2_lt_pow2; lia).
  split; [lia|]. rewrite Z.pow_succ_r in L2 by lia.
  assert (E : 2 ^ Z.log2 x * 2 ^ (30 - Z.log2 x) = 1073741824) by (rewrite <- Z.pow_add_r by lia; replace (Z.log2 x + (30 - Z.log2 x)) with 30 by ring; reflexivity).
  assert (0 < 2 ^ (30 - Z.log2 x)) by (apply Z.pow_pos_nonneg; lia). nia.
Qed.
(** the number of bits dmax does not use *)
Lemma norm_top m : 0 < m <= 32767 -> exists n, gsm0610_norm (m * 65536) = Ok n /\ 0 <= n <= 14 /\ 16384 <= m * 2 ^ n <= 32767.
Proof.
  intros H. destruct (norm_ok (m * 65536) ltac:(lia)) as (n & E & Hn & R). exists n. split; [exact E|]. assert (0 < 2 ^ n) by (apply Z.pow_pos_nonneg; lia).
  assert (R' : 16384 <= m * 2 ^ n <= 32767) by nia. split; [|exact R']. split; [lia|].
  destruct (Z_le_gt_dec n 14); [assumption|]. assert (2 ^ 15 <= 2 ^ n) by (apply Z.pow_le_mono_r; lia). change (2 ^ 15) with 32768 in *. nia.
Qed.
