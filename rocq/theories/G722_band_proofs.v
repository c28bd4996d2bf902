From Verif Require Import Base G722_model G722_spec.
From Coq Require Import ZifyBool ZifyNat.
Local Open Scope Z_scope.

Lemma s16_range x : sample (s16 x). Proof. unfold sample, s16. pose proof (Z.mod_pos_bound (x + 32768) 65536). lia. Qed.
Lemma s16_id x : sample x -> s16 x = x. Proof. unfold sample, s16. intros H. rewrite Z.mod_small; lia. Qed.
Lemma sat16 x : saturate16 x = Z.max (-32768) (Z.min 32767 x).
Proof.
  unfold saturate16. pose proof (s16_range x) as R. unfold sample in R.
  destruct (Z.eqb_spec x (s16 x)) as [E|E]; [lia|].
  destruct (Z.ltb_spec 32767 x); [lia|]. destruct (Z.leb_spec (-32768) x); [|lia].
  rewrite s16_id in E by (unfold sample; lia). lia.
Qed.
Lemma sat16_range x : sample (saturate16 x). Proof. rewrite sat16. unfold sample. lia. Qed.
Lemma sat_add_range x y : sample (sat_add16 x y). Proof. apply sat16_range. Qed.
Lemma sat15 x : saturate15 x = Z.max (-16384) (Z.min 16383 x).
Proof.
  unfold saturate15. destruct (Z.ltb_spec 16383 x); [lia|]. destruct (Z.ltb_spec x (-16384)); [lia|].
  rewrite s16_id by (unfold sample; lia). lia.
Qed.
Lemma i32_ok x : -2147483648 <= x <= 2147483647 -> i32 x = Ok x.
Proof. intros H. unfold i32. replace ((-2147483648 <=? x) && (x <=? 2147483647)) with true by lia. reflexivity. Qed.
Lemma shiftr_ge0 x n : 0 <= n -> Z.shiftr x n = x / 2 ^ n. Proof. intros. apply Z.shiftr_div_pow2; auto. Qed.
Lemma mul_bound x y A B : Z.abs x <= A -> Z.abs y <= B -> Z.abs (x * y) <= A * B.
Proof. intros. rewrite Z.abs_mul. apply Z.mul_le_mono_nonneg; lia. Qed.
Lemma aget_ok l i : 0 <= i < Z.of_nat (length l) -> aget l i = Ok (nth (Z.to_nat i) l 0).
Proof. intros H. unfold aget, in_bounds. replace ((0 <=? i) && (i <? Z.of_nat (length l))) with true by lia. reflexivity. Qed.
Lemma aset_ok l i x : 0 <= i < Z.of_nat (length l) -> aset l i x = Ok (upd l (Z.to_nat i) x).
Proof. intros H. unfold aset, in_bounds. replace ((0 <=? i) && (i <? Z.of_nat (length l))) with true by lia. reflexivity. Qed.
Lemma upd_forall (P : Z -> Prop) l n x : Forall P l -> P x -> Forall P (upd l n x).
Proof. intros F. revert n. induction F as [|h t Hh Ht IH]; intros n Hx; destruct n; cbn; auto. Qed.
Lemma nth_forall (P : Z -> Prop) l n : Forall P l -> P 0 -> P (nth n l 0).
Proof. intros F H0. destruct (Nat.lt_ge_cases n (length l)); [apply Forall_nth; auto | rewrite nth_overflow; auto]. Qed.
Lemma audio_nth l n : audio l -> sample (nth n l 0).
Proof. intros F. apply nth_forall; [auto | unfold sample; lia]. Qed.

(** ---- the zeros ---- *)
Lemma zeros_ok dx wd1 : forall k z b d, (k <= 6)%nat -> Z.abs z <= 32768 * (6 - Z.of_nat k) ->
  audio b -> audio d -> length b = 6%nat -> length d = 7%nat ->
  exists z' b' d', zeros k dx wd1 z b d = Ok (z', b', d') /\ audio b' /\ audio d' /\ length b' = 6%nat /\ length d' = 7%nat.
Proof.
  induction k as [|k IH]; intros z b d Hk Hz Fb Fd Lb Ld; cbn [zeros]; [exists z, b, d; auto|].
  rewrite aget_ok by lia. cbn [rbind]. rewrite aget_ok by lia. cbn [rbind].
  set (bi := sat_add16 _ _). assert (Rb : sample bi) by apply sat_add_range.
  rewrite aset_ok by lia. cbn [rbind]. rewrite aget_ok by lia. cbn [rbind].
  set (di := nth _ d 0). assert (Rd : sample di) by (apply audio_nth; auto).
  set (w := sat_add16 di di). assert (Rw : sample w) by apply sat_add_range.
  unfold sample in Rb, Rd, Rw.
  pose proof (mul_bound bi w 32768 32768 ltac:(lia) ltac:(lia)) as M.
  rewrite shiftr_ge0 by lia. change (2 ^ 15) with 32768.
  assert (B : Z.abs (z + bi * w / 32768) <= 32768 * (6 - Z.of_nat k)) by (Z.div_mod_to_equations; lia).
  rewrite i32_ok by lia. cbn [rbind].
  rewrite aset_ok by lia. cbn [rbind].
  apply IH; [lia | exact B | apply upd_forall; auto | apply upd_forall; auto | rewrite upd_length; auto | rewrite upd_length; auto].
Qed.

(** ---- what holds of a band ---- *)
Record bandinv (s : band) : Prop := {
  i_sig : sample (sig s); i_sz : sample (sz s); i_rr : sample (rr s); i_p0 : sample (p0 s); i_p1 : sample (p1 s);
  i_a : stable s; i_bb : audio (bb s); i_dd : audio (dd s); i_lb : length (bb s) = 6%nat; i_ld : length (dd s) = 7%nat }.
Lemma block4_ok s dx : bandinv s -> sample dx ->
  exists s', block4 s dx = Ok s' /\ bandinv s' /\ nb s' = nb s /\ det s' = det s.
Proof.
  intros [H1 H2 H3 H4 H5 H6 H7 H8 H9 H10] Hd. unfold block4. cbv zeta.
  set (r := sat_add16 (sig s) dx). set (p := sat_add16 (sz s) dx).
  match goal with |- context [if 12288 <? Z.abs ?e then _ else _] => set (w := e) end.
  set (ap1 := if 12288 <? Z.abs w then _ else _).
  assert (B1 : Z.abs ap1 <= 12288) by (unfold ap1; destruct (Z.ltb_spec 12288 (Z.abs w)); [destruct (w <? 0)|]; lia).
  clearbody ap1. clear w.
  match goal with |- context [sat_sub16 15360 ap1 <? Z.abs ?e] => set (v := e) end.
  assert (E : sat_sub16 15360 ap1 = 15360 - ap1) by (unfold sat_sub16; rewrite sat16; lia). rewrite E.
  set (ap0 := if 15360 - ap1 <? Z.abs v then _ else _).
  assert (B0 : Z.abs ap0 <= 15360 - ap1) by (unfold ap0; destruct (Z.ltb_spec (15360 - ap1) (Z.abs v)); [destruct (v <? 0)|]; lia).
  assert (Es : s16 ap0 = ap0) by (apply s16_id; unfold sample; lia). rewrite Es. clearbody ap0. clear v Es.
  rewrite aset_ok by lia. cbn [rbind].
  destruct (zeros_ok dx (if dx =? 0 then 0 else 128) 6 0 (bb s) (upd (dd s) (Z.to_nat 0) dx)) as (z & b' & d' & -> & F1 & F2 & L1 & L2);
    try lia; auto; try (rewrite upd_length; auto); try (apply upd_forall; auto).
  cbn [rbind]. eexists. split; [reflexivity|]. split; [|cbn; auto].
  split; cbn [sig sz rr p0 p1 a0 a1 bb dd]; auto; try apply sat_add_range; try apply sat16_range.
  split; cbn [a0 a1]; lia.
Qed.
Lemma set_scale_inv s n d : bandinv s -> bandinv (set_scale s n d).
Proof. intros [? ? ? ? ? ? ? ? ? ?]. split; auto. Qed.

(** ---- the scale factor ---- *)
Lemma scale_shift k n : scale k n = scale k (Z.shiftl (Z.shiftr n 6) 6).
Proof.
  unfold scale. assert (E : Z.shiftr (Z.shiftl (Z.shiftr n 6) 6) 6 = Z.shiftr n 6).
  { rewrite Z.shiftr_shiftl_l by lia. apply Z.shiftl_0_r. }
  rewrite E. replace (Z.shiftr (Z.shiftl (Z.shiftr n 6) 6) 11) with (Z.shiftr n 11); [reflexivity|].
  change 11 with (6 + 5). rewrite <- !Z.shiftr_shiftr by lia. rewrite E. reflexivity.
Qed.
Definition in_range (lo hi : Z) (v : res Z) : bool := match v with Ok x => (lo <=? x) && (x <=? hi) | UB => false end.
Lemma scale_low n : 0 <= n <= 18432 -> exists d, scale 8 n = Ok d /\ 32 <= d <= 32064.
Proof.
  intros H. rewrite scale_shift.
  assert (E : all_below_from (Z.to_nat 289) 0 (fun m => in_range 32 32064 (scale 8 (Z.shiftl m 6))) = true) by (vm_compute; reflexivity).
  assert (R : 0 <= Z.shiftr n 6 < 289) by (rewrite shiftr_ge0 by lia; change (2 ^ 6) with 64; Z.div_mod_to_equations; lia).
  pose proof (sweep 289 _ E _ R) as Q. cbv beta in Q. unfold in_range in Q.
  destruct (scale 8 _) as [d|]; [|discriminate]. exists d. split; [reflexivity|lia].
Qed.
Lemma scale_high n : 0 <= n <= 22528 -> exists d, scale 10 n = Ok d /\ 8 <= d <= 16384.
Proof.
  intros H. rewrite scale_shift.
  assert (E : all_below_from (Z.to_nat 353) 0 (fun m => in_range 8 16384 (scale 10 (Z.shiftl m 6))) = true) by (vm_compute; reflexivity).
  assert (R : 0 <= Z.shiftr n 6 < 353) by (rewrite shiftr_ge0 by lia; change (2 ^ 6) with 64; Z.div_mod_to_equations; lia).
  pose proof (sweep 353 _ E _ R) as Q. cbv beta in Q. unfold in_range in Q.
  destruct (scale 10 _) as [d|]; [|discriminate]. exists d. split; [reflexivity|lia].
Qed.

(** ---- tables ---- *)
Definition table_in (t : list Z) (lo hi : Z) : bool := forallb (fun v => (lo <=? v) && (v <=? hi)) t.
Lemma table_nth t lo hi i : table_in t lo hi = true -> 0 <= i < Z.of_nat (length t) -> exists v, aget t i = Ok v /\ lo <= v <= hi.
Proof.
  intros T H. rewrite aget_ok by auto. eexists. split; [reflexivity|]. unfold table_in in T. rewrite forallb_forall in T.
  specialize (T (nth (Z.to_nat i) t 0) ltac:(apply nth_In; lia)). lia.
Qed.

Record lowinv (s : band) : Prop := { l_inv : bandinv s; l_nb : 0 <= nb s <= 18432; l_det : 32 <= det s <= 32064 }.
Record highinv (s : band) : Prop := { h_inv : bandinv s; h_nb : 0 <= nb s <= 22528; h_det : 8 <= det s <= 16384 }.

Lemma nb_decay n : 0 <= n <= 22528 -> 0 <= Z.shiftr (n * 127) 7 <= n.
Proof. intros H. rewrite shiftr_ge0 by lia. change (2 ^ 7) with 128. Z.div_mod_to_equations; lia. Qed.
Lemma dec_low_ok s i : lowinv s -> 0 <= i < 16 -> exists s', dec_low s i = Ok s' /\ lowinv s'.
Proof.
  intros [I N D] Hi. unfold dec_low.
  destruct (table_nth qm4 (-32768) 32767 i eq_refl Hi) as (q & -> & Hq). cbn [rbind].
  destruct (table_nth rl42 0 7 i eq_refl Hi) as (j & -> & Hj). cbn [rbind].
  destruct (table_nth wl (-60) 3042 j eq_refl ltac:(cbn; lia)) as (w & -> & Hw). cbn [rbind].
  pose proof (nb_decay (nb s) ltac:(lia)) as Hd. cbv zeta.
  match goal with |- context [scale 8 (s16 ?e)] => assert (R : 0 <= e <= 18432) by
    (destruct (Z.ltb_spec (Z.shiftr (nb s * 127) 7 + w) 0); [|destruct (Z.ltb_spec 18432 (Z.shiftr (nb s * 127) 7 + w))]; lia);
    set (n := e) in * end.
  rewrite s16_id by (unfold sample; lia). clearbody n.
  destruct (scale_low n R) as (d & -> & Rd). cbn [rbind].
  destruct (block4_ok (set_scale s n d) (s16 (Z.shiftr (det s * q) 15)) (set_scale_inv s n d I) (s16_range _)) as (s' & -> & I' & E1 & E2).
  exists s'. split; [reflexivity|]. split; [auto| |]; [rewrite E1 | rewrite E2]; cbn; lia.
Qed.
Lemma dec_high_ok s i : highinv s -> 0 <= i < 4 -> exists r s', dec_high s i = Ok (r, s') /\ -16384 <= r <= 16383 /\ highinv s'.
Proof.
  intros [I N D] Hi. unfold dec_high.
  destruct (table_nth qm2 (-32768) 32767 i eq_refl Hi) as (q & -> & Hq). cbn [rbind].
  destruct (table_nth rh2 0 2 i eq_refl Hi) as (j & -> & Hj). cbn [rbind].
  destruct (table_nth wh (-214) 798 j eq_refl ltac:(cbn; lia)) as (w & -> & Hw). cbn [rbind].
  pose proof (nb_decay (nb s) ltac:(lia)) as Hd. cbv zeta.
  match goal with |- context [scale 10 (s16 ?e)] => assert (R : 0 <= e <= 22528) by
    (destruct (Z.ltb_spec (Z.shiftr (nb s * 127) 7 + w) 0); [|destruct (Z.ltb_spec 22528 (Z.shiftr (nb s * 127) 7 + w))]; lia);
    set (n := e) in * end.
  rewrite s16_id by (unfold sample; lia). clearbody n.
  destruct (scale_high n R) as (d & -> & Rd). cbn [rbind].
  destruct (block4_ok (set_scale s n d) (s16 (Z.shiftr (det s * q) 15)) (set_scale_inv s n d I) (s16_range _)) as (s' & -> & I' & E1 & E2).
  cbn [rbind]. eexists _, s'. split; [reflexivity|]. split; [rewrite sat15; lia|]. split; [auto| |]; [rewrite E1 | rewrite E2]; cbn; lia.
Qed.

(** ---- the encoder does with its bands what the decoder does ---- *)
(** What the search finds. *)
Definition thr (d i : Z) : Z := Z.shiftr (nth (Z.to_nat i) q6 0 * d) 12.
Lemma quantl_ok d wd : forall k i, 1 <= i -> i + Z.of_nat k = 30 ->
  exists j, quantl k i d wd = Ok j /\ i <= j <= 30 /\ (j < 30 -> wd < thr d j) /\ forall m, i <= m < j -> thr d m <= wd.
Proof.
  induction k as [|k IH]; intros i Hi Hk; cbn [quantl].
  - exists i. split; [reflexivity|]. split; [lia|]. split; [lia|]. intros; lia.
  - rewrite aget_ok by (cbn; lia). cbn [rbind]. fold (thr d i). destruct (Z.ltb_spec wd (thr d i)).
    + exists i. split; [reflexivity|]. split; [lia|]. split; [lia|]. intros; lia.
    + destruct (IH (i + 1) ltac:(lia) ltac:(lia)) as (j & -> & Hj & A & B). exists j. split; [reflexivity|]. split; [lia|]. split; [auto|].
      intros m Hm. destruct (Z.eq_dec m i) as [->|]; [lia | apply B; lia].
Qed.
(** Sign and index of the interval of the quantiser, and the code. *)
Definition magn (el : Z) : Z := if 0 <=? el then el else Z.lnot el.
Definition low_code (neg : bool) (i : Z) : Z := nth (Z.to_nat i) (if neg then iln else ilp) 0.
Lemma low_code_range neg i : 1 <= i <= 30 -> 4 <= low_code neg i < 64.
Proof.
  intros H.
  assert (E : all_below_from (Z.to_nat 31) 0 (fun i => (i =? 0) || ((4 <=? low_code neg i) && (low_code neg i <? 64))) = true) by (destruct neg; vm_compute; reflexivity).
  pose proof (sweep 31 _ E i ltac:(lia)). cbv beta in *. lia.
Qed.
Lemma enc_low_ok s x : lowinv s -> exists i s', let el := sat_sub16 x (sig s) in
  1 <= i <= 30 /\ (i < 30 -> magn el < thr (det s) i) /\ (forall m, 1 <= m < i -> thr (det s) m <= magn el) /\
  enc_low s x = Ok (low_code (el <? 0) i, s') /\ dec_low s (Z.shiftr (low_code (el <? 0) i) 2) = Ok s'.
Proof.
  intros L. pose proof L as [I N D]. unfold enc_low. cbv zeta. set (el := sat_sub16 x (sig s)). fold (magn el).
  destruct (quantl_ok (det s) (magn el) 29 1 ltac:(lia) ltac:(lia)) as (i & -> & Hi & A & B). cbn [rbind].
  rewrite aget_ok by (destruct (el <? 0); cbn; lia). cbn [rbind]. fold (low_code (el <? 0) i).
  pose proof (low_code_range (el <? 0) i Hi) as Rc. set (v := low_code (el <? 0) i) in *.
  assert (Rr : 0 <= Z.shiftr v 2 < 16) by (rewrite shiftr_ge0 by lia; change (2 ^ 2) with 4; Z.div_mod_to_equations; lia).
  destruct (dec_low_ok s (Z.shiftr v 2) L Rr) as (s' & E & L'). exists i, s'. split; [auto|]. split; [auto|]. split; [auto|].
  split; [|exact E]. revert E. unfold dec_low.
  destruct (table_nth qm4 (-32768) 32767 _ eq_refl Rr) as (q & -> & Hq). cbn [rbind].
  destruct (table_nth rl42 0 7 _ eq_refl Rr) as (j & -> & Hj). cbn [rbind].
  destruct (table_nth wl (-60) 3042 j eq_refl ltac:(cbn; lia)) as (w & -> & Hw). cbn [rbind].
  pose proof (nb_decay (nb s) ltac:(lia)) as Hd. cbv zeta.
  set (y := Z.shiftr (nb s * 127) 7 + w) in *. rewrite (s16_id y) by (unfold sample; lia).
  rewrite (s16_id (if y <? 0 then _ else _)) by (unfold sample; destruct (Z.ltb_spec y 0); [|destruct (Z.ltb_spec 18432 y)]; lia).
  destruct (scale 8 _) as [d|]; cbn [rbind]; [|discriminate]. intros ->. reflexivity.
Qed.
Definition high_code (neg : bool) (big : bool) : Z := if neg then (if big then 0 else 1) else (if big then 2 else 3).
Lemma enc_high_ok s x : highinv s -> exists r s', let eh := sat_sub16 x (sig s) in let i := high_code (eh <? 0) (Z.shiftr (564 * det s) 12 <=? magn eh) in
  enc_high s x = Ok (i, s') /\ dec_high s i = Ok (r, s').
Proof.
  intros L. pose proof L as [I N D]. unfold enc_high. cbv zeta. set (eh := sat_sub16 x (sig s)). fold (magn eh).
  set (big := Z.shiftr (564 * det s) 12 <=? magn eh).
  assert (E : aget (if eh <? 0 then ihn else ihp) (if big then 2 else 1) = Ok (high_code (eh <? 0) big)) by (destruct (eh <? 0), big; reflexivity).
  rewrite E. cbn [rbind]. clear E.
  assert (Rr : 0 <= high_code (eh <? 0) big < 4) by (destruct (eh <? 0), big; cbn; lia). set (v := high_code (eh <? 0) big) in *.
  destruct (dec_high_ok s v L Rr) as (r & s' & E & _ & L'). exists r, s'.
  split; [|exact E]. revert E. unfold dec_high.
  destruct (table_nth qm2 (-32768) 32767 _ eq_refl Rr) as (q & -> & Hq). cbn [rbind].
  destruct (table_nth rh2 0 2 _ eq_refl Rr) as (j & -> & Hj). cbn [rbind].
  destruct (table_nth wh (-214) 798 j eq_refl ltac:(cbn; lia)) as (w & -> & Hw). cbn [rbind].
  pose proof (nb_decay (nb s) ltac:(lia)) as Hd. cbv zeta.
  set (y := Z.shiftr (nb s * 127) 7 + w) in *. rewrite (s16_id y) by (unfold sample; lia).
  rewrite (s16_id (if y <? 0 then _ else _)) by (unfold sample; destruct (Z.ltb_spec y 0); [|destruct (Z.ltb_spec 22528 y)]; lia).
  destruct (scale 10 _) as [d|]; cbn [rbind]; [|discriminate]. destruct (block4 _ _) as [t|]; cbn [rbind]; [|discriminate].
  intros E. inversion E. reflexivity.
Qed.
