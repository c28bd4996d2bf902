(** GSM 06.10: the encoder is safe, and its parameters fit. *)
From Verif Require Import Base Gsm_model Gsm_spec Gsm_arith_proofs.
Local Open Scope Z_scope.

Lemma check_ok b : b = true -> check b = Ok tt.
Proof. intros ->. reflexivity. Qed.
Ltac chk := rewrite check_ok by (repeat rewrite andb_true_iff; repeat split; try apply negb_true_iff; try (apply Z.leb_le; lia); try (apply Z.ltb_lt; lia); try (apply Z.eqb_neq; lia)); cbn [rbind].

(** ---- preprocessing ---- *)
Lemma so_range amp : i16 amp -> -16384 <= Z.land (Z.shiftr amp 1) (-4) <= 16380.
Proof.
  intros H. unfold i16 in H. change (-4) with (Z.lnot (Z.ones 2)). rewrite <- Z.ldiff_land, Z.ldiff_ones_r by lia. rewrite Z.shiftl_mul_pow2, !Z.shiftr_div_pow2 by lia.
  change (2 ^ 1) with 2. change (2 ^ 2) with 4. pose proof (Z.div_mod amp 2). pose proof (Z.mod_pos_bound amp 2). pose proof (Z.div_mod (amp / 2) 4). pose proof (Z.mod_pos_bound (amp / 2) 4). lia.
Qed.
Lemma preprocess_1_ok z1 L_z2 mp amp : pre_ok z1 L_z2 mp -> i16 amp -> exists z1' L_z2' mp' y, preprocess_1 z1 L_z2 mp amp = Ok (z1', L_z2', mp', y) /\ pre_ok z1' L_z2' mp' /\ i16 y.
Proof.
  intros (H1 & H2 & H3) Ha. unfold preprocess_1. pose proof (so_range amp Ha) as R. set (so := Z.land _ _) in *. chk.
  rewrite (s16_id (so - z1)) by (unfold i16; lia). chk. eexists _, _, _, _. split; [reflexivity|]. split; [|apply sat_add16_i16]. split; [exact R|]. split; [|apply s16_i16].
  unfold sat_add32. set (v := s32 _ + _). clearbody v. destruct (Z.ltb_spec v (-2147483648)); [lia|]. destruct (Z.ltb_spec 2147483647 v); lia.
Qed.
Lemma preprocess_ok amp : forall z1 L_z2 mp, pre_ok z1 L_z2 mp -> Forall i16 amp ->
  exists z1' L_z2' mp' so, preprocess z1 L_z2 mp amp = Ok (z1', L_z2', mp', so) /\ pre_ok z1' L_z2' mp' /\ Forall i16 so /\ length so = length amp.
Proof.
  induction amp as [|x t IH]; intros z1 L_z2 mp H F; [exists z1, L_z2, mp, []; repeat split; try apply H; constructor|].
  apply Forall_cons_iff in F as [Hx F]. destruct (preprocess_1_ok z1 L_z2 mp x H Hx) as (a & b & c & y & E & H' & Hy). destruct (IH a b c H' F) as (a' & b' & c' & so & E' & H'' & Fs & L).
  exists a', b', c', (y :: so). cbn [preprocess]. rewrite E. cbn [rbind]. rewrite E'. cbn [rbind length]. split; [reflexivity|]. split; [exact H''|]. split; [constructor; assumption | lia].
Qed.

(** ---- linear prediction ---- *)
Lemma abs_of x m : sat_abs16 x <= m -> i16 x -> -m - 1 <= x <= m /\ (x = - m - 1 -> m = 32767).
Proof. unfold sat_abs16, i16. destruct (Z.eqb_spec x (-32768)); lia. Qed.
Lemma div_bound x k B : 0 < k -> -(B * k) <= x < (B + 1) * k -> - B <= x / k <= B.
Proof. intros Hk H. split; [apply Z.div_le_lower_bound; lia|]. assert (x / k < B + 1) by (apply Z.div_lt_upper_bound; lia). lia. Qed.
Lemma scaling_ok m : 0 <= m <= 32767 -> exists s, scaling m = Ok s /\ s <= 4 /\ forall x, i16 x -> sat_abs16 x <= m -> -2048 <= scale_down s x <= 2048.
Proof.
  intros H. unfold scaling. destruct (Z.eqb_spec m 0) as [-> | N].
  - exists 0. split; [reflexivity|]. split; [lia|]. intros x Hx Hm. cbn [scale_down]. change (scale_down 0 x) with x. destruct (abs_of x 0 Hm Hx). lia.
  - chk. destruct (norm_top m ltac:(lia)) as (n & E & Hn & R). rewrite E. cbn [rbind]. exists (4 - n). split; [reflexivity|]. split; [lia|]. intros x Hx Hm. destruct (abs_of x m Hm Hx) as [Hb Hc].
    unfold scale_down. destruct (Z.ltb_spec 0 (4 - n)) as [L | L].
    + assert (C : n = 0 \/ n = 1 \/ n = 2 \/ n = 3) by lia. rewrite gsm_mult_r_eq; [|exact Hx | destruct C as [-> | [-> | [-> | ->]]]; vm_compute; split; discriminate].
      assert (-2048 <= (x * Z.shiftr 16384 (4 - n - 1) + 16384) / 32768 <= 2048); [|lia].
      destruct C as [-> | [-> | [-> | ->]]]; cbn in R;
        [change (Z.shiftr 16384 (4 - 0 - 1)) with 2048 | change (Z.shiftr 16384 (4 - 1 - 1)) with 4096 | change (Z.shiftr 16384 (4 - 2 - 1)) with 8192 | change (Z.shiftr 16384 (4 - 3 - 1)) with 16384]; clear - R Hb Hc Hx; unfold i16 in *; apply (div_bound _ _ 2048); lia.
    + assert (2 ^ 4 <= 2 ^ n) by (apply Z.pow_le_mono_r; lia). change (2 ^ 4) with 16 in *. assert (m <= 2047) by nia. lia.
Qed.
Lemma dot_nonneg a : 0 <= dot a a.
Proof. induction a; cbn [dot]; nia. Qed.
Lemma dot_cs a : forall b, 2 * Z.abs (dot a b) <= dot a a + dot b b.
Proof.
  induction a as [|x a IH]; intros [|y b]; [cbn; lia | pose proof (dot_nonneg (y :: b)); change (dot [] (y :: b)) with 0; change (dot [] []) with 0; lia | pose proof (dot_nonneg (x :: a)); change (dot (x :: a) []) with 0; change (dot [] []) with 0; lia|]. cbn [dot].
  specialize (IH b). assert (2 * Z.abs (x * y) <= x * x + y * y) by (pose proof (Z.square_nonneg (x - y)); pose proof (Z.square_nonneg (x + y)); destruct (Z.abs_spec (x * y)) as [[_ ->] | [_ ->]]; nia). lia.
Qed.
Lemma dot_skipn k a : dot (skipn k a) (skipn k a) <= dot a a.
Proof. revert a. induction k as [|k IH]; intros [|x a]; [cbn; lia | cbn; lia | cbn; lia |]. cbn [skipn]. specialize (IH a). change (dot (x :: a) (x :: a)) with (x * x + dot a a). nia. Qed.
Lemma dot_shift k a : - dot a a <= dot (skipn k a) a <= dot a a.
Proof. pose proof (dot_cs (skipn k a) a). pose proof (dot_skipn k a). lia. Qed.
Lemma dot_bound B a : forall b, Forall (fun x => -B <= x <= B) a -> Forall (fun x => -B <= x <= B) b -> - (B * B * Z.of_nat (length a)) <= dot a b <= B * B * Z.of_nat (length a).
Proof.
  induction a as [|x a IH]; intros b Fa Fb; [cbn; lia|]. apply Forall_cons_iff in Fa as [Hx Fa]. destruct b as [|y b].
  - cbn [dot]. assert (0 <= B * B) by nia. rewrite ?Nat2Z.inj_succ. nia.
  - apply Forall_cons_iff in Fb as [Hy Fb]. specialize (IH b Fa Fb). cbn [dot length]. rewrite Nat2Z.inj_succ. pose proof (prod_bound B B x y Hx Hy). lia.
Qed.
Lemma autocorrelation_ok amp : Forall i16 amp -> length amp = 160%nat ->
  exists l0 ls amp', autocorrelation amp = Ok (l0 :: ls, amp') /\ length ls = 8%nat /\ 0 <= l0 <= 1342177280 /\ Forall (fun x => - l0 <= x <= l0) (l0 :: ls) /\ Forall i16 amp' /\ length amp' = 160%nat /\
    exists s, scaling (max_abs amp) = Ok s /\ amp' = map (fun x => scale_up s (scale_down s x)) amp.
Proof.
  intros F L. unfold autocorrelation. destruct (max_abs_ok amp F) as [M1 M2]. destruct (scaling_ok _ M1) as (s & E & Hs & Hd). rewrite E. cbn [rbind].
  set (a := map (scale_down s) amp). assert (Fa : Forall (fun x => -2048 <= x <= 2048) a) by (apply map_Forall; intros x I; apply Hd; [exact (Forall_In _ _ _ F I) | exact (Forall_In _ _ _ M2 I)]).
  assert (La : length a = 160%nat) by (unfold a; rewrite map_length; exact L).
  assert (A : forall k, In k (seq 0 9) -> acf a k = Ok (2 * dot (skipn k a) a)).
  { intros k _. unfold acf. rewrite (sum32_ok 4194304); [|lia| |].
    - cbn [rbind]. rewrite total_dot, Z.add_0_l. rewrite c32_ok; [f_equal; lia|]. pose proof (dot_bound 2048 (skipn k a) a (Forall_skipn' _ _ _ Fa) Fa) as B. rewrite skipn_length, La in B. lia.
    - apply map2_Forall. intros x y I J. apply (prod_bound 2048 2048); [exact (Forall_In _ _ _ (Forall_skipn' _ _ _ Fa) I) | exact (Forall_In _ _ _ Fa J)].
    - rewrite map2_length, skipn_length, La. lia. }
  rewrite (res_map_map _ (fun k => 2 * dot (skipn k a) a)) by exact A. cbn [rbind]. chk. change (seq 0 9) with (0%nat :: seq 1 8). cbn [map]. eexists _, _, _. split; [reflexivity|].
  pose proof (dot_nonneg a) as D0. pose proof (dot_bound 2048 a a Fa Fa) as D1. rewrite La in D1. cbn [skipn].
  split; [reflexivity|]. split; [lia|]. split; [constructor; [lia|]; change (skipn 0 a) with a; refine (map_Forall _ _ (seq 1 8) _); intros k _; cbn beta; pose proof (dot_shift k a); lia|].
  split; [apply map_Forall; intros x I; unfold scale_up; destruct (0 <? s); [apply s16_i16 | pose proof (Forall_In _ _ _ Fa I); cbn beta in *; unfold i16; lia]|].
  split; [rewrite map_length; exact La|]. exists s. split; [reflexivity|]. unfold a. rewrite map_map. reflexivity.
Qed.
Lemma schur_ok n : forall p0 ps ks, (n <= length ps)%nat -> (n <= S (length ks))%nat -> Forall i16 ps -> exists r, schur n p0 ps ks = Ok r /\ length r = n /\ Forall i16 r.
Proof.
  induction n as [|n IH]; intros p0 ps ks L1 L2 F; [exists []; repeat split; constructor|]. destruct ps as [|p1 t]; [cbn in L1; lia|]. cbn [length] in L1. apply Forall_cons_iff in F as [Hp F].
  cbn [schur]. destruct (Z.ltb_spec p0 (sat_abs16 p1)).
  { exists (repeat 0 (S n)). split; [reflexivity|]. split; [apply repeat_length|]. apply Forall_forall. intros x I. apply repeat_spec in I. subst x. unfold i16; lia. }
  pose proof (sat_abs16_range p1 Hp). destruct (gsm_div_range (sat_abs16 p1) p0) as (d & E & Hd); [lia|]. rewrite E. cbn [rbind]. chk.
  set (r := if 0 <? p1 then s16 (- d) else d). assert (Hr : -32767 <= r <= 32767) by (unfold r; destruct (0 <? p1); [rewrite s16_id by (unfold i16; lia)|]; lia). clearbody r. chk.
  destruct n as [|n]; [exists [r]; split; [reflexivity|]; split; [reflexivity|]; constructor; [unfold i16; lia | constructor]|]. cbn [Nat.eqb].
  rewrite check_ok by (apply andb_true_iff; split; apply Nat.leb_le; lia). cbn [rbind].
  match goal with |- context [schur (S n) ?a ?b ?c] => destruct (IH a b c) as (l & El & Ll & Fl) end; [rewrite map2_length; lia | rewrite map2_length; lia | apply map2_Forall; intros; apply sat_add16_i16|].
  rewrite El. cbn [rbind]. exists (r :: l). split; [reflexivity|]. split; [cbn; lia|]. constructor; [unfold i16; lia | exact Fl].
Qed.
Lemma reflection_ok l0 ls : length ls = 8%nat -> 0 <= l0 <= 1342177280 -> Forall (fun x => - l0 <= x <= l0) (l0 :: ls) -> exists r, reflection_coefficients (l0 :: ls) = Ok r /\ length r = 8%nat /\ Forall i16 r.
Proof.
  intros L H F. unfold reflection_coefficients. cbn [aget]. unfold aget at 1. cbn [in_bounds length]. unfold in_bounds. cbn [length]. rewrite L. cbn [Z.leb Z.ltb Z.compare andb nth Z.to_nat rbind].
  change (0 <? Z.of_nat 9) with true. cbn [andb nth rbind]. destruct (Z.eqb_spec l0 0) as [-> | N].
  { exists (repeat 0 8). split; [reflexivity|]. split; [reflexivity|]. apply Forall_forall. intros x I. apply repeat_spec in I. subst x. unfold i16; lia. }
  destruct (norm_ok l0 ltac:(lia)) as (n & E & Hn & R). rewrite E. cbn [rbind]. chk. assert (P : 0 < 2 ^ n) by (apply Z.pow_pos_nonneg; lia).
  rewrite (res_map_map _ (fun x => s16 (Z.shiftr (x * 2 ^ n) 16))).
  2:{ intros x I. pose proof (Forall_In _ _ _ F I) as B. cbn beta in B. rewrite c32_ok by nia. reflexivity. }
  cbn [rbind map tl]. unfold aget, in_bounds. cbn [length]. rewrite map_length, L. change (0 <? Z.of_nat 9) with true. cbn [Z.leb Z.compare andb nth Z.to_nat rbind].
  apply schur_ok; [rewrite map_length; lia | rewrite firstn_length, map_length; lia | apply map_Forall; intros; apply s16_i16].
Qed.
Lemma log_area_ratio_ok r : i16 r -> exists y, log_area_ratio r = Ok y /\ -26620 <= y <= 26620.
Proof.
  intros H. unfold log_area_ratio. pose proof (sat_abs16_range r H) as B. set (t := sat_abs16 r) in *. clearbody t. chk.
  assert (X : exists v, (if t <? 22118 then Ok (Z.shiftr t 1) else if t <? 31130 then do _ <- check (11059 <=? t); Ok (t - 11059) else do _ <- check (26112 <=? t); Ok (s16 ((t - 26112) * 4))) = Ok v /\ 0 <= v <= 26620).
  { destruct (Z.ltb_spec t 22118); [|destruct (Z.ltb_spec t 31130)].
    - eexists. split; [reflexivity|]. rewrite Z.shiftr_div_pow2 by lia. change (2 ^ 1) with 2. split; [apply Z.div_pos; lia | apply Z.div_le_upper_bound; lia].
    - chk. eexists. split; [reflexivity | lia].
    - chk. eexists. split; [reflexivity|]. rewrite s16_id by (unfold i16; lia). lia. }
  destruct X as (v & E & Hv). rewrite E. cbn [rbind]. clear E. destruct (r <? 0).
  - rewrite (s16_id (- v)) by (unfold i16; lia). chk. exists (- v). split; [reflexivity | lia].
  - chk. exists v. split; [reflexivity | lia].
Qed.
Lemma code_lars_fit lar : length lar = 8%nat -> fits (firstn 8 sizes) (code_lars lar_coding lar).
Proof.
  intros L. do 8 (destruct lar as [|? lar]; [discriminate|]). destruct lar; [|discriminate]. cbn [code_lars lar_coding firstn sizes app]. unfold fits.
  repeat constructor; cbn [code_lar]; match goal with |- context [Z.shiftr ?a 9] => set (t := Z.shiftr a 9) end; clearbody t; cbn;
    repeat match goal with |- context [?a <? ?b] => destruct (Z.ltb_spec a b) end; lia.
Qed.
Lemma lpc_analysis_ok amp : Forall i16 amp -> length amp = 160%nat ->
  exists l so, lpc_analysis amp = Ok (l, so) /\ fits (firstn 8 sizes) l /\ Forall i16 so /\ length so = 160%nat.
Proof.
  intros F L. unfold lpc_analysis. destruct (autocorrelation_ok amp F L) as (l0 & ls & so & E & Ll & H0 & Fl & Fs & Ls & _). rewrite E. cbn [rbind].
  destruct (reflection_ok l0 ls Ll H0 Fl) as (r & E1 & Lr & Fr). rewrite E1. cbn [rbind].
  destruct (res_map_ok log_area_ratio (fun _ => True) r) as (lar & E2 & _ & Lar); [intros x I; destruct (log_area_ratio_ok x (Forall_In _ _ _ Fr I)) as (y & E2 & _); exists y; auto|].
  rewrite E2. cbn [rbind]. eexists _, _. split; [reflexivity|]. split; [apply code_lars_fit; lia|]. split; assumption.
Qed.

(** ---- short term filters ---- *)
Lemma decode_lars_length c : forall l, length (decode_lars c l) = Nat.min (length c) (length l).
Proof. induction c as [|x c IH]; intros [|y l]; cbn; auto. Qed.
Lemma decode_lars_i16 c : forall l, Forall i16 (decode_lars c l).
Proof. induction c as [|[[b m] v] c IH]; intros [|y l]; cbn [decode_lars]; constructor; [apply sat_add16_i16 | apply IH]. Qed.
Lemma lattice_length rp : forall u d o, length (snd (lattice rp u d o)) = Nat.min (length rp) (length u).
Proof. induction rp as [|r rp IH]; intros [|x u] d o; cbn [lattice length snd Nat.min]; auto. match goal with |- context [lattice rp u ?a ?b] => specialize (IH u a b); destruct (lattice rp u a b) end. cbn [snd length] in *. lia. Qed.
Lemma lattice_i16 rp : forall u d o, Forall i16 (snd (lattice rp u d o)).
Proof. induction rp as [|r rp IH]; intros [|x u] d o; cbn [lattice snd]; try constructor. match goal with |- context [lattice rp u ?a ?b] => specialize (IH u a b); destruct (lattice rp u a b) end. cbn [snd] in *. constructor; [apply s16_i16 | exact IH]. Qed.
Lemma analysis_ok rp amp : forall u, length rp = length u -> let r := short_term_analysis_filtering rp u amp in length (fst r) = length u /\ Forall i16 (snd r) /\ length (snd r) = length amp.
Proof.
  cbv zeta. induction amp as [|x t IH]; intros u L; [cbn; repeat split; constructor|]. cbn [short_term_analysis_filtering]. pose proof (lattice_length rp u x x) as Ll. destruct (lattice rp u x x) as [d l] eqn:E. cbn [snd] in Ll.
  destruct (IH l ltac:(lia)) as (A & B & C). destruct (short_term_analysis_filtering rp l t) as [u' o]. cbn [fst snd length] in *. split; [lia|]. split; [constructor; [apply s16_i16 | exact B] | lia].
Qed.
Lemma coeffs_length f a b : length a = 8%nat -> length b = 8%nat -> length (map larp_to_rp (map2 f a b)) = 8%nat.
Proof. intros. rewrite map_length, map2_length. lia. Qed.
Lemma by_parts_analysis a b u so : length a = 8%nat -> length b = 8%nat -> length u = 8%nat -> length so = 160%nat ->
  let r := by_parts short_term_analysis_filtering a b u so in length (fst r) = 8%nat /\ Forall i16 (snd r) /\ length (snd r) = 160%nat.
Proof.
  intros La Lb Lu Ls. cbv zeta. unfold by_parts, coefficients_0_12, coefficients_13_26, coefficients_27_39.
  repeat match goal with |- context [let '(x, y) := short_term_analysis_filtering ?c ?v ?l in _] =>
    let H := fresh "H" in pose proof (analysis_ok c l v) as H; destruct (short_term_analysis_filtering c v l) as [? ?]; cbn [fst snd] in H; destruct H as (? & ? & ?); [rewrite ?coeffs_length, ?map_length by assumption; lia|] end.
  cbn [fst snd]. split; [lia|]. split; [repeat (apply Forall_app; split); assumption|]. rewrite !app_length. rewrite !firstn_length, !skipn_length in *. lia.
Qed.

(** ---- long term prediction ---- *)
Lemma past_ok h lag : (120 <= length h)%nat -> 40 <= lag <= 120 -> Forall i16 h -> past h lag = Ok (from_past h (Z.to_nat lag)) /\ Forall i16 (from_past h (Z.to_nat lag)) /\ length (from_past h (Z.to_nat lag)) = 40%nat.
Proof. intros L H F. unfold past, from_past. chk. split; [reflexivity|]. split; [apply Forall_firstn', Forall_skipn'; exact F|]. rewrite firstn_length, skipn_length. lia. Qed.
Lemma cross_corr_ok wt h i : Forall (fun x => -512 <= x <= 512) wt -> length wt = 40%nat -> (120 <= length h)%nat -> 40 <= i <= 120 -> Forall i16 h ->
  cross_corr wt h i = Ok (dot wt (from_past h (Z.to_nat i))) /\ -671088640 <= dot wt (from_past h (Z.to_nat i)) <= 671088640.
Proof.
  intros Fw Lw Lh Hi Fh. unfold cross_corr. destruct (past_ok h i Lh Hi Fh) as (-> & Fp & Lp). cbn [rbind]. set (p := from_past h (Z.to_nat i)) in *.
  assert (B : Forall (fun x => -16777216 <= x <= 16777216) (map2 Z.mul wt p)) by (apply map2_Forall; intros x y I J; apply (prod_bound 512 32768); [exact (Forall_In _ _ _ Fw I) | pose proof (Forall_In _ _ _ Fp J); unfold i16 in *; lia]).
  assert (Lm : length (map2 Z.mul wt p) = 40%nat) by (rewrite map2_length; lia).
  rewrite (sum32_ok 16777216); [|lia | exact B | rewrite Lm; lia]. rewrite total_dot, Z.add_0_l. split; [reflexivity|]. rewrite <- total_dot. pose proof (total_bound 16777216 _ B). rewrite Lm in *. lia.
Qed.
Lemma max_cross_ok wt h : Forall (fun x => -512 <= x <= 512) wt -> length wt = 40%nat -> (120 <= length h)%nat -> Forall i16 h -> forall n i max index,
  40 <= i -> i + Z.of_nat n <= 121 -> 0 <= max <= 671088640 -> 40 <= index <= 120 ->
  exists m k, max_cross_corr n wt h i max index = Ok (m, k) /\ 0 <= m <= 671088640 /\ 40 <= k <= 120 /\ max <= m /\
    (forall j, i <= j < i + Z.of_nat n -> dot wt (from_past h (Z.to_nat j)) <= m) /\ ((m = max /\ k = index) \/ m = dot wt (from_past h (Z.to_nat k))).
Proof.
  intros Fw Lw Lh Fh. induction n as [|n IH]; intros i max index H1 H2 H3 H4; [exists max, index; split; [reflexivity|]; repeat split; try lia; auto|].
  cbn [max_cross_corr]. destruct (cross_corr_ok wt h i Fw Lw Lh ltac:(lia) Fh) as (-> & R). cbn [rbind]. set (v := dot wt (from_past h (Z.to_nat i))) in *.
  destruct (Z.ltb_spec max v).
  - destruct (IH (i + 1) v i) as (m & k & E & A & B & C & D & G); [lia | lia | lia | lia|]. exists m, k. split; [exact E|]. split; [exact A|]. split; [exact B|]. split; [lia|]. split.
    + intros j Hj. destruct (Z.eq_dec j i) as [-> | N]; [exact C | apply D; lia].
    + destruct G as [[-> ->] | G]; right; [reflexivity | exact G].
  - destruct (IH (i + 1) max index) as (m & k & E & A & B & C & D & G); [lia | lia | lia | lia|]. exists m, k. split; [exact E|]. split; [exact A|]. split; [exact B|]. split; [exact C|]. split; [|exact G].
    intros j Hj. destruct (Z.eq_dec j i) as [-> | N]; [fold v; lia | apply D; lia].
Qed.
Lemma code_gain_range R S : 0 <= code_gain R S <= 3.
Proof. unfold code_gain. repeat match goal with |- context [if ?b then _ else _] => destruct b end; lia. Qed.
(** the scaling of the residual for the search, the lag and the gain *)
Lemma evaluate_ltp_ok d h : Forall i16 d -> length d = 40%nat -> (120 <= length h)%nat -> Forall i16 h ->
  exists Nc bc scale, evaluate_ltp_parameters d h = Ok (Nc, bc) /\ 40 <= Nc <= 120 /\ 0 <= bc <= 3 /\ 0 <= scale <= 6 /\
    let wt := map (fun x => Z.shiftr x scale) d in
    (forall j, 40 <= j <= 120 -> dot wt (from_past h (Z.to_nat j)) <= Z.max 0 (dot wt (from_past h (Z.to_nat Nc)))) /\
    let L_max := Z.shiftr (Z.max 0 (dot wt (from_past h (Z.to_nat Nc))) * 2) (6 - scale) in
    let L_power := total (map (fun x => Z.shiftr x 3 * Z.shiftr x 3) (from_past h (Z.to_nat Nc))) * 2 in
    (L_max <= 0 -> bc = 0) /\ (0 < L_max -> L_power <= L_max -> bc = 3) /\
    (0 < L_max < L_power -> exists n, 0 <= n <= 30 /\ 1073741824 <= L_power * 2 ^ n <= 2147483647 /\ bc = code_gain (Z.shiftr (L_max * 2 ^ n) 16) (Z.shiftr (L_power * 2 ^ n) 16)).
Proof.
  intros Fd Ld Lh Fh. unfold evaluate_ltp_parameters. destruct (max_abs_ok d Fd) as [M1 M2]. set (dm := max_abs d) in *.
  assert (X : exists t, (if dm =? 0 then Ok 0 else do _ <- check (0 <? dm); gsm0610_norm (dm * 65536)) = Ok t /\ let sc := if 6 <? t then 0 else 6 - t in 0 <= sc <= 6 /\ Forall (fun x => -512 <= x <= 512) (map (fun x => Z.shiftr x sc) d)).
  { destruct (Z.eqb_spec dm 0) as [E | E].
    - exists 0. split; [reflexivity|]. cbv zeta. cbn [Z.ltb Z.compare]. split; [lia|]. apply map_Forall. intros x I. destruct (abs_of x dm (Forall_In _ _ _ M2 I) (Forall_In _ _ _ Fd I)). rewrite Z.shiftr_div_pow2 by lia. change (2 ^ (6 - 0)) with 64. apply (div_bound _ _ 512); lia.
    - chk. destruct (norm_top dm ltac:(lia)) as (n & -> & Hn & R). exists n. split; [reflexivity|]. cbv zeta. destruct (Z.ltb_spec 6 n).
      + split; [lia|]. assert (2 ^ 7 <= 2 ^ n) by (apply Z.pow_le_mono_r; lia). change (2 ^ 7) with 128 in *. assert (dm <= 255) by nia. apply map_Forall. intros x I. destruct (abs_of x dm (Forall_In _ _ _ M2 I) (Forall_In _ _ _ Fd I)). rewrite Z.shiftr_0_r. lia.
      + split; [lia|]. apply map_Forall. intros x I. destruct (abs_of x dm (Forall_In _ _ _ M2 I) (Forall_In _ _ _ Fd I)) as [A B]. rewrite Z.shiftr_div_pow2 by lia.
        assert (C : n = 0 \/ n = 1 \/ n = 2 \/ n = 3 \/ n = 4 \/ n = 5 \/ n = 6) by lia. clear - A B C R.
        destruct C as [-> | [-> | [-> | [-> | [-> | [-> | ->]]]]]]; cbn in R; match goal with |- context [_ / ?k] => let v := eval vm_compute in k in change k with v end; apply (div_bound _ _ 512); lia. }
  destruct X as (t & -> & X). cbv zeta in X. cbn [rbind]. set (sc := if 6 <? t then 0 else 6 - t) in *. clearbody sc. destruct X as [Hs Fw]. chk. set (wt := map (fun x => Z.shiftr x sc) d) in *.
  assert (Lw : length wt = 40%nat) by (unfold wt; rewrite map_length; exact Ld).
  destruct (max_cross_ok wt h Fw Lw Lh Fh 81 40 0 40) as (m & Nc & -> & Hm & HN & _ & Hall & Hk); [lia | lia | lia | lia|]. cbn [rbind]. rewrite c32_ok by lia. cbn [rbind]. chk.
  destruct (past_ok h Nc Lh HN Fh) as (-> & Fp & Lp). cbn [rbind]. set (p := from_past h (Z.to_nat Nc)) in *.
  assert (Em : m = Z.max 0 (dot wt p)).
  { destruct Hk as [[-> ->] | Hk]; [|lia]. assert (dot wt p <= 0) by (unfold p; apply Hall; lia). lia. }
  assert (B : Forall (fun x => -16777216 <= x <= 16777216) (map (fun x => Z.shiftr x 3 * Z.shiftr x 3) p)).
  { apply map_Forall. intros x I. pose proof (Forall_In _ _ _ Fp I) as Hx. unfold i16 in Hx. assert (-4096 <= Z.shiftr x 3 <= 4096) by (rewrite Z.shiftr_div_pow2 by lia; change (2 ^ 3) with 8; apply (div_bound _ _ 4096); lia). apply (prod_bound 4096 4096); assumption. }
  pose proof (total_bound 16777216 _ B) as TB. rewrite map_length, Lp in TB. rewrite (sum32_ok 16777216); [|lia | exact B | rewrite map_length, Lp; lia]. cbn [rbind]. rewrite Z.add_0_l. set (pw := total _) in *. rewrite c32_ok by lia. cbn [rbind].
  rewrite Em in *. set (cm := Z.max 0 (dot wt p)) in *. set (L := Z.shiftr (cm * 2) (6 - sc)).
  assert (HL : 0 <= L <= 2147483647).
  { unfold L. rewrite Z.shiftr_div_pow2 by lia. assert (P : 1 <= 2 ^ (6 - sc)) by (change 1 with (2 ^ 0); apply Z.pow_le_mono_r; lia). split; [apply Z.div_pos; lia|]. apply Z.div_le_upper_bound; nia. }
  assert (Hj : forall j, 40 <= j <= 120 -> dot wt (from_past h (Z.to_nat j)) <= cm) by (intros j Hj; apply Hall; lia).
  destruct (Z.leb_spec L 0).
  { exists Nc, 0, sc. split; [reflexivity|]. split; [exact HN|]. split; [lia|]. split; [exact Hs|]. cbv zeta; fold wt; fold p; fold cm; fold L; fold pw. split; [exact Hj|]. split; [auto|]. split; [intros; lia | intros; lia]. }
  destruct (Z.leb_spec (pw * 2) L).
  { exists Nc, 3, sc. split; [reflexivity|]. split; [exact HN|]. split; [lia|]. split; [exact Hs|]. cbv zeta; fold wt; fold p; fold cm; fold L; fold pw. split; [exact Hj|]. split; [intros; lia|]. split; [auto | intros; lia]. }
  destruct (norm_ok (pw * 2) ltac:(lia)) as (n & -> & Hn & R). cbn [rbind]. assert (P : 0 < 2 ^ n) by (apply Z.pow_pos_nonneg; lia).
  rewrite (c32_ok (L * 2 ^ n)) by nia. cbn [rbind]. rewrite c32_ok by lia. cbn [rbind].
  assert (S1 : i16 (Z.shiftr (L * 2 ^ n) 16)) by (rewrite Z.shiftr_div_pow2 by lia; change (2 ^ 16) with 65536; unfold i16; assert (0 <= L * 2 ^ n / 65536) by (apply Z.div_pos; nia); assert (L * 2 ^ n / 65536 < 32768) by (apply Z.div_lt_upper_bound; nia); lia).
  assert (S2 : i16 (Z.shiftr (pw * 2 * 2 ^ n) 16)) by (rewrite Z.shiftr_div_pow2 by lia; change (2 ^ 16) with 65536; unfold i16; assert (0 <= pw * 2 * 2 ^ n / 65536) by (apply Z.div_pos; nia); assert (pw * 2 * 2 ^ n / 65536 < 32768) by (apply Z.div_lt_upper_bound; nia); lia).
  rewrite (s16_id _ S1), (s16_id _ S2).
  exists Nc, (code_gain (Z.shiftr (L * 2 ^ n) 16) (Z.shiftr (pw * 2 * 2 ^ n) 16)), sc. split; [reflexivity|]. split; [exact HN|]. split; [apply code_gain_range|]. split; [exact Hs|]. cbv zeta; fold wt; fold p; fold cm; fold L; fold pw. split; [exact Hj|].
  split; [intros; lia|]. split; [intros; lia|]. intros _. exists n. split; [exact Hn|]. split; [exact R | reflexivity].
Qed.
