From Verif Require Import Base G722_model G722_spec G722_band_proofs.
From Coq Require Import ZifyBool ZifyNat.
Local Open Scope Z_scope.

(** ---- the filters ---- *)
Definition mag (l : list Z) : Z := fold_right (fun v a => Z.abs v + a) 0 l.
Lemma mag_nonneg l : 0 <= mag l. Proof. induction l; cbn [mag fold_right]; [lia|]. fold (mag l). lia. Qed.
Lemma dot_bound M : 0 <= M -> forall y x, Forall (fun v => Z.abs v <= M) x -> Z.abs (dot x y) <= M * mag y.
Proof.
  intros HM. induction y as [|b y IH]; intros x F; [destruct x; cbn; lia|].
  destruct F as [|a x Ha F]; cbn [dot mag fold_right]; fold (mag y); pose proof (mag_nonneg y).
  - assert (0 <= M * (Z.abs b + mag y)) by (apply Z.mul_nonneg_nonneg; lia). lia.
  - specialize (IH x F). pose proof (mul_bound a b M (Z.abs b) Ha ltac:(lia)). rewrite Z.mul_add_distr_l. lia.
Qed.
Lemma mag_skipn n l : mag (skipn n l) <= mag l.
Proof. revert n. induction l as [|v l IH]; intros n; destruct n; cbn [skipn]; try lia. cbn [mag fold_right]. fold (mag l). specialize (IH n). lia. Qed.
Lemma mag_split n l : mag (firstn n l) + mag (skipn n l) = mag l.
Proof.
  revert n. induction l as [|v l IH]; intros n; destruct n; cbn [skipn firstn]; try (cbn; lia). cbn [mag fold_right]. fold (mag l). fold (mag (firstn n l)).
  specialize (IH n). lia.
Qed.
Lemma dot_cut : forall x y, dot x y = dot x (firstn (length x) y).
Proof. induction x as [|a x IH]; intros y; [reflexivity|]. destruct y; cbn [dot length firstn]; [reflexivity|]. rewrite IH. reflexivity. Qed.
(** 6482 is the sum of the coefficients' magnitudes. *)
Lemma circular_ok l y p : audio l -> length l = 12%nat -> mag y = 6482 -> 0 <= p < 12 -> exists v, circular_dot l y p = Ok v /\ Z.abs v <= 32768 * 6482.
Proof.
  intros F L Hy Hp. unfold circular_dot.
  assert (F' : Forall (fun v => Z.abs v <= 32768) l) by (eapply Forall_impl; [|exact F]; cbv beta; unfold sample; intros; lia).
  assert (F1 : Forall (fun v => Z.abs v <= 32768) (skipn (Z.to_nat p) l)) by (rewrite <- (firstn_skipn (Z.to_nat p) l) in F'; apply Forall_app in F'; apply F').
  assert (F2 : Forall (fun v => Z.abs v <= 32768) (firstn (Z.to_nat p) l)) by (rewrite <- (firstn_skipn (Z.to_nat p) l) in F'; apply Forall_app in F'; apply F').
  pose proof (dot_bound 32768 ltac:(lia) (firstn (length (skipn (Z.to_nat p) l)) y) _ F1) as B1. rewrite <- dot_cut, skipn_length, L in B1.
  pose proof (dot_bound 32768 ltac:(lia) (skipn (Z.to_nat (12 - p)) y) _ F2) as B2.
  pose proof (mag_split (Z.to_nat (12 - p)) y) as M. replace (12 - Z.to_nat p)%nat with (Z.to_nat (12 - p)) in B1 by lia.
  pose proof (mag_nonneg (firstn (Z.to_nat (12 - p)) y)). pose proof (mag_nonneg (skipn (Z.to_nat (12 - p)) y)).
  rewrite i32_ok by lia. cbn [rbind]. rewrite i32_ok by lia. cbn [rbind]. rewrite i32_ok by lia.
  eexists. split; [reflexivity|]. lia.
Qed.
Lemma next_ptr_ok p : 0 <= p < 12 -> 0 <= next_ptr p < 12.
Proof. intros H. unfold next_ptr. destruct (Z.leb_spec 12 (p + 1)); lia. Qed.

Record inv (x : ctx) : Prop := {
  v_low : lowinv (low x); v_high : highinv (high x); v_ptr : 0 <= ptr x < 12;
  v_xs : audio (xs x); v_ys : audio (ys x); v_lx : length (xs x) = 12%nat; v_ly : length (ys x) = 12%nat }.
Lemma inv_limits x : inv x -> limits x.
Proof. intros [[[] ? ?] [[] ? ?] ? ? ? ? ?]. unfold limits. auto 10. Qed.
Lemma band_init_inv d : bandinv (band_init d).
Proof. split; cbn; unfold sample, audio, stable; cbn; try lia; repeat constructor; unfold sample; lia. Qed.
Lemma init_inv : inv g722_init.
Proof.
  split; cbn; try lia; try (split; [apply band_init_inv | cbn; lia | cbn; lia]).
  all: unfold audio; repeat constructor; unfold sample; lia.
Qed.
Lemma set_buf_inv x w n : inv x -> inv (set_buf x w n). Proof. intros []. split; auto. Qed.

(** ---- the code of the low and the high band's ---- *)
Definition full (ihigh ilow : Z) : Z := Z.lor (Z.shiftl ihigh 6) ilow.
Definition cut (r : rate) (v : Z) : Z := Z.shiftr v (8 - bps r).
(** the low band value the decoder finds for it *)
Definition level (r : rate) (ilow : Z) : Z :=
  match r with R64 => nth (Z.to_nat ilow) qm6 0 | R56 => nth (Z.to_nat (Z.shiftr ilow 1)) qm5 0 | R48 => nth (Z.to_nat (Z.shiftr ilow 2)) qm4 0 end.
Lemma full_split v : 0 <= v < 256 -> exists h l, v = full h l /\ 0 <= h < 4 /\ 0 <= l < 64 /\ h = Z.shiftr v 6 /\ l = Z.land v 63.
Proof.
  intros H.
  assert (E : all_below_from (Z.to_nat 256) 0 (fun v => (v =? full (Z.shiftr v 6) (Z.land v 63)) && (Z.shiftr v 6 <? 4) && (0 <=? Z.shiftr v 6) && (Z.land v 63 <? 64) && (0 <=? Z.land v 63)) = true)
    by (vm_compute; reflexivity).
  pose proof (sweep 256 _ E v H) as Q. cbv beta in Q. exists (Z.shiftr v 6), (Z.land v 63). lia.
Qed.
Definition ok_split (r : rate) (v : Z) : bool :=
  match split_code r (cut r v) with
  | Ok (h, q, l) => (h =? Z.shiftr v 6) && (q =? level r (Z.land v 63)) && (l =? Z.shiftr (Z.land v 63) 2) && (0 <=? cut r v) && (cut r v <? 2 ^ Z.of_nat (width r))
  | UB => false
  end.
Lemma full_range h l : 0 <= h < 4 -> 0 <= l < 64 -> full h l = 64 * h + l /\ 0 <= full h l < 256.
Proof.
  intros Hh Hl.
  assert (E : all_below_from (Z.to_nat 4) 0 (fun h => all_below_from (Z.to_nat 64) 0 (fun l => full h l =? 64 * h + l)) = true) by (vm_compute; reflexivity).
  pose proof (sweep 4 _ E h Hh) as E2. cbv beta in E2. pose proof (sweep 64 _ E2 l Hl). cbv beta in *. lia.
Qed.
Lemma split_cut r h l : 0 <= h < 4 -> 0 <= l < 64 -> split_code r (cut r (full h l)) = Ok (h, level r l, Z.shiftr l 2) /\ code_ok r (cut r (full h l)).
Proof.
  intros Hh Hl. destruct (full_range h l Hh Hl) as [Ef Rf].
  assert (E : all_below_from (Z.to_nat 256) 0 (ok_split r) = true) by (destruct r; vm_compute; reflexivity).
  pose proof (sweep 256 _ E _ Rf) as Q. unfold ok_split in Q.
  assert (E1 : Z.shiftr (full h l) 6 = h) by (rewrite Ef, shiftr_ge0 by lia; change (2 ^ 6) with 64; Z.div_mod_to_equations; lia).
  assert (E2 : Z.land (full h l) 63 = l) by (rewrite Ef; change 63 with (Z.ones 6); rewrite Z.land_ones by lia; change (2 ^ 6) with 64; Z.div_mod_to_equations; lia).
  rewrite E1, E2 in Q. destruct (split_code r _) as [[[h' q] l']|]; [|discriminate]. unfold code_ok. split; [repeat f_equal; lia | lia].
Qed.
(** Whatever the octet, the parts are in range. *)
Lemma split_any r code : 0 <= code -> exists h q l, split_code r code = Ok (h, q, l) /\ 0 <= h < 4 /\ -32768 <= q <= 32767 /\ 0 <= l < 16.
Proof.
  intros H. unfold split_code. change 3 with (Z.ones 2). rewrite !Z.land_ones by lia.
  pose proof (fun x => Z.mod_pos_bound x (2 ^ 2) ltac:(lia)) as B2. change (2 ^ 2) with 4 in *.
  destruct r.
  - change 15 with (Z.ones 4). rewrite Z.land_ones by lia. pose proof (Z.mod_pos_bound code (2 ^ 4) ltac:(lia)) as B. change (2 ^ 4) with 16 in *.
    destruct (table_nth qm4 (-32768) 32767 (code mod 16) eq_refl ltac:(cbn; lia)) as (q & -> & Hq). cbn [rbind].
    eexists _, _, _. split; [reflexivity|]. split; [apply B2|]. split; [auto|]. lia.
  - change 31 with (Z.ones 5). rewrite Z.land_ones by lia. pose proof (Z.mod_pos_bound code (2 ^ 5) ltac:(lia)) as B. change (2 ^ 5) with 32 in *.
    destruct (table_nth qm5 (-32768) 32767 (code mod 32) eq_refl ltac:(cbn; lia)) as (q & -> & Hq). cbn [rbind].
    eexists _, _, _. split; [reflexivity|]. split; [apply B2|]. split; [auto|]. rewrite shiftr_ge0 by lia. change (2 ^ 1) with 2. Z.div_mod_to_equations; lia.
  - change 63 with (Z.ones 6). rewrite Z.land_ones by lia. pose proof (Z.mod_pos_bound code (2 ^ 6) ltac:(lia)) as B. change (2 ^ 6) with 64 in *.
    destruct (table_nth qm6 (-32768) 32767 (code mod 64) eq_refl ltac:(cbn; lia)) as (q & -> & Hq). cbn [rbind].
    eexists _, _, _. split; [reflexivity|]. split; [apply B2|]. split; [auto|]. rewrite shiftr_ge0 by lia. change (2 ^ 2) with 4. Z.div_mod_to_equations; lia.
Qed.

(** ---- one code decoded ---- *)
(** The bands after a code, alone. *)
Definition step_bands (c : cfg) (l h : band) (ihigh il : Z) : res (band * band) :=
  do l' <- dec_low l il;
  if eight_k c then Ok (l', h) else do (_, h') <- dec_high h ihigh; Ok (l', h').
Lemma double_range v : -16384 <= v <= 16383 -> s16 (Z.shiftl v 1) = 2 * v /\ sample (2 * v).
Proof. intros H. rewrite Z.shiftl_mul_pow2 by lia. change (2 ^ 1) with 2. split; [|unfold sample; lia]. rewrite s16_id by (unfold sample; lia). lia. Qed.
Lemma decode1_ok c x code : inv x -> 0 <= code -> exists out x', decode1 c x code = Ok (out, x') /\ inv x' /\ audio out /\ length out = per_code c /\
  buf x' = buf x /\ nbits x' = nbits x.
Proof.
  intros I Hc. pose proof I as [Il Ih Ip Ix Iy Lx Ly]. unfold decode1.
  destruct (split_any (bits c) code Hc) as (h & q & l & -> & Hh & Hq & Hl). cbn [rbind].
  pose proof (sat15 (sig (low x) + Z.shiftr (det (low x) * q) 15)) as Es.
  set (rlow := saturate15 (sig (low x) + Z.shiftr (det (low x) * q) 15)) in *.
  assert (Rl : -16384 <= rlow <= 16383) by lia. clearbody rlow. clear Es.
  destruct (dec_low_ok (low x) l Il Hl) as (l' & -> & Il'). cbn [rbind].
  assert (Hi : exists rhigh h', (if eight_k c then Ok (0, high x) else dec_high (high x) h) = Ok (rhigh, h') /\ -16384 <= rhigh <= 16383 /\ highinv h').
  { destruct (eight_k c); [exists 0, (high x); split; [reflexivity | split; [lia | auto]] | apply dec_high_ok; auto]. }
  destruct Hi as (rhigh & h' & -> & Rh & Ih'). cbn [rbind]. unfold per_code.
  destruct (itu c); [|destruct (eight_k c)].
  - eexists _, _. split; [reflexivity|]. split; [split; auto|]. destruct (double_range rlow Rl) as [-> ?], (double_range rhigh Rh) as [-> ?].
    split; [repeat (constructor; [assumption|]); constructor|]. repeat split; reflexivity.
  - eexists _, _. split; [reflexivity|]. split; [split; auto|]. destruct (double_range rlow Rl) as [-> ?].
    split; [repeat (constructor; [assumption|]); constructor|]. repeat split; reflexivity.
  - rewrite !aset_ok by lia. cbn [rbind]. rewrite !s16_id by (unfold sample; lia).
    assert (A1 : audio (upd (xs x) (Z.to_nat (ptr x)) (rlow + rhigh))) by (apply upd_forall; [auto | unfold sample; lia]).
    assert (A2 : audio (upd (ys x) (Z.to_nat (ptr x)) (rlow - rhigh))).
    { apply upd_forall; [auto|]. unfold sample; lia. }
    assert (L1 : length (upd (xs x) (Z.to_nat (ptr x)) (rlow + rhigh)) = 12%nat) by (rewrite upd_length; auto).
    assert (L2 : length (upd (ys x) (Z.to_nat (ptr x)) (rlow - rhigh)) = 12%nat) by (rewrite upd_length; auto).
    pose proof (next_ptr_ok (ptr x) Ip) as Rp.
    destruct (circular_ok _ qmf_rev _ A2 L2 eq_refl Rp) as (u & -> & Bu). cbn [rbind].
    destruct (circular_ok _ qmf_fwd _ A1 L1 eq_refl Rp) as (v & -> & Bv). cbn [rbind].
    eexists _, _. split; [reflexivity|]. split; [split; auto|]. split; [repeat (constructor; [apply sat16_range|]); constructor|]. repeat split; reflexivity.
Qed.
Lemma decode1_bands c x code h q l : split_code (bits c) code = Ok (h, q, l) -> forall out x', decode1 c x code = Ok (out, x') ->
  step_bands c (low x) (high x) h l = Ok (low x', high x').
Proof.
  intros E out x'. unfold decode1, step_bands. rewrite E. cbn [rbind]. destruct (dec_low (low x) l) as [l'|]; cbn [rbind]; [|discriminate].
  destruct (eight_k c).
  - cbn [rbind]. destruct (itu c); intros X; inversion X; subst; reflexivity.
  - destruct (dec_high (high x) h) as [[r h']|]; cbn [rbind]; [|discriminate].
    destruct (itu c); [intros X; inversion X; subst; reflexivity|].
    destruct (aset (xs x) _ _) as [xl|]; cbn [rbind]; [|discriminate]. destruct (aset (ys x) _ _) as [yl|]; cbn [rbind]; [|discriminate].
    destruct (circular_dot yl _ _) as [u|]; cbn [rbind]; [|discriminate]. destruct (circular_dot xl _ _) as [v|]; cbn [rbind]; [|discriminate].
    intros X; inversion X; subst; reflexivity.
Qed.
Lemma decode1_set_buf c x code w n : decode1 c (set_buf x w n) code =
  match decode1 c x code with Ok (o, x') => Ok (o, set_buf x' w n) | UB => UB end.
Proof.
  unfold decode1. destruct (split_code (bits c) code) as [[[h q] l]|]; cbn [rbind]; [|reflexivity].
  cbn [low high xs ys ptr buf nbits set_buf]. destruct (dec_low (low x) l) as [l'|]; cbn [rbind]; [|reflexivity].
  destruct (if eight_k c then Ok (0, high x) else dec_high (high x) h) as [[r h']|]; cbn [rbind]; [|reflexivity].
  destruct (itu c); [reflexivity|]. destruct (eight_k c); [reflexivity|].
  destruct (aset (xs x) _ _) as [xl|]; cbn [rbind]; [|reflexivity]. destruct (aset (ys x) _ _) as [yl|]; cbn [rbind]; [|reflexivity].
  destruct (circular_dot yl _ _) as [u|]; cbn [rbind]; [|reflexivity]. destruct (circular_dot xl _ _) as [v|]; reflexivity.
Qed.

(** ---- one code encoded ---- *)
Lemma whole_cons2 c a b t : two_bands c = true -> whole c (a :: b :: t) -> whole c t.
Proof. intros H W _. destruct (W H) as [k Hk]. cbn [length] in Hk. exists (k - 1)%nat. lia. Qed.
Lemma split_bands_ok c x amp : inv x -> audio amp -> whole c amp -> amp <> [] ->
  exists xl xh x' rest, split_bands c x amp = Ok (xl, xh, x', rest) /\ inv x' /\ sample xl /\ sample xh /\ low x' = low x /\ high x' = high x /\
    buf x' = buf x /\ nbits x' = nbits x /\ audio rest /\ whole c rest /\ n_codes c amp = S (n_codes c rest) /\ (length rest < length amp)%nat.
Proof.
  intros I F W Hn. pose proof I as [Il Ih Ip Ix Iy Lx Ly]. destruct F as [|v t Hv F]; [congruence|]. cbn [split_bands].
  assert (Hs : sample (Z.shiftr v 1)) by (unfold sample in *; rewrite shiftr_ge0 by lia; change (2 ^ 1) with 2; Z.div_mod_to_equations; lia).
  assert (H0 : sample 0) by (unfold sample; lia).
  unfold n_codes, whole in *. destruct (itu c) eqn:Ei.
  { assert (E : two_bands c = false) by (unfold two_bands; rewrite Ei; reflexivity). rewrite E in *.
    eexists _, _, x, t. split; [reflexivity|]. repeat (split; [auto; try congruence|]). cbn [length]. lia. }
  destruct (eight_k c) eqn:Ek.
  { assert (E : two_bands c = false) by (unfold two_bands; rewrite Ek; apply andb_false_r). rewrite E in *.
    eexists _, _, x, t. split; [reflexivity|]. repeat (split; [auto; try congruence|]). cbn [length]. lia. }
  assert (E : two_bands c = true) by (unfold two_bands; rewrite Ei, Ek; reflexivity). rewrite E in *.
  destruct F as [|w t Hw F]; [destruct (W eq_refl) as [k Hk]; cbn [length] in Hk; lia|].
  rewrite !aset_ok by lia. cbn [rbind].
  assert (A1 : audio (upd (xs x) (Z.to_nat (ptr x)) v)) by (apply upd_forall; auto).
  assert (A2 : audio (upd (ys x) (Z.to_nat (ptr x)) w)) by (apply upd_forall; auto).
  assert (L1 : length (upd (xs x) (Z.to_nat (ptr x)) v) = 12%nat) by (rewrite upd_length; auto).
  assert (L2 : length (upd (ys x) (Z.to_nat (ptr x)) w) = 12%nat) by (rewrite upd_length; auto).
  pose proof (next_ptr_ok (ptr x) Ip) as Rp.
  destruct (circular_ok _ qmf_fwd _ A1 L1 eq_refl Rp) as (u & -> & Bu). cbn [rbind].
  destruct (circular_ok _ qmf_rev _ A2 L2 eq_refl Rp) as (z & -> & Bz). cbn [rbind].
  rewrite !i32_ok by lia. cbn [rbind].
  eexists _, _, _, t. split; [reflexivity|]. split; [split; auto|]. split; [apply s16_range|]. split; [apply s16_range|].
  repeat (split; [reflexivity|]). split; [auto|]. split; [intros _; exact (whole_cons2 c v w t E (fun _ => W eq_refl) E)|].
  split; [|cbn [length]; lia]. cbn [length]. reflexivity.
Qed.
(** What the encoder does to the bands, given the samples of the bands. *)
Lemma encode1_ok c x amp : inv x -> audio amp -> whole c amp -> amp <> [] ->
  exists code x' rest ih il, encode1 c x amp = Ok (code, x', rest) /\ inv x' /\ code = cut (bits c) (full ih il) /\ 0 <= ih < 4 /\ 4 <= il < 64 /\
    (eight_k c = true -> ih = 3) /\
    step_bands c (low x) (high x) ih (Z.shiftr il 2) = Ok (low x', high x') /\ buf x' = buf x /\ nbits x' = nbits x /\
    audio rest /\ whole c rest /\ n_codes c amp = S (n_codes c rest) /\ (length rest < length amp)%nat.
Proof.
  intros I F W Hn. unfold encode1.
  destruct (split_bands_ok c x amp I F W Hn) as (xl & xh & x' & rest & -> & I' & Sl & Sh & <- & <- & <- & <- & F' & W' & N & L). cbn [rbind].
  pose proof I' as [Il Ih Ip Ix Iy Lx Ly].
  destruct (enc_low_ok (low x') xl Il) as (i & l' & Hi & _ & _ & -> & Dl). cbn [rbind].
  pose proof (low_code_range (sat_sub16 xl (sig (low x')) <? 0) i Hi) as Rl. set (il := low_code _ i) in *. clearbody il.
  assert (Rr : 0 <= Z.shiftr il 2 < 16) by (rewrite shiftr_ge0 by lia; change (2 ^ 2) with 4; Z.div_mod_to_equations; lia).
  destruct (dec_low_ok (low x') _ Il Rr) as (l2 & E & Il'). rewrite Dl in E. inversion E; subst l2.
  destruct (eight_k c) eqn:Ek.
  - cbn [rbind]. eexists _, _, rest, 3, il. split; [reflexivity|]. split; [split; auto|]. split; [reflexivity|].
    split; [lia|]. split; [lia|]. split; [auto|]. split; [unfold step_bands; rewrite Dl, Ek; reflexivity|]. auto 10.
  - destruct (enc_high_ok (high x') xh Ih) as (r & h' & E1 & Dh). rewrite E1. cbn [rbind].
    set (ih := high_code _ _) in *. assert (Rh : 0 <= ih < 4) by (unfold ih, high_code; destruct (_ <? _), (_ <=? _); lia). clearbody ih.
    destruct (dec_high_ok (high x') ih Ih Rh) as (r2 & h2 & E2 & _ & Ih'). rewrite Dh in E2. inversion E2; subst r2 h2.
    eexists _, _, rest, ih, il. split; [reflexivity|]. split; [split; auto|]. split; [reflexivity|].
    split; [lia|]. split; [lia|]. split; [congruence|]. split; [unfold step_bands; rewrite Dl, Ek; cbn [rbind]; rewrite Dh; reflexivity|]. auto 10.
Qed.
Lemma encode1_set_buf c x amp w n : encode1 c (set_buf x w n) amp =
  match encode1 c x amp with Ok (o, x', r) => Ok (o, set_buf x' w n, r) | UB => UB end.
Proof.
  unfold encode1. assert (E : split_bands c (set_buf x w n) amp = match split_bands c x amp with Ok (a, b, y, r) => Ok (a, b, set_buf y w n, r) | UB => UB end).
  { unfold split_bands. destruct amp as [|v t]; [reflexivity|]. destruct (itu c); [reflexivity|]. destruct (eight_k c); [reflexivity|].
    destruct t as [|v' t]; [reflexivity|]. cbn [low high xs ys ptr buf nbits set_buf].
    destruct (aset (xs x) _ _) as [xl|]; cbn [rbind]; [|reflexivity]. destruct (aset (ys x) _ _) as [yl|]; cbn [rbind]; [|reflexivity].
    destruct (circular_dot xl _ _) as [u|]; cbn [rbind]; [|reflexivity]. destruct (circular_dot yl _ _) as [z|]; cbn [rbind]; [|reflexivity].
    destruct (i32 (z + u)) as [p|]; cbn [rbind]; [|reflexivity]. destruct (i32 (z - u)) as [q|]; reflexivity. }
  rewrite E. destruct (split_bands c x amp) as [[[[a b] y] r]|]; cbn [rbind]; [|reflexivity]. cbn [low high xs ys ptr buf nbits set_buf].
  destruct (enc_low (low y) a) as [[il l']|]; cbn [rbind]; [|reflexivity].
  destruct (eight_k c); [reflexivity|]. destruct (enc_high (high y) b) as [[ih h']|]; reflexivity.
Qed.
