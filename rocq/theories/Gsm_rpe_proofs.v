(** GSM 06.10: the regular pulses, and the encoder and the decoder of a frame. *)
From Verif Require Import Base Gsm_model Gsm_spec Gsm_arith_proofs Gsm_enc_proofs.
Local Open Scope Z_scope.

Lemma sum32_abs l : forall a, Z.abs a + total (map Z.abs l) <= 2147483647 -> sum32 a l = Ok (a + total l).
Proof.
  assert (N : forall t, 0 <= total (map Z.abs t)) by (induction t; cbn [map total]; lia).
  induction l as [|x t IH]; intros a H; cbn [sum32 total map] in *; [rewrite Z.add_0_r; reflexivity|]. pose proof (N t). rewrite c32_ok by lia. cbn [rbind]. rewrite IH by lia. f_equal. lia.
Qed.
Lemma weighted M h : 0 <= M -> forall w, Forall (fun x => -M <= x <= M) w -> total (map Z.abs (map2 Z.mul w h)) <= M * total (map Z.abs h).
Proof.
  intros HM. induction h as [|y h IH]; intros w F; [destruct w; cbn; lia|]. assert (N : forall t, 0 <= total (map Z.abs t)) by (induction t; cbn [map total]; lia). destruct w as [|x w]; [cbn [map2 map total]; pose proof (N h); nia|].
  apply Forall_cons_iff in F as [Hx F]. cbn [map2 map total]. specialize (IH w F). rewrite Z.abs_mul. nia.
Qed.
Lemma weighting_ok e : Forall i16 e -> exists x, weighting_filter e = Ok x /\ Forall i16 x /\ length x = 40%nat.
Proof.
  intros F. unfold weighting_filter. cbv zeta. set (wt := repeat 0 5 ++ e ++ repeat 0 5).
  assert (Fw : Forall (fun x => -32768 <= x <= 32768) wt).
  { assert (Z0 : Forall (fun x => -32768 <= x <= 32768) (repeat 0 5)) by (repeat constructor; lia). unfold wt. apply Forall_app. split; [exact Z0|]. apply Forall_app. split; [|exact Z0]. eapply Forall_impl; [|exact F]. intros a H. unfold i16 in H. lia. }
  destruct (res_map_ok (fun k => do r <- sum32 4096 (map2 Z.mul (skipn k wt) gsm_H); Ok (saturate16 (Z.shiftr r 13))) i16 (seq 0 40)) as (x & E & Fx & L).
  { intros k _. rewrite sum32_abs; [eexists; split; [reflexivity | apply saturate16_i16]|]. pose proof (weighted 32768 gsm_H ltac:(lia) (skipn k wt) (Forall_skipn' _ _ _ Fw)) as B. change (total (map Z.abs gsm_H)) with 24798 in B. lia. }
  exists x. rewrite E. rewrite seq_length in L. auto.
Qed.

Lemma sq4_range x : i16 x -> 0 <= sq4 x <= 67108864.
Proof. intros H. unfold sq4. assert (-8192 <= Z.shiftr x 2 <= 8192) by (rewrite Z.shiftr_div_pow2 by lia; change (2 ^ 2) with 4; unfold i16 in H; apply (div_bound _ _ 8192); lia). pose proof (prod_bound 8192 8192 _ _ H0 H0). nia. Qed.
Definition en (x : list Z) (is : list nat) : Z := total (map (fun i => sq4 (nth i x 0)) is).
Lemma energy_ok x is a : Forall i16 x -> (length is <= 13)%nat -> 0 <= a -> a + 67108864 * Z.of_nat (length is) <= 1073741823 -> energy x is a = Ok (a + en x is) /\ 0 <= en x is <= 67108864 * Z.of_nat (length is).
Proof.
  intros F L Ha Hb. unfold energy, en. assert (B : forall i, 0 <= sq4 (nth i x 0) <= 67108864) by (intros i; apply sq4_range; destruct (nth_in_or_default i x 0) as [I | ->]; [exact (Forall_In _ _ _ F I) | unfold i16; lia]).
  assert (T : 0 <= total (map (fun i => sq4 (nth i x 0)) is) <= 67108864 * Z.of_nat (length is)).
  { clear - B. induction is as [|i t IH]; cbn [map total length]; [lia|]. specialize (B i). lia. }
  split; [|exact T]. rewrite (sum32_ok 67108864); [reflexivity | lia | | rewrite map_length; lia].
  apply map_Forall. intros i _. cbv zeta. specialize (B i). unfold sq4 in B. lia.
Qed.
Lemma grid_ok x : Forall i16 x -> length x = 40%nat -> exists Mc, rpe_grid_selection x = Ok (Mc, on_grid x (Z.to_nat Mc)) /\ 0 <= Mc <= 3 /\
  forall m, (m <= 3)%nat -> total (map sq4 (on_grid x m)) <= total (map sq4 (on_grid x (Z.to_nat Mc))).
Proof.
  intros F L. unfold rpe_grid_selection.
  destruct (energy_ok x (tl (grid 0)) 0 F) as [E0 R0]; [cbn; lia | lia | cbn; lia|]. rewrite E0. cbn [rbind]. rewrite Z.add_0_l. change (length (tl (grid 0))) with 12%nat in R0.
  destruct (energy_ok x [0%nat] (en x (tl (grid 0))) F) as [E1 R1]; [cbn; lia | lia | cbn [length]; lia|]. rewrite E1. cbn [rbind]. cbn [length] in R1. rewrite c32_ok by lia. cbn [rbind].
  destruct (energy_ok x (grid 1) 0 F) as [E2 R2]; [cbn; lia | lia | cbn; lia|]. rewrite E2. cbn [rbind]. rewrite Z.add_0_l. change (length (grid 1)) with 13%nat in R2. rewrite c32_ok by lia. cbn [rbind].
  destruct (energy_ok x (grid 2) 0 F) as [E3 R3]; [cbn; lia | lia | cbn; lia|]. rewrite E3. rewrite Z.add_0_l. change (length (grid 2)) with 13%nat in R3.
  destruct (energy_ok x [39%nat] (en x (tl (grid 0))) F) as [E4 R4]; [cbn; lia | lia | cbn [length]; lia|]. rewrite E4. cbn [length] in R4.
  assert (G : forall m, map sq4 (on_grid x m) = map (fun i => sq4 (nth i x 0)) (grid m)) by (intros m; unfold on_grid, grid; rewrite !map_map; reflexivity).
  assert (T0 : total (map sq4 (on_grid x 0)) = en x (tl (grid 0)) + en x [0%nat]) by (rewrite G; unfold en; rewrite Z.add_comm, <- total_app, <- map_app; reflexivity).
  assert (T1 : total (map sq4 (on_grid x 1)) = en x (grid 1)) by (rewrite G; reflexivity).
  assert (T2 : total (map sq4 (on_grid x 2)) = en x (grid 2)) by (rewrite G; reflexivity).
  assert (T3 : total (map sq4 (on_grid x 3)) = en x (tl (grid 0)) + en x [39%nat]).
  { rewrite G. unfold en. rewrite <- total_app, <- map_app. reflexivity. }
  assert (X : forall Mc E, 0 <= Mc <= 3 -> total (map sq4 (on_grid x (Z.to_nat Mc))) = E -> en x (tl (grid 0)) + en x [0%nat] <= E -> en x (grid 1) <= E -> en x (grid 2) <= E -> en x (tl (grid 0)) + en x [39%nat] <= E -> forall m, (m <= 3)%nat -> total (map sq4 (on_grid x m)) <= total (map sq4 (on_grid x (Z.to_nat Mc)))).
  { intros Mc E HM -> B0 B1 B2 B3 m Hm. do 4 (destruct m as [|m]; [lia|]). lia. }
  clear G E0 E1 E2 E3 E4.
  destruct (Z.ltb_spec ((en x (tl (grid 0)) + en x [0%nat]) * 2) (en x (grid 1) * 2)).
  - cbn [rbind]. rewrite c32_ok by lia. cbn [rbind]. destruct (Z.ltb_spec (en x (grid 1) * 2) (en x (grid 2) * 2)); cbn [rbind]; rewrite c32_ok by lia; cbn [rbind].
    + destruct (Z.ltb_spec (en x (grid 2) * 2) ((en x (tl (grid 0)) + en x [39%nat]) * 2)); [exists 3 | exists 2]; (split; [unfold on_grid, grid; rewrite map_map; reflexivity|]; split; [lia|]); [apply (X 3 (en x (tl (grid 0)) + en x [39%nat])) | apply (X 2 (en x (grid 2)))]; try assumption; lia.
    + destruct (Z.ltb_spec (en x (grid 1) * 2) ((en x (tl (grid 0)) + en x [39%nat]) * 2)); [exists 3 | exists 1]; (split; [unfold on_grid, grid; rewrite map_map; reflexivity|]; split; [lia|]); [apply (X 3 (en x (tl (grid 0)) + en x [39%nat])) | apply (X 1 (en x (grid 1)))]; try assumption; lia.
  - cbn [rbind]. rewrite c32_ok by lia. cbn [rbind]. destruct (Z.ltb_spec ((en x (tl (grid 0)) + en x [0%nat]) * 2) (en x (grid 2) * 2)); cbn [rbind]; rewrite c32_ok by lia; cbn [rbind].
    + destruct (Z.ltb_spec (en x (grid 2) * 2) ((en x (tl (grid 0)) + en x [39%nat]) * 2)); [exists 3 | exists 2]; (split; [unfold on_grid, grid; rewrite map_map; reflexivity|]; split; [lia|]); [apply (X 3 (en x (tl (grid 0)) + en x [39%nat])) | apply (X 2 (en x (grid 2)))]; try assumption; lia.
    + destruct (Z.ltb_spec ((en x (tl (grid 0)) + en x [0%nat]) * 2) ((en x (tl (grid 0)) + en x [39%nat]) * 2)); [exists 3 | exists 0]; (split; [unfold on_grid, grid; rewrite map_map; reflexivity|]; split; [lia|]); [apply (X 3 (en x (tl (grid 0)) + en x [39%nat])) | apply (X 0 (en x (tl (grid 0)) + en x [0%nat]))]; try assumption; lia.
Qed.
Lemma on_grid_ok x m : Forall i16 x -> Forall i16 (on_grid x m) /\ length (on_grid x m) = 13%nat.
Proof. intros F. unfold on_grid. split; [|reflexivity]. apply map_Forall. intros i _. destruct (nth_in_or_default (m + 3 * i) x 0) as [I | ->]; [exact (Forall_In _ _ _ F I) | unfold i16; lia]. Qed.

(** ---- the quantiser ---- *)
(** the largest error for each size of block *)
Definition errors : list Z := [4; 8; 12; 16; 20; 24; 28; 32; 36; 40; 44; 48; 52; 56; 60; 64; 72; 80; 88; 96; 104; 112; 120; 128; 144; 160; 176; 192; 208; 224; 240; 256; 288; 320; 352; 384; 416; 448; 480; 512; 576; 640; 704; 768; 832; 896; 960; 1024; 1152; 1280; 1408; 1536; 1664; 1792; 1921; 2049; 2304; 2560; 2816; 3072; 3328; 3584; 3841; 4097].
Definition cell (temp1 temp3 t G W k : Z) : bool :=
  match decode_x t temp1 temp3 k with Ok y => (G * (y - W - 1) <? (k - 4) * 134217728) && ((k - 3) * 134217728 <=? G * (y + W + 1)) | UB => false end.
Definition class (c : Z) : bool :=
  match xmaxc_to_exp_mant c with
  | Ok (e, m) =>
      match aget NRFAC m, aget FAC m with
      | Ok t2, Ok t => (0 <=? 6 - e) && (6 - e <? 16) && (0 <? t2) && (t2 <? 32768) && forallb (cell (sat_sub16 6 e) (gsm_asl 1 (sat_sub16 (sat_sub16 6 e) 1)) t (2 ^ (6 - e) * t2) (nth (Z.to_nat c) errors 0)) [0; 1; 2; 3; 4; 5; 6; 7]
      | _, _ => false
      end
  | UB => false
  end.
Lemma class_all c : 0 <= c < 64 -> class c = true.
Proof. apply sweep. vm_compute. reflexivity. Qed.
Definition block (xmax : Z) : bool :=
  match code_xmax xmax with
  | Ok c =>
      match xmaxc_to_exp_mant c with
      | Ok (e, m) =>
          match aget NRFAC m with
          | Ok t2 => (0 <=? c) && (c <? 64) && (xmax * 2 ^ (6 - e) <=? 32767) && (xmax * (2 ^ (6 - e) * t2) <? 536870912) && (64 * nth (Z.to_nat c) errors 0 <=? 9 * xmax + 256)
          | UB => false
          end
      | UB => false
      end
  | UB => false
  end.
Lemma block_all xmax : 0 <= xmax < 32768 -> block xmax = true.
Proof. apply sweep. vm_compute. reflexivity. Qed.

Lemma block_ok xmax : 0 <= xmax <= 32767 -> exists c e m t2, code_xmax xmax = Ok c /\ xmaxc_to_exp_mant c = Ok (e, m) /\ aget NRFAC m = Ok t2 /\ 0 <= c < 64 /\ 0 <= 6 - e < 16 /\ 0 < t2 < 32768 /\
  xmax * 2 ^ (6 - e) <= 32767 /\ xmax * (2 ^ (6 - e) * t2) < 536870912 /\ 64 * nth (Z.to_nat c) errors 0 <= 9 * xmax + 256.
Proof.
  intros H. pose proof (block_all xmax ltac:(lia)) as B. unfold block in B. destruct (code_xmax xmax) as [c|]; [|discriminate]. destruct (xmaxc_to_exp_mant c) as [[e m]|] eqn:E; [|discriminate]. destruct (aget NRFAC m) as [t2|] eqn:E2; [|discriminate].
  rewrite !andb_true_iff, !Z.leb_le, !Z.ltb_lt in B. destruct B as ((((B1 & B2) & B3) & B4) & B5). pose proof (class_all c ltac:(lia)) as K. unfold class in K. rewrite E, E2 in K. destruct (aget FAC m) as [t|]; [|discriminate].
  rewrite !andb_true_iff, !Z.leb_le, !Z.ltb_lt in K. exists c, e, m, t2. repeat split; try reflexivity; try assumption; lia.
Qed.
(** the decoded pulses *)
Lemma decode_class c xs : 0 <= c < 64 -> Forall (fun x => 0 <= x <= 7) xs -> exists e m r, xmaxc_to_exp_mant c = Ok (e, m) /\ apcm_inverse_quantization xs m e = Ok r /\ Forall i16 r /\ length r = length xs.
Proof.
  intros H F. pose proof (class_all c H) as K. unfold class in K. destruct (xmaxc_to_exp_mant c) as [[e m]|]; [|discriminate]. destruct (aget NRFAC m) as [t2|]; [|discriminate]. destruct (aget FAC m) as [t|] eqn:E; [|discriminate]. clear K.
  exists e, m. unfold apcm_inverse_quantization. rewrite E. cbn [rbind].
  destruct (res_map_ok (decode_x t (sat_sub16 6 e) (gsm_asl 1 (sat_sub16 (sat_sub16 6 e) 1))) i16 xs) as (r & Er & Fr & Lr).
  { intros x I. pose proof (Forall_In _ _ _ F I) as Hx. cbn beta in Hx. unfold decode_x. chk. chk. eexists. split; [reflexivity | apply gsm_asr_i16]. }
  exists r. split; [reflexivity|]. split; [exact Er|]. split; assumption.
Qed.
Lemma code_x_eq t1 t2 x : 0 <= t1 < 16 -> 0 < t2 < 32768 -> i16 (x * 2 ^ t1) -> code_x t1 t2 x = x * (2 ^ t1 * t2) / 134217728 + 4.
Proof.
  intros H1 H2 H3. unfold code_x. rewrite (s16_id _ H3). unfold sat_mul16. unfold i16 in H3. set (y := x * 2 ^ t1) in *. replace (x * (2 ^ t1 * t2)) with (y * t2) by (unfold y; ring). clearbody y.
  assert (B : -1073741824 < y * t2 < 1073741824) by nia. destruct (Z.eqb_spec (y * t2) 1073741824) as [E | _]; [lia|].
  rewrite !Z.shiftr_div_pow2 by lia. change (2 ^ 15) with 32768. rewrite s16_id.
  - rewrite Z.div_div by lia. reflexivity.
  - unfold i16. change 32767 with (32768 - 1). assert (-32768 <= y * t2 / 32768) by (apply Z.div_le_lower_bound; lia). assert (y * t2 / 32768 < 32768) by (apply Z.div_lt_upper_bound; lia). lia.
Qed.
Lemma cell_ok c e m t2 t k x : 0 <= c < 64 -> xmaxc_to_exp_mant c = Ok (e, m) -> aget NRFAC m = Ok t2 -> aget FAC m = Ok t -> 0 <= k <= 7 -> (k - 4) * 134217728 <= x * (2 ^ (6 - e) * t2) < (k - 3) * 134217728 ->
  exists y, decode_x t (sat_sub16 6 e) (gsm_asl 1 (sat_sub16 (sat_sub16 6 e) 1)) k = Ok y /\ i16 y /\ Z.abs (x - y) <= nth (Z.to_nat c) errors 0.
Proof.
  intros Hc E E2 E3 Hk Hx. pose proof (class_all c Hc) as K. unfold class in K. rewrite E, E2, E3 in K. rewrite !andb_true_iff, !Z.leb_le, !Z.ltb_lt in K. destruct K as ((((K1 & K2) & K3) & K4) & K5).
  rewrite forallb_forall in K5. specialize (K5 k). unfold cell in K5. destruct (decode_x _ _ _ k) as [y|] eqn:D.
  2:{ assert (false = true) by (apply K5; cbn; lia). discriminate. }
  exists y. split; [reflexivity|]. split.
  - unfold decode_x in D. destruct (check _) in D; [|discriminate]. cbn [rbind] in D. destruct (check _) in D; [|discriminate]. cbn [rbind] in D. apply (f_equal (fun r => match r with Ok y => y | UB => 0 end)) in D. cbv beta iota in D. subst y. apply gsm_asr_i16.
  - rewrite andb_true_iff, Z.leb_le, Z.ltb_lt in K5. destruct K5 as [A B]; [cbn; lia|]. assert (P : 0 < 2 ^ (6 - e)) by (apply Z.pow_pos_nonneg; lia). set (G := 2 ^ (6 - e) * t2) in *. set (W := nth _ errors 0) in *. assert (PG : 0 < G) by (unfold G; nia). clearbody G W. clear - A B Hx PG.
    assert (~ x <= y - W - 1) by (intros C; assert (G * x <= G * (y - W - 1)) by (apply Z.mul_le_mono_nonneg_l; lia); lia).
    assert (~ y + W + 1 <= x) by (intros C; assert (G * (y + W + 1) <= G * x) by (apply Z.mul_le_mono_nonneg_l; lia); lia). lia.
Qed.
Lemma F2_length {A B} (R : A -> B -> Prop) l r : Forall2 R l r -> length l = length r.
Proof. induction 1; cbn; congruence. Qed.
Lemma apcm_ok xM : Forall i16 xM -> exists xMc mant exp xmaxc xMp, apcm_quantization xM = Ok (xMc, mant, exp, xmaxc) /\ 0 <= xmaxc < 64 /\ Forall (fun x => 0 <= x <= 7) xMc /\ length xMc = length xM /\
  xmaxc_to_exp_mant xmaxc = Ok (exp, mant) /\ apcm_inverse_quantization xMc mant exp = Ok xMp /\ Forall i16 xMp /\ Forall2 (fun x y => 64 * Z.abs (x - y) <= 9 * max_abs xM + 256) xM xMp.
Proof.
  intros F. destruct (max_abs_ok xM F) as [M1 M2]. unfold apcm_quantization. set (X := max_abs xM) in *. clearbody X. destruct (block_ok X M1) as (c & e & m & t2 & E & E1 & E2 & Hc & He & Ht & B1 & B2 & B3).
  rewrite E. cbn [rbind]. rewrite E1. cbn [rbind]. rewrite E2. cbn [rbind]. chk. set (G := 2 ^ (6 - e) * t2) in *. assert (P : 0 < 2 ^ (6 - e)) by (apply Z.pow_pos_nonneg; lia). assert (PG : 0 < G) by (unfold G; nia).
  assert (C : forall x, In x xM -> let k := code_x (6 - e) t2 x in 0 <= k <= 7 /\ (k - 4) * 134217728 <= x * G < (k - 3) * 134217728).
  { intros x I. cbv zeta. pose proof (Forall_In _ _ _ F I) as Hx. pose proof (Forall_In _ _ _ M2 I) as Hm. cbn beta in Hm. destruct (abs_of x X Hm Hx) as [Hb Hs].
    assert (R : i16 (x * 2 ^ (6 - e)) /\ -536870912 <= x * G < 536870912).
    { destruct (Z.eq_dec x (- X - 1)) as [Ex | N].
      - specialize (Hs Ex). assert (x = -32768) by lia. assert (2 ^ (6 - e) = 1) by nia. assert (t2 <= 16384). { subst X. unfold G in B2. rewrite H0 in B2. lia. } unfold G. rewrite H0. unfold i16. lia.
      - unfold i16. split; [nia|]. assert (- X <= x <= X) by lia. nia. }
    destruct R as [R1 R2]. rewrite (code_x_eq _ _ _ He Ht R1). fold G. pose proof (Z.div_mod (x * G) 134217728 ltac:(lia)). pose proof (Z.mod_pos_bound (x * G) 134217728 ltac:(lia)).
    set (q := x * G / 134217728) in *. set (r := (x * G) mod 134217728) in *. clearbody q r. split; [lia|]. lia. }
  assert (Fk : Forall (fun x => 0 <= x <= 7) (map (code_x (6 - e) t2) xM)) by (apply map_Forall; intros x I; apply (C x I)).
  destruct (decode_class c _ Hc Fk) as (e' & m' & r & E3 & E4 & Fr & Lr). rewrite E1 in E3. assert (e' = e) by (apply (f_equal (fun r => match r with Ok (y, _) => y | UB => 0 end)) in E3; symmetry; exact E3). assert (m' = m) by (apply (f_equal (fun r => match r with Ok (_, y) => y | UB => 0 end)) in E3; symmetry; exact E3). subst e' m'.
  exists (map (code_x (6 - e) t2) xM), m, e, c, r. split; [reflexivity|]. split; [exact Hc|]. split; [exact Fk|]. split; [apply map_length|]. split; [exact E1|]. split; [exact E4|]. split; [exact Fr|].
  unfold apcm_inverse_quantization in E4. destruct (aget FAC m) as [t|] eqn:E5; [|discriminate]. cbn [rbind] in E4. clear - C E4 Hc E1 E2 E5 B3 G. revert r E4. induction xM as [|x l IH]; intros r E4.
  - cbn in E4. apply (f_equal (fun r => match r with Ok y => y | UB => [] end)) in E4. cbv beta iota in E4. subst r. constructor.
  - destruct (C x (or_introl eq_refl)) as [Hk Hx]. destruct (cell_ok c e m t2 t _ x Hc E1 E2 E5 Hk Hx) as (y & Ey & _ & Hy). cbn [map res_map] in E4. rewrite Ey in E4. cbn [rbind] in E4. destruct (res_map _ (map _ l)) as [r'|] eqn:Er; [|discriminate]. cbn [rbind] in E4.
    apply (f_equal (fun r => match r with Ok y => y | UB => [] end)) in E4. cbv beta iota in E4. subst r. constructor; [lia|]. apply IH; [|reflexivity]. intros z I. apply C. right. exact I.
Qed.

(** ---- the pulses of a subframe ---- *)
Lemma positioning_ok Mc xMp : 0 <= Mc <= 3 -> length xMp = 13%nat -> Forall i16 xMp -> exists e, rpe_grid_positioning Mc xMp = Ok e /\ length e = 40%nat /\ Forall i16 e.
Proof.
  intros H L F. unfold rpe_grid_positioning. chk. do 13 (destruct xMp as [|? xMp]; [discriminate|]). destruct xMp; [|discriminate]. eexists. split; [reflexivity|]. repeat match goal with H : Forall i16 (_ :: _) |- _ => apply Forall_cons_iff in H as [? H] end.
  assert (Z0 : i16 0) by (unfold i16; lia). assert (C : Mc = 0 \/ Mc = 1 \/ Mc = 2 \/ Mc = 3) by lia. destruct C as [-> | [-> | [-> | ->]]]; cbn; (split; [reflexivity|]); repeat (constructor; [assumption|]); constructor.
Qed.
Definition pulses_ok (xmaxc Mc : Z) (xMc : list Z) : Prop := 0 <= xmaxc < 64 /\ 0 <= Mc <= 3 /\ Forall (fun x => 0 <= x <= 7) xMc /\ length xMc = 13%nat.
Lemma rpe_decoding_ok xmaxc Mc xMc : pulses_ok xmaxc Mc xMc -> exists e, rpe_decoding xmaxc Mc xMc = Ok e /\ length e = 40%nat /\ Forall i16 e.
Proof.
  intros (H1 & H2 & H3 & H4). unfold rpe_decoding. destruct (decode_class xmaxc xMc H1 H3) as (e & m & r & -> & E & F & L). cbn [rbind]. rewrite E. cbn [rbind]. apply positioning_ok; [exact H2 | lia | exact F].
Qed.
Lemma rpe_encoding_ok e : Forall i16 e -> exists xmaxc Mc xMc e', rpe_encoding e = Ok (xmaxc, Mc, xMc, e') /\ pulses_ok xmaxc Mc xMc /\ rpe_decoding xmaxc Mc xMc = Ok e'.
Proof.
  intros F. unfold rpe_encoding. destruct (weighting_ok e F) as (x & -> & Fx & Lx). cbn [rbind]. destruct (grid_ok x Fx Lx) as (Mc & -> & HM & _). cbn [rbind]. destruct (on_grid_ok x (Z.to_nat Mc) Fx) as [Fg Lg].
  destruct (apcm_ok _ Fg) as (xMc & mant & exp & xmaxc & xMp & -> & Hc & Fc & Lc & E1 & E2 & Fp & Err). cbn [rbind]. rewrite E2. cbn [rbind]. apply F2_length in Err. rewrite Lg in Err.
  destruct (positioning_ok Mc xMp HM (eq_sym Err) Fp) as (e' & E3 & _). rewrite E3. cbn [rbind]. exists xmaxc, Mc, xMc, e'. split; [reflexivity|]. split; [split; [exact Hc|]; split; [exact HM|]; split; [exact Fc | lia]|].
  unfold rpe_decoding. rewrite E1. cbn [rbind]. rewrite E2. cbn [rbind]. exact E3.
Qed.
Lemma qlb_ok bc : 0 <= bc <= 3 -> exists q, aget QLB bc = Ok q /\ 0 < q <= 32767.
Proof. intros H. assert (C : bc = 0 \/ bc = 1 \/ bc = 2 \/ bc = 3) by lia. destruct C as [-> | [-> | [-> | ->]]]; [exists 3277 | exists 11469 | exists 21299 | exists 32767]; (split; [reflexivity | lia]). Qed.

(** ---- a subframe ---- *)
Definition sub_ok (p : list Z) : Prop := exists Nc bc Mc xmaxc xMc, p = [Nc; bc; Mc; xmaxc] ++ xMc /\ 0 <= bc <= 3 /\ pulses_ok xmaxc Mc xMc.
Lemma decode_sub_ok nrp h p : 40 <= nrp <= 120 -> (120 <= length h)%nat -> Forall i16 h -> sub_ok p ->
  exists nr wt, decode_sub nrp h p = Ok (nr, wt, skipn 40 (h ++ wt)) /\ 40 <= nr <= 120 /\ length wt = 40%nat /\ Forall i16 wt.
Proof.
  intros Hn Lh Fh (Nc & bc & Mc & xmaxc & xMc & -> & Hb & Hp). cbn [app decode_sub]. destruct (rpe_decoding_ok _ _ _ Hp) as (e & -> & Le & Fe). cbn [rbind]. unfold long_term_synthesis_filtering. set (Nr := if (Nc <? 40) || (120 <? Nc) then nrp else Nc).
  assert (HN : 40 <= Nr <= 120) by (unfold Nr; destruct (Z.ltb_spec Nc 40); [exact Hn|]; destruct (Z.ltb_spec 120 Nc); cbn [orb]; lia). clearbody Nr. chk. destruct (qlb_ok bc Hb) as (q & -> & Hq). cbn [rbind]. chk. destruct (past_ok h Nr Lh HN Fh) as (-> & Fp & Lp). cbn [rbind].
  eexists _, _. split; [reflexivity|]. split; [exact HN|]. split; [rewrite map2_length; lia|]. apply map2_Forall. intros. apply sat_add16_i16.
Qed.
Lemma from_past_app h g lag : (lag <= length h)%nat -> from_past (g ++ h) lag = from_past h lag.
Proof. intros H. unfold from_past. rewrite app_length. replace (length g + length h - lag)%nat with (length g + (length h - lag))%nat by lia. rewrite skipn_app. rewrite skipn_all2 by lia. replace (length g + (length h - lag) - length g)%nat with (length h - lag)%nat by lia. reflexivity. Qed.
Lemma sat_add16_comm x y : sat_add16 x y = sat_add16 y x.
Proof. unfold sat_add16. rewrite Z.add_comm. reflexivity. Qed.
Lemma map2_swap (f g : Z -> Z -> Z) a : (forall x y, f x y = g x y) -> forall b, map2 f a b = map2 g a b.
Proof. intros H. induction a as [|x a IH]; intros [|y b]; cbn [map2]; auto. rewrite H, IH. reflexivity. Qed.
Lemma map2_map (f : Z -> Z -> Z) (g : Z -> Z) a : forall b, map2 f a (map g b) = map2 (fun x y => f x (g y)) a b.
Proof. induction a as [|x a IH]; intros [|y b]; cbn [map2 map]; auto. rewrite IH. reflexivity. Qed.
(** the encoder makes a subframe that the decoder turns into the same residual *)
Lemma encode_sub_ok d g h : Forall i16 d -> length d = 40%nat -> length h = 120%nat -> Forall i16 h ->
  exists p wt, encode_sub d (g ++ h) = Ok (p, g ++ h ++ wt) /\ sub_ok p /\ 40 <= nth 0 p 0 <= 120 /\ length wt = 40%nat /\ Forall i16 wt /\ forall nrp, decode_sub nrp h p = Ok (nth 0 p 0, wt, skipn 40 (h ++ wt)).
Proof.
  intros Fd Ld Lh Fh. unfold encode_sub, long_term_predictor.
  assert (E : evaluate_ltp_parameters d (g ++ h) = evaluate_ltp_parameters d h).
  { assert (P : forall lag, lag <= 120 -> past (g ++ h) lag = past h lag).
    { intros lag Hl. unfold past. pose proof (from_past_app h g (Z.to_nat lag) ltac:(lia)) as Q. unfold from_past in Q. rewrite Q. rewrite app_length. unfold check.
      destruct (Z.leb_spec 40 lag); [|reflexivity]. destruct (Z.leb_spec lag (Z.of_nat (length g + length h))); [|lia]. destruct (Z.leb_spec lag (Z.of_nat (length h))); [|lia]. reflexivity. }
    unfold evaluate_ltp_parameters. assert (Q : forall n wt i m k, i + Z.of_nat n <= 121 -> max_cross_corr n wt (g ++ h) i m k = max_cross_corr n wt h i m k).
    { induction n as [|n IH]; intros wt i m k Hi; cbn [max_cross_corr]; [reflexivity|]. unfold cross_corr. rewrite P by lia. destruct (past h i); [|reflexivity]. cbn [rbind]. destruct (sum32 _ _); [|reflexivity]. cbn [rbind]. destruct (_ <? _); apply IH; lia. }
    destruct (if max_abs d =? 0 then _ else _); [|reflexivity]. cbn [rbind]. destruct (check _); [|reflexivity]. cbn [rbind]. rewrite Q by lia. destruct (max_cross_corr _ _ _ _ _ _) as [[? ?]|]; [|reflexivity]. cbn [rbind].
    destruct (c32 _); [|reflexivity]. cbn [rbind]. destruct (check _) eqn:K; [|reflexivity]. cbn [rbind]. unfold check in K. match type of K with (if ?b then _ else _) = _ => destruct b eqn:K3; [|discriminate] end. clear K. rename K3 into K. apply andb_true_iff in K as [K1 K2]. apply Z.leb_le in K2. rewrite P by lia. reflexivity. }
  rewrite E. destruct (evaluate_ltp_ok d h Fd Ld ltac:(lia) Fh) as (Nc & bc & sc & -> & HN & Hb & _). cbn [rbind]. destruct (qlb_ok bc Hb) as (q & Eq & Hq). rewrite Eq. cbn [rbind].
  assert (Fgh : past (g ++ h) Nc = Ok (from_past h (Z.to_nat Nc))).
  { unfold past. rewrite check_ok by (rewrite andb_true_iff, !Z.leb_le, app_length; lia). cbn [rbind]. pose proof (from_past_app h g (Z.to_nat Nc) ltac:(lia)) as Q. unfold from_past in *. f_equal. exact Q. }
  rewrite Fgh. cbn [rbind]. destruct (past_ok h Nc ltac:(lia) HN Fh) as (Ep & Fp & Lp). set (p := from_past h (Z.to_nat Nc)) in *.
  destruct (rpe_encoding_ok (map2 sat_sub16 d (map (gsm_mult_r q) p))) as (xmaxc & Mc & xMc & e & -> & Hp & Ed); [apply map2_Forall; intros; apply sat_sub16_i16|]. cbn [rbind].
  destruct (rpe_decoding_ok _ _ _ Hp) as (e' & Ee & Le & _). rewrite Ed in Ee. assert (e' = e) by (apply (f_equal (fun r => match r with Ok y => y | UB => [] end)) in Ee; symmetry; exact Ee). subst e'. clear Ee.
  exists ([Nc; bc; Mc; xmaxc] ++ xMc), (map2 sat_add16 e (map (gsm_mult_r q) p)). split; [rewrite <- app_assoc; reflexivity|]. split; [exists Nc, bc, Mc, xmaxc, xMc; split; [reflexivity|]; split; assumption|]. split; [exact HN|].
  split; [rewrite map2_length, map_length; lia|]. split; [apply map2_Forall; intros; apply sat_add16_i16|].
  intros nrp. cbn [app decode_sub nth]. rewrite Ed. cbn [rbind]. unfold long_term_synthesis_filtering. replace ((Nc <? 40) || (120 <? Nc)) with false by (symmetry; apply orb_false_iff; split; apply Z.ltb_ge; lia). chk. rewrite Eq. cbn [rbind]. chk. rewrite Ep. cbn [rbind]. rewrite map2_map. reflexivity.
Qed.
