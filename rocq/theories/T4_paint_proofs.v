(** Finishing a row: painting its runs and handing the octets over. *)
From Coq Require Import ZifyBool ZifyNat.
From Verif Require Import Base Bits T4_tables T4_enc_model T4_dec_model T4_spec T4_runs_proofs T4_bits_proofs T4_step_proofs T4_code_proofs T4_span_proofs.

(** ---- ascending lists of changing elements, closed by the width ---- *)
Fixpoint asc (lo : Z) (T : list Z) (w : Z) : Prop :=
  match T with
  | [] => False
  | t :: T' => lo < t /\ match T' with [] => t = w | _ => t < w /\ asc t T' w end
  end.
Fixpoint runs (p : Z) (T : list Z) : list Z := match T with [] => [] | t :: T' => (t - p) :: runs t T' end.
Fixpoint expand (c : bool) (p : Z) (T : list Z) : list bool :=
  match T with [] => [] | t :: T' => repeat c (Z.to_nat (t - p)) ++ expand (negb c) t T' end.
Lemma runs_length T : forall p, length (runs p T) = length T.
Proof. induction T; intros; cbn [runs length]; auto. Qed.

Lemma asc_changes l : forall c p lo, lo < p -> asc lo (changes c p l ++ [p + Z.of_nat (length l)]) (p + Z.of_nat (length l)).
Proof.
  induction l as [|b l IH]; intros c p lo H.
  - cbn [changes app length asc]. split; lia.
  - cbn [changes length]. replace (p + Z.of_nat (S (length l))) with (p + 1 + Z.of_nat (length l)) by lia.
    destruct (Bool.eqb b c); [apply IH; lia|]. cbn [app asc]. split; auto.
    specialize (IH b (p + 1) p ltac:(lia)). destruct (changes b (p + 1) l ++ _) eqn:Ec; [destruct IH|]. split; [lia|exact IH].
Qed.
Lemma asc_bound T : forall lo w, asc lo T w -> Z.of_nat (length T) <= w - lo.
Proof.
  induction T as [|t T IH]; intros lo w H; cbn [asc] in H; [destruct H|]. cbn [length]. destruct H as [H1 H2].
  destruct T as [|u T]; [cbn [length]; lia|]. destruct H2 as [H2 H3]. apply IH in H3. lia.
Qed.
Lemma expand_changes l : forall c p0 p, p0 <= p -> expand c p0 (changes c p l ++ [p + Z.of_nat (length l)]) = repeat c (Z.to_nat (p - p0)) ++ l.
Proof.
  induction l as [|b l IH]; intros c p0 p H.
  - cbn [changes app length expand]. rewrite app_nil_r. rewrite app_nil_r. do 2 f_equal. lia.
  - cbn [changes length]. replace (p + Z.of_nat (S (length l))) with (p + 1 + Z.of_nat (length l)) by lia.
    destruct (Bool.eqb b c) eqn:Eb.
    + apply Bool.eqb_prop in Eb. subst b. rewrite IH by lia. replace (Z.to_nat (p + 1 - p0)) with (Z.to_nat (p - p0) + 1)%nat by lia.
      rewrite repeat_app, <- app_assoc. reflexivity.
    + cbn [app expand]. f_equal. replace (negb c) with b by (destruct b, c; auto; discriminate). rewrite IH by lia.
      replace (Z.to_nat (p + 1 - p)) with 1%nat by lia. reflexivity.
Qed.
Lemma pixels_length w row : 0 <= w -> row_ok w row -> Z.of_nat (length (pixels w row)) = w.
Proof. intros Hw [_ H]. unfold pixels. rewrite firstn_length, unpack_msb_length. Z.div_mod_to_equations. lia. Qed.
Lemma trans_asc w row : 0 <= w -> row_ok w row -> asc (-1) (transitions w row) w.
Proof.
  intros Hw H. pose proof (pixels_length w row Hw H) as HL. unfold transitions. pose proof (asc_changes (pixels w row) false 0 (-1) ltac:(lia)) as HH.
  rewrite Z.add_0_l, HL in HH. exact HH.
Qed.
Lemma trans_expand w row : 0 <= w -> row_ok w row -> expand false 0 (transitions w row) = pixels w row.
Proof.
  intros Hw H. pose proof (pixels_length w row Hw H) as HL. unfold transitions. pose proof (expand_changes (pixels w row) false 0 0 ltac:(lia)) as HH.
  rewrite Z.add_0_l, HL in HH. exact HH.
Qed.

(** ---- painting ---- *)
Definition fudge_of (c : bool) : Z := if c then 255 else 0.
Lemma fudge_flip c : Z.lxor (fudge_of c) 0xFF = fudge_of (negb c). Proof. destruct c; reflexivity. Qed.
Lemma msbmask_ok n : 0 <= n <= 8 -> aget msbmask n = Ok (2 ^ n - 1).
Proof.
  intros H. assert (n = 0 \/ n = 1 \/ n = 2 \/ n = 3 \/ n = 4 \/ n = 5 \/ n = 6 \/ n = 7 \/ n = 8) as HH by lia.
  repeat (destruct HH as [->|HH]; [reflexivity|]). subst. reflexivity.
Qed.
Lemma ones_bits n : of_bits_msb (repeat true n) = 2 ^ Z.of_nat n - 1.
Proof.
  induction n as [|n IH]; [reflexivity|]. change (repeat true (S n)) with ([true] ++ repeat true n). rewrite of_bits_msb_app, IH, repeat_length.
  change (of_bits_msb [true]) with 1. replace (Z.of_nat (S n)) with (Z.of_nat n + 1) by lia. rewrite Z.pow_add_r by lia. lia.
Qed.
Lemma zeros_bits n : of_bits_msb (repeat false n) = 0.
Proof. apply of_bits_msb_zero. rewrite repeat_length. induction n; cbn [repeat lz]; auto. Qed.
Lemma mask_fudge n c : (n <= 8)%nat -> Z.land (2 ^ Z.of_nat n - 1) (fudge_of c) = of_bits_msb (repeat c n).
Proof.
  intros H. replace (2 ^ Z.of_nat n - 1) with (Z.ones (Z.of_nat n)) by (rewrite Z.ones_equiv; lia).
  rewrite Z.land_comm, Z.land_ones by lia. destruct c; cbn [fudge_of].
  - rewrite ones_bits. assert (n = 0 \/ n = 1 \/ n = 2 \/ n = 3 \/ n = 4 \/ n = 5 \/ n = 6 \/ n = 7 \/ n = 8)%nat as HH by lia.
    repeat (destruct HH as [->|HH]; [reflexivity|]). subst. reflexivity.
  - rewrite zeros_bits. apply Z.mod_0_l. pose proof (p2_pos n). lia.
Qed.
Lemma shl_or ps q n c : (n <= 8)%nat -> (length q + n <= 32)%nat -> ps mod 2 ^ Z.of_nat (length q) = of_bits_msb q ->
  (Z.lor (u32 (Z.shiftl ps (Z.of_nat n))) (Z.land (2 ^ Z.of_nat n - 1) (fudge_of c))) mod 2 ^ Z.of_nat (length (q ++ repeat c n)) = of_bits_msb (q ++ repeat c n).
Proof.
  intros Hn Hq Hps. rewrite mask_fudge by auto. rewrite of_bits_msb_app, app_length, repeat_length. rewrite <- Hps.
  pose proof (of_bits_msb_range (repeat c n)) as Hr. rewrite repeat_length in Hr. set (a := of_bits_msb (repeat c n)) in *. clearbody a.
  rewrite Z.shiftl_mul_pow2 by lia. unfold u32. change 4294967296 with (2 ^ 32).
  replace (2 ^ 32) with (2 ^ (32 - Z.of_nat n) * 2 ^ Z.of_nat n) by (rewrite <- Z.pow_add_r by lia; f_equal; lia).
  assert (H1 : 0 < 2 ^ Z.of_nat n) by apply p2_pos. assert (H2 : 0 < 2 ^ (32 - Z.of_nat n)) by (apply Z.pow_pos_nonneg; lia).
  rewrite Z.mul_mod_distr_r by lia. rewrite Z.lor_comm, lor_disj by lia.
  replace (Z.of_nat (length q + n)) with (Z.of_nat (length q) + Z.of_nat n) by lia. rewrite Z.pow_add_r by lia.
  set (k := Z.of_nat (length q)) in *. assert (Hk : 0 <= k <= 32 - Z.of_nat n) by lia. clearbody k. set (m := 32 - Z.of_nat n) in *.
  assert (H3 : 0 < 2 ^ k) by (apply Z.pow_pos_nonneg; lia).
  assert (E1 : (ps mod 2 ^ m) mod 2 ^ k = ps mod 2 ^ k).
  { replace m with (k + (m - k)) by lia. rewrite Z.pow_add_r by lia. rewrite Z.rem_mul_r by (try apply Z.pow_pos_nonneg; try apply Z.pow_nonzero; lia).
    rewrite (Z.mul_comm (2 ^ k)), Z_mod_plus_full. apply Z.mod_mod. lia. }
  set (x := ps mod 2 ^ m) in *. clearbody x. rewrite <- E1.
  rewrite (Z.div_mod x (2 ^ k)) at 1 by lia. 
  replace (a + (2 ^ k * (x / 2 ^ k) + x mod 2 ^ k) * 2 ^ Z.of_nat n) with ((a + (x mod 2 ^ k) * 2 ^ Z.of_nat n) + (x / 2 ^ k) * (2 ^ k * 2 ^ Z.of_nat n)) by ring.
  rewrite Z_mod_plus_full. pose proof (Z.mod_pos_bound x (2 ^ k) H3). rewrite Z.mod_small; nia.
Qed.

Record prep (buf : list Z) (pos ps pix : Z) (P : list bool) (D tail : list Z) (q : list bool) : Prop := {
  pr_buf : buf = D ++ tail; pr_pos : pos = Z.of_nat (length D); pr_bytes : bytes D; pr_P : P = unpack_msb D ++ q;
  pr_q : Z.of_nat (length q) = 8 - pix; pr_pix : 1 <= pix <= 8; pr_ps : ps mod 2 ^ Z.of_nat (length q) = of_bits_msb q }.

Lemma paint_octets_ok fuel : forall D tail ps pix c i, bytes D -> 0 <= i -> (Z.to_nat i <= fuel)%nat -> i / 8 <= Z.of_nat (length tail) ->
  8 <= i ->
  exists D2 tail2, paint_octets fuel (D ++ tail) (Z.of_nat (length D)) ps pix (fudge_of c) i =
    Ok ((D ++ D2) ++ tail2, Z.of_nat (length (D ++ D2)), fudge_of c, 8, i mod 8) /\ bytes D2 /\ (length D2 + length tail2 = length tail)%nat /\
    unpack_msb D2 = bits_msb 8 (u8 ps) ++ repeat c (Z.to_nat (i - 8 - i mod 8)).
Proof.
  induction fuel as [|fuel IH]; intros D tail ps pix c i HD Hi Hf Ht H8; [lia|].
  cbn [paint_octets]. destruct (Z.ltb_spec i 8); [lia|].
  destruct tail as [|x tail]; [cbn [length] in Ht; Z.div_mod_to_equations; lia|].
  rewrite aset_app. cbn [rbind].
  assert (Hu : byte (u8 ps)) by (unfold byte, u8; apply Z.mod_pos_bound; lia).
  replace (D ++ u8 ps :: tail) with ((D ++ [u8 ps]) ++ tail) by (rewrite <- app_assoc; reflexivity).
  replace (Z.of_nat (length D) + 1) with (Z.of_nat (length (D ++ [u8 ps]))) by (rewrite app_length; cbn [length]; lia).
  assert (HD' : bytes (D ++ [u8 ps])) by (apply Forall_app; split; auto; constructor; auto; constructor).
  destruct (Z.ltb_spec (i - 8) 8) as [H1|H1].
  - exists [u8 ps], tail. replace (paint_octets fuel _ _ _ _ _ _) with (Ok ((D ++ [u8 ps]) ++ tail, Z.of_nat (length (D ++ [u8 ps])), fudge_of c, 8, i - 8)).
    + split; [do 2 f_equal; Z.div_mod_to_equations; lia|]. split; [constructor; auto; constructor|]. split; [reflexivity|].
      replace (Z.to_nat (i - 8 - i mod 8)) with 0%nat by (Z.div_mod_to_equations; lia). reflexivity.
    + destruct fuel; cbn [paint_octets]; destruct (Z.ltb_spec (i - 8) 8); auto; lia.
  - destruct (IH (D ++ [u8 ps]) tail (fudge_of c) 8 c (i - 8)) as (D2 & t2 & E1 & E2 & E3 & E4); auto; try lia.
    { cbn [length] in Ht. Z.div_mod_to_equations; lia. }
    exists (u8 ps :: D2), t2. rewrite E1. split.
    + replace (D ++ u8 ps :: D2) with ((D ++ [u8 ps]) ++ D2) by (rewrite <- app_assoc; reflexivity). do 2 f_equal. Z.div_mod_to_equations; lia.
    + split; [constructor; auto|]. split; [cbn [length]; lia|].
      change (unpack_msb (u8 ps :: D2)) with (bits_msb 8 (u8 ps) ++ unpack_msb D2). f_equal. rewrite E4.
      replace (bits_msb 8 (u8 (fudge_of c))) with (repeat c 8) by (destruct c; reflexivity). rewrite <- repeat_app. f_equal. Z.div_mod_to_equations; lia.
Qed.

Lemma mod8_le x : 8 <= x -> x mod 8 <= x - 8.
Proof. intros. Z.div_mod_to_equations; lia. Qed.
Lemma paint_run_ok buf pos ps pix P D tail q c i : prep buf pos ps pix P D tail q -> 0 <= i -> Z.of_nat (length q) + i <= 8 * Z.of_nat (length tail) ->
  exists buf' pos' ps' pix' D' tail' q', paint_run buf pos ps pix (fudge_of c) i = Ok (buf', pos', ps', pix') /\
    prep buf' pos' ps' pix' (P ++ repeat c (Z.to_nat i)) D' tail' q' /\ (length D' + length tail' = length D + length tail)%nat.
Proof.
  intros [Hb Hp Hy HP Hq Hx Hs] Hi Hfit. subst buf pos P. unfold paint_run.
  destruct (Z.leb_spec pix i) as [Hc|Hc].
  - destruct (Z.ltb_spec pix 0); [lia|]. rewrite msbmask_ok by lia. cbn [rbind].
    set (ps1 := Z.lor _ _).
    assert (Hu : bits_msb 8 (u8 ps1) = q ++ repeat c (Z.to_nat pix)).
    { pose proof (shl_or ps q (Z.to_nat pix) c ltac:(lia) ltac:(lia) Hs) as HH. rewrite Z2Nat.id in HH by lia. fold ps1 in HH.
      rewrite app_length, repeat_length in HH. replace (Z.of_nat (length q + Z.to_nat pix)) with 8 in HH by lia. change (2 ^ 8) with 256 in HH.
      unfold u8. rewrite HH. replace 8%nat with (length (q ++ repeat c (Z.to_nat pix))) by (rewrite app_length, repeat_length; lia). apply bits_msb_of_bits. }
    destruct (paint_octets_ok (Z.to_nat (i + (8 - pix))) D tail ps1 pix c (i + (8 - pix))) as (D2 & t2 & E1 & E2 & E3 & E4); auto; try lia.
    rewrite E1. cbn [rbind]. set (j := (i + (8 - pix)) mod 8). assert (Hj : 0 <= j < 8) by (apply Z.mod_pos_bound; lia).
    rewrite msbmask_ok by lia. cbn [rbind].
    eexists _, _, _, _, (D ++ D2), t2, (repeat c (Z.to_nat j)). split; [reflexivity|]. split; [|rewrite app_length; lia].
    constructor; auto; try lia.
    + apply Forall_app; auto.
    + rewrite unpack_msb_app, E4, Hu, <- !app_assoc. do 2 f_equal. rewrite <- !repeat_app. f_equal. fold j. pose proof (mod8_le (i + (8 - pix)) ltac:(lia)) as Hm8. fold j in Hm8. clearbody j. clear - Hm8 Hj Hc Hx. lia.
    + rewrite repeat_length. lia.
    + pose proof (shl_or (fudge_of c) [] (Z.to_nat j) c ltac:(lia) ltac:(cbn [length]; lia)) as HH. rewrite Z2Nat.id in HH by lia. cbn [app] in HH. apply HH.
      cbn [length]. apply Z.mod_1_r.
  - cbn [rbind]. rewrite msbmask_ok by lia. cbn [rbind].
    eexists _, _, _, _, D, tail, (q ++ repeat c (Z.to_nat i)). split; [reflexivity|]. split; [|lia].
    constructor; auto; try lia.
    + rewrite app_assoc. reflexivity.
    + rewrite app_length, repeat_length. lia.
    + pose proof (shl_or ps q (Z.to_nat i) c ltac:(lia) ltac:(lia) Hs) as HH. rewrite Z2Nat.id in HH by lia. exact HH.
Qed.

Lemma asc_lo T lo lo' w : asc lo T w -> lo' <= lo -> asc lo' T w.
Proof. destruct T; cbn [asc]; [auto|]. intros [H1 H2] H. split; [lia|auto]. Qed.
Lemma expand_length T : forall c p lo w, asc lo T w -> p <= lo + 1 -> Z.of_nat (length (expand c p T)) = w - p.
Proof.
  induction T as [|t T IH]; intros c p lo w H Hp; cbn [asc] in H; [destruct H|]. destruct H as [H1 H2]. cbn [expand]. rewrite app_length, repeat_length.
  destruct T as [|u T]; [cbn [expand length]; lia|]. destruct H2 as [H2 H3]. rewrite Nat2Z.inj_add, (IH _ t t w) by (auto; lia). lia.
Qed.
Lemma paint_runs_ok T : forall fuel cur A j lo p w c buf pos ps pix P D tail q, cur = A ++ runs p T ++ j -> asc lo T w -> p <= lo + 1 -> (length T <= fuel)%nat ->
  prep buf pos ps pix P D tail q -> Z.of_nat (length q) + (w - p) <= 8 * Z.of_nat (length tail) ->
  exists buf' pos' ps' pix' D' tail' q', paint_runs fuel cur (Z.of_nat (length A + length T)) (Z.of_nat (length A)) buf pos ps pix (fudge_of c) = Ok (buf', ps', pix') /\
    prep buf' pos' ps' pix' (P ++ expand c p T) D' tail' q' /\ (length D' + length tail' = length D + length tail)%nat.
Proof.
  induction T as [|t T IH]; intros fuel cur A j lo p w c buf pos ps pix P D tail q Hcur Hasc Hp Hf HP Hfit; [destruct Hasc|].
  destruct fuel as [|fuel]; [cbn [length] in Hf; lia|]. cbn [paint_runs].
  destruct (Z.leb_spec (Z.of_nat (length A + length (t :: T))) (Z.of_nat (length A))); [cbn [length] in *; lia|].
  cbn [asc] in Hasc. destruct Hasc as [H1 H2]. subst cur. cbn [runs app].
  rewrite aget_app_at. cbn [rbind]. assert (Htw : t <= w) by (destruct T; [lia|]; destruct H2; lia).
  assert (Hrest : 0 <= w - t) by lia.
  destruct (paint_run_ok buf pos ps pix P D tail q c (t - p) HP ltac:(lia) ltac:(lia)) as (buf1 & pos1 & ps1 & pix1 & D1 & t1 & q1 & E1 & E2 & E3).
  rewrite E1. cbn [rbind]. rewrite fudge_flip.
  destruct T as [|u T].
  - replace (paint_runs fuel _ _ _ _ _ _ _ _) with (Ok (buf1, ps1, pix1)).
    + cbn [expand]. rewrite app_nil_r. eauto 12.
    + destruct fuel; cbn [paint_runs]; destruct (Z.leb_spec (Z.of_nat (length A + length [t])) (Z.of_nat (length A) + 1)); auto; cbn [length] in *; lia.
  - destruct H2 as [H2 H3]. assert (Hl : Z.of_nat (length q1) + 8 * Z.of_nat (length D1) = Z.of_nat (length q) + 8 * Z.of_nat (length D) + (t - p)).
    { destruct E2 as [_ _ _ HP1 _ _ _]. destruct HP as [_ _ _ HP0 _ _ _]. apply (f_equal (@length bool)) in HP1. rewrite HP0 in HP1.
      rewrite !app_length, !unpack_msb_length, repeat_length in HP1. lia. }
    destruct (IH fuel (A ++ (t - p) :: runs t (u :: T) ++ j) (A ++ [t - p]) j t t w (negb c) buf1 pos1 ps1 pix1 (P ++ repeat c (Z.to_nat (t - p))) D1 t1 q1) as (buf2 & pos2 & ps2 & pix2 & D2 & t2 & q2 & G1 & G2 & G3); auto; try lia.
    + rewrite <- app_assoc. reflexivity.
    + cbn [length] in *. lia.
    + exists buf2, pos2, ps2, pix2, D2, t2, q2. split; [|split; [|lia]].
      * rewrite <- G1. f_equal; rewrite ?app_length; cbn [length]; lia.
      * cbn [expand]. rewrite app_assoc. exact G2.
Qed.

Lemma unpack_msb_inj a : forall b, bytes a -> bytes b -> unpack_msb a = unpack_msb b -> a = b.
Proof.
  induction a as [|x a IH]; intros b Ha Hb H.
  - destruct b; auto. apply (f_equal (@length bool)) in H. rewrite !unpack_msb_length in H. cbn [length] in H. lia.
  - destruct b as [|y b]; [apply (f_equal (@length bool)) in H; rewrite !unpack_msb_length in H; cbn [length] in H; lia|].
    apply Forall_cons_iff in Ha as [Hx Ha]. apply Forall_cons_iff in Hb as [Hy Hb].
    change (bits_msb 8 x ++ unpack_msb a = bits_msb 8 y ++ unpack_msb b) in H.
    assert (E1 : bits_msb 8 x = bits_msb 8 y /\ unpack_msb a = unpack_msb b).
    { apply (f_equal (firstn 8)) in H as H1. apply (f_equal (skipn 8)) in H as H2.
      rewrite !firstn_app, !bits_msb_length, Nat.sub_diag, !firstn_O, !app_nil_r, !firstn_all2 in H1 by (rewrite bits_msb_length; lia).
      rewrite !skipn_app, !bits_msb_length, Nat.sub_diag in H2. rewrite !(skipn_all2 (bits_msb 8 _)) in H2 by (rewrite bits_msb_length; lia). auto. }
    destruct E1 as [E1 E2]. f_equal; [|apply IH; auto]. rewrite <- (byte_msb x), <- (byte_msb y) by auto. congruence.
Qed.

(** The state of the image after [rows]. *)
Record imgok (w : Z) (im : dimg) (rows : list (list Z)) : Prop := {
  im_buf : Z.of_nat (length (i_buf im)) = (w + 7) / 8; im_pix : i_pix im = 8; im_len : i_length im = Z.of_nat (length rows);
  im_bad : i_bad im = 0; im_log : i_log im = map Some rows }.
Lemma put_row_ok w r im row rows j : 0 < w -> w mod 8 = 0 -> row_ok w row -> imgok w im rows ->
  r_run r = 0 -> r_len r = w -> r_ac r = Z.of_nat (length (transitions w row)) -> r_cur r = runs 0 (transitions w row) ++ j -> Z.of_nat (length (r_cur r)) = w + 4 ->
  exists im' j', put_decoded_row w r im = Ok (mk_drow (r_2d r) w 0 (r_bw r) (r_black r) 0 (nth 0 (transitions w row) 0) 0 1 (r_ref r) (runs 0 (transitions w row) ++ 0 :: 0 :: j'), im') /\
    imgok w im' (rows ++ [row]) /\ Z.of_nat (length (runs 0 (transitions w row) ++ 0 :: 0 :: j')) = w + 4.
Proof.
  intros Hw H8 Hrow [I1 I2 I3 I4 I5] Hrun Hlen Hac Hcur Hcl. pose proof (trans_asc w row ltac:(lia) Hrow) as Hasc.
  pose proof (asc_bound _ _ _ Hasc) as Hb. pose proof (trans_expand w row ltac:(lia) Hrow) as Hex. set (T := transitions w row) in *. clearbody T.
  unfold put_decoded_row. rewrite Hrun. cbn [Z.eqb rbind]. rewrite Hlen, Z.eqb_refl.
  destruct (paint_runs_ok T (S (length (r_cur r))) (r_cur r) [] j (-1) 0 w false (i_buf im) 0 (i_ps im) (i_pix im) [] [] (i_buf im) []) as (buf & pos & ps & pix & D & tail & q & E1 & E2 & E3); auto; try lia.
  { constructor; auto; cbn [length]; try lia; [constructor|]. apply Z.mod_1_r. }
  { cbn [length]. Z.div_mod_to_equations; lia. }
  cbn [length Nat.add fudge_of] in E1. change (Z.of_nat 0) with 0 in E1. rewrite <- Hac in E1. rewrite E1. cbn [rbind].
  assert (HD : buf = row /\ pix = 8).
  { destruct E2 as [Q1 Q2 Q3 Q4 Q5 Q6 Q7]. cbn [app] in Q4. rewrite Hex in Q4. cbn [length] in E3.
    assert (Hp : pixels w row = unpack_msb row).
    { unfold pixels. apply firstn_all2. rewrite unpack_msb_length. destruct Hrow as [_ Hrow]. Z.div_mod_to_equations; lia. }
    pose proof (f_equal (@length bool) Q4) as HL. rewrite app_length, unpack_msb_length in HL. pose proof (pixels_length w row ltac:(lia) Hrow) as HPL.
    assert (length D = length (i_buf im) /\ length q = 0%nat) as [HD Hq] by (Z.div_mod_to_equations; lia).
    destruct q; [|discriminate]. destruct tail; [|cbn [length] in E3; lia]. rewrite app_nil_r in *. cbn [length] in Q5. split; [|lia].
    subst buf. apply unpack_msb_inj; [auto|apply Hrow|congruence]. }
  destruct HD as [-> ->].
  assert (Hjl : exists x y z, j = x :: y :: z).
  { rewrite Hcur, app_length, runs_length in Hcl. destruct j as [|x [|y z]]; cbn [length] in Hcl; try lia. eauto. }
  destruct Hjl as (x & y & z & ->). rewrite Hcur, Hac. rewrite <- (runs_length T 0), aset_app. cbn [rbind].
  replace (runs 0 T ++ 0 :: y :: z) with ((runs 0 T ++ [0]) ++ y :: z) by (rewrite <- app_assoc; reflexivity).
  replace (Z.of_nat (length (runs 0 T)) + 1) with (Z.of_nat (length (runs 0 T ++ [0]))) by (rewrite app_length; cbn [length]; lia).
  rewrite aset_app. cbn [rbind]. replace ((runs 0 T ++ [0]) ++ 0 :: z) with (runs 0 T ++ 0 :: 0 :: z) by (rewrite <- app_assoc; reflexivity).
  assert (HL4 : Z.of_nat (length (runs 0 T ++ 0 :: 0 :: z)) = w + 4) by (rewrite Hcur in Hcl; rewrite app_length in *; exact Hcl).
  eexists _, z. split.
  - destruct T as [|t T]; [destruct Hasc|]. cbn [runs app] in *. unfold aget at 1, in_bounds. rewrite HL4. destruct (Z.ltb_spec 0 (w + 4)); [|lia].
    cbn [Z.leb Z.compare andb Z.to_nat nth rbind]. rewrite Z.sub_0_r. reflexivity.
  - split; auto. constructor; cbn [i_buf i_pix i_length i_bad i_log]; auto.
    + destruct Hrow as [_ Hrow]. exact Hrow.
    + rewrite app_length. cbn [length]. lia.
    + rewrite I5, map_app. reflexivity.
Qed.
