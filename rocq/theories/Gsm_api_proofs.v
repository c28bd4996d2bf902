(** GSM 06.10: streams of frames, and the exact search, quantiser and scaling results. *)
From Verif Require Import Base Gsm_model Gsm_spec Gsm_arith_proofs Gsm_enc_proofs Gsm_rpe_proofs Gsm_frame_proofs Gsm_pack_proofs.
Local Open Scope Z_scope.

Definition pcm8 (x : Z) : Prop := i16 x /\ x mod 8 = 0.
Lemma step_ok s t amp : enc_ok s -> dec_ok t -> in_step s t -> Forall i16 amp -> length amp = 160%nat ->
  exists s' f t' a, encode_a_frame s amp = Ok (s', f) /\ enc_ok s' /\ fits sizes f /\ lags_ok f /\ decode_a_frame t f = Ok (t', a) /\ dec_ok t' /\ in_step s' t' /\ length a = 160%nat /\ Forall pcm8 a.
Proof.
  intros He Hd [I1 I2] Fa La. destruct (encode_frame_ok s amp He Fa La) as (s' & f & E & He' & Ff & Fl & D). destruct (D t (eq_sym I1) (eq_sym I2)) as (t' & a & E2 & D1 & D2).
  destruct (decode_frame_ok t f Hd Ff) as (t2 & a2 & E3 & Hd' & L & P). rewrite E2 in E3. apply Ok_inj in E3. assert (t2 = t') by (apply (f_equal fst) in E3; symmetry; exact E3). assert (a2 = a) by (apply (f_equal snd) in E3; symmetry; exact E3). subst t2 a2.
  exists s', f, t', a. split; [exact E|]. split; [exact He'|]. split; [exact Ff|]. split; [exact Fl|]. split; [exact E2|]. split; [exact Hd'|]. split; [split; congruence|]. split; assumption.
Qed.
Lemma aslice_mid pre rest n : 0 < n -> n <= Z.of_nat (length rest) -> aslice (pre ++ rest) (Z.of_nat (length pre)) n = Ok (firstn (Z.to_nat n) rest).
Proof.
  intros H0 H. unfold aslice. destruct (Z.leb_spec n 0); [lia|]. rewrite app_length. destruct (Z.leb_spec 0 (Z.of_nat (length pre))); [|lia]. destruct (Z.leb_spec (Z.of_nat (length pre) + n) (Z.of_nat (length pre + length rest))); [|lia]. cbn [andb]. rewrite Nat2Z.id, skipn_len. reflexivity.
Qed.
Lemma stream_ok p n : forall fuel s t pre rest, enc_ok s -> dec_ok t -> in_step s t -> Forall i16 rest -> length rest = (block_samples p * n)%nat -> (n <= fuel)%nat ->
  exists s' c, encode_loop fuel p s (pre ++ rest) (Z.of_nat (length pre)) = Ok (s', c) /\ enc_ok s' /\ Forall byte c /\ length c = (block_octets p * n)%nat /\
    forall fuel2, (n <= fuel2)%nat -> exists t' a, decode_loop fuel2 p t c = Ok (t', a) /\ dec_ok t' /\ in_step s' t' /\ length a = length rest /\ Forall pcm8 a.
Proof.
  induction n as [|n IH]; intros fuel s t pre rest He Hd Hi F L Hf.
  { rewrite Nat.mul_0_r in L. destruct rest; [|discriminate]. exists s, []. rewrite app_nil_r. destruct fuel; cbn [encode_loop]; rewrite Z.leb_refl; (split; [reflexivity|]; split; [exact He|]; split; [constructor|]; split; [cbn; lia|]); intros fuel2 _; exists t, []; (split; [destruct fuel2; reflexivity|]); repeat split; try apply Hd; try apply Hi; constructor. }
  destruct fuel as [|fuel]; [lia|].
  assert (B1 : (block_samples p = 160 \/ block_samples p = 320)%nat) by (destruct p; cbn; auto).
  assert (Lr : (160 <= length rest)%nat) by lia. cbn [encode_loop]. replace (Z.of_nat (length (pre ++ rest)) <=? Z.of_nat (length pre)) with false by (symmetry; apply Z.leb_gt; rewrite app_length; lia).
  rewrite aslice_mid by lia. cbn [rbind]. change (Z.to_nat 160) with 160%nat.
  destruct (step_ok s t (firstn 160 rest) He Hd Hi) as (s1 & f & t1 & a & E1 & He1 & Ff & _ & D1 & Hd1 & Hi1 & La & Pa); [apply Forall_firstn'; exact F | rewrite firstn_length; lia|]. rewrite E1. cbn [rbind].
  assert (Lf : length f = 76%nat) by (pose proof (fits_length _ _ Ff) as X; change (length sizes) with 76%nat in X; lia).
  assert (Sp : pre ++ rest = (pre ++ firstn 160 rest) ++ skipn 160 rest) by (rewrite <- app_assoc, firstn_skipn; reflexivity).
  assert (Lp : Z.of_nat (length pre) + 160 = Z.of_nat (length (pre ++ firstn 160 rest))) by (rewrite app_length, firstn_length; lia).
  assert (Fs : Forall i16 (skipn 160 rest)) by (apply Forall_skipn'; exact F).
  assert (X : p = WAV49 \/ p = VOIP \/ p = NONE) by (destruct p; auto). destruct X as [-> | X].
  - cbn [block_samples block_octets] in *. rewrite Sp, Lp, aslice_mid by (rewrite ?skipn_length; lia). cbn [rbind]. change (Z.to_nat 160) with 160%nat.
    destruct (step_ok s1 t1 (firstn 160 (skipn 160 rest)) He1 Hd1 Hi1) as (s2 & f' & t2 & b & E2 & He2 & Ff' & _ & D2 & Hd2 & Hi2 & Lb & Pb); [apply Forall_firstn'; exact Fs | rewrite firstn_length, skipn_length; lia|]. rewrite E2. cbn [rbind].
    assert (Sp2 : (pre ++ firstn 160 rest) ++ skipn 160 rest = (pre ++ firstn 320 rest) ++ skipn 320 rest) by (rewrite <- !app_assoc, !firstn_skipn; reflexivity).
    assert (Lp2 : Z.of_nat (length (pre ++ firstn 160 rest)) + 160 = Z.of_nat (length (pre ++ firstn 320 rest))) by (rewrite !app_length, !firstn_length; lia). rewrite Sp2, Lp2.
    destruct (IH fuel s2 t2 (pre ++ firstn 320 rest) (skipn 320 rest) He2 Hd2 Hi2) as (s' & cs & E & He' & Fc & Lc & D); [apply Forall_skipn'; exact F | rewrite skipn_length; lia | lia|]. rewrite E. cbn [rbind].
    assert (Fb : fits (sizes ++ sizes) (f ++ f')) by (apply Forall2_app; assumption). destruct (pack_wav49_bits (f ++ f') Fb) as (_ & Pb1 & Pb2).
    eexists _, _. split; [reflexivity|]. split; [exact He'|]. split; [apply Forall_app; split; assumption|]. split; [rewrite app_length; lia|]. intros fuel2 H2. destruct fuel2 as [|fuel2]; [lia|]. destruct (D fuel2 ltac:(lia)) as (t' & a' & Ed & Hd' & Hi' & La' & Pa').
    destruct (pack_wav49 (f ++ f') ++ cs) as [|o os] eqn:Eo; [exfalso; apply (f_equal (@length Z)) in Eo; rewrite app_length, Pb2 in Eo; discriminate|]. cbn [decode_loop]. rewrite <- Eo. rewrite (wav49_round (f ++ f') cs Fb Fc). cbn [rbind]. rewrite (firstn_n 76 f f' Lf), (skipn_n 76 f f' Lf), D1. cbn [rbind]. rewrite D2. cbn [rbind]. rewrite (skipn_n 65 _ _ Pb2), Ed. cbn [rbind].
    eexists _, _. split; [reflexivity|]. split; [exact Hd'|]. split; [exact Hi'|]. split; [rewrite !app_length; rewrite skipn_length in La'; lia | repeat (apply Forall_app; split); assumption].
  - assert (Bs : block_samples p = 160%nat) by (destruct X as [-> | ->]; reflexivity). rewrite Bs in *.
    destruct (IH fuel s1 t1 (pre ++ firstn 160 rest) (skipn 160 rest) He1 Hd1 Hi1) as (s' & cs & E & He' & Fc & Lc & D); [exact Fs | rewrite skipn_length; lia | lia|].
    destruct X as [-> | ->]; cbn [rbind]; rewrite Sp, Lp, E; cbn [rbind]; cbn [block_octets] in *.
    + destruct (pack_voip_bits f Lf) as (_ & Pb1 & Pb2). eexists _, _. split; [reflexivity|]. split; [exact He'|]. split; [apply Forall_app; split; assumption|]. split; [rewrite app_length; lia|]. intros fuel2 H2. destruct fuel2 as [|fuel2]; [lia|]. destruct (D fuel2 ltac:(lia)) as (t' & a' & Ed & Hd' & Hi' & La' & Pa').
      destruct (pack_voip f ++ cs) as [|o os] eqn:Eo; [exfalso; apply (f_equal (@length Z)) in Eo; rewrite app_length, Pb2 in Eo; discriminate|]. cbn [decode_loop]. rewrite <- Eo. rewrite (voip_round f cs Ff). cbn [rbind]. rewrite D1. cbn [rbind]. rewrite (skipn_n 33 _ _ Pb2), Ed. cbn [rbind].
      eexists _, _. split; [reflexivity|]. split; [exact Hd'|]. split; [exact Hi'|]. split; [rewrite !app_length; rewrite skipn_length in La'; lia | repeat (apply Forall_app; split); assumption].
    + destruct (none_round f cs Ff) as (Pn & Pb1 & Pb2). assert (L76 : length (pack_none f) = 76%nat) by (rewrite Pn; exact Lf). eexists _, _. split; [reflexivity|]. split; [exact He'|]. split; [apply Forall_app; split; assumption|]. split; [rewrite app_length; lia|]. intros fuel2 H2. destruct fuel2 as [|fuel2]; [lia|]. destruct (D fuel2 ltac:(lia)) as (t' & a' & Ed & Hd' & Hi' & La' & Pa').
      destruct (pack_none f ++ cs) as [|o os] eqn:Eo; [exfalso; apply (f_equal (@length Z)) in Eo; rewrite app_length, L76 in Eo; discriminate|]. cbn [decode_loop]. rewrite <- Eo in Pb2. rewrite <- Eo. rewrite Pb2. cbn [rbind]. rewrite D1. cbn [rbind]. rewrite (skipn_n 76 _ _ L76), Ed. cbn [rbind].
      eexists _, _. split; [reflexivity|]. split; [exact Hd'|]. split; [exact Hi'|]. split; [rewrite !app_length; rewrite skipn_length in La'; lia | repeat (apply Forall_app; split); assumption].
Qed.
Lemma encode_ok p s n amp : enc_ok s -> Forall i16 amp -> length amp = (block_samples p * n)%nat ->
  exists s' c, gsm0610_encode p s amp = Ok (s', c) /\ enc_ok s' /\ Forall byte c /\ length c = (block_octets p * n)%nat.
Proof.
  intros He F L. set (t := {| dp0 := dp0 s; z1 := 0; L_z2 := 0; mp := 0; us := []; larpp := larpp s; nrp := 40; vs := []; msr := 0 |}).
  destruct (stream_ok p n (length amp) s t [] amp) as (s' & c & E & He' & Fc & Lc & _); [exact He | destruct He as (_ & A & B & _ & C); repeat split; cbn; assumption || lia | split; reflexivity | exact F | exact L | destruct p; cbn [block_samples] in L; lia|]. exists s', c. auto.
Qed.
Lemma both_ok p s t n amp : enc_ok s -> dec_ok t -> in_step s t -> Forall i16 amp -> length amp = (block_samples p * n)%nat ->
  exists s' c t' a, gsm0610_encode p s amp = Ok (s', c) /\ gsm0610_decode p t c = Ok (t', a) /\ enc_ok s' /\ dec_ok t' /\ in_step s' t' /\ length a = length amp /\ Forall pcm8 a.
Proof.
  intros He Hd Hi F L. destruct (stream_ok p n (length amp) s t [] amp He Hd Hi F L) as (s' & c & E & He' & Fc & Lc & D); [destruct p; cbn [block_samples] in L; lia|].
  destruct (D (length c)) as (t' & a & Ed & Hd' & Hi' & La & Pa); [rewrite Lc; destruct p; cbn [block_octets]; lia|]. exists s', c, t', a. split; [exact E|]. split; [exact Ed|]. auto.
Qed.
(** any octets *)
Lemma decode_loop_S k p s c : (0 < length c)%nat -> decode_loop (S k) p s c =
  do (s, a, n) <-
    match p with
    | NONE => do f <- unpack_none c; do (s, a) <- decode_a_frame s f; Ok (s, a, 76%nat)
    | WAV49 => do f <- unpack_wav49 c; do (s, a) <- decode_a_frame s (firstn 76 f); do (s, b) <- decode_a_frame s (skipn 76 f); Ok (s, a ++ b, 65%nat)
    | VOIP => do f <- unpack_voip c; do (s, a) <- decode_a_frame s f; Ok (s, a, 33%nat)
    end;
  do (s, b) <- decode_loop k p s (skipn n c);
  Ok (s, a ++ b).
Proof. destruct c; [cbn; lia | reflexivity]. Qed.
Lemma decode_any p n : p <> NONE -> forall fuel t c, dec_ok t -> Forall byte c -> length c = (block_octets p * n)%nat -> (n <= fuel)%nat ->
  exists t' a, decode_loop fuel p t c = Ok (t', a) /\ dec_ok t' /\ length a = (block_samples p * n)%nat /\ Forall pcm8 a.
Proof.
  intros Hp. induction n as [|n IH]; intros fuel t c Hd F L Hf.
  { rewrite Nat.mul_0_r in L. destruct c; [|discriminate]. exists t, []. rewrite Nat.mul_0_r. split; [destruct fuel; reflexivity|]. split; [exact Hd|]. split; [reflexivity | constructor]. }
  destruct fuel as [|fuel]; [lia|]. destruct p; [congruence | |]; cbn [block_octets block_samples] in *.
  - destruct (unpack_wav49_bits c F ltac:(lia)) as (f & E & Ff & _). rewrite decode_loop_S by lia. rewrite E. cbn [rbind].
    apply Forall2_app_inv_l in Ff as (f1 & f2 & F1 & F2 & ->). assert (Lf : length f1 = 76%nat) by (pose proof (fits_length _ _ F1) as X; change (length sizes) with 76%nat in X; lia). rewrite (firstn_n 76 f1 f2 Lf), (skipn_n 76 f1 f2 Lf).
    destruct (decode_frame_ok t f1 Hd F1) as (t1 & a & -> & Hd1 & La & Pa). cbn [rbind]. destruct (decode_frame_ok t1 f2 Hd1 F2) as (t2 & b & -> & Hd2 & Lb & Pb). cbn [rbind].
    destruct (IH fuel t2 (skipn 65 c) Hd2) as (t' & a' & -> & Hd' & La' & Pa'); [apply Forall_skipn'; exact F | rewrite skipn_length; lia | lia|]. cbn [rbind]. eexists _, _. split; [reflexivity|]. split; [exact Hd'|]. split; [rewrite !app_length; lia | repeat (apply Forall_app; split); assumption].
  - destruct (unpack_voip_bits c ltac:(lia)) as (f & E & Ff & _). rewrite decode_loop_S by lia. rewrite E. cbn [rbind].
    destruct (decode_frame_ok t f Hd Ff) as (t1 & a & -> & Hd1 & La & Pa). cbn [rbind].
    destruct (IH fuel t1 (skipn 33 c) Hd1) as (t' & a' & -> & Hd' & La' & Pa'); [apply Forall_skipn'; exact F | rewrite skipn_length; lia | lia|]. cbn [rbind]. eexists _, _. split; [reflexivity|]. split; [exact Hd'|]. split; [rewrite !app_length; lia | repeat (apply Forall_app; split); assumption].
Qed.
Lemma decode_ok p s n code : p <> NONE -> dec_ok s -> Forall byte code -> length code = (block_octets p * n)%nat ->
  exists s' a, gsm0610_decode p s code = Ok (s', a) /\ dec_ok s' /\ length a = (block_samples p * n)%nat /\ Forall (fun x => i16 x /\ x mod 8 = 0) a.
Proof. intros Hp Hd F L. apply (decode_any p n Hp (length code) s code Hd F L). rewrite L. destruct p; cbn [block_octets]; lia. Qed.
Lemma decode_none_ok s frames : dec_ok s -> Forall (fits sizes) frames -> exists s' a, gsm0610_decode NONE s (concat frames) = Ok (s', a) /\ dec_ok s' /\ length a = (160 * length frames)%nat /\ Forall (fun x => i16 x /\ x mod 8 = 0) a.
Proof.
  intros Hd F. unfold gsm0610_decode. assert (G : (length frames <= length (concat frames))%nat).
  { induction F as [|f l Hf Fl IH]; cbn [concat length]; [lia|]. rewrite app_length. pose proof (fits_length _ _ Hf) as X. change (length sizes) with 76%nat in X. lia. }
  revert s Hd. generalize dependent (length (concat frames)). intros fuel G s Hd. revert fuel s G Hd. induction F as [|f l Hf Fl IH]; intros fuel s G Hd.
  { exists s, []. split; [destruct fuel; reflexivity|]. split; [exact Hd|]. split; [reflexivity | constructor]. }
  cbn [length] in G. destruct fuel as [|fuel]; [lia|]. cbn [concat]. destruct (none_round f (concat l) Hf) as (Pn & _ & Pu). rewrite Pn in Pu. assert (Lf : length f = 76%nat) by (pose proof (fits_length _ _ Hf) as X; change (length sizes) with 76%nat in X; lia).
  destruct (f ++ concat l) as [|o os] eqn:Eo; [exfalso; apply (f_equal (@length Z)) in Eo; rewrite app_length, Lf in Eo; discriminate|]. cbn [decode_loop]. rewrite <- Eo in Pu. rewrite <- Eo. rewrite Pu. cbn [rbind]. destruct (decode_frame_ok s f Hd Hf) as (t1 & a & -> & Hd1 & La & Pa). cbn [rbind]. rewrite (skipn_n 76 _ _ Lf).
  destruct (IH fuel t1 ltac:(lia) Hd1) as (t' & a' & -> & Hd' & La' & Pa'). cbn [rbind]. eexists _, _. split; [reflexivity|]. split; [exact Hd'|]. split; [rewrite app_length; cbn [length]; lia | apply Forall_app; split; assumption].
Qed.

(** ---- gains ---- *)
Lemma code_gain_eq R S : 16384 <= S <= 32767 -> code_gain R S = gain R S.
Proof.
  intros H. unfold code_gain, gain, DLB. cbn [nth]. assert (M : forall t, 0 < t < 32768 -> sat_mul16 S t = S * t / 32768).
  { intros t Ht. unfold sat_mul16. destruct (Z.eqb_spec (S * t) 1073741824); [nia|]. rewrite Z.shiftr_div_pow2 by lia. change (2 ^ 15) with 32768. apply s16_id. unfold i16. assert (0 <= S * t / 32768) by (apply Z.div_pos; nia). assert (S * t / 32768 < 32768) by (apply Z.div_lt_upper_bound; nia). lia. }
  rewrite !M by lia. cbn [filter]. assert (S * 6554 / 32768 <= S * 16384 / 32768) by (apply Z.div_le_mono; lia). assert (S * 16384 / 32768 <= S * 26214 / 32768) by (apply Z.div_le_mono; lia).
  destruct (Z.leb_spec R (S * 6554 / 32768)), (Z.leb_spec R (S * 16384 / 32768)), (Z.leb_spec R (S * 26214 / 32768)); try lia;
    destruct (Z.ltb_spec (S * 6554 / 32768) R); try lia; destruct (Z.ltb_spec (S * 16384 / 32768) R); try lia; destruct (Z.ltb_spec (S * 26214 / 32768) R); try lia; reflexivity.
Qed.
Lemma ltp_exact d h : Forall i16 d -> length d = 40%nat -> (120 <= length h)%nat -> Forall i16 h ->
  exists Nc bc scale, evaluate_ltp_parameters d h = Ok (Nc, bc) /\ 40 <= Nc <= 120 /\ 0 <= scale <= 6 /\
    let wt := map (fun x => Z.shiftr x scale) d in
    (forall j, 40 <= j <= 120 -> dot wt (from_past h (Z.to_nat j)) <= Z.max 0 (dot wt (from_past h (Z.to_nat Nc)))) /\
    let L_max := Z.shiftr (Z.max 0 (dot wt (from_past h (Z.to_nat Nc))) * 2) (6 - scale) in
    let L_power := total (map (fun x => Z.shiftr x 3 * Z.shiftr x 3) (from_past h (Z.to_nat Nc))) * 2 in
    (L_max <= 0 -> bc = 0) /\ (0 < L_max -> L_power <= L_max -> bc = 3) /\
    (0 < L_max < L_power -> exists n, 0 <= n <= 30 /\ 1073741824 <= L_power * 2 ^ n <= 2147483647 /\ bc = gain (Z.shiftr (L_max * 2 ^ n) 16) (Z.shiftr (L_power * 2 ^ n) 16)).
Proof.
  intros Fd Ld Lh Fh. destruct (evaluate_ltp_ok d h Fd Ld Lh Fh) as (Nc & bc & sc & E & HN & Hb & Hs & A & B & C & D). exists Nc, bc, sc. split; [exact E|]. split; [exact HN|]. split; [exact Hs|]. cbv zeta. split; [exact A|]. split; [exact B|]. split; [exact C|].
  intros H. destruct (D H) as (n & Hn & R & ->). exists n. split; [exact Hn|]. split; [exact R|]. apply code_gain_eq. rewrite Z.shiftr_div_pow2 by lia. change (2 ^ 16) with 65536. match goal with |- _ <= ?a / 65536 <= _ => set (v := a) in *; clearbody v end. split; [apply Z.div_le_lower_bound; lia|]. assert (v / 65536 < 32768) by (apply Z.div_lt_upper_bound; lia). lia.
Qed.

(** ---- the samples after the analysis ---- *)
Lemma rescale s x : i16 x -> x <= 32759 -> s <= 4 -> Z.abs (scale_up s (scale_down s x) - x) <= 8.
Proof.
  intros H H2 Hs. unfold scale_up, scale_down. destruct (Z.ltb_spec 0 s); [|lia]. unfold i16 in H. assert (C : s = 1 \/ s = 2 \/ s = 3 \/ s = 4) by lia.
  rewrite gsm_mult_r_eq; [|exact H | destruct C as [-> | [-> | [-> | ->]]]; vm_compute; split; discriminate].
  destruct C as [-> | [-> | [-> | ->]]];
    [change (Z.shiftr 16384 (1 - 1)) with 16384; change (2 ^ 1) with 2 | change (Z.shiftr 16384 (2 - 1)) with 8192; change (2 ^ 2) with 4 | change (Z.shiftr 16384 (3 - 1)) with 4096; change (2 ^ 3) with 8 | change (Z.shiftr 16384 (4 - 1)) with 2048; change (2 ^ 4) with 16];
    match goal with |- context [(x * ?k + 16384) / 32768] => pose proof (Z.div_mod (x * k + 16384) 32768 ltac:(lia)); pose proof (Z.mod_pos_bound (x * k + 16384) 32768 ltac:(lia)); set (q := (x * k + 16384) / 32768) in *; clearbody q end;
    rewrite Z.min_r by lia; rewrite s16_id by (unfold i16; lia); lia.
Qed.
Lemma analysis_keeps so : Forall (fun x => -32768 <= x <= 32759) so -> length so = 160%nat -> exists l so', lpc_analysis so = Ok (l, so') /\ Forall2 (fun x y => Z.abs (y - x) <= 8) so so'.
Proof.
  intros F L. assert (F' : Forall i16 so) by (eapply Forall_impl; [|exact F]; intros x Hx; cbn beta in Hx; unfold i16; lia).
  unfold lpc_analysis. destruct (autocorrelation_ok so F' L) as (l0 & ls & so' & E & Ll & H0 & Fl & Fs & Ls & s & Es & ->). rewrite E. cbn [rbind].
  destruct (reflection_ok l0 ls Ll H0 Fl) as (r & E1 & Lr & Fr). rewrite E1. cbn [rbind].
  destruct (res_map_ok log_area_ratio (fun _ => True) r) as (lar & E2 & _ & Lar); [intros x I; destruct (log_area_ratio_ok x (Forall_In _ _ _ Fr I)) as (y & E2 & _); exists y; auto|].
  rewrite E2. cbn [rbind]. eexists _, _. split; [reflexivity|]. assert (S4 : s <= 4). { destruct (max_abs_ok so F') as [M1 _]. destruct (scaling_ok _ M1) as (s2 & E3 & H3 & _). rewrite Es in E3. apply Ok_inj in E3. lia. }
  clear - F S4. induction F as [|x t Hx F IH]; cbn [map]; constructor; [|exact IH]. apply rescale; [unfold i16; lia | lia | exact S4].
Qed.
(** ---- lengths ---- *)
Lemma quantiser x : Forall i16 x -> exists xMc mant exp xmaxc y, apcm_quantization x = Ok (xMc, mant, exp, xmaxc) /\ apcm_inverse_quantization xMc mant exp = Ok y /\ 0 <= xmaxc < 64 /\ Forall (fun c => 0 <= c <= 7) xMc /\
  Forall2 (fun a b => 64 * Z.abs (a - b) <= 9 * max_abs x + 256) x y.
Proof. intros F. destruct (apcm_ok x F) as (xMc & mant & exp & xmaxc & y & E1 & Hc & Fc & _ & _ & E2 & _ & Err). exists xMc, mant, exp, xmaxc, y. auto. Qed.
