(** GSM 06.10: the properties. *)
From Verif Require Import Base Gsm_model Gsm_spec Gsm_arith_proofs Gsm_enc_proofs Gsm_rpe_proofs Gsm_frame_proofs Gsm_pack_proofs Gsm_api_proofs.
Local Open Scope Z_scope.

(** C114: a packed frame is its fields, each of the size of the standard, one after the other: after the signature 1101 and
    from the highest bit for VOIP, two frames and from the lowest bit for WAV49, an octet each for NONE; and the frame is got
    back whatever follows. *)
Theorem gsm_pack_fields f g : fits sizes f -> fits sizes g ->
  (flat_map (bits_msb 8) (pack_voip f) = [true; true; false; true] ++ fields bits_msb sizes f /\ length (pack_voip f) = 33%nat /\ Forall byte (pack_voip f)) /\
  (flat_map (bits_lsb 8) (pack_wav49 (f ++ g)) = fields bits_lsb (sizes ++ sizes) (f ++ g) /\ length (pack_wav49 (f ++ g)) = 65%nat /\ Forall byte (pack_wav49 (f ++ g))) /\
  pack_none f = f.
Proof.
  intros F G. pose proof (fits_length _ _ F) as L. destruct (pack_voip_bits f (eq_sym L)) as (A & B & C). destruct (pack_wav49_bits (f ++ g) (Forall2_app F G)) as (A' & B' & C').
  split; [split; [exact A|]; split; assumption|]. split; [split; [exact A'|]; split; assumption|]. apply (none_round f [] F).
Qed.
Theorem gsm_pack_round f g rest : fits sizes f -> fits sizes g -> Forall byte rest ->
  unpack_voip (pack_voip f ++ rest) = Ok f /\ unpack_wav49 (pack_wav49 (f ++ g) ++ rest) = Ok (f ++ g) /\ unpack_none (pack_none f ++ rest) = Ok f.
Proof. intros F G R. split; [exact (voip_round f rest F)|]. split; [exact (wav49_round (f ++ g) rest (Forall2_app F G) R) | apply (none_round f rest F)]. Qed.
Theorem gsm_unpack_fields c : Forall byte c ->
  ((33 <= length c)%nat -> exists f, unpack_voip c = Ok f /\ fits sizes f /\ fields bits_msb sizes f = skipn 4 (flat_map (bits_msb 8) (firstn 33 c))) /\
  ((65 <= length c)%nat -> exists f, unpack_wav49 c = Ok f /\ fits (sizes ++ sizes) f /\ fields bits_lsb (sizes ++ sizes) f = flat_map (bits_lsb 8) (firstn 65 c)).
Proof. intros F. split; [exact (unpack_voip_bits c) | exact (unpack_wav49_bits c F)]. Qed.
Definition sample_frame : list Z := map (fun n => 2 ^ Z.of_nat n - 2) sizes.
Example gsm_pack_ex : fits sizes sample_frame /\ length sample_frame = 76%nat /\ hd 0 (pack_voip sample_frame) = 0xDF /\ nth 1 (pack_voip sample_frame) 0 = 0xBE.
Proof. split; [|vm_compute; auto]. unfold fits, sample_frame, sizes. cbn. repeat (constructor; [lia|]). constructor. Qed.

(** C115: whatever whole blocks of octets arrive, a decoder for VOIP or WAV49 makes 160 samples a frame, each of 16 bits and
    a multiple of 8. *)
Theorem gsm_decode_any p s n code : p <> NONE -> dec_ok s -> Forall byte code -> length code = (block_octets p * n)%nat ->
  exists s' a, gsm0610_decode p s code = Ok (s', a) /\ dec_ok s' /\ length a = (block_samples p * n)%nat /\ Forall (fun x => i16 x /\ x mod 8 = 0) a.
Proof. exact (decode_ok p s n code). Qed.
Example gsm_decode_any_ex : dec_ok gsm_init /\ match gsm0610_decode VOIP gsm_init (repeat 0xA7 66) with Ok (_, a) => existsb (fun x => negb (x =? 0)) a = true | UB => False end.
Proof. split; [exact init_dec_ok | vm_compute; reflexivity]. Qed.

(** C116: a decoder for one octet a parameter makes samples of whatever arrives too. It does not: a gain of 255 is looked up
    beyond the table of four. It does when the parameters are of their sizes. *)
Theorem gsm_decode_none_refuted : exists code, Forall byte code /\ length code = 76%nat /\ gsm0610_decode NONE gsm_init code = UB.
Proof. exists (repeat 0 9 ++ [255] ++ repeat 0 66). split; [apply Forall_forall; intros x I; rewrite !in_app_iff in I; unfold byte; destruct I as [I | [[<- | []] | I]]; try (apply repeat_spec in I; subst x); lia|]. split; vm_compute; reflexivity. Qed.
Theorem gsm_decode_none_partial s frames : dec_ok s -> Forall (fits sizes) frames ->
  exists s' a, gsm0610_decode NONE s (concat frames) = Ok (s', a) /\ dec_ok s' /\ length a = (160 * length frames)%nat /\ Forall (fun x => i16 x /\ x mod 8 = 0) a.
Proof. exact (decode_none_ok s frames). Qed.
Example gsm_decode_none_ex : Forall (fits sizes) [sample_frame; sample_frame].
Proof. pose proof (proj1 gsm_pack_ex) as F. constructor; [exact F|]. constructor; [exact F | constructor]. Qed.

(** C117: whatever samples are given in whole blocks, no sum of the encoder overflows, no index leaves its table, and it
    makes 76, 65 or 33 octets a block; the parameters of each frame are of their sizes, with lags from 40 to 120. *)
Theorem gsm_encode_any p s n amp : enc_ok s -> Forall i16 amp -> length amp = (block_samples p * n)%nat ->
  exists s' c, gsm0610_encode p s amp = Ok (s', c) /\ enc_ok s' /\ Forall byte c /\ length c = (block_octets p * n)%nat.
Proof. exact (encode_ok p s n amp). Qed.
Theorem gsm_encode_frame_any s amp : enc_ok s -> Forall i16 amp -> length amp = 160%nat ->
  exists s' f, encode_a_frame s amp = Ok (s', f) /\ enc_ok s' /\ fits sizes f /\ lags_ok f.
Proof. intros He F L. destruct (encode_frame_ok s amp He F L) as (s' & f & E & He' & Ff & Fl & _). exists s', f. auto. Qed.
Definition sawtooth (n : nat) : list Z := map (fun i => (Z.of_nat i * 1931) mod 65536 - 32768) (seq 0 n).
Example gsm_encode_any_ex : enc_ok gsm_init /\ forallb (fun x => (-32768 <=? x) && (x <=? 32767)) (sawtooth 320) = true /\
  match gsm0610_encode WAV49 gsm_init (sawtooth 320) with Ok (_, c) => length c = 65%nat | UB => False end.
Proof. split; [exact init_enc_ok | vm_compute; auto]. Qed.

(** C118: the decoder follows the encoder: from contexts in step, given what the encoder made, it has as many samples, and has
    the same reconstructed residual and coefficients as the encoder has. *)
Theorem gsm_decoder_tracks p s t n amp : enc_ok s -> dec_ok t -> in_step s t -> Forall i16 amp -> length amp = (block_samples p * n)%nat ->
  exists s' c t' a, gsm0610_encode p s amp = Ok (s', c) /\ gsm0610_decode p t c = Ok (t', a) /\ enc_ok s' /\ dec_ok t' /\ in_step s' t' /\ length a = length amp /\ Forall (fun x => i16 x /\ x mod 8 = 0) a.
Proof. exact (both_ok p s t n amp). Qed.
Example gsm_decoder_tracks_ex : in_step gsm_init gsm_init /\
  match gsm0610_encode VOIP gsm_init (sawtooth 320) with
  | Ok (s, c) => match gsm0610_decode VOIP gsm_init c with Ok (t, _) => dp0 s = dp0 t /\ existsb (fun x => negb (x =? 0)) (dp0 s) = true | UB => False end
  | UB => False
  end.
Proof. split; [split; reflexivity | vm_compute; auto]. Qed.

(** C119: when no sum of the analysis lattice is clipped, the synthesis lattice gets the samples back exactly from the
    residual, and the two are ready to go on. *)
Theorem gsm_short_term_exact a b u v so : length a = 8%nat -> length b = 8%nat -> length u = 8%nat -> length so = 160%nat -> Forall i16 a -> Forall i16 b -> Forall i16 u -> Forall i16 so -> firstn 8 v = u -> unclipped_frame a b u so ->
  let r := by_parts short_term_analysis_filtering a b u so in let q := by_parts short_term_synthesis_filtering a b v (snd r) in snd q = so /\ firstn 8 (fst q) = fst r.
Proof. exact (short_term_undone a b u v so). Qed.
Fixpoint unclipped_b (rp u : list Z) (d : Z) : bool :=
  match rp, u with r :: rp, x :: u => let y := d + (r * x + 16384) / 32768 in (-32768 <=? y) && (y <=? 32767) && unclipped_b rp u y | _, _ => true end.
Fixpoint unclipped_all_b (rp u amp : list Z) : bool := match amp with [] => true | x :: t => unclipped_b rp u x && unclipped_all_b rp (snd (lattice rp u x x)) t end.
Lemma unclipped_b_ok rp : forall u d, unclipped_b rp u d = true -> unclipped rp u d.
Proof. induction rp as [|r rp IH]; intros [|x u] d H; cbn in *; auto. apply andb_prop in H as [H1 H2]. split; [unfold i16; lia | apply IH, H2]. Qed.
Lemma unclipped_all_b_ok rp amp : forall u, unclipped_all_b rp u amp = true -> unclipped_all rp u amp.
Proof. induction amp as [|x t IH]; intros u H; cbn [unclipped_all unclipped_all_b] in *; auto. apply andb_prop in H as [H1 H2]. split; [apply unclipped_b_ok, H1 | apply IH, H2]. Qed.
Example gsm_short_term_ex : let a := repeat 0 8 in let b := [8000; -6000; 3000; -2000; 500; -500; 300; 100] in let so := map (fun i => (Z.of_nat i * 1931) mod 4096 - 2048) (seq 0 160) in
  unclipped_frame a b (repeat 0 8) so /\ snd (by_parts short_term_analysis_filtering a b (repeat 0 8) so) <> so.
Proof. cbv zeta. split; [refine (conj _ (conj _ (conj _ _))); apply unclipped_all_b_ok; vm_cast_no_check (eq_refl true) | vm_compute; discriminate]. Qed.

(** C120: the 13 pulses of a subframe come back from their 3 bit codes with an error of at most 9/64 of the largest, and 4. *)
Theorem gsm_quantiser_error x : Forall i16 x -> exists xMc mant exp xmaxc y, apcm_quantization x = Ok (xMc, mant, exp, xmaxc) /\ apcm_inverse_quantization xMc mant exp = Ok y /\ 0 <= xmaxc < 64 /\ Forall (fun c => 0 <= c <= 7) xMc /\
  Forall2 (fun a b => 64 * Z.abs (a - b) <= 9 * max_abs x + 256) x y.
Proof. exact (quantiser x). Qed.
Theorem gsm_max_abs x : Forall i16 x -> Forall (fun a => Z.min 32767 (Z.abs a) <= max_abs x) x.
Proof. intros F. destruct (max_abs_ok x F) as [_ M]. eapply Forall_impl; [|exact M]. intros a. unfold sat_abs16. destruct (Z.eqb_spec a (-32768)); lia. Qed.
Example gsm_quantiser_ex : match apcm_quantization [16384; -16384; 0; 5000] with Ok (c, _, _, _) => c | UB => [] end = [7; 0; 4; 5].
Proof. vm_compute. reflexivity. Qed.

(** C121: the lag is one of those from 40 to 120 that predict the residual best, the gain counts the thresholds that the
    prediction passes, and the grid is one of the four with the most energy. *)
Theorem gsm_ltp_best d h : Forall i16 d -> length d = 40%nat -> (120 <= length h)%nat -> Forall i16 h ->
  exists Nc bc scale, evaluate_ltp_parameters d h = Ok (Nc, bc) /\ 40 <= Nc <= 120 /\ 0 <= scale <= 6 /\
    let wt := map (fun x => Z.shiftr x scale) d in
    (forall j, 40 <= j <= 120 -> dot wt (from_past h (Z.to_nat j)) <= Z.max 0 (dot wt (from_past h (Z.to_nat Nc)))) /\
    let L_max := Z.shiftr (Z.max 0 (dot wt (from_past h (Z.to_nat Nc))) * 2) (6 - scale) in
    let L_power := total (map (fun x => Z.shiftr x 3 * Z.shiftr x 3) (from_past h (Z.to_nat Nc))) * 2 in
    (L_max <= 0 -> bc = 0) /\ (0 < L_max -> L_power <= L_max -> bc = 3) /\
    (0 < L_max < L_power -> exists n, 0 <= n <= 30 /\ 1073741824 <= L_power * 2 ^ n <= 2147483647 /\ bc = gain (Z.shiftr (L_max * 2 ^ n) 16) (Z.shiftr (L_power * 2 ^ n) 16)).
Proof. exact (ltp_exact d h). Qed.
Theorem gsm_grid_best x : Forall i16 x -> length x = 40%nat -> exists Mc, rpe_grid_selection x = Ok (Mc, on_grid x (Z.to_nat Mc)) /\ 0 <= Mc <= 3 /\
  forall m, (m <= 3)%nat -> total (map sq4 (on_grid x m)) <= total (map sq4 (on_grid x (Z.to_nat Mc))).
Proof. exact (grid_ok x). Qed.
Theorem gsm_division num denom : 0 <= num <= denom -> 0 < denom -> gsm_div num denom = Ok (Z.min 32767 (num * 32768 / denom)).
Proof. exact (gsm_div_eq num denom). Qed.
Example gsm_ltp_ex : let h := map (fun i => (Z.of_nat i * 1931) mod 4096 - 2048) (seq 0 120) in evaluate_ltp_parameters (from_past h 67) h = Ok (67, 3) /\
  match rpe_grid_selection (repeat 0 14 ++ [5000] ++ repeat 0 25) with Ok (m, _) => m = 2 | UB => False end.
Proof. vm_compute. auto. Qed.

(** C122: the analysis gives the samples back changed by no more than their rounding to 12 bits. It does not when one is
    32760 or more: it is rounded up to 32768 and comes back as -32768, as samples an encoder is given can bring about.
    It does for the others. *)
Definition loud : list Z := repeat (-32768) (Z.to_nat 6400) ++ repeat 32767 160.
Theorem gsm_lpc_keeps_refuted : exists amp, Forall i16 amp /\
  match preprocess (z1 gsm_init) (L_z2 gsm_init) (mp gsm_init) amp with
  | Ok (_, _, _, so) => exists l so', lpc_analysis (skipn (Z.to_nat 6400) so) = Ok (l, so') /\ exists k, nth k (skipn (Z.to_nat 6400) so) 0 >= 32760 /\ nth k so' 0 = -32768
  | UB => False
  end.
Proof.
  assert (C : match preprocess (z1 gsm_init) (L_z2 gsm_init) (mp gsm_init) loud with
    | Ok (_, _, _, so) => match lpc_analysis (skipn (Z.to_nat 6400) so) with Ok (_, so') => (32760 <=? nth 0 (skipn (Z.to_nat 6400) so) 0) && (nth 0 so' 0 =? -32768) | UB => false end
    | UB => false end = true) by (vm_cast_no_check (eq_refl true)).
  exists loud. split; [apply Forall_forall; intros x I; unfold loud in I; apply in_app_iff in I as [I | I]; apply repeat_spec in I; subst x; unfold i16; lia|].
  destruct (preprocess _ _ _ loud) as [[[[a b] c] so]|]; [|discriminate C]. destruct (lpc_analysis _) as [[l so']|]; [|discriminate C].
  apply andb_prop in C as [C1 C2]. exists l, so'. split; [reflexivity|]. exists 0%nat. lia.
Qed.
Theorem gsm_lpc_keeps_partial so : Forall (fun x => -32768 <= x <= 32759) so -> length so = 160%nat -> exists l so', lpc_analysis so = Ok (l, so') /\ Forall2 (fun x y => Z.abs (y - x) <= 8) so so'.
Proof. exact (analysis_keeps so). Qed.
Example gsm_lpc_keeps_ex : match lpc_analysis (map (fun i => (Z.of_nat i * 1931) mod 65000 - 32500) (seq 0 160)) with Ok (_, so') => nth 1 so' 0 = -30576 | UB => False end.
Proof. vm_compute. reflexivity. Qed.

(** C123: lengths that are not of whole blocks are dealt with. They are not: the encoder goes on to samples beyond the end, a
    single frame with WAV49 among them, and the decoder to octets beyond the end. *)
Theorem gsm_whole_blocks_refuted : gsm0610_encode VOIP gsm_init (repeat 0 161) = UB /\ gsm0610_encode WAV49 gsm_init (repeat 0 160) = UB /\ gsm0610_decode VOIP gsm_init (repeat 0 34) = UB /\ gsm0610_decode WAV49 gsm_init (repeat 0 33) = UB.
Proof. vm_compute. auto. Qed.

Print Assumptions gsm_pack_fields.
Print Assumptions gsm_pack_round.
Print Assumptions gsm_unpack_fields.
Print Assumptions gsm_decode_any.
Print Assumptions gsm_decode_none_refuted.
Print Assumptions gsm_decode_none_partial.
Print Assumptions gsm_encode_any.
Print Assumptions gsm_encode_frame_any.
Print Assumptions gsm_decoder_tracks.
Print Assumptions gsm_short_term_exact.
Print Assumptions gsm_quantiser_error.
Print Assumptions gsm_max_abs.
Print Assumptions gsm_ltp_best.
Print Assumptions gsm_grid_best.
Print Assumptions gsm_division.
Print Assumptions gsm_lpc_keeps_refuted.
Print Assumptions gsm_lpc_keeps_partial.
Print Assumptions gsm_whole_blocks_refuted.
