From Verif Require Import Base Bits G722_model G722_spec G722_band_proofs G722_step_proofs G722_code_proofs G722_final_proofs G722_track_proofs.
From Verif Require G726_model G726_spec G726_pack_proofs.
From Coq Require Import ZifyBool ZifyNat.
Local Open Scope Z_scope.

(** ---- 8 kHz audio at a 16 kHz decoder ---- *)
Record quiet (s : band) : Prop := {
  z_nb : nb s = 0; z_det : det s = 8; z_sig : sig s = 0; z_sz : sz s = 0; z_rr : rr s = 0; z_p0 : p0 s = 0; z_p1 : p1 s = 0;
  z_bb : bb s = [0; 0; 0; 0; 0; 0]; z_dd : dd s = [0; 0; 0; 0; 0; 0; 0] }.
Lemma quiet_step s : quiet s -> exists s', dec_high s 3 = Ok (0, s') /\ quiet s'.
Proof.
  intros [H1 H2 H3 H4 H5 H6 H7 H8 H9]. unfold dec_high. rewrite H1, H2, H3.
  change (aget qm2 3) with (Ok 1616). cbn [rbind]. change (aget rh2 3) with (Ok 1). cbn [rbind]. change (aget wh 1) with (Ok (-214)). cbn [rbind]. cbv zeta.
  change (scale 10 _) with (Ok 8). cbn [rbind]. change (s16 (Z.shiftr (8 * 1616) 15)) with 0. change (s16 (if _ <? 0 then _ else _)) with 0.
  unfold block4. cbn [sig sz p0 p1 rr a0 a1 bb dd nb det set_scale]. rewrite H3, H4, H5, H6, H7, H8, H9. cbv zeta.
  change (sat_add16 0 0) with 0. rewrite !Z.mul_0_r. change (s16 (Z.shiftr 0 15)) with 0. change (sat_add16 0 0) with 0.
  change (aset [0; 0; 0; 0; 0; 0; 0] 0 0) with (Ok [0; 0; 0; 0; 0; 0; 0]). cbn [rbind].
  change (zeros 6 0 (if 0 =? 0 then 0 else 128) 0 [0; 0; 0; 0; 0; 0] [0; 0; 0; 0; 0; 0; 0]) with (Ok (0, [0; 0; 0; 0; 0; 0], [0; 0; 0; 0; 0; 0; 0])). cbn [rbind].
  eexists. split; [reflexivity|]. split; reflexivity.
Qed.
(** A code with 3 for the high band. *)
Definition high3 (r : rate) (v : Z) : Prop := exists l, 0 <= l < 64 /\ v = cut r (full 3 l).
Lemma quiet_codes c : itu c = false -> eight_k c = true -> forall l x y z, Forall (high3 (bits c)) l -> inv x -> inv y -> inv z -> low x = low y -> low x = low z ->
  quiet (high y) -> quiet (high z) -> xs z = ys z ->
  exists o x' y' o2 z', dec_codes c x l = Ok (o, x') /\ dec_codes (test_mode c) y l = Ok (flat_map (fun v => [v; 0]) o, y') /\ dec_codes (wide c) z l = Ok (o2, z') /\
    inv z' /\ quiet (high z') /\ xs z' = ys z'.
Proof.
  intros Hi He. induction l as [|v l IH]; intros x y z F Ix Iy Iz E1 E2 Qy Qz Ez.
  - exists [], x, y, [], z. cbn. auto 10.
  - inversion F as [|? ? (m & Hm & Hv) F']; subst. destruct (split_cut (bits c) 3 m ltac:(lia) Hm) as [Es Hc]. set (v := cut (bits c) (full 3 m)) in *.
    assert (Hv : 0 <= v) by (unfold code_ok in Hc; lia).
    destruct (decode1_ok c x v Ix Hv) as (o1 & x1 & D1 & Ix1 & _). destruct (decode1_ok (test_mode c) y v Iy Hv) as (o2 & y1 & D2 & Iy1 & _).
    destruct (decode1_ok (wide c) z v Iz Hv) as (o3 & z1 & D3 & Iz1 & _).
    destruct (quiet_step _ Qy) as (hy & Ey & Qy1). destruct (quiet_step _ Qz) as (hz & Ezz & Qz1).
    assert (A : low x1 = low y1 /\ low x1 = low z1 /\ quiet (high y1) /\ quiet (high z1) /\ xs z1 = ys z1 /\ exists w, o1 = [w] /\ o2 = [w; 0]).
    { clear IH. revert D1 D2 D3. unfold decode1. cbn [bits test_mode wide itu eight_k]. rewrite Hi, He, Es. cbn [rbind]. rewrite <- E1, <- E2.
      destruct (dec_low (low x) (Z.shiftr m 2)) as [l'|]; cbn [rbind]; [|discriminate].
      rewrite Ey, Ezz. cbn [rbind]. intros D1 D2. inversion D1; inversion D2; subst. clear D1 D2. rewrite Ez, Z.sub_0_r, Z.add_0_r.
      destruct (aset (ys z) (ptr z) _) as [yl|]; cbn [rbind]; [|discriminate].
      destruct (circular_dot yl qmf_rev _) as [u|]; cbn [rbind]; [|discriminate]. destruct (circular_dot yl qmf_fwd _) as [k|]; cbn [rbind]; [|discriminate].
      intros D3; inversion D3; subst. cbn [low high xs ys]. repeat (split; [auto|]). eexists. split; reflexivity. }
    destruct A as (A1 & A2 & A3 & A4 & A5 & w & -> & ->).
    destruct (IH x1 y1 z1 F' Ix1 Iy1 Iz1 A1 A2 A3 A4 A5) as (o & x' & y' & o4 & z' & G1 & G2 & G3 & G4 & G5 & G6).
    eexists ([w] ++ o), x', y', _, z'. cbn [dec_codes]. rewrite D1, D2, D3. cbn [rbind]. rewrite G1, G2, G3. cbn [rbind]. split; [reflexivity|]. split; [reflexivity|]. split; [reflexivity|]. auto.
Qed.
Lemma enc_high3 c : eight_k c = true -> forall f x amp codes y, inv x -> audio amp -> whole c amp -> enc_codes c f x amp = Ok (codes, y) -> Forall (high3 (bits c)) codes.
Proof.
  intros He. induction f as [|f IH]; intros x amp codes y I F W E.
  - destruct amp; [|discriminate]. cbn in E. inversion E. constructor.
  - destruct amp as [|a t]; [rewrite enc_codes_nil in E; inversion E; constructor|]. rewrite enc_codes_S in E by discriminate.
    destruct (encode1_ok c x (a :: t) I F W ltac:(discriminate)) as (code & x' & rest & ih & il & E1 & I' & Ec & Hh & Hl & H3 & S & _ & _ & F' & W' & N & L').
    rewrite E1 in E. cbn [rbind] in E. destruct (enc_codes c f x' rest) as [[l y0]|] eqn:E2; [|discriminate]. inversion E; subst codes y0.
    constructor; [exists il; rewrite (H3 He) in Ec; split; [lia | exact Ec] | exact (IH x' rest l y I' F' W' E2)].
Qed.
(** The codes a decoder takes from octets do not depend on its bands. *)
Lemma same_codes r pk data : bytes data -> exists l k w n, l = firstn k (if pk : bool then codes_of r data else data) /\
  forall e, bits e = r -> packed e = pk -> g722_decode e g722_init data = match dec_codes e g722_init l with Ok (o, y) => Ok (o, if pk then set_buf y w n else y) | UB => UB end.
Proof.
  intros F. destruct pk.
  - destruct (decode_packed_all r (2 * length data) 0 0 data [] F init_pend ltac:(cbn; lia) ltac:(unfold turns; lia)) as (fs & q' & w & n & E & P' & Lq & Ff & Ec). cbn [app] in Ec.
    exists (map of_bits_lsb fs), (length fs), w, n. split.
    + unfold codes_of. rewrite Ec, G726_pack_proofs.fields_app_rest by (auto; pose proof (width_range r); lia).
      rewrite map_app, firstn_app, map_length, Nat.sub_diag, firstn_O, app_nil_r, firstn_all2 by (rewrite map_length; lia). reflexivity.
    + intros e Hr Hp. unfold g722_decode. apply E; auto.
  - exists data, (length data), 0, 0. split; [rewrite firstn_all; reflexivity|]. intros e Hr Hp. unfold g722_decode. rewrite decode_plain by (auto; lia).
    destruct (dec_codes e g722_init data) as [[o y]|]; reflexivity.
Qed.
Lemma band_init_quiet : quiet (band_init 8). Proof. split; reflexivity. Qed.
Lemma forall_firstn {A} (P : A -> Prop) n l : Forall P l -> Forall P (firstn n l).
Proof. intros F. rewrite <- (firstn_skipn n l) in F. apply Forall_app in F. apply F. Qed.
Lemma narrow_to_wide r p amp : audio amp -> let c := options r true p in
  exists data x out y z out2 w, g722_encode c g722_init amp = Ok (data, x) /\ g722_decode c g722_init data = Ok (out, y) /\
    g722_decode (test_mode c) g722_init data = Ok (flat_map (fun v => [v; 0]) out, z) /\
    g722_decode (wide c) g722_init data = Ok (out2, w) /\ xs w = ys w /\ sig (high w) = 0.
Proof.
  intros F. cbv zeta. set (c := options r true p). assert (W : whole c amp) by (intros X; discriminate).
  destruct (encode_any c amp F W) as (codes & x & data & x' & _ & Fc & Lc & E2 & Ed & _ & _ & E3 & Ix).
  assert (Bd : bytes data) by (subst data; destruct (packed c); [apply octets_bytes | apply (codes_bytes _ _ Fc)]).
  pose proof (enc_high3 c eq_refl _ _ _ _ _ init_inv F W E3) as H3.
  destruct (same_codes (bits c) (packed c) data Bd) as (l & k & w & n & El & D).
  assert (Hl : Forall (high3 (bits c)) l).
  { subst l. apply forall_firstn. subst data. destruct (packed c); [|exact H3]. destruct (unpack_pack (bits c) codes Fc) as (j & -> & _). apply forall_firstn. exact H3. }
  destruct (quiet_codes c eq_refl eq_refl l g722_init g722_init g722_init Hl init_inv init_inv init_inv eq_refl eq_refl band_init_quiet band_init_quiet eq_refl)
    as (o & x1 & y1 & o2 & z1 & G1 & G2 & G3 & G4 & G5 & G6).
  pose proof (D c eq_refl eq_refl) as D1. pose proof (D (test_mode c) eq_refl eq_refl) as D2. pose proof (D (wide c) eq_refl eq_refl) as D3.
  rewrite G1 in D1. rewrite G2 in D2. rewrite G3 in D3.
  exists data, x'. do 5 eexists. split; [exact E2|]. split; [exact D1|]. split; [exact D2|]. split; [exact D3|]. split; destruct (packed c); cbn; auto; apply G5.
Qed.

(** ---- the quantiser ---- *)
Definition q6n (i : Z) : Z := nth (Z.to_nat i) q6 0.
Definition entry_ok (r : rate) (neg : bool) (i j : Z) : bool :=
  let q := level r (low_code neg i) in
  (if neg then q <=? 0 else 0 <=? q) && (Z.abs q <=? 24808) &&
  ((cut r (full 3 (low_code neg i)) =? cut r (full 3 (low_code neg j))) ||
   ((j <? i) && (8 * q6n j <=? Z.abs q)) || ((i <? j) && (Z.abs q <=? 8 * q6n (j - 1)))).
Lemma entries r neg i j : 1 <= i <= 30 -> 1 <= j <= 30 -> entry_ok r neg i j = true.
Proof.
  intros Hi Hj.
  assert (E : all_below_from (Z.to_nat 30) 0 (fun i => all_below_from (Z.to_nat 30) 0 (fun j => entry_ok r neg (i + 1) (j + 1))) = true) by (destruct r, neg; vm_compute; reflexivity).
  pose proof (sweep 30 _ E (i - 1) ltac:(lia)) as E1. cbv beta in E1. pose proof (sweep 30 _ E1 (j - 1) ltac:(lia)) as E2. cbv beta in E2.
  replace (i - 1 + 1) with i in E2 by lia. replace (j - 1 + 1) with j in E2 by lia. exact E2.
Qed.
Lemma thr_div d j : thr d j = q6n j * d / 4096. Proof. unfold thr, q6n. rewrite shiftr_ge0 by lia. reflexivity. Qed.
(** Two differences on the same side, the second between the first and its reconstruction. *)
Lemma between r d (neg : bool) el el' i j : 32 <= d <= 32064 -> 1 <= i <= 30 -> 1 <= j <= 30 ->
  (el <? 0) = neg -> (el' <? 0) = neg ->
  (i < 30 -> magn el < thr d i) -> (forall m, 1 <= m < i -> thr d m <= magn el) ->
  (j < 30 -> magn el' < thr d j) -> (forall m, 1 <= m < j -> thr d m <= magn el') ->
  let wd2 := Z.shiftr (d * level r (low_code neg i)) 15 in el <= el' < wd2 \/ wd2 < el' <= el ->
  cut r (full 3 (low_code neg j)) = cut r (full 3 (low_code neg i)).
Proof.
  intros Hd Hi Hj Hn Hn' A B A' B'. cbv zeta. intros C. pose proof (entries r neg i j Hi Hj) as T. unfold entry_ok in T.
  set (q := level r (low_code neg i)) in *. rewrite shiftr_ge0 in C by lia. change (2 ^ 15) with 32768 in C.
  apply andb_true_iff in T. destruct T as [T0 T]. apply andb_true_iff in T0. destruct T0 as [Tq _].
  apply orb_true_iff in T. destruct T as [T|T].
  2: { apply andb_true_iff in T. destruct T as [T1 T2]. exfalso.
    specialize (A ltac:(lia)). pose proof (B' i ltac:(lia)) as B1. pose proof (B' (j - 1) ltac:(lia)) as B2. rewrite thr_div in *.
    set (u := q6n (j - 1)) in *. clearbody u. assert (U : Z.abs q * d <= 8 * u * d) by (apply Z.mul_le_mono_nonneg_r; lia). unfold magn in *.
    destruct (Z.leb_spec 0 el), (Z.leb_spec 0 el'); try (destruct neg; lia).
    unfold Z.lnot in *. assert (- (d * q / 32768) <= u * d / 4096 + 1).
      { replace (d * q) with (- (Z.abs q * d)) by (destruct neg; [|lia]; rewrite Z.abs_neq by lia; ring). Z.div_mod_to_equations; lia. }
      lia. }
  apply orb_true_iff in T. destruct T as [T|T]; [apply Z.eqb_eq in T; symmetry; exact T|].
  apply andb_true_iff in T. destruct T as [T1 T2]. exfalso.
  specialize (A' ltac:(lia)). pose proof (B j ltac:(lia)) as B1. rewrite thr_div in *.
  set (u := q6n j) in *. clearbody u. assert (U : 8 * u * d <= Z.abs q * d) by (apply Z.mul_le_mono_nonneg_r; lia). unfold magn in *.
  destruct (Z.leb_spec 0 el), (Z.leb_spec 0 el'); try (destruct neg; lia).
  unfold Z.lnot in *. assert (d * q / 32768 <= - (u * d / 4096)).
    { replace (d * q) with (- (Z.abs q * d)) by (destruct neg; [|lia]; rewrite Z.abs_neq by lia; ring). Z.div_mod_to_equations; lia. }
    lia.
Qed.
Lemma level_sign r (neg : bool) i : 1 <= i <= 30 -> (if neg then level r (low_code neg i) <= 0 else 0 <= level r (low_code neg i)) /\ Z.abs (level r (low_code neg i)) <= 24808.
Proof. intros H. pose proof (entries r neg i i H H) as E. unfold entry_ok in E. destruct neg; lia. Qed.
Lemma enc_low_between r s x x' ilow s' : lowinv s -> -16384 <= x <= 16383 -> -16384 <= x' <= 16383 -> enc_low s x = Ok (ilow, s') ->
  let rl := saturate15 (sig s + Z.shiftr (det s * level r ilow) 15) in x <= x' < rl \/ rl < x' <= x ->
  exists il, enc_low s x' = Ok (il, s') /\ cut r (full 3 il) = cut r (full 3 ilow).
Proof.
  intros L Hx Hx' E. cbv zeta. rewrite sat15. intros C. pose proof L as [[Is _ _ _ _ _ _ _ _ _] _ Hd]. unfold sample in Is.
  destruct (enc_low_ok s x L) as (i & t & Hi & A & B & E1 & D1). cbv zeta in *. rewrite E1 in E. inversion E; subst ilow t. clear E.
  destruct (enc_low_ok s x' L) as (j & t & Hj & A' & B' & E2 & D2).
  set (el := sat_sub16 x (sig s)) in *. set (el' := sat_sub16 x' (sig s)) in *.
  assert (El : el = Z.max (-32768) (Z.min 32767 (x - sig s))) by (unfold el, sat_sub16; apply sat16).
  assert (El' : el' = Z.max (-32768) (Z.min 32767 (x' - sig s))) by (unfold el', sat_sub16; apply sat16).
  destruct (level_sign r (el <? 0) i Hi) as [Sg Mg]. set (q := level r (low_code (el <? 0) i)) in *.
  assert (Bw : Z.abs (Z.shiftr (det s * q) 15) <= 32000 /\ (if el <? 0 then Z.shiftr (det s * q) 15 <= 0 else 0 <= Z.shiftr (det s * q) 15)).
  { rewrite shiftr_ge0 by lia. change (2 ^ 15) with 32768. pose proof (mul_bound (det s) q 32064 24808 ltac:(clear - Hd; lia) ltac:(clear - Mg; lia)) as M.
    assert (Sp : if el <? 0 then det s * q <= 0 else 0 <= det s * q) by (clear - Sg Hd; clearbody q; destruct (el <? 0); [apply Z.mul_nonneg_nonpos | apply Z.mul_nonneg_nonneg]; lia).
    clear - M Sp. clearbody el q. generalize dependent (det s * q). intros v Sp M. split; [Z.div_mod_to_equations; lia|]. destruct (el <? 0); Z.div_mod_to_equations; lia. }
  destruct Bw as [Bw Sw]. set (wd2 := Z.shiftr (det s * q) 15) in *.
  assert (C2 : el <= el' < wd2 \/ wd2 < el' <= el) by (clear - C El El' Bw Sw Is Hx Hx'; clearbody el el' wd2; destruct (Z.ltb_spec el 0); lia).
  assert (Sn : (el' <? 0) = (el <? 0)) by (clear - C2 Bw Sw; clearbody el el' wd2; destruct (Z.ltb_spec el 0), (Z.ltb_spec el' 0); lia).
  pose proof (between r (det s) (el <? 0) el el' i j Hd Hi Hj eq_refl Sn A B A' B' C2) as Q.
  exists (low_code (el' <? 0) j). rewrite Sn in *. split; [|exact Q]. rewrite E2. repeat f_equal.
  (* the same state, as it depends on the upper bits only *)
  pose proof (low_code_range (el <? 0) i Hi) as R1. pose proof (low_code_range (el <? 0) j Hj) as R2.
  destruct (split_cut r 3 _ ltac:(lia) (conj (Z.le_trans 0 4 _ ltac:(lia) (proj1 R1)) (proj2 R1))) as [S1 _].
  destruct (split_cut r 3 _ ltac:(lia) (conj (Z.le_trans 0 4 _ ltac:(lia) (proj1 R2)) (proj2 R2))) as [S2 _].
  rewrite Q, S1 in S2. inversion S2 as [[X1 X2]]. rewrite <- X2, D1 in D2. congruence.
Qed.
Lemma enc_state c f amp codes x : audio amp -> whole c amp -> (length amp <= f)%nat -> enc_codes c f g722_init amp = Ok (codes, x) ->
  exists o w n, encode_loop c f g722_init amp = Ok (o, set_buf x w n).
Proof.
  intros F W L E. destruct (packed c) eqn:Hp.
  - destruct (encode_packed c Hp f g722_init amp [] init_inv F W L init_pend ltac:(cbn; lia)) as (codes' & y & o & w & n & q' & E1 & E2 & _).
    rewrite E in E1. inversion E1; subst. eauto.
  - rewrite (encode_plain c Hp), E. exists (map u8 codes), (buf x), (nbits x). rewrite set_buf_id. reflexivity.
Qed.
Lemma half v : Z.shiftr v 1 = v / 2. Proof. rewrite shiftr_ge0 by lia. reflexivity. Qed.
Lemma same_interval r p hist v : audio (hist ++ [v]) -> let c := options r true p in
  exists codes x data x2 out y d, g722_encode (plain c) g722_init (hist ++ [v]) = Ok (codes, x) /\ g722_encode c g722_init (hist ++ [v]) = Ok (data, x2) /\
    g722_decode (plain c) g722_init codes = Ok (out ++ [y], d) /\
    forall z, sample z -> v <= z < y \/ y + 2 <= z <= v -> g722_encode c g722_init (hist ++ [z]) = Ok (data, x2).
Proof.
  intros F. cbv zeta. set (c := options r true p). apply Forall_app in F. destruct F as [Fh Fv]. pose proof (Forall_inv Fv) as Hv.
  assert (Wh : forall l, whole c l) by (intros l X; discriminate).
  destruct (enc_codes_ok c (length (hist ++ [v])) g722_init hist init_inv Fh (Wh _) ltac:(rewrite app_length; lia)) as (codes & x & E & I & Fc & Lc & _).
  assert (Ea : forall f u x l c1 y1, (length l + 1 <= f)%nat -> enc_codes c f x l = Ok (c1, y1) -> enc_codes c f x (l ++ [u]) =
     match encode1 c y1 [u] with Ok (k, y, _) => Ok (c1 ++ [k], y) | UB => UB end).
  { clear. induction f as [|f IH]; intros u x l c1 y1 L E; [lia|]. destruct l as [|a t].
    - rewrite enc_codes_nil in E. inversion E; subst. cbn [app]. rewrite enc_codes_S by discriminate. destruct (encode1 c y1 [u]) as [[[k y] rr]|] eqn:K; cbn [rbind]; [|reflexivity].
      apply encode1_shorter in K. cbn in K. destruct rr; [|cbn in K; lia]. rewrite enc_codes_nil. reflexivity.
    - rewrite enc_codes_S in E by discriminate. rewrite enc_codes_S by discriminate. rewrite encode1_app by (try discriminate; intros X; discriminate).
      destruct (encode1 c x (a :: t)) as [[[k y] rr]|] eqn:K; cbn [rbind] in *; [|discriminate]. apply encode1_shorter in K. cbn [length] in *.
      destruct (enc_codes c f y rr) as [[l2 y2]|] eqn:K2; [|discriminate]. cbn [rbind] in E. inversion E; subst c1 y2.
      rewrite (IH u y rr l2 y1 ltac:(lia) K2). destruct (encode1 c y1 [u]) as [[[k2 y3] r3]|]; reflexivity. }
  destruct (encode_any c (hist ++ [v]) ltac:(apply Forall_app; auto) (Wh _)) as (codes2 & x1 & data & x2 & P1 & _ & _ & P2 & _ & _ & _ & P3 & Ix1).
  assert (Lh : (length hist + 1 <= length (hist ++ [v]))%nat) by (rewrite app_length; cbn [length]; lia).
  rewrite (Ea (length (hist ++ [v])) v g722_init hist codes x Lh E) in P3.
  destruct (enc_low_ok (low x) (Z.shiftr v 1) (v_low _ I)) as (i & l' & Hi & _ & _ & El & _). cbv zeta in El. set (il := low_code _ i) in El.
  assert (Ril : 4 <= il < 64) by (apply low_code_range; auto). clearbody il.
  assert (K1 : encode1 c x [v] = Ok (cut r (full 3 il), {| xs := xs x; ys := ys x; ptr := ptr x; low := l'; high := high x; buf := buf x; nbits := nbits x |}, [])).
  { unfold encode1, split_bands. cbn [itu eight_k c options]. cbn [rbind]. rewrite El. reflexivity. }
  rewrite K1 in P3. inversion P3; subst codes2.
  (* the decoder *)
  destruct (follow_codes c (plain c) eq_refl (length (hist ++ [v])) (length codes) g722_init g722_init hist codes x init_inv init_inv Fh (Wh _) ltac:(rewrite app_length; lia) ltac:(split; reflexivity) E ltac:(lia)) as (y1 & o & z1 & G1 & G2 & G3 & _).
  rewrite firstn_all in G1, G2. rewrite firstn_all2 in G1 by (rewrite Lc; unfold spc, n_codes; change (two_bands c) with false; cbv iota; lia). rewrite E in G1. inversion G1; subst y1.
  destruct (split_cut r 3 il ltac:(lia) ltac:(lia)) as [Sc Kc].
  set (rl := saturate15 (sig (low x) + Z.shiftr (det (low x) * level r il) 15)).
  assert (Rl : -16384 <= rl <= 16383) by (unfold rl; rewrite sat15; lia). destruct (double_range rl Rl) as [Dr _].
  assert (Dz : exists d, decode1 (plain c) z1 (cut r (full 3 il)) = Ok ([2 * rl], d)).
  { unfold decode1. cbn [bits itu eight_k c options plain]. rewrite Sc. cbn [rbind]. rewrite G3. fold rl.
    destruct (dec_low_ok (low x) (Z.shiftr il 2) (v_low _ I) ltac:(rewrite shiftr_ge0 by lia; change (2 ^ 2) with 4; Z.div_mod_to_equations; lia)) as (d2 & -> & _). cbn [rbind]. rewrite Dr. eexists. reflexivity. }
  destruct Dz as (d & Dz).
  exists (codes ++ [cut r (full 3 il)]), x1, data, x2, o, (2 * rl), d. split; [exact P1|]. split; [exact P2|]. split.
  { unfold g722_decode. rewrite decode_plain by (reflexivity || lia). rewrite dec_codes_app, G2. cbn [rbind dec_codes]. rewrite Dz. reflexivity. }
  intros z Hz C. rewrite <- P2. unfold g722_encode. rewrite !app_length. cbn [length].
  rewrite !(encode_app c _ _ g722_init hist (Wh _)) by (rewrite app_length; cbn; lia).
  rewrite app_length in E. cbn [length] in E.
  destruct (enc_state c (length hist + 1) hist codes x Fh (Wh _) ltac:(lia) E) as (oh & w & n & ->). cbn [rbind].
  assert (K2 : encode1 c x [z] = encode1 c x [v]).
  { rewrite K1. destruct (enc_low_between r (low x) (Z.shiftr v 1) (Z.shiftr z 1) il l' (v_low _ I)
      ltac:(unfold sample in *; rewrite half; Z.div_mod_to_equations; lia) ltac:(unfold sample in *; rewrite half; Z.div_mod_to_equations; lia) El
      ltac:(cbv zeta; fold rl; rewrite !half; Z.div_mod_to_equations; lia)) as (il2 & E3 & E4).
    unfold encode1, split_bands. cbn [itu eight_k c options bits]. cbn [rbind]. rewrite E3. cbn [rbind].
    change (Z.shiftr (Z.lor 0xC0 il2) (8 - bps r)) with (cut r (full 3 il2)). rewrite E4. reflexivity. }
  replace (encode_loop c (length hist + 1) (set_buf x w n) [z]) with (encode_loop c (length hist + 1) (set_buf x w n) [v]); [reflexivity|].
  replace (length hist + 1)%nat with (S (length hist)) by lia. rewrite !encode_loop_S by discriminate. rewrite !encode1_set_buf, K2. reflexivity.
Qed.
