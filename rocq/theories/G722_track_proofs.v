From Verif Require Import Base Bits G722_model G722_spec G722_band_proofs G722_step_proofs G722_code_proofs G722_final_proofs.
From Verif Require G726_model G726_spec G726_pack_proofs.
From Coq Require Import ZifyBool ZifyNat.
Local Open Scope Z_scope.

(** ---- the decoder follows ---- *)
(** The bands of the decoder [z] are those of the encoder [x], the high band only if both have one. *)
Definition follows (same : Prop) (x z : ctx) : Prop := low z = low x /\ (same -> high z = high x).
Lemma follow_step c cd x z ih il x' : bits cd = bits c -> 0 <= ih < 4 -> 4 <= il < 64 ->
  step_bands c (low x) (high x) ih (Z.shiftr il 2) = Ok (low x', high x') -> inv z -> follows (eight_k cd = eight_k c) x z ->
  exists o z', decode1 cd z (cut (bits c) (full ih il)) = Ok (o, z') /\ inv z' /\ length o = per_code cd /\ follows (eight_k cd = eight_k c) x' z'.
Proof.
  intros Eb Hh Hl S I [F1 F2]. destruct (split_cut (bits c) ih il Hh ltac:(lia)) as [Es Hc].
  destruct (decode1_ok cd z (cut (bits c) (full ih il)) I ltac:(unfold code_ok in Hc; lia)) as (o & z' & E & I' & _ & Lo & _).
  rewrite <- Eb in Es, E. pose proof (decode1_bands cd z _ _ _ _ Es _ _ E) as B. rewrite Eb in *.
  exists o, z'. split; [exact E|]. split; [auto|]. split; [auto|]. unfold step_bands in *. rewrite F1 in B.
  destruct (dec_low (low x) (Z.shiftr il 2)) as [l'|]; cbn [rbind] in *; [|discriminate].
  destruct (eight_k cd) eqn:E1, (eight_k c) eqn:E2.
  - pose proof (F2 eq_refl). inversion S; inversion B. split; congruence.
  - destruct (dec_high (high x) ih) as [[r h]|]; cbn [rbind] in *; [|discriminate]. inversion S; inversion B. split; [congruence|]. discriminate.
  - destruct (dec_high (high z) ih) as [[r h]|]; cbn [rbind] in *; [|discriminate]. inversion S; inversion B. split; [congruence|]. discriminate.
  - rewrite (F2 eq_refl) in B. destruct (dec_high (high x) ih) as [[r h]|]; cbn [rbind] in *; [|discriminate]. inversion S; inversion B. split; congruence.
Qed.
Lemma enc_codes_nil c f x : enc_codes c f x [] = Ok ([], x). Proof. destruct f; reflexivity. Qed.
Lemma enc_codes_S c f x a : a <> [] -> enc_codes c (S f) x a = do (code, x, amp) <- encode1 c x a; do (l, x) <- enc_codes c f x amp; Ok (code :: l, x).
Proof. destruct a; [congruence | reflexivity]. Qed.
(** After the first [n] codes. *)
Lemma follow_codes c cd : bits cd = bits c -> forall f n x z amp codes y, inv x -> inv z -> audio amp -> whole c amp -> (length amp <= f)%nat -> follows (eight_k cd = eight_k c) x z ->
  enc_codes c f x amp = Ok (codes, y) -> (n <= length codes)%nat ->
  exists y1 o z1, enc_codes c f x (firstn (spc c * n) amp) = Ok (firstn n codes, y1) /\ dec_codes cd z (firstn n codes) = Ok (o, z1) /\ follows (eight_k cd = eight_k c) y1 z1.
Proof.
  intros Eb. induction f as [|f IH]; intros n x z amp codes y Ix Iz F W L Fo E Hn.
  - destruct amp; [|cbn in L; lia]. cbn in E. inversion E; subst. cbn in Hn. assert (n = 0%nat) by lia. subst. rewrite Nat.mul_0_r. cbn. exists y, [], z. auto.
  - destruct n as [|n]; [rewrite Nat.mul_0_r; cbn [firstn]; rewrite enc_codes_nil; exists x, [], z; auto|].
    destruct amp as [|a t]; [rewrite enc_codes_nil in E; inversion E; subst; cbn in Hn; lia|].
    rewrite enc_codes_S in E by discriminate.
    destruct (encode1_ok c x (a :: t) Ix F W ltac:(discriminate)) as (code & x' & rest & ih & il & E1 & I' & Ec & Hh & Hl & _ & S & _ & _ & F' & W' & N & L').
    rewrite E1 in E. cbn [rbind] in E. destruct (enc_codes c f x' rest) as [[l y0]|] eqn:E2; [|discriminate]. cbn [rbind] in E. inversion E; subst codes y0.
    destruct (encode1_rest _ _ _ _ _ _ E1 W) as (_ & Er & Lr).
    destruct (follow_step c cd x z ih il x' Eb Hh Hl S Iz Fo) as (o & z' & D1 & Iz' & _ & Fo').
    destruct (IH n x' z' rest l y I' Iz' F' W' ltac:(cbn [length] in *; lia) Fo' E2 ltac:(cbn [length] in Hn; lia)) as (y1 & o1 & z1 & G1 & G2 & G3).
    assert (Ea : firstn (spc c * Datatypes.S n) (a :: t) = firstn (spc c) (a :: t) ++ firstn (spc c * n) rest).
    { rewrite Er at 1. rewrite firstn_app. assert (Lf : length (firstn (spc c) (a :: t)) = spc c) by (rewrite firstn_length; lia).
      rewrite Lf. replace (spc c * Datatypes.S n - spc c)%nat with (spc c * n)%nat by lia. rewrite firstn_all2 by lia. reflexivity. }
    assert (Hs : firstn (spc c) (a :: t) <> []) by (unfold spc; destruct (two_bands c); discriminate).
    assert (Ws : whole c (firstn (spc c) (a :: t))).
    { intros T. rewrite firstn_length. unfold spc in *. rewrite T in *. exists 1%nat. lia. }
    assert (E3 : encode1 c x (firstn (spc c) (a :: t)) = Ok (code, x', [])).
    { pose proof (encode1_app c x (firstn (spc c) (a :: t)) rest Hs Ws) as X. rewrite <- Er, E1 in X.
      destruct (encode1 c x (firstn (spc c) (a :: t))) as [[[v2 y2] r2]|]; [|discriminate]. inversion X; subst.
      assert (r2 = []) by (destruct r2; [reflexivity|]; match goal with H : rest = _ |- _ => apply (f_equal (@length Z)) in H; rewrite app_length in H; cbn in H; lia end). subst. reflexivity. }
    exists y1, (o ++ o1), z1. rewrite Ea. split.
    { rewrite enc_codes_S by (intros X; apply app_eq_nil in X; destruct X; congruence). rewrite (encode1_app c x _ _ Hs Ws), E3. cbn [rbind app].
      rewrite G1. reflexivity. }
    split; [|exact G3]. cbn [firstn dec_codes]. subst code. rewrite D1. cbn [rbind]. rewrite G2. reflexivity.
Qed.
Lemma firstn_whole c n amp : audio amp -> (n <= n_codes c amp)%nat -> whole c amp -> audio (firstn (spc c * n) amp) /\ whole c (firstn (spc c * n) amp).
Proof.
  intros F Hn W. split; [rewrite <- (firstn_skipn (spc c * n) amp) in F; apply Forall_app in F; apply F|].
  intros T. rewrite firstn_length. unfold spc, n_codes in *. rewrite T in *. pose proof (Nat.div2_odd (length amp)). exists n. lia.
Qed.
Lemma octets_bytes r codes : bytes (octets_of r codes).
Proof.
  unfold octets_of, bytes. apply Forall_map. destruct (G726_pack_proofs.fields_split 8 (flat_map (bits_lsb (width r)) codes) ltac:(lia)) as (_ & _ & _ & F).
  eapply Forall_impl; [|exact F]. cbv beta. intros f Lf. pose proof (of_bits_lsb_range f) as R. rewrite Lf in R. exact R.
Qed.
Lemma flat_bits_length w l : length (flat_map (bits_lsb w) l) = (w * length l)%nat.
Proof. induction l as [|v l IH]; cbn [flat_map length]; [lia|]. rewrite app_length, bits_lsb_length, IH. lia. Qed.
(** The codes in the octets are the first of those sent. *)
Lemma unpack_pack r codes : Forall (code_ok r) codes -> exists n, codes_of r (octets_of r codes) = firstn n codes /\ (n <= length codes)%nat /\
  (8 * length (octets_of r codes) <= width r * length codes < 8 * length (octets_of r codes) + 8)%nat /\ (width r * n <= 8 * length (octets_of r codes) < width r * n + width r)%nat.
Proof.
  intros F. unfold codes_of, octets_of. pose proof (width_range r) as Hw.
  set (b := flat_map (bits_lsb (width r)) codes). assert (Lb : length b = (width r * length codes)%nat) by apply flat_bits_length.
  destruct (G726_pack_proofs.fields_split 8 b ltac:(lia)) as (rest & R1 & R2 & R3). set (fs := G726_spec.fields 8 b) in *.
  assert (Ef : flat_map (bits_lsb 8) (map of_bits_lsb fs) = concat fs).
  { clear - R3. induction R3 as [|f l Lf F IH]; [reflexivity|]. cbn [map flat_map concat]. rewrite IH. f_equal. rewrite <- Lf at 1. apply bits_lsb_of_bits. }
  rewrite Ef, map_length. assert (Lc : length (concat fs) = (8 * length fs)%nat).
  { clear - R3. induction R3 as [|f l Lf F IH]; [reflexivity|]. cbn [concat length]. rewrite app_length. lia. }
  pose proof (f_equal (@length bool) R2) as Lt. rewrite app_length in Lt.
  destruct (G726_pack_proofs.fields_split (width r) (concat fs) ltac:(lia)) as (rest2 & S1 & S2 & S3). set (gs := G726_spec.fields (width r) (concat fs)) in *.
  pose proof (f_equal (@length bool) S2) as Ls. rewrite app_length in Ls.
  assert (Lg : length (concat gs) = (width r * length gs)%nat).
  { clear - S3. induction S3 as [|f l Lf F IH]; [cbn; lia|]. cbn [concat length]. rewrite app_length. lia. }
  exists (length gs). assert (Hle : (length gs <= length codes)%nat) by nia. split; [|split; [auto|]; split; [lia|lia]].
  assert (Eg : concat gs ++ (rest2 ++ rest) = flat_map (bits_lsb (width r)) (firstn (length gs) codes) ++ flat_map (bits_lsb (width r)) (skipn (length gs) codes)).
  { rewrite <- flat_map_app, firstn_skipn. fold b. rewrite R2, S2 at 1. rewrite app_assoc. reflexivity. }
  assert (Eh : concat gs = flat_map (bits_lsb (width r)) (firstn (length gs) codes)).
  { apply (f_equal (firstn (width r * length gs))) in Eg. rewrite !firstn_app, flat_bits_length, firstn_length in Eg.
    replace (width r * length gs - width r * Nat.min (length gs) (length codes))%nat with 0%nat in Eg by nia. rewrite firstn_O, app_nil_r in Eg.
    rewrite Lg, Nat.sub_diag, firstn_O, app_nil_r in Eg. rewrite !firstn_all2 in Eg by (rewrite ?flat_bits_length, ?firstn_length; nia). exact Eg. }
  assert (Fn : Forall (code_ok r) (firstn (length gs) codes)) by (rewrite <- (firstn_skipn (length gs) codes) in F; apply Forall_app in F; apply F).
  clearbody gs. clear - Eh S3 Fn Hw. revert Eh. generalize (firstn (length gs) codes) Fn. clear Fn. intros cs Fn. revert gs S3.
  induction Fn as [|v cs Hv Fn IH]; intros gs S3 Eh.
  - destruct S3 as [|g gs Lg S3]; [reflexivity|]. cbn [concat flat_map] in Eh. apply app_eq_nil in Eh. destruct Eh as [-> _]. cbn in Lg. lia.
  - destruct S3 as [|g gs Lg S3]; cbn [concat flat_map] in Eh.
    { symmetry in Eh. apply app_eq_nil in Eh. destruct Eh as [Eh _]. apply (f_equal (@length bool)) in Eh. rewrite bits_lsb_length in Eh. cbn in Eh. lia. }
    assert (g = bits_lsb (width r) v /\ concat gs = flat_map (bits_lsb (width r)) cs) as [-> E2].
    { apply (f_equal (firstn (width r))) in Eh as A. apply (f_equal (skipn (width r))) in Eh as B.
      rewrite !firstn_app, bits_lsb_length, Lg, Nat.sub_diag, !firstn_O, !app_nil_r, !firstn_all2 in A by (rewrite ?bits_lsb_length; lia).
      rewrite !skipn_app, bits_lsb_length, Lg, Nat.sub_diag, !skipn_O, !skipn_all2 in B by (rewrite ?bits_lsb_length; lia). cbn [app] in B. auto. }
    cbn [map]. rewrite (of_bits_lsb_bits (width r) v Hv). f_equal. apply IH; auto.
Qed.
Lemma codes_bytes r codes : Forall (code_ok r) codes -> bytes codes.
Proof. intros F. eapply Forall_impl; [|exact F]. unfold code_ok, byte. intros a. destruct r; cbn; lia. Qed.
Lemma tracks c cd amp : audio amp -> whole c amp -> bits cd = bits c -> packed cd = packed c ->
  exists data x n out z data1 y, g722_encode c g722_init amp = Ok (data, x) /\ bytes data /\ g722_decode cd g722_init data = Ok (out, z) /\
    (n <= n_codes c amp <= n + (if packed c then 2 else 0))%nat /\ length out = (per_code cd * n)%nat /\
    g722_encode c g722_init (firstn (spc c * n) amp) = Ok (data1, y) /\ low z = low y /\ (eight_k cd = eight_k c -> high z = high y).
Proof.
  intros F W Eb Ep. destruct (encode_any c amp F W) as (codes & x & data & x' & _ & Fc & Lc & E2 & Ed & _ & _ & E3 & Ix).
  assert (Bd : bytes data) by (subst data; destruct (packed c); [apply octets_bytes | apply (codes_bytes _ _ Fc)]).
  destruct (decode_any cd g722_init data init_inv init_pend Bd) as (m & out & z & w & k & Hm & D1 & Iz & _ & Lo & D2).
  assert (N : exists n, firstn m (if packed cd then codes_of (bits cd) data else data) = firstn n codes /\ (n <= length codes <= n + (if packed c then 2 else 0))%nat /\ length out = (per_code cd * n)%nat).
  { rewrite Ep, Eb in *. destruct (packed c).
    - subst data. destruct (unpack_pack (bits c) codes Fc) as (j & Ej & Lj & B1 & B2). rewrite Ej in *. exists (Nat.min m j). rewrite firstn_firstn.
      split; [reflexivity|]. rewrite firstn_length in Hm. pose proof (width_range (bits c)) as Hw.
      assert (Hj : (length codes <= j + 1)%nat) by nia.
      split; [lia|]. rewrite Lo. f_equal. lia.
    - subst data. exists m. split; [reflexivity|]. split; [lia | auto]. }
  destruct N as (n & En & Hn & Lon). rewrite En in D1.
  destruct (follow_codes c cd Eb (length amp) n g722_init g722_init amp codes x init_inv init_inv F W ltac:(lia) ltac:(split; reflexivity) E3 ltac:(lia)) as (y1 & o & z1 & G1 & G2 & G3 & G4).
  rewrite D1 in G2. inversion G2; subst o z1.
  destruct (firstn_whole c n amp F ltac:(lia) W) as [F1 W1].
  destruct (encode_any c (firstn (spc c * n) amp) F1 W1) as (codes1 & x1 & data1 & y & _ & _ & _ & H2 & _ & [S1 S2] & _ & H3 & _).
  assert (H4 : enc_codes c (length amp) g722_init (firstn (spc c * n) amp) = Ok (codes1, x1)).
  { rewrite <- H3. clear. assert (K : forall f g x a, (length a <= f)%nat -> (length a <= g)%nat -> enc_codes c f x a = enc_codes c g x a).
    { induction f as [|f IH]; intros g x a Hf Hg; destruct a as [|v t]; try (rewrite !enc_codes_nil; reflexivity); [cbn in Hf; lia|].
      destruct g as [|g]; [cbn in Hg; lia|]. rewrite !enc_codes_S by discriminate. destruct (encode1 c x (v :: t)) as [[[code y] r]|] eqn:E; cbn [rbind]; [|reflexivity].
      pose proof (encode1_shorter _ _ _ _ _ _ E) as L. cbn [length] in *. rewrite (IH g) by lia. reflexivity. }
    apply K; rewrite ?firstn_length; lia. }
  rewrite G1 in H4. inversion H4; subst codes1 x1.
  exists data, x', n, out, (set_buf z w k), data1, y. split; [auto|]. split; [auto|]. split; [auto|]. split; [rewrite <- Lc; auto|]. split; [auto|]. split; [auto|].
  cbn [low high set_buf]. split; [congruence|]. intros X. rewrite (G4 X). congruence.
Qed.

(** ---- the lower bits of a code do not matter to the state ---- *)
Lemma split_upper r v w : 0 <= v < 256 -> 0 <= w < 256 -> upper r v = upper r w -> exists h q1 q2 l, split_code r v = Ok (h, q1, l) /\ split_code r w = Ok (h, q2, l).
Proof.
  intros Hv Hw E.
  assert (S : forall u, 0 <= u < 256 -> exists q, split_code r u = Ok (Z.land (Z.shiftr (upper r u) 4) 3, q, Z.land (upper r u) 15)).
  { intros u Hu.
    assert (Q : all_below_from (Z.to_nat 256) 0 (fun u => match split_code r u with Ok (h, q, l) => (h =? Z.land (Z.shiftr (upper r u) 4) 3) && (l =? Z.land (upper r u) 15) | UB => false end) = true) by (destruct r; vm_compute; reflexivity).
    pose proof (sweep 256 _ Q u Hu) as X. cbv beta in X. destruct (split_code r u) as [[[h q] l]|]; [|discriminate]. exists q. repeat f_equal; lia. }
  destruct (S v Hv) as (q1 & E1), (S w Hw) as (q2 & E2). rewrite E in E1. eexists _, q1, q2, _. split; eauto.
Qed.
Lemma aux_codes c l1 l2 : Forall2 (fun a b => upper (bits c) a = upper (bits c) b) l1 l2 -> forall x y, bytes l1 -> bytes l2 -> inv x -> inv y -> same_bands x y ->
  forall o1 o2 x' y', dec_codes c x l1 = Ok (o1, x') -> dec_codes c y l2 = Ok (o2, y') -> same_bands x' y'.
Proof.
  induction 1 as [|a b l1 l2 H F IH]; intros x y B1 B2 Ix Iy S o1 o2 x' y' E1 E2.
  - cbn in E1, E2. congruence.
  - inversion B1 as [|? ? Ha B1']; inversion B2 as [|? ? Hb B2']; subst. cbn [dec_codes] in E1, E2.
    destruct (split_upper (bits c) a b Ha Hb H) as (h & q1 & q2 & l & S1 & S2).
    destruct (decode1_ok c x a Ix ltac:(unfold byte in Ha; lia)) as (p1 & x1 & D1 & I1 & _). destruct (decode1_ok c y b Iy ltac:(unfold byte in Hb; lia)) as (p2 & y1 & D2 & I2 & _).
    rewrite D1 in E1. rewrite D2 in E2. cbn [rbind] in E1, E2.
    destruct (dec_codes c x1 l1) as [[r1 x2]|] eqn:R1; [|discriminate]. destruct (dec_codes c y1 l2) as [[r2 y2]|] eqn:R2; [|discriminate].
    cbn [rbind] in E1, E2. inversion E1; inversion E2; subst. refine (IH x1 y1 B1' B2' I1 I2 _ _ _ _ _ R1 R2).
    pose proof (decode1_bands c x a _ _ _ S1 _ _ D1) as K1. pose proof (decode1_bands c y b _ _ _ S2 _ _ D2) as K2.
    destruct S as [Sl Sh]. rewrite Sl, Sh, K2 in K1. inversion K1. split; congruence.
Qed.
Lemma aux_data c l1 l2 : packed c = false -> bytes l1 -> bytes l2 -> Forall2 (fun a b => upper (bits c) a = upper (bits c) b) l1 l2 ->
  exists o1 x1 o2 x2, g722_decode c g722_init l1 = Ok (o1, x1) /\ g722_decode c g722_init l2 = Ok (o2, x2) /\ same_bands x1 x2 /\ length o1 = length o2.
Proof.
  intros Hp B1 B2 F. destruct (dec_codes_ok c l1 g722_init init_inv (bytes_nonneg _ B1)) as (o1 & x1 & E1 & _ & _ & L1 & _).
  destruct (dec_codes_ok c l2 g722_init init_inv (bytes_nonneg _ B2)) as (o2 & x2 & E2 & _ & _ & L2 & _).
  exists o1, x1, o2, x2. unfold g722_decode. rewrite !decode_plain by (auto; lia). split; [auto|]. split; [auto|].
  split; [|rewrite L1, L2; f_equal; clear - F; induction F; cbn; auto].
  apply (aux_codes c l1 l2 F g722_init g722_init B1 B2 init_inv init_inv ltac:(split; reflexivity) _ _ _ _ E1 E2).
Qed.
