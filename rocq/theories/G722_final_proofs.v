From Verif Require Import Base Bits G722_model G722_spec G722_band_proofs G722_step_proofs G722_code_proofs.
From Verif Require G726_model G726_spec G726_pack_proofs.
From Coq Require Import ZifyBool ZifyNat.
Local Open Scope Z_scope.

Lemma set_buf_id x : set_buf x (buf x) (nbits x) = x. Proof. destruct x; reflexivity. Qed.
Lemma plain_packed c : packed c = false -> plain c = c. Proof. destruct c; cbn. intros ->. reflexivity. Qed.
Lemma init_pend : pend (buf g722_init) (nbits g722_init) []. Proof. split; [reflexivity|]. split; [cbn; lia | reflexivity]. Qed.

(** ---- the encoder ---- *)
Lemma u8_codes r l : Forall (code_ok r) l -> map u8 l = l.
Proof. induction 1 as [|v l H F IH]; cbn; [reflexivity|]. rewrite (code_u8 r v H), IH. reflexivity. Qed.
Lemma encode_any c amp : audio amp -> whole c amp ->
  exists codes x data y, g722_encode (plain c) g722_init amp = Ok (codes, x) /\ Forall (code_ok (bits c)) codes /\ length codes = n_codes c amp /\
    g722_encode c g722_init amp = Ok (data, y) /\ data = (if packed c then octets_of (bits c) codes else codes) /\ same_bands x y /\ limits y /\
    enc_codes c (length amp) g722_init amp = Ok (codes, x) /\ inv x.
Proof.
  intros F W. unfold g722_encode.
  destruct (enc_codes_ok c (length amp) g722_init amp init_inv F W ltac:(lia)) as (codes & x & E & I & Fc & Lc & _).
  exists codes, x. rewrite (encode_plain (plain c) eq_refl).
  assert (Ep : enc_codes (plain c) (length amp) g722_init amp = Ok (codes, x)).
  { rewrite <- E. clear. generalize g722_init as x. generalize (length amp) as f. intros f. revert amp.
    induction f as [|f IH]; intros amp x; destruct amp as [|a t]; try reflexivity. cbn [enc_codes]. change (encode1 (plain c)) with (encode1 c).
    destruct (encode1 c x (a :: t)) as [[[code x'] rest]|]; cbn [rbind]; [|reflexivity]. rewrite IH. reflexivity. }
  rewrite Ep, (u8_codes (bits c) codes Fc). destruct (packed c) eqn:Hp.
  - destruct (encode_packed c Hp (length amp) g722_init amp [] init_inv F W ltac:(lia) init_pend ltac:(cbn; lia)) as (codes' & y & o & w & n & q' & E1 & E2 & P & Lq & Fo & Eo).
    rewrite E in E1. inversion E1; subst codes' y. exists (map of_bits_lsb o), (set_buf x w n).
    split; [reflexivity|]. split; [auto|]. split; [auto|]. split; [auto|]. split.
    + cbn [app] in Eo. unfold octets_of. rewrite Eo, G726_pack_proofs.fields_app_rest, (G726_pack_proofs.fields_short 8 q') by (auto; lia). rewrite app_nil_r. reflexivity.
    + split; [split; reflexivity|]. split; [apply inv_limits, set_buf_inv; auto|]. auto.
  - exists codes, x. rewrite (encode_plain c Hp), E, (u8_codes (bits c) codes Fc). split; [reflexivity|]. split; [auto|]. split; [auto|]. split; [reflexivity|]. split; [reflexivity|].
    split; [split; reflexivity|]. split; [apply inv_limits; auto|]. auto.
Qed.
Lemma encode_api c amp : audio amp -> whole c amp ->
  exists codes x y, g722_encode (plain c) g722_init amp = Ok (codes, x) /\ Forall (code_ok (bits c)) codes /\ length codes = n_codes c amp /\
    g722_encode c g722_init amp = Ok (if packed c then octets_of (bits c) codes else codes, y) /\ same_bands x y /\ limits y.
Proof.
  intros F W. destruct (encode_any c amp F W) as (codes & x & data & y & E1 & Fc & L & E2 & -> & S & Li & _). exists codes, x, y. auto 10.
Qed.

(** ---- the decoder ---- *)
Lemma bytes_nonneg l : bytes l -> Forall (fun v => 0 <= v) l.
Proof. intros F. eapply Forall_impl; [|exact F]. unfold byte. intros; lia. Qed.
Lemma fields_nonneg (l : list (list bool)) : Forall (fun v => 0 <= v) (map of_bits_lsb l).
Proof. apply Forall_map, Forall_forall. intros f _. pose proof (of_bits_lsb_range f). lia. Qed.
Lemma decode_any c x data : inv x -> pend (buf x) (nbits x) [] -> bytes data -> exists n out y w z,
  let codes := if packed c then codes_of (bits c) data else data in
  (n <= length codes <= n + (if packed c then 1 else 0))%nat /\ dec_codes c x (firstn n codes) = Ok (out, y) /\ inv y /\ audio out /\ length out = (per_code c * n)%nat /\
  g722_decode c x data = Ok (out, set_buf y w z).
Proof.
  intros I P F. unfold g722_decode. cbv zeta. destruct (packed c) eqn:Hp.
  - destruct (decode_packed c Hp (2 * length data) x data [] F P ltac:(cbn; lia) ltac:(unfold turns; lia)) as (fs & q' & w & n & E & P' & Lq & Ff & Ec). cbn [app] in Ec.
    pose proof (width_range (bits c)) as Hw.
    assert (Ecs : codes_of (bits c) data = map of_bits_lsb (fs ++ G726_spec.fields (width (bits c)) q')).
    { unfold codes_of. rewrite Ec, G726_pack_proofs.fields_app_rest by (auto; lia). reflexivity. }
    assert (Lr : (length (G726_spec.fields (width (bits c)) q') <= 1)%nat).
    { destruct (G726_pack_proofs.fields_split (width (bits c)) q' ltac:(lia)) as (rest & R1 & R2 & R3).
      destruct (G726_spec.fields (width (bits c)) q') as [|f1 [|f2 t]]; cbn [length]; try lia. exfalso.
      apply (f_equal (@length bool)) in R2. cbn [concat] in R2. rewrite !app_length in R2.
      pose proof (Forall_inv R3) as A1. pose proof (Forall_inv (Forall_inv_tail R3)) as A2. cbv beta in A1, A2. lia. }
    destruct (dec_codes_ok c (map of_bits_lsb fs) x I (fields_nonneg fs)) as (out & y & E1 & Iy & Fy & Ly & _). rewrite map_length in Ly.
    exists (length fs), out, y, w, n. rewrite Ecs, map_length, app_length. split; [lia|].
    rewrite map_app, firstn_app, map_length, Nat.sub_diag, firstn_O, app_nil_r, firstn_all2 by (rewrite map_length; lia).
    rewrite E1 in E. auto 10.
  - destruct (dec_codes_ok c data x I (bytes_nonneg data F)) as (out & y & E1 & Iy & Fy & Ly & _).
    exists (length data), out, y, (buf y), (nbits y). rewrite firstn_all, set_buf_id, (decode_plain c Hp) by lia. split; [lia|]. auto 10.
Qed.
Lemma dec_plain c : forall l x, dec_codes (plain c) x l = dec_codes c x l.
Proof. induction l as [|v l IH]; intros x; [reflexivity|]. cbn [dec_codes]. change (decode1 (plain c)) with (decode1 c). destruct (decode1 c x v) as [[o y]|]; cbn [rbind]; [|reflexivity]. rewrite IH. reflexivity. Qed.
Lemma decode_api c data : bytes data -> exists n out x y,
  let codes := if packed c then codes_of (bits c) data else data in
  (n <= length codes <= n + (if packed c then 1 else 0))%nat /\ g722_decode (plain c) g722_init (firstn n codes) = Ok (out, x) /\ audio out /\ length out = (per_code c * n)%nat /\
  g722_decode c g722_init data = Ok (out, y) /\ same_bands x y /\ limits y.
Proof.
  intros F. destruct (decode_any c g722_init data init_inv init_pend F) as (n & out & y & w & z & Hn & E1 & Iy & Fy & Ly & E2). cbv zeta.
  exists n, out, y, (set_buf y w z). split; [auto|]. split.
  { unfold g722_decode. rewrite decode_plain by (reflexivity || lia). rewrite dec_plain. exact E1. }
  split; [auto|]. split; [auto|]. split; [auto|]. split; [split; reflexivity|]. apply inv_limits, set_buf_inv; auto.
Qed.

(** ---- calls of the encoder ---- *)
Lemma two_bands_cases c : two_bands c = negb (itu c) && negb (eight_k c). Proof. reflexivity. Qed.
Lemma encode1_app c x a b : a <> [] -> whole c a -> encode1 c x (a ++ b) =
  match encode1 c x a with Ok (v, y, r) => Ok (v, y, r ++ b) | UB => UB end.
Proof.
  intros Ha W. unfold encode1.
  assert (E : split_bands c x (a ++ b) = match split_bands c x a with Ok (p, q, y, r) => Ok (p, q, y, r ++ b) | UB => UB end).
  { unfold split_bands. destruct a as [|v t]; [congruence|]. cbn [app]. unfold whole, two_bands in W. destruct (itu c); [reflexivity|]. destruct (eight_k c); [reflexivity|].
    destruct t as [|u t]; [destruct (W eq_refl) as [k Hk]; cbn [length] in Hk; lia|]. cbn [app].
    destruct (aset (xs x) _ _) as [xl|]; cbn [rbind]; [|reflexivity]. destruct (aset (ys x) _ _) as [yl|]; cbn [rbind]; [|reflexivity].
    destruct (circular_dot xl _ _) as [o|]; cbn [rbind]; [|reflexivity]. destruct (circular_dot yl _ _) as [z|]; cbn [rbind]; [|reflexivity].
    destruct (i32 (z + o)) as [p|]; cbn [rbind]; [|reflexivity]. destruct (i32 (z - o)) as [q|]; reflexivity. }
  rewrite E. destruct (split_bands c x a) as [[[[p q] y] r]|]; cbn [rbind]; [|reflexivity].
  destruct (enc_low (low y) p) as [[il l']|]; cbn [rbind]; [|reflexivity].
  destruct (eight_k c); [reflexivity|]. destruct (enc_high (high y) q) as [[ih h']|]; reflexivity.
Qed.
Lemma encode1_rest c x a v y r : encode1 c x a = Ok (v, y, r) -> whole c a -> whole c r /\ a = firstn (spc c) a ++ r /\ length a = (spc c + length r)%nat.
Proof.
  intros E W. unfold encode1 in E. destruct (split_bands c x a) as [[[[p q] z] r']|] eqn:Es; [|discriminate]. cbn [rbind] in E.
  destruct (enc_low (low z) p) as [[il l']|]; [|discriminate]. cbn [rbind] in E.
  assert (r' = r).
  { destruct (eight_k c); [inversion E; reflexivity|]. destruct (enc_high (high z) q) as [[ih h']|]; [inversion E; reflexivity|discriminate]. }
  subst r'. clear E. unfold split_bands in Es. destruct a as [|u t]; [discriminate|]. pose proof (two_bands_cases c) as T. unfold whole, spc in *.
  destruct (itu c); [cbn in T; rewrite T in *; inversion Es; subst; split; [congruence | split; reflexivity]|].
  destruct (eight_k c); [cbn in T; rewrite T in *; inversion Es; subst; split; [congruence | split; reflexivity]|].
  cbn in T. rewrite T in *. destruct t as [|u2 t]; [discriminate|].
  destruct (aset (xs x) _ _) as [xl|]; cbn [rbind] in Es; [|discriminate]. destruct (aset (ys x) _ _) as [yl|]; cbn [rbind] in Es; [|discriminate].
  destruct (circular_dot xl _ _) as [o|]; cbn [rbind] in Es; [|discriminate]. destruct (circular_dot yl _ _) as [zz|]; cbn [rbind] in Es; [|discriminate].
  destruct (i32 (zz + o)) as [pp|]; cbn [rbind] in Es; [|discriminate]. destruct (i32 (zz - o)) as [qq|]; cbn [rbind] in Es; [|discriminate].
  inversion Es; subst. split; [|split; reflexivity]. intros _. destruct (W eq_refl) as [k Hk]. cbn [length] in Hk. exists (k - 1)%nat. lia.
Qed.
Lemma encode1_shorter c x a v y r : encode1 c x a = Ok (v, y, r) -> (length r < length a)%nat.
Proof.
  intros E. unfold encode1 in E. destruct (split_bands c x a) as [[[[p q] z] r']|] eqn:Es; [|discriminate]. cbn [rbind] in E.
  destruct (enc_low (low z) p) as [[il l']|]; [|discriminate]. cbn [rbind] in E.
  assert (r' = r).
  { destruct (eight_k c); [inversion E; reflexivity|]. destruct (enc_high (high z) q) as [[ih h']|]; [inversion E; reflexivity|discriminate]. }
  subst r'. clear E. unfold split_bands in Es. destruct a as [|u t]; [discriminate|].
  destruct (itu c); [inversion Es; cbn; lia|]. destruct (eight_k c); [inversion Es; cbn; lia|]. destruct t as [|u2 t]; [discriminate|].
  destruct (aset (xs x) _ _) as [xl|]; cbn [rbind] in Es; [|discriminate]. destruct (aset (ys x) _ _) as [yl|]; cbn [rbind] in Es; [|discriminate].
  destruct (circular_dot xl _ _) as [o|]; cbn [rbind] in Es; [|discriminate]. destruct (circular_dot yl _ _) as [zz|]; cbn [rbind] in Es; [|discriminate].
  destruct (i32 (zz + o)) as [pp|]; cbn [rbind] in Es; [|discriminate]. destruct (i32 (zz - o)) as [qq|]; cbn [rbind] in Es; [|discriminate].
  inversion Es; cbn; lia.
Qed.
Lemma encode_fuel c : forall f g x a, (length a <= f)%nat -> (length a <= g)%nat -> encode_loop c f x a = encode_loop c g x a.
Proof.
  induction f as [|f IH]; intros g x a Hf Hg; destruct a as [|v t]; try (destruct g; reflexivity); [cbn in Hf; lia|].
  destruct g as [|g]; [cbn in Hg; lia|]. cbn [encode_loop]. destruct (encode1 c x (v :: t)) as [[[code y] r]|] eqn:E; cbn [rbind]; [|reflexivity].
  pose proof (encode1_shorter _ _ _ _ _ _ E) as L. cbn [length] in *. destruct (store c y code) as [o z]. rewrite (IH g) by lia. reflexivity.
Qed.
Lemma encode_loop_nil c f x : encode_loop c f x [] = Ok ([], x). Proof. destruct f; reflexivity. Qed.
Lemma encode_loop_S c f x a : a <> [] -> encode_loop c (S f) x a =
  do (code, x, amp) <- encode1 c x a; let '(o, x) := store c x code in do (rest, x) <- encode_loop c f x amp; Ok (o ++ rest, x).
Proof. destruct a; [congruence | reflexivity]. Qed.
Lemma encode_app c b : forall f x a, whole c a -> (length (a ++ b) <= f)%nat -> encode_loop c f x (a ++ b) =
  do (o1, x) <- encode_loop c f x a; do (o2, x) <- encode_loop c f x b; Ok (o1 ++ o2, x).
Proof.
  induction f as [|f IH]; intros x a W L.
  - destruct a; [|cbn in L; lia]. destruct b; [reflexivity | cbn in L; lia].
  - destruct a as [|v t]; [rewrite encode_loop_nil; cbn [app rbind]; destruct (encode_loop c (S f) x b) as [[? ?]|]; reflexivity|].
    rewrite (encode_loop_S c f x ((v :: t) ++ b)), (encode_loop_S c f x (v :: t)) by discriminate.
    rewrite (encode1_app c x (v :: t) b ltac:(discriminate) W). destruct (encode1 c x (v :: t)) as [[[code y] r]|] eqn:E; cbn [rbind]; [|reflexivity].
    destruct (encode1_rest _ _ _ _ _ _ E W) as (W' & _ & Lr). pose proof (encode1_shorter _ _ _ _ _ _ E) as Ls.
    destruct (store c y code) as [o z]. rewrite app_length in L. cbn [length] in *. rewrite (IH z r W') by (rewrite app_length; lia).
    destruct (encode_loop c f z r) as [[o1 x1]|]; cbn [rbind]; [|reflexivity].
    rewrite (encode_fuel c (S f) f x1 b) by lia.
    destruct (encode_loop c f x1 b) as [[o2 x2]|]; cbn [rbind]; [|reflexivity]. rewrite app_assoc. reflexivity.
Qed.
Lemma encode_calls_concat c : forall ls x, Forall (whole c) ls -> encode_calls c x ls = g722_encode c x (concat ls).
Proof.
  induction ls as [|l ls IH]; intros x F; [reflexivity|]. inversion F as [|? ? Hl Hs]; subst. cbn [encode_calls concat]. unfold g722_encode.
  rewrite (encode_app c (concat ls) _ x l Hl (Nat.le_refl _)). rewrite (encode_fuel c (length (l ++ concat ls)) (length l)) by (rewrite ?app_length; lia).
  destruct (encode_loop c (length l) x l) as [[o y]|]; cbn [rbind]; [|reflexivity]. rewrite (IH y Hs). unfold g722_encode.
  rewrite (encode_fuel c (length (l ++ concat ls)) (length (concat ls))) by (rewrite ?app_length; lia). reflexivity.
Qed.

(** ---- calls of the decoder ---- *)
Definition fetch (c : cfg) (x : ctx) (o : Z) (t : list Z) : Z * ctx * list Z :=
  if packed c then
    let '(w, n, data) :=
      if nbits x <? bps (bits c) then (Z.lor (buf x) (u32 (Z.shiftl o (nbits x))), nbits x + 8, t)
      else (buf x, nbits x, o :: t) in
    (Z.land w (Z.shiftl 1 (bps (bits c)) - 1), set_buf x (Z.shiftr w (bps (bits c))) (n - bps (bits c)), data)
  else (o, x, t).
Lemma decode_loop_S c k x o t : decode_loop c (S k) x (o :: t) =
  let '(code, x, data) := fetch c x o t in do (out, x) <- decode1 c x code; do (rest, x) <- decode_loop c k x data; Ok (out ++ rest, x).
Proof. unfold fetch. cbn [decode_loop]. destruct (packed c); [|reflexivity]. destruct (nbits x <? bps (bits c)); reflexivity. Qed.
Lemma fetch_app c x o t b : fetch c x o (t ++ b) = let '(code, x, data) := fetch c x o t in (code, x, data ++ b).
Proof. unfold fetch. destruct (packed c); [|reflexivity]. destruct (nbits x <? bps (bits c)); reflexivity. Qed.
Lemma fetch_turns c x o t code y data : 0 <= nbits x < 8 -> fetch c x o t = (code, y, data) ->
  0 <= nbits y < 8 /\ (turns (bits c) (nbits y) data < turns (bits c) (nbits x) (o :: t))%nat.
Proof.
  intros H E. unfold fetch in E. unfold turns. rewrite width_bps in *. pose proof (width_range (bits c)) as Hw.
  destruct (packed c).
  - destruct (Z.ltb_spec (nbits x) (Z.of_nat (width (bits c)))); inversion E; subst; cbn [nbits set_buf length].
    + split; [lia|]. destruct (_ <? _); lia.
    + split; [lia|]. destruct (Z.ltb_spec (nbits x - Z.of_nat (width (bits c))) (Z.of_nat (width (bits c)))); lia.
  - inversion E; subst. split; [lia|]. cbn [length]. destruct (nbits y <? _); lia.
Qed.
Lemma decode1_nbits c x code o y : decode1 c x code = Ok (o, y) -> nbits y = nbits x.
Proof.
  intros E. pose proof (decode1_set_buf c x code (buf x) (nbits x)) as B. rewrite set_buf_id, E in B. injection B as B.
  apply (f_equal nbits) in B. exact B.
Qed.
Lemma decode_fuel c : forall f g x a, 0 <= nbits x < 8 -> (turns (bits c) (nbits x) a <= f)%nat -> (turns (bits c) (nbits x) a <= g)%nat -> decode_loop c f x a = decode_loop c g x a.
Proof.
  induction f as [|f IH]; intros g x a Hn Hf Hg; (destruct a as [|v t]; [destruct g; reflexivity|]).
  { unfold turns in Hf. cbn [length] in Hf. destruct (_ <? _); lia. }
  destruct g as [|g]; [unfold turns in Hg; cbn [length] in Hg; destruct (_ <? _); lia|].
  rewrite !decode_loop_S. destruct (fetch c x v t) as [[code y] data] eqn:E. destruct (fetch_turns _ _ _ _ _ _ _ Hn E) as [Hy Ht].
  destruct (decode1 c y code) as [[o z]|] eqn:Ed; cbn [rbind]; [|reflexivity]. pose proof (decode1_nbits _ _ _ _ _ Ed) as Ez.
  rewrite (IH g z data) by (rewrite ?Ez; lia). reflexivity.
Qed.
Lemma turns_le r n a : (turns r n a <= 2 * length a)%nat. Proof. unfold turns. lia. Qed.
Lemma decode_loop_nil c f x : decode_loop c f x [] = Ok ([], x). Proof. destruct f; reflexivity. Qed.
Lemma decode_app c b : forall f x a, 0 <= nbits x < 8 -> (2 * length (a ++ b) <= f + 1)%nat -> (turns (bits c) (nbits x) (a ++ b) <= f)%nat ->
  decode_loop c f x (a ++ b) = do (o1, x) <- decode_loop c f x a; do (o2, x) <- decode_loop c (2 * length b) x b; Ok (o1 ++ o2, x).
Proof.
  assert (K : forall f x a, 0 <= nbits x < 8 -> (turns (bits c) (nbits x) (a ++ b) <= f)%nat ->
    decode_loop c f x (a ++ b) = do (o1, x) <- decode_loop c f x a; do (o2, x) <- decode_loop c (2 * length b) x b; Ok (o1 ++ o2, x)); [|auto].
  induction f as [|f IH]; intros x a Hn Hf; (destruct a as [|v t]).
  1: rewrite decode_loop_nil; cbn [app rbind] in *; rewrite (decode_fuel c 0 (2 * length b) x b Hn Hf (turns_le _ _ _)); destruct (decode_loop c (2 * length b) x b) as [[? ?]|]; reflexivity.
  2: rewrite decode_loop_nil; cbn [app rbind] in *; rewrite (decode_fuel c (S f) (2 * length b) x b Hn Hf (turns_le _ _ _)); destruct (decode_loop c (2 * length b) x b) as [[? ?]|]; reflexivity.
  { unfold turns in Hf. cbn [length app] in Hf. destruct (_ <? _); lia. }
  change ((v :: t) ++ b) with (v :: (t ++ b)) in *. rewrite !decode_loop_S, fetch_app.
  pose proof (fetch_app c x v t b) as Eb. destruct (fetch c x v t) as [[code y] data] eqn:E.
  destruct (fetch_turns _ _ _ _ _ _ _ Hn Eb) as [Hy Ht].
  destruct (decode1 c y code) as [[o z]|] eqn:Ed; cbn [rbind]; [|reflexivity]. pose proof (decode1_nbits _ _ _ _ _ Ed) as Ez.
  rewrite (IH z data) by (rewrite ?Ez; lia). destruct (decode_loop c f z data) as [[o1 x1]|]; cbn [rbind]; [|reflexivity].
  destruct (decode_loop c (2 * length b) x1 b) as [[o2 x2]|]; cbn [rbind]; [|reflexivity]. rewrite app_assoc. reflexivity.
Qed.
Lemma decode_nbits c : forall f x a o y, 0 <= nbits x < 8 -> decode_loop c f x a = Ok (o, y) -> 0 <= nbits y < 8.
Proof.
  induction f as [|f IH]; intros x a o y Hn E; (destruct a as [|v t]; [cbn in E; inversion E; subst; auto|]); [discriminate|].
  rewrite decode_loop_S in E. destruct (fetch c x v t) as [[code z] data] eqn:Ef. destruct (fetch_turns _ _ _ _ _ _ _ Hn Ef) as [Hz _].
  destruct (decode1 c z code) as [[p u]|] eqn:Ed; cbn [rbind] in E; [|discriminate]. pose proof (decode1_nbits _ _ _ _ _ Ed) as Eu.
  destruct (decode_loop c f u data) as [[p2 u2]|] eqn:E2; cbn [rbind] in E; [|discriminate]. inversion E; subst. apply (IH u data p2); [rewrite Eu; auto | auto].
Qed.
Lemma decode_calls_concat c : forall ls, decode_calls c g722_init ls = g722_decode c g722_init (concat ls).
Proof.
  assert (G : forall ls x, 0 <= nbits x < 8 -> decode_calls c x ls = g722_decode c x (concat ls)); [|intros; apply G; cbn; lia].
  induction ls as [|l ls IH]; intros x Hn; [reflexivity|]. cbn [decode_calls concat]. unfold g722_decode.
  rewrite (decode_app c (concat ls) _ x l Hn) by (pose proof (turns_le (bits c) (nbits x) (l ++ concat ls)); lia).
  rewrite (decode_fuel c (2 * length (l ++ concat ls)) (2 * length l) x l Hn) by (pose proof (turns_le (bits c) (nbits x) l); rewrite ?app_length; lia).
  destruct (decode_loop c (2 * length l) x l) as [[o y]|] eqn:E; cbn [rbind]; [|reflexivity].
  rewrite (IH y (decode_nbits _ _ _ _ _ _ Hn E)). reflexivity.
Qed.
