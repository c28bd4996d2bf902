From Verif Require Import Base Bits.
From Verif Require Bitstream_proofs.
From Verif Require Import G711_model G726_model G726_spec G726_quant_proofs G726_step_proofs G726_code_proofs G726_tandem_proofs G726_pack_proofs.
From Coq Require Import ZifyBool ZifyNat.
Local Open Scope Z_scope.

Lemma values_range c xs : audio c xs -> Forall (fun a => -8192 <= a <= 8191) (map (value c) xs).
Proof. intros F. induction F as [|x t Hx F IH]; constructor; auto. apply (linearize_range c x Hx). Qed.
Lemma pend_nil p : pend p 0 0 [].
Proof. destruct p; unfold pend, holds; cbn; lia. Qed.

Lemma encode_plain r c xs : audio c xs ->
  exists codes s, enc_list r init (map (value c) xs) = Ok (codes, s) /\ inv s /\ Forall (sent_code r) codes /\ length codes = length xs /\
    g726_encode r c PNONE g726_init xs = Ok (codes, {| st := s; word := 0; residue := 0 |}).
Proof.
  intros F. unfold g726_encode. cbn [g726_init st word residue].
  destruct (encode_loop_plain r c xs init 0 0 inv_init F) as (codes & s & E & I & EL).
  destruct (enc_list_ok r (map (value c) xs) init inv_init (values_range c xs F)) as (codes2 & s2 & E2 & _ & Fc & L).
  rewrite E in E2. injection E2 as <- <-. rewrite map_length in L. exists codes, s. auto.
Qed.
Lemma encode_api r c p xs : audio c xs ->
  exists codes x y, g726_encode r c PNONE g726_init xs = Ok (codes, x) /\ Forall (sent_code r) codes /\ length codes = length xs /\
    g726_encode r c p g726_init xs = Ok (packed r p codes, y) /\ st y = st x /\ stable (st y).
Proof.
  intros F. destruct (encode_plain r c xs F) as (codes & s & E & I & Fc & L & EP).
  exists codes, {| st := s; word := 0; residue := 0 |}. destruct p.
  - eexists. split; [exact EP|]. split; [auto|]. split; [auto|]. split; [exact EP|]. split; [reflexivity|]. apply I.
  - destruct (encode_loop_packed r c PLEFT ltac:(discriminate) xs init 0 0 [] inv_init F (pend_nil _) ltac:(cbn; lia)) as (codes2 & s2 & w & n & q & E2 & _ & EL & _).
    rewrite E in E2. injection E2 as <- <-. eexists. split; [exact EP|]. split; [auto|]. split; [auto|]. split; [exact EL|]. split; [reflexivity|]. apply I.
  - destruct (encode_loop_packed r c PRIGHT ltac:(discriminate) xs init 0 0 [] inv_init F (pend_nil _) ltac:(cbn; lia)) as (codes2 & s2 & w & n & q & E2 & _ & EL & _).
    rewrite E in E2. injection E2 as <- <-. eexists. split; [exact EP|]. split; [auto|]. split; [auto|]. split; [exact EL|]. split; [reflexivity|]. apply I.
Qed.

Lemma decode_plain r c codes :
  exists out s, dec_list r c init codes = Ok (out, s) /\ inv s /\ audio c out /\ length out = length codes /\
    g726_decode r c PNONE g726_init codes = Ok (out, {| st := s; word := 0; residue := 0 |}).
Proof.
  unfold g726_decode. cbn [g726_init st word residue].
  destruct (decode_loop_plain r c codes (8 * length codes + Z.to_nat 0 + 1) init 0 0 inv_init ltac:(lia)) as (out & s & E & I & EL).
  destruct (dec_list_ok r c codes init inv_init) as (out2 & s2 & E2 & _ & F & L). rewrite E in E2. injection E2 as <- <-.
  exists out, s. auto.
Qed.
Lemma decode_api r c p data : bytes data ->
  exists out x y, g726_decode r c PNONE g726_init (unpacked r p data) = Ok (out, x) /\ audio c out /\ length out = length (unpacked r p data) /\
    g726_decode r c p g726_init data = Ok (out, y) /\ st y = st x /\ stable (st y).
Proof.
  intros Hd. destruct (decode_plain r c (unpacked r p data)) as (out & s & E & I & F & L & EP).
  exists out, {| st := s; word := 0; residue := 0 |}. destruct p.
  - eexists. split; [exact EP|]. split; [auto|]. split; [auto|]. split; [exact EP|]. split; [reflexivity|]. apply I.
  - destruct (decode_loop_packed r c PLEFT ltac:(discriminate) (8 * length data + Z.to_nat 0 + 1) init 0 0 [] data inv_init Hd (pend_nil _) ltac:(cbn; lia) ltac:(cbn; lia))
      as (out2 & s2 & w & n & q & E2 & _ & EL & _).
    cbn [app] in E2. unfold unpacked in E. rewrite E in E2. injection E2 as <- <-. eexists. split; [exact EP|]. split; [auto|]. split; [auto|]. split; [exact EL|]. split; [reflexivity|]. apply I.
  - destruct (decode_loop_packed r c PRIGHT ltac:(discriminate) (8 * length data + Z.to_nat 0 + 1) init 0 0 [] data inv_init Hd (pend_nil _) ltac:(cbn; lia) ltac:(cbn; lia))
      as (out2 & s2 & w & n & q & E2 & _ & EL & _).
    cbn [app] in E2. unfold unpacked in E. rewrite E in E2. injection E2 as <- <-. eexists. split; [exact EP|]. split; [auto|]. split; [auto|]. split; [exact EL|]. split; [reflexivity|]. apply I.
Qed.

(** ---- tracking ---- *)
Lemma track_list r c2 : forall amp s codes s', inv s -> Forall (fun a => -8192 <= a <= 8191) amp -> enc_list r s amp = Ok (codes, s') ->
  exists out, dec_list r c2 s codes = Ok (out, s').
Proof.
  induction amp as [|a t IH]; intros s codes s' I F E; cbn [enc_list] in E.
  - injection E as <- <-. exists []. reflexivity.
  - inversion F as [|? ? Ha Ht]; subst. destruct (encode_step r s a I Ha) as (i & s1 & E1 & Si & I1). rewrite E1 in E. cbn [rbind] in E.
    destruct (enc_list r s1 t) as [[l s2]|] eqn:E2; cbn [rbind] in E; [|discriminate]. injection E as <- <-.
    destruct (track_step r c2 s a i s1 I Ha E1) as [v D]. destruct (IH s1 l s2 I1 Ht E2) as [out D2].
    cbn [dec_list]. rewrite D. cbn [rbind]. rewrite D2. cbn [rbind]. eexists; reflexivity.
Qed.
Lemma tracking r c c2 xs : audio c xs ->
  exists codes x ys y, g726_encode r c PNONE g726_init xs = Ok (codes, x) /\ g726_decode r c2 PNONE g726_init codes = Ok (ys, y) /\
    st y = st x /\ length ys = length xs.
Proof.
  intros F. destruct (encode_plain r c xs F) as (codes & s & E & I & Fc & L & EP).
  destruct (decode_plain r c2 codes) as (out & s2 & E2 & I2 & Fo & L2 & EP2).
  destruct (track_list r c2 _ init codes s inv_init (values_range c xs F) E) as [out2 E3]. rewrite E2 in E3. injection E3 as _ ->.
  do 4 eexists. split; [exact EP|]. split; [exact EP2|]. split; [reflexivity|]. lia.
Qed.

(** ---- tandem ---- *)
Lemma tandem_list r c : law c -> forall xs s codes s', inv s -> bytes xs -> enc_list r s (map (value c) xs) = Ok (codes, s') ->
  exists ys, dec_list r c s codes = Ok (ys, s') /\ bytes ys /\ enc_list r s (map (value c) ys) = Ok (codes, s').
Proof.
  intros Hc. induction xs as [|x t IH]; intros s codes s' I F E; cbn [map enc_list] in E.
  - injection E as <- <-. exists []. repeat split; constructor.
  - inversion F as [|? ? Hx Ht]; subst. destruct (tandem_step r c s x Hc I Hx) as (i & v & s1 & E1 & Si & I1 & D & Bv & E2).
    rewrite E1 in E. cbn [rbind] in E.
    destruct (enc_list r s1 (map (value c) t)) as [[l s2]|] eqn:E3; cbn [rbind] in E; [|discriminate]. injection E as <- <-.
    destruct (IH s1 l s2 I1 Ht E3) as (ys & D2 & By & E4).
    cbn [dec_list]. rewrite D. cbn [rbind]. rewrite D2. cbn [rbind]. exists (v :: ys).
    assert (Hv : match c with LINEAR => s16 v | _ => u8 v end = v).
    { unfold byte in Bv. destruct c; [elim Hc; reflexivity | |]; unfold u8; apply Z.mod_small; lia. }
    rewrite Hv. split; [reflexivity|]. split; [constructor; auto|]. cbn [map enc_list]. rewrite E2. cbn [rbind]. rewrite E4. reflexivity.
Qed.
Lemma law_audio c xs : law c -> audio c xs <-> bytes xs.
Proof. intros Hc. destruct c; [elim Hc; reflexivity | |]; reflexivity. Qed.
Lemma tandem_once r c xs : c <> LINEAR -> bytes xs ->
  exists codes x ys y z, g726_encode r c PNONE g726_init xs = Ok (codes, x) /\ g726_decode r c PNONE g726_init codes = Ok (ys, y) /\ bytes ys /\
    g726_encode r c PNONE g726_init ys = Ok (codes, z) /\ st z = st x /\ st y = st x.
Proof.
  intros Hc F. destruct (encode_plain r c xs ltac:(apply law_audio; auto)) as (codes & s & E & I & Fc & L & EP).
  destruct (tandem_list r c Hc xs init codes s inv_init F E) as (ys & D & By & E2).
  destruct (decode_plain r c codes) as (out & s2 & D2 & _ & _ & _ & EP2). rewrite D in D2. injection D2 as <- <-.
  destruct (encode_plain r c ys ltac:(apply law_audio; auto)) as (codes2 & s2 & E3 & _ & _ & _ & EP3). rewrite E2 in E3. injection E3 as <- <-.
  exists codes. do 4 eexists. split; [exact EP|]. split; [exact EP2|]. split; [exact By|]. split; [exact EP3|]. auto.
Qed.
Lemma tandem_many r c n xs : c <> LINEAR -> bytes xs ->
  exists ys, tandem r c 1 xs = Ok ys /\ tandem r c (S n) xs = Ok ys /\ length ys = length xs.
Proof.
  intros Hc F. destruct (tandem_once r c xs Hc F) as (codes & x & ys & y & z & E & D & By & E2 & _ & _).
  exists ys. assert (L : length ys = length xs).
  { destruct (encode_plain r c xs ltac:(apply law_audio; auto)) as (codes2 & s & _ & _ & _ & L & EP). rewrite E in EP. injection EP as <- _.
    destruct (decode_plain r c codes) as (out & s2 & _ & _ & _ & L2 & EP2). rewrite D in EP2. injection EP2 as <- _. lia. }
  assert (G : forall k, tandem r c k ys = Ok ys).
  { induction k as [|k IH]; cbn [tandem]; [reflexivity|]. rewrite E2. cbn [rbind]. rewrite D. cbn [rbind]. exact IH. }
  split; [|split; [|exact L]]; cbn [tandem]; rewrite E; cbn [rbind]; rewrite D; cbn [rbind]; [reflexivity | apply G].
Qed.

(** ---- packing and unpacking ---- *)
Lemma fields_of_bits p r codes rest : (length rest < width r)%nat -> Forall (any_code r) codes ->
  map (of_code_bits p) (fields (width r) (flat_map (code_bits p (width r)) codes ++ rest)) = codes.
Proof.
  intros Hr F. pose proof (width_pos r). induction F as [|c t Hc F IH]; cbn [flat_map].
  - cbn [app]. rewrite fields_short by auto. reflexivity.
  - rewrite <- app_assoc, fields_cons by (try apply code_bits_length; lia). cbn [map]. f_equal; [|exact IH].
    unfold any_code in Hc. destruct p; cbn [code_bits of_code_bits]; [apply of_bits_lsb_bits | apply of_bits_msb_bits | apply of_bits_lsb_bits]; auto.
Qed.
Lemma bits_of_octet p f : length f = 8%nat -> code_bits p 8 (of_code_bits p f) = f.
Proof. intros H. destruct p; cbn [code_bits of_code_bits]; rewrite <- H; [apply bits_lsb_of_bits | apply bits_msb_of_bits | apply bits_lsb_of_bits]. Qed.
Lemma flat_bits_of_octets p fs : Forall (fun f => length f = 8%nat) fs -> flat_map (code_bits p 8) (map (of_code_bits p) fs) = concat fs.
Proof. intros F. induction F as [|f fs Hf F IH]; [reflexivity|]. cbn [map flat_map concat]. rewrite bits_of_octet, IH by auto. reflexivity. Qed.
Lemma flat_map_length_const {A} (f : A -> list bool) n l : (forall x, length (f x) = n) -> length (flat_map f l) = (n * length l)%nat.
Proof. intros H. induction l as [|x l IH]; cbn [flat_map length]; [lia|]. rewrite app_length, H, IH. lia. Qed.
Lemma concat_length_const n (fs : list (list bool)) : Forall (fun f => length f = n) fs -> length (concat fs) = (n * length fs)%nat.
Proof. intros F. induction F as [|f fs Hf F IH]; cbn [concat length]; [lia|]. rewrite app_length, Hf, IH. lia. Qed.
Lemma flat_map_firstn {A} (f : A -> list bool) n : forall l k rest, (forall x, length (f x) = n) -> (k <= length l)%nat -> (rest <= n)%nat ->
  firstn (n * k) (flat_map f l) = flat_map f (firstn k l).
Proof.
  induction l as [|x l IH]; intros k rest Hf Hk Hr; cbn [flat_map].
  - rewrite firstn_nil. destruct k; reflexivity.
  - destruct k as [|k]; [rewrite Nat.mul_0_r; reflexivity|]. cbn [firstn flat_map length] in *.
    rewrite firstn_app, firstn_all2, Hf by (rewrite Hf; nia). f_equal.
    replace (n * S k - n)%nat with (n * k)%nat by nia. apply (IH k rest Hf); lia.
Qed.
Lemma unpack_pack r p codes : Forall (any_code r) codes ->
  unpacked r p (packed r p codes) = firstn (whole_codes r p (length codes)) codes.
Proof.
  intros F. pose proof (width_pos r) as Hw.
  assert (G : p <> PNONE -> unpacked r p (packed r p codes) = firstn (8 * (width r * length codes / 8) / width r) codes).
  { intros Hp. set (L := flat_map (code_bits p (width r)) codes).
    destruct (fields_split 8 L ltac:(lia)) as (rest & R1 & R2 & R3).
    assert (EU : unpacked r p (packed r p codes) = map (of_code_bits p) (fields (width r) (concat (fields 8 L)))).
    { destruct p; [congruence | |]; unfold unpacked, packed; fold L; rewrite flat_bits_of_octets by auto; reflexivity. }
    rewrite EU. clear EU.
    pose proof (concat_length_const 8 _ R3) as LC.
    assert (LL : length L = (width r * length codes)%nat) by (apply flat_map_length_const; intros; apply code_bits_length).
    assert (Hk : length (fields 8 L) = (width r * length codes / 8)%nat).
    { rewrite <- LL. rewrite R2 at 2. rewrite app_length, LC. rewrite Nat.add_comm, Nat.mul_comm, Nat.div_add, Nat.div_small by lia. lia. }
    rewrite Hk in LC. set (m := (width r * length codes / 8)%nat) in *.
    set (k := (8 * m / width r)%nat).
    assert (Hk1 : (width r * k <= 8 * m)%nat) by (apply Nat.mul_div_le; lia).
    assert (Hk2 : (8 * m < width r * k + width r)%nat).
    { pose proof (Nat.mul_succ_div_gt (8 * m) (width r) ltac:(lia)). fold k in H. lia. }
    assert (Hm : (8 * m <= width r * length codes)%nat) by (apply Nat.mul_div_le; lia).
    assert (Hkl : (k <= length codes)%nat) by nia.
    assert (EC : concat (fields 8 L) = firstn (8 * m) L).
    { rewrite R2 at 2. rewrite firstn_app, firstn_all2, LC, Nat.sub_diag, firstn_O, app_nil_r by lia. reflexivity. }
    assert (ES : concat (fields 8 L) = flat_map (code_bits p (width r)) (firstn k codes) ++ skipn (width r * k) (concat (fields 8 L))).
    { rewrite <- (firstn_skipn (width r * k) (concat (fields 8 L))) at 1. f_equal.
      rewrite EC, firstn_firstn, Nat.min_l by lia. unfold L.
      apply (flat_map_firstn _ _ _ _ 0%nat); [intros; apply code_bits_length | lia | lia]. }
    rewrite ES. apply fields_of_bits; [rewrite skipn_length; lia|].
    rewrite Forall_forall in *. intros c Hc. apply F. rewrite <- (firstn_skipn k codes). apply in_or_app. auto. }
  destruct p; [|apply G; discriminate | apply G; discriminate]. cbn. rewrite firstn_all. reflexivity.
Qed.

(** ---- calls ---- *)
Lemma encode_loop_app r c p : forall l1 s w n l2,
  encode_loop r c p s w n (l1 ++ l2) = do (o, x) <- encode_loop r c p s w n l1; do (o', x) <- encode_loop r c p (st x) (word x) (residue x) l2; Ok (o ++ o', x).
Proof.
  induction l1 as [|a t IH]; intros s w n l2; cbn [app encode_loop rbind st word residue].
  - destruct (encode_loop r c p s w n l2) as [[? ?]|]; reflexivity.
  - destruct (encode1 r s (linearize c a)) as [[code s1]|]; cbn [rbind]; [|reflexivity].
    destruct (store r p w n code) as [[[w1 n1] o]|]; cbn [rbind]; [|reflexivity]. rewrite IH.
    destruct (encode_loop r c p s1 w1 n1 t) as [[o1 x1]|]; cbn [rbind]; [|reflexivity].
    destruct (encode_loop r c p (st x1) (word x1) (residue x1) l2) as [[o2 x2]|]; cbn [rbind]; [|reflexivity].
    rewrite app_assoc. reflexivity.
Qed.
Lemma encode_calls_concat r c p : forall ls x, encode_calls r c p x ls = g726_encode r c p x (concat ls).
Proof.
  induction ls as [|l t IH]; intros x; cbn [encode_calls concat].
  - destruct x; reflexivity.
  - unfold g726_encode at 2. rewrite encode_loop_app. fold (g726_encode r c p x l).
    destruct (g726_encode r c p x l) as [[o x1]|]; cbn [rbind]; [|reflexivity]. rewrite IH. reflexivity.
Qed.
Lemma decode_loop_more r c p : forall k s w n data z, decode_loop r c p k s w n data = Ok z -> forall k', (k <= k')%nat -> decode_loop r c p k' s w n data = Ok z.
Proof.
  induction k as [|k IH]; intros s w n data z E k' Hk; [discriminate|]. destruct k' as [|k']; [lia|].
  cbn [decode_loop] in *. destruct (fetch r p w n data) as [[[[[code w1] n1] d1]|]|]; cbn [rbind] in *; try discriminate; [|exact E].
  destruct (decode1 r c s code) as [[v s1]|]; cbn [rbind] in *; [|discriminate].
  destruct (decode_loop r c p k s1 w1 n1 d1) as [[o x]|] eqn:E1; cbn [rbind] in *; [|discriminate].
  rewrite (IH _ _ _ _ _ E1 k' ltac:(lia)). exact E.
Qed.
Lemma fetch_app r p w n d1 d2 f : fetch r p w n d1 = Ok (Some f) ->
  fetch r p w n (d1 ++ d2) = Ok (Some (let '(code, w, n, d) := f in (code, w, n, d ++ d2))).
Proof.
  unfold fetch. destruct p.
  - destruct d1; [discriminate|]. intros E. injection E as <-. reflexivity.
  - destruct (n <? bits_per_sample r).
    + destruct d1 as [|x d1]; [discriminate|]. cbn [app]. destruct (shr _ _); cbn [rbind]; [|discriminate]. intros E. injection E as <-. reflexivity.
    + destruct (shr _ _); cbn [rbind]; [|discriminate]. intros E. injection E as <-. reflexivity.
  - destruct (n <? bits_per_sample r).
    + destruct d1 as [|x d1]; [discriminate|]. cbn [app]. destruct (shl _ _); cbn [rbind]; [|discriminate]. intros E. injection E as <-. reflexivity.
    + intros E. injection E as <-. reflexivity.
Qed.
Lemma fetch_none r p w n d1 : fetch r p w n d1 = Ok None -> d1 = [].
Proof.
  unfold fetch. destruct p; [destruct d1; [reflexivity|discriminate] | |]; destruct (n <? bits_per_sample r); try (destruct d1; [reflexivity|]).
  all: try (destruct (shr _ _); cbn [rbind]; discriminate). all: try (destruct (shl _ _); cbn [rbind]; discriminate). all: discriminate.
Qed.
Lemma decode_loop_app r c p : forall k s w n d1 o1 x1 k2 d2 o2 x2, decode_loop r c p k s w n d1 = Ok (o1, x1) ->
  decode_loop r c p k2 (st x1) (word x1) (residue x1) d2 = Ok (o2, x2) ->
  decode_loop r c p (k + k2) s w n (d1 ++ d2) = Ok (o1 ++ o2, x2).
Proof.
  induction k as [|k IH]; intros s w n d1 o1 x1 k2 d2 o2 x2 E1 E2; [discriminate|].
  cbn [decode_loop] in E1. destruct (fetch r p w n d1) as [[[[[code w1] n1] d1']|]|] eqn:EF; cbn [rbind] in E1; [| |discriminate].
  - destruct (decode1 r c s code) as [[v s1]|] eqn:ED; cbn [rbind] in E1; [|discriminate].
    destruct (decode_loop r c p k s1 w1 n1 d1') as [[o x]|] eqn:EL; cbn [rbind] in E1; [|discriminate]. injection E1 as <- <-.
    cbn [Nat.add decode_loop]. rewrite (fetch_app _ _ _ _ _ d2 _ EF). cbn [rbind]. rewrite ED. cbn [rbind].
    rewrite (IH _ _ _ _ _ _ _ _ _ _ EL E2). reflexivity.
  - injection E1 as <- <-. pose proof (fetch_none _ _ _ _ _ EF) as ->. cbn [app st word residue] in *.
    apply (decode_loop_more r c p k2); [exact E2 | lia].
Qed.

(** Contexts a decoder can be in between calls. *)
Definition between (r : rate) (p : packing) (x : ctx) : Prop :=
  inv (st x) /\ 0 <= residue x /\ (p <> PNONE -> exists q, pend p (word x) (residue x) q /\ (length q < width r)%nat).
Lemma between_init r p : between r p g726_init.
Proof. split; [apply inv_init|]. split; [cbn; lia|]. intros _. exists []. split; [apply pend_nil | pose proof (width_pos r); cbn; lia]. Qed.
Lemma decode_between r c p x data : between r p x -> bytes data ->
  exists out y, g726_decode r c p x data = Ok (out, y) /\ between r p y.
Proof.
  intros (I & Hn & Hq) Hd. unfold g726_decode. pose proof (width_pos r) as Hw. destruct p.
  - destruct (decode_loop_plain r c data (8 * length data + Z.to_nat (residue x) + 1) (st x) (word x) (residue x) I ltac:(lia)) as (out & s & _ & I' & E).
    rewrite E. do 2 eexists. split; [reflexivity|]. split; [exact I'|]. cbn [residue]. split; [auto|]. congruence.
  - destruct (Hq ltac:(discriminate)) as (q & P & L). assert (residue x = Z.of_nat (length q)) by apply P.
    destruct (decode_loop_packed r c PLEFT ltac:(discriminate) (8 * length data + Z.to_nat (residue x) + 1) (st x) (word x) (residue x) q data I Hd P ltac:(lia) ltac:(lia))
      as (out & s & w & n & q' & _ & I' & E & P' & L' & _). rewrite E. do 2 eexists. split; [reflexivity|]. split; [exact I'|]. cbn [residue word].
    assert (n = Z.of_nat (length q')) by apply P'. split; [lia|]. eauto.
  - destruct (Hq ltac:(discriminate)) as (q & P & L). assert (residue x = Z.of_nat (length q)) by apply P.
    destruct (decode_loop_packed r c PRIGHT ltac:(discriminate) (8 * length data + Z.to_nat (residue x) + 1) (st x) (word x) (residue x) q data I Hd P ltac:(lia) ltac:(lia))
      as (out & s & w & n & q' & _ & I' & E & P' & L' & _). rewrite E. do 2 eexists. split; [reflexivity|]. split; [exact I'|]. cbn [residue word].
    assert (n = Z.of_nat (length q')) by apply P'. split; [lia|]. eauto.
Qed.
Lemma decode_calls_concat_from r c p : forall ls x, between r p x -> bytes (concat ls) ->
  decode_calls r c p x ls = g726_decode r c p x (concat ls) /\ exists o y, g726_decode r c p x (concat ls) = Ok (o, y).
Proof.
  induction ls as [|l t IH]; intros x B Hd; cbn [decode_calls concat] in *.
  - destruct (decode_between r c p x [] B ltac:(constructor)) as (o & y & E & _). rewrite E. split; [|eauto].
    unfold g726_decode in E. cbn [length Nat.mul Nat.add] in E. rewrite Nat.add_1_r in E. cbn [decode_loop] in E.
    destruct (fetch r p (word x) (residue x) []) as [[f|]|] eqn:EF; cbn [rbind] in E; try discriminate.
    + exfalso. destruct B as (_ & Hn & Hq). unfold fetch in EF. rewrite bps_width in EF. destruct p; [discriminate | |];
      destruct (Hq ltac:(discriminate)) as (q & P & L); assert (residue x = Z.of_nat (length q)) by apply P;
      replace (residue x <? Z.of_nat (width r)) with true in EF by lia; discriminate.
    + injection E as <- <-. destruct x; reflexivity.
  - apply Forall_app in Hd as [Hl Ht].
    destruct (decode_between r c p x l B Hl) as (o & y & E & B'). rewrite E. cbn [rbind].
    destruct (IH y B' Ht) as (-> & o2 & y2 & E2). rewrite E2. cbn [rbind].
    destruct (decode_between r c p x (l ++ concat t) B ltac:(apply Forall_app; auto)) as (o3 & y3 & E3 & _).
    split; [|eauto]. unfold g726_decode in *.
    pose proof (decode_loop_app r c p _ _ _ _ _ _ _ _ _ _ _ E E2) as EA.
    rewrite E3. set (k1 := (8 * length l + _ + 1)%nat) in EA. set (k2 := (8 * length (concat t) + _ + 1)%nat) in EA.
    set (k3 := (8 * length (l ++ concat t) + _ + 1)%nat) in E3.
    pose proof (decode_loop_more _ _ _ _ _ _ _ _ _ EA (k1 + k2 + k3)%nat ltac:(lia)) as F1.
    pose proof (decode_loop_more _ _ _ _ _ _ _ _ _ E3 (k1 + k2 + k3)%nat ltac:(lia)) as F2. rewrite F1 in F2. exact F2.
Qed.
Lemma decode_calls_concat r c p ls : bytes (concat ls) -> decode_calls r c p g726_init ls = g726_decode r c p g726_init (concat ls).
Proof. intros H. apply decode_calls_concat_from; [apply between_init | auto]. Qed.

(** ---- the two ends of a link ---- *)
Lemma any_sent r codes : Forall (sent_code r) codes -> Forall (any_code r) codes.
Proof. apply Forall_impl. intros c H. unfold sent_code in H. unfold any_code in *. tauto. Qed.
Lemma of_code_bits_byte p f : length f = 8%nat -> byte (of_code_bits p f).
Proof.
  intros H. unfold byte. destruct p; cbn [of_code_bits].
  - pose proof (of_bits_lsb_range f) as G. rewrite H in G. lia.
  - pose proof (of_bits_msb_range f) as G. rewrite H in G. lia.
  - pose proof (of_bits_lsb_range f) as G. rewrite H in G. lia.
Qed.
Lemma packed_bytes r p codes : Forall (any_code r) codes -> bytes (packed r p codes).
Proof.
  intros F.
  assert (G : p <> PNONE -> bytes (map (of_code_bits p) (fields 8 (flat_map (code_bits p (width r)) codes)))).
  { intros _. destruct (fields_split 8 (flat_map (code_bits p (width r)) codes) ltac:(lia)) as (rest & _ & _ & R).
    unfold bytes. induction R as [|f t Hf R IH]; cbn [map]; constructor; [apply of_code_bits_byte; auto | exact IH]. }
  destruct p; [|apply G; discriminate | apply G; discriminate].
  cbn [packed]. revert F. apply Forall_impl. intros c H. unfold any_code in H. unfold byte. destruct r; cbn in H; lia.
Qed.
Lemma dec_list_prefix r c s codes out s' k : dec_list r c s codes = Ok (out, s') -> inv s ->
  exists s1, dec_list r c s (firstn k codes) = Ok (firstn k out, s1).
Proof.
  intros E I. destruct (dec_list_ok r c (firstn k codes) s I) as (o1 & s1 & E1 & I1 & _ & L1).
  destruct (dec_list_ok r c (skipn k codes) s1 I1) as (o2 & s2 & E2 & _ & _ & L2).
  rewrite <- (firstn_skipn k codes), dec_list_app, E1 in E. cbn [rbind] in E. rewrite E2 in E. cbn [rbind] in E. injection E as <- <-.
  exists s1. rewrite E1. f_equal. f_equal.
  destruct (Nat.le_gt_cases k (length codes)) as [H|H].
  - rewrite firstn_length, Nat.min_l in L1 by lia. rewrite firstn_app, L1, Nat.sub_diag, firstn_O, app_nil_r. rewrite <- L1, firstn_all. reflexivity.
  - rewrite skipn_length in L2. destruct o2; [|cbn in L2; lia]. rewrite app_nil_r, firstn_all2; [reflexivity|]. rewrite firstn_length in L1. lia.
Qed.
Lemma link r c c2 p xs : audio c xs ->
  exists codes x data y ys z u, g726_encode r c PNONE g726_init xs = Ok (codes, x) /\ g726_encode r c p g726_init xs = Ok (data, y) /\
    bytes data /\
    g726_decode r c2 PNONE g726_init codes = Ok (ys, z) /\ st z = st x /\ length ys = length xs /\
    g726_decode r c2 p g726_init data = Ok (firstn (whole_codes r p (length xs)) ys, u).
Proof.
  intros F. destruct (encode_api r c p xs F) as (codes & x & y & E & Fc & L & EP & _ & _).
  destruct (tracking r c c2 xs F) as (codes2 & x2 & ys & z & E2 & D & S & LY). rewrite E in E2. injection E2 as <- <-.
  pose proof (any_sent r codes Fc) as Fa. pose proof (packed_bytes r p codes Fa) as Hb.
  destruct (decode_api r c2 p (packed r p codes) Hb) as (out & x3 & u & D2 & _ & _ & D3 & _ & _).
  rewrite unpack_pack in D2 by auto.
  destruct (decode_plain r c2 codes) as (ys2 & s2 & DL & _ & _ & _ & DP). rewrite D in DP. injection DP as <- _.
  destruct (dec_list_prefix r c2 init codes ys s2 (whole_codes r p (length codes)) DL inv_init) as [s1 DF].
  destruct (decode_plain r c2 (firstn (whole_codes r p (length codes)) codes)) as (o4 & s4 & DL4 & _ & _ & _ & DP4).
  rewrite DF in DL4. injection DL4 as <- <-. rewrite D2 in DP4. injection DP4 as -> _.
  exists codes, x, (packed r p codes), y, ys, z, u. rewrite L in D3. auto 10.
Qed.
Lemma whole_codes_all r p n : (n mod 8 = 0)%nat -> whole_codes r p n = n.
Proof.
  intros H. pose proof (Nat.div_mod n 8 ltac:(lia)) as E. rewrite H in E.
  assert (G : (8 * (width r * n / 8) / width r = n)%nat).
  { replace (width r * n)%nat with (width r * (n / 8) * 8)%nat by nia. rewrite Nat.div_mul by lia.
    pose proof (width_pos r). replace (8 * (width r * (n / 8)))%nat with (n * width r)%nat by nia. apply Nat.div_mul. lia. }
  destruct p; [reflexivity | exact G | exact G].
Qed.
Lemma link_whole r c c2 p xs : audio c xs -> (length xs mod 8 = 0)%nat ->
  exists codes data x y ys z u, g726_encode r c PNONE g726_init xs = Ok (codes, x) /\ g726_encode r c p g726_init xs = Ok (data, y) /\
    unpacked r p data = codes /\ st y = st x /\
    g726_decode r c2 p g726_init data = Ok (ys, u) /\ st u = st y /\ length ys = length xs /\ audio c2 ys /\
    g726_decode r c2 PNONE g726_init codes = Ok (ys, z).
Proof.
  intros F H. destruct (encode_api r c p xs F) as (codes & x & y & E & Fc & L & EP & S1 & _).
  destruct (tracking r c c2 xs F) as (codes2 & x2 & ys & z & E2 & D & S & LY). rewrite E in E2. injection E2 as <- <-.
  pose proof (any_sent r codes Fc) as Fa. pose proof (packed_bytes r p codes Fa) as Hb.
  destruct (decode_api r c2 p (packed r p codes) Hb) as (out & x3 & u & D2 & Fo & _ & D3 & S3 & _).
  assert (U : unpacked r p (packed r p codes) = codes) by (rewrite unpack_pack, whole_codes_all, firstn_all by congruence; reflexivity).
  rewrite U in D2. rewrite D in D2. injection D2 as <- <-.
  exists codes, (packed r p codes), x, y, ys, z, u. repeat split; auto; congruence.
Qed.

(** ---- what goes wrong ---- *)
Definition square : list Z := concat (repeat [32767; 32767; 32767; 32767; -32768; -32768; -32768; -32768] 4).
Definition out_of (x : res (list Z * ctx)) : list Z := match x with Ok (o, _) => o | UB => [] end.
(** A sample for which the encoder sends code [i], near the decoder's output for that code. *)
Definition sample_for (r : rate) (s : g726) (i : Z) : option (Z * g726) :=
  match decode1 r LINEAR s i with
  | UB => None
  | Ok (v, _) => fold_left (fun a j => match a with Some _ => a | None =>
      match encode1 r s (linearize LINEAR (v + 4 * j)) with Ok (i', s') => if i' =? i then Some (v + 4 * j, s') else None | UB => None end end)
      [0; 1; -1; 2; -2; 3; -3; 4; 5; 6; 7; 8] None
  end.
Fixpoint audio_for (r : rate) (s : g726) (codes : list Z) : list Z :=
  match codes with
  | [] => []
  | i :: t => match sample_for r s i with None => [] | Some (v, s') => v :: audio_for r s' t end
  end.
Lemma square_ok : Forall (sample LINEAR) square.
Proof. unfold sample. repeat (apply Forall_cons; [lia|]). apply Forall_nil. Qed.
Definition overload_check (r : rate) (xs : list Z) (k : nat) : bool :=
  match g726_encode r LINEAR PNONE g726_init xs with
  | Ok (codes, _) => match g726_decode r LINEAR PNONE g726_init codes with
      | Ok (ys, _) => (nth k xs 0 =? 32767) && (nth k ys 0 <? -20000) | UB => false end
  | UB => false end.
Definition overload_at (r : rate) : nat := match r with R16 => 25 | R24 => 17 | R32 => 11 | R40 => 17 end.
Lemma overload_true r : overload_check r square (overload_at r) = true.
Proof. destruct r; vm_compute; reflexivity. Qed.
Lemma overload_sound r xs k : overload_check r xs k = true -> exists codes x ys y, g726_encode r LINEAR PNONE g726_init xs = Ok (codes, x) /\
    g726_decode r LINEAR PNONE g726_init codes = Ok (ys, y) /\ nth k xs 0 = 32767 /\ nth k ys 0 < -20000.
Proof.
  unfold overload_check. intros G. destruct (g726_encode r LINEAR PNONE g726_init xs) as [[codes x]|] eqn:E; [|discriminate].
  destruct (g726_decode r LINEAR PNONE g726_init codes) as [[ys y]|] eqn:D; [|discriminate]. apply andb_prop in G as [G1 G2].
  exists codes, x, ys, y. repeat split; auto; lia.
Qed.
Lemma overload r : exists xs codes x ys y k, audio LINEAR xs /\ g726_encode r LINEAR PNONE g726_init xs = Ok (codes, x) /\
    g726_decode r LINEAR PNONE g726_init codes = Ok (ys, y) /\ nth k xs 0 = 32767 /\ nth k ys 0 < -20000.
Proof.
  destruct (overload_sound r square (overload_at r) (overload_true r)) as (codes & x & ys & y & E & D & G1 & G2).
  exists square, codes, x, ys, y, (overload_at r). split; [apply square_ok|]. auto.
Qed.
Definition rising : list Z := Eval vm_compute in audio_for R40 init (repeat 2 353).
Definition quiet_check (xs l : list Z) : bool :=
  match l with
  | [v] => forallb (fun z => Z.abs z <=? 2300) (xs ++ [v]) &&
      match g726_encode R40 LINEAR PNONE g726_init xs with
      | Ok (_, x) => forallb (fun z => 32700 <? z) (b (st x)) && match g726_encode R40 LINEAR PNONE x [v] with
          | Ok (_, y) => forallb (fun z => z <? -32700) (b (st y)) | UB => false end
      | UB => false end
  | _ => false
  end.
Lemma quiet_sound xs l : quiet_check xs l = true -> exists xs v codes1 x codes2 y, Forall (fun z => Z.abs z <= 2300) (xs ++ [v]) /\
    g726_encode R40 LINEAR PNONE g726_init xs = Ok (codes1, x) /\ g726_encode R40 LINEAR PNONE x [v] = Ok (codes2, y) /\
    Forall (fun z => z > 32700) (b (st x)) /\ Forall (fun z => z < -32700) (b (st y)).
Proof.
  intros G. unfold quiet_check in G.
  destruct l as [|v [|? ?]]; try discriminate. apply andb_prop in G as [G1 G].
  destruct (g726_encode R40 LINEAR PNONE g726_init xs) as [[codes1 x]|] eqn:E1; [|discriminate]. apply andb_prop in G as [G2 G].
  destruct (g726_encode R40 LINEAR PNONE x [v]) as [[codes2 y]|] eqn:E2; [|discriminate].
  exists xs, v, codes1, x, codes2, y. rewrite forallb_forall in *. rewrite !Forall_forall. repeat split; auto.
  - intros z Hz. apply G1 in Hz. lia.
  - intros z Hz. apply G2 in Hz. lia.
  - intros z Hz. apply G in Hz. lia.
Qed.
Lemma quiet_wrap : exists xs v codes1 x codes2 y, Forall (fun z => Z.abs z <= 2300) (xs ++ [v]) /\
    g726_encode R40 LINEAR PNONE g726_init xs = Ok (codes1, x) /\ g726_encode R40 LINEAR PNONE x [v] = Ok (codes2, y) /\
    Forall (fun z => z > 32700) (b (st x)) /\ Forall (fun z => z < -32700) (b (st y)).
Proof. apply (quiet_sound (firstn 352 rising) (skipn 352 rising)). vm_compute. reflexivity. Qed.
Lemma held_back : exists codes x, g726_encode R40 ULAW PLEFT g726_init [0; 0; 0] = Ok (codes, x) /\ length codes = 1%nat /\ residue x = 7.
Proof. eexists _, _. split; [vm_compute; reflexivity|]. split; reflexivity. Qed.
