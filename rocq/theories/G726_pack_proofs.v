From Verif Require Import Base Bits.
From Verif Require Bitstream_proofs.
From Verif Require Import G726_model G726_spec G726_quant_proofs G726_step_proofs G726_code_proofs G726_tandem_proofs.
From Coq Require Import ZifyBool ZifyNat.
Local Open Scope Z_scope.
Notation holds := Bitstream_proofs.holds.

(** ---- fields ---- *)
Lemma fields_fuel n : (0 < n)%nat -> forall f g l, (length l <= f)%nat -> (length l <= g)%nat -> fields_ f n l = fields_ g n l.
Proof.
  intros Hn. induction f as [|f IH]; intros g l Hf Hg.
  - destruct g; [reflexivity|]. cbn [fields_]. destruct (Nat.ltb_spec (length l) n); [reflexivity|lia].
  - destruct g as [|g]; cbn [fields_]; destruct (Nat.ltb_spec (length l) n); try reflexivity; try lia.
    f_equal. apply IH; rewrite skipn_length; lia.
Qed.
Lemma fields_short n l : (length l < n)%nat -> fields n l = [].
Proof. intros H. unfold fields. destruct (length l) eqn:E; [reflexivity|]. cbn [fields_]. rewrite E. destruct (Nat.ltb_spec (S n0) n); [reflexivity|lia]. Qed.
Lemma fields_cons n a l : (0 < n)%nat -> length a = n -> fields n (a ++ l) = a :: fields n l.
Proof.
  intros Hn Ha. unfold fields. rewrite app_length, Ha. destruct n as [|n]; [lia|]. cbn [Nat.add fields_].
  rewrite app_length, Ha. destruct (Nat.ltb_spec (S n + length l) (S n)); [lia|].
  rewrite firstn_app, firstn_all2, Ha, Nat.sub_diag, firstn_O, app_nil_r by lia. f_equal.
  rewrite skipn_app, skipn_all2, Ha, Nat.sub_diag by lia. cbn [app skipn]. apply fields_fuel; lia.
Qed.
Lemma fields_split n l : (0 < n)%nat -> exists rest, (length rest < n)%nat /\ l = concat (fields n l) ++ rest /\
  Forall (fun f => length f = n) (fields n l).
Proof.
  intros Hn. remember (length l) as k eqn:Hk. assert (Hle : (length l <= k)%nat) by lia. clear Hk. revert l Hle.
  induction k as [|k IH]; intros l Hk.
  - exists []. destruct l; [|cbn in Hk; lia]. cbn. auto.
  - destruct (Nat.ltb_spec (length l) n) as [H|H].
    + exists l. rewrite fields_short by auto. cbn. auto.
    + assert (E : l = firstn n l ++ skipn n l) by (symmetry; apply firstn_skipn).
      assert (La : length (firstn n l) = n) by (rewrite firstn_length; lia).
      destruct (IH (skipn n l) ltac:(rewrite skipn_length; lia)) as (rest & R1 & R2 & R3).
      exists rest. rewrite E at 2 3. rewrite (fields_cons n (firstn n l) (skipn n l) Hn La). cbn [concat].
      split; [auto|]. split; [|constructor; auto]. rewrite <- app_assoc, <- R2. exact E.
Qed.
Lemma fields_app_rest n fs l : (0 < n)%nat -> Forall (fun f => length f = n) fs -> fields n (concat fs ++ l) = fs ++ fields n l.
Proof.
  intros Hn F. induction F as [|f fs Hf F IH]; [reflexivity|]. cbn [concat app]. rewrite <- app_assoc, fields_cons by auto. f_equal. exact IH.
Qed.

(** ---- plain coding of a list ---- *)
Fixpoint enc_list (r : rate) (s : g726) (amp : list Z) : res (list Z * g726) :=
  match amp with
  | [] => Ok ([], s)
  | x :: t => do (i, s) <- encode1 r s x; do (l, s) <- enc_list r s t; Ok (i :: l, s)
  end.
Fixpoint dec_list (r : rate) (c : coding) (s : g726) (codes : list Z) : res (list Z * g726) :=
  match codes with
  | [] => Ok ([], s)
  | i :: t => do (v, s) <- decode1 r c s i; do (l, s) <- dec_list r c s t;
              Ok ((match c with LINEAR => s16 v | _ => u8 v end) :: l, s)
  end.
Lemma linearize_range c x : sample c x -> linearize c x = value c x /\ -8192 <= value c x <= 8191.
Proof.
  intros H. destruct c; cbn [sample linearize value] in *.
  - assert (-8192 <= Z.shiftr x 2 <= 8191) by dvl. rewrite s16_id by (unfold i16; lia). auto.
  - pose proof (law_minmax ULAW x ltac:(discriminate) H). cbn in *. rewrite s16_id by (unfold i16; lia). lia.
  - pose proof (law_minmax ALAW x ltac:(discriminate) H). cbn in *. rewrite s16_id by (unfold i16; lia). lia.
Qed.
Lemma enc_list_ok r : forall amp s, inv s -> Forall (fun a => -8192 <= a <= 8191) amp ->
  exists codes s', enc_list r s amp = Ok (codes, s') /\ inv s' /\ Forall (sent_code r) codes /\ length codes = length amp.
Proof.
  induction amp as [|x t IH]; intros s I F; cbn [enc_list]; [exists [], s; auto|].
  inversion F as [|? ? Hx Ht]; subst.
  destruct (encode_step r s x I Hx) as (i & s' & -> & Si & I'). cbn [rbind].
  destruct (IH s' I' Ht) as (codes & s2 & -> & I2 & Fc & L). cbn [rbind].
  exists (i :: codes), s2. cbn [length]. auto.
Qed.
Lemma dec_list_ok r c : forall codes s, inv s ->
  exists out s', dec_list r c s codes = Ok (out, s') /\ inv s' /\ audio c out /\ length out = length codes.
Proof.
  induction codes as [|i t IH]; intros s I; cbn [dec_list]; [exists [], s; repeat split; auto; try apply I; constructor|].
  destruct (decode_step r c s i I) as (v & s' & -> & I' & Hv). cbn [rbind].
  destruct (IH s' I') as (out & s2 & -> & I2 & F & L). cbn [rbind].
  eexists _, s2. split; [reflexivity|]. split; [auto|]. split; [|cbn [length]; lia]. constructor; [|exact F].
  destruct c; cbn [sample]; [apply s16_range | unfold u8, byte; apply Z.mod_pos_bound; lia | unfold u8, byte; apply Z.mod_pos_bound; lia].
Qed.
Lemma dec_list_app r c l1 : forall s l2, dec_list r c s (l1 ++ l2) =
  do (o1, s) <- dec_list r c s l1; do (o2, s) <- dec_list r c s l2; Ok (o1 ++ o2, s).
Proof.
  induction l1 as [|i t IH]; intros s l2; cbn [dec_list app rbind].
  - destruct (dec_list r c s l2) as [[? ?]|]; reflexivity.
  - destruct (decode1 r c s i) as [[v s']|]; cbn [rbind]; [|reflexivity]. rewrite IH.
    destruct (dec_list r c s' t) as [[o1 s1]|]; cbn [rbind]; [|reflexivity].
    destruct (dec_list r c s1 l2) as [[o2 s2]|]; reflexivity.
Qed.

(** ---- the pending bits ---- *)
Definition lsb (p : packing) : bool := match p with PLEFT => false | _ => true end.
Definition pend (p : packing) (w n : Z) (q : list bool) : Prop := holds (lsb p) w n q.
Lemma bps_width r : bits_per_sample r = Z.of_nat (width r). Proof. destruct r; reflexivity. Qed.
Lemma width_pos r : (2 <= width r <= 5)%nat. Proof. destruct r; cbn; lia. Qed.
Lemma code_bits_length p n c : length (code_bits p n c) = n.
Proof. destruct p; cbn [code_bits]; [apply bits_lsb_length | apply bits_msb_length | apply bits_lsb_length]. Qed.

Lemma pend_append p w n q c k : pend p w n q -> (k <= 8)%nat -> (length q < 16)%nat -> 0 <= c < 2 ^ Z.of_nat k -> p <> PNONE ->
  let w' := match p with PLEFT => Z.lor (u32 (Z.shiftl w (Z.of_nat k))) c | _ => Z.lor w (u32 (Z.shiftl c n)) end in
  pend p w' (n + Z.of_nat k) (q ++ code_bits p k c).
Proof.
  intros H Hk Hq Hc Hp. destruct p; [congruence | |]; cbn [code_bits lsb]; unfold pend in *; cbn [lsb] in *; cbv zeta.
  - pose proof (Bitstream_proofs.holds_append_msb w n q (bits_msb k c) H) as A. rewrite bits_msb_length, of_bits_msb_bits in A by auto. apply A. lia.
  - pose proof (Bitstream_proofs.holds_append_lsb w n q (bits_lsb k c) H) as A. rewrite bits_lsb_length, of_bits_lsb_bits in A by auto. apply A. lia.
Qed.
(** Taking [k] bits from the front. *)
Lemma pend_take p w n f q k : pend p w n (f ++ q) -> length f = k -> p <> PNONE -> (length (f ++ q) <= 31)%nat ->
  match p with
  | PLEFT => Z.land (Z.shiftr w (n - Z.of_nat k)) (Z.shiftl 1 (Z.of_nat k) - 1) = of_code_bits p f /\ pend p w (n - Z.of_nat k) q
  | _ => Z.land w (Z.shiftl 1 (Z.of_nat k) - 1) = of_code_bits p f /\ pend p (Z.shiftr w (Z.of_nat k)) (n - Z.of_nat k) q
  end.
Proof.
  intros (Hn & Hw & E) Hf Hp Hl. rewrite app_length in *. destruct p; [congruence | |]; unfold pend, holds in *; cbn [lsb of_code_bits] in *.
  - rewrite of_bits_msb_app in E.
    pose proof (of_bits_msb_range f) as Rf. pose proof (of_bits_msb_range q) as Rq. rewrite Hf in Rf.
    replace n with (Z.of_nat k + Z.of_nat (length q)) in E by lia.
    destruct (Bitstream_proofs.hi_lo w (Z.of_nat (length q)) (Z.of_nat k) _ _ ltac:(lia) ltac:(lia) Rq Rf E) as [E1 E2].
    replace (n - Z.of_nat k) with (Z.of_nat (length q)) by lia.
    rewrite land_mask, Z.shiftr_div_pow2 by lia. auto.
  - rewrite of_bits_lsb_app in E. pose proof (of_bits_lsb_range f) as Rf. pose proof (of_bits_lsb_range q) as Rq. rewrite Hf in *.
    pose proof (p2_pos k) as Pk.
    rewrite land_mask, Z.shiftr_div_pow2 by lia. rewrite E.
    rewrite (Z.mul_comm (2 ^ Z.of_nat k)), Z_mod_plus_full, Z.mod_small by lia.
    rewrite Z.div_add, Z.div_small, Z.add_0_l by lia. split; [reflexivity|]. split; [lia|]. split; [|reflexivity].
    assert (2 ^ Z.of_nat (length q) <= 2 ^ 32) by (apply Z.pow_le_mono_r; lia). lia.
Qed.
Lemma of_code_bits_range p f : 0 <= of_code_bits p f < 2 ^ Z.of_nat (length f).
Proof. destruct p; cbn [of_code_bits]; [apply of_bits_lsb_range | apply of_bits_msb_range | apply of_bits_lsb_range]. Qed.

Lemma store_ok r p w n q c : p <> PNONE -> pend p w n q -> (length q < 8)%nat -> any_code r c ->
  exists w' n' q' o, store r p w n c = Ok (w', n', map (of_code_bits p) o) /\ pend p w' n' q' /\ (length q' < 8)%nat /\
    Forall (fun f => length f = 8%nat) o /\ q ++ code_bits p (width r) c = concat o ++ q'.
Proof.
  intros Hp H Hq Hc. pose proof (width_pos r) as Hw. unfold any_code in Hc.
  pose proof (pend_append p w n q c (width r) H ltac:(lia) ltac:(lia) Hc Hp) as A. cbv zeta in A.
  set (q1 := q ++ code_bits p (width r) c) in *.
  assert (L1 : length q1 = (length q + width r)%nat) by (unfold q1; rewrite app_length, code_bits_length; reflexivity). clearbody q1.
  assert (Hn : n = Z.of_nat (length q)) by apply H.
  unfold store. rewrite bps_width.
  assert (G : forall w1, pend p w1 (n + Z.of_nat (width r)) q1 -> 8 <= n + Z.of_nat (width r) ->
     exists o q', length o = 8%nat /\ q1 = o ++ q' /\ (length q' < 8)%nat /\
     match p with PLEFT => u8 (Z.land (Z.shiftr w1 (n + Z.of_nat (width r) - 8)) 0xFF) = of_code_bits p o /\ pend p w1 (n + Z.of_nat (width r) - 8) q'
     | _ => u8 (Z.land w1 0xFF) = of_code_bits p o /\ pend p (Z.shiftr w1 8) (n + Z.of_nat (width r) - 8) q' end).
  { intros w1 Hw1 H8. exists (firstn 8 q1), (skipn 8 q1).
    assert (L8 : length (firstn 8 q1) = 8%nat) by (rewrite firstn_length; lia).
    split; [auto|]. split; [symmetry; apply firstn_skipn|]. split; [rewrite skipn_length; lia|].
    rewrite <- (firstn_skipn 8 q1) in Hw1.
    pose proof (pend_take p w1 _ _ _ 8 Hw1 L8 Hp ltac:(rewrite firstn_skipn; lia)) as T.
    pose proof (of_code_bits_range p (firstn 8 q1)) as R. rewrite L8 in R.
    change (Z.of_nat 8) with 8 in *. change (Z.shiftl 1 8 - 1) with 255 in T. change (2 ^ 8) with 256 in R.
    destruct p; [congruence | |]; destruct T as [T1 T2]; rewrite T1; (split; [unfold u8; apply Z.mod_small; lia | exact T2]). }
  destruct p; [congruence | |].
  - destruct (Z.leb_spec 8 (n + Z.of_nat (width r))) as [H8|H8].
    + destruct (G _ A H8) as (o & q' & Lo & Eo & Lq & T1 & T2). rewrite shr_ok by lia. cbn [rbind]. rewrite T1.
      do 3 eexists. exists [o]. split; [reflexivity|]. split; [exact T2|]. split; [auto|]. split; [auto|]. cbn [concat]. rewrite app_nil_r. exact Eo.
    + do 3 eexists. exists []. split; [reflexivity|]. split; [exact A|]. split; [lia|]. auto.
  - rewrite shl_ok by lia. cbn [rbind]. destruct (Z.leb_spec 8 (n + Z.of_nat (width r))) as [H8|H8].
    + destruct (G _ A H8) as (o & q' & Lo & Eo & Lq & T1 & T2). rewrite T1.
      do 3 eexists. exists [o]. split; [reflexivity|]. split; [exact T2|]. split; [auto|]. split; [auto|]. cbn [concat]. rewrite app_nil_r. exact Eo.
    + do 3 eexists. exists []. split; [reflexivity|]. split; [exact A|]. split; [lia|]. auto.
Qed.

Lemma encode_loop_packed r c p : p <> PNONE -> forall amp s w n q, inv s -> audio c amp -> pend p w n q -> (length q < 8)%nat ->
  exists codes s' w' n' q', enc_list r s (map (value c) amp) = Ok (codes, s') /\ inv s' /\
    encode_loop r c p s w n amp =
      Ok (map (of_code_bits p) (fields 8 (q ++ flat_map (code_bits p (width r)) codes)), {| st := s'; word := w'; residue := n' |}) /\
    pend p w' n' q' /\ (length q' < 8)%nat /\
    q ++ flat_map (code_bits p (width r)) codes = concat (fields 8 (q ++ flat_map (code_bits p (width r)) codes)) ++ q'.
Proof.
  intros Hp. induction amp as [|x t IH]; intros s w n q I F H Hq; cbn [map enc_list encode_loop].
  - exists [], s, w, n, q. cbn [flat_map]. rewrite app_nil_r, fields_short by lia. repeat split; auto; try apply I; apply H.
  - inversion F as [|? ? Hx Ht]; subst. destruct (linearize_range c x Hx) as [-> Hv].
    destruct (encode_step r s (value c x) I Hv) as (i & s1 & -> & Si & I1). cbn [rbind].
    destruct (store_ok r p w n q i Hp H Hq (proj1 Si)) as (w1 & n1 & q1 & o & -> & P1 & L1 & Fo & Eo). cbn [rbind].
    destruct (IH s1 w1 n1 q1 I1 Ht P1 L1) as (codes & s' & w' & n' & q' & -> & I' & -> & P' & L' & E'). cbn [rbind].
    exists (i :: codes), s', w', n', q'. cbn [flat_map]. rewrite app_assoc, Eo, <- app_assoc, fields_app_rest by (auto; lia).
    rewrite map_app. repeat split; auto; try apply I'; try apply P'.
    rewrite concat_app, <- app_assoc, <- E'. reflexivity.
Qed.
Lemma encode_loop_plain r c : forall amp s w n, inv s -> audio c amp ->
  exists codes s', enc_list r s (map (value c) amp) = Ok (codes, s') /\ inv s' /\
    encode_loop r c PNONE s w n amp = Ok (codes, {| st := s'; word := w; residue := n |}).
Proof.
  induction amp as [|x t IH]; intros s w n I F; cbn [map enc_list encode_loop]; [exists [], s; auto|].
  inversion F as [|? ? Hx Ht]; subst. destruct (linearize_range c x Hx) as [-> Hv].
  destruct (encode_step r s (value c x) I Hv) as (i & s1 & -> & Si & I1). cbn [rbind store].
  destruct (IH s1 w n I1 Ht) as (codes & s' & -> & I' & ->). cbn [rbind]. exists (i :: codes), s'. split; [reflexivity|]. split; [auto|].
  assert (u8 i = i) as -> by (unfold u8; apply Z.mod_small; destruct Si as [Si _]; unfold any_code in Si; destruct r; cbn in Si; lia). reflexivity.
Qed.

Lemma fetch_ok r p w n q data : p <> PNONE -> pend p w n q -> (length q < 16)%nat -> bytes data ->
  (exists f q' data' w' n', fetch r p w n data = Ok (Some (of_code_bits p f, w', n', data')) /\ length f = width r /\
     pend p w' n' q' /\ (length q' < 16)%nat /\ bytes data' /\ (length q' + 8 * length data' + width r = length q + 8 * length data)%nat /\
     q ++ flat_map (code_bits p 8) data = f ++ q' ++ flat_map (code_bits p 8) data') \/
  (fetch r p w n data = Ok None /\ data = [] /\ (length q < width r)%nat).
Proof.
  intros Hp H Hq Hd. pose proof (width_pos r) as Hw. assert (Hn : n = Z.of_nat (length q)) by apply H.
  assert (G : forall w1 n1 q1 d1, pend p w1 n1 q1 -> (width r <= length q1 <= 15)%nat -> bytes d1 -> 
     q ++ flat_map (code_bits p 8) data = q1 ++ flat_map (code_bits p 8) d1 ->
     (length q1 + 8 * length d1 = length q + 8 * length data)%nat ->
     exists f q' w', length f = width r /\ pend p w' (n1 - Z.of_nat (width r)) q' /\ (length q' < 16)%nat /\
     (length q' + 8 * length d1 + width r = length q + 8 * length data)%nat /\
     q ++ flat_map (code_bits p 8) data = f ++ q' ++ flat_map (code_bits p 8) d1 /\
     match p with PLEFT => w' = w1 /\ u8 (Z.land (Z.shiftr w1 (n1 - Z.of_nat (width r))) (Z.shiftl 1 (Z.of_nat (width r)) - 1)) = of_code_bits p f
     | _ => w' = Z.shiftr w1 (Z.of_nat (width r)) /\ u8 (Z.land w1 (Z.shiftl 1 (Z.of_nat (width r)) - 1)) = of_code_bits p f end).
  { intros w1 n1 q1 d1 H1 L1 B1 E1 Ln. set (f := firstn (width r) q1). set (q' := skipn (width r) q1).
    assert (Lf : length f = width r) by (unfold f; rewrite firstn_length; lia).
    assert (Lq : length q' = (length q1 - width r)%nat) by (unfold q'; rewrite skipn_length; lia).
    assert (Ef : q1 = f ++ q') by (symmetry; apply firstn_skipn). rewrite Ef in H1.
    pose proof (pend_take p w1 n1 f q' (width r) H1 Lf Hp ltac:(rewrite <- Ef; lia)) as T.
    pose proof (of_code_bits_range p f) as R. rewrite Lf in R.
    assert (Hu : forall z, z = of_code_bits p f -> u8 z = of_code_bits p f).
    { intros z ->. unfold u8. apply Z.mod_small. assert (2 ^ Z.of_nat (width r) <= 2 ^ 5) by (apply Z.pow_le_mono_r; lia). lia. }
    exists f, q'. clearbody f q'. destruct p; [congruence | |]; destruct T as [T1 T2]; eexists; (split; [auto|]); (split; [exact T2|]); (split; [lia|]); (split; [lia|]);
    (split; [rewrite E1, Ef, <- app_assoc; reflexivity|]); auto. }
  unfold fetch. rewrite bps_width.
  destruct (Z.ltb_spec n (Z.of_nat (width r))) as [Hlt|Hge].
  - destruct data as [|x t].
    + right. destruct p; [congruence | |]; split; auto; split; auto; lia.
    + left. inversion Hd as [|? ? Hx Ht]; subst x0 l.
      pose proof (pend_append p w n q x 8 H ltac:(lia) ltac:(lia) Hx Hp) as A. cbv zeta in A. change (Z.of_nat 8) with 8 in A.
      destruct (G _ (n + 8) (q ++ code_bits p 8 x) t A) as (f & q' & w' & G1 & G2 & G3 & G4 & G5 & G6).
      { rewrite app_length, code_bits_length. lia. } { exact Ht. } { cbn [flat_map]. rewrite app_assoc. reflexivity. }
      { rewrite app_length, code_bits_length. cbn [length]. lia. }
      exists f, q', t. destruct p; [congruence | |]; destruct G6 as [-> G6].
      * do 2 eexists. rewrite shr_ok by lia. cbn [rbind]. rewrite G6. split; [reflexivity|]. split; [auto|]. split; [exact G2|]. repeat split; auto.
      * do 2 eexists. rewrite shl_ok by lia. cbn [rbind]. rewrite G6. split; [reflexivity|]. split; [auto|]. split; [exact G2|]. repeat split; auto.
  - left. destruct (G w n q data H ltac:(lia) Hd eq_refl eq_refl) as (f & q' & w' & G1 & G2 & G3 & G4 & G5 & G6).
    exists f, q', data. destruct p; [congruence | |]; destruct G6 as [-> G6].
    * do 2 eexists. rewrite shr_ok by lia. cbn [rbind]. rewrite G6. split; [reflexivity|]. split; [auto|]. split; [exact G2|]. repeat split; auto.
    * do 2 eexists. rewrite G6. split; [reflexivity|]. split; [auto|]. split; [exact G2|]. repeat split; auto.
Qed.

Lemma decode_loop_packed r c p : p <> PNONE -> forall fuel s w n q data, inv s -> bytes data -> pend p w n q -> (length q < 16)%nat ->
  (length q + 8 * length data < fuel)%nat ->
  exists out s' w' n' q', dec_list r c s (map (of_code_bits p) (fields (width r) (q ++ flat_map (code_bits p 8) data))) = Ok (out, s') /\ inv s' /\
    decode_loop r c p fuel s w n data = Ok (out, {| st := s'; word := w'; residue := n' |}) /\
    pend p w' n' q' /\ (length q' < width r)%nat /\
    q ++ flat_map (code_bits p 8) data = concat (fields (width r) (q ++ flat_map (code_bits p 8) data)) ++ q'.
Proof.
  intros Hp. pose proof (width_pos r) as Hw. induction fuel as [|fuel IH]; intros s w n q data I Hd H Hq Hf; [lia|].
  cbn [decode_loop].
  destruct (fetch_ok r p w n q data Hp H Hq Hd) as [(f & q' & data' & w' & n' & -> & Lf & P' & L' & B' & Ln & E) | (-> & -> & Hlt)]; cbn [rbind].
  - destruct (decode_step r c s (of_code_bits p f) I) as (v & s1 & D & I1 & _). rewrite D. cbn [rbind].
    destruct (IH s1 w' n' q' data' I1 B' P' L' ltac:(lia)) as (out & s2 & w2 & n2 & q2 & D2 & I2 & -> & P2 & L2 & E2). cbn [rbind].
    do 5 eexists. rewrite E, fields_cons by (auto; lia). cbn [map dec_list]. rewrite D. cbn [rbind]. rewrite D2. cbn [rbind].
    split; [reflexivity|]. split; [exact I2|]. split; [reflexivity|]. split; [exact P2|]. split; [auto|].
    cbn [concat]. rewrite <- app_assoc. f_equal. exact E2.
  - cbn [flat_map]. rewrite app_nil_r, fields_short by lia. cbn [map dec_list concat app].
    exists [], s, w, n, q. repeat split; auto; try apply I; apply H.
Qed.
Lemma decode_loop_plain r c : forall data fuel s w n, inv s -> (length data < fuel)%nat ->
  exists out s', dec_list r c s data = Ok (out, s') /\ inv s' /\ decode_loop r c PNONE fuel s w n data = Ok (out, {| st := s'; word := w; residue := n |}).
Proof.
  induction data as [|x t IH]; intros [|fuel] s w n I Hf; try (cbn in Hf; lia); cbn [decode_loop fetch rbind dec_list]; [exists [], s; auto|].
  destruct (decode_step r c s x I) as (v & s1 & -> & I1 & _). cbn [rbind].
  destruct (IH fuel s1 w n I1 ltac:(cbn in Hf; lia)) as (out & s2 & -> & I2 & ->). cbn [rbind]. eauto.
Qed.
