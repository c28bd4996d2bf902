From Verif Require Import Base Bits G722_model G722_spec G722_band_proofs G722_step_proofs.
From Verif Require G726_model G726_spec G726_pack_proofs.
From Coq Require Import ZifyBool ZifyNat.
Local Open Scope Z_scope.
Notation PR := G726_model.PRIGHT.
Definition pend (w n : Z) (q : list bool) : Prop := G726_pack_proofs.pend PR w n q.

(** ---- coding without packing ---- *)
Fixpoint enc_codes (c : cfg) (fuel : nat) (x : ctx) (amp : list Z) : res (list Z * ctx) :=
  match amp with
  | [] => Ok ([], x)
  | _ => match fuel with
         | O => UB
         | S k => do (code, x, amp) <- encode1 c x amp; do (l, x) <- enc_codes c k x amp; Ok (code :: l, x)
         end
  end.
Fixpoint dec_codes (c : cfg) (x : ctx) (codes : list Z) : res (list Z * ctx) :=
  match codes with
  | [] => Ok ([], x)
  | code :: t => do (o, x) <- decode1 c x code; do (l, x) <- dec_codes c x t; Ok (o ++ l, x)
  end.
Lemma width_bps r : bps r = Z.of_nat (width r). Proof. destruct r; reflexivity. Qed.
Lemma width_range r : (6 <= width r <= 8)%nat. Proof. destruct r; cbn; lia. Qed.
Lemma code_u8 r v : code_ok r v -> u8 v = v.
Proof. intros H. unfold code_ok in H. unfold u8. apply Z.mod_small. destruct r; cbn in H; lia. Qed.
Lemma enc_codes_ok c : forall f x amp, inv x -> audio amp -> whole c amp -> (length amp <= f)%nat ->
  exists codes y, enc_codes c f x amp = Ok (codes, y) /\ inv y /\ Forall (code_ok (bits c)) codes /\ length codes = n_codes c amp /\ buf y = buf x /\ nbits y = nbits x.
Proof.
  induction f as [|f IH]; intros x amp I F W L.
  - destruct amp; [|cbn in L; lia]. exists [], x. cbn. unfold n_codes. destruct (two_bands c); auto 10.
  - destruct amp as [|a t]; [exists [], x; cbn; unfold n_codes; destruct (two_bands c); auto 10|].
    destruct (encode1_ok c x (a :: t) I F W ltac:(discriminate)) as (code & x' & rest & ih & il & E & I' & Ec & Hh & Hl & _ & _ & B1 & B2 & F' & W' & N & L').
    cbn [enc_codes]. rewrite E. cbn [rbind].
    destruct (IH x' rest I' F' W' ltac:(lia)) as (codes & y & -> & Iy & Fc & Lc & B3 & B4). cbn [rbind].
    eexists _, y. split; [reflexivity|]. split; [auto|]. split; [constructor; [subst code; apply split_cut; lia | auto]|].
    cbn [length]. rewrite N. split; [congruence|]. split; congruence.
Qed.
Lemma encode_plain c : packed c = false -> forall f x amp, encode_loop c f x amp =
  match enc_codes c f x amp with Ok (l, y) => Ok (map u8 l, y) | UB => UB end.
Proof.
  intros Hp. induction f as [|f IH]; intros x amp; destruct amp as [|a t]; try reflexivity.
  cbn [encode_loop enc_codes]. destruct (encode1 c x (a :: t)) as [[[code x'] rest]|]; cbn [rbind]; [|reflexivity].
  unfold store. rewrite Hp, IH. destruct (enc_codes c f x' rest) as [[l y]|]; reflexivity.
Qed.
Lemma enc_codes_set_buf c w n : forall f x amp, enc_codes c f (set_buf x w n) amp =
  match enc_codes c f x amp with Ok (l, y) => Ok (l, set_buf y w n) | UB => UB end.
Proof.
  induction f as [|f IH]; intros x amp; destruct amp as [|a t]; try reflexivity.
  cbn [enc_codes]. rewrite encode1_set_buf. destruct (encode1 c x (a :: t)) as [[[code x'] rest]|]; cbn [rbind]; [|reflexivity].
  rewrite IH. destruct (enc_codes c f x' rest) as [[l y]|]; reflexivity.
Qed.
Lemma dec_codes_set_buf c w n : forall l x, dec_codes c (set_buf x w n) l =
  match dec_codes c x l with Ok (o, y) => Ok (o, set_buf y w n) | UB => UB end.
Proof.
  induction l as [|i t IH]; intros x; [reflexivity|]. cbn [dec_codes]. rewrite decode1_set_buf.
  destruct (decode1 c x i) as [[o x']|]; cbn [rbind]; [|reflexivity]. rewrite IH.
  destruct (dec_codes c x' t) as [[l y]|]; reflexivity.
Qed.
Lemma dec_codes_app c l1 : forall x l2, dec_codes c x (l1 ++ l2) =
  do (o1, x) <- dec_codes c x l1; do (o2, x) <- dec_codes c x l2; Ok (o1 ++ o2, x).
Proof.
  induction l1 as [|i t IH]; intros x l2; cbn [dec_codes app rbind].
  - destruct (dec_codes c x l2) as [[? ?]|]; reflexivity.
  - destruct (decode1 c x i) as [[v x']|]; cbn [rbind]; [|reflexivity]. rewrite IH.
    destruct (dec_codes c x' t) as [[o1 x1]|]; cbn [rbind]; [|reflexivity].
    destruct (dec_codes c x1 l2) as [[o2 x2]|]; cbn [rbind]; [|reflexivity]. rewrite app_assoc. reflexivity.
Qed.
Lemma dec_codes_ok c : forall codes x, inv x -> Forall (fun v => 0 <= v) codes ->
  exists out y, dec_codes c x codes = Ok (out, y) /\ inv y /\ audio out /\ length out = (per_code c * length codes)%nat /\ buf y = buf x /\ nbits y = nbits x.
Proof.
  induction codes as [|i t IH]; intros x I F; cbn [dec_codes].
  - exists [], x. split; [reflexivity|]. split; [auto|]. split; [constructor|]. cbn [length]. split; [lia|]. auto.
  - inversion F as [|? ? Hi Ht]; subst. destruct (decode1_ok c x i I Hi) as (o & x' & -> & I' & Fo & Lo & B1 & B2). cbn [rbind].
    destruct (IH x' I' Ht) as (out & y & -> & Iy & Fy & Ly & B3 & B4). cbn [rbind].
    eexists _, y. split; [reflexivity|]. split; [auto|]. split; [apply Forall_app; auto|]. rewrite app_length. cbn [length]. split; [lia|]. split; congruence.
Qed.
Lemma decode_plain c : packed c = false -> forall data f x, (length data <= f)%nat -> decode_loop c f x data = dec_codes c x data.
Proof.
  intros Hp. induction data as [|o t IH]; intros f x L; [destruct f; reflexivity|].
  destruct f as [|f]; [cbn in L; lia|]. cbn [decode_loop dec_codes]. rewrite Hp.
  destruct (decode1 c x o) as [[v x']|]; cbn [rbind]; [|reflexivity]. rewrite IH by (cbn in L; lia). reflexivity.
Qed.

(** ---- packing ---- *)
Lemma store_ok c x q code : packed c = true -> pend (buf x) (nbits x) q -> (length q < 8)%nat -> code_ok (bits c) code ->
  exists o w n q', store c x code = (map of_bits_lsb o, set_buf x w n) /\ pend w n q' /\ (length q' < 8)%nat /\
    Forall (fun f => length f = 8%nat) o /\ q ++ bits_lsb (width (bits c)) code = concat o ++ q'.
Proof.
  intros Hp H Hq Hc. pose proof (width_range (bits c)) as Hw. unfold store. rewrite Hp, width_bps.
  pose proof (G726_pack_proofs.pend_append PR (buf x) (nbits x) q code (width (bits c)) H ltac:(lia) ltac:(lia) Hc ltac:(discriminate)) as A. cbv zeta in A. cbn [G726_spec.code_bits] in A.
  set (q1 := q ++ bits_lsb (width (bits c)) code) in *. assert (L1 : length q1 = (length q + width (bits c))%nat) by (unfold q1; rewrite app_length, bits_lsb_length; reflexivity).
  clearbody q1. set (w1 := Z.lor _ _) in *. clearbody w1.
  assert (Hn : nbits x = Z.of_nat (length q)) by apply H.
  destruct (Z.leb_spec 8 (nbits x + Z.of_nat (width (bits c)))).
  - rewrite <- (firstn_skipn 8 q1) in A. assert (L8 : length (firstn 8 q1) = 8%nat) by (rewrite firstn_length; lia).
    destruct (G726_pack_proofs.pend_take PR w1 _ _ _ 8 A L8 ltac:(discriminate) ltac:(rewrite firstn_skipn; lia)) as [T1 T2].
    exists [firstn 8 q1], (Z.shiftr w1 8), (nbits x + Z.of_nat (width (bits c)) - 8), (skipn 8 q1).
    cbn [G726_spec.of_code_bits] in T1. change (Z.shiftl 1 (Z.of_nat 8) - 1) with 255 in T1. rewrite T1. cbn [map concat].
    pose proof (of_bits_lsb_range (firstn 8 q1)) as R. rewrite L8 in R. change (2 ^ Z.of_nat 8) with 256 in R.
    unfold u8. rewrite Z.mod_small by lia. split; [reflexivity|]. split; [exact T2|]. rewrite skipn_length. split; [lia|].
    split; [repeat constructor; auto|]. rewrite app_nil_r, firstn_skipn. reflexivity.
  - exists [], w1, (nbits x + Z.of_nat (width (bits c))), q1. cbn [map concat app]. split; [reflexivity|]. split; [exact A|]. split; [lia|]. split; [constructor|reflexivity].
Qed.
Lemma encode_packed c : packed c = true -> forall f x amp q, inv x -> audio amp -> whole c amp -> (length amp <= f)%nat -> pend (buf x) (nbits x) q -> (length q < 8)%nat ->
  exists codes y o w n q', enc_codes c f x amp = Ok (codes, y) /\ encode_loop c f x amp = Ok (map of_bits_lsb o, set_buf y w n) /\
    pend w n q' /\ (length q' < 8)%nat /\ Forall (fun f => length f = 8%nat) o /\ q ++ flat_map (bits_lsb (width (bits c))) codes = concat o ++ q'.
Proof.
  intros Hp. induction f as [|f IH]; intros x amp q I F W L P Lq.
  - destruct amp; [|cbn in L; lia]. exists [], x, [], (buf x), (nbits x), q. cbn. split; [reflexivity|]. split; [destruct x; reflexivity|]. rewrite app_nil_r. auto.
  - destruct amp as [|a t]; [exists [], x, [], (buf x), (nbits x), q; cbn; split; [reflexivity|]; split; [destruct x; reflexivity|]; rewrite app_nil_r; auto|].
    destruct (encode1_ok c x (a :: t) I F W ltac:(discriminate)) as (code & x' & rest & ih & il & E & I' & Ec & Hh & Hl & _ & _ & B1 & B2 & F' & W' & N & L').
    cbn [encode_loop enc_codes]. rewrite E. cbn [rbind].
    assert (Hc : code_ok (bits c) code) by (subst code; apply split_cut; lia).
    destruct (store_ok c x' q code Hp ltac:(rewrite B1, B2; exact P) Lq Hc) as (o & w & n & q1 & -> & P1 & Lq1 & Fo & Eo).
    destruct (IH (set_buf x' w n) rest q1 (set_buf_inv _ _ _ I') F' W' ltac:(cbn [length] in *; lia) P1 Lq1) as (codes & y & o2 & w2 & n2 & q2 & E1 & E2 & P2 & Lq2 & Fo2 & Eo2).
    rewrite enc_codes_set_buf in E1. destruct (enc_codes c f x' rest) as [[l y0]|]; [|discriminate]. inversion E1; subst codes y. clear E1.
    rewrite E2. cbn [rbind]. eexists _, _, (o ++ o2), w2, n2, q2. split; [reflexivity|]. split; [rewrite map_app; reflexivity|]. split; [auto|]. split; [auto|].
    split; [apply Forall_app; auto|]. cbn [flat_map]. rewrite app_assoc, Eo, <- app_assoc, Eo2, concat_app, app_assoc. reflexivity.
Qed.

(** ---- unpacking ---- *)
Definition turns (r : rate) (n : Z) (data : list Z) : nat := (2 * length data - (if (n <? bps r)%Z then 1 else 0))%nat.
Lemma decode_packed_all r : forall f w n data q, bytes data -> pend w n q -> (length q < 8)%nat -> (turns r n data <= f)%nat ->
  exists fs q' w' n', (forall c x, bits c = r -> packed c = true -> buf x = w -> nbits x = n ->
      decode_loop c f x data = match dec_codes c x (map of_bits_lsb fs) with Ok (o, y) => Ok (o, set_buf y w' n') | UB => UB end) /\
    pend w' n' q' /\ (length q' < 8)%nat /\ Forall (fun g => length g = width r) fs /\ q ++ flat_map (bits_lsb 8) data = concat fs ++ q'.
Proof.
  pose proof (width_range r) as Hw.
  induction f as [|f IH]; intros w n data q F P Lq T; (destruct data as [|d t];
    [exists [], q, w, n; split; [intros c x _ _ <- <-; destruct x; reflexivity | split; [auto|]; split; [auto|]; split; [constructor | cbn; apply app_nil_r]]|]).
  { unfold turns in T. cbn [length] in T. destruct (n <? bps r); lia. }
  assert (Hn : n = Z.of_nat (length q)) by apply P. pose proof (Forall_inv F) as Hd. pose proof (Forall_inv_tail F) as Ht.
  (* the bits before the code is taken *)
  assert (A : exists w1 n1 data1 q1, (if n <? bps r then (Z.lor w (u32 (Z.shiftl d n)), n + 8, t) else (w, n, d :: t)) = (w1, n1, data1) /\
     pend w1 n1 q1 /\ bytes data1 /\ q ++ flat_map (bits_lsb 8) (d :: t) = q1 ++ flat_map (bits_lsb 8) data1 /\ (width r <= length q1 < width r + 8)%nat /\ n1 = Z.of_nat (length q1) /\
     (turns r (n1 - bps r) data1 <= f)%nat).
  { unfold turns in *. rewrite width_bps in *. destruct (Z.ltb_spec n (Z.of_nat (width r))) as [Hlt|Hge].
    - pose proof (G726_pack_proofs.pend_append PR w n q d 8 P ltac:(lia) ltac:(lia) Hd ltac:(discriminate)) as A. cbv zeta in A. cbn [G726_spec.code_bits] in A.
      eexists _, _, t, _. split; [reflexivity|]. split; [exact A|]. split; [exact Ht|]. rewrite app_length, bits_lsb_length.
      split; [cbn [flat_map]; rewrite app_assoc; reflexivity|]. split; [lia|]. split; [lia|].
      cbn [length] in T. destruct (_ <? _); lia.
    - exists w, n, (d :: t), q. split; [reflexivity|]. split; [auto|]. split; [auto|]. split; [auto|]. split; [lia|]. split; [lia|].
      cbn [length] in *. destruct (Z.ltb_spec (n - Z.of_nat (width r)) (Z.of_nat (width r))); lia. }
  destruct A as (w1 & n1 & data1 & q1 & Ew & P1 & F1 & Eq & Lq1 & Hn1 & T1).
  rewrite <- (firstn_skipn (width r) q1) in P1. assert (Lf : length (firstn (width r) q1) = width r) by (rewrite firstn_length; lia).
  destruct (G726_pack_proofs.pend_take PR w1 _ _ _ (width r) P1 Lf ltac:(discriminate) ltac:(rewrite firstn_skipn; lia)) as [E1 P2].
  cbn [G726_spec.of_code_bits] in E1. rewrite <- width_bps in P2, E1.
  destruct (IH (Z.shiftr w1 (bps r)) (n1 - bps r) data1 (skipn (width r) q1) F1 P2 ltac:(rewrite skipn_length; lia) T1) as (fs & q' & w' & n' & E2 & P3 & L3 & F3 & E3).
  exists (firstn (width r) q1 :: fs), q', w', n'.
  split; [|split; [auto|]; split; [auto|]; split; [constructor; auto|]; cbn [concat]; rewrite <- app_assoc, <- E3, app_assoc, firstn_skipn; exact Eq].
  intros c x Hr Hp Hb Hm. cbn [decode_loop]. rewrite Hp, Hr, Hb, Hm, Ew, E1, decode1_set_buf. cbn [map dec_codes].
  destruct (decode1 c x (of_bits_lsb (firstn (width r) q1))) as [[o y]|]; [|reflexivity]. cbn [rbind].
  rewrite (E2 c (set_buf y (Z.shiftr w1 (bps r)) (n1 - bps r)) Hr Hp eq_refl eq_refl), dec_codes_set_buf.
  destruct (dec_codes c y (map of_bits_lsb fs)) as [[l z]|]; reflexivity.
Qed.
Lemma decode_packed c : packed c = true -> forall f x data q, bytes data -> pend (buf x) (nbits x) q -> (length q < 8)%nat -> (turns (bits c) (nbits x) data <= f)%nat ->
  exists fs q' w n, decode_loop c f x data = match dec_codes c x (map of_bits_lsb fs) with Ok (o, y) => Ok (o, set_buf y w n) | UB => UB end /\
    pend w n q' /\ (length q' < 8)%nat /\ Forall (fun g => length g = width (bits c)) fs /\ q ++ flat_map (bits_lsb 8) data = concat fs ++ q'.
Proof.
  intros Hp f x data q F P Lq T. destruct (decode_packed_all (bits c) f (buf x) (nbits x) data q F P Lq T) as (fs & q' & w & n & E & H).
  exists fs, q', w, n. split; [apply E; auto | exact H].
Qed.
