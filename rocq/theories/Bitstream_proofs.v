From Verif Require Import Base Bits Bitstream_model Bitstream_spec.
From Coq Require Import ZifyBool ZifyNat.
Ltac Zify.zify_post_hook ::= Z.div_mod_to_equations.

Definition ofb (lsb : bool) := if lsb then of_bits_lsb else of_bits_msb.
Lemma pack_ord_eq lsb l : pack_ord lsb l = pack (ofb lsb) l.
Proof. destruct lsb; reflexivity. Qed.

Lemma mask_ok b : 0 <= b <= 30 -> mask b = Ok (Z.shiftl 1 b - 1).
Proof. intros H. unfold mask. replace (_ && _) with true by lia. reflexivity. Qed.

(** Abstraction: the low [residue] bits of the accumulator are the pending bits. *)
Definition holds (lsb : bool) (b r : Z) (p : list bool) : Prop :=
  r = Z.of_nat (length p) /\ 0 <= b < 2 ^ 32 /\
  if lsb then b = of_bits_lsb p else b mod 2 ^ r = of_bits_msb p.

Lemma pow_le_32 n : (n <= 32)%nat -> 2 ^ Z.of_nat n <= 2 ^ 32.
Proof. intros H. apply Z.pow_le_mono_r; lia. Qed.

Lemma holds_append_lsb b r p q : holds true b r p -> (length p + length q <= 32)%nat ->
  holds true (Z.lor b (u32 (Z.shiftl (of_bits_lsb q) r))) (r + Z.of_nat (length q)) (p ++ q).
Proof.
  intros (Hr & Hb & E) Hl. unfold holds. rewrite app_length.
  pose proof (of_bits_lsb_range p) as Rp. pose proof (of_bits_lsb_range q) as Rq.
  pose proof (of_bits_lsb_range (p ++ q)) as Rpq. rewrite of_bits_lsb_app in *.
  rewrite app_length in Rpq. pose proof (pow_le_32 _ Hl). pose proof (p2_pos (length p)).
  assert (S : u32 (Z.shiftl (of_bits_lsb q) r) = of_bits_lsb q * 2 ^ Z.of_nat (length p)).
  { unfold u32. rewrite Z.shiftl_mul_pow2, Hr by lia. apply Z.mod_small. change (2^32) with 4294967296 in *. nia. }
  rewrite S, E, lor_disj by lia. repeat split; lia.
Qed.
Lemma lor_disj' a b k : 0 <= k -> 0 <= a < 2 ^ k -> Z.lor (b * 2 ^ k) a = b * 2 ^ k + a.
Proof. intros. rewrite Z.lor_comm, lor_disj by auto. lia. Qed.
Lemma holds_append_msb b r p q : holds false b r p -> (length p + length q <= 32)%nat ->
  holds false (Z.lor (u32 (Z.shiftl b (Z.of_nat (length q)))) (of_bits_msb q)) (r + Z.of_nat (length q)) (p ++ q).
Proof.
  intros (Hr & Hb & E) Hl. unfold holds. rewrite app_length.
  pose proof (of_bits_msb_range p) as Rp. pose proof (of_bits_msb_range q) as Rq.
  rewrite of_bits_msb_app. set (n := Z.of_nat (length q)) in *.
  pose proof (p2_pos (length p)). pose proof (p2_pos (length q)). fold n in H0.
  assert (S : u32 (Z.shiftl b n) = (b mod 2 ^ (32 - n)) * 2 ^ n).
  { unfold u32. rewrite Z.shiftl_mul_pow2 by lia. change 4294967296 with (2 ^ 32).
    replace 32 with (n + (32 - n)) at 1 by lia. rewrite Z.pow_add_r by lia.
    rewrite (Z.mul_comm b). rewrite Z.mul_mod_distr_l by (try apply Z.pow_nonzero; lia). lia. }
  assert (P32 : 2 ^ 32 = 2 ^ n * 2 ^ (32 - n)) by (rewrite <- Z.pow_add_r by lia; f_equal; lia).
  pose proof (Z.mod_pos_bound b (2 ^ (32 - n)) ltac:(apply Z.pow_pos_nonneg; lia)) as M.
  rewrite S, lor_disj' by lia. repeat split; [lia|nia|nia|].
  rewrite Hr, Z.pow_add_r by lia. rewrite <- E, Hr.
  set (k := Z.of_nat (length p)) in *.
  assert (D : b mod 2 ^ (32 - n) mod 2 ^ k = b mod 2 ^ k).
  { replace (32 - n) with (k + (32 - n - k)) by lia. rewrite Z.pow_add_r by lia.
    rewrite Z.rem_mul_r by (try apply Z.pow_pos_nonneg; try apply Z.pow_nonzero; lia).
    rewrite Z.mul_comm, Z_mod_plus_full, Z.mod_mod by lia. reflexivity. }
  set (c := b mod 2 ^ (32 - n)) in *.
  rewrite <- D. rewrite Z.add_comm, (Z.mul_comm (2 ^ k)), (Z.mul_comm c).
  rewrite Z.rem_mul_r by lia. 
  replace (of_bits_msb q + 2 ^ n * c) with (of_bits_msb q + c * 2 ^ n) by lia.
  rewrite Z.div_add, Z_mod_plus_full by lia. rewrite (Z.mod_small (of_bits_msb q)), (Z.div_small (of_bits_msb q)) by lia. rewrite Z.add_0_l. ring.
Qed.

Lemma hi_lo b k v f p : 0 <= k -> 0 <= v -> 0 <= p < 2 ^ k -> 0 <= f < 2 ^ v -> b mod 2 ^ (v + k) = f * 2 ^ k + p ->
  b mod 2 ^ k = p /\ (b / 2 ^ k) mod 2 ^ v = f.
Proof.
  intros Hk Hv Hp Hf E. assert (Pk : 0 < 2 ^ k) by (apply Z.pow_pos_nonneg; lia).
  assert (Pv : 0 < 2 ^ v) by (apply Z.pow_pos_nonneg; lia).
  rewrite Z.add_comm, Z.pow_add_r, Z.rem_mul_r in E by lia.
  pose proof (Z.mod_pos_bound b (2 ^ k) Pk) as M.
  set (x := b mod 2 ^ k) in *. set (y := (b / 2 ^ k) mod 2 ^ v) in *. clearbody x y.
  destruct (Z.div_mod_unique (2 ^ k) y f x p); try lia.
Qed.
Lemma put_loop_ok lsb : forall fuel b r p, holds lsb b r p -> (length p <= 8 * fuel + 7)%nat -> (length p <= 32)%nat ->
  exists b' p' out, put_loop lsb fuel b r = Ok (b', Z.of_nat (length p'), out) /\ holds lsb b' (Z.of_nat (length p')) p' /\
     (length p' < 8)%nat /\ forall l, pack (ofb lsb) (p ++ l) = out ++ pack (ofb lsb) (p' ++ l).
Proof.
  induction fuel as [|fuel IH]; intros b r p H Hf Hl.
  - exists b, p, []. destruct H as (Hr & Hb & E). cbn [put_loop]. destruct (Z.ltb_spec r 8); [|lia].
    subst r. repeat split; auto; try lia.
  - cbn [put_loop]. destruct (Z.ltb_spec r 8) as [Hr8|Hr8].
    + exists b, p, []. destruct H as (Hr & Hb & E). subst r. repeat split; auto; lia.
    + set (p1 := firstn 8 p). set (p2 := skipn 8 p). assert (Ep : p = p1 ++ p2) by (symmetry; apply firstn_skipn).
      destruct H as (Hr & Hb & E).
      assert (L1 : length p1 = 8%nat) by (unfold p1; rewrite firstn_length; lia).
      assert (L2 : length p2 = (length p - 8)%nat) by (unfold p2; rewrite skipn_length; lia).
      destruct lsb.
      * destruct (IH (Z.shiftr b 8) (r - 8) p2) as (b' & p' & out & E1 & E2 & E3 & E4).
        { unfold holds. rewrite Z.shiftr_div_pow2 by lia. change (2^8) with 256.
          rewrite E, Ep, of_bits_lsb_app, L1. pose proof (of_bits_lsb_range p1) as R1. rewrite L1 in R1.
          pose proof (of_bits_lsb_range p2). pose proof (pow_le_32 (length p2) ltac:(lia)).
          change (2 ^ Z.of_nat 8) with 256 in *. repeat split; lia. }
        { lia. } { lia. }
        rewrite E1. cbn [rbind]. exists b', p', (Z.land b 255 :: out). repeat split; auto; try apply E2.
        intros l. rewrite Ep, <- app_assoc, pack_app8 by auto. cbn [ofb] in *. rewrite E4. cbn [app]. f_equal.
        rewrite land_ff_mod, E, Ep, of_bits_lsb_app, L1. pose proof (of_bits_lsb_range p1) as R1. rewrite L1 in R1.
        change (2 ^ Z.of_nat 8) with 256 in *. lia.
      * destruct (Z.leb_spec 32 (r - 8)); [lia|].
        destruct (IH b (r - 8) p2) as (b' & p' & out & E1 & E2 & E3 & E4).
        { unfold holds. split; [lia|]. split; [lia|].
          replace r with (8 + (r - 8)) in E by lia.
          rewrite Ep, of_bits_msb_app in E. replace (Z.of_nat (length p2)) with (r - 8) in E by lia.
          pose proof (of_bits_msb_range p2) as R2. replace (Z.of_nat (length p2)) with (r - 8) in R2 by lia.
          pose proof (of_bits_msb_range p1) as R1. rewrite L1 in R1.
          apply (hi_lo b (r - 8) 8 (of_bits_msb p1)); solve [lia|exact R1|exact E]. }
        { lia. } { lia. }
        rewrite E1. cbn [rbind]. exists b', p', (Z.land (Z.shiftr b (r - 8)) 255 :: out). repeat split; auto; try apply E2.
        intros l. rewrite Ep, <- app_assoc, pack_app8 by auto. cbn [ofb] in *. rewrite E4. cbn [app]. f_equal.
        rewrite land_ff_mod, Z.shiftr_div_pow2 by lia.
        replace r with (8 + (r - 8)) in E by lia.
        rewrite Ep, of_bits_msb_app in E. replace (Z.of_nat (length p2)) with (r - 8) in E by lia.
        pose proof (of_bits_msb_range p2) as R2. replace (Z.of_nat (length p2)) with (r - 8) in R2 by lia.
        pose proof (of_bits_msb_range p1) as R1. rewrite L1 in R1.
        symmetry. change 256 with (2 ^ 8). apply (hi_lo b (r - 8) 8 (of_bits_msb p1) (of_bits_msb p2)); solve [lia|exact R1|exact E].
Qed.

Lemma put_ok lsb s p v w : lsb_first s = lsb -> holds lsb (bitstream s) (residue s) p -> (length p < 8)%nat -> 0 <= w <= 25 ->
  exists s' p' out, bitstream_put s v w = Ok (s', out) /\ lsb_first s' = lsb /\ holds lsb (bitstream s') (residue s') p' /\
    (length p' < 8)%nat /\ forall l, pack (ofb lsb) (p ++ field_bits lsb (v, w) ++ l) = out ++ pack (ofb lsb) (p' ++ l).
Proof.
  intros Hs H Hl Hw. unfold bitstream_put. rewrite mask_ok by lia. cbn [rbind].
  rewrite land_mask by lia.
  assert (Hr : residue s = Z.of_nat (length p)) by apply H.
  destruct (Z.leb_spec (residue s + w) 32); [|lia].
  assert (HH : holds lsb (if lsb_first s then Z.lor (bitstream s) (u32 (Z.shiftl (v mod 2 ^ w) (residue s)))
       else Z.lor (u32 (Z.shiftl (bitstream s) w)) (v mod 2 ^ w)) (residue s + w) (p ++ field_bits lsb (v, w))).
  { rewrite Hs. unfold field_bits. cbn [fst snd]. destruct lsb.
    - pose proof (holds_append_lsb _ _ p (bits_lsb (Z.to_nat w) v) H) as A.
      rewrite bits_lsb_length, of_bits_lsb_mod, Z2Nat.id in A by lia. apply A. lia.
    - pose proof (holds_append_msb _ _ p (bits_msb (Z.to_nat w) v) H) as A.
      rewrite bits_msb_length, of_bits_msb_mod, Z2Nat.id in A by lia. apply A. lia. }
  assert (Lf : length (field_bits lsb (v, w)) = Z.to_nat w) by (destruct lsb; [apply bits_lsb_length|apply bits_msb_length]).
  rewrite Hs in *. destruct (put_loop_ok lsb 8 _ _ _ HH) as (b' & p' & out & E1 & E2 & E3 & E4).
  { rewrite app_length. lia. } { rewrite app_length. lia. }
  rewrite E1. cbn [rbind]. eexists _, p', out. split; [reflexivity|]. cbn. repeat split; auto; try apply E2.
  intros l. rewrite app_assoc. apply E4.
Qed.
Lemma put_fields_ok lsb fs : forall s p, lsb_first s = lsb -> holds lsb (bitstream s) (residue s) p -> (length p < 8)%nat ->
  Forall (fun f => 0 <= snd f <= 25) fs ->
  exists s' p' out, put_fields s fs = Ok (s', out) /\ lsb_first s' = lsb /\ holds lsb (bitstream s') (residue s') p' /\
    (length p' < 8)%nat /\ forall l, pack (ofb lsb) (p ++ fields_bits lsb fs ++ l) = out ++ pack (ofb lsb) (p' ++ l).
Proof.
  induction fs as [|[v w] fs IH]; intros s p Hs H Hl Hw.
  - exists s, p, []. repeat split; auto; apply H.
  - inversion Hw as [|? ? Hw1 Hw2]; subst. cbn [snd] in Hw1.
    destruct (put_ok (lsb_first s) s p v w eq_refl H Hl Hw1) as (s1 & p1 & o1 & E1 & E2 & E3 & E4 & E5).
    destruct (IH s1 p1 E2 E3 E4 Hw2) as (s2 & p2 & o2 & F1 & F2 & F3 & F4 & F5).
    exists s2, p2, (o1 ++ o2). cbn [put_fields]. rewrite E1. cbn [rbind]. rewrite F1. cbn [rbind].
    repeat split; auto; try apply F3.
    intros l. unfold fields_bits. cbn [flat_map]. rewrite <- !app_assoc. fold (fields_bits (lsb_first s) fs).
    rewrite E5, F5. reflexivity.
Qed.

Lemma of_bits_lsb_pad p n : of_bits_lsb (p ++ repeat false n) = of_bits_lsb p.
Proof.
  rewrite of_bits_lsb_app. assert (E : of_bits_lsb (repeat false n) = 0) by (induction n as [|n IH]; cbn [repeat of_bits_lsb Z.b2z]; lia).
  rewrite E. lia.
Qed.
Lemma of_bits_msb_pad p n : of_bits_msb (p ++ repeat false n) = of_bits_msb p * 2 ^ Z.of_nat n.
Proof.
  rewrite of_bits_msb_app, repeat_length.
  assert (E : of_bits_msb (repeat false n) = 0).
  { unfold of_bits_msb. assert (R : rev (repeat false n) = repeat false n).
    { induction n as [|n IH]; [reflexivity|]. cbn [repeat rev]. rewrite IH. symmetry. apply repeat_cons. }
    rewrite R. apply (of_bits_lsb_pad [] n). }
  rewrite E. lia.
Qed.
Lemma flush_ok lsb s p : lsb_first s = lsb -> holds lsb (bitstream s) (residue s) p -> (length p < 8)%nat ->
  bitstream_flush s = Ok (bitstream_init lsb, pack (ofb lsb) p).
Proof.
  intros Hs (Hr & Hb & E) Hl. unfold bitstream_flush, bitstream_emit, bitstream_init. rewrite Hs.
  destruct (Z.ltb_spec 0 (residue s)).
  - rewrite mask_ok by lia. cbn [rbind]. rewrite land_mask by lia.
    assert (B : forall n, 0 <= n <= 7 -> 2 ^ n <= 128) by (intros n Hn; change 128 with (2^7); apply Z.pow_le_mono_r; lia).
    destruct lsb.
    + cbn [rbind]. repeat f_equal. rewrite pack_last by lia. f_equal. cbn [ofb]. rewrite of_bits_lsb_pad, E.
      pose proof (of_bits_lsb_range p). rewrite Hr. rewrite Z.mod_small by lia.
      specialize (B (Z.of_nat (length p)) ltac:(lia)). unfold u8. apply Z.mod_small. lia.
    + replace (residue s <=? 8) with true by lia. cbn [rbind]. repeat f_equal. rewrite pack_last by lia. f_equal. cbn [ofb].
      rewrite of_bits_msb_pad, E, Hr. replace (8 - Z.of_nat (length p)) with (Z.of_nat (8 - length p)) by lia.
      rewrite Z.shiftl_mul_pow2 by lia. pose proof (of_bits_msb_range p).
      assert (of_bits_msb p * 2 ^ Z.of_nat (8 - length p) < 2 ^ 8).
      { assert (E8 : 2 ^ 8 = 2 ^ Z.of_nat (length p) * 2 ^ Z.of_nat (8 - length p)) by (rewrite <- Z.pow_add_r by lia; f_equal; lia). rewrite E8.
        pose proof (p2_pos (8 - length p)). nia. }
      change (2^8) with 256 in *. unfold u8, u32. rewrite (Z.mod_small _ 4294967296) by nia. rewrite Z.mod_small by nia. reflexivity.
  - cbn [rbind]. destruct p; [|cbn in Hr; lia]. repeat f_equal. cbn in Hr. lia.
Qed.
Lemma write_ok lsb fs : Forall (fun f => 0 <= snd f <= 25) fs -> write_fields lsb fs = Ok (pack_ord lsb (fields_bits lsb fs)).
Proof.
  intros H. unfold write_fields.
  destruct (put_fields_ok lsb fs (bitstream_init lsb) []) as (s & p & out & E1 & E2 & E3 & E4 & E5); auto.
  { unfold holds. cbn. destruct lsb; repeat split; lia. } { cbn; lia. }
  rewrite E1. cbn [rbind]. rewrite (flush_ok lsb s p) by auto. cbn [rbind]. f_equal.
  specialize (E5 []). rewrite !app_nil_r in E5. cbn [app] in E5. rewrite pack_ord_eq. auto.
Qed.

Lemma app_inj_len {A} (a b c d : list A) : length a = length c -> a ++ b = c ++ d -> a = c /\ b = d.
Proof.
  revert c. induction a as [|x a IH]; intros [|y c] H E; try discriminate H; [auto|].
  injection E as -> E. injection H as H. destruct (IH c H E) as [-> ->]. auto.
Qed.
(** ---- reading ---- *)
Definition unpack_ord (lsb : bool) (l : list Z) := if lsb then unpack_lsb l else unpack_msb l.
Lemma get_loop_ok lsb bits : 0 <= bits <= 25 -> forall fuel b r p src, holds lsb b r p ->
  bytes src -> Z.of_nat (length p) < bits -> bits <= Z.of_nat (length p + 8 * length src) ->
  bits - Z.of_nat (length p) <= Z.of_nat (8 * fuel) ->
  exists b' p' src', get_loop lsb fuel bits b r src = Ok (b', Z.of_nat (length p'), src') /\ holds lsb b' (Z.of_nat (length p')) p' /\
     bits <= Z.of_nat (length p') < bits + 8 /\ bytes src' /\ p ++ unpack_ord lsb src = p' ++ unpack_ord lsb src'.
Proof.
  intros Hbits. induction fuel as [|fuel IH]; intros b r p src H Hby Hlt Hav Hf; [lia|].
  cbn [get_loop]. assert (Hr : r = Z.of_nat (length p)) by apply H.
  destruct (Z.leb_spec bits r); [lia|].
  destruct src as [|x src]; [cbn [length] in Hav; lia|].
  inversion Hby as [|? ? Hx Hs]; subst x0 l. unfold byte in Hx.
  assert (STEP : exists q, length q = 8%nat /\ 
     holds lsb (if lsb then Z.lor b (u32 (Z.shiftl x r)) else Z.lor (u32 (Z.shiftl b 8)) x) (r + 8) (p ++ q) /\
     unpack_ord lsb (x :: src) = q ++ unpack_ord lsb src).
  { destruct lsb.
    - exists (bits_lsb 8 x). split; [apply bits_lsb_length|]. split; [|reflexivity].
      pose proof (holds_append_lsb b r p (bits_lsb 8 x) H) as A. rewrite bits_lsb_length, of_bits_lsb_bits in A by (change (2 ^ Z.of_nat 8) with 256; lia).
      apply A. lia.
    - exists (bits_msb 8 x). split; [apply bits_msb_length|]. split; [|reflexivity].
      pose proof (holds_append_msb b r p (bits_msb 8 x) H) as A. rewrite bits_msb_length, of_bits_msb_bits in A by (change (2 ^ Z.of_nat 8) with 256; lia).
      apply A. lia. }
  destruct STEP as (q & Lq & Hq & Eq).
  assert (GL : (if lsb then if (0 <=? r) && (r <? 32) then get_loop lsb fuel bits (Z.lor b (u32 (Z.shiftl x r))) (r + 8) src else UB
                else get_loop lsb fuel bits (Z.lor (u32 (Z.shiftl b 8)) x) (r + 8) src)
     = get_loop lsb fuel bits (if lsb then Z.lor b (u32 (Z.shiftl x r)) else Z.lor (u32 (Z.shiftl b 8)) x) (r + 8) src).
  { destruct lsb; [|reflexivity]. replace (_ && _) with true by lia. reflexivity. }
  rewrite GL. clear GL.
  set (b1 := if lsb then _ else _) in *. clearbody b1.
  assert (Lpq : length (p ++ q) = (length p + 8)%nat) by (rewrite app_length; lia).
  destruct (Z_lt_le_dec (Z.of_nat (length (p ++ q))) bits) as [Hlt2|Hge].
  - destruct (IH b1 (r + 8) (p ++ q) src) as (b' & p' & src' & E1 & E2 & E3 & E5 & E6); auto; try (cbn [length] in *; lia).
    exists b', p', src'. split; [exact E1|]. split; [exact E2|]. split; [exact E3|]. split; [exact E5|]. rewrite Eq, app_assoc. exact E6.
  - exists b1, (p ++ q), src. 
    assert (R8 : r + 8 = Z.of_nat (length (p ++ q))) by lia. rewrite R8 in *.
    split. { destruct fuel; cbn [get_loop]; destruct (Z.leb_spec bits (Z.of_nat (length (p ++ q)))); try lia; reflexivity. }
    split; [exact Hq|]. split; [lia|]. split; [exact Hs|]. rewrite Eq, app_assoc. reflexivity.
Qed.
Lemma get_ok lsb s p src f l v : lsb_first s = lsb -> holds lsb (bitstream s) (residue s) p -> (length p < 8)%nat -> bytes src ->
  0 <= v <= 25 -> length f = Z.to_nat v -> p ++ unpack_ord lsb src = f ++ l ->
  exists s' p' src', bitstream_get s src v = Ok (s', src', ofb lsb f) /\ lsb_first s' = lsb /\ holds lsb (bitstream s') (residue s') p' /\
    (length p' < 8)%nat /\ bytes src' /\ p' ++ unpack_ord lsb src' = l.
Proof.
  intros Hs H Hl Hby Hv Lf E. unfold bitstream_get. rewrite Hs.
  assert (Hr : residue s = Z.of_nat (length p)) by apply H.
  assert (LU : length (unpack_ord lsb src) = (8 * length src)%nat).
  { destruct lsb; [apply (flat_map_bits_length (bits_lsb 8) (bits_lsb_length 8))|apply (flat_map_bits_length (bits_msb 8) (bits_msb_length 8))]. }
  pose proof (f_equal (@length bool) E) as LE. rewrite !app_length, LU in LE.
  assert (G : exists b' p' src', get_loop lsb 8 v (bitstream s) (residue s) src = Ok (b', Z.of_nat (length p'), src') /\ holds lsb b' (Z.of_nat (length p')) p' /\
     v <= Z.of_nat (length p') < v + 8 /\ bytes src' /\ p ++ unpack_ord lsb src = p' ++ unpack_ord lsb src').
  { destruct (Z_le_dec 8 v) as [H8|H8]; destruct (Z_lt_le_dec (Z.of_nat (length p)) v) as [Hlt|Hge]; try lia.
    - apply get_loop_ok; auto; lia.
    - apply get_loop_ok; auto; lia.
    - exists (bitstream s), p, src. rewrite <- Hr. split; [|repeat split; auto; try lia; apply H].
      cbn [get_loop]. destruct (Z.leb_spec v (residue s)); [reflexivity|lia]. }
  destruct G as (b' & p' & src' & E1 & E2 & E3 & E5 & E6).
  rewrite E1. cbn [rbind]. rewrite mask_ok by lia. cbn [rbind].
  set (f' := firstn (Z.to_nat v) p'). set (p2 := skipn (Z.to_nat v) p').
  assert (Ep : p' = f' ++ p2) by (symmetry; apply firstn_skipn).
  assert (L' : length f' = Z.to_nat v) by (unfold f'; rewrite firstn_length; lia).
  assert (L2 : length p2 = (length p' - Z.to_nat v)%nat) by (unfold p2; rewrite skipn_length; lia).
  assert (FF : f' = f /\ p2 ++ unpack_ord lsb src' = l).
  { rewrite E6, Ep, <- app_assoc in E. apply app_inj_len; [lia|exact E]. }
  destruct FF as [-> FL]. destruct E2 as (_ & Hb & E2).
  assert (RV : Z.of_nat (length p') - v = Z.of_nat (length p2)) by lia.
  destruct lsb.
  - eexists _, p2, src'. rewrite land_mask, RV by lia. rewrite E2, Ep, of_bits_lsb_app, Lf, Z2Nat.id by lia.
    pose proof (of_bits_lsb_range f) as Rf. rewrite Lf, Z2Nat.id in Rf by lia.
    pose proof (of_bits_lsb_range p2) as R2. pose proof (pow_le_32 (length p2) ltac:(lia)).
    split. { do 2 f_equal. cbn [ofb]. rewrite Z.mul_comm, Z_mod_plus_full. apply Z.mod_small. lia. }
    cbn. repeat split; auto; try lia.
    + rewrite Z.shiftr_div_pow2, Z.mul_comm, Z.div_add by lia. rewrite Z.div_small by lia. lia.
    + rewrite Z.shiftr_div_pow2, Z.mul_comm, Z.div_add by lia. rewrite Z.div_small by lia. lia.
    + rewrite Z.shiftr_div_pow2, Z.mul_comm, Z.div_add by lia. rewrite Z.div_small by lia. lia.
  - rewrite RV. destruct (Z.leb_spec 32 (Z.of_nat (length p2))); [lia|].
    eexists _, p2, src'. rewrite land_mask by lia.
    rewrite Ep, of_bits_msb_app, app_length, Nat2Z.inj_add in E2.
    pose proof (of_bits_msb_range f) as Rf. rewrite Lf, Z2Nat.id in Rf, E2 by lia.
    pose proof (of_bits_msb_range p2) as R2.
    set (k := Z.of_nat (length p2)) in *.
    destruct (hi_lo b' k v (of_bits_msb f) (of_bits_msb p2)) as [X2 X1]; try lia.
    split. { rewrite Z.shiftr_div_pow2, X1 by lia. reflexivity. }
    cbn. repeat split; auto; lia.
Qed.

Lemma firstn_exact {A} (a b : list A) n : length a = n -> firstn n (a ++ b) = a.
Proof. intros <-. rewrite firstn_app, Nat.sub_diag. cbn [firstn]. rewrite firstn_all, app_nil_r. reflexivity. Qed.
Lemma get_fields_ok lsb fs : forall s p src l, lsb_first s = lsb -> holds lsb (bitstream s) (residue s) p -> (length p < 8)%nat -> bytes src ->
  Forall (fun f => 0 <= snd f <= 25) fs -> p ++ unpack_ord lsb src = fields_bits lsb fs ++ l ->
  exists src', get_fields s src (map snd fs) = Ok (map (fun f => fst f mod 2 ^ snd f) fs, src') /\ (8 * length src' <= length l)%nat /\ (length l < 8 * length src' + 8)%nat.
Proof.
  induction fs as [|[v w] fs IH]; intros s p src l Hs H Hl Hby Hw E.
  - exists src. cbn [get_fields map]. split; [reflexivity|]. cbn in E. apply (f_equal (@length bool)) in E. rewrite app_length in E.
    assert (LU : length (unpack_ord lsb src) = (8 * length src)%nat).
    { destruct lsb; [apply (flat_map_bits_length (bits_lsb 8) (bits_lsb_length 8))|apply (flat_map_bits_length (bits_msb 8) (bits_msb_length 8))]. }
    lia.
  - inversion Hw as [|? ? Hw1 Hw2]; subst. cbn [snd] in Hw1.
    cbn [fields_bits flat_map] in E. rewrite <- app_assoc in E.
    assert (Lf : length (field_bits (lsb_first s) (v, w)) = Z.to_nat w) by (unfold field_bits; cbn [fst snd]; destruct (lsb_first s); [apply bits_lsb_length|apply bits_msb_length]).
    destruct (get_ok (lsb_first s) s p src _ _ w eq_refl H Hl Hby Hw1 Lf E) as (s1 & p1 & src1 & E1 & E2 & E3 & E4 & E5 & E6).
    destruct (IH s1 p1 src1 l E2 E3 E4 E5 Hw2 E6) as (src' & F1 & F2).
    exists src'. cbn [get_fields map snd fst]. rewrite E1. cbn [rbind]. rewrite F1. cbn [rbind]. split; [|exact F2].
    do 3 f_equal. unfold field_bits. cbn [fst snd]. destruct (lsb_first s); cbn [ofb]; rewrite ?of_bits_lsb_mod, ?of_bits_msb_mod, Z2Nat.id by lia; reflexivity.
Qed.
Lemma pack_ord_bytes lsb l : bytes (pack_ord lsb l).
Proof.
  rewrite pack_ord_eq. unfold pack. generalize (length l) as n. intros n. revert l.
  assert (R : forall a, length a = 8%nat -> byte (ofb lsb a)).
  { intros a Ha. unfold byte. destruct lsb; cbn [ofb]; [pose proof (of_bits_lsb_range a) as R|pose proof (of_bits_msb_range a) as R];
      rewrite Ha in R; change (2 ^ Z.of_nat 8) with 256 in R; lia. }
  induction n as [|n IH]; intros l; cbn [pack_fuel]; [constructor|].
  destruct l as [|b l]; [constructor|]. constructor; [|apply IH].
  apply R. rewrite firstn_length, app_length, repeat_length. cbn [length]. lia.
Qed.
Lemma read_write lsb fs : Forall (fun f => 0 <= snd f <= 25) fs ->
  exists l, write_fields lsb fs = Ok l /\ read_fields lsb l (map snd fs) = Ok (map (fun f => fst f mod 2 ^ snd f) fs, []).
Proof.
  intros H. exists (pack_ord lsb (fields_bits lsb fs)). split; [apply write_ok; auto|].
  assert (P : exists pad, (pad < 8)%nat /\ unpack_ord lsb (pack_ord lsb (fields_bits lsb fs)) = fields_bits lsb fs ++ repeat false pad).
  { destruct lsb; [apply unpack_pack_lsb|apply unpack_pack_msb]. }
  destruct P as (pad & Hp & E).
  destruct (get_fields_ok lsb fs (bitstream_init lsb) [] (pack_ord lsb (fields_bits lsb fs)) (repeat false pad)) as (src' & E1 & E2 & E3); auto.
  { unfold holds. cbn. destruct lsb; repeat split; lia. } { cbn; lia. } { apply pack_ord_bytes. }
  unfold read_fields. rewrite E1. rewrite repeat_length in *. destruct src'; [reflexivity|cbn [length] in *; lia].
Qed.
Lemma write_length lsb fs l : Forall (fun f => 0 <= snd f <= 25) fs -> write_fields lsb fs = Ok l ->
  length l = ((length (fields_bits lsb fs) + 7) / 8)%nat.
Proof. intros H E. rewrite write_ok in E by auto. injection E as <-. destruct lsb; [apply pack_lsb_length|apply pack_msb_length]. Qed.
Lemma wide_field : exists lsb v w, 0 <= w <= 30 /\
  exists l, write_fields lsb [(0x55, 7); (v, w); (1, 1)] = Ok l /\ length l = 1%nat.
Proof. exists true, 0x2345678, 26. split; [lia|]. eexists. split; vm_compute; reflexivity. Qed.
Lemma width_32 lsb v : write_fields lsb [(v, 32)] = UB.
Proof. reflexivity. Qed.
