From Verif Require Import Base BitOps_model BitOps_proofs G711_model G726_model G726_spec G726_quant_proofs G726_step_proofs G711_proofs.
From Coq Require Import ZifyBool ZifyNat.
Local Open Scope Z_scope.

(** What both sides do with a code. *)
Definition fin (r : rate) (s : g726) (sezi se i : Z) : res (Z * g726) :=
  let y := step_size s in
  do dqln <- aget (dqlntab r) i;
  do q <- reconstruct (Z.land i (sign_bit r)) dqln y;
  let sr := s16 (if q <? 0 then se - Z.land q (mag_mask r) else se + q) in
  let dqsez := s16 (sr + Z.shiftr sezi 1 - se) in
  do wi <- aget (witab r) i;
  do fi <- aget (fitab r) i;
  do s' <- update r s y wi fi q sr dqsez;
  Ok (sr, s').

Lemma aget_in l i lo hi : 0 <= i < Z.of_nat (length l) -> Forall (fun x => lo <= x <= hi) l ->
  exists v, aget l i = Ok v /\ v = nth (Z.to_nat i) l 0 /\ lo <= v <= hi.
Proof.
  intros H F. unfold aget, in_bounds. replace ((0 <=? i) && (i <? Z.of_nat (length l))) with true by lia.
  eexists. split; [reflexivity|]. split; [reflexivity|]. rewrite Forall_forall in F. apply F. apply nth_In. lia.
Qed.
Ltac fa := repeat (constructor; [lia|]); constructor.
Lemma dqln_in r i : any_code r i -> exists v, aget (dqlntab r) i = Ok v /\ v = nth (Z.to_nat i) (dqlntab r) 0 /\ -2048 <= v <= 566 /\ (r <> R40 -> v <= 425).
Proof.
  intros H. unfold any_code in H.
  destruct r; cbn [width] in H; (match goal with |- context [dqlntab ?r] =>
     destruct (aget_in (dqlntab r) i (-2048) (match r with R40 => 566 | _ => 425 end) ltac:(cbn in *; lia) ltac:(unfold dqlntab; fa)) as (v & E & Hn & Hv) end);
  exists v; (split; [exact E|]); (split; [exact Hn|]); (split; [lia|]); intros; try lia; congruence.
Qed.
Lemma wi_in r i : any_code r i -> exists v, aget (witab r) i = Ok v /\ -704 <= v <= 35904.
Proof.
  intros H. unfold any_code in H. destruct (aget_in (witab r) i (-704) 35904) as (v & E & _ & Hv); [destruct r; cbn in *; lia| |eauto].
  destruct r; unfold witab; fa.
Qed.
Lemma fi_in r i : any_code r i -> exists v, aget (fitab r) i = Ok v /\ 0 <= v <= 3584.
Proof.
  intros H. unfold any_code in H. destruct (aget_in (fitab r) i 0 3584) as (v & E & _ & Hv); [destruct r; cbn in *; lia| |eauto].
  destruct r; unfold fitab; fa.
Qed.

(** The reconstructed difference, from the reconstruction as it is stored. *)
Definition diff_of (r : rate) (q : Z) : Z := if q <? 0 then - Z.land q (mag_mask r) else q.

Lemma fin_ok r s sezi se i : inv s -> any_code r i ->
  exists q dqln sr s', aget (dqlntab r) i = Ok dqln /\ dqln = nth (Z.to_nat i) (dqlntab r) 0 /\
    reconstruct (Z.land i (sign_bit r)) dqln (step_size s) = Ok q /\
    fin r s sezi se i = Ok (sr, s') /\ inv s' /\ i16 sr /\ sr = s16 (se + diff_of r q) /\
    (q < 0 <-> Z.land i (sign_bit r) <> 0) /\ 0 <= Z.abs (diff_of r q) <= 23424 /\ (r <> R40 -> Z.abs (diff_of r q) <= 10880).
Proof.
  intros I Hi. unfold fin.
  destruct (dqln_in r i Hi) as (dqln & E & En & Hd & Hd2). rewrite E. cbn [rbind].
  pose proof (step_size_ok s I) as Hy.
  destruct (reconstruct_ok (Z.land i (sign_bit r)) dqln (step_size s) Hd Hy) as (q & Eq & Hq & Hs & Hm & Hm2). rewrite Eq. cbn [rbind].
  destruct (wi_in r i Hi) as (wi & -> & Hw). cbn [rbind]. destruct (fi_in r i Hi) as (fi & -> & Hf). cbn [rbind].
  set (sr := s16 (if q <? 0 then se - Z.land q (mag_mask r) else se + q)).
  destruct (update_ok r s (step_size s) wi fi q sr (s16 (sr + Z.shiftr sezi 1 - se)) I Hy Hw Hf Hq (s16_range _)) as (s' & -> & I').
  cbn [rbind]. exists q, dqln, sr, s'. repeat split; auto; try apply I'; try apply Hs; try apply s16_range.
  - unfold sr, diff_of. f_equal. destruct (q <? 0); lia.
  - apply Z.abs_nonneg.
  - assert (L : forall z, Z.land z 0x7FFF = z mod 32768) by (intros z; change 0x7FFF with (Z.ones 15); apply Z.land_ones; lia).
    assert (L2 : forall z, Z.land z 0x3FFF = z mod 16384) by (intros z; change 0x3FFF with (Z.ones 14); apply Z.land_ones; lia).
    unfold diff_of, i16 in *. rewrite L in Hm. destruct (Z.ltb_spec q 0).
    + destruct r; cbn [mag_mask]; rewrite ?L, ?L2; Z.div_mod_to_equations; lia.
    + Z.div_mod_to_equations; lia.
  - intros Hr. assert (L : forall z, Z.land z 0x7FFF = z mod 32768) by (intros z; change 0x7FFF with (Z.ones 15); apply Z.land_ones; lia).
    assert (L2 : forall z, Z.land z 0x3FFF = z mod 16384) by (intros z; change 0x3FFF with (Z.ones 14); apply Z.land_ones; lia).
    specialize (Hm2 (Hd2 Hr)).
    unfold diff_of, i16 in *. rewrite L in Hm2. destruct (Z.ltb_spec q 0).
    + destruct r; try congruence; cbn [mag_mask]; rewrite ?L2; Z.div_mod_to_equations; lia.
    + Z.div_mod_to_equations; lia.
Qed.

Definition sez (s : g726) : Z := match predictor_zero s with Ok z => z | UB => 0 end.
Definition se_of (s : g726) : Z :=
  s16 (Z.shiftr (s16 (sez s + match predictor_pole s with Ok p => p | UB => 0 end)) 1).
Lemma se_range s : -16384 <= se_of s <= 16383.
Proof.
  unfold se_of. pose proof (s16_range (sez s + match predictor_pole s with Ok p => p | UB => 0 end)) as H. unfold i16 in H.
  set (k := s16 (sez s + _)) in *. clearbody k. assert (-16384 <= Z.shiftr k 1 <= 16383) by dvl. rewrite s16_id by (unfold i16; lia). lia.
Qed.
Lemma encode1_eq r s amp : inv s ->
  encode1 r s amp = (do i <- quantize (s16 (amp - se_of s)) (step_size s) (qtab r) (states r);
                     do (sr, s') <- fin r s (sez s) (se_of s) i; Ok (u8 i, s')).
Proof.
  intros I. destruct (predictors_ok s I) as (z & p & Ez & Ep & _ & _).
  unfold encode1, se_of, sez, fin. rewrite Ez, Ep. cbn [rbind].
  destruct (quantize _ _ _ _); cbn [rbind]; [|reflexivity].
  destruct (aget _ _); cbn [rbind]; [|reflexivity]. destruct (reconstruct _ _ _); cbn [rbind]; [|reflexivity].
  destruct (aget _ _); cbn [rbind]; [|reflexivity]. destruct (aget _ _); cbn [rbind]; [|reflexivity].
  destruct (update _ _ _ _ _ _ _ _); reflexivity.
Qed.
Definition output (r : rate) (c : coding) (s : g726) (sr code : Z) : res Z :=
  match c with
  | ALAW => tandem_adjust_alaw sr (se_of s) (step_size s) code (sign_bit r) (qtab r) (states r)
  | ULAW => tandem_adjust_ulaw sr (se_of s) (step_size s) code (sign_bit r) (qtab r) (states r)
  | LINEAR => Ok (s16 (Z.shiftl sr 2))
  end.
Lemma decode1_eq r c s code : inv s ->
  decode1 r c s code = (do (sr, s') <- fin r s (sez s) (se_of s) (Z.land code (code_mask r));
                        do v <- output r c s sr (Z.land code (code_mask r)); Ok (v, s')).
Proof.
  intros I. destruct (predictors_ok s I) as (z & p & Ez & Ep & _ & _).
  unfold decode1, se_of, sez, fin, output. unfold se_of, sez. rewrite Ez, Ep. cbn [rbind].
  destruct (aget _ _); cbn [rbind]; [|reflexivity]. destruct (reconstruct _ _ _); cbn [rbind]; [|reflexivity].
  destruct (aget _ _); cbn [rbind]; [|reflexivity]. destruct (aget _ _); cbn [rbind]; [|reflexivity].
  destruct (update _ _ _ _ _ _ _ _); cbn [rbind]; [|reflexivity]. destruct c; reflexivity.
Qed.
Lemma mask_code r c : any_code r (Z.land c (code_mask r)).
Proof.
  unfold any_code. destruct r; cbn [code_mask width];
  [change 0x03 with (Z.ones 2) | change 0x07 with (Z.ones 3) | change 0x0F with (Z.ones 4) | change 0x1F with (Z.ones 5)];
  rewrite Z.land_ones by lia; apply Z.mod_pos_bound; reflexivity.
Qed.
Lemma mask_id r c : any_code r c -> Z.land c (code_mask r) = c.
Proof.
  unfold any_code. intros H. destruct r; cbn [code_mask width] in *;
  [change 0x03 with (Z.ones 2) | change 0x07 with (Z.ones 3) | change 0x0F with (Z.ones 4) | change 0x1F with (Z.ones 5)];
  rewrite Z.land_ones by lia; apply Z.mod_small; exact H.
Qed.

(** ---- G.711 values ---- *)
Definition value (c : coding) (x : Z) : Z := match c with ALAW => Z.shiftr (alaw_to_linear x) 2 | ULAW => Z.shiftr (ulaw_to_linear x) 2 | LINEAR => Z.shiftr x 2 end.
Definition enc_law (c : coding) (sr : Z) : Z := match c with ALAW => linear_to_alaw (Z.shiftl (Z.shiftr sr 1) 3) | _ => linear_to_ulaw (Z.shiftl sr 2) end.
Definition lower (c : coding) (sp : Z) : Z :=
  match c with
  | ALAW => if negb (Z.land sp 0x80 =? 0) then
              if sp =? 0xD5 then 0x55 else Z.lxor (Z.lxor sp 0x55 - 1) 0x55
            else if sp =? 0x2A then 0x2A else Z.lxor (Z.lxor sp 0x55 + 1) 0x55
  | _ => if negb (Z.land sp 0x80 =? 0) then (if sp =? 0xFF then 0x7E else sp + 1)
         else (if sp =? 0x00 then 0x00 else sp - 1)
  end.
Definition higher (c : coding) (sp : Z) : Z :=
  match c with
  | ALAW => if negb (Z.land sp 0x80 =? 0) then
              if sp =? 0xAA then 0xAA else Z.lxor (Z.lxor sp 0x55 + 1) 0x55
            else if sp =? 0x55 then 0xD5 else Z.lxor (Z.lxor sp 0x55 - 1) 0x55
  | _ => if negb (Z.land sp 0x80 =? 0) then (if sp =? 0x80 then 0x80 else sp - 1)
         else (if sp =? 0x7F then 0xFE else sp + 1)
  end.

Definition law (c : coding) : Prop := c <> LINEAR.
Lemma law_bytes c x : law c -> byte x -> byte (lower c x) /\ byte (higher c x) /\ -8192 <= value c x <= 8191.
Proof.
  intros Hc Hx.
  assert (E : all_below_from (Z.to_nat 256) 0 (fun x => is_byte (lower c x) && is_byte (higher c x) && (-8192 <=? value c x) && (value c x <=? 8191)) = true)
    by (destruct c; [elim Hc; reflexivity | vm_compute; reflexivity | vm_compute; reflexivity]).
  pose proof (sweep 256 _ E x Hx). cbv beta in *. unfold is_byte, byte in *. lia.
Qed.
Definition octets : list Z := map Z.of_nat (seq 0 256).
Lemma octets_in x : byte x -> In x octets.
Proof. intros H. unfold octets. apply in_map_iff. exists (Z.to_nat x). split; [unfold byte in *; lia|]. apply in_seq. unfold byte in *; lia. Qed.
(** Neighbouring codes have neighbouring values. *)
Lemma law_next c x z : law c -> byte x -> byte z ->
  (value c z < value c x -> value c z <= value c (lower c x)) /\ (value c x < value c z -> value c (higher c x) <= value c z).
Proof.
  intros Hc Hx Hz.
  assert (E : forallb (fun t => forallb (fun z => match t with (vx, vl, vh) => ((vx <=? z) || (z <=? vl)) && ((z <=? vx) || (vh <=? z)) end) (map (value c) octets))
      (map (fun x => (value c x, value c (lower c x), value c (higher c x))) octets) = true)
    by (destruct c; [elim Hc; reflexivity | vm_compute; reflexivity | vm_compute; reflexivity]).
  rewrite forallb_forall in E. specialize (E _ (in_map _ _ _ (octets_in x Hx))). cbv beta iota in E.
  rewrite forallb_forall in E. specialize (E _ (in_map _ _ _ (octets_in z Hz))). lia.
Qed.
Definition min_value (c : coding) : Z := match c with ALAW => -8064 | _ => -8031 end.
Definition max_value (c : coding) : Z := match c with ALAW => 8064 | _ => 8031 end.
Lemma law_minmax c x : law c -> byte x -> min_value c <= value c x <= max_value c.
Proof.
  intros Hc Hx.
  assert (E : all_below_from (Z.to_nat 256) 0 (fun x => (min_value c <=? value c x) && (value c x <=? max_value c)) = true)
    by (destruct c; [elim Hc; reflexivity | vm_compute; reflexivity | vm_compute; reflexivity]).
  pose proof (sweep 256 _ E x Hx). cbv beta in *. lia.
Qed.
(** Far out all values have the same code. *)
Lemma enc_far c sr : law c -> -32767 <= sr <= 32767 ->
  Z.abs sr <= 8192 \/ (8192 < sr /\ enc_law c sr = enc_law c 8192) \/ (sr < -8192 /\ enc_law c sr = enc_law c (-8192)).
Proof.
  intros Hc Hs. destruct (Z_le_gt_dec (Z.abs sr) 8192) as [|Hg]; [left; assumption|right].
  destruct (Z_lt_le_dec sr 0) as [Hn|Hn]; [right|left]; (split; [lia|]).
  - destruct c; [elim Hc; reflexivity| |]; cbn [enc_law].
    + replace (Z.shiftl sr 2) with (- (-4 * sr)) by (rewrite Z.shiftl_mul_pow2 by lia; lia). rewrite (proj2 (ulaw_sat (-4 * sr) ltac:(lia))). reflexivity.
    + replace (Z.shiftl (Z.shiftr sr 1) 3) with (- (-8 * Z.shiftr sr 1 - 1) - 1) by (rewrite Z.shiftl_mul_pow2 by lia; lia).
      assert (-16384 <= Z.shiftr sr 1 <= -4097) by dvl. rewrite (proj2 (alaw_sat (-8 * Z.shiftr sr 1 - 1) ltac:(lia))). reflexivity.
  - destruct c; [elim Hc; reflexivity| |]; cbn [enc_law].
    + replace (Z.shiftl sr 2) with (4 * sr) by (rewrite Z.shiftl_mul_pow2 by lia; lia). rewrite (proj1 (ulaw_sat (4 * sr) ltac:(lia))). reflexivity.
    + replace (Z.shiftl (Z.shiftr sr 1) 3) with (8 * Z.shiftr sr 1) by (rewrite Z.shiftl_mul_pow2 by lia; lia).
      assert (4096 <= Z.shiftr sr 1 <= 16384) by dvl. rewrite (proj1 (alaw_sat (8 * Z.shiftr sr 1) ltac:(lia))). reflexivity.
Qed.
(** The neighbours' values are strictly on either side. *)
Lemma law_cell c sr : law c -> -32767 <= sr <= 32767 ->
  byte (enc_law c sr) /\
  (value c (enc_law c sr) = min_value c \/ value c (lower c (enc_law c sr)) < sr) /\
  (value c (enc_law c sr) = max_value c \/ sr < value c (higher c (enc_law c sr))).
Proof.
  intros Hc Hs.
  assert (E : all_below_from (Z.to_nat 16385) (-8192) (fun sr => let sp := enc_law c sr in
     is_byte sp && ((value c sp =? min_value c) || (value c (lower c sp) <? sr)) && ((value c sp =? max_value c) || (sr <? value c (higher c sp)))) = true)
    by (destruct c; [elim Hc; reflexivity | vm_compute; reflexivity | vm_compute; reflexivity]).
  pose proof (all_below_from_spec _ _ _ E) as E'. cbv beta zeta in E'.
  destruct (enc_far c sr Hc Hs) as [Hf|[[Hf ->]|[Hf ->]]].
  - specialize (E' sr ltac:(lia)). unfold is_byte, byte in *. lia.
  - specialize (E' 8192 ltac:(lia)). destruct c; [elim Hc; reflexivity| |]; (split; [unfold is_byte, byte in *; lia|]); (split; [unfold is_byte, byte in *; lia|left; reflexivity]).
  - specialize (E' (-8192) ltac:(lia)). destruct c; [elim Hc; reflexivity| |]; (split; [unfold is_byte, byte in *; lia|]); (split; [left; reflexivity|unfold is_byte, byte in *; lia]).
Qed.
