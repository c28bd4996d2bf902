From Verif Require Import Base BitOps_model BitOps_proofs G711_model G726_model G726_spec G726_quant_proofs G726_step_proofs G726_code_proofs.
From Coq Require Import ZifyBool ZifyNat.
Local Open Scope Z_scope.

Definition recon_check (r : rate) (k i : Z) : bool :=
  let y := 4 * (136 + k) in
  ((i =? 0) && negb (Z.land (states r) 1 =? 0)) ||
  match reconstruct (Z.land i (sign_bit r)) (nth (Z.to_nat i) (dqlntab r) 0) y with
  | Ok q => (rank r y (diff_of r q - 1) <=? Z.lxor i (sign_bit r)) && (Z.lxor i (sign_bit r) <=? rank r y (diff_of r q + 1))
  | UB => false
  end.
Lemma recon_sweep r : all_below_from (Z.to_nat 1145) 0 (fun k => all_below_from (Z.to_nat (2 * sign_bit r)) 0 (recon_check r k)) = true.
Proof. destruct r; vm_compute; reflexivity. Qed.
Lemma recon_rank r i y q : sent_code r i -> 544 <= y <= 5120 ->
  reconstruct (Z.land i (sign_bit r)) (nth (Z.to_nat i) (dqlntab r) 0) y = Ok q ->
  rank r y (diff_of r q - 1) <= Z.lxor i (sign_bit r) <= rank r y (diff_of r q + 1).
Proof.
  intros [Hi H0] Hy Hq.
  assert (HY : 136 <= Z.shiftr y 2 <= 1280) by dvl.
  pose proof (sweep 1145 _ (recon_sweep r) (Z.shiftr y 2 - 136) ltac:(lia)) as E1. cbv beta in E1.
  pose proof (sweep (2 * sign_bit r) _ E1 i ltac:(unfold any_code in Hi; destruct r; cbn in *; lia)) as E.
  clear E1. unfold recon_check in E.
  replace (136 + (Z.shiftr y 2 - 136)) with (Z.shiftr y 2) in E by lia.
  assert (E2 : Z.shiftr (4 * Z.shiftr y 2) 2 = Z.shiftr y 2) by dvl.
  assert (ER : reconstruct (Z.land i (sign_bit r)) (nth (Z.to_nat i) (dqlntab r) 0) (4 * Z.shiftr y 2) = Ok q)
    by (rewrite <- Hq; unfold reconstruct; rewrite E2; reflexivity).
  rewrite ER in E.
  assert (EK : forall d, rank r (4 * Z.shiftr y 2) d = rank r y d) by (intros d; unfold rank, level; rewrite E2; reflexivity).
  rewrite !EK in E. clear - E H0.
  apply orb_true_iff in E as [E | E]; [|lia].
  apply andb_true_iff in E as [E1 E2]. apply Z.eqb_eq in E1. specialize (H0 E1). subst r. discriminate.
Qed.

Lemma quantize_same r y d e c : Z.abs d <= 32767 -> Z.abs e <= 32767 -> 544 <= y <= 5120 ->
  quantize d y (qtab r) (states r) = Ok c -> rank r y e = Z.lxor c (sign_bit r) -> quantize e y (qtab r) (states r) = Ok c.
Proof.
  intros Hd He Hy Q R.
  destruct (quantize_rank r y d Hd Hy) as (c1 & Q1 & _ & _ & E1 & F1). rewrite Q in Q1. injection Q1 as <-.
  destruct (quantize_rank r y e He Hy) as (c2 & Q2 & _ & _ & E2 & F2).
  rewrite Q2. f_equal. rewrite E2, R, F1. symmetry. exact E1.
Qed.

Lemma lxor_sign_neq r i id : i <> id -> Z.lxor id (sign_bit r) <> Z.lxor i (sign_bit r).
Proof. intros H E. apply H. apply (f_equal (fun z => Z.lxor z (sign_bit r))) in E. rewrite !Z.lxor_assoc, Z.lxor_nilpotent, !Z.lxor_0_r in E. auto. Qed.

Lemma output_law r c s sr code : law c -> -32767 <= sr ->
  output r c s sr code =
    (let sp := enc_law c sr in
     do id <- quantize (s16 (value c sp - se_of s)) (step_size s) (qtab r) (states r);
     Ok (s16 (if id =? code then sp else if Z.lxor code (sign_bit r) <? Z.lxor id (sign_bit r) then lower c sp else higher c sp))).
Proof.
  intros Hc Hs. destruct c; [elim Hc; reflexivity | |]; unfold output, tandem_adjust_alaw, tandem_adjust_ulaw, enc_law, value, lower, higher;
  replace (sr <=? -32768) with false by lia; cbv zeta.
  - destruct (quantize _ _ _ _); cbn [rbind]; [|reflexivity]. destruct (_ =? _); [reflexivity|]. destruct (_ <? _); reflexivity.
  - destruct (quantize _ _ _ _); cbn [rbind]; [|reflexivity]. destruct (_ =? _); [reflexivity|]. destruct (_ <? _); reflexivity.
Qed.

(** One code, encoded from PCM, decoded to PCM and encoded again. *)
Lemma tandem_step r c s x : law c -> inv s -> byte x ->
  exists i v s', encode1 r s (value c x) = Ok (i, s') /\ sent_code r i /\ inv s' /\
    decode1 r c s i = Ok (v, s') /\ byte v /\ encode1 r s (value c v) = Ok (i, s').
Proof.
  intros Hc I Hx. pose proof (step_size_ok s I) as Hy. pose proof (se_range s) as Hse.
  pose proof (law_minmax c x Hc Hx) as Hv.
  assert (Hmm : -8064 <= min_value c /\ max_value c <= 8064) by (destruct c; cbn; lia).
  rewrite (encode1_eq r s _ I). rewrite (s16_id (value c x - se_of s)) by (unfold i16; lia).
  destruct (quantize_rank r (step_size s) (value c x - se_of s) ltac:(lia) Hy) as (i & Q & Si & Rr & Ei & Fi).
  rewrite Q. cbn [rbind].
  destruct (fin_ok r s (sez s) (se_of s) i I (proj1 Si)) as (q & dqln & sr & s' & Ed & En & Er & Ef & I' & Hsr & Esr & Hsg & Hm & Hm2).
  rewrite Ef. cbn [rbind].
  assert (Hi8 : u8 i = i) by (unfold u8; apply Z.mod_small; destruct Si as [Si _]; unfold any_code in Si; destruct r; cbn in Si; lia).
  rewrite Hi8.
  subst dqln. pose proof (recon_rank r i (step_size s) q Si Hy Er) as RR.
  set (d := diff_of r q) in *. set (se := se_of s) in *. set (y := step_size s) in *.
  assert (HY2 : 136 <= Z.shiftr y 2 <= 1280) by (clear - Hy; dvl).
  (* no wrap *)
  assert (Hw : -32767 <= se + d <= 32767).
  { destruct r; try (specialize (Hm2 ltac:(discriminate)); lia).
    assert (Hi2 : 0 <= i < 32) by (destruct Si as [Si _]; exact Si).
    (* a difference in the direction of the code *)
    destruct (Z.ltb_spec (value c x - se) 0) as [Hneg | Hpos].
    - assert (d <= 0).
      { assert (Z.land i 16 <> 0).
        { assert (rank R40 y (value c x - se) < 16) by (unfold rank; replace (value c x - se <? 0) with true by lia; pose proof (level_range R40 y (value c x - se)); change (size R40) with 15 in *; lia).
          rewrite Ei. change (sign_bit R40) with 16 in *. clear - H Rr.
          assert (E : all_below_from (Z.to_nat 16) 0 (fun n => negb (Z.land (Z.lxor n 16) 16 =? 0)) = true) by reflexivity.
          pose proof (sweep 16 _ E (rank R40 y (value c x - se)) ltac:(lia)). cbv beta in *. lia. }
        unfold d, diff_of. apply Hsg in H. replace (q <? 0) with true by lia.
        enough (0 <= Z.land q (mag_mask R40)) by lia. apply Z.land_nonneg. right. cbn. lia. }
      lia.
    - assert (0 <= d \/ d = 0).
      { destruct (Z.eq_dec (Z.land i 16) 0) as [Hz | Hnz].
        - left. unfold d, diff_of. assert (~ q < 0) by (rewrite Hsg; auto). replace (q <? 0) with false by lia. lia.
        - right. (* only the smallest negative code *)
          assert (R16' : 15 <= rank R40 y (value c x - se)).
          { unfold rank. replace (value c x - se <? 0) with false by lia. pose proof (level_range R40 y (value c x - se)). change (sign_bit R40) with 16. destruct (_ && _); lia. }
          assert (i = 31).
          { rewrite Ei in Hnz |- *. change (sign_bit R40) with 16 in *. clear - R16' Rr Hnz.
            assert (E : all_below_from (Z.to_nat 32) 0 (fun n => (n <? 15) || (Z.land (Z.lxor n 16) 16 =? 0) || (Z.lxor n 16 =? 31)) = true) by reflexivity.
            pose proof (sweep 32 _ E (rank R40 y (value c x - se)) ltac:(lia)). cbv beta in *. lia. }
          unfold d, diff_of. rewrite H in Er. change (Z.land 31 (sign_bit R40)) with 16 in Er.
          change (nth (Z.to_nat 31) (dqlntab R40) 0) with (-2048) in Er. unfold reconstruct in Er.
          rewrite s16_id in Er by (unfold i16; lia). replace (-2048 + Z.shiftr y 2 <? 0) with true in Er by lia.
          change (s16 (if negb (16 =? 0) then -32768 else 0)) with (-32768) in Er. injection Er as <-. reflexivity. }
      lia. }
  rewrite (s16_id (se + d)) in Esr by (unfold i16; lia).
  exists i. rewrite (decode1_eq r c s i I), (mask_id r i (proj1 Si)). fold se. rewrite Ef. cbn [rbind].
  rewrite (output_law r c s sr i Hc) by lia. cbv zeta. fold se y.
  destruct (law_cell c sr Hc ltac:(lia)) as (Bsp & Lo & Hi).
  set (sp := enc_law c sr) in *. clearbody sp.
  pose proof (law_minmax c sp Hc Bsp) as Hsp.
  rewrite (s16_id (value c sp - se)) by (unfold i16; lia).
  destruct (quantize_rank r y (value c sp - se) ltac:(lia) Hy) as (id & Qid & Sid & _ & Eid & Fid).
  rewrite Qid. cbn [rbind].
  (* the PCM code the decoder chooses *)
  set (w := if id =? i then sp else if Z.lxor i (sign_bit r) <? Z.lxor id (sign_bit r) then lower c sp else higher c sp).
  assert (Bw : byte w /\ quantize (value c w - se) y (qtab r) (states r) = Ok i).
  { unfold w. destruct (Z.eqb_spec id i) as [-> | Hne]; [auto|].
    destruct (law_bytes c sp Hc Bsp) as (B1 & B2 & _).
    pose proof (lxor_sign_neq r i id ltac:(auto)) as Hne2.
    destruct (Z.ltb_spec (Z.lxor i (sign_bit r)) (Z.lxor id (sign_bit r))) as [Hgt | Hle].
    - split; [exact B1|]. apply (quantize_same r y (value c x - se)); auto; try lia.
      { pose proof (law_minmax c _ Hc B1). lia. }
      pose proof (law_minmax c _ Hc B1) as Hb.
      (* x is below sp *)
      assert (Hxs : value c x < value c sp).
      { destruct (Z.lt_ge_cases (value c x) (value c sp)); auto.
        pose proof (rank_mono r y (value c sp - se) (value c x - se) ltac:(lia) ltac:(lia) ltac:(lia)). lia. }
      destruct (law_next c sp x Hc Bsp Hx) as [N _]. specialize (N Hxs).
      destruct Lo as [Lo | Lo]; [lia|].
      pose proof (rank_mono r y (value c x - se) (value c (lower c sp) - se) ltac:(lia) ltac:(lia) ltac:(lia)).
      assert (rank r y (value c (lower c sp) - se) <= rank r y (d - 1)).
      { apply rank_mono; lia. }
      lia.
    - split; [exact B2|]. apply (quantize_same r y (value c x - se)); auto; try lia.
      { pose proof (law_minmax c _ Hc B2). lia. }
      pose proof (law_minmax c _ Hc B2) as Hb.
      assert (Hxs : value c sp < value c x).
      { destruct (Z.lt_ge_cases (value c sp) (value c x)); auto.
        pose proof (rank_mono r y (value c x - se) (value c sp - se) ltac:(lia) ltac:(lia) ltac:(lia)). lia. }
      destruct (law_next c sp x Hc Bsp Hx) as [_ N]. specialize (N Hxs).
      destruct Hi as [Hi | Hi]; [lia|].
      pose proof (rank_mono r y (value c (higher c sp) - se) (value c x - se) ltac:(lia) ltac:(lia) ltac:(lia)).
      assert (rank r y (d + 1) <= rank r y (value c (higher c sp) - se)).
      { apply rank_mono; lia. }
      lia. }
  destruct Bw as [Bw Qw]. clearbody w.
  exists (s16 w), s'. rewrite (s16_id w) by (unfold i16; unfold byte in Bw; lia).
  split; [reflexivity|]. split; [exact Si|]. split; [exact I'|]. split; [reflexivity|]. split; [exact Bw|].
  pose proof (law_minmax c w Hc Bw).
  rewrite (encode1_eq r s _ I). fold se y. rewrite (s16_id (value c w - se)) by (unfold i16; lia).
  rewrite Qw. cbn [rbind]. fold se. rewrite Ef. cbn [rbind]. rewrite Hi8. reflexivity.
Qed.

(** One code of any audio. *)
Lemma encode_step r s amp : inv s -> -8192 <= amp <= 8191 ->
  exists i s', encode1 r s amp = Ok (i, s') /\ sent_code r i /\ inv s'.
Proof.
  intros I Ha. pose proof (step_size_ok s I) as Hy. pose proof (se_range s) as Hse.
  rewrite (encode1_eq r s _ I). rewrite (s16_id (amp - se_of s)) by (unfold i16; lia).
  destruct (quantize_rank r (step_size s) (amp - se_of s) ltac:(lia) Hy) as (i & Q & Si & _ & _ & _). rewrite Q. cbn [rbind].
  destruct (fin_ok r s (sez s) (se_of s) i I (proj1 Si)) as (q & dqln & sr & s' & _ & _ & _ & Ef & I' & _).
  rewrite Ef. cbn [rbind]. exists i, s'. split; [|auto]. f_equal. f_equal.
  unfold u8; apply Z.mod_small; destruct Si as [Si _]; unfold any_code in Si; destruct r; cbn in Si; lia.
Qed.
(** One code from anywhere. *)
Lemma decode_step r c s code : inv s ->
  exists v s', decode1 r c s code = Ok (v, s') /\ inv s' /\ i16 v.
Proof.
  intros I. pose proof (step_size_ok s I) as Hy. pose proof (se_range s) as Hse.
  rewrite (decode1_eq r c s code I). pose proof (mask_code r code) as Hm. set (m := Z.land code (code_mask r)) in *. clearbody m.
  destruct (fin_ok r s (sez s) (se_of s) m I Hm) as (q & dqln & sr & s' & _ & _ & _ & Ef & I' & Hsr & _).
  rewrite Ef. cbn [rbind]. unfold output. destruct c.
  - cbn [rbind]. do 2 eexists. split; [reflexivity|]. split; [auto | apply s16_range].
  - unfold tandem_adjust_ulaw. set (sp := linear_to_ulaw _).
    assert (B : byte sp) by (unfold sp, linear_to_ulaw, u8, byte; destruct (0 <=? _); destruct (8 <=? _); apply Z.mod_pos_bound; lia).
    pose proof (law_minmax ULAW sp ltac:(discriminate) B) as Hv. cbn [value min_value max_value] in Hv.
    rewrite (s16_id (Z.shiftr (ulaw_to_linear sp) 2 - se_of s)) by (unfold i16; lia).
    destruct (quantize_rank r (step_size s) (Z.shiftr (ulaw_to_linear sp) 2 - se_of s) ltac:(lia) Hy) as (id & Q & _). rewrite Q. cbn [rbind].
    destruct (id =? m); cbn [rbind]; do 2 eexists; (split; [reflexivity|]); (split; [auto | apply s16_range]).
  - unfold tandem_adjust_alaw. set (sp := linear_to_alaw _).
    assert (B : byte sp) by (unfold sp, linear_to_alaw, u8, byte; destruct (0 <=? _); destruct (8 <=? _); apply Z.mod_pos_bound; lia).
    pose proof (law_minmax ALAW sp ltac:(discriminate) B) as Hv. cbn [value min_value max_value] in Hv.
    rewrite (s16_id (Z.shiftr (alaw_to_linear sp) 2 - se_of s)) by (unfold i16; lia).
    destruct (quantize_rank r (step_size s) (Z.shiftr (alaw_to_linear sp) 2 - se_of s) ltac:(lia) Hy) as (id & Q & _). rewrite Q. cbn [rbind].
    destruct (id =? m); cbn [rbind]; do 2 eexists; (split; [reflexivity|]); (split; [auto | apply s16_range]).
Qed.
(** The decoder follows the encoder. *)
Lemma track_step r c s amp i s' : inv s -> -8192 <= amp <= 8191 -> encode1 r s amp = Ok (i, s') ->
  exists v, decode1 r c s i = Ok (v, s').
Proof.
  intros I Ha E. destruct (decode_step r c s i I) as (v & s2 & D & _ & _). exists v.
  destruct (encode_step r s amp I Ha) as (i2 & s3 & E2 & Si & _). rewrite E in E2. injection E2 as <- <-.
  rewrite (encode1_eq r s _ I) in E. rewrite (decode1_eq r c s i I), (mask_id r i (proj1 Si)) in D |- *.
  destruct (quantize _ _ _ _) as [j|]; cbn [rbind] in E; [|discriminate].
  destruct (fin r s (sez s) (se_of s) j) as [[sr t]|] eqn:F; cbn [rbind] in E; [|discriminate]. injection E as E1 E2. subst t.
  assert (j = i).
  { unfold fin in F. destruct (aget (dqlntab r) j) eqn:A; [|discriminate]. unfold aget, in_bounds in A.
    destruct ((0 <=? j) && (j <? Z.of_nat (length (dqlntab r)))) eqn:B; [|discriminate].
    rewrite <- E1. unfold u8. symmetry. apply Z.mod_small. destruct r; cbn in B; lia. }
  subst j. rewrite F in D |- *. cbn [rbind] in D |- *. destruct (output r c s sr i); cbn [rbind] in D |- *; [|discriminate].
  injection D as <- <-. reflexivity.
Qed.
