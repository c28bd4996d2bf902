From Verif Require Import Base Bits G711_model G726_model G726_spec G726_quant_proofs G726_step_proofs G726_code_proofs G726_tandem_proofs G726_pack_proofs G726_final_proofs.
From Coq Require Import ZifyBool ZifyNat.
Local Open Scope Z_scope.

Lemma interval_step r s amp i s' : inv s -> -8192 <= amp <= 8191 -> encode1 r s amp = Ok (i, s') ->
  exists w, decode1 r LINEAR s i = Ok (s16 (4 * w), s') /\
    forall z, -8192 <= z <= 8191 -> amp <= z < w \/ w < z <= amp -> encode1 r s z = Ok (i, s').
Proof.
  intros I Ha E. pose proof (step_size_ok s I) as Hy. pose proof (se_range s) as Hse.
  rewrite (encode1_eq r s _ I) in E. rewrite (s16_id (amp - se_of s)) in E by (unfold i16; lia).
  destruct (quantize_rank r (step_size s) (amp - se_of s) ltac:(lia) Hy) as (i1 & Q & Si & Rr & Ei & Fi).
  rewrite Q in E. cbn [rbind] in E.
  destruct (fin_ok r s (sez s) (se_of s) i1 I (proj1 Si)) as (q & dqln & sr & s1 & Ed & En & Er & Ef & I' & Hsr & Esr & Hsg & Hm & Hm2).
  rewrite Ef in E. cbn [rbind] in E.
  assert (Hi8 : u8 i1 = i1) by (unfold u8; apply Z.mod_small; destruct Si as [Si _]; unfold any_code in Si; destruct r; cbn in Si; lia).
  rewrite Hi8 in E. injection E as <- <-. rename i1 into i.
  subst dqln. pose proof (recon_rank r i (step_size s) q Si Hy Er) as RR.
  set (d := diff_of r q) in *. set (se := se_of s) in *. set (y := step_size s) in *.
  assert (HY2 : 136 <= Z.shiftr y 2 <= 1280) by (clear - Hy; dvl).
  assert (Hw : -32767 <= se + d <= 32767).
  { destruct r; try (specialize (Hm2 ltac:(discriminate)); lia).
    assert (Hi2 : 0 <= i < 32) by (destruct Si as [Si _]; exact Si).
    (* a difference in the direction of the code *)
    destruct (Z.ltb_spec (amp - se) 0) as [Hneg | Hpos].
    - assert (d <= 0).
      { assert (Z.land i 16 <> 0).
        { assert (rank R40 y (amp - se) < 16) by (unfold rank; replace (amp - se <? 0) with true by lia; pose proof (level_range R40 y (amp - se)); change (size R40) with 15 in *; lia).
          rewrite Ei. change (sign_bit R40) with 16 in *. clear - H Rr.
          assert (E : all_below_from (Z.to_nat 16) 0 (fun n => negb (Z.land (Z.lxor n 16) 16 =? 0)) = true) by reflexivity.
          pose proof (sweep 16 _ E (rank R40 y (amp - se)) ltac:(lia)). cbv beta in *. lia. }
        unfold d, diff_of. apply Hsg in H. replace (q <? 0) with true by lia.
        enough (0 <= Z.land q (mag_mask R40)) by lia. apply Z.land_nonneg. right. cbn. lia. }
      lia.
    - assert (0 <= d \/ d = 0).
      { destruct (Z.eq_dec (Z.land i 16) 0) as [Hz | Hnz].
        - left. unfold d, diff_of. assert (~ q < 0) by (rewrite Hsg; auto). replace (q <? 0) with false by lia. lia.
        - right. (* only the smallest negative code *)
          assert (R16' : 15 <= rank R40 y (amp - se)).
          { unfold rank. replace (amp - se <? 0) with false by lia. pose proof (level_range R40 y (amp - se)). change (sign_bit R40) with 16. destruct (_ && _); lia. }
          assert (i = 31).
          { rewrite Ei in Hnz |- *. change (sign_bit R40) with 16 in *. clear - R16' Rr Hnz.
            assert (E : all_below_from (Z.to_nat 32) 0 (fun n => (n <? 15) || (Z.land (Z.lxor n 16) 16 =? 0) || (Z.lxor n 16 =? 31)) = true) by reflexivity.
            pose proof (sweep 32 _ E (rank R40 y (amp - se)) ltac:(lia)). cbv beta in *. lia. }
          unfold d, diff_of. rewrite H in Er. change (Z.land 31 (sign_bit R40)) with 16 in Er.
          change (nth (Z.to_nat 31) (dqlntab R40) 0) with (-2048) in Er. unfold reconstruct in Er.
          rewrite s16_id in Er by (unfold i16; lia). replace (-2048 + Z.shiftr y 2 <? 0) with true in Er by lia.
          change (s16 (if negb (16 =? 0) then -32768 else 0)) with (-32768) in Er. injection Er as <-. reflexivity. }
      lia. }
  rewrite (s16_id (se + d)) in Esr by (unfold i16; lia). subst sr.
  exists (se + d). split.
  - rewrite (decode1_eq r LINEAR s i I), (mask_id r i (proj1 Si)). fold se. rewrite Ef. cbn [rbind output].
    rewrite Z.shiftl_mul_pow2 by lia. change (2 ^ 2) with 4. rewrite (Z.mul_comm _ 4). reflexivity.
  - intros z Hz Hb. rewrite (encode1_eq r s _ I). fold se y. rewrite (s16_id (z - se)) by (unfold i16; lia).
    rewrite (quantize_same r y (amp - se) (z - se) i); auto; try lia.
    + cbn [rbind]. rewrite Ef. cbn [rbind]. rewrite Hi8. reflexivity.
    + destruct Hb as [Hb | Hb].
      * pose proof (rank_mono r y (amp - se) (z - se) ltac:(lia) ltac:(lia) ltac:(lia)).
        pose proof (rank_mono r y (z - se) (d - 1) ltac:(lia) ltac:(lia) ltac:(lia)). lia.
      * pose proof (rank_mono r y (z - se) (amp - se) ltac:(lia) ltac:(lia) ltac:(lia)).
        pose proof (rank_mono r y (d + 1) (z - se) ltac:(lia) ltac:(lia) ltac:(lia)). lia.
Qed.

Lemma enc_list_app r l1 : forall s l2, enc_list r s (l1 ++ l2) =
  do (o1, s) <- enc_list r s l1; do (o2, s) <- enc_list r s l2; Ok (o1 ++ o2, s).
Proof.
  induction l1 as [|a t IH]; intros s l2; cbn [enc_list app rbind].
  - destruct (enc_list r s l2) as [[? ?]|]; reflexivity.
  - destruct (encode1 r s a) as [[i s1]|]; cbn [rbind]; [|reflexivity]. rewrite IH.
    destruct (enc_list r s1 t) as [[o1 s2]|]; cbn [rbind]; [|reflexivity].
    destruct (enc_list r s2 l2) as [[o2 s3]|]; reflexivity.
Qed.

Lemma same_interval r xs x : audio LINEAR (xs ++ [x]) ->
  exists codes c ys w d, g726_encode r LINEAR PNONE g726_init (xs ++ [x]) = Ok (codes, c) /\
    g726_decode r LINEAR PNONE g726_init codes = Ok (ys ++ [s16 (4 * w)], d) /\
    forall z, sample LINEAR z -> x <= z < 4 * w \/ 4 * w + 4 <= z <= x ->
      g726_encode r LINEAR PNONE g726_init (xs ++ [z]) = Ok (codes, c).
Proof.
  intros F. apply Forall_app in F as [Fx F1]. inversion F1 as [|? ? Hx _]; subst.
  assert (Fa : forall z, sample LINEAR z -> audio LINEAR (xs ++ [z])) by (intros; apply Forall_app; split; [auto | constructor; auto]).
  assert (Hr : forall z, sample LINEAR z -> -8192 <= value LINEAR z <= 8191) by (intros z Hz; apply (linearize_range LINEAR z Hz)).
  destruct (enc_list_ok r (map (value LINEAR) xs) init inv_init (values_range LINEAR xs Fx)) as (c0 & s & E0 & I & _).
  destruct (encode_step r s (value LINEAR x) I (Hr x Hx)) as (i & s' & E1 & Si & I1).
  destruct (interval_step r s _ i s' I (Hr x Hx) E1) as (w & D1 & Hb).
  assert (G : forall z, sample LINEAR z -> encode1 r s (value LINEAR z) = Ok (i, s') ->
    g726_encode r LINEAR PNONE g726_init (xs ++ [z]) = Ok (c0 ++ [i], {| st := s'; word := 0; residue := 0 |})).
  { intros z Hz Ez. destruct (encode_plain r LINEAR (xs ++ [z]) (Fa z Hz)) as (c1 & s1 & EL & _ & _ & _ & EP). rewrite EP.
    rewrite map_app, enc_list_app, E0 in EL. cbn [rbind map enc_list] in EL. rewrite Ez in EL. cbn [rbind] in EL. injection EL as <- <-. reflexivity. }
  destruct (decode_plain r LINEAR (c0 ++ [i])) as (out & s2 & DL & _ & _ & _ & DP).
  destruct (track_list r LINEAR _ init c0 s inv_init (values_range LINEAR xs Fx) E0) as [ys D0].
  rewrite dec_list_app, D0 in DL. cbn [rbind dec_list] in DL. rewrite D1 in DL. cbn [rbind] in DL. injection DL as <- <-.
  assert (Hs : s16 (s16 (4 * w)) = s16 (4 * w)) by (apply s16_id, s16_range). change (g726_decode r LINEAR PNONE g726_init (c0 ++ [i]) = Ok (ys ++ [s16 (s16 (4 * w))], {| st := s'; word := 0; residue := 0 |})) in DP. rewrite Hs in DP.
  exists (c0 ++ [i]), {| st := s'; word := 0; residue := 0 |}, ys, w, {| st := s'; word := 0; residue := 0 |}. split; [apply G; auto|]. split; [exact DP|].
  intros z Hz Hb2. apply G; auto. apply Hb; auto. unfold value. rewrite !Z.shiftr_div_pow2 by lia. change (2 ^ 2) with 4.
  Z.div_mod_to_equations; lia.
Qed.
