From Verif Require Import Base BitOps_model BitOps_proofs G711_model G726_model G726_spec G726_quant_proofs.
From Coq Require Import ZifyBool ZifyNat.
Local Open Scope Z_scope.

Ltac dv := rewrite ?Z.shiftr_div_pow2, ?Z.shiftl_mul_pow2 by lia;
  change (2 ^ 1) with 2 in *; change (2 ^ 2) with 4 in *; change (2 ^ 3) with 8 in *; change (2 ^ 4) with 16 in *;
  change (2 ^ 5) with 32 in *; change (2 ^ 6) with 64 in *; change (2 ^ 7) with 128 in *; change (2 ^ 8) with 256 in *;
  change (2 ^ 9) with 512 in *; change (2 ^ 10) with 1024 in *; change (2 ^ 15) with 32768 in *.
Ltac dvl := dv; Z.div_mod_to_equations; lia.

Lemma reconstruct_ok sign dqln y : -2048 <= dqln <= 566 -> 544 <= y <= 5120 ->
  exists q, reconstruct sign dqln y = Ok q /\ i16 q /\
    (q < 0 <-> sign <> 0) /\ Z.land q 0x7FFF <= 23424 /\ (dqln <= 425 -> Z.land q 0x7FFF <= 10880).
Proof.
  intros Hl Hy. unfold reconstruct.
  assert (Hy2 : 136 <= Z.shiftr y 2 <= 1280) by dvl.
  set (Y := Z.shiftr y 2) in *. clearbody Y.
  rewrite (s16_id (dqln + Y)) by (unfold i16; lia).
  destruct (Z.ltb_spec (dqln + Y) 0).
  - destruct (Z.eqb_spec sign 0); cbn [negb]; eexists; (split; [reflexivity|]); cbn; unfold i16; repeat split; intros; lia.
  - set (q := dqln + Y) in *. assert (Hq : 0 <= q <= 1846) by lia.
    assert (Hq2 : dqln <= 425 -> q <= 1705) by lia. clearbody q.
    assert (E : all_below_from (Z.to_nat 1847) 0 (fun q =>
       let dex := s16 (Z.land (Z.shiftr q 7) 15) in
       let m := s16 (Z.shiftr (Z.shiftl (s16 (128 + Z.land q 127)) 7) (14 - dex)) in
       (0 <=? 14 - dex) && (14 - dex <=? 31) && (0 <=? m) && (m <=? 23424) && ((1705 <? q) || (m <=? 10880))) = true) by (vm_compute; reflexivity).
    pose proof (sweep 1847 _ E q ltac:(lia)) as S. clear E. cbv beta zeta in S.
    set (dex := s16 (Z.land (Z.shiftr q 7) 15)) in *.
    rewrite shr_ok by lia. cbn [rbind].
    set (m := s16 (Z.shiftr _ _)) in *. clearbody m dex.
    assert (L : forall z, Z.land z 0x7FFF = z mod 32768) by (intros z; change 0x7FFF with (Z.ones 15); apply Z.land_ones; lia).
    destruct (Z.eqb_spec sign 0); cbn [negb]; eexists; (split; [reflexivity|]); rewrite s16_id by (unfold i16; lia); rewrite L; unfold i16.
    + rewrite Z.mod_small by lia. lia.
    + replace (m - 0x8000) with (m + (-1) * 32768) by lia. rewrite Z.mod_add, Z.mod_small by lia. lia.
Qed.

Lemma fmult_ok an srn : -8192 <= an <= 8191 -> exists v, fmult an srn = Ok v /\ i16 v.
Proof.
  intros Ha. unfold fmult.
  assert (L : 0 <= Z.land (- an) 0x1FFF < 8192).
  { change 0x1FFF with (Z.ones 13). rewrite Z.land_ones by lia. change (2 ^ 13) with 8192. apply Z.mod_pos_bound. lia. }
  assert (Hm : 0 <= s16 (if 0 <? an then an else Z.land (- an) 0x1FFF) < 8192).
  { rewrite s16_id; destruct (Z.ltb_spec 0 an); unfold i16; lia. }
  set (m := s16 _) in *. clearbody m.
  rewrite (u32_id m) by lia.
  pose proof (top_bit_lt m 13 ltac:(lia) ltac:(change (2 ^ 13) with 8192; lia)).
  rewrite (s16_id (top_bit m - 5)) by (unfold i16; lia). set (e := top_bit m - 5) in *. assert (-6 <= e <= 7) by lia. clearbody e.
  assert (M : exists t, (if m =? 0 then Ok 32 else if 0 <=? e then shr m e else shl m (- e)) = Ok t).
  { destruct (m =? 0); [eexists; reflexivity|]. destruct (Z.leb_spec 0 e); [rewrite shr_ok by lia | rewrite shl_ok by lia]; eexists; reflexivity. }
  destruct M as [t ->]. cbn [rbind].
  assert (0 <= Z.land (Z.shiftr srn 6) 0xF < 16) by (change 0xF with (Z.ones 4); rewrite Z.land_ones by lia; change (2 ^ 4) with 16; apply Z.mod_pos_bound; lia).
  rewrite (s16_id (e + _ - 13)) by (unfold i16; lia).
  set (w := e + _ - 13) in *. assert (-19 <= w <= 9) by lia. clearbody w.
  destruct (Z.leb_spec 0 w); [rewrite shl_ok by lia | rewrite shr_ok by lia]; cbn [rbind]; eexists; (split; [reflexivity | apply s16_range]).
Qed.

(** ---- the invariant ---- *)
Record inv (s : g726) : Prop := {
  I_stable : stable s;
  I_ap : 0 <= ap s <= 512;
  I_dms : 0 <= dms s <= 3584;
  I_dml : 0 <= dml s <= 14336;
  I_b : length (b s) = 6%nat /\ Forall i16 (b s);
  I_dq : length (dq s) = 6%nat;
  I_pk : (pk0 s = 0 \/ pk0 s = 1) /\ (pk1 s = 0 \/ pk1 s = 1) }.
Lemma inv_init : inv init.
Proof. constructor; cbn; unfold stable, i16; cbn; repeat split; try lia; auto. repeat (constructor; [lia|]); constructor. Qed.

Lemma zero_sum_ok bs : forall dqs, length bs = length dqs -> Forall i16 bs -> exists t, zero_sum bs dqs = Ok t.
Proof.
  induction bs as [|x bs IH]; intros [|q dqs] H F; try discriminate; cbn [zero_sum]; [eexists; reflexivity|].
  inversion F as [|? ? Hx F']; subst. unfold i16 in Hx.
  destruct (fmult_ok (Z.shiftr x 2) q ltac:(dvl)) as (v & -> & _). cbn [rbind].
  destruct (IH dqs ltac:(cbn in H; lia) F') as [t ->]. cbn [rbind]. eexists; reflexivity.
Qed.
Lemma predictors_ok s : inv s -> exists z p, predictor_zero s = Ok z /\ predictor_pole s = Ok p /\ i16 z /\ i16 p.
Proof.
  intros [Hs _ _ _ [Hl Hb] Hd _]. unfold predictor_zero, predictor_pole.
  destruct (zero_sum_ok (b s) (dq s) ltac:(lia) Hb) as [t ->]. cbn [rbind].
  destruct Hs as (H1 & H0 & _).
  destruct (fmult_ok (Z.shiftr (a1 s) 2) (sr1 s) ltac:(dvl)) as (f & -> & _). cbn [rbind].
  destruct (fmult_ok (Z.shiftr (a0 s) 2) (sr0 s) ltac:(dvl)) as (g & -> & _). cbn [rbind].
  do 2 eexists. split; [reflexivity|]. split; [reflexivity|]. split; apply s16_range.
Qed.
Lemma step_size_ok s : inv s -> 544 <= step_size s <= 5120.
Proof.
  intros [(H1 & H0 & Hu & Hl) Ha _ _ _ _ _]. unfold step_size.
  destruct (Z.leb_spec 256 (ap s)); [lia|].
  assert (Hy : 544 <= Z.shiftr (yl s) 6 <= 5120) by dvl. set (y := Z.shiftr (yl s) 6) in *. clearbody y.
  assert (Hal : 0 <= Z.shiftr (ap s) 2 <= 63) by dvl. set (al := Z.shiftr (ap s) 2) in *. clearbody al.
  destruct (Z.ltb_spec 0 (yu s - y)).
  - assert (0 <= (yu s - y) * al <= (yu s - y) * 63) by nia. set (k := (yu s - y) * al) in *. clearbody k. dvl.
  - destruct (Z.ltb_spec (yu s - y) 0); [|lia].
    assert ((yu s - y) * 63 <= (yu s - y) * al <= 0) by nia. set (k := (yu s - y) * al) in *. clearbody k. dvl.
Qed.

Lemma to_float_ok m : 0 <= m < 65536 -> exists f, to_float m = Ok f.
Proof.
  intros H. unfold to_float. rewrite (u32_id m) by lia.
  pose proof (top_bit_lt m 16 ltac:(lia) ltac:(change (2 ^ 16) with 65536; lia)).
  rewrite s16_id by (unfold i16; lia). rewrite shr_ok by lia. cbn [rbind]. eexists; reflexivity.
Qed.
Lemma update_bs_ok r q bs : forall dqs, length bs = length dqs ->
  exists l, update_bs r q bs dqs = Ok l /\ length l = length bs /\ Forall i16 l.
Proof.
  induction bs as [|x bs IH]; intros [|d dqs] H; try discriminate; cbn [update_bs]; [exists []; repeat split; constructor|].
  destruct (IH dqs ltac:(cbn in H; lia)) as (l & -> & Hl & F). cbn [rbind]. eexists. split; [reflexivity|].
  split; [cbn; lia|]. constructor; auto. unfold update_b.
  destruct (negb _); [destruct (0 <=? _)|]; apply s16_range.
Qed.

Lemma update_a1_ok s pk dqsez : inv s -> Z.abs (update_a1 s pk dqsez) <= 12288.
Proof.
  intros [(H1 & H0 & _) _ _ _ _ _ _]. unfold update_a1.
  assert (E : s16 (a1 s - Z.shiftr (a1 s) 7) = a1 s - Z.shiftr (a1 s) 7) by (apply s16_id; unfold i16; dvl).
  rewrite E. clear E.
  assert (Ha : Z.abs (a1 s - Z.shiftr (a1 s) 7) <= 12288) by dvl. set (a2p := a1 s - Z.shiftr (a1 s) 7) in *. clearbody a2p.
  destruct (negb (dqsez =? 0)); [|exact Ha].
  assert (Hf : i16 (s16 (if negb (s16 (Z.lxor pk (pk0 s)) =? 0) then a0 s else - a0 s))) by apply s16_range.
  set (fa := s16 (if negb (s16 (Z.lxor pk (pk0 s)) =? 0) then a0 s else - a0 s)) in *. clearbody fa. unfold i16 in Hf.
  assert (Hb : exists z, (if fa <? -8191 then s16 (a2p - 0x100) else if 8191 <? fa then s16 (a2p + 0xFF) else s16 (a2p + Z.shiftr fa 5)) = z /\ Z.abs z <= 12800).
  { eexists. split; [reflexivity|].
    destruct (Z.ltb_spec fa (-8191)); [rewrite s16_id by (unfold i16; lia); lia|].
    destruct (Z.ltb_spec 8191 fa); [rewrite s16_id by (unfold i16; lia); lia|].
    assert (-257 <= Z.shiftr fa 5 <= 256) by dvl. rewrite s16_id by (unfold i16; lia). lia. }
  destruct Hb as (z & -> & Hz).
  destruct (negb _).
  - destruct (Z.leb_spec z (-12160)); [lia|]. destruct (Z.leb_spec 12416 z); [lia|]. rewrite s16_id by (unfold i16; lia). lia.
  - destruct (Z.leb_spec z (-12416)); [lia|]. destruct (Z.leb_spec 12160 z); [lia|]. rewrite s16_id by (unfold i16; lia). lia.
Qed.
Lemma update_a0_ok s pk dqsez a2p : Z.abs a2p <= 12288 -> Z.abs (update_a0 s pk dqsez a2p) <= 15360 - a2p.
Proof.
  intros H. unfold update_a0. rewrite (s16_id (15360 - a2p)) by (unfold i16; lia).
  match goal with |- context [if ?c <? - (15360 - a2p) then _ else _] => generalize c end. intros x.
  destruct (Z.ltb_spec x (- (15360 - a2p))); [rewrite s16_id by (unfold i16; lia); lia|].
  destruct (Z.ltb_spec (15360 - a2p) x); lia.
Qed.

Lemma update_ok r s y wi fi q sr dqsez :
  inv s -> 544 <= y <= 5120 -> -704 <= wi <= 35904 -> 0 <= fi <= 3584 -> i16 q -> i16 sr ->
  exists s', update r s y wi fi q sr dqsez = Ok s' /\ inv s'.
Proof.
  intros I Hy Hw Hf Hq Hsr. pose proof I as [(H1 & H0 & Hu & Hl) Ha Hdms Hdml [Hbl Hb] Hdl [Hp0 Hp1]].
  unfold update.
  assert (Hi : 1 <= Z.shiftr (yl s) 15 <= 10) by dvl.
  rewrite (s16_id (Z.shiftr (yl s) 15)) by (unfold i16; lia).
  set (yi := Z.shiftr (yl s) 15) in *. clearbody yi.
  assert (T : exists t, (if 9 <? yi then Ok (Z.shiftl 31 10) else shl (32 + s16 (Z.land (Z.shiftr (yl s) 10) 0x1F)) yi) = Ok t).
  { destruct (Z.ltb_spec 9 yi); [eexists; reflexivity|]. rewrite shl_ok by lia. eexists; reflexivity. }
  destruct T as [t ->]. cbn [rbind].
  set (mag := s16 (Z.land q 0x7FFF)). assert (Hmag : 0 <= mag < 32768).
  { assert (0 <= Z.land q 0x7FFF < 32768) by (change 0x7FFF with (Z.ones 15); rewrite Z.land_ones by lia; apply Z.mod_pos_bound; lia).
    unfold mag. rewrite s16_id by (unfold i16; lia). lia. }
  clearbody mag.
  match goal with |- context [if negb (td s) then false else ?e] => generalize (if negb (td s) then false else e) end. intros tr.
  assert (Hyu : exists v, (let yu' := s16 (y + Z.shiftr (wi - y) 5) in if yu' <? 544 then 544 else if 5120 <? yu' then 5120 else yu') = v /\ 544 <= v <= 5120).
  { cbv zeta. eexists; split; [reflexivity|]. destruct (Z.ltb_spec (s16 (y + Z.shiftr (wi - y) 5)) 544); [lia|].
    destruct (Z.ltb_spec 5120 (s16 (y + Z.shiftr (wi - y) 5))); lia. }
  cbv zeta in Hyu. destruct Hyu as (v & -> & Hv). cbv zeta.
  assert (B : exists l, (if tr then Ok [0; 0; 0; 0; 0; 0] else update_bs r q (b s) (dq s)) = Ok l /\ length l = 6%nat /\ Forall i16 l).
  { destruct tr; [eexists; split; [reflexivity|]; split; [reflexivity|]; repeat (constructor; [unfold i16; lia|]); constructor|].
    destruct (update_bs_ok r q (b s) (dq s) ltac:(lia)) as (l & E & ? & ?). exists l. rewrite E. split; [reflexivity|]. split; [lia | auto]. }
  destruct B as (l & -> & Hll & Fl). cbn [rbind].
  assert (D : exists d, (if mag =? 0 then Ok (s16 (if 0 <=? q then 0x20 else 0xFC20)) else do f <- to_float mag; Ok (s16 (if 0 <=? q then f else f - 0x400))) = Ok d).
  { destruct (mag =? 0); [eexists; reflexivity|]. destruct (to_float_ok mag ltac:(lia)) as [f ->]. cbn [rbind]. eexists; reflexivity. }
  destruct D as [d ->]. cbn [rbind]. unfold i16 in Hsr.
  assert (R : exists z, (if sr =? 0 then Ok 0x20
             else if 0 <? sr then do f <- to_float sr; Ok (s16 f)
             else if -32768 <? sr then do f <- to_float (s16 (- sr)); Ok (s16 (f - 0x400))
             else Ok (s16 0xFC20)) = Ok z).
  { destruct (Z.eqb_spec sr 0); [eexists; reflexivity|]. destruct (Z.ltb_spec 0 sr).
    { destruct (to_float_ok sr ltac:(lia)) as [f ->]. cbn [rbind]. eexists; reflexivity. }
    destruct (Z.ltb_spec (-32768) sr); [|eexists; reflexivity].
    rewrite (s16_id (- sr)) by (unfold i16; lia).
    destruct (to_float_ok (- sr) ltac:(lia)) as [f ->]. cbn [rbind]. eexists; reflexivity. }
  destruct R as [z ->]. cbn [rbind]. eexists. split; [reflexivity|].
  assert (Hfast : 0 <= s16 (ap s + Z.shiftr (512 - ap s) 4) <= 512).
  { assert (0 <= ap s + Z.shiftr (512 - ap s) 4 <= 512) by dvl. rewrite s16_id by (unfold i16; lia). lia. }
  assert (Hslow : 0 <= s16 (ap s + Z.shiftr (- ap s) 4) <= 512).
  { assert (0 <= ap s + Z.shiftr (- ap s) 4 <= 512) by dvl. rewrite s16_id by (unfold i16; lia). lia. }
  constructor; cbn [yl yu dms dml ap a0 a1 b pk0 pk1 dq sr0 sr1 td].
  - unfold stable; cbn [yl yu dms dml ap a0 a1 b pk0 pk1 dq sr0 sr1 td].
    pose proof (update_a1_ok s (if dqsez <? 0 then 1 else 0) dqsez I) as U1.
    pose proof (update_a0_ok s (if dqsez <? 0 then 1 else 0) dqsez _ U1) as U0.
    split; [destruct tr; [lia | exact U1]|]. split; [destruct tr; [lia | exact U0]|]. split; [lia|]. dvl.
  - destruct tr; [lia|]. destruct (y <? 1536); [exact Hfast|].
    destruct (update_a1 s _ dqsez <? -11776); [exact Hfast|]. destruct (_ <=? _); [exact Hfast | exact Hslow].
  - rewrite (s16_id fi) by (unfold i16; lia).
    assert (0 <= dms s + Z.shiftr (fi - dms s) 5 <= 3584) by dvl. rewrite s16_id by (unfold i16; lia). lia.
  - assert (0 <= Z.shiftl fi 2 <= 14336) by (dv; lia). rewrite (s16_id (Z.shiftl fi 2)) by (unfold i16; lia).
    set (k := Z.shiftl fi 2) in *. clearbody k.
    assert (0 <= dml s + Z.shiftr (k - dml s) 7 <= 14336) by dvl. rewrite s16_id by (unfold i16; lia). lia.
  - auto.
  - destruct (dq s) as [|x0 [|x1 [|x2 [|x3 [|x4 [|x5 [|]]]]]]]; try discriminate. reflexivity.
  - split; [destruct (dqsez <? 0); lia | exact Hp0].
Qed.
