(** More about the arithmetic decoder: the flag [nopadding], and what is used up. *)
From Verif Require Import Base Bits Arith_model Arith_spec Arith_enc_proofs Arith_dec_proofs T85_enc_model T85_dec_model.
From Coq Require Import ZifyBool ZifyNat.
Local Open Scope Z_scope.

Definition np (d : dec) (b : bool) : dec := set_nopadding d b.
Definition at_marker (l : list Z) : Prop := exists m tl, l = ESC :: m :: tl /\ m <> 0.

Lemma refill_np f : forall c ct inp r, refill f c ct true inp = Ok r -> 0 <= ct -> (need ct <= f)%nat ->
  match r with
  | Filled c' ct' np' inp' => np' = true /\ 9 <= ct' /\ refill f c ct false inp = Ok (Filled c' ct' false inp')
  | Leave code c' ct' np' inp' =>
      (code = -1 /\ np' = true /\ 0 <= ct' /\ refill f c ct false inp = Ok (Leave (-1) c' ct' false inp')) \/
      (code = -2 /\ np' = false /\ ct' = -1 /\ at_marker inp' /\
       forall more, refill f c ct false (inp ++ more) = Ok (Filled c' (-1) false (inp' ++ more)))
  end.
Proof.
  induction f as [|f IH]; intros c ct inp r H Hct Hf; [discriminate|]. cbn [refill] in *.
  destruct ((ct <=? 8) && (0 <=? ct)) eqn:E.
  2:{ injection H as <-. split; [reflexivity|]. split; [lia|reflexivity]. }
  assert (HN : (2 <= f)%nat \/ ((1 <= f)%nat /\ 1 <= ct)) by (unfold need in Hf; destruct (Z.ltb_spec ct 0), (Z.eqb_spec ct 0), (Z.leb_spec ct 8); lia).
  assert (Hneed : (need (ct + 8) <= f)%nat).
  { unfold need. destruct (Z.ltb_spec (ct + 8) 0), (Z.eqb_spec (ct + 8) 0), (Z.leb_spec (ct + 8) 8); lia. }
  destruct inp as [|b t].
  { injection H as <-. left. split; [reflexivity|]. split; [reflexivity|]. split; [exact Hct|reflexivity]. }
  destruct (b =? ESC) eqn:Eb.
  - destruct t as [|m' t'].
    { injection H as <-. left. split; [reflexivity|]. split; [reflexivity|]. split; [exact Hct|reflexivity]. }
    destruct (m' =? STUFF) eqn:Em.
    + specialize (IH _ _ _ _ H ltac:(lia) Hneed). destruct r as [c' ct' np' i'|code c' ct' np' i']; [exact IH|].
      destruct IH as [IH|(X1 & X2 & X3 & X4 & X5)]; [left; exact IH|right].
      split; [exact X1|]. split; [exact X2|]. split; [exact X3|]. split; [exact X4|]. intros more. cbn [app]. rewrite Eb, Em. apply X5.
    + injection H as <-. right. split; [reflexivity|]. split; [reflexivity|]. split; [reflexivity|].
      split. { apply Z.eqb_eq in Eb. subst b. exists m', t'. split; [reflexivity|]. unfold STUFF in Em. lia. }
      intros more. cbn [app]. rewrite Eb, Em. destruct f as [|f]; [lia|]. reflexivity.
  - specialize (IH _ _ _ _ H ltac:(lia) Hneed). destruct r as [c' ct' np' i'|code c' ct' np' i']; [exact IH|].
    destruct IH as [IH|(X1 & X2 & X3 & X4 & X5)]; [left; exact IH|right].
    split; [exact X1|]. split; [exact X2|]. split; [exact X3|]. split; [exact X4|]. intros more. cbn [app]. rewrite Eb. apply X5.
Qed.

Lemma need4 ct : (need ct <= 4)%nat.
Proof. unfold need. destruct (ct <? 0), (ct =? 0), (ct <=? 8); lia. Qed.

Lemma renormd_np f : forall d inp r d' inp', renormd f d inp = Ok (r, d', inp') -> dnopadding d = true -> 0 <= dct d ->
  match r with
  | inl (-2) => dnopadding d' = false /\ dct d' = -1 /\ at_marker inp' /\
      forall more, exists f', (f' <= f)%nat /\ renormd f (np d false) (inp ++ more) = renormd f' d' (inp' ++ more)
  | _ => dnopadding d' = true /\ 0 <= dct d' /\ renormd f (np d false) inp = Ok (r, np d' false, inp')
  end.
Proof.
  induction f as [|f IH]; intros d inp r d' inp' H Hnp Hct; [discriminate|]. remember (S f) as sf eqn:Ef.
  pose proof H as H0. rewrite Ef in H. cbn [renormd] in H.
  assert (EQ : forall inp, renormd sf (np d false) inp =
    if (da d <? 32768) || dstartup d then
      rbind (refill 4 (dc d) (dct d) false inp) (fun r => match r with
        | Leave code c ct np inp' => Ok (inl code, mkDec (da d) c (dst d) ct (dstartup d) np, inp')
        | Filled c ct np inp' =>
            renormd f (mkDec (u32 (Z.shiftl (da d) 1)) (u32 (Z.shiftl c 1)) (dst d) (if 0 <=? ct then ct - 1 else ct)
                             (if u32 (Z.shiftl (da d) 1) =? 0x10000 then false else dstartup d) np) inp'
        end) else Ok (inr tt, np d false, inp)) by (intros; rewrite Ef; reflexivity).
  destruct ((da d <? 32768) || dstartup d) eqn:E.
  2:{ injection H as <- <- <-. rewrite EQ. auto. }
  destruct (refill 4 (dc d) (dct d) (dnopadding d) inp) as [rf|] eqn:R; [|discriminate]. rewrite Hnp in R. cbn [rbind] in H.
  pose proof (refill_np 4 _ _ _ _ R Hct (need4 _)) as X.
  destruct rf as [c ct np' i1|code c ct np' i1].
  - destruct X as (-> & Hct' & X). 
    specialize (IH _ _ _ _ _ H eq_refl). cbn [dct] in IH. replace (0 <=? ct) with true in IH by lia. specialize (IH ltac:(lia)).
    replace (0 <=? ct) with true in H by lia.
    assert (K : r = inl (-2) \/ match r with
      | inl (-2) => False
      | _ => dnopadding d' = true /\ 0 <= dct d' /\ renormd sf (np d false) inp = Ok (r, np d' false, inp') end).
    { destruct r as [code|u].
      - destruct (Z.eq_dec code (-2)) as [->|N]; [left; reflexivity|right].
        assert (IH' : dnopadding d' = true /\ 0 <= dct d' /\ renormd f (np (mkDec (u32 (Z.shiftl (da d) 1)) (u32 (Z.shiftl c 1)) (dst d) (ct - 1) (if u32 (Z.shiftl (da d) 1) =? 65536 then false else dstartup d) true) false) i1 = Ok (inl code, np d' false, inp')).
        { destruct code as [|?|[[]|[]|]]; try exact IH. contradiction (N eq_refl). }
        assert (G : dnopadding d' = true /\ 0 <= dct d' /\ renormd sf (np d false) inp = Ok (inl code, np d' false, inp')).
        { rewrite EQ, X. cbn [rbind]. replace (0 <=? ct) with true by lia. exact IH'. }
        destruct code as [|?|[[]|[]|]]; try exact G. contradiction (N eq_refl).
      - right. rewrite EQ, X. cbn [rbind]. replace (0 <=? ct) with true by lia. exact IH. }
    destruct K as [->|K].
    + destruct IH as (Y1 & Y2 & Y3 & Y4). split; [exact Y1|]. split; [exact Y2|]. split; [exact Y3|]. intros more.
      destruct (Y4 more) as (f' & Hf' & Y5). exists f'. split; [lia|]. rewrite EQ, (refill_more 4 more _ _ _ _ _ X eq_refl). cbn [rbind extend].
      replace (0 <=? ct) with true by lia. exact Y5.
    + destruct r as [code|u]; [|exact K]. destruct code as [|?|[[]|[]|]]; try exact K. contradiction.
  - injection H as <- <- <-. destruct X as [(-> & -> & Hct' & X)|(-> & -> & -> & M & X)].
    + cbn [dnopadding dct]. split; [reflexivity|]. split; [exact Hct'|]. rewrite EQ, X. reflexivity.
    + cbn [dnopadding dct]. split; [reflexivity|]. split; [reflexivity|]. split; [exact M|]. intros more. exists sf. split; [lia|].
      rewrite EQ, X. cbn [rbind]. rewrite Ef. cbn [renormd da dstartup dc dct dnopadding dst]. rewrite E. reflexivity.
Qed.

Lemma pixel_np d cx b : decode_pixel (np d b) cx = match decode_pixel d cx with Ok (p, d') => Ok (p, np d' b) | UB => UB end.
Proof.
  unfold decode_pixel, np, set_nopadding. cbn [da dc dst dct dstartup dnopadding].
  destruct (aget (dst d) cx) as [st|]; [|reflexivity]. cbn [rbind].
  destruct (aget lsz_tab (Z.land st 127)) as [l|]; [|reflexivity]. cbn [rbind].
  destruct (aget nlps_tab (Z.land st 127)) as [nl|]; [|reflexivity]. cbn [rbind].
  destruct (aget nmps_tab (Z.land st 127)) as [nm|]; [|reflexivity]. cbn [rbind].
  destruct (u32 (da d - l) <=? Z.shiftr (dc d) 16).
  - destruct (u32 (da d - l) <? l); (destruct (aset (dst d) cx _); reflexivity).
  - destruct (u32 (da d - l) <? 32768); [destruct (u32 (da d - l) <? l); (destruct (aset (dst d) cx _); reflexivity)|reflexivity].
Qed.

Lemma pixel_ct d cx p d' : decode_pixel d cx = Ok (p, d') -> dct d' = dct d /\ dnopadding d' = dnopadding d.
Proof.
  unfold decode_pixel.
  destruct (aget (dst d) cx) as [st|]; [|discriminate]. cbn [rbind].
  destruct (aget lsz_tab (Z.land st 127)) as [l|]; [|discriminate]. cbn [rbind].
  destruct (aget nlps_tab (Z.land st 127)) as [nl|]; [|discriminate]. cbn [rbind].
  destruct (aget nmps_tab (Z.land st 127)) as [nm|]; [|discriminate]. cbn [rbind].
  destruct (u32 (da d - l) <=? Z.shiftr (dc d) 16).
  - destruct (u32 (da d - l) <? l); (destruct (aset (dst d) cx _); [|discriminate]; cbn [rbind]; intros H; injection H as <- <-; auto).
  - destruct (u32 (da d - l) <? 32768); [destruct (u32 (da d - l) <? l); (destruct (aset (dst d) cx _); [|discriminate]; cbn [rbind]; intros H; injection H as <- <-; auto)|].
    intros H; injection H as <- <-; auto.
Qed.

Lemma dsafe_np d b : dsafe d -> dsafe (np d b).
Proof. intros [H1 H2 H3]. constructor; assumption. Qed.

Lemma decode_np d cx inp r d' inp' : dsafe d -> 0 <= cx < 4096 -> bytes inp -> dnopadding d = true -> 0 <= dct d ->
  t81_t82_arith_decode d cx inp = Ok (r, d', inp') ->
  (r <> -2 /\ dnopadding d' = true /\ 0 <= dct d' /\ t81_t82_arith_decode (np d false) cx inp = Ok (r, np d' false, inp')) \/
  (r = -2 /\ dnopadding d' = false /\ dct d' = -1 /\ at_marker inp' /\
   forall more, bytes more -> t81_t82_arith_decode d' cx (inp' ++ more) = t81_t82_arith_decode (np d false) cx (inp ++ more)).
Proof.
  intros I Hcx Hb Hnp Hct H. rewrite decode_eq in H.
  destruct (renormd renorm_fuel d inp) as [[[q d1] i1]|] eqn:R; [|discriminate]. cbn [rbind] in H.
  pose proof (renormd_np _ _ _ _ _ _ R Hnp Hct) as X. destruct q as [code|u].
  - injection H as -> -> ->. destruct (Z.eq_dec r (-2)) as [-> |N].
    + right. destruct X as (X1 & X2 & X3 & X4). split; [reflexivity|]. split; [exact X1|]. split; [exact X2|]. split; [exact X3|].
      intros more Hm. destruct (X4 more) as (f' & Hf & X5). rewrite !decode_eq, X5.
      destruct (todo_exists (np d false) (dsafe_np _ _ I)) as (k & T & Hk).
      destruct (renormd_safe k renorm_fuel (np d false) (inp ++ more) (dsafe_np _ _ I) T Hk) as (r2 & d2 & i2 & R2 & _).
      { apply Forall_app. split; assumption. }
      rewrite X5 in R2. rewrite R2. rewrite (renormd_fuel _ _ _ _ _ R2 Hf). reflexivity.
    + left. assert (X' : dnopadding d' = true /\ 0 <= dct d' /\ renormd renorm_fuel (np d false) inp = Ok (inl r, np d' false, inp')).
      { destruct r as [|?|[[]|[]|]]; try exact X. contradiction (N eq_refl). }
      destruct X' as (X1 & X2 & X3). split; [exact N|]. split; [exact X1|]. split; [exact X2|]. rewrite decode_eq, X3. reflexivity.
  - left. destruct X as (X1 & X2 & X3).
    destruct (todo_exists d I) as (k & T & Hk).
    destruct (renormd_safe k renorm_fuel d inp I T Hk Hb) as (r2 & d2 & i2 & R2 & I2 & _ & _ & Y).
    rewrite R in R2. injection R2 as <- <- <-. destruct Y as (Y1 & Y2 & _).
    destruct (pixel_safe d1 cx I2 Y2 Y1 Hcx) as (pix & d3 & P3 & Hp & _).
    rewrite P3 in H. cbn [rbind] in H. injection H as -> -> ->.
    destruct (pixel_ct _ _ _ _ P3) as [C1 C2]. split; [lia|]. split; [congruence|]. split; [lia|].
    rewrite decode_eq, X3. cbn [rbind]. rewrite pixel_np, P3. reflexivity.
Qed.

(** ---- what is left is the end of what was given, cut between stuffed octets ---- *)

Lemma refill_suffix f : forall c ct n inp r, refill f c ct n inp = Ok r ->
  match r with Filled _ _ _ inp' | Leave _ _ _ _ inp' => exists l, inp = l ++ inp' /\ (no_marker l) end.
Proof.
  induction f as [|f IH]; intros c ct n inp r H; [discriminate|]. cbn [refill] in H.
  destruct ((ct <=? 8) && (0 <=? ct)).
  2:{ injection H as <-. exists []. split; [reflexivity|exact I]. }
  destruct inp as [|b t]; [injection H as <-; exists []; split; [reflexivity|exact I]|].
  destruct (Z.eqb_spec b ESC) as [Eb|Eb].
  - destruct t as [|m t]; [injection H as <-; exists []; split; [reflexivity|exact I]|].
    destruct (Z.eqb_spec m STUFF) as [Em|Em].
    + specialize (IH _ _ _ _ _ H). destruct r; destruct IH as (l & -> & Hl); exists (b :: m :: l); (split; [reflexivity|]);
        (cbn [no_marker]; split; [intros _; exists l; rewrite Em; reflexivity|split; [unfold STUFF in Em; intros; lia|exact Hl]]).
    + destruct n; [injection H as <-; exists []; split; [reflexivity|exact I]|exact (IH _ _ _ _ _ H)].
  - specialize (IH _ _ _ _ _ H). destruct r; destruct IH as (l & -> & Hl); exists (b :: l); (split; [reflexivity|]); (cbn [no_marker]; split; [unfold ESC in Eb; intros; lia|exact Hl]).
Qed.

Lemma no_marker_app a b : no_marker a -> no_marker b -> no_marker (a ++ b).
Proof.
  induction a as [|x a IH]; intros Ha Hb; [exact Hb|]. destruct Ha as [H1 H2]. cbn [app no_marker]. split; [|apply IH; assumption].
  intros E. destruct (H1 E) as [t ->]. exists (t ++ b). reflexivity.
Qed.

Lemma renormd_suffix f : forall d inp r d' inp', renormd f d inp = Ok (r, d', inp') -> exists l, inp = l ++ inp' /\ no_marker l.
Proof.
  induction f as [|f IH]; intros d inp r d' inp' H; [discriminate|]. cbn [renormd] in H.
  destruct ((da d <? 32768) || dstartup d).
  2:{ injection H as _ _ <-. exists []. split; [reflexivity|exact I]. }
  destruct (refill 4 (dc d) (dct d) (dnopadding d) inp) as [rf|] eqn:R; [|discriminate]. cbn [rbind] in H.
  pose proof (refill_suffix _ _ _ _ _ _ R) as X. destruct rf as [c ct n i1|code c ct n i1]; destruct X as (l & -> & Hl).
  - destruct (IH _ _ _ _ _ H) as (l2 & -> & Hl2). exists (l ++ l2). split; [apply app_assoc|apply no_marker_app; assumption].
  - injection H as _ _ <-. exists l. split; [reflexivity|exact Hl].
Qed.

Lemma decode_suffix d cx inp r d' inp' : t81_t82_arith_decode d cx inp = Ok (r, d', inp') -> exists l, inp = l ++ inp' /\ no_marker l.
Proof.
  intros H. rewrite decode_eq in H. destruct (renormd renorm_fuel d inp) as [[[q d1] i1]|] eqn:R; [|discriminate]. cbn [rbind] in H.
  assert (inp' = i1) as ->.
  { destruct q; [injection H; auto|]. destruct (decode_pixel d1 cx) as [[p d2]|]; [|discriminate]. cbn [rbind] in H. injection H; auto. }
  exact (renormd_suffix _ _ _ _ _ _ R).
Qed.

(** ---- once the marker has been seen there is nothing more to read ---- *)

Lemma renormd_ct f : forall d inp r d' inp', renormd f d inp = Ok (r, d', inp') -> dct d = -1 -> dct d' = -1.
Proof.
  induction f as [|f IH]; intros d inp r d' inp' H Hct; [discriminate|]. cbn [renormd] in H.
  destruct ((da d <? 32768) || dstartup d); [|injection H as _ <- _; exact Hct].
  rewrite Hct in H. cbn [refill Z.leb Z.compare andb rbind] in H. refine (IH _ _ _ _ _ H _). reflexivity.
Qed.

Lemma decode_ct d cx inp r d' inp' : t81_t82_arith_decode d cx inp = Ok (r, d', inp') -> dct d = -1 -> dct d' = -1.
Proof.
  intros H Hct. rewrite decode_eq in H. destruct (renormd renorm_fuel d inp) as [[[q d1] i1]|] eqn:R; [|discriminate]. cbn [rbind] in H.
  pose proof (renormd_ct _ _ _ _ _ _ R Hct) as H1. destruct q; [injection H as _ <- _; exact H1|].
  destruct (decode_pixel d1 cx) as [[p d2]|] eqn:P; [|discriminate]. cbn [rbind] in H. injection H as _ <- _.
  destruct (pixel_ct _ _ _ _ P) as [-> _]. exact H1.
Qed.
