(** t85_analyse_header(). *)
From Verif Require Import Base Bits Arith_model T85_enc_model T85_dec_model T85_spec T85_hdr_model T38_proofs Arith_enc_proofs T85_pscd_proofs T85_safe_proofs T85_turn_proofs T85_lossless_proofs T85_image_proofs.
From Coq Require Import ZifyBool ZifyNat.
Local Open Scope Z_scope.

Lemma net32_at_ok data k : 0 <= k -> k + 4 <= Z.of_nat (length data) -> net32_at data k = Ok (get32 (firstn 4 (skipn (Z.to_nat k) data))).
Proof. intros H1 H2. unfold net32_at. rewrite aslice_in by lia. reflexivity. Qed.

Lemma scan_ends data skip : net32_at data 2 = Ok skip -> 0 <= skip -> skip + 6 < 4294967296 -> Z.of_nat (length data) < 4294967294 ->
  forall n i l, 20 <= i -> (0 < n)%nat -> Z.of_nat (length data) - i < Z.of_nat n -> exists l', newlen_scan n data i l = Some (Ok l').
Proof.
  intros ES S0 S1 HL. induction n as [|n IH]; intros i l Hi H0 Hn.
  - exfalso. lia.
  - cbn [newlen_scan]. destruct (Z.ltb_spec i (Z.of_nat (length data) - 6)) as [L|L]; [|eexists; reflexivity].
    rewrite aget_ok by lia. assert (N : forall k, 1 <= k -> i + k <= Z.of_nat (length data) + 8 -> i + k < 4294967296 -> exists l', newlen_scan n data (u32 (i + k)) l = Some (Ok l')).
    { intros k Hk Hk2 Hk3. unfold u32. rewrite Z.mod_small by lia. apply IH; lia. }
    destruct (_ =? T82_ESC); [|apply N; lia]. rewrite aget_ok by lia.
    destruct (_ =? T82_COMMENT).
    { rewrite ES. unfold u32 at 1. rewrite Z.mod_small by lia. destruct (Z.ltb_spec (Z.of_nat (length data) - i) (skip + 6)); [eexists; reflexivity|].
      replace (u32 (u32 (i + u32 (6 + skip - 1)) + 1)) with (u32 (i + (6 + skip))); [apply N; lia|]. unfold u32. rewrite !Z.mod_small; lia. }
    destruct (_ =? T82_ATMOVE). { apply N; lia. }
    destruct (_ =? T82_NEWLEN). { rewrite net32_at_ok by lia. eexists; reflexivity. }
    apply N; lia.
Qed.

Lemma analyse_ends data : bytes data -> Z.of_nat (length data) < 4294967294 -> get32 (firstn 4 (skipn 2 data)) + 6 < 4294967296 ->
  exists turns r, t85_analyse_header turns data = Some (Ok r).
Proof.
  intros HB HL HS. exists (S (length data)). unfold t85_analyse_header. destruct (Z.ltb_spec (Z.of_nat (length data)) 20) as [L|L]; [eexists; reflexivity|].
  rewrite !net32_at_ok, aget_ok by lia. destruct (opt _ _); [|eexists; reflexivity].
  assert (E2 : net32_at data 2 = Ok (get32 (firstn 4 (skipn 2 data)))) by (apply net32_at_ok; lia).
  assert (S0 : 0 <= get32 (firstn 4 (skipn 2 data))) by (apply get32_nonneg; apply bytes_firstn; unfold bytes in *; rewrite <- (firstn_skipn 2 data) in HB; apply Forall_app in HB; apply HB).
  match goal with |- context [newlen_scan _ _ 20 ?x] => destruct (scan_ends data _ E2 S0 HS HL (S (length data)) 20 x ltac:(lia) ltac:(lia) ltac:(lia)) as (l' & ->) end. eexists. reflexivity.
Qed.

(** An image that keeps it busy for ever. *)
Definition endless : list Z := [0; 0; 255; 255; 255; 250] ++ repeat 0 13 ++ [32] ++ [255; 7] ++ repeat 0 8.
Lemma endless_scan n : forall l, newlen_scan n endless 20 l = None.
Proof. induction n as [|n IH]; intros l; [reflexivity|]. exact (IH l). Qed.
Lemma analyse_endless turns : t85_analyse_header turns endless = None.
Proof.
  unfold t85_analyse_header. replace (Z.of_nat (length endless) <? 20) with false by reflexivity.
  replace (net32_at endless 6) with (@Ok Z 0) by reflexivity. replace (net32_at endless 10) with (@Ok Z 0) by reflexivity. replace (aget endless 19) with (@Ok Z 32) by reflexivity.
  replace (opt 32 T85_VLENGTH) with true by reflexivity. rewrite endless_scan. reflexivity.
Qed.

Lemma width_wrong c o ydh P turns b w' l' : 0 <= xd c < 65536 -> 0 <= ydh < 65536 -> (20 <= length P)%nat -> firstn 20 P = bih c o ydh ->
  t85_analyse_header turns P = Some (Ok (b, w', l')) -> w' = 65536 * xd c.
Proof.
  intros HW HY HL E. unfold t85_analyse_header. replace (Z.of_nat (length P) <? 20) with false by lia.
  rewrite !net32_at_ok by lia. change (Z.to_nat 6) with 6%nat.
  assert (EW : firstn 4 (skipn 6 P) = [u8 (Z.shiftr (xd c) 8); u8 (xd c); u8 (Z.shiftr ydh 24); u8 (Z.shiftr ydh 16)]).
  { rewrite <- (firstn_skipn 20 P), E. reflexivity. }
  rewrite EW.
  assert (EG : get32 [u8 (Z.shiftr (xd c) 8); u8 (xd c); u8 (Z.shiftr ydh 24); u8 (Z.shiftr ydh 16)] = 65536 * xd c).
  { assert (X : get32 (net32 (65536 * xd c)) = 65536 * xd c) by (apply get32_net32; lia). rewrite <- X at 1. f_equal. unfold net32, u8. rewrite !Z.shiftr_div_pow2 by lia.
    change (2 ^ 8) with 256. change (2 ^ 24) with 16777216. change (2 ^ 16) with 65536. assert (Y1 : ydh / 16777216 = 0) by (apply Z.div_small; lia). assert (Y2 : ydh / 65536 = 0) by (apply Z.div_small; lia). rewrite Y1, Y2.
    assert (X1 : 65536 * xd c / 16777216 = xd c / 256) by (Z.div_mod_to_equations; lia). assert (X2 : 65536 * xd c / 65536 = xd c) by (Z.div_mod_to_equations; lia).
    assert (X3 : (65536 * xd c / 256) mod 256 = 0) by (Z.div_mod_to_equations; lia). assert (X4 : (65536 * xd c) mod 256 = 0) by (Z.div_mod_to_equations; lia). rewrite X1, X2, X3, X4. reflexivity. }
  rewrite EG. destruct (aget P 19) as [q|]; [|discriminate]. destruct (opt q T85_VLENGTH).
  - destruct (newlen_scan _ _ _ _) as [[l1|]|]; intros H; try discriminate. injection H as _ <- _. reflexivity.
  - intros H. injection H as _ <- _. reflexivity.
Qed.
