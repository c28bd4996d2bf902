(** Two-dimensional coding: the code sequence of a row, and its decoding. *)
From Coq Require Import ZifyBool ZifyNat.
From Verif Require Import Base Bits T4_tables T4_enc_model T4_dec_model T4_spec T4_runs_proofs T4_bits_proofs T4_step_proofs T4_code_proofs T4_span_proofs T4_paint_proofs T4_row_proofs.

(** the changing element with index [j]; -1 before the row, [w] after its end *)
Definition at_ (l : list Z) (w j : Z) : Z := if j <? 0 then -1 else nth (Z.to_nat j) l w.
Lemma at_neg l w j : j < 0 -> at_ l w j = -1. Proof. unfold at_. destruct (Z.ltb_spec j 0); lia. Qed.
Lemma at_big l w j : Z.of_nat (length l) <= j -> at_ l w j = w.
Proof. unfold at_. destruct (Z.ltb_spec j 0); [lia|]. intros. apply nth_overflow. lia. Qed.
Lemma asc_last l : forall lo w, asc lo l w -> nth (length l - 1) l w = w.
Proof.
  induction l as [|t l IH]; intros lo w H; [destruct H|]. cbn [asc] in H. destruct H as [H1 H2]. destruct l as [|u l]; [cbn; auto|].
  destruct H2 as [H2 H3]. specialize (IH _ _ H3). cbn [length] in *. replace (S (S (length l)) - 1)%nat with (S (S (length l) - 1)) by lia. exact IH.
Qed.
Lemma asc_nth l : forall lo w k, asc lo l w -> (k < length l)%nat ->
  lo < nth k l w <= w /\ ((S k < length l)%nat -> nth k l w < nth (S k) l w).
Proof.
  induction l as [|t l IH]; intros lo w k H Hk; [destruct H|]. cbn [asc] in H. destruct H as [H1 H2].
  destruct l as [|u l].
  - cbn [length] in Hk. assert (k = 0)%nat by lia. subst k. cbn [nth length]. split; lia.
  - destruct H2 as [H2 H3]. destruct k as [|k].
    + destruct (IH _ _ 0%nat H3) as [P1 P2]; [cbn [length]; lia|]. cbn [nth] in *. split; [lia|]. intros _. lia.
    + destruct (IH _ _ k H3) as [P1 P2]; [cbn [length] in *; lia|]. split; [cbn [nth]; cbn [nth] in P1; lia|]. intros HH. apply P2. cbn [length] in *. lia.
Qed.
Section AT.
Variables (l : list Z) (w : Z).
Hypothesis (Hw : 0 < w) (Hl : asc (-1) l w).
Let n := Z.of_nat (length l).
Lemma at_last : at_ l w (n - 1) = w.
Proof. unfold at_, n. destruct l as [|x l'] eqn:El; [destruct Hl|]. destruct (Z.ltb_spec (Z.of_nat (length (x :: l')) - 1) 0); [cbn [length] in *; lia|].
  replace (Z.to_nat _) with (length (x :: l') - 1)%nat by lia. eapply asc_last; eauto. Qed.
Lemma at_ge j : n - 1 <= j -> at_ l w j = w.
Proof. intros H. destruct (Z.eq_dec j (n - 1)) as [->|]; [apply at_last|]. apply at_big. unfold n in *. lia. Qed.
Lemma at_range j : -1 <= at_ l w j <= w.
Proof. destruct (Z.ltb_spec j 0); [rewrite at_neg; lia|]. destruct (Z.leb_spec (n - 1) j); [rewrite at_ge; lia|].
  unfold at_. destruct (Z.ltb_spec j 0); [lia|]. destruct (asc_nth l (-1) w (Z.to_nat j) Hl); [unfold n in *; lia|]. lia. Qed.
Lemma at_nonneg j : 0 <= j -> 0 <= at_ l w j.
Proof. intros H. destruct (Z.leb_spec (n - 1) j); [rewrite at_ge; lia|].
  unfold at_. destruct (Z.ltb_spec j 0); [lia|]. destruct (asc_nth l (-1) w (Z.to_nat j) Hl); [unfold n in *; lia|]. lia. Qed.
Lemma at_step j : at_ l w j <= at_ l w (j + 1) /\ (-1 <= j -> at_ l w j < w -> at_ l w j < at_ l w (j + 1)).
Proof.
  destruct (Z.ltb_spec j 0).
  - rewrite (at_neg l w j) by lia. pose proof (at_range (j + 1)). split; [lia|]. intros. assert (j = -1) by lia. subst. pose proof (at_nonneg 0). change (-1 + 1) with 0. lia.
  - destruct (Z.leb_spec (n - 1) j); [rewrite !at_ge by lia; split; lia|]. unfold at_. destruct (Z.ltb_spec j 0); [lia|]. destruct (Z.ltb_spec (j + 1) 0); [lia|].
    destruct (asc_nth l (-1) w (Z.to_nat j) Hl) as [P1 P2]; [unfold n in *; lia|]. replace (Z.to_nat (j + 1)) with (S (Z.to_nat j)) by lia.
    specialize (P2 ltac:(unfold n in *; lia)). split; lia.
Qed.
Lemma at_mono j k : j <= k -> at_ l w j <= at_ l w k.
Proof.
  intros H. replace k with (j + Z.of_nat (Z.to_nat (k - j))) by lia. generalize (Z.to_nat (k - j)) as d.
  induction d as [|d IH]; [rewrite Z.add_0_r; lia|]. replace (j + Z.of_nat (S d)) with (j + Z.of_nat d + 1) by lia. pose proof (at_step (j + Z.of_nat d)). lia.
Qed.
Lemma at_lt_w j : at_ l w j < w -> j < n - 1.
Proof. intros H. destruct (Z.ltb_spec j (n - 1)); auto. rewrite at_ge in H; lia. Qed.
Lemma at_lt_idx j k : at_ l w j < at_ l w k -> j < k.
Proof. intros H. destruct (Z.ltb_spec j k); auto. pose proof (at_mono k j). lia. Qed.
Lemma at_in j : 0 <= j < n -> nth_error l (Z.to_nat j) = Some (at_ l w j).
Proof. intros H. unfold at_. destruct (Z.ltb_spec j 0); [lia|]. apply nth_error_nth'. unfold n in *. lia. Qed.
End AT.

(** [j] is the index of b1 for a0 = [a] when [i] is the index of a1 *)
Definition isB (R : list Z) (w j i a : Z) : Prop := (j - i) mod 2 = 0 /\ 0 <= j /\ a < at_ R w j /\ at_ R w (j - 2) <= a.
Definition mbits (k : Z) : list bool := cbits (tnth t4_2d_codes k).
Inductive codes (w : Z) (R T : list Z) : Z -> Z -> list bool -> Prop :=
| c_done a i : w <= a -> codes w R T a i []
| c_vert a i j l : a < w -> isB R w j i a -> at_ T w i <= at_ R w (j + 1) -> Z.abs (at_ R w j - at_ T w i) <= 3 ->
    codes w R T (at_ T w i) (i + 1) l -> codes w R T a i (mbits (at_ R w j - at_ T w i + 3) ++ l)
| c_horiz a i j l : a < w -> isB R w j i a -> at_ T w i <= at_ R w (j + 1) -> 3 < Z.abs (at_ R w j - at_ T w i) ->
    codes w R T (at_ T w (i + 1)) (i + 2) l ->
    codes w R T a i (mbits 7 ++ span_bits (rtab (Z.odd i)) (at_ T w i - Z.max 0 a) ++ span_bits (rtab (negb (Z.odd i))) (at_ T w (i + 1) - at_ T w i) ++ l)
| c_pass a i j l : a < w -> isB R w j i a -> at_ R w (j + 1) < at_ T w i ->
    codes w R T (at_ R w (j + 1)) i l -> codes w R T a i (mbits 8 ++ l).

Lemma mode_ok k : 0 <= k <= 8 -> code_ok 7 mode_tree (mode_entry (Z.to_nat k)) (mbits k) = true.
Proof.
  intros H. pose proof mode_codes_ok as HH. rewrite forallb_forall in HH. apply (HH (Z.to_nat k)). apply in_seq. lia.
Qed.
Lemma mode_step C k rest r' C' : 0 <= k <= 8 -> 0 <= c_eols C -> c_skip C = 0 -> r_2d (c_row C) = true -> r_bw (c_row C) = 0 -> r_len (c_row C) < c_w C ->
  Gap rest -> (12 <= length rest)%nat -> code_2d (c_w C) (c_row C) (mode_entry (Z.to_nat k)) = Ok r' -> t6end C (clip (c_w C) r') = Ok C' ->
  csteps C (mbits k ++ rest) C' rest.
Proof.
  intros Hk He Hs H2 Hb Hl Hg Hr Hc Ht. pose proof (mode_ok k Hk) as Hok. destruct (code_ok_parts _ _ _ _ Hok) as (P1 & P2 & P3 & P4 & P5).
  destruct (t6end_fields _ _ _ Ht) as (F1 & F2 & F3 & F4). apply consume; auto.
  rewrite (core_code_through C _ r' (Z.of_nat (length (mbits k)))); auto; [rewrite Ht; reflexivity|].
  unfold decode_code. rewrite H2, Hb. cbn [andb Z.eqb].
  pose proof (lookup 7 t4_2d_table (mbits k) (mode_entry (Z.to_nat k)) rest) as HH. change (Z.ones (Z.of_nat 7)) with 0x7F in HH.
  rewrite HH; [|reflexivity| |exact P5|rewrite app_length; lia|lia].
  - cbn [rbind]. destruct (Z.leb_spec (c_w C) (r_len (c_row C))); [lia|]. rewrite Hc. cbn [rbind]. rewrite P4. reflexivity.
  - rewrite mode_tree_ok. unfold code_ok in Hok. rewrite !andb_true_iff in Hok. apply Hok.
Qed.
Lemma codes_gap w R T a i l rest : codes w R T a i l -> a < w -> Gap (l ++ rest).
Proof.
  intros H Ha. inversion H; subst; try lia; rewrite <- ?app_assoc; apply gap_app.
  - eapply code_ok_parts, (mode_ok (at_ R w j - at_ T w i + 3)). lia.
  - eapply code_ok_parts, (mode_ok 7). lia.
  - eapply code_ok_parts, (mode_ok 8). lia.
Qed.
Lemma codes_gap' w R T a i l rest : codes w R T a i l -> Gap rest -> Gap (l ++ rest).
Proof. intros H Hg. destruct (Z.ltb_spec a w); [eapply codes_gap; eauto|]. inversion H; subst; try lia. exact Hg. Qed.

(** what the end of a row leads to *)
Definition after (w : Z) (C : core) (row : list Z) (rows : list (list Z)) (C' : core) : Prop :=
  c_enc C' = c_enc C /\ r_2d (c_row C') = true /\
  (if c_enc C =? T6 then ready w 0 C' (transitions w row) (rows ++ [row]) else full w C' (transitions w row) rows).
Lemma clip_full w r T : fullrow w r T -> fullrow w (clip w r) T.
Proof. unfold clip. destruct (w <=? r_a0 r); auto. intros [F1 F2 F3 F4 F5 F6 F7]. constructor; auto. Qed.
Lemma finish C r w row rows : 0 < w -> w mod 8 = 0 -> row_ok w row -> c_w C = w -> c_eols C = 0 -> imgok w (c_img C) rows ->
  fullrow w r (transitions w row) -> r_2d r = true -> exists C', t6end C r = Ok C' /\ after w C row rows C'.
Proof.
  intros Hw H8 Hrow HC He Him Hf H2. unfold t6end, after. destruct (Z.eqb_spec (c_enc C) T6).
  - destruct Hf as [F1 F2 F3 F4 [j F5] F6 F7]. rewrite F3, HC, F1. destruct (Z.leb_spec w w); [|lia]. cbn [Z.eqb andb]. rewrite F2. cbn [Z.ltb Z.compare rbind].
    destruct (put_row_ok w r (c_img C) row rows j) as (im' & j' & P1 & P2 & P3); auto. rewrite P1. cbn [rbind]. eexists. split; [reflexivity|].
    split; [reflexivity|]. split; [exact H2|]. constructor; cbn [c_set c_w c_eols c_skip c_row c_img row_start r_len r_run r_bw r_black r_a0 r_ac r_bc r_b1 r_ref r_cur]; auto; [eauto|].
    apply trans_asc; auto; lia.
  - cbn [andb rbind]. eexists. split; [reflexivity|]. split; [reflexivity|]. split; [exact H2|]. constructor; auto.
Qed.

Record d2 (w : Z) (R T : list Z) (rows : list (list Z)) (C : core) (a i : Z) (b : Z) : Prop := {
  d_w : c_w C = w; d_e : c_eols C = 0; d_k : c_skip C = 0; d_2 : r_2d (c_row C) = true; d_bw : r_bw (c_row C) = 0;
  d_len : r_len (c_row C) = Z.max 0 (at_ T w (i - 1)); d_run : r_run (c_row C) = Z.max 0 a - Z.max 0 (at_ T w (i - 1));
  d_a0 : r_a0 (c_row C) = Z.max 0 a; d_ac : r_ac (c_row C) = i; d_bc : r_bc (c_row C) = b + 1; d_b1 : r_b1 (c_row C) = Z.max 0 (at_ R w b);
  d_par : (b - i) mod 2 = 0; d_bge : -1 <= b; d_ble : at_ R w (b - 2) <= a; d_b0 : i = 0 -> a < at_ R w b;
  d_cur : exists j, r_cur (c_row C) = runs 0 (firstn (Z.to_nat i) T) ++ j;
  d_curl : Z.of_nat (length (r_cur (c_row C))) = w + 4; d_refl : Z.of_nat (length (r_ref (c_row C))) = w + 4;
  d_ref : exists j, r_ref (c_row C) = runs 0 R ++ 0 :: 0 :: j; d_img : imgok w (c_img C) rows;
  d_i : 0 <= i; d_a : -1 <= a < w; d_lo : at_ T w (i - 1) <= a; d_hi : a < at_ T w i }.

Lemma runs_nth R : forall p k w, (k < length R)%nat -> nth k (runs p R) 0 = nth k R w - (match k with O => p | S k' => nth k' R w end).
Proof.
  induction R as [|t R IH]; intros p k w H; [cbn [length] in H; lia|]. cbn [runs]. destruct k as [|k]; [reflexivity|].
  cbn [nth]. cbn [length] in H. rewrite (IH t k w) by lia. destruct k; reflexivity.
Qed.
Lemma ref_get R w j : 0 < w -> asc (-1) R w -> forall ref, ref = runs 0 R ++ 0 :: 0 :: j -> forall k, 0 <= k <= Z.of_nat (length R) + 1 ->
  aget ref k = Ok (at_ R w k - Z.max 0 (at_ R w (k - 1))).
Proof.
  intros Hw Hasc ref -> k Hk. unfold aget, in_bounds. rewrite app_length, runs_length. cbn [length].
  destruct (Z.leb_spec 0 k); [|lia]. destruct (Z.ltb_spec k (Z.of_nat (length R + S (S (length j))))); [|lia]. cbn [andb]. f_equal.
  destruct (Z.ltb_spec k (Z.of_nat (length R))).
  - rewrite app_nth1 by (rewrite runs_length; lia). rewrite (runs_nth R 0 _ w) by lia. unfold at_. destruct (Z.ltb_spec k 0); [lia|].
    destruct (Z.to_nat k) as [|k'] eqn:Ek.
    + destruct (Z.ltb_spec (k - 1) 0); lia.
    + destruct (Z.ltb_spec (k - 1) 0); [lia|]. replace (Z.to_nat (k - 1)) with k' by lia. 
      pose proof (asc_nth R (-1) w k' Hasc ltac:(lia)). lia.
  - rewrite app_nth2 by (rewrite runs_length; lia). rewrite runs_length. rewrite (at_ge R w Hw Hasc k) by lia. rewrite (at_ge R w Hw Hasc (k - 1)) by lia.
    assert (k = Z.of_nat (length R) \/ k = Z.of_nat (length R) + 1) as [-> | ->] by lia.
    + replace (Z.to_nat _ - _)%nat with 0%nat by lia. cbn [nth]. lia.
    + replace (Z.to_nat _ - _)%nat with 1%nat by lia. cbn [nth]. lia.
Qed.
Lemma isB_le R w j i a : 0 < w -> asc (-1) R w -> a < w -> isB R w j i a -> j <= Z.of_nat (length R).
Proof. intros Hw Hasc Ha (P1 & P2 & P3 & P4). pose proof (at_lt_w R w Hw Hasc (j - 2)). lia. Qed.
Lemma mod2_step x y : (x - y) mod 2 = 0 -> x < y -> x + 2 <= y.
Proof. intros. Z.div_mod_to_equations. lia. Qed.
Lemma move_ok R w jj ref a j i : 0 < w -> asc (-1) R w -> ref = runs 0 R ++ 0 :: 0 :: jj -> 0 <= a < w -> isB R w j i a ->
  forall fuel b, (b - i) mod 2 = 0 -> -1 <= b -> at_ R w (b - 2) <= a -> j - b < Z.of_nat fuel -> move_b1 fuel ref a (Z.max 0 (at_ R w b)) (b + 1) = Ok (at_ R w j, j + 1).
Proof.
  intros Hw Hasc Href Ha HB. pose proof (isB_le R w j i a Hw Hasc ltac:(lia) HB) as Hjm. destruct HB as (P1 & P2 & P3 & P4).
  induction fuel as [|fuel IH]; intros b Hp Hb Hle Hf.
  - assert (b <= j). { destruct (Z.leb_spec b j); auto. pose proof (mod2_step j b ltac:(clear - Hp P1; Z.div_mod_to_equations; lia) ltac:(lia)). pose proof (at_mono R w Hw Hasc j (b - 2) ltac:(lia)). lia. }
    lia.
  - assert (Hbj : b <= j). { destruct (Z.leb_spec b j); auto. pose proof (mod2_step j b ltac:(clear - Hp P1; Z.div_mod_to_equations; lia) ltac:(lia)). pose proof (at_mono R w Hw Hasc j (b - 2) ltac:(lia)). lia. }
    cbn [move_b1]. destruct (Z.eq_dec b j) as [->|Hne].
    + destruct (Z.ltb_spec a (Z.max 0 (at_ R w j))); [|lia]. do 2 f_equal. lia.
    + pose proof (mod2_step b j ltac:(clear - Hp P1; Z.div_mod_to_equations; lia) ltac:(lia)) as Hb2. pose proof (at_mono R w Hw Hasc b (j - 2) ltac:(lia)) as Hm.
      destruct (Z.ltb_spec a (Z.max 0 (at_ R w b))); [lia|].
      rewrite (ref_get R w jj Hw Hasc ref Href (b + 1)) by lia. rewrite (ref_get R w jj Hw Hasc ref Href (b + 1 + 1)) by lia. cbn [rbind].
      replace (b + 1 - 1) with b by lia. replace (b + 1 + 1 - 1) with (b + 1) by lia. replace (b + 1 + 1) with (b + 2) by lia. replace (b + 1 + 2) with (b + 2 + 1) by lia.
      pose proof (at_nonneg R w Hw Hasc (b + 1) ltac:(lia)). pose proof (at_nonneg R w Hw Hasc (b + 2) ltac:(lia)).
      replace (Z.max 0 (at_ R w b) + (at_ R w (b + 1) - Z.max 0 (at_ R w b) + (at_ R w (b + 2) - Z.max 0 (at_ R w (b + 1))))) with (Z.max 0 (at_ R w (b + 2))) by lia.
      apply IH; [clear - Hp; Z.div_mod_to_equations; lia|lia| |lia]. replace (b + 2 - 2) with b by lia. lia.
Qed.

Lemma runs_snoc T w i : (i < length T)%nat -> forall p, runs p (firstn (S i) T) = runs p (firstn i T) ++ [nth i T w - (match i with O => p | S k => nth k T w end)].
Proof.
  revert i; induction T as [|t T IH]; intros i H p; [cbn [length] in H; lia|]. destruct i as [|i]; [reflexivity|].
  cbn [length] in H. cbn [firstn runs app nth]. f_equal. change (match T with [] => [] | a :: l => a :: firstn i l end) with (firstn (S i) T). rewrite IH by lia. destruct i; reflexivity.
Qed.
(** storing the run that ends at [at_ T w i] *)
Lemma store_run w T i cur j : 0 < w -> asc (-1) T w -> 0 <= i < Z.of_nat (length T) -> cur = runs 0 (firstn (Z.to_nat i) T) ++ j -> Z.of_nat (length cur) = w + 4 ->
  exists j', aset cur i (at_ T w i - Z.max 0 (at_ T w (i - 1))) = Ok (runs 0 (firstn (Z.to_nat (i + 1)) T) ++ j') /\ Z.of_nat (length (runs 0 (firstn (Z.to_nat (i + 1)) T) ++ j')) = w + 4.
Proof.
  intros Hw Hasc Hi -> Hlen. pose proof (asc_bound _ _ _ Hasc) as HB. rewrite app_length, runs_length, firstn_length in Hlen.
  destruct j as [|x j]; [cbn [length] in Hlen; lia|]. exists j.
  assert (Hi' : i = Z.of_nat (length (runs 0 (firstn (Z.to_nat i) T)))) by (rewrite runs_length, firstn_length; lia).
  assert (HS : runs 0 (firstn (Z.to_nat (i + 1)) T) = runs 0 (firstn (Z.to_nat i) T) ++ [at_ T w i - Z.max 0 (at_ T w (i - 1))]).
  { replace (Z.to_nat (i + 1)) with (S (Z.to_nat i)) by lia. rewrite (runs_snoc T w) by lia. do 2 f_equal. unfold at_. destruct (Z.ltb_spec i 0); [lia|]. f_equal.
    destruct (Z.to_nat i) as [|k] eqn:Ek; destruct (Z.ltb_spec (i - 1) 0); try lia. replace (Z.to_nat (i - 1)) with k by lia. pose proof (asc_nth T (-1) w k Hasc ltac:(lia)). lia. }
  rewrite HS, <- app_assoc. cbn [app]. split; [rewrite Hi' at 2; apply aset_app|]. rewrite app_length, runs_length, firstn_length. cbn [length] in *. lia.
Qed.

Lemma vert_entry k : 0 <= k <= 6 -> te_st (mode_entry (Z.to_nat k)) = S_Vert /\ te_param (mode_entry (Z.to_nat k)) = 3 - k.
Proof.
  intros H. assert (k = 0 \/ k = 1 \/ k = 2 \/ k = 3 \/ k = 4 \/ k = 5 \/ k = 6) as HH by lia. repeat (destruct HH as [->|HH]; [split; reflexivity|]). subst. split; reflexivity.
Qed.
Lemma d2_move w R T rows C a i b j : 0 < w -> asc (-1) R w -> asc (-1) T w -> d2 w R T rows C a i b -> isB R w j i a ->
  (if r_ac (c_row C) =? 0 then Ok (r_b1 (c_row C), r_bc (c_row C)) else move_b1 (S (length (r_ref (c_row C)))) (r_ref (c_row C)) (r_a0 (c_row C)) (r_b1 (c_row C)) (r_bc (c_row C))) = Ok (at_ R w j, j + 1).
Proof.
  intros Hw HR HT HD HB. pose proof HB as (B1 & B2 & B3 & B4).
  destruct HD as [D1 D2 D3 D4 D5 D6 D7 D8 D9 D10 D11 D12 D13 D14 D15 [jc D16] D17 D18 [jr D19] D20 D21 D22 D23 D24].
  pose proof (isB_le R w j i a Hw HR ltac:(lia) HB) as Hjm. rewrite D8, D9, D10, D11.
  pose proof (at_nonneg R w Hw HR j B2) as Hj0. destruct (Z.eqb_spec i 0) as [Ei|Ei].
  - specialize (D15 Ei). assert (b = j); [|subst b; do 2 f_equal; lia].
    assert (0 <= b) by (destruct (Z.ltb_spec b 0); [rewrite at_neg in D15 by lia; lia|lia]).
    destruct (Z.lt_trichotomy b j) as [Hx|[Hx|Hx]]; auto.
    + pose proof (mod2_step b j ltac:(clear - D12 B1; Z.div_mod_to_equations; lia) Hx). pose proof (at_mono R w Hw HR b (j - 2) ltac:(lia)). lia.
    + pose proof (mod2_step j b ltac:(clear - D12 B1; Z.div_mod_to_equations; lia) Hx). pose proof (at_mono R w Hw HR j (b - 2) ltac:(lia)). lia.
  - assert (0 <= a) by (pose proof (at_nonneg T w Hw HT (i - 1) ltac:(lia)); lia). rewrite (Z.max_r 0 a) by lia.
    apply (move_ok R w jr _ a j i); auto; try lia. pose proof (asc_bound _ _ _ HR). lia.
Qed.
Lemma codes_decode w R row rows a i l : 0 < w -> w mod 8 = 0 -> asc (-1) R w -> row_ok w row ->
  codes w R (transitions w row) a i l -> forall C b rest, d2 w R (transitions w row) rows C a i b -> Gap rest -> (12 <= length rest)%nat ->
  exists C', csteps C (l ++ rest) C' rest /\ after w C row rows C'.
Proof.
  intros Hw H8 HR Hrow Hc. pose proof (trans_asc w row ltac:(lia) Hrow) as HT. set (T := transitions w row) in *.
  assert (Hlast : at_ T w (Z.of_nat (length T) - 1) = w) by (apply at_last; auto).
  induction Hc as [a i Ha|a i j l Ha HB Hle Habs Hc IH|a i j l Ha HB Hle Habs Hc IH|a i j l Ha HB Hlt Hc IH]; intros C b rest HD Hg Hr.
  - destruct HD. lia.
  - (* vertical *)
    pose proof HB as (B1 & B2 & B3 & B4). pose proof (isB_le R w j i a Hw HR Ha HB) as Hjm.
    pose proof HD as [D1 D2 D3 D4 D5 D6 D7 D8 D9 D10 D11 D12 D13 D14 D15 [jc D16] D17 D18 [jr D19] D20 D21 D22 D23 D24].
    set (k := at_ R w j - at_ T w i + 3). assert (Hk : 0 <= k <= 6) by (unfold k; lia).
    assert (Hin : i < Z.of_nat (length T)).
    { destruct (Z.ltb_spec i (Z.of_nat (length T))); auto. rewrite (at_ge T w Hw HT (i - 1)) in D23 by lia. lia. }
    pose proof (at_range T w Hw HT i) as Hti. pose proof (at_nonneg T w Hw HT i ltac:(lia)) as Hti0.
    destruct (store_run w T i (r_cur (c_row C)) jc Hw HT ltac:(lia) D16 D17) as (jc' & SR1 & SR2).
    set (b' := if 3 - k <? 0 then j - 1 else j + 1).
    set (r' := mk_drow true (at_ T w i) 0 0 (r_black (c_row C)) (at_ T w i) (Z.max 0 (at_ R w b')) (i + 1) (b' + 1) (runs 0 (firstn (Z.to_nat (i + 1)) T) ++ jc') (r_ref (c_row C))).
    assert (Hcode : code_2d w (c_row C) (mode_entry (Z.to_nat k)) = Ok r').
    { unfold code_2d. rewrite D9, D8, D10, D11.
      pose proof (d2_move w R T rows C a i b j Hw HR HT HD HB) as Hmove. rewrite D8, D9, D10, D11 in Hmove.
      rewrite Hmove. cbn [rbind].
      assert (He : te_st (mode_entry (Z.to_nat k)) = S_Vert /\ te_param (mode_entry (Z.to_nat k)) = 3 - k).
      { apply vert_entry; lia. }
      destruct He as [-> ->]. cbn [r_set_b r_b1 r_a0 r_bc r_run].
      replace (at_ R w j + (3 - k)) with (at_ T w i) by (unfold k; lia).
      assert (Hcond : (at_ T w i <=? r_a0 (c_row C)) && ((at_ T w i <? r_a0 (c_row C)) || (1 <? j + 1)) = false).
      { rewrite D8. destruct (Z.leb_spec (at_ T w i) (Z.max 0 a)); [|reflexivity]. cbn [andb]. destruct (Z.ltb_spec (at_ T w i) (Z.max 0 a)); [lia|].
        destruct (Z.ltb_spec 1 (j + 1)); [|reflexivity]. exfalso. assert (a = -1) by lia. subst a.
        assert (Hi0 : i = 0). { destruct (Z.eq_dec i 0); auto. pose proof (at_nonneg T w Hw HT (i - 1) ltac:(lia)). lia. }
        assert (Hj1 : 1 <= j) by lia. assert (2 <= j) by (clear - B1 Hj1 Hi0; Z.div_mod_to_equations; lia). pose proof (at_nonneg R w Hw HR (j - 2) ltac:(lia)). lia. }
      rewrite Hcond. unfold add_run_to_row. cbn [r_set_a r_set_b r_2d r_len r_run r_bw r_black r_a0 r_b1 r_ac r_bc r_cur r_ref].
      rewrite D6, D7, D8. replace (Z.max 0 a - Z.max 0 (at_ T w (i - 1)) + (at_ T w i - Z.max 0 a)) with (at_ T w i - Z.max 0 (at_ T w (i - 1))) by lia.
      destruct (Z.leb_spec 0 (at_ T w i - Z.max 0 (at_ T w (i - 1)))); [|lia].
      replace (Z.max 0 (at_ T w (i - 1)) + (at_ T w i - Z.max 0 (at_ T w (i - 1)))) with (at_ T w i) by lia.
      destruct (Z.leb_spec (at_ T w i) w); [|lia]. cbn [andb]. rewrite D9, SR1. cbn [rbind r_2d r_len r_run r_bw r_black r_a0 r_b1 r_ac r_bc r_cur r_ref].
      pose proof (at_nonneg R w Hw HR j B2) as Hj0. unfold r', b'. destruct (Z.leb_spec 0 (3 - k)), (Z.ltb_spec (3 - k) 0); try lia.
      - rewrite (ref_get R w jr Hw HR _ D19) by lia. cbn [rbind]. replace (j + 1 - 1) with j by lia. unfold r_set_b. cbn [r_2d r_len r_run r_bw r_black r_a0 r_b1 r_ac r_bc r_cur r_ref].
        rewrite D4, D5. pose proof (at_nonneg R w Hw HR (j + 1) ltac:(lia)). do 2 f_equal; lia.
      - destruct (Z.eqb_spec (j + 1) 0); [lia|]. replace (j + 1 - 1) with j by lia. rewrite (ref_get R w jr Hw HR _ D19) by lia. cbn [rbind].
        unfold r_set_b. cbn [r_2d r_len r_run r_bw r_black r_a0 r_b1 r_ac r_bc r_cur r_ref]. rewrite D4, D5. do 2 f_equal; lia. }
    rewrite <- app_assoc.
    assert (Hlen : r_len (c_row C) < w) by lia.
    destruct (Z.eq_dec (at_ T w i) w) as [Hend|Hend].
    + assert (Hn : i = Z.of_nat (length T) - 1).
      { destruct (Z.lt_trichotomy i (Z.of_nat (length T) - 1)) as [Hx|[Hx|Hx]]; auto; [|lia]. exfalso.
        unfold at_ in Hend. destruct (Z.ltb_spec i 0); [lia|]. destruct (asc_nth T (-1) w (Z.to_nat i) HT) as [Q1 Q2]; [lia|]. specialize (Q2 ltac:(lia)).
        destruct (asc_nth T (-1) w (S (Z.to_nat i)) HT) as [Q3 _]; lia. }
      assert (Hl : l = []) by (inversion Hc; auto; lia). subst l. cbn [app].
      destruct (finish C (clip w r') w row rows) as (C' & G1 & G2); auto.
      { change (fullrow w (clip w r') T). apply clip_full. unfold r'.
        constructor; cbn [r_len r_run r_bw r_ac r_cur r_ref]; auto; try lia.
        exists jc'. replace (Z.to_nat (i + 1)) with (length T) by lia. rewrite firstn_all. reflexivity. }
      { unfold clip. destruct (_ <=? _); reflexivity. }
      exists C'. split; auto. rewrite <- D1 in *. eapply mode_step; eauto; lia.
    + assert (Hti' : at_ T w i < w) by lia. pose proof (at_lt_w T w Hw HT i Hti').
      assert (Ht : t6end C (clip w r') = Ok (c_set C 0 r' (c_img C) 0)).
      { unfold clip. destruct (Z.leb_spec w (r_a0 r')); [unfold r' in *; cbn [r_a0] in *; lia|]. rewrite t6end_no by (rewrite D1; unfold r'; cbn [r_len]; auto). rewrite D2. reflexivity. }
      destruct (IH (c_set C 0 r' (c_img C) 0) b' rest) as (C' & G1 & G2); auto.
      { constructor; cbn [c_set c_w c_eols c_skip c_row c_img r' r_2d r_len r_run r_bw r_black r_a0 r_b1 r_ac r_bc r_cur r_ref]; auto; replace (i + 1 - 1) with i by lia; try lia.
        all: try (exists jc'; reflexivity). all: try (exists jr; exact D19). all: try exact D20. all: try (pose proof (at_step T w Hw HT i); lia).
        all: try (unfold b'; destruct (3 - k <? 0); clear - B1; Z.div_mod_to_equations; lia).
        { unfold b'. destruct (3 - k <? 0); lia. }
        unfold b'. destruct (Z.ltb_spec (3 - k) 0).
          + replace (j - 1 - 2) with (j - 2 - 1) by lia. pose proof (at_mono R w Hw HR (j - 2 - 1) (j - 2) ltac:(lia)). lia.
          + replace (j + 1 - 2) with (j - 1) by lia. pose proof (at_mono R w Hw HR (j - 1) j ltac:(lia)). unfold k in *. lia. }
      exists C'. split; [|exact G2]. eapply csteps_trans; [|exact G1]. rewrite <- D1 in Ht, Hcode, Hlen. eapply mode_step; eauto; try lia.
      * eapply codes_gap'; eauto.
      * rewrite app_length. lia.
  - (* horizontal *)
    pose proof HB as (B1 & B2 & B3 & B4). pose proof (isB_le R w j i a Hw HR Ha HB) as Hjm.
    pose proof HD as [D1 D2 D3 D4 D5 D6 D7 D8 D9 D10 D11 D12 D13 D14 D15 [jc D16] D17 D18 [jr D19] D20 D21 D22 D23 D24].
    assert (Hin : i < Z.of_nat (length T)).
    { destruct (Z.ltb_spec i (Z.of_nat (length T))); auto. rewrite (at_ge T w Hw HT (i - 1)) in D23 by lia. lia. }
    pose proof (at_range T w Hw HT i) as Hti. pose proof (at_nonneg T w Hw HT i ltac:(lia)) as Hti0.
    destruct (store_run w T i (r_cur (c_row C)) jc Hw HT ltac:(lia) D16 D17) as (jc1 & SR1 & SR2).
    assert (Hlen : r_len (c_row C) < w) by lia.
    set (r1 := mk_drow true (r_len (c_row C)) (r_run (c_row C)) 2 (Z.odd i) (Z.max 0 a) (at_ R w j) i (j + 1) (r_cur (c_row C)) (r_ref (c_row C))).
    assert (Hcode : code_2d w (c_row C) (mode_entry (Z.to_nat 7)) = Ok r1).
    { unfold code_2d. pose proof (d2_move w R T rows C a i b j Hw HR HT HD HB) as Hmove. rewrite Hmove. cbn [rbind]. change (te_st (mode_entry (Z.to_nat 7))) with S_Horiz. cbn iota.
      unfold r1, r_set_h, r_set_b. cbn [r_2d r_len r_run r_bw r_black r_a0 r_b1 r_ac r_bc r_cur r_ref]. rewrite D4, D8, D9. reflexivity. }
    set (C1 := c_set C 0 r1 (c_img C) 0).
    rewrite <- !app_assoc.
    assert (S1 : forall rest', Gap rest' -> (12 <= length rest')%nat -> csteps C (mbits 7 ++ rest') C1 rest').
    { intros rest' Hg' Hr'. assert (Hc1 : clip w r1 = r1) by (unfold clip, r1; cbn [r_a0]; destruct (Z.leb_spec w (Z.max 0 a)); [lia|reflexivity]).
      eapply mode_step; eauto; rewrite ?D1; try lia; auto. rewrite Hc1, t6end_no by (right; left; discriminate). rewrite D2. reflexivity. }
    set (cur1 := runs 0 (firstn (Z.to_nat (i + 1)) T) ++ jc1) in *.
    set (r2 := mk_drow true (at_ T w i) 0 1 (negb (Z.odd i)) (Z.min (at_ T w i) (w - 1)) (at_ R w j) (i + 1) (j + 1) cur1 (r_ref (c_row C))).
    set (C2 := c_set C 0 r2 (c_img C) 0).
    assert (S2 : forall rest', Gap rest' -> (12 <= length rest')%nat -> csteps C1 (span_bits (rtab (Z.odd i)) (at_ T w i - Z.max 0 a) ++ rest') C2 rest').
    { intros rest' Hg' Hr'. pose proof (span_step (Z.to_nat (at_ T w i - Z.max 0 a)) C1 (Z.max 0 a) (at_ T w i - Z.max 0 a) rest' cur1 C2) as HS.
      change (r_black (c_row C1)) with (Z.odd i) in HS. change (r_len (c_row C1)) with (r_len (c_row C)) in HS. change (r_run (c_row C1)) with (r_run (c_row C)) in HS.
      change (c_w C1) with (c_w C) in HS. change (r_a0 (c_row C1)) with (Z.max 0 a) in HS. change (r_cur (c_row C1)) with (r_cur (c_row C)) in HS. change (r_ac (c_row C1)) with i in HS.
      change (c_eols C1) with 0 in HS. change (c_skip C1) with 0 in HS. rewrite D1, D6, D7 in HS. apply HS; auto; try lia.
      - right. change (2 <> 0). lia.
      - replace (Z.max 0 a - Z.max 0 (at_ T w (i - 1)) + (at_ T w i - Z.max 0 a)) with (at_ T w i - Z.max 0 (at_ T w (i - 1))) by lia. exact SR1.
      - rewrite t6end_no by (right; left; unfold runrow; cbn [r_bw]; discriminate). unfold C2, r2, c_set, runrow, C1, r1. cbn [c_enc c_w c_eols c_skip c_row c_img r_2d r_len r_run r_bw r_black r_a0 r_b1 r_ac r_bc r_cur r_ref]. do 2 f_equal. cbn [c_set c_row Z.eqb r_2d r_len r_run r_bw r_black r_a0 r_b1 r_ac r_bc r_cur r_ref]. rewrite D6, D7. f_equal; lia. }
    destruct (Z.eq_dec (at_ T w i) w) as [Hend|Hend].
    + assert (Hn : i = Z.of_nat (length T) - 1).
      { destruct (Z.lt_trichotomy i (Z.of_nat (length T) - 1)) as [Hx|[Hx|Hx]]; auto; [|lia]. exfalso.
        unfold at_ in Hend. destruct (Z.ltb_spec i 0); [lia|]. destruct (asc_nth T (-1) w (Z.to_nat i) HT) as [Q1 Q2]; [lia|]. specialize (Q2 ltac:(lia)).
        destruct (asc_nth T (-1) w (S (Z.to_nat i)) HT) as [Q3 _]; lia. }
      assert (Hi1 : at_ T w (i + 1) = w) by (apply at_ge; auto; lia).
      assert (Hl : l = []) by (inversion Hc; auto; lia). subst l. cbn [app]. rewrite Hi1, Hend, Z.sub_diag.
      set (r3 := r_set_h r2 (Z.odd i) 0).
      destruct (finish C r3 w row rows) as (C' & G1 & G2); auto.
      { change (fullrow w r3 T). unfold r3, r2. constructor; cbn [r_set_h r_len r_run r_bw r_ac r_cur r_ref]; auto; try lia.
        exists jc1. unfold cur1. replace (Z.to_nat (i + 1)) with (length T) by lia. rewrite firstn_all. reflexivity. }
      exists C'. split; auto.
      assert (Hz : span_bits (rtab (negb (Z.odd i))) 0 = cbits (tnth (rtab (negb (Z.odd i))) 0)) by (unfold span_bits, span_codes; cbn; apply app_nil_r).
      rewrite Hz.
      assert (S3 : csteps C2 (cbits (tnth (rtab (negb (Z.odd i))) 0) ++ rest) C' rest).
      { pose proof (term_full C2 rest C') as HS. change (r_black (c_row C2)) with (negb (Z.odd i)) in HS. change (r_len (c_row C2)) with (at_ T w i) in HS. 
        change (c_w C2) with (c_w C) in HS. change (r_a0 (c_row C2)) with (Z.min (at_ T w i) (w - 1)) in HS. change (r_bw (c_row C2)) with 1 in HS.
        change (c_eols C2) with 0 in HS. change (c_skip C2) with 0 in HS. rewrite D1 in HS. apply HS; auto; try lia.
        - right. change (1 <> 0). lia.
        - rewrite negb_involutive. cbn [Z.eqb]. change (1 - 1) with 0. change (c_row C2) with r2. fold r3. rewrite <- G1. unfold t6end, C2. cbn [c_set c_enc c_w c_img c_eols]. rewrite D2. reflexivity. }
      rewrite Hend in S2. eapply csteps_trans; [apply S1|]; [| |eapply csteps_trans; [apply S2|exact S3]].
      * apply gap_span. lia.
      * rewrite !app_length. lia.
      * rewrite <- Hz. apply gap_span. lia.
      * rewrite app_length. lia.
    + assert (Hti' : at_ T w i < w) by lia. pose proof (at_lt_w T w Hw HT i Hti') as Hin2. pose proof (at_step T w Hw HT i) as [_ Hstep]. specialize (Hstep ltac:(lia) Hti').
      pose proof (at_range T w Hw HT (i + 1)) as Hti1.
      destruct (store_run w T (i + 1) cur1 jc1 Hw HT ltac:(lia) eq_refl SR2) as (jc2 & SR3 & SR4). replace (i + 1 - 1) with i in SR3 by lia. replace (i + 1 + 1) with (i + 2) in SR3, SR4 by lia.
      set (cur2 := runs 0 (firstn (Z.to_nat (i + 2)) T) ++ jc2) in *.
      set (r3 := mk_drow true (at_ T w (i + 1)) 0 0 (Z.odd i) (Z.min (at_ T w (i + 1)) (w - 1)) (at_ R w j) (i + 2) (j + 1) cur2 (r_ref (c_row C))).
      assert (S3 : forall C3 rest', t6end C r3 = Ok C3 -> Gap rest' -> (12 <= length rest')%nat -> csteps C2 (span_bits (rtab (negb (Z.odd i))) (at_ T w (i + 1) - at_ T w i) ++ rest') C3 rest').
      { intros C3 rest' HC3 Hg' Hr'. pose proof (span_step (Z.to_nat (at_ T w (i + 1) - at_ T w i)) C2 (at_ T w i) (at_ T w (i + 1) - at_ T w i) rest' cur2 C3) as HS.
        change (r_black (c_row C2)) with (negb (Z.odd i)) in HS. change (r_len (c_row C2)) with (at_ T w i) in HS. 
        change (c_w C2) with (c_w C) in HS. change (r_a0 (c_row C2)) with (Z.min (at_ T w i) (w - 1)) in HS. change (r_run (c_row C2)) with 0 in HS. change (r_cur (c_row C2)) with cur1 in HS. change (r_ac (c_row C2)) with (i + 1) in HS.
        change (c_eols C2) with 0 in HS. change (c_skip C2) with 0 in HS. rewrite D1 in HS. apply HS; auto; try lia.
        - right. change (1 <> 0). lia.
        - rewrite Z.add_0_l. rewrite Z.max_r in SR3 by lia. exact SR3.
        - rewrite <- HC3. replace (runrow w _ _ _ _) with r3; [unfold t6end, C2; cbn [c_set c_enc c_w c_img c_eols]; rewrite D2; reflexivity|].
          unfold r3, runrow, C2, r2. cbn [c_set c_row r_2d r_len r_run r_bw r_black r_a0 r_b1 r_ac r_bc r_cur r_ref]. rewrite negb_involutive. cbn [Z.eqb]. f_equal; lia. }
      assert (HA : exists C3, t6end C r3 = Ok C3 /\ exists C', csteps C3 (l ++ rest) C' rest /\ after w C row rows C').
      { destruct (Z.eq_dec (at_ T w (i + 1)) w) as [Hend1|Hend1].
        - assert (Hn : i + 1 = Z.of_nat (length T) - 1).
          { destruct (Z.lt_trichotomy (i + 1) (Z.of_nat (length T) - 1)) as [Hx|[Hx|Hx]]; auto; [|lia]. exfalso.
            unfold at_ in Hend1. destruct (Z.ltb_spec (i + 1) 0); [lia|]. destruct (asc_nth T (-1) w (Z.to_nat (i + 1)) HT) as [Q1 Q2]; [lia|]. specialize (Q2 ltac:(lia)).
            destruct (asc_nth T (-1) w (S (Z.to_nat (i + 1))) HT) as [Q3 _]; lia. }
          destruct (finish C r3 w row rows) as (C' & G1 & G2); auto.
          { change (fullrow w r3 T). unfold r3. constructor; cbn [r_set_h r_len r_run r_bw r_ac r_cur r_ref]; auto; try lia.
            exists jc2. unfold cur2. replace (Z.to_nat (i + 2)) with (length T) by lia. rewrite firstn_all. reflexivity. }
          exists C'. split; auto. exists C'. split; auto. assert (Hl : l = []) by (inversion Hc; auto; lia). subst l. constructor.
        - assert (Hti2 : at_ T w (i + 1) < w) by lia. pose proof (at_step T w Hw HT (i + 1)) as [_ Hstep1]. specialize (Hstep1 ltac:(lia) Hti2). replace (i + 1 + 1) with (i + 2) in Hstep1 by lia.
          rewrite t6end_no by (rewrite D1; unfold r3; cbn [r_len]; auto). eexists. split; [reflexivity|].
          destruct (IH (c_set C (c_eols C) r3 (c_img C) 0) j rest) as (C' & G1 & G2); auto.
          { constructor; cbn [c_set c_w c_eols c_skip c_row c_img r3 r_2d r_len r_run r_bw r_black r_a0 r_b1 r_ac r_bc r_cur r_ref]; auto; replace (i + 2 - 1) with (i + 1) by lia; try lia.
            all: try (exists jc2; reflexivity). all: try (exists jr; exact D19). all: try exact D20. all: try (pose proof (at_nonneg R w Hw HR j B2); lia).
            all: try (clear - B1; Z.div_mod_to_equations; lia). }
          exists C'. split; auto. }
      destruct HA as (C3 & HC3 & C' & G1 & G2). exists C'. split; [|exact G2].
      eapply csteps_trans; [apply S1|]; [| |eapply csteps_trans; [apply S2|]; [| |eapply csteps_trans; [apply S3; eauto|exact G1]]].
      * apply gap_span. lia.
      * rewrite !app_length. lia.
      * apply gap_span. lia.
      * rewrite !app_length. lia.
      * eapply codes_gap'; eauto.
      * rewrite !app_length. lia.
  - (* pass *)
    pose proof HB as (B1 & B2 & B3 & B4). pose proof (isB_le R w j i a Hw HR Ha HB) as Hjm.
    pose proof HD as [D1 D2 D3 D4 D5 D6 D7 D8 D9 D10 D11 D12 D13 D14 D15 [jc D16] D17 D18 [jr D19] D20 D21 D22 D23 D24].
    pose proof (at_range T w Hw HT i) as Hti. pose proof (at_nonneg R w Hw HR j B2) as Hj0. pose proof (at_nonneg R w Hw HR (j + 1) ltac:(lia)) as Hj1.
    assert (Hjw : at_ R w (j + 1) < w) by lia. pose proof (at_lt_w R w Hw HR (j + 1) Hjw) as Hjm1.
    pose proof (at_step R w Hw HR j) as [_ Hs1]. assert (Hjw0 : at_ R w j < w) by (pose proof (at_mono R w Hw HR j (j + 1) ltac:(lia)); lia). specialize (Hs1 ltac:(lia) Hjw0).
    pose proof (at_step R w Hw HR (j + 1)) as [_ Hs2]. specialize (Hs2 ltac:(lia) Hjw). replace (j + 1 + 1) with (j + 2) in Hs2 by lia.
    assert (Hlen : r_len (c_row C) < w) by lia.
    set (r1 := mk_drow true (r_len (c_row C)) (r_run (c_row C) + (at_ R w (j + 1) - Z.max 0 a)) 0 (r_black (c_row C)) (at_ R w (j + 1)) (at_ R w (j + 2)) i (j + 2 + 1) (r_cur (c_row C)) (r_ref (c_row C))).
    assert (Hcode : code_2d w (c_row C) (mode_entry (Z.to_nat 8)) = Ok r1).
    { unfold code_2d. pose proof (d2_move w R T rows C a i b j Hw HR HT HD HB) as Hmove. rewrite Hmove. cbn [rbind]. change (te_st (mode_entry (Z.to_nat 8))) with S_Pass. cbn iota.
      unfold r1, r_set_a, r_set_b. cbn [r_2d r_len r_run r_bw r_black r_a0 r_b1 r_ac r_bc r_cur r_ref].
      rewrite (ref_get R w jr Hw HR _ D19 (j + 1)) by lia. cbn [rbind]. rewrite (ref_get R w jr Hw HR _ D19 (j + 1 + 1)) by lia. cbn [rbind].
      replace (j + 1 - 1) with j by lia. replace (j + 1 + 1 - 1) with (j + 1) by lia. replace (j + 1 + 1) with (j + 2) by lia. rewrite D4, D5, D8, D9. do 2 f_equal; lia. }
    rewrite <- app_assoc.
    assert (Ht : t6end C (clip w r1) = Ok (c_set C 0 r1 (c_img C) 0)).
    { unfold clip. destruct (Z.leb_spec w (r_a0 r1)); [unfold r1 in *; cbn [r_a0] in *; lia|]. rewrite t6end_no by (rewrite D1; unfold r1; cbn [r_len]; auto). rewrite D2. reflexivity. }
    destruct (IH (c_set C 0 r1 (c_img C) 0) (j + 2) rest) as (C' & G1 & G2); auto.
    { constructor; cbn [c_set c_w c_eols c_skip c_row c_img r1 r_2d r_len r_run r_bw r_black r_a0 r_b1 r_ac r_bc r_cur r_ref]; auto; try lia.
      all: try (exists jc; auto; fail). all: try (exists jr; exact D19). all: try exact D20.
      all: try (clear - B1; Z.div_mod_to_equations; lia). all: try (replace (j + 2 - 2) with j by lia; lia). }
    exists C'. split; [|exact G2]. eapply csteps_trans; [|exact G1]. rewrite <- D1 in Ht, Hcode, Hlen. eapply mode_step; eauto; try lia.
    * eapply codes_gap'; eauto.
    * rewrite app_length. lia.
Qed.
