From Verif Require Import Base Bert_model Bert_spec Bert_proofs Bert_rx_proofs.
Local Open Scope Z_scope.

(** the wrong ones among the first j bits *)
Definition cum (h : list bool) (j : Z) : Z := errors (skipn (Z.to_nat (Z.of_nat (length h) - j)) h).
Lemma errors_cons x h : errors (x :: h) = Z.b2z x + errors h.
Proof. unfold errors. destruct x; cbn [count_occ Z.b2z]; destruct (Bool.bool_dec _ _); try congruence; lia. Qed.
Lemma errors_app a b : errors (a ++ b) = errors a + errors b.
Proof. unfold errors. rewrite count_occ_app. lia. Qed.
Lemma cum_old x h j : j <= Z.of_nat (length h) -> cum (x :: h) j = cum h j.
Proof. intros L. unfold cum. cbn [length]. replace (Z.to_nat (Z.of_nat (S (length h)) - j)) with (S (Z.to_nat (Z.of_nat (length h) - j))) by lia. reflexivity. Qed.
Lemma cum_all h : cum h (Z.of_nat (length h)) = errors h.
Proof. unfold cum. rewrite Z.sub_diag. reflexivity. Qed.
Lemma cum_last h n : 0 <= n <= Z.of_nat (length h) -> errors (firstn (Z.to_nat n) h) = cum h (Z.of_nat (length h)) - cum h (Z.of_nat (length h) - n).
Proof. intros N. rewrite cum_all. unfold cum. replace (Z.of_nat (length h) - (Z.of_nat (length h) - n)) with n by lia. rewrite <- (firstn_skipn (Z.to_nat n) h) at 2. rewrite errors_app. lia. Qed.

Definition P (d : dec) (i : Z) : Z := nth (Z.to_nat i) (ptrs d) 0.
Definition Rw (d : dec) (i j : Z) : Z := nth (Z.to_nat j) (nth (Z.to_nat i) (bads d) []) 0.
Definition lev (C : Z -> Z) (d : dec) (m i : Z) : Prop :=
  P d i = (m / 10 ^ i) mod 10 /\ forall j, 0 <= j < P d i -> Rw d i j = C (m / 10 ^ (i + 1) * 10 ^ (i + 1) + (j + 1) * 10 ^ i) - C (m / 10 ^ (i + 1) * 10 ^ (i + 1) + j * 10 ^ i).
Lemma upd_nth {A} (l : list A) n k x d : (n < length l)%nat -> nth k (upd l n x) d = if Nat.eqb k n then x else nth k l d.
Proof. revert n k. induction l; intros [|n] [|k] H; cbn in *; try lia; try reflexivity. apply IHl. lia. Qed.
Lemma sum_telescope (F : Z -> Z) r : length r = 10%nat -> (forall j, 0 <= j < 10 -> nth (Z.to_nat j) r 0 = F (j + 1) - F j) -> sum r = F 10 - F 0.
Proof.
  intros L H. destruct r as [|a0 [|a1 [|a2 [|a3 [|a4 [|a5 [|a6 [|a7 [|a8 [|a9 [|]]]]]]]]]]]; try discriminate.
  assert (H0 : a0 = F 1 - F 0) by exact (H 0 ltac:(lia)). assert (H1 : a1 = F 2 - F 1) by exact (H 1 ltac:(lia)). assert (H2 : a2 = F 3 - F 2) by exact (H 2 ltac:(lia)). assert (H3 : a3 = F 4 - F 3) by exact (H 3 ltac:(lia)). assert (H4 : a4 = F 5 - F 4) by exact (H 4 ltac:(lia)).
  assert (H5 : a5 = F 6 - F 5) by exact (H 5 ltac:(lia)). assert (H6 : a6 = F 7 - F 6) by exact (H 6 ltac:(lia)). assert (H7 : a7 = F 8 - F 7) by exact (H 7 ltac:(lia)). assert (H8 : a8 = F 9 - F 8) by exact (H 8 ltac:(lia)). assert (H9 : a9 = F 10 - F 9) by exact (H 9 ltac:(lia)).
  unfold sum. cbn [fold_right]. clear H. lia.
Qed.
Fixpoint lv (n : nat) : list Z := match n with O => [] | S n => (7 - Z.of_nat n) :: lv n end.
(** arithmetic *)
Lemma div_pred m u : 0 < u -> m mod u <> 0 -> (m - 1) / u = m / u.
Proof. intros U N. pose proof (Z.div_mod m u ltac:(lia)). pose proof (Z.mod_pos_bound m u U). symmetry. apply Z.div_unique with (m mod u - 1); lia. Qed.
Lemma div_pred0 m u : 0 < u -> m mod u = 0 -> (m - 1) / u = m / u - 1.
Proof. intros U N. pose proof (Z.div_mod m u ltac:(lia)). symmetry. apply Z.div_unique with (u - 1); lia. Qed.
Lemma mod_up m i k : 0 <= i <= k -> m mod 10 ^ i <> 0 -> m mod 10 ^ k <> 0.
Proof. intros I N E. apply N. apply Z.mod_divide in E; [|apply Z.pow_nonzero; lia]. apply Z.mod_divide; [apply Z.pow_nonzero; lia|]. eapply Z.divide_trans; [|exact E]. exists (10 ^ (k - i)). rewrite <- Z.pow_add_r by lia. f_equal. lia. Qed.
Lemma lev_same C d m i : 2 <= i -> m mod 10 ^ i <> 0 -> lev C d (m - 1) i -> lev C d m i.
Proof.
  intros I N [A B]. assert (0 < 10 ^ i) by (apply Z.pow_pos_nonneg; lia). assert (0 < 10 ^ (i + 1)) by (apply Z.pow_pos_nonneg; lia). unfold lev. rewrite <- (div_pred m (10 ^ i)) by assumption. rewrite <- (div_pred m (10 ^ (i + 1))) by (try assumption; apply (mod_up m i); lia || assumption). split; [exact A | exact B].
Qed.
Lemma digit_step m i : 2 <= i -> m mod 10 ^ i = 0 ->
  let c := ((m - 1) / 10 ^ i) mod 10 in
  0 <= c < 10 /\
  (c + 1 < 10 -> (m / 10 ^ i) mod 10 = c + 1 /\ (m - 1) / 10 ^ (i + 1) = m / 10 ^ (i + 1) /\ m / 10 ^ (i + 1) * 10 ^ (i + 1) + c * 10 ^ i = m - 10 ^ i /\ m mod 10 ^ (i + 1) <> 0) /\
  (10 <= c + 1 -> (m / 10 ^ i) mod 10 = 0 /\ (m - 1) / 10 ^ (i + 1) * 10 ^ (i + 1) = m - 10 ^ (i + 1) /\ m mod 10 ^ (i + 1) = 0).
Proof.
  intros I N c. assert (U : 0 < 10 ^ i) by (apply Z.pow_pos_nonneg; lia). assert (V : 10 ^ (i + 1) = 10 * 10 ^ i) by (rewrite Z.pow_add_r by lia; lia). unfold c. rewrite (div_pred0 m (10 ^ i) U N). rewrite V. set (u := 10 ^ i) in *. assert (Hm : m = m / u * u) by (pose proof (Z.div_mod m u ltac:(lia)); lia). set (q := m / u) in *. clearbody q u.
  pose proof (Z.mod_pos_bound (q - 1) 10 ltac:(lia)) as R. assert (D : q - 1 = 10 * ((q - 1) / 10) + (q - 1) mod 10) by (apply Z.div_mod; lia). set (r := (q - 1) mod 10) in *. set (w := (q - 1) / 10) in *. clearbody r w. assert (Q : q = 10 * w + r + 1) by lia. subst q. clear D. subst m.
  split; [exact R|]. split.
  - intros L. assert (E1 : (10 * w + r + 1) mod 10 = r + 1) by (symmetry; apply Z.mod_unique with w; lia). assert (E2 : ((10 * w + r + 1) * u) / (10 * u) = w) by (symmetry; apply Z.div_unique with ((r + 1) * u); nia). assert (E3 : ((10 * w + r + 1) * u - 1) / (10 * u) = w) by (symmetry; apply Z.div_unique with ((r + 1) * u - 1); nia).
    assert (E4 : ((10 * w + r + 1) * u) mod (10 * u) = (r + 1) * u) by (symmetry; apply Z.mod_unique with w; nia). rewrite E1, E2, E3, E4. repeat split; try lia; nia.
  - intros L. assert (r = 9) by lia. subst r. assert (E1 : (10 * w + 9 + 1) mod 10 = 0) by (symmetry; apply Z.mod_unique with (w + 1); lia). assert (E3 : ((10 * w + 9 + 1) * u - 1) / (10 * u) = w) by (symmetry; apply Z.div_unique with (10 * u - 1); nia). assert (E4 : ((10 * w + 9 + 1) * u) mod (10 * u) = 0) by (symmetry; apply Z.mod_unique with (w + 1); nia). rewrite E1, E3, E4. repeat split; lia.
Qed.
Lemma assess_rate h n : (n <= 6)%nat -> forall d test, let i := 8 - Z.of_nat n in let m := Z.of_nat (length h) in let C := cum h in
  dec_ok d -> 0 < m -> m mod 10 ^ i = 0 -> (forall l, i <= l <= 7 -> lev C d (m - 1) l) -> (i <= 7 -> Rw d i (P d i) = C m - C (m - 10 ^ i)) ->
  exists d' e, assess (lv n) test d = Ok (d', e) /\ dec_ok d' /\ (forall l, i <= l <= 7 -> lev C d' m l) /\ (forall l, 2 <= l < i -> P d' l = P d l /\ forall j, Rw d' l j = Rw d l j) /\
    (i <= 7 -> Rw d' i (P d' i) = 0) /\
    (if test then rate d' = match grade h (lv n) with Some g => g | None => rate d end /\ e = match grade h (lv n) with Some g => if rate d =? g then [] else [Rate g] | None => [] end
     else rate d' = rate d /\ e = []).
Proof.
  induction n as [|n IH]; intros N d test i m C D M Mi Lv Cur; assert (D' := D); destruct D' as (A & B & Cl & E); cbn [lv assess grade].
  - rewrite aget_in by lia. cbn [rbind]. pose proof (ptr_range d 8 D ltac:(lia)) as Q. replace (10 <=? nth (Z.to_nat 8) (ptrs d) 0) with false by lia. cbn [rbind]. destruct test; eexists _, _; (split; [reflexivity|]); (split; [repeat split; assumption|]); (split; [intros l Hl; unfold i in Hl; lia|]); (split; [intros l _; split; reflexivity|]); (split; [intros Hi; unfold i in Hi; lia|]); split; reflexivity.
  - assert (Ei : 7 - Z.of_nat n = i) by (unfold i; lia). rewrite !Ei. assert (Ri : 2 <= i <= 7) by (unfold i; lia). assert (Li : lev C d (m - 1) i) by (apply Lv; lia). destruct Li as [L1 L2]. destruct (digit_step m i ltac:(lia) Mi) as (Dr & D1 & D2). rewrite aget_in by lia. cbn [rbind]. fold (P d i). rewrite aset_in by lia. cbn [rbind]. rewrite <- L1 in Dr, D1, D2.
    assert (Row : forall l, 0 <= l < 9 -> length (nth (Z.to_nat l) (bads d) []) = 10%nat) by (intros l Hl; apply (Forall_forall (fun r => length r = 10%nat) (bads d)); [exact E | apply nth_In; lia]).
    destruct (Z.ltb_spec (P d i + 1) 10) as [Lt|Lt].
    + destruct (row_set_in (bads d) i (P d i + 1) 0) as [R1 R2]; [lia | exact E | lia|]. rewrite R1. cbn [rbind]. eexists _, _. split; [reflexivity|]. destruct (D1 Lt) as (X1 & X2 & X3 & X4).
      assert (Pn : forall l, 0 <= l < 9 -> P {| ptrs := upd (ptrs d) (Z.to_nat i) (P d i + 1); bads := upd (bads d) (Z.to_nat i) (upd (nth (Z.to_nat i) (bads d) []) (Z.to_nat (P d i + 1)) 0); rate := rate d |} l = if l =? i then P d i + 1 else P d l).
      { intros l Hl. unfold P at 1. cbn [ptrs]. rewrite upd_nth by lia. replace (Nat.eqb (Z.to_nat l) (Z.to_nat i)) with (l =? i) by (destruct (Z.eqb_spec l i), (Nat.eqb_spec (Z.to_nat l) (Z.to_nat i)); lia || reflexivity). reflexivity. }
      assert (Rn : forall l j, 0 <= l < 9 -> 0 <= j -> Rw {| ptrs := upd (ptrs d) (Z.to_nat i) (P d i + 1); bads := upd (bads d) (Z.to_nat i) (upd (nth (Z.to_nat i) (bads d) []) (Z.to_nat (P d i + 1)) 0); rate := rate d |} l j = if (l =? i) && (j =? P d i + 1) then 0 else Rw d l j).
      { intros l j Hl Hj. unfold Rw. cbn [bads]. rewrite upd_nth by lia. destruct (Nat.eqb_spec (Z.to_nat l) (Z.to_nat i)) as [Q|Q].
        - assert (l = i) by lia. subst l. rewrite Z.eqb_refl. cbn [andb]. rewrite upd_nth by (rewrite Row by lia; lia). destruct (Nat.eqb_spec (Z.to_nat j) (Z.to_nat (P d i + 1))), (Z.eqb_spec j (P d i + 1)); try lia; reflexivity.
        - replace (l =? i) with false by lia. reflexivity. }
      set (d' := {| ptrs := _; bads := _; rate := _ |}) in *. split; [unfold dec_ok; cbn [d' ptrs bads]; rewrite !upd_len; refine (conj A (conj _ (conj Cl R2))); apply upd_all; [exact B | lia]|].
      split; [|split; [|split]].
      * intros l Hl. destruct (Z.eq_dec l i) as [->|Ne].
        -- split; [rewrite Pn, Z.eqb_refl by lia; lia|]. rewrite Pn, Z.eqb_refl by lia. intros j Hj. rewrite Rn by lia. replace (j =? P d i + 1) with false by lia. rewrite andb_false_r. destruct (Z.eq_dec j (P d i)) as [->|Nj].
           ++ rewrite Cur by lia. rewrite X3. f_equal. f_equal. lia.
           ++ rewrite L2 by lia. rewrite X2. reflexivity.
        -- assert (Ll : lev C d m l) by (apply lev_same; [lia | apply (mod_up m (i + 1)); [lia | exact X4] | apply Lv; lia]). destruct Ll as [Q1 Q2]. split; [rewrite Pn by lia; replace (l =? i) with false by lia; exact Q1|]. rewrite Pn by lia. replace (l =? i) with false by lia. intros j Hj. rewrite Rn by lia. replace (l =? i) with false by lia. cbn [andb]. apply Q2. exact Hj.
      * intros l Hl. split; [rewrite Pn by lia; replace (l =? i) with false by lia; reflexivity|]. intros j. unfold Rw. cbn [d' bads]. rewrite upd_nth by lia. replace (Nat.eqb (Z.to_nat l) (Z.to_nat i)) with false by (symmetry; apply Nat.eqb_neq; lia). reflexivity.
      * intros _. rewrite Pn, Z.eqb_refl by lia. rewrite Rn by lia. rewrite !Z.eqb_refl. reflexivity.
      * fold m. replace (m mod 10 ^ (i + 1) =? 0) with false by lia. destruct test; split; reflexivity.
    + destruct (D2 ltac:(lia)) as (X1 & X2 & X3). rewrite aset_in by (rewrite upd_len; lia). cbn [rbind]. rewrite row_get_in by lia. cbn [rbind]. destruct (row_set_in (bads d) i 0 0) as [R1 R2]; [lia | exact E | lia|]. rewrite R1. cbn [rbind].
      assert (U : 0 < 10 ^ i) by (apply Z.pow_pos_nonneg; lia). assert (V : 10 ^ (i + 1) = 10 * 10 ^ i) by (rewrite Z.pow_add_r by lia; lia). assert (P9 : P d i = 9) by lia.
      assert (Sum : sum (nth (Z.to_nat i) (bads d) []) = C m - C (m - 10 ^ (i + 1))).
      { rewrite (sum_telescope (fun j => C (m - 10 ^ (i + 1) + j * 10 ^ i))); [rewrite V; f_equal; f_equal; lia | apply Row; lia|]. intros j Hj. change (nth (Z.to_nat j) (nth (Z.to_nat i) (bads d) []) 0) with (Rw d i j). destruct (Z.eq_dec j 9) as [->|Nj]; [rewrite <- P9 at 1; rewrite Cur by lia; rewrite V; f_equal; f_equal; lia|]. rewrite L2 by lia. rewrite X2. reflexivity. }
      set (S := sum (nth (Z.to_nat i) (bads d) [])) in *.
      set (b := upd (bads d) _ _) in *. assert (Lb : length b = 9%nat) by (unfold b; rewrite upd_len; exact Cl).
      set (ps := upd (upd (ptrs d) _ _) _ _). assert (Lp : length ps = 9%nat) by (unfold ps; rewrite !upd_len; exact A).
      assert (Pn : forall l, 0 <= l < 9 -> nth (Z.to_nat l) ps 0 = if l =? i then 0 else P d l).
      { intros l Hl. unfold ps. rewrite !upd_nth by (rewrite ?upd_len; lia). replace (Nat.eqb (Z.to_nat l) (Z.to_nat i)) with (l =? i) by (destruct (Z.eqb_spec l i), (Nat.eqb_spec (Z.to_nat l) (Z.to_nat i)); lia || reflexivity). destruct (l =? i); reflexivity. }
      assert (Fp : Forall (fun x => 0 <= x < 10) ps).
      { apply Forall_forall. intros x Hx. apply (In_nth _ _ 0) in Hx as (k & Hk & <-). rewrite <- (Nat2Z.id k), Pn by lia. destruct (Z.of_nat k =? i); [lia|]. apply ptr_range; [exact D | lia]. }
      assert (Bn : forall l j, 0 <= l < 9 -> 0 <= j -> nth (Z.to_nat j) (nth (Z.to_nat l) b []) 0 = if (l =? i) && (j =? 0) then 0 else Rw d l j).
      { intros l j Hl Hj. unfold b. rewrite upd_nth by lia. destruct (Nat.eqb_spec (Z.to_nat l) (Z.to_nat i)) as [Q|Q].
        - assert (l = i) by lia. subst l. rewrite Z.eqb_refl. cbn [andb]. rewrite upd_nth by (rewrite Row by lia; lia). destruct (Nat.eqb_spec (Z.to_nat j) (Z.to_nat 0)), (Z.eqb_spec j 0); try lia; reflexivity.
        - replace (l =? i) with false by lia. reflexivity. }
      assert (X : exists b', (if i <? 7 then do k <- aget ps (i + 1); row_set b (i + 1) k S else Ok b) = Ok b' /\ length b' = 9%nat /\ Forall (fun r => length r = 10%nat) b' /\
        (forall l j, 0 <= l < 9 -> 0 <= j -> nth (Z.to_nat j) (nth (Z.to_nat l) b' []) 0 = if (l =? i + 1) && (i <? 7) && (j =? P d (i + 1)) then S else if (l =? i) && (j =? 0) then 0 else Rw d l j)).
      { destruct (Z.ltb_spec i 7) as [I7|I7]; [|exists b; split; [reflexivity|]; split; [exact Lb|]; split; [exact R2|]; intros l j Hl Hj; rewrite andb_false_r; apply Bn; assumption].
        rewrite aget_in by lia. cbn [rbind]. rewrite Pn by lia. replace (i + 1 =? i) with false by lia. pose proof (ptr_range d (i + 1) D ltac:(lia)) as Pr. fold (P d (i + 1)) in Pr. destruct (row_set_in b (i + 1) (P d (i + 1)) S) as [Q1 Q2]; [lia | exact R2 | assumption|]. rewrite Q1. eexists. split; [reflexivity|]. split; [rewrite upd_len; exact Lb|]. split; [exact Q2|].
        intros l j Hl Hj. rewrite upd_nth by lia. destruct (Nat.eqb_spec (Z.to_nat l) (Z.to_nat (i + 1))) as [Q|Q].
        - assert (l = i + 1) by lia. subst l. rewrite Z.eqb_refl. cbn [andb]. rewrite upd_nth. 2:{ assert (length (nth (Z.to_nat (i + 1)) b []) = 10%nat) by (apply (Forall_forall (fun r => length r = 10%nat) b); [exact R2 | apply nth_In; lia]). lia. }
          destruct (Nat.eqb_spec (Z.to_nat j) (Z.to_nat (P d (i + 1)))), (Z.eqb_spec j (P d (i + 1))); try lia; try reflexivity. rewrite Bn by lia. reflexivity.
        - replace (l =? i + 1) with false by lia. cbn [andb]. apply Bn; assumption. }
      destruct X as (b' & -> & Lb' & Fb' & Bn'). cbn [rbind]. set (over := test && (10 <? S)).
      set (d1 := {| ptrs := ps; bads := b'; rate := if over then i else rate d |}). assert (Dk1 : dec_ok d1) by (unfold dec_ok; cbn; auto).
      assert (P1 : forall l, 0 <= l < 9 -> P d1 l = if l =? i then 0 else P d l) by exact Pn.
      assert (W1 : forall l j, 0 <= l < 9 -> 0 <= j -> Rw d1 l j = if (l =? i + 1) && (i <? 7) && (j =? P d (i + 1)) then S else if (l =? i) && (j =? 0) then 0 else Rw d l j) by exact Bn'.
      destruct (IH ltac:(lia) d1 (test && negb over)) as (d' & e & Y & Dk & Lv' & Low & Cur' & Fin); fold m; fold C; replace (8 - Z.of_nat n) with (i + 1) in * by lia; [exact Dk1 | exact M | exact X3 | | |].
      { intros l Hl. destruct (Lv l ltac:(lia)) as [Q1 Q2]. split; [rewrite P1 by lia; replace (l =? i) with false by lia; exact Q1|]. rewrite P1 by lia. replace (l =? i) with false by lia. intros j Hj. rewrite W1 by lia. replace (l =? i) with false by lia. cbn [andb]. destruct ((l =? i + 1) && (i <? 7) && (j =? P d (i + 1))) eqn:Q; [|apply Q2; exact Hj]. exfalso. assert (l = i + 1) by lia. subst l. lia. }
      { intros Hi. rewrite P1 by lia. replace (i + 1 =? i) with false by lia. pose proof (ptr_range d (i + 1) D ltac:(lia)) as Pr. fold (P d (i + 1)) in Pr. rewrite W1 by lia. replace (i <? 7) with true by lia. rewrite !Z.eqb_refl. cbn [andb]. exact Sum. }
      rewrite Y. cbn [rbind]. eexists _, _. split; [reflexivity|]. split; [exact Dk|]. destruct (Low i ltac:(lia)) as [Lo1 Lo2]. assert (P0 : P d' i = 0) by (rewrite Lo1, P1, Z.eqb_refl by lia; reflexivity). split; [|split; [|split]].
      * intros l Hl. destruct (Z.eq_dec l i) as [->|Ne]; [|apply Lv'; lia]. split; [rewrite P0; lia|]. rewrite P0. intros j Hj. lia.
      * intros l Hl. destruct (Low l ltac:(lia)) as [Q1 Q2]. split; [rewrite Q1, P1 by lia; replace (l =? i) with false by lia; reflexivity|]. intros j. rewrite Q2. destruct (Z.leb_spec 0 j) as [Hj|Hj]; [rewrite W1 by lia; replace (l =? i + 1) with false by lia; replace (l =? i) with false by lia; reflexivity|].
        replace (Rw d1 l j) with (Rw d1 l 0) by (unfold Rw; f_equal; lia). replace (Rw d l j) with (Rw d l 0) by (unfold Rw; f_equal; lia). rewrite W1 by lia. replace (l =? i + 1) with false by lia. replace (l =? i) with false by lia. reflexivity.
      * intros _. rewrite P0, Lo2, W1 by lia. replace (i =? i + 1) with false by lia. rewrite !Z.eqb_refl. reflexivity.
      * fold m. replace (m mod 10 ^ (i + 1) =? 0) with true by lia. assert (Hs : errors (firstn (Z.to_nat (10 ^ (i + 1))) h) = S).
        { rewrite Sum. unfold C, m. apply cum_last. fold m. split; [lia|]. apply Z.mod_divide in X3; [|lia]. apply Z.divide_pos_le in X3; lia. }
        rewrite Hs. unfold over in *. destruct test; cbn [andb] in *; [|destruct Fin as [-> ->]; split; reflexivity]. destruct (10 <? S); cbn [negb andb] in *.
        -- destruct Fin as [-> ->]. cbn [rate d1]. split; [reflexivity|]. destruct (rate d =? i); reflexivity.
        -- exact Fin.
Qed.

(** ---- bits ---- *)
Definition observe (x x' : results) (h : list bool) : list bool := if total x' =? total x then h else negb (bad x' =? bad x) :: h.
Fixpoint watch (c : cfg) (s : state) (h : list bool) (l : list Z) : res (state * list bool) :=
  match l with
  | [] => Ok (s, h)
  | b :: t => do (s', e) <- put_bit c s b; watch c s' (observe (snd s) (snd s') h) t
  end.
Definition rated (h : list bool) (r : rx) : Prop :=
  let m := Z.of_nat (length h) in
  dec_ok (decs r) /\ mstep r = 100 - m mod 100 /\ (forall l, 2 <= l <= 7 -> lev (cum h) (decs r) m l) /\ Rw (decs r) 2 (P (decs r) 2) = cum h m - cum h (m / 100 * 100) /\ rate (decs r) = rating h.
Lemma rated_init c : rated [] (fst (rx_init c)).
Proof.
  unfold rated. cbn [length Z.of_nat fst rx_init decs mstep rate]. split; [|split; [reflexivity|split; [|split; reflexivity]]].
  - unfold dec_ok. cbn. repeat split; repeat constructor; lia.
  - intros l Hl. assert (P0 : P {| ptrs := repeat 0 9; bads := repeat (repeat 0 10) 9; rate := 8 |} l = 0) by (unfold P; cbn [ptrs]; apply nth_repeat). split; [rewrite P0, Z.div_0_l by (apply Z.pow_nonzero; lia); reflexivity|]. rewrite P0. intros j Hj. lia.
Qed.
Lemma lev_more x h d m l : 0 <= m -> m = Z.of_nat (length h) -> 2 <= l -> lev (cum h) d m l -> lev (cum (x :: h)) d m l.
Proof.
  intros M0 M L [A B]. split; [exact A|]. intros j Hj. assert (U : 0 < 10 ^ l) by (apply Z.pow_pos_nonneg; lia). assert (V : 10 ^ (l + 1) = 10 * 10 ^ l) by (rewrite Z.pow_add_r by lia; lia).
  assert (Bd : m / 10 ^ (l + 1) * 10 ^ (l + 1) + (j + 1) * 10 ^ l <= m).
  { rewrite A in Hj. rewrite V in *. rewrite Z.mul_comm with (n := 10) in *. rewrite <- Z.div_div by lia. assert (Q1 := Z.div_mod m (10 ^ l) ltac:(lia)). assert (Q2 := Z.mod_pos_bound m (10 ^ l) U). set (q := m / 10 ^ l) in *. set (u := 10 ^ l) in *. assert (Q3 := Z.div_mod q 10 ltac:(lia)). set (w := q / 10) in *. set (r := q mod 10) in *. clearbody q u w r. nia. }
  rewrite !cum_old by nia. apply B. exact Hj.
Qed.
(** the wrong bit is entered *)
Definition enter (d : dec) : res dec :=
  do k <- aget (ptrs d) 2; do row <- row_get (bads d) 2; do v <- aget row k; do bs <- row_set (bads d) 2 k (v + 1); Ok {| ptrs := ptrs d; bads := bs; rate := rate d |}.
Lemma enter_ok d : dec_ok d -> exists d', enter d = Ok d' /\ dec_ok d' /\ rate d' = rate d /\ (forall l, P d' l = P d l) /\ (forall l j, 2 <= l <= 7 -> 0 <= j -> Rw d' l j = Rw d l j + if (l =? 2) && (j =? P d 2) then 1 else 0).
Proof.
  intros D. assert (D' := D). destruct D' as (A & B & Cl & E). pose proof (ptr_range d 2 D ltac:(lia)) as Pr. fold (P d 2) in Pr. unfold enter. rewrite aget_in by lia. cbn [rbind]. fold (P d 2). rewrite row_get_in by lia. cbn [rbind].
  assert (Ln : length (nth (Z.to_nat 2) (bads d) []) = 10%nat) by (apply (Forall_forall (fun r => length r = 10%nat) (bads d)); [exact E | apply nth_In; lia]).
  rewrite aget_in by lia. cbn [rbind]. destruct (row_set_in (bads d) 2 (P d 2) (nth (Z.to_nat (P d 2)) (nth (Z.to_nat 2) (bads d) []) 0 + 1)) as [R1 R2]; [lia | exact E | lia|]. rewrite R1. cbn [rbind]. eexists. split; [reflexivity|]. split; [unfold dec_ok; cbn [ptrs bads]; rewrite upd_len; auto|]. split; [reflexivity|]. split; [reflexivity|].
  intros l j Hl Hj. unfold Rw at 1. cbn [bads]. rewrite upd_nth by lia. destruct (Nat.eqb_spec (Z.to_nat l) (Z.to_nat 2)) as [Q|Q].
  - assert (l = 2) by lia. subst l. rewrite upd_nth by lia. cbn [Z.eqb Pos.eqb andb]. destruct (Nat.eqb_spec (Z.to_nat j) (Z.to_nat (P d 2))), (Z.eqb_spec j (P d 2)); try lia; unfold Rw; [subst j; lia | lia].
  - replace (l =? 2) with false by lia. cbn [andb]. unfold Rw. lia.
Qed.
Lemma enter_step h r d' (x : bool) : rated h r -> (if x then enter (decs r) else Ok (decs r)) = Ok d' ->
  let m := Z.of_nat (length h) in
  dec_ok d' /\ rate d' = rating h /\ (forall l, 2 <= l <= 7 -> lev (cum (x :: h)) d' m l) /\ Rw d' 2 (P d' 2) = cum (x :: h) (m + 1) - cum (x :: h) (m / 100 * 100).
Proof.
  intros (D & M & L & Q & R) E m. assert (M0 : 0 <= m) by (unfold m; lia). pose proof (Z.div_mod m 100 ltac:(lia)) as Q1. pose proof (Z.mod_pos_bound m 100 ltac:(lia)) as Q2.
  assert (Last : cum (x :: h) (m + 1) - cum (x :: h) (m / 100 * 100) = cum h m - cum h (m / 100 * 100) + Z.b2z x) by (rewrite (cum_old x h (m / 100 * 100)) by lia; replace (m + 1) with (Z.of_nat (length (x :: h))) by (unfold m; cbn [length]; lia); rewrite cum_all, errors_cons; change (cum h m) with (cum h (Z.of_nat (length h))); rewrite cum_all; lia).
  destruct x.
  - destruct (enter_ok (decs r) D) as (d & E1 & D1 & R1 & P1 & W1). rewrite E1 in E. injection E as <-. split; [exact D1|]. split; [congruence|]. split.
    + intros l Hl. apply lev_more; [exact M0 | reflexivity | lia|]. destruct (L l Hl) as [A B]. split; [rewrite P1; exact A|]. rewrite P1. intros j Hj. rewrite W1 by lia. rewrite B by exact Hj. destruct (Z.eqb_spec l 2) as [->|]; cbn [andb]; [replace (j =? P (decs r) 2) with false by lia|]; rewrite Z.add_0_r; reflexivity.
    + pose proof (ptr_range (decs r) 2 D ltac:(lia)) as Pr. fold (P (decs r) 2) in Pr. rewrite P1, W1 by lia. rewrite !Z.eqb_refl. cbn [andb]. rewrite Q, Last. reflexivity.
  - injection E as <-. split; [exact D|]. split; [exact R|]. split; [intros l Hl; apply lev_more; [exact M0 | reflexivity | lia | apply L; exact Hl]|]. rewrite Q, Last. cbn [Z.b2z]. rewrite Z.add_0_r. reflexivity.
Qed.
Lemma assess_step h r d (x : bool) mm dd e : rated h r -> (if x then enter (decs r) else Ok (decs r)) = Ok d ->
  (if mstep r - 1 <=? 0 then do (d, e) <- assess [2; 3; 4; 5; 6; 7] true d; Ok (MEASUREMENT_STEP, d, e) else Ok (mstep r - 1, d, [])) = Ok (mm, dd, e) ->
  let h' := x :: h in let m := Z.of_nat (length h') in
  dec_ok dd /\ mm = 100 - m mod 100 /\ (forall l, 2 <= l <= 7 -> lev (cum h') dd m l) /\ Rw dd 2 (P dd 2) = cum h' m - cum h' (m / 100 * 100) /\ rate dd = rating h' /\
  e = match graded h' with Some g => if rating h =? g then [] else [Rate g] | None => [] end.
Proof.
  intros Rt E A h' m. destruct (enter_step h r d x Rt E) as (D & R & L & Q). destruct Rt as (_ & M & _ & _ & _). set (m0 := Z.of_nat (length h)) in *. assert (Em : m = m0 + 1) by (unfold m, m0, h'; cbn [length]; lia). assert (M0 : 0 <= m0) by (unfold m0; lia).
  pose proof (Z.div_mod m0 100 ltac:(lia)) as Q1. pose proof (Z.mod_pos_bound m0 100 ltac:(lia)) as Q2. destruct (Z.leb_spec (mstep r - 1) 0) as [T|T].
  - assert (K : m0 mod 100 = 99) by lia. assert (Mm : m mod 100 = 0) by (symmetry; apply Z.mod_unique with (m0 / 100 + 1); lia).
    destruct (assess_rate h' 6 ltac:(lia) d true) as (d' & e' & Y & D1 & L1 & _ & C1 & F1 & F2); try assumption; fold m; change (8 - Z.of_nat 6) with 2 in *; change (10 ^ 2) with 100 in *; [lia | replace (m - 1) with m0 by lia; exact L | intros _; rewrite Q; rewrite Em; f_equal; f_equal; lia|].
    change (lv 6) with [2; 3; 4; 5; 6; 7] in *. rewrite Y in A. cbn [rbind] in A. injection A as <- <- <-. fold m in L1. split; [exact D1|]. split; [rewrite Mm; reflexivity|]. split; [exact L1|]. split; [rewrite C1 by lia; replace (m / 100 * 100) with m by (pose proof (Z.div_mod m 100 ltac:(lia)); lia); lia|]. fold (graded h') in F1, F2. rewrite R in F1, F2. split; [|exact F2]. exact F1.
  - injection A as <- <- <-. assert (Mm : m mod 100 = m0 mod 100 + 1) by (symmetry; apply Z.mod_unique with (m0 / 100); lia). assert (Md : m / 100 = m0 / 100) by (symmetry; apply Z.div_unique with (m0 mod 100 + 1); lia).
    assert (N : m mod 10 ^ 2 <> 0) by (change (10 ^ 2) with 100; lia). assert (G : graded h' = None) by (unfold graded; cbn [grade]; fold m; pose proof (mod_up m 2 (2 + 1) ltac:(lia) N); replace (m mod 10 ^ (2 + 1) =? 0) with false by lia; reflexivity).
    split; [exact D|]. split; [lia|]. split; [intros l Hl; apply lev_same; [lia | apply (mod_up m 2); [lia | exact N] | replace (m - 1) with m0 by lia; apply L; exact Hl]|]. split; [rewrite Md, Em; exact Q|]. change (rating h') with (match graded h' with Some i => i | None => rating h end). rewrite G. split; [exact R | reflexivity].
Qed.
Lemma put_rated c h s b s' e : cls (pt c) = 1 -> rated h (fst s) -> put_bit c s b = Ok (s', e) ->
  rated (observe (snd s) (snd s') h) (fst s') /\ forall i, In (Rate i) e <-> total (snd s') <> total (snd s) /\ graded (observe (snd s) (snd s') h) = Some i /\ rating h <> i.
Proof.
  intros Cl Rt. unfold put_bit. destruct (b <? 0).
  - intros H. injection H as <- <-. unfold observe. rewrite Z.eqb_refl. split; [exact Rt|]. intros i. split; [intros [] | intros [X _]; lia].
  - unfold inc at 1. destruct (bits (fst s) <? 2147483647); cbn [rbind]; [|discriminate]. rewrite Cl. cbn [Z.eqb Pos.eqb]. destruct s as [r x]. cbn [fst snd] in *. set (bit := Z.lxor _ _). clearbody bit.
    match goal with |- rbind ?m _ = _ -> _ => destruct m as [[[r1 x1] e1]|] eqn:Mp end; cbn [rbind]; [|discriminate].
    assert (X : rated (observe x x1 h) r1 /\ forall i, In (Rate i) e1 <-> total x1 <> total x /\ graded (observe x x1 h) = Some i /\ rating h <> i).
    { revert Mp. unfold put1. cbn [w_bits resync total reg zeros bad bad_bits decs mstep cnt resyncs ref_reg step step_bit bits countdown]. destruct (negb (resync r =? 0)).
      - match goal with |- match ?m with (_, _) => _ end = _ -> _ => destruct m as [[u v] w] eqn:Ew end. intros H. injection H as <- <- <-. unfold observe. rewrite Z.eqb_refl. split; [exact Rt|]. intros i. assert (Nw : ~ In (Rate i) w) by (revert Ew; destruct (_ =? _); [destruct (_ <? _)|]; intros H; injection H as _ _ <-; cbn; intuition discriminate). split; [intros Y; contradiction | intros [Y _]; lia].
      - unfold inc at 1. destruct (total x <? 2147483647); cbn [rbind]; [|discriminate]. match goal with |- match ?m with (_, _) => _ end = _ -> _ => destruct m as [u v] end. set (w := Z.land _ _). clearbody w.
        match goal with |- rbind ?m _ = _ -> _ => destruct m as [[[bb rb] d]|] eqn:E1 end; cbn [rbind]; [|discriminate]. match goal with |- rbind ?m _ = _ -> _ => destruct m as [[[mm dd] ee]|] eqn:E2 end; cbn [rbind]; [|discriminate]. match goal with |- rbind ?m _ = _ -> _ => destruct m as [[[[[n cn] rb'] rs] e']|] eqn:E3 end; cbn [rbind]; [|discriminate]. intros H. injection H as <- <- <-. cbn [total bad].
        assert (Y : (if negb (bb =? bad x) then enter (decs r) else Ok (decs r)) = Ok d).
        { revert E1. destruct (v =? w); [intros H; injection H as <- _ <-; rewrite Z.eqb_refl; reflexivity|]. unfold inc. destruct (bad x <? 2147483647); cbn [rbind]; [|discriminate]. destruct (bad_bits r <? 2147483647); cbn [rbind]; [|discriminate]. unfold enter. destruct (aget (ptrs (decs r)) 2) as [k|]; cbn [rbind]; [|discriminate]. destruct (row_get (bads (decs r)) 2) as [row|]; cbn [rbind]; [|discriminate]. destruct (aget row k) as [vv|]; cbn [rbind]; [|discriminate]. destruct (row_set (bads (decs r)) 2 k (vv + 1)) as [bs|]; cbn [rbind]; [|discriminate]. intros H. injection H as <- _ <-. replace (bad x + 1 =? bad x) with false by lia. reflexivity. }
        destruct (assess_step h r d _ mm dd ee Rt Y E2) as (Z1 & Z2 & Z3 & Z4 & Z5 & Z6). unfold observe. cbn [total bad]. replace (total x + 1 =? total x) with false by lia. split; [unfold rated; cbn [decs mstep]; exact (conj Z1 (conj Z2 (conj Z3 (conj Z4 Z5))))|].
        intros i. assert (Ne : ~ In (Rate i) e').
        { revert E3. destruct (cnt r - 1 <=? 0); [|intros H; injection H as _ _ _ _ <-; intros []]. cbv zeta. destruct ((resync_len c * resync_percent c <? -2147483648) || (2147483647 <? resync_len c * resync_percent c)); [discriminate|]. destruct (Z.quot _ 100 <=? rb); [destruct (inc (resyncs x)); cbn [rbind]; [|discriminate]|]; intros H; injection H as _ _ _ _ <-; cbn; intuition discriminate. }
        rewrite in_app_iff, Z6. destruct (graded _) as [g|]; [|split; [intros [[]|Q]; contradiction | intros (_ & Q & _); discriminate]]. destruct (Z.eqb_spec (rating h) g) as [Q|Q].
        + split; [intros [[]|K]; contradiction | intros (_ & K & K'); injection K as ->; contradiction].
        + split; [intros [[K|[]]|K]; [injection K as ->; split; [lia | split; [reflexivity | exact Q]] | contradiction] | intros (_ & K & _); injection K as ->; left; left; reflexivity]. }
    cbn [fst snd]. destruct X as [X1 X2]. destruct (0 <? freq c); [destruct (countdown r1 - 1 <=? 0)|]; intros H; injection H as <- <-; cbn [fst snd]; (split; [exact X1|]); try exact X2. intros i. rewrite in_app_iff, <- X2. split; [intros [K|[K|[]]]; [exact K | discriminate] | intros K; left; exact K].
Qed.
Lemma watch_rated c l : cls (pt c) = 1 -> forall s h s' h', rated h (fst s) -> watch c s h l = Ok (s', h') -> rated h' (fst s').
Proof.
  intros Cl. induction l as [|b l IH]; intros s h s' h' R; cbn [watch]; [intros H; injection H as <- <-; exact R|]. destruct (put_bit c s b) as [[s1 e]|] eqn:E; cbn [rbind]; [|discriminate]. apply IH. exact (proj1 (put_rated c h s b s1 e Cl R E)).
Qed.
