(** V.42: the detection of a V.42 peer. *)
From Coq Require Import ZifyBool ZifyNat.
From Verif Require Import Base V42_model V42_spec.

Definition hit (n : negst) : Prop := n_step n = 5.
(** the receiver as far as it does not hit *)
Definition nrx (c : bool) (n : negst) (b : bool) : negst :=
  let bit := Z.b2z b in
  let stream := s32 (Z.lor (Z.shiftl (n_rxstream n) 1) bit) in
  let go (step bits str oks : Z) := n_set n step bits str oks (n_odp n) in
  let step := n_step n in
  let bits := n_rxbits n in
  if step =? 0 then
    if bit =? 1 then go 0 bits stream (n_rxoks n) else go 1 0 (-2) 0
  else if step =? 1 then
    if bits + 1 <? 9 then go 1 (bits + 1) stream (n_rxoks n)
    else go (if Z.land stream 0x3FF =? (if c then 0x145 else 0x111) then 2 else 0) 0 (-1) (n_rxoks n)
  else if step =? 2 then
    if bit =? 1 then go 2 (bits + 1) stream (n_rxoks n)
    else go (if (8 <=? bits + 1) && (bits + 1 <=? 16) then 3 else 0) 0 (-2) (n_rxoks n)
  else if step =? 3 then
    if bits + 1 <? 9 then go 3 (bits + 1) stream (n_rxoks n)
    else
      let x := Z.land stream 0x3FF in
      go (if (if c then (x =? 0x185) || (x =? 0x001) else x =? 0x113) then 4 else 0) 0 (-1) (n_rxoks n)
  else if step =? 4 then
    if bit =? 1 then go 4 (bits + 1) stream (n_rxoks n)
    else if (8 <=? bits + 1) && (bits + 1 <=? 16) then
      if 2 <=? n_rxoks n + 1 then
        n_set n 5 (bits + 1) stream (n_rxoks n + 1) (if c then n_odp n else true)
      else go 1 0 (-2) (n_rxoks n + 1)
    else go 0 0 (-1) (n_rxoks n)
  else go step bits stream (n_rxoks n).

Lemma b2z_bit b : (Z.b2z b <? 0) = false /\ Z.land (Z.b2z b) 1 = Z.b2z b.
Proof. destruct b; split; reflexivity. Qed.

Lemma rx_bit_ans s b : calling s = false -> negotiation_rx_bit s (Z.b2z b) = Ok (w_neg (nrx false (neg s) b) s, []).
Proof.
  intros Hc. unfold negotiation_rx_bit, nrx. destruct (b2z_bit b) as (-> & ->). rewrite Hc.
  repeat match goal with |- context [if ?x then _ else _] => destruct x eqn:?; try reflexivity end.
Qed.
Definition caller_hits (s : v42) : v42 * list ev :=
  (w_st IDLE (set_timer (w_st IDLE (w_timer 0 s)) (48 * 8) TNegotiate), [Status IDLE]).
Lemma rx_bit_call s b : calling s = true ->
  negotiation_rx_bit s (Z.b2z b) =
    let n := nrx true (neg s) b in
    Ok (if negb (n_step (neg s) =? 5) && (n_step n =? 5) then caller_hits (w_neg n s) else (w_neg n s, [])).
Proof.
  intros Hc. unfold negotiation_rx_bit, nrx. destruct (b2z_bit b) as (-> & ->). rewrite Hc. cbn zeta.
  destruct (Z.eqb_spec (n_step (neg s)) 0) as [E|E0]; [rewrite E; destruct b; reflexivity|].
  destruct (Z.eqb_spec (n_step (neg s)) 1) as [E|E1].
  { rewrite E. destruct (_ <? 9); [reflexivity|]. destruct (_ =? 0x145); reflexivity. }
  destruct (Z.eqb_spec (n_step (neg s)) 2) as [E|E2].
  { rewrite E. destruct (_ =? 1); [reflexivity|]. destruct (_ && _); reflexivity. }
  destruct (Z.eqb_spec (n_step (neg s)) 3) as [E|E3].
  { rewrite E. destruct (_ <? 9); [reflexivity|]. destruct (_ || _); reflexivity. }
  destruct (Z.eqb_spec (n_step (neg s)) 4) as [E|E4].
  { rewrite E. destruct (_ =? 1); [reflexivity|]. destruct (_ && _); [|reflexivity]. destruct (2 <=? _); [|reflexivity].
    unfold restart_lapm, caller_hits. change (calling (w_st IDLE (w_timer 0 (w_neg (n_set (neg s) 5 (n_rxbits (neg s) + 1)
      (s32 (Z.lor (Z.shiftl (n_rxstream (neg s)) 1) (Z.b2z b))) (n_rxoks (neg s) + 1) (n_odp (neg s))) s)))) with (calling s).
    rewrite Hc. reflexivity. }
  cbn [n_step n_set]. destruct (Z.eqb_spec (n_step (neg s)) 5); reflexivity.
Qed.

Definition nrxs (c : bool) (n : negst) (l : list bool) : negst := fold_left (nrx c) l n.
Lemma w_neg_neg n n' s : w_neg n (w_neg n' s) = w_neg n s.
Proof. reflexivity. Qed.
Lemma w_neg_same s : w_neg (neg s) s = s.
Proof. destruct s; reflexivity. Qed.
Lemma rx_bits_ans l : forall s, calling s = false -> rx_bits s l = Ok (w_neg (nrxs false (neg s) l) s, []).
Proof.
  induction l as [|b l IH]; intros s Hc; cbn [rx_bits nrxs fold_left].
  - rewrite w_neg_same. reflexivity.
  - rewrite rx_bit_ans by exact Hc. cbn [rbind]. rewrite IH by exact Hc. cbn [rbind]. rewrite w_neg_neg. reflexivity.
Qed.

(** ---- soundness ---- *)
Definition lowv (k : nat) (x : Z) : Z := x mod 2 ^ Z.of_nat k.
Definition before (c : bool) (oks : Z) (l : list bool) : Prop :=
  (oks = 0 /\ l = []) \/ (oks = 1 /\ whole c l).
(** what is known of the bits received so far *)
Definition known (c : bool) (n : negst) (h : list bool) : Prop :=
  (n_step n = 0) \/
  (n_step n = 1 /\ exists pre d bs, h = pre ++ d ++ bs /\ before c (n_rxoks n) d /\
     Z.of_nat (length bs) = n_rxbits n + 1 /\ 0 <= n_rxbits n < 9 /\ n_rxstream n mod 2 ^ Z.of_nat (length bs) = of_bits_msb bs) \/
  (n_step n = 2 /\ exists pre d k, h = pre ++ d ++ firstc c ++ ones k /\ before c (n_rxoks n) d /\ Z.of_nat k = n_rxbits n) \/
  (n_step n = 3 /\ exists pre d k bs, h = pre ++ d ++ firstc c ++ ones k ++ bs /\ before c (n_rxoks n) d /\ okk k /\
     Z.of_nat (length bs) = n_rxbits n + 1 /\ 0 <= n_rxbits n < 9 /\ n_rxstream n mod 2 ^ Z.of_nat (length bs) = of_bits_msb bs) \/
  (n_step n = 4 /\ exists pre d k c2 k', h = pre ++ d ++ firstc c ++ ones k ++ c2 ++ ones k' /\ before c (n_rxoks n) d /\ okk k /\
     secondc c c2 /\ Z.of_nat k' = n_rxbits n) \/
  (n_step n = 5 /\ exists pre l1 l2 post, h = pre ++ l1 ++ l2 ++ false :: post /\ whole c l1 /\ whole c l2).

Lemma stream_step x b (bs : list bool) : (length bs <= 9)%nat -> x mod 2 ^ Z.of_nat (length bs) = of_bits_msb bs ->
  s32 (Z.lor (Z.shiftl x 1) (Z.b2z b)) mod 2 ^ Z.of_nat (length (bs ++ [b])) = of_bits_msb (bs ++ [b]).
Proof.
  intros Hl H. unfold of_bits_msb in *. rewrite rev_app_distr. cbn [rev Datatypes.app of_bits_lsb]. rewrite <- H.
  assert (E : Z.lor (Z.shiftl x 1) (Z.b2z b) = 2 * x + Z.b2z b).
  { rewrite <- Z.lxor_lor, <- Z.add_nocarry_lxor.
    - rewrite Z.shiftl_mul_pow2 by lia. change (2 ^ 1) with 2. lia.
    - apply Z.bits_inj'. intros k Hk. rewrite Z.land_spec, Z.bits_0. destruct (Z.eq_dec k 0) as [->|].
      + rewrite Z.shiftl_spec_low by lia. reflexivity.
      + replace (Z.testbit (Z.b2z b) k) with false; [apply andb_false_r|]. destruct b; cbn [Z.b2z]; [|rewrite Z.bits_0; reflexivity].
        symmetry. apply Z.bits_above_log2; [lia|]. cbn. lia.
    - apply Z.bits_inj'. intros k Hk. rewrite Z.land_spec, Z.bits_0. destruct (Z.eq_dec k 0) as [->|].
      + rewrite Z.shiftl_spec_low by lia. reflexivity.
      + replace (Z.testbit (Z.b2z b) k) with false; [apply andb_false_r|]. destruct b; cbn [Z.b2z]; [|rewrite Z.bits_0; reflexivity].
        symmetry. apply Z.bits_above_log2; [lia|]. cbn. lia. }
  rewrite E, app_length. cbn [length]. rewrite Nat.add_1_r, Nat2Z.inj_succ, Z.pow_succ_r by lia.
  assert (Hs : forall y m, (0 < m <= 10) -> s32 y mod 2 ^ m = y mod 2 ^ m).
  { intros y m Hm. unfold s32. assert (D : (2 ^ m | 4294967296)).
    { exists (2 ^ (32 - m)). rewrite <- Z.pow_add_r by lia. replace (32 - m + m) with 32 by lia. reflexivity. }
    assert (D2 : (2 ^ m | 2147483648)).
    { exists (2 ^ (31 - m)). rewrite <- Z.pow_add_r by lia. replace (31 - m + m) with 31 by lia. reflexivity. }
    assert (P : 0 < 2 ^ m) by (apply Z.pow_pos_nonneg; lia).
    rewrite Zminus_mod, <- Znumtheory.Zmod_div_mod by (try lia; exact D).
    rewrite <- Zminus_mod. f_equal. lia. }
  rewrite <- Z.pow_succ_r by lia. rewrite Hs by lia. rewrite Z.pow_succ_r by lia.
  rewrite Z.add_comm. pose proof (Z.pow_pos_nonneg 2 (Z.of_nat (length bs)) ltac:(lia) ltac:(lia)) as P.
  set (p := 2 ^ Z.of_nat (length bs)) in *. clearbody p. clear - P.
  pose proof (Z.div_mod x p ltac:(lia)) as D. pose proof (Z.mod_pos_bound x p P) as M.
  replace (Z.b2z b + 2 * x) with (Z.b2z b + 2 * (x mod p) + (x / p) * (2 * p)) by nia. rewrite Z.mod_add by lia. apply Z.mod_small.
  destruct b; cbn [Z.b2z]; lia.
Qed.
Lemma chr_of (bs : list bool) x v : length bs = 10%nat -> x mod 2 ^ Z.of_nat (length bs) = of_bits_msb bs -> Z.land x 0x3FF = v ->
  0 <= v < 1024 -> bs = bits_msb 10 v.
Proof.
  intros Hl H E Hv. rewrite Hl in H. change 0x3FF with (Z.ones 10) in E. rewrite Z.land_ones in E by lia.
  change (2 ^ Z.of_nat 10) with (2 ^ 10) in H. rewrite E in H. unfold of_bits_msb in H. unfold bits_msb. rewrite H.
  rewrite <- Hl, <- (rev_length bs), bits_lsb_of_bits, rev_involutive. reflexivity.
Qed.
Lemma ones_snoc k : ones k ++ [true] = ones (S k).
Proof. unfold ones. induction k; cbn; auto. f_equal. exact IHk. Qed.

Lemma known_step c n h b : known c n h -> (n_step n = 5 -> True) -> known c (nrx c n b) (h ++ [b]).
Proof.
  intros H _. unfold nrx.
  destruct H as [E|[(E & pre & d & bs & -> & Hd & Hl & Hb & Hv)|[(E & pre & d & k & -> & Hd & Hk)|[(E & pre & d & k & bs & -> & Hd & Hk & Hl & Hb & Hv)|
    [(E & pre & d & k & c2 & k' & -> & Hd & Hk & Hc2 & Hk')|(E & pre & l1 & l2 & post & -> & H1 & H2)]]]]]; rewrite E.
  - change (0 =? 0) with true. cbv iota. destruct b; cbn [Z.b2z Z.eqb Pos.eqb].
    + left. reflexivity.
    + right. left. split; [reflexivity|]. exists h, [], [false]. cbn [n_set n_rxoks n_rxbits n_rxstream length Datatypes.app].
      split; [reflexivity|]. split; [left; auto|]. split; [lia|]. split; [lia|]. reflexivity.
  - change (1 =? 0) with false. change (1 =? 1) with true. cbv iota.
    pose proof (stream_step (n_rxstream n) b bs ltac:(lia) Hv) as Hv'. destruct (Z.ltb_spec (n_rxbits n + 1) 9).
    + right. left. split; [reflexivity|]. exists pre, d, (bs ++ [b]). cbn [n_set n_rxoks n_rxbits n_rxstream].
      split; [rewrite <- !app_assoc; reflexivity|]. split; [exact Hd|]. split; [rewrite app_length; cbn [length]; lia|]. split; [lia|exact Hv'].
    + set (x := s32 _) in *. destruct (Z.eqb_spec (Z.land x 0x3FF) (if c then 0x145 else 0x111)) as [Ex|]; [|left; reflexivity].
      right. right. left. split; [reflexivity|]. exists pre, d, 0%nat. cbn [n_set n_rxoks n_rxbits].
      assert (Eb : bs ++ [b] = firstc c).
      { rewrite (chr_of (bs ++ [b]) x _ ltac:(rewrite app_length; cbn [length]; lia) Hv' Ex) by (destruct c; lia). destruct c; reflexivity. }
      split; [|split; [exact Hd|reflexivity]]. rewrite <- !app_assoc, Eb. cbn [ones repeat]. rewrite app_nil_r. reflexivity.
  - change (2 =? 0) with false. change (2 =? 1) with false. change (2 =? 2) with true. cbv iota. destruct b; cbn [Z.b2z Z.eqb Pos.eqb].
    + right. right. left. split; [reflexivity|]. exists pre, d, (S k). cbn [n_set n_rxoks n_rxbits].
      split; [rewrite <- !app_assoc, ones_snoc; reflexivity|]. split; [exact Hd|]. lia.
    + destruct ((8 <=? n_rxbits n + 1) && (n_rxbits n + 1 <=? 16)) eqn:Er; [|left; reflexivity].
      right. right. right. left. split; [reflexivity|]. exists pre, d, k, [false]. cbn [n_set n_rxoks n_rxbits n_rxstream length].
      split; [rewrite <- !app_assoc; reflexivity|]. split; [exact Hd|]. split; [unfold okk; lia|]. split; [lia|]. split; [lia|reflexivity].
  - change (3 =? 0) with false. change (3 =? 1) with false. change (3 =? 2) with false. change (3 =? 3) with true. cbv iota.
    pose proof (stream_step (n_rxstream n) b bs ltac:(lia) Hv) as Hv'. destruct (Z.ltb_spec (n_rxbits n + 1) 9).
    + right. right. right. left. split; [reflexivity|]. exists pre, d, k, (bs ++ [b]). cbn [n_set n_rxoks n_rxbits n_rxstream].
      split; [rewrite <- !app_assoc; reflexivity|]. split; [exact Hd|]. split; [exact Hk|]. split; [rewrite app_length; cbn [length]; lia|]. split; [lia|exact Hv'].
    + set (x := s32 _) in *. cbn zeta. destruct (if c then (Z.land x 0x3FF =? 0x185) || (Z.land x 0x3FF =? 0x001) else Z.land x 0x3FF =? 0x113) eqn:Ex; [|left; reflexivity].
      right. right. right. right. left. split; [reflexivity|]. exists pre, d, k, (bs ++ [b]), 0%nat. cbn [n_set n_rxoks n_rxbits].
      split; [cbn [ones repeat]; rewrite app_nil_r, <- !app_assoc; reflexivity|]. split; [exact Hd|]. split; [exact Hk|]. split; [|reflexivity].
      assert (Hl10 : length (bs ++ [b]) = 10%nat) by (rewrite app_length; cbn [length]; lia).
      destruct c; cbn [secondc].
      * apply orb_true_iff in Ex. destruct Ex as [Ex|Ex]; apply Z.eqb_eq in Ex; [left|right]; rewrite (chr_of _ x _ Hl10 Hv' Ex) by lia; reflexivity.
      * apply Z.eqb_eq in Ex. rewrite (chr_of _ x _ Hl10 Hv' Ex) by lia. reflexivity.
  - change (4 =? 0) with false. change (4 =? 1) with false. change (4 =? 2) with false. change (4 =? 3) with false. change (4 =? 4) with true. cbv iota.
    destruct b; cbn [Z.b2z Z.eqb Pos.eqb].
    + right. right. right. right. left. split; [reflexivity|]. exists pre, d, k, c2, (S k'). cbn [n_set n_rxoks n_rxbits].
      split; [rewrite <- !app_assoc, ones_snoc; reflexivity|]. split; [exact Hd|]. split; [exact Hk|]. split; [exact Hc2|]. lia.
    + destruct ((8 <=? n_rxbits n + 1) && (n_rxbits n + 1 <=? 16)) eqn:Er; [|left; reflexivity].
      assert (Hw : whole c (firstc c ++ ones k ++ c2 ++ ones k')).
      { exists k, k', c2. split; [exact Hk|]. split; [unfold okk; lia|]. auto. }
      destruct Hd as [(Ho & ->)|(Ho & Hd)]; rewrite Ho.
      * change (2 <=? 0 + 1) with false. cbv iota. right. left. split; [reflexivity|].
        exists pre, (firstc c ++ ones k ++ c2 ++ ones k'), [false]. cbn [n_set n_rxoks n_rxbits n_rxstream length Datatypes.app].
        split; [rewrite <- !app_assoc; reflexivity|]. split; [right; auto|]. split; [lia|]. split; [lia|reflexivity].
      * change (2 <=? 1 + 1) with true. cbv iota. right. right. right. right. right. split; [reflexivity|].
        exists pre, d, (firstc c ++ ones k ++ c2 ++ ones k'), []. split; [rewrite <- !app_assoc; reflexivity|]. auto.
  - change (5 =? 0) with false. change (5 =? 1) with false. change (5 =? 2) with false. change (5 =? 3) with false. change (5 =? 4) with false. cbv iota.
    right. right. right. right. right. split; [reflexivity|]. exists pre, l1, l2, (post ++ [b]). split; [rewrite <- !app_assoc; reflexivity|]. auto.
Qed.
Lemma known_all c l : forall n h, known c n h -> known c (nrxs c n l) (h ++ l).
Proof.
  induction l as [|b l IH]; intros n h H; cbn [nrxs fold_left]; [rewrite app_nil_r; exact H|].
  replace (h ++ b :: l) with ((h ++ [b]) ++ l) by (rewrite <- app_assoc; reflexivity). apply IH. apply known_step; auto.
Qed.
Lemma odp_step5 n b : (n_odp n = true -> n_step n = 5) -> n_odp (nrx false n b) = true -> n_step (nrx false n b) = 5.
Proof.
  intros H. unfold nrx.
  repeat match goal with |- context [if ?x then _ else _] => destruct x eqn:? end; cbn [n_set n_odp n_step] in *; intros Ho; auto; specialize (H Ho); lia.
Qed.
Lemma odp_step5_all l : forall n, (n_odp n = true -> n_step n = 5) -> n_odp (nrxs false n l) = true -> n_step (nrxs false n l) = 5.
Proof. induction l as [|b l IH]; intros n H; cbn [nrxs fold_left]; [exact H|]. apply IH. apply odp_step5. exact H. Qed.

Lemma answerer_sound s l s' e : calling s = false -> detecting s -> rx_bits s l = Ok (s', e) -> n_odp (neg s') = true ->
  exists pre k1 k2 k3 k4 post, Forall okk [k1; k2; k3; k4] /\ l = pre ++ odp k1 k2 ++ odp k3 k4 ++ false :: post.
Proof.
  intros Hc (_ & Hn) E Ho. rewrite rx_bits_ans in E by exact Hc. injection E as <- <-. cbn [neg w_neg] in Ho. rewrite Hn in Ho.
  set (n0 := mkN 0 0 (-1) 0 false 0 (-1) 0) in *.
  pose proof (known_all false l n0 [] (or_introl eq_refl)) as K. cbn [Datatypes.app] in K.
  pose proof (odp_step5_all l n0 ltac:(cbn; discriminate) Ho) as H5.
  destruct K as [E|[(E & _)|[(E & _)|[(E & _)|[(E & _)|(_ & pre & l1 & l2 & post & -> & H1 & H2)]]]]]; try (rewrite H5 in E; discriminate).
  destruct H1 as (k1 & k2 & c2 & K1 & K2 & C2 & ->). destruct H2 as (k3 & k4 & c4 & K3 & K4 & C4 & ->). cbn [secondc firstc] in *. subst c2 c4.
  exists pre, k1, k2, k3, k4, post. split; [repeat (constructor; [assumption|]); constructor|reflexivity].
Qed.

(** the caller: it leaves the detection by reporting IDLE *)
Lemma rx_bits_call l : forall s s' e, calling s = true -> n_step (neg s) <> 5 -> rx_bits s l = Ok (s', e) -> e <> [] ->
  n_step (nrxs true (neg s) l) = 5.
Proof.
  induction l as [|b l IH]; intros s s' e Hc H5 E He; cbn [rx_bits] in E.
  - injection E as <- <-. congruence.
  - rewrite rx_bit_call in E by exact Hc. cbn zeta in E. replace (n_step (neg s) =? 5) with false in E by lia. cbn [negb andb rbind] in E.
    cbn [nrxs fold_left]. destruct (Z.eqb_spec (n_step (nrx true (neg s) b)) 5) as [E5|N5].
    + assert (Hpark : forall l n, n_step n = 5 -> n_step (nrxs true n l) = 5).
      { clear. induction l as [|x l IH]; intros n H; cbn [nrxs fold_left]; [exact H|]. apply IH. unfold nrx. rewrite H. reflexivity. }
      apply Hpark. exact E5.
    + cbn [rbind] in E. destruct (rx_bits (w_neg (nrx true (neg s) b) s) l) as [[s2 e2]|] eqn:E2; [|discriminate]. cbn [rbind Datatypes.app] in E.
      injection E as <- <-. exact (IH (w_neg (nrx true (neg s) b) s) _ _ Hc N5 E2 He).
Qed.
Lemma caller_sound s l s' e : calling s = true -> detecting s -> rx_bits s l = Ok (s', e) -> e <> [] ->
  exists pre l1 l2 post, whole true l1 /\ whole true l2 /\ l = pre ++ l1 ++ l2 ++ false :: post.
Proof.
  intros Hc (_ & Hn) E He. assert (H5 : n_step (neg s) <> 5) by (rewrite Hn; discriminate).
  pose proof (rx_bits_call l s s' e Hc H5 E He) as K5. rewrite Hn in K5.
  pose proof (known_all true l (mkN 0 0 (-1) 0 false 0 (-1) 0) [] (or_introl eq_refl)) as K. cbn [Datatypes.app] in K.
  destruct K as [E0|[(E0 & _)|[(E0 & _)|[(E0 & _)|[(E0 & _)|(_ & pre & l1 & l2 & post & -> & H1 & H2)]]]]]; try (rewrite K5 in E0; discriminate).
  exists pre, l1, l2, post. auto.
Qed.

(** ---- completeness ---- *)
Lemma rx_bits_call_ev l : forall s, calling s = true -> exists s',
  rx_bits s l = Ok (s', if negb (n_step (neg s) =? 5) && (n_step (nrxs true (neg s) l) =? 5) then [Status IDLE] else []) /\
  neg s' = nrxs true (neg s) l.
Proof.
  induction l as [|b l IH]; intros s Hc; cbn [rx_bits nrxs fold_left].
  - exists s. destruct (n_step (neg s) =? 5); auto.
  - rewrite rx_bit_call by exact Hc. cbn zeta. cbn [rbind].
    destruct (Z.eqb_spec (n_step (neg s)) 5) as [E5|N5]; cbn [negb andb].
    + destruct (IH (w_neg (nrx true (neg s) b) s) Hc) as (s' & E & En). cbn [neg w_neg] in E, En.
      assert (H5 : n_step (nrx true (neg s) b) = 5) by (unfold nrx; rewrite E5; reflexivity). rewrite H5 in E. cbn [Z.eqb Pos.eqb negb andb] in E.
      exists s'. rewrite E. auto.
    + destruct (Z.eqb_spec (n_step (nrx true (neg s) b)) 5) as [H5|H5]; cbn [caller_hits].
      * destruct (IH (fst (caller_hits (w_neg (nrx true (neg s) b) s))) Hc) as (s' & E & En).
        change (neg (fst (caller_hits (w_neg (nrx true (neg s) b) s)))) with (nrx true (neg s) b) in *. rewrite H5 in E. cbn [Z.eqb Pos.eqb negb andb] in E.
        exists s'. cbn [caller_hits fst] in E. rewrite E. cbn [rbind Datatypes.app].
        assert (Hpark : forall l n, n_step n = 5 -> n_step (nrxs true n l) = 5).
        { clear. induction l as [|x l IH]; intros n H; cbn [nrxs fold_left]; [exact H|]. apply IH. unfold nrx. rewrite H. reflexivity. }
        change (fold_left (nrx true) l (nrx true (neg s) b)) with (nrxs true (nrx true (neg s) b) l). rewrite (Hpark l _ H5). auto.
      * destruct (IH (w_neg (nrx true (neg s) b) s) Hc) as (s' & E & En). cbn [neg w_neg] in E, En.
        rewrite (proj2 (Z.eqb_neq _ _) H5) in E. cbn [negb andb] in E. exists s'. rewrite E. cbn [rbind Datatypes.app]. auto.
Qed.

Definition n0 : negst := mkN 0 0 (-1) 0 false 0 (-1) 0.
Definition same_rx (n n' : negst) : Prop := n_step n = n_step n' /\ n_rxbits n = n_rxbits n' /\ n_rxstream n = n_rxstream n' /\ n_rxoks n = n_rxoks n'.
Lemma nrxs_app c n l l' : nrxs c n (l ++ l') = nrxs c (nrxs c n l) l'.
Proof. unfold nrxs. apply fold_left_app. Qed.
Lemma nrxs_idle c m : nrxs c n0 (ones m) = n0.
Proof. induction m; cbn [ones repeat nrxs fold_left]; [reflexivity|]. exact IHm. Qed.
Lemma step5_parks c l : forall n, n_step n = 5 -> n_step (nrxs c n l) = 5 /\ n_odp (nrxs c n l) = n_odp n.
Proof.
  induction l as [|x l IH]; intros n H; cbn [nrxs fold_left]; [auto|].
  assert (H5 : n_step (nrx c n x) = 5 /\ n_odp (nrx c n x) = n_odp n) by (unfold nrx; rewrite H; auto).
  destruct (IH _ (proj1 H5)) as (A & B). split; [exact A|]. etransitivity; [exact B|]. apply H5.
Qed.

Definition ks : list nat := [7; 8; 9; 10; 11; 12; 13; 14; 15]%nat.
Lemma in_ks k : okk k -> In k ks.
Proof. unfold okk, ks. intros H. do 16 (destruct k as [|k]; [cbn; try lia; tauto|]). lia. Qed.
Definition hits (c : bool) (l : list bool) : bool := let n := nrxs c n0 l in (n_step n =? 5) && (c || n_odp n).
Lemma sweep (f : nat -> nat -> bool) : forallb (fun a => forallb (f a) ks) ks = true -> forall a b, okk a -> okk b -> f a b = true.
Proof.
  intros H a b Ha Hb. rewrite forallb_forall in H. specialize (H a (in_ks _ Ha)). cbn beta in H. rewrite forallb_forall in H. exact (H b (in_ks _ Hb)).
Qed.
Definition neq (n n' : negst) : bool :=
  (n_step n =? n_step n') && (n_rxbits n =? n_rxbits n') && (n_rxstream n =? n_rxstream n') && (n_rxoks n =? n_rxoks n') &&
  Bool.eqb (n_odp n) (n_odp n') && (n_txbits n =? n_txbits n') && (n_txstream n =? n_txstream n') && (n_txadps n =? n_txadps n').
Lemma neq_eq n n' : neq n n' = true -> n = n'.
Proof. unfold neq. rewrite !andb_true_iff, !Z.eqb_eq, Bool.eqb_true_iff. destruct n, n'; cbn. intuition congruence. Qed.
(** the receiver when the first pattern has been heard, and the start bit after it *)
Definition n1 : negst := mkN 1 0 (-2) 1 false 0 (-1) 0.
Lemma odp_first : forall a b, okk a -> okk b -> neq (nrxs false n0 (odp a b ++ [false])) n1 = true.
Proof. apply sweep. vm_compute. reflexivity. Qed.
Lemma adp_first : forall a b, okk a -> okk b -> neq (nrxs true n0 (adp a b ++ [false])) n1 = true.
Proof. apply sweep. vm_compute. reflexivity. Qed.
Definition hit1 (c : bool) (l : list bool) : bool := let n := nrxs c n1 l in (n_step n =? 5) && (c || n_odp n).
Lemma odp_second : forall a b, okk a -> okk b -> hit1 false (tl (odp a b ++ [false])) = true.
Proof. apply sweep. vm_compute. reflexivity. Qed.
Lemma adp_second : forall a b, okk a -> okk b -> hit1 true (tl (adp a b ++ [false])) = true.
Proof. apply sweep. vm_compute. reflexivity. Qed.
Lemma odp_hits : forall a b c d, okk a -> okk b -> okk c -> okk d -> hits false (odp a b ++ odp c d ++ [false]) = true.
Proof.
  intros a b c d Ha Hb Hc Hd. unfold hits. replace (odp a b ++ odp c d ++ [false]) with ((odp a b ++ [false]) ++ tl (odp c d ++ [false])) by (rewrite <- app_assoc; reflexivity).
  rewrite nrxs_app, (neq_eq _ _ (odp_first a b Ha Hb)). exact (odp_second c d Hc Hd).
Qed.
Lemma adp_hits : forall a b c d, okk a -> okk b -> okk c -> okk d -> hits true (adp a b ++ adp c d ++ [false]) = true.
Proof.
  intros a b c d Ha Hb Hc Hd. unfold hits. replace (adp a b ++ adp c d ++ [false]) with ((adp a b ++ [false]) ++ tl (adp c d ++ [false])) by (rewrite <- app_assoc; reflexivity).
  rewrite nrxs_app, (neq_eq _ _ (adp_first a b Ha Hb)). exact (adp_second c d Hc Hd).
Qed.

Lemma answerer_complete s m a b c d post : calling s = false -> detecting s -> Forall okk [a; b; c; d] ->
  exists s', rx_bits s (ones m ++ odp a b ++ odp c d ++ false :: post) = Ok (s', []) /\ n_odp (neg s') = true.
Proof.
  intros Hc (_ & Hn) Hk. rewrite !Forall_cons_iff in Hk. destruct Hk as (Ha & Hb & Hcc & Hd & _).
  rewrite rx_bits_ans by exact Hc. eexists. split; [reflexivity|]. cbn [neg w_neg]. rewrite Hn. change (mkN 0 0 (-1) 0 false 0 (-1) 0) with n0.
  rewrite nrxs_app, nrxs_idle. replace (odp a b ++ odp c d ++ false :: post) with ((odp a b ++ odp c d ++ [false]) ++ post) by (rewrite <- !app_assoc; reflexivity).
  rewrite nrxs_app. pose proof (odp_hits a b c d Ha Hb Hcc Hd) as H. unfold hits in H. cbn zeta in H. cbn [orb] in H. apply andb_true_iff in H. destruct H as (H5 & Ho).
  apply Z.eqb_eq in H5. rewrite (proj2 (step5_parks _ _ _ H5)). exact Ho.
Qed.
Lemma caller_complete s m a b c d post : calling s = true -> detecting s -> Forall okk [a; b; c; d] ->
  exists s', rx_bits s (ones m ++ adp a b ++ adp c d ++ false :: post) = Ok (s', [Status IDLE]).
Proof.
  intros Hc (_ & Hn) Hk. rewrite !Forall_cons_iff in Hk. destruct Hk as (Ha & Hb & Hcc & Hd & _).
  destruct (rx_bits_call_ev (ones m ++ adp a b ++ adp c d ++ false :: post) s Hc) as (s' & E & _). exists s'. rewrite E. rewrite Hn.
  change (mkN 0 0 (-1) 0 false 0 (-1) 0) with n0. change (n_step n0 =? 5) with false. cbn [negb andb].
  rewrite nrxs_app, nrxs_idle. replace (adp a b ++ adp c d ++ false :: post) with ((adp a b ++ adp c d ++ [false]) ++ post) by (rewrite <- !app_assoc; reflexivity).
  rewrite nrxs_app. pose proof (adp_hits a b c d Ha Hb Hcc Hd) as H. unfold hits in H. cbn zeta in H. cbn [orb] in H. apply andb_true_iff in H. destruct H as (H5 & _).
  apply Z.eqb_eq in H5. rewrite (proj1 (step5_parks _ _ _ H5)). reflexivity.
Qed.

(** ---- the patterns sent ---- *)
Definition ctx (t : Z * Z) : (Z * Z) * bool :=
  let '(b, x) := if fst t <=? 0 then (36, 0x3FE22) else if fst t =? 18 then (18, 0x3FF22) else t in
  ((b - 1, Z.shiftr x 1), Z.land x 1 =? 1).
Fixpoint ctxs (t : Z * Z) (n : nat) : (Z * Z) * list bool :=
  match n with O => (t, []) | S k => let '(t, b) := ctx t in let '(t, l) := ctxs t k in (t, b :: l) end.
Definition txof (n : negst) : Z * Z := (n_txbits n, n_txstream n).
Lemma tx_bits_call n : forall s, calling s = true -> exists s',
  tx_bits s n = Ok (s', [], snd (ctxs (txof (neg s)) n)) /\ txof (neg s') = fst (ctxs (txof (neg s)) n).
Proof.
  induction n as [|n IH]; intros s Hc; cbn [tx_bits ctxs]; [exists s; auto|].
  assert (E : negotiation_tx_bit s = Ok (w_neg (n_settx (neg s) (fst (fst (ctx (txof (neg s))))) (snd (fst (ctx (txof (neg s))))) (n_txadps (neg s))) s, [],
    let '(b, x) := if n_txbits (neg s) <=? 0 then (36, 0x3FE22) else if n_txbits (neg s) =? 18 then (18, 0x3FF22) else txof (neg s) in Z.land x 1)).
  { unfold negotiation_tx_bit. rewrite Hc. unfold ctx, txof. cbn [fst snd]. destruct (_ <=? 0); [reflexivity|]. destruct (_ =? 18); reflexivity. }
  rewrite E. cbn [rbind]. destruct (IH (w_neg (n_settx (neg s) (fst (fst (ctx (txof (neg s))))) (snd (fst (ctx (txof (neg s))))) (n_txadps (neg s))) s) Hc) as (s' & E' & Et).
  rewrite E'. cbn [rbind Datatypes.app]. change (txof (neg (w_neg (n_settx (neg s) (fst (fst (ctx (txof (neg s))))) (snd (fst (ctx (txof (neg s))))) (n_txadps (neg s))) s)))
    with (fst (fst (ctx (txof (neg s)))), snd (fst (ctx (txof (neg s))))) in *. rewrite <- surjective_pairing in *.
  exists s'. destruct (ctx (txof (neg s))) as [t b] eqn:Ec. cbn [fst] in *. destruct (ctxs t n) as [t' l] eqn:Ec'. cbn [fst snd] in *. split; [|exact Et].
  do 3 f_equal. unfold ctx, txof in Ec. cbn [fst] in Ec. unfold txof. destruct (n_txbits (neg s) <=? 0); [injection Ec as <- <-; reflexivity|].
  destruct (n_txbits (neg s) =? 18); injection Ec as <- <-; reflexivity.
Qed.
Definition T0 : Z * Z := (0, -1).
Definition Ts : list (Z * Z) := T0 :: map (fun k => fst (ctxs T0 k)) (seq 1 36).
Definition peq (a b : Z * Z) : bool := (fst a =? fst b) && (snd a =? snd b).
Lemma Ts_closed : forall t, In t Ts -> In (fst (ctx t)) Ts.
Proof.
  assert (H : forallb (fun t => existsb (peq (fst (ctx t))) Ts) Ts = true) by (vm_compute; reflexivity).
  rewrite forallb_forall in H. intros t Ht. specialize (H t Ht). apply existsb_exists in H. destruct H as (u & Hu & E).
  unfold peq in E. apply andb_true_iff in E. destruct E as (E1 & E2). apply Z.eqb_eq in E1, E2.
  replace (fst (ctx t)) with u; [exact Hu|]. destruct u, (fst (ctx t)); cbn in *; congruence.
Qed.
Lemma Ts_reach n : forall t, In t Ts -> In (fst (ctxs t n)) Ts.
Proof.
  induction n as [|n IH]; intros t Ht; cbn [ctxs]; [exact Ht|]. pose proof (Ts_closed t Ht). destruct (ctx t) as [t1 b]. cbn [fst] in H.
  specialize (IH t1 H). destruct (ctxs t1 n). exact IH.
Qed.
Lemma ctxs_split n m : forall t, snd (ctxs t (n + m)) = snd (ctxs t n) ++ snd (ctxs (fst (ctxs t n)) m).
Proof.
  induction n as [|n IH]; intros t; [reflexivity|]. cbn [Nat.add ctxs]. destruct (ctx t) as [t1 b]. specialize (IH t1).
  destruct (ctxs t1 (n + m)) eqn:E1, (ctxs t1 n) eqn:E2. cbn [snd fst] in *. rewrite IH. reflexivity.
Qed.
Lemma ctxs_len n : forall t, length (snd (ctxs t n)) = n.
Proof. induction n as [|n IH]; intros t; [reflexivity|]. cbn [ctxs]. destruct (ctx t) as [t1 b]. specialize (IH t1). destruct (ctxs t1 n). cbn [snd length] in *. lia. Qed.
(** wherever the answerer starts to listen, [W] bits are enough *)
Definition W : nat := 120%nat.
Lemma Ts_heard : forall t, In t Ts -> hits false (snd (ctxs t W)) = true.
Proof. assert (H : forallb (fun t => hits false (snd (ctxs t W))) Ts = true) by (vm_compute; reflexivity). rewrite forallb_forall in H. exact H. Qed.
Lemma odp_sent_heard c a n : calling c = true -> detecting c -> calling a = false -> detecting a ->
  exists c' l a', tx_bits c (n + W) = Ok (c', [], l) /\ rx_bits a (skipn n l) = Ok (a', []) /\ n_odp (neg a') = true.
Proof.
  intros Hc (_ & Hn) Ha (_ & Hm). destruct (tx_bits_call (n + W) c Hc) as (c' & E & _). rewrite Hn in E. change (txof (mkN 0 0 (-1) 0 false 0 (-1) 0)) with T0 in E.
  eexists c', _, _. split; [exact E|]. rewrite rx_bits_ans by exact Ha. split; [reflexivity|]. cbn [neg w_neg]. rewrite Hm.
  rewrite ctxs_split, skipn_app, ctxs_len, Nat.sub_diag, skipn_all2 by (rewrite ctxs_len; apply le_n). cbn [skipn Datatypes.app].
  pose proof (Ts_heard _ (Ts_reach n T0 (or_introl eq_refl))) as H. unfold hits in H. cbn zeta in H. cbn [orb] in H. apply andb_true_iff in H. apply H.
Qed.


(** the answerer's turn *)
Definition fresh (c : bool) (a : list got) : v42 :=
  w_st DETECT (set_timer (w_neg n0 (v42_init c true a)) (ms_to_bits (v42_init c true a) T_400) T400).
Lemma fresh_is c a : v42_restart (v42_init c true a) = Ok (fresh c a, []).
Proof. reflexivity. Qed.
Lemma fresh_detecting c a : detecting (fresh c a).
Proof. split; reflexivity. Qed.
Lemma nrx_tx c n b : n_txbits (nrx c n b) = n_txbits n /\ n_txstream (nrx c n b) = n_txstream n /\ n_txadps (nrx c n b) = n_txadps n.
Proof. unfold nrx. repeat match goal with |- context [if ?x then _ else _] => destruct x end; auto. Qed.
Lemma nrxs_tx c l : forall n, n_txbits (nrxs c n l) = n_txbits n /\ n_txstream (nrxs c n l) = n_txstream n /\ n_txadps (nrxs c n l) = n_txadps n.
Proof.
  induction l as [|b l IH]; intros n; cbn [nrxs fold_left]; [auto|]. destruct (IH (nrx c n b)) as (A & B & C). destruct (nrx_tx c n b) as (A' & B' & C').
  unfold nrxs in *. rewrite A, B, C. auto.
Qed.
Lemma adps_sent x1 x2 x3 x4 a : exists s',
  tx_bits (w_neg (mkN x1 x2 x3 x4 true 0 (-1) 0) (fresh false a)) 325 = Ok (s', [Status IDLE; Flags], concat (repeat (adp 8 8) 9) ++ [true]) /\ st s' = IDLE.
Proof. eexists. split; [vm_compute; reflexivity|]. reflexivity. Qed.

Lemma rx_set_tx c n a b d x : nrx c (n_settx n a b d) x = n_settx (nrx c n x) a b d.
Proof.
  unfold nrx. cbn [n_settx n_step n_rxbits n_rxstream n_rxoks n_odp].
  repeat match goal with |- context [if ?x then _ else _] => destruct x end; reflexivity.
Qed.
Lemma rxs_set_tx c l : forall n a b d, nrxs c (n_settx n a b d) l = n_settx (nrxs c n l) a b d.
Proof. induction l as [|x l IH]; intros; cbn [nrxs fold_left]; [reflexivity|]. rewrite rx_set_tx. apply IH. Qed.
Lemma tx_call_rx n : forall s s' e l, calling s = true -> tx_bits s n = Ok (s', e, l) ->
  exists a b d, s' = w_neg (n_settx (neg s) a b d) s.
Proof.
  induction n as [|n IH]; intros s s' e l Hc E; cbn [tx_bits] in E.
  - injection E as <- <- <-. exists (n_txbits (neg s)), (n_txstream (neg s)), (n_txadps (neg s)). destruct s as []; destruct neg; reflexivity.
  - unfold negotiation_tx_bit in E. rewrite Hc in E.
    assert (Hk : forall a b d x, (do (s, e', l) <- tx_bits (w_neg (n_settx (neg s) a b d) s) n; Ok (s, [] ++ e', (x =? 1) :: l)) = Ok (s', e, l) ->
      exists a b d, s' = w_neg (n_settx (neg s) a b d) s).
    { intros a b d x H. destruct (tx_bits _ n) as [[[s2 e2] l2]|] eqn:E2; [|discriminate]. cbn [rbind] in H. injection H as <- _ _.
      destruct (IH (w_neg (n_settx (neg s) a b d) s) _ _ _ Hc E2) as (a' & b' & d' & ->). exists a', b', d'. reflexivity. }
    destruct (_ <=? 0); [exact (Hk _ _ _ _ E)|]. destruct (_ =? 18); exact (Hk _ _ _ _ E).
Qed.

Definition adps9 : list bool := concat (repeat (adp 8 8) 9) ++ [true].
(** the caller may start to listen anywhere within the first 216 bits *)
Definition late : list nat := seq 0 216.
Lemma adps_heard : forallb (fun j => hits true (skipn j adps9)) late = true.
Proof. vm_compute. reflexivity. Qed.

Lemma hit_call s l : calling s = true -> (n_step (neg s) =? 5) = false -> n_step (nrxs true (neg s) l) = 5 ->
  exists s', rx_bits s l = Ok (s', [Status IDLE]) /\ st s' = IDLE.
Proof.
  revert s. induction l as [|b l IH]; intros s Hc H5 H; [cbn in H; lia|]. cbn [rx_bits]. rewrite rx_bit_call by exact Hc. cbn zeta. rewrite H5. cbn [negb andb rbind].
  cbn [nrxs fold_left] in H. destruct (n_step (nrx true (neg s) b) =? 5) eqn:E5.
  - cbn [caller_hits rbind]. set (s1 := w_st IDLE _).
    assert (Hp : forall l s, calling s = true -> n_step (neg s) = 5 -> exists s', rx_bits s l = Ok (s', []) /\ st s' = st s).
    { clear. induction l as [|b l IH]; intros s Hc H5; cbn [rx_bits]; [eauto|]. rewrite rx_bit_call by exact Hc. cbn zeta. rewrite H5. cbn [Z.eqb Pos.eqb negb andb rbind].
      destruct (IH (w_neg (nrx true (neg s) b) s) Hc) as (s' & E & Es); [cbn [neg w_neg]; unfold nrx; rewrite H5; reflexivity|].
      exists s'. rewrite E. cbn [rbind]. auto. }
    destruct (Hp l s1 Hc) as (s' & E & Es); [apply Z.eqb_eq; exact E5|]. exists s'. rewrite E. cbn [rbind Datatypes.app]. auto.
  - cbn [rbind]. destruct (IH (w_neg (nrx true (neg s) b) s) Hc E5 H) as (s' & E & Es). exists s'. rewrite E. cbn [rbind Datatypes.app]. auto.
Qed.

Lemma detection_works ac aa n m j : (j < 216)%nat ->
  exists c a c1 l a1 a2 l2 e c2,
    v42_restart (v42_init true true ac) = Ok (c, []) /\ v42_restart (v42_init false true aa) = Ok (a, []) /\
    tx_bits c (n + 120) = Ok (c1, [], l) /\ rx_bits a (skipn n l) = Ok (a1, []) /\
    tx_bits a1 325 = Ok (a2, Status IDLE :: e, l2) /\ rx_bits c1 (ones m ++ skipn j l2) = Ok (c2, [Status IDLE]) /\
    st a2 = IDLE /\ st c2 = IDLE.
Proof.
  intros Hj. exists (fresh true ac), (fresh false aa).
  destruct (odp_sent_heard (fresh true ac) (fresh false aa) n eq_refl (fresh_detecting _ _) eq_refl (fresh_detecting _ _)) as (c1 & l & a1 & E1 & E2 & Ho).
  destruct (tx_call_rx _ (fresh true ac) _ _ _ eq_refl E1) as (a & b & d & Ec1).
  assert (Ea1 : a1 = w_neg (nrxs false n0 (skipn n l)) (fresh false aa)).
  { rewrite rx_bits_ans in E2 by reflexivity. injection E2 as <-. reflexivity. }
  rewrite Ea1 in Ho. cbn [neg w_neg] in Ho. destruct (nrxs_tx false (skipn n l) n0) as (X & Y & Z0).
  destruct (nrxs false n0 (skipn n l)) as [x1 x2 x3 x4 o y1 y2 y3]. cbn [n_odp n_txbits n_txstream n_txadps n0] in *. subst o y1 y2 y3.
  destruct (adps_sent x1 x2 x3 x4 aa) as (a2 & E3 & Es3). rewrite <- Ea1 in E3.
  assert (Hh : n_step (nrxs true n0 (ones m ++ skipn j adps9)) = 5).
  { rewrite nrxs_app, nrxs_idle. pose proof adps_heard as H. rewrite forallb_forall in H. specialize (H j). cbn beta in H.
    assert (Hi : In j late) by (unfold late; apply in_seq; lia). specialize (H Hi). unfold hits in H. cbn zeta in H. cbn [orb] in H. lia. }
  destruct (hit_call c1 (ones m ++ skipn j adps9)) as (c2 & E4 & Es4).
  { rewrite Ec1. reflexivity. } { rewrite Ec1. reflexivity. }
  { rewrite Ec1. cbn [neg w_neg]. rewrite rxs_set_tx. exact Hh. }
  exists c1, l, a1, a2, adps9, [Flags], c2. do 4 (split; [first [reflexivity | assumption]|]). split; [exact E3|]. split; [exact E4|]. auto.
Qed.
Lemma sixteen_ones_missed : exists s, detecting s /\ calling s = false /\
  exists s', rx_bits s (concat (repeat (odp 16 16) 100)) = Ok (s', []) /\ n_odp (neg s') = false.
Proof. exists (fresh false []). split; [apply fresh_detecting|]. split; [reflexivity|]. eexists. split; [vm_compute; reflexivity|reflexivity]. Qed.
Lemma refusal_taken : exists s, detecting s /\ calling s = true /\
  exists s', rx_bits s (adp_no_v42 8 8 ++ adp_no_v42 8 8 ++ [false]) = Ok (s', [Status IDLE]).
Proof. exists (fresh true []). split; [apply fresh_detecting|]. split; [reflexivity|]. eexists. vm_compute. reflexivity. Qed.
