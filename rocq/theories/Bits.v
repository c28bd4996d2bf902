(** Bit-list library shared by the bit-level models. *)
From Verif Require Import Base.
From Coq Require Import ZifyBool ZifyNat.
Ltac Zify.zify_post_hook ::= Z.div_mod_to_equations.

(** Pack bits into octets, least significant bit first, zero padded. *)
Fixpoint pack_fuel (of_bits : list bool -> Z) (fuel : nat) (l : list bool) : list Z :=
  match fuel with
  | O => []
  | S k => match l with
           | [] => []
           | _ => of_bits (firstn 8 (l ++ repeat false 7)) :: pack_fuel of_bits k (skipn 8 l)
           end
  end.
Definition pack_lsb (l : list bool) : list Z := pack_fuel of_bits_lsb (length l) l.
Definition pack_msb (l : list bool) : list Z := pack_fuel of_bits_msb (length l) l.
(** The bits of a list of octets in LSB first / MSB first order. *)
Definition unpack_lsb (l : list Z) : list bool := flat_map (bits_lsb 8) l.
Definition unpack_msb (l : list Z) : list bool := flat_map (bits_msb 8) l.

Lemma p2_pos n : 0 < 2 ^ Z.of_nat n.
Proof. apply Z.pow_pos_nonneg; lia. Qed.
Lemma of_bits_lsb_app a b : of_bits_lsb (a ++ b) = of_bits_lsb a + 2 ^ Z.of_nat (length a) * of_bits_lsb b.
Proof.
  induction a as [|x a IH]; cbn [app of_bits_lsb length].
  - change (2 ^ Z.of_nat 0) with 1. lia.
  - rewrite IH, Nat2Z.inj_succ, Z.pow_succ_r by lia. lia.
Qed.
Lemma of_bits_msb_app a b : of_bits_msb (a ++ b) = of_bits_msb a * 2 ^ Z.of_nat (length b) + of_bits_msb b.
Proof. unfold of_bits_msb. rewrite rev_app_distr, of_bits_lsb_app, rev_length. lia. Qed.
Lemma of_bits_msb_range l : 0 <= of_bits_msb l < 2 ^ Z.of_nat (length l).
Proof. unfold of_bits_msb. pose proof (of_bits_lsb_range (rev l)) as H. rewrite rev_length in H. exact H. Qed.
Lemma bits_msb_length n x : length (bits_msb n x) = n.
Proof. unfold bits_msb. rewrite rev_length. apply bits_lsb_length. Qed.
Lemma of_bits_msb_bits n x : 0 <= x < 2 ^ Z.of_nat n -> of_bits_msb (bits_msb n x) = x.
Proof. intros H. unfold of_bits_msb, bits_msb. rewrite rev_involutive. apply of_bits_lsb_bits, H. Qed.
Lemma bits_msb_of_bits l : bits_msb (length l) (of_bits_msb l) = l.
Proof. unfold of_bits_msb, bits_msb. rewrite <- (rev_length l), bits_lsb_of_bits. apply rev_involutive. Qed.

Lemma lor_disj a b k : 0 <= k -> 0 <= a < 2 ^ k -> Z.lor a (b * 2 ^ k) = a + b * 2 ^ k.
Proof.
  intros Hk Ha. symmetry.
  rewrite <- Z.lxor_lor; [apply Z.add_nocarry_lxor|].
  - apply Z.bits_inj'. intros i Hi. rewrite Z.bits_0, Z.land_spec.
    destruct (Z_lt_le_dec i k).
    + rewrite Z.mul_pow2_bits_low by lia. apply andb_false_r.
    + replace (Z.testbit a i) with false; [reflexivity|]. symmetry.
      destruct (Z.eq_dec a 0) as [->|]; [apply Z.bits_0|]. apply Z.bits_above_log2; [lia|].
      assert (Z.log2 a < k) by (apply Z.log2_lt_pow2; lia). lia.
  - apply Z.bits_inj'. intros i Hi. rewrite Z.bits_0, Z.land_spec.
    destruct (Z_lt_le_dec i k).
    + rewrite Z.mul_pow2_bits_low by lia. apply andb_false_r.
    + replace (Z.testbit a i) with false; [reflexivity|]. symmetry.
      destruct (Z.eq_dec a 0) as [->|]; [apply Z.bits_0|]. apply Z.bits_above_log2; [lia|].
      assert (Z.log2 a < k) by (apply Z.log2_lt_pow2; lia). lia.
Qed.
Lemma land_mask x k : 0 <= k -> Z.land x (Z.shiftl 1 k - 1) = x mod 2 ^ k.
Proof.
  intros Hk. rewrite Z.shiftl_1_l. replace (2 ^ k - 1) with (Z.ones k) by (rewrite Z.ones_equiv; lia).
  apply Z.land_ones; lia.
Qed.
Lemma land_ff_mod x : Z.land x 0xFF = x mod 256.
Proof. change 0xFF with (Z.ones 8). rewrite Z.land_ones by lia. reflexivity. Qed.
Lemma bits_lsb_mod n x : bits_lsb n (x mod 2 ^ Z.of_nat n) = bits_lsb n x.
Proof.
  apply nth_ext with (d := false) (d' := false); [rewrite !bits_lsb_length; reflexivity|].
  intros i Hi. rewrite bits_lsb_length in Hi. rewrite !nth_bits_lsb by lia. apply Z.mod_pow2_bits_low. lia.
Qed.
Lemma bits_msb_mod n x : bits_msb n (x mod 2 ^ Z.of_nat n) = bits_msb n x.
Proof. unfold bits_msb. rewrite bits_lsb_mod. reflexivity. Qed.
Lemma of_bits_lsb_mod n x : of_bits_lsb (bits_lsb n x) = x mod 2 ^ Z.of_nat n.
Proof. rewrite <- bits_lsb_mod. apply of_bits_lsb_bits. apply Z.mod_pos_bound, p2_pos. Qed.
Lemma of_bits_msb_mod n x : of_bits_msb (bits_msb n x) = x mod 2 ^ Z.of_nat n.
Proof. rewrite <- bits_msb_mod. apply of_bits_msb_bits. apply Z.mod_pos_bound, p2_pos. Qed.

Section Pack.
Variable ofb : list bool -> Z.
Lemma pack_fuel_enough f g l : (length l <= f)%nat -> (length l <= g)%nat -> pack_fuel ofb f l = pack_fuel ofb g l.
Proof.
  revert g l; induction f as [|f IH]; intros g l Hf Hg.
  - destruct l; [destruct g; reflexivity|cbn in Hf; lia].
  - destruct g as [|g]; [destruct l; [reflexivity|cbn in Hg; lia]|].
    cbn [pack_fuel]. destruct l as [|b l]; [reflexivity|]. f_equal.
    apply IH; rewrite skipn_length; cbn [length] in *; lia.
Qed.
Definition pack l := pack_fuel ofb (length l) l.
Lemma pack_nil : pack [] = []. Proof. reflexivity. Qed.
Lemma pack_app8 a l : length a = 8%nat -> pack (a ++ l) = ofb a :: pack l.
Proof.
  intros Ha. unfold pack. rewrite app_length, Ha. change (8 + length l)%nat with (S (7 + length l)).
  cbn [pack_fuel]. destruct (a ++ l) as [|b t] eqn:E; [apply (f_equal (@length bool)) in E; rewrite app_length, Ha in E; cbn in E; lia|].
  rewrite <- E. f_equal.
  - f_equal. rewrite <- app_assoc, firstn_app, Ha, firstn_all2 by lia. cbn [Nat.sub firstn]. apply app_nil_r.
  - rewrite skipn_app, Ha, skipn_all2 by lia. cbn [Nat.sub skipn app]. apply pack_fuel_enough; lia.
Qed.
Lemma pack_last a : (0 < length a < 8)%nat -> pack a = [ofb (a ++ repeat false (8 - length a))].
Proof.
  intros Ha. unfold pack. destruct (length a) eqn:El; [lia|]. cbn [pack_fuel].
  destruct a as [|b a]; [cbn in El; lia|].
  rewrite skipn_all2 by lia. replace (pack_fuel ofb n []) with (@nil Z) by (destruct n; reflexivity).
  do 2 f_equal. rewrite firstn_app, El, firstn_all2 by lia. f_equal.
  rewrite <- (firstn_skipn (8 - S n) (repeat false 7)) at 1.
  rewrite firstn_app, firstn_firstn, Nat.min_id, firstn_length, repeat_length.
  replace (8 - S n - Nat.min (8 - S n) 7)%nat with 0%nat by lia. cbn [firstn]. rewrite app_nil_r.
  clear - Ha El. do 8 (destruct n as [|n]; [reflexivity|]); lia.
Qed.
End Pack.
Lemma pack_lsb_eq l : pack_lsb l = pack of_bits_lsb l. Proof. reflexivity. Qed.
Lemma pack_msb_eq l : pack_msb l = pack of_bits_msb l. Proof. reflexivity. Qed.

Lemma bits_of_pack_gen ofb bitsf (Hb : forall l, length l = 8%nat -> bitsf (ofb l) = l) l :
  exists pad, (pad < 8)%nat /\ flat_map bitsf (pack ofb l) = l ++ repeat false pad.
Proof.
  remember (length l) as n eqn:E. revert l E. induction n as [n IH] using lt_wf_ind. intros l ->.
  destruct (le_lt_dec 8 (length l)).
  - destruct (IH (length (skipn 8 l)) ltac:(rewrite skipn_length; lia) (skipn 8 l) eq_refl) as (p & Hp & Ep).
    exists p. split; auto. rewrite <- (firstn_skipn 8 l) at 1. rewrite pack_app8 by (rewrite firstn_length; lia).
    cbn [flat_map]. rewrite Hb by (rewrite firstn_length; lia). rewrite Ep, app_assoc, firstn_skipn. reflexivity.
  - destruct (Nat.eq_dec (length l) 0).
    + destruct l; [|cbn in *; lia]. exists 0%nat. split; [lia|reflexivity].
    + rewrite pack_last by lia. exists (8 - length l)%nat. split; [lia|]. cbn [flat_map].
      rewrite Hb, app_nil_r by (rewrite app_length, repeat_length; lia). reflexivity.
Qed.
Lemma unpack_pack_lsb l : exists pad, (pad < 8)%nat /\ unpack_lsb (pack_lsb l) = l ++ repeat false pad.
Proof. apply (bits_of_pack_gen of_bits_lsb (bits_lsb 8)). intros x Hx. rewrite <- Hx. apply bits_lsb_of_bits. Qed.
Lemma unpack_pack_msb l : exists pad, (pad < 8)%nat /\ unpack_msb (pack_msb l) = l ++ repeat false pad.
Proof. apply (bits_of_pack_gen of_bits_msb (bits_msb 8)). intros x Hx. rewrite <- Hx. apply bits_msb_of_bits. Qed.
Lemma flat_map_bits_length (f : Z -> list bool) (Hf : forall x, length (f x) = 8%nat) (l : list Z) : length (flat_map f l) = (8 * length l)%nat.
Proof. induction l as [|x l IH]; [reflexivity|]. cbn [flat_map]. rewrite app_length, Hf, IH. cbn [length]. lia. Qed.
Lemma pack_lsb_length l : length (pack_lsb l) = ((length l + 7) / 8)%nat.
Proof.
  destruct (unpack_pack_lsb l) as (p & Hp & E). apply (f_equal (@length bool)) in E.
  unfold unpack_lsb in E. rewrite (flat_map_bits_length (bits_lsb 8) (bits_lsb_length 8)), app_length, repeat_length in E.
  lia.
Qed.
Lemma pack_msb_length l : length (pack_msb l) = ((length l + 7) / 8)%nat.
Proof.
  destruct (unpack_pack_msb l) as (p & Hp & E). apply (f_equal (@length bool)) in E.
  unfold unpack_msb in E. rewrite (flat_map_bits_length (bits_msb 8) (bits_msb_length 8)), app_length, repeat_length in E.
  lia.
Qed.
