(** The rows of a stream of octets, and of the same stream with octets of fill added. *)
From Coq Require Import ZifyBool ZifyNat.
From Verif Require Import Base Bits BitOps_model BitOps_proofs NonEcm_model NonEcm_spec.

Definition lead (b : Z) : Z := 7 - top_bit b.
Definition low (b : Z) : list bool := skipn (Z.to_nat (8 - top_bit b)) (bits_msb 8 b).
Lemma rows_zero z row t : rows_of z row (bits_msb 8 0 ++ t) = rows_of (z + 8) (row ++ repeat false 8) t.
Proof.
  change (bits_msb 8 0) with (repeat false 8). cbn [repeat app rows_of]. rewrite <- !app_assoc. cbn [app]. f_equal. lia.
Qed.
Fixpoint tz (z : Z) (l : list bool) : Z := match l with [] => z | true :: t => tz 0 t | false :: t => tz (z + 1) t end.
Lemma rows_zeros k : forall z row t, rows_of z row (repeat false k ++ t) = rows_of (z + Z.of_nat k) (row ++ repeat false k) t.
Proof.
  induction k as [|k IH]; intros; cbn [repeat app rows_of]; [rewrite app_nil_r; f_equal; lia|]. rewrite IH, <- app_assoc. cbn [app]. f_equal. lia.
Qed.
Lemma rows_short r : forall z row t, 0 <= z -> z + Z.of_nat (length r) <= 11 -> rows_of z row (r ++ t) = rows_of (tz z r) (row ++ r) t.
Proof.
  induction r as [|x r IH]; intros z row t Hz Hl; cbn [length app tz rows_of] in *; [rewrite app_nil_r; auto|]. destruct x.
  - destruct (Z.leb_spec 11 z); [lia|]. rewrite IH by lia. rewrite <- app_assoc. reflexivity.
  - rewrite IH by lia. rewrite <- app_assoc. reflexivity.
Qed.
Definition octet_facts (b : Z) : bool :=
  (forallb (fun p => Bool.eqb (fst p) (snd p)) (combine (bits_msb 8 b) (repeat false (Z.to_nat (lead b)) ++ true :: low b)) &&
   (Nat.eqb (length (repeat false (Z.to_nat (lead b)) ++ true :: low b)) 8) && (tz 0 (low b) =? bottom_bit b) && (0 <=? top_bit b) && (top_bit b <=? 7) && (0 <=? bottom_bit b) && (bottom_bit b <=? 7))%bool.
Lemma octet_sweep : forallb octet_facts (map Z.of_nat (seq 1 255)) = true.
Proof. vm_compute. reflexivity. Qed.
Lemma eqb_list (l m : list bool) : length l = length m -> forallb (fun p => Bool.eqb (fst p) (snd p)) (combine l m) = true -> l = m.
Proof.
  revert m; induction l as [|x l IH]; intros [|y m] L H; cbn [length combine forallb fst snd] in *; try discriminate; auto.
  apply andb_true_iff in H as [H1 H2]. apply Bool.eqb_prop in H1. subst. f_equal. apply IH; auto.
Qed.
Lemma octet_split b : byte b -> b <> 0 ->
  bits_msb 8 b = repeat false (Z.to_nat (lead b)) ++ true :: low b /\ tz 0 (low b) = bottom_bit b /\ 0 <= top_bit b <= 7 /\ 0 <= bottom_bit b <= 7 /\ Z.of_nat (length (low b)) = top_bit b.
Proof.
  intros Hb Hn. unfold byte in Hb. pose proof octet_sweep as S. rewrite forallb_forall in S. specialize (S b).
  assert (HS : octet_facts b = true). { apply S. apply in_map_iff. exists (Z.to_nat b). split; [lia|]. apply in_seq. lia. }
  unfold octet_facts in HS. rewrite !andb_true_iff in HS. destruct HS as [[[[[[H1 H2] H3] H4] H5] H6] H7]. apply Nat.eqb_eq in H2.
  split; [apply eqb_list; auto; rewrite bits_msb_length; auto|]. rewrite app_length, repeat_length in H2. cbn [length] in H2. unfold lead in *. repeat split; lia.
Qed.
Lemma rows_octet b z row t : byte b -> b <> 0 -> 0 <= z ->
  rows_of z row (bits_msb 8 b ++ t) =
    if 11 <=? z + lead b then let '(rs, tl) := rows_of (bottom_bit b) (low b) t in ((row ++ repeat false (Z.to_nat (lead b)) ++ [true]) :: rs, tl)
    else rows_of (bottom_bit b) (row ++ bits_msb 8 b) t.
Proof.
  intros Hb Hn Hz. destruct (octet_split b Hb Hn) as (E & E1 & E2 & E3 & E4). rewrite E, <- app_assoc, rows_zeros. cbn [app rows_of]. unfold lead in *.
  replace (z + Z.of_nat (Z.to_nat (7 - top_bit b))) with (z + (7 - top_bit b)) by lia. destruct (Z.leb_spec 11 (z + (7 - top_bit b))).
  - rewrite rows_short by lia. rewrite E1. cbn [app]. destruct (rows_of (bottom_bit b) (low b) t). rewrite <- app_assoc. reflexivity.
  - rewrite rows_short by lia. rewrite E1, <- !app_assoc. reflexivity.
Qed.

(** ---- octets with marks: fill may go in front of a marked octet ---- *)
Definition item := (Z * bool)%type.
Inductive Ins : list item -> list Z -> Prop :=
| ins_nil : Ins [] []
| ins_oct x k W O : Ins W O -> Ins ((x, k) :: W) (x :: O)
| ins_fill x W O : Ins ((x, true) :: W) O -> Ins ((x, true) :: W) (0 :: O).
Lemma ins_plain W : Ins W (map fst W).
Proof. induction W as [|[x k] W IH]; cbn [map fst]; constructor; auto. Qed.
Lemma ins_marked x W O : Ins ((x, true) :: W) O -> exists n O', O = repeat 0 n ++ x :: O' /\ Ins W O'.
Proof.
  intros H. remember ((x, true) :: W) as V eqn:EV. revert x W EV. induction H as [|y k V out H IH|y V out H IH]; intros x W EV; [discriminate| |].
  - inversion EV; subst. exists 0%nat, out. auto.
  - inversion EV; subst. destruct (IH x W eq_refl) as (n & O' & -> & H2). exists (S n), O'. auto.
Qed.
Lemma ins_unmarked x W O : Ins ((x, false) :: W) O -> exists O', O = x :: O' /\ Ins W O'.
Proof. intros H. inversion H; subst. eauto. Qed.
Lemma ins_zeros n W O : Ins (repeat (0, false) n ++ W) O -> exists O', O = repeat 0 n ++ O' /\ Ins W O'.
Proof.
  revert O; induction n as [|n IH]; intros O H; cbn [repeat app] in *; [eauto|]. apply ins_unmarked in H as (O' & -> & H). apply IH in H as (O2 & -> & H). eauto.
Qed.

(** zeros just seen, and the row length as the code counts it *)
Definition short_by (m row : Z) : Z := if m <=? row then 0 else (m - row + 7) / 8.
Definition is_eol (z b : Z) : bool := (negb (b =? 0) && (11 <=? z + lead b))%bool.
Definition b2b (row : Z) : bool := ((12 <=? row) && (row <=? 13))%bool.
Definition items (m z r b : Z) : list item :=
  if is_eol z b
  then let row := r + (8 - top_bit b) in if b2b row then [(b, false)] else repeat (0, false) (Z.to_nat (short_by m row)) ++ [(b, true)]
  else [(b, false)].
Definition next_z (z b : Z) : Z := if b =? 0 then z + 8 else bottom_bit b.
Definition next_r (z r b : Z) : Z := if is_eol z b then top_bit b else r + 8.
Fixpoint marks (m z r : Z) (inp : list Z) : list item :=
  match inp with [] => [] | b :: t => items m z r b ++ marks m (next_z z b) (next_r z r b) t end.
Fixpoint end_z (z : Z) (inp : list Z) : Z := match inp with [] => z | b :: t => end_z (next_z z b) t end.
Fixpoint end_r (z r : Z) (inp : list Z) : Z := match inp with [] => r | b :: t => end_r (next_z z b) (next_r z r b) t end.
Lemma marks_app m a b : forall z r, marks m z r (a ++ b) = marks m z r a ++ marks m (end_z z a) (end_r z r a) b.
Proof. induction a as [|x a IH]; intros; cbn [app marks end_z end_r]; auto. rewrite IH, app_assoc. reflexivity. Qed.
Lemma end_z_app a b : forall z, end_z z (a ++ b) = end_z (end_z z a) b.
Proof. induction a as [|x a IH]; intros; cbn [app end_z]; auto. Qed.
Lemma end_r_app a b : forall z r, end_r z r (a ++ b) = end_r (end_z z a) (end_r z r a) b.
Proof. induction a as [|x a IH]; intros; cbn [app end_z end_r]; auto. Qed.
Lemma next_z_pos z b : byte b -> 0 <= z -> 0 <= next_z z b.
Proof. intros Hb Hz. unfold next_z. destruct (Z.eqb_spec b 0); [lia|]. destruct (octet_split b Hb n) as (_ & _ & _ & H & _). lia. Qed.

Lemma rows_octets0 n : forall z row t, rows_of z row (unpack_msb (repeat 0 n) ++ t) = rows_of (z + 8 * Z.of_nat n) (row ++ repeat false (8 * n)) t.
Proof.
  intros. replace (unpack_msb (repeat 0 n)) with (repeat false (8 * n)). { rewrite rows_zeros. f_equal. lia. }
  induction n as [|n IH]; auto. replace (8 * S n)%nat with (8 + 8 * n)%nat by lia. rewrite repeat_app, IH. reflexivity.
Qed.
Lemma unpack_msb_app a b : unpack_msb (a ++ b) = unpack_msb a ++ unpack_msb b.
Proof. unfold unpack_msb. apply flat_map_app. Qed.
Lemma unpack_msb_cons a b : unpack_msb (a :: b) = bits_msb 8 a ++ unpack_msb b. Proof. reflexivity. Qed.

Lemma forwarded m inp : bytes inp -> forall z r off row O, 0 <= z -> Z.of_nat (length row) = r + off -> Ins (marks m z r inp) O ->
  exists rs rs' tl, rows_of z row (unpack_msb inp) = (rs, tl) /\ rows_of z row (unpack_msb O) = (rs', tl) /\ rows_padded off m rs rs'.
Proof.
  induction inp as [|b inp IH]; intros Hb z r off row O Hz Hr HI; cbn [marks] in HI.
  - inversion HI; subst. exists [], [], row. split; [|split]; cbn; auto.
  - apply Forall_cons_iff in Hb as [Hb Hbs]. pose proof (next_z_pos z b Hb Hz) as Hz'. rewrite unpack_msb_cons. unfold items, is_eol, next_z, next_r, is_eol in *.
    destruct (Z.eqb_spec b 0) as [->|Hn]; cbn [negb andb] in *.
    + cbn [app] in HI. apply ins_unmarked in HI as (O' & -> & HI). rewrite unpack_msb_cons, !rows_zero.
      apply IH with (1 := Hbs) (off := off) (row := row ++ repeat false 8) in HI; auto. rewrite app_length, repeat_length. lia.
    + destruct (octet_split b Hb Hn) as (E & E1 & E2 & E3 & E4). rewrite rows_octet by auto. unfold lead in *.
      destruct (Z.leb_spec 11 (z + (7 - top_bit b))).
      * assert (Rest : forall O', Ins (marks m (bottom_bit b) (top_bit b) inp) O' -> exists rs rs' tl, rows_of (bottom_bit b) (low b) (unpack_msb inp) = (rs, tl) /\ rows_of (bottom_bit b) (low b) (unpack_msb O') = (rs', tl) /\ rows_padded 0 m rs rs').
        { intros O' H'. eapply IH; eauto; lia. }
        assert (Ll : Z.of_nat (length (row ++ repeat false (Z.to_nat (7 - top_bit b)) ++ [true])) = r + (8 - top_bit b) + off) by (rewrite !app_length, repeat_length; cbn [length]; lia).
        destruct (b2b (r + (8 - top_bit b))) eqn:Eb; unfold b2b in Eb.
        -- cbn [app] in HI. apply ins_unmarked in HI as (O' & -> & HI). destruct (Rest _ HI) as (rs & rs' & tl & R1 & R2 & R3).
           rewrite unpack_msb_cons, rows_octet by auto. unfold lead. destruct (Z.leb_spec 11 (z + (7 - top_bit b))); [|lia]. rewrite R1, R2.
           eexists _, _, tl. split; [reflexivity|]. split; [reflexivity|]. split; auto. exists (row ++ repeat false (Z.to_nat (7 - top_bit b))), 0%nat.
           rewrite <- app_assoc. split; auto. split; [cbn [Nat.mul repeat app]; rewrite <- app_assoc; auto|]. split; auto. intros. rewrite Ll in *. lia.
        -- rewrite <- app_assoc in HI. apply ins_zeros in HI as (O1 & -> & HI). cbn [app] in HI. apply ins_marked in HI as (n & O' & -> & HI).
           destruct (Rest _ HI) as (rs & rs' & tl & R1 & R2 & R3). rewrite !unpack_msb_app, !rows_octets0, unpack_msb_cons, rows_octet by (auto; lia).
           unfold lead. destruct (Z.leb_spec 11 (z + 8 * Z.of_nat (Z.to_nat (short_by m (r + (8 - top_bit b)))) + 8 * Z.of_nat n + (7 - top_bit b))); [|lia]. rewrite R1, R2.
           eexists _, _, tl. split; [reflexivity|]. split; [reflexivity|]. split; auto.
           exists (row ++ repeat false (Z.to_nat (7 - top_bit b))), (Z.to_nat (short_by m (r + (8 - top_bit b))) + n)%nat. rewrite <- app_assoc. split; auto. split.
           { rewrite <- !app_assoc. f_equal. rewrite !app_assoc, <- !repeat_app. f_equal. f_equal. lia. }
           split; [intros; rewrite Ll in *; lia|]. intros _. rewrite !app_length, !repeat_length. cbn [length].
           assert (0 <= short_by m (r + (8 - top_bit b)) /\ m <= r + (8 - top_bit b) + 8 * short_by m (r + (8 - top_bit b))) by (unfold short_by; destruct (Z.leb_spec m (r + (8 - top_bit b))); Z.div_mod_to_equations; lia). lia.
      * cbn [app] in HI. apply ins_unmarked in HI as (O' & -> & HI). rewrite unpack_msb_cons, rows_octet by auto. unfold lead. destruct (Z.leb_spec 11 (z + (7 - top_bit b))); [lia|].
        apply IH with (1 := Hbs) (off := off) (row := row ++ bits_msb 8 b) in HI; auto. rewrite app_length, bits_msb_length. lia.
Qed.
