From Verif Require Import Base BitOps_model BitOps_proofs G711_model G726_model G726_spec.
From Coq Require Import ZifyBool ZifyNat.
Local Open Scope Z_scope.

Definition i16 (x : Z) : Prop := -32768 <= x <= 32767.
Lemma s16_range x : i16 (s16 x). Proof. unfold i16, s16. pose proof (Z.mod_pos_bound (x + 32768) 65536). lia. Qed.
Lemma s16_id x : i16 x -> s16 x = x. Proof. unfold i16, s16. intros H. rewrite Z.mod_small; lia. Qed.
Lemma u32_id x : 0 <= x < 4294967296 -> u32 x = x. Proof. intros H. unfold u32. apply Z.mod_small. lia. Qed.
Lemma shl_ok x n : 0 <= n <= 31 -> shl x n = Ok (Z.shiftl x n).
Proof. intros H. unfold shl. replace ((0 <=? n) && (n <=? 31)) with true by lia. reflexivity. Qed.
Lemma shr_ok x n : 0 <= n <= 31 -> shr x n = Ok (Z.shiftr x n).
Proof. intros H. unfold shr. replace ((0 <=? n) && (n <=? 31)) with true by lia. reflexivity. Qed.

Lemma top_bit_log2 x : 0 < x < 4294967296 -> top_bit x = Z.log2 x.
Proof.
  intros H. pose proof (Z.log2_spec x ltac:(lia)). pose proof (Z.log2_nonneg x).
  assert (Z.log2 x < 32) by (apply Z.log2_lt_pow2; lia).
  apply top_bit_ok; lia.
Qed.
Lemma top_bit_lt x k : 0 <= k <= 32 -> 0 <= x < 2 ^ k -> -1 <= top_bit x < k.
Proof.
  intros Hk H. destruct (Z.eq_dec x 0) as [-> | Hx]; [cbn; lia|].
  assert (2 ^ k <= 2 ^ 32) by (apply Z.pow_le_mono_r; lia). change (2 ^ 32) with 4294967296 in *.
  rewrite top_bit_log2 by lia. pose proof (Z.log2_nonneg x).
  assert (Z.log2 x < k) by (apply Z.log2_lt_pow2; lia). lia.
Qed.

(** ---- the quantiser ---- *)
Definition dlog (n : Z) : Z :=
  let e := top_bit (Z.shiftr n 1) + 1 in Z.shiftl e 7 + Z.land (Z.shiftr (Z.shiftl n 7) e) 127.
Lemma dlog_range n : 0 <= n <= 32767 -> 0 <= dlog n < 2048.
Proof.
  intros H. unfold dlog.
  assert (0 <= Z.shiftr n 1 < 2 ^ 14) by (rewrite Z.shiftr_div_pow2 by lia; change (2 ^ 1) with 2; change (2 ^ 14) with 16384; Z.div_mod_to_equations; lia).
  pose proof (top_bit_lt (Z.shiftr n 1) 14 ltac:(lia) ltac:(lia)).
  rewrite Z.shiftl_mul_pow2 by lia. change (2 ^ 7) with 128.
  change 127 with (Z.ones 7). rewrite Z.land_ones by lia.
  pose proof (Z.mod_pos_bound (Z.shiftr (Z.shiftl n 7) (top_bit (Z.shiftr n 1) + 1)) (2 ^ 7)). change (2 ^ 7) with 128 in *. lia.
Qed.
Lemma dlog_step n : 0 <= n < 32767 -> dlog n <= dlog (n + 1).
Proof.
  intros H.
  assert (E : all_below_from (Z.to_nat 32767) 0 (fun n => dlog n <=? dlog (n + 1)) = true) by (vm_compute; reflexivity).
  pose proof (sweep 32767 _ E n ltac:(lia)). cbv beta in *. lia.
Qed.
Lemma dlog_mono n m : 0 <= n <= m -> m <= 32767 -> dlog n <= dlog m.
Proof.
  intros H Hm.
  assert (G : forall k : nat, n + Z.of_nat k <= 32767 -> dlog n <= dlog (n + Z.of_nat k)).
  { induction k as [|k IH]; intros Hk; [rewrite Z.add_0_r; lia|].
    pose proof (dlog_step (n + Z.of_nat k) ltac:(lia)).
    replace (n + Z.of_nat (S k)) with (n + Z.of_nat k + 1) by lia. specialize (IH ltac:(lia)). lia. }
  specialize (G (Z.to_nat (m - n)) ltac:(lia)). replace (n + Z.of_nat (Z.to_nat (m - n))) with m in G by lia. exact G.
Qed.

(** The first entry above [x]. *)
Fixpoint first_above (t : list Z) (x : Z) : Z :=
  match t with [] => 0 | h :: t => if x <? h then 0 else 1 + first_above t x end.
Lemma first_above_range t x : 0 <= first_above t x <= Z.of_nat (length t).
Proof. induction t as [|h t IH]; cbn [first_above length]; [lia|]. destruct (x <? h); lia. Qed.
Lemma first_above_mono t x y : x <= y -> first_above t x <= first_above t y.
Proof.
  intros H. induction t as [|h t IH]; cbn [first_above]; [lia|].
  pose proof (first_above_range t y). destruct (Z.ltb_spec x h), (Z.ltb_spec y h); lia.
Qed.
Lemma search_first t : forall pre x,
  search (pre ++ t) (length t) (Z.of_nat (length pre)) x = Ok (Z.of_nat (length pre) + first_above t x).
Proof.
  induction t as [|h t IH]; intros pre x; cbn [length search first_above]; [f_equal; lia|].
  unfold aget, in_bounds. rewrite app_length. cbn [length].
  replace ((0 <=? Z.of_nat (length pre)) && (Z.of_nat (length pre) <? Z.of_nat (length pre + S (length t)))) with true by lia.
  cbn [rbind]. rewrite Nat2Z.id, app_nth2, Nat.sub_diag by lia. cbn [nth].
  destruct (x <? h); [f_equal; lia|].
  specialize (IH (pre ++ [h]) x). rewrite <- app_assoc, app_length in IH. cbn [app length] in IH.
  replace (Z.of_nat (length pre) + 1) with (Z.of_nat (length pre + 1)) by lia. rewrite IH. f_equal. lia.
Qed.

Definition size (r : rate) : Z := Z.of_nat (length (qtab r)).
Definition level (r : rate) (y d : Z) : Z := first_above (qtab r) (dlog (Z.abs d) - Z.shiftr y 2).
(** The rank of the quantiser's interval, in order of the difference. *)
Definition rank (r : rate) (y d : Z) : Z :=
  let i := level r y d in
  if d <? 0 then size r - i
  else if (i =? 0) && negb (Z.land (states r) 1 =? 0) then sign_bit r - 1
  else sign_bit r + i.
Lemma level_range r y d : 0 <= level r y d <= size r.
Proof. apply first_above_range. Qed.

Lemma quantize_rank r y d : Z.abs d <= 32767 -> 544 <= y <= 5120 ->
  exists c, quantize d y (qtab r) (states r) = Ok c /\ sent_code r c /\ 0 <= rank r y d < 2 * sign_bit r /\
            c = Z.lxor (rank r y d) (sign_bit r) /\ Z.lxor c (sign_bit r) = rank r y d.
Proof.
  intros Hd Hy. unfold quantize.
  rewrite (s16_id (Z.abs d)) by (unfold i16; lia).
  assert (Hs : 0 <= Z.shiftr (Z.abs d) 1 < 2 ^ 14) by (rewrite Z.shiftr_div_pow2 by lia; change (2 ^ 1) with 2; change (2 ^ 14) with 16384; Z.div_mod_to_equations; lia).
  pose proof (top_bit_lt (Z.shiftr (Z.abs d) 1) 14 ltac:(lia) Hs) as Ht.
  change (2 ^ 14) with 16384 in Hs.
  rewrite (u32_id (Z.shiftr (Z.abs d) 1)) by lia.
  rewrite (s16_id (top_bit _ + 1)) by (unfold i16; lia).
  rewrite shr_ok by lia. cbn [rbind].
  pose proof (dlog_range (Z.abs d) ltac:(lia)) as Hr.
  rewrite (s16_id (Z.land _ _)).
  2:{ change 0x7F with (Z.ones 7). rewrite Z.land_ones by lia. unfold i16.
      pose proof (Z.mod_pos_bound (Z.shiftr (Z.shiftl (Z.abs d) 7) (top_bit (Z.shiftr (Z.abs d) 1) + 1)) (2 ^ 7)). change (2 ^ 7) with 128 in *. lia. }
  change (Z.shiftl (top_bit (Z.shiftr (Z.abs d) 1) + 1) 7 + Z.land (Z.shiftr (Z.shiftl (Z.abs d) 7) (top_bit (Z.shiftr (Z.abs d) 1) + 1)) 127) with (dlog (Z.abs d)).
  assert (Hy2 : 136 <= Z.shiftr y 2 <= 1280) by (rewrite Z.shiftr_div_pow2 by lia; change (2 ^ 2) with 4; Z.div_mod_to_equations; lia).
  rewrite (s16_id (dlog (Z.abs d))) by (unfold i16; lia).
  rewrite (s16_id (Z.shiftr y 2)) by (unfold i16; lia).
  rewrite (s16_id (dlog (Z.abs d) - Z.shiftr y 2)) by (unfold i16; lia).
  pose proof (search_first (qtab r) [] (dlog (Z.abs d) - Z.shiftr y 2)) as Hq. cbn [app length] in Hq. rewrite !Z.add_0_l in Hq.
  change (Z.of_nat 0) with 0 in Hq.
  replace (Z.to_nat (Z.shiftr (states r - 1) 1)) with (length (qtab r)) by (destruct r; reflexivity).
  rewrite Hq. cbn [rbind]. fold (level r y d).
  pose proof (level_range r y d) as Hl. unfold rank.
  assert (E : Z.shiftl (Z.shiftr (states r - 1) 1) 1 + 1 = 2 * size r + 1) by (destruct r; reflexivity). rewrite E.
  set (i := level r y d) in *. clearbody i. clear - Hl.
  assert (Hi : 0 <= i < 16) by (destruct r; cbn in Hl; lia).
  assert (G : forall n, 0 <= n < 16 -> n <= size r ->
     sent_code r (s16 (2 * size r + 1 - n)) /\ 0 <= size r - n < 2 * sign_bit r /\
     s16 (2 * size r + 1 - n) = Z.lxor (size r - n) (sign_bit r) /\ Z.lxor (s16 (2 * size r + 1 - n)) (sign_bit r) = size r - n).
  { intros n Hn Hn2.
    assert (C : n = 0 \/ n = 1 \/ n = 2 \/ n = 3 \/ n = 4 \/ n = 5 \/ n = 6 \/ n = 7 \/ n = 8 \/ n = 9 \/ n = 10 \/ n = 11 \/ n = 12 \/ n = 13 \/ n = 14 \/ n = 15) by lia.
    destruct r; cbn in Hn2; (repeat destruct C as [-> | C]; try subst n; try lia); unfold sent_code, any_code; cbn; repeat split; intros; lia. }
  destruct (d <? 0).
  { destruct (G i Hi ltac:(lia)) as (? & ? & ? & ?). eexists; repeat split; try eassumption; try lia. all: destruct H as [? ?]; auto. all: destruct H; auto. }
  destruct ((i =? 0) && negb (Z.land (states r) 1 =? 0)) eqn:E0.
  { exists (s16 (states r)). split; [reflexivity|]. destruct r; cbn in E0; rewrite ?andb_false_r in E0; try discriminate; unfold sent_code, any_code; cbn; repeat split; intros; lia. }
  exists (s16 i). split; [reflexivity|].
  assert (C : i = 0 \/ i = 1 \/ i = 2 \/ i = 3 \/ i = 4 \/ i = 5 \/ i = 6 \/ i = 7 \/ i = 8 \/ i = 9 \/ i = 10 \/ i = 11 \/ i = 12 \/ i = 13 \/ i = 14 \/ i = 15) by lia.
  destruct r; cbn in Hl; (repeat destruct C as [-> | C]; try subst i; try lia); cbn in E0; try discriminate; unfold sent_code, any_code; cbn; repeat split; intros; try lia; reflexivity.
Qed.

Lemma rank_mono r y d e : d <= e -> Z.abs d <= 32767 -> Z.abs e <= 32767 -> rank r y d <= rank r y e.
Proof.
  intros H Hd He. unfold rank.
  pose proof (level_range r y d). pose proof (level_range r y e).
  assert (Es : sign_bit r = size r + 1) by (destruct r; reflexivity).
  destruct (Z.ltb_spec d 0), (Z.ltb_spec e 0).
  - enough (level r y e <= level r y d) by lia. apply first_above_mono. pose proof (dlog_mono (Z.abs e) (Z.abs d)). lia.
  - destruct ((level r y e =? 0) && _); lia.
  - lia.
  - assert (level r y d <= level r y e) by (apply first_above_mono; pose proof (dlog_mono (Z.abs d) (Z.abs e)); lia).
    destruct (Z.land (states r) 1 =? 0); cbn [negb]; rewrite ?andb_false_r, ?andb_true_r; [lia|].
    destruct (Z.eqb_spec (level r y d) 0), (Z.eqb_spec (level r y e) 0); lia.
Qed.

(** ---- reconstruction ---- *)
(** The difference a code stands for. *)
Definition step_of (r : rate) (c y : Z) : Z :=
  let q := (nth (Z.to_nat c) (dqlntab r) 0) + Z.shiftr y 2 in
  if q <? 0 then 0
  else let m := Z.shiftr (Z.shiftl (128 + Z.land q 127) 7) (14 - Z.land (Z.shiftr q 7) 15) in
       if Z.land c (sign_bit r) =? 0 then m else - m.
