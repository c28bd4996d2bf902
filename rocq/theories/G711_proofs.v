From Verif Require Import Base BitOps_model BitOps_spec BitOps_proofs G711_model G711_spec.
From Coq Require Import ZifyBool ZifyNat.
Ltac Zify.zify_post_hook ::= Z.div_mod_to_equations.

Lemma sweep_range a n p : all_below_from (Z.to_nat n) a p = true -> forall x, a <= x < a + n -> p x = true.
Proof. intros H x Hx. apply (all_below_from_spec _ _ _ H). lia. Qed.
Lemma sweep16 p : all_below_from (Z.to_nat 65536) (-32768) p = true -> forall x, int16 x -> p x = true.
Proof. intros H x Hx. apply (sweep_range _ _ _ H). unfold int16 in Hx. lia. Qed.

Definition ulaw_q (x : Z) : Z := ulaw_to_linear (linear_to_ulaw x).
Definition alaw_q (x : Z) : Z := alaw_to_linear (linear_to_alaw x).

(** Both coders only look at the sample in cells of 8 (u-law, after the bias) or 16 (A-law), so the sweeps below
    are over cells, not samples. *)
Lemma lor_ff_cell z k : 0 <= k <= 8 -> Z.lor (2 ^ k * (z / 2 ^ k)) 0xFF = Z.lor z 0xFF.
Proof.
  intros Hk. apply Z.bits_inj'. intros n Hn. rewrite !Z.lor_spec.
  destruct (Z.ltb_spec n 8).
  - replace (Z.testbit 0xFF n) with true; [rewrite !orb_true_r; reflexivity|].
    change 0xFF with (Z.ones 8). rewrite Z.ones_spec_low by lia. reflexivity.
  - f_equal. rewrite Z.mul_comm, <- Z.shiftl_mul_pow2, <- Z.shiftr_div_pow2 by lia.
    rewrite Z.shiftl_spec, Z.shiftr_spec by lia. f_equal. lia.
Qed.
Lemma shiftr_cell z k n : 0 <= k <= n -> Z.shiftr (2 ^ k * (z / 2 ^ k)) n = Z.shiftr z n.
Proof.
  intros Hk. apply Z.bits_inj'. intros i Hi. rewrite !Z.shiftr_spec by lia.
  rewrite Z.mul_comm, <- Z.shiftl_mul_pow2, <- Z.shiftr_div_pow2 by lia.
  rewrite Z.shiftl_spec, Z.shiftr_spec by lia. f_equal. lia.
Qed.
Lemma seg_pos z : 0 <= z < 2 ^ 32 -> 0 <= top_bit (Z.lor z 0xFF) - 7.
Proof.
  intros H.
  assert (R : 0 <= Z.lor z 0xFF < 2 ^ 32) by (apply lor_range; lia).
  assert (L : Z.log2 (Z.lor z 0xFF) = Z.max (Z.log2 z) 7) by (rewrite Z.log2_lor by lia; reflexivity).
  assert (P : 0 < Z.lor z 0xFF).
  { destruct (Z.eq_dec (Z.lor z 0xFF) 0) as [E|]; [|lia]. rewrite E in L. change (Z.log2 0) with 0 in L. lia. }
  pose proof (Z.log2_spec _ P) as S. assert (Z.log2 (Z.lor z 0xFF) < 32) by (apply Z.log2_lt_pow2; lia).
  rewrite (top_bit_ok _ (Z.log2 (Z.lor z 0xFF))); rewrite ?Z.add_1_r; lia.
Qed.
(** the coders on a (biased) magnitude *)
Definition umag (mask z : Z) : Z :=
  let seg := top_bit (Z.lor z 0xFF) - 7 in
  if 8 <=? seg then u8 (Z.lxor 0x7F mask)
  else u8 (Z.lxor (Z.lor (Z.shiftl seg 4) (Z.land (Z.shiftr z (seg + 3)) 0xF)) mask).
Definition amag (mask z : Z) : Z :=
  let seg := top_bit (Z.lor z 0xFF) - 7 in
  if 8 <=? seg then u8 (Z.lxor 0x7F mask)
  else u8 (Z.lxor (Z.lor (Z.shiftl seg 4) (Z.land (Z.shiftr z (if seg =? 0 then 4 else seg + 3)) 0x0F)) mask).
Lemma umag_cell mask z : 0 <= z < 2 ^ 32 -> umag mask z = umag mask (8 * (z / 8)).
Proof.
  intros H. unfold umag. change (8 * (z / 8)) with (2 ^ 3 * (z / 2 ^ 3)). rewrite lor_ff_cell by lia. cbv zeta.
  pose proof (seg_pos z H). rewrite shiftr_cell by lia. reflexivity.
Qed.
Lemma amag_cell mask z : 0 <= z < 2 ^ 32 -> amag mask z = amag mask (16 * (z / 16)).
Proof.
  intros H. unfold amag. change (16 * (z / 16)) with (2 ^ 4 * (z / 2 ^ 4)). rewrite lor_ff_cell by lia. cbv zeta.
  pose proof (seg_pos z H). rewrite shiftr_cell; [reflexivity|]. destruct (Z.eqb_spec (top_bit (Z.lor z 255) - 7) 0); lia.
Qed.
Lemma ulaw_mag x : linear_to_ulaw x = if 0 <=? x then umag 0xFF (132 + x) else umag 0x7F (132 - x).
Proof. unfold linear_to_ulaw, umag. destruct (0 <=? x); reflexivity. Qed.
Lemma alaw_mag x : linear_to_alaw x = if 0 <=? x then amag 0xD5 x else amag 0x55 (- x - 1).
Proof. unfold linear_to_alaw, amag. destruct (0 <=? x); reflexivity. Qed.

(** facts on cell c: z in 8c .. 8c+7, magnitude z - 132 *)
Definition ucell (c : Z) : bool :=
  let p := umag 0xFF (8 * c) in let n := umag 0x7F (8 * c) in let y := ulaw_to_linear p in
  is_byte p && is_byte n && (ulaw_to_linear n =? - y) && (0 <=? y) && (y <=? ulaw_to_linear (umag 0xFF (8 * c + 8)))
  && (if 4096 <=? c then y =? 32124
      else (8 * c + 7 - 132 - y <=? ulaw_half_step y) && (y - (8 * c - 132) <=? ulaw_half_step y + (if c =? 16 then 4 else 0))).
Lemma ucells c : 16 <= c < 4116 -> ucell c = true.
Proof. apply (all_below_from_spec (Z.to_nat 4100) 16). vm_compute. reflexivity. Qed.
Definition acell (c : Z) : bool :=
  let p := amag 0xD5 (16 * c) in let n := amag 0x55 (16 * c) in let y := alaw_to_linear p in
  is_byte p && is_byte n && (alaw_to_linear n =? - y) && (0 <=? y) && (y <=? alaw_to_linear (amag 0xD5 (16 * c + 16)))
  && (16 * c + 15 - y <=? alaw_half_step y) && (y - (16 * c) <=? alaw_half_step y)
  && (16 * c + 16 - y <=? alaw_half_step y).
Lemma acells c : 0 <= c < 2048 -> acell c = true.
Proof. apply (sweep 2048). vm_compute. reflexivity. Qed.

Lemma uq_pos x : 0 <= x <= 32768 -> linear_to_ulaw x = umag 0xFF (8 * ((132 + x) / 8)).
Proof. intros H. rewrite ulaw_mag. destruct (Z.leb_spec 0 x); [|lia]. apply umag_cell. change (2 ^ 32) with 4294967296. lia. Qed.
Lemma uq_neg x : 0 < x <= 32768 -> linear_to_ulaw (- x) = umag 0x7F (8 * ((132 + x) / 8)).
Proof.
  intros H. rewrite ulaw_mag. destruct (Z.leb_spec 0 (- x)); [lia|]. replace (132 - - x) with (132 + x) by lia.
  apply umag_cell. change (2 ^ 32) with 4294967296. lia.
Qed.
Lemma ulaw_pos_facts x : 0 <= x <= 32768 ->
  0 <= ulaw_q x <= ulaw_q (x + 1) /\ ulaw_q (- x) = - ulaw_q x /\ is_byte (linear_to_ulaw x) = true /\ is_byte (linear_to_ulaw (- x)) = true /\
  (x <= 32635 -> Z.abs (x - ulaw_q x) <= ulaw_half_step (ulaw_q x)) /\ (32635 < x -> ulaw_q x = 32124).
Proof.
  intros H. pose proof (ucells ((132 + x) / 8) ltac:(lia)) as F. unfold ucell in F. cbv zeta in F.
  repeat match goal with H : _ && _ = true |- _ => apply andb_true_iff in H; destruct H end.
  unfold ulaw_q. rewrite (uq_pos x H).
  assert (M : ulaw_to_linear (umag 0xFF (8 * ((132 + x) / 8))) <= ulaw_to_linear (linear_to_ulaw (x + 1))).
  { destruct (Z.eq_dec x 32768) as [->|Hx]; [vm_compute; discriminate|].
    rewrite uq_pos by lia.
    destruct (Z.eq_dec ((132 + (x + 1)) / 8) ((132 + x) / 8)) as [E|E]; [rewrite E; lia|].
    replace (8 * ((132 + (x + 1)) / 8)) with (8 * ((132 + x) / 8) + 8) by lia. lia. }
  destruct (Z.eq_dec x 0) as [->|Hx].
  - split; [split; [vm_compute; discriminate|exact M]|]. split; [reflexivity|]. split; [reflexivity|]. split; [reflexivity|].
    split; [intros _; vm_compute; discriminate|lia].
  - rewrite uq_neg by lia. split; [lia|]. split; [lia|]. split; [assumption|]. split; [assumption|].
    destruct (Z.leb_spec 4096 ((132 + x) / 8)) as [L|L]; split; intros; try lia.
    destruct (Z.eqb_spec ((132 + x) / 8) 16) as [E|E]; [|lia]. rewrite E in *.
    change (ulaw_to_linear (umag 255 (8 * 16))) with 0 in *. change (ulaw_half_step 0) with 4 in *. lia.
Qed.
Lemma aq_pos x : 0 <= x <= 32767 -> linear_to_alaw x = amag 0xD5 (16 * (x / 16)).
Proof. intros H. rewrite alaw_mag. destruct (Z.leb_spec 0 x); [|lia]. apply amag_cell. change (2 ^ 32) with 4294967296. lia. Qed.
Lemma aq_neg x : 0 <= x <= 32767 -> linear_to_alaw (- x - 1) = amag 0x55 (16 * (x / 16)).
Proof.
  intros H. rewrite alaw_mag. destruct (Z.leb_spec 0 (- x - 1)); [lia|]. replace (- (- x - 1) - 1) with x by lia.
  apply amag_cell. change (2 ^ 32) with 4294967296. lia.
Qed.
Lemma alaw_pos_facts x : 0 <= x <= 32767 ->
  0 <= alaw_q x /\ (x < 32767 -> alaw_q x <= alaw_q (x + 1)) /\ alaw_q (- x - 1) = - alaw_q x /\
  is_byte (linear_to_alaw x) = true /\ is_byte (linear_to_alaw (- x - 1)) = true /\
  Z.abs (x - alaw_q x) <= alaw_half_step (alaw_q x) /\ Z.abs (x + 1 - alaw_q x) <= alaw_half_step (alaw_q x).
Proof.
  intros H. pose proof (acells (x / 16) ltac:(lia)) as F. unfold acell in F. cbv zeta in F.
  repeat match goal with H : _ && _ = true |- _ => apply andb_true_iff in H; destruct H end.
  unfold alaw_q. rewrite (aq_pos x H), (aq_neg x H).
  assert (M : x < 32767 -> alaw_to_linear (amag 0xD5 (16 * (x / 16))) <= alaw_to_linear (linear_to_alaw (x + 1))).
  { intros Hx. rewrite aq_pos by lia.
    destruct (Z.eq_dec ((x + 1) / 16) (x / 16)) as [E|E]; [rewrite E; lia|].
    replace (16 * ((x + 1) / 16)) with (16 * (x / 16) + 16) by lia. lia. }
  split; [lia|]. split; [exact M|]. split; [lia|]. split; [assumption|]. split; [assumption|]. split; lia.
Qed.
Lemma ulaw_facts x : int16 x ->
  (x < 32767 -> ulaw_q x <= ulaw_q (x + 1)) /\ ulaw_q (- x) = - ulaw_q x /\ is_byte (linear_to_ulaw x) = true /\
  (Z.abs x <= 32635 -> Z.abs (x - ulaw_q x) <= ulaw_half_step (ulaw_q x)).
Proof.
  unfold int16. intros H. destruct (Z.leb_spec 0 x) as [P|P].
  - destruct (ulaw_pos_facts x ltac:(lia)) as (A & B & C & _ & D & _). split; [lia|]. split; [exact B|]. split; [exact C|]. intros. apply D. lia.
  - destruct (ulaw_pos_facts (- x) ltac:(lia)) as (A & B & _ & C & D & _). rewrite Z.opp_involutive in B, C.
    split; [intros _|split; [lia|split; [exact C|]]].
    + destruct (ulaw_pos_facts (- x - 1) ltac:(lia)) as (A' & B' & _). replace (- x - 1 + 1) with (- x) in A' by lia.
      replace (- (- x - 1)) with (x + 1) in B' by lia. lia.
    + intros Hx. specialize (D ltac:(lia)). rewrite B. unfold ulaw_half_step in *. rewrite Z.abs_opp. lia.
Qed.
Lemma alaw_facts x : int16 x ->
  (x < 32767 -> alaw_q x <= alaw_q (x + 1)) /\ alaw_q (- x - 1) = - alaw_q x /\ is_byte (linear_to_alaw x) = true /\
  Z.abs (x - alaw_q x) <= alaw_half_step (alaw_q x).
Proof.
  unfold int16. intros H. destruct (Z.leb_spec 0 x) as [P|P].
  - destruct (alaw_pos_facts x ltac:(lia)) as (A & A' & B & C & _ & D & _). split; [lia|]. split; [exact B|]. split; [exact C|]. exact D.
  - destruct (alaw_pos_facts (- x - 1) ltac:(lia)) as (A & A' & B & _ & C & _ & D).
    replace (- (- x - 1) - 1) with x in B, C by lia.
    split; [intros _|split; [lia|split; [exact C|]]].
    + destruct (Z.eq_dec x (-1)) as [->|Hx].
      * change (-1 + 1) with 0. rewrite B. destruct (alaw_pos_facts 0 ltac:(lia)) as (Q & _). change (- -1 - 1) with 0. lia.
      * destruct (alaw_pos_facts (- x - 2) ltac:(lia)) as (_ & A'' & B' & _). replace (- x - 2 + 1) with (- x - 1) in A'' by lia.
        replace (- (- x - 2) - 1) with (x + 1) in B' by lia. lia.
    + rewrite B. unfold alaw_half_step in *. rewrite Z.abs_opp. lia.
Qed.

Lemma mono_from_step (f : Z -> Z) a b : (forall x, a <= x < b -> f x <= f (x + 1)) -> forall x y, a <= x -> x <= y -> y <= b -> f x <= f y.
Proof.
  intros H x y Hx Hxy Hy. replace y with (x + Z.of_nat (Z.to_nat (y - x))) in * by lia.
  generalize dependent (Z.to_nat (y - x)). intros n Hxy Hy. clear y.
  induction n as [|n IH]; [rewrite Z.add_0_r; lia|].
  etransitivity; [apply IH; lia|]. rewrite Nat2Z.inj_succ. replace (x + Z.succ (Z.of_nat n)) with (x + Z.of_nat n + 1) by lia.
  apply H. lia.
Qed.
Lemma ulaw_mono x y : int16 x -> int16 y -> x <= y -> ulaw_to_linear (linear_to_ulaw x) <= ulaw_to_linear (linear_to_ulaw y).
Proof.
  unfold int16. intros Hx Hy H. apply (mono_from_step ulaw_q (-32768) 32767); try lia.
  intros z Hz. pose proof (ulaw_facts z ltac:(unfold int16; lia)) as F. lia.
Qed.
Lemma alaw_mono x y : int16 x -> int16 y -> x <= y -> alaw_to_linear (linear_to_alaw x) <= alaw_to_linear (linear_to_alaw y).
Proof.
  unfold int16. intros Hx Hy H. apply (mono_from_step alaw_q (-32768) 32767); try lia.
  intros z Hz. pose proof (alaw_facts z ltac:(unfold int16; lia)) as F. lia.
Qed.
Lemma ulaw_sym x : int16 x -> ulaw_to_linear (linear_to_ulaw (- x)) = - ulaw_to_linear (linear_to_ulaw x).
Proof. intros H. pose proof (ulaw_facts x H) as F. unfold ulaw_q in F. lia. Qed.
Lemma alaw_sym x : int16 x -> alaw_to_linear (linear_to_alaw (- x - 1)) = - alaw_to_linear (linear_to_alaw x).
Proof. intros H. pose proof (alaw_facts x H) as F. unfold alaw_q in F. lia. Qed.
Lemma ulaw_err x : Z.abs x <= 32635 ->
  Z.abs (x - ulaw_to_linear (linear_to_ulaw x)) <= ulaw_half_step (ulaw_to_linear (linear_to_ulaw x)).
Proof. intros H. pose proof (ulaw_facts x ltac:(unfold int16; lia)) as F. unfold ulaw_q in F. lia. Qed.
Lemma alaw_err x : int16 x ->
  Z.abs (x - alaw_to_linear (linear_to_alaw x)) <= alaw_half_step (alaw_to_linear (linear_to_alaw x)).
Proof. intros H. pose proof (alaw_facts x H) as F. unfold alaw_q in F. lia. Qed.

Lemma top_big z : 32768 <= z < 2 ^ 32 -> 8 <= top_bit (Z.lor z 0xFF) - 7.
Proof.
  intros H.
  assert (R : 0 <= Z.lor z 0xFF < 2 ^ 32) by (apply lor_range; lia).
  assert (L : Z.log2 (Z.lor z 0xFF) = Z.max (Z.log2 z) 7) by (rewrite Z.log2_lor by lia; reflexivity).
  assert (15 <= Z.log2 z) by (apply Z.log2_le_pow2; lia).
  assert (P : 0 < Z.lor z 0xFF).
  { destruct (Z.eq_dec (Z.lor z 0xFF) 0) as [E|]; [|lia]. rewrite E in L. change (Z.log2 0) with 0 in L. lia. }
  pose proof (Z.log2_spec _ P) as S. assert (Z.log2 (Z.lor z 0xFF) < 32) by (apply Z.log2_lt_pow2; lia).
  rewrite (top_bit_ok _ (Z.log2 (Z.lor z 0xFF))); rewrite ?Z.add_1_r; lia.
Qed.
Lemma ulaw_sat x : 32636 <= x <= 2147483515 -> linear_to_ulaw x = 0x80 /\ linear_to_ulaw (- x) = 0x00.
Proof.
  intros H. unfold linear_to_ulaw.
  destruct (Z.leb_spec 0 x); [|lia]. destruct (Z.leb_spec 0 (- x)); [lia|].
  replace (0x84 - - x) with (0x84 + x) by lia.
  pose proof (top_big (0x84 + x) ltac:(change (2^32) with 4294967296; lia)).
  destruct (Z.leb_spec 8 (top_bit (Z.lor (0x84 + x) 255) - 7)); [|lia]. split; reflexivity.
Qed.
Lemma alaw_sat x : 32768 <= x <= 2147483647 -> linear_to_alaw x = Z.lxor 0xFF 0x55 /\ linear_to_alaw (- x - 1) = Z.lxor 0x7F 0x55.
Proof.
  intros H. unfold linear_to_alaw.
  destruct (Z.leb_spec 0 x); [|lia]. destruct (Z.leb_spec 0 (- x - 1)); [lia|].
  replace (- (- x - 1) - 1) with x by lia.
  pose proof (top_big x ltac:(change (2^32) with 4294967296; lia)).
  destruct (Z.leb_spec 8 (top_bit (Z.lor x 255) - 7)); [|lia]. split; reflexivity.
Qed.

Lemma ulaw_round u : byte u -> linear_to_ulaw (ulaw_to_linear u) = if u =? 0x7F then 0xFF else u.
Proof. intros H. apply Z.eqb_eq. revert u H. apply sweep. vm_compute. reflexivity. Qed.
Lemma alaw_round a : byte a -> linear_to_alaw (alaw_to_linear a) = a.
Proof. intros H. apply Z.eqb_eq. revert a H. apply sweep. vm_compute. reflexivity. Qed.

(** ---- transcoding ---- *)
Definition all256 (p : Z -> bool) : bool := all_below_from 256 0 p.
Lemma all256_spec p : all256 p = true -> forall x, byte x -> p x = true.
Proof. intros H x Hx. apply (all_below_from_spec _ _ _ H). unfold byte in Hx. lia. Qed.
Lemma all256_2 p : all256 (fun a => all256 (p a)) = true -> forall x y, byte x -> byte y -> p x y = true.
Proof. intros H x y Hx Hy. apply (all256_spec _ (all256_spec _ H x Hx) y Hy). Qed.

Lemma trans_err x : byte x ->
  Z.abs (alaw_to_linear (ulaw_to_alaw x) - ulaw_to_linear x) <= ulaw_half_step (ulaw_to_linear x) + alaw_half_step (alaw_to_linear (ulaw_to_alaw x)) /\
  Z.abs (ulaw_to_linear (alaw_to_ulaw x) - alaw_to_linear x) <= alaw_half_step (alaw_to_linear x) + ulaw_half_step (ulaw_to_linear (alaw_to_ulaw x)).
Proof.
  intros H. assert (E : (Z.abs (alaw_to_linear (ulaw_to_alaw x) - ulaw_to_linear x) <=? ulaw_half_step (ulaw_to_linear x) + alaw_half_step (alaw_to_linear (ulaw_to_alaw x))) &&
  (Z.abs (ulaw_to_linear (alaw_to_ulaw x) - alaw_to_linear x) <=? alaw_half_step (alaw_to_linear x) + ulaw_half_step (ulaw_to_linear (alaw_to_ulaw x))) = true).
  { revert x H. apply all256_spec. vm_compute. reflexivity. }
  lia.
Qed.
(** the levels and their transcodings, tabulated once *)
Definition trans_tab : list (Z * Z * Z * Z) := Eval vm_compute in
  map (fun x => (ulaw_to_linear x, alaw_to_linear x, alaw_to_linear (ulaw_to_alaw x), ulaw_to_linear (alaw_to_ulaw x)))
      (map Z.of_nat (seq 0 256)).
Definition trans_tab2 : list (Z * Z * Z * Z) := Eval vm_compute in
  map (fun x => (alaw_to_linear x, ulaw_to_linear x, alaw_to_linear (ulaw_to_alaw (alaw_to_ulaw x)), ulaw_to_linear (alaw_to_ulaw (ulaw_to_alaw x))))
      (map Z.of_nat (seq 0 256)).
Lemma byte_in x : byte x -> In x (map Z.of_nat (seq 0 256)).
Proof. unfold byte. intros H. apply in_map_iff. exists (Z.to_nat x). split; [lia|]. apply in_seq. lia. Qed.
Lemma trans_tab_in x : byte x ->
  In (ulaw_to_linear x, alaw_to_linear x, alaw_to_linear (ulaw_to_alaw x), ulaw_to_linear (alaw_to_ulaw x)) trans_tab.
Proof.
  intros H. assert (E : trans_tab = map (fun x => (ulaw_to_linear x, alaw_to_linear x, alaw_to_linear (ulaw_to_alaw x), ulaw_to_linear (alaw_to_ulaw x)))
      (map Z.of_nat (seq 0 256))) by (vm_compute; reflexivity).
  rewrite E. apply (in_map (fun x => (ulaw_to_linear x, alaw_to_linear x, alaw_to_linear (ulaw_to_alaw x), ulaw_to_linear (alaw_to_ulaw x)))).
  apply byte_in, H.
Qed.
Lemma trans_tab2_in x : byte x ->
  In (alaw_to_linear x, ulaw_to_linear x, alaw_to_linear (ulaw_to_alaw (alaw_to_ulaw x)), ulaw_to_linear (alaw_to_ulaw (ulaw_to_alaw x))) trans_tab2.
Proof.
  intros H. assert (E : trans_tab2 = map (fun x => (alaw_to_linear x, ulaw_to_linear x, alaw_to_linear (ulaw_to_alaw (alaw_to_ulaw x)), ulaw_to_linear (alaw_to_ulaw (ulaw_to_alaw x))))
      (map Z.of_nat (seq 0 256))) by (vm_compute; reflexivity).
  rewrite E. apply (in_map (fun x => (alaw_to_linear x, ulaw_to_linear x, alaw_to_linear (ulaw_to_alaw (alaw_to_ulaw x)), ulaw_to_linear (alaw_to_ulaw (ulaw_to_alaw x))))).
  apply byte_in, H.
Qed.
Lemma trans_mono x y : byte x -> byte y ->
  (ulaw_to_linear x < ulaw_to_linear y -> alaw_to_linear (ulaw_to_alaw x) <= alaw_to_linear (ulaw_to_alaw y)) /\
  (alaw_to_linear x < alaw_to_linear y -> ulaw_to_linear (alaw_to_ulaw x) <= ulaw_to_linear (alaw_to_ulaw y)).
Proof.
  intros Hx Hy.
  assert (E : ((ulaw_to_linear y <=? ulaw_to_linear x) || (alaw_to_linear (ulaw_to_alaw x) <=? alaw_to_linear (ulaw_to_alaw y))) &&
   ((alaw_to_linear y <=? alaw_to_linear x) || (ulaw_to_linear (alaw_to_ulaw x) <=? ulaw_to_linear (alaw_to_ulaw y))) = true).
  { assert (T : forallb (fun p => match p with (a, b, a', b') => forallb (fun q => match q with (c, d, c', d') =>
        ((c <=? a) || (a' <=? c')) && ((d <=? b) || (b' <=? d')) end) trans_tab end) trans_tab = true) by (vm_compute; reflexivity).
    rewrite forallb_forall in T. specialize (T _ (trans_tab_in x Hx)). cbv beta iota in T.
    rewrite forallb_forall in T. exact (T _ (trans_tab_in y Hy)). }
  lia.
Qed.
Lemma trans_stable x : byte x ->
  alaw_to_ulaw (ulaw_to_alaw (alaw_to_ulaw x)) = alaw_to_ulaw x /\ ulaw_to_alaw (alaw_to_ulaw (ulaw_to_alaw x)) = ulaw_to_alaw x.
Proof.
  intros H. assert (E : (alaw_to_ulaw (ulaw_to_alaw (alaw_to_ulaw x)) =? alaw_to_ulaw x) && (ulaw_to_alaw (alaw_to_ulaw (ulaw_to_alaw x)) =? ulaw_to_alaw x) = true).
  { revert x H. apply all256_spec. vm_compute. reflexivity. }
  lia.
Qed.
(** no representable level lies strictly between a sample and its double transcoding *)
Lemma trans_one_level x v : byte x -> byte v ->
  (let a := alaw_to_linear x in let b := alaw_to_linear (ulaw_to_alaw (alaw_to_ulaw x)) in
   ~ (Z.min a b < alaw_to_linear v < Z.max a b)) /\
  (let a := ulaw_to_linear x in let b := ulaw_to_linear (alaw_to_ulaw (ulaw_to_alaw x)) in
   ~ (Z.min a b < ulaw_to_linear v < Z.max a b)).
Proof.
  intros Hx Hv. cbv zeta.
  assert (E : negb ((Z.min (alaw_to_linear x) (alaw_to_linear (ulaw_to_alaw (alaw_to_ulaw x))) <? alaw_to_linear v) && (alaw_to_linear v <? Z.max (alaw_to_linear x) (alaw_to_linear (ulaw_to_alaw (alaw_to_ulaw x))))) &&
     negb ((Z.min (ulaw_to_linear x) (ulaw_to_linear (alaw_to_ulaw (ulaw_to_alaw x))) <? ulaw_to_linear v) && (ulaw_to_linear v <? Z.max (ulaw_to_linear x) (ulaw_to_linear (alaw_to_ulaw (ulaw_to_alaw x))))) = true).
  { assert (T : forallb (fun p => match p with (a, b, a', b') => forallb (fun q => match q with (d, c, _, _) =>
        negb ((Z.min a a' <? c) && (c <? Z.max a a')) && negb ((Z.min b b' <? d) && (d <? Z.max b b')) end) trans_tab end) trans_tab2 = true)
      by (vm_compute; reflexivity).
    rewrite forallb_forall in T. specialize (T _ (trans_tab2_in x Hx)). cbv beta iota in T.
    rewrite forallb_forall in T. exact (T _ (trans_tab_in v Hv)). }
  split; intros [A B]; apply Z.ltb_lt in A, B; rewrite A, B in E; cbn [andb negb] in E; rewrite ?andb_false_r in E; discriminate.
Qed.

(** ---- buffers ---- *)
Lemma xform_ok f n : forall pre mid post ipre inp ipost, length pre = length ipre -> length mid = n -> length inp = n ->
  xform f (Z.of_nat (length pre)) n (pre ++ mid ++ post) (ipre ++ inp ++ ipost) = Ok (pre ++ map f inp ++ post).
Proof.
  induction n as [|n IH]; intros pre mid post ipre inp ipost Hp Hm Hi.
  - destruct mid, inp; try discriminate. reflexivity.
  - destruct mid as [|m mid], inp as [|x inp]; try discriminate. cbn [xform].
    unfold aget, in_bounds. rewrite !app_length. cbn [length]. rewrite ?app_length.
    replace (_ && _) with true by lia. cbn [rbind]. rewrite Nat2Z.id, app_nth2 by lia.
    rewrite Hp, Nat.sub_diag. cbn [app nth].
    unfold aset, in_bounds. rewrite !app_length. cbn [length]. rewrite ?app_length.
    replace (_ && _) with true by lia. cbn [rbind]. rewrite Nat2Z.id, <- Hp, upd_app.
    specialize (IH (pre ++ [f x]) mid post (ipre ++ [x]) inp ipost).
    rewrite <- !app_assoc in IH. cbn [app] in IH. rewrite !app_length in IH. cbn [length] in *.
    cbn [map app]. rewrite <- IH by lia. f_equal. lia.
Qed.
Lemma xform_buf f out inp n : (n <= length out)%nat -> (n <= length inp)%nat ->
  xform f 0 n out inp = Ok (map f (firstn n inp) ++ skipn n out).
Proof.
  intros Ho Hi. pose proof (xform_ok f n [] (firstn n out) (skipn n out) [] (firstn n inp) (skipn n inp)) as H.
  cbn [length app Z.of_nat] in H. rewrite !firstn_skipn in H. apply H; [reflexivity|rewrite firstn_length; lia|rewrite firstn_length; lia].
Qed.
Lemma decode_ok m amp data n : (n <= length amp)%nat -> (n <= length data)%nat ->
  g711_decode m amp data (Z.of_nat n) = Ok (map (match m with G711_ALAW => alaw_to_linear | G711_ULAW => ulaw_to_linear end) (firstn n data) ++ skipn n amp, Z.of_nat n).
Proof. intros. unfold g711_decode. rewrite Nat2Z.id, xform_buf by auto. reflexivity. Qed.
Lemma encode_ok m data amp n : (n <= length data)%nat -> (n <= length amp)%nat ->
  g711_encode m data amp (Z.of_nat n) = Ok (map (match m with G711_ALAW => linear_to_alaw | G711_ULAW => linear_to_ulaw end) (firstn n amp) ++ skipn n data, Z.of_nat n).
Proof. intros. unfold g711_encode. rewrite Nat2Z.id, xform_buf by auto. reflexivity. Qed.
Lemma transcode_ok m outb inp n : (n <= length outb)%nat -> (n <= length inp)%nat ->
  g711_transcode m outb inp (Z.of_nat n) = Ok (map (match m with G711_ALAW => alaw_to_ulaw | G711_ULAW => ulaw_to_alaw end) (firstn n inp) ++ skipn n outb, Z.of_nat n).
Proof. intros. unfold g711_transcode. rewrite Nat2Z.id, xform_buf by auto. reflexivity. Qed.
(** A whole A-law buffer survives decode and re-encode. *)
Lemma alaw_buffer_round data amp out n : bytes data -> length data = n -> length amp = n -> length out = n ->
  exists l, g711_decode G711_ALAW amp data (Z.of_nat n) = Ok (l, Z.of_nat n) /\ length l = n /\
            g711_encode G711_ALAW out l (Z.of_nat n) = Ok (data, Z.of_nat n).
Proof.
  intros Hb Hd Ha Ho. exists (map alaw_to_linear data). rewrite decode_ok by lia.
  assert (S : skipn n amp = []) by (apply skipn_all2; lia). rewrite S, app_nil_r.
  rewrite firstn_all2 by lia. split; [reflexivity|]. split; [rewrite map_length; lia|].
  rewrite encode_ok by (rewrite ?map_length; lia). rewrite firstn_all2 by (rewrite map_length; lia).
  rewrite (skipn_all2 out) by lia. rewrite app_nil_r, map_map. do 2 f_equal.
  clear - Hb. induction Hb as [|b l Hb Hl IH]; [reflexivity|]. cbn [map]. rewrite alaw_round by auto. f_equal; auto.
Qed.
