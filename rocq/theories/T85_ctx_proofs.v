(** Both sides of the T.85 coder form the same contexts. *)
From Verif Require Import Base Bits Arith_model Arith_spec Arith_enc_proofs Arith_dec_proofs T85_enc_model T85_dec_model T85_arith_proofs T85_pscd_proofs.
From Coq Require Import ZifyBool ZifyNat.
Local Open Scope Z_scope.

(** The pixel in column [x] of a row. *)
Definition bit (r : list Z) (x : Z) : bool := (0 <=? x) && Z.testbit (nth (Z.to_nat (x / 8)) r 0) (7 - x mod 8).

(** The pixels that make up a context. *)
Definition ctx (o tx : Z) (r0 r1 r2 : list Z) (x : Z) : Z :=
  let at_px := if tx =? 0 then bit r1 (x + 2) else bit r0 (x - tx) in
  of_bits_lsb
    (if opt o T85_LRLTWO
     then [bit r0 (x - 1); bit r0 (x - 2); bit r0 (x - 3); bit r0 (x - 4); at_px; bit r1 (x + 1); bit r1 x; bit r1 (x - 1); bit r1 (x - 2); bit r1 (x - 3)]
     else [bit r0 (x - 1); bit r0 (x - 2); at_px; bit r1 (x + 1); bit r1 x; bit r1 (x - 1); bit r1 (x - 2); bit r2 (x + 1); bit r2 x; bit r2 (x - 1)]).

Lemma ctx_range o tx r0 r1 r2 x : 0 <= ctx o tx r0 r1 r2 x < 1024.
Proof. unfold ctx. cbv zeta. match goal with |- 0 <= of_bits_lsb ?l < _ => pose proof (of_bits_lsb_range l) as H; assert (E : length l = 10%nat) by (destruct (opt o T85_LRLTWO); reflexivity); rewrite E in H end. exact H. Qed.

Lemma bit_neg r x : x < 0 -> bit r x = false. Proof. intros H. unfold bit. replace (0 <=? x) with false by lia. reflexivity. Qed.
Lemma bit_beyond r x : 8 * Z.of_nat (length r) <= x -> bit r x = false.
Proof. intros H. unfold bit. rewrite nth_overflow by (Z.div_mod_to_equations; lia). rewrite Z.bits_0. apply andb_false_r. Qed.
Lemma bit_in r k i : 0 <= k -> 0 <= i < 8 -> Z.testbit (nth (Z.to_nat k) r 0) i = bit r (8 * k + 7 - i).
Proof. intros Hk Hi. unfold bit. replace (0 <=? 8 * k + 7 - i) with true by lia. replace ((8 * k + 7 - i) / 8) with k by (Z.div_mod_to_equations; lia). replace (7 - (8 * k + 7 - i) mod 8) with i by (Z.div_mod_to_equations; lia). reflexivity. Qed.

(** A register over a row: bit [i] holds the pixel [i] columns before [x + off]. *)
Definition HR (off : Z) (r : list Z) (x lo h : Z) : Prop :=
  0 <= h < 4294967296 /\ forall i, 0 <= i < 32 -> Z.testbit h i = (lo <=? i) && bit r (x + off - i).

Lemma byte_bits b i : byte b -> 8 <= i -> Z.testbit b i = false.
Proof. intros [H1 H2] Hi. rewrite <- (Z.mod_small b (2 ^ 8)) by lia. apply Z.mod_pow2_bits_high. lia. Qed.
Lemma high_bits h i : 0 <= h < 4294967296 -> 32 <= i -> Z.testbit h i = false.
Proof. intros H Hi. rewrite <- (Z.mod_small h (2 ^ 32)) by lia. apply Z.mod_pow2_bits_high. lia. Qed.

Lemma lor32 a b : 0 <= a < 4294967296 -> 0 <= b < 4294967296 -> 0 <= Z.lor a b < 4294967296.
Proof. intros Ha Hb. apply (lor_below a b 32); lia. Qed.

Lemma HR_load off r x h k : HR off r x 8 h -> bytes r -> 0 <= k -> x + off = 8 * k + 7 -> HR off r x 0 (Z.lor h (nth (Z.to_nat k) r 0)).
Proof.
  intros [H1 H2] Hr Hk E.
  assert (Hb : byte (nth (Z.to_nat k) r 0)). { destruct (nth_in_or_default (Z.to_nat k) r 0) as [I| ->]; [|red; lia]. unfold bytes in Hr. rewrite Forall_forall in Hr. apply Hr, I. }
  split. { apply lor32; [exact H1|]. red in Hb. lia. }
  intros i Hi. rewrite Z.lor_spec, H2 by lia. replace (0 <=? i) with true by lia. cbn [andb]. destruct (Z.leb_spec 8 i).
  - rewrite (byte_bits _ _ Hb) by lia. rewrite orb_false_r. reflexivity.
  - cbn [andb orb]. rewrite bit_in by lia. f_equal. lia.
Qed.
Lemma HR_noload off r x h : HR off r x 8 h -> 8 * Z.of_nat (length r) + 7 <= x + off -> HR off r x 0 h.
Proof.
  intros [H1 H2] E. split; [exact H1|]. intros i Hi. rewrite H2 by lia. destruct (Z.leb_spec 8 i), (Z.leb_spec 0 i); cbn [andb]; try lia; auto. symmetry. apply bit_beyond. lia.
Qed.
Lemma shl_bit h i : 0 <= i -> Z.testbit (u32 (Z.shiftl h 1)) i = (i <? 32) && (1 <=? i) && Z.testbit h (i - 1).
Proof.
  intros Hi. unfold u32. change 4294967296 with (2 ^ 32). destruct (Z.ltb_spec i 32).
  - rewrite Z.mod_pow2_bits_low by lia. destruct (Z.leb_spec 1 i); cbn [andb]; [apply Z.shiftl_spec; lia|]. replace i with 0 by lia. apply Z.shiftl_spec_low. lia.
  - apply Z.mod_pow2_bits_high. lia.
Qed.
Lemma HR_shift off r x lo h : HR off r x lo h -> 0 <= lo -> HR off r (x + 1) (lo + 1) (u32 (Z.shiftl h 1)).
Proof.
  intros [H1 H2] Hlo. split; [apply Z.mod_pos_bound; lia|]. intros i Hi. rewrite shl_bit by lia. replace (i <? 32) with true by lia. cbn [andb].
  destruct (Z.leb_spec 1 i); cbn [andb].
  - rewrite H2 by lia. replace (lo <=? i - 1) with (lo + 1 <=? i) by lia. do 2 f_equal. lia.
  - replace (lo + 1 <=? i) with false by lia. reflexivity.
Qed.
Lemma HR_first r : bytes r -> HR 15 r 0 8 (Z.shiftl (nth 0 r 0) 8).
Proof.
  intros Hr.
  assert (Hb : byte (nth 0 r 0)). { destruct (nth_in_or_default 0 r 0) as [I| ->]; [|red; lia]. unfold bytes in Hr. rewrite Forall_forall in Hr. apply Hr, I. }
  assert (HB := Hb). red in HB. split. { rewrite Z.shiftl_mul_pow2 by lia. lia. }
  intros i Hi. destruct (Z.leb_spec 8 i); cbn [andb].
  - rewrite Z.shiftl_spec by lia. destruct (Z.leb_spec 16 i).
    + rewrite (byte_bits _ _ Hb) by lia. symmetry. apply bit_neg. lia.
    + change (nth 0 r 0) with (nth (Z.to_nat 0) r 0). rewrite (bit_in r 0 (i - 8)) by lia. f_equal. lia.
  - apply Z.shiftl_spec_low. lia.
Qed.
Lemma HR_zero off r x lo : (forall k, bit r k = false) -> HR off r x lo 0.
Proof. intros H. split; [lia|]. intros i Hi. rewrite Z.bits_0, H, andb_false_r. reflexivity. Qed.
Lemma HR_start r : HR 7 r 0 8 0.
Proof. split; [lia|]. intros i Hi. rewrite Z.bits_0. destruct (Z.leb_spec 8 i); [|reflexivity]. rewrite bit_neg by lia. reflexivity. Qed.
Lemma HR_none r : HR (-1) r 0 0 0.
Proof. split; [lia|]. intros i Hi. rewrite Z.bits_0. rewrite bit_neg by lia. symmetry. apply andb_false_r. Qed.
Lemma HR_weak off r x lo lo' h : HR off r x lo h -> lo = lo' -> HR off r x lo' h.
Proof. intros H <-. exact H. Qed.
Lemma HR_bit off r x lo h i : HR off r x lo h -> lo <= i -> 0 <= i < 32 -> Z.testbit h i = bit r (x + off - i).
Proof. intros [_ H] Hl Hi. rewrite H by lia. replace (lo <=? i) with true by lia. reflexivity. Qed.

(** A decoded pixel goes into the register. *)
Lemma HR_push r x h p : HR (-1) r x 0 h -> p = Z.b2z (bit r x) -> HR (-1) r (x + 1) 0 (Z.lor (u32 (Z.shiftl h 1)) p).
Proof.
  intros H ->. destruct (HR_shift _ _ _ _ _ H ltac:(lia)) as [H1 H2]. split.
  { apply lor32; [exact H1|]. destruct (bit r x); cbn; lia. }
  intros i Hi. rewrite Z.lor_spec, H2 by lia. destruct (Z.eq_dec i 0) as [->|N].
  - replace (0 + 1 <=? 0) with false by lia. cbn [andb orb]. rewrite Z.b2z_bit0. replace (0 <=? 0) with true by lia. cbn [andb]. f_equal. lia.
  - replace (0 + 1 <=? i) with true by lia. replace (0 <=? i) with true by lia. cbn [andb].
    replace (Z.testbit (Z.b2z (bit r x)) i) with false. { rewrite orb_false_r. reflexivity. }
    symmetry. destruct (bit r x); [apply (Z.bits_above_log2 1); cbn; lia|apply Z.bits_0].
Qed.

Lemma eq10 x y : 0 <= x < 2 ^ 10 -> 0 <= y < 2 ^ 10 -> (forall i, 0 <= i < 10 -> Z.testbit x i = Z.testbit y i) -> x = y.
Proof.
  intros Hx Hy H. rewrite <- (Z.mod_small x (2 ^ 10)), <- (Z.mod_small y (2 ^ 10)) by lia. apply Z.bits_inj_iff'. intros n Hn.
  destruct (Z.lt_ge_cases n 10). { rewrite !Z.mod_pow2_bits_low by lia. apply H. lia. } rewrite !Z.mod_pow2_bits_high by lia. reflexivity.
Qed.
Lemma of_bits_testbit l i : (i < length l)%nat -> Z.testbit (of_bits_lsb l) (Z.of_nat i) = nth i l false.
Proof. intros H. rewrite <- (nth_bits_lsb (length l)) by exact H. rewrite bits_lsb_of_bits. reflexivity. Qed.

Lemma pixel_back_ok r j t : 0 <= t <= j -> j < 8 * Z.of_nat (length r) -> pixel_back r j t = Ok (Z.b2z (bit r (j - t))).
Proof.
  intros Ht Hj. unfold pixel_back. rewrite shr_back. rewrite aget_ok by (Z.div_mod_to_equations; lia). cbn [rbind]. f_equal.
  rewrite land_not7, land7. unfold bit. replace (0 <=? j - t) with true by lia. cbn [andb].
  replace ((j - t - 8 * (j / 8)) mod 8) with ((j - t) mod 8).
  2:{ replace (j - t - 8 * (j / 8)) with (j - t + - (j / 8) * 8) by ring. symmetry. apply Z.mod_add. lia. }
  change 1 with (Z.ones 1). rewrite Z.land_ones by lia. rewrite <- Z.bit0_mod, Z.shiftr_spec by lia. reflexivity.
Qed.

Ltac each i := let C := fresh in
  assert (C : i = 0 \/ i = 1 \/ i = 2 \/ i = 3 \/ i = 4 \/ i = 5 \/ i = 6 \/ i = 7 \/ i = 8 \/ i = 9) by lia;
  destruct C as [->|[->|[->|[->|[->|[->|[->|[->|[->| ->]]]]]]]]].
Ltac consts := repeat match goal with |- context [Z.testbit (Zpos ?p) ?i] =>
  let v := eval vm_compute in (Z.testbit (Zpos p) i) in change (Z.testbit (Zpos p) i) with v end;
  repeat match goal with |- context [Z.to_nat ?k] => let v := eval vm_compute in (Z.to_nat k) in change (Z.to_nat k) with v end.

Lemma bit4 (b : bool) i : 0 <= i < 10 -> Z.testbit (Z.shiftl (Z.b2z b) 4) i = (i =? 4) && b.
Proof. intros H. destruct b; each i; reflexivity. Qed.
Lemma bit2 (b : bool) i : 0 <= i < 10 -> Z.testbit (Z.shiftl (Z.b2z b) 2) i = (i =? 2) && b.
Proof. intros H. destruct b; each i; reflexivity. Qed.

Lemma land10 x m : 0 <= m < 1024 -> 0 <= Z.land x m < 2 ^ 10. Proof. intros. apply land_below. lia. Qed.
Lemma lor10 x y : 0 <= x < 2 ^ 10 -> 0 <= y < 2 ^ 10 -> 0 <= Z.lor x y < 2 ^ 10. Proof. intros. apply lor_below; lia. Qed.
Lemma b10 (b : bool) k : 0 <= k <= 9 -> 0 <= Z.shiftl (Z.b2z b) k < 2 ^ 10.
Proof. intros H. rewrite Z.shiftl_mul_pow2 by lia. assert (2 ^ k <= 2 ^ 9) by (apply Z.pow_le_mono_r; lia). assert (0 < 2 ^ k) by (apply Z.pow_pos_nonneg; lia). destruct b; cbn [Z.b2z]; lia. Qed.

Lemma ctx_bit o tx r0 r1 r2 x i : 0 <= i < 10 -> Z.testbit (ctx o tx r0 r1 r2 x) i =
  nth (Z.to_nat i) (let at_px := if tx =? 0 then bit r1 (x + 2) else bit r0 (x - tx) in
    if opt o T85_LRLTWO
     then [bit r0 (x - 1); bit r0 (x - 2); bit r0 (x - 3); bit r0 (x - 4); at_px; bit r1 (x + 1); bit r1 x; bit r1 (x - 1); bit r1 (x - 2); bit r1 (x - 3)]
     else [bit r0 (x - 1); bit r0 (x - 2); at_px; bit r1 (x + 1); bit r1 x; bit r1 (x - 1); bit r1 (x - 2); bit r2 (x + 1); bit r2 x; bit r2 (x - 1)]) false.
Proof.
  intros H. unfold ctx. cbv zeta. replace i with (Z.of_nat (Z.to_nat i)) at 1 by lia. apply of_bits_testbit.
  destruct (opt o T85_LRLTWO); cbn [length]; lia.
Qed.

Ltac ctx10 := apply eq10;
  [repeat first [apply lor10 | apply land10; lia | apply b10; lia] | apply ctx_range |];
  let i := fresh "i" in let Hi := fresh "Hi" in intros i Hi; rewrite ctx_bit by exact Hi;
  repeat rewrite Z.lor_spec; repeat rewrite Z.land_spec; repeat rewrite Z.shiftr_spec by lia;
  try rewrite bit4 by exact Hi; try rewrite bit2 by exact Hi.
Ltac px_eq := cbn [andb orb]; repeat rewrite ?andb_false_r, ?andb_true_r, ?orb_false_r, ?orb_false_l, ?orb_true_r;
  repeat match goal with
  | H : HR ?off ?r ?x ?lo ?h |- context [Z.testbit ?h ?i] => rewrite (HR_bit _ _ _ _ _ i H) by lia
  end; first [reflexivity | f_equal; lia].

(** The encoder's context: its registers have been shifted past column [x]. *)
Lemma enc_context_ok o tx r0 r1 r2 x lo h0 h1 h2 :
  HR 7 r0 (x + 1) lo h0 -> HR 15 r1 (x + 1) lo h1 -> HR 15 r2 (x + 1) lo h2 -> lo <= 8 -> 0 <= tx ->
  0 <= x < 8 * Z.of_nat (length r0) ->
  enc_context o tx r0 h0 h1 h2 x = Ok (ctx o tx r0 r1 r2 x).
Proof.
  intros H0 H1 H2 Hlo Ht Hx. unfold enc_context.
  destruct (opt o T85_LRLTWO) eqn:EO.
  - destruct (Z.eqb_spec tx 0) as [->|N]; cbn [negb].
    + f_equal. ctx10. rewrite EO. each i; consts; cbn [nth Z.eqb Pos.eqb]; px_eq.
    + destruct (Z.leb_spec tx x).
      * rewrite pixel_back_ok by lia. cbn [rbind]. f_equal. ctx10. rewrite EO. replace (tx =? 0) with false by lia.
        each i; consts; cbn [nth Z.eqb Pos.eqb]; px_eq.
      * f_equal. ctx10. rewrite EO. replace (tx =? 0) with false by lia. rewrite (bit_neg r0 (x - tx)) by lia.
        each i; consts; cbn [nth Z.eqb Pos.eqb]; px_eq.
  - destruct (Z.eqb_spec tx 0) as [->|N]; cbn [negb].
    + f_equal. ctx10. rewrite EO. each i; consts; cbn [nth Z.eqb Pos.eqb]; px_eq.
    + destruct (Z.leb_spec tx x).
      * rewrite pixel_back_ok by lia. cbn [rbind]. f_equal. ctx10. rewrite EO. replace (tx =? 0) with false by lia.
        each i; consts; cbn [nth Z.eqb Pos.eqb]; px_eq.
      * f_equal. ctx10. rewrite EO. replace (tx =? 0) with false by lia. rewrite (bit_neg r0 (x - tx)) by lia.
        each i; consts; cbn [nth Z.eqb Pos.eqb]; px_eq.
Qed.
Lemma enc_pixel_ok r0 x lo h0 : HR 7 r0 (x + 1) lo h0 -> lo <= 8 -> Z.land (Z.shiftr h0 8) 1 = Z.b2z (bit r0 x).
Proof.
  intros H Hlo. change 1 with (Z.ones 1). rewrite Z.land_ones by lia. rewrite <- Z.bit0_mod, Z.shiftr_spec by lia.
  rewrite (HR_bit _ _ _ _ _ _ H) by lia. do 2 f_equal. lia.
Qed.

Lemma shl_bit_at h k n i : 0 <= i -> Z.testbit (Z.land (Z.shiftr h k) n) i = Z.testbit h (i + k) && Z.testbit n i.
Proof. intros H. rewrite Z.land_spec, Z.shiftr_spec by lia. reflexivity. Qed.

(** The decoder's context: its registers stop short of column [px s]. *)
Lemma dec_context_ok c o s r0 r1 r2 lo :
  HR (-1) r0 (px s) 0 (ph0 s) -> HR 15 r1 (px s) lo (ph1 s) -> (opt o T85_LRLTWO = false -> HR 15 r2 (px s) lo (ph2 s)) -> lo <= 8 -> tx_ok o (ptx s) ->
  (8 <= ptx s <= px s -> at_pixel c s = Ok (Z.b2z (bit r0 (px s - ptx s)))) ->
  dec_context c o s = Ok (ctx o (ptx s) r0 r1 r2 (px s)).
Proof.
  intros H0 H1 H2 Hlo Ht Ha. unfold dec_context. unfold tx_ok, first_t in Ht.
  destruct (opt o T85_LRLTWO) eqn:EO; [clear H2|specialize (H2 eq_refl)].
  - destruct (Z.eqb_spec (ptx s) 0) as [E|N]; cbn [negb].
    + f_equal. ctx10. rewrite EO. replace (ptx s =? 0) with true by lia. each i; consts; cbn [nth Z.eqb Pos.eqb]; px_eq.
    + destruct (Z.leb_spec (ptx s) (px s)).
      * destruct (Z.ltb_spec (ptx s) 8).
        -- replace (ptx s <? 5) with false by lia. f_equal. ctx10. rewrite EO. replace (ptx s =? 0) with false by lia.
           each i; consts; cbn [nth Z.eqb Pos.eqb]; px_eq.
        -- rewrite Ha by lia. cbn [rbind]. f_equal. ctx10. rewrite EO. replace (ptx s =? 0) with false by lia.
           each i; consts; cbn [nth Z.eqb Pos.eqb]; px_eq.
      * f_equal. ctx10. rewrite EO. replace (ptx s =? 0) with false by lia. rewrite (bit_neg r0 (px s - ptx s)) by lia.
        each i; consts; cbn [nth Z.eqb Pos.eqb]; px_eq.
  - destruct (Z.eqb_spec (ptx s) 0) as [E|N]; cbn [negb].
    + f_equal. ctx10. rewrite EO. replace (ptx s =? 0) with true by lia. each i; consts; cbn [nth Z.eqb Pos.eqb]; px_eq.
    + destruct (Z.leb_spec (ptx s) (px s)).
      * destruct (Z.ltb_spec (ptx s) 8).
        -- replace (ptx s <? 3) with false by lia. f_equal. ctx10. rewrite EO. replace (ptx s =? 0) with false by lia.
           each i; consts; cbn [nth Z.eqb Pos.eqb]; px_eq.
        -- rewrite Ha by lia. cbn [rbind]. f_equal. ctx10. rewrite EO. replace (ptx s =? 0) with false by lia.
           each i; consts; cbn [nth Z.eqb Pos.eqb]; px_eq.
      * f_equal. ctx10. rewrite EO. replace (ptx s =? 0) with false by lia. rewrite (bit_neg r0 (px s - ptx s)) by lia.
        each i; consts; cbn [nth Z.eqb Pos.eqb]; px_eq.
Qed.
