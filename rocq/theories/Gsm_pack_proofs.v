(** GSM 06.10: the fields of packed frames. *)
From Verif Require Import Base BitOps_proofs Gsm_model Gsm_spec Gsm_arith_proofs.
Local Open Scope Z_scope.

Lemma high_bit x k n : 0 <= x < 2 ^ k -> 0 <= k <= n -> Z.testbit x n = false.
Proof. intros H K. rewrite <- (Z.mod_small x (2 ^ k)) by lia. apply Z.mod_pow2_bits_high. lia. Qed.
Lemma bits_map n x : bits_lsb n x = map (fun i => Z.testbit x (Z.of_nat i)) (seq 0 n).
Proof.
  apply (nth_ext _ _ false false); [rewrite bits_lsb_length, map_length, seq_length; reflexivity|]. intros i H. rewrite bits_lsb_length in H. rewrite nth_bits_lsb by exact H.
  rewrite (nth_indep _ false (Z.testbit x (Z.of_nat 0))) by (rewrite map_length, seq_length; exact H). rewrite (map_nth (fun i => Z.testbit x (Z.of_nat i))), seq_nth by exact H. reflexivity.
Qed.
Lemma nth_skipn {A} n (l : list A) i d : nth i (skipn n l) d = nth (n + i) l d.
Proof. revert l. induction n as [|n IH]; intros [|x l]; cbn [skipn Nat.add nth]; auto. destruct i; reflexivity. Qed.
Lemma bits_msb_length n x : length (bits_msb n x) = n.
Proof. unfold bits_msb. rewrite rev_length. apply bits_lsb_length. Qed.

(** ---- fields determine a frame ---- *)
Lemma app_eq {A} (a b c d : list A) : length a = length c -> a ++ b = c ++ d -> a = c /\ b = d.
Proof. revert c. induction a as [|x a IH]; intros [|y c] L E; cbn in *; try discriminate; [auto|]. injection E as -> E. destruct (IH c ltac:(lia) E) as [-> ->]. auto. Qed.
Lemma fields_inj bits : (forall n x, length (bits n x) = n) -> (forall n x y, 0 <= x < 2 ^ Z.of_nat n -> 0 <= y < 2 ^ Z.of_nat n -> bits n x = bits n y -> x = y) ->
  forall w a b, fits w a -> fits w b -> fields bits w a = fields bits w b -> a = b.
Proof.
  intros HL HI. induction w as [|n w IH]; intros a b Fa Fb E; inversion Fa; inversion Fb; subst; [reflexivity|]. cbn [fields] in E. apply app_eq in E as [E1 E2]; [|rewrite !HL; reflexivity]. f_equal; [eapply HI; eassumption | apply IH; assumption].
Qed.
Lemma fields_lsb_inj w a b : fits w a -> fits w b -> fields bits_lsb w a = fields bits_lsb w b -> a = b.
Proof. apply fields_inj; [exact bits_lsb_length | exact bits_lsb_inj]. Qed.
Lemma fields_msb_inj w a b : fits w a -> fits w b -> fields bits_msb w a = fields bits_msb w b -> a = b.
Proof.
  apply fields_inj; [exact bits_msb_length|]. intros n x y Hx Hy E. apply (bits_lsb_inj n); [exact Hx | exact Hy|]. unfold bits_msb in E. rewrite <- (rev_involutive (bits_lsb n x)), E. apply rev_involutive.
Qed.
Lemma fields_app bits w a : forall v b, length w = length a -> fields bits (w ++ v) (a ++ b) = fields bits w a ++ fields bits v b.
Proof. revert a. induction w as [|n w IH]; intros [|x a] v b L; cbn in *; try discriminate; [reflexivity|]. rewrite IH by lia. apply app_assoc. Qed.
Lemma fits_length w f : fits w f -> length w = length f.
Proof. induction 1; cbn; congruence. Qed.

(** ---- WAV49 ---- *)
Lemma sr_bits sr r x : 0 <= sr < 65536 -> (r <= 16)%nat -> 0 <= x < 2 ^ Z.of_nat r ->
  bits_lsb 16 (u16 (Z.lor (Z.shiftr sr (Z.of_nat r)) (Z.shiftl x (16 - Z.of_nat r)))) = skipn r (bits_lsb 16 sr) ++ bits_lsb r x.
Proof.
  intros Hs Hr Hx. apply (nth_ext _ _ false false); [rewrite app_length, skipn_length, !bits_lsb_length; lia|]. intros i Hi. rewrite bits_lsb_length in Hi. rewrite nth_bits_lsb by exact Hi.
  unfold u16. change 65536 with (2 ^ 16). rewrite Z.mod_pow2_bits_low, Z.lor_spec, Z.shiftr_spec, Z.shiftl_spec by lia. destruct (Nat.lt_ge_cases i (16 - r)) as [L | L].
  - rewrite app_nth1 by (rewrite skipn_length, bits_lsb_length; lia). rewrite nth_skipn, nth_bits_lsb by lia. rewrite (Z.testbit_neg_r x) by lia. rewrite orb_false_r. f_equal. lia.
  - rewrite app_nth2; rewrite skipn_length, bits_lsb_length; [|lia]. rewrite nth_bits_lsb by lia. rewrite (high_bit sr 16) by lia. cbn [orb]. f_equal. lia.
Qed.
Lemma out_bits sr pend : 0 <= sr < 65536 -> (8 <= pend <= 16)%nat -> bits_lsb 8 (u8 (Z.shiftr sr (16 - Z.of_nat pend))) = firstn 8 (skipn (16 - pend) (bits_lsb 16 sr)).
Proof.
  intros Hs Hp. apply (nth_ext _ _ false false); [rewrite firstn_length, skipn_length, !bits_lsb_length; lia|]. intros i Hi. rewrite bits_lsb_length in Hi. rewrite nth_bits_lsb by exact Hi. unfold u8. change 256 with (2 ^ 8). rewrite Z.mod_pow2_bits_low, Z.shiftr_spec by lia.
  assert (N : forall (l : list bool) n k, (k < n)%nat -> nth k (firstn n l) false = nth k l false) by (clear; induction l as [|x l IH]; intros [|n] [|k] H; cbn; try lia; auto; apply IH; lia). rewrite N by lia. rewrite nth_skipn, nth_bits_lsb by lia. f_equal. lia.
Qed.
Fixpoint chk_pack (p : list pins) (x pend : nat) (ws : list nat) : bool :=
  match p with
  | [] => match ws with [] => (pend =? 0)%nat | _ => false end
  | Sr r y l :: p => match ws with w :: ws => (r =? Z.of_nat w) && (y =? x)%nat && (l =? 16 - Z.of_nat w) && (pend + w <=? 16)%nat && chk_pack p (S x) (pend + w) ws | [] => false end
  | Out n :: p => (8 <=? pend)%nat && (pend <=? 16)%nat && (n =? 16 - Z.of_nat pend) && chk_pack p x (pend - 8) ws
  end.
Lemma chk_pack_ok f p : forall x pend ws sr, chk_pack p x pend ws = true -> (pend <= 16)%nat -> fits ws (skipn x f) -> 0 <= sr < 65536 ->
  flat_map (bits_lsb 8) (run_pack f p sr) = skipn (16 - pend) (bits_lsb 16 sr) ++ fields bits_lsb ws (skipn x f) /\ Forall byte (run_pack f p sr).
Proof.
  induction p as [|[r y l | n] p IH]; intros x pend ws sr H Hp F Hs; cbn [chk_pack run_pack] in *.
  - destruct ws; [|discriminate]. apply Nat.eqb_eq in H. subst pend. cbn [flat_map fields Nat.sub]. rewrite skipn_all2 by (rewrite bits_lsb_length; lia). split; constructor.
  - destruct ws as [|w ws]; [discriminate|]. rewrite !andb_true_iff, !Z.eqb_eq, Nat.eqb_eq, Nat.leb_le in H. destruct H as ((((-> & ->) & ->) & Hw) & H). destruct (skipn x f) as [|v t] eqn:E; [inversion F|]. inversion F as [|? ? ? ? Hv Ft]; subst.
    assert (En : nth x f 0 = v). { rewrite <- (Nat.add_0_r x), <- nth_skipn, E. reflexivity. }
    assert (Es : skipn (S x) f = t). { clear - E. revert f E. induction x as [|x IH]; intros [|a f] E; cbn [skipn] in *; try discriminate; [injection E as _ E; exact E | apply (IH f E)]. }
    rewrite En. destruct (IH (S x) (pend + w)%nat ws (u16 (Z.lor (Z.shiftr sr (Z.of_nat w)) (Z.shiftl v (16 - Z.of_nat w)))) H ltac:(lia)) as [I J]; [rewrite Es; exact Ft | unfold u16; apply Z.mod_pos_bound; lia|].
    split; [|exact J]. rewrite I, Es, sr_bits by (assumption || lia). cbn [fields]. rewrite app_assoc. f_equal. rewrite skipn_app.
    rewrite skipn_length, bits_lsb_length. replace (16 - (pend + w) - (16 - w))%nat with 0%nat by lia. rewrite skipn_O. f_equal.
    assert (SS : forall n m (q : list bool), skipn n (skipn m q) = skipn (m + n) q) by (clear; intros n m; induction m; intros [|a q]; cbn [skipn Nat.add]; auto; apply skipn_nil). rewrite SS. f_equal. lia.
  - rewrite !andb_true_iff, Z.eqb_eq, !Nat.leb_le in H. destruct H as (((H1 & H2) & ->) & H). destruct (IH x (pend - 8)%nat ws sr H ltac:(lia) F Hs) as [I J]. split; [|constructor; [unfold byte, u8; apply Z.mod_pos_bound; lia | exact J]].
    cbn [flat_map]. rewrite I, out_bits by (assumption || lia). rewrite app_assoc. f_equal. rewrite <- (firstn_skipn 8 (skipn (16 - pend) _)) at 2. f_equal.
    assert (SS : forall n m (q : list bool), skipn n (skipn m q) = skipn (m + n) q) by (clear; intros n m; induction m; intros [|a q]; cbn [skipn Nat.add]; auto; apply skipn_nil). rewrite SS. f_equal. lia.
Qed.
Lemma pack_wav49_bits f : fits (sizes ++ sizes) f -> flat_map (bits_lsb 8) (pack_wav49 f) = fields bits_lsb (sizes ++ sizes) f /\ Forall byte (pack_wav49 f) /\ length (pack_wav49 f) = 65%nat.
Proof.
  intros F. destruct (chk_pack_ok f wav49_pack 0 0 (sizes ++ sizes) 0) as [A B]; [vm_compute; reflexivity | lia | exact F | lia|]. unfold pack_wav49. split; [rewrite A; reflexivity|]. split; [exact B|].
  assert (N : forall p sr, length (run_pack f p sr) = length (filter (fun i => match i with Out _ => true | _ => false end) p)) by (induction p as [|[? ? ? | ?] p IH]; intros sr; cbn [run_pack filter length]; auto). rewrite N. reflexivity.
Qed.

Definition sum_of (ws : list nat) : nat := fold_right Nat.add 0%nat ws.
Fixpoint chk_unpack (p : list uins) (pend taken : nat) (ws : list nat) : bool :=
  match p with
  | [] => match ws with [] => (pend =? taken)%nat | _ => false end
  | Ld :: p => (pend =? taken)%nat && (1 <=? sum_of ws)%nat && chk_unpack p 8 0 ws
  | Or n :: p => (taken =? 0)%nat && (n =? Z.of_nat pend) && (pend <=? 8)%nat && (pend <? sum_of ws)%nat && chk_unpack p (pend + 8) 0 ws
  | Get m :: p => match ws with w :: ws => (taken =? 0)%nat && (w <=? pend)%nat && (m =? Z.ones (Z.of_nat w)) && chk_unpack p pend w ws | [] => false end
  | Shr n :: p => (n =? Z.of_nat taken) && (taken <=? pend)%nat && chk_unpack p (pend - taken) 0 ws
  end.
Lemma or_bits sr o pend : 0 <= sr < 2 ^ Z.of_nat pend -> byte o -> (pend <= 8)%nat -> bits_lsb (pend + 8) (u16 (Z.lor sr (Z.shiftl o (Z.of_nat pend)))) = bits_lsb pend sr ++ bits_lsb 8 o /\ 0 <= u16 (Z.lor sr (Z.shiftl o (Z.of_nat pend))) < 2 ^ Z.of_nat (pend + 8).
Proof.
  intros Hs Ho Hp. unfold byte in Ho.
  assert (B : 0 <= Z.lor sr (Z.shiftl o (Z.of_nat pend)) < 2 ^ Z.of_nat (pend + 8)).
  { apply lor_range; [lia | |].
    - assert (2 ^ Z.of_nat pend <= 2 ^ Z.of_nat (pend + 8)) by (apply Z.pow_le_mono_r; lia). lia.
    - rewrite Z.shiftl_mul_pow2 by lia. rewrite Nat2Z.inj_add, Z.pow_add_r by lia. change (2 ^ Z.of_nat 8) with 256. assert (0 < 2 ^ Z.of_nat pend) by (apply Z.pow_pos_nonneg; lia). nia. }
  assert (E : u16 (Z.lor sr (Z.shiftl o (Z.of_nat pend))) = Z.lor sr (Z.shiftl o (Z.of_nat pend))).
  { unfold u16. apply Z.mod_small. change 65536 with (2 ^ 16). assert (2 ^ Z.of_nat (pend + 8) <= 2 ^ 16) by (apply Z.pow_le_mono_r; lia). lia. }
  rewrite E. split; [|exact B]. apply (nth_ext _ _ false false); [rewrite app_length, !bits_lsb_length; lia|]. intros i Hi. rewrite bits_lsb_length in Hi. rewrite nth_bits_lsb by exact Hi. rewrite Z.lor_spec, Z.shiftl_spec by lia.
  destruct (Nat.lt_ge_cases i pend) as [L | L].
  - rewrite app_nth1 by (rewrite bits_lsb_length; lia). rewrite nth_bits_lsb by lia. rewrite (Z.testbit_neg_r o) by lia. apply orb_false_r.
  - rewrite app_nth2; rewrite bits_lsb_length; [|lia]. rewrite nth_bits_lsb by lia. rewrite (high_bit sr (Z.of_nat pend)) by lia. cbn [orb]. f_equal. lia.
Qed.
Lemma bits_split n m x : bits_lsb (n + m) x = bits_lsb n x ++ bits_lsb m (Z.shiftr x (Z.of_nat n)).
Proof.
  apply (nth_ext _ _ false false); [rewrite app_length, !bits_lsb_length; lia|]. intros i Hi. rewrite bits_lsb_length in Hi. rewrite nth_bits_lsb by exact Hi. destruct (Nat.lt_ge_cases i n) as [L | L].
  - rewrite app_nth1 by (rewrite bits_lsb_length; lia). rewrite nth_bits_lsb by lia. reflexivity.
  - rewrite app_nth2; rewrite bits_lsb_length; [|lia]. rewrite nth_bits_lsb by lia. rewrite Z.shiftr_spec by lia. f_equal. lia.
Qed.
Lemma bits_mod n x : bits_lsb n (Z.land x (Z.ones (Z.of_nat n))) = bits_lsb n x.
Proof. rewrite Z.land_ones by lia. apply (nth_ext _ _ false false); [rewrite !bits_lsb_length; reflexivity|]. intros i Hi. rewrite bits_lsb_length in Hi. rewrite !nth_bits_lsb by exact Hi. apply Z.mod_pow2_bits_low. lia. Qed.
Lemma chk_unpack_ok p : forall c pend taken ws sr, chk_unpack p pend taken ws = true -> Forall byte c -> (taken <= pend)%nat -> (sum_of ws + taken <= pend + 8 * length c)%nat -> 0 <= sr < 2 ^ Z.of_nat pend ->
  exists f, run_unpack c p sr = Ok f /\ fits ws f /\ fields bits_lsb ws f = firstn (sum_of ws) (skipn taken (bits_lsb pend sr) ++ flat_map (bits_lsb 8) c).
Proof.
  induction p as [|[| n | m | n] p IH]; intros c pend taken ws sr H F Ht Hl Hs; cbn [chk_unpack run_unpack] in *.
  - destruct ws; [|discriminate]. exists []. split; [reflexivity|]. split; constructor.
  - rewrite !andb_true_iff, Nat.eqb_eq, Nat.leb_le in H. destruct H as ((He & Hw) & H). subst taken. destruct c as [|o c]; [cbn [length] in Hl; lia|]. apply Forall_cons_iff in F as [Ho F]. cbn [length] in Hl.
    destruct (IH c 8%nat 0%nat ws o H F ltac:(lia) ltac:(lia) Ho) as (f & E & Ff & B). exists f. split; [exact E|]. split; [exact Ff|]. rewrite B, skipn_O. rewrite (skipn_all2 (n := pend)) by (rewrite bits_lsb_length; lia). reflexivity.
  - rewrite !andb_true_iff, Nat.eqb_eq, Z.eqb_eq, Nat.leb_le, Nat.ltb_lt in H. destruct H as ((((-> & ->) & Hp) & Hw) & H). destruct c as [|o c]; [cbn [length] in Hl; lia|]. apply Forall_cons_iff in F as [Ho F]. cbn [length] in Hl.
    destruct (or_bits sr o pend Hs Ho Hp) as [B1 B2]. destruct (IH c (pend + 8)%nat 0%nat ws _ H F ltac:(lia) ltac:(lia) B2) as (f & E & Ff & B). exists f. split; [exact E|]. split; [exact Ff|]. rewrite B, !skipn_O, B1. cbn [flat_map]. rewrite <- app_assoc. reflexivity.
  - destruct ws as [|w ws]; [discriminate|]. rewrite !andb_true_iff, Nat.eqb_eq, Z.eqb_eq, Nat.leb_le in H. destruct H as (((-> & Hw) & ->) & H). change (sum_of (w :: ws)) with (w + sum_of ws)%nat in *.
    destruct (IH c pend w ws sr H F Hw ltac:(lia) Hs) as (f & E & Ff & B). rewrite E. cbn [rbind]. eexists. split; [reflexivity|]. split.
    { constructor; [|exact Ff]. rewrite Z.land_ones by lia. apply Z.mod_pos_bound. apply Z.pow_pos_nonneg; lia. }
    cbn [fields]. rewrite B, bits_mod, skipn_O. assert (BS : bits_lsb pend sr = bits_lsb w sr ++ bits_lsb (pend - w) (Z.shiftr sr (Z.of_nat w))) by (rewrite <- bits_split; f_equal; lia). rewrite BS. rewrite (skipn_app w). rewrite (skipn_all2 (n := w)) by (rewrite bits_lsb_length; lia). rewrite bits_lsb_length, Nat.sub_diag, skipn_O. cbn [app].
    rewrite <- app_assoc. rewrite (firstn_app (w + sum_of ws)). rewrite bits_lsb_length. replace (w + sum_of ws - w)%nat with (sum_of ws) by lia. rewrite (firstn_all2 (n := w + sum_of ws)) by (rewrite bits_lsb_length; lia). reflexivity.
  - rewrite !andb_true_iff, Z.eqb_eq, Nat.leb_le in H. destruct H as ((-> & Hn) & H).
    assert (P : 0 < 2 ^ Z.of_nat taken) by (apply Z.pow_pos_nonneg; lia).
    destruct (IH c (pend - taken)%nat 0%nat ws (Z.shiftr sr (Z.of_nat taken)) H F ltac:(lia) ltac:(lia)) as (f & E & Ff & B).
    { rewrite Z.shiftr_div_pow2 by lia. split; [apply Z.div_pos; lia|]. apply Z.div_lt_upper_bound; [lia|]. rewrite <- Z.pow_add_r by lia. replace (Z.of_nat taken + Z.of_nat (pend - taken)) with (Z.of_nat pend) by lia. lia. }
    exists f. split; [exact E|]. split; [exact Ff|]. rewrite B, skipn_O. assert (BS : bits_lsb pend sr = bits_lsb taken sr ++ bits_lsb (pend - taken) (Z.shiftr sr (Z.of_nat taken))) by (rewrite <- bits_split; f_equal; lia). rewrite BS, (skipn_app taken). rewrite (skipn_all2 (n := taken)) by (rewrite bits_lsb_length; lia). rewrite bits_lsb_length, Nat.sub_diag, skipn_O. reflexivity.
Qed.
Lemma flat_bits_length c : length (flat_map (bits_lsb 8) c) = (8 * length c)%nat.
Proof. induction c as [|o c IH]; [reflexivity|]. cbn [flat_map length]. rewrite app_length, bits_lsb_length, IH. lia. Qed.
Lemma unpack_wav49_bits c : Forall byte c -> (65 <= length c)%nat -> exists f, unpack_wav49 c = Ok f /\ fits (sizes ++ sizes) f /\ fields bits_lsb (sizes ++ sizes) f = flat_map (bits_lsb 8) (firstn 65 c).
Proof.
  intros F L. destruct (chk_unpack_ok wav49_unpack c 0 0 (sizes ++ sizes) 0) as (f & E & Ff & B); [vm_compute; reflexivity | exact F | lia | change (sum_of (sizes ++ sizes)) with 520%nat; lia | cbn; lia|].
  exists f. split; [exact E|]. split; [exact Ff|]. rewrite B. change (sum_of (sizes ++ sizes)) with 520%nat. rewrite <- (firstn_skipn 65 c) at 1. rewrite flat_map_app. cbn [bits_lsb skipn app]. rewrite firstn_app. rewrite flat_bits_length, firstn_length. replace (520 - 8 * Nat.min 65 (length c))%nat with 0%nat by lia.
  rewrite firstn_O, app_nil_r. apply firstn_all2. rewrite flat_bits_length, firstn_length. lia.
Qed.
Lemma wav49_round f rest : fits (sizes ++ sizes) f -> Forall byte rest -> unpack_wav49 (pack_wav49 f ++ rest) = Ok f.
Proof.
  intros F Fr. destruct (pack_wav49_bits f F) as (A & B & L). destruct (unpack_wav49_bits (pack_wav49 f ++ rest)) as (g & -> & Fg & E); [apply Forall_app; split; assumption | rewrite app_length; lia|].
  f_equal. apply (fields_lsb_inj (sizes ++ sizes)); [exact Fg | exact F|]. rewrite E, <- A. apply (f_equal (flat_map (bits_lsb 8))). rewrite firstn_app, L, Nat.sub_diag, firstn_O, app_nil_r. apply firstn_all2. lia.
Qed.

(** ---- one octet for each parameter ---- *)
Lemma none_round f rest : fits sizes f -> pack_none f = f /\ Forall byte (pack_none f) /\ unpack_none (pack_none f ++ rest) = Ok f.
Proof.
  intros F. pose proof (fits_length _ _ F) as L. change (length sizes) with 76%nat in L. assert (B : Forall byte f).
  { clear L rest. assert (W : Forall (fun n => (n <= 8)%nat) sizes) by (repeat constructor). revert W. induction F as [|n x w f Hx F IH]; intros W; [constructor|]. apply Forall_cons_iff in W as [Hn W]. constructor; [|apply IH; exact W]. unfold byte. assert (2 ^ Z.of_nat n <= 2 ^ 8) by (apply Z.pow_le_mono_r; lia). change (2 ^ 8) with 256 in *. lia. }
  assert (E : pack_none f = f). { unfold pack_none. rewrite firstn_all2 by lia. transitivity (map (fun x => x) f); [|apply map_id]. apply map_ext_in. intros x I. pose proof (Forall_In _ _ _ B I) as Hx. unfold byte in Hx. unfold u8. apply Z.mod_small. lia. }
  rewrite E. split; [reflexivity|]. split; [exact B|]. unfold unpack_none, aslice. cbn [Z.leb Z.compare]. rewrite app_length. destruct (Z.leb_spec (0 + 76) (Z.of_nat (length f + length rest))); [|lia]. cbn [andb skipn Z.to_nat]. f_equal. change (Pos.to_nat 76) with 76%nat. rewrite L, firstn_app, Nat.sub_diag, firstn_all, firstn_O. apply app_nil_r.
Qed.

(** ---- VOIP ---- *)
Lemma fld_bit x r m l i : 0 <= r -> 0 <= l -> 0 <= i -> Z.testbit (fld x r m l) i = (l <=? i) && (Z.testbit m (i - l) && Z.testbit x (i - l + r)).
Proof.
  intros Hr Hl Hi. unfold fld. rewrite Z.shiftl_spec by lia. destruct (Z.leb_spec l i); [|rewrite Z.testbit_neg_r by lia; reflexivity]. rewrite Z.land_spec, Z.shiftr_spec by lia. cbn [andb]. apply andb_comm.
Qed.
Lemma u8_bit x i : 0 <= i < 8 -> Z.testbit (u8 x) i = Z.testbit x i.
Proof. intros H. unfold u8. change 256 with (2 ^ 8). apply Z.mod_pow2_bits_low. lia. Qed.
Fixpoint ors (a b : list bool) : list bool := match a, b with x :: a, y :: b => (x || y) :: ors a b | _, _ => [] end.
Lemma msb_map n x : bits_msb n x = map (Z.testbit x) (rev (map Z.of_nat (seq 0 n))).
Proof. unfold bits_msb. rewrite bits_map, map_rev, map_map. reflexivity. Qed.
Lemma msb_u8 x : bits_msb 8 (u8 x) = bits_msb 8 x.
Proof. rewrite !msb_map. apply map_ext_in. intros i I. apply u8_bit. cbn in I. lia. Qed.
Lemma msb_lor n a b : bits_msb n (Z.lor a b) = ors (bits_msb n a) (bits_msb n b).
Proof. rewrite !msb_map. induction (rev (map Z.of_nat (seq 0 n))) as [|i l IH]; [reflexivity|]. cbn [map ors]. rewrite Z.lor_spec, IH. reflexivity. Qed.
Lemma msb_fld n x r m l : 0 <= r -> 0 <= l -> bits_msb n (fld x r m l) = map (fun i => (l <=? i) && (Z.testbit m (i - l) && Z.testbit x (i - l + r))) (rev (map Z.of_nat (seq 0 n))).
Proof. intros Hr Hl. rewrite msb_map. apply map_ext_in. intros i I. rewrite <- in_rev in I. apply in_map_iff in I as (k & <- & _). apply fld_bit; lia. Qed.
Ltac bits := cbn [flat_map fields]; rewrite ?msb_u8, ?msb_lor; repeat (rewrite msb_fld by lia); rewrite ?msb_map;
  cbn [seq map rev app ors Z.of_nat Pos.of_succ_nat Pos.succ Z.leb Z.compare Pos.compare Pos.compare_cont Z.sub Z.opp Z.add Z.pos_sub Pos.add Pos.succ Pos.pred_double Z.testbit Pos.testbit Pos.pred_N andb orb]; rewrite ?orb_false_r.
Lemma voip_head_bits L0 L1 L2 L3 L4 L5 L6 L7 t : flat_map (bits_msb 8) (voip_head (L0 :: L1 :: L2 :: L3 :: L4 :: L5 :: L6 :: L7 :: t)) = [true; true; false; true] ++ fields bits_msb (firstn 8 sizes) [L0; L1; L2; L3; L4; L5; L6; L7].
Proof. unfold voip_head. cbn [nth firstn sizes app]. bits. reflexivity. Qed.
Lemma voip_sub_bits N b M X x0 x1 x2 x3 x4 x5 x6 x7 x8 x9 x10 x11 x12 t : let p := [N; b; M; X; x0; x1; x2; x3; x4; x5; x6; x7; x8; x9; x10; x11; x12] in flat_map (bits_msb 8) (voip_sub (p ++ t)) = fields bits_msb sub_sizes p.
Proof. cbv zeta. unfold voip_sub, sub_sizes. cbn [nth app Nat.add]. bits. reflexivity. Qed.
Lemma list_split {A} n (l : list A) : (n <= length l)%nat -> exists a b, l = a ++ b /\ length a = n.
Proof. intros H. exists (firstn n l), (skipn n l). split; [symmetry; apply firstn_skipn | rewrite firstn_length; lia]. Qed.
Lemma voip_sub_bits' p t : length p = 17%nat -> flat_map (bits_msb 8) (voip_sub (p ++ t)) = fields bits_msb sub_sizes p.
Proof. intros L. do 17 (destruct p as [|? p]; [discriminate|]). destruct p; [|discriminate]. apply voip_sub_bits. Qed.
Lemma voip_head_bits' p t : length p = 8%nat -> flat_map (bits_msb 8) (voip_head (p ++ t)) = [true; true; false; true] ++ fields bits_msb (firstn 8 sizes) p.
Proof. intros L. do 8 (destruct p as [|? p]; [discriminate|]). destruct p; [|discriminate]. apply voip_head_bits. Qed.
Lemma frame_split (f : list Z) : length f = 76%nat -> exists h a b c d, f = h ++ a ++ b ++ c ++ d /\ length h = 8%nat /\ length a = 17%nat /\ length b = 17%nat /\ length c = 17%nat /\ length d = 17%nat.
Proof.
  intros L. destruct (list_split 8 f ltac:(lia)) as (h & f1 & -> & Lh). rewrite app_length in L. destruct (list_split 17 f1 ltac:(lia)) as (a & f2 & -> & La). rewrite app_length in L. destruct (list_split 17 f2 ltac:(lia)) as (b & f3 & -> & Lb). rewrite app_length in L.
  destruct (list_split 17 f3 ltac:(lia)) as (c & d & -> & Lc). rewrite app_length in L. exists h, a, b, c, d. repeat split; assumption || lia.
Qed.
Lemma pack_voip_bits f : length f = 76%nat -> flat_map (bits_msb 8) (pack_voip f) = [true; true; false; true] ++ fields bits_msb sizes f /\ Forall byte (pack_voip f) /\ length (pack_voip f) = 33%nat.
Proof.
  intros L. assert (U : forall x, byte (u8 x)) by (intros x; unfold byte, u8; apply Z.mod_pos_bound; lia).
  split; [|split; [unfold pack_voip, voip_head, voip_sub; cbn [seq flat_map app]; repeat (constructor; [apply U|]); constructor | reflexivity]].
  destruct (frame_split f L) as (h & a & b & c & d & -> & Lh & La & Lb & Lc & Ld). unfold pack_voip. rewrite flat_map_app. rewrite voip_head_bits' by exact Lh. rewrite <- app_assoc. f_equal.
  unfold sizes at 2. rewrite fields_app by (rewrite Lh; reflexivity). f_equal. rewrite !fields_app by (rewrite ?La, ?Lb, ?Lc; reflexivity).
  cbn [seq flat_map]. rewrite app_nil_r, !flat_map_app. change (8 + 17 * 0)%nat with 8%nat. change (8 + 17 * 1)%nat with 25%nat. change (8 + 17 * 2)%nat with 42%nat. change (8 + 17 * 3)%nat with 59%nat.
  assert (S : forall n (x y : list Z), length x = n -> skipn n (x ++ y) = y) by (intros n x y <-; rewrite skipn_app, Nat.sub_diag, skipn_all; reflexivity).
  rewrite (S 8%nat h) by exact Lh. rewrite (app_assoc h a), (S 25%nat (h ++ a)) by (rewrite app_length; lia). rewrite (app_assoc (h ++ a) b), (S 42%nat ((h ++ a) ++ b)) by (rewrite !app_length; lia). rewrite (app_assoc ((h ++ a) ++ b) c), (S 59%nat (((h ++ a) ++ b) ++ c)) by (rewrite !app_length; lia).
  rewrite !voip_sub_bits' by assumption. rewrite <- (app_nil_r d) at 1. rewrite voip_sub_bits' by exact Ld. reflexivity.
Qed.

Lemma fld_range x r k l n : 0 <= k -> 0 <= l -> k + l <= n -> 0 <= fld x r (Z.ones k) l < 2 ^ n.
Proof.
  intros Hk Hl Hn. unfold fld. rewrite Z.land_ones, Z.shiftl_mul_pow2 by lia. pose proof (Z.mod_pos_bound (Z.shiftr x r) (2 ^ k) ltac:(apply Z.pow_pos_nonneg; lia)). assert (0 < 2 ^ l) by (apply Z.pow_pos_nonneg; lia).
  assert (2 ^ k * 2 ^ l <= 2 ^ n) by (rewrite <- Z.pow_add_r by lia; apply Z.pow_le_mono_r; lia). nia.
Qed.
Ltac rng := repeat apply lor_range; try lia;
  match goal with |- 0 <= fld ?x ?r ?m ?l < 2 ^ ?n => first [apply (fld_range x r 1 l n) | apply (fld_range x r 2 l n) | apply (fld_range x r 3 l n) | apply (fld_range x r 4 l n) | apply (fld_range x r 5 l n) | apply (fld_range x r 6 l n) | apply (fld_range x r 7 l n)]; lia end.
Lemma unvoip_sub_bits o t : length o = 7%nat -> fields bits_msb sub_sizes (unvoip_sub (o ++ t)) = flat_map (bits_msb 8) o /\ fits sub_sizes (unvoip_sub (o ++ t)).
Proof.
  intros L. do 7 (destruct o as [|? o]; [discriminate|]). destruct o; [|discriminate]. unfold unvoip_sub, sub_sizes. cbn [nth app]. change part with fld. split.
  - bits. reflexivity.
  - unfold fits. repeat (constructor; [rng|]). constructor.
Qed.
Lemma unvoip_head_bits o t : length o = 5%nat -> fields bits_msb (firstn 8 sizes) (unvoip_head (o ++ t)) = skipn 4 (flat_map (bits_msb 8) o) /\ fits (firstn 8 sizes) (unvoip_head (o ++ t)).
Proof.
  intros L. do 5 (destruct o as [|? o]; [discriminate|]). destruct o; [|discriminate]. unfold unvoip_head, sizes. cbn [nth app firstn]. change part with fld. split.
  - bits. reflexivity.
  - unfold fits. repeat (constructor; [rng|]). constructor.
Qed.
Lemma unpack_voip_bits c : (33 <= length c)%nat -> exists f, unpack_voip c = Ok f /\ fits sizes f /\ fields bits_msb sizes f = skipn 4 (flat_map (bits_msb 8) (firstn 33 c)).
Proof.
  intros L. unfold unpack_voip, aslice. cbn [Z.leb Z.compare]. destruct (Z.leb_spec (0 + 33) (Z.of_nat (length c))); [|lia]. cbn [andb rbind]. change (skipn (Z.to_nat 0) c) with c. change (Z.to_nat 33) with 33%nat. set (d := firstn 33 c). assert (Ld : length d = 33%nat) by (unfold d; rewrite firstn_length; lia). clearbody d.
  destruct (list_split 5 d ltac:(lia)) as (h & d1 & -> & Lh). rewrite app_length in Ld. destruct (list_split 7 d1 ltac:(lia)) as (p & d2 & -> & Lp). rewrite app_length in Ld. destruct (list_split 7 d2 ltac:(lia)) as (q & d3 & -> & Lq). rewrite app_length in Ld. destruct (list_split 7 d3 ltac:(lia)) as (r & s & -> & Lr). rewrite app_length in Ld. assert (Ls : length s = 7%nat) by lia.
  eexists. split; [reflexivity|]. cbn [seq flat_map]. rewrite app_nil_r. change (5 + 7 * 0)%nat with 5%nat. change (5 + 7 * 1)%nat with 12%nat. change (5 + 7 * 2)%nat with 19%nat. change (5 + 7 * 3)%nat with 26%nat.
  assert (S : forall n (x y : list Z), length x = n -> skipn n (x ++ y) = y) by (intros n x y <-; rewrite skipn_app, Nat.sub_diag, skipn_all; reflexivity).
  assert (S1 : skipn 12 (h ++ p ++ q ++ r ++ s) = q ++ r ++ s) by (rewrite (app_assoc h); apply S; rewrite app_length; lia).
  assert (S2 : skipn 19 (h ++ p ++ q ++ r ++ s) = r ++ s) by (rewrite (app_assoc h), (app_assoc (h ++ p)); apply S; rewrite !app_length; lia).
  assert (S3 : skipn 26 (h ++ p ++ q ++ r ++ s) = s ++ []) by (rewrite (app_assoc h), (app_assoc (h ++ p)), (app_assoc ((h ++ p) ++ q)), app_nil_r; apply S; rewrite !app_length; lia).
  rewrite (S 5%nat h) by exact Lh. rewrite S1, S2, S3.
  destruct (unvoip_head_bits h (p ++ q ++ r ++ s) Lh) as [B0 F0]. destruct (unvoip_sub_bits p (q ++ r ++ s) Lp) as [B1 F1]. destruct (unvoip_sub_bits q (r ++ s) Lq) as [B2 F2]. destruct (unvoip_sub_bits r s Lr) as [B3 F3]. destruct (unvoip_sub_bits s [] Ls) as [B4 F4].
  split; [exact (Forall2_app F0 (Forall2_app F1 (Forall2_app F2 (Forall2_app F3 F4))))|].
  change sizes with (firstn 8 sizes ++ sub_sizes ++ sub_sizes ++ sub_sizes ++ sub_sizes). rewrite !fields_app by reflexivity. rewrite B0, B1, B2, B3, B4, !flat_map_app. rewrite skipn_app. f_equal.
  do 5 (destruct h as [|? h]; [discriminate|]). destruct h; [|discriminate]. cbn [flat_map]. rewrite !app_length, !bits_msb_length. reflexivity.
Qed.
Lemma voip_round f rest : fits sizes f -> unpack_voip (pack_voip f ++ rest) = Ok f.
Proof.
  intros F. pose proof (fits_length _ _ F) as L. change (length sizes) with 76%nat in L. destruct (pack_voip_bits f (eq_sym L)) as (A & B & L33). destruct (unpack_voip_bits (pack_voip f ++ rest)) as (g & -> & Fg & E); [rewrite app_length; lia|].
  f_equal. apply (fields_msb_inj sizes); [exact Fg | exact F|]. rewrite E. rewrite firstn_app, L33, Nat.sub_diag, firstn_O, app_nil_r, (firstn_all2 (n := 33)) by lia. rewrite A. reflexivity.
Qed.
