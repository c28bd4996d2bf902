From Verif Require Import Base BitOps_model BitOps_spec.
From Coq Require Import ZifyBool ZifyNat.
Ltac Zify.zify_post_hook ::= Z.div_mod_to_equations.

(** ---- testbit toolkit ---- *)
Lemma testbit_of_bits l i : Z.testbit (of_bits_lsb l) (Z.of_nat i) = nth i l false.
Proof.
  destruct (le_lt_dec (length l) i).
  - rewrite nth_overflow by lia. pose proof (of_bits_lsb_range l).
    destruct (Z.eq_dec (of_bits_lsb l) 0) as [->|]; [apply Z.bits_0|].
    apply Z.bits_above_log2; [lia|].
    assert (Z.log2 (of_bits_lsb l) < Z.of_nat (length l)) by (apply Z.log2_lt_pow2; lia). lia.
  - rewrite <- (nth_bits_lsb (length l)) by lia. rewrite bits_lsb_of_bits. reflexivity.
Qed.
Lemma testbit_small x n i : 0 <= x < 2 ^ n -> n <= i -> Z.testbit x i = false.
Proof.
  intros H Hi. destruct (Z.eq_dec x 0) as [->|]; [apply Z.bits_0|].
  apply Z.bits_above_log2; [lia|]. assert (Z.log2 x < n) by (apply Z.log2_lt_pow2; lia). lia.
Qed.
Lemma testbit_eq_small n x y : 0 <= x < 2 ^ Z.of_nat n -> 0 <= y < 2 ^ Z.of_nat n ->
  (forall i, (i < n)%nat -> Z.testbit x (Z.of_nat i) = Z.testbit y (Z.of_nat i)) -> x = y.
Proof.
  intros Hx Hy H. apply Z.bits_inj'. intros i Hi.
  destruct (Z_lt_le_dec i (Z.of_nat n)).
  - rewrite <- (Z2Nat.id i) by lia. apply H. lia.
  - rewrite (testbit_small x (Z.of_nat n)), (testbit_small y (Z.of_nat n)) by lia. reflexivity.
Qed.
Lemma mirror_range n x : 0 <= mirror n x < 2 ^ Z.of_nat n.
Proof. pose proof (of_bits_lsb_range (rev (bits_lsb n x))) as H. rewrite rev_length, bits_lsb_length in H. exact H. Qed.
Lemma testbit_mirror n x i : (i < n)%nat -> Z.testbit (mirror n x) (Z.of_nat i) = Z.testbit x (Z.of_nat (n - 1 - i)).
Proof.
  intros H. unfold mirror. rewrite testbit_of_bits, rev_nth by (rewrite bits_lsb_length; lia).
  rewrite bits_lsb_length, nth_bits_lsb by lia. f_equal. lia.
Qed.

(** ---- a small reflective language of shift/mask/or expressions ---- *)
Inductive bexp := BX | BShr (e : bexp) (k : Z) | BShl (e : bexp) (k : Z) | BAnd (e : bexp) (c : Z) | BOr (a b : bexp).
Fixpoint bev (x : Z) (e : bexp) : Z :=
  match e with
  | BX => x
  | BShr e k => Z.shiftr (bev x e) k
  | BShl e k => Z.shiftl (bev x e) k
  | BAnd e c => Z.land (bev x e) c
  | BOr a b => Z.lor (bev x a) (bev x b)
  end.
(** source positions whose disjunction is bit [i] *)
Fixpoint bsrc (e : bexp) (i : Z) : list Z :=
  if i <? 0 then [] else
  match e with
  | BX => [i]
  | BShr e k => bsrc e (i + k)
  | BShl e k => bsrc e (i - k)
  | BAnd e c => if Z.testbit c i then bsrc e i else []
  | BOr a b => bsrc a i ++ bsrc b i
  end.
Lemma bsrc_ok x e i : Z.testbit (bev x e) i = existsb (Z.testbit x) (bsrc e i).
Proof.
  revert i; induction e as [|e IH k|e IH k|e IH c|a IHa b IHb]; intros i; cbn [bsrc bev];
    destruct (Z.ltb_spec i 0); try (apply Z.testbit_neg_r; assumption).
  - cbn [existsb]. rewrite orb_false_r. reflexivity.
  - rewrite Z.shiftr_spec by lia. apply IH.
  - rewrite Z.shiftl_spec by lia. apply IH.
  - rewrite Z.land_spec. destruct (Z.testbit c i); [rewrite andb_true_r; apply IH|apply andb_false_r].
  - rewrite Z.lor_spec, existsb_app. f_equal; auto.
Qed.

Definition EShl (w : Z) e k := BAnd (BShl e k) (Z.ones w).
Definition swapE (w : Z) (e : bexp) (m1 m2 k : Z) := BOr (BShr (BAnd e m1) k) (EShl w (BAnd e m2) k).

Fixpoint srcs_ok (w : Z) (e : bexp) (f : nat -> Z) (n : nat) : bool :=
  match n with
  | O => true
  | S k => (match filter (fun p => p <? w) (bsrc e (Z.of_nat k)) with [p] => p =? f k | _ => false end) && srcs_ok w e f k
  end.
Lemma existsb_small w x l : 0 <= x < 2 ^ w -> existsb (Z.testbit x) l = existsb (Z.testbit x) (filter (fun p => p <? w) l).
Proof.
  intros H. induction l as [|p l IH]; [reflexivity|]. cbn [existsb filter].
  destruct (Z.ltb_spec p w); cbn [existsb]; rewrite IH; auto.
  rewrite (testbit_small x w p) by lia. reflexivity.
Qed.
Lemma srcs_ok_spec w e f n x : 0 <= x < 2 ^ w -> srcs_ok w e f n = true ->
  forall i, (i < n)%nat -> Z.testbit (bev x e) (Z.of_nat i) = Z.testbit x (f i).
Proof.
  intros Hx. induction n as [|n IH]; intros H i Hi; [lia|]. cbn [srcs_ok] in H. apply andb_true_iff in H as [H1 H2].
  destruct (Nat.eq_dec i n) as [->|]; [|apply IH; auto; lia].
  rewrite bsrc_ok, (existsb_small w) by auto. destruct (filter _ _) as [|p [|]]; try discriminate.
  cbn [existsb]. rewrite orb_false_r. f_equal. lia.
Qed.

Lemma land_ones_range x w : 0 <= w -> 0 <= Z.land x (Z.ones w) < 2 ^ w.
Proof. intros. rewrite Z.land_ones by lia. apply Z.mod_pos_bound, Z.pow_pos_nonneg; lia. Qed.
Lemma lor_range n a b : 0 <= n -> 0 <= a < 2 ^ n -> 0 <= b < 2 ^ n -> 0 <= Z.lor a b < 2 ^ n.
Proof.
  intros Hn Ha Hb. assert (0 <= Z.lor a b) by (apply Z.lor_nonneg; lia). split; auto.
  replace (Z.lor a b) with (Z.land (Z.lor a b) (Z.ones n)); [apply land_ones_range; lia|].
  rewrite Z.land_lor_distr_l, !Z.land_ones by lia. rewrite !Z.mod_small by lia. reflexivity.
Qed.
Lemma land_range n a b : 0 <= n -> 0 <= a < 2 ^ n -> 0 <= Z.land a b < 2 ^ n.
Proof.
  intros Hn Ha. assert (0 <= Z.land a b) by (apply Z.land_nonneg; lia). split; auto.
  replace (Z.land a b) with (Z.land (Z.land a b) (Z.ones n)); [apply land_ones_range; lia|].
  rewrite <- Z.land_assoc, (Z.land_comm b), Z.land_assoc. rewrite (Z.land_ones a) by lia.
  rewrite Z.mod_small by lia. reflexivity.
Qed.
Lemma shiftr_range n a k : 0 <= k -> 0 <= a < 2 ^ n -> 0 <= Z.shiftr a k < 2 ^ n.
Proof.
  intros Hk Ha. rewrite Z.shiftr_div_pow2 by lia.
  assert (0 < 2 ^ k) by (apply Z.pow_pos_nonneg; lia).
  split; [apply Z.div_pos; lia|]. apply Z.div_lt_upper_bound; nia.
Qed.
Lemma swap_range w e m1 m2 k x : 0 <= w -> 0 <= k -> 0 <= bev x e < 2 ^ w -> 0 <= bev x (swapE w e m1 m2 k) < 2 ^ w.
Proof.
  intros Hw Hk H. unfold swapE, EShl. cbn [bev]. apply lor_range; auto.
  - apply shiftr_range; auto. apply land_range; auto.
  - apply land_ones_range; auto.
Qed.

Lemma rev16_ok x : 0 <= x < 65536 -> bit_reverse16 x = mirror 16 x.
Proof.
  intros H.
  set (e0 := BOr (BShr BX 8) (EShl 16 BX 8)).
  set (e := swapE 16 (swapE 16 (swapE 16 e0 0xF0F0 0x0F0F 4) 0xCCCC 0x3333 2) 0xAAAA 0x5555 1).
  change (bit_reverse16 x) with (bev x e).
  assert (0 <= bev x e0 < 2 ^ 16).
  { cbn [e0 bev EShl]. apply lor_range; [lia|apply shiftr_range; lia|apply land_ones_range; lia]. }
  apply (testbit_eq_small 16); [|apply mirror_range|].
  - change (Z.of_nat 16) with 16. repeat (apply swap_range; [lia..|]). assumption.
  - intros i Hi. rewrite testbit_mirror by lia.
    apply (srcs_ok_spec 16 e (fun i => Z.of_nat (16 - 1 - i)) 16); [assumption|vm_compute; reflexivity|lia].
Qed.
Lemma rev32_ok x : 0 <= x < 4294967296 -> bit_reverse32 x = mirror 32 x.
Proof.
  intros H.
  set (e0 := BOr (BShr BX 16) (EShl 32 BX 16)).
  set (e := swapE 32 (swapE 32 (swapE 32 (swapE 32 e0 0xFF00FF00 0x00FF00FF 8) 0xF0F0F0F0 0x0F0F0F0F 4) 0xCCCCCCCC 0x33333333 2) 0xAAAAAAAA 0x55555555 1).
  change (bit_reverse32 x) with (bev x e).
  assert (0 <= bev x e0 < 2 ^ 32).
  { cbn [e0 bev EShl]. apply lor_range; [lia|apply shiftr_range; lia|apply land_ones_range; lia]. }
  apply (testbit_eq_small 32); [|apply mirror_range|].
  - change (Z.of_nat 32) with 32. repeat (apply swap_range; [lia..|]). assumption.
  - intros i Hi. rewrite testbit_mirror by lia.
    apply (srcs_ok_spec 32 e (fun i => Z.of_nat (32 - 1 - i)) 32); [assumption|vm_compute; reflexivity|lia].
Qed.

(** within-octet mirror *)
Lemma mirror_octets_range n x : 0 <= mirror_octets n x < 2 ^ Z.of_nat (8 * n).
Proof.
  revert x; induction n as [|n IH]; intros x; [cbn; lia|]. cbn [mirror_octets].
  replace (8 * S n)%nat with (8 + 8 * n)%nat by lia. rewrite Nat2Z.inj_add, Z.pow_add_r by lia.
  pose proof (mirror_range 8 (x mod 256)) as M. specialize (IH (x / 256)).
  change (2 ^ Z.of_nat 8) with 256 in *. lia.
Qed.
Lemma testbit_lo_hi lo hi i : 0 <= lo < 256 -> 0 <= i ->
  Z.testbit (lo + 256 * hi) i = if i <? 8 then Z.testbit lo i else Z.testbit hi (i - 8).
Proof.
  intros Hl Hi. destruct (Z.ltb_spec i 8).
  - rewrite <- (Z.mod_pow2_bits_low (lo + 256 * hi) 8) by lia. f_equal. change (2^8) with 256. lia.
  - rewrite <- (Z.sub_add 8 i) at 1. rewrite <- Z.div_pow2_bits by lia. f_equal. change (2^8) with 256. lia.
Qed.
Definition within (i : nat) : nat := (8 * (i / 8) + 7 - i mod 8)%nat.
Lemma testbit_mirror_octets n x i : (i < 8 * n)%nat ->
  Z.testbit (mirror_octets n x) (Z.of_nat i) = Z.testbit x (Z.of_nat (within i)).
Proof.
  revert x i; induction n as [|n IH]; intros x i Hi; [lia|]. cbn [mirror_octets].
  pose proof (mirror_range 8 (x mod 256)) as M. change (2 ^ Z.of_nat 8) with 256 in M.
  rewrite testbit_lo_hi by lia. unfold within.
  destruct (Z.ltb_spec (Z.of_nat i) 8).
  - rewrite testbit_mirror by lia. change 256 with (2^8). rewrite Z.mod_pow2_bits_low by lia. f_equal. lia.
  - replace (Z.of_nat i - 8) with (Z.of_nat (i - 8)) by lia. rewrite IH by lia.
    change 256 with (2^8). rewrite Z.div_pow2_bits by lia. f_equal. unfold within. lia.
Qed.
Lemma rev4_ok x : 0 <= x < 2 ^ 32 -> bit_reverse_4bytes x = mirror_octets 4 x.
Proof.
  intros H.
  set (e := swapE 32 (swapE 32 (swapE 32 BX 0xF0F0F0F0 0x0F0F0F0F 4) 0xCCCCCCCC 0x33333333 2) 0xAAAAAAAA 0x55555555 1).
  change (bit_reverse_4bytes x) with (bev x e).
  apply (testbit_eq_small 32); [|apply (mirror_octets_range 4)|].
  - change (Z.of_nat 32) with 32. repeat (apply swap_range; [lia..|]). assumption.
  - intros i Hi. rewrite testbit_mirror_octets by lia.
    apply (srcs_ok_spec 32 e (fun i => Z.of_nat (within i)) 32); [assumption|vm_compute; reflexivity|lia].
Qed.
Lemma rev8_ok x : 0 <= x < 2 ^ 64 -> bit_reverse_8bytes x = mirror_octets 8 x.
Proof.
  intros H.
  set (e := swapE 64 (swapE 64 (swapE 64 BX 0xF0F0F0F0F0F0F0F0 0x0F0F0F0F0F0F0F0F 4) 0xCCCCCCCCCCCCCCCC 0x3333333333333333 2) 0xAAAAAAAAAAAAAAAA 0x5555555555555555 1).
  change (bit_reverse_8bytes x) with (bev x e).
  apply (testbit_eq_small 64); [|apply (mirror_octets_range 8)|].
  - change (Z.of_nat 64) with 64. repeat (apply swap_range; [lia..|]). assumption.
  - intros i Hi. rewrite testbit_mirror_octets by lia.
    apply (srcs_ok_spec 64 e (fun i => Z.of_nat (within i)) 64); [assumption|vm_compute; reflexivity|lia].
Qed.
Lemma rev_octet_ok x : 0 <= x < 256 -> bit_reverse8 x = mirror 8 x /\ bit_reverse8_slow x = mirror 8 x.
Proof.
  intros H. assert (E : (bit_reverse8 x =? mirror 8 x) && (bit_reverse8_slow x =? mirror 8 x) = true).
  { revert x H. apply sweep. vm_compute. reflexivity. }
  lia.
Qed.

(** ---- the buffer version ---- *)
Lemma le_word_range l : bytes l -> 0 <= le_word l < 2 ^ Z.of_nat (8 * length l).
Proof.
  induction 1 as [|b l Hb H IH]; [cbn; lia|]. cbn [le_word length].
  replace (8 * S (length l))%nat with (8 + 8 * length l)%nat by lia. rewrite Nat2Z.inj_add, Z.pow_add_r by lia.
  unfold byte in Hb. change (2 ^ Z.of_nat 8) with 256. lia.
Qed.
Lemma le_bytes_mirror l : bytes l -> le_bytes (length l) (mirror_octets (length l) (le_word l)) = map (mirror 8) l.
Proof.
  induction 1 as [|b l Hb H IH]; [reflexivity|]. cbn [length mirror_octets le_word le_bytes map].
  unfold byte in Hb. pose proof (mirror_range 8 b) as M. change (2 ^ Z.of_nat 8) with 256 in M.
  replace ((b + 256 * le_word l) mod 256) with b by lia.
  replace ((b + 256 * le_word l) / 256) with (le_word l) by lia.
  unfold u8. f_equal; [lia|]. rewrite <- IH. f_equal. lia.
Qed.
Lemma bytes_skipn n l : bytes l -> bytes (skipn n l).
Proof. unfold bytes. intros H; revert n; induction H as [|x l Hx H IH]; intros [|n]; cbn [skipn]; auto. Qed.
Lemma bytes_firstn n l : bytes l -> bytes (firstn n l).
Proof. unfold bytes. intros H; revert n; induction H as [|x l Hx H IH]; intros [|n]; cbn [firstn]; auto. Qed.

Lemma firstn_app_exact {A} n (a b : list A) : n = length a -> firstn n (a ++ b) = a.
Proof. intros ->. rewrite firstn_app, Nat.sub_diag, firstn_all. cbn. apply app_nil_r. Qed.
Lemma skipn_app_exact {A} n (a b : list A) : n = length a -> skipn n (a ++ b) = b.
Proof. intros ->. rewrite skipn_app, Nat.sub_diag, skipn_all. reflexivity. Qed.

(** One word iteration in "zipper" form. *)
Lemma rev_words_ok w f :
  0 < w < 256 -> 
  (forall l, bytes l -> length l = Z.to_nat w -> le_bytes (Z.to_nat w) (f (le_word l)) = map (mirror 8) l) ->
  forall fuel pre src post tpre tmid tpost,
  bytes src -> length tpre = length pre -> length tmid = length src -> (length src < fuel)%nat ->
  Z.of_nat (length src) < 2 ^ 31 ->
  exists s1 s2 t2, src = s1 ++ s2 /\ tmid = (firstn (length s1) tmid) ++ t2 /\ length t2 = length s2 /\ Z.of_nat (length s2) < w /\
  rev_words w f fuel (tpre ++ tmid ++ tpost) (pre ++ src ++ post) (Z.of_nat (length pre)) (Z.of_nat (length src))
  = Ok (tpre ++ map (mirror 8) s1 ++ t2 ++ tpost, Z.of_nat (length pre + length s1), Z.of_nat (length s2)).
Proof.
  intros Hw Hf fuel. induction fuel as [|fuel IH]; intros pre src post tpre tmid tpost Hb Hp Hm Hfu Hlen; [lia|].
  cbn [rev_words]. 
  assert (U : u64 (Z.of_nat (length src)) = Z.of_nat (length src)) by (unfold u64; apply Z.mod_small; change (2^31) with 2147483648 in Hlen; lia).
  rewrite U. destruct (Z.ltb_spec (Z.of_nat (length src)) w) as [Hs|Hs].
  - exists [], src, tmid. cbn [length firstn map app]. repeat split; auto. do 2 f_equal. f_equal. lia.
  - set (n := Z.to_nat w).
    assert (A : aslice (pre ++ src ++ post) (Z.of_nat (length pre)) w = Ok (firstn n src)).
    { unfold aslice. rewrite !app_length. destruct (Z.leb_spec w 0); [lia|]. 
      replace (_ && _) with true by lia. rewrite Nat2Z.id, skipn_app_exact by reflexivity.
      rewrite firstn_app. fold n. replace (n - length src)%nat with 0%nat by lia.
      cbn [firstn]. rewrite app_nil_r. reflexivity. }
    rewrite A. cbn [rbind].
    assert (Hl : length (firstn n src) = n) by (rewrite firstn_length; lia).
    pose proof (Hf _ (bytes_firstn n src Hb) Hl) as Hf1. fold n in Hf1. fold n. rewrite Hf1.
    assert (B : ablit (tpre ++ tmid ++ tpost) (Z.of_nat (length pre)) (map (mirror 8) (firstn n src))
                = Ok (tpre ++ map (mirror 8) (firstn n src) ++ skipn n tmid ++ tpost)).
    { unfold ablit. remember (map (mirror 8) (firstn n src)) as M eqn:EM.
      assert (LM : length M = n) by (subst M; rewrite map_length; exact Hl).
      destruct M as [|m0 M]; [cbn in LM; lia|]. rewrite !app_length, LM.
      replace (_ && _) with true by lia. rewrite Nat2Z.id.
      rewrite firstn_app_exact by auto. do 3 f_equal.
      rewrite <- Hp, skipn_app.
      rewrite (skipn_all2 tpre) by lia. cbn [app].
      replace (length tpre + n - length tpre)%nat with n by lia.
      rewrite skipn_app. replace (n - length tmid)%nat with 0%nat by lia. reflexivity. }
    rewrite B. cbn [rbind].
    destruct (IH (pre ++ firstn n src) (skipn n src) post (tpre ++ map (mirror 8) (firstn n src)) (skipn n tmid) tpost)
      as (s1 & s2 & t2 & E1 & E2 & E3 & E4 & E5).
    + apply bytes_skipn; auto.
    + rewrite !app_length, map_length. lia.
    + rewrite !skipn_length. lia.
    + rewrite skipn_length. lia.
    + rewrite skipn_length. lia.
    + exists (firstn n src ++ s1), s2, t2.
      assert (Es : src = (firstn n src ++ s1) ++ s2) by (rewrite <- app_assoc, <- E1, firstn_skipn; reflexivity).
      split; [exact Es|]. split.
      { rewrite app_length, Hl. 
        assert (Et : tmid = firstn n tmid ++ firstn (length s1) (skipn n tmid) ++ t2) by (rewrite <- E2, firstn_skipn; reflexivity).
        rewrite Et at 1. rewrite app_assoc. f_equal.
        assert (G : forall (l : list Z) a b, firstn a l ++ firstn b (skipn a l) = firstn (a + b) l).
        { clear. induction l as [|z l IH]; intros [|a] b; cbn [firstn skipn app Nat.add]; auto.
          - destruct b; reflexivity. - f_equal. apply IH. }
        apply G. }
      split; [exact E3|]. split; [exact E4|].
      rewrite map_app, <- !app_assoc. rewrite <- !app_assoc in E5.
      rewrite app_length, Hl in E5.
      replace (pre ++ src ++ post) with (pre ++ firstn n src ++ skipn n src ++ post)
        by (rewrite (app_assoc (firstn n src)), firstn_skipn; reflexivity).
      replace (Z.of_nat (length pre) + w) with (Z.of_nat (length pre + n)) by lia.
      replace (Z.of_nat (length src) - w) with (Z.of_nat (length (skipn n src))) by (rewrite skipn_length; lia).
      rewrite E5. do 3 f_equal. rewrite app_length, Hl. lia.
Qed.
Lemma upd_app {A} (a : list A) x b y : upd (a ++ x :: b) (length a) y = a ++ y :: b.
Proof. induction a as [|z a IH]; cbn; auto. f_equal; auto. Qed.
Lemma rev_octets_ok fuel : forall pre src post tpre tmid tpost,
  bytes src -> length tpre = length pre -> length tmid = length src -> (length src < fuel)%nat ->
  rev_octets fuel (tpre ++ tmid ++ tpost) (pre ++ src ++ post) (Z.of_nat (length pre)) (Z.of_nat (length src))
  = Ok (tpre ++ map (mirror 8) src ++ tpost).
Proof.
  induction fuel as [|fuel IH]; intros pre src post tpre tmid tpost Hb Hp Hm Hf; [lia|].
  cbn [rev_octets]. destruct src as [|b src]; destruct tmid as [|t tmid]; cbn [length] in Hm; try lia; [reflexivity|].
  cbn [length]. destruct (Z.leb_spec (Z.of_nat (S (length src))) 0); [lia|].
  unfold aget, in_bounds. rewrite ?app_length. cbn [length]. rewrite ?app_length.
  replace (_ && _) with true by lia. cbn [rbind].
  rewrite Nat2Z.id, app_nth2 by lia. rewrite Nat.sub_diag. cbn [app nth].
  unfold aset, in_bounds. rewrite ?app_length. cbn [length]. rewrite ?app_length.
  replace (_ && _) with true by lia. cbn [rbind]. rewrite Nat2Z.id, <- Hp, upd_app.
  inversion Hb as [|? ? Hb1 Hb2]; subst.
  rewrite (proj1 (rev_octet_ok b Hb1)).
  specialize (IH (pre ++ [b]) src post (tpre ++ [mirror 8 b]) tmid tpost Hb2).
  rewrite <- !app_assoc in IH. cbn [app map] in *. rewrite !app_length in IH. cbn [length] in IH.
  rewrite <- IH by (cbn [length] in *; lia). f_equal; lia.
Qed.

Lemma bit_reverse_ok to from n :
  bytes from -> (n <= length from)%nat -> (n <= length to)%nat -> Z.of_nat n < 2 ^ 31 ->
  bit_reverse to from (Z.of_nat n) = Ok (map (mirror 8) (firstn n from) ++ skipn n to).
Proof.
  intros Hb Hn Ht Hlen. set (src := firstn n from). set (post := skipn n from).
  assert (Ef : from = [] ++ src ++ post) by (symmetry; apply firstn_skipn).
  assert (Et : to = [] ++ firstn n to ++ skipn n to) by (symmetry; apply firstn_skipn).
  assert (Ls : length src = n) by (unfold src; rewrite firstn_length; lia).
  unfold bit_reverse.
  assert (Bs : bytes src) by (apply bytes_firstn; auto).
  assert (F : (n < S (length from))%nat) by lia.
  set (fuel := S (length from)) in *. clearbody fuel.
  destruct (rev_words_ok 8 bit_reverse_8bytes ltac:(lia)) with (fuel := fuel) (pre := @nil Z) (src := src) (post := post)
     (tpre := @nil Z) (tmid := firstn n to) (tpost := skipn n to) as (s1 & s2 & t2 & E1 & E2 & E3 & E4 & E5); auto.
  { intros l Hl L. change (Z.to_nat 8) with 8%nat in *. pose proof (le_word_range l Hl) as R. rewrite L in R.
    rewrite rev8_ok by exact R. rewrite <- L at 1 2. rewrite <- L in R. apply le_bytes_mirror; auto. }
  { rewrite firstn_length; lia. } { lia. } { lia. }
  rewrite <- Ef, <- Et in E5. rewrite Ls in E5. cbn [length Z.of_nat] in E5. rewrite E5. cbn [rbind].
  cbn [app length Nat.add].
  assert (Bs2 : bytes s2) by (rewrite E1 in Bs; apply Forall_app in Bs; tauto).
  assert (Ls2 : (length s1 + length s2 = n)%nat) by (rewrite E1, app_length in Ls; lia).
  destruct (rev_words_ok 4 bit_reverse_4bytes ltac:(lia)) with (fuel := fuel) (pre := s1) (src := s2) (post := post)
     (tpre := map (mirror 8) s1) (tmid := t2) (tpost := skipn n to) as (s3 & s4 & t4 & F1 & F2 & F3 & F4 & F5); auto.
  { intros l Hl L. change (Z.to_nat 4) with 4%nat in *. pose proof (le_word_range l Hl) as R. rewrite L in R.
    rewrite rev4_ok by exact R. rewrite <- L at 1 2. rewrite <- L in R. apply le_bytes_mirror; auto. }
  { apply map_length. } { lia. } { lia. }
  assert (Ef2 : from = s1 ++ s2 ++ post) by (rewrite app_assoc, <- E1; exact Ef).
  rewrite <- Ef2 in F5. rewrite F5. cbn [rbind].
  assert (Bs4 : bytes s4) by (rewrite F1 in Bs2; apply Forall_app in Bs2; tauto).
  pose proof (rev_octets_ok fuel (s1 ++ s3) s4 post (map (mirror 8) (s1 ++ s3)) t4 (skipn n to) Bs4) as G.
  assert (Ls4 : (length s3 + length s4 = length s2)%nat) by (rewrite F1, app_length; lia).
  rewrite map_length, app_length in G. specialize (G eq_refl F3 ltac:(lia)).
  assert (Ef4 : from = (s1 ++ s3) ++ s4 ++ post) by (rewrite Ef2, F1, <- !app_assoc; reflexivity).
  rewrite <- Ef4 in G. rewrite map_app, <- app_assoc in G. rewrite G.
  rewrite E1, F1, !map_app, <- !app_assoc. reflexivity.
Qed.

(** ---- highest / lowest set bit ---- *)
Lemma exists_top x : 0 < x < 2 ^ 32 -> exists t, 0 <= t < 32 /\ 2 ^ t <= x < 2 ^ (t + 1).
Proof.
  intros H. exists (Z.log2 x). pose proof (Z.log2_spec x ltac:(lia)). pose proof (Z.log2_nonneg x).
  assert (Z.log2 x < 32) by (apply Z.log2_lt_pow2; lia). rewrite Z.add_1_r. lia.
Qed.
(** symbolic run of the narrowing steps when the top bit is [t]: state is the accumulated mask *)
Definition sym_step (dead : Z -> bool) (t : Z) (s : option (Z * Z)) (mask inc : Z) : option (Z * Z) :=
  match s with
  | None => None
  | Some (c, r) => if Z.testbit (Z.land c mask) t then Some (Z.land c mask, r + inc)
                   else if dead (Z.land c mask) then Some (c, r) else None
  end.
Lemma sym_step_ok dead t x c r mask inc c' r' :
  Z.testbit x t = true -> 0 <= t ->
  (forall d, dead d = true -> Z.land x d = 0) ->
  sym_step dead t (Some (c, r)) mask inc = Some (c', r') ->
  narrow (Z.land x c, r) mask inc = (Z.land x c', r').
Proof.
  intros Hx Ht Hd H. cbn [sym_step] in H. unfold narrow. rewrite <- Z.land_assoc.
  destruct (Z.testbit (Z.land c mask) t) eqn:E.
  - inversion H; subst. destruct (Z.eqb_spec (Z.land x (Z.land c mask)) 0) as [Z0|]; [|reflexivity].
    assert (Z.testbit (Z.land x (Z.land c mask)) t = true) as T by (rewrite Z.land_spec, Hx, E; reflexivity).
    rewrite Z0, Z.bits_0 in T. discriminate.
  - destruct (dead _) eqn:D; [|discriminate]. inversion H; subst. rewrite (Hd _ D). reflexivity.
Qed.
Lemma snd_narrow5 dead t x m1 i1 m2 i2 m3 i3 m4 i4 m5 i5 r0 c r :
  0 <= x < 2 ^ 32 -> Z.testbit x t = true -> 0 <= t ->
  (forall d, dead d = true -> Z.land x d = 0) ->
  sym_step dead t (sym_step dead t (sym_step dead t (sym_step dead t (sym_step dead t (Some (Z.ones 32, r0)) m1 i1) m2 i2) m3 i3) m4 i4) m5 i5
   = Some (c, r) ->
  snd (narrow (narrow (narrow (narrow (narrow (x, r0) m1 i1) m2 i2) m3 i3) m4 i4) m5 i5) = r.
Proof.
  intros Hr Hx Ht Hd H.
  assert (E0 : (x, r0) = (Z.land x (Z.ones 32), r0)) by (rewrite Z.land_ones, Z.mod_small by lia; reflexivity).
  rewrite E0.
  destruct (sym_step dead t (Some (Z.ones 32, r0)) m1 i1) as [[c1 r1]|] eqn:E1; [|discriminate H].
  rewrite (sym_step_ok _ _ _ _ _ _ _ _ _ Hx Ht Hd E1).
  destruct (sym_step dead t (Some (c1, r1)) m2 i2) as [[c2 r2]|] eqn:E2; [|discriminate H].
  rewrite (sym_step_ok _ _ _ _ _ _ _ _ _ Hx Ht Hd E2).
  destruct (sym_step dead t (Some (c2, r2)) m3 i3) as [[c3 r3]|] eqn:E3; [|discriminate H].
  rewrite (sym_step_ok _ _ _ _ _ _ _ _ _ Hx Ht Hd E3).
  destruct (sym_step dead t (Some (c3, r3)) m4 i4) as [[c4 r4]|] eqn:E4; [|discriminate H].
  rewrite (sym_step_ok _ _ _ _ _ _ _ _ _ Hx Ht Hd E4).
  rewrite (sym_step_ok _ _ _ _ _ _ _ _ _ Hx Ht Hd H). reflexivity.
Qed.
Definition opt_is (o : option (Z * Z)) (t : Z) : bool := match o with Some (_, r) => r =? t | None => false end.
Definition top_sym (t : Z) : option (Z * Z) :=
  let d := fun m => Z.land m (Z.ones (t + 1)) =? 0 in
  sym_step d t (sym_step d t (sym_step d t (sym_step d t (sym_step d t (Some (Z.ones 32, 0))
    0xFFFF0000 16) 0xFF00FF00 8) 0xF0F0F0F0 4) 0xCCCCCCCC 2) 0xAAAAAAAA 1.
Definition bottom_sym (t : Z) : option (Z * Z) :=
  let d := fun m => Z.land m (Z.shiftl (Z.ones 32) t) =? 0 in
  sym_step d t (sym_step d t (sym_step d t (sym_step d t (sym_step d t (Some (Z.ones 32, 31))
    0x0000FFFF (-16)) 0x00FF00FF (-8)) 0x0F0F0F0F (-4)) 0x33333333 (-2)) 0x55555555 (-1).

Lemma testbit_top x t : 0 <= t -> 2 ^ t <= x < 2 ^ (t + 1) -> Z.testbit x t = true.
Proof.
  intros Ht H. assert (0 < 2 ^ t) by (apply Z.pow_pos_nonneg; lia).
  replace t with (Z.log2 x); [apply Z.bit_log2; lia|]. apply Z.log2_unique; lia.
Qed.
Lemma top_bit_ok x t : 0 <= t < 32 -> 2 ^ t <= x < 2 ^ (t + 1) -> top_bit x = t.
Proof.
  intros Ht H. assert (P : 0 < 2 ^ t) by (apply Z.pow_pos_nonneg; lia).
  assert (Q : 2 ^ (t + 1) <= 2 ^ 32) by (apply Z.pow_le_mono_r; lia).
  unfold top_bit. destruct (Z.eqb_spec x 0); [lia|].
  assert (S : opt_is (top_sym t) t = true) by (revert t Ht H P Q; intros t Ht _ _ _; revert t Ht; apply sweep; vm_compute; reflexivity).
  unfold opt_is in S. destruct (top_sym t) as [[c r]|] eqn:E; [|discriminate].
  apply Z.eqb_eq in S. subst r.
  eapply snd_narrow5 with (t := t) (c := c); [| | | |exact E].
  - lia.
  - apply testbit_top; lia.
  - lia.
  - intros d Hd. apply Z.eqb_eq in Hd.
    rewrite <- (Z.mod_small x (2 ^ (t + 1))) by lia. rewrite <- Z.land_ones by lia.
    rewrite <- Z.land_assoc, (Z.land_comm (Z.ones _)), Hd. apply Z.land_0_r.
Qed.
Lemma exists_bottom x : 0 < x < 2 ^ 32 -> exists t y, 0 <= t < 32 /\ x = 2 ^ t * (2 * y + 1).
Proof.
  assert (G : forall n x, 0 < x < 2 ^ Z.of_nat n -> exists t y, 0 <= t < Z.of_nat n /\ x = 2 ^ t * (2 * y + 1)).
  { induction n as [|n IH]; intros z Hz; [cbn in Hz; lia|].
    rewrite Nat2Z.inj_succ, Z.pow_succ_r in Hz by lia.
    destruct (Z.eq_dec (z mod 2) 0).
    - destruct (IH (z / 2)) as (t & y & Ht & Hy); [lia|]. exists (t + 1), y. split; [lia|].
      rewrite Z.pow_add_r by lia. change (2^1) with 2. replace z with (2 * (z/2)) by lia. rewrite Hy at 1. lia.
    - exists 0, (z / 2). change (2^0) with 1. lia. }
  apply (G 32%nat).
Qed.
Lemma testbit_shift_odd t y i : 0 <= t -> 0 <= i -> Z.testbit (2 ^ t * (2 * y + 1)) i = if i <? t then false else if i =? t then true else Z.testbit y (i - t - 1).
Proof.
  intros Ht Hi. rewrite Z.mul_comm. rewrite Z.mul_pow2_bits by lia.
  destruct (Z.ltb_spec i t); [apply Z.testbit_neg_r; lia|].
  destruct (Z.eqb_spec i t); [subst; rewrite Z.sub_diag; apply Z.testbit_odd_0|].
  assert (E : i - t = Z.succ (i - t - 1)) by lia. rewrite E at 1. apply Z.testbit_odd_succ. lia.
Qed.
Lemma bottom_bit_ok x t y : 0 <= t < 32 -> x = 2 ^ t * (2 * y + 1) -> 0 < x < 2 ^ 32 -> bottom_bit x = t.
Proof.
  intros Ht E H. unfold bottom_bit. destruct (Z.eqb_spec x 0); [lia|].
  assert (S : opt_is (bottom_sym t) t = true) by (clear y E; revert t Ht; apply sweep; vm_compute; reflexivity).
  unfold opt_is in S. destruct (bottom_sym t) as [[c r]|] eqn:Es; [|discriminate].
  apply Z.eqb_eq in S. subst r.
  eapply snd_narrow5 with (t := t) (c := c); [| | | |exact Es].
  - lia.
  - rewrite E, testbit_shift_odd by lia. destruct (Z.ltb_spec t t); [lia|]. rewrite Z.eqb_refl. reflexivity.
  - lia.
  - intros d Hd. apply Z.eqb_eq in Hd. apply Z.bits_inj'. intros i Hi. rewrite Z.bits_0, Z.land_spec.
    destruct (Z_lt_le_dec i t).
    + rewrite E, testbit_shift_odd by lia. destruct (Z.ltb_spec i t); [reflexivity|lia].
    + destruct (Z_lt_le_dec i 32).
      * assert (B : Z.testbit (Z.land d (Z.shiftl (Z.ones 32) t)) i = false) by (rewrite Hd; apply Z.bits_0).
        rewrite Z.land_spec, Z.shiftl_spec, Z.ones_spec_low, andb_true_r in B by lia. rewrite B. apply andb_false_r.
      * rewrite (testbit_small x 32) by lia. reflexivity.
Qed.
Lemma top_bit_0 : top_bit 0 = -1. Proof. reflexivity. Qed.
Lemma bottom_bit_0 : bottom_bit 0 = -1. Proof. reflexivity. Qed.

(** ---- isolate a bit ---- *)
Lemma neg_s32 x : 0 <= x < 4294967296 -> s32 x <> -2147483648 -> u32 (- s32 x) = (- x) mod 4294967296.
Proof. intros H H2. unfold u32, s32 in *. lia. Qed.
Lemma land_neg t y : 0 <= t -> Z.land (2 ^ t * (2 * y + 1)) (- (2 ^ t * (2 * y + 1))) = 2 ^ t.
Proof.
  intros Ht. replace (- (2 ^ t * (2 * y + 1))) with (2 ^ t * (2 * (- y - 1) + 1)) by lia.
  apply Z.bits_inj'. intros i Hi. rewrite Z.land_spec, !testbit_shift_odd, Z.pow2_bits_eqb by lia.
  destruct (Z.ltb_spec i t); [destruct (Z.eqb_spec t i); [lia|reflexivity]|].
  destruct (Z.eqb_spec i t); [subst; rewrite Z.eqb_refl; reflexivity|].
  destruct (Z.eqb_spec t i); [lia|]. replace (- y - 1) with (Z.lnot y) by (unfold Z.lnot; lia).
  rewrite Z.lnot_spec by lia. apply andb_negb_r.
Qed.
Lemma lsone_ok x t y : 0 <= t < 32 -> x = 2 ^ t * (2 * y + 1) -> 0 < x < 2 ^ 32 -> x <> 2147483648 ->
  least_significant_one32 x = Ok (2 ^ t).
Proof.
  intros Ht E H Hn. unfold least_significant_one32.
  change (2^32) with 4294967296 in H.
  assert (N : s32 x <> -2147483648) by (unfold s32; lia).
  destruct (Z.eqb_spec (s32 x) (-2147483648)); [lia|]. f_equal. rewrite neg_s32 by lia.
  change 4294967296 with (2^32). rewrite <- Z.land_ones by lia.
  rewrite (Z.land_comm (-x)), Z.land_assoc. rewrite Z.land_ones, Z.mod_small by (change (2^32) with 4294967296; lia).
  rewrite E. apply land_neg. lia.
Qed.
Lemma msone_ok x t : 0 <= t < 31 -> 2 ^ t <= x < 2 ^ (t + 1) -> most_significant_one32 x = Ok (2 ^ t).
Proof.
  intros Ht H. unfold most_significant_one32. rewrite (top_bit_ok x t) by lia.
  replace (_ && _) with true by lia. f_equal. rewrite Z.shiftl_mul_pow2 by lia. rewrite Z.mul_1_l.
  unfold u32. assert (2 ^ t < 2 ^ 32) by (apply Z.pow_lt_mono_r; lia). assert (0 < 2 ^ t) by (apply Z.pow_pos_nonneg; lia).
  change (2^32) with 4294967296 in *. apply Z.mod_small. lia.
Qed.

(** ---- masks ---- *)
Definition mask32E := let e := BOr BX (BShr BX 1) in let e := BOr e (BShr e 2) in let e := BOr e (BShr e 4) in
  let e := BOr e (BShr e 8) in BOr e (BShr e 16).
Definition mask16E := let e := BOr BX (BShr BX 1) in let e := BOr e (BShr e 2) in let e := BOr e (BShr e 4) in
  BOr e (BShr e 8).
Definition covers (e : bexp) (n : nat) : bool :=
  forallb (fun i => forallb (fun k => existsb (Z.eqb (Z.of_nat k)) (bsrc e (Z.of_nat i))) (seq i (n - i))) (seq 0 n)
  && forallb (fun i => forallb (fun p => Z.of_nat i <=? p) (bsrc e (Z.of_nat i))) (seq 0 n).
Lemma mask_gen e n x t : covers e n = true -> 0 <= bev x e < 2 ^ Z.of_nat n ->
  0 <= t < Z.of_nat n -> 2 ^ t <= x < 2 ^ (t + 1) -> bev x e = 2 ^ (t + 1) - 1.
Proof.
  intros C R Ht H. apply andb_true_iff in C as [C1 C2].
  rewrite forallb_forall in C1, C2.
  replace (2 ^ (t + 1) - 1) with (Z.ones (t + 1)) by (rewrite Z.ones_equiv; lia).
  apply Z.bits_inj'. intros i Hi. destruct (Z_lt_le_dec i (Z.of_nat n)).
  2:{ rewrite (testbit_small _ (Z.of_nat n)) by lia. rewrite Z.ones_spec_high by lia. reflexivity. }
  assert (I : In (Z.to_nat i) (seq 0 n)) by (apply in_seq; lia).
  specialize (C1 _ I). specialize (C2 _ I). rewrite forallb_forall in C1, C2.
  rewrite Z2Nat.id in * by lia. rewrite bsrc_ok.
  destruct (Z_lt_le_dec i (t + 1)).
  - rewrite Z.ones_spec_low by lia. apply existsb_exists. exists t. split; [|apply testbit_top; lia].
    specialize (C1 (Z.to_nat t)). rewrite Z2Nat.id in C1 by lia.
    destruct (proj1 (existsb_exists _ _) (C1 ltac:(apply in_seq; lia))) as (y & Hy & Ey). apply Z.eqb_eq in Ey. subst y. exact Hy.
  - rewrite Z.ones_spec_high by lia. apply not_true_is_false. intros E.
    apply existsb_exists in E as (p & Hp & Tp). specialize (C2 _ Hp).
    assert (0 < 2 ^ t) by (apply Z.pow_pos_nonneg; lia).
    rewrite (testbit_small x (t + 1)) in Tp by lia. discriminate.
Qed.
Lemma mask32_ok x t : 0 <= t < 32 -> 2 ^ t <= x < 2 ^ (t + 1) -> make_mask32 x = 2 ^ (t + 1) - 1.
Proof.
  intros Ht H. change (make_mask32 x) with (bev x mask32E).
  assert (P : 0 < 2 ^ t) by (apply Z.pow_pos_nonneg; lia).
  assert (Q : 2 ^ (t + 1) <= 2 ^ 32) by (apply Z.pow_le_mono_r; lia).
  apply (mask_gen _ 32); auto.
  cbn [mask32E bev]. change (Z.of_nat 32) with 32.
  repeat first [apply lor_range; [lia| |] | apply shiftr_range; [lia|]]; lia.
Qed.
Lemma mask16_ok x t : 0 <= t < 16 -> 2 ^ t <= x < 2 ^ (t + 1) -> make_mask16 x = 2 ^ (t + 1) - 1.
Proof.
  intros Ht H. change (make_mask16 x) with (bev x mask16E).
  assert (P : 0 < 2 ^ t) by (apply Z.pow_pos_nonneg; lia).
  assert (Q : 2 ^ (t + 1) <= 2 ^ 16) by (apply Z.pow_le_mono_r; lia).
  apply (mask_gen _ 16); auto.
  cbn [mask16E bev]. change (Z.of_nat 16) with 16.
  repeat first [apply lor_range; [lia| |] | apply shiftr_range; [lia|]]; lia.
Qed.
Lemma mask_0 : make_mask32 0 = 0 /\ make_mask16 0 = 0. Proof. split; reflexivity. Qed.
Lemma msone_slow_ok x t : 0 <= t < 32 -> 2 ^ t <= x < 2 ^ (t + 1) -> most_significant_one32_slow x = 2 ^ t.
Proof.
  intros Ht H. unfold most_significant_one32_slow. cbv zeta. rewrite (mask32_ok x t) by auto.
  replace (2 ^ (t + 1) - 1) with (Z.ones (t + 1)) by (rewrite Z.ones_equiv; lia). unfold shr.
  apply Z.bits_inj'. intros i Hi. rewrite Z.lxor_spec, Z.shiftr_spec, Z.pow2_bits_eqb by lia.
  destruct (Z.eqb_spec t i).
  - subst. rewrite Z.ones_spec_low, Z.ones_spec_high by lia. reflexivity.
  - destruct (Z_lt_le_dec i t).
    + rewrite !Z.ones_spec_low by lia. reflexivity.
    + rewrite !Z.ones_spec_high by lia. reflexivity.
Qed.

(** ---- population count ---- *)
Lemma bits_count_app a b : ones_count (a ++ b) = ones_count a + ones_count b.
Proof. induction a as [|x a IH]; cbn [ones_count app]; lia. Qed.
Lemma bits_lsb_app j k x : bits_lsb (j + k) x = bits_lsb j x ++ bits_lsb k (x / 2 ^ Z.of_nat j).
Proof.
  revert x; induction j as [|j IH]; intros x.
  - cbn [Nat.add bits_lsb app]. change (2 ^ Z.of_nat 0) with 1. rewrite Z.div_1_r. reflexivity.
  - cbn [Nat.add bits_lsb app]. rewrite IH. rewrite Nat2Z.inj_succ, Z.pow_succ_r by lia.
    assert (0 < 2 ^ Z.of_nat j) by (apply Z.pow_pos_nonneg; lia).
    do 2 f_equal. f_equal. rewrite Z.div2_div, Z.div_div by lia. reflexivity.
Qed.
Lemma bits_lsb_mod n x : bits_lsb n x = bits_lsb n (x mod 2 ^ Z.of_nat n).
Proof.
  revert x; induction n as [|n IH]; intros x; [reflexivity|]. cbn [bits_lsb].
  rewrite Nat2Z.inj_succ, Z.pow_succ_r by lia. assert (0 < 2 ^ Z.of_nat n) by (apply Z.pow_pos_nonneg; lia).
  rewrite (IH (Z.div2 x)), (IH (Z.div2 (x mod _))). rewrite !Z.div2_div.
  f_equal.
  - rewrite <- !Z.bit0_odd. rewrite <- Z.pow_succ_r by lia. rewrite Z.mod_pow2_bits_low by lia. reflexivity.
  - f_equal. rewrite (Z.rem_mul_r x 2) by lia. rewrite (Z.add_comm (x mod 2)), (Z.mul_comm 2).
    rewrite Z.div_add_l by lia. rewrite (Z.div_small (x mod 2)) by lia. rewrite Z.add_0_r, Z.mod_mod by lia. reflexivity.
Qed.

Lemma land_lo_hi a b m n : byte a -> byte m -> Z.land (a + 256 * b) (m + 256 * n) = Z.land a m + 256 * Z.land b n.
Proof.
  intros Ha Hm. unfold byte in *.
  assert (0 <= Z.land a m < 256) by (apply (land_range 8); lia).
  apply Z.bits_inj'. intros i Hi. rewrite Z.land_spec, !testbit_lo_hi by lia.
  destruct (i <? 8); rewrite Z.land_spec; reflexivity.
Qed.
Lemma shiftr_land_lo_hi k a b m n : 0 <= k <= 8 -> byte a -> 0 <= m < 2 ^ (8 - k) -> 0 <= b ->
  Z.land (Z.shiftr (a + 256 * b) k) (m + 256 * n) = Z.land (Z.shiftr a k) m + 256 * Z.land (Z.shiftr b k) n.
Proof.
  intros Hk Ha Hm Hb. unfold byte in *.
  assert (Q : 2 ^ (8 - k) <= 2 ^ 8) by (apply Z.pow_le_mono_r; lia). change (2 ^ 8) with 256 in Q.
  assert (0 <= Z.land (Z.shiftr a k) m < 256) by (rewrite Z.land_comm; apply (land_range 8); lia).
  apply Z.bits_inj'. intros i Hi. rewrite Z.land_spec, Z.shiftr_spec, !testbit_lo_hi by lia.
  destruct (Z.ltb_spec i 8); rewrite Z.land_spec, Z.shiftr_spec by lia.
  - destruct (Z.ltb_spec (i + k) 8); [reflexivity|].
    rewrite (testbit_small m (8 - k)) by lia. rewrite !andb_false_r. reflexivity.
  - destruct (Z.ltb_spec (i + k) 8); [lia|]. do 2 f_equal. lia.
Qed.
Definition f1 (b : Z) := b - Z.land (Z.shiftr b 1) 0x55.
Definition f2 (b : Z) := Z.land b 0x33 + Z.land (Z.shiftr b 2) 0x33.
Definition f3 (b : Z) := Z.land (b + Z.shiftr b 4) 0x0F.
Definition word4 (a b c d : Z) := a + 256 * (b + 256 * (c + 256 * d)).

Definition byte_fact (b : Z) : bool :=
  let c1 := f1 b in let c2 := f2 c1 in let c3 := f3 c2 in
  (0 <=? c1) && (c1 <? 256) && (0 <=? c2) && (c2 <=? 0x44) && (c2 mod 16 <=? 4) && (c3 =? ones_count (bits_lsb 8 b)) && (0 <=? c3) && (c3 <=? 8).
Lemma byte_facts b : byte b -> byte_fact b = true.
Proof. revert b. apply sweep. vm_compute. reflexivity. Qed.
Lemma one_bits_word a b c d : byte a -> byte b -> byte c -> byte d ->
  one_bits32 (word4 a b c d) = ones_count (bits_lsb 8 a) + ones_count (bits_lsb 8 b) + ones_count (bits_lsb 8 c) + ones_count (bits_lsb 8 d).
Proof.
  intros Ha Hb Hc Hd. unfold one_bits32. unfold shr.
  pose proof (byte_facts a Ha) as Fa. pose proof (byte_facts b Hb) as Fb.
  pose proof (byte_facts c Hc) as Fc. pose proof (byte_facts d Hd) as Fd.
  unfold byte_fact in *. cbv zeta in *. unfold byte in *.
  assert (S1 : u32 (word4 a b c d - Z.land (Z.shiftr (word4 a b c d) 1) 0x55555555) = word4 (f1 a) (f1 b) (f1 c) (f1 d)).
  { unfold word4. change 0x55555555 with (0x55 + 256 * (0x55 + 256 * (0x55 + 256 * 0x55))).
    rewrite !shiftr_land_lo_hi by (unfold byte; change (2 ^ (8 - 1)) with 128; change (2 ^ (8 - 2)) with 64; lia).
    unfold u32. rewrite Z.mod_small; unfold f1 in *; lia. }
  cbv zeta. rewrite S1. 
  remember (f1 a) as a1. remember (f1 b) as b1. remember (f1 c) as c1. remember (f1 d) as d1.
  assert (S2 : u32 (Z.land (word4 a1 b1 c1 d1) 0x33333333 + Z.land (Z.shiftr (word4 a1 b1 c1 d1) 2) 0x33333333) = word4 (f2 a1) (f2 b1) (f2 c1) (f2 d1)).
  { unfold word4. change 0x33333333 with (0x33 + 256 * (0x33 + 256 * (0x33 + 256 * 0x33))).
    rewrite !shiftr_land_lo_hi, !land_lo_hi by (unfold byte; change (2 ^ (8 - 1)) with 128; change (2 ^ (8 - 2)) with 64; lia).
    unfold u32. rewrite Z.mod_small; unfold f2 in *; lia. }
  rewrite S2.
  remember (f2 a1) as a2. remember (f2 b1) as b2. remember (f2 c1) as c2. remember (f2 d1) as d2.
  assert (S3 : Z.land (u32 (word4 a2 b2 c2 d2 + Z.shiftr (word4 a2 b2 c2 d2) 4)) 0x0F0F0F0F = word4 (f3 a2) (f3 b2) (f3 c2) (f3 d2)).
  { assert (G : forall p q, 0 <= p <= 0x44 -> q mod 16 <= 4 -> 0 <= p + Z.shiftr p 4 + 16 * (q mod 16) < 256 /\ Z.land (p + Z.shiftr p 4 + 16 * (q mod 16)) 0x0F = f3 p).
    { intros p q Hp Hq. rewrite Z.shiftr_div_pow2 by lia. change (2^4) with 16. unfold f3. rewrite Z.shiftr_div_pow2 by lia.
      change (2^4) with 16. change 0x0F with (Z.ones 4). rewrite !Z.land_ones by lia. change (2^4) with 16. lia. }
    assert (E : u32 (word4 a2 b2 c2 d2 + Z.shiftr (word4 a2 b2 c2 d2) 4) =
      word4 (a2 + Z.shiftr a2 4 + 16 * (b2 mod 16)) (b2 + Z.shiftr b2 4 + 16 * (c2 mod 16)) (c2 + Z.shiftr c2 4 + 16 * (d2 mod 16)) (d2 + Z.shiftr d2 4 + 16 * (0 mod 16))).
    { unfold word4, u32. rewrite !Z.shiftr_div_pow2 by lia. change (2^4) with 16.
      rewrite Z.mod_small by lia. lia. }
    rewrite E. unfold word4. change 0x0F0F0F0F with (0x0F + 256 * (0x0F + 256 * (0x0F + 256 * 0x0F))).
    rewrite !land_lo_hi.
    - rewrite (proj2 (G a2 b2 ltac:(lia) ltac:(lia))), (proj2 (G b2 c2 ltac:(lia) ltac:(lia))), (proj2 (G c2 d2 ltac:(lia) ltac:(lia))), (proj2 (G d2 0 ltac:(lia) ltac:(lia))). reflexivity.
    - exact (proj1 (G c2 d2 ltac:(lia) ltac:(lia))).
    - unfold byte; lia.
    - exact (proj1 (G b2 c2 ltac:(lia) ltac:(lia))).
    - unfold byte; lia.
    - exact (proj1 (G a2 b2 ltac:(lia) ltac:(lia))).
    - unfold byte; lia. }
  rewrite S3. rewrite Z.shiftr_div_pow2 by lia. change (2^24) with 16777216. unfold u32, word4.
  assert (Ra : f3 a2 = ones_count (bits_lsb 8 a)) by lia. assert (Rb : f3 b2 = ones_count (bits_lsb 8 b)) by lia.
  assert (Rc : f3 c2 = ones_count (bits_lsb 8 c)) by lia. assert (Rd : f3 d2 = ones_count (bits_lsb 8 d)) by lia.
  rewrite <- Ra, <- Rb, <- Rc, <- Rd.
  assert (0 <= f3 a2 <= 8 /\ 0 <= f3 b2 <= 8 /\ 0 <= f3 c2 <= 8 /\ 0 <= f3 d2 <= 8) by lia.
  clear - H. generalize dependent (f3 a2). generalize dependent (f3 b2). generalize dependent (f3 c2). generalize dependent (f3 d2). 
  intros. lia.
Qed.
Lemma one_bits32_ok x : 0 <= x < 4294967296 -> one_bits32 x = ones_count (bits_lsb 32 x).
Proof.
  intros H. assert (E : x = word4 (x mod 256) (x / 256 mod 256) (x / 65536 mod 256) (x / 16777216)) by (unfold word4; lia).
  rewrite (bits_lsb_app 8 24), (bits_lsb_app 8 16), (bits_lsb_app 8 8), !bits_count_app.
  change (2 ^ Z.of_nat 8) with 256. rewrite !Z.div_div by lia. change (256 * 256) with 65536. change (65536 * 256) with 16777216.
  rewrite (bits_lsb_mod 8 x), (bits_lsb_mod 8 (x / 256)), (bits_lsb_mod 8 (x / 65536)). change (2 ^ Z.of_nat 8) with 256.
  rewrite E at 1. rewrite one_bits_word; unfold byte; lia.
Qed.

(** ---- parity ---- *)
Definition parity_bits (l : list bool) : Z := ones_count l mod 2.
Lemma parity8_ok x : 0 <= x < 256 -> parity8 x = parity_bits (bits_lsb 8 x).
Proof.
  intros H. apply Z.eqb_eq. revert x H. apply sweep. vm_compute. reflexivity.
Qed.
Lemma ones_count_xorb a b : length a = length b ->
  parity_bits (map (fun p => xorb (fst p) (snd p)) (combine a b)) = (parity_bits a + parity_bits b) mod 2.
Proof.
  unfold parity_bits. revert b; induction a as [|x a IH]; intros [|y b] Hl; try discriminate; [reflexivity|].
  cbn [combine map fst snd ones_count]. specialize (IH b ltac:(cbn in Hl; lia)). destruct x, y; cbn [xorb]; lia.
Qed.
Lemma bits_lxor n x y : bits_lsb n (Z.lxor x y) = map (fun p => xorb (fst p) (snd p)) (combine (bits_lsb n x) (bits_lsb n y)).
Proof.
  revert x y; induction n as [|n IH]; intros x y; [reflexivity|]. cbn [bits_lsb combine map fst snd].
  rewrite <- !Z.bit0_odd, Z.lxor_spec. f_equal. rewrite <- IH. f_equal. rewrite !Z.div2_spec. apply Z.shiftr_lxor.
Qed.
(** folding the high half onto the low half keeps the parity *)
Lemma parity_fold n x : parity_bits (bits_lsb (n + n) x) = parity_bits (bits_lsb n (Z.lxor x (Z.shiftr x (Z.of_nat n)))).
Proof.
  rewrite bits_lsb_app, bits_lxor, ones_count_xorb by (rewrite !bits_lsb_length; reflexivity).
  rewrite <- Z.shiftr_div_pow2 by lia. unfold parity_bits. rewrite bits_count_app. lia.
Qed.
Lemma parity16_ok x : parity16 x = parity_bits (bits_lsb 16 x).
Proof.
  unfold parity16. cbv zeta. rewrite (parity_fold 8). rewrite (parity_fold 4). change (Z.of_nat 8) with 8. change (Z.of_nat 4) with 4.
  fold (shr x 8). set (y := Z.lxor x (shr x 8)). fold (shr y 4). set (z := Z.lxor y (shr y 4)).
  rewrite (bits_lsb_mod 4 z). change 0x0F with (Z.ones 4). rewrite Z.land_ones by lia. change (2 ^ Z.of_nat 4) with (2^4).
  assert (0 <= z mod 2^4 < 16) by (change (2^4) with 16; lia). generalize dependent (z mod 2^4). intros w Hw.
  apply Z.eqb_eq. revert w Hw. apply sweep. vm_compute. reflexivity.
Qed.
Lemma parity32_ok x : parity32 x = parity_bits (bits_lsb 32 x).
Proof. rewrite (parity_fold 16). rewrite <- parity16_ok. reflexivity. Qed.

(** ---- property-shaped lemmas ---- *)
Lemma c07_lsone x t y : 0 <= t < 32 -> x = 2 ^ t * (2 * y + 1) -> 0 < x < 2 ^ 32 -> x <> 2 ^ 31 ->
  least_significant_one32 x = Ok (2 ^ t).
Proof. exact (lsone_ok x t y). Qed.
Lemma c06_neg : exists to from, bit_reverse to from (-1) = UB.
Proof. exists [1;2], [3;4]. vm_compute. reflexivity. Qed.
Lemma c07_msone_bad : most_significant_one32 0 = UB /\ most_significant_one32 0x80000000 = UB /\ least_significant_one32 0x80000000 = UB.
Proof. vm_compute. auto. Qed.
