(** The encoder as an interval coder on unbounded numbers. *)
From Verif Require Import Base Bits Arith_model Arith_spec.
From Coq Require Import ZifyBool ZifyNat.
Local Open Scope Z_scope.

(** Numbers in base 256, most significant octet first. *)
Definition num (l : list Z) : Z := fold_left (fun acc b => acc * 256 + b) l 0.

Lemma num_fold l a : fold_left (fun acc b => acc * 256 + b) l a = a * 256 ^ Z.of_nat (length l) + num l.
Proof.
  unfold num. revert a; induction l as [|x l IH]; intros a.
  - cbn. lia.
  - cbn [fold_left length]. rewrite IH, (IH (0 * 256 + x)). rewrite Nat2Z.inj_succ, Z.pow_succ_r by lia. ring.
Qed.
Lemma num_app a b : num (a ++ b) = num a * 256 ^ Z.of_nat (length b) + num b.
Proof. unfold num at 1. rewrite fold_left_app. fold (num a). apply num_fold. Qed.
Lemma num_one x : num [x] = x. Proof. unfold num; cbn. lia. Qed.
Lemma num_snoc a x : num (a ++ [x]) = num a * 256 + x.
Proof. rewrite num_app, num_one. cbn [length]. change (256 ^ Z.of_nat 1) with 256. lia. Qed.
Lemma pow256_pos k : 0 < 256 ^ Z.of_nat k. Proof. apply Z.pow_pos_nonneg; lia. Qed.
Lemma num_range l : bytes l -> 0 <= num l < 256 ^ Z.of_nat (length l).
Proof.
  induction l as [|x l IH] using rev_ind; intros H.
  - cbn. lia.
  - apply Forall_app in H as [H1 H2]. apply Forall_inv in H2. red in H2. specialize (IH H1).
    rewrite num_snoc, app_length, Nat2Z.inj_add, Z.pow_add_r by lia. change (256 ^ Z.of_nat (length [x])) with 256. lia.
Qed.
Lemma num_rep255 k : num (repeat 255 k) = 256 ^ Z.of_nat k - 1.
Proof.
  induction k as [|k IH]; [reflexivity|]. cbn [repeat]; rewrite repeat_cons, num_snoc, IH.
  rewrite Nat2Z.inj_succ, Z.pow_succ_r by lia. lia.
Qed.
Lemma num_rep0 k : num (repeat 0 k) = 0.
Proof. induction k as [|k IH]; [reflexivity|]. cbn [repeat]; rewrite repeat_cons, num_snoc, IH. reflexivity. Qed.
Lemma pow256 k : 256 ^ Z.of_nat k = 2 ^ (8 * Z.of_nat k).
Proof. change 256 with (2 ^ 8). rewrite <- Z.pow_mul_r by lia. reflexivity. Qed.

Definition stuff (l : list Z) : list Z := flat_map output_stuffed_byte l.
Lemma stuff_app a b : stuff (a ++ b) = stuff a ++ stuff b.
Proof. apply flat_map_app. Qed.
Lemma stuff_one x : stuff [x] = output_stuffed_byte x.
Proof. unfold stuff. cbn. apply app_nil_r. Qed.
Lemma held_stuff k x : held k (output_stuffed_byte x) = stuff (repeat x (Z.to_nat k)).
Proof. unfold held, stuff. induction (Z.to_nat k) as [|n IH]; cbn; [reflexivity|]. rewrite IH. reflexivity. Qed.

Lemma no_marker_stuff l : no_marker (stuff l).
Proof.
  induction l as [|x l IH]; [exact I|]. change (stuff (x :: l)) with (output_stuffed_byte x ++ stuff l).
  unfold output_stuffed_byte. destruct (Z.eqb_spec x ESC) as [->|Hn]; cbn [app no_marker].
  - unfold ESC, STUFF. split; [intros _; eauto|]. split; [discriminate|]. exact IH.
  - split; [intros E; elim Hn; exact E|exact IH].
Qed.

(** Held back octets. *)
Definition pend (s : enc) : list Z := (if 0 <=? ebuf s then [ebuf s] else []) ++ repeat 255 (Z.to_nat (esc s)).

Lemma pend_length s : length (pend s) = ((if (0 <=? ebuf s)%Z then 1 else 0) + Z.to_nat (esc s))%nat.
Proof. unfold pend. rewrite app_length, repeat_length. destruct (0 <=? ebuf s); reflexivity. Qed.

(** [einv s W n V]: the octets [W] are out (before stuffing), the code interval is
    [V, V + a) in units of 2^-(16+n). *)
Record einv (s : enc) (W : list Z) (n V : Z) : Prop := {
  ei_V : V = num (W ++ pend s) * 2 ^ (27 - ect s) + ec s;
  ei_n : 8 * Z.of_nat (length (W ++ pend s)) + 27 - ect s = 16 + n;
  ei_c : 0 <= ec s;
  ei_sc : 0 <= esc s;
  ei_ct : 0 <= ect s <= 11;
  ei_W : bytes W;
  ei_buf : (ebuf s = -1 /\ W = [] /\ ec s + ea s <= 2 ^ (27 - ect s)) \/
           (0 <= ebuf s < 255 /\ ect s <= 8 /\ ec s + ea s <= 2 ^ (27 - ect s) + 2 ^ (24 - ect s)) }.

Lemma sr19 c : Z.shiftr c 19 = c / 524288. Proof. rewrite Z.shiftr_div_pow2 by lia. reflexivity. Qed.
Lemma and7ffff c : Z.land c 0x7FFFF = c mod 524288.
Proof. change 0x7FFFF with (Z.ones 19). rewrite Z.land_ones by lia. reflexivity. Qed.

Ltac npos := change (Z.to_nat 0) with 0%nat.

Lemma byteout_inv s W n V :
  einv s W n V -> ect s = 0 -> 1 <= ea s <= 65536 ->
  exists B, snd (byteout s) = stuff B /\ einv (fst (byteout s)) (W ++ B) n V /\
            ea (fst (byteout s)) = ea s /\ est (fst (byteout s)) = est s /\ ect (fst (byteout s)) = 8.
Proof.
  intros [HV Hn Hc Hsc Hct HW Hbuf] Hz Ha. rewrite Hz in *. clear Hct.
  change (2 ^ (27 - 0)) with 134217728 in *. change (2 ^ (24 - 0)) with 16777216 in *.
  unfold byteout. rewrite sr19, and7ffff, land_ff_mod.
  pose proof (Z.div_mod (ec s) 524288 ltac:(lia)) as HD.
  pose proof (Z.mod_pos_bound (ec s) 524288 ltac:(lia)) as HM.
  set (t := ec s / 524288) in *. set (r := ec s mod 524288) in *. clearbody t r.
  destruct (Z.ltb_spec 255 t) as [H1|H1]; [|destruct (Z.eqb_spec t 255) as [H2|H2]]; cbn [fst snd ea est ect].
  - (* carry *)
    destruct Hbuf as [(Hb & HW0 & Hr)|(Hb & _ & Hr)]; [lia|].
    assert (Ht : t mod 256 = t - 256) by (Z.div_mod_to_equations; lia). rewrite Ht.
    replace (0 <=? ebuf s) with true by lia.
    exists ([ebuf s + 1] ++ repeat 0 (Z.to_nat (esc s))).
    repeat split; try reflexivity.
    + rewrite stuff_app, stuff_one. f_equal. rewrite <- held_stuff. reflexivity.
    + cbn [ect ec pend ebuf esc]. unfold pend in *. cbn [ect ec ebuf esc ea] in *.
      replace (0 <=? ebuf s) with true in HV by lia. replace (0 <=? t - 256) with true by lia. npos.
      cbn [repeat]. rewrite app_nil_r. change (27 - 8) with 19. change (2 ^ 19) with 524288.
      rewrite num_snoc, HV. rewrite !app_assoc. rewrite num_app, num_rep255, num_snoc.
      rewrite num_app, num_rep0, num_snoc. rewrite !repeat_length.
      pose proof (pow256_pos (Z.to_nat (esc s))). nia.
    + unfold pend in *. cbn [ect ec ebuf esc ea] in *.
      replace (0 <=? ebuf s) with true in Hn by lia. replace (0 <=? t - 256) with true by lia. npos.
      rewrite !app_length, !repeat_length in *. cbn [length repeat] in *. lia.
    + cbn [ec esc ect]; lia.
    + cbn [ec esc ect]; lia.
    + cbn [ec esc ect]; lia.
    + apply Forall_app. split; [exact HW|]. apply Forall_app. split.
      * constructor; [red; lia|constructor].
      * apply Forall_forall. intros x Hx. apply repeat_spec in Hx. subst. red; lia.
    + cbn [ebuf ect ec ea]. right. change (27 - 8) with 19. change (24 - 8) with 16. change (2 ^ 19) with 524288. change (2 ^ 16) with 65536. lia.
  - (* another 0xFF *)
    subst t. exists []. rewrite app_nil_r.
    assert (HP : pend (mkEnc (ea s) r (est s) (esc s + 1) 8 (ebuf s)) = pend s ++ [255]).
    { unfold pend. cbn [ebuf esc]. rewrite <- app_assoc. f_equal. rewrite Z2Nat.inj_add by lia.
      rewrite repeat_app. reflexivity. }
    repeat split; try reflexivity.
    + rewrite HP, app_assoc. cbn [ect ec]. rewrite num_snoc. change (27 - 8) with 19. change (2 ^ 19) with 524288. lia.
    + rewrite HP, app_assoc, app_length. cbn [length ect]. lia.
    + cbn [ec esc ect]; lia.
    + cbn [ec esc ect]; lia.
    + cbn [ec esc ect]; lia.
    + cbn [ec esc ect]; lia.
    + exact HW.
    + cbn [ebuf ect ec ea]. change (27 - 8) with 19. change (24 - 8) with 16. change (2 ^ 19) with 524288. change (2 ^ 16) with 65536.
      destruct Hbuf as [(Hb & HW0 & Hr)|(Hb & _ & Hr)]; [left|right]; repeat split; try assumption; lia.
  - (* an ordinary octet *)
    assert (t < 255) by lia. assert (0 <= t) by lia.
    exists (pend s). repeat split; try reflexivity.
    + unfold pend. rewrite stuff_app, held_stuff. f_equal. destruct (0 <=? ebuf s); [rewrite stuff_one|]; reflexivity.
    + unfold pend at 2. cbn [ect ec ebuf esc]. replace (0 <=? t) with true by lia. npos. cbn [repeat]. rewrite app_nil_r.
      rewrite num_snoc. change (27 - 8) with 19. change (2 ^ 19) with 524288. lia.
    + unfold pend at 2. cbn [ect ec ebuf esc]. replace (0 <=? t) with true by lia. npos. cbn [repeat]. rewrite app_nil_r.
      rewrite (app_length (W ++ pend s)). cbn [length]. lia.
    + cbn [ec esc ect]; lia.
    + cbn [ec esc ect]; lia.
    + cbn [ec esc ect]; lia.
    + apply Forall_app. split; [exact HW|]. unfold pend. apply Forall_app. split.
      * destruct (Z.leb_spec 0 (ebuf s)); [|constructor]. constructor; [red; lia|constructor].
      * apply Forall_forall. intros x Hx. apply repeat_spec in Hx. subst. red; lia.
    + cbn [ebuf ect ec ea]. right. change (27 - 8) with 19. change (24 - 8) with 16. change (2 ^ 19) with 524288. change (2 ^ 16) with 65536. lia.
Qed.

Lemma shl1 x : Z.shiftl x 1 = 2 * x. Proof. rewrite Z.shiftl_mul_pow2 by lia. lia. Qed.
Lemma u32_id x : 0 <= x < 4294967296 -> u32 x = x. Proof. intros. unfold u32. apply Z.mod_small. lia. Qed.

(** One shift of the registers. *)
Lemma shift_inv s W n V a' c' :
  einv s W n V -> 1 <= ect s -> 1 <= ea s < 32768 -> a' = 2 * ea s -> c' = 2 * ec s ->
  einv (mkEnc a' c' (est s) (esc s) (ect s - 1) (ebuf s)) W (n + 1) (2 * V).
Proof.
  intros [HV Hn Hc Hsc Hct HW Hbuf] Hz Ha -> ->.
  assert (P : 2 ^ (27 - (ect s - 1)) = 2 * 2 ^ (27 - ect s)).
  { rewrite <- Z.pow_succ_r by lia. f_equal. lia. }
  assert (P2 : 2 ^ (24 - (ect s - 1)) = 2 * 2 ^ (24 - ect s)).
  { rewrite <- Z.pow_succ_r by lia. f_equal. lia. }
  constructor; unfold pend in *; cbn [ea ec est esc ect ebuf] in *; try lia; auto.
  rewrite P, P2. destruct Hbuf as [(Hb & HW0 & Hr)|(Hb & H8 & Hr)]; [left|right]; repeat split; try assumption; lia.
Qed.

Lemma einv_c_bound s W n V : einv s W n V -> 1 <= ea s -> 0 <= ec s < 151000000.
Proof.
  intros [HV Hn Hc Hsc Hct HW Hbuf] Ha. 
  assert (2 ^ (27 - ect s) <= 2 ^ 27) by (apply Z.pow_le_mono_r; lia).
  assert (2 ^ (24 - ect s) <= 2 ^ 24) by (apply Z.pow_le_mono_r; lia).
  change (2 ^ 27) with 134217728 in *. change (2 ^ 24) with 16777216 in *. lia.
Qed.

Lemma renorme_ok k : forall f s W n V,
  einv s W n V -> 1 <= ect s -> 1 <= ea s -> (0 < k)%nat -> (k <= f)%nat ->
  ea s * 2 ^ Z.of_nat (k - 1) < 32768 <= ea s * 2 ^ Z.of_nat k ->
  exists s' B, renorme f s = Ok (s', stuff B) /\ einv s' (W ++ B) (n + Z.of_nat k) (V * 2 ^ Z.of_nat k) /\
    ea s' = ea s * 2 ^ Z.of_nat k /\ est s' = est s /\ 1 <= ect s'.
Proof.
  induction k as [|k IH]; intros f s W n V I Hct Ha Hk Hf Hr; [lia|].
  destruct f as [|f]; [lia|]. cbn [renorme].
  replace (S k - 1)%nat with k in Hr by lia.
  rewrite Nat2Z.inj_succ in *. rewrite Z.pow_succ_r in * by lia.
  assert (P : 0 < 2 ^ Z.of_nat k) by (apply Z.pow_pos_nonneg; lia).
  assert (HA : ea s < 32768) by nia.
  pose proof (einv_c_bound _ _ _ _ I Ha) as HC.
  rewrite !shl1, !u32_id by lia.
  pose proof (shift_inv s W n V _ _ I Hct ltac:(lia) eq_refl eq_refl) as I1.
  set (s1 := mkEnc (2 * ea s) (2 * ec s) (est s) (esc s) (ect s - 1) (ebuf s)) in *.
  change (2 * ea s) with (2 * ea s) in *.
  assert (Hs : exists B, snd (if ect s1 =? 0 then byteout s1 else (s1, [])) = stuff B /\
      einv (fst (if ect s1 =? 0 then byteout s1 else (s1, []))) (W ++ B) (n + 1) (2 * V) /\
      ea (fst (if ect s1 =? 0 then byteout s1 else (s1, []))) = 2 * ea s /\
      est (fst (if ect s1 =? 0 then byteout s1 else (s1, []))) = est s /\
      1 <= ect (fst (if ect s1 =? 0 then byteout s1 else (s1, [])))).
  { destruct (Z.eqb_spec (ect s1) 0) as [E|E].
    - destruct (byteout_inv s1 _ _ _ I1 E) as (B & H1 & H2 & H3 & H4 & H5); [unfold s1; cbn [ea]; lia|].
      exists B. rewrite H5. split; [exact H1|]. split; [exact H2|]. split; [exact H3|]. split; [exact H4|]. lia.
    - exists []. cbn [fst snd]. rewrite app_nil_r. pose proof (ei_ct _ _ _ _ I1).
      split; [reflexivity|]. split; [exact I1|]. split; [reflexivity|]. split; [reflexivity|]. lia. }
  destruct (if ect s1 =? 0 then byteout s1 else (s1, [])) as [s2 o]. cbn [fst snd] in Hs.
  destruct Hs as (B & -> & I2 & E1 & E2 & E3).
  clearbody s1. 
  destruct k as [|k].
  - change (2 ^ Z.of_nat 0) with 1 in *. replace (ea s2 <? 32768) with false by lia.
    exists s2, B. split; [reflexivity|]. replace (n + Z.succ (Z.of_nat 0)) with (n + 1) by lia.
    replace (V * (2 * 1)) with (2 * V) by lia. split; [exact I2|]. repeat split; auto; lia.
  - replace (ea s2 <? 32768) with true.
    2:{ rewrite Nat2Z.inj_succ, Z.pow_succ_r in Hr by lia. symmetry. apply Z.ltb_lt. rewrite E1.
        assert (0 < 2 ^ Z.of_nat k) by (apply Z.pow_pos_nonneg; lia). nia. }
    destruct (IH f s2 _ _ _ I2 E3 ltac:(lia) ltac:(lia) ltac:(lia)) as (s3 & B3 & R & I3 & E4 & E5 & E6).
    { replace (S k - 1)%nat with k by lia. rewrite Nat2Z.inj_succ, Z.pow_succ_r in * by lia. lia. }
    rewrite R. cbn [rbind]. exists s3, (B ++ B3). rewrite stuff_app. split; [reflexivity|].
    rewrite app_assoc. replace (n + Z.succ (Z.of_nat (S k))) with (n + 1 + Z.of_nat (S k)) by lia.
    replace (V * (2 * 2 ^ Z.of_nat (S k))) with (2 * V * 2 ^ Z.of_nat (S k)) by ring.
    split; [exact I3|]. repeat split; try congruence; try lia.
Qed.

(** How far a register has to be shifted. *)
Definition nshift (a : Z) : nat := Z.to_nat (15 - Z.log2 a).
Lemma nshift_ok a : 1 <= a < 32768 ->
  (0 < nshift a)%nat /\ (nshift a <= 15)%nat /\ a * 2 ^ Z.of_nat (nshift a - 1) < 32768 <= a * 2 ^ Z.of_nat (nshift a) /\
  a * 2 ^ Z.of_nat (nshift a) < 65536.
Proof.
  intros Ha. unfold nshift.
  assert (L : 0 <= Z.log2 a <= 14).
  { split; [apply Z.log2_nonneg|]. assert (Z.log2 a < 15); [|lia]. apply Z.log2_lt_pow2; [lia|]. change (2 ^ 15) with 32768. lia. }
  pose proof (Z.log2_spec a ltac:(lia)) as [L1 L2].
  set (k := Z.log2 a) in *. clearbody k.
  split; [lia|]. split; [lia|].
  replace (Z.of_nat (Z.to_nat (15 - k) - 1)) with (14 - k) by lia.
  replace (Z.of_nat (Z.to_nat (15 - k))) with (Z.succ (14 - k)) by lia.
  rewrite Z.pow_succ_r in * by lia.
  assert (0 < 2 ^ (14 - k)) by (apply Z.pow_pos_nonneg; lia).
  assert (E : 2 ^ k * 2 ^ (14 - k) = 16384). { rewrite <- Z.pow_add_r by lia. replace (k + (14 - k)) with 14 by lia. reflexivity. }
  nia.
Qed.

(** One decision as an abstract choice of sub-interval: offset, size, new state. *)
Definition lsz_of (st : Z) : Z := nth (Z.to_nat (st mod 128)) lsz_tab 0.
Definition to_m (st : Z) : Z := u8 (Z.lor (Z.land st 0x80) (nth (Z.to_nat (st mod 128)) nmps_tab 0)).
Definition to_l (st : Z) : Z := u8 (Z.lxor (Z.land st 0x80) (nth (Z.to_nat (st mod 128)) nlps_tab 0)).
Definition pick (a st pix : Z) : Z * Z * Z :=
  let l := lsz_of st in
  let a1 := a - l in
  if pix =? st / 128 then
    if a1 <? 32768 then (if a1 <? l then (a1, l, to_m st) else (0, a1, to_m st)) else (0, a1, st)
  else (if l <=? a1 then (a1, l, to_l st) else (0, a1, to_l st)).
Definition shifts (a : Z) : nat := if a <? 32768 then nshift a else 0%nat.

Definition stv (x : Z) : Prop := byte x /\ x mod 128 < 113.
Definition stvb (x : Z) : bool := (x mod 128 <? 113).

Lemma st_facts_sweep : all_below_from (Z.to_nat 256) 0 (fun st =>
   (Z.land st 127 =? st mod 128) && (Z.shiftr st 7 =? st / 128) &&
   Bool.eqb (Z.land (Z.lxor (Z.shiftl 0 7) st) 0x80 =? 0) (0 =? st / 128) &&
   Bool.eqb (Z.land (Z.lxor (Z.shiftl 1 7) st) 0x80 =? 0) (1 =? st / 128) &&
   (negb (stvb st) || ((1 <=? lsz_of st) && (lsz_of st <=? 23314) && stvb (to_m st) && stvb (to_l st)))) = true.
Proof. vm_compute. reflexivity. Qed.

Lemma st_facts st : stv st ->
  Z.land st 127 = st mod 128 /\ Z.shiftr st 7 = st / 128 /\
  (forall pix, pix = 0 \/ pix = 1 -> (Z.land (Z.lxor (Z.shiftl pix 7) st) 0x80 =? 0) = (pix =? st / 128)) /\
  1 <= lsz_of st <= 23314 /\ stv (to_m st) /\ stv (to_l st).
Proof.
  intros [Hb Hm]. pose proof (sweep _ _ st_facts_sweep st Hb) as H. cbv beta in H.
  rewrite !andb_true_iff in H. destruct H as ((((H1 & H2) & H3) & H4) & H5).
  apply Z.eqb_eq in H1, H2. apply eqb_prop in H3, H4.
  replace (negb (stvb st)) with false in H5 by (unfold stvb; symmetry; apply negb_false_iff, Z.ltb_lt; exact Hm).
  cbn [orb] in H5. rewrite !andb_true_iff in H5. destruct H5 as (((H5 & H6) & H7) & H8). unfold stvb in *.
  apply Z.leb_le in H5, H6. apply Z.ltb_lt in H7, H8.
  repeat split; auto.
  - intros pix [-> | ->]; assumption.
  - apply Z.mod_pos_bound; lia.
  - apply Z.mod_pos_bound; lia.
  - apply Z.mod_pos_bound; lia.
  - apply Z.mod_pos_bound; lia.
Qed.

Lemma aget_ok l i : 0 <= i < Z.of_nat (length l) -> aget l i = Ok (nth (Z.to_nat i) l 0).
Proof. intros H. unfold aget, in_bounds. replace ((0 <=? i) && (i <? Z.of_nat (length l))) with true by lia. reflexivity. Qed.
Lemma aset_ok l i x : 0 <= i < Z.of_nat (length l) -> aset l i x = Ok (upd l (Z.to_nat i) x).
Proof. intros H. unfold aset, in_bounds. replace ((0 <=? i) && (i <? Z.of_nat (length l))) with true by lia. reflexivity. Qed.
Lemma upd_nth l n : upd l n (nth n l 0) = l.
Proof. revert n; induction l as [|x l IH]; intros [|n]; cbn; auto. f_equal. apply IH. Qed.
Lemma Forall_upd {A} (P : A -> Prop) l n x : Forall P l -> P x -> Forall P (upd l n x).
Proof. intros H Hx. revert n; induction H; intros [|n]; cbn; constructor; auto. Qed.

Lemma st_ok_get l cx : st_ok l -> 0 <= cx < 4096 -> 0 <= cx < Z.of_nat (length l) /\ stv (nth (Z.to_nat cx) l 0).
Proof.
  intros [HL HF] H. rewrite HL. rewrite Z2Nat.id by lia. split; [lia|].
  rewrite Forall_forall in HF. apply HF. apply nth_In. rewrite HL. lia.
Qed.
Lemma st_ok_upd l cx x : st_ok l -> stv x -> st_ok (upd l cx x).
Proof. intros [HL HF] Hx. split; [rewrite upd_length; exact HL|]. apply Forall_upd; assumption. Qed.
Lemma st_ok_zero : st_ok st_zero.
Proof.
  split; [apply repeat_length|]. apply Forall_forall. intros x Hx. apply repeat_spec in Hx. subst.
  split; [red; lia|]. reflexivity.
Qed.

Lemma pick_ok a st pix off a' st' : stv st -> 32768 <= a <= 65536 -> pick a st pix = (off, a', st') ->
  0 <= off /\ 1 <= a' <= 65536 /\ off + a' <= a /\ stv st'.
Proof.
  intros Hs Ha. destruct (st_facts st Hs) as (_ & _ & _ & Hl & Hm & Hl'). unfold pick.
  destruct (pix =? st / 128).
  - destruct (Z.ltb_spec (a - lsz_of st) 32768); [destruct (Z.ltb_spec (a - lsz_of st) (lsz_of st))|]; intros E; injection E as <- <- <-; (split; [lia|]; split; [lia|]; split; [lia|]; assumption).
  - destruct (Z.leb_spec (lsz_of st) (a - lsz_of st)); intros E; injection E as <- <- <-; (split; [lia|]; split; [lia|]; split; [lia|]; assumption).
Qed.

Lemma einv_sub s W n V off a' st' :
  einv s W n V -> 0 <= off -> 1 <= a' -> off + a' <= ea s ->
  einv (mkEnc a' (ec s + off) st' (esc s) (ect s) (ebuf s)) W n (V + off).
Proof.
  intros [HV Hn Hc Hsc Hct HW Hbuf] H1 H2 H3.
  constructor; unfold pend in *; cbn [ea ec est esc ect ebuf] in *; try lia; auto.
  destruct Hbuf as [(Hb & HW0 & Hr)|(Hb & H8 & Hr)]; [left|right]; repeat split; try assumption; lia.
Qed.

(** The whole state between decisions. *)
Record enorm (s : enc) (W : list Z) (n V : Z) : Prop := {
  en_inv : einv s W n V;
  en_a : 32768 <= ea s <= 65536;
  en_ct : 1 <= ect s;
  en_st : st_ok (est s) }.

Lemma encode_step s W n V cx pix off a' st' :
  enorm s W n V -> 0 <= cx < 4096 -> pix = 0 \/ pix = 1 ->
  pick (ea s) (nth (Z.to_nat cx) (est s) 0) pix = (off, a', st') ->
  exists s' B, t81_t82_arith_encode s cx pix = Ok (s', stuff B) /\
    enorm s' (W ++ B) (n + Z.of_nat (shifts a')) ((V + off) * 2 ^ Z.of_nat (shifts a')) /\
    ea s' = a' * 2 ^ Z.of_nat (shifts a') /\ est s' = upd (est s) (Z.to_nat cx) st'.
Proof.
  intros [I Ha Hct Hst] Hcx Hp E.
  destruct (st_ok_get _ _ Hst Hcx) as [Hb Hv].
  pose proof (pick_ok _ _ _ _ _ _ Hv Ha E) as (P1 & P2 & P3 & P4).
  pose proof (einv_c_bound _ _ _ _ I ltac:(lia)) as HC.
  pose proof (einv_sub _ _ _ _ off a' (upd (est s) (Z.to_nat cx) st') I P1 (proj1 P2) P3) as I1.
  assert (Hfin : 1 <= a' < 32768 -> exists s' B, renorme renorm_fuel (mkEnc a' (ec s + off) (upd (est s) (Z.to_nat cx) st') (esc s) (ect s) (ebuf s)) = Ok (s', stuff B) /\
    enorm s' (W ++ B) (n + Z.of_nat (shifts a')) ((V + off) * 2 ^ Z.of_nat (shifts a')) /\
    ea s' = a' * 2 ^ Z.of_nat (shifts a') /\ est s' = upd (est s) (Z.to_nat cx) st').
  { intros H. unfold shifts. replace (a' <? 32768) with true by lia.
    destruct (nshift_ok a' H) as (N1 & N2 & N3 & N4).
    destruct (renorme_ok (nshift a') renorm_fuel _ _ _ _ I1) as (s' & B & R & I2 & E1 & E2 & E3); cbn [ect ea]; try lia.
    { unfold renorm_fuel. lia. }
    exists s', B. split; [exact R|]. cbn [ea est] in *. split; [|split; assumption].
    constructor; [exact I2| |exact E3|].
    - rewrite E1. lia.
    - rewrite E2. apply st_ok_upd; assumption. }
  unfold t81_t82_arith_encode.
  rewrite aget_ok by exact Hb. cbn [rbind].
  set (st := nth (Z.to_nat cx) (est s) 0) in *.
  destruct (st_facts st Hv) as (F1 & F2 & F3 & F4 & F5 & F6). rewrite F1.
  assert (Hi : 0 <= st mod 128 < 113) by (split; [apply Z.mod_pos_bound; lia|apply Hv]).
  rewrite !aget_ok by exact Hi. cbn [rbind]. fold (lsz_of st). fold (to_m st). fold (to_l st).
  rewrite F3 by exact Hp. rewrite (u32_id (ea s - lsz_of st)) by lia. rewrite !aset_ok by exact Hb.
  unfold pick in E. destruct (pix =? st / 128); cbn [negb].
  - destruct (Z.ltb_spec (ea s - lsz_of st) 32768) as [L|L].
    + destruct (Z.ltb_spec (ea s - lsz_of st) (lsz_of st)) as [L2|L2]; injection E as <- <- <-; cbn [rbind].
      * rewrite u32_id by lia. apply Hfin. lia.
      * rewrite (Z.add_0_r (ec s)) in *. apply Hfin. lia.
    + injection E as <- <- <-. unfold st. rewrite upd_nth. fold st.
      unfold shifts. replace (ea s - lsz_of st <? 32768) with false by lia.
      eexists _, []. split; [reflexivity|]. cbn [ea est]. rewrite app_nil_r. change (2 ^ Z.of_nat 0) with 1. rewrite Z.mul_1_r, !Z.add_0_r in *.
      unfold st in I1; rewrite upd_nth in I1; fold st in I1.
      split; [|split; [lia|reflexivity]]. constructor; cbn [ea ect est]; auto. lia.
  - destruct (Z.leb_spec (lsz_of st) (ea s - lsz_of st)) as [L2|L2]; injection E as <- <- <-; cbn [rbind].
    + rewrite u32_id by lia. apply Hfin. lia.
    + rewrite (Z.add_0_r (ec s)) in *. apply Hfin. lia.
Qed.

(** Nested intervals. *)
Lemma encode_all_ok ds : forall s W n V,
  enorm s W n V -> Forall decision_ok ds ->
  exists s' B n' V', encode_all s ds = Ok (s', stuff B) /\ enorm s' (W ++ B) n' V' /\ n <= n' /\
    V * 2 ^ (n' - n) <= V' /\ V' + ea s' <= (V + ea s) * 2 ^ (n' - n).
Proof.
  induction ds as [|[cx pix] ds IH]; intros s W n V I Hd.
  - exists s, [], n, V. cbn [encode_all]. rewrite app_nil_r, Z.sub_diag. change (2 ^ 0) with 1.
    split; [reflexivity|]. split; [exact I|]. lia.
  - pose proof (Forall_inv Hd) as [Hcx Hp]. cbn [fst snd] in *. apply Forall_inv_tail in Hd.
    destruct (pick (ea s) (nth (Z.to_nat cx) (est s) 0) pix) as [[off a'] st'] eqn:E.
    destruct (encode_step _ _ _ _ _ _ _ _ _ I Hcx Hp E) as (s1 & B1 & R1 & I1 & E1 & E2).
    destruct (IH _ _ _ _ I1 Hd) as (s2 & B2 & n2 & V2 & R2 & I2 & Hn & HV & HA).
    pose proof (pick_ok _ _ _ _ _ _ (proj2 (st_ok_get _ _ (en_st _ _ _ _ I) Hcx)) (en_a _ _ _ _ I) E) as (P1 & P2 & P3 & P4).
    cbn [encode_all]. rewrite R1. cbn [rbind]. rewrite R2. cbn [rbind].
    exists s2, (B1 ++ B2), n2, V2. rewrite stuff_app. split; [reflexivity|]. rewrite app_assoc. split; [exact I2|].
    split; [lia|].
    assert (EP : 2 ^ (n2 - n) = 2 ^ Z.of_nat (shifts a') * 2 ^ (n2 - (n + Z.of_nat (shifts a')))).
    { rewrite <- Z.pow_add_r by lia. f_equal. lia. }
    rewrite EP, E1 in *. set (p := 2 ^ Z.of_nat (shifts a')) in *. set (q := 2 ^ (n2 - (n + Z.of_nat (shifts a')))) in *.
    assert (0 < p) by (apply Z.pow_pos_nonneg; lia). assert (0 < q) by (apply Z.pow_pos_nonneg; lia).
    clearbody p q. assert (0 < p * q) by nia. split.
    + apply Z.le_trans with ((V + off) * p * q); [|exact HV]. rewrite <- Z.mul_assoc. nia.
    + eapply Z.le_trans; [exact HA|]. rewrite <- Z.mul_add_distr_r, <- Z.mul_assoc. nia.
Qed.

(** Flushing: the octets out and zeros ever after are a number in the interval. *)
Lemma land_hi x : 0 <= x < 4294967296 -> Z.land x 0xFFFF0000 = x / 65536 * 65536.
Proof.
  intros H. change 0xFFFF0000 with (Z.shiftl (Z.ones 16) 16).
  replace (x / 65536 * 65536) with (Z.shiftl (Z.shiftr x 16) 16) by (rewrite Z.shiftl_mul_pow2, Z.shiftr_div_pow2 by lia; reflexivity).
  apply Z.bits_inj'. intros i Hi. rewrite Z.land_spec.
  destruct (Z.ltb_spec i 16).
  - rewrite !Z.shiftl_spec_low by lia. apply andb_false_r.
  - rewrite !Z.shiftl_spec_high by lia. rewrite Z.shiftr_spec by lia. replace (i - 16 + 16) with i by lia.
    destruct (Z.ltb_spec i 32).
    + rewrite Z.ones_spec_low by lia. apply andb_true_r.
    + rewrite Z.ones_spec_high by lia. rewrite andb_false_r. symmetry.
      destruct (Z.eq_dec x 0) as [->|]; [apply Z.bits_0|]. apply Z.bits_above_log2; [lia|].
      apply Z.lt_le_trans with 32; [|lia]. apply Z.log2_lt_pow2; [lia|]. change (2 ^ 32) with 4294967296. lia.
Qed.

Lemma land_7fff800 x : 0 <= x -> x mod 2048 = 0 -> Z.land x 0x7FFF800 = x mod 134217728.
Proof.
  intros H0 H. change 134217728 with (2 ^ 27). rewrite <- Z.land_ones by lia.
  apply Z.bits_inj'. intros i Hi. rewrite !Z.land_spec.
  change 0x7FFF800 with (Z.shiftl (Z.ones 16) 11).
  destruct (Z.ltb_spec i 11).
  - replace (Z.testbit x i) with false; [reflexivity|].
    rewrite <- (Z.mod_pow2_bits_low x 11) by lia. change (2 ^ 11) with 2048. rewrite H. symmetry; apply Z.bits_0.
  - rewrite Z.shiftl_spec_high by lia. f_equal. destruct (Z.ltb_spec i 27).
    + rewrite !Z.ones_spec_low by lia. reflexivity.
    + rewrite !Z.ones_spec_high by lia. reflexivity.
Qed.
Lemma land_7f800 x : 0 <= x -> x mod 2048 = 0 -> Z.land x 0x7F800 = x mod 524288.
Proof.
  intros H0 H. change 524288 with (2 ^ 19). rewrite <- Z.land_ones by lia.
  apply Z.bits_inj'. intros i Hi. rewrite !Z.land_spec.
  change 0x7F800 with (Z.shiftl (Z.ones 8) 11).
  destruct (Z.ltb_spec i 11).
  - replace (Z.testbit x i) with false; [reflexivity|].
    rewrite <- (Z.mod_pow2_bits_low x 11) by lia. change (2 ^ 11) with 2048. rewrite H. symmetry; apply Z.bits_0.
  - rewrite Z.shiftl_spec_high by lia. f_equal. destruct (Z.ltb_spec i 19).
    + rewrite !Z.ones_spec_low by lia. reflexivity.
    + rewrite !Z.ones_spec_high by lia. reflexivity.
Qed.

Lemma bytes_rep x k : byte x -> bytes (repeat x k).
Proof. intros H. apply Forall_forall. intros y Hy. apply repeat_spec in Hy. subst. exact H. Qed.

(** The last two octets, trailing zeros dropped. *)
Lemma tail_ok c : 0 <= c < 134217728 -> c mod 2048 = 0 ->
  exists T, bytes T /\ (length T <= 2)%nat /\ num T * 2 ^ (27 - 8 * Z.of_nat (length T)) = c /\
   (if negb (Z.land c 0x7FFF800 =? 0) then
      output_stuffed_byte (Z.land (Z.shiftr c 19) 0xFF) ++
      (if negb (Z.land c 0x7F800 =? 0) then output_stuffed_byte (Z.land (Z.shiftr c 11) 0xFF) else [])
    else []) = stuff T /\ (c = 0 -> T = []) /\ (c mod 524288 = 0 -> (length T <= 1)%nat).
Proof.
  intros Hc Hm. rewrite land_7fff800, land_7f800, (Z.mod_small c) by lia. rewrite !land_ff_mod, sr19.
  rewrite (Z.shiftr_div_pow2 c 11) by lia. change (2 ^ 11) with 2048.
  destruct (Z.eqb_spec c 0) as [E|E]; cbn [negb].
  - exists []. subst. repeat split; auto. constructor.
  - destruct (Z.eqb_spec (c mod 524288) 0) as [E2|E2]; cbn [negb].
    + exists [(c / 524288) mod 256]. rewrite app_nil_r, stuff_one, num_one.
      split; [constructor; [apply Z.mod_pos_bound; lia|constructor]|]. split; [cbn; lia|]. split; [|split; [reflexivity|split; [intros ->; lia|cbn; lia]]].
      cbn [length]. change (2 ^ (27 - 8 * Z.of_nat 1)) with 524288. Z.div_mod_to_equations; lia.
    + exists [(c / 524288) mod 256; (c / 2048) mod 256]. rewrite <- !stuff_one.
      split; [constructor; [apply Z.mod_pos_bound; lia|constructor; [apply Z.mod_pos_bound; lia|constructor]]|]. split; [cbn; lia|]. split; [|split; [symmetry; apply (stuff_app [_] [_])|split; [intros ->; lia|intros H; contradiction (E2 H)]]].
      cbn [length]. change (2 ^ (27 - 8 * Z.of_nat 2)) with 2048. unfold num. cbn [fold_left]. Z.div_mod_to_equations; lia.
Qed.

Lemma flush_ok s W n V : enorm s W n V ->
  exists B Vf, snd (t81_t82_arith_encode_flush s) = stuff B /\ est (fst (t81_t82_arith_encode_flush s)) = est s /\
    bytes (W ++ B) /\ V <= Vf < V + ea s /\ 8 * Z.of_nat (length (W ++ B)) <= 8 + n /\
    num (W ++ B) * 2 ^ (16 + n - 8 * Z.of_nat (length (W ++ B))) = Vf.
Proof.
  intros [I Ha Hct1 Hst]. pose proof (einv_c_bound _ _ _ _ I ltac:(lia)) as HC.
  destruct I as [HV Hn Hc Hsc Hct HW Hbuf].
  unfold t81_t82_arith_encode_flush. rewrite (u32_id (ec s + ea s - 1)), land_hi by lia.
  set (temp := (ec s + ea s - 1) / 65536 * 65536).
  assert (HT : ec s + ea s - 65536 <= temp <= ec s + ea s - 1 /\ temp mod 65536 = 0).
  { unfold temp. split; [Z.div_mod_to_equations; lia|apply Z_mod_mult]. }
  clearbody temp. destruct HT as [HT HTm].
  set (c1 := if temp <? ec s then u32 (temp + 0x8000) else temp).
  assert (HC1 : ec s <= c1 < ec s + ea s /\ c1 mod 32768 = 0).
  { unfold c1. destruct (Z.ltb_spec temp (ec s)).
    - rewrite u32_id by lia. split; [lia|]. Z.div_mod_to_equations; lia.
    - split; [lia|]. Z.div_mod_to_equations; lia. }
  clearbody c1. clear HT HTm temp. destruct HC1 as [HC1 HC1m].
  assert (HP : 2 ^ ect s * 2 ^ (27 - ect s) = 134217728) by (rewrite <- Z.pow_add_r by lia; replace (ect s + (27 - ect s)) with 27 by lia; reflexivity).
  assert (HP3 : ect s <= 8 -> 2 ^ ect s * 2 ^ (24 - ect s) = 16777216) by (intros; rewrite <- Z.pow_add_r by lia; replace (ect s + (24 - ect s)) with 24 by lia; reflexivity).
  rewrite (Z.shiftl_mul_pow2 c1) by lia.
  assert (Q : 2 <= 2 ^ ect s <= 2048) by (split; [change 2 with (2 ^ 1) at 1|change 2048 with (2 ^ 11)]; apply Z.pow_le_mono_r; lia).
  assert (Hc2 : 0 <= c1 * 2 ^ ect s < 4294967296 /\ (c1 * 2 ^ ect s) mod 2048 = 0 /\ c1 * 2 ^ ect s < 134217728 + 16777216 /\ (ebuf s = -1 -> c1 * 2 ^ ect s < 134217728)).
  { split; [|split].
    - destruct Hbuf as [(Hb & HW0 & Hr)|(Hb & H8 & Hr)]; [|specialize (HP3 H8)]; nia.
    - apply Z.mod_divide in HC1m; [|lia]. apply Z.mod_divide; [lia|]. apply Z.divide_mul_l. apply Z.divide_trans with 32768; [exists 16; reflexivity|exact HC1m].
    - destruct Hbuf as [(Hb & HW0 & Hr)|(Hb & H8 & Hr)]; [|specialize (HP3 H8)]; split; try intros; try nia. }
  destruct Hc2 as (C1 & C2 & C3 & C4).
  rewrite u32_id by exact C1.
  set (c2 := c1 * 2 ^ ect s) in *.
  assert (C5 : 4 <= ect s -> c2 mod 524288 = 0).
  { intros H4. unfold c2. apply Z.mod_divide in HC1m; [|lia]. destruct HC1m as [q ->]. replace (ect s) with (4 + (ect s - 4)) by lia.
    rewrite Z.pow_add_r by lia. replace (q * 32768 * (2 ^ 4 * 2 ^ (ect s - 4))) with (q * 2 ^ (ect s - 4) * 524288) by (change (2 ^ 4) with 16; ring). apply Z_mod_mult. }
  (* the value kept after the pending octets *)
  assert (Hval : forall X T, bytes X -> bytes T -> (length T <= 2)%nat -> (4 <= ect s -> (length T <= 1)%nat) ->
     num (W ++ pend s) * 134217728 + c2 = num (X ++ T) * 2 ^ (27 - 8 * Z.of_nat (length T)) * 256 ^ Z.of_nat (length (W ++ pend s) - length X) ->
     (length X <= length (W ++ pend s))%nat ->
     V <= V + (c1 - ec s) < V + ea s /\ 8 * Z.of_nat (length (X ++ T)) <= 8 + n /\
     num (X ++ T) * 2 ^ (16 + n - 8 * Z.of_nat (length (X ++ T))) = V + (c1 - ec s)).
  { intros X T HX HTb HTl HTl1 HE HXl. split; [lia|]. rewrite app_length, Nat2Z.inj_add.
    assert (Hct' : ect s <= 11) by lia. split; [destruct (Z.leb_spec 4 (ect s)) as [H4|H4]; [specialize (HTl1 H4)|]; lia|].
    assert (E0 : V + (c1 - ec s) = num (W ++ pend s) * 2 ^ (27 - ect s) + c1) by lia. rewrite E0.
    apply (Z.mul_cancel_l _ _ (2 ^ ect s)); [lia|]. rewrite (Z.mul_add_distr_l (2 ^ ect s)), (Z.mul_comm _ c1). fold c2.
    replace (2 ^ ect s * (num (W ++ pend s) * 2 ^ (27 - ect s))) with (num (W ++ pend s) * 134217728) by (rewrite <- HP; ring).
    rewrite HE, pow256. rewrite (Z.mul_comm (2 ^ ect s)), <- !Z.mul_assoc. f_equal. rewrite <- !Z.pow_add_r by lia. f_equal. lia. }
  destruct (Z.ltb_spec 0x7FFFFFF c2) as [L|L]; cbn [fst snd est].
  - destruct Hbuf as [(Hb & HW0 & Hr)|(Hb & H8 & Hr)]; [lia|].
    replace (0 <=? ebuf s) with true by lia.
    destruct (tail_ok (c2 - 134217728)) as (T & HT1 & HT2 & HT3 & HT4 & HT5 & HT6); [lia|Z.div_mod_to_equations; lia|].
    assert (M1 : Z.land c2 0x7FFF800 = Z.land (c2 - 134217728) 0x7FFF800).
    { rewrite !land_7fff800; try lia; Z.div_mod_to_equations; lia. }
    assert (M2 : Z.land c2 0x7F800 = Z.land (c2 - 134217728) 0x7F800).
    { rewrite !land_7f800; try lia; Z.div_mod_to_equations; lia. }
    assert (M3 : Z.land (Z.shiftr c2 19) 0xFF = Z.land (Z.shiftr (c2 - 134217728) 19) 0xFF).
    { rewrite !land_ff_mod, !sr19. Z.div_mod_to_equations; lia. }
    assert (M4 : Z.land (Z.shiftr c2 11) 0xFF = Z.land (Z.shiftr (c2 - 134217728) 11) 0xFF).
    { rewrite !land_ff_mod, !(Z.shiftr_div_pow2 _ 11) by lia. change (2 ^ 11) with 2048. Z.div_mod_to_equations; lia. }
    assert (HT7 : 4 <= ect s -> (length T <= 1)%nat) by (intros H4; apply HT6; specialize (C5 H4); Z.div_mod_to_equations; lia).
    rewrite M1, M2, M3, M4. rewrite HT4. rewrite land_7fff800 by (Z.div_mod_to_equations; lia). rewrite Z.mod_small by lia.
    rewrite held_stuff, <- stuff_one.
    destruct (Z.eqb_spec (c2 - 134217728) 0) as [E|E]; cbn [negb].
    + rewrite (HT5 E) in *. exists [ebuf s + 1], (V + (c1 - ec s)). rewrite !app_nil_r. split; [reflexivity|]. split; [reflexivity|].
      assert (HB : bytes (W ++ [ebuf s + 1])) by (apply Forall_app; split; [exact HW|constructor; [red; lia|constructor]]).
      split; [exact HB|].
      destruct (Hval (W ++ [ebuf s + 1]) [] HB HT1 HT2 ltac:(cbn; lia)) as (R1 & R2 & R3).
      * rewrite app_nil_r, num_snoc. unfold pend. replace (0 <=? ebuf s) with true by lia. rewrite app_assoc, num_app, num_snoc, num_rep255.
        rewrite !app_length, !repeat_length. cbn [length]. change (2 ^ (27 - 8 * Z.of_nat 0)) with 134217728.
        replace (length W + 1 + Z.to_nat (esc s) - (length W + 1))%nat with (Z.to_nat (esc s)) by lia.
        pose proof (pow256_pos (Z.to_nat (esc s))). nia.
      * rewrite !app_length, pend_length. replace (0 <=? ebuf s) with true by lia. cbn [length]. lia.
      * rewrite app_nil_r in *. auto.
    + exists ([ebuf s + 1] ++ repeat 0 (Z.to_nat (esc s)) ++ T), (V + (c1 - ec s)). rewrite !stuff_app. split; [reflexivity|]. split; [reflexivity|].
      assert (HB : bytes (W ++ [ebuf s + 1] ++ repeat 0 (Z.to_nat (esc s)))).
      { apply Forall_app; split; [exact HW|]. apply Forall_app; split; [constructor; [red; lia|constructor]|apply bytes_rep; red; lia]. }
      split; [rewrite !app_assoc in *; apply Forall_app; split; assumption|].
      destruct (Hval (W ++ [ebuf s + 1] ++ repeat 0 (Z.to_nat (esc s))) T HB HT1 HT2 HT7) as (R1 & R2 & R3).
      * unfold pend. replace (0 <=? ebuf s) with true by lia. rewrite (num_app _ T). rewrite !(app_assoc W).
        rewrite (num_app (W ++ [ebuf s])), (num_app (W ++ [ebuf s + 1])), !num_snoc, num_rep0, num_rep255.
        rewrite !app_length, !repeat_length. cbn [length]. rewrite Nat.sub_diag. change (256 ^ Z.of_nat 0) with 1. rewrite Z.mul_1_r.
        rewrite (Z.mul_add_distr_r _ (num T)), HT3.
        assert (HP4 : 256 ^ Z.of_nat (length T) * 2 ^ (27 - 8 * Z.of_nat (length T)) = 134217728).
        { rewrite pow256, <- Z.pow_add_r by lia. replace (8 * Z.of_nat (length T) + (27 - 8 * Z.of_nat (length T))) with 27 by lia. reflexivity. }
        rewrite <- (Z.mul_assoc _ (256 ^ _)), HP4.
        pose proof (pow256_pos (Z.to_nat (esc s))). nia.
      * rewrite !app_length, pend_length, repeat_length. replace (0 <=? ebuf s) with true by lia. cbn [length]. lia.
      * rewrite <- !app_assoc in *. auto.
  - destruct (tail_ok c2) as (T & HT1 & HT2 & HT3 & HT4 & HT5 & HT6); [lia|exact C2|].
    assert (HT7 : 4 <= ect s -> (length T <= 1)%nat) by (intros H4; exact (HT6 (C5 H4))).
    rewrite HT4. exists (pend s ++ T), (V + (c1 - ec s)).
    assert (HB : bytes (W ++ pend s)).
    { apply Forall_app; split; [exact HW|]. unfold pend. apply Forall_app; split; [destruct (Z.leb_spec 0 (ebuf s)); [constructor; [red; lia|constructor]|constructor]|apply bytes_rep; red; lia]. }
    split.
    { unfold pend. rewrite !stuff_app, held_stuff, <- app_assoc. f_equal. destruct (0 <=? ebuf s); [rewrite stuff_one|]; reflexivity. }
    split; [reflexivity|]. split; [rewrite app_assoc; apply Forall_app; split; assumption|].
    destruct (Hval (W ++ pend s) T HB HT1 HT2 HT7) as (R1 & R2 & R3).
    + rewrite Nat.sub_diag. change (256 ^ Z.of_nat 0) with 1. rewrite Z.mul_1_r, (num_app _ T), Z.mul_add_distr_r, HT3.
      assert (HP4 : 256 ^ Z.of_nat (length T) * 2 ^ (27 - 8 * Z.of_nat (length T)) = 134217728).
      { rewrite pow256, <- Z.pow_add_r by lia. replace (8 * Z.of_nat (length T) + (27 - 8 * Z.of_nat (length T))) with 27 by lia. reflexivity. }
      rewrite <- (Z.mul_assoc _ (256 ^ _)), HP4. reflexivity.
    + lia.
    + rewrite <- !app_assoc in *. auto.
Qed.

Lemma enorm_start st : st_ok st -> enorm (mkEnc 0x10000 0 st 0 11 (-1)) [] 0 0.
Proof.
  intros H. constructor; cbn [ea ect est]; try lia; auto.
  constructor; cbn [ea ect est ec esc ebuf pend]; try lia; try reflexivity; [constructor|].
  left. repeat split; try reflexivity.
Qed.
