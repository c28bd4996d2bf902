(** The HDLC transmitter: what it puts on the line. *)
From Coq Require Import ZifyBool ZifyNat.
From Verif Require Import Base Bits Crc_spec Crc_model Crc_proofs BitOps_model BitOps_proofs Hdlc_model Hdlc_spec Hdlc_rx_proofs Hdlc_rx_safe.
Ltac Zify.zify_post_hook ::= Z.div_mod_to_equations.

(** ---- stuffing an octet ---- *)
Record holds (o : Z) (t : nat) (P : list bool) : Prop := {
  ho_range : 0 <= o < 2 ^ 32; ho_bits : o mod 2 ^ Z.of_nat (length P) = of_bits_msb P;
  ho_run : o mod 2 ^ (Z.of_nat t + 1) = 2 ^ Z.of_nat t - 1 }.
Lemma mod_step o M b : 0 < M -> (2 * o + Z.b2z b) mod (2 * M) = 2 * (o mod M) + Z.b2z b.
Proof.
  intros H. symmetry. apply Z.mod_unique with (q := o / M). left. pose proof (Z.mod_pos_bound o M H). destruct b; cbn [Z.b2z]; lia.
  pose proof (Z.div_mod o M ltac:(lia)). nia.
Qed.
Lemma u32_mod x n : (n <= 32)%nat -> u32 x mod 2 ^ Z.of_nat n = x mod 2 ^ Z.of_nat n.
Proof.
  intros H. unfold u32. change 4294967296 with (2 ^ 32). replace (2 ^ 32) with (2 ^ Z.of_nat n * 2 ^ Z.of_nat (32 - n)).
  - rewrite Z.rem_mul_r by (pose proof (p2_pos n); pose proof (p2_pos (32 - n)); lia).
    rewrite Z.mul_comm, Z.mod_add by (pose proof (p2_pos n); lia). apply Z.mod_mod. pose proof (p2_pos n); lia.
  - rewrite <- Z.pow_add_r by lia. f_equal. lia.
Qed.
Lemma u32_double x : u32 (2 * x) = 2 * (x mod 2 ^ 31).
Proof. unfold u32. change 4294967296 with (2 * 2 ^ 31). pose proof (mod_step x (2 ^ 31) false ltac:(lia)) as H. cbn [Z.b2z] in H. rewrite !Z.add_0_r in H. exact H. Qed.
Lemma lor_b x b : Z.lor (u32 (2 * x)) (Z.b2z b) = u32 (2 * x) + Z.b2z b.
Proof.
  rewrite u32_double. replace (2 * (x mod 2 ^ 31)) with (x mod 2 ^ 31 * 2 ^ 1) by lia.
  rewrite Z.lor_comm, lor_disj by (destruct b; cbn; lia). lia.
Qed.
Lemma low5_small o k : (k <= 4)%nat -> o mod 2 ^ (Z.of_nat k + 1) = 2 ^ Z.of_nat k - 1 -> o mod 32 = 31 -> False.
Proof. intros L. do 5 (destruct k as [|k]; [cbn; lia|]). lia. Qed.
Lemma mod5 o : o mod 2 ^ (Z.of_nat 5 + 1) = 2 ^ Z.of_nat 5 - 1 -> o mod 32 = 31.
Proof. change (2 ^ (Z.of_nat 5 + 1)) with 64. change (2 ^ Z.of_nat 5) with 32. lia. Qed.
Lemma add_bit o t P b : holds o t P -> (length P <= 31)%nat -> (t <= 30)%nat ->
  holds (Z.lor (u32 (Z.shiftl o 1)) (Z.b2z b)) (if b then S t else 0) (P ++ [b]).
Proof.
  intros [A B C] L T. rewrite shiftl_1, lor_b.
  assert (M : forall n, (n <= 32)%nat -> (u32 (2 * o) + Z.b2z b) mod 2 ^ Z.of_nat n = (2 * o + Z.b2z b) mod 2 ^ Z.of_nat n).
  { intros n Hn. rewrite <- Zplus_mod_idemp_l, u32_mod, Zplus_mod_idemp_l by exact Hn. reflexivity. }
  assert (M' : forall n, (n <= 31)%nat -> (u32 (2 * o) + Z.b2z b) mod 2 ^ Z.of_nat (S n) = 2 * (o mod 2 ^ Z.of_nat n) + Z.b2z b).
  { intros n Hn. rewrite M by lia. rewrite Nat2Z.inj_succ, Z.pow_succ_r by lia. apply mod_step, p2_pos. }
  split.
  - rewrite u32_double. pose proof (Z.mod_pos_bound o (2 ^ 31) ltac:(lia)). change (2 ^ 32) with (2 * 2 ^ 31). set (q := o mod 2 ^ 31) in *. clearbody q. clear - H. destruct b; cbn [Z.b2z]; lia.
  - rewrite app_length. cbn [length]. rewrite Nat.add_1_r, M' by exact L. rewrite B, of_bits_msb_app. cbn [length]. change (2 ^ Z.of_nat 1) with 2.
    change (of_bits_msb [b]) with (Z.b2z b + 2 * 0). lia.
  - destruct b.
    + replace (Z.of_nat (S t) + 1) with (Z.of_nat (S (S t))) by lia. rewrite M' by lia. replace (Z.of_nat (S t)) with (Z.of_nat t + 1) by lia.
      rewrite C. cbn [Z.b2z]. rewrite Z.pow_add_r by lia. change (2 ^ 1) with 2. lia.
    + change (Z.of_nat 0 + 1) with (Z.of_nat 1). rewrite M' by lia. change (2 ^ Z.of_nat 0) with 1. rewrite Z.mod_1_r. reflexivity.
Qed.
Lemma low5 o t P : holds o t P -> (t <= 5)%nat -> (Z.land o 0x1F =? 0x1F) = (t =? 5)%nat.
Proof.
  intros [_ _ C] L. change 0x1F with (Z.ones 5) at 1. rewrite Z.land_ones by lia. change (2 ^ 5) with 32.
  destruct (Nat.eqb_spec t 5) as [->|N]; [pose proof (mod5 _ C); lia|]. destruct (Z.eqb_spec (o mod 32) 31); [|reflexivity].
  destruct (low5_small o t ltac:(lia) C ltac:(auto)).
Qed.
Lemma land_1 b : Z.land b 1 = Z.b2z (Z.odd b).
Proof. change 1 with (Z.ones 1). rewrite Z.land_ones by lia. change (2 ^ 1) with 2. pose proof (Zmod_odd b). destruct (Z.odd b); cbn [Z.b2z]; lia. Qed.
Lemma loop_stuff n : forall o k b t P, holds o t P -> (t <= 4)%nat -> (length P + 2 * n <= 31)%nat ->
  exists o', stuff_loop n o k b = (o', k + (Z.of_nat (length (stuff t (bits_lsb n b))) - Z.of_nat n)) /\ holds o' (stuff_end t (bits_lsb n b)) (P ++ stuff t (bits_lsb n b)).
Proof.
  induction n as [|n IH]; intros o k b t P H T L; cbn [stuff_loop bits_lsb].
  - exists o. split; [|rewrite app_nil_r; exact H]. f_equal. cbn. lia.
  - cbv zeta. rewrite land_1. pose proof (add_bit o t P (Z.odd b) H ltac:(lia) ltac:(lia)) as H1.
    set (o1 := Z.lor _ _) in *. pose proof (low5 o1 _ _ H1) as E5. change (Z.shiftr b 1) with (Z.div2 b).
    destruct (Z.odd b); cbn [stuff stuff_end].
    + rewrite E5 by lia. cbn [Nat.eqb]. destruct (Nat.eqb_spec t 4) as [->|N].
      * pose proof (add_bit o1 5 (P ++ [true]) false H1 ltac:(rewrite app_length; cbn [length]; lia) ltac:(lia)) as H2.
        change (Z.b2z false) with 0 in H2. rewrite Z.lor_0_r in H2. rewrite <- app_assoc in H2. cbn [app] in H2.
        destruct (IH _ (k + 1) (Z.div2 b) 0%nat _ H2 ltac:(lia) ltac:(rewrite app_length; cbn [length]; lia)) as (o' & E' & H').
        exists o'. rewrite E'. rewrite <- app_assoc in H'. cbn [app] in H'. split; [|exact H']. f_equal. cbn [length]. lia.
      * destruct (IH _ k (Z.div2 b) (S t) _ H1 ltac:(lia) ltac:(rewrite app_length; cbn [length]; lia)) as (o' & E' & H').
        exists o'. rewrite E'. rewrite <- app_assoc in H'. cbn [app] in H'. split; [|exact H']. f_equal. cbn [length]. lia.
    + rewrite E5 by lia. cbn [Nat.eqb].
      destruct (IH _ k (Z.div2 b) 0%nat _ H1 ltac:(lia) ltac:(rewrite app_length; cbn [length]; lia)) as (o' & E' & H').
      exists o'. rewrite E'. rewrite <- app_assoc in H'. cbn [app] in H'. split; [|exact H']. f_equal. cbn [length]. lia.
Qed.
Lemma add_zeros i : forall o t P, holds o t P -> (length P + i <= 31)%nat -> (t <= 4)%nat ->
  holds (u32 (Z.shiftl o (Z.of_nat i))) (if (i =? 0)%nat then t else 0) (P ++ repeat false i).
Proof.
  induction i as [|i IH]; intros o t P H L T.
  - cbn [Z.of_nat]. rewrite Z.shiftl_0_r, app_nil_r. replace (u32 o) with o; [exact H|]. pose proof (ho_range _ _ _ H) as X. change (2 ^ 32) with 4294967296 in X. unfold u32. lia.
  - pose proof (add_bit o t P false H ltac:(lia) ltac:(lia)) as H1. change (Z.b2z false) with 0 in H1. rewrite Z.lor_0_r in H1. cbv iota in H1.
    specialize (IH _ _ _ H1). rewrite app_length in IH. cbn [length] in IH. specialize (IH ltac:(lia) ltac:(lia)).
    rewrite <- app_assoc in IH. cbn [app] in IH. cbn [Nat.eqb repeat].
    replace (u32 (Z.shiftl o (Z.of_nat (S i)))) with (u32 (Z.shiftl (u32 (Z.shiftl o 1)) (Z.of_nat i))); [destruct (i =? 0)%nat; exact IH|].
    rewrite !Z.shiftl_mul_pow2 by lia. unfold u32. rewrite Zmult_mod_idemp_l. f_equal. rewrite Nat2Z.inj_succ, Z.pow_succ_r by lia. ring.
Qed.
Lemma bits_zeros i : forall n b, (i <= n)%nat -> b mod 2 ^ Z.of_nat i = 0 -> bits_lsb n b = repeat false i ++ bits_lsb (n - i) (Z.shiftr b (Z.of_nat i)).
Proof.
  induction i as [|i IH]; intros n b L H.
  - cbn [repeat app Z.of_nat]. rewrite Z.shiftr_0_r, Nat.sub_0_r. reflexivity.
  - destruct n as [|n]; [lia|]. cbn [bits_lsb repeat app Nat.sub].
    assert (E : b mod 2 = 0 /\ Z.div2 b mod 2 ^ Z.of_nat i = 0).
    { rewrite Nat2Z.inj_succ, Z.pow_succ_r in H by lia. pose proof (p2_pos i) as P. apply Z.mod_divide in H; [|lia]. destruct H as [q ->].
      rewrite Z.div2_div. replace (q * (2 * 2 ^ Z.of_nat i)) with (q * 2 ^ Z.of_nat i * 2) by ring. split; [apply Z.mod_mul; lia|].
      rewrite Z.div_mul by lia. apply Z.mod_mul. lia. }
    destruct E as [E1 E2]. f_equal; [pose proof (Zmod_odd b); destruct (Z.odd b); [lia|reflexivity]|].
    rewrite (IH n (Z.div2 b)) by (auto; lia). f_equal. f_equal. rewrite Z.div2_spec, Z.shiftr_shiftr by lia. f_equal. lia.
Qed.
Lemma stuff_zeros i : forall t l, stuff t (repeat false i ++ l) = repeat false i ++ stuff (if (i =? 0)%nat then t else 0) l.
Proof.
  induction i as [|i IH]; intros t l; [reflexivity|]. cbn [repeat app stuff Nat.eqb]. rewrite IH. destruct (i =? 0)%nat; reflexivity.
Qed.
Lemma stuff_end_zeros i : forall t l, stuff_end t (repeat false i ++ l) = stuff_end (if (i =? 0)%nat then t else 0) l.
Proof.
  induction i as [|i IH]; intros t l; [reflexivity|]. cbn [repeat app stuff_end Nat.eqb]. rewrite IH. destruct (i =? 0)%nat; reflexivity.
Qed.
Definition bottom_fact (b : Z) : bool := let i := bottom_bit (Z.lor b 0x100) in (0 <=? i) && (i <=? 8) && (b mod 2 ^ i =? 0).
Lemma bottom_facts b : 0 <= b < 256 -> bottom_fact b = true.
Proof. apply sweep. vm_compute. reflexivity. Qed.
Lemma octet_stuff o k b t P : byte b -> holds o t P -> (t <= 4)%nat -> (length P <= 7)%nat ->
  exists o', stuff_loop (Z.to_nat (8 - bottom_bit (Z.lor b 0x100))) (u32 (Z.shiftl o (bottom_bit (Z.lor b 0x100)))) k (Z.shiftr b (bottom_bit (Z.lor b 0x100)))
    = (o', k + (Z.of_nat (length (stuff t (bits_lsb 8 b))) - 8)) /\ holds o' (stuff_end t (bits_lsb 8 b)) (P ++ stuff t (bits_lsb 8 b)).
Proof.
  intros Hb H T L. pose proof (bottom_facts b Hb) as F. unfold bottom_fact in F. cbv zeta in F. set (i := bottom_bit _) in *. clearbody i.
  apply andb_true_iff in F as [F F3]. apply andb_true_iff in F as [F1 F2].
  replace i with (Z.of_nat (Z.to_nat i)) in * by lia. set (j := Z.to_nat i) in *. clearbody j. clear i.
  replace (Z.to_nat (8 - Z.of_nat j)) with (8 - j)%nat by lia.
  pose proof (add_zeros j o t P H ltac:(lia) T) as H1. rewrite (bits_zeros j 8 b) by lia. rewrite stuff_zeros, stuff_end_zeros.
  destruct (loop_stuff (8 - j) _ k (Z.shiftr b (Z.of_nat j)) _ _ H1 ltac:(destruct (j =? 0)%nat; lia) ltac:(rewrite app_length, repeat_length; lia)) as (o' & E & H2).
  exists o'. rewrite E, app_assoc. split; [|exact H2]. f_equal. rewrite app_length, repeat_length. lia.
Qed.
Lemma stuff_length l : forall t, (length l <= length (stuff t l) <= 2 * length l)%nat.
Proof.
  induction l as [|[|] l IH]; intros t; cbn [stuff length]; [lia| |specialize (IH 0%nat); lia].
  destruct (t =? 4)%nat; cbn [length]; [specialize (IH 0%nat)|specialize (IH (S t))]; lia.
Qed.
(** At most two stuffed bits in an octet. *)
Lemma stuff_le2 b t : (t <= 4)%nat -> (length (stuff t (bits_lsb 8 b)) <= 10)%nat.
Proof.
  intros T. cbn [bits_lsb]. do 5 (destruct t as [|t]; [repeat (match goal with |- context [Z.odd ?x] => destruct (Z.odd x) end; cbn [stuff Nat.eqb length]); lia|]). lia.
Qed.
(** Splitting off an octet. *)
Lemma holds_split o t Q : holds o t Q -> (8 <= length Q <= 32)%nat ->
  bits_msb 8 (Z.land (Z.shiftr o (Z.of_nat (length Q - 8))) 0xFF) = firstn 8 Q /\ byte (Z.land (Z.shiftr o (Z.of_nat (length Q - 8))) 0xFF) /\ holds o t (skipn 8 Q).
Proof.
  intros [A B C] L. rewrite land_ff_mod, Z.shiftr_div_pow2 by lia.
  assert (LF : length (firstn 8 Q) = 8%nat) by (rewrite firstn_length; lia).
  assert (LS : length (skipn 8 Q) = (length Q - 8)%nat) by (rewrite skipn_length; lia).
  pose proof (of_bits_msb_app (firstn 8 Q) (skipn 8 Q)) as E. rewrite firstn_skipn, <- B, LS in E.
  set (k := (length Q - 8)%nat) in *. pose proof (of_bits_msb_range (skipn 8 Q)) as R. rewrite LS in R.
  pose proof (of_bits_msb_range (firstn 8 Q)) as R8. rewrite LF in R8. change (2 ^ Z.of_nat 8) with 256 in R8.
  assert (PK : 2 ^ Z.of_nat (length Q) = 2 ^ Z.of_nat k * 256) by (replace (length Q) with (k + 8)%nat by lia; rewrite Nat2Z.inj_add, Z.pow_add_r by lia; reflexivity).
  pose proof (p2_pos k) as PP.
  rewrite PK in E. rewrite Z.rem_mul_r in E by lia.
  pose proof (Z.mod_pos_bound o (2 ^ Z.of_nat k) PP) as RB. pose proof (Z.mod_pos_bound (o / 2 ^ Z.of_nat k) 256 ltac:(lia)) as RB2.
  set (x := (o / 2 ^ Z.of_nat k) mod 256) in *. remember (o mod 2 ^ Z.of_nat k) as y eqn:Ey. set (M := 2 ^ Z.of_nat k) in *. clearbody x.
  assert (XY : x = of_bits_msb (firstn 8 Q) /\ y = of_bits_msb (skipn 8 Q)).
  { assert (x = of_bits_msb (firstn 8 Q)) by (clear - E R RB PP; clearbody M; nia). split; [auto|]. rewrite H in E. clear - E. clearbody M. lia. }
  destruct XY as [X1 X2]. split; [|split].
  - rewrite X1. pose proof (bits_msb_of_bits (firstn 8 Q)) as Z8. rewrite LF in Z8. exact Z8.
  - unfold byte. lia.
  - split; [exact A| |exact C]. rewrite LS. fold k. fold M. congruence.
Qed.

(** ---- the transmitter's invariant ---- *)
Definition cur (s : txs) : list Z := firstn (Z.to_nat (tlen s)) (tbuf s).
(** the octets of the current frame (with its FCS) already turned into bits *)
Definition part (c : txcfg) (s : txs) : list Z :=
  if pos s <=? tlen s then firstn (Z.to_nat (pos s)) (tbuf s)
  else cur s ++ firstn (Z.to_nat (pos s - HDLC_MAXFRAME_LEN)) (fcs (tx_crc32 c) (cur s)).
Definition put (c : txcfg) (s : txs) : list bool := stuff 0 (wire (part c s)).
Definition tcrc (x : bool) (d : list Z) : Z := if x then crc32 d 0xFFFFFFFF else crc16 d 0xFFFF.
Definition tailf (n : Z) : list bool := skipn (8 - Z.to_nat n) flag.
Definition headf (n : Z) : list bool := firstn (8 - Z.to_nat n) flag.
Record tinv (c : txcfg) (s : txs) (B : list bool) (segs : list seg) (log : list (bool * list Z)) : Prop := {
  ti_blen : length (tbuf s) = Z.to_nat BUF_LEN; ti_bytes : bytes (tbuf s);
  ti_len : 0 <= tlen s; ti_max : tlen s = 0 \/ tlen s <= tmax s; ti_max4 : tmax s <= HDLC_MAXFRAME_LEN; ti_abort : abort_octets s = 0;
  ti_pos : 0 <= pos s <= tlen s /\ crc s = tcrc (tx_crc32 c) (cur s) \/
    0 < tlen s /\ HDLC_MAXFRAME_LEN < pos s <= HDLC_MAXFRAME_LEN + tx_crc_bytes c /\
      forall i, (i < crcb (tx_crc32 c))%nat -> nth (400 + i) (tbuf s) 0 = nth i (fcs (tx_crc32 c) (cur s)) 0;
  ti_flags : 0 < pos s -> flag_octets s <= 0;
  ti_tnb : 0 <= tnb s <= 9;
  ti_bits : exists P, Z.of_nat (length P) = tnb s /\ B ++ P = line (tx_crc32 c) segs ++ put c s /\
    holds (oip s) (stuff_end 0 (wire (part c s))) P /\
    (pos s = 0 -> P = tailf (tnb s) /\ tnb s < 8 /\ bits_msb 8 (idle_octet s) = P ++ headf (tnb s) /\ byte (idle_octet s));
  ti_segs : Forall (fun g => match g with Flag => True | Fr d => bytes d /\ (0 < length d)%nat /\ Z.of_nat (length d) <= tmax s end) segs;
  ti_log : frames_of log = frames segs ++ (if tlen s =? 0 then [] else [cur s]) }.
Definition clean (o : uop) : Prop := match o with UFrame l => bytes l | UFlags _ => True | UAbort | UCorrupt => False end.
Ltac tr := cbn [oip tnb idle_octet flag_octets abort_octets rfu tbuf tlen pos crc tbyte tbits tx_end tmax tset_end tset_flags tset_abort tset_frame tset_bits tset_byte tset_max] in *.

Lemma crcs c : tx_crc_bytes c = Z.of_nat (crcb (tx_crc32 c)).
Proof. unfold tx_crc_bytes, crcb. destruct (tx_crc32 c); reflexivity. Qed.
Lemma tcrc_range x d : 0 <= tcrc x d < (if x then 2 ^ 32 else 2 ^ 16).
Proof. unfold tcrc. destruct x; [apply crc32_wf|apply crc16_wf]; lia. Qed.
Lemma tcrc_app c d f : bytes f -> crc_calc c f (tcrc (tx_crc32 c) d) = tcrc (tx_crc32 c) (d ++ f).
Proof.
  intros H. unfold crc_calc, tcrc. pose proof (tcrc_range (tx_crc32 c) d) as R. unfold tcrc in R. destruct (tx_crc32 c).
  - unfold crc_itu32_calc. rewrite calc32 by auto. unfold crc32. rewrite wire_app. unfold lfsr_run. rewrite fold_left_app. reflexivity.
  - unfold crc_itu16_calc. rewrite calc16 by auto. unfold crc16 in *. rewrite wire_app. unfold lfsr_run in *. rewrite fold_left_app. f_equal.
    change (2 ^ 16) with 65536 in R. unfold u16. lia.
Qed.
Lemma tcrc_nil c : tcrc (tx_crc32 c) [] = crc_seed c.
Proof. unfold tcrc, crc_seed. destruct (tx_crc32 c); reflexivity. Qed.
Lemma firstn_upd {A} (l : list A) : forall n m x, (n <= m)%nat -> firstn n (upd l m x) = firstn n l.
Proof.
  induction l as [|a l IH]; intros n m x H; [destruct m; reflexivity|]. destruct n as [|n]; [reflexivity|]. destruct m as [|m]; [lia|].
  cbn [upd firstn]. rewrite IH by lia. reflexivity.
Qed.
Lemma firstn_S (l : list Z) n : (n < length l)%nat -> firstn (S n) l = firstn n l ++ [nth n l 0].
Proof.
  revert n. induction l as [|a l IH]; intros n H; [cbn in H; lia|]. destruct n as [|n]; [reflexivity|]. cbn [firstn nth app]. f_equal. apply IH. cbn [length] in H. lia.
Qed.
Lemma nth_byte l n : bytes l -> byte (nth n l 0).
Proof.
  intros H. destruct (Nat.lt_ge_cases n (length l)) as [L|L].
  - apply (proj1 (Forall_forall byte l) H). apply nth_In, L.
  - rewrite nth_overflow by lia. unfold byte. lia.
Qed.

(** API calls that only queue things *)
Lemma frame_inv c s B segs log l : tinv c s B segs log -> bytes l ->
  exists s' r, hdlc_tx_frame c s l = Ok (s', r) /\
    tinv c s' B segs (log ++ (if (r =? 0) && negb (Z.of_nat (length l) =? 0) then [(tlen s =? 0, l)] else [])) /\ put c s' = put c s /\ tmax s' = tmax s /\ pos s' = pos s.
Proof.
  intros [Hbl Hby Hlen Hmax Hmax4 Hab Hpos Hfl Htnb Hbits Hsegs Hlog] Hl. unfold hdlc_tx_frame. cbv zeta.
  assert (SAME : forall e, tinv c (tset_end s e) B segs (log ++ [])).
  { intros e. rewrite app_nil_r. split; auto. }
  assert (SAME' : tinv c s B segs (log ++ [])) by (rewrite app_nil_r; split; auto).
  destruct (Z.eqb_spec (Z.of_nat (length l)) 0) as [E0|E0].
  { do 2 eexists. split; [reflexivity|]. cbn [negb]. rewrite andb_false_r. auto. }
  destruct (Z.ltb_spec (tmax s) (tlen s + Z.of_nat (length l))) as [E1|E1].
  { exists s, (-1). split; [reflexivity|]. cbn [Z.eqb andb]. auto. }
  match goal with |- context [if ?b then Ok (s, -1) else _] => destruct b eqn:E2 end.
  { exists s, (-1). split; [reflexivity|]. cbn [Z.eqb andb]. auto. }
  assert (PL : pos s <= tlen s).
  { destruct Hpos as [[? _]|(A & A' & _)]; [lia|]. destruct (progressive c); [unfold HDLC_MAXFRAME_LEN in *; lia|]. lia. }
  assert (NEW : (if progressive c then tlen s + Z.of_nat (length l) else Z.of_nat (length l)) = tlen s + Z.of_nat (length l)).
  { destruct (progressive c); [reflexivity|]. lia. }
  rewrite NEW. clear NEW.
  destruct Hpos as [[Hp Hc]|(A & A' & _)]; [|unfold HDLC_MAXFRAME_LEN in *; lia].
  unfold ablit. destruct l as [|x l']; [cbn in E0; lia|]. set (l := x :: l') in *. rewrite Hbl.
  replace (Z.of_nat (Z.to_nat BUF_LEN)) with BUF_LEN by reflexivity. unfold HDLC_MAXFRAME_LEN, BUF_LEN in *.
  destruct (Z.leb_spec 0 (tlen s)); [|lia]. destruct (Z.leb_spec (tlen s + Z.of_nat (length l)) 404); [|lia]. cbn [andb rbind].
  do 2 eexists. split; [reflexivity|]. cbn [Z.eqb negb andb].
  set (b := firstn (Z.to_nat (tlen s)) (tbuf s) ++ l ++ skipn (Z.to_nat (tlen s) + length l) (tbuf s)).
  assert (FL : length (firstn (Z.to_nat (tlen s)) (tbuf s)) = Z.to_nat (tlen s)) by (rewrite firstn_length; lia).
  assert (CUR : firstn (Z.to_nat (tlen s + Z.of_nat (length l))) b = cur s ++ l).
  { unfold b. replace (Z.to_nat (tlen s + Z.of_nat (length l))) with (length (cur s ++ l)) by (unfold cur; rewrite app_length, FL; lia). rewrite app_assoc.
    apply firstn_app_exact. reflexivity. }
  assert (PART : firstn (Z.to_nat (pos s)) b = firstn (Z.to_nat (pos s)) (tbuf s)).
  { unfold b. rewrite firstn_app, FL. replace (Z.to_nat (pos s) - Z.to_nat (tlen s))%nat with 0%nat by lia. cbn [firstn]. rewrite app_nil_r, firstn_firstn. f_equal. lia. }
  assert (PT : part c (tset_end (tset_frame s b (tlen s + Z.of_nat (length l)) (pos s) (crc_calc c l (crc s))) false) = part c s).
  { unfold part. tr. destruct (Z.leb_spec (pos s) (tlen s)); [|lia]. destruct (Z.leb_spec (pos s) (tlen s + Z.of_nat (length l))); [exact PART|lia]. }
  split; [|split; [unfold put; rewrite PT; reflexivity|split; reflexivity]].
  split; unfold put; rewrite ?PT; tr; auto; try (unfold HDLC_MAXFRAME_LEN in *; lia).
  - unfold b. rewrite !app_length, FL, skipn_length, Hbl. unfold BUF_LEN. lia.
  - unfold b. apply Forall_app. split; [apply bytes_firstn, Hby|]. apply Forall_app. split; [exact Hl|apply bytes_skipn, Hby].
  - left. split; [lia|]. unfold cur at 1. tr. rewrite CUR, Hc. apply tcrc_app, Hl.
  - unfold frames_of in *. rewrite fold_left_app, Hlog. cbn [fold_left]. unfold cur at 2. tr. rewrite CUR. unfold add_piece. cbn [fst snd].
    destruct (Z.eqb_spec (tlen s + Z.of_nat (length l)) 0); [cbn [length] in *; lia|].
    destruct (Z.eqb_spec (tlen s) 0) as [Z0|Z0].
    + rewrite app_nil_r. unfold cur. rewrite Z0. reflexivity.
    + rewrite rev_app_distr. cbn [rev app]. rewrite rev_involutive. reflexivity.
Qed.
Lemma uop_inv c s B segs log o : tinv c s B segs log -> clean o ->
  exists s' a, do_uop c s o = Ok (s', a) /\ tinv c s' B segs (log ++ a) /\ put c s' = put c s /\ tmax s' = tmax s /\ pos s' = pos s.
Proof.
  intros H C. destruct o as [l|n| |]; cbn [clean do_uop] in *; try contradiction.
  - destruct (frame_inv c s B segs log l H C) as (s' & r & E & I & P & M & M'). rewrite E. cbn [rbind]. do 2 eexists. split; [reflexivity|]. auto.
  - do 2 eexists. split; [reflexivity|]. rewrite app_nil_r. unfold hdlc_tx_flags. destruct (Z.eqb_spec (pos s) 0) as [E|E]; cbn [negb fst]; [|auto].
    destruct H as [Hbl Hby Hlen Hmax Hmax4 Hab Hpos Hfl Htnb Hbits Hsegs Hlog]. split; [|auto]. split; auto. tr. lia.
Qed.
Lemma uops_inv c l : forall s B segs log, tinv c s B segs log -> Forall clean l ->
  exists s' a, do_uops c s l = Ok (s', a) /\ tinv c s' B segs (log ++ a) /\ put c s' = put c s /\ tmax s' = tmax s /\ pos s' = pos s.
Proof.
  induction l as [|o l IH]; intros s B segs log H C; cbn [do_uops].
  - do 2 eexists. split; [reflexivity|]. rewrite app_nil_r. auto.
  - inversion C as [|? ? C1 C2]; subst. destruct (uop_inv c s B segs log o H C1) as (s1 & a1 & E1 & I1 & P1 & M1 & N1). rewrite E1. cbn [rbind].
    destruct (IH s1 B segs _ I1 C2) as (s2 & a2 & E2 & I2 & P2 & M2 & N2). rewrite E2. cbn [rbind]. do 2 eexists. split; [reflexivity|].
    rewrite app_assoc. split; [exact I2|]. split; [congruence|]. split; congruence.
Qed.
Lemma underflow_inv c s h B segs log : tinv c s B segs log -> Forall (Forall clean) h ->
  exists s' h' a, underflow c s h = Ok (s', h', a) /\ tinv c s' B segs (log ++ a) /\ put c s' = put c s /\ (tmax s' = tmax s /\ pos s' = pos s) /\ Forall (Forall clean) h' /\
    (h = [] -> s' = s /\ a = []) /\ (length h' <= length h)%nat /\ (h = [] \/ length h' < length h)%nat.
Proof.
  intros H C. unfold underflow. destruct h as [|l h].
  - do 3 eexists. split; [reflexivity|]. rewrite app_nil_r. auto 10.
  - inversion C as [|? ? C1 C2]; subst. destruct (uops_inv c l s B segs log H C1) as (s1 & a1 & E1 & I1 & P1 & M1 & N1). rewrite E1. cbn [rbind].
    do 3 eexists. split; [reflexivity|]. split; [exact I1|]. split; [exact P1|]. split; [split; [exact M1|exact N1]|]. split; [exact C2|]. cbn [length].
    split; [discriminate|]. split; [lia|right; lia].
Qed.
(** ---- fetching octets ---- *)
Lemma next_octet_ok s t P b : aget (tbuf s) (pos s) = Ok b -> byte b -> holds (oip s) t P -> (t <= 4)%nat -> Z.of_nat (length P) = tnb s -> tnb s < 8 ->
  exists x o' k', next_octet s = Ok (x, tset_bits (tset_frame s (tbuf s) (tlen s) (pos s + 1) (crc s)) o' k' (idle_octet s)) /\ byte x /\ 0 <= k' <= tnb s + 2 /\
    exists R, P ++ stuff t (bits_lsb 8 b) = bits_msb 8 x ++ R /\ Z.of_nat (length R) = k' /\ holds o' (stuff_end t (bits_lsb 8 b)) R.
Proof.
  intros Hb Hbb H T L L8. unfold next_octet. rewrite Hb. cbn [rbind]. cbv zeta.
  destruct (octet_stuff (oip s) (tnb s) b t P Hbb H T ltac:(lia)) as (o' & E & H').
  rewrite E. cbv iota beta zeta. set (Q := P ++ stuff t (bits_lsb 8 b)) in *.
  assert (LQ : (8 <= length Q <= length P + 10)%nat).
  { unfold Q. rewrite app_length. pose proof (stuff_length (bits_lsb 8 b) t) as X. rewrite bits_lsb_length in X. pose proof (stuff_le2 b t T). lia. }
  destruct (holds_split o' _ Q H' ltac:(lia)) as (F1 & F2 & F3).
  assert (EK : tnb s + (Z.of_nat (length (stuff t (bits_lsb 8 b))) - 8) = Z.of_nat (length Q - 8)).
  { unfold Q in LQ |- *. rewrite app_length in LQ |- *. lia. }
  rewrite EK. do 3 eexists. split; [reflexivity|]. split; [exact F2|]. split; [lia|]. exists (skipn 8 Q). rewrite F1, firstn_skipn.
  split; [reflexivity|]. split; [rewrite skipn_length; reflexivity|exact F3].
Qed.
Lemma aget_nth l i : 0 <= i < Z.of_nat (length l) -> aget l i = Ok (nth (Z.to_nat i) l 0).
Proof. intros H. unfold aget, in_bounds. replace (_ && _) with true by lia. reflexivity. Qed.
Lemma aset_ok l i x : 0 <= i < Z.of_nat (length l) -> aset l i x = Ok (upd l (Z.to_nat i) x).
Proof. intros H. unfold aset, in_bounds. replace (_ && _) with true by lia. reflexivity. Qed.
Lemma wire_snoc l b : wire (l ++ [b]) = wire l ++ bits_lsb 8 b.
Proof. rewrite wire_app. cbn [wire flat_map]. rewrite app_nil_r. reflexivity. Qed.
Lemma head_tail n : 0 <= n < 8 -> headf n ++ tailf n = flag.
Proof. intros _. apply firstn_skipn. Qed.
Lemma line_snoc x segs g : line x (segs ++ [g]) = line x segs ++ seg_bits x g.
Proof. unfold line. rewrite flat_map_app. cbn [flat_map]. rewrite app_nil_r. reflexivity. Qed.
Lemma frames_snoc segs g : frames (segs ++ [g]) = frames segs ++ match g with Flag => [] | Fr d => [d] end.
Proof. unfold frames. rewrite flat_map_app. cbn [flat_map]. rewrite app_nil_r. reflexivity. Qed.
Lemma put_0 c s : pos s = 0 -> 0 <= tlen s -> part c s = [] /\ put c s = [].
Proof. intros E H. unfold put, part. rewrite E. destruct (Z.leb_spec 0 (tlen s)); [split; reflexivity|lia]. Qed.
Lemma idle_inv c s B segs log : tinv c s B segs log -> pos s = 0 -> tinv c s (B ++ bits_msb 8 (idle_octet s)) (segs ++ [Flag]) log /\ byte (idle_octet s).
Proof.
  intros [Hbl Hby Hlen Hmax Hmax4 Hab Hpos Hfl Htnb (P & LP & EP & HP & IP) Hsegs Hlog] E.
  destruct (IP E) as (A1 & A2 & A3 & A4). split; [|exact A4]. split; auto.
  - exists P. split; [exact LP|]. split; [|split; [exact HP|exact IP]]. rewrite A3, line_snoc. destruct (put_0 c s E Hlen) as [_ Z0]. rewrite Z0, app_nil_r in *.
    replace ((B ++ P ++ headf (tnb s)) ++ P) with ((B ++ P) ++ headf (tnb s) ++ P) by (rewrite <- !app_assoc; reflexivity).
    rewrite EP. f_equal. cbn [seg_bits]. rewrite A1. apply head_tail. lia.
  - apply Forall_app. split; [exact Hsegs|]. constructor; auto.
  - rewrite frames_snoc. rewrite app_nil_r. exact Hlog.
Qed.
(** One more octet of the frame or its FCS. *)
Lemma next_inv c s B segs log P b part' : 
  length (tbuf s) = Z.to_nat BUF_LEN -> bytes (tbuf s) -> 0 <= tlen s -> tlen s = 0 \/ tlen s <= tmax s -> tmax s <= HDLC_MAXFRAME_LEN -> abort_octets s = 0 ->
  0 <= pos s ->
  (0 <= pos s + 1 <= tlen s /\ crc s = tcrc (tx_crc32 c) (cur s) \/
    0 < tlen s /\ HDLC_MAXFRAME_LEN < pos s + 1 <= HDLC_MAXFRAME_LEN + tx_crc_bytes c /\
      forall i, (i < crcb (tx_crc32 c))%nat -> nth (400 + i) (tbuf s) 0 = nth i (fcs (tx_crc32 c) (cur s)) 0) ->
  flag_octets s <= 0 -> 0 <= tnb s < 8 -> Z.of_nat (length P) = tnb s ->
  B ++ P = line (tx_crc32 c) segs ++ stuff 0 (wire part') -> holds (oip s) (stuff_end 0 (wire part')) P ->
  Forall (fun g => match g with Flag => True | Fr d => bytes d /\ (0 < length d)%nat /\ Z.of_nat (length d) <= tmax s end) segs ->
  frames_of log = frames segs ++ (if tlen s =? 0 then [] else [cur s]) ->
  aget (tbuf s) (pos s) = Ok b -> byte b ->
  (forall o k, part c (tset_bits (tset_frame s (tbuf s) (tlen s) (pos s + 1) (crc s)) o k (idle_octet s)) = part' ++ [b]) ->
  exists x s', next_octet s = Ok (x, s') /\ byte x /\ tinv c s' (B ++ bits_msb 8 x) segs log /\ tmax s' = tmax s /\
    tlen s' = tlen s /\ pos s' = pos s + 1 /\ tnb s' <= tnb s + 2 /\ flag_octets s' = flag_octets s /\ exists y, put c s' = stuff 0 (wire part') ++ y.
Proof.
  intros Hbl Hby Hlen Hmax Hmax4 Hab Hp0 Hpos Hfl Htnb LP EP HP Hsegs Hlog Hb Hbb Hpart.
  destruct (next_octet_ok s _ P b Hb Hbb HP (stuff_end_0 _) LP ltac:(lia)) as (x & o' & k' & E & Bx & K & R & ER & LR & HR).
  exists x. eexists. split; [exact E|]. split; [exact Bx|]. tr.
  assert (PUT : put c (tset_bits (tset_frame s (tbuf s) (tlen s) (pos s + 1) (crc s)) o' k' (idle_octet s)) = stuff 0 (wire part') ++ stuff (stuff_end 0 (wire part')) (bits_lsb 8 b)).
  { unfold put. rewrite Hpart, wire_snoc, stuff_app. reflexivity. }
  split; [|repeat (split; [reflexivity||lia|]); eexists; exact PUT].
  split; tr; auto; try lia.
  exists R. split; [exact LR|]. split; [|split; [|intros; lia]].
  - rewrite PUT, <- app_assoc, <- ER. rewrite !app_assoc. rewrite EP. reflexivity.
  - rewrite Hpart, wire_snoc, stuff_end_app. exact HR.
Qed.
Definition obits (b : Z) : list bool := if 0 <=? b then bits_msb 8 b else [].
Lemma obits_byte b : byte b -> obits b = bits_msb 8 b.
Proof. intros H. unfold obits, byte in *. destruct (Z.leb_spec 0 b); [reflexivity|lia]. Qed.
Definition rem (c : txcfg) (s : txs) : Z :=
  if pos s <=? tlen s then tlen s - pos s + tx_crc_bytes c + 1 else HDLC_MAXFRAME_LEN + tx_crc_bytes c - pos s + 1.
Definition load (c : txcfg) (s : txs) : Z := Z.max 0 (flag_octets s) + 5 * rem c s + tnb s.
Lemma load_pos c s B segs log : tinv c s B segs log -> 0 <= load c s.
Proof.
  intros [_ _ _ _ _ _ Hpos _ Ht _ _ _]. unfold load, rem. assert (0 < tx_crc_bytes c) by (unfold tx_crc_bytes; destruct (tx_crc32 c); lia).
  destruct (Z.leb_spec (pos s) (tlen s)); lia.
Qed.
Lemma end_octet o P n : Z.of_nat (length P) = n -> 0 <= n < 8 -> o mod 2 ^ n = of_bits_msb P ->
  bits_msb 8 (u8 (Z.lor (u32 (Z.shiftl o (8 - n))) (Z.shiftr 0x7E n))) = P ++ headf n /\ byte (u8 (Z.lor (u32 (Z.shiftl o (8 - n))) (Z.shiftr 0x7E n))).
Proof.
  intros L N M. set (x := u8 _). assert (Bx : byte x) by (unfold x, u8, byte; lia). split; [|exact Bx].
  assert (X : x = of_bits_msb (P ++ headf n)).
  { assert (HB : 0 <= Z.shiftr 0x7E n < 2 ^ (8 - n) /\ Z.shiftr 0x7E n = of_bits_msb (headf n) /\ Z.of_nat (length (headf n)) = 8 - n).
    { clear - N. assert (C : n = 0 \/ n = 1 \/ n = 2 \/ n = 3 \/ n = 4 \/ n = 5 \/ n = 6 \/ n = 7) by lia.
      decompose [or] C; clear C; subst; clear; (split; [split; vm_compute; congruence|split; vm_compute; reflexivity]). }
    destruct HB as (B1 & B2 & B3). rewrite of_bits_msb_app, <- B2, B3, <- M.
    assert (E : u32 (Z.shiftl o (8 - n)) = (o mod 2 ^ (24 + n)) * 2 ^ (8 - n)).
    { rewrite Z.shiftl_mul_pow2 by lia. unfold u32. replace 4294967296 with (2 ^ (24 + n) * 2 ^ (8 - n)) by (rewrite <- Z.pow_add_r by lia; replace (24 + n + (8 - n)) with 32 by lia; reflexivity).
      apply Zmult_mod_distr_r. }
    unfold x. rewrite E, Z.lor_comm, lor_disj by lia. unfold u8.
    assert (Q : (o mod 2 ^ (24 + n) * 2 ^ (8 - n)) mod 256 = (o mod 2 ^ n) * 2 ^ (8 - n)).
    { replace 256 with (2 ^ n * 2 ^ (8 - n)) by (rewrite <- Z.pow_add_r by lia; replace (n + (8 - n)) with 8 by lia; reflexivity).
      rewrite Zmult_mod_distr_r. f_equal. replace (2 ^ (24 + n)) with (2 ^ n * 2 ^ 24) by (rewrite <- Z.pow_add_r by lia; f_equal; lia).
      assert (0 < 2 ^ n) by (apply Z.pow_pos_nonneg; lia). rewrite Z.rem_mul_r by lia.
      rewrite Z.mul_comm, Z.mod_add by lia. apply Z.mod_mod. lia. }
    set (w := o mod 2 ^ (24 + n) * 2 ^ (8 - n)) in *. rewrite <- Zplus_mod_idemp_r, Q.
    assert (R : 0 <= o mod 2 ^ n < 2 ^ n) by (apply Z.mod_pos_bound, Z.pow_pos_nonneg; lia).
    assert (PQ : 2 ^ n * 2 ^ (8 - n) = 256) by (rewrite <- Z.pow_add_r by lia; replace (n + (8 - n)) with 8 by lia; reflexivity).
    rewrite Z.mod_small; [lia|]. clear - R PQ B1. set (u := 2 ^ n) in *. set (v := 2 ^ (8 - n)) in *. set (z := o mod u) in *. clearbody u v z. nia. }
  assert (L8 : length (P ++ headf n) = 8%nat) by (unfold headf; rewrite app_length, firstn_length; cbn [flag length]; lia).
  rewrite X. pose proof (bits_msb_of_bits (P ++ headf n)) as Y. rewrite L8 in Y. exact Y.
Qed.
Lemma new_idle n : 0 <= n < 8 ->
  bits_msb 8 (Z.land (Z.shiftr 0x7E7E n) 0xFF) = tailf n ++ headf n /\ byte (Z.land (Z.shiftr 0x7E7E n) 0xFF) /\
  holds (Z.shiftr (Z.land (Z.shiftr 0x7E7E n) 0xFF) (8 - n)) 0 (tailf n) /\ Z.of_nat (length (tailf n)) = n.
Proof.
  intros N. assert (C : n = 0 \/ n = 1 \/ n = 2 \/ n = 3 \/ n = 4 \/ n = 5 \/ n = 6 \/ n = 7) by lia.
  decompose [or] C; subst; (split; [reflexivity|]); (split; [split; vm_compute; congruence|]); (split; [|reflexivity]);
    split; vm_compute; (split; congruence) || reflexivity.
Qed.
Lemma fcs_octets c d (b : list Z) k : (length b = Z.to_nat BUF_LEN) -> bytes b -> k = Z.lxor (tcrc (tx_crc32 c) d) 0xFFFFFFFF ->
  exists b', (do b <- aset b HDLC_MAXFRAME_LEN (u8 k);
      do b <- aset b (HDLC_MAXFRAME_LEN + 1) (u8 (Z.shiftr k 8));
      (if tx_crc_bytes c =? 4 then
                 do b <- aset b (HDLC_MAXFRAME_LEN + 2) (u8 (Z.shiftr k 16));
                 aset b (HDLC_MAXFRAME_LEN + 3) (u8 (Z.shiftr k 24))
               else Ok b)) = Ok b' /\ length b' = Z.to_nat BUF_LEN /\ bytes b' /\
    (forall i, (i < crcb (tx_crc32 c))%nat -> nth (400 + i) b' 0 = nth i (fcs (tx_crc32 c) d) 0) /\
    (forall n, (n <= 400)%nat -> firstn n b' = firstn n b).
Proof.
  intros Hl Hb Hk. pose proof (tcrc_range (tx_crc32 c) d) as R.
  assert (K : k = 0xFFFFFFFF - tcrc (tx_crc32 c) d).
  { rewrite Hk. change 0xFFFFFFFF with (Z.ones (Z.of_nat 32)). apply ones_sub_lxor. change (2 ^ Z.of_nat 32) with (2 ^ 32). destruct (tx_crc32 c); lia. }
  unfold HDLC_MAXFRAME_LEN. rewrite !Z.shiftr_div_pow2 by lia. change (2 ^ 8) with 256. change (2 ^ 16) with 65536. change (2 ^ 24) with 16777216.
  assert (UB : forall x, byte (u8 x)) by (intros x; unfold u8, byte; lia).
  rewrite aset_ok by (rewrite Hl; cbn; lia). cbn [rbind]. rewrite aset_ok by (rewrite upd_length, Hl; cbn; lia). cbn [rbind].
  unfold tx_crc_bytes, crcb, fcs, tcrc in *. destruct (tx_crc32 c); cbn [Z.eqb Pos.eqb].
  - rewrite aset_ok by (rewrite !upd_length, Hl; cbn; lia). cbn [rbind]. rewrite aset_ok by (rewrite !upd_length, Hl; cbn; lia).
    eexists. split; [reflexivity|]. split; [rewrite !upd_length; exact Hl|]. split; [repeat apply bytes_upd; auto|]. change (2 ^ 32) with 4294967296 in R. split.
    + intros i Hi. unfold fcs32. cbv zeta. set (v := crc32 d 0xFFFFFFFF) in *. clearbody v.
      change (Z.to_nat 400) with 400%nat. change (Z.to_nat (400 + 1)) with 401%nat. change (Z.to_nat (400 + 2)) with 402%nat. change (Z.to_nat (400 + 3)) with 403%nat.
      rewrite K. unfold u8. assert (LL : length b = 404%nat) by (rewrite Hl; reflexivity).
      do 4 (destruct i as [|i]; [cbn [nth]; change (400 + 0)%nat with 400%nat; change (400 + 1)%nat with 401%nat; change (400 + 2)%nat with 402%nat; change (400 + 3)%nat with 403%nat;
        repeat first [rewrite nth_upd_same by (rewrite ?upd_length; lia)|rewrite nth_upd_other by lia]; try reflexivity; lia|]). lia.
    + intros n Hn. rewrite !firstn_upd by lia. reflexivity.
  - eexists. split; [reflexivity|]. split; [rewrite !upd_length; exact Hl|]. split; [repeat apply bytes_upd; auto|]. change (2 ^ 16) with 65536 in R. split.
    + intros i Hi. unfold fcs16. cbv zeta. set (v := crc16 d 0xFFFF) in *. clearbody v.
      change (Z.to_nat 400) with 400%nat. change (Z.to_nat (400 + 1)) with 401%nat.
      rewrite K. unfold u8. assert (LL : length b = 404%nat) by (rewrite Hl; reflexivity).
      do 2 (destruct i as [|i]; [cbn [nth]; change (400 + 0)%nat with 400%nat; change (400 + 1)%nat with 401%nat;
        repeat first [rewrite nth_upd_same by (rewrite ?upd_length; lia)|rewrite nth_upd_other by lia]; lia|]). lia.
    + intros n Hn. rewrite !firstn_upd by lia. reflexivity.
Qed.
Definition progress (c : txcfg) (s s' : txs) (h h' : list (list uop)) : Prop := (length h' < length h)%nat \/ tlen s' = 0 \/ load c s' < load c s.
Lemma get_inv c s h B segs log : tinv c s B segs log -> Forall (Forall clean) h ->
  exists b s' h' a segs', hdlc_tx_get_byte c s h = Ok (b, s', h', a) /\ tinv c s' (B ++ obits b) segs' (log ++ a) /\ Forall (Forall clean) h' /\
    (exists y, line (tx_crc32 c) segs' ++ put c s' = (line (tx_crc32 c) segs ++ put c s) ++ y) /\ (byte b \/ b = SIG_STATUS_END_OF_DATA) /\ tmax s' = tmax s /\
    (length h' <= length h)%nat /\ (tlen s <> 0 -> progress c s s' h h').
Proof.
  intros H C. pose proof H as [Hbl Hby Hlen Hmax Hmax4 Hab Hpos Hfl Htnb Hbits Hsegs Hlog]. unfold hdlc_tx_get_byte.
  destruct (Z.ltb_spec 0 (flag_octets s)) as [F0|F0].
  { (* flags *)
    assert (P0 : pos s = 0). { destruct (Z.eq_dec (pos s) 0); [auto|]. specialize (Hfl ltac:(unfold HDLC_MAXFRAME_LEN in *; lia)). lia. }
    assert (G : exists s1 h1 a1, (let s0 := tset_flags s (flag_octets s - 1) (rfu s) in
       if (flag_octets s0 <=? 0) && rfu s0 then let s0 := tset_flags s0 (flag_octets s0) false in if tlen s0 =? 0 then underflow c s0 h else Ok (s0, h, [])
       else Ok (s0, h, [])) = Ok (s1, h1, a1) /\ tinv c s1 B segs (log ++ a1) /\ put c s1 = put c s /\ pos s1 = 0 /\ tmax s1 = tmax s /\ Forall (Forall clean) h1 /\
       (length h1 <= length h)%nat /\ (tlen s <> 0 -> progress c s s1 h h1)).
    { cbv zeta. tr.
      assert (HF : forall r, tinv c (tset_flags s (flag_octets s - 1) r) B segs log) by (intros r; split; auto; tr; lia).
      assert (PR : forall r, progress c s (tset_flags s (flag_octets s - 1) r) h h) by (intros r; right; right; unfold load, rem; tr; lia).
      destruct ((flag_octets s - 1 <=? 0) && rfu s); [destruct (Z.eqb_spec (tlen s) 0) as [T0|T0]|].
      - destruct (underflow_inv c _ h B segs log (HF false) C) as (s1 & h1 & a1 & E1 & I1 & P1 & (M1 & N1) & C1 & _ & L1 & _).
        exists s1, h1, a1. split; [exact E1|]. split; [exact I1|]. split; [exact P1|]. split; [rewrite N1; exact P0|]. split; [exact M1|]. split; [exact C1|].
        split; [exact L1|]. contradiction.
      - do 3 eexists. split; [reflexivity|]. rewrite app_nil_r. split; [apply HF|]. split; [reflexivity|]. split; [exact P0|]. split; [reflexivity|].
        split; [exact C|]. split; [lia|]. intros _. apply PR.
      - do 3 eexists. split; [reflexivity|]. rewrite app_nil_r. split; [apply HF|]. split; [reflexivity|]. split; [exact P0|]. split; [reflexivity|].
        split; [exact C|]. split; [lia|]. intros _. apply PR. }
    destruct G as (s1 & h1 & a1 & E1 & I1 & P1 & Q1 & M1 & C1 & L1 & PR). cbv zeta in *. rewrite E1. cbn [rbind]. rewrite (ti_abort _ _ _ _ _ I1). cbn [Z.eqb negb].
    destruct (idle_inv c s1 B segs _ I1 Q1) as [I2 B2]. exists (idle_octet s1), s1, h1, a1, (segs ++ [Flag]). rewrite (obits_byte _ B2).
    split; [reflexivity|]. split; [exact I2|]. split; [exact C1|]. split; [|split; [auto|split; [exact M1|split; [exact L1|exact PR]]]].
    exists flag. rewrite P1, line_snoc. rewrite (proj2 (put_0 c s P0 Hlen)). rewrite !app_nil_r. reflexivity. }
  destruct Hbits as (P & LP & EP & HP & IP).
  destruct (Z.eqb_spec (tlen s) 0) as [T0|T0]; cbn [negb].
  { assert (P0 : pos s = 0) by (destruct Hpos as [[? _]|?]; lia).
    destruct (tx_end s).
    - exists SIG_STATUS_END_OF_DATA, (tset_end s false), h, [], segs. cbn [obits SIG_STATUS_END_OF_DATA Z.leb Z.compare]. rewrite !app_nil_r.
      split; [reflexivity|]. split; [destruct H; split; auto|]. split; [exact C|]. split; [exists []; rewrite app_nil_r; reflexivity|]. split; [auto|]. split; [reflexivity|]. split; [lia|]. intros; contradiction.
    - destruct (idle_inv c s B segs _ H P0) as [I2 B2]. exists (idle_octet s), s, h, [], (segs ++ [Flag]). rewrite (obits_byte _ B2), app_nil_r.
      split; [reflexivity|]. split; [exact I2|]. split; [exact C|]. split; [|split; [auto|split; [reflexivity|split; [lia|intros; contradiction]]]].
      exists flag. rewrite line_snoc, (proj2 (put_0 c s P0 Hlen)), !app_nil_r. reflexivity. }
  clear Hlog. pose proof (ti_log _ _ _ _ _ H) as Hlog. assert (TM : tlen s <= 400) by (unfold HDLC_MAXFRAME_LEN in *; lia).
  destruct (Z.leb_spec 8 (tnb s)) as [T8|T8].
  { (* a whole octet is pending *)
    destruct (holds_split _ _ P HP ltac:(lia)) as (F1 & F2 & F3).
    replace (Z.of_nat (length P - 8)) with (tnb s - 8) in F1, F2 by lia.
    do 3 eexists. exists [], segs. split; [reflexivity|]. rewrite (obits_byte _ F2), F1, app_nil_r.
    split; [|split; [exact C|split; [exists []; rewrite app_nil_r; reflexivity|split; [auto|split; [reflexivity|split; [lia|]]]]]].
    - split; tr; auto; try lia. exists (skipn 8 P). split; [rewrite skipn_length; lia|]. split; [rewrite <- app_assoc, firstn_skipn; exact EP|].
      split; [exact F3|]. intros Z0. destruct (IP Z0) as (_ & X & _). lia.
    - intros _. right. right. unfold load, rem. tr. lia. }
  assert (CB : 0 < tx_crc_bytes c <= 4) by (unfold tx_crc_bytes; destruct (tx_crc32 c); lia).
  destruct (Z.leb_spec (tlen s) (pos s)) as [PT|PT]; cbn [andb].
  2:{ (* data *)
    destruct Hpos as [[Hp Hc]|(A & A' & _)]; [|unfold HDLC_MAXFRAME_LEN in *; lia].
    assert (PA : part c s = firstn (Z.to_nat (pos s)) (tbuf s)) by (unfold part; destruct (Z.leb_spec (pos s) (tlen s)); [reflexivity|lia]).
    destruct (next_inv c s B segs log P (nth (Z.to_nat (pos s)) (tbuf s) 0) (part c s)) as (x & s' & E & Bx & I & M & TL & PS & TB & FO & (y & Y)); auto; try lia.
    - apply aget_nth. rewrite Hbl. change (Z.of_nat (Z.to_nat BUF_LEN)) with 404. lia.
    - apply nth_byte, Hby.
    - intros o k. rewrite PA. unfold part. tr. destruct (Z.leb_spec (pos s + 1) (tlen s)); [|lia].
      replace (Z.to_nat (pos s + 1)) with (S (Z.to_nat (pos s))) by lia. apply firstn_S. rewrite Hbl. change (Z.to_nat BUF_LEN) with 404%nat. lia.
    - rewrite E. cbn [rbind]. exists x, s', h, [], segs. rewrite app_nil_r, (obits_byte x Bx). split; [reflexivity|]. split; [exact I|]. split; [exact C|].
      split; [exists y; rewrite Y; unfold put; rewrite app_assoc; reflexivity|]. split; [auto|]. split; [exact M|]. split; [lia|].
      intros _. right. right. unfold load, rem. rewrite TL, PS, FO. destruct (Z.leb_spec (pos s) (tlen s)); [|lia]. destruct (Z.leb_spec (pos s + 1) (tlen s)); lia. }
  destruct (Z.eqb_spec (pos s) (tlen s)) as [PE|PE].
  { (* the first FCS octet *)
    destruct Hpos as [[Hp Hc]|(A & A' & _)]; [|unfold HDLC_MAXFRAME_LEN in *; lia]. cbv zeta.
    destruct (fcs_octets c (cur s) (tbuf s) _ Hbl Hby eq_refl) as (b' & EB & Lb & Bb & NB & FB). rewrite <- Hc in EB.
    set (k := Z.lxor (crc s) 0xFFFFFFFF) in *.
    destruct (aset (tbuf s) HDLC_MAXFRAME_LEN (u8 k)) as [b1|]; cbn [rbind] in EB |- *; [|discriminate].
    destruct (aset b1 (HDLC_MAXFRAME_LEN + 1) (u8 (Z.shiftr k 8))) as [b2|]; cbn [rbind] in EB |- *; [|discriminate].
    rewrite EB. cbn [rbind]. set (s1 := tset_frame s b' (tlen s) HDLC_MAXFRAME_LEN k).
    assert (CU : cur s1 = cur s) by (unfold cur, s1; tr; apply FB; lia).
    assert (PA : part c s = cur s) by (unfold part, cur; rewrite PE; destruct (Z.leb_spec (tlen s) (tlen s)); [reflexivity|lia]).
    destruct (next_inv c s1 B segs log P (nth 0 (fcs (tx_crc32 c) (cur s)) 0) (part c s)) as (x & s' & E & Bx & I & M & TL & PS & TB & FO & (y & Y)); auto; try (unfold s1; tr; unfold HDLC_MAXFRAME_LEN in *; lia).
    - unfold s1; tr; unfold HDLC_MAXFRAME_LEN in *. right. split; [lia|]. split; [lia|]. fold s1. rewrite CU. exact NB.
    - rewrite CU. unfold s1. tr. exact Hlog.
    - unfold s1. tr. rewrite aget_nth by (rewrite Lb; change (Z.of_nat (Z.to_nat BUF_LEN)) with 404; unfold HDLC_MAXFRAME_LEN; lia). f_equal. rewrite <- (NB 0%nat); [reflexivity|]. unfold crcb. destruct (tx_crc32 c); lia.
    - apply nth_byte, fcs_bytes.
    - intros o k'. rewrite PA.
      assert (G : forall z, pos z = 401 -> tlen z = tlen s -> tbuf z = b' -> part c z = cur s ++ [nth 0 (fcs (tx_crc32 c) (cur s)) 0]).
      { intros z Z1 Z2 Z3. unfold part. rewrite Z1, Z2. destruct (Z.leb_spec 401 (tlen s)); [lia|].
        assert (CZ : cur z = cur s) by (unfold cur; rewrite Z2, Z3; apply FB; lia). rewrite CZ. f_equal. unfold HDLC_MAXFRAME_LEN. change (Z.to_nat (401 - 400)) with 1%nat.
        pose proof (fcs_length (tx_crc32 c) (cur s)) as FL. unfold crcb in FL. destruct (fcs (tx_crc32 c) (cur s)) as [|f0 fl]; [destruct (tx_crc32 c); discriminate|reflexivity]. }
      apply G; reflexivity.
    - rewrite E. cbn [rbind]. exists x, s', h, [], segs. rewrite app_nil_r, (obits_byte x Bx). split; [reflexivity|]. split; [exact I|]. split; [exact C|].
      split; [exists y; rewrite Y; unfold put; rewrite app_assoc; reflexivity|]. split; [auto|]. split; [exact M|]. split; [lia|].
      intros _. right. right. unfold load, rem. rewrite TL, PS, FO. unfold s1 in *. tr. unfold HDLC_MAXFRAME_LEN in *.
      destruct (Z.leb_spec (pos s) (tlen s)); [|lia]. destruct (Z.leb_spec (400 + 1) (tlen s)); lia. }
  destruct Hpos as [[Hp Hc]|(A & A' & NB)]; [lia|].
  assert (PA : part c s = cur s ++ firstn (Z.to_nat (pos s - HDLC_MAXFRAME_LEN)) (fcs (tx_crc32 c) (cur s))) by (unfold part; destruct (Z.leb_spec (pos s) (tlen s)); [lia|reflexivity]).
  destruct (Z.eqb_spec (pos s) (HDLC_MAXFRAME_LEN + tx_crc_bytes c)) as [PF|PF].
  { (* the closing flag *)
    cbv zeta. destruct (end_octet (oip s) P (tnb s) LP ltac:(lia) ltac:(rewrite <- LP; apply (ho_bits _ _ _ HP))) as (F1 & F2).
    destruct (new_idle (tnb s) ltac:(lia)) as (G1 & G2 & G3 & G4).
    assert (PA' : part c s = cur s ++ fcs (tx_crc32 c) (cur s)).
    { rewrite PA, PF. f_equal. apply firstn_all2. rewrite fcs_length, crcs. lia. }
    match goal with |- context [underflow c ?y h] => set (s1 := y) end.
    assert (I1 : tinv c s1 (B ++ P ++ headf (tnb s)) (segs ++ [Fr (cur s)]) log).
    { unfold s1. split; tr; auto; try lia.
      - left. split; [lia|]. unfold cur. tr. symmetry. apply tcrc_nil.
      - exists (tailf (tnb s)). split; [exact G4|]. split; [|split; [exact G3|auto]].
        unfold put, part. tr. cbn [Z.leb Z.compare Z.to_nat firstn wire flat_map stuff].
        rewrite app_nil_r, line_snoc. cbn [seg_bits]. unfold frame_bits. rewrite <- PA'. fold (put c s). rewrite (app_assoc _ (put c s)), <- EP.
        rewrite <- !app_assoc. rewrite head_tail by lia. reflexivity.
      - apply Forall_app. split; [exact Hsegs|]. constructor; [|constructor]. assert (LC : length (cur s) = Z.to_nat (tlen s)).
        { unfold cur. rewrite firstn_length, Hbl. change (Z.to_nat BUF_LEN) with 404%nat. lia. }
        rewrite LC. split; [apply bytes_firstn, Hby|]. lia.
      - rewrite frames_snoc, app_nil_r, Hlog. destruct (Z.eqb_spec (tlen s) 0); [lia|reflexivity]. }
    destruct (underflow_inv c s1 h _ _ log I1 C) as (s2 & h2 & a2 & E2 & I2 & P2 & (M2 & N2) & C2 & K2 & L2 & LL2). rewrite E2. cbn [rbind].
    do 5 eexists. split; [reflexivity|]. rewrite (obits_byte _ F2), F1.
    assert (Q2 : pos s2 = 0) by (rewrite N2; reflexivity).
    split; [|split; [exact C2|split; [|split; [auto|split; [|split; [exact L2|]]]]]].
    - destruct ((tlen s2 =? 0) && (flag_octets s2 <? 2)); [|exact I2]. destruct I2. split; auto. tr. lia.
    - exists flag. assert (PUT : forall z, put c (if (tlen s2 =? 0) && (flag_octets s2 <? 2) then tset_flags s2 2 z else s2) = []).
      { intros z. destruct (put_0 c s2 Q2 (ti_len _ _ _ _ _ I2)) as [_ X]. destruct (_ && _); exact X. }
      rewrite PUT, line_snoc, !app_nil_r. cbn [seg_bits]. unfold frame_bits. rewrite <- PA', <- !app_assoc. reflexivity.
    - destruct (_ && _); exact M2.
    - intros _. destruct LL2 as [->|LT]; [|left; exact LT]. destruct (K2 eq_refl) as [-> _]. right. left. destruct (_ && _); reflexivity. }
  (* the rest of the FCS *)
  set (i := Z.to_nat (pos s - 400)). assert (II : (i < crcb (tx_crc32 c))%nat) by (pose proof (crcs c); unfold i, HDLC_MAXFRAME_LEN in *; lia).
  unfold HDLC_MAXFRAME_LEN in *.
  destruct (next_inv c s B segs log P (nth i (fcs (tx_crc32 c) (cur s)) 0) (part c s)) as (x & s' & E & Bx & I & M & TL & PS & TB & FO & (y & Y)); auto; try lia.
  - right. split; [lia|]. split; [unfold HDLC_MAXFRAME_LEN; lia|exact NB].
  - rewrite aget_nth by (rewrite Hbl; change (Z.of_nat (Z.to_nat BUF_LEN)) with 404; lia). f_equal. rewrite <- NB by exact II. f_equal. unfold i. lia.
  - apply nth_byte, fcs_bytes.
  - intros o k. rewrite PA. unfold part at 1. tr. destruct (Z.leb_spec (pos s + 1) (tlen s)); [lia|]. unfold cur at 1 2. tr. fold (cur s). unfold HDLC_MAXFRAME_LEN.
    fold i. replace (Z.to_nat (pos s + 1 - 400)) with (S i) by lia. rewrite firstn_S by (rewrite fcs_length; exact II). rewrite app_assoc. reflexivity.
  - rewrite E. cbn [rbind]. exists x, s', h, [], segs. rewrite app_nil_r, (obits_byte x Bx). split; [reflexivity|]. split; [exact I|]. split; [exact C|].
    split; [exists y; rewrite Y; unfold put; rewrite app_assoc; reflexivity|]. split; [auto|]. split; [exact M|]. split; [lia|].
    intros _. right. right. unfold load, rem. rewrite TL, PS, FO. destruct (Z.leb_spec (pos s) (tlen s)); [lia|]. destruct (Z.leb_spec (pos s + 1) (tlen s)); lia.
Qed.

(** ---- whole runs ---- *)
Definition clean_op (o : op) : Prop := match o with OGet => True | OCall u => clean u end.
Lemma sent_cons b o : sent (b :: o) = obits b ++ sent o.
Proof. unfold sent, octets, obits. cbn [filter]. destruct (0 <=? b); reflexivity. Qed.
Lemma sent_app a b : sent (a ++ b) = sent a ++ sent b.
Proof. unfold sent, octets. rewrite filter_app, flat_map_app. reflexivity. Qed.
Lemma exec_inv c l : forall s h B segs log, tinv c s B segs log -> Forall (Forall clean) h -> Forall clean_op l ->
  exists s' h' o a segs', tx_exec c s h l = Ok (s', h', o, a) /\ tinv c s' (B ++ sent o) segs' (log ++ a) /\ Forall (Forall clean) h' /\
    (exists y, line (tx_crc32 c) segs' ++ put c s' = (line (tx_crc32 c) segs ++ put c s) ++ y) /\ Forall (fun b => byte b \/ b = SIG_STATUS_END_OF_DATA) o /\ tmax s' = tmax s.
Proof.
  induction l as [|x l IH]; intros s h B segs log H C L; cbn [tx_exec].
  - do 5 eexists. split; [reflexivity|]. cbn [sent octets filter flat_map]. rewrite !app_nil_r. split; [exact H|]. split; [exact C|].
    split; [exists []; rewrite app_nil_r; reflexivity|]. split; [constructor|reflexivity].
  - inversion L as [|? ? L1 L2]; subst. destruct x as [|u]; cbn [clean_op] in L1.
    + destruct (get_inv c s h B segs log H C) as (b & s1 & h1 & a1 & g1 & E1 & I1 & C1 & (y1 & Y1) & B1 & M1 & _ & _). rewrite E1. cbn [rbind].
      destruct (IH s1 h1 _ _ _ I1 C1 L2) as (s2 & h2 & o2 & a2 & g2 & E2 & I2 & C2 & (y2 & Y2) & B2 & M2). rewrite E2. cbn [rbind].
      do 5 eexists. split; [reflexivity|]. rewrite sent_cons, !app_assoc. split; [exact I2|]. split; [exact C2|].
      split; [exists (y1 ++ y2); rewrite Y2, Y1, !app_assoc; reflexivity|]. split; [constructor; auto|congruence].
    + destruct (uop_inv c s B segs log u H L1) as (s1 & a1 & E1 & I1 & P1 & M1 & N1). rewrite E1. cbn [rbind].
      destruct (IH s1 h _ _ _ I1 C L2) as (s2 & h2 & o2 & a2 & g2 & E2 & I2 & C2 & (y2 & Y2) & B2 & M2). rewrite E2. cbn [rbind].
      do 5 eexists. split; [reflexivity|]. rewrite !app_assoc. split; [exact I2|]. split; [exact C2|].
      split; [exists y2; rewrite Y2, P1; reflexivity|]. split; [exact B2|congruence].
Qed.
Lemma init_inv c m : tinv c (hdlc_tx_set_max_frame_len (hdlc_tx_init c) m) [] [] [].
Proof.
  unfold hdlc_tx_set_max_frame_len. unfold hdlc_tx_init. split; tr; auto; try lia.
  - unfold zero_buf. apply Forall_forall. intros x I. apply repeat_spec in I. subst. unfold byte. lia.
  - unfold HDLC_MAXFRAME_LEN. destruct (Z.leb_spec m 400); lia.
  - left. split; [lia|]. symmetry. apply tcrc_nil.
  - exists []. split; [reflexivity|]. split; [reflexivity|]. split; [split; [vm_compute; split; congruence|reflexivity|reflexivity]|].
    intros _. split; [reflexivity|]. split; [lia|]. split; [reflexivity|]. unfold byte. lia.
Qed.

(** ---- the receiver's view ---- *)
Lemma no_flag u X Y : (8 <= length u)%nat -> flag ++ X = stuff 0 u ++ Y -> False.
Proof.
  intros L E. unfold flag in E. cbn [app] in E.
  destruct u as [|a1 u]; [cbn in L; lia|]. destruct a1; cbn [stuff Nat.eqb app] in E; [discriminate|]. injection E as E.
  do 4 (destruct u as [|a1 u]; [cbn in L; lia|]; destruct a1; cbn [stuff Nat.eqb app] in E; [|discriminate]; injection E as E).
  destruct u as [|a1 u]; [cbn in L; lia|]; destruct a1; cbn [stuff Nat.eqb app] in E; discriminate.
Qed.
Lemma put_len c s : put c s <> [] -> (8 <= length (wire (part c s)))%nat.
Proof. unfold put. intros H. rewrite wire_length. destruct (part c s); [contradiction H; reflexivity|cbn [length]; lia]. Qed.
Lemma lead_flags x n : forall segs X u, concat (repeat flag n) ++ X = line x segs ++ stuff 0 (wire u) -> exists g, segs = repeat Flag n ++ g.
Proof.
  induction n as [|n IH]; intros segs X u E; [exists segs; reflexivity|]. cbn [repeat concat] in E. rewrite <- app_assoc in E.
  destruct segs as [|[|d] segs].
  - exfalso. destruct u as [|a u]; [discriminate E|]. apply (no_flag (wire (a :: u)) (concat (repeat flag n) ++ X) []); [rewrite wire_length; cbn [length]; lia|].
    rewrite E. cbn [line flat_map app]. rewrite app_nil_r. reflexivity.
  - cbn [line flat_map seg_bits] in E. rewrite <- app_assoc in E. apply app_inv_head in E. destruct (IH _ _ _ E) as (g & ->). exists g. reflexivity.
  - exfalso. cbn [line flat_map seg_bits] in E. unfold frame_bits in E. rewrite <- !app_assoc in E. eapply no_flag; [|exact E].
    rewrite wire_length, app_length, fcs_length. unfold crcb. destruct x; lia.
Qed.
Lemma line_flags x n g : line x (repeat Flag n ++ g) = concat (repeat flag n) ++ line x g.
Proof. unfold line. rewrite flat_map_app. f_equal. induction n as [|n IH]; [reflexivity|]. cbn [repeat flat_map seg_bits concat]. rewrite IH. reflexivity. Qed.
Lemma frames_flags n g : frames (repeat Flag n ++ g) = frames g.
Proof. induction n as [|n IH]; [reflexivity|]. cbn [repeat app frames flat_map]. exact IH. Qed.
Lemma rx_bits_prefix c s a b s' e : rx_bits c s (a ++ b) = Ok (s', e) -> exists s1 e1 e2, rx_bits c s a = Ok (s1, e1) /\ e = e1 ++ e2.
Proof.
  rewrite rx_bits_app. destruct (rx_bits c s a) as [[s1 e1]|]; cbn [rbind]; [|discriminate]. destruct (rx_bits c s1 b) as [[s2 e2]|]; cbn [rbind]; [|discriminate].
  intros H. injection H as _ <-. eauto.
Qed.
Lemma seg_ok_tx x mx m segs : Forall (fun g => match g with Flag => True | Fr d => bytes d /\ (0 < length d)%nat /\ Z.of_nat (length d) <= m end) segs ->
  m + Z.of_nat (crcb x) <= mx -> Forall (seg_ok x mx) segs.
Proof. intros H L. eapply Forall_impl; [|exact H]. intros [|d]; cbn [seg_ok]; [auto|]. intros (A & B & D). split; [exact A|]. split; [exact B|]. lia. Qed.
Lemma part_len c s B segs log : tinv c s B segs log -> Z.of_nat (length (part c s)) <= Z.max 0 (tmax s) + Z.of_nat (crcb (tx_crc32 c)).
Proof.
  intros [Hbl _ Hlen Hmax _ _ Hpos _ _ _ _ _]. unfold part. destruct (Z.leb_spec (pos s) (tlen s)).
  - rewrite firstn_length. lia.
  - rewrite app_length, firstn_length, fcs_length. unfold cur. rewrite firstn_length. lia.
Qed.
(** Whatever was sent so far gives the receiver a prefix of the frames queued, all good. *)
Lemma deliver tc rc r s B segs log X : tinv tc s B segs log -> tx_crc32 tc = rx_crc32 rc -> fresh r -> 1 <= framing_ok_threshold rc ->
  Z.max 0 (tmax s) + Z.of_nat (crcb (rx_crc32 rc)) <= max_len r -> B = concat (repeat flag (Z.to_nat (framing_ok_threshold rc))) ++ X ->
  exists r' e, rx_bits rc r B = Ok (r', e) /\ prefix (fevents e) (goods (frames segs)).
Proof.
  intros H EC F T M EB. destruct (ti_bits _ _ _ _ _ H) as (P & _ & EP & _ & _).
  rewrite EB, <- app_assoc in EP. unfold put in EP. destruct (lead_flags _ _ _ _ _ EP) as (g & G).
  assert (SG : Forall (seg_ok (rx_crc32 rc) (max_len r)) g).
  { pose proof (ti_segs _ _ _ _ _ H) as S. rewrite G in S. apply Forall_app in S as [_ S]. eapply seg_ok_tx; [exact S|]. lia. }
  destruct (feed_fresh rc r g F T SG) as (r1 & e1 & E1 & V1 & I1 & M1).
  pose proof (part_len _ _ _ _ _ H) as PL. rewrite EC in PL.
  destruct (feed_stuffed rc (wire (part tc s)) r1 [] [] 0 I1 ltac:(lia)) as (r2 & d2 & p2 & E2 & _).
  { rewrite wire_length. cbn [length]. lia. }
  rewrite G, EC, line_flags in EP. rewrite app_assoc, <- EB in EP.
  assert (ALL : rx_bits rc r (B ++ P) = Ok (r2, e1 ++ [])).
  { rewrite EP, rx_bits_app, E1. cbn [rbind]. rewrite E2. reflexivity. }
  destruct (rx_bits_prefix _ _ _ _ _ _ ALL) as (r3 & e3 & e4 & E3 & X3). exists r3, e3. split; [exact E3|].
  exists (fevents e4). rewrite G, frames_flags, <- V1, <- fevents_app, <- X3, app_nil_r. reflexivity.
Qed.
Lemma bits_inv rc l : forall r, rx_inv rc r -> raw_ok (raw r) -> 1 <= framing_ok_threshold rc ->
  exists r' e, rx_bits rc r l = Ok (r', e) /\ rx_inv rc r' /\ raw_ok (raw r').
Proof.
  induction l as [|b l IH]; intros r H R T; cbn [rx_bits].
  - do 2 eexists. split; [reflexivity|]. auto.
  - destruct (put_bit_inv rc r b H R T) as (r1 & e1 & E1 & I1 & R1 & _ & _). rewrite E1. cbn [rbind].
    destruct (raw_next _ b R) as (X1 & _). rewrite <- R1 in X1.
    destruct (IH r1 I1 X1 T) as (r2 & e2 & E2 & I2 & R2). rewrite E2. cbn [rbind]. eauto.
Qed.
Lemma exec_octets rc o : forall r, rx_inv rc r -> raw_ok (raw r) -> 1 <= framing_ok_threshold rc -> Forall (fun b => byte b \/ b = SIG_STATUS_END_OF_DATA) o ->
  rx_exec rc r (map RByte (octets o)) = rx_bits rc r (sent o).
Proof.
  induction o as [|b o IH]; intros r H R T F; [reflexivity|]. inversion F as [|? ? F1 F2]; subst. rewrite sent_cons. unfold obits, octets in *. cbn [filter].
  destruct (Z.leb_spec 0 b) as [L|L]; [|apply IH; auto].
  assert (Hb : byte b) by (destruct F1 as [?|E]; [auto|]; unfold SIG_STATUS_END_OF_DATA in E; lia).
  cbn [map rx_exec rx_step]. rewrite (put_byte_bits rc r b R Hb), rx_bits_app.
  destruct (bits_inv rc (bits_msb 8 b) r H R T) as (r1 & e1 & E1 & I1 & R1). rewrite E1. cbn [rbind]. rewrite IH by auto. reflexivity.
Qed.
Lemma raw_fresh r : fresh r -> raw_ok (raw r).
Proof. intros (m & -> & _). split; cbn; lia. Qed.
Lemma sent_flags n o : firstn n (octets o) = repeat 0x7E n -> exists X, sent o = concat (repeat flag n) ++ X.
Proof.
  intros H. unfold sent. rewrite <- (firstn_skipn n (octets o)), H, flat_map_app. eexists. f_equal.
  clear. induction n as [|n IH]; [reflexivity|]. cbn [repeat flat_map concat]. rewrite IH. reflexivity.
Qed.
Lemma sent_length o : length (sent o) = (8 * length (octets o))%nat.
Proof. unfold sent. apply flat_map_bits_length. intros x. apply bits_msb_length. Qed.
Lemma prefix_app_len {A} (a y b p : list A) : a ++ y = b ++ p -> (length a <= length b)%nat -> exists z, b = a ++ z.
Proof.
  revert b. induction a as [|x a IH]; intros b E L; [exists b; reflexivity|]. destruct b as [|x' b]; [cbn in L; lia|]. injection E as <- E.
  destruct (IH b E ltac:(cbn in L; lia)) as (z & ->). exists z. reflexivity.
Qed.
Lemma c14_run tc rc r h l1 l2 s0 s1 h1 o1 a1 s2 h2 o2 a2 :
  tinv tc s0 [] [] [] -> tx_crc32 tc = rx_crc32 rc -> fresh r -> 1 <= framing_ok_threshold rc -> Z.max 0 (tmax s0) + Z.of_nat (crcb (rx_crc32 rc)) <= max_len r ->
  Forall (Forall clean) h -> Forall clean_op l1 -> Forall clean_op l2 ->
  tx_exec tc s0 h l1 = Ok (s1, h1, o1, a1) -> firstn (Z.to_nat (framing_ok_threshold rc)) (octets o1) = repeat 0x7E (Z.to_nat (framing_ok_threshold rc)) ->
  tx_exec tc s1 h1 l2 = Ok (s2, h2, o2, a2) ->
  exists r' e, rx_exec rc r (map RByte (octets (o1 ++ o2))) = Ok (r', e) /\ prefix (fevents e) (goods (frames_of (a1 ++ a2))) /\
    (tlen s1 = 0 -> octets o2 <> [] -> prefix (goods (frames_of a1)) (fevents e)).
Proof.
  intros H0 EC F T M Ch C1 C2 E1 EF E2.
  destruct (exec_inv tc l1 s0 h [] [] [] H0 Ch C1) as (s1' & h1' & o1' & a1' & g1 & E1' & I1 & Ch1 & _ & B1 & M1). rewrite E1 in E1'. injection E1' as <- <- <- <-.
  destruct (exec_inv tc l2 s1 h1 _ _ _ I1 Ch1 C2) as (s2' & h2' & o2' & a2' & g2 & E2' & I2 & Ch2 & (y & Y) & B2 & M2). rewrite E2 in E2'. injection E2' as <- <- <- <-.
  cbn [app] in I1, I2. destruct (sent_flags _ _ EF) as (X & EX).
  destruct (deliver tc rc r s2 (sent o1 ++ sent o2) g2 (a1 ++ a2) (X ++ sent o2) I2 EC F T) as (r' & e & ER & PR).
  { rewrite M2, M1. exact M. }
  { rewrite EX, <- app_assoc. reflexivity. }
  exists r', e. rewrite exec_octets; [|apply inv_fresh; auto|apply raw_fresh, F|exact T|apply Forall_app; auto]. rewrite sent_app.
  split; [exact ER|]. split.
  { pose proof (ti_log _ _ _ _ _ I2) as L2. destruct PR as (z & Z). exists (z ++ goods (if tlen s2 =? 0 then [] else [cur s2])). rewrite L2. unfold goods in *. rewrite map_app, Z, app_assoc. reflexivity. }
  intros T0 N2. pose proof (ti_log _ _ _ _ _ I1) as L1. rewrite T0 in L1. cbn [Z.eqb] in L1. rewrite app_nil_r in L1. rewrite L1.
  assert (P0 : pos s1 = 0) by (destruct (ti_pos _ _ _ _ _ I1) as [[? _]|?]; lia).
  destruct (ti_bits _ _ _ _ _ I1) as (P1 & LP1 & EP1 & _ & IP1). destruct (IP1 P0) as (_ & TN & _).
  destruct (ti_bits _ _ _ _ _ I2) as (P2 & LP2 & EP2 & _ & _).
  rewrite (proj2 (put_0 tc s1 P0 (ti_len _ _ _ _ _ I1))), app_nil_r in EP1, Y.
  assert (L8 : (8 <= length (sent o2))%nat) by (rewrite sent_length; destruct (octets o2); [congruence|cbn [length]; lia]).
  destruct (prefix_app_len (line (tx_crc32 tc) g1) y (sent o1 ++ sent o2) P2) as (z & EZ).
  { rewrite <- Y, EP2. reflexivity. }
  { rewrite <- EP1, !app_length. lia. }
  assert (EP1' : concat (repeat flag (Z.to_nat (framing_ok_threshold rc))) ++ (X ++ P1) = line (tx_crc32 tc) g1 ++ stuff 0 (wire [])) by (cbn [wire flat_map stuff]; rewrite app_nil_r, <- EP1, EX, <- app_assoc; reflexivity).
  destruct (lead_flags _ _ _ _ _ EP1') as (g & G).
  assert (SG : Forall (seg_ok (rx_crc32 rc) (max_len r)) g).
  { pose proof (ti_segs _ _ _ _ _ I1) as S. rewrite G in S. apply Forall_app in S as [_ S]. eapply seg_ok_tx; [exact S|]. rewrite M1. lia. }
  destruct (feed_fresh rc r g F T SG) as (r1 & e1 & F1 & V1 & _).
  rewrite EZ, EC, G, line_flags, rx_bits_app, F1 in ER. cbn [rbind] in ER. destruct (rx_bits rc r1 z) as [[r3 e3]|]; cbn [rbind] in ER; [|discriminate].
  injection ER as <- <-. exists (fevents e3). rewrite fevents_app, V1, G, frames_flags. reflexivity.
Qed.
(** ---- everything queued is eventually sent ---- *)
Lemma drain c : forall n m s h B segs log, (length h <= n)%nat -> load c s <= Z.of_nat m -> tinv c s B segs log -> Forall (Forall clean) h ->
  exists k s' h' o a, tx_exec c s h (repeat OGet k) = Ok (s', h', o, a) /\ tlen s' = 0.
Proof.
  induction n as [n IHn] using lt_wf_ind. induction m as [m IHm] using lt_wf_ind. intros s h B segs log L M I C.
  destruct (Z.eq_dec (tlen s) 0) as [T0|T0]; [exists 0%nat, s, h, [], []; split; [reflexivity|exact T0]|].
  destruct (get_inv c s h B segs log I C) as (b & s1 & h1 & a1 & g1 & E1 & I1 & C1 & _ & _ & _ & L1 & PR).
  assert (R : exists k s' h' o a, tx_exec c s1 h1 (repeat OGet k) = Ok (s', h', o, a) /\ tlen s' = 0).
  { pose proof (load_pos _ _ _ _ _ I). pose proof (load_pos _ _ _ _ _ I1). destruct (PR T0) as [P|[P|P]].
    - apply (IHn (length h1) ltac:(lia) (Z.to_nat (load c s1)) s1 h1 _ _ _ ltac:(lia) ltac:(lia) I1 C1).
    - exists 0%nat, s1, h1, [], []. split; [reflexivity|exact P].
    - apply (IHm (Z.to_nat (load c s1)) ltac:(lia) s1 h1 _ _ _ ltac:(lia) ltac:(lia) I1 C1). }
  destruct R as (k & s' & h' & o & a & E & TT). exists (S k), s', h', (b :: o), (a1 ++ a). cbn [repeat tx_exec]. rewrite E1. cbn [rbind]. rewrite E. cbn [rbind]. auto.
Qed.
Lemma two_octets c s h B segs log : tinv c s B segs log -> Forall (Forall clean) h -> tlen s = 0 ->
  exists s' h' o a, tx_exec c s h [OGet; OGet] = Ok (s', h', o, a) /\ octets o <> [].
Proof.
  intros I C T0. destruct (get_inv c s h B segs log I C) as (b & s1 & h1 & a1 & g1 & E1 & I1 & C1 & _ & B1 & _).
  destruct (get_inv c s1 h1 _ _ _ I1 C1) as (b2 & s2 & h2 & a2 & g2 & E2 & I2 & C2 & _ & B2 & _).
  cbn [tx_exec]. rewrite E1. cbn [rbind]. rewrite E2. cbn [rbind]. do 4 eexists. split; [reflexivity|].
  unfold octets. cbn [filter]. destruct (Z.leb_spec 0 b); [discriminate|]. destruct (Z.leb_spec 0 b2); [discriminate|]. exfalso.
  (* two ends of data in a row are impossible: the first clears the mark *)
  unfold hdlc_tx_get_byte in E1. destruct (Z.ltb_spec 0 (flag_octets s)) as [F|F].
  - destruct (idle_inv c s B segs log I) as [_ Hi]; [destruct (Z.eq_dec (pos s) 0); [auto|]; pose proof (ti_flags _ _ _ _ _ I); destruct (ti_pos _ _ _ _ _ I) as [[? _]|?]; lia|].
    destruct B1 as [?|B1]; [unfold byte in *; lia|].
    match type of E1 with rbind ?x _ = _ => destruct x as [[[s3 h3] a3]|] eqn:E3 end; cbn [rbind] in E1; [|discriminate].
    destruct (negb (abort_octets s3 =? 0)); injection E1 as <- _ _ _; [unfold SIG_STATUS_END_OF_DATA in B1; lia|].
    cbv zeta in E3. tr. assert (IF : forall r, tinv c (tset_flags s (flag_octets s - 1) r) B segs log) by (intros r; destruct I; split; auto; tr; lia).
    assert (P0 : pos s = 0) by (destruct (ti_pos _ _ _ _ _ I) as [[? _]|?]; lia).
    destruct ((flag_octets s - 1 <=? 0) && rfu s); [destruct (tlen s =? 0)|].
    + destruct (underflow_inv c _ h B segs log (IF false) C) as (s4 & h4 & a4 & E4 & I4 & _ & (_ & N4) & _). change (underflow c (tset_flags s (flag_octets s - 1) false) h = Ok (s3, h3, a3)) in E3. rewrite E4 in E3. injection E3 as <- <- <-.
      destruct (idle_inv c s4 B segs _ I4 ltac:(rewrite N4; exact P0)) as [_ X]. unfold byte, SIG_STATUS_END_OF_DATA in *. lia.
    + injection E3 as <- _ _. tr. unfold byte, SIG_STATUS_END_OF_DATA in *. lia.
    + injection E3 as <- _ _. tr. unfold byte, SIG_STATUS_END_OF_DATA in *. lia.
  - rewrite T0 in E1. cbn [Z.eqb negb] in E1. assert (P0 : pos s = 0) by (destruct (ti_pos _ _ _ _ _ I) as [[? _]|?]; lia).
    destruct (idle_inv c s B segs log I P0) as [_ Hi].
    destruct (tx_end s) eqn:TE; injection E1 as <- <- <- <-; [|unfold byte in *; lia].
    unfold hdlc_tx_get_byte in E2. tr. destruct (Z.ltb_spec 0 (flag_octets s)); [lia|]. rewrite T0 in E2. cbn [Z.eqb negb] in E2. injection E2 as <- _ _ _. unfold byte in *. lia.
Qed.

(** ---- safety of the transmitter whatever the application does ---- *)
Record tsafe (c : txcfg) (s : txs) : Prop := {
  ts_blen : length (tbuf s) = Z.to_nat BUF_LEN; ts_len : 0 <= tlen s <= HDLC_MAXFRAME_LEN; ts_max : tmax s <= HDLC_MAXFRAME_LEN;
  ts_pos : 0 <= pos s <= tlen s \/ 0 < tlen s /\ HDLC_MAXFRAME_LEN < pos s <= HDLC_MAXFRAME_LEN + tx_crc_bytes c }.
Ltac smaller := unfold HDLC_MAXFRAME_LEN in *; lia.
Lemma buf_z s c : tsafe c s -> Z.of_nat (length (tbuf s)) = 404.
Proof. intros H. rewrite (ts_blen _ _ H). reflexivity. Qed.
Lemma frame_safe c s f : tsafe c s -> exists s' r, hdlc_tx_frame c s f = Ok (s', r) /\ tsafe c s' /\
  (f = [] -> r = 0 /\ s' = tset_end s true) /\
  (f <> [] ->
    let refuse := tmax s < tlen s + Z.of_nat (length f) \/ progressive c = false /\ tlen s <> 0 \/ progressive c = true /\ HDLC_MAXFRAME_LEN <= pos s in
    r = -1 /\ s' = s /\ refuse \/ r = 0 /\ ~ refuse /\ cur s' = cur s ++ f /\ tlen s' = tlen s + Z.of_nat (length f) /\ pos s' = pos s).
Proof.
  intros H. pose proof H as [Hbl Hl Hm Hp]. unfold hdlc_tx_frame. cbv zeta.
  destruct (Z.eqb_spec (Z.of_nat (length f)) 0) as [E0|E0].
  { do 2 eexists. split; [reflexivity|]. split; [split; auto|]. split; [auto|]. destruct f; [congruence|cbn in E0; lia]. }
  destruct (Z.ltb_spec (tmax s) (tlen s + Z.of_nat (length f))) as [E1|E1].
  { exists s, (-1). split; [reflexivity|]. split; [exact H|]. split; [intros ->; cbn in E0; lia|]. intros _. left. auto. }
  destruct (progressive c) eqn:PR.
  - destruct (Z.leb_spec HDLC_MAXFRAME_LEN (pos s)) as [E2|E2].
    { exists s, (-1). split; [reflexivity|]. split; [exact H|]. split; [intros ->; cbn in E0; lia|]. intros _. left. auto 10. }
    unfold ablit. destruct f as [|x f']; [cbn in E0; lia|]. set (f := x :: f') in *. rewrite (buf_z _ _ H). unfold HDLC_MAXFRAME_LEN in *.
    destruct (Z.leb_spec 0 (tlen s)); [|lia]. destruct (Z.leb_spec (tlen s + Z.of_nat (length f)) 404); [|lia]. cbn [andb rbind].
    assert (FL : length (firstn (Z.to_nat (tlen s)) (tbuf s)) = Z.to_nat (tlen s)) by (rewrite firstn_length, Hbl; change (Z.to_nat BUF_LEN) with 404%nat; lia).
    do 2 eexists. split; [reflexivity|]. split; [|split; [discriminate|]].
    + split; tr; try smaller. rewrite !app_length, FL, skipn_length, Hbl. change (Z.to_nat BUF_LEN) with 404%nat. lia.
    + intros _. right. split; [reflexivity|]. split; [intros [?|[[? ?]|[? ?]]]; [lia|discriminate|smaller]|]. split; [|split; reflexivity]. unfold cur at 1. tr.
      replace (Z.to_nat (tlen s + Z.of_nat (length f))) with (length (cur s ++ f)) by (unfold cur; rewrite app_length, FL; lia). rewrite app_assoc. apply firstn_app_exact. reflexivity.
  - destruct (Z.eqb_spec (tlen s) 0) as [E2|E2]; cbn [negb].
    2:{ exists s, (-1). split; [reflexivity|]. split; [exact H|]. split; [intros ->; cbn in E0; lia|]. intros _. left. auto 10. }
    unfold ablit. destruct f as [|x f']; [cbn in E0; lia|]. set (f := x :: f') in *. rewrite (buf_z _ _ H). unfold HDLC_MAXFRAME_LEN in *. rewrite E2 in *.
    destruct (Z.leb_spec (0 + Z.of_nat (length f)) 404); [|lia]. cbn [andb rbind Z.leb Z.compare].
    do 2 eexists. split; [reflexivity|]. split; [|split; [discriminate|]].
    + split; tr; try smaller. rewrite !app_length, skipn_length, Hbl. cbn [Z.to_nat firstn length]. change (Z.to_nat BUF_LEN) with 404%nat. lia.
    + intros _. right. split; [reflexivity|]. split; [intros [?|[[? ?]|[? ?]]]; [lia|congruence|discriminate]|]. unfold cur. tr. rewrite E2. cbn [Z.to_nat firstn app].
      split; [apply firstn_app_exact; lia|]. split; [lia|reflexivity].
Qed.
Lemma flip_ok b i : 0 <= i < Z.of_nat (length b) -> exists b', (do x <- aget b i; aset b i (Z.lxor x 0xFF)) = Ok b' /\ length b' = length b.
Proof.
  intros H. rewrite aget_nth by exact H. cbn [rbind]. rewrite aset_ok by exact H. eexists. split; [reflexivity|apply upd_length].
Qed.
Lemma uop_safe c s o : tsafe c s -> exists s' a, do_uop c s o = Ok (s', a) /\ tsafe c s' /\ pos s' = pos s.
Proof.
  intros H. destruct o as [l|n| |]; cbn [do_uop].
  - destruct (frame_safe c s l H) as (s' & r & E & I & A & B). rewrite E. cbn [rbind]. do 2 eexists. split; [reflexivity|]. split; [exact I|].
    destruct l as [|x l]; [destruct (A eq_refl) as [_ ->]; reflexivity|]. destruct (B ltac:(discriminate)) as [(_ & -> & _)|(_ & _ & _ & _ & ->)]; reflexivity.
  - do 2 eexists. split; [reflexivity|]. unfold hdlc_tx_flags. destruct H. destruct (negb (pos s =? 0)); (split; [split; auto|reflexivity]).
  - do 2 eexists. split; [reflexivity|]. destruct H. split; [split; auto|reflexivity].
  - unfold hdlc_tx_corrupt_frame. cbv zeta. destruct (tlen s <=? 0); [do 2 eexists; split; [reflexivity|]; auto|].
    pose proof (buf_z _ _ H) as L. unfold HDLC_MAXFRAME_LEN.
    destruct (flip_ok (tbuf s) 400 ltac:(lia)) as (b1 & E1 & L1). rewrite E1. cbn [rbind].
    destruct (flip_ok b1 (400 + 1) ltac:(lia)) as (b2 & E2 & L2). rewrite E2. cbn [rbind].
    destruct (flip_ok b2 (400 + 2) ltac:(lia)) as (b3 & E3 & L3). rewrite E3. cbn [rbind].
    destruct (flip_ok b3 (400 + 3) ltac:(lia)) as (b4 & E4 & L4). rewrite E4. cbn [rbind].
    do 2 eexists. split; [reflexivity|]. destruct H as [Hbl Hl Hm Hp]. split; [|reflexivity]. split; tr; auto. lia.
Qed.
Lemma uops_safe c l : forall s, tsafe c s -> exists s' a, do_uops c s l = Ok (s', a) /\ tsafe c s' /\ pos s' = pos s.
Proof.
  induction l as [|o l IH]; intros s H; cbn [do_uops].
  - do 2 eexists. split; [reflexivity|]. auto.
  - destruct (uop_safe c s o H) as (s1 & a1 & E1 & I1 & P1). rewrite E1. cbn [rbind]. destruct (IH s1 I1) as (s2 & a2 & E2 & I2 & P2). rewrite E2. cbn [rbind].
    do 2 eexists. split; [reflexivity|]. split; [exact I2|congruence].
Qed.
Lemma underflow_safe c s h : tsafe c s -> exists s' h' a, underflow c s h = Ok (s', h', a) /\ tsafe c s' /\ pos s' = pos s.
Proof.
  intros H. unfold underflow. destruct h as [|l h]; [do 3 eexists; split; [reflexivity|]; auto|].
  destruct (uops_safe c l s H) as (s1 & a1 & E1 & I1 & P1). rewrite E1. cbn [rbind]. do 3 eexists. split; [reflexivity|]. auto.
Qed.
Lemma next_safe c s : length (tbuf s) = Z.to_nat BUF_LEN -> 0 <= tlen s <= HDLC_MAXFRAME_LEN -> tmax s <= HDLC_MAXFRAME_LEN -> 0 <= pos s < 404 ->
  (0 <= pos s + 1 <= tlen s \/ 0 < tlen s /\ HDLC_MAXFRAME_LEN < pos s + 1 <= HDLC_MAXFRAME_LEN + tx_crc_bytes c) ->
  exists x s', next_octet s = Ok (x, s') /\ tsafe c s' /\ 0 <= x < 256.
Proof.
  intros Hbl Hl Hm Hp Hq. unfold next_octet. rewrite aget_nth by (rewrite Hbl; change (Z.of_nat (Z.to_nat BUF_LEN)) with 404; lia). cbn [rbind]. cbv zeta.
  destruct (stuff_loop _ _ _ _) as [o k]. do 2 eexists. split; [reflexivity|]. split; [split; tr; auto|]. rewrite land_ff_mod. lia.
Qed.
Lemma get_safe c s h : tsafe c s -> exists b s' h' a, hdlc_tx_get_byte c s h = Ok (b, s', h', a) /\ tsafe c s'.
Proof.
  intros H. pose proof H as [Hbl Hl Hm Hp]. unfold hdlc_tx_get_byte. assert (CB : 0 < tx_crc_bytes c <= 4) by (unfold tx_crc_bytes; destruct (tx_crc32 c); lia).
  destruct (0 <? flag_octets s).
  { cbv zeta. tr.
    match goal with |- context [rbind ?x _] => assert (G : exists s1 h1 a1, x = Ok (s1, h1, a1) /\ tsafe c s1) end.
    { destruct (_ && _); [destruct (tlen s =? 0)|].
      - match goal with |- context [underflow c ?y h] => destruct (underflow_safe c y h) as (s1 & h1 & a1 & E1 & I1 & _) end; [split; auto|]. eauto.
      - do 3 eexists. split; [reflexivity|]. split; auto.
      - do 3 eexists. split; [reflexivity|]. split; auto. }
    destruct G as (s1 & h1 & a1 & -> & I1). cbn [rbind]. destruct (negb (abort_octets s1 =? 0)); do 4 eexists; (split; [reflexivity|]); [destruct I1; split; auto|exact I1]. }
  destruct (Z.eqb_spec (tlen s) 0) as [T0|T0]; cbn [negb].
  { destruct (tx_end s); do 4 eexists; (split; [reflexivity|]); split; tr; auto; lia. }
  destruct (8 <=? tnb s).
  { do 4 eexists. split; [reflexivity|]. split; tr; auto. }
  destruct (Z.leb_spec (tlen s) (pos s)); cbn [andb].
  2:{ destruct (next_safe c s Hbl Hl Hm ltac:(smaller) ltac:(smaller)) as (x & s' & E & I & _). rewrite E. cbn [rbind]. eauto 10. }
  destruct (Z.eqb_spec (pos s) (tlen s)).
  { cbv zeta. unfold HDLC_MAXFRAME_LEN in *. rewrite aset_ok by (rewrite (buf_z _ _ H); lia). cbn [rbind]. rewrite aset_ok by (rewrite upd_length, (buf_z _ _ H); lia). cbn [rbind].
    match goal with |- context [rbind (if ?x then ?a else ?y) _] => assert (G : exists b', (if x then a else y) = Ok b' /\ length b' = Z.to_nat BUF_LEN) end.
    { destruct (tx_crc_bytes c =? 4).
      - rewrite aset_ok by (rewrite !upd_length, (buf_z _ _ H); lia). cbn [rbind]. rewrite aset_ok by (rewrite !upd_length, (buf_z _ _ H); lia). eexists. split; [reflexivity|]. rewrite !upd_length. exact Hbl.
      - eexists. split; [reflexivity|]. rewrite !upd_length. exact Hbl. }
    destruct G as (b' & -> & L'). cbn [rbind].
    destruct (next_safe c (tset_frame s b' (tlen s) 400 (Z.lxor (crc s) 4294967295))) as (x & s' & E & I & _); tr; auto; try smaller. rewrite E. cbn [rbind]. eauto 10. }
  destruct (Z.eqb_spec (pos s) (HDLC_MAXFRAME_LEN + tx_crc_bytes c)).
  { cbv zeta. match goal with |- context [underflow c ?y h] => destruct (underflow_safe c y h) as (s1 & h1 & a1 & E1 & I1 & _) end; [split; tr; auto; smaller|].
    rewrite E1. cbn [rbind]. do 4 eexists. split; [reflexivity|]. destruct (_ && _); [destruct I1; split; auto|exact I1]. }
  destruct (next_safe c s Hbl Hl Hm ltac:(smaller) ltac:(smaller)) as (x & s' & E & I & _). rewrite E. cbn [rbind]. eauto 10.
Qed.
Lemma init_safe c m : tsafe c (hdlc_tx_set_max_frame_len (hdlc_tx_init c) m).
Proof.
  destruct (init_inv c m) as [A _ B D E _ F _ _ _ _ _]. split; auto.
  - unfold hdlc_tx_set_max_frame_len, hdlc_tx_init. tr. smaller.
Qed.
Lemma tx_exec_safe c l : forall s h, tsafe c s -> exists s' h' o a, tx_exec c s h l = Ok (s', h', o, a) /\ tsafe c s'.
Proof.
  induction l as [|x l IH]; intros s h H; cbn [tx_exec].
  - do 4 eexists. split; [reflexivity|exact H].
  - destruct x as [|u].
    + destruct (get_safe c s h H) as (b & s1 & h1 & a1 & E1 & I1). rewrite E1. cbn [rbind]. destruct (IH s1 h1 I1) as (s2 & h2 & o2 & a2 & E2 & I2). rewrite E2. cbn [rbind]. eauto 10.
    + destruct (uop_safe c s u H) as (s1 & a1 & E1 & I1 & _). rewrite E1. cbn [rbind]. destruct (IH s1 h I1) as (s2 & h2 & o2 & a2 & E2 & I2). rewrite E2. cbn [rbind]. eauto 10.
Qed.

(** ---- bit interface ---- *)
Fixpoint get_bits (c : txcfg) (s : txs) (h : list (list uop)) (n : nat) : res (list Z * txs * list (list uop) * list (bool * list Z)) :=
  match n with
  | O => Ok ([], s, h, [])
  | S n => do (b, s, h, a) <- hdlc_tx_get_bit c s h; do (l, s, h, a') <- get_bits c s h n; Ok (b :: l, s, h, a ++ a')
  end.
Lemma rest_bits c h n : forall s, tbits s = Z.of_nat n -> get_bits c s h n = Ok (map Z.b2z (bits_msb n (tbyte s)), tset_byte s (tbyte s) 0, h, []).
Proof.
  induction n as [|n IH]; intros s T; cbn [get_bits].
  - do 3 f_equal. destruct s. tr. cbn in T. subst. reflexivity.
  - unfold hdlc_tx_get_bit. destruct (Z.eqb_spec (tbits s) 0) as [E|E]; [lia|]. cbv zeta. cbn [rbind]. rewrite IH by (tr; lia). cbn [rbind app]. tr. do 4 f_equal.
    replace (tbits s - 1) with (Z.of_nat n) by lia. unfold bits_msb. replace (S n) with (n + 1)%nat by lia. rewrite bits_lsb_app, rev_app_distr. cbn [bits_lsb rev app map].
    f_equal. rewrite Z.shiftr_div_pow2 by lia. apply land_1.
Qed.
Lemma eight_bits c s h b s' h' a : tbits s = 0 -> hdlc_tx_get_byte c s h = Ok (b, s', h', a) -> byte b ->
  get_bits c s h 8 = Ok (map Z.b2z (bits_msb 8 b), tset_byte s' b 0, h', a).
Proof.
  intros T E Hb. pose proof (rest_bits c h' 7 (tset_byte s' b 7) eq_refl) as R. change 8%nat with (S 7). remember 7%nat as n eqn:N. cbn [get_bits].
  unfold hdlc_tx_get_bit. rewrite T. cbn [Z.eqb]. rewrite E. cbn [rbind]. unfold byte in Hb. destruct (Z.ltb_spec b 0); [lia|]. cbn [rbind].
  rewrite R. cbn [rbind]. tr. rewrite app_nil_r. do 4 f_equal.
  unfold bits_msb. replace (S n) with (n + 1)%nat by lia. rewrite bits_lsb_app, rev_app_distr. cbn [bits_lsb rev app map]. f_equal.
  rewrite Z.shiftr_div_pow2 by lia. subst n. apply land_1.
Qed.

(** ---- end to end ---- *)
Lemma rx_max_fresh rc mr : fresh (hdlc_rx_set_max_frame_len rc hdlc_rx_init mr).
Proof.
  unfold hdlc_rx_set_max_frame_len. cbv zeta. eexists. split; [reflexivity|]. unfold BUF_LEN, u64.
  match goal with |- context [?x mod ?y] => pose proof (Z.mod_pos_bound x y ltac:(lia)); set (z := x mod y) in * end. clearbody z. destruct (Z.leb_spec z 404); lia.
Qed.
Lemma rx_max_enough tc rc m mr : m <= mr -> 0 <= mr < 2 ^ 63 ->
  Z.max 0 (tmax (hdlc_tx_set_max_frame_len (hdlc_tx_init tc) m)) + Z.of_nat (crcb (rx_crc32 rc)) <= max_len (hdlc_rx_set_max_frame_len rc hdlc_rx_init mr).
Proof.
  intros L R. unfold hdlc_tx_set_max_frame_len, hdlc_rx_set_max_frame_len. tr. cbv zeta. cbn [set_max max_len]. rewrite rx_crcb. unfold u64.
  assert (C : Z.of_nat (crcb (rx_crc32 rc)) <= 4) by (unfold crcb; destruct (rx_crc32 rc); lia).
  rewrite Z.mod_small by lia. unfold HDLC_MAXFRAME_LEN, BUF_LEN.
  destruct (Z.leb_spec m 400); destruct (Z.leb_spec (mr + Z.of_nat (crcb (rx_crc32 rc))) 404); lia.
Qed.
Lemma c14_main tc rc m mr h l1 l2 s1 h1 o1 a1 s2 h2 o2 a2 :
  tx_crc32 tc = rx_crc32 rc -> 1 <= framing_ok_threshold rc -> m <= mr -> 0 <= mr < 2 ^ 63 ->
  Forall (Forall clean) h -> Forall clean_op l1 -> Forall clean_op l2 ->
  tx_exec tc (hdlc_tx_set_max_frame_len (hdlc_tx_init tc) m) h l1 = Ok (s1, h1, o1, a1) ->
  firstn (Z.to_nat (framing_ok_threshold rc)) (octets o1) = repeat 0x7E (Z.to_nat (framing_ok_threshold rc)) ->
  tx_exec tc s1 h1 l2 = Ok (s2, h2, o2, a2) ->
  exists r' e, rx_exec rc (hdlc_rx_set_max_frame_len rc hdlc_rx_init mr) (map RByte (octets (o1 ++ o2))) = Ok (r', e) /\
    prefix (fevents e) (goods (frames_of (a1 ++ a2))) /\
    (tlen s1 = 0 -> octets o2 <> [] -> prefix (goods (frames_of a1)) (fevents e)).
Proof.
  intros EC T L R Ch C1 C2 E1 EF E2.
  eapply (c14_run tc rc _ h l1 l2); eauto using init_inv, rx_max_fresh, rx_max_enough.
Qed.
Lemma exec_tx_app c l1 : forall s h l2, tx_exec c s h (l1 ++ l2) = (do (s1, h1, o1, a1) <- tx_exec c s h l1; do (s2, h2, o2, a2) <- tx_exec c s1 h1 l2; Ok (s2, h2, o1 ++ o2, a1 ++ a2)).
Proof.
  induction l1 as [|x l1 IH]; intros s h l2; cbn [app tx_exec rbind].
  - destruct (tx_exec c s h l2) as [[[[s2 h2] o2] a2]|]; reflexivity.
  - destruct x as [|u].
    + destruct (hdlc_tx_get_byte c s h) as [[[[b s1] h1] a1]|]; [|reflexivity]. cbn [rbind]. rewrite IH. destruct (tx_exec c s1 h1 l1) as [[[[s2 h2] o2] a2]|]; [|reflexivity]. cbn [rbind].
      destruct (tx_exec c s2 h2 l2) as [[[[s3 h3] o3] a3]|]; [|reflexivity]. cbn [rbind app]. rewrite !app_assoc. reflexivity.
    + destruct (do_uop c s u) as [[s1 a1]|]; [|reflexivity]. cbn [rbind]. rewrite IH. destruct (tx_exec c s1 h l1) as [[[[s2 h2] o2] a2]|]; [|reflexivity]. cbn [rbind].
      destruct (tx_exec c s2 h2 l2) as [[[[s3 h3] o3] a3]|]; [|reflexivity]. cbn [rbind]. rewrite !app_assoc. reflexivity.
Qed.
Lemma gets_clean n : Forall clean_op (repeat OGet n).
Proof. apply Forall_forall. intros x I. apply repeat_spec in I. subst. exact I. Qed.
Lemma firstn_more (n : nat) (a b : list Z) x : firstn n a = repeat x n -> firstn n (a ++ b) = repeat x n.
Proof.
  intros E. assert (L : (n <= length a)%nat) by (apply (f_equal (@length Z)) in E; rewrite firstn_length, repeat_length in E; lia).
  rewrite firstn_app, E. replace (n - length a)%nat with 0%nat by lia. cbn [firstn]. apply app_nil_r.
Qed.
Lemma c14_all tc rc m mr h l1 s1 h1 o1 a1 :
  tx_crc32 tc = rx_crc32 rc -> 1 <= framing_ok_threshold rc -> m <= mr -> 0 <= mr < 2 ^ 63 ->
  Forall (Forall clean) h -> Forall clean_op l1 ->
  tx_exec tc (hdlc_tx_set_max_frame_len (hdlc_tx_init tc) m) h l1 = Ok (s1, h1, o1, a1) ->
  firstn (Z.to_nat (framing_ok_threshold rc)) (octets o1) = repeat 0x7E (Z.to_nat (framing_ok_threshold rc)) ->
  exists n s2 h2 o2 a2 s3 h3 o3 a3 r' e,
    tx_exec tc s1 h1 (repeat OGet n) = Ok (s2, h2, o2, a2) /\ tx_exec tc s2 h2 [OGet; OGet] = Ok (s3, h3, o3, a3) /\
    rx_exec rc (hdlc_rx_set_max_frame_len rc hdlc_rx_init mr) (map RByte (octets (o1 ++ o2 ++ o3))) = Ok (r', e) /\
    prefix (goods (frames_of (a1 ++ a2))) (fevents e) /\ prefix (fevents e) (goods (frames_of (a1 ++ a2 ++ a3))).
Proof.
  intros EC T L R Ch C1 E1 EF.
  destruct (exec_inv tc l1 _ h [] [] [] (init_inv tc m) Ch C1) as (s1' & h1' & o1' & a1' & g1 & E1' & I1 & Ch1 & _ & B1 & M1). rewrite E1 in E1'. injection E1' as <- <- <- <-.
  destruct (drain tc (length h1) (Z.to_nat (load tc s1)) s1 h1 _ _ _ ltac:(lia) ltac:(lia) I1 Ch1) as (n & s2 & h2 & o2 & a2 & E2 & T2).
  destruct (exec_inv tc (repeat OGet n) s1 h1 _ _ _ I1 Ch1 (gets_clean n)) as (s2' & h2' & o2' & a2' & g2 & E2' & I2 & Ch2 & _). rewrite E2 in E2'. injection E2' as <- <- <- <-.
  destruct (two_octets tc s2 h2 _ _ _ I2 Ch2 T2) as (s3 & h3 & o3 & a3 & E3 & N3).
  assert (E12 : tx_exec tc (hdlc_tx_set_max_frame_len (hdlc_tx_init tc) m) h (l1 ++ repeat OGet n) = Ok (s2, h2, o1 ++ o2, a1 ++ a2)) by (rewrite exec_tx_app, E1; cbn [rbind]; rewrite E2; reflexivity).
  destruct (c14_main tc rc m mr h (l1 ++ repeat OGet n) [OGet; OGet] s2 h2 (o1 ++ o2) (a1 ++ a2) s3 h3 o3 a3 EC T L R Ch) as (r' & e & X1 & X2 & X3); auto.
  { apply Forall_app. split; [exact C1|apply gets_clean]. }
  { repeat constructor. }
  { unfold octets. rewrite filter_app. apply firstn_more, EF. }
  exists n, s2, h2, o2, a2, s3, h3, o3, a3, r', e. rewrite !app_assoc. rewrite <- app_assoc. split; [exact E2|]. split; [exact E3|]. split; [rewrite !app_assoc; exact X1|]. split; [apply X3; auto|].
  exact X2.
Qed.
Lemma tx_runs c m h l : exists s' h' o a, tx_exec c (hdlc_tx_set_max_frame_len (hdlc_tx_init c) m) h l = Ok (s', h', o, a).
Proof. destruct (tx_exec_safe c l _ h (init_safe c m)) as (s' & h' & o & a & E & _). eauto. Qed.
Lemma frame_contract c m h l s h' o a f : tx_exec c (hdlc_tx_set_max_frame_len (hdlc_tx_init c) m) h l = Ok (s, h', o, a) -> f <> [] ->
  let refuse := tmax s < tlen s + Z.of_nat (length f) \/ progressive c = false /\ tlen s <> 0 \/ progressive c = true /\ HDLC_MAXFRAME_LEN <= pos s in
  exists s' r, hdlc_tx_frame c s f = Ok (s', r) /\
   (r = -1 /\ s' = s /\ refuse \/
    r = 0 /\ ~ refuse /\ firstn (Z.to_nat (tlen s')) (tbuf s') = firstn (Z.to_nat (tlen s)) (tbuf s) ++ f /\ tlen s' = tlen s + Z.of_nat (length f) /\ pos s' = pos s).
Proof.
  intros E N refuse. destruct (tx_exec_safe c l _ h (init_safe c m)) as (s1 & h1 & o1 & a1 & E1 & I). rewrite E in E1. injection E1 as <- <- <- <-.
  destruct (frame_safe c s f I) as (s' & r & EF & _ & _ & G). exists s', r. split; [exact EF|]. exact (G N).
Qed.
Lemma corrupt_late : exists s1 o1 s2 s3 o3 r e, tx_exec (hdlc_tx_cfg false 1 false) (hdlc_tx_init (hdlc_tx_cfg false 1 false)) []
    ([OCall (UFlags 1); OGet; OCall (UFrame [1; 2])] ++ repeat OGet 4) = Ok (s1, [], o1, [(true, [1; 2])]) /\
  hdlc_tx_corrupt_frame s1 = Ok (s2, 0) /\
  tx_exec (hdlc_tx_cfg false 1 false) s2 [] (repeat OGet 3) = Ok (s3, [], o3, []) /\
  rx_exec (hdlc_rx_cfg false true 1 0) hdlc_rx_init (map RByte (octets (o1 ++ o3))) = Ok (r, e) /\ fevents e = [([1; 2], true)].
Proof. do 7 eexists. split; [vm_compute; reflexivity|]. split; [vm_compute; reflexivity|]. split; [vm_compute; reflexivity|]. split; vm_compute; reflexivity. Qed.
Lemma misaligned : exists s e, rx_exec (hdlc_rx_cfg false true 1 0) hdlc_rx_init (map (fun b : bool => RBit (Z.b2z b)) (flag ++ frame_bits false [0x11] ++ true :: flag)) = Ok (s, e) /\ fevents e = [([0x11], true)].
Proof. do 2 eexists. split; vm_compute; reflexivity. Qed.
Lemma rx_safe c l : 1 <= framing_ok_threshold c -> exists s e, rx_exec c hdlc_rx_init l = Ok (s, e) /\
  n_frames s = Z.of_nat (length (filter (fun f => snd f) (fevents e))) /\
  n_bytes s = fold_right (fun f a => Z.of_nat (length (fst f)) + a) 0 (filter (fun f => snd f) (fevents e)) /\
  n_abort s = Z.of_nat (length (filter (fun x => match x with EStatus z => z =? SIG_STATUS_ABORT | _ => false end) e)) /\
  (if report_bad_frames c then n_crc s + n_len s = Z.of_nat (length (filter (fun f => negb (snd f)) (fevents e))) else filter (fun f => negb (snd f)) (fevents e) = []) /\
  (forall d, In (EFrame d true) e -> bytes d /\ Z.of_nat (length d) + rx_crc_bytes c <= BUF_LEN).
Proof.
  intros T. destruct (exec_facts c l hdlc_rx_init (inv_init c T) T) as (s & e & E & _ & [A B D _ F] & _ & G). exists s, e. split; [exact E|].
  unfold good_ev, bad_ev, aborts, total in *. cbn [hdlc_rx_init n_frames n_bytes n_abort n_crc n_len] in *.
  split; [exact A|]. split; [exact B|]. split; [exact D|]. split; [|exact G]. exact F.
Qed.
Lemma good_line c m l : 1 <= framing_ok_threshold c -> exists s e, rx_exec c (hdlc_rx_set_max_frame_len c hdlc_rx_init m) (map (fun b : bool => RBit (Z.b2z b)) l) = Ok (s, e) /\
  forall d, In (EFrame d true) e -> exists pre post,
    false :: l = pre ++ flag ++ frame_bits (rx_crc32 c) d ++ flag ++ post \/
    false :: l = pre ++ flag ++ frame_bits (rx_crc32 c) d ++ true :: flag ++ post.
Proof. intros T. apply (good_on_line c _ l (rx_max_fresh c m) T). Qed.
(** raw stays well formed whatever whole octets or bits are fed *)
Definition opok (o : rxop) : Prop := match o with RByte z => byte z | _ => True end.
Lemma step_raw c s o s' e : rx_inv c s -> raw_ok (raw s) -> 1 <= framing_ok_threshold c -> opok o -> rx_step c s o = Ok (s', e) -> rx_inv c s' /\ raw_ok (raw s').
Proof.
  intros H R T O E. destruct (step_facts c s o H T) as (s1 & e1 & E1 & I1 & _). rewrite E in E1. injection E1 as <- <-. split; [exact I1|].
  destruct o as [z|z|m|]; cbn [rx_step opok] in *.
  - destruct (Z.ltb_spec z 0) as [N|N].
    + unfold hdlc_rx_put_bit in E. destruct (Z.ltb_spec z 0); [|lia]. unfold rx_special_condition in E. injection E as <- _.
      destruct ((z =? SIG_STATUS_CARRIER_UP) || (z =? SIG_STATUS_TRAINING_SUCCEEDED)); [split; cbn; lia|exact R].
    + destruct (put_bit_inv c s (Z.odd z) H R T) as (s2 & e2 & E2 & _ & R2 & _). 
      assert (EQ : hdlc_rx_put_bit c s z = hdlc_rx_put_bit c s (Z.b2z (Z.odd z))).
      { unfold hdlc_rx_put_bit. destruct (Z.ltb_spec z 0); [lia|]. destruct (Z.ltb_spec (Z.b2z (Z.odd z)) 0); [destruct (Z.odd z); cbn in *; lia|].
        rewrite !new_raw. replace (Z.odd (Z.b2z (Z.odd z))) with (Z.odd z) by (destruct (Z.odd z); reflexivity). reflexivity. }
      rewrite EQ, E2 in E. injection E as <- _. rewrite R2. apply raw_next, R.
  - rewrite (put_byte_bits c s z R O) in E. destruct (bits_inv c (bits_msb 8 z) s H R T) as (s2 & e2 & E2 & _ & R2). rewrite E2 in E. injection E as <- _. exact R2.
  - injection E as <- _. exact R.
  - injection E as <- _. split; cbn; lia.
Qed.
Lemma exec_raw c l : forall s s' e, rx_inv c s -> raw_ok (raw s) -> 1 <= framing_ok_threshold c -> (forall o, In o l -> opok o) -> rx_exec c s l = Ok (s', e) -> rx_inv c s' /\ raw_ok (raw s').
Proof.
  induction l as [|o l IH]; intros s s' e H R T O E; cbn [rx_exec] in E; [injection E as <- _; auto|].
  destruct (rx_step c s o) as [[s1 e1]|] eqn:E1; cbn [rbind] in E; [|discriminate]. destruct (rx_exec c s1 l) as [[s2 e2]|] eqn:E2; cbn [rbind] in E; [|discriminate]. injection E as <- _.
  destruct (step_raw c s o s1 e1 H R T (O o (or_introl eq_refl)) E1) as [I1 R1]. apply (IH s1 s2 e2 I1 R1 T); [|exact E2]. intros x X. apply O. right. exact X.
Qed.
Lemma resync_ops c l n segs s0 e0 : 1 <= framing_ok_threshold c -> (Z.to_nat (framing_ok_threshold c) <= n)%nat ->
  (forall o, In o l -> match o with RByte z => byte z | _ => True end) ->
  rx_exec c hdlc_rx_init l = Ok (s0, e0) -> Forall (seg_ok (rx_crc32 c) (max_len s0)) segs ->
  exists s1 e1 s2 e2, rx_exec c s0 (map (fun b : bool => RBit (Z.b2z b)) (concat (repeat flag n))) = Ok (s1, e1) /\
    rx_exec c s1 (map (fun b : bool => RBit (Z.b2z b)) (line (rx_crc32 c) segs)) = Ok (s2, e2) /\ fevents e2 = goods (frames segs).
Proof.
  intros T N O E F. destruct (exec_raw c l hdlc_rx_init s0 e0 (inv_init c T) ltac:(split; cbn; lia) T O E) as [I R].
  destruct (resync c s0 n segs I R T N F) as (s1 & e1 & s2 & e2 & E1 & E2 & V). exists s1, e1, s2, e2.
  fold (rbits (concat (repeat flag n))). fold (rbits (line (rx_crc32 c) segs)). rewrite !exec_rbits. auto.
Qed.
Lemma rx_byte_bits c l s e x : 1 <= framing_ok_threshold c -> rx_exec c hdlc_rx_init l = Ok (s, e) -> (forall o, In o l -> match o with RByte z => byte z | _ => True end) -> byte x ->
  hdlc_rx_put_byte c s x = rx_exec c s (map (fun b : bool => RBit (Z.b2z b)) (bits_msb 8 x)).
Proof.
  intros T E O X. destruct (exec_raw c l hdlc_rx_init s e (inv_init c T) ltac:(split; cbn; lia) T O E) as [I R].
  fold (rbits (bits_msb 8 x)). rewrite exec_rbits. apply put_byte_bits; auto.
Qed.
Lemma rx_max_gen c l : forall s s' e d, 1 <= framing_ok_threshold c -> rx_inv c s -> (forall o, In o l -> match o with RMaxLen _ => False | _ => True end) ->
  rx_exec c s l = Ok (s', e) -> In (EFrame d true) e -> Z.of_nat (length d) + rx_crc_bytes c <= max_len s.
Proof.
  induction l as [|o l IH]; intros s s' e d T I O E D; cbn [rx_exec] in E; [injection E as _ <-; destruct D|].
  destruct (step_facts c s o I T) as (s1 & e1 & E1 & I1 & _ & M1 & G1). rewrite E1 in E. cbn [rbind] in E.
  destruct (rx_exec c s1 l) as [[s2 e2]|] eqn:E2; cbn [rbind] in E; [|discriminate]. injection E as _ <-.
  apply in_app_or in D. destruct D as [D|D]; [apply G1, D|].
  pose proof (IH s1 s2 e2 d T I1 ltac:(intros x X; apply O; right; exact X) E2 D) as L. pose proof (O o (or_introl eq_refl)) as Oo.
  destruct o; cbn [next_max] in M1; try contradiction; rewrite <- M1; exact L.
Qed.
Lemma rx_max c l s e d mr : 1 <= framing_ok_threshold c -> 0 <= mr < 2 ^ 63 -> (forall o, In o l -> match o with RMaxLen _ => False | _ => True end) ->
  rx_exec c (hdlc_rx_set_max_frame_len c hdlc_rx_init mr) l = Ok (s, e) -> In (EFrame d true) e -> Z.of_nat (length d) <= mr.
Proof.
  intros T R O E D. pose proof (rx_max_gen c l _ s e d T (inv_fresh c _ (rx_max_fresh c mr) T) O E D) as L.
  unfold hdlc_rx_set_max_frame_len in L. cbv zeta in L. cbn [set_max max_len] in L. unfold u64 in L.
  assert (0 <= rx_crc_bytes c <= 4) by (unfold rx_crc_bytes; destruct (rx_crc32 c); lia).
  rewrite Z.mod_small in L by lia. destruct (Z.leb_spec (mr + rx_crc_bytes c) BUF_LEN); lia.
Qed.
(** the octet interface ignores the bit interface's position *)
Definition withb (b n : Z) {A} (r : res (txs * A)) : res (txs * A) := match r with Ok (s, x) => Ok (tset_byte s b n, x) | UB => UB end.
Lemma frame_b c s f b n : hdlc_tx_frame c (tset_byte s b n) f = withb b n (hdlc_tx_frame c s f).
Proof.
  unfold hdlc_tx_frame. tr. cbv zeta. destruct (_ =? 0); [reflexivity|]. destruct (_ <? _); [reflexivity|].
  destruct (if progressive c then _ else _); [reflexivity|]. destruct (ablit _ _ _); reflexivity.
Qed.
Lemma corrupt_b s b n : hdlc_tx_corrupt_frame (tset_byte s b n) = withb b n (hdlc_tx_corrupt_frame s).
Proof.
  unfold hdlc_tx_corrupt_frame. tr. cbv zeta. destruct (tlen s <=? 0); [reflexivity|].
  repeat match goal with |- context [rbind ?x _] => match x with rbind _ _ => fail 1 | _ => destruct x; [cbn [rbind]|reflexivity] end end. reflexivity.
Qed.
Lemma uop_b c s o b n : do_uop c (tset_byte s b n) o = withb b n (do_uop c s o).
Proof.
  destruct o as [l|k| |]; cbn [do_uop].
  - rewrite frame_b. destruct (hdlc_tx_frame c s l) as [[s1 r]|]; reflexivity.
  - unfold hdlc_tx_flags. tr. destruct (negb (pos s =? 0)); reflexivity.
  - reflexivity.
  - rewrite corrupt_b. destruct (hdlc_tx_corrupt_frame s) as [[s1 r]|]; reflexivity.
Qed.
Lemma uops_b c l b n : forall s, do_uops c (tset_byte s b n) l = withb b n (do_uops c s l).
Proof.
  induction l as [|o l IH]; intros s; [reflexivity|]. cbn [do_uops]. rewrite uop_b. destruct (do_uop c s o) as [[s1 a1]|]; [|reflexivity]. cbn [withb rbind].
  rewrite IH. destruct (do_uops c s1 l) as [[s2 a2]|]; reflexivity.
Qed.
Lemma underflow_b c s h b n : underflow c (tset_byte s b n) h = match underflow c s h with Ok (s', h', a) => Ok (tset_byte s' b n, h', a) | UB => UB end.
Proof. unfold underflow. destruct h as [|l h]; [reflexivity|]. rewrite uops_b. destruct (do_uops c s l) as [[s1 a1]|]; reflexivity. Qed.
Lemma next_b s b n : next_octet (tset_byte s b n) = match next_octet s with Ok (x, s') => Ok (x, tset_byte s' b n) | UB => UB end.
Proof. unfold next_octet. tr. destruct (aget _ _); [|reflexivity]. cbn [rbind]. cbv zeta. destruct (stuff_loop _ _ _ _). reflexivity. Qed.
Lemma get_byte_bits_indep c s h b n : hdlc_tx_get_byte c (tset_byte s b n) h =
  match hdlc_tx_get_byte c s h with Ok (x, s', h', a) => Ok (x, tset_byte s' b n, h', a) | UB => UB end.
Proof.
  unfold hdlc_tx_get_byte. change (flag_octets (tset_byte s b n)) with (flag_octets s). destruct (0 <? flag_octets s).
  { cbv zeta. change (rfu (tset_byte s b n)) with (rfu s).
    change (tset_flags (tset_byte s b n) (flag_octets s - 1) (rfu s)) with (tset_byte (tset_flags s (flag_octets s - 1) (rfu s)) b n). set (s1 := tset_flags s (flag_octets s - 1) (rfu s)).
    change (flag_octets (tset_byte s1 b n)) with (flag_octets s1). change (rfu (tset_byte s1 b n)) with (rfu s1).
    change (tset_flags (tset_byte s1 b n) (flag_octets s1) false) with (tset_byte (tset_flags s1 (flag_octets s1) false) b n). set (s2 := tset_flags s1 (flag_octets s1) false).
    change (tlen (tset_byte s2 b n)) with (tlen s2). rewrite underflow_b.
    destruct ((flag_octets s1 <=? 0) && rfu s1); [destruct (tlen s2 =? 0); [destruct (underflow c s2 h) as [[[s3 h3] a3]|]|]|]; cbn [rbind]; try reflexivity; tr;
      match goal with |- context [negb ?x] => destruct (negb x) end; reflexivity. }
  change (tlen (tset_byte s b n)) with (tlen s). destruct (negb (tlen s =? 0)).
  2:{ change (tx_end (tset_byte s b n)) with (tx_end s). destruct (tx_end s); reflexivity. }
  change (tnb (tset_byte s b n)) with (tnb s). destruct (8 <=? tnb s); [reflexivity|].
  change (pos (tset_byte s b n)) with (pos s). destruct ((tlen s <=? pos s) && (pos s =? tlen s)).
  { cbv zeta. change (crc (tset_byte s b n)) with (crc s). change (tbuf (tset_byte s b n)) with (tbuf s).
    destruct (aset (tbuf s) _ _) as [b1|]; [cbn [rbind]|reflexivity]. destruct (aset b1 _ _) as [b2|]; [cbn [rbind]|reflexivity].
    destruct (if tx_crc_bytes c =? 4 then _ else _) as [b3|]; [cbn [rbind]|reflexivity].
    change (tset_frame (tset_byte s b n) b3 (tlen s) HDLC_MAXFRAME_LEN (Z.lxor (crc s) 4294967295)) with (tset_byte (tset_frame s b3 (tlen s) HDLC_MAXFRAME_LEN (Z.lxor (crc s) 4294967295)) b n).
    rewrite next_b. destruct (next_octet _) as [[x s1]|]; reflexivity. }
  destruct ((tlen s <=? pos s) && (pos s =? HDLC_MAXFRAME_LEN + tx_crc_bytes c)).
  { cbv zeta. match goal with |- context [underflow c ?y h] => match y with context [tset_byte s b n] => set (s1 := y) end end.
    match goal with |- match rbind (underflow c ?y h) _ with _ => _ end = _ => idtac | |- rbind (underflow c _ h) _ = match rbind (underflow c ?z h) _ with _ => _ end => change s1 with (tset_byte z b n); set (s2 := z) end.
    rewrite underflow_b. destruct (underflow c s2 h) as [[[s3 h3] a3]|]; [|reflexivity]. cbn [rbind]. change (tlen (tset_byte s3 b n)) with (tlen s3). change (flag_octets (tset_byte s3 b n)) with (flag_octets s3).
    destruct ((tlen s3 =? 0) && (flag_octets s3 <? 2)); reflexivity. }
  rewrite next_b. destruct (next_octet s) as [[x s1]|]; reflexivity.
Qed.

(** ---- flags between frames; aborts ---- *)
Definition queues (u : uop) : Prop := match u with UFrame _ => True | _ => False end.
Lemma queue_keeps c l : forall s s' a, Forall queues l -> do_uops c s l = Ok (s', a) ->
  flag_octets s' = flag_octets s /\ rfu s' = rfu s /\ abort_octets s' = abort_octets s /\ idle_octet s' = idle_octet s.
Proof.
  induction l as [|u l IH]; intros s s' a F H; cbn [do_uops] in H; [injection H as <- <-; auto|].
  apply Forall_cons_iff in F. destruct F as (Q & F). destruct u as [d| | |]; try contradiction. cbn [do_uop] in H.
  assert (K : forall x r, hdlc_tx_frame c s d = Ok (x, r) -> flag_octets x = flag_octets s /\ rfu x = rfu s /\ abort_octets x = abort_octets s /\ idle_octet x = idle_octet s).
  { intros x r E. unfold hdlc_tx_frame in E. cbv zeta in E.
    repeat match type of E with (if ?b then _ else _) = _ => destruct b end; try (injection E as <- <-; auto).
    all: try (destruct (ablit _ _ _); [|discriminate]; cbn [rbind] in E; injection E as <- <-; auto). }
  destruct (hdlc_tx_frame c s d) as [(x, r)|]; [|discriminate]. cbn [rbind] in H.
  destruct (do_uops c x l) as [(y, b)|] eqn:E; [|discriminate]. cbn [rbind] in H. injection H as <- <-.
  destruct (IH _ _ _ F E) as (A1 & A2 & A3 & A4). destruct (K _ _ eq_refl) as (B1 & B2 & B3 & B4). repeat split; congruence.
Qed.
Lemma flags_run c h n : forall s, abort_octets s = 0 -> rfu s = false -> Z.of_nat n <= flag_octets s ->
  exists s', tx_exec c s h (repeat OGet n) = Ok (s', h, repeat (idle_octet s) n, []).
Proof.
  induction n as [|n IH]; intros s A R L; [exists s; reflexivity|].
  cbn [repeat tx_exec]. unfold hdlc_tx_get_byte. destruct (Z.ltb_spec 0 (flag_octets s)); [|lia].
  cbv zeta. cbn [rfu tset_flags]. rewrite R, andb_false_r. cbn [rbind abort_octets tset_flags]. rewrite A. cbn [Z.eqb negb rbind idle_octet tset_flags].
  destruct (IH (tset_flags s (flag_octets s - 1) (rfu s))) as (s' & E); cbn [abort_octets rfu flag_octets tset_flags]; auto; [lia|].
  cbn [tset_flags idle_octet] in E. rewrite R in E. unfold tset_flags in *. rewrite E. cbn [rbind]. eauto.
Qed.
(** The octet which closes a frame is followed by the flags asked for, less one, whatever frames the handler queues. *)
Lemma between_frames : forall c s h x s' h' a k, tlen s <> 0 -> flag_octets s = 0 -> abort_octets s = 0 -> 0 <= tnb s < 8 ->
  pos s = HDLC_MAXFRAME_LEN + tx_crc_bytes c -> tlen s <= HDLC_MAXFRAME_LEN -> Forall (Forall queues) h ->
  hdlc_tx_get_byte c s h = Ok (x, s', h', a) -> Z.of_nat k <= inter_frame_flags c - 1 ->
  x = u8 (Z.lor (u32 (Z.shiftl (oip s) (8 - tnb s))) (Z.shiftr 0x7E (tnb s))) /\
  exists s2, tx_exec c s' h' (repeat OGet k) = Ok (s2, h', repeat (Z.land (Z.shiftr 0x7E7E (tnb s)) 0xFF) k, []).
Proof.
  intros c s h x s' h' a k T F A N P TL Q E K. unfold hdlc_tx_get_byte in E. rewrite F in E. cbn [Z.ltb Z.compare] in E.
  destruct (Z.eqb_spec (tlen s) 0); [congruence|]. cbn [negb] in E. destruct (Z.leb_spec 8 (tnb s)); [lia|].
  assert (PN : tlen s <= pos s /\ pos s <> tlen s) by (unfold tx_crc_bytes, HDLC_MAXFRAME_LEN in *; destruct (tx_crc32 c); lia).
  destruct (Z.leb_spec (tlen s) (pos s)); [|lia]. destruct (Z.eqb_spec (pos s) (tlen s)); [lia|]. cbn [andb] in E. cbv zeta in E.
  rewrite P, Z.eqb_refl in E.
  set (s0 := tset_flags _ _ _) in E.
  assert (I0 : idle_octet s0 = Z.land (Z.shiftr 0x7E7E (tnb s)) 0xFF) by reflexivity.
  assert (F0 : flag_octets s0 = inter_frame_flags c - 1) by reflexivity. assert (R0 : rfu s0 = false) by reflexivity. assert (A0 : abort_octets s0 = 0) by exact A.
  clearbody s0. destruct (underflow c s0 h) as [((s1, h1), a1)|] eqn:U; [|discriminate]. cbn [rbind] in E.
  injection E as <- <- <- <-. split; [reflexivity|].
  assert (K1 : flag_octets s1 = flag_octets s0 /\ rfu s1 = rfu s0 /\ abort_octets s1 = abort_octets s0 /\ idle_octet s1 = idle_octet s0).
  { unfold underflow in U. destruct h as [|l h]; [injection U as <- <- <-; auto|]. apply Forall_cons_iff in Q. destruct Q as (Q & _).
    destruct (do_uops c s0 l) as [(y, b)|] eqn:EQ; [|discriminate]. cbn [rbind] in U. injection U as <- <- <-. eapply queue_keeps; eauto. }
  destruct K1 as (K1 & K2 & K3 & K4). rewrite <- I0, <- K4.
  destruct ((tlen s1 =? 0) && (flag_octets s1 <? 2)) eqn:B.
  - apply (flags_run c h1 k (tset_flags s1 2 (rfu s1))); cbn [abort_octets rfu flag_octets tset_flags]; try congruence. lia.
  - apply (flags_run c h1 k s1); try congruence.
Qed.
(** An abort is seven ones, at once. *)
Lemma corrupt_abort s y r : hdlc_tx_corrupt_frame s = Ok (y, r) -> abort_octets y = abort_octets s.
Proof.
  unfold hdlc_tx_corrupt_frame. destruct (tlen s <=? 0); [intros H; injection H as <- <-; reflexivity|].
  cbv zeta beta. intros H.
  repeat match type of H with rbind ?m _ = Ok _ => destruct m; cbn [rbind] in H; [|discriminate] end. injection H as <- <-. reflexivity.
Qed.
Lemma uops_abort c l : forall s s' a, 0 <= abort_octets s -> do_uops c s l = Ok (s', a) -> abort_octets s <= abort_octets s'.
Proof.
  induction l as [|u l IH]; intros s s' a P H; cbn [do_uops] in H; [injection H as <- <-; lia|].
  destruct (do_uop c s u) as [(x, b)|] eqn:E; [|discriminate]. cbn [rbind] in H.
  assert (abort_octets s <= abort_octets x).
  { destruct u; cbn [do_uop] in E.
    - unfold hdlc_tx_frame in E. cbv zeta in E.
      repeat match type of E with context [if ?b then _ else _] => destruct b; cbn [rbind] in E end; try (injection E as <- <-; cbn; lia);
        try (destruct (ablit _ _ _); [|discriminate]; cbn [rbind] in E; injection E as <- <-; cbn; lia).
    - injection E as <- <-. unfold hdlc_tx_flags. destruct (negb _); cbn; lia.
    - injection E as <- <-. cbn. lia.
    - destruct (hdlc_tx_corrupt_frame s) as [(y, r)|] eqn:EC; [|discriminate]. cbn [rbind] in E. injection E as <- <-.
      rewrite (corrupt_abort _ _ _ EC). lia. }
  destruct (do_uops c x l) as [(y, d)|] eqn:E2; [|discriminate]. cbn [rbind] in H. injection H as <- <-.
  specialize (IH x y d ltac:(lia) E2). lia.
Qed.
Lemma abort_sent : forall c s h x s' h' a, 0 <= flag_octets s -> 0 <= abort_octets s ->
  hdlc_tx_get_byte c (fst (hdlc_tx_abort s)) h = Ok (x, s', h', a) -> x = 0x7F /\ abort_octets s' = 0.
Proof.
  intros c s h x s' h' a F A E. unfold hdlc_tx_get_byte, hdlc_tx_abort in E. cbn [fst] in E. cbv zeta in E.
  cbn [flag_octets tset_flags tset_abort rfu] in E. destruct (Z.ltb_spec 0 (flag_octets s + 1)); [|lia].
  match type of E with rbind ?m _ = _ => destruct m as [((s1, h1), a1)|] eqn:U end; [|discriminate]. cbn [rbind] in E.
  assert (B : 1 <= abort_octets s1).
  { repeat match type of U with (if ?b then _ else _) = _ => destruct b end; try (injection U as <- <- <-; cbn; lia).
    unfold underflow in U. destruct h as [|l h]; [injection U as <- <- <-; cbn; lia|].
    match type of U with rbind ?m _ = _ => destruct m as [(y, b)|] eqn:EQ end; [|discriminate]. cbn [rbind] in U. injection U as <- <- <-.
    apply uops_abort in EQ; cbn [abort_octets tset_flags tset_abort] in *; lia. }
  destruct (Z.eqb_spec (abort_octets s1) 0); [lia|]. cbn [negb] in E. injection E as <- <- <- <-. auto.
Qed.
