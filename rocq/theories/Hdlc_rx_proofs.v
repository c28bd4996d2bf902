(** HDLC receiver. *)
From Verif Require Import Base Bits Crc_model Crc_spec Crc_proofs BitOps_proofs Hdlc_model Hdlc_spec.
From Coq Require Import ZifyBool ZifyNat.
Ltac Zify.zify_post_hook ::= Z.div_mod_to_equations.

Inductive kind := Skip | Mark (abort : bool) | Data (b : bool).
Definition classify (w : Z) : kind :=
  if (Z.land w 0x3E =? 0x3E) && (Z.land w 0x41 =? 0) then Skip
  else if (Z.land w 0x3E =? 0x3E) && (Z.land w 0xFE =? 0x7E) then Mark (negb (Z.land w 1 =? 0))
  else Data (negb (Z.land w 1 =? 0)).
Definition win (r : Z) : Z := (r / 256) mod 256.

Definition mark (c : rxcfg) (ab : bool) (s : rxs) : res (rxs * list ev) :=
  let t := framing_ok_threshold c in
  do (s, e) <-
    (if ab then
       let s := add_counts s 0 0 0 0 1 in
       let s := set_flags s (announced s) (if flags_seen s <? t - 1 then 0 else t - 1) in
       let '(s, e) := octet_set_and_count c s in
       Ok (s, EStatus SIG_STATUS_ABORT :: e)
     else
       let s := set_oc s false (oc s) in
       if t <=? flags_seen s then end_of_frame c s
       else
         let f := if negb (flags_seen s =? t - 1) && negb (nb s =? 7)
                  then (if flags_seen s <? t - 1 then 0 else t - 1) else flags_seen s in
         let f := f + 1 in
         if (t <=? f) && negb (announced s) then Ok (set_flags s true f, [EStatus SIG_STATUS_FRAMING_OK])
         else Ok (set_flags s (announced s) f, []));
  Ok (set_bits (set_buf s (buf s) 0) (bip s) 0, e).
Definition data (c : rxcfg) (x : bool) (s : rxs) : res (rxs * list ev) :=
    let n := nb s + 1 in
    if flags_seen s <? framing_ok_threshold c then
      let s := set_bits s (bip s) n in
      if Z.land n 7 =? 0 then Ok (octet_count c s) else Ok (s, [])
    else
      let b := Z.shiftr (Z.lor (bip s) (256 * Z.b2z x)) 1 in
      if n =? 8 then
        if len s <? max_len s then
          do bf <- aset (buf s) (len s) (u8 b);
          Ok (set_bits (set_buf s bf (len s + 1)) b 0, [])
        else
          let s := set_flags (set_buf s (buf s) (BUF_LEN + 1)) (announced s) (framing_ok_threshold c - 1) in
          let '(s, e) := octet_set_and_count c s in
          Ok (set_bits s b 0, e)
      else Ok (set_bits s b n, []).
Definition act (c : rxcfg) (k : kind) (s : rxs) : res (rxs * list ev) :=
  match k with Skip => Ok (s, []) | Mark a => mark c a s | Data b => data c b s end.

Lemma land_win r m : 0 <= m < 256 -> Z.land r (256 * m) = 256 * Z.land (win r) m.
Proof.
  intros Hm. unfold win. change 256 with (2 ^ 8).
  apply Z.bits_inj'. intros n Hn.
  rewrite Z.land_spec, (Z.mul_comm (2 ^ 8) m), (Z.mul_comm (2 ^ 8) (Z.land _ _)), <- !Z.shiftl_mul_pow2, !Z.shiftl_spec, Z.land_spec by lia.
  destruct (Z.ltb_spec n 8); [rewrite (Z.testbit_neg_r m) by lia; rewrite ?andb_false_r; reflexivity|].
  destruct (Z.ltb_spec n 16).
  - rewrite Z.mod_pow2_bits_low, Z.div_pow2_bits by lia. f_equal. f_equal. lia.
  - rewrite (testbit_small m 8 (n - 8)) by (try lia; change (2^8) with 256; lia). rewrite !andb_false_r. reflexivity.
Qed.
Lemma land1_odd w : Z.land w 1 = Z.b2z (Z.odd w).
Proof. change 1 with (Z.ones 1). rewrite Z.land_ones by lia. change (2 ^ 1) with 2. rewrite Zmod_odd. destruct (Z.odd w); reflexivity. Qed.
Lemma core_act c s : hdlc_rx_put_bit_core c s = act c (classify (win (raw s))) s.
Proof.
  unfold hdlc_rx_put_bit_core, classify.
  change 0x3E00 with (256 * 0x3E). change 0x4100 with (256 * 0x41). change 0xFE00 with (256 * 0xFE). change 0x7E00 with (256 * 0x7E).
  rewrite !land_win by lia.
  replace (256 * Z.land (win (raw s)) 62 =? 256 * 62) with (Z.land (win (raw s)) 62 =? 62) by lia.
  replace (256 * Z.land (win (raw s)) 254 =? 256 * 126) with (Z.land (win (raw s)) 254 =? 126) by lia.
  replace (256 * Z.land (win (raw s)) 65 =? 0) with (Z.land (win (raw s)) 65 =? 0) by lia.
  destruct (Z.land (win (raw s)) 62 =? 62) eqn:A, (Z.land (win (raw s)) 65 =? 0) eqn:B, (Z.land (win (raw s)) 254 =? 126) eqn:C;
    cbn [andb act]; try reflexivity.
  all: try (unfold rx_flag_or_abort, mark; change 0x100 with (256 * 1); rewrite land_win by lia;
    replace (256 * Z.land (win (raw s)) 1 =? 0) with (Z.land (win (raw s)) 1 =? 0) by lia; reflexivity).
  all: unfold data; cbv zeta; change (Z.land (raw s) 256) with (Z.land (raw s) (256 * 1)); rewrite land_win by lia;
    rewrite land1_odd; replace (negb (Z.b2z (Z.odd (win (raw s))) =? 0)) with (Z.odd (win (raw s))) by (destruct (Z.odd (win (raw s))); reflexivity);
    reflexivity.
Qed.
Definition with_raw (r : Z) (m : res (rxs * list ev)) : res (rxs * list ev) := do (s, e) <- m; Ok (set_raw s r, e).
Lemma osc_raw c s r : octet_set_and_count c (set_raw s r) = (set_raw (fst (octet_set_and_count c s)) r, snd (octet_set_and_count c s)).
Proof.
  unfold octet_set_and_count, octet_count. cbn [ocm oc set_raw].
  destruct (_ =? 0); [reflexivity|]. destruct (ocm s); [|reflexivity]. destruct (oc s - 1 <=? 0); reflexivity.
Qed.
Lemma oc_raw c s r : octet_count c (set_raw s r) = (set_raw (fst (octet_count c s)) r, snd (octet_count c s)).
Proof.
  unfold octet_count. cbn [ocm oc set_raw].
  destruct (_ =? 0); [reflexivity|]. destruct (ocm s); [|reflexivity]. destruct (oc s - 1 <=? 0); reflexivity.
Qed.
Lemma eof_raw c s r : end_of_frame c (set_raw s r) = with_raw r (end_of_frame c s).
Proof.
  unfold end_of_frame, with_raw. cbn [len nb max_len buf set_raw].
  destruct (len s =? 0); [reflexivity|]. destruct (_ && _ && _).
  - destruct (crc_check c (buf s) (len s)) as [[|]|]; cbn [rbind orb]; [| |reflexivity].
    + destruct (aslice _ _ _); reflexivity.
    + destruct (report_bad_frames c); [|reflexivity]. destruct (aslice _ _ _); reflexivity.
  - destruct (report_bad_frames c); [|reflexivity]. destruct (aslice _ _ _); reflexivity.
Qed.
Lemma mark_raw c a s r : mark c a (set_raw s r) = with_raw r (mark c a s).
Proof.
  unfold mark, with_raw. destruct a.
  - change (set_flags (add_counts (set_raw s r) 0 0 0 0 1) (announced (add_counts (set_raw s r) 0 0 0 0 1))
      (if flags_seen (add_counts (set_raw s r) 0 0 0 0 1) <? framing_ok_threshold c - 1 then 0 else framing_ok_threshold c - 1)) with
      (set_raw (set_flags (add_counts s 0 0 0 0 1) (announced (add_counts s 0 0 0 0 1))
      (if flags_seen (add_counts s 0 0 0 0 1) <? framing_ok_threshold c - 1 then 0 else framing_ok_threshold c - 1)) r).
    cbv zeta. rewrite osc_raw. destruct (octet_set_and_count c _). reflexivity.
  - change (set_oc (set_raw s r) false (oc (set_raw s r))) with (set_raw (set_oc s false (oc s)) r). cbv zeta.
    rewrite eof_raw. cbn [flags_seen set_raw nb announced].
    destruct (_ <=? flags_seen _).
    + unfold with_raw. destruct (end_of_frame c _) as [[? ?]|]; reflexivity.
    + destruct (_ && negb (announced _)); reflexivity.
Qed.
Lemma data_raw c b s r : data c b (set_raw s r) = with_raw r (data c b s).
Proof.
  unfold data, with_raw. cbn [flags_seen nb bip len max_len buf announced set_raw].
  destruct (_ <? _).
  - change (set_bits (set_raw s r) (bip s) (nb s + 1)) with (set_raw (set_bits s (bip s) (nb s + 1)) r). cbv zeta.
    rewrite oc_raw. destruct (_ =? 0); [|reflexivity]. destruct (octet_count c _). reflexivity.
  - destruct (_ =? 8); [|reflexivity]. destruct (len s <? max_len s).
    + destruct (aset _ _ _); reflexivity.
    + change (set_flags (set_buf (set_raw s r) (buf s) (BUF_LEN + 1)) (announced s) (framing_ok_threshold c - 1))
        with (set_raw (set_flags (set_buf s (buf s) (BUF_LEN + 1)) (announced s) (framing_ok_threshold c - 1)) r). cbv zeta.
      rewrite osc_raw. cbn [announced set_buf]. destruct (octet_set_and_count c _). reflexivity.
Qed.
Lemma act_raw c k s r : act c k (set_raw s r) = with_raw r (act c k s).
Proof. destruct k; [reflexivity|apply mark_raw|apply data_raw]. Qed.

Definition zbit (b : bool) : Z := Z.b2z b.
Definition next_raw (r : Z) (b : bool) : Z := u32 (2 * r) + 256 * Z.b2z b.
Definition raw_ok (r : Z) : Prop := 0 <= r < 2 ^ 32 /\ r mod 256 = 0.
Lemma shiftl_1 r : Z.shiftl r 1 = 2 * r.
Proof. rewrite Z.shiftl_mul_pow2 by lia. change (2 ^ 1) with 2. lia. Qed.
Lemma new_raw r z : Z.lor (u32 (Z.shiftl r 1)) (Z.land (Z.shiftl z 8) 0x100) = Z.lor (u32 (2 * r)) (256 * Z.b2z (Z.odd z)).
Proof.
  rewrite shiftl_1. f_equal. rewrite Z.shiftl_mul_pow2 by lia. change (2 ^ 8) with 256.
  change 0x100 with (256 * 1). rewrite land_win by lia. f_equal. unfold win. rewrite Z.div_mul by lia. rewrite land1_odd. f_equal.
  rewrite <- !Z.bit0_odd. change 256 with (2 ^ 8). apply Z.mod_pow2_bits_low. lia.
Qed.
(** the window register *)
Definition next_win (w : Z) (b : bool) : Z := (2 * w + Z.b2z b) mod 256.
Lemma raw_next r b : raw_ok r -> raw_ok (next_raw r b) /\ win (next_raw r b) = next_win (win r) b /\
  Z.lor (u32 (Z.shiftl r 1)) (Z.land (Z.shiftl (Z.b2z b) 8) 0x100) = next_raw r b.
Proof.
  unfold raw_ok, next_raw, next_win, win. intros [Hr Hm]. change (2 ^ 32) with 4294967296 in *.
  rewrite new_raw. replace (Z.odd (Z.b2z b)) with b by (destruct b; reflexivity).
  assert (E : u32 (2 * r) = 512 * ((r / 256) mod 8388608)) by (unfold u32; lia).
  assert (L : Z.lor (u32 (2 * r)) (256 * Z.b2z b) = u32 (2 * r) + 256 * Z.b2z b).
  { rewrite E, Z.lor_comm. replace (512 * ((r / 256) mod 8388608)) with ((r / 256) mod 8388608 * 2 ^ 9) by (change (2 ^ 9) with 512; lia).
    rewrite lor_disj by (destruct b; cbn; lia). lia. }
  rewrite L, E. split; [destruct b; cbn [Z.b2z]; lia|]. split; [destruct b; cbn [Z.b2z]; lia|reflexivity].
Qed.
Lemma put_bit_act c s b : raw_ok (raw s) ->
  hdlc_rx_put_bit c s (Z.b2z b) = with_raw (next_raw (raw s) b) (act c (classify (next_win (win (raw s)) b)) s).
Proof.
  intros H. destruct (raw_next _ b H) as (_ & W & E). unfold hdlc_rx_put_bit.
  destruct (Z.ltb_spec (Z.b2z b) 0) as [L|_]; [destruct b; cbn in L; lia|].
  rewrite E, core_act, <- W. cbn [raw set_raw]. apply act_raw.
Qed.
(** feeding bits *)
Fixpoint rx_bits (c : rxcfg) (s : rxs) (l : list bool) : res (rxs * list ev) :=
  match l with
  | [] => Ok (s, [])
  | b :: l => do (s, e) <- hdlc_rx_put_bit c s (Z.b2z b); do (s, e') <- rx_bits c s l; Ok (s, e ++ e')
  end.
Lemma rx_bits_app c l1 : forall l2 s, rx_bits c s (l1 ++ l2) = do (s, e) <- rx_bits c s l1; do (s, e') <- rx_bits c s l2; Ok (s, e ++ e').
Proof.
  induction l1 as [|b l1 IH]; intros l2 s; cbn [rx_bits app rbind].
  - destruct (rx_bits c s l2) as [[? ?]|]; reflexivity.
  - destruct (hdlc_rx_put_bit c s (Z.b2z b)) as [[s1 e1]|]; cbn [rbind]; [|reflexivity]. rewrite IH.
    destruct (rx_bits c s1 l1) as [[s2 e2]|]; cbn [rbind]; [|reflexivity].
    destruct (rx_bits c s2 l2) as [[s3 e3]|]; cbn [rbind]; [|reflexivity]. rewrite app_assoc. reflexivity.
Qed.
Lemma set_raw_raw s a b : set_raw (set_raw s a) b = set_raw s b. Proof. reflexivity. Qed.
Lemma set_raw_id s : set_raw s (raw s) = s. Proof. destruct s; reflexivity. Qed.
Lemma with_raw_keeps r m s e : with_raw r m = Ok (s, e) -> raw s = r.
Proof. unfold with_raw. destruct m as [[? ?]|]; cbn [rbind]; intros H; inversion H; reflexivity. Qed.

(** ---- octet interface = bit interface ---- *)
Definition hi (k : Z) (x : Z) : Z := x / 2 ^ k.
Lemma put_byte_loop_bits c n : forall s r l, raw_ok r -> length l = n -> (n <= 8)%nat ->
  put_byte_loop c n (set_raw s (r + of_bits_msb l * 2 ^ Z.of_nat (8 - n))) = rx_bits c (set_raw s r) l.
Proof.
  induction n as [|n IH]; intros s r l Hr Hl Hn.
  - destruct l; [|discriminate]. cbn [put_byte_loop rx_bits]. change (of_bits_msb []) with 0.
    rewrite Z.mul_0_l, Z.add_0_r. reflexivity.
  - destruct l as [|b l]; [discriminate|]. injection Hl as Hl. cbn [put_byte_loop rx_bits].
    destruct (raw_next _ b Hr) as (Hr' & W & _).
    rewrite put_bit_act by exact Hr. cbn [raw set_raw].
    change (b :: l) with ([b] ++ l). rewrite of_bits_msb_app, Hl.
    change (of_bits_msb [b]) with (Z.b2z b + 2 * 0).
    pose proof (of_bits_msb_range l) as R. rewrite Hl in R.
    set (v := of_bits_msb l) in *.
    assert (P : 2 ^ Z.of_nat n * 2 ^ Z.of_nat (8 - S n) = 128).
    { rewrite <- Z.pow_add_r by lia. replace (Z.of_nat n + Z.of_nat (8 - S n)) with 7 by lia. reflexivity. }
    assert (P' : 2 ^ Z.of_nat (8 - n) = 2 * 2 ^ Z.of_nat (8 - S n)).
    { replace (Z.of_nat (8 - n)) with (Z.succ (Z.of_nat (8 - S n))) by lia. rewrite Z.pow_succ_r by lia. reflexivity. }
    set (y := v * 2 ^ Z.of_nat (8 - S n)) in *.
    assert (Y : 0 <= y < 128). { subst y. rewrite <- P. pose proof (p2_pos (8 - S n)). nia. }
    replace (((Z.b2z b + 2 * 0) * 2 ^ Z.of_nat n + v) * 2 ^ Z.of_nat (8 - S n)) with (Z.b2z b * 128 + y) by (subst y; rewrite <- P; ring).
    assert (E : u32 (Z.shiftl (r + (Z.b2z b * 128 + y)) 1) = next_raw r b + v * 2 ^ Z.of_nat (8 - n)).
    { rewrite P'. replace (v * (2 * 2 ^ Z.of_nat (8 - S n))) with (2 * y) by (subst y; ring).
      rewrite shiftl_1. unfold next_raw, u32. destruct Hr as [A B]. change (2 ^ 32) with 4294967296 in *. clear - A B Y. destruct b; cbn [Z.b2z]; lia. }
    rewrite set_raw_raw, E, core_act. cbn [raw set_raw].
    assert (W' : win (next_raw r b + v * 2 ^ Z.of_nat (8 - n)) = win (next_raw r b)).
    { rewrite P'. replace (v * (2 * 2 ^ Z.of_nat (8 - S n))) with (2 * y) by (subst y; ring).
      unfold win. destruct Hr' as [_ M]. clear - M Y. replace ((next_raw r b + 2 * y) / 256) with (next_raw r b / 256) by lia. reflexivity. }
    rewrite W', W, !act_raw. unfold with_raw.
    destruct (act c (classify (next_win (win r) b)) s) as [[s1 e1]|]; cbn [rbind]; [|reflexivity].
    pose proof (IH s1 (next_raw r b) l Hr' Hl ltac:(lia)) as I. fold v in I. rewrite I. reflexivity.
Qed.
Lemma put_byte_bits c s x : raw_ok (raw s) -> byte x -> hdlc_rx_put_byte c s x = rx_bits c s (bits_msb 8 x).
Proof.
  intros H Hx. unfold hdlc_rx_put_byte. destruct (Z.ltb_spec x 0); [unfold byte in Hx; lia|].
  assert (E : u32 (Z.lor (raw s) x) = raw s + of_bits_msb (bits_msb 8 x) * 2 ^ Z.of_nat (8 - 8)).
  { rewrite of_bits_msb_bits by (unfold byte in Hx; cbn; lia). change (2 ^ Z.of_nat (8 - 8)) with 1.
    destruct H as [A B]. unfold byte in Hx. rewrite Z.lor_comm.
    replace (raw s) with (raw s / 256 * 2 ^ 8) at 1 by (change (2 ^ 8) with 256; lia).
    rewrite lor_disj by (change (2 ^ 8) with 256; lia). unfold u32. change (2 ^ 8) with 256. change (2 ^ 32) with 4294967296 in A. lia. }
  rewrite E, put_byte_loop_bits by (rewrite ?bits_msb_length; auto; lia). rewrite set_raw_id. reflexivity.
Qed.

(** ---- runs of ones ---- *)
Definition run (w : Z) (k : nat) : Prop := 0 <= w < 256 /\ w mod 2 ^ (Z.of_nat k + 1) = 2 ^ Z.of_nat k - 1.
Definition runb (w : Z) (k : nat) : bool := w mod 2 ^ (Z.of_nat k + 1) =? 2 ^ Z.of_nat k - 1.
Definition kind_eqb (a b : kind) : bool :=
  match a, b with Skip, Skip => true | Mark x, Mark y => Bool.eqb x y | Data x, Data y => Bool.eqb x y | _, _ => false end.
Lemma kind_eqb_eq a b : kind_eqb a b = true -> a = b.
Proof. destruct a, b; cbn; intros H; try discriminate; try reflexivity; apply Bool.eqb_prop in H; congruence. Qed.
Definition cls_fact (w : Z) : bool :=
  forallb (fun b => forallb (fun k => negb (runb w k) || (kind_eqb (classify (next_win w b)) (Data b) && runb (next_win w b) (if b then S k else 0%nat))) [0;1;2;3;4]%nat) [true; false]
  && (negb (runb w 5) || (kind_eqb (classify (next_win w true)) (Data true) && runb (next_win w true) 6 && kind_eqb (classify (next_win w false)) Skip && runb (next_win w false) 0))
  && (negb (runb w 6) || (kind_eqb (classify (next_win w true)) (Mark true) && runb (next_win w true) 7 && kind_eqb (classify (next_win w false)) (Mark false) && runb (next_win w false) 0)).
Lemma cls_facts w : 0 <= w < 256 -> cls_fact w = true.
Proof. apply sweep. vm_compute. reflexivity. Qed.
Lemma next_win_range w b : 0 <= next_win w b < 256.
Proof. unfold next_win. lia. Qed.
Lemma run_iff w k : 0 <= w < 256 -> runb w k = true -> run w k.
Proof. intros H E. split; [exact H|]. unfold runb in E. lia. Qed.
Lemma cls_data w k b : run w k -> (k <= 4)%nat -> classify (next_win w b) = Data b /\ run (next_win w b) (if b then S k else 0%nat).
Proof.
  intros [Hw Hk] L. pose proof (cls_facts w Hw) as F. unfold cls_fact in F.
  apply andb_true_iff in F as [F _]. apply andb_true_iff in F as [F _].
  rewrite forallb_forall in F. specialize (F b ltac:(destruct b; cbn; auto)). cbv beta in F.
  rewrite forallb_forall in F. specialize (F k ltac:(cbn; lia)). cbv beta in F.
  replace (runb w k) with true in F by (unfold runb; lia). cbn [negb orb] in F. apply andb_true_iff in F as [F1 F2].
  split; [apply kind_eqb_eq, F1|]. apply run_iff; [apply next_win_range|exact F2].
Qed.
Lemma cls_5 w : run w 5 -> classify (next_win w true) = Data true /\ run (next_win w true) 6 /\ classify (next_win w false) = Skip /\ run (next_win w false) 0.
Proof.
  intros [Hw Hk]. pose proof (cls_facts w Hw) as F. unfold cls_fact in F.
  apply andb_true_iff in F as [F _]. apply andb_true_iff in F as [_ F].
  replace (runb w 5) with true in F by (unfold runb; lia). cbn [negb orb] in F.
  apply andb_true_iff in F as [F D]. apply andb_true_iff in F as [F C]. apply andb_true_iff in F as [A B].
  repeat split; auto using kind_eqb_eq; try apply next_win_range; unfold runb in *; lia.
Qed.
Lemma cls_6 w : run w 6 -> classify (next_win w true) = Mark true /\ run (next_win w true) 7 /\ classify (next_win w false) = Mark false /\ run (next_win w false) 0.
Proof.
  intros [Hw Hk]. pose proof (cls_facts w Hw) as F. unfold cls_fact in F.
  apply andb_true_iff in F as [_ F].
  replace (runb w 6) with true in F by (unfold runb; lia). cbn [negb orb] in F.
  apply andb_true_iff in F as [F D]. apply andb_true_iff in F as [F C]. apply andb_true_iff in F as [A B].
  repeat split; auto using kind_eqb_eq; try apply next_win_range; unfold runb in *; lia.
Qed.

(** ---- collecting a frame ---- *)
Definition bip_ok (x : Z) (p : list bool) : Prop := exists lo, x = of_bits_lsb p * 2 ^ Z.of_nat (8 - length p) + lo /\ 0 <= lo < 2 ^ Z.of_nat (8 - length p).
Lemma bip_range x p : (length p <= 8)%nat -> bip_ok x p -> 0 <= x < 256.
Proof.
  intros L (lo & -> & H). pose proof (of_bits_lsb_range p) as R.
  assert (P : 2 ^ Z.of_nat (length p) * 2 ^ Z.of_nat (8 - length p) = 256).
  { rewrite <- Z.pow_add_r by lia. replace (Z.of_nat _ + Z.of_nat _) with 8 by lia. reflexivity. }
  nia.
Qed.
Lemma bip_step x p b : (length p < 8)%nat -> bip_ok x p -> bip_ok (Z.shiftr (Z.lor x (256 * Z.b2z b)) 1) (p ++ [b]).
Proof.
  intros L H. pose proof (bip_range x p ltac:(lia) H) as R. destruct H as (lo & E & Hlo).
  replace (256 * Z.b2z b) with (Z.b2z b * 2 ^ 8) by (change (2 ^ 8) with 256; lia).
  rewrite lor_disj by (change (2 ^ 8) with 256; lia). change (2 ^ 8) with 256.
  rewrite Z.shiftr_div_pow2 by lia. change (2 ^ 1) with 2.
  unfold bip_ok. rewrite app_length. cbn [length]. rewrite of_bits_lsb_app. cbn [of_bits_lsb].
  assert (P : 2 ^ Z.of_nat (8 - length p) = 2 * 2 ^ Z.of_nat (8 - (length p + 1))).
  { replace (Z.of_nat (8 - length p)) with (Z.succ (Z.of_nat (8 - (length p + 1)))) by lia. apply Z.pow_succ_r. lia. }
  assert (Q : 2 ^ Z.of_nat (length p) * 2 ^ Z.of_nat (8 - (length p + 1)) = 128).
  { rewrite <- Z.pow_add_r by lia. replace (Z.of_nat _ + Z.of_nat _) with 7 by lia. reflexivity. }
  exists (lo / 2). rewrite P in E, Hlo. set (h := 2 ^ Z.of_nat (8 - (length p + 1))) in *.
  split; [|lia].
  replace ((of_bits_lsb p + 2 ^ Z.of_nat (length p) * (Z.b2z b + 2 * 0)) * h) with (of_bits_lsb p * h + Z.b2z b * 128)
    by (rewrite <- Q; ring).
  rewrite E. replace (of_bits_lsb p * (2 * h) + lo + Z.b2z b * 256) with (lo + (of_bits_lsb p * h + Z.b2z b * 128) * 2) by ring.
  rewrite Z.div_add by lia. lia.
Qed.

Definition synced (c : rxcfg) (s : rxs) : Prop := flags_seen s = framing_ok_threshold c.
Record inframe (c : rxcfg) (s : rxs) (d : list Z) (p : list bool) (k : nat) : Prop := {
  if_raw : raw_ok (raw s); if_run : run (win (raw s)) k; if_sync : flags_seen s = framing_ok_threshold c;
  if_buf : exists rest, buf s = d ++ rest; if_blen : length (buf s) = Z.to_nat BUF_LEN; if_len : len s = Z.of_nat (length d);
  if_max : Z.of_nat (length d) <= max_len s <= BUF_LEN;
  if_nb : nb s = Z.of_nat (length p); if_p : (length p < 8)%nat; if_bip : bip_ok (bip s) p; if_bytes : bytes d }.

Lemma step_data c s d p k b : inframe c s d p k -> (k <= 4)%nat \/ k = 5%nat /\ b = true ->
  ((length p < 7)%nat \/ Z.of_nat (length d) < max_len s) ->
  exists s' d' p', hdlc_rx_put_bit c s (Z.b2z b) = Ok (s', []) /\ inframe c s' d' p' (if b then S k else 0%nat) /\ wire d' ++ p' = wire d ++ p ++ [b] /\
    max_len s' = max_len s /\ (length p < 7 -> d' = d /\ p' = p ++ [b])%nat.
Proof.
  intros [Hraw Hrun Hs (rest & Hb) Hbl Hlen Hmax Hnb Hp Hbip Hby] Hk Hroom.
  assert (K : classify (next_win (win (raw s)) b) = Data b /\ run (next_win (win (raw s)) b) (if b then S k else 0%nat)).
  { destruct Hk as [Hk|[-> ->]]; [apply cls_data; auto|]. destruct (cls_5 _ Hrun) as (A & B & _). auto. }
  destruct K as [K1 K2]. destruct (raw_next _ b Hraw) as (R1 & R2 & _).
  rewrite put_bit_act by auto. rewrite K1. cbn [act]. unfold data.
  rewrite Hs. destruct (Z.ltb_spec (framing_ok_threshold c) (framing_ok_threshold c)) as [C|_]; [lia|]. cbv zeta.
  pose proof (bip_step _ _ b Hp Hbip) as B. set (x := Z.shiftr (Z.lor (bip s) (256 * Z.b2z b)) 1) in *.
  destruct (Z.eqb_spec (nb s + 1) 8) as [E8|E8].
  - assert (L7 : length p = 7%nat) by lia.
    destruct (Z.ltb_spec (len s) (max_len s)) as [Lm|Lm]; [|lia].
    assert (Lr : rest <> []). { intros ->. rewrite app_nil_r in Hb. rewrite Hb in Hbl. change (Z.to_nat BUF_LEN) with 404%nat in Hbl. unfold BUF_LEN in *. lia. }
    destruct rest as [|r0 rest]; [congruence|]. clear Lr.
    rewrite Hb, Hlen, aset_app. cbn [rbind with_raw].
    assert (Px : x = of_bits_lsb (p ++ [b])).
    { destruct B as (lo & E & H). rewrite app_length, L7 in E, H. cbn [length] in E, H. change (2 ^ Z.of_nat (8 - (7 + 1))) with 1 in E, H. lia. }
    assert (Rx : 0 <= x < 256). { apply (bip_range x (p ++ [b])); [rewrite app_length; cbn; lia|exact B]. }
    exists (set_raw (set_bits (set_buf s (d ++ u8 x :: rest) (Z.of_nat (length d) + 1)) x 0) (next_raw (raw s) b)), (d ++ [x]), [].
    split; [reflexivity|]. split; [|split; [|split; [reflexivity|intros; lia]]].
    + split; cbn [raw set_raw set_bits set_buf flags_seen buf len max_len nb bip].
      * exact R1.
      * rewrite R2. exact K2.
      * exact Hs.
      * exists rest. rewrite <- app_assoc. cbn [app]. unfold u8. rewrite Z.mod_small by lia. reflexivity.
      * rewrite <- Hbl, Hb. rewrite !app_length. reflexivity.
      * rewrite app_length. cbn [length]. lia.
      * rewrite app_length. cbn [length]. lia.
      * reflexivity.
      * cbn. lia.
      * exists x. cbn [of_bits_lsb length]. change (2 ^ Z.of_nat (8 - 0)) with 256. lia.
      * apply Forall_app. split; [exact Hby|]. constructor; [exact Rx|constructor].
    + rewrite wire_app. cbn [wire flat_map]. rewrite !app_nil_r. f_equal. rewrite Px.
      replace 8%nat with (length (p ++ [b])) by (rewrite app_length, L7; reflexivity). apply bits_lsb_of_bits.
  - cbn [rbind with_raw]. exists (set_raw (set_bits s x (nb s + 1)) (next_raw (raw s) b)), d, (p ++ [b]).
    split; [reflexivity|]. split; [|split; [reflexivity|split; [reflexivity|auto]]].
    split; cbn [raw set_raw set_bits set_buf flags_seen buf len max_len nb bip]; auto.
    + rewrite R2. exact K2.
    + exists rest. exact Hb.
    + rewrite app_length. cbn [length]. lia.
    + rewrite app_length. cbn [length]. lia.
Qed.
Lemma step_skip c s d p : inframe c s d p 5 ->
  exists s', hdlc_rx_put_bit c s (Z.b2z false) = Ok (s', []) /\ inframe c s' d p 0 /\ max_len s' = max_len s.
Proof.
  intros [Hraw Hrun Hs (rest & Hb) Hbl Hlen Hmax Hnb Hp Hbip Hby].
  destruct (cls_5 _ Hrun) as (_ & _ & A & B). destruct (raw_next _ false Hraw) as (R1 & R2 & _).
  rewrite put_bit_act by auto. rewrite A. cbn [act with_raw rbind].
  exists (set_raw s (next_raw (raw s) false)). split; [reflexivity|]. split; [|reflexivity].
  split; cbn [raw set_raw flags_seen buf len max_len nb bip]; auto.
  - rewrite R2. exact B.
  - exists rest. exact Hb.
Qed.
Fixpoint stuff_end (k : nat) (l : list bool) : nat :=
  match l with
  | [] => k
  | false :: l => stuff_end 0 l
  | true :: l => if (k =? 4)%nat then stuff_end 0 l else stuff_end (S k) l
  end.
Lemma stuff_end_le l : forall k, (k <= 4)%nat -> (stuff_end k l <= 4)%nat.
Proof.
  induction l as [|[|] l IH]; intros k Hk; cbn [stuff_end]; [exact Hk| |apply IH; lia].
  destruct (Nat.eqb_spec k 4); apply IH; lia.
Qed.
Lemma stuff_app a : forall k b, stuff k (a ++ b) = stuff k a ++ stuff (stuff_end k a) b.
Proof.
  induction a as [|[|] a IH]; intros k b; cbn [stuff app stuff_end]; [reflexivity| |rewrite IH; reflexivity].
  destruct (k =? 4)%nat; rewrite IH; reflexivity.
Qed.
Lemma stuff_end_app a : forall k b, stuff_end k (a ++ b) = stuff_end (stuff_end k a) b.
Proof.
  induction a as [|[|] a IH]; intros k b; cbn [app stuff_end]; [reflexivity| |apply IH].
  destruct (k =? 4)%nat; apply IH.
Qed.
Lemma feed_stuffed c l : forall s d p k, inframe c s d p k -> (k <= 4)%nat ->
  8 * Z.of_nat (length d) + Z.of_nat (length p) + Z.of_nat (length l) <= 8 * max_len s ->
  exists s' d' p', rx_bits c s (stuff k l) = Ok (s', []) /\ inframe c s' d' p' (stuff_end k l) /\ wire d' ++ p' = wire d ++ p ++ l /\ max_len s' = max_len s.
Proof.
  induction l as [|b l IH]; intros s d p k H Hk Hroom.
  - exists s, d, p. rewrite app_nil_r. cbn [stuff rx_bits stuff_end]. auto.
  - cbn [length] in Hroom.
    destruct (step_data c s d p k b H (or_introl Hk)) as (s1 & d1 & p1 & E1 & I1 & W1 & M1 & _).
    { pose proof (if_p _ _ _ _ _ H). destruct (Nat.lt_ge_cases (length p) 7); [left; auto|right; lia]. }
    assert (Hlen : 8 * Z.of_nat (length d1) + Z.of_nat (length p1) = 8 * Z.of_nat (length d) + Z.of_nat (length p) + 1).
    { apply (f_equal (@length bool)) in W1. rewrite !app_length, !wire_length in W1. cbn [length] in W1. lia. }
    destruct b.
    + cbn [stuff stuff_end]. destruct (Nat.eqb_spec k 4) as [->|Hk4].
      * cbn [rx_bits]. rewrite E1. cbn [rbind].
        destruct (step_skip c s1 d1 p1 I1) as (s2 & E2 & I2 & M2). rewrite E2. cbn [rbind].
        destruct (IH s2 d1 p1 0%nat I2 ltac:(lia) ltac:(lia)) as (s3 & d3 & p3 & E3 & I3 & W3 & M3).
        rewrite E3. cbn [rbind app]. exists s3, d3, p3. split; [reflexivity|]. split; [exact I3|]. split; [|lia].
        rewrite W3, app_assoc, W1, <- !app_assoc. reflexivity.
      * cbn [rx_bits]. rewrite E1. cbn [rbind].
        destruct (IH s1 d1 p1 (S k) I1 ltac:(lia) ltac:(lia)) as (s3 & d3 & p3 & E3 & I3 & W3 & M3).
        rewrite E3. cbn [rbind app]. exists s3, d3, p3. split; [reflexivity|]. split; [exact I3|]. split; [|lia].
        rewrite W3, app_assoc, W1, <- !app_assoc. reflexivity.
    + cbn [stuff stuff_end rx_bits]. rewrite E1. cbn [rbind].
      destruct (IH s1 d1 p1 0%nat I1 ltac:(lia) ltac:(lia)) as (s3 & d3 & p3 & E3 & I3 & W3 & M3).
      rewrite E3. cbn [rbind app]. exists s3, d3, p3. split; [reflexivity|]. split; [exact I3|]. split; [|lia].
      rewrite W3, app_assoc, W1, <- !app_assoc. reflexivity.
Qed.

(** ---- flags ---- *)
Definition crcb (x : bool) : nat := if x then 4%nat else 2%nat.
Lemma rx_crcb c : rx_crc_bytes c = Z.of_nat (crcb (rx_crc32 c)).
Proof. unfold rx_crc_bytes, crcb. destruct (rx_crc32 c); reflexivity. Qed.
Lemma fcs_length x m : length (fcs x m) = crcb x. Proof. destruct x; reflexivity. Qed.
Lemma fcs_bytes x m : bytes (fcs x m). Proof. destruct x; [apply fcs32_bytes|apply fcs16_bytes]. Qed.
Lemma crc_check_some c d rest : bytes d ->
  crc_check c (d ++ rest) (Z.of_nat (length d)) =
    Ok (if rx_crc32 c then crc32 d 0xFFFFFFFF =? 0xDEBB20E3 else crc16 d 0xFFFF =? 0xF0B8).
Proof.
  intros Hd. unfold crc_check, rx_crc_bytes. destruct (rx_crc32 c); cbn [Z.eqb].
  - replace (4 =? 2) with false by reflexivity. unfold crc_itu32_check. rewrite aslice_app. cbn [rbind].
    rewrite calc32 by (auto; lia). reflexivity.
  - replace (2 =? 2) with true by reflexivity. unfold crc_itu16_check. rewrite aslice_app. cbn [rbind]. rewrite calc16 by auto.
    pose proof (crc16_wf d 0xFFFF ltac:(lia)).
    change (Z.land (crc16 d 65535) 65535) with (Z.land (crc16 d 65535) (Z.ones 16)).
    rewrite Z.land_ones by lia. rewrite Z.mod_small by auto. reflexivity.
Qed.
Lemma crc_check_good c m rest : bytes m ->
  crc_check c ((m ++ fcs (rx_crc32 c) m) ++ rest) (Z.of_nat (length (m ++ fcs (rx_crc32 c) m))) = Ok true.
Proof.
  intros H. rewrite crc_check_some by (apply Forall_app; split; [exact H|apply fcs_bytes]).
  unfold fcs. destruct (rx_crc32 c); [rewrite residue32|rewrite residue16]; reflexivity.
Qed.
Lemma crc_check_only c m f rest : bytes m -> bytes f -> length f = crcb (rx_crc32 c) ->
  crc_check c ((m ++ f) ++ rest) (Z.of_nat (length (m ++ f))) = Ok true -> f = fcs (rx_crc32 c) m.
Proof.
  intros Hm Hf Hl E. rewrite crc_check_some in E by (apply Forall_app; auto).
  unfold fcs, crcb in *. destruct (rx_crc32 c).
  - apply check32_only; auto. rewrite check32_iff by (apply Forall_app; auto). exact E.
  - apply check16_only; auto. rewrite check16_iff by (apply Forall_app; auto). exact E.
Qed.
Definition good (c : rxcfg) (d : list Z) : bool := if rx_crc32 c then crc32 d 0xFFFFFFFF =? 0xDEBB20E3 else crc16 d 0xFFFF =? 0xF0B8.
Lemma good_fcs c m : bytes m -> good c (m ++ fcs (rx_crc32 c) m) = true.
Proof. intros H. pose proof (crc_check_good c m [] H) as E. rewrite crc_check_some in E by (apply Forall_app; split; [exact H|apply fcs_bytes]). injection E as E. exact E. Qed.
Lemma good_only c d : bytes d -> (crcb (rx_crc32 c) <= length d)%nat -> good c d = true ->
  d = firstn (length d - crcb (rx_crc32 c)) d ++ fcs (rx_crc32 c) (firstn (length d - crcb (rx_crc32 c)) d).
Proof.
  intros H L G. set (m := firstn (length d - crcb (rx_crc32 c)) d). set (f := skipn (length d - crcb (rx_crc32 c)) d).
  assert (E : d = m ++ f) by (symmetry; apply firstn_skipn).
  assert (B : bytes m /\ bytes f) by (apply Forall_app; rewrite <- E; exact H).
  rewrite E at 1. f_equal. apply (crc_check_only c m f []); [apply B|apply B|unfold f; rewrite skipn_length; lia|].
  rewrite <- E. rewrite crc_check_some by exact H. unfold good in G. rewrite G. reflexivity.
Qed.
(** what a flag does after the octets [d] and [n] further bits *)
Definition body (c : rxcfg) (d : list Z) : list Z := firstn (length d - crcb (rx_crc32 c)) d.
Definition aligned (c : rxcfg) (mx : Z) (d : list Z) (n : Z) : bool := (n =? 7) && (crcb (rx_crc32 c) <=? length d)%nat && (Z.of_nat (length d) <=? mx).
Definition eof_events (c : rxcfg) (mx : Z) (d : list Z) (n : Z) : list ev :=
  match d with
  | [] => []
  | _ => if aligned c mx d n && good c d then [EFrame (body c d) true]
         else if report_bad_frames c then [EFrame (body c d) false] else []
  end.
Definition eof_counts (c : rxcfg) (mx : Z) (d : list Z) (n : Z) (s : rxs) : rxs :=
  match d with
  | [] => s
  | _ => if aligned c mx d n then
           if good c d then add_counts s (Z.of_nat (length (body c d))) 1 0 0 0 else add_counts s 0 0 1 0 0
         else add_counts s 0 0 0 1 0
  end.
Lemma aslice_pre d rest n : (n <= length d)%nat -> aslice (d ++ rest) 0 (Z.of_nat n) = Ok (firstn n d).
Proof.
  intros H. rewrite <- (firstn_skipn n d) at 1. rewrite <- app_assoc.
  replace (Z.of_nat n) with (Z.of_nat (length (firstn n d))) by (rewrite firstn_length; lia). apply aslice_app.
Qed.
Lemma eof_eq c s d rest : buf s = d ++ rest -> len s = Z.of_nat (length d) -> bytes d ->
  exists l, end_of_frame c s = Ok (set_buf (eof_counts c (max_len s) d (nb s) s) (buf s) l, eof_events c (max_len s) d (nb s)).
Proof.
  intros Hb Hl Hd. unfold end_of_frame. destruct (Z.eqb_spec (len s) 0) as [Z0|NZ].
  - destruct d; [|cbn [length] in *; lia]. exists (len s). cbn [eof_counts eof_events]. destruct s; reflexivity.
  - assert (Nd : d <> []) by (intros ->; cbn in *; lia).
    assert (BL : Z.of_nat (length (body c d)) = if Z.of_nat (crcb (rx_crc32 c)) <=? len s then len s - Z.of_nat (crcb (rx_crc32 c)) else 0).
    { unfold body. rewrite firstn_length. destruct (Z.leb_spec (Z.of_nat (crcb (rx_crc32 c))) (len s)); lia. }
    assert (AS : aslice (buf s) 0 (Z.of_nat (length (body c d))) = Ok (body c d)).
    { rewrite Hb. unfold body at 1. rewrite firstn_length, Nat.min_l by lia. unfold body. apply aslice_pre. lia. }
    assert (EC : eof_counts c (max_len s) d (nb s) s = if aligned c (max_len s) d (nb s) then
           if good c d then add_counts s (Z.of_nat (length (body c d))) 1 0 0 0 else add_counts s 0 0 1 0 0
         else add_counts s 0 0 0 1 0) by (destruct d; [congruence|reflexivity]).
    assert (EE : eof_events c (max_len s) d (nb s) = if aligned c (max_len s) d (nb s) && good c d then [EFrame (body c d) true]
         else if report_bad_frames c then [EFrame (body c d) false] else []) by (destruct d; [congruence|reflexivity]).
    assert (AL : (nb s =? 7) && (rx_crc_bytes c <=? len s) && (len s <=? max_len s) = aligned c (max_len s) d (nb s)).
    { unfold aligned. rewrite rx_crcb. destruct (nb s =? 7); cbn [andb]; [|reflexivity]. rewrite Hl. f_equal. lia. }
    rewrite EC, EE, AL, rx_crcb, <- BL. unfold aligned in *.
    destruct (Z.eqb_spec (nb s) 7); cbn [andb].
    + destruct (Nat.leb_spec (crcb (rx_crc32 c)) (length d)); cbn [andb]; [destruct (Z.leb_spec (Z.of_nat (length d)) (max_len s))|].
      * rewrite Hb, Hl, crc_check_some by exact Hd. cbn [rbind]. fold (good c d).
        destruct (Z.leb_spec (Z.of_nat (crcb (rx_crc32 c))) (len s)); [|lia].
        rewrite <- Hl, <- BL, <- Hb, AS. destruct (good c d); cbn [orb rbind].
        -- eexists. reflexivity.
        -- destruct (report_bad_frames c); [eexists; reflexivity|]. exists (len s). destruct s; reflexivity.
      * cbv zeta. rewrite AS. destruct (report_bad_frames c); [eexists; reflexivity|]. exists (len s). destruct s; reflexivity.
      * cbv zeta. rewrite AS. destruct (report_bad_frames c); [eexists; reflexivity|]. exists (len s). destruct s; reflexivity.
    + cbv zeta. rewrite AS. destruct (report_bad_frames c); [eexists; reflexivity|]. exists (len s). destruct s; reflexivity.
Qed.
Definition is_frame (e : ev) : bool := match e with EFrame _ _ => true | EStatus _ => false end.
Lemma fevents_app a b : fevents (a ++ b) = fevents a ++ fevents b. Proof. apply flat_map_app. Qed.

Lemma set_buf_buf s b l b' l' : set_buf (set_buf s b l) b' l' = set_buf s b' l'. Proof. reflexivity. Qed.
Lemma eof_counts_fields c mx d n s : buf (eof_counts c mx d n s) = buf s /\ raw (eof_counts c mx d n s) = raw s /\ flags_seen (eof_counts c mx d n s) = flags_seen s /\
  max_len (eof_counts c mx d n s) = max_len s /\ bip (eof_counts c mx d n s) = bip s.
Proof. unfold eof_counts. destruct d as [|y d]; [tauto|]. destruct (aligned c mx (y :: d) n), (good c (y :: d)); cbn; tauto. Qed.
Lemma step_flag c s d p : inframe c s d p 6 ->
  exists s', hdlc_rx_put_bit c s (Z.b2z false) = Ok (s', eof_events c (max_len s) d (nb s)) /\ inframe c s' [] [] 0 /\ max_len s' = max_len s.
Proof.
  intros [Hraw Hrun Hs (rest & Hb) Hbl Hlen Hmax Hnb Hp Hbip Hby].
  destruct (cls_6 _ Hrun) as (_ & _ & A & B). destruct (raw_next _ false Hraw) as (R1 & R2 & _).
  rewrite put_bit_act by auto. rewrite A. cbn [act]. unfold mark. cbv zeta. cbn [flags_seen set_oc].
  rewrite Hs, Z.leb_refl.
  destruct (eof_eq c (set_oc s false (oc s)) d rest Hb Hlen Hby) as (l & E). rewrite E. cbn [rbind with_raw nb set_oc max_len].
  eexists. split; [reflexivity|].
  destruct (eof_counts_fields c (max_len s) d (nb s) (set_oc s false (oc s))) as (F1 & F2 & F3 & F4 & F5).
  split.
  - split; cbn [raw set_raw set_bits set_buf flags_seen buf len max_len nb bip].
    + exact R1.
    + rewrite R2. exact B.
    + rewrite F3. exact Hs.
    + cbn [buf set_oc]. exists (buf s). reflexivity.
    + exact Hbl.
    + reflexivity.
    + rewrite F4. cbn [max_len set_oc length Z.of_nat]. lia.
    + reflexivity.
    + cbn; lia.
    + rewrite F5. cbn [bip set_oc]. pose proof (bip_range (bip s) p ltac:(lia) Hbip) as R. exists (bip s). cbn [of_bits_lsb length]. change (2 ^ Z.of_nat (8 - 0)) with 256. lia.
    + constructor.
  - cbn [max_len set_raw set_bits set_buf]. exact F4.
Qed.
Lemma feed_flag c s d k : inframe c s d [] k -> (k <= 4)%nat ->
  exists s', rx_bits c s flag = Ok (s', eof_events c (max_len s) d 7) /\ inframe c s' [] [] 0 /\ max_len s' = max_len s.
Proof.
  intros H Hk. unfold flag.
  destruct (step_data c s d [] k false H (or_introl Hk)) as (s1 & d1 & p1 & E1 & I1 & _ & M1 & X1); [cbn; lia|].
  destruct (X1 ltac:(cbn; lia)) as [-> ->]. cbn [app] in *. clear X1.
  destruct (step_data c s1 d _ _ true I1 ltac:(left; lia)) as (s2 & d2 & p2 & E2 & I2 & _ & M2 & X1); [cbn; lia|].
  destruct (X1 ltac:(cbn; lia)) as [-> ->]. cbn [app] in *. clear X1.
  destruct (step_data c s2 d _ _ true I2 ltac:(left; lia)) as (s3 & d3 & p3 & E3 & I3 & _ & M3 & X1); [cbn; lia|].
  destruct (X1 ltac:(cbn; lia)) as [-> ->]. cbn [app] in *. clear X1.
  destruct (step_data c s3 d _ _ true I3 ltac:(left; lia)) as (s4 & d4 & p4 & E4 & I4 & _ & M4 & X1); [cbn; lia|].
  destruct (X1 ltac:(cbn; lia)) as [-> ->]. cbn [app] in *. clear X1.
  destruct (step_data c s4 d _ _ true I4 ltac:(left; lia)) as (s5 & d5 & p5 & E5 & I5 & _ & M5 & X1); [cbn; lia|].
  destruct (X1 ltac:(cbn; lia)) as [-> ->]. cbn [app] in *. clear X1.
  destruct (step_data c s5 d _ _ true I5 ltac:(left; lia)) as (s6 & d6 & p6 & E6 & I6 & _ & M6 & X1); [cbn; lia|].
  destruct (X1 ltac:(cbn; lia)) as [-> ->]. cbn [app] in *. clear X1.
  destruct (step_data c s6 d _ _ true I6 ltac:(right; auto)) as (s7 & d7 & p7 & E7 & I7 & _ & M7 & X1); [cbn; lia|].
  destruct (X1 ltac:(cbn; lia)) as [-> ->]. cbn [app] in *. clear X1.
  destruct (step_flag c s7 d _ I7) as (s8 & E8 & I8 & M8).
  pose proof (if_nb _ _ _ _ _ I7) as N7. cbn [length] in N7. change (Z.of_nat 7) with 7 in N7. rewrite N7 in E8. replace (max_len s7) with (max_len s) in E8 by lia.
  cbn [rx_bits]. rewrite E1. cbn [rbind]. rewrite E2. cbn [rbind]. rewrite E3. cbn [rbind]. rewrite E4. cbn [rbind].
  rewrite E5. cbn [rbind]. rewrite E6. cbn [rbind]. rewrite E7. cbn [rbind]. rewrite E8. cbn [rbind app]. rewrite ?app_nil_r.
  exists s8. split; [reflexivity|]. split; [exact I8|lia].
Qed.
Lemma eof_good c mx m : bytes m -> (0 < length m)%nat -> Z.of_nat (length m + crcb (rx_crc32 c)) <= mx -> eof_events c mx (m ++ fcs (rx_crc32 c) m) 7 = [EFrame m true].
Proof.
  intros H L X. unfold eof_events. destruct (m ++ fcs (rx_crc32 c) m) eqn:E; [destruct m; [cbn in L; lia|discriminate]|]. rewrite <- E.
  rewrite good_fcs by exact H. unfold aligned. rewrite app_length, fcs_length.
  destruct (Nat.leb_spec (crcb (rx_crc32 c)) (length m + crcb (rx_crc32 c))); [|lia]. destruct (Z.leb_spec (Z.of_nat (length m + crcb (rx_crc32 c))) mx); [|lia]. cbn [andb Z.eqb].
  unfold body. rewrite app_length, fcs_length. rewrite firstn_app_exact by lia. reflexivity.
Qed.
Lemma wire_unique d p x : bytes d -> bytes x -> (length p < 8)%nat -> wire d ++ p = wire x -> d = x /\ p = [].
Proof.
  intros Hd Hx Hp E. assert (L : (8 * length d + length p = 8 * length x)%nat).
  { apply (f_equal (@length bool)) in E. rewrite app_length, !wire_length in E. exact E. }
  destruct p; [|cbn [length] in *; lia]. split; [|reflexivity]. rewrite app_nil_r in E. apply wire_inj; auto.
Qed.
(** a whole segment *)
Definition seg_ok (x : bool) (mx : Z) (g : seg) : Prop :=
  match g with Flag => True | Fr d => bytes d /\ (0 < length d)%nat /\ Z.of_nat (length d + crcb x) <= mx end.
Lemma feed_octets c s d x k : bytes x -> Z.of_nat (length d + length x) <= max_len s ->
  inframe c s d [] k -> (k <= 4)%nat -> exists s', rx_bits c s (stuff k (wire x)) = Ok (s', []) /\ inframe c s' (d ++ x) [] (stuff_end k (wire x)) /\ max_len s' = max_len s.
Proof.
  intros Hx Hl H Hk.
  destruct (feed_stuffed c (wire x) s d [] k H Hk) as (s' & d' & p' & E & I & W & M).
  { rewrite wire_length. cbn [length]. lia. }
  cbn [app] in W. rewrite <- wire_app in W.
  destruct (wire_unique d' p' (d ++ x)) as [-> ->]; auto.
  - apply (if_bytes _ _ _ _ _ I).
  - apply Forall_app. split; [apply (if_bytes _ _ _ _ _ H)|exact Hx].
  - apply (if_p _ _ _ _ _ I).
  - exists s'. auto.
Qed.
Lemma stuff_end_0 l : (stuff_end 0 l <= 4)%nat. Proof. apply stuff_end_le. lia. Qed.
Lemma feed_seg c s g : inframe c s [] [] 0 -> seg_ok (rx_crc32 c) (max_len s) g ->
  exists s', rx_bits c s (seg_bits (rx_crc32 c) g) = Ok (s', match g with Flag => [] | Fr d => [EFrame d true] end) /\ inframe c s' [] [] 0 /\ max_len s' = max_len s.
Proof.
  intros H G. destruct g as [|d]; cbn [seg_bits seg_ok] in *.
  - destruct (feed_flag c s [] 0 H ltac:(lia)) as (s' & E & I & M). exists s'. auto.
  - destruct G as (B & L & X).
    destruct (feed_octets c s [] (d ++ fcs (rx_crc32 c) d) 0) as (s1 & E1 & I1 & M1); auto; try lia.
    + apply Forall_app. split; [exact B|apply fcs_bytes].
    + rewrite app_length, fcs_length. cbn [length]. lia.
    + cbn [app] in I1. destruct (feed_flag c s1 _ _ I1 (stuff_end_0 _)) as (s2 & E2 & I2 & M2).
      rewrite rx_bits_app. unfold frame_bits. rewrite E1. cbn [rbind]. rewrite E2. cbn [rbind app].
      rewrite M1, eof_good by auto. exists s2. split; [reflexivity|]. split; [exact I2|lia].
Qed.
Lemma feed_line c l : forall s, inframe c s [] [] 0 -> Forall (seg_ok (rx_crc32 c) (max_len s)) l ->
  exists s' e, rx_bits c s (line (rx_crc32 c) l) = Ok (s', e) /\ fevents e = goods (frames l) /\ inframe c s' [] [] 0 /\ max_len s' = max_len s.
Proof.
  induction l as [|g l IH]; intros s H F.
  - exists s, []. cbn. auto.
  - inversion F as [|? ? G F']; subst. destruct (feed_seg c s g H G) as (s1 & E1 & I1 & M1).
    destruct (IH s1 I1 ltac:(rewrite M1; exact F')) as (s2 & e2 & E2 & V2 & I2 & M2).
    cbn [line flat_map]. fold (line (rx_crc32 c) l). rewrite rx_bits_app, E1. cbn [rbind]. rewrite E2. cbn [rbind].
    do 2 eexists. split; [reflexivity|]. split; [|split; [exact I2|lia]].
    rewrite fevents_app, V2. destruct g; reflexivity.
Qed.
(** ---- acquiring flag synchronisation ---- *)
Record presync (c : rxcfg) (s : rxs) (f : Z) (j k : nat) : Prop := {
  ps_raw : raw_ok (raw s); ps_run : run (win (raw s)) k; ps_f : flags_seen s = f; ps_lt : 0 <= f < framing_ok_threshold c;
  ps_blen : length (buf s) = Z.to_nat BUF_LEN; ps_max : 0 <= max_len s <= BUF_LEN; ps_nb : nb s = Z.of_nat j; ps_bip : 0 <= bip s < 256 }.
Lemma presync_data c s f j k b : presync c s f j k -> (j < 7)%nat -> (k <= 4)%nat \/ k = 5%nat /\ b = true ->
  exists s', hdlc_rx_put_bit c s (Z.b2z b) = Ok (s', []) /\ presync c s' f (S j) (if b then S k else 0) /\ max_len s' = max_len s.
Proof.
  intros [Hraw Hrun Hf Hlt Hbl Hmax Hnb Hbip] Hj Hk.
  assert (K : classify (next_win (win (raw s)) b) = Data b /\ run (next_win (win (raw s)) b) (if b then S k else 0%nat)).
  { destruct Hk as [Hk|[-> ->]]; [apply cls_data; auto|]. destruct (cls_5 _ Hrun) as (A & B & _). auto. }
  destruct K as [K1 K2]. destruct (raw_next _ b Hraw) as (R1 & R2 & _).
  rewrite put_bit_act by auto. rewrite K1. cbn [act]. unfold data. rewrite Hf.
  destruct (Z.ltb_spec f (framing_ok_threshold c)) as [_|C]; [|lia]. cbv zeta.
  assert (N : Z.land (nb s + 1) 7 = nb s + 1).
  { change 7 with (Z.ones 3). rewrite Z.land_ones by lia. change (2 ^ 3) with 8. lia. }
  rewrite N. destruct (Z.eqb_spec (nb s + 1) 0); [lia|]. cbn [with_raw rbind].
  eexists. split; [reflexivity|]. split; [|reflexivity].
  split; cbn [raw set_raw set_bits flags_seen buf max_len nb bip]; auto; try lia. rewrite R2. exact K2.
Qed.
Lemma presync_flag c s f : presync c s f 0 0 ->
  exists s' e, rx_bits c s flag = Ok (s', e) /\ fevents e = [] /\ max_len s' = max_len s /\
    (if f + 1 <? framing_ok_threshold c then presync c s' (f + 1) 0 0 else inframe c s' [] [] 0).
Proof.
  intros H. unfold flag.
  destruct (presync_data c s f 0 0 false H ltac:(lia) ltac:(left; lia)) as (s1 & E1 & I1 & M1). cbv iota in I1.
  destruct (presync_data c s1 f _ _ true I1 ltac:(lia) ltac:(left; lia)) as (s2 & E2 & I2 & M2).
  destruct (presync_data c s2 f _ _ true I2 ltac:(lia) ltac:(left; lia)) as (s3 & E3 & I3 & M3).
  destruct (presync_data c s3 f _ _ true I3 ltac:(lia) ltac:(left; lia)) as (s4 & E4 & I4 & M4).
  destruct (presync_data c s4 f _ _ true I4 ltac:(lia) ltac:(left; lia)) as (s5 & E5 & I5 & M5).
  destruct (presync_data c s5 f _ _ true I5 ltac:(lia) ltac:(left; lia)) as (s6 & E6 & I6 & M6).
  destruct (presync_data c s6 f _ _ true I6 ltac:(lia) ltac:(right; auto)) as (s7 & E7 & I7 & M7).
  destruct I7 as [Hraw Hrun Hf Hlt Hbl Hmax Hnb Hbip].
  destruct (cls_6 _ Hrun) as (_ & _ & A & B). destruct (raw_next _ false Hraw) as (R1 & R2 & _).
  assert (E8 : exists s' e, hdlc_rx_put_bit c s7 (Z.b2z false) = Ok (s', e) /\ fevents e = [] /\ max_len s' = max_len s7 /\
    (if f + 1 <? framing_ok_threshold c then presync c s' (f + 1) 0 0 else inframe c s' [] [] 0)).
  { rewrite put_bit_act by auto. rewrite A. cbn [act]. unfold mark. cbv zeta. cbn [flags_seen set_oc nb announced].
    rewrite Hf, Hnb. destruct (Z.leb_spec (framing_ok_threshold c) f); [lia|].
    change (negb (Z.of_nat 7 =? 7)) with false. rewrite andb_false_r.
    assert (G : forall a, 
       (if f + 1 <? framing_ok_threshold c then presync c (set_raw (set_bits (set_buf (set_flags (set_oc s7 false (oc s7)) a (f + 1)) (buf (set_flags (set_oc s7 false (oc s7)) a (f + 1))) 0) (bip (set_flags (set_oc s7 false (oc s7)) a (f + 1))) 0) (next_raw (raw s7) false)) (f + 1) 0 0
        else inframe c (set_raw (set_bits (set_buf (set_flags (set_oc s7 false (oc s7)) a (f + 1)) (buf (set_flags (set_oc s7 false (oc s7)) a (f + 1))) 0) (bip (set_flags (set_oc s7 false (oc s7)) a (f + 1))) 0) (next_raw (raw s7) false)) [] [] 0)).
    { intros a. destruct (Z.ltb_spec (f + 1) (framing_ok_threshold c)).
      - split; cbn [raw set_raw set_bits set_buf set_flags set_oc flags_seen buf max_len nb bip]; auto; try lia. rewrite R2. exact B.
      - split; cbn [raw set_raw set_bits set_buf set_flags set_oc flags_seen buf len max_len nb bip length]; auto; try lia.
        + rewrite R2. exact B.
        + exists (buf s7). reflexivity.
        + exists (bip s7). cbn [of_bits_lsb length]. change (2 ^ Z.of_nat (8 - 0)) with 256. lia.
        + constructor. }
    destruct ((framing_ok_threshold c <=? f + 1) && negb (announced s7)); cbn [with_raw rbind];
      do 2 eexists; (split; [reflexivity|]); (split; [reflexivity|]); (split; [reflexivity|apply G]). }
  destruct E8 as (s8 & e & E8 & V & M8 & G).
  cbn [rx_bits]. rewrite E1. cbn [rbind]. rewrite E2. cbn [rbind]. rewrite E3. cbn [rbind]. rewrite E4. cbn [rbind].
  rewrite E5. cbn [rbind]. rewrite E6. cbn [rbind]. rewrite E7. cbn [rbind]. rewrite E8. cbn [rbind app]. rewrite ?app_nil_r.
  exists s8, e. split; [reflexivity|]. split; [exact V|]. split; [lia|exact G].
Qed.
Lemma presync_flags c n : forall s f, presync c s f 0 0 -> f + Z.of_nat n = framing_ok_threshold c ->
  exists s' e, rx_bits c s (concat (repeat flag n)) = Ok (s', e) /\ fevents e = [] /\ max_len s' = max_len s /\ inframe c s' [] [] 0.
Proof.
  induction n as [|n IH]; intros s f H Hn; [pose proof (ps_lt _ _ _ _ _ H); lia|].
  destruct (presync_flag c s f H) as (s1 & e1 & E1 & V1 & M1 & G). cbn [repeat concat]. rewrite rx_bits_app, E1. cbn [rbind].
  destruct (Z.ltb_spec (f + 1) (framing_ok_threshold c)).
  - destruct (IH s1 (f + 1) G ltac:(lia)) as (s2 & e2 & E2 & V2 & M2 & I2). rewrite E2. cbn [rbind].
    do 2 eexists. split; [reflexivity|]. rewrite fevents_app, V1, V2. split; [reflexivity|]. split; [lia|exact I2].
  - assert (n = 0)%nat by lia. subst n. cbn [repeat concat rx_bits rbind]. do 2 eexists. split; [reflexivity|].
    rewrite app_nil_r. split; [exact V1|]. split; [exact M1|exact G].
Qed.
(** a fresh receiver *)
Definition fresh (s : rxs) : Prop := exists m, s = set_max hdlc_rx_init m /\ 0 <= m <= BUF_LEN.
Lemma fresh_presync c s : fresh s -> 1 <= framing_ok_threshold c -> presync c s 0 0 0.
Proof.
  intros (m & -> & Hm) T. split; cbn [raw set_max hdlc_rx_init flags_seen buf max_len nb bip]; auto; try lia.
  all: try (split; [cbn; lia|reflexivity]).
  all: try (unfold zero_buf; apply repeat_length).
Qed.
Lemma feed_fresh c s l : fresh s -> 1 <= framing_ok_threshold c -> Forall (seg_ok (rx_crc32 c) (max_len s)) l ->
  exists s' e, rx_bits c s (concat (repeat flag (Z.to_nat (framing_ok_threshold c))) ++ line (rx_crc32 c) l) = Ok (s', e) /\
    fevents e = goods (frames l) /\ inframe c s' [] [] 0 /\ max_len s' = max_len s.
Proof.
  intros H T F. destruct (presync_flags c (Z.to_nat (framing_ok_threshold c)) s 0 (fresh_presync c s H T) ltac:(lia)) as (s1 & e1 & E1 & V1 & M1 & I1).
  destruct (feed_line c l s1 I1 ltac:(rewrite M1; exact F)) as (s2 & e2 & E2 & V2 & I2 & M2).
  rewrite rx_bits_app, E1. cbn [rbind]. rewrite E2. cbn [rbind]. do 2 eexists. split; [reflexivity|].
  rewrite fevents_app, V1, V2. split; [reflexivity|]. split; [exact I2|lia].
Qed.
