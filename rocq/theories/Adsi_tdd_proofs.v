(** TDD text: encoding, sending and decoding. *)
From Verif Require Import Base Adsi_model Adsi_spec Adsi_rx_proofs Adsi_line_proofs Adsi_tx_proofs Adsi_sess_proofs Adsi_deliver_proofs Adsi_field_proofs.
From Coq Require Import ZifyBool ZifyNat.

Definition encp (a ch : Z) : Z * Z :=
  let c := nth (Z.to_nat ch) baudot_conv 0 in
  if c =? 0xFF then (a, 0)
  else if negb (Z.land c 0x40 =? 0) then (a, Z.land c 0x1F)
  else if negb (Z.land c 0x80 =? 0) then
    if a =? 1 then (a, Z.land c 0x1F) else (1, Z.lor (Z.shiftl FIGURE_SHIFT 5) (Z.land c 0x1F))
  else
    if a =? 0 then (a, Z.land c 0x1F) else (0, Z.lor (Z.shiftl LETTER_SHIFT 5) (Z.land c 0x1F)).
Lemma encode_ok s ch : seven ch -> adsi_encode_baudot s ch = Ok (set_t_shift s (fst (encp (t_shift s) ch)), snd (encp (t_shift s) ch)).
Proof.
  intros H. unfold adsi_encode_baudot, encp. assert (L : length baudot_conv = 128%nat) by reflexivity.
  rewrite aget_in by (rewrite L; unfold seven in H; lia). cbn [rbind]. set (c := nth (Z.to_nat ch) baudot_conv 0). clearbody c.
  assert (E : set_t_shift s (t_shift s) = s) by (destruct s; reflexivity).
  destruct (c =? 255); [cbn [fst snd]; rewrite E; reflexivity|].
  destruct (negb (Z.land c 64 =? 0)); [cbn [fst snd]; rewrite E; reflexivity|].
  destruct (negb (Z.land c 128 =? 0)).
  - destruct (t_shift s =? 1); cbn [fst snd]; rewrite ?E; reflexivity.
  - destruct (t_shift s =? 0); cbn [fst snd]; rewrite ?E; reflexivity.
Qed.
Definition emit (x : Z) : list Z :=
  if x =? 0 then [] else (if Z.land x 0x3E0 =? 0 then [] else [u8 (Z.land (Z.shiftr x 5) 0x1F)]) ++ [u8 (Z.land x 0x1F)].
Fixpoint encs (a : Z) (l : list Z) : Z * list Z :=
  match l with
  | [] => (a, [])
  | ch :: t => let p := encp a ch in let q := encs (fst p) t in (fst q, emit (snd p) ++ snd q)
  end.
Lemma emit_length x : (length (emit x) <= 2)%nat.
Proof. unfold emit. destruct (x =? 0); [cbn; lia|]. destruct (Z.land x 992 =? 0); cbn; lia. Qed.
Lemma encs_length l : forall a, (length (snd (encs a l)) <= 2 * length l)%nat.
Proof.
  induction l as [|c l IH]; intros a; cbn [encs fst snd length]; [lia|]. rewrite app_length.
  pose proof (emit_length (snd (encp a c))). pose proof (IH (fst (encp a c))). lia.
Qed.
Lemma put_baudot_ok n l : Forall seven l -> forall s buf c, buf_has n buf c -> (length c + length (snd (encs (t_shift s) l)) <= n)%nat ->
  exists buf', put_baudot s buf (Z.of_nat (length c)) l =
    Ok (set_t_shift s (fst (encs (t_shift s) l)), buf', Z.of_nat (length (c ++ snd (encs (t_shift s) l)))) /\
    buf_has n buf' (c ++ snd (encs (t_shift s) l)).
Proof.
  induction 1 as [|ch l Hc Hl IH]; intros s buf c B L; cbn [put_baudot encs fst snd].
  - exists buf. rewrite app_nil_r. destruct s; auto.
  - rewrite encode_ok by exact Hc. cbn [rbind]. cbn [encs fst snd] in L. set (p := encp (t_shift s) ch) in *. clearbody p. rewrite app_length in L.
    assert (S1 : exists b1, (if snd p =? 0 then Ok (buf, Z.of_nat (length c)) else
       do (msg, len) <- (if Z.land (snd p) 0x3E0 =? 0 then Ok (buf, Z.of_nat (length c))
                         else do m <- aset buf (Z.of_nat (length c)) (u8 (Z.land (Z.shiftr (snd p) 5) 0x1F)); Ok (m, Z.of_nat (length c) + 1));
         do m <- aset msg len (u8 (Z.land (snd p) 0x1F)); Ok (m, len + 1)) = Ok (b1, Z.of_nat (length (c ++ emit (snd p)))) /\ buf_has n b1 (c ++ emit (snd p))).
    { unfold emit in *. destruct (snd p =? 0); [exists buf; rewrite app_nil_r; auto|]. destruct (Z.land (snd p) 992 =? 0).
      - cbn [rbind app length] in *. destruct (buf_put n buf c (u8 (Z.land (snd p) 31)) B ltac:(lia)) as (b1 & -> & B1). cbn [rbind]. exists b1. split; [|exact B1].
        rewrite app_length, Nat2Z.inj_add. reflexivity.
      - cbn [app length] in *. destruct (buf_put n buf c (u8 (Z.land (Z.shiftr (snd p) 5) 31)) B ltac:(lia)) as (b1 & -> & B1). cbn [rbind].
        destruct (buf_put n b1 _ (u8 (Z.land (snd p) 31)) B1) as (b2 & E2 & B2); [rewrite app_length; cbn [length]; lia|].
        rewrite app_length, Nat2Z.inj_add in E2. change (Z.of_nat (length [_])) with 1 in E2. rewrite E2. cbn [rbind]. exists b2. rewrite <- app_assoc in B2. split; [|exact B2].
        rewrite app_length. cbn [length]. do 2 f_equal. lia. }
    destruct S1 as (b1 & -> & B1). cbn [rbind].
    destruct (IH (set_t_shift s (fst p)) b1 _ B1) as (b2 & E2 & B2).
    { change (t_shift (set_t_shift s (fst p))) with (fst p). rewrite app_length. lia. }
    change (t_shift (set_t_shift s (fst p))) with (fst p) in *. rewrite <- app_assoc in *. exists b2. split; [exact E2|exact B2].
Qed.

(** ---- the other end ---- *)
Definition decp (b c : Z) : Z * list Z :=
  let c := Z.land c 0x1F in
  if c =? FIGURE_SHIFT then (1, []) else if c =? LETTER_SHIFT then (0, [])
  else let o := nth (Z.to_nat c) (if b =? 0 then baudot_letters else baudot_figures) 0 in (b, if o =? 0 then [] else [o]).
Fixpoint decs (b : Z) (l : list Z) : Z * list Z :=
  match l with
  | [] => (b, [])
  | c :: t => let p := decp b c in let q := decs (fst p) t in (fst q, snd p ++ snd q)
  end.
Definition fits2 (a b : Z) : Prop := (b = 0 \/ b = 1) /\ (a = 2 \/ a = b).
Definition eql (x y : list Z) : bool := if list_eq_dec Z.eq_dec x y then true else false.
Definition char_ok (a b ch : Z) : bool :=
  let p := encp a ch in let q := decs b (emit (snd p)) in
  ((fst q =? 0) || (fst q =? 1)) && ((fst p =? 2) || (fst p =? fst q)) && eql (snd q) (tdd_char ch) && forallb (fun c => (0 <=? c) && (c <? 32)) (emit (snd p)).
Lemma chars_ok : forallb (fun ch => char_ok 2 0 ch && char_ok 2 1 ch && char_ok 0 0 ch && char_ok 1 1 ch) (map Z.of_nat (seq 0 128)) = true.
Proof. vm_compute. reflexivity. Qed.
Lemma char_trip a b ch : fits2 a b -> seven ch ->
  fits2 (fst (encp a ch)) (fst (decs b (emit (snd (encp a ch))))) /\ snd (decs b (emit (snd (encp a ch)))) = tdd_char ch /\
  Forall (fun c => 0 <= c < 32) (emit (snd (encp a ch))).
Proof.
  intros F H. assert (C : char_ok a b ch = true).
  { pose proof chars_ok as A. rewrite forallb_forall in A. specialize (A ch). rewrite in_map_iff in A.
    assert (I : exists x, Z.of_nat x = ch /\ In x (seq 0 128)). { exists (Z.to_nat ch). unfold seven in H. split; [lia|]. apply in_seq. lia. }
    specialize (A I). rewrite !andb_true_iff in A. destruct A as (((A1 & A2) & A3) & A4). unfold fits2 in F.
    destruct F as ([-> | ->] & [-> | ->]); assumption. }
  unfold char_ok in C. rewrite !andb_true_iff in C. destruct C as (((C1 & C2) & C3) & C4). split; [unfold fits2; lia|]. split.
  - unfold eql in C3. destruct (list_eq_dec _ _ _); [assumption|discriminate].
  - apply Forall_forall. rewrite forallb_forall in C4. intros c Hc. specialize (C4 c Hc). lia.
Qed.
Lemma decs_app l1 : forall b l2, decs b (l1 ++ l2) = (fst (decs (fst (decs b l1)) l2), snd (decs b l1) ++ snd (decs (fst (decs b l1)) l2)).
Proof.
  induction l1 as [|c l1 IH]; intros b l2; cbn [app decs fst snd]; [destruct (decs b l2); reflexivity|]. rewrite IH. cbn [fst snd]. rewrite app_assoc. reflexivity.
Qed.
Lemma text_trip l : Forall seven l -> forall a b, fits2 a b ->
  fits2 (fst (encs a l)) (fst (decs b (snd (encs a l)))) /\ snd (decs b (snd (encs a l))) = tdd_text l /\ Forall (fun c => 0 <= c < 32) (snd (encs a l)).
Proof.
  induction 1 as [|ch l Hc Hl IH]; intros a b F; cbn [encs fst snd].
  - cbn [decs fst snd]. split; [exact F|]. split; [reflexivity|constructor].
  - destruct (char_trip a b ch F Hc) as (F1 & E1 & R1). destruct (IH _ _ F1) as (F2 & E2 & R2). rewrite decs_app. cbn [fst snd].
    split; [exact F2|]. split; [|apply Forall_app; auto]. rewrite E1, E2. reflexivity.
Qed.

Definition taking (s : rx) (b : Z) (c : list Z) : Prop := buf_has 256 (r_msg s) c /\ r_len s = Z.of_nat (length c) /\ r_shift s = b.
Lemma land31 c : 0 <= Z.land c 31 < 32.
Proof. change 31 with (Z.ones 5). rewrite Z.land_ones by lia. apply Z.mod_pos_bound. lia. Qed.
Lemma put_async_ok s b m c : (b = 0 \/ b = 1) -> taking s b m -> 0 <= c -> (length m < 256)%nat ->
  let m' := m ++ snd (decp b c) in
  exists s' e, adsi_tdd_put_async_byte s c = Ok (s', e) /\ (fst (decp b c) = 0 \/ fst (decp b c) = 1) /\
    if (length m' <? 256)%nat then e = [] /\ taking s' (fst (decp b c)) m' else e = [m'] /\ taking s' (fst (decp b c)) [].
Proof.
  intros Hb (B & L & Sh) Hc Lm. unfold adsi_tdd_put_async_byte. destruct (Z.ltb_spec c 0); [lia|].
  pose proof (land31 c) as R. replace (u8 (Z.land c 31)) with (Z.land c 31) by (unfold u8; symmetry; apply Z.mod_small; lia).
  unfold decp, adsi_decode_baudot. set (d := Z.land c 31) in *. clearbody d.
  assert (NB : forall s0, r_len s0 = Z.of_nat (length m) -> (256 <=? r_len s0) = false) by (intros; lia).
  destruct (d =? FIGURE_SHIFT).
  { cbn [rbind fst snd]. rewrite app_nil_r. cbn [Z.eqb rbind]. rewrite NB by exact L. do 2 eexists. split; [reflexivity|]. split; [auto|].
    destruct (Nat.ltb_spec (length m) 256); [|lia]. split; [reflexivity|]. split; [exact B|split; [exact L|reflexivity]]. }
  destruct (d =? LETTER_SHIFT).
  { cbn [rbind fst snd]. rewrite app_nil_r. cbn [Z.eqb rbind]. rewrite NB by exact L. do 2 eexists. split; [reflexivity|]. split; [auto|].
    destruct (Nat.ltb_spec (length m) 256); [|lia]. split; [reflexivity|]. split; [exact B|split; [exact L|reflexivity]]. }
  assert (L1 : length baudot_letters = 32%nat) by reflexivity. assert (L2 : length baudot_figures = 32%nat) by reflexivity.
  rewrite Sh. cbv zeta. cbn [fst snd].
  assert (A : (if b =? 0 then aget baudot_letters d else if b =? 1 then aget baudot_figures d else UB) = Ok (nth (Z.to_nat d) (if b =? 0 then baudot_letters else baudot_figures) 0)).
  { destruct Hb as [-> | ->]; cbn [Z.eqb]; rewrite aget_in by lia; reflexivity. }
  rewrite A. cbn [rbind]. set (o := nth _ _ 0). clearbody o. destruct (o =? 0).
  - cbn [rbind]. rewrite app_nil_r. rewrite NB by exact L. do 2 eexists. split; [reflexivity|]. split; [auto|].
    destruct (Nat.ltb_spec (length m) 256); [|lia]. split; [reflexivity|]. split; [exact B|split; [exact L|exact Sh]].
  - rewrite L. destruct (buf_put 256 _ m o B Lm) as (b1 & -> & B1). cbn [rbind]. cbn [r_len set_r_msg r_msg].
    replace (Z.of_nat (length m) + 1) with (Z.of_nat (length (m ++ [o]))) by (rewrite app_length; cbn [length]; lia).
    destruct (Z.leb_spec 256 (Z.of_nat (length (m ++ [o])))).
    + rewrite (buf_slice _ _ _ B1). cbn [rbind]. do 2 eexists. split; [reflexivity|]. split; [auto|].
      destruct (Nat.ltb_spec (length (m ++ [o])) 256); [lia|]. split; [reflexivity|]. split; [|split; [reflexivity|exact Sh]].
      cbn [r_msg set_r_msg]. destruct B1 as (<- & _). apply buf_nil.
    + do 2 eexists. split; [reflexivity|]. split; [auto|].
      destruct (Nat.ltb_spec (length (m ++ [o])) 256); [|lia]. split; [reflexivity|]. split; [exact B1|split; [reflexivity|exact Sh]].
Qed.
Lemma decs_shift l : forall b, (b = 0 \/ b = 1) -> fst (decs b l) = 0 \/ fst (decs b l) = 1.
Proof.
  induction l as [|c l IH]; intros b Hb; cbn [decs fst]; [exact Hb|]. apply IH. unfold decp.
  destruct (_ =? _); [auto|]. destruct (_ =? _); auto.
Qed.
Lemma feed_tdd l : Forall (fun c => 0 <= c) l -> forall s b m, (b = 0 \/ b = 1) -> taking s b m -> (length m + length (snd (decs b l)) < 256)%nat ->
  exists s', feed adsi_tdd_put_async_byte s l = Ok (s', []) /\ taking s' (fst (decs b l)) (m ++ snd (decs b l)).
Proof.
  induction 1 as [|c l Hc Hl IH]; intros s b m Hb T L; cbn [feed decs fst snd].
  - exists s. rewrite app_nil_r. auto.
  - cbn [decs fst snd] in L. rewrite app_length in L.
    destruct (put_async_ok s b m c Hb T Hc ltac:(lia)) as (s1 & e & E & Hb1 & F). rewrite E. cbn [rbind].
    destruct (Nat.ltb_spec (length (m ++ snd (decp b c))) 256) as [F1 | F1]; [|rewrite app_length in F1; lia]. destruct F as (-> & T1).
    destruct (IH s1 _ _ Hb1 T1) as (s2 & -> & T2); [rewrite app_length; lia|]. cbn [rbind app]. rewrite <- app_assoc in T2. exists s2. auto.
Qed.
(** The receiver on any codes and carrier changes. *)
Definition tdd_in (c : Z) : Prop := c = CARRIER_UP \/ c = CARRIER_DOWN \/ 0 <= c.
Lemma tdd_safe l : forall s b m, (b = 0 \/ b = 1) -> taking s b m -> (length m < 256)%nat ->
  exists s' e b' m', feed adsi_tdd_put_async_byte s l = Ok (s', e) /\ (b' = 0 \/ b' = 1) /\ taking s' b' m' /\ (length m' < 256)%nat /\
    Forall (fun x => (1 <= length x <= 256)%nat) e.
Proof.
  induction l as [|c l IH]; intros s b m Hb T L; cbn [feed].
  - exists s, [], b, m. split; [reflexivity|]. repeat (split; [assumption|]). constructor.
  - assert (S1 : exists s1 e1 b1 m1, adsi_tdd_put_async_byte s c = Ok (s1, e1) /\ (b1 = 0 \/ b1 = 1) /\ taking s1 b1 m1 /\ (length m1 < 256)%nat /\
        Forall (fun x => (1 <= length x <= 256)%nat) e1).
    { destruct (Z.ltb_spec c 0).
      - unfold adsi_tdd_put_async_byte. destruct (Z.ltb_spec c 0); [|lia]. destruct T as (B & Le & Sh).
        assert (B0 : buf_has 256 (r_msg s) []) by (destruct B as (<- & _); apply buf_nil).
        destruct (c =? CARRIER_UP).
        + eexists _, [], b, []. split; [reflexivity|]. split; [exact Hb|]. split; [|split; [cbn; lia|constructor]]. split; [exact B0|split; [reflexivity|exact Sh]].
        + destruct (c =? CARRIER_DOWN).
          * rewrite Le. destruct (Z.ltb_spec 0 (Z.of_nat (length m))).
            -- rewrite (buf_slice _ _ _ B). cbn [rbind]. eexists _, [m], b, []. split; [reflexivity|]. split; [exact Hb|].
               split; [split; [exact B0|split; [reflexivity|exact Sh]]|]. split; [cbn; lia|]. constructor; [lia|constructor].
            -- exists s, [], b, m. split; [reflexivity|]. split; [exact Hb|]. split; [split; auto|]. split; [exact L|constructor].
          * exists s, [], b, m. split; [reflexivity|]. split; [exact Hb|]. split; [split; auto|]. split; [exact L|constructor].
      - destruct (put_async_ok s b m c Hb T ltac:(lia) L) as (s1 & e1 & E & Hb1 & F). destruct (Nat.ltb_spec (length (m ++ snd (decp b c))) 256) as [F1 | F1].
        + destruct F as (-> & T1). exists s1, [], (fst (decp b c)), (m ++ snd (decp b c)). split; [exact E|]. repeat (split; [assumption|]). constructor.
        + destruct F as (-> & T1). exists s1, [m ++ snd (decp b c)], (fst (decp b c)), []. split; [exact E|]. split; [assumption|]. split; [assumption|]. split; [cbn; lia|].
          constructor; [|constructor]. split; [lia|]. rewrite app_length. unfold decp. destruct (_ =? _); [cbn; lia|]. destruct (_ =? _); [cbn; lia|]. cbn [snd]. destruct (_ =? _); cbn; lia. }
    destruct S1 as (s1 & e1 & b1 & m1 & -> & Hb1 & T1 & L1 & V1). cbn [rbind].
    destruct (IH s1 b1 m1 Hb1 T1 L1) as (s2 & e2 & b2 & m2 & -> & Hb2 & T2 & L2 & V2). cbn [rbind].
    exists s2, (e1 ++ e2), b2, m2. split; [reflexivity|]. repeat (split; [assumption|]). apply Forall_app; auto.
Qed.

(** ---- the transmitter ---- *)
Lemma line_idle k : forall t, t_on t = false -> t_len t <= t_byte_no t -> tdd_line k t = Ok (t, repeat 0x1F k).
Proof.
  induction k as [|k IH]; intros t O L; [reflexivity|]. cbn [tdd_line repeat]. unfold adsi_tdd_get_async_byte.
  destruct (Z.ltb_spec (t_byte_no t) (t_len t)); [lia|]. rewrite O. cbn [rbind]. rewrite IH by assumption. reflexivity.
Qed.
Lemma line_codes msg rest k : forall pre t, t_msg t = pre ++ msg ++ rest -> t_byte_no t = Z.of_nat (length pre) -> t_len t = Z.of_nat (length pre + length msg) ->
  t_on t = true ->
  exists t', tdd_line (length msg + S k) t = Ok (t', msg ++ repeat 0x1F (S k)) /\ t_on t' = false /\ t_len t' = 0 /\ t_msg t' = t_msg t /\ t_std t' = t_std t /\ t_shift t' = t_shift t.
Proof.
  induction msg as [|c msg IH]; intros pre t Em Eb El On; cbn [length Nat.add app].
  - cbn [tdd_line]. unfold adsi_tdd_get_async_byte. destruct (Z.ltb_spec (t_byte_no t) (t_len t)); [cbn [length] in El; lia|]. rewrite On. cbn [rbind].
    rewrite line_idle; [|reflexivity|cbn [t_byte_no t_len set_t_on]; lia]. cbn [rbind]. eexists. split; [reflexivity|]. repeat split.
  - cbn [tdd_line]. unfold adsi_tdd_get_async_byte. cbn [length] in El. destruct (Z.ltb_spec (t_byte_no t) (t_len t)); [|lia].
    assert (G : aget (t_msg t) (t_byte_no t) = Ok c) by (rewrite Em, Eb; cbn [app]; apply aget_mid; reflexivity). rewrite G. cbn [rbind].
    destruct (IH (pre ++ [c]) (set_t_pos t (t_byte_no t + 1) (t_bit_pos t) (t_bit_no t))) as (t' & E & O' & L' & M' & S' & H').
    + cbn [t_msg set_t_pos]. rewrite Em, <- app_assoc. reflexivity.
    + cbn [t_byte_no set_t_pos]. rewrite app_length. cbn [length]. lia.
    + cbn [t_len set_t_pos]. rewrite app_length. cbn [length]. lia.
    + exact On.
    + rewrite E. cbn [rbind]. exists t'. repeat split; assumption.
Qed.

Definition tdd_rest (t : tx) : Prop := t_std t = TDD /\ t_len t = 0 /\ length (t_msg t) = 256%nat /\ (t_shift t = 0 \/ t_shift t = 2).
Lemma aslice_firstn buf (c : list Z) n : buf_has n buf c -> aslice buf 0 (Z.of_nat (length c)) = Ok c.
Proof. apply buf_slice. Qed.
Lemma letter_enc a c : letter c -> fst (encp a c) = 0.
Proof.
  intros H. assert (C : forallb (fun c => (fst (encp 0 c) =? 0) && (fst (encp 1 c) =? 0) && (fst (encp 2 c) =? 0)) (map Z.of_nat (seq 65 26 ++ seq 97 26)) = true) by (vm_compute; reflexivity).
  assert (G : forall b, nth (Z.to_nat c) baudot_conv 0 <> 255 /\ Z.land (nth (Z.to_nat c) baudot_conv 0) 64 = 0 /\ Z.land (nth (Z.to_nat c) baudot_conv 0) 128 = 0 -> fst (encp b c) = 0).
  { intros b (G1 & G2 & G3). unfold encp. destruct (Z.eqb_spec (nth (Z.to_nat c) baudot_conv 0) 255); [contradiction|]. rewrite G2, G3. cbn [Z.eqb negb].
    destruct (Z.eqb_spec b 0); [subst; reflexivity|reflexivity]. }
  apply G. clear G C.
  assert (C : forallb (fun n => negb (nth n baudot_conv 0 =? 255) && (Z.land (nth n baudot_conv 0) 64 =? 0) && (Z.land (nth n baudot_conv 0) 128 =? 0)) (seq 65 26 ++ seq 97 26) = true) by (vm_compute; reflexivity).
  rewrite forallb_forall in C. specialize (C (Z.to_nat c)). rewrite in_app_iff, !in_seq in C. unfold letter in H.
  assert (I : (65 <= Z.to_nat c < 65 + 26)%nat \/ (97 <= Z.to_nat c < 97 + 26)%nat) by lia. specialize (C I). rewrite !andb_true_iff in C. lia.
Qed.
Lemma encs_app l1 : forall a l2, encs a (l1 ++ l2) = (fst (encs (fst (encs a l1)) l2), snd (encs a l1) ++ snd (encs (fst (encs a l1)) l2)).
Proof.
  induction l1 as [|c l1 IH]; intros a l2; cbn [app encs fst snd]; [destruct (encs a l2); reflexivity|]. rewrite IH. cbn [fst snd]. rewrite app_assoc. reflexivity.
Qed.

Lemma tdd_one room n t r x b : tdd_rest t -> tdd_ok x -> (2 * length x <= room)%nat -> (2 * length x < n)%nat ->
  taking r b [] -> fits2 (t_shift t) b ->
  exists t' r' l t1 buf len t2 l', adsi_add_field t (repeat 0 room) 0 0 x = Ok (t1, buf, len) /\
    adsi_tx_put_message t1 buf len = Ok (t2, len, l) /\ tdd_line n t2 = Ok (t', l') /\
    feed adsi_tdd_put_async_byte r (l' ++ [CARRIER_DOWN]) = Ok (r', [tdd_text x]) /\
    t_std t' = TDD /\ t_len t' = 0 /\ length (t_msg t') = 256%nat /\ t_on t' = false /\
    t_shift t' = (if t_on t then fst (encs (t_shift t) x) else 2) /\ taking r' 0 [].
Proof.
  intros (T1 & T2 & T3 & T4) (X1 & X2 & X3) Lr Ln Hr F.
  set (codes := snd (encs (t_shift t) x)). pose proof (encs_length x (t_shift t)) as Lc. fold codes in Lc.
  destruct (text_trip x X1 (t_shift t) b F) as (_ & D & R). fold codes in D, R.
  unfold adsi_add_field. rewrite T1. change ((TDD =? CLASS) || (TDD =? CLIP) || (TDD =? ACLIP)) with false. change (TDD =? JCLIP) with false.
  change (TDD =? CLIP_DTMF) with false. change (TDD =? TDD) with true. cbv iota. change (if 0 <? 0 then 0 else 0) with 0.
  pose proof (buf_nil (repeat 0 room)) as B0. rewrite repeat_length in B0.
  destruct (put_baudot_ok room x X1 t (repeat 0 room) [] B0) as (buf & E1 & B1); [fold codes; cbn [length]; lia|]. fold codes in E1, B1. cbn [app] in E1, B1.
  change (Z.of_nat (length [])) with 0 in E1. rewrite E1. clear E1. set (t1 := set_t_shift t (fst (encs (t_shift t) x))).
  assert (P : exists m rest, t_msg (if t_on t1 then t1 else start_tx t1) = m /\ length m = 256%nat /\ ablit m 0 codes = Ok (codes ++ rest) /\ length (codes ++ rest) = 256%nat).
  { exists (t_msg t). assert (M : t_msg (if t_on t1 then t1 else start_tx t1) = t_msg t).
    { unfold start_tx, t1. change (t_std (set_t_shift t (fst (encs (t_shift t) x)))) with (t_std t). rewrite T1. change (TDD =? TDD) with true. destruct (t_on _); reflexivity. }
    pose proof (buf_nil (t_msg t)) as Bm. rewrite T3 in Bm. destruct (buf_puts 256 (t_msg t) [] codes Bm) as (b2 & E2 & B2); [cbn [length]; lia|].
    change (Z.of_nat (length [])) with 0 in E2. cbn [app] in B2. exists (skipn (length codes) b2). split; [exact M|]. split; [exact T3|].
    destruct B2 as (B2 & B3 & B4).
    assert (b2 = codes ++ skipn (length codes) b2) by (rewrite <- B3 at 1; symmetry; apply firstn_skipn). split; [rewrite E2; congruence|congruence]. }
  destruct P as (m & rest & P1 & P2 & P3 & P4).
  set (s1 := if t_on t1 then t1 else start_tx t1) in *.
  assert (PM : adsi_tx_put_message t1 buf (Z.of_nat (length codes)) = Ok (set_t_pos (set_t_msg s1 (codes ++ rest) (Z.of_nat (length codes))) 0 0 0, Z.of_nat (length codes), [])).
  { unfold adsi_tx_put_message. change (t_len t1) with (t_len t). rewrite T2. cbn [Z.ltb Z.compare]. fold s1. change (t_std t1) with (t_std t). rewrite T1.
    change (TDD =? CLIP_DTMF) with false. change (TDD =? JCLIP) with false. change (TDD =? TDD) with true. cbv iota.
    destruct (Z.ltb_spec 255 (Z.of_nat (length codes))); [lia|]. destruct (Z.ltb_spec (Z.of_nat (length codes)) 0); [lia|].
    rewrite (buf_slice _ _ _ B1). cbn [rbind]. rewrite P1, P3. reflexivity. }
  set (t2 := set_t_pos (set_t_msg s1 (codes ++ rest) (Z.of_nat (length codes))) 0 0 0) in *.
  assert (O2 : t_on t2 = true) by (unfold t2, s1; cbn [t_on set_t_pos set_t_msg]; destruct (t_on t1) eqn:O; [exact O|reflexivity]).
  assert (S2 : t_std t2 = TDD).
  { change (t_std t2) with (t_std s1). unfold s1. destruct (t_on t1); [exact T1|]. unfold start_tx. change (t_std t1) with (t_std t). rewrite T1. exact T1. }
  assert (H2 : t_shift t2 = (if t_on t then fst (encs (t_shift t) x) else 2)).
  { change (t_shift t2) with (t_shift s1). unfold s1. change (t_on t1) with (t_on t). destruct (t_on t); [reflexivity|]. unfold start_tx. change (t_std t1) with (t_std t). rewrite T1. reflexivity. }
  destruct (line_codes codes rest (n - length codes - 1) [] t2) as (t' & EL & O' & L' & M' & S' & H'); try reflexivity; [exact O2|].
  replace (length codes + S (n - length codes - 1))%nat with n in EL by lia.
  assert (R0 : Forall (fun c => 0 <= c) (codes ++ repeat 31 (S (n - length codes - 1)))).
  { apply Forall_app. split; [eapply Forall_impl; [|exact R]; cbv beta; lia|]. apply Forall_forall. intros y Hy. apply repeat_spec in Hy. lia. }
  assert (DI : forall k b, decs b (repeat 31 (S k)) = (0, [])).
  { clear. induction k as [|k IH]; intros b; [reflexivity|]. change (repeat 31 (S (S k))) with (31 :: repeat 31 (S k)). cbn [decs]. rewrite IH. reflexivity. }
  destruct F as (Fb & F).
  assert (TL : (length (tdd_text x) <= 127)%nat).
  { clear - X3. enough (length (tdd_text x) <= length x)%nat by lia. unfold tdd_text. clear. induction x as [|c x IH]; [cbn; lia|]. cbn [flat_map length]. rewrite app_length.
    unfold tdd_char at 1. destruct (_ && _)%bool; [cbn [length]; lia|]. destruct (_ || _)%bool; cbn [length]; lia. }
  destruct (feed_tdd _ R0 r b [] Fb Hr) as (r1 & EF & T').
  { rewrite decs_app, DI. cbn [fst snd]. rewrite D, app_nil_r. cbn [length]. lia. }
  rewrite decs_app, DI in T'. cbn [fst snd] in T'. rewrite D, app_nil_r in T'. cbn [app] in T'.
  destruct T' as (TB & TLe & TS).
  exists t', (set_r_msg r1 (r_msg r1) 0), [], t1, buf, (Z.of_nat (length codes)), t2, (codes ++ repeat 31 (S (n - length codes - 1))).
  split; [reflexivity|]. split; [exact PM|]. split; [exact EL|]. split.
  - assert (FA : forall l1 s s1 e l2, feed adsi_tdd_put_async_byte s l1 = Ok (s1, e) -> feed adsi_tdd_put_async_byte s (l1 ++ l2) = do (s2, e') <- feed adsi_tdd_put_async_byte s1 l2; Ok (s2, e ++ e')).
    { clear. induction l1 as [|a l1 IH]; intros s s1 e l2; cbn [feed app].
      - intros H. inversion H; subst. destruct (feed _ s1 l2) as [[? ?]|]; reflexivity.
      - destruct (adsi_tdd_put_async_byte s a) as [[s0 e0]|]; [|discriminate]. cbn [rbind]. destruct (feed _ s0 l1) as [[s3 e3]|] eqn:E; [|discriminate]. cbn [rbind].
        intros H. inversion H; subst. rewrite (IH _ _ _ l2 E). destruct (feed _ s1 l2) as [[? ?]|]; cbn [rbind]; [rewrite app_assoc|]; reflexivity. }
    rewrite (FA _ _ _ _ [CARRIER_DOWN] EF). cbn [feed]. unfold adsi_tdd_put_async_byte. change (CARRIER_DOWN <? 0) with true. change (CARRIER_DOWN =? CARRIER_UP) with false.
    change (CARRIER_DOWN =? CARRIER_DOWN) with true. cbv iota. rewrite TLe.
    destruct (Z.ltb_spec 0 (Z.of_nat (length (tdd_text x)))); [|destruct (tdd_text x); [congruence|cbn [length] in *; lia]].
    rewrite (buf_slice _ _ _ TB). reflexivity.
  - split; [congruence|]. split; [exact L'|]. split; [rewrite M'; exact P4|]. split; [exact O'|]. split; [rewrite H'; exact H2|].
    split; [|split; [reflexivity|exact TS]]. cbn [r_msg set_r_msg]. destruct TB as (<- & _). apply buf_nil.
Qed.

Lemma tdd_many room n texts : Forall tdd_ok texts -> (254 <= room)%nat -> (255 <= n)%nat -> forall t r, tdd_rest t -> t_on t = false -> taking r 0 [] ->
  exists t' r', tdd_session room n t r texts = Ok (t', r', map tdd_text texts).
Proof.
  intros H Lr Ln. induction H as [|x texts Hx Hs IH]; intros t r Ht Ho Hr; cbn [tdd_session map]; [eauto|].
  pose proof Hx as (_ & _ & X3).
  assert (F : fits2 (t_shift t) 0) by (destruct Ht as (_ & _ & _ & Ht); unfold fits2; lia).
  destruct (tdd_one room n t r x 0 Ht Hx ltac:(lia) ltac:(lia) Hr F) as (t' & r' & l & t1 & buf & len & t2 & l' & -> & E2 & E3 & E4 & P1 & P2 & P3 & P4 & P5 & P6).
  cbn [rbind]. rewrite E2. cbn [rbind]. rewrite Z.eqb_refl. cbn [negb]. rewrite E3. cbn [rbind]. rewrite E4. cbn [rbind].
  destruct (IH t' r') as (t3 & r3 & ->).
  - rewrite Ho in P5. split; [exact P1|]. split; [exact P2|]. split; [exact P3|]. right; exact P5.
  - exact P4.
  - exact P6.
  - cbn [rbind app]. eauto.
Qed.
Lemma tdd_ok_session room n x texts : Forall tdd_ok (x :: texts) -> (texts = [] \/ ends_in_letter x) -> (254 <= room)%nat -> (255 <= n)%nat ->
  exists t' r', tdd_session room n (adsi_tx_init TDD) (adsi_rx_init TDD) (x :: texts) = Ok (t', r', map tdd_text (x :: texts)).
Proof.
  intros H He Lr Ln. inversion H as [|? ? Hx Hs]; subst. cbn [tdd_session map]. pose proof Hx as (_ & _ & X3).
  assert (Ht : tdd_rest (adsi_tx_init TDD)) by (repeat split; right; reflexivity).
  assert (Hr : taking (adsi_rx_init TDD) 0 []) by (repeat split; cbn; lia).
  assert (F : fits2 (t_shift (adsi_tx_init TDD)) 0) by (split; left; reflexivity).
  destruct (tdd_one room n _ _ x 0 Ht Hx ltac:(lia) ltac:(lia) Hr F) as (t' & r' & l & t1 & buf & len & t2 & l' & -> & E2 & E3 & E4 & P1 & P2 & P3 & P4 & P5 & P6).
  cbn [rbind]. rewrite E2. cbn [rbind]. rewrite Z.eqb_refl. cbn [negb]. rewrite E3. cbn [rbind]. rewrite E4. cbn [rbind].
  destruct He as [-> | (a & c & -> & Hc)]; [cbn [tdd_session rbind app]; eauto|].
  destruct (tdd_many room n texts Hs Lr Ln t' r') as (t3 & r3 & ->); [|exact P4|exact P6|cbn [rbind app]; eauto].
  split; [exact P1|]. split; [exact P2|]. split; [exact P3|]. left. rewrite P5. change (t_on (adsi_tx_init TDD)) with true. cbv iota.
  rewrite encs_app. cbn [encs fst]. apply letter_enc, Hc.
Qed.
