(** Proofs about whole bit paths: scrambler, symbols, rotation, symbols, descrambler. *)
From Verif Require Import Base Scram_model Scram_spec Scram_proofs.
From Coq Require Import ZifyBool ZifyNat.
Local Open Scope Z_scope.

Definition upto (n : nat) : list Z := map Z.of_nat (seq 0 n).
Lemma in_upto n x : 0 <= x < Z.of_nat n -> In x (upto n).
Proof. intros H. apply in_map_iff. exists (Z.to_nat x). split; [lia|]. apply in_seq. lia. Qed.
Fixpoint words (k : nat) : list (list bool) :=
  match k with O => [[]] | S k => map (cons false) (words k) ++ map (cons true) (words k) end.
Lemma in_words k : forall l, length l = k -> In l (words k).
Proof.
  induction k; intros [|b l] H; cbn [length] in H; try lia; [left; reflexivity|]. cbn [words]. apply in_or_app.
  destruct b; [right|left]; apply in_map; apply IHk; lia.
Qed.
Definition beq (a b : list bool) : bool := if list_eq_dec Bool.bool_dec a b then true else false.
Lemma beq_ok a b : beq a b = true -> a = b.
Proof. unfold beq. destruct (list_eq_dec Bool.bool_dec a b); [auto|discriminate]. Qed.

(** A step that only looks at the low bit of its input. *)
Lemma run_odd {S} (step : S -> Z -> Z * S) : (forall s b, step s b = step s (Z.b2z (Z.odd b))) ->
  forall l s, run step s l = run step s (zs (map Z.odd l)).
Proof.
  intros H. induction l as [|b l IH]; intros s; [reflexivity|]. cbn [run map zs]. rewrite H.
  destruct (step s (Z.b2z (Z.odd b))) as (o, s1). fold (zs (map Z.odd l)). rewrite IH. reflexivity.
Qed.
Lemma land1_odd b : Z.land b 1 = Z.land (Z.b2z (Z.odd b)) 1.
Proof. rewrite !land1, odd_b2z. reflexivity. Qed.
Lemma run_app {S} (step : S -> Z -> Z * S) a b s :
  run step s (a ++ b) = let (o1, s1) := run step s a in let (o2, s2) := run step s1 b in (o1 ++ o2, s2).
Proof.
  revert s. induction a as [|x a IH]; intros s; cbn [run app].
  - destruct (run step s b); reflexivity.
  - destruct (step s x) as (o, s1). rewrite IH. destruct (run step s1 a) as (o1, s2). destruct (run step s2 b). reflexivity.
Qed.
Lemma run_length {S} (step : S -> Z -> Z * S) a s : length (fst (run step s a)) = length a.
Proof.
  revert s. induction a as [|x a IH]; intros s; cbn [run]; [reflexivity|].
  destruct (step s x) as (o, s1). specialize (IH s1). destruct (run step s1 a). cbn [fst length] in *. f_equal. assumption.
Qed.

(** ---- V.29 ---- *)
Definition v29_k (rate : v29_rate) : nat := match rate with R9600 => 4%nat | R7200 => 3%nat | R4800 => 2%nat end.
Definition v29_fits (rate : v29_rate) (x : Z) : Prop := match rate with R4800 => Z.even x = true | _ => True end.
Definition v29_chk (rate : v29_rate) : bool :=
  forallb (fun cs => forallb (fun rho => forallb (fun a => forallb (fun line =>
    match rate with R4800 => negb (Z.even cs && Z.even rho && (a =? 0)) | _ => false end ||
    let (cs', sym) := v29_tx_symbol rate cs (zs line) in
    let (out, st') := v29_rx_symbol rate (a + Z.land (cs + rho) 7) (rot8 rho sym) in
    beq (map Z.odd out) line && (Z.land st' 7 =? Z.land (cs' + rho) 7) && (st' / 8 <? 2) && (0 <=? st' / 8) &&
    (0 <=? cs') && (cs' <? 8) && match rate with R4800 => Z.even cs' && (st' <? 8) | _ => true end)
  (words (v29_k rate))) [0; 8]) (upto 8)) (upto 8).
Lemma v29_chk_ok rate : v29_chk rate = true.
Proof. destruct rate; vm_compute; reflexivity. Qed.

(** The receiver's state [st] matches the transmitter's [cs]. *)
Definition v29_match (rate : v29_rate) (rho cs st : Z) : Prop :=
  0 <= cs < 8 /\ (st = Z.land (cs + rho) 7 \/ (rate <> R4800 /\ st = 8 + Z.land (cs + rho) 7)) /\ v29_fits rate cs.

Lemma v29_symbol rate rho cs st line : 0 <= rho < 8 -> v29_fits rate rho -> v29_match rate rho cs st -> length line = v29_k rate ->
  let (cs', sym) := v29_tx_symbol rate cs (zs line) in
  let (out, st') := v29_rx_symbol rate st (rot8 rho sym) in
  map Z.odd out = line /\ v29_match rate rho cs' st'.
Proof.
  intros Hr Hf (Hc & Hs & Hfc) Hl. pose proof (v29_chk_ok rate) as C. unfold v29_chk in C.
  rewrite forallb_forall in C. specialize (C cs (in_upto 8 cs ltac:(lia))).
  rewrite forallb_forall in C. specialize (C rho (in_upto 8 rho ltac:(lia))).
  rewrite forallb_forall in C.
  assert (D : exists a, In a [0; 8] /\ st = a + Z.land (cs + rho) 7 /\ (rate = R4800 -> a = 0)).
  { destruct Hs as [->|(H1 & ->)]; [exists 0|exists 8]; (split; [cbn; auto|]); (split; [lia|]); auto. congruence. }
  destruct D as (a & Ha & -> & Ha0). specialize (C a Ha).
  rewrite forallb_forall in C. specialize (C line (in_words _ line Hl)).
  destruct (v29_tx_symbol rate cs (zs line)) as (cs', sym).
  destruct (v29_rx_symbol rate (a + Z.land (cs + rho) 7) (rot8 rho sym)) as (out, st').
  assert (N : match rate with R4800 => negb (Z.even cs && Z.even rho && (a =? 0)) | _ => false end = false).
  { destruct rate; try reflexivity. cbn [v29_fits] in *. rewrite Hf, Hfc, (Ha0 eq_refl). reflexivity. }
  rewrite N in C. cbn [orb] in C. repeat (apply andb_prop in C; destruct C as (C & ?)).
  split; [apply beq_ok; assumption|].
  assert (E : Z.land st' 7 = st' mod 8) by (change 7 with (Z.ones 3); rewrite Z.land_ones by lia; reflexivity).
  split; [lia|]. split.
  - assert (st' = st' mod 8 \/ st' = 8 + st' mod 8).
    { pose proof (Z.div_mod st' 8 ltac:(lia)). assert (st' / 8 = 0 \/ st' / 8 = 1) by lia. destruct H6 as [H6|H6]; rewrite H6 in *; lia. }
    assert (Z.land st' 7 = Z.land (cs' + rho) 7) by lia.
    destruct H5 as [->|H5]; [left; lia|].
    destruct rate; [right; split; [discriminate|lia]..|].
    left. apply andb_prop in H. destruct H as (_ & H). pose proof (Z.mod_pos_bound st' 8 ltac:(lia)). lia.
  - destruct rate; cbn [v29_fits]; auto. apply andb_prop in H. tauto.
Qed.

Lemma v29_desc_low s b : v29_descramble s b = v29_descramble s (Z.b2z (Z.odd b)).
Proof. unfold v29_descramble. rewrite land1_odd. reflexivity. Qed.

Lemma v29_path rate rho data : 0 <= rho < 8 -> v29_fits rate rho -> groups (v29_k rate) data ->
  forall reg reg' cs st, v29_match rate rho cs st ->
  concat (v29_rx rate reg' st (map (rot8 rho) (v29_tx rate reg cs (map zs data)))) =
  fst (run v29_descramble reg' (fst (run v29_scramble reg (zs (concat data))))).
Proof.
  intros Hr Hf. induction data as [|g data IH]; intros HG reg reg' cs st HM; [reflexivity|].
  inversion_clear HG as [|? ? Hg Hd]. cbn [map v29_tx concat]. rewrite zs_app, run_app.
  change reg with (fst (reg, 0)). rewrite (run_grun v29_scramble fst (gtx (m2 17) nc2)) by (intros; apply (v17_tx_inst 17); lia).
  cbn [fst]. destruct (grun (gtx (m2 17) nc2) (reg, 0) g) as (line, s1) eqn:E. cbn [fst snd].
  assert (Ll : length line = v29_k rate).
  { pose proof (grun_length (gtx (m2 17) nc2) (reg, 0) g) as L. rewrite E in L. cbn [fst] in L. congruence. }
  pose proof (v29_symbol rate rho cs st line Hr Hf HM Ll) as V.
  destruct (v29_tx_symbol rate cs (zs line)) as (cs', sym). cbn [map v29_rx].
  destruct (v29_rx_symbol rate st (rot8 rho sym)) as (out, st'). destruct V as (V1 & V2).
  rewrite (run_odd v29_descramble v29_desc_low), V1.
  specialize (IH Hd (fst s1)). destruct (run v29_scramble (fst s1) (zs (concat data))) as (yd, s2). cbn [fst] in *.
  rewrite run_app. destruct (run v29_descramble reg' (zs line)) as (o1, s3). cbn [concat].
  rewrite (IH s3 cs' st' V2). destruct (run v29_descramble s3 yd) as (o2, s4). reflexivity.
Qed.

Theorem v29_link : forall rate rho reg cs data, 0 <= rho < 8 -> 0 <= cs < 8 -> v29_fits rate rho -> v29_fits rate cs ->
  groups (v29_k rate) data ->
  concat (v29_rx rate reg (Z.land (cs + rho) 7) (map (rot8 rho) (v29_tx rate reg cs (map zs data)))) = zs (concat data).
Proof.
  intros. rewrite v29_path with (rho := rho); try assumption.
  - apply v29_roundtrip.
  - unfold v29_match. auto.
Qed.
(** From any state of the receiver, the first symbol and 23 more bits at most are lost. *)
Theorem v29_link_sync : forall rate rho reg reg' cs st data, 0 <= rho < 8 -> 0 <= cs < 8 -> v29_fits rate rho -> v29_fits rate cs ->
  groups (v29_k rate) data ->
  skipn (v29_k rate + 23) (concat (v29_rx rate reg' st (map (rot8 rho) (v29_tx rate reg cs (map zs data)))))
  = skipn (v29_k rate + 23) (zs (concat data)).
Proof.
  intros rate rho reg reg' cs st data Hr Hc Hf Hfc HG. destruct data as [|g data]; [reflexivity|].
  inversion_clear HG as [|? ? Hg Hd]. cbn [map v29_tx concat]. rewrite zs_app.
  change reg with (fst (reg, 0)). rewrite (run_grun v29_scramble fst (gtx (m2 17) nc2)) by (intros; apply (v17_tx_inst 17); lia).
  cbn [fst]. destruct (grun (gtx (m2 17) nc2) (reg, 0) g) as (line, s1) eqn:E. cbn [fst snd].
  assert (Ll : length line = v29_k rate).
  { pose proof (grun_length (gtx (m2 17) nc2) (reg, 0) g) as L. rewrite E in L. cbn [fst] in L. congruence. }
  assert (HM : v29_match rate rho cs (Z.land (cs + rho) 7)) by (unfold v29_match; auto).
  pose proof (v29_symbol rate rho cs _ line Hr Hf HM Ll) as V.
  destruct (v29_tx_symbol rate cs (zs line)) as (cs', sym). cbn [map v29_rx].
  assert (Q : snd (v29_rx_symbol rate st (rot8 rho sym)) = snd (v29_rx_symbol rate (Z.land (cs + rho) 7) (rot8 rho sym))
    /\ length (fst (v29_rx_symbol rate st (rot8 rho sym))) = v29_k rate).
  { destruct rate; split; reflexivity. }
  destruct (v29_rx_symbol rate st (rot8 rho sym)) as (out, st').
  destruct (v29_rx_symbol rate (Z.land (cs + rho) 7) (rot8 rho sym)) as (out0, st0). cbn [fst snd] in Q. destruct Q as (<- & Lo).
  destruct V as (_ & V2).
  pose proof (run_length v29_descramble out reg') as L1. destruct (run v29_descramble reg' out) as (o1, s3). cbn [fst concat] in *.
  rewrite (v29_path rate rho data Hr Hf Hd (fst s1) s3 cs' st' V2).
  rewrite !skipn_app, !(skipn_all2 (n := v29_k rate + 23)) by (rewrite ?zs_length; lia).
  rewrite zs_length. cbn [app]. replace (v29_k rate + 23 - length o1)%nat with 23%nat by lia.
  replace (v29_k rate + 23 - length g)%nat with 23%nat by lia. apply v29_selfsync.
Qed.

(** ---- V.27ter ---- *)
Definition v27_k (eight : bool) : nat := if eight then 3%nat else 2%nat.
(** The receiver's view of a constellation index. *)
Definition v27_see (eight : bool) (rho sym : Z) : Z := let s := Z.land (sym + rho) 7 in if eight then s else Z.shiftr s 1.
Definition v27_fits (eight : bool) (x : Z) : Prop := if eight then True else Z.even x = true.
Definition v27_chk (eight : bool) : bool :=
  forallb (fun cs => forallb (fun rho => forallb (fun line =>
    (negb eight && negb (Z.even cs && Z.even rho)) ||
    let cs' := v27_tx_symbol eight cs (zs line) in
    beq (map Z.odd (v27_rx_symbol eight (v27_see eight rho cs) (v27_see eight rho cs'))) line &&
    (0 <=? cs') && (cs' <? 8) && (eight || Z.even cs'))
  (words (v27_k eight))) (upto 8)) (upto 8).
Lemma v27_chk_ok eight : v27_chk eight = true.
Proof. destruct eight; vm_compute; reflexivity. Qed.
Lemma v27_symbol eight rho cs line : 0 <= rho < 8 -> 0 <= cs < 8 -> v27_fits eight rho -> v27_fits eight cs -> length line = v27_k eight ->
  let cs' := v27_tx_symbol eight cs (zs line) in
  map Z.odd (v27_rx_symbol eight (v27_see eight rho cs) (v27_see eight rho cs')) = line /\ 0 <= cs' < 8 /\ v27_fits eight cs'.
Proof.
  intros Hr Hc Hf Hfc Hl cs'. pose proof (v27_chk_ok eight) as C. unfold v27_chk in C.
  rewrite forallb_forall in C. specialize (C cs (in_upto 8 cs ltac:(lia))).
  rewrite forallb_forall in C. specialize (C rho (in_upto 8 rho ltac:(lia))).
  rewrite forallb_forall in C. specialize (C line (in_words _ line Hl)). cbv zeta in C. fold cs' in C.
  assert (N : negb eight && negb (Z.even cs && Z.even rho) = false).
  { destruct eight; [reflexivity|]. cbn [v27_fits] in *. rewrite Hf, Hfc. reflexivity. }
  rewrite N in C. cbn [orb] in C. repeat (apply andb_prop in C; destruct C as (C & ?)).
  split; [apply beq_ok; assumption|]. split; [lia|]. destruct eight; [exact I|]. assumption.
Qed.
Lemma v27_desc_low stage s b : v27_descramble stage s b = v27_descramble stage s (Z.b2z (Z.odd b)).
Proof. destruct s. unfold v27_descramble. rewrite land1_odd. reflexivity. Qed.
Lemma v27_path eight rho data : 0 <= rho < 8 -> v27_fits eight rho -> groups (v27_k eight) data ->
  forall s s' cs, 0 <= cs < 8 -> v27_fits eight cs ->
  concat (v27_rx eight s' (v27_see eight rho cs) (map (v27_see eight rho) (v27_tx eight s cs (map zs data)))) =
  fst (run (v27_descramble V27_NORMAL) s' (fst (run v27_scramble s (zs (concat data))))).
Proof.
  intros Hr Hf. induction data as [|g data IH]; intros HG s s' cs Hc Hfc; [reflexivity|].
  inversion_clear HG as [|? ? Hg Hd]. cbn [map v27_tx concat]. rewrite zs_app, run_app, v27_run_tx.
  pose proof (grun_length (gtx m27 nc27) s g) as L.
  destruct (grun (gtx m27 nc27) s g) as (line, s1). cbn [fst snd] in *.
  pose proof (v27_symbol eight rho cs line Hr Hc Hf Hfc ltac:(congruence)) as (V1 & V2 & V3).
  set (cs' := v27_tx_symbol eight cs (zs line)) in *. cbn [map v27_rx].
  rewrite (run_odd _ (v27_desc_low V27_NORMAL)), V1.
  specialize (IH Hd s1). destruct (run v27_scramble s1 (zs (concat data))) as (yd, s2). cbn [fst] in *.
  rewrite run_app. destruct (run (v27_descramble V27_NORMAL) s' (zs line)) as (o1, s3). cbn [concat].
  rewrite (IH s3 cs' V2 V3). destruct (run (v27_descramble V27_NORMAL) s3 yd) as (o2, s4). reflexivity.
Qed.
Theorem v27_link : forall eight rho s cs data, 0 <= rho < 8 -> 0 <= cs < 8 -> v27_fits eight rho -> v27_fits eight cs ->
  groups (v27_k eight) data ->
  concat (v27_rx eight s (v27_see eight rho cs) (map (v27_see eight rho) (v27_tx eight s cs (map zs data)))) = zs (concat data).
Proof.
  intros. rewrite v27_path by assumption. apply v27_roundtrip. unfold V27_NORMAL, V27_TEST_ONES. lia.
Qed.

Fixpoint iter_ones (step : Z * Z -> Z -> Z * (Z * Z)) (n : nat) (s : Z * Z) : Z * Z :=
  match n with O => s | S n => iter_ones step n (snd (step s 1)) end.
Lemma iter_ones_run step n : forall s, snd (run step s (zs (repeat true n))) = iter_ones step n s.
Proof.
  induction n as [|n IH]; intros s; [reflexivity|]. cbn [repeat zs map run iter_ones Z.b2z].
  destruct (step s 1) as (o, s1). specialize (IH s1). unfold zs in IH. destruct (run step s1 (map Z.b2z (repeat true n))). exact IH.
Qed.
Lemma ones_zs n : ones n = zs (repeat true (Z.to_nat n)).
Proof. unfold ones. generalize (Z.to_nat n). induction n0; cbn [repeat zs map]; [reflexivity|]. rewrite IHn0. reflexivity. Qed.
Lemma v27_train_tx : snd (run v27_scramble (60, 0) (ones 3222)) = (2754030865, 9).
Proof. rewrite ones_zs, iter_ones_run. vm_compute. reflexivity. Qed.
Lemma v27_train_rx : snd (run (v27_descramble V27_TRAIN_ON_ABAB) (60, 0) (ones 3222)) = (2754030865, 0).
Proof. rewrite ones_zs, iter_ones_run. vm_compute. reflexivity. Qed.
Lemma v27_test (eight : bool) :
  snd (run (v27_descramble V27_TEST_ONES) (2754030865, 0) (fst (run v27_scramble (2754030865, 9) (ones (8 * (if eight then 3 else 2))))))
  = snd (run v27_scramble (2754030865, 9) (ones (8 * (if eight then 3 else 2)))).
Proof. destruct eight; vm_compute; reflexivity. Qed.
Theorem v27_session_ok : forall eight data, v27_session eight (zs data) = zs data.
Proof.
  intros eight data. unfold v27_session. cbv zeta. rewrite v27_train_tx, v27_train_rx, v27_test.
  apply v27_roundtrip. unfold V27_NORMAL, V27_TEST_ONES. lia.
Qed.

(** ---- V.22bis ---- *)
Definition v22_k (sixteen : bool) : nat := if sixteen then 4%nat else 2%nat.
Definition v22_chk (sixteen : bool) : bool :=
  forallb (fun cs => forallb (fun rho => forallb (fun low => forallb (fun line =>
    let (cs', sym) := v22_tx_symbol sixteen cs (zs line) in
    beq (map Z.odd (v22_rx_symbol sixteen (rot4 rho (4 * cs + low)) (rot4 rho sym))) line &&
    (sym / 4 =? cs') && (0 <=? cs') && (cs' <? 4))
  (words (v22_k sixteen))) (upto 4)) (upto 4)) (upto 4).
Lemma v22_chk_ok sixteen : v22_chk sixteen = true.
Proof. destruct sixteen; vm_compute; reflexivity. Qed.
Lemma v22_symbol sixteen rho cs low line : 0 <= rho < 4 -> 0 <= cs < 4 -> 0 <= low < 4 -> length line = v22_k sixteen ->
  let (cs', sym) := v22_tx_symbol sixteen cs (zs line) in
  map Z.odd (v22_rx_symbol sixteen (rot4 rho (4 * cs + low)) (rot4 rho sym)) = line /\ 0 <= cs' < 4 /\
  exists low', 0 <= low' < 4 /\ sym = 4 * cs' + low'.
Proof.
  intros Hr Hc Hw Hl. pose proof (v22_chk_ok sixteen) as C. unfold v22_chk in C.
  rewrite forallb_forall in C. specialize (C cs (in_upto 4 cs ltac:(lia))).
  rewrite forallb_forall in C. specialize (C rho (in_upto 4 rho ltac:(lia))).
  rewrite forallb_forall in C. specialize (C low (in_upto 4 low ltac:(lia))).
  rewrite forallb_forall in C. specialize (C line (in_words _ line Hl)).
  destruct (v22_tx_symbol sixteen cs (zs line)) as (cs', sym).
  repeat (apply andb_prop in C; destruct C as (C & ?)).
  split; [apply beq_ok; assumption|]. split; [lia|]. exists (sym mod 4).
  pose proof (Z.div_mod sym 4 ltac:(lia)). pose proof (Z.mod_pos_bound sym 4 ltac:(lia)). split; lia.
Qed.
Lemma v22_desc_low s b : v22_descramble s b = v22_descramble s (Z.b2z (Z.odd b)).
Proof. destruct s. unfold v22_descramble. rewrite land1_odd. reflexivity. Qed.
Lemma v22_path sixteen rho data : 0 <= rho < 4 -> groups (v22_k sixteen) data ->
  forall s s' cs low, 0 <= cs < 4 -> 0 <= low < 4 ->
  concat (v22_rx sixteen s' (rot4 rho (4 * cs + low)) (map (rot4 rho) (v22_tx sixteen s cs (map zs data)))) =
  fst (run v22_descramble s' (fst (run v22_scramble s (zs (concat data))))).
Proof.
  intros Hr. induction data as [|g data IH]; intros HG s s' cs low Hc Hw; [reflexivity|].
  inversion_clear HG as [|? ? Hg Hd]. cbn [map v22_tx concat]. rewrite zs_app, run_app, v22_run_tx.
  pose proof (grun_length (gtx m22 nc22) s g) as L.
  destruct (grun (gtx m22 nc22) s g) as (line, s1). cbn [fst snd] in *.
  pose proof (v22_symbol sixteen rho cs low line Hr Hc Hw ltac:(congruence)) as V.
  destruct (v22_tx_symbol sixteen cs (zs line)) as (cs', sym). destruct V as (V1 & V2 & low' & V3 & V4). cbn [map v22_rx].
  rewrite (run_odd _ v22_desc_low), V1. rewrite V4.
  specialize (IH Hd s1). destruct (run v22_scramble s1 (zs (concat data))) as (yd, s2). cbn [fst] in *.
  rewrite run_app. destruct (run v22_descramble s' (zs line)) as (o1, s3). cbn [concat].
  rewrite (IH s3 cs' low' V2 V3). destruct (run v22_descramble s3 yd) as (o2, s4). reflexivity.
Qed.
Theorem v22_link : forall sixteen rho s cs low data, 0 <= rho < 4 -> 0 <= cs < 4 -> 0 <= low < 4 -> groups (v22_k sixteen) data ->
  concat (v22_rx sixteen s (rot4 rho (4 * cs + low)) (map (rot4 rho) (v22_tx sixteen s cs (map zs data)))) = zs (concat data).
Proof. intros. rewrite v22_path by assumption. apply v22_roundtrip. Qed.
