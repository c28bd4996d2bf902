(** SPRT: what the calls do to one channel. *)
From Coq Require Import ZifyBool ZifyNat.
From Verif Require Import Base Sprt_model Sprt_base_proofs.
Local Open Scope Z_scope.

Definition zlen {A} (l : list A) : Z := Z.of_nat (length l).
Definition znth {A} (l : list A) (i : Z) : option A := if i <? 0 then None else nth_error l (Z.to_nat i).

(** ---- transmission: the window ---- *)
Record ring (c : txc) (S : list (list Z)) (O : Z) : Prop := mkRing {
  g_win : 8 <= t_win c <= 96;
  g_buf : t_win c < zlen (t_buf c);
  g_tm : length (t_tr03 c) = length (t_buf c);
  g_tr : length (t_tries c) = 96%nat;
  g_range : 0 <= O <= zlen S /\ zlen S < O + t_win c;
  g_in : t_in c = zlen S mod t_win c;
  g_out : t_out c = O mod t_win c;
  g_q : t_q c = zlen S mod 16384;
  g_tries : 1 <= t_tries_max c <= 20;
  g_max : 0 <= t_max c <= 256;
  g_slot : forall sl p, 0 <= sl -> sn (t_buf c) sl = Some p -> exists i, O <= i < zlen S /\ sl = i mod t_win c /\ znth S i = Some p;
  g_head : O < zlen S -> sn (t_buf c) (O mod t_win c) <> None;
  g_len : Forall (fun p => 0 < zlen p <= t_max c) S }.

(** the timers of its slots *)
Record timed (c : txc) (L : list Z) : Prop := mkTimed {
  q_link : linkedc c L;
  q_some : forall x, In x L -> sn (t_buf c) x <> None;
  q_tries : forall x, In x L -> 1 <= zn (t_tries c) x;
  q_all : Forall (fun n => 0 <= n <= 20) (t_tries c) }.
Definition full (c : txc) (L : list Z) : Prop := forall x, 0 <= x -> sn (t_buf c) x <> None -> In x L.

Definition acked (c : txc) (Q i : Z) : Prop :=
  0 <= i < Q /\ (i <= Q - t_win c \/ sn (t_buf c) (i mod t_win c) = None).

Lemma Forall_nth_Z (P : Z -> Prop) l x : Forall P l -> 0 <= x < zlen l -> P (zn l x).
Proof. intros H Hx. rewrite Forall_forall in H. apply H. apply nth_In. unfold zlen in Hx. lia. Qed.
Lemma Forall_upd {A} (P : A -> Prop) l i x : Forall P l -> P x -> Forall P (upd l i x).
Proof.
  intros H Hx. revert i. induction H as [|a l Ha H IH]; intros [|i]; cbn; constructor; auto.
Qed.
Lemma znth_app_l {A} (l m : list A) i x : znth l i = Some x -> znth (l ++ m) i = Some x.
Proof. unfold znth. destruct (i <? 0); [discriminate|]. intros H. rewrite nth_error_app1; [exact H|]. apply nth_error_Some. congruence. Qed.
Lemma znth_last {A} (l : list A) x : znth (l ++ [x]) (zlen l) = Some x.
Proof. unfold znth, zlen. replace (_ <? 0) with false by lia. rewrite Nat2Z.id, nth_error_app2, Nat.sub_diag by lia. reflexivity. Qed.
Lemma znth_range {A} (l : list A) i x : znth l i = Some x -> 0 <= i < zlen l.
Proof.
  unfold znth, zlen. destruct (Z.ltb_spec i 0); [discriminate|]. intros E.
  assert ((Z.to_nat i < length l)%nat) by (apply nth_error_Some; congruence). lia.
Qed.
Lemma zlen_app {A} (l m : list A) : zlen (l ++ m) = zlen l + zlen m.
Proof. unfold zlen. rewrite app_length. lia. Qed.
Lemma zlen_nonneg {A} (l : list A) : 0 <= zlen l.
Proof. unfold zlen. lia. Qed.

(** An unacknowledged message is in its slot. *)
Lemma ring_acked c S O i : ring c S O -> (acked c (zlen S) i <-> 0 <= i < O \/ (O <= i < zlen S /\ sn (t_buf c) (i mod t_win c) = None)).
Proof.
  intros G. pose proof (g_win _ _ _ G). destruct (g_range _ _ _ G) as [R1 R2]. unfold acked. split.
  - intros (Hi & Hc). destruct (Z_lt_ge_dec i O); [left; lia|]. destruct Hc as [Hc|Hc]; [exfalso; lia|]. right. split; [lia|exact Hc].
  - intros [Hi|(Hi & Hs)]; [|split; [lia|right; exact Hs]]. split; [lia|].
    destruct (Z_le_gt_dec i (zlen S - t_win c)) as [|Hg]; [left; lia|right].
    destruct (sn (t_buf c) (i mod t_win c)) as [p|] eqn:E; [|reflexivity]. exfalso.
    destruct (g_slot _ _ _ G (i mod t_win c) p ltac:(apply Z.mod_pos_bound; lia) E) as (j & Hj & Hm & _).
    apply mod_inj in Hm; lia.
Qed.

(** Setting what the window is not concerned with. *)
Lemma ring_ext c c' S O : ring c S O ->
  t_win c' = t_win c -> t_buf c' = t_buf c -> length (t_tr03 c') = length (t_tr03 c) -> length (t_tries c') = length (t_tries c) ->
  t_in c' = t_in c -> t_out c' = t_out c -> t_q c' = t_q c -> t_tries_max c' = t_tries_max c -> t_max c' = t_max c -> ring c' S O.
Proof.
  intros [] E1 E2 E3 E4 E5 E6 E7 E8 E9. constructor; rewrite ?E1, ?E2, ?E3, ?E4, ?E5, ?E6, ?E7, ?E8, ?E9; assumption.
Qed.

(** going on over what has been acknowledged *)
Lemma skip_ok c (S : list (list Z)) k : forall (fuel : nat) i, t_in c = zlen S mod t_win c -> 8 <= t_win c <= 96 -> t_win c < zlen (t_buf c) ->
  zlen S - t_win c < i < zlen S -> zlen S - i = Z.of_nat k -> (k <= fuel)%nat ->
  exists j, skip_acked fuel c (i mod t_win c) = Ok (j mod t_win c) /\ i < j <= zlen S /\
    (forall m, i < m < j -> sn (t_buf c) (m mod t_win c) = None) /\ (j < zlen S -> sn (t_buf c) (j mod t_win c) <> None).
Proof.
  induction k as [|k IH]; intros fuel i Hin HW HB Hi Hk Hf; [lia|]. destruct fuel as [|fuel]; [lia|]. cbn [skip_acked].
  change (if t_win c <=? i mod t_win c + 1 then 0 else i mod t_win c + 1) with (next_ptr (t_win c) (i mod t_win c)).
  rewrite next_mod by lia. rewrite Hin. destruct (Z.eqb_spec ((i + 1) mod t_win c) (zlen S mod t_win c)) as [E|E].
  - apply mod_inj in E; [|lia|lia]. exists (i + 1). split; [reflexivity|]. split; [lia|]. split; [lia|lia].
  - assert (Hne : i + 1 <> zlen S) by (intros X; apply E; rewrite X; reflexivity).
    pose proof (Z.mod_pos_bound (i + 1) (t_win c) ltac:(lia)). rewrite oget_sn by (unfold zlen in HB; lia). cbn [rbind].
    destruct (sn (t_buf c) ((i + 1) mod t_win c)) as [p|] eqn:Es.
    + exists (i + 1). split; [reflexivity|]. split; [lia|]. split; [lia|]. intros _. congruence.
    + destruct (IH fuel (i + 1) Hin HW HB ltac:(lia) ltac:(lia) ltac:(lia)) as (j & H1 & H2 & H3 & H4).
      exists j. split; [exact H1|]. split; [lia|]. split; [|exact H4]. intros m Hm. destruct (Z.eq_dec m (i + 1)) as [->|]; [exact Es|]. apply H3. lia.
Qed.

Lemma setqueue_ring c f l pv nx S O : ring c S O -> ring (t_setqueue c f l pv nx) S O.
Proof. intros G. apply (ring_ext c); auto. Qed.

Lemma full_remove c A x B : full c (A ++ x :: B) -> forall c', 0 <= x -> (forall y, 0 <= y -> sn (t_buf c') y = if y =? x then None else sn (t_buf c) y) -> full c' (A ++ B).
Proof.
  intros HF c' Hx E y Hy Hs. rewrite E in Hs by exact Hy. destruct (Z.eqb_spec y x); [congruence|]. specialize (HF y Hy Hs).
  rewrite in_app_iff in *. cbn in HF. destruct HF as [|[|]]; auto; congruence.
Qed.

(** src/sprt.c:463-518: an acknowledgement *)
Lemma process_ack_ok c S O L sqn : ring c S O -> timed c L -> full c L -> exists c' O' L',
  process_ack c sqn = Ok c' /\ ring c' S O' /\ timed c' L' /\ full c' L' /\ t_win c' = t_win c /\ t_ta02 c' = t_ta02 c /\
  (forall i, acked c' (zlen S) i -> acked c (zlen S) i \/ (i = zlen S - (zlen S - sqn) mod 16384)) /\
  (forall i, acked c (zlen S) i -> acked c' (zlen S) i) /\ t_max c' = t_max c.
Proof.
  intros G T F. pose proof (g_win _ _ _ G) as HW. destruct (g_range _ _ _ G) as [R1 R2]. pose proof (g_buf _ _ _ G) as HB.
  assert (Triv : forall r, r = Ok c -> exists c' O' L', r = Ok c' /\ ring c' S O' /\ timed c' L' /\ full c' L' /\ t_win c' = t_win c /\ t_ta02 c' = t_ta02 c /\
    (forall i, acked c' (zlen S) i -> acked c (zlen S) i \/ (i = zlen S - (zlen S - sqn) mod 16384)) /\ (forall i, acked c (zlen S) i -> acked c' (zlen S) i) /\ t_max c' = t_max c).
  { intros r ->. exists c, O, L. repeat (split; [solve [reflexivity|assumption|auto]|]). split; auto. }
  unfold process_ack. rewrite land_mask, (g_q _ _ _ G), Zminus_mod_idemp_l.
  set (d := (zlen S - sqn) mod 16384) in *. assert (Hd : 0 <= d) by (apply Z.mod_pos_bound; lia).
  destruct (Z.ltb_spec d (t_win c)) as [Hlt|]; [|apply Triv; reflexivity].
  rewrite (g_in _ _ _ G), back_mod by lia. set (i := zlen S - d) in *. set (sl := i mod t_win c) in *.
  assert (Hsl : 0 <= sl < t_win c) by (apply Z.mod_pos_bound; lia). unfold zlen in HB. rewrite oget_sn by lia. cbn [rbind].
  destruct (sn (t_buf c) sl) as [p|] eqn:Es; [|apply Triv; reflexivity].
  destruct (g_slot _ _ _ G sl p ltac:(lia) Es) as (i' & Hi' & Hm & Hp).
  assert (i' = i) as -> by (unfold sl in Hm; apply mod_inj in Hm; lia). clear Hm.
  rewrite oset_ok by lia. cbn [rbind]. rewrite aset_ok by (rewrite (g_tm _ _ _ G); lia). cbn [rbind].
  set (c1 := t_setbuf c (zlen S mod t_win c) (t_out c) (upd (t_buf c) (Z.to_nat sl) None) (upd (t_tr03 c) (Z.to_nat sl) 0) (t_tries c)).
  assert (HinL : In sl L) by (apply F; [lia|congruence]). apply in_split in HinL. destruct HinL as (A & B & EL).
  assert (Hl1 : linkedc c1 (A ++ sl :: B)) by (rewrite <- EL; exact (q_link _ _ T)).
  destruct (delete_ok c1 A sl B Hl1) as (f & l & pv & nx & -> & Hl2). cbn [rbind].
  set (c2 := t_setqueue c1 f l pv nx).
  assert (Hb2 : forall y, 0 <= y -> sn (t_buf c2) y = if y =? sl then None else sn (t_buf c) y).
  { intros y Hy. change (t_buf c2) with (upd (t_buf c) (Z.to_nat sl) None). apply sn_upd; lia. }
  assert (Nsl : ~ In sl (A ++ B)).
  { pose proof (q_link _ _ T) as (_ & _ & ND & _). rewrite EL in ND. apply NoDup_remove_2 in ND. exact ND. }
  assert (Tc : forall c', t_first c' = f -> t_last c' = l -> t_prev c' = pv -> t_next c' = nx -> t_buf c' = t_buf c2 -> t_tries c' = t_tries c -> timed c' (A ++ B)).
  { intros c' E1 E2 E3 E4 E5 E6. pose proof (q_link _ _ T) as (_ & _ & _ & HF96 & _). rewrite Forall_forall in HF96. constructor.
    - unfold linkedc. rewrite E1, E2, E3, E4. exact Hl2.
    - intros x Hx. rewrite E5. assert (HxL : In x L) by (rewrite EL, in_app_iff; cbn; rewrite in_app_iff in Hx; tauto).
      rewrite Hb2 by (apply HF96; exact HxL). replace (x =? sl) with false by (symmetry; apply Z.eqb_neq; intros ->; auto). apply (q_some _ _ T); exact HxL.
    - intros x Hx. rewrite E6. apply (q_tries _ _ T). rewrite EL, in_app_iff. cbn. rewrite in_app_iff in Hx. tauto.
    - rewrite E6. exact (q_all _ _ T). }
  assert (Fc : forall c', t_buf c' = t_buf c2 -> full c' (A ++ B)).
  { intros c' E. apply (full_remove c A sl B); [rewrite <- EL; exact F|lia|]. intros y Hy. rewrite E. apply Hb2; exact Hy. }
  (* the acknowledged after it *)
  assert (Ac : forall c', t_buf c' = t_buf c2 -> t_win c' = t_win c -> (forall j, acked c' (zlen S) j -> acked c (zlen S) j \/ j = i) /\ (forall j, acked c (zlen S) j -> acked c' (zlen S) j)).
  { intros c' E1 E2. unfold acked. rewrite E1, E2. split; intros j (Hj & Hc).
    - destruct Hc as [Hc|Hc]; [left; auto|]. rewrite Hb2 in Hc by (apply Z.mod_pos_bound; lia).
      destruct (Z.eqb_spec (j mod t_win c) sl) as [Em|]; [|left; auto].
      destruct (Z_le_gt_dec j (zlen S - t_win c)); [left; auto|]. right. unfold sl in Em. apply mod_inj in Em; lia.
    - split; [exact Hj|]. destruct Hc as [Hc|Hc]; [left; exact Hc|right]. rewrite Hb2 by (apply Z.mod_pos_bound; lia). destruct (_ =? _); [reflexivity|exact Hc]. }
  (* the window after it *)
  assert (Gs : forall o', O <= o' -> (forall m, O <= m < o' -> m = i \/ sn (t_buf c) (m mod t_win c) = None) ->
     forall x q, 0 <= x -> sn (t_buf c2) x = Some q -> exists k, o' <= k < zlen S /\ x = k mod t_win c /\ znth S k = Some q).
  { intros o' Ho Hno x q Hx Hs. rewrite Hb2 in Hs by exact Hx. destruct (Z.eqb_spec x sl) as [|Hxs]; [discriminate|].
    destruct (g_slot _ _ _ G x q Hx Hs) as (k & Hk & Ek & Hq). exists k. split; [|auto]. split; [|lia].
    destruct (Z_lt_ge_dec k o') as [Hlt'|]; [|lia]. exfalso. destruct (Hno k ltac:(lia)) as [->|Hn]; [auto|]. rewrite <- Ek in Hn. congruence. }
  change (t_out c2) with (t_out c). rewrite (g_out _ _ _ G).
  destruct (Z.eqb_spec sl (O mod t_win c)) as [Eo|Eo].
  - assert (HiO : i = O) by (unfold sl in Eo; apply mod_inj in Eo; lia).
    destruct (skip_ok c2 S (Z.to_nat (zlen S - O)) (Datatypes.S (Z.to_nat (t_win c2))) O) as (j & Ej & Hj & Hn & Hh).
    { reflexivity. } { exact HW. } { unfold zlen. cbn. rewrite upd_length. lia. } { change (t_win c2) with (t_win c). lia. } { lia. } { change (t_win c2) with (t_win c). lia. }
    change (t_win c2) with (t_win c) in *. rewrite Ej. cbn [rbind].
    eexists _, j, (A ++ B). split; [reflexivity|].
    assert (Hno : forall m, O <= m < j -> m = i \/ sn (t_buf c) (m mod t_win c) = None).
    { intros m Hm. destruct (Z.eq_dec m O) as [->|]; [left; lia|right]. specialize (Hn m ltac:(lia)). rewrite Hb2 in Hn by (apply Z.mod_pos_bound; lia).
      destruct (Z.eqb_spec (m mod t_win c) sl) as [Em|]; [unfold sl in Em; apply mod_inj in Em; lia|exact Hn]. }
    destruct (Ac (t_setbuf c2 (t_in c2) (j mod t_win c) (t_buf c2) (t_tr03 c2) (t_tries c2)) eq_refl eq_refl) as [Ac1 Ac2].
    split.
    { constructor; cbn -[Z.modulo sn Z.add]; try (first [exact (g_tr _ _ _ G)|exact (g_tries _ _ _ G)|exact (g_max _ _ _ G)|exact (g_len _ _ _ G)|exact (g_q _ _ _ G)]); try lia.
      - unfold zlen. rewrite upd_length. lia.
      - rewrite !upd_length. exact (g_tm _ _ _ G).
      - apply (Gs j); [lia|exact Hno].
      - exact Hh. }
    split; [apply Tc; reflexivity|]. split; [apply Fc; reflexivity|]. repeat (split; [reflexivity|]). split; [exact Ac1|]. split; [exact Ac2|reflexivity].
  - eexists c2, O, (A ++ B). split; [reflexivity|]. destruct (Ac c2 eq_refl eq_refl) as [Ac1 Ac2].
    split.
    { constructor; cbn -[Z.modulo sn Z.add]; try (first [exact (g_tr _ _ _ G)|exact (g_tries _ _ _ G)|exact (g_max _ _ _ G)|exact (g_len _ _ _ G)|exact (g_q _ _ _ G)|exact (g_out _ _ _ G)]); try lia.
      - unfold zlen. rewrite upd_length. lia.
      - rewrite !upd_length. exact (g_tm _ _ _ G).
      - apply (Gs O); [lia|]. intros m Hm. lia.
      - intros Ho. change (upd (t_buf c) (Z.to_nat sl) None) with (t_buf c2). rewrite Hb2 by (apply Z.mod_pos_bound; lia). replace (O mod t_win c =? sl) with false by lia. exact (g_head _ _ _ G Ho). }
    split; [apply Tc; reflexivity|]. split; [apply Fc; reflexivity|]. repeat (split; [reflexivity|]). split; [exact Ac1|]. split; [exact Ac2|reflexivity].
Qed.

(** src/sprt.c:936-956: a message is taken *)
Definition taken (c : txc) (now : Z) (p : list Z) : res txc :=
  let iptr := t_in c in
  do buf <- oset (t_buf c) iptr (Some p);
  do tm <- aset (t_tr03 c) iptr (now + t_tr03_to c);
  do tr <- aset (t_tries c) iptr (t_tries_max c);
  do c <- add_last (t_setq (t_setbuf c (t_in c) (t_out c) buf tm tr) (Z.land (t_q c + 1) SEQ_MASK)) iptr;
  let c := t_setbuf c (next_ptr (t_win c) iptr) (t_out c) (t_buf c) (t_tr03 c) (t_tries c) in
  Ok (t_setta02 c (now + t_ta02_to c)).

Lemma room_ok c S O : ring c S O -> 
  (let real := t_out c - t_in c - 1 in let real := if real <? 0 then real + t_win c else real in real <? 1) = (t_win c - 1 <=? zlen S - O).
Proof.
  intros G. pose proof (g_win _ _ _ G). destruct (g_range _ _ _ G) as [R1 R2]. rewrite (g_out _ _ _ G), (g_in _ _ _ G). cbn zeta.
  pose proof (Z.mod_pos_bound O (t_win c) ltac:(lia)). pose proof (Z.mod_pos_bound (zlen S) (t_win c) ltac:(lia)).
  pose proof (Z.div_mod O (t_win c) ltac:(lia)) as E1. pose proof (Z.div_mod (zlen S) (t_win c) ltac:(lia)) as E2.
  set (a := O mod t_win c) in *. set (b := zlen S mod t_win c) in *. set (x := O / t_win c) in *. set (y := zlen S / t_win c) in *.
  assert (Hxy : y = x \/ y = x + 1).
  { assert (y < x + 2) by nia. assert (x - 1 < y) by nia. lia. }
  destruct (Z.ltb_spec (a - b - 1) 0); destruct Hxy as [Hy|Hy]; rewrite Hy in *; apply Bool.eq_iff_eq_true; rewrite Z.ltb_lt, Z.leb_le; nia.
Qed.

Lemma taken_ok c S O L now p : ring c S O -> timed c L -> zlen S - O < t_win c - 1 -> 0 < zlen p <= t_max c -> exists c',
  taken c now p = Ok c' /\ ring c' (S ++ [p]) O /\ timed c' (L ++ [zlen S mod t_win c]) /\ (full c L -> full c' (L ++ [zlen S mod t_win c])) /\ t_win c' = t_win c /\ t_max c' = t_max c /\
  (forall i, acked c' (zlen S + 1) i <-> acked c (zlen S) i).
Proof.
  intros G T Hroom Hp. pose proof (g_win _ _ _ G) as HW. destruct (g_range _ _ _ G) as [R1 R2]. pose proof (g_buf _ _ _ G) as HB. unfold zlen in HB.
  unfold taken. set (sl := zlen S mod t_win c) in *. rewrite (g_in _ _ _ G). fold sl.
  assert (Hsl : 0 <= sl < t_win c) by (apply Z.mod_pos_bound; lia).
  assert (Hnone : sn (t_buf c) sl = None).
  { destruct (sn (t_buf c) sl) as [q|] eqn:E; [|reflexivity]. destruct (g_slot _ _ _ G sl q ltac:(lia) E) as (i & Hi & Em & _). unfold sl in Em. apply mod_inj in Em; lia. }
  rewrite oset_ok by lia. cbn [rbind]. rewrite aset_ok by (rewrite (g_tm _ _ _ G); lia). cbn [rbind]. rewrite aset_ok by (rewrite (g_tr _ _ _ G); lia). cbn [rbind].
  set (c1 := t_setq _ _).
  assert (Nsl : ~ In sl L) by (intros X; apply (q_some _ _ T) in X; congruence).
  destruct (add_last_ok c1 L sl (q_link _ _ T) ltac:(lia) Nsl) as (f & l & pv & nx & -> & Hl). cbn [rbind].
  change (t_win (t_setqueue c1 f l pv nx)) with (t_win c). unfold sl at 1. rewrite next_mod by lia.
  eexists. split; [reflexivity|]. set (c' := t_setta02 _ _).
  assert (Eb : t_buf c' = upd (t_buf c) (Z.to_nat sl) (Some p)) by reflexivity.
  assert (Hb : forall y, 0 <= y -> sn (t_buf c') y = if y =? sl then Some p else sn (t_buf c) y) by (intros y Hy; rewrite Eb; apply sn_upd; lia).
  pose proof (q_link _ _ T) as (_ & _ & _ & HF96 & _). rewrite Forall_forall in HF96.
  split; [|split; [|split; [|split; [reflexivity|split; [reflexivity|]]]]].
  - assert (El : zlen (S ++ [p]) = zlen S + 1) by (rewrite zlen_app; reflexivity).
    constructor; rewrite ?El; try (first [exact (g_tries _ _ _ G)|exact (g_max _ _ _ G)|exact (g_out _ _ _ G)|exact (g_win _ _ _ G)]).
    + rewrite Eb. unfold zlen. rewrite upd_length. change (t_win c') with (t_win c). lia.
    + cbn. rewrite !upd_length. exact (g_tm _ _ _ G).
    + cbn. rewrite !upd_length. exact (g_tr _ _ _ G).
    + change (t_win c') with (t_win c). lia.
    + reflexivity.
    + cbn -[Z.land Z.modulo Z.add]. rewrite land_mask, (g_q _ _ _ G). rewrite Z.add_mod_idemp_l by lia. reflexivity.
    + intros x q Hx Hs. rewrite Hb in Hs by exact Hx. change (t_win c') with (t_win c). destruct (Z.eqb_spec x sl) as [->|].
      * injection Hs as <-. exists (zlen S). split; [lia|]. split; [reflexivity|]. apply znth_last.
      * destruct (g_slot _ _ _ G x q Hx Hs) as (i & Hi & Em & Hq). exists i. split; [lia|]. split; [exact Em|]. apply znth_app_l. exact Hq.
    + intros _. change (t_win c') with (t_win c). rewrite Hb by (apply Z.mod_pos_bound; lia). destruct (Z.eqb_spec (O mod t_win c) sl) as [E|E]; [discriminate|].
      apply (g_head _ _ _ G). destruct (Z.eq_dec O (zlen S)) as [X|]; [|lia]. exfalso. apply E. unfold sl. rewrite X. reflexivity.
    + apply Forall_app. split; [exact (g_len _ _ _ G)|]. constructor; [exact Hp|constructor].
  - constructor.
    + exact Hl.
    + intros x Hx. apply in_app_or in Hx. destruct Hx as [Hx|[<-|[]]].
      * rewrite Hb by (apply HF96; exact Hx). destruct (x =? sl); [discriminate|]. apply (q_some _ _ T); exact Hx.
      * rewrite Hb by lia. rewrite Z.eqb_refl. discriminate.
    + intros x Hx. change (t_tries c') with (upd (t_tries c) (Z.to_nat sl) (t_tries_max c)). pose proof (g_tries _ _ _ G). pose proof (g_tr _ _ _ G). apply in_app_or in Hx. destruct Hx as [Hx|[<-|[]]].
      * assert (0 <= x < 96) by (apply HF96; exact Hx). rewrite zn_upd by lia. destruct (x =? sl); [lia|]. apply (q_tries _ _ T); exact Hx.
      * rewrite zn_upd by lia. rewrite Z.eqb_refl. lia.
    + apply Forall_upd; [exact (q_all _ _ T)|]. pose proof (g_tries _ _ _ G). lia.
  - intros F x Hx Hs. rewrite Hb in Hs by exact Hx. apply in_or_app. destruct (Z.eqb_spec x sl) as [->|]; [right; left; reflexivity|left]. apply F; assumption.
  - intros i. unfold acked. change (t_win c') with (t_win c). split.
    + intros (Hi & Hc). destruct Hc as [Hc|Hc].
      * apply (ring_acked _ _ _ _ G). left. lia.
      * rewrite Hb in Hc by (apply Z.mod_pos_bound; lia). destruct (Z.eqb_spec (i mod t_win c) sl) as [E|E]; [discriminate|].
        destruct (Z.eq_dec i (zlen S)) as [->|]; [exfalso; apply E; reflexivity|]. split; [lia|]. right. exact Hc.
    + intros (Hi & Hc). split; [lia|]. destruct Hc as [Hc|Hc]; [left; lia|].
      destruct (Z_le_gt_dec i (zlen S + 1 - t_win c)); [left; lia|right]. rewrite Hb by (apply Z.mod_pos_bound; lia).
      destruct (Z.eqb_spec (i mod t_win c) sl) as [E|E]; [|exact Hc]. unfold sl in E. apply mod_inj in E; lia.
Qed.
