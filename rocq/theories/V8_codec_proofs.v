(** The octets of a message: the decoder against what the message says. *)
From Verif Require Import Base V8_model V8_spec.
Local Open Scope Z_scope.

(** ---- octets ---- *)
Lemma byte_sweep (p : Z -> bool) : all_below_from (Z.to_nat 256) 0 p = true -> forall o, byte o -> p o = true.
Proof. intros H o [H1 H2]. refine (sweep 256 p H o _). lia. Qed.
Lemma ext_continues o : byte o -> extension o = continues o.
Proof.
  intros H. apply eqb_prop. refine (byte_sweep (fun o => eqb (extension o) (continues o)) _ o H). vm_compute. reflexivity.
Qed.
Lemma value_div o : byte o -> value o = o / 32.
Proof. intros H. apply Z.eqb_eq. refine (byte_sweep (fun o => value o =? o / 32) _ o H). vm_compute. reflexivity. Qed.
Lemma tag_mod o : Z.land o 0x1F = o mod 32. Proof. change 0x1F with (Z.ones 5). rewrite Z.land_ones by lia. reflexivity. Qed.
Lemma has_bit o k : 0 <= k -> has o (2 ^ k) = Z.testbit o k.
Proof.
  intros Hk. unfold has. destruct (Z.testbit o k) eqn:E.
  - destruct (Z.eqb_spec (Z.land o (2 ^ k)) 0) as [X|X]; [|reflexivity]. apply (f_equal (fun z => Z.testbit z k)) in X.
    rewrite Z.land_spec, E, Z.pow2_bits_true, Z.bits_0 in X by lia. discriminate.
  - replace (Z.land o (2 ^ k)) with 0; [reflexivity|]. symmetry. apply Z.bits_inj'. intros n Hn. rewrite Z.land_spec, Z.bits_0.
    destruct (Z.eq_dec n k) as [->|N]; [rewrite E; reflexivity|]. rewrite Z.pow2_bits_false by lia. apply andb_false_r.
Qed.
(** ---- all strings of bits ---- *)
Fixpoint strings (n : nat) : list (list bool) := match n with O => [[]] | S n => map (cons true) (strings n) ++ map (cons false) (strings n) end.
Lemma strings_all l : In l (strings (length l)).
Proof. induction l as [|x l IH]; [left; reflexivity|]. cbn [length strings]. apply in_or_app. destruct x; [left | right]; apply in_map; exact IH. Qed.
Lemma strings_sweep n p : forallb p (strings n) = true -> forall l, length l = n -> p l = true.
Proof. intros H l <-. rewrite forallb_forall in H. apply H, strings_all. Qed.
(** the modulation octets in terms of their bits *)
Definition dec13 (u : list bool) : Z :=
  let g i := nth i u false in
  let m := add (g 0%nat) (add (g 1%nat) (add (g 2%nat) 0 V34HDX) V34) V90 in
  let m := add (g 3%nat) (add (g 4%nat) (add (g 5%nat) (add (g 6%nat) (add (g 7%nat) m V27TER) V29) V17) V22) V32 in
  add (g 8%nat) (add (g 9%nat) (add (g 10%nat) (add (g 11%nat) (add (g 12%nat) m V21) V23HDX) V23) V26BIS) V26TER.
Definition sum13 (u : list bool) : Z :=
  fold_right Z.add 0 (map (fun p : bool * Z => if fst p then 2 ^ snd p else 0) (combine u (map snd modulation_bits))).
Lemma dec13_sum u : length u = 13%nat -> dec13 u = sum13 u.
Proof. intros H. apply Z.eqb_eq. refine (strings_sweep 13 (fun u => dec13 u =? sum13 u) _ u H). vm_compute. reflexivity. Qed.
Definition bits13 (o0 o1 o2 : Z) : list bool :=
  map (fun e => let '(i, b, _) := e in Z.testbit (nth i [o0; o1; o2] 0) b) modulation_bits.
Lemma said_sum l : modulations_said l = sum13 (bits13 (nth 0 l 0) (nth 1 l 0) (nth 2 l 0)).
Proof. reflexivity. Qed.
Ltac hasbits := repeat match goal with |- context [has ?o ?m] =>
  first [change (has o m) with (has o (2 ^ 0)) | change (has o m) with (has o (2 ^ 1)) | change (has o m) with (has o (2 ^ 2)) | change (has o m) with (has o (2 ^ 5))
        | change (has o m) with (has o (2 ^ 6)) | change (has o m) with (has o (2 ^ 7))]; rewrite has_bit by lia end.
Definition m1 (o : Z) : Z := add (has o 0x20) (add (has o 0x40) (add (has o 0x80) 0 V34HDX) V34) V90.
Definition m2 (m o : Z) : Z := add (has o 0x01) (add (has o 0x02) (add (has o 0x04) (add (has o 0x40) (add (has o 0x80) m V27TER) V29) V17) V22) V32.
Definition m3 (m o : Z) : Z := add (has o 0x01) (add (has o 0x02) (add (has o 0x04) (add (has o 0x40) (add (has o 0x80) m V21) V23HDX) V23) V26BIS) V26TER.
Lemma add_false v m : add false v m = v. Proof. reflexivity. Qed.
Lemma m123 o0 o1 o2 : m3 (m2 (m1 o0) o1) o2 = sum13 (bits13 o0 o1 o2).
Proof. rewrite <- dec13_sum by reflexivity. unfold m3, m2, m1. hasbits. reflexivity. Qed.
Lemma m3_0 m : m3 m 0 = m. Proof. reflexivity. Qed.
Lemma m2_0 m : m2 m 0 = m. Proof. reflexivity. Qed.

(** ---- the loop ---- *)
Definition gather (l : list Z) : list Z * list (Z * list Z) :=
  fold_right (fun o p => let '(more, its) := p in if continues o then (o :: more, its) else ([], (o, more) :: its)) ([], []) l.
Lemma items_gather l : items l = snd (gather l). Proof. reflexivity. Qed.
Lemma gather_split l : exists e r, l = e ++ r /\ gather l = (e, items r) /\ Forall (fun o => continues o = true) e /\ (forall o t, r = o :: t -> continues o = false).
Proof.
  induction l as [|o l IH]; [exists [], []; repeat split; [constructor | discriminate]|]. destruct (continues o) eqn:E.
  - destruct IH as (e & r & -> & G & F & N). exists (o :: e), r. cbn [app]. split; [reflexivity|]. split; [|split; [constructor; auto | exact N]].
    unfold gather in *. cbn [fold_right]. rewrite G, E. reflexivity.
  - exists [], (o :: l). split; [reflexivity|]. split; [|split; [constructor | intros ? ? X; inversion X; subst; exact E]].
    unfold items, gather. cbn [fold_right]. destruct (fold_right _ _ l) as [more its]. rewrite E. reflexivity.
Qed.
Lemma items_cons o l : continues o = false -> items (o :: l) = (o, fst (gather l)) :: items l.
Proof. intros E. unfold items, gather. cbn [fold_right]. destruct (fold_right _ _ l) as [more its]. rewrite E. reflexivity. Qed.
Lemma items_more o l : continues o = true -> items (o :: l) = items l.
Proof. intros E. unfold items, gather. cbn [fold_right]. destruct (fold_right _ _ l) as [more its]. rewrite E. reflexivity. Qed.
Lemma items_app e l : Forall (fun o => continues o = true) e -> items (e ++ l) = items l.
Proof. induction 1 as [|o e H F IH]; [reflexivity|]. cbn [app]. rewrite items_more; auto. Qed.
Lemma skip_ok e : forall r, Forall (fun o => continues o = true) e -> bytes (e ++ r) -> (forall o t, r = o :: t -> continues o = false) -> r <> [] -> skip_extensions (e ++ r) = Ok r.
Proof.
  induction e as [|o e IH]; intros r F B N Nr; cbn [app skip_extensions].
  - destruct r as [|o r]; [congruence|]. cbn [skip_extensions]. rewrite ext_continues by (inversion B; auto). rewrite (N _ _ eq_refl). reflexivity.
  - inversion F; subst. inversion B; subst. rewrite ext_continues, H1 by auto. apply IH; auto.
Qed.
Definition nonzero (l : list Z) : Prop := Forall (fun o => o <> 0) l.
Lemma continues_tag o : byte o -> continues o = true -> o mod 32 <> 1 /\ o mod 32 <> 5 /\ o mod 32 <> 10 /\ o mod 32 <> 13 /\ o mod 32 <> 15 /\ o mod 32 <> 7 /\ o mod 32 <> 14.
Proof.
  intros H C. pose proof (byte_sweep (fun o => negb (continues o) || (negb (o mod 32 =? 1) && negb (o mod 32 =? 5) && negb (o mod 32 =? 10) && negb (o mod 32 =? 13) && negb (o mod 32 =? 15) && negb (o mod 32 =? 7) && negb (o mod 32 =? 14)))
    ltac:(vm_compute; reflexivity) o H) as Q. cbv beta in Q. rewrite C in Q. cbn [negb orb] in Q. rewrite !andb_true_iff, !negb_true_iff, !Z.eqb_neq in Q. tauto.
Qed.
(** the modulation octets: what is skipped after them, too *)
Lemma modes_ok o e r more : Forall (fun o => continues o = true) e -> bytes (e ++ r ++ 0 :: more) -> (forall o t, r = o :: t -> continues o = false) ->
  exists m n t, process_modulation_mode o (e ++ r ++ 0 :: more) = Ok (m, n, t) /\ m = modulations_said (o :: e) /\ skip_extensions t = Ok (r ++ 0 :: more) /\ n = Z.of_nat (Nat.min 3 (1 + length e)).
Proof.
  intros F B N. assert (Z0 : continues 0 = false) by reflexivity.
  assert (Nr : forall o t, r ++ 0 :: more = o :: t -> continues o = false) by (intros o' t X; destruct r as [|o'' r]; inversion X; subst; [reflexivity | eapply N; reflexivity]).
  assert (Hr : exists q t, r ++ 0 :: more = q :: t) by (destruct r; [exists 0, more | eexists _, _]; reflexivity). destruct Hr as (q & t & Er). rewrite Er in *. pose proof (Nr _ _ eq_refl) as Nq.
  unfold process_modulation_mode. fold (m1 o). rewrite said_sum, <- m123. cbn [nth].
  destruct e as [|e1 e].
  { cbn [app rd rbind] in *. rewrite ext_continues, Nq by (inversion B; auto). eexists _, _, _. split; [reflexivity|]. cbn [nth]. split; [reflexivity|]. split; [|reflexivity].
    apply (skip_ok [] (q :: t)); auto. discriminate. }
  cbn [app rd rbind tl] in *. inversion F as [|? ? F1 F']; subst. inversion B as [|? ? B1 B']; subst. rewrite ext_continues, F1 by auto.
  destruct e as [|e2 e].
  { cbn [app rd rbind] in *. rewrite ext_continues, Nq by (inversion B'; auto). eexists _, _, _. split; [reflexivity|]. split; [reflexivity|]. split; [|reflexivity].
    apply (skip_ok [] (q :: t)); auto. discriminate. }
  cbn [app rd rbind tl] in *. inversion F' as [|? ? F2 F'']; subst. inversion B' as [|? ? B2 B'']; subst. rewrite ext_continues, F2 by auto.
  eexists _, _, _. split; [reflexivity|]. split; [reflexivity|]. split; [|cbn [length]; lia]. apply skip_ok; auto. discriminate.
Qed.
Definition octs (n : Z) (it : Z * list Z) : Z := if fst it mod 32 =? 5 then Z.of_nat (Nat.min 3 (1 + length (snd it))) else n.
Lemma decode_spec : forall fuel d n c more, (length d < fuel)%nat -> bytes d -> bytes more -> nonzero d -> Forall (fun o => ~ is_nsf o) d ->
  decode_loop fuel n c (d ++ 0 :: more) = Ok (fold_left octs (items d) n, fold_left say (items d) c).
Proof.
  induction fuel as [|k IH]; intros d n c more L B Bm Nz Nn; [lia|]. destruct d as [|o d]; [reflexivity|].
  cbn [app decode_loop rd rbind tl]. inversion Nz as [|? ? Ho Nz']; subst. inversion B as [|? ? Bo B']; subst. inversion Nn as [|? ? No Nn']; subst. unfold is_nsf in No.
  destruct (Z.eqb_spec o 0) as [X|_]; [congruence|]. cbn [length] in L.
  destruct (gather_split d) as (e & r & -> & G & F & Nr).
  assert (Br : bytes (e ++ r ++ 0 :: more)) by (rewrite app_assoc; apply Forall_app; split; [exact B' | constructor; [unfold byte; lia | exact Bm]]).
  assert (Nr' : forall o t, r ++ 0 :: more = o :: t -> continues o = false) by (intros o' t X; destruct r as [|o'' r]; inversion X; subst; [reflexivity | eapply Nr; reflexivity]).
  rewrite <- app_assoc.
  assert (Sk : skip_extensions (e ++ r ++ 0 :: more) = Ok (r ++ 0 :: more)) by (apply skip_ok; auto; destruct r; discriminate).
  assert (Next : forall n1 c1, decode_loop k n1 c1 (r ++ 0 :: more) = Ok (fold_left octs (items r) n1, fold_left say (items r) c1)).
  { intros n1 c1. apply IH; auto. - rewrite app_length in L. lia. - apply Forall_app in B'; tauto. - apply Forall_app in Nz'; tauto. - apply Forall_app in Nn'; tauto. }
  rewrite tag_mod. destruct (continues o) eqn:Co.
  - rewrite items_more, items_app by auto. pose proof (continues_tag o Bo Co) as (T1 & T2 & T3 & T4 & T5 & T6 & T7).
    assert (D : match o mod 32 with 1 => Ok (n, w_call (value o) c, e ++ r ++ 0 :: more)
        | 5 => do (m, n0, t) <- process_modulation_mode o (e ++ r ++ 0 :: more); Ok (n0, w_mods m c, t)
        | 10 => Ok (n, w_prot (value o) c, e ++ r ++ 0 :: more) | 13 => Ok (n, w_pstn (value o) c, e ++ r ++ 0 :: more)
        | 15 => Ok (n, w_nsf (value o) c, o :: e ++ r ++ 0 :: more) | 7 => Ok (n, w_pcm (value o) c, e ++ r ++ 0 :: more)
        | 14 => Ok (n, w_t66 (value o) c, e ++ r ++ 0 :: more) | _ => Ok (n, c, e ++ r ++ 0 :: more) end = Ok (n, c, e ++ r ++ 0 :: more)).
    { destruct (o mod 32) as [|q|q]; [reflexivity | | reflexivity]. repeat (destruct q as [q|q|]; try reflexivity; try congruence). }
    rewrite D. cbn [rbind]. rewrite Sk. cbn [rbind]. apply Next.
  - rewrite items_cons, items_app, G by auto. cbn [fst fold_left].
    assert (Sv : value o = o / 32) by (apply value_div; auto).
    assert (Simple : forall c1, say c (o, e) = c1 -> o mod 32 <> 5 -> forall x, x = Ok (n, c1, e ++ r ++ 0 :: more) ->
      (do (n0, c0, p) <- x; do p <- skip_extensions p; decode_loop k n0 c0 p) = Ok (fold_left octs (items r) (octs n (o, e)), fold_left say (items r) (say c (o, e)))).
    { intros c1 <- H5 x ->. unfold octs at 2. cbn [fst]. destruct (Z.eqb_spec (o mod 32) 5); [congruence|]. cbn [rbind]. rewrite Sk. cbn [rbind]. apply Next. }
    destruct (Z.eq_dec (o mod 32) 5) as [E5|N5].
    + rewrite E5. destruct (modes_ok o e r more F Br Nr) as (m & n1 & t & -> & -> & S1 & E1). cbn [rbind]. rewrite S1. cbn [rbind].
      replace (say c (o, e)) with (w_mods (modulations_said (o :: e)) c) by (unfold say; cbn [fst snd]; rewrite E5; reflexivity).
      rewrite Next, E1. unfold octs at 3. cbn [fst snd]. rewrite E5. reflexivity.
    + eapply Simple; [reflexivity | exact N5|]. unfold say. cbn [fst snd]. rewrite Sv.
      destruct (o mod 32) as [|q|q]; [reflexivity | | reflexivity]. repeat (destruct q as [q|q|]; try reflexivity; try congruence).
Qed.
Lemma before_zero_split d : bytes d -> exists more, d ++ [0] = before_zero d ++ 0 :: more /\ bytes more /\ nonzero (before_zero d) /\ bytes (before_zero d) /\ (length (before_zero d) <= length d)%nat /\ incl (before_zero d) d.
Proof.
  induction d as [|o d IH]; intros B; [exists []; split; [reflexivity|]; split; [constructor|]; split; [constructor|]; split; [constructor|]; split; [cbn; lia | intros ? []]|]. inversion B; subst. destruct (IH H2) as (more & E & Bm & N & B' & L & I). cbn [before_zero app].
  destruct (Z.eqb_spec o 0) as [->|H0].
  - exists (d ++ [0]). split; [reflexivity|]. split; [apply Forall_app; split; [auto | constructor; [unfold byte; lia | constructor]]|]. split; [constructor|]; split; [constructor|]; split; [cbn; lia | intros ? []].
  - exists more. rewrite E. split; [reflexivity|]. split; [exact Bm|]. split; [constructor; auto|]. split; [constructor; auto|]. split; [cbn [length]; lia|]. intros x [->|X]; [left; reflexivity | right; auto].
Qed.
Lemma decode_said fuel d n c : (length d < fuel)%nat -> bytes d -> Forall (fun o => ~ is_nsf o) d ->
  decode_loop fuel n (w_mods 0 c) (d ++ [0]) = Ok (fold_left octs (items (before_zero d)) n, said c d).
Proof.
  intros L B Nn. destruct (before_zero_split d B) as (more & -> & Bm & Nz & B' & L' & I). apply decode_spec; auto; [lia|].
  rewrite Forall_forall in *. auto.
Qed.
(** an NSF octet that comes first is never passed *)
Lemma nsf_stuck fuel : forall o t n c, byte o -> is_nsf o -> decode_loop fuel n c (o :: t) = UB.
Proof.
  induction fuel as [|k IH]; intros o t n c B H; [reflexivity|]. cbn [decode_loop rd rbind tl]. unfold is_nsf in H.
  destruct (Z.eqb_spec o 0) as [->|_]; [discriminate|]. rewrite tag_mod, H. cbn [rbind skip_extensions].
  assert (E : extension o = false).
  { pose proof (byte_sweep (fun o => negb (o mod 32 =? 15) || negb (extension o)) ltac:(vm_compute; reflexivity) o B) as Q. cbv beta in Q.
    rewrite H in Q. cbn in Q. destruct (extension o); auto; discriminate. }
  rewrite E. cbn [rbind]. apply IH; auto.
Qed.

(** ---- the encoder ---- *)
Lemma tagged x t : 0 <= t < 32 -> u8 (Z.lor (Z.shiftl x 5) t) = (x mod 8) * 32 + t.
Proof.
  intros Ht. unfold u8. change 256 with (2 ^ 8). rewrite <- Z.land_ones by lia.
  replace (Z.lor (Z.shiftl x 5) t) with (x * 32 + t).
  - rewrite Z.land_ones by lia. change (2 ^ 8) with 256. symmetry. apply Z.mod_unique with (q := x / 8); [Z.div_mod_to_equations; lia|]. Z.div_mod_to_equations; lia.
  - rewrite Z.shiftl_mul_pow2 by lia. change (2 ^ 5) with 32. symmetry. apply Z.bits_inj'. intros n Hn.
    rewrite Z.lor_spec. destruct (Z.ltb_spec n 5).
    + replace (x * 32) with (x * 2 ^ 5) by reflexivity. rewrite Z.mul_pow2_bits_low by lia. cbn [orb].
      rewrite <- (Z.mod_pow2_bits_low (x * 2 ^ 5 + t) 5) by lia. replace (x * 2 ^ 5 + t) with (t + x * 2 ^ 5) by ring. rewrite Z.mod_add by lia.
      rewrite Z.mod_small by lia. reflexivity.
    + replace (Z.testbit t n) with false by (symmetry; apply Z.bits_above_log2; [lia|]; destruct (Z.eq_dec t 0) as [->|]; [cbn; lia|]; apply Z.log2_lt_pow2; [lia|]; apply Z.lt_le_trans with (2 ^ 5); [lia|]; apply Z.pow_le_mono_r; lia).
      rewrite orb_false_r. replace n with ((n - 5) + 5) by ring. rewrite <- !Z.div_pow2_bits by lia. f_equal. change (2 ^ 5) with 32. rewrite Z.div_mul by lia. Z.div_mod_to_equations; lia.
Qed.
Lemma tagged_facts x t : 0 <= t < 32 -> byte ((x mod 8) * 32 + t) /\ ((x mod 8) * 32 + t) mod 32 = t /\ ((x mod 8) * 32 + t) / 32 = x mod 8.
Proof. intros H. pose proof (Z.mod_pos_bound x 8 ltac:(lia)). unfold byte. repeat split; Z.div_mod_to_equations; lia. Qed.
Lemma tagged_not_more x t : 0 <= t < 16 -> continues ((x mod 8) * 32 + t) = false.
Proof.
  intros H. unfold continues. replace (Z.testbit (x mod 8 * 32 + t) 4) with false; [rewrite andb_false_r; reflexivity|].
  rewrite <- (Z.mod_pow2_bits_low _ 5) by lia. change (2 ^ 5) with 32. rewrite (proj1 (proj2 (tagged_facts x t ltac:(lia)))).
  symmetry. destruct (Z.eq_dec t 0) as [->|]; [reflexivity|]. apply Z.bits_above_log2; [lia|]. apply Z.log2_lt_pow2; lia.
Qed.
(** the modulation octets *)
Definition eo0 (v : Z) : Z := add (has v V34HDX) (add (has v V34) (add (has v V90) 0x05 0x20) 0x40) 0x80.
Definition eo1 (v : Z) : Z := add (has v V27TER) (add (has v V29) (add (has v V17) (add (has v V22) (add (has v V32) 0x10 0x01) 0x02) 0x04) 0x40) 0x80.
Definition eo2 (v : Z) : Z := add (has v V21) (add (has v V23HDX) (add (has v V23) (add (has v V26BIS) (add (has v V26TER) 0x10 0x01) 0x02) 0x04) 0x40) 0x80.
Definition fo0 (u : list bool) : Z := add (nth 10 u false) (add (nth 11 u false) (add (nth 12 u false) 0x05 0x20) 0x40) 0x80.
Definition fo1 (u : list bool) : Z := add (nth 7 u false) (add (nth 8 u false) (add (nth 0 u false) (add (nth 2 u false) (add (nth 9 u false) 0x10 0x01) 0x02) 0x04) 0x40) 0x80.
Definition fo2 (u : list bool) : Z := add (nth 1 u false) (add (nth 3 u false) (add (nth 4 u false) (add (nth 5 u false) (add (nth 6 u false) 0x10 0x01) 0x02) 0x04) 0x40) 0x80.
Lemma eo_fo v : eo0 v = fo0 (bits_lsb 13 v) /\ eo1 v = fo1 (bits_lsb 13 v) /\ eo2 v = fo2 (bits_lsb 13 v).
Proof.
  assert (N : forall i, (i < 13)%nat -> nth i (bits_lsb 13 v) false = has v (2 ^ Z.of_nat i)) by (intros; rewrite nth_bits_lsb, has_bit by lia; reflexivity).
  unfold fo0, fo1, fo2. rewrite !N by lia. repeat split; reflexivity.
Qed.
Lemma fo_ok u : length u = 13%nat ->
  byte (fo0 u) /\ byte (fo1 u) /\ byte (fo2 u) /\ fo0 u mod 32 = 5 /\ continues (fo0 u) = false /\ continues (fo1 u) = true /\ continues (fo2 u) = true /\
  fo0 u <> 0 /\ fo1 u <> 0 /\ fo2 u <> 0 /\ fo1 u mod 32 <> 15 /\ fo2 u mod 32 <> 15 /\ modulations_said [fo0 u; fo1 u; fo2 u] = of_bits_lsb u.
Proof.
  intros H. pose proof (strings_sweep 13 (fun u => is_byte (fo0 u) && is_byte (fo1 u) && is_byte (fo2 u) && (fo0 u mod 32 =? 5) && negb (continues (fo0 u)) && continues (fo1 u) && continues (fo2 u)
    && negb (fo0 u =? 0) && negb (fo1 u =? 0) && negb (fo2 u =? 0) && negb (fo1 u mod 32 =? 15) && negb (fo2 u mod 32 =? 15) && (modulations_said [fo0 u; fo1 u; fo2 u] =? of_bits_lsb u)) ltac:(vm_compute; reflexivity) u H) as Q.
  cbv beta in Q. rewrite !andb_true_iff, !negb_true_iff, !Z.eqb_eq, !Z.eqb_neq in Q. unfold is_byte in Q. rewrite !andb_true_iff, !Z.leb_le, !Z.ltb_lt in Q. unfold byte. tauto.
Qed.
Lemma bits_mod n : forall v, of_bits_lsb (bits_lsb n v) = v mod 2 ^ Z.of_nat n.
Proof.
  intros v. assert (E : bits_lsb n v = bits_lsb n (v mod 2 ^ Z.of_nat n)).
  { apply nth_ext with (d := false) (d' := false); [rewrite !bits_lsb_length; reflexivity|]. intros i Hi. rewrite bits_lsb_length in Hi.
    rewrite !nth_bits_lsb by auto. rewrite Z.mod_pow2_bits_low by lia. reflexivity. }
  rewrite E. apply of_bits_lsb_bits. apply Z.mod_pos_bound. apply Z.pow_pos_nonneg; lia.
Qed.
Lemma cm_octets3 m p : cm_octets 3 m p =
  [call_function m mod 8 * 32 + 1; eo0 (modulations m); eo1 (modulations m); eo2 (modulations m)] ++
  (if protocols p =? 0 then [] else [protocols p mod 8 * 32 + 10]) ++ (if pstn_access p =? 0 then [] else [pstn_access p mod 8 * 32 + 13]) ++
  (if pcm p =? 0 then [] else [pcm p mod 8 * 32 + 7]) ++ (if 0 <=? t66 p then [t66 p mod 8 * 32 + 14] else []).
Proof.
  unfold cm_octets. rewrite !(tagged _ 1), !(tagged _ 10), !(tagged _ 13), !(tagged _ 7), !(tagged _ 14) by lia. reflexivity.
Qed.
Definition fit (o : Z) : Prop := byte o /\ o <> 0 /\ ~ is_nsf o.
Lemma tagged_fit x t : 0 < t < 15 -> fit (x mod 8 * 32 + t).
Proof. intros H. destruct (tagged_facts x t ltac:(lia)) as (B & M & D). unfold fit, is_nsf. rewrite M. split; [exact B|]. pose proof (Z.mod_pos_bound x 8 ltac:(lia)). split; lia. Qed.
Lemma cm_fit m p : Forall fit (cm_octets 3 m p) /\ (4 <= length (cm_octets 3 m p) <= 8)%nat.
Proof.
  rewrite cm_octets3. destruct (eo_fo (modulations m)) as (-> & -> & ->). destruct (fo_ok (bits_lsb 13 (modulations m)) (bits_lsb_length _ _)) as (B0 & B1 & B2 & T0 & _ & _ & _ & N0 & N1 & N2 & M1 & M2 & _).
  assert (M0 : fo0 (bits_lsb 13 (modulations m)) mod 32 <> 15) by lia. split.
  - apply Forall_app. split; [repeat (constructor; [first [apply tagged_fit; lia | split; [auto | split; auto]]|]); constructor|].
    repeat (apply Forall_app; split); match goal with |- Forall _ (if ?x then _ else _) => destruct x end; repeat constructor; apply tagged_fit; lia.
  - rewrite !app_length. destruct (protocols p =? 0), (pstn_access p =? 0), (pcm p =? 0), (0 <=? t66 p); cbn [length]; lia.
Qed.
Lemma before_zero_nonzero l : nonzero l -> before_zero l = l.
Proof. induction 1 as [|o l H F IH]; [reflexivity|]. cbn [before_zero]. rewrite IH. destruct (Z.eqb_spec o 0); [congruence | reflexivity]. Qed.
Lemma fit_nonzero l : Forall fit l -> nonzero l. Proof. intros F. eapply Forall_impl; [|exact F]. intros o (_ & H & _). exact H. Qed.
Lemma fit_bytes l : Forall fit l -> bytes l. Proof. intros F. eapply Forall_impl; [|exact F]. intros o (H & _). exact H. Qed.
Lemma fit_nsf l : Forall fit l -> Forall (fun o => ~ is_nsf o) l. Proof. intros F. eapply Forall_impl; [|exact F]. intros o (_ & _ & H). exact H. Qed.
(** a list of items that are not continued *)
Lemma items_simple l : Forall (fun o => continues o = false) l -> items l = map (fun o => (o, [])) l /\ gather l = ([], map (fun o => (o, [])) l).
Proof.
  induction 1 as [|o l H F [I1 I2]]; [split; reflexivity|]. rewrite items_cons, I1, I2 by auto. split; [reflexivity|].
  unfold gather in *. cbn [fold_right]. rewrite I2, H. reflexivity.
Qed.
Lemma say_tagged c x t e : 0 <= t < 32 -> say c (x mod 8 * 32 + t, e) =
  match t with 1 => w_call (x mod 8) c | 5 => w_mods (modulations_said (x mod 8 * 32 + t :: e)) c | 10 => w_prot (x mod 8) c | 13 => w_pstn (x mod 8) c | 7 => w_pcm (x mod 8) c | 14 => w_t66 (x mod 8) c | _ => c end.
Proof. intros H. unfold say. cbn [fst snd]. destruct (tagged_facts x t H) as (_ & -> & ->). reflexivity. Qed.
Lemma offer_said c m p : nothing_said c -> said c (cm_octets 3 m p) = offer m p.
Proof.
  destruct c as [k0 k1 k2 k3 k4 k5 k6]. intros (C1 & C2 & C3 & C4 & C5). cbn in C1, C2, C3, C4, C5. subst. destruct (cm_fit m p) as [F _]. unfold said. rewrite before_zero_nonzero by (apply fit_nonzero; exact F). clear F.
  rewrite cm_octets3. set (tail := (if protocols p =? 0 then [] else _) ++ _).
  assert (Ft : Forall (fun o => continues o = false) tail).
  { unfold tail. repeat (apply Forall_app; split); match goal with |- Forall _ (if ?x then _ else _) => destruct x end; repeat constructor; apply tagged_not_more; lia. }
  destruct (items_simple _ Ft) as [It Gt].
  destruct (eo_fo (modulations m)) as (-> & -> & ->). destruct (fo_ok (bits_lsb 13 (modulations m)) (bits_lsb_length _ _)) as (_ & _ & _ & T0 & K0 & K1 & K2 & _ & _ & _ & _ & _ & Ms).
  rewrite bits_mod in Ms. set (o0 := fo0 _) in *. set (o1 := fo1 _) in *. set (o2 := fo2 _) in *. cbn [app].
  rewrite items_cons by (apply tagged_not_more; lia). rewrite items_cons by auto. rewrite !items_more by auto. rewrite It.
  assert (G : gather (o1 :: o2 :: tail) = ([o1; o2], map (fun o => (o, [])) tail)) by (unfold gather in *; cbn [fold_right]; rewrite Gt, K2, K1; reflexivity).
  rewrite G. cbn [fst fold_left]. rewrite say_tagged by lia.
  replace (say _ (o0, [o1; o2])) with (w_mods (modulations_said [o0; o1; o2]) (w_call (call_function m mod 8) (w_mods 0 {| call_function := k0; modulations := k1; protocols := 0; pstn_access := 0; nsf := -1; pcm := 0; t66 := -1 |}))) by (unfold say; cbn [fst snd]; rewrite T0; reflexivity).
  rewrite Ms. unfold tail. rewrite !map_app, !fold_left_app. change (2 ^ Z.of_nat 13) with (2 ^ 13).
  assert (S1 : forall z t (w : Z -> caps -> caps) c0, 0 <= t < 32 -> (forall c x e, say c (x mod 8 * 32 + t, e) = w (x mod 8) c) -> w 0 c0 = c0 ->
     fold_left say (map (fun o : Z => (o, [])) (if z =? 0 then [] else [z mod 8 * 32 + t])) c0 = w (z mod 8) c0).
  { intros z t w c0 Ht Hw Hid. destruct (Z.eqb_spec z 0) as [->|]; cbn [map fold_left]; [change (0 mod 8) with 0; rewrite Hid; reflexivity | apply Hw]. }
  rewrite (S1 _ 10 w_prot) by first [lia | intros; rewrite say_tagged by lia; reflexivity | reflexivity].
  rewrite (S1 _ 13 w_pstn) by first [lia | intros; rewrite say_tagged by lia; reflexivity | reflexivity].
  rewrite (S1 _ 7 w_pcm) by first [lia | intros; rewrite say_tagged by lia; reflexivity | reflexivity].
  unfold offer, w_pcm, w_pstn, w_prot, w_mods, w_call. cbn [call_function modulations protocols pstn_access nsf pcm t66].
  destruct (Z.leb_spec 0 (t66 p)); destruct (Z.ltb_spec (t66 p) 0); try lia; cbn [map fold_left].
  - rewrite say_tagged by lia. reflexivity.
  - reflexivity.
Qed.

Lemma offer_octs n m p : fold_left octs (items (before_zero (cm_octets 3 m p))) n = 3.
Proof.
  destruct (cm_fit m p) as [F _]. rewrite before_zero_nonzero by (apply fit_nonzero; exact F). clear F.
  rewrite cm_octets3. set (tail := (if protocols p =? 0 then [] else _) ++ _).
  assert (Ft : Forall (fun o => continues o = false /\ o mod 32 <> 5) tail).
  { unfold tail. repeat (apply Forall_app; split); match goal with |- Forall _ (if ?x then _ else _) => destruct x end; repeat constructor;
      try (apply tagged_not_more; lia); match goal with |- (?x mod 8 * 32 + ?t) mod 32 <> 5 => rewrite (proj1 (proj2 (tagged_facts x t ltac:(lia)))); lia end. }
  assert (Fc : Forall (fun o => continues o = false) tail) by (eapply Forall_impl; [|exact Ft]; intros ? [X _]; exact X).
  destruct (items_simple _ Fc) as [It Gt].
  destruct (eo_fo (modulations m)) as (-> & -> & ->). destruct (fo_ok (bits_lsb 13 (modulations m)) (bits_lsb_length _ _)) as (_ & _ & _ & T0 & K0 & K1 & K2 & _ & _ & _ & _ & _ & Ms).
  set (o0 := fo0 _) in *. set (o1 := fo1 _) in *. set (o2 := fo2 _) in *. cbn [app].
  rewrite items_cons by (apply tagged_not_more; lia). rewrite items_cons by auto. rewrite !items_more by auto. rewrite It.
  assert (G : gather (o1 :: o2 :: tail) = ([o1; o2], map (fun o => (o, [])) tail)) by (unfold gather in *; cbn [fold_right]; rewrite Gt, K2, K1; reflexivity).
  rewrite G. cbn [fst fold_left]. unfold octs at 2. cbn [fst snd]. rewrite T0. cbn [Z.eqb Pos.eqb length Nat.min Nat.add].
  clear - Ft. induction Ft as [|o l [H1 H2] F IH]; [reflexivity|]. cbn [map fold_left]. unfold octs at 2. cbn [fst]. destruct (Z.eqb_spec (o mod 32) 5); [congruence | exact IH].
Qed.
