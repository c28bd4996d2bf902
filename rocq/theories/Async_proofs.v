From Verif Require Import Base Bits BitOps_model BitOps_spec BitOps_proofs Async_model Async_spec.
From Coq Require Import ZifyBool ZifyNat.
Ltac Zify.zify_post_hook ::= Z.div_mod_to_equations.

Lemma nbits_eq c : legal c -> Z.of_nat (nbits c) = if parity c =? 0 then data_bits c else data_bits c + 1.
Proof. unfold legal, nbits. destruct (parity c =? 0); lia. Qed.
Definition rx_of (c : cfg) (frame bitpos pe fe : Z) : rx :=
  {| r_parity := parity c; r_total := Z.of_nat (nbits c); r_v14 := v14 c; r_frame := frame; r_bitpos := bitpos;
     r_perr := pe; r_ferr := fe |}.
Lemma rx_init_of c : legal c -> async_rx_init (data_bits c) (parity c) (v14 c) = rx_of c 0 0 0 0.
Proof. intros H. unfold async_rx_init, rx_of. rewrite nbits_eq by auto. reflexivity. Qed.

Definition bz := map Z.b2z.
Lemma b2z_nn b : Z.b2z b <? 0 = false. Proof. destruct b; reflexivity. Qed.

(** ---- receiver ---- *)
Lemma rx_run_app s a b : rx_run s (a ++ b) =
  do (s, o) <- rx_run s a; do (s, o') <- rx_run s b; Ok (s, o ++ o').
Proof.
  revert s. induction a as [|x a IH]; intros s; cbn [app rx_run rbind].
  - destruct (rx_run s b) as [[s' o]|]; reflexivity.
  - destruct (async_rx_put_bit s x) as [[s1 o1]|]; [|reflexivity]. cbn [rbind]. rewrite IH.
    destruct (rx_run s1 a) as [[s2 o2]|]; [|reflexivity]. cbn [rbind].
    destruct (rx_run s2 b) as [[s3 o3]|]; [|reflexivity]. cbn [rbind]. rewrite app_assoc. reflexivity.
Qed.
Lemma rx_idle_one c f pe fe : async_rx_put_bit (rx_of c f 0 pe fe) 1 = Ok (rx_of c 0 0 pe fe, []).
Proof. reflexivity. Qed.
Lemma rx_idle_zero c f pe fe : async_rx_put_bit (rx_of c f 0 pe fe) 0 = Ok (rx_of c 0 1 pe fe, []).
Proof. reflexivity. Qed.
Lemma shift_in p b j : 0 <= p < 2 ^ j -> 0 <= j <= 15 ->
  u16 (Z.lor (Z.shiftr (p * 2 ^ (16 - j)) 1) (Z.shiftl (Z.b2z b) 15)) = (p + 2 ^ j * Z.b2z b) * 2 ^ (15 - j).
Proof.
  intros Hp Hj. rewrite Z.shiftr_div_pow2, Z.shiftl_mul_pow2 by lia.
  replace (16 - j) with (15 - j + 1) by lia. rewrite Z.pow_add_r by lia. change (2 ^ 1) with 2.
  replace (p * (2 ^ (15 - j) * 2)) with ((p * 2 ^ (15 - j)) * 2) by ring. rewrite Z.div_mul by lia.
  assert (E : 2 ^ 15 = 2 ^ j * 2 ^ (15 - j)) by (rewrite <- Z.pow_add_r by lia; f_equal; lia).
  assert (0 < 2 ^ (15 - j)) by (apply Z.pow_pos_nonneg; lia).
  rewrite lor_disj by nia. rewrite E. unfold u16. rewrite Z.mod_small; [ring|].
  assert (2 ^ 15 = 32768) by reflexivity. destruct b; cbn [Z.b2z]; nia.
Qed.
Lemma rx_collect c pe fe q : forall p, Z.of_nat (nbits c) <= 16 -> (length p + length q <= nbits c)%nat ->
  rx_run (rx_of c (of_bits_lsb p * 2 ^ (16 - Z.of_nat (length p))) (Z.of_nat (length p) + 1) pe fe) (bz q) =
  Ok (rx_of c (of_bits_lsb (p ++ q) * 2 ^ (16 - Z.of_nat (length (p ++ q)))) (Z.of_nat (length (p ++ q)) + 1) pe fe, []).
Proof.
  induction q as [|b q IH]; intros p Hn Hl.
  - rewrite app_nil_r. reflexivity.
  - cbn [bz map rx_run]. unfold async_rx_put_bit at 1. rewrite b2z_nn. cbn [length] in Hl.
    cbn [r_bitpos rx_of r_total]. destruct (Z.eqb_spec (Z.of_nat (length p) + 1) 0); [lia|].
    destruct (Z.leb_spec (Z.of_nat (length p) + 1) (Z.of_nat (nbits c))); [|lia].
    cbn [rbind r_frame rx_of]. rewrite shift_in; [|apply of_bits_lsb_range|lia].
    specialize (IH (p ++ [b]) Hn). replace ((p ++ [b]) ++ q) with (p ++ b :: q) in IH by (rewrite <- app_assoc; reflexivity).
    rewrite app_length in IH. cbn [length] in IH. rewrite <- IH by lia.
    rewrite of_bits_lsb_app. cbn [of_bits_lsb]. unfold rx_set. cbn [r_parity r_total r_v14 r_perr r_ferr rx_of].
    replace (Z.of_nat (length p + 1)) with (Z.of_nat (length p) + 1) by lia.
    replace (16 - (Z.of_nat (length p) + 1)) with (15 - Z.of_nat (length p)) by lia.
    replace (Z.b2z b + 2 * 0) with (Z.b2z b) by lia. fold (bz q). unfold rx_of.
    match goal with |- context [rx_run ?s (bz q)] => destruct (rx_run s (bz q)) as [[s' o]|] end; reflexivity.
Qed.

(** The receiver's verdict, with its parity over the low eight data bits. *)
Definition pbit8 (c : cfg) (d : Z) : Z :=
  if parity c =? 2 then Z.lxor (parity8 (u8 d)) 1 else if parity c =? 1 then parity8 (u8 d) else if parity c =? 3 then 1 else 0.
Definition judge8 (c : cfg) (q : list bool) : ev :=
  if parity c =? 0 then Char (of_bits_lsb q)
  else let d := removelast q in
       if Z.b2z (last q false) =? pbit8 c (of_bits_lsb d) then Char (of_bits_lsb d) else ParityError.
Definition is_perr (e : ev) := match e with ParityError => 1 | _ => 0 end.
Definition out1 (e : ev) := match e with Char x => [x] | _ => [] end.

Lemma rx_verdict c q pe fe b : legal c -> length q = nbits c -> (b = true \/ v14 c = true) ->
  exists f, async_rx_put_bit (rx_of c (of_bits_lsb q * 2 ^ (16 - Z.of_nat (nbits c))) (Z.of_nat (nbits c) + 1) pe fe) (Z.b2z b) =
    Ok (if b then rx_of c f 0 (pe + is_perr (judge8 c q)) fe else rx_of c 0 1 (pe + is_perr (judge8 c q)) fe, out1 (judge8 c q)).
Proof.
  intros Hc Hq Hb. unfold async_rx_put_bit. rewrite b2z_nn. cbn [r_bitpos rx_of r_total].
  assert (Hn := Hc). unfold legal in Hn. pose proof (nbits_eq c Hc) as HN.
  destruct (Z.eqb_spec (Z.of_nat (nbits c) + 1) 0) as [Hz|_]; [lia|].
  destruct (Z.leb_spec (Z.of_nat (nbits c) + 1) (Z.of_nat (nbits c))) as [Hz|_]; [lia|].
  cbn [r_v14 rx_of]. replace ((Z.b2z b =? 0) && negb (v14 c)) with false by (destruct b, (v14 c); intuition; try discriminate).
  replace ((16 - Z.of_nat (nbits c) <? 0) || (32 <=? 16 - Z.of_nat (nbits c))) with false by (destruct (parity c =? 0); lia).
  cbn [r_parity r_frame rx_of]. unfold judge8, ASYNC_PARITY_NONE. set (n := Z.of_nat (nbits c)) in *.
  assert (P : 0 < 2 ^ (16 - n)) by (apply Z.pow_pos_nonneg; lia).
  destruct (Z.eqb_spec (parity c) 0) as [E0|E0]; cbn [negb].
  - rewrite Z.shiftr_div_pow2, Z.div_mul by (destruct (parity c =? 0); lia).
    exists (of_bits_lsb q). cbn [is_perr out1]. rewrite Z.add_0_r. destruct b; reflexivity.
  - set (d := removelast q). set (pb := last q false).
    assert (Eq : q = d ++ [pb]) by (apply app_removelast_last; intros ->; cbn in Hq; lia).
    assert (Ld : Z.of_nat (length d) = n - 1) by (rewrite Eq, app_length in Hq; cbn [length] in Hq; lia).
    assert (V : of_bits_lsb q * 2 ^ (16 - n) = of_bits_lsb d * 2 ^ (16 - n) + Z.b2z pb * 2 ^ 15).
    { rewrite Eq, of_bits_lsb_app, Ld. cbn [of_bits_lsb].
      replace 15 with ((n - 1) + (16 - n)) by lia. rewrite (Z.pow_add_r 2 (n - 1)) by lia. ring. }
    pose proof (of_bits_lsb_range d) as Rd. rewrite Ld in Rd.
    assert (P1 : 2 ^ 15 = 2 ^ (n - 1) * 2 ^ (16 - n)) by (rewrite <- Z.pow_add_r by lia; f_equal; lia).
    assert (Rd' : 0 <= of_bits_lsb d * 2 ^ (16 - n) < 2 ^ 15) by nia.
    assert (A : Z.land (Z.shiftr (of_bits_lsb q * 2 ^ (16 - n)) 15) 1 = Z.b2z pb).
    { rewrite V, Z.shiftr_div_pow2 by lia. rewrite Z.div_add, Z.div_small by lia.
      change 1 with (Z.ones 1). rewrite Z.land_ones by lia. destruct pb; reflexivity. }
    assert (B : Z.shiftr (Z.land (of_bits_lsb q * 2 ^ (16 - n)) 32767) (16 - n) = of_bits_lsb d).
    { change 32767 with (Z.ones 15). rewrite Z.land_ones, V, Z_mod_plus_full, Z.mod_small by lia.
      rewrite Z.shiftr_div_pow2, Z.div_mul by lia. reflexivity. }
    rewrite A, B. fold (pbit8 c (of_bits_lsb d)).
    change (if parity c =? ASYNC_PARITY_ODD then Z.lxor (parity8 (u8 (of_bits_lsb d))) 1 else
            if parity c =? ASYNC_PARITY_EVEN then parity8 (u8 (of_bits_lsb d)) else if parity c =? ASYNC_PARITY_MARK then 1 else 0)
      with (pbit8 c (of_bits_lsb d)).
    exists (of_bits_lsb d).
    destruct (Z.b2z pb =? pbit8 c (of_bits_lsb d)); cbn [is_perr out1]; rewrite ?Z.add_0_r; destruct b; reflexivity.
Qed.
Lemma rx_framing c f pe fe : v14 c = false ->
  async_rx_put_bit (rx_of c f (Z.of_nat (nbits c) + 1) pe fe) 0 = Ok (rx_of c f 0 pe (fe + 1), []).
Proof.
  intros Hv. unfold async_rx_put_bit. cbn [r_bitpos rx_of r_total r_v14]. change (0 <? 0) with false.
  destruct (Z.eqb_spec (Z.of_nat (nbits c) + 1) 0); [lia|].
  destruct (Z.leb_spec (Z.of_nat (nbits c) + 1) (Z.of_nat (nbits c))); [lia|]. rewrite Hv. reflexivity.
Qed.

Fixpoint split_gen (j : list bool -> ev) (c : cfg) (fuel : nat) (l : list bool) : list ev :=
  match fuel with
  | O => []
  | S k =>
    match l with
    | [] => []
    | true :: t => split_gen j c k t
    | false :: t =>
      let q := firstn (nbits c) t in
      match skipn (nbits c) t with
      | [] => []
      | true :: t => j q :: split_gen j c k t
      | false :: t => if v14 c then j q :: split_gen j c k (false :: t) else FramingError :: split_gen j c k t
      end
    end
  end.
Lemma split_gen_judge c k l : split_gen (judge c) c k l = split_line c k l.
Proof.
  revert l. induction k as [|k IH]; intros l; [reflexivity|]. cbn [split_gen split_line].
  destruct l as [|[] t]; auto. destruct (skipn (nbits c) t) as [|[] t']; rewrite ?IH; reflexivity.
Qed.
Lemma judge8_eq c q : legal c -> length q = nbits c -> (data_bits c <= 8 \/ (parity c <> 1 /\ parity c <> 2)) -> judge8 c q = judge c q.
Proof.
  intros Hc Hq Hp. unfold judge8, judge. destruct (Z.eqb_spec (parity c) 0) as [|E0]; [reflexivity|].
  set (d := removelast q). set (pb := last q false).
  assert (Eq : q = d ++ [pb]) by (apply app_removelast_last; intros ->; unfold legal in Hc; pose proof (nbits_eq c Hc); cbn in Hq; destruct (parity c =? 0); lia).
  assert (P8 : (length d <= 8)%nat -> parity8 (u8 (of_bits_lsb d)) = Z.b2z (xor_all d)).
  { intros L. pose proof (of_bits_lsb_range d) as R. 
    assert (2 ^ Z.of_nat (length d) <= 2 ^ 8) by (apply Z.pow_le_mono_r; lia). change (2 ^ 8) with 256 in *.
    unfold u8. rewrite Z.mod_small by lia. rewrite parity8_ok by lia.
    assert (E8 : bits_lsb 8 (of_bits_lsb d) = d ++ repeat false (8 - length d)).
    { assert (D : of_bits_lsb d = of_bits_lsb (d ++ repeat false (8 - length d))).
      { rewrite of_bits_lsb_app. assert (E : forall n, of_bits_lsb (repeat false n) = 0) by (induction n as [|n IH]; cbn [repeat of_bits_lsb Z.b2z]; lia).
        rewrite E. lia. }
      rewrite D. replace 8%nat with (length (d ++ repeat false (8 - length d))) at 1 by (rewrite app_length, repeat_length; lia).
      apply bits_lsb_of_bits. }
    rewrite E8. generalize (8 - length d)%nat. intros n. clear.
    assert (X : forall l, parity_bits l = Z.b2z (xor_all l)).
    { induction l as [|[] l IH]; cbn [xor_all fold_right]; [reflexivity| |]; unfold parity_bits, ones_count in *; cbn [filter length] in *;
        fold (xor_all l); destruct (xor_all l); cbn [Z.b2z xorb] in *; lia. }
    rewrite X. f_equal. unfold xor_all. rewrite fold_right_app. f_equal. induction n as [|n IH]; cbn [repeat fold_right]; [reflexivity|rewrite IH; reflexivity]. }
  assert (L : parity c = 1 \/ parity c = 2 -> (length d <= 8)%nat).
  { intros Hx. pose proof (nbits_eq c Hc). rewrite Eq, app_length in Hq. cbn [length] in Hq.
    destruct (Z.eqb_spec (parity c) 0); lia. }
  assert (PB : Z.b2z pb =? pbit8 c (of_bits_lsb d) = Bool.eqb pb (parity_bit c d)).
  { unfold pbit8, parity_bit.
    destruct (Z.eqb_spec (parity c) 2) as [E2|E2].
    - rewrite P8 by auto. rewrite E2. cbn [Z.eqb]. destruct pb, (xor_all d); reflexivity.
    - destruct (Z.eqb_spec (parity c) 1) as [E1|E1].
      + rewrite P8 by auto. destruct pb, (xor_all d); reflexivity.
      + destruct (parity c =? 3), pb; reflexivity. }
  rewrite PB. reflexivity.
Qed.

Definition npe (l : list ev) : Z := fold_right (fun e a => is_perr e + a) 0 l.
Definition nfe (l : list ev) : Z := fold_right (fun e a => match e with FramingError => 1 | _ => 0 end + a) 0 l.
Lemma npe_count l : npe l = count_perr l.
Proof. unfold count_perr. unfold npe. induction l as [|[] l IH]; cbn [fold_right is_perr filter length]; lia. Qed.
Lemma nfe_count l : nfe l = count_ferr l.
Proof. unfold count_ferr. unfold nfe. induction l as [|[] l IH]; cbn [fold_right filter length]; lia. Qed.

Lemma firstn_app_skipn {A} n (l : list A) : l = firstn n l ++ skipn n l.
Proof. symmetry. apply firstn_skipn. Qed.
Lemma bz_app a b : bz (a ++ b) = bz a ++ bz b. Proof. apply map_app. Qed.
Lemma judge8_cases c q : (exists x, judge8 c q = Char x) \/ judge8 c q = ParityError.
Proof. unfold judge8. destruct (parity c =? 0); eauto. destruct (_ =? _); eauto. Qed.
Theorem rx_split c : legal c -> forall k l f pe fe, (length l <= k)%nat ->
  exists f' bp, rx_run (rx_of c f 0 pe fe) (bz l) =
    Ok (rx_of c f' bp (pe + npe (split_gen (judge8 c) c k l)) (fe + nfe (split_gen (judge8 c) c k l)), chars (split_gen (judge8 c) c k l)).
Proof.
  intros Hc. induction k as [|k IH]; intros l f pe fe Hk.
  - destruct l; [|cbn in Hk; lia]. exists f, 0. cbn. rewrite !Z.add_0_r. reflexivity.
  - destruct l as [|[] t].
    + exists f, 0. cbn. rewrite !Z.add_0_r. reflexivity.
    + cbn [split_gen bz map rx_run Z.b2z]. rewrite rx_idle_one. cbn [rbind]. cbn [length] in Hk.
      destruct (IH t 0 pe fe ltac:(lia)) as (f' & bp & E). fold (bz t). rewrite E. cbn [rbind app]. eauto.
    + cbn [split_gen bz map rx_run Z.b2z]. rewrite rx_idle_zero. cbn [rbind]. fold (bz t). cbn [length] in Hk.
      destruct (skipn (nbits c) t) as [|s t'] eqn:Es.
      * assert (L : (length t <= nbits c)%nat).
        { apply (f_equal (@length bool)) in Es. rewrite skipn_length in Es. cbn in Es. lia. }
        pose proof (rx_collect c pe fe t []) as R. cbn [length app of_bits_lsb] in R.
        change (Z.of_nat 0 + 1) with 1 in R. change (0 * 2 ^ (16 - Z.of_nat 0)) with 0 in R.
        rewrite R by (unfold legal in Hc; lia). cbn [rbind app npe nfe fold_right chars flat_map]. rewrite !Z.add_0_r. eauto.
      * assert (Lq : length (firstn (nbits c) t) = nbits c).
        { apply (f_equal (@length bool)) in Es. rewrite skipn_length in Es. cbn [length] in Es. rewrite firstn_length. lia. }
        set (q := firstn (nbits c) t) in *.
        assert (Et : t = q ++ s :: t') by (unfold q; rewrite <- Es; apply firstn_app_skipn).
        assert (Lt : (S (length t') <= k)%nat).
        { apply (f_equal (@length bool)) in Et. rewrite app_length in Et. cbn [length] in Et. lia. }
        pose proof (rx_collect c pe fe q []) as R. cbn [length app of_bits_lsb] in R.
        change (Z.of_nat 0 + 1) with 1 in R. change (0 * 2 ^ (16 - Z.of_nat 0)) with 0 in R.
        replace (bz t) with (bz q ++ bz (s :: t')) by (rewrite <- bz_app; f_equal; congruence). rewrite rx_run_app. rewrite R by (unfold legal in Hc; lia). cbn [rbind app].
        rewrite Lq. cbn [bz map rx_run].
        destruct s.
        -- destruct (rx_verdict c q pe fe true Hc Lq (or_introl eq_refl)) as (f1 & V). rewrite V. cbn [rbind]. fold (bz t').
           destruct (IH t' f1 (pe + is_perr (judge8 c q)) fe ltac:(lia)) as (f' & bp & E). rewrite E. cbn [rbind app].
           exists f', bp. cbn [npe nfe fold_right]. fold (npe (split_gen (judge8 c) c k t')). fold (nfe (split_gen (judge8 c) c k t')).
           rewrite Z.add_assoc. destruct (judge8_cases c q) as [(x & J)|J]; rewrite J; reflexivity.
        -- destruct (v14 c) eqn:Ev.
           ++ destruct (rx_verdict c q pe fe false Hc Lq (or_intror Ev)) as (f1 & V). rewrite V. cbn [rbind]. fold (bz t').
              destruct (IH (false :: t') f1 (pe + is_perr (judge8 c q)) fe ltac:(cbn [length]; lia)) as (f' & bp & E).
              cbn [bz map rx_run Z.b2z] in E. rewrite rx_idle_zero in E. cbn [rbind app] in E. fold (bz t') in E.
              destruct (rx_run (rx_of c 0 1 (pe + is_perr (judge8 c q)) fe) (bz t')) as [[s1 o1]|]; [|discriminate E].
              cbn [rbind] in E. injection E as -> ->. cbn [rbind app].
              exists f', bp. cbn [npe nfe fold_right chars flat_map].
              fold (npe (split_gen (judge8 c) c k (false :: t'))). fold (nfe (split_gen (judge8 c) c k (false :: t'))).
              rewrite Z.add_assoc. destruct (judge8_cases c q) as [(x & J)|J]; rewrite J; reflexivity.
           ++ cbn [Z.b2z]. rewrite rx_framing by auto. cbn [rbind]. fold (bz t').
              match goal with |- context [rx_of c ?f 0 pe (fe + 1)] => destruct (IH t' f pe (fe + 1) ltac:(lia)) as (f' & bp & E) end.
              rewrite E. cbn [rbind app]. exists f', bp. cbn [npe nfe fold_right chars flat_map is_perr].
              fold (npe (split_gen (judge8 c) c k t')). fold (nfe (split_gen (judge8 c) c k t')).
              rewrite Z.add_0_l, Z.add_assoc. reflexivity.
Qed.

(** C13: the receiver is exactly the specified line splitter. *)
Lemma split_gen_eq j1 j2 c k : (forall q, length q = nbits c -> j1 q = j2 q) -> forall l, split_gen j1 c k l = split_gen j2 c k l.
Proof.
  intros Hj. induction k as [|k IH]; intros l; [reflexivity|]. cbn [split_gen].
  destruct l as [|[] t]; auto. destruct (skipn (nbits c) t) as [|[] t'] eqn:Es; auto; rewrite ?IH; rewrite ?Hj; auto;
    rewrite firstn_length; apply (f_equal (@length bool)) in Es; rewrite skipn_length in Es; cbn [length] in Es; lia.
Qed.
Lemma rx_spec c l : legal c -> (data_bits c <= 8 \/ (parity c <> 1 /\ parity c <> 2)) ->
  exists s, rx_run (async_rx_init (data_bits c) (parity c) (v14 c)) (map Z.b2z l) = Ok (s, chars (split_line c (length l) l)) /\
    r_perr s = count_perr (split_line c (length l) l) /\ r_ferr s = count_ferr (split_line c (length l) l).
Proof.
  intros Hc Hp. rewrite rx_init_of by auto. destruct (rx_split c Hc (length l) l 0 0 0 (le_n _)) as (f & bp & E).
  assert (S : split_gen (judge8 c) c (length l) l = split_line c (length l) l).
  { rewrite <- split_gen_judge. apply split_gen_eq. intros q Hq. apply judge8_eq; auto. }
  rewrite S in E. eexists. split; [exact E|]. cbn. rewrite npe_count, nfe_count. auto.
Qed.
Lemma chars_range c : legal c -> (data_bits c <= 8 \/ (parity c <> 1 /\ parity c <> 2)) -> forall k l x,
  In x (chars (split_line c k l)) -> 0 <= x < 2 ^ data_bits c.
Proof.
  intros Hc Hp. assert (J : forall q x, length q = nbits c -> In x (out1 (judge c q)) -> 0 <= x < 2 ^ data_bits c).
  { intros q x Hq Hx. unfold judge in Hx. pose proof (nbits_eq c Hc) as HN. assert (Hc' := Hc). unfold legal in Hc'.
    destruct (Z.eqb_spec (parity c) 0).
    - destruct Hx as [<-|[]]. pose proof (of_bits_lsb_range q) as R. rewrite Hq, HN in R. exact R.
    - destruct (Bool.eqb _ _); [|destruct Hx]. destruct Hx as [<-|[]].
      assert (Eq : q = removelast q ++ [last q false]) by (apply app_removelast_last; intros ->; cbn in Hq; lia).
      pose proof (of_bits_lsb_range (removelast q)) as R.
      assert (L : length (removelast q) = Z.to_nat (data_bits c)) by (rewrite Eq, app_length in Hq; cbn [length] in Hq; lia).
      rewrite L, Z2Nat.id in R by lia. exact R. }
  induction k as [|k IH]; intros l x Hx; [destruct Hx|]. cbn [split_line] in Hx.
  destruct l as [|[] t]; [destruct Hx|eauto|].
  destruct (skipn (nbits c) t) as [|s t'] eqn:Es; [destruct Hx|].
  assert (Lq : length (firstn (nbits c) t) = nbits c).
  { apply (f_equal (@length bool)) in Es. rewrite skipn_length in Es. cbn [length] in Es. rewrite firstn_length. lia. }
  destruct s; [|destruct (v14 c)]; cbn [chars flat_map] in Hx.
  - apply in_app_or in Hx as [Hx|Hx]; [apply (J _ _ Lq Hx)|eapply IH; eauto].
  - apply in_app_or in Hx as [Hx|Hx]; [apply (J _ _ Lq Hx)|eapply IH; eauto].
  - eapply IH; eauto.
Qed.
(** A reported status resets any receiver; any other negative value has no effect at all. *)
Lemma rx_status s z : z < 0 -> async_rx_put_bit s z =
  if existsb (Z.eqb z) [-1; -2; -3; -4; -5; -7] then Ok (rx_set s 0 0, [z]) else Ok (s, []).
Proof.
  intros Hz. unfold async_rx_put_bit. destruct (Z.ltb_spec z 0); [|lia].
  unfold SIG_STATUS_CARRIER_UP, SIG_STATUS_CARRIER_DOWN, SIG_STATUS_TRAINING_IN_PROGRESS, SIG_STATUS_TRAINING_SUCCEEDED, SIG_STATUS_TRAINING_FAILED, SIG_STATUS_END_OF_DATA.
  cbn [existsb]. 
  destruct (z =? -1), (z =? -2), (z =? -3), (z =? -4), (z =? -5), (z =? -7); reflexivity.
Qed.

(** ---- transmitter ---- *)
Definition tx_of (c : cfg) (stop presend frame bitpos : Z) : tx :=
  {| t_data := data_bits c; t_parity := parity c; t_tdata := Z.of_nat (nbits c); t_total := Z.of_nat (nbits c) + stop;
     t_presend := presend; t_frame := frame; t_bitpos := bitpos |}.
Lemma tx_init_of c stop : legal c -> async_tx_init (data_bits c) (parity c) stop = tx_of c stop 0 0 0.
Proof. intros H. unfold async_tx_init, tx_of. rewrite nbits_eq by auto. reflexivity. Qed.
Fixpoint tx_run (n : nat) (t : tx) (src : list src_item) : res (list Z * tx * list src_item) :=
  match n with
  | O => Ok ([], t, src)
  | S k => do (b, t, src) <- async_tx_get_bit t src; do (l, t, src) <- tx_run k t src; Ok (b :: l, t, src)
  end.
Lemma link_of n : forall t src r l t' src' r' o, tx_run n t src = Ok (l, t', src') -> rx_run r l = Ok (r', o) ->
  link_run n t src r = Ok (t', src', r', o).
Proof.
  induction n as [|n IH]; intros t src r l t' src' r' o E R; cbn [tx_run link_run] in *.
  - injection E as <- <- <-. cbn in R. injection R as <- <-. reflexivity.
  - destruct (async_tx_get_bit t src) as [[[b t1] src1]|]; [|discriminate E]. cbn [rbind] in *.
    destruct (tx_run n t1 src1) as [[[l1 t2] src2]|] eqn:E1; [|discriminate E]. cbn [rbind] in E. injection E as <- <- <-.
    cbn [rx_run] in R. destruct (async_rx_put_bit r b) as [[r1 o1]|]; [|discriminate R]. cbn [rbind] in *.
    destruct (rx_run r1 l1) as [[r2 o2]|] eqn:R1; [|discriminate R]. cbn [rbind] in R. injection R as <- <-.
    rewrite (IH _ _ _ _ _ _ _ _ E1 R1). reflexivity.
Qed.
Lemma link_app n m : forall t src r, link_run (n + m) t src r =
  do (t, src, r, o) <- link_run n t src r; do (t, src, r, o') <- link_run m t src r; Ok (t, src, r, o ++ o').
Proof.
  induction n as [|n IH]; intros t src r; cbn [link_run Nat.add rbind].
  - destruct (link_run m t src r) as [[[[? ?] ?] ?]|]; reflexivity.
  - destruct (async_tx_get_bit t src) as [[[b t1] src1]|]; [|reflexivity]. cbn [rbind].
    destruct (async_rx_put_bit r b) as [[r1 o1]|]; [|reflexivity]. cbn [rbind]. rewrite IH.
    destruct (link_run n t1 src1 r1) as [[[[? ?] ?] ?]|]; [|reflexivity]. cbn [rbind].
    destruct (link_run m t0 l r0) as [[[[? ?] ?] ?]|]; [|reflexivity]. cbn [rbind]. rewrite app_assoc. reflexivity.
Qed.
Lemma tx_shift c stop pre src n : forall j f, 0 <= j -> 0 < Z.of_nat n -> 1 + j + Z.of_nat n = Z.of_nat (nbits c) + stop + 1 -> 0 <= f ->
  exists f', tx_run n (tx_of c stop pre f (1 + j)) src = Ok (bz (bits_lsb n f), tx_of c stop pre f' 0, src).
Proof.
  induction n as [|n IH]; intros j f Hj Hn Ht Hf; [lia|].
  cbn [tx_run bits_lsb bz map]. unfold async_tx_get_bit. cbn [t_bitpos tx_of t_total t_frame t_presend].
  destruct (Z.eqb_spec (1 + j) 0); [lia|]. cbn [rbind].
  assert (B : Z.land f 1 = Z.b2z (Z.odd f)).
  { change 1 with (Z.ones 1). rewrite Z.land_ones by lia. change (2 ^ 1) with 2. rewrite Zmod_odd. destruct (Z.odd f); reflexivity. }
  rewrite B. rewrite <- Z.div2_spec.
  destruct (Z.ltb_spec (Z.of_nat (nbits c) + stop) (1 + j + 1)) as [Hl|Hl].
  - assert (n = 0)%nat by lia. subst n. exists (Z.div2 f). cbn [tx_run rbind bits_lsb map]. reflexivity.
  - destruct (IH (j + 1) (Z.div2 f)) as (f' & E); [lia|lia|lia|apply Z.div2_nonneg; exact Hf|].
    replace (1 + (j + 1)) with (1 + j + 1) in E by lia. exists f'.
    unfold tx_set. cbn [t_data t_parity t_tdata t_total tx_of]. unfold tx_of in E at 1. rewrite E. reflexivity.
Qed.
Definition pbits8 (c : cfg) (d : Z) : list bool := if parity c =? 0 then [] else [Z.odd (pbit8 c d)].
Lemma pbit8_range c d : pbit8 c d = Z.b2z (Z.odd (pbit8 c d)).
Proof.
  unfold pbit8. assert (H : forall x, parity8 x = 0 \/ parity8 x = 1).
  { assert (L1 : forall z, Z.land z 1 = 0 \/ Z.land z 1 = 1).
    { intros z. assert (E : Z.land z 1 = z mod 2) by (apply (Z.land_ones z 1); lia). rewrite E. lia. }
    intros x. unfold parity8. apply L1. }
  destruct (parity c =? 2); [|destruct (parity c =? 1); [|destruct (parity c =? 3); reflexivity]];
    destruct (H (u8 d)) as [E|E]; rewrite E; reflexivity.
Qed.
Lemma ffff_shift db : 0 <= db < 16 -> Z.shiftr 0xFFFF (16 - db) = 2 ^ db - 1.
Proof.
  intros H. assert (S := sweep 16 (fun d => Z.shiftr 0xFFFF (16 - d) =? 2 ^ d - 1) eq_refl db H). cbn beta in S. lia.
Qed.
Lemma repeat_true_val n : of_bits_lsb (repeat true n) = 2 ^ Z.of_nat n - 1.
Proof. induction n as [|n IH]; [reflexivity|]. cbn [repeat of_bits_lsb Z.b2z]. rewrite IH, Nat2Z.inj_succ, Z.pow_succ_r by lia. lia. Qed.
Lemma tx_frame_bits c stop pre f bp v : legal c -> 0 <= v ->
  let d := v mod 2 ^ data_bits c in
  bits_lsb 16 (tx_frame (tx_of c stop pre f bp) v) =
    bits_lsb (Z.to_nat (data_bits c)) d ++ pbits8 c d ++ repeat true (16 - nbits c) /\ 0 <= tx_frame (tx_of c stop pre f bp) v.
Proof.
  intros Hc Hv d. assert (Hc' := Hc). unfold legal in Hc'. pose proof (nbits_eq c Hc) as HN.
  set (n := nbits c) in *. set (db := data_bits c) in *.
  assert (Hdb : 1 <= db <= 15) by (destruct (parity c =? 0); lia).
  assert (P : 0 < 2 ^ db) by (apply Z.pow_pos_nonneg; lia).
  assert (P16 : 65536 = 2 ^ db * 2 ^ (16 - db)) by (rewrite <- Z.pow_add_r by lia; replace (db + (16 - db)) with 16 by lia; reflexivity).
  assert (Rd : 0 <= d < 2 ^ db) by (apply Z.mod_pos_bound; lia).
  assert (P2 : 2 <= 2 ^ (16 - db)) by (change 2 with (2 ^ 1) at 1; apply Z.pow_le_mono_r; lia).
  assert (F0 : u16 (Z.land (u16 v) (Z.shiftr 0xFFFF (16 - db))) = d).
  { rewrite ffff_shift by lia. replace (2 ^ db - 1) with (Z.ones db) by (rewrite Z.ones_equiv; lia). rewrite Z.land_ones by lia. unfold u16.
    rewrite P16 at 1. rewrite Z.rem_mul_r by lia. rewrite (Z.mul_comm (2 ^ db)), Z_mod_plus_full, Z.mod_mod by lia. fold d.
    apply Z.mod_small. nia. }
  set (pv := if parity c =? 0 then 0 else pbit8 c d).
  assert (Hpv : 0 <= pv <= 1) by (unfold pv; destruct (parity c =? 0); [lia|]; rewrite pbit8_range; destruct (Z.odd _); cbn; lia).
  assert (F1 : u16 (Z.lor d (Z.shiftl pv db)) = d + pv * 2 ^ db).
  { rewrite Z.shiftl_mul_pow2, lor_disj by lia. unfold u16. apply Z.mod_small. nia. }
  assert (F2 : tx_frame (tx_of c stop pre f bp) v = u16 (Z.lor (d + pv * 2 ^ db) (Z.shiftl 0xFFFF (Z.of_nat n)))).
  { unfold tx_frame. cbn [t_data t_parity t_tdata tx_of]. fold db. fold n. rewrite F0. rewrite <- F1. f_equal. f_equal.
    unfold pv, pbit8, ASYNC_PARITY_MARK, ASYNC_PARITY_EVEN, ASYNC_PARITY_ODD.
    assert (Z0 : u16 (Z.lor d (Z.shiftl 0 db)) = d) by (rewrite Z.shiftl_0_l, Z.lor_0_r; unfold u16; apply Z.mod_small; nia).
    destruct (Z.eqb_spec (parity c) 3) as [->|]; [reflexivity|].
    destruct (Z.eqb_spec (parity c) 1) as [->|]; [reflexivity|].
    destruct (Z.eqb_spec (parity c) 2) as [->|]; [reflexivity|].
    destruct (Z.eqb_spec (parity c) 0); auto. }
  assert (Rn : d + pv * 2 ^ db < 2 ^ Z.of_nat n).
  { unfold pv in *. rewrite HN. destruct (parity c =? 0); [lia|]. rewrite Z.pow_add_r by lia. change (2^1) with 2. nia. }
  assert (Pn : 65536 = 2 ^ Z.of_nat n * 2 ^ (16 - Z.of_nat n)) by (rewrite <- Z.pow_add_r by lia; replace (Z.of_nat n + (16 - Z.of_nat n)) with 16 by lia; reflexivity).
  assert (F3 : tx_frame (tx_of c stop pre f bp) v = d + pv * 2 ^ db + (2 ^ (16 - Z.of_nat n) - 1) * 2 ^ Z.of_nat n).
  { rewrite F2, Z.shiftl_mul_pow2, lor_disj by nia. unfold u16.
    replace (d + pv * 2 ^ db + 65535 * 2 ^ Z.of_nat n) with
      ((d + pv * 2 ^ db + (2 ^ (16 - Z.of_nat n) - 1) * 2 ^ Z.of_nat n) + (2 ^ Z.of_nat n - 1) * 65536) by (clear - Pn; nia).
    rewrite Z_mod_plus_full. apply Z.mod_small. nia. }
  assert (L : of_bits_lsb (bits_lsb (Z.to_nat db) d ++ pbits8 c d ++ repeat true (16 - n)) = tx_frame (tx_of c stop pre f bp) v).
  { rewrite F3, of_bits_lsb_app, bits_lsb_length, of_bits_lsb_bits by (rewrite Z2Nat.id; lia).
    rewrite of_bits_lsb_app, repeat_true_val. rewrite Z2Nat.id by lia.
    replace (Z.of_nat (16 - n)) with (16 - Z.of_nat n) by lia.
    unfold pbits8, pv. rewrite HN. destruct (parity c =? 0); cbn [of_bits_lsb length].
    - change (2 ^ Z.of_nat 0) with 1. ring.
    - rewrite (pbit8_range c d) at 2. rewrite Z.pow_add_r by lia. change (2 ^ Z.of_nat 1) with 2. change (2^1) with 2. ring. }
  split.
  - rewrite <- L.
    replace 16%nat with (length (bits_lsb (Z.to_nat db) d ++ pbits8 c d ++ repeat true (16 - n))) at 1. apply bits_lsb_of_bits.
    rewrite !app_length, bits_lsb_length, repeat_length. unfold pbits8. destruct (parity c =? 0); cbn [length]; lia.
  - rewrite <- L. apply of_bits_lsb_range.
Qed.

Lemma bits_lsb_firstn n m x : (n <= m)%nat -> bits_lsb n x = firstn n (bits_lsb m x).
Proof.
  revert m x. induction n as [|n IH]; intros m x H; [reflexivity|]. destruct m as [|m]; [lia|].
  cbn [bits_lsb firstn]. f_equal. apply IH. lia.
Qed.
Lemma rx_ones c n : forall f pe fe, exists f', rx_run (rx_of c f 0 pe fe) (bz (repeat true n)) = Ok (rx_of c f' 0 pe fe, []).
Proof.
  induction n as [|n IH]; intros f pe fe; cbn [repeat bz map rx_run Z.b2z]; [eauto|].
  rewrite rx_idle_one. cbn [rbind]. destruct (IH 0 pe fe) as (f' & E). fold (bz (repeat true n)). rewrite E. cbn. eauto.
Qed.
Lemma judge8_own c d : legal c -> 0 <= d < 2 ^ data_bits c ->
  judge8 c (bits_lsb (Z.to_nat (data_bits c)) d ++ pbits8 c d) = Char d.
Proof.
  intros Hc Hd. unfold legal in Hc. unfold judge8, pbits8. destruct (parity c =? 0).
  - rewrite app_nil_r, of_bits_lsb_bits by (rewrite Z2Nat.id; lia). reflexivity.
  - rewrite removelast_last, last_last, of_bits_lsb_bits by (rewrite Z2Nat.id; lia).
    rewrite <- pbit8_range, Z.eqb_refl. reflexivity.
Qed.
Lemma tx_next c stop p0 f0 pre v src : p0 <= 0 ->
  let p1 := match pre with Some n => n | None => p0 end in
  async_tx_get_bit (tx_of c stop p0 f0 0) ((pre, v) :: src) =
   if v <? 0 then Ok (if v =? SIG_STATUS_LINK_IDLE then 1 else v, tx_of c stop p1 f0 0, src)
   else if (data_bits c <? 0) || (16 <? data_bits c) || (Z.of_nat (nbits c) <? 0) || (15 <? Z.of_nat (nbits c)) then UB
   else Ok (0, tx_of c stop p1 (tx_frame (tx_of c stop p1 f0 0) v) 1, src).
Proof.
  intros Hp p1. unfold async_tx_get_bit. cbn [t_bitpos tx_of t_presend next_item].
  change (0 =? 0) with true. cbv iota. destruct (Z.ltb_spec 0 p0); [lia|]. unfold p1. destruct pre; reflexivity.
Qed.
Lemma block_char c stop p0 f0 rf pe fe pre v src : legal c -> 1 <= stop -> Z.of_nat (nbits c) + stop <= 16 -> p0 <= 0 -> 0 <= v ->
  exists n p1 f1 rf1, link_run n (tx_of c stop p0 f0 0) ((pre, v) :: src) (rx_of c rf 0 pe fe) =
    Ok (tx_of c stop p1 f1 0, src, rx_of c rf1 0 pe fe, expected (data_bits c) v).
Proof.
  intros Hc Hs Ht Hp Hv. set (p1 := match pre with Some n => n | None => p0 end).
  pose proof (tx_frame_bits c stop p1 f0 0 v Hc Hv) as (FB & FN). set (F := tx_frame (tx_of c stop p1 f0 0) v) in *.
  set (d := v mod 2 ^ data_bits c) in *. assert (Hc' := Hc). unfold legal in Hc'. pose proof (nbits_eq c Hc) as HN.
  assert (Hdb : 1 <= data_bits c <= 15) by (destruct (parity c =? 0); lia).
  destruct (tx_shift c stop p1 src (nbits c + Z.to_nat stop) 0 F) as (f1 & TX); [lia|lia|lia|exact FN|].
  set (q := bits_lsb (Z.to_nat (data_bits c)) d ++ pbits8 c d).
  assert (Lq : length q = nbits c).
  { unfold q, pbits8. rewrite app_length, bits_lsb_length. destruct (parity c =? 0); cbn [length]; lia. }
  assert (BT : bits_lsb (nbits c + Z.to_nat stop) F = q ++ repeat true (Z.to_nat stop)).
  { rewrite (bits_lsb_firstn _ 16) by lia. rewrite FB. rewrite app_assoc. fold q.
    rewrite firstn_app, Lq. rewrite firstn_all2 by lia. f_equal. replace (nbits c + Z.to_nat stop - nbits c)%nat with (Z.to_nat stop) by lia.
    assert (G : forall a b, (a <= b)%nat -> firstn a (repeat true b) = repeat true a).
    { induction a as [|a IH]; intros [|b] H; try lia; try reflexivity. cbn [repeat firstn]. f_equal. apply IH. lia. }
    apply G. lia. }
  rewrite BT in TX. clear BT.
  assert (Rd : 0 <= d < 2 ^ data_bits c) by (apply Z.mod_pos_bound, Z.pow_pos_nonneg; lia).
  assert (RX : exists rf1, rx_run (rx_of c rf 0 pe fe) (0 :: bz (q ++ repeat true (Z.to_nat stop))) = Ok (rx_of c rf1 0 pe fe, [d])).
  { cbn [rx_run]. rewrite rx_idle_zero. cbn [rbind]. rewrite bz_app, rx_run_app.
    pose proof (rx_collect c pe fe q []) as R. cbn [length app of_bits_lsb] in R.
    change (Z.of_nat 0 + 1) with 1 in R. change (0 * 2 ^ (16 - Z.of_nat 0)) with 0 in R. rewrite R by lia. cbn [rbind]. clear R.
    replace (Z.to_nat stop) with (S (Z.to_nat stop - 1)) by lia. cbn [repeat bz map rx_run Z.b2z].
    rewrite Lq. destruct (rx_verdict c q pe fe true Hc Lq (or_introl eq_refl)) as (fx & V). cbn [Z.b2z] in V. rewrite V. cbn [rbind].
    unfold q in *. rewrite judge8_own by auto. cbn [is_perr out1]. rewrite Z.add_0_r.
    destruct (rx_ones c (Z.to_nat stop - 1) fx pe fe) as (fy & O). fold (bz (repeat true (Z.to_nat stop - 1))). rewrite O. cbn [rbind app]. eauto. }
  destruct RX as (rf1 & RX). exists (S (nbits c + Z.to_nat stop)), p1, f1, rf1.
  unfold expected. replace (0 <=? v) with true by lia. fold d.
  eapply link_of; [|exact RX]. cbn [tx_run]. rewrite tx_next by auto. fold p1.
  destruct (Z.ltb_spec v 0); [lia|].
  replace ((data_bits c <? 0) || (16 <? data_bits c) || (Z.of_nat (nbits c) <? 0) || (15 <? Z.of_nat (nbits c))) with false by lia.
  cbn [rbind]. fold F. change (1 + 0) with 1 in TX. rewrite TX. reflexivity.
Qed.
Lemma block_neg c stop p0 f0 rf pe fe pre v src : p0 <= 0 -> v < 0 ->
  exists p1 rf1, link_run 1 (tx_of c stop p0 f0 0) ((pre, v) :: src) (rx_of c rf 0 pe fe) =
    Ok (tx_of c stop p1 f0 0, src, rx_of c rf1 0 pe fe, expected (data_bits c) v).
Proof.
  intros Hp Hv. set (p1 := match pre with Some n => n | None => p0 end).
  cbn [link_run]. rewrite tx_next by auto. fold p1.
  destruct (Z.ltb_spec v 0); [|lia]. cbn [rbind]. unfold expected. replace (0 <=? v) with false by lia.
  exists p1. unfold SIG_STATUS_LINK_IDLE. destruct (Z.eqb_spec v (-17)) as [->|Hn].
  - rewrite rx_idle_one. exists 0. reflexivity.
  - rewrite rx_status by lia. destruct (existsb (Z.eqb v) _).
    + exists 0. reflexivity.
    + exists rf. reflexivity.
Qed.
Lemma block_presend c stop f0 src pe fe k : forall p0 rf, p0 <= Z.of_nat k ->
  exists n p1 rf1, p1 <= 0 /\ link_run n (tx_of c stop p0 f0 0) src (rx_of c rf 0 pe fe) = Ok (tx_of c stop p1 f0 0, src, rx_of c rf1 0 pe fe, []).
Proof.
  induction k as [|k IH]; intros p0 rf Hp.
  - exists 0%nat, p0, rf. split; [lia|reflexivity].
  - destruct (Z_le_gt_dec p0 0) as [H|H]; [exists 0%nat, p0, rf; split; [lia|reflexivity]|].
    destruct (IH (p0 - 1) 0 ltac:(lia)) as (n & p1 & rf1 & H1 & E). exists (S n), p1, rf1. split; [lia|].
    cbn [link_run]. unfold async_tx_get_bit. cbn [t_bitpos tx_of t_presend].
    change (0 =? 0) with true. cbv iota. destruct (Z.ltb_spec 0 p0); [|lia]. cbn [rbind]. rewrite rx_idle_one. cbn [rbind].
    unfold tx_set. cbn [tx_of t_data t_parity t_tdata t_total t_frame]. unfold tx_of in E at 1. rewrite E. reflexivity.
Qed.
Lemma link_all c stop src : legal c -> 1 <= stop -> Z.of_nat (nbits c) + stop <= 16 -> forall p0 f0 rf pe fe,
  exists n p1 f1 rf1, link_run n (tx_of c stop p0 f0 0) src (rx_of c rf 0 pe fe) =
    Ok (tx_of c stop p1 f1 0, [], rx_of c rf1 0 pe fe, flat_map (fun i => expected (data_bits c) (snd i)) src).
Proof.
  intros Hc Hs Ht. induction src as [|[pre v] src IH]; intros p0 f0 rf pe fe.
  - exists 0%nat. cbn. eauto.
  - destruct (block_presend c stop f0 ((pre, v) :: src) pe fe (Z.to_nat p0) p0 rf ltac:(lia)) as (n1 & p1 & rf1 & Hp1 & E1).
    assert (B : exists n p2 f2 rf2, link_run n (tx_of c stop p1 f0 0) ((pre, v) :: src) (rx_of c rf1 0 pe fe) =
      Ok (tx_of c stop p2 f2 0, src, rx_of c rf2 0 pe fe, expected (data_bits c) v)).
    { destruct (Z_le_gt_dec 0 v).
      - apply block_char; auto.
      - destruct (block_neg c stop p1 f0 rf1 pe fe pre v src Hp1 ltac:(lia)) as (p2 & rf2 & E). exists 1%nat. eauto. }
    destruct B as (n2 & p2 & f2 & rf2 & E2). destruct (IH p2 f2 rf2 pe fe) as (n3 & p3 & f3 & rf3 & E3).
    exists (n1 + (n2 + n3))%nat, p3, f3, rf3. rewrite link_app. rewrite E1. cbn [rbind]. rewrite link_app, E2. cbn [rbind]. rewrite E3. reflexivity.
Qed.
Lemma link_idle c stop n : forall p0 f0 rf pe fe, exists p1 rf1,
  link_run n (tx_of c stop p0 f0 0) [] (rx_of c rf 0 pe fe) = Ok (tx_of c stop p1 f0 0, [], rx_of c rf1 0 pe fe, []).
Proof.
  induction n as [|n IH]; intros p0 f0 rf pe fe; [cbn; eauto|].
  cbn [link_run]. unfold async_tx_get_bit. cbn [t_bitpos tx_of t_presend next_item]. change (0 =? 0) with true. cbv iota.
  destruct (0 <? p0).
  - cbn [rbind]. rewrite rx_idle_one. cbn [rbind]. destruct (IH (p0 - 1) f0 0 pe fe) as (p1 & rf1 & E).
    unfold tx_set. cbn [tx_of t_data t_parity t_tdata t_total t_frame]. unfold tx_of in E at 1. rewrite E. cbn. eauto.
  - change (SIG_STATUS_LINK_IDLE <? 0) with true. change (SIG_STATUS_LINK_IDLE =? SIG_STATUS_LINK_IDLE) with true. cbv iota. cbn [rbind].
    rewrite rx_idle_one. cbn [rbind]. destruct (IH p0 f0 0 pe fe) as (p1 & rf1 & E). rewrite E. cbn. eauto.
Qed.
(** Error counters never go down, whatever arrives. *)
Lemma rx_mono s b s' o : async_rx_put_bit s b = Ok (s', o) -> r_perr s <= r_perr s' /\ r_ferr s <= r_ferr s'.
Proof.
  unfold async_rx_put_bit. intros E.
  repeat match type of E with
  | context [if ?x then _ else _] => destruct x
  end; try discriminate E; injection E as <- <-; cbn; lia.
Qed.
Lemma link_mono n : forall t src r t' src' r' o, link_run n t src r = Ok (t', src', r', o) -> r_perr r <= r_perr r' /\ r_ferr r <= r_ferr r'.
Proof.
  induction n as [|n IH]; intros t src r t' src' r' o E; cbn [link_run] in E.
  - injection E as <- <- <- <-. lia.
  - destruct (async_tx_get_bit t src) as [[[b t1] s1]|]; [|discriminate E]. cbn [rbind] in E.
    destruct (async_rx_put_bit r b) as [[r1 o1]|] eqn:E1; [|discriminate E]. cbn [rbind] in E.
    destruct (link_run n t1 s1 r1) as [[[[t2 s2] r2] o2]|] eqn:E2; [|discriminate E]. cbn [rbind] in E. injection E as <- <- <- <-.
    apply rx_mono in E1. apply IH in E2. lia.
Qed.

Definition link (c : cfg) (stop : Z) (src : list src_item) (n : nat) :=
  link_run n (async_tx_init (data_bits c) (parity c) stop) src (async_rx_init (data_bits c) (parity c) (v14 c)).
Lemma link_done c stop src : legal c -> 1 <= stop -> Z.of_nat (nbits c) + stop <= 16 ->
  exists n0, forall n, (n0 <= n)%nat -> exists t r,
    link c stop src n = Ok (t, [], r, flat_map (fun i => expected (data_bits c) (snd i)) src) /\ r_perr r = 0 /\ r_ferr r = 0.
Proof.
  intros Hc Hs Ht. unfold link. rewrite tx_init_of, rx_init_of by auto.
  destruct (link_all c stop src Hc Hs Ht 0 0 0 0 0) as (n0 & p1 & f1 & rf1 & E). exists n0. intros n Hn.
  replace n with (n0 + (n - n0))%nat by lia. rewrite link_app, E. cbn [rbind].
  destruct (link_idle c stop (n - n0) p1 f1 rf1 0 0) as (p2 & rf2 & E2). rewrite E2. cbn [rbind]. rewrite app_nil_r. eauto.
Qed.
Lemma link_prefix c stop src n : legal c -> 1 <= stop -> Z.of_nat (nbits c) + stop <= 16 ->
  exists t src' r o rest, link c stop src n = Ok (t, src', r, o) /\
    flat_map (fun i => expected (data_bits c) (snd i)) src = o ++ rest /\ r_perr r = 0 /\ r_ferr r = 0.
Proof.
  intros Hc Hs Ht. destruct (link_done c stop src Hc Hs Ht) as (n0 & H).
  destruct (H (n + n0)%nat ltac:(lia)) as (t & r & E & E1 & E2). unfold link in *. rewrite link_app in E.
  assert (I : forall n t src r t' src' r' o, link_run n t src r = Ok (t', src', r', o) -> 0 <= r_perr r -> 0 <= r_ferr r -> 0 <= r_perr r' /\ 0 <= r_ferr r').
  { intros. pose proof (link_mono _ _ _ _ _ _ _ _ H0). lia. }
  destruct (link_run n _ src _) as [[[[t1 s1] r1] o1]|] eqn:F1; [|discriminate E]. cbn [rbind] in E.
  destruct (link_run n0 t1 s1 r1) as [[[[t2 s2] r2] o2]|] eqn:F2; [|discriminate E]. cbn [rbind] in E. injection E as E3 E4 E5 E. subst r2.
  exists t1, s1, r1, o1, o2. apply link_mono in F1. cbn [async_rx_init r_perr r_ferr] in F1. apply link_mono in F2.
  repeat split; auto; lia.
Qed.

Lemma split_ones c n : forall k rest, (n + length rest <= k)%nat -> exists k', (length rest <= k')%nat /\
  split_line c k (repeat true n ++ rest) = split_line c k' rest.
Proof.
  induction n as [|n IH]; intros k rest Hk; [exists k; split; [lia|reflexivity]|].
  destruct k as [|k]; [lia|]. cbn [repeat app split_line]. apply IH. lia.
Qed.
Lemma char_len c x : legal c -> exists q, char_bits c x = false :: q /\ length q = nbits c /\ judge c q = Char (x mod 2 ^ data_bits c).
Proof.
  intros Hc. unfold char_bits. eexists. split; [reflexivity|]. assert (Hc' := Hc). unfold legal in Hc'. pose proof (nbits_eq c Hc) as HN.
  split.
  - rewrite app_length, bits_lsb_length. destruct (parity c =? 0); cbn [length]; lia.
  - unfold judge. destruct (parity c =? 0).
    + rewrite app_nil_r, of_bits_lsb_mod, Z2Nat.id by lia. reflexivity.
    + rewrite removelast_last, last_last, of_bits_lsb_mod, Z2Nat.id, eqb_reflx by lia. reflexivity.
Qed.
Lemma split_line_chars c l : legal c -> v14 c = true \/ Forall (fun p => snd p <> 0%nat) l ->
  forall k, (length (line_bits c l ++ [true]) <= k)%nat ->
  split_line c k (line_bits c l ++ [true]) = map (fun p => Char (fst p mod 2 ^ data_bits c)) l.
Proof.
  intros Hc. induction l as [|[x n] l IH]; intros Hv k Hk.
  - destruct k as [|[|k]]; [reflexivity|reflexivity|reflexivity].
  - cbn [line_bits flat_map fst snd map] in *. fold (line_bits c l) in *.
    destruct (char_len c x Hc) as (q & Eq & Lq & Jq). rewrite Eq in *. rewrite <- !app_assoc in *. cbn [app] in *.
    destruct k as [|k]; [cbn [length] in Hk; lia|]. cbn [length] in Hk. cbn [split_line].
    rewrite firstn_app, Lq, Nat.sub_diag, firstn_all2, app_nil_r by lia.
    rewrite skipn_app, Lq, Nat.sub_diag, skipn_all2 by lia. cbn [skipn app]. rewrite Jq.
    rewrite !app_length, repeat_length, Lq in Hk. cbn [length] in Hk.
    assert (Hv' : v14 c = true \/ Forall (fun p => snd p <> 0%nat) l) by (destruct Hv as [|Hv]; [auto|right; inversion Hv; auto]).
    destruct n as [|n].
    + cbn [repeat app]. destruct Hv as [Hv|Hv]; [|inversion Hv as [|? ? H0]; cbn in H0; congruence].
      destruct l as [|[y m] l].
      * cbn [line_bits flat_map app map]. destruct k; reflexivity.
      * rewrite <- (IH Hv' k) by (rewrite app_length; cbn [length] in *; lia).
        assert (H0 : exists t, line_bits c ((y, m) :: l) ++ [true] = false :: t).
        { unfold line_bits. cbn [flat_map fst snd]. destruct (char_len c y Hc) as (qy & Ey & _). rewrite Ey. cbn [app]. eauto. }
        destruct H0 as (t & E0). rewrite E0. rewrite Hv. reflexivity.
    + cbn [repeat app].
      destruct (split_ones c n k (line_bits c l ++ [true])) as (k' & Hk' & E); [rewrite app_length; cbn [length]; lia|].
      rewrite E. rewrite IH; auto.
Qed.
Lemma rx_line c l : legal c -> (data_bits c <= 8 \/ (parity c <> 1 /\ parity c <> 2)) -> v14 c = true \/ Forall (fun p => snd p <> 0%nat) l ->
  exists s, rx_run (async_rx_init (data_bits c) (parity c) (v14 c)) (map Z.b2z (line_bits c l ++ [true])) =
      Ok (s, map (fun p => fst p mod 2 ^ data_bits c) l) /\ r_perr s = 0 /\ r_ferr s = 0.
Proof.
  intros Hc Hp Hv. destruct (rx_spec c (line_bits c l ++ [true]) Hc Hp) as (s & E & E1 & E2). exists s.
  rewrite split_line_chars in * by auto. rewrite E.
  assert (C : forall f l, chars (map (fun p : Z * nat => Char (f p)) l) = map f l) by (intros f; induction l0 as [|a l0 IH]; cbn; [|unfold chars in IH; rewrite IH]; auto).
  assert (N1 : forall f l, filter (fun e => match e with ParityError => true | _ => false end) (map (fun p : Z * nat => Char (f p)) l) = []) by (intros f; induction l0; cbn; auto).
  assert (N2 : forall f l, filter (fun e => match e with FramingError => true | _ => false end) (map (fun p : Z * nat => Char (f p)) l) = []) by (intros f; induction l0; cbn; auto).
  rewrite C. unfold count_perr, count_ferr in *. rewrite N1 in E1. rewrite N2 in E2. auto.
Qed.
Lemma nine_bit_parity : let c := {| data_bits := 9; parity := 1; v14 := false |} in
  exists x y s, x <> y /\ 0 <= y < 512 /\ 
    rx_run (async_rx_init 9 1 false) (map Z.b2z (upd (char_bits c x ++ [true]) 9 (Z.odd (Z.shiftr y 8)))) = Ok (s, [y]) /\ r_perr s = 0.
Proof. exists 0, 256. eexists. split; [lia|]. split; [lia|]. split; vm_compute; reflexivity. Qed.
Lemma many_stop_bits : exists t s r, link {| data_bits := 8; parity := 0; v14 := false |} 9 [(None, 0x41); (None, 0x42)] 60 = Ok (t, s, r, [0x41; 255]).
Proof. do 3 eexists. vm_compute. reflexivity. Qed.
