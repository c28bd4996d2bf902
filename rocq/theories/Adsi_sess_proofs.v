(** ADSI messages from transmitter to receiver. *)
From Verif Require Import Base Crc_spec Crc_model Crc_proofs Adsi_model Adsi_spec Adsi_rx_proofs Adsi_line_proofs Adsi_tx_proofs.
From Coq Require Import ZifyBool ZifyNat.

Lemma steps_app std l1 l2 a :
  steps std a (l1 ++ l2) = let (a1, e1) := steps std a l1 in let (a2, e2) := steps std a1 l2 in (a2, e1 ++ e2).
Proof.
  revert a; induction l1 as [|b l1 IH]; intros a; cbn [app steps].
  - destruct (steps std a l2); reflexivity.
  - destruct (step std a b) as [a1 e1]. rewrite IH. destruct (steps std a1 l1) as [a2 e2].
    destruct (steps std a2 l2) as [a3 e3]. rewrite app_assoc; reflexivity.
Qed.

Lemma steps_ones std n : forall p o f, steps std (mkSt p None o f) (repeat true n) = (mkSt p None (o + Z.of_nat n) f, []).
Proof.
  induction n as [|n IH]; intros p o f; cbn [repeat steps].
  - rewrite Z.add_0_r; reflexivity.
  - unfold step; cbn [g_cur g_p g_ones g_ferr]. rewrite IH. replace (o + 1 + Z.of_nat n) with (o + Z.of_nat (S n)) by lia. reflexivity.
Qed.
Lemma steps_data std d : forall p l o f, (length l + length d <= 8)%nat ->
  steps std (mkSt p (Some l) o f) d = (mkSt p (Some (l ++ d)) o f, []).
Proof.
  induction d as [|b d IH]; intros p l o f H; cbn [steps length] in *.
  - rewrite app_nil_r; reflexivity.
  - unfold step; cbn [g_cur g_p g_ones g_ferr]. destruct (Nat.ltb_spec (length l) 8); [|lia].
    rewrite IH by (rewrite app_length; cbn; lia). rewrite <- app_assoc. reflexivity.
Qed.
(** A character with [n]+1 stop bits. *)
Lemma steps_chr std n b p o f : byte b -> 
  steps std (mkSt p None o f) (false :: bits_lsb 8 b ++ repeat true (S n)) =
  (mkSt (fst (gath std (if 10 <? o then [] else p) b)) None (Z.of_nat n) f, snd (gath std (if 10 <? o then [] else p) b)).
Proof.
  intros Hb. cbn [steps]. unfold step at 1; cbn [g_cur g_p g_ones g_ferr]. set (p' := if 10 <? o then [] else p).
  rewrite steps_app, steps_data by (rewrite bits_lsb_length; cbn; lia). cbn [app].
  change (repeat true (S n)) with (true :: repeat true n). cbn [steps]. unfold step; cbn [g_cur g_p g_ones g_ferr].
  destruct (Nat.ltb_spec (length (bits_lsb 8 b)) 8); [rewrite bits_lsb_length in *; lia|].
  rewrite of_bits_lsb_bits by (unfold byte in Hb; change (2 ^ Z.of_nat 8) with 256; lia).
  destruct (gath std p' b) as [p1 e1]. rewrite steps_ones. cbn [fst snd app]. rewrite app_nil_r. reflexivity.
Qed.

(** ---- the alternating bits ---- *)
Definition pream (std : Z) (p : list Z) : Prop :=
  if std =? JCLIP then p = [] else exists j, (j < 88)%nat /\ p = repeat 0x55 j.

Lemma total_rep n : total (repeat 0x55 n) = 0x55 * Z.of_nat n.
Proof. induction n; cbn [repeat total]; lia. Qed.
Lemma rep_snoc (x : Z) n : repeat x n ++ [x] = repeat x (S n).
Proof. induction n as [|n IH]; [reflexivity|]. change (x :: (repeat x n ++ [x]) = x :: repeat x (S n)). rewrite IH. reflexivity. Qed.
Lemma gath_pream std p c : pream std p -> byte c -> c <> 0x90 -> c <> 29 -> c <> 0 -> snd (gath std p c) = [].
Proof.
  unfold pream, gath. intros Hp Hb H90 H29 H0.
  destruct (std =? JCLIP).
  - rewrite Hp. cbn [length]. cbn [Nat.ltb Nat.leb]. unfold jgather. cbn [length Nat.eqb andb].
    destruct (Z.eqb_spec c 0x90); [lia|]. reflexivity.
  - destruct Hp as (j & Hj & ->). rewrite repeat_length. destruct (Nat.ltb_spec j 256); [|lia].
    unfold gather. rewrite app_length, repeat_length. cbn [length]. rewrite removelast_last, total_rep.
    destruct (_ && _) eqn:E; [|reflexivity]. cbn [snd].
    destruct (Z.eqb_spec ((- (85 * Z.of_nat j)) mod 256) c); [|reflexivity]. exfalso.
    apply andb_true_iff in E as [E1 E2].
    rewrite app_nth1 in E2 by (rewrite repeat_length; lia).
    destruct j as [|[|j]]; [cbn in E1; lia|cbn in E1; lia|]. cbn [repeat nth] in E2.
    assert (j = 85%nat) by lia. subst j. vm_compute in e. lia.
Qed.
Lemma gath_55 std p : pream std p -> pream std (fst (gath std p 0x55)).
Proof.
  unfold pream, gath. intros Hp. destruct (std =? JCLIP).
  - rewrite Hp. reflexivity.
  - destruct Hp as (j & Hj & ->). rewrite repeat_length. destruct (Nat.ltb_spec j 256); [|lia].
    unfold gather. rewrite rep_snoc. rewrite repeat_length.
    destruct (_ && _) eqn:E; cbn [fst].
    + exists 0%nat. split; [lia|reflexivity].
    + exists (S j). split; [|reflexivity]. assert (S j <> 88%nat); [|lia]. intros E2.
      rewrite E2 in E. vm_compute in E. discriminate.
Qed.

Lemma alt_10 n : alt false (10 + n) = (false :: bits_lsb 8 0x55 ++ repeat true 1) ++ alt false n.
Proof. reflexivity. Qed.

Lemma steps_alt std k : forall p o f, pream std p -> exists p', pream std p' /\
  steps std (mkSt p None o f) (alt false (10 * k)) = (mkSt p' None (if (k =? 0)%nat then o else 0) f, []).
Proof.
  induction k as [|k IH]; intros p o f Hp.
  - exists p. auto.
  - replace (10 * S k)%nat with (10 + 10 * k)%nat by lia. rewrite alt_10, steps_app, steps_chr by (unfold byte; lia).
    assert (Hp' : pream std (if 10 <? o then [] else p)).
    { destruct (10 <? o); [|exact Hp]. unfold pream. destruct (std =? JCLIP); [reflexivity|]. exists 0%nat. split; [lia|reflexivity]. }
    rewrite gath_pream by (auto; unfold byte; lia).
    destruct (IH (fst (gath std (if 10 <? o then [] else p) 85)) (Z.of_nat 0) f (gath_55 _ _ Hp')) as (p' & P & E).
    exists p'. split; [exact P|]. change (10 * k)%nat with (10 * k)%nat in E. rewrite E. destruct k; reflexivity.
Qed.
Lemma alt_add n m : alt false (10 * n + m) = alt false (10 * n) ++ alt false m.
Proof.
  induction n as [|n IH]; [reflexivity|].
  replace (10 * S n + m)%nat with (10 + (10 * n + m))%nat by lia. rewrite alt_10, IH.
  replace (10 * S n)%nat with (10 + 10 * n)%nat by lia. rewrite alt_10, <- app_assoc. reflexivity.
Qed.

(** Everything before the first character. *)
Lemma steps_pre std pre ones o f : 0 <= o -> pre = 0%nat \/ (20 <= ones)%nat ->
  exists p o', steps std (mkSt [] None o f) (alt false pre ++ repeat true ones) = (mkSt p None o' f, []) /\
               (p = [] \/ 10 < o') /\ 0 <= o'.
Proof.
  intros Ho Hc. destruct Hc as [-> | Hc].
  - cbn [alt app]. rewrite steps_ones. eexists _, _. split; [reflexivity|]. split; [auto|lia].
  - set (r := (pre mod 10)%nat). set (k := (pre / 10)%nat).
    assert (Hp : pre = (10 * k + r)%nat) by (apply Nat.div_mod; lia).
    assert (Hr : (r < 10)%nat) by (apply Nat.mod_upper_bound; lia).
    assert (P0 : pream std []).
    { unfold pream. destruct (std =? JCLIP); [reflexivity|]. exists 0%nat. split; [lia|reflexivity]. }
    rewrite Hp, alt_add, <- app_assoc, steps_app.
    destruct (steps_alt std k [] o f P0) as (p1 & P1 & ->). set (o1 := if (k =? 0)%nat then o else 0).
    assert (Ho1 : 0 <= o1) by (unfold o1; destruct (k =? 0)%nat; lia). clearbody o1.
    destruct (Nat.eq_dec r 0) as [R0|R0].
    + rewrite R0. cbn [alt app]. rewrite steps_ones. eexists _, _. split; [reflexivity|]. split; [right|]; lia.
    + assert (X : exists c, byte c /\ c <> 0x90 /\ c <> 29 /\ c <> 0 /\
        alt false r ++ repeat true ones = (false :: bits_lsb 8 c ++ repeat true 1) ++ repeat true (ones - (10 - r))).
      { assert (E : forall q, (q <= ones)%nat -> repeat true ones = repeat true q ++ repeat true (ones - q)).
        { intros q Hq. rewrite <- repeat_app. f_equal. lia. }
        rewrite (E (10 - r)%nat) by lia. rewrite app_assoc.
        assert (F : exists c, byte c /\ c <> 0x90 /\ c <> 29 /\ c <> 0 /\ alt false r ++ repeat true (10 - r) = false :: bits_lsb 8 c ++ repeat true 1).
        { clear - Hr R0. destruct r as [|r]; [lia|].
          do 2 (destruct r as [|r]; [exists 0xFF; unfold byte; repeat split; lia|]).
          do 2 (destruct r as [|r]; [exists 0xFD; unfold byte; repeat split; lia|]).
          do 2 (destruct r as [|r]; [exists 0xF5; unfold byte; repeat split; lia|]).
          do 2 (destruct r as [|r]; [exists 0xD5; unfold byte; repeat split; lia|]).
          do 1 (destruct r as [|r]; [exists 0x55; unfold byte; repeat split; lia|]). lia. }
        destruct F as (c & F1 & F2 & F3 & F4 & F5). exists c. rewrite F5. auto. }
      destruct X as (c & X1 & X2 & X3 & X4 & ->). rewrite steps_app, steps_chr by exact X1.
      assert (Hp' : pream std (if 10 <? o1 then [] else p1)) by (destruct (10 <? o1); auto).
      rewrite gath_pream by auto. rewrite steps_ones. eexists _, _. split; [reflexivity|]. split; [right; lia|lia].
Qed.

(** ---- the characters ---- *)
Fixpoint gaths (std : Z) (p : list Z) (f : list Z) : list Z * list (list Z) :=
  match f with
  | [] => (p, [])
  | b :: t => let (p, e) := gath std p b in let (p, e') := gaths std p t in (p, e ++ e')
  end.
Lemma steps_chrs std stop f : bytes f -> stop <= 11 -> forall p o fe, 0 <= o <= 10 ->
  exists o', steps std (mkSt p None o fe) (flat_map (chr stop) f) = (mkSt (fst (gaths std p f)) None o' fe, snd (gaths std p f)) /\ 0 <= o' <= 10.
Proof.
  intros Hf Hs. induction Hf as [|b f Hb Hf IH]; intros p o fe Ho; cbn [flat_map gaths].
  - exists o. auto.
  - rewrite steps_app. unfold chr at 1, stops.
    replace (Z.to_nat (Z.max 1 stop)) with (S (Z.to_nat (Z.max 1 stop - 1))) by lia. rewrite steps_chr by exact Hb.
    destruct (Z.ltb_spec 10 o); [lia|]. destruct (gath std p b) as [p1 e1]. cbn [fst snd].
    destruct (IH p1 (Z.of_nat (Z.to_nat (Z.max 1 stop - 1))) fe) as (o' & E & L); [lia|]. rewrite E.
    destruct (gaths std p1 f) as [p2 e2]. cbn [fst snd]. exists o'. auto.
Qed.
Lemma steps_chrs0 std stop f : bytes f -> f <> [] -> stop <= 11 -> forall p o fe, 0 <= o -> p = [] \/ 10 < o ->
  exists o', steps std (mkSt p None o fe) (flat_map (chr stop) f) = (mkSt (fst (gaths std [] f)) None o' fe, snd (gaths std [] f)) /\ 0 <= o' <= 10.
Proof.
  intros Hf Hn Hs p o fe Ho Hp. destruct f as [|b f]; [congruence|]. inversion Hf as [|b' f' Hb Hf' Eq]; subst. cbn [flat_map gaths].
  rewrite steps_app. unfold chr at 1, stops.
  replace (Z.to_nat (Z.max 1 stop)) with (S (Z.to_nat (Z.max 1 stop - 1))) by lia. rewrite steps_chr by exact Hb.
  assert (E : (if 10 <? o then [] else p) = []) by (destruct (Z.ltb_spec 10 o); [reflexivity|destruct Hp; [auto|lia]]).
  rewrite E. destruct (gath std [] b) as [p1 e1]. cbn [fst snd].
  destruct (steps_chrs std stop f Hf' Hs p1 (Z.of_nat (Z.to_nat (Z.max 1 stop - 1))) fe) as (o' & E' & L); [lia|]. rewrite E'.
  destruct (gaths std p1 f) as [p2 e2]. cbn [fst snd]. exists o'. auto.
Qed.

Lemma gaths_app std f1 f2 p :
  gaths std p (f1 ++ f2) = let (p1, e1) := gaths std p f1 in let (p2, e2) := gaths std p1 f2 in (p2, e1 ++ e2).
Proof.
  revert p; induction f1 as [|b f1 IH]; intros p; cbn [app gaths].
  - destruct (gaths std p f2); reflexivity.
  - destruct (gath std p b) as [p1 e1]. rewrite IH. destruct (gaths std p1 f1) as [p2 e2].
    destruct (gaths std p2 f2) as [p3 e3]. rewrite app_assoc; reflexivity.
Qed.
(** Nothing happens before the last octet. *)
Lemma gaths_wait std f : forall p, (length (p ++ f) <= 256)%nat ->
  (forall q b r, p ++ f = q ++ b :: r -> (length p <= length q)%nat -> gath std q b = (q ++ [b], [])) -> gaths std p f = (p ++ f, []).
Proof.
  induction f as [|b f IH]; intros p Hl H; cbn [gaths].
  - rewrite app_nil_r; reflexivity.
  - rewrite (H p b f eq_refl (le_n _)). rewrite IH.
    + rewrite <- app_assoc. reflexivity.
    + rewrite <- app_assoc. exact Hl.
    + intros q c r E L. rewrite app_length in L. cbn [length] in L. apply (H q c r); [|lia]. rewrite <- E, <- app_assoc. reflexivity.
Qed.

Lemma sum_byte x : 0 <= x < 256 -> forall c, c = (- x) mod 256 -> (x + c) mod 256 = 0.
Proof. intros H c ->. Z.div_mod_to_equations; lia. Qed.

(** A Bellcore/ETSI message. *)
Lemma gaths_msg std m : std =? JCLIP = false -> (2 <= length m)%nat -> Z.of_nat (length m) <= 255 -> 
  nth 1 m 0 = Z.of_nat (length m) - 2 -> gaths std [] (m ++ [(- total m) mod 256]) = ([], [m]).
Proof.
  intros Hs L1 L2 Hn. rewrite gaths_app. rewrite (gaths_wait std m []).
  - cbn [app gaths]. unfold gath. rewrite Hs. destruct (Nat.ltb_spec (length m) 256); [|lia].
    unfold gather. rewrite app_length. cbn [length]. rewrite app_nth1 by lia. rewrite Hn, removelast_last.
    destruct (Z.leb_spec 3 (Z.of_nat (length m + 1))); [|lia].
    destruct (Z.eqb_spec (Z.of_nat (length m + 1)) (Z.of_nat (length m) - 2 + 3)); [|lia]. cbn [andb].
    rewrite Z.eqb_refl. reflexivity.
  - cbn [app]. lia.
  - intros q b r E _. cbn [app] in E. assert (Lq : (length q < length m)%nat) by (rewrite E, app_length; cbn; lia).
    unfold gath. rewrite Hs. destruct (Nat.ltb_spec (length q) 256); [|lia].
    unfold gather. rewrite app_length. cbn [length].
    destruct (Z.leb_spec 3 (Z.of_nat (length q + 1))); cbn [andb]; [|reflexivity].
    replace (nth 1 (q ++ [b]) 0) with (nth 1 m 0).
    + destruct (Z.eqb_spec (Z.of_nat (length q + 1)) (nth 1 m 0 + 3)); [lia|reflexivity].
    + rewrite E. replace (q ++ b :: r) with ((q ++ [b]) ++ r) by (rewrite <- app_assoc; reflexivity).
      apply app_nth1. rewrite app_length; cbn; lia.
Qed.

(** A J-CLIP frame. *)
Lemma gaths_jmsg f m : nth 0 f 0 = 0x90 -> Z.of_nat (length f) <= 256 -> (11 <= length f)%nat ->
  Z.of_nat (length f) = nth 6 f 0 mod 128 + 11 -> crc16 (skipn 2 f) 0 = 0 -> strip (firstn (length f - 2) f) = m ->
  gaths JCLIP [] f = ([], [m]).
Proof.
  intros H0 L1 L2 Hn Hc Hm.
  destruct (exists_last (l := f)) as (g & c & Ef); [destruct f; [cbn in L2; lia|discriminate]|].
  assert (Lg : length f = (length g + 1)%nat) by (rewrite Ef, app_length; reflexivity).
  assert (J : forall q b r, f = q ++ b :: r -> nth 0 (q ++ [b]) 0 = 0x90).
  { intros q b r E. rewrite <- H0, E. destruct q; reflexivity. }
  assert (G0 : forall q b r, f = q ++ b :: r -> ((length q =? 0)%nat && negb (b =? 0x90)) = false).
  { intros q b r E. pose proof (J q b r E) as J0. destruct q as [|a q]; [|reflexivity]. cbn in *. subst b. reflexivity. }
  rewrite Ef, gaths_app. rewrite (gaths_wait JCLIP g []).
  - cbn [app gaths]. unfold gath. destruct (Nat.ltb_spec (length g) 256); [|lia]. cbn [Z.eqb JCLIP Pos.eqb].
    unfold jgather. rewrite (G0 g c []) by exact Ef. rewrite <- Ef.
    destruct (Z.leb_spec 11 (Z.of_nat (length f))); [|lia]. rewrite Hn at 1. rewrite Z.eqb_refl. cbn [andb].
    rewrite Hc, Hm. reflexivity.
  - cbn [app]. lia.
  - intros q b r E _. cbn [app] in E. assert (Lq : (length q < length g)%nat) by (rewrite E, app_length; cbn; lia).
    assert (Eq : f = q ++ b :: (r ++ [c])) by (rewrite Ef, E, <- app_assoc; reflexivity).
    unfold gath. destruct (Nat.ltb_spec (length q) 256); [|lia]. cbn [Z.eqb JCLIP Pos.eqb].
    unfold jgather. rewrite (G0 q b _ Eq). rewrite app_length. cbn [length].
    destruct (Z.leb_spec 11 (Z.of_nat (length q + 1))); cbn [andb]; [|reflexivity].
    replace (nth 6 (q ++ [b]) 0) with (nth 6 f 0).
    + destruct (Z.eqb_spec (Z.of_nat (length q + 1)) (nth 6 f 0 mod 128 + 11)); [lia|reflexivity].
    + rewrite Eq. replace (q ++ b :: (r ++ [c])) with ((q ++ [b]) ++ (r ++ [c])) by (rewrite <- app_assoc; reflexivity).
      apply app_nth1. rewrite app_length; cbn; lia.
Qed.
