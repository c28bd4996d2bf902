(** The ADSI receiver followed bit by bit. *)
From Verif Require Import Base Crc_spec Crc_model Crc_proofs Adsi_model Adsi_spec.
From Coq Require Import ZifyBool ZifyNat.

Lemma feed_app {A} (f : rx -> A -> res (rx * list (list Z))) l1 l2 s :
  feed f s (l1 ++ l2) =
  rbind (feed f s l1) (fun p => let (s1, e1) := p in rbind (feed f s1 l2) (fun q => let (s2, e2) := q in Ok (s2, e1 ++ e2))).
Proof.
  revert s; induction l1 as [|b l1 IH]; intros s; cbn [app feed].
  - cbn [rbind]. destruct (feed f s l2) as [[s2 e2]|]; reflexivity.
  - destruct (f s b) as [[s1 e1]|]; cbn [rbind]; [|reflexivity].
    rewrite IH. destruct (feed f s1 l1) as [[s2 e2]|]; cbn [rbind]; [|reflexivity].
    destruct (feed f s2 l2) as [[s3 e3]|]; cbn [rbind]; [|reflexivity]. rewrite app_assoc; reflexivity.
Qed.

(** The octets gathered so far are [p]. *)
Definition has (s : rx) (p : list Z) : Prop :=
  length (r_msg s) = 256%nat /\ r_len s = Z.of_nat (length p) /\ firstn (length p) (r_msg s) = p /\ (length p <= 256)%nat /\ bytes p.

Lemma aset_in l i x : 0 <= i < Z.of_nat (length l) -> aset l i x = Ok (upd l (Z.to_nat i) x).
Proof.
  intros H. unfold aset, in_bounds. destruct (Z.leb_spec 0 i); destruct (Z.ltb_spec i (Z.of_nat (length l))); cbn; try lia; auto.
Qed.
Lemma aget_in l i : 0 <= i < Z.of_nat (length l) -> aget l i = Ok (nth (Z.to_nat i) l 0).
Proof.
  intros H. unfold aget, in_bounds. destruct (Z.leb_spec 0 i); destruct (Z.ltb_spec i (Z.of_nat (length l))); cbn; try lia; auto.
Qed.
Lemma aslice_ok l off n : 0 <= off -> 0 <= n -> off + n <= Z.of_nat (length l) ->
  aslice l off n = Ok (firstn (Z.to_nat n) (skipn (Z.to_nat off) l)).
Proof.
  intros H1 H2 H3. unfold aslice. destruct (Z.leb_spec n 0).
  - replace n with 0 by lia. reflexivity.
  - destruct (Z.leb_spec 0 off); destruct (Z.leb_spec (off + n) (Z.of_nat (length l))); cbn; try lia; auto.
Qed.
Lemma ablit_ok l off src : 0 <= off -> off + Z.of_nat (length src) <= Z.of_nat (length l) ->
  ablit l off src = Ok (firstn (Z.to_nat off) l ++ src ++ skipn (Z.to_nat off + length src) l).
Proof.
  intros H1 H2. unfold ablit. destruct src as [|a t].
  - cbn [app length]. rewrite Nat.add_0_r, firstn_skipn. reflexivity.
  - destruct (Z.leb_spec 0 off); destruct (Z.leb_spec (off + Z.of_nat (length (a :: t))) (Z.of_nat (length l))); cbn [andb]; try lia; auto.
Qed.
Lemma firstn_upd_snoc (l : list Z) n x : (n < length l)%nat -> firstn (S n) (upd l n x) = firstn n l ++ [x].
Proof.
  revert n; induction l as [|a l IH]; intros n H; cbn in H; [lia|].
  destruct n as [|n]; cbn [upd firstn app]; [reflexivity|]. rewrite <- IH by lia. reflexivity.
Qed.
Lemma nth_firstn_lt (l : list Z) n i d : (i < n)%nat -> nth i (firstn n l) d = nth i l d.
Proof. revert n i; induction l as [|a l IH]; intros [|n] [|i] H; cbn; auto; try lia. apply IH; lia. Qed.
Lemma firstn_firstn_le (l : list Z) n m : (n <= m)%nat -> firstn n (firstn m l) = firstn n l.
Proof. intros H. rewrite firstn_firstn. f_equal; lia. Qed.
Lemma sum_total l : sum_list l = total l.
Proof. induction l; cbn; congruence. Qed.

(** One more octet. *)
Definition gather (p : list Z) (b : Z) : list Z * list (list Z) :=
  let q := p ++ [b] in
  if (3 <=? Z.of_nat (length q)) && (Z.of_nat (length q) =? nth 1 q 0 + 3) then
    ([], if (- total (removelast q)) mod 256 =? b then [removelast q] else [])
  else (q, []).
Definition strip (l : list Z) : list Z := map (fun b => b mod 128) l.
Definition jgather (p : list Z) (b : Z) : list Z * list (list Z) :=
  if (length p =? 0)%nat && negb (b =? 0x90) then ([], [])
  else
    let q := p ++ [b] in
    if (11 <=? Z.of_nat (length q)) && (Z.of_nat (length q) =? nth 6 q 0 mod 128 + 11) then
      ([], if crc16 (skipn 2 q) 0 =? 0 then [strip (firstn (length q - 2) q)] else [])
    else (q, []).

Lemma has_nil s : length (r_msg s) = 256%nat -> r_len s = 0 -> has s [].
Proof. intros H1 H2. repeat split; cbn; auto; try lia; constructor. Qed.

Lemma store_ok s p b : has s p -> (length p < 256)%nat -> byte b -> r_prog s = b ->
  exists m, store_octet s = Ok (set_r_msg s m (r_len s + 1)) /\ has (set_r_msg s m (r_len s + 1)) (p ++ [b]).
Proof.
  intros (H1 & H2 & H3 & H4 & H5) Hp Hb Hr. unfold store_octet.
  rewrite aset_in by lia. cbn [rbind]. eexists; split; [reflexivity|].
  unfold has; cbn [r_msg r_len set_r_msg]. rewrite upd_length, app_length. cbn [length].
  replace (Z.to_nat (r_len s)) with (length p) by lia.
  assert (u8 (r_prog s) = b) as -> by (unfold u8; rewrite Hr; unfold byte in Hb; apply Z.mod_small; lia).
  split; [auto|split; [lia|split; [|split; [lia|apply Forall_app; auto]]]].
  rewrite Nat.add_1_r, firstn_upd_snoc by lia. rewrite H3. reflexivity.
Qed.

Lemma land_ff_mod x : Z.land x 0xFF = x mod 256.
Proof. change 0xFF with (Z.ones 8). rewrite Z.land_ones by lia. reflexivity. Qed.
Lemma land_7f_mod x : Z.land x 0x7F = x mod 128.
Proof. change 0x7F with (Z.ones 7). rewrite Z.land_ones by lia. reflexivity. Qed.
Lemma strip7_eq l : strip7 l = strip l.
Proof. unfold strip7, strip. apply map_ext. intros; apply land_7f_mod. Qed.

Definition same_regs (s s' : rx) : Prop :=
  r_std s' = r_std s /\ r_ones s' = r_ones s /\ r_bit_pos s' = r_bit_pos s /\ r_prog s' = r_prog s /\ r_ferr s' = r_ferr s.

Lemma other_octet_ok s p b : has s p -> (length p < 256)%nat -> byte b -> r_prog s = b ->
  exists s', other_octet s = Ok (s', snd (gather p b)) /\ has s' (fst (gather p b)) /\ same_regs s s'.
Proof.
  intros H Hp Hb Hr. unfold other_octet. destruct (store_ok s p b H Hp Hb Hr) as (m & -> & Hm).
  cbn [rbind]. set (s1 := set_r_msg s m (r_len s + 1)) in *.
  destruct Hm as (H1 & H2 & H3 & H4 & H5). rewrite app_length in *. cbn [length] in *.
  unfold gather. rewrite app_length. cbn [length]. rewrite H2.
  destruct (Z.leb_spec 3 (Z.of_nat (length p + 1))); cbn [andb].
  2: { exists s1. cbn [fst snd]. split; [reflexivity|]. split; [|repeat split].
       repeat split; rewrite ?app_length; cbn [length]; auto. }
  rewrite aget_in by lia. cbn [rbind].
  assert (N1 : nth (Z.to_nat 1) (r_msg s1) 0 = nth 1 (p ++ [b]) 0)
    by (rewrite <- H3; rewrite nth_firstn_lt by lia; reflexivity).
  rewrite N1. destruct (Z.eqb_spec (Z.of_nat (length p + 1)) (nth 1 (p ++ [b]) 0 + 3)); cbn [fst snd].
  2: { exists s1. split; [reflexivity|]. split; [|repeat split].
       repeat split; rewrite ?app_length; cbn [length]; auto. }
  rewrite aslice_ok by lia. rewrite aget_in by lia. cbn [rbind].
  rewrite removelast_last.
  replace (firstn (Z.to_nat (Z.of_nat (length p + 1) - 1)) (skipn (Z.to_nat 0) (r_msg s1))) with p.
  2: { change (skipn (Z.to_nat 0) (r_msg s1)) with (r_msg s1).
       replace (Z.to_nat (Z.of_nat (length p + 1) - 1)) with (length p) by lia.
       rewrite <- (firstn_firstn_le (r_msg s1) (length p) (length p + 1)) by lia. rewrite H3.
       rewrite firstn_app, Nat.sub_diag, firstn_all. cbn. rewrite app_nil_r; reflexivity. }
  replace (nth (Z.to_nat (Z.of_nat (length p + 1) - 1)) (r_msg s1) 0) with b.
  2: { replace (Z.to_nat (Z.of_nat (length p + 1) - 1)) with (length p) by lia.
       rewrite <- (nth_firstn_lt (r_msg s1) (length p + 1)) by lia. rewrite H3.
       rewrite app_nth2, Nat.sub_diag by lia. reflexivity. }
  rewrite land_ff_mod, sum_total. eexists; split; [reflexivity|]. split.
  - apply has_nil; cbn [set_r_msg r_msg r_len]; auto.
  - repeat split.
Qed.

Lemma jclip_octet_ok s p b : has s p -> (length p < 256)%nat -> byte b -> r_prog s = b ->
  exists s', jclip_octet s = Ok (s', snd (jgather p b)) /\ has s' (fst (jgather p b)) /\ same_regs s s'.
Proof.
  intros H Hp Hb Hr. unfold jclip_octet, jgather.
  assert (Hz : (r_len s =? 0) = (length p =? 0)%nat) by (destruct H as (_ & H2 & _); rewrite H2; lia).
  rewrite Hz. change (Z.lor 0x80 DLE) with 0x90. rewrite Hr.
  destruct ((length p =? 0)%nat && negb (b =? 0x90)) eqn:Hc.
  - apply andb_true_iff in Hc as [Hc1 Hc2]. rewrite Hc1. apply negb_true_iff in Hc2. rewrite Hc2. cbn [rbind].
    apply Nat.eqb_eq in Hc1. destruct H as (H1 & H2 & H3 & H4 & H5). rewrite H2, Hc1. cbn [Z.of_nat Z.leb Z.compare].
    exists s. split; [reflexivity|]. split; [|repeat split]. apply has_nil; auto; lia.
  - assert (E : (if (length p =? 0)%nat then if b =? 0x90 then store_octet s else Ok s else store_octet s) = store_octet s).
    { destruct (length p =? 0)%nat; [|reflexivity]. destruct (b =? 0x90); [reflexivity|discriminate]. }
    rewrite E. clear E. destruct (store_ok s p b H Hp Hb Hr) as (m & -> & Hm). cbn [rbind].
    set (s1 := set_r_msg s m (r_len s + 1)) in *. destruct Hm as (H1 & H2 & H3 & H4 & H5).
    set (q := p ++ [b]) in *. assert (Lq : length q = (length p + 1)%nat) by (unfold q; rewrite app_length; reflexivity).
    rewrite H2. destruct (Z.leb_spec 11 (Z.of_nat (length q))); cbn [andb].
    2: { exists s1. cbn [fst snd]. split; [reflexivity|]. split; [|repeat split].
         repeat split; auto. }
    rewrite aget_in by lia. cbn [rbind]. rewrite land_7f_mod.
    assert (N1 : nth (Z.to_nat 6) (r_msg s1) 0 = nth 6 q 0) by (rewrite <- H3; rewrite nth_firstn_lt by lia; reflexivity).
    rewrite N1. destruct (Z.eqb_spec (Z.of_nat (length q)) (nth 6 q 0 mod 128 + 11)); cbn [fst snd].
    2: { exists s1. split; [reflexivity|]. split; [|repeat split]. repeat split; auto. }
    rewrite aslice_ok by lia. cbn [rbind].
    assert (Q2 : firstn (Z.to_nat (Z.of_nat (length q) - 2)) (skipn (Z.to_nat 2) (r_msg s1)) = skipn 2 q).
    { replace (Z.to_nat (Z.of_nat (length q) - 2)) with (length q - 2)%nat by lia.
      pose proof (f_equal (skipn 2) H3) as E. rewrite skipn_firstn_comm in E. exact E. }
    rewrite Q2. unfold crc_itu16_calc. rewrite calc16.
    2: { rewrite <- (firstn_skipn 2 q) in H5. apply Forall_app in H5; tauto. }
    destruct (Z.eqb_spec (crc16 (skipn 2 q) 0) 0).
    + rewrite aslice_ok by lia. cbn [rbind].
      assert (Q3 : firstn (Z.to_nat (Z.of_nat (length q) - 2)) (skipn (Z.to_nat 0) (r_msg s1)) = firstn (length q - 2) q).
      { replace (Z.to_nat (Z.of_nat (length q) - 2)) with (length q - 2)%nat by lia.
        pose proof (f_equal (firstn (length q - 2)) H3) as E. rewrite firstn_firstn_le in E by lia. exact E. }
      rewrite Q3, strip7_eq. rewrite ablit_ok.
      2: lia. 2: { unfold strip; rewrite map_length, firstn_length; lia. }
      cbn [rbind]. eexists; split; [reflexivity|]. split; [|repeat split].
      apply has_nil; cbn [set_r_msg r_msg r_len]; auto.
      rewrite !app_length, skipn_length, firstn_length. unfold strip. rewrite map_length, firstn_length. lia.
    + eexists; split; [reflexivity|]. split; [|repeat split]. apply has_nil; cbn [set_r_msg r_msg r_len]; auto.
Qed.

(** ---- the receiver on bits ---- *)
Record st := mkSt { g_p : list Z; g_cur : option (list bool); g_ones : Z; g_ferr : Z }.
Definition gath (std : Z) (p : list Z) (b : Z) : list Z * list (list Z) :=
  if (length p <? 256)%nat then if std =? JCLIP then jgather p b else gather p b else (p, []).
Definition step (std : Z) (a : st) (b : bool) : st * list (list Z) :=
  match g_cur a with
  | None => if b then (mkSt (g_p a) None (g_ones a + 1) (g_ferr a), [])
            else (mkSt (if 10 <? g_ones a then [] else g_p a) (Some []) 0 (g_ferr a), [])
  | Some l => if (length l <? 8)%nat then (mkSt (g_p a) (Some (l ++ [b])) (g_ones a) (g_ferr a), [])
              else if b then let (p, e) := gath std (g_p a) (of_bits_lsb l) in (mkSt p None (g_ones a) (g_ferr a), e)
              else (mkSt (g_p a) None (g_ones a) (g_ferr a + 1), [])
  end.
Fixpoint steps (std : Z) (a : st) (l : list bool) : st * list (list Z) :=
  match l with
  | [] => (a, [])
  | b :: t => let (a, e) := step std a b in let (a, e') := steps std a t in (a, e ++ e')
  end.

Definition sim (s : rx) (a : st) : Prop :=
  has s (g_p a) /\ (r_ferr s = g_ferr a /\ 0 <= g_ferr a) /\ r_ones s = g_ones a /\ 0 <= g_ones a /\
  match g_cur a with
  | None => r_bit_pos s = 0 /\ r_prog s = 0
  | Some l => (length l <= 8)%nat /\ r_bit_pos s = Z.of_nat (length l) + 1 /\ r_prog s = of_bits_lsb l * 2 ^ (8 - Z.of_nat (length l))
  end.

Lemma shift_in (l : list bool) (b : bool) : (length l < 8)%nat ->
  (if (if b then 1 else 0) =? 0 then Z.shiftr (of_bits_lsb l * 2 ^ (8 - Z.of_nat (length l))) 1
   else Z.lor (Z.shiftr (of_bits_lsb l * 2 ^ (8 - Z.of_nat (length l))) 1) 0x80) =
  of_bits_lsb (l ++ [b]) * 2 ^ (8 - Z.of_nat (length (l ++ [b]))).
Proof.
  intros H. do 8 (destruct l as [|[] l]; [destruct b; reflexivity|cbn in H..]); lia.
Qed.

Lemma put_bit_ok s a (b : bool) : sim s a -> g_ones a < 2 ^ 31 - 1 -> g_ferr a < 2 ^ 31 - 1 ->
  exists s', adsi_rx_put_bit s (Z.b2z b) = Ok (s', snd (step (r_std s) a b)) /\ sim s' (fst (step (r_std s) a b)) /\
             r_std s' = r_std s /\ g_ferr (fst (step (r_std s) a b)) <= g_ferr a + 1 /\ g_ones (fst (step (r_std s) a b)) <= g_ones a + 1.
Proof.
  intros (Hh & (Hf & Hf') & Ho & Ho' & Hc) Hb1 Hb2. unfold adsi_rx_put_bit.
  assert ((Z.b2z b <? 0) = false) as -> by (destruct b; reflexivity).
  assert (Z.land (Z.b2z b) 1 = (if b then 1 else 0)) as -> by (destruct b; reflexivity).
  unfold step. destruct a as [p cur o fe]; cbn [g_p g_cur g_ones g_ferr g_ferr] in *. destruct cur as [l|].
  - destruct Hc as (Hl & Hp & Hg). rewrite Hp. destruct (Z.eqb_spec (Z.of_nat (length l) + 1) 0); [lia|].
    destruct (Nat.ltb_spec (length l) 8) as [L|L].
    + destruct (Z.leb_spec (Z.of_nat (length l) + 1) 8); [|lia]. eexists; split; [reflexivity|].
      cbn [fst snd g_ones g_ferr]. split; [|cbn; split; [reflexivity|split; lia]].
      unfold sim; cbn [g_p g_cur g_ones g_ferr set_r_bit r_ferr r_ones r_bit_pos r_prog].
      split; [exact Hh|split; [split; lia|split; [lia|split; [lia|]]]]. rewrite app_length; cbn [length].
      split; [lia|split; [lia|]]. rewrite Hg. pose proof (shift_in l b L) as E. rewrite app_length in E; cbn [length] in E. exact E.
    + destruct (Z.leb_spec (Z.of_nat (length l) + 1) 8); [lia|].
      assert (L8 : length l = 8%nat) by lia. rewrite L8 in Hg. change (8 - Z.of_nat 8) with 0 in Hg. rewrite Z.mul_1_r in Hg.
      assert (Bl : byte (of_bits_lsb l)).
      { pose proof (of_bits_lsb_range l) as R. rewrite L8 in R. change (2 ^ Z.of_nat 8) with 256 in R. exact R. }
      destruct b.
      * assert (X : exists s1, (if r_len s <? 256 then if r_std s =? JCLIP then jclip_octet s else other_octet s else Ok (s, []))
                     = Ok (s1, snd (gath (r_std s) p (of_bits_lsb l))) /\ has s1 (fst (gath (r_std s) p (of_bits_lsb l))) /\ same_regs s s1).
        { unfold gath. pose proof Hh as (_ & H2 & _ & H4 & _).
          destruct (Nat.ltb_spec (length p) 256).
          - destruct (Z.ltb_spec (r_len s) 256); [|lia]. destruct (r_std s =? JCLIP).
            + apply jclip_octet_ok; auto.
            + apply other_octet_ok; auto.
          - destruct (Z.ltb_spec (r_len s) 256); [lia|]. exists s. cbn [fst snd]. split; [reflexivity|]. split; [exact Hh|repeat split]. }
        destruct X as (s1 & E & Hh1 & R1 & R2 & R3 & R4 & R5). cbn [Z.eqb]. rewrite E. cbn [rbind].
        destruct (gath (r_std s) p (of_bits_lsb l)) as [p1 e1]. cbn [fst snd] in *. eexists; split; [reflexivity|].
        cbn [set_r_bit r_std r_ferr g_ones g_ferr]. split; [|split; [exact R1|split; lia]].
        unfold sim; cbn [g_p g_cur g_ones g_ferr set_r_bit r_ferr r_ones r_bit_pos r_prog].
        split; [exact Hh1|]. repeat split; lia.
      * cbn [Z.eqb]. unfold iadd.
        destruct (Z.leb_spec (-2147483648) (r_ferr s + 1)); [|lia]. destruct (Z.leb_spec (r_ferr s + 1) 2147483647); [|lia].
        cbn [andb rbind]. eexists; split; [reflexivity|]. cbn [fst snd g_ones g_ferr set_r_bit set_r_ferr r_std r_ferr].
        split; [|split; [reflexivity|split; lia]].
        unfold sim; cbn [g_p g_cur g_ones g_ferr set_r_bit set_r_ferr r_ferr r_ones r_bit_pos r_prog].
        split; [exact Hh|]. repeat split; lia.
  - destruct Hc as (Hp & Hg). rewrite Hp. cbn [Z.eqb]. destruct b.
    + cbn [Z.eqb]. unfold iadd.
      destruct (Z.leb_spec (-2147483648) (r_ones s + 1)); [|lia]. destruct (Z.leb_spec (r_ones s + 1) 2147483647); [|lia].
      cbn [andb rbind]. eexists; split; [reflexivity|]. cbn [fst snd g_ones g_ferr set_r_bit r_std r_ferr].
      split; [|split; [reflexivity|split; lia]].
      unfold sim; cbn [g_p g_cur g_ones g_ferr set_r_bit r_ferr r_ones r_bit_pos r_prog]. split; [exact Hh|]. repeat split; lia.
    + cbn [Z.eqb]. eexists; split; [reflexivity|]. rewrite Ho. destruct (Z.ltb_spec 10 o); cbn [fst snd g_ones g_ferr].
      * cbn [set_r_msg set_r_bit r_std r_ferr]. split; [|split; [reflexivity|split; lia]].
        unfold sim; cbn [g_p g_cur g_ones g_ferr set_r_msg set_r_bit r_ferr r_ones r_bit_pos r_prog].
        split; [apply has_nil; [apply Hh|reflexivity]|]. cbn [length of_bits_lsb]. rewrite Hg. repeat split; cbn; lia.
      * cbn [set_r_bit r_std r_ferr]. split; [|split; [reflexivity|split; lia]].
        unfold sim; cbn [g_p g_cur g_ones g_ferr set_r_bit r_ferr r_ones r_bit_pos r_prog].
        split; [exact Hh|]. cbn [length of_bits_lsb]. rewrite Hg. repeat split; cbn; lia.
Qed.

Lemma feed_ok l : forall s a, sim s a -> g_ones a + Z.of_nat (length l) < 2 ^ 31 -> g_ferr a + Z.of_nat (length l) < 2 ^ 31 ->
  exists s', feed adsi_rx_put_bit s (map Z.b2z l) = Ok (s', snd (steps (r_std s) a l)) /\ sim s' (fst (steps (r_std s) a l)) /\
             r_std s' = r_std s /\ g_ferr (fst (steps (r_std s) a l)) <= g_ferr a + Z.of_nat (length l) /\
             g_ones (fst (steps (r_std s) a l)) <= g_ones a + Z.of_nat (length l).
Proof.
  induction l as [|b l IH]; intros s a H H1 H2; cbn [map feed steps].
  - exists s. cbn. split; [reflexivity|]. split; [exact H|]. repeat split; lia.
  - cbn [length] in *. destruct (put_bit_ok s a b H) as (s1 & E1 & S1 & K1 & K2 & K3); [lia|lia|].
    rewrite E1. cbn [rbind]. destruct (step (r_std s) a b) as [a1 e1]. cbn [fst snd] in *.
    destruct (IH s1 a1 S1) as (s2 & E2 & S2 & L1 & L2 & L3); [lia|lia|]. rewrite E2. cbn [rbind].
    rewrite K1 in *. destruct (steps (r_std s) a1 l) as [a2 e2]. cbn [fst snd] in *.
    exists s2. split; [reflexivity|]. split; [exact S2|]. split; [congruence|]. split; lia.
Qed.
