(** Whatever the ADSI receiver delivers was on the line. *)
From Verif Require Import Base Crc_spec Crc_model Crc_proofs Adsi_model Adsi_spec Adsi_rx_proofs.
From Coq Require Import ZifyBool ZifyNat.

(** Bits and line status reports. *)
Definition zstep (std : Z) (a : st) (z : Z) : st * list (list Z) :=
  if z <? 0 then (if z =? CARRIER_UP then mkSt [] None 0 (g_ferr a) else a, []) else step std a (Z.odd z).
Fixpoint zsteps (std : Z) (a : st) (l : list Z) : st * list (list Z) :=
  match l with
  | [] => (a, [])
  | b :: t => let (a, e) := zstep std a b in let (a, e') := zsteps std a t in (a, e ++ e')
  end.

Lemma put_bit_odd s z : 0 <= z -> adsi_rx_put_bit s z = adsi_rx_put_bit s (Z.b2z (Z.odd z)).
Proof.
  intros H. unfold adsi_rx_put_bit. destruct (Z.ltb_spec z 0); [lia|].
  assert ((Z.b2z (Z.odd z) <? 0) = false) as -> by (destruct (Z.odd z); reflexivity).
  assert (Z.land z 1 = Z.land (Z.b2z (Z.odd z)) 1) as ->; [|reflexivity].
  change 1 with (Z.ones 1). rewrite !Z.land_ones by lia. change (2 ^ 1) with 2. rewrite Zmod_odd. destruct (Z.odd z); reflexivity.
Qed.

Lemma zput_ok s a z : sim s a -> g_ones a < 2 ^ 31 - 1 -> g_ferr a < 2 ^ 31 - 1 ->
  exists s', adsi_rx_put_bit s z = Ok (s', snd (zstep (r_std s) a z)) /\ sim s' (fst (zstep (r_std s) a z)) /\
             r_std s' = r_std s /\ g_ferr (fst (zstep (r_std s) a z)) <= g_ferr a + 1 /\ g_ones (fst (zstep (r_std s) a z)) <= g_ones a + 1.
Proof.
  intros H H1 H2. unfold zstep. destruct (Z.ltb_spec z 0).
  - unfold adsi_rx_put_bit. destruct (Z.ltb_spec z 0); [|lia]. destruct (Z.eqb_spec z CARRIER_UP); cbn [fst snd].
    + eexists; split; [reflexivity|]. cbn [set_r_msg set_r_bit r_std r_ferr g_ones g_ferr]. destruct H as (Hh & (Hf & Hf') & Ho & Ho' & Hc).
      split; [|repeat split; lia].
      unfold sim; cbn [g_p g_cur g_ones g_ferr set_r_msg set_r_bit r_ferr r_ones r_bit_pos r_prog].
      split; [apply has_nil; [apply Hh|reflexivity]|repeat split; lia].
    + exists s. split; [reflexivity|]. split; [exact H|]. repeat split; lia.
  - rewrite put_bit_odd by lia. apply put_bit_ok; auto.
Qed.

Lemma zfeed_ok l : forall s a, sim s a -> g_ones a + Z.of_nat (length l) < 2 ^ 31 -> g_ferr a + Z.of_nat (length l) < 2 ^ 31 ->
  exists s', feed adsi_rx_put_bit s l = Ok (s', snd (zsteps (r_std s) a l)) /\ sim s' (fst (zsteps (r_std s) a l)).
Proof.
  induction l as [|b l IH]; intros s a H H1 H2; cbn [feed zsteps].
  - exists s. cbn. auto.
  - cbn [length] in *. destruct (zput_ok s a b H) as (s1 & E1 & S1 & K1 & K2 & K3); [lia|lia|].
    rewrite E1. cbn [rbind]. destruct (zstep (r_std s) a b) as [a1 e1]. cbn [fst snd] in *.
    destruct (IH s1 a1 S1) as (s2 & E2 & S2); [lia|lia|]. rewrite E2. cbn [rbind].
    rewrite K1 in *. destruct (zsteps (r_std s) a1 l) as [a2 e2]. cbn [fst snd] in *. exists s2. auto.
Qed.


Definition inv (l : list bool) (a : st) : Prop :=
  match g_cur a with
  | None => exists pre mid, l = pre ++ mid /\ ((length (g_p a) < 256)%nat -> carries mid (g_p a))
  | Some d => (length d <= 8)%nat /\ exists pre mid, l = pre ++ mid ++ false :: d /\ ((length (g_p a) < 256)%nat -> carries mid (g_p a))
  end.

Lemma inv_nil l o f : inv l (mkSt [] None o f).
Proof. exists l, []. cbn. rewrite app_nil_r. split; [reflexivity|]. intros; constructor. Qed.

Lemma gather_proper p b : byte b -> forall m, In m (snd (gather p b)) -> summed p b /\ m = p.
Proof.
  intros Hb m. unfold gather. rewrite app_length; cbn [length]. rewrite removelast_last.
  destruct (Z.leb_spec 3 (Z.of_nat (length p + 1))); cbn [andb]; [|cbn; tauto].
  destruct (Z.eqb_spec (Z.of_nat (length p + 1)) (nth 1 (p ++ [b]) 0 + 3)); cbn [snd]; [|cbn; tauto].
  destruct (Z.eqb_spec ((- total p) mod 256) b); cbn; [|tauto]. intros [<-|[]]. split; [|reflexivity].
  rewrite app_nth1 in e by lia. split; [lia|]. unfold byte in Hb.
  Z.div_mod_to_equations; lia.
Qed.
Lemma gather_p p b : fst (gather p b) = [] \/ fst (gather p b) = p ++ [b].
Proof. unfold gather. destruct (_ && _); cbn; auto. Qed.
Lemma jgather_p p b : fst (jgather p b) = [] \/ fst (jgather p b) = p ++ [b].
Proof. unfold jgather. destruct (_ && negb _); cbn; auto. destruct (_ && _); cbn; auto. Qed.
Lemma nth_app_l (p q : list Z) i : (i < length p)%nat -> nth i (p ++ q) 0 = nth i p 0.
Proof. intros; apply app_nth1; auto. Qed.
Lemma nth_strip l i : (i < length l)%nat -> nth i (strip l) 0 = nth i l 0 mod 128.
Proof. intros _. unfold strip. exact (map_nth (fun b => b mod 128) l 0 i). Qed.
(** In a J-CLIP gathering the first octet is 0x90. *)
Definition first90 (p : list Z) : Prop := p = [] \/ nth 0 p 0 = 0x90.
Lemma jgather_proper p b : first90 p -> (length p < 256)%nat -> first90 (fst (jgather p b)) /\
  forall m, In m (snd (jgather p b)) -> jclip_sent (p ++ [b]) m.
Proof.
  intros Hp Lp. unfold jgather. destruct ((length p =? 0)%nat && negb (b =? 0x90)) eqn:E; cbn [fst snd].
  { split; [left; reflexivity|]. cbn; tauto. }
  assert (F : nth 0 (p ++ [b]) 0 = 0x90).
  { destruct Hp as [-> | Hp].
    - cbn in *. apply negb_false_iff in E. lia.
    - destruct p; cbn in *; [discriminate|exact Hp]. }
  set (q := p ++ [b]) in *.
  destruct (Z.leb_spec 11 (Z.of_nat (length q))); cbn [andb].
  2: { cbn [fst snd]. split; [right; exact F|cbn; tauto]. }
  destruct (Z.eqb_spec (Z.of_nat (length q)) (nth 6 q 0 mod 128 + 11)); cbn [fst snd].
  2: { split; [right; exact F|cbn; tauto]. }
  split; [left; reflexivity|]. intros m. destruct (Z.eqb_spec (crc16 (skipn 2 q) 0) 0); cbn; [|tauto].
  intros [<-|[]]. exists (firstn (length q - 2) q), (skipn (length q - 2) q).
  split; [symmetry; apply firstn_skipn|]. split; [rewrite skipn_length; lia|]. split; [reflexivity|]. split; [exact F|].
  assert (Ls : length (strip (firstn (length q - 2) q)) = (length q - 2)%nat) by (unfold strip; rewrite map_length, firstn_length; lia).
  rewrite Ls. rewrite nth_strip by (rewrite firstn_length; lia). rewrite nth_firstn_lt by lia. split; [lia|exact e0].
Qed.

Definition good90 (std : Z) (p : list Z) : Prop := std =? JCLIP = true -> first90 p.

Lemma step_inv std l a b : inv l a -> good90 std (g_p a) ->
  inv (l ++ [b]) (fst (step std a b)) /\ good90 std (g_p (fst (step std a b))) /\
  forall m, In m (snd (step std a b)) -> exists pre mid f, l ++ [b] = pre ++ mid /\ carries mid f /\ proper std f m.
Proof.
  intros Hi Hg. destruct a as [p cur o fe]. unfold step, inv in *. cbn [g_p g_cur g_ones g_ferr] in *. destruct cur as [d|].
  - destruct Hi as (Ld & pre & mid & -> & Hc). destruct (Nat.ltb_spec (length d) 8).
    + cbn [fst snd g_cur g_p]. split; [|split; [exact Hg|cbn; tauto]]. split; [rewrite app_length; cbn; lia|].
      exists pre, mid. split; [rewrite <- !app_assoc; reflexivity|exact Hc].
    + assert (L8 : length d = 8%nat) by lia.
      assert (D : d = bits_lsb 8 (of_bits_lsb d)) by (rewrite <- L8 at 1; rewrite bits_lsb_of_bits; reflexivity).
      assert (Bd : byte (of_bits_lsb d)).
      { pose proof (of_bits_lsb_range d) as R. rewrite L8 in R. exact R. }
      destruct b.
      * assert (C1 : (length p < 256)%nat -> carries (mid ++ false :: d ++ [true]) (p ++ [of_bits_lsb d])).
        { intros Lp. rewrite D at 1. apply carries_char; auto. }
        assert (W : (pre ++ mid ++ false :: d) ++ [true] = pre ++ (mid ++ false :: d ++ [true])) by (rewrite <- !app_assoc; reflexivity).
        unfold gath. destruct (Nat.ltb_spec (length p) 256) as [Lp|Lp].
        -- destruct (std =? JCLIP) eqn:Es.
           ++ destruct (jgather_proper p (of_bits_lsb d) (Hg Es) Lp) as [G1 G2].
              pose proof (jgather_p p (of_bits_lsb d)) as P.
              destruct (jgather p (of_bits_lsb d)) as [p1 e1]; cbn [fst snd] in *. cbn [g_cur g_p].
              split; [|split].
              ** destruct P as [-> | ->].
                 --- eexists _, []. rewrite app_nil_r. split; [reflexivity|]. intros; constructor.
                 --- exists pre, (mid ++ false :: d ++ [true]). split; [exact W|]. intros; auto.
              ** intros _; exact G1.
              ** intros m Hm. exists pre, (mid ++ false :: d ++ [true]), (p ++ [of_bits_lsb d]).
                 split; [exact W|]. split; [auto|]. unfold proper. rewrite Es. auto.
           ++ pose proof (gather_proper p (of_bits_lsb d) Bd) as G2. pose proof (gather_p p (of_bits_lsb d)) as P.
              destruct (gather p (of_bits_lsb d)) as [p1 e1]; cbn [fst snd] in *. cbn [g_cur g_p].
              split; [|split].
              ** destruct P as [-> | ->].
                 --- eexists _, []. rewrite app_nil_r. split; [reflexivity|]. intros; constructor.
                 --- exists pre, (mid ++ false :: d ++ [true]). split; [exact W|]. intros; auto.
              ** intros E; congruence.
              ** intros m Hm. exists pre, (mid ++ false :: d ++ [true]), (p ++ [of_bits_lsb d]).
                 split; [exact W|]. split; [auto|]. unfold proper. rewrite Es.
                 destruct (G2 m Hm) as [S ->]. eauto.
        -- cbn [fst snd g_cur g_p]. split; [|split; [exact Hg|cbn; tauto]].
           exists pre, (mid ++ false :: d ++ [true]). split; [exact W|]. intros; lia.
      * cbn [fst snd g_cur g_p]. split; [|split; [exact Hg|cbn; tauto]].
        exists pre, (mid ++ false :: d ++ [false]). split; [rewrite <- !app_assoc; reflexivity|].
        intros Lp. rewrite D. apply carries_bad; auto.
  - destruct Hi as (pre & mid & -> & Hc). destruct b; cbn [fst snd g_cur g_p].
    + split; [|split; [exact Hg|cbn; tauto]]. exists pre, (mid ++ [true]). split; [rewrite app_assoc; reflexivity|].
      intros; apply carries_one; auto.
    + split; [|split; [|cbn; tauto]].
      * split; [cbn; lia|]. destruct (10 <? o).
        -- exists (pre ++ mid), []. split; [rewrite <- !app_assoc; reflexivity|]. intros; constructor.
        -- exists pre, mid. split; [rewrite <- !app_assoc; reflexivity|auto].
      * destruct (10 <? o); [intros _; left; reflexivity|exact Hg].
Qed.

Lemma zsteps_line std l2 : forall l1 a, inv (zbits l1) a -> good90 std (g_p a) ->
  forall m, In m (snd (zsteps std a l2)) -> exists pre mid post f, zbits (l1 ++ l2) = pre ++ mid ++ post /\ carries mid f /\ proper std f m.
Proof.
  induction l2 as [|z l2 IH]; intros l1 a Hi Hg m; cbn [zsteps]; [cbn; tauto|].
  assert (A1 : l1 ++ z :: l2 = (l1 ++ [z]) ++ l2) by (rewrite <- app_assoc; reflexivity).
  assert (A2 : zbits (l1 ++ [z]) = zbits l1 ++ (if 0 <=? z then [Z.odd z] else [])).
  { unfold zbits. rewrite filter_app, map_app. cbn. destruct (0 <=? z); reflexivity. }
  assert (A3 : zbits (l1 ++ z :: l2) = zbits (l1 ++ [z]) ++ zbits l2).
  { rewrite A1. unfold zbits. rewrite filter_app, map_app. reflexivity. }
  destruct (zstep std a z) as [a1 e1] eqn:E1. destruct (zsteps std a1 l2) as [a2 e2] eqn:E2. cbn [snd].
  assert (X : inv (zbits (l1 ++ [z])) a1 /\ good90 std (g_p a1) /\
     forall m, In m e1 -> exists pre mid f, zbits (l1 ++ [z]) = pre ++ mid /\ carries mid f /\ proper std f m).
  { unfold zstep in E1. destruct (Z.ltb_spec z 0).
    - destruct (Z.leb_spec 0 z); [lia|]. rewrite app_nil_r in A2. rewrite A2.
      destruct (z =? CARRIER_UP); inversion E1; subst; cbn.
      + split; [exact (inv_nil _ 0 0)|]. split; [intros _; left; reflexivity|tauto].
      + split; [exact Hi|split; [exact Hg|tauto]].
    - destruct (Z.leb_spec 0 z); [|lia]. rewrite A2. pose proof (step_inv std (zbits l1) a (Z.odd z) Hi Hg) as S.
      rewrite E1 in S. exact S. }
  destruct X as (X1 & X2 & X3). rewrite in_app_iff. intros [Hm|Hm].
  - destruct (X3 m Hm) as (pre & mid & f & W & C & P). exists pre, mid, (zbits l2), f.
    rewrite A3, W, <- app_assoc. auto.
  - pose proof (IH (l1 ++ [z]) a1 X1 X2 m) as R. rewrite E2 in R. rewrite A1. apply R. exact Hm.
Qed.

Lemma sim_rest s : at_rest s -> 0 <= r_ferr s -> sim s (mkSt [] None (r_ones s) (r_ferr s)).
Proof.
  intros (H1 & H2 & H3 & H4 & H5) H6. unfold sim; cbn [g_p g_cur g_ones g_ferr].
  split; [apply has_nil; auto|]. repeat split; lia.
Qed.

(** Safe on any input, and everything delivered was on the line. *)
Lemma rx_line s l : at_rest s -> 0 <= r_ferr s -> r_ferr s + Z.of_nat (length l) < 2 ^ 31 -> Z.of_nat (length l) < 2 ^ 30 ->
  exists s' ev, feed adsi_rx_put_bit s l = Ok (s', ev) /\
  forall m, In m ev -> exists pre mid post f, zbits l = pre ++ mid ++ post /\ carries mid f /\ proper (r_std s) f m.
Proof.
  intros Hr Hf H1 H2. pose proof (sim_rest s Hr Hf) as S. destruct Hr as (_ & _ & _ & _ & R).
  destruct (zfeed_ok l s _ S) as (s' & E & _); [cbn [g_ones]; lia|cbn [g_ferr]; lia|].
  exists s', (snd (zsteps (r_std s) (mkSt [] None (r_ones s) (r_ferr s)) l)). split; [exact E|].
  intros m Hm. apply (zsteps_line (r_std s) l [] (mkSt [] None (r_ones s) (r_ferr s)) (inv_nil [] _ _)); auto.
  intros _; left; reflexivity.
Qed.
