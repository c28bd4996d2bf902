(** The V.42bis decompressor: what it does, apart from buffering, and why it stays within
    its arrays. *)
From Verif Require Import Base Bits V42bis_model V42bis_dict_proofs V42bis_core_proofs V42bis_out_proofs.
From Coq Require Import ZifyBool ZifyNat.
Ltac Zify.zify_post_hook ::= Z.div_mod_to_equations.

Definition kcore (s : comp) : core := mkC (k_dic s) (k_upd_at s) (k_lm s) (k_la s) (k_slen s + k_flen s).
Definition put (s : comp) (K : core) : comp := set_upd_at (set_la (set_dic s (c_d K)) (c_a K)) (c_u K).
Ltac ksimpl :=
  cbn [k_p0 k_mode k_trans k_c2 k_c3 k_upd_at k_lm k_la k_n7 k_dic k_str k_slen k_flen k_perf k_bb k_bc k_out k_esc k_escd
       set_p0 set_mode set_trans set_c2 set_c3 set_upd_at set_lm set_la set_n7 set_dic set_str set_slen set_flen set_perf
       set_bb set_bc set_out set_esc set_escd c_d c_u c_l c_a c_n] in *.

Lemma update_eq s x : update_dictionary s x = do K <- cupdate (kcore s) x; Ok (put s K).
Proof.
  unfold update_dictionary, cupdate, kcore, put. ksimpl. destruct (Z.eqb_spec (k_upd_at s) 0) as [E|N]; cbn [negb rbind].
  - ksimpl. destruct s; reflexivity.
  - destruct (match_octet _ _ _) as [m|]; [|reflexivity]. cbn [rbind]. destruct (m =? 0); cbn [rbind]; [|destruct s; reflexivity].
    destruct (add_octet _ _ _) as [[d y]|]; [|reflexivity]. cbn [rbind]. ksimpl. destruct s; reflexivity.
Qed.

(** ---- the abstract decompressor ---- *)
Record ad := mkA { a_core : core; a_trans : bool; a_escd : bool; a_esc : Z; a_c2 : Z; a_out : list Z }.

(** The string of a codeword. *)
Fixpoint word_of (fuel : nat) (l : list node) (p : Z) : res (list Z) :=
  if p =? 0 then Ok []
  else match fuel with
       | O => UB
       | S k => do n <- nget l p; do w <- word_of k l (n_parent n); Ok (w ++ [n_octet n])
       end.

Definition a_follow (n7 : Z) (A : ad) (x : Z) : res ad :=
  do K <- cstep n7 (a_core A) x;
  Ok (mkA K (a_trans A) (a_escd A) (a_esc A) (a_c2 A) (a_out A ++ [x])).
(** An octet in transparent mode ([UB] when decompression gives up). *)
Definition a_octet (n7 : Z) (A : ad) (x : Z) : res ad :=
  let K := a_core A in
  if a_escd A then
    if x =? ECM then Ok (mkA (mkC (c_d K) (c_l K) 0 (c_a K) 0) false false (a_esc A) (a_c2 A) (a_out A))
    else if x =? EID then
      a_follow n7 (mkA K (a_trans A) false (u8 (a_esc A + ESC_STEP)) (a_c2 A) (a_out A)) (a_esc A)
    else if x =? RESET then
      Ok (mkA (mkC (mkDict init_nodes N5 (d_n2 (c_d K))) 0 0 0 0) true false 0 (N3 + 1) (a_out A))
    else UB
  else if x =? a_esc A then Ok (mkA K (a_trans A) true (a_esc A) (a_c2 A) (a_out A))
  else a_follow n7 A x.
(** A codeword in compressed mode. *)
Definition a_code (n7 : Z) (A : ad) (code : Z) : res ad :=
  let K := a_core A in
  if code <? N6 then
    if code =? ETM then Ok (mkA (mkC (c_d K) (c_u K) 0 0 (c_n K)) true (a_escd A) (a_esc A) (a_c2 A) (a_out A))
    else if code =? FLUSH then Ok A
    else if Z.shiftr (d_n2 (c_d K)) 3 <? a_c2 A + 1 then UB
    else Ok (mkA K (a_trans A) (a_escd A) (a_esc A) (a_c2 A + 1) (a_out A))
  else if code =? d_c1 (c_d K) then UB
  else
    do w <- word_of walk_fuel (d_nodes (c_d K)) code;
    do (d, a) <-
      (if c_u K =? 0 then Ok (c_d K, c_a K)
       else
         do m <- match_octet (c_d K) (c_u K) (hd 0 w);
         if m =? 0 then
           do (d, y) <- add_octet (c_d K) (c_u K) (hd 0 w);
           if code =? d_c1 d then UB else Ok (d, y)
         else Ok (c_d K, if m =? c_a K then 0 else c_a K));
    Ok (mkA (mkC d (if Z.of_nat (length w) =? n7 then 0 else code) 0 a 0) (a_trans A) (a_escd A)
            (skip_escapes w (a_esc A)) (a_c2 A) (a_out A ++ w)).

Definition deliv (s : comp) : list Z := ostream (k_out s) ++ firstn (Z.to_nat (k_slen s)) (k_str s).
Definition abs (s : comp) : ad := mkA (kcore s) (k_trans s) (k_escd s) (k_esc s) (k_c2 s) (deliv s).

(** The invariant of the decompressor. *)
Record DI (n7 : Z) (s : comp) : Prop := {
  di_n7 : k_n7 s = n7;
  di_ci : CI n7 (kcore s);
  di_out : OB (k_out s);
  di_str : length (k_str s) = Z.to_nat 250;
  di_slen : 0 <= k_slen s;
  di_flen : 0 <= k_flen s;
  di_c2 : 9 <= k_c2 s;
  di_esc : byte (k_esc s);
  di_mode : if k_trans s then k_bc s = 0 else k_lm s = 0 /\ 0 <= k_bc s < k_c2 s /\ k_escd s = false
}.
Lemma di_zlen n7 s : DI n7 s -> Z.of_nat (length (k_str s)) = 250.
Proof. intros H. rewrite (di_str _ _ H). apply Z2Nat.id. lia. Qed.
Lemma di_total n7 s : DI n7 s -> k_slen s + k_flen s < n7.
Proof.
  intros H. destruct (ci_l _ _ (di_ci _ _ H)) as [(_ & E)|(_ & _ & L & _)]; [|exact L].
  pose proof (ci_n7 _ _ (di_ci _ _ H)). unfold kcore in E. ksimpl. lia.
Qed.
Lemma di_zero n7 s : DI n7 s -> k_lm s = 0 -> k_slen s = 0 /\ k_flen s = 0.
Proof.
  intros H E. pose proof (di_slen _ _ H). pose proof (di_flen _ _ H).
  destruct (ci_l _ _ (di_ci _ _ H)) as [(_ & E2)|(R & _)]; unfold kcore in *; ksimpl; lia.
Qed.

Lemma aslice_prefix l n : 0 <= n <= Z.of_nat (length l) -> aslice l 0 n = Ok (firstn (Z.to_nat n) l).
Proof.
  intros H. unfold aslice. destruct (Z.leb_spec n 0) as [L|L].
  - replace n with 0 by lia. reflexivity.
  - replace ((0 <=? 0) && (0 + n <=? Z.of_nat (length l))) with true by lia. reflexivity.
Qed.
Lemma send_string_ok s : OB (k_out s) -> 0 <= k_slen s <= Z.of_nat (length (k_str s)) ->
  exists o', send_string s = Ok (set_flen (set_slen (set_out s o') 0) 0) /\ OB o' /\ o_max o' = o_max (k_out s) /\
    ostream o' = ostream (k_out s) ++ firstn (Z.to_nat (k_slen s)) (k_str s).
Proof.
  intros B L. unfold send_string. rewrite aslice_prefix by auto. cbn [rbind].
  destruct (push_octets_ok (k_out s) (firstn (Z.to_nat (k_slen s)) (k_str s)) B) as (o' & -> & B' & M' & S').
  cbn [rbind]. eauto.
Qed.
Lemma aset_ok l i x : 0 <= i < Z.of_nat (length l) -> aset l i x = Ok (upd l (Z.to_nat i) x).
Proof. intros H. unfold aset, in_bounds. replace ((0 <=? i) && (i <? Z.of_nat (length l))) with true by lia. reflexivity. Qed.

(** Fields which an octet in transparent mode leaves alone. *)
Definition keeps (s s' : comp) : Prop :=
  k_p0 s' = k_p0 s /\ k_bb s' = k_bb s /\ k_bc s' = k_bc s /\ o_max (k_out s') = o_max (k_out s) /\ k_n7 s' = k_n7 s.

Lemma put_kcore s K : c_l K = k_lm s -> c_n K = k_slen s + k_flen s -> kcore (put s K) = K.
Proof. intros L N. unfold kcore, put. ksimpl. rewrite <- L, <- N. destruct K; reflexivity. Qed.

Lemma follow_ok n7 s x : DI n7 s -> k_trans s = true -> byte x ->
  exists s' K t, follow_octet s x = Ok (s', t) /\ ctry n7 (kcore s) x = Ok (K, t) /\ DI n7 s' /\ keeps s s' /\
    abs s' = mkA K true (k_escd s) (k_esc s) (k_c2 s) (deliv s ++ if t then [x] else []).
Proof.
  intros D TR B. pose proof (di_ci _ _ D) as C. pose proof (di_total _ _ D) as TOT.
  pose proof (di_slen _ _ D) as SL. pose proof (di_flen _ _ D) as FL. pose proof (ci_n7 _ _ C) as N7.
  pose proof (di_zlen _ _ D) as ZL. pose proof (di_mode _ _ D) as DM. rewrite TR in DM.
  destruct (cupdate_ok n7 (kcore s) x C B) as (K1 & E1 & C1 & U1 & L1 & M1 & _).
  change (c_l (kcore s)) with (k_lm s) in L1. change (c_n (kcore s)) with (k_slen s + k_flen s) in M1.
  destruct (ctry0_ok n7 K1 x C1 B U1) as (m & K & t & EM & ET & CK & ED & H).
  assert (ET' : ctry n7 (kcore s) x = Ok (K, t)).
  { assert (E2 : cupdate K1 x = Ok K1) by (unfold cupdate; rewrite U1; reflexivity).
    revert ET. unfold ctry. rewrite E1, E2. auto. }
  unfold follow_octet. rewrite update_eq, E1. cbn [rbind].
  change (k_dic (put s K1)) with (c_d K1). change (k_lm (put s K1)) with (k_lm s). rewrite <- L1, EM. cbn [rbind].
  change (k_la (put s K1)) with (c_a K1).
  destruct H as [(-> & -> & EK & LN)|[(MN & MA & -> & EK & LN)|(MN & MA & -> & UK & AK & MR & MC & O & P & HN)]].
  - (* no match *)
    cbn [Z.eqb]. destruct (send_string_ok (set_upd_at (put s K1) (c_l K1))) as (o' & -> & B' & M' & S'); [apply D|unfold put; ksimpl; lia|].
    unfold put in *. ksimpl. cbn [rbind]. eexists _, K, false. split; [reflexivity|]. split; [exact ET'|].
    assert (EC : kcore (set_lm (set_flen (set_slen (set_out (set_upd_at (put s K1) (c_l K1)) o') 0) 0) 0) = K)
      by (rewrite EK; unfold kcore, put; ksimpl; reflexivity).
    split; [|split].
    + constructor; unfold put; ksimpl; try apply D; auto; try lia.
      * unfold put in EC. ksimpl. rewrite EC. exact CK.
      * rewrite TR. exact DM.
    + unfold keeps, put. ksimpl. auto.
    + unfold abs, put in *. ksimpl. rewrite EC, TR. f_equal. unfold deliv, put. ksimpl. rewrite S'. cbn [Z.to_nat firstn].
      rewrite !app_nil_r. reflexivity.
  - (* the entry just added *)
    destruct (Z.eqb_spec m 0) as [|_]; [congruence|]. destruct (Z.eqb_spec m (c_a K1)) as [_|]; [|congruence].
    destruct (send_string_ok (set_la (put s K1) 0)) as (o' & -> & B' & M' & S'); [apply D|unfold put; ksimpl; lia|].
    cbn [rbind]. eexists _, K, false. split; [reflexivity|]. split; [exact ET'|].
    assert (EC : kcore (set_lm (set_flen (set_slen (set_out (set_la (put s K1) 0) o') 0) 0) 0) = K)
      by (rewrite EK; unfold kcore, put; ksimpl; rewrite U1; reflexivity).
    split; [|split].
    + constructor; unfold put; ksimpl; try apply D; auto; try lia.
      * unfold put in EC. ksimpl. rewrite EC. exact CK.
      * rewrite TR. exact DM.
    + unfold keeps, put in *. ksimpl. auto.
    + unfold abs. rewrite EC. unfold put. ksimpl. rewrite TR. f_equal. unfold deliv, put in *. ksimpl. rewrite S'. cbn [Z.to_nat firstn].
      rewrite !app_nil_r. reflexivity.
  - (* taken *)
    destruct (Z.eqb_spec m 0) as [|_]; [congruence|]. destruct (Z.eqb_spec m (c_a K1)) as [|_]; [congruence|].
    unfold put at 1 2. ksimpl. rewrite aset_ok by lia. cbn [rbind]. unfold put. ksimpl.
    assert (EF : firstn (Z.to_nat (k_slen s + 1)) (upd (k_str s) (Z.to_nat (k_slen s)) x) = firstn (Z.to_nat (k_slen s)) (k_str s) ++ [x]).
    { replace (Z.to_nat (k_slen s + 1)) with (S (Z.to_nat (k_slen s))) by lia. apply firstn_upd_next. lia. }
    rewrite (di_n7 _ _ D). destruct (Z.eqb_spec (k_slen s + 1 + k_flen s) n7) as [E7|E7].
    + destruct HN as [(_ & LK & NK)|(LT & _)]; [|lia].
      match goal with |- context [send_string ?s1] => destruct (send_string_ok s1) as (o' & -> & B' & M' & S') end;
        [ksimpl; apply D|ksimpl; rewrite upd_length; lia|].
      ksimpl. cbn [rbind]. eexists _, K, true. split; [reflexivity|]. split; [exact ET'|].
      assert (EC : mkC (c_d K1) (c_u K1) 0 (c_a K1) (0 + 0) = K).
      { destruct K as [kd ku kl ka kn]; ksimpl. subst. rewrite U1. reflexivity. }
      split; [|split].
      * constructor; ksimpl; try apply D; auto; try lia.
        -- unfold kcore. ksimpl. rewrite EC. exact CK.
        -- rewrite upd_length. apply D.
        -- rewrite TR. exact DM.
      * unfold keeps. ksimpl. auto.
      * unfold abs, kcore, deliv. ksimpl. rewrite EC, TR. f_equal. rewrite S', EF. cbn [Z.to_nat firstn].
        rewrite app_nil_r, app_assoc. reflexivity.
    + destruct HN as [(E & _)|(LT & LK & NK)]; [lia|].
      eexists _, K, true. split; [reflexivity|]. split; [exact ET'|].
      assert (EC : mkC (c_d K1) (c_u K1) m (c_a K1) (k_slen s + 1 + k_flen s) = K).
      { destruct K as [kd ku kl ka kn]; ksimpl. subst. rewrite U1. f_equal. lia. }
      split; [|split].
      * constructor; ksimpl; try apply D; auto; try lia.
        -- unfold kcore. ksimpl. rewrite EC. exact CK.
        -- rewrite upd_length. apply D.
        -- rewrite TR. exact DM.
      * unfold keeps. ksimpl. auto.
      * unfold abs, kcore, deliv. ksimpl. rewrite EC, TR, EF, app_assoc. reflexivity.
Qed.

Lemma follow_twice_ok n7 s x : DI n7 s -> k_trans s = true -> byte x ->
  exists s', follow_octet_twice s x = Ok (s', true) /\ a_follow n7 (abs s) x = Ok (abs s') /\ DI n7 s' /\ keeps s s'.
Proof.
  intros D TR B. unfold follow_octet_twice, a_follow, cstep. cbn [a_core a_trans a_escd a_esc a_c2 a_out abs].
  destruct (ctry_ok n7 (kcore s) x (di_ci _ _ D) B) as (K0 & t0 & EC0 & _ & _ & _ & F0).
  destruct (follow_ok n7 s x D TR B) as (s1 & K1 & t & E1 & EC1 & D1 & KP & A1).
  rewrite EC1 in EC0. injection EC0 as <- <-. rewrite E1, EC1. cbn [rbind]. destruct t.
  - exists s1. cbn [rbind]. rewrite A1, TR. auto.
  - assert (T1 : k_trans s1 = true) by (apply (f_equal a_trans) in A1; exact A1).
    assert (KC : kcore s1 = K1) by (apply (f_equal a_core) in A1; exact A1).
    destruct (follow_ok n7 s1 x D1 T1 B) as (s2 & K2 & t2 & E2 & EC2 & D2 & KP2 & A2).
    destruct (ctry_ok n7 K1 x) as (K2' & t2' & EC2' & _ & _ & _ & F); [rewrite <- KC; apply D1|auto|].
    rewrite KC in EC2. rewrite EC2 in EC2'. injection EC2' as <- <-.
    assert (t2 = true).
    { destruct t2; auto. destruct (F eq_refl) as (_ & _ & N). destruct (F0 eq_refl) as (L & _). congruence. }
    subst t2. rewrite E2, EC2. cbn [rbind]. exists s2. split; [reflexivity|]. split; [|split; auto].
    + rewrite A2, TR. apply (f_equal a_escd) in A1 as X1. apply (f_equal a_esc) in A1 as X2. apply (f_equal a_c2) in A1 as X3.
      apply (f_equal a_out) in A1 as X4. cbn in X1, X2, X3, X4. rewrite X1, X2, X3, X4, app_nil_r. reflexivity.
    + unfold keeps in *. intuition congruence.
Qed.

(** ---- codewords ---- *)
Lemma WF_parent d n7 e : WF d n7 -> nidx e -> e <> d_c1 d -> n_parent (nd (d_nodes d) e) <> 0 ->
  nidx (n_parent (nd (d_nodes d) e)) /\ n_parent (nd (d_nodes d) e) <> d_c1 d.
Proof.
  intros (R & kids & W) E NE P. destruct (wf_par _ _ _ _ _ W e E NE P) as (B & I). split; [unfold nidx; lia|].
  intros EQ. rewrite EQ, (wf_free _ _ _ _ _ W) in I by lia. destruct I.
Qed.
Lemma length_ok d n7 : WF d n7 -> forall e w, word (d_nodes d) e w -> nidx e -> e <> d_c1 d -> e <> 0 ->
  forall fuel, (length w <= fuel)%nat -> code_length fuel (d_nodes d) e = Ok (Z.of_nat (length w)) /\
    word_of fuel (d_nodes d) e = Ok w.
Proof.
  intros W e w WD. induction WD as [e P|e w P WD IH]; intros E NE N0 fuel L.
  - destruct fuel as [|fuel]; [cbn in L; lia|]. cbn [code_length word_of]. destruct (Z.eqb_spec e 0); [congruence|].
    rewrite nget_ok by (auto; eapply WF_full; eauto). cbn [rbind]. rewrite P.
    destruct fuel; cbn [code_length word_of Z.eqb rbind]; split; reflexivity.
  - rewrite app_length in L. cbn [length] in L. destruct fuel as [|fuel]; [lia|]. cbn [code_length word_of].
    destruct (Z.eqb_spec e 0); [congruence|]. rewrite nget_ok by (auto; eapply WF_full; eauto). cbn [rbind].
    destruct (WF_parent d n7 e W E NE P) as (PI & PN).
    destruct (IH PI PN P fuel ltac:(lia)) as (-> & ->). cbn [rbind]. rewrite app_length. cbn [length]. split; [f_equal; lia|reflexivity].
Qed.
Lemma fill_ok d n7 : WF d n7 -> forall e w, word (d_nodes d) e w -> nidx e -> e <> d_c1 d -> e <> 0 ->
  forall fuel str i, (length w <= fuel)%nat -> i + 1 = Z.of_nat (length w) -> i < Z.of_nat (length str) ->
  exists str', code_fill fuel (d_nodes d) str i e = Ok str' /\ length str' = length str /\
    firstn (length w) str' = w /\ skipn (length w) str' = skipn (length w) str.
Proof.
  intros W e w WD. induction WD as [e P|e w P WD IH]; intros E NE N0 fuel str i L I S.
  - cbn [length] in *. replace i with 0 in * by lia. destruct fuel as [|fuel]; [lia|]. cbn [code_fill].
    destruct (Z.eqb_spec e 0); [congruence|]. rewrite nget_ok by (auto; eapply WF_full; eauto). cbn [rbind].
    rewrite aset_ok by lia. cbn [rbind]. rewrite P.
    assert (EC : forall s, code_fill fuel (d_nodes d) s (0 - 1) 0 = Ok s) by (intros; destruct fuel; reflexivity).
    rewrite EC. destruct str as [|y str]; [cbn in S; lia|]. eexists. split; [reflexivity|].
    change (Z.to_nat 0) with 0%nat. cbn. auto.
  - rewrite app_length in *. cbn [length] in *. destruct fuel as [|fuel]; [lia|]. cbn [code_fill].
    destruct (Z.eqb_spec e 0); [congruence|]. rewrite nget_ok by (auto; eapply WF_full; eauto). cbn [rbind].
    rewrite aset_ok by lia. cbn [rbind].
    destruct (WF_parent d n7 e W E NE P) as (PI & PN).
    destruct (IH PI PN P fuel (upd str (Z.to_nat i) (n_octet (nd (d_nodes d) e))) (i - 1) ltac:(lia) ltac:(lia)) as (str' & -> & LS & FS & SS).
    { rewrite upd_length. lia. }
    exists str'. rewrite upd_length in LS. split; [reflexivity|]. split; [auto|].
    assert (EI : Z.to_nat i = length w) by lia. rewrite EI in SS.
    assert (SK : skipn (length w) (upd str (length w) (n_octet (nd (d_nodes d) e))) = n_octet (nd (d_nodes d) e) :: skipn (length w + 1) str).
    { assert (LW : (length w < length str)%nat) by lia. clear - LW. revert LW. generalize (length w) as k. intros k.
      revert k; induction str as [|y str IH]; intros [|k] H; cbn [length] in H; try lia; [reflexivity|].
      cbn [upd skipn Nat.add]. apply IH. lia. }
    rewrite SK in SS. rewrite <- (firstn_skipn (length w) str'), FS, SS. split.
    + rewrite firstn_app. replace (length w + 1 - length w)%nat with 1%nat by lia. rewrite firstn_all2 by lia. reflexivity.
    + rewrite skipn_app. rewrite skipn_all2 by lia. replace (length w + 1 - length w)%nat with 1%nat by lia. reflexivity.
Qed.

Lemma skip_escapes_byte w : forall esc, byte esc -> byte (skip_escapes w esc).
Proof.
  induction w as [|x w IH]; intros esc B; cbn [skip_escapes]; auto. apply IH. destruct (x =? esc); auto.
  unfold u8, byte. lia.
Qed.
Lemma WF_match_at d n7 a o : WF d n7 -> nidx a -> a <> 0 -> exists m, match_octet d a o = Ok m.
Proof.
  intros (_ & kids & W) A N. rewrite (match_at d n7 kids (d_c1 d) W a o A N). eauto.
Qed.

(** Fields which a codeword leaves alone. *)
Definition keeps_c (s s' : comp) : Prop :=
  k_p0 s' = k_p0 s /\ k_bb s' = k_bb s /\ o_max (k_out s') = o_max (k_out s) /\ k_n7 s' = k_n7 s.

Lemma codeword_ok n7 s code : DI n7 s -> k_trans s = false -> k_bc s < 8 -> k_c2 s <= 65534 -> 0 <= code < 4096 ->
  exists s' go, take_codeword s code = Ok (s', go) /\
    (go = true -> DI n7 s' /\ a_code n7 (abs s) code = Ok (abs s') /\ keeps_c s s' /\
                  k_bc s' = (if (code =? ETM) || (code =? FLUSH) then 0 else k_bc s) /\
                  k_c2 s' = (if code =? STEPUP then k_c2 s + 1 else k_c2 s)) /\
    (go = false -> a_code n7 (abs s) code = UB).
Proof.
  intros D TR BC C2 CR. pose proof (di_ci _ _ D) as C. pose proof (di_mode _ _ D) as DM. rewrite TR in DM.
  destruct DM as (LM & BCR & ES). destruct (di_zero _ _ D LM) as (SL & FL).
  pose proof (ci_n7 _ _ C) as N7. pose proof (di_zlen _ _ D) as ZL. pose proof (di_c2 _ _ D) as C9.
  unfold take_codeword, a_code, N6. cbn [a_core a_trans a_escd a_esc a_c2 a_out abs].
  change (c_d (kcore s)) with (k_dic s). change (c_u (kcore s)) with (k_upd_at s). change (c_a (kcore s)) with (k_la s).
  destruct (Z.ltb_spec code 3) as [CT|CT].
  - unfold ETM, FLUSH, STEPUP. destruct (Z.eqb_spec code 0) as [->|N0]; [|destruct (Z.eqb_spec code 1) as [->|N1]].
    + eexists _, true. split; [reflexivity|]. split; [|discriminate]. intros _. cbn [Z.eqb orb]. split; [|split; [|split]].
      * constructor; ksimpl; try apply D; auto; try lia. constructor; unfold kcore; ksimpl; try apply C; auto. left; lia.
      * unfold abs, kcore, deliv. ksimpl. reflexivity.
      * unfold keeps_c; ksimpl; auto.
      * ksimpl. auto.
    + eexists _, true. split; [reflexivity|]. split; [|discriminate]. intros _. cbn [Z.eqb orb]. split; [|split; [|split]].
      * constructor; ksimpl; try apply D; auto; try lia. rewrite TR. repeat split; auto; lia.
      * reflexivity.
      * unfold keeps_c; ksimpl; auto.
      * ksimpl. auto.
    + replace code with 2 in * by lia. ksimpl. unfold u16. rewrite (Z.mod_small (k_c2 s + 1)) by lia.
      eexists _, _. split; [reflexivity|].
      destruct (Z.ltb_spec (Z.shiftr (d_n2 (k_dic s)) 3) (k_c2 s + 1)); cbn [negb]; (split; [|try discriminate; auto]); try discriminate.
      intros _. cbn [Z.eqb orb]. split; [|split; [|split]].
      * constructor; ksimpl; try apply D; auto; try lia. rewrite TR. repeat split; auto; lia.
      * reflexivity.
      * unfold keeps_c; ksimpl; auto.
      * ksimpl. split; auto.
  - replace ((code =? ETM) || (code =? FLUSH)) with false by (unfold ETM, FLUSH; lia).
    replace (code =? STEPUP) with false by (unfold STEPUP; lia).
    destruct (Z.eqb_spec code (d_c1 (k_dic s))) as [E1|N1]; [eexists _, false; split; [reflexivity|]; split; [discriminate|auto]|].
    pose proof (ci_wf _ _ C) as W. change (c_d (kcore s)) with (k_dic s) in W.
    assert (CI' : nidx code) by (unfold nidx; lia).
    destruct (WF_word _ _ code W CI' N1) as (w & WD & LW).
    assert (FU : (length w <= walk_fuel)%nat) by (rewrite walk_fuel_eq; lia).
    destruct (length_ok _ _ W code w WD CI' N1 ltac:(lia) walk_fuel FU) as (EL & EW). rewrite EW. cbn [rbind].
    unfold expand_codeword. rewrite EL. cbn [rbind]. ksimpl. rewrite SL. cbn [Z.add].
    destruct (fill_ok _ _ W code w WD CI' N1 ltac:(lia) walk_fuel (k_str s) (Z.of_nat (length w) - 1) FU ltac:(lia) ltac:(lia))
      as (str' & -> & LS & FS & _). cbn [rbind]. ksimpl.
    assert (GW : exists x v, w = x :: v) by (destruct w as [|x v]; [cbn in LW; lia|eauto]).
    destruct GW as (x & v & GW).
    assert (A0 : aget str' 0 = Ok (hd 0 w)).
    { rewrite GW in FS. cbn [length firstn] in FS. destruct str' as [|y str']; [discriminate|]. injection FS as -> _.
      rewrite GW. reflexivity. }
    (* the end is the same whatever happened to the dictionary *)
    assert (FIN : forall d a, WF d n7 -> d_n2 d = d_n2 (k_dic s) -> code <> d_c1 d -> word (d_nodes d) code w ->
      (a = 0 \/ 259 <= a) ->
      exists s', (let s0 := set_upd_at (set_str (set_slen (set_la (set_dic s d) a) (Z.of_nat (length w))) str')
                      (if Z.of_nat (length w) + k_flen s =? k_n7 s then 0 else code) in
         do w0 <- aslice (k_str s0) 0 (k_slen s0);
         do s1 <- send_string (set_esc s0 (skip_escapes w0 (k_esc s0))); Ok (s1, true)) = Ok (s', true) /\
        DI n7 s' /\
        mkA (mkC d (if Z.of_nat (length w) =? n7 then 0 else code) 0 a 0) false false (skip_escapes w (k_esc s)) (k_c2 s) (deliv s ++ w) = abs s' /\
        keeps_c s s' /\ k_bc s' = k_bc s /\ k_c2 s' = k_c2 s).
    { intros d a WF' N2' NC WD' A'. ksimpl. rewrite FL, (di_n7 _ _ D), Z.add_0_r.
      rewrite aslice_prefix by lia. cbn [rbind]. rewrite Nat2Z.id, FS. ksimpl.
      match goal with |- context [send_string ?s1] => destruct (send_string_ok s1) as (o' & -> & B' & M' & S') end;
        [ksimpl; apply D|ksimpl; lia|].
      cbn [rbind]. eexists. split; [reflexivity|]. ksimpl. rewrite Nat2Z.id, FS in S'. split; [|split; [|split]].
      - constructor; ksimpl; try apply D; auto; try lia.
        + constructor; unfold kcore; ksimpl; auto.
          * destruct (Z.eqb_spec (Z.of_nat (length w)) n7); [left; auto|]. right. repeat split; auto; try lia.
            exists w. split; auto. lia.
          * left. auto.
        + apply skip_escapes_byte. apply D.
      - unfold abs, kcore, deliv. ksimpl. rewrite S', TR, ES, LM, SL. cbn [Z.to_nat firstn]. rewrite !app_nil_r. reflexivity.
      - unfold keeps_c; ksimpl; auto.
      - ksimpl. auto. }
    destruct (Z.eqb_spec (k_upd_at s) 0) as [U0|U0]; cbn [negb].
    + cbn [rbind].
      destruct (FIN (k_dic s) (k_la s) W eq_refl N1 WD (ci_a _ _ C)) as (s' & ES' & D' & A' & KP).
      eexists s', true. split; [|split; [|discriminate]].
      * rewrite <- ES'. ksimpl. destruct s; reflexivity.
      * intros _. split; auto. split; auto. rewrite TR, ES, A'. reflexivity.
    + rewrite A0. cbn [rbind]. destruct (ci_u _ _ C) as [|(UR & UN & wu & WU & LU)]; [unfold kcore in *; ksimpl; congruence|].
      change (c_u (kcore s)) with (k_upd_at s) in *. change (c_d (kcore s)) with (k_dic s) in *.
      destruct (WF_match_at (k_dic s) n7 (k_upd_at s) (hd 0 w) W) as (m & ->); [unfold nidx; lia|auto|]. cbn [rbind].
      destruct (Z.eqb_spec m 0) as [M|M].
      * destruct (add_ok (k_dic s) n7 (k_upd_at s) (hd 0 w) wu W UR UN WU LU) as (d' & -> & WF' & N2' & _ & _ & _ & WDS).
        cbn [rbind]. ksimpl. destruct (Z.eqb_spec code (d_c1 d')) as [EC|EC]; cbn [negb rbind].
        -- eexists _, false. split; [reflexivity|]. split; [discriminate|auto].
        -- destruct (FIN d' (d_c1 (k_dic s)) WF' N2' EC (WDS _ _ CI' N1 WD)) as (s' & ES' & D' & A' & KP).
           { right. destruct W as (R & _). lia. }
           eexists s', true. split; [|split; [|discriminate]].
           ++ rewrite <- ES'. ksimpl. destruct s; reflexivity.
           ++ intros _. split; auto. split; auto. rewrite TR, ES, A'. reflexivity.
      * cbn [rbind]. destruct (FIN (k_dic s) (if m =? k_la s then 0 else k_la s) W eq_refl N1 WD) as (s' & ES' & D' & A' & KP).
        { destruct (m =? k_la s); [left; auto|apply (ci_a _ _ C)]. }
        eexists s', true. split; [|split; [|discriminate]].
        -- rewrite <- ES'. destruct (m =? k_la s); cbn [rbind]; ksimpl; destruct s; reflexivity.
        -- intros _. split; auto. split; auto. rewrite TR, ES, A'. reflexivity.
Qed.
