(** The V.42bis dictionary: a forest kept in an array, its invariant, and the proof that
    matching and adding an entry keep it. *)
From Verif Require Import Base V42bis_model.

Definition nd (l : list node) (i : Z) : node := nth (Z.to_nat i) l node0.
Definition nidx (i : Z) : Prop := 0 <= i < 4096.
Definition full (l : list node) : Prop := length l = Z.to_nat 4096.

Lemma full_z l : full l -> Z.of_nat (length l) = 4096.
Proof. intros ->. apply Z2Nat.id. lia. Qed.
Lemma nget_ok l i : full l -> nidx i -> nget l i = Ok (nd l i).
Proof.
  intros F I. unfold nget. rewrite (full_z _ F). unfold nidx in I.
  replace ((0 <=? i) && (i <? 4096)) with true; [reflexivity|]. symmetry.
  apply andb_true_intro; split; [apply Z.leb_le|apply Z.ltb_lt]; lia.
Qed.
Lemma nset_ok l i x : full l -> nidx i -> nset l i x = Ok (upd l (Z.to_nat i) x).
Proof.
  intros F I. unfold nset. rewrite (full_z _ F). unfold nidx in I.
  replace ((0 <=? i) && (i <? 4096)) with true; [reflexivity|]. symmetry.
  apply andb_true_intro; split; [apply Z.leb_le|apply Z.ltb_lt]; lia.
Qed.
Lemma full_upd l i x : full l -> full (upd l (Z.to_nat i) x).
Proof. unfold full. rewrite upd_length. auto. Qed.
Lemma nd_same l i x : full l -> nidx i -> nd (upd l (Z.to_nat i) x) i = x.
Proof. intros F I. unfold nd. apply nth_upd_same. pose proof (full_z _ F). unfold nidx in I. lia. Qed.
Lemma nd_other l i j x : nidx i -> nidx j -> i <> j -> nd (upd l (Z.to_nat i) x) j = nd l j.
Proof. intros I J N. unfold nd. apply nth_upd_other. unfold nidx in *. lia. Qed.

(** A list of children linked by [n_next]. *)
Fixpoint chain (l : list node) (e : Z) (ks : list Z) : Prop :=
  match ks with
  | [] => e = 0
  | k :: t => e = k /\ k <> 0 /\ chain l (n_next (nd l k)) t
  end.
Lemma chain_frame l l' ks : forall e,
  chain l e ks -> (forall k, In k ks -> n_next (nd l' k) = n_next (nd l k)) -> chain l' e ks.
Proof.
  induction ks as [|k t IH]; intros e C F; cbn [chain] in *; auto.
  destruct C as (-> & N & C). repeat split; auto. rewrite F by (left; auto).
  apply IH; auto. intros; apply F; right; auto.
Qed.
Lemma chain_inj l ks1 : forall ks2 e, chain l e ks1 -> chain l e ks2 -> ks1 = ks2.
Proof.
  induction ks1 as [|k t IH]; intros [|k2 t2] e; cbn [chain]; auto.
  - intros -> (<- & N & _). congruence.
  - intros (-> & N & _) E. congruence.
  - intros (-> & N & C) (<- & _ & C2). f_equal. eapply IH; eauto.
Qed.

(** The string of octets a node stands for. *)
Inductive word (l : list node) : Z -> list Z -> Prop :=
| word_root e : n_parent (nd l e) = 0 -> word l e [n_octet (nd l e)]
| word_step e w : n_parent (nd l e) <> 0 -> word l (n_parent (nd l e)) w ->
                  word l e (w ++ [n_octet (nd l e)]).
Lemma word_fun l e w1 w2 : word l e w1 -> word l e w2 -> w1 = w2.
Proof.
  intros W. revert w2. induction W as [e P|e w P W IH]; intros w2 W2; inversion W2; subst; try congruence.
  f_equal. auto.
Qed.
Lemma word_pos l e w : word l e w -> (1 <= length w)%nat.
Proof. intros []; [cbn; lia|]. rewrite app_length; cbn; lia. Qed.

(** The invariant; [f] is the entry which is free, if any ([-1] when none is). *)
Record WFf (l : list node) (n2 n7 f : Z) (kids : Z -> list Z) : Prop := {
  wf_full : full l;
  wf_n2 : 512 <= n2 <= 4096;
  wf_f : f = -1 \/ 259 <= f < n2;
  wf_chain : forall a, nidx a -> chain l (n_child (nd l a)) (kids a);
  wf_kid : forall a e, nidx a -> In e (kids a) -> 259 <= e < n2 /\ n_parent (nd l e) = a /\ e <> f /\ 3 <= a;
  wf_nodup : forall a, nidx a -> NoDup (kids a);
  wf_free : f <> -1 -> kids f = [];
  wf_par : forall e, nidx e -> e <> f -> n_parent (nd l e) <> 0 ->
           3 <= n_parent (nd l e) < 4096 /\ In e (kids (n_parent (nd l e)));
  wf_low : forall e, 3 <= e < 259 -> n_parent (nd l e) = 0 /\ n_octet (nd l e) = e - 3;
  wf_hi : forall e, nidx e -> e < 259 \/ n2 <= e -> n_parent (nd l e) = 0;
  wf_word : forall e, nidx e -> e <> f -> exists w, word l e w /\ Z.of_nat (length w) <= n7
}.

Lemma kids_bound l n2 n7 f kids a : WFf l n2 n7 f kids -> nidx a -> (length (kids a) <= Z.to_nat 4096)%nat.
Proof.
  intros W A.
  rewrite <- (seq_length (Z.to_nat 4096) 0), <- (map_length Z.of_nat).
  apply NoDup_incl_length; [apply (wf_nodup _ _ _ _ _ W); auto|].
  intros e H. destruct (wf_kid _ _ _ _ _ W a e A H) as (R & _). pose proof (wf_n2 _ _ _ _ _ W).
  apply in_map_iff. exists (Z.to_nat e). split; [lia|]. apply in_seq. lia.
Qed.

Lemma match_walk_ok l o : full l -> forall fuel ks e,
  chain l e ks -> (forall k, In k ks -> nidx k) -> (length ks < fuel)%nat ->
  match_walk fuel l e o = Ok (match find (fun k => n_octet (nd l k) =? o) ks with Some k => k | None => 0 end).
Proof.
  intros F. induction fuel as [|fuel IH]; intros ks e C R L; [lia|].
  destruct ks as [|k t]; cbn [chain match_walk find length] in *.
  - subst e. reflexivity.
  - destruct C as (-> & N & C). destruct (Z.eqb_spec k 0); [congruence|].
    rewrite nget_ok by (auto; apply R; left; auto). cbn [rbind].
    destruct (n_octet (nd l k) =? o); [reflexivity|]. apply IH; auto; [|lia]. intros; apply R; right; auto.
Qed.
Lemma walk_fuel_eq : walk_fuel = S (Z.to_nat 4096).
Proof. unfold walk_fuel, MAX_CODEWORDS. rewrite <- Z2Nat.inj_succ by lia. reflexivity. Qed.

Section Match.
Variables (d : dict) (n7 : Z) (kids : Z -> list Z) (f : Z).
Let l := d_nodes d.
Variable W : WFf l (d_n2 d) n7 f kids.

Lemma match_at a o : nidx a -> a <> 0 ->
  match_octet d a o = Ok (match find (fun k => n_octet (nd l k) =? o) (kids a) with Some k => k | None => 0 end).
Proof.
  intros A N. unfold match_octet. destruct (Z.eqb_spec a 0); [congruence|].
  rewrite nget_ok; [|apply (wf_full _ _ _ _ _ W)|auto]. cbn [rbind].
  apply match_walk_ok; [apply (wf_full _ _ _ _ _ W)|apply (wf_chain _ _ _ _ _ W); auto| |].
  - intros k Hk. destruct (wf_kid _ _ _ _ _ W a k A Hk) as (R & _). pose proof (wf_n2 _ _ _ _ _ W). unfold nidx; lia.
  - rewrite walk_fuel_eq. pose proof (kids_bound _ _ _ _ _ a W A). lia.
Qed.
Lemma match_root o : byte o -> match_octet d 0 o = Ok (o + 3).
Proof.
  intros B. unfold match_octet. cbn [Z.eqb]. unfold u16, N6. rewrite Z.mod_small; auto.
  unfold byte in B; lia.
Qed.
(** Matching always succeeds as a program; a hit is a child with the octet. *)
Lemma match_ok a o : nidx a -> byte o -> exists m, match_octet d a o = Ok m /\
  (m = 0 \/ (3 <= m < d_n2 d /\ m <> f /\ n_octet (nd l m) = o /\ n_parent (nd l m) = a /\
             (a = 0 -> m = o + 3) /\ (a <> 0 -> 259 <= m /\ In m (kids a)))).
Proof.
  intros A B. pose proof (wf_n2 _ _ _ _ _ W) as N2. destruct (Z.eq_dec a 0) as [->|N].
  - exists (o + 3). split; [apply match_root; auto|]. right. unfold byte in B.
    destruct (wf_low _ _ _ _ _ W (o + 3)) as (P & O); [lia|].
    destruct (wf_f _ _ _ _ _ W); repeat split; try lia; auto.
  - rewrite match_at by auto. destruct (find _ _) as [k|] eqn:E; eexists; split; try reflexivity; auto.
    right. apply find_some in E. destruct E as (I & E). apply Z.eqb_eq in E.
    destruct (wf_kid _ _ _ _ _ W a k A I) as (R & P & F & _). repeat split; auto; try lia.
Qed.
End Match.

(** ---- the search for the next entry to use ---- *)
Lemma find_leaf_ok l n2 t : full l -> 512 <= n2 <= 4096 -> 259 <= t < n2 -> n_child (nd l t) = 0 ->
  forall fuel next, 259 <= next < n2 ->
  (if next <? t then t - next else t - next + (n2 - 259)) <= Z.of_nat fuel ->
  exists r, find_leaf fuel l n2 next = Ok r /\ 259 <= r < n2 /\ n_child (nd l r) = 0.
Proof.
  intros F N2 T TC. induction fuel as [|fuel IH]; intros next R D.
  - destruct (Z.ltb_spec next t); lia.
  - cbn [find_leaf]. unfold u16. rewrite Z.mod_small by lia.
    set (next' := if next + 1 =? n2 then N5 else next + 1).
    assert (R' : 259 <= next' < n2) by (unfold next', N5, N4, N6; destruct (Z.eqb_spec (next + 1) n2); lia).
    rewrite nget_ok by (auto; unfold nidx; lia). cbn [rbind].
    destruct (Z.eqb_spec (n_child (nd l next')) 0); cbn [negb]; [eauto|].
    apply IH; auto.
    destruct (Z.eq_dec next' t) as [->|NE]; [congruence|].
    revert NE R'. unfold next', N5, N4, N6. destruct (Z.eqb_spec (next + 1) n2); intros NE R'.
    + destruct (Z.ltb_spec next t); [lia|]. destruct (Z.ltb_spec (256 + 3) t); lia.
    + destruct (Z.ltb_spec next t); destruct (Z.ltb_spec (next + 1) t); lia.
Qed.

(** ---- detaching ---- *)
Lemma find_prev_ok l next : full l -> forall pre p post e fuel,
  chain l e (pre ++ p :: next :: post) -> ~ In next (pre ++ [p]) ->
  (forall k, In k (pre ++ p :: next :: post) -> nidx k) ->
  (length pre < fuel)%nat -> find_prev fuel l e next = Ok p.
Proof.
  intros F. induction pre as [|q pre IH]; intros p post e fuel C NI R L; (destruct fuel as [|fuel]; [cbn in L; lia|]);
    cbn [app chain find_prev] in *.
  - destruct C as (-> & N & E & N' & _). rewrite nget_ok by (auto; apply R; left; auto). cbn [rbind].
    rewrite E, Z.eqb_refl. reflexivity.
  - destruct C as (-> & N & C). rewrite nget_ok by (auto; apply R; left; auto). cbn [rbind].
    destruct (Z.eqb_spec (n_next (nd l q)) next) as [E|E].
    + exfalso. rewrite E in C. destruct pre as [|q' pre]; cbn [app chain] in C; destruct C as (E2 & _); apply NI; cbn; auto.
    + apply (IH p post); [exact C| | |cbn in L; lia].
      * intros H. apply NI. right. exact H.
      * intros k H. apply R. right. exact H.
Qed.
Lemma chain_remove l l' next : forall pre p post e,
  chain l e (pre ++ p :: next :: post) -> NoDup (pre ++ p :: next :: post) ->
  (forall k, k <> p -> In k (pre ++ p :: next :: post) -> n_next (nd l' k) = n_next (nd l k)) ->
  n_next (nd l' p) = n_next (nd l next) ->
  chain l' e (pre ++ p :: post).
Proof.
  induction pre as [|q pre IH]; intros p post e C ND FR E; cbn [app chain] in *.
  - destruct C as (-> & N & E1 & N1 & C). repeat split; auto. rewrite E.
    eapply chain_frame; eauto. intros k Hk. apply FR; [|right; right; auto].
    intros ->. inversion ND; subst. apply H1. right; auto.
  - destruct C as (-> & N & C). repeat split; auto. rewrite FR.
    + inversion ND; subst. apply IH; auto. intros k NK HK. apply FR; auto. right; auto.
    + intros ->. inversion ND; subst. apply H1. apply in_or_app; right; left; auto.
    + left; auto.
Qed.
Lemma remove_notin (x : Z) l : ~ In x l -> remove Z.eq_dec x l = l.
Proof. apply notin_remove. Qed.
Lemma remove_mid (x : Z) a b : ~ In x a -> ~ In x b -> remove Z.eq_dec x (a ++ x :: b) = a ++ b.
Proof.
  intros A B. rewrite remove_app. cbn [remove]. destruct (Z.eq_dec x x); [|congruence].
  rewrite !remove_notin by auto. reflexivity.
Qed.

(** Changing only child and next fields leaves the words alone. *)
Lemma word_frame l l' e w :
  (forall k, n_parent (nd l' k) = n_parent (nd l k) /\ n_octet (nd l' k) = n_octet (nd l k)) ->
  word l e w -> word l' e w.
Proof.
  intros F W. induction W as [e P|e w P W IH]; destruct (F e) as (E1 & E2); rewrite <- E2.
  - constructor 1. congruence.
  - constructor 2; [congruence|]. rewrite E1. exact IH.
Qed.

(** The two results of one in-place change at index [i]. *)
Lemma nd_upd l i x j : full l -> nidx i -> nidx j -> nd (upd l (Z.to_nat i) x) j = if j =? i then x else nd l j.
Proof.
  intros F I J. destruct (Z.eqb_spec j i) as [->|N]; [apply nd_same; auto|apply nd_other; auto].
Qed.
Lemma nd_out l i : full l -> ~ nidx i -> 0 <= i -> nd l i = node0.
Proof. intros F I P. unfold nd. apply nth_overflow. pose proof (full_z _ F). unfold nidx in I. lia. Qed.
Lemma nd_neg l i : i < 0 -> nd l i = nd l 0.
Proof. intros H. unfold nd. f_equal. lia. Qed.

Lemma frame_upd l i x : full l -> nidx i ->
  n_parent x = n_parent (nd l i) -> n_octet x = n_octet (nd l i) ->
  forall k, n_parent (nd (upd l (Z.to_nat i) x) k) = n_parent (nd l k) /\
            n_octet (nd (upd l (Z.to_nat i) x) k) = n_octet (nd l k).
Proof.
  intros F I P O k. unfold nd. destruct (Nat.eq_dec (Z.to_nat k) (Z.to_nat i)) as [E|E].
  - rewrite E. rewrite nth_upd_same; [auto|]. pose proof (full_z _ F). unfold nidx in I. lia.
  - rewrite nth_upd_other by auto. auto.
Qed.

Lemma detach_ok l n2 n7 kids next : WFf l n2 n7 (-1) kids -> 259 <= next < n2 -> n_child (nd l next) = 0 ->
  exists l' kids', detach_leaf l next = Ok l' /\ WFf l' n2 n7 next kids' /\
    (forall k, n_parent (nd l' k) = n_parent (nd l k) /\ n_octet (nd l' k) = n_octet (nd l k)).
Proof.
  intros W R TC. pose proof (wf_n2 _ _ _ _ _ W) as N2. pose proof (wf_full _ _ _ _ _ W) as F.
  assert (NI : nidx next) by (unfold nidx; lia).
  assert (KN : kids next = []).
  { pose proof (wf_chain _ _ _ _ _ W next NI) as C. rewrite TC in C. destruct (kids next) as [|k t]; auto.
    cbn in C. destruct C as (<- & C & _). congruence. }
  unfold detach_leaf. rewrite nget_ok by auto. cbn [rbind].
  destruct (Z.eqb_spec (n_parent (nd l next)) 0) as [P0|P0]; cbn [negb].
  - (* never used *)
    exists l, kids. split; [reflexivity|]. split; [|intros k; auto].
    assert (M1 : forall e, nidx e -> e <> -1) by (unfold nidx; intros; lia).
    constructor; auto.
    + apply (wf_chain _ _ _ _ _ W).
    + intros a e A I. destruct (wf_kid _ _ _ _ _ W a e A I) as (B & C & _ & D). repeat split; auto; try lia.
      intros ->. lia.
    + apply (wf_nodup _ _ _ _ _ W).
    + intros e E NE P. apply (wf_par _ _ _ _ _ W); auto.
    + apply (wf_low _ _ _ _ _ W).
    + apply (wf_hi _ _ _ _ _ W).
    + intros e E NE. apply (wf_word _ _ _ _ _ W); auto.
  - set (p := n_parent (nd l next)) in *.
    destruct (wf_par _ _ _ _ _ W next NI) as (PR & IN); [unfold nidx in *; lia|auto|]. fold p in PR, IN.
    assert (PI : nidx p) by (unfold nidx; lia).
    assert (PN : p <> next) by (intros E; rewrite E, KN in IN; destruct IN).
    rewrite nget_ok by auto. cbn [rbind].
    pose proof (wf_chain _ _ _ _ _ W p PI) as CP. pose proof (wf_nodup _ _ _ _ _ W p PI) as NDP.
    set (kids' := fun a => if a =? p then remove Z.eq_dec next (kids p) else kids a).
    (* whichever way the list is repaired, the rest of the invariant follows *)
    assert (FIN : forall l', full l' ->
      (forall k, n_parent (nd l' k) = n_parent (nd l k) /\ n_octet (nd l' k) = n_octet (nd l k)) ->
      (forall a, nidx a -> chain l' (n_child (nd l' a)) (kids' a)) ->
      WFf l' n2 n7 next kids').
    { intros l' F' FR CH. constructor; auto; try (right; lia).
      - intros a e A I. unfold kids' in I. destruct (FR e) as (-> & _). destruct (Z.eqb_spec a p) as [->|NE].
        + apply in_remove in I. destruct I as (I & NE).
          destruct (wf_kid _ _ _ _ _ W p e A I) as (B & C & _ & D). auto.
        + destruct (wf_kid _ _ _ _ _ W a e A I) as (B & C & _ & D). repeat split; auto; try lia.
          intros ->. fold p in C. congruence.
      - intros a A. unfold kids'. destruct (Z.eqb_spec a p) as [->|NE]; [|apply (wf_nodup _ _ _ _ _ W); auto].
        destruct (in_split _ _ IN) as (x & y & E). rewrite E in NDP |- *.
        pose proof (NoDup_remove_2 _ _ _ NDP). rewrite remove_mid; [apply (NoDup_remove_1 _ _ _ NDP)| |];
          intros H'; apply H; apply in_or_app; auto.
      - intros _. unfold kids'. destruct (Z.eqb_spec next p); [congruence|auto].
      - intros e E NE P. destruct (FR e) as (FP & _). rewrite FP in P |- *.
        destruct (wf_par _ _ _ _ _ W e E) as (B & I); auto; [unfold nidx in *; lia|]. split; auto.
        unfold kids'. destruct (Z.eqb_spec (n_parent (nd l e)) p) as [EP|]; auto.
        apply in_in_remove; [auto|]. rewrite EP in I. exact I.
      - intros e E. destruct (FR e) as (-> & ->). apply (wf_low _ _ _ _ _ W); auto.
      - intros e E H. destruct (FR e) as (-> & _). apply (wf_hi _ _ _ _ _ W); auto.
      - intros e E NE. destruct (wf_word _ _ _ _ _ W e E) as (w & WD & WL); [unfold nidx in *; lia|].
        exists w. split; auto. eapply word_frame; eauto. }
    destruct (Z.eqb_spec (n_child (nd l p)) next) as [EC|EC].
    + rewrite nset_ok by auto.
      set (x := mkNode (n_octet (nd l p)) (n_parent (nd l p)) (n_next (nd l next)) (n_next (nd l p))).
      assert (FR := frame_upd l p x F PI eq_refl eq_refl).
      eexists; exists kids'. split; [reflexivity|]. split; [|exact FR]. apply FIN; auto; [apply full_upd; auto|].
      assert (NX : forall k, nidx k -> n_next (nd (upd l (Z.to_nat p) x) k) = n_next (nd l k)).
      { intros k K. rewrite nd_upd by auto. destruct (Z.eqb_spec k p) as [->|]; reflexivity. }
      assert (KI : forall a k, nidx a -> In k (kids a) -> nidx k).
      { intros a k A I. destruct (wf_kid _ _ _ _ _ W a k A I) as (B & _). unfold nidx; lia. }
      intros a A. unfold kids'. rewrite nd_upd by auto. destruct (Z.eqb_spec a p) as [->|NE].
      * cbn [n_child x]. destruct (kids p) as [|k t] eqn:EK; rewrite ?EK in IN, CP, NDP; [destruct IN|]. cbn [chain] in CP.
        destruct CP as (E1 & N0 & CP). assert (KE : k = next) by congruence. clear E1. rewrite KE in *. clear KE.
        assert (RM : remove Z.eq_dec next (next :: t) = t)
          by (apply (remove_mid next [] t); [intros []|apply NoDup_cons_iff in NDP; apply NDP]).
        rewrite RM.
        eapply chain_frame; [exact CP|]. intros k' Hk. apply NX. eapply KI; [exact A|]. rewrite EK. right; auto.
      * eapply chain_frame; [apply (wf_chain _ _ _ _ _ W); auto|]. intros k Hk. apply NX. eapply KI; eauto.
    + (* not the first child *)
      destruct (in_split _ _ IN) as (pre0 & post & EK).
      assert (exists pre q, pre0 = pre ++ [q]) as (pre & q & ->).
      { destruct pre0 as [|a0 b0] using rev_ind; [|eauto]. rewrite EK in CP. cbn in CP. destruct CP as (E & _). congruence. }
      rewrite <- app_assoc in EK. cbn [app] in EK. rewrite EK in CP, NDP.
      assert (KI : forall a k, nidx a -> In k (kids a) -> nidx k).
      { intros a k A I. destruct (wf_kid _ _ _ _ _ W a k A I) as (B & _). unfold nidx; lia. }
      assert (NIN : ~ In next (pre ++ [q])).
      { intros H. replace (pre ++ q :: next :: post) with ((pre ++ [q]) ++ next :: post) in NDP
          by (rewrite <- app_assoc; reflexivity).
        apply NoDup_remove_2 in NDP. apply NDP. apply in_or_app; auto. }
      assert (QK : In q (kids p)) by (rewrite EK; apply in_or_app; right; left; auto).
      assert (QI : nidx q) by (eapply KI; [exact PI|exact QK]).
      rewrite (find_prev_ok l next F pre q post); auto.
      2:{ intros k Hk. eapply KI; [exact PI|]. rewrite EK. exact Hk. }
      2:{ rewrite walk_fuel_eq. pose proof (kids_bound _ _ _ _ _ p W PI) as KB. rewrite EK, app_length in KB. cbn in KB. lia. }
      cbn [rbind]. rewrite nget_ok by auto. cbn [rbind]. rewrite nset_ok by auto.
      set (x := mkNode (n_octet (nd l q)) (n_parent (nd l q)) (n_child (nd l q)) (n_next (nd l next))).
      assert (FR := frame_upd l q x F QI eq_refl eq_refl).
      eexists; exists kids'. split; [reflexivity|]. split; [|exact FR]. apply FIN; auto; [apply full_upd; auto|].
      assert (NX : forall k, nidx k -> k <> q -> n_next (nd (upd l (Z.to_nat q) x) k) = n_next (nd l k)).
      { intros k K NE. rewrite nd_other by auto. reflexivity. }
      intros a A. replace (n_child (nd (upd l (Z.to_nat q) x) a)) with (n_child (nd l a)).
      2:{ rewrite nd_upd by auto. destruct (Z.eqb_spec a q) as [->|]; reflexivity. }
      unfold kids'. destruct (Z.eqb_spec a p) as [->|NE].
      * rewrite EK. replace (pre ++ q :: next :: post) with ((pre ++ [q]) ++ next :: post) by (rewrite <- app_assoc; reflexivity).
        rewrite remove_mid; [|auto|].
        2:{ intros H. replace (pre ++ q :: next :: post) with ((pre ++ [q]) ++ next :: post) in NDP by (rewrite <- app_assoc; reflexivity).
            apply NoDup_remove_2 in NDP. apply NDP. apply in_or_app; auto. }
        rewrite <- app_assoc. cbn [app]. eapply chain_remove; [exact CP|exact NDP| |].
        -- intros k NE Hk. apply NX; auto. eapply KI; [exact A|]. rewrite EK. exact Hk.
        -- rewrite nd_same by auto. reflexivity.
      * eapply chain_frame; [apply (wf_chain _ _ _ _ _ W); auto|]. intros k Hk. apply NX; [eapply KI; eauto|].
        intros ->. destruct (wf_kid _ _ _ _ _ W a q A Hk) as (_ & E1 & _).
        destruct (wf_kid _ _ _ _ _ W p q PI QK) as (_ & E2 & _). congruence.
Qed.

(** ---- inserting ---- *)
Lemma insert_ok l n2 n7 c1 kids at_ o w : WFf l n2 n7 c1 kids -> 259 <= c1 < n2 -> 3 <= at_ < 4096 -> at_ <> c1 ->
  word l at_ w -> Z.of_nat (length w) < n7 ->
  let l1 := upd l (Z.to_nat c1) (mkNode o at_ 0 (n_child (nd l at_))) in
  let a1 := nd l1 at_ in
  let l2 := upd l1 (Z.to_nat at_) (mkNode (n_octet a1) (n_parent a1) c1 (n_next a1)) in
  exists kids', WFf l2 n2 n7 (-1) kids' /\ n_child (nd l2 c1) = 0 /\
    n_octet (nd l2 c1) = o /\ n_parent (nd l2 c1) = at_ /\
    (forall k, nidx k -> k <> c1 -> n_parent (nd l2 k) = n_parent (nd l k) /\ n_octet (nd l2 k) = n_octet (nd l k)) /\
    (forall e v, nidx e -> e <> c1 -> word l e v -> word l2 e v).
Proof.
  intros W R AR AN WD WL l1 a1 l2.
  pose proof (wf_n2 _ _ _ _ _ W) as N2. pose proof (wf_full _ _ _ _ _ W) as F.
  assert (CI : nidx c1) by (unfold nidx; lia). assert (AI : nidx at_) by (unfold nidx; lia).
  assert (F1 : full l1) by (apply full_upd; auto). assert (F2 : full l2) by (apply full_upd; auto).
  assert (EA : a1 = nd l at_) by (unfold a1, l1; apply nd_other; auto).
  assert (E2 : forall k, nidx k -> nd l2 k = if k =? at_ then mkNode (n_octet (nd l at_)) (n_parent (nd l at_)) c1 (n_next (nd l at_))
                                   else if k =? c1 then mkNode o at_ 0 (n_child (nd l at_)) else nd l k).
  { intros k K. unfold l2. rewrite nd_upd by auto. destruct (Z.eqb_spec k at_); [rewrite EA; reflexivity|].
    unfold l1. rewrite nd_upd by auto. reflexivity. }
  assert (FR : forall k, nidx k -> k <> c1 -> n_parent (nd l2 k) = n_parent (nd l k) /\ n_octet (nd l2 k) = n_octet (nd l k)).
  { intros k K NE. rewrite E2 by auto. destruct (Z.eqb_spec k at_) as [->|]; [auto|].
    destruct (Z.eqb_spec k c1); [congruence|auto]. }
  assert (NX : forall k, nidx k -> k <> c1 -> n_next (nd l2 k) = n_next (nd l k)).
  { intros k K NE. rewrite E2 by auto. destruct (Z.eqb_spec k at_) as [->|]; [auto|].
    destruct (Z.eqb_spec k c1); [congruence|auto]. }
  assert (C2 : nd l2 c1 = mkNode o at_ 0 (n_child (nd l at_))).
  { rewrite E2 by auto. destruct (Z.eqb_spec c1 at_); [congruence|]. rewrite Z.eqb_refl. reflexivity. }
  assert (PC : forall e, nidx e -> e <> c1 -> n_parent (nd l e) <> 0 -> n_parent (nd l e) <> c1 /\ nidx (n_parent (nd l e))).
  { intros e E NE P. destruct (wf_par _ _ _ _ _ W e E NE P) as (B & I). split; [|unfold nidx; lia].
    intros EQ. rewrite EQ, (wf_free _ _ _ _ _ W) in I by lia. destruct I. }
  assert (WF' : forall e v, word l e v -> nidx e -> e <> c1 -> word l2 e v).
  { intros e v WE. induction WE as [e P|e v P WE IH]; intros E NE; destruct (FR e E NE) as (EP & EO); rewrite <- EO.
    - constructor 1. congruence.
    - constructor 2; [congruence|]. rewrite EP. destruct (PC e E NE P). apply IH; auto. }
  set (kids' := fun a => if a =? at_ then c1 :: kids at_ else kids a).
  assert (KN : forall a e, nidx a -> In e (kids a) -> nidx e /\ e <> c1).
  { intros a e A I. destruct (wf_kid _ _ _ _ _ W a e A I) as (B & _ & C & _). split; auto. unfold nidx; lia. }
  assert (M1 : forall e, nidx e -> e <> -1) by (unfold nidx; intros; lia).
  exists kids'. split; [|rewrite C2; repeat split; auto; apply FR; assumption].
  constructor; auto.
  - intros a A. unfold kids'. destruct (Z.eqb_spec a at_) as [->|NE].
    + rewrite E2, Z.eqb_refl by auto. cbn [n_child chain]. repeat split; auto; [lia|]. rewrite C2. cbn [n_next].
      eapply chain_frame; [apply (wf_chain _ _ _ _ _ W); auto|]. intros k Hk. destruct (KN _ _ A Hk). apply NX; auto.
    + destruct (Z.eq_dec a c1) as [->|NC].
      * rewrite C2. cbn [n_child]. rewrite (wf_free _ _ _ _ _ W) by lia. reflexivity.
      * replace (n_child (nd l2 a)) with (n_child (nd l a)).
        2:{ rewrite E2 by auto. destruct (Z.eqb_spec a at_); [congruence|]. destruct (Z.eqb_spec a c1); [congruence|auto]. }
        eapply chain_frame; [apply (wf_chain _ _ _ _ _ W); auto|]. intros k Hk. destruct (KN _ _ A Hk). apply NX; auto.
  - intros a e A I. unfold kids' in I.
    assert (a = at_ /\ e = c1 \/ In e (kids a)) as [[-> ->]|I'].
    { destruct (Z.eqb_spec a at_) as [->|]; auto. destruct I as [<-|I]; auto. }
    + rewrite C2. cbn [n_parent]. repeat split; try lia.
    + destruct (KN _ _ A I') as (B & C). destruct (FR e B C) as (-> & _).
      destruct (wf_kid _ _ _ _ _ W a e A I') as (D & G & _ & H). repeat split; auto; lia.
  - intros a A. unfold kids'. destruct (Z.eqb_spec a at_) as [->|NE]; [|apply (wf_nodup _ _ _ _ _ W); auto].
    constructor; [|apply (wf_nodup _ _ _ _ _ W); auto]. intros I. destruct (KN _ _ A I). congruence.
  - congruence.
  - intros e E _ P. destruct (Z.eq_dec e c1) as [->|NE].
    + rewrite C2. cbn [n_parent]. split; auto. unfold kids'. rewrite Z.eqb_refl. left; auto.
    + destruct (FR e E NE) as (EP & _). rewrite EP in P |- *. destruct (wf_par _ _ _ _ _ W e E NE P) as (B & I).
      split; auto. unfold kids'. destruct (Z.eqb_spec (n_parent (nd l e)) at_) as [EQ|]; auto. right. rewrite <- EQ. exact I.
  - intros e E. destruct (FR e) as (-> & ->); [unfold nidx; lia|lia|]. apply (wf_low _ _ _ _ _ W); auto.
  - intros e E H. destruct (FR e) as (-> & _); [auto|lia|]. apply (wf_hi _ _ _ _ _ W); auto.
  - intros e E _. destruct (Z.eq_dec e c1) as [->|NE].
    + exists (w ++ [n_octet (nd l2 c1)]). split.
      * constructor 2; rewrite C2; cbn [n_parent]; [lia|]. apply WF'; auto.
      * rewrite app_length. cbn [length]. lia.
    + destruct (wf_word _ _ _ _ _ W e E NE) as (v & WV & LV). exists v. split; auto.
Qed.

(** The dictionary invariant seen from outside. *)
Definition WF (d : dict) (n7 : Z) : Prop := 259 <= d_c1 d < d_n2 d /\ exists kids, WFf (d_nodes d) (d_n2 d) n7 (d_c1 d) kids.

Lemma add_ok d n7 at_ o w : WF d n7 -> 3 <= at_ < 4096 -> at_ <> d_c1 d ->
  word (d_nodes d) at_ w -> Z.of_nat (length w) < n7 ->
  exists d', add_octet d at_ o = Ok (d', d_c1 d) /\ WF d' n7 /\ d_n2 d' = d_n2 d /\
    n_octet (nd (d_nodes d') (d_c1 d)) = o /\ n_parent (nd (d_nodes d') (d_c1 d)) = at_ /\
    (forall k, nidx k -> k <> d_c1 d -> n_parent (nd (d_nodes d') k) = n_parent (nd (d_nodes d) k) /\
                                     n_octet (nd (d_nodes d') k) = n_octet (nd (d_nodes d) k)) /\
    (forall e v, nidx e -> e <> d_c1 d -> word (d_nodes d) e v -> word (d_nodes d') e v).
Proof.
  intros (C & kids & W) AR AN WD WL. destruct d as [l c1 n2]; cbn [d_nodes d_c1 d_n2] in *.
  pose proof (wf_n2 _ _ _ _ _ W) as N2. pose proof (wf_full _ _ _ _ _ W) as F.
  assert (CI : nidx c1) by (unfold nidx; lia). assert (AI : nidx at_) by (unfold nidx; lia).
  destruct (insert_ok l n2 n7 c1 kids at_ o w W C AR AN WD WL) as (kids1 & W1 & L1 & O1 & P1 & FR1 & WD1).
  unfold add_octet. cbn [d_nodes d_c1 d_n2]. rewrite nget_ok by auto. cbn [rbind]. rewrite nset_ok by auto. cbn [rbind].
  rewrite nget_ok by (auto; apply full_upd; auto). cbn [rbind]. rewrite nset_ok by (auto; apply full_upd; auto). cbn [rbind].
  set (l2 := upd _ _ _) in *.
  destruct (find_leaf_ok l2 n2 c1 (wf_full _ _ _ _ _ W1) N2 C L1 walk_fuel c1 C) as (r & -> & RR & RC).
  { rewrite Z.ltb_irrefl, walk_fuel_eq. rewrite Nat2Z.inj_succ, Z2Nat.id by lia. lia. }
  cbn [rbind]. destruct (detach_ok l2 n2 n7 kids1 r W1 RR RC) as (l3 & kids3 & -> & W3 & FR3).
  cbn [rbind]. eexists. split; [reflexivity|]. cbn [d_nodes d_c1 d_n2].
  split; [split; [auto|exists kids3; auto]|]. split; [reflexivity|].
  destruct (FR3 c1) as (-> & ->). repeat split; auto.
  - destruct (FR3 k) as (-> & _). apply FR1; auto.
  - destruct (FR3 k) as (_ & ->). apply FR1; auto.
  - intros e v E NE WE. eapply word_frame; eauto.
Qed.

(** Going the other way: an old entry stands for the same octets after the addition. *)
Lemma WF_word d n7 e : WF d n7 -> nidx e -> e <> d_c1 d -> exists w, word (d_nodes d) e w /\ 1 <= Z.of_nat (length w) <= n7.
Proof.
  intros (_ & kids & W) E NE. destruct (wf_word _ _ _ _ _ W e E NE) as (w & WD & L). exists w. split; auto.
  pose proof (word_pos _ _ _ WD). lia.
Qed.
Lemma WF_full d n7 : WF d n7 -> full (d_nodes d).
Proof. intros (_ & kids & W). apply (wf_full _ _ _ _ _ W). Qed.
Lemma WF_n2 d n7 : WF d n7 -> 512 <= d_n2 d <= 4096.
Proof. intros (_ & kids & W). apply (wf_n2 _ _ _ _ _ W). Qed.
Lemma WF_match d n7 a o : WF d n7 -> nidx a -> byte o -> exists m, match_octet d a o = Ok m /\
  (m = 0 \/ (3 <= m < d_n2 d /\ m <> d_c1 d /\ n_octet (nd (d_nodes d) m) = o /\ n_parent (nd (d_nodes d) m) = a /\
             (a = 0 -> m = o + 3) /\ (a <> 0 -> 259 <= m))).
Proof.
  intros (_ & kids & W) A B. destruct (match_ok d n7 kids (d_c1 d) W a o A B) as (m & E & H). exists m. split; auto.
  destruct H as [H|H]; auto. right. intuition.
Qed.
Lemma WF_root d n7 o : WF d n7 -> byte o -> word (d_nodes d) (o + 3) [o].
Proof.
  intros (_ & kids & W) B. unfold byte in B. destruct (wf_low _ _ _ _ _ W (o + 3)) as (P & O); [lia|].
  replace [o] with [n_octet (nd (d_nodes d) (o + 3))] by (rewrite O; f_equal; lia). constructor 1; auto.
Qed.

(** The dictionary right after dictionary_init. *)
Lemma nd_init i : nidx i -> nd init_nodes i = init_node i.
Proof.
  intros I. unfold nd, init_nodes, nidx, MAX_CODEWORDS in *.
  rewrite nth_indep with (d' := init_node (Z.of_nat 0)) by (rewrite map_length, seq_length; lia).
  rewrite (map_nth (fun i => init_node (Z.of_nat i))), seq_nth by lia. f_equal. lia.
Qed.
Lemma WF_init n2 n7 : 512 <= n2 <= 4096 -> 1 <= n7 -> WF (mkDict init_nodes N5 n2) n7.
Proof.
  intros N2 N7. split; cbn [d_nodes d_c1 d_n2]; [unfold N5, N4, N6; lia|]. exists (fun _ => []).
  assert (P : forall e, nidx e -> n_parent (nd init_nodes e) = 0) by (intros; rewrite nd_init by auto; reflexivity).
  constructor; auto.
  - unfold full, init_nodes. rewrite map_length, seq_length. reflexivity.
  - right. unfold N5, N4, N6; lia.
  - intros a A. rewrite nd_init by auto. reflexivity.
  - intros a e _ [].
  - intros; constructor.
  - intros e E _ NP. exfalso. apply NP. auto.
  - intros e E. rewrite nd_init by (unfold nidx; lia). cbn. split; auto. unfold N6, N4.
    destruct (Z.leb_spec 3 e); [|lia]. destruct (Z.ltb_spec e 259); [reflexivity|lia].
  - intros e E _. eexists. split; [constructor 1; auto|]. cbn. lia.
Qed.
