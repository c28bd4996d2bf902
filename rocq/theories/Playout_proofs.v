(** Proofs about the play-out buffer. *)
From Verif Require Import Base Playout_model Playout_spec.
From Coq Require Import ZifyBool ZifyNat Permutation.
Local Open Scope Z_scope.

(** ---- The heap ---- *)
Notation live h i c := (nth_error h i = Some (Some c)).
Definition same_but (h h' : heap) (i : nat) := length h' = length h /\ forall j, j <> i -> nth_error h' j = nth_error h j.
Lemma nth_put {A} (h : list A) i x : (i < length h)%nat ->
  let h' := firstn i h ++ x :: skipn (S i) h in
  length h' = length h /\ nth_error h' i = Some x /\ forall j, j <> i -> nth_error h' j = nth_error h j.
Proof.
  intros H h'. unfold h'.
  assert (L : length (firstn i h) = i) by (rewrite firstn_length; lia).
  split; [rewrite app_length; cbn [length]; rewrite L, skipn_length; lia|]. split.
  - rewrite nth_error_app2, L, Nat.sub_diag by lia. reflexivity.
  - intros j Hj. destruct (Nat.lt_ge_cases j i) as [J|J].
    + rewrite nth_error_app1 by lia. clear - J. revert i J. revert h. induction j as [|j IH]; intros [|y h] [|i] J; try lia; cbn; try reflexivity.
      apply IH. lia.
    + rewrite nth_error_app2, L by lia. replace (j - i)%nat with (S (j - S i)) by lia. cbn [nth_error].
      rewrite <- (firstn_skipn (S i) h) at 2. rewrite nth_error_app2; rewrite firstn_length; [|lia]. f_equal. lia.
Qed.
Lemma live_lt (h : heap) i c : live h i c -> (i < length h)%nat.
Proof. intros H. apply nth_error_Some. rewrite H. discriminate. Qed.
Lemma load_live (h : heap) i c : live h i c -> load h (Some i) = Ok c.
Proof. intros H. cbn. rewrite H. reflexivity. Qed.
Lemma store_ok (h : heap) i c c' : live h i c -> exists h', store h (Some i) c' = Ok h' /\ live h' i c' /\ same_but h h' i.
Proof.
  intros H. unfold store. rewrite (load_live h i c H). cbn [rbind]. eexists. split; [reflexivity|].
  destruct (nth_put h i (Some c') (live_lt h i c H)) as (A & B & C). split; [exact B|]. split; assumption.
Qed.
Lemma free1_ok (h : heap) i c : live h i c -> exists h', free1 h (Some i) = Ok h' /\ nth_error h' i = Some None /\ same_but h h' i.
Proof.
  intros H. unfold free1. rewrite (load_live h i c H). cbn [rbind]. eexists. split; [reflexivity|].
  destruct (nth_put h i (@None cell) (live_lt h i c H)) as (A & B & C). split; [exact B|]. split; assumption.
Qed.
Lemma set_later_ok (h : heap) i c q : live h i c -> exists h', set_later h (Some i) q = Ok h' /\ live h' i {| finfo := finfo c; earlier := earlier c; later := q |} /\ same_but h h' i.
Proof. intros H. unfold set_later. rewrite (load_live h i c H). cbn [rbind]. eapply store_ok, H. Qed.
Lemma set_earlier_ok (h : heap) i c q : live h i c -> exists h', set_earlier h (Some i) q = Ok h' /\ live h' i {| finfo := finfo c; earlier := q; later := later c |} /\ same_but h h' i.
Proof. intros H. unfold set_earlier. rewrite (load_live h i c H). cbn [rbind]. eapply store_ok, H. Qed.

(** ---- Linked lists ---- *)
Notation node := (nat * info)%type.
Definition hdp (l : list node) (nxt : ptr) : ptr := match l with [] => nxt | (i, _) :: _ => Some i end.
Definition lastp (prev : ptr) (l : list node) : ptr := fold_left (fun _ n => Some (fst n)) l prev.
Fixpoint dseg (h : heap) (prev : ptr) (l : list node) (nxt : ptr) : Prop :=
  match l with
  | [] => True
  | (i, f) :: r => live h i {| finfo := f; earlier := prev; later := hdp r nxt |} /\ dseg h (Some i) r nxt
  end.
Lemma dseg_app h l : forall prev m nxt, dseg h prev (l ++ m) nxt <-> dseg h prev l (hdp m nxt) /\ dseg h (lastp prev l) m nxt.
Proof.
  induction l as [|(i & f) l IH]; intros prev m nxt; cbn [app dseg lastp fold_left]; [tauto|].
  fold (lastp (Some i) l). rewrite IH. assert (E : hdp (l ++ m) nxt = hdp l (hdp m nxt)) by (destruct l as [|(j & g) l]; reflexivity).
  rewrite E. cbn [fst]. unfold lastp. tauto.
Qed.
Lemma lastp_app prev l n : lastp prev (l ++ [n]) = Some (fst n).
Proof. unfold lastp. rewrite fold_left_app. reflexivity. Qed.
Lemma dseg_ext h h' l : (forall i, In i (map fst l) -> nth_error h' i = nth_error h i) -> forall prev nxt, dseg h prev l nxt -> dseg h' prev l nxt.
Proof.
  induction l as [|(i & f) l IH]; intros E prev nxt H; [exact I|]. cbn [dseg] in *. destruct H as (H1 & H2).
  split; [rewrite E by (left; reflexivity); exact H1|]. apply IH; [|exact H2]. intros j Hj. apply E. right. exact Hj.
Qed.
(** The free list uses only [later]. *)
Fixpoint sseg (h : heap) (l : list nat) : Prop :=
  match l with
  | [] => True
  | i :: r => (exists c, live h i c /\ later c = hd_error r) /\ sseg h r
  end.
Lemma sseg_ext h h' l : (forall i, In i l -> nth_error h' i = nth_error h i) -> sseg h l -> sseg h' l.
Proof.
  induction l as [|i l IH]; intros E H; [exact I|]. cbn [sseg] in *. destruct H as ((c & H1 & H2) & H3).
  split; [exists c; split; [rewrite E by (left; reflexivity); exact H1|exact H2]|]. apply IH; [|exact H3]. intros j Hj. apply E. right. exact Hj.
Qed.

Record rep (s : playout) (ids : list node) (fids : list nat) : Prop := {
  rep_q : dseg (mem s) None ids None;
  rep_f : sseg (mem s) fids;
  rep_first : first_frame s = hdp ids None;
  rep_last : last_frame s = lastp None ids;
  rep_free : free_frames s = hd_error fids;
  rep_nodup : NoDup (map fst ids ++ fids) }.

Lemma dseg_live h prev l nxt i f : dseg h prev l nxt -> In (i, f) l -> exists c, live h i c /\ finfo c = f.
Proof.
  revert prev. induction l as [|(j & g) l IH]; intros prev H Hi; [contradiction|]. cbn [dseg] in H. destruct H as (H1 & H2). destruct Hi as [E|Hi].
  - injection E as -> ->. eexists. split; [exact H1|reflexivity].
  - eapply IH; eassumption.
Qed.
Lemma sseg_live h l i : sseg h l -> In i l -> exists c, live h i c.
Proof. induction l as [|j l IH]; intros H Hi; [contradiction|]. cbn in H. destruct H as ((c & H1 & _) & H2). destruct Hi as [->|Hi]; eauto. Qed.

(** ---- queue_get ---- *)
Lemma rep_tm s t ids fids : rep s ids fids -> rep (with_tm s t) ids fids.
Proof. intros [A B C D E F]. constructor; assumption. Qed.
Definition due (x : Z) (q : list node) : bool := match q with [] => false | (_, f) :: _ => fstamp f <=? x end.
Lemma queue_get_none s ids fids x : rep s ids fids -> due x ids = false -> queue_get s x = Ok (None, s).
Proof.
  intros R H. unfold queue_get. rewrite (rep_first _ _ _ R). destruct ids as [|(i & f) r]; [reflexivity|]. cbn [hdp].
  pose proof (rep_q _ _ _ R) as Q. cbn [dseg] in Q. destruct Q as (Q & _). rewrite (load_live _ _ _ Q). cbn [rbind finfo].
  cbn [due] in H. rewrite H. reflexivity.
Qed.
Lemma lastp_cons prev i f r : r <> [] -> lastp prev ((i, f) :: r) = lastp None r.
Proof. intros H. destruct (exists_last H) as (r' & n & ->). change ((i, f) :: r' ++ [n]) with (((i, f) :: r') ++ [n]). rewrite !lastp_app. reflexivity. Qed.
(** Taking the first frame and putting it on the free list. *)
Lemma take_first s i f r fids x : rep s ((i, f) :: r) fids -> due x ((i, f) :: r) = true ->
  exists s1 s2 c, queue_get s x = Ok (Some i, s1) /\ load (mem s1) (Some i) = Ok c /\ finfo c = f /\
    to_free s1 (Some i) = Ok s2 /\ load (mem s2) (Some i) = Ok {| finfo := f; earlier := earlier c; later := hd_error fids |} /\
    rep s2 r (i :: fids) /\ tm s1 = tm s /\ tm s2 = tm s /\ length (mem s2) = length (mem s).
Proof.
  intros R H. pose proof (rep_q _ _ _ R) as Q. cbn [dseg] in Q. destruct Q as (Q1 & Q2). cbn [due] in H.
  pose proof (rep_nodup _ _ _ R) as N. cbn [map app fst] in N. inversion_clear N as [|? ? N1 N2].
  unfold queue_get. rewrite (rep_first _ _ _ R). cbn [hdp]. rewrite (load_live _ _ _ Q1). cbn [rbind finfo]. rewrite H. cbn [later].
  assert (TF : forall s1, free_frames s1 = hd_error fids -> tm s1 = tm s -> length (mem s1) = length (mem s) ->
      live (mem s1) i {| finfo := f; earlier := None; later := hdp r None |} ->
      dseg (mem s1) None r None -> sseg (mem s1) fids -> first_frame s1 = hdp r None -> last_frame s1 = lastp None r ->
      exists s2 c, load (mem s1) (Some i) = Ok c /\ finfo c = f /\ to_free s1 (Some i) = Ok s2 /\
       load (mem s2) (Some i) = Ok {| finfo := f; earlier := earlier c; later := hd_error fids |} /\ rep s2 r (i :: fids) /\ tm s1 = tm s /\ tm s2 = tm s /\ length (mem s2) = length (mem s)).
  { clear - N1 N2. intros s1 F T L V Q S A B. unfold to_free. destruct (set_later_ok _ _ _ (free_frames s1) V) as (h & E & G & (K1 & K2)). rewrite E. cbn [rbind].
    eexists _, _. split; [apply load_live; exact V|]. split; [reflexivity|]. split; [reflexivity|]. cbn [mem tm].
    split; [rewrite (load_live _ _ _ G), F; reflexivity|]. split; [|split; [assumption|split; [assumption|lia]]].
    constructor; cbn [mem first_frame last_frame free_frames]; try assumption.
    - eapply dseg_ext; [|exact Q]. intros j Hj. apply K2. intros ->. apply N1, in_or_app. left. exact Hj.
    - cbn [sseg]. split; [eexists; split; [exact G|exact F]|]. eapply sseg_ext; [|exact S].
      intros j Hj. apply K2. intros ->. apply N1, in_or_app. right. exact Hj.
    - reflexivity.
    - apply NoDup_Add with (a := i) (l := map fst r ++ fids); [apply Add_app|]. split; assumption. }
  destruct r as [|(j & g) r].
  - cbn [hdp]. edestruct (TF {| mem := mem s; first_frame := None; last_frame := None; free_frames := free_frames s; tm := tm s |})
      as (s2 & c & A1 & A2 & A3 & A4 & A5 & A6 & A7 & A8); try reflexivity; try exact Q1; try exact I.
    + apply (rep_free _ _ _ R).
    + apply (rep_f _ _ _ R).
    + eexists _, s2, c. repeat (split; [eassumption || reflexivity|]). auto.
  - cbn [hdp]. cbn [dseg] in Q2. destruct Q2 as (Q2 & Q3).
    destruct (set_earlier_ok _ _ _ None Q2) as (h & E & G & (K1 & K2)). rewrite E. cbn [rbind].
    assert (NJ : i <> j) by (intros ->; apply N1; left; reflexivity).
    assert (NR : ~ In j (map fst r ++ fids)) by (cbn [map app fst] in N2; inversion N2; assumption).
    edestruct (TF {| mem := h; first_frame := Some j; last_frame := last_frame s; free_frames := free_frames s; tm := tm s |})
      as (s2 & c & A1 & A2 & A3 & A4 & A5 & A6 & A7 & A8); try reflexivity; cbn [mem first_frame last_frame free_frames].
    + apply (rep_free _ _ _ R).
    + exact K1.
    + rewrite K2 by assumption. exact Q1.
    + cbn [dseg]. split; [exact G|]. eapply dseg_ext; [|exact Q3]. intros k Hk. apply K2. intros ->. apply NR, in_or_app. left. exact Hk.
    + eapply sseg_ext; [|apply (rep_f _ _ _ R)]. intros k Hk. apply K2. intros ->. apply NR, in_or_app. right. exact Hk.
    + rewrite (rep_last _ _ _ R). apply lastp_cons. discriminate.
    + eexists _, s2, c. repeat (split; [eassumption || reflexivity|]). auto.
Qed.

(** ---- playout_put ---- *)
Lemma split_snoc x q f : split_at x (q ++ [f]) = if x <? fstamp f then (let (a, b) := split_at x q in (a, b ++ [f])) else (q ++ [f], []).
Proof.
  induction q as [|y q IH]; cbn [app split_at].
  - destruct (x <? fstamp f); reflexivity.
  - rewrite IH. destruct (x <? fstamp f).
    + destruct (split_at x q) as ([|a0 a] & b); [|reflexivity]. destruct (x <? fstamp y); reflexivity.
    + destruct (q ++ [f]) as [|z r] eqn:E; [destruct q; discriminate|]. reflexivity.
Qed.
Lemma split_app x q : let (a, b) := split_at x q in q = a ++ b.
Proof.
  induction q as [|y q IH]; cbn [split_at]; [reflexivity|]. destruct (split_at x q) as ([|a0 a] & b).
  - cbn in IH. subst b. destruct (x <? fstamp y); reflexivity.
  - rewrite IH. reflexivity.
Qed.
Lemma split_nodes x (l : list node) : exists a b, l = a ++ b /\ split_at x (map snd l) = (map snd a, map snd b).
Proof.
  pose proof (split_app x (map snd l)) as A. destruct (split_at x (map snd l)) as (a & b).
  exists (firstn (length a) l), (skipn (length a) l). split; [symmetry; apply firstn_skipn|].
  assert (M1 : map snd (firstn (length a) l) = firstn (length a) (map snd l)) by (symmetry; apply firstn_map).
  assert (M2 : map snd (skipn (length a) l) = skipn (length a) (map snd l)) by (clear; generalize (length a) as n; induction l as [|y l IH]; intros [|n]; cbn; auto).
  rewrite M1, M2, A, firstn_app, skipn_app, Nat.sub_diag, firstn_all, skipn_all. cbn. rewrite app_nil_r. reflexivity.
Qed.
Lemma lastp_none l : lastp None l = None -> l = [].
Proof. intros H. destruct l as [|n l]; [reflexivity|]. exfalso. destruct (exists_last (l := n :: l) ltac:(discriminate)) as (r & m & E). rewrite E, lastp_app in H. discriminate. Qed.

Lemma find_place_ok x h l : forall nxt fuel, l <> [] -> dseg h None l nxt -> (length l <= fuel)%nat ->
  forall a b, l = a ++ b -> split_at x (map snd l) = (map snd a, map snd b) ->
  find_place fuel h x (lastp None l) = Ok (match a with [] => hdp l None | _ => lastp None a end).
Proof.
  induction l as [|n l IH] using rev_ind; intros nxt fuel Hl D Hf a b E S; [contradiction|].
  rewrite app_length in Hf. cbn [length] in Hf. destruct fuel as [|fuel]; [lia|].
  apply dseg_app in D. destruct D as (D1 & D2). destruct n as (i & f). cbn [dseg hdp] in D1, D2. destruct D2 as (D2 & _).
  rewrite lastp_app. cbn [fst find_place]. rewrite (load_live _ _ _ D2). cbn [rbind earlier finfo].
  rewrite map_app in S. cbn [map snd] in S. rewrite split_snoc in S.
  destruct (lastp None l) as [p|] eqn:EL.
  - assert (Hl' : l <> []) by (intros ->; discriminate).
    destruct (x <? fstamp f).
    + destruct (split_nodes x l) as (a' & b' & E' & S'). rewrite S' in S. injection S as S1 S2.
      assert (a = a').
      { assert (length a = length a') by (rewrite <- (map_length snd a), <- S1, map_length; reflexivity).
        rewrite E' in E. rewrite <- app_assoc in E. apply (f_equal (firstn (length a))) in E. rewrite !firstn_app in E.
        replace (length a - length a')%nat with 0%nat in E by lia. rewrite Nat.sub_diag in E. cbn [firstn] in E.
        rewrite !app_nil_r in E. rewrite firstn_all in E. rewrite firstn_all2 in E by lia. symmetry. exact E. }
      subst a'. rewrite (IH (Some i) fuel Hl' D1 ltac:(lia) a b' E' S').
      destruct a; [|reflexivity]. destruct l as [|(j & g) l]; [contradiction|reflexivity].
    + injection S as S1 S2. assert (b = []) by (destruct b; [reflexivity|discriminate]). subst b. rewrite app_nil_r in E. subst a.
      rewrite lastp_app. cbn [fst]. destruct (l ++ [(i, f)]) eqn:Z; [destruct l; discriminate|reflexivity].
  - apply lastp_none in EL. subst l. cbn [app] in *. destruct a as [|n [|n2 a]]; cbn [app] in E.
    + reflexivity.
    + injection E as <- _. reflexivity.
    + discriminate.
Qed.

Lemma nodup_mid {A} (x : A) a b : NoDup (x :: a ++ b) -> NoDup (a ++ x :: b).
Proof. intros H. eapply Permutation_NoDup; [|exact H]. apply Permutation_middle. Qed.

Lemma nodup_left {A} (a b : list A) : NoDup (a ++ b) -> NoDup a.
Proof. induction a as [|x a IH]; intros H; [constructor|]. cbn in H. inversion_clear H. constructor; [intros K; apply H0, in_or_app; auto|auto]. Qed.

(** Linking a frame into the queue. *)
Definition link (h : heap) (fst0 lst0 p : ptr) (f : info) : res (heap * ptr * ptr * Z) :=
  match lst0 with
  | None => do h <- store h p {| finfo := f; earlier := None; later := None |} ; Ok (h, p, p, 0)
  | Some _ =>
      do lc <- load h lst0 ;
      if fstamp (finfo lc) <=? fstamp f then
        do h <- store h p {| finfo := f; earlier := lst0; later := None |} ;
        do h <- set_later h lst0 p ;
        Ok (h, fst0, p, 0)
      else
        do q <- find_place (length h) h (fstamp f) lst0 ;
        do qc <- load h q ;
        match earlier qc with
        | Some _ =>
            do h <- store h p {| finfo := f; earlier := q; later := later qc |} ;
            do h <- set_earlier h (later qc) p ;
            do h <- set_later h q p ;
            Ok (h, fst0, lst0, 1)
        | None =>
            do h <- store h p {| finfo := f; earlier := None; later := q |} ;
            do h <- set_earlier h q p ;
            Ok (h, p, lst0, 1)
        end
  end.
Lemma dseg_length h l : forall prev nxt, dseg h prev l nxt -> NoDup (map fst l) -> (length l <= length h)%nat.
Proof.
  intros prev nxt D N. rewrite <- (map_length fst l), <- (seq_length (length h) 0). apply NoDup_incl_length; [exact N|].
  intros i Hi. apply in_map_iff in Hi. destruct Hi as ((j & f) & <- & Hi). destruct (dseg_live _ _ _ _ _ _ D Hi) as (c & L & _).
  apply in_seq. pose proof (live_lt _ _ _ L). cbn. lia.
Qed.
Lemma link_ok h i c0 f ids fids : live h i c0 -> dseg h None ids None -> sseg h fids -> NoDup (i :: map fst ids ++ fids) ->
  exists h' ids' oos, link h (hdp ids None) (lastp None ids) (Some i) f = Ok (h', hdp ids' None, lastp None ids', oos) /\
    dseg h' None ids' None /\ sseg h' fids /\ length h' = length h /\ NoDup (map fst ids' ++ fids) /\
    Permutation ((i, f) :: ids) ids' /\ map snd ids' = placed f (map snd ids).
Proof.
  intros L D S N. unfold link. inversion_clear N as [|? ? N1 N2].
  assert (NI : forall j, In j (map fst ids) -> j <> i) by (intros j Hj ->; apply N1, in_or_app; auto).
  assert (NF : forall j, In j fids -> j <> i) by (intros j Hj ->; apply N1, in_or_app; auto).
  assert (ND : NoDup (map fst ids)) by (exact (nodup_left _ _ N2)).
  assert (DF : forall j, In j fids -> ~ In j (map fst ids)).
  { intros j H1 H2. clear - N2 H1 H2. induction (map fst ids) as [|k l IH]; [contradiction|]. cbn in N2. inversion_clear N2 as [|? ? A B].
    destruct H2 as [->|H2]; [apply A, in_or_app; auto|]. auto. }
  destruct ids as [|n0 ids0].
  { cbn [lastp fold_left]. destruct (store_ok h i c0 {| finfo := f; earlier := None; later := None |} L) as (h1 & E1 & G1 & (K1 & K2)). rewrite E1. cbn [rbind].
    exists h1, [(i, f)], 0. split; [reflexivity|]. split; [cbn [dseg hdp]; auto|]. split; [eapply sseg_ext; [|exact S]; intros j Hj; apply K2; auto|].
    split; [exact K1|]. split; [cbn [map app fst]; constructor; [intros H; apply (NF i H); reflexivity|exact N2]|]. split; [apply Permutation_refl|reflexivity]. }
  destruct (exists_last (l := n0 :: ids0) ltac:(discriminate)) as (l' & (t & ft) & E0).
  rewrite E0 in *. clear n0 ids0 E0. set (ids := l' ++ [(t, ft)]) in *.
  assert (HL : lastp None ids = Some t) by apply lastp_app.
  pose proof D as D0. unfold ids in D0. apply dseg_app in D0. destruct D0 as (DL & DT). cbn [dseg hdp] in DL, DT. destruct DT as (DT & _).
  rewrite HL. rewrite (load_live _ _ _ DT). cbn [rbind finfo].
  assert (TI : t <> i) by (apply NI; unfold ids; rewrite map_app; apply in_or_app; right; left; reflexivity).
  assert (TF : ~ In t fids) by (intros H; apply (DF t H); unfold ids; rewrite map_app; apply in_or_app; right; left; reflexivity).
  destruct (Z.leb_spec (fstamp ft) (fstamp f)) as [C|C].
  - (* at the end *)
    destruct (store_ok h i c0 {| finfo := f; earlier := Some t; later := None |} L) as (h1 & E1 & G1 & (K1 & K2)). rewrite E1. cbn [rbind].
    assert (DT1 : live h1 t {| finfo := ft; earlier := lastp None l'; later := None |}) by (rewrite K2 by assumption; exact DT).
    destruct (set_later_ok _ _ _ (Some i) DT1) as (h2 & E2 & G2 & (K3 & K4)). rewrite E2. cbn [rbind finfo earlier] in *.
    exists h2, (ids ++ [(i, f)]), 0. split; [rewrite lastp_app; unfold ids; destruct l' as [|(j & g) l']; reflexivity|].
    split.
    { apply dseg_app. cbn [dseg hdp]. split; [|split; [|exact I]].
      - unfold ids. apply dseg_app. cbn [dseg hdp]. split; [|split; [exact G2|exact I]].
        eapply dseg_ext; [|exact DL]. intros j Hj. assert (j <> t).
        { intros ->. unfold ids in ND. rewrite map_app in ND. apply NoDup_remove_2 in ND. apply ND. rewrite app_nil_r. exact Hj. }
        rewrite K4 by assumption. apply K2. apply NI. unfold ids. rewrite map_app. apply in_or_app; auto.
      - rewrite HL. rewrite K4 by auto. exact G1. }
    split; [eapply sseg_ext; [|exact S]; intros j Hj; rewrite K4 by (intros ->; auto); apply K2; auto|].
    split; [lia|]. split; [rewrite map_app; cbn [map fst]; rewrite <- app_assoc; apply nodup_mid; constructor; assumption|].
    split; [apply Permutation_cons_append|].
    unfold placed, ids. rewrite !map_app. cbn [map snd]. rewrite split_snoc. destruct (Z.ltb_spec (fstamp f) (fstamp ft)); [lia|].
    destruct (map snd l' ++ [ft]) as [|y [|y2 r]] eqn:EE; reflexivity.
  - destruct (split_nodes (fstamp f) ids) as (a & b & E & SP).
    assert (Hne : ids <> []) by (unfold ids; destruct l'; discriminate).
    assert (FP := find_place_ok (fstamp f) h ids None (length h) Hne D (dseg_length _ _ _ _ D ND) a b E SP). rewrite HL in FP. rewrite FP. cbn [rbind]. clear FP.
    assert (Hb : exists b', b = b' ++ [(t, ft)]).
    { unfold ids in SP. rewrite map_app in SP. cbn [map snd] in SP. rewrite split_snoc in SP. destruct (Z.ltb_spec (fstamp f) (fstamp ft)); [|lia].
      destruct b as [|n1 b1] using rev_ind; [destruct (split_at _ _) as (u & v); injection SP as _ SP; destruct v; discriminate|].
      unfold ids in E. rewrite app_assoc in E. apply app_inj_tail in E. destruct E as (_ & <-). exists b1. reflexivity. }
    destruct Hb as (b' & Hb).
    assert (FR : forall q fq nx, ids = (q, fq) :: nx -> live h q {| finfo := fq; earlier := None; later := hdp nx None |}) by (intros q fq nx Eq; rewrite Eq in D; cbn [dseg] in D; apply D).
    assert (FRONT : forall q fq nx, ids = (q, fq) :: nx -> placed f (map snd ids) = f :: map snd ids -> exists h' ids' oos,
       (do qc <- load h (Some q) ; match earlier qc with
         | Some _ => do h <- store h (Some i) {| finfo := f; earlier := Some q; later := later qc |} ;
                     do h <- set_earlier h (later qc) (Some i) ; do h <- set_later h (Some q) (Some i) ; Ok (h, hdp ids None, Some t, 1)
         | None => do h <- store h (Some i) {| finfo := f; earlier := None; later := Some q |} ;
                   do h <- set_earlier h (Some q) (Some i) ; Ok (h, Some i, Some t, 1) end) = Ok (h', hdp ids' None, lastp None ids', oos) /\
       dseg h' None ids' None /\ sseg h' fids /\ length h' = length h /\ NoDup (map fst ids' ++ fids) /\ Permutation ((i, f) :: ids) ids' /\ map snd ids' = placed f (map snd ids)).
    { intros q fq nx Eq EP. pose proof (FR q fq nx Eq) as Q. rewrite (load_live _ _ _ Q). cbn [rbind earlier].
      assert (QI : q <> i) by (apply NI; rewrite Eq; left; reflexivity).
      destruct (store_ok h i c0 {| finfo := f; earlier := None; later := Some q |} L) as (h1 & E1 & G1 & (K1 & K2)). rewrite E1. cbn [rbind].
      assert (Q1 : live h1 q {| finfo := fq; earlier := None; later := hdp nx None |}) by (rewrite K2 by assumption; exact Q).
      destruct (set_earlier_ok _ _ _ (Some i) Q1) as (h2 & E2 & G2 & (K3 & K4)). rewrite E2. cbn [rbind finfo later] in *.
      exists h2, ((i, f) :: ids), 1. split.
      { rewrite (lastp_cons None i f ids Hne), HL. reflexivity. }
      split.
      { rewrite Eq. cbn [dseg hdp]. split; [rewrite K4 by auto; exact G1|]. split; [exact G2|].
        rewrite Eq in D, ND. cbn [dseg] in D. eapply dseg_ext; [|apply D]. intros j Hj. assert (j <> q) by (cbn [map fst] in ND; inversion_clear ND as [|? ? Z1 Z2]; intros ->; apply Z1, Hj).
        rewrite K4 by assumption. apply K2. apply NI. rewrite Eq. right. exact Hj. }
      split; [eapply sseg_ext; [|exact S]; intros j Hj; rewrite K4; [apply K2; auto|intros ->; apply (DF q Hj); rewrite Eq; left; reflexivity]|].
      split; [lia|]. split; [cbn [map app fst]; constructor; assumption|]. split; [apply Permutation_refl|]. cbn [map snd]. symmetry. exact EP. }
    destruct a as [|(q0 & fq0) a0].
    { (* before everything *)
      cbn [app] in E. destruct ids as [|(q & fq) nx] eqn:EI; [contradiction|]. rewrite <- EI in *.
      assert (HQ : hdp ids None = Some q) by (rewrite EI; reflexivity). specialize (FRONT q fq nx EI). rewrite <- HQ in FRONT.
      apply FRONT. unfold placed. rewrite SP. cbn [map app]. rewrite E. reflexivity. }
    destruct a0 as [|n1 a0].
    { (* after the first: the frame goes in front *)
      cbn [lastp fold_left fst]. apply (FRONT q0 fq0 b E). unfold placed. rewrite SP. cbn [map snd]. rewrite E. cbn [app map snd].
      destruct (map snd b) eqn:EB; [|reflexivity]. rewrite Hb, map_app in EB. destruct (map snd b'); discriminate. }
    (* in the middle *)
    set (a := (q0, fq0) :: n1 :: a0) in *. destruct (exists_last (l := n1 :: a0) ltac:(discriminate)) as (a1 & (q & fq) & E1).
    assert (Ea : a = ((q0, fq0) :: a1) ++ [(q, fq)]) by (unfold a; rewrite E1; reflexivity).
    set (ap := (q0, fq0) :: a1) in *. rewrite Ea. rewrite lastp_app. cbn [fst].
    destruct b as [|(r & fr) b2]; [destruct b'; discriminate|].
    assert (D' := D). rewrite E, Ea in D'. apply dseg_app in D'. destruct D' as (DA & DB). apply dseg_app in DA. destruct DA as (DA & DQ).
    rewrite lastp_app in DB. cbn [fst] in DB. cbn [dseg hdp] in DA, DQ, DB. destruct DQ as (DQ & _). destruct DB as (DR & DB).
    rewrite (load_live _ _ _ DQ). cbn [rbind earlier].
    destruct (lastp None ap) as [pp|] eqn:EP; [|apply lastp_none in EP; discriminate]. cbn [later].
    assert (ND' := ND). rewrite E, Ea in ND'. rewrite <- app_assoc, !map_app in ND'. cbn [map app fst] in ND'.
    assert (M1 : ~ In q (map fst ap ++ r :: map fst b2)) by (apply NoDup_remove_2 in ND'; exact ND').
    assert (M2 : ~ In r (map fst ap ++ q :: map fst b2)).
    { pose proof (@Permutation_NoDup nat _ _ (Permutation_app_head (map fst ap) (perm_swap r q (map fst b2))) ND') as P. apply NoDup_remove_2 in P. exact P. }
    assert (INQ : In q (map fst ids)) by (rewrite E, Ea, <- app_assoc, map_app; apply in_or_app; right; left; reflexivity).
    assert (INR : In r (map fst ids)) by (rewrite E, map_app; apply in_or_app; right; left; reflexivity).
    assert (QI : i <> q) by (intros Z; apply (NI q INQ); symmetry; exact Z). assert (RI : i <> r) by (intros Z; apply (NI r INR); symmetry; exact Z).
    assert (QR : q <> r) by (intros ->; apply M1, in_or_app; right; left; reflexivity).
    destruct (store_ok h i c0 {| finfo := f; earlier := Some q; later := Some r |} L) as (h1 & F1 & G1 & (K1 & K2)). rewrite F1. cbn [rbind].
    assert (DR1 : live h1 r {| finfo := fr; earlier := Some q; later := hdp b2 None |}) by (rewrite K2 by auto; exact DR).
    destruct (set_earlier_ok _ _ _ (Some i) DR1) as (h2 & F2 & G2 & (K3 & K4)). rewrite F2. cbn [rbind finfo later] in *.
    assert (DQ2 : live h2 q {| finfo := fq; earlier := Some pp; later := Some r |}) by (rewrite K4, K2 by auto; exact DQ).
    destruct (set_later_ok _ _ _ (Some i) DQ2) as (h3 & F3 & G3 & (K5 & K6)). rewrite F3. cbn [rbind finfo earlier] in *.
    assert (KK : forall j, j <> i -> j <> q -> j <> r -> nth_error h3 j = nth_error h j) by (intros j J1 J2 J3; rewrite K6, K4, K2 by assumption; reflexivity).
    exists h3, (a ++ (i, f) :: (r, fr) :: b2), 1. split.
    { f_equal. f_equal. f_equal; [f_equal|].
      - rewrite E. unfold a. reflexivity.
      - rewrite <- HL, E. change ((i, f) :: (r, fr) :: b2) with ([(i, f)] ++ (r, fr) :: b2). rewrite Hb.
        rewrite !app_assoc. rewrite !lastp_app. reflexivity. }
    split.
    { rewrite Ea. apply dseg_app. rewrite lastp_app. cbn [dseg hdp fst]. split.
      - apply dseg_app. cbn [dseg hdp]. split; [|split; [|exact I]].
        + eapply dseg_ext; [|exact DA]. intros j Hj. apply KK.
          * apply NI. rewrite E, Ea, <- app_assoc, map_app. apply in_or_app; auto.
          * intros ->. apply M1, in_or_app; auto.
          * intros ->. apply M2, in_or_app; auto.
        + rewrite EP. exact G3.
      - split; [rewrite K6, K4 by auto; exact G1|]. split; [rewrite K6 by auto; exact G2|].
        eapply dseg_ext; [|exact DB]. intros j Hj. apply KK.
        + apply NI. rewrite E, map_app. apply in_or_app; right; right; exact Hj.
        + intros ->. apply M1, in_or_app; right; right; exact Hj.
        + intros ->. apply M2, in_or_app; right; right; exact Hj. }
    split; [eapply sseg_ext; [|exact S]; intros j Hj; apply KK; [auto|intros ->; apply (DF q Hj INQ)|intros ->; apply (DF r Hj INR)]|].
    split; [lia|]. rewrite E. split.
    { rewrite map_app. cbn [map fst]. rewrite <- app_assoc. cbn [app]. apply nodup_mid.
      rewrite E, map_app, <- app_assoc in N1, N2. cbn [map fst app] in N1, N2. constructor; assumption. }
    split; [apply Permutation_middle|].
    unfold placed. rewrite E in SP. rewrite SP. unfold a. cbn [map snd app]. rewrite map_app. cbn [map snd].
    destruct n1 as (j1 & g1). reflexivity.
Qed.

Definition started (t : timing) (f : info) : timing :=
  if start t && (ftype f =? PLAYOUT_TYPE_SPEECH) then
    {| dynamic := dynamic t; min_length := min_length t; max_length := max_length t; dropable_threshold := dropable_threshold t; start := false;
       frames_in := frames_in t; frames_out := frames_out t; frames_oos := frames_oos t; frames_late := frames_late t; frames_missing := frames_missing t;
       latest_expected := latest_expected t; last_stamp := s32 (fstamp f - flen f - min_length t); last_len := flen f;
       not_first := not_first t; since_last_step := since_last_step t; state_jit := state_jit t; state_late := state_late t;
       target_length := target_length t;
       ovf := ovf t || ov (fstamp f - flen f) || ov (fstamp f - flen f - min_length t) |}
  else t.
Lemma link_in_put m s f : playout_put m s f =
  (do (p, h, fr) <-
    match free_frames s with
    | Some _ =>
        do c <- load (mem s) (free_frames s) ;
        do h <- store (mem s) (free_frames s) {| finfo := f; earlier := earlier c; later := later c |} ;
        Ok (free_frames s, h, later c)
    | None =>
        if m then Ok (Some (length (mem s)), mem s ++ [Some {| finfo := f; earlier := None; later := None |}], None)
        else Ok (None, mem s, None)
    end ;
  match p with
  | None => Ok (PLAYOUT_ERROR, with_tm s (count (tm s) 1 0 0 0 0))
  | Some _ =>
      do (h, fst, lst, oos) <- link h (first_frame s) (last_frame s) p f ;
      Ok (PLAYOUT_OK, {| mem := h; first_frame := fst; last_frame := lst; free_frames := fr; tm := started (count (count (tm s) 1 0 0 0 0) 0 0 oos 0 0) f |})
  end).
Proof. reflexivity. Qed.

(** Live cells in no list: lost when a queue is dropped by playout_restart. *)
Definition all_used (h : heap) (l : list nat) := forall i c, live h i c -> In i l.

Lemma put_ok m s f ids fids : rep s ids fids ->
  (fids = [] /\ m = false /\ playout_put m s f = Ok (PLAYOUT_ERROR, with_tm s (count (tm s) 1 0 0 0 0))) \/
  (exists s' ids' oos, playout_put m s f = Ok (PLAYOUT_OK, s') /\ rep s' ids' (tl fids) /\ map snd ids' = placed f (map snd ids) /\
     tm s' = started (count (count (tm s) 1 0 0 0 0) 0 0 oos 0 0) f /\
     Permutation (map fst ids' ++ tl fids) (match fids with [] => length (mem s) :: map fst ids | i :: r => i :: map fst ids ++ r end) /\
     length (mem s') = (length (mem s) + match fids with [] => 1 | _ => 0 end)%nat).
Proof.
  intros R. rewrite link_in_put. rewrite (rep_free _ _ _ R). destruct fids as [|i r]; cbn [hd_error tl].
  - destruct m; [right|left; auto]. cbn [rbind].
    set (h1 := mem s ++ [Some {| finfo := f; earlier := None; later := None |}]).
    assert (LT : forall j, In j (map fst ids) -> (j < length (mem s))%nat).
    { intros j Hj. apply in_map_iff in Hj. destruct Hj as ((k & g) & <- & Hj). destruct (dseg_live _ _ _ _ _ _ (rep_q _ _ _ R) Hj) as (c & L & _). eapply live_lt, L. }
    destruct (link_ok h1 (length (mem s)) {| finfo := f; earlier := None; later := None |} f ids []) as (h' & ids' & oos & E & D & S & HL & N & P & M).
    + unfold h1. rewrite nth_error_app2, Nat.sub_diag by lia. reflexivity.
    + eapply dseg_ext; [|apply (rep_q _ _ _ R)]. intros j Hj. unfold h1. apply nth_error_app1. apply LT, Hj.
    + exact I.
    + constructor; [|apply (rep_nodup _ _ _ R)]. rewrite app_nil_r. intros H. specialize (LT _ H). lia.
    + rewrite (rep_first _ _ _ R), (rep_last _ _ _ R), E. cbn [rbind]. eexists _, ids', oos. split; [reflexivity|]. split; [constructor; try assumption; reflexivity|].
      split; [exact M|]. split; [reflexivity|]. cbn [mem]. split; [|rewrite HL; unfold h1; rewrite app_length; reflexivity].
      rewrite app_nil_r. apply Permutation_sym. change (length (mem s) :: map fst ids) with (map fst ((length (mem s), f) :: ids)). apply Permutation_map, P.
  - right. pose proof (rep_f _ _ _ R) as F. cbn [sseg] in F. destruct F as ((c & L & EL) & F). rewrite (load_live _ _ _ L). cbn [rbind].
    destruct (store_ok _ _ _ {| finfo := f; earlier := earlier c; later := later c |} L) as (h1 & E1 & G1 & (K1 & K2)). rewrite E1. cbn [rbind].
    pose proof (rep_nodup _ _ _ R) as N0. pose proof (NoDup_remove_2 _ _ _ N0) as NI. pose proof (NoDup_remove_1 _ _ _ N0) as N1.
    destruct (link_ok h1 i _ f ids r G1) as (h' & ids' & oos & E & D & S & HL & N & P & M).
    + eapply dseg_ext; [|apply (rep_q _ _ _ R)]. intros j Hj. apply K2. intros ->. apply NI, in_or_app; auto.
    + eapply sseg_ext; [|exact F]. intros j Hj. apply K2. intros ->. apply NI, in_or_app; auto.
    + constructor; assumption.
    + rewrite (rep_first _ _ _ R), (rep_last _ _ _ R), E. cbn [rbind]. eexists _, ids', oos. split; [reflexivity|]. split; [constructor; try assumption; try reflexivity; exact EL|].
      split; [exact M|]. split; [reflexivity|]. cbn [mem]. split; [|lia].
      apply Permutation_sym. change (i :: map fst ids ++ r) with (map fst ((i, f) :: ids) ++ r). apply Permutation_app_tail, Permutation_map, P.
Qed.

(** ---- playout_get ---- *)
Definition get_timing (t0 : timing) (f : info) : Z * timing :=
  let t1 := if dynamic t0 && (ftype f =? PLAYOUT_TYPE_SPEECH) then assess t0 f else t0 in
  if negb (ftype f =? PLAYOUT_TYPE_SPEECH) then (PLAYOUT_OK, count (add_stamp t1 (- last_len t1)) 0 1 0 0 0)
  else if fstamp f <? last_stamp t1 then (PLAYOUT_DROP, count (add_stamp t1 (- last_len t1)) 0 1 0 1 (-1))
  else (PLAYOUT_OK, count (if 0 <? flen f then set_len t1 (flen f) else t1) 0 1 0 0 0).
Lemma get_ok s ids fids : rep s ids fids ->
  let t0 := add_stamp (tm s) (last_len (tm s)) in
  match ids with
  | (i, f) :: r =>
      if fstamp f <=? last_stamp t0 then
        exists s', playout_get s = Ok (fst (get_timing t0 f), Some f, s') /\ rep s' r (i :: fids) /\ tm s' = snd (get_timing t0 f) /\ length (mem s') = length (mem s)
      else playout_get s = Ok (PLAYOUT_FILLIN, None, with_tm s (count t0 0 0 0 0 1))
  | [] => playout_get s = Ok (PLAYOUT_FILLIN, None, with_tm s (count t0 0 0 0 0 1))
  end.
Proof.
  intros R t0. unfold playout_get. fold t0. pose proof (rep_tm s t0 _ _ R) as R'.
  destruct ids as [|(i & f) r].
  - rewrite (queue_get_none _ _ _ _ R' eq_refl). reflexivity.
  - destruct (fstamp f <=? last_stamp t0) eqn:E.
    + destruct (take_first _ _ _ _ _ (last_stamp t0) R' E) as (s1 & s2 & c & A1 & A2 & A3 & A4 & A5 & A6 & A7 & A8 & A9).
      rewrite A1. cbn [rbind]. rewrite A2. cbn [rbind]. rewrite A3, A4. cbn [rbind]. unfold get_timing.
      destruct (negb (ftype f =? PLAYOUT_TYPE_SPEECH)); [|destruct (_ <? _)];
      eexists; (split; [reflexivity|]); (split; [apply rep_tm, A6|]); (split; [reflexivity|exact A9]).
    + rewrite (queue_get_none _ _ _ _ R' E). reflexivity.
Qed.
Lemma getu_ok s ids fids : rep s ids fids ->
  match ids with
  | (i, f) :: r => fstamp f <= 0x7FFFFFFF -> exists s', playout_get_unconditional s = Ok (Some f, s') /\ rep s' r (i :: fids) /\ tm s' = tm s /\ length (mem s') = length (mem s)
  | [] => playout_get_unconditional s = Ok (None, s)
  end.
Proof.
  intros R. unfold playout_get_unconditional. destruct ids as [|(i & f) r].
  - rewrite (queue_get_none _ _ _ _ R eq_refl). reflexivity.
  - intros Hf. destruct (take_first _ _ _ _ _ 0x7FFFFFFF R ltac:(cbn [due]; lia)) as (s1 & s2 & c & A1 & A2 & A3 & A4 & A5 & A6 & A7 & A8 & A9).
    rewrite A1. cbn [rbind]. rewrite A4. cbn [rbind]. rewrite A5. cbn [rbind finfo]. exists s2. auto.
Qed.

(** ---- Freeing ---- *)
Definition freed_only (h h' : heap) (l : list nat) :=
  length h' = length h /\ (forall j, ~ In j l -> nth_error h' j = nth_error h j) /\ (forall j, In j l -> nth_error h' j = Some None).
Lemma free_sseg l : forall h fuel, sseg h l -> NoDup l -> (length l <= fuel)%nat ->
  exists h', free_list fuel h (hd_error l) = Ok h' /\ freed_only h h' l.
Proof.
  induction l as [|i l IH]; intros h fuel S N Hf.
  - exists h. split; [destruct fuel; reflexivity|]. split; [reflexivity|]. split; [reflexivity|contradiction].
  - cbn [sseg] in S. destruct S as ((c & L & E) & S). inversion_clear N as [|? ? N1 N2]. destruct fuel as [|fuel]; [cbn in Hf; lia|].
    cbn [hd_error free_list]. rewrite (load_live _ _ _ L). cbn [rbind]. destruct (free1_ok _ _ _ L) as (h1 & F1 & G1 & (K1 & K2)). rewrite F1. cbn [rbind]. rewrite E.
    destruct (IH h1 fuel) as (h' & F & A & B & C).
    + eapply sseg_ext; [|exact S]. intros j Hj. apply K2. intros ->. contradiction.
    + assumption.
    + cbn in Hf. lia.
    + exists h'. split; [exact F|]. split; [lia|]. split.
      * intros j Hj. rewrite B by (intros H; apply Hj; right; exact H). apply K2. intros ->. apply Hj. left. reflexivity.
      * intros j [<-|Hj]; [|auto]. rewrite B by assumption. exact G1.
Qed.
Lemma dseg_sseg h l : forall prev, dseg h prev l None -> sseg h (map fst l).
Proof.
  induction l as [|(i & f) l IH]; intros prev D; [exact I|]. cbn [dseg] in D. destruct D as (D1 & D2). cbn [map fst sseg].
  split; [eexists; split; [exact D1|]; destruct l as [|(j & g) l]; reflexivity|]. eapply IH, D2.
Qed.
Lemma sseg_len h l : sseg h l -> NoDup l -> (length l <= length h)%nat.
Proof.
  intros S N. rewrite <- (seq_length (length h) 0). apply NoDup_incl_length; [exact N|].
  intros i Hi. destruct (sseg_live _ _ _ S Hi) as (c & L). apply in_seq. pose proof (live_lt _ _ _ L). lia.
Qed.
Lemma nodup_right {A} (a b : list A) : NoDup (a ++ b) -> NoDup b.
Proof. induction a as [|x a IH]; intros H; [exact H|]. cbn in H. inversion_clear H. auto. Qed.
Lemma nodup_disj {A} (a b : list A) x : NoDup (a ++ b) -> In x a -> In x b -> False.
Proof. induction a as [|y a IH]; intros H Ha Hb; [contradiction|]. cbn in H. inversion_clear H. destruct Ha as [->|Ha]; [apply H0, in_or_app; auto|auto]. Qed.
Lemma restart_ok s ids fids mn mx : rep s ids fids ->
  exists s', playout_restart s mn mx = Ok s' /\ rep s' [] [] /\ tm s' = timing0 mn mx.
Proof.
  intros R. unfold playout_restart. rewrite (rep_free _ _ _ R). pose proof (nodup_right _ _ (rep_nodup _ _ _ R)) as N.
  destruct (free_sseg fids (mem s) (length (mem s)) (rep_f _ _ _ R) N (sseg_len _ _ (rep_f _ _ _ R) N)) as (h' & E & _).
  rewrite E. cbn [rbind]. eexists. split; [reflexivity|]. split; [|reflexivity]. constructor; try exact I; try reflexivity. constructor.
Qed.
(** Releasing a buffer frees everything that was allocated. *)
Lemma release_ok s ids fids : rep s ids fids ->
  exists h', playout_release s = Ok h' /\ forall i, nth_error h' i = (if existsb (Nat.eqb i) (map fst ids ++ fids) then Some None else nth_error (mem s) i).
Proof.
  intros R. unfold playout_release. pose proof (rep_nodup _ _ _ R) as N. pose proof (nodup_left _ _ N) as N1. pose proof (nodup_right _ _ N) as N2.
  pose proof (dseg_sseg _ _ _ (rep_q _ _ _ R)) as Q. rewrite (rep_first _ _ _ R).
  replace (hdp ids None) with (hd_error (map fst ids)) by (destruct ids as [|(i & f) ids]; reflexivity).
  destruct (free_sseg _ (mem s) (length (mem s)) Q N1 (sseg_len _ _ Q N1)) as (h1 & E1 & L1 & A1 & B1). rewrite E1. cbn [rbind].
  assert (F : sseg h1 fids). { eapply sseg_ext; [|apply (rep_f _ _ _ R)]. intros i Hi. apply A1. intros H. eapply nodup_disj; eassumption. }
  rewrite (rep_free _ _ _ R). destruct (free_sseg _ h1 (length h1) F N2 (sseg_len _ _ F N2)) as (h2 & E2 & L2 & A2 & B2). rewrite E2.
  exists h2. split; [reflexivity|]. intros i. rewrite existsb_app.
  assert (X : forall l, existsb (Nat.eqb i) l = true <-> In i l).
  { intros l. rewrite existsb_exists. split; [intros (j & Hj & Ej); apply Nat.eqb_eq in Ej; subst; exact Hj|intros H; exists i; split; [exact H|apply Nat.eqb_refl]]. }
  destruct (existsb (Nat.eqb i) fids) eqn:X2.
  - rewrite Bool.orb_true_r. apply B2, X, X2.
  - assert (~ In i fids) by (rewrite <- X; congruence). rewrite A2 by assumption. rewrite Bool.orb_false_r.
    destruct (existsb (Nat.eqb i) (map fst ids)) eqn:X1; [apply B1, X, X1|]. apply A1. rewrite <- X. congruence.
Qed.

(** ---- Order ---- *)
Lemma split_upper x q : Forall (fun z => x < fstamp z) (snd (split_at x q)).
Proof.
  induction q as [|y q IH]; cbn [split_at]; [constructor|]. destruct (split_at x q) as ([|a0 a] & b); cbn [snd] in *.
  - destruct (Z.ltb_spec x (fstamp y)); cbn [snd]; [constructor; assumption|assumption].
  - assumption.
Qed.
Lemma split_lower x q : sorted q -> Forall (fun z => fstamp z <= x) (fst (split_at x q)).
Proof.
  induction q as [|y q IH]; intros S; cbn [split_at]; [constructor|]. destruct S as (S1 & S2). specialize (IH S2).
  pose proof (split_app x q) as A. destruct (split_at x q) as ([|a0 a] & b); cbn [fst] in *.
  - destruct (Z.ltb_spec x (fstamp y)); cbn [fst]; repeat constructor. lia.
  - constructor; [|assumption]. inversion_clear IH. rewrite A in S1. inversion_clear S1. lia.
Qed.
Lemma sorted_app a b : sorted (a ++ b) <-> sorted a /\ sorted b /\ forall x y, In x a -> In y b -> fstamp x <= fstamp y.
Proof.
  induction a as [|z a IH]; cbn [app sorted]; [intuition; contradiction|]. rewrite IH, Forall_app, !Forall_forall. split.
  - intros ((A & B) & C & D & E). repeat split; auto. intros x y [->|Hx] Hy; auto.
  - intros ((A & B) & D & E). split; [split; [exact A|intros y Hy; apply E; [left; reflexivity|exact Hy]]|]. split; [exact B|]. split; [exact D|].
    intros x y Hx Hy. apply E; [right; exact Hx|exact Hy].
Qed.
Lemma in_order_sorted f q : sorted q -> sorted (in_order f q).
Proof.
  intros S. unfold in_order. pose proof (split_app (fstamp f) q) as A. pose proof (split_lower (fstamp f) q S) as L. pose proof (split_upper (fstamp f) q) as U.
  destruct (split_at (fstamp f) q) as (a & b). cbn [fst snd] in *. rewrite A in S. apply sorted_app in S. destruct S as (S1 & S2 & S3).
  rewrite Forall_forall in L, U. apply sorted_app. split; [exact S1|]. split.
  - split; [apply Forall_forall; intros z Hz; specialize (U z Hz); lia|exact S2].
  - intros x y Hx [->|Hy]; [apply L, Hx|auto].
Qed.
Lemma placed_perm f q : Permutation (f :: q) (placed f q).
Proof.
  unfold placed. pose proof (split_app (fstamp f) q) as A. destruct (split_at (fstamp f) q) as (a & b). subst q.
  assert (M : Permutation (f :: a ++ b) (a ++ f :: b)) by apply Permutation_middle.
  destruct a as [|y [|y2 a]]; [exact M| |exact M]. destruct b; [exact M|apply Permutation_refl].
Qed.
(** Exactly when the queue stays in order. *)
Lemma placed_sorted f q : sorted q ->
  (sorted (placed f q) <-> ~ exists y z r, q = y :: z :: r /\ fstamp y < fstamp f < fstamp z).
Proof.
  intros S. pose proof (in_order_sorted f q S) as O. unfold in_order, placed in *. pose proof (split_app (fstamp f) q) as A. pose proof (split_upper (fstamp f) q) as U.
  pose proof (split_lower (fstamp f) q S) as L.
  destruct (split_at (fstamp f) q) as (a & b). cbn [fst snd] in *. subst q.
  assert (OK : (a = [] \/ (exists y1 y2 r, a = y1 :: y2 :: r) \/ b = []) -> sorted (a ++ f :: b) <-> ~ exists y z r, a ++ b = y :: z :: r /\ fstamp y < fstamp f < fstamp z).
  { intros C. split; [|auto]. intros _ (y & z & r & E & H). destruct C as [C|[(y1 & y2 & r2 & C)|C]]; subst.
    - cbn [app] in E. subst b. inversion_clear U. lia.
    - cbn [app] in E. injection E as -> -> _. inversion_clear L as [|? ? L1 L2]. inversion_clear L2. lia.
    - rewrite app_nil_r in E. subst a. inversion_clear L as [|? ? L1 L2]. inversion_clear L2. lia. }
  destruct a as [|y [|y2 a]]; [apply OK; auto| |apply OK; right; left; eauto]. destruct b as [|z b]; [apply OK; auto|].
  clear OK. cbn [app] in *. inversion_clear U as [|? ? U1 U2]. inversion_clear L as [|? ? L1 L2]. split.
  - intros H (y' & z' & r & E & G). injection E as <- <- <-. destruct H as (H & _). inversion_clear H. lia.
  - intros N. assert (fstamp y = fstamp f) by (destruct (Z.eq_dec (fstamp y) (fstamp f)); [assumption|exfalso; apply N; exists y, z, b; split; [reflexivity|lia]]).
    destruct S as (S1 & S2). split; [|split; assumption]. constructor; [lia|]. rewrite Forall_forall in *. intros w Hw. specialize (S1 w Hw). lia.
Qed.
