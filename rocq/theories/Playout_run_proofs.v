(** Proofs about sessions with the play-out buffer. *)
From Verif Require Import Base Playout_model Playout_spec Playout_proofs.
From Coq Require Import ZifyBool ZifyNat Permutation.
Local Open Scope Z_scope.

Definition ok_stamps (ids : list (nat * info)) : Prop := Forall (fun f => fstamp f <= 0x7FFFFFFF) (map snd ids).
Definition full (s : playout) (ids : list (nat * info)) (fids : list nat) : Prop :=
  Permutation (map fst ids ++ fids) (seq 0 (length (mem s))).

Lemma run1_ok o s ids fids : rep s ids fids -> ok_stamps ids -> op_ok o ->
  exists x s' ids' fids', run1 o s = Ok (x, s') /\ rep s' ids' fids' /\ ok_stamps ids' /\
   (no_restart o -> (full s ids fids -> full s' ids' fids') /\
     match put_in x with
     | [f] => got_out x = [] /\ map snd ids' = placed f (map snd ids)
     | _ => put_in x = [] /\ map snd ids = got_out x ++ map snd ids'
     end).
Proof.
  intros R H O. destruct o as [m f| | |mn mx]; cbn [run1 no_restart].
  - destruct (put_ok m s f ids fids R) as [(A & B & C)|(s' & ids' & oos & A & B & C & D & P & HL)].
    + rewrite C. cbn [rbind]. eexists _, _, ids, fids. split; [reflexivity|]. split; [apply rep_tm, R|]. split; [assumption|]. intros _. split; [intros F; exact F|].
      cbn [put_in got_out]. split; reflexivity.
    + rewrite A. cbn [rbind]. eexists _, _, ids', (tl fids). split; [reflexivity|]. split; [assumption|]. split.
      * unfold ok_stamps. rewrite C. eapply Permutation_Forall; [apply placed_perm|]. constructor; [exact O|exact H].
      * intros _. split; [|cbn [put_in got_out PLAYOUT_OK]; auto]. intros F. unfold full in *. eapply Permutation_trans; [exact P|]. rewrite HL.
        destruct fids as [|i r].
        -- rewrite app_nil_r in F. rewrite Nat.add_1_r, seq_S. cbn [Nat.add]. eapply Permutation_trans; [|apply Permutation_cons_append]. apply perm_skip, F.
        -- rewrite Nat.add_0_r. eapply Permutation_trans; [|exact F]. apply Permutation_middle.
  - pose proof (get_ok s ids fids R) as G. cbv zeta in G.
    assert (FI : playout_get s = Ok (PLAYOUT_FILLIN, None, with_tm s (count (add_stamp (tm s) (last_len (tm s))) 0 0 0 0 1)) ->
       exists x s' ids' fids', (do (c, f, s0) <- playout_get s; Ok (SGet c f, s0)) = Ok (x, s') /\ rep s' ids' fids' /\ ok_stamps ids' /\
         (True -> (full s ids fids -> full s' ids' fids') /\ match put_in x with [f] => got_out x = [] /\ map snd ids' = placed f (map snd ids) | _ => put_in x = [] /\ map snd ids = got_out x ++ map snd ids' end)).
    { intros E. rewrite E. cbn [rbind]. eexists _, _, ids, fids. split; [reflexivity|]. split; [apply rep_tm, R|]. split; [assumption|]. intros _. split; [intros F; exact F|]. split; reflexivity. }
    destruct ids as [|(i & f) r]; [apply FI, G|]. destruct (fstamp f <=? _) eqn:E; [|apply FI, G]. clear FI.
    destruct G as (s' & G1 & G2 & G3 & G4). rewrite G1. cbn [rbind]. eexists _, s', r, (i :: fids). split; [reflexivity|]. split; [assumption|].
    split; [inversion H; assumption|]. intros _. cbn [put_in got_out map snd app]. split; [|split; reflexivity].
    intros F. unfold full in *. rewrite G4. eapply Permutation_trans; [|exact F]. cbn [map fst app]. apply Permutation_sym, Permutation_middle.
  - pose proof (getu_ok s ids fids R) as G. destruct ids as [|(i & f) r].
    + rewrite G. cbn [rbind]. eexists _, s, [], fids. split; [reflexivity|]. split; [assumption|]. split; [assumption|]. intros _. split; [auto|]. split; reflexivity.
    + inversion_clear H as [|? ? H1 H2]. destruct (G H1) as (s' & G1 & G2 & G3 & G4). rewrite G1. cbn [rbind]. eexists _, s', r, (i :: fids). split; [reflexivity|]. split; [assumption|].
      split; [assumption|]. intros _. cbn [put_in got_out map snd app]. split; [|split; reflexivity].
      intros F. unfold full in *. rewrite G4. eapply Permutation_trans; [|exact F]. cbn [map fst app]. apply Permutation_sym, Permutation_middle.
  - destruct (restart_ok s ids fids mn mx R) as (s' & E & R' & _). rewrite E. cbn [rbind]. eexists _, s', [], []. split; [reflexivity|]. split; [assumption|].
    split; [constructor|]. contradiction.
Qed.

Lemma run_ok ops : forall s ids fids, rep s ids fids -> ok_stamps ids -> Forall op_ok ops ->
  exists log s' ids' fids', run ops s = Ok (log, s') /\ rep s' ids' fids' /\ ok_stamps ids' /\
   (Forall no_restart ops ->
     (full s ids fids -> full s' ids' fids') /\
     Permutation (map snd ids ++ flat_map put_in log) (flat_map got_out log ++ map snd ids') /\
     (sorted (map snd ids ++ flat_map put_in log) -> map snd ids ++ flat_map put_in log = flat_map got_out log ++ map snd ids')).
Proof.
  induction ops as [|o ops IH]; intros s ids fids R H O; cbn [run].
  - exists [], s, ids, fids. cbn [flat_map]. rewrite app_nil_r. cbn [app]. repeat (split; [assumption || reflexivity|]). intros _. split; [auto|]. split; [apply Permutation_refl|auto].
  - inversion_clear O as [|? ? O1 O2]. destruct (run1_ok o s ids fids R H O1) as (x & s1 & ids1 & fids1 & E1 & R1 & H1 & C1). rewrite E1. cbn [rbind].
    destruct (IH s1 ids1 fids1 R1 H1 O2) as (log & s' & ids' & fids' & E2 & R2 & H2 & C2). rewrite E2. cbn [rbind].
    exists (x :: log), s', ids', fids'. split; [reflexivity|]. split; [assumption|]. split; [assumption|].
    intros N. inversion_clear N as [|? ? N1 N2]. destruct (C1 N1) as (F1 & D1). destruct (C2 N2) as (F2 & P2 & S2). split; [auto|]. cbn [flat_map].
    assert (CASE : (exists f, put_in x = [f] /\ got_out x = [] /\ map snd ids1 = placed f (map snd ids)) \/ (put_in x = [] /\ map snd ids = got_out x ++ map snd ids1)).
    { destruct (put_in x) as [|f [|g l]] eqn:EP; [right; exact D1|left; exists f; tauto|exfalso; destruct D1; discriminate]. }
    destruct CASE as [(f & A & B & C)|(A & B)].
    + rewrite A, B. cbn [app]. split.
      * eapply Permutation_trans; [|exact P2]. eapply Permutation_trans; [apply Permutation_sym, Permutation_middle|]. rewrite C.
        change (f :: map snd ids ++ flat_map put_in log) with ((f :: map snd ids) ++ flat_map put_in log). apply Permutation_app_tail, placed_perm.
      * intros S. assert (PE : placed f (map snd ids) = map snd ids ++ [f]).
        { change (f :: flat_map put_in log) with ([f] ++ flat_map put_in log) in S. rewrite app_assoc in S. apply sorted_app in S. destruct S as (S & _ & _). apply sorted_app in S. destruct S as (_ & _ & S).
          unfold placed. pose proof (split_app (fstamp f) (map snd ids)) as Q. pose proof (split_upper (fstamp f) (map snd ids)) as U.
          destruct (split_at (fstamp f) (map snd ids)) as (a & b). cbn [snd] in U. destruct b as [|z b].
          - rewrite app_nil_r in Q. rewrite <- Q. destruct (map snd ids) as [|y [|y2 l]]; reflexivity.
          - exfalso. inversion_clear U. specialize (S z f). rewrite Q in S. specialize (S ltac:(apply in_or_app; right; left; reflexivity) ltac:(left; reflexivity)). lia. }
        rewrite C, PE, <- app_assoc in S2. apply S2. exact S.
    + rewrite A. cbn [app]. rewrite B, <- !app_assoc. split.
      * apply Permutation_app_head, P2.
      * intros S. f_equal. apply S2. apply sorted_app in S. apply S.
Qed.

Lemma init_rep mn mx : rep (playout_init mn mx) [] [].
Proof. constructor; try exact I; try reflexivity. constructor. Qed.
Lemma drain ids : forall s fids, rep s ids fids -> ok_stamps ids -> holds s (map snd ids).
Proof.
  induction ids as [|(i & f) r IH]; intros s fids R H.
  - exists s. split; [reflexivity|]. apply (getu_ok _ _ _ R).
  - pose proof (getu_ok _ _ _ R) as G. cbn in G. inversion_clear H as [|? ? H1 H2]. destruct (G H1) as (s' & G1 & G2 & _).
    destruct (IH s' (i :: fids) G2 H2) as (s1 & E & F). exists s1. cbn [map snd length repeat run run1]. rewrite G1. cbn [rbind]. rewrite E. cbn [rbind]. auto.
Qed.
Lemma holds_unique s q ids fids : rep s ids fids -> ok_stamps ids -> holds s q -> q = map snd ids.
Proof.
  revert s ids fids. induction q as [|f q IH]; intros s ids fids R H (s1 & E & F).
  - cbn in E. injection E as <-. pose proof (getu_ok _ _ _ R) as G. destruct ids as [|(i & g) r]; [reflexivity|].
    inversion_clear H as [|? ? H1 H2]. destruct (G H1) as (s' & G1 & _). congruence.
  - cbn [length repeat run run1] in E. pose proof (getu_ok _ _ _ R) as G. destruct ids as [|(i & g) r].
    + rewrite G in E. cbn [rbind] in E. destruct (run _ _) as [(l & s2)|]; [|discriminate]. discriminate.
    + inversion_clear H as [|? ? H1 H2]. destruct (G H1) as (s' & G1 & G2 & _). rewrite G1 in E. cbn [rbind] in E.
      destruct (run (repeat GetU (length q)) s') as [(l & s2)|] eqn:E2; [|discriminate]. cbn [rbind map] in E. injection E as <- E <-.
      cbn [map snd]. f_equal. apply (IH s' r (i :: fids) G2 H2). exists s2. split; [rewrite E2, E; reflexivity|exact F].
Qed.

(** Whatever is done, nothing goes wrong in memory. *)
Lemma session_safe mn mx ops : Forall op_ok ops -> exists log s, run ops (playout_init mn mx) = Ok (log, s) /\ (exists h, playout_release s = Ok h).
Proof.
  intros O. destruct (run_ok ops _ [] [] (init_rep mn mx) ltac:(constructor) O) as (log & s' & ids & fids & E & R & _). exists log, s'. split; [exact E|].
  destruct (release_ok _ _ _ R) as (h & E2 & _). exists h. exact E2.
Qed.
Lemma session_exactly_once mn mx ops log s : Forall op_ok ops -> Forall no_restart ops -> run ops (playout_init mn mx) = Ok (log, s) ->
  exists rest, holds s rest /\ Permutation (flat_map put_in log) (flat_map got_out log ++ rest) /\
    (sorted (flat_map put_in log) -> flat_map put_in log = flat_map got_out log ++ rest) /\
    exists h, playout_release s = Ok h /\ all_freed h.
Proof.
  intros O N E0. destruct (run_ok ops _ [] [] (init_rep mn mx) ltac:(constructor) O) as (log' & s' & ids & fids & E & R & H & C). rewrite E in E0. injection E0 as -> ->.
  destruct (C N) as (F & P & S). cbn [map app] in P, S. exists (map snd ids). split; [eapply drain; eassumption|]. split; [exact P|]. split; [exact S|].
  destruct (release_ok _ _ _ R) as (h & E2 & A). exists h. split; [exact E2|]. specialize (F ltac:(unfold full; apply Permutation_refl)). unfold full in F.
  assert (LH : length h = length (mem s)).
  { unfold playout_release in E2. pose proof (rep_nodup _ _ _ R) as ND. pose proof (dseg_sseg _ _ _ (rep_q _ _ _ R)) as Q.
    destruct (Nat.lt_trichotomy (length h) (length (mem s))) as [L|[L|L]]; [|exact L|].
    - specialize (A (length h)). assert (X : In (length h) (map fst ids ++ fids)) by (eapply Permutation_in; [apply Permutation_sym, F|apply in_seq; lia]).
      replace (existsb (Nat.eqb (length h)) (map fst ids ++ fids)) with true in A by (symmetry; apply existsb_exists; exists (length h); split; [exact X|apply Nat.eqb_refl]).
      assert (nth_error h (length h) <> None) by congruence. apply nth_error_Some in H0. lia.
    - specialize (A (length (mem s))). assert (X : ~ In (length (mem s)) (map fst ids ++ fids)) by (intros X; apply (Permutation_in _ F) in X; apply in_seq in X; lia).
      replace (existsb (Nat.eqb (length (mem s))) (map fst ids ++ fids)) with false in A.
      2: { symmetry. apply Bool.not_true_iff_false. intros Y. apply existsb_exists in Y. destruct Y as (j & Y1 & Y2). apply Nat.eqb_eq in Y2. subst j. contradiction. }
      assert (nth_error h (length (mem s)) <> None) by (apply nth_error_Some; lia). rewrite A in H0. apply nth_error_Some in H0. lia. }
  apply Forall_forall. intros c Hc. apply In_nth_error in Hc. destruct Hc as (i & Hi). rewrite A in Hi.
  assert (X : In i (map fst ids ++ fids)).
  { eapply Permutation_in; [apply Permutation_sym, F|]. apply in_seq. rewrite <- LH. split; [lia|]. cbn. apply nth_error_Some. rewrite A, Hi. discriminate. }
  replace (existsb (Nat.eqb i) (map fst ids ++ fids)) with true in Hi by (symmetry; apply existsb_exists; exists i; split; [exact X|apply Nat.eqb_refl]).
  injection Hi as <-. reflexivity.
Qed.
(** Where a frame goes. *)
Lemma session_put mn mx ops log s q f m c s' : Forall op_ok ops -> run ops (playout_init mn mx) = Ok (log, s) -> holds s q -> fstamp f <= 0x7FFFFFFF ->
  playout_put m s f = Ok (c, s') ->
  (c = PLAYOUT_OK /\ holds s' (placed f q)) \/ (c = PLAYOUT_ERROR /\ m = false /\ holds s' q).
Proof.
  intros O E Q Hf P. destruct (run_ok ops _ [] [] (init_rep mn mx) ltac:(constructor) O) as (log' & s0 & ids & fids & E' & R & H & _). rewrite E in E'. injection E' as <- <-.
  pose proof (holds_unique _ _ _ _ R H Q) as ->.
  destruct (put_ok m s f ids fids R) as [(A & B & C)|(s1 & ids' & oos & A & B & C & _)].
  - right. rewrite C in P. injection P as <- <-. split; [reflexivity|]. split; [exact B|]. eapply drain; [apply rep_tm, R|exact H].
  - left. rewrite A in P. injection P as <- <-. split; [reflexivity|]. rewrite <- C. eapply drain; [exact B|]. unfold ok_stamps. rewrite C.
    eapply Permutation_Forall; [apply placed_perm|]. constructor; [exact Hf|exact H].
Qed.

(** ---- Steady speech ---- *)
Section Steady.
Variables (t0 L : Z) (data recv : nat -> Z) (m : nat).
Hypothesis HL : 0 < L.
Notation sp := (speech t0 L data recv).
Definition window (a b : nat) : list info := map sp (seq a (b - a)).
Record steady_state (s : playout) (p g : nat) (ids : list (nat * info)) (fids : list nat) : Prop := {
  ss_rep : rep s ids fids;
  ss_q : map snd ids = window (g - m) p;
  ss_dyn : dynamic (tm s) = false;
  ss_min : min_length (tm s) = Z.of_nat m * L;
  ss_start : start (tm s) = (p =? 0)%nat;
  ss_last : (0 < p)%nat -> last_stamp (tm s) = t0 + (Z.of_nat g - Z.of_nat m - 1) * L /\ last_len (tm s) = L;
  ss_ovf : ovf (tm s) = false }.
Lemma s32_id x : -2147483648 <= x <= 2147483647 -> s32 x = x.
Proof. intros H. unfold s32. rewrite Z.mod_small by lia. lia. Qed.
Lemma ov_id x : -2147483648 <= x <= 2147483647 -> ov x = false.
Proof. intros H. unfold ov, fits. lia. Qed.
Lemma window_snoc a b : (a <= b)%nat -> window a (S b) = window a b ++ [sp b].
Proof. intros H. unfold window. replace (S b - a)%nat with (S (b - a)) by lia. rewrite seq_S, map_app. cbn [map]. do 3 f_equal. lia. Qed.
Lemma window_cons a b : (a < b)%nat -> window a b = sp a :: window (S a) b.
Proof. intros H. unfold window. replace (b - a)%nat with (S (b - S a)) by lia. reflexivity. Qed.
Lemma window_in a b f : In f (window a b) -> exists k, (a <= k < b)%nat /\ f = sp k.
Proof. unfold window. intros H. apply in_map_iff in H. destruct H as (k & <- & H). apply in_seq in H. exists k. split; [lia|reflexivity]. Qed.
Lemma sp_mono a b : (a <= b)%nat -> fstamp (sp a) <= fstamp (sp b).
Proof. intros H. cbn. nia. Qed.

Lemma steady_run l : forall s p g ids fids, steady_state s p g ids fids -> timely m p g l -> (g - m <= p)%nat ->
  (p = 0%nat -> g = 0%nat) ->
  -2147483648 <= t0 - (Z.of_nat m + 1) * L -> t0 + (Z.of_nat (p + g + length l) + 1) * L <= 2147483647 -> - 2147483648 <= t0 - L <= 2147483647 ->
  exists s', run (calls t0 L data recv p l) s = Ok (steady t0 L data recv m p g l, s') /\ ovf (tm s') = false.
Proof.
  induction l as [|b l IH]; intros s p g ids fids S T G P0 B1 B2 B3.
  - exists s. split; [reflexivity|apply (ss_ovf _ _ _ _ _ S)].
  - cbn [length] in B2. destruct b; cbn [calls steady run run1 timely] in *.
    + destruct (put_ok true s (sp p) ids fids (ss_rep _ _ _ _ _ S)) as [(_ & Z & _)|(s1 & ids1 & oos & A & B & C & D & _)]; [discriminate|].
      rewrite A. cbn [rbind].
      destruct (IH s1 (Datatypes.S p) g ids1 (tl fids)) as (s' & E & F); try assumption; try lia.
      * constructor; try assumption.
        -- rewrite C, (ss_q _ _ _ _ _ S), window_snoc by lia.
           unfold placed. pose proof (split_app (fstamp (sp p)) (window (g - m) p)) as Q. pose proof (split_upper (fstamp (sp p)) (window (g - m) p)) as U.
           destruct (split_at (fstamp (sp p)) (window (g - m) p)) as (a & b). cbn [snd] in U. destruct b as [|z b].
           ++ rewrite app_nil_r in Q. rewrite Q. destruct a as [|y [|y2 a]]; reflexivity.
           ++ exfalso. inversion_clear U as [|? ? U1 U2]. assert (I : In z (window (g - m) p)) by (rewrite Q; apply in_or_app; right; left; reflexivity).
              apply window_in in I. destruct I as (k & Hk & ->). pose proof (sp_mono k p ltac:(lia)). lia.
        -- rewrite D. unfold started. destruct (start _ && _); cbn; apply (ss_dyn _ _ _ _ _ S).
        -- rewrite D. unfold started. destruct (start _ && _); cbn; apply (ss_min _ _ _ _ _ S).
        -- rewrite D. unfold started. cbn [start count]. rewrite (ss_start _ _ _ _ _ S). cbn [ftype speech]. change (PLAYOUT_TYPE_SPEECH =? PLAYOUT_TYPE_SPEECH) with true.
           destruct (Nat.eqb_spec p 0); cbn [andb start]; [reflexivity|]. cbn [count start]. rewrite (ss_start _ _ _ _ _ S). destruct p; [contradiction|reflexivity].
        -- intros _. rewrite D. unfold started. cbn [start count]. rewrite (ss_start _ _ _ _ _ S). cbn [ftype speech]. change (PLAYOUT_TYPE_SPEECH =? PLAYOUT_TYPE_SPEECH) with true.
           destruct (Nat.eqb_spec p 0) as [Z|Z]; cbn [andb].
           ++ specialize (P0 Z). cbn [last_stamp last_len flen fstamp speech min_length count]. rewrite (ss_min _ _ _ _ _ S). subst p g. split; [|reflexivity].
              rewrite s32_id by lia. lia.
           ++ cbn [last_stamp last_len count]. apply (ss_last _ _ _ _ _ S). lia.
        -- rewrite D. unfold started. cbn [start count]. rewrite (ss_start _ _ _ _ _ S). cbn [ftype speech]. change (PLAYOUT_TYPE_SPEECH =? PLAYOUT_TYPE_SPEECH) with true.
           destruct (Nat.eqb_spec p 0) as [Z|Z]; cbn [andb ovf count]; rewrite (ss_ovf _ _ _ _ _ S); [|reflexivity].
           cbn [flen fstamp speech min_length count]. rewrite (ss_min _ _ _ _ _ S). subst p. rewrite !ov_id by lia. reflexivity.
      * exists s'. rewrite E. cbn [rbind]. auto.
    + destruct T as (T1 & T2 & T3). pose proof (get_ok s ids fids (ss_rep _ _ _ _ _ S)) as GO. cbv zeta in GO.
      destruct (ss_last _ _ _ _ _ S T1) as (LS & LL).
      assert (NB : -2147483648 <= t0 + (Z.of_nat g - Z.of_nat m) * L <= 2147483647) by nia.
      assert (LS2 : last_stamp (add_stamp (tm s) (last_len (tm s))) = t0 + (Z.of_nat g - Z.of_nat m) * L).
      { cbn [add_stamp last_stamp]. rewrite LS, LL, s32_id by lia. lia. }
      assert (OV2 : ovf (add_stamp (tm s) (last_len (tm s))) = false).
      { cbn [add_stamp ovf]. rewrite LS, LL, (ss_ovf _ _ _ _ _ S), ov_id by lia. reflexivity. }
      rewrite LS2 in GO.
      destruct (Nat.ltb_spec g m) as [GM|GM].
      * (* not due yet *)
        assert (Q : map snd ids = window 0 p) by (rewrite (ss_q _ _ _ _ _ S); f_equal; lia). rewrite window_cons in Q by lia.
        destruct ids as [|(i & f) r]; [discriminate|]. injection Q as Q1 Q2. subst f.
        destruct (Z.leb_spec (fstamp (sp 0)) (t0 + (Z.of_nat g - Z.of_nat m) * L)) as [C|C]; [exfalso; cbn in C; nia|].
        rewrite GO. cbn [rbind].
        destruct (IH (with_tm s (count (add_stamp (tm s) (last_len (tm s))) 0 0 0 0 1)) p (Datatypes.S g) ((i, sp 0) :: r) fids) as (s' & E & F); try assumption; try lia.
        -- constructor; try (cbn [tm with_tm count add_stamp dynamic min_length start ovf]; apply S).
           ++ apply rep_tm, (ss_rep _ _ _ _ _ S).
           ++ rewrite (ss_q _ _ _ _ _ S). f_equal. lia.
           ++ intros _. cbn [tm with_tm count last_stamp last_len]. rewrite LS2. split; [f_equal; f_equal; lia|exact LL].
           ++ exact OV2.
        -- exists s'. rewrite E. cbn [rbind]. auto.
      * assert (Q := ss_q _ _ _ _ _ S). rewrite window_cons in Q by lia.
        destruct ids as [|(i & f) r]; [discriminate|]. injection Q as Q1 Q2. subst f.
        assert (FS : fstamp (sp (g - m)) = t0 + (Z.of_nat g - Z.of_nat m) * L) by (cbn; f_equal; f_equal; lia).
        rewrite FS, Z.leb_refl in GO. destruct GO as (s1 & G1 & G2 & G3 & _). rewrite G1. cbn [rbind].
        assert (GT : get_timing (add_stamp (tm s) (last_len (tm s))) (sp (g - m)) = (PLAYOUT_OK, count (set_len (add_stamp (tm s) (last_len (tm s))) L) 0 1 0 0 0)).
        { unfold get_timing. change (dynamic (add_stamp (tm s) (last_len (tm s)))) with (dynamic (tm s)). rewrite (ss_dyn _ _ _ _ _ S). cbn [andb].
          cbn [ftype speech]. change (PLAYOUT_TYPE_SPEECH =? PLAYOUT_TYPE_SPEECH) with true. cbn [negb].
          change (fstamp {| fdata := data (g - m)%nat; ftype := PLAYOUT_TYPE_SPEECH; fstamp := t0 + Z.of_nat (g - m) * L; flen := L; frecv := recv (g - m)%nat |}) with (fstamp (sp (g - m))).
          rewrite FS, LS2, Z.ltb_irrefl. change (flen (sp (g - m))) with L. replace (0 <? L) with true by lia. reflexivity. }
        rewrite GT in G3 |- *. cbn [fst snd] in *.
        destruct (IH s1 p (Datatypes.S g) r (i :: fids)) as (s' & E & F); try assumption; try lia.
        -- constructor; rewrite ?G3; try (cbn [count set_len add_stamp dynamic min_length start ovf]; apply S).
           ++ assumption.
           ++ rewrite Q2. f_equal. lia.
           ++ intros _. cbn [count last_stamp set_len]. rewrite LS2. split; [f_equal; f_equal; lia|reflexivity].
           ++ exact OV2.
        -- exists s'. rewrite E. cbn [rbind]. auto.
Qed.
End Steady.
Lemma steady_speech t0 L data recv m l : 0 < L -> timely m 0 0 l ->
  -2147483648 <= t0 - (Z.of_nat m + 1) * L -> t0 + (Z.of_nat (length l) + 1) * L <= 2147483647 ->
  exists s', run (calls t0 L data recv 0 l) (playout_init (Z.of_nat m * L) (Z.of_nat m * L)) = Ok (steady t0 L data recv m 0 0 l, s') /\ ovf (tm s') = false.
Proof.
  intros HL T B1 B2. eapply steady_run; try eassumption; try lia; try reflexivity.
  assert (D : (Z.of_nat m * L <? Z.of_nat m * L) = false) by apply Z.ltb_irrefl.
  constructor; try reflexivity.
  - apply init_rep.
  - reflexivity.
  - cbn [tm playout_init timing0 dynamic]. unfold timing0. rewrite D. cbn [dynamic]. exact D.
  - lia.
  - cbn [tm playout_init]. unfold timing0. rewrite D. cbn [ovf]. rewrite Z.sub_diag. reflexivity.
Qed.
