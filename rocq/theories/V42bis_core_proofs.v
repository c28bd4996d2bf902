(** The string matching state shared by the V.42bis compressor and decompressor: both
    follow the same octets through the same dictionary. *)
From Verif Require Import Base V42bis_model V42bis_dict_proofs.

(** Dictionary, update_at, last_matched, last_added, length of the string in progress. *)
Record core := mkC { c_d : dict; c_u : Z; c_l : Z; c_a : Z; c_n : Z }.

(** The dictionary update at the start of a string. *)
Definition cupdate (K : core) (x : Z) : res core :=
  if c_u K =? 0 then Ok K
  else
    do m <- match_octet (c_d K) (c_u K) x;
    if m =? 0 then
      do (d, y) <- add_octet (c_d K) (c_u K) x; Ok (mkC d 0 (c_l K) y (c_n K))
    else Ok (mkC (c_d K) 0 (c_l K) (c_a K) (c_n K)).
(** One attempt to append an octet to the string: the state and whether it was taken. *)
Definition ctry (n7 : Z) (K : core) (x : Z) : res (core * bool) :=
  do K <- cupdate K x;
  do code <- match_octet (c_d K) (c_l K) x;
  if code =? 0 then Ok (mkC (c_d K) (c_l K) 0 (c_a K) 0, false)
  else if code =? c_a K then Ok (mkC (c_d K) (c_u K) 0 0 0, false)
  else if c_n K + 1 =? n7 then Ok (mkC (c_d K) (c_u K) 0 (c_a K) 0, true)
  else Ok (mkC (c_d K) (c_u K) code (c_a K) (c_n K + 1), true).
(** Taking one octet: at most two attempts. *)
Definition cstep (n7 : Z) (K : core) (x : Z) : res core :=
  do (K, t) <- ctry n7 K x;
  if t then Ok K
  else do (K, t) <- ctry n7 K x; if t then Ok K else UB.
Fixpoint crun (n7 : Z) (K : core) (w : list Z) : res core :=
  match w with [] => Ok K | x :: t => do K <- cstep n7 K x; crun n7 K t end.
Lemma crun_app n7 w : forall K v, crun n7 K (w ++ v) = do K <- crun n7 K w; crun n7 K v.
Proof.
  induction w as [|x w IH]; intros K v; [reflexivity|]. cbn [app crun].
  destruct (cstep n7 K x); cbn [rbind]; auto.
Qed.

(** An entry which can be extended, or none. *)
Definition ext_ok (n7 : Z) (d : dict) (u : Z) : Prop :=
  u = 0 \/ (3 <= u < 4096 /\ u <> d_c1 d /\ exists w, word (d_nodes d) u w /\ Z.of_nat (length w) < n7).
Definition cur_ok (n7 : Z) (d : dict) (l n : Z) : Prop :=
  (l = 0 /\ n = 0) \/
  (3 <= l < 4096 /\ l <> d_c1 d /\ n < n7 /\ exists w, word (d_nodes d) l w /\ Z.of_nat (length w) = n).
Record CI (n7 : Z) (K : core) : Prop := {
  ci_n7 : 6 <= n7 <= 250;
  ci_wf : WF (c_d K) n7;
  ci_u : ext_ok n7 (c_d K) (c_u K);
  ci_l : cur_ok n7 (c_d K) (c_l K) (c_n K);
  ci_ul : c_u K = 0 \/ c_l K = 0;
  ci_a : c_a K = 0 \/ 259 <= c_a K
}.
Lemma ci_n_pos n7 K : CI n7 K -> c_l K <> 0 -> 1 <= c_n K < n7.
Proof.
  intros C N. destruct (ci_l _ _ C) as [(E & _)|(_ & _ & L & w & W & EW)]; [congruence|].
  pose proof (word_pos _ _ _ W). lia.
Qed.
Lemma ext_idx n7 d u : ext_ok n7 d u -> nidx u.
Proof. unfold nidx. intros [->|(R & _)]; lia. Qed.
Lemma cur_idx n7 d l n : cur_ok n7 d l n -> nidx l.
Proof. unfold nidx. intros [(-> & _)|(R & _)]; lia. Qed.

(** The dictionary after the update which the octet [x] brings about. *)
Definition upd_dict (d : dict) (u x : Z) : res dict :=
  if u =? 0 then Ok d
  else do m <- match_octet d u x;
       if m =? 0 then do (d', y) <- add_octet d u x; Ok d' else Ok d.

Lemma cupdate_ok n7 K x : CI n7 K -> byte x ->
  exists K', cupdate K x = Ok K' /\ CI n7 K' /\ c_u K' = 0 /\ c_l K' = c_l K /\ c_n K' = c_n K /\
    d_n2 (c_d K') = d_n2 (c_d K) /\ upd_dict (c_d K) (c_u K) x = Ok (c_d K') /\
    ((c_d K' = c_d K /\ c_a K' = c_a K) \/
     (c_u K <> 0 /\ c_a K' = d_c1 (c_d K) /\
      (forall k, nidx k -> k <> d_c1 (c_d K) ->
         n_parent (nd (d_nodes (c_d K')) k) = n_parent (nd (d_nodes (c_d K)) k) /\
         n_octet (nd (d_nodes (c_d K')) k) = n_octet (nd (d_nodes (c_d K)) k)))).
Proof.
  intros C B. unfold cupdate, upd_dict. destruct (Z.eqb_spec (c_u K) 0) as [E|N].
  - exists K. repeat split; auto; apply C.
  - destruct (ci_u _ _ C) as [|(UR & UN & w & W & WL)]; [congruence|].
    destruct (ci_ul _ _ C) as [|EL]; [congruence|].
    assert (EN : c_n K = 0).
    { destruct (ci_l _ _ C) as [(_ & E)|(R & _)]; auto. lia. }
    destruct (WF_match (c_d K) n7 (c_u K) x (ci_wf _ _ C)) as (m & -> & _); [unfold nidx; lia|auto|]. cbn [rbind].
    destruct (Z.eqb_spec m 0) as [M|M].
    + destruct (add_ok (c_d K) n7 (c_u K) x w (ci_wf _ _ C) UR UN W WL)
        as (d' & -> & WF' & N2' & O' & P' & FR & WD). cbn [rbind].
      eexists. split; [reflexivity|]. cbn [c_d c_u c_l c_a c_n]. split.
      { constructor; cbn [c_d c_u c_l c_a c_n]; auto.
        - apply (ci_n7 _ _ C).
        - left; auto.
        - left; auto.
        - right. destruct (ci_wf _ _ C) as (R & _). lia. }
      split; [auto|]. split; [auto|]. split; [auto|]. split; [auto|]. split; [auto|]. right. repeat split; auto; apply FR; auto.
    + eexists. split; [reflexivity|]. cbn [c_d c_u c_l c_a c_n]. split.
      { constructor; cbn [c_d c_u c_l c_a c_n]; try apply C; auto. left; auto. }
      repeat split; auto.
Qed.

(** An attempt, from a state with no update pending. *)
Lemma ctry0_ok n7 K x : CI n7 K -> byte x -> c_u K = 0 ->
  exists m K' t, match_octet (c_d K) (c_l K) x = Ok m /\ ctry n7 K x = Ok (K', t) /\ CI n7 K' /\
    c_d K' = c_d K /\
    ((m = 0 /\ t = false /\ K' = mkC (c_d K) (c_l K) 0 (c_a K) 0 /\ c_l K <> 0) \/
     (m <> 0 /\ m = c_a K /\ t = false /\ K' = mkC (c_d K) 0 0 0 0 /\ c_l K <> 0) \/
     (m <> 0 /\ m <> c_a K /\ t = true /\ c_u K' = 0 /\ c_a K' = c_a K /\ 3 <= m < 4096 /\ m <> d_c1 (c_d K) /\
      n_octet (nd (d_nodes (c_d K)) m) = x /\ n_parent (nd (d_nodes (c_d K)) m) = c_l K /\
      ((c_n K + 1 = n7 /\ c_l K' = 0 /\ c_n K' = 0) \/ (c_n K + 1 < n7 /\ c_l K' = m /\ c_n K' = c_n K + 1)))).
Proof.
  intros C B U. unfold ctry, cupdate. rewrite U. cbn [Z.eqb rbind].
  pose proof (WF_n2 _ _ (ci_wf _ _ C)) as N2.
  destruct (WF_match (c_d K) n7 (c_l K) x (ci_wf _ _ C)) as (m & E & H); [eapply cur_idx, C|auto|].
  rewrite E. cbn [rbind]. exists m.
  assert (CN : c_n K < n7) by (destruct (ci_l _ _ C) as [(_ & ->)|(_ & _ & L & _)]; [pose proof (ci_n7 _ _ C)|]; lia).
  destruct (Z.eqb_spec m 0) as [M|M].
  { assert (L : c_l K <> 0).
    { intros L. rewrite L, (match_root (c_d K)) in E by auto. injection E as E'. unfold byte in B. lia. }
    eexists _, _. split; [reflexivity|]. split; [reflexivity|]. split; [|split; [reflexivity|left; auto]].
    constructor; cbn [c_d c_u c_l c_a c_n]; try apply C; auto.
    - destruct (ci_l _ _ C) as [(L0 & _)|(R & NE & LT & w & W & WL)]; [congruence|]. right. repeat split; auto; try lia.
      exists w. split; auto. lia.
    - left; auto. }
  destruct H as [|(MR & MN & O & P & R0 & R1)]; [congruence|].
  destruct (Z.eqb_spec m (c_a K)) as [A|A].
  { assert (L : c_l K <> 0).
    { intros L. specialize (R0 L). unfold byte in B. destruct (ci_a _ _ C); lia. }
    eexists _, _. split; [reflexivity|]. split; [reflexivity|]. split; [|split; [reflexivity|right; left; rewrite U; auto 8]].
    constructor; cbn [c_d c_u c_l c_a c_n]; try apply C; auto.
    left; auto. }
  assert (WM : exists v, word (d_nodes (c_d K)) m v /\ Z.of_nat (length v) = c_n K + 1).
  { destruct (ci_l _ _ C) as [(L0 & N0)|(R & NE & LT & w & W & WL)].
    - exists [n_octet (nd (d_nodes (c_d K)) m)]. split; [|cbn; lia]. constructor 1. congruence.
    - exists (w ++ [n_octet (nd (d_nodes (c_d K)) m)]). split; [|rewrite app_length; cbn; lia].
      constructor 2; rewrite P; auto. lia. }
  destruct (Z.eqb_spec (c_n K + 1) n7) as [S7|S7]; eexists _, _; (split; [reflexivity|]; split; [reflexivity|]);
    cbn [c_d c_u c_l c_a c_n].
  - split; [|split; [reflexivity|right; right; repeat split; auto; lia]].
    constructor; cbn [c_d c_u c_l c_a c_n]; try apply C; auto. left; auto.
  - split; [|split; [reflexivity|right; right; repeat split; auto; try lia; right; repeat split; lia]].
    constructor; cbn [c_d c_u c_l c_a c_n]; try apply C; auto.
    right. repeat split; auto; lia.
Qed.

Lemma ctry_ok n7 K x : CI n7 K -> byte x ->
  exists K' t, ctry n7 K x = Ok (K', t) /\ CI n7 K' /\ d_n2 (c_d K') = d_n2 (c_d K) /\
    (t = true -> c_u K' = 0) /\ (t = false -> c_l K' = 0 /\ c_u K = 0 /\ c_l K <> 0).
Proof.
  intros C B. destruct (cupdate_ok n7 K x C B) as (K1 & E & C1 & U1 & L1 & N1 & D1 & _ & _).
  destruct (ctry0_ok n7 K1 x C1 B U1) as (m & K' & t & _ & T & C' & D' & H).
  assert (T' : ctry n7 K x = Ok (K', t)).
  { assert (E1 : cupdate K1 x = Ok K1) by (unfold cupdate; rewrite U1; reflexivity).
    revert T. unfold ctry. rewrite E, E1. auto. }
  exists K', t. split; auto. split; auto. split; [congruence|].
  destruct H as [(_ & -> & -> & L)|[(_ & _ & -> & -> & L)|(_ & _ & -> & U' & _)]].
  - split; [discriminate|]. intros _. cbn [c_l]. rewrite L1 in L. repeat split; auto.
    destruct (ci_ul _ _ C); auto; congruence.
  - split; [discriminate|]. intros _. cbn [c_l]. rewrite L1 in L. repeat split; auto.
    destruct (ci_ul _ _ C); auto; congruence.
  - split; auto. discriminate.
Qed.
Lemma cstep_ok n7 K x : CI n7 K -> byte x ->
  exists K', cstep n7 K x = Ok K' /\ CI n7 K' /\ d_n2 (c_d K') = d_n2 (c_d K) /\ c_u K' = 0.
Proof.
  intros C B. unfold cstep. destruct (ctry_ok n7 K x C B) as (K1 & t & -> & C1 & D1 & T & F). cbn [rbind].
  destruct t; [exists K1; auto|]. destruct (F eq_refl) as (L1 & _).
  destruct (ctry_ok n7 K1 x C1 B) as (K2 & t2 & -> & C2 & D2 & T2 & F2). cbn [rbind].
  destruct t2; [exists K2; split; [auto|]; split; [auto|]; split; [congruence|auto]|]. destruct (F2 eq_refl) as (_ & _ & N). congruence.
Qed.
