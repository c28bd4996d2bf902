(** Proofs about the queue model: one verification of each call against an
    interference-tolerant contract serves both the sequential and the two thread
    results. *)
From Coq Require Import ZifyBool ZifyNat.
From Verif Require Import Base Queue_model Queue_spec.

(** ---- arithmetic of positions ---- *)
Lemma pos_add L x k : 0 < L -> 0 <= k -> x mod L + k < L -> (x + k) mod L = x mod L + k.
Proof.
  intros HL Hk H. pose proof (Z.mod_pos_bound x L HL).
  rewrite <- Zplus_mod_idemp_l. apply Z.mod_small. lia.
Qed.
Lemma pos_wrap L x k : 0 < L -> L <= x mod L + k < 2 * L -> (x + k) mod L = x mod L + k - L.
Proof.
  intros HL H. rewrite <- Zplus_mod_idemp_l.
  pose proof (Z_mod_plus_full (x mod L + k - L) 1 L) as E.
  rewrite (Z.mod_small (x mod L + k - L)) in E by lia. etransitivity; [|exact E]. f_equal. ring.
Qed.
Lemma diff_cases L w r : 0 < L -> 0 <= w - r < L ->
  w mod L - r mod L = w - r \/ w mod L - r mod L = w - r - L.
Proof.
  intros HL H.
  pose proof (Z.mod_pos_bound w L HL). pose proof (Z.mod_pos_bound r L HL).
  pose proof (Z.div_mod w L ltac:(lia)). pose proof (Z.div_mod r L ltac:(lia)).
  set (a := w / L) in *. set (b := r / L) in *. set (i := w mod L) in *. set (o := r mod L) in *.
  clearbody a b i o.
  assert (a = b \/ a = b + 1) as [->| ->] by nia; [left|right]; lia.
Qed.
Lemma mod_inj_near L a b : 0 < L -> a mod L = b mod L -> -L < a - b < L -> a = b.
Proof.
  intros HL H Hd.
  pose proof (Z.div_mod a L ltac:(lia)). pose proof (Z.div_mod b L ltac:(lia)).
  set (x := a / L) in *. set (y := b / L) in *. rewrite H in *. set (z := b mod L) in *.
  clearbody x y z. assert (x = y) by nia. subst. lia.
Qed.

Lemma len_app {A} (a b : list A) : len (a ++ b) = len a + len b.
Proof. unfold len. rewrite app_length. lia. Qed.
Lemma len_nil : len (@nil Z) = 0. Proof. reflexivity. Qed.
Lemma len_cons {A} (x : A) l : len (x :: l) = len l + 1.
Proof. unfold len. cbn [length]. lia. Qed.
Lemma len_pos {A} (l : list A) : 0 <= len l. Proof. unfold len. lia. Qed.
Lemma len_take n l : 0 <= n <= len l -> len (take n l) = n.
Proof. unfold len, take. intros. rewrite firstn_length. lia. Qed.
Lemma len_drop n l : 0 <= n <= len l -> len (drop n l) = len l - n.
Proof. unfold len, drop. intros. rewrite skipn_length. lia. Qed.
Lemma take_drop n l : take n l ++ drop n l = l.
Proof. apply firstn_skipn. Qed.
Lemma drop_app n a b : 0 <= n <= len a -> drop n (a ++ b) = drop n a ++ b.
Proof.
  unfold drop, len. intros. rewrite skipn_app.
  replace (Z.to_nat n - length a)%nat with 0%nat by lia. reflexivity.
Qed.
Lemma take_app n a b : 0 <= n <= len a -> take n (a ++ b) = take n a.
Proof.
  unfold take, len. intros. rewrite firstn_app.
  replace (Z.to_nat n - length a)%nat with 0%nat by lia. cbn. apply app_nil_r.
Qed.
Lemma take_0 l : take 0 l = []. Proof. reflexivity. Qed.
Lemma drop_0 l : drop 0 l = l. Proof. reflexivity. Qed.
Lemma drop_len l : drop (len l) l = [].
Proof. unfold drop, len. rewrite Nat2Z.id. apply skipn_all. Qed.
Lemma take_len n l : len l <= n -> take n l = l.
Proof. unfold take, len. intros. apply firstn_all2. lia. Qed.
Lemma skipn_skipn' {A} a b (l : list A) : skipn a (skipn b l) = skipn (b + a) l.
Proof. revert l. induction b; intros l; cbn [plus]; auto. destruct l; [rewrite !skipn_nil|]; cbn [skipn]; auto. Qed.
Lemma drop_drop a b l : 0 <= a -> 0 <= b -> drop b (drop a l) = drop (a + b) l.
Proof. unfold drop. intros. rewrite skipn_skipn'. f_equal. lia. Qed.
Lemma drop_cons j l : 0 <= j < len l -> drop j l = nth (Z.to_nat j) l 0 :: drop (j + 1) l.
Proof.
  unfold drop, len. intros. replace (Z.to_nat (j + 1)) with (S (Z.to_nat j)) by lia.
  assert (Z.to_nat j < length l)%nat by lia. clear H. revert H0. generalize (Z.to_nat j) as n.
  induction l; cbn [length skipn]; intros n Hn; [lia|]. destruct n; cbn [skipn nth]; auto. apply IHl. lia.
Qed.
Lemma len_0 {A} (l : list A) : len l = 0 -> l = [].
Proof. destruct l; auto. unfold len. cbn. lia. Qed.

Lemma take_join n k (l : list Z) : 0 <= n <= k -> take n l ++ take (k - n) (drop n l) = take k l.
Proof.
  intros. unfold take, drop. rewrite <- (firstn_skipn (Z.to_nat n) (firstn (Z.to_nat k) l)).
  rewrite firstn_firstn, skipn_firstn_comm. f_equal; f_equal; lia.
Qed.

Section Contracts.
Variable c : qconf.
Notation L := (qlen c).
Hypothesis HL : 0 < L.
Variable P : list Z -> Prop.

(** ---- the writer's and the reader's contracts ----
    [W] is the list of all octets ever published, [R] a number of octets known to
    have been consumed, [pend] octets stored beyond the published ones. *)
Fixpoint wsafe (p : prog qres) (W : list Z) (R : Z) (pend : list Z)
         (Q : qres -> list Z -> Z -> Prop) : Prop :=
  match p with
  | Ret a => Q a W R
  | RdI k => wsafe (k (len W mod L)) W R pend Q
  | RdO k => forall R', R <= R' <= len W -> len W - R' <= L - 1 -> wsafe (k (R' mod L)) W R' pend Q
  | WrD i v k => i = (len W + len pend) mod L /\ len W + len pend + 1 - R <= L - 1 /\
                 wsafe k W R (pend ++ [v]) Q
  | WrI v k => v = (len W + len pend) mod L /\ P (W ++ pend) /\
              (exists a, k = Ret a) /\ wsafe k (W ++ pend) R [] Q
  | _ => False
  end.

Fixpoint rsafe (p : prog qres) (W : list Z) (R : Z) (Q : qres -> list Z -> Z -> Prop) : Prop :=
  match p with
  | Ret a => Q a W R
  | RdI k => forall X, P (W ++ X) -> len (W ++ X) - R <= L - 1 ->
                       rsafe (k (len (W ++ X) mod L)) (W ++ X) R Q
  | RdO k => rsafe (k (R mod L)) W R Q
  | RdD i k => exists j, R <= j < len W /\ i = j mod L /\ rsafe (k (nth (Z.to_nat j) W 0)) W R Q
  | WrO v k => exists R', R <= R' <= len W /\ v = R' mod L /\ rsafe k W R' Q
  | _ => False
  end.

Lemma wsafe_mono p : forall W R pend (Q Q' : qres -> list Z -> Z -> Prop),
  (forall a W' R', Q a W' R' -> Q' a W' R') -> wsafe p W R pend Q -> wsafe p W R pend Q'.
Proof.
  induction p; cbn [wsafe]; intros W R pend Q Q' HQ Hs; auto; try contradiction.
  - eapply H; eauto.
  - intros R' h1 h2. eapply H; eauto.
  - destruct Hs as (h1 & h2 & h0 & h3). repeat split; auto. eapply IHp; eauto.
  - destruct Hs as (h1 & h2 & h3). repeat split; auto. eapply IHp; eauto.
Qed.
Lemma rsafe_mono p : forall W R (Q Q' : qres -> list Z -> Z -> Prop),
  (forall a W' R', Q a W' R' -> Q' a W' R') -> rsafe p W R Q -> rsafe p W R Q'.
Proof.
  induction p; cbn [rsafe]; intros W R Q Q' HQ Hs; auto; try contradiction.
  - intros X h1 h2. eapply H; eauto.
  - eapply H; eauto.
  - destruct Hs as (R' & h1 & h2 & h3). exists R'. repeat split; auto; try lia. eapply IHp; eauto.
  - destruct Hs as (R' & h1 & h2 & h3). exists R'. repeat split; auto; try lia. eapply H; eauto.
Qed.
Lemma rsafe_bind p : forall k W R Q,
  rsafe p W R (fun a W' R' => rsafe (k a) W' R' Q) -> rsafe (pbind p k) W R Q.
Proof.
  induction p; cbn [rsafe pbind]; intros f W R Q Hs; auto; try contradiction.
  - destruct Hs as (R' & h1 & h2 & h3). exists R'. repeat split; auto; try lia.
  - destruct Hs as (R' & h1 & h2 & h3). exists R'. repeat split; auto; try lia.
Qed.

(** ---- the shared memory ---- *)
Definition minv (m : qmem) (W : list Z) (R : Z) (pend : list Z) : Prop :=
  len (data m) = L /\ 0 <= R <= len W /\ len W + len pend - R <= L - 1 /\
  iptr m = len W mod L /\ optr m = R mod L /\
  forall k, R <= k < len W + len pend ->
    nth (Z.to_nat (k mod L)) (data m) 0 = nth (Z.to_nat k) (W ++ pend) 0.

Lemma minv_drop_pend m W R pend : minv m W R pend -> minv m W R [].
Proof.
  intros (h1 & h2 & h3 & h4 & h5 & h6). repeat split; auto; try lia.
  - rewrite len_nil. pose proof (len_pos pend). lia.
  - intros k Hk. rewrite len_nil in Hk. pose proof (len_pos pend). rewrite h6 by lia.
    rewrite app_nil_r. rewrite app_nth1; auto. unfold len in *. lia.
Qed.

(** One access of the writer, then of the reader. *)
Lemma wstep p m W R Rw pend Q : wsafe p W Rw pend Q -> minv m W R pend -> Rw <= R ->
  (forall a, p <> Ret a) ->
  exists p' m' W' Rw' pend', astep p m = Ok (p', m') /\ wsafe p' W' Rw' pend' Q /\
    minv m' W' R pend' /\ Rw' <= R /\
    ((W' = W) \/ ((exists a, p' = Ret a) /\ P W' /\ exists X, W' = W ++ X)).
Proof.
  intros Hs Hm HR Hn. destruct p; cbn [wsafe] in Hs; try contradiction.
  - exfalso. eapply Hn. reflexivity.
  - destruct Hm as (h1 & h2 & h3 & h4 & h5 & h6). cbn [astep]. rewrite h4.
    exists (k (len W mod L)), m, W, Rw, pend. repeat split; auto; lia.
  - destruct Hm as (h1 & h2 & h3 & h4 & h5 & h6). cbn [astep]. rewrite h5.
    pose proof (len_pos pend).
    exists (k (R mod L)), m, W, R, pend. repeat split; auto; try lia. apply Hs; lia.
  - destruct Hs as (h1 & h2 & h0 & h3). cbn [astep].
    exists p, (mkQM v (optr m) (data m)), (W ++ pend), Rw, [].
    destruct Hm as (g1 & g2 & g3 & g4 & g5 & g6). pose proof (len_pos pend).
    split; [reflexivity|]. split; [assumption|]. split; [|split; [assumption|right; split; [assumption|eauto]]].
    repeat split; cbn [data iptr optr]; auto; try lia.
    + rewrite len_app. lia.
    + rewrite len_app, len_nil. lia.
    + rewrite len_app. assumption.
    + intros k0 Hk. rewrite app_nil_r. rewrite len_app, len_nil in Hk. apply g6. lia.
  - destruct Hs as (h1 & h2 & h3). cbn [astep].
    destruct Hm as (g1 & g2 & g3 & g4 & g5 & g6). pose proof (len_pos pend).
    assert (Hi : 0 <= i < len (data m)) by (rewrite g1, h1; apply Z.mod_pos_bound; lia).
    unfold aset, in_bounds. replace ((0 <=? i) && (i <? Z.of_nat (length (data m)))) with true
      by (unfold len in Hi; lia). cbn [rbind].
    exists p, (mkQM (iptr m) (optr m) (upd (data m) (Z.to_nat i) v)), W, Rw, (pend ++ [v]).
    split; [reflexivity|]. split; [assumption|]. split; [|split; [assumption|left; reflexivity]].
    repeat split; cbn [data iptr optr]; auto; try lia.
    + unfold len. rewrite upd_length. apply g1.
    + rewrite len_app, len_cons, len_nil. lia.
    + intros k Hk. rewrite len_app, len_cons, len_nil in Hk.
      assert (Hc : k < len W + len pend \/ k = len W + len pend) by lia. destruct Hc as [Hc|Hc].
      * rewrite nth_upd_other.
        -- rewrite g6 by lia. rewrite (app_assoc W pend). rewrite (app_nth1 (W ++ pend)); auto.
           rewrite app_length. unfold len in *. lia.
        -- intros E. assert (E' : k mod L = i).
           { pose proof (Z.mod_pos_bound k L HL). lia. }
           rewrite h1 in E'. apply mod_inj_near in E'; lia.
      * rewrite Hc, <- h1. rewrite nth_upd_same by (unfold len in *; lia).
        rewrite (app_assoc W pend).
        rewrite app_nth2 by (rewrite app_length; unfold len; lia).
        replace (Z.to_nat (len W + len pend) - length (W ++ pend))%nat with 0%nat
          by (rewrite app_length; unfold len; lia). reflexivity.
Qed.

Lemma rstep p m W X R pend Q : rsafe p W R Q -> minv m (W ++ X) R pend -> P (W ++ X) ->
  (forall a, p <> Ret a) ->
  exists p' m' W' X' R', astep p m = Ok (p', m') /\ rsafe p' W' R' Q /\ R <= R' /\
    minv m' (W' ++ X') R' pend /\ W' ++ X' = W ++ X /\ exists Y, W' = W ++ Y.
Proof.
  intros Hs Hm HP Hn. pose proof (len_pos pend). destruct p; cbn [rsafe] in Hs; try contradiction.
  - exfalso. eapply Hn. reflexivity.
  - destruct Hm as (h1 & h2 & h3 & h4 & h5 & h6). cbn [astep]. rewrite h4.
    exists (k (len (W ++ X) mod L)), m, (W ++ X), [], R.
    split; [reflexivity|]. split; [apply Hs; auto; lia|]. split; [lia|]. rewrite app_nil_r.
    split; [|split; [reflexivity|eauto]]. repeat split; auto; lia.
  - destruct Hm as (h1 & h2 & h3 & h4 & h5 & h6). cbn [astep]. rewrite h5.
    exists (k (R mod L)), m, W, X, R. repeat split; auto; try lia. exists []. symmetry. apply app_nil_r.
  - destruct Hs as (R' & e1 & e2 & e3). destruct Hm as (h1 & h2 & h3 & h4 & h5 & h6). cbn [astep].
    exists p, (mkQM (iptr m) v (data m)), W, X, R'.
    split; [reflexivity|]. split; [assumption|]. split; [lia|].
    split; [|split; [reflexivity|exists []; symmetry; apply app_nil_r]].
    rewrite len_app in *. pose proof (len_pos X).
    repeat split; cbn [data iptr optr]; rewrite ?len_app; auto; try lia.
    intros k Hk. apply h6. lia.
  - destruct Hs as (j & e1 & e2 & e3). pose proof Hm as Hm'.
    destruct Hm as (h1 & h2 & h3 & h4 & h5 & h6). cbn [astep].
    assert (Hi : 0 <= i < len (data m)) by (rewrite h1, e2; apply Z.mod_pos_bound; lia).
    unfold aget, in_bounds. replace ((0 <=? i) && (i <? Z.of_nat (length (data m)))) with true
      by (unfold len in Hi; lia). cbn [rbind].
    rewrite e2. rewrite h6 by (rewrite len_app; pose proof (len_pos X); lia).
    rewrite <- app_assoc. rewrite app_nth1 by (unfold len in *; lia).
    exists (k (nth (Z.to_nat j) W 0)), m, W, X, R.
    split; [reflexivity|]. split; [assumption|]. split; [lia|]. split; [exact Hm'|].
    split; [reflexivity|exists []; symmetry; apply app_nil_r].
Qed.

(** Undisturbed runs. *)
Lemma prun_w p : forall m W R pend Q, wsafe p W R pend Q -> minv m W R pend ->
  exists a m' W', prun p m = Ok (a, m') /\ minv m' W' R [] /\ Q a W' R.
Proof.
  induction p; intros m W R pend Q Hs Hm; cbn [prun].
  - exists a, m, W. repeat split; auto; try apply (minv_drop_pend _ _ _ _ Hm). 
  - contradiction.
  - pose proof Hm as (h1 & h2 & h3 & h4 & h5 & h6). rewrite h4. cbn [wsafe] in Hs. eapply H; eauto.
  - pose proof Hm as (h1 & h2 & h3 & h4 & h5 & h6). rewrite h5. cbn [wsafe] in Hs.
    eapply H; eauto. apply Hs; pose proof (len_pos pend); lia.
  - destruct Hs as (g1 & g2 & g0 & g3). eapply IHp; eauto.
    destruct Hm as (h1 & h2 & h3 & h4 & h5 & h6). pose proof (len_pos pend).
    repeat split; cbn [data iptr optr]; auto; try lia.
    + rewrite len_app. lia.
    + rewrite len_app, len_nil. lia.
    + rewrite len_app. assumption.
    + intros k0 Hk. rewrite app_nil_r. rewrite len_app, len_nil in Hk. apply h6. lia.
  - contradiction.
  - contradiction.
  - pose proof Hs as (g1 & g2 & g3).
    destruct Hm as (h1 & h2 & h3 & h4 & h5 & h6).
    assert (Hi : 0 <= i < len (data m)) by (rewrite h1, g1; apply Z.mod_pos_bound; lia).
    destruct (aset (data m) i v) as [d|] eqn:Ed.
    2:{ unfold aset, in_bounds in Ed. replace ((0 <=? i) && (i <? Z.of_nat (length (data m)))) with true in Ed
      by (unfold len in Hi; lia). discriminate. }
    eapply IHp; [exact g3|].
    unfold aset, in_bounds in Ed. replace ((0 <=? i) && (i <? Z.of_nat (length (data m)))) with true in Ed
      by (unfold len in Hi; lia). injection Ed as <-.
    repeat split; cbn [data iptr optr]; auto; try lia.
    + unfold len. rewrite upd_length. apply h1.
    + rewrite len_app, len_cons, len_nil. lia.
    + intros k Hk. rewrite len_app, len_cons, len_nil in Hk.
      assert (Hc : k < len W + len pend \/ k = len W + len pend) by lia. destruct Hc as [Hc|Hc].
      * rewrite nth_upd_other.
        -- rewrite h6 by lia. rewrite (app_assoc W pend). rewrite (app_nth1 (W ++ pend)); auto.
           rewrite app_length. unfold len in *. lia.
        -- intros E. assert (E' : k mod L = i).
           { pose proof (Z.mod_pos_bound k L HL). lia. }
           rewrite g1 in E'. apply mod_inj_near in E'; lia.
      * rewrite Hc, <- g1. rewrite nth_upd_same by (unfold len in *; lia).
        rewrite (app_assoc W pend).
        rewrite app_nth2 by (rewrite app_length; unfold len; lia).
        replace (Z.to_nat (len W + len pend) - length (W ++ pend))%nat with 0%nat
          by (rewrite app_length; unfold len; lia). reflexivity.
Qed.

Lemma prun_r p : forall m W R Q, rsafe p W R Q -> minv m W R [] -> P W ->
  exists a m' R', prun p m = Ok (a, m') /\ minv m' W R' [] /\ Q a W R'.
Proof.
  induction p; intros m W R Q Hs Hm HP; cbn [prun].
  - exists a, m, R. split; [reflexivity|]. auto.
  - contradiction.
  - pose proof Hm as (h1 & h2 & h3 & h4 & h5 & h6). rewrite h4. cbn [rsafe] in Hs.
    eapply H; eauto. specialize (Hs []). rewrite app_nil_r in Hs. apply Hs; auto.
    rewrite len_nil in h3. lia.
  - pose proof Hm as (h1 & h2 & h3 & h4 & h5 & h6). rewrite h5. cbn [rsafe] in Hs. eapply H; eauto.
  - contradiction.
  - destruct Hs as (R' & g1 & g2 & g3). eapply IHp; eauto.
    destruct Hm as (h1 & h2 & h3 & h4 & h5 & h6). repeat split; cbn [data iptr optr]; auto; try lia.
    intros k Hk. apply h6. lia.
  - destruct Hs as (j & g1 & g2 & g3). pose proof Hm as (h1 & h2 & h3 & h4 & h5 & h6).
    assert (Hi : 0 <= i < len (data m)) by (rewrite h1, g2; apply Z.mod_pos_bound; lia).
    unfold aget, in_bounds. replace ((0 <=? i) && (i <? Z.of_nat (length (data m)))) with true
      by (unfold len in Hi; lia).
    rewrite g2, h6 by (rewrite len_nil; lia). rewrite app_nil_r. eapply H; eauto.
  - contradiction.
Qed.

(** ---- copying ---- *)
Lemma copy_in_safe src : forall i k W R pend Q,
  (src = [] \/ i = (len W + len pend) mod L) -> i + len src <= L ->
  len W + len pend + len src - R <= L - 1 ->
  wsafe k W R (pend ++ src) Q -> wsafe (copy_in i src k) W R pend Q.
Proof.
  induction src as [|v t IH]; intros i k W R pend Q Hi Hl Hr Hk; cbn [copy_in].
  - rewrite app_nil_r in Hk. assumption.
  - destruct Hi as [Hi|Hi]; [discriminate|]. rewrite len_cons in *. pose proof (len_pos t).
    cbn [wsafe]. split; [assumption|]. split; [lia|].
    apply IH.
    + destruct t; [left; reflexivity|right]. rewrite len_app, len_cons, len_nil.
      rewrite len_cons in *. pose proof (len_pos t).
      rewrite (Z.add_comm 0 1), Z.add_assoc, pos_add; try lia.
    + lia.
    + rewrite len_app, len_cons, len_nil. lia.
    + rewrite <- app_assoc. exact Hk.
Qed.
Lemma memcpy_to_safe i buf off n k W R pend Q :
  0 <= n -> 0 <= off -> off + n <= len buf ->
  (n = 0 \/ i = (len W + len pend) mod L) -> i + n <= L ->
  len W + len pend + n - R <= L - 1 ->
  wsafe k W R (pend ++ take n (drop off buf)) Q -> wsafe (memcpy_to i buf off n k) W R pend Q.
Proof.
  intros. unfold memcpy_to. destruct (Z.ltb_spec n 0); [lia|]. unfold aslice.
  destruct (Z.leb_spec n 0).
  - replace n with 0 in * by lia. cbn [copy_in]. rewrite take_0, app_nil_r in H5. assumption.
  - replace ((0 <=? off) && (off + n <=? Z.of_nat (length buf))) with true by (unfold len in *; lia).
    assert (Hlen : len (take n (drop off buf)) = n)
      by (apply len_take; rewrite len_drop; lia).
    unfold take, drop in *.
    apply copy_in_safe; rewrite ?Hlen; auto. destruct H2; [lia|auto].
Qed.
Lemma copy_out_safe n : forall i k W R j Q,
  R <= j -> 0 <= j -> j + Z.of_nat n <= len W ->
  (n = O \/ i = j mod L) -> i + Z.of_nat n <= L ->
  rsafe (k (take (Z.of_nat n) (drop j W))) W R Q -> rsafe (copy_out i n k) W R Q.
Proof.
  induction n as [|n IH]; intros i k W R j Q Hj Hj0 Hn Hi Hl Hk; cbn [copy_out].
  - exact Hk.
  - destruct Hi as [Hi|Hi]; [discriminate|]. cbn [rsafe]. exists j.
    split; [lia|]. split; [assumption|].
    apply IH with (j := j + 1); try lia.
    + destruct n; [left; reflexivity|right]. rewrite pos_add; lia.
    + rewrite drop_cons in Hk by lia. unfold take in *. rewrite Nat2Z.id in *. exact Hk.
Qed.
Lemma memcpy_from_safe i n k W R j Q :
  0 <= n -> R <= j -> 0 <= j -> j + n <= len W -> (n = 0 \/ i = j mod L) -> i + n <= L ->
  rsafe (k (take n (drop j W))) W R Q -> rsafe (memcpy_from i n k) W R Q.
Proof.
  intros. unfold memcpy_from. destruct (Z.ltb_spec n 0); [lia|].
  apply copy_out_safe with (j := j); rewrite ?Z2Nat.id; auto. destruct H3; [left|right]; lia.
Qed.

(** ---- the pointers tell the contents ---- *)
Lemma ptr_contents (W : list Z) R : 0 <= R <= len W -> len W - R <= L - 1 ->
  (if len W mod L - R mod L <? 0 then len W mod L - R mod L + L else len W mod L - R mod L) = len W - R.
Proof.
  intros. pose proof (Z.mod_pos_bound (len W) L HL). pose proof (Z.mod_pos_bound R L HL).
  destruct (diff_cases L (len W) R HL ltac:(lia)); destruct (Z.ltb_spec (len W mod L - R mod L) 0); lia.
Qed.
Lemma ptr_free (W : list Z) R : 0 <= R <= len W -> len W - R <= L - 1 ->
  (if R mod L - len W mod L - 1 <? 0 then R mod L - len W mod L - 1 + L else R mod L - len W mod L - 1)
  = L - 1 - (len W - R).
Proof.
  intros. pose proof (Z.mod_pos_bound (len W) L HL). pose proof (Z.mod_pos_bound R L HL).
  destruct (diff_cases L (len W) R HL ltac:(lia)); destruct (Z.ltb_spec (R mod L - len W mod L - 1) 0); lia.
Qed.
Lemma ptr_eq (W : list Z) R : 0 <= R <= len W -> len W - R <= L - 1 ->
  (len W mod L =? R mod L) = (len W - R =? 0).
Proof.
  intros. destruct (Z.eqb_spec (len W mod L) (R mod L)) as [E|E].
  - apply mod_inj_near in E; lia.
  - destruct (Z.eqb_spec (len W - R) 0); [|reflexivity]. replace R with (len W) in E by lia. lia.
Qed.

(** ---- each call against the FIFO ---- *)
Notation FIFO := (fifo (L - 1) (ratomic c) (watomic c)).
(** The writer's result is the FIFO's on the contents as seen at its snapshot. *)
Definition Qw (o : wop) (W : list Z) (R : Z) (r : qres) (W' : list Z) (R' : Z) : Prop :=
  R <= R' <= len W /\ len W - R' <= L - 1 /\ len W' - R' <= L - 1 /\
  W' = W ++ accepted1 (o, r) /\ FIFO (inl o) (drop R' W) = (r, drop R' W').
Definition Qr (o : rop) (W : list Z) (R : Z) (r : qres) (W' : list Z) (R' : Z) : Prop :=
  (exists X, W' = W ++ X) /\ P W' /\ R <= R' <= len W' /\ len W' - R <= L - 1 /\
  FIFO (inr o) (drop R W') = (r, drop R' W').


Definition is_query (o : qop) : bool :=
  match o with
  | inl WFree | inl WContents | inl WEmpty | inr RFree | inr RContents | inr REmpty => true
  | _ => false
  end.
Lemma wquery_safe o W R : 0 <= R <= len W -> len W - R <= L - 1 -> is_query (inl o) = true ->
  wsafe (wcode c o) W R [] (Qw o W R).
Proof.
  intros HR HC Ho. destruct o; try discriminate Ho; cbn [wcode].
  - unfold queue_free_space. cbn [wsafe]. intros R' h1 h2. rewrite ptr_free by lia.
    unfold Qw. cbn [accepted1]. rewrite app_nil_r. repeat split; try lia.
    cbn [fifo]. rewrite len_drop by lia. repeat f_equal; lia.
  - unfold queue_contents. cbn [wsafe]. intros R' h1 h2. rewrite ptr_contents by lia.
    unfold Qw. cbn [accepted1]. rewrite app_nil_r. repeat split; try lia.
    cbn [fifo]. rewrite len_drop by lia. reflexivity.
  - unfold queue_empty. cbn [wsafe]. intros R' h1 h2. rewrite ptr_eq by lia.
    unfold Qw. cbn [accepted1]. rewrite app_nil_r. repeat split; try lia.
    cbn [fifo]. rewrite len_drop by lia. reflexivity.
Qed.

Lemma rquery_safe o W R : 0 <= R <= len W -> is_query (inr o) = true ->
  rsafe (rcode c o) W R (Qr o W R).
Proof.
  intros HR Ho. destruct o; try discriminate Ho; cbn [rcode].
  - unfold queue_free_space. cbn [rsafe]. intros X HP HC. rewrite len_app in *. pose proof (len_pos X).
    rewrite <- len_app in *. rewrite ptr_free by (rewrite ?len_app in *; lia).
    unfold Qr. split; [eauto|]. split; [assumption|]. split; [rewrite len_app; lia|]. split; [assumption|].
    cbn [fifo]. rewrite len_drop by (rewrite len_app; lia). repeat f_equal; lia.
  - unfold queue_contents. cbn [rsafe]. intros X HP HC. pose proof (len_pos X).
    rewrite ptr_contents by (rewrite ?len_app in *; lia).
    unfold Qr. split; [eauto|]. split; [assumption|]. split; [rewrite len_app; lia|]. split; [assumption|].
    cbn [fifo]. rewrite len_drop by (rewrite len_app; lia). reflexivity.
  - unfold queue_empty. cbn [rsafe]. intros X HP HC. pose proof (len_pos X).
    rewrite ptr_eq by (rewrite ?len_app in *; lia).
    unfold Qr. split; [eauto|]. split; [assumption|]. split; [rewrite len_app; lia|]. split; [assumption|].
    cbn [fifo]. rewrite len_drop by (rewrite len_app; lia). reflexivity.
Qed.

Lemma flush_safe (W : list Z) R : 0 <= R <= len W -> rsafe (queue_flush c) W R (Qr RFlush W R).
Proof.
  intros HR. unfold queue_flush. cbn [rsafe]. intros X HP HC. pose proof (len_pos X).
  exists (len (W ++ X)). split; [rewrite len_app in *; lia|]. split; [reflexivity|].
  unfold Qr. split; [eauto|]. split; [assumption|]. split; [rewrite len_app; lia|]. split; [assumption|].
  cbn [fifo]. rewrite drop_len. reflexivity.
Qed.

Lemma read_byte_safe W R : 0 <= R <= len W -> rsafe (queue_read_byte c) W R (Qr RByte W R).
Proof.
  intros HR. unfold queue_read_byte. cbn [rsafe]. intros X HP HC. pose proof (len_pos X).
  set (V := W ++ X) in *. assert (HV : len W <= len V) by (unfold V; rewrite len_app; lia).
  rewrite ptr_contents by lia. destruct (Z.ltb_spec (len V - R) 1).
  - cbn [rsafe]. unfold Qr. split; [unfold V; eauto|]. split; [assumption|]. split; [lia|]. split; [assumption|].
    replace R with (len V) at 1 2 by lia. rewrite drop_len. reflexivity.
  - cbn [rsafe]. exists R. split; [lia|]. split; [reflexivity|]. exists (R + 1). split; [lia|].
    pose proof (Z.mod_pos_bound R L HL) as Hop. split.
    { destruct (Z.leb_spec L (R mod L + 1)); [rewrite pos_wrap|rewrite pos_add]; lia. }
    unfold Qr. split; [unfold V; eauto|]. split; [assumption|]. split; [lia|]. split; [assumption|].
    rewrite (drop_cons R) by lia. reflexivity.
Qed.

(** What queue_read and queue_view share. *)
Definition delivered (want : bool) (l : list Z) := if want then l else [].

Definition Qread (moves want : bool) (n : Z) (W : list Z) (R : Z) (r : qres) (W' : list Z) (R' : Z) : Prop :=
  (exists X, W' = W ++ X) /\ P W' /\ len W' - R <= L - 1 /\
  match amount (ratomic c) (len W' - R) n with
  | None => r = (-1, []) /\ R' = R
  | Some k => 0 <= k <= len W' - R /\ r = (k, delivered want (take k (drop R W'))) /\
              R' = if moves then R + k else R
  end.

Lemma read_safe want n W R : 0 <= R <= len W -> 0 <= n ->
  rsafe (queue_read c want n) W R (Qread true want n W R).
Proof.
  intros HR Hn. unfold queue_read. cbn [rsafe]. intros X HP HC. pose proof (len_pos X).
  set (V := W ++ X) in *. assert (HV : len W <= len V) by (unfold V; rewrite len_app; lia).
  rewrite ptr_contents by lia. unfold Qread.
  pose proof (Z.mod_pos_bound R L HL) as Hop. pose proof (Z.mod_pos_bound (len V) L HL) as Hip.
  pose proof (diff_cases L (len V) R HL ltac:(lia)) as Hd.
  assert (HX : exists X0, V = W ++ X0) by (unfold V; eauto).
  set (have := len V - R) in *.
  destruct ((have <? n) && ratomic c) eqn:Ea.
  - apply andb_true_iff in Ea. destruct Ea as [E1 E2]. cbn [rsafe]. repeat (split; [assumption|]).
    unfold amount. fold have. rewrite E1, E2. auto.
  - set (k := if have <? n then have else n).
    assert (Hk : 0 <= k <= have) by (unfold k; destruct (Z.ltb_spec have n); lia).
    assert (Ham : amount (ratomic c) have n = Some k).
    { unfold amount, k. apply andb_false_iff in Ea. destruct (have <? n); [|reflexivity].
      destruct Ea as [Ea|Ea]; [discriminate|]. rewrite Ea. reflexivity. }
    destruct (Z.eqb_spec k 0) as [H0|H0].
    + cbn [rsafe]. repeat (split; [assumption|]). fold have. rewrite Ham, H0. rewrite take_0.
      split; [lia|]. split; [destruct want; reflexivity|lia].
    + assert (HQ : Qread true want n W R (k, delivered want (take k (drop R V))) V (R + k)).
      { unfold Qread. repeat (split; [assumption|]). fold have. rewrite Ham.
        split; [lia|]. split; reflexivity. }
      unfold Qread in HQ.
      destruct ((len V mod L <? R mod L) && (L - R mod L <? k)) eqn:Eb.
      * assert (Hw : k - (L - R mod L) = (R + k) mod L) by (rewrite pos_wrap; lia).
        destruct want.
        -- apply memcpy_from_safe with (j := R); try lia.
           apply memcpy_from_safe with (j := R + (L - R mod L)); try lia.
           { right. rewrite pos_wrap; lia. }
           rewrite <- drop_drop by lia. rewrite take_join by lia.
           cbn [rsafe]. exists (R + k). split; [lia|]. split; [assumption|]. exact HQ.
        -- cbn [rsafe]. exists (R + k). split; [lia|]. split; [assumption|]. exact HQ.
      * assert (Hw : (if L <=? R mod L + k then 0 else R mod L + k) = (R + k) mod L).
        { destruct (Z.leb_spec L (R mod L + k)); [rewrite pos_wrap|rewrite pos_add]; lia. }
        destruct want.
        -- apply memcpy_from_safe with (j := R); try lia.
           cbn [rsafe]. exists (R + k). split; [lia|]. split; [assumption|]. exact HQ.
        -- cbn [rsafe]. exists (R + k). split; [lia|]. split; [assumption|]. exact HQ.
Qed.

Lemma view_safe n W R : 0 <= R <= len W -> 0 <= n ->
  rsafe (queue_view c true n) W R (Qread false true n W R).
Proof.
  intros HR Hn. unfold queue_view. cbn [rsafe]. intros X HP HC. pose proof (len_pos X).
  set (V := W ++ X) in *. assert (HV : len W <= len V) by (unfold V; rewrite len_app; lia).
  rewrite ptr_contents by lia. unfold Qread.
  pose proof (Z.mod_pos_bound R L HL) as Hop. pose proof (Z.mod_pos_bound (len V) L HL) as Hip.
  pose proof (diff_cases L (len V) R HL ltac:(lia)) as Hd.
  assert (HX : exists X0, V = W ++ X0) by (unfold V; eauto).
  set (have := len V - R) in *.
  destruct ((have <? n) && ratomic c) eqn:Ea.
  - apply andb_true_iff in Ea. destruct Ea as [E1 E2]. cbn [rsafe]. repeat (split; [assumption|]).
    unfold amount. fold have. rewrite E1, E2. auto.
  - set (k := if have <? n then have else n).
    assert (Hk : 0 <= k <= have) by (unfold k; destruct (Z.ltb_spec have n); lia).
    assert (Ham : amount (ratomic c) have n = Some k).
    { unfold amount, k. apply andb_false_iff in Ea. destruct (have <? n); [|reflexivity].
      destruct Ea as [Ea|Ea]; [discriminate|]. rewrite Ea. reflexivity. }
    destruct (Z.eqb_spec k 0) as [H0|H0].
    + cbn [rsafe]. repeat (split; [assumption|]). fold have. rewrite Ham, H0. rewrite take_0.
      split; [lia|]. split; [reflexivity|lia].
    + assert (HQ : Qread false true n W R (k, take k (drop R V)) V R).
      { unfold Qread. repeat (split; [assumption|]). fold have. rewrite Ham.
        split; [lia|]. split; reflexivity. }
      unfold Qread in HQ.
      destruct ((len V mod L <? R mod L) && (L - R mod L <? k)) eqn:Eb.
      * apply memcpy_from_safe with (j := R); try lia.
        apply memcpy_from_safe with (j := R + (L - R mod L)); try lia.
        { right. rewrite pos_wrap; lia. }
        rewrite <- drop_drop by lia. rewrite take_join by lia. exact HQ.
      * apply memcpy_from_safe with (j := R); try lia. exact HQ.
Qed.

Lemma Qread_fifo (moves want : bool) n W R r W' R' o : 0 <= R <= len W -> 
  o = (if moves then if want then RRead n else RDiscard n else RView n) ->
  (moves = false -> want = true) ->
  Qread moves want n W R r W' R' -> Qr o W R r W' R'.
Proof.
  intros HR Ho Hmw ((X & HX) & HP & HC & H). pose proof (len_pos X).
  assert (HV : len W <= len W') by (rewrite HX, len_app; lia).
  unfold Qr. split; [eauto|]. split; [assumption|].
  destruct (amount (ratomic c) (len W' - R) n) as [k|] eqn:E.
  - destruct H as (Hk & Hr & HR').
    assert (Hd : drop k (drop R W') = drop (R + k) W') by (apply drop_drop; lia).
    destruct moves; [destruct want|pose proof (Hmw eq_refl); subst want]; subst o; subst; cbn [fifo delivered];
      rewrite len_drop by lia; rewrite E, ?Hd; (split; [lia|]; split; [lia|]; reflexivity).
  - destruct H as (Hr & HR').
    destruct moves; [destruct want|pose proof (Hmw eq_refl); subst want]; subst o; subst; cbn [fifo delivered];
      rewrite len_drop by lia; rewrite E; (split; [lia|]; split; [lia|]; reflexivity).
Qed.

Definition octet_or_query (o : qop) : bool := negb (is_msg o).

Lemma reader_safe o W R : 0 <= R <= len W -> rvalid o -> octet_or_query (inr o) = true ->
  rsafe (rcode c o) W R (Qr o W R).
Proof.
  intros HR Hv Ho. destruct o; try discriminate Ho; cbn [rcode rvalid] in *.
  - eapply rsafe_mono; [|apply read_safe; auto]. intros a W' R' H. eapply (Qread_fifo true true); [exact HR|reflexivity|discriminate|exact H].
  - eapply rsafe_mono; [|apply read_safe; auto]. intros a W' R' H.
    eapply (Qread_fifo true false); [exact HR|reflexivity|discriminate|exact H].
  - eapply rsafe_mono; [|apply view_safe; auto]. intros a W' R' H. eapply (Qread_fifo false true); [exact HR|reflexivity|reflexivity|exact H].
  - apply read_byte_safe; auto.
  - apply flush_safe; auto.
  - apply (rquery_safe RFree); auto.
  - apply (rquery_safe RContents); auto.
  - apply (rquery_safe REmpty); auto.
Qed.

Hypothesis Pall : forall W, P W.

Lemma mod_small_facts (W : list Z) : 0 <= len W mod L < L. Proof. apply Z.mod_pos_bound; lia. Qed.

Lemma write_safe W R b n : 0 <= R <= len W -> len W - R <= L - 1 -> 0 <= n <= Z.of_nat (length b) ->
  wsafe (queue_write c b n) W R [] (Qw (WWrite b n) W R).
Proof.
  intros HR HC Hn. fold (len b) in Hn. unfold queue_write. cbn [wsafe]. intros R' h1 h2. rewrite ptr_free by lia.
  assert (Hroom : L - 1 - len (drop R' W) = L - 1 - (len W - R')) by (rewrite len_drop; lia).
  pose proof (mod_small_facts W) as Hip. pose proof (Z.mod_pos_bound R' L HL) as Hop.
  pose proof (diff_cases L (len W) R' HL ltac:(lia)) as Hd.
  set (room := L - 1 - (len W - R')) in *.
  destruct (Z.ltb_spec room n) as [Hlt|Hge]; cbn [andb].
  - destruct (watomic c) eqn:Ea.
    + cbn [wsafe]. unfold Qw. cbn [accepted1]. unfold take. cbn [Z.to_nat firstn]. rewrite app_nil_r.
      split; [lia|]. split; [lia|]. split; [lia|]. split; [reflexivity|].
      cbn [fifo]. rewrite Hroom. unfold amount. replace (room <? n) with true by lia.
      rewrite Ea. reflexivity.
    + destruct (Z.eqb_spec room 0) as [H0|H0].
      * cbn [wsafe]. unfold Qw. cbn [accepted1]. rewrite take_0, app_nil_r.
        split; [lia|]. split; [lia|]. split; [lia|]. split; [reflexivity|].
        cbn [fifo]. rewrite Hroom. unfold amount. replace (room <? n) with true by lia.
        rewrite Ea, H0, take_0, app_nil_r. reflexivity.
      * assert (HQ : Qw (WWrite b n) W R (room, []) (W ++ take room b) R').
        { unfold Qw. cbn [accepted1]. rewrite len_app, len_take by (unfold len in *; lia).
          split; [lia|]. split; [lia|]. split; [lia|]. split; [reflexivity|].
          cbn [fifo]. rewrite Hroom. unfold amount. replace (room <? n) with true by lia.
          rewrite Ea. rewrite drop_app by lia. reflexivity. }
        set (iw := len W mod L) in *.
        destruct ((iw <? R' mod L) || (room <=? L - iw)) eqn:Eb.
        -- apply memcpy_to_safe; rewrite ?len_nil, ?Z.add_0_r; try lia; try (right; reflexivity).
           cbn [wsafe app]. rewrite drop_0. rewrite len_take by (unfold len in *; lia).
           split; [|split; [apply Pall|split; [eauto|exact HQ]]].
           destruct (Z.leb_spec L (iw + room)).
           ++ rewrite pos_wrap; fold iw; lia.
           ++ rewrite pos_add; fold iw; lia.
        -- apply memcpy_to_safe; rewrite ?len_nil, ?Z.add_0_r; try lia; try (right; reflexivity).
           assert (Hl1 : len (take (L - iw) (drop 0 b)) = L - iw) by (rewrite drop_0; apply len_take; lia).
           apply memcpy_to_safe; cbn [app]; rewrite ?Hl1; try lia; try (right; rewrite pos_wrap; fold iw; lia).
           cbn [wsafe]. rewrite len_app, Hl1, len_take by (rewrite len_drop; lia).
           rewrite drop_0 in *.
           assert (Ej : take (L - iw) b ++ take (room - (L - iw)) (drop (L - iw) b) = take room b).
           { unfold take, drop. rewrite <- (firstn_skipn (Z.to_nat (L - iw)) (firstn (Z.to_nat room) b)).
             rewrite firstn_firstn, skipn_firstn_comm. f_equal; f_equal; lia. }
           rewrite Ej. split; [|split; [apply Pall|split; [eauto|exact HQ]]].
           replace (L - iw + (room - (L - iw))) with room by lia. rewrite pos_wrap; fold iw; lia.
  - destruct (Z.eqb_spec n 0) as [H0|H0].
    + cbn [wsafe]. unfold Qw. cbn [accepted1]. rewrite take_0, app_nil_r.
      split; [lia|]. split; [lia|]. split; [lia|]. split; [reflexivity|].
      cbn [fifo]. rewrite Hroom. unfold amount. replace (room <? n) with false by lia.
      rewrite H0, take_0, app_nil_r. reflexivity.
    + assert (HQ : Qw (WWrite b n) W R (n, []) (W ++ take n b) R').
      { unfold Qw. cbn [accepted1]. rewrite len_app, len_take by (unfold len in *; lia).
        split; [lia|]. split; [lia|]. split; [lia|]. split; [reflexivity|].
        cbn [fifo]. rewrite Hroom. unfold amount. replace (room <? n) with false by lia.
        rewrite drop_app by lia. reflexivity. }
      set (iw := len W mod L) in *.
      destruct ((iw <? R' mod L) || (n <=? L - iw)) eqn:Eb.
      * apply memcpy_to_safe; rewrite ?len_nil, ?Z.add_0_r; try lia; try (right; reflexivity).
        cbn [wsafe app]. rewrite drop_0. rewrite len_take by (unfold len in *; lia).
        split; [|split; [apply Pall|split; [eauto|exact HQ]]].
        destruct (Z.leb_spec L (iw + n)).
        -- rewrite pos_wrap; fold iw; lia.
        -- rewrite pos_add; fold iw; lia.
      * apply memcpy_to_safe; rewrite ?len_nil, ?Z.add_0_r; try lia; try (right; reflexivity).
        assert (Hl1 : len (take (L - iw) (drop 0 b)) = L - iw) by (rewrite drop_0; apply len_take; lia).
        apply memcpy_to_safe; cbn [app]; rewrite ?Hl1; try lia; try (right; rewrite pos_wrap; fold iw; lia).
        cbn [wsafe]. rewrite len_app, Hl1, len_take by (rewrite len_drop; lia).
        rewrite drop_0 in *.
        assert (Ej : take (L - iw) b ++ take (n - (L - iw)) (drop (L - iw) b) = take n b).
        { unfold take, drop. rewrite <- (firstn_skipn (Z.to_nat (L - iw)) (firstn (Z.to_nat n) b)).
          rewrite firstn_firstn, skipn_firstn_comm. f_equal; f_equal; lia. }
        rewrite Ej. split; [|split; [apply Pall|split; [eauto|exact HQ]]].
        replace (L - iw + (n - (L - iw))) with n by lia. rewrite pos_wrap; fold iw; lia.
Qed.

Lemma write_byte_safe W R b : 0 <= R <= len W -> len W - R <= L - 1 -> byte b ->
  wsafe (queue_write_byte c b) W R [] (Qw (WByte b) W R).
Proof.
  intros HR HC Hb. unfold queue_write_byte. cbn [wsafe]. intros R' h1 h2. rewrite ptr_free by lia.
  assert (Hroom : L - 1 - len (drop R' W) = L - 1 - (len W - R')) by (rewrite len_drop; lia).
  pose proof (mod_small_facts W) as Hip.
  set (room := L - 1 - (len W - R')) in *.
  destruct (Z.ltb_spec room 1) as [Hlt|Hge].
  - assert (room = 0) by lia.
    destruct (watomic c) eqn:Ea; cbn [wsafe]; unfold Qw; cbn [accepted1 Z.eqb];
      rewrite app_nil_r; (split; [lia|]; split; [lia|]; split; [lia|]; split; [reflexivity|]);
      cbn [fifo]; rewrite Hroom; replace (room =? 0) with true by lia; rewrite Ea; reflexivity.
  - cbn [wsafe]. rewrite len_nil, Z.add_0_r. split; [reflexivity|]. split; [lia|].
    cbn [app]. rewrite len_cons, len_nil. split.
    { destruct (Z.leb_spec L (len W mod L + 1)); [rewrite pos_wrap|rewrite pos_add]; lia. }
    split; [apply Pall|]. split; [eauto|].
    assert (Hu : u8 b = b) by (unfold u8, byte in *; apply Z.mod_small; lia). rewrite Hu.
    unfold Qw. cbn [accepted1 Z.eqb]. rewrite len_app, len_cons, len_nil.
    split; [lia|]. split; [lia|]. split; [lia|]. split; [reflexivity|].
    cbn [fifo]. rewrite Hroom. replace (room =? 0) with false by lia. rewrite drop_app by lia. reflexivity.
Qed.

Lemma writer_safe o W R : 0 <= R <= len W -> len W - R <= L - 1 -> wvalid o -> octet_or_query (inl o) = true ->
  wsafe (wcode c o) W R [] (Qw o W R).
Proof.
  intros HR HC Hv Ho. destruct o; try discriminate Ho.
  - apply write_safe; auto.
  - apply write_byte_safe; auto.
  - apply wquery_safe; auto.
  - apply wquery_safe; auto.
  - apply wquery_safe; auto.
Qed.
End Contracts.
