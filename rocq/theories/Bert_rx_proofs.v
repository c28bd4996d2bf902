From Verif Require Import Base Bert_model Bert_spec Bert_proofs.
Local Open Scope Z_scope.

(** ---- the error rate counters stay within their arrays ---- *)
Definition dec_ok (d : dec) : Prop := length (ptrs d) = 9%nat /\ Forall (fun x => 0 <= x < 10) (ptrs d) /\ length (bads d) = 9%nat /\ Forall (fun r => length r = 10%nat) (bads d).
Lemma upd_len {A} (l : list A) n x : length (upd l n x) = length l.
Proof. revert n. induction l; intros [|n]; cbn; congruence. Qed.
Lemma upd_all {A} (P : A -> Prop) (l : list A) n x : Forall P l -> P x -> Forall P (upd l n x).
Proof. intros F X. revert n. induction F; intros [|n]; cbn; constructor; auto. Qed.
Lemma aget_in l i : 0 <= i < Z.of_nat (length l) -> aget l i = Ok (nth (Z.to_nat i) l 0).
Proof. intros I. unfold aget, in_bounds. replace ((0 <=? i) && (i <? Z.of_nat (length l))) with true by lia. reflexivity. Qed.
Lemma aset_in l i x : 0 <= i < Z.of_nat (length l) -> aset l i x = Ok (upd l (Z.to_nat i) x).
Proof. intros I. unfold aset, in_bounds. replace ((0 <=? i) && (i <? Z.of_nat (length l))) with true by lia. reflexivity. Qed.
Lemma row_get_in l i : 0 <= i < Z.of_nat (length l) -> row_get l i = Ok (nth (Z.to_nat i) l []).
Proof. intros I. unfold row_get. replace ((0 <=? i) && (i <? Z.of_nat (length l))) with true by lia. reflexivity. Qed.
Lemma row_set_in l i j x : 0 <= i < Z.of_nat (length l) -> Forall (fun r => length r = 10%nat) l -> 0 <= j < 10 ->
  row_set l i j x = Ok (upd l (Z.to_nat i) (upd (nth (Z.to_nat i) l []) (Z.to_nat j) x)) /\ Forall (fun r => length r = 10%nat) (upd l (Z.to_nat i) (upd (nth (Z.to_nat i) l []) (Z.to_nat j) x)).
Proof.
  intros I F J. unfold row_set. rewrite row_get_in by exact I. cbn [rbind]. assert (L : length (nth (Z.to_nat i) l []) = 10%nat) by (apply (Forall_forall (fun r => length r = 10%nat) l); [exact F | apply nth_In; lia]). rewrite aset_in by lia. cbn [rbind]. split; [reflexivity|]. apply upd_all; [exact F | rewrite upd_len; exact L].
Qed.
Lemma ptr_range d i : dec_ok d -> 0 <= i < 9 -> 0 <= nth (Z.to_nat i) (ptrs d) 0 < 10.
Proof. intros (A & B & _) I. apply (Forall_forall (fun x => 0 <= x < 10) (ptrs d)); [exact B | apply nth_In; lia]. Qed.
Lemma assess_ok is : Forall (fun i => 2 <= i <= 7) is -> forall test d, dec_ok d -> exists d' e, assess is test d = Ok (d', e) /\ dec_ok d' /\ forall x, In x e -> exists i, x = Rate i.
Proof.
  induction 1 as [|i t I F IH]; intros test d D; assert (D' := D); destruct D' as (A & B & C & E); cbn [assess].
  - rewrite aget_in by lia. cbn [rbind]. pose proof (ptr_range d 8 D ltac:(lia)) as P. replace (10 <=? nth (Z.to_nat 8) (ptrs d) 0) with false by lia. cbn [rbind]. destruct test; eexists _, _; (split; [reflexivity|]); (split; [repeat split; assumption|]); [destruct (rate d =? 8); [intros x [] | intros x [<-|[]]; eexists; reflexivity] | intros x []].
  - rewrite aget_in by lia. cbn [rbind]. pose proof (ptr_range d i D ltac:(lia)) as P. rewrite aset_in by lia. cbn [rbind]. destruct (Z.ltb_spec (nth (Z.to_nat i) (ptrs d) 0 + 1) 10) as [L|L].
    + destruct (row_set_in (bads d) i (nth (Z.to_nat i) (ptrs d) 0 + 1) 0) as [R1 R2]; [lia | exact E | lia|]. rewrite R1. cbn [rbind]. eexists _, _. split; [reflexivity|]. split; [|intros x []]. unfold dec_ok. cbn [ptrs bads]. rewrite !upd_len. refine (conj A (conj _ (conj C R2))). apply upd_all; [exact B | lia].
    + rewrite aset_in by (rewrite upd_len; lia). cbn [rbind]. rewrite row_get_in by lia. cbn [rbind]. destruct (row_set_in (bads d) i 0 0) as [R1 R2]; [lia | exact E | lia|]. rewrite R1. cbn [rbind]. set (b := upd (bads d) _ _) in *. assert (Lb : length b = 9%nat) by (unfold b; rewrite upd_len; exact C).
      set (ps := upd (upd (ptrs d) _ _) _ _). assert (Lp : length ps = 9%nat) by (unfold ps; rewrite !upd_len; exact A). assert (Fp : Forall (fun x => 0 <= x < 10) ps).
      { unfold ps. replace (upd (upd (ptrs d) (Z.to_nat i) (nth (Z.to_nat i) (ptrs d) 0 + 1)) (Z.to_nat i) 0) with (upd (ptrs d) (Z.to_nat i) 0); [apply upd_all; [exact B | lia]|]. generalize (nth (Z.to_nat i) (ptrs d) 0 + 1). generalize (Z.to_nat i). generalize (ptrs d). clear. induction l; intros [|n] z; cbn; try reflexivity. f_equal. apply IHl. }
      assert (X : exists b', (if i <? 7 then do k <- aget ps (i + 1); row_set b (i + 1) k (sum (nth (Z.to_nat i) (bads d) [])) else Ok b) = Ok b' /\ length b' = 9%nat /\ Forall (fun r => length r = 10%nat) b').
      { destruct (Z.ltb_spec i 7); [|exists b; auto]. rewrite aget_in by lia. cbn [rbind]. assert (0 <= nth (Z.to_nat (i + 1)) ps 0 < 10) by (apply (Forall_forall (fun x => 0 <= x < 10) ps); [exact Fp | apply nth_In; lia]). destruct (row_set_in b (i + 1) (nth (Z.to_nat (i + 1)) ps 0) (sum (nth (Z.to_nat i) (bads d) []))) as [Q1 Q2]; [lia | exact R2 | assumption|]. rewrite Q1. eexists. split; [reflexivity|]. split; [rewrite upd_len; exact Lb | exact Q2]. }
      destruct X as (b' & X & Lb' & Fb'). rewrite X. cbn [rbind]. match goal with |- context [assess t ?u ?v] => destruct (IH u v) as (d' & e & Y & Dk & Ev); [unfold dec_ok; cbn; auto | rewrite Y] end. cbn [rbind]. eexists _, _. split; [reflexivity|]. split; [exact Dk|]. intros x Hx. apply in_app_or in Hx as [Hx | Hx]; [|auto].
      destruct (_ && negb (rate d =? i)) in Hx; [destruct Hx as [<-|[]]; eexists; reflexivity | destruct Hx].
Qed.

(** ---- any bit can be put ---- *)
Definition fits (c : cfg) : Prop := -2147483648 <= resync_len c * resync_percent c <= 2147483647.
Definition sane (g : prng) (s : state) : Prop :=
  in_reg g (reg (fst s)) /\ 0 <= resync (fst s) /\ 0 <= bad_bits (fst s) <= bad (snd s) /\ bad (snd s) <= total (snd s) <= bits (fst s) /\ 0 <= resyncs (snd s) <= total (snd s) /\ dec_ok (decs (fst s)).
(** what a bit does to the register, the count of resync, and the results *)
Definition want (g : prng) (s : state) : bool := Z.testbit (reg (fst s)) (Z.of_nat (tap g)).
Definition searching (c : cfg) (g : prng) (s : state) (x : bool) (s' : state) (e : list event) : Prop :=
  reg (fst s') = nextr g (if Bool.eqb x (want g s) then reg (fst s) else Z.lxor (reg (fst s)) (2 ^ Z.of_nat (tap g))) /\
  snd s' = snd s /\ ~ In Unsynced e /\ (cnt (fst s') = cnt (fst s) /\ bad_bits (fst s') = bad_bits (fst s)) /\
  (if Bool.eqb x (want g s) then if resync_time (pt c) <? resync (fst s) + 1 then resync (fst s') = 0 /\ In Synced e else resync (fst s') = resync (fst s) + 1 /\ ~ In Synced e else resync (fst s') = 2 /\ ~ In Synced e).
Definition wrong (g : prng) (s : state) (x : bool) : Z := Z.b2z (xorb x (want g s)).
Definition window (c : cfg) (r : rx) (wr : Z) (r' : rx) (e : list event) : Prop :=
  if cnt r - 1 <=? 0 then cnt r' = resync_len c /\ bad_bits r' = 0 /\ (In Unsynced e <-> Z.quot (resync_len c * resync_percent c) 100 <= bad_bits r + wr)
  else cnt r' = cnt r - 1 /\ bad_bits r' = bad_bits r + wr /\ ~ In Unsynced e.
Definition counting (c : cfg) (g : prng) (s : state) (x : bool) (s' : state) (e : list event) : Prop :=
  reg (fst s') = nextr g (reg (fst s)) /\ total (snd s') = total (snd s) + 1 /\ bad (snd s') = bad (snd s) + wrong g s x /\ ~ In Synced e /\ window c (fst s) (wrong g s x) (fst s') e /\
  (resync (fst s') = 0 \/ In Unsynced e).
Lemma tail_ok c s e (Q : state -> list event -> Prop) : (forall n, Q (w_countdown n (fst s), snd s) e) -> (forall n, Q (w_countdown n (fst s), snd s) (e ++ [Regular])) -> Q s e ->
  exists s' e', (if 0 <? freq c then if countdown (fst s) - 1 <=? 0 then Ok ((w_countdown (freq c) (fst s), snd s), e ++ [Regular]) else Ok ((w_countdown (countdown (fst s) - 1) (fst s), snd s), e) else Ok (s, e)) = Ok (s', e') /\ Q s' e'.
Proof. intros A B C. destruct (0 <? freq c); [destruct (countdown (fst s) - 1 <=? 0)|]; eexists _, _; (split; [reflexivity|]); auto. Qed.
Lemma not_in_regular x e : x <> Regular -> ~ In x e -> ~ In x (e ++ [Regular]).
Proof. intros N A B. apply in_app_or in B as [B | [B|[]]]; [contradiction | congruence]. Qed.

Lemma put_good c g s x : good (pt c) g -> fits c -> sane g s -> bits (fst s) < 2147483647 ->
  exists s' e, put_bit c s (Z.b2z (xorb x (inverted g))) = Ok (s', e) /\ sane g s' /\ bits (fst s') = bits (fst s) + 1 /\
    (if resync (fst s) =? 0 then counting c g s x s' e else searching c g s x s' e).
Proof.
  intros G Fi (R & N & B1 & B2 & B3 & D) B. pose proof (g_order _ _ G) as T. unfold put_bit. replace (Z.b2z (xorb x (inverted g)) <? 0) with false by (destruct x, (inverted g); reflexivity). unfold inc at 1. replace (bits (fst s) <? 2147483647) with true by lia. cbn [rbind].
  replace (Z.lxor (Z.land (Z.b2z (xorb x (inverted g))) 1) (invert (pt c))) with (Z.b2z x) by (rewrite (g_inv _ _ G); destruct x, (inverted g); reflexivity).
  rewrite (g_cls _ _ G). cbn [Z.eqb Pos.eqb]. destruct s as [r y]. cbn [fst snd] in *. unfold put1. cbn [w_bits reg ref_reg step step_bit resync bits zeros bad_bits cnt countdown mstep decs].
  assert (W : Z.land (Z.shiftr (reg r) (shift (pt c))) 1 = Z.b2z (want g (r, y))) by (rewrite land1_b2z, Z.shiftr_spec, (g_tap _ _ G) by lia; reflexivity). rewrite W.
  assert (Nx : forall q, feed (shift (pt c)) (shift2 (pt c)) q = nextr g q) by (intros q; unfold nextr; rewrite (g_tap _ _ G); f_equal; pose proof (g_len _ _ G); lia). rewrite !Nx.
  assert (Eq : (Z.b2z x =? Z.b2z (want g (r, y))) = Bool.eqb x (want g (r, y))) by (destruct x, (want g (r, y)); reflexivity).
  destruct (Z.eqb_spec (resync r) 0) as [Z0|Z0]; cbn [negb].
  - rewrite (g_zeros _ _ G). cbn [Z.eqb]. unfold inc at 1. replace (total y <? 2147483647) with true by lia. cbn [rbind]. rewrite Eq.
    assert (X : exists b rb d, (if Bool.eqb x (want g (r, y)) then Ok (bad y, bad_bits r, decs r)
       else do b <- inc (bad y); do rb <- inc (bad_bits r); do k <- aget (ptrs (decs r)) 2; do row <- row_get (bads (decs r)) 2; do v <- aget row k;
            do bs <- row_set (bads (decs r)) 2 k (v + 1); Ok (b, rb, {| ptrs := ptrs (decs r); bads := bs; rate := rate (decs r) |})) = Ok (b, rb, d) /\ b = bad y + Z.b2z (xorb x (want g (r, y))) /\ rb = bad_bits r + Z.b2z (xorb x (want g (r, y))) /\ dec_ok d).
    { destruct x, (want g (r, y)); cbn [Bool.eqb xorb Z.b2z]; try (eexists _, _, _; split; [reflexivity|]; repeat split; try lia; apply D);
      unfold inc; replace (bad y <? 2147483647) with true by lia; replace (bad_bits r <? 2147483647) with true by lia; cbn [rbind]; assert (D' := D); destruct D' as (D1 & D2 & D3 & D4); rewrite aget_in by lia; cbn [rbind]; rewrite row_get_in by lia; cbn [rbind];
      pose proof (ptr_range _ 2 D ltac:(lia)) as P; assert (L : length (nth (Z.to_nat 2) (bads (decs r)) []) = 10%nat) by (apply (Forall_forall (fun r => length r = 10%nat) (bads (decs r))); [exact D4 | apply nth_In; lia]); rewrite aget_in by lia; cbn [rbind];
      match goal with |- context [row_set ?l ?i ?j ?v] => destruct (row_set_in l i j v) as [R1 R2]; [lia | exact D4 | lia | rewrite R1] end; cbn [rbind]; eexists _, _, _; (split; [reflexivity|]); (split; [reflexivity|]); (split; [reflexivity|]); unfold dec_ok; cbn [ptrs bads]; rewrite upd_len; auto. }
    destruct X as (b & rb & d & -> & -> & -> & Dd). cbn [rbind].
    assert (X : exists m d' e, (if mstep r - 1 <=? 0 then do (d, e) <- assess [2; 3; 4; 5; 6; 7] true d; Ok (MEASUREMENT_STEP, d, e) else Ok (mstep r - 1, d, [])) = Ok (m, d', e) /\ dec_ok d' /\ ~ In Synced e /\ ~ In Unsynced e).
    { destruct (mstep r - 1 <=? 0); [|eexists _, _, _; split; [reflexivity|]; split; [exact Dd | split; intros []]]. destruct (assess_ok [2; 3; 4; 5; 6; 7] ltac:(repeat constructor; lia) true d Dd) as (d' & e & -> & Dk & Ev). cbn [rbind]. eexists _, _, _. split; [reflexivity|]. split; [exact Dk|]. split; intros H; destruct (Ev _ H); discriminate. }
    destruct X as (m & d' & e & -> & Dk & E1 & E2). cbn [rbind]. set (wr := Z.b2z (xorb x (want g (r, y)))). assert (Wr : 0 <= wr <= 1) by (unfold wr; destruct (xorb _ _); cbn; lia).
    assert (X : exists n cn rb rs e', (if cnt r - 1 <=? 0 then
         if (resync_len c * resync_percent c <? -2147483648) || (2147483647 <? resync_len c * resync_percent c) then UB
         else if Z.quot (resync_len c * resync_percent c) 100 <=? bad_bits r + wr then do rs <- inc (resyncs y); Ok (1, resync_len c, 0, rs, [Unsynced]) else Ok (0, resync_len c, 0, resyncs y, [])
       else Ok (0, cnt r - 1, bad_bits r + wr, resyncs y, [])) = Ok (n, cn, rb, rs, e') /\ 0 <= n /\ 0 <= rb <= bad_bits r + wr /\ (if cnt r - 1 <=? 0 then cn = resync_len c /\ rb = 0 /\ (In Unsynced e' <-> Z.quot (resync_len c * resync_percent c) 100 <= bad_bits r + wr) else cn = cnt r - 1 /\ rb = bad_bits r + wr /\ ~ In Unsynced e') /\ resyncs y <= rs <= resyncs y + 1 /\ ~ In Synced e' /\ (n = 0 \/ In Unsynced e')).
    { unfold fits in Fi. replace ((resync_len c * resync_percent c <? -2147483648) || (2147483647 <? resync_len c * resync_percent c)) with false by lia. destruct (cnt r - 1 <=? 0); [match goal with |- context [?u <=? bad_bits r + wr] => destruct (Z.leb_spec u (bad_bits r + wr)) end|].
      - unfold inc. replace (resyncs y <? 2147483647) with true by lia. cbn [rbind]. eexists _, _, _, _, _. split; [reflexivity|]. repeat split; try lia; [intros _; left; reflexivity | intros [Y|[]]; discriminate | right; left; reflexivity].
      - eexists _, _, _, _, _. split; [reflexivity|]. repeat split; try lia; intros [].
      - eexists _, _, _, _, _. split; [reflexivity|]. repeat split; try lia; intros []. }
    destruct X as (n & cn & rb' & rs & e' & -> & N1 & N2 & N6 & N3 & N4 & N5). cbn [rbind].
    assert (Wi : forall u v, (u = cn /\ v = rb') -> forall e1, (In Unsynced e1 <-> In Unsynced e') -> if cnt r - 1 <=? 0 then u = resync_len c /\ v = 0 /\ (In Unsynced e1 <-> Z.quot (resync_len c * resync_percent c) 100 <= bad_bits r + wr) else u = cnt r - 1 /\ v = bad_bits r + wr /\ ~ In Unsynced e1).
    { intros u v [-> ->] e1 He. destruct (cnt r - 1 <=? 0); destruct N6 as (M1 & M2 & M3); (split; [exact M1|]); (split; [exact M2|]); tauto. }
    apply tail_ok; unfold sane, counting, window, wrong, w_countdown; cbn [fst snd reg resync bits bad_bits decs total bad resyncs cnt]; fold wr; intros;
      refine (conj (conj (nextr_range g _ T R) _) (conj eq_refl (conj eq_refl (conj eq_refl (conj eq_refl (conj _ (conj (Wi _ _ (conj eq_refl eq_refl) _ _) _))))))); try (repeat split; try lia; apply Dk); rewrite ?in_app_iff; cbn [In]; try (intuition discriminate); tauto.
  - rewrite Eq. rewrite (g_mask _ _ G). assert (M : in_reg g (Z.lxor (reg r) (2 ^ Z.of_nat (tap g)))) by (apply mask_range; [lia | exact R]).
    assert (X : exists q n e, (if Bool.eqb x (want g (r, y)) then if resync_time (pt c) <? resync r + 1 then (reg r, 0, [Synced]) else (reg r, resync r + 1, []) else (Z.lxor (reg r) (2 ^ Z.of_nat (tap g)), 2, [])) = (q, n, e) /\
       in_reg g q /\ 0 <= n /\ q = (if Bool.eqb x (want g (r, y)) then reg r else Z.lxor (reg r) (2 ^ Z.of_nat (tap g))) /\ ~ In Unsynced e /\
       (if Bool.eqb x (want g (r, y)) then if resync_time (pt c) <? resync r + 1 then n = 0 /\ In Synced e else n = resync r + 1 /\ ~ In Synced e else n = 2 /\ ~ In Synced e)).
    { destruct (Bool.eqb x (want g (r, y))); [destruct (resync_time (pt c) <? resync r + 1)|]; eexists _, _, _; (split; [reflexivity|]); repeat split; try apply R; try apply M; try lia; cbn; intuition discriminate. }
    destruct X as (q & n & e & -> & Q1 & Q2 & Q3 & Q4 & Q5). cbn [rbind]. rewrite Nx.
    apply tail_ok; unfold sane, searching, w_countdown; cbn [fst snd reg resync bits bad_bits decs total bad resyncs cnt]; intros;
      refine (conj (conj (nextr_range g _ T Q1) _) (conj eq_refl (conj _ (conj eq_refl (conj _ (conj (conj eq_refl eq_refl) _)))))); try (repeat split; try lia; apply D); try (rewrite Q3; reflexivity); try exact Q4; try exact Q5; try (apply not_in_regular; [discriminate | exact Q4]).
    destruct (Bool.eqb _ _); [destruct (_ <? _)|]; destruct Q5 as [Q5 Q6]; (split; [exact Q5|]); rewrite ?in_app_iff; cbn; intuition discriminate.
Qed.
