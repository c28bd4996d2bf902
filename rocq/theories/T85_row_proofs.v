(** The T.85 decoder turns the decisions of a row back into the row. *)
From Verif Require Import Base Bits Arith_model Arith_spec Arith_enc_proofs Arith_dec_proofs T85_enc_model T85_dec_model T85_arith_proofs T85_pscd_proofs T85_run_proofs T85_ctx_proofs.
From Coq Require Import ZifyBool ZifyNat.
Local Open Scope Z_scope.

(** ---- the decisions that make up a row ---- *)

Section DS.
Variables o tx : Z.
Fixpoint pix_ds (r0 r1 r2 : list Z) (n : nat) (x : Z) : list (Z * Z) :=
  match n with
  | O => []
  | S k => (ctx o tx r0 r1 r2 x, Z.b2z (bit r0 x)) :: pix_ds r0 r1 r2 k (x + 1)
  end.
Definition same_row (r0 r1 : list Z) : bool := if list_eq_dec Z.eq_dec r0 r1 then true else false.
Definition tpcx : Z := if opt o T85_LRLTWO then TPB2CX else TPB3CX.
Definition row_ds (w : Z) (ltp : bool) (r0 r1 r2 : list Z) : list (Z * Z) :=
  if opt o T85_TPBON
  then (tpcx, if Bool.eqb (same_row r0 r1) ltp then 1 else 0) :: (if same_row r0 r1 then [] else pix_ds r0 r1 r2 (Z.to_nat w) 0)
  else pix_ds r0 r1 r2 (Z.to_nat w) 0.
Definition row_ltp (ltp : bool) (r0 r1 : list Z) : bool := if opt o T85_TPBON then same_row r0 r1 else ltp.
Fixpoint rows_ds (w : Z) (ltp : bool) (r1 r2 : list Z) (rows : list (list Z)) : list (Z * Z) :=
  match rows with
  | [] => []
  | r0 :: t => row_ds w ltp r0 r1 r2 ++ rows_ds w (row_ltp ltp r0 r1) r0 r1 t
  end.
Fixpoint rows_ltp (ltp : bool) (r1 : list Z) (rows : list (list Z)) : bool :=
  match rows with
  | [] => ltp
  | r0 :: t => rows_ltp (row_ltp ltp r0 r1) r0 t
  end.
(** The two rows above the one that follows. *)
Fixpoint rows_hist (r1 r2 : list Z) (rows : list (list Z)) : list Z * list Z :=
  match rows with
  | [] => (r1, r2)
  | r0 :: t => rows_hist r0 r1 t
  end.

Lemma pix_ds_ok r0 r1 r2 n : forall x, Forall decision_ok (pix_ds r0 r1 r2 n x).
Proof.
  induction n as [|n IH]; intros x; cbn [pix_ds]; constructor; [|apply IH]. split; cbn [fst snd].
  - pose proof (ctx_range o tx r0 r1 r2 x). lia.
  - destruct (bit r0 x); cbn; auto.
Qed.
Lemma row_ds_ok w ltp r0 r1 r2 : Forall decision_ok (row_ds w ltp r0 r1 r2).
Proof.
  unfold row_ds. destruct (opt o T85_TPBON); [|apply pix_ds_ok]. constructor.
  - split; cbn [fst snd]; [unfold tpcx, TPB2CX, TPB3CX; destruct (opt o T85_LRLTWO); lia|]. destruct (Bool.eqb _ _); auto.
  - destruct (same_row r0 r1); [constructor|apply pix_ds_ok].
Qed.
Lemma rows_ds_ok w rows : forall ltp r1 r2, Forall decision_ok (rows_ds w ltp r1 r2 rows).
Proof. induction rows as [|r rows IH]; intros; cbn [rows_ds]; [constructor|]. apply Forall_app. split; [apply row_ds_ok|apply IH]. Qed.
Lemma rows_ds_app w a : forall b ltp r1 r2, rows_ds w ltp r1 r2 (a ++ b) =
  rows_ds w ltp r1 r2 a ++ rows_ds w (rows_ltp ltp r1 a) (fst (rows_hist r1 r2 a)) (snd (rows_hist r1 r2 a)) b.
Proof. induction a as [|r a IH]; intros; cbn [app rows_ds rows_ltp rows_hist fst snd]; [reflexivity|]. rewrite IH, app_assoc. reflexivity. Qed.
Lemma rows_hist_app a : forall b r1 r2, rows_hist r1 r2 (a ++ b) = rows_hist (fst (rows_hist r1 r2 a)) (snd (rows_hist r1 r2 a)) b.
Proof. induction a as [|r a IH]; intros; cbn [app rows_hist fst snd]; [reflexivity|]. apply IH. Qed.
Lemma rows_ltp_app a : forall b ltp r1 r2, rows_ltp ltp r1 (a ++ b) = rows_ltp (rows_ltp ltp r1 a) (fst (rows_hist r1 r2 a)) b.
Proof. induction a as [|r a IH]; intros; cbn [app rows_ltp rows_hist fst snd]; [reflexivity|]. apply IH. Qed.
End DS.

Lemma nth_firstn_lt {A} (l : list A) k n d : (k < n)%nat -> nth k (firstn n l) d = nth k l d.
Proof. revert k n. induction l as [|x l IH]; intros [|k] [|n] H; cbn [firstn nth]; try lia; try reflexivity. apply IH. lia. Qed.
Lemma nth_skipn {A} (l : list A) k n d : nth k (skipn n l) d = nth (n + k) l d.
Proof. revert l. induction n as [|n IH]; intros [|x l]; cbn [skipn Nat.add nth]; try reflexivity; [destruct k; reflexivity|apply IH]. Qed.

Lemma byte_eq a b : byte a -> byte b -> (forall i, 0 <= i < 8 -> Z.testbit a i = Z.testbit b i) -> a = b.
Proof.
  intros Ha Hb H. red in Ha, Hb. rewrite <- (Z.mod_small a (2 ^ 8)), <- (Z.mod_small b (2 ^ 8)) by lia. apply Z.bits_inj_iff'. intros n Hn.
  destruct (Z.lt_ge_cases n 8). { rewrite !Z.mod_pow2_bits_low by lia. apply H. lia. } rewrite !Z.mod_pow2_bits_high by lia. reflexivity.
Qed.
Lemma u8_byte x : byte (u8 x). Proof. apply Z.mod_pos_bound. lia. Qed.
Lemma nth_byte r k : bytes r -> byte (nth k r 0).
Proof. intros Hr. destruct (nth_in_or_default k r 0) as [I| ->]; [|red; lia]. unfold bytes in Hr. rewrite Forall_forall in Hr. apply Hr, I. Qed.

(** The octet in the register is the octet of the row, once it is full; the last octet is moved up. *)
Lemma octet_full r x h : bytes r -> HR (-1) r (x + 1) 0 h -> 0 <= x -> x mod 8 = 7 -> u8 h = nth (Z.to_nat (x / 8)) r 0.
Proof.
  intros Hr [_ H] Hx Hm. apply byte_eq; [apply u8_byte|apply nth_byte, Hr|]. intros i Hi. unfold u8. change 256 with (2 ^ 8). rewrite Z.mod_pow2_bits_low by lia.
  rewrite H by lia. replace (0 <=? i) with true by lia. cbn [andb]. rewrite bit_in by (Z.div_mod_to_equations; lia). f_equal. Z.div_mod_to_equations; lia.
Qed.
Lemma octet_last r x h b : bytes r -> HR (-1) r (x + 1) 0 h -> 0 <= x -> 8 * b - 7 <= x + 1 <= 8 * b -> (forall k, x + 1 <= k -> bit r k = false) ->
  u8 (Z.shiftl (u8 h) (b * 8 - (x + 1))) = nth (Z.to_nat (x / 8)) r 0.
Proof.
  intros Hr [_ H] Hx Hb HZ. apply byte_eq; [apply u8_byte|apply nth_byte, Hr|]. intros i Hi. unfold u8 at 1. change 256 with (2 ^ 8). rewrite Z.mod_pow2_bits_low by lia.
  assert (E8 : 8 * (x / 8) + 7 = 8 * b - 1) by (Z.div_mod_to_equations; lia).
  rewrite bit_in by (Z.div_mod_to_equations; lia). rewrite E8. rewrite Z.shiftl_spec by lia.
  destruct (Z.lt_ge_cases i (b * 8 - (x + 1))).
  - rewrite Z.testbit_neg_r by lia. symmetry. apply HZ. lia.
  - unfold u8. change 256 with (2 ^ 8). rewrite Z.mod_pow2_bits_low by lia. rewrite H by lia. replace (0 <=? i - (b * 8 - (x + 1))) with true by lia. cbn [andb]. f_equal. lia.
Qed.

Lemma at_moves_eq s : at_moves s = p_tx s (ptx (at_moves s)).
Proof.
  unfold at_moves. destruct ((px s =? 0) && ppseudo s); [|destruct s; reflexivity]. generalize (pat s). intros l.
  enough (G : forall l s1, s1 = p_tx s (ptx s1) -> let s2 := fold_left (fun s1 m => if fst m =? pi s1 then p_tx s1 (snd m) else s1) l s1 in s2 = p_tx s (ptx s2)).
  { apply G. destruct s; reflexivity. }
  clear. induction l as [|m l IH]; intros s1 H; [exact H|]. cbn [fold_left]. apply IH. destruct (fst m =? pi s1); [|exact H]. rewrite H. reflexivity.
Qed.
Lemma at_moves_later s : Forall (fun m => fst m = 0) (pat s) -> pi s <> 0 -> at_moves s = s.
Proof.
  intros H N. unfold at_moves. destruct ((px s =? 0) && ppseudo s); [|reflexivity]. revert H. generalize (pat s). intros l H.
  induction H as [|m l Hm H IH]; [reflexivity|]. cbn [fold_left]. replace (fst m =? pi s) with false by lia. exact IH.
Qed.

Section ROW.
Variable c : par.
Variable o : Z.
Hypothesis PC : par_ok c.
Notation D := (decode_pscd c o).
Opaque t81_t82_arith_decode.

Record row_ok (r : list Z) : Prop := {
  r_len : Z.of_nat (length r) = bpr c;
  r_bytes : bytes r;
  r_pad : forall x, xd c <= x -> bit r x = false }.

Definition slot (rows : list Z) (p : Z) (r : list Z) : Prop :=
  forall j, 0 <= j < bpr c -> nth (Z.to_nat (p * bpr c + j)) rows 0 = nth (Z.to_nat j) r 0.
Definition hist (s : pd) (p : Z) (r : list Z) : Prop := if p <? 0 then r = zero_row (bpr c) else slot (prows s) p r.

Lemma zero_bit n k : bit (zero_row n) k = false.
Proof.
  unfold bit, zero_row. destruct (Nat.lt_ge_cases (Z.to_nat (k / 8)) (Z.to_nat n)) as [L|L].
  - rewrite nth_repeat, Z.bits_0. apply andb_false_r.
  - rewrite nth_overflow by (rewrite repeat_length; lia). rewrite Z.bits_0. apply andb_false_r.
Qed.
Lemma zero_ok : row_ok (zero_row (bpr c)).
Proof.
  destruct PC. constructor.
  - apply zero_row_len. lia.
  - unfold zero_row. apply bytes_rep. red. lia.
  - intros. apply zero_bit.
Qed.

Lemma slot_slice rows p r : slot rows p r -> Z.of_nat (length r) = bpr c -> 0 <= p -> (p + 1) * bpr c <= Z.of_nat (length rows) -> aslice rows (p * bpr c) (bpr c) = Ok r.
Proof.
  intros HS HL Hp Hr. destruct PC as (HX & HB). unfold aslice. replace (bpr c <=? 0) with false by lia. replace ((0 <=? p * bpr c) && (p * bpr c + bpr c <=? Z.of_nat (length rows))) with true by nia.
  f_equal. apply nth_ext with (d := 0) (d' := 0). { rewrite firstn_length, skipn_length. nia. }
  intros k Hk. rewrite firstn_length in Hk. rewrite nth_firstn_lt by lia. rewrite nth_skipn.
  specialize (HS (Z.of_nat k) ltac:(lia)). replace (Z.to_nat (Z.of_nat k)) with k in HS by lia. rewrite <- HS. f_equal. nia.
Qed.

Lemma slot_other rows p q k v r : slot rows p r -> p <> q -> 0 <= p -> 0 <= q -> 0 <= k < bpr c -> slot (upd rows (Z.to_nat (q * bpr c + k)) v) p r.
Proof.
  intros HS N Hp Hq Hk j Hj. rewrite nth_upd_other; [apply HS, Hj|]. intros E. assert (p * bpr c + j = q * bpr c + k) by nia. nia.
Qed.

Definition lo_of (x : Z) : Z := if x mod 8 =? 0 then 8 else x mod 8.

Record ring (s : pd) (r1 r2 : list Z) : Prop := {
  g_sane : sane c o s;
  g_p1 : pp1 s = -1 \/ pp1 s = (pp0 s - 1) mod nbuf o;
  g_p12 : pp1 s < 0 -> pp2 s < 0;
  g_p2 : nbuf o = 3 -> pp2 s <> pp0 s;
  g_h1 : hist s (pp1 s) r1;
  g_h2 : nbuf o = 3 -> hist s (pp2 s) r2;
  g_pat : Forall (fun m => fst m = 0) (pat s);
  g_i : 0 <= pi s }.

Record sync (s : pd) (tx : Z) (ltp : bool) (r1 r2 : list Z) : Prop := {
  y_ring : ring s r1 r2;
  y_x : px s = 0;
  y_ps : ppseudo s = true;
  y_ltp : plntp s = negb ltp;
  y_tx : ptx (at_moves s) = tx }.

Record mid (s : pd) (x tx : Z) (ltp : bool) (r0 r1 r2 : list Z) : Prop := {
  m_ring : ring s r1 r2;
  m_x : px s = x;
  m_ps : ppseudo s = true -> opt o T85_TPBON = false;
  m_ltp : plntp s = negb ltp;
  m_tx : ptx (at_moves s) = tx;
  m_done : forall j, 0 <= j < x / 8 -> nth (Z.to_nat (pp0 s * bpr c + j)) (prows s) 0 = nth (Z.to_nat j) r0 0;
  m_regs : x = 0 \/ (HR (-1) r0 x 0 (ph0 s) /\ HR 15 r1 x (lo_of x) (ph1 s) /\ (nbuf o = 3 -> HR 15 r2 x (lo_of x) (ph2 s))) }.

Lemma nbuf3 : opt o T85_LRLTWO = false -> nbuf o = 3. Proof. unfold nbuf. intros ->. reflexivity. Qed.

Lemma hist_first s p r : sane c o s -> -1 <= p < nbuf o -> hist s p r -> row_ok r ->
  exists h, (if 0 <=? p then do b <- aget (prows s) (p * bpr c + 0); Ok (Z.shiftl b 8) else Ok 0) = Ok h /\ HR 15 r 0 8 h.
Proof.
  intros HS Hp Hh Hr. destruct PC as (HX & HB). pose proof (s_len _ _ _ HS) as HL. unfold hist in Hh. destruct (Z.leb_spec 0 p).
  - replace (p <? 0) with false in Hh by lia. rewrite aget_ok by nia. rewrite Hh by lia. cbn [rbind]. eexists. split; [reflexivity|]. apply HR_first, Hr.
  - replace (p <? 0) with true in Hh by lia. exists 0. split; [reflexivity|]. apply HR_zero. intros. rewrite Hh. apply zero_bit.
Qed.
Lemma p_h_eta s : p_h s (ph0 s) (ph1 s) (ph2 s) = s. Proof. destruct s; reflexivity. Qed.

Lemma HR_load_row r x h k b : row_ok r -> HR 15 r x (lo_of x) h -> x mod 8 = 0 -> 0 <= x -> k = x / 8 + 1 -> b = nth (Z.to_nat k) r 0 -> HR 15 r x 0 (Z.lor h b).
Proof.
  intros Hr H Hm Hx -> ->. apply HR_load; [|apply Hr|Z.div_mod_to_equations; lia|Z.div_mod_to_equations; lia].
  unfold lo_of in H. replace (x mod 8 =? 0) with true in H by lia. exact H.
Qed.
Lemma HR_end_row r x h : row_ok r -> HR 15 r x (lo_of x) h -> x mod 8 = 0 -> (bpr c - 1) * 8 <= x -> HR 15 r x 0 h.
Proof.
  intros Hr H Hm Hx. apply HR_noload; [|rewrite (r_len _ Hr); lia]. unfold lo_of in H. replace (x mod 8 =? 0) with true in H by lia. exact H.
Qed.
Lemma HR_zero_row x lo h lo' : HR 15 (zero_row (bpr c)) x lo h -> HR 15 (zero_row (bpr c)) x lo' h.
Proof. intros [H1 H2]. split; [exact H1|]. intros i Hi. rewrite H2 by exact Hi. rewrite zero_bit, !andb_false_r. reflexivity. Qed.

(** Where a pixel is to be decoded, the decoder uses the context of that pixel. *)
Lemma prep_pixel s x tx ltp r0 r1 r2 : mid s x tx ltp r0 r1 r2 -> row_ok r0 -> row_ok r1 -> row_ok r2 ->
  exists h0 h1 h2, prep c o s = Ok (p_h (p_tp (p_tx s tx) false (plntp s)) h0 h1 h2, ctx o tx r0 r1 r2 x) /\
    HR (-1) r0 x 0 h0 /\ HR 15 r1 x (x mod 8) h1 /\ (nbuf o = 3 -> HR 15 r2 x (x mod 8) h2).
Proof.
  intros [G Ex Hps Hl Htx Hdone Hregs] K0 K1 K2. pose proof (g_sane _ _ _ G) as HS. pose proof (s_x _ _ _ HS) as HX0. rewrite Ex in HX0.
  unfold prep. rewrite ppseudo_at_moves.
  assert (E : opt o T85_TPBON && ppseudo s = false) by (destruct (ppseudo s); [rewrite Hps; reflexivity|apply andb_false_r]). rewrite E. clear E.
  pose proof (at_moves_sane c o s HS) as HSA. rewrite at_moves_eq, Htx in HSA |- *.
  change (plntp (p_tx s tx)) with (plntp s). set (s1 := p_tp (p_tx s tx) false (plntp s)).
  assert (HS1 : sane c o s1) by (destruct HSA; constructor; auto; cbn; congruence).
  pose proof (s_p1 _ _ _ HS1) as P1. pose proof (s_p2 _ _ _ HS1) as P2. pose proof (s_len _ _ _ HS1) as HL. destruct PC as (HX & HB).
  assert (E1 : exists h0 h1 h2, row_start c s1 = Ok (p_h s1 h0 h1 h2) /\ HR (-1) r0 x 0 h0 /\ HR 15 r1 x (lo_of x) h1 /\ (nbuf o = 3 -> HR 15 r2 x (lo_of x) h2)).
  { unfold row_start. change (px s1) with (px s). rewrite Ex. destruct (Z.eqb_spec x 0) as [-> | N].
    - destruct (hist_first s1 (pp1 s1) r1 HS1 P1 (g_h1 _ _ _ G) K1) as (h1 & -> & A1). cbn [rbind].
      assert (E2 : exists h2, (if 0 <=? pp2 s1 then do b <- aget (prows s1) (pp2 s1 * bpr c + 0); Ok (Z.shiftl b 8) else Ok 0) = Ok h2 /\ (nbuf o = 3 -> HR 15 r2 0 8 h2)).
      { destruct (Z.eq_dec (nbuf o) 3) as [E3|E3].
        - destruct (hist_first s1 (pp2 s1) r2 HS1 P2 (g_h2 _ _ _ G E3) K2) as (h2 & E2 & A2). exists h2. auto.
        - destruct (Z.leb_spec 0 (pp2 s1)); [|eexists; split; [reflexivity|lia]]. rewrite aget_ok by nia. eexists. split; [reflexivity|lia]. }
      destruct E2 as (h2 & -> & A2). cbn [rbind]. exists 0, h1, h2. split; [reflexivity|]. split; [apply HR_none|]. split; [exact A1|exact A2].
    - destruct Hregs as [?|(A0 & A1 & A2)]; [lia|]. exists (ph0 s1), (ph1 s1), (ph2 s1). rewrite p_h_eta. auto. }
  destruct E1 as (h0 & h1 & h2 & -> & A0 & A1 & A2). cbn [rbind].
  assert (E2 : exists h1' h2', load_octets c (p_h s1 h0 h1 h2) = Ok (p_h s1 h0 h1' h2') /\ HR 15 r1 x (x mod 8) h1' /\ (nbuf o = 3 -> HR 15 r2 x (x mod 8) h2')).
  { unfold load_octets. cbn [p_h px pp1 pp2 prows ph0 ph1 ph2]. change (px s1) with (px s). rewrite Ex, land7, shr3.
    destruct (Z.eqb_spec (x mod 8) 0) as [Em|Em].
    2:{ exists h1, h2. split; [reflexivity|]. unfold lo_of in *. replace (x mod 8 =? 0) with false in * by lia. auto. }
    rewrite Em. pose proof (g_h1 _ _ _ G) as W1. pose proof (g_h2 _ _ _ G) as W2. pose proof (g_p12 _ _ _ G) as W3. unfold hist in W1, W2.
    change (pp1 s1) with (pp1 s) in *. change (pp2 s1) with (pp2 s) in *. change (prows s1) with (prows s) in *.
    destruct ((x <? (bpr c - 1) * 8) && (0 <=? pp1 s)) eqn:E.
    - assert (J : 0 <= x / 8 + 1 < bpr c) by (Z.div_mod_to_equations; lia).
      replace (pp1 s <? 0) with false in W1 by lia. rewrite <- !Z.add_assoc. rewrite aget_ok by nia. rewrite W1 by exact J. cbn [rbind].
      destruct (Z.leb_spec 0 (pp2 s)).
      + rewrite aget_ok by nia. cbn [rbind]. eexists _, _. split; [reflexivity|]. split; [eapply HR_load_row; eauto; lia|].
        intros E3. replace (pp2 s <? 0) with false in W2 by lia. rewrite (W2 E3) by exact J. eapply HR_load_row; eauto; lia.
      + cbn [rbind]. eexists _, _. split; [reflexivity|]. split; [eapply HR_load_row; eauto; lia|].
        intros E3. replace (pp2 s <? 0) with true in W2 by lia. rewrite (W2 E3) in *. eapply HR_zero_row, A2, E3.
    - exists h1, h2. split; [reflexivity|]. destruct (Z.ltb_spec x ((bpr c - 1) * 8)).
      + assert (pp1 s < 0) by lia. specialize (W3 ltac:(lia)). replace (pp1 s <? 0) with true in W1 by lia. replace (pp2 s <? 0) with true in W2 by lia.
        rewrite W1 in *. split; [eapply HR_zero_row, A1|]. intros E3. rewrite (W2 E3) in *. eapply HR_zero_row, A2, E3.
      + split; [apply HR_end_row; auto; lia|]. intros E3. apply HR_end_row; auto; lia. }
  destruct E2 as (h1' & h2' & -> & B1 & B2). cbn [rbind].
  rewrite (dec_context_ok c o (p_h s1 h0 h1' h2') r0 r1 r2 (x mod 8)); cbn [p_h px ptx ph0 ph1 ph2].
  - cbn [rbind]. change (px s1) with (px s). rewrite Ex. exists h0, h1', h2'. split; [reflexivity|auto].
  - change (px s1) with (px s). rewrite Ex. exact A0.
  - change (px s1) with (px s). rewrite Ex. exact B1.
  - change (px s1) with (px s). rewrite Ex. intros E3. apply B2, nbuf3, E3.
  - Z.div_mod_to_equations; lia.
  - exact (s_tx _ _ _ HS1).
  - change (px s1) with (px s). change (ptx s1) with tx. rewrite Ex. intros Ht. unfold at_pixel. cbn [p_h px ptx pp0 prows].
    change (px s1) with (px s). change (ptx s1) with tx. change (pp0 s1) with (pp0 s). change (prows s1) with (prows s). rewrite Ex. rewrite <- Z.add_assoc, shr_back.
    assert (J : 0 <= (x - tx) / 8 < x / 8) by (Z.div_mod_to_equations; lia). assert (J2 : x / 8 < bpr c) by (apply (oct_in c PC); lia).
    pose proof (s_p0 _ _ _ HS) as P0. change (prows s1) with (prows s) in HL. rewrite aget_ok by nia. rewrite Hdone by exact J. cbn [rbind]. f_equal.
    rewrite land_not7, land7. unfold bit. replace (0 <=? x - tx) with true by lia. cbn [andb].
    replace ((x - tx - 8 * (x / 8)) mod 8) with ((x - tx) mod 8).
    2:{ replace (x - tx - 8 * (x / 8)) with (x - tx + - (x / 8) * 8) by ring. symmetry. apply Z.mod_add. lia. }
    change 1 with (Z.ones 1). rewrite Z.land_ones by lia. rewrite <- Z.bit0_mod, Z.shiftr_spec by lia. reflexivity.
Qed.
Lemma hist_upd s rows p q k v r : hist s p r -> (p < 0 \/ p <> q) -> 0 <= q -> 0 <= k < bpr c -> rows = upd (prows s) (Z.to_nat (q * bpr c + k)) v -> hist (p_rows s rows) p r.
Proof.
  intros H N Hq Hk ->. unfold hist in *. destruct (Z.ltb_spec p 0); [exact H|]. cbn [p_rows prows]. apply slot_other; auto; lia.
Qed.
Lemma p1_ne s r1 r2 : ring s r1 r2 -> pp1 s < 0 \/ pp1 s <> pp0 s.
Proof.
  intros G. pose proof (g_p1 _ _ _ G). pose proof (nbuf_range o). pose proof (s_p0 _ _ _ (g_sane _ _ _ G)). destruct H0 as [E|E]; rewrite E in *; Z.div_mod_to_equations; lia.
Qed.

(** Regardless of the row contents: the ring buffer moves on. *)
Lemma ring_rotate s s' r0 r1 r2 : ring s r1 r2 -> sane c o s' -> pp0 s' = (if nbuf o <=? pp0 s + 1 then 0 else pp0 s + 1) -> pp1 s' = pp0 s -> pp2 s' = pp1 s ->
  slot (prows s') (pp0 s) r0 -> hist s' (pp1 s) r1 -> pat s' = pat s -> pi s' = pi s + 1 -> ring s' r0 r1.
Proof.
  intros G HS E0 E1 E2 H0 H1 Ep Ei. pose proof (g_p1 _ _ _ G) as P1. pose proof (nbuf_range o) as NB. pose proof (s_p0 _ _ _ (g_sane _ _ _ G)) as P0.
  constructor.
  - exact HS.
  - right. rewrite E0, E1. destruct (Z.leb_spec (nbuf o) (pp0 s + 1)); destruct NB as [E|E]; rewrite E in *; Z.div_mod_to_equations; lia.
  - rewrite E1. lia.
  - intros E. rewrite E0, E2. rewrite E in *. destruct (Z.leb_spec 3 (pp0 s + 1)); Z.div_mod_to_equations; lia.
  - unfold hist. rewrite E1. replace (pp0 s <? 0) with false by lia. exact H0.
  - intros _. rewrite E2. exact H1.
  - rewrite Ep. apply G.
  - rewrite Ei. pose proof (g_i _ _ _ G). lia.
Qed.

Lemma take_ok s x tx ltp r0 r1 r2 : ring s r1 r2 -> px s = x -> ppseudo s = false -> plntp s = negb ltp -> ptx s = tx ->
  (forall j, 0 <= j < x / 8 -> nth (Z.to_nat (pp0 s * bpr c + j)) (prows s) 0 = nth (Z.to_nat j) r0 0) ->
  HR (-1) r0 x 0 (ph0 s) -> HR 15 r1 x (x mod 8) (ph1 s) -> (nbuf o = 3 -> HR 15 r2 x (x mod 8) (ph2 s)) ->
  row_ok r0 ->
  exists s5, take_pixel c o (nbuf o) (Z.b2z (bit r0 x)) s = Ok s5 /\ par_s s5 = par_s s /\
    ((x + 1 < xd c /\ mid s5 (x + 1) tx ltp r0 r1 r2 /\ pev s5 = pev s /\ py s5 = py s /\ pi s5 = pi s) \/
     (x + 1 = xd c /\ sync s5 tx ltp r0 r1 /\ pev s5 = Row r0 :: pev s /\ py s5 = py s + 1 /\ pi s5 = pi s + 1)).
Proof.
  intros G Ex Eps El Et Hdone A0 A1 A2 K0. pose proof (g_sane _ _ _ G) as HS. pose proof (s_x _ _ _ HS) as HX0. rewrite Ex in HX0.
  pose proof (s_p0 _ _ _ HS) as P0. pose proof (s_len _ _ _ HS) as HL. pose proof (p1_ne _ _ _ G) as N1.
  pose proof (oct_in c PC _ HX0) as Ho. pose proof (row_slot _ _ _ _ P0 Ho) as KS. destruct PC as (HX & HB).
  destruct (take_pixel_safe c o PC s (Z.b2z (bit r0 x)) HS Eps) as (s5 & E5 & HS5 & Ear & _). exists s5. split; [exact E5|]. split; [exact Ear|].
  assert (B0 := HR_push _ _ _ _ A0 eq_refl).
  assert (B1 := HR_shift _ _ _ _ _ A1 ltac:(Z.div_mod_to_equations; lia)).
  assert (B2 : nbuf o = 3 -> HR 15 r2 (x + 1) (x mod 8 + 1) (if opt o T85_LRLTWO then ph2 s else u32 (Z.shiftl (ph2 s) 1))).
  { intros E3. unfold nbuf in E3. destruct (opt o T85_LRLTWO) eqn:EO; [lia|]. apply HR_shift; [|Z.div_mod_to_equations; lia]. apply A2. unfold nbuf. rewrite EO. reflexivity. }
  assert (LO : x mod 8 + 1 = lo_of (x + 1)). { unfold lo_of. destruct (Z.eqb_spec ((x + 1) mod 8) 0); Z.div_mod_to_equations; lia. }
  rewrite LO in B1, B2.
  unfold take_pixel in E5. cbv zeta in E5. rewrite Ex in E5.
  set (h0 := Z.lor (u32 (Z.shiftl (ph0 s) 1)) (Z.b2z (bit r0 x))) in *. set (h1 := u32 (Z.shiftl (ph1 s) 1)) in *.
  set (h2 := if opt o T85_LRLTWO then ph2 s else u32 (Z.shiftl (ph2 s) 1)) in *. clearbody h0 h1 h2.
  cbn [p_x p_h ph0 ph1 ph2 pp0 prows plntp] in E5. rewrite shr3, land7 in E5.
  destruct (negb ((x + 1) mod 8 =? 0) && (x + 1 <? xd c)) eqn:Ec.
  { left. split; [lia|]. injection E5 as <-. split; [|auto].
    constructor; cbn [p_x p_h px plntp ppseudo pp0 prows ph0 ph1 ph2]; auto.
    - destruct G. constructor; assumption.
    - congruence.
    - rewrite at_moves_not_pseudo by exact Eps. exact Et.
    - intros j Hj. apply Hdone. Z.div_mod_to_equations; lia. }
  rewrite aset_ok in E5 by lia. cbn [rbind p_rows prows] in E5.
  destruct (Z.ltb_spec (x + 1) (xd c)) as [Lx|Lx].
  - left. split; [lia|]. injection E5 as <-. split; [|auto].
    assert (Em : x mod 8 = 7) by (Z.div_mod_to_equations; lia).
    constructor; cbn [p_rows p_x p_h px plntp ppseudo pp0 prows ph0 ph1 ph2]; auto.
    + pose proof (g_h1 _ _ _ G) as G1. pose proof (g_h2 _ _ _ G) as G2. pose proof (g_p2 _ _ _ G) as N2. destruct G. constructor; auto.
      * apply (hist_upd (p_x (p_h s h0 h1 h2) (x + 1)) _ (pp1 s) (pp0 s) (x / 8) (u8 h0)); auto; lia.
      * intros E3. apply (hist_upd (p_x (p_h s h0 h1 h2) (x + 1)) _ (pp2 s) (pp0 s) (x / 8) (u8 h0)); auto; lia.
    + congruence.
    + rewrite at_moves_not_pseudo by exact Eps. exact Et.
    + intros j Hj. destruct (Z.eq_dec j (x / 8)) as [->|Nj].
      * rewrite nth_upd_same by lia. apply octet_full; auto; [apply K0|lia].
      * rewrite nth_upd_other by nia. apply Hdone. Z.div_mod_to_equations; lia.
  - right. assert (Exd : x + 1 = xd c) by lia. split; [exact Exd|].
    rewrite aget_ok in E5 by (rewrite upd_length; lia). rewrite nth_upd_same in E5 by lia. cbn [rbind] in E5.
    rewrite aset_ok in E5 by (rewrite upd_length; lia). cbn [rbind] in E5. unfold row_of in E5. cbn [p_rows p_x p_h pp0 prows] in E5.
    set (rows := upd (upd (prows s) (Z.to_nat (pp0 s * bpr c + x / 8)) (u8 h0)) (Z.to_nat (pp0 s * bpr c + x / 8)) (u8 (Z.shiftl (u8 h0) (bpr c * 8 - xd c)))) in *.
    assert (SL : slot rows (pp0 s) r0).
    { intros j Hj. unfold rows. destruct (Z.eq_dec j (x / 8)) as [->|Nj].
      - rewrite nth_upd_same by (rewrite upd_length; lia). rewrite <- Exd. apply octet_last; auto; try lia; [apply K0|]. intros k Hk. apply (r_pad _ K0). lia.
      - rewrite nth_upd_other by nia. rewrite nth_upd_other by nia. apply Hdone. Z.div_mod_to_equations; lia. }
    assert (LR : length rows = length (prows s)) by (unfold rows; rewrite !upd_length; reflexivity).
    rewrite (slot_slice rows (pp0 s) r0 SL (r_len _ K0)) in E5 by (try lia; rewrite LR; nia). cbn [rbind] in E5. injection E5 as E5.
    assert (HR1 : hist (p_rows s rows) (pp1 s) r1).
    { pose proof (g_h1 _ _ _ G) as G1. unfold hist in *. destruct (Z.ltb_spec (pp1 s) 0); [exact G1|]. cbn [p_rows prows]. unfold rows. apply slot_other; try lia. apply slot_other; auto; lia. }
    clearbody rows. rewrite <- E5 in *. cbn [next_row rotate p_tp p_x p_ev p_rows p_p p_y p_h py pi pev px pp0 pp1].
    split; [|auto].
    constructor; cbn [next_row rotate p_tp p_x p_ev p_rows p_p p_y p_h px plntp ppseudo]; auto.
    + eapply ring_rotate; [exact G|exact HS5|reflexivity|reflexivity|reflexivity|exact SL|exact HR1|reflexivity|reflexivity].
    + rewrite at_moves_later; [exact Et|apply G|]. cbn [next_row rotate p_tp p_x p_ev p_rows p_p p_y p_h pi]. pose proof (g_i _ _ _ G). lia.
Qed.

Lemma ring_p_ar s d r1 r2 : ring s r1 r2 -> dsafe d -> ring (p_ar s d) r1 r2.
Proof. intros G Hd. pose proof (sane_ar c o s d (g_sane _ _ _ G) Hd). destruct G. constructor; auto. Qed.

Opaque prep fin.
(** One pixel. *)
Lemma dec_pixel yd s x tx ltp r0 r1 r2 inp d i1 : mid s x tx ltp r0 r1 r2 -> row_ok r0 -> row_ok r1 -> row_ok r2 -> bytes inp -> complete c yd s = false ->
  t81_t82_arith_decode (par_s s) (ctx o tx r0 r1 r2 x) inp = Ok (Z.b2z (bit r0 x), d, i1) ->
  exists s5, D yd s inp = D yd s5 i1 /\ bytes i1 /\ par_s s5 = d /\
    ((x + 1 < xd c /\ mid s5 (x + 1) tx ltp r0 r1 r2 /\ pev s5 = pev s /\ py s5 = py s /\ pi s5 = pi s) \/
     (x + 1 = xd c /\ sync s5 tx ltp r0 r1 /\ pev s5 = Row r0 :: pev s /\ py s5 = py s + 1 /\ pi s5 = pi s + 1)).
Proof.
  intros M K0 K1 K2 Hb Hc Ed. destruct (prep_pixel _ _ _ _ _ _ _ M K0 K1 K2) as (h0 & h1 & h2 & Ep & A0 & A1 & A2).
  destruct M as [G Ex Hps Hl Htx Hdone Hregs]. pose proof (g_sane _ _ _ G) as HS.
  pose proof (ctx_range o tx r0 r1 r2 x) as CR.
  destruct (decode_safe (par_s s) (ctx o tx r0 r1 r2 x) inp (s_ar _ _ _ HS) ltac:(lia) Hb) as (q & d' & i' & Ed' & Hd & Hb1 & _).
  rewrite Ed in Ed'. injection Ed' as <- <- <-.
  destruct (prep_safe c o PC s HS) as (s3 & cx & Ep' & HS3 & _). rewrite Ep in Ep'. injection Ep' as E3 _.
  set (sp := p_ar s3 d).
  assert (G' : ring sp r1 r2).
  { apply ring_p_ar; [|exact Hd]. rewrite <- E3 in HS3 |- *. destruct G. constructor; auto. }
  assert (T : exists s5, take_pixel c o (nbuf o) (Z.b2z (bit r0 x)) sp = Ok s5 /\ par_s s5 = par_s sp /\
    ((x + 1 < xd c /\ mid s5 (x + 1) tx ltp r0 r1 r2 /\ pev s5 = pev sp /\ py s5 = py sp /\ pi s5 = pi sp) \/
     (x + 1 = xd c /\ sync s5 tx ltp r0 r1 /\ pev s5 = Row r0 :: pev sp /\ py s5 = py sp + 1 /\ pi s5 = pi sp + 1))).
  { apply (take_ok sp x tx ltp r0 r1 r2 G'); unfold sp; try rewrite <- E3; cbn [p_ar p_h p_tp p_tx px ppseudo plntp ptx pp0 prows ph0 ph1 ph2]; auto. }
  destruct T as (s5 & Et & Ear & T). exists s5. rewrite (D_unroll c o PC yd s inp HS Hb), step_eq, Hc, Ep. cbn [rbind].
  change (par_s (p_h (p_tp (p_tx s tx) false (plntp s)) h0 h1 h2)) with (par_s s). rewrite Ed. cbn [rbind].
  replace (Z.b2z (bit r0 x) <? 0) with false by (destruct (bit r0 x); reflexivity).
  rewrite E3. fold sp. rewrite fin_not_pseudo by (unfold sp; rewrite <- E3; reflexivity). rewrite Et. cbn [rbind].
  split; [reflexivity|]. split; [exact Hb1|]. split; [exact Ear|].
  assert (Q1 : pev sp = pev s) by (unfold sp; rewrite <- E3; reflexivity).
  assert (Q2 : py sp = py s) by (unfold sp; rewrite <- E3; reflexivity).
  assert (Q3 : pi sp = pi s) by (unfold sp; rewrite <- E3; reflexivity).
  rewrite Q1, Q2, Q3 in T. exact T.
Qed.

(** The pixels of a row from column [x] on. *)
Lemma dec_pixels yd n : forall s x tx ltp r0 r1 r2 inp ds dF iF, mid s x tx ltp r0 r1 r2 -> row_ok r0 -> row_ok r1 -> row_ok r2 -> bytes inp -> complete c yd s = false ->
  x + Z.of_nat n = xd c -> (0 < n)%nat ->
  decode_all (par_s s) (map fst (pix_ds o tx r0 r1 r2 n x ++ ds)) inp = Ok (map snd (pix_ds o tx r0 r1 r2 n x ++ ds), dF, iF) ->
  exists s5 i1, D yd s inp = D yd s5 i1 /\ bytes i1 /\ sync s5 tx ltp r0 r1 /\ pev s5 = Row r0 :: pev s /\ py s5 = py s + 1 /\ pi s5 = pi s + 1 /\
    decode_all (par_s s5) (map fst ds) i1 = Ok (map snd ds, dF, iF).
Proof.
  induction n as [|n IH]; intros s x tx ltp r0 r1 r2 inp ds dF iF M K0 K1 K2 Hb Hc En Hn E; [lia|].
  cbn [pix_ds app map fst snd decode_all] in E.
  destruct (t81_t82_arith_decode (par_s s) (ctx o tx r0 r1 r2 x) inp) as [[[q d] i1]|] eqn:Ed; [|discriminate]. cbn [rbind] in E.
  destruct (decode_all d (map fst (pix_ds o tx r0 r1 r2 n (x + 1) ++ ds)) i1) as [[[ps d2] i2]|] eqn:Er; [|discriminate]. cbn [rbind] in E. injection E as -> -> -> ->.
  destruct (dec_pixel yd s x tx ltp r0 r1 r2 inp d i1 M K0 K1 K2 Hb Hc Ed) as (s5 & ED & Hb1 & Ear & T).
  rewrite <- Ear in Er. destruct T as [(Lx & M5 & T1 & T2 & T3)|(Lx & Y5 & T1 & T2 & T3)].
  - destruct (IH s5 (x + 1) tx ltp r0 r1 r2 i1 ds dF iF M5 K0 K1 K2 Hb1) as (s6 & i6 & E6 & B6 & Y6 & U1 & U2 & U3 & R6); auto; try lia.
    { unfold complete in *. rewrite T2, T3. exact Hc. }
    exists s6, i6. rewrite ED, E6, U1, U2, U3, T1, T2, T3. auto 10.
  - assert (n = 0%nat) by lia. subst n. cbn [pix_ds app] in Er. exists s5, i1. auto 10.
Qed.

Lemma same_row_true r0 r1 : same_row r0 r1 = true -> r0 = r1.
Proof. unfold same_row. destruct (list_eq_dec Z.eq_dec r0 r1); [auto|discriminate]. Qed.

Lemma typical_ok s tx ltp' r0 r1 r2 : ring s r1 r2 -> px s = 0 -> ppseudo s = true -> plntp s = negb ltp' -> ptx s = tx -> row_ok r1 -> r0 = r1 ->
  exists s5, typical_row c (nbuf o) s = Ok s5 /\ par_s s5 = par_s s /\ sync s5 tx ltp' r0 r1 /\ pev s5 = Row r0 :: pev s /\ py s5 = py s + 1 /\ pi s5 = pi s + 1.
Proof.
  intros G Ex Eps El Et K1 ->. pose proof (g_sane _ _ _ G) as HS. destruct (typical_row_safe c o PC s HS Eps) as (s5 & E5 & HS5 & Ai & Ay & Aps & Ax & Ear).
  exists s5. split; [exact E5|]. split; [exact Ear|]. unfold typical_row in E5. rewrite Ex in E5. change (Z.shiftr 0 3) with 0 in E5. rewrite !Z.add_0_r in E5.
  pose proof (s_p0 _ _ _ HS) as P0. pose proof (s_len _ _ _ HS) as HL. pose proof (g_h1 _ _ _ G) as G1. unfold hist in G1. pose proof (s_p1 _ _ _ HS) as P1. destruct PC as (HX & HB).
  destruct (Z.ltb_spec (pp1 s) 0).
  - assert (ZL := zero_row_len (bpr c) ltac:(lia)). unfold ablit in E5. destruct (zero_row (bpr c)) as [|z zs] eqn:EZ; [cbn [length] in ZL; lia|].
    replace ((0 <=? pp0 s * bpr c) && (pp0 s * bpr c + Z.of_nat (length (z :: zs)) <=? Z.of_nat (length (prows s)))) with true in E5 by nia. cbn [rbind] in E5.
    rewrite <- EZ in *. clear z zs EZ.
    set (rows := firstn (Z.to_nat (pp0 s * bpr c)) (prows s) ++ zero_row (bpr c) ++ skipn (Z.to_nat (pp0 s * bpr c) + length (zero_row (bpr c))) (prows s)) in *.
    assert (F1 : length (firstn (Z.to_nat (pp0 s * bpr c)) (prows s)) = Z.to_nat (pp0 s * bpr c)) by (rewrite firstn_length; nia).
    assert (LR : length rows = length (prows s)) by (unfold rows; rewrite !app_length, F1, skipn_length; nia).
    assert (SL : slot rows (pp0 s) (zero_row (bpr c))).
    { intros j Hj. unfold rows. rewrite app_nth2 by (rewrite F1; nia). rewrite app_nth1 by (rewrite F1; nia). rewrite F1. f_equal. nia. }
    rewrite (slot_slice rows (pp0 s) _ SL ZL) in E5 by (try lia; rewrite LR; nia). cbn [rbind] in E5. injection E5 as E5. clearbody rows.
    rewrite G1 in *. rewrite <- E5 in *. split; [|auto].
    constructor; cbn [next_row rotate p_tp p_x p_ev p_rows p_p p_y p_h px plntp ppseudo]; auto.
    + eapply ring_rotate; [exact G|exact HS5|reflexivity|reflexivity|reflexivity|exact SL| |reflexivity|reflexivity].
      unfold hist. replace (pp1 s <? 0) with true by lia. reflexivity.
    + rewrite at_moves_later; [exact Et|apply G|]. cbn [next_row rotate p_tp p_x p_ev p_rows p_p p_y p_h pi]. pose proof (g_i _ _ _ G). lia.
  - rewrite (slot_slice (prows s) (pp1 s) r1 G1 (r_len _ K1)) in E5 by nia. cbn [rbind] in E5. injection E5 as E5. rewrite <- E5 in *. split; [|auto].
    pose proof (p1_ne _ _ _ G) as N1.
    constructor; cbn [next_row rotate p_tp p_x p_ev p_rows p_p p_y p_h px plntp ppseudo]; auto.
    + pose proof (g_i _ _ _ G). destruct G. constructor; cbn [next_row p_ev p_p p_y pp0 pp1 pp2 pat pi]; auto; lia.
    + rewrite at_moves_later; [exact Et|apply G|]. cbn [next_row p_ev p_p p_y pi]. pose proof (g_i _ _ _ G). lia.
Qed.

Transparent prep fin.
(** A row. *)
Lemma dec_row yd s tx ltp r0 r1 r2 inp ds dF iF : sync s tx ltp r1 r2 -> row_ok r0 -> row_ok r1 -> row_ok r2 -> bytes inp -> complete c yd s = false ->
  decode_all (par_s s) (map fst (row_ds o tx (xd c) ltp r0 r1 r2 ++ ds)) inp = Ok (map snd (row_ds o tx (xd c) ltp r0 r1 r2 ++ ds), dF, iF) ->
  exists s5 i1, D yd s inp = D yd s5 i1 /\ bytes i1 /\ sync s5 tx (row_ltp o ltp r0 r1) r0 r1 /\ pev s5 = Row r0 :: pev s /\ py s5 = py s + 1 /\ pi s5 = pi s + 1 /\
    decode_all (par_s s5) (map fst ds) i1 = Ok (map snd ds, dF, iF).
Proof.
  intros [G Ex Eps El Et] K0 K1 K2 Hb Hc E. pose proof (g_sane _ _ _ G) as HS. assert (HX : 1 <= xd c) by apply PC. unfold row_ds in E. unfold row_ltp. destruct (opt o T85_TPBON) eqn:TP.
  - cbn [app map fst snd decode_all] in E.
    destruct (t81_t82_arith_decode (par_s s) (tpcx o) inp) as [[[q d] i1]|] eqn:Ed; [|discriminate]. cbn [rbind] in E.
    assert (CX : 0 <= tpcx o < 4096) by (unfold tpcx, TPB2CX, TPB3CX; destruct (opt o T85_LRLTWO); lia).
    destruct (decode_safe (par_s s) (tpcx o) inp (s_ar _ _ _ HS) CX Hb) as (q' & d' & i' & Ed' & Hd & Hb1 & _). rewrite Ed in Ed'. injection Ed' as <- <- <-.
    destruct (decode_all d _ i1) as [[[ps d2] i2]|] eqn:Er; [|discriminate]. cbn [rbind] in E. injection E as Eq E1 E2 E3. subst ps d2 i2.
    pose proof (at_moves_sane c o s HS) as HSA. pose proof (at_moves_eq s) as EA. rewrite Et in EA.
    assert (ST : D yd s inp = match fin c o (p_ar (p_tx s tx) d) q with Ok s5 => D yd s5 i1 | UB => UB end).
    { rewrite (D_unroll c o PC yd s inp HS Hb), step_eq, Hc. unfold prep. rewrite ppseudo_at_moves, TP, Eps. cbn [andb rbind]. fold (tpcx o).
      rewrite EA. change (par_s (p_tx s tx)) with (par_s s). rewrite Ed. cbn [rbind]. replace (q <? 0) with false by (rewrite Eq; destruct (Bool.eqb _ _); reflexivity).
      destruct (fin c o (p_ar (p_tx s tx) d) q); reflexivity. }
    assert (LN : negb (xorb (negb (q =? 0)) (plntp s)) = negb (same_row r0 r1)).
    { rewrite Eq, El. destruct (same_row r0 r1), ltp; reflexivity. }
    set (sp := p_tp (p_ar (p_tx s tx) d) true (negb (same_row r0 r1))).
    assert (EF : fin c o (p_ar (p_tx s tx) d) q = if same_row r0 r1 then typical_row c (nbuf o) sp else Ok (p_tp sp false (negb (same_row r0 r1)))).
    { unfold fin. cbn [p_ar p_tx ppseudo plntp]. rewrite TP, Eps. cbn [andb]. rewrite LN. destruct (same_row r0 r1); reflexivity. }
    rewrite EF in ST. clear EF.
    assert (GA : ring (p_ar (p_tx s tx) d) r1 r2).
    { apply ring_p_ar; [|exact Hd]. rewrite EA in HSA. destruct G. constructor; auto. }
    destruct (same_row r0 r1) eqn:SR.
    + assert (GP : ring sp r1 r2). { destruct GA as [S0 ? ? ? ? ? ? ?]. constructor; auto. destruct S0. constructor; auto. }
      destruct (typical_ok sp tx true r0 r1 r2 GP) as (s5 & E5 & Ear & Y5 & T1 & T2 & T3); auto. { apply same_row_true, SR. }
      rewrite E5 in ST. exists s5, i1. split; [exact ST|]. split; [exact Hb1|]. split; [exact Y5|]. split; [exact T1|]. split; [exact T2|]. split; [exact T3|].
      rewrite Ear. exact Er.
    + assert (M : mid (p_tp sp false true) 0 tx false r0 r1 r2).
      { constructor; auto.
        - destruct GA as [S0 ? ? ? ? ? ? ?]. constructor; auto. destruct S0. constructor; auto.
        - cbn. congruence.
        - rewrite at_moves_not_pseudo by reflexivity. reflexivity.
        - intros j Hj. change (0 / 8) with 0 in Hj. lia. }
      destruct (dec_pixels yd (Z.to_nat (xd c)) (p_tp sp false true) 0 tx false r0 r1 r2 i1 ds dF iF M K0 K1 K2 Hb1 Hc ltac:(lia) ltac:(lia) Er) as (s6 & i6 & E6 & T).
      exists s6, i6. cbn [negb] in ST. rewrite ST, E6. split; [reflexivity|exact T].
  - assert (M : mid s 0 tx ltp r0 r1 r2).
    { constructor; auto. intros j Hj. change (0 / 8) with 0 in Hj. lia. }
    exact (dec_pixels yd (Z.to_nat (xd c)) s 0 tx ltp r0 r1 r2 inp ds dF iF M K0 K1 K2 Hb Hc ltac:(lia) ltac:(lia) E).
Qed.

(** The rows of a stripe. *)
Lemma dec_rows yd rows : forall s tx ltp r1 r2 inp ds dF iF, sync s tx ltp r1 r2 -> Forall row_ok rows -> row_ok r1 -> row_ok r2 -> bytes inp ->
  py s + Z.of_nat (length rows) <= yd -> pi s + Z.of_nat (length rows) <= l0 c ->
  decode_all (par_s s) (map fst (rows_ds o tx (xd c) ltp r1 r2 rows ++ ds)) inp = Ok (map snd (rows_ds o tx (xd c) ltp r1 r2 rows ++ ds), dF, iF) ->
  exists s5 i1, D yd s inp = D yd s5 i1 /\ bytes i1 /\ sync s5 tx (rows_ltp o ltp r1 rows) (fst (rows_hist r1 r2 rows)) (snd (rows_hist r1 r2 rows)) /\
    pev s5 = rev (map Row rows) ++ pev s /\ py s5 = py s + Z.of_nat (length rows) /\ pi s5 = pi s + Z.of_nat (length rows) /\
    decode_all (par_s s5) (map fst ds) i1 = Ok (map snd ds, dF, iF).
Proof.
  induction rows as [|r0 rows IH]; intros s tx ltp r1 r2 inp ds dF iF Y KF K1 K2 Hb Hy Hi E.
  - exists s, inp. cbn [rows_ds app] in E. cbn [rows_ltp rows_hist fst snd map rev app length]. rewrite !Z.add_0_r. auto 10.
  - cbn [rows_ds] in E. rewrite <- app_assoc in E. cbn [length] in Hy, Hi.
    assert (Hc : complete c yd s = false) by (unfold complete; lia).
    destruct (dec_row yd s tx ltp r0 r1 r2 inp _ dF iF Y (Forall_inv KF) K1 K2 Hb Hc E) as (s5 & i1 & E5 & B5 & Y5 & T1 & T2 & T3 & R5).
    destruct (IH s5 tx _ r0 r1 i1 ds dF iF Y5 (Forall_inv_tail KF) (Forall_inv KF) K1 B5 ltac:(lia) ltac:(lia) R5) as (s6 & i6 & E6 & B6 & Y6 & U1 & U2 & U3 & R6).
    exists s6, i6. rewrite E5, E6. cbn [rows_ltp rows_hist map rev length]. split; [reflexivity|]. split; [exact B6|]. split; [exact Y6|].
    rewrite U1, T1, <- app_assoc. split; [reflexivity|]. split; [lia|]. split; [lia|]. exact R6.
Qed.
End ROW.
