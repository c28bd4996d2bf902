(** Coded stripes, and what the T.85 decoder makes of them. *)
From Verif Require Import Base Bits Arith_model Arith_spec Arith_enc_proofs Arith_dec_proofs T85_enc_model T85_dec_model T85_arith_proofs T85_pscd_proofs T85_run_proofs T85_safe_proofs T85_feed_proofs T85_ctx_proofs T85_row_proofs.
From Coq Require Import ZifyBool ZifyNat.
Local Open Scope Z_scope.

Section CODED.
Variable c : par.
Variable o yd : Z.
Hypothesis PC : par_ok c.
Notation D := (decode_pscd c o).

Definition move (tx tx' : Z) : option Z := if tx' =? tx then None else Some tx'.

(** The stripes of an image from row [y] on, coded from probability states [st], template pixel [tx],
    and the two rows above. *)
Inductive coded : list Z -> Z -> bool -> list Z -> list Z -> Z -> list stripe -> list (list Z) -> Prop :=
| coded_end st tx ltp r1 r2 : coded st tx ltp r1 r2 yd [] []
| coded_stripe st tx ltp r1 r2 y tx' rows e0 e1 out rest rows' :
    at_ok c o (Some tx') -> rows <> [] -> Forall (row_ok c) rows ->
    y + Z.of_nat (length rows) <= yd -> Z.of_nat (length rows) <= l0 c ->
    (Z.of_nat (length rows) = l0 c \/ y + Z.of_nat (length rows) = yd) ->
    est e0 = st ->
    encode_all (t81_t82_arith_encode_restart e0 true) (rows_ds o tx' (xd c) ltp r1 r2 rows) = Ok (e1, out) ->
    coded (est e1) tx' (rows_ltp o ltp r1 rows) (fst (rows_hist r1 r2 rows)) (snd (rows_hist r1 r2 rows)) (y + Z.of_nat (length rows)) rest rows' ->
    coded st tx ltp r1 r2 y ((move tx tx', out ++ snd (t81_t82_arith_encode_flush e1)) :: rest) (rows ++ rows').

Record between (s : pd) (st : list Z) (tx : Z) (ltp : bool) (r1 r2 : list Z) (y : Z) : Prop := {
  b_ring : ring c o s r1 r2;
  b_x : px s = 0; b_ps : ppseudo s = true; b_ltp : plntp s = negb ltp; b_tx : ptx s = tx; b_pat : pat s = [];
  b_i : pi s = 0; b_y : py s = y; b_ar : np (par_s s) false = mkDec 1 0 st 0 true false; b_st : st_ok st }.

Lemma rows_ds_ne tx ltp r1 r2 rows : rows <> [] -> rows_ds o tx (xd c) ltp r1 r2 rows <> [].
Proof.
  destruct rows as [|r0 rows]; [congruence|]. intros _. cbn [rows_ds]. unfold row_ds. destruct (opt o T85_TPBON); [discriminate|].
  destruct PC as (HX & _). destruct (Z.to_nat (xd c)) eqn:E; [lia|]. discriminate.
Qed.

Lemma rows_hist_ok rows : forall r1 r2, Forall (row_ok c) rows -> row_ok c r1 -> row_ok c r2 -> row_ok c (fst (rows_hist r1 r2 rows)) /\ row_ok c (snd (rows_hist r1 r2 rows)).
Proof. induction rows as [|r0 rows IH]; intros r1 r2 HF H1 H2; cbn [rows_hist fst snd]; [auto|]. apply IH; [apply (Forall_inv_tail HF)|apply (Forall_inv HF)|exact H1]. Qed.

Lemma coded_le st tx ltp r1 r2 y stripes rows : coded st tx ltp r1 r2 y stripes rows -> y <= yd.
Proof. destruct 1; lia. Qed.
Lemma coded_more st tx ltp r1 r2 y stripes rows : coded st tx ltp r1 r2 y stripes rows -> stripes <> [] -> y < yd.
Proof. destruct 1; [congruence|]. intros _. destruct rows; [congruence|]. cbn [length] in *. lia. Qed.

Opaque decode_pscd t81_t82_arith_encode_flush.
Lemma coded_good st tx ltp r1 r2 y stripes rows : coded st tx ltp r1 r2 y stripes rows -> forall s, between s st tx ltp r1 r2 y -> row_ok c r1 -> row_ok c r2 ->
  good c o yd s stripes (rev (map Row rows) ++ pev s).
Proof.
  induction 1 as [st tx ltp r1 r2|st tx ltp r1 r2 y tx' rows e0 e1 out rest rows' AT NE HF Hy Hl Hend Ee Eenc HC IH]; intros s B K1 K2.
  - cbn [map rev app]. constructor. rewrite (b_y _ _ _ _ _ _ _ B). lia.
  - destruct B as [G Bx Bps Bltp Btx Bpat Bi By Bar Bst]. pose proof (g_sane _ _ _ _ _ G) as HS.
    set (s1 := p_at s (ats (move tx tx'))).
    assert (HS1 : sane c o s1).
    { destruct HS. constructor; auto. cbn [s1 p_at pat]. unfold move. destruct (tx' =? tx); cbn [ats]; constructor; [apply AT|constructor]. }
    assert (Y1 : sync c o (N s1) tx' ltp r1 r2).
    { constructor; auto.
      - apply ring_p_ar; [|apply dsafe_np; apply HS1]. destruct G. constructor; auto. cbn [s1 p_at pat]. unfold move. destruct (tx' =? tx); cbn [ats]; repeat constructor.
      - unfold at_moves. cbn [N s1 p_ar p_at px ppseudo pat]. rewrite Bx, Bps. cbn [Z.eqb andb]. unfold move. destruct (Z.eqb_spec tx' tx) as [->|Nt]; cbn [ats fold_left fst snd].
        + exact Btx.
        + cbn [N s1 p_ar p_at pi]. rewrite Bi. reflexivity. }
    set (dsx := rows_ds o tx' (xd c) ltp r1 r2 rows) in *.
    assert (DO : Forall decision_ok dsx) by apply rows_ds_ok.
    destruct (stripe_ok e0 (mkDec 0 0 st 0 false false) true dsx 2 [] Ee ltac:(rewrite Ee; exact Bst) DO ltac:(lia)) as (e1' & out' & E1 & ST1 & (F & HF1 & EF) & Efl & d1 & i1 & ED & Edst & X).
    rewrite Eenc in E1. injection E1 as <- <-. destruct (X (rows_ds_ne tx' ltp r1 r2 rows NE)) as [X1 X2]. subst i1. clear X.
    set (p := out ++ snd (t81_t82_arith_encode_flush e1)) in *. clearbody p.
    assert (Bp : bytes p) by (rewrite EF; apply bytes_stuff, HF1).
    assert (BP : bytes (p ++ [255; 2])) by (apply Forall_app; split; [exact Bp|]; constructor; [red; lia|]; constructor; [red; lia|constructor]).
    assert (ED' : decode_all (par_s (N s1)) (map fst (dsx ++ [])) (p ++ [255; 2]) = Ok (map snd (dsx ++ []), d1, [255; 2])).
    { rewrite !app_nil_r. cbn [N s1 p_ar p_at par_s]. rewrite Bar. exact ED. }
    destruct (dec_rows c o PC yd rows (N s1) tx' ltp r1 r2 _ [] d1 [255; 2] Y1 HF K1 K2 BP) as (s5 & i5 & E5 & B5 & Y5 & T1 & T2 & T3 & R5); auto.
    { change (py (N s1)) with (py s). rewrite By. exact Hy. }
    { change (pi (N s1)) with (pi s). rewrite Bi. exact Hl. }
    change (py (N s1)) with (py s) in T2. change (pi (N s1)) with (pi s) in T3. change (pev (N s1)) with (pev s) in T1. rewrite By in T2. rewrite Bi in T3.
    cbn [map decode_all] in R5. injection R5 as R5 ->.
    assert (C5 : complete c yd s5 = true) by (unfold complete; lia).
    pose proof (g_sane _ _ _ _ _ (y_ring _ _ _ _ _ _ _ Y5)) as HS5.
    assert (E5' : D yd (N s1) (p ++ [255; 2]) = Ok (s5, [255; 2])).
    { rewrite E5, (D_unroll c o PC yd s5 _ HS5 B5), step_complete by exact C5. reflexivity. }
    destruct (rows_hist_ok rows r1 r2 HF K1 K2) as (KH1 & KH2).
    assert (NP : dnopadding (par_s s5) = false).
    { pose proof E5' as E6. Transparent decode_pscd. unfold decode_pscd in E6. destruct (loop_false c o PC yd _ _ _ _ _ E6 (sane_N c o _ HS1) BP eq_refl) as [NP _]. exact NP. }
    replace (rev (map Row (rows ++ rows')) ++ pev s) with (rev (map Row rows') ++ pev (after false s5)).
    2:{ rewrite map_app, rev_app_distr, <- app_assoc. change (pev (after false s5)) with (pev s5). rewrite T1. reflexivity. }
    apply good_stripe with (sF := s5); auto.
    + unfold move. destruct (tx' =? tx); [exact I|exact AT].
    + rewrite EF. apply no_marker_stuff.
    + fold s1. split; [exact E5'|]. rewrite R5. split; [exact X1|]. rewrite <- R5. auto.
    + intros NR. pose proof (coded_more _ _ _ _ _ _ _ _ HC NR). lia.
    + apply IH; [|exact KH1|exact KH2].
      destruct Y5 as [G5 Yx Yps Yltp Ytx]. pose proof (f_equal dst R5) as R6.
      constructor; auto.
      * assert (HS6 : sane c o (after false s5)).
        { destruct HS5. constructor; auto. - change (px (after false s5)) with 0. split; [apply Z.le_refl|]. apply Z.lt_le_trans with 1; [reflexivity|]. exact (proj1 PC). - cbn. constructor. - cbn [after p_at p_tp p_y p_x p_ar par_s]. apply (dsafe_np _ false). apply dsafe_restart. rewrite R6, Edst. exact ST1. }
        destruct G5. constructor; auto; [constructor|]. change (pi (after false s5)) with 0. lia.
      * cbn [after p_at p_tp p_y p_x p_ar ptx]. rewrite at_moves_later in Ytx; [exact Ytx|apply G5|]. destruct rows; [congruence|]. cbn [length] in T3. lia.
      * cbn [after p_at p_tp p_y p_x p_ar par_s]. unfold np, set_nopadding, t81_t82_arith_decode_restart. cbn. rewrite R6, Edst. reflexivity.
Qed.
End CODED.
