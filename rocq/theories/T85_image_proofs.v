(** What the T.85 encoder sends for an image. *)
From Verif Require Import Base Bits Arith_model Arith_spec Arith_enc_proofs Arith_dec_proofs T85_enc_model T85_dec_model T85_spec T85_arith_proofs T85_pscd_proofs T85_run_proofs T85_feed_proofs T85_turn_proofs T85_ctx_proofs T85_row_proofs T85_coded_proofs T85_erow_proofs.
From Coq Require Import ZifyBool ZifyNat.
Local Open Scope Z_scope.

(** The octets that go out, row by row. *)
Inductive emit : te -> list (list Z) -> list Z -> Prop :=
| emit_end s src : te_yd s = te_y s -> emit s src []
| emit_row s src s1 src1 P : te_y s < te_yd s -> get_next_row s src = Ok (0, s1, src1) -> te_yd s1 - te_y s1 < te_yd s - te_y s -> emit s1 src1 P -> emit s src (te_bits s1 ++ P).

(** ---- coding a row ---- *)

(** The part of code_row() from the pseudo pixel on. *)
Definition code_rest (s2 : te) : res te :=
  do (ltp, s3) <-
    (if opt (te_options s2) T85_TPBON then
       do ltp <- eqb_rows (te_r0 s2) (te_r1 s2) (bytes_per_row (te_xd s2));
       do (e, o) <- t81_t82_arith_encode (te_ar s2) (if opt (te_options s2) T85_LRLTWO then TPB2CX else TPB3CX)
                                         (if Bool.eqb ltp (te_prev_ltp s2) then 1 else 0);
       Ok (ltp, t_ltp (put_stuff (t_ar s2 e) o) ltp)
     else Ok (false, s2));
  do s4 <-
    (if ltp then Ok s3
     else do (a, e, o) <- encode_row (te_xd s3) (te_mx s3) (te_options s3) (te_r0 s3) (te_r1 s3) (te_r2 s3) (te_at s3) (te_ar s3);
          Ok (put_stuff (t_ar (t_at s3 a) e) o));
  let s5 := t_yi s4 (te_y s4 + 1) (te_i s4 + 1) in
  let s6 :=
    if (te_i s5 =? te_l0 s5) || (te_y s5 =? te_yd s5) then
      let (e, o) := t81_t82_arith_encode_flush (te_ar s5) in
      output_newlen (t_yi (output_esc_code (put_stuff (t_ar s5 e) o) T82_SDNORM) (te_y s5) 0)
    else s5 in
  do a <- atmove_analysis (te_mx s6) (te_options s6) (te_at s6);
  Ok (t_at s6 a).
Definition code_first (s : te) : res te :=
  let s1 := if te_y s =? 0 then put_stuff s (generate_bih s) else s in
  if te_i s1 =? 0 then
       let s2 := output_atmove (output_comment (output_newlen s1)) in
       do a <- (if te_mx s2 =? 0 then Ok (mkAtv (a_tx (te_at s2)) 0 (a_all (te_at s2)) (a_c (te_at s2)))
                else do c <- clear_c (te_mx s2) (a_c (te_at s2)); Ok (mkAtv (a_tx (te_at s2)) (-1) 0 c));
       Ok (t_ar (t_at s2 a) (t81_t82_arith_encode_restart (te_ar s2) true))
     else Ok s1.
Lemma code_row_eq s : te_xd s = te_xd s -> code_row s = do s2 <- code_first s; code_rest s2.
Proof.
  intros _. unfold code_row, code_first. cbv zeta.
  set (s1 := if te_y s =? 0 then put_stuff s (generate_bih s) else s).
  assert (E1 : te_xd s1 = te_xd s) by (unfold s1; destruct (te_y s =? 0); reflexivity). clearbody s1.
  destruct (te_i s1 =? 0).
  - set (s2 := output_atmove (output_comment (output_newlen s1))).
    assert (E2 : te_xd s2 = te_xd s).
    { unfold s2, output_atmove, output_comment, output_newlen. destruct (te_newlen s1); [| |]; cbn [te_comment t_newlen];
      repeat (match goal with |- context [if ?b then _ else _] => destruct b end); destruct (te_comment _); cbn [te_at t_comment put_stuff t_bits t_newlen te_xd t_at output_esc_code]; try destruct (_ && _); cbn; auto. }
    clearbody s2.
    match goal with |- rbind (rbind ?X _) _ = _ => destruct X as [a|] end; [|reflexivity]. cbn [rbind]. unfold code_rest. cbn [t_ar t_at te_xd]. rewrite E2. reflexivity.
  - cbn [rbind]. unfold code_rest. rewrite E1. reflexivity.
Qed.

Section IMAGE.
Variable c : par.
Variable o : Z.
Hypothesis PC : par_ok c.
Hypothesis MX : 0 <= mx c <= 127.
Hypothesis BPR : bytes_per_row (xd c) = bpr c.
Hypothesis L0 : 1 <= l0 c.
Notation v := (opt o T85_VLENGTH).

Definition ST (yd y i : Z) (a : atv) (ltp : bool) (r0 r1 r2 bits : list Z) (wh : bool) (e : enc) : te :=
  mkTe (xd c) yd (l0 c) (mx c) o None y i NEWLEN_NONE a ltp r0 r1 r2 bits wh e.

Definition enorms (e : enc) : Prop := exists W n V, enorm e W n V.
Lemma enorms_run e ds : enorms e -> Forall decision_ok ds -> exists e' out, encode_all e ds = Ok (e', out) /\ enorms e'.
Proof. intros (W & n & V & H) Hd. destruct (encode_arun ds e W n V H Hd) as (e' & B & n' & V' & E & H' & _). exists e', (stuff B). split; [exact E|]. eexists _, _, _. exact H'. Qed.
Lemma enorms_st e : enorms e -> st_ok (est e). Proof. intros (W & n & V & H). apply H. Qed.
Lemma enorms_restart e : st_ok (est e) -> enorms (t81_t82_arith_encode_restart e true).
Proof. intros H. eexists _, _, _. apply enorm_start. exact H. Qed.
Lemma flush_est e : enorms e -> est (fst (t81_t82_arith_encode_flush e)) = est e.
Proof. intros (W & n & V & H). destruct (flush_ok _ _ _ _ H) as (B & Vf & _ & E & _). exact E. Qed.

Opaque t81_t82_arith_encode_flush t81_t82_arith_encode encode_row atmove_analysis.

Definition closes (yd y i : Z) : bool := (i + 1 =? l0 c) || (y + 1 =? yd).

Lemma code_rest_ok yd y i a ltp r0 r1 r2 bits wh e : row_ok c r0 -> row_ok c r1 -> row_ok c r2 -> aok c o a -> enorms e ->
  exists e' o1 a', encode_all e (row_ds o (a_tx a) (xd c) ltp r0 r1 r2) = Ok (e', o1) /\ enorms e' /\ aok c o a' /\ a_tx a' = a_tx a /\
    code_rest (ST yd y i a ltp r0 r1 r2 bits wh e) = Ok (
      if closes yd y i then ST yd (y + 1) 0 a' (row_ltp o ltp r0 r1) r0 r1 r2 (bits ++ o1 ++ snd (t81_t82_arith_encode_flush e') ++ [255; 2]) wh (fst (t81_t82_arith_encode_flush e'))
      else ST yd (y + 1) (i + 1) a' (row_ltp o ltp r0 r1) r0 r1 r2 (bits ++ o1) wh e').
Proof.
  intros K0 K1 K2 Ka He.
  destruct (enorms_run e (row_ds o (a_tx a) (xd c) ltp r0 r1 r2) He (row_ds_ok _ _ _ _ _ _ _)) as (e' & o1 & E & He').
  assert (T : exists a1, aok c o a1 /\ a_tx a1 = a_tx a /\
    (do (ltp0, s3) <-
      (if opt o T85_TPBON then
         do ltp1 <- eqb_rows r0 r1 (bytes_per_row (xd c));
         do (e0, o0) <- t81_t82_arith_encode e (if opt o T85_LRLTWO then TPB2CX else TPB3CX) (if Bool.eqb ltp1 ltp then 1 else 0);
         Ok (ltp1, t_ltp (put_stuff (t_ar (ST yd y i a ltp r0 r1 r2 bits wh e) e0) o0) ltp1)
       else Ok (false, ST yd y i a ltp r0 r1 r2 bits wh e));
     (if ltp0 then Ok s3
     else do (a0, e0, o0) <- encode_row (te_xd s3) (te_mx s3) (te_options s3) (te_r0 s3) (te_r1 s3) (te_r2 s3) (te_at s3) (te_ar s3);
          Ok (put_stuff (t_ar (t_at s3 a0) e0) o0))) = Ok (ST yd y i a1 (row_ltp o ltp r0 r1) r0 r1 r2 (bits ++ o1) wh e')).
  { rewrite BPR. unfold row_ds in E. unfold row_ltp. destruct (opt o T85_TPBON).
    - rewrite (eqb_rows_ok c PC r0 r1 K0 K1). cbn [rbind]. cbn [encode_all] in E. fold (tpcx o).
      destruct (t81_t82_arith_encode e (tpcx o) (if Bool.eqb (same_row r0 r1) ltp then 1 else 0)) as [[e1 p1]|]; [|discriminate]. cbn [rbind] in E |- *.
      destruct (same_row r0 r1).
      + cbn [encode_all rbind] in E. injection E as <- <-. exists a. split; [exact Ka|]. split; [reflexivity|]. rewrite app_nil_r. reflexivity.
      + destruct (encode_all e1 (pix_ds o (a_tx a) r0 r1 r2 (Z.to_nat (xd c)) 0)) as [[e2 p2]|] eqn:E2; [|discriminate]. cbn [rbind] in E. injection E as <- <-.
        cbn [t_ltp put_stuff t_ar t_bits ST te_xd te_mx te_options te_r0 te_r1 te_r2 te_at te_ar te_bits].
        destruct (enc_row c o PC MX BPR a e1 r0 r1 r2 e2 p2 K0 K1 K2 Ka E2) as (a1 & -> & Ka1 & T1 & T2). cbn [rbind]. exists a1. split; [exact Ka1|]. split; [exact T1|].
        rewrite app_assoc. reflexivity.
    - cbn [rbind ST te_xd te_mx te_options te_r0 te_r1 te_r2 te_at te_ar te_bits].
      destruct (enc_row c o PC MX BPR a e r0 r1 r2 e' o1 K0 K1 K2 Ka E) as (a1 & -> & Ka1 & T1 & T2). cbn [rbind]. exists a1. split; [exact Ka1|]. split; [exact T1|]. reflexivity. }
  destruct T as (a1 & Ka1 & T1 & T).
  destruct (analysis_ok c o MX a1 Ka1) as (a' & EA & Ka' & T2).
  exists e', o1, a'. split; [exact E|]. split; [exact He'|]. split; [exact Ka'|]. split; [congruence|].
  unfold code_rest. cbn [ST te_options te_xd te_r0 te_r1 te_ar te_prev_ltp].
  match type of T with rbind ?X _ = _ => destruct X as [[lt s3]|] end; [|discriminate]. cbn [rbind] in T |- *. rewrite T. cbn [rbind].
  cbn [ST t_yi te_y te_i te_l0 te_yd te_ar]. unfold closes. destruct ((i + 1 =? l0 c) || (y + 1 =? yd)).
  - destruct (t81_t82_arith_encode_flush e') as [ef of]. cbn [fst snd]. unfold output_newlen, output_esc_code, put_stuff.
    cbn [ST t_yi t_bits t_ar te_newlen te_bits te_y te_mx te_options te_at te_ar]. rewrite EA. cbn [rbind]. unfold T82_ESC, T82_SDNORM. rewrite <- !app_assoc. reflexivity.
  - cbn [ST t_yi te_mx te_options te_at]. rewrite EA. reflexivity.
Qed.

Definition next_tx (a : atv) : Z := if (0 <=? a_new a) && negb (a_new a =? a_tx a) then a_new a else a_tx a.
Definition bih (yd : Z) : list Z := [0; 0; 1; 0] ++ net32 (xd c) ++ net32 yd ++ net32 (l0 c) ++ [u8 (mx c); 0; 0; u8 o].

Lemma next_tx_in a : aok c o a -> tx_in c o (next_tx a).
Proof. intros [K1 K2 K3]. unfold next_tx. destruct ((0 <=? a_new a) && _) eqn:E; [|exact K2]. destruct K3 as [K3|K3]; [lia|exact K3]. Qed.

Lemma code_first_ok yd y i a ltp r0 r1 r2 bits wh e : aok c o a -> i = 0 ->
  exists a', aok c o a' /\ a_tx a' = next_tx a /\
  code_first (ST yd y i a ltp r0 r1 r2 bits wh e) = Ok (ST yd y i a' ltp r0 r1 r2 (bits ++ (if y =? 0 then bih yd else []) ++ atb (move (a_tx a) (next_tx a))) wh (t81_t82_arith_encode_restart e true)).
Proof.
  intros Ka ->. unfold code_first. cbn [ST te_y].
  replace (if y =? 0 then put_stuff (ST yd y 0 a ltp r0 r1 r2 bits wh e) (generate_bih (ST yd y 0 a ltp r0 r1 r2 bits wh e)) else ST yd y 0 a ltp r0 r1 r2 bits wh e)
    with (ST yd y 0 a ltp r0 r1 r2 (bits ++ (if y =? 0 then bih yd else [])) wh e) by (destruct (y =? 0); [reflexivity|rewrite app_nil_r; reflexivity]).
  set (b1 := bits ++ (if y =? 0 then bih yd else [])). cbv zeta. cbn [ST te_i]. replace (0 =? 0) with true by reflexivity.
  change (output_newlen (ST yd y 0 a ltp r0 r1 r2 b1 wh e)) with (ST yd y 0 a ltp r0 r1 r2 b1 wh e).
  change (output_comment (ST yd y 0 a ltp r0 r1 r2 b1 wh e)) with (ST yd y 0 a ltp r0 r1 r2 b1 wh e).
  assert (EM : exists n1, output_atmove (ST yd y 0 a ltp r0 r1 r2 b1 wh e) = ST yd y 0 (mkAtv (next_tx a) n1 (a_all a) (a_c a)) ltp r0 r1 r2 (b1 ++ atb (move (a_tx a) (next_tx a))) wh e).
  { pose proof (next_tx_in a Ka) as NT. unfold output_atmove. cbn [ST te_at]. unfold next_tx, move in *. destruct ((0 <=? a_new a) && negb (a_new a =? a_tx a)) eqn:E.
    - replace (a_new a =? a_tx a) with false by lia. exists (a_new a). unfold put_stuff. cbn [t_at t_bits ST te_bits atb]. unfold ST, T82_ESC, T82_ATMOVE.
      replace (u8 (a_new a)) with (a_new a). { reflexivity. } unfold u8. rewrite Z.mod_small; [reflexivity|]. unfold tx_in in NT. pose proof (first_t_pos o). lia.
    - replace (a_tx a =? a_tx a) with true by lia. exists (a_new a). cbn [atb]. rewrite app_nil_r. destruct a; reflexivity. }
  destruct EM as (n1 & EM). rewrite EM. cbn [ST te_mx te_at a_tx a_all a_c].
  pose proof (next_tx_in a Ka) as NT.
  destruct (Z.eqb_spec (mx c) 0) as [M0|M0].
  - eexists. split; [|split; [|cbn [rbind]; rewrite (app_assoc bits); reflexivity]]; [|reflexivity]. constructor; cbn [a_c a_tx a_new]; auto; [apply Ka|]. right. left. reflexivity.
  - destruct (clear_ok c MX (a_c a) (k_len _ _ _ Ka)) as (l' & -> & LL). cbn [rbind]. eexists. split; [|split; [|rewrite (app_assoc bits); reflexivity]]; [|reflexivity]. constructor; cbn [a_c a_tx a_new]; auto.
Qed.

(** ---- rows from the application ---- *)

Lemma bpr_div : bpr c = (xd c + 7) / 8. Proof. destruct PC. Z.div_mod_to_equations. lia. Qed.
Lemma white_zero : white (xd c) = zero_row (bpr c). Proof. unfold white, zero_row. rewrite bpr_div. reflexivity. Qed.

Lemma mask_sweep : all_below_from (Z.to_nat 256) 0 (fun b => all_below_from (Z.to_nat 8) 0 (fun k => (k =? 0) || (Z.land b (u8 (Z.lnot (Z.shiftl 1 (8 - k) - 1))) =? b / 2 ^ (8 - k) * 2 ^ (8 - k)))) = true.
Proof. vm_compute. reflexivity. Qed.

Lemma upd_last {A} (l : list A) n x : length l = S n -> upd l n x = firstn n l ++ [x].
Proof. revert n. induction l as [|y l IH]; intros [|n] H; cbn [length] in H; try discriminate; cbn [upd firstn app]. - destruct l; [reflexivity|discriminate]. - rewrite IH by lia. reflexivity. Qed.

Lemma mask_ok r : Z.of_nat (length r) = bpr c -> bytes r -> mask_row (xd c) r = Ok (crop (xd c) r).
Proof.
  intros HL Hb. destruct PC as (HX & HB). unfold mask_row, crop. rewrite BPR, land7. destruct (Z.eqb_spec (xd c mod 8) 0) as [E|E]; cbn [negb].
  - rewrite app_nil_r, firstn_all2; [reflexivity|]. Z.div_mod_to_equations. lia.
  - rewrite aget_ok by lia. cbn [rbind]. rewrite aset_ok by lia. f_equal.
    replace (xd c / 8) with (bpr c - 1) by (Z.div_mod_to_equations; lia).
    rewrite upd_last by lia. do 2 f_equal. pose proof (nth_byte r (Z.to_nat (bpr c - 1)) Hb) as HN. red in HN. set (b := nth (Z.to_nat (bpr c - 1)) r 0) in *.
    pose proof (sweep 256 _ mask_sweep b ltac:(lia)) as S1. cbv beta in S1. pose proof (sweep 8 _ S1 (xd c mod 8) ltac:(Z.div_mod_to_equations; lia)) as S2. cbv beta in S2. lia.
Qed.

Lemma crop_ok r : Z.of_nat (length r) = bpr c -> bytes r -> row_ok c (crop (xd c) r).
Proof.
  intros HL Hb. destruct PC as (HX & HB). unfold crop. assert (BF : bytes (firstn (Z.to_nat (xd c / 8)) r)) by (unfold bytes in *; rewrite <- (firstn_skipn (Z.to_nat (xd c / 8)) r) in Hb; apply Forall_app in Hb; apply Hb).
  destruct (Z.eqb_spec (xd c mod 8) 0) as [E|E].
  - rewrite app_nil_r, firstn_all2 in * by (Z.div_mod_to_equations; lia). constructor; auto. intros x Hx. apply bit_beyond. rewrite HL. Z.div_mod_to_equations. lia.
  - assert (LF : length (firstn (Z.to_nat (xd c / 8)) r) = Z.to_nat (xd c / 8)) by (rewrite firstn_length; Z.div_mod_to_equations; lia).
    pose proof (nth_byte r (Z.to_nat (xd c / 8)) Hb) as HN. red in HN. set (b := nth (Z.to_nat (xd c / 8)) r 0) in *. clearbody b.
    assert (K : 1 <= 8 - xd c mod 8 <= 7) by (Z.div_mod_to_equations; lia). set (k := 8 - xd c mod 8) in *. assert (P : 0 < 2 ^ k) by (apply Z.pow_pos_nonneg; lia).
    constructor.
    + rewrite app_length, LF. cbn [length]. Z.div_mod_to_equations. lia.
    + apply Forall_app. split; [exact BF|]. constructor; [|constructor]. red. split; [apply Z.mul_nonneg_nonneg; [apply Z.div_pos; lia|lia]|]. pose proof (Z.mul_div_le b (2 ^ k) P). lia.
    + intros x Hx. unfold bit. replace (0 <=? x) with true by lia. cbn [andb]. destruct (Z.eq_dec (x / 8) (xd c / 8)) as [Ex|Ex].
      * rewrite Ex, app_nth2 by lia. rewrite LF, Nat.sub_diag. cbn [nth]. apply Z.mul_pow2_bits_low. unfold k. Z.div_mod_to_equations. lia.
      * rewrite nth_overflow; [apply Z.bits_0|]. rewrite app_length, LF. cbn [length]. Z.div_mod_to_equations. lia.
Qed.

Lemma crop_white : crop (xd c) (zero_row (bpr c)) = zero_row (bpr c).
Proof.
  destruct PC as (HX & HB). unfold crop. destruct (Z.eqb_spec (xd c mod 8) 0) as [E|E].
  - rewrite app_nil_r. apply firstn_all2. unfold zero_row. rewrite repeat_length. Z.div_mod_to_equations. lia.
  - unfold zero_row. rewrite nth_repeat. rewrite Z.div_0_l by (apply Z.pow_nonzero; [lia|Z.div_mod_to_equations; lia]). cbn [Z.mul].
    replace (Z.to_nat (bpr c)) with (Z.to_nat (xd c / 8) + 1)%nat by (Z.div_mod_to_equations; lia). rewrite repeat_app. f_equal. rewrite firstn_app, repeat_length, Nat.sub_diag. cbn [firstn]. rewrite app_nil_r. apply firstn_all2. rewrite repeat_length. lia.
Qed.

Definition src_ok (r : list Z) : Prop := Z.of_nat (length r) = bpr c /\ bytes r.

Definition fetch (first wh : bool) (src : list (list Z)) : option (list Z * bool * list (list Z)) :=
  if wh then Some (zero_row (bpr c), true, src)
  else match src with
       | r :: t => Some (crop (xd c) r, false, t)
       | [] => if v && negb first then None else Some (zero_row (bpr c), true, [])
       end.
Fixpoint supply (n : nat) (first wh : bool) (src : list (list Z)) : list (list Z) * bool :=
  match n with
  | O => ([], false)
  | S k => match fetch first wh src with
           | Some (r0, wh1, src1) => let x := supply k false wh1 src1 in (r0 :: fst x, snd x)
           | None => ([], true)
           end
  end.

Lemma zero_src : src_ok (zero_row (bpr c)).
Proof. destruct (zero_ok c PC). split; assumption. Qed.

Lemma fetch_ok first wh src r0 wh1 src1 : fetch first wh src = Some (r0, wh1, src1) -> Forall src_ok src -> row_ok c r0 /\ Forall src_ok src1.
Proof.
  unfold fetch. destruct wh. { intros H HF. injection H as <- <- <-. split; [apply zero_ok, PC|exact HF]. }
  destruct src as [|r t]. { destruct (_ && _); [discriminate|]. intros H HF. injection H as <- <- <-. split; [apply zero_ok, PC|constructor]. }
  intros H HF. injection H as <- <- <-. split; [|apply (Forall_inv_tail HF)]. apply crop_ok; apply (Forall_inv HF).
Qed.

Lemma next_row_ok yd y i a ltp r1 r2 rz bits wh e src r0 wh1 src1 :
  y < yd -> 0 <= y -> Forall src_ok src -> fetch (y =? 0) wh src = Some (r0, wh1, src1) -> (0 < y \/ src <> [] \/ wh = true \/ v = false \/ yd = 1) ->
  get_next_row (ST yd y i a ltp r1 r2 rz bits wh e) src = do s2 <- code_row (ST yd y i a ltp r0 r1 r2 [] wh1 e); Ok (0, s2, src1).
Proof.
  intros Hy Hy0 HF E HC. unfold get_next_row. cbn [ST te_yd te_y te_xd te_white]. replace (yd <=? y) with false by lia. rewrite BPR. unfold fetch in E.
  assert (MZ : mask_row (xd c) (zero_row (bpr c)) = Ok (zero_row (bpr c))) by (rewrite mask_ok by apply zero_src; rewrite crop_white; reflexivity).
  destruct wh.
  - injection E as <- <- <-. cbn [ST t_rows t_bits te_xd]. rewrite MZ. reflexivity.
  - destruct src as [|r t].
    + destruct (v && negb (y =? 0)) eqn:EV; [discriminate|]. injection E as <- <- <-.
      match goal with |- context [t85_encode_set_image_length ?x 1] => assert (EL : t85_encode_set_image_length x 1 = (-1, x)) end.
      { unfold t85_encode_set_image_length. cbn [ST t_rows t_bits te_options te_newlen te_yd]. replace (negb v || false || (yd <=? 1) || (1 <? 1)) with true; [reflexivity|].
        destruct HC as [HC|[HC|[HC|[HC|HC]]]]; try congruence; try (destruct v; cbn in *; lia). }
      rewrite EL. cbn [Z.eqb]. cbn [ST t_white t_rows t_bits te_xd]. rewrite MZ. reflexivity.
    + injection E as <- <- <-. cbn [ST t_rows t_bits te_xd]. rewrite mask_ok by apply (Forall_inv HF). reflexivity.
Qed.

(** A stripe under way (or about to start). *)
Record opn (i : Z) (a : atv) (ltp : bool) (r1 r2 : list Z) (e : enc) (cr : list (list Z)) (tx0 : Z) (ltp0 : bool) (q1 q2 : list Z) (e0 : enc) (out : list Z) (tx' : Z) : Prop := {
  n_i : i = Z.of_nat (length cr); n_l : i < l0 c; n_cr : Forall (row_ok c) cr;
  n_ltp : ltp = rows_ltp o ltp0 q1 cr; n_hist : (r1, r2) = rows_hist q1 q2 cr;
  n_a : aok c o a; n_1 : row_ok c r1; n_2 : row_ok c r2;
  n_first : cr = [] -> tx' = next_tx a /\ tx0 = a_tx a /\ e0 = e /\ out = [] /\ st_ok (est e);
  n_more : cr <> [] -> tx' = a_tx a /\ encode_all (t81_t82_arith_encode_restart e0 true) (rows_ds o tx' (xd c) ltp0 q1 q2 cr) = Ok (e, out) /\ enorms e }.

Lemma opn_start a ltp r1 r2 e : aok c o a -> row_ok c r1 -> row_ok c r2 -> st_ok (est e) -> opn 0 a ltp r1 r2 e [] (a_tx a) ltp r1 r2 e [] (next_tx a).
Proof. intros. constructor; auto; try (cbn [length]; lia); try congruence. Qed.

Definition hd_of (cr : list (list Z)) (yd y tx0 tx' : Z) : list Z :=
  match cr with [] => (if y =? 0 then bih yd else []) ++ atb (move tx0 tx') | _ => [] end.

Lemma rows_ds_one tx ltp r1 r2 r0 : rows_ds o tx (xd c) ltp r1 r2 [r0] = row_ds o tx (xd c) ltp r0 r1 r2.
Proof. cbn [rows_ds]. rewrite app_nil_r. reflexivity. Qed.

Lemma code_row_ok yd y i a ltp r0 r1 r2 wh e cr tx0 ltp0 q1 q2 e0 out tx' :
  opn i a ltp r1 r2 e cr tx0 ltp0 q1 q2 e0 out tx' -> row_ok c r0 -> (0 < i -> 0 < y) ->
  exists e' o1 a', aok c o a' /\ a_tx a' = tx' /\ enorms e' /\
    encode_all (t81_t82_arith_encode_restart e0 true) (rows_ds o tx' (xd c) ltp0 q1 q2 (cr ++ [r0])) = Ok (e', out ++ o1) /\
    code_row (ST yd y i a ltp r0 r1 r2 [] wh e) = Ok (
      if closes yd y i then ST yd (y + 1) 0 a' (row_ltp o ltp r0 r1) r0 r1 r2 (hd_of cr yd y tx0 tx' ++ o1 ++ snd (t81_t82_arith_encode_flush e') ++ [255; 2]) wh (fst (t81_t82_arith_encode_flush e'))
      else ST yd (y + 1) (i + 1) a' (row_ltp o ltp r0 r1) r0 r1 r2 (hd_of cr yd y tx0 tx' ++ o1) wh e').
Proof.
  intros [Ni Nl Nc Nltp Nh Na N1 N2 Nf Nm] K0 Hiy. rewrite code_row_eq by reflexivity. destruct cr as [|rc cr].
  - destruct (Nf eq_refl) as (-> & -> & -> & -> & Hst). cbn [length] in Ni. change (Z.of_nat 0) with 0 in Ni. subst i. cbn [rows_ltp rows_hist] in Nltp, Nh. injection Nh as <- <-. subst ltp0.
    destruct (code_first_ok yd y 0 a ltp r0 r1 r2 [] wh e Na eq_refl) as (a1 & Ka1 & T1 & ->). cbn [rbind].
    destruct (code_rest_ok yd y 0 a1 ltp r0 r1 r2 ([] ++ (if y =? 0 then bih yd else []) ++ atb (move (a_tx a) (next_tx a))) wh _ K0 N1 N2 Ka1 (enorms_restart _ Hst)) as (e' & o1 & a' & E & He' & Ka' & T2 & EQ).
    exists e', o1, a'. split; [exact Ka'|]. split; [congruence|]. split; [exact He'|]. split; [rewrite <- T1; cbn [app]; rewrite rows_ds_one; exact E|]. exact EQ.
  - destruct (Nm ltac:(discriminate)) as (-> & EA & He). set (cr0 := rc :: cr) in *. assert (Hi : 0 < i) by (cbn [cr0 length] in Ni; lia). specialize (Hiy Hi).
    assert (EF : code_first (ST yd y i a ltp r0 r1 r2 [] wh e) = Ok (ST yd y i a ltp r0 r1 r2 [] wh e)).
    { unfold code_first. cbn [ST te_y]. replace (y =? 0) with false by lia. cbn [ST te_i]. replace (i =? 0) with false by lia. reflexivity. }
    rewrite EF. cbn [rbind].
    destruct (code_rest_ok yd y i a ltp r0 r1 r2 [] wh e K0 N1 N2 Na He) as (e' & o1 & a' & E & He' & Ka' & T2 & EQ).
    exists e', o1, a'. split; [exact Ka'|]. split; [exact T2|]. split; [exact He'|]. split; [|exact EQ].
    rewrite rows_ds_app, encode_all_app, EA. cbn [rbind]. rewrite <- Nh. cbn [fst snd]. rewrite <- Nltp, rows_ds_one, E. reflexivity.
Qed.

Lemma setlen_ok yd y i a ltp r0 r1 r2 e : 0 < y < yd -> v = true ->
  t85_encode_set_image_length (ST yd y i a ltp r0 r1 r2 [] false e) 1 =
  (0, mkTe (xd c) y (l0 c) (mx c) o None y (if 0 <? i then 0 else i) NEWLEN_HANDLED a ltp r0 r1 r2
        ((if 0 <? i then snd (t81_t82_arith_encode_flush e) ++ [255; 2] else []) ++ tailb y true) false (if 0 <? i then fst (t81_t82_arith_encode_flush e) else e)).
Proof.
  intros Hy Hv. unfold t85_encode_set_image_length. cbv beta iota zeta delta [ST te_options te_newlen te_yd te_y]. rewrite Hv. cbn [negb orb].
  replace (yd <=? 1) with false by lia. replace (1 <? 1) with false by lia. cbn [orb]. replace (0 <? y) with true by lia. cbn [andb].
  replace (if 1 <? y then y else 1) with y by (destruct (Z.ltb_spec 1 y); lia). replace (yd =? y) with false by lia. cbn [negb].
  cbv beta iota zeta delta [t_newlen t_yd te_xd te_yd te_l0 te_mx te_options te_comment te_y te_i te_newlen te_at te_prev_ltp te_r0 te_r1 te_r2 te_bits te_white te_ar]. rewrite Z.eqb_refl.
  destruct (0 <? i).
  - destruct (t81_t82_arith_encode_flush e) as [ef of]. unfold output_newlen, output_esc_code, put_stuff. cbv beta iota zeta delta [fst snd t_newlen t_yd t_yi t_bits t_ar te_xd te_yd te_l0 te_mx te_options te_comment te_y te_i te_newlen te_at te_prev_ltp te_r0 te_r1 te_r2 te_bits te_white te_ar]. rewrite Z.eqb_refl.
    cbn [app]. unfold tailb, T82_ESC, T82_NEWLEN, T82_SDNORM. rewrite <- !app_assoc. reflexivity.
  - unfold output_newlen, output_esc_code, put_stuff. cbv beta iota zeta delta [fst snd t_newlen t_yd t_yi t_bits t_ar te_xd te_yd te_l0 te_mx te_options te_comment te_y te_i te_newlen te_at te_prev_ltp te_r0 te_r1 te_r2 te_bits te_white te_ar]. rewrite Z.eqb_refl. reflexivity.
Qed.

Lemma newlen_ok yd y i a ltp r1 r2 rz bits e : 0 < y < yd -> 0 <= i -> v = true ->
  exists s1, get_next_row (ST yd y i a ltp r1 r2 rz bits false e) [] = Ok (0, s1, []) /\ te_yd s1 = y /\ te_y s1 = y /\
    te_bits s1 = (if 0 <? i then snd (t81_t82_arith_encode_flush e) ++ [255; 2] else []) ++ tailb y true.
Proof.
  intros Hy Hi Hv. unfold get_next_row. cbn [ST te_yd te_y te_white]. replace (yd <=? y) with false by lia. cbv zeta.
  change (t_rows (t_bits _ []) _ _ _) with (ST yd y i a ltp rz r1 r2 [] false e). rewrite (setlen_ok yd y i a ltp rz r1 r2 e Hy Hv). cbn [Z.eqb].
  eexists. split; [reflexivity|]. split; [reflexivity|]. split; reflexivity.
Qed.

Lemma tx_at_ok tx : tx_in c o tx -> at_ok c o (Some tx).
Proof. intros H. unfold tx_in in H. pose proof (first_t_pos o). cbn [at_ok]. unfold byte, tx_ok. unfold first_t in *. destruct (opt o T85_LRLTWO); repeat split; lia. Qed.

Lemma rows_ltp_one ltp r1 r0 : rows_ltp o ltp r1 [r0] = row_ltp o ltp r0 r1. Proof. reflexivity. Qed.

Definition ended (cr : list (list Z)) (yd y i tx0 tx' : Z) (ltp0 : bool) (q1 q2 : list Z) (e0 : enc) (out : list Z) (img : list (list Z)) (nl : bool) (P : list Z) : Prop :=
  let yd' := y + Z.of_nat (length img) in
  (cr = [] /\ 0 < y /\ img = [] /\ P = tailb y nl) \/
  exists more rest, P = hd_of cr yd y tx0 tx' ++ more ++ [255; 2] ++ flat rest ++ tailb yd' nl /\
    coded c o yd' (est e0) tx0 ltp0 q1 q2 (y - i) ((move tx0 tx', out ++ more) :: rest) (cr ++ img).

Lemma enc_main n : forall yd y i a ltp r1 r2 rz bits wh e src cr tx0 ltp0 q1 q2 e0 out tx',
  opn i a ltp r1 r2 e cr tx0 ltp0 q1 q2 e0 out tx' -> n = Z.to_nat (yd - y) -> 0 <= y < yd -> (0 < i -> 0 < y) -> Forall src_ok src ->
  (0 < y \/ src <> [] \/ wh = true \/ v = false \/ yd = 1) ->
  exists P, emit (ST yd y i a ltp r1 r2 rz bits wh e) src P /\ ended cr yd y i tx0 tx' ltp0 q1 q2 e0 out (fst (supply n (y =? 0) wh src)) (snd (supply n (y =? 0) wh src)) P.
Proof.
  induction n as [|n IH]; intros yd y i a ltp r1 r2 rz bits wh e src cr tx0 ltp0 q1 q2 e0 out tx' HO Hn Hy Hiy HF HC; [lia|]. cbn [supply].
  pose proof (next_tx_in a (n_a _ _ _ _ _ _ _ _ _ _ _ _ _ _ HO)) as NT.
  assert (TX : tx_in c o tx').
  { destruct HO as [Ni Nl Nc Nltp Nh Na N1 N2 Nf Nm]. destruct cr; [destruct (Nf eq_refl) as (-> & _); exact NT|destruct (Nm ltac:(discriminate)) as (-> & _); apply Na]. }
  destruct (fetch (y =? 0) wh src) as [[[r0 wh1] src1]|] eqn:EF.
  - destruct (fetch_ok _ _ _ _ _ _ EF HF) as (K0 & HF1).
    assert (EN := next_row_ok yd y i a ltp r1 r2 rz bits wh e src r0 wh1 src1 ltac:(lia) ltac:(lia) HF EF HC).
    destruct (code_row_ok yd y i a ltp r0 r1 r2 wh1 e cr tx0 ltp0 q1 q2 e0 out tx' HO K0 Hiy) as (e' & o1 & a' & Ka' & T' & He' & EA & EC).
    rewrite EC in EN. cbn [rbind] in EN. clear EC.
    destruct HO as [Ni Nl Nc Nltp Nh Na N1 N2 Nf Nm]. set (x := supply n false wh1 src1) in *. cbn [fst snd].
    assert (NE : cr ++ [r0] <> []) by (destruct cr; discriminate).
    assert (NL : Z.of_nat (length (cr ++ [r0])) = i + 1) by (rewrite app_length; cbn [length]; lia).
    assert (NF : Forall (row_ok c) (cr ++ [r0])) by (apply Forall_app; split; [exact Nc|constructor; [exact K0|constructor]]).
    assert (NLT : rows_ltp o ltp0 q1 (cr ++ [r0]) = row_ltp o ltp r0 r1) by (rewrite (rows_ltp_app o _ _ _ _ q2), <- Nh, <- Nltp; reflexivity).
    assert (NH : rows_hist q1 q2 (cr ++ [r0]) = (r0, r1)) by (rewrite rows_hist_app, <- Nh; reflexivity).
    assert (NW : Forall src_ok src1 /\ (0 < y + 1)) by (split; [exact HF1|lia]).
    assert (YX : y + Z.of_nat (length (r0 :: fst x)) = y + 1 + Z.of_nat (length (fst x))) by (cbn [length]; lia).
    assert (AP : cr ++ r0 :: fst x = (cr ++ [r0]) ++ fst x) by (rewrite <- app_assoc; reflexivity).
    unfold closes in EN. destruct ((i + 1 =? l0 c) || (y + 1 =? yd)) eqn:CL.
    + (* the stripe is complete *)
      set (e2 := fst (t81_t82_arith_encode_flush e')) in *.
      assert (HST : est e2 = est e') by (apply flush_est; exact He'). assert (SO : st_ok (est e2)) by (rewrite HST; apply enorms_st; exact He').
      set (bits1 := hd_of cr yd y tx0 tx' ++ o1 ++ snd (t81_t82_arith_encode_flush e') ++ [255; 2]) in *.
      assert (R : exists stripes, emit (ST yd (y + 1) 0 a' (row_ltp o ltp r0 r1) r0 r1 r2 bits1 wh1 e2) src1 (flat stripes ++ tailb (y + 1 + Z.of_nat (length (fst x))) (snd x)) /\
        coded c o (y + 1 + Z.of_nat (length (fst x))) (est e') tx' (row_ltp o ltp r0 r1) r0 r1 (y + 1) stripes (fst x) /\ (i + 1 = l0 c \/ fst x = [])).
      { destruct (Z.eqb_spec (y + 1) yd) as [Ey|Ey].
        - assert (n = O) by lia. subst n. exists []. cbn [x supply fst snd flat map concat app tailb length]. split; [constructor; cbn [ST te_yd te_y]; lia|]. split; [|right; reflexivity].
          replace (y + 1 + Z.of_nat 0) with (y + 1) by lia. constructor.
        - pose proof (opn_start a' (row_ltp o ltp r0 r1) r0 r1 e2 Ka' K0 N1 SO) as HO2.
          destruct (IH yd (y + 1) 0 a' (row_ltp o ltp r0 r1) r0 r1 r2 bits1 wh1 e2 src1 [] _ _ _ _ _ _ _ HO2 ltac:(lia) ltac:(lia) ltac:(lia) HF1 ltac:(lia)) as (P & HE & HP).
          replace (y + 1 =? 0) with false in HP by lia. fold x in HP. rewrite T' in HP. destruct HP as [(_ & _ & X0 & ->)|(more & rest & -> & HCo)].
          + exists []. rewrite X0. cbn [length]. replace (y + 1 + Z.of_nat 0) with (y + 1) by lia. split; [exact HE|]. split; [constructor|]. left. lia.
          + exists ((move tx' (next_tx a'), more) :: rest). split; [|split; [|left; lia]].
            * unfold hd_of in HE. replace (y + 1 =? 0) with false in HE by lia. cbn [app] in HE. unfold flat. cbn [map concat fst snd]. rewrite <- !app_assoc. exact HE.
            * rewrite HST in HCo. replace (y + 1 - 0) with (y + 1) in HCo by lia. exact HCo. }
      destruct R as (stripes & HE & HCo & HX).
      exists (bits1 ++ flat stripes ++ tailb (y + 1 + Z.of_nat (length (fst x))) (snd x)). split.
      * eapply (emit_row _ _ _ _ _ _ EN); [|exact HE]. cbn [ST te_yd te_y]. lia.
      * right. exists (o1 ++ snd (t81_t82_arith_encode_flush e')), stripes. rewrite YX. split. { unfold bits1. rewrite <- !app_assoc. reflexivity. }
        rewrite AP, (app_assoc out). eapply (coded_stripe c o _ (est e0) tx0 ltp0 q1 q2 (y - i) tx' (cr ++ [r0]) e0 e'); auto; rewrite ?NL.
        -- apply tx_at_ok, TX.
        -- lia.
        -- lia.
        -- destruct HX as [HX| ->]; [left; lia|right; cbn [length]; lia].
        -- rewrite NLT, NH. cbn [fst snd]. replace (y - i + (i + 1)) with (y + 1) by lia. exact HCo.
    + (* it goes on *)
      set (bits1 := hd_of cr yd y tx0 tx' ++ o1) in *.
      assert (HO2 : opn (i + 1) a' (row_ltp o ltp r0 r1) r0 r1 e' (cr ++ [r0]) tx0 ltp0 q1 q2 e0 (out ++ o1) tx').
      { constructor; auto; try lia; try congruence. }
      destruct (IH yd (y + 1) (i + 1) a' (row_ltp o ltp r0 r1) r0 r1 r2 bits1 wh1 e' src1 _ _ _ _ _ _ _ _ HO2 ltac:(lia) ltac:(lia) ltac:(lia) HF1 ltac:(lia)) as (P & HE & HP).
      replace (y + 1 =? 0) with false in HP by lia. fold x in HP. destruct HP as [(C0 & _)|(more & rest & -> & HCo)]; [congruence|].
      exists (bits1 ++ (more ++ [255; 2] ++ flat rest ++ tailb (y + 1 + Z.of_nat (length (fst x))) (snd x))). split.
      * eapply (emit_row _ _ _ _ _ _ EN).
        -- cbn [ST te_yd te_y]. lia.
        -- destruct cr; exact HE.
      * right. exists (o1 ++ more), rest. rewrite YX. split. { unfold bits1. rewrite <- !app_assoc. reflexivity. }
        rewrite AP, (app_assoc out). replace (y + 1 - (i + 1)) with (y - i) in HCo by lia. exact HCo.
  - (* the application has no more rows *)
    assert (W : wh = false /\ src = [] /\ v = true /\ 0 < y).
    { unfold fetch in EF. destruct wh; [discriminate|]. destruct src; [|discriminate]. destruct v eqn:Ev; cbn [andb] in EF; [|discriminate]. destruct (Z.eqb_spec y 0); [discriminate|]. repeat split; auto. lia. }
    destruct W as (-> & -> & Hv & Hy0). cbn [fst snd].
    destruct HO as [Ni Nl Nc Nltp Nh Na N1 N2 Nf Nm].
    destruct (newlen_ok yd y i a ltp r1 r2 rz bits e ltac:(lia) ltac:(lia) Hv) as (s1 & EN & E1 & E2 & E3).
    exists (te_bits s1 ++ []). split. { eapply (emit_row _ _ _ _ _ _ EN); [cbn [ST te_yd te_y]; lia|]. constructor. lia. }
    rewrite app_nil_r, E3. unfold ended. cbn [length]. replace (y + Z.of_nat 0) with y by lia. destruct cr as [|rc cr].
    + left. cbn [length] in Ni. replace (0 <? i) with false by lia. auto.
    + right. destruct (Nm ltac:(discriminate)) as (Htx & EA & He). set (cr0 := rc :: cr) in *. replace (0 <? i) with true by (cbn [cr0 length] in Ni; lia).
      exists (snd (t81_t82_arith_encode_flush e)), []. split. { cbn [hd_of cr0 flat map concat app]. rewrite <- app_assoc. reflexivity. }
      eapply (coded_stripe c o _ (est e0) tx0 ltp0 q1 q2 (y - i) tx' cr0 e0 e); auto; try (rewrite <- Ni); try lia; try discriminate.
      * apply tx_at_ok, TX.
      * replace (y - i + i) with y by lia. constructor.
  Unshelve. all: cbn [ST te_yd te_y]; lia.
Qed.

End IMAGE.
