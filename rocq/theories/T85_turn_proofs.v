(** The T.85 decoder, turn by turn through a well formed stream. *)
From Verif Require Import Base Bits Arith_model Arith_spec Arith_enc_proofs Arith_dec_proofs T85_enc_model T85_dec_model T85_arith_proofs T85_pscd_proofs T85_run_proofs T85_safe_proofs T85_feed_proofs.
From Coq Require Import ZifyBool ZifyNat.
Local Open Scope Z_scope.

Lemma get32_net32 v : 0 <= v < 4294967296 -> get32 (net32 v) = v.
Proof.
  intros H. unfold net32, get32, u8. rewrite !Z.shiftr_div_pow2, !Z.shiftl_mul_pow2 by lia.
  assert (L : forall x y k, 0 <= k -> 0 <= y < 2 ^ k -> Z.lor (x * 2 ^ k) y = x * 2 ^ k + y).
  { intros x y k Hk Hy. assert (Hz : Z.land (x * 2 ^ k) y = 0).
    { apply Z.bits_inj_iff'; intros n Hn; rewrite Z.land_spec, Z.bits_0. destruct (Z.lt_ge_cases n k); [rewrite Z.mul_pow2_bits_low by lia; reflexivity|].
      rewrite <- (Z.mod_small y (2 ^ k)) by lia. rewrite Z.mod_pow2_bits_high by lia. apply andb_false_r. }
    rewrite <- Z.lxor_lor by exact Hz. symmetry. apply Z.add_nocarry_lxor. exact Hz. }
  change (2 ^ 24) with (2 ^ 8 * 2 ^ 16). change (2 ^ 16) with (2 ^ 8 * 2 ^ 8).
  set (a := (v / (2 ^ 8 * (2 ^ 8 * 2 ^ 8))) mod 256). set (b := (v / (2 ^ 8 * 2 ^ 8)) mod 256). set (d := (v / 2 ^ 8) mod 256). set (e := v mod 256).
  assert (Ha : 0 <= a < 256) by (apply Z.mod_pos_bound; lia). assert (Hb : 0 <= b < 256) by (apply Z.mod_pos_bound; lia).
  assert (Hd : 0 <= d < 256) by (apply Z.mod_pos_bound; lia). assert (He : 0 <= e < 256) by (apply Z.mod_pos_bound; lia).
  replace (a * (2 ^ 8 * (2 ^ 8 * 2 ^ 8))) with ((a * 2 ^ 8) * 2 ^ 16) by (change (2 ^ 16) with (2 ^ 8 * 2 ^ 8); ring).
  change (2 ^ 8 * 2 ^ 8) with (2 ^ 16). replace (b * 2 ^ 16) with (b * 2 ^ 16 + 0) by lia.
  assert (E1 : Z.lor (a * 2 ^ 8 * 2 ^ 16) (b * 2 ^ 16 + 0) = (a * 256 + b) * 65536).
  { rewrite Z.add_0_r, <- !Z.shiftl_mul_pow2, <- Z.shiftl_lor by lia. rewrite !Z.shiftl_mul_pow2 by lia. rewrite (L a b 8) by lia. reflexivity. }
  rewrite E1. replace ((a * 256 + b) * 65536) with (((a * 256 + b) * 256) * 2 ^ 8) by lia.
  assert (E2 : Z.lor ((a * 256 + b) * 256 * 2 ^ 8) (d * 2 ^ 8) = ((a * 256 + b) * 256 + d) * 2 ^ 8).
  { rewrite <- !(Z.shiftl_mul_pow2 _ 8), <- Z.shiftl_lor by lia. rewrite !(Z.shiftl_mul_pow2 _ 8) by lia. f_equal. apply (L (a * 256 + b) d 8); lia. }
  rewrite E2, (L _ e 8) by lia. unfold a, b, d, e. change (2 ^ 8) with 256. change (2 ^ 16) with 65536. change (256 * (256 * 256)) with 16777216. clear -H. Z.div_mod_to_equations. lia.
Qed.

Lemma net32_bytes v : bytes (net32 v).
Proof. unfold net32, u8. repeat (constructor; [apply Z.mod_pos_bound; lia|]). constructor. Qed.

Lemma opts_v o : opt o T85_VLENGTH = true \/ opt o T85_VLENGTH = false. Proof. destruct (opt o T85_VLENGTH); auto. Qed.

(** ---- markers ---- *)

Lemma marker_stuff s data n : marker (s_buf s [255; 0] n) data =
  do (p, _) <- decode_pscd (d_par s) (d_options s) (d_yd s) (d_pd s) [255; 0]; Ok (Loop (s_buf (s_pd s p) [] n) data).
Proof. reflexivity. Qed.
Lemma marker_norm s data n : opt (d_options s) T85_VLENGTH = false -> marker (s_buf s [255; 2] n) data = stripe_end (s_buf s [] n) 2 (fun s1 => Loop s1 data).
Proof. intros H. unfold marker. cbn [s_buf d_options d_buf]. rewrite H. reflexivity. Qed.
Lemma marker_norm2 s data : opt (d_options s) T85_VLENGTH = true -> marker (s_buf s [255; 2] 2) data = Ok (Loop (s_buf s [255; 2] 3) data).
Proof. intros H. unfold marker. cbn [s_buf d_options d_buf]. rewrite H. reflexivity. Qed.
Lemma marker_norm3 s data y : opt (d_options s) T85_VLENGTH = true -> marker (s_buf s [255; 2; y] 3) data =
  if negb (y =? 255) then stripe_end (s_buf s [] 2) 2 (fun s1 => Loop s1 (y :: data)) else Ok (Loop (s_buf s [255; 2; y] 4) data).
Proof. intros H. unfold marker. cbn [s_buf d_options d_buf]. rewrite H. cbn. destruct (negb (y =? T82_ESC)) eqn:E; unfold T82_ESC in E; rewrite E; reflexivity. Qed.
Lemma marker_norm4 s data z : opt (d_options s) T85_VLENGTH = true -> marker (s_buf s [255; 2; 255; z] 4) data =
  if negb (z =? 5) then stripe_end (s_buf s [255; 2; 255; z] 2) 2 (fun s1 => Loop (s_buf s1 [255; z] 2) data) else Ok (Loop (s_buf s [255; 2; 255; z] 8) data).
Proof. intros H. unfold marker. cbn [s_buf d_options d_buf]. rewrite H. cbn. destruct (negb (z =? T82_NEWLEN)) eqn:E; unfold T82_NEWLEN in E; rewrite E; reflexivity. Qed.
Lemma marker_norm8 s data a b e f : opt (d_options s) T85_VLENGTH = true -> get32 [a; b; e; f] <= d_yd s -> marker (s_buf s [255; 2; 255; 5; a; b; e; f] 8) data =
  do s3 <- finish_sde (s_yd (clear_vlength (s_buf s [] 2)) (get32 [a; b; e; f])) 2; Ok (Loop s3 data).
Proof.
  intros H Hy. unfold marker. cbn [s_buf d_options d_buf]. rewrite H. cbn [field skipn firstn]. set (y := get32 [a; b; e; f]) in *.
  change (d_yd (clear_vlength (s_buf (s_buf s [255; 2; 255; 5; a; b; e; f] 8) [] 2))) with (d_yd s). clearbody y.
  replace (d_yd s <? y) with false by lia. reflexivity.
Qed.
Lemma marker_at2 s data : marker (s_buf s [255; 6] 2) data = Ok (Loop (s_buf s [255; 6] 8) data).
Proof. reflexivity. Qed.
Lemma marker_at8 s data tx : pat (d_pd s) = [] -> (mx (d_par s) <? tx) || ((0 <? tx) && (tx <? first_t (d_options s))) = false ->
  marker (s_buf s [255; 6; 0; 0; 0; 0; tx; 0] 8) data = Ok (Loop (s_pd (s_buf s [] 2) (p_at (d_pd s) [(0, tx)])) data).
Proof.
  intros H E. unfold marker. cbn [s_buf d_options d_buf d_pd d_par]. rewrite H.
  change (nth 6 [255; 6; 0; 0; 0; 0; tx; 0] 0) with tx. rewrite E. reflexivity.
Qed.

Lemma finish_ok s sF i : decode_pscd (d_par s) (d_options s) (d_yd s) (N (d_pd s)) [255; 2] = Ok (sF, i) ->
  finish_sde s 2 = Ok (s_pd s (after (opt (d_options s) T85_VLENGTH) sF)).
Proof. intros E. unfold finish_sde. change (p_ar (d_pd s) (set_nopadding (par_s (d_pd s)) false)) with (N (d_pd s)). unfold T82_ESC. rewrite E. reflexivity. Qed.

Lemma turn_nobuf s data : d_eod s = 0 -> d_comment_len s = 0 -> d_buf s = [] -> bid_turn s data =
    match data with
    | x :: data1 =>
        if x =? T82_ESC then Ok (Loop (s_buf s [x] (d_need s)) data1)
        else
          do (p, rest) <- decode_pscd (d_par s) (d_options s) (d_yd s) (d_pd s) data;
          match rest with
          | y :: _ => if y =? T82_ESC then Ok (Loop (s_pd s p) rest) else Ok (Ret INVALID_DATA (s_eod (s_pd s p) 2))
          | [] => Ok (Loop (s_pd s p) rest)
          end
    | [] =>
        do (p, rest) <- decode_pscd (d_par s) (d_options s) (d_yd s) (d_pd s) [];
        Ok (Loop (s_pd s p) rest)
    end.
Proof. intros E1 E2 E3. unfold bid_turn. rewrite E1. cbn [Z.eqb]. rewrite E2, E3. reflexivity. Qed.

Lemma turn_buf s data b n : d_eod s = 0 -> d_comment_len s = 0 -> d_buf s = b -> d_need s = n -> (0 < length b <= 8)%nat -> n <= 8 -> bid_turn s data =
  let want := Z.to_nat (n - Z.of_nat (length b)) in
  let b1 := b ++ firstn want data in
  if Z.of_nat (length b1) <? n then Ok (Loop (s_buf s b1 n) (skipn want data)) else marker (s_buf s b1 n) (skipn want data).
Proof.
  intros E1 E2 E3 E4 L H. unfold bid_turn. rewrite E1. cbn [Z.eqb]. rewrite E2, E3, E4. cbn [Z.eqb negb].
  replace (0 <? Z.of_nat (length b)) with true by lia. cbv zeta.
  assert (length (b ++ firstn (Z.to_nat (n - Z.of_nat (length b))) data) <= 8)%nat by (rewrite app_length, firstn_length; lia).
  match goal with |- (if ?c then _ else _) = _ => replace c with false by lia end. reflexivity.
Qed.

Section TURN.
Variable c : par.
Variable o : Z.
Variables yd ydh : Z.
Variable nl : bool.
Hypothesis PC : par_ok c.
Hypothesis Yd : 0 <= yd < 4294967296.
Notation D := (decode_pscd c o).
Notation v := (opt o T85_VLENGTH).
Hypothesis NL : if nl then v = true /\ yd <= ydh else ydh = yd.

Definition tailb : list Z := if nl then [255; 5] ++ net32 yd ++ [255; 2] else [].

Lemma Yh : yd <= ydh. Proof using NL. destruct nl; lia. Qed.
Lemma Yv : v = false -> ydh = yd. Proof using NL. intros H. destruct nl; [destruct NL; congruence|exact NL]. Qed.

Record com (s : td) : Prop := {
  m_par : d_par s = c; m_opt : d_options s = o; m_yd : d_yd s = ydh; m_com : d_comment_len s = 0; m_eod : d_eod s = 0; m_body : body s }.

Definition bufA (rem b : list Z) (n : Z) : Prop :=
  (n = 2 /\ (b = [] \/ b = [255] \/ (v = true /\ exists x, b = [255; x]))) \/
  (v = true /\ rem = [255; 2] /\ ((b = [255; 2] /\ n = 3) \/ (b = [255; 2; 255] /\ n = 4) \/ (n = 8 /\ exists t, b = 255 :: 2 :: 255 :: 5 :: t /\ (length t < 4)%nat))).

Definition caseA (s : td) (R : list Z) (ev : list event) : Prop :=
  com s /\ exists rem rest sF, d_buf s ++ R = rem ++ flat rest ++ tailb /\ bytes rem /\ bytes (flat rest) /\
    ends c o yd (d_pd s) rem sF /\ (rest <> [] -> py sF < yd) /\ good c o yd (after false sF) rest ev /\
    mode v (d_pd s) rem /\ bufA rem (d_buf s) (d_need s).

Definition caseB (s : td) (R : list Z) (ev : list event) : Prop :=
  com s /\ exists tx p rest, d_buf s ++ R = flat ((Some tx, p) :: rest) ++ tailb /\ bytes (flat ((Some tx, p) :: rest)) /\
    good c o yd (d_pd s) ((Some tx, p) :: rest) ev /\ pat (d_pd s) = [] /\
    dnopadding (par_s (d_pd s)) = v /\ 0 <= dct (par_s (d_pd s)) /\
    ((d_need s = 2 /\ (d_buf s = [] \/ d_buf s = [255] \/ (v = true /\ exists x, d_buf s = [255; x]))) \/
     (d_need s = 8 /\ exists t, d_buf s = 255 :: 6 :: t /\ (length t < 6)%nat)).

(** After the new length the last marker is still to come. *)
Definition caseC (s : td) (R : list Z) (ev : list event) : Prop :=
  d_par s = c /\ opt (d_options s) T85_VLENGTH = false /\ d_yd s = yd /\ d_comment_len s = 0 /\ d_eod s = 0 /\ body s /\
  yd <= py (d_pd s) /\ pev (d_pd s) = ev /\ d_buf s ++ R = [255; 2] /\ d_need s = 2 /\ (d_buf s = [] \/ d_buf s = [255]).

Definition going (s : td) (R : list Z) (ev : list event) : Prop := bytes R /\ (caseA s R ev \/ caseB s R ev \/ caseC s R ev).
Definition finished (s : td) (ev : list event) : Prop := d_yd s <= py (d_pd s) /\ pev (d_pd s) = ev.

Lemma p_at_nil s : pat s = [] -> p_at s [] = s. Proof. destruct s. cbn. intros ->. reflexivity. Qed.
Lemma bytes_tail : bytes tailb.
Proof. unfold tailb. destruct nl; [|constructor]. repeat apply Forall_app_intro || idtac. apply bytes_app; [repeat constructor; lia|]. apply bytes_app; [apply net32_bytes|apply bytes_mark]. Qed.

Lemma good_bytes s l ev : good c o yd s l ev -> bytes (flat l).
Proof.
  induction 1 as [s Hy|s a p rest ev sF A1 A2 A2' A3 A4 A5 A6 IH]; [constructor|].
  unfold flat. cbn [map concat fst snd]. apply bytes_app; [|exact IH]. apply bytes_app; [|apply bytes_app; [exact A2|apply bytes_mark]].
  destruct a as [tx|]; [|constructor]. cbn [atb at_ok] in *. destruct A1 as [A1 _]. repeat (constructor; [first [exact A1|red; lia]|]). constructor.
Qed.

Lemma start s R stripes ev : com s -> d_need s = 2 -> good c o yd (d_pd s) stripes ev -> stripes <> [] -> pat (d_pd s) = [] ->
  dnopadding (par_s (d_pd s)) = v -> 0 <= dct (par_s (d_pd s)) -> (d_buf s = [] \/ (v = true /\ exists x, d_buf s = [255; x])) ->
  d_buf s ++ R = flat stripes ++ tailb -> bytes R -> going s R ev.
Proof.
  intros HC Hn HG Hne Hp Hnp Hct Hbuf E HR. split; [exact HR|]. pose proof (good_bytes _ _ _ HG) as HB. destruct stripes as [|[[tx|] p] rest]; [contradiction| |].
  - right. left. split; [exact HC|]. exists tx, p, rest. split; [exact E|]. split; [exact HB|]. split; [exact HG|]. split; [exact Hp|]. split; [exact Hnp|]. split; [exact Hct|].
    left. split; [exact Hn|]. destruct Hbuf as [Hbuf|Hbuf]; auto.
  - left. split; [exact HC|]. inversion HG as [|s' a' p' rest' ev' sF A1 A2 A2' A3 A4 A5 A6]; subst. cbn [ats] in *. rewrite (p_at_nil _ Hp) in *.
    exists (p ++ [255; 2]), rest, sF. unfold flat in *. cbn [map concat fst snd atb app] in *. rewrite <- app_assoc in E.
    split; [exact E|]. split; [apply bytes_app; [exact A2|apply bytes_mark]|]. split; [apply Forall_app in HB; apply HB|]. split; [exact A4|]. split; [exact A5|]. split; [exact A6|].
    split. { destruct (opts_v o) as [V|V]; [right; left|left]; rewrite V in *; auto. }
    left. split; [exact Hn|]. destruct Hbuf as [Hbuf|Hbuf]; auto.
Qed.

Lemma com_eq s s' : com s -> d_par s' = d_par s -> d_options s' = d_options s -> d_yd s' = d_yd s -> d_comment_len s' = d_comment_len s -> d_eod s' = d_eod s -> body s' -> com s'.
Proof. intros [H1 H2 H3 H4 H5 H6]. constructor; congruence. Qed.

Lemma rem_cases rem Z1 x y R : (exists u, rem = u ++ [255; 2] /\ no_marker u) -> x = 255 -> x :: y :: R = rem ++ Z1 ->
  (rem = [255; 2] /\ y = 2 /\ R = Z1) \/ (y = 0 /\ exists rem', rem = 255 :: 0 :: rem' /\ R = rem' ++ Z1).
Proof.
  intros (u & -> & Hu) -> E. destruct u as [|h u].
  - left. cbn [app] in E. injection E as -> ->. auto.
  - right. cbn [app] in E. injection E as <- E. destruct Hu as [Hu _]. destruct (Hu eq_refl) as [t ->]. cbn [app] in E. injection E as -> ->.
    split; [reflexivity|]. exists (t ++ [255; 2]). split; reflexivity.
Qed.

Lemma after_py w sF : py (after w sF) = py sF. Proof. reflexivity. Qed.

(** The end of a stripe that is not the last one. *)
Lemma stripe_over s R rest sF ev k b n : com s -> rest <> [] -> ends c o yd (d_pd s) [255; 2] sF -> (rest <> [] -> py sF < yd) -> good c o yd (after false sF) rest ev ->
  (length b <= 8)%nat -> bytes b -> 2 <= n <= 8 ->
  exists s1, stripe_end (s_buf s b n) 2 k = Ok (k s1) /\ s1 = s_pd (s_buf s b n) (after v sF) /\ body s1 /\
    (forall b', (length b' <= 2)%nat -> bytes b' -> (b' = [] \/ (v = true /\ exists x, b' = [255; x])) -> b' ++ R = flat rest ++ tailb -> bytes R -> going (s_buf s1 b' 2) R ev).
Proof.
  intros HC Hne He Hpy HG Lb Bb Hn. pose proof Yh as HY. pose proof He as (E & X1 & X2 & X3 & X4). specialize (Hpy Hne).
  pose proof (m_body _ HC) as HBo. destruct HC as [C1 C2 C3 C4 C5 C6].
  assert (SN : sane c o (N (d_pd s))) by (apply sane_N; rewrite <- C1, <- C2; apply HBo).
  assert (E' : D ydh (N (d_pd s)) [255; 2] = Ok (sF, [255; 2])).
  { apply (D_later c o PC yd ydh); auto; [apply bytes_mark|]. unfold complete in *. lia. }
  set (s0 := s_buf s b n). assert (B0 : body s0) by (apply buf_body; auto).
  assert (EF : finish_sde s0 2 = Ok (s_pd s0 (after v sF))).
  { rewrite (finish_ok s0 sF [255; 2]); [cbn [s0 s_buf d_options]; rewrite C2; reflexivity|]. cbn [s0 s_buf d_par d_options d_yd d_pd]. rewrite C1, C2, C3. exact E'. }
  destruct (finish_sde_safe s0 2 B0 ltac:(red; lia)) as (s1 & E1 & B1 & _). rewrite EF in E1. injection E1 as <-.
  exists (s_pd s0 (after v sF)). split.
  { unfold stripe_end. rewrite EF. cbn [rbind]. cbn [s_pd d_yd d_pd s0 s_buf]. rewrite after_py, C3. replace (ydh <=? py sF) with false by lia. reflexivity. }
  split; [reflexivity|]. split; [exact B1|]. intros b' Lb' Bb' Hb' ER BR.
  apply (start _ R rest ev); auto.
  - constructor; cbn [s_buf s_pd d_par d_options d_yd d_comment_len d_eod s0]; auto. apply buf_body; auto; lia.
  - cbn [s_buf s_pd d_pd]. apply good_after. exact HG.
  - cbn. lia.
Qed.

Lemma esc_flat rest z t : rest <> [] -> (exists s ev, good c o yd s rest ev) -> flat rest ++ tailb = 255 :: z :: t -> z <> 5.
Proof.
  intros Hne (s & ev & HG) E. inversion HG as [|s' a p rest' ev' sF A1 A2 A2' A3 A4 A5 A6]; subst; [contradiction|].
  unfold flat in E. cbn [map concat fst snd] in E. destruct a as [tx|]; cbn [atb] in E; cbn [app] in E.
  - injection E as <- _. lia.
  - rewrite <- !app_assoc in E. destruct p as [|x p].
    + cbn [app] in E. injection E as <- _. lia.
    + cbn [app] in E. injection E as -> E. destruct A2' as [A2' _]. destruct (A2' eq_refl) as [t' ->]. cbn [app] in E. injection E as <- _. lia.
Qed.

Definition fits (R' : list Z) (ev : list event) (t : turn) : Prop :=
  match t with
  | Loop s1 d1 => going s1 (d1 ++ R') ev
  | Ret r s1 => r = OK /\ R' = [] /\ finished s1 ev
  end.

Lemma tail_ne x t : tailb = x :: t -> nl = true /\ x = 255 /\ t = 5 :: net32 yd ++ [255; 2].
Proof. unfold tailb. destruct nl; [|discriminate]. cbn [app]. intros E. injection E as <- <-. auto. Qed.

Lemma good_nil s ev : good c o yd s [] ev -> yd <= py s /\ pev s = ev.
Proof. intros H. inversion H; subst; auto. Qed.

Lemma going_A s b n R rem rest sF ev : com s -> b ++ R = rem ++ flat rest ++ tailb -> bytes b -> (length b <= 8)%nat -> 2 <= n <= 8 -> bytes R -> bytes rem -> bytes (flat rest) ->
  ends c o yd (d_pd s) rem sF -> (rest <> [] -> py sF < yd) -> good c o yd (after false sF) rest ev -> mode v (d_pd s) rem -> bufA rem b n -> going (s_buf s b n) R ev.
Proof.
  intros HC E Bb Lb Hn HR Hrem Hfl He Hpy HG Hm Hb. split; [exact HR|]. left. split.
  - apply (com_eq s); auto. apply buf_body; auto. apply HC.
  - exists rem, rest, sF. cbn [s_buf d_buf d_pd d_need]. auto 10.
Qed.

(** A marker's first two octets. *)
Lemma two s y d R' rem rest sF ev : com s -> d_need s = 2 -> 255 :: y :: d ++ R' = rem ++ flat rest ++ tailb -> byte y -> bytes d -> bytes R' -> bytes rem -> bytes (flat rest) ->
  ends c o yd (d_pd s) rem sF -> (rest <> [] -> py sF < yd) -> good c o yd (after false sF) rest ev -> mode v (d_pd s) rem ->
  exists t, marker (s_buf s [255; y] 2) d = Ok t /\ fits R' ev t.
Proof.
  intros HC Hn E By Bd HR Hrem Hfl He Hpy HG Hm. pose proof Yh as HY. pose proof (m_body _ HC) as HBo.
  assert (HS : sane c o (d_pd s)) by (pose proof HC as [C1 C2 _ _ _ _]; rewrite <- C1, <- C2; apply HBo).
  destruct (rem_cases _ _ _ _ _ (ends_rem c o yd PC _ _ _ HS Hrem He) eq_refl E) as [(-> & -> & E1)|(-> & rem' & -> & E1)].
  - destruct (opts_v o) as [V|V].
    + rewrite marker_norm2 by (rewrite (m_opt _ HC); exact V). eexists. split; [reflexivity|]. cbn [fits].
      apply (going_A s [255; 2] 3 (d ++ R') [255; 2] rest sF ev); auto; try (cbn; lia); [apply bytes_app; auto|]. right. auto.
    + rewrite marker_norm by (rewrite (m_opt _ HC); exact V). pose proof (Yv V) as EY.
      assert (nl = false) as Enl by (destruct nl; [destruct NL; congruence|reflexivity]).
      destruct rest as [|r0 rest].
      * destruct (good_nil _ _ HG) as [G1 G2]. rewrite after_py in G1. pose proof He as (E0 & _). destruct HC as [C1 C2 C3 C4 C5 C6].
        unfold stripe_end. rewrite (finish_ok _ sF [255; 2]); [|cbn [s_buf d_par d_options d_yd d_pd]; rewrite C1, C2, C3, EY; exact E0].
        cbn [rbind]. cbn [s_pd s_buf d_yd d_pd]. rewrite after_py, C3, EY. replace (yd <=? py sF) with true by lia.
        eexists. split; [reflexivity|]. unfold fits. split; [reflexivity|]. unfold tailb in E1. rewrite Enl in E1. cbn in E1. apply app_eq_nil in E1 as [_ ->]. split; [reflexivity|].
        unfold finished. cbn [s_pd s_buf d_yd d_pd]. rewrite after_py, C3. split; [lia|]. exact G2.
      * destruct (stripe_over s (d ++ R') (r0 :: rest) sF ev (fun s1 => Loop s1 d) [] 2 HC ltac:(discriminate) He Hpy HG ltac:(cbn; lia) ltac:(constructor) ltac:(lia)) as (s1 & X1 & X2 & _ & X3).
        rewrite X1. eexists. split; [reflexivity|]. cbn [fits]. specialize (X3 [] ltac:(cbn; lia) ltac:(constructor) (or_introl eq_refl) E1 (bytes_app _ _ Bd HR)). subst s1. exact X3.
  - rewrite marker_stuff. assert (Bm : bytes [255; 0]) by (repeat constructor; lia).
    destruct (D_safe c o PC ydh (d_pd s) [255; 0] HS Bm) as (p & i & ED & Sp & Bi & (u & Eu & _)). destruct HC as [C1 C2 C3 C4 C5 C6].
    rewrite C1, C2, C3, ED. cbn [rbind]. eexists. split; [reflexivity|]. cbn [fits].
    assert (HZ : bytes (flat rest ++ tailb)) by (apply bytes_app; [exact Hfl|apply bytes_tail]).
    destruct (call c o yd PC v ydh (d_pd s) [255; 0] (d ++ R') (255 :: 0 :: rem') (flat rest ++ tailb) sF p i HS Bm (bytes_app _ _ Bd HR) Hrem HZ HY Yv Hm ltac:(discriminate) He E ED)
      as (rem2 & K1 & K2 & K3 & K4 & K5 & K6).
    assert (i = []) as ->.
    { destruct K6 as [-> | [-> | (t' & ->)]]; [reflexivity| |]; exfalso.
      - apply (f_equal (fun l => last l 1)) in Eu. rewrite last_last in Eu. cbn in Eu. lia.
      - destruct u as [|u0 u]; [discriminate|]. apply (f_equal (@length Z)) in Eu. cbn [app length] in Eu. rewrite app_length in Eu. cbn [length] in Eu. lia. }
    cbn [app] in K1. apply (going_A (s_pd s p) [] 2 (d ++ R') rem2 rest sF ev); auto; try (cbn; lia); try constructor; cbn [s_pd d_par d_options d_yd d_comment_len d_eod d_pd]; auto.
    { apply pd_body; [exact C6|]. rewrite C1, C2. exact Sp. }
    { apply bytes_app; assumption. }
Qed.

Lemma turn_A s data R' ev : data <> [] -> bytes data -> bytes R' -> caseA s (data ++ R') ev -> exists t, bid_turn s data = Ok t /\ fits R' ev t.
Proof.
  intros Hne Bd HR (HC & rem & rest & sF & E & Hrem & Hfl & He & Hpy & HG & Hm & Hb). pose proof Yh as HY. pose proof (m_body _ HC) as HBo.
  pose proof (m_com _ HC) as C4. pose proof (m_eod _ HC) as C5.
  assert (HS : sane c o (d_pd s)) by (pose proof HC as [C1 C2 _ _ _ _]; rewrite <- C1, <- C2; apply HBo).
  destruct data as [|x data]; [contradiction|]. assert (Bx : byte x /\ bytes data) by (inversion Bd; auto). destruct Bx as [Bx Bd'].
  assert (HZ : bytes (flat rest ++ tailb)) by (apply bytes_app; [exact Hfl|apply bytes_tail]).
  destruct Hb as [(Hn & [Eb|[Eb|(V & y & Eb)]])|(V & -> & Hb)].
  - rewrite Eb in E. rewrite turn_nobuf by auto. destruct (Z.eqb_spec x 255) as [->|Hx].
    + eexists. split; [reflexivity|]. cbn [fits]. rewrite Hn. apply (going_A s [255] 2 (data ++ R') rem rest sF ev); auto; try (cbn; lia); [repeat constructor; lia|apply bytes_app; auto|left; auto].
    + change (x =? T82_ESC) with (x =? 255). replace (x =? 255) with false by lia.
      destruct (D_safe c o PC ydh (d_pd s) (x :: data) HS Bd) as (p & i & ED & Sp & Bi & _). destruct HC as [C1 C2 C3 _ _ C6]. rewrite C1, C2, C3, ED. cbn [rbind].
      destruct (call c o yd PC v ydh (d_pd s) (x :: data) R' rem (flat rest ++ tailb) sF p i HS Bd HR Hrem HZ HY Yv Hm) as (rem2 & K1 & K2 & K3 & K4 & K5 & K6); auto.
      { intros ->. cbn [app] in E. injection E as -> _. contradiction. }
      exists (Loop (s_pd s p) i). split.
      { destruct K6 as [-> | [-> | (t' & ->)]]; reflexivity. }
      cbn [fits]. split; [apply bytes_app; auto|]. left. split.
      { constructor; cbn [s_pd d_par d_options d_yd d_comment_len d_eod d_pd]; auto. apply pd_body; [exact C6|]. rewrite C1, C2. exact Sp. }
      exists rem2, rest, sF. cbn [s_pd d_buf d_pd d_need]. rewrite Eb. repeat (split; [assumption|]). left. auto.
  - rewrite Eb in E. rewrite (turn_buf s (x :: data) [255] 2) by (auto; cbn; lia). cbn -[marker s_buf]. change (Pos.to_nat 1) with 1%nat. cbn -[marker s_buf].
    apply (two s x data R' rem rest sF ev); auto.
  - rewrite Eb in E. rewrite (turn_buf s (x :: data) [255; y] 2) by (auto; cbn; lia). cbn -[marker s_buf]. change (Pos.to_nat 1) with 1%nat. cbn -[marker s_buf].
    assert (By : bytes (d_buf s)) by (apply HBo). rewrite Eb in By. inversion By as [|? ? _ By']; subst. inversion By'; subst.
    apply (two s y (x :: data) R' rem rest sF ev); auto.
  - assert (VO : opt (d_options s) T85_VLENGTH = true) by (rewrite (m_opt _ HC); exact V).
    destruct Hb as [(Eb & Hn)|[(Eb & Hn)|(Hn & t & Eb & Lt)]].
    + rewrite Eb in E. cbn [app] in E. injection E as E. rewrite (turn_buf s (x :: data) [255; 2] 3) by (auto; cbn; lia). cbn -[marker s_buf]. change (Pos.to_nat 1) with 1%nat. cbn -[marker s_buf].
      rewrite marker_norm3 by exact VO. destruct (Z.eqb_spec x 255) as [->|Hx]; cbn [negb].
      * eexists. split; [reflexivity|]. cbn [fits]. apply (going_A s [255; 2; 255] 4 (data ++ R') [255; 2] rest sF ev); auto; try (cbn; lia).
        { cbn [app]. congruence. }
        { repeat constructor; lia. }
        { apply bytes_app; auto. }
        { right. auto 12. }
      * assert (Hr : rest <> []). { intros ->. cbn in E. symmetry in E. destruct (tail_ne _ _ E) as (_ & X & _). contradiction. }
        destruct (stripe_over s (x :: data ++ R') rest sF ev (fun s1 => Loop s1 (x :: data)) [] 2 HC Hr He Hpy HG ltac:(cbn; lia) ltac:(constructor) ltac:(lia)) as (s1 & X1 & X2 & _ & X3).
        rewrite X1. eexists. split; [reflexivity|]. cbn [fits]. specialize (X3 [] ltac:(cbn; lia) ltac:(constructor) (or_introl eq_refl) E (bytes_app (x :: data) _ Bd HR)). subst s1. exact X3.
    + rewrite Eb in E. cbn [app] in E. injection E as E. rewrite (turn_buf s (x :: data) [255; 2; 255] 4) by (auto; cbn; lia). cbn -[marker s_buf]. change (Pos.to_nat 1) with 1%nat. cbn -[marker s_buf].
      rewrite marker_norm4 by exact VO. destruct (Z.eqb_spec x 5) as [->|Hx]; cbn [negb].
      * eexists. split; [reflexivity|]. cbn [fits]. apply (going_A s [255; 2; 255; 5] 8 (data ++ R') [255; 2] rest sF ev); auto; try (cbn; lia).
        { cbn [app]. congruence. }
        { repeat constructor; lia. }
        { apply bytes_app; auto. }
        { right. split; [auto|]. split; [auto|]. right. right. split; [auto|]. exists []. cbn. split; [auto|lia]. }
      * assert (Hr : rest <> []). { intros ->. cbn in E. symmetry in E. destruct (tail_ne _ _ E) as (_ & _ & X). injection X as X _. contradiction. }
        destruct (stripe_over s (data ++ R') rest sF ev (fun s1 => Loop (s_buf s1 [255; x] 2) data) [255; 2; 255; x] 2 HC Hr He Hpy HG ltac:(cbn; lia)) as (s1 & X1 & X2 & _ & X3).
        { repeat (constructor; [first [exact Bx|red; lia]|]). constructor. }
        { lia. }
        rewrite X1. eexists. split; [reflexivity|]. cbn [fits]. apply X3; auto.
        { repeat (constructor; [first [exact Bx|red; lia]|]). constructor. }
        { right. split; [exact V|]. exists x. reflexivity. }
        { apply bytes_app; auto. }
    + rewrite Eb in E. assert (Hr : rest = []).
      { destruct rest as [|r0 rest]; [reflexivity|exfalso]. cbn [app] in E. injection E as E. symmetry in E. apply (esc_flat (r0 :: rest) 5 _ ltac:(discriminate) (ex_intro _ _ (ex_intro _ _ HG)) E). reflexivity. }
      subst rest. destruct (good_nil _ _ HG) as [G1 G2]. rewrite after_py in G1. cbn [app flat map concat] in E. injection E as E. symmetry in E. pose proof E as E'. destruct (tail_ne _ _ E) as (Enl & _ & X). injection X as X.
      rewrite (turn_buf s (x :: data) _ 8) by (try eassumption; cbn [length] in *; lia). cbn zeta. set (want := Z.to_nat _). assert (Ew : want = (4 - length t)%nat) by (unfold want; cbn [length]; lia). clearbody want.
      pose proof (firstn_skipn want (x :: data)) as FS. set (d1 := firstn want (x :: data)) in *. set (d2 := skipn want (x :: data)) in *.
      assert (L1 : length d1 = Nat.min want (length (x :: data))) by (apply firstn_length).
      assert (Bd1 : bytes d1) by (apply bytes_firstn; exact Bd). assert (Bd2 : bytes d2) by (apply bytes_skipn; exact Bd).
      change (x :: data ++ R') with ((x :: data) ++ R') in X. rewrite <- FS in X. clear FS. clearbody d1 d2. rewrite <- app_assoc, app_assoc in X.
      assert (Bb : bytes (d_buf s)) by apply HBo. rewrite Eb in Bb. assert (Bt : bytes t) by (do 4 (apply Forall_inv_tail in Bb); exact Bb).
      match goal with |- context [if ?b then _ else _] => destruct b eqn:EL end.
      * eexists. split; [reflexivity|]. cbn [fits]. apply (going_A s _ 8 (d2 ++ R') [255; 2] [] sF ev); auto; try lia.
        { assert (ET : tailb = 255 :: 5 :: (t ++ d1) ++ d2 ++ R') by (unfold tailb; rewrite Enl, X; reflexivity). rewrite ET. reflexivity. }
        { apply bytes_app; assumption. }
        { apply bytes_app; assumption. }
        { right. split; [auto|]. split; [auto|]. right. right. split; [reflexivity|]. exists (t ++ d1). split; [reflexivity|]. rewrite app_length in EL. cbn [length] in EL. rewrite app_length. lia. }
      * assert (L4 : length (t ++ d1) = 4%nat) by (rewrite app_length in EL; cbn [length] in EL; rewrite app_length; lia).
        assert (ES : t ++ d1 = net32 yd /\ d2 ++ R' = [255; 2]).
        { apply (f_equal (fun l => (firstn 4 l, skipn 4 l))) in X. rewrite firstn_app, skipn_app, L4, Nat.sub_diag, <- L4, firstn_all, skipn_all, app_nil_r in X.
          cbn [firstn skipn app] in X. rewrite L4 in X. unfold net32 in X. cbn [firstn skipn app] in X. injection X as X1 X2. split; [|exact X2]. unfold net32. exact X1. }
        destruct ES as [ES1 ES2]. cbn [app]. rewrite ES1. unfold net32 at 1. rewrite marker_norm8; [|exact VO|]; fold (net32 yd).
        2: { change (get32 (net32 yd) <= d_yd s). rewrite get32_net32, (m_yd _ HC) by exact Yd. exact HY. }
        change (get32 [u8 (Z.shiftr yd 24); u8 (Z.shiftr yd 16); u8 (Z.shiftr yd 8); u8 yd]) with (get32 (net32 yd)). rewrite get32_net32 by exact Yd.
        set (s0 := s_yd (clear_vlength (s_buf s [] 2)) yd). assert (B0 : body s0) by (apply yd_body, clear_body, buf_body; [exact HBo|cbn; lia|constructor|lia]).
        destruct HC as [C1 C2 C3 _ _ _]. pose proof He as (E0 & _).
        assert (EF : finish_sde s0 2 = Ok (s_pd s0 (after false sF))).
        { rewrite (finish_ok s0 sF [255; 2]).
          - cbn [s0 s_yd clear_vlength s_options s_buf d_options]. rewrite C2, opt_clearv. reflexivity.
          - cbn [s0 s_yd clear_vlength s_options s_buf d_options d_par d_yd d_pd]. rewrite C1, C2, D_clear. exact E0. }
        destruct (finish_sde_safe s0 2 B0 ltac:(red; lia)) as (s1 & E1 & B1 & _). rewrite EF in E1. injection E1 as <-. rewrite EF. cbn [rbind].
        eexists. split; [reflexivity|]. cbn [fits]. rewrite ES2. split; [apply bytes_mark|]. right. right.
        unfold caseC. split; [exact C1|]. split; [cbn [s_pd s0 s_yd clear_vlength s_options s_buf d_options]; rewrite C2; apply opt_clearv|].
        split; [reflexivity|]. split; [exact C4|]. split; [exact C5|]. split; [exact B1|]. cbn [s_pd d_pd d_buf d_need s0 s_yd clear_vlength s_options s_buf]. rewrite after_py.
        split; [exact G1|]. split; [exact G2|]. auto.
Qed.

Lemma turn_C s data R' ev : data <> [] -> bytes data -> bytes R' -> caseC s (data ++ R') ev -> exists t, bid_turn s data = Ok t /\ fits R' ev t.
Proof.
  intros Hne Bd HR (C1 & C2 & C3 & C4 & C5 & HBo & Hy & Hev & E & Hn & Hb). destruct data as [|x data]; [contradiction|]. destruct Hb as [Eb|Eb]; rewrite Eb in E; cbn [app] in E.
  - injection E as -> E. rewrite turn_nobuf by auto. eexists. split; [reflexivity|]. cbn [fits]. rewrite E. split; [repeat constructor; lia|]. right. right.
    unfold caseC. cbn [s_buf d_par d_options d_yd d_comment_len d_eod d_pd d_buf d_need]. rewrite Hn.
    assert (body (s_buf s [255] 2)) by (apply buf_body; [exact HBo|cbn; lia|repeat constructor; lia|lia]). auto 20.
  - injection E as -> E. apply app_eq_nil in E as [-> ->]. rewrite (turn_buf s [2] [255] 2) by (auto; cbn; lia). cbn -[marker s_buf]. change (Pos.to_nat 1) with 1%nat. cbn -[marker s_buf]. rewrite marker_norm by exact C2.
    assert (SN : sane (d_par s) (d_options s) (N (d_pd s))) by (apply sane_N; apply HBo).
    unfold stripe_end. rewrite (finish_ok _ (N (d_pd s)) [255; 2]).
    + cbn [rbind]. cbn [s_pd s_buf d_yd d_pd]. rewrite after_py, C3. change (py (N (d_pd s))) with (py (d_pd s)). replace (yd <=? py (d_pd s)) with true by lia.
      eexists. split; [reflexivity|]. cbn [fits]. split; [reflexivity|]. split; [reflexivity|]. split; cbn [s_pd s_buf d_yd d_pd]; [rewrite after_py, C3; exact Hy|exact Hev].
    + cbn [s_buf d_par d_options d_yd d_pd]. apply D_complete; [apply HBo|exact SN|apply bytes_mark|]. unfold complete. rewrite C3. change (py (N (d_pd s))) with (py (d_pd s)). lia.
Qed.

Lemma turn_B s data R' ev : data <> [] -> bytes data -> bytes R' -> caseB s (data ++ R') ev -> exists t, bid_turn s data = Ok t /\ fits R' ev t.
Proof.
  intros Hne Bd HR (HC & tx & p & rest & E & Bfl & HG & Hpat & Hnp & Hct & Hb). pose proof (m_body _ HC) as HBo.
  pose proof (m_com _ HC) as C4. pose proof (m_eod _ HC) as C5.
  destruct data as [|x data]; [contradiction|]. assert (Bx : byte x /\ bytes data) by (inversion Bd; auto). destruct Bx as [Bx Bd'].
  assert (next : forall b n d, b ++ d ++ R' = flat ((Some tx, p) :: rest) ++ tailb -> bytes d -> bytes b -> (length b <= 8)%nat -> 2 <= n <= 8 ->
     ((n = 2 /\ (b = [] \/ b = [255] \/ (v = true /\ exists x, b = [255; x]))) \/ (n = 8 /\ exists t, b = 255 :: 6 :: t /\ (length t < 6)%nat)) -> going (s_buf s b n) (d ++ R') ev).
  { intros b n d Eb B1 B2 L Hn Hbn. split; [apply bytes_app; auto|]. right. left. split.
    - apply (com_eq s); auto. apply buf_body; auto.
    - exists tx, p, rest. cbn [s_buf d_buf d_pd d_need]. auto 10. }
  destruct Hb as [(Hn & [Eb|[Eb|(V & y & Eb)]])|(Hn & t & Eb & Lt)]; rewrite Eb in E; pose proof E as E'; unfold flat in E; cbn [app map concat fst snd atb] in E.
  - injection E as -> E. rewrite turn_nobuf by auto. eexists. split; [reflexivity|]. cbn [fits]. rewrite Hn. apply next; auto; try (cbn; lia). repeat constructor; lia.
  - injection E as -> E. rewrite (turn_buf s (6 :: data) [255] 2) by (auto; cbn; lia). cbn -[marker s_buf]. change (Pos.to_nat 1) with 1%nat. cbn -[marker s_buf]. rewrite marker_at2.
    eexists. split; [reflexivity|]. cbn [fits]. apply next; auto; try (cbn; lia); [repeat constructor; lia|]. right. split; [auto|]. exists []. cbn. split; [auto|lia].
  - injection E as -> E. rewrite (turn_buf s (x :: data) [255; 6] 2) by (auto; cbn; lia). cbn -[marker s_buf]. change (Pos.to_nat 1) with 1%nat. cbn -[marker s_buf]. rewrite marker_at2.
    eexists. split; [reflexivity|]. cbn [fits]. apply (next [255; 6] 8 (x :: data)); auto; try (cbn; lia); [repeat constructor; lia|]. right. split; [auto|]. exists []. cbn. split; [auto|lia].
  - injection E as E. rewrite (turn_buf s (x :: data) _ 8) by (try eassumption; cbn [length] in *; lia). cbn zeta. set (want := Z.to_nat _). assert (Ew : want = (6 - length t)%nat) by (unfold want; cbn [length]; lia). clearbody want.
    pose proof (firstn_skipn want (x :: data)) as FS. set (d1 := firstn want (x :: data)) in *. set (d2 := skipn want (x :: data)) in *.
    assert (L1 : length d1 = Nat.min want (length (x :: data))) by (apply firstn_length).
    assert (Bd1 : bytes d1) by (apply bytes_firstn; exact Bd). assert (Bd2 : bytes d2) by (apply bytes_skipn; exact Bd).
    change (x :: data ++ R') with ((x :: data) ++ R') in E, E'. rewrite <- FS in E, E'. clear FS. clearbody d1 d2. rewrite <- app_assoc, app_assoc in E.
    assert (Bb : bytes (d_buf s)) by apply HBo. rewrite Eb in Bb.
    match goal with |- context [if ?b then _ else _] => destruct b eqn:EL end.
    + eexists. split; [reflexivity|]. cbn [fits]. apply next; auto; try lia.
      * rewrite <- app_assoc, (app_assoc d1). exact E'.
      * apply bytes_app; assumption.
      * right. split; [reflexivity|]. exists (t ++ d1). split; [reflexivity|]. rewrite app_length in EL. cbn [length] in EL. rewrite app_length. lia.
    + assert (L6 : length (t ++ d1) = 6%nat) by (rewrite app_length in EL; cbn [length] in EL; rewrite app_length; lia).
      assert (ES : t ++ d1 = [0; 0; 0; 0; tx; 0] /\ d2 ++ R' = (p ++ [255; 2]) ++ flat rest ++ tailb).
      { apply (f_equal (fun l => (firstn 6 l, skipn 6 l))) in E. rewrite firstn_app, skipn_app, L6, Nat.sub_diag, <- L6, firstn_all, skipn_all, app_nil_r in E.
        rewrite L6 in E. cbn [firstn skipn app] in E. injection E as E1 E2. split; [exact E1|]. rewrite E2. unfold flat. rewrite <- !app_assoc. reflexivity. }
      destruct ES as [ES1 ES2]. cbn [app]. rewrite ES1. inversion HG as [|s' a' p' rest' ev' sF A1 A2 A2' A3 A4 A5 A6]; subst. cbn [ats at_ok] in *. destruct A1 as (A11 & A12 & A13).
      destruct HC as [C1 C2 C3 _ _ _]. rewrite marker_at8; [|exact Hpat|].
      2: { rewrite C1, C2. unfold tx_ok in A13. pose proof A11 as A11'. red in A11'. destruct (Z.ltb_spec (mx c) tx); [lia|]. cbn [orb]. destruct (Z.ltb_spec 0 tx), (Z.ltb_spec tx (first_t o)); cbn; try reflexivity. lia. }
      eexists. split; [reflexivity|]. cbn [fits].
      apply (going_A (s_pd (s_buf s [] 2) (p_at (d_pd s) [(0, tx)])) [] 2 (d2 ++ R') (p ++ [255; 2]) rest sF ev); auto; try (cbn; lia); try match goal with |- com _ => constructor; auto | |- bytes [] => constructor | |- bufA _ _ _ => left; auto end.
      * apply pd_body; [apply buf_body; [exact HBo|cbn; lia|constructor|lia]|]. cbn [s_buf d_par d_options]. rewrite C1, C2. exact A3.
      * apply bytes_app; auto.
      * apply bytes_app; [exact A2|apply bytes_mark].
      * apply (good_bytes _ _ _ A6).
      * unfold mode. cbn [s_pd s_buf d_pd p_at par_s]. destruct (opts_v o) as [V|V]; [right; left|left]; rewrite V in *; auto.
Qed.

Theorem turn_ok s data R' ev : data <> [] -> bytes data -> going s (data ++ R') ev -> exists t, bid_turn s data = Ok t /\ fits R' ev t.
Proof.
  intros Hne Bd (HB & H). assert (HR : bytes R') by (apply Forall_app in HB; apply HB). destruct H as [H|[H|H]].
  - apply turn_A; assumption.
  - apply turn_B; assumption.
  - apply turn_C; assumption.
Qed.
End TURN.
