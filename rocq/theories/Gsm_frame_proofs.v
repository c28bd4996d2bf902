(** GSM 06.10: whole frames; the decoder follows the encoder, and the short term filters undo each other. *)
From Verif Require Import Base Gsm_model Gsm_spec Gsm_arith_proofs Gsm_enc_proofs Gsm_rpe_proofs.
Local Open Scope Z_scope.

Lemma Ok_inj {A} (a b : A) : Ok a = Ok b -> a = b.
Proof. intros H. apply (f_equal (fun r => match r with Ok y => y | UB => a end)) in H. exact H. Qed.

Lemma skipn_skipn {A} n : forall m (l : list A), skipn n (skipn m l) = skipn (n + m) l.
Proof. intros m. induction m as [|m IH]; intros l; [rewrite Nat.add_0_r; reflexivity|]. rewrite Nat.add_succ_r. destruct l; [rewrite !skipn_nil; reflexivity | apply IH]. Qed.

(** ---- four subframes ---- *)
Fixpoint subs (P : list Z -> Prop) (n : nat) (ps : list Z) : Prop := match n with O => ps = [] | S n => P (firstn 17 ps) /\ subs P n (skipn 17 ps) end.
Lemma subs_impl (P Q : list Z -> Prop) n : (forall p, P p -> Q p) -> forall ps, subs P n ps -> subs Q n ps.
Proof. intros H. induction n as [|n IH]; intros ps; cbn [subs]; [auto|]. intros [A B]. split; auto. Qed.
Definition sub_lag (p : list Z) : Prop := sub_ok p /\ 40 <= nth 0 p 0 <= 120.
Lemma sub_ok_length p : sub_ok p -> length p = 17%nat.
Proof. intros (Nc & bc & Mc & xmaxc & xMc & -> & _ & _ & _ & _ & L). cbn [app length]. lia. Qed.
Lemma decode_subs_ok n : forall nrp h ps, 40 <= nrp <= 120 -> length h = 120%nat -> Forall i16 h -> subs sub_ok n ps ->
  exists nr wt h', decode_subs n nrp h ps = Ok (nr, wt, h') /\ 40 <= nr <= 120 /\ length wt = (40 * n)%nat /\ Forall i16 wt /\ length h' = 120%nat /\ Forall i16 h'.
Proof.
  induction n as [|n IH]; intros nrp h ps Hn Lh Fh S; [exists nrp, [], h; split; [reflexivity|]; repeat split; try assumption; try lia; constructor|].
  destruct S as [S1 S2]. cbn [decode_subs]. destruct (decode_sub_ok nrp h _ Hn ltac:(lia) Fh S1) as (nr & wt & -> & Hr & Lw & Fw). cbn [rbind].
  destruct (IH nr (skipn 40 (h ++ wt)) (skipn 17 ps) Hr) as (nr' & wts & h' & -> & Hr' & Lw' & Fw' & Lh' & Fh'); [rewrite skipn_length, app_length; lia | apply Forall_skipn', Forall_app; split; assumption | exact S2|]. cbn [rbind].
  exists nr', (wt ++ wts), h'. split; [reflexivity|]. split; [exact Hr'|]. split; [rewrite app_length; lia|]. split; [apply Forall_app; split; assumption|]. split; assumption.
Qed.
Lemma encode_subs_ok n : forall d g h, Forall i16 d -> length d = (40 * n)%nat -> length h = 120%nat -> Forall i16 h ->
  exists ps wt, encode_subs n d (g ++ h) = Ok (ps, g ++ h ++ wt) /\ length ps = (17 * n)%nat /\ subs sub_lag n ps /\ length wt = (40 * n)%nat /\ Forall i16 wt /\ forall nrp, exists nr, decode_subs n nrp h ps = Ok (nr, wt, skipn (40 * n) (h ++ wt)).
Proof.
  induction n as [|n IH]; intros d g h Fd Ld Lh Fh.
  { exists [], []. cbn [encode_subs decode_subs subs length]. rewrite app_nil_r. split; [reflexivity|]. split; [lia|]. split; [reflexivity|]. split; [lia|]. split; [constructor|]. intros nrp. exists nrp. reflexivity. }
  cbn [encode_subs]. destruct (encode_sub_ok (firstn 40 d) g h) as (p & w & -> & Sp & Hl & Lw & Fw & D); [apply Forall_firstn'; exact Fd | rewrite firstn_length; lia | exact Lh | exact Fh|]. cbn [rbind].
  set (h1 := skipn 40 (h ++ w)). assert (Lh1 : length h1 = 120%nat) by (unfold h1; rewrite skipn_length, app_length; lia). assert (Fh1 : Forall i16 h1) by (apply Forall_skipn', Forall_app; split; assumption).
  assert (Eh : g ++ h ++ w = (g ++ firstn 40 (h ++ w)) ++ h1) by (unfold h1; rewrite <- app_assoc, firstn_skipn; reflexivity). rewrite Eh.
  destruct (IH (skipn 40 d) (g ++ firstn 40 (h ++ w)) h1) as (ps & wt & -> & Lp & Sps & Lwt & Fwt & D'); [apply Forall_skipn'; exact Fd | rewrite skipn_length; lia | exact Lh1 | exact Fh1|]. cbn [rbind].
  pose proof (sub_ok_length p Sp) as L17. exists (p ++ ps), (w ++ wt).
  assert (F17 : firstn 17 (p ++ ps) = p) by (rewrite firstn_app, firstn_all2 by lia; rewrite L17; cbn [Nat.sub]; rewrite firstn_O, app_nil_r; reflexivity).
  assert (S17 : skipn 17 (p ++ ps) = ps) by (rewrite skipn_app, skipn_all2 by lia; rewrite L17; reflexivity).
  split; [f_equal; f_equal; rewrite (app_assoc (g ++ firstn 40 (h ++ w))), <- Eh, <- !app_assoc; reflexivity|]. split; [rewrite app_length; lia|]. split; [cbn [subs]; rewrite F17, S17; split; [split; assumption | exact Sps]|].
  split; [rewrite app_length; lia|]. split; [apply Forall_app; split; assumption|]. intros nrp. cbn [decode_subs]. rewrite F17, S17, D. cbn [rbind]. fold h1. destruct (D' (nth 0 p 0)) as (nr & ->). cbn [rbind]. exists nr. f_equal. f_equal.
  unfold h1. replace (skipn 40 (h ++ w) ++ wt) with (skipn 40 ((h ++ w) ++ wt)) by (rewrite (skipn_app 40 (h ++ w)), app_length; replace (40 - (length h + length w))%nat with 0%nat by lia; reflexivity).
  rewrite skipn_skipn, <- app_assoc. f_equal. lia.
Qed.

(** ---- fields and subframes ---- *)
Lemma fits_sub p : fits sub_sizes p -> sub_ok p.
Proof.
  unfold fits, sub_sizes. intros H. repeat match goal with H : Forall2 _ (_ :: _) ?l |- _ => inversion H; clear H; subst end. match goal with H : Forall2 _ [] _ |- _ => inversion H; subst; clear H end.
  repeat match goal with H : 0 <= _ < 2 ^ Z.of_nat ?k |- _ => let v := eval vm_compute in (2 ^ Z.of_nat k) in change (2 ^ Z.of_nat k) with v in H end.
  eexists _, _, _, _, _. split; [cbn [app]; reflexivity|]. split; [lia|]. unfold pulses_ok. split; [lia|]. split; [lia|]. split; [repeat constructor; lia | reflexivity].
Qed.
Lemma sub_fits p : sub_lag p -> fits sub_sizes p.
Proof.
  intros [(Nc & bc & Mc & xmaxc & xMc & -> & Hb & Hc & HM & F & L) HN]. cbn [nth app] in HN. do 13 (destruct xMc as [|? xMc]; [discriminate|]). destruct xMc; [|discriminate].
  repeat match goal with H : Forall _ (_ :: _) |- _ => apply Forall_cons_iff in H as [? H] end. unfold fits, sub_sizes. cbn [app].
  repeat (constructor; [match goal with |- context [2 ^ Z.of_nat ?k] => let v := eval vm_compute in (2 ^ Z.of_nat k) in change (2 ^ Z.of_nat k) with v end; lia|]). constructor.
Qed.
Lemma firstn_len {A} (a b : list A) : firstn (length a) (a ++ b) = a.
Proof. rewrite firstn_app, Nat.sub_diag, firstn_all, firstn_O, app_nil_r. reflexivity. Qed.
Lemma skipn_len {A} (a b : list A) : skipn (length a) (a ++ b) = b.
Proof. rewrite skipn_app, Nat.sub_diag, skipn_all. reflexivity. Qed.
Lemma firstn_n {A} n (a b : list A) : length a = n -> firstn n (a ++ b) = a.
Proof. intros <-. apply firstn_len. Qed.
Lemma skipn_n {A} n (a b : list A) : length a = n -> skipn n (a ++ b) = b.
Proof. intros <-. apply skipn_len. Qed.
Lemma fits_frame f : fits sizes f -> length f = 76%nat /\ fits (firstn 8 sizes) (firstn 8 f) /\ subs sub_ok 4 (skipn 8 f).
Proof.
  intros H. split; [apply F2_length in H; rewrite <- H; reflexivity|]. unfold fits, sizes in H. apply Forall2_app_inv_l in H as (l & r & Hl & H & ->). assert (L8 : length l = 8%nat) by (apply F2_length in Hl; rewrite <- Hl; reflexivity).
  rewrite (firstn_n 8 l r L8), (skipn_n 8 l r L8). split; [exact Hl|].
  apply Forall2_app_inv_l in H as (a & r1 & Ha & H & ->). apply Forall2_app_inv_l in H as (b & r2 & Hb & H & ->). apply Forall2_app_inv_l in H as (c & d & Hc & Hd & ->).
  pose proof (fits_sub a Ha) as Sa. pose proof (fits_sub b Hb) as Sb. pose proof (fits_sub c Hc) as Sc. pose proof (fits_sub d Hd) as Sd.
  cbn [subs]. rewrite !(firstn_n 17 a _ (sub_ok_length a Sa)), !(skipn_n 17 a _ (sub_ok_length a Sa)). split; [exact Sa|].
  rewrite !(firstn_n 17 b _ (sub_ok_length b Sb)), !(skipn_n 17 b _ (sub_ok_length b Sb)). split; [exact Sb|]. rewrite !(firstn_n 17 c _ (sub_ok_length c Sc)), !(skipn_n 17 c _ (sub_ok_length c Sc)). split; [exact Sc|].
  rewrite <- (app_nil_r d), (firstn_n 17 d _ (sub_ok_length d Sd)), (skipn_n 17 d _ (sub_ok_length d Sd)). split; [exact Sd | reflexivity].
Qed.
Lemma subs_fit ps : subs sub_lag 4 ps -> fits (sub_sizes ++ sub_sizes ++ sub_sizes ++ sub_sizes) ps /\ Forall (fun k => 40 <= nth k ps 0 <= 120) [0; 17; 34; 51]%nat.
Proof.
  intros H. cbn [subs] in H. destruct H as (S1 & S2 & S3 & S4 & E).
  assert (N : forall k l, nth 0 (firstn 17 (skipn k l)) 0 = nth k l 0).
  { intros k l. revert l. induction k as [|k IH]; intros [|x l]; cbn; auto. apply (IH l). }
  rewrite <- (firstn_skipn 17 ps). split.
  - apply Forall2_app; [apply sub_fits; exact S1|]. rewrite <- (firstn_skipn 17 (skipn 17 ps)). apply Forall2_app; [apply sub_fits; exact S2|].
    rewrite <- (firstn_skipn 17 (skipn 17 (skipn 17 ps))). apply Forall2_app; [apply sub_fits; exact S3|]. rewrite <- (firstn_skipn 17 (skipn 17 (skipn 17 (skipn 17 ps)))), E, app_nil_r. apply sub_fits; exact S4.
  - rewrite firstn_skipn. destruct S1 as [_ N1], S2 as [_ N2], S3 as [_ N3], S4 as [_ N4]. rewrite !skipn_skipn in *. change (firstn 17 ps) with (firstn 17 (skipn 0 ps)) in N1. rewrite N in N1, N2, N3, N4. constructor; [exact N1|]. constructor; [exact N2|]. constructor; [exact N3|]. constructor; [exact N4 | constructor].
Qed.

(** ---- frames ---- *)
Lemma init_enc_ok : enc_ok gsm_init.
Proof. unfold enc_ok, pre_ok, gsm_init, i16. cbn [dp0 z1 L_z2 mp us larpp]. repeat split; try lia. apply Forall_forall. intros x I. apply repeat_spec in I. lia. Qed.
Lemma init_dec_ok : dec_ok gsm_init.
Proof. unfold dec_ok, gsm_init. cbn [dp0 nrp larpp]. repeat split; try lia. apply Forall_forall. intros x I. apply repeat_spec in I. unfold i16; lia. Qed.
Lemma synthesis_filter_length rp wt : forall v, length (snd (short_term_synthesis_filtering rp v wt)) = length wt.
Proof. induction wt as [|x t IH]; intros v; [reflexivity|]. cbn [short_term_synthesis_filtering]. destruct (synthesis rp v x) as [sri l]. specialize (IH (sri :: l)). destruct (short_term_synthesis_filtering rp (sri :: l) t). cbn [snd length] in *. lia. Qed.
Lemma by_parts_synthesis a b v wt : length wt = 160%nat -> length (snd (by_parts short_term_synthesis_filtering a b v wt)) = 160%nat.
Proof.
  intros L. unfold by_parts.
  repeat match goal with |- context [let '(x, y) := short_term_synthesis_filtering ?c ?w ?l in _] => pose proof (synthesis_filter_length c l w); destruct (short_term_synthesis_filtering c w l) as [? ?]; cbn [snd] in * end.
  cbn [snd]. rewrite !app_length. rewrite !firstn_length, !skipn_length in *. lia.
Qed.
Lemma cut8 x : i16 (s16 (Z.land x 0xFFF8)) /\ s16 (Z.land x 0xFFF8) mod 8 = 0.
Proof.
  split; [apply s16_i16|]. assert (E : Z.land x 0xFFF8 mod 8 = 0) by (change 8 with (2 ^ 3); rewrite <- Z.land_ones by lia; rewrite <- Z.land_assoc; change (Z.land 65528 (Z.ones 3)) with 0; apply Z.land_0_r).
  set (y := Z.land x 65528) in *. clearbody y. unfold s16. Z.div_mod_to_equations. lia.
Qed.
Lemma postprocessing_ok amp : forall m, length (snd (postprocessing m amp)) = length amp /\ Forall (fun x => i16 x /\ x mod 8 = 0) (snd (postprocessing m amp)).
Proof.
  induction amp as [|x t IH]; intros m; [split; [reflexivity | constructor]|]. cbn [postprocessing]. cbv zeta. destruct (IH (sat_add16 x (gsm_mult_r m 28180))) as [A B]. destruct (postprocessing _ t) as [m' l]. cbn [snd length] in *. split; [lia|]. constructor; [apply cut8 | exact B].
Qed.
Lemma lars_length l : fits (firstn 8 sizes) l -> length (decode_lars lar_decoding l) = 8%nat.
Proof. intros H. apply F2_length in H. rewrite decode_lars_length, <- H. reflexivity. Qed.
Lemma decode_frame_ok s f : dec_ok s -> fits sizes f -> exists s' amp, decode_a_frame s f = Ok (s', amp) /\ dec_ok s' /\ length amp = 160%nat /\ Forall (fun x => i16 x /\ x mod 8 = 0) amp.
Proof.
  intros (L & F & Hn & Ll) Hf. destruct (fits_frame f Hf) as (L76 & H8 & S). unfold decode_a_frame. destruct (decode_subs_ok 4 (nrp s) (dp0 s) _ Hn L F S) as (nr & wt & h' & -> & Hr & Lw & Fw & Lh & Fh). cbn [rbind].
  pose proof (by_parts_synthesis (larpp s) (decode_lars lar_decoding (firstn 8 f)) (vs s) wt Lw) as B. destruct (by_parts _ _ _ _ _) as [v sr]. cbn [snd] in B. pose proof (postprocessing_ok sr (msr s)) as [P1 P2]. destruct (postprocessing _ _) as [m amp]. cbn [snd] in *.
  eexists _, _. split; [reflexivity|]. split; [|split; [lia | exact P2]]. unfold dec_ok. cbn [dp0 nrp larpp]. split; [exact Lh|]. split; [exact Fh|]. split; [exact Hr | apply lars_length; exact H8].
Qed.
Lemma encode_frame_ok s amp : enc_ok s -> Forall i16 amp -> length amp = 160%nat ->
  exists s' f, encode_a_frame s amp = Ok (s', f) /\ enc_ok s' /\ fits sizes f /\ lags_ok f /\
    forall t, dp0 t = dp0 s -> larpp t = larpp s -> exists t' a, decode_a_frame t f = Ok (t', a) /\ dp0 t' = dp0 s' /\ larpp t' = larpp s'.
Proof.
  intros (Hp & L & F & Lu & Ll) Fa La. unfold encode_a_frame. destruct (preprocess_ok amp _ _ _ Hp Fa) as (a & b & c & so & -> & Hp' & Fs & Ls). cbn [rbind]. destruct (lpc_analysis_ok so Fs ltac:(lia)) as (lar & so' & -> & Hl & Fs' & Ls'). cbn [rbind].
  pose proof (lars_length lar Hl) as L8. destruct (by_parts_analysis (larpp s) (decode_lars lar_decoding lar) (us s) so' Ll L8 Lu Ls') as (B1 & B2 & B3). destruct (by_parts _ _ _ _ _) as [u d]. cbn [fst snd] in *.
  destruct (encode_subs_ok 4 d [] (dp0 s) B2 B3 L F) as (ps & wt & E & Lp & Sp & Lw & Fw & D). cbn [app] in E. rewrite E. cbn [rbind]. destruct (subs_fit ps Sp) as [Fp Np]. assert (Ll8 : length lar = 8%nat) by (apply F2_length in Hl; rewrite <- Hl; reflexivity).
  eexists _, _. split; [reflexivity|]. split.
  { unfold enc_ok. cbn [dp0 z1 L_z2 mp us larpp]. split; [exact Hp'|]. split; [rewrite skipn_length, app_length; lia|]. split; [apply Forall_skipn', Forall_app; split; assumption|]. split; assumption. }
  split; [exact (Forall2_app Hl Fp)|]. split.
  { unfold lags_ok. repeat match goal with H : Forall _ (_ :: _) |- _ => apply Forall_cons_iff in H as [? H] end. repeat constructor; rewrite app_nth2, Ll8 by lia; cbn [Nat.sub]; lia. }
  intros t Ed El. unfold decode_a_frame. rewrite (firstn_n 8 lar ps Ll8), (skipn_n 8 lar ps Ll8), Ed. destruct (D (nrp t)) as (nr & ->). cbn [rbind]. destruct (by_parts _ _ _ _ _) as [v sr]. destruct (postprocessing _ _) as [m amp']. eexists _, _. split; [reflexivity|]. cbn [dp0 larpp]. split; reflexivity.
Qed.

(** ---- the filters undo each other ---- *)
Lemma mult_plain r x : -32767 <= r <= 32767 -> i16 x -> gsm_mult_r r x = (r * x + 16384) / 32768.
Proof. intros Hr Hx. rewrite gsm_mult_r_eq by (unfold i16 in *; lia). apply Z.min_r. unfold i16 in Hx. assert (r * x <= 32767 * 32768) by nia. assert ((r * x + 16384) / 32768 < 32768) by (apply Z.div_lt_upper_bound; lia). lia. Qed.
Lemma lattice_undone rp : Forall (fun r => -32767 <= r <= 32767) rp -> forall u v d o, length u = length rp -> firstn (length rp) v = u -> Forall i16 u -> i16 d -> i16 o -> unclipped rp u d ->
  i16 (fst (lattice rp u d o)) /\ fst (synthesis rp v (fst (lattice rp u d o))) = d /\ firstn (length rp) (o :: snd (synthesis rp v (fst (lattice rp u d o)))) = snd (lattice rp u d o) /\ length (snd (synthesis rp v (fst (lattice rp u d o)))) = length rp.
Proof.
  induction 1 as [|r rp Hr Fr IH]; intros u v d o Lu Ev Fu Hd Ho Hc.
  { destruct u; [|discriminate]. cbn [lattice fst snd synthesis length firstn]. auto. }
  destruct u as [|x u]; [discriminate|]. destruct v as [|y v]; [discriminate|]. cbn [length firstn] in Ev. assert (y = x) by (apply (f_equal (hd 0)) in Ev; exact Ev). apply (f_equal (@tl Z)) in Ev. cbn [tl] in Ev. subst y.
  apply Forall_cons_iff in Fu as [Hx Fu]. cbn [unclipped] in Hc. destruct Hc as [Hi Hc]. cbn [length] in Lu. cbn [lattice]. cbv zeta. rewrite !Z.shiftr_div_pow2 by lia. change (2 ^ 15) with 32768. change 0x4000 with 16384. rewrite (saturate16_id _ Hi).
  set (o' := saturate16 (x + (r * d + 16384) / 32768)). destruct (IH u v (d + (r * x + 16384) / 32768) o' ltac:(lia) Ev Fu Hi (saturate16_i16 _) Hc) as (I1 & I2 & I3 & I4). destruct (lattice rp u _ o') as [e l] eqn:E. cbn [fst snd] in *.
  cbn [synthesis]. destruct (synthesis rp v e) as [sri m]. cbn [fst snd] in *. subst sri. rewrite (mult_plain r x Hr Hx). assert (Es : sat_sub16 (d + (r * x + 16384) / 32768) ((r * x + 16384) / 32768) = d).
  { unfold sat_sub16. replace (d + (r * x + 16384) / 32768 - (r * x + 16384) / 32768) with d by lia. apply saturate16_id. exact Hd. }
  rewrite Es. rewrite (mult_plain r d Hr Hd). split; [exact I1|]. split; [reflexivity|]. cbn [length firstn]. rewrite (s16_id o Ho). split; [|lia]. f_equal. change (sat_add16 x ((r * d + 16384) / 32768)) with o'. exact I3.
Qed.
Lemma filters_undone rp amp : Forall (fun r => -32767 <= r <= 32767) rp -> length rp = 8%nat -> forall u v, length u = 8%nat -> firstn 8 v = u -> Forall i16 u -> Forall i16 amp -> unclipped_all rp u amp ->
  let r := short_term_analysis_filtering rp u amp in let q := short_term_synthesis_filtering rp v (snd r) in
  snd q = amp /\ firstn 8 (fst q) = fst r /\ length (fst r) = 8%nat /\ Forall i16 (fst r).
Proof.
  intros Fr Lr. cbv zeta. induction amp as [|x t IH]; intros u v Lu Ev Fu Fa Hc; [cbn; auto|]. apply Forall_cons_iff in Fa as [Hx Fa]. destruct Hc as [Hc1 Hc2]. cbn [short_term_analysis_filtering].
  destruct (lattice_undone rp Fr u v x x) as (I1 & I2 & I3 & I4); try assumption; [lia | rewrite Lr; exact Ev|]. pose proof (lattice_length rp u x x) as Ll. pose proof (lattice_i16 rp u x x) as Fl. destruct (lattice rp u x x) as [d l]. cbn [fst snd] in *.
  destruct (synthesis rp v d) as [sri m] eqn:Es. cbn [fst snd] in *. subst sri. destruct (IH l (x :: m)) as (A & B & C & D); [lia | rewrite <- Lr; exact I3 | exact Fl | exact Fa | exact Hc2|].
  destruct (short_term_analysis_filtering rp l t) as [u' o]. cbn [fst snd short_term_synthesis_filtering] in *. rewrite (s16_id d I1), Es. destruct (short_term_synthesis_filtering rp (x :: m) o) as [v' o']. cbn [fst snd] in *. split; [f_equal; exact A|]. auto.
Qed.
Lemma rp_range x : i16 x -> -32767 <= larp_to_rp x <= 32767.
Proof.
  intros H. assert (T : forall y, 0 <= y <= 32767 -> 0 <= to_rp y <= 32767).
  { intros y Hy. unfold to_rp. destruct (Z.ltb_spec y 11059); [lia|]. destruct (Z.ltb_spec y 20070); [lia|]. pose proof (sat_add16_i16 (Z.shiftr y 2) 26112) as R. unfold i16 in R. unfold sat_add16 in *. rewrite saturate16_eq in *. assert (0 <= Z.shiftr y 2) by (apply Z.shiftr_nonneg; lia). lia. }
  unfold i16 in H. unfold larp_to_rp. destruct (Z.ltb_spec x 0); [|pose proof (T x); lia]. destruct (Z.eqb_spec x (-32768)); [pose proof (T 32767); lia | pose proof (T (- x)); lia].
Qed.
Lemma rps_range l : Forall i16 l -> Forall (fun r => -32767 <= r <= 32767) (map larp_to_rp l).
Proof. intros F. apply map_Forall. intros x I. apply rp_range. exact (Forall_In _ _ _ F I). Qed.
Lemma short_term_undone a b u v so : length a = 8%nat -> length b = 8%nat -> length u = 8%nat -> length so = 160%nat -> Forall i16 a -> Forall i16 b -> Forall i16 u -> Forall i16 so -> firstn 8 v = u -> unclipped_frame a b u so ->
  let r := by_parts short_term_analysis_filtering a b u so in let q := by_parts short_term_synthesis_filtering a b v (snd r) in snd q = so /\ firstn 8 (fst q) = fst r.
Proof.
  intros La Lb Lu Ls Fa Fb Fu Fs Ev Hc. cbv zeta. unfold unclipped_frame in Hc. cbv zeta in Hc. cbv beta iota in Hc. unfold by_parts.
  set (c0 := map larp_to_rp (coefficients_0_12 a b)) in *. set (c1 := map larp_to_rp (coefficients_13_26 a b)) in *. set (c2 := map larp_to_rp (coefficients_27_39 a b)) in *. set (c3 := map larp_to_rp b) in *.
  assert (K0 : length c0 = 8%nat /\ Forall (fun r => -32767 <= r <= 32767) c0) by (unfold c0, coefficients_0_12; split; [rewrite map_length, map2_length; lia | apply rps_range, map2_Forall; intros; apply sat_add16_i16]).
  assert (K1 : length c1 = 8%nat /\ Forall (fun r => -32767 <= r <= 32767) c1) by (unfold c1, coefficients_13_26; split; [rewrite map_length, map2_length; lia | apply rps_range, map2_Forall; intros; apply sat_add16_i16]).
  assert (K2 : length c2 = 8%nat /\ Forall (fun r => -32767 <= r <= 32767) c2) by (unfold c2, coefficients_27_39; split; [rewrite map_length, map2_length; lia | apply rps_range, map2_Forall; intros; apply sat_add16_i16]).
  assert (K3 : length c3 = 8%nat /\ Forall (fun r => -32767 <= r <= 32767) c3) by (unfold c3; split; [rewrite map_length; lia | apply rps_range; exact Fb]).
  clearbody c0 c1 c2 c3. destruct K0 as [L0 R0], K1 as [L1 R1], K2 as [L2 R2], K3 as [L3 R3]. destruct Hc as (H0 & H1 & H2 & H3).
  assert (S : so = firstn 13 so ++ firstn 14 (skipn 13 so) ++ firstn 13 (skipn 27 so) ++ firstn 120 (skipn 40 so)).
  { rewrite <- (firstn_skipn 13 so) at 1. f_equal. rewrite <- (firstn_skipn 14 (skipn 13 so)) at 1. f_equal. rewrite skipn_skipn. change (14 + 13)%nat with 27%nat. rewrite <- (firstn_skipn 13 (skipn 27 so)) at 1. f_equal. rewrite skipn_skipn. change (13 + 27)%nat with 40%nat. symmetry. apply firstn_all2. rewrite skipn_length. lia. }
  set (s0 := firstn 13 so) in *. set (s1 := firstn 14 (skipn 13 so)) in *. set (s2 := firstn 13 (skipn 27 so)) in *. set (s3 := firstn 120 (skipn 40 so)) in *.
  assert (F0 : Forall i16 s0) by (apply Forall_firstn'; exact Fs). assert (F1 : Forall i16 s1) by (apply Forall_firstn', Forall_skipn'; exact Fs). assert (F2 : Forall i16 s2) by (apply Forall_firstn', Forall_skipn'; exact Fs). assert (F3 : Forall i16 s3) by (apply Forall_firstn', Forall_skipn'; exact Fs).
  pose proof (analysis_ok c0 s0 u ltac:(lia)) as A0. pose proof (fun w E => filters_undone c0 s0 R0 L0 u w Lu E Fu F0 H0) as Q0. cbv zeta in *. destruct (short_term_analysis_filtering c0 u s0) as [u1 d1]. cbn [fst snd] in *. destruct (Q0 v Ev) as (_ & _ & Lu1 & Fu1).
  pose proof (analysis_ok c1 s1 u1 ltac:(lia)) as A1. pose proof (fun w E => filters_undone c1 s1 R1 L1 u1 w Lu1 E Fu1 F1 H1) as Q1. cbv zeta in *. destruct (short_term_analysis_filtering c1 u1 s1) as [u2 d2]. cbn [fst snd] in *.
  destruct (Q0 v Ev) as (E0 & W0 & _ & _). destruct (Q1 _ W0) as (_ & _ & Lu2 & Fu2).
  pose proof (analysis_ok c2 s2 u2 ltac:(lia)) as A2. pose proof (fun w E => filters_undone c2 s2 R2 L2 u2 w Lu2 E Fu2 F2 H2) as Q2. cbv zeta in *. destruct (short_term_analysis_filtering c2 u2 s2) as [u3 d3]. cbn [fst snd] in *.
  destruct (Q1 _ W0) as (E1 & W1 & _ & _). destruct (Q2 _ W1) as (_ & _ & Lu3 & Fu3).
  pose proof (analysis_ok c3 s3 u3 ltac:(lia)) as A3. pose proof (fun w E => filters_undone c3 s3 R3 L3 u3 w Lu3 E Fu3 F3 H3) as Q3. cbv zeta in *. destruct (short_term_analysis_filtering c3 u3 s3) as [u4 d4]. cbn [fst snd] in *.
  destruct (Q2 _ W1) as (E2 & W2 & _ & _). destruct (Q3 _ W2) as (E3 & W3 & _ & _).
  assert (D1 : length d1 = 13%nat) by (destruct A0 as (_ & _ & ->); unfold s0; rewrite firstn_length; lia). assert (D2 : length d2 = 14%nat) by (destruct A1 as (_ & _ & ->); unfold s1; rewrite firstn_length, skipn_length; lia).
  assert (D3 : length d3 = 13%nat) by (destruct A2 as (_ & _ & ->); unfold s2; rewrite firstn_length, skipn_length; lia). assert (D4 : length d4 = 120%nat) by (destruct A3 as (_ & _ & ->); unfold s3; rewrite firstn_length, skipn_length; lia).
  assert (P1 : firstn 13 (d1 ++ d2 ++ d3 ++ d4) = d1) by (apply firstn_n; exact D1).
  assert (P2 : firstn 14 (skipn 13 (d1 ++ d2 ++ d3 ++ d4)) = d2) by (rewrite (skipn_n 13 d1 _ D1); apply firstn_n; exact D2).
  assert (P3 : firstn 13 (skipn 27 (d1 ++ d2 ++ d3 ++ d4)) = d3) by (rewrite (app_assoc d1), (skipn_n 27 (d1 ++ d2)) by (rewrite app_length; lia); apply firstn_n; exact D3).
  assert (P4 : firstn 120 (skipn 40 (d1 ++ d2 ++ d3 ++ d4)) = d4) by (rewrite (app_assoc d2), (app_assoc d1), (skipn_n 40 (d1 ++ d2 ++ d3)) by (rewrite !app_length; lia); apply firstn_all2; lia).
  rewrite P1, P2, P3, P4. destruct (short_term_synthesis_filtering c0 v d1) as [v1 o1]. cbn [fst snd] in *. destruct (short_term_synthesis_filtering c1 v1 d2) as [v2 o2]. cbn [fst snd] in *. destruct (short_term_synthesis_filtering c2 v2 d3) as [v3 o3]. cbn [fst snd] in *. destruct (short_term_synthesis_filtering c3 v3 d4) as [v4 o4]. cbn [fst snd] in *.
  subst o1 o2 o3 o4. split; [symmetry; exact S | exact W3].
Qed.
