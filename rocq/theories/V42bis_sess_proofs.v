(** V.42bis: whole sessions. *)
From Verif Require Import Base Bits V42bis_model V42bis_spec V42bis_dict_proofs V42bis_core_proofs V42bis_out_proofs V42bis_dec_proofs V42bis_bits_proofs V42bis_enc_proofs V42bis_loop_proofs.
From Coq Require Import ZifyBool ZifyNat.
Ltac Zify.zify_post_hook ::= Z.div_mod_to_equations.

(** ---- the decompressor, and how far the match in progress has got ---- *)
Definition esc1 (s : comp) : Z := if k_escd s then 1 else 0.
Definition dfr (n : Z) (s s' : comp) : Prop :=
  k_flen s' = 0 \/ (k_flen s' = k_flen s /\ 2 * k_slen s + esc1 s + n <= 2 * k_slen s' + esc1 s').
Lemma dfr_trans n m a b c : dfr n a b -> dfr m b c -> dfr (n + m) a c.
Proof. unfold dfr. intuition lia. Qed.
Lemma string_fr s s' : send_string s = Ok s' -> k_flen s' = 0.
Proof. unfold send_string. intros H. inv_ok. reflexivity. Qed.
Lemma update_fields s x s' : update_dictionary s x = Ok s' -> k_flen s' = k_flen s /\ k_slen s' = k_slen s /\ k_escd s' = k_escd s.
Proof. unfold update_dictionary. intros H. inv_ok; ksimpl; auto. Qed.
Lemma follow_fr s x s' t : follow_octet s x = Ok (s', t) ->
  k_flen s' = 0 \/ (t = true /\ k_flen s' = k_flen s /\ k_slen s' = k_slen s + 1 /\ k_escd s' = k_escd s).
Proof.
  unfold follow_octet. intros H. cbv zeta in H. inv_ok;
    try match goal with
      | E : send_string _ = Ok _ |- _ => left; exact (string_fr _ _ E)
      end.
  match goal with E : update_dictionary _ _ = Ok _ |- _ => destruct (update_fields _ _ _ E) as (A & B & C) end. right. ksimpl.
  split; [auto|]. split; [auto|]. split; [lia|auto].
Qed.
Lemma follow2_fr s x s' t : follow_octet_twice s x = Ok (s', t) ->
  k_flen s' = 0 \/ (k_flen s' = k_flen s /\ k_slen s' = k_slen s + 1 /\ k_escd s' = k_escd s).
Proof.
  unfold follow_octet_twice. intros H. inv_ok.
  - destruct (follow_fr _ _ _ _ E) as [A|(A & B)]; auto.
  - destruct (follow_fr _ _ _ _ E) as [A|(A & B)]; [|discriminate].
    destruct (follow_fr _ _ _ _ H) as [A1|(A1 & B1 & _)]; [auto|]. left. congruence.
Qed.
Lemma take_fr s c s' t : take_codeword s c = Ok (s', t) -> k_flen s' = 0 \/ k_flen s' = k_flen s.
Proof.
  unfold take_codeword, expand_codeword. intros H. cbv zeta in H. inv_ok; ksimpl; auto;
    repeat match goal with
      | E : send_string _ = Ok _ |- _ => left; apply (string_fr _ _ E)
      end.
Qed.
Lemma step_fr n7 s x s' : DI n7 s -> dec_step s x = Ok (s', true) -> dfr 1 s s'.
Proof.
  intros D H. unfold dec_step in H. unfold dfr, esc1. destruct (k_trans s) eqn:T.
  - destruct (k_escd s) eqn:EE.
    + cbv zeta in H. inv_ok; try discriminate; ksimpl.
      * left. match goal with E : send_string _ = Ok _ |- _ => exact (string_fr _ _ E) end.
      * match goal with E : follow_octet_twice _ _ = Ok _ |- _ => destruct (follow2_fr _ _ _ _ E) as [A|(A & B & C)] end; [auto|right].
        ksimpl. rewrite C. lia.
      * left. reflexivity.
    + cbv zeta in H. inv_ok; ksimpl.
      * right. lia.
      * match goal with E : follow_octet_twice _ _ = Ok _ |- _ => destruct (follow2_fr _ _ _ _ E) as [A|(A & B & C)] end; [auto|right].
        rewrite C, EE. lia.
  - left. pose proof (di_mode _ _ D) as M. rewrite T in M. destruct (di_zero _ _ D (proj1 M)) as (_ & F).
    cbv zeta in H. inv_ok; ksimpl; auto. match goal with E : take_codeword _ _ = Ok _ |- _ => destruct (take_fr _ _ _ _ E) end; ksimpl; congruence.
Qed.
Lemma run_sim2 n7 : forall O s m m', CB n7 s m -> bytes O -> brun n7 m (unpack_lsb O) = Ok m' ->
  exists s', (forall fuel, (length O <= fuel)%nat -> decompress_loop fuel s O = Ok (s', 0)) /\ CB n7 s' m' /\ keeps_o s s' /\
    dfr (Z.of_nat (length O)) s s'.
Proof.
  induction O as [|x O IH]; intros s m m' C B E.
  - cbn in E. injection E as <-. exists s. split; [intros [|f] _; reflexivity|]. split; [auto|]. unfold keeps_o, dfr. cbn. split; [auto|]. right. lia.
  - apply Forall_cons_iff in B. destruct B as (BX & BO). rewrite unpack_cons, brun_app in E.
    destruct (brun n7 m (bits_lsb 8 x)) as [m1|] eqn:E1; [|discriminate]. cbn [rbind] in E.
    destruct (octet_sim n7 s m x m1 C BX E1) as (s1 & ES & C1 & K1 & C12).
    destruct (IH s1 m1 m' C1 BO E) as (s' & EL & C' & K' & F'). exists s'. split; [|split; [auto|split]].
    + intros fuel F. destruct fuel as [|fuel]; [cbn in F; lia|]. cbn [length] in F.
      destruct (loop_cons n7 O fuel s x (cb_di _ _ _ C) C12 BX ltac:(lia) s1 true ES (fun _ => cb_di _ _ _ C1)) as (f & LF & ->). auto.
    + unfold keeps_o in *. intuition; congruence.
    + cbn [length]. replace (Z.of_nat (S (length O))) with (1 + Z.of_nat (length O)) by lia. apply (dfr_trans _ _ _ s1); [|exact F'].
      eapply step_fr; eauto. apply C.
Qed.

(** The decompressor's flush. *)
Lemma deliver_out n7 s : DI n7 s -> exists s', v42bis_decompress_flush s = Ok s' /\ handed s' = deliv s /\ held s' = [] /\
  Forall (fun m => 1 <= Z.of_nat (length m) <= o_max (k_out s)) (o_log (k_out s')).
Proof.
  intros D. pose proof (di_zlen _ _ D). pose proof (di_total _ _ D). pose proof (di_slen _ _ D). pose proof (di_flen _ _ D). pose proof (ci_n7 _ _ (di_ci _ _ D)).
  unfold v42bis_decompress_flush. destruct (send_string_ok s (di_out _ _ D) ltac:(lia)) as (o & -> & B & M & S). cbn [rbind]. ksimpl.
  destruct (flush_octets_ok o B) as (o' & -> & B' & M' & S' & L). cbn [rbind]. eexists. split; [reflexivity|].
  unfold handed, held, deliv. ksimpl. rewrite L, S. split; [auto|]. split.
  - assert (Q : concat (o_log o') ++ [] = ostream o') by (rewrite app_nil_r; congruence). unfold ostream in Q. apply app_inv_head in Q. auto.
  - rewrite <- M, <- M'. apply B'.
Qed.
Lemma deliver_ok n7 s m : CB n7 s m -> k_flen s = 0 -> exists s', v42bis_decompress_flush s = Ok s' /\ CB n7 s' m /\ keeps_o s s' /\ 0 <= k_slen s'.
Proof.
  intros C F. pose proof (cb_di _ _ _ C) as D. pose proof (di_zlen _ _ D). pose proof (di_total _ _ D). pose proof (di_slen _ _ D). pose proof (ci_n7 _ _ (di_ci _ _ D)).
  unfold v42bis_decompress_flush. destruct (send_string_ok s (di_out _ _ D) ltac:(lia)) as (o & -> & B & M & S). cbn [rbind]. ksimpl.
  destruct (flush_octets_ok o B) as (o' & -> & B' & M' & S' & L). cbn [rbind].
  set (s' := set_out _ o'). exists s'. split; [reflexivity|].
  assert (KE : kcore s' = kcore s) by (unfold kcore, s'; ksimpl; f_equal; lia).
  split; [|split; [unfold keeps_o, s'; ksimpl; split; [auto|split; [congruence|auto]]|unfold s'; ksimpl; lia]]. constructor.
  - constructor; unfold s'; ksimpl; try apply D; auto; try lia. fold s'. rewrite KE. apply D.
  - rewrite <- (cb_abs _ _ _ C). unfold abs. rewrite KE. unfold deliv, s'. ksimpl. cbn [Z.to_nat firstn]. rewrite app_nil_r, S', S. reflexivity.
  - apply C.
  - apply C.
  - exact (cb_bits _ _ _ C).
Qed.

(** ---- the start ---- *)
Definition start_ad (n2 : Z) : ad := mkA (mkC (mkDict init_nodes N5 n2) 0 0 0 0) true false 0 9 [].
Lemma init_ci n2 n7 : 512 <= n2 <= 4096 -> 6 <= n7 <= 250 -> CI n7 (mkC (mkDict init_nodes N5 n2) 0 0 0 0).
Proof.
  intros A B. constructor; cbn [c_d c_u c_l c_a c_n]; auto; [apply WF_init; lia|left; auto|left; auto].
Qed.
Lemma init_ob max : 1 <= max -> OB (mkOut (if max <? MAX_OUTPUT then max else MAX_OUTPUT) (repeat 0 (Z.to_nat MAX_OUTPUT)) 0 []).
Proof.
  intros M. assert (1 <= (if max <? MAX_OUTPUT then max else MAX_OUTPUT) <= 1024) by (unfold MAX_OUTPUT; destruct (Z.ltb_spec max 1024); lia).
  constructor; cbn [o_max o_buf o_cnt o_log]; [auto|apply repeat_length|lia|constructor].
Qed.
Lemma init_inv p0 n2 n7 max : 512 <= n2 <= 4096 -> 6 <= n7 <= 250 -> 1 <= max ->
  INV n7 (mkB (start_ad n2) [] false 0) (comp_init p0 n2 n7 max) (start_ad n2) /\ RH n7 (comp_init p0 n2 n7 max) (start_ad n2) None.
Proof.
  intros A B M. pose proof (init_ci n2 n7 A B) as C. pose proof (init_ob max M) as O.
  split; [|left; reflexivity]. split; [|split; [reflexivity|split]].
  - constructor; unfold comp_init, dictionary_init; ksimpl; try reflexivity; try lia.
    + exact C.
    + constructor; ksimpl; [exact O|lia|cbn; lia].
    + unfold N3. lia.
    + unfold byte. lia.
    + constructor.
  - constructor; reflexivity.
  - split; [exact C|discriminate].
Qed.
Lemma init_cb p0 n2 n7 max : 512 <= n2 <= 4096 -> 6 <= n7 <= 250 -> 1 <= max ->
  CB n7 (comp_init p0 n2 n7 max) (mkB (start_ad n2) [] false 0).
Proof.
  intros A B M. pose proof (init_ci n2 n7 A B) as C. pose proof (init_ob max M) as O. constructor.
  - constructor; unfold comp_init, dictionary_init; ksimpl; try reflexivity; try lia.
    + exact C.
    + exact O.
    + unfold byte. lia.
  - reflexivity.
  - reflexivity.
  - reflexivity.
  - split; reflexivity.
Qed.
Lemma init_some p0 p1 p2 me md e d : v42bis_init p0 p1 p2 me md = Some (e, d) ->
  512 <= p1 <= 65535 /\ 6 <= p2 <= 250 /\ e = comp_init (Z.land p0 2) p1 p2 me /\ d = comp_init (Z.land p0 1) p1 p2 md.
Proof.
  unfold v42bis_init, MIN_DICT, MIN_STRING, MAX_STRING. intros H.
  destruct ((p1 <? 512) || (65535 <? p1)) eqn:E1; [discriminate|].
  destruct ((p2 <? 6) || (250 <? p2)) eqn:E2; [discriminate|]. injection H as <- <-. split; [lia|]. split; [lia|auto].
Qed.

(** ---- sessions ---- *)
Definition data_ok (ops : list eop) : Prop := Forall (fun o => match o with Give d => bytes d | _ => True end) ops.
Definition GAP (g : Z) (s : comp) : Prop := k_flen s = 0 \/ g <= k_slen s.
Lemma comp_sess n7 m0 : forall ops s A g, k_p0 s <> 0 -> INV n7 m0 s A -> RH n7 s A None -> UBI s -> obytes (k_out s) -> GAP g s ->
  Forall (fun o => match o with Give d => bytes d | _ => True end) ops -> spaced n7 g ops ->
  exists s' A', compressor s ops = Ok s' /\ INV n7 m0 s' A' /\ RH n7 s' A' None /\ UBI s' /\ obytes (k_out s') /\
    given s' A' = given s A ++ accepted ops /\ o_max (k_out s') = o_max (k_out s) /\
    (forall ops1, ops = ops1 ++ [Flush] -> pend s' = [] /\ k_bc s' = 0) /\
    (forall ops1 s1, ops = ops1 ++ [Flush] -> compressor s ops1 = Ok s1 -> k_upd_at s1 = 0 -> held s' = []).
Proof.
  induction ops as [|op ops IH]; intros s A g P I R U O G D SP.
  { exists s, A. rewrite app_nil_r. split; [reflexivity|]. split; [auto|]. split; [auto|]. split; [auto|]. split; [auto|]. split; [auto|]. split; [auto|].
    split; intros [|]; discriminate. }
  apply Forall_cons_iff in D. destruct D as (DX & DT). destruct op as [d| |md]; cbn [compressor accepted spaced] in *.
  - destruct (compress_sim n7 m0 s A d P I R DX) as (s1 & A1 & E1 & I1 & (K1 & K2 & K3) & R1_ & G1 & U1 & (F1 & F2)).
    rewrite E1. cbn [rbind]. destruct (IH s1 A1 (g + Z.of_nat (length d))) as (s' & A' & E' & I' & R' & U' & O' & G' & M' & L1 & L2); auto; try congruence.
    { unfold GAP in *. lia. }
    exists s', A'. split; [exact E'|]. split; [auto|]. split; [auto|]. split; [auto|]. split; [auto|]. split; [rewrite G', G1, <- app_assoc; auto|].
    split; [congruence|]. split.
    + intros [|o ops1] EO; [discriminate|]. injection EO as <- EO. eauto.
    + intros [|o ops1] s2 EO; [discriminate|]. injection EO as <- EO. cbn [compressor]. rewrite E1. cbn [rbind]. eauto.
  - destruct SP as (SG & SP). pose proof I as (EI_ & _). pose proof (ei_total _ _ EI_) as (T & _). pose proof (ei_slen _ _ EI_). pose proof (ei_flen _ _ EI_).
    assert (FL : k_flen s = 0) by (unfold GAP in G; lia).
    destruct (flush_sim n7 m0 s A I R (fun _ _ => FL)) as (s1 & A1 & E1 & I1 & (K1 & K2 & K3) & R1_ & G1 & L1 & L2 & O1).
    rewrite E1. cbn [rbind]. pose proof (L1 U) as (L3 & L4). pose proof I1 as (EI1 & _). pose proof (ei_slen _ _ EI1).
    destruct (IH s1 A1 0) as (s' & A' & E' & I' & R' & U' & O' & G' & M' & Q1 & Q2); auto; try congruence.
    { right. lia. }
    exists s', A'. split; [exact E'|]. split; [auto|]. split; [auto|]. split; [auto|]. split; [auto|]. split; [rewrite G', G1; auto|].
    split; [congruence|]. split.
    + intros [|o ops1] EO; [injection EO as ->; cbn in E'; injection E' as <-; auto|]. injection EO as <- EO. eauto.
    + intros [|o ops1] s2 EO; cbn [compressor].
      * injection EO as ->. cbn in E'. injection E' as <-. intros EQ U0. injection EQ as <-.
        specialize (L2 U0). unfold held. rewrite <- (app_nil_r (concat _)) in L2. unfold ostream in L2. apply app_inv_head in L2. auto.
      * injection EO as <- EO. rewrite E1. cbn [rbind]. eauto.
  - destruct (IH (compression_control s md) A g) as (s' & A' & E' & I' & R' & U' & O' & G' & M' & L1 & L2); auto.
    { destruct I as (X1 & X2 & X3 & X4). split; [|split; [exact X2|split; [destruct X3; constructor; auto|exact X4]]].
      constructor; try apply X1. destruct (ei_eb _ _ X1). constructor; auto. }
    { revert R. unfold RH, compression_control. ksimpl. destruct (k_trans s); auto. intros (Q1 & Q2). split; [exact Q1|].
      intros Q3. destruct (Q2 Q3) as (x0 & QM). exists x0. destruct QM; constructor; auto. }
    exists s', A'. split; [exact E'|]. split; [auto|]. split; [auto|]. split; [auto|]. split; [auto|]. split; [exact G'|].
    split; [exact M'|]. split.
    + intros [|o ops1] EO; [discriminate|]. injection EO as <- EO. eauto.
    + intros [|o ops1] s2 EO; [discriminate|]. injection EO as <- EO. cbn [compressor]. eauto.
Qed.

Lemma brun_prefix n7 a b : forall m m', brun n7 m (a ++ b) = Ok m' -> exists m1, brun n7 m a = Ok m1 /\ brun n7 m1 b = Ok m'.
Proof. intros m m' H. rewrite brun_app in H. destruct (brun n7 m a) as [m1|]; [|discriminate]. eauto. Qed.
Definition DGAP (g : Z) (s : comp) : Prop := k_flen s = 0 \/ g <= 2 * k_slen s + esc1 s.
Lemma dec_sess n7 : forall ops s m m' g, k_p0 s <> 0 -> CB n7 s m -> DGAP g s -> dspaced (2 * n7) g ops -> bytes (fed ops) ->
  brun n7 m (unpack_lsb (fed ops)) = Ok m' ->
  exists s', decompressor s ops = Ok (s', 0) /\ CB n7 s' m' /\ o_max (k_out s') = o_max (k_out s).
Proof.
  induction ops as [|op ops IH]; intros s m m' g P C G SP B E.
  { cbn in E. injection E as <-. exists s. auto. }
  destruct op as [d|]; cbn [fed dspaced decompressor] in *.
  - apply Forall_app in B. destruct B as (BD & BT). rewrite unpack_app in E. destruct (brun_prefix _ _ _ _ _ E) as (m1 & E1 & E2).
    destruct (run_sim2 n7 d s m m1 C BD E1) as (s1 & EL & C1 & (K1 & K2 & K3) & F).
    unfold v42bis_decompress. destruct (Z.eqb_spec (k_p0 s) 0); [congruence|]. rewrite EL by lia. cbn [rbind Z.eqb].
    destruct (IH s1 m1 m' (g + Z.of_nat (length d))) as (s' & E' & C' & M'); auto; try congruence.
    { unfold DGAP, dfr in *. lia. }
    exists s'. split; [auto|]. split; [auto|congruence].
  - destruct SP as (SG & SP). pose proof (cb_di _ _ _ C) as DI_. pose proof (di_total _ _ DI_). pose proof (di_flen _ _ DI_).
    assert (F : k_flen s = 0) by (unfold DGAP, esc1 in G; destruct (k_escd s); lia).
    destruct (deliver_ok n7 s m C F) as (s1 & -> & C1 & (K1 & K2 & K3) & L). cbn [rbind].
    destruct (IH s1 m m' 0) as (s' & E' & C' & M'); auto; try congruence.
    { right. unfold esc1. destruct (k_escd s1); lia. }
    exists s'. split; [auto|]. split; [auto|congruence].
Qed.

Lemma stream_split s : ostream (k_out s) = handed s ++ held s.
Proof. reflexivity. Qed.
Lemma deliv_handed s : exists t, deliv s = handed s ++ t.
Proof. unfold deliv. rewrite stream_split, <- app_assoc. eauto. Qed.

Section Session.
Variables (p0 q0 n2 n7 me md me' md' : Z) (enc ed de dec : comp) (ops : list eop).
Hypothesis IE : v42bis_init p0 n2 n7 me md = Some (enc, ed).
Hypothesis ID : v42bis_init q0 n2 n7 me' md' = Some (de, dec).
Hypothesis PE : Z.land p0 2 <> 0.
Hypothesis PD : Z.land q0 1 <> 0.
Hypothesis N2 : n2 <= 4096.
Hypothesis ME : 1 <= me.
Hypothesis MD : 1 <= md'.
Hypothesis DO : Forall (fun o => match o with Give d => bytes d | _ => True end) ops.
Hypothesis SP : spaced n7 n7 ops.

Lemma session_all : exists enc' A, compressor enc ops = Ok enc' /\ obytes (k_out enc') /\
  brun n7 (mkB (start_ad n2) [] false 0) (sbits enc') = Ok (mkB A [] false (k_bc enc')) /\
  given enc' A = accepted ops /\ OB (k_out enc') /\ o_max (k_out enc') = o_max (k_out enc) /\
  (forall ops1, ops = ops1 ++ [Flush] -> pend enc' = [] /\ k_bc enc' = 0) /\
  (forall ops1 s1, ops = ops1 ++ [Flush] -> compressor enc ops1 = Ok s1 -> k_upd_at s1 = 0 -> held enc' = []).
Proof.
  destruct (init_some _ _ _ _ _ _ _ IE) as (R1 & R2 & -> & _).
  destruct (init_inv (Z.land p0 2) n2 n7 me ltac:(lia) R2 ME) as (I & R).
  destruct (comp_sess n7 _ ops (comp_init (Z.land p0 2) n2 n7 me) _ n7 PE I R) as (s' & A' & E & (I1 & I2 & _) & _ & _ & O & G & M & L1 & L2); auto.
  - intros Q. exfalso. apply Q. reflexivity.
  - split; [constructor|]. unfold comp_init, dictionary_init. ksimpl. cbn [o_buf]. apply Forall_forall. intros x Q. apply repeat_spec in Q. subst x. unfold byte. lia.
  - left. reflexivity.
  - exists s', A'. split; [exact E|]. split; [exact O|]. split; [exact I2|]. split; [exact G|]. split; [apply I1|]. split; [exact M|]. split; [exact L1|exact L2].
Qed.

Lemma session_prefix : exists enc', compressor enc ops = Ok enc' /\
  forall dops rest, handed enc' ++ held enc' = fed dops ++ rest -> dspaced (2 * n7) (2 * n7) dops ->
  exists dec', decompressor dec dops = Ok (dec', 0) /\ exists later, accepted ops = handed dec' ++ later.
Proof.
  destruct session_all as (enc' & A & E & O & B & G & _). exists enc'. split; [exact E|].
  intros dops rest ES DS. destruct (init_some _ _ _ _ _ _ _ ID) as (R1 & R2 & _ & ->).
  pose proof (obytes_stream _ O) as BO. rewrite stream_split, ES in BO. apply Forall_app in BO. destruct BO as (BF & _).
  unfold sbits in B. rewrite stream_split, ES, unpack_app, <- app_assoc in B. destruct (brun_prefix _ _ _ _ _ B) as (m1 & B1 & B2).
  destruct (dec_sess n7 dops (comp_init (Z.land q0 1) n2 n7 md') _ m1 (2 * n7) PD (init_cb (Z.land q0 1) n2 n7 md' ltac:(lia) R2 MD)) as (dec' & ED & C & _); auto.
  { left. reflexivity. }
  exists dec'. split; [exact ED|]. destruct (brun_out _ _ _ _ B2) as (t & T). cbn [b_a] in T.
  destruct (deliv_handed dec') as (t2 & T2). rewrite <- G. unfold given. rewrite T, <- (cb_abs _ _ _ C). cbn [a_out abs]. rewrite T2, <- !app_assoc. eauto.
Qed.

Lemma session_exact ops1 : ops = ops1 ++ [Flush] -> exists enc', compressor enc ops = Ok enc' /\
  forall dops, fed dops = handed enc' ++ held enc' -> dspaced (2 * n7) (2 * n7) dops ->
  exists dec', decompressor dec (dops ++ [Deliver]) = Ok (dec', 0) /\ handed dec' = accepted ops /\ held dec' = [].
Proof.
  intros EO. destruct session_all as (enc' & A & E & O & B & G & _ & _ & L1 & _). exists enc'. split; [exact E|].
  destruct (L1 ops1 EO) as (PN & BC). clear L1.
  intros dops ES DS. destruct (init_some _ _ _ _ _ _ _ ID) as (R1 & R2 & _ & ->).
  pose proof (obytes_stream _ O) as BO. rewrite stream_split, <- ES in BO.
  unfold sbits in B. rewrite stream_split, <- ES, BC in B. cbn [Z.to_nat bits_lsb] in B. rewrite app_nil_r in B.
  destruct (dec_sess n7 dops (comp_init (Z.land q0 1) n2 n7 md') _ _ (2 * n7) PD (init_cb (Z.land q0 1) n2 n7 md' ltac:(lia) R2 MD) (or_introl eq_refl) DS BO B) as (dec' & ED & C & _).
  destruct (deliver_out n7 dec' (cb_di _ _ _ C)) as (d2 & EF & H1 & H2 & _). exists d2.
  assert (EA : decompressor (comp_init (Z.land q0 1) n2 n7 md') (dops ++ [Deliver]) = Ok (d2, 0)).
  { clear - ED EF. revert ED. generalize (comp_init (Z.land q0 1) n2 n7 md') as s. induction dops as [|[d|] dops IH]; intros s ED; cbn [app decompressor] in *.
    - injection ED as <-. rewrite EF. reflexivity.
    - destruct (v42bis_decompress s d) as [(s1, r)|]; [|discriminate]. cbn [rbind] in *. destruct (Z.eqb_spec r 0); [auto|congruence].
    - destruct (v42bis_decompress_flush s) as [s1|]; [|discriminate]. cbn [rbind] in *. auto. }
  split; [exact EA|]. split; [|exact H2]. rewrite H1, <- G. unfold given. rewrite PN, app_nil_r.
  pose proof (f_equal a_out (cb_abs _ _ _ C)) as Q. cbn [b_a a_out abs] in Q. exact Q.
Qed.

(** A flush which is not skipped leaves nothing in the buffer. *)
Lemma session_flushed ops1 s1 enc' : ops = ops1 ++ [Flush] -> compressor enc ops1 = Ok s1 -> k_upd_at s1 = 0 ->
  compressor enc ops = Ok enc' -> held enc' = [].
Proof.
  intros EO E1 U E. destruct session_all as (enc2 & A & E2 & _ & _ & _ & _ & _ & _ & L2). rewrite E in E2. injection E2 as <-. eauto.
Qed.
Lemma session_messages enc' : compressor enc ops = Ok enc' ->
  Forall (fun m => bytes m /\ 1 <= Z.of_nat (length m) <= Z.min me 1024) (o_log (k_out enc')).
Proof.
  intros E. destruct session_all as (enc2 & A & E2 & (O & _) & _ & _ & B & M & _). rewrite E in E2. injection E2 as <-.
  destruct (init_some _ _ _ _ _ _ _ IE) as (_ & _ & EQ & _). rewrite EQ in M. cbn [comp_init dictionary_init k_out o_max] in M.
  pose proof (ob_log _ B) as L. apply Forall_forall. intros m Hm. rewrite Forall_forall in L. specialize (L m Hm). split.
  - unfold bytes in *. rewrite Forall_forall in *. intros x Hx. apply O. apply in_concat. eauto.
  - rewrite M in L. unfold MAX_OUTPUT in *. destruct (Z.ltb_spec me 1024); lia.
Qed.
End Session.

(** ---- parameter P0 does not call for compression ---- *)
Lemma plain_compress : forall ops s, k_p0 s = 0 -> k_upd_at s = 0 -> k_lm s = 0 -> k_trans s = true -> OB (k_out s) ->
  exists s', compressor s ops = Ok s' /\ handed s' ++ held s' = (handed s ++ held s) ++ accepted ops /\
    k_p0 s' = 0 /\ (forall ops1, ops = ops1 ++ [Flush] -> held s' = []).
Proof.
  induction ops as [|[d| |m] ops IH]; intros s P U L T B; cbn [compressor accepted].
  - exists s. rewrite app_nil_r. split; [auto|]. split; [auto|]. split; [auto|]. intros [|]; discriminate.
  - unfold v42bis_compress. rewrite P. cbn [Z.eqb]. destruct (push_octets_ok (k_out s) d B) as (o & -> & B1 & M1 & S1). cbn [rbind].
    destruct (IH (set_out s o)) as (s' & E & Q & P' & F); auto. exists s'. split; [auto|]. split; [|split; [auto|]].
    + rewrite Q. change (handed (set_out s o) ++ held (set_out s o)) with (ostream o). rewrite S1, stream_split, <- !app_assoc. reflexivity.
    + intros [|o1 ops1] EO; [discriminate|]. injection EO as <- EO. eauto.
  - unfold v42bis_compress_flush. rewrite U, L. cbn [Z.eqb negb rbind]. rewrite T. cbn [negb rbind].
    destruct (flush_octets_ok (k_out s) B) as (o & -> & B1 & M1 & S1 & S2). cbn [rbind].
    destruct (IH (set_out s o)) as (s' & E & Q & P' & F); auto. exists s'. split; [auto|]. split; [|split; [auto|]].
    + rewrite Q. change (handed (set_out s o) ++ held (set_out s o)) with (ostream o). rewrite S1. reflexivity.
    + intros [|o1 ops1] EO.
      * injection EO as ->. cbn in E. injection E as <-. unfold held. ksimpl. rewrite <- S1 in S2. rewrite <- (app_nil_r (concat _)) in S2. unfold ostream in S2. apply app_inv_head in S2. auto.
      * injection EO as <- EO. eauto.
  - destruct (IH (compression_control s m)) as (s' & E & Q & P' & F); auto. exists s'. split; [auto|]. split; [exact Q|]. split; [auto|].
    intros [|o1 ops1] EO; [discriminate|]. injection EO as <- EO. eauto.
Qed.
Lemma plain_decompress : forall ops s, k_p0 s = 0 -> k_slen s = 0 -> length (k_str s) = Z.to_nat 250 -> OB (k_out s) ->
  exists s', decompressor s ops = Ok (s', 0) /\ handed s' ++ held s' = (handed s ++ held s) ++ fed ops /\
    (forall ops1, ops = ops1 ++ [Deliver] -> held s' = []).
Proof.
  induction ops as [|[d|] ops IH]; intros s P U LS B; cbn [decompressor fed].
  - exists s. rewrite app_nil_r. split; [auto|]. split; [auto|]. intros [|]; discriminate.
  - unfold v42bis_decompress. rewrite P. cbn [Z.eqb]. destruct (push_octets_ok (k_out s) d B) as (o & -> & B1 & M1 & S1). cbn [rbind Z.eqb].
    destruct (IH (set_out s o)) as (s' & E & Q & F); auto. exists s'. split; [auto|]. split.
    + rewrite Q. change (handed (set_out s o) ++ held (set_out s o)) with (ostream o). rewrite S1, stream_split, <- !app_assoc. reflexivity.
    + intros [|o1 ops1] EO; [discriminate|]. injection EO as <- EO. eauto.
  - unfold v42bis_decompress_flush. destruct (send_string_ok s B ltac:(rewrite U; lia)) as (o1 & -> & B1 & M1 & S1). cbn [rbind]. ksimpl.
    destruct (flush_octets_ok o1 B1) as (o & -> & B2 & M2 & S2 & S3). cbn [rbind]. rewrite U in *. cbn [Z.to_nat firstn] in S1. rewrite app_nil_r in S1.
    match goal with |- exists s', decompressor ?s1 ops = _ /\ _ => destruct (IH s1) as (s' & E & Q & F); auto end. exists s'. split; [auto|]. split.
    + rewrite Q. match goal with |- (handed ?x ++ held ?x) ++ _ = _ => change (handed x ++ held x) with (ostream o) end. rewrite S2, S1. reflexivity.
    + intros [|o2 ops1] EO.
      * injection EO as ->. cbn in E. injection E as <-. unfold held. ksimpl. rewrite <- S2 in S3. rewrite <- (app_nil_r (concat _)) in S3. unfold ostream in S3. apply app_inv_head in S3. auto.
      * injection EO as <- EO. eauto.
Qed.
