(** The V.42bis compressor's loop: turns, mode changes and flushes keep the two sides in step. *)
From Verif Require Import Base Bits V42bis_model V42bis_dict_proofs V42bis_core_proofs V42bis_out_proofs V42bis_dec_proofs
  V42bis_bits_proofs V42bis_enc_proofs.
From Coq Require Import ZifyBool ZifyNat.
Ltac Zify.zify_post_hook ::= Z.div_mod_to_equations.

(** Everything but the relation itself. *)
Definition INV (n7 : Z) (m0 : bm) (s : comp) (A : ad) : Prop := EI n7 s /\ SIM n7 m0 s A /\ RO s A /\ AI n7 A.
Definition given (s : comp) (A : ad) : list Z := a_out A ++ pend s.

Lemma keep_c_refl s : keep_c s s.
Proof. repeat split. Qed.
Lemma keep_c_tran a b c : keep_c a b -> keep_c b c -> keep_c a c.
Proof. unfold keep_c. intuition; congruence. Qed.
Lemma RM_mono n7 s A nxt : RM n7 s A None -> RM n7 s A nxt.
Proof.
  unfold RM, RC. destruct (k_trans s).
  - intros [H|(x & E & _)]; [left; auto|discriminate].
  - intros (H1 & H2). split; [|auto]. intros L. destruct (H1 L) as (D & [U|(x & m & E & _)]); [auto|discriminate].
Qed.
Lemma R2_R1 n7 s A x : k_lm s <> 0 -> R2 n7 s A -> R1 n7 s A x.
Proof.
  unfold R2, R1. intros L. destruct (k_trans s).
  - intros H. exists (kcore s). auto.
  - intros (x0 & H). exists x0. split; [auto|congruence].
Qed.
Lemma R2_RM n7 s A nxt : k_lm s <> 0 -> k_upd_at s = 0 -> R2 n7 s A -> RM n7 s A nxt.
Proof.
  unfold R2, RM. intros L U. destruct (k_trans s).
  - intros H. left. auto.
  - intros H. split; [congruence|auto].
Qed.
Lemma iter_taken n7 s x s' b : EI n7 s -> byte x -> e_iter s x = Ok (s', false, b) -> k_lm s <> 0.
Proof.
  intros E B EI_ L. unfold e_iter in EI_. rewrite L in EI_. pose proof (ei_ci _ _ E) as C. rewrite (match_root (k_dic s)) in EI_ by auto.
  cbn [rbind] in EI_. unfold byte in B. destruct (Z.eqb_spec (x + 3) 0); [lia|].
  destruct (Z.eqb_spec (x + 3) (k_la s)) as [LA|_].
  - pose proof (ci_a _ _ C) as CA. unfold kcore in CA. ksimpl. lia.
  - destruct (aset _ _ _); cbn [rbind] in EI_; [|discriminate]. cbv zeta in EI_. destruct (_ =? _); [|discriminate].
    destruct (send_encoded_data _ _); discriminate.
Qed.

Lemma match_sim n7 m0 : forall buf s A, INV n7 m0 s A -> k_upd_at s = 0 -> bytes buf ->
  match buf with [] => k_lm s <> 0 /\ R2 n7 s A | x :: _ => R1 n7 s A x end ->
  exists s' rest A' used, match_string s buf = Ok (s', rest) /\ INV n7 m0 s' A' /\ keep_c s s' /\
    buf = used ++ rest /\ given s' A' = given s A ++ used /\ RM n7 s' A' (hd_error rest) /\
    (rest <> [] -> k_lm s' = 0) /\ (used = [] -> buf <> [] -> k_lm s <> 0).
Proof.
  induction buf as [|x buf IH]; intros s A (E & S & R & AA) U B H.
  - destruct H as (L & H). exists s, [], A, []. split; [reflexivity|]. split; [split; auto|]. split; [apply keep_c_refl|]. split; [reflexivity|].
    rewrite app_nil_r. split; [auto|]. split; [apply R2_RM; auto|]. split; congruence.
  - apply Forall_cons_iff in B. destruct B as (BX & B). rewrite match_string_iter.
    destruct (iter_sim n7 m0 s A x E U BX S R AA H) as (s1 & t & b & A1 & EI_ & E1 & S1 & R1_ & AA1 & KC & OUT & BF & BT).
    rewrite EI_. cbn [rbind]. destruct b.
    + destruct (BT eq_refl) as (L1 & RM1). destruct t.
      * exists s1, buf, A1, [x]. split; [reflexivity|]. split; [split; auto|]. split; [auto|]. split; [reflexivity|]. split; [exact OUT|].
        split; [apply RM_mono; auto|]. split; [auto|discriminate].
      * exists s1, (x :: buf), A1, []. split; [reflexivity|]. split; [split; auto|]. split; [auto|]. split; [reflexivity|]. split; [exact OUT|].
        split; [exact RM1|]. split; [auto|]. intros _ _. eapply iter_taken; eauto.
    + destruct (BF eq_refl) as (-> & L1 & U1 & R21).
      destruct (IH s1 A1) as (s' & rest & A' & used & EM & I' & KC' & EB_ & OUT' & RM' & LR & US); auto.
      { split; auto. }
      { destruct buf; [auto|]. apply R2_R1; auto. }
      exists s', rest, A', (x :: used). split; [exact EM|]. split; [auto|]. split; [eapply keep_c_tran; eauto|]. split; [subst buf; reflexivity|].
      split; [rewrite OUT'; unfold given; rewrite OUT, <- app_assoc; reflexivity|]. split; [auto|]. split; [auto|discriminate].
Qed.

(** ---- the update at the head of a turn ---- *)
Lemma cupdate_idem n7 K x K1 : CI n7 K -> byte x -> cupdate K x = Ok K1 -> cupdate K1 x = Ok K1.
Proof.
  intros C B E. destruct (cupdate_ok n7 K x C B) as (K2 & E2 & _ & U & _). rewrite E in E2. injection E2 as ->. unfold cupdate.
  rewrite U. reflexivity.
Qed.
Lemma cstep_same n7 K K1 x : cupdate K x = cupdate K1 x -> cstep n7 K x = cstep n7 K1 x.
Proof. intros E. unfold cstep, ctry. rewrite E. reflexivity. Qed.

Lemma update_sim n7 m0 s A x : INV n7 m0 s A -> byte x -> RH n7 s A (Some x) ->
  exists s1, update_dictionary s x = Ok s1 /\ INV n7 m0 s1 A /\ keep_c s s1 /\ k_upd_at s1 = 0 /\ k_lm s1 = k_lm s /\
    pend s1 = pend s /\ R1 n7 s1 A x.
Proof.
  intros (E & S & R & AA) B H. pose proof (ei_ci _ _ E) as C.
  destruct (cupdate_ok n7 (kcore s) x C B) as (K & EK & CK & UK & LK & NK & N2K & DK & AD).
  rewrite update_eq, EK. cbn [rbind]. exists (put s K).
  assert (KP : kcore (put s K) = K) by (apply put_kcore; auto).
  split; [reflexivity|]. split.
  { split; [|split; [exact S|split; [|exact AA]]].
    - constructor; try apply E; [rewrite KP; exact CK|]. destruct (ei_eb _ _ E); constructor; auto.
    - destruct R; constructor; auto. unfold put. ksimpl. rewrite r_n2. symmetry. exact N2K. }
  split; [repeat split|]. split; [exact UK|]. split; [reflexivity|]. split; [reflexivity|].
  unfold RH in H. unfold R1. change (k_trans (put s K)) with (k_trans s). change (pend (put s K)) with (pend s).
  change (k_lm (put s K)) with (k_lm s). rewrite KP.
  destruct (k_trans s) eqn:TR.
  - assert (CS : cstep n7 (kcore s) x = cstep n7 K x).
    { apply cstep_same. rewrite EK. symmetry. exact (cupdate_idem n7 (kcore s) x K C B EK). }
    destruct H as [H|(y & EY & P & L & H)].
    + exists (kcore s). split; [auto|]. split; [exact CS|]. intros L. unfold cupdate in EK.
      destruct (ci_ul _ _ C) as [U0|L0]; [|exfalso; apply L; exact L0]. rewrite U0 in EK. injection EK as ->. reflexivity.
    + injection EY as <-. exists (a_core A). rewrite P. split; [reflexivity|]. split; [congruence|congruence].
  - destruct H as (H0 & H1). destruct (Z.eq_dec (k_lm s) 0) as [L|L].
    + destruct (H0 L) as (D & UU). exists x. split; [|auto]. unfold RC in *. constructor.
      * change (k_dic (put s K)) with (c_d K). destruct UU as [UE|(y & m & EY & U0 & ME & MN)].
        -- rewrite D, UE. exact DK.
        -- injection EY as <-. unfold cupdate, kcore in EK. ksimpl. rewrite U0 in EK. injection EK as <-. cbn [c_d].
           unfold upd_dict. rewrite D. destruct (_ =? 0); [reflexivity|]. rewrite ME. cbn [rbind]. destruct (Z.eqb_spec m 0); [congruence|reflexivity].
      * change (k_dic (put s K)) with (c_d K). change (k_la (put s K)) with (c_a K). rewrite D.
        destruct AD as [(AD & _)|(_ & LA & FR)]; [left; symmetry; exact AD|right]. auto.
      * intros N. exfalso. apply N. exact L.
    + destruct (H1 L) as (x0 & M). exists x0. split; [|congruence].
      assert (K = kcore s) as ->.
      { unfold cupdate in EK. destruct (ci_ul _ _ C) as [U0|L0]; [|exfalso; apply L; exact L0]. rewrite U0 in EK. injection EK as ->. reflexivity. }
      destruct M; constructor; auto.
Qed.

(** ---- mode changes ---- *)
Lemma pend_nil n7 s : EI n7 s -> k_lm s = 0 -> pend s = [].
Proof. intros E L. apply length_zero_iff_nil. pose proof (pend_len _ _ E). destruct (ei_zero _ _ E L). lia. Qed.

(** Escape and ECM. *)
Lemma ecm_sim n7 m0 s A : INV n7 m0 s A -> k_trans s = true -> k_lm s = 0 ->
  exists o1 o2, push_octet (k_out s) (k_esc s) = Ok o1 /\ push_octet o1 ECM = Ok o2 /\
    let s' := set_trans (set_bb (set_out s o2) 0) false in
    let K := a_core A in
    let A' := mkA (mkC (c_d K) (c_l K) 0 (c_a K) 0) false false (a_esc A) (a_c2 A) (a_out A) in
    INV n7 m0 s' A' /\ keep_c s s'.
Proof.
  intros (E & S & R & (CA & AL)) TR L. pose proof (ei_mode _ _ E) as EM. rewrite TR in EM. pose proof (eb_out _ (ei_eb _ _ E)) as OB_.
  destruct (push_octet_ok (k_out s) (k_esc s) OB_) as (o1 & E1 & B1 & M1 & S1).
  destruct (push_octet_ok o1 ECM B1) as (o2 & E2 & B2 & M2 & S2). exists o1, o2. split; [auto|]. split; [auto|]. cbv zeta.
  rewrite u8_id in S1 by apply E. change (u8 ECM) with ECM in S2. destruct (ei_zero _ _ E L) as (SL & FL).
  split; [|unfold keep_c; ksimpl; repeat split; congruence]. split; [|split; [|split]].
  - constructor; ksimpl; try apply E; auto. constructor; ksimpl; auto; rewrite EM; [lia|]. change (2 ^ 0) with 1. lia.
  - unfold SIM, sbits in *. ksimpl. rewrite EM in *. cbn [Z.to_nat bits_lsb] in *. rewrite app_nil_r in *.
    rewrite S2, S1, <- app_assoc, unpack_app, brun_app, S. cbn [rbind app]. rewrite !unpack_cons. cbn [unpack_lsb flat_map]. rewrite app_nil_r.
    assert (TA : a_trans A = true) by (rewrite (r_trans _ _ R); exact TR).
    rewrite brun_app, brun_octet1 by (auto; apply E). unfold a_octet. rewrite (r_escd _ _ R).
    rewrite <- (r_esc _ _ R), Z.eqb_refl. cbn [rbind]. rewrite brun_octet1 by (auto; unfold ECM, byte; lia). unfold a_octet.
    cbn [a_escd a_core a_trans a_esc a_c2 a_out]. change (ECM =? ECM) with true. reflexivity.
  - destruct R; constructor; ksimpl; cbn [a_escd a_core a_trans a_esc a_c2 a_out c_d]; auto.
  - split; [|reflexivity]. cbn [a_core]. constructor; cbn [c_d c_u c_l c_a c_n]; try apply CA; auto.
    + destruct (ci_l _ _ CA) as [(L0 & _)|(LR & LC & LT & w & W & WL)]; [left; auto|]. right. split; [auto|]. split; [auto|].
      exists w. split; [auto|lia].
    + left; auto.
Qed.

Definition mode_rel (n7 : Z) (m0 : bm) (s : comp) (A : ad) (nxt : option Z) (s' : comp) (A' : ad) : Prop :=
  INV n7 m0 s' A' /\ keep_c s s' /\ given s' A' = given s A /\ RH n7 s' A' nxt /\ (k_lm s = 0 -> k_lm s' = 0).

Lemma RM_RH n7 m0 s A nxt : INV n7 m0 s A -> (forall x, nxt = Some x -> byte x) -> RM n7 s A nxt -> RH n7 s A nxt.
Proof.
  intros (E & S & R & AA) BN. unfold RM, RH. destruct (k_trans s); [|auto]. intros [(H & _)|(x & EN & P & L & U & T)]; [left; auto|right].
  exists x. split; [auto|]. split; [auto|]. split; [auto|]. unfold cstep. rewrite T. cbn [rbind].
  destruct (ctry_ok n7 (kcore s) x (ei_ci _ _ E) (BN x EN)) as (K' & t & -> & _ & _ & _ & F). cbn [rbind].
  destruct t; [reflexivity|]. destruct (F eq_refl) as (_ & _ & N). exfalso. apply N. exact L.
Qed.

Lemma go_compressed_sim n7 m0 s A nxt : INV n7 m0 s A -> k_trans s = true -> (forall x, nxt = Some x -> byte x) -> RM n7 s A nxt ->
  exists s' A', go_compressed s = Ok s' /\ mode_rel n7 m0 s A nxt s' A'.
Proof.
  intros (E & S & R & AA) TR BN H. unfold go_compressed. rewrite TR. cbn [negb]. unfold RM in H. rewrite TR in H.
  destruct (Z.eqb_spec (k_lm s) 0) as [L|L]; cbn [negb].
  - cbn [rbind]. destruct (ecm_sim n7 m0 s A ltac:(split; auto) TR L) as (o1 & o2 & E1 & E2 & I' & KC). cbv zeta in I', KC.
    rewrite E1. cbn [rbind]. rewrite E2. cbn [rbind]. eexists _, _. split; [reflexivity|]. split; [exact I'|]. split; [exact KC|].
    split; [reflexivity|]. split; [|intros _; exact L]. unfold RH. ksimpl. split; [|congruence]. intros _. unfold RC. ksimpl.
    cbn [a_core c_d c_u]. pose proof (pend_nil _ _ E L) as P. destruct H as [(H & U)|(x & EN & _ & _ & U & T)].
    + rewrite P in H. cbn [crun] in H. injection H as H. rewrite H. split; [reflexivity|left]. unfold kcore. ksimpl. congruence.
    + destruct (ctry0_ok n7 (a_core A) x (proj1 AA) (BN x EN) U) as (m & K' & t & ME & T' & _ & DK & CS).
      rewrite T in T'. injection T' as <- <-. change (c_d (kcore s)) with (k_dic s) in DK. split; [symmetry; exact DK|].
      destruct CS as [(M & _ & EK & _)|[(M & _ & _ & EK & _)|(_ & _ & F & _)]]; [left|right|discriminate].
      * unfold kcore in EK. injection EK as _ EU _ _. congruence.
      * exists x, m. split; [auto|]. unfold kcore in EK. injection EK as _ EU _ _. split; [auto|]. split; [congruence|auto].
  - pose proof (ei_ci _ _ E) as C. pose proof (ei_total _ _ E) as (TOT & N7).
    destruct H as [(H & U)|(x & _ & _ & L0 & _)]; [|congruence].
    destruct (emit_trans n7 m0 s (set_upd_at s (k_lm s)) A (kcore s)) as (s1 & A1 & E1 & E' & S' & R' & A1_ & KC & T1 & KE & PE & AC & AO & _);
      auto; try reflexivity; try (apply E).
    { apply (pend_slice _ _ E). }
    { constructor; cbn [c_d c_u c_l c_a c_n]; try apply C; auto.
      - destruct (ci_l _ _ C) as [(L0 & _)|(LR & LC & LT & w & W & WL)]; [exfalso; apply L; exact L0|]. right. split; [exact LR|]. split; [exact LC|].
        exists w. split; [exact W|]. unfold kcore in *. ksimpl. lia.
      - left; auto. }
    change (k_lm (set_upd_at s (k_lm s))) with (k_lm s) in E1. cbv zeta. ksimpl. rewrite E1. cbn [rbind].
    destruct (ecm_sim n7 m0 (set_lm s1 0) A1 ltac:(split; auto) T1 eq_refl) as (o1 & o2 & F1 & F2 & I' & KC'). cbv zeta in I', KC'. 
    rewrite F1. cbn [rbind]. rewrite F2. cbn [rbind]. eexists _, _. split; [reflexivity|]. split; [exact I'|]. split; [eapply keep_c_tran; eauto|].
    split.
    { unfold given. cbn [a_out]. rewrite AO. change (pend (set_trans _ _)) with (pend (set_lm s1 0)). rewrite PE, app_nil_r. reflexivity. }
    split; [|intros _; reflexivity]. unfold RH. ksimpl. split; [|congruence]. intros _. unfold RC. ksimpl. cbn [a_core c_d c_u].
    unfold kcore in KE. injection KE as KD KU _ _. ksimpl. rewrite AC. unfold kcore. ksimpl. rewrite KD, KU. auto.
Qed.

(** A control code followed by octet alignment. *)
Lemma ctl_sim n7 m0 s A code A' : INV n7 m0 s A -> k_trans s = false -> code = ETM \/ code = FLUSH -> a_code n7 A code = Ok A' ->
  exists s1 s2, push_compressed_code s code = Ok s1 /\ push_octet_alignment s1 = Ok s2 /\ keep s s2 /\ EB s2 /\
    k_c2 s2 = k_c2 s /\ k_c3 s2 = k_c3 s /\ k_bc s2 = 0 /\ k_bb s2 = 0 /\ SIM n7 m0 s2 A'.
Proof.
  intros (E & S & R & AA) TR CD AC. pose proof (ei_c2 _ _ E) as C2.
  assert (P9 : 2 ^ 9 <= 2 ^ k_c2 s) by (apply Z.pow_le_mono_r; lia). change (2 ^ 9) with 512 in P9.
  assert (CR : 0 <= code <= 1) by (unfold ETM, FLUSH in CD; lia).
  destruct (push_code_ok s code (ei_eb _ _ E) ltac:(lia) ltac:(lia)) as (s1 & E1 & B1 & SB1 & BC1 & S1).
  destruct (push_align_ok s1 B1) as (s2 & E2 & B2 & SB2 & BC2 & BB2 & S2).
  destruct (keep_bits _ _ SB1) as (K1 & C21 & C31). destruct (keep_bits _ _ SB2) as (K2 & C22 & C32).
  exists s1, s2. split; [auto|]. split; [auto|]. split; [eapply keep_tran; eauto|]. split; [auto|]. split; [congruence|]. split; [congruence|].
  split; [auto|]. split; [auto|]. unfold SIM in *. rewrite S2, S1, !brun_app, S. cbn [rbind].
  assert (C2A : a_c2 A = k_c2 s) by apply R. rewrite <- C2A.
  rewrite brun_code1 by (rewrite ?(r_trans _ _ R), ?C2A; auto; lia). rewrite AC. cbn [rbind].
  replace ((code =? ETM) || (code =? FLUSH)) with true by (unfold ETM, FLUSH in *; lia). cbn [andb]. rewrite C2A, <- BC1, BC2.
  pose proof (eb_bc _ B1) as R1_. destruct (Z.eqb_spec (k_bc s1) 0) as [Z0|NZ]; cbn [negb].
  - rewrite Z0. reflexivity.
  - rewrite brun_pad; cbn [b_skip b_pos b_a]; auto; [lia|]. clear - R1_ NZ. lia.
Qed.

Lemma go_transparent_sim n7 m0 s A nxt : INV n7 m0 s A -> k_trans s = false -> RM n7 s A nxt ->
  exists s' A', go_transparent s = Ok s' /\ mode_rel n7 m0 s A nxt s' A'.
Proof.
  intros I TR H. pose proof I as (E & S & R & AA). unfold RM in H. rewrite TR in H. destruct H as (H0 & H1).
  assert (PRE : exists s1 A1, (if negb (k_lm s =? 0) then
               let s := set_upd_at s (k_lm s) in
               do s <- send_encoded_data s (k_lm s); Ok (set_lm s 0)
             else Ok s) = Ok s1 /\ INV n7 m0 s1 A1 /\ keep_c s s1 /\ given s1 A1 = given s A /\ k_lm s1 = 0 /\ k_trans s1 = false /\ RC s1 A1 nxt).
  { destruct (Z.eqb_spec (k_lm s) 0) as [L|L]; cbn [negb].
    - exists s, A. split; [reflexivity|]. split; [exact I|]. split; [apply keep_c_refl|]. auto.
    - destruct (H1 L) as (x0 & HM). pose proof (ei_ci _ _ E) as C. pose proof (ei_total _ _ E) as (TOT & N7).
      pose proof (pend_len _ _ E) as PL. pose proof (ei_mode _ _ E) as EM. rewrite TR in EM.
      destruct (ci_l _ _ C) as [(L0 & _)|(LR & LC & LT & w & W & WL)]; [exfalso; apply L; exact L0|].
      assert (EX : ext_ok n7 (k_dic s) (k_lm s)).
      { right. split; [exact LR|]. split; [exact LC|]. exists w. split; [exact W|]. unfold kcore in *. ksimpl. lia. }
      destruct (emit_code n7 m0 s (set_upd_at s (k_lm s)) A x0) as (s1 & A1 & E1 & E' & S' & R' & A1_ & KC & T1 & KE & PE & AC & AU & AO & _);
        auto; try reflexivity; try (apply E).
      { apply (pend_slice _ _ E). }
      { apply HM. }
      { apply HM. exact L. }
      { constructor; cbn [c_d c_u c_l c_a c_n]; try apply C; auto. left; auto. }
      cbv zeta. change (k_lm (set_upd_at s (k_lm s))) with (k_lm s) in *. rewrite E1. cbn [rbind].
      exists (set_lm s1 0), A1. split; [reflexivity|]. split; [split; auto|]. split; [auto|]. split.
      { unfold given. rewrite PE, AO, app_nil_r. reflexivity. }
      split; [reflexivity|]. split; [exact T1|]. unfold RC. ksimpl. rewrite AC, AU. change (pend (set_upd_at s (k_lm s))) with (pend s).
      destruct (Z.eqb_spec (Z.of_nat (length (pend s))) n7); [lia|]. unfold kcore in KE. injection KE as KD KU _ _. ksimpl. rewrite KD, KU. auto. }
  unfold go_transparent. rewrite TR. cbv zeta. cbv zeta in PRE. destruct PRE as (s1 & A1 & -> & (E1 & S1 & R1_ & (CA & AL)) & KC & GV & L1 & T1 & (DD & UU)). cbn [rbind].
  set (K1 := a_core A1) in *.
  assert (TA : a_trans A1 = false) by (rewrite (r_trans _ _ R1_); exact T1). specialize (AL TA).
  assert (CN : c_n K1 = 0). { destruct (ci_l _ _ CA) as [(_ & N0)|(LR & _)]; [exact N0|fold K1 in LR; lia]. }
  set (A2 := mkA (mkC (c_d K1) (c_u K1) 0 0 (c_n K1)) true (a_escd A1) (a_esc A1) (a_c2 A1) (a_out A1)).
  assert (I0 : INV n7 m0 (set_la s1 0) A1).
  { split; [|split; [exact S1|split; [destruct R1_; constructor; auto|split; auto]]].
    constructor; try apply E1; [|destruct (ei_eb _ _ E1); constructor; auto].
    pose proof (ei_ci _ _ E1) as C1. constructor; try apply C1. left; reflexivity. }
  destruct (ctl_sim n7 m0 (set_la s1 0) A1 ETM A2 I0 T1 (or_introl eq_refl)) as (s2 & s3 & F1 & F2 & K & B3 & C23 & C33 & BC3 & BB3 & S3).
  { reflexivity. }
  rewrite F1. cbn [rbind]. rewrite F2. cbn [rbind]. exists (set_trans s3 true), A2. split; [reflexivity|].
  destruct (ei_zero _ _ E1 L1) as (SL & FL).
  assert (KC3 : kcore (set_trans s3 true) = mkC (k_dic s1) (k_upd_at s1) 0 0 0).
  { unfold kcore. ksimpl. rewrite (kp_dic _ _ K), (kp_upd _ _ K), (kp_lm _ _ K), (kp_la _ _ K), (kp_slen _ _ K), (kp_flen _ _ K). ksimpl.
    rewrite L1, SL, FL. reflexivity. }
  assert (P3 : pend (set_trans s3 true) = []).
  { unfold pend. ksimpl. rewrite (kp_slen _ _ K). ksimpl. rewrite SL. reflexivity. }
  assert (C1 : CI n7 (mkC (k_dic s1) (k_upd_at s1) 0 0 0)).
  { pose proof (ei_ci _ _ E1) as C1. constructor; cbn [c_d c_u c_l c_a c_n]; try apply C1; auto. left; auto. }
  split; [|split; [|split; [|split]]].
  - split; [|split; [exact S3|split]].
    + constructor; ksimpl.
      * rewrite (kp_n7 _ _ K). apply E1.
      * rewrite KC3. exact C1.
      * destruct B3; constructor; auto.
      * rewrite (kp_str _ _ K). apply E1.
      * rewrite (kp_slen _ _ K). apply E1.
      * rewrite (kp_flen _ _ K). apply E1.
      * rewrite C23. apply E1.
      * rewrite C23, C33. apply E1.
      * rewrite (kp_esc _ _ K). apply E1.
      * rewrite P3. constructor.
      * exact BC3.
    + destruct R1_; constructor; ksimpl; auto; unfold A2; cbn [a_esc a_c2 a_core c_d].
      * rewrite (kp_esc _ _ K). exact r_esc.
      * rewrite C23. exact r_c2.
      * rewrite (kp_dic _ _ K). exact r_n2.
    + split; [|discriminate]. unfold A2. cbn [a_core]. rewrite CN. constructor; cbn [c_d c_u c_l c_a c_n]; try apply CA; auto. left; auto.
  - eapply keep_c_tran; [exact KC|]. unfold keep_c. ksimpl. rewrite (kp_p0 _ _ K), (kp_mode _ _ K), (kp_max _ _ K). auto.
  - rewrite <- GV. unfold given. rewrite P3, (pend_nil _ _ E1 L1). reflexivity.
  - unfold RH. ksimpl. rewrite P3. cbn [crun]. rewrite KC3. unfold A2. cbn [a_core]. rewrite CN, DD.
    destruct UU as [UE|(x & m & EN & U0 & ME & MN)]; [left; rewrite UE; reflexivity|right].
    exists x. split; [auto|]. split; [auto|]. split; [rewrite (kp_lm _ _ K); exact L1|]. apply cstep_same. rewrite U0.
    unfold cupdate. cbn [c_d c_u c_l c_a c_n]. cbn [Z.eqb]. destruct (Z.eqb_spec (c_u K1) 0) as [Z0|NZ]; [rewrite Z0; reflexivity|].
    rewrite ME. cbn [rbind]. destruct (Z.eqb_spec m 0); [congruence|reflexivity].
  - intros _. ksimpl. rewrite (kp_lm _ _ K). exact L1.
Qed.

Lemma monitor_sim n7 m0 s A nxt : INV n7 m0 s A -> (forall x, nxt = Some x -> byte x) -> RM n7 s A nxt ->
  exists s' A', monitor s = Ok s' /\ mode_rel n7 m0 s A nxt s' A'.
Proof.
  intros I BN H. unfold monitor.
  assert (ID : exists s' A', Ok s = Ok s' /\ mode_rel n7 m0 s A nxt s' A').
  { exists s, A. split; [reflexivity|]. split; [exact I|]. split; [apply keep_c_refl|]. split; [reflexivity|]. split; [|auto].
    eapply RM_RH; eauto. }
  destruct (k_trans s) eqn:TR.
  - pose proof (go_compressed_sim n7 m0 s A nxt I TR BN H) as G.
    destruct (_ =? _); [destruct (_ <? _); auto|]. destruct (_ =? _); [auto|]. destruct (_ =? _); auto.
  - pose proof (go_transparent_sim n7 m0 s A nxt I TR H) as G.
    destruct (_ =? _); [destruct (_ <? _); auto|]. destruct (_ =? _); [auto|]. destruct (_ =? _); auto.
Qed.

(** ---- plain facts about the steps ---- *)
Ltac inv_ok := repeat match goal with
  | H : UB = Ok _ |- _ => discriminate H
  | H : Ok _ = Ok _ |- _ => injection H; clear H; intros; subst
  | H : rbind ?m _ = Ok _ |- _ => let E := fresh "E" in destruct m eqn:E; cbn [rbind] in H; [|discriminate H]
  | H : (let '(_, _) := ?p in _) = Ok _ |- _ => destruct p
  | H : (if ?b then _ else _) = Ok _ |- _ => let E := fresh "E" in destruct b eqn:E
  end.
Lemma bytes_firstn n (l : list Z) : bytes l -> bytes (firstn n l).
Proof. unfold bytes. rewrite !Forall_forall. intros H x I. apply H. rewrite <- (firstn_skipn n l). apply in_or_app. auto. Qed.
Lemma bytes_skipn n (l : list Z) : bytes l -> bytes (skipn n l).
Proof. unfold bytes. rewrite !Forall_forall. intros H x I. apply H. rewrite <- (firstn_skipn n l). apply in_or_app. auto. Qed.
Lemma bytes_upd (l : list Z) : forall n x, bytes l -> byte x -> bytes (upd l n x).
Proof.
  unfold bytes. induction l as [|a l IH]; intros [|n] x B X; cbn [upd]; auto; apply Forall_cons_iff in B; destruct B; constructor; auto.
Qed.
Definition obytes (o : outbuf) : Prop := bytes (concat (o_log o)) /\ bytes (o_buf o).
Lemma obytes_stream o : obytes o -> bytes (ostream o).
Proof. intros (A & B). apply Forall_app. split; [auto|]. apply bytes_firstn; auto. Qed.
Lemma call_ob o n o' : call_handler o n = Ok o' -> obytes o -> obytes o'.
Proof.
  unfold call_handler. intros H (A & B). inv_ok. split; cbn [o_log o_buf]; [|auto].
  rewrite concat_app. apply Forall_app. split; [auto|]. cbn. rewrite app_nil_r. unfold aslice in E. inv_ok; [constructor|].
  apply bytes_firstn; auto.
Qed.
Lemma push_ob o x o' : push_octet o x = Ok o' -> obytes o -> obytes o'.
Proof.
  unfold push_octet. intros H (A & B). unfold aset in H.
  destruct (in_bounds (o_buf o) (o_cnt o)); [|discriminate]. cbn [rbind] in H.
  assert (obytes (mkOut (o_max o) (upd (o_buf o) (Z.to_nat (o_cnt o)) (u8 x)) (o_cnt o + 1) (o_log o))).
  { split; [exact A|]. cbn [o_buf]. apply bytes_upd; [exact B|apply u8_byte]. }
  inv_ok; [eapply call_ob; eauto|auto].
Qed.
Lemma bits_ob fuel : forall o bb bc o' bb' bc', push_bits_loop fuel o bb bc = Ok (o', bb', bc') -> obytes o -> obytes o'.
Proof.
  induction fuel as [|fuel IH]; intros o bb bc o' bb' bc' H O; cbn [push_bits_loop] in H; inv_ok; auto.
  eapply IH; eauto. eapply push_ob; eauto.
Qed.
Lemma trans_ob w : forall o esc o' esc', send_transparent o esc w = Ok (o', esc') -> obytes o -> obytes o'.
Proof.
  induction w as [|x w IH]; intros o esc o' esc' H O; cbn [send_transparent] in H; inv_ok; auto;
    (eapply IH; [eauto|]); repeat (eapply push_ob; [eassumption|]); auto.
Qed.
(** [s'] follows from [s] by taking [n] octets into the string in progress, or its match has ended. *)
Definition fr (n : Z) (s s' : comp) : Prop :=
  (k_flen s' = 0 \/ (k_flen s' = k_flen s /\ k_slen s' = k_slen s + n)) /\ (obytes (k_out s) -> obytes (k_out s')).
Lemma fr_refl s : fr 0 s s.
Proof. split; [right; lia|auto]. Qed.
Lemma fr_trans n m a b c : fr n a b -> fr m b c -> fr (n + m) a c.
Proof. unfold fr. intuition lia. Qed.
Lemma fr_eq n s s' : k_flen s' = k_flen s -> k_slen s' = k_slen s + n -> k_out s' = k_out s -> fr n s s'.
Proof. intros A B C. split; [right; auto|]. rewrite C. auto. Qed.
Lemma code_fr s c s' : push_compressed_code s c = Ok s' -> fr 0 s s' /\ k_upd_at s' = k_upd_at s.
Proof.
  unfold push_compressed_code. intros H. inv_ok. ksimpl. split; [|auto]. split; ksimpl; [right; lia|]. intros. eapply bits_ob; eauto.
Qed.
Lemma align_fr s s' : push_octet_alignment s = Ok s' -> fr 0 s s' /\ k_upd_at s' = k_upd_at s.
Proof.
  unfold push_octet_alignment. intros H. inv_ok; [|split; [apply fr_refl|auto]]. ksimpl. split; [|auto]. split; ksimpl; [right; lia|]. intros. eapply bits_ob; eauto.
Qed.
Lemma step_up_fr fuel : forall s c s', step_up fuel s c = Ok s' -> fr 0 s s' /\ k_upd_at s' = k_upd_at s.
Proof.
  induction fuel as [|fuel IH]; intros s c s' H; cbn [step_up] in H; inv_ok; try (split; [apply fr_refl|auto]).
  match goal with E : push_compressed_code _ _ = _ |- _ => destruct (code_fr _ _ _ E) as (F1 & U1) end.
  destruct (IH _ _ _ H) as (F2 & U2). ksimpl. split; [|congruence].
  change 0 with (0 + 0). eapply fr_trans; [exact F1|]. destruct F2 as (F2 & F3). split; [exact F2|exact F3].
Qed.
Lemma send_fr s c s' : send_encoded_data s c = Ok s' ->
  k_flen s' = 0 /\ (obytes (k_out s) -> obytes (k_out s')) /\ k_upd_at s' = k_upd_at s /\ (k_trans s = true -> k_trans s' = true /\ k_bc s' = k_bc s).
Proof.
  unfold send_encoded_data. intros H. cbv zeta in H.
  destruct (aslice _ _ _) as [w|]; [|discriminate]. cbn [rbind] in H. ksimpl.
  destruct (k_trans s) eqn:T.
  - inv_ok. ksimpl. split; [auto|]. split; [intros; eapply trans_ob; eauto|auto].
  - inv_ok. repeat match goal with
      | E : push_compressed_code _ _ = _ |- _ => destruct (code_fr _ _ _ E) as ((_ & ?) & ?); clear E
      | E : step_up _ _ _ = _ |- _ => destruct (step_up_fr _ _ _ _ E) as ((_ & ?) & ?); clear E
      end. ksimpl. split; [auto|]. split; [auto|]. split; [congruence|discriminate].
Qed.
Lemma send_fr' s c s' n : send_encoded_data s c = Ok s' -> fr n s (set_lm s' 0).
Proof. intros H. destruct (send_fr _ _ _ H) as (A & B & _). split; [left; exact A|exact B]. Qed.
Lemma update_fr s x s' : update_dictionary s x = Ok s' -> fr 0 s s'.
Proof. unfold update_dictionary. intros H. inv_ok; apply fr_eq; ksimpl; auto; lia. Qed.
Lemma match_fr buf : forall s s' rest, match_string s buf = Ok (s', rest) ->
  exists used, buf = used ++ rest /\ fr (Z.of_nat (length used)) s s' /\ (rest = [] -> k_upd_at s' = k_upd_at s).
Proof.
  induction buf as [|x buf IH]; intros s s' rest H.
  - cbn in H. inv_ok. exists []. split; [reflexivity|]. split; [apply fr_refl|auto].
  - cbn [match_string] in H. cbv zeta in H. inv_ok.
    + match goal with E : send_encoded_data _ _ = _ |- _ => destruct (send_fr _ _ _ E) as (A & B & C & _); ksimpl end.
      exists []. split; [reflexivity|]. split; [split; [left; exact A|exact B]|discriminate].
    + match goal with E : send_encoded_data _ _ = _ |- _ => destruct (send_fr _ _ _ E) as (A & B & C & _); ksimpl end.
      exists []. split; [reflexivity|]. split; [split; [left; exact A|exact B]|discriminate].
    + match goal with E : send_encoded_data _ _ = _ |- _ => destruct (send_fr _ _ _ E) as (A & B & C & _); ksimpl end.
      exists [x]. split; [reflexivity|]. split; [split; [left; exact A|exact B]|]. intros _. exact C.
    + destruct (IH _ _ _ H) as (used & EU & (F1 & F2) & U). ksimpl. exists (x :: used). split; [cbn [app]; congruence|].
      split; [|exact U]. split; [|exact F2]. cbn [length]. lia.
Qed.
Lemma compressed_fr s s' : go_compressed s = Ok s' -> fr 0 s s' /\ (k_trans s = true -> k_bc s' = k_bc s) /\ (k_trans s = false -> s' = s).
Proof.
  unfold go_compressed. intros H. cbv zeta in H. destruct (k_trans s) eqn:T; cbn [negb] in H.
  2:{ inv_ok. split; [apply fr_refl|]. split; [discriminate|auto]. }
  inv_ok; ksimpl; repeat match goal with
    | E : push_octet _ _ = Ok _ |- _ => pose proof (push_ob _ _ _ E); clear E
    | E : send_encoded_data _ _ = Ok _ |- _ => destruct (send_fr _ _ _ E) as (A & B & C & D); clear E
    end; ksimpl; (split; [|split; [intros _; try (apply D; auto); reflexivity|discriminate]]); split; ksimpl; auto; [right; lia].
Qed.
Lemma transparent_fr s s' : go_transparent s = Ok s' -> fr 0 s s' /\ k_trans s' = true.
Proof.
  unfold go_transparent. intros H. cbv zeta in H. destruct (k_trans s) eqn:T.
  { inv_ok. split; [apply fr_refl|auto]. }
  inv_ok; ksimpl; repeat match goal with
    | E : push_compressed_code _ _ = Ok _ |- _ => destruct (code_fr _ _ _ E) as ((? & ?) & ?); clear E
    | E : push_octet_alignment _ = Ok _ |- _ => destruct (align_fr _ _ E) as ((? & ?) & ?); clear E
    | E : send_encoded_data _ _ = Ok _ |- _ => destruct (send_fr _ _ _ E) as (A & B & C & D); clear E
    end; ksimpl; (split; [|reflexivity]); split; ksimpl; auto; lia.
Qed.
Lemma monitor_fr s s' : monitor s = Ok s' -> fr 0 s s' /\ (s' = s \/ k_trans s' = true \/ (k_trans s = true /\ k_bc s' = k_bc s)).
Proof.
  unfold monitor. intros H.
  repeat match type of H with (if ?b then _ else _) = _ => let E := fresh "Q" in destruct b eqn:E end;
    try (injection H as <-; split; [apply fr_refl|auto]);
    try (destruct (transparent_fr _ _ H) as (A & B); split; [auto|auto]);
    try (destruct (compressed_fr _ _ H) as (A & B & _); split; [auto|right; right; auto]).
Qed.
Definition UBI (s : comp) : Prop := k_upd_at s <> 0 -> k_bc s = 0.

(** ---- the main loop ---- *)
Lemma RH_mono n7 s A nxt : RH n7 s A None -> RH n7 s A nxt.
Proof.
  unfold RH, RC. destruct (k_trans s).
  - intros [H|(x & E & _)]; [left; auto|discriminate].
  - intros (H1 & H2). split; [|auto]. intros L. destruct (H1 L) as (D & [U|(x & m & E & _)]); [auto|discriminate].
Qed.
Lemma loop_sim n7 m0 : forall fuel buf s A, INV n7 m0 s A -> RH n7 s A (hd_error buf) -> bytes buf ->
  (2 * length buf <= fuel + (if (k_lm s =? 0)%Z then 1 else 0))%nat ->
  exists s' A', compress_loop fuel s buf = Ok s' /\ INV n7 m0 s' A' /\ keep_c s s' /\ RH n7 s' A' None /\ given s' A' = given s A ++ buf /\
    ((buf = [] -> UBI s) -> UBI s') /\ fr (Z.of_nat (length buf)) s s'.
Proof.
  induction fuel as [|fuel IH]; intros buf s A I H B F.
  - destruct buf as [|x buf]; [|cbn [length] in F; destruct (k_lm s =? 0); lia].
    exists s, A. split; [reflexivity|]. split; [auto|]. split; [apply keep_c_refl|]. rewrite app_nil_r. pose proof (fr_refl s). auto 6.
  - destruct buf as [|x buf].
    { exists s, A. split; [reflexivity|]. split; [auto|]. split; [apply keep_c_refl|]. rewrite app_nil_r. pose proof (fr_refl s). auto 6. }
    cbn [compress_loop]. pose proof (Forall_inv B) as BX. cbn [hd_error] in H.
    destruct (update_sim n7 m0 s A x I BX H) as (s1 & EU1 & I1 & K1 & U1 & L1 & P1 & R1_). rewrite EU1. cbn [rbind].
    destruct (match_sim n7 m0 (x :: buf) s1 A I1 U1 B R1_) as (s2 & rest & A2 & used & E2 & I2 & K2 & EU & G2 & RM2 & LR & US).
    rewrite E2. cbn [rbind].
    assert (BR : bytes rest) by (rewrite EU in B; apply Forall_app in B; apply B).
    destruct (monitor_sim n7 m0 s2 A2 (hd_error rest) I2) as (s3 & A3 & EM3 & I3 & K3 & G3 & RH3 & L3).
    { intros y EY. destruct rest; [discriminate|]. injection EY as <-. apply (Forall_inv BR). }
    { exact RM2. }
    rewrite EM3. cbn [rbind]. destruct (IH rest s3 A3 I3 RH3 BR) as (s' & A' & E' & I' & K' & RH' & G' & UB' & F').
    { destruct rest as [|y rest]; [cbn; lia|]. specialize (L3 (LR ltac:(discriminate))). rewrite L3. cbn [Z.eqb].
      assert (LE : length (x :: buf) = (length used + length (y :: rest))%nat) by (rewrite EU, app_length; reflexivity).
      destruct used as [|u used].
      - specialize (US eq_refl ltac:(discriminate)). rewrite L1 in US. destruct (Z.eqb_spec (k_lm s) 0); [congruence|]. cbn [length] in *. lia.
      - cbn [length] in *. destruct (k_lm s =? 0); lia. }
    exists s', A'. split; [exact E'|]. split; [auto|]. split; [eapply keep_c_tran; [|exact K']; eapply keep_c_tran; [|exact K3]; eapply keep_c_tran; eauto|].
    split; [auto|]. destruct (match_fr _ _ _ _ E2) as (used2 & EU2 & F2 & MU). assert (used2 = used) as -> by (eapply app_inv_tail; rewrite <- EU2; exact EU).
    pose proof (update_fr _ _ _ EU1) as F1. destruct (monitor_fr _ _ EM3) as (F3 & M3).
    split; [rewrite G', G3, G2, <- app_assoc, <- EU; unfold given; rewrite P1; reflexivity|]. split.
    + intros _. apply UB'. intros ER UN. destruct M3 as [->|[T|(T & B3)]].
      * exfalso. apply UN. rewrite (MU ER). exact U1.
      * destruct I3 as (E3 & _). pose proof (ei_mode _ _ E3) as Q. rewrite T in Q. exact Q.
      * destruct I2 as (E2_ & _). pose proof (ei_mode _ _ E2_) as Q. rewrite T in Q. congruence.
    + rewrite EU, app_length, Nat2Z.inj_add. eapply fr_trans; [|exact F'].
      replace (Z.of_nat (length used)) with (0 + Z.of_nat (length used) + 0) by lia. eapply fr_trans; [|exact F3]. eapply fr_trans; eauto.
Qed.

Lemma compress_sim n7 m0 s A buf : k_p0 s <> 0 -> INV n7 m0 s A -> RH n7 s A None -> bytes buf ->
  exists s' A', v42bis_compress s buf = Ok s' /\ INV n7 m0 s' A' /\ keep_c s s' /\ RH n7 s' A' None /\ given s' A' = given s A ++ buf /\
    (UBI s -> UBI s') /\ fr (Z.of_nat (length buf)) s s'.
Proof.
  intros P I H B. unfold v42bis_compress. destruct (Z.eqb_spec (k_p0 s) 0); [congruence|].
  destruct (loop_sim n7 m0 (2 * length buf) buf s A I (RH_mono _ _ _ _ H) B ltac:(lia)) as (s' & A' & E & I' & K & R' & G & U & F).
  exists s', A'. auto 10.
Qed.

(** The flush. *)
Lemma flush_ob o o' : flush_octets o = Ok o' -> obytes o -> obytes o'.
Proof. unfold flush_octets. intros H O. inv_ok; auto. eapply call_ob; eauto. Qed.
Lemma pre_ob s s0 s1 :
  (if negb (k_lm s =? 0) then do s1 <- send_encoded_data s (k_lm s); Ok (set_flen s1 (k_flen s1 + k_slen s)) else Ok s) = Ok s0 ->
  (if negb (k_trans s0) then do s2 <- push_compressed_code (set_flen (set_lm (set_upd_at s0 (k_lm s0)) 0) 0) FLUSH; push_octet_alignment s2 else Ok s0) = Ok s1 ->
  obytes (k_out s) -> obytes (k_out s1).
Proof.
  intros H1 H2 O. assert (O0 : obytes (k_out s0)).
  { clear H2. inv_ok; auto. match goal with E : send_encoded_data _ _ = Ok _ |- _ => destruct (send_fr _ _ _ E) as (A & B & C & D); clear E end. ksimpl. auto. }
  clear H1. inv_ok; auto. repeat match goal with
    | E : push_compressed_code _ _ = Ok _ |- _ => destruct (code_fr _ _ _ E) as ((? & ?) & ?); clear E
    | E : push_octet_alignment _ = Ok _ |- _ => destruct (align_fr _ _ E) as ((? & ?) & ?); clear E
    end; ksimpl; auto.
Qed.
Lemma flush_sim n7 m0 s A : INV n7 m0 s A -> RH n7 s A None -> (k_trans s = true -> k_lm s <> 0 -> k_flen s = 0) ->
  exists s' A', v42bis_compress_flush s = Ok s' /\ INV n7 m0 s' A' /\ keep_c s s' /\ RH n7 s' A' None /\ given s' A' = given s A /\
    (UBI s -> pend s' = [] /\ k_bc s' = 0) /\ (k_upd_at s = 0 -> concat (o_log (k_out s')) = ostream (k_out s')) /\
    (obytes (k_out s) -> obytes (k_out s')).
Proof.
  intros I H FC. pose proof I as (E & S & R & AA). unfold v42bis_compress_flush.
  destruct (Z.eqb_spec (k_upd_at s) 0) as [U|U]; cbn [negb].
  2:{ exists s, A. split; [reflexivity|]. split; [auto|]. split; [apply keep_c_refl|]. split; [auto|]. split; [auto|]. split; [|split; [congruence|auto]].
      intros UI. split; [|exact (UI U)]. apply (pend_nil n7); [exact E|]. destruct (ci_ul _ _ (ei_ci _ _ E)) as [Q|Q]; [exfalso; apply U; exact Q|exact Q]. }
  pose proof (ei_ci _ _ E) as C. pose proof (ei_total _ _ E) as (TOT & N7). pose proof (pend_len _ _ E) as PL.
  pose proof (pend_slice _ _ E) as PS. pose proof (ei_pend _ _ E) as BP. pose proof (ei_mode _ _ E) as EM.
  assert (PRE : exists s1 A1,
     (do s <- (if negb (k_lm s =? 0) then
               let len := k_slen s in
               do s <- send_encoded_data s (k_lm s);
               Ok (set_flen s (k_flen s + len))
             else Ok s);
      if negb (k_trans s) then
               let s := set_flen (set_lm (set_upd_at s (k_lm s)) 0) 0 in
               do s <- push_compressed_code s FLUSH;
               push_octet_alignment s
             else Ok s) = Ok s1 /\ INV n7 m0 s1 A1 /\ keep_c s s1 /\ RH n7 s1 A1 None /\ given s1 A1 = given s A /\ pend s1 = [] /\ k_bc s1 = 0).
  { unfold RH in H. destruct (k_trans s) eqn:TR.
    - destruct H as [H|(x & EN & _)]; [|discriminate].
      destruct (Z.eqb_spec (k_lm s) 0) as [L|L]; cbn [negb].
      + cbn [rbind]. rewrite TR. cbn [negb]. exists s, A. split; [reflexivity|]. split; [exact I|]. split; [apply keep_c_refl|].
        unfold RH. rewrite TR. split; [left; auto|]. split; [auto|]. split; [eapply pend_nil; eauto|]. exact EM.
      + specialize (FC eq_refl L).
        destruct (send_trans_sim n7 m0 s A (k_lm s) (pend s) (kcore s)) as (s1 & E1 & SE & S1 & RO1); auto; try apply E.
        rewrite E1. cbn [rbind]. cbv zeta in *. set (A1 := mkA (kcore s) _ _ _ _ _) in *.
        change (k_trans (set_flen s1 _)) with (k_trans s1). rewrite (se_trans _ _ SE), TR. cbn [negb].
        set (s2 := set_flen s1 (k_flen s1 + k_slen s)).
        assert (KE : kcore s2 = kcore s).
        { unfold kcore, s2. ksimpl. rewrite (se_dic _ _ SE), (se_upd _ _ SE), (se_lm _ _ SE), (se_la _ _ SE), (se_slen _ _ SE), (se_flen _ _ SE), FC.
          f_equal. lia. }
        assert (PE : pend s2 = []) by (unfold pend, s2; ksimpl; rewrite (se_slen _ _ SE); reflexivity).
        exists s2, A1. split; [reflexivity|]. split.
        { split; [|split; [exact S1|split; [destruct RO1; constructor; auto|split; [exact C|discriminate]]]].
          constructor.
          - unfold s2. ksimpl. rewrite (se_n7 _ _ SE). apply E.
          - rewrite KE. exact C.
          - destruct (se_eb _ _ SE). constructor; auto.
          - unfold s2. ksimpl. rewrite (se_str _ _ SE). apply E.
          - unfold s2. ksimpl. rewrite (se_slen _ _ SE). lia.
          - unfold s2. ksimpl. rewrite (se_flen _ _ SE). pose proof (ei_slen _ _ E). lia.
          - apply SE.
          - apply SE.
          - apply SE.
          - rewrite PE. constructor.
          - unfold s2. ksimpl. rewrite (se_trans _ _ SE), TR, (se_bc _ _ SE TR). exact EM. }
        split; [unfold keep_c, s2; ksimpl; rewrite (se_p0 _ _ SE), (se_mode _ _ SE), (se_max _ _ SE); auto|].
        split; [|split; [|split; [exact PE|]]].
        * unfold RH, s2. ksimpl. rewrite (se_trans _ _ SE), TR. fold s2. left. rewrite PE, KE. reflexivity.
        * unfold given. rewrite PE, app_nil_r. reflexivity.
        * unfold s2. ksimpl. rewrite (se_bc _ _ SE TR). exact EM.
    - destruct H as (H0 & H1).
      assert (MID : exists s1 A1,
         (if negb (k_lm s =? 0) then
               let len := k_slen s in
               do s <- send_encoded_data s (k_lm s);
               Ok (set_flen s (k_flen s + len))
             else Ok s) = Ok s1 /\ k_trans s1 = false /\ keep_c s s1 /\
         let s2 := set_flen (set_lm (set_upd_at s1 (k_lm s1)) 0) 0 in
         INV n7 m0 s2 A1 /\ given s2 A1 = given s A /\ pend s2 = [] /\ RC s2 A1 None).
      { destruct (Z.eqb_spec (k_lm s) 0) as [L|L]; cbn [negb].
        - exists s, A. split; [reflexivity|]. split; [auto|]. split; [apply keep_c_refl|]. cbv zeta.
          assert (ES : set_flen (set_lm (set_upd_at s (k_lm s)) 0) 0 = s).
          { rewrite L. clear - L U EM. destruct s; cbn in *. unfold set_flen, set_lm, set_upd_at. cbn. congruence. }
          rewrite ES. split; [exact I|]. split; [auto|]. split; [eapply pend_nil; eauto|auto].
        - destruct (H1 L) as (x0 & HM).
          destruct (ci_l _ _ C) as [(L0 & _)|(LR & LC & LT & w & W & WL)]; [exfalso; apply L; exact L0|].
          assert (EX : ext_ok n7 (k_dic s) (k_lm s)).
          { right. split; [exact LR|]. split; [exact LC|]. exists w. split; [exact W|]. unfold kcore in *. ksimpl. lia. }
          destruct (emit_code n7 m0 s s A x0) as (s1 & A1 & E1 & E' & S' & R' & A1_ & KC & T1 & KE & PE & AC & AU & AO & LM);
            auto; try reflexivity; try (apply E).
          { apply HM. }
          { apply HM. exact L. }
          { constructor; cbn [c_d c_u c_l c_a c_n]; try apply C; auto. left; auto. }
          rewrite E1. cbn [rbind]. cbv zeta. eexists _, A1. split; [reflexivity|]. split; [exact T1|]. split; [exact KC|].
          change (set_flen (set_lm (set_upd_at (set_flen s1 (k_flen s1 + k_slen s)) (k_lm (set_flen s1 (k_flen s1 + k_slen s)))) 0) 0)
            with (set_flen (set_lm (set_upd_at s1 (k_lm s1)) 0) 0).
          rewrite LM. set (s2 := set_flen _ _). unfold kcore in KE. injection KE as KD KU KA KN. ksimpl.
          pose proof (ei_slen _ _ E') as SL'. pose proof (ei_flen _ _ E') as FL'. ksimpl.
          assert (KE2 : kcore s2 = mkC (k_dic s) (k_lm s) 0 (k_la s) 0).
          { unfold kcore, s2. ksimpl. f_equal; auto. lia. }
          assert (P2 : pend s2 = []) by exact PE.
          split; [|split; [|split; [exact P2|]]].
          + split; [|split; [exact S'|split; [destruct R'; constructor; auto|exact A1_]]].
            constructor; try apply E'; [|destruct (ei_eb _ _ E'); constructor; auto|unfold s2; ksimpl; lia|unfold s2; ksimpl; rewrite T1; auto].
            rewrite KE2. constructor; cbn [c_d c_u c_l c_a c_n]; try apply C; auto. left; auto.
          + unfold given. rewrite P2, AO, app_nil_r. reflexivity.
          + unfold RC, s2. ksimpl. rewrite AC, AU, KD. destruct (Z.eqb_spec (Z.of_nat (length (pend s))) n7); [lia|]. auto. }
      destruct MID as (s1 & A1 & -> & T1 & KC & I2 & G2 & P2 & RC2). cbn [rbind]. rewrite T1. cbn [negb]. cbv zeta in *.
      set (s2 := set_flen _ _) in *.
      assert (T2 : k_trans s2 = false) by exact T1.
      destruct (ctl_sim n7 m0 s2 A1 FLUSH A1 I2 T2 (or_intror eq_refl) eq_refl) as (s3 & s4 & F1 & F2 & K & B4 & C24 & C34 & BC4 & BB4 & S4).
      rewrite F1. cbn [rbind]. rewrite F2. exists s4, A1. split; [reflexivity|]. destruct I2 as (E2 & S2 & R2_ & AA2).
      assert (L2 : k_lm s2 = 0) by reflexivity.
      assert (KE : kcore s4 = kcore s2).
      { unfold kcore. rewrite (kp_dic _ _ K), (kp_upd _ _ K), (kp_lm _ _ K), (kp_la _ _ K), (kp_slen _ _ K), (kp_flen _ _ K). reflexivity. }
      assert (P4 : pend s4 = []) by (unfold pend in *; rewrite (kp_slen _ _ K), (kp_str _ _ K); exact P2).
      split; [|split; [|split; [|split; [|split; [exact P4|exact BC4]]]]].
      + split; [|split; [exact S4|split; [|exact AA2]]].
        * constructor.
          -- rewrite (kp_n7 _ _ K). apply E2.
          -- rewrite KE. apply E2.
          -- exact B4.
          -- rewrite (kp_str _ _ K). apply E2.
          -- rewrite (kp_slen _ _ K). apply E2.
          -- rewrite (kp_flen _ _ K). apply E2.
          -- rewrite C24. apply E2.
          -- rewrite C24, C34. apply E2.
          -- rewrite (kp_esc _ _ K). apply E2.
          -- rewrite P4. constructor.
          -- rewrite (kp_trans _ _ K), T2, (kp_flen _ _ K). reflexivity.
        * destruct R2_; constructor.
          -- rewrite (kp_esc _ _ K). auto.
          -- rewrite C24. auto.
          -- rewrite (kp_trans _ _ K). auto.
          -- auto.
          -- rewrite (kp_dic _ _ K). auto.
      + eapply keep_c_tran; [exact KC|]. unfold keep_c. rewrite (kp_p0 _ _ K), (kp_mode _ _ K), (kp_max _ _ K). unfold s2. ksimpl. auto.
      + unfold RH. rewrite (kp_trans _ _ K), T2, (kp_lm _ _ K), L2. split; [|congruence]. intros _. unfold RC in *.
        rewrite (kp_dic _ _ K), (kp_upd _ _ K). auto.
      + rewrite <- G2. unfold given. rewrite P4, P2. reflexivity. }
  destruct PRE as (s1 & A1 & E1 & (E1_ & S1 & R1_ & AA1) & KC & RH1 & G1 & P1 & BC1).
  cbv zeta in E1 |- *. 
  destruct (if negb (k_lm s =? 0) then _ else _) as [s0|] eqn:ES0; cbn [rbind] in *; [|discriminate]. rewrite E1. cbn [rbind].
  destruct (flush_octets_ok (k_out s1) (eb_out _ (ei_eb _ _ E1_))) as (o' & EF & BO & MO & SO & LO). rewrite EF. cbn [rbind].
  exists (set_out s1 o'), A1. split; [reflexivity|]. split.
  { split; [|split; [|split; [destruct R1_; constructor; auto|exact AA1]]].
    - constructor; try apply E1_. destruct (ei_eb _ _ E1_); constructor; auto.
    - unfold SIM, sbits in *. ksimpl. rewrite SO. exact S1. }
  split; [unfold keep_c in *; ksimpl; intuition; congruence|]. split; [revert RH1; unfold RH; ksimpl; destruct (k_trans s1); auto; intros (Q1 & Q2); split; [exact Q1|]; intros Q3; destruct (Q2 Q3) as (x0 & QM); exists x0; destruct QM; constructor; auto|].
  split; [exact G1|]. split; [intros _; split; [exact P1|exact BC1]|]. ksimpl. split; [congruence|]. intros OB_. eapply flush_ob; [exact EF|]. eapply pre_ob; [exact ES0|exact E1|exact OB_].
Qed.
