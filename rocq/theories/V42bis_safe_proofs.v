(** V.42bis: the decompressor on hostile input. *)
From Verif Require Import Base Bits V42bis_model V42bis_spec V42bis_dict_proofs V42bis_core_proofs V42bis_out_proofs V42bis_dec_proofs V42bis_bits_proofs V42bis_enc_proofs V42bis_loop_proofs V42bis_sess_proofs.
From Coq Require Import ZifyBool ZifyNat.
Ltac Zify.zify_post_hook ::= Z.div_mod_to_equations.

Lemma loop_ok2 n7 : forall buf fuel s, DI n7 s -> k_c2 s <= 12 -> bytes buf -> (length buf <= fuel)%nat ->
  (exists s' r, decompress_loop fuel s buf = Ok (s', r) /\
     (r = 0 -> DI n7 s' /\ k_c2 s' <= 12 /\ keeps_o s s' /\ dfr (Z.of_nat (length buf)) s s')) \/
  (exists pre post s1, buf = pre ++ post /\ (forall f, (length pre <= f)%nat -> decompress_loop f s pre = Ok (s1, 0)) /\ 12 < k_c2 s1).
Proof.
  induction buf as [|x rest IH]; intros fuel s D C2 B F.
  - left. exists s, 0. destruct fuel; (split; [reflexivity|]; intros _; unfold keeps_o, dfr; cbn; split; [auto|split; [auto|split; [auto|right; lia]]]).
  - apply Forall_cons_iff in B. destruct B as (BX & BR). destruct fuel as [|fuel]; [cbn in F; lia|]. cbn in F.
    destruct (step_ok n7 s x D C2 BX) as (s1 & go & E & G).
    destruct go; [|left].
    + destruct (G eq_refl) as (D1 & P1 & M1 & N71). pose proof (step_fr n7 s x s1 D E) as FR. destruct (Z_le_gt_dec (k_c2 s1) 12) as [L|L].
      * destruct (loop_cons n7 rest fuel s x D (fun _ => C2) BX ltac:(lia) s1 true E (fun _ => D1)) as (f & LF & EL).
        destruct (IH f s1 D1 L BR LF) as [(s' & r & E1 & H)|(pre & post & s2 & EB & E1 & H)].
        -- left. exists s', r. split; [congruence|].
           intros HR. destruct (H HR) as (A1 & A2 & (A3 & A4 & A5) & A6). split; [auto|]. split; [auto|].
           split; [unfold keeps_o; split; [|split]; congruence|].
           cbn [length]. replace (Z.of_nat (S (length rest))) with (1 + Z.of_nat (length rest)) by lia. eapply dfr_trans; eauto.
        -- right. exists (x :: pre), post, s2. subst rest. split; [reflexivity|]. split; [|exact H].
           intros f' F'. cbn [length] in F'. destruct f' as [|f']; [lia|].
           destruct (loop_cons n7 pre f' s x D (fun _ => C2) BX ltac:(lia) s1 true E (fun _ => D1)) as (f2 & LF2 & EL2). rewrite EL2. auto.
      * right. exists [x], rest, s1. split; [reflexivity|]. split; [|lia].
        intros f F'. destruct f as [|f]; [cbn in F'; lia|].
        destruct (loop_cons n7 [] f s x D (fun _ => C2) BX ltac:(cbn; lia) s1 true E (fun _ => D1)) as (f2 & _ & EL). rewrite EL. destruct f2; reflexivity.
    + destruct (loop_cons n7 rest fuel s x D (fun _ => C2) BX ltac:(lia) s1 false E ltac:(discriminate)) as (f & LF & EL).
      exists s1, (-1). split; [exact EL|]. discriminate.
Qed.
Lemma deliver_di n7 s : DI n7 s -> k_flen s = 0 -> exists s', v42bis_decompress_flush s = Ok s' /\ DI n7 s' /\ k_p0 s' = k_p0 s /\
  o_max (k_out s') = o_max (k_out s) /\ k_c2 s' = k_c2 s /\ 0 <= k_slen s'.
Proof.
  intros D F. pose proof (di_zlen _ _ D). pose proof (di_total _ _ D). pose proof (di_slen _ _ D). pose proof (ci_n7 _ _ (di_ci _ _ D)).
  unfold v42bis_decompress_flush. destruct (send_string_ok s (di_out _ _ D) ltac:(lia)) as (o & -> & B & M & S). cbn [rbind]. ksimpl.
  destruct (flush_octets_ok o B) as (o' & -> & B' & M' & S' & L). cbn [rbind].
  set (s' := set_out _ o'). exists s'. split; [reflexivity|].
  assert (KE : kcore s' = kcore s) by (unfold kcore, s'; ksimpl; f_equal; lia).
  split; [|unfold s'; ksimpl; split; [auto|]; split; [congruence|]; split; [auto|lia]].
  constructor; unfold s'; ksimpl; try apply D; auto; try lia. fold s'. rewrite KE. apply D.
Qed.
Lemma hostile_sess n7 : forall ops s g, k_p0 s <> 0 -> DI n7 s -> k_c2 s <= 12 -> DGAP g s -> dspaced (2 * n7) g ops -> bytes (fed ops) ->
  (exists s' r, decompressor s ops = Ok (s', r) /\ (r = 0 -> DI n7 s' /\ o_max (k_out s') = o_max (k_out s))) \/
  (exists ops1 pre post ops2 s1, ops = ops1 ++ Feed (pre ++ post) :: ops2 /\ decompressor s (ops1 ++ [Feed pre]) = Ok (s1, 0) /\ 12 < k_c2 s1).
Proof.
  induction ops as [|[d|] ops IH]; intros s g P D C2 G SP B; cbn [fed dspaced decompressor] in *.
  - left. exists s, 0. auto.
  - apply Forall_app in B. destruct B as (BD & BT).
    assert (EV : forall x, v42bis_decompress s x = decompress_loop (length x) s x)
      by (intros x; unfold v42bis_decompress; destruct (Z.eqb_spec (k_p0 s) 0); [congruence|reflexivity]).
    destruct (loop_ok2 n7 d (length d) s D C2 BD ltac:(lia)) as [(s1 & r & E1 & H)|(pre & post & s1 & -> & E & L)].
    + rewrite EV, E1. cbn [rbind]. destruct (Z.eqb_spec r 0) as [->|R]; [|left; exists s1, r; split; [auto|congruence]].
      destruct (H eq_refl) as (D1 & C1 & (K1 & K2 & K3) & F).
      destruct (IH s1 (g + Z.of_nat (length d))) as [(s' & r & E' & H')|(ops1 & pre & post & ops2 & s2 & -> & E' & L)]; auto; try congruence.
      { unfold DGAP, dfr in *. lia. }
      * left. exists s', r. split; [auto|]. intros R. destruct (H' R). split; [auto|congruence].
      * right. exists (Feed d :: ops1), pre, post, ops2, s2. split; [reflexivity|]. split; [|auto]. cbn [app decompressor].
        rewrite EV, E1. exact E'.
    + right. exists [], pre, post, ops, s1. split; [reflexivity|]. split; [|exact L]. cbn [app decompressor].
      rewrite EV, E by lia. reflexivity.
  - destruct SP as (SG & SP). pose proof (di_total _ _ D). pose proof (di_flen _ _ D).
    assert (F : k_flen s = 0) by (unfold DGAP, esc1 in G; destruct (k_escd s); lia).
    destruct (deliver_di n7 s D F) as (s1 & E1 & D1 & K1 & K2 & K3 & L). rewrite E1. cbn [rbind].
    destruct (IH s1 0) as [(s' & r & E' & H')|(ops1 & pre & post & ops2 & s2 & -> & E' & L2)]; auto; try congruence; try lia.
    { right. unfold esc1. destruct (k_escd s1); lia. }
    + left. exists s', r. split; [auto|]. intros R. destruct (H' R). split; [auto|congruence].
    + right. exists (Deliver :: ops1), pre, post, ops2, s2. split; [reflexivity|]. split; [|auto]. cbn [app decompressor]. rewrite E1. exact E'.
Qed.

Lemma decompress_safe : forall p0 n2 n7 me md e dec ops, v42bis_init p0 n2 n7 me md = Some (e, dec) -> n2 <= 4096 -> 1 <= md ->
  bytes (fed ops) -> dspaced (2 * n7) (2 * n7) ops ->
  (exists dec' r, decompressor dec ops = Ok (dec', r)) \/
  (exists ops1 pre post ops2 s1, ops = ops1 ++ Feed (pre ++ post) :: ops2 /\ decompressor dec (ops1 ++ [Feed pre]) = Ok (s1, 0) /\ 12 < k_c2 s1).
Proof.
  intros p0 n2 n7 me md e dec ops I N M B S. destruct (init_some _ _ _ _ _ _ _ I) as (R1 & R2 & _ & ->).
  destruct (Z.eq_dec (Z.land p0 1) 0) as [P|P].
  - left. destruct (plain_decompress ops (comp_init (Z.land p0 1) n2 n7 md)) as (s' & E & _); eauto.
    apply init_ob. auto.
  - destruct (hostile_sess n7 ops (comp_init (Z.land p0 1) n2 n7 md) (2 * n7) P) as [(s' & r & E & _)|H]; eauto.
    + apply (init_cb (Z.land p0 1) n2 n7 md ltac:(lia) R2 M).
    + cbn. lia.
    + left. reflexivity.
Qed.
Lemma decompress_messages : forall p0 n2 n7 me md e dec ops dec', v42bis_init p0 n2 n7 me md = Some (e, dec) -> Z.land p0 1 <> 0 -> n2 <= 4096 -> 1 <= md ->
  bytes (fed ops) -> dspaced (2 * n7) (2 * n7) ops ->
  (forall ops1 pre post ops2 s1, ops = ops1 ++ Feed (pre ++ post) :: ops2 -> decompressor dec (ops1 ++ [Feed pre]) = Ok (s1, 0) -> k_c2 s1 <= 12) ->
  decompressor dec ops = Ok (dec', 0) -> Forall (fun m => 1 <= Z.of_nat (length m) <= Z.min md 1024) (o_log (k_out dec')).
Proof.
  intros p0 n2 n7 me md e dec ops dec' I P N M B S Q ED. destruct (init_some _ _ _ _ _ _ _ I) as (R1 & R2 & _ & ->).
  destruct (hostile_sess n7 ops (comp_init (Z.land p0 1) n2 n7 md) (2 * n7) P) as [(s' & r & E & H)|(ops1 & pre & post & ops2 & s1 & EO & E1 & L)]; eauto.
  + apply (init_cb (Z.land p0 1) n2 n7 md ltac:(lia) R2 M).
  + cbn. lia.
  + left. reflexivity.
  + rewrite ED in E. injection E as <- <-. destruct (H eq_refl) as (D & MX). cbn [comp_init dictionary_init k_out o_max] in MX.
    pose proof (ob_log _ (di_out _ _ D)) as L. eapply Forall_impl; [|exact L]. cbn beta. intros m Hm. rewrite MX in Hm. unfold MAX_OUTPUT in *. destruct (Z.ltb_spec md 1024); lia.
  + specialize (Q _ _ _ _ _ EO E1). lia.
Qed.

Lemma plain_session : forall p0 q0 n2 n7 me md me' md' enc ed de dec ops,
  v42bis_init p0 n2 n7 me md = Some (enc, ed) -> v42bis_init q0 n2 n7 me' md' = Some (de, dec) ->
  Z.land p0 2 = 0 -> Z.land q0 1 = 0 -> 1 <= me -> 1 <= md' ->
  exists enc', compressor enc ops = Ok enc' /\ handed enc' ++ held enc' = accepted ops /\ (forall ops1, ops = ops1 ++ [Flush] -> held enc' = []) /\
    forall dops, exists dec', decompressor dec dops = Ok (dec', 0) /\ handed dec' ++ held dec' = fed dops /\
      (forall dops1, dops = dops1 ++ [Deliver] -> held dec' = []).
Proof.
  intros p0 q0 n2 n7 me md me' md' enc ed de dec ops IE ID PE PD ME MD.
  destruct (init_some _ _ _ _ _ _ _ IE) as (_ & _ & -> & _). destruct (init_some _ _ _ _ _ _ _ ID) as (_ & _ & _ & ->).
  destruct (plain_compress ops (comp_init (Z.land p0 2) n2 n7 me)) as (s & E & Q & _ & F); auto; [apply init_ob; auto|].
  exists s. split; [auto|]. split; [rewrite Q; reflexivity|]. split; [auto|]. intros dops.
  destruct (plain_decompress dops (comp_init (Z.land q0 1) n2 n7 md')) as (d & E2 & Q2 & F2); auto; [apply init_ob; auto|].
  exists d. split; [auto|]. split; [rewrite Q2; reflexivity|auto].
Qed.

Lemma decompress_safe12 : forall p0 n2 n7 me md e dec ops, v42bis_init p0 n2 n7 me md = Some (e, dec) -> n2 <= 4096 -> 1 <= md ->
  bytes (fed ops) -> dspaced (2 * n7) (2 * n7) ops ->
  (forall ops1 pre post ops2 s1, ops = ops1 ++ Feed (pre ++ post) :: ops2 -> decompressor dec (ops1 ++ [Feed pre]) = Ok (s1, 0) -> k_c2 s1 <= 12) ->
  exists dec' r, decompressor dec ops = Ok (dec', r).
Proof.
  intros p0 n2 n7 me md e dec ops I N M B S Q.
  destruct (decompress_safe p0 n2 n7 me md e dec ops I N M B S) as [H|(ops1 & pre & post & ops2 & s1 & EO & E1 & L)]; [auto|].
  specialize (Q _ _ _ _ _ EO E1). lia.
Qed.
Lemma flush_complete : forall p0 q0 n2 n7 me md me' md' enc ed de dec ops,
  v42bis_init p0 n2 n7 me md = Some (enc, ed) -> v42bis_init q0 n2 n7 me' md' = Some (de, dec) ->
  Z.land p0 2 <> 0 -> Z.land q0 1 <> 0 -> n2 <= 4096 -> 1 <= me -> 1 <= md' ->
  Forall (fun o => match o with Give d => bytes d | _ => True end) ops -> spaced n7 n7 (ops ++ [Flush]) ->
  exists s1 enc', compressor enc ops = Ok s1 /\ v42bis_compress_flush s1 = Ok enc' /\ (k_upd_at s1 = 0 -> held enc' = []) /\
    exists dec', decompressor dec [Feed (handed enc' ++ held enc'); Deliver] = Ok (dec', 0) /\ handed dec' = accepted ops.
Proof.
  intros p0 q0 n2 n7 me md me' md' enc ed de dec ops IE ID PE PD N ME MD F S.
  assert (F2 : Forall (fun o => match o with Give d => bytes d | _ => True end) (ops ++ [Flush])) by (apply Forall_app; split; [auto|constructor; auto]).
  assert (AC : forall x, accepted (x ++ [Flush]) = accepted x) by (induction x as [|[d| |m] x IH]; cbn [app accepted]; congruence).
  assert (CA : forall x s y, compressor s (x ++ [Flush]) = Ok y -> exists s1, compressor s x = Ok s1 /\ v42bis_compress_flush s1 = Ok y).
  { induction x as [|[d| |m] x IH]; intros s y; cbn [app compressor].
    - intros H. exists s. destruct (v42bis_compress_flush s); [|discriminate]. cbn [rbind] in H. auto.
    - destruct (v42bis_compress s d); [|discriminate]. cbn [rbind]. auto.
    - destruct (v42bis_compress_flush s); [|discriminate]. cbn [rbind]. auto.
    - auto. }
  destruct (session_exact p0 q0 n2 n7 me md me' md' enc ed de dec (ops ++ [Flush]) IE ID PE PD N ME MD F2 S ops eq_refl) as (enc' & E & H).
  destruct (CA _ _ _ E) as (s1 & E1 & E2). exists s1, enc'. split; [auto|]. split; [auto|]. split.
  - intros U. eapply (session_flushed p0 n2 n7 me md enc ed (ops ++ [Flush])); eauto.
  - destruct (H [Feed (handed enc' ++ held enc')]) as (d & ED & HD & _); [cbn; apply app_nil_r|exact I|].
    exists d. split; [exact ED|]. rewrite HD. apply AC.
Qed.

(** ---- what does not hold ---- *)
(** Runs of one letter, flushed twice within one match. *)
Definition aa (n : nat) : eop := Give (repeat 97 n).
Definition twice_flushed : list eop :=
  [Mode MODE_NEVER; aa 33; Flush; aa 2; Flush; aa 6; Give [98; 97; 97; 98]; Mode MODE_ALWAYS; Give [98]; aa 30; Give [98]; aa 30; Flush].
Definition enc0 : comp := comp_init 2 512 6 64.
Definition dec0 : comp := comp_init 1 512 6 64.
Lemma flushed_twice : exists enc' dec', compressor enc0 twice_flushed = Ok enc' /\
  decompressor dec0 [Feed (handed enc'); Deliver] = Ok (dec', 0) /\ held enc' = [] /\
  handed dec' <> accepted twice_flushed /\ length (handed dec') <> length (accepted twice_flushed).
Proof.
  assert (H : (do s <- compressor enc0 twice_flushed; do (d, r) <- decompressor dec0 [Feed (handed s); Deliver]; Ok (r, length (handed d), held s)) = Ok (0, 104%nat, [])).
  { vm_compute. reflexivity. }
  destruct (compressor enc0 twice_flushed) as [s|]; [|discriminate]. cbn [rbind] in H.
  destruct (decompressor dec0 [Feed (handed s); Deliver]) as [(d, r)|] eqn:E; [|discriminate]. cbn [rbind] in H.
  injection H as -> HL HH. exists s, d. split; [auto|]. split; [exact E|]. split; [auto|].
  assert (length (handed d) <> length (accepted twice_flushed)) by (rewrite HL; vm_compute; discriminate).
  split; [congruence|auto].
Qed.

(** The session of the flush which is skipped: the only octet is not emitted. *)
Lemma flush_skipped : exists enc', compressor enc0 [Mode MODE_ALWAYS; Give [97]; Flush] = Ok enc' /\ handed enc' = [] /\ held enc' = [97; 0; 0].
Proof.
  assert (H : (do s <- compressor enc0 [Mode MODE_ALWAYS; Give [97]; Flush]; Ok (handed s, held s)) = Ok ([], [97; 0; 0])) by (vm_compute; reflexivity).
  destruct (compressor enc0 _) as [s|]; [|discriminate]. cbn [rbind] in H. injection H as H1 H2. exists s. auto.
Qed.
(** Into compressed mode, four times STEPUP, and a codeword of 13 ones. *)
Definition stepped_up : list Z := [0; 0] ++ [2; 4; 16; 128; 0; 252; 127].
Lemma stepped_up_ub : v42bis_decompress dec0 stepped_up = UB.
Proof. vm_compute. reflexivity. Qed.
