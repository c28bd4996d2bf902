(** Proofs about the ADPCM codecs. *)
From Verif Require Import Base Bits Adpcm_model Adpcm_spec.
From Coq Require Import ZifyBool ZifyNat.
Local Open Scope Z_scope.


Lemma saturate16_spec x : saturate16 x = within (-32768) 32767 x.
Proof.
  unfold saturate16, within, s16.
  destruct (Z.eqb_spec x ((x + 32768) mod 65536 - 32768)) as [E|E].
  - pose proof (Z.mod_pos_bound (x + 32768) 65536 ltac:(lia)). lia.
  - destruct (Z.ltb_spec 32767 x); [lia|]. destruct (Z_lt_dec x (-32768)); [lia|].
    exfalso. apply E. rewrite Z.mod_small by lia. lia.
Qed.
Lemma clamp_step_spec mx i : 0 <= mx -> clamp_step mx i = within 0 mx i.
Proof. intros H. unfold clamp_step, within. destruct (Z.ltb_spec i 0), (Z.ltb_spec mx i); lia. Qed.

Lemma step_pos i : 0 <= i <= 88 -> 7 <= step ima_coder i <= 32767 /\ aget step_size i = Ok (step ima_coder i).
Proof.
  intros H. assert (A : forallb (fun i => (7 <=? step ima_coder i) && (step ima_coder i <=? 32767)) (map Z.of_nat (seq 0 89)) = true) by (vm_compute; reflexivity).
  rewrite forallb_forall in A. specialize (A i). split.
  - assert (In i (map Z.of_nat (seq 0 89))). { apply in_map_iff. exists (Z.to_nat i). split; [lia|]. apply in_seq. lia. }
    specialize (A H0). lia.
  - unfold aget, in_bounds. change (Z.of_nat (length step_size)) with 89.
    replace ((0 <=? i) && (i <? 89)) with true by lia. reflexivity.
Qed.
Lemma oki_step_pos i : 0 <= i <= 48 -> 16 <= step oki_coder i <= 1552 /\ aget oki_step_size i = Ok (step oki_coder i).
Proof.
  intros H. assert (A : forallb (fun i => (16 <=? step oki_coder i) && (step oki_coder i <=? 1552)) (map Z.of_nat (seq 0 49)) = true) by (vm_compute; reflexivity).
  rewrite forallb_forall in A. specialize (A i). split.
  - assert (In i (map Z.of_nat (seq 0 49))). { apply in_map_iff. exists (Z.to_nat i). split; [lia|]. apply in_seq. lia. }
    specialize (A H0). lia.
  - unfold aget, in_bounds. change (Z.of_nat (length oki_step_size)) with 49.
    replace ((0 <=? i) && (i <? 49)) with true by lia. reflexivity.
Qed.

Lemma code_cases c : 0 <= c < 16 -> In c (map Z.of_nat (seq 0 16)).
Proof. intros H. apply in_map_iff. exists (Z.to_nat c). split; [lia|]. apply in_seq. lia. Qed.

(** Split a code into its 16 values. *)
Ltac code16 c H := let H' := fresh in
  pose proof (code_cases c H) as H'; cbn [seq map In] in H'; clear H;
  repeat (destruct H' as [H'|H']; [subst c|]); [..|contradiction].

Lemma adjust_ok c : 0 <= c < 16 -> aget step_adjustment (Z.land c 7) = Ok (adjust c).
Proof. intros H. code16 c H; reflexivity. Qed.


Lemma shiftr1 x : Z.shiftr x 1 = x / 2. Proof. apply Z.shiftr_div_pow2. lia. Qed.
Lemma shiftr2 x : Z.shiftr x 2 = x / 4. Proof. apply Z.shiftr_div_pow2. lia. Qed.
Lemma shiftr3 x : Z.shiftr x 3 = x / 8. Proof. apply Z.shiftr_div_pow2. lia. Qed.
Lemma quarter x : x / 2 / 2 = x / 4. Proof. apply Z.div_div; lia. Qed.

Definition mk (l i : Z) (s : ima) : ima := {| last := l; step_index := i; ima_byte := ima_byte s; nbits := nbits s |}.

Lemma decode1_ok s c : valid ima_coder (st s) -> 0 <= c < 16 ->
  decode1 s c = Ok (fst (next ima_coder (st s) c), mk (fst (next ima_coder (st s) c)) (snd (next ima_coder (st s) c)) s).
Proof.
  intros (Hl & Hi) Hc. cbn [st fst snd ima_coder lo hi top] in *. unfold decode1.
  destruct (step_pos _ Hi) as (Hp & ->). cbn [rbind]. rewrite (adjust_ok c Hc). cbn [rbind].
  rewrite saturate16_spec, clamp_step_spec by (unfold STEP_MAX; lia).
  unfold next, mk. cbn [fst snd st ima_coder lo hi top]. rewrite shiftr1, shiftr2, shiftr3.
  set (ss := step ima_coder (step_index s)) in *. clearbody ss.
  match goal with |- Ok (within _ _ (_ + ?e), _) = _ => replace e with (delta ss c) end; [reflexivity|].
  clear Hl Hi. unfold delta, bitn. code16 c Hc; cbn -[Z.div Z.mul Z.add Z.opp]; lia.
Qed.

Lemma valid_next k s c : lo k <= hi k -> 0 <= top k -> valid k (next k s c).
Proof. intros H1 H2. unfold valid, next, within. cbn [fst snd]. lia. Qed.

Ltac Zify.zify_post_hook ::= Z.div_mod_to_equations.
(** The greedy quantiser, on its own: for a difference [e] and a step [ss]. *)
Definition quant (ss e : Z) : Z * Z :=
  let '(a, r) := if e <? 0 then (8, - e) else (0, e) in
  let '(a, r) := if ss <=? r then (a + 4, r - ss) else (a, r) in
  let '(a, r) := if ss / 2 <=? r then (a + 2, r - ss / 2) else (a, r) in
  if ss / 4 <=? r then (a + 1, r - ss / 4) else (a, r).
Lemma delta_vals ss c : 0 <= c < 16 ->
  let q := ss / 8 in let h := ss / 4 in let g := ss / 2 in
  In (c, delta ss c) [(0, q); (1, q + h); (2, q + g); (3, q + h + g); (4, q + ss); (5, q + h + ss); (6, q + g + ss); (7, q + h + g + ss);
                      (8, - q); (9, - (q + h)); (10, - (q + g)); (11, - (q + h + g)); (12, - (q + ss)); (13, - (q + h + ss)); (14, - (q + g + ss)); (15, - (q + h + g + ss))].
Proof.
  intros Hc q h g. unfold delta, bitn. fold q h g. clearbody q h g.
  code16 c Hc; cbn [Z.testbit Z.b2z Pos.testbit Pos.pred_N]; cbn -[Z.mul Z.add Z.opp];
  repeat (first [left; f_equal; lia|right]).
Qed.
Lemma quant_best ss e : 7 <= ss -> let (c, r) := quant ss e in
  0 <= c < 16 /\ delta ss c = (if e <? 0 then - (ss / 8 - e - r) else ss / 8 + e - r) /\
  (forall c', 0 <= c' < 16 -> Z.abs (e - delta ss c) <= Z.abs (e - delta ss c') + 1) /\
  (Z.abs e < 2 * ss -> Z.abs (e - delta ss c) <= ss / 8 + 2).
Proof.
  intros Hs. unfold quant.
  pose proof (delta_vals ss) as DV. cbv zeta in DV.
  set (q := ss / 8) in *. set (h := ss / 4) in *. set (g := ss / 2) in *.
  assert (Q : 8 * q <= ss < 8 * q + 8) by (unfold q; lia).
  assert (HH : 4 * h <= ss < 4 * h + 4) by (unfold h; lia).
  assert (G : 2 * g <= ss < 2 * g + 2) by (unfold g; lia).
  clearbody q h g.
  assert (F : forall d,
    (Z.abs (e - d) <= Z.abs (e - q) + 1 /\ Z.abs (e - d) <= Z.abs (e - (q + h)) + 1 /\
    Z.abs (e - d) <= Z.abs (e - (q + g)) + 1 /\ Z.abs (e - d) <= Z.abs (e - (q + h + g)) + 1 /\
    Z.abs (e - d) <= Z.abs (e - (q + ss)) + 1 /\ Z.abs (e - d) <= Z.abs (e - (q + h + ss)) + 1 /\
    Z.abs (e - d) <= Z.abs (e - (q + g + ss)) + 1 /\ Z.abs (e - d) <= Z.abs (e - (q + h + g + ss)) + 1) ->
    (Z.abs (e - d) <= Z.abs (e - - q) + 1 /\ Z.abs (e - d) <= Z.abs (e - - (q + h)) + 1 /\
    Z.abs (e - d) <= Z.abs (e - - (q + g)) + 1 /\ Z.abs (e - d) <= Z.abs (e - - (q + h + g)) + 1 /\
    Z.abs (e - d) <= Z.abs (e - - (q + ss)) + 1 /\ Z.abs (e - d) <= Z.abs (e - - (q + h + ss)) + 1 /\
    Z.abs (e - d) <= Z.abs (e - - (q + g + ss)) + 1 /\ Z.abs (e - d) <= Z.abs (e - - (q + h + g + ss)) + 1) ->
    forall c', 0 <= c' < 16 -> Z.abs (e - d) <= Z.abs (e - delta ss c') + 1).
  { intros d Ha Hb c' Hc'. specialize (DV c' Hc'). cbn [In] in DV.
    repeat (destruct DV as [DV|DV]; [injection DV as _ <-; tauto|]). contradiction. }
  assert (K : forall c d r, 0 <= c < 16 -> delta ss c = d ->
      d = (if e <? 0 then - (q - e - r) else q + e - r) ->
      (forall c', 0 <= c' < 16 -> Z.abs (e - d) <= Z.abs (e - delta ss c') + 1) ->
      (Z.abs e < 2 * ss -> Z.abs (e - d) <= q + 2) ->
     0 <= c < 16 /\ delta ss c = (if e <? 0 then - (q - e - r) else q + e - r) /\
     (forall c', 0 <= c' < 16 -> Z.abs (e - delta ss c) <= Z.abs (e - delta ss c') + 1) /\
     (Z.abs e < 2 * ss -> Z.abs (e - delta ss c) <= q + 2)).
  { intros c d r Hc Hd H1 H2 H3. subst d. auto. }
  assert (V : forall c d, In (c, d) [(0, q); (1, q + h); (2, q + g); (3, q + h + g); (4, q + ss); (5, q + h + ss); (6, q + g + ss); (7, q + h + g + ss);
                      (8, - q); (9, - (q + h)); (10, - (q + g)); (11, - (q + h + g)); (12, - (q + ss)); (13, - (q + h + ss)); (14, - (q + g + ss)); (15, - (q + h + g + ss))] ->
     delta ss c = d).
  { intros c d Hin. assert (Hc : 0 <= c < 16) by (cbn [In] in Hin; repeat (destruct Hin as [Hin|Hin]; [injection Hin as <- _; lia|]); contradiction).
    specialize (DV c Hc). cbn [In] in *.
    repeat (destruct Hin as [Hin|Hin]; [injection Hin as <- <-; repeat (destruct DV as [DV|DV]; [first [discriminate DV|injection DV as <-; reflexivity]|]); contradiction|]). contradiction. }
  clear DV.
  destruct (Z.ltb_spec e 0) as [E0|E0]; cbv beta iota zeta;
  match goal with |- context [ss <=? ?r] => destruct (Z.leb_spec ss r) as [E1|E1] end; cbv beta iota zeta;
  match goal with |- context [g <=? ?r] => destruct (Z.leb_spec g r) as [E2|E2] end; cbv beta iota zeta;
  match goal with |- context [h <=? ?r] => destruct (Z.leb_spec h r) as [E3|E3] end; cbv beta iota zeta;
  (eapply K; [lia|apply V; cbn [In]; eauto 20|..]).
  all: clear K V.
  all: first [lia|apply F; clear F; repeat split; lia].
Qed.
Ltac Zify.zify_post_hook ::= idtac.

Lemma within_near lo hi x y : lo <= x <= hi -> Z.abs (x - within lo hi y) <= Z.abs (x - y).
Proof. unfold within. lia. Qed.

Lemma encode1_ok s x : valid ima_coder (st s) -> -32768 <= x <= 32767 ->
  exists c, best ima_coder (st s) x c /\
    encode1 s x = Ok (c, mk (fst (next ima_coder (st s) c)) (snd (next ima_coder (st s) c)) s).
Proof.
  intros (Hl & Hi) Hx. cbn [st fst snd ima_coder lo hi top] in *. unfold encode1.
  destruct (step_pos _ Hi) as (Hp & ->). cbn [rbind].
  pose proof (quant_best (step ima_coder (step_index s)) (x - last s) ltac:(lia)) as Q.
  destruct (quant (step ima_coder (step_index s)) (x - last s)) as (c, r) eqn:E. destruct Q as (Hc & Hd & Hb & He).
  exists c. split.
  - split; [assumption|]. cbn [st fst snd]. split.
    + intros c' Hc'. specialize (Hb c' Hc'). lia.
    + intros HL. specialize (He HL). unfold next. cbn [st fst snd ima_coder lo hi].
      pose proof (within_near (-32768) 32767 x (last s + delta (step ima_coder (step_index s)) c) Hx). lia.
  - rewrite !shiftr1, shiftr3. rewrite quarter.
    set (ss := step ima_coder (step_index s)) in *. set (e := x - last s) in *.
    assert (A : (let
     '(adpcm, e0) := if e <? 0 then (8, - e) else (0, e) in
      let
      '(adpcm0, e1) := if ss <=? e0 then (Z.lor adpcm 4, e0 - ss) else (adpcm, e0) in
       let '(adpcm1, e2) := if ss / 2 <=? e1 then (Z.lor adpcm0 2, e1 - ss / 2) else (adpcm0, e1) in
        if ss / 4 <=? e2 then (Z.lor adpcm1 1, e2 - ss / 4) else (adpcm1, e2)) = (c, r)).
    { rewrite <- E. unfold quant. destruct (e <? 0), (ss <=? _), (ss / 2 <=? _), (ss / 4 <=? _); reflexivity. }
    clear E.
    destruct (if e <? 0 then (8, - e) else (0, e)) as (a0, e0).
    destruct (if ss <=? e0 then (Z.lor a0 4, e0 - ss) else (a0, e0)) as (a1, e1).
    destruct (if ss / 2 <=? e1 then (Z.lor a1 2, e1 - ss / 2) else (a1, e1)) as (a2, e2).
    rewrite A. rewrite (adjust_ok c Hc). cbn [rbind].
    rewrite saturate16_spec, clamp_step_spec by (unfold STEP_MAX; lia).
    unfold u8. rewrite Z.mod_small by lia. rewrite <- Hd. unfold next, mk. cbn [st fst snd ima_coder lo hi top]. fold ss.
    rewrite (Z.add_comm (delta ss c)). reflexivity.
Qed.

(** ---- Oki ---- *)
Definition omk (l i : Z) (s : oki) : oki := {| olast := l; ostep := i; obyte := obyte s; omark := omark s |}.
Lemma s16_id x : -32768 <= x <= 32767 -> s16 x = x.
Proof. intros H. unfold s16. rewrite Z.mod_small by lia. lia. Qed.
(* innermost first *)
Ltac s16_in := match goal with |- context [s16 ?x] => lazymatch x with context [s16 _] => fail | _ => rewrite (s16_id x) by lia end end.
Lemma oki_decode1_ok s c : valid oki_coder (ost s) -> 0 <= c < 16 ->
  oki_decode1 s c = Ok (fst (next oki_coder (ost s) c), omk (fst (next oki_coder (ost s) c)) (snd (next oki_coder (ost s) c)) s).
Proof.
  intros (Hl & Hi) Hc. cbn [ost fst snd oki_coder lo hi top] in *. unfold oki_decode1.
  destruct (oki_step_pos _ Hi) as (Hp & ->). cbn [rbind]. rewrite (adjust_ok c Hc). cbn [rbind].
  rewrite clamp_step_spec by lia.
  unfold next, omk. cbn [fst snd ost oki_coder lo hi top]. rewrite shiftr1, shiftr2, shiftr3.
  set (ss := step oki_coder (ostep s)) in *. clearbody ss.
  assert (Q : 0 <= ss / 8 <= 200) by (pose proof (Z.div_mod ss 8 ltac:(lia)); pose proof (Z.mod_pos_bound ss 8 ltac:(lia)); lia).
  assert (G : 0 <= ss / 4 <= 400) by (pose proof (Z.div_mod ss 4 ltac:(lia)); pose proof (Z.mod_pos_bound ss 4 ltac:(lia)); lia).
  assert (H : 0 <= ss / 2 <= 800) by (pose proof (Z.div_mod ss 2 ltac:(lia)); pose proof (Z.mod_pos_bound ss 2 ltac:(lia)); lia).
  match goal with |- context [s16 (olast s + ?e)] => replace e with (delta ss c) end.
  2: { unfold delta, bitn. set (q := ss / 8) in *. set (g := ss / 4) in *. set (h := ss / 2) in *. clearbody q g h.
       clear Hl Hi. code16 c Hc; cbn -[Z.mul Z.add Z.opp s16]; repeat s16_in; lia. }
  assert (D : -3000 <= delta ss c <= 3000).
  { unfold delta, bitn. destruct (Z.testbit c 3), (Z.testbit c 0), (Z.testbit c 1), (Z.testbit c 2); cbn [Z.b2z]; lia. }
  assert (Ha : -1 <= adjust c <= 8) by (unfold adjust; pose proof (Z.mod_pos_bound c 8 ltac:(lia)); destruct (Z.ltb_spec (c mod 8) 4); lia).
  rewrite !s16_id by lia. unfold within.
  set (z := olast s + delta ss c). assert (L : (if 2047 <? z then 2047 else if z <? -2048 then -2048 else z) = Z.max (-2048) (Z.min 2047 z)).
  { destruct (Z.ltb_spec 2047 z), (Z.ltb_spec z (-2048)); lia. }
  rewrite L. reflexivity.
Qed.
Lemma oki_encode1_ok s x : valid oki_coder (ost s) -> -32768 <= x <= 32767 ->
  exists c, best oki_coder (ost s) (x / 16) c /\
    oki_encode1 s x = Ok (c, omk (fst (next oki_coder (ost s) c)) (snd (next oki_coder (ost s) c)) s).
Proof.
  intros (Hl & Hi) Hx. pose proof (conj Hl Hi : valid oki_coder (ost s)) as Hv. cbn [ost fst snd oki_coder lo hi top] in *. unfold oki_encode1.
  destruct (oki_step_pos _ Hi) as (Hp & ->). cbn [rbind].
  assert (Hx2 : -2048 <= x / 16 <= 2047).
  { pose proof (Z.div_mod x 16 ltac:(lia)); pose proof (Z.mod_pos_bound x 16 ltac:(lia)); lia. }
  pose proof (quant_best (step oki_coder (ostep s)) (x / 16 - olast s) ltac:(lia)) as Q.
  destruct (quant (step oki_coder (ostep s)) (x / 16 - olast s)) as (c, r) eqn:E. destruct Q as (Hc & Hd & Hb & He).
  exists c. split.
  - split; [assumption|]. cbn [ost fst snd]. split.
    + intros c' Hc'. specialize (Hb c' Hc'). lia.
    + intros HL. specialize (He HL). unfold next. cbn [ost fst snd oki_coder lo hi].
      pose proof (within_near (-2048) 2047 (x / 16) (olast s + delta (step oki_coder (ostep s)) c) Hx2). lia.
  - rewrite Z.shiftr_div_pow2, !shiftr1, shiftr2 by lia. change (2 ^ 4) with 16.
    set (ss := step oki_coder (ostep s)) in *. rewrite (s16_id (x / 16 - olast s)) by lia. set (e := x / 16 - olast s) in *.
    assert (He2 : -4095 <= e <= 4095) by lia.
    match goal with |- (let '(_, _) := ?t in _) = _ => idtac end.
    assert (G : 0 <= ss / 4 <= 400) by (pose proof (Z.div_mod ss 4 ltac:(lia)); pose proof (Z.mod_pos_bound ss 4 ltac:(lia)); lia).
    assert (H : 0 <= ss / 2 <= 800) by (pose proof (Z.div_mod ss 2 ltac:(lia)); pose proof (Z.mod_pos_bound ss 2 ltac:(lia)); lia).
    assert (Hss : 16 <= ss <= 1552) by (unfold ss; assumption).
    assert (A : (let '(adpcm, d) := if e <? 0 then (8, s16 (- e)) else (0, e) in
                 let '(adpcm, d) := if ss <=? d then (Z.lor adpcm 4, s16 (d - ss)) else (adpcm, d) in
                 let '(adpcm, d) := if ss / 2 <=? d then (Z.lor adpcm 2, s16 (d - ss / 2)) else (adpcm, d) in
                 if ss / 4 <=? d then Z.lor adpcm 1 else adpcm) = c).
    { transitivity (fst (quant ss e)); [|rewrite E; reflexivity]. unfold quant.
      assert (N : (if e <? 0 then (8, s16 (- e)) else (0, e)) = (if e <? 0 then (8, - e) else (0, e))) by (destruct (e <? 0); rewrite ?s16_id by lia; reflexivity).
      rewrite N. clear N.
      destruct (if e <? 0 then (8, - e) else (0, e)) as (a, d0) eqn:E0.
      assert (Hd0 : 0 <= d0 <= 4095 /\ (a = 0 \/ a = 8)) by (destruct (Z.ltb_spec e 0); injection E0 as <- <-; lia). clear E0.
      destruct Hd0 as (Hd0 & [-> | ->]);
      destruct (Z.leb_spec ss d0); rewrite ?s16_id by lia;
      match goal with |- context [ss / 2 <=? ?r] => destruct (Z.leb_spec (ss / 2) r) end; rewrite ?s16_id by lia;
      match goal with |- context [ss / 4 <=? ?r] => destruct (Z.leb_spec (ss / 4) r) end; reflexivity. }
    destruct (if e <? 0 then (8, s16 (- e)) else (0, e)) as (a0, e0).
    destruct (if ss <=? e0 then (Z.lor a0 4, s16 (e0 - ss)) else (a0, e0)) as (a1, e1).
    destruct (if ss / 2 <=? e1 then (Z.lor a1 2, s16 (e1 - ss / 2)) else (a1, e1)) as (a2, e2).
    rewrite A. rewrite oki_decode1_ok by assumption. reflexivity.
Qed.

(** ---- Whole signals ---- *)
Fixpoint play (k : coder) (s : Z * Z) (cs : list Z) : list Z * (Z * Z) :=
  match cs with
  | [] => ([], s)
  | c :: t => let r := play k (next k s c) t in (fst (next k s c) :: fst r, snd r)
  end.
Fixpoint chosen (k : coder) (s : Z * Z) (xs cs : list Z) : Prop :=
  match xs, cs with
  | [], [] => True
  | x :: xs, c :: cs => best k s x c /\ chosen k (next k s c) xs cs
  | _, _ => False
  end.
Lemma chosen_coding k xs : forall s cs, chosen k s xs cs -> coding k s xs (fst (play k s cs)) (snd (play k s cs)).
Proof.
  induction xs as [|x xs IH]; intros s [|c cs] H; cbn [chosen] in H; try contradiction.
  - constructor.
  - destruct H as (H1 & H2). cbn [play fst snd]. constructor; [assumption|]. apply IH, H2.
Qed.
Lemma st_mk p s : st (mk (fst p) (snd p) s) = p.
Proof. destruct p; reflexivity. Qed.
Lemma ima_next_valid s c : valid ima_coder (next ima_coder s c).
Proof. apply valid_next; cbn; lia. Qed.
Lemma oki_next_valid s c : valid oki_coder (next oki_coder s c).
Proof. apply valid_next; cbn; lia. Qed.

(** Splitting a signal, or the data, between calls makes no difference. *)
Lemma enc4_app v a : forall s b,
  enc4 v s (a ++ b) = (do (o1, s1) <- enc4 v s a ; do (o2, s2) <- enc4 v s1 b ; Ok (o1 ++ o2, s2)).
Proof.
  induction a as [|x a IH]; intros s b; cbn [app enc4].
  - cbn [rbind]. destruct (enc4 v s b) as [(o & t)|]; reflexivity.
  - destruct (encode1 s x) as [(c & s1)|]; [|reflexivity]. cbn [rbind].
    set (s2 := with_bits _ _). rewrite IH. destruct (enc4 v s2 a) as [(o1 & s3)|]; [|reflexivity]. cbn [rbind].
    destruct (enc4 v s3 b) as [(o2 & s4)|]; [|reflexivity]. cbn [rbind]. destruct (tst (nbits s1) 1); reflexivity.
Qed.
Lemma dec4_app v a : forall s b,
  dec4 v s (a ++ b) = (do (o1, s1) <- dec4 v s a ; do (o2, s2) <- dec4 v s1 b ; Ok (o1 ++ o2, s2)).
Proof.
  induction a as [|x a IH]; intros s b; cbn [app dec4].
  - cbn [rbind]. destruct (dec4 v s b) as [(o & t)|]; reflexivity.
  - destruct (decode1 s _) as [(c & s1)|]; [|reflexivity]. cbn [rbind].
    destruct (decode1 s1 _) as [(c2 & s2)|]; [|reflexivity]. cbn [rbind].
    rewrite IH. destruct (dec4 v s2 a) as [(o1 & s3)|]; [|reflexivity]. cbn [rbind].
    destruct (dec4 v s3 b) as [(o2 & s4)|]; [|reflexivity]. reflexivity.
Qed.

Lemma tst1 x : tst x 1 = Z.odd x.
Proof.
  unfold tst. change 1 with (Z.ones 1) at 1. rewrite Z.land_ones by lia. change (2 ^ 1) with 2.
  rewrite Zmod_odd. destruct (Z.odd x); reflexivity.
Qed.

(** Two codes make an octet. *)
Definition octet (v : variant) (c1 c2 : Z) : Z := match v with IMA4 => c1 + 16 * c2 | _ => 16 * c1 + c2 end.
Ltac Zify.zify_post_hook ::= Z.div_mod_to_equations.
Lemma lor_low b c : 0 <= c < 16 -> Z.lor (b * 16) c = 16 * b + c.
Proof. intros H. rewrite Z.lor_comm. change 16 with (2 ^ 4) at 1. rewrite lor_disj by lia. change (2 ^ 4) with 16. lia. Qed.
Lemma octet_enc v b c1 c2 : (v = IMA4 -> 0 <= b < 256) -> 0 <= c1 < 16 -> 0 <= c2 < 16 ->
  let f b c := match v with IMA4 => u8 (Z.lor (Z.shiftr b 4) (Z.shiftl c 4)) | _ => u8 (Z.lor (Z.shiftl b 4) c) end in
  f (f b c1) c2 = octet v c1 c2.
Proof.
  intros Hb H1 H2 f. unfold f, octet, u8. clear f. rewrite !Z.shiftl_mul_pow2, !Z.shiftr_div_pow2 by lia. change (2 ^ 4) with 16.
  destruct v.
  - specialize (Hb eq_refl). rewrite (Z.lor_comm (b / 16)), lor_low by lia. rewrite (Z.mod_small (16 * _ + _)) by lia.
    replace ((16 * c1 + b / 16) / 16) with c1 by lia. rewrite (Z.lor_comm c1), lor_low by lia. lia.
  - rewrite (lor_low b), lor_low by lia. clear Hb. lia.
  - rewrite (lor_low b), lor_low by lia. clear Hb. lia.
Qed.
Lemma octet_dec v c1 c2 : 0 <= c1 < 16 -> 0 <= c2 < 16 ->
  let b := octet v c1 c2 in 0 <= b < 256 /\
  match v with IMA4 => Z.land b 15 | _ => Z.land (Z.shiftr b 4) 15 end = c1 /\
  match v with IMA4 => Z.land (Z.shiftr b 4) 15 | _ => Z.land b 15 end = c2.
Proof.
  intros H1 H2 b. unfold b, octet. change 15 with (Z.ones 4). rewrite !Z.land_ones, !Z.shiftr_div_pow2 by lia. change (2 ^ 4) with 16.
  destruct v; lia.
Qed.
Ltac Zify.zify_post_hook ::= idtac.

Definition rest_ok (v : variant) (s : ima) := v = IMA4 -> 0 <= ima_byte s < 256.
Fixpoint octets (v : variant) (cs : list Z) : list Z :=
  match cs with c1 :: c2 :: t => octet v c1 c2 :: octets v t | _ => [] end.

Lemma enc4_ok v n : forall s amp, length amp = (2 * n)%nat -> samples amp -> valid ima_coder (st s) -> Z.even (nbits s) = true -> rest_ok v s ->
  exists cs s', chosen ima_coder (st s) amp cs /\ enc4 v s amp = Ok (octets v cs, s') /\ st s' = snd (play ima_coder (st s) cs) /\
    Z.even (nbits s') = true /\ rest_ok v s'.
Proof.
  induction n as [|n IH]; intros s amp Hn Hs Hv He Hr.
  - destruct amp; [|discriminate]. exists [], s. cbn. auto.
  - destruct amp as [|x1 [|x2 amp]]; try (cbn in Hn; lia). inversion_clear Hs as [|? ? Hx1 Hs']. inversion_clear Hs' as [|? ? Hx2 Hs].
    destruct (encode1_ok s x1 Hv Hx1) as (c1 & B1 & E1).
    set (s1 := mk _ _ s) in E1.
    assert (S1 : st s1 = next ima_coder (st s) c1) by (unfold s1; apply st_mk).
    set (f b c := match v with IMA4 => u8 (Z.lor (Z.shiftr b 4) (Z.shiftl c 4)) | _ => u8 (Z.lor (Z.shiftl b 4) c) end).
    set (s2 := with_bits (with_byte s1 (f (ima_byte s1) c1)) (nbits s1 + 1)).
    assert (S2 : st s2 = next ima_coder (st s) c1) by exact S1.
    assert (V2 : valid ima_coder (st s2)) by (rewrite S2; apply ima_next_valid).
    destruct (encode1_ok s2 x2 V2 Hx2) as (c2 & B2 & E2).
    set (s3 := mk _ _ s2) in E2.
    assert (S3 : st s3 = next ima_coder (st s2) c2) by (unfold s3; apply st_mk).
    set (s4 := with_bits (with_byte s3 (f (ima_byte s3) c2)) (nbits s3 + 1)).
    assert (S4 : st s4 = next ima_coder (st s2) c2) by exact S3.
    assert (B4 : ima_byte s4 = octet v c1 c2).
    { change (ima_byte s4) with (f (f (ima_byte s) c1) c2). apply octet_enc; [exact Hr|apply B1|apply B2]. }
    pose proof (octet_dec v c1 c2 ltac:(apply B1) ltac:(apply B2)) as (Ho & _).
    assert (N4 : nbits s4 = nbits s + 2) by (unfold s4, s3, s2, s1; cbn; lia).
    destruct (IH s4 amp) as (cs & s' & C & E & F & G & R).
    + cbn in Hn. lia.
    + assumption.
    + rewrite S4. apply ima_next_valid.
    + rewrite N4, Z.even_add, He. reflexivity.
    + intros _. rewrite B4. exact Ho.
    + exists (c1 :: c2 :: cs), s'. split; [|split; [|split; [|auto]]].
      * cbn [chosen]. rewrite <- S2, <- S4. auto.
      * cbn [enc4]. rewrite E1. cbn [rbind]. fold (f (ima_byte s1) c1). fold s2. rewrite E2. cbn [rbind]. fold (f (ima_byte s3) c2). fold s4.
        rewrite E. cbn [rbind]. rewrite !tst1.
        replace (Z.odd (nbits s3)) with true by (change (nbits s3) with (nbits s + 1); rewrite Z.odd_add, <- Z.negb_even, He; reflexivity).
        replace (Z.odd (nbits s1)) with false by (change (nbits s1) with (nbits s); rewrite <- Z.negb_even, He; reflexivity).
        cbn [octets]. do 2 f_equal. f_equal. change (f (ima_byte s3) c2) with (ima_byte s4). rewrite B4. unfold u8. apply Z.mod_small. lia.
      * rewrite F, S4, S2. reflexivity.
Qed.
Lemma dec4_ok v n : forall d cs, length cs = (2 * n)%nat -> Forall (fun c => 0 <= c < 16) cs -> valid ima_coder (st d) ->
  exists d', dec4 v d (octets v cs) = Ok (fst (play ima_coder (st d) cs), d') /\ st d' = snd (play ima_coder (st d) cs).
Proof.
  induction n as [|n IH]; intros d cs Hn Hc Hv.
  - destruct cs; [|discriminate]. exists d. cbn. auto.
  - destruct cs as [|c1 [|c2 cs]]; try (cbn in Hn; lia). inversion_clear Hc as [|? ? H1 Hc']. inversion_clear Hc' as [|? ? H2 Hc].
    cbn [octets dec4 play fst snd]. destruct (octet_dec v c1 c2 H1 H2) as (_ & D1 & D2). rewrite D1, D2.
    rewrite decode1_ok by assumption. cbn [rbind]. set (d1 := mk _ _ d). assert (S1 : st d1 = next ima_coder (st d) c1) by (unfold d1; apply st_mk).
    rewrite decode1_ok by (rewrite ?S1; auto using ima_next_valid). cbn [rbind]. rewrite S1. set (d2 := mk _ _ d1).
    assert (S2 : st d2 = next ima_coder (next ima_coder (st d) c1) c2) by (unfold d2; apply st_mk).
    destruct (IH d2 cs) as (d' & E & F); [cbn in Hn; lia|assumption|rewrite S2; apply ima_next_valid|].
    rewrite E. cbn [rbind]. exists d'. rewrite S2 in *. auto.
Qed.
Lemma chosen_codes k xs : forall s cs, chosen k s xs cs -> Forall (fun c => 0 <= c < 16) cs /\ length cs = length xs.
Proof.
  induction xs as [|x xs IH]; intros s [|c cs] H; cbn [chosen] in H; try contradiction; [auto|].
  destruct H as (H1 & H2). destruct (IH _ _ H2). split; [constructor; [apply H1|assumption]|cbn; lia].
Qed.
Lemma play_valid cs : forall s, valid ima_coder s -> valid ima_coder (snd (play ima_coder s cs)).
Proof. induction cs as [|c cs IH]; intros s H; [exact H|]. cbn [play snd]. apply IH, ima_next_valid. Qed.

Lemma octets_bytes v n : forall cs, length cs = (2 * n)%nat -> Forall (fun c => 0 <= c < 16) cs -> bytes (octets v cs) /\ length (octets v cs) = n.
Proof.
  induction n as [|n IH]; intros cs Hn Hc.
  - destruct cs; [split; [constructor|reflexivity]|discriminate].
  - destruct cs as [|c1 [|c2 cs]]; try (cbn in Hn; lia). inversion_clear Hc as [|? ? H1 Hc']. inversion_clear Hc' as [|? ? H2 Hc].
    destruct (IH cs) as (A & B); [cbn in Hn; lia|assumption|]. cbn [octets length]. split; [|lia].
    constructor; [|exact A]. destruct (octet_dec v c1 c2 H1 H2) as (H & _). exact H.
Qed.

(** Encode and decode, when both ends start level. *)
Lemma enc4_dec4 v n s d amp : length amp = (2 * n)%nat -> samples amp -> valid ima_coder (st s) -> Z.even (nbits s) = true -> rest_ok v s ->
  st d = st s ->
  exists out s' d' ys, enc4 v s amp = Ok (out, s') /\ bytes out /\ length out = n /\ dec4 v d out = Ok (ys, d') /\
    coding ima_coder (st s) amp ys (st s') /\ st d' = st s' /\ valid ima_coder (st s') /\ Z.even (nbits s') = true /\ rest_ok v s'.
Proof.
  intros Hn Hs Hv He Hr Hd. destruct (enc4_ok v n s amp Hn Hs Hv He Hr) as (cs & s' & C & E & F & G & R).
  destruct (chosen_codes _ _ _ _ C) as (Hc & Hl). destruct (dec4_ok v n d cs) as (d' & D & D'); [lia|assumption|rewrite Hd; assumption|].
  destruct (octets_bytes v n cs) as (O1 & O2); [lia|assumption|].
  rewrite Hd in *. exists (octets v cs), s', d', (fst (play ima_coder (st s) cs)).
  repeat (split; [assumption|]). rewrite F. split; [apply chosen_coding, C|]. split; [assumption|]. split; [apply play_valid, Hv|]. auto.
Qed.

(** The header. *)
Ltac Zify.zify_post_hook ::= Z.div_mod_to_equations.
Lemma header_last l : -32768 <= l <= 32767 -> s16 (Z.lor (Z.shiftl (u8 (Z.shiftr l 8)) 8) (u8 l)) = l.
Proof.
  intros H. unfold u8, s16. rewrite Z.shiftr_div_pow2, Z.shiftl_mul_pow2 by lia. rewrite Z.lor_comm, lor_disj; [|lia|].
  - change (2 ^ 8) with 256. lia.
  - change (2 ^ 8) with 256. lia.
Qed.
Ltac Zify.zify_post_hook ::= idtac.

Lemma dvi4_round_trip chunked s d amp : Nat.even (length amp) = true -> samples amp -> valid ima_coder (st s) -> Z.even (nbits s) = true ->
  (chunked = true -> st d = st s) ->
  exists out s' d' ys, ima_adpcm_encode DVI4 chunked s amp = Ok (out, s') /\ bytes out /\
    ima_adpcm_decode DVI4 chunked d out = Ok (ys, d') /\
    coding ima_coder (st s) amp ys (st s') /\ st d' = st s' /\ valid ima_coder (st s') /\ Z.even (nbits s') = true.
Proof.
  intros Hn Hs Hv He Hd. apply Nat.even_spec in Hn. destruct Hn as (n & Hn).
  destruct chunked.
  - destruct (enc4_dec4 DVI4 n s d amp) as (out & s' & d' & ys & A & B & _ & C & D & E & F & G & _); auto; [discriminate|].
    exists out, s', d', ys. unfold ima_adpcm_encode, ima_adpcm_decode. rewrite A, C. auto 10.
  - set (d0 := {| last := last s; step_index := step_index s; ima_byte := ima_byte d; nbits := nbits d |}).
    destruct (enc4_dec4 DVI4 n s d0 amp) as (out & s' & d' & ys & A & B & _ & C & D & E & F & G & _); auto; [discriminate|].
    exists (header s ++ out), s', d', ys. unfold ima_adpcm_encode, ima_adpcm_decode. rewrite A. cbn [rbind].
    destruct Hv as (Hv1 & Hv2). cbn in Hv1, Hv2.
    split; [reflexivity|]. split.
    { apply Forall_app. split; [|assumption]. unfold header, u8. repeat constructor; unfold byte; try lia; apply Z.mod_pos_bound; lia. }
    unfold header. cbn [app]. unfold aget. cbn [in_bounds length]. 
    assert (IB : forall i, 0 <= i < 4 -> in_bounds (u8 (Z.shiftr (last s) 8) :: u8 (last s) :: u8 (step_index s) :: 0 :: out) i = true) by (intros i Hi; unfold in_bounds; cbn [length]; lia).
    rewrite !IB by lia. change (Z.to_nat 0) with 0%nat. change (Z.to_nat 1) with 1%nat. change (Z.to_nat 2) with 2%nat. cbn [nth rbind skipn].
    rewrite header_last by lia. replace (u8 (step_index s)) with (step_index s) by (unfold u8; rewrite Z.mod_small; lia).
    fold d0. rewrite C. cbn [rbind]. auto 10.
Qed.

Lemma header3 a b c e out : let l := a :: b :: c :: e :: out in aget l 0 = Ok a /\ aget l 1 = Ok b /\ aget l 2 = Ok c.
Proof.
  cbv zeta. unfold aget.
  assert (IB : forall i, 0 <= i < 4 -> in_bounds (a :: b :: c :: e :: out) i = true) by (intros i Hi; unfold in_bounds; cbn [length]; lia).
  rewrite !IB by lia. auto.
Qed.

Lemma ima4_round_trip s d amp : Nat.even (length amp) = true -> samples amp -> valid ima_coder (st s) -> Z.even (nbits s) = true ->
  0 <= ima_byte s < 256 -> st d = st s ->
  exists out s' d' ys, ima_adpcm_encode IMA4 true s amp = Ok (out, s') /\ bytes out /\
    ima_adpcm_decode IMA4 true d out = Ok (ys, d') /\
    coding ima_coder (st s) amp ys (st s') /\ st d' = st s' /\ valid ima_coder (st s') /\ Z.even (nbits s') = true /\ 0 <= ima_byte s' < 256.
Proof.
  intros Hn Hs Hv He Hb Hd. apply Nat.even_spec in Hn. destruct Hn as (n & Hn).
  destruct (enc4_dec4 IMA4 n s d amp) as (out & s' & d' & ys & A & B & _ & C & D & E & F & G & H); auto; [intros _; assumption|].
  exists out, s', d', ys. unfold ima_adpcm_encode, ima_adpcm_decode. rewrite A, C. unfold rest_ok in H. auto 10.
Qed.
(** In a packet with a header the first sample is sent as it is. *)
Lemma ima4_packet_round_trip s d a0 amp : Nat.even (length amp) = true -> samples (a0 :: amp) -> 0 <= step_index s <= 88 ->
  0 <= ima_byte s < 256 ->
  exists out s' d' ys, ima_adpcm_encode IMA4 false s (a0 :: amp) = Ok (out, s') /\ bytes out /\
    ima_adpcm_decode IMA4 false d out = Ok (a0 :: ys, d') /\
    coding ima_coder (a0, step_index s) amp ys (st s') /\ st d' = st s' /\ valid ima_coder (st s') /\ 0 <= ima_byte s' < 256.
Proof.
  intros Hn Hs Hv Hb. apply Nat.even_spec in Hn. destruct Hn as (n & Hn). inversion_clear Hs as [|? ? Ha Hs'].
  set (s0 := {| last := a0; step_index := step_index s; ima_byte := ima_byte s; nbits := 0 |}).
  set (d0 := {| last := a0; step_index := step_index s; ima_byte := ima_byte d; nbits := nbits d |}).
  destruct (enc4_dec4 IMA4 n s0 d0 amp) as (out & s' & d' & ys & A & B & _ & C & D & E & F & G & H); auto; [split; cbn; lia|intros _; exact Hb|].
  set (hd := [u8 a0; u8 (Z.shiftr a0 8); u8 (step_index s); 0]).
  exists (hd ++ out), s', d', ys. unfold ima_adpcm_encode, ima_adpcm_decode.
  assert (A0 : aget (a0 :: amp) 0 = Ok a0) by (unfold aget, in_bounds; cbn [length]; replace ((0 <=? 0) && _) with true by lia; reflexivity).
  rewrite A0. cbn [rbind skipn]. fold s0. rewrite A. cbn [rbind]. fold hd.
  split; [reflexivity|]. split.
  { apply Forall_app. split; [|assumption]. unfold hd, u8. repeat constructor; unfold byte; try lia; apply Z.mod_pos_bound; lia. }
  unfold hd. cbn [app]. destruct (header3 (u8 a0) (u8 (Z.shiftr a0 8)) (u8 (step_index s)) 0 out) as (-> & -> & ->). cbn [rbind skipn].
  rewrite header_last by lia. replace (u8 (step_index s)) with (step_index s) by (unfold u8; rewrite Z.mod_small; lia).
  fold d0. rewrite C. cbn [rbind]. unfold rest_ok in H. auto 10.
Qed.

(** ---- Oki ---- *)
Lemma ost_omk p s : ost (omk (fst p) (snd p) s) = p.
Proof. destruct p; reflexivity. Qed.
Lemma oki_encode_app a : forall s b,
  oki_adpcm_encode s (a ++ b) = (do (o1, s1) <- oki_adpcm_encode s a ; do (o2, s2) <- oki_adpcm_encode s1 b ; Ok (o1 ++ o2, s2)).
Proof.
  induction a as [|x a IH]; intros s b; cbn [app oki_adpcm_encode].
  - cbn [rbind]. destruct (oki_adpcm_encode s b) as [(o & t)|]; reflexivity.
  - destruct (oki_encode1 s x) as [(c & s1)|]; [|reflexivity]. cbn [rbind].
    set (s2 := {| olast := _ |}). rewrite IH. destruct (oki_adpcm_encode s2 a) as [(o1 & s3)|]; [|reflexivity]. cbn [rbind].
    destruct (oki_adpcm_encode s3 b) as [(o2 & s4)|]; [|reflexivity]. cbn [rbind]. destruct (tst (omark s1) 1); reflexivity.
Qed.
Lemma oki_decode_app a : forall s b,
  oki_adpcm_decode s (a ++ b) = (do (o1, s1) <- oki_adpcm_decode s a ; do (o2, s2) <- oki_adpcm_decode s1 b ; Ok (o1 ++ o2, s2)).
Proof.
  induction a as [|x a IH]; intros s b; cbn [app oki_adpcm_decode].
  - cbn [rbind]. destruct (oki_adpcm_decode s b) as [(o & t)|]; reflexivity.
  - destruct (oki_decode1 s _) as [(c & s1)|]; [|reflexivity]. cbn [rbind].
    destruct (oki_decode1 s1 _) as [(c2 & s2)|]; [|reflexivity]. cbn [rbind].
    rewrite IH. destruct (oki_adpcm_decode s2 a) as [(o1 & s3)|]; [|reflexivity]. cbn [rbind].
    destruct (oki_adpcm_decode s3 b) as [(o2 & s4)|]; reflexivity.
Qed.
Lemma oki_enc_ok n : forall s amp, length amp = (2 * n)%nat -> samples amp -> valid oki_coder (ost s) -> Z.even (omark s) = true ->
  exists cs s', chosen oki_coder (ost s) (map (fun x => x / 16) amp) cs /\ oki_adpcm_encode s amp = Ok (octets DVI4 cs, s') /\
    ost s' = snd (play oki_coder (ost s) cs) /\ Z.even (omark s') = true.
Proof.
  induction n as [|n IH]; intros s amp Hn Hs Hv He.
  - destruct amp; [|discriminate]. exists [], s. cbn. auto.
  - destruct amp as [|x1 [|x2 amp]]; try (cbn in Hn; lia). inversion_clear Hs as [|? ? Hx1 Hs']. inversion_clear Hs' as [|? ? Hx2 Hs].
    destruct (oki_encode1_ok s x1 Hv Hx1) as (c1 & B1 & E1).
    set (s1 := omk _ _ s) in E1.
    assert (S1 : ost s1 = next oki_coder (ost s) c1) by (unfold s1; apply ost_omk).
    set (f b c := u8 (Z.lor (Z.shiftl b 4) c)).
    set (s2 := {| olast := olast s1; ostep := ostep s1; obyte := f (obyte s1) c1; omark := omark s1 + 1 |}).
    assert (S2 : ost s2 = next oki_coder (ost s) c1) by exact S1.
    assert (V2 : valid oki_coder (ost s2)) by (rewrite S2; apply oki_next_valid).
    destruct (oki_encode1_ok s2 x2 V2 Hx2) as (c2 & B2 & E2).
    set (s3 := omk _ _ s2) in E2.
    assert (S3 : ost s3 = next oki_coder (ost s2) c2) by (unfold s3; apply ost_omk).
    set (s4 := {| olast := olast s3; ostep := ostep s3; obyte := f (obyte s3) c2; omark := omark s3 + 1 |}).
    assert (S4 : ost s4 = next oki_coder (ost s2) c2) by exact S3.
    assert (B4 : obyte s4 = octet DVI4 c1 c2).
    { change (obyte s4) with (f (f (obyte s) c1) c2). apply (octet_enc DVI4); [discriminate|apply B1|apply B2]. }
    assert (N4 : omark s4 = omark s + 2) by (unfold s4, s3, s2, s1; cbn; lia).
    destruct (IH s4 amp) as (cs & s' & C & E & F & G).
    + cbn in Hn. lia.
    + assumption.
    + rewrite S4. apply oki_next_valid.
    + rewrite N4, Z.even_add, He. reflexivity.
    + exists (c1 :: c2 :: cs), s'. split; [|split; [|split; [|auto]]].
      * cbn [chosen map]. rewrite <- S2, <- S4. auto.
      * cbn [oki_adpcm_encode]. rewrite E1. cbn [rbind]. fold (f (obyte s1) c1). fold s2. rewrite E2. cbn [rbind]. fold (f (obyte s3) c2). fold s4.
        rewrite E. cbn [rbind]. rewrite !tst1.
        replace (Z.odd (omark s3)) with true by (change (omark s3) with (omark s + 1); rewrite Z.odd_add, <- Z.negb_even, He; reflexivity).
        replace (Z.odd (omark s1)) with false by (change (omark s1) with (omark s); rewrite <- Z.negb_even, He; reflexivity).
        cbn [octets]. do 2 f_equal. f_equal. exact B4.
      * rewrite F, S4, S2. reflexivity.
Qed.
Lemma oki_out l : -2048 <= l <= 2047 -> s16 (l * 16) = 16 * l.
Proof. intros H. rewrite s16_id by lia. lia. Qed.
Lemma oki_dec_ok n : forall d cs, length cs = (2 * n)%nat -> Forall (fun c => 0 <= c < 16) cs -> valid oki_coder (ost d) ->
  exists d', oki_adpcm_decode d (octets DVI4 cs) = Ok (map (Z.mul 16) (fst (play oki_coder (ost d) cs)), d') /\ ost d' = snd (play oki_coder (ost d) cs).
Proof.
  induction n as [|n IH]; intros d cs Hn Hc Hv.
  - destruct cs; [|discriminate]. exists d. cbn. auto.
  - destruct cs as [|c1 [|c2 cs]]; try (cbn in Hn; lia). inversion_clear Hc as [|? ? H1 Hc']. inversion_clear Hc' as [|? ? H2 Hc].
    cbn [octets oki_adpcm_decode play fst snd]. destruct (octet_dec DVI4 c1 c2 H1 H2) as (_ & D1 & D2). rewrite D1, D2.
    rewrite oki_decode1_ok by assumption. cbn [rbind]. set (d1 := omk _ _ d). assert (S1 : ost d1 = next oki_coder (ost d) c1) by (unfold d1; apply ost_omk).
    rewrite oki_decode1_ok by (rewrite ?S1; auto using oki_next_valid). cbn [rbind]. rewrite S1. set (d2 := omk _ _ d1).
    assert (S2 : ost d2 = next oki_coder (next oki_coder (ost d) c1) c2) by (unfold d2; apply ost_omk).
    destruct (IH d2 cs) as (d' & E & F); [cbn in Hn; lia|assumption|rewrite S2; apply oki_next_valid|].
    rewrite E. cbn [rbind]. exists d'. rewrite S2 in *. cbn [map].
    pose proof (oki_next_valid (ost d) c1) as (W1 & _). pose proof (oki_next_valid (next oki_coder (ost d) c1) c2) as (W2 & _).
    rewrite !oki_out; auto.
Qed.
Lemma oki_play_valid cs : forall s, valid oki_coder s -> valid oki_coder (snd (play oki_coder s cs)).
Proof. induction cs as [|c cs IH]; intros s H; [exact H|]. cbn [play snd]. apply IH, oki_next_valid. Qed.
Lemma oki_round_trip s d amp : Nat.even (length amp) = true -> samples amp -> valid oki_coder (ost s) -> Z.even (omark s) = true -> ost d = ost s ->
  exists out s' d' ys, oki_adpcm_encode s amp = Ok (out, s') /\ bytes out /\ (2 * length out = length amp)%nat /\
    oki_adpcm_decode d out = Ok (map (Z.mul 16) ys, d') /\
    coding oki_coder (ost s) (map (fun x => x / 16) amp) ys (ost s') /\ ost d' = ost s' /\ valid oki_coder (ost s') /\ Z.even (omark s') = true.
Proof.
  intros Hn Hs Hv He Hd. apply Nat.even_spec in Hn. destruct Hn as (n & Hn).
  destruct (oki_enc_ok n s amp Hn Hs Hv He) as (cs & s' & C & E & F & G).
  destruct (chosen_codes _ _ _ _ C) as (Hc & Hl). rewrite map_length in Hl. destruct (oki_dec_ok n d cs) as (d' & D & D'); [lia|assumption|rewrite Hd; assumption|].
  destruct (octets_bytes DVI4 n cs) as (O1 & O2); [lia|assumption|].
  rewrite Hd in *. exists (octets DVI4 cs), s', d', (fst (play oki_coder (ost s) cs)).
  repeat (split; [assumption||lia|]). rewrite F. split; [apply chosen_coding, C|]. split; [assumption|]. split; [apply oki_play_valid, Hv|assumption].
Qed.
(** The Oki decoder is safe on any data. *)
Lemma oki_decode_safe data : forall d, valid oki_coder (ost d) ->
  exists ys d', oki_adpcm_decode d data = Ok (ys, d') /\ length ys = (2 * length data)%nat /\ valid oki_coder (ost d') /\
    Forall (fun y => -32768 <= y <= 32752 /\ y mod 16 = 0) ys.
Proof.
  assert (N : forall x, 0 <= Z.land x 15 < 16) by (intros x; change 15 with (Z.ones 4); rewrite Z.land_ones by lia; apply Z.mod_pos_bound; lia).
  induction data as [|b data IH]; intros d Hv; cbn [oki_adpcm_decode].
  - exists [], d. cbn. auto.
  - rewrite oki_decode1_ok by auto. cbn [rbind]. set (d1 := omk _ _ d). assert (S1 : valid oki_coder (ost d1)) by (unfold d1; rewrite ost_omk; apply oki_next_valid).
    rewrite oki_decode1_ok by auto. cbn [rbind]. set (d2 := omk _ _ d1). assert (S2 : valid oki_coder (ost d2)) by (unfold d2; rewrite ost_omk; apply oki_next_valid).
    destruct (IH d2 S2) as (ys & d' & E & L & V & F). rewrite E. cbn [rbind].
    eexists _, d'. split; [reflexivity|]. split; [cbn [length]; lia|]. split; [assumption|].
    assert (R : forall l, -2048 <= l <= 2047 -> -32768 <= s16 (l * 16) <= 32752 /\ s16 (l * 16) mod 16 = 0).
    { intros l Hl. rewrite oki_out by lia. split; [lia|]. rewrite Z.mul_comm. apply Z.mod_mul. lia. }
    repeat constructor; try assumption; apply R; try apply (oki_next_valid _ _).
Qed.
