(** The V.42bis decompressor seen octet by octet and bit by bit. *)
From Verif Require Import Base Bits V42bis_model V42bis_dict_proofs V42bis_core_proofs V42bis_out_proofs V42bis_dec_proofs.
From Coq Require Import ZifyBool ZifyNat.
Ltac Zify.zify_post_hook ::= Z.div_mod_to_equations.

(** One octet of input. *)
Definition dec_step (s : comp) (x : Z) : res (comp * bool) :=
  if k_trans s then
    if k_escd s then
      let s := set_escd s false in
      if x =? ECM then
        do s <- send_string s; Ok (set_lm (set_upd_at (set_trans s false) (k_lm s)) 0, true)
      else if x =? EID then
        do (s, t) <- follow_octet_twice (set_esc s (u8 (k_esc s + ESC_STEP))) (k_esc s);
        if t then Ok (s, true) else UB
      else if x =? RESET then
        do s <- send_string s; Ok (dictionary_init s, true)
      else Ok (s, false)
    else if x =? k_esc s then Ok (set_escd s true, true)
    else do (s, t) <- follow_octet_twice s x; if t then Ok (s, true) else UB
  else
    if (k_bc s <? 31) && (Z.shiftl x (k_bc s) <? 2147483648) then
      let s := set_bc (set_bb s (Z.lor (k_bb s) (Z.shiftl x (k_bc s)))) (k_bc s + 8) in
      if k_bc s <? k_c2 s then Ok (s, true)
      else if k_c2 s <? 31 then
        take_codeword (set_bc (set_bb s (Z.shiftr (k_bb s) (k_c2 s))) (k_bc s - k_c2 s))
                      (u16 (Z.land (k_bb s) (Z.shiftl 1 (k_c2 s) - 1)))
      else UB
    else UB.
Fixpoint dec_run (s : comp) (buf : list Z) : res (comp * Z) :=
  match buf with
  | [] => Ok (s, 0)
  | x :: t => do (s, go) <- dec_step s x; if go then dec_run s t else Ok (s, -1)
  end.
Lemma dec_run_app a : forall s b s', dec_run s a = Ok (s', 0) -> dec_run s (a ++ b) = dec_run s' b.
Proof.
  induction a as [|x a IH]; intros s b s' E; cbn [dec_run app] in *.
  - injection E as ->. reflexivity.
  - destruct (dec_step s x) as [[s1 go]|]; cbn [rbind] in *; [|discriminate]. destruct go; [apply IH; auto|discriminate].
Qed.

Lemma fill_bits_more s x rest : k_bc s < k_c2 s -> (k_bc s <? 31) && (Z.shiftl x (k_bc s) <? 2147483648) = true ->
  fill_bits s (x :: rest) = fill_bits (set_bc (set_bb s (Z.lor (k_bb s) (Z.shiftl x (k_bc s)))) (k_bc s + 8)) rest.
Proof. intros L H. cbn [fill_bits]. destruct (Z.ltb_spec (k_bc s) (k_c2 s)); [|lia]. rewrite H. reflexivity. Qed.
Lemma fill_bits_enough s buf : k_c2 s <= k_bc s -> fill_bits s buf = Ok (s, buf).
Proof. intros L. destruct buf as [|x t]; [reflexivity|]. cbn [fill_bits]. destruct (Z.ltb_spec (k_bc s) (k_c2 s)); [lia|reflexivity]. Qed.

Lemma shift_ok x bc : byte x -> 0 <= bc < 12 -> (bc <? 31) && (Z.shiftl x bc <? 2147483648) = true.
Proof.
  intros B R. unfold byte in B. rewrite Z.shiftl_mul_pow2 by lia.
  assert (2 ^ bc <= 2 ^ 11) by (apply Z.pow_le_mono_r; lia). assert (0 < 2 ^ bc) by (apply Z.pow_pos_nonneg; lia).
  assert (x * 2 ^ bc < 2147483648) by nia. set (y := x * 2 ^ bc) in *. clearbody y. lia.
Qed.

(** One turn of the loop in terms of single octets. *)
Lemma loop_cons n7 : forall rest fuel s x, DI n7 s -> (k_trans s = false -> k_c2 s <= 12) -> byte x -> (length rest <= fuel)%nat ->
  forall s1 go, dec_step s x = Ok (s1, go) -> (go = true -> DI n7 s1) ->
  exists f, (length rest <= f)%nat /\ decompress_loop (S fuel) s (x :: rest) =
            if go then decompress_loop f s1 rest else Ok (s1, -1).
Proof.
  intros rest fuel s x D C2 B F s1 go ES DS. unfold dec_step in ES. cbn [decompress_loop].
  pose proof (di_mode _ _ D) as DM. destruct (k_trans s) eqn:TR.
  - exists fuel. split; [auto|]. destruct (k_escd s).
    + destruct (x =? ECM).
      { destruct (send_string (set_escd s false)) as [s2|]; cbn [rbind] in *; [|discriminate]. injection ES as <- <-. reflexivity. }
      destruct (x =? EID).
      { ksimpl. destruct (follow_octet_twice _ _) as [[s2 t]|]; cbn [rbind] in *; [|discriminate].
        destruct t; [|discriminate]. injection ES as <- <-. reflexivity. }
      destruct (x =? RESET).
      { destruct (send_string (set_escd s false)) as [s2|]; cbn [rbind] in *; [|discriminate]. injection ES as <- <-. reflexivity. }
      injection ES as <- <-. reflexivity.
    + destruct (x =? k_esc s); [injection ES as <- <-; reflexivity|].
      destruct (follow_octet_twice _ _) as [[s2 t]|]; cbn [rbind] in *; [|discriminate].
      destruct t; [|discriminate]. injection ES as <- <-. reflexivity.
  - specialize (C2 eq_refl). destruct DM as (_ & BC & _). rewrite fill_bits_more by (try apply shift_ok; auto; lia).
    rewrite (shift_ok x (k_bc s)) in ES by (auto; lia). cbv zeta in ES. revert ES. ksimpl.
    set (s2 := set_bc _ _) in *. assert (E2 : k_bc s2 = k_bc s + 8) by reflexivity. assert (E3 : k_c2 s2 = k_c2 s) by reflexivity.
    assert (E4 : k_trans s2 = false) by exact TR.
    destruct (Z.ltb_spec (k_bc s + 8) (k_c2 s)) as [L|L]; intros ES.
    + injection ES as <- <-. exists (S fuel). split; [lia|]. destruct rest as [|y rest].
      * cbn [fill_bits rbind]. rewrite E2, E3. destruct (Z.ltb_spec (k_bc s + 8) (k_c2 s)); [|lia]. destruct fuel; reflexivity.
      * cbn [decompress_loop]. rewrite E4. reflexivity.
    + rewrite fill_bits_enough by lia. cbn [rbind]. rewrite E2, E3.
      destruct (Z.ltb_spec (k_bc s + 8) (k_c2 s)); [lia|].
      destruct (Z.ltb_spec (k_c2 s) 31); [|lia]. exists fuel. split; [auto|].
      change (k_bb s2) with (Z.lor (k_bb s) (Z.shiftl x (k_bc s))).
      set (r := take_codeword _ _) in *.
      assert (ER : r = Ok (s1, go)) by exact ES. clearbody r. subst r. cbn [rbind]. reflexivity.
Qed.

Definition keeps_o (s s' : comp) : Prop := k_p0 s' = k_p0 s /\ o_max (k_out s') = o_max (k_out s) /\ k_n7 s' = k_n7 s.
Lemma step_trans_ok n7 s x : DI n7 s -> k_trans s = true -> byte x ->
  exists s' go, dec_step s x = Ok (s', go) /\
    (go = true -> DI n7 s' /\ a_octet n7 (abs s) x = Ok (abs s') /\ keeps_o s s' /\ k_bc s' = 0 /\ (k_bb s = 0 -> k_bb s' = 0)) /\
    (go = false -> a_octet n7 (abs s) x = UB).
Proof.
  intros D TR B. pose proof (di_mode _ _ D) as DM. unfold dec_step, keeps_o.
  pose proof (di_ci _ _ D) as C. pose proof (di_total _ _ D) as TOT. pose proof (ci_n7 _ _ C) as N7.
  pose proof (di_zlen _ _ D) as ZL. pose proof (di_slen _ _ D) as SL. pose proof (di_flen _ _ D) as FL.
  rewrite TR in *.
  assert (DE : forall b, DI n7 (set_escd s b)).
  { intros b. destruct D; constructor; ksimpl; auto. rewrite TR in *. auto. }
  unfold a_octet. cbn [a_core a_trans a_escd a_esc a_c2 a_out abs].
  destruct (k_escd s) eqn:ED.
  - destruct (x =? ECM).
    { destruct (send_string_ok (set_escd s false)) as (o' & -> & B' & M' & S'); [apply D|ksimpl; lia|]. cbn [rbind].
      eexists _, true. split; [reflexivity|]. split; [|discriminate]. intros _. ksimpl. split; [|split; [|auto]].
      - constructor; ksimpl; try apply D; auto; try lia.
        + constructor; unfold kcore; ksimpl; try apply C; auto.
          * destruct (ci_l _ _ C) as [(E & _)|(R & NE & LT & w & W & WL)]; unfold kcore in *; ksimpl; [left; auto|].
            right. repeat split; auto; try lia. exists w. split; auto. lia.
          * left. auto.
        + pose proof (di_c2 _ _ D). repeat split; lia.
      - unfold abs, deliv, kcore. ksimpl. rewrite S'. cbn [Z.to_nat firstn]. rewrite app_nil_r. reflexivity. }
    destruct (x =? EID).
    { ksimpl. assert (DB : DI n7 (set_esc (set_escd s false) (u8 (k_esc s + ESC_STEP)))).
      { destruct D; constructor; ksimpl; auto; [unfold u8, byte; lia|]. rewrite TR in *. auto. }
      destruct (follow_twice_ok n7 _ (k_esc s) DB) as (s' & -> & A & D' & KP); [exact TR|apply D|]. cbn [rbind].
      eexists _, true. split; [reflexivity|]. split; [|discriminate]. intros _. unfold keeps in KP. ksimpl.
      split; [auto|]. split; [|repeat split; try apply KP; destruct KP as (_ & K1 & K2 & _); congruence].
      rewrite <- A. unfold abs, deliv, kcore. ksimpl. rewrite TR. reflexivity. }
    destruct (x =? RESET).
    { destruct (send_string_ok (set_escd s false)) as (o' & -> & B' & M' & S'); [apply D|ksimpl; lia|]. cbn [rbind].
      eexists _, true. split; [reflexivity|]. split; [|discriminate]. intros _. unfold dictionary_init. ksimpl. split; [|split; [|auto]].
      - constructor; unfold kcore, N3, N5; ksimpl; try apply D; auto; try lia.
        + constructor; ksimpl; auto.
          * apply WF_init; [apply (WF_n2 _ _ (ci_wf _ _ C))|lia].
          * left; auto.
          * left; auto.
        + unfold byte; lia.
      - unfold abs, deliv, kcore. ksimpl. rewrite S'. cbn [Z.to_nat firstn]. rewrite app_nil_r. reflexivity. }
    eexists _, false. split; [reflexivity|]. split; [discriminate|auto].
  - destruct (x =? k_esc s).
    { eexists _, true. split; [reflexivity|]. split; [|discriminate]. intros _. ksimpl. split; [auto|]. split; [|auto].
      unfold abs, deliv, kcore. ksimpl. rewrite TR. reflexivity. }
    destruct (follow_twice_ok n7 s x D TR B) as (s' & -> & A & D' & KP). cbn [rbind].
    eexists _, true. split; [reflexivity|]. split; [|discriminate]. intros _. unfold keeps in KP.
    split; [auto|]. split; [|repeat split; try apply KP; destruct KP as (_ & K1 & K2 & _); congruence].
    rewrite <- A. unfold abs. rewrite TR, ED. reflexivity.
Qed.

Lemma di_bits n7 s bb bc : DI n7 s -> k_trans s = false -> 0 <= bc < k_c2 s -> DI n7 (set_bc (set_bb s bb) bc).
Proof.
  intros D TR R. pose proof (di_mode _ _ D) as DM. rewrite TR in DM.
  destruct D; constructor; ksimpl; auto. rewrite TR in *. repeat split; try apply DM; lia.
Qed.
Lemma code_range v c2 : 9 <= c2 <= 12 -> 0 <= v mod 2 ^ c2 < 4096.
Proof.
  intros R. assert (0 < 2 ^ c2) by (apply Z.pow_pos_nonneg; lia).
  assert (2 ^ c2 <= 2 ^ 12) by (apply Z.pow_le_mono_r; lia). change (2 ^ 12) with 4096 in *.
  pose proof (Z.mod_pos_bound v (2 ^ c2)). lia.
Qed.
(** In compressed mode. *)
Lemma step_code_ok n7 s x : DI n7 s -> k_trans s = false -> k_c2 s <= 12 -> byte x ->
  let v := Z.lor (k_bb s) (Z.shiftl x (k_bc s)) in
  if k_bc s + 8 <? k_c2 s then
    dec_step s x = Ok (set_bc (set_bb s v) (k_bc s + 8), true) /\ DI n7 (set_bc (set_bb s v) (k_bc s + 8))
  else
    let s1 := set_bc (set_bb s (Z.shiftr v (k_c2 s))) (k_bc s + 8 - k_c2 s) in
    DI n7 s1 /\ k_bc s1 < 8 /\ dec_step s x = take_codeword s1 (v mod 2 ^ k_c2 s).
Proof.
  intros D TR C2 B. pose proof (di_mode _ _ D) as DM. cbv zeta. unfold dec_step. rewrite TR in *.
  pose proof (di_c2 _ _ D) as C9. destruct DM as (LM & BC & ES).
  rewrite (shift_ok x (k_bc s)) by (auto; lia). cbv zeta. ksimpl.
  destruct (Z.ltb_spec (k_bc s + 8) (k_c2 s)) as [L|L].
  - split; [reflexivity|]. apply di_bits; auto. lia.
  - destruct (Z.ltb_spec (k_c2 s) 31); [|lia]. rewrite land_mask by lia. set (v := Z.lor _ _).
    pose proof (code_range v (k_c2 s) ltac:(lia)) as CV. unfold u16. rewrite (Z.mod_small (v mod _)) by lia.
    split; [apply di_bits; auto; lia|]. split; [lia|]. reflexivity.
Qed.

Lemma step_ok n7 s x : DI n7 s -> k_c2 s <= 12 -> byte x ->
  exists s' go, dec_step s x = Ok (s', go) /\ (go = true -> DI n7 s' /\ keeps_o s s').
Proof.
  intros D C2 B. destruct (k_trans s) eqn:TR.
  - destruct (step_trans_ok n7 s x D TR B) as (s' & go & E & G & _). exists s', go. split; [auto|]. intros H.
    specialize (G H). intuition.
  - pose proof (step_code_ok n7 s x D TR C2 B) as H. cbv zeta in H. pose proof (di_c2 _ _ D) as C9.
    destruct (Z.ltb_spec (k_bc s + 8) (k_c2 s)) as [L|L].
    + destruct H as (E & D'). eexists _, true. split; [exact E|]. intros _. split; [exact D'|]. unfold keeps_o. ksimpl. auto.
    + destruct H as (D1 & BC & E). set (v := Z.lor _ _) in *.
      pose proof (code_range v (k_c2 s) ltac:(lia)) as CV. set (s1 := set_bc _ _) in *.
      destruct (codeword_ok n7 s1 (v mod 2 ^ k_c2 s) D1 TR BC ltac:(unfold s1; ksimpl; lia) CV) as (s' & go & E2 & G & _).
      exists s', go. rewrite E. split; [exact E2|]. intros ->. destruct (G eq_refl) as (D' & _ & KP & _).
      split; [exact D'|]. unfold keeps_c, keeps_o, s1 in *. ksimpl. intuition.
Qed.

(** The loop, until a codeword size over 12 bits has been asked for. *)
Lemma loop_ok n7 : forall buf fuel s, DI n7 s -> k_c2 s <= 12 -> bytes buf -> (length buf <= fuel)%nat ->
  (exists s' r, decompress_loop fuel s buf = Ok (s', r) /\ dec_run s buf = Ok (s', r) /\
     (r = 0 -> DI n7 s' /\ k_c2 s' <= 12 /\ keeps_o s s')) \/
  (exists pre post s1, buf = pre ++ post /\ (forall f, (length pre <= f)%nat -> decompress_loop f s pre = Ok (s1, 0)) /\ dec_run s pre = Ok (s1, 0) /\ 12 < k_c2 s1).
Proof.
  induction buf as [|x rest IH]; intros fuel s D C2 B F.
  - left. exists s, 0. destruct fuel; (split; [reflexivity|]; split; [reflexivity|]; unfold keeps_o; auto).
  - apply Forall_cons_iff in B. destruct B as (BX & BR). destruct fuel as [|fuel]; [cbn in F; lia|]. cbn in F.
    destruct (step_ok n7 s x D C2 BX) as (s1 & go & E & G).
    destruct go; [|left].
    + destruct (G eq_refl) as (D1 & P1 & M1 & N71). destruct (Z_le_gt_dec (k_c2 s1) 12) as [L|L].
      * destruct (loop_cons n7 rest fuel s x D (fun _ => C2) BX ltac:(lia) s1 true E (fun _ => D1)) as (f & LF & EL).
        destruct (IH f s1 D1 L BR LF) as [(s' & r & E1 & E2 & H)|(pre & post & s2 & EB & E1 & E2 & H)].
        -- left. exists s', r. split; [congruence|]. cbn [dec_run]. rewrite E. cbn [rbind]. split; [auto|].
           intros HR. destruct (H HR) as (A1 & A2 & A3 & A4 & A5). split; [auto|]. split; [auto|]. unfold keeps_o. split; [|split]; congruence.
        -- right. exists (x :: pre), post, s2. subst rest. split; [reflexivity|].
           split.
           { intros f' F'. cbn [length] in F'. destruct f' as [|f']; [lia|].
             destruct (loop_cons n7 pre f' s x D (fun _ => C2) BX ltac:(lia) s1 true E (fun _ => D1)) as (f2 & LF2 & EL2). rewrite EL2. auto. }
           cbn [dec_run]. rewrite E. cbn [rbind]. auto.
      * right. exists [x], rest, s1. split; [reflexivity|].
        split.
        { intros f F'. destruct f as [|f]; [cbn in F'; lia|].
          destruct (loop_cons n7 [] f s x D (fun _ => C2) BX ltac:(cbn; lia) s1 true E (fun _ => D1)) as (f2 & _ & EL). rewrite EL. destruct f2; reflexivity. } cbn [dec_run]. rewrite E. cbn [rbind]. split; [reflexivity|lia].
    + destruct (loop_cons n7 rest fuel s x D (fun _ => C2) BX ltac:(lia) s1 false E ltac:(discriminate)) as (f & LF & EL).
      exists s1, (-1). split; [exact EL|]. cbn [dec_run]. rewrite E. split; [reflexivity|lia].
Qed.

(** ---- bit by bit ---- *)
(** The abstract decompressor, the bits of the token in progress, whether the rest of the
    octet is being skipped, and the position in the octet. *)
Record bm := mkB { b_a : ad; b_acc : list bool; b_skip : bool; b_pos : Z }.
Definition bstep (n7 : Z) (m : bm) (b : bool) : res bm :=
  let a := b_a m in
  let p := (b_pos m + 1) mod 8 in
  if b_skip m then if b then UB else Ok (mkB a [] (negb (p =? 0)) p)
  else
    let acc := b_acc m ++ [b] in
    if a_trans a then
      if Z.of_nat (length acc) =? 8 then
        do a <- a_octet n7 a (of_bits_lsb acc); Ok (mkB a [] false p)
      else Ok (mkB a acc false p)
    else if 12 <? a_c2 a then UB
    else if Z.of_nat (length acc) =? a_c2 a then
      let code := of_bits_lsb acc in
      do a <- a_code n7 a code;
      Ok (mkB a [] (((code =? ETM) || (code =? FLUSH)) && negb (p =? 0)) p)
    else Ok (mkB a acc false p).
Fixpoint brun (n7 : Z) (m : bm) (l : list bool) : res bm :=
  match l with [] => Ok m | b :: t => do m <- bstep n7 m b; brun n7 m t end.
Lemma brun_app n7 l : forall m k, brun n7 m (l ++ k) = do m <- brun n7 m l; brun n7 m k.
Proof. induction l as [|b l IH]; intros m k; [reflexivity|]. cbn [app brun]. destruct (bstep n7 m b); cbn [rbind]; auto. Qed.

Definition need (a : ad) : Z := if a_trans a then 8 else a_c2 a.
(** Bits which do not yet complete a token. *)
Lemma brun_acc n7 l : forall m, b_skip m = false -> (a_trans (b_a m) = false -> a_c2 (b_a m) <= 12) ->
  Z.of_nat (length (b_acc m)) + Z.of_nat (length l) < need (b_a m) ->
  brun n7 m l = Ok (mkB (b_a m) (b_acc m ++ l) (b_skip m) (if (length l =? 0)%nat then b_pos m else (b_pos m + Z.of_nat (length l)) mod 8)).
Proof.
  induction l as [|b l IH]; intros m SK C L; [cbn [brun length Nat.eqb]; rewrite app_nil_r; destruct m; reflexivity|].
  cbn [brun length Nat.eqb]. unfold bstep. rewrite SK. cbv zeta. rewrite app_length. cbn [length] in *. unfold need in L.
  assert (H : forall p, brun n7 (mkB (b_a m) (b_acc m ++ [b]) false p) l =
     Ok (mkB (b_a m) (b_acc m ++ b :: l) false (if (length l =? 0)%nat then p else (p + Z.of_nat (length l)) mod 8))).
  { intros p. rewrite IH; cbn [b_a b_acc b_skip b_pos]; auto.
    - rewrite <- app_assoc. reflexivity.
    - rewrite app_length. cbn [length]. unfold need. lia. }
  assert (P : (if (length l =? 0)%nat then (b_pos m + 1) mod 8 else ((b_pos m + 1) mod 8 + Z.of_nat (length l)) mod 8)
              = (b_pos m + Z.of_nat (S (length l))) mod 8).
  { destruct (Nat.eqb_spec (length l) 0) as [->|_]; [reflexivity|]. rewrite Zplus_mod_idemp_l. f_equal. lia. }
  destruct (a_trans (b_a m)).
  - destruct (Z.eqb_spec (Z.of_nat (length (b_acc m) + 1)) 8); [lia|]. cbn [rbind]. rewrite H, P. reflexivity.
  - specialize (C eq_refl). destruct (Z.ltb_spec 12 (a_c2 (b_a m))); [lia|].
    destruct (Z.eqb_spec (Z.of_nat (length (b_acc m) + 1)) (a_c2 (b_a m))); [lia|]. cbn [rbind]. rewrite H, P. reflexivity.
Qed.

Lemma brun_acc_inv n7 l m m' : b_skip m = false -> Z.of_nat (length (b_acc m)) + Z.of_nat (length l) < need (b_a m) ->
  brun n7 m l = Ok m' ->
  m' = mkB (b_a m) (b_acc m ++ l) false (if (length l =? 0)%nat then b_pos m else (b_pos m + Z.of_nat (length l)) mod 8).
Proof.
  intros SK L E. destruct l as [|b l].
  - cbn in E. injection E as <-. rewrite app_nil_r, <- SK. destruct m; reflexivity.
  - rewrite brun_acc in E; auto; [rewrite SK in E; congruence|]. intros T.
    destruct (Z_le_gt_dec (a_c2 (b_a m)) 12) as [|G]; [auto|exfalso]. cbn [brun] in E. unfold bstep in E. rewrite SK, T in E.
    cbv zeta in E. destruct (Z.ltb_spec 12 (a_c2 (b_a m))); [discriminate|lia].
Qed.

Lemma split_last {A} (l : list A) : (0 < length l)%nat -> exists k x, l = k ++ [x].
Proof. destruct l as [|x l] using rev_ind; [cbn; lia|]. eauto. Qed.

(** Bits which complete a token. *)
Lemma brun_octet n7 l : forall m, b_skip m = false -> a_trans (b_a m) = true ->
  Z.of_nat (length (b_acc m)) + Z.of_nat (length l) = 8 -> (0 < length l)%nat ->
  brun n7 m l = do a <- a_octet n7 (b_a m) (of_bits_lsb (b_acc m ++ l)); Ok (mkB a [] false ((b_pos m + Z.of_nat (length l)) mod 8)).
Proof.
  intros m SK T L P. destruct (split_last l P) as (k & x & ->). rewrite app_length in *. cbn [length] in *.
  rewrite brun_app, brun_acc by (unfold need; try rewrite T; auto; try lia; congruence). cbn [rbind brun].
  unfold bstep. cbn [b_a b_acc b_skip b_pos]. rewrite SK, T, <- app_assoc. cbv zeta. rewrite !app_length. cbn [length].
  destruct (Z.eqb_spec (Z.of_nat (length (b_acc m) + (length k + 1))) 8); [|lia].
  destruct (a_octet _ _ _); cbn [rbind]; [|reflexivity]. do 2 f_equal.
  destruct (Nat.eqb_spec (length k) 0) as [E|_]; [rewrite E; f_equal; lia|]. rewrite Zplus_mod_idemp_l. f_equal. lia.
Qed.
Lemma brun_code n7 l : forall m, b_skip m = false -> a_trans (b_a m) = false -> a_c2 (b_a m) <= 12 ->
  Z.of_nat (length (b_acc m)) + Z.of_nat (length l) = a_c2 (b_a m) -> (0 < length l)%nat ->
  brun n7 m l = let code := of_bits_lsb (b_acc m ++ l) in let p := (b_pos m + Z.of_nat (length l)) mod 8 in
    do a <- a_code n7 (b_a m) code; Ok (mkB a [] (((code =? ETM) || (code =? FLUSH)) && negb (p =? 0)) p).
Proof.
  intros m SK T C L P. destruct (split_last l P) as (k & x & ->). rewrite app_length in *. cbn [length] in *.
  rewrite brun_app, brun_acc by (unfold need; try rewrite T; auto; lia). cbn [rbind brun].
  unfold bstep. cbn [b_a b_acc b_skip b_pos]. rewrite SK, T, <- app_assoc. cbv zeta. rewrite !app_length. cbn [length].
  destruct (Z.ltb_spec 12 (a_c2 (b_a m))); [lia|].
  destruct (Z.eqb_spec (Z.of_nat (length (b_acc m) + (length k + 1))) (a_c2 (b_a m))); [|lia].
  replace (((if (length k =? 0)%nat then b_pos m else (b_pos m + Z.of_nat (length k)) mod 8) + 1) mod 8)
    with ((b_pos m + Z.of_nat (length k + 1)) mod 8).
  2:{ destruct (Nat.eqb_spec (length k) 0) as [E|_]; [rewrite E; f_equal; lia|]. rewrite Zplus_mod_idemp_l. f_equal. lia. }
  destruct (a_code _ _ _); reflexivity.
Qed.
(** Skipping to the end of the octet. *)
Lemma brun_skip n7 l : forall m, b_skip m = true -> 1 <= b_pos m <= 7 -> b_pos m + Z.of_nat (length l) = 8 ->
  forall m', brun n7 m l = Ok m' -> l = repeat false (length l) /\ m' = mkB (b_a m) [] false 0.
Proof.
  induction l as [|b l IH]; intros m SK P L m' E; [cbn in L; lia|].
  cbn [brun] in E. unfold bstep in E. rewrite SK in E. cbv zeta in E. cbn [length] in *. destruct b; [discriminate|]. cbn [rbind] in E.
  destruct (Z.eq_dec (b_pos m) 7) as [E7|N7].
  - destruct l; [|cbn in L; lia]. rewrite E7 in E. cbn in E. injection E as <-. auto.
  - rewrite (Z.mod_small (b_pos m + 1)) in E by lia. destruct (Z.eqb_spec (b_pos m + 1) 0); [lia|].
    apply IH in E; cbn [b_skip b_pos b_a]; auto; try lia. destruct E as (E & ->). split; [|reflexivity]. cbn [repeat]. congruence.
Qed.
Lemma brun_pad n7 k : forall m, b_skip m = true -> 1 <= b_pos m <= 7 -> b_pos m + Z.of_nat k = 8 ->
  brun n7 m (repeat false k) = Ok (mkB (b_a m) [] false 0).
Proof.
  induction k as [|k IH]; intros m SK P L; [lia|].
  cbn [brun repeat]. unfold bstep. rewrite SK. cbv zeta. cbn [rbind].
  destruct (Z.eq_dec (b_pos m) 7) as [E7|N7].
  - replace k with O by lia. rewrite E7. reflexivity.
  - rewrite (Z.mod_small (b_pos m + 1)) by lia. destruct (Z.eqb_spec (b_pos m + 1) 0); [lia|].
    rewrite IH; cbn [b_skip b_pos b_a negb]; auto; lia.
Qed.

(** The concrete decompressor at an octet boundary. *)
Record CB (n7 : Z) (s : comp) (m : bm) : Prop := {
  cb_di : DI n7 s;
  cb_abs : abs s = b_a m;
  cb_skip : b_skip m = false;
  cb_pos : b_pos m = 0;
  cb_bits : if k_trans s then b_acc m = [] /\ k_bb s = 0
            else k_bc s = Z.of_nat (length (b_acc m)) /\ k_bb s = of_bits_lsb (b_acc m)
}.

Lemma lor_bits acc x : 
  Z.lor (of_bits_lsb acc) (Z.shiftl x (Z.of_nat (length acc))) = of_bits_lsb acc + x * 2 ^ Z.of_nat (length acc).
Proof. rewrite Z.shiftl_mul_pow2 by lia. apply lor_disj; [lia|]. apply of_bits_lsb_range. Qed.
Lemma bits_len n x : length (bits_lsb n x) = n.
Proof. revert x. induction n as [|n IH]; intros x; cbn [bits_lsb length]; auto. Qed.

Lemma a_code_trans n7 a code a' : a_code n7 a code = Ok a' -> a_trans a' = if code =? ETM then true else a_trans a.
Proof.
  unfold a_code, N6, ETM, FLUSH. destruct (Z.ltb_spec code 3).
  - destruct (code =? 0); [intros E; injection E as <-; reflexivity|]. destruct (code =? 1); [intros E; injection E as <-; reflexivity|].
    destruct (_ <? _); [discriminate|]. intros E; injection E as <-; reflexivity.
  - destruct (Z.eqb_spec code 0); [lia|]. destruct (code =? d_c1 _); [discriminate|]. destruct (word_of _ _ _); cbn [rbind]; [|discriminate].
    match goal with |- (do (_, _) <- ?r; _) = _ -> _ => destruct r as [[d y]|] end; cbn [rbind]; [|discriminate].
    intros E; injection E as <-; reflexivity.
Qed.

(** An octet of honest input. *)
Lemma octet_sim n7 s m x m' : CB n7 s m -> byte x -> brun n7 m (bits_lsb 8 x) = Ok m' ->
  exists s', dec_step s x = Ok (s', true) /\ CB n7 s' m' /\ keeps_o s s' /\ (k_trans s = false -> k_c2 s <= 12).
Proof.
  intros CBM B E. pose proof (cb_di _ _ _ CBM) as D. pose proof (cb_abs _ _ _ CBM) as A. pose proof (cb_bits _ _ _ CBM) as BI.
  pose proof (cb_skip _ _ _ CBM) as SK. pose proof (cb_pos _ _ _ CBM) as PO.
  assert (XR : 0 <= x < 2 ^ Z.of_nat 8) by (unfold byte in B; change (2 ^ Z.of_nat 8) with 256; lia).
  destruct (k_trans s) eqn:TR.
  - destruct BI as (AC & BB). assert (TA : a_trans (b_a m) = true) by (rewrite <- A; exact TR).
    rewrite brun_octet in E by (auto; rewrite ?AC, ?bits_len; cbn; lia). rewrite AC in E. cbn [app] in E.
    rewrite of_bits_lsb_bits in E by auto. rewrite bits_len, PO in E. change ((0 + Z.of_nat 8) mod 8) with 0 in E.
    rewrite <- A in E. destruct (a_octet n7 (abs s) x) as [a|] eqn:EA; [|discriminate]. cbn [rbind] in E. injection E as <-.
    destruct (step_trans_ok n7 s x D TR B) as (s' & go & ES & G & F). destruct go; [|rewrite (F eq_refl) in EA; discriminate].
    destruct (G eq_refl) as (D' & A' & KO & BC' & BB'). exists s'. split; [auto|]. split; [|split; [auto|discriminate]].
    constructor; cbn [b_a b_acc b_skip b_pos]; auto; [congruence|]. destruct (k_trans s'); cbn; auto.
  - destruct BI as (BC & BB). assert (TA : a_trans (b_a m) = false) by (rewrite <- A; exact TR).
    pose proof (di_mode _ _ D) as DM. rewrite TR in DM. destruct DM as (LM & BR & ESC). pose proof (di_c2 _ _ D) as C9.
    assert (C2A : a_c2 (b_a m) = k_c2 s) by (rewrite <- A; reflexivity).
    assert (C12 : k_c2 s <= 12).
    { destruct (Z_le_gt_dec (k_c2 s) 12) as [|G]; [auto|exfalso]. cbn [bits_lsb brun] in E. unfold bstep in E. rewrite SK, TA, C2A in E.
      cbv zeta in E. destruct (Z.ltb_spec 12 (k_c2 s)); [discriminate|lia]. }
    pose proof (step_code_ok n7 s x D TR C12 B) as H. cbv zeta in H.
    assert (V : Z.lor (k_bb s) (Z.shiftl x (k_bc s)) = of_bits_lsb (b_acc m ++ bits_lsb 8 x)).
    { rewrite BB, BC, lor_bits, of_bits_lsb_app, of_bits_lsb_bits by auto. lia. }
    rewrite V in H. destruct (Z.ltb_spec (k_bc s + 8) (k_c2 s)) as [L|L].
    + destruct H as (ES & D'). eexists. split; [exact ES|].
      apply brun_acc_inv in E; [|auto|unfold need; rewrite ?TA, ?bits_len; lia]. subst m'.
      split; [|split; [unfold keeps_o; ksimpl; auto|auto]].
      constructor; cbn [b_a b_acc b_skip b_pos]; auto.
      * rewrite ?bits_len, PO. reflexivity.
      * ksimpl. rewrite TR. rewrite app_length, bits_len. split; [lia|reflexivity].
    + destruct H as (D1 & BC1 & ES). set (s1 := set_bc _ _) in *.
      set (k := Z.to_nat (k_c2 s - k_bc s)) in *.
      assert (K8 : (1 <= k <= 8)%nat) by (unfold k; lia).
      assert (SP : bits_lsb 8 x = bits_lsb k x ++ bits_lsb (8 - k) (x / 2 ^ Z.of_nat k)).
      { rewrite <- bits_split. f_equal. lia. }
      rewrite SP in *. set (b1 := bits_lsb k x) in *. set (b2 := bits_lsb (8 - k) _) in *.
      assert (L1 : length b1 = k) by apply bits_len. assert (L2 : length b2 = (8 - k)%nat) by apply bits_len.
      assert (LA : Z.of_nat (length (b_acc m ++ b1)) = k_c2 s) by (rewrite app_length, L1; unfold k; lia).
      rewrite app_assoc in V, ES. rewrite (of_bits_lsb_app (b_acc m ++ b1)), LA in ES.
      pose proof (of_bits_lsb_range (b_acc m ++ b1)) as RA. rewrite LA in RA.
      pose proof (of_bits_lsb_range b2) as RB.
      set (code := of_bits_lsb (b_acc m ++ b1)) in *.
      assert (EM : (code + 2 ^ k_c2 s * of_bits_lsb b2) mod 2 ^ k_c2 s = code).
      { rewrite Z.mul_comm, Z_mod_plus_full. apply Z.mod_small. auto. }
      rewrite EM in ES.
      assert (BB1 : k_bb s1 = of_bits_lsb b2).
      { unfold s1. ksimpl. rewrite ?SP, ?app_assoc, (of_bits_lsb_app (b_acc m ++ b1)), LA. fold code.
        rewrite Z.shiftr_div_pow2 by lia. rewrite Z.mul_comm, Z.div_add by lia. rewrite Z.div_small by auto. lia. }
      assert (BCE : k_bc s1 = Z.of_nat (length b2)) by (unfold s1; ksimpl; rewrite L2; unfold k; lia).
      assert (CR : 0 <= code < 4096).
      { rewrite <- EM. apply code_range. lia. }
      rewrite brun_app, brun_code in E by (rewrite ?C2A, ?L1; auto; unfold k; lia). cbv zeta in E. fold code in E.
      rewrite <- A in E. change (abs s) with (abs s1) in E. rewrite PO, L1 in E.
      destruct (codeword_ok n7 s1 code D1 TR BC1 ltac:(unfold s1; ksimpl; lia) CR) as (s' & go & EC & G & F).
      destruct go; [|rewrite (F eq_refl) in E; discriminate].
      destruct (G eq_refl) as (D' & AC & (P0 & KB & KM & KN) & BC' & C2'). rewrite AC in E. cbn [rbind] in E.
      exists s'. split; [congruence|]. split; [|split; [unfold keeps_o, s1 in *; ksimpl; auto|auto]].
      assert (TR' : k_trans s' = (code =? ETM)).
      { apply a_code_trans in AC. cbn [abs a_trans] in AC. rewrite AC. unfold s1. ksimpl. rewrite TR. destruct (code =? ETM); reflexivity. }
      destruct ((code =? ETM) || (code =? FLUSH)) eqn:CTL.
      * assert (Z2 : m' = mkB (abs s') [] false 0 /\ of_bits_lsb b2 = 0).
        { destruct (Nat.eq_dec k 8) as [K|K].
          - assert (b2 = []) as -> by (apply length_zero_iff_nil; lia). cbn [brun] in E. rewrite K in E. cbn in E. injection E as <-. auto.
          - rewrite (Z.mod_small (0 + Z.of_nat k)) in E by lia.
            replace (true && negb (0 + Z.of_nat k =? 0)) with true in E by lia.
            apply brun_skip in E; cbn [b_skip b_pos b_a]; auto; try lia. destruct E as (E & ->). split; [auto|].
            rewrite E, <- (bits_zero (length b2)), of_bits_lsb_mod. apply Z.mod_0_l. pose proof (p2_pos (length b2)). lia. }
        destruct Z2 as (-> & Z2). constructor; cbn [b_a b_acc b_skip b_pos]; auto.
        destruct (k_trans s'); cbn [length of_bits_lsb]; [split; [auto|congruence]|split; [auto|congruence]].
      * assert (CE : (code =? ETM) = false) by (destruct (code =? ETM); auto; discriminate).
        cbn [andb] in E. apply brun_acc_inv in E; cbn [b_skip b_acc b_a b_pos]; auto.
        -- cbn [b_skip b_acc b_a b_pos app length] in E. subst m'. constructor; cbn [b_a b_acc b_skip b_pos]; auto.
           ++ rewrite L2. destruct (Nat.eqb_spec (8 - k) 0) as [Z8|Z8]; [replace k with 8%nat by lia; reflexivity|].
              rewrite Zplus_mod_idemp_l. replace (0 + Z.of_nat k + Z.of_nat (8 - k)) with 8 by lia. reflexivity.
           ++ rewrite TR', CE. split; congruence.
        -- unfold need. cbn [a_trans a_c2 abs length]. rewrite TR', CE, C2'. unfold s1. ksimpl. rewrite L2. destruct (code =? STEPUP); lia.
Qed.

Lemma unpack_cons x t : unpack_lsb (x :: t) = bits_lsb 8 x ++ unpack_lsb t.
Proof. reflexivity. Qed.
Lemma run_sim n7 : forall O s m m', CB n7 s m -> bytes O -> brun n7 m (unpack_lsb O) = Ok m' ->
  exists s', (forall fuel, (length O <= fuel)%nat -> decompress_loop fuel s O = Ok (s', 0)) /\ CB n7 s' m' /\ keeps_o s s'.
Proof.
  induction O as [|x O IH]; intros s m m' C B E.
  - cbn in E. injection E as <-. exists s. split; [intros [|f] _; reflexivity|]. split; [auto|]. unfold keeps_o. auto.
  - apply Forall_cons_iff in B. destruct B as (BX & BO). rewrite unpack_cons, brun_app in E.
    destruct (brun n7 m (bits_lsb 8 x)) as [m1|] eqn:E1; [|discriminate]. cbn [rbind] in E.
    destruct (octet_sim n7 s m x m1 C BX E1) as (s1 & ES & C1 & K1 & C12).
    destruct (IH s1 m1 m' C1 BO E) as (s' & EL & C' & K'). exists s'. split; [|split; [auto|]].
    + intros fuel F. destruct fuel as [|fuel]; [cbn in F; lia|]. cbn [length] in F.
      destruct (loop_cons n7 O fuel s x (cb_di _ _ _ C) C12 BX ltac:(lia) s1 true ES (fun _ => cb_di _ _ _ C1)) as (f & LF & ->). auto.
    + unfold keeps_o in *. intuition; congruence.
Qed.

Lemma bstep_out n7 m b m' : bstep n7 m b = Ok m' -> exists t, a_out (b_a m') = a_out (b_a m) ++ t.
Proof.
  assert (N : exists t, a_out (b_a m) = a_out (b_a m) ++ t) by (exists []; rewrite app_nil_r; reflexivity).
  unfold bstep. cbv zeta. destruct (b_skip m).
  { destruct b; [discriminate|]. intros E; injection E as <-. exact N. }
  destruct (a_trans (b_a m)) eqn:T.
  - destruct (_ =? 8); [|intros E; injection E as <-; exact N].
    destruct (a_octet _ _ _) as [a|] eqn:EA; cbn [rbind]; [|discriminate]. intros E; injection E as <-. cbn [b_a].
    revert EA. unfold a_octet, a_follow. destruct (a_escd (b_a m)).
    + destruct (_ =? ECM); [intros E; injection E as <-; exact N|].
      destruct (_ =? EID).
      { cbn [a_core a_out]. destruct (cstep _ _ _); cbn [rbind]; [|discriminate]. intros E; injection E as <-. cbn [a_out]. eauto. }
      destruct (_ =? RESET); [|discriminate]. intros E; injection E as <-; exact N.
    + destruct (_ =? a_esc _); [intros E; injection E as <-; exact N|].
      destruct (cstep _ _ _); cbn [rbind]; [|discriminate]. intros E; injection E as <-. cbn [a_out]. eauto.
  - destruct (12 <? _); [discriminate|]. destruct (_ =? a_c2 _); [|intros E; injection E as <-; exact N].
    destruct (a_code _ _ _) as [a|] eqn:EA; cbn [rbind]; [|discriminate]. intros E; injection E as <-. cbn [b_a].
    revert EA. unfold a_code. destruct (_ <? N6).
    + destruct (_ =? ETM); [intros E; injection E as <-; exact N|]. destruct (_ =? FLUSH); [intros E; injection E as <-; exact N|].
      destruct (_ <? _); [discriminate|]. intros E; injection E as <-; exact N.
    + destruct (_ =? d_c1 _); [discriminate|]. destruct (word_of _ _ _); cbn [rbind]; [|discriminate].
      match goal with |- (do (_, _) <- ?r; _) = _ -> _ => destruct r as [[d y]|] end; cbn [rbind]; [|discriminate].
      intros E; injection E as <-. cbn [a_out]. eauto.
Qed.
Lemma brun_out n7 l : forall m m', brun n7 m l = Ok m' -> exists t, a_out (b_a m') = a_out (b_a m) ++ t.
Proof.
  induction l as [|b l IH]; intros m m' E; cbn [brun] in E.
  - injection E as <-. exists []. rewrite app_nil_r. reflexivity.
  - destruct (bstep n7 m b) as [m1|] eqn:E1; cbn [rbind] in E; [|discriminate].
    destruct (bstep_out _ _ _ _ E1) as (t1 & H1). destruct (IH _ _ E) as (t2 & H2). exists (t1 ++ t2). rewrite H2, H1, app_assoc. reflexivity.
Qed.
