(** The T.85 decoder, given a well formed stream in pieces of any size. *)
From Verif Require Import Base Bits Arith_model Arith_spec Arith_enc_proofs Arith_dec_proofs T85_enc_model T85_dec_model T85_arith_proofs T85_pscd_proofs T85_run_proofs T85_safe_proofs.
From Coq Require Import ZifyBool ZifyNat.
Local Open Scope Z_scope.

(** ---- options that do not matter ---- *)

Lemma loop_opts c o o' yd f : opt o T85_LRLTWO = opt o' T85_LRLTWO -> opt o T85_TPBON = opt o' T85_TPBON ->
  forall s inp, pscd_loop f c o yd s inp = pscd_loop f c o' yd s inp.
Proof.
  intros E1 E2. assert (K : forall s inp, pscd_step c o yd s inp = pscd_step c o' yd s inp).
  { intros s inp. unfold pscd_step. rewrite <- E1, <- E2.
    assert (KC : forall s, dec_context c o s = dec_context c o' s) by (intros; unfold dec_context; rewrite E1; reflexivity).
    assert (KT : forall n r s, take_pixel c o n r s = take_pixel c o' n r s) by (intros; unfold take_pixel; rewrite E1; reflexivity).
    destruct (negb _); [reflexivity|]. destruct (_ && _); [reflexivity|]. destruct (row_start c _); [|reflexivity]. cbn [rbind].
    destruct (load_octets c a) as [b|]; [|reflexivity]. cbn [rbind]. rewrite KC. destruct (dec_context c o' b); [|reflexivity]. cbn [rbind].
    destruct (t81_t82_arith_decode _ _ _) as [[[r d] i1]|]; [|reflexivity]. cbn [rbind]. destruct (r <? 0); [reflexivity|]. rewrite KT. reflexivity. }
  induction f as [|f IH]; intros s inp; [reflexivity|]. cbn [pscd_loop]. rewrite K. destruct (pscd_step c o' yd s inp) as [[s1 i1|s1 i1]|]; [|reflexivity|reflexivity].
  cbn [rbind]. apply IH.
Qed.

Lemma D_clear c o yd s inp : decode_pscd c (Z.land o (Z.lnot T85_VLENGTH)) yd s inp = decode_pscd c o yd s inp.
Proof. unfold decode_pscd. apply loop_opts; [apply opt_clear2|apply opt_cleart]. Qed.

(** ---- good streams ---- *)

Definition ats (a : option Z) : list (Z * Z) := match a with Some tx => [(0, tx)] | None => [] end.
Definition atb (a : option Z) : list Z := match a with Some tx => [255; 6; 0; 0; 0; 0; tx; 0] | None => [] end.
Definition after (v : bool) (sF : pd) : pd :=
  p_at (p_tp (p_y (p_x (p_ar sF (set_nopadding (t81_t82_arith_decode_restart (par_s sF) true) v)) 0) (py sF) 0) true (plntp sF)) [].
Definition stripe : Type := (option Z * list Z)%type.
Definition flat (l : list stripe) : list Z := concat (map (fun x => atb (fst x) ++ snd x ++ [255; 2]) l).

Section GOOD.
Variable c : par.
Variable o : Z.
Variable yd : Z.
Hypothesis PC : par_ok c.
Notation D := (decode_pscd c o).

Definition at_ok (a : option Z) : Prop := match a with Some tx => byte tx /\ tx <= mx c /\ tx_ok o tx | None => True end.

(** The rest of a stripe has been read when padding brings the decoder to its end. *)
Definition ends (s : pd) (rem : list Z) (sF : pd) : Prop :=
  D yd (N s) rem = Ok (sF, [255; 2]) /\ dct (par_s sF) = -1 /\ dnopadding (par_s sF) = false /\ complete c yd sF = true /\ sane c o sF.

Inductive good : pd -> list stripe -> list event -> Prop :=
| good_end s : yd <= py s -> good s [] (pev s)
| good_stripe s a p rest ev sF : at_ok a -> bytes p -> no_marker p -> sane c o (p_at s (ats a)) -> ends (p_at s (ats a)) (p ++ [255; 2]) sF ->
    (rest <> [] -> py sF < yd) -> good (after false sF) rest ev -> good s ((a, p) :: rest) ev.

Lemma N_id s : dnopadding (par_s s) = false -> N s = s.
Proof. destruct s as [? ? ? ? ? ? ? ? ? ? ? ? ? ? d ?]. destruct d. cbn. intros ->. reflexivity. Qed.
Lemma N_np s : dnopadding (par_s (N s)) = false. Proof. reflexivity. Qed.

Lemma good_after v sF rest ev : good (after false sF) rest ev -> good (after v sF) rest ev.
Proof.
  intros H. inversion H as [s Hy E1 E2 E3|s a p rest' ev' sF' A1 A2 A2' A3 A4 A5 A6 E1 E2 E3]; subst.
  - change (pev (after false sF)) with (pev (after v sF)). constructor. exact Hy.
  - econstructor; eauto. pose proof (s_ar _ _ _ A3) as HA. destruct A3. constructor; auto. destruct HA. constructor; assumption.
Qed.

Lemma D_complete y s inp : sane c o s -> bytes inp -> complete c y s = true -> D y s inp = Ok (s, inp).
Proof. intros H Hb C. rewrite (D_unroll c o PC _ _ _ H Hb), (step_complete c o _ _ _ C). reflexivity. Qed.

Lemma D_later y y' s inp s' i' : y <= y' -> sane c o s -> bytes inp -> D y s inp = Ok (s', i') -> complete c y s' = true -> complete c y' s' = true -> D y' s inp = Ok (s', i').
Proof.
  intros Hy H Hb E C1 C2. unfold decode_pscd in E. revert E. generalize (pscd_fuel c y s). intros f. revert s inp H Hb.
  induction f as [|f IH]; intros s inp H Hb E; [discriminate|]. cbn [pscd_loop] in E.
  destruct (complete c y s) eqn:C.
  - rewrite (step_complete c o _ _ _ C) in E. cbn [rbind] in E. injection E as -> ->. apply D_complete; assumption.
  - destruct (step_safe c o PC y s inp H Hb) as (r & E1 & H1 & Hb1 & _). rewrite E1 in E. cbn [rbind] in E.
    assert (C' : complete c y' s = false) by (unfold complete in *; lia).
    rewrite (D_unroll c o PC _ _ _ H Hb). rewrite (step_yd c o y' y) by congruence. rewrite E1. destruct r as [s1 i1|s1 i1]; cbn [stepped_state stepped_rest] in *.
    + apply IH; assumption.
    + injection E as -> ->. reflexivity.
Qed.

Lemma D_cut s a z sF : sane c o s -> bytes a -> bytes z -> dnopadding (par_s s) = false -> D yd s (a ++ z) = Ok (sF, [255; 2] ++ z) -> D yd s a = Ok (sF, [255; 2]).
Proof.
  intros H Ha Hz Hn E. destruct (D_safe c o PC yd s a H Ha) as (s1 & i1 & E1 & H1 & Hi & _).
  destruct (loop_false c o PC yd _ _ _ _ _ E1 H Ha Hn) as (_ & [(_ & X)|(_ & X1 & X)]).
  - specialize (X z Hz). rewrite E in X. injection X as <- X. rewrite E1. change (255 :: 2 :: z) with ([255; 2] ++ z) in X. apply app_inv_tail in X. rewrite X. reflexivity.
  - exfalso. specialize (X z Hz). rewrite E in X. symmetry in X. destruct (D_safe c o PC yd s1 (i1 ++ z) H1 (bytes_app _ _ Hi Hz)) as (s2 & i2 & E2 & _ & _ & (u & Eu & _)).
    rewrite X in E2. injection E2 as <- <-. apply (f_equal (@length Z)) in Eu. rewrite !app_length in Eu. cbn [length] in Eu. destruct X1 as [-> | ->]; cbn [length] in Eu; lia.
Qed.

Lemma app_split {A} (a b x y : list A) : a ++ b = x ++ y -> (exists z, x = a ++ z /\ b = z ++ y) \/ (exists z, a = x ++ z /\ y = z ++ b).
Proof.
  revert x. induction a as [|h a IH]; intros x E.
  - left. exists x. auto.
  - destruct x as [|h' x].
    + right. exists (h :: a). auto.
    + injection E as -> E. destruct (IH x E) as [(z & -> & ->)|(z & -> & ->)]; [left|right]; exists z; auto.
Qed.

Lemma bytes_mark : bytes [255; 2]. Proof. repeat constructor; lia. Qed.

Lemma rem_head x t u : x :: t = u ++ [255; 2] -> no_marker u -> x = 255 ->
  (t = [2] /\ u = []) \/ (exists t', t = 0 :: t').
Proof.
  intros E Hu Hx. destruct u as [|y u].
  - left. injection E as _ ->. auto.
  - right. injection E as -> ->. destruct Hu as [Hu _]. destruct (Hu Hx) as [t' ->]. exists (t' ++ [255; 2]). reflexivity.
Qed.

Definition mode (v : bool) (s : pd) (rem : list Z) : Prop :=
  (v = false /\ dnopadding (par_s s) = false) \/
  (v = true /\ dnopadding (par_s s) = true /\ 0 <= dct (par_s s)) \/
  (v = true /\ dnopadding (par_s s) = false /\ rem = [255; 2]).

Lemma ends_rem s rem sF : sane c o s -> bytes rem -> ends s rem sF -> exists u, rem = u ++ [255; 2] /\ no_marker u.
Proof.
  intros H Hb (E & _). destruct (D_safe c o PC yd (N s) rem (sane_N c o s H) Hb) as (s1 & i1 & E1 & _ & _ & X). rewrite E in E1. injection E1 as <- <-. exact X.
Qed.

(** A call of the inner loop on some of the octets. *)
Lemma call v ydh s data R rem Z sF p i : sane c o s -> bytes data -> bytes R -> bytes rem -> bytes Z -> yd <= ydh -> (v = false -> ydh = yd) ->
  mode v s rem -> (rem = [255; 2] -> v = false \/ dnopadding (par_s s) = true) ->
  ends s rem sF -> data ++ R = rem ++ Z -> D ydh s data = Ok (p, i) ->
  exists rem', i ++ R = rem' ++ Z /\ bytes rem' /\ ends p rem' sF /\ mode v p rem' /\ sane c o p /\
    (i = [] \/ i = [255] \/ exists t, i = 255 :: 2 :: t).
Proof.
  intros H Hd HR Hrem HZ Hy Hv Hmode Hnot He Eq E.
  destruct (D_safe c o PC ydh s data H Hd) as (p' & i' & E' & Hp & Hi & _). rewrite E in E'. injection E' as <- <-.
  pose proof He as (E0 & He1 & He2 & He3 & He4).
  pose proof (app_split _ _ _ _ Eq) as SP.
  assert (EF : forall z, bytes z -> D yd (N s) (rem ++ z) = Ok (sF, [255; 2] ++ z)).
  { intros z Hz. destruct (loop_false c o PC yd _ _ _ _ _ E0 (sane_N c o s H) Hrem eq_refl) as (_ & [(_ & X)|(X & _)]); [|congruence]. apply X, Hz. }
  assert (EFF : D yd (N sF) [255; 2] = Ok (sF, [255; 2])).
  { rewrite (N_id _ He2). apply D_complete; [exact He4|apply bytes_mark|exact He3]. }
  assert (ESF : ends sF [255; 2] sF) by (split; [exact EFF|auto]).
  assert (Hnp : v = false /\ dnopadding (par_s s) = false \/ v = true /\ dnopadding (par_s s) = true /\ 0 <= dct (par_s s)).
  { destruct Hmode as [M|[M|(M1 & M2 & M3)]]; [left; exact M|right; exact M|]. destruct (Hnot M3); congruence. }
  clear Hmode. destruct Hnp as [[Hv0 Hn]|(Hv1 & Hn & Hct)].
  - rewrite (Hv Hv0) in *. rewrite (N_id _ Hn) in *.
    destruct (loop_false c o PC yd _ _ _ _ _ E H Hd Hn) as (Hpn & X). destruct SP as [(b & -> & ->)|(z & -> & ->)].
    + assert (Hb : bytes b) by (apply Forall_app in Hrem; apply Hrem). destruct X as [(X1 & X)|(X1 & X2 & X)]; specialize (X b Hb).
      * rewrite E0 in X. injection X as <- X. exists [255; 2]. split; [rewrite app_assoc, <- X; reflexivity|]. split; [apply bytes_mark|]. split; [exact ESF|].
        split; [left; auto|]. split; [exact Hp|]. destruct i as [|i0 [|i1 i]]; cbn [app] in X.
        { left. reflexivity. }
        { injection X as <- _. right. left. reflexivity. }
        { injection X as <- <- _. right. right. exists i. reflexivity. }
      * exists (i ++ b). split; [apply app_assoc|]. split; [apply bytes_app; assumption|]. split; [split; [rewrite (N_id _ Hpn), <- X; exact E0|auto]|]. split; [left; auto|]. split; [exact Hp|].
        destruct X2 as [-> | ->]; auto.
    + assert (Hz : bytes z) by (apply Forall_app in Hd; apply Hd). rewrite (EF z Hz) in E. injection E as <- <-. exists [255; 2]. split; [symmetry; apply (app_assoc [255; 2] z R)|].
      split; [apply bytes_mark|]. split; [exact ESF|]. split; [left; auto|]. split; [exact Hp|]. right. right. exists z. reflexivity.
  - destruct (loop_true c o PC yd ydh _ Hy _ _ _ _ E H Hd Hn Hct) as [(sX & iX & X1 & X)|[(X1 & X2 & X3 & X)|(X1 & X2 & (m & tl & -> & Hm) & X)]].
    + exfalso. destruct SP as [(b & -> & ->)|(z & -> & ->)].
      * assert (Hb : bytes b) by (apply Forall_app in Hrem; apply Hrem). specialize (X b Hb). rewrite E0 in X. injection X as <- _. lia.
      * assert (Hz : bytes z) by (apply Forall_app in Hd; apply Hd). specialize (X [] ltac:(constructor)). rewrite app_nil_r, (EF z Hz) in X. injection X as <- _. lia.
    + destruct SP as [(b & -> & ->)|(z & -> & ->)].
      * assert (Hb : bytes b) by (apply Forall_app in Hrem; apply Hrem). specialize (X b Hb). exists (i ++ b). split; [apply app_assoc|]. split; [apply bytes_app; assumption|].
        split; [split; [rewrite <- X; exact E0|auto]|]. split; [right; left; auto|]. split; [exact Hp|]. destruct X3 as [-> | ->]; auto.
      * exfalso. assert (Hz : bytes z) by (apply Forall_app in Hd; apply Hd). specialize (X [] ltac:(constructor)). rewrite !app_nil_r, (EF z Hz) in X. symmetry in X.
        destruct (D_safe c o PC yd (N p) i (sane_N c o p Hp) Hi) as (s2 & i2 & E2 & _ & _ & (u & Eu & _)). rewrite X in E2. injection E2 as <- <-.
        apply (f_equal (@length Z)) in Eu. rewrite !app_length in Eu. cbn [length] in Eu. destruct X3 as [-> | ->]; cbn [length] in Eu; lia.
    + destruct SP as [(b & -> & ->)|(z & -> & ->)].
      * assert (Hb : bytes b) by (apply Forall_app in Hrem; apply Hrem). specialize (X b Hb). rewrite E0 in X. symmetry in X.
        destruct (D_safe c o PC yd p ((ESC :: m :: tl) ++ b) Hp (bytes_app _ _ Hi Hb)) as (s2 & i2 & E2 & _ & _ & (u & Eu & Hu)). rewrite X in E2. injection E2 as <- <-.
        destruct (rem_head _ _ _ Eu Hu eq_refl) as [(E3 & ->)|(t' & E3)]; [|injection E3 as E3 _; lia]. cbn [app] in E3. injection E3 as -> E3. apply app_eq_nil in E3 as [-> ->].
        exists [255; 2]. split; [reflexivity|]. split; [apply bytes_mark|]. split; [split; [rewrite (N_id _ X1); exact X|auto]|]. split; [right; right; auto|]. split; [exact Hp|].
        right. right. exists []. reflexivity.
      * assert (Hz : bytes z) by (apply Forall_app in Hd; apply Hd). specialize (X [] ltac:(constructor)). rewrite !app_nil_r, (EF z Hz) in X. symmetry in X.
        destruct (D_safe c o PC yd p (ESC :: m :: tl) Hp Hi) as (s2 & i2 & E2 & _ & _ & (u & Eu & Hu)). rewrite X in E2. injection E2 as <- <-.
        assert (u = []) as ->.
        { destruct u as [|y u]; [reflexivity|exfalso]. injection Eu as <- Eu. destruct Hu as [Hu _]. destruct (Hu eq_refl) as [t' ->]. injection Eu as -> _. lia. }
        cbn [app] in Eu. injection Eu as -> ->. exists [255; 2]. split; [reflexivity|]. split; [apply bytes_mark|].
        split; [split; [|auto]|]. { rewrite (N_id _ X1). refine (D_cut p [255; 2] z sF Hp bytes_mark Hz X1 X). }
        split; [right; right; auto|]. split; [exact Hp|]. right. right. exists z. reflexivity.
Qed.
End GOOD.
