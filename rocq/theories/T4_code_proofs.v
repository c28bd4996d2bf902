(** Code words of the fax decompressor: table lookups, absence of false EOLs, run length codes. *)
From Coq Require Import ZifyBool ZifyNat.
From Verif Require Import Base Bits T4_tables T4_enc_model T4_dec_model T4_spec T4_runs_proofs T4_bits_proofs T4_step_proofs.

(** ---- table lookup, one bit at a time ---- *)
Inductive tree := Leaf (e : te) | Node (f t : tree) | Bad.
Fixpoint evens (l : list te) : list te := match l with a :: _ :: t => a :: evens t | _ => l end.
Fixpoint odds (l : list te) : list te := match l with _ :: b :: t => b :: odds t | _ => [] end.
Fixpoint build (n : nat) (l : list te) : tree :=
  match n with
  | O => match l with e :: _ => Leaf e | [] => Bad end
  | S k => Node (build k (evens l)) (build k (odds l))
  end.
Fixpoint walk (t : tree) (l : list bool) {struct l} : tree :=
  match l with [] => t | b :: l' => match t with Node f u => walk (if b then u else f) l' | _ => Bad end end.
Definition st_eqb (a b : tst) : bool :=
  match a, b with
  | S_Null, S_Null | S_Pass, S_Pass | S_Horiz, S_Horiz | S_Vert, S_Vert | S_Ext, S_Ext | S_TermW, S_TermW | S_TermB, S_TermB
  | S_MakeUpW, S_MakeUpW | S_MakeUpB, S_MakeUpB | S_MakeUp, S_MakeUp | S_EOL, S_EOL => true | _, _ => false end.
Lemma st_eqb_ok a b : st_eqb a b = true -> a = b. Proof. destruct a, b; intros; auto; discriminate. Qed.
Definition te_eqb (a b : te) : bool := st_eqb (te_st a) (te_st b) && (te_width a =? te_width b) && (te_param a =? te_param b).
Lemma te_eqb_ok a b : te_eqb a b = true -> a = b.
Proof. unfold te_eqb. destruct a as [s1 w1 p1], b as [s2 w2 p2]. cbn [te_st te_width te_param]. rewrite !andb_true_iff. intros [[A B] C]. apply st_eqb_ok in A. f_equal; [auto|lia|lia]. Qed.
Fixpoint all_leaves (e : te) (t : tree) : bool :=
  match t with Leaf x => te_eqb e x | Node f u => all_leaves e f && all_leaves e u | Bad => false end.

Lemma evens_nth n : forall l i, length l = (2 * n)%nat -> nth_error (evens l) i = nth_error l (2 * i).
Proof.
  induction n as [|n IH]; intros l i H.
  - destruct l; [|cbn [length] in H; lia]. cbn [evens]. destruct i; [reflexivity|]. cbn [Nat.mul Nat.add]. reflexivity.
  - destruct l as [|a [|b l]]; cbn [length] in H; try lia. cbn [evens]. destruct i; [reflexivity|].
    cbn [nth_error]. rewrite IH by lia. replace (2 * S i)%nat with (S (S (2 * i))) by lia. reflexivity.
Qed.
Lemma odds_nth n : forall l i, length l = (2 * n)%nat -> nth_error (odds l) i = nth_error l (2 * i + 1).
Proof.
  induction n as [|n IH]; intros l i H.
  - destruct l; [|cbn [length] in H; lia]. cbn [odds]. replace (2 * i + 1)%nat with (S (2 * i)) by lia. destruct i; reflexivity.
  - destruct l as [|a [|b l]]; cbn [length] in H; try lia. cbn [odds]. destruct i; [reflexivity|].
    cbn [nth_error]. rewrite IH by lia. replace (2 * S i + 1)%nat with (S (S (2 * i + 1))) by lia. reflexivity.
Qed.
Lemma evens_odds_length n : forall l, length l = (2 * n)%nat -> length (evens l) = n /\ length (odds l) = n.
Proof.
  induction n as [|n IH]; intros l H.
  - destruct l; [|cbn [length] in H; lia]. auto.
  - destruct l as [|a [|b l]]; cbn [length] in H; try lia. cbn [evens odds length]. destruct (IH l); lia.
Qed.
Lemma build_walk n : forall tab l, length tab = (2 ^ n)%nat -> length l = n ->
  exists e, walk (build n tab) l = Leaf e /\ nth_error tab (Z.to_nat (of_bits_lsb l)) = Some e.
Proof.
  induction n as [|n IH]; intros tab l Ht Hl.
  - destruct l; [|cbn [length] in Hl; lia]. destruct tab as [|e [|? ?]]; cbn [length Nat.pow] in Ht; try lia. exists e. auto.
  - destruct l as [|b l]; cbn [length] in Hl; [lia|]. cbn [Nat.pow] in Ht. cbn [build walk].
    assert (Ht2 : length tab = (2 * 2 ^ n)%nat) by lia. destruct (evens_odds_length _ _ Ht2) as [He Ho].
    pose proof (of_bits_lsb_range l) as Hr. destruct b.
    + destruct (IH (odds tab) l Ho ltac:(lia)) as (e & P & Q). exists e. split; auto. rewrite (odds_nth (2 ^ n)) in Q by auto.
      rewrite <- Q. f_equal. cbn [of_bits_lsb Z.b2z]. lia.
    + destruct (IH (evens tab) l He ltac:(lia)) as (e & P & Q). exists e. split; auto. rewrite (evens_nth (2 ^ n)) in Q by auto.
      rewrite <- Q. f_equal. cbn [of_bits_lsb Z.b2z]. lia.
Qed.
Lemma walk_app t a b : walk t (a ++ b) = walk (walk t a) b.
Proof.
  revert t; induction a as [|x a IH]; intros t; [reflexivity|]. cbn [app walk]. destruct t; [destruct b; auto|apply IH|destruct b; auto].
Qed.
Lemma all_leaves_walk e : forall l t x, all_leaves e t = true -> walk t l = Leaf x -> x = e.
Proof.
  induction l as [|b l IH]; intros t x Ha Hw; cbn [walk] in Hw.
  - subst t. cbn [all_leaves] in Ha. symmetry. apply te_eqb_ok; auto.
  - destruct t; try discriminate. cbn [all_leaves] in Ha. apply andb_true_iff in Ha as [Hf Ht].
    destruct b; [exact (IH _ x Ht Hw)|exact (IH _ x Hf Hw)].
Qed.
Lemma lookup n tab c e l : length tab = (2 ^ n)%nat -> all_leaves e (walk (build n tab) c) = true -> (length c <= n)%nat ->
  (n <= length (c ++ l))%nat -> (n <= 13)%nat -> tget tab (Z.land (win (c ++ l)) (Z.ones (Z.of_nat n))) = Ok e.
Proof.
  intros Ht Ha Hc Hl Hn. assert (Hp : 2 ^ Z.of_nat n <= 2 ^ 13) by (apply Z.pow_le_mono_r; lia). pose proof (p2_pos n) as Hp0. change (2 ^ 13) with 8192 in Hp.
  rewrite <- win_land by (rewrite Z.ones_equiv; lia).
  rewrite Z.land_ones by lia. rewrite <- of_bits_firstn.
  pose proof (of_bits_lsb_range (firstn n (c ++ l))) as Hr. unfold tget. destruct (Z.ltb_spec (of_bits_lsb (firstn n (c ++ l))) 0); [lia|].
  destruct (build_walk n tab (firstn n (c ++ l)) Ht ltac:(rewrite firstn_length; lia)) as (x & P & Q). rewrite Q. f_equal.
  rewrite firstn_app, walk_app in P. rewrite (firstn_all2 c) in P by auto. eapply all_leaves_walk; eauto.
Qed.

Definition white_tree := Eval vm_compute in build 12 t4_1d_white_table.
Definition black_tree := Eval vm_compute in build 13 t4_1d_black_table.
Definition mode_tree := Eval vm_compute in build 7 t4_2d_table.
Lemma white_tree_ok : build 12 t4_1d_white_table = white_tree. Proof. vm_compute. reflexivity. Qed.
Lemma black_tree_ok : build 13 t4_1d_black_table = black_tree. Proof. vm_compute. reflexivity. Qed.
Lemma mode_tree_ok : build 7 t4_2d_table = mode_tree. Proof. vm_compute. reflexivity. Qed.

(** ---- no false EOLs ---- *)
Lemma lz_split l : (lz l < length l)%nat -> l = repeat false (lz l) ++ true :: skipn (S (lz l)) l.
Proof. induction l as [|[] l IH]; cbn [lz length]; intros H; [lia|reflexivity|]. cbn [repeat app skipn]. f_equal. apply IH. lia. Qed.
Definition eol12 : list bool := repeat false 11 ++ [true].
Lemma is_eol_lz l : (12 <= length l)%nat -> is_eol (win l) = true <-> lz l = 11%nat.
Proof.
  intros Hl. unfold is_eol. rewrite <- win_land by lia. change 0xFFF with (Z.ones 12). rewrite Z.land_ones by lia.
  change 12 with (Z.of_nat 12). rewrite <- of_bits_firstn. rewrite Z.eqb_eq. split; intros H.
  - assert (E12 : firstn 12 l = eol12).
    { rewrite <- (bits_lsb_of_bits (firstn 12 l)). rewrite firstn_length_le by lia. rewrite H. reflexivity. }
    rewrite <- (firstn_skipn 12 l), E12. reflexivity.
  - assert (lz l < length l)%nat as Hlt by lia. apply lz_split in Hlt. rewrite H in Hlt. rewrite Hlt. reflexivity.
Qed.
Definition Gap (l : list bool) : Prop := (lz l <= 7 \/ 11 <= lz l)%nat.
Definition suf_ok (s : list bool) : bool := if (lz s <? length s)%nat then (lz s <=? 10)%nat else (length s <=? 3)%nat.
Fixpoint okcode (c : list bool) : bool := match c with [] => true | _ :: t => suf_ok c && okcode t end.
Definition headok (c : list bool) : bool := (lz c <? length c)%nat && (lz c <=? 7)%nat.
Lemma suf_not_eol s rest : s <> [] -> suf_ok s = true -> Gap rest -> (12 <= length rest)%nat -> is_eol (win (s ++ rest)) = false.
Proof.
  intros Hs Ho Hg Hr. destruct (is_eol (win (s ++ rest))) eqn:Ee; auto. exfalso.
  apply is_eol_lz in Ee; [|rewrite app_length; lia]. unfold suf_ok in Ho. pose proof (lz_le s).
  destruct (Nat.ltb_spec (lz s) (length s)).
  - rewrite lz_app_lt in Ee by auto. lia.
  - rewrite lz_app_full in Ee by lia. destruct s; [congruence|]. cbn [length] in *. destruct Hg; lia.
Qed.
Lemma gap_app c rest : headok c = true -> Gap (c ++ rest).
Proof. unfold headok. intros H. left. rewrite lz_app_lt; lia. Qed.

Lemma c_set_id C k : c_skip C = k -> c_set C (c_eols C) (c_row C) (c_img C) k = C.
Proof. intros <-. destruct C; reflexivity. Qed.
Lemma skip_steps s : forall C rest, 0 <= c_eols C -> c_skip C = Z.of_nat (length s) -> okcode s = true -> Gap rest -> (12 <= length rest)%nat ->
  csteps C (s ++ rest) (c_set C (c_eols C) (c_row C) (c_img C) 0) rest.
Proof.
  induction s as [|b s IH]; intros C rest He Hk Ho Hg Hr.
  - cbn [app]. rewrite c_set_id by exact Hk. constructor.
  - cbn [okcode] in Ho. apply andb_true_iff in Ho as [Ho Ho'].
    eapply cs_step with (n := 1%nat); [rewrite app_length; cbn [length]; lia| |].
    + unfold cstep. destruct (Z.ltb_spec (c_eols C) 0); [lia|]. rewrite suf_not_eol by (auto; congruence).
      destruct (Z.eqb_spec (c_skip C) 0) as [E0|E0]; [rewrite Hk in E0; cbn [length] in E0; lia|]. cbn [negb]. reflexivity.
    + cbn [app skipn]. specialize (IH (c_set C (c_eols C) (c_row C) (c_img C) (c_skip C - 1)) rest).
      cbn [c_set c_enc c_w c_eols c_row c_img c_skip] in IH. apply IH; auto. rewrite Hk. cbn [length]. lia.
Qed.
Lemma consume C c rest r : 0 <= c_eols C -> c_skip C = 0 -> c <> [] -> okcode c = true -> Gap rest -> (12 <= length rest)%nat ->
  core_code C (win (c ++ rest)) = Ok (r, Z.of_nat (length c)) -> c_skip r = 0 -> c_eols r = c_eols C -> csteps C (c ++ rest) r rest.
Proof.
  intros He Hk Hc Ho Hg Hr Hcode Hk' He'. destruct c as [|b c]; [congruence|].
  pose proof Ho as Ho2. cbn [okcode] in Ho2. apply andb_true_iff in Ho2 as [Ho1 Ho2].
  eapply cs_step with (n := 1%nat); [rewrite app_length; cbn [length]; lia| |].
  - unfold cstep. destruct (Z.ltb_spec (c_eols C) 0); [lia|]. rewrite suf_not_eol by (auto; congruence).
    rewrite Hk. cbn [Z.eqb negb]. rewrite Hcode. cbn [rbind]. reflexivity.
  - cbn [app skipn]. eapply csteps_trans; [apply skip_steps; auto|].
    + cbn [c_set c_eols]. lia.
    + cbn [c_set c_skip]. rewrite Hk'. cbn [length]. lia.
    + replace (c_set _ _ _ _ 0) with r; [constructor|]. symmetry. exact (c_set_id r 0 Hk').
Qed.

(** ---- the codes ---- *)
Definition code_ok (n : nat) (tr : tree) (e : te) (c : list bool) : bool :=
  negb (length c =? 0)%nat && okcode c && headok c && (length c <=? n)%nat && (te_width e =? Z.of_nat (length c)) && all_leaves e (walk tr c).
Definition run_codes_ok (n : nat) (tr : tree) (term mk : tst) (tab : list rte) : bool :=
  forallb (fun i => let e := nth i tab (R 0 0 0) in code_ok n tr (E term (rt_len e) (rt_run e)) (cbits e)) (seq 0 64)
  && forallb (fun i => let e := nth i tab (R 0 0 0) in code_ok n tr (E mk (rt_len e) (rt_run e)) (cbits e)) (seq 64 27)
  && forallb (fun i => let e := nth i tab (R 0 0 0) in code_ok n tr (E S_MakeUp (rt_len e) (rt_run e)) (cbits e)) (seq 91 13).
Lemma white_codes_ok : run_codes_ok 12 white_tree S_TermW S_MakeUpW t4_white_codes = true. Proof. vm_compute. reflexivity. Qed.
Lemma black_codes_ok : run_codes_ok 13 black_tree S_TermB S_MakeUpB t4_black_codes = true. Proof. vm_compute. reflexivity. Qed.
Definition mode_entry (k : nat) : te :=
  match k with
  | 7%nat => E S_Horiz 3 0 | 8%nat => E S_Pass 4 0
  | _ => E S_Vert (rt_len (nth k t4_2d_codes (R 0 0 0))) (3 - Z.of_nat k)
  end.
Lemma mode_codes_ok : forallb (fun k => code_ok 7 mode_tree (mode_entry k) (cbits (nth k t4_2d_codes (R 0 0 0)))) (seq 0 9) = true.
Proof. vm_compute. reflexivity. Qed.
