(** The V.42bis output side: octets and codewords reach the handler in order. *)
From Verif Require Import Base Bits V42bis_model.
From Coq Require Import ZifyBool ZifyNat.
Ltac Zify.zify_post_hook ::= Z.div_mod_to_equations.

(** Everything pushed so far: what the handler has been given, and what is waiting. *)
Definition ostream (o : outbuf) : list Z := concat (o_log o) ++ firstn (Z.to_nat (o_cnt o)) (o_buf o).
Record OB (o : outbuf) : Prop := {
  ob_max : 1 <= o_max o <= 1024;
  ob_len : length (o_buf o) = Z.to_nat 1024;
  ob_cnt : 0 <= o_cnt o < o_max o;
  ob_log : Forall (fun m => 1 <= Z.of_nat (length m) <= o_max o) (o_log o)
}.
Lemma ob_zlen o : OB o -> Z.of_nat (length (o_buf o)) = 1024.
Proof. intros H. rewrite (ob_len _ H). apply Z2Nat.id. lia. Qed.

Lemma firstn_upd_next (l : list Z) n x : (n < length l)%nat -> firstn (S n) (upd l n x) = firstn n l ++ [x].
Proof.
  revert n; induction l as [|a l IH]; intros [|n] H; cbn [length] in H; try lia; [reflexivity|].
  cbn [upd app]. rewrite !firstn_cons. cbn [app]. f_equal. apply IH. lia.
Qed.
Lemma call_handler_ok o n : 0 < n <= Z.of_nat (length (o_buf o)) ->
  call_handler o n = Ok (mkOut (o_max o) (o_buf o) 0 (o_log o ++ [firstn (Z.to_nat n) (o_buf o)])).
Proof.
  intros H. unfold call_handler, aslice. destruct (Z.leb_spec n 0); [lia|].
  replace ((0 <=? 0) && (0 + n <=? Z.of_nat (length (o_buf o)))) with true by lia. reflexivity.
Qed.

Lemma push_octet_ok o x : OB o -> exists o', push_octet o x = Ok o' /\ OB o' /\ o_max o' = o_max o /\
  ostream o' = ostream o ++ [u8 x].
Proof.
  intros B. pose proof (ob_zlen _ B) as LZ. pose proof (ob_max _ B). pose proof (ob_cnt _ B).
  unfold push_octet, aset, in_bounds.
  replace ((0 <=? o_cnt o) && (o_cnt o <? Z.of_nat (length (o_buf o)))) with true by lia. cbn [rbind o_max o_cnt].
  assert (E : firstn (Z.to_nat (o_cnt o + 1)) (upd (o_buf o) (Z.to_nat (o_cnt o)) (u8 x)) =
              firstn (Z.to_nat (o_cnt o)) (o_buf o) ++ [u8 x]).
  { replace (Z.to_nat (o_cnt o + 1)) with (S (Z.to_nat (o_cnt o))) by lia. apply firstn_upd_next. lia. }
  destruct (Z.leb_spec (o_max o) (o_cnt o + 1)) as [L|L].
  - rewrite call_handler_ok by (cbn [o_buf]; rewrite upd_length; lia). cbn [o_max o_buf o_log].
    eexists. split; [reflexivity|]. split; [|split; [reflexivity|]].
    + constructor; cbn [o_max o_buf o_cnt o_log]; try lia.
      * rewrite upd_length. apply B.
      * apply Forall_app. split; [apply B|]. constructor; [|constructor]. rewrite E, app_length, firstn_length. cbn [length]. lia.
    + unfold ostream. cbn [o_log o_cnt o_buf]. rewrite concat_app. cbn [concat Z.to_nat firstn]. rewrite E, !app_nil_r, app_assoc. reflexivity.
  - eexists. split; [reflexivity|]. split; [|split; [reflexivity|]].
    + constructor; cbn [o_max o_buf o_cnt o_log]; try lia; [rewrite upd_length|]; apply B.
    + unfold ostream. cbn [o_log o_cnt o_buf]. rewrite E, app_assoc. reflexivity.
Qed.

Lemma ablit_ok l off src : 0 <= off -> off + Z.of_nat (length src) <= Z.of_nat (length l) ->
  ablit l off src = Ok (firstn (Z.to_nat off) l ++ src ++ skipn (Z.to_nat off + length src) l).
Proof.
  intros A B. destruct src as [|x src].
  - cbn [ablit app length]. rewrite Nat.add_0_r, firstn_skipn. reflexivity.
  - unfold ablit. replace ((0 <=? off) && (off + Z.of_nat (length (x :: src)) <=? Z.of_nat (length l))) with true by lia. reflexivity.
Qed.
Lemma firstn_blit (l src : list Z) n : (n + length src <= length l)%nat ->
  firstn (n + length src) (firstn n l ++ src ++ skipn (n + length src) l) = firstn n l ++ src.
Proof.
  intros H. rewrite app_assoc, firstn_app. replace (n + length src - length (firstn n l ++ src))%nat with 0%nat
    by (rewrite app_length, firstn_length; lia).
  cbn [firstn]. rewrite app_nil_r. apply firstn_all2. rewrite app_length, firstn_length. lia.
Qed.
Lemma blit_len (l src : list Z) n : (n + length src <= length l)%nat ->
  length (firstn n l ++ src ++ skipn (n + length src) l) = length l.
Proof. intros H. rewrite !app_length, firstn_length, skipn_length. lia. Qed.

Lemma push_loop_ok fuel : forall o buf, OB o -> (length buf < fuel)%nat ->
  exists o', push_octets_loop fuel o buf = Ok o' /\ OB o' /\ o_max o' = o_max o /\ ostream o' = ostream o ++ buf.
Proof.
  induction fuel as [|fuel IH]; intros o buf B L; [lia|].
  pose proof (ob_zlen _ B) as LZ. pose proof (ob_max _ B). pose proof (ob_cnt _ B). cbn [push_octets_loop].
  destruct (Z.leb_spec (o_max o) (o_cnt o + Z.of_nat (length buf))) as [C|C].
  - set (chunk := o_max o - o_cnt o). unfold aslice. destruct (Z.leb_spec chunk 0); [lia|].
    replace ((0 <=? 0) && (0 + chunk <=? Z.of_nat (length buf))) with true by lia. cbn [rbind].
    change (Z.to_nat 0) with 0%nat. cbn [skipn].
    assert (LC : length (firstn (Z.to_nat chunk) buf) = Z.to_nat chunk) by (rewrite firstn_length; lia).
    rewrite ablit_ok by lia. cbn [rbind]. set (b := firstn _ (o_buf o) ++ _).
    assert (EB : firstn (Z.to_nat (o_max o)) b = firstn (Z.to_nat (o_cnt o)) (o_buf o) ++ firstn (Z.to_nat chunk) buf).
    { unfold b. replace (Z.to_nat (o_max o)) with (Z.to_nat (o_cnt o) + length (firstn (Z.to_nat chunk) buf))%nat by lia.
      apply firstn_blit. lia. }
    assert (LB : length b = length (o_buf o)) by (apply blit_len; lia).
    rewrite call_handler_ok by (cbn [o_buf]; lia). cbn [rbind o_max o_buf o_log].
    set (o1 := mkOut _ _ _ _).
    destruct (IH o1 (skipn (Z.to_nat chunk) buf)) as (o' & -> & B' & M' & S').
    + constructor; unfold o1; cbn [o_max o_buf o_cnt o_log]; [lia|rewrite LB; apply B|lia|].
      apply Forall_app. split; [apply B|]. constructor; [|constructor]. rewrite EB, app_length, firstn_length. lia.
    + rewrite skipn_length. lia.
    + exists o'. split; [reflexivity|]. split; [auto|]. split; [exact M'|]. rewrite S'.
      unfold ostream, o1. cbn [o_log o_cnt o_buf]. rewrite concat_app. cbn [concat Z.to_nat firstn].
      rewrite EB, !app_nil_r, <- !app_assoc, firstn_skipn. reflexivity.
  - rewrite ablit_ok by lia. cbn [rbind]. set (b := firstn _ (o_buf o) ++ _).
    eexists. split; [reflexivity|]. split; [|split; [reflexivity|]].
    + constructor; cbn [o_max o_buf o_cnt o_log]; [lia| |lia|apply B]. unfold b. rewrite blit_len by lia. apply B.
    + unfold ostream. cbn [o_log o_cnt o_buf]. rewrite <- app_assoc. f_equal.
      replace (Z.to_nat (o_cnt o + Z.of_nat (length buf))) with (Z.to_nat (o_cnt o) + length buf)%nat by lia.
      apply firstn_blit. lia.
Qed.
Lemma push_octets_ok o buf : OB o ->
  exists o', push_octets o buf = Ok o' /\ OB o' /\ o_max o' = o_max o /\ ostream o' = ostream o ++ buf.
Proof. intros B. apply push_loop_ok; auto; lia. Qed.

Lemma flush_octets_ok o : OB o ->
  exists o', flush_octets o = Ok o' /\ OB o' /\ o_max o' = o_max o /\ ostream o' = ostream o /\ concat (o_log o') = ostream o.
Proof.
  intros B. pose proof (ob_zlen _ B) as LZ. pose proof (ob_max _ B). pose proof (ob_cnt _ B). unfold flush_octets.
  destruct (Z.ltb_spec 0 (o_cnt o)).
  - rewrite call_handler_ok by lia. eexists. split; [reflexivity|].
    assert (E : concat (o_log o ++ [firstn (Z.to_nat (o_cnt o)) (o_buf o)]) = ostream o).
    { rewrite concat_app. cbn [concat]. rewrite app_nil_r. reflexivity. }
    split; [|split; [reflexivity|split; [|exact E]]].
    + constructor; cbn [o_max o_buf o_cnt o_log]; [lia|apply B|lia|]. apply Forall_app. split; [apply B|].
      constructor; [|constructor]. rewrite firstn_length. lia.
    + unfold ostream at 1. cbn [o_log o_cnt o_buf Z.to_nat firstn]. rewrite app_nil_r. exact E.
  - exists o. repeat split; auto; try apply B. unfold ostream. replace (o_cnt o) with 0 by lia. cbn [Z.to_nat firstn].
    rewrite app_nil_r. reflexivity.
Qed.

(** ---- bits ---- *)
Lemma unpack_app a b : unpack_lsb (a ++ b) = unpack_lsb a ++ unpack_lsb b.
Proof. unfold unpack_lsb. apply flat_map_app. Qed.
Lemma bits_split n m x : bits_lsb (n + m) x = bits_lsb n x ++ bits_lsb m (x / 2 ^ Z.of_nat n).
Proof.
  revert x; induction n as [|n IH]; intros x; cbn [Nat.add bits_lsb app].
  - change (2 ^ Z.of_nat 0) with 1. rewrite Z.div_1_r. reflexivity.
  - f_equal. rewrite IH. do 2 f_equal. rewrite Nat2Z.inj_succ, Z.pow_succ_r, Z.div2_div, Z.div_div by lia. reflexivity.
Qed.
(** Bits of a value made of a low part and a high part. *)
Lemma bits_join n m a b : 0 <= a < 2 ^ Z.of_nat n -> bits_lsb (n + m) (a + b * 2 ^ Z.of_nat n) = bits_lsb n a ++ bits_lsb m b.
Proof.
  intros A. rewrite bits_split. f_equal.
  - rewrite <- bits_lsb_mod, Z.mod_add by lia. rewrite Z.mod_small by lia. reflexivity.
  - f_equal. rewrite Z.div_add by lia. rewrite Z.div_small by lia. reflexivity.
Qed.
Lemma bits_zero n : bits_lsb n 0 = repeat false n.
Proof. induction n as [|n IH]; [reflexivity|]. cbn [bits_lsb repeat]. f_equal. exact IH. Qed.

Definition sbits (s : comp) : list bool := unpack_lsb (ostream (k_out s)) ++ bits_lsb (Z.to_nat (k_bc s)) (k_bb s).
Record EB (s : comp) : Prop := {
  eb_out : OB (k_out s);
  eb_bc : 0 <= k_bc s < 8;
  eb_bb : 0 <= k_bb s < 2 ^ k_bc s
}.
Lemma push_bits_ok fuel : forall o bb bc, OB o -> 0 <= bc -> 0 <= bb < 2 ^ bc -> bc <= Z.of_nat fuel ->
  exists o' bb' bc', push_bits_loop fuel o bb bc = Ok (o', bb', bc') /\ OB o' /\ o_max o' = o_max o /\
    bc' = bc mod 8 /\ 0 <= bb' < 2 ^ bc' /\
    unpack_lsb (ostream o') ++ bits_lsb (Z.to_nat bc') bb' = unpack_lsb (ostream o) ++ bits_lsb (Z.to_nat bc) bb.
Proof.
  induction fuel as [|fuel IH]; intros o bb bc B C V F.
  - replace bc with 0 in * by lia. cbn. do 3 eexists. split; [reflexivity|]. repeat split; auto; try apply B; lia.
  - cbn [push_bits_loop]. destruct (Z.leb_spec 8 bc) as [L|L].
    + destruct (push_octet_ok o (Z.land bb 0xFF) B) as (o1 & -> & B1 & M1 & S1). cbn [rbind].
      rewrite Z.shiftr_div_pow2 by lia.
      assert (P : 2 ^ bc = 2 ^ (bc - 8) * 2 ^ 8) by (rewrite <- Z.pow_add_r by lia; f_equal; lia).
      assert (V1 : 0 <= bb / 2 ^ 8 < 2 ^ (bc - 8)) by (split; [apply Z.div_pos; lia|apply Z.div_lt_upper_bound; lia]).
      destruct (IH o1 (bb / 2 ^ 8) (bc - 8) B1 ltac:(lia) V1 ltac:(lia)) as (o' & bb' & bc' & -> & B' & M' & C' & V' & S').
      do 3 eexists. split; [reflexivity|]. split; [auto|]. split; [congruence|]. split.
      { rewrite C'. clear. lia. }
      split; [auto|]. rewrite S', S1, unpack_app, <- app_assoc. f_equal.
      replace (Z.to_nat bc) with (8 + Z.to_nat (bc - 8))%nat by lia. rewrite bits_split. f_equal.
      unfold unpack_lsb. cbn [flat_map]. rewrite app_nil_r. rewrite land_ff_mod. unfold u8. rewrite Z.mod_mod by lia.
      apply (bits_lsb_mod 8 bb).
    + do 3 eexists. split; [reflexivity|]. split; [auto|]. split; [auto|]. rewrite Z.mod_small by lia. auto.
Qed.

(** What push_compressed_code and push_octet_alignment change. *)
Definition same_but_bits (s s' : comp) : Prop :=
  exists o bb bc, s' = set_bc (set_bb (set_out s o) bb) bc /\ o_max o = o_max (k_out s).
Lemma push_code_ok s code : EB s -> 9 <= k_c2 s <= 16 -> 0 <= code < 2 ^ k_c2 s ->
  exists s', push_compressed_code s code = Ok s' /\ EB s' /\ same_but_bits s s' /\
    k_bc s' = (k_bc s + k_c2 s) mod 8 /\ sbits s' = sbits s ++ bits_lsb (Z.to_nat (k_c2 s)) code.
Proof.
  intros [B C V] C2 CD. unfold push_compressed_code.
  assert (SH : Z.shiftl code (k_bc s) = code * 2 ^ k_bc s) by (apply Z.shiftl_mul_pow2; lia).
  assert (P7 : 1 <= 2 ^ k_bc s <= 2 ^ 7) by (split; [change 1 with (2 ^ 0)|]; apply Z.pow_le_mono_r; lia).
  assert (P16 : 2 ^ k_c2 s <= 2 ^ 16) by (apply Z.pow_le_mono_r; lia).
  assert (SB : Z.shiftl code (k_bc s) < 2147483648) by (rewrite SH; nia).
  replace ((0 <=? k_bc s) && (k_bc s <? 31) && (Z.shiftl code (k_bc s) <? 2147483648)) with true by lia.
  rewrite SH, lor_disj by lia.
  assert (PA : 2 ^ (k_bc s + k_c2 s) = 2 ^ k_bc s * 2 ^ k_c2 s) by (apply Z.pow_add_r; lia).
  destruct (push_bits_ok (Z.to_nat (k_bc s + k_c2 s)) (k_out s) (k_bb s + code * 2 ^ k_bc s) (k_bc s + k_c2 s))
    as (o' & bb' & bc' & -> & B' & M' & C' & V' & S'); auto; try lia.
  { split; [nia|]. rewrite PA. nia. }
  cbn [rbind]. eexists. split; [reflexivity|]. split; [|split; [|split]].
  - constructor; cbn [k_out k_bc k_bb set_bc set_bb set_out]; auto. rewrite C'. lia.
  - do 3 eexists. split; [reflexivity|auto].
  - exact C'.
  - unfold sbits. cbn [k_out k_bc k_bb set_bc set_bb set_out]. rewrite S', <- app_assoc. f_equal.
    replace (Z.to_nat (k_bc s + k_c2 s)) with (Z.to_nat (k_bc s) + Z.to_nat (k_c2 s))%nat by lia.
    rewrite <- (Z2Nat.id (k_bc s)) at 2 by lia. rewrite bits_join; [reflexivity|]. rewrite Z2Nat.id by lia. auto.
Qed.
Lemma push_align_ok s : EB s ->
  exists s', push_octet_alignment s = Ok s' /\ EB s' /\ same_but_bits s s' /\
    k_bc s' = 0 /\ k_bb s' = 0 /\ sbits s' = sbits s ++ repeat false (Z.to_nat ((- k_bc s) mod 8)).
Proof.
  intros [B C V]. unfold push_octet_alignment. change 7 with (Z.ones 3). rewrite Z.land_ones by lia.
  change (2 ^ 3) with 8. rewrite (Z.mod_small (k_bc s)) by lia.
  destruct (Z.eqb_spec (k_bc s) 0) as [E|N]; cbn [negb].
  - exists s. split; [reflexivity|]. split; [constructor; auto|]. split.
    { exists (k_out s), (k_bb s), (k_bc s). split; auto. destruct s; reflexivity. }
    rewrite E in *. change (2 ^ 0) with 1 in V. split; [auto|]. split; [lia|]. cbn. rewrite app_nil_r. reflexivity.
  - replace (k_bc s + (8 - k_bc s)) with 8 by lia.
    destruct (push_bits_ok (Z.to_nat 8) (k_out s) (k_bb s) 8)
      as (o' & bb' & bc' & -> & B' & M' & C' & V' & S'); auto; try lia.
    { split; [lia|]. apply Z.lt_le_trans with (2 ^ k_bc s); [lia|]. apply Z.pow_le_mono_r; lia. }
    change (8 mod 8) with 0 in C'. subst bc'. change (2 ^ 0) with 1 in V'.
    cbn [rbind]. eexists. split; [reflexivity|]. split; [|split; [|split; [|split]]].
    + constructor; cbn [k_out k_bc k_bb set_bc set_bb set_out]; auto. lia.
    + do 3 eexists. split; [reflexivity|auto].
    + reflexivity.
    + cbn [k_bb set_bc set_bb set_out]. lia.
    + unfold sbits. cbn [k_out k_bc k_bb set_bc set_bb set_out]. rewrite S', <- app_assoc. f_equal.
      replace (Z.to_nat 8) with (Z.to_nat (k_bc s) + Z.to_nat ((- k_bc s) mod 8))%nat by lia.
      rewrite <- bits_zero. replace (k_bb s) with (k_bb s + 0 * 2 ^ Z.of_nat (Z.to_nat (k_bc s))) at 1 by lia.
      rewrite bits_join; [reflexivity|]. rewrite Z2Nat.id by lia. auto.
Qed.
